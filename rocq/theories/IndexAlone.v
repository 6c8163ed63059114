(** * A document without [$import] and [$include] opens no file *)
From Verif Require Import PyBase PyBaseProofs NameProofs ParserModel LoaderModel LoaderProofs VersionModel VersionSpec RefusalProofs IndexModel IndexSpec IndexProofs.

Definition quiet {X} (m : SM X) : Prop := forall L, exists N, snd (m L) = N ++ L /\ alone N.
Lemma alone_nil : alone [].
Proof. intros e []. Qed.
Lemma alone_app M N : alone M -> alone N -> alone (M ++ N).
Proof. intros A B e I. apply in_app_or in I. destruct I; auto. Qed.
Lemma quiet_lift {X} (r : result X) : quiet (lift r).
Proof. intros L. exists []. split; [reflexivity|apply alone_nil]. Qed.
Lemma quiet_bind {X Y} (m : SM X) (f : X -> SM Y) : quiet m -> (forall a, quiet (f a)) -> quiet (sbind m f).
Proof.
  intros H K L. unfold sbind. destruct (H L) as (N & E & A). destruct (m L) as [[a|e] L1]; cbn [snd] in *; subst L1; [|exists N; auto].
  destruct (K a (N ++ L)) as (M & E2 & A2). exists (M ++ N). rewrite <- app_assoc. split; [exact E2|apply alone_app; assumption].
Qed.
Lemma quiet_lbind {X Y} (r : result X) (f : X -> SM Y) : (forall a, r = Ok a -> quiet (f a)) -> quiet (sbind (lift r) f).
Proof. intros K L. unfold sbind, lift. destruct r as [a|e]; [apply K; auto|]. exists []. split; [reflexivity|apply alone_nil]. Qed.
Lemma quiet_noted {X} (m : SM X) : quiet m -> quiet (noted_s m).
Proof. intros H L. unfold noted_s. destruct (H L) as (N & E & A). destruct (m L). exists N. auto. Qed.
Lemma quiet_wrote k v : quiet (note (Wrote k v)).
Proof. intros L. exists [Wrote k v]. split; [reflexivity|]. intros e [<-|[]]. eauto. Qed.
Lemma quiet_elements g fl ds : Forall (fun d => quiet (g d)) ds -> forall fields, quiet (load_elements_s g fl fields ds).
Proof.
  intros F. induction F as [|d ds H F IH]; intros fields; cbn [load_elements_s]; [apply quiet_lift|].
  apply quiet_bind; [apply quiet_noted, H|]. intros lf.
  destruct (match lf with Some _ => _ | None => _ end) as [fields' dup]. apply quiet_bind; [apply IH|]. intros rest. apply quiet_lift.
Qed.
Lemma quiet_values g d : Forall (fun kv => quiet (g (snd kv))) d -> quiet (load_values_s g d).
Proof.
  intros F. induction F as [|[k v] ds H F IH]; cbn [load_values_s]; [apply quiet_lift|].
  apply quiet_bind; [apply quiet_noted, H|]. intros lf. apply quiet_bind; [apply IH|]. intros rest. apply quiet_lift.
Qed.
Lemma quiet_first {X} (ls : list X) g : Forall (fun x => quiet (g x)) ls -> quiet (first_of_s (map (fun x (_ : unit) => g x) ls)).
Proof.
  intros F. induction F as [|x ls H F IH]; [apply quiet_lift|]. intros L. cbn [map first_of_s]. destruct (H L) as (N & E & A).
  destruct (g x L) as [r L1]; cbn [snd] in *; subst L1.
  assert (X0 : exists N0, N ++ L = N0 ++ L /\ alone N0) by (exists N; auto).
  destruct r as [|[]]; try exact X0. destruct (IH (N ++ L)) as (M & E2 & A2). exists (M ++ N). rewrite <- app_assoc. split; [exact E2|apply alone_app; assumption].
Qed.

Section Alone.
Variables (urljoin : string -> string -> result string) (supported_schemes : list string) (check_exists : string -> result bool)
  (fetch_text : string -> result string) (read_yaml : string -> result json) (uuid : json -> string)
  (classes : string -> option class) (proxies : string -> option loader).
Variables (known proxied : string -> bool).
Hypothesis known_class : forall c, known c = true -> exists k, classes c = Some k /\ sound_class known proxied k = true.
Hypothesis known_proxy : forall n, proxied n = true -> exists l, proxies n = Some l /\ sound known proxied l = true.
Variable c : bool.
Notation load := (IndexModel.load_s urljoin supported_schemes check_exists fetch_text read_yaml uuid classes proxies c).
Notation document_load := (IndexModel.document_load_s urljoin supported_schemes check_exists fetch_text read_yaml uuid classes proxies c).

Lemma sc_resolve_list r1 r ds : (forall s j, r1 s = Ok j -> self_contained j) -> Forall self_contained r -> Forall self_contained ds ->
  forall x, resolve_list r1 r ds = Ok x -> Forall self_contained x.
Proof.
  intros S. revert r. induction ds as [|d ds IH]; intros r R D x; cbn [resolve_list]; [intros [= <-]; exact R|].
  inversion D; subst. assert (K : forall x, resolve_list r1 (r ++ [d]) ds = Ok x -> Forall self_contained x). { intros y. apply IH; auto. apply Forall_app; auto. }
  destruct d; try (apply K). destruct (r1 s) as [j|] eqn:J; cbn [bind]; [|discriminate]. apply S in J. destruct j; try (apply IH; auto; apply sc_add_new; auto).
  apply IH; auto. apply sc_list in J. clear - R J. revert r R. induction J as [|y l Y J IH]; intros r R; cbn [fold_left]; auto. apply IH, sc_add_new; auto.
Qed.
Lemma field_plain_s (lx : loading_s) dx d l b o : self_contained d -> load_field_s urljoin fetch_text read_yaml c lx dx d l b o = lx l d b o None.
Proof.
  intros S. destruct d; auto. cbn [load_field_s]. apply sc_dict in S.
  rewrite (sc_no_key d "$import"), (sc_no_key d "$include") by auto. reflexivity.
Qed.
Lemma quiet_load n : forall l d b o root, sound known proxied l = true -> self_contained d -> quiet (load n l d b o root).
Proof.
  induction n as [|n IH]; intros l d b o root S D; [apply quiet_lift|].
  assert (idl_sound : forall l, id_loader l = true -> sound known proxied l = true).
  { clear. intros l S. destruct l as [| | | | | | | | |inner si vt sr nl| | |]; try discriminate.
    destruct inner as [|[]| | | | | | |alts| | | |]; try discriminate; auto. destruct alts as [|[|[]| | | | | | | | | | |] [|[|[]| | | | | | | | | | |] [|]]]; try discriminate. reflexivity. }
  rewrite load_s_S.
  destruct l as [|tp|syms| |items|values cc nl|inner|cls cc nl|alts|inner si vt sr nl|inner rs salad|inner subj pred|name]; cbn [load_body_s]; try apply quiet_lift.
  - destruct d; try apply quiet_lift. apply sc_list in D. apply quiet_bind; [|intros r; apply quiet_lift].
    apply quiet_elements. eapply Forall_impl; [|exact D]. intros e E. cbv beta. rewrite field_plain_s by auto. apply IH; auto.
    apply sound_union. cbn [sound] in S. repeat constructor; auto.
  - destruct d; try apply quiet_lift. apply sc_dict in D. apply quiet_bind; [|intros r; apply quiet_lift].
    apply quiet_values. eapply Forall_impl; [|exact D]. intros e E. cbv beta. rewrite field_plain_s by apply E. apply IH; [exact S|apply E].
  - apply quiet_lbind. intros r R. apply IH; [exact S|]. apply sc_list. apply (sc_secondary d D). exact R.
  - destruct d; try apply quiet_lift. cbn [sound] in S. destruct (known_class cls S) as (k & K & SK). rewrite K. apply sc_dict in D.
    unfold sound_class in SK. apply andb_true_iff in SK. destruct SK as [SK SF]. apply andb_true_iff in SK. destruct SK as [SI SC].
    unfold from_doc_s. apply quiet_bind.
    { unfold load_id_s. destruct (c_id k) as [[[nm req] idl]|]; [|apply quiet_lift]. apply quiet_bind; [|intros; apply quiet_lift].
      destruct (dget nm d) as [j|] eqn:G; [|apply quiet_lift]. assert (SJ : self_contained j) by (eapply sc_dget; eauto). rewrite field_plain_s by auto. apply quiet_noted, IH; auto. }
    intros idr. cbv zeta. apply quiet_bind.
    { unfold load_class_s. destruct (c_class k) as [cll|]; [|apply quiet_lift]. destruct (dget "class" d) as [j|] eqn:G; [|apply quiet_lift].
      assert (SJ : self_contained j) by (eapply sc_dget; eauto).
      destruct j; try apply quiet_lift; (apply quiet_bind; [|intros; apply quiet_lift]; rewrite field_plain_s by exact SJ; apply IH; auto). }
    intros cl. apply quiet_bind.
    { induction (c_fields k) as [|f fs IHf]; cbn [load_fields_s]; [apply quiet_lift|]. cbn [forallb] in SF. apply andb_true_iff in SF. destruct SF as [SF1 SF].
      apply quiet_bind.
      - unfold load_one_s. apply quiet_lbind. intros b' _.
        destruct (dget (f_name f) d) as [j|] eqn:G; [|apply quiet_lift]. assert (SJ : self_contained j) by (eapply sc_dget; eauto).
        assert (Y : quiet (noted_s (load_field_s urljoin fetch_text read_yaml c (load n) (document_load n) j (f_loader f) b' (with_container cc nl o)))).
        { apply quiet_noted. rewrite field_plain_s by auto. apply IH; auto. }
        destruct j; auto. destruct (f_required f); [apply quiet_lift|auto].
      - intros x. apply quiet_bind; [apply IHf; auto|]. intros r. apply quiet_lift. }
    intros fs. apply quiet_lbind. intros ext _. destruct idr as [[i b']|]; [|apply quiet_lift]. destruct fs as [fs|]; [|apply quiet_lift]. destruct ext as [ext|]; [|apply quiet_lift].
    apply quiet_bind; [|intros; apply quiet_lift]. unfold index_object. destruct i as [|[nm []] i]; try apply quiet_lift. apply quiet_wrote.
  - apply sound_union in S. apply (quiet_first alts). eapply Forall_impl; [|exact S]. intros a A. apply IH; auto.
  - cbv zeta. apply quiet_lbind. intros j J. apply quiet_lbind. intros _ _. apply IH; [exact S|]. destruct d; try (injection J as <-; exact D).
    + destruct (expand_url _ _ s _ _ _ _ _) as [u|]; cbn [bind] in J; [|discriminate]. injection J as <-. exact I.
    + apply sc_list in D. match type of J with bind ?r _ = _ => destruct r as [x|] eqn:M; cbn [bind] in J; [|discriminate] end. injection J as <-. apply sc_list.
      apply mapM_Ok in M. clear - D M. induction M as [|x y l m H M IH]; auto. inversion D; subst. constructor; auto.
      destruct x; try congruence. match type of H with bind ?r _ = _ => destruct r; cbn [bind] in H; [|discriminate] end. injection H as <-. exact I.
  - cbn [sound] in S. apply andb_true_iff in S. destruct S as [S V]. destruct (salad_before_1_3 salad) as [old|] eqn:SV; [|discriminate].
    set (r1 := fun s : string => do old0 <- (if endswith "[]" (if endswith "?" s then sdrop_last 1 s else s) then Ok old else Ok true);
       resolve (Datatypes.S (String.length s)) (fun u => expand_url urljoin supported_schemes u b o false true rs) old0 s).
    assert (R2 : forall s j, r1 s = Ok j -> self_contained j).
    { intros s j. unfold r1. destruct (endswith "[]" _); cbn [bind]; apply sc_resolve. }
    apply quiet_lbind. intros j J. apply IH; [exact S|]. destruct d; try (injection J as <-; exact D).
    + apply (R2 s). exact J.
    + apply sc_list in D. cbn [type_dsl] in J. match type of J with bind ?r _ = _ => destruct r as [x|] eqn:M; cbn [bind] in J; [|discriminate] end. injection J as <-. apply sc_list.
      exact (sc_resolve_list r1 [] l R2 (Forall_nil _) D x M).
  - cbn [sound] in S. apply andb_true_iff in S. destruct S as [S P]. apply andb_true_iff in S. destruct S as [S K].
    destruct (sc_id_map subj pred d K) as [F J]; [destruct pred; auto|auto|]. apply quiet_lbind. intros j E. apply IH; auto.
  - cbn [sound] in S. destruct (known_proxy name S) as (l & -> & SL). apply IH; auto.
Qed.
Lemma quiet_document n l d b o : sound known proxied l = true -> self_contained d -> (forall s, d <> JStr s) -> quiet (document_load n l d b o).
Proof.
  intros S D N. destruct n as [|n]; [apply quiet_lift|]. rewrite document_load_s_S. destruct d as [| | | |s|items|d]; cbn [document_body_s]; try apply quiet_lift.
  - destruct (N s eq_refl).
  - apply quiet_bind; [apply quiet_load; auto|]. intros v. apply quiet_bind; [apply quiet_wrote|]. intros; apply quiet_lift.
  - cbv zeta. apply quiet_lbind. intros b' _. apply sc_dict in D. assert (D2 : Forall sc_pair (no_graph_keys d)) by (unfold no_graph_keys; repeat apply sc_dpop; exact D).
    apply quiet_bind.
    + destruct (dget "$graph" (no_graph_keys d)) eqn:G; apply quiet_load; auto; [eapply sc_dget; eauto|apply sc_dict, D2].
    + intros v. apply quiet_bind; [apply quiet_wrote|]. intros _. apply quiet_bind; [|intros; apply quiet_lift]. destruct (String.eqb b b'); [apply quiet_lift|apply quiet_wrote].
Qed.
End Alone.
