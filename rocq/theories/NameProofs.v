(** * Proofs about source names and the types of sources *)
From Verif Require Import PyBase PyBaseProofs TypeModel TypeSpec TypeProofs LinkProofs.

Lemma last_In {A} (l : list A) d : l <> [] -> In (List.last l d) l.
Proof.
  induction l as [|x l IH]; [congruence|]. intros _. destruct l as [|y l]; [cbn; auto|].
  right. apply IH. discriminate.
Qed.

Lemma last_part_no c s : has_char c (last_part c s) = false.
Proof.
  unfold last_part. pose proof (split_char_parts c s) as F. rewrite Forall_forall in F. apply F.
  apply last_In. apply split_char_nonnil.
Qed.

Lemma last_part_none c s : has_char c s = false -> last_part c s = s.
Proof. intros H. unfold last_part. rewrite split_char_none; auto. Qed.

Lemma split_char_app_any c a b :
  split_char c (a ++ String c b) = split_char c a ++ split_char c b.
Proof.
  induction a as [|d a IH].
  - cbn. rewrite Ascii.eqb_refl. reflexivity.
  - cbn [append split_char]. destruct (Ascii.eqb d c); [rewrite IH; reflexivity|].
    rewrite IH. destruct (split_char c a) eqn:E; [exfalso; eapply split_char_nonnil; eauto|]. reflexivity.
Qed.

Lemma last_part_app c p f : has_char c f = false -> last_part c (p ++ String c f) = f.
Proof.
  intros H. unfold last_part. rewrite split_char_app_any, (split_char_none c f H). apply last_last.
Qed.

Lemma sjoin_snoc c : forall l x, l <> [] ->
  sjoin (String c "") (l ++ [x]) = (sjoin (String c "") l ++ String c x)%string.
Proof.
  induction l as [|y l IH]; intros x N; [congruence|]. destruct l as [|z l]; [reflexivity|].
  cbn [List.app]. rewrite !sjoin_cons. cbn [List.app] in IH. rewrite IH by discriminate. rewrite !sapp_assoc. reflexivity.
Qed.

Lemma AfterLast_spec c id frag : AfterLast c id frag <-> frag = last_part c id.
Proof.
  split.
  - intros [N [-> | [p ->]]]; [rewrite last_part_none|rewrite last_part_app]; auto.
  - intros ->. split; [apply last_part_no|].
    destruct (exists_last (split_char_nonnil c id)) as (l & x & E).
    unfold last_part. rewrite E, last_last.
    assert (J := sjoin_split_char c id). rewrite E in J. destruct l as [|y l]; [left; cbn in J; auto|].
    right. exists (sjoin (String c "") (y :: l)). rewrite <- J at 1. apply sjoin_snoc. discriminate.
Qed.

Lemma PortName_spec id n : PortName id n <-> n = port_name id.
Proof.
  unfold PortName, Fragment, port_name. split.
  - intros (f & F & G). apply AfterLast_spec in F, G. subst. reflexivity.
  - intros ->. exists (last_part "#" id). split; apply AfterLast_spec; reflexivity.
Qed.

Lemma fragment_iff f d o : has_char "/" o = false -> d <> "" ->
  (String.eqb (sjoin "/" (removelast (split_char "/" f))) d && String.eqb o (last_part "/" f))%bool
  = String.eqb (d ++ String "/" o) f.
Proof.
  intros NO ND. apply Bool.eq_iff_eq_true. rewrite andb_true_iff, !String.eqb_eq.
  destruct (exists_last (split_char_nonnil "/" f)) as (l & x & E). unfold last_part. rewrite E, last_last, removelast_last.
  split.
  - intros [<- ->]. rewrite <- (sjoin_split_char "/" f), E. symmetry. apply sjoin_snoc. intros ->. apply ND. reflexivity.
  - intros <-. rewrite split_char_app_any, (split_char_none "/" o NO) in E. apply app_inj_tail in E.
    destruct E as [<- <-]. split; [apply sjoin_split_char|reflexivity].
Qed.

Lemma filter_ext_in' {A} (p q : A -> bool) l : (forall x, In x l -> p x = q x) -> filter p l = filter q l.
Proof. induction l as [|x l IH]; intros H; cbn; [reflexivity|]. rewrite H, IH; cbn; auto. intros; apply H; cbn; auto. Qed.

Lemma denoted_app a b s : denoted (a ++ b) s = denoted a s ++ denoted b s.
Proof. unfold denoted. rewrite filter_app, map_app. reflexivity. Qed.
Lemma denoted_flat_map {A} (f : A -> list (string * found)) l s :
  denoted (flat_map f l) s = flat_map (fun x => denoted (f x) s) l.
Proof. induction l as [|x l IH]; cbn [flat_map]; [reflexivity|]. rewrite denoted_app, IH. reflexivity. Qed.

Lemma denoted_const {A} (k : string) (g : A -> found) l s :
  denoted (map (fun x => (k, g x)) l) s = if String.eqb k (last_part "#" s) then map g l else [].
Proof.
  induction l as [|x l IH]; cbn.
  - destruct (String.eqb k _); reflexivity.
  - unfold denoted in *. cbn. destruct (String.eqb k (last_part "#" s)) eqn:E; cbn; rewrite IH; reflexivity.
Qed.

Lemma step_matches_denoted st s : last_part "#" (st_id st) <> "" ->
  step_matches s st = denoted (step_scope st) s.
Proof.
  intros N. unfold step_matches, step_scope. rewrite denoted_flat_map.
  set (f := last_part "#" s) in *.
  assert (G : forall o,
    denoted (map (fun p => ((last_part "#" (st_id st) ++ String "/" (port_name o))%string, (p, step_scatter_context st)))
        (filter (fun p => String.eqb (port_name (p_id p)) (port_name o)) (run_outputs st))) s =
    if String.eqb (sjoin "/" (removelast (split_char "/" f))) (last_part "#" (st_id st))
    then if String.eqb (port_name o) (port_name s)
         then map (fun p => (p, step_scatter_context st))
                  (filter (fun p => String.eqb (port_name (p_id p)) (port_name s)) (run_outputs st)) else []
    else []).
  { intros o. rewrite (denoted_const _ (fun p => (p, step_scatter_context st))). fold f.
    rewrite <- (fragment_iff f _ (port_name o)); auto; [|apply last_part_no].
    destruct (String.eqb (sjoin "/" (removelast (split_char "/" f))) (last_part "#" (st_id st))); cbn [andb]; auto.
    change (last_part "/" f) with (port_name s).
    destruct (String.eqb_spec (port_name o) (port_name s)) as [->|]; reflexivity. }
  destruct (String.eqb (sjoin "/" (removelast (split_char "/" f))) (last_part "#" (st_id st))) eqn:E.
  - induction (st_out st) as [|o l IH]; cbn [flat_map]; [reflexivity|]. rewrite IH, G. reflexivity.
  - induction (st_out st) as [|o l IH]; cbn [flat_map]; [reflexivity|]. rewrite <- IH, G. reflexivity.
Qed.

Lemma input_matches_denoted inputs s : input_matches s inputs = denoted (inputs_scope inputs) s.
Proof.
  unfold input_matches, inputs_scope, denoted. induction inputs as [|p l IH]; cbn; [reflexivity|].
  unfold same_fragment at 1. destruct (String.eqb (last_part "#" (p_id p)) (last_part "#" s)); cbn; rewrite IH; reflexivity.
Qed.

Lemma target_matches_denoted p s : named_steps p -> target_matches s p = denoted (workflow_scope p) s.
Proof.
  destruct p as [i|i steps]; cbn [named_steps target_matches workflow_scope]; intros N; [reflexivity|]. rewrite denoted_app, input_matches_denoted. f_equal.
  rewrite denoted_flat_map. induction steps as [|st steps IH]; cbn [flat_map]; [reflexivity|].
  apply Forall_cons_iff in N. destruct N as [N1 N]. rewrite step_matches_denoted, IH; auto.
Qed.

Lemma source_matches_denoted process parent s :
  named_steps process -> (forall p, parent = Some p -> named_steps p) ->
  source_matches process parent s = denoted (scope process parent) s.
Proof.
  intros N NP. unfold source_matches, scope. rewrite denoted_app.
  replace (match parent with Some p => target_matches s p | None => [] end)
    with (denoted match parent with Some p => workflow_scope p | None => [] end s)
    by (destruct parent; [symmetry; apply target_matches_denoted; auto|reflexivity]).
  rewrite app_assoc; f_equal. destruct process as [i|i steps].
  - cbn [target_matches]. rewrite app_nil_r. apply input_matches_denoted.
  - cbn [List.app]. apply target_matches_denoted; auto.
Qed.

Lemma param_for_source_spec process sources parent :
  named_steps process -> (forall p, parent = Some p -> named_steps p) -> sources <> [] ->
  param_for_source_id process sources parent =
    match flat_map (denoted (scope process parent)) sources with
    | [] => Err WorkflowException
    | [x] => Ok (OneParam x)
    | l => Ok (Params l)
    end.
Proof.
  intros N NP NE. unfold param_for_source_id.
  rewrite (flat_map_ext _ (denoted (scope process parent))) by (intros; apply source_matches_denoted; auto).
  destruct (flat_map _ _) as [|x [|y l]]; auto. destruct sources; congruence || reflexivity.
Qed.

(** ** types of sources *)
Lemma delivers_spec x t : Delivers x t <->
  t = match snd x with Some (n, m) => scattered n (Some m) (p_type (fst x)) | None => p_type (fst x) end.
Proof.
  destruct x as [p [[n m]|]]; cbn [fst snd].
  - unfold scattered. split.
    + intros H. inversion H; subst.
      * cbn. apply nest_spec. auto.
      * destruct (String.eqb_spec m "nested_crossproduct"); [congruence|reflexivity].
    + intros ->. destruct (String.eqb_spec m "nested_crossproduct") as [->|E].
      * constructor. apply nest_spec. reflexivity.
      * constructor. auto.
  - split; [intros H; inversion H; reflexivity|intros ->; constructor].
Qed.

Lemma merged_spec m b t t' : SourcesMerged m b t t' <-> t' = merged m b t.
Proof.
  unfold merged. split.
  - intros H. destruct H as [m b t t' N H|m t N1 N2|m t N1 N2].
    + destruct H as [t|t|t t' H]; [congruence|reflexivity|]. cbn. apply merge_flatten_spec. auto.
    + destruct m as [m|]; auto. destruct (String.eqb_spec m "merge_nested"); [congruence|].
      destruct (String.eqb_spec m "merge_flattened"); congruence.
    + destruct m as [m|]; auto. destruct (String.eqb_spec m "merge_nested"); [congruence|].
      destruct (String.eqb_spec m "merge_flattened"); congruence.
  - intros ->. destruct m as [m|].
    + destruct (String.eqb_spec m "merge_nested") as [->|]; [apply SM_merge; [discriminate|constructor]|].
      destruct (String.eqb_spec m "merge_flattened") as [->|].
      { apply SM_merge; [discriminate|]. constructor. apply merge_flatten_spec. reflexivity. }
      destruct b; [apply SM_several|apply SM_one]; congruence.
    + destruct b; [apply SM_several|apply SM_one]; congruence.
Qed.

Lemma picked_spec pv t t' : ValuePicked pv t t' <-> t' = picked pv t.
Proof.
  unfold picked, non_null_pick. split.
  - intros H. destruct H as [t|t|pv t N1 N2|pv t N]; try reflexivity.
    + destruct t; auto. destruct pv as [p|]; auto.
      destruct (String.eqb_spec p "first_non_null"); [congruence|].
      destruct (String.eqb_spec p "the_only_non_null"); [congruence|]. reflexivity.
    + destruct t; auto. exfalso. eapply N; reflexivity.
  - intros ->. destruct t as [s|l|t|f|c n s r]; try (apply VP_no_array; congruence).
    destruct pv as [p|]; [|apply VP_other; congruence].
    destruct (String.eqb_spec p "first_non_null") as [->|]; [cbn; constructor|].
    destruct (String.eqb_spec p "the_only_non_null") as [->|]; [cbn; constructor|].
    cbn. apply VP_other; congruence.
Qed.

Lemma compare_leaf t u : is_leaf t -> _compare_type t u = Ok (py_eq t u).
Proof.
  intros [[s ->]|(c & n & s & r & ->)]; unfold _compare_type; cbn; reflexivity.
Qed.

Lemma existsM_Ok {A} (p : A -> result bool) (q : A -> bool) l :
  (forall x, In x l -> p x = Ok (q x)) -> existsM p l = Ok (existsb q l).
Proof.
  induction l as [|x l IH]; intros H; cbn; [reflexivity|]. rewrite (H x) by (cbn; auto). cbn.
  destruct (q x); cbn; auto. apply IH. intros; apply H; cbn; auto.
Qed.

Lemma Distinct_incl {A} (l d : list A) : Distinct l d -> forall x, In x l <-> In x d.
Proof.
  induction 1 as [|l x d D IH N|l x d D IH I]; intros y; [tauto| |].
  - rewrite !in_app_iff, IH. tauto.
  - rewrite in_app_iff, <- IH. cbn. split; [intros [J|[<-|[]]]; auto|auto].
Qed.

Lemma add_leaves l : forall d pre,
  Distinct (map (fun x : found => p_type (fst x)) pre) d ->
  Forall (fun x : found => is_leaf (p_type (fst x)) /\ snd x = None) (pre ++ l) ->
  exists d', foldM add_source_type l d = Ok d' /\ Distinct (map (fun x : found => p_type (fst x)) (pre ++ l)) d'.
Proof.
  induction l as [|[p sc] l IH]; intros d pre D F.
  - exists d. rewrite app_nil_r. auto.
  - cbn [foldM]. assert (F' := F). apply Forall_app in F'. destruct F' as [F1 F2]. apply Forall_inv in F2. cbn in F2.
    destruct F2 as [L ->]. unfold add_source_type at 1.
    assert (LD : forall t, In t d -> is_leaf t).
    { intros t I. apply (Distinct_incl _ _ D) in I. apply in_map_iff in I. destruct I as (x & <- & I).
      rewrite Forall_forall in F1. apply F1 in I. tauto. }
    rewrite (existsM_Ok _ (fun t => py_eq t (p_type p))) by (intros; apply compare_leaf; auto). cbn [bind].
    assert (F3 : Forall (fun x : found => is_leaf (p_type (fst x)) /\ snd x = None) ((pre ++ [(p, None)]) ++ l))
      by (rewrite <- app_assoc; exact F).
    destruct (existsb (fun t => py_eq t (p_type p)) d) eqn:B; cbn [bind].
    + destruct (IH d (pre ++ [(p, None)])) as (d' & E & D'); auto.
      { rewrite map_app. cbn. apply D_old; auto.
        apply existsb_exists in B. destruct B as (t & I & E). apply py_eq_iff in E. destruct E as [-> _].
        apply (Distinct_incl _ _ D). auto. }
      exists d'. split; auto. rewrite <- app_assoc in D'. exact D'.
    + destruct (IH (d ++ [p_type p]) (pre ++ [(p, None)])) as (d' & E & D'); auto.
      { rewrite map_app. cbn. apply D_new; auto.
        intros I. apply (Distinct_incl _ _ D) in I. apply Bool.not_true_iff_false in B. apply B.
        apply existsb_exists. exists (p_type p). split; auto. apply py_eq_iff. auto. }
      exists d'. split; auto. rewrite <- app_assoc in D'. exact D'.
Qed.

(** ** static checker: which types are known *)
Lemma dget_dupdate_mono {V} k (l d : list (string * V)) : dget k d <> None -> dget k (dupdate d l) <> None.
Proof.
  revert d. induction l as [|[k' v] l IH]; intros d H; [exact H|]. cbn. apply IH.
  destruct (string_dec k k') as [->|N]; [rewrite dget_dset_same|rewrite dget_dset_other]; congruence.
Qed.
Lemma dget_dupdate_key {V} k (l d : list (string * V)) : In k (map fst l) -> dget k (dupdate d l) <> None.
Proof.
  revert d. induction l as [|[k' v] l IH]; intros d H; [destruct H|]. cbn in *. destruct H as [->|H].
  - apply dget_dupdate_mono. rewrite dget_dset_same. discriminate.
  - apply IH. auto.
Qed.
Lemma dget_dkeys {V} k (d : list (string * V)) : dget k d <> None -> In k (map fst d).
Proof. intros H. destruct (dget k d) eqn:E; [|congruence]. apply dget_Some_key in E. exact E. Qed.

Lemma fold_dupdate_key {V} k (ts : list (list (string * V))) : forall d,
  (dget k d <> None \/ exists t, In t ts /\ dget k t <> None) -> dget k (fold_left dupdate ts d) <> None.
Proof.
  induction ts as [|t ts IH]; intros d H; cbn.
  - destruct H as [H|(t & [] & _)]; auto.
  - apply IH. destruct H as [H|(u & [->|I] & H)].
    + left. apply dget_dupdate_mono. auto.
    + left. apply dget_dupdate_key. apply dget_dkeys. auto.
    + right. eauto.
Qed.

Lemma mapM_all {A B} (f : A -> result B) l bs : mapM f l = Ok bs -> forall a, In a l -> exists b, In b bs /\ f a = Ok b.
Proof.
  revert bs. induction l as [|x l IH]; intros bs H a I; [destruct I|]. cbn in H.
  destruct (f x) as [b|] eqn:E; [|discriminate]. cbn in H. destruct (mapM f l) as [bs'|] eqn:M; [|discriminate].
  cbn in H. injection H as <-. destruct I as [->|I]; [exists b; cbn; auto|].
  destruct (IH bs' eq_refl a I) as (b' & J & E'). exists b'. cbn. auto.
Qed.

Lemma step_types_keys st t k : step_types st = Ok t ->
  In k (map sk_id (st_in st)) \/ In k (st_out st) -> dget k t <> None.
Proof.
  unfold step_types. destruct (mapM _ (st_out st)) as [outs|] eqn:E; [|discriminate]. cbn [bind].
  intros H. injection H as <-. intros [I|I].
  - apply dget_dupdate_mono. apply dget_dupdate_key. rewrite map_map. exact I.
  - apply dget_dupdate_key. destruct (mapM_all _ _ _ E k I) as ([k' ty] & J & F).
    destruct (type_for_step_output st k); [|discriminate]. cbn in F. injection F as -> _.
    apply in_map_iff. exists (k', ty). auto.
Qed.

Lemma all_types_keys wf types k : all_types wf = Ok types ->
  In k (map sk_id (sinks_of wf)) \/ In k (sources_of wf) -> dget k types <> None.
Proof.
  unfold all_types. destruct (mapM step_types (wf_steps wf)) as [ts|] eqn:E; [|discriminate]. cbn [bind].
  intros H. injection H as <-. unfold sinks_of, sources_of. rewrite map_app, !in_app_iff.
  intros [[I|I]|[I|I]].
  - apply dget_dupdate_mono, dget_dupdate_mono, fold_dupdate_key. right.
    apply in_map_iff in I. destruct I as (sk & <- & I). apply in_flat_map in I. destruct I as (st & I & J).
    destruct (mapM_all _ _ _ E st I) as (t & K & T). exists t. split; auto. eapply step_types_keys; eauto.
    left. apply in_map. auto.
  - apply dget_dupdate_key. rewrite map_map. rewrite map_map in I. exact I.
  - apply dget_dupdate_mono, dget_dupdate_key. rewrite map_map. exact I.
  - apply dget_dupdate_mono, dget_dupdate_mono, fold_dupdate_key. right.
    apply in_flat_map in I. destruct I as (st & I & J).
    destruct (mapM_all _ _ _ E st I) as (t & K & T). exists t. split; auto. eapply step_types_keys; eauto.
Qed.

Lemma linked_wf v wf types : linked v wf -> all_types wf = Ok types -> links_wf v (source_ids wf) types (step_inputs wf ++ map fst (wf_outputs wf)).
Proof.
  intros L A. unfold links_wf, linked in *. rewrite Forall_forall in *. intros sk I.
  destruct (L sk I) as (F & E & M). split; [|split; [|split; auto]].
  - eapply all_types_keys; eauto. left. apply in_map. exact I.
  - eapply Forall_impl; [|exact F]. cbn. intros s J. split; auto. eapply all_types_keys; eauto.
Qed.

Lemma mapM_err {A B} (f : A -> result B) e l : (forall a e', In a l -> f a = Err e' -> e' = e) ->
  (exists bs, mapM f l = Ok bs) \/ mapM f l = Err e.
Proof.
  induction l as [|x l IH]; intros H; [left; exists []; reflexivity|]. cbn.
  destruct (f x) as [b|e'] eqn:E.
  - cbn. destruct IH as [[bs ->]| ->]; [intros; eapply H; cbn; eauto|left; cbn; eauto|right; reflexivity].
  - right. cbn. f_equal. eapply H; cbn; eauto.
Qed.

Lemma type_for_step_output_err st o e : type_for_step_output st o = Err e -> e = ValidationException.
Proof. unfold type_for_step_output. destruct (find _ _); [destruct (st_scatter st)|]; congruence. Qed.

(** a step output the process does not have *)
Definition unmatched (st : step) (o : string) : Prop :=
  Forall (fun p => ~ exists n, PortName o n /\ PortName (p_id p) n) (run_outputs st).

Lemma type_for_step_output_none st o : type_for_step_output st o = Err ValidationException <-> unmatched st o.
Proof.
  unfold type_for_step_output, unmatched. destruct (find _ _) as [p|] eqn:E.
  - split; [destruct (st_scatter st); discriminate|]. intros F. apply find_some in E. destruct E as [I E].
    rewrite Forall_forall in F. exfalso. apply (F p I). apply String.eqb_eq in E. exists (port_name o).
    rewrite !PortName_spec. auto.
  - split; auto. intros _. apply find_none_iff in E. eapply Forall_impl; [|exact E]. cbn.
    intros p H (n & N1 & N2). apply PortName_spec in N1, N2. apply String.eqb_neq in H. congruence.
Qed.

Lemma all_types_cases wf :
  (exists types, all_types wf = Ok types /\ forall st o, In st (wf_steps wf) -> In o (st_out st) -> ~ unmatched st o) \/
  (all_types wf = Err ValidationException /\ exists st o, In st (wf_steps wf) /\ In o (st_out st) /\ unmatched st o).
Proof.
  assert (S : forall st, In st (wf_steps wf) ->
     (exists t, step_types st = Ok t /\ forall o, In o (st_out st) -> ~ unmatched st o) \/
     (step_types st = Err ValidationException /\ exists o, In o (st_out st) /\ unmatched st o)).
  { intros st _. unfold step_types. induction (st_out st) as [|o l IH]; cbn [mapM].
    - left. eexists. split; [reflexivity|intros ? []].
    - destruct (type_for_step_output st o) as [t|e] eqn:E; cbn [bind].
      + destruct (mapM (fun o0 => do t0 <- type_for_step_output st o0; Ok (o0, t0)) l) as [bs|e'] eqn:M; cbn [bind] in *.
        * left. eexists. split; [reflexivity|]. destruct IH as [(t' & _ & IH)|[IH _]]; [|discriminate].
          intros o' [<-|I]; [|auto]. rewrite <- type_for_step_output_none. congruence.
        * destruct IH as [(t' & IH & _)|[IH (o' & I & U)]]; [discriminate|]. right. split; [congruence|].
          exists o'. cbn. auto.
      + assert (X := type_for_step_output_err _ _ _ E). subst e. right. split; auto. exists o.
        rewrite <- type_for_step_output_none. cbn. auto. }
  unfold all_types. induction (wf_steps wf) as [|st l IH]; cbn [mapM bind].
  - left. eexists. split; [reflexivity|intros ? ? []].
  - destruct (S st ltac:(cbn; auto)) as [(t & -> & O)|[-> (o & I & U)]]; cbn [bind].
    + assert (S' : forall st, In st l ->
       (exists t, step_types st = Ok t /\ forall o, In o (st_out st) -> ~ unmatched st o) \/
       (step_types st = Err ValidationException /\ exists o, In o (st_out st) /\ unmatched st o)) by (intros; apply S; cbn; auto).
      specialize (IH S'). destruct (mapM step_types l) as [ts|e]; cbn [bind] in *.
      * left. eexists. split; [reflexivity|]. destruct IH as [(ty & _ & IH)|[IH _]]; [|discriminate].
        intros st' o [<-|I] J; eauto.
      * destruct IH as [(ty & IH & _)|[IH (st' & o & I & J & U)]]; [discriminate|]. right. split; auto.
        exists st', o. cbn. auto.
    + right. split; auto. exists st, o. cbn. auto.
Qed.

(** ** reports as kept links *)
Lemma filter_Kept {A} (P : A -> Prop) (p : A -> bool) l :
  (forall x, In x l -> (p x = true <-> P x)) -> Kept P l (filter p l).
Proof.
  induction l as [|x l IH]; intros H; cbn; [constructor|].
  destruct (p x) eqn:E.
  - apply K_yes; [apply H; cbn; auto|]. apply IH. intros; apply H; cbn; auto.
  - apply K_no; [|apply IH; intros; apply H; cbn; auto]. intros X. apply H in X; [congruence|cbn; auto].
Qed.

Lemma Forall2_map_r {A B} (R : A -> B -> Prop) (f : A -> B) l : (forall x, In x l -> R x (f x)) -> Forall2 R l (map f l).
Proof. induction l; intros H; cbn; constructor; [apply H; cbn; auto|]. apply IHl. intros; apply H; cbn; auto. Qed.

Lemma check_all_kept v src_ids steps types sinks :
  links_wf v src_ids types sinks -> (v = V12 -> special_once steps sinks) ->
  exists ck ws es, check_all_types v src_ids steps types sinks = Ok ck /\
    ck_warnings ck = List.concat ws /\ ck_exceptions ck = List.concat es /\
    Forall2 (fun sk w => exists kept, Kept (PossiblyCompatible v steps types sk) (links sk) kept /\
               w = notes v steps types sk ++ map (entry_for v sk) kept) sinks ws /\
    Forall2 (fun sk e => exists kept, Kept (Incompatible v steps types sk) (links sk) kept /\
               e = map (entry_for v sk) kept) sinks es.
Proof.
  intros WF SO. destruct (check_all_types_spec v src_ids steps types sinks WF SO) as (ck & E & W & X).
  exists ck, (map (sink_warnings v steps types) sinks), (map (sink_exceptions v steps types) sinks).
  rewrite <- !flat_map_concat_map. repeat split; auto; apply Forall2_map_r; intros sk I.
  - exists (filter (fun s => is_warning (lverdict v steps types sk s)) (links sk)). split; [|reflexivity].
    apply filter_Kept. intros s J. exact (proj1 (links_verdicts v src_ids steps types sinks sk s WF I J)).
  - exists (filter (fun s => is_exception (lverdict v steps types sk s)) (links sk)). split; [|reflexivity].
    apply filter_Kept. intros s J. exact (proj2 (links_verdicts v src_ids steps types sinks sk s WF I J)).
Qed.

Lemma Sensible_refl t : Sensible t -> forall strict, Assignable strict t t.
Proof.
  induction 1 as [s|c n s r|t S IH|fs S IH|l S IH NU (w & I & NW)]; intros strict.
  - apply A_same. left. eauto.
  - apply A_same. right. eauto 6.
  - apply A_array. auto.
  - apply A_record. intros k u F. left. exists u. split; auto. apply (IH k). auto.
  - destruct strict.
    + apply A_every_alternative. intros t J. eapply A_sink_alternative; eauto.
    + apply A_some_alternative with w; auto. eapply A_sink_alternative; eauto.
Qed.
