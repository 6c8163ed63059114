(** * Proofs that the generated parsers load a document or refuse it with a validation error *)
From Verif Require Import PyBase PyBaseProofs NameProofs ParserModel LoaderModel LoaderProofs VersionModel VersionSpec.
From Coq Require Import Lia.

(** What the tables must satisfy *)
Definition id_loader (l : loader) : bool :=
  match l with
  | LUri (LPrim PStr) _ _ _ _ | LUri (LUnion [LPrim PNull; LPrim PStr]) _ _ _ _ => true
  | _ => false
  end.
Section Sound.
Variables (known : string -> bool) (proxied : string -> bool).
Definition plain_key (k : string) : bool := negb (String.eqb k "$import") && negb (String.eqb k "$include").
Fixpoint sound (l : loader) : bool :=
  match l with
  | LAny | LPrim _ | LEnum _ | LExpression => true
  | LArray i => sound i
  | LMap v _ _ => sound v
  | LSecondary i => sound i
  | LRecord c _ _ => known c
  | LUnion ls => (fix all (ls : list loader) : bool := match ls with [] => true | l :: ls => sound l && all ls end) ls
  | LUri i _ _ _ _ => sound i
  | LTypeDSL i _ v => sound i && is_ok (salad_before_1_3 v)
  | LIdMap i s p => sound i && plain_key s && match p with Some p => plain_key p | None => true end
  | LProxy n => proxied n
  end.
Definition sound_class (k : class) : bool :=
  match c_id k with Some (_, _, l) => id_loader l | None => true end &&
  match c_class k with Some l => sound l | None => true end &&
  forallb (fun f => sound (f_loader f)) (c_fields k).
End Sound.
Lemma sound_union known proxied ls : sound known proxied (LUnion ls) = true <-> Forall (fun l => sound known proxied l = true) ls.
Proof.
  cbn [sound]. induction ls as [|l ls IH]; [split; auto|]. rewrite andb_true_iff, IH. split; [intros []; auto|inversion 1; auto].
Qed.

(** Self-contained documents *)
Lemma sc_list l : self_contained (JList l) <-> Forall self_contained l.
Proof. cbn [self_contained]. induction l as [|x l IH]; [split; auto|]. rewrite IH. split; [intros []; auto|inversion 1; auto]. Qed.
Definition sc_pair (kv : string * json) : Prop := (fst kv <> "$import" /\ fst kv <> "$include") /\ self_contained (snd kv).
Lemma sc_dict d : self_contained (JDict d) <-> Forall sc_pair d.
Proof.
  cbn [self_contained]. induction d as [|[k x] d IH]; [split; auto|]. rewrite IH. unfold sc_pair.
  split; [intros (A & B & C); constructor; auto|inversion 1; subst; cbn in *; tauto].
Qed.
Lemma sc_dget d k v : Forall sc_pair d -> dget k d = Some v -> self_contained v.
Proof. intros F G. apply dget_In in G. apply (proj1 (Forall_forall _ _) F) in G. apply G. Qed.
Lemma sc_no_key d k : Forall sc_pair d -> k = "$import" \/ k = "$include" -> dget k d = None.
Proof.
  intros F K. destruct (dget k d) as [v|] eqn:G; auto. apply dget_In in G. apply (proj1 (Forall_forall _ _) F) in G. destruct G as [[A B] _].
  cbn in *. destruct K; contradiction.
Qed.
Lemma sc_dset k v d : plain_key k = true -> self_contained v -> Forall sc_pair d -> Forall sc_pair (dset k v d).
Proof.
  intros K V F. assert (X : sc_pair (k, v)).
  { split; auto. cbn. unfold plain_key in K. apply andb_true_iff in K. destruct K as [A B]. apply negb_true_iff in A, B. apply String.eqb_neq in A, B. auto. }
  induction F as [|[k' v'] d H F IH]; cbn [dset]; [constructor; auto|]. destruct (String.eqb k k') eqn:E; [|constructor; auto].
  constructor; auto. apply String.eqb_eq in E. subst. exact X.
Qed.
Lemma sc_dpop k d : Forall sc_pair d -> Forall sc_pair (dpop k d).
Proof. intros F. apply Forall_forall. intros x I. unfold dpop in I. apply filter_In in I. apply (proj1 (Forall_forall _ _) F). tauto. Qed.

(** The refusals *)
Notation fine := loaded_or_refused.
Lemma fine_bind {A B} (r : result A) (k : A -> result B) : fine r -> (forall a, r = Ok a -> fine (k a)) -> fine (bind r k).
Proof. intros F K. destruct r as [a|e]; cbn [bind]; auto. Qed.
Lemma fine_noted {A} (r : result A) : fine r -> fine (noted r).
Proof. destruct r as [a|[]]; cbn; auto. Qed.
Lemma fine_first ls : Forall (fun r => fine (r tt)) ls -> fine (first_of ls).
Proof. induction 1 as [|r ls H F IH]; cbn [first_of]; [exact I|]. destruct (r tt) as [|[]]; auto. Qed.
Lemma fine_elements load1 flatten seen ds : Forall (fun d => fine (load1 d)) ds -> fine (load_elements load1 flatten seen ds).
Proof.
  intros F. revert seen. induction F as [|d ds H F IH]; intros seen; cbn [load_elements]; [exact I|].
  apply fine_bind; [apply fine_noted; auto|]. intros lf _. destruct (match lf with Some _ => _ | None => _ end) as [s dup].
  apply fine_bind; [apply IH|]. intros [r|] _; destruct lf as [x|]; try exact I. destruct dup; exact I.
Qed.
Lemma fine_values load1 d : Forall (fun kv => fine (load1 (snd kv))) d -> fine (load_values load1 d).
Proof.
  induction 1 as [|[k v] d H F IH]; cbn [load_values]; [exact I|]. apply fine_bind; [apply fine_noted; auto|]. intros lf _.
  apply fine_bind; [apply IH|]. intros [r|] _; destruct lf; exact I.
Qed.
Lemma fine_mapM {A B} (f : A -> result B) l : Forall (fun x => fine (f x)) l -> fine (mapM f l).
Proof. induction 1 as [|x l H F IH]; cbn [mapM]; [exact I|]. apply fine_bind; auto. intros y _. apply fine_bind; auto. intros; exact I. Qed.

Section Refusal.
Variables (urljoin : string -> string -> result string) (supported_schemes : list string) (check_exists : string -> result bool)
  (fetch_text : string -> result string) (read_yaml : string -> result json) (uuid : json -> string)
  (classes : string -> option class) (proxies : string -> option loader).
Hypothesis joins : forall b u, fine (urljoin b u).
Hypothesis checks : forall u, fine (check_exists u).
Variables (known proxied : string -> bool).
Hypothesis known_class : forall c, known c = true -> exists k, classes c = Some k /\ sound_class known proxied k = true.
Hypothesis known_proxy : forall n, proxied n = true -> exists l, proxies n = Some l /\ sound known proxied l = true.
Let load := load urljoin supported_schemes check_exists fetch_text read_yaml uuid classes proxies.
Let document_load := document_load urljoin supported_schemes check_exists fetch_text read_yaml uuid classes proxies.
Let expand := expand_url urljoin supported_schemes.

Lemma fine_expand u b o si vt sr : fine (expand u b o si vt sr).
Proof.
  unfold expand, expand_url. destruct (String.eqb u "@id" || String.eqb u "@type"); [exact I|]. destruct (vt && dmem u (vocab o)); [exact I|]. cbv zeta.
  apply fine_bind.
  - match goal with |- fine (if ?c then _ else _) => destruct c end; [exact I|].
    match goal with |- fine (if ?c then _ else _) => destruct c end; [exact I|]. destruct sr as [m|]; [|apply joins].
    match goal with |- fine (if ?c then _ else _) => destruct c end; [exact I|apply joins].
  - intros a _. destruct vt; [|exact I]. destruct (String.eqb _ ""); [exact I|]. destruct (dget a (rvocab o)); exact I.
Qed.
Lemma fine_resolve n e old s : (forall u, fine (e u)) -> fine (resolve n e old s).
Proof.
  intros E. revert s. induction n as [|n IH]; intros s; cbn [resolve]; [exact I|]. cbv zeta.
  destruct (endswith "[]" _).
  - destruct old.
    + destruct (endswith "[]" _); [exact I|]. apply fine_bind; [apply E|]. intros; exact I.
    + apply fine_bind; [apply IH|]. intros j _. apply fine_bind; [|intros; exact I]. destruct j; try exact I. apply fine_bind; [apply E|intros; exact I].
  - apply fine_bind; [apply E|]. intros; exact I.
Qed.
Lemma sc_resolve n e old s j : resolve n e old s = Ok j -> self_contained j.
Proof.
  revert s j. induction n as [|n IH]; intros s j; cbn [resolve]; [discriminate|]. cbv zeta.
  assert (fin : forall (o : bool) x, self_contained x -> self_contained (if o then JList [JStr "null"; x] else x)) by (intros [] x X; cbn; auto).
  assert (arr : forall x, self_contained x -> self_contained (JDict [("type", JStr "array"); ("items", x)])) by (intros x X; cbn; repeat split; auto; discriminate).
  destruct (endswith "[]" _).
  - destruct old.
    + destruct (endswith "[]" _); [injection 1 as <-; exact I|]. destruct (e _) as [i|]; cbn [bind]; [|discriminate]. injection 1 as <-. apply fin, arr. exact I.
    + destruct (resolve n e false _) as [i|] eqn:R; cbn [bind]; [|discriminate]. apply IH in R.
      destruct i; cbn [bind]; try (injection 1 as <-; apply fin, arr; exact R). destruct (e s0); cbn [bind]; [|discriminate]. injection 1 as <-. apply fin, arr. exact I.
  - destruct (e _) as [i|]; cbn [bind]; [|discriminate]. injection 1 as <-. apply fin. exact I.
Qed.
Lemma sc_add_new r i : Forall self_contained r -> self_contained i -> Forall self_contained (add_new r i).
Proof. intros F S. unfold add_new. destruct (existsb _ r); auto. apply Forall_app. auto. Qed.
Lemma resolve_list_fine r1 r ds : (forall s, fine (r1 s)) -> (forall s j, r1 s = Ok j -> self_contained j) -> Forall self_contained r -> Forall self_contained ds ->
  fine (resolve_list r1 r ds) /\ forall x, resolve_list r1 r ds = Ok x -> Forall self_contained x.
Proof.
  intros F S. revert r. induction ds as [|d ds IH]; intros r R D; cbn [resolve_list]; [split; [exact I|intros x [= <-]; auto]|].
  inversion D; subst. assert (K : fine (resolve_list r1 (r ++ [d]) ds) /\ forall x, resolve_list r1 (r ++ [d]) ds = Ok x -> Forall self_contained x).
  { apply IH; auto. apply Forall_app; auto. }
  destruct d; auto. split.
  - apply fine_bind; auto. intros j J. apply S in J. destruct j; try (apply IH; auto; apply sc_add_new; auto).
    apply IH; auto. apply sc_list in J. clear - R J. revert r R. induction J as [|y l Y J IH]; intros r R; cbn [fold_left]; auto. apply IH, sc_add_new; auto.
  - destruct (r1 s) as [j|] eqn:J; cbn [bind]; [|discriminate]. apply S in J. intros x. destruct j; try (apply IH; auto; apply sc_add_new; auto).
    apply IH; auto. apply sc_list in J. clear - R J. revert r R. induction J as [|y l Y J IH]; intros r R; cbn [fold_left]; auto. apply IH, sc_add_new; auto.
Qed.

Lemma sc_secondary_map d : Forall sc_pair d -> fine (secondary_map d) /\ forall j, secondary_map d = Ok j -> self_contained j.
Proof.
  intros F. unfold secondary_map. destruct (dget "pattern" d) as [p|] eqn:P; [|split; [exact I|discriminate]]. cbv zeta.
  destruct (dpop "required" (dpop "pattern" d)); [|split; [exact I|discriminate]]. split; [exact I|]. intros j [= <-].
  assert (self_contained p) by (eapply sc_dget; eauto).
  assert (self_contained (match dget "required" (dpop "pattern" d) with Some r => r | None => JNull end)).
  { destruct (dget "required" (dpop "pattern" d)) eqn:R; [|exact I]. eapply sc_dget; [apply sc_dpop; eauto|eauto]. }
  cbn. repeat split; auto; discriminate.
Qed.
Lemma sc_secondary_text s : self_contained (secondary_text s).
Proof. unfold secondary_text. destruct (endswith "?" s); cbn; repeat split; discriminate. Qed.
Lemma sc_secondary_item d : self_contained d -> fine (secondary_item d) /\ forall j, secondary_item d = Ok j -> self_contained j.
Proof.
  intros S. destruct d; cbn [secondary_item]; try (split; [exact I|discriminate]).
  - split; [exact I|]. intros j [= <-]. apply sc_secondary_text.
  - apply sc_secondary_map, sc_dict, S.
Qed.
Lemma sc_secondary d : self_contained d -> fine (secondary_dsl d) /\ forall l, secondary_dsl d = Ok l -> Forall self_contained l.
Proof.
  intros S. destruct d; cbn [secondary_dsl]; try (split; [exact I|discriminate]).
  - split; [exact I|]. intros l [= <-]. constructor; auto. apply sc_secondary_text.
  - apply sc_list in S. split.
    + apply fine_mapM. eapply Forall_impl; [|exact S]. intros a A. apply sc_secondary_item, A.
    + intros r M. apply mapM_Ok in M. clear - S M. induction M as [|x y l m H M IH]; auto. inversion S; subst. constructor; auto. eapply sc_secondary_item; eauto.
  - apply sc_dict in S. destruct (sc_secondary_map d S) as [F J]. split; [apply fine_bind; auto; intros; exact I|].
    destruct (secondary_map d) as [j|]; cbn [bind]; [|discriminate]. intros l [= <-]. auto.
Qed.
Lemma sc_id_map s p d : plain_key s = true -> match p with Some p => plain_key p = true | None => True end -> self_contained d ->
  fine (id_map s p d) /\ forall j, id_map s p d = Ok j -> self_contained j.
Proof.
  intros K P S. destruct d; cbn [id_map]; try (split; [exact I|intros j [= <-]; auto]).
  apply sc_dict in S.
  assert (E : forall k v, sc_pair (k, v) -> fine (id_map_entry s p k v) /\ forall j, id_map_entry s p k v = Ok j -> self_contained j).
  { intros k v [KP V]. cbn [fst snd] in *.
    assert (D : forall v, self_contained v -> fine (match p with Some p => if String.eqb p "" then Err ValidationException else Ok (JDict (dset s (JStr k) [(p, v)])) | None => Err ValidationException end) /\
      forall j, match p with Some p => if String.eqb p "" then Err ValidationException else Ok (JDict (dset s (JStr k) [(p, v)])) | None => Err ValidationException end = Ok j -> self_contained j).
    { intros w W. destruct p as [p|]; [|split; [exact I|discriminate]]. destruct (String.eqb p ""); [split; [exact I|discriminate]|]. split; [exact I|]. intros j J.
      assert (JDict (dset s (JStr k) [(p, w)]) = j) as <- by congruence. apply sc_dict. apply sc_dset; auto; [exact I|]. change (Forall sc_pair (dset p w [])). apply sc_dset; auto. }
    destruct v; cbn [id_map_entry]; try (apply D; exact V). split; [exact I|]. intros j [= <-]. apply sc_dict. apply sc_dset; auto; [exact I|]. apply sc_dict, V. }
  split.
  - apply fine_bind; [|intros; exact I]. apply fine_mapM. eapply Forall_impl; [|exact S]. intros [k v] A. apply (E k v A).
  - destruct (mapM _ d) as [r|] eqn:M; cbn [bind]; [|discriminate]. intros j [= <-]. apply sc_list. apply mapM_Ok in M.
    clear - S M E. induction M as [|[k v] y l m H M IH]; auto. inversion S; subst. constructor; auto. apply (E k v); auto.
Qed.

Lemma field_plain n d l b o : self_contained d -> load_field urljoin fetch_text read_yaml (load n) (document_load n) d l b o = load n l d b o None.
Proof.
  intros S. destruct d; auto. cbn [load_field]. apply sc_dict in S.
  rewrite (sc_no_key d "$import"), (sc_no_key d "$include") by auto. reflexivity.
Qed.
Lemma id_value n l d b o root v : id_loader l = true -> load n l d b o root = Ok v -> v = VNull \/ exists s, v = VStr s.
Proof.
  intros D L. destruct n as [|n]; [discriminate|]. unfold load in L. rewrite load_S in L.
  destruct l as [| | | | | | | | |inner si vt sr nl| | |]; try discriminate. cbn [load_body] in L. cbv zeta in L.
  match type of L with bind ?r _ = _ => destruct r as [j|]; cbn [bind] in L; [|discriminate] end.
  match type of L with bind ?r _ = _ => destruct r as [[]|]; cbn [bind] in L; [|discriminate] end.
  assert (P : forall m b o r j v, load m (LPrim PStr) j b o r = Ok v -> exists s, v = VStr s).
  { intros m b' o' r j' v' H. destruct m; [discriminate|]. unfold load in H. rewrite load_S in H. destruct j'; try discriminate. cbn in H. injection H as <-. eauto. }
  assert (Q : forall m b o r j v, load m (LPrim PNull) j b o r = Ok v -> v = VNull).
  { intros m b' o' r j' v' H. destruct m; [discriminate|]. unfold load in H. rewrite load_S in H. destruct j'; try discriminate. cbn in H. congruence. }
  destruct inner as [|[]| | | | | | |alts| | | |]; try discriminate.
  - right. eapply P. exact L.
  - destruct alts as [|[|[]| | | | | | | | | | |] [|[|[]| | | | | | | | | | |] [|]]]; try discriminate.
    destruct n as [|n]; [discriminate|]. rewrite load_S in L. cbn [load_body map first_of] in L.
    fold load in L. destruct (load n (LPrim PNull) j b (with_container None nl o) None) as [x|e] eqn:A.
    + injection L as ->. left. eapply Q. exact A.
    + destruct e; try discriminate. destruct (load n (LPrim PStr) j b (with_container None nl o) None) as [x|e] eqn:B; [|destruct e; discriminate].
      injection L as ->. right. eapply P. exact B.
Qed.

Lemma load_fine n : forall l d b o root, (sound known proxied l = true \/ id_loader l = true) -> self_contained d -> fine (load n l d b o root).
Proof.
  induction n as [|n IH]; intros l d b o root S0 D; [exact I|].
  assert (S : sound known proxied l = true).
  { destruct S0 as [S|S]; auto. destruct l as [| | | | | | | | |inner si vt sr nl| | |]; try discriminate.
    destruct inner as [|[]| | | | | | |alts| | | |]; try discriminate; auto. destruct alts as [|[|[]| | | | | | | | | | |] [|[|[]| | | | | | | | | | |] [|]]]; try discriminate. reflexivity. }
  unfold load. rewrite load_S. fold load. fold document_load. clear S0.
  destruct l as [|tp|syms| |items|values c nl|inner|cls c nl|alts|inner si vt sr nl|inner rs salad|inner subj pred|name]; cbn [load_body].
  - destruct d; exact I.
  - destruct (is_prim tp d); exact I.
  - destruct d; try exact I. destruct (smem s syms); exact I.
  - destruct d; exact I.
  - destruct d; try exact I. apply sc_list in D. apply fine_bind; [|intros [r|] _; exact I].
    apply fine_elements. eapply Forall_impl; [|exact D]. intros e E. cbv beta. rewrite field_plain by auto. apply IH; auto. left.
    apply sound_union. cbn [sound] in S. repeat constructor; auto.
  - destruct d; try exact I. apply sc_dict in D. apply fine_bind; [|intros [r|] _; exact I].
    apply fine_values. eapply Forall_impl; [|exact D]. intros e E. cbv beta. rewrite field_plain by apply E. apply IH; [left; exact S|apply E].
  - destruct (sc_secondary d D) as [F J]. apply fine_bind; [exact F|]. intros r R. apply IH; [left; exact S|]. apply sc_list. auto.
  - destruct d; try exact I. cbn [sound] in S. destruct (known_class cls S) as (k & K & SK). rewrite K. apply sc_dict in D.
    unfold sound_class in SK. apply andb_true_iff in SK. destruct SK as [SK SF]. apply andb_true_iff in SK. destruct SK as [SI SC].
    unfold from_doc. apply fine_bind.
    { unfold load_id. destruct (c_id k) as [[[nm req] idl]|]; [|exact I]. destruct (dget nm d) as [j|] eqn:G.
      - assert (SJ : self_contained j) by (eapply sc_dget; eauto). rewrite field_plain by auto.
        assert (FL : fine (load n idl j b (with_container c nl o) None)) by (apply IH; auto).
        destruct (load n idl j b (with_container c nl o) None) as [x|[]] eqn:L; cbn [noted bind]; auto.
        destruct (id_value n idl j _ _ _ x SI L) as [-> | [s ->]]; [|exact I]. destruct root; [exact I|]. destruct req; exact I.
      - cbn [bind]. destruct root; [exact I|]. destruct req; exact I. }
    intros idr _. cbv zeta. apply fine_bind.
    { unfold load_class. destruct (c_class k) as [cll|]; [|exact I]. destruct (dget "class" d) as [j|] eqn:G; [|exact I].
      assert (SJ : self_contained j) by (eapply sc_dget; eauto).
      assert (X : forall b', fine (do c0 <- load_field urljoin fetch_text read_yaml (load n) (document_load n) j cll b' (with_container c nl o);
        match c0 with VStr s => if String.eqb s (c_name k) || match dget (c_name k) (vocab (with_container c nl o)) with Some t => String.eqb s t | None => false end then Ok [("class", VStr (c_name k))] else Err ValidationException | _ => Err ValidationException end)).
      { intros b'. rewrite field_plain by auto. apply fine_bind; [apply IH; auto|]. intros x _. destruct x; try exact I. destruct (_ || _); exact I. }
      destruct j; try exact I; apply X. }
    intros cl _. apply fine_bind.
    { induction (c_fields k) as [|f fs IHf]; cbn [load_fields]; [exact I|]. cbn [forallb] in SF. apply andb_true_iff in SF. destruct SF as [SF1 SF].
      apply fine_bind.
      - unfold load_one. apply fine_bind; [destruct (f_subscope f); [apply fine_expand|exact I]|]. intros b' _.
        destruct (dget (f_name f) d) as [j|] eqn:G; [|destruct (f_required f); exact I]. assert (SJ : self_contained j) by (eapply sc_dget; eauto).
        assert (X : fine (noted (load_field urljoin fetch_text read_yaml (load n) (document_load n) j (f_loader f) b' (with_container c nl o)))).
        { apply fine_noted. rewrite field_plain by auto. apply IH; auto. }
        destruct j; auto. destruct (f_required f); [exact I|auto].
      - intros x _. apply fine_bind; [apply IHf; auto|]. intros [r|] _; destruct x; exact I. }
    intros fs _. apply fine_bind.
    { clear D. generalize (attrs k) (@nil (string * json)). intros names ext. revert ext. induction d as [|[kk v] d IHd]; intros ext; cbn [load_extensions]; [exact I|].
      destruct (smem kk names); [apply IHd|]. destruct (String.eqb kk "" || negb (has_char ":" kk)).
      - apply fine_bind; [apply IHd|intros; exact I].
      - apply fine_bind; [apply fine_expand|]. intros; apply IHd. }
    intros ext _. destruct idr as [[]|]; [|exact I]. destruct fs; [|exact I]. destruct ext; exact I.
  - apply sound_union in S. apply fine_first. clear - S IH D. induction S as [|a l A S IHs]; cbn [map]; constructor; auto.
  - cbv zeta.
    assert (E : forall s, fine (expand s b (with_container None nl o) si vt sr)) by (intros; apply fine_expand).
    apply fine_bind.
    { destruct d; try exact I.
      - apply fine_bind; [apply E|intros; exact I].
      - apply fine_bind; [|intros; exact I]. apply fine_mapM. apply Forall_forall. intros x _. destruct x; try exact I. apply fine_bind; [apply E|intros; exact I]. }
    intros j J. apply fine_bind.
    { destruct j; try exact I. destruct (no_link_check _); [exact I|]. specialize (checks s). destruct (check_exists s) as [[]|[]]; auto. }
    intros _ _. apply IH; [left; exact S|]. destruct d; try (injection J as <-; exact D).
    + destruct (expand_url _ _ s _ _ _ _ _) as [u|]; cbn [bind] in J; [|discriminate]. injection J as <-. exact I.
    + apply sc_list in D. match type of J with bind ?r _ = _ => destruct r as [x|] eqn:M; cbn [bind] in J; [|discriminate] end. injection J as <-. apply sc_list.
      apply mapM_Ok in M. clear - D M. induction M as [|x y l m H M IH]; auto. inversion D; subst. constructor; auto.
      destruct x; try congruence. match type of H with bind ?r _ = _ => destruct r; cbn [bind] in H; [|discriminate] end. injection H as <-. exact I.
  - cbn [sound] in S. apply andb_true_iff in S. destruct S as [S V]. destruct (salad_before_1_3 salad) as [old|] eqn:SV; [|discriminate].
    set (r1 := fun s : string => do old0 <- (if endswith "[]" (if endswith "?" s then sdrop_last 1 s else s) then Ok old else Ok true);
       resolve (Datatypes.S (String.length s)) (fun u => expand_url urljoin supported_schemes u b o false true rs) old0 s).
    assert (R : forall s, exists x, r1 s = resolve (Datatypes.S (String.length s)) (fun u => expand_url urljoin supported_schemes u b o false true rs) x s).
    { intros s. unfold r1. destruct (endswith "[]" _); cbn [bind]; eauto. }
    assert (R1 : forall s, fine (r1 s)) by (intros s; destruct (R s) as [x ->]; apply fine_resolve; intros; apply fine_expand).
    assert (R2 : forall s j, r1 s = Ok j -> self_contained j) by (intros s j; destruct (R s) as [x ->]; apply sc_resolve).
    apply fine_bind.
    + destruct d; try exact I; [apply R1|]. apply sc_list in D. apply fine_bind; [|intros; exact I]. apply (resolve_list_fine r1 []); auto.
    + intros j J. apply IH; [left; exact S|]. destruct d; try (injection J as <-; exact D).
      * apply (R2 s). exact J.
      * apply sc_list in D. cbn [type_dsl] in J. match type of J with bind ?r _ = _ => destruct r as [x|] eqn:M; cbn [bind] in J; [|discriminate] end. injection J as <-. apply sc_list.
        exact (proj2 (resolve_list_fine r1 [] l R1 R2 (Forall_nil _) D) x M).
  - cbn [sound] in S. apply andb_true_iff in S. destruct S as [S P]. apply andb_true_iff in S. destruct S as [S K].
    destruct (sc_id_map subj pred d K) as [F J]; [destruct pred; auto|auto|]. apply fine_bind; [exact F|]. intros j E. apply IH; auto.
  - cbn [sound] in S. destruct (known_proxy name S) as (l & -> & SL). apply IH; auto.
Qed.
End Refusal.

(** The tables satisfy it *)
(** The classes used by documents; the two others refer to classes of the metaschema *)
Definition known_in (v : version) (c : string) : bool :=
  match classes_of v c with Some _ => negb (smem c ["CWLArraySchema"; "CWLRecordField"; "CWLRecordSchema"]) | None => false end.
Definition proxied_in (v : version) (n : string) : bool := match proxies_of v n with Some _ => true | None => false end.
Lemma tables_known v c : known_in v c = true -> exists k, classes_of v c = Some k /\ sound_class (known_in v) (proxied_in v) k = true.
Proof.
  assert (A : forallb (fun kv => negb (known_in v (fst kv)) || sound_class (known_in v) (proxied_in v) (snd kv)) (all_of v) = true) by (destruct v; vm_compute; reflexivity).
  assert (E : classes_of v c = dget c (all_of v)) by (destruct v; reflexivity).
  intros KN. assert (K : exists k, classes_of v c = Some k) by (unfold known_in in KN; destruct (classes_of v c); [eauto|discriminate]). destruct K as [k K].
  rewrite K in *. exists k. split; auto. symmetry in E. apply dget_In in E. apply (proj1 (forallb_forall _ _) A) in E. cbn [fst snd] in E. rewrite KN in E. exact E.
Qed.
Lemma tables_proxied v n : proxied_in v n = true -> exists l, proxies_of v n = Some l /\ sound (known_in v) (proxied_in v) l = true.
Proof.
  assert (A : forallb (fun kv => sound (known_in v) (proxied_in v) (snd kv)) (named_of v) = true) by (destruct v; vm_compute; reflexivity).
  assert (E : proxies_of v n = dget n (named_of v)) by (destruct v; reflexivity).
  unfold proxied_in. destruct (proxies_of v n) as [l|] eqn:K; [|discriminate]. intros _. exists l. split; auto.
  symmetry in E. apply dget_In in E. apply (proj1 (forallb_forall _ _) A) in E. exact E.
Qed.
Lemma tables_top v : sound (known_in v) (proxied_in v) (top_of v) = true.
Proof. destruct v; vm_compute; reflexivity. Qed.
