(** * Proofs about packing *)
From Coq Require Import DecimalString DecimalNat DecimalFacts.
From Verif Require Import PyBase PyBaseProofs UtilsModel PackModel PackSpec.

(** ** computations *)
Lemma mbind_Ok {A B} (m : M A) (f : A -> M B) s r : mbind m f s = Ok r ->
  exists a s1, m s = Ok (a, s1) /\ f a s1 = Ok r.
Proof. unfold mbind, bind. destruct (m s) as [[a s1]|e]; [|discriminate]. eauto. Qed.
Lemma bind_Ok {A B} (m : result A) (f : A -> result B) r : bind m f = Ok r ->
  exists a, m = Ok a /\ f a = Ok r.
Proof. destruct m; cbn; [eauto|discriminate]. Qed.
Lemma lift_Ok {A} (m : result A) s r : lift m s = Ok r -> exists a, m = Ok a /\ r = (a, s).
Proof. unfold lift, bind. destruct m; [|discriminate]. intros H. injection H as <-. eauto. Qed.

Ltac inv_ok :=
  repeat match goal with
  | H : mbind _ _ _ = Ok _ |- _ =>
      let a := fresh "a" in let s := fresh "s" in let E := fresh "E" in
      apply mbind_Ok in H; destruct H as (a & s & E & H)
  | H : bind _ _ = Ok _ |- _ =>
      let a := fresh "a" in let E := fresh "E" in
      apply bind_Ok in H; destruct H as (a & E & H)
  | H : lift _ _ = Ok _ |- _ =>
      let a := fresh "a" in let E := fresh "E" in
      apply lift_Ok in H; destruct H as (a & E & H)
  | H : ret _ _ = Ok _ |- _ => unfold ret in H
  | H : fail _ _ = Ok _ |- _ => discriminate H
  | H : Err _ = Ok _ |- _ => discriminate H
  | H : Ok _ = Ok _ |- _ => injection H; clear H; intros; subst
  | H : (_, _) = (_, _) |- _ => injection H; clear H; intros; subst
  | H : context [let (_, _) := ?p in _] |- _ => is_var p; destruct p
  end.

Lemma mmap_Forall {A B} (f : A -> M B) (P : B -> Prop) l : forall s l' s',
  (forall x s y s', In x l -> f x s = Ok (y, s') -> P y) -> mmap f l s = Ok (l', s') -> Forall P l'.
Proof.
  induction l as [|x l IH]; intros s l' s' H E; cbn in E; inv_ok; constructor.
  - eapply H; [|eassumption]. cbn; auto.
  - eapply IH; [|eassumption]. intros; eapply H; [|eassumption]. cbn; auto.
Qed.
Lemma mmap_inv {A B} (f : A -> M B) (I : naming -> Prop) l : forall s l' s',
  (forall x s y s', In x l -> I s -> f x s = Ok (y, s') -> I s') -> I s -> mmap f l s = Ok (l', s') -> I s'.
Proof.
  induction l as [|x l IH]; intros s l' s' H I0 E; cbn in E; inv_ok; auto.
  eapply IH; [| |eassumption]; [intros; eapply H; eauto; cbn; auto|]. eapply H; [|exact I0|eassumption]. cbn; auto.
Qed.

(** ** inside *)
Lemma Inside_inv x z : Inside x z ->
  match z with
  | JList l => exists y, In y l /\ (x = y \/ Inside x y)
  | JDict d => exists k y, In (k, y) d /\ (x = y \/ Inside x y)
  | _ => False
  end.
Proof.
  induction 1 as [x l I|k x d I|x y z I1 IH1 I2 IH2].
  - exists x. auto.
  - exists k, x. auto.
  - destruct z; auto.
    + destruct IH2 as (w & J & [->|K]); exists w; split; auto. right. eapply In_deeper; eauto.
    + destruct IH2 as (k & w & J & [->|K]); exists k, w; split; auto. right. eapply In_deeper; eauto.
Qed.

Section Everywhere.
  Variable P : json -> Prop.
  (** [P] holds of [j] and of everything inside *)
  Definition Everywhere (j : json) : Prop := P j /\ forall x, Inside x j -> P x.

  Lemma every_list l : (forall l, P (JList l)) -> Everywhere (JList l) <-> Forall Everywhere l.
  Proof.
    intros PL. rewrite Forall_forall. split.
    - intros [_ H] x I. split; [apply H; constructor; auto|]. intros y J. apply H. eapply In_deeper; [eauto|]. constructor. auto.
    - intros H. split; auto. intros x I. apply Inside_inv in I. destruct I as (y & I & [->|J]); destruct (H _ I) as [A B]; auto.
  Qed.
  Lemma every_dict d : Everywhere (JDict d) <-> P (JDict d) /\ Forall (fun kv => Everywhere (snd kv)) d.
  Proof.
    rewrite Forall_forall. split.
    - intros [H0 H]. split; auto. intros [k x] I. cbn. split; [apply H; econstructor; eauto|].
      intros y J. apply H. eapply In_deeper; [eauto|]. econstructor. eauto.
    - intros [H0 H]. split; auto. intros x I. apply Inside_inv in I. destruct I as (k & y & I & J).
      destruct (H _ I) as [A B]. cbn in *. destruct J as [->|J]; auto.
  Qed.
  Lemma every_atom j : match j with JList _ | JDict _ => False | _ => True end -> P j -> Everywhere j.
  Proof. intros A H. split; auto. intros x I. apply Inside_inv in I. destruct j; tauto. Qed.
  Lemma every_dget k d v : Everywhere (JDict d) -> dget k d = Some v -> Everywhere v.
  Proof.
    intros H E. apply every_dict in H. destruct H as [_ H]. rewrite Forall_forall in H.
    apply dget_In in E. apply (H (k, v)). auto.
  Qed.
End Everywhere.

Lemma Forall_dset {V} (Q : string * V -> Prop) k v d : Forall Q d -> Q (k, v) -> Forall Q (dset k v d).
Proof.
  intros F H. induction d as [|[k' v'] d IH]; cbn.
  - constructor; auto.
  - apply Forall_cons_iff in F. destruct F as [F1 F]. destruct (String.eqb_spec k k') as [->|N]; constructor; auto.
Qed.

Definition TC := TextClasses.
Lemma TC_def j : TC j = Everywhere TextClass j.
Proof. reflexivity. Qed.
Lemma TC_list l : TC (JList l) <-> Forall TC l.
Proof. apply every_list. intros l' d v E. discriminate. Qed.
Lemma TC_atom j : match j with JList _ | JDict _ => False | _ => True end -> TC j.
Proof. intros A. apply every_atom; auto. intros d v E. subst. destruct A. Qed.
Lemma TC_str s : TC (JStr s). Proof. apply TC_atom. exact I. Qed.
Lemma TC_dget k d v : TC (JDict d) -> dget k d = Some v -> TC v.
Proof. apply every_dget. Qed.
Lemma TC_class d v : TC (JDict d) -> dget "class" d = Some v -> exists s, v = JStr s.
Proof. intros [H _]. eapply H. reflexivity. Qed.
Lemma TC_dset k v d : TC v -> (k = "class" -> exists s, v = JStr s) -> TC (JDict d) -> TC (JDict (dset k v d)).
Proof.
  intros V C H. rewrite TC_def in *. apply every_dict in H. destruct H as [H0 H]. apply every_dict. split.
  - intros d' v' E G. injection E as <-. destruct (string_dec "class" k) as [<-|N].
    + rewrite dget_dset_same in G. injection G as <-. auto.
    + rewrite dget_dset_other in G by auto. eapply H0; eauto.
  - apply Forall_dset; auto.
Qed.
Lemma TC_single k v : TC v -> (k = "class" -> exists s, v = JStr s) -> TC (JDict [(k, v)]).
Proof.
  intros V C. change [(k, v)] with (dset k v []). apply TC_dset; auto.
  rewrite TC_def. apply every_dict. split; [|constructor]. intros d w E G. injection E as <-. discriminate.
Qed.
Lemma TC_get_or k d v : TC (JDict d) -> TC v -> TC (get_or k d v).
Proof. intros H V. unfold get_or. destruct (dget k d) eqn:E; auto. eapply TC_dget; eauto. Qed.

Lemma mapM_Forall {A B} (f : A -> result B) (P : B -> Prop) l l' :
  (forall x y, In x l -> f x = Ok y -> P y) -> mapM f l = Ok l' -> Forall P l'.
Proof.
  revert l'. induction l as [|x l IH]; intros l' H E; cbn in E; inv_ok; constructor.
  - eapply H; [|eassumption]. cbn; auto.
  - eapply IH; [|eassumption]. intros; eapply H; [|eassumption]. cbn; auto.
Qed.

Lemma normalize_to_list_TC obj kf vf l : TC obj -> vf <> Some "class" -> normalize_to_list obj kf vf = Ok l -> Forall TC l.
Proof.
  intros H V E. destruct obj; cbn in E; try discriminate.
  - injection E as <-. apply TC_list. auto.
  - eapply mapM_Forall; [|exact E]. intros [k v] y I Y. unfold to_list_entry in Y. cbn [fst snd] in Y.
    assert (TV : TC v). { rewrite TC_def in H. apply every_dict in H. destruct H as [_ H]. rewrite Forall_forall in H. apply (H _ I). }
    assert (D : forall f w, TC w -> f <> "class" -> TC (JDict (dset kf (JStr k) [(f, w)]))).
    { intros f w W N. apply TC_dset; [apply TC_str|eauto|]. apply TC_single; auto. congruence. }
    destruct v; try (destruct vf as [f|]; [|discriminate]; inv_ok; apply D; auto; congruence).
    inv_ok. apply TC_dset; eauto using TC_str.
Qed.

Lemma dget_dset_none {V} k k' (v : V) d : k <> k' -> dget k (dset k' v d) = dget k d.
Proof. intros. apply dget_dset_other. auto. Qed.

Lemma get_is_spec k s d : get_is k s d = true <-> dget k d = Some (JStr s).
Proof.
  unfold get_is, is_str. destruct (dget k d) as [[]|]; split; try discriminate; intros H.
  - apply String.eqb_eq in H. congruence.
  - injection H as ->. apply String.eqb_refl.
Qed.
Lemma get_is_false k s d : get_is k s d = false <-> dget k d <> Some (JStr s).
Proof. rewrite <- get_is_spec. destruct (get_is k s d); split; congruence. Qed.
Lemma is_str_spec s j : is_str s j = true <-> j = JStr s.
Proof.
  destruct j; cbn; split; try discriminate; intros H.
  - apply String.eqb_eq in H. congruence.
  - injection H as ->. apply String.eqb_refl.
Qed.

Lemma mapM_in {A B} (f : A -> result B) l l' y : mapM f l = Ok l' -> In y l' -> exists x, In x l /\ f x = Ok y.
Proof.
  revert l'. induction l as [|x l IH]; intros l' E I; cbn in E; inv_ok; [destruct I|].
  destruct I as [->|I]; [exists x; cbn; auto|]. destruct (IH _ E1 I) as (z & J & Z). exists z. cbn. auto.
Qed.

(** ** listify *)
Lemma listify_spec d d' : listify_everything d = Ok d' -> TC (JDict d) ->
  TC (JDict d') /\ list_section "inputs" d' /\ list_section "outputs" d' /\ list_section "requirements" d' /\
  (forall k, ~ In k ["inputs"; "outputs"; "requirements"; "steps"] -> dget k d' = dget k d) /\
  (IsWorkflow d' -> exists l, dget "steps" d' = Some (JList l) /\ forall st, In (JDict st) l -> list_section "in" st).
Proof.
  intros E H. unfold listify_everything in E. inv_ok.
  set (d1 := dset "inputs" (JList a) d) in *. set (d2 := dset "outputs" (JList a0) d1) in *.
  set (d3 := dset "requirements" (JList a1) d2) in *.
  assert (NT : forall l, Forall TC l -> TC (JList l)) by (intros; apply TC_list; auto).
  assert (T1 : TC (JDict d1)).
  { apply TC_dset; auto; [|discriminate]. apply NT. eapply normalize_to_list_TC; [| |exact E0]; [|discriminate].
    apply TC_get_or; auto. }
  assert (T2 : TC (JDict d2)).
  { apply TC_dset; auto; [|discriminate]. apply NT. eapply normalize_to_list_TC; [| |exact E1]; [|discriminate].
    apply TC_get_or; auto. }
  assert (T3 : TC (JDict d3)).
  { apply TC_dset; auto; [|discriminate]. apply NT. eapply normalize_to_list_TC; [| |exact E2]; [|discriminate].
    apply TC_get_or; auto. }
  assert (G : list_section "inputs" d3 /\ list_section "outputs" d3 /\ list_section "requirements" d3).
  { unfold list_section, d3, d2, d1. split; [|split].
    - rewrite 2 dget_dset_other by discriminate. rewrite dget_dset_same. eauto.
    - rewrite dget_dset_other by discriminate. rewrite dget_dset_same. eauto.
    - rewrite dget_dset_same. eauto. }
  assert (K : forall k, ~ In k ["inputs"; "outputs"; "requirements"; "steps"] -> dget k d3 = dget k d).
  { intros k N. unfold d3, d2, d1. cbn in N. rewrite !dget_dset_other by (intros ->; tauto). reflexivity. }
  destruct G as (G1 & G2 & G3).
  destruct (get_is "class" "Workflow" d3) eqn:W; cbn [negb] in E; inv_ok.
  - assert (S : Forall TC a3 /\ forall st, In (JDict st) a3 -> list_section "in" st).
    { assert (T4 : Forall TC a2).
      { eapply normalize_to_list_TC; [| |exact E3]; [|discriminate]. apply TC_get_or; auto. }
      split.
      - eapply mapM_Forall; [|exact E4]. intros x y I Y. rewrite Forall_forall in T4. specialize (T4 x I).
        destruct x; inv_ok; auto. apply TC_dset; auto; [|discriminate].
        apply NT. eapply normalize_to_list_TC; [| |eassumption]; [|discriminate]. apply TC_get_or; auto.
      - intros st I. destruct (mapM_in _ _ _ _ E4 I) as (x & J & X). destruct x; inv_ok; try discriminate.
        eexists. rewrite dget_dset_same. reflexivity. }
    destruct S as [S1 S2].
    split; [apply TC_dset; auto; discriminate|].
    unfold list_section in *. rewrite !dget_dset_other by discriminate.
    split; auto. split; auto. split; auto. split.
    + intros k N. rewrite dget_dset_other; [auto|]. intros ->. apply N. cbn. tauto.
    + intros _. rewrite dget_dset_same. eauto.
  - split; auto. split; auto. split; auto. split; auto. split; auto.
    intros X. apply get_is_false in W. contradiction.
Qed.

(** ** sources *)
Lemma OneHash_spec s s' : OneHash s s' <-> s' = _normalize s.
Proof.
  unfold OneHash, _normalize, startswith. destruct s as [|c s].
  - split; [intros [H|[-> _]]; [discriminate|reflexivity]|intros ->; right; split; auto; discriminate].
  - cbn [prefix]. destruct (Ascii.ascii_dec "#" c) as [<-|N].
    + destruct s; (split; [intros [H|[_ H]]; [injection H as <-; reflexivity|exfalso; eapply H; reflexivity]|intros ->; auto]).
    + split; [intros [H|[-> _]]; [congruence|reflexivity]|intros ->; right; split; auto; congruence].
Qed.

Lemma dkeys_dset_same {V} k (v w : V) d : dget k d = Some w -> dkeys (dset k v d) = dkeys d.
Proof.
  intros H. induction d as [|[k' v'] d IH]; cbn in *; [discriminate|].
  destruct (String.eqb k k'); cbn; [reflexivity|]. f_equal. auto.
Qed.

Lemma normalize_entry_spec key e : EntryNormal key e (normalize_entry key e).
Proof.
  destruct e as [| | | |s|l|d]; cbn; try (apply EN_same; discriminate).
  - apply EN_text. apply OneHash_spec. reflexivity.
  - destruct (dget key d) as [[| | | |s|l|d2]|] eqn:E; try (apply EN_same; [discriminate|intros d' s' X; injection X as <-; congruence]).
    eapply EN_entry; eauto.
    + apply OneHash_spec. reflexivity.
    + eapply dkeys_dset_same; eauto.
    + apply dget_dset_same.
    + intros k N. apply dget_dset_other. auto.
Qed.
Lemma normalize_step_spec st : StepNormal st (normalize_step st).
Proof.
  destruct st as [| | | |s|l|d]; cbn; try (apply StN_same; discriminate).
  destruct (dget "in" d) as [[| | | |s|l|d2]|] eqn:E; try (apply StN_same; intros d' l' X; injection X as <-; congruence).
  apply StN_step with (l := l) (l' := map (normalize_entry "source") l); auto.
  - clear E. induction l; cbn; constructor; auto. apply normalize_entry_spec.
  - eapply dkeys_dset_same; eauto.
  - apply dget_dset_same.
  - intros k N. apply dget_dset_other. auto.
Qed.

Lemma TC_normalize_entry key e : key <> "class" -> TC e -> TC (normalize_entry key e).
Proof.
  intros N H. destruct e as [| | | |s|l|d]; cbn; auto; [apply TC_str|].
  destruct (dget key d) as [[| | | |s|l|d2]|]; auto. apply TC_dset; auto; [apply TC_str|congruence].
Qed.
Lemma TC_normalize_step st : TC st -> TC (normalize_step st).
Proof.
  intros H. destruct st as [| | | |s|l|d]; cbn; auto. destruct (dget "in" d) as [[| | | |s|l|d2]|] eqn:E; auto.
  apply TC_dset; auto; [|discriminate]. apply TC_list. apply Forall_map. apply (TC_dget "in") in E; auto.
  apply TC_list in E. eapply Forall_impl; [|exact E]. intros; apply TC_normalize_entry; auto. discriminate.
Qed.

Lemma normalize_sources_spec d : let d' := normalize_sources d in
  (TC (JDict d) -> TC (JDict d')) /\
  (forall k, k <> "steps" -> k <> "outputs" -> dget k d' = dget k d) /\
  (list_section "outputs" d -> list_section "outputs" d') /\
  (forall l, dget "steps" d = Some (JList l) -> exists l', dget "steps" d' = Some (JList l') /\
     ((forall st, In (JDict st) l -> list_section "in" st) -> forall st, In (JDict st) l' -> list_section "in" st)).
Proof.
  unfold normalize_sources. destruct (get_is "class" "Workflow" d); cbn [negb]; [|cbv zeta; split; auto; split; auto; split; auto; intros l E; exists l; auto].
  set (d1 := match dget "steps" d with Some (JList l) => dset "steps" (JList (map normalize_step l)) d | _ => d end).
  assert (A : (TC (JDict d) -> TC (JDict d1)) /\ (forall k, k <> "steps" -> dget k d1 = dget k d) /\
    (forall l, dget "steps" d = Some (JList l) -> exists l', dget "steps" d1 = Some (JList l') /\
     ((forall st, In (JDict st) l -> list_section "in" st) -> forall st, In (JDict st) l' -> list_section "in" st))).
  { unfold d1. destruct (dget "steps" d) as [[| | | |s|l|d2]|] eqn:E; (split; [|split]); auto; try congruence.
    - intros H. apply TC_dset; auto; [|discriminate]. apply (TC_dget "steps") in E; auto. apply TC_list in E. apply TC_list.
      apply Forall_map. eapply Forall_impl; [|exact E]. apply TC_normalize_step.
    - intros k N. apply dget_dset_other. auto.
    - intros l0 X. injection X as <-. eexists. rewrite dget_dset_same. split; [reflexivity|].
      intros H st I. apply in_map_iff in I. destruct I as (x & X & I). destruct x as [| | | |s|l0|d0]; cbn in X; try discriminate.
      assert (L := H d0 I). destruct L as [l0 L]. rewrite L in X. injection X as <-. eexists. rewrite dget_dset_same. reflexivity. }
  clearbody d1. destruct A as (A1 & A2 & A3). cbv zeta.
  destruct (dget "outputs" d1) as [[| | | |s|l|d2]|] eqn:E; (split; [|split; [|split]]); auto; try (intros k N1 N2; apply A2; auto);
    try (intros [l' L]; rewrite A2 in E by discriminate; congruence).
  - intros H. apply A1 in H. apply TC_dset; auto; [|discriminate]. apply (TC_dget "outputs") in E; auto. apply TC_list in E. apply TC_list.
    apply Forall_map. eapply Forall_impl; [|exact E]. intros; apply TC_normalize_entry; auto. discriminate.
  - intros k N1 N2. rewrite dget_dset_other by auto. auto.
  - intros _. eexists. rewrite dget_dset_same. reflexivity.
  - intros l0 L. destruct (A3 l0 L) as (l' & B & C). exists l'. rewrite dget_dset_other by discriminate. auto.
Qed.

Section Files.
  Variable url_scheme url_path : string -> string.
  Variable urljoin : string -> string -> string.
  Variable read_text urlopen : string -> result string.
  Variable parse_yaml : string -> result json.

  Notation load := (load_linked_file url_scheme url_path urljoin read_text urlopen parse_yaml).
  Notation resolved := (resolved_path url_scheme url_path urljoin).
  Notation inline := (inline_type url_scheme url_path urljoin read_text urlopen parse_yaml).
  Notation imports := (resolve_imports url_scheme url_path urljoin read_text urlopen parse_yaml).

  Lemma load_fun : forall f1 f2 base link b r1 r2, load f1 base link b = Ok r1 -> load f2 base link b = Ok r2 -> r1 = r2.
  Proof.
    induction f1 as [|f1 IH]; intros f2 base link b r1 r2 A B; [discriminate|]. destruct f2 as [|f2]; [discriminate|].
    cbn [load_linked_file] in A, B. inv_ok. rewrite E in E0. injection E0 as ->.
    destruct (is_github_symbolic_link _ _ _); [eapply IH; eauto|]. destruct b; inv_ok; congruence.
  Qed.

  Lemma load_yaml (P : json -> Prop) : (forall t j, parse_yaml t = Ok j -> P j) ->
    forall f base link j u, load f base link true = Ok (j, u) -> P j.
  Proof.
    intros H. induction f as [|f IH]; intros base link j u E; [discriminate|]. cbn [load_linked_file] in E. inv_ok.
    destruct (is_github_symbolic_link _ _ _); [eapply IH; eauto|]. inv_ok. eauto.
  Qed.
  Lemma load_text : forall f base link j u, load f base link false = Ok (j, u) -> exists s, j = JStr s.
  Proof.
    induction f as [|f IH]; intros base link j u E; [discriminate|]. cbn [load_linked_file] in E. inv_ok.
    destruct (is_github_symbolic_link _ _ _); [eapply IH; eauto|]. inv_ok. eauto.
  Qed.

  (** ** inlined types *)
  Lemma inline_inlined : forall fuel v base udt s j s', inline fuel v base udt s = Ok (j, s') -> Inlined j.
  Proof.
    induction fuel as [|fuel IH]; intros v base udt s j s' E; [discriminate|]. cbn [inline_type] in E. inv_ok.
    destruct v as [| | | |str|l|d]; inv_ok.
    - destruct (endswith "[]" str) eqn:E1; inv_ok.
      { eapply I_array; [reflexivity|reflexivity|]. eauto. }
      destruct (endswith "?" str) eqn:E2; inv_ok.
      { apply I_union. constructor; [constructor; cbn; auto|]. constructor; [eauto|constructor]. }
      destruct (smem str built_in_types) eqn:E3; inv_ok.
      { constructor. apply smem_In. auto. }
      destruct (type_path _ _ _ base str) as [prefix path]. destruct (dget path udt) as [[| | | | | |d]|]; inv_ok. eauto.
    - apply I_union. eapply mmap_Forall; [|eassumption]. intros ? ? ? ? ? HH; eapply IH; exact HH.
    - assert (T : forall j s', (match get_or "type" d JNull with
                | JNull => fail MissingTypeName
                | t =>
                    if is_str "enum" t then ret (JDict d)
                    else if is_str "array" t then
                      match dget "items" d with
                      | None => fail AttributeError
                      | Some i => let* i' := inline fuel i base udt in ret (JDict (dset "items" i' d))
                      end
                    else if is_str "record" t then
                      match dget "fields" d with
                      | None => fail AttributeError
                      | Some f =>
                          let* fields := lift (normalize_to_list f "name" (Some "type")) in
                          let* fields' := mmap (fun x => inline fuel x base udt) fields in
                          ret (JDict (dset "fields" (JList fields') d))
                      end
                    else if match t with JStr s => smem s built_in_types | _ => false end then ret (JDict d)
                    else let* t' := inline fuel t base udt in ret (JDict (dset "type" t' d))
                end) s0 = Ok (j, s') -> Inlined j).
      { clear E j s'. intros j s' E. unfold get_or in E.
        assert (X : forall t, dget "type" d = Some t ->
            (if is_str "enum" t then ret (JDict d)
                    else if is_str "array" t then
                      match dget "items" d with
                      | None => fail AttributeError
                      | Some i => let* i' := inline fuel i base udt in ret (JDict (dset "items" i' d))
                      end
                    else if is_str "record" t then
                      match dget "fields" d with
                      | None => fail AttributeError
                      | Some f =>
                          let* fields := lift (normalize_to_list f "name" (Some "type")) in
                          let* fields' := mmap (fun x => inline fuel x base udt) fields in
                          ret (JDict (dset "fields" (JList fields') d))
                      end
                    else if match t with JStr s => smem s built_in_types | _ => false end then ret (JDict d)
                    else let* t' := inline fuel t base udt in ret (JDict (dset "type" t' d))) s0 = Ok (j, s') -> Inlined j).
        { clear E. intros t T E. destruct (is_str "enum" t) eqn:E1.
          { apply is_str_spec in E1. subst t. inv_ok. apply I_enum. auto. }
          destruct (is_str "array" t) eqn:E2.
          { apply is_str_spec in E2. subst t. destruct (dget "items" d) as [i|]; inv_ok.
            eapply I_array; [rewrite dget_dset_other by discriminate; eauto|apply dget_dset_same|eauto]. }
          destruct (is_str "record" t) eqn:E3.
          { apply is_str_spec in E3. subst t. destruct (dget "fields" d) as [i|]; inv_ok.
            eapply I_record; [rewrite dget_dset_other by discriminate; eauto|apply dget_dset_same|].
            eapply mmap_Forall; [|eassumption]. intros ? ? ? ? ? HH; eapply IH; exact HH. }
          destruct (match t with JStr s => smem s built_in_types | _ => false end) eqn:E4.
          { inv_ok. destruct t; try discriminate. eapply I_port; eauto. constructor. apply smem_In. auto. }
          inv_ok. eapply I_port; [apply dget_dset_same|]. eauto. }
        destruct (dget "type" d) as [t|]; [|discriminate]. specialize (X t eq_refl).
        destruct t; try discriminate; apply X; exact E. }
      destruct (get_or "$import" d JNull) eqn:EI; try (eapply T; exact E); clear T; inv_ok; eauto.
  Qed.

  Lemma inline_unknown fuel base udt s name : 
    endswith "[]" name = false -> endswith "?" name = false -> ~ In name built_in_types ->
    dget (snd (type_path url_scheme url_path urljoin base name)) udt = None ->
    inline (S fuel) (JStr name) base udt s = Err RuntimeError.
  Proof.
    intros A B C D. cbn [inline_type]. unfold mbind, bind, tick. rewrite A, B.
    destruct (smem name built_in_types) eqn:E; [apply smem_In in E; contradiction|].
    destruct (type_path _ _ _ base name) as [p q]. cbn in D. rewrite D. reflexivity.
  Qed.
End Files.
