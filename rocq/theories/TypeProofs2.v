(** * Lemmas: short names, unknown sources, records compared, scattered sources *)
From Verif Require Import PyBase PyBaseProofs TypeModel TypeSpec TypeProofs LinkProofs NameProofs.

(** ** short names *)
Lemma first_char c s : has_char c s = true -> exists a b, s = (a ++ String c b)%string /\ has_char c a = false.
Proof.
  induction s as [|d s IH]; [discriminate|]. cbn [has_char]. destruct (Ascii.eqb_spec c d) as [->|N].
  - intros _. exists "", s. auto.
  - cbn. intros H. destruct (IH H) as (a & b & -> & E). exists (String d a), b. split; auto.
    cbn. destruct (Ascii.eqb_spec c d); [contradiction|]. exact E.
Qed.

Lemma shortname_spec id n : ShortName id n <-> n = shortname id.
Proof.
  unfold shortname. destruct (has_char "#" id) eqn:H.
  - apply first_char in H. destruct H as (p & f & -> & P).
    rewrite (split_char_app "#" p f P). cbn [List.hd].
    assert (FR : match p :: split_char "#" f with _ :: x :: xs => sjoin "#" (x :: xs) | _ => "" end = f).
    { rewrite <- (sjoin_split_char "#" f) at 2. destruct (split_char "#" f) eqn:E; [|reflexivity].
      exfalso. eapply split_char_nonnil; eauto. }
    rewrite FR. destruct (String.eqb_spec f "") as [->|NE].
    + split.
      * intros [(p' & f' & E & P' & F' & A)|(p' & E & P' & A)].
        -- exfalso. apply F'.
           assert (X := f_equal (split_char "#") E). rewrite !split_char_app in X by auto.
           injection X as _ X. assert (Y := f_equal (sjoin "#") X). rewrite !sjoin_split_char in Y. auto.
        -- apply AfterLast_spec. destruct E as [E|E].
           { exfalso. rewrite <- E, has_char_app in P'. cbn in P'. rewrite Bool.orb_true_r in P'. discriminate. }
           change (p' ++ "#")%string with (p' ++ String "#" "")%string in E.
           assert (X := f_equal (split_char "#") E). rewrite !split_char_app in X by auto. injection X as ->. exact A.
      * intros E. right. exists p. split; [right; reflexivity|]. split; auto. apply AfterLast_spec. auto.
    + split.
      * intros [(p' & f' & E & P' & F' & A)|(p' & E & P' & A)].
        -- assert (X := f_equal (split_char "#") E). rewrite !split_char_app in X by auto.
           injection X as _ X. assert (Y := f_equal (sjoin "#") X). rewrite !sjoin_split_char in Y. subst f'.
           apply AfterLast_spec. auto.
        -- exfalso. destruct E as [E|E].
           { rewrite <- E, has_char_app in P'. cbn in P'. rewrite Bool.orb_true_r in P'. discriminate. }
           change (p' ++ "#")%string with (p' ++ String "#" "")%string in E.
           assert (X := f_equal (split_char "#") E). rewrite !split_char_app in X by auto.
           injection X as _ X. assert (Y := f_equal (sjoin "#") X). rewrite !sjoin_split_char in Y. auto.
      * intros E. left. exists p, f. repeat split; auto; apply AfterLast_spec in E; apply E.
  - rewrite split_char_none by auto. cbn [List.hd]. cbn. split.
    + intros [(p' & f' & E & P' & F' & A)|(p' & E & P' & A)].
      * exfalso. rewrite E, has_char_app in H. cbn in H. rewrite Bool.orb_true_r in H. discriminate.
      * destruct E as [<-|E]; [apply AfterLast_spec; auto|].
        exfalso. rewrite E, has_char_app in H. cbn in H. rewrite Bool.orb_true_r in H. discriminate.
    + intros E. right. exists id. split; auto. split; auto. apply AfterLast_spec. auto.
Qed.

(** ** unfed inputs *)
Lemma unfed_spec types sk : unfed types sk = true <-> Unfed types sk.
Proof.
  unfold unfed, Unfed. rewrite !andb_true_iff. split.
  - intros (((A & B) & C) & D). split; [|destruct (sk_source sk), (sk_default sk), (sk_valueFrom sk); auto; discriminate].
    destruct (dget (sk_id sk) types) as [u|]; [|discriminate]. exists u. split; auto.
    apply andb_true_iff in A. destruct A as [A1 A2]. split.
    + intros ->. discriminate.
    + intros l -> I. apply existsb_name in I. cbn in A2. rewrite I in A2. discriminate.
  - intros ((u & U & N1 & N2) & -> & -> & ->). rewrite U. repeat split; auto. apply andb_true_iff. split.
    + destruct (is_name "null" u) eqn:E; auto. apply is_name_eq in E. contradiction.
    + destruct u; auto. cbn. destruct (existsb (is_name "null") l) eqn:E; auto.
      apply existsb_name in E. exfalso. eapply N2; eauto.
Qed.

(** ** unknown sources *)
Lemma foldM_bad {A S} (f : S -> A -> result S) x l : In x l -> (forall st, exists e, f st x = Err e) ->
  forall st, exists e, foldM f l st = Err e.
Proof.
  intros I B. induction l as [|y l IH]; [destruct I|]. intros st. cbn. destruct I as [->|I].
  - destruct (B st) as [e ->]. cbn. eauto.
  - destruct (f st y); cbn; eauto.
Qed.

Lemma mapM_bad {A B} (f : A -> result B) x l : In x l -> (exists e, f x = Err e) -> exists e, mapM f l = Err e.
Proof.
  intros I [e B']. induction l as [|y l IH]; [destruct I|]. cbn. destruct I as [->|I].
  - rewrite B'. cbn. eauto.
  - destruct (f y); cbn; [|eauto]. destruct (IH I) as [e' ->]. cbn. eauto.
Qed.

Lemma checker_unknown v ids steps sk src ck : In src (links sk) -> ~ In src ids ->
  exists e, checker v ids steps ck sk = Err e.
Proof.
  intros I N. assert (M : smem src ids = false).
  { destruct (smem src ids) eqn:E; auto. apply smem_In in E. contradiction. }
  assert (K : forall e0, exists e, (if smem src ids then Ok src else Err e0) = Err e) by (rewrite M; eauto).
  unfold checker, links in *. destruct v.
  1,2: unfold check_sink_v11; destruct (sk_source sk) as [|s|l]; cbn [scatter_list] in I; [destruct I| |];
    [destruct I as [->|[]]; rewrite M; eauto|];
    destruct (mapM_bad (fun s => if smem s ids then Ok s else Err KeyError) src l I (K _)) as [e E];
    unfold known_sources; rewrite E; cbn; eauto.
  unfold check_sink_v12. unfold get_type at 1. destruct (dget (sk_id sk) (ck_types ck)); cbn [bind]; [|eauto].
  destruct (sk_source sk) as [|s|l]; cbn [scatter_list] in I; [destruct I| |].
  - destruct I as [->|[]]. rewrite M. eauto.
  - destruct l as [|s [|s' l]]; [destruct I| |].
    + destruct I as [->|[]]. rewrite M. eauto.
    + match goal with |- exists e, bind (foldM ?f ?L ?S) _ = _ => destruct (foldM_bad f src L I) with (st := S) as [e ->] end.
      * intros st. rewrite M. eauto.
      * cbn. eauto.
Qed.

Lemma unknown_source wf v sk src :
  known_version (wf_version wf) = Some v -> In sk (sinks_of wf) -> In src (links sk) -> ~ In src (sources_of wf) ->
  exists e, static_checker wf = Err e.
Proof.
  intros V I J N. unfold static_checker, static_checker_report. rewrite V.
  destruct (all_types wf) as [types|]; cbn [bind]; [|eauto]. cbv zeta. unfold check_all_types.
  change (match v with V12 => check_sink_v12 (source_ids wf) (step_of_params wf) | _ => check_sink_v11 (source_ids wf) end)
    with (checker v (source_ids wf) (step_of_params wf)).
  unfold sinks_of in I. apply in_app_iff in I. destruct I as [I|I].
  - destruct (foldM_bad (checker v (source_ids wf) (step_of_params wf)) sk (step_inputs wf) I) with
      (st := {| ck_types := types; ck_warnings := []; ck_exceptions := [] |}) as [e ->].
    + intros st. eapply checker_unknown; eauto.
    + cbn. eauto.
  - destruct (foldM _ (step_inputs wf) _) as [c1|]; cbn [bind]; [|eauto].
    destruct (foldM_bad (checker v (source_ids wf) (step_of_params wf)) sk (map fst (wf_outputs wf)) I) with
      (st := {| ck_types := ck_types c1; ck_warnings := []; ck_exceptions := [] |}) as [e ->].
    + intros st. eapply checker_unknown; eauto.
    + cbn. eauto.
Qed.

(** with single sources only, nothing else than a ValidationException can happen *)
Definition single (sk : sink) : Prop := sk_source sk = NoSource \/ exists s, sk_source sk = OneSource s.

Lemma check_types_plain t u vf : exists v, check_types t u None vf = Ok v.
Proof. unfold check_types. destruct vf; [eauto|]. destruct (check_plain_spec t u) as (v & E & _). eauto. Qed.

Lemma single_step v ids steps (P : string -> Prop) sk ck :
  single sk -> P (sk_id sk) -> (forall s, In s ids -> P s) -> (forall k, P k -> dget k (ck_types ck) <> None) ->
  (exists ck', checker v ids steps ck sk = Ok ck' /\ forall k, P k -> dget k (ck_types ck') <> None) \/
  checker v ids steps ck sk = Err ValidationException.
Proof.
  intros S K D T. assert (KU : exists u, dget (sk_id sk) (ck_types ck) = Some u).
  { destruct (dget (sk_id sk) (ck_types ck)) eqn:E; eauto. exfalso. eapply T; eauto. }
  destruct KU as [u U]. 
  assert (CS : forall s ck1 msg, (forall k, P k -> dget k (ck_types ck1) <> None) -> P s ->
    exists ck', check_sources sk u None msg [s] ck1 = Ok ck' /\ forall k, P k -> dget k (ck_types ck') <> None).
  { intros s ck1 msg T1 Ps. unfold check_sources. cbn [foldM]. unfold get_type.
    destruct (dget s (ck_types ck1)) as [t|] eqn:E; [|exfalso; eapply T1; eauto]. cbn [bind].
    destruct (check_types_plain t u (sk_valueFrom sk)) as [x ->]. cbn [bind].
    destruct x; eexists; (split; [reflexivity|]); cbn; auto. }
  assert (V1 : (exists ck', check_sink_v11 ids ck sk = Ok ck' /\ forall k, P k -> dget k (ck_types ck') <> None) \/
     check_sink_v11 ids ck sk = Err ValidationException).
  { unfold check_sink_v11. destruct S as [->|[s ->]]; [left; eauto|]. destruct (smem s ids) eqn:M; [left|right; reflexivity].
    unfold get_type at 1. rewrite U. cbn [bind]. apply CS; auto. apply D, smem_In. auto. }
  unfold checker. destruct v; [exact V1|exact V1|]. unfold check_sink_v12.
  assert (GT : get_type (sk_id sk) (ck_types ck) = Ok u) by (unfold get_type; rewrite U; reflexivity).
  rewrite GT. cbn [bind].
  destruct S as [->|[s ->]]; [left; eauto|]. destruct (smem s ids) eqn:M; [left|right; reflexivity].
  assert (Ps : P s) by (apply D, smem_In; auto).
  set (ck0 := match sk_pickValue sk with Some _ => _ | None => _ end).
  assert (T0 : ck_types ck0 = ck_types ck) by (unfold ck0; destruct (sk_pickValue sk); reflexivity). clearbody ck0. cbv zeta.
  destruct (dget s (ck_types ck0)) as [t|] eqn:E; [|exfalso; rewrite T0 in E; eapply T; eauto].
  destruct (adjust_spec steps sk u None (from_step steps st_when s)
                 "Source is from conditional step and may produce `null`" ck0 s t E) as (ck1 & -> & _ & _ & S1 & O1).
  cbn [bind]. apply CS; auto. intros k Pk. destruct (string_dec k s) as [->|NE]; [congruence|].
  rewrite O1, T0 by auto. auto.
Qed.

Lemma single_fold v ids steps (P : string -> Prop) sinks : forall ck,
  Forall single sinks -> Forall (fun sk => P (sk_id sk)) sinks -> (forall s, In s ids -> P s) ->
  (forall k, P k -> dget k (ck_types ck) <> None) ->
  (exists ck', foldM (checker v ids steps) sinks ck = Ok ck' /\ forall k, P k -> dget k (ck_types ck') <> None) \/
  foldM (checker v ids steps) sinks ck = Err ValidationException.
Proof.
  induction sinks as [|sk sinks IH]; intros ck S K D T; [left; cbn; eauto|].
  apply Forall_cons_iff in S, K. destruct S as [S1 S], K as [K1 K]. cbn [foldM].
  destruct (single_step v ids steps P sk ck S1 K1 D T) as [(ck' & -> & T')| ->]; cbn [bind]; auto.
Qed.

Lemma single_checker wf v types :
  known_version (wf_version wf) = Some v -> all_types wf = Ok types -> Forall single (sinks_of wf) ->
  static_checker wf = Ok tt \/ static_checker wf = Err ValidationException.
Proof.
  intros V A S. unfold static_checker, static_checker_report. rewrite V, A. cbn [bind]. cbv zeta. unfold check_all_types.
  change (match v with V12 => check_sink_v12 (source_ids wf) (step_of_params wf) | _ => check_sink_v11 (source_ids wf) end)
    with (checker v (source_ids wf) (step_of_params wf)).
  unfold sinks_of in S. apply Forall_app in S. destruct S as [S1 S2].
  set (P := fun k => In k (map sk_id (sinks_of wf)) \/ In k (sources_of wf)).
  assert (D : forall s, In s (source_ids wf) -> P s) by (intros; right; auto).
  assert (K1 : Forall (fun sk => P (sk_id sk)) (step_inputs wf)).
  { apply Forall_forall. intros sk I. left. apply in_map. apply in_app_iff. auto. }
  assert (K2 : Forall (fun sk => P (sk_id sk)) (map fst (wf_outputs wf))).
  { apply Forall_forall. intros sk I. left. apply in_map. apply in_app_iff. auto. }
  destruct (single_fold v (source_ids wf) (step_of_params wf) P (step_inputs wf)
    {| ck_types := types; ck_warnings := []; ck_exceptions := [] |}) as [(c1 & -> & T1)| ->]; auto.
  { intros k Pk. eapply all_types_keys; eauto. }
  cbn [bind].
  destruct (single_fold v (source_ids wf) (step_of_params wf) P (map fst (wf_outputs wf))
    {| ck_types := ck_types c1; ck_warnings := []; ck_exceptions := [] |}) as [(c2 & -> & T2)| ->]; auto.
  cbn [bind]. destruct (r_exceptions _); auto.
Qed.

(** ** records compared *)
Lemma forallM_true {A} (p : A -> result bool) l : forallM p l = Ok true <-> forall x, In x l -> p x = Ok true.
Proof.
  induction l as [|x l IH]; cbn; [split; auto; intros _ x []|].
  destruct (p x) as [[]|e] eqn:E; cbn.
  - rewrite IH. split; [intros H y [<-|I]; auto|auto].
  - split; [discriminate|]. intros H. specialize (H x (or_introl eq_refl)). congruence.
  - split; [discriminate|]. intros H. specialize (H x (or_introl eq_refl)). congruence.
Qed.

Lemma Plain_field fs k t : Plain (TRecord fs) -> FieldOf fs k t -> Plain t.
Proof.
  intros H F. inversion H as [t' L|fs' G]; subst; eauto.
  destruct L as [[s E]|(c & n & s & r & E)]; discriminate.
Qed.

Lemma dmem_field k fs : dmem k (field_dict fs) = true <-> exists t, FieldOf fs k t.
Proof.
  unfold dmem. destruct (dget k (field_dict fs)) as [t|] eqn:E.
  - split; auto. intros _. exists t. apply field_dict_iff. auto.
  - split; [discriminate|]. intros [t F]. apply field_dict_iff in F. congruence.
Qed.

Lemma compare_plain : forall fuel a b, tsize a + tsize b < fuel -> Plain a -> Plain b ->
  (compare_type fuel a b = Ok true <-> SameType a b).
Proof.
  induction fuel as [|fuel IH]; intros a b L PA PB; [lia|].
  inversion PA as [t LF|fs FS]; subst.
  { assert (E : compare_type (S fuel) a b = Ok (py_eq a b)).
    { destruct LF as [[s ->]|(c & n & s & r & ->)]; reflexivity. }
    rewrite E. split.
    - intros H. injection H as H. apply py_eq_iff in H. destruct H as [-> _]. constructor. auto.
    - intros H. f_equal. inversion H; subst.
      + apply py_eq_iff. auto.
      + destruct LF as [[s X]|(c & n & s & r & X)]; discriminate. }
  inversion PB as [t LF|gs GS]; subst.
  { split.
    - destruct LF as [[s ->]|(c & n & s & r & ->)]; discriminate.
    - intros H. inversion H; subst; destruct LF as [[s X]|(c & n & s & r & X)]; discriminate. }
  cbn [compare_type].
  destruct (forallb (fun k => dmem k (field_dict gs)) (dkeys (field_dict fs)) &&
            forallb (fun k => dmem k (field_dict fs)) (dkeys (field_dict gs))) eqn:B.
  - apply andb_true_iff in B. destruct B as [B1 B2]. rewrite forallb_forall in B1, B2. rewrite forallM_true. split.
    + intros H. constructor.
      * intros k t F. assert (I : In k (dkeys (field_dict fs))).
        { apply dkeys_field. exists t. apply field_dict_iff. auto. }
        destruct (proj1 (dmem_field _ _) (B1 k I)) as [u G]. exists u. split; auto.
        specialize (H k I). unfold dget_or in H. rewrite (proj2 (field_dict_iff _ _ _) F), (proj2 (field_dict_iff _ _ _) G) in H.
        apply IH in H; eauto using Plain_field.
        assert (X := tsize_field _ _ _ F). assert (Y := tsize_field _ _ _ G). lia.
      * intros k N. destruct (field_cases gs k) as [|[u G]]; auto. exfalso.
        assert (I : In k (dkeys (field_dict gs))).
        { apply dkeys_field. exists u. apply field_dict_iff. auto. }
        destruct (proj1 (dmem_field _ _) (B2 k I)) as [t F].
        apply field_dict_none_iff in N. apply field_dict_iff in F. congruence.
    + intros H k I. inversion H as [t0 LF|fs' gs' A N]; subst.
      { destruct LF as [[s X]|(c & n & s & r & X)]; discriminate. }
      apply dkeys_field in I. destruct I as [t F]. apply field_dict_iff in F. destruct (A k t F) as (u & G & S).
      unfold dget_or. rewrite (proj2 (field_dict_iff _ _ _) F), (proj2 (field_dict_iff _ _ _) G).
      apply IH; eauto using Plain_field. assert (X := tsize_field _ _ _ F). assert (Y := tsize_field _ _ _ G). lia.
  - split; [discriminate|]. intros H. exfalso. inversion H as [t0 LF|fs' gs' A N]; subst.
    { destruct LF as [[s X]|(c & n & s & r & X)]; discriminate. }
    apply Bool.not_true_iff_false in B. apply B. apply andb_true_iff. rewrite !forallb_forall. split; intros k I.
    + apply dkeys_field in I. destruct I as [t F]. apply field_dict_iff in F. destruct (A k t F) as (u & G & _).
      apply dmem_field. eauto.
    + apply dkeys_field in I. destruct I as [u G]. apply field_dict_iff in G.
      destruct (field_cases fs k) as [NF|[t F]]; [|apply dmem_field; eauto].
      exfalso. apply N in NF. apply field_dict_none_iff in NF. apply field_dict_iff in G. congruence.
Qed.

(** ** a scattered source after unscattered ones *)
Lemma add_scattered pre x : 
  Forall (fun x : found => is_leaf (p_type (fst x)) /\ snd x = None) pre ->
  ~ In (p_type (fst x)) (map (fun x : found => p_type (fst x)) pre) ->
  exists d t, foldM add_source_type (pre ++ [x]) [] = Ok (d ++ [t]) /\ Delivers x t /\
    Distinct (map (fun x : found => p_type (fst x)) pre) d.
Proof.
  intros F N. destruct (add_leaves pre [] []) as (d & E & D); [constructor|exact F|]. cbn [app] in D.
  assert (FA : forall l st, foldM add_source_type (l ++ [x]) st = do st' <- foldM add_source_type l st; add_source_type st' x).
  { induction l as [|y l IH]; intros st; cbn.
    - destruct (add_source_type st x); reflexivity.
    - destruct (add_source_type st y); cbn; auto. }
  rewrite FA, E. cbn [bind]. destruct x as [p sc]. unfold add_source_type. cbn [fst] in N.
  assert (LD : forall t, In t d -> is_leaf t).
  { intros t I. apply (Distinct_incl _ _ D) in I. apply in_map_iff in I. destruct I as (y & <- & I).
    rewrite Forall_forall in F. apply F in I. tauto. }
  rewrite (existsM_Ok _ (fun t => py_eq t (p_type p))) by (intros; apply compare_leaf; auto). cbn [bind].
  destruct (existsb (fun t => py_eq t (p_type p)) d) eqn:B.
  - exfalso. apply existsb_exists in B. destruct B as (t & I & B). apply py_eq_iff in B. destruct B as [-> _].
    apply N. apply (Distinct_incl _ _ D). auto.
  - exists d. eexists. split; [reflexivity|]. split; [apply delivers_spec; reflexivity|exact D].
Qed.
