(** * Lemmas about check_all_types and static_checker *)
From Verif Require Import PyBase PyBaseProofs TypeModel TypeSpec TypeProofs.

Definition eff (cond loop : bool) (t : ctype) : ctype :=
  let t1 := if cond then with_null t else t in if loop then TArray t1 else t1.

Definition eff_type (v : version) (steps : list (string * step)) (sk : sink) (src : string) (t : ctype) : ctype :=
  match v with
  | V12 => eff (may_be_skipped steps sk src) (collected steps src) t
  | _ => t
  end.

Lemma existsb_name n l : existsb (is_name n) l = true <-> In (TName n) l.
Proof.
  rewrite existsb_exists. split.
  - intros (x & I & E). apply is_name_eq in E. subst. auto.
  - intros I. exists (TName n). split; auto. apply is_name_eq; auto.
Qed.

Lemma with_null_spec t t1 : WithNull t t1 <-> t1 = with_null t.
Proof.
  unfold with_null. split.
  - intros H. destruct H as [l I|l I| |t U N].
    + cbn. apply existsb_name in I. rewrite I. reflexivity.
    + cbn. destruct (existsb (is_name "null") l) eqn:E; auto. apply existsb_name in E. contradiction.
    + reflexivity.
    + assert (A : aslist t = [t]) by (destruct t; auto; exfalso; apply U; eexists; reflexivity).
      rewrite A. cbn. rewrite orb_false_r.
      destruct (is_name "null" t) eqn:E; auto. apply is_name_eq in E. contradiction.
  - intros ->. destruct (existsb (is_name "null") (aslist t)) eqn:E.
    + destruct t as [s|l|a|fs|c n ss r]; cbn in *; try discriminate.
      * rewrite orb_false_r in E. apply String.eqb_eq in E. subst. constructor.
      * apply existsb_name in E. constructor; auto.
    + destruct t as [s|l|a|fs|c n ss r]; cbn in *;
        try (apply WN_other; [intros [? X]; discriminate|discriminate]).
      * apply WN_other; [intros [? X]; discriminate|]. intros X. injection X as ->. discriminate.
      * apply WN_union. intros X. apply existsb_name in X. congruence.
Qed.

Lemma SourceType_spec v steps sk src t t1 : SourceType v steps sk src t t1 <-> t1 = eff_type v steps sk src t.
Proof.
  unfold eff_type, eff. split.
  - intros H. destruct H as [t N|t t1 -> W].
    + destruct v; congruence.
    + destruct (may_be_skipped steps sk src); [apply with_null_spec in W|]; subst; reflexivity.
  - intros ->. destruct v; try (apply ST_plain; discriminate).
    apply ST_v12; auto. destruct (may_be_skipped steps sk src); auto. apply with_null_spec; auto.
Qed.

(** the verdict on a link *)
Definition lverdict (v : version) (steps : list (string * step)) (types : list (string * ctype))
           (sk : sink) (src : string) : verdict :=
  match dget src types, dget (sk_id sk) types with
  | Some t, Some u =>
      match check_types (eff_type v steps sk src t) u (link_merge v sk) (sk_valueFrom sk) with
      | Ok r => r
      | Err _ => Pass
      end
  | _, _ => Pass
  end.
Definition is_warning (v : verdict) : bool := match v with Warning => true | _ => false end.
Definition is_exception (v : verdict) : bool := match v with Exception_ => true | _ => false end.

Definition valid_merge (m : option string) : Prop :=
  m = None \/ m = Some "merge_nested" \/ m = Some "merge_flattened".

Lemma lverdict_ok v steps types sk src t u :
  dget src types = Some t -> dget (sk_id sk) types = Some u ->
  (sk_valueFrom sk = None -> valid_merge (link_merge v sk)) ->
  check_types (eff_type v steps sk src t) u (link_merge v sk) (sk_valueFrom sk) = Ok (lverdict v steps types sk src).
Proof.
  intros T U V. unfold lverdict. rewrite T, U. destruct (sk_valueFrom sk) as [x|]; [reflexivity|].
  destruct (check_types_merge (link_merge v sk) (eff_type v steps sk src t) u (V eq_refl)) as (t' & _ & ->).
  destruct (check_plain_spec t' u) as (r & -> & _). reflexivity.
Qed.

Lemma lverdict_spec v steps types sk src t u :
  dget src types = Some t -> dget (sk_id sk) types = Some u ->
  (sk_valueFrom sk = None -> valid_merge (link_merge v sk)) ->
  (lverdict v steps types sk src = Warning <-> PossiblyCompatible v steps types sk src) /\
  (lverdict v steps types sk src = Exception_ <-> Incompatible v steps types sk src).
Proof.
  intros T U V. unfold PossiblyCompatible, Incompatible. unfold lverdict. rewrite T, U.
  destruct (sk_valueFrom sk) as [x|] eqn:VF.
  - cbn. assert (L : forall s, LinkFits s v steps types sk src) by (intros s; left; congruence).
    split; split; intros H; try discriminate; destruct H as [H _]; exfalso; apply H, L.
  - destruct (check_types_merge (link_merge v sk) (eff_type v steps sk src t) u (V eq_refl)) as (t' & M & ->).
    assert (L : forall s, LinkFits s v steps types sk src <-> Assignable s t' u).
    { intros s. split.
      - intros [X|(t0 & t1 & t2 & u' & A & B & C & D & E)]; [congruence|].
        rewrite T in A. injection A as <-. rewrite U in D. injection D as <-.
        apply SourceType_spec in B. subst t1. rewrite (Merged_fun _ _ _ _ M C). auto.
      - intros A. right. exists t, (eff_type v steps sk src t), t', u.
        repeat split; auto. apply SourceType_spec; auto. }
    destruct (check_plain_spec t' u) as (r & -> & _ & W & E). rewrite !L. tauto.
Qed.

(** ** the comparison loop *)
Definition with_results (ck : checking) (w e : list entry) : checking :=
  {| ck_types := ck_types ck; ck_warnings := ck_warnings ck ++ w; ck_exceptions := ck_exceptions ck ++ e |}.

Lemma with_results_nil ck : with_results ck [] [] = ck.
Proof. destruct ck. unfold with_results. cbn. rewrite !app_nil_r. reflexivity. Qed.

Lemma check_sources_spec sk u lm msg vb : forall srcs ck,
  (forall s, In s srcs -> exists t, dget s (ck_types ck) = Some t /\ check_types t u lm (sk_valueFrom sk) = Ok (vb s)) ->
  let mk s := {| e_src := s; e_sink := sk_id sk; e_linkMerge := lm; e_message := msg |} in
  check_sources sk u lm msg srcs ck =
  Ok (with_results ck (map mk (filter (fun s => is_warning (vb s)) srcs))
                      (map mk (filter (fun s => is_exception (vb s)) srcs))).
Proof.
  intros srcs ck H mk. unfold check_sources. revert ck H. induction srcs as [|s srcs IH]; intros ck H; cbn [foldM].
  - cbn. rewrite with_results_nil. reflexivity.
  - destruct (H s) as (t & T & C); [cbn; auto|]. unfold get_type at 1. rewrite T. cbn [bind]. rewrite C. cbn [bind].
    rewrite IH.
    + cbn [filter]. unfold with_results. destruct (vb s); cbn; rewrite <- ?app_assoc; reflexivity.
    + intros s' I. destruct (H s') as (t' & T' & C'); [cbn; auto|]. exists t'. split; auto. destruct (vb s); auto.
Qed.

Lemma known_sources_ok ids l : Forall (fun s => In s ids) l -> known_sources ids l = Ok l.
Proof.
  unfold known_sources. induction 1 as [|s l I F IH]; [reflexivity|]. cbn.
  apply smem_In in I. rewrite I. cbn. rewrite IH. reflexivity.
Qed.

(** ** one sink, v1.0 and v1.1 *)
Definition sink_warnings v steps types sk : list entry :=
  notes v steps types sk ++ map (entry_for v sk) (filter (fun s => is_warning (lverdict v steps types sk s)) (links sk)).
Definition sink_exceptions v steps types sk : list entry :=
  map (entry_for v sk) (filter (fun s => is_exception (lverdict v steps types sk s)) (links sk)).

Definition sink_wf (v : version) (src_ids : list string) (types : list (string * ctype)) (sk : sink) : Prop :=
    dget (sk_id sk) types <> None /\
    Forall (fun src => In src src_ids /\ dget src types <> None) (links sk) /\
    (v = V12 -> sk_source sk <> Sources []) /\
    (sk_valueFrom sk = None -> links sk <> [] -> valid_merge (link_merge v sk)).

Lemma check_sink_v11_spec v src_ids steps types sk ck : v <> V12 ->
  sink_wf v src_ids types sk -> ck_types ck = types ->
  check_sink_v11 src_ids ck sk = Ok (with_results ck (sink_warnings v steps types sk) (sink_exceptions v steps types sk)).
Proof.
  intros NV (K & F & _ & V) T. destruct (dget (sk_id sk) types) as [u|] eqn:U; [|congruence]. clear K.
  assert (LM : link_merge v sk = match sk_source sk with
     | Sources _ => or_else (sk_linkMerge sk) (if several sk then Some "merge_nested" else None) | _ => None end).
  { unfold link_merge. destruct v; try congruence; reflexivity. }
  assert (EN : forall s, entry_for v sk s = {| e_src := s; e_sink := sk_id sk; e_linkMerge := link_merge v sk; e_message := None |}).
  { intros s. unfold entry_for. destruct v; try congruence; reflexivity. }
  assert (NT : sink_warnings v steps types sk =
     map (entry_for v sk) (filter (fun s => is_warning (lverdict v steps types sk s)) (links sk))).
  { unfold sink_warnings, notes. destruct v; try congruence; reflexivity. }
  assert (VB : forall s, In s (links sk) -> exists t, dget s types = Some t /\
     check_types t u (link_merge v sk) (sk_valueFrom sk) = Ok (lverdict v steps types sk s)).
  { intros s I. rewrite Forall_forall in F. destruct (F s I) as [_ D].
    destruct (dget s types) as [t|] eqn:Ts; [|congruence]. exists t. split; auto.
    rewrite <- (lverdict_ok v steps types sk s t u Ts U).
    - unfold eff_type. destruct v; try congruence; reflexivity.
    - intros N. apply V; auto. intros X. rewrite X in I. destruct I. }
  rewrite NT. unfold sink_exceptions. rewrite !(map_ext _ _ EN).
  unfold check_sink_v11. unfold several, links in *. destruct (sk_source sk) as [|s|l] eqn:S; cbn [scatter_list] in *.
  - cbn. rewrite with_results_nil. reflexivity.
  - apply Forall_inv in F. destruct F as [I _]. apply smem_In in I. rewrite I. unfold get_type at 1.
    rewrite T, U. cbn [bind]. rewrite (check_sources_spec sk u None None (lverdict v steps types sk) [s] ck).
    + rewrite LM. reflexivity.
    + intros s' I'. rewrite T. rewrite <- LM. auto.
  - rewrite known_sources_ok by (eapply Forall_impl; [|exact F]; cbn; tauto). cbn [bind]. rewrite <- LM.
    clear LM V NT. revert ck T. clear F S. induction l as [|s l IH]; intros ck T; cbn [foldM].
    { cbn. rewrite with_results_nil. reflexivity. }
    unfold get_type at 1. rewrite T, U. cbn [bind].
    rewrite (check_sources_spec sk u (link_merge v sk) None (lverdict v steps types sk) [s] ck).
    2:{ rewrite T. intros s' [<-|[]]. apply VB. cbn. auto. }
    cbn [bind]. rewrite IH.
    + unfold with_results. cbn. destruct (lverdict v steps types sk s); cbn; rewrite <- ?app_assoc; reflexivity.
    + intros s' I'. apply VB. cbn. auto.
    + cbn. auto.
Qed.

(** ** one sink, v1.2 *)
Lemma lacks_null_spec u : lacks_null u = negb (takes_null u).
Proof. destruct u; reflexivity. Qed.

Lemma adjust_spec steps sk u lm cond msg ck s t : dget s (ck_types ck) = Some t ->
  exists ck', adjust_source steps sk u lm cond msg ck s = Ok ck' /\
    ck_exceptions ck' = ck_exceptions ck /\
    ck_warnings ck' = ck_warnings ck ++
      (if cond && lacks_null u then [{| e_src := s; e_sink := sk_id sk; e_linkMerge := lm; e_message := Some msg |}] else []) /\
    dget s (ck_types ck') = Some (eff cond (from_step steps st_loop_all s) t) /\
    (forall id, id <> s -> dget id (ck_types ck') = dget id (ck_types ck)).
Proof.
  intros T. unfold adjust_source, eff. destruct cond; cbn [andb].
  - unfold get_type at 1. rewrite T. cbn [bind]. set (ck1 := if lacks_null u then _ else _).
    assert (T1 : ck_types ck1 = ck_types ck) by (unfold ck1; destruct (lacks_null u); reflexivity).
    assert (W1 : ck_warnings ck1 = ck_warnings ck ++ (if lacks_null u then [{| e_src := s; e_sink := sk_id sk; e_linkMerge := lm; e_message := Some msg |}] else [])).
    { unfold ck1; destruct (lacks_null u); cbn; rewrite ?app_nil_r; reflexivity. }
    assert (X1 : ck_exceptions ck1 = ck_exceptions ck) by (unfold ck1; destruct (lacks_null u); reflexivity).
    clearbody ck1. destruct (from_step steps st_loop_all s).
    + unfold get_type. cbn [ck_types set_type]. rewrite dget_dset_same. cbn [bind].
      eexists. split; [reflexivity|]. cbn [ck_types ck_warnings ck_exceptions set_type]. rewrite T1.
      split; [exact X1|]. split; [exact W1|]. split; [apply dget_dset_same|].
      intros id N. rewrite !dget_dset_other by auto. reflexivity.
    + eexists. split; [reflexivity|]. cbn [ck_types ck_warnings ck_exceptions set_type]. rewrite T1.
      split; [exact X1|]. split; [exact W1|]. split; [apply dget_dset_same|].
      intros id N. rewrite !dget_dset_other by auto. reflexivity.
  - cbn [bind]. destruct (from_step steps st_loop_all s).
    + unfold get_type. rewrite T. cbn [bind]. eexists. split; [reflexivity|].
      cbn [ck_types ck_warnings ck_exceptions set_type]. rewrite app_nil_r. repeat split; auto.
      * apply dget_dset_same.
      * intros id N. apply dget_dset_other; auto.
    + exists ck. rewrite app_nil_r. auto.
Qed.

(** adjusting leaves ordinary sources alone *)
Lemma adjust_ordinary steps sk u lm msg ck s :
  from_step steps st_loop_all s = false -> adjust_source steps sk u lm false msg ck s = Ok ck.
Proof. intros H. unfold adjust_source. cbn [bind]. rewrite H. reflexivity. Qed.

(** what a source's type may have become before a link is looked at *)
Definition Held (cond loop : bool) (t cur : ctype) : Prop := cur = t \/ (cond = true /\ loop = false /\ cur = with_null t).

Lemma with_null_twice t : with_null (with_null t) = with_null t.
Proof.
  unfold with_null at 2 3. destruct (existsb (is_name "null") (aslist t)) eqn:E; unfold with_null; cbn [aslist].
  - rewrite E. reflexivity.
  - cbn [existsb is_name]. rewrite String.eqb_refl. reflexivity.
Qed.
Lemma Held_eff cond loop t cur : Held cond loop t cur -> eff cond loop cur = eff cond loop t.
Proof. intros [->|(-> & -> & ->)]; [reflexivity|]. unfold eff. apply with_null_twice. Qed.
Lemma Held_after cond t : Held cond false t (eff cond false t).
Proof. unfold eff, Held. destruct cond; auto. Qed.

Lemma adjust_fold steps sk u lm (cond : string -> bool) msg src_ids (T0 : string -> option ctype) : forall l ck,
  (forall s, cond s = true -> special steps s = true) ->
  Forall (fun s => In s src_ids) l ->
  NoDup (filter (collected steps) l) ->
  (forall s, In s l -> exists t cur, T0 s = Some t /\ dget s (ck_types ck) = Some cur /\ Held (cond s) (collected steps s) t cur) ->
  exists ck', foldM (fun ck p => if smem p src_ids then adjust_source steps sk u lm (cond p) msg ck p else Err KeyError) l ck = Ok ck' /\
    ck_exceptions ck' = ck_exceptions ck /\
    ck_warnings ck' = ck_warnings ck ++
      map (fun s => {| e_src := s; e_sink := sk_id sk; e_linkMerge := lm; e_message := Some msg |})
          (filter (fun s => cond s && lacks_null u) l) /\
    (forall s t, In s l -> T0 s = Some t -> dget s (ck_types ck') = Some (eff (cond s) (collected steps s) t)) /\
    (forall id, ~ (In id l /\ special steps id = true) -> dget id (ck_types ck') = dget id (ck_types ck)).
Proof.
  induction l as [|s l IH]; intros ck CS F ND TT.
  { exists ck. cbn. rewrite app_nil_r. split; [reflexivity|]. split; [reflexivity|]. split; [reflexivity|].
    split; [intros ? ? []|auto]. }
  apply Forall_cons_iff in F. destruct F as [Is F]. apply smem_In in Is. cbn [foldM]. rewrite Is.
  destruct (TT s (or_introl eq_refl)) as (t & cur & Ts & Tc & H).
  destruct (adjust_spec steps sk u lm (cond s) msg ck s cur Tc) as (ck1 & -> & X1 & W1 & S1 & O1).
  change (from_step steps st_loop_all s) with (collected steps s) in S1. rewrite (Held_eff _ _ _ _ H) in S1.
  cbn [bind].
  assert (NL : collected steps s = true -> ~ In s l).
  { intros C X. cbn [filter] in ND. rewrite C in ND. apply NoDup_cons_iff in ND. apply (proj1 ND), filter_In. auto. }
  destruct (IH ck1) as (ck' & -> & X & W & S & O); auto.
  { cbn [filter] in ND. destruct (collected steps s); [apply NoDup_cons_iff in ND; tauto|exact ND]. }
  { intros s' I. destruct (string_dec s' s) as [->|N].
    - exists t, (eff (cond s) (collected steps s) t). split; [exact Ts|]. split; [exact S1|].
      destruct (collected steps s); [exfalso; apply NL; auto|]. apply Held_after.
    - rewrite O1 by exact N. apply TT. cbn. auto. }
  exists ck'. split; [reflexivity|]. split; [congruence|]. split.
  { rewrite W, W1, <- app_assoc. f_equal. cbn [filter]. destruct (cond s && lacks_null u); reflexivity. }
  split.
  - intros s' t' I T'. destruct (in_dec string_dec s' l) as [J|J]; [eauto|].
    destruct I as [<-|I]; [|contradiction]. rewrite O by tauto. rewrite S1. congruence.
  - intros id N. rewrite O by (intros [A B]; apply N; cbn; auto).
    destruct (string_dec id s) as [->|NE]; [|auto].
    assert (SP : special steps s = false).
    { destruct (special steps s) eqn:SP; auto. exfalso. apply N. split; [cbn; auto|reflexivity]. }
    rewrite S1, Tc. f_equal.
    assert (CF : cond s = false). { destruct (cond s) eqn:C; auto. apply CS in C. congruence. }
    assert (LF : collected steps s = false). { unfold special in SP. apply orb_false_iff in SP. unfold collected. tauto. }
    rewrite CF, LF in *. cbn. destruct H as [->|(Q & _)]; [reflexivity|discriminate Q].
Qed.

Lemma may_be_skipped_special steps sk s : may_be_skipped steps sk s = true -> special steps s = true.
Proof. unfold may_be_skipped, special. intros H. apply andb_true_iff in H. destruct H as [-> _]. reflexivity. Qed.

Lemma check_sink_v12_spec src_ids steps types sk ck :
  sink_wf V12 src_ids types sk ->
  NoDup (filter (collected steps) (links sk)) ->
  dget (sk_id sk) (ck_types ck) = dget (sk_id sk) types ->
  (forall s, In s (links sk) -> exists t cur, dget s types = Some t /\ dget s (ck_types ck) = Some cur /\
     Held (may_be_skipped steps sk s) (collected steps s) t cur) ->
  exists ck', check_sink_v12 src_ids steps ck sk = Ok ck' /\
    ck_warnings ck' = ck_warnings ck ++ sink_warnings V12 steps types sk /\
    ck_exceptions ck' = ck_exceptions ck ++ sink_exceptions V12 steps types sk /\
    (forall s t, In s (links sk) -> dget s types = Some t ->
       dget s (ck_types ck') = Some (eff (may_be_skipped steps sk s) (collected steps s) t)) /\
    (forall id, ~ (In id (links sk) /\ special steps id = true) -> dget id (ck_types ck') = dget id (ck_types ck)).
Proof.
  intros (K & F & NE & V) ND TS TT. unfold check_sink_v12. unfold get_type at 1. rewrite TS.
  destruct (dget (sk_id sk) types) as [u|] eqn:U; [|congruence]. clear K. cbn [bind].
  assert (VB : forall s ck', In s (links sk) ->
     (forall s t, In s (links sk) -> dget s types = Some t -> dget s (ck_types ck') = Some (eff (may_be_skipped steps sk s) (collected steps s) t)) ->
     exists t, dget s (ck_types ck') = Some t /\
     check_types t u (link_merge V12 sk) (sk_valueFrom sk) = Ok (lverdict V12 steps types sk s)).
  { intros s ck' I E. rewrite Forall_forall in F. destruct (F s I) as [_ D].
    destruct (dget s types) as [t|] eqn:Ts; [|congruence]. eexists. split; [apply E; eauto|].
    apply (lverdict_ok V12 steps types sk s t u Ts U).
    intros N. apply V; auto. intros X. rewrite X in I. destruct I. }
  assert (FI : Forall (fun s => In s src_ids) (links sk)) by (eapply Forall_impl; [|exact F]; cbn; tauto).
  assert (FT : forall s, In s (links sk) -> dget s types <> None).
  { intros s I. rewrite Forall_forall in F. apply F; auto. }
  assert (SINGLE : forall s, links sk = [s] -> several sk = false ->
    exists ck', (if smem s src_ids then
      let ck0 := match sk_pickValue sk with
                | Some _ => add_warning ck {| e_src := s; e_sink := sk_id sk; e_linkMerge := None;
                    e_message := Some "pickValue is used but only a single input source is declared" |}
                | None => ck
                end in
      do ck1 <- adjust_source steps sk u None (from_step steps st_when s)
                 "Source is from conditional step and may produce `null`" ck0 s;
      check_sources sk u None (option_map (fun p => ("pickValue is " ++ p)%string) (sk_pickValue sk)) [s] ck1
      else Err ValidationException) = Ok ck' /\
    ck_warnings ck' = ck_warnings ck ++ sink_warnings V12 steps types sk /\
    ck_exceptions ck' = ck_exceptions ck ++ sink_exceptions V12 steps types sk /\
    (forall s t, In s (links sk) -> dget s types = Some t ->
       dget s (ck_types ck') = Some (eff (may_be_skipped steps sk s) (collected steps s) t)) /\
    (forall id, ~ (In id (links sk) /\ special steps id = true) -> dget id (ck_types ck') = dget id (ck_types ck))).
  { intros s L SV. rewrite L in *.
    assert (Is : smem s src_ids = true) by (apply smem_In; apply Forall_inv in FI; auto). rewrite Is. cbv zeta.
    assert (LM : link_merge V12 sk = None) by (unfold link_merge; rewrite SV; reflexivity).
    assert (MS : may_be_skipped steps sk s = from_step steps st_when s).
    { unfold may_be_skipped. rewrite SV. cbn. apply andb_true_r. }
    set (ck0 := match sk_pickValue sk with Some _ => _ | None => _ end).
    assert (T0 : ck_types ck0 = ck_types ck) by (unfold ck0; destruct (sk_pickValue sk); reflexivity).
    destruct (TT s (or_introl eq_refl)) as (t & cur & Ts & Tc & H). rewrite MS in H.
    destruct (adjust_spec steps sk u None (from_step steps st_when s)
                 "Source is from conditional step and may produce `null`" ck0 s cur) as (ck1 & -> & X1 & W1 & S1 & O1).
    { rewrite T0. exact Tc. }
    change (from_step steps st_loop_all s) with (collected steps s) in S1. rewrite (Held_eff _ _ _ _ H) in S1.
    cbn [bind].
    rewrite (check_sources_spec sk u _ _ (lverdict V12 steps types sk) [s] ck1).
    2:{ intros s' I. rewrite <- LM. apply VB; auto. intros s2 t2 I2 T2. cbn in I2. destruct I2 as [<-|[]].
        rewrite Ts in T2. injection T2 as <-. rewrite MS. exact S1. }
    eexists. split; [reflexivity|]. cbn [ck_warnings ck_exceptions ck_types with_results].
    split; [|split; [|split]].
    - rewrite W1. unfold sink_warnings, notes, entry_for. rewrite SV, L, LM.
      rewrite (app_assoc (ck_warnings ck)). f_equal.
      cbn [filter]. rewrite MS, U, <- lacks_null_spec. unfold ck0.
      destruct (sk_pickValue sk); cbn [add_warning ck_warnings map];
      destruct (from_step steps st_when s && lacks_null u); cbn [map app]; rewrite <- ?app_assoc, ?app_nil_r; reflexivity.
    - rewrite X1. unfold sink_exceptions, entry_for. rewrite L, LM.
      assert (ck_exceptions ck0 = ck_exceptions ck) as -> by (unfold ck0; destruct (sk_pickValue sk); reflexivity).
      reflexivity.
    - intros s' t' I' T'. destruct I' as [<-|[]]. rewrite Ts in T'. injection T' as <-. rewrite MS. exact S1.
    - intros id N. destruct (string_dec id s) as [->|NS].
      + (* ordinary source *)
        assert (SP : special steps s = false).
        { destruct (special steps s) eqn:SP; auto. exfalso. apply N. split; [cbn|]; auto. }
        unfold special in SP. apply orb_false_iff in SP. destruct SP as [A B].
        rewrite S1, Tc. unfold collected. rewrite A, B in *. cbn. f_equal. destruct H as [->|(Q & _)]; [reflexivity|discriminate Q].
      + rewrite O1 by auto. congruence. }
  unfold links in *. destruct (sk_source sk) as [|s|l] eqn:S.
  - exists ck. split; [reflexivity|]. unfold sink_warnings, sink_exceptions, notes, several, links. rewrite S. cbn.
    destruct (sk_pickValue sk); cbn; rewrite !app_nil_r; split; auto; split; auto; split; auto; intros ? ? [].
  - apply SINGLE; [reflexivity|]. unfold several. rewrite S. reflexivity.
  - destruct l as [|s [|s' l]]; [exfalso; apply NE; auto| |].
    { apply SINGLE; [reflexivity|]. unfold several. rewrite S. reflexivity. }
    cbn [scatter_list] in *. set (L := s :: s' :: l) in *.
    assert (SV : several sk = true) by (unfold several; rewrite S; reflexivity).
    set (lm := if non_null_pick (sk_pickValue sk) then None else or_else (sk_linkMerge sk) (Some "merge_nested")).
    assert (LM : link_merge V12 sk = lm) by (unfold link_merge; rewrite SV; reflexivity).
    assert (MS : forall s, may_be_skipped steps sk s =
              from_step steps st_when s && match sk_pickValue sk with None => true | Some _ => false end).
    { intros x. unfold may_be_skipped. rewrite SV. reflexivity. }
    destruct (adjust_fold steps sk u lm (fun p => from_step steps st_when p
                && match sk_pickValue sk with None => true | Some _ => false end)
                "Source is from conditional step, but pickValue is not used" src_ids
                (fun s => dget s types) L ck) as (ck1 & E & X1 & W1 & S1 & O1); auto.
    { intros x H. apply (may_be_skipped_special steps sk). rewrite MS. auto. }
    { intros x I. destruct (TT x I) as (t & cur & A & B & H). rewrite MS in H. eauto. }
    cbv beta in *. rewrite E. cbn [bind].
    rewrite (check_sources_spec sk u _ _ (lverdict V12 steps types sk) L ck1).
    2:{ intros x I. rewrite <- LM. apply VB; auto. intros s2 t2 I2 T2. rewrite MS. apply S1; auto. }
    eexists. split; [reflexivity|]. cbn [ck_warnings ck_exceptions ck_types with_results].
    split; [|split; [|split; [intros s2 t2 I2 T2; rewrite MS; apply S1; auto|auto]]].
    + rewrite W1, <- app_assoc. f_equal. unfold sink_warnings, notes. rewrite SV. unfold links. rewrite S.
      cbn [scatter_list app]. fold L. f_equal.
      * rewrite LM. f_equal. apply filter_ext. intros x. rewrite MS, U, <- lacks_null_spec. reflexivity.
      * unfold entry_for. rewrite LM. reflexivity.
    + rewrite X1. unfold sink_exceptions, links. rewrite S. cbn [scatter_list]. fold L.
      unfold entry_for. rewrite LM. reflexivity.
Qed.

(** ** all sinks *)
Definition touched (v : version) (steps : list (string * step)) (sinks : list sink) : list string :=
  match v with V12 => filter (special steps) (flat_map links sinks) | _ => [] end.

Definition checker (v : version) src_ids steps : checking -> sink -> result checking :=
  match v with V12 => check_sink_v12 src_ids steps | _ => check_sink_v11 src_ids end.

Lemma filter_flat_map {A B} (p : B -> bool) (f : A -> list B) l :
  filter p (flat_map f l) = flat_map (fun x => filter p (f x)) l.
Proof. induction l as [|x l IH]; cbn; [reflexivity|]. rewrite filter_app, IH. reflexivity. Qed.

Lemma NoDup_app_remove_l {A} (l m : list A) : NoDup (l ++ m) -> NoDup m.
Proof. induction l as [|x l IH]; cbn; auto. intros H. apply NoDup_cons_iff in H. tauto. Qed.
Lemma NoDup_app_remove_r {A} (l m : list A) : NoDup (l ++ m) -> NoDup l.
Proof.
  induction l as [|x l IH]; cbn; intros H; [constructor|]. apply NoDup_cons_iff in H. destruct H as [N H].
  constructor; auto. rewrite in_app_iff in N. tauto.
Qed.

(** the types are as the sinks still to be checked need them *)
Definition Ready (steps : list (string * step)) (types : list (string * ctype)) (sinks : list sink) (ck : checking) : Prop :=
  forall sk, In sk sinks -> dget (sk_id sk) (ck_types ck) = dget (sk_id sk) types /\
    forall s, In s (links sk) -> exists t cur, dget s types = Some t /\ dget s (ck_types ck) = Some cur /\
      Held (may_be_skipped steps sk s) (collected steps s) t cur.

Lemma Ready_start v src_ids steps types sinks : Forall (sink_wf v src_ids types) sinks ->
  Ready steps types sinks {| ck_types := types; ck_warnings := []; ck_exceptions := [] |}.
Proof.
  intros WF sk I. rewrite Forall_forall in WF. destruct (WF sk I) as (_ & F & _). split; [reflexivity|].
  intros s J. rewrite Forall_forall in F. destruct (F s J) as [_ D]. cbn [ck_types].
  destruct (dget s types) as [t|]; [|congruence]. exists t, t. unfold Held. auto.
Qed.

Lemma special_once_tail steps sk sinks : special_once steps (sk :: sinks) -> special_once steps sinks.
Proof.
  intros (A & B & C). split; [|split].
  - cbn [flat_map] in A. rewrite filter_app in A. eapply NoDup_app_remove_l; eauto.
  - intros a b src Ia Ib. apply B; cbn; auto.
  - apply Forall_cons_iff in C. destruct C as [_ C]. eapply Forall_impl; [|exact C]. cbn. intros a N J. apply N.
    rewrite filter_app, in_app_iff. auto.
Qed.

Lemma sinks_spec v src_ids steps types : forall sinks rest ck,
  Forall (sink_wf v src_ids types) sinks ->
  (v = V12 -> special_once steps (sinks ++ rest)) -> (v <> V12 -> ck_types ck = types) ->
  (v = V12 -> Ready steps types (sinks ++ rest) ck) ->
  exists ck', foldM (checker v src_ids steps) sinks ck = Ok ck' /\
    ck_warnings ck' = ck_warnings ck ++ flat_map (sink_warnings v steps types) sinks /\
    ck_exceptions ck' = ck_exceptions ck ++ flat_map (sink_exceptions v steps types) sinks /\
    (v <> V12 -> ck_types ck' = types) /\
    (v = V12 -> Ready steps types rest ck') /\
    (forall id, ~ In id (touched v steps sinks) -> dget id (ck_types ck') = dget id (ck_types ck)).
Proof.
  induction sinks as [|sk sinks IH]; intros rest ck WF ONCE TV RD; cbn [foldM flat_map].
  { exists ck. rewrite !app_nil_r. split; [reflexivity|]. split; auto. }
  apply Forall_cons_iff in WF. destruct WF as [W WF].
  destruct v.
  { assert (NV : V10 <> V12) by discriminate. unfold checker in *.
    rewrite (check_sink_v11_spec V10 src_ids steps types sk ck NV W (TV NV)); cbn [bind].
    destruct (IH rest (with_results ck (sink_warnings V10 steps types sk) (sink_exceptions V10 steps types sk)))
      as (ck' & -> & W' & X' & T' & R' & O'); auto; try discriminate.
    exists ck'; split; [reflexivity|]; rewrite W', X'; cbn [with_results ck_warnings ck_exceptions].
    rewrite <- !app_assoc; auto. }
  { assert (NV : V11 <> V12) by discriminate. unfold checker in *.
    rewrite (check_sink_v11_spec V11 src_ids steps types sk ck NV W (TV NV)); cbn [bind].
    destruct (IH rest (with_results ck (sink_warnings V11 steps types sk) (sink_exceptions V11 steps types sk)))
      as (ck' & -> & W' & X' & T' & R' & O'); auto; try discriminate.
    exists ck'; split; [reflexivity|]; rewrite W', X'; cbn [with_results ck_warnings ck_exceptions].
    rewrite <- !app_assoc; auto. }
  specialize (ONCE eq_refl). specialize (RD eq_refl). cbn [app] in ONCE, RD.
  assert (ON := ONCE). destruct ON as (ND & AG & NS).
  destruct (RD sk (or_introl eq_refl)) as [TS TT].
  destruct (check_sink_v12_spec src_ids steps types sk ck) as (ck1 & E & W1 & X1 & S1 & O1); auto.
  { cbn [flat_map] in ND. rewrite filter_app in ND. apply NoDup_app_remove_r in ND. exact ND. }
  change (checker V12 src_ids steps ck sk) with (check_sink_v12 src_ids steps ck sk). rewrite E. cbn [bind].
  destruct (IH rest ck1) as (ck' & -> & W' & X' & T' & R' & O'); auto.
  { intros _. eapply special_once_tail; eauto. }
  { congruence. }
  { intros _ sk' I'. destruct (RD sk' (or_intror I')) as [TS' TT']. split.
    - rewrite O1; [exact TS'|]. intros [J1 J2]. rewrite Forall_forall in NS. apply (NS sk' (or_intror I')).
      apply filter_In. split; [|exact J2]. cbn [flat_map]. apply in_app_iff. auto.
    - intros s J'. destruct (TT' s J') as (t & cur & A & B & H).
      destruct (in_dec string_dec s (links sk)) as [J|J].
      + exists t, (eff (may_be_skipped steps sk s) (collected steps s) t). split; [exact A|]. split; [apply S1; auto|].
        rewrite (AG sk' sk s (or_intror I') (or_introl eq_refl) J' J).
        destruct (collected steps s) eqn:C; [|apply Held_after]. exfalso.
        cbn [flat_map] in ND. rewrite filter_app in ND.
        assert (K1 : In s (filter (collected steps) (links sk))) by (apply filter_In; auto).
        assert (K2 : In s (filter (collected steps) (flat_map links (sinks ++ rest)))).
        { apply filter_In. split; [|exact C]. apply in_flat_map. exists sk'. auto. }
        clear - ND K1 K2. induction (filter (collected steps) (links sk)) as [|x l IHl]; [destruct K1|].
        cbn in ND. apply NoDup_cons_iff in ND. destruct ND as [N1 N2]. destruct K1 as [->|K1]; [|auto].
        apply N1. apply in_app_iff. auto.
      + exists t, cur. split; [exact A|]. split; [|exact H]. rewrite O1 by tauto. exact B. }
  exists ck'. split; [reflexivity|]. split; [rewrite W', W1, <- app_assoc; auto|].
  split; [rewrite X', X1, <- app_assoc; auto|]. split; [congruence|]. split; [auto|].
  intros id N. cbn [touched flat_map] in N. rewrite filter_app, in_app_iff in N.
  rewrite O' by (cbn [touched]; tauto). apply O1. rewrite <- filter_In. tauto.
Qed.

Lemma links_wf_iff v src_ids types sinks : links_wf v src_ids types sinks <-> Forall (sink_wf v src_ids types) sinks.
Proof. reflexivity. Qed.

Lemma check_all_types_spec v src_ids steps types sinks :
  links_wf v src_ids types sinks -> (v = V12 -> special_once steps sinks) ->
  exists ck, check_all_types v src_ids steps types sinks = Ok ck /\
    ck_warnings ck = flat_map (sink_warnings v steps types) sinks /\
    ck_exceptions ck = flat_map (sink_exceptions v steps types) sinks.
Proof.
  intros WF SO. unfold check_all_types.
  destruct (sinks_spec v src_ids steps types sinks [] {| ck_types := types; ck_warnings := []; ck_exceptions := [] |})
    as (ck & E & W & X & _); auto.
  { rewrite app_nil_r. auto. }
  { intros _. rewrite app_nil_r. apply (Ready_start v src_ids). exact WF. }
  exists ck. split; [exact E|]. auto.
Qed.

(** the verdict functions agree with the specification *)
Lemma links_verdicts v src_ids steps types sinks sk src :
  links_wf v src_ids types sinks -> In sk sinks -> In src (links sk) ->
  (is_warning (lverdict v steps types sk src) = true <-> PossiblyCompatible v steps types sk src) /\
  (is_exception (lverdict v steps types sk src) = true <-> Incompatible v steps types sk src).
Proof.
  intros WF I J. unfold links_wf in WF. rewrite Forall_forall in WF. destruct (WF sk I) as (K & F & _ & V).
  rewrite Forall_forall in F. destruct (F src J) as [_ D].
  destruct (dget src types) as [t|] eqn:T; [|congruence]. destruct (dget (sk_id sk) types) as [u|] eqn:U; [|congruence].
  destruct (lverdict_spec v steps types sk src t u T U) as [A B].
  { intros N. apply V; auto. intros X. rewrite X in J. destruct J. }
  rewrite <- A, <- B. destruct (lverdict v steps types sk src); cbn; intuition congruence.
Qed.

(** ** the static checker *)
Lemma static_report wf v types :
  known_version (wf_version wf) = Some v -> all_types wf = Ok types ->
  let sinks := step_inputs wf ++ map fst (wf_outputs wf) in
  links_wf v (source_ids wf) types sinks -> (v = V12 -> special_once (step_of_params wf) sinks) ->
  exists r, static_checker_report wf = Ok r /\
    r_warnings r = flat_map (sink_warnings v (step_of_params wf) types) sinks /\
    r_exceptions r = flat_map (sink_exceptions v (step_of_params wf) types) sinks /\
    r_unfed r = map sk_id (filter (unfed types) (step_inputs wf)).
Proof.
  intros KV AT sinks WF SO. unfold static_checker_report. rewrite KV, AT. cbn [bind]. cbv zeta. unfold check_all_types.
  set (steps := step_of_params wf) in *. change (match v with V12 => check_sink_v12 (source_ids wf) steps | _ => check_sink_v11 (source_ids wf) end)
    with (checker v (source_ids wf) steps).
  unfold links_wf in WF. assert (RD := Ready_start v (source_ids wf) steps types sinks WF).
  subst sinks. apply Forall_app in WF. destruct WF as [WF1 WF2].
  destruct (sinks_spec v (source_ids wf) steps types (step_inputs wf) (map fst (wf_outputs wf))
      {| ck_types := types; ck_warnings := []; ck_exceptions := [] |})
    as (c1 & -> & W1 & X1 & T1 & R1 & O1); auto.
  cbn [bind].
  destruct (sinks_spec v (source_ids wf) steps types (map fst (wf_outputs wf)) []
    {| ck_types := ck_types c1; ck_warnings := []; ck_exceptions := [] |}) as (c2 & -> & W2 & X2 & T2 & R2 & O2); auto.
  { intros E. rewrite app_nil_r. specialize (SO E). clear - SO. induction (step_inputs wf); [exact SO|].
    apply IHl. eapply special_once_tail. exact SO. }
  { intros E. rewrite app_nil_r. exact (R1 E). }
  cbn [bind]. eexists. split; [reflexivity|]. cbn [r_warnings r_exceptions r_unfed].
  rewrite W1, W2, X1, X2. cbn [ck_warnings ck_exceptions app]. rewrite !flat_map_app. split; [auto|]. split; [auto|].
  f_equal. apply filter_ext_in. intros sk I. unfold unfed.
  assert (Q : v = V12 -> ~ In (sk_id sk) (filter (special steps) (flat_map links (step_inputs wf ++ map fst (wf_outputs wf))))).
  { intros E. destruct (SO E) as (_ & _ & B). rewrite Forall_forall in B. apply B. apply in_app_iff. auto. }
  rewrite O2, O1; [reflexivity| |]; intros J; destruct v; try contradiction; apply (Q eq_refl);
    cbn [touched] in J; rewrite flat_map_app, filter_app, in_app_iff; auto.
Qed.

(** a test *)
Fixpoint nodup_test (l : list string) : bool := match l with [] => true | x :: l => negb (smem x l) && nodup_test l end.
Lemma nodup_test_true l : nodup_test l = true -> NoDup l.
Proof.
  induction l as [|x l IH]; cbn; [constructor|]. intros H. apply andb_true_iff in H. destruct H as [A B]. constructor; auto.
  intros I. apply smem_In in I. rewrite I in A. discriminate A.
Qed.
Definition special_once_test (steps : list (string * step)) (sinks : list sink) : bool :=
  nodup_test (filter (collected steps) (flat_map links sinks)) &&
  forallb (fun sk => forallb (fun sk' => forallb (fun src => negb (smem src (links sk')) ||
    Bool.eqb (may_be_skipped steps sk src) (may_be_skipped steps sk' src)) (links sk)) sinks) sinks &&
  forallb (fun sk => negb (smem (sk_id sk) (filter (special steps) (flat_map links sinks)))) sinks.
Lemma special_once_test_true steps sinks : special_once_test steps sinks = true -> special_once steps sinks.
Proof.
  intros H. apply andb_true_iff in H. destruct H as [H C]. apply andb_true_iff in H. destruct H as [A B].
  split; [apply nodup_test_true; exact A|]. split.
  - intros sk sk' src I I' J J'. rewrite forallb_forall in B. specialize (B sk I). rewrite forallb_forall in B. specialize (B sk' I').
    rewrite forallb_forall in B. specialize (B src J). apply smem_In in J'. rewrite J' in B. apply Bool.eqb_prop. exact B.
  - apply Forall_forall. intros sk I J. rewrite forallb_forall in C. specialize (C sk I). apply smem_In in J. rewrite J in C. discriminate C.
Qed.

Lemma flat_map_nil {A B} (f : A -> list B) l : flat_map f l = [] <-> forall x, In x l -> f x = [].
Proof.
  induction l as [|x l IH]; cbn; [split; [intros _ x []|auto]|].
  split.
  - intros H. apply app_eq_nil in H. destruct H as [H1 H2]. intros y [<-|I]; auto. apply IH; auto.
  - intros H. rewrite (H x) by auto. cbn. apply IH. auto.
Qed.

Lemma static_checker_spec wf v types :
  known_version (wf_version wf) = Some v -> all_types wf = Ok types ->
  let sinks := step_inputs wf ++ map fst (wf_outputs wf) in
  links_wf v (source_ids wf) types sinks -> (v = V12 -> special_once (step_of_params wf) sinks) ->
  (static_checker wf = Err ValidationException <->
     exists sk src, In sk sinks /\ In src (links sk) /\ Incompatible v (step_of_params wf) types sk src) /\
  (static_checker wf = Ok tt \/ static_checker wf = Err ValidationException).
Proof.
  intros KV AT sinks WF SO. destruct (static_report wf v types KV AT WF SO) as (r & E & _ & X & _). fold sinks in X.
  unfold static_checker. rewrite E. cbn [bind].
  assert (N : r_exceptions r = [] <-> ~ exists sk src, In sk sinks /\ In src (links sk) /\ Incompatible v (step_of_params wf) types sk src).
  { rewrite X, flat_map_nil. unfold sink_exceptions. split.
    - intros H (sk & src & I & J & K). specialize (H sk I). apply map_eq_nil in H.
      apply (links_verdicts v (source_ids wf) (step_of_params wf) types sinks sk src WF I J) in K.
      assert (Q : In src (filter (fun s => is_exception (lverdict v (step_of_params wf) types sk s)) (links sk)))
        by (apply filter_In; auto).
      rewrite H in Q. destruct Q.
    - intros H sk I. destruct (filter _ (links sk)) as [|src l] eqn:F; [reflexivity|]. exfalso. apply H.
      assert (Q : In src (filter (fun s => is_exception (lverdict v (step_of_params wf) types sk s)) (links sk)))
        by (rewrite F; cbn; auto).
      apply filter_In in Q. destruct Q as [J K].
      apply (links_verdicts v (source_ids wf) (step_of_params wf) types sinks sk src WF I J) in K. eauto. }
  destruct (r_exceptions r) as [|e l].
  - split; auto. split; [discriminate|]. intros H. exfalso. apply N; auto.
  - split; auto. split; auto. intros _.
    destruct (existsb (fun sk => existsb (fun s => is_exception (lverdict v (step_of_params wf) types sk s)) (links sk)) sinks) eqn:B.
    + apply existsb_exists in B. destruct B as (sk & I & B). apply existsb_exists in B. destruct B as (src & J & B).
      apply (links_verdicts v (source_ids wf) (step_of_params wf) types sinks sk src WF I J) in B. eauto.
    + exfalso. assert (Q : e :: l = []); [|discriminate]. apply N. intros (sk & src & I & J & K).
      apply (links_verdicts v (source_ids wf) (step_of_params wf) types sinks sk src WF I J) in K.
      apply Bool.not_true_iff_false in B. apply B. apply existsb_exists. exists sk. split; auto.
      apply existsb_exists. eauto.
Qed.

(** ** steps *)
Lemma nest_spec n t t' : ArrayNesting n t t' <-> t' = nest n t.
Proof.
  revert t'. induction n as [|n IH]; intros t'; cbn; split.
  - intros H. inversion H. reflexivity.
  - intros ->. constructor.
  - intros H. inversion H; subst. f_equal. apply IH. auto.
  - intros ->. constructor. apply IH. reflexivity.
Qed.

Lemma find_First {A} (p : A -> bool) l x : find p l = Some x <-> First (fun y => p y = true) l x.
Proof.
  induction l as [|y l IH]; cbn.
  - split; [discriminate|]. intros (pre & post & E & _). destruct pre; discriminate.
  - destruct (p y) eqn:E.
    + split.
      * intros H. injection H as <-. exists [], l. auto.
      * intros (pre & post & E' & P & F). destruct pre as [|z pre]; [cbn in E'; congruence|].
        cbn in E'. injection E' as <- _. apply Forall_inv in F. congruence.
    + rewrite IH. split.
      * intros (pre & post & -> & P & F). exists (y :: pre), post. repeat split; auto. constructor; auto. congruence.
      * intros (pre & post & E' & P & F). destruct pre as [|z pre]; cbn in E'.
        -- injection E' as -> _. congruence.
        -- injection E' as -> ->. apply Forall_cons_iff in F. destruct F as [_ F]. exists pre, post. auto.
Qed.

Lemma find_none_iff {A} (p : A -> bool) l : find p l = None <-> Forall (fun y => p y = false) l.
Proof.
  rewrite Forall_forall. split.
  - intros H x. apply find_none; auto.
  - intros H. destruct (find p l) eqn:E; auto. apply find_some in E. destruct E as [I E]. rewrite H in E; auto. discriminate.
Qed.

Lemma scattered_spec sc m t : sc <> NoSource ->
  ArrayNesting (scatter_levels sc m) t (scattered (List.length (scatter_list sc)) m t).
Proof.
  intros N. unfold scatter_levels, scattered. destruct sc as [|s|l]; [congruence| |];
    (destruct m as [m|]; [destruct (String.eqb m "nested_crossproduct")|]; apply nest_spec; reflexivity).
Qed.
