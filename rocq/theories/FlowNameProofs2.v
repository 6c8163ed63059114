(** * Names of steps: the whole workflow *)
From Verif Require Import PyBase PyBaseProofs PackModel ExprModel EvalModel RefactorModel RefactorSpec RefactorProofs
  FlowModel FlowSpec FlowProofs FlowProofs2 FlowValueSpec FlowValueProofs FlowReqSpec FlowReqProofs FlowReqProofs2
  FlowToolSpec FlowToolProofs FlowTrace FlowToolProps FlowNameSpec FlowNameProofs.
From Coq Require Import Permutation.

Lemma sapp_inv_head (a b c : string) : (a ++ b)%string = (a ++ c)%string -> b = c.
Proof. induction a as [|x a IH]; cbn; auto. intros H. injection H as H. auto. Qed.
Lemma sapp_under a p b q : (a ++ "_" ++ p)%string = (b ++ "_" ++ q)%string ->
  a = b /\ p = q \/ (exists r, b = a ++ "_" ++ r)%string \/ (exists r, a = b ++ "_" ++ r)%string.
Proof.
  revert b. induction a as [|x a IH]; intros [|y b] H; cbn in H.
  - injection H as H. auto.
  - injection H as H1 H2. right. left. subst y. exists b. reflexivity.
  - injection H as H1 H2. right. right. subst x. exists a. reflexivity.
  - injection H as H1 H2. subst y. destruct (IH _ H2) as [(A & B) | [(r & A) | (r & A)]].
    + left. subst. auto.
    + right. left. exists r. cbn. rewrite A. reflexivity.
    + right. right. exists r. cbn. rewrite A. reflexivity.
Qed.
Definition good (s : string) : Prop := s <> "" /\ startswith "_" s = false.
Definition apart (s s' : string) : Prop := s <> s' /\ (forall r, s' <> s ++ "_" ++ r)%string /\ (forall r, s <> s' ++ "_" ++ r)%string.
Lemma E_apart s s' p p' : apart s s' -> E s p <> E s' p'.
Proof.
  intros (A & B & C) H. unfold E in H. apply sapp_inv_head in H. apply sapp_under in H.
  destruct H as [(H & _) | [(r & H) | (r & H)]]; [exact (A H) | exact (B _ H) | exact (C _ H)].
Qed.
Lemma E_inj s p p' : E s p = E s p' -> p = p'.
Proof. unfold E. intros H. apply sapp_inv_head, sapp_inv_head, sapp_inv_head in H. exact H. Qed.
Lemma W_apart s s' : apart s s' -> apart (W s) (W s').
Proof.
  intros (A & B & C). unfold W. split; [|split].
  - intros H. apply sapp_inv_head in H. auto.
  - intros r H. rewrite sapp_assoc in H. apply sapp_inv_head in H. exact (B _ H).
  - intros r H. rewrite sapp_assoc in H. apply sapp_inv_head in H. exact (C _ H).
Qed.
Lemma good_W s s' : good s -> apart s (W s').
Proof.
  intros (A & B). destruct s as [|c s]; [destruct (A eq_refl)|]. cbn [startswith] in B.
  assert (N : c <> "_"%char) by (destruct (Ascii.eqb_spec "_" c) as [<-|]; [destruct s; discriminate B | congruence]).
  split; [|split]; cbn; intros; intros H; injection H; intros; congruence.
Qed.

(** what belongs to a step *)
Definition Of (s x : string) : Prop := x = s \/ (exists p, x = E s p) \/ x = W s \/ (exists p, x = E (W s) p).
Lemma apart_sym s s' : apart s s' -> apart s' s.
Proof. intros (A & B & C). split; [congruence | split; auto]. Qed.
Lemma good_not_ s r : good s -> s <> String "_" r.
Proof. intros (_ & B) ->. cbn in B. destruct r; discriminate B. Qed.
Lemma Of_apart s s' x : good s -> good s' -> apart s s' -> Of s x -> Of s' x -> False.
Proof.
  intros G G' A [-> | [(p & ->) | [-> | (p & ->)]]] [H | [(p' & H) | [H | (p' & H)]]].
  - destruct A as (A & _). auto.
  - exact (good_not_ _ _ G H).
  - exact (good_not_ _ _ G H).
  - exact (good_not_ _ _ G H).
  - symmetry in H. exact (good_not_ _ _ G' H).
  - eapply E_apart; eauto.
  - discriminate H.
  - eapply E_apart; [|exact H]. apply good_W; auto.
  - symmetry in H. exact (good_not_ _ _ G' H).
  - discriminate H.
  - apply (W_apart _ _ A) in H. exact H.
  - discriminate H.
  - symmetry in H. exact (good_not_ _ _ G' H).
  - eapply E_apart; [|exact H]. apply apart_sym, good_W; auto.
  - discriminate H.
  - eapply E_apart; [|exact H]. apply W_apart; auto.
Qed.

Lemma NoDup_app_intro {A} (l l' : list A) : NoDup l -> NoDup l' -> (forall x, In x l -> In x l' -> False) -> NoDup (l ++ l').
Proof.
  intros N M D. induction N as [|x l Nx N IH]; cbn; auto. constructor.
  - intros I. apply in_app_or in I. destruct I as [I|I]; [auto|]. eapply D; [left; reflexivity | exact I].
  - apply IH. intros y I1 I2. eapply D; [right; exact I1 | exact I2].
Qed.
Lemma NoDup_map_E s l : NoDup l -> NoDup (map (E s) l).
Proof.
  intros N. induction N as [|p l Np N IH]; cbn; constructor; auto. intros I. apply in_map_iff in I. destruct I as (q & Q & I).
  apply E_inj in Q. subst. auto.
Qed.
Lemma NoDup_app_l {A} (l l' : list A) : NoDup (l ++ l') -> NoDup l.
Proof. induction l as [|x l IH]; cbn; [constructor|]. intros N. inversion N; subst. constructor; auto. intros I. apply H1, in_or_app. auto. Qed.
Lemma NoDup_app_disj {A} (l l' : list A) x : NoDup (l ++ l') -> In x l -> In x l' -> False.
Proof.
  induction l as [|y l IH]; cbn; [auto|]. intros N [->|I] J; inversion N; subst; [apply H1, in_or_app; auto | eauto].
Qed.

Section Whole.
  Variable gx : json -> json -> json -> result (option string).
  Variable ev : string -> json -> result json.
  Variable src_example self_example : list wstep -> wstep -> src -> result json.
  Variable src_params : list wstep -> src -> result nat.
  Variable src_known : list wstep -> wstep -> string -> result unit.
  Variable out_known : list wstep -> src -> result unit.
  Variable load_run : string -> result (tool * bool).
  Variable attrs : list string.
  Variable replace_etool skip1 skip2 : bool.
  Notation bnd := (bound attrs replace_etool).

  Lemma bound_of st x : In x (bnd st) -> Of (F st) x.
  Proof.
    unfold bound. intros [<- | I]; [left; reflexivity|]. destruct (startswith "_expression" (ws_id st)); [destruct I|].
    destruct (ws_run st) as [u|t|s]; try destruct I.
    rewrite !in_app_iff in I. destruct I as [I | [I | I]].
    - apply in_map_iff in I. destruct I as (p & <- & _). right. left. eauto.
    - destruct (has_text (ws_when st)); [|destruct I]. destruct I as [<- | I]; [right; right; left; reflexivity|].
      apply in_map_iff in I. destruct I as (p & <- & _). right. right. right. eauto.
    - apply in_map_iff in I. destruct I as (p & <- & _). right. left. eauto.
  Qed.

  Lemma bound_nodup st : good (F st) ->
    (forall t, ws_run st = RTool t -> NoDup (value_places (ws_in st) ++ loaded_places attrs t)) ->
    (has_text (ws_when st) = true -> NoDup (when_places replace_etool st)) -> NoDup (bnd st).
  Proof.
    intros G Np Nw. unfold bound. destruct (startswith "_expression" (ws_id st)); [constructor; [intros [] | constructor]|].
    destruct (ws_run st) as [u|t|s]; try (constructor; [intros [] | constructor]). specialize (Np t eq_refl).
    assert (Wn : NoDup (if has_text (ws_when st) then W (F st) :: map (E (W (F st))) (when_places replace_etool st) else [])).
    { destruct (has_text (ws_when st)); [|constructor]. constructor; [|apply NoDup_map_E; auto]. intros I. apply in_map_iff in I. destruct I as (p & Q & _). discriminate Q. }
    assert (Ew : forall x p, In x (if has_text (ws_when st) then W (F st) :: map (E (W (F st))) (when_places replace_etool st) else []) -> x = E (F st) p -> False).
    { intros x p I Q. destruct (has_text (ws_when st)); [|destruct I]. destruct I as [<- | I]; [discriminate Q|].
      apply in_map_iff in I. destruct I as (q & Q' & _). rewrite Q in Q'. revert Q'. apply E_apart, apart_sym, good_W. exact G. }
    constructor.
    - rewrite !in_app_iff. intros [I | [I | I]].
      + apply in_map_iff in I. destruct I as (p & Q & _). symmetry in Q. exact (good_not_ _ _ G Q).
      + destruct (has_text (ws_when st)); [|destruct I]. destruct I as [Q | I]; [symmetry in Q; exact (good_not_ _ _ G Q)|].
        apply in_map_iff in I. destruct I as (p & Q & _). symmetry in Q. exact (good_not_ _ _ G Q).
      + apply in_map_iff in I. destruct I as (p & Q & _). symmetry in Q. exact (good_not_ _ _ G Q).
    - apply NoDup_app_intro; [apply NoDup_map_E; eapply NoDup_app_l; eauto | apply NoDup_app_intro; auto |].
      + apply NoDup_map_E. eapply NoDup_app_l. eapply Permutation_NoDup; [|exact Np]. apply Permutation_app_comm.
      + intros x I J. apply in_map_iff in J. destruct J as (p & Q & _). eapply Ew; eauto.
      + intros x I J. apply in_map_iff in I. destruct I as (p & Q & I). apply in_app_or in J. destruct J as [J | J]; [eapply Ew; eauto|].
        apply in_map_iff in J. destruct J as (q & Q' & J). rewrite <- Q in Q'. apply E_inj in Q'. subst q. eapply NoDup_app_disj; eauto.
  Qed.

  Lemma bounds_nodup steps : NoDup (map F steps) -> Forall (fun st => good (F st)) steps ->
    (forall a b, In a steps -> In b steps -> F a <> F b -> apart (F a) (F b)) -> Forall (fun st => NoDup (bnd st)) steps -> NoDup (flat_map bnd steps).
  Proof.
    induction steps as [|st steps IH]; cbn [map flat_map]; intros N G A B; [constructor|].
    inversion N; inversion G; inversion B; subst. apply NoDup_app_intro; auto.
    - apply IH; auto. intros a b Ia Ib. apply A; right; auto.
    - intros x I J. apply in_flat_map in J. destruct J as (st2 & J1 & J2). apply bound_of in I, J2.
      eapply (Of_apart (F st) (F st2)); eauto.
      + rewrite Forall_forall in *. auto.
      + apply A; [left; auto | right; auto|]. intros Q. apply H1. rewrite Q. apply in_map. exact J1.
  Qed.

  Lemma loaded_as t : is_etool t && replace_etool = true ->
    run_places attrs replace_etool t = loaded_places attrs (etool_to_cltool t None).
  Proof.
    intros H. apply andb_true_iff in H. destruct H as (K & R). unfold is_etool in K. unfold run_places. rewrite R.
    destruct (t_kind t); try discriminate. unfold loaded_places, reqs_of, tool_places.
    cbn [etool_to_cltool t_reqs is_clt t_kind flat_map req_places t_args t_stdout t_stderr t_inputs t_outputs].
    assert (N : forall l, filter (fun p => has_text (ti_valueFrom p)) (map (fun i => {| ti_id := ti_id i; ti_type := ti_type i; ti_valueFrom := None |}) l) = []).
    { clear. induction l; cbn; auto. }
    assert (M : forall l, filter (fun o => match to_glob o with JNull => false | _ => true end)
      (map (fun o => {| to_id := to_id o; to_glob := JNull; to_eval := None; to_contents := false |}) l) = []).
    { clear. induction l; cbn; auto. }
    rewrite N, M. reflexivity.
  Qed.
  Lemma kept_as t r : is_etool t && r = false -> run_places attrs r t = loaded_places attrs t.
  Proof.
    unfold is_etool, run_places, loaded_places, is_clt. destruct (t_kind t), r; intros; try discriminate; rewrite ?app_nil_r; reflexivity.
  Qed.

  Lemma load_step_places st st0 b : load_step load_run replace_etool st = Ok (st0, b) ->
    ws_id st0 = ws_id st /\ ws_in st0 = ws_in st /\ ws_when st0 = ws_when st /\
    (forall t0, ws_run st0 = RTool t0 -> exists t, RunsTool load_run st t /\ run_places attrs (written_there st && replace_etool) t = loaded_places attrs t0).
  Proof.
    unfold load_step. intros H. destruct (ws_run st) as [u|t|s] eqn:R.
    - binv H r Hr. destruct r as [t m]. cbn [fst snd] in H. injection H as <- <-. repeat (split; [reflexivity|]). cbn [with_run ws_run]. intros t0 Q. injection Q as <-.
      exists t. split; [right; exists u, m; auto|]. unfold written_there. rewrite R. apply kept_as, andb_false_r.
    - unfold written_there. rewrite R. cbn [andb]. destruct (is_etool t && replace_etool) eqn:K; injection H as <- <-; (repeat (split; [reflexivity|])).
      + cbn [with_run ws_run]. intros t0 Q. injection Q as <-. exists t. split; [left; exact R|]. apply loaded_as. exact K.
      + rewrite R. intros t0 Q. injection Q as <-. exists t. split; [left; exact R|]. apply kept_as. exact K.
    - injection H as <- <-. repeat (split; [reflexivity|]). rewrite R. discriminate.
  Qed.

  Lemma subwf_places l : Forall (fun r => r = RSubwf) l -> flat_map (wf_req_places attrs) l = [].
  Proof. induction 1 as [|r l -> _ IH]; cbn; auto. Qed.

  Theorem names_apart fuel w w' m :
    traverse_workflow gx ev src_example self_example src_params src_known out_known load_run attrs replace_etool skip1 skip2 fuel w = Ok (w', m) ->
    NamesApart load_run attrs replace_etool w -> NoDup (map step_name (wf_steps w')).
  Proof.
    unfold traverse_workflow. intros H NA. binv H ls Hl. binv H r Hr. destruct r as [[wreqs steps] m1]. binv H ck Hc.
    binv H p Hp. destruct p as [[outs steps2] m2]. binv H q Hq. destruct q as [[wreqs3 steps3] m3]. injection H as <- _. cbn [wf_steps].
    assert (Fm : forall l, map step_name l = map F l) by (intros; apply map_ext; intros st; apply fragment_after_hash).
    rewrite Fm. destruct NA as [N1 N2 N3 N4 N5 N6 (N7 & N7') N8]. rewrite Fm in *.
    apply mapM_Forall2 in Hl.
    set (loaded := map fst ls) in *.
    assert (Ld : Forall2 (fun st st0 => ws_id st0 = ws_id st /\ ws_in st0 = ws_in st /\ ws_when st0 = ws_when st /\
      (forall t0, ws_run st0 = RTool t0 -> exists t, RunsTool load_run st t /\ run_places attrs (written_there st && replace_etool) t = loaded_places attrs t0))
      (wf_steps w) loaded).
    { subst loaded. clear - Hl. induction Hl as [|st [st0 b] l l' H Hl IH]; cbn [map fst]; constructor; auto. eapply load_step_places; eauto. }
    clearbody loaded.
    assert (Fl : map F loaded = map F (wf_steps w)).
    { clear - Ld. induction Ld as [|st st0 l l' (A & _) _ IH]; cbn [map]; [reflexivity|]. rewrite IH. unfold F at 1 3. rewrite A. reflexivity. }
    rewrite <- Fl in N1, N2, N3.
    assert (G : Forall (fun st => good (F st)) loaded).
    { rewrite Forall_map in N2. eapply Forall_impl; [|exact N2]. cbn beta. intros st (A & B). split; [exact A|].
      destruct (startswith "_" (F st)) eqn:Q; [|reflexivity]. exfalso. apply B. apply startswith_spec. exact Q. }
    assert (Per : Forall (fun st0 => NoDup (bnd st0) /\ no_hashes (bnd st0)) loaded).
    { apply Forall_forall. intros st0 I. destruct (Forall2_in_r _ _ _ _ Ld I) as (st & J & A & B & C & D).
      assert (P : forall t, ws_run st0 = RTool t -> NoDup (value_places (ws_in st0) ++ loaded_places attrs t) /\ no_hashes (value_places (ws_in st0) ++ loaded_places attrs t)).
      { intros t0 R. destruct (D t0 R) as (t & T & Q). rewrite B, <- Q. apply (N5 st t J T). }
      assert (Wn : has_text (ws_when st0) = true -> NoDup (when_places replace_etool st0) /\ no_hashes (when_places replace_etool st0)).
      { unfold when_places. rewrite B, C. apply N6. exact J. }
      rewrite Forall_forall in G. specialize (G _ I). split.
      - apply bound_nodup; auto; intros; [eapply P; eauto | apply Wn; auto].
      - unfold bound. constructor; [apply F_no_hash|]. destruct (startswith "_expression" (ws_id st0)); [constructor|].
        destruct (ws_run st0) as [u|t|s] eqn:R; try constructor. destruct (P t eq_refl) as (_ & P2). unfold no_hashes in P2. rewrite Forall_app in P2. destruct P2 as (P2 & P3).
        assert (Mp : forall s ps, has_char "#" s = false -> no_hashes ps -> no_hashes (map (E s) ps)).
        { clear. intros s ps Q. unfold no_hashes. rewrite Forall_map. apply Forall_impl. intros p Hp. apply E_no_hash; auto. }
        rewrite !Forall_app. split; [apply Mp; auto; apply F_no_hash|]. split; [|apply Mp; auto; apply F_no_hash].
        destruct (has_text (ws_when st0)) eqn:T; [|constructor]. constructor; [apply W_no_hash, F_no_hash|]. apply Mp; [apply W_no_hash, F_no_hash | apply Wn; reflexivity]. }
    assert (One : Forall (fun g => startswith "_expression" (ws_id g) = false -> after_first_hash (ws_id g) = after_hash (ws_id g)) loaded).
    { apply Forall_forall. intros st0 I _. destruct (Forall2_in_r _ _ _ _ Ld I) as (st & J & A & _). rewrite A. apply OneHash_same.
      rewrite Forall_forall in N4. auto. }
    destruct (loop_names gx src_example self_example src_params src_known attrs replace_etool skip1 skip2 fuel _ _ _ _ _ _ _ Hr One) as (rest & P1).
    { unfold no_hashes. clear - Per. induction Per as [|st l (_ & A) _ IH]; cbn [flat_map]; [constructor|]. apply Forall_app. split; auto. }
    cbn [map app] in P1.
    assert (Ap : forall a b, In a ("workflow" :: map F loaded) -> In b ("workflow" :: map F loaded) -> a <> b -> apart a b).
    { intros a b Ia Ib Q. split; [exact Q|]. split; intros r; apply N3; auto. }
    assert (Nl : NoDup (flat_map bnd loaded)).
    { apply bounds_nodup; auto.
      - inversion N1; auto.
      - intros a b Ia Ib Q. apply Ap; auto; right; apply in_map; auto.
      - eapply Forall_impl; [|exact Per]. cbn beta. tauto. }
    assert (Ns : NoDup (map F steps)).
    { apply (NoDup_app_l _ rest). eapply Permutation_NoDup; [|exact Nl]. apply Permutation_sym. exact P1. }
    assert (In1 : forall x, In x (map F steps) -> exists st, In st loaded /\ Of (F st) x).
    { intros x I. assert (J : In x (flat_map bnd loaded)) by (eapply Permutation_in; [exact P1 | apply in_or_app; auto]).
      apply in_flat_map in J. destruct J as (st & J1 & J2). exists st. split; [exact J1 | apply bound_of; exact J2]. }
    destruct (pick_names out_known replace_etool _ _ _ _ _ _ _ _ Hp) as (n2 & A2 & B2).
    destruct (process_names gx ev attrs replace_etool _ _ _ _ _ _ Hq) as (n3 & A3 & B3).
    assert (Wp : flat_map (wf_req_places attrs) (match wreqs with Some l => l | None => [] end) = workflow_places attrs w).
    { destruct (steps_loop_reqs gx src_example self_example src_params src_known attrs replace_etool skip1 skip2 _ _ _ _ _ _ _ _ Hr) as ((tail & T1 & T2) & _).
      unfold workflow_places. unfold list_of in T1. rewrite T1, flat_map_app, (subwf_places tail T2), app_nil_r. reflexivity. }
    rewrite Wp in B3. rewrite A3, A2, map_app, B2, <- app_assoc.
    assert (Nm3 : sub (map F n3) (map (E "workflow") (workflow_places attrs w))).
    { destruct (expr_bound attrs replace_etool n3 "workflow" _ B3 eq_refl N7') as (_ & Q). rewrite Q. exact B3. }
    apply NoDup_app_intro; [exact Ns| apply NoDup_app_intro |].
    - clear - N8. induction (filter (fun o => has_text (wo_pick o)) (wf_outputs w)) as [|o l IH]; cbn [map] in *; [constructor|]. inversion N8; subst.
      constructor; auto. intros I. apply in_map_iff in I. destruct I as (o2 & Q & I). unfold PK in Q. apply sapp_inv_head in Q. apply H1. rewrite <- Q.
      apply (in_map (fun o => fragment (wo_id o))). exact I.
    - eapply sub_nodup; [exact Nm3|]. apply NoDup_map_E. exact N7.
    - intros x I J. apply (sub_incl _ _ Nm3) in J. apply in_map_iff in I. apply in_map_iff in J. destruct I as (o & <- & _), J as (p & Q & _). discriminate Q.
    - intros x I J. apply In1 in I. destruct I as (st & I & O). rewrite Forall_forall in G. specialize (G _ I). apply in_app_or in J. destruct J as [J | J].
      + apply in_map_iff in J. destruct J as (o & <- & _). destruct O as [Q | [(p & Q) | [Q | (p & Q)]]]; try discriminate Q. symmetry in Q. exact (good_not_ _ _ G Q).
      + apply (sub_incl _ _ Nm3) in J. apply in_map_iff in J. destruct J as (p & <- & _).
        refine (Of_apart (F st) "workflow" _ G _ _ O _).
        * split; [discriminate | reflexivity].
        * apply Ap; [right; apply in_map; exact I | left; reflexivity |]. intros Q. inversion N1; subst. apply H1. rewrite <- Q. apply in_map. exact I.
        * right. left. eauto.
  Qed.
End Whole.
