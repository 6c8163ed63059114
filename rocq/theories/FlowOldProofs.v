(** * Lemmas about the refactoring in CWL v1.0 and v1.1 *)
From Verif Require Import PyBase PyBaseProofs PackModel ExprModel RefactorModel RefactorSpec RefactorProofs
  FlowModel FlowSpec FlowProofs FlowProofs2 FlowProofs3 TraverseModel FlowOldModel FlowOldSpec.

Section Proofs.
  Variable gx : json -> json -> json -> result (option string).
  Variable ev : string -> json -> result json.
  Variable src_example self_example : list wstep -> wstep -> src -> result json.
  Variable src_params : list wstep -> src -> result nat.
  Variable src_known : list wstep -> wstep -> string -> result unit.
  Variable out_known : list wstep -> src -> result unit.
  Variable load_run : string -> result (tool * bool).
  Variable attrs : list string.
  Variable replace_etool skip1 skip2 : bool.
  Variable strict : bool.

  Definition ids_ok (st : wstep) : Prop := strict = true -> Forall (fun i => si_id i <> "") (ws_in st).

  Lemma no_without l : Forall (fun i => si_id i <> "") l -> existsb without_id l = false.
  Proof.
    induction l as [|i l IH]; intros H; [reflexivity|]. cbn [existsb].
    apply Forall_cons_iff in H. destruct H as (H1 & H2). rewrite (IH H2), orb_false_r.
    unfold without_id. apply String.eqb_neq. exact H1.
  Qed.
  Lemma old_valueFrom_same wreqs steps st inp orig ins name expr :
    (strict = true -> Forall (fun i => si_id i <> "") ins) ->
    old_valueFrom_step src_params replace_etool strict wreqs steps st inp orig ins name expr
    = valueFrom_step src_params replace_etool wreqs steps st inp orig ins name expr.
  Proof.
    intros H. unfold old_valueFrom_step. destruct (valueFrom_step _ _ _ _ _ _ _ _ _ _); cbn; [|reflexivity].
    destruct strict; cbn; [rewrite no_without by auto|]; reflexivity.
  Qed.
  Lemma old_value_loop_same wreqs pre post mock orig orig_ins :
    (strict = true -> Forall (fun i => si_id i <> "") orig_ins) ->
    forall todo st done_ gen,
    old_value_loop gx self_example src_params src_known replace_etool strict wreqs pre post st mock orig orig_ins done_ todo gen
    = value_loop gx self_example src_params src_known replace_etool wreqs pre post st mock orig orig_ins done_ todo gen.
  Proof.
    intros H. induction todo as [|inp todo IH]; intros st done_ gen; cbn [old_value_loop value_loop]; [reflexivity|].
    destruct (filled (si_valueFrom inp)); [|apply IH]. cbn zeta.
    destruct (if sourced (si_source inp) then _ else _) as [self|]; [|reflexivity]. cbn [bind].
    destruct (find_expr gx _ mock self) as [[expr|]|]; cbn [bind]; [|apply IH|reflexivity].
    destruct (negb _); [reflexivity|].
    destruct (match si_source inp with SMany l => _ | _ => _ end); [|reflexivity]. cbn [bind].
    rewrite (old_valueFrom_same _ _ _ _ _ _ _ _ H).
    destruct (valueFrom_step _ _ _ _ _ _ _ _ _ _); [|reflexivity]. cbn [bind]. apply IH.
  Qed.
  Lemma filled_None (o : option string) : o = None -> filled o = None.
  Proof. intros ->. reflexivity. Qed.

  Lemma old_step_same wreqs pre post st : ws_when st = None -> ids_ok st ->
    old_traverse_step gx src_example self_example src_params src_known attrs replace_etool skip1 skip2 strict wreqs pre post st
    = traverse_step gx src_example self_example src_params src_known attrs replace_etool skip1 skip2 wreqs pre post st.
  Proof.
    intros W H. unfold old_traverse_step, traverse_step.
    destruct (step_mock _ _ _) as [mock|]; [|reflexivity]. cbn [bind].
    destruct (String.eqb (ws_id st) ""); [reflexivity|]. cbn zeta.
    rewrite (old_value_loop_same _ _ _ _ _ _ H).
    destruct (value_loop _ _ _ _ _ _ _ _ _ _ _ _ _ _ _) as [[s1 g1]|] eqn:Ev; [|reflexivity]. cbn [bind].
    destruct (value_loop_ok _ _ _ _ _ _ _ _ _ _ _ _ _ _ _ _ _ Ev (incl_refl _)) as (d & new & A1 & _).
    assert (W1 : ws_when s1 = None) by (rewrite A1; exact W).
    rewrite W1. cbn [filled bind].
    destruct (process_level_reqs _ _ _ _ _ _ _) as [p|]; [|reflexivity]. cbn [bind].
    destruct (match ws_run st with RTool t => _ | _ => _ end); [|reflexivity]. cbn [bind]. rewrite orb_false_r. reflexivity.
  Qed.

  (** a step that is skipped, or one of the old ones *)
  Definition plain_or_made (st : wstep) : Prop := startswith "_expression" (ws_id st) = true \/ (ws_when st = None /\ ids_ok st).

  Lemma step_name_skipped id s : step_name id s -> startswith "_expression" s = true.
  Proof.
    intros (n & r & _ & ->). change ("_expression_" ++ n ++ String "_" r)%string with ("_expression" ++ ("_" ++ n ++ String "_" r))%string.
    apply startswith_app.
  Qed.

  Lemma plain_step_gen wreqs pre post st st' gen m sub : ws_when st = None ->
    traverse_step gx src_example self_example src_params src_known attrs replace_etool skip1 skip2 wreqs pre post st = Ok (st', gen, m, sub) ->
    Forall (fun g => startswith "_expression" (ws_id g) = true) gen.
  Proof.
    unfold traverse_step. intros W E. binv E mock Em.
    destruct (String.eqb (ws_id st) ""). { injection E as <- <- <- <-. constructor. }
    binv E v Ev. destruct v as [s1 g1].
    destruct (value_loop_ok _ _ _ _ _ _ _ _ _ _ _ _ _ _ _ _ _ Ev (incl_refl _)) as (d & new & A1 & A2 & _ & A4 & _).
    assert (W1 : ws_when s1 = None) by (rewrite A1; exact W).
    rewrite W1 in E. cbn [filled bind] in E. binv E p Ep. binv E c Ec.
    destruct p as [[s3 g3] m3], c as [[[s4 g4] m4] sub4]. cbn [fst snd] in *. injection E as <- <- <- <-.
    assert (Id1 : ws_id s1 = ws_id st) by (rewrite A1; reflexivity).
    assert (Nm2 : forall r, step_name (ws_id st) ("_expression_" ++ after_first_hash (ws_id s1) ++ String "_" r)).
    { intros r. rewrite Id1. exists (after_first_hash (ws_id st)), r. auto. }
    destruct (level_reqs_evolves (step_name (ws_id st)) _ _ _ _ _ _ _ Nm2 _ _ _ _ Ep) as (n3 & -> & V3 & _ & _).
    assert (P1 : forall g, step_name (ws_id st) (ws_id g) -> startswith "_expression" (ws_id g) = true) by (intros g; apply step_name_skipped).
    assert (P3 : Forall (fun g => startswith "_expression" (ws_id g) = true) (g1 ++ n3)).
    { rewrite A2. apply Forall_app. split.
      - eapply Forall_impl; [|exact A4]. intros g (G & _). auto.
      - eapply Forall_impl; [|exact (ev_new _ _ _ _ V3)]. intros g (G & _). auto. }
    destruct (ws_run st) as [u|t|ids]; [injection Ec as <- <- <- <-; exact P3 | | injection Ec as <- <- <- <-; exact P3].
    destruct (is_clt t); [|injection Ec as <- <- <- <-; exact P3].
    assert (Nm3 : forall r, step_name (ws_id st) ("_expression_" ++ after_hash (ws_id s3) ++ String "_" r)).
    { intros r. rewrite (ev_id _ _ _ _ V3), Id1. exists (after_hash (ws_id st)), r. auto. }
    destruct (clt_evolves (step_name (ws_id st)) _ _ _ _ _ _ _ Nm3 _ _ _ _ _ Ec) as (n4 & -> & V4 & _ & _).
    apply Forall_app. split; [exact P3|]. eapply Forall_impl; [|exact (ev_new _ _ _ _ V4)]. intros g (G & _). auto.
  Qed.

  Lemma old_steps_same : forall fuel wreqs done_ todo m, Forall plain_or_made todo ->
    old_steps_loop gx src_example self_example src_params src_known attrs replace_etool skip1 skip2 strict fuel wreqs done_ todo m
    = steps_loop gx src_example self_example src_params src_known attrs replace_etool skip1 skip2 fuel wreqs done_ todo m.
  Proof.
    induction fuel as [|fuel IH]; intros wreqs done_ todo m H; destruct todo as [|st todo]; try reflexivity.
    cbn [old_steps_loop steps_loop]. apply Forall_cons_iff in H. destruct H as (H1 & H2).
    destruct (startswith "_expression" (ws_id st)) eqn:S; [apply IH; exact H2|].
    destruct H1 as [H1 | (W & I)]; [rewrite S in H1; discriminate H1|].
    rewrite (old_step_same _ _ _ _ W I).
    destruct (traverse_step _ _ _ _ _ _ _ _ _ _ _ _ _) as [[[[st' gen] m'] sub]|] eqn:E; [|reflexivity]. cbn [bind].
    apply IH. apply Forall_app. split; [exact H2|].
    eapply Forall_impl; [|exact (plain_step_gen _ _ _ _ _ _ _ _ W E)]. intros g G. left. exact G.
  Qed.

  Lemma no_pick_loop wreqs steps m : forall todo done_, Forall (fun o => wo_pick o = None) todo ->
    pick_loop out_known replace_etool wreqs done_ todo steps m = Ok (done_ ++ todo, steps, m).
  Proof.
    induction todo as [|o todo IH]; intros done_ H; cbn [pick_loop]; [rewrite app_nil_r; reflexivity|].
    apply Forall_cons_iff in H. destruct H as (H1 & H2). rewrite H1. cbn [filled]. rewrite IH by exact H2.
    rewrite <- app_assoc. reflexivity.
  Qed.

  Lemma loaded_plain : forall l ls, mapM (load_step load_run replace_etool) l = Ok ls ->
    Forall (fun st => ws_when st = None /\ ids_ok st) l -> Forall plain_or_made (map fst ls).
  Proof.
    induction l as [|st l IH]; intros ls E H; cbn [mapM] in E.
    { injection E as <-. constructor. }
    binv E a Ea. binv E b Eb. injection E as <-. apply Forall_cons_iff in H. destruct H as ((W & I) & H2).
    cbn [map]. constructor; [|apply IH; assumption]. right.
    unfold load_step in Ea. destruct (ws_run st) as [u|t|s].
    - binv Ea r Er. injection Ea as <-. cbn. split; [exact W | exact I].
    - destruct (_ && _); injection Ea as <-; cbn; (split; [exact W | exact I]).
    - injection Ea as <-. cbn. split; [exact W | exact I].
  Qed.

  Lemma old_workflow_same fuel w : Older w -> (strict = true -> InputsNamed w) ->
    old_traverse_workflow gx ev src_example self_example src_params src_known load_run attrs replace_etool skip1 skip2 strict fuel w
    = traverse_workflow gx ev src_example self_example src_params src_known out_known load_run attrs replace_etool skip1 skip2 fuel w.
  Proof.
    intros [W P] N. unfold old_traverse_workflow, traverse_workflow.
    destruct (mapM (load_step load_run replace_etool) (wf_steps w)) as [ls|] eqn:E; [|reflexivity]. cbn [bind].
    rewrite old_steps_same.
    2: { apply (loaded_plain _ _ E). apply Forall_forall. intros st I. split; [apply W; exact I|]. intros T.
         apply Forall_forall. intros i Ii. exact (N T st i I Ii). }
    destruct (steps_loop _ _ _ _ _ _ _ _ _ _ _ _ _ _) as [[[wreqs steps] m]|]; [|reflexivity]. cbn [bind].
    destruct (mapM _ (wf_inputs w)); [|reflexivity]. cbn [bind].
    rewrite no_pick_loop by (apply Forall_forall; exact P). cbn [bind app].
    destruct (process_reqs _ _ _ _ _ _ _) as [[[wr st] m3]|]; [|reflexivity]. cbn [bind]. rewrite orb_false_r. reflexivity.
  Qed.
End Proofs.
