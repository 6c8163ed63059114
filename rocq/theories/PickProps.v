(** * C85: an output with pickValue becomes a step that picks the same value *)
From Verif Require Import PyBase PyBaseProofs PackModel ExprModel EvalModel ExprSpec ExprProps EvalSpec RefactorModel RefactorSpec RefactorProofs
  FlowModel FlowSpec FlowProofs FlowProofs2 FlowProps FlowValueSpec FlowValueProofs PickSpec PickProofs.

Section Whole.
  Variable gx : json -> json -> json -> result (option string).
  Variable ev : string -> json -> result json.
  Variable src_example self_example : list wstep -> wstep -> src -> result json.
  Variable src_params : list wstep -> src -> result nat.
  Variable src_known : list wstep -> wstep -> string -> result unit.
  Variable out_known : list wstep -> src -> result unit.
  Variable load_run : string -> result (tool * bool).
  Variable attrs : list string.
  Variable replace_etool skip1 skip2 : bool.
  Notation refactored fuel w := (traverse_workflow gx ev src_example self_example src_params src_known out_known load_run attrs
                                   replace_etool skip1 skip2 fuel w).

  (** the steps made for outputs, before the requirements of the workflow are given to them *)
  Definition pick_before (o : woutput) (p : string) (g : wstep) : Prop :=
    exists text wreqs, pick_expr p = Ok text /\ wo_source o <> SNone /\
      ws_id g = ("_pickValue_workflow_step_" ++ after_hash (wo_id o))%string /\
      g = expr_step replace_etool [jsreqs wreqs] (ws_id g)
            (match wo_source o with SNone => SNone | SOne x => SOne (after_hash x) | SMany l => SMany (map after_hash l) end) text.
  Lemma source_line_Ok {A} (r : result A) x : source_line r = Ok x -> r = Ok x.
  Proof. destruct r as [y|[]]; cbn; congruence. Qed.
  Lemma pick_loop_exact wreqs : forall todo done_ steps m outs all m',
    pick_loop out_known replace_etool wreqs done_ todo steps m = Ok (outs, all, m') ->
    exists outs' new, outs = done_ ++ outs' /\ all = steps ++ new /\
      Forall2 (fun o o' => (wo_pick o = None \/ wo_pick o = Some "") /\ o' = o \/
                 exists p g, wo_pick o = Some p /\ In g new /\ pick_before o p g /\
                   o' = {| wo_id := wo_id o; wo_source := SOne (ws_id g ++ "/result"); wo_pick := None |}) todo outs'.
  Proof.
    induction todo as [|o todo IH]; intros done_ steps m outs all m' E; cbn [pick_loop] in E.
    { injection E as <- <- <-. exists [], []. rewrite !app_nil_r. auto. }
    destruct (filled (wo_pick o)) as [p|] eqn:Fp.
    - binv E expr Ee. binv E sources Es. binv E u Eu.
      destruct (IH _ _ _ _ _ _ E) as (outs' & new & A1 & A2 & A3). rewrite <- app_assoc in A1, A2.
      eexists (_ :: outs'), (_ :: new). split; [exact A1|]. split; [exact A2|]. constructor.
      + right. exists p. eexists. split; [apply filled_Some in Fp; apply Fp|]. split; [left; reflexivity|]. split; [|reflexivity].
        exists expr, wreqs. split; [apply source_line_Ok; exact Ee|].
        apply source_line_Ok in Es. destruct (wo_source o); cbn in Es; try discriminate Es; injection Es as <-; (split; [discriminate|]; split; reflexivity).
      + eapply Forall2_mono; [|exact A3]. intros a b [X | (q & g & P & G & R)]; [left; exact X | right; exists q, g; cbn; auto].
    - destruct (IH _ _ _ _ _ _ E) as (outs' & new & A1 & A2 & A3). rewrite <- app_assoc in A1.
      eexists (o :: outs'), new. split; [exact A1|]. split; [exact A2|]. constructor; [|exact A3]. left. split; [|reflexivity].
      unfold filled in Fp. destruct (wo_pick o) as [x|]; [|auto]. destruct (String.eqb_spec x ""); [subst; auto | discriminate Fp].
  Qed.

  Theorem C85_outputs : forall fuel w w' m, refactored fuel w = Ok (w', m) ->
    Forall2 (PickAfter (wf_steps w')) (wf_outputs w) (wf_outputs w').
  Proof.
    unfold traverse_workflow. intros fuel w w' m E. binv E ls El. binv E r Er. destruct r as [[wr1 s1] m1].
    binv E u Eu. binv E p Ep. destruct p as [[outs s2] m2]. binv E q Eqq. destruct q as [[wr3 s3] m3].
    injection E as <- <-. cbn [wf_steps wf_outputs].
    destruct (pick_loop_exact _ _ _ _ _ _ _ _ Ep) as (outs' & n2 & B1 & B2 & B3). cbn [app] in B1. subst outs'.
    destruct (process_reqs_ok gx ev attrs replace_etool _ _ _ _ _ _ Eqq) as (n3 & C1 & C2 & C3).
    eapply Forall2_mono; [|exact B3]. cbn beta. intros o o' [X | (p & g & P & G & (text & wr & T1 & T2 & T3 & T4) & ->)]; [left; exact X | right].
    assert (I : In g (s2 ++ n3)) by (rewrite B2; apply in_or_app; left; apply in_or_app; right; exact G).
    destruct (Forall2_in_l _ _ _ _ C2 I) as (g' & G' & [X1 X2 X3 X4 X5 X6 (extra & X7 & X8)]).
    exists p, g'. split; [exact P|]. split; [exact G'|]. rewrite X1. split; [|reflexivity].
    apply (pick_step replace_etool [jsreqs wr] o p g' text).
    - exact T1.
    - exact T2.
    - rewrite X1. exact T3.
    - exists extra. rewrite X1, X7, T4 at 1. split; [reflexivity|]. rewrite Forall_forall in X8. intros j J. destruct (X8 j J) as (Y & _). apply StartsWith_b. exact Y.
    - rewrite X1, X2, T4 at 1. reflexivity.
    - rewrite X3, T4. reflexivity.
    - rewrite X5, T4. reflexivity.
  Qed.
End Whole.
Print Assumptions C85_outputs.

(** The value: the program of the step, run with the inputs the step is given, returns what
    pickValue picks from the value that is linked to the output, or throws if there is none. *)
Theorem C85_value : forall val, by_name val -> forall o p g, PickMade o p g -> Linked o ->
  forall l, val (wo_source o) None JNull = JList l ->
  exists text prog, Runs (ws_run g) text /\ Code text prog /\
    forall inputs, (forall x, dget x inputs = seen val g x) -> forall out,
      (Exec (only_inputs inputs) prog out <->
       (exists v, Picked p l (Some v) /\ out = Returns (JDict [("result", v)])) \/ (Picked p l None /\ out = Throws)).
Proof.
  intros val V o p g [_ Se (t & R & D & _) _ _ (text & prog & Ru & Co & H)] L l E.
  destruct (Se L) as (i & others & I1 & I2 & I3 & I4 & I5 & I6 & _).
  exists text, prog. split; [exact Ru|]. split; [exact Co|]. intros inputs Q out. apply H. rewrite Q. unfold seen. rewrite R.
  destruct (t_inputs t) as [|a [|b x]]; try discriminate D. injection D as D. cbn [existsb]. rewrite D. cbn [orb].
  replace (String.eqb "self" "self" || false) with true by reflexivity. unfold object. rewrite I1. cbn [find]. unfold name_of at 1. rewrite I2.
  cbn. unfold given. rewrite I4, I6, (V _ _ _ _ I3), E. reflexivity.
Qed.
Print Assumptions C85_value.

(** Where ExpressionTools are replaced, the code is written into a script (C61_script_partial): it
    has nothing that would be changed on the way. *)
Theorem C85_script : forall p text, pick_expr p = Ok text ->
  exists code, HasCode (etool_expression (Some "self") text) code /\ Inert code /\ NoPair code.
Proof.
  unfold pick_expr. intros p text. destruct (String.eqb p "first_non_null"); [|destruct (String.eqb p "the_only_non_null");
    [|destruct (String.eqb p "all_non_null"); [|discriminate]]]; intros E; injection E as <-;
    (match goal with |- exists c, HasCode ?t _ /\ _ => let t' := eval vm_compute in (sdrop_last 1 (sdrop 2 t)) in exists t' end;
     repeat split; vm_compute; reflexivity).
Qed.
Print Assumptions C85_script.

(** The links of an output may be flattened, [linkMerge] (not part of the model: it stays with the
    output): the step picks from the lists as they are. *)
Theorem C85_merge_refuted : forall o g, PickMade o "first_non_null" g -> Linked o ->
  exists val l, by_name val /\ val (wo_source o) (Some "merge_flattened") JNull = JList l /\
    Picked "first_non_null" l (Some (JInt 1)) /\
    exists text prog, Runs (ws_run g) text /\ Code text prog /\
      forall inputs, (forall x, dget x inputs = seen val g x) -> Exec (only_inputs inputs) prog (Returns (JDict [("result", JList [JNull])])).
Proof.
  intros o g M L.
  exists (fun _ m _ => match m with Some _ => JList [JNull; JInt 1] | None => JList [JList [JNull]; JList [JInt 1]] end), [JNull; JInt 1].
  split; [intros s s' m d _; reflexivity|]. split; [reflexivity|]. split; [apply (P_first [JNull] (JInt 1) []); [repeat constructor | discriminate]|].
  destruct (C85_value (fun _ m _ => match m with Some _ => JList [JNull; JInt 1] | None => JList [JList [JNull]; JList [JInt 1]] end)
              (fun s s' m d _ => eq_refl) o "first_non_null" g M L _ eq_refl) as (text & prog & A & B & C).
  exists text, prog. split; [exact A|]. split; [exact B|]. intros inputs Q. apply (C inputs Q). left.
  exists (JList [JNull]). split; [|reflexivity]. apply (P_first [] (JList [JNull]) [JList [JInt 1]]); [constructor | discriminate].
Qed.
Print Assumptions C85_merge_refuted.

(** *** Cases *)
Lemma demo_outputs attrs w w' m : demo_run attrs w = Ok (w', m) -> Forall2 (PickAfter (wf_steps w')) (wf_outputs w) (wf_outputs w').
Proof. apply C85_outputs. Qed.
Example C85_case : exists w' g, demo_run [] demo_workflow = Ok (w', true) /\
  wf_outputs w' = [{| wo_id := "w.cwl#o"; wo_source := SOne "_pickValue_workflow_step_o/result"; wo_pick := None |}] /\
  In g (wf_steps w') /\ ws_id g = "_pickValue_workflow_step_o" /\ map si_id (ws_in g) = ["self"; "_envDef0"] /\
  PickMade (nth 0 (wf_outputs demo_workflow) {| wo_id := ""; wo_source := SNone; wo_pick := None |}) "first_non_null" g /\
  Linked (nth 0 (wf_outputs demo_workflow) {| wo_id := ""; wo_source := SNone; wo_pick := None |}).
Proof.
  assert (W : match demo_run [] demo_workflow with
              | Ok (w', m) => wf_outputs w' = [{| wo_id := "w.cwl#o"; wo_source := SOne "_pickValue_workflow_step_o/result"; wo_pick := None |}] /\ m = true /\
                  map (fun g => (ws_id g, map si_id (ws_in g))) (filter (fun g => String.eqb (ws_id g) "_pickValue_workflow_step_o") (wf_steps w')) =
                    [("_pickValue_workflow_step_o", ["self"; "_envDef0"])]
              | Err _ => False
              end) by (vm_compute; repeat split).
  destruct (demo_run [] demo_workflow) as [[w' m]|] eqn:E; [|destruct W].
  assert (F : Forall2 (PickAfter (wf_steps w')) (wf_outputs demo_workflow) (wf_outputs w')).
  { apply (demo_outputs _ _ _ _ E). }
  destruct W as (W1 & -> & W2). rewrite W1 in F. inversion F as [|? ? ? ? [([X|X] & _) | (p & g & P & G & M & Q)] _ A B]; subst; try discriminate X.
  cbn in P. injection P as <-. exists w', g. split; [reflexivity|]. split; [exact W1|]. split; [exact G|].
  injection Q as Q. assert (Id : ws_id g = "_pickValue_workflow_step_o").
  { pose proof (f_equal (sdrop_last (String.length "/result")) Q) as X. rewrite sdrop_last_app in X. symmetry. exact X. }
  split; [exact Id|]. split.
  - assert (I : In (ws_id g, map si_id (ws_in g)) [("_pickValue_workflow_step_o", ["self"; "_envDef0"])]).
    { rewrite <- W2. apply (in_map (fun g => (ws_id g, map si_id (ws_in g)))). apply filter_In. split; [exact G|]. rewrite Id. reflexivity. }
    destruct I as [I | []]. injection I as _ I. symmetry. exact I.
  - split; [exact M|]. split; [discriminate|]. intros x X. discriminate X.
Qed.
Example C85_case_picked : Picked "first_non_null" [JNull; JInt 0; JInt 2] (Some (JInt 0)) /\
  Picked "the_only_non_null" [JBool false; JNull; JStr ""] None /\ Picked "the_only_non_null" [JNull; JBool false] (Some (JBool false)) /\
  Picked "all_non_null" [JNull; JStr ""; JNull; JList []] (Some (JList [JStr ""; JList []])).
Proof.
  split; [apply (P_first [JNull] (JInt 0) [JInt 2]); [repeat constructor | discriminate]|].
  split; [apply (P_only_two [] (JBool false) [JNull] (JStr "") []); discriminate|].
  split; [apply (P_only [JNull] (JBool false) []); [repeat constructor | discriminate | constructor]|].
  apply P_all. repeat constructor; discriminate.
Qed.
