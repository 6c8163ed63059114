(** * Properties of the refactoring in CWL v1.0 and v1.1 *)
From Verif Require Import PyBase PyBaseProofs PackModel ExprModel EvalModel RefactorModel RefactorSpec FlowModel FlowSpec FlowProofs
  FlowProofs2 FlowProofs3 FlowProps TraverseModel FlowOldModel FlowOldSpec FlowOldProofs FlowOldProofs2.

(** ** C88: the three modules of the refactoring tool do the same *)
Section Old.
  (** get_expression and do_eval, looking up types, loading referenced processes, and the options
      of the tool: anything *)
  Variable gx : json -> json -> json -> result (option string).
  Variable ev : string -> json -> result json.
  Variable src_example self_example : list wstep -> wstep -> src -> result json.
  Variable src_params : list wstep -> src -> result nat.
  Variable src_known : list wstep -> wstep -> string -> result unit.
  Variable out_known : list wstep -> src -> result unit.
  Variable load_run : string -> result (tool * bool).
  Variable attrs : list string.
  Variable replace_etool skip1 skip2 : bool.
  Variable digest : nat -> string.
  Notation refactored_v1_0 fuel w := (old_traverse_workflow gx ev src_example self_example src_params src_known load_run attrs
                                        replace_etool skip1 skip2 true fuel w).
  Notation refactored_v1_1 fuel w := (old_traverse_workflow gx ev src_example self_example src_params src_known load_run attrs
                                        replace_etool skip1 skip2 false fuel w).
  Notation refactored_v1_2 fuel w := (traverse_workflow gx ev src_example self_example src_params src_known out_known load_run attrs
                                        replace_etool skip1 skip2 fuel w).
  Notation process_v1_0 fuel inside p := (old_traverse gx ev src_example self_example src_params src_known load_run attrs
                                            replace_etool skip1 skip2 true digest fuel inside p).
  Notation process_v1_1 fuel inside p := (old_traverse gx ev src_example self_example src_params src_known load_run attrs
                                            replace_etool skip1 skip2 false digest fuel inside p).
  Notation process_v1_2 fuel inside p := (traverse gx ev src_example self_example src_params src_known out_known load_run attrs
                                            replace_etool skip1 skip2 digest fuel inside p).

  (** A workflow without [when] and [pickValue]: the same result, or the same error. *)
  Theorem C88_v1_1 : forall fuel w, Older w -> refactored_v1_1 fuel w = refactored_v1_2 fuel w.
  Proof. intros fuel w O. apply old_workflow_same; [exact O | discriminate]. Qed.
  Theorem C88_v1_0 : forall fuel w, Older w -> InputsNamed w -> refactored_v1_0 fuel w = refactored_v1_2 fuel w.
  Proof. intros fuel w O N. apply old_workflow_same; auto. Qed.

  (** A tool on its own. *)
  Lemma wrapped_older c : Older (wrap_tool c).
  Proof.
    split; unfold wrap_tool; cbn [wf_steps wf_outputs].
    - intros st [<- | []]. reflexivity.
    - intros o I. apply in_map_iff in I. destruct I as (x & <- & _). reflexivity.
  Qed.
  Lemma wrapped_named c : (forall i, In i (t_inputs (cm_tool c)) -> after_hash (ti_id i) <> "") -> InputsNamed (wrap_tool c).
  Proof.
    intros H st i. unfold wrap_tool; cbn [wf_steps]. intros [<- | []] I. cbn [ws_in] in I.
    apply in_map_iff in I. destruct I as (x & <- & I). cbn. apply H. exact I.
  Qed.
  Theorem C88_tool_v1_1 : forall fuel inside c, process_v1_1 fuel inside (PTool c) = process_v1_2 fuel inside (PTool c).
  Proof.
    intros fuel inside c. cbn [old_traverse traverse]. destruct (_ && negb inside); [|reflexivity].
    rewrite C88_v1_1 by apply wrapped_older. reflexivity.
  Qed.
  Theorem C88_tool_v1_0 : forall fuel inside c, (forall i, In i (t_inputs (cm_tool c)) -> after_hash (ti_id i) <> "") ->
    process_v1_0 fuel inside (PTool c) = process_v1_2 fuel inside (PTool c).
  Proof.
    intros fuel inside c H. cbn [old_traverse traverse]. destruct (_ && negb inside); [|reflexivity].
    rewrite C88_v1_0; [reflexivity | apply wrapped_older |]. apply wrapped_named. unfold expand_stream_shortcuts. cbn [cm_tool].
    exact H.
  Qed.

  (** What comes out is a document of the same version: no step got a [when], no output a
      [pickValue].  The outputs of the workflow are as they were. *)
  Theorem C88_stays : forall fuel w w' m, Older w ->
    refactored_v1_1 fuel w = Ok (w', m) \/ (InputsNamed w /\ refactored_v1_0 fuel w = Ok (w', m)) ->
    Older w' /\ wf_outputs w' = wf_outputs w.
  Proof.
    intros fuel w w' m O E.
    assert (E' : refactored_v1_2 fuel w = Ok (w', m)).
    { destruct E as [E | (N & E)]; [rewrite C88_v1_1 in E | rewrite C88_v1_0 in E]; auto. }
    split; [exact (workflow_stays _ _ _ _ _ _ _ _ _ _ _ _ _ _ _ _ O E')|].
    destruct E as [E | (_ & E)]; unfold old_traverse_workflow in E; binv E ls El; binv E r Er; destruct r as [[wr1 s1] m1];
      binv E u Eu; binv E q Eqq; destruct q as [[wr3 s3] m3]; injection E as <- _; reflexivity.
  Qed.

  (** The workflow that comes out is connected as in C63: every source names what a source named
      before, or the result of an existing step; the old steps come first, the others are
      generated; if nothing was modified, the steps are those of the document. *)
  Theorem C88_connected : forall fuel w w' m, Older w ->
    refactored_v1_1 fuel w = Ok (w', m) \/ (InputsNamed w /\ refactored_v1_0 fuel w = Ok (w', m)) ->
    Closed w w' /\ wf_inputs w' = wf_inputs w /\
    (exists olds news, wf_steps w' = olds ++ news /\ Forall2 (StepAfter (wf_steps w')) (wf_steps w) olds /\
      Forall (fun g => MadeName (ws_id g) /\ GivesResult g) news) /\
    (m = false ->
      Forall2 (fun st st' => st' = with_run (ws_run st') st /\ forall t, ws_run st = RTool t -> st' = st) (wf_steps w) (wf_steps w')).
  Proof.
    intros fuel w w' m O E.
    assert (E' : refactored_v1_2 fuel w = Ok (w', m)).
    { destruct E as [E | (N & E)]; [rewrite C88_v1_1 in E | rewrite C88_v1_0 in E]; auto. }
    apply traverse_workflow_ok in E'. destruct E' as (A & B & _ & C & D). split; [exact A|]. split; [exact B|]. split; [exact C|].
    intros M. apply D. exact M.
  Qed.
End Old.
Print Assumptions C88_v1_1.
Print Assumptions C88_v1_0.
Print Assumptions C88_tool_v1_1.
Print Assumptions C88_tool_v1_0.
Print Assumptions C88_stays.
Print Assumptions C88_connected.

(** *** The small workflow of C63, without [when] and [pickValue] *)
Definition old_step : wstep :=
  {| ws_id := ws_id demo_step; ws_in := ws_in demo_step; ws_run := ws_run demo_step; ws_scatter := SNone; ws_scatterMethod := None;
     ws_when := None; ws_reqs := None |}.
Definition old_workflow : workflow :=
  {| wf_inputs := wf_inputs demo_workflow;
     wf_outputs := [{| wo_id := "w.cwl#o"; wo_source := SOne "w.cwl#s/out"; wo_pick := None |}];
     wf_steps := [old_step]; wf_reqs := wf_reqs demo_workflow |}.
Definition old_run (strict : bool) (w : workflow) : result (workflow * bool) :=
  old_traverse_workflow demo_gx demo_plain (fun _ _ _ => Ok (JInt 23)) (fun _ _ _ => Ok (JInt 23)) (fun _ _ => Ok 1)
    (fun _ _ _ => Ok tt) (fun _ => Err WorkflowException) [] false false false strict 100 w.
Example C88_case : Older old_workflow /\ InputsNamed old_workflow /\
  exists w', old_run true old_workflow = Ok (w', true) /\ old_run false old_workflow = Ok (w', true) /\
  map ws_id (wf_steps w') = ["w.cwl#s"; "_expression_s_x"; "_expression_s_arguments_0"; "_expression_s_stdout";
                             "_expression_workflow_EnvVarRequirement_0"] /\ Older w'.
Proof.
  assert (O : Older old_workflow) by (split; [intros st [<- | []]; reflexivity | intros o [<- | []]; reflexivity]).
  assert (N : InputsNamed old_workflow) by (intros st i [<- | []] [<- | [<- | []]]; discriminate).
  split; [exact O|]. split; [exact N|].
  eexists. split; [vm_compute; reflexivity|]. split; [vm_compute; reflexivity|]. split; [reflexivity|].
  split; cbn [wf_steps wf_outputs].
  - intros st H. cbn [In] in H. repeat (destruct H as [<- | H]; [reflexivity|]). destruct H.
  - intros o H. cbn [In] in H. destruct H as [<- | H]; [reflexivity | destruct H].
Qed.
(** The two conditions are needed.  A [pickValue] is not seen by the older modules, which leave
    the output as it is; an input without an id is an AttributeError in v1.0 only. *)
Definition pick_workflow : workflow :=
  {| wf_inputs := []; wf_outputs := [{| wo_id := "w.cwl#o"; wo_source := SMany ["w.cwl#n"]; wo_pick := Some "all_non_null" |}];
     wf_steps := []; wf_reqs := None |}.
Example C88_case_pick : old_run false pick_workflow = Ok (pick_workflow, false) /\ exists w', demo_run [] pick_workflow = Ok (w', true).
Proof. split; [vm_compute; reflexivity|]. eexists. vm_compute. reflexivity. Qed.
Definition noid_workflow : workflow :=
  {| wf_inputs := wf_inputs demo_workflow; wf_outputs := [];
     wf_steps := [{| ws_id := "w.cwl#s"; ws_in := [sin "w.cwl#s/x" "w.cwl#n" (Some "$(self + 1)"); sin "" "w.cwl#n" None];
                     ws_run := ws_run demo_step; ws_scatter := SNone; ws_scatterMethod := None; ws_when := None; ws_reqs := None |}];
     wf_reqs := None |}.
Example C88_case_ids : old_run true noid_workflow = Err AttributeError /\ exists w', old_run false noid_workflow = Ok (w', true).
Proof. split; [vm_compute; reflexivity|]. eexists. vm_compute. reflexivity. Qed.
