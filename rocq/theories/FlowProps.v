(** * Properties of the refactoring of workflows *)
From Verif Require Import PyBase PyBaseProofs PackModel ExprModel ExprSpec ExprProps EvalModel RefactorModel RefactorSpec RefactorProofs
  FlowModel FlowSpec FlowProofs FlowProofs2 FlowProofs3.

(** ** C63: the result is a connected workflow around the old one *)
Section Whole.
  (** get_expression and do_eval, looking up types, loading referenced processes, and the
      options of the tool: anything *)
  Variable gx : json -> json -> json -> result (option string).
  Variable ev : string -> json -> result json.
  Variable src_example self_example : list wstep -> wstep -> src -> result json.
  Variable src_params : list wstep -> src -> result nat.
  Variable src_known : list wstep -> wstep -> string -> result unit.
  Variable out_known : list wstep -> src -> result unit.
  Variable load_run : string -> result (tool * bool).
  Variable attrs : list string.
  Variable replace_etool skip1 skip2 : bool.
  Notation refactored fuel w := (traverse_workflow gx ev src_example self_example src_params src_known out_known load_run attrs
                                   replace_etool skip1 skip2 fuel w).

  (** Every source names what a source named before, or the result of an existing step. *)
  Theorem C63_sources_exist : forall fuel w w' m, refactored fuel w = Ok (w', m) -> Closed w w'.
  Proof. intros fuel w w' m E. apply traverse_workflow_ok in E. tauto. Qed.

  (** The old steps come first, in their order, with their ids, inputs and scatter; the others
      are the generated ones, each with the one output [result]. *)
  Theorem C63_steps_kept : forall fuel w w' m, refactored fuel w = Ok (w', m) ->
    exists olds news, wf_steps w' = olds ++ news /\ Forall2 (StepAfter (wf_steps w')) (wf_steps w) olds /\
      Forall (fun g => MadeName (ws_id g) /\ GivesResult g) news.
  Proof. intros fuel w w' m E. apply traverse_workflow_ok in E. tauto. Qed.

  (** Inputs and outputs of the workflow are the same ones. *)
  Theorem C63_interface_kept : forall fuel w w' m, refactored fuel w = Ok (w', m) ->
    wf_inputs w' = wf_inputs w /\ Forall2 (OutAfter (wf_steps w')) (wf_outputs w) (wf_outputs w').
  Proof. intros fuel w w' m E. apply traverse_workflow_ok in E. tauto. Qed.

  (** When the tool says that nothing was modified, the steps are those of the document, apart
      from loaded references, and the outputs are the same. *)
  Theorem C63_unmodified : forall fuel w w', refactored fuel w = Ok (w', false) ->
    Forall2 (fun st st' => st' = with_run (ws_run st') st /\ forall t, ws_run st = RTool t -> st' = st) (wf_steps w) (wf_steps w') /\
    wf_outputs w' = wf_outputs w.
  Proof. intros fuel w w' E. apply traverse_workflow_ok in E. apply E. reflexivity. Qed.

  (** The loop over the steps, which adds steps to the list it runs over, ends: if nothing it
      calls runs out of fuel, there is one result for all sufficient fuel. *)
  Theorem C63_ends :
    (forall a b c, gx a b c <> Err OutOfFuel) -> (forall a b, ev a b <> Err OutOfFuel) ->
    (forall a b c, src_example a b c <> Err OutOfFuel) -> (forall a b c, self_example a b c <> Err OutOfFuel) ->
    (forall a b, src_params a b <> Err OutOfFuel) -> (forall a b c, src_known a b c <> Err OutOfFuel) ->
    (forall a b, out_known a b <> Err OutOfFuel) -> (forall a, load_run a <> Err OutOfFuel) ->
    forall w, exists n r, r <> Err OutOfFuel /\ forall fuel, n <= fuel -> refactored fuel w = r.
  Proof. intros H1 H2 H3 H4 H5 H6 H7 H8 w. apply traverse_workflow_ends; assumption. Qed.
End Whole.
Print Assumptions C63_sources_exist.
Print Assumptions C63_steps_kept.
Print Assumptions C63_interface_kept.
Print Assumptions C63_unmodified.
Print Assumptions C63_ends.

(** *** A small workflow *)
Definition no_engine : unit -> string -> string -> unit * result json := fun s _ _ => (s, Err JavascriptException).
Definition demo_gx := get_expression no_engine demo_dumps demo_dumps demo_loads.
Definition demo_plain (t : string) (i : json) : result json := plain_eval no_engine demo_dumps demo_dumps demo_loads t i JNull.
Definition demo_run (attrs : list string) (w : workflow) : result (workflow * bool) :=
  traverse_workflow demo_gx demo_plain (fun _ _ _ => Ok (JInt 23)) (fun _ _ _ => Ok (JInt 23)) (fun _ _ => Ok 1)
    (fun _ _ _ => Ok tt) (fun _ _ => Ok tt) (fun _ => Err WorkflowException) attrs false false false 100 w.
Definition tin (n : string) : tinput := {| ti_id := n; ti_type := JStr "int"; ti_valueFrom := None |}.
Definition demo_tool : tool :=
  {| t_kind := KClt; t_inputs := [tin "t.cwl#x"; tin "t.cwl#y"]; t_args := [ABind (Some "$(inputs.y + 1)")];
     t_stdout := Some "$(inputs.x + 'a')"; t_stderr := None;
     t_outputs := [{| to_id := "t.cwl#out"; to_glob := JStr "a.txt"; to_eval := None; to_contents := false |}];
     t_reqs := None; t_hints := []; t_expression := "" |}.
Definition sin (n s : string) (v : option string) : sinput :=
  {| si_id := n; si_source := SOne s; si_valueFrom := v; si_linkMerge := None; si_default := JNull |}.
Definition demo_step : wstep :=
  {| ws_id := "w.cwl#s"; ws_in := [sin "w.cwl#s/x" "w.cwl#n" (Some "$(self + 1)"); sin "w.cwl#s/y" "w.cwl#n" None];
     ws_run := RTool demo_tool; ws_scatter := SNone; ws_scatterMethod := None; ws_when := Some "$(inputs.y > 2)"; ws_reqs := None |}.
Definition demo_workflow : workflow :=
  {| wf_inputs := [{| wi_id := "w.cwl#n"; wi_type := JStr "int"; wi_format := JNull; wi_secondary := [] |}];
     wf_outputs := [{| wo_id := "w.cwl#o"; wo_source := SMany ["w.cwl#s/out"]; wo_pick := Some "first_non_null" |}];
     wf_steps := [demo_step]; wf_reqs := Some [RJs None; REnv [("A", "$(inputs.n + 1)"); ("B", "b")]] |}.

Example C63_case : exists w', demo_run [] demo_workflow = Ok (w', true) /\
  map ws_id (wf_steps w') = ["w.cwl#s"; "_expression_s_x"; "_when_expression_s"; "_expression_s_arguments_0"; "_expression_s_stdout";
                             "_expression__when_expression_s_x"; "_pickValue_workflow_step_o"; "_expression_workflow_EnvVarRequirement_0"] /\
  map (fun i => (si_id i, si_source i)) (ws_in (nth 0 (wf_steps w') demo_step))
    = [("w.cwl#s/x", SOne "_expression_s_x/result"); ("w.cwl#s/y", SOne "w.cwl#n"); ("_when", SOne "_when_expression_s/result");
       ("_arguments_0", SOne "_expression_s_arguments_0/result"); ("_stdout", SOne "_expression_s_stdout/result");
       ("_envDef0", SOne "_expression_workflow_EnvVarRequirement_0/result")].
Proof. eexists. split; [vm_compute; reflexivity|]. split; vm_compute; reflexivity. Qed.
Example C63_case_unmodified : exists w', demo_run [] {| wf_inputs := []; wf_outputs := []; wf_steps := []; wf_reqs := None |} = Ok (w', false).
Proof. eexists. vm_compute. reflexivity. Qed.
