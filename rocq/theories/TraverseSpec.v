(** * What the refactoring is meant to do with a process on its own *)
From Verif Require Import PyBase RefactorSpec FlowSpec FlowValueSpec FlowToolSpec.
From Verif Require Import RefactorModel FlowModel TraverseModel. (* for the types of documents only *)

(** ** A tool becomes a workflow *)

(** input [k] of the tool and of the workflow *)
Definition SameInput (p : tinput) (x : json * list json) (i : winput) : Prop :=
  Fragment (ti_id p) (wi_id i) /\ wi_type i = ti_type p /\ wi_format i = fst x /\ wi_secondary i = snd x.
(** an output of the tool, and the output of the workflow that has its value *)
Definition SameOutput (o : toutput) (wo : woutput) : Prop :=
  Fragment (to_id o) (wo_id wo) /\ wo_source wo = SOne ("main/" ++ wo_id wo) /\ wo_pick wo = None.
(** an input of the tool, and the input of the step: it has the value of the workflow's input *)
Definition Passed (p : tinput) (i : sinput) : Prop :=
  Fragment (ti_id p) (si_id i) /\ si_source i = SOne (si_id i) /\ si_valueFrom i = None /\ si_linkMerge i = None /\ si_default i = JNull.

(** The workflow [w] has the inputs and the outputs of the tool, and one step that runs it, once
    and always; the other steps are made by the refactoring. *)
Record Around (c : command) (w : workflow) (main : wstep) : Prop := {
  ar_inputs : List.length (cm_extra c) = List.length (t_inputs (cm_tool c)) ->
    List.length (wf_inputs w) = List.length (t_inputs (cm_tool c)) /\
    forall k p x i, nth_error (t_inputs (cm_tool c)) k = Some p -> nth_error (cm_extra c) k = Some x ->
      nth_error (wf_inputs w) k = Some i -> SameInput p x i;
  ar_outputs : Forall2 SameOutput (t_outputs (cm_tool c)) (wf_outputs w);
  ar_steps : exists made, wf_steps w = main :: made /\ Forall (fun g => MadeName (ws_id g) /\ GivesResult g) made;
  ar_name : Fragment (ws_id main) "main";
  ar_in : exists old new, ws_in main = old ++ new /\ Forall2 Passed (t_inputs (cm_tool c)) old /\
            Forall (fun i => StartsWith "_" (si_id i)) new;
  ar_scatter : ws_scatter main = SNone;
  ar_when : ws_when main = None }.

(** the tool that was given; only its stdout may be another one, if an output has the type stdout *)
Definition ToolOf (c : command) (t : tool) : Prop :=
  (exists s, t = {| t_kind := t_kind (cm_tool c); t_inputs := t_inputs (cm_tool c); t_args := t_args (cm_tool c); t_stdout := s;
                    t_stderr := t_stderr (cm_tool c); t_outputs := t_outputs (cm_tool c); t_reqs := t_reqs (cm_tool c);
                    t_hints := t_hints (cm_tool c); t_expression := t_expression (cm_tool c) |}) /\
  (Forall (fun ty => ty <> JStr "stdout") (cm_types c) -> t = cm_tool c).

(** ** Names of inputs, as in a document with one tool: [file#name] *)
Definition PlainNames (t : tool) : Prop :=
  Forall (fun p => exists n, Fragment (ti_id p) n /\ has_char "/" n = false) (t_inputs t).
(** [inputs] in the tool, when its inputs have the values [env] *)
Definition own_inputs (t : tool) (env : string -> json) (x : string) (v : option json) : Prop :=
  (v = Some (env x) /\ exists p, In p (t_inputs t) /\ Fragment (ti_id p) x) \/
  (v = None /\ forall p, In p (t_inputs t) -> ~ Fragment (ti_id p) x).

(** ** The standard output of a tool *)

(** the output is the file that the standard output is written to *)
Definition TakesStdout (t : tool) (ty : json) (o : toutput) : Prop :=
  ty = JStr "stdout" \/
  (ty = JStr "File" /\ exists s, t_stdout t = Some s /\ s <> "" /\ to_glob o = JStr s).

(** ** An ExpressionTool becomes a command *)

(** the same inputs and outputs: ids, types, formats and secondaryFiles *)
Definition SameSignature (c c' : command) : Prop :=
  map ti_id (t_inputs (cm_tool c')) = map ti_id (t_inputs (cm_tool c)) /\
  map ti_type (t_inputs (cm_tool c')) = map ti_type (t_inputs (cm_tool c)) /\
  map to_id (t_outputs (cm_tool c')) = map to_id (t_outputs (cm_tool c)) /\
  cm_types c' = cm_types c /\ cm_extra c' = cm_extra c.
(** The command writes [text] to the file expression.js, which it runs (not modelled), and its
    outputs are what the program prints. *)
Definition WritesProgram (c : command) (text : string) : Prop :=
  t_kind (cm_tool c) = KClt /\ t_stdout (cm_tool c) = Some "cwl.output.json" /\
  t_reqs (cm_tool c) = Some [RIwd (LList [EDirent (Some text) (Some "expression.js")])].
(** The program: the inputs and the runtime values as JSON texts, the libraries, the code. *)
Definition program (inputs runtime : string) (lib : list string) (code : string) : string :=
  sjoin (String c_nl "") (
    [String c_dq ("use strict" ++ String c_dq ";"); "var inputs=" ++ inputs ++ ";"; "var runtime=" ++ runtime ++ ";"]%string
    ++ lib ++
    ["var ret = function(){" ++ code ++ "}();"; "process.stdout.write(JSON.stringify(ret));"]%string).
