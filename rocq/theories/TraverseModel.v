(** * The refactoring tool: a process on its own

    cwl_v1_2_expression_refactor.py: expand_stream_shortcuts and traverse.  (The modules for
    v1.0 and v1.1 have the same text here, but for the types in the signature.) *)
From Verif Require Import PyBase PackModel RefactorModel FlowModel.

(** A CommandLineTool, ExpressionTool or Operation: what [tool] has of it; the format and the
    secondaryFiles of its inputs, in order; the types of its outputs, in order.  Labels,
    documentation, defaults and [streamable] are not modelled. *)
Record command := { cm_tool : tool; cm_extra : list (json * list json); cm_types : list json }.
(** what the tool can be given *)
Inductive process : Type := PTool (c : command) | PWorkflow (w : workflow).

(** line 44: [output.type_ == "stdout"] *)
Definition is_stdout (ty : json) : bool := match ty with JStr s => String.eqb s "stdout" | _ => false end.

(** lines 43-54, the loop over the outputs: the types and the stdout of the copy that is
    returned.  [given] is the stdout of the process; [digest k] is the hash of the process when
    [k] of its outputs have been rewritten before.  The outputBinding is given to the output of
    the process (line 54), not to that of the copy, so the outputs of the copy have the glob they
    had; the process itself is not used any more. *)
Fixpoint expand_loop (digest : nat -> string) (given : option string) (k : nat) (now : option string) (types : list json)
  : list json * option string :=
  match types with
  | [] => ([], now)
  | ty :: rest =>
      if is_stdout ty
      then let now := match filled given with Some _ => now | None => Some (digest k) end in
           let r := expand_loop digest given (S k) now rest in (JStr "File" :: fst r, snd r)
      else let r := expand_loop digest given k now rest in (ty :: fst r, snd r)
  end.
(** lines 38-57 expand_stream_shortcuts *)
Definition expand_stream_shortcuts (digest : nat -> string) (c : command) : command :=
  let r := expand_loop digest (t_stdout (cm_tool c)) 0 (t_stdout (cm_tool c)) (cm_types c) in
  {| cm_tool := tool_stream false (snd r) (cm_tool c); cm_extra := cm_extra c; cm_types := fst r |}.

(** lines 248-273: the inputs of the workflow around the tool *)
Fixpoint outer_inputs (ins : list tinput) (extra : list (json * list json)) : list winput :=
  match ins with
  | [] => []
  | i :: ins' =>
      let fs := match extra with x :: _ => x | [] => (JNull, []) end in
      {| wi_id := after_hash (ti_id i); wi_type := ti_type i; wi_format := fst fs; wi_secondary := snd fs |}
        :: outer_inputs ins' (tl extra)
  end.
(** lines 242-302: the workflow around a tool *)
Definition wrap_tool (c : command) : workflow :=
  let t := cm_tool c in
  {| wf_inputs := outer_inputs (t_inputs t) (cm_extra c);
     wf_outputs := map (fun o => {| wo_id := after_hash (to_id o); wo_source := SOne ("main/" ++ after_hash (to_id o));
                                    wo_pick := None |}) (t_outputs t);
     wf_steps := [{| ws_id := "#main"; ws_in := map (fun i => feed (after_hash (ti_id i)) (after_hash (ti_id i))) (t_inputs t);
                     ws_run := RTool t; ws_scatter := SNone; ws_scatterMethod := None; ws_when := None; ws_reqs := None |}];
     wf_reqs := None |}.

(** line 317: [process2.expression = expression] *)
Definition with_expression (e : string) (t : tool) : tool :=
  {| t_kind := t_kind t; t_inputs := t_inputs t; t_args := t_args t; t_stdout := t_stdout t; t_stderr := t_stderr t;
     t_outputs := t_outputs t; t_reqs := t_reqs t; t_hints := t_hints t; t_expression := e |}.

Section Traverse.
  (** see FlowModel.v *)
  Variable gx : json -> json -> json -> result (option string).
  Variable ev : string -> json -> result json.
  Variable src_example self_example : list wstep -> wstep -> src -> result json.
  Variable src_params : list wstep -> src -> result nat.
  Variable src_known : list wstep -> wstep -> string -> result unit.
  Variable out_known : list wstep -> src -> result unit.
  Variable load_run : string -> result (tool * bool).
  Variable attrs : list string.
  Variable replace_etool skip1 skip2 : bool.
  (** the hashes of the process, see above *)
  Variable digest : nat -> string.
  Notation workflow_ fuel w := (traverse_workflow gx ev src_example self_example src_params src_known out_known load_run attrs
                                  replace_etool skip1 skip2 fuel w).

  (** lines 231-325 traverse *)
  Definition traverse (fuel : nat) (inside : bool) (p : process) : result (process * bool) :=
    match p with
    | PTool c =>
        if is_clt (cm_tool c) && negb inside then
          let c := expand_stream_shortcuts digest c in
          do r <- workflow_ fuel (wrap_tool c);
          if snd r then Ok (PWorkflow (fst r), true) else Ok (PTool c, false)
        else if is_etool (cm_tool c) && replace_etool then
          do e <- find_expr gx (JStr (t_expression (cm_tool c))) (tool_mock (t_inputs (cm_tool c))) JNull;
          let t := match e with Some e => with_expression e (cm_tool c) | None => cm_tool c end in
          Ok (PTool {| cm_tool := etool_to_cltool t None; cm_extra := cm_extra c; cm_types := cm_types c |}, true)
        else Ok (PTool c, false)
    | PWorkflow w => do r <- workflow_ fuel w; Ok (PWorkflow (fst r), snd r)
    end.
End Traverse.
