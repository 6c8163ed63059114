(** * The refactoring of workflows in CWL v1.0 and v1.1

    cwl_v1_0_expression_refactor.py and cwl_v1_1_expression_refactor.py: traverse_workflow and
    what it calls.  Where their text is that of cwl_v1_2_expression_refactor.py the definitions
    of FlowModel.v are used; the functions whose text differs, and those that call them, are
    written again here.  [strict]: true for v1.0, false for v1.1. *)
From Verif Require Import PyBase PackModel ExprModel RefactorModel FlowModel TraverseModel.

(** v1.0, line 1978: [wf_step_input.id.split("/")] without a test whether there is an id.  An
    input without id is the input with the empty id of the model. *)
Definition without_id (i : sinput) : bool := String.eqb (si_id i) "".

Section Old.
  (** see FlowModel.v.  That a parameter without type is an error in v1.0 (lines 1904-1915) and
      none in v1.1 is part of [src_params]. *)
  Variable gx : json -> json -> json -> result (option string).
  Variable ev : string -> json -> result json.
  Variable src_example self_example : list wstep -> wstep -> src -> result json.
  Variable src_params : list wstep -> src -> result nat.
  Variable src_known : list wstep -> wstep -> string -> result unit.
  Variable load_run : string -> result (tool * bool).
  Variable attrs : list string.
  Variable replace_etool skip1 skip2 : bool.
  Variable strict : bool.

  (** v1.0 lines 1922-2011, v1.1 lines 1924-2015 replace_step_valueFrom_expr_with_etool.  Nothing
      after the loop over the inputs raises anything. *)
  Definition old_valueFrom_step (wreqs : option (list wreq)) (steps : list wstep) (st : wstep) (inp : sinput)
      (orig : run) (orig_ins : list sinput) (name expr : string) : result wstep :=
    do g <- valueFrom_step src_params replace_etool wreqs steps st inp orig orig_ins name expr;
    if strict && existsb without_id orig_ins then Err AttributeError else Ok g.

  (** v1.0 lines 1760-1860, v1.1 lines 1766-1867: the loop over the inputs of a step *)
  Fixpoint old_value_loop (wreqs : option (list wreq)) (pre post : list wstep) (st : wstep) (mock : json)
      (orig : run) (orig_ins : list sinput) (done_ todo : list sinput) (gen : list wstep)
    : result (wstep * list wstep) :=
    match todo with
    | [] => Ok (with_in done_ st, gen)
    | inp :: todo' =>
        match filled (si_valueFrom inp) with
        | None => old_value_loop wreqs pre post st mock orig orig_ins (done_ ++ [inp]) todo' gen
        | Some text =>
            let cur := with_in (done_ ++ todo) st in
            let steps := pre ++ cur :: post ++ gen in
            do self <- (if sourced (si_source inp) then self_example steps cur (si_source inp) else Ok JNull);
            do x <- find_expr gx (JStr text) mock self;
            match x with
            | None => old_value_loop wreqs pre post st mock orig orig_ins (done_ ++ [inp]) todo' gen
            | Some expr =>
                let name := ("_expression_" ++ after_hash (ws_id st) ++ "_" ++ basename (si_id inp))%string in
                if negb (has_input orig (si_id inp)) then Err WorkflowException
                else
                do _ <- (match si_source inp with
                         | SMany l => mapM (fun s => src_known steps cur (after_hash s)) l
                         | _ => Ok []
                         end);
                let st := with_run (give_js wreqs orig (ws_run st)) st in
                do g <- old_valueFrom_step wreqs (pre ++ with_in (done_ ++ todo) st :: post ++ gen) st inp orig orig_ins name expr;
                let inp' := {| si_id := si_id inp; si_source := SOne (name ++ "/result"); si_valueFrom := None;
                               si_linkMerge := si_linkMerge inp; si_default := si_default inp |} in
                old_value_loop wreqs pre post st mock orig orig_ins (done_ ++ [inp']) todo' (gen ++ [g])
            end
        end
    end.

  (** v1.0 lines 1745-1884, v1.1 lines 1751-1890 traverse_step: there is no [when] *)
  Definition old_traverse_step (wreqs : option (list wreq)) (pre post : list wstep) (st : wstep)
    : result (wstep * list wstep * bool * bool) :=
    do mock <- step_mock src_example (pre ++ st :: post) st;
    if String.eqb (ws_id st) "" then Ok (st, [], false, false)
    else
    let orig := ws_run st in
    let orig_ins := ws_in st in
    do v <- old_value_loop wreqs pre post st mock orig orig_ins [] orig_ins [];
    let (st, gen) := v in
    do p <- process_level_reqs gx attrs replace_etool skip2 wreqs orig (st, gen);
    do c <- match orig with
            | RTool t => if is_clt t then traverse_clt gx replace_etool skip1 skip2 wreqs t (fst p)
                         else Ok (fst p, false, false)
            | _ => Ok (fst p, false, false)
            end;
    Ok (fst (fst (fst c)), snd (fst (fst c)),
        (match gen with [] => false | _ => true end) || snd p || snd (fst c), snd c).

  (** v1.0 lines 2032-2038, v1.1 lines 2036-2042 *)
  Fixpoint old_steps_loop (fuel : nat) (wreqs : option (list wreq)) (done_ todo : list wstep) (modified : bool)
    : result (option (list wreq) * list wstep * bool) :=
    match todo with
    | [] => Ok (wreqs, done_, modified)
    | st :: todo' =>
        match fuel with
        | O => Err OutOfFuel
        | S fuel =>
            if startswith "_expression" (ws_id st) then old_steps_loop fuel wreqs (done_ ++ [st]) todo' modified
            else
              do r <- old_traverse_step wreqs done_ todo' st;
              let '(st', gen, m, sub) := r in
              old_steps_loop fuel (if sub then need_subwf wreqs else wreqs) (done_ ++ [st']) (todo' ++ gen) (modified || m)
        end
    end.

  (** v1.0 lines 2014-2056, v1.1 lines 2018-2060 traverse_workflow: the outputs of the workflow
      are not looked at (process_workflow_inputs_and_outputs, v1.0 lines 611-643, v1.1 lines
      609-641).  In v1.0 an entry of secondaryFiles is the pattern itself. *)
  Definition old_traverse_workflow (fuel : nat) (w : workflow) : result (workflow * bool) :=
    do ls <- mapM (load_step load_run replace_etool) (wf_steps w);
    do r <- old_steps_loop fuel (wf_reqs w) [] (map fst ls) (existsb snd ls);
    let '(wreqs, steps, m) := r in
    do _ <- mapM (fun p => source_line (check_input gx (wf_mock (wf_inputs w)) p)) (wf_inputs w);
    do q <- process_reqs gx ev attrs replace_etool (wf_inputs w) wreqs steps;
    let '(wreqs, steps, m3) := q in
    Ok ({| wf_inputs := wf_inputs w; wf_outputs := wf_outputs w; wf_steps := steps;
           wf_reqs := match wreqs with
                      | None => None
                      | Some [] => None
                      | Some l => Some (filter (fun r => match r with RJs _ | RStepExpr => false | _ => true end) l)
                      end |}, m || m3).

  (** v1.0 and v1.1 lines 232-324 traverse *)
  Variable digest : nat -> string.
  Definition old_traverse (fuel : nat) (inside : bool) (p : process) : result (process * bool) :=
    match p with
    | PTool c =>
        if is_clt (cm_tool c) && negb inside then
          let c := expand_stream_shortcuts digest c in
          do r <- old_traverse_workflow fuel (wrap_tool c);
          if snd r then Ok (PWorkflow (fst r), true) else Ok (PTool c, false)
        else if is_etool (cm_tool c) && replace_etool then
          do e <- find_expr gx (JStr (t_expression (cm_tool c))) (tool_mock (t_inputs (cm_tool c))) JNull;
          let t := match e with Some e => with_expression e (cm_tool c) | None => cm_tool c end in
          Ok (PTool {| cm_tool := etool_to_cltool t None; cm_extra := cm_extra c; cm_types := cm_types c |}, true)
        else Ok (PTool c, false)
    | PWorkflow w => do r <- old_traverse_workflow fuel w; Ok (PWorkflow (fst r), snd r)
    end.
End Old.
