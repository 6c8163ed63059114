(** * Model of the expression refactoring tool: workflows and their steps

    cwl_v1_2_expression_refactor.py (the v1.0 and v1.1 modules have the same code
    for the functions modelled here, without [when] and [pickValue]) and
    expression_refactor.py.  Objects are values: what the program changes in place
    is returned.  An id, a name and a source are texts; a missing id is not
    modelled.  Labels, docs, formats, secondaryFiles and loadingOptions that are
    only copied are left out. *)
From Verif Require Import PyBase PackModel ExprModel EvalModel RefactorModel.

(** ** Documents *)

(** [if text:] *)
Definition filled (o : option string) : option string :=
  match o with Some s => if String.eqb s "" then None else Some s | None => None end.
(** [if value:] *)
Definition truthy (j : json) : bool :=
  match j with
  | JNull => false
  | JBool b => b
  | JInt z => negb (Z.eqb z 0)
  | JFloat s => negb (smem s ["0.0"; "-0.0"])
  | JStr s => negb (String.eqb s "")
  | JList l => match l with [] => false | _ => true end
  | JDict d => match d with [] => false | _ => true end
  end.
(** [if source:] *)
Definition sourced (s : src) : bool :=
  match s with SNone => false | SOne x => negb (String.eqb x "") | SMany l => match l with [] => false | _ => true end end.

(** WorkflowStepInput *)
Record sinput := { si_id : string; si_source : src; si_valueFrom : option string;
                   si_linkMerge : option string; si_default : json }.

(** An entry of InitialWorkDirRequirement.listing: a text, a Dirent, another object *)
Inductive entry : Type :=
| EText (s : string)
| EDirent (entry_ : option string) (entryname : option string)
| EOther (j : json).
(** the listing: missing, a text, a list, or a tuple holding one text (line 1177) *)
Inductive listing : Type :=
| LNone
| LText (s : string)
| LList (l : list entry)
| LTuple (s : string).

(** The requirements this code looks at *)
Inductive wreq : Type :=
| REnv (envDef : list (string * string))        (* envName, envValue *)
| RRes (values : list (string * json))          (* attribute, value *)
| RIwd (l : listing)
| RJs (lib : option (list string))              (* InlineJavascriptRequirement *)
| RStepExpr                                     (* StepInputExpressionRequirement *)
| RSubwf                                        (* SubworkflowFeatureRequirement *)
| ROther (cls : string).

(** parameters of tools; [ti_valueFrom] is the one of the inputBinding *)
Record tinput := { ti_id : string; ti_type : json; ti_valueFrom : option string }.
Record toutput := { to_id : string; to_glob : json; to_eval : option string; to_contents : bool }.
Inductive targ : Type := AText (s : string) | ABind (valueFrom : option string).
Inductive kind : Type := KClt | KEtool | KWorkflow | KOperation.
Record tool := { t_kind : kind; t_inputs : list tinput; t_args : list targ;
                 t_stdout : option string; t_stderr : option string; t_outputs : list toutput;
                 t_reqs : option (list wreq); t_hints : list wreq; t_expression : string }.

(** The sub-workflow made from a tool with an outputEval (lines 1569-1609): its inputs and
    outputs (with their sources), the step that runs the tool, and the step that runs the
    expression.  The step of the tool has no scatter, the other one neither; both have the
    scatterMethod. *)
Record sub (R : Type) := { sb_inputs : list string; sb_outputs : list (string * string);
                           sb_id : string; sb_in : list sinput; sb_run : R; sb_when : option string;
                           sb_reqs : option (list wreq); sb_method : option string;
                           sb_gen : string; sb_gen_in : list sinput; sb_gen_tool : tool }.
Arguments sb_inputs {R} s. Arguments sb_outputs {R} s. Arguments sb_id {R} s. Arguments sb_in {R} s.
Arguments sb_run {R} s. Arguments sb_when {R} s. Arguments sb_reqs {R} s. Arguments sb_method {R} s.
Arguments sb_gen {R} s. Arguments sb_gen_in {R} s. Arguments sb_gen_tool {R} s.

(** What a step runs: a reference, a process, or such a sub-workflow *)
Inductive run : Type :=
| RUri (uri : string)
| RTool (t : tool)
| RSub (s : sub run).

(** The fields of cwl.WorkflowStep that cwl_v1_2_expression_refactor.py reads or writes (for
    example lines 1864-2011) *)
Record wstep := { ws_id : string; ws_in : list sinput; ws_run : run; ws_scatter : src;
                  ws_scatterMethod : option string; ws_when : option string;
                  ws_reqs : option (list wreq) }.
(** The fields of cwl.WorkflowInputParameter that it reads (lines 658-745 and 491-518) *)
Record winput := { wi_id : string; wi_type : json; wi_format : json; wi_secondary : list json }.
(** The fields of cwl.WorkflowOutputParameter that it reads (lines 658-745, 1626-1653) *)
Record woutput := { wo_id : string; wo_source : src; wo_pick : option string }.
(** The fields of cwl.Workflow that it reads or writes (lines 2210-2249) *)
Record workflow := { wf_inputs : list winput; wf_outputs : list woutput; wf_steps : list wstep;
                     wf_reqs : option (list wreq) }.

(** assignment to [step.in_], for example lines 1308-1325 *)
Definition with_in (l : list sinput) (s : wstep) : wstep :=
  {| ws_id := ws_id s; ws_in := l; ws_run := ws_run s; ws_scatter := ws_scatter s;
     ws_scatterMethod := ws_scatterMethod s; ws_when := ws_when s; ws_reqs := ws_reqs s |}.
(** assignment to [step.run], for example lines 1603 and 2220 *)
Definition with_run (r : run) (s : wstep) : wstep :=
  {| ws_id := ws_id s; ws_in := ws_in s; ws_run := r; ws_scatter := ws_scatter s;
     ws_scatterMethod := ws_scatterMethod s; ws_when := ws_when s; ws_reqs := ws_reqs s |}.
(** assignment to [step.when] (line 2206) *)
Definition with_when (w : option string) (s : wstep) : wstep :=
  {| ws_id := ws_id s; ws_in := ws_in s; ws_run := ws_run s; ws_scatter := ws_scatter s;
     ws_scatterMethod := ws_scatterMethod s; ws_when := w; ws_reqs := ws_reqs s |}.
(** assignment to [step.requirements] (lines 1010, 1029, 1048) *)
Definition with_reqs (r : option (list wreq)) (s : wstep) : wstep :=
  {| ws_id := ws_id s; ws_in := ws_in s; ws_run := ws_run s; ws_scatter := ws_scatter s;
     ws_scatterMethod := ws_scatterMethod s; ws_when := ws_when s; ws_reqs := r |}.
(** [step.in_.append(WorkflowStepInput(id=..., source=...))] *)
Definition feed (id source : string) : sinput :=
  {| si_id := id; si_source := SOne source; si_valueFrom := None; si_linkMerge := None; si_default := JNull |}.
Definition add_in (i : sinput) (s : wstep) : wstep := with_in (ws_in s ++ [i]) s.

(** assignment to [target.requirements] (lines 1073-1326) *)
Definition tool_reqs (r : option (list wreq)) (t : tool) : tool :=
  {| t_kind := t_kind t; t_inputs := t_inputs t; t_args := t_args t; t_stdout := t_stdout t;
     t_stderr := t_stderr t; t_outputs := t_outputs t; t_reqs := r; t_hints := t_hints t;
     t_expression := t_expression t |}.
(** assignment to [step.run.hints] (expression_refactor.py:579-601) *)
Definition tool_hints (h : list wreq) (t : tool) : tool :=
  {| t_kind := t_kind t; t_inputs := t_inputs t; t_args := t_args t; t_stdout := t_stdout t;
     t_stderr := t_stderr t; t_outputs := t_outputs t; t_reqs := t_reqs t; t_hints := h;
     t_expression := t_expression t |}.
(** assignment to [process.inputs] (lines 1329-1340) *)
Definition tool_inputs (l : list tinput) (t : tool) : tool :=
  {| t_kind := t_kind t; t_inputs := l; t_args := t_args t; t_stdout := t_stdout t;
     t_stderr := t_stderr t; t_outputs := t_outputs t; t_reqs := t_reqs t; t_hints := t_hints t;
     t_expression := t_expression t |}.
(** assignment to [target_clt.arguments] (lines 1372 and 1404) *)
Definition tool_args (l : list targ) (t : tool) : tool :=
  {| t_kind := t_kind t; t_inputs := t_inputs t; t_args := l; t_stdout := t_stdout t;
     t_stderr := t_stderr t; t_outputs := t_outputs t; t_reqs := t_reqs t; t_hints := t_hints t;
     t_expression := t_expression t |}.
(** assignment to [target_clt.stdout] or [target_clt.stderr] (lines 1343-1623) *)
Definition tool_stream (err : bool) (v : option string) (t : tool) : tool :=
  {| t_kind := t_kind t; t_inputs := t_inputs t; t_args := t_args t;
     t_stdout := if err then t_stdout t else v; t_stderr := if err then v else t_stderr t;
     t_outputs := t_outputs t; t_reqs := t_reqs t; t_hints := t_hints t;
     t_expression := t_expression t |}.
(** [isinstance(process, CommandLineTool)] (line 2000) *)
Definition is_clt (t : tool) : bool := match t_kind t with KClt => true | _ => false end.
(** [isinstance(process, ExpressionTool)] (lines 1945, 2219) *)
Definition is_etool (t : tool) : bool := match t_kind t with KEtool => true | _ => false end.

(** [l[i] = x] *)
Fixpoint set_nth {A} (i : nat) (x : A) (l : list A) : result (list A) :=
  match i, l with
  | _, [] => Err IndexError
  | O, _ :: l' => Ok (x :: l')
  | S i', y :: l' => do r <- set_nth i' x l'; Ok (y :: r)
  end.

(** [s.split("/")[-1]] *)
Definition basename (s : string) : string := last (split_char "/" s) "".
(** [s.split("#", 1)[-1]] *)
Fixpoint after_first (c : ascii) (s : string) : option string :=
  match s with
  | EmptyString => None
  | String d s' => if Ascii.eqb d c then Some s' else after_first c s'
  end.
Definition after_first_hash (s : string) : string :=
  match after_first "#" s with Some r => r | None => s end.
(** a source with the document removed (lines 1930, 2105-2110) *)
Definition short_source (s : src) : src :=
  match s with
  | SNone => SNone
  | SOne x => if String.eqb x "" then SOne x else SOne (after_hash x)
  | SMany l => SMany (map after_hash l)
  end.

(** The requirements as find_expressionLib sees them (expression_refactor.py:241-245) *)
Definition jsreq_of (r : wreq) : jsreq :=
  match r with
  | RJs lib => InlineJS lib
  | REnv _ => OtherReq "EnvVarRequirement"
  | RRes _ => OtherReq "ResourceRequirement"
  | RIwd _ => OtherReq "InitialWorkDirRequirement"
  | RStepExpr => OtherReq "StepInputExpressionRequirement"
  | RSubwf => OtherReq "SubworkflowFeatureRequirement"
  | ROther c => OtherReq c
  end.
Definition jsreqs (r : option (list wreq)) : list jsreq :=
  match r with Some l => map jsreq_of l | None => [] end.
Definition run_reqs (r : run) : option (list wreq) :=
  match r with RTool t => t_reqs t | _ => None end.

(** ** Generated steps *)

(** [isinstance(req, InitialWorkDirRequirement)], for example lines 1045 and 1153 *)
Definition is_iwd (r : wreq) : bool := match r with RIwd _ => true | _ => false end.
(** [isinstance(req, InlineJavascriptRequirement)] (expression_refactor.py:244) *)
Definition is_js (r : wreq) : bool := match r with RJs _ => true | _ => false end.

(** lines 405-417 and 1853-1861: the generated ExpressionTool *)
Definition etool (inputs : list string) (reqs : list wreq) (text : string) : tool :=
  {| t_kind := KEtool;
     t_inputs := map (fun n => {| ti_id := n; ti_type := JNull; ti_valueFrom := None |}) inputs;
     t_args := []; t_stdout := None; t_stderr := None;
     t_outputs := [{| to_id := "result"; to_glob := JNull; to_eval := None; to_contents := false |}];
     t_reqs := Some reqs; t_hints := []; t_expression := text |}.

(** lines 162-228 etool_to_cltool *)
Definition etool_to_cltool (t : tool) (lib : option (list string)) : tool :=
  {| t_kind := KClt; t_inputs := map (fun i => {| ti_id := ti_id i; ti_type := ti_type i; ti_valueFrom := None |}) (t_inputs t);
     t_args := []; t_stdout := Some "cwl.output.json"; t_stderr := None;
     t_outputs := map (fun o => {| to_id := to_id o; to_glob := JNull; to_eval := None; to_contents := false |}) (t_outputs t);
     t_reqs := Some [RIwd (LList [EDirent
                  (Some (script (match lib with Some l => l | None => [] end) (t_expression t)))
                  (Some "expression.js")])];
     t_hints := [ROther "DockerRequirement"; ROther "SoftwareRequirement"];
     t_expression := "" |}.

(** [cwl.WorkflowStep(...)] of a generated step: lines 456, 1693, 1740, 2128, 2197 *)
Definition gen_step (name : string) (ins : list sinput) (t : tool) (scatter : src) (method : option string) : wstep :=
  {| ws_id := name; ws_in := ins; ws_run := RTool t; ws_scatter := scatter;
     ws_scatterMethod := method; ws_when := None; ws_reqs := None |}.

(** lines 420-462 replace_expr_with_etool with 328-417 generate_etool_from_expr:
    the step appended to the workflow.  [procs]: the workflow, and the extra
    process if given.  [source is None] decides whether the tool has an input,
    [if source] whether the step has. *)
Definition expr_step (replace_etool : bool) (procs : list (list jsreq)) (name : string) (source : src)
    (expr : string) : wstep :=
  let lib := find_expressionLib procs in
  let has_self := match source with SNone => false | _ => true end in
  let e := etool (if has_self then ["self"] else []) [RJs lib]
             (etool_expression (if has_self then Some "self" else None) expr) in
  gen_step name
    (if sourced source
     then [{| si_id := "self"; si_source := source; si_valueFrom := None; si_linkMerge := None; si_default := JNull |}]
     else [])
    (if replace_etool then etool_to_cltool e lib else e) SNone None.

(** lines 1749-1772 cltool_inputs_to_etool_inputs *)
Definition run_input_ids (r : run) : list string :=
  filter (fun n => negb (startswith "_" n))
    (match r with
     | RTool t => map (fun i => basename (after_hash (ti_id i))) (t_inputs t)
     | RSub s => sb_inputs s
     | RUri _ => []
     end).

(** expression_refactor.py:268-278: the requirements copied to the generated tool *)
Definition copied_reqs (r : option (list wreq)) : list wreq :=
  match r with Some l => filter (fun x => negb (is_iwd x)) l | None => [] end.

(** lines 1656-1699 replace_step_clt_expr_with_etool (and 1702-1746
    replace_clt_hintreq_expr_with_etool, the same): the step appended for an
    expression of the tool run by [st]. *)
Definition tool_expr_step (replace_etool : bool) (wreqs : option (list wreq)) (st : wstep) (name : string)
    (self_name : option string) (expr : string) : wstep :=
  let reqs := run_reqs (ws_run st) in
  let e := etool (run_input_ids (ws_run st))
             (RJs (etool_lib (Some (jsreqs reqs)) [jsreqs wreqs]) :: copied_reqs reqs)
             (etool_expression self_name expr) in
  gen_step name
    (filter (fun i => negb (startswith "_" (si_id i)))
       (map (fun i => {| si_id := basename (si_id i); si_source := si_source i; si_valueFrom := si_valueFrom i;
                         si_linkMerge := si_linkMerge i; si_default := si_default i |}) (ws_in st)))
    (if replace_etool then etool_to_cltool e (find_expressionLib [jsreqs wreqs]) else e) SNone None.

(** ** Expressions of a workflow *)

(** lines 521-562 example_input, for a type given as a value: a name or an object *)
Definition example_input (t : json) : json :=
  let file := [("class", JStr "File"); ("location", JStr "https://www.example.com/example.txt");
               ("basename", JStr "example.txt"); ("size", JInt 23); ("contents", JStr "hoopla");
               ("nameroot", JStr "example"); ("nameext", JStr "txt")] in
  match t with
  | JStr s =>
      if String.eqb s "Directory" then
        JDict [("class", JStr "Directory"); ("location", JStr "https://www.example.com/example");
               ("basename", JStr "example"); ("listing", JList [JDict (dpop "location" file)])]
      else if String.eqb s "File" then JDict file
      else if String.eqb s "int" then JInt 23
      else if String.eqb s "string" then JStr "hoopla!"
      else if String.eqb s "boolean" then JBool true
      else JNull
  | _ => JNull
  end.

Section Flow.
  (** get_expression (RefactorModel.get_expression): text, inputs, self *)
  Variable gx : json -> json -> json -> result (option string).
  (** do_eval without requirements (line 897): text, inputs *)
  Variable ev : string -> json -> result json.
  (** example_input(type_for_source(step.run, source, parent)) (line 516): the steps of
      the workflow, the step, the source *)
  Variable src_example : list wstep -> wstep -> src -> result json.
  (** the example value of [self] (lines 1884-1914) *)
  Variable self_example : list wstep -> wstep -> src -> result json.
  (** the number of parameters param_for_source_id returns (line 2028) *)
  Variable src_params : list wstep -> src -> result nat.
  (** type_for_source(step.run, source_id, parent), of which the result is not used
      (line 1932) *)
  Variable src_known : list wstep -> wstep -> string -> result unit.
  (** type_for_source(workflow, sources) (line 717) *)
  Variable out_known : list wstep -> src -> result unit.
  (** loading a referenced process and refactoring it (expression_refactor.py:504-553) *)
  Variable load_run : string -> result (tool * bool).
  (** ResourceRequirement.attrs, a frozenset: the order in which it is iterated *)
  Variable attrs : list string.
  (** not args.etools, args.skip_some1, args.skip_some2 *)
  Variable replace_etool skip1 skip2 : bool.

  (** [expression = get_expression(...)] and [if expression] *)
  Definition find_expr (text inputs self : json) : result (option string) :=
    do r <- gx text inputs self; Ok (filled r).

  (** lines 503-505: empty_inputs of a process *)
  Definition tool_mock (l : list tinput) : json :=
    JDict (fold_left (fun d i => dset (after_hash (ti_id i)) (example_input (ti_type i)) d) l []).
  Definition wf_mock (l : list winput) : json :=
    JDict (fold_left (fun d i => dset (after_hash (wi_id i)) (example_input (wi_type i)) d) l []).
  (** lines 506-517: empty_inputs of a step *)
  Definition step_mock (steps : list wstep) (st : wstep) : result json :=
    do d <- foldM (fun d p =>
      let n := basename (si_id p) in
      let by_type :=
        match src_example steps st (si_source p) with
        | Ok v => Ok (dset n v d)
        | Err WorkflowException => Ok d
        | Err GraphTargetMissingException => Ok d
        | Err e => Err e
        end in
      match si_source p with
      | SNone =>
          match filled (si_valueFrom p) with
          | Some _ => Ok (dset n (example_input (JStr "string")) d)
          | None => if truthy (si_default p) then Ok (dset n (si_default p) d) else by_type
          end
      | _ => by_type
      end) (ws_in st) [];
    Ok (JDict d).

  (** lines 2014-2042 workflow_step_to_WorkflowInputParameters: the ids *)
  Fixpoint source_params (steps : list wstep) (ins : list sinput) (except_ : string) : result (list string) :=
    match ins with
    | [] => Ok []
    | i :: ins' =>
        if String.eqb (si_id i) "" then source_params steps ins' except_
        else
          let n := basename (after_hash (si_id i)) in
          if sourced (si_source i) && negb (String.eqb n except_)
          then do k <- src_params steps (si_source i);
               do r <- source_params steps ins' except_;
               Ok (repeat n k ++ r)
          else source_params steps ins' except_
    end.

  (** lines 2099-2110: an input of the generated step *)
  Definition sibling_input (i : sinput) : sinput :=
    if String.eqb (si_id i) "" then i
    else {| si_id := basename (si_id i); si_source := short_source (si_source i);
            si_valueFrom := match filled (si_valueFrom i) with Some _ => None | None => si_valueFrom i end;
            si_linkMerge := si_linkMerge i; si_default := si_default i |}.
  (** lines 2178-2187: the same, keeping valueFrom *)
  Definition when_input (i : sinput) : sinput :=
    if String.eqb (si_id i) "" then i
    else {| si_id := basename (si_id i); si_source := short_source (si_source i);
            si_valueFrom := si_valueFrom i; si_linkMerge := si_linkMerge i; si_default := si_default i |}.

  (** lines 2116-2121 and 2189-2194: the names of the scattered inputs *)
  Definition scatter_names (s : src) : list string :=
    match s with SNone => [] | SOne x => [basename x] | SMany l => map basename l end.

  (** lines 2045-2136 replace_step_valueFrom_expr_with_etool *)
  Definition valueFrom_step (wreqs : option (list wreq)) (steps : list wstep) (st : wstep) (inp : sinput)
      (orig : run) (orig_ins : list sinput) (name expr : string) : result wstep :=
    let n := basename (si_id inp) in
    let has_source := sourced (short_source (si_source inp)) in
    if String.eqb (si_id inp) "" then Err WorkflowException
    else
    do ps <- source_params steps orig_ins n;
    let ps := if has_source then ps ++ ["self"] else ps in
    let e := etool ps
               (RJs (etool_lib (Some (jsreqs (run_reqs orig))) [jsreqs wreqs; jsreqs (ws_reqs st)]) :: copied_reqs (run_reqs orig))
               (etool_expression (if has_source then Some "self" else None) expr) in
    let t := if replace_etool
             then etool_to_cltool e (find_expressionLib [jsreqs wreqs; jsreqs (ws_reqs st)]) else e in
    let ins := orig_ins ++
      (if has_source
       then [{| si_id := "self"; si_source := si_source inp; si_valueFrom := None; si_linkMerge := None; si_default := JNull |}]
       else []) in
    let ins := filter (fun x => negb (String.eqb (si_id x) "")
                                && negb (startswith "_" (si_id x) || endswith n (si_id x)))
                      (map sibling_input ins) in
    Ok (gen_step name ins t
          (if smem n (scatter_names (ws_scatter st)) then SMany ["self"] else SNone)
          (ws_scatterMethod st)).

  (** expression_refactor.py:474-493 get_input_for_id: is there such an input?  The name
      has no slash any more when it is searched for one. *)
  Definition has_input (r : run) (id : string) : bool :=
    match r with
    | RTool t => existsb (fun i => negb (String.eqb (ti_id i) "")
                                   && String.eqb (basename (after_hash (ti_id i))) (basename id)) (t_inputs t)
    | RSub s => existsb (fun i => negb (String.eqb i "")
                                  && String.eqb (basename (after_hash i)) (basename id)) (sb_inputs s)
    | RUri _ => false
    end.

  (** lines 1945-1966: an ExpressionTool without InlineJavascriptRequirement gets one *)
  Definition give_js (wreqs : option (list wreq)) (orig r : run) : run :=
    match orig, r with
    | RTool o, RTool t =>
        if is_etool o && negb (existsb is_js (t_hints o ++ match t_reqs o with Some l => l | None => [] end))
        then RTool (tool_reqs (Some (match t_reqs t with Some l => l | None => [] end
                                     ++ [RJs (find_expressionLib [jsreqs wreqs])])) t)
        else r
    | _, _ => r
    end.

  (** lines 1879-1980: the loop over the inputs of a step.  [pre], [post]: the other
      steps of the workflow; [done_]: the inputs treated; [gen]: the steps generated. *)
  Fixpoint value_loop (wreqs : option (list wreq)) (pre post : list wstep) (st : wstep) (mock : json)
      (orig : run) (orig_ins : list sinput) (done_ todo : list sinput) (gen : list wstep)
    : result (wstep * list wstep) :=
    match todo with
    | [] => Ok (with_in done_ st, gen)
    | inp :: todo' =>
        match filled (si_valueFrom inp) with
        | None => value_loop wreqs pre post st mock orig orig_ins (done_ ++ [inp]) todo' gen
        | Some text =>
            let cur := with_in (done_ ++ todo) st in
            let steps := pre ++ cur :: post ++ gen in
            do self <- (if sourced (si_source inp) then self_example steps cur (si_source inp) else Ok JNull);
            do x <- find_expr (JStr text) mock self;
            match x with
            | None => value_loop wreqs pre post st mock orig orig_ins (done_ ++ [inp]) todo' gen
            | Some expr =>
                let name := ("_expression_" ++ after_hash (ws_id st) ++ "_" ++ basename (si_id inp))%string in
                if negb (has_input orig (si_id inp)) then Err WorkflowException
                else
                do _ <- (match si_source inp with
                         | SMany l => mapM (fun s => src_known steps cur (after_hash s)) l
                         | _ => Ok []
                         end);
                let st := with_run (give_js wreqs orig (ws_run st)) st in
                do g <- valueFrom_step wreqs (pre ++ with_in (done_ ++ todo) st :: post ++ gen) st inp orig orig_ins name expr;
                let inp' := {| si_id := si_id inp; si_source := SOne (name ++ "/result"); si_valueFrom := None;
                               si_linkMerge := si_linkMerge inp; si_default := si_default inp |} in
                value_loop wreqs pre post st mock orig orig_ins (done_ ++ [inp']) todo' (gen ++ [g])
            end
        end
    end.

  (** lines 2139-2207 replace_step_when_expr_with_etool *)
  Definition when_step (wreqs : option (list wreq)) (steps : list wstep) (st : wstep) (orig_ins : list sinput)
      (expr : string) : result (wstep * wstep) :=
    let name := ("_when_expression_" ++ after_hash (ws_id st))%string in
    do ps <- source_params steps orig_ins "";
    let lib := find_expressionLib [jsreqs wreqs; jsreqs (ws_reqs st)] in
    let e := etool ps [RJs lib] (etool_expression None expr) in
    let ins := filter (fun x => negb (String.eqb (si_id x) "") && negb (startswith "_" (si_id x)))
                      (map when_input orig_ins) in
    Ok (add_in (feed "_when" (name ++ "/result")) (with_when (Some "$(inputs._when)") st),
        gen_step name ins (if replace_etool then etool_to_cltool e lib else e) (ws_scatter st) (ws_scatterMethod st)).

  (** ** Expressions of a tool *)

  (** A step, the steps generated so far, and the marks: modified, a sub-workflow was made *)
  Definition work := (wstep * list wstep)%type.

  (** lines 1329-1340 add_input_to_process *)
  Definition add_tool_input (name : string) (st : wstep) : wstep :=
    match ws_run st with
    | RTool t => if is_clt t
                 then with_run (RTool (tool_inputs (t_inputs t ++ [{| ti_id := name; ti_type := JNull; ti_valueFrom := None |}]) t)) st
                 else st
    | _ => st
    end.
  (** [target_clt.inputs.append(...)]: also when the tool has moved into a sub-workflow (the copies
      of lines 1572 and 1574 share the list of inputs) *)
  Fixpoint append_run_input (name : string) (r : run) : run :=
    match r with
    | RTool t => RTool (tool_inputs (t_inputs t ++ [{| ti_id := name; ti_type := JNull; ti_valueFrom := None |}]) t)
    | RSub s => RSub {| sb_inputs := sb_inputs s; sb_outputs := sb_outputs s; sb_id := sb_id s; sb_in := sb_in s;
                        sb_run := append_run_input name (sb_run s); sb_when := sb_when s; sb_reqs := sb_reqs s;
                        sb_method := sb_method s; sb_gen := sb_gen s; sb_gen_in := sb_gen_in s; sb_gen_tool := sb_gen_tool s |}
    | RUri u => RUri u
    end.
  Definition append_tool_input (name : string) (st : wstep) : wstep := with_run (append_run_input name (ws_run st)) st.
  (** [target_process.requirements[req_index] = r] *)
  Definition set_tool_req (i : nat) (r : wreq) (st : wstep) : result wstep :=
    match ws_run st with
    | RTool t => match t_reqs t with
                 | Some l => do l' <- set_nth i r l; Ok (with_run (RTool (tool_reqs (Some l') t)) st)
                 | None => Err TypeError
                 end
    | _ => Err AttributeError
    end.
  Definition nth_req (i : nat) (st : wstep) : wreq :=
    match run_reqs (ws_run st) with Some l => nth i l (ROther "") | None => ROther "" end.

  (** lines 1242-1251: the literal text after the entry *)
  Definition iwd_text : string :=
    (";" ++ nl ++ "if (typeof entry === 'string' || entry instanceof String) {" ++ nl
     ++ "result = {" ++ quoted_raw "class" ++ ": " ++ quoted_raw "File" ++ ", " ++ quoted_raw "basename"
     ++ ": entryname, " ++ quoted_raw "contents" ++ ": entry} ;" ++ nl
     ++ "if (typeof entryname === 'string' || entryname instanceof String) {" ++ nl
     ++ "result.basename = entryname ;" ++ nl ++ "}" ++ nl ++ "} else {" ++ nl ++ "result = entry ;" ++ nl ++ "}" ++ nl
     ++ "return result; }")%string.

  (** What process_level_reqs collects: the step, the generated steps, and the inputs to be
      added at the end (name of the input, name of the generated step). *)
  Record plr := { p_step : wstep; p_gen : list wstep; p_env : list (string * string);
                  p_res : list (string * string); p_iwd : list (string * string); p_mod : bool }.

  (** lines 1103-1125.  The requirement is no list: [requirements[req_index][env_index]] is a
      TypeError. *)
  Definition plr_env (inputs : json) (defs : list (string * string)) (p : plr) : result plr :=
    foldM (fun p d =>
      if String.eqb (snd d) "" then Ok p
      else do x <- find_expr (JStr (snd d)) inputs JNull;
           match x with Some _ => Err TypeError | None => Ok p end) defs p.

  (** lines 1126-1150 *)
  Definition plr_res (wreqs : option (list wreq)) (step_name : string) (i : nat) (inputs : json)
      (values : list (string * json)) (p : plr) : result plr :=
    foldM (fun p a =>
      let v := match dget a values with Some v => v | None => JNull end in
      if negb (truthy v) then Ok p
      else do x <- find_expr v inputs JNull;
           match x with
           | None => Ok p
           | Some expr =>
               let name := ("_expression_" ++ step_name ++ "_ResourceRequirement_" ++ a)%string in
               let g := tool_expr_step replace_etool wreqs (p_step p) name None expr in
               do st <- set_tool_req i
                    (RRes (dset a (JStr ("$(inputs._" ++ a ++ ")"))
                             (match nth_req i (p_step p) with RRes v => v | _ => [] end))) (p_step p);
               Ok {| p_step := st; p_gen := p_gen p ++ [g]; p_env := p_env p;
                     p_res := p_res p ++ [(("_" ++ a)%string, name)]; p_iwd := p_iwd p; p_mod := true |}
           end) attrs p.

  (** [target_process.requirements[req_index].listing[listing_index] = e] *)
  Definition set_listing (i k : nat) (e : entry) (st : wstep) : result wstep :=
    match nth_req i st with
    | RIwd (LList l) => do l' <- set_nth k e l; set_tool_req i (RIwd (LList l')) st
    | _ => Err AttributeError
    end.

  (** lines 1194-1307: the entries of a listing *)
  Fixpoint plr_entries (wreqs : option (list wreq)) (preqs : list jsreq) (step_name : string) (i : nat) (inputs : json)
      (k : nat) (l : list entry) (p : plr) : result plr :=
    match l with
    | [] => Ok p
    | e :: l' =>
        let name := ("_expression_" ++ step_name ++ "_InitialWorkDirRequirement_" ++ str_nat k)%string in
        let input := ("_iwdr_listing_" ++ str_nat k)%string in
        let put p st g := {| p_step := st; p_gen := p_gen p ++ [g]; p_env := p_env p; p_res := p_res p;
                             p_iwd := p_iwd p ++ [(input, name)]; p_mod := true |} in
        do p' <-
          match e with
          | EText s =>
              do x <- find_expr (JStr s) inputs JNull;
              match x with
              | None => Ok p
              | Some expr =>
                  do st <- set_listing i k (EText ("$(inputs." ++ input)) (p_step p);
                  Ok (put p st (expr_step replace_etool [jsreqs wreqs; preqs] name SNone expr))
              end
          | EDirent en enm =>
              match filled en with
              | Some txt =>
                  do x <- find_expr (JStr txt) inputs JNull;
                  match x with
                  | None => Ok p
                  | Some expr =>
                      do expr' <-
                        match enm with
                        | None => Ok expr
                        | Some nm =>
                            do y <- find_expr (JStr nm) inputs JNull;
                            Ok ("${var result; var entryname = "
                                ++ (match y with Some _ => nm | None => quoted_raw nm end)
                                ++ "; var entry = " ++ sdrop_last 1 (sdrop 2 txt) ++ iwd_text)%string
                        end;
                      let g := tool_expr_step replace_etool wreqs (p_step p) name None expr' in
                      do st <- set_listing i k (EDirent (Some ("$(inputs." ++ input ++ ")")%string) enm) (p_step p);
                      Ok (put p st g)
                  end
              | None =>
                  match filled enm with
                  | None => Ok p
                  | Some nm =>
                      do x <- find_expr (JStr nm) inputs JNull;
                      match x with
                      | None => Ok p
                      | Some expr =>
                          do st <- set_listing i k (EDirent en (Some ("$(inputs." ++ input ++ ")")%string)) (p_step p);
                          Ok (put p st (expr_step replace_etool [jsreqs wreqs; preqs] name SNone expr))
                      end
                  end
              end
          | EOther _ => Ok p
          end;
        plr_entries wreqs preqs step_name i inputs (S k) l' p'
    end.

  (** lines 1152-1307 *)
  Definition plr_iwd (wreqs : option (list wreq)) (preqs : list jsreq) (step_name : string) (i : nat) (inputs : json)
      (l : listing) (p : plr) : result plr :=
    if skip2 then Ok p
    else
    match l with
    | LNone => Ok p
    | LTuple _ => Ok p
    | LText s =>
        if String.eqb s "" then Ok p
        else
        do x <- find_expr (JStr s) inputs JNull;
        match x with
        | None => Ok p
        | Some expr =>
            let name := ("_expression_" ++ step_name ++ "_InitialWorkDirRequirement")%string in
            do st <- set_tool_req i (RIwd (LTuple "$(inputs._iwdr_listing)")) (p_step p);
            Ok {| p_step := add_tool_input "_iwdr_listing" (add_in (feed "_iwdr_listing" (name ++ "/result")) st);
                  p_gen := p_gen p ++ [expr_step replace_etool [jsreqs wreqs; preqs] name SNone expr];
                  p_env := p_env p; p_res := p_res p; p_iwd := p_iwd p; p_mod := true |}
        end
    | LList l => plr_entries wreqs preqs step_name i inputs 0 l p
    end.

  (** lines 1102-1307: the loop over the requirements *)
  Fixpoint plr_reqs (wreqs : option (list wreq)) (preqs : list jsreq) (step_name : string) (inputs : json)
      (i : nat) (l : list wreq) (p : plr) : result plr :=
    match l with
    | [] => Ok p
    | r :: l' =>
        do p <-
          match r with
          | REnv defs => plr_env inputs defs p
          | RRes values => plr_res wreqs step_name i inputs values p
          | RIwd li => plr_iwd wreqs preqs step_name i inputs li p
          | _ => Ok p
          end;
        plr_reqs wreqs preqs step_name inputs (S i) l' p
    end.

  (** lines 1308-1325 *)
  Definition plr_feed (l : list (string * string)) (st : wstep) : wstep :=
    fold_left (fun st e => add_tool_input (fst e) (add_in (feed (fst e) (snd e ++ "/result")) st)) l st.

  (** lines 1073-1326 process_level_reqs.  [orig]: the process as it was. *)
  Definition process_level_reqs (wreqs : option (list wreq)) (orig : run) (w : work) : result (work * bool) :=
    match orig with
    | RTool t =>
        match t_reqs t with
        | None => Ok (w, false)
        | Some [] => Ok (w, false)
        | Some reqs =>
            if String.eqb (ws_id (fst w)) "" then Ok (w, false)
            else
            do p <- plr_reqs wreqs (jsreqs (Some reqs)) (after_first_hash (ws_id (fst w))) (tool_mock (t_inputs t)) 0 reqs
                      {| p_step := fst w; p_gen := snd w; p_env := []; p_res := []; p_iwd := []; p_mod := false |};
            Ok ((plr_feed (p_iwd p) (plr_feed (p_res p) (plr_feed (p_env p) (p_step p))), p_gen p), p_mod p)
        end
    | _ => Err AttributeError
    end.

  (** expression_refactor.py:579-601 remove_JSReq, for a tool with skip_command_line1 false *)
  Definition remove_js (t : tool) : tool :=
    let keep := filter (fun r => negb (is_js r)) in
    tool_hints (keep (t_hints t))
      (tool_reqs (match t_reqs t with
                  | None => None
                  | Some l => match keep l with [] => (match l with [] => Some [] | _ => None end) | l' => Some l' end
                  end) t).

  (** lines 1359-1419: the arguments.  A text that is an expression gets an input with the
      id "etool/result", no source, and the linkMerge "_arguments_i" (the arguments of
      WorkflowStepInput are given by position, line 1386). *)
  Fixpoint arg_loop (wreqs : option (list wreq)) (step_id : string) (inputs : json) (k : nat) (l : list targ) (w : work)
    : result (work * bool) :=
    match l with
    | [] => Ok (w, false)
    | a :: l' =>
        let txt := match a with AText s => Some s | ABind v => filled v end in
        do x <- match txt with Some s => find_expr (JStr s) inputs JNull | None => Ok None end;
        match x with
        | None => arg_loop wreqs step_id inputs (S k) l' w
        | Some expr =>
            let (st, gen) := w in
            let inp := ("_arguments_" ++ str_nat k)%string in
            let name := ("_expression_" ++ step_id ++ inp)%string in
            let g := tool_expr_step replace_etool wreqs st name None expr in
            do st <-
              match ws_run st with
              | RTool t =>
                  do args <- set_nth k (ABind (Some ("$(inputs." ++ inp ++ ")")%string)) (t_args t);
                  Ok (with_run (RTool (tool_args args t)) st)
              | _ => Err AttributeError
              end;
            let st := append_tool_input inp st in
            let st := add_in (match a with
                              | AText _ => {| si_id := name ++ "/result"; si_source := SNone; si_valueFrom := None;
                                              si_linkMerge := Some inp; si_default := JNull |}
                              | ABind _ => feed inp (name ++ "/result")
                              end) st in
            let st := match ws_run st with RTool t => with_run (RTool (remove_js t)) st | _ => st end in
            do r <- arg_loop wreqs step_id inputs (S k) l' (st, gen ++ [g]);
            Ok (fst r, true)
        end
    end.

  (** lines 1420-1443: stdout, then stderr *)
  Definition stream_expr (wreqs : option (list wreq)) (step_id : string) (inputs : json) (err : bool)
      (value : option string) (w : work) : result (work * bool) :=
    match filled value with
    | None => Ok (w, false)
    | Some v =>
        do x <- find_expr (JStr v) inputs JNull;
        match x with
        | None => Ok (w, false)
        | Some expr =>
            let (st, gen) := w in
            let inp := if err then "_stderr" else "_stdout" in
            let name := ("_expression_" ++ step_id ++ inp)%string in
            let g := tool_expr_step replace_etool wreqs st name None expr in
            let st := match ws_run st with
                      | RTool t => with_run (RTool (tool_stream err (Some ("$(inputs." ++ inp ++ ")")%string) t)) st
                      | _ => st
                      end in
            Ok ((add_in (feed inp (name ++ "/result")) (append_tool_input inp st), gen ++ [g]), true)
        end
    end.

  (** lines 1444-1465: the valueFrom of inputBindings.  The text written (line 1457) goes to
      [clt], a copy nobody reads any more; the one of the tool stays. *)
  Fixpoint binding_loop (wreqs : option (list wreq)) (step_id : string) (inputs : json) (l : list tinput) (w : work)
    : result (work * bool) :=
    match l with
    | [] => Ok (w, false)
    | i :: l' =>
        do x <- (if skip1 then Ok None
                 else match filled (ti_valueFrom i) with
                      | Some v => find_expr (JStr v) inputs (example_input (ti_type i))
                      | None => Ok None
                      end);
        match x with
        | None => binding_loop wreqs step_id inputs l' w
        | Some expr =>
            let (st, gen) := w in
            let self_id := after_hash (ti_id i) in
            let inp := ("_" ++ self_id ++ "_valueFrom")%string in
            let name := ("_expression_" ++ step_id ++ inp)%string in
            let g := tool_expr_step replace_etool wreqs st name (Some self_id) expr in
            do r <- binding_loop wreqs step_id inputs l'
                      (add_in (feed inp (name ++ "/result")) (append_tool_input inp st), gen ++ [g]);
            Ok (fst r, true)
        end
    end.

  (** lines 1491-1502: self for an outputEval *)
  Definition eval_self (contents : bool) : json :=
    JList [JDict ([("class", JStr "File"); ("basename", JStr "base.name"); ("nameroot", JStr "base");
                   ("nameext", JStr "name"); ("path", JStr "/tmp/base.name"); ("dirname", JStr "/tmp")]
                  ++ if contents then [("contents", JStr "stuff")] else [])].

  (** lines 1785-1820 cltool_step_outputs_to_workflow_outputs *)
  Definition sub_outputs (r : run) (step_id gen_id out_id : string) : list (string * string) :=
    map (fun n => (n, if String.eqb n out_id then (gen_id ++ "/result")%string else (step_id ++ "/" ++ n)%string))
      (filter (fun n => negb (startswith "_" n))
         (match r with
          | RTool t => map (fun o => basename (after_hash (to_id o))) (t_outputs t)
          | RSub s => map fst (sb_outputs s)
          | RUri _ => []
          end)).

  (** lines 1574-1595 on the process that moves into the sub-workflow: remove_JSReq,
      process_CommandLineTool_output (lines 632-659; types are left out) and the ids *)
  Definition moved_run (out_id : string) (r : run) : run :=
    match r with
    | RTool t =>
        let t := if skip1 then t else remove_js t in
        RTool {| t_kind := t_kind t;
                 t_inputs := map (fun i => {| ti_id := after_hash (ti_id i); ti_type := ti_type i; ti_valueFrom := ti_valueFrom i |}) (t_inputs t);
                 t_args := t_args t; t_stdout := t_stdout t; t_stderr := t_stderr t;
                 t_outputs := map (fun o =>
                   let here := String.eqb (after_hash (to_id o)) out_id in
                   {| to_id := after_hash (to_id o); to_glob := to_glob o; to_eval := (if here then None else to_eval o);
                      to_contents := (if here then false else to_contents o) |}) (t_outputs t);
                 t_reqs := t_reqs t; t_hints := t_hints t; t_expression := t_expression t |}
    | _ => r
    end.

  (** lines 1503-1611: the sub-workflow.  What rename_step_source (lines 1626-1653) looks for is
      not there: a source of an output without its first part, or one of the names of inputs;
      an output without a slash in its source does not occur. *)
  Definition sub_workflow (wreqs : option (list wreq)) (clt : tool) (st : wstep) (o : toutput) (expr : string) : sub run :=
    let step_id := after_hash (ws_id st) in
    let out_id := after_hash (to_id o) in
    let gen_id := ("expression_" ++ out_id ++ "_outputEval")%string in
    let clt_inputs := run_input_ids (RTool clt) in
    let e := etool ("self" :: clt_inputs)
               [RJs (find_expressionLib [jsreqs (t_reqs clt); jsreqs (ws_reqs st); jsreqs wreqs])]
               (etool_expression (Some "self") expr) in
    let by_name i := {| si_id := basename (si_id i); si_source := SOne (basename (si_id i)); si_valueFrom := si_valueFrom i;
                        si_linkMerge := None; si_default := si_default i |} in
    {| sb_inputs := clt_inputs;
       sb_outputs := sub_outputs (ws_run st) step_id gen_id out_id;
       sb_id := step_id;
       sb_in := map by_name (ws_in st);
       sb_run := moved_run out_id (ws_run st);
       sb_when := ws_when st; sb_reqs := ws_reqs st; sb_method := ws_scatterMethod st;
       sb_gen := gen_id;
       sb_gen_in := filter (fun i => negb (startswith "_" (si_id i))) (map by_name (ws_in st))
                    ++ [feed "self" (step_id ++ "/" ++ out_id)];
       sb_gen_tool := if replace_etool then etool_to_cltool e (find_expressionLib [jsreqs wreqs]) else e |}.

  (** lines 1466-1622: the outputs.  The glob (line 1479) is written to the copy too.  An
      outputEval that is an expression puts the tool in a sub-workflow; an input of the step
      without a source is then an AttributeError (line 1543). *)
  Fixpoint output_loop (wreqs : option (list wreq)) (step_id : string) (inputs : json) (clt : tool)
      (l : list toutput) (w : work) : result (work * bool * bool) :=
    match l with
    | [] => Ok (w, false, false)
    | o :: l' =>
        do x <- (if truthy (to_glob o) then find_expr (to_glob o) inputs JNull else Ok None);
        let w1 :=
          match x with
          | None => w
          | Some expr =>
              let (st, gen) := w in
              let inp := ("_" ++ after_hash (to_id o) ++ "_glob")%string in
              let name := ("_expression_" ++ step_id ++ inp)%string in
              let g := tool_expr_step replace_etool wreqs st name None expr in
              (add_in (feed inp (name ++ "/result")) (append_tool_input inp st), gen ++ [g])
          end in
        do y <- (if skip2 then Ok None
                 else match filled (to_eval o) with
                      | Some v => find_expr (JStr v) inputs (eval_self (to_contents o))
                      | None => Ok None
                      end);
        do w2 <-
          match y with
          | None => Ok w1
          | Some expr =>
              if existsb (fun i => match si_source i with SNone => true | _ => false end) (ws_in (fst w1))
              then Err AttributeError
              else Ok (with_run (RSub (sub_workflow wreqs clt (fst w1) o expr)) (fst w1), snd w1)
          end;
        do r <- output_loop wreqs step_id inputs clt l' w2;
        Ok (fst (fst r), (match x, y with None, None => snd (fst r) | _, _ => true end),
            (match y with None => snd r | _ => true end))
    end.

  (** lines 1343-1623 traverse_CommandLineTool: the step and the generated steps, whether
      something was modified, whether a sub-workflow was made *)
  Definition traverse_clt (wreqs : option (list wreq)) (clt : tool) (w : work) : result (work * bool * bool) :=
    if String.eqb (ws_id (fst w)) "" then Ok (w, false, false)
    else
    let step_id := after_hash (ws_id (fst w)) in
    let inputs := tool_mock (t_inputs clt) in
    do a <- (if skip1 then Ok (w, false) else arg_loop wreqs step_id inputs 0 (t_args clt) w);
    do b <- stream_expr wreqs step_id inputs false (t_stdout clt) (fst a);
    do c <- stream_expr wreqs step_id inputs true (t_stderr clt) (fst b);
    do d <- binding_loop wreqs step_id inputs (t_inputs clt) (fst c);
    do e <- output_loop wreqs step_id inputs clt (t_outputs clt) (fst d);
    Ok (fst (fst e), snd a || snd b || snd c || snd d || snd (fst e), snd e).

  (** ** The traversal *)

  (** lines 1864-2011 traverse_step: the step, the steps to be appended, modified, sub-workflow *)
  Definition traverse_step (wreqs : option (list wreq)) (pre post : list wstep) (st : wstep)
    : result (wstep * list wstep * bool * bool) :=
    do mock <- step_mock (pre ++ st :: post) st;
    if String.eqb (ws_id st) "" then Ok (st, [], false, false)
    else
    let orig := ws_run st in
    let orig_ins := ws_in st in
    do v <- value_loop wreqs pre post st mock orig orig_ins [] orig_ins [];
    let (st, gen) := v in
    do x <- match filled (ws_when st) with
            | None => Ok None
            | Some t => find_expr (JStr t) mock JNull
            end;
    do w <- match x with
            | None => Ok (st, gen)
            | Some expr =>
                do r <- when_step wreqs (pre ++ st :: post ++ gen) st orig_ins expr;
                Ok (fst r, gen ++ [snd r])
            end;
    do p <- process_level_reqs wreqs orig w;
    do c <- match orig with
            | RTool t => if is_clt t then traverse_clt wreqs t (fst p) else Ok (fst p, false, false)
            | _ => Ok (fst p, false, false)
            end;
    Ok (fst (fst (fst c)), snd (fst (fst c)),
        (match gen with [] => false | _ => true end)
        || (match x with None => false | _ => true end) || snd p || snd (fst c), snd c).

  (** lines 1612-1622: the parent gets a SubworkflowFeatureRequirement *)
  Definition need_subwf (wreqs : option (list wreq)) : option (list wreq) :=
    match wreqs with
    | None => Some [RSubwf]
    | Some [] => Some [RSubwf]
    | Some l => if existsb (fun r => match r with RSubwf => true | _ => false end) l then wreqs else Some (l ++ [RSubwf])
    end.

  (** lines 2228-2234: the steps appended during the loop are visited as well *)
  Fixpoint steps_loop (fuel : nat) (wreqs : option (list wreq)) (done_ todo : list wstep) (modified : bool)
    : result (option (list wreq) * list wstep * bool) :=
    match todo with
    | [] => Ok (wreqs, done_, modified)
    | st :: todo' =>
        match fuel with
        | O => Err OutOfFuel
        | S fuel =>
            if startswith "_expression" (ws_id st) then steps_loop fuel wreqs (done_ ++ [st]) todo' modified
            else
              do r <- traverse_step wreqs done_ todo' st;
              let '(st', gen, m, sub) := r in
              steps_loop fuel (if sub then need_subwf wreqs else wreqs) (done_ ++ [st']) (todo' ++ gen) (modified || m)
        end
    end.

  (** ** Inputs and outputs of the workflow *)

  (** [with SourceLine(..., WorkflowException)]: what is raised inside is raised again as a
      WorkflowException *)
  Definition source_line {A} (r : result A) : result A :=
    match r with
    | Err OutOfFuel => Err OutOfFuel
    | Err _ => Err WorkflowException
    | Ok x => Ok x
    end.

  (** lines 664-691.  secondaryFiles are given by their patterns. *)
  Definition empty_file : json :=
    JDict [("class", JStr "File"); ("basename", JStr "em.pty"); ("nameroot", JStr "em"); ("nameext", JStr "pty")].
  Definition check_input (inputs : json) (p : winput) : result unit :=
    do x <- (if truthy (wi_format p) then find_expr (wi_format p) inputs JNull else Ok None);
    match x with
    | Some _ => Err WorkflowException
    | None =>
        do _ <- mapM (fun s => do y <- find_expr s inputs empty_file;
                               match y with Some _ => Err WorkflowException | None => Ok tt end) (wi_secondary p);
        Ok tt
    end.

  (** lines 587-624 *)
  Definition PICKVALUE_FIRST_NON_NULL_EXPR : string :=
    ("${" ++ nl ++ "for (let i = 0; i < self.length; i++) {" ++ nl ++ "  if (self[i] !== null){" ++ nl
     ++ "    return self[i];" ++ nl ++ "  }" ++ nl ++ "}" ++ nl
     ++ "throw 'pickValue=first_non_null, but no non-null value found: ' + self;" ++ nl ++ "}" ++ nl)%string.
  Definition PICKVALUE_THE_ONLY_NON_NULL_EXPR : string :=
    ("${" ++ nl ++ "var found = null;" ++ nl ++ "self.forEach(function(item) {" ++ nl ++ "  if (item !== null) {" ++ nl
     ++ "    if (found !== null) {" ++ nl
     ++ "      throw 'pickValue=the_only_non_null, but multiple non-null values found: ' + self;" ++ nl
     ++ "    } else {" ++ nl ++ "      found = item;" ++ nl ++ "    }" ++ nl ++ "  }" ++ nl ++ "})" ++ nl
     ++ "if (found !== null) {" ++ nl ++ "  return found;" ++ nl ++ "}" ++ nl
     ++ "throw 'pickValue=the_only_non_null, but no non-null value found: ' + self;" ++ nl ++ "}" ++ nl)%string.
  Definition PICKVALUE_ALL_NON_NULL_EXPR : string :=
    ("${" ++ nl ++ "var results = [];" ++ nl ++ "self.forEach(function(item) {" ++ nl ++ "  if (item !== null){" ++ nl
     ++ "    results.push(item);" ++ nl ++ "  }" ++ nl ++ "})" ++ nl ++ "return results;" ++ nl ++ "}" ++ nl)%string.
  (** lines 696-703 *)
  Definition pick_expr (p : string) : result string :=
    if String.eqb p "first_non_null" then Ok PICKVALUE_FIRST_NON_NULL_EXPR
    else if String.eqb p "the_only_non_null" then Ok PICKVALUE_THE_ONLY_NON_NULL_EXPR
    else if String.eqb p "all_non_null" then Ok PICKVALUE_ALL_NON_NULL_EXPR
    else Err WorkflowException.

  (** lines 692-744: the outputs and the steps of the workflow *)
  Fixpoint pick_loop (wreqs : option (list wreq)) (done_ todo : list woutput) (steps : list wstep) (modified : bool)
    : result (list woutput * list wstep * bool) :=
    match todo with
    | [] => Ok (done_, steps, modified)
    | o :: todo' =>
        match filled (wo_pick o) with
        | None => pick_loop wreqs (done_ ++ [o]) todo' steps modified
        | Some p =>
            do expr <- source_line (pick_expr p);
            let name := ("_pickValue_workflow_step_" ++ after_hash (wo_id o))%string in
            do sources <- source_line (match wo_source o with
                                       | SNone => Err AttributeError
                                       | SOne x => Ok (SOne (after_hash x))
                                       | SMany l => Ok (SMany (map after_hash l))
                                       end);
            do _ <- source_line (out_known steps sources);
            pick_loop wreqs
              (done_ ++ [{| wo_id := wo_id o; wo_source := SOne (name ++ "/result"); wo_pick := None |}]) todo'
              (steps ++ [expr_step replace_etool [jsreqs wreqs] name sources expr]) true
        end
    end.

  (** ** Requirements of the workflow (lines 748-1070) *)

  (** The local variables of process_workflow_reqs_and_hints; [q_env], [q_res], [q_iwd]: the
      new requirement and what was generated for it (step, input); [q_index]: the variable
      [index], shared by the loops *)
  Record wrq := { q_steps : list wstep; q_mod : bool; q_index : nat;
                  q_env : option (list (string * string)); q_genv : list (string * string);
                  q_res : option (list (string * json)); q_gres : list (string * string);
                  q_iwd : option listing; q_giwd : list string;
                  q_penv : bool; q_pres : bool; q_piwd : bool }.

  (** lines 782-811 *)
  Fixpoint wrq_env (wl : list jsreq) (inputs : json) (req : list (string * string)) (k : nat)
      (defs : list (string * string)) (q : wrq) : result wrq :=
    match defs with
    | [] => Ok q
    | (n, v) :: defs' =>
        let q := {| q_steps := q_steps q; q_mod := q_mod q; q_index := k; q_env := q_env q; q_genv := q_genv q;
                    q_res := q_res q; q_gres := q_gres q; q_iwd := q_iwd q; q_giwd := q_giwd q;
                    q_penv := q_penv q; q_pres := q_pres q; q_piwd := q_piwd q |} in
        do x <- (if String.eqb v "" then Ok None else find_expr (JStr v) inputs JNull);
        match x with
        | None => wrq_env wl inputs req (S k) defs' q
        | Some expr =>
            let name := ("_expression_workflow_EnvVarRequirement_" ++ str_nat k)%string in
            do new <- set_nth k (n, ("$(inputs._envDef" ++ str_nat k ++ ")")%string)
                        (match q_env q with Some d => d | None => req end);
            wrq_env wl inputs req (S k) defs'
              {| q_steps := q_steps q ++ [expr_step replace_etool [wl] name SNone expr]; q_mod := true; q_index := k;
                 q_env := Some new; q_genv := q_genv q ++ [(name, ("_envDef" ++ str_nat k)%string)];
                 q_res := q_res q; q_gres := q_gres q; q_iwd := q_iwd q; q_giwd := q_giwd q;
                 q_penv := true; q_pres := q_pres q; q_piwd := q_piwd q |}
        end
    end.

  (** lines 812-839: the new requirement starts empty *)
  Fixpoint wrq_res (wl : list jsreq) (inputs : json) (values : list (string * json)) (l : list string) (q : wrq)
    : result wrq :=
    match l with
    | [] => Ok q
    | a :: l' =>
        let v := match dget a values with Some v => v | None => JNull end in
        do x <- (if truthy v then find_expr v inputs JNull else Ok None);
        match x with
        | None => wrq_res wl inputs values l' q
        | Some expr =>
            let name := ("_expression_workflow_ResourceRequirement_" ++ a)%string in
            wrq_res wl inputs values l'
              {| q_steps := q_steps q ++ [expr_step replace_etool [wl] name SNone expr]; q_mod := true; q_index := q_index q;
                 q_env := q_env q; q_genv := q_genv q;
                 q_res := Some (dset a (JStr ("$(inputs._" ++ a ++ ")")%string) (match q_res q with Some d => d | None => [] end));
                 q_gres := q_gres q ++ [(name, ("_" ++ a)%string)];
                 q_iwd := q_iwd q; q_giwd := q_giwd q;
                 q_penv := q_penv q; q_pres := true; q_piwd := q_piwd q |}
        end
    end.

  (** lines 867-996: the entries of a listing, [iwdr] being the copy of the requirement.  What
      follows a successful do_eval (lines 905-970) is not modelled: [C66_entry_refused]
      proves that it is never reached. *)
  Fixpoint wrq_entries (wl : list jsreq) (inputs : json) (k : nat) (l : list entry) (q : wrq) : result wrq :=
    match l with
    | [] => Ok q
    | e :: l' =>
        let name := ("_expression_workflow_InitialWorkDirRequirement_" ++ str_nat k)%string in
        let q := {| q_steps := q_steps q; q_mod := q_mod q; q_index := k; q_env := q_env q; q_genv := q_genv q;
                    q_res := q_res q; q_gres := q_gres q; q_iwd := q_iwd q; q_giwd := q_giwd q;
                    q_penv := q_penv q; q_pres := q_pres q; q_piwd := q_piwd q |} in
        let put expr :=
          do new <- match q_iwd q with
                    | Some (LList li) => set_nth k (EText ("$(inputs._iwdr_listing_" ++ str_nat k)) li
                    | _ => Err AttributeError
                    end;
          Ok {| q_steps := q_steps q ++ [expr_step replace_etool [wl] name SNone expr]; q_mod := true; q_index := k;
                q_env := q_env q; q_genv := q_genv q; q_res := q_res q; q_gres := q_gres q;
                q_iwd := Some (LList new); q_giwd := q_giwd q ++ [name];
                q_penv := q_penv q; q_pres := q_pres q; q_piwd := q_piwd q |} in
        do q' <-
          match e with
          | EText s =>
              do x <- find_expr (JStr s) inputs JNull;
              match x with Some expr => put expr | None => Ok q end
          | EDirent en enm =>
              match filled en with
              | Some txt =>
                  do x <- find_expr (JStr txt) inputs JNull;
                  match x with
                  | None => Ok q
                  | Some _ => do _ <- ev txt inputs; Err NotImplementedError
                  end
              | None =>
                  match filled enm with
                  | None => Ok q
                  | Some nm =>
                      do x <- find_expr (JStr nm) inputs JNull;
                      match x with Some expr => put expr | None => Ok q end
                  end
              end
          | EOther _ => Ok q
          end;
        wrq_entries wl inputs (S k) l' q'
    end.

  (** lines 840-1000 *)
  Definition wrq_iwd (wl : list jsreq) (inputs : json) (l : listing) (q : wrq) : result wrq :=
    match l with
    | LNone => Ok q
    | LTuple _ => Ok q
    | LText s =>
        if String.eqb s "" then Ok q
        else
        do x <- find_expr (JStr s) inputs JNull;
        match x with
        | None => Ok q
        | Some expr =>
            Ok {| q_steps := q_steps q ++ [expr_step replace_etool [wl] "_expression_workflow_InitialWorkDirRequirement" SNone expr];
                  q_mod := true; q_index := q_index q; q_env := q_env q; q_genv := q_genv q; q_res := q_res q;
                  q_gres := q_gres q; q_iwd := Some (LText "$(inputs._iwdr_listing)"); q_giwd := q_giwd q;
                  q_penv := q_penv q; q_pres := q_pres q; q_piwd := true |}
        end
    | LList [] => Ok q
    | LList li =>
        do q <- wrq_entries wl inputs 0 li
                  {| q_steps := q_steps q; q_mod := q_mod q; q_index := q_index q; q_env := q_env q; q_genv := q_genv q;
                     q_res := q_res q; q_gres := q_gres q; q_iwd := Some (LList li); q_giwd := q_giwd q;
                     q_penv := q_penv q; q_pres := q_pres q; q_piwd := q_piwd q |};
        Ok {| q_steps := q_steps q; q_mod := q_mod q; q_index := q_index q; q_env := q_env q; q_genv := q_genv q;
              q_res := q_res q; q_gres := q_gres q;
              q_iwd := (match q_giwd q with [] => None | _ => q_iwd q end); q_giwd := q_giwd q;
              q_penv := q_penv q; q_pres := q_pres q;
              q_piwd := (match q_giwd q with [] => q_piwd q | _ => true end) |}
    end.

  (** lines 779-1000 *)
  Fixpoint wrq_reqs (wl : list jsreq) (inputs : json) (l : list wreq) (q : wrq) : result wrq :=
    match l with
    | [] => Ok q
    | r :: l' =>
        do q <- match r with
                | REnv defs => wrq_env wl inputs defs 0 defs q
                | RRes values => wrq_res wl inputs values attrs q
                | RIwd li => wrq_iwd wl inputs li q
                | _ => Ok q
                end;
        wrq_reqs wl inputs l' q
    end.

  (** lines 1001-1064: a requirement and inputs for every step that is not generated.  The
      [continue] for a step that has such a requirement only continues the search. *)
  Definition own_step (st : wstep) : bool := negb (startswith "_expression_" (after_hash (ws_id st))).
  Definition add_req (r : wreq) (ins : list sinput) (st : wstep) : wstep :=
    if own_step st
    then with_in (ws_in st ++ ins) (with_reqs (Some (match ws_reqs st with Some l => l | None => [] end ++ [r])) st)
    else st.

  (** lines 1066-1069 [not isinstance(x, prop_reqs)] *)
  Definition kept_req (q : wrq) (r : wreq) : bool :=
    match r with
    | REnv _ => negb (q_penv q)
    | RRes _ => negb (q_pres q)
    | RIwd _ => negb (q_piwd q)
    | _ => true
    end.

  (** lines 748-1070 process_workflow_reqs_and_hints *)
  Definition process_reqs (winputs : list winput) (wreqs : option (list wreq)) (steps : list wstep)
    : result (option (list wreq) * list wstep * bool) :=
    let reqs := match wreqs with Some l => l | None => [] end in
    do q <- wrq_reqs (jsreqs wreqs) (wf_mock winputs) reqs
              {| q_steps := steps; q_mod := false; q_index := 0; q_env := None; q_genv := []; q_res := None; q_gres := [];
                 q_iwd := None; q_giwd := []; q_penv := false; q_pres := false; q_piwd := false |};
    let steps := q_steps q in
    let steps := match q_env q with
                 | Some d => map (add_req (REnv d) (map (fun e => feed (snd e) (fst e ++ "/result")) (q_genv q))) steps
                 | None => steps
                 end in
    let steps := match q_res q with
                 | Some d => map (add_req (RRes d) (map (fun e => feed (snd e) (fst e ++ "/result")) (q_gres q))) steps
                 | None => steps
                 end in
    let steps := match q_iwd q with
                 | Some l =>
                     map (add_req (RIwd l)
                            (match q_giwd q with
                             | [] => [feed "_iwdr_listing" "_expression_workflow_InitialWorkDirRequirement/result"]
                             | g => map (fun n => feed ("_iwdr_listing_" ++ str_nat (q_index q)) (n ++ "/result")) g
                             end)) steps
                 | None => steps
                 end in
    Ok (match wreqs with Some l => Some (filter (kept_req q) l) | None => None end, steps, q_mod q).

  (** lines 2218-2227 with expression_refactor.py:496-554 load_step *)
  Definition load_step (st : wstep) : result (wstep * bool) :=
    match ws_run st with
    | RTool t => if is_etool t && replace_etool then Ok (with_run (RTool (etool_to_cltool t None)) st, true) else Ok (st, false)
    | RUri u => do r <- load_run u; Ok (with_run (RTool (fst r)) st, snd r)
    | RSub _ => Ok (st, false)
    end.

  (** lines 2210-2249 traverse_workflow.  [fuel] bounds the number of steps visited. *)
  Definition traverse_workflow (fuel : nat) (w : workflow) : result (workflow * bool) :=
    do ls <- mapM load_step (wf_steps w);
    do r <- steps_loop fuel (wf_reqs w) [] (map fst ls) (existsb snd ls);
    let '(wreqs, steps, m) := r in
    do _ <- mapM (fun p => source_line (check_input (wf_mock (wf_inputs w)) p)) (wf_inputs w);
    do p <- pick_loop wreqs [] (wf_outputs w) steps false;
    let '(outs, steps, m2) := p in
    do q <- process_reqs (wf_inputs w) wreqs steps;
    let '(wreqs, steps, m3) := q in
    Ok ({| wf_inputs := wf_inputs w; wf_outputs := outs; wf_steps := steps;
           wf_reqs := match wreqs with
                      | None => None
                      | Some [] => None
                      | Some l => Some (filter (fun r => match r with RJs _ | RStepExpr => false | _ => true end) l)
                      end |}, m || m2 || m3).
End Flow.
