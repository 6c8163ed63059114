(** * Model of the expression refactoring tool: texts, references and the main loop

    cwl_v1_2_expression_refactor.py and expression_refactor.py; the v1.0 and v1.1
    modules have the same code for every function modelled here. *)
From Verif Require Import PyBase ExprModel EvalModel.

(** cwl_v1_2_expression_refactor.py:60-62 escape_expression_field.  [replace2]
    is [str.replace] for a search text of two different characters. *)
Definition escape_expression_field (contents : string) : string :=
  replace2 "$" "(" "$/(" (replace2 "$" "{" "$/{" contents).

(** ** Conversion of an interpolated text to a JavaScript expression *)

Section Convert.
  (** [json.dumps] of a string (expression.py:34-35 _convert_dumper) *)
  Variable dumps : json -> string.

  (** a double quote character, as in expression.py:220 *)
  Definition dq : string := String c_dq "".
  (** expression.py:220 and 269: [f'"{text}"'] *)
  Definition quoted_raw (text : string) : string := (dq ++ text ++ dq)%string.
  (** expression.py:34-35 *)
  Definition convert_dumper (s : string) : string := (dumps (JStr s) ++ " + ")%string.
  (** expression.py:238-243: [region] is [scan[w[0]:w[1]]] *)
  Definition convert_ref (region : string) : string :=
    ("function(){var item =" ++ sdrop_last 1 (sdrop 2 region)
      ++ "; if (typeof(item) === " ++ quoted_raw "string" ++ "){ return item; } "
      ++ "else { return JSON.stringify(item); }}() + ")%string.

  (** expression.py:217-272 with convert_to_expression=True *)
  Fixpoint convert_loop (fuel : nat) (escaping_behavior : nat) (scan : string) (parts : list string)
    : result string :=
    match fuel with
    | O => Err OutOfFuel
    | S fuel =>
      match scanner scan with
      | Err e => Err e
      | Ok None => Ok (sjoin "" (parts ++ [quoted_raw scan; ";}"]))
      | Ok (Some (w0, w1)) =>
        let parts := parts ++ [quoted_raw (stake w0 scan) ++ " + "]%string in
        match String.get w0 scan with
        | None => Err IndexError
        | Some c =>
          if Ascii.eqb c "$" then
            convert_loop fuel escaping_behavior (sdrop w1 scan)
              (parts ++ [convert_ref (sslice w0 w1 scan)])
          else if Ascii.eqb c c_bs then
            match escape_text escaping_behavior scan w0 w1 with
            | Err e => Err e
            | Ok (txt, w1') =>
                convert_loop fuel escaping_behavior (sdrop w1' scan) (parts ++ [convert_dumper txt])
            end
          else convert_loop fuel escaping_behavior (sdrop w1 scan) parts
        end
      end
    end.

  (** expression.py:189-272, convert_to_expression=True, strip_whitespace at its
      default (True). *)
  Definition convert (escaping_behavior : nat) (scan : string) : result string :=
    let scan := strip scan in
    convert_loop (String.length scan + 1) escaping_behavior scan ["${return "].
End Convert.

(** [len(string.split(ab)) - 1] for a separator of two different characters *)
Fixpoint count2 (a b : ascii) (s : string) : nat :=
  match s with
  | EmptyString => 0
  | String c s' =>
      match s' with
      | String d s'' =>
          if Ascii.eqb c a && Ascii.eqb d b then S (count2 a b s'') else count2 a b s'
      | EmptyString => 0
      end
  end.

Section GetExpression.
  Variable js : unit -> string -> string -> unit * result json.
  Variable dumps dumps4 : json -> string.
  Variable loads : string -> string.

  (** cwl_v1_2_expression_refactor.py:119-127: do_eval without requirements,
      resources or directories; cwlVersion and strip_whitespace at their defaults. *)
  Definition plain_eval (s : string) (inputs self : json) : result json :=
    snd (do_eval js dumps dumps4 loads tt (JStr s) inputs [] (Some "") (Some "") [] self true "").

  (** cwl_v1_2_expression_refactor.py:100-153 get_expression *)
  Definition get_expression (string_ inputs self : json) : result (option string) :=
    match string_ with
    | JStr s =>
        if startswith "${" (strip s) then Ok (Some s)
        else if contains "$(" s then
          match plain_eval s inputs self with
          | Ok _ => Ok None
          | Err WorkflowException | Err JavascriptException =>
              if negb (String.eqb (stake 2 s) "$(") || negb (endswith ")" s)
                 || (2 <? S (count2 "$" "(" s))
              then do t <- convert dumps 2 s; Ok (Some t)
              else Ok (Some ("${return " ++ sdrop_last 1 (sdrop 2 (strip s)) ++ ";}"))%string
          | Err e => Err e
          end
        else Ok None
    | _ => Ok None
    end.
End GetExpression.

(** ** The text of the generated tools *)

(** the newline character of the texts in cwl_v1_2_expression_refactor.py *)
Definition nl : string := String c_nl "".

(** cwl_v1_2_expression_refactor.py:391-402 (generate_etool_from_expr, with
    [self_name] = "self" unless no_inputs) and 1844-1853
    (generate_etool_from_expr2): the expression of the generated ExpressionTool.
    An empty self_name counts as none (line 1845). *)
Definition etool_expression (self_name : option string) (expr : string) : string :=
  ("${" ++ match self_name with
           | Some n => if String.eqb n "" then "" else nl ++ "  var self=inputs." ++ n ++ ";"
           | None => ""
           end
    ++ nl ++ "  return {" ++ quoted_raw "result" ++ ": function(){"
    ++ sdrop_last 2 (sdrop 2 expr)
    ++ "}()};" ++ nl ++ " }")%string.

(** cwl_v1_2_expression_refactor.py:197-209 (etool_to_cltool): the contents of
    expression.js. *)
Definition script (expressionLib : list string) (expression : string) : string :=
  (quoted_raw "use strict" ++ ";" ++ nl
    ++ "var inputs=$(inputs);" ++ nl ++ "var runtime=$(runtime);"
    ++ match expressionLib with [] => "" | _ => nl ++ sjoin nl expressionLib end
    ++ nl ++ "var ret = function(){"
    ++ escape_expression_field (sdrop_last 1 (sdrop 2 (strip expression)))
    ++ "}();" ++ nl ++ "process.stdout.write(JSON.stringify(ret));")%string.

(** ** The expression library *)

(** A requirement, as far as find_expressionLib looks at it: the library of an
    InlineJavascriptRequirement ([None]: the field is absent), or another class. *)
Inductive jsreq : Type :=
| InlineJS (lib : option (list string))
| OtherReq (cls : string).

(** expression_refactor.py:243-245: the loop over one process's requirements *)
Fixpoint first_js (reqs : list jsreq) : option (option (list string)) :=
  match reqs with
  | [] => None
  | InlineJS lib :: _ => Some lib
  | OtherReq _ :: r => first_js r
  end.
(** expression_refactor.py:231-246: [processes] are given by their
    requirements; the caller reverses. *)
Fixpoint find_lib_rev (processes : list (list jsreq)) : option (list string) :=
  match processes with
  | [] => None
  | reqs :: ps => match first_js reqs with Some lib => lib | None => find_lib_rev ps end
  end.
Definition find_expressionLib (processes : list (list jsreq)) : option (list string) :=
  find_lib_rev (rev processes).

(** expression_refactor.py:261-268 and 303 (generate_etool_from_expr2): the library of
    the generated ExpressionTool: the process first, then the extra processes. *)
Definition etool_lib (process : option (list jsreq)) (extra : list (list jsreq)) : option (list string) :=
  find_expressionLib (match process with Some p => [p] | None => [] end ++ extra).

(** cwl_v1_2_expression_refactor.py:1656-1690 (replace_step_clt_expr_with_etool)
    and 1702-1736: the library for an expression found in a tool, in a step of a
    workflow; with replace_etool only the workflow is searched. *)
Definition tool_expression_lib (replace_etool : bool) (tool workflow : list jsreq) : option (list string) :=
  if replace_etool then find_expressionLib [workflow] else etool_lib (Some tool) [workflow].
(** cwl_v1_2_expression_refactor.py:2073-2098 (replace_step_valueFrom_expr_with_etool)
    the library for an expression of a step *)
Definition step_expression_lib (replace_etool : bool) (process step workflow : list jsreq) : option (list string) :=
  if replace_etool then find_expressionLib [workflow; step] else etool_lib (Some process) [workflow; step].

(** ** References *)

(** A source: missing, one name, or a list of names. *)
Inductive src : Type := SNone | SOne (s : string) | SMany (l : list string).

(** What these functions look at in a workflow: the sources of the inputs of the
    steps ([None]: a step without inputs), and of the outputs. *)
Record wiring := { w_steps : list (list src); w_outputs : list src }.

(** cwl_v1_2_expression_refactor.py:465-488; [inp.source] must be true, so the
    empty text is passed over. *)
Definition replace_src (name target : string) (s : src) : src :=
  match s with
  | SNone => SNone
  | SOne x => if String.eqb x "" then SOne x else if String.eqb x name then SOne target else SOne x
  | SMany l => SMany (map (fun x => if String.eqb x name then target else x) l)
  end.
Definition replace_wf_input_ref_with_step_output (w : wiring) (name target : string) : wiring :=
  {| w_steps := map (map (replace_src name target)) (w_steps w);
     w_outputs := map (replace_src name target) (w_outputs w) |}.

(** [uri.split("#")[-1]] *)
Definition after_hash (s : string) : string := last (split_char "#" s) "".
(** [s.split("/", 1)[1]] *)
Fixpoint after_slash (s : string) : result string :=
  match s with
  | EmptyString => Err IndexError
  | String c s' => if Ascii.eqb c "/" then Ok s' else after_slash s'
  end.

(** cwl_v1_2_expression_refactor.py:1626-1653 rename_step_source.  A list is not
    a string: [uri.split] is an AttributeError on it. *)
Definition rename_output (old new : string) (s : src) : result src :=
  match s with
  | SNone => Ok SNone
  | SOne x =>
      if String.eqb x "" then Ok (SOne x)
      else do y <- after_slash (after_hash x);
           Ok (if String.eqb y old then SOne new else SOne x)
  | SMany [] => Ok (SMany [])
  | SMany l => Err AttributeError
  end.
Definition rename_input (old new : string) (s : src) : src :=
  match s with
  | SNone => SNone
  | SOne x =>
      if String.eqb x "" then SOne x
      else let source_id := if has_char "#" x then after_hash x else x in
           if String.eqb source_id old then SOne new else SOne x
  | SMany l => SMany (map (fun x => if String.eqb (after_hash x) old then new else x) l)
  end.
Definition rename_step_source (w : wiring) (old new : string) : result wiring :=
  do outs <- mapM (rename_output old new) (w_outputs w);
  Ok {| w_steps := map (map (rename_input old new)) (w_steps w); w_outputs := outs |}.

(** ** The main loop *)

Section Refactor.
  Context {P : Type}.
  (** reading YAML; load_document_by_yaml and traverse for one version; save,
      walk_tree and dump of the result *)
  Variable parse : string -> result json.
  Variable traverse : string -> json -> string -> result (P * bool).
  Variable render : P -> result string.

  (** The files: path to contents (paths are compared as texts). *)
  Definition files := list (string * string).
  Fixpoint fget (p : string) (fs : files) : option string :=
    match fs with
    | [] => None
    | (q, c) :: r => if String.eqb p q then Some c else fget p r
    end.
  (** writing a file (replacing it, or appending a new one) *)
  Fixpoint fset (p c : string) (fs : files) : files :=
    match fs with
    | [] => [(p, c)]
    | (q, d) :: r => if String.eqb p q then (q, c) :: r else (q, d) :: fset p c r
    end.

  (** expression_refactor.py:654 [Path(args.dir) / Path(document).name]; the
      directory is written without a final slash. *)
  Definition output_path (dir document : string) : string :=
    (dir ++ "/" ++ last (split_char "/" document) "")%string.

  (** expression_refactor.py:678-682 *)
  Definition header : string := ("#!/usr/bin/env cwl-runner" ++ nl)%string.

  (** How the handling of one document ends: go on (with a document skipped or
      not), return a code, or raise. *)
  Inductive doc_end : Type :=
  | Next (skipped : bool)
  | Return (code : Z)
  | Raise (e : exn).

  (** expression_refactor.py:619-685: one document.  [single]: there is only one
      input.  Copying a file onto itself is an error (shutil.SameFileError).
      Everything inside the [try] that raises a WorkflowException is skipped.
      The output file is written in one go. *)
  Definition one_document (dir : string) (single : bool) (document : string) (fs : files)
    : files * doc_end :=
    match fget document fs with
    | None => (fs, Raise FileNotFoundError)
    | Some text =>
      match parse text with
      | Err e => (fs, Raise e)
      | Ok result_ =>
        match (match result_ with
               | JDict d => match dget "cwlVersion" d with Some v => Ok v | None => Err KeyError end
               | _ => Err TypeError
               end) with
        | Err e => (fs, Raise e)
        | Ok v =>
          let supported :=
            match v with JStr s => if smem s ["v1.0"; "v1.1"; "v1.2"] then Some s else None | _ => None end in
          match supported with
          | None => (fs, Return (-1))
          | Some ver =>
            match traverse ver result_ document with
            | Err WorkflowException => (fs, Next true)
            | Err GraphTargetMissingException => (fs, Next true)
            | Err e => (fs, Raise e)
            | Ok (p, modified) =>
              let output := output_path dir document in
              if negb modified then
                if single then (fs, Return 7)
                else if String.eqb output document then (fs, Raise OSErrorE)
                     else (fset output text fs, Next false)
              else
                match render p with
                | Err WorkflowException => (fs, Next true)
                | Err GraphTargetMissingException => (fs, Next true)
                | Err e => (fs, Raise e)
                | Ok out => (fset output (header ++ out) fs, Next false)
                end
            end
          end
        end
      end
    end.

  (** expression_refactor.py:619 [for document in args.inputs] *)
  Fixpoint documents (dir : string) (single : bool) (docs : list string) (code : Z) (fs : files)
    : files * result Z :=
    match docs with
    | [] => (fs, Ok code)
    | d :: ds =>
        let (fs', e) := one_document dir single d fs in
        match e with
        | Next skipped => documents dir single ds (if skipped then 1%Z else code) fs'
        | Return c => (fs', Ok c)
        | Raise e => (fs', Err e)
        end
    end.

  (** expression_refactor.py:614-687 refactor *)
  Definition refactor (dir : string) (inputs : list string) (fs : files) : files * result Z :=
    documents dir (List.length inputs <=? 1) inputs 0 fs.
End Refactor.
