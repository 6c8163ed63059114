(** * Model of the static type checker: parser/utils.py, parser/cwl_v1_{0,1,2}_utils.py *)
From Verif Require Import PyBase.

(** ** Types *)

(** A port type after loading: a name (text), a union (list), an array, a record or an
    enum schema object.  Records carry their fields (None when absent); their name and
    the bindings, docs, ... of arrays and records are never looked at by the checker.
    An enum keeps its Python class and every attribute, because enum objects are only
    compared with [==], which compares class and all attributes ([rest]: label, doc,
    inputBinding). *)
Inductive ctype :=
| TName (s : string)
| TUnion (l : list ctype)
| TArray (items : ctype)
| TRecord (fields : option (list (string * ctype)))
| TEnum (cls name : string) (symbols : list string) (rest : string).

(** [t == "Any"], [t == "null"] *)
Definition is_name (n : string) (t : ctype) : bool :=
  match t with TName s => String.eqb s n | _ => false end.

(** equality of two lists of texts, such as the symbols of an enum (parser/utils.py:111) *)
Fixpoint slist_eqb (a b : list string) : bool :=
  match a, b with
  | [], [] => true
  | x :: a', y :: b' => String.eqb x y && slist_eqb a' b'
  | _, _ => false
  end.

(** [src == sink] where it is reached: not both arrays, records or lists.  Enum classes
    compare equal only to the same class (cwl_v1_2.py:3907, 5552, 9324, 11164). *)
Definition py_eq (a b : ctype) : bool :=
  match a, b with
  | TName x, TName y => String.eqb x y
  | TEnum c n s r, TEnum c' n' s' r' =>
      String.eqb c c' && String.eqb n n' && slist_eqb s s' && String.eqb r r'
  | _, _ => false
  end.

(** [s.split(c)[-1]] *)
Definition last_part (c : ascii) (s : string) : string := List.last (split_char c s) "".

(** schema_salad.runtime.shortname: last path component of the fragment, or of the
    path when there is no fragment.  (Queries and parameters of URLs are not modelled.) *)
Definition shortname (s : string) : string :=
  let fragment := match split_char "#" s with _ :: f :: fs => sjoin "#" (f :: fs) | _ => "" end in
  if String.eqb fragment "" then last_part "/" (List.hd "" (split_char "#" s))
  else last_part "/" fragment.

(** [{shortname(field.name): field.type_ for field in (fields or {})}] *)
Definition field_dict (fields : option (list (string * ctype))) : list (string * ctype) :=
  dupdate [] (map (fun f => (shortname (fst f), snd f)) (match fields with Some l => l | None => [] end)).

(** [any(p(x) for x in l)], [all(p(x) for x in l)] *)
Fixpoint existsM {A} (p : A -> result bool) (l : list A) : result bool :=
  match l with
  | [] => Ok false
  | x :: l' => do b <- p x; if b : bool then Ok true else existsM p l'
  end.
Fixpoint forallM {A} (p : A -> result bool) (l : list A) : result bool :=
  match l with
  | [] => Ok true
  | x :: l' => do b <- p x; if b : bool then forallM p l' else Ok false
  end.

(** [d.get(k, v)] (parser/utils.py:42-76) *)
Definition dget_or {V} (k : string) (d : list (string * V)) (v : V) : V :=
  match dget k d with Some x => x | None => v end.

(** parser/utils.py:79-111 and, inlined, _compare_records (42-76; a field type is never
    None, so the second half of its condition always holds).  [strict] is not passed on
    below a union. *)
Fixpoint can_assign (fuel : nat) (src sink : ctype) (strict : bool) : result bool :=
  match fuel with
  | O => Err OutOfFuel
  | S fuel =>
      if is_name "Any" src || is_name "Any" sink then Ok true
      else match src, sink with
           | TArray a, TArray b => can_assign fuel a b strict
           | TRecord fs, TRecord gs =>
               let srcfields := field_dict fs in
               let sinkfields := field_dict gs in
               forallM (fun key => can_assign fuel (dget_or key srcfields (TName "null"))
                                              (dget_or key sinkfields (TName "null")) strict)
                       (dkeys sinkfields)
           | TUnion l, _ =>
               if strict then forallM (fun t => can_assign fuel t sink false) l
               else existsM (fun t => if is_name "null" t then Ok false else can_assign fuel t sink false) l
           | _, TUnion l => existsM (fun t => can_assign fuel src t false) l
           | _, _ => Ok (py_eq src sink)
           end
  end.

(** the number of constructors of a type: bounds the recursion of parser/utils.py:79-111 *)
Fixpoint tsize (t : ctype) : nat :=
  match t with
  | TName _ | TEnum _ _ _ _ => 1
  | TArray t => S (tsize t)
  | TUnion l => S ((fix go l := match l with [] => 0 | t :: l' => tsize t + go l' end) l)
  | TRecord None => 1
  | TRecord (Some l) => S ((fix go l := match l with [] => 0 | (_, t) :: l' => tsize t + go l' end) l)
  end.

(** parser/utils.py:79-111 with enough fuel: every recursive call is on smaller types *)
Definition can_assign_src_to_sink (src sink : ctype) (strict : bool) : result bool :=
  can_assign (S (tsize src + tsize sink)) src sink strict.

(** parser/utils.py:247-253 *)
Fixpoint merge_flatten_type (src : ctype) : ctype :=
  match src with
  | TUnion l => TUnion (map merge_flatten_type l)
  | TArray _ => src
  | _ => TArray src
  end.

(** what check_types returns: "pass", "warning" or "exception" (parser/utils.py:114-144) *)
Inductive verdict := Pass | Warning | Exception_.

(** parser/utils.py:128-133: [case None] *)
Definition check_plain (srctype sinktype : ctype) : result verdict :=
  do b <- can_assign_src_to_sink srctype sinktype true;
  if b : bool then Ok Pass
  else do b <- can_assign_src_to_sink srctype sinktype false;
       if b : bool then Ok Warning else Ok Exception_.

(** parser/utils.py:114-144 *)
Definition check_types (srctype sinktype : ctype) (linkMerge valueFrom : option string) : result verdict :=
  match valueFrom with
  | Some _ => Ok Pass
  | None =>
      match linkMerge with
      | None => check_plain srctype sinktype
      | Some m =>
          if String.eqb m "merge_nested" then check_plain (TArray srctype) sinktype
          else if String.eqb m "merge_flattened" then check_plain (merge_flatten_type srctype) sinktype
          else Err ValidationException
      end
  end.

(** ** Workflows *)

(** A parameter of a process or workflow: [param.id] and [param.type_] (parser/utils.py:394-402)
    *)
Record param := { p_id : string; p_type : ctype }.

(** [source] / [outputSource]: absent, a text or a list of texts *)
Inductive sources := NoSource | OneSource (s : string) | Sources (l : list string).

(** a WorkflowStepInput, or a WorkflowOutputParameter (which has no valueFrom or default) *)
Record sink := {
  sk_id : string; sk_source : sources; sk_linkMerge : option string;
  sk_pickValue : option string; sk_valueFrom : option string; sk_default : json }.

(** A workflow step.  [run_inputs]/[run_outputs] are the ports of the process
    [load_step] returns (utils.py:232-244), after convert_stdstreams_to_files; that
    the process can be loaded is assumed.  [st_loop_all]: some requirement is a Loop with
    outputMethod "all"; [st_when]: [when] is given. *)
Record step := {
  st_id : string; st_in : list sink; st_out : list string;
  st_scatter : sources; st_scatterMethod : option string;
  st_when : bool; st_loop_all : bool;
  run_inputs : list param; run_outputs : list param }.

(** [aslist(step.scatter)] (cwl_v1_2_utils.py:384 and 406) *)
Definition scatter_list (s : sources) : list string :=
  match s with NoSource => [] | OneSource x => [x] | Sources l => l end.

(** that many ArraySchema around a type (cwl_v1_2_utils.py:406-407) *)
Fixpoint nest (n : nat) (t : ctype) : ctype :=
  match n with O => t | S n => TArray (nest n t) end.

(** cwl_v1_2_utils.py:371-387 (the same in v1.0 and v1.1) *)
Definition type_for_step_input (st : step) (i : sink) : ctype :=
  match sk_valueFrom i with
  | Some _ => TName "Any"
  | None =>
      match find (fun p => String.eqb (last_part "#" (p_id p)) (last_part "#" (sk_id i))) (run_inputs st) with
      | Some p =>
          if smem (sk_id i) (scatter_list (st_scatter st)) then TArray (p_type p) else p_type p
      | None => TName "Any"
      end
  end.

(** the last component of an identifier's fragment, [id.split("#")[-1].split("/")[-1]] *)
Definition port_name (id : string) : string := last_part "/" (last_part "#" id).

(** cwl_v1_2_utils.py:404-409, 433-438, 459-464: the nesting scatter adds *)
Definition scattered (n : nat) (method : option string) (t : ctype) : ctype :=
  match method with
  | Some m => if String.eqb m "nested_crossproduct" then nest n t else TArray t
  | None => TArray t
  end.

(** cwl_v1_2_utils.py:390-416 (the same in v1.0 and v1.1) *)
Definition type_for_step_output (st : step) (sourcename : string) : result ctype :=
  match find (fun p => String.eqb (port_name (p_id p)) (port_name sourcename)) (run_outputs st) with
  | Some p =>
      match st_scatter st with
      | NoSource => Ok (p_type p)
      | sc => Ok (scattered (List.length (scatter_list sc)) (st_scatterMethod st) (p_type p))
      end
  | None => Err ValidationException
  end.

(** SrcSink tuples *)
Record entry := { e_src : string; e_sink : string; e_linkMerge : option string; e_message : option string }.

(** the mutable state of check_all_types: type_dict, validation["warning"],
    validation["exception"] *)
Record checking := {
  ck_types : list (string * ctype); ck_warnings : list entry; ck_exceptions : list entry }.

(** [type_dict[id]] (cwl_v1_2_utils.py:133-244) *)
Definition get_type (id : string) (types : list (string * ctype)) : result ctype :=
  match dget id types with Some t => Ok t | None => Err KeyError end.

(** the final loop of check_all_types: cwl_v1_2_utils.py:233-243, cwl_v1_1_utils.py:212-220 *)
Definition check_sources (sk : sink) (sink_type : ctype) (linkMerge message : option string)
           (srcs : list string) (ck : checking) : result checking :=
  foldM (fun ck src =>
           do t <- get_type src (ck_types ck);
           do v <- check_types t sink_type linkMerge (sk_valueFrom sk);
           let e := {| e_src := src; e_sink := sk_id sk; e_linkMerge := linkMerge; e_message := message |} in
           Ok match v with
              | Pass => ck
              | Warning => {| ck_types := ck_types ck; ck_warnings := ck_warnings ck ++ [e]; ck_exceptions := ck_exceptions ck |}
              | Exception_ => {| ck_types := ck_types ck; ck_warnings := ck_warnings ck; ck_exceptions := ck_exceptions ck ++ [e] |}
              end) srcs ck.

(** [src_dict[parm_id]] for each source; [src_ids] are the keys of src_dict, whose values
    are the parameters with that id *)
Definition known_sources (src_ids srcs : list string) : result (list string) :=
  mapM (fun s => if smem s src_ids then Ok s else Err KeyError) srcs.

(** [a or b] for an optional text: the empty text counts as absent *)
Definition or_else (a : option string) (b : option string) : option string :=
  match a with Some s => if String.eqb s "" then b else a | None => b end.

(** cwl_v1_1_utils.py:179-221 = cwl_v1_0_utils.py:113-155, one sink.  [pickValue] does
    not exist in these versions. *)
Definition check_sink_v11 (src_ids : list string) (ck : checking) (sk : sink) : result checking :=
  match sk_source sk with
  | NoSource => Ok ck
  | Sources l =>
      let linkMerge := or_else (sk_linkMerge sk) (if Nat.ltb 1 (List.length l) then Some "merge_nested" else None) in
      do srcs <- known_sources src_ids l;
      foldM (fun ck src => do sink_type <- get_type (sk_id sk) (ck_types ck);
                           check_sources sk sink_type linkMerge None [src] ck) srcs ck
  | OneSource s =>
      if smem s src_ids
      then do sink_type <- get_type (sk_id sk) (ck_types ck); check_sources sk sink_type None None [s] ck
      else Err ValidationException
  end.

(** [param_to_step.get(id)] together with the property looked for
    (cwl_v1_2_utils.py:54-70) *)
Definition from_step (param_to_step : list (string * step)) (p : step -> bool) (id : string) : bool :=
  match dget id param_to_step with Some st => p st | None => false end.

(** [aslist(t)] *)
Definition aslist (t : ctype) : list ctype := match t with TUnion l => l | _ => [t] end.
Definition with_null (t : ctype) : ctype :=
  if existsb (is_name "null") (aslist t) then TUnion (aslist t) else TUnion (TName "null" :: aslist t).
(** [not isinstance(t, MutableSequence) or "null" not in t] *)
Definition lacks_null (t : ctype) : bool :=
  match t with TUnion l => negb (existsb (is_name "null") l) | _ => true end.

(** [validation["warning"].append(...)] (cwl_v1_2_utils.py:176-183, 202-209, 219-226) *)
Definition add_warning (ck : checking) (e : entry) : checking :=
  {| ck_types := ck_types ck; ck_warnings := ck_warnings ck ++ [e]; ck_exceptions := ck_exceptions ck |}.
(** [type_dict[id] = ...] (cwl_v1_2_utils.py:184, 187, 227, 230) *)
Definition set_type (ck : checking) (id : string) (t : ctype) : checking :=
  {| ck_types := dset id t (ck_types ck); ck_warnings := ck_warnings ck; ck_exceptions := ck_exceptions ck |}.

(** cwl_v1_2_utils.py:165-189 and 210-232: what a source's step changes before the
    types are compared.  [conditional] is the condition of the first part. *)
Definition adjust_source (param_to_step : list (string * step)) (sk : sink) (sink_type : ctype)
           (linkMerge : option string) (conditional : bool) (message : string)
           (ck : checking) (parm_id : string) : result checking :=
  do ck <- (if conditional
            then do t <- get_type parm_id (ck_types ck);
                 let ck := if lacks_null sink_type
                           then add_warning ck {| e_src := parm_id; e_sink := sk_id sk; e_linkMerge := linkMerge;
                                                  e_message := Some message |}
                           else ck in
                 Ok (set_type ck parm_id (with_null t))
            else Ok ck);
  if from_step param_to_step st_loop_all parm_id
  then do t <- get_type parm_id (ck_types ck); Ok (set_type ck parm_id (TArray t))
  else Ok ck.

(** [sink.pickValue in ("first_non_null", "the_only_non_null")] (cwl_v1_2_utils.py:160) *)
Definition non_null_pick (pv : option string) : bool :=
  match pv with
  | Some p => String.eqb p "first_non_null" || String.eqb p "the_only_non_null"
  | None => false
  end.

(** cwl_v1_2_utils.py:141-243, one sink.  (In the single-source branch the sink's type is
    read again after the source's type may have changed; source and sink ids differ.) *)
Definition check_sink_v12 (src_ids : list string) (param_to_step : list (string * step))
           (ck : checking) (sk : sink) : result checking :=
  let extra_message := option_map (fun p => ("pickValue is " ++ p)%string) (sk_pickValue sk) in
  do sink_type <- get_type (sk_id sk) (ck_types ck);
  let single (parm_id : string) :=
    if smem parm_id src_ids
    then
      let ck := match sk_pickValue sk with
                | Some _ => add_warning ck {| e_src := parm_id; e_sink := sk_id sk; e_linkMerge := None;
                    e_message := Some "pickValue is used but only a single input source is declared" |}
                | None => ck
                end in
      do ck <- adjust_source param_to_step sk sink_type None
                 (from_step param_to_step st_when parm_id)
                 "Source is from conditional step and may produce `null`" ck parm_id;
      check_sources sk sink_type None extra_message [parm_id] ck
    else Err ValidationException in
  match sk_source sk with
  | NoSource => Ok ck
  | OneSource s => single s
  | Sources [] => Err IndexError
  | Sources [s] => single s
  | Sources l =>
      let linkMerge := if non_null_pick (sk_pickValue sk) then None
                       else or_else (sk_linkMerge sk) (Some "merge_nested") in
      do ck <- foldM (fun ck parm_id =>
                        if smem parm_id src_ids
                        then adjust_source param_to_step sk sink_type linkMerge
                               (from_step param_to_step st_when parm_id
                                && match sk_pickValue sk with None => true | Some _ => false end)
                               "Source is from conditional step, but pickValue is not used" ck parm_id
                        else Err KeyError) l ck;
      check_sources sk sink_type linkMerge extra_message l ck
  end.

(** the three check_all_types; [None] is any other version *)
Inductive version := V10 | V11 | V12.
Definition check_all_types (v : version) (src_ids : list string) (param_to_step : list (string * step))
           (types : list (string * ctype)) (sinks : list sink) : result checking :=
  foldM (match v with
         | V12 => check_sink_v12 src_ids param_to_step
         | _ => check_sink_v11 src_ids
         end) sinks {| ck_types := types; ck_warnings := []; ck_exceptions := [] |}.

(** What static_checker reads of a workflow (parser/utils.py:348-520) *)
Record workflow := {
  wf_version : string; wf_inputs : list param; wf_outputs : list (sink * ctype); wf_steps : list step }.

(** [match workflow.cwlVersion] (parser/utils.py:368-385, 406-429) *)
Definition known_version (s : string) : option version :=
  if String.eqb s "v1.0" then Some V10 else if String.eqb s "v1.1" then Some V11
  else if String.eqb s "v1.2" then Some V12 else None.

(** parser/utils.py:354-402: type_dict and param_to_step *)
Definition step_types (st : step) : result (list (string * ctype)) :=
  do outs <- mapM (fun o => do t <- type_for_step_output st o; Ok (o, t)) (st_out st);
  Ok (dupdate (dupdate [] (map (fun s => (sk_id s, type_for_step_input st s)) (st_in st))) outs).

(** parser/utils.py:354-402: the whole of type_dict *)
Definition all_types (wf : workflow) : result (list (string * ctype)) :=
  do ts <- mapM step_types (wf_steps wf);
  Ok (dupdate (dupdate (fold_left dupdate ts [])
                       (map (fun p => (p_id p, p_type p)) (wf_inputs wf)))
              (map (fun o => (sk_id (fst o), snd o)) (wf_outputs wf))).

(** parser/utils.py:357 and 387: param_to_step *)
Definition step_of_params (wf : workflow) : list (string * step) :=
  fold_left (fun d st => dupdate (dupdate d (map (fun s => (sk_id s, st)) (st_in st)))
                                 (map (fun o => (o, st)) (st_out st))) (wf_steps wf) [].

(** parser/utils.py:394-397: the keys of src_dict *)
Definition source_ids (wf : workflow) : list string :=
  map p_id (wf_inputs wf) ++ flat_map st_out (wf_steps wf).

(** parser/utils.py:356: step_inputs *)
Definition step_inputs (wf : workflow) : list sink := flat_map st_in (wf_steps wf).

(** parser/utils.py:497-507: a required step input that gets no value *)
Definition unfed (types : list (string * ctype)) (s : sink) : bool :=
  match dget (sk_id s) types with
  | Some t => negb (is_name "null" t) && lacks_null t
  | None => false
  end
  && match sk_source s with NoSource => true | _ => false end
  && match sk_default s with JNull => true | _ => false end
  && match sk_valueFrom s with None => true | Some _ => false end.

(** What the messages of static_checker are made of (parser/utils.py:431-520) *)
Record report := { r_warnings : list entry; r_exceptions : list entry; r_unfed : list string }.

(** parser/utils.py:348-520.  The report is what the messages are made of: warnings are
    logged; [raise ValidationException] happens [if exceptions]. *)
Definition static_checker_report (wf : workflow) : result report :=
  match known_version (wf_version wf) with
  | None => Err GenericException
  | Some v =>
      do types <- all_types wf;
      let srcs := source_ids wf in
      do c1 <- check_all_types v srcs (step_of_params wf) types (step_inputs wf);
      do c2 <- check_all_types v srcs (step_of_params wf) (ck_types c1) (map fst (wf_outputs wf));
      Ok {| r_warnings := ck_warnings c1 ++ ck_warnings c2;
            r_exceptions := ck_exceptions c1 ++ ck_exceptions c2;
            r_unfed := map sk_id (filter (unfed (ck_types c2)) (step_inputs wf)) |}
  end.

(** parser/utils.py:348-520: raises if there are exceptions *)
Definition static_checker (wf : workflow) : result unit :=
  do r <- static_checker_report wf;
  match r_exceptions r with [] => Ok tt | _ => Err ValidationException end.

(** ** sources by name *)

(** A process as param_for_source_id sees it (parser/utils.py:256-345): a workflow, or a process
    with inputs only *)
Inductive proc :=
| Tool (inputs : list param)
| Wf (inputs : list param) (steps : list step).

(** a found parameter with its scatter context *)
Definition found := (param * option (nat * string))%type.

(** [a.split("#")[-1] == b.split("#")[-1]] (parser/utils.py:278 and 288) *)
Definition same_fragment (a b : string) : bool := String.eqb (last_part "#" a) (last_part "#" b).

(** parser/utils.py:313-334: what is appended to scatter_context *)
Definition step_scatter_context (st : step) : option (nat * string) :=
  match st_scatter st with
  | NoSource => None
  | OneSource _ => Some (1, match or_else (st_scatterMethod st) (Some "dotproduct") with Some m => m | None => "" end)
  | Sources l => Some (List.length l, match or_else (st_scatterMethod st) (Some "dotproduct") with Some m => m | None => "" end)
  end.

(** parser/utils.py:292-334 *)
Definition step_matches (sourcename : string) (st : step) : list found :=
  let frag := split_char "/" (last_part "#" sourcename) in
  if String.eqb (sjoin "/" (removelast frag)) (last_part "#" (st_id st))
  then flat_map (fun outp =>
         if String.eqb (port_name outp) (port_name sourcename)
         then map (fun p => (p, step_scatter_context st))
                  (filter (fun p => String.eqb (port_name (p_id p)) (port_name sourcename)) (run_outputs st))
         else []) (st_out st)
  else [].

(** parser/utils.py:277-281 and 287-291 *)
Definition input_matches (sourcename : string) (inputs : list param) : list found :=
  map (fun p => (p, None)) (filter (fun p => same_fragment (p_id p) sourcename) inputs).

(** parser/utils.py:286-334: one of the targets *)
Definition target_matches (sourcename : string) (target : proc) : list found :=
  match target with
  | Tool _ => []
  | Wf inputs steps => input_matches sourcename inputs ++ flat_map (step_matches sourcename) steps
  end.

(** parser/utils.py:275-334: one source name *)
Definition source_matches (process : proc) (parent : option proc) (sourcename : string) : list found :=
  match process with Tool inputs => input_matches sourcename inputs | Wf _ _ => [] end
  ++ target_matches sourcename process
  ++ match parent with Some p => target_matches sourcename p | None => [] end.

(** What param_for_source_id returns: one parameter or several (parser/utils.py:335-338) *)
Inductive params := OneParam (p : found) | Params (l : list found).

(** parser/utils.py:256-345.  With no source names at all the error message mentions an
    unbound variable (UnboundLocalError). *)
Definition param_for_source_id (process : proc) (sourcenames : list string) (parent : option proc) : result params :=
  match flat_map (source_matches process parent) sourcenames with
  | [x] => Ok (OneParam x)
  | x :: y :: l => Ok (Params (x :: y :: l))
  | [] => match sourcenames with [] => Err RuntimeError | _ => Err WorkflowException end
  end.

(** cwl_v1_2_utils.py:30-51 (the same in v1.0 and v1.1).  The match is on
    [(type1, type1)]: an array is compared with itself; a record or list is compared with
    whatever [type2] is.  [None] fields count as no fields. *)
Fixpoint compare_type (fuel : nat) (type1 type2 : ctype) : result bool :=
  match fuel with
  | O => Err OutOfFuel
  | S fuel =>
      match type1 with
      | TArray t => compare_type fuel t t
      | TRecord fs =>
          match type2 with
          | TRecord gs =>
              let f1 := field_dict fs in
              let f2 := field_dict gs in
              if forallb (fun k => dmem k f2) (dkeys f1) && forallb (fun k => dmem k f1) (dkeys f2)
              then forallM (fun k => compare_type fuel (dget_or k f1 (TName "null")) (dget_or k f2 (TName "null"))) (dkeys f1)
              else Ok false
          | _ => Err AttributeError
          end
      | TUnion l =>
          match type2 with
          | TUnion l2 =>
              if Nat.eqb (List.length l) (List.length l2)
              then forallM (fun t3 => existsM (fun t2 => compare_type fuel t3 t2) l2) l
              else Ok false
          | TName s =>
              if Nat.eqb (List.length l) (String.length s)
              then forallM (fun t3 => existsM (fun c => compare_type fuel t3 (TName (String c ""))) (list_ascii_of_string s)) l
              else Ok false
          | _ => Err TypeError
          end
      | _ => Ok (py_eq type1 type2)
      end
  end.

(** cwl_v1_2_utils.py:30-51 with enough fuel: every recursive call is on smaller types *)
Definition _compare_type (type1 type2 : ctype) : result bool :=
  compare_type (S (tsize type1 + tsize type2)) type1 type2.

(** [for p, sc in zip(params, scatter_context)]: cwl_v1_2_utils.py:448-465 *)
Definition add_source_type (new_type : list ctype) (x : found) : result (list ctype) :=
  let (p, sc) := x in
  do seen <- existsM (fun t => _compare_type t (p_type p)) new_type;
  if seen : bool then Ok new_type
  else Ok (new_type ++ [match sc with
                        | Some (n, m) => scattered n (Some m) (p_type p)
                        | None => p_type p
                        end]).

(** [isinstance(t, ArraySchema)] (cwl_v1_2_utils.py:419-483) *)
Definition is_array (t : ctype) : bool := match t with TArray _ => true | _ => false end.

(** linkMerge applied to a type: cwl_v1_2_utils.py:439-442, 468-473; [many] is the
    third branch of the latter *)
Definition merged (linkMerge : option string) (many : bool) (t : ctype) : ctype :=
  match linkMerge with
  | Some m => if String.eqb m "merge_nested" then TArray t
              else if String.eqb m "merge_flattened" then merge_flatten_type t
              else if many then TArray t else t
  | None => if many then TArray t else t
  end.

(** cwl_v1_2_utils.py:443-446, 474-477 *)
Definition picked (pickValue : option string) (t : ctype) : ctype :=
  match t with
  | TArray items => if non_null_pick pickValue then items else t
  | _ => t
  end.

(** cwl_v1_2_utils.py:419-478; v1.0 and v1.1 are the same without pickValue.
    [sourcenames]: a text or a list. *)
Definition type_for_source (process : proc) (sourcenames : sources) (parent : option proc)
           (linkMerge pickValue : option string) : result ctype :=
  do ps <- param_for_source_id process (scatter_list sourcenames) parent;
  match ps with
  | OneParam (p, sc) =>
      let new_type := match sc with
                      | Some (n, m) => scattered n (Some m) (p_type p)
                      | None => p_type p
                      end in
      Ok (picked pickValue (merged linkMerge false new_type))
  | Params l =>
      do new_type <- foldM add_source_type l [];
      let new_type := match new_type with [t] => t | _ => TUnion new_type end in
      let many := match sourcenames with Sources s => Nat.ltb 1 (List.length s) | _ => false end in
      Ok (picked pickValue (merged linkMerge many new_type))
  end.
