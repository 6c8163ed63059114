(** * Model of src/cwl_utils/pack.py, src/cwl_utils/schemadef.py and
      load_linked_file/resolved_path of src/cwl_utils/utils.py *)
From Coq Require Import DecimalString.
From Verif Require Import PyBase UtilsModel.

(** [str(n)] for n >= 0 *)
Definition str_nat (n : nat) : string := NilZero.string_of_uint (Nat.to_uint n).

(** The module-level state of schemadef.py:135-136: the counter and the set of names
    already used.  [given] is not in the program: it records, in order, the names
    lines 177-186 leave on the inlined copies. *)
Record naming := { uniq_id : nat; used_names : list string; given : list string }.
Definition naming0 : naming := {| uniq_id := 0; used_names := []; given := [] |}.

(** computations reading and writing that state *)
Definition M (A : Type) : Type := naming -> result (A * naming).
Definition ret {A} (a : A) : M A := fun s => Ok (a, s).
Definition fail {A} (e : exn) : M A := fun _ => Err e.
Definition lift {A} (r : result A) : M A := fun s => do a <- r; Ok (a, s).
Definition mbind {A B} (m : M A) (f : A -> M B) : M B := fun s => do ' (a, s) <- m s; f a s.
Notation "'let*' x := m 'in' k" := (mbind m (fun x => k)) (at level 200, x name, m at level 100, k at level 200).
Notation "'let*' ' p := m 'in' k" := (mbind m (fun x => let p := x in k)) (at level 200, p pattern, m at level 100, k at level 200).
Fixpoint mmap {A B} (f : A -> M B) (l : list A) : M (list B) :=
  match l with
  | [] => ret []
  | x :: l' => let* y := f x in let* ys := mmap f l' in ret (y :: ys)
  end.

(** types.py:20-34 *)
Definition built_in_types : list string :=
  ["null"; "boolean"; "int"; "long"; "float"; "double"; "string"; "File"; "Directory";
   "stdin"; "stdout"; "stderr"; "Any"].

(** [d[k]] *)
Definition item (k : string) (d : dict) : result json :=
  match dget k d with Some v => Ok v | None => Err KeyError end.
(** [j[k]] for a text [k] and any value *)
Definition json_item (k : string) (j : json) : result json :=
  match j with JDict d => item k d | _ => Err TypeError end.
Definition get_or (k : string) (d : dict) (v : json) : json :=
  match dget k d with Some x => x | None => v end.
Definition is_str (s : string) (j : json) : bool :=
  match j with JStr x => String.eqb x s | _ => false end.
(** [d.get(k) == s] *)
Definition get_is (k s : string) (d : dict) : bool :=
  match dget k d with Some j => is_str s j | None => false end.

(** [for x in j] *)
Definition iter (j : json) : result (list json) :=
  match j with
  | JList l => Ok l
  | JDict d => Ok (map JStr (dkeys d))
  | JStr s => Ok (map (fun c => JStr (String c "")) (list_ascii_of_string s))
  | _ => Err TypeError
  end.

(** An object used as a link must be a text (urlparse). *)
Definition as_link (j : json) : result string :=
  match j with JStr s => Ok s | _ => Err AttributeError end.

Section Files.
  (** urllib.parse on URL texts; ParseResult objects are kept as their geturl() text *)
  Variable url_scheme url_path : string -> string.
  Variable urljoin : string -> string -> string.
  (** the outside world: local files, remote documents (HTTPError appears as the
      SystemExit it is turned into), and the YAML parser (a ParserError or ScannerError
      appears as SystemExit) *)
  Variable read_text urlopen : string -> result string.
  Variable parse_yaml : string -> result json.
  (** packaging.version: InvalidVersion is a ValueError; [version_gt a b] is [a > b] *)
  Variable ver : Type.
  Variable parse_version : string -> result ver.
  Variable version_gt : ver -> ver -> bool.

  (** [base_url.scheme in ("file://", "")] (utils.py:45, 93, 193) *)
  Definition local (url : string) : bool := smem (url_scheme url) ["file://"; ""].

  (** utils.py:167-206 *)
  Definition resolved_path (base link : string) : string :=
    if String.eqb (url_scheme link) "file://" then link
    else if String.eqb (url_scheme link) "" then
      if local base then (if String.eqb link "" then base else urljoin base link)
      else urljoin base (url_path link)
    else link.

  (** utils.py:36-54 *)
  Definition is_github_symbolic_link (url contents : string) : bool :=
    negb (local url) && negb (has_char c_nl contents) && has_char "." contents.

  (** utils.py:87-125 *)
  Fixpoint load_linked_file (fuel : nat) (base link : string) (is_import : bool) : result (json * string) :=
    match fuel with
    | O => Err OutOfFuel
    | S fuel =>
        let new_url := resolved_path base link in
        do contents <- (if local new_url then read_text (url_path new_url) else urlopen new_url);
        if is_github_symbolic_link new_url contents
        then load_linked_file fuel new_url contents is_import
        else if is_import then do node <- parse_yaml contents; Ok (node, new_url)
        else Ok (JStr contents, new_url)
    end.

  (** schemadef.py:177-186: the name of an inlined copy.  Names that are not texts are
      outside the model (TypeError). *)
  Definition name_copy (d : dict) : M dict := fun s =>
    match dget "name" d with
    | Some (JStr n) =>
        if smem n (used_names s)
        then let n' := (n ++ "_" ++ str_nat (uniq_id s))%string in
             Ok (dset "name" (JStr n') d,
                 {| uniq_id := uniq_id s; used_names := used_names s; given := given s ++ [n'] |})
        else Ok (d, {| uniq_id := uniq_id s; used_names := used_names s ++ [n]; given := given s ++ [n] |})
    | Some _ => Err TypeError
    | None =>
        let n' := ("user_type_" ++ str_nat (uniq_id s))%string in
        Ok (dset "name" (JStr n') d,
            {| uniq_id := uniq_id s; used_names := used_names s; given := given s ++ [n'] |})
    end.

  (** schemadef.py:144 *)
  Definition tick : M unit := fun s =>
    Ok (tt, {| uniq_id := S (uniq_id s); used_names := used_names s; given := given s |}).

  (** schemadef.py:160-168: where a type name is looked up: (path_prefix, path) *)
  Definition type_path (base s : string) : string * string :=
    if has_char "#" s
    then let parts := split_char "#" s in
         let prefix := resolved_path base (nth 0 parts "") in
         (prefix, (prefix ++ "#" ++ nth 1 parts "")%string)
    else (base, (base ++ "#" ++ s)%string).

  (** schemadef.py:139-239.  The value is modified in place and returned; the model
      returns the modified value. *)
  Fixpoint inline_type (fuel : nat) (v : json) (base : string) (udt : list (string * json)) : M json :=
    match fuel with
    | O => fail OutOfFuel
    | S fuel =>
        let* _ := tick in
        match v with
        | JStr s =>
            if endswith "[]" s then
              let* items := inline_type fuel (JStr (sdrop_last 2 s)) base udt in
              ret (JDict [("type", JStr "array"); ("items", items)])
            else if endswith "?" s then
              let* t := inline_type fuel (JStr (sdrop_last 1 s)) base udt in
              ret (JList [JStr "null"; t])
            else if smem s built_in_types then ret v
            else
              let '(prefix, path) := type_path base s in
              match dget path udt with
              | None => fail RuntimeError
              | Some (JDict d) => let* d := name_copy d in inline_type fuel (JDict d) prefix udt
              | Some _ => fail TypeError
              end
        | JList l => let* l' := mmap (fun x => inline_type fuel x base udt) l in ret (JList l')
        | JDict d =>
            match get_or "$import" d JNull with
            | JNull =>
                match get_or "type" d JNull with
                | JNull => fail MissingTypeName
                | t =>
                    if is_str "enum" t then ret v
                    else if is_str "array" t then
                      match dget "items" d with
                      | None => fail AttributeError  (* the message calls .get on the text *)
                      | Some i => let* i' := inline_type fuel i base udt in ret (JDict (dset "items" i' d))
                      end
                    else if is_str "record" t then
                      match dget "fields" d with
                      | None => fail AttributeError  (* likewise *)
                      | Some f =>
                          let* fields := lift (normalize_to_list f "name" (Some "type")) in
                          let* fields' := mmap (fun x => inline_type fuel x base udt) fields in
                          ret (JDict (dset "fields" (JList fields') d))
                      end
                    else if match t with JStr s => smem s built_in_types | _ => false end then ret v
                    else let* t' := inline_type fuel t base udt in ret (JDict (dset "type" t' d))
                end
            | link =>
                let* link := lift (as_link link) in
                let* ' (imported, new_base) := lift (load_linked_file fuel base link true) in
                inline_type fuel imported new_base udt
            end
        | _ => fail RuntimeError
        end
    end.

  (** schemadef.py:114-132 *)
  Definition inline_types (fuel : nat) (cwl : dict) (port base : string) (udt : list (string * json)) : M dict :=
    let* ports := lift (item port cwl) in
    let* whole := lift match ports with
                       | JList [JDict p] => do id <- item "id" p; Ok (is_str "$import" id)
                       | _ => Ok false
                       end in
    let* ' (defs, base) :=
      lift (if whole : bool
            then match ports with
                 | JList [JDict p] => do t <- item "type" p; do link <- as_link t; load_linked_file fuel base link true
                 | _ => Err TypeError
                 end
            else Ok (ports, base)) in
    let* l := lift (iter defs) in
    let* l' := mmap (fun v => inline_type fuel v base udt) l in
    ret (dset port (JList l') cwl).

  (** schemadef.py:44-48 and 97-101: add the types of a file to the table *)
  Definition add_types (prefix : string) (types : json) (udt : list (string * json)) : result (list (string * json)) :=
    do l <- iter types;
    foldM (fun udt v =>
             match v with
             | JDict d =>
                 match get_or "name" d JNull with
                 | JNull => Err RuntimeError
                 | JStr k => Ok (dset (prefix ++ "#" ++ k)%string v udt)
                 | _ => Err TypeError
                 end
             | _ => Err AttributeError
             end) l udt.

  (** schemadef.py:32-48, one entry of requirements: the new entry and table *)
  Definition import_requirement (fuel : nat) (base : string) (udt : list (string * json)) (entry : json)
    : result (json * list (string * json)) :=
    match entry with
    | JDict d =>
        match dget "$import" d with
        | Some link =>
            do link <- as_link link;
            do ' (requirement, new_base) <- load_linked_file fuel base link true;
            do c <- json_item "class" requirement;
            if is_str "SchemaDefRequirement" c
            then do types <- json_item "types" requirement;
                 do udt <- add_types new_base types udt;
                 Ok (requirement, udt)
            else Ok (entry, udt)
        | None => Ok (entry, udt)
        end
    | _ => Ok (entry, udt)
    end.

  (** the first SchemaDefRequirement: schemadef.py:57-64 *)
  Fixpoint find_schemadef (l : list json) : result dict :=
    match l with
    | [] => Ok []
    | JDict d :: l' => if get_is "class" "SchemaDefRequirement" d then Ok d else find_schemadef l'
    | _ :: _ => Err AttributeError
    end.

  (** schemadef.py:74-105: one entry of its types.  A name that is neither a text nor
      None is outside the model. *)
  Definition add_schema (fuel : nat) (base : string) (udt : list (string * json)) (schema : json)
    : result (list (string * json)) :=
    match schema with
    | JDict [("$import", link)] =>
        do link <- as_link link;
        do ' (defs, url) <- load_linked_file fuel base link true;
        add_types url (match defs with JDict _ => JList [defs] | _ => defs end) udt
    | JDict d =>
        match get_or "name" d JNull with
        | JStr k => Ok (dset (base ++ "#" ++ k)%string schema udt)
        | JNull => Ok (dset (base ++ "#None")%string schema udt)
        | _ => Err TypeError
        end
    | _ => Err RuntimeError
    end.

  (** schemadef.py:26-110: the document with replaced requirements, and the table *)
  Definition build_user_defined_type_dict (fuel : nat) (cwl : dict) (base : string)
    : result (dict * list (string * json)) :=
    do reqs <- iter (get_or "requirements" cwl (JList []));
    do ' (reqs, udt) <-
      foldM (fun acc entry =>
               let '(done, udt) := acc in
               do ' (entry', udt) <- import_requirement fuel base udt entry;
               Ok (done ++ [entry'], udt)) reqs ([], []);
    let cwl := dset "requirements" (JList reqs) cwl in
    do schemadef <- find_schemadef reqs;
    match get_or "types" schemadef (JList []) with
    | JList schema_list =>
        do udt <- foldM (add_schema fuel base) schema_list udt;
        Ok (cwl, udt)
    | _ => Err RuntimeError
    end.

  (** pack.py:139-155.  No parent table is the empty one. *)
  Definition load_schemadefs (fuel : nat) (cwl : dict) (base : string) (parent : list (string * json))
    : result (dict * list (string * json)) :=
    do ' (cwl, udt) <- build_user_defined_type_dict fuel cwl base;
    let udt := dupdate udt parent in
    do reqs <- iter (get_or "requirements" cwl (JList []));
    do keep <- mapM (fun r => match r with
                              | JDict d => Ok (negb (get_is "class" "SchemaDefRequirement" d))
                              | _ => Err AttributeError
                              end) reqs;
    Ok (dset "requirements" (JList (map fst (filter snd (combine reqs keep)))) cwl, udt).

  (** pack.py:158-165 *)
  Definition resolve_schemadefs (fuel : nat) (cwl : dict) (base : string) (udt : list (string * json)) : M dict :=
    let* cwl := inline_types fuel cwl "inputs" base udt in
    inline_types fuel cwl "outputs" base udt.

  (** pack.py:72-100 *)
  Definition listify_everything (cwl : dict) : result dict :=
    do inputs <- normalize_to_list (get_or "inputs" cwl (JList [])) "id" (Some "type");
    let cwl := dset "inputs" (JList inputs) cwl in
    do outputs <- normalize_to_list (get_or "outputs" cwl (JList [])) "id" (Some "type");
    let cwl := dset "outputs" (JList outputs) cwl in
    do reqs <- normalize_to_list (get_or "requirements" cwl (JList [])) "class" None;
    let cwl := dset "requirements" (JList reqs) cwl in
    if negb (get_is "class" "Workflow" cwl) then Ok cwl
    else
      do steps <- normalize_to_list (get_or "steps" cwl (JList [])) "id" None;
      do steps <- mapM (fun v => match v with
                                 | JDict d =>
                                     do l <- normalize_to_list (get_or "in" d (JList [])) "id" (Some "source");
                                     Ok (JDict (dset "in" (JList l) d))
                                 | _ => Ok v
                                 end) steps;
      Ok (dset "steps" (JList steps) cwl).

  (** pack.py:133-136 *)
  Definition _normalize (s : string) : string := if startswith "#" s then sdrop 1 s else s.

  (** pack.py:113-119 and 122-128: one entry of a list of sinks whose sources are under [key] *)
  Definition normalize_entry (key : string) (e : json) : json :=
    match e with
    | JStr s => JStr (_normalize s)
    | JDict d => match dget key d with
                 | Some (JStr s) => JDict (dset key (JStr (_normalize s)) d)
                 | _ => e
                 end
    | _ => e
    end.

  (** pack.py:108-119: one step; [in] is a list after listify_everything *)
  Definition normalize_step (st : json) : json :=
    match st with
    | JDict d => match dget "in" d with
                 | Some (JList l) => JDict (dset "in" (JList (map (normalize_entry "source") l)) d)
                 | _ => st
                 end
    | _ => st
    end.

  (** pack.py:103-130; steps and outputs are lists after listify_everything *)
  Definition normalize_sources (cwl : dict) : dict :=
    if negb (get_is "class" "Workflow" cwl) then cwl
    else
      let cwl := match dget "steps" cwl with
                 | Some (JList l) => dset "steps" (JList (map normalize_step l)) cwl
                 | _ => cwl
                 end in
      match dget "outputs" cwl with
      | Some (JList l) => dset "outputs" (JList (map (normalize_entry "outputSource") l)) cwl
      | _ => cwl
      end.

  (** pack.py:177-183: is the value an import or include, and of what? *)
  Definition import_of (v : json) : option (json * bool) :=
    match v with
    | JDict [(k, link)] =>
        if String.eqb k "$import" then Some (link, true)
        else if String.eqb k "$include" then Some (link, false) else None
    | _ => None
    end.

  (** pack.py:168-187 *)
  Fixpoint resolve_imports (fuel : nat) (cwl : json) (base : string) : result json :=
    match fuel with
    | O => Err OutOfFuel
    | S fuel =>
        let value v :=
          do v <- match import_of v with
                  | Some (link, is_import) =>
                      do link <- as_link link;
                      do ' (v', _) <- load_linked_file fuel base link is_import; Ok v'
                  | None => Ok v
                  end;
          resolve_imports fuel v base in
        match cwl with
        | JDict d => do d' <- mapM (fun kv => do v <- value (snd kv); Ok (fst kv, v)) d; Ok (JDict d')
        | JList l => do l' <- mapM value l; Ok (JList l')
        | _ => Ok cwl
        end
    end.

  (** [s.strip("v")] *)
  Definition strip_v (s : string) : string := srev (lstrip_char "v" (srev (lstrip_char "v" s))).

  (** a value on which [.strip("v")] is called (pack.py:228-231) *)
  Definition as_text (j : json) : result string := match j with JStr s => Ok s | _ => Err AttributeError end.

  (** pack.py:227-234: the workflow after one of its steps runs [run] *)
  Definition raise_version (cwl : dict) (cwl_version : json) (run : dict) : result dict :=
    match dget "cwlVersion" run with
    | None => Ok cwl
    | Some rv =>
        do pv <- as_text (get_or "cwlVersion" cwl cwl_version);
        do parent_version <- parse_version (strip_v pv);
        do tv <- as_text rv;
        do this_version <- parse_version (strip_v tv);
        Ok (if version_gt this_version parent_version then dset "cwlVersion" rv cwl else cwl)
    end.

  Section Steps.
    (** pack_process *)
    Variable pack_process : json -> string -> json -> list (string * json) -> M dict.

    (** pack.py:206-234: one step.  [cwl] is the workflow without its changed steps. *)
    Definition resolve_step (fuel : nat) (base : string) (cwl_version : json) (parent : list (string * json))
               (cwl : dict) (v : json) : M (dict * json) :=
      match v with
      | JDict d =>
          let* _ := lift (item "id" d) in
          let* run :=
            match dget "run" d with
            | Some (JStr link) =>
                let* ' (run, new_base) := lift (load_linked_file fuel base link true) in
                pack_process run new_base (get_or "cwlVersion" cwl cwl_version) []
            | Some run => pack_process run base (get_or "cwlVersion" cwl cwl_version) parent
            | None => fail KeyError
            end in
          let* cwl := lift (raise_version cwl cwl_version run) in
          ret (cwl, JDict (dset "run" (JDict run) d))
      | _ => ret (cwl, v)
      end.

    (** pack.py:206 [for _, v in enumerate(cwl["steps"])] *)
    Fixpoint resolve_step_list (fuel : nat) (base : string) (cwl_version : json) (parent : list (string * json))
             (cwl : dict) (steps : list json) : M (dict * list json) :=
      match steps with
      | [] => ret (cwl, [])
      | v :: steps' =>
          let* ' (cwl, v') := resolve_step fuel base cwl_version parent cwl v in
          let* ' (cwl, vs) := resolve_step_list fuel base cwl_version parent cwl steps' in
          ret (cwl, v' :: vs)
      end.

    (** pack.py:190-236 (a process is a dict when this is reached) *)
    Definition resolve_steps (fuel : nat) (cwl : dict) (base : string) (cwl_version : json)
               (parent : list (string * json)) : M dict :=
      if negb (get_is "class" "Workflow" cwl) then ret cwl
      else
        let* steps := lift (item "steps" cwl) in
        let* steps := lift (iter steps) in
        let* ' (cwl, steps) := resolve_step_list fuel base cwl_version parent cwl steps in
        ret (dset "steps" (JList steps) cwl).
  End Steps.

  (** pack.py:250-254: does some step run a workflow? (stops at the first) *)
  Fixpoint runs_workflow (steps : list json) : result bool :=
    match steps with
    | [] => Ok false
    | st :: steps' =>
        do run <- json_item "run" st;
        do c <- json_item "class" run;
        if is_str "Workflow" c then Ok true else runs_workflow steps'
    end.

  (** pack.py:239-257 *)
  Definition add_missing_requirements (cwl : dict) : result dict :=
    match get_or "requirements" cwl (JList []) with
    | JList reqs =>
        do present <- mapM (json_item "class") reqs;
        if get_is "class" "Workflow" cwl
        then
          do steps <- item "steps" cwl;
          do steps <- iter steps;
          do sub_workflow <- runs_workflow steps;
          if sub_workflow && negb (existsb (is_str "SubworkflowFeatureRequirement") present)
          then Ok (dset "requirements" (JList (reqs ++ [JDict [("class", JStr "SubworkflowFeatureRequirement")]])) cwl)
          else Ok cwl
        else Ok cwl
    | _ => Err TypeError
    end.

  (** pack.py:51-69 *)
  Fixpoint pack_process (fuel : nat) (cwl : json) (base : string) (cwl_version : json)
           (parent : list (string * json)) : M dict :=
    match fuel with
    | O => fail OutOfFuel
    | S fuel =>
        match cwl with
        | JDict cwl =>
            let* cwl := lift (listify_everything cwl) in
            let cwl := normalize_sources cwl in
            let* ' (cwl, udt) := lift (load_schemadefs fuel cwl base parent) in
            let* cwl := resolve_schemadefs fuel cwl base udt in
            let* cwl := lift (resolve_imports fuel (JDict cwl) base) in
            match cwl with
            | JDict cwl =>
                let* cwl := resolve_steps (pack_process fuel) fuel cwl base (get_or "cwlVersion" cwl cwl_version) udt in
                lift (add_missing_requirements cwl)
            | _ => fail TypeError  (* never: a dict is returned for a dict *)
            end
        | _ => fail AttributeError
        end
    end.

  (** pack.py:260-274.  A top-level value that is not a dict is outside the model. *)
  Definition pack (fuel : nat) (cwl_path : string) : M dict :=
    let* ' (cwl, full_url) := lift (load_linked_file fuel cwl_path "" true) in
    match cwl with
    | JDict cwl =>
        if dmem "$graph" cwl then ret cwl
        else let* v := lift (item "cwlVersion" cwl) in pack_process fuel (JDict cwl) full_url v []
    | _ => fail TypeError
    end.
End Files.
