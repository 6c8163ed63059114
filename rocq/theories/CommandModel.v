(** * Model of the command of src/cwl_utils/inputs_schema_gen.py *)
From Verif Require Import PyBase UtilsModel SchemaModel RefactorModel NormalModel.

(** utils.py:450-454 is_local_uri; the scheme is compared in lower case *)
Definition is_local_uri (uri : string) : bool := is_uri uri && startswith "file:" (smap lower_char uri).

(** What [load_document_by_uri] yields for a process, as far as [cwl_to_jsonschema] looks at it: the
    record schemas of the loading index, the requirements (class, and types for a
    SchemaDefRequirement) and the inputs *)
Record process := { pr_indexed : list type_schema; pr_requirements : option (list (string * list type_schema)); pr_inputs : list input_parameter }.

(** inputs_schema_gen.py:401-411: the first SchemaDefRequirement *)
Definition first_schemadef (reqs : option (list (string * list type_schema))) : option (list type_schema) :=
  match reqs with
  | None => None
  | Some l => match find (fun r => String.eqb (fst r) "SchemaDefRequirement") l with Some r => Some (snd r) | None => None end
  end.

Section Command.
  (** the JSON template of the package *)
  Variable template : dict.
  (** [Path(p).exists()] for directories *)
  Variable directory : string -> bool.
  (** [Path(p).as_uri()] of an absolute path *)
  Variable path_uri : string -> string.
  (** [urlparse(url).path] *)
  Variable url_path : string -> string.
  (** [requests.get(url, timeout=20).status_code] *)
  Variable status : string -> result Z.
  (** [load_document_by_uri]: a process, or the list of those of a [$graph] *)
  Variable load : files -> string -> result (process + list process).
  (** [json.dumps(..., indent=2)] *)
  Variable dumps : dict -> result string.
  (** can a file of this name be opened for writing?  is the directory it is in there? *)
  Variable writable parent_is_dir : string -> bool.

  (** [Path(url).exists()]: inputs_schema_gen.py:576 and 581 *)
  Definition path_exists (fs : files) (p : string) : bool :=
    match fget p fs with Some _ => true | None => directory p end.

  (** inputs_schema_gen.py:566-591 *)
  Definition get_cwl_url (fs : files) (url : string) : result string :=
    if negb (is_uri url) then
      if negb (path_exists fs url) then Err FileNotFoundError
      else if startswith "/" url then Ok (path_uri url) else Err ValueError
    else if is_local_uri url then
      if negb (path_exists fs (url_path url)) then Err FileNotFoundError else Ok url
    else
      do code <- status url;
      if Z.eqb code 200 then Ok url else Err FileNotFoundError.

  (** inputs_schema_gen.py:339-462 on what was loaded; a list has no [loadingOptions] *)
  Definition schema_of (loaded : process + list process) : result dict :=
    match loaded with
    | inl p => cwl_to_jsonschema template (pr_indexed p) (first_schemadef (pr_requirements p)) (pr_inputs p)
    | inr _ => Err AttributeError
    end.

  (** inputs_schema_gen.py:594-619.  [output] is the file that was opened, [None] for the standard
      output; what is written to an open file gets there. *)
  Definition run (url : string) (output : option string) (w : world) : world * result Z :=
    match get_cwl_url (w_files w) url with
    | Err e => (w, Err e)
    | Ok uri =>
      if match output with Some p => negb (parent_is_dir p) | None => false end then (w, Ok 1%Z)
      else
        match load (w_files w) uri with
        | Err e => (w, Err e)
        | Ok loaded =>
          match schema_of loaded with
          | Err _ => (w, Ok 1%Z)
          | Ok schema =>
            match dumps schema with
            | Err e => (w, Err e)
            | Ok text =>
              match output with
              | Some p => (World (fset p (text ++ nl) (w_files w)) (w_stdout w), Ok 0%Z)
              | None => (World (w_files w) (w_stdout w ++ text ++ nl), Ok 0%Z)
              end
            end
          end
        end
    end.

  (** inputs_schema_gen.py:543-563: [argparse.FileType("w")] opens the output before anything else is
      done, "-" is the standard output, a file that cannot be opened ends the program with 2 *)
  Definition main (url : string) (outfile : option string) (w : world) : world * result Z :=
    match outfile with
    | None => run url None w
    | Some p =>
        if String.eqb p "-" then run url None w
        else if writable p then run url (Some p) (World (fset p "" (w_files w)) (w_stdout w))
        else (w, Ok 2%Z)
    end.
End Command.
