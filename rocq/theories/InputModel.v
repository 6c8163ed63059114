(** * Model of loading input files: [_inputfile_load] and [load_inputfile_by_yaml] of
      src/cwl_utils/parser/cwl_v1_0_utils.py, cwl_v1_1_utils.py and cwl_v1_2_utils.py, which have the
      same code, and [load_inputfile], [load_inputfile_by_uri], [load_inputfile_by_string] and
      [load_inputfile_by_yaml] of src/cwl_utils/parser/utils.py, called without loading options *)
From Verif Require Import PyBase ParserModel LoaderModel VersionModel.
From Verif Require CwlTablesV1_0 CwlTablesV1_1 CwlTablesV1_2.

(** [CWLInputFileLoader]: cwl_v1_0.py line 22442, cwl_v1_1.py lines 24517-24519, cwl_v1_2.py lines 27633-27635 *)
Definition input_loader (v : version) : loader :=
  match v with
  | V1_0 => CwlTablesV1_0.map_of_union_of_None_type_or_CWLObjectTypeLoader
  | V1_1 => CwlTablesV1_1.map_of_union_of_None_type_or_array_of_ProcessRequirement_or_CWLObjectTypeLoader
  | V1_2 => CwlTablesV1_2.map_of_union_of_None_type_or_array_of_ProcessRequirement_or_CWLObjectTypeLoader
  end.
(** The cases of [match version], utils.py lines 217-229 *)
Definition version_named (s : string) : option version :=
  if String.eqb s "v1.0" then Some V1_0 else if String.eqb s "v1.1" then Some V1_1 else if String.eqb s "v1.2" then Some V1_2 else None.

Section Inputs.
(** As for the loaders *)
Variables (urljoin : string -> string -> result string) (supported_schemes : list string) (check_exists : string -> result bool)
  (fetch_text : string -> result string) (read_yaml : string -> result json) (uuid : json -> string).
(** [Path(p).resolve().as_uri()] *)
Variable path_uri : string -> string.
Definition load_with (v : version) (fuel : nat) : loading :=
  load urljoin supported_schemes check_exists fetch_text read_yaml uuid (classes_of v) (proxies_of v) fuel.

(** cwl_v1_2_utils.py lines 73-131.  The table [loadingOptions.idx] has, after the inner call, the
    address of the file that was read if that is a mapping or a list, and nothing else that this
    call asks for: the address with its fragment, or that of a file which only names another one,
    is a KeyError.  [urldefrag] is modelled by cutting at the "#". *)
Fixpoint inputfile_load (fuel : nat) (v : version) (doc : json) (base : string) (o : options) : result lv :=
  match fuel with
  | O => Err OutOfFuel
  | S fuel =>
      match doc with
      | JStr s =>
          do url <- urljoin base s;
          let doc_url := before "#" url in
          do text <- fetch_text doc_url;
          do result <- read_yaml text;
          do r <- inputfile_load fuel v result doc_url (with_fileuri doc_url o);
          match result with
          | JStr _ => Err KeyError
          | _ => if has_char "#" url then Err KeyError else Ok r
          end
      | JDict _ => load_with v fuel (input_loader v) doc base o (Some base)
      | JList _ => load_with v fuel (input_loader v) doc base o None
      | _ => Err ValidationException
      end
  end.

(** utils.py lines 210-229, cwl_v1_2_utils.py lines 352-369; [None] is the version [None] *)
Definition load_inputfile_by_yaml (fuel : nat) (version : option string) (yaml : json) (uri : string) : result lv :=
  match version with
  | None => Err ValidationException
  | Some s =>
      match version_named s with
      | Some v => inputfile_load fuel v yaml uri (options_of v uri false)
      | None => Err ValidationException
      end
  end.
(** utils.py lines 199-207 *)
Definition load_inputfile_by_string (fuel : nat) (version : option string) (text uri : string) : result lv :=
  do yaml <- read_yaml text; load_inputfile_by_yaml fuel version yaml uri.
(** utils.py lines 185-196; [cwd] is [file_uri(str(Path.cwd()))] *)
Definition load_inputfile (fuel : nat) (version : option string) (doc : json) (base : option string) (cwd : string) : result lv :=
  let base := match base with Some b => b | None => (cwd ++ "/")%string end in
  match doc with
  | JStr text => load_inputfile_by_string fuel version text base
  | _ => load_inputfile_by_yaml fuel version doc base
  end.
(** utils.py lines 158-182, with a text for the path *)
Definition load_inputfile_by_uri (fuel : nat) (version : option string) (path : string) : result lv :=
  let u := urlparse path in
  let real_path := if String.eqb (u_scheme u) "" || String.eqb (u_scheme u) "file" then path_uri (unquote_plus (u_path u)) else path in
  match version with
  | None => Err ValidationException
  | Some _ => do doc <- fetch_text real_path; load_inputfile_by_string fuel version doc real_path
  end.
End Inputs.
