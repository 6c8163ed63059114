(** * Model of [load_document_by_yaml] of src/cwl_utils/parser/__init__.py with the three generated
      parsers in it *)
From Verif Require Import PyBase ParserModel LoaderModel VersionModel InputModel.

(** lines 409-410: objects have all their attributes *)
Definition has_version (o : lv) : bool := match o with VObj _ fs _ => dmem "cwlVersion" fs | _ => false end.
Definition set_version (t : string) (o : lv) : lv := match o with VObj c fs ext => VObj c (dset "cwlVersion" (VStr t) fs) ext | _ => o end.

Section Trip.
(** As for the loaders *)
Variables (urljoin : string -> string -> result string) (supported_schemes : list string) (check_exists : string -> result bool)
  (fetch_text : string -> result string) (read_yaml : string -> result json) (uuid : json -> string).
(** cwl_v1_0.py, cwl_v1_1.py and cwl_v1_2.py [load_document_by_yaml], cwl_v1_2.py lines 29066-29086.
    [opts] is what the parser of each version makes of the loading options that were given; for
    None this is [options_of]. *)
Definition parse_version (fuel : nat) (uri : string) (opts : version -> options) (t : string) (y : json) : result (loaded lv) :=
  match version_named t with
  | Some v =>
      do r <- document_load urljoin supported_schemes check_exists fetch_text read_yaml uuid (classes_of v) (proxies_of v) fuel (top_of v) y uri (opts v);
      Ok (match r with VSeq l => Many l | _ => One r end)
  | None => Err ValidationException
  end.
(** parser/__init__.py lines 380-413 *)
Definition load_any (fuel : nat) (uri : string) (opts : version -> options) (y : json) (id : option string) (load_all : bool) : result (loaded lv) :=
  load_document_by_yaml lv (parse_version fuel uri opts) has_version set_version y id load_all.
End Trip.
