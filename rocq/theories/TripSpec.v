(** * Specification for C87: saving and loading with the functions of the package *)
From Verif Require Import PyBase ParserModel ParserSpec LoaderModel SaveModel SaveSpec ShortModel VersionModel VersionSpec TripModel.

(** The process declares the version; no version or this one *)
Definition declares (v : version) (p : lv) : Prop := exists c fs ext, p = VObj c fs ext /\ dget "cwlVersion" fs = Some (VStr (version_text v)).
Definition undeclared (p : lv) : Prop := exists c fs ext, p = VObj c fs ext /\ (dget "cwlVersion" fs = None \/ dget "cwlVersion" fs = Some VNull).
(** The process with this version, if it has a place for it *)
Definition declaring (v : version) (p : lv) : lv :=
  match p with
  | VObj c fs ext => VObj c (map (fun kv => if String.eqb (fst kv) "cwlVersion" then (fst kv, VStr (version_text v)) else kv) fs) ext
  | _ => p
  end.
(** The name a process is found by in a document saved relative to [b] *)
Definition found_as (short : string -> string -> scope -> string) (b : string) (p : lv) (name : string) : Prop :=
  exists c fs ext s, p = VObj c fs ext /\ dget "id" fs = Some (VStr s) /\ Names (short s b (true, None)) name.

Section Loading.
Variables (urljoin : string -> string -> result string) (supported_schemes : list string) (check_exists : string -> result bool)
  (fetch_text : string -> result string) (read_yaml : string -> result json) (uuid : json -> string).
(** What [cwl_utils.parser.load_document_by_yaml] yields *)
Definition LoadsAny (y : json) (uri : string) (opts : version -> options) (id : option string) (load_all : bool) (r : result (loaded lv)) : Prop :=
  r <> Err OutOfFuel /\ exists fuel, load_any urljoin supported_schemes check_exists fetch_text read_yaml uuid fuel uri opts y id load_all = r.
End Loading.
