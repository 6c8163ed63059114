(** * Specification for C57-C59: what each CWL version's parser accepts *)
From Verif Require Import PyBase LoaderModel VersionModel.

(** The process classes and the version text of each CWL version *)
Definition process_names (v : version) : list string :=
  match v with
  | V1_2 => ["CommandLineTool"; "ExpressionTool"; "Workflow"; "Operation"; "ProcessGenerator"]
  | _ => ["CommandLineTool"; "ExpressionTool"; "Workflow"; "ProcessGenerator"]
  end.
Definition version_text (v : version) : string := match v with V1_0 => "v1.0" | V1_1 => "v1.1" | V1_2 => "v1.2" end.
(** Its full name *)
Definition version_uri (v : version) : string := ("https://w3id.org/cwl/cwl#" ++ version_text v)%string.

(** A document without $import and $include anywhere *)
Fixpoint self_contained (j : json) : Prop :=
  match j with
  | JList l => (fix all (l : list json) : Prop := match l with [] => True | x :: l => self_contained x /\ all l end) l
  | JDict d => (fix all (d : list (string * json)) : Prop :=
      match d with [] => True | (k, x) :: d => (k <> "$import" /\ k <> "$include") /\ self_contained x /\ all d end) d
  | _ => True
  end.
(** Loaded, or refused with a validation error (or not finished yet) *)
Definition loaded_or_refused {A} (r : result A) : Prop := match r with Ok _ | Err ValidationException | Err OutOfFuel => True | _ => False end.

(** A document without the keys for packed documents, bases and namespaces *)
Definition plain_document (d : list (string * json)) : Prop :=
  forall k, In k ["$graph"; "$base"; "$namespaces"; "$schemas"] -> dget k d = None.

Section Parsing.
Variables (urljoin : string -> string -> result string) (supported_schemes : list string) (check_exists : string -> result bool)
  (fetch_text : string -> result string) (read_yaml : string -> result json) (uuid : json -> string).
(** What the parser of a version yields for a whole document, and for a part of it with a loader *)
Definition Parses (v : version) (d : json) (base : string) (o : options) (r : result lv) : Prop :=
  r <> Err OutOfFuel /\ exists fuel,
    document_load urljoin supported_schemes check_exists fetch_text read_yaml uuid (classes_of v) (proxies_of v) fuel (top_of v) d base o = r.
Definition LoadsIn (v : version) (l : loader) (d : json) (base : string) (o : options) (root : option string) (r : result lv) : Prop :=
  r <> Err OutOfFuel /\ exists fuel,
    load urljoin supported_schemes check_exists fetch_text read_yaml uuid (classes_of v) (proxies_of v) fuel l d base o root = r.
End Parsing.
