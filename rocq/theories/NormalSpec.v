(** * Specification for C76 and C77: what the normalizer and the packer write *)
From Verif Require Import PyBase PackModel RefactorModel RefactorSpec.
From Verif Require Import NormalModel. (* for the types [flags] and [state] only *)

(** The versions that are brought to v1.2 *)
Definition older : list string := ["draft-3"; "cwl:draft-3"; "v1.0"; "v1.1"].
(** What [$graph] is in: a mapping with that key counts as packed; a list or a text that has it is
    taken for one, too *)
Inductive Graph : json -> Prop :=
| Graph_mapping d v : dget "$graph" d = Some v -> Graph (JDict d)
| Graph_list l : In (JStr "$graph") l -> Graph (JList l)
| Graph_text s : contains "$graph" s = true -> Graph (JStr s).
Definition Container (j : json) : Prop := (exists d, j = JDict d) \/ (exists l, j = JList l) \/ (exists s, j = JStr s).

Section Documents.
  Context {P U : Type}.
  Variable parse : string -> result json.
  Variable dump : json -> result string.
  Variable encode : json -> string * option exn.
  Variable upgrade : string -> dict -> U -> files -> files * result (json * U).
  Variable path_uri : string -> string.
  Variable load : json -> string -> result (P + list P).
  Variable traverse : bool -> bool -> bool -> bool -> P -> result P.
  Variable save : P -> result json.
  (** [pack text name fs names packed names']: packing a document of this text and file name, away
      from all other files, yields [packed] *)
  Variable Pack : string -> string -> files -> naming -> dict -> naming -> Prop.
  Variable writable : string -> bool.

  (** The text of the document, as a mapping with a version *)
  Definition Document (fs : files) (document : string) (d : dict) : Prop :=
    exists text, fget document fs = Some text /\ parse text = Ok (JDict d).
  (** ... brought to v1.2 *)
  Inductive Upgraded (dir : string) (d : dict) (st : @state U) : json -> @state U -> Prop :=
  | Upgraded_not : dget "cwlVersion" d = Some (JStr "v1.2") -> Upgraded dir d st (JDict d) st
  | Upgraded_to v fs j u : dget "cwlVersion" d = Some (JStr v) -> In v older ->
      upgrade dir d (s_imports st) (s_files st) = (fs, Ok (j, u)) -> Upgraded dir d st j (State fs (s_names st) u).
  (** ... and without expressions, unless they are to be kept *)
  Inductive Rewritten (o : flags) (document : string) (j : json) : json -> Prop :=
  | Rewritten_not : no_expression_refactoring o = true -> Rewritten o document j j
  | Rewritten_process p p' j' : no_expression_refactoring o = false -> load j (path_uri document) = Ok (inl p) ->
      traverse (negb (etools o)) false (skip_some1 o) (skip_some2 o) p = Ok p' -> save p' = Ok j' -> Rewritten o document j j'
  | Rewritten_list ps js : no_expression_refactoring o = false -> load j (path_uri document) = Ok (inr ps) ->
      Forall2 (fun p j => save p = Ok j) ps js -> Rewritten o document j (JList js).
  (** ... and packed *)
  Inductive Packed (name : string) (fs : files) (names : naming) (j : json) : json -> naming -> Prop :=
  | Packed_already : Graph j -> Packed name fs names j j names
  | Packed_now text d names' : Container j -> ~ Graph j -> dump j = Ok text -> Pack text name fs names d names' -> Packed name fs names j (JDict d) names'.

  (** One document: [packed] is written as JSON under the name of the document *)
  Inductive Writes (dir : string) (o : flags) (document : string) (st : @state U) (packed : json) : @state U -> Prop :=
  | Writes_intro d j st1 j' name names p text :
      Document (s_files st) document d -> Upgraded dir d st j st1 -> Rewritten o document j j' ->
      (document = name \/ exists q, document = (q ++ "/" ++ name)%string) -> has_char "/" name = false ->
      Packed name (s_files st1) (s_names st1) j' packed names ->
      p = (dir ++ "/" ++ name)%string -> writable p = true -> encode packed = (text, None) ->
      Writes dir o document st packed (State (fset p text (s_files st1)) names (s_imports st1)).
  (** All documents, in order *)
  Inductive Normalised (dir : string) (o : flags) : list string -> @state U -> @state U -> Prop :=
  | Normalised_none st : Normalised dir o [] st st
  | Normalised_one document docs st packed st1 st2 : Writes dir o document st packed st1 -> Normalised dir o docs st1 st2 ->
      Normalised dir o (document :: docs) st st2.
  (** A document of another version, or of none *)
  Definition Unsupported (fs : files) (document : string) : Prop :=
    exists d, Document fs document d /\ forall v, dget "cwlVersion" d = Some (JStr v) -> v <> "v1.2" /\ ~ In v older.
End Documents.
