(** * Specification for C79: what the schema command does *)
From Verif Require Import PyBase UtilsModel SchemaModel RefactorModel JsonSpec.
From Verif Require Import NormalModel CommandModel. (* for the types [world] and [process] only *)

(** Where the output goes: to the standard output, or to a file *)
Inductive Destination := Stdout | File_ (p : string).
Inductive Chosen : option string -> Destination -> Prop :=
| Chosen_default : Chosen None Stdout
| Chosen_dash : Chosen (Some "-") Stdout
| Chosen_file p : p <> "-" -> Chosen (Some p) (File_ p).
(** The world when the output is opened: the file is empty *)
Definition opened (d : Destination) (w : world) : world :=
  match d with Stdout => w | File_ p => World (fset p "" (w_files w)) (w_stdout w) end.
(** ... and with the text in it *)
Definition with_text (d : Destination) (text : string) (w : world) : world :=
  match d with Stdout => World (w_files w) (w_stdout w ++ text) | File_ p => World (fset p text (w_files w)) (w_stdout w) end.

(** "file:" in any case *)
Definition FileUri (s : string) : Prop :=
  exists f i l e r, s = (String f (String i (String l (String e (String ":" r)))))%string /\
    In f ["f"; "F"]%char /\ In i ["i"; "I"]%char /\ In l ["l"; "L"]%char /\ In e ["e"; "E"]%char.

Section Where.
  Variable directory : string -> bool.
  Variable path_uri url_path : string -> string.
  Variable status : string -> result Z.
  (** There is something at the path *)
  Definition There (fs : files) (p : string) : Prop := (exists t, fget p fs = Some t) \/ directory p = true.
  (** The document that is meant: an absolute path, or a URI; of something that is there *)
  Inductive Located (fs : files) : string -> string -> Prop :=
  | Located_path r : There fs (String "/" r) -> Located fs (String "/" r) (path_uri (String "/" r))
  | Located_file u : FileUri u -> There fs (url_path u) -> Located fs u u
  | Located_web u : AbsoluteUri u -> ~ FileUri u -> status u = Ok 200%Z -> Located fs u u.
  (** Nothing is there: a path, relative or absolute, or a URI; of the web, an answer other than 200 *)
  Inductive Missing (fs : files) : string -> Prop :=
  | Missing_path p : ~ AbsoluteUri p -> ~ There fs p -> Missing fs p
  | Missing_file u : FileUri u -> ~ There fs (url_path u) -> Missing fs u
  | Missing_web u code : AbsoluteUri u -> ~ FileUri u -> status u = Ok code -> code <> 200%Z -> Missing fs u.
End Where.

(** The types of the first SchemaDefRequirement *)
Inductive SchemaDefs : option (list (string * list type_schema)) -> option (list type_schema) -> Prop :=
| SchemaDefs_first l ts r : (forall x, In x l -> fst x <> "SchemaDefRequirement") -> SchemaDefs (Some (l ++ ("SchemaDefRequirement", ts) :: r)) (Some ts)
| SchemaDefs_none l : (forall x, In x l -> fst x <> "SchemaDefRequirement") -> SchemaDefs (Some l) None
| SchemaDefs_without : SchemaDefs None None.
