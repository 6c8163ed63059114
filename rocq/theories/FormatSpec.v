(** * Specification for file formats: links of an ontology and reachability *)
From Verif Require Import PyBase FormatModel.

(** [b] is a direct parent or an equivalent class of [a]. *)
Inductive Link (g : graph) (a b : string) : Prop :=
| L_sub o : In (Uri a, SubClassOf, o) g -> term_text o = b -> Link g a b
| L_eq o : In (Uri a, EquivalentClass, o) g -> term_text o = b -> Link g a b
| L_eq_sym s : In (s, EquivalentClass, Uri a) g -> term_text s = b -> Link g a b.

(** [b] is [a] or can be reached from [a] through links. *)
Inductive Reach (g : graph) : string -> string -> Prop :=
| R_refl a : Reach g a a
| R_step a b c : Link g a b -> Reach g b c -> Reach g a c.

(** without an ontology only equality counts *)
Definition IsA (ontology : option graph) (fmt cls : string) : Prop :=
  match ontology with Some g => Reach g fmt cls | None => fmt = cls end.

(** the file's format is equal to or a subclass of an accepted format *)
Definition Acceptable (ontology : option graph) (formats : list string) (d : dict) : Prop :=
  exists f c, dget "format" d = Some (JStr f) /\ In c formats /\ IsA ontology f c.

(** formats, where present, are strings *)
Definition format_is_text (d : dict) : Prop :=
  forall v, dget "format" d = Some v -> exists f, v = JStr f.
