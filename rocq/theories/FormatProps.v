(** * Properties C11, C12: file formats *)
From Verif Require Import PyBase PyBaseProofs FormatModel FormatSpec FormatProofs.

(** ** C11 *)
Theorem C11_format_subclass_is_reachability : forall fmt cls ontology,
  exists b, formatSubclassOf fmt cls ontology = Ok b /\ (b = true <-> IsA ontology fmt cls).
Proof. intros. apply formatSubclassOf_spec. Qed.
Print Assumptions C11_format_subclass_is_reachability.

Definition demo_ontology : graph :=
  [ (Uri "bam", SubClassOf, Uri "alignment"); (Uri "alignment", SubClassOf, Uri "bam");
    (Uri "aln", EquivalentClass, Uri "alignment"); (Uri "aln", SubClassOf, Uri "data") ].
Example C11_case : formatSubclassOf "bam" "data" (Some demo_ontology) = Ok true
  /\ formatSubclassOf "data" "bam" (Some demo_ontology) = Ok false.
Proof. split; vm_compute; reflexivity. Qed.

(** ** C12 *)
(** Refuted: only the first non-empty file is looked at. *)
Theorem C12_later_files_unchecked_refuted : exists files formats ontology,
  check_format files formats ontology = Ok tt /\
  exists d, In (Some d) files /\ d <> [] /\ ~ Acceptable ontology formats d.
Proof.
  exists [Some [("format", JStr "bam")]; Some [("class", JStr "File")]], ["bam"], None.
  split; [vm_compute; reflexivity|].
  exists [("class", JStr "File")]. split; [right; left; auto|]. split; [discriminate|].
  intros (f & c & E & _). discriminate.
Qed.
Print Assumptions C12_later_files_unchecked_refuted.

(** What is guaranteed: the first non-empty file decides. *)
Theorem C12_first_file_checked_partial : forall ontology formats pre d post,
  Forall (fun f => f = None \/ f = Some []) pre -> d <> [] -> format_is_text d ->
  (Acceptable ontology formats d ->
     check_format (pre ++ Some d :: post) formats ontology = Ok tt) /\
  (~ Acceptable ontology formats d ->
     check_format (pre ++ Some d :: post) formats ontology = Err ValidationException).
Proof. exact check_format_first. Qed.
Print Assumptions C12_first_file_checked_partial.
Example C12_case :
  check_format [None; Some [("format", JStr "bam")]] ["x"; "data"] (Some demo_ontology) = Ok tt /\
  check_format [None; Some [("format", JStr "data")]] ["x"; "bam"] (Some demo_ontology)
    = Err ValidationException.
Proof. split; vm_compute; reflexivity. Qed.
