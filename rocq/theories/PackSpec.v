(** * Specification of packing and of type inlining *)
From Verif Require Import PyBase PackModel.

(** ** documents *)
(** [x] occurs somewhere inside [j] *)
Inductive Inside : json -> json -> Prop :=
| In_list x l : In x l -> Inside x (JList l)
| In_dict k x d : In (k, x) d -> Inside x (JDict d)
| In_deeper x y z : Inside x y -> Inside y z -> Inside x z.

Definition IsImport (j : json) : Prop :=
  exists k link, j = JDict [(k, link)] /\ (k = "$import" \/ k = "$include").
Definition NoImports (j : json) : Prop := forall x, Inside x j -> ~ IsImport x.

(** every "class" entry in [j] is a text *)
Definition TextClass (j : json) : Prop :=
  forall d v, j = JDict d -> dget "class" d = Some v -> exists s, v = JStr s.
Definition TextClasses (j : json) : Prop := TextClass j /\ forall x, Inside x j -> TextClass x.

(** mappings have distinct keys, everywhere *)
Definition Keyed (j : json) : Prop :=
  forall d, (j = JDict d \/ Inside (JDict d) j) -> NoDup (dkeys d).

Definition IsWorkflow (d : dict) : Prop := dget "class" d = Some (JStr "Workflow").
Definition list_section (k : string) (d : dict) : Prop := exists l, dget k d = Some (JList l).
Definition requires (d : dict) (r : json) : Prop := exists l, dget "requirements" d = Some (JList l) /\ In r l.
Definition step_of (d st : dict) : Prop := exists l, dget "steps" d = Some (JList l) /\ In (JDict st) l.
Definition runs (st run : dict) : Prop := dget "run" st = Some (JDict run).

(** sections are lists, steps carry their process, schema definitions are gone *)
Inductive SelfContained : dict -> Prop :=
| SC d :
    list_section "inputs" d -> list_section "outputs" d -> list_section "requirements" d ->
    (forall r, requires d (JDict r) -> dget "class" r <> Some (JStr "SchemaDefRequirement")) ->
    (IsWorkflow d -> list_section "steps" d) ->
    (IsWorkflow d -> forall st, step_of d st -> list_section "in" st /\
       exists run, runs st run /\ SelfContained run) ->
    SelfContained d.

(** [p] is [d] or a process run by a step of [d], at any depth *)
Inductive Nested : dict -> dict -> Prop :=
| N_self d : Nested d d
| N_step d st run p : IsWorkflow d -> step_of d st -> runs st run -> Nested p run -> Nested p d.
Definition runs_a_workflow (d : dict) : Prop :=
  exists st run, step_of d st /\ runs st run /\ IsWorkflow run.

(** ** sources *)
Definition OneHash (s s' : string) : Prop :=
  s = String "#" s' \/ (s' = s /\ forall r, s <> String "#" r).
Inductive EntryNormal (key : string) : json -> json -> Prop :=
| EN_text s s' : OneHash s s' -> EntryNormal key (JStr s) (JStr s')
| EN_entry d d' s s' : dget key d = Some (JStr s) -> OneHash s s' ->
    dkeys d' = dkeys d -> dget key d' = Some (JStr s') ->
    (forall k, k <> key -> dget k d' = dget k d) -> EntryNormal key (JDict d) (JDict d')
| EN_same j : (forall s, j <> JStr s) -> (forall d s, j = JDict d -> dget key d <> Some (JStr s)) ->
    EntryNormal key j j.
Inductive StepNormal : json -> json -> Prop :=
| StN_step d d' l l' : dget "in" d = Some (JList l) -> Forall2 (EntryNormal "source") l l' ->
    dkeys d' = dkeys d -> dget "in" d' = Some (JList l') ->
    (forall k, k <> "in" -> dget k d' = dget k d) -> StepNormal (JDict d) (JDict d')
| StN_same j : (forall d l, j = JDict d -> dget "in" d <> Some (JList l)) -> StepNormal j j.

(** the source references a workflow carries *)
Definition EntryRef (key : string) (e : json) (s : string) : Prop :=
  e = JStr s \/ exists d, e = JDict d /\ dget key d = Some (JStr s).
Definition SourceRef (d : dict) (s : string) : Prop :=
  (exists st l e, step_of d st /\ dget "in" st = Some (JList l) /\ In e l /\ EntryRef "source" e s) \/
  (exists l e, dget "outputs" d = Some (JList l) /\ In e l /\ EntryRef "outputSource" e s).
Definition DoubleHash (s : string) : Prop := exists r, s = ("##" ++ r)%string.

(** ** imports, each resolved against the file it stands in *)
Section Expand.
  (** the contents of the file a link leads to from a base, and where that file is *)
  Variable linked : string -> string -> json -> string -> Prop.
  Variable linked_text : string -> string -> string -> Prop.
  Inductive Expands : string -> json -> json -> Prop :=
  | Ex_atom base j : match j with JList _ | JDict _ => False | _ => True end -> Expands base j j
  | Ex_list base l l' : Forall2 (ExpandsValue base) l l' -> Expands base (JList l) (JList l')
  | Ex_dict base d d' : Forall2 (fun kv kv' => fst kv' = fst kv /\ ExpandsValue base (snd kv) (snd kv')) d d' ->
      Expands base (JDict d) (JDict d')
  with ExpandsValue : string -> json -> json -> Prop :=
  | Ev_import base link v url v' : linked base link v url -> Expands url v v' ->
      ExpandsValue base (JDict [("$import", JStr link)]) v'
  | Ev_include base link t : linked_text base link t -> ExpandsValue base (JDict [("$include", JStr link)]) (JStr t)
  | Ev_plain base v v' : ~ IsImport v -> Expands base v v' -> ExpandsValue base v v'.
End Expand.

(** ** inlined types *)
Inductive Inlined : json -> Prop :=
| I_name s : In s built_in_types -> Inlined (JStr s)
| I_union l : Forall Inlined l -> Inlined (JList l)
| I_enum d : dget "type" d = Some (JStr "enum") -> Inlined (JDict d)
| I_array d i : dget "type" d = Some (JStr "array") -> dget "items" d = Some i -> Inlined i -> Inlined (JDict d)
| I_record d l : dget "type" d = Some (JStr "record") -> dget "fields" d = Some (JList l) ->
    Forall Inlined l -> Inlined (JDict d)
| I_port d t : dget "type" d = Some t -> Inlined t -> Inlined (JDict d).

(** ** versions *)
Section Versions.
  Variable ver : Type.
  Variable version_gt : ver -> ver -> bool.
  (** newer-than is the strict part of a total preorder *)
  Definition ordered : Prop :=
    (forall a b, version_gt a b = true -> version_gt b a = false) /\
    (forall a b c, version_gt a c = true -> version_gt a b = true \/ version_gt b c = true).
End Versions.

(** the process declares (in cwlVersion, a leading or trailing "v" aside) version [v] *)
Definition declares {ver} (parse_version : string -> result ver) (d : dict) (v : ver) : Prop :=
  exists s, dget "cwlVersion" d = Some (JStr s) /\ parse_version (strip_v s) = Ok v.

Definition subworkflow_requirement : json := JDict [("class", JStr "SubworkflowFeatureRequirement")].
Definition lists_subworkflow (d : dict) : Prop :=
  exists r, requires d (JDict r) /\ dget "class" r = Some (JStr "SubworkflowFeatureRequirement").

Definition ports_builtin (d : dict) : Prop :=
  forall k l, (k = "inputs" \/ k = "outputs") -> dget k d = Some (JList l) -> Forall Inlined l.

(** a name ending in _ and digits *)
Definition numbered (n : string) : Prop := exists p k, n = (p ++ "_" ++ str_nat k)%string.
