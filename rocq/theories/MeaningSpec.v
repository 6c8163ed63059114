(** * What a packed document means: the original with its links followed and its types written out *)
From Verif Require Import PyBase PackSpec.
From Verif Require Import PackModel. (* for the list of built-in types only *)

(** ** Mappings *)
Definition Absent (k : string) (d : dict) : Prop := dget k d = None \/ dget k d = Some JNull.
(** [d'] is [d] with [v] under [k] *)
Definition With (k : string) (v : json) (d d' : dict) : Prop :=
  dget k d' = Some v /\ forall k', k' <> k -> dget k' d' = dget k' d.
(** the same, for more than one key *)
Definition SameExcept (ks : list string) (d d' : dict) : Prop := forall k, ~ In k ks -> dget k d' = dget k d.

(** A section given as a mapping is a list of its entries, each with its key; a shorthand
    stands for the given field. *)
Inductive Entry (kf : string) (vf : option string) : string * json -> json -> Prop :=
| En_full k b e : With kf (JStr k) b e -> Entry kf vf (k, JDict b) (JDict e)
| En_short k v f e : (forall b, v <> JDict b) -> vf = Some f -> With kf (JStr k) [(f, v)] e -> Entry kf vf (k, v) (JDict e).
Inductive Listed (kf : string) (vf : option string) : json -> list json -> Prop :=
| Ls_list l : Listed kf vf (JList l) l
| Ls_map d l : Forall2 (Entry kf vf) d l -> Listed kf vf (JDict d) l.
(** a missing section is an empty list *)
Definition Section_ (k kf : string) (vf : option string) (d : dict) (l : list json) : Prop :=
  (dget k d = None /\ l = []) \/ exists j, dget k d = Some j /\ Listed kf vf j l.

(** a list without the elements that [P] holds of *)
Inductive Without (P : json -> Prop) : list json -> list json -> Prop :=
| Wo_nil : Without P [] []
| Wo_drop x l l' : P x -> Without P l l' -> Without P (x :: l) l'
| Wo_keep x l l' : ~ P x -> Without P l l' -> Without P (x :: l) (x :: l').

(** ** Files *)
Section World.
  Variable url_scheme url_path : string -> string.
  Variable urljoin : string -> string -> string.
  Variable read_text urlopen : string -> result string.
  Variable parse_yaml : string -> result json.

  (** a path, not a URL *)
  Definition Local (u : string) : Prop := url_scheme u = "".
  (** where a link in the file [base] leads *)
  Inductive Target (base link : string) : string -> Prop :=
  | To_url : ~ Local link -> Target base link link
  | To_itself : Local base -> link = "" -> Local link -> Target base link base
  | To_beside : Local link -> Local base -> link <> "" -> Target base link (urljoin base link)
  | To_remote : Local link -> ~ Local base -> Target base link (urljoin base (url_path link)).
  Definition Text (u t : string) : Prop :=
    (Local u /\ read_text (url_path u) = Ok t) \/ (~ Local u /\ urlopen u = Ok t).
  (** what a symbolic link looks like when read from GitHub: one line that names a file *)
  Definition SymbolicLink (u t : string) : Prop :=
    ~ Local u /\ has_char c_nl t = false /\ has_char "." t = true.
  (** the text and the place of the file a link in [base] leads to *)
  Inductive File : string -> string -> string -> string -> Prop :=
  | F_here base link u t : Target base link u -> Text u t -> ~ SymbolicLink u t -> File base link t u
  | F_symbolic base link u t t' u' : Target base link u -> Text u t -> SymbolicLink u t -> File u t t' u' ->
      File base link t' u'.
  Definition Contents (base link : string) (v : json) (u : string) : Prop :=
    exists t, File base link t u /\ parse_yaml t = Ok v.

  (** ** Types *)
  (** the file a type name in the file [base] belongs to, and its full name *)
  Inductive Named (base s : string) : string -> string -> Prop :=
  | Nm_here : has_char "#" s = false -> Named base s base (base ++ "#" ++ s)
  | Nm_there f n r u : s = (f ++ "#" ++ n ++ r)%string -> has_char "#" f = false -> has_char "#" n = false ->
      (r = "" \/ exists r', r = ("#" ++ r')%string) -> Target base f u -> Named base s u (u ++ "#" ++ n).
  (** a copy of a type has its name, or its name and a number *)
  Inductive Copied (d : dict) : dict -> Prop :=
  | Cp_same n : dget "name" d = Some (JStr n) -> Copied d d
  | Cp_number n i d' : dget "name" d = Some (JStr n) -> With "name" (JStr (n ++ "_" ++ str_nat i)) d d' -> Copied d d'
  | Cp_new i d' : dget "name" d = None -> With "name" (JStr ("user_type_" ++ str_nat i)) d d' -> Copied d d'.
  Definition ends_in (x s : string) : Prop := exists p, s = (p ++ x)%string.

  (** [Means base v t]: in the file [base], [v] means the type [t]; [table]: the types by
      their full names *)
  Section Types.
    Variable table : string -> option json.
    Inductive Means : string -> json -> json -> Prop :=
    | M_builtin base s : In s built_in_types -> Means base (JStr s) (JStr s)
    | M_sugar_array base s t : Means base (JStr s) t ->
        Means base (JStr (s ++ "[]")) (JDict [("type", JStr "array"); ("items", t)])
    | M_sugar_optional base s t : Means base (JStr s) t -> Means base (JStr (s ++ "?")) (JList [JStr "null"; t])
    | M_name base s u path d d' t :
        ~ In s built_in_types -> ~ ends_in "[]" s -> ~ ends_in "?" s ->
        Named base s u path -> table path = Some (JDict d) -> Copied d d' -> Means u (JDict d') t ->
        Means base (JStr s) t
    | M_union base l l' : Forall2 (Means base) l l' -> Means base (JList l) (JList l')
    | M_import base d link v u t : dget "$import" d = Some (JStr link) -> Contents base link v u -> Means u v t ->
        Means base (JDict d) t
    | M_enum base d : Absent "$import" d -> dget "type" d = Some (JStr "enum") -> Means base (JDict d) (JDict d)
    | M_array base d d' i i' : Absent "$import" d -> dget "type" d = Some (JStr "array") -> dget "items" d = Some i ->
        Means base i i' -> With "items" i' d d' -> Means base (JDict d) (JDict d')
    | M_record base d d' f l l' : Absent "$import" d -> dget "type" d = Some (JStr "record") ->
        dget "fields" d = Some f -> Listed "name" (Some "type") f l -> Forall2 (Means base) l l' ->
        With "fields" (JList l') d d' -> Means base (JDict d) (JDict d')
    | M_typed base d d' t t' : Absent "$import" d -> dget "type" d = Some t -> t <> JNull ->
        t <> JStr "enum" -> t <> JStr "array" -> t <> JStr "record" ->
        Means base t t' -> With "type" t' d d' -> Means base (JDict d) (JDict d').
  End Types.

  (** ** The table *)
  (** [v] is a type called [n] among [l] *)
  Definition Defined (l : list json) (n : string) (v : json) : Prop :=
    exists d, v = JDict d /\ In v l /\ dget "name" d = Some (JStr n).
  (** the requirements once the imported schema definitions are read *)
  Definition SchemaDef (r : json) : Prop := exists d, r = JDict d /\ dget "class" d = Some (JStr "SchemaDefRequirement").
  Inductive Required (base : string) : json -> json -> Prop :=
  | Rq_import d link r u : dget "$import" d = Some (JStr link) -> Contents base link r u -> SchemaDef r ->
      Required base (JDict d) r
  | Rq_other d link r u : dget "$import" d = Some (JStr link) -> Contents base link r u -> ~ SchemaDef r ->
      Required base (JDict d) (JDict d)
  | Rq_same r : (forall d, r = JDict d -> dget "$import" d = None) -> Required base r r.
  (** the first schema definition *)
  Definition FirstSchemaDef (l : list json) (d : dict) : Prop :=
    exists l1 l2, l = l1 ++ JDict d :: l2 /\ dget "class" d = Some (JStr "SchemaDefRequirement") /\
      Forall (fun r => ~ SchemaDef r) l1.
  (** the types declared by the requirements [l] of the document [base] ([l'] once imported):
      full name and definition *)
  Inductive Declared (base : string) (l l' : list json) : string -> json -> Prop :=
  | De_required d link r u ts n v : In (JDict d) l -> dget "$import" d = Some (JStr link) ->
      Contents base link (JDict r) u -> SchemaDef (JDict r) -> dget "types" r = Some (JList ts) -> Defined ts n v ->
      Declared base l l' (u ++ "#" ++ n) v
  | De_imported d ts link c u n v : FirstSchemaDef l' d -> dget "types" d = Some (JList ts) ->
      In (JDict [("$import", JStr link)]) ts -> Contents base link c u ->
      Defined (match c with JList defs => defs | _ => [c] end) n v ->
      Declared base l l' (u ++ "#" ++ n) v
  | De_here d ts n v : FirstSchemaDef l' d -> dget "types" d = Some (JList ts) -> Defined ts n v ->
      Declared base l l' (base ++ "#" ++ n) v
  (** the quirk: a nameless type is called None *)
  | De_nameless d ts t : FirstSchemaDef l' d -> dget "types" d = Some (JList ts) -> In (JDict t) ts -> Absent "name" t ->
      (forall link, t <> [("$import", link)]) ->
      Declared base l l' (base ++ "#None") (JDict t).
  (** what the document declares, and what surrounds it: that wins *)
  Record Table (base : string) (parent table : string -> option json) (l l' : list json) : Prop := {
    tb_parent : forall path v, parent path = Some v -> table path = Some v;
    tb_sound : forall path v, table path = Some v -> parent path = Some v \/ Declared base l l' path v;
    tb_complete : forall path v, Declared base l l' path v -> table path <> None }.

  (** ** Imports: all links taken from the one base *)
  Inductive Replaced (base : string) : json -> json -> Prop :=
  | Re_atom j : match j with JList _ | JDict _ => False | _ => True end -> Replaced base j j
  | Re_list l l' : Forall2 (ReplacedValue base) l l' -> Replaced base (JList l) (JList l')
  | Re_dict d d' : Forall2 (fun kv kv' => fst kv' = fst kv /\ ReplacedValue base (snd kv) (snd kv')) d d' ->
      Replaced base (JDict d) (JDict d')
  with ReplacedValue (base : string) : json -> json -> Prop :=
  | Rv_import link v u v' : Contents base link v u -> Replaced base v v' ->
      ReplacedValue base (JDict [("$import", JStr link)]) v'
  | Rv_include link t u : File base link t u -> ReplacedValue base (JDict [("$include", JStr link)]) (JStr t)
  | Rv_plain v v' : ~ IsImport v -> Replaced base v v' -> ReplacedValue base v v'.

  (** ** Processes *)
  (** sections as lists *)
  Definition StepListed (st st' : json) : Prop :=
    match st with
    | JDict s => exists l s', Section_ "in" "id" (Some "source") s l /\ With "in" (JList l) s s' /\ st' = JDict s'
    | _ => st' = st
    end.
  Definition AllListed (d d' : dict) : Prop :=
    SameExcept ["inputs"; "outputs"; "requirements"; "steps"] d d' /\
    (exists l, Section_ "inputs" "id" (Some "type") d l /\ dget "inputs" d' = Some (JList l)) /\
    (exists l, Section_ "outputs" "id" (Some "type") d l /\ dget "outputs" d' = Some (JList l)) /\
    (exists l, Section_ "requirements" "class" None d l /\ dget "requirements" d' = Some (JList l)) /\
    (IsWorkflow d -> exists l l', Section_ "steps" "id" None d l /\ Forall2 StepListed l l' /\ dget "steps" d' = Some (JList l')) /\
    (~ IsWorkflow d -> dget "steps" d' = dget "steps" d).
  (** sources without their first # *)
  Definition AllNormal (d d' : dict) : Prop :=
    SameExcept ["steps"; "outputs"] d d' /\ (~ IsWorkflow d -> d' = d) /\
    (IsWorkflow d -> forall l, dget "steps" d = Some (JList l) -> exists l', dget "steps" d' = Some (JList l') /\ Forall2 StepNormal l l') /\
    (IsWorkflow d -> forall l, dget "outputs" d = Some (JList l) ->
       exists l', dget "outputs" d' = Some (JList l') /\ Forall2 (EntryNormal "outputSource") l l').
  (** the ports, or those of the file that [inputs: {$import: link}] names: the entries of the
      list in it (the keys of a mapping, the letters of a text) *)
  Inductive Items : json -> list json -> Prop :=
  | It_list l : Items (JList l) l
  | It_keys d : Items (JDict d) (map (fun kv => JStr (fst kv)) d)
  | It_letters s : Items (JStr s) (map (fun c => JStr (String c "")) (list_ascii_of_string s)).
  Definition Ports (table : string -> option json) (base : string) (l l' : list json) : Prop :=
    (exists p link defs u, l = [JDict p] /\ dget "id" p = Some (JStr "$import") /\ dget "type" p = Some (JStr link) /\
       Contents base link defs u /\ exists l0, Items defs l0 /\ Forall2 (Means table u) l0 l') \/
    ((forall p, l = [JDict p] -> dget "id" p <> Some (JStr "$import")) /\ Forall2 (Means table base) l l').
  Definition AllTyped (base : string) (parent table : string -> option json) (d d' : dict) : Prop :=
    SameExcept ["inputs"; "outputs"; "requirements"] d d' /\
    (exists l l', dget "requirements" d = Some (JList l) /\ Forall2 (Required base) l l' /\ Table base parent table l l' /\
       exists keep, dget "requirements" d' = Some (JList keep) /\ Without SchemaDef l' keep) /\
    (exists l l', dget "inputs" d = Some (JList l) /\ Ports table base l l' /\ dget "inputs" d' = Some (JList l')) /\
    (exists l l', dget "outputs" d = Some (JList l) /\ Ports table base l l' /\ dget "outputs" d' = Some (JList l')).

  (** [Packs base types d d']: the process [d] in the file [base], inside a document with the
      given types, is packed as [d'].  The version is left aside. *)
  Inductive Packs : string -> (string -> option json) -> dict -> dict -> Prop :=
  | Pk base parent table d d1 d2 d3 d4 d' :
      AllListed d d1 -> AllNormal d1 d2 -> AllTyped base parent table d2 d3 ->
      Replaced base (JDict d3) (JDict d4) ->
      SameExcept ["steps"; "requirements"; "cwlVersion"] d4 d' ->
      (~ IsWorkflow d4 -> dget "steps" d' = dget "steps" d4) ->
      (IsWorkflow d4 -> exists l l', dget "steps" d4 = Some (JList l) /\ dget "steps" d' = Some (JList l') /\
         Forall2 (StepPacks base table) l l') ->
      (dget "requirements" d' = dget "requirements" d4 \/
       exists l, dget "requirements" d4 = Some (JList l) /\ dget "requirements" d' = Some (JList (l ++ [subworkflow_requirement]))) ->
      Packs base parent d d'
  with StepPacks : string -> (string -> option json) -> json -> json -> Prop :=
  | Sp_file base table st st' link run u run' : dget "run" st = Some (JStr link) -> Contents base link (JDict run) u ->
      Packs u (fun _ => None) run run' -> With "run" (JDict run') st st' -> StepPacks base table (JDict st) (JDict st')
  | Sp_inline base table st st' run run' : dget "run" st = Some (JDict run) ->
      Packs base table run run' -> With "run" (JDict run') st st' -> StepPacks base table (JDict st) (JDict st')
  | Sp_other base table j : (forall d, j <> JDict d) -> StepPacks base table j j.
End World.
