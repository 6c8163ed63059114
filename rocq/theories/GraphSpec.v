(** * Specification of splitting a packed document *)
From Verif Require Import PyBase GraphModel.

(** the reference to [s] inside process [P] of a packed document *)
Definition own (P s : string) : string := ("#" ++ P ++ "/" ++ s)%string.

(** a usable file or process name *)
Definition plain_name (F : string) : Prop := F <> "" /\ has_char "/" F = false /\ forall r, F <> String "#" r.

(** the file a process called [X] belongs in: the name with .cwl, added unless there.
    Names ending in cwl (or in a newline) some other way are not covered. *)
Inductive FileFor (X : string) : string -> Prop :=
| FF_has b : X = (b ++ ".cwl")%string -> FileFor X X
| FF_add : (forall b, X <> (b ++ "cwl")%string) -> (forall b, X <> (b ++ String c_nl "")%string) -> FileFor X (X ++ ".cwl")%string.

Definition is_schemadef (d : dict) : Prop := In ("class", JStr "SchemaDefRequirement") d.

(** places in a document: through any keys but these, and list indices *)
Definition reference_keys : list string := ["out"; "source"; "scatter"; "items"; "format"; "$import"].
Inductive DictAt : json -> list (string + nat) -> dict -> Prop :=
| At_here d : ~ is_schemadef d -> DictAt (JDict d) [] d
| At_key d k x p e : ~ is_schemadef d -> ~ In k reference_keys -> dget k d = Some x -> DictAt x p e ->
    DictAt (JDict d) (inl k :: p) e
| At_index l i x p e : nth_error l i = Some x -> DictAt x p e -> DictAt (JList l) (inr i :: p) e.

(** what becomes of a mapping of process [P] when type files [imports] are used *)
Record Rewritten (P : string) (imports : list string) (d d' : dict) : Prop := {
  r_keys : dkeys d' = dkeys d;
  r_own : forall k s, In k ["id"; "outputSource"; "source"; "scatter"] ->
    dget k d = Some (JStr (own P s)) -> dget k d' = Some (JStr s);
  r_foreign : forall k F s, In k ["source"; "scatter"; "items"; "format"] -> F <> P -> plain_name F ->
    dget k d = Some (JStr (own F s)) -> dget k d' = Some (JStr (F ++ "#" ++ s)%string);
  r_sources : forall k l, In k ["source"; "scatter"] -> dget k d = Some (JList l) ->
    exists l', dget k d' = Some (JList l') /\
      Forall2 (fun x x' => (forall s, x = JStr (own P s) -> x' = JStr s) /\
                           ((forall r, x <> JStr ("#" ++ P ++ r)%string) -> x' = x)) l l';
  r_run : forall X f, FileFor X f -> dget "run" d = Some (JStr ("#" ++ X)%string) -> dget "run" d' = Some (JStr f);
  r_out : forall t l, t <> "" -> dget "id" d = Some (JStr t) ->
    dget "out" d = Some (JList (map (fun o => JStr (t ++ "/" ++ o)%string) l)) -> dget "out" d' = Some (JList (map JStr l));
  r_out_maps : forall t ms, dget "id" d = Some (JStr t) -> dget "out" d = Some (JList (map JDict (map fst ms))) ->
    Forall (fun mo => dget "id" (fst mo) = Some (JStr (t ++ "/" ++ snd mo)%string)) ms ->
    exists ms', dget "out" d' = Some (JList (map JDict ms')) /\
      Forall2 (fun mo m' => dget "id" m' = Some (JStr (snd mo)) /\ dkeys m' = dkeys (fst mo)) ms ms';
  r_out_no_id : forall l, dget "id" d = None -> dget "out" d = Some (JList (map JStr l)) -> dget "out" d' = Some (JList (map JStr l));
  (** documents without these were refused *)
  r_out_ids : forall l m, dget "out" d = Some (JList l) -> In (JDict m) l -> exists s, dget "id" m = Some (JStr s);
  r_run_named : dget "run" d <> Some (JStr "");
  r_plain : forall k s, In k ["id"; "outputSource"; "run"; "source"; "scatter"; "format"] -> s <> "" -> (forall r, s <> String "#" r) ->
    dget k d = Some (JStr s) -> dget k d' = Some (JStr s);
  r_type : forall F s, In F imports -> plain_name F -> dget "type" d = Some (JStr (own F s)) ->
    dget "type" d' = Some (JStr (F ++ "#" ++ s)%string);
  r_type_other : forall s, (forall r, s <> String "#" r) -> dget "type" d = Some (JStr s) -> dget "type" d' = Some (JStr s);
  r_other : forall k v, ~ In k ["id"; "outputSource"; "run"; "out"; "source"; "scatter"; "items"; "format"; "$import"; "type"] ->
    (match v with JList _ | JDict _ => False | _ => True end) ->
    dget k d = Some v -> dget k d' = Some v
}.

(** the places of schema definitions *)
Inductive SchemaAt : json -> list (string + nat) -> dict -> Prop :=
| Sc_here d : is_schemadef d -> SchemaAt (JDict d) [] d
| Sc_key d k x p e : ~ is_schemadef d -> ~ In k reference_keys -> dget k d = Some x -> SchemaAt x p e ->
    SchemaAt (JDict d) (inl k :: p) e
| Sc_index l i x p e : nth_error l i = Some x -> SchemaAt x p e -> SchemaAt (JList l) (inr i :: p) e.

Definition lists_type (d e : dict) : Prop := exists types, dget "types" d = Some (JList types) /\ In (JDict e) types.
(** the entry imports, or defines, type [T] of file [F] *)
Definition imports_type (e : dict) (F T : string) : Prop := dget "$import" e = Some (JStr (own F T)).
Definition defines_type (e : dict) (F T : string) : Prop :=
  dget "$import" e = None /\ dget "name" e = Some (JStr (own F T)) /\ has_char "/" T = false.
(** a field [x] of type [T] of file [F], and the field [x'] in the file *)
Definition FieldMoved (F T : string) (x x' : json) : Prop :=
  forall f, x = JDict f -> ~ is_schemadef f -> exists f', x' = JDict f' /\ dkeys f' = dkeys f /\
    (forall n, has_char "/" n = false -> dget "name" f = Some (JStr (own F T ++ "/" ++ n)%string) -> dget "name" f' = Some (JStr n)) /\
    (forall X, dget "type" f = Some (JStr (F ++ "/" ++ X)%string) -> dget "type" f' = Some (JStr X)) /\
    (forall s, (forall r, s <> (F ++ r)%string) -> dget "type" f = Some (JStr s) -> dget "type" f' = Some (JStr s)).

(** the file the process called [P] is written to *)
Definition TargetFile (basename : string) (mainfile : option string) (P f : string) : Prop :=
  (P <> "main" /\ FileFor P f) \/
  (P = "main" /\ exists m, mainfile = Some m /\ FileFor m f) \/
  (P = "main" /\ mainfile = None /\ FileFor ("unpacked_" ++ basename) f).
(** the entry of $graph for process [P] (the leading # may be missing) and its contents *)
Definition process_entry (entry : json) (P : string) (e : dict) : Prop :=
  entry = JDict e /\ (dget "id" e = Some (JStr ("#" ++ P)) \/ dget "id" e = Some (JStr P)) /\ plain_name P.
Definition body (version : json) (e : dict) : json := JDict (dset "cwlVersion" version (dpop "id" e)).

Fixpoint process_files (ops : list op) : list (string * json) :=
  match ops with
  | [] => []
  | Overwrite f j :: ops => (f, j) :: process_files ops
  | Append _ _ :: ops => process_files ops
  end.
Fixpoint type_files (ops : list op) : list (string * json) :=
  match ops with
  | [] => []
  | Append f j :: ops => (f, j) :: type_files ops
  | Overwrite _ _ :: ops => type_files ops
  end.
Definition kept_at (j' : json) (p : list (string + nat)) (F : string) : Prop :=
  exists d' e', SchemaAt j' p d' /\ lists_type d' e' /\ dget "$import" e' = Some (JStr F).

(** [doc] is process [P] of a packed document, moved to its own file; its type files are
    [imports], the types moved out of it are among [types] *)
Record Moved (version : json) (e : dict) (P : string) (doc : json) (imports : list string) (types : list (string * json)) : Prop := {
  m_rewritten : forall p d, DictAt (body version e) p d -> exists d', DictAt doc p d' /\ Rewritten P imports d d';
  m_types : forall p d te F T, SchemaAt (body version e) p d -> lists_type d te -> ~ is_schemadef te -> plain_name F ->
    imports_type te F T \/ defines_type te F T -> In F imports /\ kept_at doc p F;
  m_defined : forall p d te F T, SchemaAt (body version e) p d -> lists_type d te -> ~ is_schemadef te -> plain_name F ->
    defines_type te F T -> exists e2, In (F, JDict e2) types /\ dget "name" e2 = Some (JStr T) /\
      (forall s, dget "type" te = Some (JStr s) -> dget "type" e2 = Some (JStr s)) /\
      forall l, dget "fields" te = Some (JList l) -> exists l', dget "fields" e2 = Some (JList l') /\ Forall2 (FieldMoved F T) l l'
}.
