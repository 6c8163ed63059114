(** * Specification: which values a JSON schema accepts, which values a CWL type has *)
From Verif Require Import PyBase UtilsModel SchemaModel SchemaSpec.

(** ** JSON Schema (draft 7), the keywords the generator writes *)

(** https://json-schema.org/draft-07: "type" *)
Definition of_type (t : string) (v : json) : bool :=
  match v with
  | JNull => String.eqb t "null"
  | JBool _ => String.eqb t "boolean"
  | JInt _ => String.eqb t "integer" || String.eqb t "number"
  | JFloat _ => String.eqb t "number"
  | JStr _ => String.eqb t "string"
  | JList _ => String.eqb t "array"
  | JDict _ => String.eqb t "object"
  end.

Section Accepts.
  (** the values accepted by the target of a "$ref" *)
  Variable ref : string -> json -> bool.

  (** Every keyword is a constraint of its own; "$ref" replaces its siblings; other
      keywords are annotations. *)
  Fixpoint accepts (schema v : json) {struct schema} : bool :=
    match schema with
    | JBool b => b
    | JDict d =>
        match dget "$ref" d with
        | Some (JStr r) => ref r v
        | _ =>
            (fix all (d : dict) : bool :=
               match d with
               | [] => true
               | (k, a) :: d' =>
                   (if String.eqb k "type" then
                      match a with JStr t => of_type t v | _ => false end
                    else if String.eqb k "enum" then
                      match a with JList l => existsb (json_eqb v) l | _ => false end
                    else if String.eqb k "items" then
                      match v with JList l => forallb (fun x => accepts a x) l | _ => true end
                    else if String.eqb k "properties" then
                      match a, v with
                      | JDict ps, JDict o =>
                          (fix props (ps : dict) : bool :=
                             match ps with
                             | [] => true
                             | (n, s) :: ps' =>
                                 match dget n o with Some x => accepts s x | None => true end && props ps'
                             end) ps
                      | JDict _, _ => true
                      | _, _ => false
                      end
                    else if String.eqb k "required" then
                      match a, v with
                      | JList names, JDict o =>
                          forallb (fun n => match n with JStr n => dmem n o | _ => false end) names
                      | JList _, _ => true
                      | _, _ => false
                      end
                    else if String.eqb k "oneOf" then
                      match a with
                      | JList l =>
                          Nat.eqb 1 ((fix count (l : list json) : nat :=
                             match l with
                             | [] => 0
                             | s :: l' => (if accepts s v then 1 else 0) + count l'
                             end) l)
                      | _ => false
                      end
                    else true) && all d'
               end) d
        end
    | _ => false
    end.
End Accepts.

(** a schema without constraints of its own beside those the generator sets *)
Definition plain_template (d : dict) : Prop :=
  wf_dict d /\ forall k, In k ["$ref"; "enum"; "items"; "oneOf"] -> dget k d = None.

(** ** CWL types *)
Section Types.
  (** the values of a named type: File, Directory, Any, and types named by their URI *)
  Variable named : string -> json -> bool.

  Definition is_number (v : json) : bool := match v with JInt _ | JFloat _ => true | _ => false end.

  (** values of a plain type name, as far as JSON can tell them apart *)
  Definition admitted_name (s : string) (v : json) : bool :=
    if String.eqb s "null" then match v with JNull => true | _ => false end
    else if String.eqb s "boolean" then match v with JBool _ => true | _ => false end
    else if String.eqb s "string" then match v with JStr _ => true | _ => false end
    else if String.eqb s "int" then match v with JInt _ => true | _ => false end
    else if smem s ["long"; "float"; "double"] then is_number v
    else if String.eqb s "stdin" then named "File" v
    else named s v.

  (** the values a type admits when a union wants exactly one of its alternatives and
      fields of a record may be left out *)
  Fixpoint admitted (t : texp) (v : json) {struct t} : bool :=
    match t with
    | XStr s => admitted_name s v
    | XArrayObj t => match v with JList l => forallb (fun x => admitted t x) l | _ => false end
    | XEnumObj symbols =>
        match v with
        | JStr s => existsb (fun y => String.eqb s (get_value_from_uri y)) symbols
        | _ => false
        end
    | XRecordObj _ None => match v with JDict _ => true | _ => false end
    | XRecordObj _ (Some fields) =>
        match v with
        | JDict o =>
            (fix all (l : list (string * texp)) : bool :=
               match l with
               | [] => true
               | (n, t) :: l' =>
                   match dget (get_value_from_uri n) o with Some x => admitted t x | None => true end && all l'
               end) fields
        | _ => false
        end
    | XList l =>
        Nat.eqb 1 ((fix count (l : list texp) : nat :=
           match l with
           | [] => 0
           | t :: l' => (if admitted t v then 1 else 0) + count l'
           end) l)
    | XImport u => named u v
    | XEnum _ | XArray _ | XRecord _ | XField _ => false
    end.

  (** the values a type has by the CWL standard: a union has the values of all its
      alternatives, a field may be left out when its type has null *)
  Inductive HasType : texp -> json -> Prop :=
  | HT_null : HasType (XStr "null") JNull
  | HT_bool b : HasType (XStr "boolean") (JBool b)
  | HT_string s : HasType (XStr "string") (JStr s)
  | HT_int z : HasType (XStr "int") (JInt z)
  | HT_long z : HasType (XStr "long") (JInt z)
  | HT_float v : is_number v = true -> HasType (XStr "float") v
  | HT_double v : is_number v = true -> HasType (XStr "double") v
  | HT_stdin v : named "File" v = true -> HasType (XStr "stdin") v
  | HT_named s v : ~ In s ["null"; "boolean"; "string"; "int"; "long"; "float"; "double"; "stdin"] ->
      named s v = true -> HasType (XStr s) v
  | HT_import u v : named u v = true -> HasType (XImport u) v
  | HT_array t l : Forall (HasType t) l -> HasType (XArrayObj t) (JList l)
  | HT_enum symbols y s : In y symbols -> Names y s -> HasType (XEnumObj symbols) (JStr s)
  | HT_any_record ty o : HasType (XRecordObj ty None) (JDict o)
  | HT_record ty fields o :
      Forall (fun f => exists n, Names (fst f) n /\
                ((exists x, dget n o = Some x /\ HasType (snd f) x) \/
                 (dget n o = None /\ HasType (snd f) JNull))) fields ->
      HasType (XRecordObj ty (Some fields)) (JDict o)
  | HT_union l t v : In t l -> HasType t v -> HasType (XList l) v.

  (** no value belongs to two alternatives of a union, at any depth *)
  Inductive Separate : texp -> Prop :=
  | Sep_text s : Separate (XStr s)
  | Sep_enum s : Separate (XEnumObj s)
  | Sep_import u : Separate (XImport u)
  | Sep_array t : Separate t -> Separate (XArrayObj t)
  | Sep_any_record ty : Separate (XRecordObj ty None)
  | Sep_record ty fields : Forall (fun f => Separate (snd f)) fields -> Separate (XRecordObj ty (Some fields))
  | Sep_union l : Forall Separate l ->
      (forall i j a b v, nth_error l i = Some a -> nth_error l j = Some b ->
         admitted a v = true -> admitted b v = true -> i = j) -> Separate (XList l).
End Types.

(** the fields of every record in the type have different names *)
Inductive FieldsDistinct : texp -> Prop :=
| FD_text s : FieldsDistinct (XStr s)
| FD_enum s : FieldsDistinct (XEnumObj s)
| FD_import u : FieldsDistinct (XImport u)
| FD_array t : FieldsDistinct t -> FieldsDistinct (XArrayObj t)
| FD_any_record ty : FieldsDistinct (XRecordObj ty None)
| FD_record ty fields : NoDup (map (fun f => get_value_from_uri (fst f)) fields) ->
    Forall (fun f => FieldsDistinct (snd f)) fields -> FieldsDistinct (XRecordObj ty (Some fields))
| FD_union l : Forall FieldsDistinct l -> FieldsDistinct (XList l).

(** [u] is the URI of a type used in the type *)
Inductive Mentions (u : string) : texp -> Prop :=
| M_text : ~ In u ["null"; "boolean"; "string"; "int"; "long"; "float"; "double"; "stdin";
                   "File"; "Directory"; "Any"] -> Mentions u (XStr u)
| M_import : Mentions u (XImport u)
| M_array t : Mentions u t -> Mentions u (XArrayObj t)
| M_record ty fields f : In f fields -> Mentions u (snd f) -> Mentions u (XRecordObj ty (Some fields))
| M_union l t : In t l -> Mentions u t -> Mentions u (XList l).

(** the definitions mean what they are named after, for the types used in [t] *)
Definition definitions_agree (ref named : string -> json -> bool) (t : texp) : Prop :=
  (forall s v, In s ["File"; "Directory"; "Any"] -> ref ("#/definitions/" ++ s)%string v = named s v) /\
  (forall u n v, Mentions u t -> Names u n ->
     ref ("#/definitions/" ++ to_pascal_case n)%string v = named u v).

(** the type of an input that may be left out, with null as its first alternative *)
Definition with_null (t : texp) : texp :=
  match t with
  | XList l => if existsb is_null_name l
               then XList [XStr "null"; XList (filter (fun x => negb (is_null_name x)) l)]
               else XList [XStr "null"; t]
  | t => XList [XStr "null"; t]
  end.

(** the type of a field once it is given: its alternatives other than null *)
Definition given_type (t : texp) : texp :=
  match t with
  | XList l => XList (filter (fun x => negb (is_null_name x)) l)
  | t => t
  end.
Definition null_is_alternative (t : texp) : Prop := exists l, t = XList l /\ In (XStr "null") l.
Definition flat_union (t : texp) : Prop := forall l l', t = XList l -> ~ In (XList l') l.

(** ** which types have a schema *)
Definition letters : list ascii := list_ascii_of_string "abcdefghijklmnopqrstuvwxyzABCDEFGHIJKLMNOPQRSTUVWXYZ".
Definition scheme_chars : list ascii := letters ++ list_ascii_of_string "0123456789+-.".
(** an absolute URI: a scheme, that is a letter and further scheme characters, and a colon *)
Definition AbsoluteUri (s : string) : Prop :=
  exists c scheme rest, s = String c (scheme ++ String ":" rest) /\ In c letters /\
    (forall d, In d (list_ascii_of_string scheme) -> In d scheme_chars).

Inductive Supported : texp -> Prop :=
| Su_name s : In s ["null"; "boolean"; "string"; "int"; "long"; "float"; "double"; "stdin";
                    "File"; "Directory"; "Any"] -> Supported (XStr s)
| Su_uri s : AbsoluteUri s -> Supported (XStr s)
| Su_import u : Supported (XImport u)
| Su_enum s : Supported (XEnumObj s)
| Su_array t : Supported t -> Supported (XArrayObj t)
| Su_any_record ty : Supported (XRecordObj ty None)
| Su_record ty fields : Forall (fun f => Supported (snd f)) fields -> Supported (XRecordObj ty (Some fields))
| Su_union l : Forall Supported l -> Supported (XList l).

(** ** definitions: those generated for the record types, later ones winning, over those
    of the template *)
Definition Latest (n : string) (d : json) (gens : list dict) : Prop :=
  exists pre g post, gens = pre ++ g :: post /\ dget n g = Some d /\
    Forall (fun g' => dget n g' = None) post.
Definition Overlay (template_defs : dict) (gens : list dict) (all : dict) : Prop :=
  forall n d, dget n all = Some d <->
    (Latest n d gens \/ (Forall (fun g => dget n g = None) gens /\ dget n template_defs = Some d)).

(** a document text: absent, a text or several *)
Definition plain_doc (d : json) : Prop :=
  d = JNull \/ (exists s, d = JStr s) \/ (exists l, d = JList l /\ Forall (fun x => exists s, x = JStr s) l).
(** the definition a type needs: File, Directory and Any their own, a URI the one named after it *)
Inductive Needs (t : texp) : string -> Prop :=
| N_builtin n : In n ["File"; "Directory"; "Any"] -> Needs t n
| N_uri u n : Mentions u t -> Names u n -> Needs t (to_pascal_case n).
(** no record field is called "$ref" *)
Inductive NoRefField : texp -> Prop :=
| NR_text s : NoRefField (XStr s)
| NR_enum s : NoRefField (XEnumObj s)
| NR_import u : NoRefField (XImport u)
| NR_array t : NoRefField t -> NoRefField (XArrayObj t)
| NR_any_record ty : NoRefField (XRecordObj ty None)
| NR_record ty fields : Forall (fun f => ~ Names (fst f) "$ref" /\ NoRefField (snd f)) fields ->
    NoRefField (XRecordObj ty (Some fields))
| NR_union l : Forall NoRefField l -> NoRefField (XList l).
