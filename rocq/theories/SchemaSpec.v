(** * Specification for JSON schema generation *)
From Verif Require Import PyBase UtilsModel SchemaModel.

(** ** references in a JSON schema *)

(** [r] stands under a "$ref" key somewhere in the value (not below another "$ref") *)
Inductive RefIn (r : json) : json -> Prop :=
| RI_here d : In ("$ref", r) d -> RefIn r (JDict d)
| RI_dict d k v : In (k, v) d -> k <> "$ref" -> RefIn r v -> RefIn r (JDict d)
| RI_list l v : In v l -> RefIn r v -> RefIn r (JList l).

(** what follows the first "#" of a text *)
Definition FragmentOf (r frag : string) : Prop :=
  (exists before, r = (before ++ String "#" frag)%string /\ has_char "#" before = false) \/
  (has_char "#" r = false /\ frag = "").

(** the definition a reference names: the last component of its fragment *)
Definition Names (r n : string) : Prop :=
  has_char "/" n = false /\
  exists frag, FragmentOf r frag /\ (frag = n \/ exists p, frag = (p ++ String "/" n)%string).

(** definitions used by a value: named in it, or named in a used definition *)
Inductive Used (defs : dict) (start : json) : string -> Prop :=
| U_direct r n : RefIn (JStr r) start -> Names r n -> Used defs start n
| U_through m j r n : Used defs start m -> dget m defs = Some j -> RefIn (JStr r) j ->
    Names r n -> Used defs start n.

(** every reference met while following definitions is a text *)
Definition refs_are_texts (defs : dict) (start : json) : Prop :=
  forall r j, (j = start \/ exists m, Used defs start m /\ dget m defs = Some j) ->
    RefIn r j -> exists s, r = JStr s.

(** ** inputs *)
(** an input that may be left out: shorthand "?", null itself, a union with null, or a default *)
Definition nullable (t : texp) : Prop :=
  (exists s, t = XStr (s ++ "?")) \/ t = XStr "null" \/ (exists l, t = XList l /\ In (XStr "null") l).
Definition omittable (i : input_parameter) : Prop :=
  nullable (in_type i) \/ in_default i <> JNull.

(** record types proper: their [type_] text is "record" *)
Definition proper_record (t : texp) : Prop :=
  forall ty f, t = XRecordObj ty f -> ty = "record".

(** no alternative of the type is null, at any depth of nested unions *)
Fixpoint null_free (t : texp) : Prop :=
  match t with
  | XStr s => s <> "null"
  | XList l => (fix all (l : list texp) : Prop :=
                  match l with [] => True | t :: l' => null_free t /\ all l' end) l
  | _ => True
  end.
(** the same once the outermost null alternatives are gone *)
Definition rest_null_free (t : texp) : Prop :=
  match t with
  | XList l => Forall (fun x => x = XStr "null" \/ null_free x) l
  | _ => null_free t
  end.

(** the JSON-schema reading of null for the fragment the generator writes: [ref_null]
    says which definitions admit null; "oneOf" wants exactly one match *)
Section Null.
  Variable ref_null : string -> bool.
  Fixpoint admits_null (schema : json) : bool :=
    match schema with
    | JDict d =>
        match dget "$ref" d with
        | Some (JStr r) => ref_null r
        | _ =>
            (fix oneof (d : dict) : bool :=
               match d with
               | [] => false
               | (k, v) :: d' =>
                   if String.eqb k "oneOf" then
                     match v with
                     | JList l =>
                         Nat.eqb 1 ((fix count (l : list json) : nat :=
                            match l with
                            | [] => 0
                            | s :: l' => (if admits_null s then 1 else 0) + count l'
                            end) l)
                     | _ => false
                     end
                   else if String.eqb k "type" then
                     match v with JStr t => String.eqb t "null" | _ => false end
                   else oneof d'
               end) d
        end
    | _ => false
    end.
End Null.
