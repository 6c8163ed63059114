(** * Specification vocabulary for utils.py *)
From Verif Require Import PyBase UtilsModel.

(** ** byte strings *)

(** [Decoded v w]: [w] is [v] with every byte string, at any depth, replaced by text *)
Inductive Decoded : bval -> bval -> Prop :=
| D_bytes s : Decoded (BBytes s) (BAtom (JStr s))
| D_atom j : Decoded (BAtom j) (BAtom j)
| D_list l l' : Forall2 Decoded l l' -> Decoded (BList l) (BList l')
| D_dict d d' : Forall2 (fun a b => fst a = fst b /\ Decoded (snd a) (snd b)) d d' ->
    Decoded (BDict d) (BDict d').

(** [PartlyDecoded v w]: only byte strings changed, and only into the same text *)
Inductive PartlyDecoded : bval -> bval -> Prop :=
| P_bytes s : PartlyDecoded (BBytes s) (BAtom (JStr s))
| P_same v : PartlyDecoded v v
| P_list l l' : Forall2 PartlyDecoded l l' -> PartlyDecoded (BList l) (BList l')
| P_dict d d' : Forall2 (fun a b => fst a = fst b /\ PartlyDecoded (snd a) (snd b)) d d' ->
    PartlyDecoded (BDict d) (BDict d').

(** a byte string occurs somewhere in the value *)
Inductive HasBytes : bval -> Prop :=
| HB_here s : HasBytes (BBytes s)
| HB_list l v : In v l -> HasBytes v -> HasBytes (BList l)
| HB_dict d k v : In (k, v) d -> HasBytes v -> HasBytes (BDict d).

(** in every list, byte strings occur in the first element only *)
Inductive HeadBytesOnly : bval -> Prop :=
| HO_bytes s : HeadBytesOnly (BBytes s)
| HO_atom j : HeadBytesOnly (BAtom j)
| HO_nil : HeadBytesOnly (BList [])
| HO_cons v l : HeadBytesOnly v -> Forall (fun w => ~ HasBytes w) l -> HeadBytesOnly (BList (v :: l))
| HO_dict d : Forall (fun kv => HeadBytesOnly (snd kv)) d -> HeadBytesOnly (BDict d).

(** a byte string reached through dict values and first list elements *)
Inductive FirstBytes (s : string) : bval -> Prop :=
| FB_here : FirstBytes s (BBytes s)
| FB_list v l : FirstBytes s v -> FirstBytes s (BList (v :: l))
| FB_dict d k v : In (k, v) d -> FirstBytes s v -> FirstBytes s (BDict d).

(** every byte string in it is valid UTF-8 *)
Inductive AllValid (utf8 : string -> bool) : bval -> Prop :=
| AV_bytes s : utf8 s = true -> AllValid utf8 (BBytes s)
| AV_atom j : AllValid utf8 (BAtom j)
| AV_list l : Forall (AllValid utf8) l -> AllValid utf8 (BList l)
| AV_dict d : Forall (fun kv => AllValid utf8 (snd kv)) d -> AllValid utf8 (BDict d).

(** ** map and list sections *)

(** the body of an entry, spelled out: a shorthand body sits under the value field *)
Definition spelled_out (value_field : option string) (v : json) : option dict :=
  match v with
  | JDict b => Some b
  | v => match value_field with Some f => Some [(f, v)] | None => None end
  end.

(** [b] is the map [d] with every body spelled out *)
Definition spelled_dict (vf : option string) (d b : dict) : Prop :=
  Forall2 (fun kv kv' => fst kv = fst kv' /\
    exists body, spelled_out vf (snd kv) = Some body /\ snd kv' = JDict body) d b.

(** same fields with the same values, in whatever order *)
Definition same_fields (a b : dict) : Prop := forall k, dget k a = dget k b.

(** an entry of a list section that has a usable key *)
Definition keyed (key_field : string) (e : json) : Prop :=
  exists b k, e = JDict b /\ dget key_field b = Some (JStr k).

Definition key_of (key_field : string) (e : json) : string :=
  match e with
  | JDict b => match dget key_field b with Some (JStr k) => k | _ => "" end
  | _ => ""
  end.

(** two lists of mappings that agree entry by entry *)
Definition same_entries (l l' : list json) : Prop :=
  Forall2 (fun x y => exists a b, x = JDict a /\ y = JDict b /\ same_fields a b) l l'.

(** ** names *)
Definition is_separator (c : ascii) : bool := Ascii.eqb c "-" || Ascii.eqb c "_".
Fixpoint without_separators (s : string) : string :=
  match s with
  | EmptyString => EmptyString
  | String c s' => if is_separator c then without_separators s' else String c (without_separators s')
  end.
(** a word with its first letter in upper case and the others in lower case *)
Definition capital_word (w : string) : string :=
  match w with "" => "" | String c w' => String (upper_char c) (smap lower_char w') end.

(** ** the values a type spelling admits *)
Section Meaning.
  (** the values of a plain type name, and of imported or record types *)
  Variable base : string -> json -> Prop.
  Variable opaque : texp -> json -> Prop.

  (** a type written as a text: [t?] adds null, [t[]] is a list of t *)
  Inductive TextAdmits : string -> json -> Prop :=
  | TA_null : TextAdmits "null" JNull
  | TA_opt_null t : TextAdmits (t ++ "?") JNull
  | TA_opt t v : TextAdmits t v -> TextAdmits (t ++ "?") v
  | TA_list t l : Forall (TextAdmits t) l -> TextAdmits (t ++ "[]") (JList l)
  | TA_name n v : n <> "null" -> (forall t, n <> t ++ "?")%string -> (forall t, n <> t ++ "[]")%string ->
      base n v -> TextAdmits n v.

  Inductive Admits : texp -> json -> Prop :=
  | A_text s v : TextAdmits s v -> Admits (XStr s) v
  | A_union l t v : In t l -> Admits t v -> Admits (XList l) v
  | A_enum syms s : In s syms -> Admits (XEnum syms) (JStr s)
  | A_enum_obj syms s : In s syms -> Admits (XEnumObj syms) (JStr s)
  | A_array t l : Forall (Admits t) l -> Admits (XArray t) (JList l)
  | A_array_obj t l : Forall (Admits t) l -> Admits (XArrayObj t) (JList l)
  | A_field t v : Admits t v -> Admits (XField t) v
  | A_import u v : opaque (XImport u) v -> Admits (XImport u) v
  | A_record r v : opaque (XRecord r) v -> Admits (XRecord r) v
  | A_record_obj r f v : opaque (XRecordObj r f) v -> Admits (XRecordObj r f) v.
End Meaning.

(** a text type with at most one [[]] and at most one trailing [?] *)
Definition simple_text (s : string) : Prop :=
  exists n, has_char "?" n = false /\ contains "[]" n = false /\
    (s = n \/ s = n ++ "?" \/ s = n ++ "[]" \/ s = n ++ "[]?")%string.

(** every text that is a field's type on its own is simple *)
Inductive simple_type : texp -> Prop :=
| ST_text s : simple_text s -> simple_type (XStr s)
| ST_list l : Forall (fun x => forall t, x = XField t -> simple_type t) l -> simple_type (XList l)
| ST_enum s : simple_type (XEnum s)
| ST_array t : simple_type (XArray t)
| ST_import u : simple_type (XImport u)
| ST_enum_obj s : simple_type (XEnumObj s)
| ST_array_obj t : simple_type (XArrayObj t)
| ST_record_obj r f : simple_type (XRecordObj r f).
