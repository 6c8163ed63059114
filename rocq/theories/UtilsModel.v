(** * Model of parts of src/cwl_utils/utils.py *)
From Verif Require Import PyBase.

(** ** bytes2str_in_dicts *)
(** Python values that may contain byte strings. *)
Inductive bval : Type :=
| BBytes (s : string)               (* a bytes object *)
| BAtom (j : json)                  (* None, bool, int, float, str *)
| BList (l : list bval)
| BDict (d : list (string * bval)).

Section Bytes.
  (** whether a byte string is valid UTF-8; since texts are kept as their UTF-8
      bytes, decoding a valid byte string yields the same characters *)
  Variable utf8 : string -> bool.

  (** utils.py:57-85.  UnicodeDecodeError is a ValueError.  Note that the loop over a
      list returns from its first iteration. *)
  Fixpoint bytes2str_in_dicts (inp : bval) : result bval :=
    match inp with
    | BDict d =>
        do d' <- (fix go (d : list (string * bval)) : result (list (string * bval)) :=
                    match d with
                    | [] => Ok []
                    | (k, v) :: d' =>
                        do v' <- bytes2str_in_dicts v;
                        do d'' <- go d';
                        Ok ((k, v') :: d'')
                    end) d;
        Ok (BDict d')
    | BList [] => Ok (BList [])
    | BList (value :: rest) =>
        do value' <- bytes2str_in_dicts value;
        Ok (BList (value' :: rest))
    | BBytes s => if utf8 s then Ok (BAtom (JStr s)) else Err ValueError
    | BAtom j => Ok (BAtom j)
    end.
End Bytes.

(** ** normalize_to_map / normalize_to_list *)

(** utils.py:133-143: the loop of normalize_to_map.  Keys are texts: a key of
    another type is outside the model (TypeError). *)
Fixpoint to_map_loop (key_field : string) (l : list json) (map_obj : dict) : result dict :=
  match l with
  | [] => Ok map_obj
  | JDict v :: l' =>
      match dget key_field v with
      | None | Some JNull => Err MissingKeyField
      | Some (JStr k) => to_map_loop key_field l' (dset k (JDict (dpop key_field v)) map_obj)
      | Some _ => Err TypeError
      end
  | _ :: _ => Err RuntimeError
  end.

(** utils.py:128-144 *)
Definition normalize_to_map (obj : json) (key_field : string) : result dict :=
  match obj with
  | JDict d => Ok d
  | JList l => to_map_loop key_field l []
  | _ => Err RuntimeError
  end.

(** utils.py:155-161: one entry of a map section *)
Definition to_list_entry (key_field : string) (value_field : option string)
           (kv : string * json) : result json :=
  match snd kv with
  | JDict v => Ok (JDict (dset key_field (JStr (fst kv)) v))
  | v =>
      match value_field with
      | None => Err RuntimeError
      | Some f => Ok (JDict (dset key_field (JStr (fst kv)) [(f, v)]))
      end
  end.

(** utils.py:147-164 *)
Definition normalize_to_list (obj : json) (key_field : string) (value_field : option string)
  : result (list json) :=
  match obj with
  | JList l => Ok l
  | JDict d => mapM (to_list_entry key_field value_field) d
  | _ => Err RuntimeError
  end.

(** ** to_pascal_case *)

(** [str.capitalize], on ASCII *)
Definition capitalize (s : string) : string :=
  match s with
  | EmptyString => EmptyString
  | String c s' => String (upper_char c) (smap lower_char s')
  end.

(** utils.py:247-256 *)
Definition to_pascal_case (name : string) : string :=
  sjoin "" (map capitalize (split_char "-" (replace_char "_" "-" name))).

(** ** sanitise_schema_field *)

(** The type of a schema field as the function sees it: texts, lists, mappings by
    their shape, and parser objects.  Keys other than the ones the function reads are
    not modelled. *)
Inductive texp : Type :=
| XStr (s : string)
| XList (l : list texp)
| XEnum (symbols : list string)      (* {"type": "enum", "symbols": ...} *)
| XArray (items : texp)              (* {"type": "array", "items": ...} *)
| XImport (uri : string)             (* {"$import": uri} *)
| XRecord (tag : string)             (* {"type": "record", ...} *)
| XField (t : texp)                  (* {"type": t}, t not one of the three texts above *)
| XEnumObj (symbols : list string)   (* InputEnumSchema *)
| XArrayObj (items : texp)           (* InputArraySchema *)
| XRecordObj (type_ : string) (fields : option (list (string * texp))). (* InputRecordSchema *)

(** [type_item != "null"] (utils.py:382-385) *)
Definition is_null_name (t : texp) : bool :=
  match t with XStr s => String.eqb s "null" | _ => false end.

(** utils.py:428-432 *)
Definition make_optional (t : texp) : texp :=
  match t with
  | XList l => XList (XStr "null" :: l)
  | t => XList [XStr "null"; t]
  end.

(** utils.py:397-411: a type written as a text *)
Definition sanitise_text (s : string) : texp :=
  let required := negb (endswith "?" s) in
  let s := if required then s else replace_char "?" "" s in
  let t := if endswith "[]" s then XArrayObj (XStr (replace2 "[" "]" "" s)) else XStr s in
  if required then t else make_optional t.

(** utils.py:371-434 on the field {"type": t}; the result is the new type. *)
Fixpoint sanitise_type (t : texp) : result texp :=
  match t with
  | XList l =>
      let required := negb (existsb is_null_name l) in
      do new <-
        match filter (fun x => negb (is_null_name x)) l with
        | [x] => Ok x
        | _ =>
            do l' <- (fix go (l : list texp) : result (list texp) :=
                        match l with
                        | [] => Ok []
                        | x :: l' =>
                            if is_null_name x then go l' else
                            (* sanitise_schema_field(x): only a mapping whose "type"
                               is itself a type expression changes *)
                            do x' <- match x with
                                     | XField t => do t' <- sanitise_type t; Ok (XField t')
                                     | _ => Ok x
                                     end;
                            do l'' <- go l';
                            Ok (x' :: l'')
                        end) l;
            Ok (XList l')
        end;
      Ok (if required then new else make_optional new)
  | XStr s => Ok (sanitise_text s)
  | XEnum symbols => Ok (XEnumObj symbols)
  | XArray items => Ok (XArrayObj items)
  | XImport uri => Ok (XImport uri)
  | XRecord _ | XField _ => Err ValueError
  | XEnumObj _ | XArrayObj _ | XRecordObj _ _ => Ok t
  end.
