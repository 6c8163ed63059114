(** * Model of src/cwl_utils/inputs_schema_gen.py *)
From Verif Require Import PyBase UtilsModel.

(** ** URIs *)

(** [urlparse(uri).fragment]: what follows the first "#".  (urlparse also strips
    control characters, which is not modelled.) *)
Fixpoint fragment (uri : string) : string :=
  match uri with
  | EmptyString => EmptyString
  | String c s => if Ascii.eqb c "#" then s else fragment s
  end.

(** utils.py:457-468 *)
Definition get_value_from_uri (uri : string) : string :=
  List.last (split_char "/" (fragment uri)) "".

(** the characters [urlparse] (utils.py:445) accepts in a scheme *)
Definition is_scheme_char (c : ascii) : bool :=
  is_digit c || is_upper c || is_lower c || Ascii.eqb c "+" || Ascii.eqb c "-" || Ascii.eqb c ".".

(** the characters up to the first ":" are scheme characters (and there is a ":") *)
Fixpoint scheme_until_colon (s : string) : bool :=
  match s with
  | EmptyString => false
  | String c s' => if Ascii.eqb c ":" then true else is_scheme_char c && scheme_until_colon s'
  end.

(** utils.py:438-447: [urlparse(uri).scheme != ""]; the scheme starts with a letter *)
Definition is_uri (uri : string) : bool :=
  match uri with
  | EmptyString => false
  | String c s => (is_upper c || is_lower c) && scheme_until_colon s
  end.

(** ** properties *)

(** inputs_schema_gen.py:52-60 *)
Definition PRIMITIVE_TYPES_MAPPING : list (string * string) :=
  [ ("boolean", "boolean"); ("string", "string"); ("int", "integer"); ("float", "number");
    ("long", "number"); ("double", "number"); ("null", "null") ].

(** the mapping of inputs_schema_gen.py:129, 131, 135 and 188 *)
Definition definition_ref (n : string) : json := JDict [("$ref", JStr ("#/definitions/" ++ n))].

(** inputs_schema_gen.py:112-212 *)
Fixpoint generate_type_dict_from_type (type_item : texp) : result dict :=
  match type_item with
  | XStr s =>
      match dget s PRIMITIVE_TYPES_MAPPING with
      | Some p => Ok [("type", JStr p)]
      | None =>
          if String.eqb s "stdin" then Ok [("$ref", JStr "#/definitions/File")]
          else if smem s ["File"; "Directory"; "Any"] then Ok [("$ref", JStr ("#/definitions/" ++ s))]
          else if is_uri s
          then Ok [("$ref", JStr ("#/definitions/" ++ to_pascal_case (get_value_from_uri s)))]
          else Err ValueError
      end
  | XArrayObj items =>
      do d <- generate_type_dict_from_type items;
      Ok [("type", JStr "array"); ("items", JDict d)]
  | XEnumObj symbols =>
      Ok [("type", JStr "string"); ("enum", JList (map (fun s => JStr (get_value_from_uri s)) symbols))]
  | XRecordObj _ None => Ok [("type", JStr "object")]
  | XRecordObj _ (Some fields) =>
      do props <- (fix go (l : list (string * texp)) (acc : dict) : result dict :=
                     match l with
                     | [] => Ok acc
                     | (n, t) :: l' =>
                         do d <- generate_type_dict_from_type t;
                         go l' (dset (get_value_from_uri n) (JDict d) acc)
                     end) fields [];
      Ok [("type", JStr "object"); ("properties", JDict props)]
  | XImport uri => Ok [("$ref", JStr ("#/definitions/" ++ to_pascal_case (get_value_from_uri uri)))]
  | XEnum _ | XArray _ | XRecord _ | XField _ => Err ValueError
  | XList l =>
      do l' <- (fix go (l : list texp) : result (list json) :=
                  match l with
                  | [] => Ok []
                  | t :: l' =>
                      do d <- generate_type_dict_from_type t;
                      do l'' <- go l';
                      Ok (JDict d :: l'')
                  end) l;
      Ok [("oneOf", JList l')]
  end.

(** a JSONSchemaProperty object: name, type_dict, required *)
Record property := { p_name : string; p_type_dict : dict; p_required : bool }.

(** [if len(l) == 1: l = l[0]] after removing "null" *)
Definition squeeze (l : list texp) : texp :=
  match filter (fun x => negb (is_null_name x)) l with
  | [t] => t
  | l' => XList l'
  end.

(** inputs_schema_gen.py:73-110, 214-226: construction of a JSONSchemaProperty.
    [generate_type_dict_from_type_list] is [generate_type_dict_from_type] on a list. *)
Definition make_property (name : string) (type_ : texp) (description : json) (required : bool)
  : result property :=
  let '(type_, required) :=
    match type_ with
    | XList l => if existsb is_null_name l then (squeeze l, false) else (type_, required)
    | _ => (type_, required)
    end in
  do d <- generate_type_dict_from_type type_;
  Ok {| p_name := name; p_type_dict := dset "description" description d; p_required := required |}.

(** an input parameter of a process; a [default] of None/null means no default *)
Record input_parameter := {
  in_id : string; in_type : texp; in_default : json; in_doc : json }.

(** inputs_schema_gen.py:233-249 *)
Definition get_is_required_from_input_parameter (i : input_parameter) : bool :=
  match in_type i with
  | XStr s => if endswith "?" s then false else
      match in_default i with JNull => true | _ => false end
  | XList l =>
      match in_default i with
      | JNull => if existsb is_null_name l then false else true
      | _ => false
      end
  | XRecordObj type_ _ =>
      match in_default i with
      | JNull => if endswith "?" type_ then false else true
      | _ => false
      end
  | _ => match in_default i with JNull => true | _ => false end
  end.

(** inputs_schema_gen.py:252-270 *)
Definition generate_json_schema_property_from_input_parameter (i : input_parameter)
  : result property :=
  make_property (get_value_from_uri (in_id i)) (in_type i)
    (match in_doc i with JNull => JStr "" | d => d end)
    (get_is_required_from_input_parameter i).

(** a record schema of the loading index or of a SchemaDefRequirement; other kinds of
    schema have no [fields] attribute *)
Inductive type_schema :=
| RecordSchema (name : string) (fields : option (list (string * texp)))
| OtherSchema.

(** inputs_schema_gen.py:307-327: property of a sanitised field *)
Definition field_property (kv : string * texp) : result property :=
  let (name, t) := kv in
  let '(t, required) :=
    match t with
    | XList l => (squeeze l, negb (existsb is_null_name l))
    | _ => (t, true)
    end in
  make_property name t (JStr "") required.

(** inputs_schema_gen.py:273-336 *)
Definition generate_definition_from_schema (schema : type_schema) : result dict :=
  match schema with
  | OtherSchema => Err AttributeError
  | RecordSchema _ None => Ok []
  | RecordSchema name (Some fields) =>
      do sanitised <- foldM (fun acc f => do t <- sanitise_type (snd f);
                                          Ok (dset (get_value_from_uri (fst f)) t acc)) fields [];
      do properties <- mapM field_property sanitised;
      Ok [(to_pascal_case (get_value_from_uri name),
           JDict [ ("type", JStr "object");
                   ("properties", JDict (dupdate [] (map (fun p => (p_name p, JDict (p_type_dict p))) properties)));
                   ("required", JList (map (fun p => JStr (p_name p)) (filter p_required properties))) ])]
  end.

(** ** definitions in use *)

(** inputs_schema_gen.py:465-481 *)
Fixpoint recursive_search (target_key : string) (json_data : json) : list json :=
  match json_data with
  | JDict d =>
      (fix go (d : dict) : list json :=
         match d with
         | [] => []
         | (key, value) :: d' =>
             if String.eqb key target_key then value :: go d'
             else recursive_search target_key value ++ go d'
         end) d
  | JList l =>
      (fix go (l : list json) : list json :=
         match l with
         | [] => []
         | item :: l' => recursive_search target_key item ++ go l'
         end) l
  | _ => []
  end.

(** [input_json_schema["definitions"]] *)
Definition get_definitions (schema : dict) : result dict :=
  match dget "definitions" schema with
  | Some (JDict defs) => Ok defs
  | Some _ => Err TypeError
  | None => Err KeyError
  end.

(** inputs_schema_gen.py:491-517; [existing] is the shared list
    existing_property_dependencies, which the recursive call returns as well, so
    that [extend] appends the list to itself. *)
Fixpoint get_property_dependencies (fuel : nat) (property : json) (schema : dict)
         (existing : list string) : result (list string) :=
  match fuel with
  | O => Err OutOfFuel
  | S fuel =>
      foldM (fun existing reference_attribute =>
               match reference_attribute with
               | JStr r =>
                   let reference_value := get_value_from_uri r in
                   if smem reference_value existing then Ok existing
                   else
                     let existing := existing ++ [reference_value] in
                     do defs <- get_definitions schema;
                     match dget reference_value defs with
                     | None => Err KeyError
                     | Some d =>
                         do existing <- get_property_dependencies fuel d schema existing;
                         Ok (existing ++ existing)
                     end
               | _ => Err AttributeError
               end)
            (recursive_search "$ref" property) existing
  end.

(** enough steps for inputs_schema_gen.py:491-517: each call but the last finds a new
    definition; SchemaProofs.v proves that it is enough *)
Definition dependencies_fuel (schema : dict) : nat :=
  match dget "definitions" schema with
  | Some (JDict defs) => List.length defs + 2
  | _ => 2
  end.

(** inputs_schema_gen.py:520-541; without "definitions", the final loop fails *)
Definition slim_definitions (schema : dict) : result dict :=
  do required <- get_property_dependencies (dependencies_fuel schema)
                   (match dget "properties" schema with Some p => p | None => JDict [] end) schema [];
  do defs <- get_definitions schema;
  Ok (dset "definitions" (JDict (filter (fun kv => smem (fst kv) required) defs)) schema).

(** ** the whole schema *)

(** inputs_schema_gen.py:339-462.  [template] is the bundled JSON template,
    [indexed] the record schemas of the loading index in its order, [schemadef] the
    types of the first SchemaDefRequirement, if any. *)
Definition cwl_to_jsonschema (template : dict) (indexed : list type_schema)
           (schemadef : option (list type_schema)) (inputs : list input_parameter) : result dict :=
  do ds1 <- mapM generate_definition_from_schema indexed;
  do ds2 <- mapM generate_definition_from_schema (match schemadef with Some l => l | None => [] end);
  let definitions := fold_left dupdate (ds1 ++ ds2) [] in
  do properties <- mapM generate_json_schema_property_from_input_parameter inputs;
  let schema :=
    dupdate template
      [ ("type", JStr "object");
        ("properties",
          JDict (dupdate [] (map (fun p => (p_name p,
             if p_required p then JDict (p_type_dict p)
             else JDict [("oneOf", JList [JDict [("type", JStr "null")]; JDict (p_type_dict p)])])) properties)));
        ("required", JList (map (fun p => JStr (p_name p)) (filter p_required properties))) ] in
  do defs <- get_definitions schema;
  slim_definitions (dset "definitions" (JDict (dupdate defs definitions)) schema).
