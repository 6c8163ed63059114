(** * Specification for C36-C39, C54-C56: shorthands, unions, arrays, identifiers, objects *)
From Verif Require Import PyBase ParserModel LoaderModel.

(** ** Type shorthands *)
Section Types.
(** What a type name means: a name of the document or the vocabulary *)
Variable Means : string -> string -> Prop.
Definition array_of (items : json) : json := JDict [("type", JStr "array"); ("items", items)].
Definition optional (t : json) : json := JList [JStr "null"; t].
Definition is_name (s : string) : Prop := endswith "[]" s = false /\ endswith "?" s = false.

(** The rules for CWL v1.0 to v1.2: at most one [[]], then at most one "?" *)
Inductive Short : string -> json -> Prop :=
| Short_name s t : is_name s -> Means s t -> Short s (JStr t)
| Short_optional s t : is_name s -> Means s t -> Short (s ++ "?") (optional (JStr t))
| Short_array s t : is_name s -> Means s t -> Short (s ++ "[]") (array_of (JStr t))
| Short_optional_array s t : is_name s -> Means s t -> Short (s ++ "[]?") (optional (array_of (JStr t))).

(** The later rules: the two suffixes in any order and number, but "??" *)
Inductive Nested : string -> json -> Prop :=
| Nested_name s t : is_name s -> Means s t -> Nested s (JStr t)
| Nested_optional s t : is_name s -> Means s t -> Nested (s ++ "?") (optional (JStr t))
| Nested_array s t : Nested s t -> Nested (s ++ "[]") (array_of t)
| Nested_optional_array s t : Nested s t -> Nested (s ++ "[]?") (optional (array_of t)).
End Types.

(** ** secondaryFiles *)
Inductive Secondary : json -> json -> Prop :=
| Secondary_optional p : Secondary (JStr (p ++ "?")) (JDict [("pattern", JStr p); ("required", JBool false)])
| Secondary_required p : (forall q, p <> (q ++ "?")%string) -> Secondary (JStr p) (JDict [("pattern", JStr p)])
| Secondary_mapping d p r : dget "pattern" d = Some p -> (forall k, In k (dkeys d) -> k = "pattern" \/ k = "required") ->
    dget "required" d = Some r \/ dget "required" d = None /\ r = JNull ->
    Secondary (JDict d) (JDict [("pattern", p); ("required", r)]).

(** ** Identifier maps: [Entry subject predicate k body e]: the list element [e] is what the key
    [k] with the given body stands for *)
Inductive Entry (subject : string) (predicate : option string) (k : string) : json -> json -> Prop :=
| Entry_mapping d : Entry subject predicate k (JDict d) (JDict (dset subject (JStr k) d))
| Entry_value p v : predicate = Some p -> p <> "" -> p <> subject -> (forall d, v <> JDict d) ->
    Entry subject predicate k v (JDict [(p, v); (subject, JStr k)]).

(** ** Arrays *)
Definition element (v : lv) : list lv := match v with VSeq l => l | _ => [v] end.
(** The identifiers of the elements that are mappings with one *)
Definition ids (ds : list json) : list json :=
  flat_map (fun d => match d with JDict e => match dget "id" e with Some JNull | None => [] | Some i => [i] end | _ => [] end) ds.

(** ** Identifiers: an absolute base without fragment *)
Definition clean_char (c : ascii) : bool := (32 <? nat_of_ascii c) && negb (smem (String c "") ["?"; "#"; ":"]).
(** [p] is a path: "/" and any text without control characters, blanks, ? # and colon *)
Definition clean (p : string) : Prop := sforall clean_char p = true.
Definition file_base (p : string) : string := ("file:///" ++ p)%string.

(** ** Objects *)
Section Objects.
(** [FieldLoads j l base r]: loading the value [j] of a field; [Scoped name base b]: [b] is the
    scope [name] within [base]; [Expands k k']: the name of an extension field in full *)
Variable FieldLoads : json -> loader -> string -> result lv -> Prop.
Variable Scoped : string -> string -> string -> Prop.
Variable Expands : string -> string -> Prop.
Variable blank : string.

(** The identifier, and the base of the rest: the given one, else the root's, else a blank node *)
Inductive Identity (k : class) (d : list (string * json)) (base : string) (root : option string) : list (string * lv) -> string -> Prop :=
| Identity_none : c_id k = None -> Identity k d base root [] base
| Identity_given n req l j s : c_id k = Some (n, req, l) -> dget n d = Some j -> FieldLoads j l base (Ok (VStr s)) ->
    Identity k d base root [(n, VStr s)] s
| Identity_root n req l r : c_id k = Some (n, req, l) -> (dget n d = None \/ exists j, dget n d = Some j /\ FieldLoads j l base (Ok VNull)) ->
    root = Some r -> Identity k d base root [(n, VStr r)] base
| Identity_blank n l : c_id k = Some (n, false, l) -> (dget n d = None \/ exists j, dget n d = Some j /\ FieldLoads j l base (Ok VNull)) ->
    root = None -> Identity k d base root [(n, VStr ("_:" ++ blank))] base.

(** The class field names the class *)
Inductive Classed (k : class) (names : list (string * string)) (d : list (string * json)) (base : string) : list (string * lv) -> Prop :=
| Classed_none : c_class k = None -> Classed k names d base []
| Classed_by l j s : c_class k = Some l -> dget "class" d = Some j -> j <> JNull -> FieldLoads j l base (Ok (VStr s)) ->
    s = c_name k \/ dget (c_name k) names = Some s -> Classed k names d base [("class", VStr (c_name k))].

(** A field: absent and optional, or there and loaded *)
Definition ScopeOf (f : field) (base b : string) : Prop := if f_subscope f then Scoped (f_name f) base b else b = base.
Inductive FieldValue (d : list (string * json)) (base : string) (f : field) : lv -> Prop :=
| Field_absent b : ScopeOf f base b -> dget (f_name f) d = None -> f_required f = false -> FieldValue d base f VNull
| Field_present b j v : ScopeOf f base b -> dget (f_name f) d = Some j -> (f_required f = true -> j <> JNull) ->
    FieldLoads j (f_loader f) b (Ok v) -> FieldValue d base f v.

(** The other keys: only names with a colon, kept under their full names *)
Definition others (k : class) (d : list (string * json)) : list (string * json) := filter (fun kv => negb (smem (fst kv) (attrs k))) d.
Definition Extension (kv kv' : string * json) : Prop := has_char ":" (fst kv) = true /\ Expands (fst kv) (fst kv') /\ snd kv' = snd kv.

Definition Object (k : class) (names : list (string * string)) (d : list (string * json)) (base : string) (root : option string) (v : lv) : Prop :=
  exists i b c fs ext,
    Identity k d base root i b /\ Classed k names d b c /\
    Forall2 (fun f kv => fst kv = f_name f /\ FieldValue d b f (snd kv)) (c_fields k) fs /\
    Forall2 Extension (others k d) ext /\
    v = VObj (c_name k) (i ++ c ++ fs) (dupdate [] ext).
End Objects.

(** ** What loading yields, whatever the fuel *)
Section Loading.
Variables (urljoin : string -> string -> result string) (supported_schemes : list string) (check_exists : string -> result bool)
  (fetch_text : string -> result string) (read_yaml : string -> result json) (uuid : json -> string)
  (classes : string -> option class) (proxies : string -> option loader).
(** [Loads l d base o root r]: the loader [l] given the document [d] yields [r] *)
Definition Loads (l : loader) (d : json) (base : string) (o : options) (root : option string) (r : result lv) : Prop :=
  r <> Err OutOfFuel /\ exists fuel, load urljoin supported_schemes check_exists fetch_text read_yaml uuid classes proxies fuel l d base o root = r.
(** The same for the value of a field or the element of an array, where $import and $include are followed *)
Definition LoadsField (o : options) (d : json) (l : loader) (base : string) (r : result lv) : Prop :=
  r <> Err OutOfFuel /\ exists fuel,
    load_field urljoin fetch_text read_yaml
      (load urljoin supported_schemes check_exists fetch_text read_yaml uuid classes proxies fuel)
      (document_load urljoin supported_schemes check_exists fetch_text read_yaml uuid classes proxies fuel) d l base o = r.
(** The meaning of a name: a reference relative to [base] ([refs] levels up), or a term of the vocabulary *)
Definition Means (base : string) (o : options) (refs : option nat) (s t : string) : Prop :=
  expand_url urljoin supported_schemes s base o false true refs = Ok t.
Definition Scoped (o : options) (name base b : string) : Prop := expand_url urljoin supported_schemes name base o true false None = Ok b.
Definition Expands (o : options) (k k' : string) : Prop := expand_url urljoin supported_schemes k "" o false false None = Ok k'.
End Loading.

(** Types in a list: the alternatives of each *)
Definition members (t : json) : list json := match t with JList l => l | _ => [t] end.
(** Each differs from those before it *)
Inductive Distinct : list json -> Prop :=
| Distinct_nil : Distinct []
| Distinct_snoc l x : Distinct l -> (forall y, In y l -> py_eqb x y = false) -> Distinct (l ++ [x]).
(** The value of secondaryFiles as a list *)
Definition as_list (d : json) : list json := match d with JList l => l | _ => [d] end.
(** A name with nothing special in it *)
Definition name (s : string) : Prop :=
  s <> "" /\ clean s /\ startswith "//" s = false /\ startswith "$(" s = false /\ startswith "${" s = false /\ s <> "@id" /\ s <> "@type".
(** The array of the elements: those that are arrays are spliced in, where [flatten] *)
Definition flat (flatten : bool) (vs : list lv) : list lv := if flatten then List.concat (map element vs) else vs.
(** The values a field of a type may have *)
Inductive HasType : prim -> json -> Prop :=
| HasType_null : HasType PNull JNull
| HasType_bool b : HasType PBool (JBool b)
| HasType_int z : HasType PInt (JInt z)
| HasType_float s : HasType PFloat (JFloat s)
| HasType_str s : HasType PStr (JStr s).
