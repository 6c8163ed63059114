(** * Specification for C74: objects whose saved form says all about them *)
From Verif Require Import PyBase ParserModel LoaderModel LoaderSpec.

Section Fitting.
Variables (supported_schemes : list string) (check_exists : string -> result bool) (classes : string -> option class) (proxies : string -> option loader).
(** The terms and prefixes of the document, whether links are left unchecked, and whether there may
    be objects with blank names, that were loaded without a name *)
Variables (vocab rvocab : list (string * string)) (unchecked blanks : bool).

(** ** Texts *)
(** An address in full, not one with a prefix of the document *)
Definition full_address (s : string) : Prop :=
  s_scheme (urlsplit s) <> "" /\ smem (s_scheme (urlsplit s)) supported_schemes = true /\ dget (before ":" s) vocab = None.
(** A text that stands for itself where terms are expected ([term]) or not: a term, an address in
    full for which there is no term, or an expression *)
Inductive Settled (term : bool) (s : string) : Prop :=
| Settled_term : term = true -> dmem s vocab = true -> Settled term s
| Settled_address : full_address s -> (term = true -> dget s rvocab = None) -> Settled term s
| Settled_expression : term = false -> startswith "$(" s || startswith "${" s = true -> dget (before ":" s) vocab = None -> Settled term s.
(** What a reference refers to is there, or not looked for *)
Definition linked (no_link_check : option bool) (s : string) : Prop :=
  no_link_check = Some true \/ no_link_check = None /\ unchecked = true \/ check_exists s = Ok true \/ check_exists s = Err ValidationException.
(** A term for a class; if its namespace has a prefix, that prefix stands for the namespace *)
Definition class_named (c : string) : Prop :=
  exists uri, dget c vocab = Some uri /\
    match dget (sdrop_last (String.length c) uri) rvocab with
    | None => True
    | Some p => p = "" \/
        has_char ":" p = false /\ dget p vocab = Some (sdrop_last (String.length c) uri) /\ uri = (sdrop_last (String.length c) uri ++ c)%string /\
        dmem (p ++ ":" ++ c)%string vocab = false /\ s_scheme (urlsplit uri) <> "" /\ smem (s_scheme (urlsplit uri)) supported_schemes = true /\ dget uri rvocab = Some c
    end.

(** A blank name, and the address of a name in the scope of another *)
Definition blank_name (s : string) : Prop := startswith "_:" s = true /\ has_char "#" s = false /\ dget "_" vocab = None.
Definition inside (b x : string) : string :=
  urlunsplit (SplitUrl (s_scheme (urlsplit b)) (s_netloc (urlsplit b)) (if String.eqb (s_path (urlsplit b)) "" then "/" else s_path (urlsplit b)) (s_query (urlsplit b))
    (if String.eqb (s_fragment (urlsplit b)) "" then x else (s_fragment (urlsplit b) ++ "/" ++ x)%string)).
(** If there are blank names: what is in the scope of an address is there, or not looked for *)
Definition home (b : string) : Prop := blanks = true -> forall x xs, linked None (fold_left inside xs (inside b x)).

(** ** Values *)
Definition has_prim (tp : prim) (v : lv) : bool :=
  match tp, v with PNull, VNull | PBool, VBool _ | PInt, VInt _ | PInt, VBool _ | PFloat, VFloat _ | PStr, VStr _ => true | _, _ => false end.
Definition is_map (v : lv) : bool := match v with VMap _ | VObj _ _ _ => true | _ => false end.
Definition is_seq (v : lv) : bool := match v with VSeq _ => true | _ => false end.
Definition is_text (v : lv) : bool := match v with VStr _ => true | _ => false end.
(** The value under a key of a mapping, or of a field of an object *)
Definition entry (x : string) (v : lv) : option lv := match v with VMap d => dget x d | VObj _ fs _ => dget x fs | _ => None end.
Definition no_entry (x : string) (v : lv) : Prop :=
  (entry x v = None \/ entry x v = Some VNull) /\ match v with VObj _ _ ext => dget x ext = None | _ => True end.
(** The identifiers of the elements of a list *)
Definition id_of (v : lv) : list lv := match entry "id" v with None | Some VNull => [] | Some i => [i] end.
Definition apart (vs : list lv) : Prop := exists ts, flat_map id_of vs = map VStr ts /\ NoDup ts.
Definition texts (vs : list lv) : list string := flat_map (fun v => match v with VStr s => [s] | _ => [] end) vs.

(** ** [Refuses l v]: seen from outside, a value [v] is not what the loader [l] is for *)
Inductive Refuses : loader -> lv -> Prop :=
| N_any : Refuses LAny VNull
| N_prim tp v : has_prim tp v = false -> Refuses (LPrim tp) v
| N_enum ss v : (forall s, v = VStr s -> ~ In s ss) -> Refuses (LEnum ss) v
| N_expression v : is_text v = false -> Refuses LExpression v
| N_array i v : is_seq v = false -> Refuses (LArray i) v
| N_map i c nl v : is_map v = false -> Refuses (LMap i c nl) v
| N_record cls c nl v : is_map v = false -> Refuses (LRecord cls c nl) v
(** no class, or another *)
| N_no_class cls c nl k v : classes cls = Some k -> c_class k <> None -> no_entry "class" v -> Refuses (LRecord cls c nl) v
| N_class cls c nl k v t : classes cls = Some k -> c_class k <> None -> entry "class" v = Some (VStr t) -> class_named t -> t <> c_name k -> dget (c_name k) vocab <> Some t -> Refuses (LRecord cls c nl) v
(** an unknown field *)
| N_unknown cls c nl k v x w : classes cls = Some k -> entry x v = Some w -> w <> VNull -> ~ In x (attrs k) -> has_char ":" x = false -> Refuses (LRecord cls c nl) v
(** a field that is missing *)
| N_missing cls c nl k v f : classes cls = Some k -> In f (c_fields k) -> f_required f = true -> no_entry (f_name f) v -> Refuses (LRecord cls c nl) v
(** another kind of type *)
| N_type cls c nl k v f ss rs salad t : classes cls = Some k -> In f (c_fields k) -> f_loader f = LTypeDSL (LEnum ss) rs salad ->
    entry (f_name f) v = Some (VStr t) -> Settled true t -> is_name t -> ~ In t ss -> Refuses (LRecord cls c nl) v
| N_union ls v : (forall l, In l ls -> Refuses l v) -> Refuses (LUnion ls) v
| N_proxy n l v : proxies n = Some l -> Refuses l v -> Refuses (LProxy n) v
| N_secondary i v : is_map v = false -> is_seq v = false -> is_text v = false -> Refuses (LSecondary i) v
(** one without a pattern *)
| N_patterns i vs c fs ext : In (VObj c fs ext) vs -> no_entry "pattern" (VObj c fs ext) -> Refuses (LSecondary i) (VSeq vs).

(** ** [Fits l v]: [v] is a value of the kind the loader [l] yields, with texts that stand for
    themselves *)
Definition pattern_object (v : lv) : Prop := exists p r, v = VObj "SecondaryFileSchema" [("pattern", p); ("required", r)] [].
Definition patterns : loader := LRecord "SecondaryFileSchema" None None.
Definition class_fits (k : class) (kvs : list (string * lv)) : Prop :=
  match c_class k with
  | None => kvs = []
  | Some l => kvs = [("class", VStr (c_name k))] /\ class_named (c_name k) /\ match l with LUri _ _ _ _ nl => linked nl (c_name k) | _ => False end
  end.
Definition extensions_fit (k : class) (ext : list (string * json)) : Prop :=
  NoDup (map fst ext) /\ Forall (fun kv => full_address (fst kv) /\ ~ In (fst kv) (attrs k)) ext.
Inductive Fits : loader -> lv -> Prop :=
| F_any j : j <> JNull -> Fits LAny (of_json j)
| F_prim tp v : has_prim tp v = true -> Fits (LPrim tp) v
| F_enum ss s : In s ss -> Fits (LEnum ss) (VStr s)
| F_expression s : Fits LExpression (VStr s)
(** a list: no list in it, and identifiers that differ *)
| F_array i vs : FitAll i vs -> Forall (fun v => is_seq v = false) vs -> apart vs -> Fits (LArray i) (VSeq vs)
| F_map i c nl d : nl <> Some false -> FitAll i (map snd d) -> Fits (LMap i c nl) (VMap d)
(** an object: an address as its identifier *)
| F_record cls c nl k kvs fs ext : classes cls = Some k -> nl <> Some false -> c_id k = None -> class_fits k kvs -> FitFields (c_fields k) fs -> extensions_fit k ext ->
    Fits (LRecord cls c nl) (VObj (c_name k) (kvs ++ fs) ext)
| F_identified cls c nl k n req l s kvs fs ext : classes cls = Some k -> nl <> Some false -> c_id k = Some (n, req, l) -> Fits l (VStr s) -> home s -> class_fits k kvs ->
    FitFields (c_fields k) fs -> extensions_fit k ext -> Fits (LRecord cls c nl) (VObj (c_name k) ((n, VStr s) :: kvs ++ fs) ext)
(** or a blank name *)
| F_blank cls c nl k n req i sr nl' s kvs fs ext : classes cls = Some k -> nl <> Some false -> c_id k = Some (n, req, LUri i true false sr nl') -> nl' <> Some false ->
    blanks = true -> blank_name s -> i = LPrim PStr \/ i = LUnion [LPrim PNull; LPrim PStr] -> class_fits k kvs ->
    FitFields (c_fields k) fs -> extensions_fit k ext -> Fits (LRecord cls c nl) (VObj (c_name k) ((n, VStr s) :: kvs ++ fs) ext)
(** one of several kinds, and none of those before *)
| F_union pre a post v : (forall l, In l pre -> Refuses l v) -> Fits a v -> Fits (LUnion (pre ++ a :: post)) v
(** a reference *)
| F_uri i si vt sr nl v : nl <> Some false -> Fits i v ->
    match v with VStr s => Settled vt s /\ linked nl s | VSeq vs => Forall (Settled vt) (texts vs) | _ => True end -> Fits (LUri i si vt sr nl) v
(** a type *)
| F_type i rs salad v : Fits i v ->
    match v with
    | VStr s => Settled true s /\ is_name s
    | VSeq vs => Forall (fun s => Settled true s /\ is_name s) (texts vs) /\ NoDup (texts vs)
    | _ => True
    end -> Fits (LTypeDSL i rs salad) v
(** a list where a mapping is allowed *)
| F_idmap i s p v : is_map v = false -> Fits i v -> Fits (LIdMap i s p) v
(** secondary files: patterns *)
| F_secondary vs : Forall pattern_object vs -> FitAll patterns vs -> Fits (LSecondary (LUnion [LPrim PNull; patterns; LArray patterns])) (VSeq vs)
| F_proxy n l v : proxies n = Some l -> Fits l v -> Fits (LProxy n) v
with FitAll : loader -> list lv -> Prop :=
| A_nil i : FitAll i []
| A_cons i v vs : Fits i v -> FitAll i vs -> FitAll i (v :: vs)
with FitFields : list field -> list (string * lv) -> Prop :=
| D_nil : FitFields [] []
| D_null f fs kvs : f_required f = false -> FitFields fs kvs -> FitFields (f :: fs) ((f_name f, VNull) :: kvs)
| D_value f fs v kvs : v <> VNull -> Fits (f_loader f) v -> FitFields fs kvs -> FitFields (f :: fs) ((f_name f, v) :: kvs).

(** ** [Renamed v w]: [w] is [v] with other names for objects with blank names *)
Inductive Renamed : lv -> lv -> Prop :=
| Same v : Renamed v v
| Renamed_list vs ws : Forall2 Renamed vs ws -> Renamed (VSeq vs) (VSeq ws)
| Renamed_map d e : Forall2 (fun kv kw => fst kw = fst kv /\ Renamed (snd kv) (snd kw)) d e -> Renamed (VMap d) (VMap e)
| Renamed_object cls k fs gs ext : classes cls = Some k ->
    Forall2 (fun kv kw => fst kw = fst kv /\
      (Renamed (snd kv) (snd kw) \/
       blanks = true /\ (exists req l, c_id k = Some (fst kv, req, l)) /\ exists s b, blank_name s /\ snd kv = VStr s /\ snd kw = VStr (inside b (s_path (urlsplit s))))) fs gs ->
    Renamed (VObj (c_name k) fs ext) (VObj (c_name k) gs ext).
End Fitting.
