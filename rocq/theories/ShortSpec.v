(** * Specification for C86: objects that are written with short addresses and read again *)
From Verif Require Import PyBase ParserModel LoaderModel LoaderSpec SaveModel SaveSpec ShortModel.

Section Fitting.
Variables (urljoin : string -> string -> result string) (supported_schemes : list string) (check_exists : string -> result bool)
  (classes : string -> option class) (proxies : string -> option loader).
(** What is written for an address, given the address it stands in and the scope, and for the name of
    an extension field *)
Variables (short : string -> string -> scope -> string) (prefixed : string -> string).
(** The terms and prefixes of the document, and whether links are left unchecked *)
Variables (vocab rvocab : list (string * string)) (unchecked : bool).

(** ** Texts *)
(** The scope a loader reads references in; None for what is no reference *)
Definition scope_of (l : loader) : option scope := match l with LUri _ si _ sr _ => Some (si, sr) | _ => None end.
(** [t], read in the scope of [b], is the address [s] *)
Definition read_as (b : string) (h : scope) (vt : bool) (t s : string) : Prop :=
  forall o, LoaderModel.vocab o = vocab -> LoaderModel.rvocab o = rvocab -> expand_url urljoin supported_schemes t b o (fst h) vt (snd h) = Ok s.
(** An address that is written in [b] and read in [b'] *)
Definition restored (b b' : string) (h : scope) (vt : bool) (s : string) : Prop := read_as b' h vt (short s b h) s.

(** ** Identifiers in a list, as they are written *)
Definition written_id (b : string) (v : lv) : list string :=
  match v, entry "id" v with
  | VObj _ _ _, Some (VStr s) => [short s b (true, None)]
  | VMap _, Some (VStr s) => [s]
  | _, _ => []
  end.
Definition plain_id (v : lv) : Prop := match entry "id" v with None | Some VNull | Some (VStr _) => True | _ => False end.
Definition apart_at (b : string) (vs : list lv) : Prop := Forall plain_id vs /\ NoDup (flat_map (written_id b) vs).

(** ** Objects *)
(** The class is written as it is *)
Definition class_fits_at (b : string) (k : class) (kvs : list (string * lv)) : Prop :=
  class_fits supported_schemes check_exists vocab rvocab unchecked k kvs /\
  (c_class k <> None -> forall t, saved_class vocab rvocab (c_name k) = Ok t -> short t b (false, None) = t).
Definition extensions_fit_at (k : class) (ext : list (string * json)) : Prop :=
  NoDup (map fst ext) /\ NoDup (map (fun kv => prefixed (fst kv)) ext) /\
  Forall (fun kv => has_char ":" (prefixed (fst kv)) = true /\ ~ In (prefixed (fst kv)) (attrs k) /\ read_as "" (false, None) false (prefixed (fst kv)) (fst kv)) ext.

(** ** [FitsAt b b' l v]: [v], written in [b], is of the kind the loader [l] yields in [b'].
    [FieldFits]: the same for the value of a field, where addresses are written short. *)
Inductive FitsAt : string -> string -> loader -> lv -> Prop :=
| S_any b b' j : j <> JNull -> FitsAt b b' LAny (of_json j)
| S_prim b b' tp v : has_prim tp v = true -> FitsAt b b' (LPrim tp) v
| S_enum b b' ss s : In s ss -> FitsAt b b' (LEnum ss) (VStr s)
| S_expression b b' s : FitsAt b b' LExpression (VStr s)
| S_array b b' i vs : FitsAllAt b b' i vs -> Forall (fun v => is_seq v = false) vs -> apart_at b vs -> FitsAt b b' (LArray i) (VSeq vs)
| S_map b b' i c nl d : nl <> Some false -> FitsAllAt b b' i (map snd d) -> FitsAt b b' (LMap i c nl) (VMap d)
| S_record b b' cls c nl k kvs fs ext : classes cls = Some k -> nl <> Some false -> c_id k = None -> class_fits_at b k kvs -> FieldsFit b b' (c_fields k) fs -> extensions_fit_at k ext ->
    FitsAt b b' (LRecord cls c nl) (VObj (c_name k) (kvs ++ fs) ext)
(** what is in an object with an identifier is written and read in its scope *)
| S_identified b b' cls c nl k n req l s kvs fs ext : classes cls = Some k -> nl <> Some false -> c_id k = Some (n, req, l) -> FieldFits b b' l (VStr s) -> class_fits_at s k kvs ->
    FieldsFit s s (c_fields k) fs -> extensions_fit_at k ext -> FitsAt b b' (LRecord cls c nl) (VObj (c_name k) ((n, VStr s) :: kvs ++ fs) ext)
| S_union b b' pre a post v : (forall l, In l pre -> Refuses supported_schemes classes proxies vocab rvocab l v) -> FitsAt b b' a v -> FitsAt b b' (LUnion (pre ++ a :: post)) v
(** types are written in full *)
| S_type b b' i rs salad v : FitsAt b b' i v ->
    match v with
    | VStr s => Settled supported_schemes vocab rvocab true s /\ is_name s
    | VSeq vs => Forall (fun s => Settled supported_schemes vocab rvocab true s /\ is_name s) (texts vs) /\ NoDup (texts vs)
    | _ => True
    end -> FitsAt b b' (LTypeDSL i rs salad) v
| S_idmap b b' i s p v : is_map v = false -> FitsAt b b' i v -> FitsAt b b' (LIdMap i s p) v
| S_secondary b b' vs : Forall pattern_object vs -> FitsAllAt b b' patterns vs -> FitsAt b b' (LSecondary (LUnion [LPrim PNull; patterns; LArray patterns])) (VSeq vs)
| S_proxy b b' n l v : proxies n = Some l -> FitsAt b b' l v -> FitsAt b b' (LProxy n) v
with FieldFits : string -> string -> loader -> lv -> Prop :=
(** references are written short *)
| W_uri b b' i si vt sr nl v : nl <> Some false -> FitsAt b b' i v ->
    match v with
    | VStr s => restored b b' (si, sr) vt s /\ linked check_exists unchecked nl s
    | VSeq vs => Forall (fun v => is_seq v = false) vs /\ Forall (restored b b' (si, sr) vt) (texts vs)
    | _ => True
    end -> FieldFits b b' (LUri i si vt sr nl) v
| W_other b b' l v : FitsAt b b' l v -> FieldFits b b' l v
with FitsAllAt : string -> string -> loader -> list lv -> Prop :=
| L_nil b b' i : FitsAllAt b b' i []
| L_cons b b' i v vs : FitsAt b b' i v -> FitsAllAt b b' i vs -> FitsAllAt b b' i (v :: vs)
with FieldsFit : string -> string -> list field -> list (string * lv) -> Prop :=
| E_nil b b' : FieldsFit b b' [] []
| E_null b b' f fs kvs : f_required f = false -> FieldsFit b b' fs kvs -> FieldsFit b b' (f :: fs) ((f_name f, VNull) :: kvs)
(** the process a step runs is read in a scope of its own *)
| E_value b b' f fs v kvs : v <> VNull -> FieldFits b (if f_subscope f then inside b' "run" else b') (f_loader f) v -> FieldsFit b b' fs kvs -> FieldsFit b b' (f :: fs) ((f_name f, v) :: kvs).
End Fitting.
