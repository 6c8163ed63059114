(** * C36-C39, C54-C56: what the loaders of cwl_v1_0.py, cwl_v1_1.py and cwl_v1_2.py make of documents *)
From Verif Require Import PyBase PyBaseProofs ParserModel LoaderModel LoaderProofs ShorthandProofs LoaderSpec.
From Coq Require Import Lia.

Section Props.
(** The fetcher, the YAML reader, the classes and the named loaders: any *)
Variables (urljoin : string -> string -> result string) (supported_schemes : list string) (check_exists : string -> result bool)
  (fetch_text : string -> result string) (read_yaml : string -> result json) (uuid : json -> string)
  (classes : string -> option class) (proxies : string -> option loader).
Notation Loads := (Loads urljoin supported_schemes check_exists fetch_text read_yaml uuid classes proxies).
Notation LoadsField := (LoadsField urljoin supported_schemes check_exists fetch_text read_yaml uuid classes proxies).
Notation Means := (Means urljoin supported_schemes).
Notation Scoped := (Scoped urljoin supported_schemes).
Notation Expands := (Expands urljoin supported_schemes).
Notation expand_url := (expand_url urljoin supported_schemes).

(** Loading has at most one result *)
Theorem C39_deterministic l d b o root r r' : Loads l d b o root r -> Loads l d b o root r' -> r = r'.
Proof. exact (Loads_det _ _ _ _ _ _ _ _ l d b o root r r'). Qed.

(** ** C36: a type shorthand is loaded as what it stands for *)
Theorem C36_type_shorthand_partial inner refs s t b o root r : Short (Means b o refs) s t ->
  (Loads (LTypeDSL inner refs "v1.1") (JStr s) b o root r <-> Loads inner t b o None r).
Proof.
  intros H. etransitivity; [exact (type_dsl_via _ _ _ _ _ _ _ _ inner refs "v1.1" (JStr s) b o root r)|].
  assert (E : resolved urljoin supported_schemes b o refs "v1.1" (JStr s) = Ok t).
  { unfold resolved, type_dsl. rewrite salad_1_1.
    match goal with |- context [if ?c then Ok true else Ok true] => replace (if c then Ok true else Ok true) with (@Ok bool true) by (destruct c; auto) end. cbn [bind].
    apply resolve_short. exact H. }
  rewrite E. reflexivity.
Qed.
(** In a list of shorthands each stands for its alternatives, and repeated alternatives are dropped *)
Theorem C36_type_list_partial inner refs ss ts b o root : Forall2 (Short (Means b o refs)) ss ts ->
  exists out, Distinct out /\ (forall x, In x out -> In x (flat_map members ts)) /\
    (forall x, In x (flat_map members ts) -> exists y, In y out /\ (x = y \/ py_eqb x y = true)) /\
    forall r, Loads (LTypeDSL inner refs "v1.1") (JList (map JStr ss)) b o root r <-> Loads inner (JList out) b o None r.
Proof.
  intros F. exists (fold_left add_new (flat_map members ts) []). destruct (add_all (flat_map members ts) []) as (D & (s & S & I) & C).
  split; [apply D; constructor|]. split; [intros x X; rewrite S in X; apply I; exact X|]. split; [exact C|]. intros r.
  etransitivity; [exact (type_dsl_via _ _ _ _ _ _ _ _ inner refs "v1.1" (JList (map JStr ss)) b o root r)|].
  assert (E : resolved urljoin supported_schemes b o refs "v1.1" (JList (map JStr ss)) = Ok (JList (fold_left add_new (flat_map members ts) []))).
  { unfold resolved, type_dsl. rewrite (resolve_texts_ok _ ss ts); [auto|]. eapply F2_impl; [|exact F]. intros x t H. rewrite salad_1_1.
    match goal with |- context [if ?c then Ok true else Ok true] => replace (if c then Ok true else Ok true) with (@Ok bool true) by (destruct c; auto) end. cbn [bind].
    apply resolve_short. exact H. }
  rewrite E. reflexivity.
Qed.
(** A document that is no text and no list is loaded as it is *)
Theorem C36_type_in_full inner refs v d b o root r :
  (Loads (LTypeDSL inner refs v) (JDict d) b o root r <-> Loads inner (JDict d) b o None r).
Proof. exact (type_dsl_via _ _ _ _ _ _ _ _ inner refs v (JDict d) b o root r). Qed.
(** The later rules, for nested shorthands, when names in full stand for themselves *)
Theorem C36_later_rules inner refs v s t b o root r : salad_before_1_3 v = Ok false ->
  (forall x y, Means b o refs x y -> Means b o refs y y) -> Nested (Means b o refs) s t ->
  (Loads (LTypeDSL inner refs v) (JStr s) b o root r <-> Loads inner t b o None r).
Proof.
  intros V I H. etransitivity; [exact (type_dsl_via _ _ _ _ _ _ _ _ inner refs v (JStr s) b o root r)|].
  assert (E : resolved urljoin supported_schemes b o refs v (JStr s) = Ok t).
  { unfold resolved, type_dsl. rewrite V. destruct (endswith "[]" (if endswith "?" s then sdrop_last 1 s else s)) eqn:A; cbn [bind].
    - apply (resolve_nested (fun u => expand_url u b o false true refs) I s t H). lia.
    - assert (S : Short (Means b o refs) s t).
      { destruct H as [s t N M|s t N M|s t H|s t H]; [apply Short_name; auto|apply Short_optional; auto| |]; exfalso.
        - rewrite ends_opt_array, endswith_app in A. discriminate.
        - rewrite split_opt, endswith_app, drop1, endswith_app in A. discriminate. }
      apply resolve_short. exact S. }
  rewrite E. reflexivity.
Qed.
(** Finding: a nested array shorthand is neither expanded nor rejected.  Where a type may be a
    text, as in every CWL version here, it is kept as that text. *)
Theorem C36_nested_refuted alts refs b o root s : In (LPrim PStr) alts ->
  (forall pre post, alts = pre ++ LPrim PStr :: post -> Forall (fun t => Loads t (JStr (s ++ "[][]")) b o None (Err ValidationException)) pre) ->
  Loads (LTypeDSL (LUnion alts) refs "v1.1") (JStr (s ++ "[][]")) b o root (Ok (VStr (s ++ "[][]"))).
Proof.
  intros I P. apply in_split in I. destruct I as (pre & post & ->). specialize (P pre post eq_refl).
  assert (E : resolved urljoin supported_schemes b o refs "v1.1" (JStr (s ++ "[][]")) = Ok (JStr (s ++ "[][]"))).
  { unfold resolved, type_dsl. rewrite salad_1_1.
    match goal with |- context [if ?c then Ok true else Ok true] => replace (if c then Ok true else Ok true) with (@Ok bool true) by (destruct c; auto) end. cbn [bind].
    apply resolve_nested_old. }
  apply (proj2 (type_dsl_via _ _ _ _ _ _ _ _ _ refs "v1.1" (JStr (s ++ "[][]")) b o root _)). rewrite E.
  apply (proj2 (union_ok _ _ _ _ _ _ _ _ _ _ _ _ _ _)). exists pre, (LPrim PStr), post. split; [auto|]. split; [exact P|]. split; [discriminate|]. exists 1. reflexivity.
Qed.

(** Whatever the text: it is a shorthand, or one of the two kinds of text of the findings *)
Theorem C36_any_text_partial inner refs s b o root v : Loads (LTypeDSL inner refs "v1.1") (JStr s) b o root (Ok v) ->
  exists t, Loads inner t b o None (Ok v) /\
    (Short (Means b o refs) s t \/
     (exists r, (s = r ++ "[][]" \/ s = r ++ "[][]?")%string /\ t = JStr s) \/
     (exists r x, (endswith "?" r = true /\ Means b o refs r x) /\
       ((s = r ++ "?")%string /\ t = optional (JStr x) \/ (s = r ++ "[]")%string /\ t = array_of (JStr x) \/ (s = r ++ "[]?")%string /\ t = optional (array_of (JStr x))))).
Proof.
  intros L. apply (proj1 (type_dsl_via _ _ _ _ _ _ _ _ inner refs "v1.1" (JStr s) b o root (Ok v))) in L.
  destruct (resolved urljoin supported_schemes b o refs "v1.1" (JStr s)) as [t|e] eqn:E; [|destruct L; discriminate]. exists t. split; [exact L|].
  unfold resolved, type_dsl in E. rewrite salad_1_1 in E.
  match type of E with context [if ?c then Ok true else Ok true] => replace (if c then Ok true else Ok true) with (@Ok bool true) in E by (destruct c; auto) end. cbn [bind] in E.
  apply resolve_old in E. exact E.
Qed.

(** ** C37: an identifier map is loaded as the list it stands for *)
Theorem C37_map_is_list inner s p d es b o root r : Forall2 (fun kv e => Entry s p (fst kv) (snd kv) e) d es ->
  (Loads (LIdMap inner s p) (JDict d) b o root r <-> Loads (LIdMap inner s p) (JList es) b o root r) /\
  (Loads (LIdMap inner s p) (JList es) b o root r <-> Loads inner (JList es) b o None r).
Proof.
  intros F. pose proof (id_map_via urljoin supported_schemes check_exists fetch_text read_yaml uuid classes proxies inner s p) as V. cbv zeta in V.
  assert (E : id_map s p (JDict d) = Ok (JList es)).
  { unfold id_map. assert (M : mapM (fun kv => id_map_entry s p (fst kv) (snd kv)) d = Ok es).
    { apply mapM_Ok. eapply F2_impl; [|exact F]. intros [k v] e H. cbn [fst snd] in *. destruct H as [d'|q w -> Q S D]; [reflexivity|].
      unfold id_map_entry. assert (X : dset s (JStr k) [(q, w)] = [(q, w); (s, JStr k)]).
      { rewrite dset_new; auto. cbn [dget]. destruct (String.eqb_spec s q); [congruence|auto]. }
      rewrite X. destruct (String.eqb_spec q ""); [contradiction|]. destruct w; auto. destruct (D d0 eq_refl). }
    rewrite M. auto. }
  split; [|exact (V (JList es) b o root r)]. etransitivity; [exact (V (JDict d) b o root r)|]. rewrite E. symmetry. exact (V (JList es) b o root r).
Qed.
(** A map with an entry that stands for nothing is refused *)
Theorem C37_map_refused inner s p d b o root r : (forall q, p = Some q -> q <> s) ->
  Exists (fun kv => forall e, ~ Entry s p (fst kv) (snd kv) e) d ->
  (Loads (LIdMap inner s p) (JDict d) b o root r <-> r = Err ValidationException).
Proof.
  intros N X. etransitivity; [exact (id_map_via _ _ _ _ _ _ _ _ inner s p (JDict d) b o root r)|].
  assert (E : id_map s p (JDict d) = Err ValidationException).
  { unfold id_map. assert (M : mapM (fun kv => id_map_entry s p (fst kv) (snd kv)) d = Err ValidationException).
    { apply mapM_fails.
      - intros [k v] e. apply id_map_entry_err.
      - eapply Exists_impl; [|exact X]. intros [k v] H e Y. apply (H e). apply id_map_entry_spec in Y; auto. }
    rewrite M. auto. }
  rewrite E. split; [intros [A _]; auto|intros ->; split; [auto|discriminate]].
Qed.
(** Whatever is loaded from a map is loaded from such a list *)
Theorem C37_map_accepted inner s p d b o root v : (forall q, p = Some q -> q <> s) -> Loads (LIdMap inner s p) (JDict d) b o root (Ok v) ->
  exists es, Forall2 (fun kv e => Entry s p (fst kv) (snd kv) e) d es /\ Loads inner (JList es) b o None (Ok v).
Proof.
  intros N L. apply (proj1 (id_map_via _ _ _ _ _ _ _ _ inner s p (JDict d) b o root (Ok v))) in L.
  unfold id_map in L. destruct (mapM (fun kv => id_map_entry s p (fst kv) (snd kv)) d) as [es|e] eqn:M; cbn [bind] in L; [|destruct L; discriminate].
  exists es. split; [|exact L]. apply mapM_Ok in M. eapply F2_impl; [|exact M]. intros [k w] e H. apply id_map_entry_spec; auto.
Qed.

(** ** C38: secondaryFiles *)
Theorem C38_secondary_files inner d es b o root r : Forall2 Secondary (as_list d) es ->
  (Loads (LSecondary inner) d b o root r <-> Loads inner (JList es) b o root r).
Proof.
  intros F. etransitivity; [exact (secondary_via _ _ _ _ _ _ _ _ inner d b o root r)|].
  assert (E : secondary_dsl d = Ok es).
  { rewrite secondary_dsl_items. apply mapM_Ok. eapply F2_impl; [|exact F]. intros x e H. apply secondary_item_spec. exact H. }
  rewrite E. reflexivity.
Qed.
Theorem C38_secondary_files_refused inner d b o root r : Exists (fun x => forall e, ~ Secondary x e) (as_list d) ->
  (Loads (LSecondary inner) d b o root r <-> r = Err ValidationException).
Proof.
  intros X. etransitivity; [exact (secondary_via _ _ _ _ _ _ _ _ inner d b o root r)|].
  assert (E : secondary_dsl d = Err ValidationException).
  { rewrite secondary_dsl_items. apply mapM_fails; [intros x e; apply secondary_item_err|]. eapply Exists_impl; [|exact X]. intros x H e Y.
    apply (H e). apply secondary_item_spec. exact Y. }
  rewrite E. split; [intros [A _]; auto|intros ->; split; [auto|discriminate]].
Qed.
(** A pattern has one meaning *)
Theorem C38_one_meaning d e e' : Secondary d e -> Secondary d e' -> e = e'.
Proof. intros H H'. apply secondary_item_spec in H, H'. congruence. Qed.

(** ** C39: unions and arrays *)
Theorem C39_union_first_match ts d b o root v : Loads (LUnion ts) d b o root (Ok v) <->
  exists pre t post, ts = pre ++ t :: post /\ Forall (fun t => Loads t d b o root (Err ValidationException)) pre /\ Loads t d b o root (Ok v).
Proof. exact (union_ok _ _ _ _ _ _ _ _ ts d b o root v). Qed.
Theorem C39_union_refused ts d b o root : Loads (LUnion ts) d b o root (Err ValidationException) <->
  Forall (fun t => Loads t d b o root (Err ValidationException)) ts.
Proof. exact (union_fail _ _ _ _ _ _ _ _ ts d b o root). Qed.
(** Any other exception of an alternative that is tried ends the union *)
Theorem C39_union_other_error ts d b o root e : e <> ValidationException -> e <> OutOfFuel -> (Loads (LUnion ts) d b o root (Err e) <->
  exists pre t post, ts = pre ++ t :: post /\ Forall (fun t => Loads t d b o root (Err ValidationException)) pre /\ Loads t d b o root (Err e)).
Proof. exact (union_err _ _ _ _ _ _ _ _ ts d b o root e). Qed.
(** An element of an array of items is an item, or an array of items *)
Definition LoadsElement (o : options) (items : loader) (b : string) (d : json) (v : lv) : Prop := LoadsField o d (LUnion [LArray items; items]) b (Ok v).
Theorem C39_array items ds b o root v : Loads (LArray items) (JList ds) b o root (Ok v) <->
  exists vs, Forall2 (LoadsElement o items b) ds vs /\ NoDup (ids ds) /\
    v = VSeq (flat (match container o with Some "@list" => false | _ => true end) vs).
Proof.
  replace (match container o with Some "@list" => false | _ => true end) with (flattens o).
  - exact (array_ok _ _ _ _ _ _ _ _ items ds b o root v).
  - unfold flattens. destruct (container o) as [c|]; [|reflexivity]. destruct (String.eqb_spec c "@list") as [->|N]; [reflexivity|]. cbn [negb].
    do 6 (destruct c as [|[[] [] [] [] [] [] [] []] c]; try reflexivity). congruence.
Qed.
Theorem C39_element items d b o v : (forall e, d = JDict e -> dget "$import" e = None /\ dget "$include" e = None) ->
  (LoadsElement o items b d v <->
   match d with
   | JList ds => Loads (LArray items) d b o None (Ok v) \/ Loads (LArray items) d b o None (Err ValidationException) /\ Loads items d b o None (Ok v)
   | _ => Loads items d b o None (Ok v)
   end).
Proof. exact (element_ok _ _ _ _ _ _ _ _ items d b o v). Qed.
(** An array is refused just when an element is, or two elements have the same identifier *)
Theorem C39_array_refused items ds b o root :
  Forall (fun d => LoadsField o d (LUnion [LArray items; items]) b (Err ValidationException) \/ exists v, LoadsElement o items b d v) ds ->
  (Loads (LArray items) (JList ds) b o root (Err ValidationException) <->
   Exists (fun d => LoadsField o d (LUnion [LArray items; items]) b (Err ValidationException)) ds \/ ~ NoDup (ids ds)).
Proof. exact (array_fail _ _ _ _ _ _ _ _ items ds b o root). Qed.
Theorem C39_array_only_lists items d b o root r : (forall ds, d <> JList ds) -> r <> Err OutOfFuel ->
  (Loads (LArray items) d b o root r <-> r = Err ValidationException).
Proof. exact (array_not_list _ _ _ _ _ _ _ _ items d b o root r). Qed.

(** ** C54: identifiers *)
(** A name is an identifier in the scope of its base ... *)
Theorem C54_scoped_identifier p f s o : clean p -> startswith "/" p = false -> sforall (fun c => negb (is_unsafe c)) f = true -> f <> "" -> name s ->
  expand_url s (file_base p) o true false None = Ok (file_base p ++ "#" ++ s)%string /\
  expand_url s (file_base p ++ "#" ++ f) o true false None = Ok (file_base p ++ "#" ++ f ++ "/" ++ s)%string.
Proof.
  intros C S F N M. split.
  - pose proof (expand_scoped urljoin supported_schemes p "" s o C S eq_refl M) as E. cbv zeta in E. change (String.eqb "" "") with true in E. cbv iota in E.
    rewrite sapp_nil_r in E. exact E.
  - pose proof (expand_scoped urljoin supported_schemes p f s o C S F M) as E. cbv zeta in E. apply String.eqb_neq in N. rewrite N in E. exact E.
Qed.
(** ... so that different names have different identifiers ... *)
Theorem C54_identifiers_distinct p s s' o u : clean p -> startswith "/" p = false -> name s -> name s' ->
  expand_url s (file_base p) o true false None = Ok u -> expand_url s' (file_base p) o true false None = Ok u -> s = s'.
Proof.
  intros C S N N' E E'.
  rewrite (proj1 (C54_scoped_identifier p "x" s o C S eq_refl ltac:(discriminate) N)) in E.
  rewrite (proj1 (C54_scoped_identifier p "x" s' o C S eq_refl ltac:(discriminate) N')) in E'.
  assert (X : (file_base p ++ "#" ++ s = file_base p ++ "#" ++ s')%string) by congruence. apply sapp_inj_l in X. cbn [append] in X. congruence.
Qed.
(** ... and a reference is looked up a number of scopes outwards. *)
Theorem C54_scoped_reference p scope dropped s o : clean p -> startswith "/" p = false -> scope ++ dropped <> [] ->
  Forall (fun c => has_char "/" c = false /\ sforall (fun c => negb (is_unsafe c)) c = true) (scope ++ dropped) -> sjoin "/" (scope ++ dropped) <> "" -> name s ->
  expand_url s (file_base p ++ "#" ++ sjoin "/" (scope ++ dropped)) o false false (Some (List.length dropped)) =
  Ok (file_base p ++ "#" ++ sjoin "/" (scope ++ [s]))%string.
Proof. exact (expand_reference urljoin supported_schemes p scope dropped s o). Qed.
(** What is in full already stands for itself, whatever the base *)
Theorem C54_absolute p f s base o scoped refs : clean p -> sforall (fun c => negb (is_unsafe c)) f = true -> s = (file_base p ++ "#" ++ f)%string \/ s = file_base p ->
  smem "file" supported_schemes = true -> dget "file" (vocab o) = None -> expand_url s base o scoped false refs = Ok s.
Proof. exact (expand_absolute urljoin supported_schemes p f s base o scoped refs). Qed.
Theorem C54_twice p f s o u base : clean p -> startswith "/" p = false -> sforall (fun c => negb (is_unsafe c)) f = true -> f <> "" -> name s ->
  smem "file" supported_schemes = true -> dget "file" (vocab o) = None ->
  expand_url s (file_base p ++ "#" ++ f) o true false None = Ok u -> expand_url u base o true false None = Ok u.
Proof.
  intros C S F N M SU V E. rewrite (proj2 (C54_scoped_identifier p f s o C S F N M)) in E. injection E as <-.
  apply (C54_absolute p (f ++ "/" ++ s)); auto. rewrite !sforall_app, F. destruct M as (_ & K & _). rewrite (clean_safe s K). reflexivity.
Qed.
(** Expressions stand for themselves *)
Theorem C54_expression_kept s base o scoped refs : startswith "$(" s = true \/ startswith "${" s = true -> dget (before ":" s) (vocab o) = None ->
  expand_url s base o scoped false refs = Ok s.
Proof. exact (expand_expression urljoin supported_schemes s base o scoped refs). Qed.
(** A term of the vocabulary stands for itself *)
Theorem C54_term_kept s base o scoped refs : dmem s (vocab o) = true -> expand_url s base o scoped true refs = Ok s.
Proof. exact (expand_term urljoin supported_schemes s base o scoped refs). Qed.

(** ** C55: objects *)
Theorem C55_object cls c nlc k d base o root v : classes cls = Some k ->
  let o' := with_container c nlc o in
  (Loads (LRecord cls c nlc) (JDict d) base o root (Ok v) <->
   Object (LoadsField o') (Scoped o') (Expands o') (uuid (JDict d)) k (vocab o) d base root v).
Proof. exact (record_ok _ _ _ _ _ _ _ _ cls c nlc k d base o root v). Qed.
Theorem C55_not_object cls c nlc d base o root r : (forall e, d <> JDict e) -> r <> Err OutOfFuel ->
  (Loads (LRecord cls c nlc) d base o root r <-> r = Err ValidationException).
Proof. exact (record_not_map _ _ _ _ _ _ _ _ cls c nlc d base o root r). Qed.
(** A required field that is missing, or null *)
Theorem C55_required cls c nlc k d base o root v f : classes cls = Some k -> In f (c_fields k) -> f_required f = true ->
  dget (f_name f) d = None \/ dget (f_name f) d = Some JNull -> ~ Loads (LRecord cls c nlc) (JDict d) base o root (Ok v).
Proof.
  intros K I R G L. apply (C55_object _ _ _ k) in L; auto. destruct L as (i & b & cl & fs & ext & _ & _ & F & _).
  clear - I R G F. induction F as [|f' kv fl l [_ V] F IH]; [destruct I|]. destruct I as [->|I]; [|auto].
  destruct V as [b' _ _ R'|b' j w _ G' R' _]; [congruence|]. destruct G as [G|G]; [congruence|]. apply (R' R). congruence.
Qed.
(** A field that is not of the class, and is no extension field *)
Theorem C55_unknown_field cls c nlc k d base o root v key : classes cls = Some k -> In key (dkeys d) -> ~ In key (attrs k) ->
  has_char ":" key = false -> ~ Loads (LRecord cls c nlc) (JDict d) base o root (Ok v).
Proof.
  intros K I A H L. apply (C55_object _ _ _ k) in L; auto. destruct L as (i & b & cl & fs & ext & _ & _ & _ & F & _).
  assert (J : exists w, In (key, w) (others k d)).
  { unfold dkeys in I. apply in_map_iff in I. destruct I as [[key' w] [E I]]. cbn [fst] in E. subst key'. exists w. unfold others. apply filter_In. split; [auto|].
    cbn [fst]. destruct (smem key (attrs k)) eqn:M; auto. apply smem_In in M. contradiction. }
  destruct J as [w J]. clear - J F H. induction F as [|kv kv' l l' [C _] F IH]; [destruct J|]. destruct J as [->|J]; [cbn [fst] in C; congruence|auto].
Qed.
(** An object of another class *)
Theorem C55_other_class cls c nlc k l d base o root v s t : classes cls = Some k -> c_class k = Some l -> dget "class" d = Some (JStr t) ->
  (forall b x, LoadsField (with_container c nlc o) (JStr t) l b (Ok (VStr x)) -> x = s) -> s <> c_name k -> dget (c_name k) (vocab o) <> Some s ->
  ~ Loads (LRecord cls c nlc) (JDict d) base o root (Ok v).
Proof.
  intros K C G U N1 N2 L. apply (C55_object _ _ _ k) in L; auto. destruct L as (i & b & cl & fs & ext & _ & Cl & _).
  destruct Cl as [C'|l' j x C' G' NN L M]; [congruence|]. replace l' with l in * by congruence. replace j with (JStr t) in * by congruence.
  apply U in L. subst x. destruct M; congruence.
Qed.
(** The fields of the object are those of its class, in order; an absent one is null *)
Theorem C55_fields cls c nlc k d base o root v : classes cls = Some k -> Loads (LRecord cls c nlc) (JDict d) base o root (Ok v) ->
  exists fields ext, v = VObj (c_name k) fields ext /\ map fst fields = attrs k /\
    forall f, In f (c_fields k) -> dget (f_name f) d = None -> In (f_name f, VNull) fields.
Proof.
  intros K L. apply (C55_object _ _ _ k) in L; auto. destruct L as (i & b & cl & fs & ext & I & C & F & _ & ->).
  exists (i ++ cl ++ fs), (dupdate [] ext). split; [auto|]. split.
  - rewrite !map_app. unfold attrs. f_equal; [|f_equal].
    + destruct I as [E|n req l j s E|n req l r E|n l E]; rewrite E; auto.
    + destruct C as [E|l j s E]; rewrite E; auto.
    + clear - F. induction F as [|f kv l l' [E _] F IH]; cbn [map]; congruence.
  - intros f If G. apply in_or_app. right. apply in_or_app. right. clear - F If G.
    induction F as [|f' kv l l' [E V] F IH]; [destruct If|]. destruct If as [->|If]; [left|right; auto].
    destruct kv as [k' v']. cbn [fst snd] in *. inversion V; subst; congruence.
Qed.

(** ** C56: plain values *)
Theorem C56_values_partial tp d b o root : HasType tp d -> Loads (LPrim tp) d b o root (Ok (of_json d)).
Proof. intros H. split; [discriminate|]. exists 1. destruct H; reflexivity. Qed.
Theorem C56_other_values_partial tp d b o root r : ~ HasType tp d -> ~ (tp = PInt /\ exists x, d = JBool x) -> r <> Err OutOfFuel ->
  (Loads (LPrim tp) d b o root r <-> r = Err ValidationException).
Proof.
  intros H B N.
  assert (A : forall n, load urljoin supported_schemes check_exists fetch_text read_yaml uuid classes proxies (S n) (LPrim tp) d b o root = Err ValidationException).
  { intros n. pose proof (load_S urljoin supported_schemes check_exists fetch_text read_yaml uuid classes proxies n) as X. cbv zeta in X. rewrite X.
    cbn [load_body]. destruct tp, d; try reflexivity; try (destruct H; constructor). destruct B. eauto. }
  split.
  - intros [_ [[|n] E]]; [cbn in E; congruence|]. rewrite A in E. congruence.
  - intros ->. split; [auto|]. exists 1. apply A.
Qed.
(** Finding: a truth value is accepted where an integer is asked for *)
Theorem C56_integer_refuted x b o root : ~ HasType PInt (JBool x) /\ Loads (LPrim PInt) (JBool x) b o root (Ok (VBool x)).
Proof. split; [intros H; inversion H|]. split; [discriminate|]. exists 1. reflexivity. Qed.
Theorem C56_enumeration symbols d b o root v : Loads (LEnum symbols) d b o root (Ok v) <-> exists s, d = JStr s /\ In s symbols /\ v = VStr s.
Proof.
  assert (A : forall n, load urljoin supported_schemes check_exists fetch_text read_yaml uuid classes proxies (S n) (LEnum symbols) d b o root =
    match d with JStr s => if smem s symbols then Ok (VStr s) else Err ValidationException | _ => Err ValidationException end).
  { intros n. pose proof (load_S urljoin supported_schemes check_exists fetch_text read_yaml uuid classes proxies n) as X. cbv zeta in X. rewrite X. reflexivity. }
  split.
  - intros [_ [[|n] E]]; [cbn in E; discriminate|]. rewrite A in E. destruct d; try discriminate. destruct (smem s symbols) eqn:M; [|discriminate].
    exists s. split; [auto|]. split; [apply smem_In; auto|congruence].
  - intros (s & -> & I & ->). split; [discriminate|]. exists 1. rewrite A. apply smem_In in I. rewrite I. auto.
Qed.
End Props.

(** ** A small environment, to show that the hypotheses can be met *)
Definition uj (b u : string) : result string := Ok (b ++ u)%string.
Definition schemes := ["file"; "http"; "https"].
Definition found (s : string) : result bool := Ok true.
Definition no_text (s : string) : result string := Err ValidationException.
Definition no_yaml (s : string) : result json := Err ValidationException.
Definition blank_id (j : json) : string := "0".
Definition thing : class :=
  Class "Thing" (Some ("id", false, LUri (LUnion [LPrim PNull; LPrim PStr]) true false None None))
    (Some (LUri (LEnum ["Thing"]) false true None None))
    [Field "size" true (LPrim PInt) false; Field "parts" false (LIdMap (LUnion [LPrim PNull; LArray (LRecord "Part" None None)]) "id" (Some "size")) false].
Definition part : class :=
  Class "Part" (Some ("id", false, LUri (LUnion [LPrim PNull; LPrim PStr]) true false None None)) None [Field "size" true (LPrim PInt) false].
Definition few (s : string) : option class := if String.eqb s "Thing" then Some thing else if String.eqb s "Part" then Some part else None.
Definition none_named (s : string) : option loader := None.
Definition terms := [("int", "int"); ("string", "string"); ("array", "array"); ("Thing", "https://x/Thing"); ("ex", "https://example.com/")].
Definition opts := Options None true (Some "file:///a.cwl") terms [("https://x/Thing", "Thing")].
Notation Ld := (Loads uj schemes found no_text no_yaml blank_id few none_named).
Ltac run n := split; [discriminate|exists n; vm_compute; reflexivity].

(** C36 *)
Example C36_short_example : Short (Means uj schemes "file:///a.cwl#main/x" opts (Some 2)) "int[]?" (optional (array_of (JStr "int"))) /\
  Short (Means uj schemes "file:///a.cwl#main/x" opts (Some 2)) "rec" (JStr "file:///a.cwl#rec").
Proof. split; [apply (Short_optional_array _ "int" "int")|apply Short_name]; repeat split; reflexivity. Qed.
Example C36_later_example : salad_before_1_3 "v1.3.0-dev1" = Err ValueError /\ salad_before_1_3 "v1.3" = Ok false /\
  Nested (Means uj schemes "file:///a.cwl" opts (Some 2)) "int[][]" (array_of (array_of (JStr "int"))).
Proof. repeat split; try reflexivity. apply (Nested_array _ "int[]"), (Nested_array _ "int"). apply Nested_name; repeat split; reflexivity. Qed.
Example C36_nested_example : Ld (LTypeDSL (LUnion [LPrim PNull; LEnum ["int"]; LPrim PStr]) (Some 2) "v1.1") (JStr "int[][]") "file:///a.cwl" opts None (Ok (VStr "int[][]")).
Proof. run 4. Qed.
(** Finding: a question mark before the brackets, or two of them, ends up in the name of a type
    that is nowhere defined *)
Theorem C36_marks_refuted :
  Ld (LTypeDSL LAny (Some 2) "v1.1") (JStr "int?[]") "file:///a.cwl#main/x" opts None
    (Ok (VMap [("type", VStr "array"); ("items", VStr "file:///a.cwl#int?")])) /\
  Ld (LTypeDSL LAny (Some 2) "v1.1") (JStr "int??") "file:///a.cwl#main/x" opts None
    (Ok (VSeq [VStr "null"; VStr "file:///a.cwl#int?"])).
Proof. split; run 4. Qed.
(** C37 *)
Example C37_example : Forall2 (fun kv e => Entry "id" (Some "size") (fst kv) (snd kv) e)
  [("a", JInt 3); ("b", JDict [("size", JInt 4)])]
  [JDict [("size", JInt 3); ("id", JStr "a")]; JDict [("size", JInt 4); ("id", JStr "b")]].
Proof. repeat constructor; try discriminate; eapply Entry_mapping. Qed.
Example C37_refused_example : Exists (fun kv => forall e, ~ Entry "id" None (fst kv) (snd kv) e) [("a", JInt 3)].
Proof. constructor. intros e H. inversion H; discriminate. Qed.
(** C38 *)
Example C38_example : Forall2 Secondary (as_list (JList [JStr ".bai?"; JStr "^.idx"; JDict [("pattern", JStr ".x"); ("required", JStr "$(true)")]]))
  [JDict [("pattern", JStr ".bai"); ("required", JBool false)]; JDict [("pattern", JStr "^.idx")]; JDict [("pattern", JStr ".x"); ("required", JStr "$(true)")]].
Proof.
  constructor; [apply (Secondary_optional ".bai")|]. constructor.
  - apply Secondary_required. intros q E. assert (X : endswith "?" "^.idx" = true) by (rewrite E; apply endswith_app). discriminate.
  - constructor; [|constructor]. apply Secondary_mapping; [reflexivity| |left; reflexivity]. cbn. intros k [<-|[<-|[]]]; auto.
Qed.
Example C38_refused_example : Exists (fun x => forall e, ~ Secondary x e) (as_list (JDict [("required", JBool true)])).
Proof. constructor. intros e H. inversion H; subst. discriminate. Qed.
(** C39, C54, C55 in one document *)
Definition document : json := JDict [("class", JStr "Thing"); ("id", JStr "main"); ("size", JInt 5); ("ex:note", JStr "hello");
  ("parts", JDict [("a", JInt 3); ("b", JDict [("size", JInt 4)])])].
Example C55_example : Ld (LUnion [LRecord "Part" None None; LRecord "Thing" None None]) document "file:///a.cwl" opts None
  (Ok (VObj "Thing" [("id", VStr "file:///a.cwl#main"); ("class", VStr "Thing"); ("size", VInt 5);
       ("parts", VSeq [VObj "Part" [("id", VStr "file:///a.cwl#main/a"); ("size", VInt 3)] []; VObj "Part" [("id", VStr "file:///a.cwl#main/b"); ("size", VInt 4)] []])]
     [("https://example.com/note", JStr "hello")])).
Proof. run 15. Qed.
Example C39_flatten_example : Ld (LArray (LPrim PInt)) (JList [JInt 1; JList [JInt 2; JInt 3]]) "" opts None (Ok (VSeq [VInt 1; VInt 2; VInt 3])) /\
  Ld (LArray (LPrim PInt)) (JList [JInt 1; JStr "x"]) "" opts None (Err ValidationException) /\
  Ld (LArray LAny) (JList [JDict [("id", JStr "x")]; JDict [("id", JStr "x")]]) "" opts None (Err ValidationException).
Proof. split; [run 8|split; run 8]. Qed.
Example C55_refused_example : Ld (LRecord "Part" None None) (JDict [("id", JStr "p")]) "file:///a.cwl" opts None (Err ValidationException) /\
  Ld (LRecord "Part" None None) (JDict [("id", JStr "p"); ("size", JInt 1); ("colour", JInt 1)]) "file:///a.cwl" opts None (Err ValidationException) /\
  Ld (LRecord "Thing" None None) (JDict [("class", JStr "https://x/Other"); ("size", JInt 1)]) "file:///a.cwl" opts None (Err ValidationException).
Proof. split; [run 8|split; run 8]. Qed.
Example C54_name_example : name "step1/out" /\ clean "data/a.cwl" /\ dget "file" (vocab opts) = None /\ smem "file" schemes = true.
Proof. repeat split; discriminate. Qed.

Print Assumptions C39_deterministic.
Print Assumptions C36_type_shorthand_partial.
Print Assumptions C36_type_list_partial.
Print Assumptions C36_any_text_partial.
Print Assumptions C36_type_in_full.
Print Assumptions C36_later_rules.
Print Assumptions C36_nested_refuted.
Print Assumptions C36_marks_refuted.
Print Assumptions C37_map_is_list.
Print Assumptions C37_map_refused.
Print Assumptions C37_map_accepted.
Print Assumptions C38_secondary_files.
Print Assumptions C38_secondary_files_refused.
Print Assumptions C38_one_meaning.
Print Assumptions C39_union_first_match.
Print Assumptions C39_union_refused.
Print Assumptions C39_union_other_error.
Print Assumptions C39_array.
Print Assumptions C39_element.
Print Assumptions C39_array_refused.
Print Assumptions C39_array_only_lists.
Print Assumptions C54_scoped_identifier.
Print Assumptions C54_identifiers_distinct.
Print Assumptions C54_scoped_reference.
Print Assumptions C54_absolute.
Print Assumptions C54_twice.
Print Assumptions C54_expression_kept.
Print Assumptions C54_term_kept.
Print Assumptions C55_object.
Print Assumptions C55_not_object.
Print Assumptions C55_required.
Print Assumptions C55_unknown_field.
Print Assumptions C55_other_class.
Print Assumptions C55_fields.
Print Assumptions C56_values_partial.
Print Assumptions C56_other_values_partial.
Print Assumptions C56_integer_refuted.
Print Assumptions C56_enumeration.
