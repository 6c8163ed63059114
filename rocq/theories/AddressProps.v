(** * C54, C71, C72: addresses, references, imports and whole documents *)
From Verif Require Import PyBase PyBaseProofs ParserModel ParserSpec ParserProofs LoaderModel LoaderProofs ShorthandProofs LoaderSpec LoaderProps AddressSpec AddressProofs.
From Coq Require Import Lia.

Section Props.
(** The fetcher, the YAML reader, the classes and the named loaders: any *)
Variables (urljoin : string -> string -> result string) (supported_schemes : list string) (check_exists : string -> result bool)
  (fetch_text : string -> result string) (read_yaml : string -> result json) (uuid : json -> string)
  (classes : string -> option class) (proxies : string -> option loader).
Notation Loads := (LoaderSpec.Loads urljoin supported_schemes check_exists fetch_text read_yaml uuid classes proxies).
Notation LoadsField := (LoaderSpec.LoadsField urljoin supported_schemes check_exists fetch_text read_yaml uuid classes proxies).
Notation LoadsDocument := (LoadsDocument urljoin supported_schemes check_exists fetch_text read_yaml uuid classes proxies).
Notation NotMissing := (NotMissing check_exists).
Notation File := (File fetch_text read_yaml).
Notation expand_url := (expand_url urljoin supported_schemes).

(** ** C54: identifiers and references at any address *)
(** A name is an identifier in the scope of its base, whatever its scheme, host, path and query *)
Theorem C54_identifier_anywhere a s o refs : proper a -> name s ->
  expand_url s (text_of a) o true false refs =
  Ok (text_of (at_part (if String.eqb (a_fragment a) "" then s else a_fragment a ++ "/" ++ s) (rooted a)))%string.
Proof.
  intros P N. rewrite expand_plain.
  - rewrite resolved_scoped by auto. reflexivity.
  - destruct N as (_ & _ & _ & _ & _ & A & _). exact A.
  - destruct N as (_ & _ & _ & _ & _ & _ & A). exact A.
  - discriminate.
  - left. apply clean_no; [reflexivity|]. destruct N as (_ & A & _). exact A.
Qed.
Theorem C54_reference_anywhere a scope dropped s o : proper a -> scope ++ dropped <> [] ->
  Forall (fun c => has_char "/" c = false) (scope ++ dropped) -> a_fragment a = sjoin "/" (scope ++ dropped) -> name s ->
  expand_url s (text_of a) o false false (Some (List.length dropped)) = Ok (text_of (at_part (sjoin "/" (scope ++ [s])) a)).
Proof.
  intros P NE F E N. rewrite expand_plain.
  - rewrite (resolved_reference urljoin supported_schemes a scope dropped s) by auto. reflexivity.
  - destruct N as (_ & _ & _ & _ & _ & A & _). exact A.
  - destruct N as (_ & _ & _ & _ & _ & _ & A). exact A.
  - discriminate.
  - left. apply clean_no; [reflexivity|]. destruct N as (_ & A & _). exact A.
Qed.
(** A prefix of the vocabulary stands for its address *)
Theorem C54_prefix pre rest v a base o scoped refs : has_char ":" pre = false -> dget pre (vocab o) = Some v ->
  (v ++ rest = text_of a)%string -> proper a -> In (a_scheme a) supported_schemes ->
  expand_url (pre ++ ":" ++ rest) base o scoped false refs = Ok (v ++ rest)%string.
Proof.
  intros H G E P I. rewrite (expand_prefixed _ _ pre rest v) by (auto; discriminate). rewrite E. apply smem_In in I. rewrite resolved_absolute by auto. reflexivity.
Qed.
(** Where terms of the vocabulary are expected, an address stands for its term, if it has one *)
Theorem C54_term_in_full a base o scoped refs : proper a -> In (a_scheme a) supported_schemes -> dget (a_scheme a) (vocab o) = None ->
  dget (text_of a) (vocab o) = None ->
  expand_url (text_of a) base o scoped true refs = Ok (match dget (text_of a) (rvocab o) with Some t => t | None => text_of a end).
Proof.
  intros P I V V'.
  assert (NS : exists c r, text_of a = String c r /\ is_lower c = true).
  { destruct P as ((c & r & E & C & _) & _). unfold text_of. rewrite E. cbn [append]. eauto. }
  rewrite expand_plain.
  - apply smem_In in I. rewrite resolved_absolute by auto. unfold as_term. cbn [bind]. rewrite urlsplit_text by auto. cbn [s_scheme].
    assert (N : String.eqb (a_scheme a) "" = false) by (destruct P as ((c & r & -> & _) & _); reflexivity). rewrite N.
    destruct (dget (text_of a) (rvocab o)); reflexivity.
  - destruct NS as (c & r & -> & C). intros E. injection E as -> _. discriminate C.
  - destruct NS as (c & r & -> & C). intros E. injection E as -> _. discriminate C.
  - auto.
  - right. replace (before ":" (text_of a)) with (a_scheme a); [exact V|]. unfold before, text_of. destruct P as (S & _).
    destruct (scheme_cut (a_scheme a) ("//" ++ a_host a ++ a_path a ++ part_of "?" (a_query a) ++ part_of "#" (a_fragment a)) S) as (c & r & _ & E & _).
    cbn [append] in E |- *. rewrite E. reflexivity.
Qed.
(** ... also behind a prefix ... *)
Theorem C54_prefixed_term pre rest v a base o scoped refs : has_char ":" pre = false -> dget pre (vocab o) = Some v ->
  dget (pre ++ ":" ++ rest) (vocab o) = None -> (v ++ rest = text_of a)%string -> proper a -> In (a_scheme a) supported_schemes ->
  expand_url (pre ++ ":" ++ rest) base o scoped true refs = Ok (match dget (v ++ rest) (rvocab o) with Some t => t | None => v ++ rest end)%string.
Proof.
  intros H G N E P I. rewrite (expand_prefixed _ _ pre rest v) by auto. rewrite E. apply smem_In in I. rewrite resolved_absolute by auto.
  unfold as_term. cbn [bind]. rewrite urlsplit_text by auto. cbn [s_scheme].
  assert (X : String.eqb (a_scheme a) "" = false) by (destruct P as ((c & r & -> & _) & _); reflexivity). rewrite X. destruct (dget (text_of a) (rvocab o)); reflexivity.
Qed.
(** ... and what is neither a term nor leads to an address is refused *)
Theorem C54_no_term s u base o : name s -> dget s (vocab o) = None -> urljoin base s = Ok u -> name u ->
  expand_url s base o false true None = Err ValidationException.
Proof.
  intros N V J U. pose proof N as (N0 & K & S1 & S2 & S3 & N1 & N2). rewrite expand_plain; auto; [|left; apply clean_no; auto].
  unfold resolved_url. rewrite urlsplit_name by auto. cbv zeta. cbn [s_scheme s_fragment]. change (String.eqb "" "") with true. cbn [negb andb orb]. rewrite S2, S3. cbn [orb].
  rewrite J. unfold as_term. cbn [bind]. destruct U as (_ & K' & S' & _). rewrite urlsplit_name by auto. reflexivity.
Qed.
(** What names a part of a document is relative to the base, not to the scope *)
Theorem C54_relative p f base o scoped refs : clean p -> startswith "//" p = false -> startswith "$(" (p ++ "#" ++ f) = false -> startswith "${" (p ++ "#" ++ f) = false ->
  without [":"] f -> f <> "" -> expand_url (p ++ "#" ++ f) base o scoped false refs = urljoin base (p ++ "#" ++ f).
Proof.
  intros C S E1 E2 F NE.
  assert (FC : has_char ":" f = false) by (apply (without_no [":"] ":" f eq_refl F)).
  assert (F' : without [] f).
  { clear - F. unfold without in *. induction f as [|c f IH]; cbn [sforall] in *; auto. apply andb_true_iff in F. destruct F as [A B]. apply andb_true_iff in A. destruct A as [A _]. rewrite A. auto. }
  assert (X : forall q, has_char "#" q = false -> (p ++ "#" ++ f)%string <> q).
  { intros q Q E. rewrite <- E in Q. rewrite !has_char_app in Q. cbn in Q. rewrite orb_true_r in Q. discriminate. }
  rewrite expand_plain; [| | |discriminate|].
  - unfold resolved_url. rewrite urlsplit_fragment by auto. cbv zeta. cbn [s_scheme s_fragment]. change (String.eqb "" "") with true. cbn [negb andb orb].
    rewrite E1, E2. cbn [orb]. apply String.eqb_neq in NE. rewrite NE, andb_false_r. unfold as_term.
    destruct refs; destruct (urljoin base (p ++ "#" ++ f)); reflexivity.
  - apply X. reflexivity.
  - apply X. reflexivity.
  - left. rewrite !has_char_app, FC, (clean_no ":" p eq_refl C). reflexivity.
Qed.

(** ** C71: references *)
(** A reference is replaced by the address it stands for.  Unless links are not checked, its target must not be known to be missing. *)
Theorem C71_reference inner scoped vt refs n s u b o root r : let o' := within None n o in
  expand_url s b o' scoped vt refs = Ok u -> no_link_check o' = true \/ NotMissing u ->
  (Loads (LUri inner scoped vt refs n) (JStr s) b o root r <-> Loads inner (JStr u) b o' None r).
Proof.
  cbv zeta. intros E K. etransitivity; [exact (uri_via urljoin supported_schemes check_exists fetch_text read_yaml uuid classes proxies inner scoped vt refs n (JStr s) b o root r)|]. cbv zeta beta iota. rewrite E. cbn [bind].
  assert (L : link check_exists (within None n o) u = Ok tt).
  { unfold link. destruct K as [-> | K]; [reflexivity|]. destruct (no_link_check (within None n o)); [reflexivity|]. destruct K as [-> | ->]; reflexivity. }
  rewrite L. reflexivity.
Qed.
Theorem C71_missing inner scoped vt refs n s u b o root r : let o' := within None n o in
  expand_url s b o' scoped vt refs = Ok u -> no_link_check o' = false -> check_exists u = Ok false ->
  (Loads (LUri inner scoped vt refs n) (JStr s) b o root r <-> r = Err ValidationException).
Proof.
  cbv zeta. intros E K M. etransitivity; [exact (uri_via urljoin supported_schemes check_exists fetch_text read_yaml uuid classes proxies inner scoped vt refs n (JStr s) b o root r)|]. cbv zeta beta iota. rewrite E. cbn [bind]. unfold link. rewrite K, M. cbn [bind].
  split; [intros [A _]; exact A|intros ->; split; [reflexivity|discriminate]].
Qed.
Theorem C71_no_address inner scoped vt refs n s b o root r e : expand_url s b (within None n o) scoped vt refs = Err e -> e <> OutOfFuel ->
  (Loads (LUri inner scoped vt refs n) (JStr s) b o root r <-> r = Err e).
Proof.
  intros E N. etransitivity; [exact (uri_via urljoin supported_schemes check_exists fetch_text read_yaml uuid classes proxies inner scoped vt refs n (JStr s) b o root r)|]. cbv zeta beta iota. rewrite E. cbn [bind]. split; [intros [A _]; exact A|intros ->; auto].
Qed.
(** In a list each text is a reference, and the rest stays *)
Definition Refers (expand : string -> result string) (d d' : json) : Prop :=
  match d with JStr s => exists u, expand s = Ok u /\ d' = JStr u | _ => d' = d end.
Theorem C71_references inner scoped vt refs n ds ds' b o root r : let o' := within None n o in
  Forall2 (Refers (fun s => expand_url s b o' scoped vt refs)) ds ds' ->
  (Loads (LUri inner scoped vt refs n) (JList ds) b o root r <-> Loads inner (JList ds') b o' None r).
Proof.
  cbv zeta. intros F. etransitivity; [exact (uri_via urljoin supported_schemes check_exists fetch_text read_yaml uuid classes proxies inner scoped vt refs n (JList ds) b o root r)|]. cbv zeta beta iota.
  assert (M : mapM (fun i => match i with JStr s => do u <- expand_url s b (within None n o) scoped vt refs; Ok (JStr u) | _ => Ok i end) ds = Ok ds').
  { apply mapM_Ok. eapply F2_impl; [|exact F]. intros x y R. unfold Refers in R. destruct x; try (rewrite R; reflexivity). destruct R as (u & -> & ->). reflexivity. }
  rewrite M. reflexivity.
Qed.
Theorem C71_no_reference inner scoped vt refs n d b o root r : (forall s, d <> JStr s) -> (forall ds, d <> JList ds) ->
  (Loads (LUri inner scoped vt refs n) d b o root r <-> Loads inner d b (within None n o) None r).
Proof.
  intros N1 N2. etransitivity; [exact (uri_via urljoin supported_schemes check_exists fetch_text read_yaml uuid classes proxies inner scoped vt refs n d b o root r)|]. cbv zeta beta iota. destruct d; try reflexivity; [destruct (N1 s); reflexivity|destruct (N2 l); reflexivity].
Qed.
(** Finding: the targets of references in a list are not looked up, missing or not *)
Theorem C71_list_refuted scoped vt refs n s u b o root : let o' := within None n o in
  expand_url s b o' scoped vt refs = Ok u -> no_link_check o' = false -> check_exists u = Ok false ->
  Loads (LUri (LPrim PStr) scoped vt refs n) (JStr s) b o root (Err ValidationException) /\
  Loads (LUri (LArray (LPrim PStr)) scoped vt refs n) (JList [JStr s]) b o root (Ok (VSeq [VStr u])).
Proof.
  cbv zeta. intros E K M. split; [apply (C71_missing _ _ _ _ _ s u); auto|].
  apply (C71_references _ _ _ _ _ [JStr s] [JStr u]); [constructor; [|constructor]; exists u; auto|].
  apply C39_array. exists [VStr u]. split; [|split].
  - constructor; [|constructor]. apply C39_element; [discriminate|]. split; [discriminate|]. exists 1. reflexivity.
  - constructor.
  - unfold flat. destruct (match container (within None n o) with Some "@list" => false | _ => true end); reflexivity.
Qed.

(** ** C39: mappings of values *)
Theorem C39_mapping values c n d b o root v : Loads (LMap values c n) (JDict d) b o root (Ok v) <->
  exists out, Forall2 (fun kv kv' => fst kv' = fst kv /\ LoadsField (within c n o) (snd kv) values b (Ok (snd kv'))) d out /\ v = VMap out.
Proof. exact (map_ok _ _ _ _ _ _ _ _ values c n d b o root v). Qed.
Theorem C39_mapping_only values c n d b o root r : (forall e, d <> JDict e) -> r <> Err OutOfFuel -> (Loads (LMap values c n) d b o root r <-> r = Err ValidationException).
Proof.
  intros N R. etransitivity; [apply (Loads_body urljoin supported_schemes check_exists fetch_text read_yaml uuid classes proxies)|].
  cbn [load_body]. destruct d; try (split; [intros [_ [k E]]; auto|intros ->; split; [discriminate|exists 0; reflexivity]]). destruct (N d); reflexivity.
Qed.
(** The settings of a record hold for its fields *)
Theorem C55_settings cls c n k d base o root v : classes cls = Some k ->
  (Loads (LRecord cls c n) (JDict d) base o root (Ok v) <->
   Object (LoadsField (within c n o)) (Scoped urljoin supported_schemes (within c n o)) (Expands urljoin supported_schemes (within c n o)) (uuid (JDict d)) k (vocab o) d base root v).
Proof. intros K. rewrite <- within_same. apply C55_object. exact K. Qed.

(** ** C72: imports, inclusions, documents *)
(** $import stands for the document in the file, read relative to that file ... *)
Theorem C72_import d u f url doc l b o r : dget "$import" d = Some (JStr u) -> fileuri o = Some f -> urljoin f u = Ok url -> has_char "#" url = false ->
  File url doc -> (forall s, doc <> JStr s) -> (LoadsField o (JDict d) l b r <-> LoadsDocument l doc url (in_file url o) r).
Proof.
  intros G F J H (t & T & Y) N. apply Field_document. intros n. cbn [load_field]. rewrite G, F, J. cbn [bind]. unfold document_load_by_url. rewrite H, T. cbn [bind]. rewrite Y. cbn [bind].
  destruct doc; try reflexivity. destruct (N s eq_refl).
Qed.
(** Finding: a file that holds only the name of another file cannot be imported, although such a name
    is taken for the document where a document is loaded *)
Theorem C72_text_refuted d u f url s l b o v : dget "$import" d = Some (JStr u) -> fileuri o = Some f -> urljoin f u = Ok url -> has_char "#" url = false ->
  File url (JStr s) -> ~ LoadsField o (JDict d) l b (Ok v).
Proof.
  intros G F J H (t & T & Y) [_ [n L]]. cbn [load_field] in L. rewrite G, F, J in L. cbn [bind] in L. unfold document_load_by_url in L. rewrite H, T in L. cbn [bind] in L. rewrite Y in L. cbn [bind] in L.
  destruct (LoaderModel.document_load _ _ _ _ _ _ _ _ _ _ _ _ _); discriminate L.
Qed.
(** ... and $include for its text *)
Theorem C72_include d u f url text l b o r : dget "$import" d = None -> dget "$include" d = Some (JStr u) -> fileuri o = Some f -> urljoin f u = Ok url ->
  fetch_text url = Ok text -> (LoadsField o (JDict d) l b r <-> Loads l (JStr text) b o None r).
Proof. intros I G F J T. apply Field_via. intros n. cbn [load_field]. rewrite I, G, F, J. cbn [bind]. rewrite T. reflexivity. Qed.
(** A file that cannot be read, or a document that is in no file *)
Theorem C72_unreadable d u f url e l b o r : dget "$import" d = Some (JStr u) \/ dget "$import" d = None /\ dget "$include" d = Some (JStr u) ->
  fileuri o = Some f -> urljoin f u = Ok url -> has_char "#" url = false -> fetch_text url = Err e -> e <> OutOfFuel ->
  (LoadsField o (JDict d) l b r <-> r = Err e).
Proof.
  intros G F J H T N. apply Field_is; [exact N|]. intros n. cbn [load_field]. destruct G as [G|[G1 G2]].
  - rewrite G, F, J. cbn [bind]. unfold document_load_by_url. rewrite H, T. reflexivity.
  - rewrite G1, G2, F, J. cbn [bind]. rewrite T. reflexivity.
Qed.
Theorem C72_no_file d j l b o r : dget "$import" d = Some j \/ dget "$include" d = Some j -> fileuri o = None ->
  (LoadsField o (JDict d) l b r <-> r = Err GenericException).
Proof.
  intros G F. apply Field_is; [discriminate|]. intros n. cbn [load_field]. destruct (dget "$import" d) eqn:I.
  - rewrite F. reflexivity.
  - destruct G as [G|G]; [discriminate|]. rewrite G, F. reflexivity.
Qed.
(** Anything else is loaded as it is *)
Theorem C72_other d l b o r : (forall e, d = JDict e -> dget "$import" e = None /\ dget "$include" e = None) ->
  (LoadsField o d l b r <-> Loads l d b o None r).
Proof. exact (LoadsField_plain urljoin supported_schemes check_exists fetch_text read_yaml uuid classes proxies d l b o r). Qed.

(** A document is loaded with its prefixes, relative to its base; it is the list under $graph, else
    what it holds besides $base, $namespaces and $schemas, and then the root of the document *)
Theorem C72_document d b b' l o : distinct_prefixes d -> Base d b b' ->
  exists o', Named d o o' /\ forall r,
    match dget "$graph" d with
    | Some g => LoadsDocument l (JDict d) b o r <-> Loads l g b' o' None r
    | None => LoadsDocument l (JDict d) b o r <-> Loads l (JDict (contents d)) b' o' (Some b') r
    end.
Proof.
  intros D B. exists (with_namespaces (namespaces d) o). split; [apply named; exact D|]. intros r.
  assert (BB : match dget "$base" d with None => Ok b | Some (JStr b) => Ok b | Some _ => Err TypeError end = Ok b') by (destruct B as [-> | [-> ->]]; reflexivity).
  assert (GG : dget "$graph" (contents d) = dget "$graph" d).
  { rewrite <- contents_same. unfold no_graph_keys. rewrite !dget_dpop_other by discriminate. reflexivity. }
  destruct (dget "$graph" d) as [g|]; apply Document_via; intros n; rewrite document_S; unfold document_body; rewrite BB; cbn [bind]; rewrite contents_same, GG; reflexivity.
Qed.
(** so that a name with a prefix of the document stands for what the document says *)
Theorem C72_prefix d o o' pre rest v a base scoped refs : Named d o o' -> Prefix d pre v -> has_char ":" pre = false ->
  (v ++ rest = text_of a)%string -> proper a -> In (a_scheme a) supported_schemes ->
  expand_url (pre ++ ":" ++ rest) base o' scoped false refs = Ok (v ++ rest)%string.
Proof. intros (_ & _ & _ & N & _) P H E A I. apply C54_prefix with (a := a); auto. Qed.
Theorem C72_list ds b l o r : LoadsDocument l (JList ds) b o r <-> Loads l (JList ds) b o None r.
Proof. apply Document_via. intros n. rewrite document_S. reflexivity. Qed.
(** A value of any type is kept as it is; null is none *)
Theorem C55_any d b o root v : Loads LAny d b o root (Ok v) <-> d <> JNull /\ v = of_json d.
Proof.
  unfold Loads, LoaderSpec.Loads. split.
  - intros [_ [[|n] L]]; [discriminate|]. rewrite load_S in L. cbn [load_body] in L. destruct d; try discriminate; (split; [discriminate|congruence]).
  - intros [N ->]. split; [discriminate|]. exists 1. rewrite load_S. destruct d; try reflexivity. contradiction.
Qed.
(** The name of the document goes to its root object only: what is inside a list, a mapping or a
    field, or stands for a named type, is loaded alike whatever the root *)
Theorem C55_root_only l d b o root r : match l with LRecord _ _ _ | LUnion _ | LSecondary _ => False | _ => True end ->
  (Loads l d b o root r <-> Loads l d b o None r).
Proof.
  intros H. unfold Loads, LoaderSpec.Loads. split; intros [N [n L]]; (split; [exact N|]); exists n; rewrite <- L; (destruct n as [|n]; [reflexivity|]); rewrite !load_S;
    destruct l; try contradiction; reflexivity.
Qed.
(** A text is the name of the document's file *)
Theorem C72_by_name s b url doc l o r : urljoin b s = Ok url -> has_char "#" url = false -> File url doc -> (forall s, doc <> JStr s) ->
  (LoadsDocument l (JStr s) b o r <-> LoadsDocument l doc url (in_file url o) r).
Proof.
  intros J H (t & T & Y) N. apply Document_again. intros n. rewrite document_S. cbn [document_body]. rewrite J. cbn [bind]. unfold document_load_by_url. rewrite H, T. cbn [bind].
  rewrite Y. cbn [bind]. destruct doc; try reflexivity. destruct (N s0 eq_refl).
Qed.
Theorem C72_no_document d b l o r : (forall s, d <> JStr s) -> (forall e, d <> JDict e) -> (forall ds, d <> JList ds) ->
  (LoadsDocument l d b o r <-> r = Err ValidationException).
Proof.
  intros N1 N2 N3. apply Document_is; [discriminate|]. intros n. rewrite document_S. destruct d; try reflexivity; [destruct (N1 s)|destruct (N3 l0)|destruct (N2 d)]; reflexivity.
Qed.

(** ** C36: which rules for shorthands a version has, and lists of types that are not all texts *)
Theorem C36_salad_version ns : Forall numeral ns -> ns <> [] ->
  salad_before_1_3 ("v" ++ sjoin "." ns) =
  Ok (match map value ns with
      | [] => true
      | a :: rest => (a <? 1) || (a =? 1) && match rest with [] => true | b :: _ => b <? 3 end
      end)%N.
Proof.
  intros F N. unfold salad_before_1_3. change (sdrop 1 ("v" ++ sjoin "." ns)) with (sjoin "." ns). rewrite split_numerals by auto.
  assert (M : mapM int_of ns = Ok (map value ns)) by (apply mapM_int; auto). rewrite M. cbn [bind]. f_equal.
  destruct (map value ns) as [|a [|b rest]]; [reflexivity| |]; cbn [list_lt].
  - destruct (N.ltb_spec a 1); [reflexivity|]. destruct (N.ltb_spec 1 a); destruct (N.eqb_spec a 1); cbn [orb andb]; auto; lia.
  - destruct (N.ltb_spec a 1); [reflexivity|]. destruct (N.ltb_spec 1 a); destruct (N.eqb_spec a 1); cbn [orb andb]; auto; try lia.
    destruct (N.ltb_spec b 3); [reflexivity|]. destruct (N.ltb_spec 3 b); auto; destruct rest; reflexivity.
Qed.
Definition Alternatives (M : string -> string -> Prop) (d : json) (ts : list json) : Prop :=
  match d with JStr s => exists t, Short M s t /\ ts = members t | _ => ts = [d] end.
Theorem C36_mixed_list_partial inner refs ds tss b o root : Forall2 (Alternatives (Means urljoin supported_schemes b o refs)) ds tss ->
  exists out, (forall x, In x out -> In x (List.concat tss)) /\ (forall x, In x (List.concat tss) -> exists y, In y out /\ (x = y \/ py_eqb x y = true)) /\
    (forall d, In d ds -> (forall s, d <> JStr s) -> In d out) /\
    forall r, Loads (LTypeDSL inner refs "v1.1") (JList ds) b o root r <-> Loads inner (JList out) b o None r.
Proof.
  intros F.
  set (r1 := fun s => do old <- (if endswith "[]" (if endswith "?" s then sdrop_last 1 s else s) then salad_before_1_3 "v1.1" else Ok true);
               resolve (S (String.length s)) (fun u => expand_url u b o false true refs) old s).
  assert (R1 : forall s t, Short (Means urljoin supported_schemes b o refs) s t -> r1 s = Ok t).
  { intros s t H. unfold r1. rewrite salad_1_1.
    match goal with |- context [if ?c then Ok true else Ok true] => replace (if c then Ok true else Ok true) with (@Ok bool true) by (destruct c; auto) end. cbn [bind].
    apply resolve_short. exact H. }
  assert (K : forall acc, exists out, resolve_list r1 acc ds = Ok out /\ (forall x, In x acc -> In x out) /\
    (forall x, In x out -> In x acc \/ In x (List.concat tss)) /\
    (forall x, In x (List.concat tss) -> exists y, In y out /\ (x = y \/ py_eqb x y = true)) /\ (forall d, In d ds -> (forall s, d <> JStr s) -> In d out)).
  { clear - F R1. induction F as [|d ts ds tss A F IH]; intros acc.
    - exists acc. split; [reflexivity|]. split; [auto|]. split; [auto|]. split; [intros x []|intros d []].
    - assert (Step : exists acc', resolve_list r1 acc (d :: ds) = resolve_list r1 acc' ds /\ (forall x, In x acc -> In x acc') /\ (forall x, In x acc' -> In x acc \/ In x ts) /\
        (forall x, In x ts -> exists y, In y acc' /\ (x = y \/ py_eqb x y = true)) /\ ((forall s, d <> JStr s) -> In d acc')).
      { destruct d; cbn [Alternatives] in A;
          try (subst ts; eexists; split; [cbn [resolve_list]; reflexivity|]; split; [intros x X; apply in_or_app; auto|]; split;
               [intros x X; apply in_app_or in X; tauto|]; split; [intros x [<-|[]]; eexists; split; [apply in_or_app; right; left; reflexivity|auto]|
                intros _; apply in_or_app; right; left; reflexivity]).
        destruct A as (t & S & ->). cbn [resolve_list]. rewrite (R1 _ _ S). cbn [bind].
        exists (fold_left add_new (members t) acc). destruct (add_all (members t) acc) as (_ & (s' & E & I) & C). split; [|split; [|split; [|split]]].
        - destruct t; reflexivity.
        - intros x X. rewrite E. apply in_or_app. auto.
        - intros x X. rewrite E in X. apply in_app_or in X. destruct X; auto.
        - exact C.
        - intros X. destruct (X s). reflexivity. }
      destruct Step as (acc' & -> & S1 & S2 & S3 & S4). destruct (IH acc') as (out & E & I1 & I2 & I3 & I4). exists out. split; [exact E|]. split; [auto|].
      cbn [List.concat]. split; [|split].
      + intros x X. destruct (I2 x X) as [Y|Y]; [destruct (S2 x Y)|]; auto using in_or_app.
      + intros x X. apply in_app_or in X. destruct X as [X|X]; [|auto]. destruct (S3 x X) as (y & Y & Z). eauto.
      + intros d' [<-|I'] X; auto. }
  destruct (K []) as (out & E & _ & I2 & I3 & I4). exists out. split; [intros x X; destruct (I2 x X) as [[]|]; auto|]. split; [exact I3|]. split; [exact I4|].
  intros r. etransitivity; [exact (type_dsl_via _ _ _ _ _ _ _ _ inner refs "v1.1" (JList ds) b o root r)|].
  assert (X : resolved urljoin supported_schemes b o refs "v1.1" (JList ds) = Ok (JList out)).
  { unfold resolved, type_dsl. fold r1. rewrite E. reflexivity. }
  rewrite X. reflexivity.
Qed.
End Props.

(** ** The hypotheses can be met *)
Definition site := Address "https" "example.org" "/a/b.cwl" "v=1" "main/step".
Example C54_site_example : proper site /\ text_of site = "https://example.org/a/b.cwl?v=1#main/step" /\ proper (Address "https" "example.org" "" "" "").
Proof.
  split; [|split; [reflexivity|]].
  all: unfold proper; cbn [a_scheme a_host a_path a_query a_fragment site];
    split; [exists "h"%char, "ttps"; auto|]; split; [reflexivity|]; split; [left; discriminate|]; split; [(left; reflexivity) || (right; reflexivity)|]; repeat split; reflexivity.
Qed.
Example C54_anywhere_example :
  expand_url uj schemes "x" (text_of site) opts true false None = Ok "https://example.org/a/b.cwl?v=1#main/step/x" /\
  expand_url uj schemes "x" (text_of site) opts false false (Some 1) = Ok "https://example.org/a/b.cwl?v=1#main/x" /\
  expand_url uj schemes "x" "https://example.org" opts true false None = Ok "https://example.org/#x" /\
  expand_url uj schemes "ex:note" "" opts true false None = Ok "https://example.com/note" /\
  expand_url uj schemes "https://x/Thing" "" opts true true None = Ok "Thing" /\
  expand_url uj schemes "thing" "" opts false true None = Err ValidationException /\
  expand_url uj schemes "#thing" "file:///a.cwl" opts true false (Some 2) = Ok "file:///a.cwl#thing".
Proof. vm_compute. repeat split. Qed.
(** Two files: one that is imported, with its own prefix, and one that is included *)
Definition joined (b u : string) : result string := if startswith "#" u then Ok (b ++ u)%string else Ok ("file:///d/" ++ u)%string.
Definition texts (u : string) : result string :=
  if String.eqb u "file:///d/t.yml" then Ok "thing" else if String.eqb u "file:///d/n.txt" then Ok "5 apples" else Err ValidationException.
Definition read (t : string) : result json :=
  if String.eqb t "thing" then Ok (JDict [("$namespaces", JDict [("my", JStr "https://my.org/")]); ("class", JStr "Thing"); ("size", JInt 5); ("my:note", JStr "hello")])
  else Err ValidationException.
Definition missing (u : string) : result bool := Ok (String.eqb u "file:///a.cwl#there").
Definition checking := Options None false (Some "file:///d/a.cwl") terms [("https://x/Thing", "Thing")].
Notation LdF := (LoadsField joined schemes missing texts read blank_id few none_named).
Example C72_import_example :
  LdF (within None (Some true) checking) (JDict [("$import", JStr "t.yml")]) (LRecord "Thing" None None) "file:///d/a.cwl"
    (Ok (VObj "Thing" [("id", VStr "file:///d/t.yml"); ("class", VStr "Thing"); ("size", VInt 5); ("parts", VNull)] [("https://my.org/note", JStr "hello")])) /\
  LdF checking (JDict [("$include", JStr "n.txt")]) (LPrim PStr) "file:///d/a.cwl" (Ok (VStr "5 apples")) /\
  LdF checking (JDict [("$include", JStr "m.txt")]) (LPrim PStr) "file:///d/a.cwl" (Err ValidationException) /\
  LdF (Options None true None [] []) (JDict [("$import", JStr "t.yml")]) (LPrim PStr) "" (Err GenericException).
Proof. split; [run 12|]. split; [run 5|]. split; [run 5|]. run 5. Qed.
Example C72_document_example : distinct_prefixes [("$namespaces", JDict [("my", JStr "https://my.org/")]); ("$base", JStr "file:///b")] /\
  Base [("$namespaces", JDict [("my", JStr "https://my.org/")]); ("$base", JStr "file:///b")] "file:///a" "file:///b" /\
  Prefix [("$namespaces", JDict [("my", JStr "https://my.org/")]); ("$base", JStr "file:///b")] "my" "https://my.org/".
Proof.
  split; [|split].
  - intros ns E. injection E as <-. constructor; [intros []|constructor].
  - left. reflexivity.
  - exists [("my", JStr "https://my.org/")]. split; [reflexivity|left; reflexivity].
Qed.
Example C55_any_example : LoaderSpec.Loads joined schemes missing texts read blank_id few none_named LAny (JList [JNull; JInt 3]) "file:///a" checking None (Ok (VSeq [VNull; VInt 3])).
Proof. apply C55_any. split; [discriminate|reflexivity]. Qed.
Notation LdC := (Loads joined schemes missing texts read blank_id few none_named).
Example C71_example :
  LdC (LUri (LPrim PStr) false false None None) (JStr "#there") "file:///a.cwl" checking None (Ok (VStr "file:///a.cwl#there")) /\
  LdC (LUri (LPrim PStr) false false None None) (JStr "#elsewhere") "file:///a.cwl" checking None (Err ValidationException) /\
  LdC (LUri (LPrim PStr) false false None (Some true)) (JStr "#elsewhere") "file:///a.cwl" checking None (Ok (VStr "file:///a.cwl#elsewhere")) /\
  LdC (LUri (LArray (LPrim PStr)) false false None None) (JList [JStr "#elsewhere"]) "file:///a.cwl" checking None (Ok (VSeq [VStr "file:///a.cwl#elsewhere"])).
Proof. split; [run 5|]. split; [run 5|]. split; [run 5|]. run 6. Qed.
(** A container that is set where a mapping is loaded keeps arrays of arrays *)
Example C39_container_example :
  LdC (LMap (LArray (LPrim PInt)) (Some "@list") None) (JDict [("k", JList [JInt 1; JList [JInt 2]])]) "" checking None (Ok (VMap [("k", VSeq [VInt 1; VSeq [VInt 2]])])) /\
  LdC (LMap (LArray (LPrim PInt)) None None) (JDict [("k", JList [JInt 1; JList [JInt 2]])]) "" checking None (Ok (VMap [("k", VSeq [VInt 1; VInt 2])])).
Proof. split; run 8. Qed.
Example C36_mixed_example :
  LdC (LTypeDSL LAny (Some 2) "v1.1") (JList [JStr "int?"; JDict [("type", JStr "enum")]; JStr "int"]) "file:///a.cwl" checking None
    (Ok (VSeq [VStr "null"; VStr "int"; VMap [("type", VStr "enum")]])).
Proof. run 5. Qed.

Print Assumptions C54_identifier_anywhere.
Print Assumptions C54_reference_anywhere.
Print Assumptions C54_prefix.
Print Assumptions C54_term_in_full.
Print Assumptions C54_prefixed_term.
Print Assumptions C54_no_term.
Print Assumptions C54_relative.
Print Assumptions C71_reference.
Print Assumptions C71_missing.
Print Assumptions C71_no_address.
Print Assumptions C71_references.
Print Assumptions C71_no_reference.
Print Assumptions C71_list_refuted.
Print Assumptions C39_mapping.
Print Assumptions C39_mapping_only.
Print Assumptions C55_settings.
Print Assumptions C72_import.
Print Assumptions C72_text_refuted.
Print Assumptions C72_include.
Print Assumptions C72_unreadable.
Print Assumptions C72_no_file.
Print Assumptions C72_other.
Print Assumptions C72_document.
Print Assumptions C72_prefix.
Print Assumptions C55_any.
Print Assumptions C55_root_only.
Print Assumptions C72_list.
Print Assumptions C72_by_name.
Print Assumptions C72_no_document.
Print Assumptions C36_salad_version.
Print Assumptions C36_mixed_list_partial.
