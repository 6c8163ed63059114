(** * C75: input files *)
From Verif Require Import PyBase PyBaseProofs ParserModel ParserSpec ParserProofs ParserProps LoaderModel LoaderSpec LoaderProofs AddressSpec AddressProofs VersionModel VersionSpec RefusalProofs EndProofs EndProps ShorthandProofs
  LoaderProps AddressProps InputModel InputSpec InputProofs.
From Coq Require Import Lia.

Definition version_names : list (string * version) := [("v1.0", V1_0); ("v1.1", V1_1); ("v1.2", V1_2)].
Lemma named_version s v : In (s, v) version_names -> version_named s = Some v.
Proof. intros [E|[E|[E|[]]]]; injection E as <- <-; reflexivity. Qed.
Lemma other_version s : (forall v, ~ In (s, v) version_names) -> version_named s = None.
Proof.
  intros H. unfold version_named. destruct (String.eqb_spec s "v1.0") as [-> |_]; [destruct (H V1_0); cbn; auto|].
  destruct (String.eqb_spec s "v1.1") as [-> |_]; [destruct (H V1_1); cbn; auto|]. destruct (String.eqb_spec s "v1.2") as [-> |_]; [destruct (H V1_2); cbn; auto|]. reflexivity.
Qed.

Lemma urlsplit_prefixed pre term : scheme_name pre -> clean term -> startswith "//" term = false -> urlsplit (pre ++ ":" ++ term) = SplitUrl pre "" term "" "".
Proof.
  intros S C NS. unfold urlsplit.
  assert (L : forall r, lstrip_control (pre ++ r) = (pre ++ r)%string).
  { intros r. destruct S as (c & a & -> & X & _). destruct (lower_first c X) as (_ & _ & _ & Y & _). cbn [append lstrip_control]. rewrite Y. auto. }
  rewrite L, remove_unsafe_none.
  - destruct (scheme_cut pre term S) as (c & r & E & X & Y & Z). cbn [append] in *. rewrite X. rewrite E at 1. rewrite Y, <- E, Z.
    rewrite no_slashes by auto. unfold before, after. rewrite (cut_none "#") by (apply clean_no; auto). rewrite (cut_none "?") by (apply clean_no; auto). reflexivity.
  - rewrite !sforall_app, (scheme_safe pre S), (clean_safe term C). reflexivity.
Qed.

Section Props.
(** The fetcher, the YAML reader and the address of a path: any *)
Variables (urljoin : string -> string -> result string) (schemes : list string) (check_exists : string -> result bool)
  (fetch_text : string -> result string) (read_yaml : string -> result json) (uuid : json -> string) (path_uri : string -> string).
Notation by_yaml := (load_inputfile_by_yaml urljoin schemes check_exists fetch_text read_yaml uuid).
Notation input_load := (inputfile_load urljoin schemes check_exists fetch_text read_yaml uuid).
Notation Value := (Value urljoin schemes).
Notation Inputs := (Inputs urljoin schemes).
(** [LoadsInputs version yaml uri r]: the input file [yaml] at [uri] is loaded with the result [r] *)
Definition LoadsInputs (version : option string) (yaml : json) (uri : string) (r : result lv) : Prop :=
  r <> Err OutOfFuel /\ exists fuel, by_yaml fuel version yaml uri = r.

Lemma input_ge n m v doc base o r : input_load n v doc base o = r -> r <> Err OutOfFuel -> n <= m -> input_load m v doc base o = r.
Proof.
  revert m doc base o r. induction n as [|n IH]; intros m doc base o r E N L; [cbn in E; congruence|]. destruct m as [|m]; [lia|]. apply le_S_n in L. cbn [inputfile_load] in *.
  destruct doc as [| | | |s|l|d]; auto.
  - destruct (urljoin base s) as [url|]; cbn [bind] in *; auto. destruct (fetch_text (before "#" url)) as [text|]; cbn [bind] in *; auto.
    destruct (read_yaml text) as [doc'|]; cbn [bind] in *; auto. destruct (input_load n v doc' (before "#" url) (with_fileuri (before "#" url) o)) as [w|e] eqn:F; cbn [bind] in *.
    + rewrite (IH m _ _ _ _ F ltac:(discriminate) L). exact E.
    + rewrite (IH m _ _ _ _ F ltac:(congruence) L). exact E.
  - eapply Loads_ge; eauto.
  - eapply Loads_ge; eauto.
Qed.
Lemma inputs_det version yaml uri r r' : LoadsInputs version yaml uri r -> LoadsInputs version yaml uri r' -> r = r'.
Proof.
  intros [N [n E]] [N' [m E']]. unfold load_inputfile_by_yaml in *. destruct version as [s|]; [|congruence]. destruct (version_named s) as [v|]; [|congruence].
  pose proof (input_ge n (Nat.max n m) _ _ _ _ _ E N ltac:(lia)). pose proof (input_ge m (Nat.max n m) _ _ _ _ _ E' N' ltac:(lia)). congruence.
Qed.
Lemma inputs_map s v d uri r : In (s, v) version_names ->
  (LoadsInputs (Some s) (JDict d) uri r <-> LoaderSpec.Loads urljoin schemes check_exists fetch_text read_yaml uuid (classes_of v) (proxies_of v) (input_loader v) (JDict d) uri (options_of v uri false) (Some uri) r).
Proof.
  intros I. unfold LoadsInputs, load_inputfile_by_yaml. rewrite (named_version s v I). split; intros [N [n E]]; (split; [exact N|]).
  - destruct n as [|n]; [cbn in E; congruence|]. exists n. exact E.
  - exists (S n). exact E.
Qed.

(** ** The values of an input file are loaded as they are, descriptions of files as objects with
    addresses relative to the file.  Whether the files exist is not looked up: [check_exists] may
    be anything. *)
Theorem C75_inputs_partial s v uri d e : In (s, v) version_names -> (forall x, In x schemes -> dget x (terms_of v) = None) ->
  Inputs uri d e -> LoadsInputs (Some s) (JDict d) uri (Ok (VMap e)).
Proof. intros I P H. apply (inputs_map s v); auto. apply inputs_load; auto. Qed.
(** Files without descriptions: the very same values *)
Theorem C75_plain_partial s v uri d : In (s, v) version_names -> (forall x, In x schemes -> dget x (terms_of v) = None) ->
  Forall (fun kv => Plain (snd kv)) d -> LoadsInputs (Some s) (JDict d) uri (Ok (of_json (JDict d))).
Proof.
  intros I N P. apply (C75_inputs_partial s v); auto. clear I N. unfold InputSpec.Inputs.
  induction P as [|kv d Pk P IH]; constructor; auto. split; [reflexivity|]. apply plain_value. exact Pk.
Qed.
(** What is no mapping and no text is refused, and so is any other version *)
Theorem C75_only_mappings s yaml uri : In s (map fst version_names) -> (forall d, yaml <> JDict d) -> (forall t, yaml <> JStr t) ->
  LoadsInputs (Some s) yaml uri (Err ValidationException).
Proof.
  intros I N1 N2. apply in_map_iff in I. destruct I as ([s' v] & E & I). cbn [fst] in E. subst s'. split; [discriminate|]. exists 2. unfold load_inputfile_by_yaml. rewrite (named_version s v I).
  cbn [inputfile_load]. destruct yaml as [| | | |t|l|d]; auto; [destruct (N2 t); reflexivity| |destruct (N1 d); reflexivity].
  unfold load_with. rewrite input_table, load_S. reflexivity.
Qed.
Theorem C75_version version yaml uri r : (forall s v, version = Some s -> ~ In (s, v) version_names) -> r <> Err OutOfFuel ->
  (LoadsInputs version yaml uri r <-> r = Err ValidationException).
Proof.
  intros H N. unfold LoadsInputs, load_inputfile_by_yaml. destruct version as [s|].
  - rewrite (other_version s) by (intros v; apply H; reflexivity). split; [intros [_ [n E]]; congruence|intros ->; split; [discriminate|exists 0; reflexivity]].
  - split; [intros [_ [n E]]; congruence|intros ->; split; [discriminate|exists 0; reflexivity]].
Qed.
(** A text names the file with the inputs, which are then relative to that file *)
Theorem C75_named_file s v t uri url doc r : In (s, v) version_names -> urljoin uri t = Ok url -> has_char "#" url = false -> File fetch_text read_yaml url doc ->
  (forall u, doc <> JStr u) -> (LoadsInputs (Some s) (JStr t) uri r <-> LoadsInputs (Some s) doc url r).
Proof.
  intros I J H (text & FT & RY) N. unfold LoadsInputs, load_inputfile_by_yaml. rewrite (named_version s v I).
  assert (B : before "#" url = url) by (unfold before; rewrite cut_none by exact H; reflexivity).
  assert (X : forall n, input_load (S n) v (JStr t) uri (options_of v uri false) = input_load n v doc url (options_of v url false)).
  { intros n. cbn [inputfile_load]. rewrite J. cbn [bind]. rewrite B, FT. cbn [bind]. rewrite RY. cbn [bind]. rewrite H.
    change (with_fileuri url (options_of v uri false)) with (options_of v url false).
    destruct (input_load n v doc url (options_of v url false)); cbn [bind]; [|reflexivity]. destruct doc; auto. destruct (N s0); reflexivity. }
  split; intros [O [n E]]; (split; [exact O|]).
  - destruct n as [|n]; [cbn in E; congruence|]. exists n. rewrite <- X. exact E.
  - exists (S n). rewrite X. exact E.
Qed.
(** Finding: a part of a file cannot be named, and a file that names the file cannot be either *)
Theorem C75_part_refuted s v t uri url doc : In (s, v) version_names -> urljoin uri t = Ok url -> File fetch_text read_yaml (before "#" url) doc ->
  has_char "#" url = true \/ (exists u, doc = JStr u) -> forall w, ~ LoadsInputs (Some s) (JStr t) uri (Ok w).
Proof.
  intros I J (text & FT & RY) H w [_ [n E]]. unfold load_inputfile_by_yaml in E. rewrite (named_version s v I) in E. destruct n as [|n]; [discriminate E|].
  cbn [inputfile_load] in E. rewrite J in E. cbn [bind] in E. rewrite FT in E. cbn [bind] in E. rewrite RY in E. cbn [bind] in E.
  destruct (input_load n v doc (before "#" url) (with_fileuri (before "#" url) (options_of v uri false))); cbn [bind] in E; [|discriminate E].
  destruct H as [H|[u ->]]; [|discriminate E]. rewrite H in E. destruct doc; discriminate E.
Qed.

(** ** The path or address of the file *)
Notation by_uri := (load_inputfile_by_uri urljoin schemes check_exists fetch_text read_yaml uuid path_uri).
Notation by_string := (load_inputfile_by_string urljoin schemes check_exists fetch_text read_yaml uuid).
Theorem C75_path fuel s p : plain_path p -> by_uri fuel (Some s) p = (do text <- fetch_text (path_uri p); by_string fuel (Some s) text (path_uri p)).
Proof. intros P. unfold load_inputfile_by_uri. rewrite urlparse_plain by auto. cbn [u_scheme u_path]. rewrite unquote_plus_plain by auto. reflexivity. Qed.
Theorem C75_file_uri fuel s p : startswith "/" p = true ->
  by_uri fuel (Some s) ("file://" ++ quote p) = (do text <- fetch_text (path_uri p); by_string fuel (Some s) text (path_uri p)).
Proof.
  intros S. destruct (urlparse_file_uri p "" eq_refl S) as [_ B]. unfold load_inputfile_by_uri. rewrite B. cbn [u_scheme u_path]. rewrite unquote_plus_quote. reflexivity.
Qed.
Theorem C75_text fuel version text yaml uri cwd : read_yaml text = Ok yaml ->
  by_string fuel version text uri = by_yaml fuel version yaml uri /\
  load_inputfile urljoin schemes check_exists fetch_text read_yaml uuid fuel version (JStr text) (Some uri) cwd = by_yaml fuel version yaml uri /\
  load_inputfile urljoin schemes check_exists fetch_text read_yaml uuid fuel version (JStr text) None cwd = by_yaml fuel version yaml (cwd ++ "/")%string /\
  ((forall t, yaml <> JStr t) -> load_inputfile urljoin schemes check_exists fetch_text read_yaml uuid fuel version yaml (Some uri) cwd = by_yaml fuel version yaml uri).
Proof.
  intros R. unfold load_inputfile, load_inputfile_by_string. rewrite R. cbn [bind]. repeat split. intros N. destruct yaml; auto. destruct (N s); reflexivity.
Qed.

(** ** Loading ends, with the values or a refusal *)
Lemma input_sound v : sound (known_in v) (proxied_in v) (input_loader v) = true /\ fieldable (known_in v) (proxied_in v) (input_loader v) = true.
Proof. destruct v; (split; vm_compute; reflexivity). Qed.
Section Ends.
Hypotheses (joins : forall b u, urljoin b u <> Err OutOfFuel) (checks : forall u, check_exists u <> Err OutOfFuel)
  (joins' : forall b u, loaded_or_refused (urljoin b u)) (checks' : forall u, loaded_or_refused (check_exists u)).
Lemma either_way v l j b o root : fieldable (known_in v) (proxied_in v) l = true -> sound (known_in v) (proxied_in v) l = true -> self_contained j ->
  let L := LoaderSpec.Loads urljoin schemes check_exists fetch_text read_yaml uuid (classes_of v) (proxies_of v) l j b o root in (exists w, L (Ok w)) \/ L (Err ValidationException).
Proof.
  cbv zeta. intros F S SC.
  destruct (loads_end urljoin schemes check_exists fetch_text read_yaml uuid (classes_of v) (proxies_of v) joins checks (known_in v) (proxied_in v) (ends_known v) (ends_proxied v) j SC) as [A _].
  destruct (A l F b o root) as (n & r & N & E). specialize (E n (le_n n)).
  pose proof (load_fine urljoin schemes check_exists fetch_text read_yaml uuid (classes_of v) (proxies_of v) joins' checks' (known_in v) (proxied_in v) (tables_known v) (tables_proxied v) n l j b o root (or_introl S) SC) as G.
  rewrite E in G. destruct r as [w|e]; [left; exists w; split; [discriminate|eauto]|]. right. assert (e = ValidationException) as -> by (destruct e; cbn in G; try destruct G; congruence).
  split; [discriminate|]. eauto.
Qed.
Theorem C75_loaded_or_refused_partial s d uri : In s (map fst version_names) -> self_contained (JDict d) ->
  (exists e, LoadsInputs (Some s) (JDict d) uri (Ok (VMap e)) /\ map fst e = map fst d) \/ LoadsInputs (Some s) (JDict d) uri (Err ValidationException).
Proof.
  intros I SC. apply in_map_iff in I. destruct I as ([s' v] & E & I). cbn [fst] in E. subst s'.
  destruct (input_sound v) as [S F]. destruct (either_way v (input_loader v) (JDict d) uri (options_of v uri false) (Some uri) F S SC) as [[w L]|L].
  - left. pose proof L as L'. rewrite input_table in L. apply (map_ok urljoin schemes check_exists fetch_text read_yaml uuid (classes_of v) (proxies_of v)) in L.
    destruct L as (out & F2 & ->). exists out. split; [apply (inputs_map s v); auto|]. clear - F2. induction F2 as [|kv kv' d out [E _] F IH]; cbn [map]; congruence.
  - right. apply (inputs_map s v); auto.
Qed.
End Ends.

(** ** Findings *)
Notation Loads v := (LoaderSpec.Loads urljoin schemes check_exists fetch_text read_yaml uuid (classes_of v) (proxies_of v)).
Notation LoadsField v := (LoaderSpec.LoadsField urljoin schemes check_exists fetch_text read_yaml uuid (classes_of v) (proxies_of v)).
Definition inside (v : version) (uri : string) : options := within (Some "@list") (Some true) (options_of v uri false).
Lemma inside_good v uri : good v (inside v uri).
Proof. repeat split. Qed.
Lemma one_input s v k j uri w : In (s, v) version_names -> LoadsField v (inside v uri) j (LUnion (value_alternates v)) uri (Ok w) ->
  LoadsInputs (Some s) (JDict [(k, j)]) uri (Ok (VMap [(k, w)])).
Proof.
  intros I L. apply (inputs_map s v); auto. rewrite input_table. apply (map_ok urljoin schemes check_exists fetch_text read_yaml uuid (classes_of v) (proxies_of v)).
  exists [(k, w)]. split; [|reflexivity]. constructor; [split; [reflexivity|exact L]|constructor].
Qed.
Lemma one_refused s v k j uri : In (s, v) version_names -> LoadsField v (inside v uri) j (LUnion (value_alternates v)) uri (Err ValidationException) ->
  LoadsInputs (Some s) (JDict [(k, j)]) uri (Err ValidationException).
Proof.
  intros I [_ [n L]]. apply (inputs_map s v); auto. rewrite input_table. apply Loads_body. split; [discriminate|]. exists n. cbn [load_body load_values].
  change (with_container (Some "@list") (Some true) (options_of v uri false)) with (inside v uri). rewrite L. reflexivity.
Qed.
(** Two records with the same id in a list: the input file is refused *)
Theorem C75_same_id_refuted s v k ds uri : In (s, v) version_names -> (forall x, In x schemes -> dget x (terms_of v) = None) ->
  Forall Plain ds -> ~ NoDup (ids ds) -> LoadsInputs (Some s) (JDict [(k, JList ds)]) uri (Err ValidationException).
Proof.
  intros I N P D. apply (one_refused s v); auto. pose proof (inside_good v uri) as G.
  assert (V : Forall2 (Value uri) ds (map of_json ds)).
  { clear - P. induction P as [|d ds Pd P IH]; cbn [map]; constructor; auto. apply plain_value. exact Pd. }
  apply LoadsField_plain; [discriminate|].
  assert (R : Loads v requirements_loader (JList ds) uri (inside v uri) None (Err ValidationException)).
  { apply array_fail; [|right; exact D]. clear - V N G. induction V as [|d w ds ws Vd V IH]; constructor; auto.
    destruct (requirement_element urljoin schemes check_exists fetch_text read_yaml uuid v uri d w (inside v uri) G Vd) as [A|A]; [apply requirements_take; auto|right; exists w; exact A|left; exact A]. }
  assert (A : Loads v (LArray item_loader) (JList ds) uri (inside v uri) None (Err ValidationException)).
  { apply array_fail; [|right; exact D]. clear - V N G. induction V as [|d w ds ws Vd V IH]; constructor; auto. right. exists w. apply element_shown; auto. apply shown. exact N. }
  assert (O : Loads v object_loader (JList ds) uri (inside v uri) None (Err ValidationException)).
  { eapply proxy_via; [apply object_table|]. apply union_fail. unfold object_alternates.
    do 4 (apply Forall_cons; [apply prim_no; reflexivity|]). do 2 (apply Forall_cons; [apply record_no; congruence|]). apply Forall_cons; [exact A|]. apply Forall_cons; [|apply Forall_nil].
    apply C39_mapping_only; [congruence|discriminate|reflexivity]. }
  apply union_fail. assert (NN : Loads v (LPrim PNull) (JList ds) uri (inside v uri) None (Err ValidationException)) by (apply prim_no; reflexivity).
  unfold value_alternates. destruct v; repeat (apply Forall_cons; [first [exact NN|exact R|exact O]|]); apply Forall_nil.
Qed.

(** A description with a field that is misspelt, or not known, is no description: it is kept as it
    is, and its addresses are not those of the files *)
Theorem C75_misspelt_refuted s v k d key uri : (forall b u, urljoin b u <> Err OutOfFuel) -> (forall u, check_exists u <> Err OutOfFuel) ->
  (forall b u, loaded_or_refused (urljoin b u)) -> (forall u, loaded_or_refused (check_exists u)) ->
  In (s, v) version_names -> (forall x, In x schemes -> dget x (terms_of v) = None) ->
  dget "class" d = Some (JStr "File") -> Forall (fun kv => fst kv <> "$import" /\ fst kv <> "$include") d -> Forall (fun kv => Plain (snd kv) /\ self_contained (snd kv)) d ->
  In key (dkeys d) -> key <> "class" -> ~ In key (map fst file_fields) -> has_char ":" key = false ->
  LoadsInputs (Some s) (JDict [(k, JDict d)]) uri (Ok (VMap [(k, of_json (JDict d))])).
Proof.
  intros UJ CE UJ' CE' I N C ND P K K1 K2 K3. apply (one_input s v); auto. pose proof (inside_good v uri) as G.
  assert (SC : self_contained (JDict d)).
  { apply sc_dict. clear - ND P. induction P as [|kv d [_ S] P IH]; inversion ND; subst; constructor; auto. split; auto. }
  assert (NI : forall x, x = "$import" \/ x = "$include" -> dget x d = None) by (intros x X; apply (sc_no_key d x); [apply sc_dict; exact SC|exact X]).
  apply LoadsField_plain; [intros e [= <-]; split; apply NI; auto|].
  destruct (described_table v "File" file_fields (or_introl eq_refl)) as (kl & Kl & Kn & Ki & Kc & Kf).
  assert (F : Loads v (record_loader "File") (JDict d) uri (inside v uri) None (Err ValidationException)).
  { destruct (either_way UJ CE UJ' CE' v (record_loader "File") (JDict d) uri (inside v uri) None) as [[w L]|L]; auto; [destruct v; vm_compute; reflexivity|destruct v; vm_compute; reflexivity|].
    exfalso. eapply (C55_unknown_field _ _ _ _ _ _ _ _ "File" None None kl d uri (inside v uri) None w key); eauto.
    unfold attrs. rewrite Ki, Kc, Kf, map_map. cbn [app In]. intros [X|X]; [congruence|]. apply K2. exact X. }
  assert (Dr : Loads v (record_loader "Directory") (JDict d) uri (inside v uri) None (Err ValidationException)).
  { apply (other_class _ _ _ _ _ _ v "File"); auto; [exact (class_terms v _ _ (or_introl eq_refl))|apply file_other]. }
  assert (M : Loads v (LMap item_loader (fst (inner_settings v)) (snd (inner_settings v))) (JDict d) uri (inside v uri) None (Ok (of_json (JDict d)))).
  { apply (map_ok urljoin schemes check_exists fetch_text read_yaml uuid (classes_of v) (proxies_of v)). exists (map (fun kv => (fst kv, of_json (snd kv))) d). split; [|reflexivity].
    replace (within (fst (inner_settings v)) (snd (inner_settings v)) (inside v uri)) with (inside v uri) by (symmetry; apply (same_options v); [exact G|destruct v; auto]).
    clear - P N G. induction P as [|kv d [Pk _] P IH]; cbn [map]; constructor; auto. split; [reflexivity|]. cbn [snd]. apply item_shown; [apply shown; exact N|apply plain_value; exact Pk|exact G]. }
  assert (O : Loads v object_loader (JDict d) uri (inside v uri) None (Ok (of_json (JDict d)))).
  { eapply proxy_via; [apply object_table|]. eapply (alternate _ _ _ _ _ _ v uri [_; _; _; _; _; _; _]); [reflexivity| |exact M].
    do 4 (apply Forall_cons; [apply prim_no; reflexivity|]). apply Forall_cons; [exact F|]. apply Forall_cons; [exact Dr|]. apply Forall_cons; [apply array_no; congruence|apply Forall_nil]. }
  assert (NN : Loads v (LPrim PNull) (JDict d) uri (inside v uri) None (Err ValidationException)) by (apply prim_no; reflexivity).
  assert (R : Loads v requirements_loader (JDict d) uri (inside v uri) None (Err ValidationException)) by (apply array_no; congruence).
  unfold value_alternates. destruct v; [apply (union_at _ _ _ _ _ _ _ [LPrim PNull] object_loader [])|apply (union_at _ _ _ _ _ _ _ [LPrim PNull; requirements_loader] object_loader [])|apply (union_at _ _ _ _ _ _ _ [LPrim PNull; requirements_loader] object_loader [])];
    try exact O; repeat (apply Forall_cons; [first [exact NN|exact R]|]); apply Forall_nil.
Qed.

(** A format that is given with a prefix loses it, as the prefixes of input files are not read: it
    becomes the address of a part of the input file *)
Theorem C75_format_refuted s v k a pre term : In (s, v) version_names -> (forall x, In x schemes -> dget x (terms_of v) = None) ->
  proper a -> a_fragment a = "" -> a_path a <> "" -> scheme_name pre -> ~ In pre schemes -> dget pre (terms_of v) = None -> name term ->
  exists fs, LoadsInputs (Some s) (JDict [(k, JDict [("class", JStr "File"); ("format", JStr (pre ++ ":" ++ term))])]) (text_of a) (Ok (VMap [(k, VObj "File" fs [])])) /\
    dget "format" fs = Some (VStr (text_of a ++ "#" ++ term)%string).
Proof.
  intros I N P A0 AP S NS V T. set (j := JDict [("class", JStr "File"); ("format", JStr (pre ++ ":" ++ term))]). pose proof (inside_good v (text_of a)) as G.
  assert (X : expand_url urljoin schemes (pre ++ ":" ++ term) (text_of a) (inside v (text_of a)) true false None = Ok (text_of a ++ "#" ++ term)%string).
  { destruct T as (T0 & K & S1 & S2 & S3 & N1 & N2).
    assert (F : exists c r, (pre ++ ":" ++ term)%string = String c r /\ is_lower c = true) by (destruct S as (c & r & -> & C & _); cbn [append]; eauto).
    rewrite expand_plain.
    - unfold resolved_url. cbv zeta. rewrite urlsplit_prefixed by auto. cbn [s_scheme s_fragment s_path]. destruct (smem pre schemes) eqn:M; [apply smem_In in M; contradiction|].
      rewrite andb_false_r. assert (E1 : startswith "$(" (pre ++ ":" ++ term) = false) by (destruct F as (c & r & -> & C); cbn; destruct c as [[] [] [] [] [] [] [] []]; try discriminate C; reflexivity).
      assert (E2 : startswith "${" (pre ++ ":" ++ term) = false) by (destruct F as (c & r & -> & C); cbn; destruct c as [[] [] [] [] [] [] [] []]; try discriminate C; reflexivity).
      rewrite E1, E2. cbn [orb andb]. change (String.eqb "" "") with true. cbv iota. rewrite urlsplit_text by auto. cbn [s_scheme s_netloc s_path s_query s_fragment]. rewrite A0. change (String.eqb "" "") with true. cbv iota.
      apply String.eqb_neq in AP. rewrite AP. cbn [as_term bind].
      pose proof (urlunsplit_text (at_part term a) (proper_at term a P (without_clean term K))) as U. cbn [at_part a_scheme a_host a_path a_query a_fragment] in U. rewrite U.
      f_equal. unfold text_of. cbn [at_part a_scheme a_host a_path a_query a_fragment]. rewrite A0. unfold part_of at 2 4. change (String.eqb "" "") with true. cbv iota. apply String.eqb_neq in T0. rewrite T0.
      rewrite !sapp_assoc. cbn [append]. reflexivity.
    - destruct F as (c & r & -> & C). intros E. injection E as -> _. discriminate C.
    - destruct F as (c & r & -> & C). intros E. injection E as -> _. discriminate C.
    - discriminate.
    - right. destruct (scheme_cut pre term S) as (c & r & _ & E & _). unfold before. cbn [append] in *. rewrite E. exact V. }
  eexists. split.
  - apply (one_input s v); auto. apply LoadsField_plain; [intros e [= <-]; auto|].
    match goal with |- LoaderProofs.Loads _ _ _ _ _ _ _ _ _ _ _ _ _ (Ok ?w) => assert (R : forall root, Loads v (record_loader "File") j (text_of a) (inside v (text_of a)) root (Ok w)) end.
    { intros root. destruct (described_table v "File" file_fields (or_introl eq_refl)) as (k' & K & Kn & Ki & Kc & Kf). apply (record_ok _ _ _ _ _ _ _ _ "File" None None k'); [exact K|].
      cbv zeta. eexists [], (text_of a), [("class", VStr "File")], _, []. split; [apply Identity_none; exact Ki|]. split; [|split; [|split]].
      - replace [("class", VStr "File")] with [("class", VStr (c_name k'))] by (rewrite Kn; reflexivity). eapply Classed_by; [exact Kc|reflexivity|discriminate| |left; symmetry; exact Kn].
        apply LoadsField_plain; [discriminate|]. apply (uri_via urljoin schemes check_exists fetch_text read_yaml uuid (classes_of v) (proxies_of v)). cbv zeta beta iota.
        rewrite ShorthandProofs.expand_term by (exact (class_terms v _ _ (or_introl eq_refl))). cbn [bind]. unfold link. cbn [within no_link_check with_container]. cbn [bind].
        apply Loads_body. split; [discriminate|]. exists 0. reflexivity.
      - rewrite Kf. unfold file_fields. cbn [map fst snd].
        assert (AB : forall f l, In f ["location"; "path"; "basename"; "dirname"; "nameroot"; "nameext"; "checksum"; "size"; "secondaryFiles"; "contents"] ->
          fst (f, VNull) = f_name (Field f false l false) /\ FieldValue (LoadsField v (with_container None None (inside v (text_of a)))) (LoaderSpec.Scoped urljoin schemes (with_container None None (inside v (text_of a))))
            [("class", JStr "File"); ("format", JStr (pre ++ ":" ++ term))] (text_of a) (Field f false l false) (snd (f, VNull))).
        { intros f l If. split; [reflexivity|]. eapply Field_absent with (b := text_of a); [exact eq_refl| |reflexivity]. cbn [f_name]. repeat destruct If as [<- | If]; try reflexivity. destruct If. }
        do 9 (match goal with |- Forall2 _ (Field ?f _ _ _ :: _) _ => apply Forall2_cons with (y := (f, VNull)); [apply AB; cbn; tauto|] end).
        apply Forall2_cons with (y := ("format", VStr (text_of a ++ "#" ++ term)%string)).
        { split; [reflexivity|]. eapply Field_present with (b := text_of a); [exact eq_refl|reflexivity|discriminate|]. cbn [f_loader loader_of snd]. apply LoadsField_plain; [discriminate|].
          apply uri_str; [reflexivity|]. exact X. }
        apply Forall2_cons with (y := ("contents", VNull)); [apply AB; cbn; tauto|]. apply Forall2_nil.
      - assert (O : others k' [("class", JStr "File"); ("format", JStr (pre ++ ":" ++ term))] = []).
        { unfold others, attrs. rewrite Ki, Kc, Kf. reflexivity. }
        rewrite O. constructor.
      - rewrite Kn. reflexivity. }
    match goal with |- LoaderProofs.Loads _ _ _ _ _ _ _ _ _ _ _ _ _ ?r => assert (O : Loads v object_loader j (text_of a) (inside v (text_of a)) None r) end.
    { eapply proxy_via; [apply object_table|]. eapply (alternate _ _ _ _ _ _ v (text_of a) [_; _; _; _]); [reflexivity| |apply R]. do 4 (apply Forall_cons; [apply prim_no; reflexivity|]). apply Forall_nil. }
    assert (NN : Loads v (LPrim PNull) j (text_of a) (inside v (text_of a)) None (Err ValidationException)) by (apply prim_no; reflexivity).
    assert (Rq : Loads v requirements_loader j (text_of a) (inside v (text_of a)) None (Err ValidationException)) by (apply array_no; try subst j; discriminate).
    unfold value_alternates. destruct v; [apply (union_at _ _ _ _ _ _ _ [LPrim PNull] object_loader [])|apply (union_at _ _ _ _ _ _ _ [LPrim PNull; requirements_loader] object_loader [])|apply (union_at _ _ _ _ _ _ _ [LPrim PNull; requirements_loader] object_loader [])];
      try exact O; repeat (apply Forall_cons; [first [exact NN|exact Rq]|]); apply Forall_nil.
  - reflexivity.
Qed.

(** ** The [default] of a parameter or of an input of a step, which is loaded by the same rules but
    inside a document *)
Definition DefaultLoader (v : version) (c : string) (l : loader) : Prop :=
  exists k f, classes_of v c = Some k /\ In f (c_fields k) /\ f_name f = "default" /\ f_loader f = l.
Lemma default_table v c l : In c ["CommandInputParameter"; "WorkflowStepInput"] -> DefaultLoader v c l -> l = item_loader.
Proof.
  intros I (k & f & K & F & N & <-). destruct I as [<-|[<-|[]]]; destruct v; vm_compute in K; injection K as <-; cbn [c_fields In] in F;
    repeat (destruct F as [<-|F]; [first [discriminate N|reflexivity]|]); destruct F.
Qed.
(** Finding: lists in the list are not kept, their elements are put into one list *)
Lemma ints_ids zs : ids (map JInt zs) = [].
Proof. induction zs; cbn; auto. Qed.
Lemma lists_ids zss : ids (map (fun zs => JList (map JInt zs)) zss) = [].
Proof. induction zss; cbn; auto. Qed.
Lemma item_int v z b o root : Loads v item_loader (JInt z) b o root (Ok (VInt z)).
Proof.
  apply (union_at _ _ _ _ _ _ _ [LPrim PNull] object_loader []); [apply Forall_cons; [apply prim_no; reflexivity|apply Forall_nil]|]. eapply proxy_via; [apply object_table|].
  eapply (alternate _ _ _ _ _ _ v b [_]); [reflexivity|apply Forall_cons; [apply prim_no; reflexivity|apply Forall_nil]|apply prim_ok; reflexivity].
Qed.
Lemma element_int v z b o : LoadsField v o (JInt z) (LUnion [LArray item_loader; item_loader]) b (Ok (VInt z)).
Proof.
  apply LoadsField_plain; [discriminate|]. apply (union_at _ _ _ _ _ _ _ [LArray item_loader] item_loader []); [|apply item_int].
  apply Forall_cons; [apply array_no; discriminate|apply Forall_nil].
Qed.
Lemma array_ints v zs b o root : Loads v (LArray item_loader) (JList (map JInt zs)) b o root (Ok (VSeq (map VInt zs))).
Proof.
  apply array_ok. exists (map VInt zs). split; [|split; [rewrite ints_ids; constructor|]].
  - induction zs as [|z zs IH]; cbn [map]; constructor; auto. apply element_int.
  - f_equal. unfold flat. destruct (flattens o); auto. induction zs as [|z zs IH]; cbn [map element List.concat app]; [reflexivity|]. rewrite <- IH. reflexivity.
Qed.
Theorem C75_default_lists_refuted v c l zss b o : In c ["CommandInputParameter"; "WorkflowStepInput"] -> DefaultLoader v c l -> container o <> Some "@list" ->
  LoadsField v o (JList (map (fun zs => JList (map JInt zs)) zss)) l b (Ok (VSeq (map VInt (List.concat zss)))).
Proof.
  intros I D C. rewrite (default_table v c l I D). apply LoadsField_plain; [discriminate|].
  assert (A : Loads v (LArray item_loader) (JList (map (fun zs => JList (map JInt zs)) zss)) b o None (Ok (VSeq (map VInt (List.concat zss))))).
  { apply array_ok. exists (map (fun zs => VSeq (map VInt zs)) zss). split; [|split; [rewrite lists_ids; constructor|]].
    - induction zss as [|zs zss IH]; cbn [map]; constructor; auto. apply LoadsField_plain; [discriminate|]. apply (union_at _ _ _ _ _ _ _ [] (LArray item_loader) [item_loader]); [apply Forall_nil|apply array_ints].
    - f_equal. assert (F : flattens o = true) by (unfold flattens; destruct (container o) as [x|]; auto; destruct (String.eqb_spec x "@list"); [congruence|reflexivity]).
      rewrite F. unfold flat. induction zss as [|zs zss IH]; cbn [map element List.concat]; [reflexivity|]. rewrite <- IH, map_app. reflexivity. }
  apply (union_at _ _ _ _ _ _ _ [LPrim PNull] object_loader []); [apply Forall_cons; [apply prim_no; reflexivity|apply Forall_nil]|]. eapply proxy_via; [apply object_table|].
  eapply (alternate _ _ _ _ _ _ v b [_; _; _; _; _; _]); [reflexivity| |exact A]. do 4 (apply Forall_cons; [apply prim_no; reflexivity|]). do 2 (apply Forall_cons; [apply record_no; congruence|]). apply Forall_nil.
Qed.
(** Finding: a file that does not exist is reported nowhere, its description is taken as a mapping of
    texts *)
Theorem C75_default_missing_refuted v c l b u s o : (forall b u, urljoin b u <> Err OutOfFuel) -> (forall u, check_exists u <> Err OutOfFuel) ->
  (forall b u, loaded_or_refused (urljoin b u)) -> (forall u, loaded_or_refused (check_exists u)) -> (forall x, In x schemes -> dget x (terms_of v) = None) ->
  In c ["CommandInputParameter"; "WorkflowStepInput"] -> DefaultLoader v c l -> vocab o = terms_of v -> no_link_check o = false ->
  name s -> urljoin b s = Ok u -> check_exists u = Ok false ->
  LoadsField v o (JDict [("class", JStr "File"); ("location", JStr s)]) l b (Ok (VMap [("class", VStr "File"); ("location", VStr s)])).
Proof.
  intros UJ CE UJ' CE' N I D V NL NM J X. rewrite (default_table v c l I D). apply LoadsField_plain; [intros e [= <-]; auto|]. set (d := [("class", JStr "File"); ("location", JStr s)]).
  destruct (described_table v "File" file_fields (or_introl eq_refl)) as (kl & Kl & Kn & Ki & Kc & Kf).
  assert (SC : self_contained (JDict d)).
  { apply sc_dict. repeat (apply Forall_cons; [cbn [fst snd]; repeat split; discriminate|]). apply Forall_nil. }
  assert (F : forall root, Loads v (record_loader "File") (JDict d) b o root (Err ValidationException)).
  { intros root. destruct (either_way UJ CE UJ' CE' v (record_loader "File") (JDict d) b o root) as [[w L]|L]; auto; [destruct v; vm_compute; reflexivity|destruct v; vm_compute; reflexivity|].
    exfalso. apply (record_ok _ _ _ _ _ _ _ _ "File" None None kl) in L; [|exact Kl]. cbv zeta in L. destruct L as (i & b' & cl & fs & ext & Id & _ & Fs & _).
    assert (b' = b) as -> by (inversion Id; congruence).
    rewrite Kf in Fs. inversion Fs as [|f0 kv0 fl fsl [_ FV] _]; subst. cbn [fst snd] in FV.
    inversion FV as [b1 _ G|b1 j w' Sc G _ L]; cbn [f_name] in G; [discriminate G|]. subst. injection G as <-. cbn in Sc. subst b1. cbn [f_loader loader_of] in L.
    apply LoadsField_plain in L; [|discriminate]. apply (uri_via urljoin schemes check_exists fetch_text read_yaml uuid (classes_of v) (proxies_of v)) in L. cbv zeta beta iota in L.
    rewrite (located_expands urljoin schemes v b N s u) in L by (first [exact V|right; split; assumption]). cbn [bind] in L. unfold link in L. cbn [within no_link_check with_container] in L. rewrite NL, X in L. cbn [bind] in L. destruct L as [L _]. discriminate L. }
  assert (Dr : forall root, Loads v (record_loader "Directory") (JDict d) b o root (Err ValidationException)).
  { intros root. destruct (either_way UJ CE UJ' CE' v (record_loader "Directory") (JDict d) b o root) as [[w L]|L]; auto; [destruct v; vm_compute; reflexivity|destruct v; vm_compute; reflexivity|].
    exfalso. destruct (described_table v "Directory" directory_fields (or_intror (or_introl eq_refl))) as (kd & Kd & Dn & Di & Dc & Df).
    apply (record_ok _ _ _ _ _ _ _ _ "Directory" None None kd) in L; [|exact Kd]. cbv zeta in L. destruct L as (i & b' & cl & fs & ext & _ & C & _).
    destruct C as [C|l' j x C G _ L _]; [congruence|]. replace l' with (LUri (LEnum ["Directory"]) false true None None) in L by congruence. injection G as <-.
    apply LoadsField_plain in L; [|discriminate]. apply (uri_via urljoin schemes check_exists fetch_text read_yaml uuid (classes_of v) (proxies_of v)) in L. cbv zeta beta iota in L.
    rewrite ShorthandProofs.expand_term in L by (cbn [within with_container vocab]; rewrite V; exact (class_terms v _ _ (or_introl eq_refl))). cbn [bind] in L.
    destruct (link _ _ _); cbn [bind] in L; [|destruct L; discriminate]. apply Loads_body in L. destruct L as [_ [n L]]. discriminate L. }
  assert (T : forall t o, LoadsField v o (JStr t) item_loader b (Ok (VStr t))).
  { intros t o'. apply LoadsField_plain; [discriminate|]. apply (union_at _ _ _ _ _ _ _ [LPrim PNull] object_loader []); [apply Forall_cons; [apply prim_no; reflexivity|apply Forall_nil]|].
    eapply proxy_via; [apply object_table|]. eapply (alternate _ _ _ _ _ _ v b [_; _; _]); [reflexivity|do 3 (apply Forall_cons; [apply prim_no; reflexivity|]); apply Forall_nil|apply prim_ok; reflexivity]. }
  assert (M : Loads v (LMap item_loader (fst (inner_settings v)) (snd (inner_settings v))) (JDict d) b o None (Ok (VMap [("class", VStr "File"); ("location", VStr s)]))).
  { apply (map_ok urljoin schemes check_exists fetch_text read_yaml uuid (classes_of v) (proxies_of v)). eexists. split; [|reflexivity].
    repeat (apply Forall2_cons; [split; [reflexivity|apply T]|]). apply Forall2_nil. }
  apply (union_at _ _ _ _ _ _ _ [LPrim PNull] object_loader []); [apply Forall_cons; [apply prim_no; reflexivity|apply Forall_nil]|]. eapply proxy_via; [apply object_table|].
  eapply (alternate _ _ _ _ _ _ v b [_; _; _; _; _; _; _]); [reflexivity| |exact M].
  do 4 (apply Forall_cons; [apply prim_no; reflexivity|]). apply Forall_cons; [apply F|]. apply Forall_cons; [apply Dr|]. apply Forall_cons; [apply array_no; congruence|apply Forall_nil].
Qed.
End Props.

(** ** Examples *)
Module Demo.
Definition schemes : list string := ["file"; "http"; "https"; "mailto"].
Definition home : string := "file:///data/in.yml".
Definition urljoin (b u : string) : result string := Ok ("file:///data/" ++ u)%string.
Definition missing (u : string) : result bool := if startswith "file:" u then Ok false else Err ValidationException.
Definition reads : json := JDict [("class", JStr "File"); ("location", JStr "a.fq"); ("size", JInt 12); ("format", JStr "http://edamontology.org/format_1930");
  ("secondaryFiles", JList [JDict [("class", JStr "Directory"); ("path", JStr "index"); ("listing", JList [])]])].
Definition inputs : list (string * json) :=
  [("reads", reads); ("rows", JList [JList [JInt 1; JInt 2]; JList [JInt 3]; JList []]); ("more", JDict [("a", JNull); ("b", JList [JFloat "1.5"; JStr "x"; reads])])].
Definition reads_value : lv := VObj "File" [("class", VStr "File"); ("location", VStr "file:///data/a.fq"); ("path", VNull); ("basename", VNull); ("dirname", VNull); ("nameroot", VNull); ("nameext", VNull);
  ("checksum", VNull); ("size", VInt 12);
  ("secondaryFiles", VSeq [VObj "Directory" [("class", VStr "Directory"); ("location", VNull); ("path", VStr "file:///data/index"); ("basename", VNull); ("listing", VSeq [])] []]);
  ("format", VStr "http://edamontology.org/format_1930"); ("contents", VNull)] [].
Definition values : list (string * lv) :=
  [("reads", reads_value); ("rows", VSeq [VSeq [VInt 1; VInt 2]; VSeq [VInt 3]; VSeq []]); ("more", VMap [("a", VNull); ("b", VSeq [VFloat "1.5"; VStr "x"; reads_value])])].
Definition here : address := Address "file" "" "/data/in.yml" "" "".
End Demo.
(** No scheme is a prefix of any version's vocabulary *)
Example C75_schemes_example : forall v x, In x Demo.schemes -> dget x (terms_of v) = None.
Proof. intros v x [<-|[<-|[<-|[<-|[]]]]]; destruct v; vm_compute; reflexivity. Qed.
Lemma name_example s : In s ["a.fq"; "index"; "format_1930"] -> name s.
Proof. intros [<-|[<-|[<-|[]]]]; repeat split; discriminate. Qed.
Lemma reads_example : Value Demo.urljoin Demo.schemes Demo.home Demo.reads Demo.reads_value.
Proof.
  eapply Value_file; [left; reflexivity|reflexivity|intros k K; repeat (destruct K as [<-|K]; [cbn; tauto|]); destruct K|].
  repeat (apply Forall2_cons; [split; [reflexivity|]|]); try apply Forall2_nil; cbn [snd fst dget]; try apply Part_absent.
  - apply Part_address. right. split; [apply name_example; cbn; auto|reflexivity].
  - apply Part_number.
  - apply Part_files; [|repeat (apply Forall_cons; [eexists _, _; reflexivity|]); apply Forall_nil]. apply Forall2_cons; [|apply Forall2_nil].
    eapply Value_file; [right; left; reflexivity|reflexivity|intros k K; repeat (destruct K as [<-|K]; [cbn; tauto|]); destruct K|].
    repeat (apply Forall2_cons; [split; [reflexivity|]|]); try apply Forall2_nil; cbn [snd fst dget]; try apply Part_absent.
    + apply Part_address. right. split; [apply name_example; cbn; auto|reflexivity].
    + apply Part_files; constructor.
  - apply Part_format. exists (Address "http" "edamontology.org" "/format_1930" "" ""). split; [|split; [cbn; auto|reflexivity]].
    split; [exists "h"%char, "ttp"; repeat split|]. repeat split; cbn; auto; left; discriminate.
Qed.
Example C75_inputs_example : Inputs Demo.urljoin Demo.schemes Demo.home Demo.inputs Demo.values.
Proof.
  pose proof reads_example as R. repeat (apply Forall2_cons; [split; [reflexivity|]|]); try apply Forall2_nil; cbn [snd].
  - exact R.
  - repeat (first [apply Value_list|apply Value_int|apply Forall2_cons|apply Forall2_nil|apply NoDup_nil]).
  - apply Value_record; [intros k [<-|[<-|[<-|[]]]] K; cbn in K; intuition discriminate|]. repeat (apply Forall2_cons; [split; [reflexivity|]|]); try apply Forall2_nil; cbn [snd]; [apply Value_null|].
    apply Value_list; [|apply NoDup_nil]. repeat (first [exact R|apply Value_float|apply Value_text|apply Forall2_cons|apply Forall2_nil]).
Qed.
(** ... and the loader run on it, where no file exists *)
Example C75_run_example : LoadsInputs Demo.urljoin Demo.schemes Demo.missing (fun _ => Err ValidationException) (fun _ => Err ValidationException) (fun _ => "u") (Some "v1.2")
  (JDict Demo.inputs) Demo.home (Ok (VMap Demo.values)).
Proof. apply (C75_inputs_partial _ _ _ _ _ _ "v1.2" V1_2); [cbn; auto|exact (C75_schemes_example V1_2)|exact C75_inputs_example]. Qed.
Example C75_plain_example : Forall (fun kv => Plain (snd kv)) [("rows", JList [JList [JInt 1]; JDict [("id", JStr "x")]]); ("n", JNull)] /\
  Forall Plain [JDict [("id", JStr "x")]; JDict [("id", JStr "x")]] /\ ~ NoDup (ids [JDict [("id", JStr "x")]; JDict [("id", JStr "x")]]).
Proof.
  assert (P : Plain (JDict [("id", JStr "x")])).
  { apply Plain_record; [intros k [<-|[<-|[<-|[]]]] K; cbn in K; intuition discriminate|repeat constructor]. }
  split; [|split; [repeat (apply Forall_cons; [exact P|]); apply Forall_nil|]].
  - apply Forall_cons; [|apply Forall_cons; [constructor|apply Forall_nil]]. cbn [snd]. apply Plain_list; [|repeat constructor; intros []].
    apply Forall_cons; [repeat constructor|apply Forall_cons; [exact P|apply Forall_nil]].
  - cbn. intros N. inversion N as [|a b C D]. apply C. cbn. auto.
Qed.
Example C75_misspelt_example : let d := [("class", JStr "File"); ("locatoin", JStr "a.fq")] in
  dget "class" d = Some (JStr "File") /\ Forall (fun kv => fst kv <> "$import" /\ fst kv <> "$include") d /\ Forall (fun kv => Plain (snd kv) /\ self_contained (snd kv)) d /\
  In "locatoin" (dkeys d) /\ ~ In "locatoin" (map fst file_fields) /\ has_char ":" "locatoin" = false /\
  (forall b u, loaded_or_refused (Demo.urljoin b u)) /\ (forall u, loaded_or_refused (Demo.missing u)).
Proof.
  cbv zeta. split; [reflexivity|]. split; [repeat constructor; discriminate|]. split; [repeat (apply Forall_cons; [split; [constructor|exact Logic.I]|]); apply Forall_nil|].
  split; [cbn; auto|]. split; [intros K; repeat (destruct K as [K|K]; [discriminate K|]); destruct K|]. split; [reflexivity|].
  split; [intros b u; exact Logic.I|]. intros u. unfold Demo.missing. destruct (startswith "file:" u); exact Logic.I.
Qed.
Example C75_format_example : proper Demo.here /\ a_fragment Demo.here = "" /\ a_path Demo.here <> "" /\ scheme_name "edam" /\ ~ In "edam" Demo.schemes /\
  (forall v, dget "edam" (terms_of v) = None) /\ name "format_1930" /\ text_of Demo.here = Demo.home.
Proof.
  split; [|split; [reflexivity|split; [discriminate|]]].
  - split; [exists "f"%char, "ile"; repeat split|]. repeat split; cbn; auto.
  - split; [exists "e"%char, "dam"; repeat split|]. split; [intros K; repeat (destruct K as [K|K]; [discriminate K|]); destruct K|].
    split; [intros v; destruct v; vm_compute; reflexivity|]. split; [apply name_example; cbn; auto|reflexivity].
Qed.
Example C75_default_example : forall v c, In c ["CommandInputParameter"; "WorkflowStepInput"] -> exists l, DefaultLoader v c l.
Proof.
  intros v c I. assert (X : exists k f, classes_of v c = Some k /\ find (fun f => String.eqb (f_name f) "default") (c_fields k) = Some f)
    by (destruct I as [<-|[<-|[]]]; destruct v; eexists _, _; (split; [vm_compute; reflexivity|vm_compute; reflexivity])).
  destruct X as (k & f & K & F). apply find_some in F. destruct F as [F N]. apply String.eqb_eq in N. exists (f_loader f), k, f. auto.
Qed.
Example C75_missing_example : Demo.urljoin "file:///data/tool.cwl" "a.fq" = Ok "file:///data/a.fq" /\ Demo.missing "file:///data/a.fq" = Ok false /\
  no_link_check (options_of V1_2 Demo.home false) = false /\ container (options_of V1_2 Demo.home false) <> Some "@list".
Proof. repeat split; discriminate. Qed.
Example C75_part_example : has_char "#" "file:///data/in.yml#a" = true /\ plain_path "/data/in.yml" /\ startswith "/" "/data/in.yml" = true.
Proof. repeat split. Qed.

Print Assumptions C75_inputs_partial.
Print Assumptions C75_plain_partial.
Print Assumptions C75_only_mappings.
Print Assumptions C75_version.
Print Assumptions C75_named_file.
Print Assumptions C75_part_refuted.
Print Assumptions C75_path.
Print Assumptions C75_file_uri.
Print Assumptions C75_text.
Print Assumptions C75_loaded_or_refused_partial.
Print Assumptions C75_same_id_refuted.
Print Assumptions C75_misspelt_refuted.
Print Assumptions C75_format_refuted.
Print Assumptions C75_default_lists_refuted.
Print Assumptions C75_default_missing_refuted.
