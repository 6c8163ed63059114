(** * C57, C58 (and C37 for hints): the parsers of CWL v1.0, v1.1 and v1.2 *)
From Verif Require Import PyBase PyBaseProofs NameProofs ParserModel LoaderModel LoaderProofs ShorthandProofs LoaderSpec VersionModel VersionSpec VersionProofs RefusalProofs.
From Coq Require Import Lia.

Section Props.
Variables (urljoin : string -> string -> result string) (supported_schemes : list string) (check_exists : string -> result bool)
  (fetch_text : string -> result string) (read_yaml : string -> result json) (uuid : json -> string).
Let Parses := Parses urljoin supported_schemes check_exists fetch_text read_yaml uuid.
Let LoadsIn := LoadsIn urljoin supported_schemes check_exists fetch_text read_yaml uuid.

(** ** C57: the class field decides what a document is loaded as *)
Lemma no_keys d : plain_document d -> no_graph_keys d = d /\ namespaces d = [] /\ dget "$base" d = None /\ dget "$graph" d = None.
Proof.
  intros P. assert (A : forall k, In k ["$graph"; "$base"; "$namespaces"; "$schemas"] -> dpop k d = d) by (intros k I; apply dpop_absent, P, I).
  unfold no_graph_keys, namespaces. rewrite (A "$namespaces"), (A "$schemas"), (A "$base") by (cbn; tauto).
  rewrite (P "$namespaces"), (P "$base"), (P "$graph") by (cbn; tauto). auto.
Qed.
Lemma parses_plain v d base o r : plain_document d -> Parses v (JDict d) base o r <-> LoadsIn v (top_of v) (JDict d) base o (Some base) r.
Proof.
  intros P. destruct (no_keys d P) as (N & NS & B & G).
  assert (E : forall n, document_load urljoin supported_schemes check_exists fetch_text read_yaml uuid (classes_of v) (proxies_of v) (S n) (top_of v) (JDict d) base o
    = load urljoin supported_schemes check_exists fetch_text read_yaml uuid (classes_of v) (proxies_of v) n (top_of v) (JDict d) base o (Some base)).
  { intros n. unfold document_load, load. cbn [loads]. destruct (loads _ _ _ _ _ _ _ _ n) as [ld dl]. cbn [snd fst document_body].
    rewrite B. cbn [bind]. cbv zeta. rewrite N, NS, G. unfold with_namespaces. cbn [fold_left]. destruct o; reflexivity. }
  split; intros [O [n L]]; split; auto.
  - destruct n as [|n]; [cbn in L; congruence|]. exists n. rewrite <- E. exact L.
  - exists (S n). rewrite E. exact L.
Qed.
Lemma term_not_uri v t c : dmem t (terms_of v) = true -> In c (process_names v) -> dget c (terms_of v) <> Some t.
Proof.
  intros T I. assert (A : forallb (fun c => match dget c (terms_of v) with Some u => negb (dmem u (terms_of v)) | None => true end) (process_names v) = true)
    by (destruct v; vm_compute; reflexivity).
  apply (proj1 (forallb_forall _ _) A) in I. intros E. rewrite E, T in I. discriminate.
Qed.

(** A term in the class field: the document is loaded by that class's rules, or not at all *)
Theorem C57_dispatch v d base o t val : plain_document d -> vocab o = terms_of v -> dget "class" d = Some (JStr t) -> dmem t (terms_of v) = true ->
  (Parses v (JDict d) base o (Ok val) <->
   In t (process_names v) /\ LoadsIn v (LRecord t None None) (JDict d) base o (Some base) (Ok val)).
Proof.
  intros P V G T. rewrite parses_plain by auto. destruct (tables_share v) as (rest & idf & -> & Tb).
  apply (dispatch urljoin supported_schemes check_exists fetch_text read_yaml uuid (classes_of v) (proxies_of v) (process_names v) idf rest Tb d base o (Some base) val t G).
  - rewrite V. exact T.
  - intros c I. rewrite V. apply term_not_uri; auto.
  - apply names_distinct.
Qed.
Theorem C57_class_loaded v d base o t val : plain_document d -> vocab o = terms_of v -> dget "class" d = Some (JStr t) -> dmem t (terms_of v) = true ->
  Parses v (JDict d) base o (Ok val) -> In t (process_names v) /\ exists fields ext, val = VObj t fields ext.
Proof.
  intros P V G T L. apply (C57_dispatch v d base o t val) in L; auto. destruct L as [I L]. split; auto.
  destruct (tables_share v) as (rest & idf & _ & Tb).
  eapply (record_class urljoin supported_schemes check_exists fetch_text read_yaml uuid (classes_of v) (proxies_of v) (process_names v) idf Tb t d base o (Some base) val t); eauto.
  - rewrite V. exact T.
  - rewrite V. apply term_not_uri; auto.
Qed.
Theorem C57_class_needed v d base o val : plain_document d -> dget "class" d = None \/ dget "class" d = Some JNull -> ~ Parses v (JDict d) base o (Ok val).
Proof.
  intros P G L. apply parses_plain in L; auto. destruct (tables_share v) as (rest & idf & E & Tb). rewrite E in L.
  apply (no_class urljoin supported_schemes check_exists fetch_text read_yaml uuid (classes_of v) (proxies_of v) (process_names v) idf rest Tb d base o (Some base) val G L).
Qed.

(** ** C58: each parser accepts its own version only, and refuses with a validation error *)
Definition version_loader (w : string) (l : loader) : bool :=
  match l with LUri (LUnion [LPrim PNull; LEnum [s]]) false true None None => String.eqb s w | _ => false end.
Lemma version_field v t : In t (process_names v) -> exists k f, classes_of v t = Some k /\ In f (c_fields k) /\ f_name f = "cwlVersion" /\ f_subscope f = false /\
  f_loader f = LUri (LUnion [LPrim PNull; LEnum [version_text v]]) false true None None.
Proof.
  intros I.
  assert (A : forallb (fun t => match classes_of v t with
    | Some k => existsb (fun f => String.eqb (f_name f) "cwlVersion" && negb (f_subscope f) && version_loader (version_text v) (f_loader f)) (c_fields k)
    | None => false end) (process_names v) = true) by (destruct v; vm_compute; reflexivity).
  apply (proj1 (forallb_forall _ _) A) in I. destruct (classes_of v t) as [k|]; [|discriminate]. apply existsb_exists in I. destruct I as (f & If & H).
  exists k, f. apply andb_true_iff in H. destruct H as [H V]. apply andb_true_iff in H. destruct H as [N S]. apply String.eqb_eq in N. apply negb_true_iff in S.
  repeat split; auto. clear - V. destruct (f_loader f) as [| | | | | | | | |inner si vt sr nl| | |]; try discriminate.
  destruct inner as [| | | | | | | |alts| | | |]; try discriminate. destruct alts as [|[|[]| | | | | | | | | | |] [|[| |[|w []]| | | | | | | | | |] [|]]]; try discriminate.
  destruct si, vt, sr, nl; try discriminate. cbn in V. apply String.eqb_eq in V. congruence.
Qed.
Theorem C58_version_checked v d base o t val s : plain_document d -> vocab o = terms_of v -> dget "class" d = Some (JStr t) -> dmem t (terms_of v) = true ->
  dget "cwlVersion" d = Some (JStr s) -> Parses v (JDict d) base o (Ok val) ->
  exists b, Means urljoin supported_schemes b o None s (version_text v).
Proof.
  intros P V G T GV L. apply (C57_dispatch v d base o t val) in L; auto. destruct L as [I L].
  destruct (version_field v t I) as (k & f & K & If & FN & FS & FL).
  apply (proj1 (record_ok urljoin supported_schemes check_exists fetch_text read_yaml uuid (classes_of v) (proxies_of v) t None None k d base o (Some base) val K)) in L.
  destruct L as (i & b & c & fs & ext & _ & _ & F & _ & _).
  assert (X : exists kv, fst kv = f_name f /\ FieldValue (fun j l b r => LoaderProofs.LoadsField urljoin supported_schemes check_exists fetch_text read_yaml uuid (classes_of v) (proxies_of v) j l b (with_container None None o) r) (LoaderSpec.Scoped urljoin supported_schemes (with_container None None o)) d b f (snd kv)).
  { clear - F If. induction F as [|f' kv fs' kvs H F IH]; [destruct If|]. destruct If as [<-|If]; [exists kv; exact H|auto]. }
  destruct X as (kv & _ & X). inversion X as [b' S D R|b' j w S D R FLd]; [congruence|]. rewrite FN, GV in D. injection D as <-. unfold ScopeOf in S. rewrite FS in S. subst b'.
  rewrite FL in FLd. destruct FLd as [_ [n Ln]]. cbn [load_field] in Ln. destruct n as [|n]; [discriminate|]. rewrite load_S in Ln. cbn [load_body] in Ln. cbv zeta in Ln.
  exists b. unfold Means. change (expand_url urljoin supported_schemes s b o false true None) with (expand_url urljoin supported_schemes s b (with_container None None (with_container None None o)) false true None).
  destruct (expand_url urljoin supported_schemes s b (with_container None None (with_container None None o)) false true None) as [u|]; cbn [bind] in Ln; [|discriminate].
  match type of Ln with bind ?r _ = _ => destruct r as [[]|]; cbn [bind] in Ln; [|discriminate] end.
  destruct n as [|n]; [discriminate|]. rewrite load_S in Ln. cbn [load_body map first_of] in Ln.
  destruct n as [|n]; [discriminate|]. rewrite !load_S in Ln. cbn [load_body is_prim] in Ln. destruct (smem u [version_text v]) eqn:M; [|discriminate]. apply smem_In in M. destruct M as [<-|[]]. reflexivity.
Qed.
(** So a document marked with another CWL version is refused *)
Theorem C58_other_version v d base o t val s : plain_document d -> vocab o = terms_of v -> rvocab o = back_of v ->
  dget "class" d = Some (JStr t) -> dmem t (terms_of v) = true ->
  dget "cwlVersion" d = Some (JStr s) -> has_char ":" s = false -> s <> version_text v -> (forall b u, urljoin b s = Ok u -> u <> version_uri v) ->
  ~ Parses v (JDict d) base o (Ok val).
Proof.
  intros P V RV G T GV NC N J L. destruct (C58_version_checked v d base o t val s P V G T GV L) as [b M]. unfold Means in M.
  assert (B : forall u, dget u (back_of v) = Some (version_text v) -> u = version_uri v).
  { intros u E. apply dget_In in E.
    assert (A : forallb (fun kv => negb (String.eqb (snd kv) (version_text v)) || String.eqb (fst kv) (version_uri v)) (back_of v) = true) by (destruct v; vm_compute; reflexivity).
    apply (proj1 (forallb_forall _ _) A) in E. cbn [fst snd] in E. rewrite String.eqb_refl in E. apply String.eqb_eq in E. exact E. }
  assert (U : forall u, (if String.eqb (s_scheme (urlsplit u)) "" then Err ValidationException
    else match dget u (rvocab o) with Some t => Ok t | None => Ok u end) = Ok (version_text v) -> u = version_uri v).
  { intros u. destruct (String.eqb (s_scheme (urlsplit u)) "") eqn:SC; [discriminate|]. rewrite RV.
    destruct (dget u (back_of v)) eqn:D; [|intros [= ->]; destruct v; discriminate SC]. intros [= ->]. apply B. exact D. }
  assert (SC : s_scheme (urlsplit s) = "") by (apply no_colon_scheme; exact NC).
  unfold expand_url in M. destruct (String.eqb_spec s "@id") as [->|_]; [destruct v; discriminate M|].
  destruct (String.eqb_spec s "@type") as [->|_]; [destruct v; discriminate M|]. cbn [orb andb] in M.
  destruct (dmem s (vocab o)); [congruence|]. rewrite NC in M.
  replace (match vocab o with [] => s | _ :: _ => s end) with s in M by (destruct (vocab o); reflexivity). cbv zeta in M. rewrite SC in M. cbn [negb String.eqb andb orb] in M.
  destruct (startswith "$(" s || startswith "${" s) eqn:X.
  - cbn [bind] in M. apply U in M. subst s. destruct v; discriminate NC.
  - destruct (urljoin b s) as [u|] eqn:JU; cbn [bind] in M; [|discriminate]. apply U in M. exact (J b u JU M).
Qed.

Theorem C58_loaded_or_refused v d base o r :
  (forall b u, loaded_or_refused (urljoin b u)) -> (forall u, loaded_or_refused (check_exists u)) ->
  self_contained (JDict d) -> dget "$base" d = None \/ (exists b, dget "$base" d = Some (JStr b)) ->
  Parses v (JDict d) base o r -> (exists val, r = Ok val) \/ r = Err ValidationException.
Proof.
  intros UJ CE SC B [O [n L]].
  assert (F : loaded_or_refused r).
  { destruct n as [|n]; [cbn in L; congruence|]. unfold document_load in L. cbn [loads] in L.
    assert (LD : forall j b o root, self_contained j -> loaded_or_refused (fst (loads urljoin supported_schemes check_exists fetch_text read_yaml uuid (classes_of v) (proxies_of v) n) (top_of v) j b o root)).
    { intros j b o' root S. apply (load_fine urljoin supported_schemes check_exists fetch_text read_yaml uuid (classes_of v) (proxies_of v) UJ CE (known_in v) (proxied_in v) (tables_known v) (tables_proxied v)); auto.
      left. apply tables_top. }
    destruct (loads _ _ _ _ _ _ _ _ n) as [ld dl]. cbn [snd fst document_body] in L. cbn [fst] in LD.
    assert (BB : exists b, match dget "$base" d with None => Ok base | Some (JStr b) => Ok b | Some _ => Err TypeError end = Ok b) by (destruct B as [-> | [b ->]]; eauto).
    destruct BB as [b BB]. rewrite BB in L. cbn [bind] in L. cbv zeta in L. rewrite <- L.
    assert (SN : Forall sc_pair (no_graph_keys d)) by (unfold no_graph_keys; repeat apply sc_dpop; apply sc_dict, SC).
    destruct (dget "$graph" (no_graph_keys d)) as [g|] eqn:G; apply LD; [eapply sc_dget; eauto|apply sc_dict, SN]. }
  destruct r as [val|e]; [eauto|]. destruct e; try destruct F; [auto|congruence].
Qed.

Definition hints_loader (l : loader) : bool :=
  match l with LIdMap (LUnion [LPrim PNull; LArray LAny]) s (Some p) => String.eqb s "class" && String.eqb p "None" | _ => false end.
(** ** C37: the value key of hints, requirements and steps is the text None, not no key: a value that
    is no mapping is kept under it where any mapping is accepted *)
Theorem C37_hints_refuted v k z base o root :
  LoadsIn v (LIdMap (LUnion [LPrim PNull; LArray LAny]) "class" (Some "None")) (JDict [(k, JInt z)]) base o root
    (Ok (VSeq [VMap [("None", VInt z); ("class", VStr k)]])).
Proof. split; [discriminate|]. exists 6. reflexivity. Qed.
(** and this is the loader of the hints of a workflow step *)
Theorem C37_hints_loader_refuted v : exists c f, classes_of v "WorkflowStep" = Some c /\ In f (c_fields c) /\ f_name f = "hints" /\
  f_loader f = LIdMap (LUnion [LPrim PNull; LArray LAny]) "class" (Some "None").
Proof.
  assert (A : match classes_of v "WorkflowStep" with
    | Some k => existsb (fun f => String.eqb (f_name f) "hints" && hints_loader (f_loader f)) (c_fields k)
    | None => false end = true) by (destruct v; vm_compute; reflexivity).
  destruct (classes_of v "WorkflowStep") as [k|]; [|discriminate]. apply existsb_exists in A. destruct A as (f & If & H). exists k, f.
  apply andb_true_iff in H. destruct H as [N V]. apply String.eqb_eq in N. repeat split; auto. clear - V.
  destruct (f_loader f) as [| | | | | | | | | | |inner s p|]; try discriminate.
  destruct inner as [| | | | | | | |alts| | | |]; try discriminate. destruct alts as [|[|[]| | | | | | | | | | |] [|[| | | |[]| | | | | | | |] [|]]]; try discriminate.
  destruct p as [p|]; [|discriminate]. cbn in V. apply andb_true_iff in V. destruct V as [A B]. apply String.eqb_eq in A, B. congruence.
Qed.
End Props.

(** ** Cases that meet the hypotheses *)
Definition example_join (b u : string) : result string := Ok (b ++ "/" ++ u)%string.
Definition example_check (u : string) : result bool := Ok true.
Definition example_fetch (u : string) : result string := Err GenericException.
Definition example_yaml (u : string) : result json := Err GenericException.
Definition example_uuid (j : json) : string := "0".
Definition example_tool (version : string) : list (string * json) :=
  [("class", JStr "ExpressionTool"); ("cwlVersion", JStr version); ("inputs", JDict [("a", JStr "int[]?")]); ("outputs", JList []); ("expression", JStr "$(1)")].
Example C57_example : forall v, exists val,
  Parses example_join ["file"] example_check example_fetch example_yaml example_uuid v (JDict (example_tool (version_text v))) "file:///a.cwl" (options_of v "file:///a.cwl" false) (Ok val).
Proof. intros v; destruct v; eexists; (split; [discriminate|exists 20; vm_compute; reflexivity]). Qed.
Example C57_example_hypotheses : forall v, let d := example_tool (version_text v) in plain_document d /\ vocab (options_of v "file:///a.cwl" false) = terms_of v /\
  dget "class" d = Some (JStr "ExpressionTool") /\ dmem "ExpressionTool" (terms_of v) = true /\ dmem (version_text v) (terms_of v) = true /\ self_contained (JDict d).
Proof.
  intros v. cbv zeta. split; [intros k I; cbn in I; repeat destruct I as [<-|I]; try reflexivity; destruct I|]. split; [destruct v; reflexivity|]. split; [reflexivity|].
  split; [destruct v; vm_compute; reflexivity|]. split; [destruct v; vm_compute; reflexivity|]. destruct v; cbn; repeat split; discriminate.
Qed.
(** A v1.0 document given to the v1.2 parser *)
Example C58_example : Parses example_join ["file"] example_check example_fetch example_yaml example_uuid V1_2 (JDict (example_tool "v1.0")) "file:///a.cwl"
  (options_of V1_2 "file:///a.cwl" false) (Err ValidationException).
Proof. split; [discriminate|]. exists 20. vm_compute. reflexivity. Qed.
Example C58_example_hypotheses : has_char ":" "v1.0" = false /\ "v1.0" <> version_text V1_2 /\ (forall b u, example_join b "v1.0" = Ok u -> u <> version_uri V1_2) /\
  (forall b u, loaded_or_refused (example_join b u)) /\ (forall u, loaded_or_refused (example_check u)).
Proof.
  split; [reflexivity|]. split; [discriminate|]. split; [|split; intros; exact I].
  intros b u [= <-] E. assert (A : endswith "/v1.0" (b ++ "/v1.0") = true) by (apply endswith_spec; eauto). rewrite E in A. discriminate.
Qed.

Print Assumptions C57_dispatch.
Print Assumptions C57_class_loaded.
Print Assumptions C57_class_needed.
Print Assumptions C58_version_checked.
Print Assumptions C58_other_version.
Print Assumptions C58_loaded_or_refused.
Print Assumptions C37_hints_refuted.
Print Assumptions C37_hints_loader_refuted.
