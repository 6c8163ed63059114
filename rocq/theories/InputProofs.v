(** * Proofs for C75: input files *)
From Verif Require Import PyBase PyBaseProofs ParserModel LoaderModel LoaderSpec LoaderProofs ShorthandProofs AddressSpec AddressProofs VersionModel InputModel InputSpec.
From Verif Require CwlTablesV1_0 CwlTablesV1_1 CwlTablesV1_2.
From Coq Require Import Lia.

(** ** The tables *)
Definition object_loader : loader := LProxy "CWLObjectTypeLoader".
Definition item_loader : loader := LUnion [LPrim PNull; object_loader].
Definition inner_settings (v : version) : option string * option bool := match v with V1_0 => (Some "@list", Some true) | _ => (None, None) end.
Definition record_loader (c : string) : loader := LRecord c None None.
Definition object_alternates (v : version) : list loader :=
  [LPrim PBool; LPrim PInt; LPrim PFloat; LPrim PStr; record_loader "File"; record_loader "Directory"; LArray item_loader;
   LMap item_loader (fst (inner_settings v)) (snd (inner_settings v))].
Lemma object_table v : proxies_of v "CWLObjectTypeLoader" = Some (LUnion (object_alternates v)).
Proof. destruct v; vm_compute; reflexivity. Qed.
Definition requirements_loader : loader := LArray (LProxy "ProcessRequirementLoader").
Definition value_alternates (v : version) : list loader :=
  match v with V1_0 => [LPrim PNull; object_loader] | _ => [LPrim PNull; requirements_loader; object_loader] end.
Lemma input_table v : input_loader v = LMap (LUnion (value_alternates v)) (Some "@list") (Some true).
Proof. destruct v; reflexivity. Qed.

(** Classes that have no identifier and a class field which is not the given one *)
Definition shape (c : string) (names : list (string * string)) (k : class) : bool :=
  match c_id k with
  | Some _ => false
  | None =>
      match c_class k with
      | Some (LUri (LEnum syms) false true None None) => negb (smem c syms)
      | Some (LUri (LPrim PStr) false true None None) =>
          negb (String.eqb c (c_name k)) && match dget (c_name k) names with Some t => negb (String.eqb c t) | None => true end
      | _ => false
      end
  end.
Definition other (v : version) (c : string) (l : loader) : bool :=
  match l with LRecord cls None None => match classes_of v cls with Some k => shape c (terms_of v) k | None => false end | _ => false end.
Definition requirements (v : version) : list loader :=
  match proxies_of v "ProcessRequirementLoader" with Some (LUnion l) => l | _ => [] end.
Lemma requirements_table v : proxies_of v "ProcessRequirementLoader" = Some (LUnion (requirements v)) /\
  forallb (fun l => other v "File" l && other v "Directory" l) (requirements v) = true.
Proof. destruct v; (split; vm_compute; reflexivity). Qed.
Lemma file_other v : other v "Directory" (record_loader "File") = true /\ other v "File" (record_loader "Directory") = true.
Proof. destruct v; (split; vm_compute; reflexivity). Qed.
Lemma class_terms v c fields : In (c, fields) described -> dmem c (terms_of v) = true.
Proof. intros [E|[E|[]]]; injection E as <- <-; destruct v; vm_compute; reflexivity. Qed.

(** The fields of the two classes *)
Definition optional_loader (p : prim) : loader := LUnion [LPrim PNull; LPrim p].
Definition files_loader : loader := LArray (LUnion [record_loader "File"; record_loader "Directory"]).
Definition loader_of (v : version) (c : string) (k : kind) : loader :=
  match k with
  | KAddress => LUri (optional_loader PStr) false false None None
  | KText => optional_loader PStr
  | KNumber => optional_loader PInt
  | KFormat => LUri (optional_loader PStr) true false None (Some true)
  | KFiles =>
      let l := LUnion [LPrim PNull; files_loader] in
      match v with V1_0 => l | _ => if String.eqb c "File" then LUnion [LSecondary l; l] else l end
  end.
Lemma described_table v c fields : In (c, fields) described ->
  exists k, classes_of v c = Some k /\ c_name k = c /\ c_id k = None /\ c_class k = Some (LUri (LEnum [c]) false true None None) /\
    c_fields k = map (fun f => Field (fst f) false (loader_of v c (snd f)) false) fields.
Proof. intros [E|[E|[]]]; injection E as <- <-; destruct v; (eexists; split; [vm_compute; reflexivity|repeat split]). Qed.

Section Loading.
Variables (urljoin : string -> string -> result string) (supported_schemes : list string) (check_exists : string -> result bool)
  (fetch_text : string -> result string) (read_yaml : string -> result json) (uuid : json -> string) (v : version).
Notation Loads := (LoaderSpec.Loads urljoin supported_schemes check_exists fetch_text read_yaml uuid (classes_of v) (proxies_of v)).
Notation LoadsField := (LoaderSpec.LoadsField urljoin supported_schemes check_exists fetch_text read_yaml uuid (classes_of v) (proxies_of v)).
Notation expand_url := (expand_url urljoin supported_schemes).
Variable uri : string.
Notation Value := (Value urljoin supported_schemes uri).
Notation Part := (Part urljoin supported_schemes uri).
Notation Located := (Located urljoin supported_schemes uri).
(** No scheme is a prefix of the vocabulary *)
Hypothesis no_prefix : forall s, In s supported_schemes -> dget s (terms_of v) = None.

(** The options inside an input file *)
Definition good (o : options) : Prop := container o = Some "@list" /\ no_link_check o = true /\ vocab o = terms_of v.
Lemma same_options c n o : good o -> (c, n) = (None, None) \/ (c, n) = (Some "@list", Some true) -> within c n o = o.
Proof. destruct o as [cc nn f vo rv]. intros (A & B & C) [E|E]; injection E as -> ->; cbn in *; subst; reflexivity. Qed.
Lemma nothing o : within None None o = o.
Proof. destruct o; reflexivity. Qed.

(** ** Simple loaders *)
Lemma prim_ok p j b o root : is_prim p j = true -> Loads (LPrim p) j b o root (Ok (of_json j)).
Proof. intros H. split; [discriminate|]. exists 1. unfold load. cbn [loads fst]. cbn [load_body]. rewrite H. reflexivity. Qed.
Lemma prim_no p j b o root : is_prim p j = false -> Loads (LPrim p) j b o root (Err ValidationException).
Proof. intros H. split; [discriminate|]. exists 1. unfold load. cbn [loads fst]. cbn [load_body]. rewrite H. reflexivity. Qed.
Lemma array_no items j b o root : (forall ds, j <> JList ds) -> Loads (LArray items) j b o root (Err ValidationException).
Proof. intros H. apply array_not_list; auto; discriminate. Qed.
Lemma record_no c j b o root : (forall d, j <> JDict d) -> Loads (record_loader c) j b o root (Err ValidationException).
Proof. intros H. apply record_not_map; auto; discriminate. Qed.
Lemma union_at pre t post j b o root w : Forall (fun t => Loads t j b o root (Err ValidationException)) pre -> Loads t j b o root (Ok w) ->
  Loads (LUnion (pre ++ t :: post)) j b o root (Ok w).
Proof. intros H L. apply union_ok. exists pre, t, post. auto. Qed.

(** ** Records of the wrong class *)
Lemma unclassed cls k d b o root : classes_of v cls = Some k -> c_id k = None -> c_class k <> None -> dget "class" d = None ->
  Loads (record_loader cls) (JDict d) b o root (Err ValidationException).
Proof.
  intros K I C D. apply Loads_body. split; [discriminate|]. exists 0. unfold record_loader. cbn [load_body]. rewrite K. unfold from_doc, load_id, load_class. rewrite I. cbn [bind].
  destruct (c_class k); [|congruence]. rewrite D. reflexivity.
Qed.
Lemma other_no_class c l d b o root : other v c l = true -> dget "class" d = None -> Loads l (JDict d) b o root (Err ValidationException).
Proof.
  intros O D. destruct l as [| | | | | | |cls [|] [|]| | | | | ]; try discriminate O. cbn [other] in O. destruct (classes_of v cls) as [k|] eqn:K; [|discriminate O].
  unfold shape in O. destruct (c_id k) eqn:I; [discriminate O|]. destruct (c_class k) eqn:C; [|discriminate O].
  apply (unclassed cls k); auto. congruence.
Qed.
Lemma other_class c l d b o root : dmem c (terms_of v) = true -> vocab o = terms_of v -> no_link_check o = true ->
  other v c l = true -> dget "class" d = Some (JStr c) -> Loads l (JDict d) b o root (Err ValidationException).
Proof.
  intros T V N O D. destruct l as [| | | | | | |cls [|] [|]| | | | | ]; try discriminate O. cbn [other] in O. destruct (classes_of v cls) as [k|] eqn:K; [|discriminate O].
  apply Loads_body. split; [discriminate|]. exists 2. cbn [load_body]. rewrite K. unfold from_doc, load_id, load_class.
  unfold shape in O. destruct (c_id k) eqn:I; [discriminate O|]. cbn [bind]. destruct (c_class k) as [cl|] eqn:C; [|discriminate O]. rewrite D.
  destruct cl as [| | | | | | | | |inner [] [] [|] [|]| | | ]; try discriminate O; try (destruct inner as [|[]| | | | | | | | | | | ]; discriminate O).
  cbn [load_field]. rewrite load_S. cbn [load_body]. cbv zeta.
  assert (E : expand_url c b (with_container None None (with_container None None o)) false true None = Ok c) by (apply expand_term; cbn; rewrite V; exact T).
  rewrite E. cbn [bind]. change (no_link_check (with_container None None (with_container None None o))) with (no_link_check o). rewrite N. cbn [bind].
  rewrite load_S. destruct inner as [|[]|syms| | | | | | | | | | ]; try discriminate O; cbn [load_body is_prim of_json bind].
  - change (vocab (with_container None None o)) with (vocab o). rewrite V. apply andb_true_iff in O. destruct O as [O1 O2]. apply negb_true_iff in O1. rewrite O1. cbn [orb].
    destruct (dget (c_name k) (terms_of v)); [apply negb_true_iff in O2; rewrite O2|]; reflexivity.
  - apply negb_true_iff in O. rewrite O. reflexivity.
Qed.

(** ** Addresses *)
Lemma complete_expands s b o scoped : vocab o = terms_of v -> Complete supported_schemes s -> expand_url s b o scoped false None = Ok s.
Proof.
  intros V (a & P & I & ->).
  rewrite expand_plain.
  - pose proof I as I'. apply smem_In in I'. rewrite resolved_absolute by auto. reflexivity.
  - destruct P as ((c & r & E & C & _) & _). unfold text_of. rewrite E. cbn [append]. intros X. injection X as -> _. discriminate C.
  - destruct P as ((c & r & E & C & _) & _). unfold text_of. rewrite E. cbn [append]. intros X. injection X as -> _. discriminate C.
  - discriminate.
  - right. rewrite V. assert (B : before ":" (text_of a) = a_scheme a).
    { destruct P as (S & _). destruct (scheme_cut (a_scheme a) ("//" ++ a_host a ++ a_path a ++ part_of "?" (a_query a) ++ part_of "#" (a_fragment a)) S) as (c & r & _ & X & _).
      unfold before, text_of. cbn [append] in *. rewrite X. reflexivity. }
    rewrite B. auto.
Qed.
Lemma located_expands s t o : vocab o = terms_of v -> Located s t -> expand_url s uri o false false None = Ok t.
Proof.
  intros V [[C ->]|[N J]]; [apply complete_expands; auto|].
  destruct N as (N & K & S1 & S2 & S3 & N1 & N2). rewrite expand_plain; auto; [|discriminate|left; apply clean_no; auto].
  unfold resolved_url. cbv zeta. rewrite urlsplit_name by auto. cbn [s_scheme s_fragment s_path]. change (String.eqb "" "") with true. cbn [negb andb orb]. rewrite S2, S3. cbn [orb]. rewrite J. reflexivity.
Qed.
Lemma optional_str s b o root : Loads (optional_loader PStr) (JStr s) b o root (Ok (VStr s)).
Proof. apply (union_at [LPrim PNull] (LPrim PStr) []); [constructor; [apply prim_no; reflexivity|constructor]|apply (prim_ok PStr (JStr s)); reflexivity]. Qed.
Lemma optional_null p b o root : Loads (optional_loader p) JNull b o root (Ok VNull).
Proof. apply (union_at [] (LPrim PNull) [LPrim p]); [constructor|apply (prim_ok PNull JNull); reflexivity]. Qed.
Lemma uri_str scoped n s t b o root : no_link_check (within None n o) = true -> expand_url s b (within None n o) scoped false None = Ok t ->
  Loads (LUri (optional_loader PStr) scoped false None n) (JStr s) b o root (Ok (VStr t)).
Proof.
  intros N E. apply (uri_via urljoin supported_schemes check_exists fetch_text read_yaml uuid (classes_of v) (proxies_of v)). cbv zeta beta iota. rewrite E. cbn [bind].
  unfold link. rewrite N. cbn [bind]. apply optional_str.
Qed.
Lemma uri_null scoped n b o root : Loads (LUri (optional_loader PStr) scoped false None n) JNull b o root (Ok VNull).
Proof.
  apply (uri_via urljoin supported_schemes check_exists fetch_text read_yaml uuid (classes_of v) (proxies_of v)). cbv zeta beta iota. cbn [bind]. apply optional_null.
Qed.

(** ** Values are no directives *)
Lemma no_key k (d : list (string * json)) : ~ In k (dkeys d) -> dget k d = None.
Proof. apply PyBaseProofs.dget_None. Qed.
Lemma value_plain j w : Value j w -> forall e, j = JDict e -> dget "$import" e = None /\ dget "$include" e = None.
Proof.
  intros V e ->. inversion V as [| | | | | |d e' N F|c fields d e' I D N F]; subst.
  - split; apply no_key, N; cbn; auto.
  - assert (X : forall k, k = "$import" \/ k = "$include" -> ~ In k (dkeys e)).
    { intros k K M. apply N in M. destruct I as [I|[I|[]]]; injection I as <- <-; cbn in M; destruct K as [-> | ->]; intuition discriminate. }
    split; apply no_key, X; auto.
Qed.
Lemma field_plain j w l o r : Value j w -> Loads l j uri o None r -> LoadsField o j l uri r.
Proof. intros V L. apply LoadsField_plain; [exact (value_plain j w V)|exact L]. Qed.
(** What no list of any kind of record takes *)
Definition classy (j : json) : Prop :=
  match j with JDict d => dget "class" d = None \/ exists c, (c = "File" \/ c = "Directory") /\ dget "class" d = Some (JStr c) | _ => True end.
Lemma value_classy j w : Value j w -> classy j.
Proof.
  inversion 1 as [| | | | | |d e' N F|c fields d e' I D N F]; subst; cbn [classy]; auto.
  - left. apply no_key, N. cbn; auto.
  - right. exists c. split; auto. destruct I as [I|[I|[]]]; injection I as <- <-; auto.
Qed.

(** ** Requirements: the alternative for lists in version v1.1 and v1.2 *)
Lemma no_requirement j o root : good o -> classy j -> Loads (LProxy "ProcessRequirementLoader") j uri o root (Err ValidationException).
Proof.
  intros (G1 & G2 & G3) C. destruct (requirements_table v) as [T1 T2]. eapply proxy_via; [exact T1|]. apply union_fail. apply Forall_forall. intros l I.
  rewrite forallb_forall in T2. specialize (T2 l I). apply andb_true_iff in T2. destruct T2 as [A B].
  destruct j as [| | | | | |d]; try (destruct l as [| | | | | | |cls [|] [|]| | | | | ]; try discriminate A; apply record_no; congruence).
  destruct C as [C|(c & [-> | ->] & C)].
  - apply (other_no_class "File"); auto.
  - apply (other_class "File"); auto. exact (class_terms v _ _ (or_introl eq_refl)).
  - apply (other_class "Directory"); auto. exact (class_terms v _ _ (or_intror (or_introl eq_refl))).
Qed.
Lemma split_all {A B} (P : A -> B -> Prop) (R : A -> Prop) xs ys : Forall2 (fun x y => P x y \/ R x) xs ys -> Forall2 P xs ys \/ Exists R xs.
Proof. induction 1 as [|x y xs ys [H|H] F [IH|IH]]; auto. Qed.
Lemma not_flat o : good o -> flattens o = false.
Proof. intros (G & _). unfold flattens. rewrite G. reflexivity. Qed.
Definition takes (o : options) (j : json) (w : lv) : Prop :=
  (exists ds, j = JList ds) /\ (forall root, Loads requirements_loader j uri o root (Ok w)) \/
  forall root, Loads requirements_loader j uri o root (Err ValidationException).
Lemma requirement_element j w o : good o -> Value j w -> takes o j w ->
  LoadsField o j (LUnion [requirements_loader; LProxy "ProcessRequirementLoader"]) uri (Ok w) \/
  LoadsField o j (LUnion [requirements_loader; LProxy "ProcessRequirementLoader"]) uri (Err ValidationException).
Proof.
  intros G V [[(ds & ->) T]|T].
  - left. apply (field_plain _ w); auto. apply (union_at [] requirements_loader [_]); auto.
  - right. apply (field_plain _ w); auto. apply union_fail. apply Forall_cons; [apply T|]. apply Forall_cons; [|apply Forall_nil]. apply no_requirement; auto. apply (value_classy j w V).
Qed.
Lemma requirements_take j : forall w o, good o -> Value j w -> takes o j w.
Proof.
  induction j as [| | | | |l IH|d IH] using json_ind'; intros w o G V; try (right; intros root; apply array_no; congruence).
  inversion V as [| | | | |ds vs F N| |]; subst.
  assert (E : Forall2 (fun d w => LoadsField o d (LUnion [requirements_loader; LProxy "ProcessRequirementLoader"]) uri (Ok w) \/
                                  LoadsField o d (LUnion [requirements_loader; LProxy "ProcessRequirementLoader"]) uri (Err ValidationException)) l vs).
  { clear N V. induction F as [|d w ds vs Vd F IF]; constructor; inversion IH; subst; auto. apply requirement_element; auto. }
  assert (T : Forall (fun d => LoadsField o d (LUnion [requirements_loader; LProxy "ProcessRequirementLoader"]) uri (Err ValidationException) \/
                               exists w, LoadsField o d (LUnion [requirements_loader; LProxy "ProcessRequirementLoader"]) uri (Ok w)) l).
  { clear - E. induction E as [|d w ds vs [H|H] E IE]; constructor; eauto. }
  apply split_all in E. destruct E as [E|E].
  - left. split; [eauto|]. intros root. apply array_ok. exists vs. split; [exact E|]. split; [exact N|]. rewrite not_flat by auto. reflexivity.
  - right. intros root. apply array_fail; [exact T|]. left. exact E.
Qed.

(** ** Files and directories *)
Definition described_loader : loader := LUnion [record_loader "File"; record_loader "Directory"].
Lemma described_at c fields d o root w : good o -> In (c, fields) described -> dget "class" d = Some (JStr c) ->
  Loads (record_loader c) (JDict d) uri o root (Ok w) -> exists pre post, [record_loader "File"; record_loader "Directory"] = pre ++ record_loader c :: post /\
    Forall (fun l => Loads l (JDict d) uri o root (Err ValidationException)) pre.
Proof.
  intros (G1 & G2 & G3) I D L. pose proof (class_terms v c fields I) as T. destruct I as [I|[I|[]]]; injection I as <- <-.
  - exists [], [record_loader "Directory"]. split; [reflexivity|constructor].
  - exists [record_loader "File"], []. split; [reflexivity|]. constructor; [|constructor]. apply (other_class "Directory"); auto. apply file_other.
Qed.
Lemma ids_described ds vs : Forall2 Value ds vs -> Forall (fun v => exists c fs, v = VObj c fs []) vs -> ids ds = [].
Proof.
  induction 1 as [|d w ds vs V F IH]; intros H; [reflexivity|]. inversion H as [|? ? (c & fs & ->) H']; subst. rewrite ids_cons, IH by auto.
  inversion V as [| | | | | | |c' fields d' e I D N F']; subst. cbn [element_id].
  assert (X : ~ In "id" (dkeys d')).
  { intros M. apply N in M. destruct I as [I|[I|[]]]; injection I as <- <-; cbn in M; intuition discriminate. }
  rewrite (no_key _ _ X). reflexivity.
Qed.
Lemma secondary_no ds vs : Forall2 Value ds vs -> Forall (fun v => exists c fs, v = VObj c fs []) vs -> ds <> [] -> secondary_dsl (JList ds) = Err ValidationException.
Proof.
  intros F H NE. destruct F as [|d w ds vs V F]; [congruence|]. inversion H as [|? ? (c & fs & ->) H']; subst. cbn [secondary_dsl mapM].
  inversion V as [| | | | | | |c' fields d' e I D N F']; subst. cbn [secondary_item]. unfold secondary_map.
  assert (X : ~ In "pattern" (dkeys d')).
  { intros M. apply N in M. destruct I as [I|[I|[]]]; injection I as <- <-; cbn in M; intuition discriminate. }
  rewrite (no_key _ _ X). reflexivity.
Qed.
Definition object_like (w : lv) : Prop := exists c fs, w = VObj c fs [].
(** What is to be shown of a value *)
Definition Shown (j : json) : Prop := forall w, Value j w -> forall o, good o ->
  (forall root, Loads item_loader j uri o root (Ok w)) /\
  (forall ds, j = JList ds -> forall root, Loads (LArray item_loader) j uri o root (Ok w)) /\
  (object_like w -> forall root, Loads described_loader j uri o root (Ok w)).

Lemma files_ok ds vs o root : good o -> Forall Shown ds -> Forall2 Value ds vs -> Forall object_like vs -> Loads files_loader (JList ds) uri o root (Ok (VSeq vs)).
Proof.
  intros G S F H. apply array_ok. exists vs. split; [|split].
  - clear - G S F H. induction F as [|d w ds vs V F IH]; constructor; inversion S; inversion H; subst; auto.
    apply (field_plain _ w); auto. destruct (H2 w V o G) as (_ & _ & L). apply (union_at [files_loader] described_loader []); [|auto].
    apply Forall_cons; [|apply Forall_nil]. apply array_no. destruct H6 as (c & fs & ->). inversion V; congruence.
  - rewrite (ids_described ds vs) by auto. constructor.
  - rewrite not_flat by auto. reflexivity.
Qed.
Lemma part_ok c k j w o : good o -> (forall ds, j = JList ds -> Forall Shown ds) -> Part k (Some j) w -> LoadsField o j (loader_of v c k) uri (Ok w).
Proof.
  intros G S P. pose proof G as (G1 & G2 & G3).
  assert (PL : forall e, j = JDict e -> dget "$import" e = None /\ dget "$include" e = None) by (intros e ->; inversion P).
  apply LoadsField_plain; [exact PL|].
  inversion P as [|k'|s t L|s|z|s C|ds vs F H]; subst j.
  all: subst. 
  - destruct k; cbn [loader_of]; try apply uri_null; try apply optional_null.
    assert (X : forall root, Loads (LUnion [LPrim PNull; files_loader]) JNull uri o root (Ok VNull)).
    { intros root. apply (union_at [] (LPrim PNull) [_]); [constructor|]. apply (prim_ok PNull JNull); reflexivity. }
    assert (Y : forall root, Loads (LUnion [LSecondary (LUnion [LPrim PNull; files_loader]); LUnion [LPrim PNull; files_loader]]) JNull uri o root (Ok VNull)).
    { intros root. apply (union_at [LSecondary _] (LUnion _) []); [|apply X]. apply Forall_cons; [|apply Forall_nil]. apply secondary_via. split; [reflexivity|discriminate]. }
    destruct v; [apply X| |]; (destruct (String.eqb c "File"); [apply Y|apply X]).
  - cbn [loader_of]. apply uri_str; [exact G2|]. apply located_expands; auto.
  - cbn [loader_of]. apply optional_str.
  - cbn [loader_of]. apply (union_at [LPrim PNull] (LPrim PInt) []); [constructor; [apply prim_no; reflexivity|constructor]|apply (prim_ok PInt (JInt z)); reflexivity].
  - cbn [loader_of]. apply uri_str; [reflexivity|]. apply complete_expands; auto.
  - cbn [loader_of]. specialize (S ds eq_refl).
    assert (X : forall root, Loads (LUnion [LPrim PNull; files_loader]) (JList ds) uri o root (Ok (VSeq vs))).
    { intros root. apply (union_at [LPrim PNull] files_loader []); [constructor; [apply prim_no; reflexivity|constructor]|]. apply files_ok; auto. }
    assert (Y : forall root, Loads (LUnion [LSecondary (LUnion [LPrim PNull; files_loader]); LUnion [LPrim PNull; files_loader]]) (JList ds) uri o root (Ok (VSeq vs))).
    { intros root. destruct ds as [|d ds].
      - apply (union_at [] (LSecondary _) [_]); [constructor|]. apply secondary_via. cbn [secondary_dsl mapM]. apply X.
      - apply (union_at [LSecondary _] (LUnion _) []); [|apply X]. apply Forall_cons; [|apply Forall_nil]. apply secondary_via.
        rewrite (secondary_no _ _ F H) by congruence. split; [reflexivity|discriminate]. }
    destruct v; [apply X| |]; (destruct (String.eqb c "File"); [apply Y|apply X]).
Qed.
Lemma others_none c k (d : list (string * json)) (fields : list (string * kind)) : attrs k = "class" :: map fst fields -> (forall x, In x (dkeys d) -> x = "class" \/ In x (map fst fields)) ->
  others k d = c -> c = [].
Proof.
  intros A N <-. unfold others. rewrite A. clear A. induction d as [|[x j] d IH]; [reflexivity|]. cbn [filter fst].
  assert (M : smem x ("class" :: map fst fields) = true).
  { apply smem_In. destruct (N x) as [-> | M]; [left; reflexivity|left; reflexivity|right; exact M]. }
  rewrite M. cbn [negb]. apply IH. intros y Y. apply N. right. exact Y.
Qed.
Lemma described_ok c fields d e o root : good o -> In (c, fields) described -> dget "class" d = Some (JStr c) ->
  (forall k, In k (dkeys d) -> k = "class" \/ In k (map fst fields)) ->
  Forall2 (fun f kv => fst kv = fst f /\ Part (snd f) (dget (fst f) d) (snd kv)) fields e ->
  (forall k j, dget k d = Some j -> forall ds, j = JList ds -> Forall Shown ds) ->
  Loads (record_loader c) (JDict d) uri o root (Ok (VObj c (("class", VStr c) :: e) [])).
Proof.
  intros G I D N F S. pose proof G as (G1 & G2 & G3). destruct (described_table v c fields I) as (k & K & Kn & Ki & Kc & Kf). apply (record_ok _ _ _ _ _ _ _ _ c None None k); [exact K|].
  cbv zeta. exists [], uri, [("class", VStr c)], e, []. split; [apply Identity_none; exact Ki|]. split; [|split; [|split]].
  - replace [("class", VStr c)] with [("class", VStr (c_name k))] by (rewrite Kn; reflexivity). eapply Classed_by; [exact Kc|exact D|discriminate| |left; symmetry; exact Kn].
    apply LoadsField_plain; [discriminate|]. apply (uri_via urljoin supported_schemes check_exists fetch_text read_yaml uuid (classes_of v) (proxies_of v)). cbv zeta beta iota.
    rewrite expand_term by (cbn; rewrite G3; apply (class_terms v c fields I)). cbn [bind]. unfold link. cbn [within no_link_check with_container]. rewrite G2. cbn [bind].
    apply Loads_body. split; [discriminate|]. exists 0. cbn [load_body]. replace (smem c [c]) with true by (symmetry; apply smem_In; left; reflexivity). reflexivity.
  - rewrite Kf. clear - F S G no_prefix. rewrite <- (map_id e). induction F as [|f kv fields e [E P] F IH]; [constructor|]. cbn [map]. constructor; [|exact IH]. cbn [f_name]. split; [exact E|].
    destruct (dget (fst f) d) as [j|] eqn:GD.
    + eapply Field_present with (b := uri); [exact eq_refl|cbn [f_name]; exact GD|discriminate|cbn [f_loader]].
      replace (with_container None None o) with o by (destruct o; reflexivity). apply part_ok; [exact G|intros ds' E'; eapply S; eassumption|exact P].
    + assert (N : snd kv = VNull) by (inversion P; auto). rewrite N. eapply Field_absent with (b := uri); [exact eq_refl|cbn [f_name]; congruence|reflexivity].
  - rewrite (others_none _ k d fields); auto. unfold attrs. rewrite Ki, Kc, Kf, map_map. reflexivity.
  - rewrite Kn. reflexivity.
Qed.

(** ** Everything *)
Lemma item_object j o root w : j <> JNull -> Loads (LUnion (object_alternates v)) j uri o None (Ok w) -> Loads item_loader j uri o root (Ok w).
Proof.
  intros N L. apply (union_at [LPrim PNull] object_loader []).
  - apply Forall_cons; [|apply Forall_nil]. apply prim_no. destruct j; auto. congruence.
  - eapply proxy_via; [apply object_table|exact L].
Qed.
Lemma alternate pre t post j o root w : object_alternates v = pre ++ t :: post -> Forall (fun t => Loads t j uri o root (Err ValidationException)) pre ->
  Loads t j uri o root (Ok w) -> Loads (LUnion (object_alternates v)) j uri o root (Ok w).
Proof. intros -> F L. apply union_at; auto. Qed.
Ltac refuse := repeat (apply Forall_cons; [first [apply prim_no; reflexivity|apply record_no; congruence]|]); apply Forall_nil.
Lemma element_shown j w o : Shown j -> Value j w -> good o -> LoadsField o j (LUnion [LArray item_loader; item_loader]) uri (Ok w).
Proof.
  intros S V G. destruct (S w V o G) as (A & B & _). apply (field_plain _ w); auto.
  destruct (match j with JList ds => true | _ => false end) eqn:E.
  - destruct j; try discriminate. apply (union_at [] (LArray item_loader) [item_loader]); [apply Forall_nil|]. eapply B. reflexivity.
  - apply (union_at [LArray item_loader] item_loader []); [|auto]. apply Forall_cons; [|apply Forall_nil]. apply array_no. destruct j; congruence.
Qed.
Lemma item_shown j w o : Shown j -> Value j w -> good o -> LoadsField o j item_loader uri (Ok w).
Proof. intros S V G. destruct (S w V o G) as (A & _). apply (field_plain _ w); auto. Qed.
Lemma shown_both j : Shown j /\ (forall ds, j = JList ds -> Forall Shown ds).
Proof.
  induction j as [|b|z|s|s|l IH|d IH] using json_ind'.
  1,2,3,4,5: split; [|congruence]; intros w V o G; inversion V; subst; split; [intros root|split; [congruence|intros (c & fs & E); congruence]].
  - apply (union_at [] (LPrim PNull) [_]); [apply Forall_nil|apply (prim_ok PNull JNull); reflexivity].
  - apply item_object; [congruence|]. eapply (alternate []); [reflexivity|refuse|apply (prim_ok PBool (JBool b)); reflexivity].
  - apply item_object; [congruence|]. eapply (alternate [_]); [reflexivity|refuse|apply (prim_ok PInt (JInt z)); reflexivity].
  - apply item_object; [congruence|]. eapply (alternate [_; _]); [reflexivity|refuse|apply (prim_ok PFloat (JFloat s)); reflexivity].
  - apply item_object; [congruence|]. eapply (alternate [_; _; _]); [reflexivity|refuse|apply (prim_ok PStr (JStr s)); reflexivity].
  - assert (SL : Forall Shown l) by (eapply Forall_impl; [|exact IH]; intros a [A _]; exact A).
    split; [|intros ds [= <-]; exact SL]. intros w V o G. inversion V as [| | | | |ds vs F N| |]; subst.
    assert (A : forall root, Loads (LArray item_loader) (JList l) uri o root (Ok (VSeq vs))).
    { intros root. apply array_ok. exists vs. split; [|split; [exact N|rewrite not_flat by auto; reflexivity]].
      clear - F SL G. induction F as [|d w ds vs V F IF]; constructor; inversion SL; subst; auto. apply element_shown; auto. }
    split; [|split; [auto|intros (c & fs & E); congruence]]. intros root. apply item_object; [congruence|].
    eapply (alternate [_; _; _; _; _; _]); [reflexivity|refuse|apply A].
  - split; [|congruence]. intros w V o G. inversion V as [| | | | | |d' e N F|c fields d' e I D N F]; subst.
    + assert (M : forall root, Loads (LMap item_loader (fst (inner_settings v)) (snd (inner_settings v))) (JDict d) uri o root (Ok (VMap e))).
      { intros root. apply (map_ok urljoin supported_schemes check_exists fetch_text read_yaml uuid (classes_of v) (proxies_of v)). exists e. split; [|reflexivity].
        replace (within (fst (inner_settings v)) (snd (inner_settings v)) o) with o by (symmetry; apply same_options; [exact G|destruct v; auto]).
        clear - F IH G. induction F as [|kv kv' d e [E V] F IF]; constructor; inversion IH as [|? ? [Sh _] IH']; subst; auto. split; [exact E|]. apply item_shown; auto. }
      split; [|split; [congruence|intros (c & fs & E); congruence]]. intros root. apply item_object; [congruence|].
      assert (C : dget "class" d = None) by (apply no_key, N; cbn; auto). destruct (file_other v) as [O1 O2].
      eapply (alternate [_; _; _; _; _; _; _]); [reflexivity| |apply M].
      do 4 (apply Forall_cons; [apply prim_no; reflexivity|]). apply Forall_cons; [apply (other_no_class "Directory"); auto|]. apply Forall_cons; [apply (other_no_class "File"); auto|].
      apply Forall_cons; [apply array_no; congruence|apply Forall_nil].
    + assert (R : forall root, Loads (record_loader c) (JDict d) uri o root (Ok (VObj c (("class", VStr c) :: e) []))).
      { intros root. eapply described_ok; eauto. intros k j GD ds Ej. rewrite Forall_forall in IH. apply PyBaseProofs.dget_In in GD. exact (proj2 (IH _ GD) ds Ej). }
      assert (X : forall root, exists pre post, [record_loader "File"; record_loader "Directory"] = pre ++ record_loader c :: post /\
        Forall (fun l => Loads l (JDict d) uri o root (Err ValidationException)) pre) by (intros root; eapply described_at; eauto).
      split; [|split; [congruence|]].
      * intros root. apply item_object; [congruence|]. destruct (X None) as (pre & post & E & P).
        eapply (alternate ([LPrim PBool; LPrim PInt; LPrim PFloat; LPrim PStr] ++ pre) (record_loader c) (post ++ [LArray item_loader; LMap item_loader (fst (inner_settings v)) (snd (inner_settings v))])).
        -- rewrite <- app_assoc. change (record_loader c :: post ++ ?x) with ((record_loader c :: post) ++ x). rewrite (app_assoc pre), <- E. reflexivity.
        -- apply Forall_app. split; [refuse|exact P].
        -- apply R.
      * intros _ root. destruct (X root) as (pre & post & E & P). unfold described_loader. rewrite E. apply union_at; auto.
Qed.
Lemma shown j : Shown j.
Proof. apply shown_both. Qed.

(** The value of an input *)
Lemma input_value j w o : good o -> Value j w -> LoadsField o j (LUnion (value_alternates v)) uri (Ok w).
Proof.
  intros G V. destruct (shown j w V o G) as (A & _). specialize (A None). apply (field_plain _ w); auto.
  assert (N : value_alternates v = [LPrim PNull; object_loader] \/ value_alternates v = [LPrim PNull; requirements_loader; object_loader]) by (destruct v; auto).
  destruct N as [N|N]; [rewrite N; exact A|]. rewrite N. apply union_ok in A. destruct A as (pre & t & post & E & P & L).
  destruct pre as [|p0 [|p1 pre]]; cbn in E.
  - injection E as <- <-. apply (union_at [] (LPrim PNull) [_; _]); [apply Forall_nil|exact L].
  - injection E as <- <- <-. inversion P as [|? ? P1 _]; subst. destruct (requirements_take j w o G V) as [[_ T]|T].
    + apply (union_at [LPrim PNull] requirements_loader [_]); [apply Forall_cons; [exact P1|apply Forall_nil]|apply T].
    + apply (union_at [LPrim PNull; requirements_loader] object_loader []); [|exact L]. apply Forall_cons; [exact P1|]. apply Forall_cons; [apply T|apply Forall_nil].
  - injection E as _ _ E. destruct pre; discriminate E.
Qed.
Lemma inputs_load d e o root : vocab o = terms_of v -> Inputs urljoin supported_schemes uri d e -> Loads (input_loader v) (JDict d) uri o root (Ok (VMap e)).
Proof.
  intros VO F. rewrite input_table. apply (map_ok urljoin supported_schemes check_exists fetch_text read_yaml uuid (classes_of v) (proxies_of v)). exists e. split; [|reflexivity].
  eapply F2_impl; [|exact F]. intros kv kv' [E V]. split; [exact E|]. apply input_value; [|exact V]. repeat split. exact VO.
Qed.
End Loading.

(** ** Plain values *)
Lemma plain_value urljoin schemes uri j : Plain j -> Value urljoin schemes uri j (of_json j).
Proof.
  induction j as [|b|z|s|s|l IH|d IH] using json_ind'; intros P; cbn [of_json]; try constructor; inversion P; subst; auto.
  - clear - IH H0. induction l as [|x l IL]; constructor; inversion IH; inversion H0; subst; auto.
  - clear - IH H1. induction d as [|[k x] d IL]; constructor; inversion IH; inversion H1; subst; auto.
Qed.
