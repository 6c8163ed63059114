(** * Proofs for C86: loading what was saved with short addresses *)
From Verif Require Import PyBase PyBaseProofs NameProofs ParserModel ParserProofs LoaderModel LoaderSpec LoaderProofs AddressSpec AddressProofs VersionModel VersionSpec RefusalProofs EndProofs
  SaveModel SaveSpec SaveProofs SaveProofs2 ShortModel ShortSpec ShortProofs.
From Coq Require Import Lia FinFun.

Section Round.
Variables (urljoin : string -> string -> result string) (supported_schemes : list string) (check_exists : string -> result bool)
  (fetch_text : string -> result string) (read_yaml : string -> result json) (uuid : json -> string)
  (classes : string -> option class) (proxies : string -> option loader).
Hypothesis joins : forall b u, loaded_or_refused (urljoin b u).
Hypothesis joins' : forall b u, urljoin b u <> Err OutOfFuel.
Hypothesis checks : forall u, loaded_or_refused (check_exists u).
Hypothesis checks' : forall u, check_exists u <> Err OutOfFuel.
Variables (known proxied : string -> bool).
Hypothesis known_class : forall c, known c = true -> exists k, classes c = Some k /\ sound_class known proxied k = true.
Hypothesis known_class' : forall c, known c = true -> exists k, classes c = Some k /\ good_class known proxied k = true.
Hypothesis known_proxy : forall n, proxied n = true -> exists l, proxies n = Some l /\ sound known proxied l = true.
Hypothesis known_proxy' : forall n, proxied n = true -> exists l, proxies n = Some l /\ direct known proxied l = true /\ shallow l = true.
Hypothesis neat : forall c k, known c = true -> classes c = Some k -> neat_class k = true.
Hypothesis pattern : forall k, classes "SecondaryFileSchema" = Some k -> pattern_class k.
Variables (methods : string -> option saving) (short : string -> string -> scope -> string) (prefixed : string -> string).
Hypothesis agree : forall c k, known c = true -> classes c = Some k -> exists m, methods (c_name k) = Some m /\ agrees k m = true.
Hypothesis ids_scoped : forall c m h own, methods c = Some m -> written m "id" = Some (h, own) -> h = Some (true, None) /\ own = false.
Hypothesis types_plain : forall cls k f ss rs salad c m h own, classes cls = Some k -> In f (c_fields k) -> f_loader f = LTypeDSL (LEnum ss) rs salad -> methods c = Some m -> written m (f_name f) = Some (h, own) -> h = None.
Variables (V RV : list (string * string)) (unchecked : bool).
Notation Loads := (LoaderProofs.Loads urljoin supported_schemes check_exists fetch_text read_yaml uuid classes proxies).
Notation expand := (expand_url urljoin supported_schemes).
Notation save_at := (save_at V RV methods short prefixed).
Notation save_list_at := (save_list_at V RV methods short prefixed).
Notation save_map_at := (save_map_at V RV methods short prefixed).
Notation saved_class := (saved_class V RV).
Notation SavedAt := (SavedAt V RV methods short prefixed).
Notation pext := (pext prefixed).
Notation Settled := (Settled supported_schemes V RV).
Notation linked := (linked check_exists unchecked).
Notation class_named := (class_named supported_schemes V RV).
Notation Refuses := (Refuses supported_schemes classes proxies V RV).
Notation class_fits := (class_fits supported_schemes check_exists V RV unchecked).
Notation class_fits_at := (class_fits_at supported_schemes check_exists short V RV unchecked).
Notation extensions_fit_at := (extensions_fit_at urljoin supported_schemes prefixed V RV).
Notation restored := (restored urljoin supported_schemes short V RV).
Notation read_as := (read_as urljoin supported_schemes V RV).
Notation apart_at := (apart_at short).
Notation written_id := (written_id short).
Notation FitsAt := (FitsAt urljoin supported_schemes check_exists classes proxies short prefixed V RV unchecked).
Notation FieldFits := (FieldFits urljoin supported_schemes check_exists classes proxies short prefixed V RV unchecked).
Notation FitsAllAt := (FitsAllAt urljoin supported_schemes check_exists classes proxies short prefixed V RV unchecked).
Notation FieldsFit := (FieldsFit urljoin supported_schemes check_exists classes proxies short prefixed V RV unchecked).
Notation Named := (Named V RV).
Notation Fit := (Fit V RV unchecked).
Notation good := (good known proxied).

(** ** Objects as they are saved *)
Definition well (b : string) (v : lv) : Prop :=
  match v with
  | VObj c fs ext => exists m, methods c = Some m /\ NoDup (map fst (pext ext) ++ map fst fs) /\ (forall x, In x (map fst fs) -> written m x <> None) /\
      (forall x, has_char ":" x = false -> dget x (pext ext) = None) /\
      (forall t own h s, In ("class", VStr t) fs -> written m "class" = Some (Some h, own) -> saved_class t = Ok s -> short s (address m fs own b) h = s)
  | _ => True
  end.
Definition deep (b : string) (v : lv) : Prop := well b v /\ match v with VSeq vs => Forall (well b) vs | _ => True end.
Lemma nodup_right {A} (l m : list A) : NoDup (l ++ m) -> NoDup m.
Proof. induction l; auto. inversion 1; auto. Qed.
Lemma pext_field (fs : list (string * lv)) ext x : NoDup (map fst (pext ext) ++ map fst fs) -> In x (map fst fs) -> dget x (pext ext) = None.
Proof.
  intros N I. apply dget_None. intros X. apply in_split in X. destruct X as (a & b & E). rewrite E in N. rewrite <- app_assoc in N. cbn [app] in N.
  apply NoDup_remove in N. destruct N as [_ N]. apply N. rewrite !in_app_iff. auto.
Qed.
Lemma get_saved_map b d es x : save_map_at b d = Ok es -> match dget x d with None => dget x es = None | Some w => exists j, dget x es = Some j /\ save_at None b w = Ok j end.
Proof. intros M. apply save_map_at_ok in M. induction M as [|[k v] [k' j] d0 d [A B] M IH]; cbn [dget] in *; auto. cbn [fst snd] in *. subst k'. destruct (String.eqb x k); eauto. Qed.
Lemma entry_absent x b v d : save_at None b v = Ok (JDict d) -> well b v -> (has_char ":" x = false \/ match v with VObj _ _ ext => dget x (pext ext) = None | _ => True end) -> entry x v = None \/ entry x v = Some VNull ->
  dget x d = None \/ dget x d = Some JNull.
Proof.
  intros S W X E. destruct v; try (apply save_at_kind in S; subst; discriminate).
  - apply save_at_kind in S. destruct S; discriminate.
  - rewrite save_at_vmap in S. destruct (save_map_at b d0) as [es|] eqn:M; cbn [bind] in S; [|discriminate]. assert (d = es) by congruence. subst es. pose proof (get_saved_map b d0 d x M) as G.
    cbn [entry] in E. destruct E as [E|E]; rewrite E in G; auto. destruct G as (j & -> & SJ). injection SJ as <-. auto.
  - destruct W as (m & MM & N & WR & XC & _). apply (save_at_obj_ok V RV methods short prefixed _ _ _ _ _ m) in S; auto. destruct S as (ess & F & S). assert (d = pext extension_fields ++ List.concat ess) by congruence. subst d.
    assert (X' : dget x (pext extension_fields) = None) by (destruct X; auto). rewrite dget_app, X'. left.
    pose proof (saved_at_get V RV methods short prefixed m fields b fields ess x F (nodup_right _ _ N)) as G. cbn [entry] in E. destruct E as [E|E]; rewrite E in G; auto. destruct G as (es & SV & ->). inversion SV; subst; auto; congruence.
Qed.
Lemma entry_there x b v d w : save_at None b v = Ok (JDict d) -> well b v -> entry x v = Some w -> w <> VNull -> x <> "class" ->
  exists j h b', dget x d = Some j /\ save_at h b' w = Ok j /\
    match v with VObj c fs _ => exists m own, methods c = Some m /\ written m x = Some (h, own) /\ b' = address m fs own b | _ => h = None /\ b' = b end.
Proof.
  intros S W E N NC. destruct v; try discriminate.
  - rewrite save_at_vmap in S. destruct (save_map_at b d0) as [es|] eqn:M; cbn [bind] in S; [|discriminate]. assert (d = es) by congruence. subst es. pose proof (get_saved_map b d0 d x M) as G.
    cbn [entry] in E. rewrite E in G. destruct G as (j & A & B). exists j, None, b. auto.
  - destruct W as (m & MM & ND & WR & XC & _). apply (save_at_obj_ok V RV methods short prefixed _ _ _ _ _ m) in S; auto. destruct S as (ess & F & S). assert (d = pext extension_fields ++ List.concat ess) by congruence. subst d. cbn [entry] in E.
    assert (I : In x (map fst fields)) by (apply dget_In in E; apply (in_map fst) in E; exact E). rewrite dget_app, (pext_field fields extension_fields x ND I).
    pose proof (saved_at_get V RV methods short prefixed m fields b fields ess x F (nodup_right _ _ ND)) as G. rewrite E in G. destruct G as (es & SV & ->). specialize (WR x I). inversion SV as [|? ? ? W0| |? ? h own j NV NX W0 SJ]; subst; try congruence.
    cbn [dget]. rewrite String.eqb_refl. exists j, h, (address m fields own b). split; auto. split; auto. exists m, own. auto.
Qed.
Lemma entry_class b v d t : save_at None b v = Ok (JDict d) -> well b v -> entry "class" v = Some (VStr t) -> class_named t ->
  exists s, dget "class" d = Some (JStr s) /\ forall b o si sr, Named o -> expand s b o si true sr = Ok t.
Proof.
  intros S W E CN. destruct (expand_class urljoin supported_schemes V RV t CN) as (s & SC & X). destruct v; try discriminate.
  - rewrite save_at_vmap in S. destruct (save_map_at b d0) as [es|] eqn:M; cbn [bind] in S; [|discriminate]. assert (d = es) by congruence. subst es. pose proof (get_saved_map b d0 d "class" M) as G.
    cbn [entry] in E. rewrite E in G. destruct G as (j & A & B). injection B as <-. exists t. split; auto. intros b' o si sr N. apply (expand_settled urljoin supported_schemes V RV); auto. apply Settled_term; auto. destruct CN as (uri & D & _). unfold dmem. rewrite D. reflexivity.
  - destruct W as (m & MM & ND & WR & XC & CK). apply (save_at_obj_ok V RV methods short prefixed _ _ _ _ _ m) in S; auto. destruct S as (ess & F & S). assert (d = pext extension_fields ++ List.concat ess) by congruence. subst d. cbn [entry] in E.
    apply dget_In in E as IE. assert (I : In "class" (map fst fields)) by (apply (in_map fst) in IE; exact IE). rewrite dget_app, (pext_field fields extension_fields "class" ND I).
    pose proof (saved_at_get V RV methods short prefixed m fields b fields ess "class" F (nodup_right _ _ ND)) as G. rewrite E in G. destruct G as (es & SV & ->). specialize (WR _ I). inversion SV as [|? ? ? W0|? h own t' W0 ST|]; subst; try congruence.
    cbn [dget]. rewrite String.eqb_refl. exists t'. split; [|assert (t' = s) by congruence; subst; auto]. do 2 f_equal. eapply CK; eauto.
Qed.
Lemma entry_some x b v d w : save_at None b v = Ok (JDict d) -> well b v -> entry x v = Some w -> w <> VNull -> exists j, dget x d = Some j.
Proof.
  intros S W E N. destruct (string_dec x "class") as [->|NC]; [|destruct (entry_there x b v d w) as (j & h & b' & G & _); eauto]. destruct v; try discriminate.
  - rewrite save_at_vmap in S. destruct (save_map_at b d0) as [es|] eqn:M; cbn [bind] in S; [|discriminate]. assert (d = es) by congruence. subst es. pose proof (get_saved_map b d0 d "class" M) as G.
    cbn [entry] in E. rewrite E in G. destruct G as (j & A & B). eauto.
  - destruct W as (m & MM & ND & WR & XC & CK). apply (save_at_obj_ok V RV methods short prefixed _ _ _ _ _ m) in S; auto. destruct S as (ess & F & S). assert (d = pext extension_fields ++ List.concat ess) by congruence. subst d. cbn [entry] in E.
    assert (I : In "class" (map fst fields)) by (apply dget_In in E; apply (in_map fst) in E; exact E). rewrite dget_app, (pext_field fields extension_fields "class" ND I).
    pose proof (saved_at_get V RV methods short prefixed m fields b fields ess "class" F (nodup_right _ _ ND)) as G. rewrite E in G. destruct G as (es & SV & ->). specialize (WR _ I). inversion SV as [|? ? ? W0|? h own t' W0 ST|]; subst; try congruence.
    cbn [dget]. rewrite String.eqb_refl. eauto.
Qed.
Lemma obj_absent x b c fs ext d : save_at None b (VObj c fs ext) = Ok (JDict d) -> well b (VObj c fs ext) -> dget x (pext ext) = None -> entry x (VObj c fs ext) = None \/ entry x (VObj c fs ext) = Some VNull -> dget x d = None.
Proof.
  intros S (m & MM & ND & WR & XC & _) X E. apply (save_at_obj_ok V RV methods short prefixed _ _ _ _ _ m) in S; auto. destruct S as (ess & F & S). assert (d = pext ext ++ List.concat ess) by congruence. subst d. rewrite dget_app, X.
  pose proof (saved_at_get V RV methods short prefixed m fs b fs ess x F (nodup_right _ _ ND)) as G. cbn [entry] in E. destruct E as [E|E]; rewrite E in G; auto. destruct G as (es & SV & ->). inversion SV; subst; auto; congruence.
Qed.

(** ** Loaders that refuse what was saved *)
Notation plain_field := (plain_field urljoin supported_schemes check_exists fetch_text read_yaml uuid classes proxies).
Notation record_object := (record_object urljoin supported_schemes check_exists fetch_text read_yaml uuid classes proxies).
Notation loads_run := (loads_run urljoin supported_schemes check_exists fetch_text read_yaml uuid classes proxies).
Notation enum_ok := (enum_ok urljoin supported_schemes check_exists fetch_text read_yaml uuid classes proxies).
Lemma refused l v : Refuses l v -> forall j b b' o root w, good l -> save_at None b v = Ok j -> self_contained j -> deep b v -> Named o -> ~ Loads l j b' o root (Ok w).
Proof.
  induction 1 as [|tp v P|ss v P|v P|i v P|i c nl v P|cls c nl v P|cls c nl k v K C E|cls c nl k v t K C E CN NT NU|cls c nl k v x x' K E NN NA NC|cls c nl k v f K FI FR E
    |cls c nl k v f ss rs salad t K FI FL E ST IN NI|ls v R IH|n l v P R IH|i v P1 P2 P3|i vs c fs ext VI E]; intros j b b0 o root w G S SC D N L; pose proof (save_at_kind V RV methods short prefixed _ _ _ _ S) as SK; cbv iota beta in SK.
  - subst j. apply loads_run in L. destruct L as [n L]. discriminate.
  - apply loads_run in L. destruct L as [n L]. cbn [load_body] in L. destruct (is_prim tp j) eqn:PJ; [|discriminate].
    destruct v; try (subst j; destruct tp; discriminate); destruct SK as [? ->]; destruct tp; discriminate.
  - apply enum_ok in L. destruct L as (s & -> & I). destruct v; try discriminate; try (destruct SK; discriminate). injection SK as <-. eapply P; eauto.
  - apply loads_run in L. destruct L as [n L]. cbn [load_body] in L. destruct v; try discriminate; try (subst j; discriminate); destruct SK as [? ->]; discriminate.
  - destruct v; try discriminate; try (subst j; apply array_not_list in L; discriminate); destruct SK as [? ->]; apply array_not_list in L; discriminate.
  - apply loads_run in L. destruct L as [n L]. cbn [load_body] in L. destruct v; try discriminate; try (subst j; discriminate). destruct SK as [? ->]; discriminate.
  - destruct v; try discriminate; try (subst j; apply record_not_map in L; discriminate). destruct SK as [? ->]. apply record_not_map in L; discriminate.
  - apply (record_object _ _ _ k) in L; auto. destruct L as (d & -> & (i & b' & cl & fs & ext & _ & CL & _)). destruct CL as [CL|l j s CL GC NJ _ _]; [contradiction|].
    destruct (entry_absent "class" b v d S (proj1 D) (or_introl eq_refl) (proj1 E)); congruence.
  - cbn [sound] in G. destruct G as [G _]. cbn [sound] in G. destruct (neat_parts k (neat _ _ G K)) as (_ & _ & _ & _ & CS).
    apply (record_object _ _ _ k) in L; auto. destruct L as (d & -> & (i & b' & cl & fs & ext & _ & CL & _)). destruct CL as [CL|l j s CL GC NJ FL SN]; [contradiction|].
    destruct (CS l CL) as (i' & nl' & _ & -> & IC). destruct (entry_class b v d t S (proj1 D) E CN) as (s' & GC' & X). assert (j = JStr s') by congruence. subst j.
    unfold LoaderProofs.FieldLoads in FL. apply plain_field in FL; [|exact I]. apply (uri_via urljoin supported_schemes check_exists fetch_text read_yaml uuid classes proxies) in FL. cbv zeta in FL.
    rewrite X in FL by exact N. cbn [bind] in FL. destruct (link check_exists _ t) as [[]|e]; cbn [bind] in FL; [|destruct FL; discriminate].
    destruct IC as [-> | ->].
    + apply enum_ok in FL. destruct FL as (t' & TE & [TI|[]]). congruence.
    + apply loads_run in FL. destruct FL as [n FL]. cbn [load_body is_prim] in FL. injection FL as <-. destruct SN; [congruence|]. apply NU. rewrite <- (proj1 N). auto.
  - apply (record_object _ _ _ k) in L; auto. destruct L as (d & -> & (i & b' & cl & fs & ext & _ & _ & _ & EX & _)).
    destruct (entry_some x b v d x' S (proj1 D) E NN) as (j & GJ). apply dget_In in GJ.
    destruct (F2_in_l _ _ _ (x, j) EX) as (kv & _ & (HC & _)); [|cbn [fst] in HC; congruence].
    apply filter_In. split; auto. cbn [fst]. apply negb_true_iff. destruct (smem x (attrs k)) eqn:SM; auto. apply smem_In in SM. contradiction.
  - cbn [sound] in G. destruct G as [G _]. cbn [sound] in G. destruct (neat_parts k (neat _ _ G K)) as (_ & NCOL & _ & _ & _).
    assert (FC : has_char ":" (f_name f) = false) by (apply NCOL; unfold attrs; rewrite !in_app_iff; right; right; apply in_map; auto).
    apply (record_object _ _ _ k) in L; auto. destruct L as (d & -> & (i & b' & cl & fs & ext & _ & _ & FS & _)).
    destruct (F2_in_l _ _ _ f FS FI) as (kv & _ & _ & FV). destruct (entry_absent (f_name f) b v d S (proj1 D) (or_introl FC) (proj1 E)) as [A|A]; destruct FV as [? ? ? ?|? ? ? ? ? NJ ?]; try congruence.
    apply NJ; auto. congruence.
  - cbn [sound] in G. destruct G as [G _]. cbn [sound] in G. destruct (neat_parts k (neat _ _ G K)) as (_ & _ & FN & _ & _). destruct (FN f FI) as [FNC _].
    apply (record_object _ _ _ k) in L; auto. destruct L as (d & -> & (i & b' & cl & fs & ext & _ & _ & FS & _)).
    destruct (F2_in_l _ _ _ f FS FI) as (kv & _ & _ & FV). destruct (entry_there (f_name f) b v d _ S (proj1 D) E) as (j & h & b2 & GJ & SJ & HJ); [discriminate|auto|].
    assert (HN : h = None) by (destruct v; try apply HJ; destruct HJ as (m & own & MM & WR & _); eapply types_plain; eauto). subst h. injection SJ as <-.
    destruct FV as [? ? ? ?|b1 j v1 _ GJ' _ FV]; [congruence|]. assert (j = JStr t) by congruence. subst j. unfold LoaderProofs.FieldLoads in FV. rewrite FL in FV. apply plain_field in FV; [|exact I].
    apply type_dsl_via in FV. unfold resolved in FV. cbn [type_dsl] in FV. rewrite (resolved_name urljoin supported_schemes V RV) in FV; auto. apply enum_ok in FV. destruct FV as (t' & TE & TI). congruence.
  - apply good_union in G. apply union_ok in L. destruct L as (pre & t & post & -> & _ & L). assert (I : In t (pre ++ t :: post)) by (apply in_or_app; cbn; auto).
    eapply (IH t I); eauto. apply (proj1 (Forall_forall _ _) G); auto.
  - apply (proxy_via urljoin supported_schemes check_exists fetch_text read_yaml uuid classes proxies n l) in L; auto. eapply IH; eauto. exact (good_proxy proxies known proxied known_proxy known_proxy' n l G P).
  - apply secondary_via in L. destruct v; try discriminate; subst j; cbn [secondary_dsl] in L; destruct L; discriminate.
  - destruct SK as [js ->]. rewrite save_at_seq in S. destruct (save_list_at None b vs) as [js'|] eqn:SL; cbn [bind] in S; [|discriminate]. assert (js' = js) by congruence. subst js'. apply save_list_at_ok in SL.
    destruct (F2_in_l _ _ _ _ SL VI) as (j & JI & SJ). pose proof (save_at_kind V RV methods short prefixed _ _ _ _ SJ) as [d ->].
    destruct D as [_ D]. apply (proj1 (Forall_forall _ _) D) in VI.
    assert (PC : dget "pattern" (pext ext) = None) by (destruct VI as (m & _ & _ & _ & XC & _); apply XC; reflexivity).
    pose proof (obj_absent "pattern" b c fs ext d SJ VI PC (proj1 E)) as PN.
    apply secondary_via in L. cbn [secondary_dsl] in L. destruct (mapM secondary_item js) as [rs|e] eqn:M; [|destruct L; discriminate]. apply mapM_Ok in M.
    destruct (F2_in_l _ _ _ _ M JI) as (r & _ & SI). cbn [secondary_item] in SI. unfold secondary_map in SI. rewrite PN in SI. discriminate.
Qed.
(** ... with a validation error *)
Lemma refuses_loads l v j b b' o root : Refuses l v -> good l -> save_at None b v = Ok j -> self_contained j -> deep b v -> Named o -> Loads l j b' o root (Err ValidationException).
Proof.
  intros R G S SC D N. destruct (loads_end urljoin supported_schemes check_exists fetch_text read_yaml uuid classes proxies joins' checks' known proxied known_class' known_proxy' j SC) as [A _].
  destruct (A l (proj2 G) b' o root) as (n & r & NO & H). specialize (H n (le_n n)).
  pose proof (load_fine urljoin supported_schemes check_exists fetch_text read_yaml uuid classes proxies joins checks known proxied known_class known_proxy n l j b' o root (or_introl (proj1 G)) SC) as F. rewrite H in F.
  destruct r as [w|e].
  - exfalso. eapply (refused l v R j b b' o root w); eauto. split; [auto|eauto].
  - destruct e; try contradiction; try congruence. split; [auto|eauto].
Qed.

(** ** Loading what was saved yields the value again *)
Definition RT (b b' : string) (l : loader) (v : lv) : Prop := exists j, save_at None b v = Ok j /\ (self_contained j -> forall o root, Fit o -> Loads l j b' o root (Ok v)).
Definition FieldRT (b b' : string) (l : loader) (v : lv) : Prop := exists j, save_at (how l) b v = Ok j /\ (self_contained j -> forall o root, Fit o -> Loads l j b' o root (Ok v)).
Definition OneRT (b b' : string) (f : field) (kv : string * lv) : Prop :=
  fst kv = f_name f /\ (snd kv = VNull /\ f_required f = false \/ snd kv <> VNull /\ FieldRT b (if f_subscope f then inside b' "run" else b') (f_loader f) (snd kv)).
(** The identifier of an object, and the addresses of what is in it *)
Definition IdRT (k : class) (b b' : string) (idp : list (string * lv)) (i i' : string) : Prop :=
  match c_id k with
  | None => idp = [] /\ i = b /\ i' = b'
  | Some (n, _, l) => exists s t, idp = [(n, VStr s)] /\ i = s /\ i' = s /\ save_at (how l) b (VStr s) = Ok (JStr t) /\ forall o, Fit o -> Loads l (JStr t) b' o None (Ok (VStr s))
  end.
Lemma id_names k b b' idp i i' : IdRT k b b' idp i i' -> map fst idp = match c_id k with Some (n, _, _) => [n] | None => [] end.
Proof. unfold IdRT. destruct (c_id k) as [[[n r] l]|]; [intros (s & t & -> & _); auto|intros (-> & _); auto]. Qed.
Lemma id_address k m own b b' idp rest i i' : IdRT k b b' idp i i' -> own_ok k m own = true -> address m (idp ++ rest) own b = i.
Proof.
  unfold IdRT, own_ok, address. destruct (c_id k) as [[[n r] l]|].
  - intros (s & t & -> & -> & _) H. apply andb_true_iff in H. destruct H as [-> H]. destruct (sv_own m) as [n'|]; [|discriminate]. apply String.eqb_eq in H. subst n'. cbn [app dget]. rewrite String.eqb_refl. reflexivity.
  - intros (-> & -> & _) H. apply negb_true_iff in H. subst own. destruct (sv_own m); reflexivity.
Qed.
Lemma field_names b b' fs kvs : Forall2 (OneRT b b') fs kvs -> map fst kvs = map f_name fs.
Proof. induction 1 as [|f kv fs kvs [E _] F IH]; cbn; auto. congruence. Qed.
Lemma class_names' k b kvs : class_fits_at b k kvs -> map fst kvs = match c_class k with Some _ => ["class"] | None => [] end.
Proof. intros [C _]. exact (class_names _ _ _ _ _ _ _ C). Qed.

Lemma record_round cls c nl k m idp kvs fs ext b b' i i' : classes cls = Some k -> neat_class k = true -> methods (c_name k) = Some m -> agrees k m = true -> nl <> Some false ->
  IdRT k b b' idp i i' -> class_fits_at i k kvs -> Forall2 (OneRT i i') (c_fields k) fs -> extensions_fit_at k ext ->
  RT b b' (LRecord cls c nl) (VObj (c_name k) (idp ++ kvs ++ fs) ext) /\ well b (VObj (c_name k) (idp ++ kvs ++ fs) ext).
Proof.
  intros K NK MM AG NL ID CF FF (NE & NP & EF). destruct (neat_parts k NK) as (NA & NCOL & FN & IDN & CS). destruct (agrees_parts k m AG) as (AF & AI & AC).
  assert (NM : map fst (idp ++ kvs ++ fs) = attrs k) by (rewrite !map_app, (id_names k b b' idp i i'), (class_names' k i), (field_names i i' (c_fields k)); auto).
  assert (AD : forall own, own_ok k m own = true -> address m (idp ++ kvs ++ fs) own b = i) by (intros own O; eapply id_address; eauto).
  assert (TD : NoDup (map fst (pext ext) ++ map fst (idp ++ kvs ++ fs))).
  { rewrite NM, pext_names. clear - NP EF NA. induction EF as [|kv ext (_ & H & _) F IH]; cbn [map app]; auto. cbn [map] in NP. inversion NP; subst. constructor; auto. rewrite in_app_iff. tauto. }
  assert (W : well b (VObj (c_name k) (idp ++ kvs ++ fs) ext)).
  { exists m. split; auto. split; auto. split; [|split].
    - intros x. rewrite NM. unfold attrs. rewrite !in_app_iff. intros [I|[I|I]].
      + destruct (c_id k) as [[[n r] l]|] eqn:CI; [|destruct I]. destruct I as [<-|[]]. rewrite (AI n r l eq_refl). discriminate.
      + destruct (c_class k) as [l|] eqn:CC; [|destruct I]. destruct I as [<-|[]]. destruct (AC l eq_refl) as (own & -> & _). discriminate.
      + apply in_map_iff in I. destruct I as (f & <- & I). destruct (AF f I) as (own & -> & _). discriminate.
    - intros x HC. apply dget_None. rewrite pext_names. intros I. apply in_map_iff in I. destruct I as (kv & <- & I). apply (proj1 (Forall_forall _ _) EF) in I. destruct I as [I _]. congruence.
    - intros t own h s I WR ST. destruct CF as [CF CK]. assert (CE : c_class k <> None /\ t = c_name k).
      { rewrite !in_app_iff in I. destruct I as [I|[I|I]].
        - exfalso. apply (in_map fst) in I. rewrite (id_names k b b' idp i i' ID) in I. destruct (c_id k) as [[[n r] l]|] eqn:CI; [|destruct I]. destruct I as [I|[]]. cbn [fst] in I. exact (IDN n r l eq_refl I).
        - unfold SaveSpec.class_fits in CF. destruct (c_class k) as [l|]; [|subst kvs; destruct I]. destruct CF as (-> & _). destruct I as [I|[]]. injection I as <-. split; [discriminate|auto].
        - exfalso. apply (in_map fst) in I. rewrite (field_names i i' (c_fields k) fs FF) in I. apply in_map_iff in I. destruct I as (f & E & I). apply (proj1 (FN f I)). exact E. }
      destruct CE as [CE ->]. destruct (c_class k) as [l|] eqn:CC; [|congruence]. destruct (AC l eq_refl) as (own' & WR' & O). assert (h = (false, None)) by congruence. assert (own' = own) by congruence. subst h own'. rewrite (AD own O). apply CK; auto. }
  split; auto.
  assert (SV : exists j, save_at None b (VObj (c_name k) (idp ++ kvs ++ fs) ext) = Ok j).
  { assert (S3 : exists e3, Forall2 (SavedAt m (idp ++ kvs ++ fs) b) fs e3).
    { assert (AF' : forall f, In f (c_fields k) -> f_name f <> "class" /\ exists own, written m (f_name f) = Some (how (f_loader f), own) /\ own_ok k m own = true) by (intros f I; split; [apply FN; auto|auto]).
      clear - FF AF' AD. revert AF' AD. generalize (idp ++ kvs ++ fs) at 1 2. intros all. revert all. induction FF as [|f [n v] fl fs [E H] F IH]; intros all AF AD; [exists []; constructor|].
      destruct (IH all) as [ess S]; [intros g I; apply AF; right; auto|auto|]. cbn [fst snd] in *. subst n.
      destruct H as [[-> _]|[N (j & SJ & _)]]; [exists ([] :: ess); constructor; auto; constructor|]. exists ([(f_name f, j)] :: ess). constructor; auto.
      destruct (AF f (or_introl eq_refl)) as (NC & own & WR & O). apply (SA_value V RV methods short prefixed m all b (f_name f) v (how (f_loader f)) own j); auto. rewrite (AD own O). exact SJ. }
    assert (S2 : exists e2, Forall2 (SavedAt m (idp ++ kvs ++ fs) b) kvs e2).
    { destruct CF as [CF CK]. unfold SaveSpec.class_fits in CF. destruct (c_class k) as [l|] eqn:CC; [|rewrite CF; exists []; constructor]. destruct CF as (E & CN & _). destruct (expand_class urljoin supported_schemes V RV _ CN) as (t & ST & _).
      destruct (AC l eq_refl) as (own & WR & O). eexists [_]. rewrite E at 2. constructor; [|constructor]. eapply SA_class; eauto. }
    assert (S1 : exists e1, Forall2 (SavedAt m (idp ++ kvs ++ fs) b) idp e1).
    { pose proof ID as ID'. unfold IdRT in ID'. destruct (c_id k) as [[[n r] l]|] eqn:CI; [|destruct ID' as (E & _); rewrite E; exists []; constructor]. destruct ID' as (s & t & E & _ & _ & ST & _). exists [[(n, JStr t)]]. rewrite E at 2. constructor; [|constructor].
      apply (SA_value V RV methods short prefixed m _ b n (VStr s) (how l) false); [discriminate|eapply IDN; eauto|eauto|]. unfold address. destruct (sv_own m); exact ST. }
    destruct S1 as [e1 S1], S2 as [e2 S2], S3 as [e3 S3]. eexists. apply (save_at_obj_ok V RV methods short prefixed _ _ _ _ _ m); auto. exists (e1 ++ e2 ++ e3). split; [|reflexivity]. apply Forall2_app; auto. apply Forall2_app; auto. }
  destruct SV as [j SV]. exists j. split; auto. intros SC o root FO. pose proof (save_at_kind V RV methods short prefixed _ _ _ _ SV) as SK. cbv iota beta in SK. destruct SK as [d ->].
  assert (ND : NoDup (map fst (idp ++ kvs ++ fs))) by (rewrite NM; auto).
  pose proof (proj1 (sc_dict d) SC) as SD. set (o' := with_container c nl o) in *. assert (FO' : Fit o') by (apply fit_within; auto).
  assert (ENT : forall x v, In (x, v) (idp ++ kvs ++ fs) -> entry x (VObj (c_name k) (idp ++ kvs ++ fs) ext) = Some v) by (intros x v I; cbn [entry]; apply In_dget; auto).
  assert (X1 : Identity (LoaderProofs.FieldLoads urljoin supported_schemes check_exists fetch_text read_yaml uuid classes proxies o') (uuid (JDict d)) k d b' root idp i').
  { pose proof ID as ID'. unfold IdRT in ID'. destruct (c_id k) as [[[n r] l]|] eqn:CI; [|destruct ID' as (-> & _ & ->); apply Identity_none; auto]. destruct ID' as (s & t & E & _ & -> & ST & LT).
    destruct (entry_there n b _ d (VStr s) SV W) as (j & h & b2 & GJ & SJ & (m' & own & MM' & WR & EB)); [apply ENT; rewrite E; left; auto|discriminate|eapply IDN; eauto|].
    assert (m' = m) by congruence. subst m'. rewrite (AI n r l eq_refl) in WR. injection WR as <- <-. assert (b2 = b) by (subst b2; unfold address; destruct (sv_own m); auto). subst b2. assert (j = JStr t) by congruence. subst j.
    rewrite E. eapply Identity_given; [exact CI|exact GJ|]. unfold LoaderProofs.FieldLoads. apply plain_field; [exact I|]. apply LT. auto. }
  assert (X2 : Classed (LoaderProofs.FieldLoads urljoin supported_schemes check_exists fetch_text read_yaml uuid classes proxies o') k (vocab o) d i' kvs).
  { destruct CF as [CF CK]. unfold SaveSpec.class_fits in CF. destruct (c_class k) as [l|] eqn:CC; [|subst kvs; apply Classed_none; auto]. destruct CF as (E & CN & LK).
    destruct (CS l eq_refl) as (i0 & nl' & NL' & -> & IC). destruct (entry_class b _ d (c_name k) SV W) as (s & GS & EX); [apply ENT; apply in_or_app; right; rewrite E; left; auto|auto|].
    rewrite E. apply (Classed_by _ k _ d i' (LUri i0 false true None nl') (JStr s) (c_name k)); [auto|auto|discriminate| |left; auto].
    unfold LoaderProofs.FieldLoads. apply plain_field; [exact I|]. apply (uri_text _ _ _ _ _ _ _ _ _ _ _ _ _ _ (c_name k)); [apply EX; apply FO'|apply (linked_ok check_exists V RV unchecked); auto|].
    apply Loads_body. split; [discriminate|]. exists 0. destruct IC as [-> | ->]; [|reflexivity]. cbn [load_body]. assert (SM : smem (c_name k) [c_name k] = true) by (apply smem_In; left; auto). rewrite SM. reflexivity. }
  assert (X3 : Forall2 (fun f kw => fst kw = f_name f /\ FieldValue (LoaderProofs.FieldLoads urljoin supported_schemes check_exists fetch_text read_yaml uuid classes proxies o') (LoaderProofs.Scoped urljoin supported_schemes o') d i' f (snd kw)) (c_fields k) fs).
  { apply (F2_in _ _ _ _ FF). intros f [n v] FI VI [E H]. cbn [fst snd] in *. subst n. split; auto.
    assert (SCP : ScopeOf (LoaderProofs.Scoped urljoin supported_schemes o') f i' (if f_subscope f then inside i' "run" else i')).
    { unfold ScopeOf. destruct (f_subscope f) eqn:SS; [|auto]. destruct (FN f FI) as [_ X]. rewrite (X SS). apply scoped_run. }
    assert (EN : entry (f_name f) (VObj (c_name k) (idp ++ kvs ++ fs) ext) = Some v) by (apply ENT; rewrite !in_app_iff; auto).
    assert (FA : In (f_name f) (attrs k)) by (unfold attrs; rewrite !in_app_iff; right; right; apply in_map; auto).
    destruct H as [[-> NR]|[NV (j & SJ & LJ)]].
    + eapply Field_absent; eauto. eapply obj_absent; eauto. destruct W as (m0 & _ & _ & _ & XC & _). apply XC. apply NCOL. auto.
    + destruct (entry_there (f_name f) b _ d v SV W EN NV) as (j' & h & b2 & GJ & SJ' & (m' & own & MM' & WR & EB)); [apply FN; auto|].
      assert (m' = m) by congruence. subst m'. destruct (AF f FI) as (own' & WR' & O). assert (h = how (f_loader f)) by congruence. assert (own' = own) by congruence. subst h own'. rewrite (AD own O) in EB. subst b2. assert (j' = j) by congruence. subst j'.
      assert (SJC : self_contained j) by (eapply sc_dget; eauto). eapply Field_present; eauto.
      * intros _ ->. destruct v; try discriminate; try congruence; apply save_at_kind in SJ; destruct SJ; discriminate.
      * unfold LoaderProofs.FieldLoads. apply plain_field; auto. }
  apply (record_ok urljoin supported_schemes check_exists fetch_text read_yaml uuid classes proxies cls c nl k); auto. cbv zeta. fold o'.
  exists idp, i', kvs, fs, ext. split; [exact X1|]. split; [exact X2|]. split; [exact X3|]. split.
  - apply (save_at_obj_ok V RV methods short prefixed _ _ _ _ _ m) in SV; auto. destruct SV as (ess & SF & E). assert (d = pext ext ++ List.concat ess) by congruence. subst d.
    assert (OT : others k (pext ext ++ List.concat ess) = pext ext).
    { unfold others. rewrite filter_app. assert (A : filter (fun kv => negb (smem (fst kv) (attrs k))) (pext ext) = pext ext).
      { clear - EF. unfold ShortProofs.pext. induction EF as [|kv ext (_ & H & _) F IH]; cbn [filter map fst]; auto. destruct (smem (prefixed (fst kv)) (attrs k)) eqn:SM; [apply smem_In in SM; contradiction|]. cbn [negb]. congruence. }
      assert (B : filter (fun kv => negb (smem (fst kv) (attrs k))) (List.concat ess) = []).
      { pose proof (concat_keys_at _ _ _ _ _ _ _ _ _ _ SF) as CK. rewrite NM in CK. clear - CK. induction (List.concat ess) as [|kv l IH]; cbn [filter]; auto.
        assert (SM : smem (fst kv) (attrs k) = true) by (apply smem_In, CK; left; auto). rewrite SM. cbn [negb]. apply IH. intros x I. apply CK. right. auto. }
      rewrite A, B, app_nil_r. reflexivity. }
    rewrite OT. clear - EF FO'. unfold ShortProofs.pext. induction EF as [|kv ext (H & _ & R) F IH]; cbn [map]; constructor; auto. cbn [fst snd]. split; [auto|]. split; auto. unfold LoaderProofs.Expands. apply R; apply FO'.
  - f_equal. rewrite dupdate_fresh; auto.
Qed.

(** ** All values *)
Lemma well_of_json b j : well b (of_json j).
Proof. destruct j; exact I. Qed.
Lemma rt_list b b' i vs : Forall (RT b b' i) vs -> exists js, save_at None b (VSeq vs) = Ok (JList js) /\ Forall2 (fun v j => save_at None b v = Ok j) vs js /\
  (Forall self_contained js -> forall o root, Fit o -> Forall2 (fun j w => Loads i j b' o root (Ok w)) js vs).
Proof.
  intros F. assert (X : exists js, Forall2 (fun v j => save_at None b v = Ok j) vs js /\ (Forall self_contained js -> forall o root, Fit o -> Forall2 (fun j w => Loads i j b' o root (Ok w)) js vs)).
  { induction F as [|v vs (j & S & L) F (js & A & B)]; [exists []; split; [constructor|]; intros; constructor|]. exists (j :: js). split; [constructor; auto|]. intros SC o root FO. apply Forall_cons_iff in SC. destruct SC as [SC1 SC2]. constructor; auto. }
  destruct X as (js & A & B). exists js. split; auto. rewrite save_at_seq. apply save_list_at_ok in A. rewrite A. reflexivity.
Qed.
Lemma array_round i b b' vs js o root : Forall2 (fun v j => save_at None b v = Ok j) vs js -> Forall self_contained js -> Forall (fun v => is_seq v = false) vs -> NoDup (ids js) ->
  Forall2 (fun j w => Loads i j b' o None (Ok w)) js vs -> Loads (LArray i) (JList js) b' o root (Ok (VSeq vs)).
Proof.
  intros SV SC NS ND L. apply array_ok. exists vs. split; [|split; [auto|]].
  - clear ND. induction L as [|j w js vs H L IH]; constructor.
    + inversion SV; inversion SC; subst. inversion NS; subst. apply element_ok; [intros e ->; match goal with X : self_contained _ |- _ => apply sc_dict in X; split; eapply sc_no_key; eauto end|].
      destruct j; try exact H. match goal with X : save_at _ _ _ = Ok _ |- _ => apply save_at_kind in X end. match goal with X : is_seq ?v = false |- _ => destruct v; try discriminate; match goal with X : exists _, _ |- _ => destruct X; discriminate end end.
    + inversion SV; inversion SC; subst. inversion NS; subst. eapply IH; eauto.
  - f_equal. unfold flat. destruct (flattens o); auto. clear - NS. induction NS as [|v vs H F IH]; cbn [map List.concat]; auto. rewrite <- IH. destruct v; try discriminate; reflexivity.
Qed.
(** Patterns *)
Lemma pattern_round k m b b' vs : classes "SecondaryFileSchema" = Some k -> methods (c_name k) = Some m -> agrees k m = true -> Forall pattern_object vs -> Forall (RT b b' patterns) vs ->
  RT b b' (LSecondary (LUnion [LPrim PNull; patterns; LArray patterns])) (VSeq vs).
Proof.
  intros K MM AG PO F. destruct (pattern k K) as (KN & KI & KC & l1 & l2 & KF). destruct (agrees_parts k m AG) as (AF & _ & _).
  destruct (rt_list b b' patterns vs F) as (js & S & SV & L). exists (JList js). split; auto. intros SC o root FO. apply sc_list in SC. specialize (L SC o None FO). clear F.
  apply secondary_via. cbn [secondary_dsl].
  assert (AT : attrs k = ["pattern"; "required"]) by (unfold attrs; rewrite KI, KC, KF; reflexivity).
  assert (X : exists rs, Forall2 (fun d r => secondary_item d = Ok r) js rs /\ Forall self_contained rs /\ ids rs = [] /\ Forall (fun r => exists d, r = JDict d) rs /\ Forall2 (fun j w => Loads patterns j b' o None (Ok w)) rs vs).
  { clear S. revert L PO SC. induction SV as [|v j vs js S SV IH]; intros L PO SC; inversion L as [|? ? ? ? LV L']; subst; [exists []; repeat split; constructor|]. inversion PO as [|? ? (p & r & EV) PO']; subst. inversion SC as [|? ? SJ SC']; subst.
    destruct IH as (rs & A & B & C & D & E); auto. clear L' PO' SC'.
    assert (Y : exists jp jr, j = JDict (("pattern", jp) :: match r with VNull => [] | _ => [("required", jr)] end) /\ (r = VNull -> jr = JNull)).
    { pose proof (save_at_kind V RV methods short prefixed _ _ _ _ S) as SK. cbv iota beta in SK. destruct SK as [d ->]. rewrite KN in MM. apply (save_at_obj_ok V RV methods short prefixed _ _ _ _ _ m _ MM) in S; [|cbn; repeat constructor; cbn; intuition discriminate]. destruct S as (ess & SF & E'). cbn [app ShortProofs.pext map] in E'. assert (d = List.concat ess) by congruence. subst d.
      inversion SF as [|? e1 ? ess1 S1 SF1]; subst. inversion SF1 as [|? e2 ? ess2 S2 SF2]; subst. inversion SF2; subst. cbn [List.concat] in *. rewrite app_nil_r in *.
      assert (W1 : written m "pattern" <> None) by (destruct (AF (Field "pattern" true l1 false)) as (own & W1 & _); [rewrite KF; left; auto|]; cbn [f_name] in W1; rewrite W1; discriminate).
      assert (W2 : written m "required" <> None) by (destruct (AF (Field "required" false (LUnion (LPrim PNull :: l2)) false)) as (own & W2 & _); [rewrite KF; right; left; auto|]; cbn [f_name] in W2; rewrite W2; discriminate).
      assert (NP : p <> VNull).
      { intros ->. inversion S1; subst; try congruence. cbn [app] in *. pose proof LV as LX. apply (record_object _ _ _ k) in LX; auto. destruct LX as (d & ED & (i & b2 & cl & fs & ext & _ & _ & FS & _)).
        rewrite KF in FS. inversion FS as [|? ? ? ? [_ FV] _]; subst. assert (GN : dget "pattern" d = None) by (assert (d = e2) by congruence; subst d; inversion S2; subst; reflexivity).
        destruct FV as [? ? ? R|? ? ? ? GP ? ?]; [discriminate R|cbn [f_name] in GP; congruence]. }
      inversion S1; subst; try congruence. inversion S2; subst; try congruence; cbn [app].
      - eexists _, JNull. split; [reflexivity|]. auto.
      - eexists _, _. split; [|intros ->; congruence]. destruct r; try reflexivity. congruence. }
    destruct Y as (jp & jr & -> & RN). set (r' := JDict [("pattern", jp); ("required", jr)]).
    assert (SP : self_contained jp /\ self_contained jr).
    { apply sc_dict in SJ. inversion SJ as [|? ? [_ SP] SQ]; subst. split; [exact SP|]. destruct r; try (rewrite RN by auto; exact I); inversion SQ as [|? ? [_ SQ'] _]; exact SQ'. }
    exists (r' :: rs). split; [|split; [|split; [|split]]].
    - constructor; auto. unfold r'. destruct r; try reflexivity. rewrite RN by auto. reflexivity.
    - constructor; auto. apply sc_dict. repeat constructor; cbn; try discriminate; apply SP.
    - rewrite ids_cons. exact C.
    - constructor; [unfold r'; eauto|auto].
    - constructor; auto. pose proof LV as LX. destruct r; try exact LX.
      subst r'. assert (jr = JNull) by auto. subst jr. apply (record_object _ _ _ k) in LX; auto. destruct LX as (d & ED & (i & b2 & cl & fs & ext & OI & OC & FS & OE & EV)). assert (d = [("pattern", jp)]) by congruence. subst d.
      apply (record_ok urljoin supported_schemes check_exists fetch_text read_yaml uuid classes proxies _ _ _ k); auto. cbv zeta.
      destruct OI as [_|? ? ? ? ? X1 ? ?|? ? ? ? X1 ? ?|? ? X1 ? ?]; try congruence. destruct OC as [_|? ? ? X1 ? ? ? ?]; [|congruence]. rewrite KF in FS. inversion FS as [|? kv1 ? fs1 [E1 FV] FS1]; subst. inversion FS1 as [|? kv2 ? fs2 [E2 FV2] FS2]; subst. inversion FS2; subst.
      assert (OX : others k [("pattern", jp)] = []) by (unfold others; rewrite AT; reflexivity). rewrite OX in OE. inversion OE; subst. cbn [app].
      assert (V2 : snd kv2 = VNull) by (destruct FV2 as [? ? GP ?|? ? ? ? GP ? ?]; [reflexivity|cbn in GP; discriminate GP]).
      exists [], b', [], [kv1; kv2], []. split; [apply Identity_none; auto|]. split; [apply Classed_none; auto|]. split; [|split].
      + rewrite KF. constructor; [split; [auto|]|constructor; [split; [auto|]|constructor]].
        * destruct FV as [? ? GP ?|bb j v ? GP ? FL]; [cbn in GP; discriminate|]. cbn [f_name] in GP. assert (j = jp) by (cbn in GP; congruence). subst j. eapply Field_present; eauto.
        * rewrite V2. apply (Field_present _ _ _ b' _ b' JNull VNull); [exact eq_refl|reflexivity|discriminate|]. cbn [f_loader]. unfold LoaderProofs.FieldLoads. apply plain_field; [exact I|]. apply union_ok. exists [], (LPrim PNull), l2. split; auto. split; [constructor|].
          apply Loads_body. split; [discriminate|]. exists 0. reflexivity.
      + unfold others. rewrite AT. constructor.
      + exact EV. }
  destruct X as (rs & A & B & C & D & E). assert (M : mapM secondary_item js = Ok rs) by (apply mapM_Ok; auto). rewrite M.
  apply union_ok. exists [LPrim PNull; patterns], (LArray patterns), []. split; auto. split.
  - constructor; [|constructor; [|constructor]]; [apply Loads_body; split; [discriminate|]; exists 0; reflexivity|]. apply record_not_map; [discriminate|discriminate|reflexivity].
  - assert (NS : Forall (fun v => is_seq v = false) vs) by (clear - PO; induction PO as [|v vs (p & r & ->) F IH]; constructor; auto).
    apply array_ok. exists vs. split; [|split].
    + clear - B D E. induction E as [|j v rs vs H E IH]; [constructor|]. inversion B; inversion D as [|? ? [d ->]]; subst. constructor; auto. apply element_ok; [|exact H]. intros e [= ->].
      match goal with X : self_contained _ |- _ => apply sc_dict in X; split; eapply sc_no_key; eauto end.
    + rewrite C. constructor.
    + f_equal. unfold flat. destruct (flattens o); auto. clear - NS. induction NS as [|v vs H F IH]; cbn [map List.concat]; auto. rewrite <- IH. destruct v; try discriminate; reflexivity.
Qed.

(** ** The theorem *)
Lemma id_js b v j : save_at None b v = Ok j -> well b v -> plain_id v -> match element_id j with Some i => [i] | None => [] end = map JStr (written_id b v).
Proof.
  intros S W P. pose proof (save_at_kind V RV methods short prefixed _ _ _ _ S) as K. unfold plain_id in P. unfold ShortSpec.written_id.
  destruct v; try (subst j; reflexivity); [destruct K as [? ->]; reflexivity| |]; destruct K as [es ->]; cbn [element_id].
  - rewrite save_at_vmap in S. destruct (save_map_at b d) as [es'|] eqn:M; cbn [bind] in S; [|discriminate]. assert (es' = es) by congruence. subst es'. pose proof (get_saved_map b d es "id" M) as G.
    cbn [entry] in *. destruct (dget "id" d) as [[]|]; try contradiction; [destruct G as (j & -> & SJ); injection SJ as <-; reflexivity|destruct G as (j & -> & SJ); injection SJ as <-; reflexivity|rewrite G; reflexivity].
  - destruct (entry "id" (VObj cls fields extension_fields)) as [w|] eqn:E; [destruct w; try contradiction|].
    + destruct (entry_absent "id" b _ es S W (or_introl eq_refl) (or_intror E)) as [-> | ->]; reflexivity.
    + destruct (entry_there "id" b _ es (VStr s) S W E) as (j & h & b2 & -> & SJ & (m & own & MM & WR & ->)); [discriminate|discriminate|]. destruct (ids_scoped _ _ _ _ MM WR) as [-> ->]. injection SJ as <-. unfold address. destruct (sv_own m); reflexivity.
    + destruct (entry_absent "id" b _ es S W (or_introl eq_refl) (or_introl E)) as [-> | ->]; reflexivity.
Qed.
Lemma ids_js b vs js : Forall2 (fun v j => save_at None b v = Ok j) vs js -> Forall (well b) vs -> apart_at b vs -> NoDup (ids js).
Proof.
  intros F W (P & N). assert (E : ids js = map JStr (flat_map (written_id b) vs)).
  { clear N. induction F as [|v j vs js S F IH]; [reflexivity|]. apply Forall_cons_iff in W, P. destruct W as [W1 W2], P as [P1 P2]. rewrite ids_cons. cbn [flat_map]. rewrite map_app. f_equal; [apply id_js; auto|auto]. }
  rewrite E. apply Injective_map_NoDup; auto. intros x y [= ->]. auto.
Qed.
Lemma resolve_texts b r1 vs js : Forall2 (fun v j => save_at None b v = Ok j) vs js -> (forall s, In s (texts vs) -> r1 s = Ok (JStr s)) -> NoDup (texts vs) ->
  forall acc, (forall s, In s (texts vs) -> ~ In (JStr s) acc) -> resolve_list r1 acc js = Ok (acc ++ js).
Proof.
  induction 1 as [|v j vs js S F IH]; intros R N acc NA; cbn [resolve_list]; [rewrite app_nil_r; auto|]. unfold texts in R, N, NA. cbn [flat_map] in R, N, NA. fold (texts vs) in R, N, NA.
  assert (X : (exists s, v = VStr s /\ j = JStr s) \/ (match j with JStr _ => False | _ => True end /\ match v with VStr s => [s] | _ => [] end = [])).
  { apply save_at_kind in S. destruct v; try (subst j; right; split; [exact I|reflexivity]); [left; eauto| | |]; destruct S as [? ->]; right; split; try exact I; reflexivity. }
  destruct X as [(s & -> & ->)|[NJ E]].
  - cbn [app] in *. rewrite R by (left; auto). cbn [bind]. inversion N as [|? ? N1 N2]; subst.
    assert (EX : add_new acc (JStr s) = acc ++ [JStr s]).
    { unfold add_new. destruct (existsb (py_eqb (JStr s)) acc) eqn:EE; auto. apply existsb_exists in EE. destruct EE as (x & I & PE). destruct x; try discriminate. cbn in PE. apply String.eqb_eq in PE. subst. destruct (NA s0); cbn; auto. }
    rewrite EX. rewrite IH; auto; [rewrite <- app_assoc; reflexivity|intros; apply R; right; auto|]. intros s' I I'. apply in_app_iff in I'. destruct I' as [I'|[I'|[]]]; [apply (NA s'); cbn; auto|]. injection I' as ->. contradiction.
  - rewrite E in *. cbn [app] in *. assert (EX : resolve_list r1 (acc ++ [j]) js = Ok (acc ++ j :: js)).
    { rewrite IH; auto; [rewrite <- app_assoc; reflexivity|]. intros s' I I'. apply in_app_iff in I'. destruct I' as [I'|[I'|[]]]; [apply (NA s'); auto|]. subst j. contradiction. }
    destruct j; try contradiction; exact EX.
Qed.
(** A list of references *)
Lemma uri_list b b' h vt vs js : Forall2 (fun v j => save_at None b v = Ok j) vs js -> Forall (fun v => is_seq v = false) vs -> Forall (restored b b' h vt) (texts vs) ->
  exists js', Forall2 (fun v j => save_at (Some h) b v = Ok j) vs js' /\ (Forall self_contained js' -> Forall self_contained js) /\
    forall o, Named o -> mapM (fun i => match i with JStr s => do u <- expand s b' o (fst h) vt (snd h); Ok (JStr u) | _ => Ok i end) js' = Ok js.
Proof.
  induction 1 as [|v j vs js S F IH]; intros NS R; [exists []; repeat split; auto; constructor|]. apply Forall_cons_iff in NS. destruct NS as [N1 N2]. unfold texts in R. cbn [flat_map] in R. fold (texts vs) in R. apply Forall_app in R. destruct R as [R1 R2].
  destruct (IH N2 R2) as (js' & A & B & C). destruct (match v with VStr _ => true | _ => false end) eqn:T.
  - destruct v; try discriminate. injection S as <-. apply Forall_cons_iff in R1. destruct R1 as [R1 _]. exists (JStr (short s b h) :: js'). split; [constructor; auto; reflexivity|]. split.
    + intros SC. apply Forall_cons_iff in SC. destruct SC as [_ SC]. constructor; [exact I|auto].
    + intros o N. cbn [mapM]. rewrite (R1 o (proj1 N) (proj2 N)). cbn [bind]. rewrite (C o N). reflexivity.
  - exists (j :: js'). split; [constructor; auto; rewrite save_at_plain; auto; destruct v; try discriminate; exact I|]. split.
    + intros SC. apply Forall_cons_iff in SC. destruct SC as [SC1 SC2]. constructor; auto.
    + intros o N. cbn [mapM]. rewrite (C o N). apply save_at_kind in S. destruct v; try discriminate; try (subst j; reflexivity); destruct S as [? ->]; reflexivity.
Qed.
Lemma fits_not_uri b b' l v : FitsAt b b' l v -> how l = None.
Proof. destruct 1; reflexivity. Qed.
Definition P_one (b b' : string) (l : loader) (v : lv) : Prop := good l -> RT b b' l v /\ deep b v.
Definition P_field (b b' : string) (l : loader) (v : lv) : Prop := good l -> FieldRT b b' l v.
Definition P_all (b b' : string) (i : loader) (vs : list lv) : Prop := good i -> Forall (fun v => RT b b' i v /\ deep b v) vs.
Definition P_fields (b b' : string) (fs : list field) (kvs : list (string * lv)) : Prop := Forall (fun f => good (f_loader f)) fs -> Forall2 (OneRT b b') fs kvs.
Lemma deep_list b b' i vs : Forall (fun v => RT b b' i v /\ deep b v) vs -> Forall (RT b b' i) vs /\ Forall (well b) vs.
Proof. intros F. split; (eapply Forall_impl; [|exact F]); intros v [A B]; auto. apply B. Qed.
Theorem fits_round_at :
  (forall b b' l v, FitsAt b b' l v -> P_one b b' l v) /\ (forall b b' l v, FieldFits b b' l v -> P_field b b' l v) /\
  (forall b b' i vs, FitsAllAt b b' i vs -> P_all b b' i vs) /\ (forall b b' fs kvs, FieldsFit b b' fs kvs -> P_fields b b' fs kvs).
Proof.
  apply FitsAt_mutual; unfold P_one, P_field, P_all, P_fields.
  - (* any *) intros b b' j NJ _. split; [|split; [apply well_of_json|destruct j; cbn [of_json]; auto; clear; induction l; constructor; auto; apply well_of_json]].
    exists j. split; [apply save_at_of_json|]. intros _ o root _. apply Loads_body. split; [discriminate|]. exists 0. cbn [load_body]. destruct j; auto. congruence.
  - (* prim *) intros b b' tp v HP _. split; [|destruct tp, v; try discriminate; repeat split; exact I].
    assert (X : exists j, v = of_json j /\ is_prim tp j = true) by (destruct tp, v; try discriminate; [exists JNull|exists (JBool b0)|exists (JBool b0)|exists (JInt z)|exists (JFloat s)|exists (JStr s)]; auto).
    destruct X as (j & -> & PJ). exists j. split; [apply save_at_of_json|]. intros _ o root _. apply Loads_body. split; [discriminate|]. exists 0. cbn [load_body]. rewrite PJ. reflexivity.
  - (* enum *) intros b b' ss s HI _. split; [|repeat split]. exists (JStr s). split; auto. intros _ o root _. apply Loads_body. split; [discriminate|]. exists 0. cbn [load_body]. apply smem_In in HI. rewrite HI. reflexivity.
  - (* expression *) intros b b' s _. split; [|repeat split]. exists (JStr s). split; auto. intros _ o root _. apply Loads_body. split; [discriminate|]. exists 0. reflexivity.
  - (* array *) intros b b' i vs _ IH NS AP G. assert (GI : good i) by (destruct G as [A B]; split; [exact A|apply direct_fieldable; exact B]). specialize (IH GI). destruct (deep_list _ _ _ _ IH) as [R W]. split; [|split; [exact I|exact W]].
    destruct (rt_list b b' i vs R) as (js & S & SV & L). exists (JList js). split; auto. intros SC o root FO. apply sc_list in SC. eapply array_round; eauto. eapply ids_js; eauto.
  - (* map *) intros b b' i c nl d NL _ IH G. assert (GI : good i) by (destruct G as [A B]; split; [exact A|apply direct_fieldable; exact B]). specialize (IH GI). destruct (deep_list _ _ _ _ IH) as [R _]. split; [|repeat split].
    assert (X : exists es, Forall2 (fun kv e => fst e = fst kv /\ save_at None b (snd kv) = Ok (snd e)) d es /\ (Forall sc_pair es -> forall o root, Fit o -> Forall2 (fun e kw => fst kw = fst e /\ Loads i (snd e) b' o root (Ok (snd kw))) es d)).
    { clear - R. induction d as [|[k v] d IH]; [exists []; split; [constructor|]; intros; constructor|]. cbn [map snd] in R. inversion R as [|? ? (j & S & L) R']; subst. destruct (IH R') as (es & A & B). exists ((k, j) :: es). split; [constructor; auto|].
      intros SC o root FO. inversion SC as [|? ? [_ SJ] SC']; subst. constructor; auto. }
    destruct X as (es & A & B). exists (JDict es). split; [rewrite save_at_vmap; apply save_map_at_ok in A; rewrite A; reflexivity|]. intros SC o root FO. apply sc_dict in SC.
    pose proof (B SC (within c nl o) None (fit_within V RV unchecked c nl o NL FO)) as LE.
    apply (map_ok urljoin supported_schemes check_exists fetch_text read_yaml uuid classes proxies). exists d. split; auto. apply (F2_in _ _ _ _ LE). intros e kv EI _ [E L]. split; auto.
    apply plain_field; [apply (proj1 (Forall_forall _ _) SC) in EI; apply EI|]. exact L.
  - (* object *) intros b b' cls c nl k kvs fs ext K NL CI CF _ IH EF G. destruct (good_class_parts classes known proxied known_class known_class' neat cls c nl k G K) as (NK & GF & _).
    destruct (agree cls k (proj1 G) K) as (m & MM & AG). destruct (record_round cls c nl k m [] kvs fs ext b b' b b') as [R W]; auto; [unfold IdRT; rewrite CI; auto|]. split; auto. split; [exact W|exact I].
  - (* object with an identifier *) intros b b' cls c nl k n req l s kvs fs ext K NL CI _ IHl CF _ IH EF G. destruct (good_class_parts classes known proxied known_class known_class' neat cls c nl k G K) as (NK & GF & GL).
    destruct (agree cls k (proj1 G) K) as (m & MM & AG). destruct (record_round cls c nl k m [(n, VStr s)] kvs fs ext b b' s s) as [R W]; auto.
    { unfold IdRT; rewrite CI. destruct (IHl (GL _ _ _ CI)) as (j & SJ & LJ). exists s, (match how l with Some h => short s b h | None => s end). split; auto. split; auto. split; auto. split; [reflexivity|]. intros o FO. assert (j = JStr (match how l with Some h => short s b h | None => s end)) by (cbn [ShortModel.save_at] in SJ; congruence). subst j. apply LJ; auto. exact I. }
    split; auto. split; [exact W|exact I].
  - (* union *) intros b b' pre a post v RF _ IH G. apply good_union in G. assert (GA : good a) by (apply (proj1 (Forall_forall _ _) G); apply in_or_app; cbn; auto). destruct (IH GA) as [(j & S & L) D]. split; auto.
    exists j. split; auto. intros SC o root FO. apply union_ok. exists pre, a, post. split; auto. split; auto. apply Forall_forall. intros t I. eapply refuses_loads; eauto; [|apply FO].
    apply (proj1 (Forall_forall _ _) G). apply in_or_app. auto.
  - (* type *) intros b b' i rs salad v _ IH M G. assert (GI : good i) by (destruct G as [A B]; cbn [sound EndProofs.fieldable] in A, B; apply andb_true_iff in A, B; split; [apply A|apply direct_fieldable; apply B]). destruct (IH GI) as [(j & S & L) D]. split; auto. exists j. split; auto.
    intros SC o root FO. specialize (L SC o None FO). apply type_dsl_via. unfold resolved. pose proof (save_at_kind V RV methods short prefixed _ _ _ _ S) as SK. destruct v; try (subst j; exact L); try (destruct SK as [? ->]; exact L).
    + subst j. destruct M as [ST IN]. cbn [type_dsl]. rewrite (resolved_name urljoin supported_schemes V RV); auto. apply FO.
    + destruct SK as [js ->]. destruct M as [M ND]. cbn [type_dsl]. rewrite save_at_seq in S. destruct (save_list_at None b l) as [js'|] eqn:E; cbn [bind] in S; [|discriminate]. assert (js' = js) by congruence. subst js'.
      apply save_list_at_ok in E. rewrite (resolve_texts b _ l js E); [exact L| |auto|intros s _ []]. intros s I. apply (proj1 (Forall_forall _ _) M) in I. apply (resolved_name urljoin supported_schemes V RV); try apply I. apply FO.
  - (* identifier map *) intros b b' i s p v NM _ IH G. assert (GI : good i) by (destruct G as [A B]; cbn [sound EndProofs.fieldable] in A, B; apply andb_true_iff in A, B; destruct A as [A _], B as [B _]; apply andb_true_iff in A, B; split; [apply A|apply direct_fieldable; apply B]).
    destruct (IH GI) as [(j & S & L) D]. split; auto. exists j. split; auto. intros SC o root FO. specialize (L SC o None FO). apply id_map_via. pose proof (save_at_kind V RV methods short prefixed _ _ _ _ S) as SK. destruct v; try discriminate; try (subst j; exact L). destruct SK as [? ->]. exact L.
  - (* patterns *) intros b b' vs PO _ IH G. assert (GP : good patterns).
    { destruct G as [A B]. cbn [sound EndProofs.fieldable EndProofs.direct all_of_them] in A, B. change (sound known proxied (LUnion [LPrim PNull; patterns; LArray patterns]) = true) in A. apply sound_union in A. inversion A as [|? ? _ A']; subst. inversion A' as [|? ? A'' _]; subst. split; exact A''. }
    specialize (IH GP). destruct (deep_list _ _ _ _ IH) as [R W]. split; [|split; [exact I|exact W]]. destruct (known_class "SecondaryFileSchema") as (k & K & _); [exact (proj1 GP)|]. destruct (agree _ k (proj1 GP) K) as (m & MM & AG). apply (pattern_round k m); auto.
  - (* named *) intros b b' n l v P _ IH G. destruct (IH (good_proxy proxies known proxied known_proxy known_proxy' n l G P)) as [(j & S & L) D]. split; auto. exists j. split; auto. intros SC o root FO. apply (proxy_via urljoin supported_schemes check_exists fetch_text read_yaml uuid classes proxies n l); auto.
  - (* reference *) intros b b' i si vt sr nl v NL _ IH M G. assert (GI : good i) by (destruct G as [A B]; split; [exact A|apply direct_fieldable; exact B]). destruct (IH GI) as [(j & S & L) D]. unfold FieldRT. cbn [scope_of].
    destruct (match v with VStr _ | VSeq _ => false | _ => true end) eqn:PL.
    + exists j. split; [rewrite save_at_plain; auto; destruct v; try discriminate; exact I|]. intros SC o root FO. assert (FO' : Fit (with_container None nl o)) by (apply fit_within; auto). pose proof (save_at_kind V RV methods short prefixed _ _ _ _ S) as SK.
      apply uri_other; [|apply L; auto]. destruct v; try discriminate; try (subst j; exact I); destruct SK as [? ->]; exact I.
    + destruct v; try discriminate.
      * destruct M as [ST LK]. injection S as <-. exists (JStr (short s b (si, sr))). split; [reflexivity|]. intros SC o root FO. assert (FO' : Fit (with_container None nl o)) by (apply fit_within; auto).
        apply (uri_text _ _ _ _ _ _ _ _ _ _ _ _ _ _ s); [apply ST; apply FO'|apply (linked_ok check_exists V RV unchecked); auto|apply L; auto; exact I].
      * destruct M as [NS M]. rewrite save_at_seq in S. destruct (save_list_at None b l) as [js|] eqn:E; cbn [bind] in S; [|discriminate]. assert (j = JList js) by congruence. subst j. apply save_list_at_ok in E.
        destruct (uri_list b b' (si, sr) vt l js E NS M) as (js' & A & B & C). exists (JList js'). split; [apply save_list_at_ok in A; exact (f_equal (fun x => do r <- x; Ok (JList r)) A)|].
        intros SC o root FO. assert (FO' : Fit (with_container None nl o)) by (apply fit_within; auto). apply sc_list in SC.
        apply (uri_via urljoin supported_schemes check_exists fetch_text read_yaml uuid classes proxies). cbv zeta. change (within None nl o) with (with_container None nl o). cbn [fst snd] in C. rewrite (C _ (proj1 FO')). apply L; auto. apply sc_list. auto.
  - (* other fields *) intros b b' l v F IH G. unfold FieldRT. rewrite (fits_not_uri _ _ _ _ F). apply IH. auto.
  - constructor.
  - intros b b' i v vs _ IH _ IHs G. constructor; auto.
  - constructor.
  - intros b b' f fs kvs NR _ IH G. inversion G; subst. constructor; auto. split; auto.
  - intros b b' f fs v kvs NV _ IH _ IHs G. inversion G; subst. constructor; auto. split; auto.
Qed.
End Round.
