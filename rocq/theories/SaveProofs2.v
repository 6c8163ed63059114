(** * Proofs for C74: loading what was saved *)
From Verif Require Import PyBase PyBaseProofs NameProofs ParserModel ParserProofs LoaderModel LoaderSpec LoaderProofs AddressSpec AddressProofs VersionModel VersionSpec RefusalProofs EndProofs SaveModel SaveSpec SaveProofs.
From Coq Require Import Lia FinFun.

(** What the classes must satisfy *)
Fixpoint different (l : list string) : bool := match l with [] => true | x :: l => negb (smem x l) && different l end.
Lemma different_NoDup l : different l = true -> NoDup l.
Proof.
  induction l as [|x l IH]; cbn; [constructor|]. intros H. apply andb_true_iff in H. destruct H as [A B]. constructor; auto.
  apply negb_true_iff in A. intros X. apply smem_In in X. congruence.
Qed.
Definition class_loader_of (n : string) (l : loader) : bool :=
  match l with LUri i false true None nl => match i with LEnum [s] => String.eqb s n | LPrim PStr => true | _ => false end && match nl with Some false => false | _ => true end | _ => false end.
Definition neat_class (k : class) : bool :=
  different (attrs k) && forallb (fun n => negb (has_char ":" n)) (attrs k) &&
  forallb (fun f => negb (String.eqb (f_name f) "class") && (negb (f_subscope f) || String.eqb (f_name f) "run")) (c_fields k) &&
  match c_id k with Some (n, _, _) => negb (String.eqb n "class") | None => true end &&
  match c_class k with Some l => class_loader_of (c_name k) l | None => true end.
Definition pattern_class (k : class) : Prop :=
  c_name k = "SecondaryFileSchema" /\ c_id k = None /\ c_class k = None /\
  exists l1 l2, c_fields k = [Field "pattern" true l1 false; Field "required" false (LUnion (LPrim PNull :: l2)) false].

Scheme Fits_m := Minimality for SaveSpec.Fits Sort Prop with FitAll_m := Minimality for SaveSpec.FitAll Sort Prop with FitFields_m := Minimality for SaveSpec.FitFields Sort Prop.
Combined Scheme Fits_mutual from Fits_m, FitAll_m, FitFields_m.

Section Round.
Variables (urljoin : string -> string -> result string) (supported_schemes : list string) (check_exists : string -> result bool)
  (fetch_text : string -> result string) (read_yaml : string -> result json) (uuid : json -> string)
  (classes : string -> option class) (proxies : string -> option loader).
Hypothesis joins : forall b u, loaded_or_refused (urljoin b u).
Hypothesis joins' : forall b u, urljoin b u <> Err OutOfFuel.
Hypothesis checks : forall u, loaded_or_refused (check_exists u).
Hypothesis checks' : forall u, check_exists u <> Err OutOfFuel.
Variables (known proxied : string -> bool).
Hypothesis known_class : forall c, known c = true -> exists k, classes c = Some k /\ sound_class known proxied k = true.
Hypothesis known_class' : forall c, known c = true -> exists k, classes c = Some k /\ good_class known proxied k = true.
Hypothesis known_proxy : forall n, proxied n = true -> exists l, proxies n = Some l /\ sound known proxied l = true.
Hypothesis known_proxy' : forall n, proxied n = true -> exists l, proxies n = Some l /\ direct known proxied l = true /\ shallow l = true.
Hypothesis neat : forall c k, known c = true -> classes c = Some k -> neat_class k = true.
Hypothesis pattern : forall k, classes "SecondaryFileSchema" = Some k -> pattern_class k.
Variables (V RV : list (string * string)) (unchecked blanks : bool).
Notation Loads := (LoaderProofs.Loads urljoin supported_schemes check_exists fetch_text read_yaml uuid classes proxies).
Notation expand := (expand_url urljoin supported_schemes).
Notation save := (save V RV).
Notation saved_class := (saved_class V RV).
Notation SavedField := (SavedField V RV).
Notation full_address := (full_address supported_schemes V).
Notation Settled := (Settled supported_schemes V RV).
Notation linked := (linked check_exists unchecked).
Notation blank_name := (blank_name V).
Notation home := (home check_exists unchecked blanks).
Notation Renamed := (Renamed classes V blanks).
Notation class_named := (class_named supported_schemes V RV).
Notation Refuses := (Refuses supported_schemes classes proxies V RV).
Notation class_fits := (class_fits supported_schemes check_exists V RV unchecked).
Notation extensions_fit := (extensions_fit supported_schemes V).
Notation Fits := (Fits supported_schemes check_exists classes proxies V RV unchecked blanks).
Notation FitAll := (FitAll supported_schemes check_exists classes proxies V RV unchecked blanks).
Notation FitFields := (FitFields supported_schemes check_exists classes proxies V RV unchecked blanks).

(** Options with the names of the document *)
Definition Named (o : options) : Prop := vocab o = V /\ rvocab o = RV.
Definition Fit (o : options) : Prop := Named o /\ (unchecked = true -> no_link_check o = true).
Definition good (l : loader) : Prop := sound known proxied l = true /\ fieldable known proxied l = true.
Lemma fit_within c nl o : nl <> Some false -> Fit o -> Fit (with_container c nl o).
Proof. intros N [[A B] C]. repeat split; auto. cbn. intros U. destruct nl as [[]|]; auto; congruence. Qed.
Lemma named_within c nl o : Named o -> Named (with_container c nl o).
Proof. auto. Qed.

(** ** Texts *)
Lemma full_colon s : full_address s -> has_char ":" s = true.
Proof.
  intros (N & _). destruct (has_char ":" s) eqn:H; auto. exfalso. apply N. unfold urlsplit.
  assert (X : forall a, has_char ":" a = false -> has_char ":" (remove_unsafe (lstrip_control a)) = false).
  { assert (Y : forall a, has_char ":" a = false -> has_char ":" (remove_unsafe a) = false).
    { induction a as [|d a IH]; cbn [remove_unsafe]; auto. cbn [has_char]. intros E. apply orb_false_iff in E. destruct E as [E1 E2].
      destruct (is_unsafe d); auto. cbn [has_char]. rewrite E1. auto. }
    induction a as [|d a IH]; cbn [lstrip_control]; auto. intros E. destruct (_ <=? _); auto. cbn [has_char] in E. apply orb_false_iff in E. apply IH, E. }
  apply X in H. assert (C : cut ":" (remove_unsafe (lstrip_control s)) = None) by (apply ParserProofs.cut_none; exact H).
  rewrite C. destruct (remove_unsafe (lstrip_control s)) as [|c1 [|c2 r]]; auto; destruct c1 as [[] [] [] [] [] [] [] []]; auto; destruct c2 as [[] [] [] [] [] [] [] []]; auto.
Qed.
Lemma prefix_none o s : vocab o = V -> dget (before ":" s) V = None ->
  match vocab o with [] => s | _ => if has_char ":" s then match dget (before ":" s) (vocab o) with Some v => (v ++ sdrop (String.length (before ":" s) + 1) s)%string | None => s end else s end = s.
Proof. intros -> ->. destruct V; auto. destruct (has_char ":" s); auto. Qed.
Lemma expand_settled vt s b o si sr : Named o -> Settled vt s -> expand s b o si vt sr = Ok s.
Proof.
  intros [NV NR] S. unfold expand_url. destruct (String.eqb s "@id" || String.eqb s "@type"); auto. destruct (vt && dmem s (vocab o)) eqn:M; auto.
  rewrite NV in M. destruct S as [-> D|(N & SM & P) T| -> SW P].
  - rewrite D in M. discriminate.
  - cbv zeta. rewrite (prefix_none o s NV P). rewrite SM. apply String.eqb_neq in N. rewrite N. cbn [negb andb orb bind]. destruct vt; auto. rewrite N, NR, T; auto.
  - cbv zeta. rewrite (prefix_none o s NV P). rewrite <- orb_assoc, SW, orb_true_r. reflexivity.
Qed.
Lemma expand_full s b o si sr : Named o -> full_address s -> expand s b o si false sr = Ok s.
Proof. intros N F. apply expand_settled; auto. apply Settled_address; auto. discriminate. Qed.
Lemma expand_class c : class_named c -> exists t, saved_class c = Ok t /\ forall b o si sr, Named o -> expand t b o si true sr = Ok c.
Proof.
  intros (uri & D & M). assert (X : forall b o si sr, Named o -> expand c b o si true sr = Ok c).
  { intros b o si sr N. apply expand_settled; auto. apply Settled_term; auto. unfold dmem. rewrite D. reflexivity. }
  unfold SaveModel.saved_class. rewrite D. destruct (dget (sdrop_last (String.length c) uri) RV) as [p|]; [|eauto].
  destruct (String.eqb p "") eqn:E; [eauto|]. apply String.eqb_neq in E. destruct M as [M|(NC & P & U & DM & SN & SM & B)]; [contradiction|].
  exists (p ++ ":" ++ c)%string. split; auto. intros b o si sr [NV NR].
  rewrite (expand_prefixed urljoin supported_schemes p c (sdrop_last (String.length c) uri)); [|auto|rewrite NV; auto|intros _; rewrite NV; unfold dmem in DM; destruct (dget (p ++ ":" ++ c)%string V); [discriminate DM|auto]].
  rewrite <- U. unfold resolved_url. cbv zeta. rewrite SM. apply String.eqb_neq in SN. rewrite SN. cbn [negb andb orb]. unfold as_term. cbn [bind]. rewrite SN, NR, B. reflexivity.
Qed.
Lemma linked_ok nl s o : linked nl s -> nl <> Some false -> Fit o -> link check_exists (within None nl o) s = Ok tt.
Proof.
  intros L NF [_ U]. unfold link, within. cbn [no_link_check]. destruct nl as [[]|]; auto; [congruence|]. destruct (no_link_check o); auto.
  destruct L as [L|[[_ L]|[L|L]]]; [discriminate|apply U in L; discriminate|rewrite L; auto|rewrite L; auto].
Qed.

(** ** Objects as they are saved *)
Definition well (v : lv) : Prop := tidy v /\ match v with VObj _ _ ext => forall k, has_char ":" k = false -> dget k ext = None | _ => True end.
Definition deep (v : lv) : Prop := well v /\ match v with VSeq vs => Forall well vs | _ => True end.
Lemma tidy_fields c fs ext : tidy (VObj c fs ext) -> NoDup (map fst fs).
Proof. cbn [tidy]. induction (map fst ext); auto. inversion 1; auto. Qed.
Lemma tidy_ext c fs ext x : tidy (VObj c fs ext) -> In x (map fst fs) -> dget x ext = None.
Proof.
  cbn [tidy]. intros N I. apply dget_None. intros X. apply in_split in X. destruct X as (a & b & E). rewrite E in N. rewrite <- app_assoc in N. cbn [app] in N.
  apply NoDup_remove in N. destruct N as [_ N]. apply N. rewrite !in_app_iff. auto.
Qed.
Lemma entry_absent x v d : save v = Ok (JDict d) -> tidy v -> no_entry x v -> dget x d = None \/ dget x d = Some JNull.
Proof.
  intros S T [E X]. destruct v; try (apply save_kind in S; subst; discriminate).
  - apply save_kind in S. destruct S; discriminate.
  - rewrite save_vmap in S. destruct (save_map V RV d0) as [es|] eqn:M; cbn [bind] in S; [|discriminate]. assert (d = es) by congruence. subst es. apply save_map_ok in M.
    cbn [entry] in E. clear - M E. induction M as [|[k v] [k' j] d0 d [A B] M IH]; cbn [dget] in *; auto. cbn [fst snd] in *. subst k'. destruct (String.eqb x k); auto.
    destruct E as [E|E]; [discriminate|]. injection E as ->. injection B as <-. auto.
  - apply save_obj_ok in S; auto. destruct S as (ess & F & S). assert (d = extension_fields ++ List.concat ess) by congruence. subst d. rewrite dget_app, X. left.
    pose proof (saved_get V RV fields ess x F (tidy_fields _ _ _ T)) as G. cbn [entry] in E. destruct E as [E|E]; rewrite E in G; auto. destruct G as (es & SV & ->). inversion SV; subst; auto. congruence.
Qed.
Lemma entry_there x v d w : save v = Ok (JDict d) -> tidy v -> entry x v = Some w -> w <> VNull -> x <> "class" -> exists j, dget x d = Some j /\ save w = Ok j.
Proof.
  intros S T E N NC. destruct v; try discriminate.
  - rewrite save_vmap in S. destruct (save_map V RV d0) as [es|] eqn:M; cbn [bind] in S; [|discriminate]. assert (d = es) by congruence. subst es. apply save_map_ok in M.
    cbn [entry] in E. clear - M E. induction M as [|[k v] [k' j] d0 d [A B] M IH]; cbn [dget] in *; [discriminate|]. cbn [fst snd] in *. subst k'. destruct (String.eqb x k); auto.
    injection E as ->. eauto.
  - apply save_obj_ok in S; auto. destruct S as (ess & F & S). assert (d = extension_fields ++ List.concat ess) by congruence. subst d. cbn [entry] in E.
    rewrite dget_app, (tidy_ext cls fields extension_fields x T) by (apply dget_In in E; apply (in_map fst) in E; exact E).
    pose proof (saved_get V RV fields ess x F (tidy_fields _ _ _ T)) as G. rewrite E in G. destruct G as (es & SV & ->). inversion SV; subst; try congruence. cbn [dget]. rewrite String.eqb_refl. eauto.
Qed.
Lemma entry_some x v d w : save v = Ok (JDict d) -> tidy v -> entry x v = Some w -> w <> VNull -> exists j, dget x d = Some j.
Proof.
  intros S T E N. destruct (string_dec x "class") as [->|NC]; [|destruct (entry_there x v d w) as (j & G & _); eauto]. destruct v; try discriminate.
  - rewrite save_vmap in S. destruct (save_map V RV d0) as [es|] eqn:M; cbn [bind] in S; [|discriminate]. assert (d = es) by congruence. subst es. apply save_map_ok in M.
    cbn [entry] in E. clear - M E. induction M as [|[k v] [k' j] d0 d [A B] M IH]; cbn [dget] in *; [discriminate|]. cbn [fst snd] in *. subst k'. destruct (String.eqb "class" k); eauto.
  - apply save_obj_ok in S; auto. destruct S as (ess & F & S). assert (d = extension_fields ++ List.concat ess) by congruence. subst d. cbn [entry] in E.
    rewrite dget_app, (tidy_ext cls fields extension_fields "class" T) by (apply dget_In in E; apply (in_map fst) in E; exact E).
    pose proof (saved_get V RV fields ess "class" F (tidy_fields _ _ _ T)) as G. rewrite E in G. destruct G as (es & SV & ->). inversion SV; subst; try congruence. cbn [dget]. rewrite String.eqb_refl. eauto.
Qed.
Lemma pattern_absent c fs ext d : save (VObj c fs ext) = Ok (JDict d) -> tidy (VObj c fs ext) -> no_entry "pattern" (VObj c fs ext) -> dget "pattern" d = None.
Proof.
  intros S T [E X]. apply save_obj_ok in S; auto. destruct S as (ess & F & S). assert (d = ext ++ List.concat ess) by congruence. subst d. rewrite dget_app, X.
  pose proof (saved_get V RV fs ess "pattern" F (tidy_fields _ _ _ T)) as G. cbn [entry] in E. destruct E as [E|E]; rewrite E in G; auto. destruct G as (es & SV & ->). inversion SV; subst; auto. congruence.
Qed.
Lemma entry_class v d t : save v = Ok (JDict d) -> tidy v -> entry "class" v = Some (VStr t) -> class_named t ->
  exists s, dget "class" d = Some (JStr s) /\ forall b o si sr, Named o -> expand s b o si true sr = Ok t.
Proof.
  intros S T E CN. destruct (expand_class t CN) as (s & SC & X). destruct v; try discriminate.
  - rewrite save_vmap in S. destruct (save_map V RV d0) as [es|] eqn:M; cbn [bind] in S; [|discriminate]. assert (d = es) by congruence. subst es. apply save_map_ok in M.
    cbn [entry] in E. exists t. split.
    + clear - M E. induction M as [|[k v] [k' j] d0 d [A B] M IH]; cbn [dget] in *; [discriminate|]. cbn [fst snd] in *. subst k'. destruct (String.eqb "class" k); auto.
      injection E as ->. injection B as <-. auto.
    + intros b o si sr N. apply expand_settled; auto. apply Settled_term; auto. destruct CN as (uri & D & _). unfold dmem. rewrite D. reflexivity.
  - apply save_obj_ok in S; auto. destruct S as (ess & F & S). assert (d = extension_fields ++ List.concat ess) by congruence. subst d. cbn [entry] in E.
    rewrite dget_app, (tidy_ext cls fields extension_fields "class" T) by (apply dget_In in E; apply (in_map fst) in E; exact E).
    pose proof (saved_get V RV fields ess "class" F (tidy_fields _ _ _ T)) as G. rewrite E in G. destruct G as (es & SV & ->). inversion SV; subst; try congruence. cbn [dget]. rewrite String.eqb_refl.
    exists s. split; auto. congruence.
Qed.

(** ** Loaders that refuse what was saved *)
Lemma plain_field j l b o r : self_contained j -> (LoaderProofs.LoadsField urljoin supported_schemes check_exists fetch_text read_yaml uuid classes proxies j l b o r <-> Loads l j b o None r).
Proof. intros S. apply LoadsField_plain. intros e ->. apply sc_dict in S. split; eapply sc_no_key; eauto. Qed.
Lemma good_union ls : good (LUnion ls) <-> Forall good ls.
Proof.
  unfold good. cbn [EndProofs.fieldable]. rewrite sound_union, all_Forall. split.
  - intros [A B]. apply Forall_forall. intros x I. split; [apply (proj1 (Forall_forall _ _) A)|apply (proj1 (Forall_forall _ _) B)]; auto.
  - intros F. split; (eapply Forall_impl; [|exact F]); intros a []; auto.
Qed.
Lemma good_proxy n l : good (LProxy n) -> proxies n = Some l -> good l.
Proof.
  intros [A _] P. cbn [sound] in A. destruct (known_proxy n A) as (l' & P' & S). destruct (known_proxy' n A) as (l'' & P'' & D & _). assert (l' = l) by congruence. assert (l'' = l) by congruence. subst.
  split; auto. apply direct_fieldable; auto.
Qed.
Lemma loads_run l j b o root w : Loads l j b o root (Ok w) -> exists n, load_body urljoin supported_schemes check_exists fetch_text read_yaml uuid classes proxies
  (load urljoin supported_schemes check_exists fetch_text read_yaml uuid classes proxies n) (document_load urljoin supported_schemes check_exists fetch_text read_yaml uuid classes proxies n) l j b o root = Ok w.
Proof. intros L. apply Loads_body in L. destruct L as [_ L]. exact L. Qed.
Lemma neat_parts k : neat_class k = true -> NoDup (attrs k) /\ (forall n, In n (attrs k) -> has_char ":" n = false) /\
  (forall f, In f (c_fields k) -> f_name f <> "class" /\ (f_subscope f = true -> f_name f = "run")) /\ (forall n r l, c_id k = Some (n, r, l) -> n <> "class") /\
  (forall l, c_class k = Some l -> exists i nl, nl <> Some false /\ l = LUri i false true None nl /\ (i = LEnum [c_name k] \/ i = LPrim PStr)).
Proof.
  unfold neat_class. intros H. apply andb_true_iff in H. destruct H as [H H5]. apply andb_true_iff in H. destruct H as [H H4]. apply andb_true_iff in H. destruct H as [H H3]. apply andb_true_iff in H. destruct H as [H1 H2].
  split; [apply different_NoDup; auto|]. split; [|split; [|split]].
  - intros n I. apply (proj1 (forallb_forall _ _) H2) in I. apply negb_true_iff in I. exact I.
  - intros f I. apply (proj1 (forallb_forall _ _) H3) in I. apply andb_true_iff in I. destruct I as [A B]. apply negb_true_iff, String.eqb_neq in A. split; auto.
    intros S. rewrite S in B. apply String.eqb_eq. exact B.
  - intros n r l E. rewrite E in H4. apply negb_true_iff, String.eqb_neq in H4. exact H4.
  - intros l E. rewrite E in H5. unfold class_loader_of in H5. destruct l as [| | | | | | | | |i si vt sr nl| | |]; try discriminate. destruct si; try discriminate. destruct vt; try discriminate. destruct sr; try discriminate.
    apply andb_true_iff in H5. destruct H5 as [A B]. exists i, nl. split; [intros ->; discriminate|]. split; auto. destruct i as [|[]|ss| | | | | | | | | |]; try discriminate; auto.
    destruct ss as [|s []]; try discriminate. apply String.eqb_eq in A. subst s. auto.
Qed.
Lemma record_object cls c nl k j b o root w : classes cls = Some k -> Loads (LRecord cls c nl) j b o root (Ok w) ->
  exists d, j = JDict d /\ let o' := with_container c nl o in
    Object (LoaderProofs.FieldLoads urljoin supported_schemes check_exists fetch_text read_yaml uuid classes proxies o') (LoaderProofs.Scoped urljoin supported_schemes o') (LoaderProofs.Expands urljoin supported_schemes o') (uuid (JDict d)) k (vocab o) d b root w.
Proof.
  intros K L. assert (X : exists d, j = JDict d).
  { destruct j; try (apply record_not_map in L; [discriminate|discriminate|discriminate]). eauto. }
  destruct X as [d ->]. exists d. split; auto. exact (proj1 (record_ok urljoin supported_schemes check_exists fetch_text read_yaml uuid classes proxies cls c nl k d b o root w K) L).
Qed.
Lemma F2_in_l {A B} (R : A -> B -> Prop) l m x : Forall2 R l m -> In x l -> exists y, In y m /\ R x y.
Proof. induction 1 as [|a b l m H F IH]; intros []; [subst; exists b; cbn; auto|]. destruct IH as (y & I & Y); auto. exists y. cbn. auto. Qed.
Lemma enum_ok ss j b o root w : Loads (LEnum ss) j b o root (Ok w) -> exists s, j = JStr s /\ In s ss.
Proof. intros L. apply loads_run in L. destruct L as [n L]. cbn [load_body] in L. destruct j; try discriminate. destruct (smem s ss) eqn:E; [|discriminate]. exists s. split; auto. apply smem_In. auto. Qed.
Lemma resolved_name rs salad s b o : Named o -> Settled true s -> is_name s ->
  (do old <- (if endswith "[]" (if endswith "?" s then sdrop_last 1 s else s) then salad_before_1_3 salad else Ok true);
   resolve (S (String.length s)) (fun u => expand u b o false true rs) old s) = Ok (JStr s).
Proof. intros N S [A B]. rewrite B, A. cbn [bind resolve]. rewrite B, A. rewrite expand_settled; auto. Qed.

Lemma refused l v : Refuses l v -> forall j b o root w, good l -> save v = Ok j -> self_contained j -> deep v -> Named o -> ~ Loads l j b o root (Ok w).
Proof.
  induction 1 as [|tp v P|ss v P|v P|i v P|i c nl v P|cls c nl v P|cls c nl k v K C E|cls c nl k v t K C E CN NT NU|cls c nl k v x x' K E NN NA NC|cls c nl k v f K FI FR E
    |cls c nl k v f ss rs salad t K FI FL E ST IN NI|ls v R IH|n l v P R IH|i v P1 P2 P3|i vs c fs ext VI E]; intros j b o root w G S SC D N L; pose proof (save_kind V RV _ _ S) as SK; cbv iota beta in SK.
  - subst j. apply loads_run in L. destruct L as [n L]. discriminate.
  - apply loads_run in L. destruct L as [n L]. cbn [load_body] in L. destruct (is_prim tp j) eqn:PJ; [|discriminate].
    destruct v; try (subst j; destruct tp; discriminate); destruct SK as [? ->]; destruct tp; discriminate.
  - apply enum_ok in L. destruct L as (s & -> & I). destruct v; try discriminate; try (destruct SK; discriminate). injection SK as <-. eapply P; eauto.
  - apply loads_run in L. destruct L as [n L]. cbn [load_body] in L. destruct v; try discriminate; try (subst j; discriminate); destruct SK as [? ->]; discriminate.
  - destruct v; try discriminate; try (subst j; apply array_not_list in L; discriminate); destruct SK as [? ->]; apply array_not_list in L; discriminate.
  - apply loads_run in L. destruct L as [n L]. cbn [load_body] in L. destruct v; try discriminate; try (subst j; discriminate). destruct SK as [? ->]; discriminate.
  - destruct v; try discriminate; try (subst j; apply record_not_map in L; discriminate). destruct SK as [? ->]. apply record_not_map in L; discriminate.
  - apply (record_object _ _ _ k) in L; auto. destruct L as (d & -> & (i & b' & cl & fs & ext & _ & CL & _)). destruct CL as [CL|l j s CL GC NJ _ _]; [contradiction|].
    destruct (entry_absent "class" v d S (proj1 (proj1 D)) E); congruence.
  - cbn [sound] in G. destruct G as [G _]. cbn [sound] in G. destruct (neat_parts k (neat _ _ G K)) as (_ & _ & _ & _ & CS).
    apply (record_object _ _ _ k) in L; auto. destruct L as (d & -> & (i & b' & cl & fs & ext & _ & CL & _)). destruct CL as [CL|l j s CL GC NJ FL SN]; [contradiction|].
    destruct (CS l CL) as (i' & nl' & _ & -> & IC). destruct (entry_class v d t S (proj1 (proj1 D)) E CN) as (s' & GC' & X). assert (j = JStr s') by congruence. subst j.
    unfold LoaderProofs.FieldLoads in FL. apply plain_field in FL; [|exact I]. apply (uri_via urljoin supported_schemes check_exists fetch_text read_yaml uuid classes proxies) in FL. cbv zeta in FL.
    rewrite X in FL by exact N. cbn [bind] in FL. destruct (link check_exists _ t) as [[]|e]; cbn [bind] in FL; [|destruct FL; discriminate].
    destruct IC as [-> | ->].
    + apply enum_ok in FL. destruct FL as (t' & TE & [TI|[]]). congruence.
    + apply loads_run in FL. destruct FL as [n FL]. cbn [load_body is_prim] in FL. injection FL as <-. destruct SN; [congruence|]. apply NU. rewrite <- (proj1 N). auto.
  - apply (record_object _ _ _ k) in L; auto. destruct L as (d & -> & (i & b' & cl & fs & ext & _ & _ & _ & EX & _)).
    destruct (entry_some x v d x' S (proj1 (proj1 D)) E NN) as (j & GJ). apply dget_In in GJ.
    destruct (F2_in_l _ _ _ (x, j) EX) as (kv & _ & (HC & _)); [|cbn [fst] in HC; congruence].
    apply filter_In. split; auto. cbn [fst]. apply negb_true_iff. destruct (smem x (attrs k)) eqn:SM; auto. apply smem_In in SM. contradiction.
  - apply (record_object _ _ _ k) in L; auto. destruct L as (d & -> & (i & b' & cl & fs & ext & _ & _ & FS & _)).
    destruct (F2_in_l _ _ _ f FS FI) as (kv & _ & _ & FV). destruct (entry_absent (f_name f) v d S (proj1 (proj1 D)) E) as [A|A]; destruct FV as [? ? ? ?|? ? ? ? ? NJ ?]; try congruence.
    apply NJ; auto. congruence.
  - cbn [sound] in G. destruct G as [G _]. cbn [sound] in G. destruct (neat_parts k (neat _ _ G K)) as (_ & _ & FN & _ & _). destruct (FN f FI) as [FNC _].
    apply (record_object _ _ _ k) in L; auto. destruct L as (d & -> & (i & b' & cl & fs & ext & _ & _ & FS & _)).
    destruct (F2_in_l _ _ _ f FS FI) as (kv & _ & _ & FV). destruct (entry_there (f_name f) v d _ S (proj1 (proj1 D)) E) as (j & GJ & SJ); [discriminate|auto|]. injection SJ as <-.
    destruct FV as [? ? ? ?|b1 j v1 _ GJ' _ FV]; [congruence|]. assert (j = JStr t) by congruence. subst j. unfold LoaderProofs.FieldLoads in FV. rewrite FL in FV. apply plain_field in FV; [|exact I].
    apply type_dsl_via in FV. unfold resolved in FV. cbn [type_dsl] in FV. rewrite resolved_name in FV; auto. apply enum_ok in FV. destruct FV as (t' & TE & TI). congruence.
  - apply good_union in G. apply union_ok in L. destruct L as (pre & t & post & -> & _ & L). assert (I : In t (pre ++ t :: post)) by (apply in_or_app; cbn; auto).
    eapply (IH t I); eauto. apply (proj1 (Forall_forall _ _) G); auto.
  - apply (proxy_via urljoin supported_schemes check_exists fetch_text read_yaml uuid classes proxies n l) in L; auto. eapply IH; eauto. eapply good_proxy; eauto.
  - apply secondary_via in L. destruct v; try discriminate; subst j; cbn [secondary_dsl] in L; destruct L; discriminate.
  - destruct SK as [js ->]. rewrite save_seq in S. destruct (save_list V RV vs) as [js'|] eqn:SL; cbn [bind] in S; [|discriminate]. assert (js' = js) by congruence. subst js'. apply save_list_ok in SL.
    destruct (F2_in_l _ _ _ _ SL VI) as (j & JI & SJ). pose proof (save_kind V RV _ _ SJ) as [d ->].
    destruct D as [_ D]. apply (proj1 (Forall_forall _ _) D) in VI. pose proof (pattern_absent c fs ext d SJ (proj1 VI) E) as PN.
    apply secondary_via in L. cbn [secondary_dsl] in L. destruct (mapM secondary_item js) as [rs|e] eqn:M; [|destruct L; discriminate]. apply mapM_Ok in M.
    destruct (F2_in_l _ _ _ _ M JI) as (r & _ & SI). cbn [secondary_item] in SI. unfold secondary_map in SI. rewrite PN in SI. discriminate.
Qed.
(** ... with a validation error *)
Lemma refuses_loads l v j b o root : Refuses l v -> good l -> save v = Ok j -> self_contained j -> deep v -> Named o -> Loads l j b o root (Err ValidationException).
Proof.
  intros R G S SC D N. destruct (loads_end urljoin supported_schemes check_exists fetch_text read_yaml uuid classes proxies joins' checks' known proxied known_class' known_proxy' j SC) as [A _].
  destruct (A l (proj2 G) b o root) as (n & r & NO & H). specialize (H n (le_n n)).
  pose proof (load_fine urljoin supported_schemes check_exists fetch_text read_yaml uuid classes proxies joins checks known proxied known_class known_proxy n l j b o root (or_introl (proj1 G)) SC) as F. rewrite H in F.
  destruct r as [w|e].
  - exfalso. eapply (refused l v R j b o root w); eauto. split; [auto|eauto].
  - destruct e; try contradiction; try congruence. split; [auto|eauto].
Qed.

(** ** Names *)
Lemma home_inside b x : home b -> home (inside b x).
Proof. intros H B y ys. exact (H B x (y :: ys)). Qed.
Lemma linked_any nl s : nl <> Some false -> linked None s -> linked nl s.
Proof. unfold SaveSpec.linked. intros N L. destruct nl as [[]|]; auto. congruence. Qed.
Lemma has_after c x s : has_char c s = false -> has_char c (after x s) = false.
Proof.
  unfold after. destruct (cut x s) as [[p q]|] eqn:E; [|reflexivity]. revert p q E. induction s as [|a s IH]; intros p q; cbn [cut]; [discriminate|]. intros H K. cbn [has_char] in K. apply orb_false_iff in K. destruct K as [K1 K2].
  destruct (Ascii.eqb a x); [injection H as <- <-; auto|]. destruct (cut x s) as [[p' q']|]; [|discriminate]. injection H as <- <-. eapply IH; eauto.
Qed.
Lemma after_none c s : has_char c s = false -> after c s = "".
Proof. intros H. unfold after. rewrite ParserProofs.cut_none; auto. Qed.
Lemma unsafe_no c s : has_char c s = false -> has_char c (remove_unsafe s) = false.
Proof.
  induction s as [|d s IH]; cbn [remove_unsafe]; auto. cbn [has_char]. intros E. apply orb_false_iff in E. destruct E as [E1 E2]. destruct (is_unsafe d); auto. cbn [has_char]. rewrite E1. auto.
Qed.
Lemma blank_split s : startswith "_:" s = true -> has_char "#" s = false -> s_scheme (urlsplit s) = "" /\ s_fragment (urlsplit s) = "".
Proof.
  intros B H. apply startswith_spec in B. destruct B as [r ->]. change ("_:" ++ r)%string with (String "_" (String ":" r)) in *.
  unfold urlsplit. cbv zeta. change (lstrip_control (String "_" (String ":" r))) with (String "_" (String ":" r)). change (remove_unsafe (String "_" (String ":" r))) with (String "_" (String ":" (remove_unsafe r))).
  change (cut ":" (String "_" (String ":" (remove_unsafe r)))) with (Some (String "_" "", remove_unsafe r)). cbv iota. change (is_alpha "_") with false. cbn [andb s_scheme s_fragment]. cbv iota beta. split; auto.
  cbn [s_fragment]. apply after_none. cbn [has_char] in *. apply orb_false_iff in H. destruct H as [_ H]. apply orb_false_iff in H. destruct H as [_ H]. cbn. apply unsafe_no. auto.
Qed.
Lemma expand_blank s b o sr : Named o -> blank_name s -> expand s b o true false sr = Ok (inside b (s_path (urlsplit s))).
Proof.
  intros [NV NR] (B & H & P). unfold expand_url. destruct (blank_split s B H) as [S F]. apply startswith_spec in B. destruct B as [r ->]. change ("_:" ++ r)%string with (String "_" (String ":" r)) in *.
  change (String.eqb (String "_" (String ":" r)) "@id" || String.eqb (String "_" (String ":" r)) "@type") with false. cbv iota. cbn [andb]. cbv zeta.
  rewrite (prefix_none o _ NV); [|change (before ":" (String "_" (String ":" r))) with "_"; exact P]. rewrite S, F. change (String.eqb "" "") with true. cbn [negb andb orb].
  change (startswith "$(" (String "_" (String ":" r))) with false. change (startswith "${" (String "_" (String ":" r))) with false. cbn [orb bind]. reflexivity.
Qed.
Section RenamedInd.
Lemma renamed_kind v w : Renamed v w ->
  match v with VNull | VBool _ | VInt _ | VFloat _ | VStr _ => w = v | VSeq _ => exists l, w = VSeq l | VMap _ => exists d, w = VMap d | VObj c fs ext => exists gs, w = VObj c gs ext /\ map fst gs = map fst fs end.
Proof.
  destruct 1 as [v|vs ws _|d e _|cls k fs gs ext _ F]; [destruct v; eauto|eauto|eauto|]. exists gs. split; auto. induction F as [|? ? ? ? [E _] F IH]; cbn [map]; congruence.
Qed.
End RenamedInd.

(** ** Loading what was saved yields the value again *)
Definition RT (l : loader) (v : lv) : Prop :=
  exists j, save v = Ok j /\ (self_contained j -> forall b o root, Fit o -> home b -> exists w, Renamed v w /\ Loads l j b o root (Ok w)).
Definition FieldRT (f : field) (kv : string * lv) : Prop :=
  fst kv = f_name f /\ (snd kv = VNull /\ f_required f = false \/ snd kv <> VNull /\ RT (f_loader f) (snd kv)).
Lemma obj_absent x c fs ext d : save (VObj c fs ext) = Ok (JDict d) -> tidy (VObj c fs ext) -> no_entry x (VObj c fs ext) -> dget x d = None.
Proof.
  intros S T [E X]. apply save_obj_ok in S; auto. destruct S as (ess & F & S). assert (d = ext ++ List.concat ess) by congruence. subst d. rewrite dget_app, X.
  pose proof (saved_get V RV fs ess x F (tidy_fields _ _ _ T)) as G. cbn [entry] in E. destruct E as [E|E]; rewrite E in G; auto. destruct G as (es & SV & ->). inversion SV; subst; auto. congruence.
Qed.
Lemma In_dget {A} k (v : A) d : NoDup (map fst d) -> In (k, v) d -> dget k d = Some v.
Proof.
  induction d as [|[k' v'] d IH]; cbn [map fst dget In]; [tauto|]. intros N I. inversion N as [|? ? N1 N2]; subst. destruct I as [I|I].
  - injection I as -> ->. rewrite String.eqb_refl. reflexivity.
  - destruct (String.eqb k k') eqn:E; auto. apply String.eqb_eq in E. subst. exfalso. apply N1. apply (in_map fst) in I. exact I.
Qed.
Lemma uri_text inner si vt sr nl s t b o root r : expand s b (with_container None nl o) si vt sr = Ok t -> link check_exists (within None nl o) t = Ok tt ->
  Loads inner (JStr t) b (with_container None nl o) None r -> Loads (LUri inner si vt sr nl) (JStr s) b o root r.
Proof.
  intros E K L. apply (uri_via urljoin supported_schemes check_exists fetch_text read_yaml uuid classes proxies). cbv zeta.
  change (within None nl o) with (with_container None nl o) in *. rewrite E. cbn [bind]. rewrite K. exact L.
Qed.
Lemma uri_other inner si vt sr nl d b o root r : match d with JStr _ => False | JList l => forall s, In (JStr s) l -> expand s b (with_container None nl o) si vt sr = Ok s | _ => True end ->
  Loads inner d b (with_container None nl o) None r -> Loads (LUri inner si vt sr nl) d b o root r.
Proof.
  intros H L. apply (uri_via urljoin supported_schemes check_exists fetch_text read_yaml uuid classes proxies). cbv zeta.
  change (within None nl o) with (with_container None nl o) in *. destruct d; try exact L; [contradiction|].
  assert (M : mapM (fun i => match i with JStr s => do u <- expand s b (with_container None nl o) si vt sr; Ok (JStr u) | _ => Ok i end) l = Ok l); [|rewrite M; exact L].
  apply mapM_Ok. clear L. induction l as [|x l IH]; constructor; [|apply IH; intros s I; apply H; right; auto]. destruct x; auto. rewrite H by (left; auto). reflexivity.
Qed.
Lemma scoped_run b o : LoaderProofs.Scoped urljoin supported_schemes o "run" b (inside b "run").
Proof.
  unfold LoaderProofs.Scoped, expand_url. change (String.eqb "run" "@id" || String.eqb "run" "@type") with false. cbn [andb].
  assert (E : match vocab o with [] => "run" | _ => if has_char ":" "run" then match dget (before ":" "run") (vocab o) with Some v => (v ++ sdrop (String.length (before ":" "run") + 1) "run")%string | None => "run" end else "run" end = "run") by (destruct (vocab o); reflexivity).
  cbv zeta. rewrite E. change (urlsplit "run") with (SplitUrl "" "" "run" "" ""). cbn [s_scheme s_fragment]. change (String.eqb "" "") with true. cbn [negb andb orb].
  change (startswith "$(" "run" || startswith "${" "run") with false. cbn [bind]. change (startswith "$(" "run") with false. change (startswith "${" "run") with false. cbn [orb bind]. reflexivity.
Qed.
Lemma F2_choose {A B C} (R : A -> B -> Prop) (P : A -> C -> Prop) (Q : B -> C -> Prop) l m : Forall2 R l m -> (forall a b, In a l -> In b m -> R a b -> exists c, P a c /\ Q b c) ->
  exists n, Forall2 P l n /\ Forall2 Q m n.
Proof.
  induction 1 as [|a b l m H F IH]; intros X; [exists []; split; constructor|]. destruct (X a b) as (c & PC & QC); cbn; auto. destruct IH as (n & PN & QN); [intros; apply X; cbn; auto|]. exists (c :: n). split; constructor; auto.
Qed.
(** The name of an object, and the name it is loaded with *)
Definition Identified (b : string) (s t : string) : Prop := t = s \/ blanks = true /\ blank_name s /\ t = inside b (s_path (urlsplit s)).
Definition IdRT (k : class) (idp : list (string * lv)) : Prop :=
  match c_id k with
  | None => idp = []
  | Some (n, _, l) => exists s, idp = [(n, VStr s)] /\ forall b o, Fit o -> home b -> exists t, Identified b s t /\ home t /\ Loads l (JStr s) b o None (Ok (VStr t))
  end.
Lemma id_names k idp : IdRT k idp -> map fst idp = match c_id k with Some (n, _, _) => [n] | None => [] end.
Proof. unfold IdRT. destruct (c_id k) as [[[n r] l]|]; [intros (s & -> & _); auto|intros ->; auto]. Qed.
Lemma class_names k kvs : class_fits k kvs -> map fst kvs = match c_class k with Some _ => ["class"] | None => [] end.
Proof. unfold SaveSpec.class_fits. destruct (c_class k); [intros (-> & _); auto|intros ->; auto]. Qed.
Lemma field_names fs kvs : Forall2 FieldRT fs kvs -> map fst kvs = map f_name fs.
Proof. induction 1 as [|f kv fs kvs [E _] F IH]; cbn; auto. congruence. Qed.
Lemma save_fields_exist fs kvs : Forall2 FieldRT fs kvs -> (forall f, In f fs -> f_name f <> "class") -> exists ess, Forall2 SavedField kvs ess.
Proof.
  induction 1 as [|f [n v] fs kvs [E H] F IH]; intros NC; [exists []; constructor|]. destruct IH as [ess S]; [intros g I; apply NC; right; auto|]. cbn [fst snd] in *. subst n.
  destruct H as [[-> _]|[N (j & SJ & _)]]; [exists ([] :: ess); constructor; auto; constructor|]. exists ([(f_name f, j)] :: ess). constructor; auto. constructor; auto. apply NC. left. auto.
Qed.
Lemma well_ext k ext c fs : extensions_fit k ext -> NoDup (attrs k) -> map fst fs = attrs k -> well (VObj c fs ext).
Proof.
  intros [ND F] NA E. split.
  - cbn [tidy]. rewrite E. clear - ND F NA. induction F as [|kv ext [_ H] F IH]; cbn [map app]; auto. inversion ND; subst. constructor; auto. rewrite in_app_iff. tauto.
  - intros x HC. apply dget_None. intros I. apply in_map_iff in I. destruct I as (kv & <- & I). apply (proj1 (Forall_forall _ _) F) in I. destruct I as [I _]. apply full_colon in I. congruence.
Qed.
Lemma F2_in {A B} (R Q : A -> B -> Prop) l m : Forall2 R l m -> (forall a b, In a l -> In b m -> R a b -> Q a b) -> Forall2 Q l m.
Proof. induction 1 as [|a b l m H F IH]; intros X; constructor; [apply X; cbn; auto|]. apply IH. intros. apply X; cbn; auto. Qed.

Lemma record_round cls c nl k idp kvs fs ext : classes cls = Some k -> neat_class k = true -> nl <> Some false -> IdRT k idp -> class_fits k kvs -> Forall2 FieldRT (c_fields k) fs -> extensions_fit k ext ->
  RT (LRecord cls c nl) (VObj (c_name k) (idp ++ kvs ++ fs) ext) /\ well (VObj (c_name k) (idp ++ kvs ++ fs) ext).
Proof.
  intros K NK NL ID CF FF EF. destruct (neat_parts k NK) as (NA & NCOL & FN & IDN & CS).
  assert (NM : map fst (idp ++ kvs ++ fs) = attrs k) by (rewrite !map_app, (id_names k), (class_names k), (field_names (c_fields k)); auto).
  assert (W : well (VObj (c_name k) (idp ++ kvs ++ fs) ext)) by (eapply well_ext; eauto). split; auto.
  assert (SV : exists j, save (VObj (c_name k) (idp ++ kvs ++ fs) ext) = Ok j).
  { destruct (save_fields_exist _ _ FF) as [e3 S3]; [intros f I; apply FN; auto|].
    assert (S2 : exists e2, Forall2 SavedField kvs e2).
    { unfold SaveSpec.class_fits in CF. destruct (c_class k); [|subst; exists []; constructor]. destruct CF as (-> & CN & _). destruct (expand_class _ CN) as (t & ST & _). exists [[("class", JStr t)]]. repeat constructor. auto. }
    assert (S1 : exists e1, Forall2 SavedField idp e1).
    { unfold IdRT in ID. destruct (c_id k) as [[[n r] l]|] eqn:CI; [|subst; exists []; constructor]. destruct ID as (s & -> & _). exists [[(n, JStr s)]]. constructor; [|constructor]. constructor; [discriminate|eapply IDN; eauto|reflexivity]. }
    destruct S1 as [e1 S1], S2 as [e2 S2]. eexists. apply save_obj_ok; [apply W|]. exists (e1 ++ e2 ++ e3). split; [|reflexivity]. apply Forall2_app; auto. apply Forall2_app; auto. }
  destruct SV as [j SV]. exists j. split; auto. intros SC b o root FO HB. pose proof (save_kind V RV _ _ SV) as SK. cbv iota beta in SK. destruct SK as [d ->].
  assert (T : tidy (VObj (c_name k) (idp ++ kvs ++ fs) ext)) by apply W. assert (ND : NoDup (map fst (idp ++ kvs ++ fs))) by (rewrite NM; auto).
  pose proof (proj1 (sc_dict d) SC) as SD. set (o' := with_container c nl o) in *. assert (FO' : Fit o') by (apply fit_within; auto).
  assert (ENT : forall x v, In (x, v) (idp ++ kvs ++ fs) -> entry x (VObj (c_name k) (idp ++ kvs ++ fs) ext) = Some v) by (intros x v I; cbn [entry]; apply In_dget; auto).
  assert (X1 : exists idq b', Identity (LoaderProofs.FieldLoads urljoin supported_schemes check_exists fetch_text read_yaml uuid classes proxies o') (uuid (JDict d)) k d b root idq b' /\ home b' /\
    Forall2 (fun kv kw => fst kw = fst kv /\ (Renamed (snd kv) (snd kw) \/ blanks = true /\ (exists req l, c_id k = Some (fst kv, req, l)) /\
      exists s b, blank_name s /\ snd kv = VStr s /\ snd kw = VStr (inside b (s_path (urlsplit s))))) idp idq).
  { unfold IdRT in ID. destruct (c_id k) as [[[n r] l]|] eqn:CI; [|subst idp; exists [], b; split; [apply Identity_none; auto|split; [auto|constructor]]]. destruct ID as (s & -> & ID).
    destruct (ID b o' FO' HB) as (t & IT & HT & LT).
    destruct (entry_there n _ d (VStr s) SV T) as (j & GJ & SJ); [apply ENT; apply in_or_app; left; left; auto|discriminate|eapply IDN; eauto|]. injection SJ as <-.
    exists [(n, VStr t)], t. split; [|split; auto].
    - eapply Identity_given; [exact CI|exact GJ|]. unfold LoaderProofs.FieldLoads. apply plain_field; [exact I|]. exact LT.
    - constructor; [|constructor]. split; auto. cbn [fst snd]. destruct IT as [-> |(BB & BN & ->)]; [left; constructor|right]. split; auto. split; [eauto|]. exists s, b. auto. }
  destruct X1 as (idq & b' & OI & HB' & RI).
  assert (X2 : Classed (LoaderProofs.FieldLoads urljoin supported_schemes check_exists fetch_text read_yaml uuid classes proxies o') k (vocab o) d b' kvs).
  { unfold SaveSpec.class_fits in CF. destruct (c_class k) as [l|] eqn:CC; [|subst kvs; apply Classed_none; auto]. destruct CF as (-> & CN & LK).
    destruct (CS l eq_refl) as (i' & nl' & NL' & -> & IC). destruct (entry_class _ d (c_name k) SV T) as (s & GS & EX); [apply ENT; apply in_or_app; right; left; auto|auto|].
    apply (Classed_by _ k _ d b' (LUri i' false true None nl') (JStr s) (c_name k)); [auto|auto|discriminate| |left; auto].
    unfold LoaderProofs.FieldLoads. apply plain_field; [exact I|]. apply (uri_text _ _ _ _ _ _ (c_name k)); [apply EX; apply FO'|apply linked_ok; auto|].
    apply Loads_body. split; [discriminate|]. exists 0. destruct IC as [-> | ->]; [|reflexivity]. cbn [load_body]. assert (SM : smem (c_name k) [c_name k] = true) by (apply smem_In; left; auto). rewrite SM. reflexivity. }
  assert (X3 : exists gs, Forall2 (fun f kw => fst kw = f_name f /\ FieldValue (LoaderProofs.FieldLoads urljoin supported_schemes check_exists fetch_text read_yaml uuid classes proxies o') (LoaderProofs.Scoped urljoin supported_schemes o') d b' f (snd kw)) (c_fields k) gs /\
    Forall2 (fun kv kw => fst kw = fst kv /\ Renamed (snd kv) (snd kw)) fs gs).
  { apply (F2_choose _ _ _ _ _ FF). intros f [n v] FI VI [E H]. cbn [fst snd] in *. subst n.
    assert (SCP : exists b1, ScopeOf (LoaderProofs.Scoped urljoin supported_schemes o') f b' b1 /\ home b1).
    { unfold ScopeOf. destruct (f_subscope f) eqn:SS; [|eauto]. destruct (FN f FI) as [_ X]. rewrite (X SS). exists (inside b' "run"). split; [apply scoped_run|apply home_inside; auto]. }
    destruct SCP as (b1 & SCP & HB1). assert (EN : entry (f_name f) (VObj (c_name k) (idp ++ kvs ++ fs) ext) = Some v) by (apply ENT; rewrite !in_app_iff; auto).
    assert (FA : In (f_name f) (attrs k)) by (unfold attrs; rewrite !in_app_iff; right; right; apply in_map; auto).
    destruct H as [[-> NR]|[NV (j & SJ & LJ)]].
    + exists (f_name f, VNull). split; [split; auto|split; [auto|constructor]]. eapply Field_absent; eauto. eapply obj_absent; eauto. split; [right; auto|]. destruct W as [_ W]. apply W. apply NCOL. auto.
    + destruct (entry_there (f_name f) _ d v SV T EN NV) as (j' & GJ & SJ'); [apply FN; auto|]. assert (j' = j) by congruence. subst j'.
      assert (SJC : self_contained j) by (eapply sc_dget; eauto). destruct (LJ SJC b1 o' None FO' HB1) as (w & RW & LW). exists (f_name f, w). split; [split; auto|auto]. eapply Field_present; eauto.
      * intros _ ->. destruct v; try discriminate; try congruence; apply save_kind in SJ; destruct SJ; discriminate.
      * unfold LoaderProofs.FieldLoads. apply plain_field; auto. }
  destruct X3 as (gs & FV & RG). exists (VObj (c_name k) (idq ++ kvs ++ gs) ext). split.
  { eapply Renamed_object; eauto. apply Forall2_app; auto. apply Forall2_app.
    - clear. induction kvs; constructor; auto. split; auto. left. constructor.
    - eapply F2_impl; [|exact RG]. intros kv kw [A B]. auto. }
  apply (record_ok urljoin supported_schemes check_exists fetch_text read_yaml uuid classes proxies cls c nl k); auto. cbv zeta. fold o'.
  exists idq, b', kvs, gs, ext. split; [exact OI|]. split; [exact X2|]. split; [exact FV|]. split.
  - apply save_obj_ok in SV; auto. destruct SV as (ess & SF & E). assert (d = ext ++ List.concat ess) by congruence. subst d. destruct EF as [_ EF].
    assert (OT : others k (ext ++ List.concat ess) = ext).
    { unfold others. rewrite filter_app. assert (A : filter (fun kv => negb (smem (fst kv) (attrs k))) ext = ext).
      { clear - EF. induction EF as [|kv ext [_ H] F IH]; cbn [filter]; auto. destruct (smem (fst kv) (attrs k)) eqn:SM; [apply smem_In in SM; contradiction|]. cbn [negb]. congruence. }
      assert (B : filter (fun kv => negb (smem (fst kv) (attrs k))) (List.concat ess) = []).
      { pose proof (concat_keys _ _ _ _ SF) as CK. rewrite NM in CK. clear - CK. induction (List.concat ess) as [|kv l IH]; cbn [filter]; auto.
        assert (SM : smem (fst kv) (attrs k) = true) by (apply smem_In, CK; left; auto). rewrite SM. cbn [negb]. apply IH. intros x I. apply CK. right. auto. }
      rewrite A, B, app_nil_r. reflexivity. }
    rewrite OT. clear - EF FO'. induction EF as [|kv ext [H _] F IH]; constructor; auto. split; [apply full_colon; auto|]. split; auto. unfold LoaderProofs.Expands. apply expand_full; auto. apply FO'.
  - f_equal. rewrite dupdate_fresh; auto. cbn. apply EF.
Qed.

(** ** All values *)
Lemma well_of_json j : well (of_json j).
Proof. destruct j; split; exact I. Qed.
Lemma well_text s : well (VStr s).
Proof. split; exact I. Qed.
Lemma good_class_parts cls c nl k : good (LRecord cls c nl) -> classes cls = Some k -> neat_class k = true /\ Forall (fun f => good (f_loader f)) (c_fields k) /\ (forall n r l, c_id k = Some (n, r, l) -> good l).
Proof.
  intros [G _] K. cbn [sound] in G. split; [eapply neat; eauto|]. destruct (known_class _ G) as (k1 & K1 & S). destruct (known_class' _ G) as (k2 & K2 & S').
  assert (k1 = k) by congruence. assert (k2 = k) by congruence. subst k1 k2. unfold sound_class in S. unfold good_class in S'.
  apply andb_true_iff in S, S'. destruct S as [S S3], S' as [S' S3']. apply andb_true_iff in S, S'. destruct S as [S1 S2], S' as [S1' S2']. split.
  - apply Forall_forall. intros f I. apply (proj1 (forallb_forall _ _) S3) in I as A. apply (proj1 (forallb_forall _ _) S3') in I as B. apply andb_true_iff in B. split; [auto|apply B].
  - intros n r l E. rewrite E in S1, S1'. apply andb_true_iff in S1'. split; [|apply S1'].
    unfold id_loader in S1. repeat match type of S1 with context [match ?x with _ => _ end] => destruct x; try discriminate end; reflexivity.
Qed.
Lemma rt_list i vs : Forall (fun v => RT i v) vs -> exists js, save (VSeq vs) = Ok (JList js) /\ Forall2 (fun v j => save v = Ok j) vs js /\
  (Forall self_contained js -> forall b o root, Fit o -> home b -> exists ws, Forall2 Renamed vs ws /\ Forall2 (fun j w => Loads i j b o root (Ok w)) js ws).
Proof.
  intros F. assert (X : exists js, Forall2 (fun v j => save v = Ok j) vs js /\
    (Forall self_contained js -> forall b o root, Fit o -> home b -> exists ws, Forall2 Renamed vs ws /\ Forall2 (fun j w => Loads i j b o root (Ok w)) js ws)).
  { induction F as [|v vs (j & S & L) F (js & A & B)]; [exists []; split; [constructor|]; intros; exists []; split; constructor|]. exists (j :: js). split; [constructor; auto|]. intros SC b o root FO HB. inversion SC; subst.
    destruct (L ltac:(auto) b o root FO HB) as (w & R & LW). destruct (B ltac:(auto) b o root FO HB) as (ws & RS & LS). exists (w :: ws). split; constructor; auto. }
  destruct X as (js & A & B). exists js. split; auto. rewrite save_seq. apply save_list_ok in A. rewrite A. reflexivity.
Qed.
Lemma renamed_seqs vs ws : Forall2 Renamed vs ws -> Forall (fun v => is_seq v = false) vs -> Forall (fun v => is_seq v = false) ws.
Proof.
  induction 1 as [|v w vs ws R F IH]; intros N; constructor; inversion N as [|? ? N1 N2]; subst; auto. apply renamed_kind in R. destruct v; try discriminate; try (subst w; reflexivity); [destruct R as [? ->]; auto|destruct R as (? & -> & _); auto].
Qed.
Lemma array_round i vs js ws b o root : Forall2 (fun v j => save v = Ok j) vs js -> Forall self_contained js -> Forall (fun v => is_seq v = false) vs -> NoDup (ids js) ->
  Forall2 Renamed vs ws -> Forall2 (fun j w => Loads i j b o None (Ok w)) js ws -> Loads (LArray i) (JList js) b o root (Ok (VSeq ws)).
Proof.
  intros SV SC NS ND R L. apply array_ok. exists ws. split; [|split; [auto|]].
  - clear ND R. revert vs SV SC NS. induction L as [|j w js ws H L IH]; intros vs SV SC NS; constructor.
    + inversion SV; inversion SC; subst. inversion NS; subst. apply element_ok; [intros e ->; match goal with X : self_contained _ |- _ => apply sc_dict in X; split; eapply sc_no_key; eauto end|].
      destruct j; try exact H. match goal with X : save _ = Ok _ |- _ => apply save_kind in X end. match goal with X : is_seq ?v = false |- _ => destruct v; try discriminate; match goal with X : exists _, _ |- _ => destruct X; discriminate end end.
    + inversion SV; inversion SC; subst. inversion NS; subst. eapply IH; eauto.
  - pose proof (renamed_seqs _ _ R NS) as NW. f_equal. unfold flat. destruct (flattens o); auto. clear - NW. induction NW as [|v vs H F IH]; cbn [map List.concat]; auto. rewrite <- IH. destruct v; try discriminate; reflexivity.
Qed.

(** Patterns *)
Lemma pattern_round k vs : classes "SecondaryFileSchema" = Some k -> Forall pattern_object vs -> Forall (fun v => RT patterns v) vs ->
  RT (LSecondary (LUnion [LPrim PNull; patterns; LArray patterns])) (VSeq vs).
Proof.
  intros K PO F. destruct (pattern k K) as (KN & KI & KC & l1 & l2 & KF).
  destruct (rt_list patterns vs F) as (js & S & SV & L). exists (JList js). split; auto. intros SC b o root FO HB. apply sc_list in SC. destruct (L SC b o None FO HB) as (ws & RW & LW). clear L F. exists (VSeq ws). split; [constructor; auto|].
  apply secondary_via. cbn [secondary_dsl].
  assert (AT : attrs k = ["pattern"; "required"]) by (unfold attrs; rewrite KI, KC, KF; reflexivity).
  assert (X : exists rs, Forall2 (fun d r => secondary_item d = Ok r) js rs /\ Forall self_contained rs /\ ids rs = [] /\ Forall (fun r => exists d, r = JDict d) rs /\ Forall2 (fun j w => Loads patterns j b o None (Ok w)) rs ws).
  { clear S RW. revert ws LW PO SC. induction SV as [|v j vs js S SV IH]; intros ws L PO SC; inversion L as [|? w ? ws' LV L']; subst; [exists []; repeat split; constructor|]. inversion PO as [|? ? (p & r & EV) PO']; subst. inversion SC as [|? ? SJ SC']; subst.
    destruct (IH ws') as (rs & A & B & C & D & E); auto. clear L' PO' SC'.
    assert (Y : exists jp jr, j = JDict (("pattern", jp) :: match r with VNull => [] | _ => [("required", jr)] end) /\ save r = Ok jr /\ (r = VNull -> jr = JNull)).
    { pose proof (save_kind V RV _ _ S) as SK. cbv iota beta in SK. destruct SK as [d ->]. apply save_obj_ok in S; [|cbn; repeat constructor; cbn; intuition discriminate]. destruct S as (ess & SF & E'). cbn [app] in E'. assert (d = List.concat ess) by congruence. subst d.
      inversion SF as [|? e1 ? ess1 S1 SF1]; subst. inversion SF1 as [|? e2 ? ess2 S2 SF2]; subst. inversion SF2; subst. cbn [List.concat] in *. rewrite app_nil_r in *.
      assert (NP : p <> VNull).
      { intros ->. inversion S1; subst; [|congruence]. cbn [app] in *. pose proof LV as LX. apply (record_object _ _ _ k) in LX; auto. destruct LX as (d & ED & (i & b' & cl & fs & ext & _ & _ & FS & _)).
        rewrite KF in FS. inversion FS as [|? ? ? ? [_ FV] _]; subst. assert (GN : dget "pattern" d = None) by (assert (d = e2) by congruence; subst d; inversion S2; subst; reflexivity).
        destruct FV as [? ? ? R|? ? ? ? GP ? ?]; [discriminate R|cbn [f_name] in GP; congruence]. }
      inversion S1; subst; try congruence. inversion S2; subst; cbn [app].
      - eexists _, JNull. split; [reflexivity|]. split; auto.
      - eexists _, _. split; [|split; [eassumption|intros ->; congruence]]. destruct r; try reflexivity. congruence. }
    destruct Y as (jp & jr & -> & SR & RN). set (r' := JDict [("pattern", jp); ("required", jr)]).
    assert (SP : self_contained jp /\ self_contained jr).
    { apply sc_dict in SJ. inversion SJ as [|? ? [_ SP] SQ]; subst. split; [exact SP|]. destruct r; try (rewrite RN by auto; exact I); inversion SQ as [|? ? [_ SQ'] _]; exact SQ'. }
    exists (r' :: rs). split; [|split; [|split; [|split]]].
    - constructor; auto. unfold r'. destruct r; try reflexivity. rewrite RN by auto. reflexivity.
    - constructor; auto. apply sc_dict. repeat constructor; cbn; try discriminate; apply SP.
    - rewrite ids_cons. exact C.
    - constructor; [unfold r'; eauto|auto].
    - constructor; auto. pose proof LV as LX. destruct r; try exact LX.
      subst r'. assert (jr = JNull) by auto. subst jr. apply (record_object _ _ _ k) in LX; auto. destruct LX as (d & ED & (i & b' & cl & fs & ext & OI & OC & FS & OE & EV)). assert (d = [("pattern", jp)]) by congruence. subst d.
      apply (record_ok urljoin supported_schemes check_exists fetch_text read_yaml uuid classes proxies _ _ _ k); auto. cbv zeta.
      destruct OI as [_|? ? ? ? ? X1 ? ?|? ? ? ? X1 ? ?|? ? X1 ? ?]; try congruence. destruct OC as [_|? ? ? X1 ? ? ? ?]; [|congruence]. rewrite KF in FS. inversion FS as [|? kv1 ? fs1 [E1 FV] FS1]; subst. inversion FS1 as [|? kv2 ? fs2 [E2 FV2] FS2]; subst. inversion FS2; subst.
      assert (OX : others k [("pattern", jp)] = []) by (unfold others; rewrite AT; reflexivity). rewrite OX in OE. inversion OE; subst. cbn [app].
      assert (V2 : snd kv2 = VNull) by (destruct FV2 as [? ? GP ?|? ? ? ? GP ? ?]; [reflexivity|cbn in GP; discriminate GP]).
      exists [], b, [], [kv1; kv2], []. split; [apply Identity_none; auto|]. split; [apply Classed_none; auto|]. split; [|split].
      + rewrite KF. constructor; [split; [auto|]|constructor; [split; [auto|]|constructor]].
        * destruct FV as [? ? GP ?|bb j v ? GP ? FL]; [cbn in GP; discriminate|]. cbn [f_name] in GP. assert (j = jp) by (cbn in GP; congruence). subst j. eapply Field_present; eauto.
        * rewrite V2. apply (Field_present _ _ _ b _ b JNull VNull); [exact eq_refl|reflexivity|discriminate|]. cbn [f_loader]. unfold LoaderProofs.FieldLoads. apply plain_field; [exact I|]. apply union_ok. exists [], (LPrim PNull), l2. split; auto. split; [constructor|].
          apply Loads_body. split; [discriminate|]. exists 0. reflexivity.
      + unfold others. rewrite AT. constructor.
      + reflexivity. }
  destruct X as (rs & A & B & C & D & E). assert (M : mapM secondary_item js = Ok rs) by (apply mapM_Ok; auto). rewrite M.
  apply union_ok. exists [LPrim PNull; patterns], (LArray patterns), []. split; auto. split.
  - constructor; [|constructor; [|constructor]]; [apply Loads_body; split; [discriminate|]; exists 0; reflexivity|]. apply record_not_map; [discriminate|discriminate|reflexivity].
  - assert (NS : Forall (fun v => is_seq v = false) ws) by (eapply renamed_seqs; eauto; clear - PO; induction PO as [|v vs (p & r & ->) F IH]; constructor; auto).
    apply array_ok. exists ws. split; [|split].
    + clear - B D E. induction E as [|j v rs vs H E IH]; [constructor|]. inversion B; inversion D as [|? ? [d ->]]; subst. constructor; auto. apply element_ok; [|exact H]. intros e [= ->].
      match goal with X : self_contained _ |- _ => apply sc_dict in X; split; eapply sc_no_key; eauto end.
    + rewrite C. constructor.
    + f_equal. unfold flat. destruct (flattens o); auto. clear - NS. induction NS as [|v vs H F IH]; cbn [map List.concat]; auto. rewrite <- IH. destruct v; try discriminate; reflexivity.
Qed.

(** ** The theorem *)
Lemma ids_js vs js : Forall2 (fun v j => save v = Ok j) vs js -> Forall well vs -> apart vs -> NoDup (ids js).
Proof.
  intros F W (ts & E & N). rewrite (ids_saved V RV vs js F) with (ts := ts); auto.
  - apply Injective_map_NoDup; auto. intros a b [= ->]. auto.
  - eapply Forall_impl; [|exact W]. intros v [T _]. exact T.
  - eapply Forall_impl; [|exact W]. intros v [_ T]. destruct v; auto.
Qed.
Lemma texts_saved vs js s : Forall2 (fun v j => save v = Ok j) vs js -> In (JStr s) js -> In s (texts vs).
Proof.
  induction 1 as [|v j vs js S F IH]; intros []; cbn [texts flat_map]; apply in_or_app; [left|right; auto]. subst j. apply save_kind in S. destruct v; try discriminate; try (destruct S; discriminate). injection S as ->. cbn. auto.
Qed.
Lemma resolve_texts r1 vs js : Forall2 (fun v j => save v = Ok j) vs js -> (forall s, In s (texts vs) -> r1 s = Ok (JStr s)) -> NoDup (texts vs) ->
  forall acc, (forall s, In s (texts vs) -> ~ In (JStr s) acc) -> resolve_list r1 acc js = Ok (acc ++ js).
Proof.
  induction 1 as [|v j vs js S F IH]; intros R N acc NA; cbn [resolve_list]; [rewrite app_nil_r; auto|]. unfold texts in R, N, NA. cbn [flat_map] in R, N, NA. fold (texts vs) in R, N, NA.
  assert (X : (exists s, v = VStr s /\ j = JStr s) \/ (match j with JStr _ => False | _ => True end /\ match v with VStr s => [s] | _ => [] end = [])).
  { apply save_kind in S. destruct v; try (subst j; right; split; [exact I|reflexivity]); [left; eauto| | |]; destruct S as [? ->]; right; split; try exact I; reflexivity. }
  destruct X as [(s & -> & ->)|[NJ E]].
  - cbn [app] in *. rewrite R by (left; auto). cbn [bind]. inversion N as [|? ? N1 N2]; subst.
    assert (EX : add_new acc (JStr s) = acc ++ [JStr s]).
    { unfold add_new. destruct (existsb (py_eqb (JStr s)) acc) eqn:EE; auto. apply existsb_exists in EE. destruct EE as (x & I & PE). destruct x; try discriminate. cbn in PE. apply String.eqb_eq in PE. subst. destruct (NA s0); cbn; auto. }
    rewrite EX. rewrite IH; auto; [rewrite <- app_assoc; reflexivity|intros; apply R; right; auto|]. intros s' I I'. apply in_app_iff in I'. destruct I' as [I'|[I'|[]]]; [apply (NA s'); cbn; auto|]. injection I' as ->. contradiction.
  - rewrite E in *. cbn [app] in *. assert (EX : resolve_list r1 (acc ++ [j]) js = Ok (acc ++ j :: js)).
    { rewrite IH; auto; [rewrite <- app_assoc; reflexivity|]. intros s' I I'. apply in_app_iff in I'. destruct I' as [I'|[I'|[]]]; [apply (NA s'); auto|]. subst j. contradiction. }
    destruct j; try contradiction; exact EX.
Qed.
Definition P_one (l : loader) (v : lv) : Prop := good l -> RT l v /\ deep v.
Definition P_all (i : loader) (vs : list lv) : Prop := good i -> Forall (fun v => RT i v /\ deep v) vs.
Definition P_fields (fs : list field) (kvs : list (string * lv)) : Prop := Forall (fun f => good (f_loader f)) fs -> Forall2 FieldRT fs kvs.
Lemma deep_list i vs : Forall (fun v => RT i v /\ deep v) vs -> Forall (fun v => RT i v) vs /\ Forall well vs.
Proof. intros F. split; (eapply Forall_impl; [|exact F]); intros v [A B]; auto. apply B. Qed.
Theorem fits_round :
  (forall l v, Fits l v -> P_one l v) /\ (forall i vs, FitAll i vs -> P_all i vs) /\ (forall fs kvs, FitFields fs kvs -> P_fields fs kvs).
Proof.
  apply Fits_mutual; unfold P_one, P_all, P_fields.
  - (* any *) intros j NJ _. split; [|split; [apply well_of_json|destruct j; cbn [of_json]; auto; clear; induction l; constructor; auto; apply well_of_json]].
    exists j. split; [apply save_of_json|]. intros _ b o root _ _. exists (of_json j). split; [constructor|]. apply Loads_body. split; [discriminate|]. exists 0. cbn [load_body]. destruct j; auto. congruence.
  - (* prim *) intros tp v HP _. split; [|destruct tp, v; try discriminate; repeat split; exact I].
    assert (X : exists j, v = of_json j /\ is_prim tp j = true) by (destruct tp, v; try discriminate; [exists JNull|exists (JBool b)|exists (JBool b)|exists (JInt z)|exists (JFloat s)|exists (JStr s)]; auto).
    destruct X as (j & -> & PJ). exists j. split; [apply save_of_json|]. intros _ b o root _ _. exists (of_json j). split; [constructor|]. apply Loads_body. split; [discriminate|]. exists 0. cbn [load_body]. rewrite PJ. reflexivity.
  - (* enum *) intros ss s HI _. split; [|repeat split]. exists (JStr s). split; auto. intros _ b o root _ _. exists (VStr s). split; [constructor|]. apply Loads_body. split; [discriminate|]. exists 0. cbn [load_body]. apply smem_In in HI. rewrite HI. reflexivity.
  - (* expression *) intros s _. split; [|repeat split]. exists (JStr s). split; auto. intros _ b o root _ _. exists (VStr s). split; [constructor|]. apply Loads_body. split; [discriminate|]. exists 0. reflexivity.
  - (* array *) intros i vs _ IH NS AP G. assert (GI : good i) by (destruct G as [A B]; split; [exact A|apply direct_fieldable; exact B]). specialize (IH GI). destruct (deep_list _ _ IH) as [R W]. split; [|split; [split; exact I|exact W]].
    destruct (rt_list i vs R) as (js & S & SV & L). exists (JList js). split; auto. intros SC b o root FO HB. apply sc_list in SC. destruct (L SC b o None FO HB) as (ws & RW & LW). exists (VSeq ws). split; [constructor; auto|]. eapply array_round; eauto. eapply ids_js; eauto.
  - (* map *) intros i c nl d NL _ IH G. assert (GI : good i) by (destruct G as [A B]; split; [exact A|apply direct_fieldable; exact B]). specialize (IH GI). destruct (deep_list _ _ IH) as [R _]. split; [|repeat split].
    assert (X : exists es, Forall2 (fun kv e => fst e = fst kv /\ save (snd kv) = Ok (snd e)) d es /\ (Forall sc_pair es -> forall b o root, Fit o -> home b ->
      exists e', Forall2 (fun kv kw => fst kw = fst kv /\ Renamed (snd kv) (snd kw)) d e' /\ Forall2 (fun e kw => fst kw = fst e /\ Loads i (snd e) b o root (Ok (snd kw))) es e')).
    { clear - R. induction d as [|[k v] d IH]; [exists []; split; [constructor|]; intros; exists []; split; constructor|]. cbn [map snd] in R. inversion R as [|? ? (j & S & L) R']; subst. destruct (IH R') as (es & A & B). exists ((k, j) :: es). split; [constructor; auto|].
      intros SC b o root FO HB. inversion SC as [|? ? [_ SJ] SC']; subst. destruct (L SJ b o root FO HB) as (w & RW & LW). destruct (B SC' b o root FO HB) as (e' & RE & LE). exists ((k, w) :: e'). split; constructor; auto. }
    destruct X as (es & A & B). exists (JDict es). split; [rewrite save_vmap; apply save_map_ok in A; rewrite A; reflexivity|]. intros SC b o root FO HB. apply sc_dict in SC.
    destruct (B SC b (within c nl o) None (fit_within c nl o NL FO) HB) as (e' & RE & LE). exists (VMap e'). split; [constructor; auto|].
    apply (map_ok urljoin supported_schemes check_exists fetch_text read_yaml uuid classes proxies). exists e'. split; auto. apply (F2_in _ _ _ _ LE). intros e kv EI _ [E L]. split; auto.
    apply plain_field; [apply (proj1 (Forall_forall _ _) SC) in EI; apply EI|]. exact L.
  - (* object *) intros cls c nl k kvs fs ext K NL CI CF _ IH EF G. destruct (good_class_parts cls c nl k G K) as (NK & GF & _).
    destruct (record_round cls c nl k [] kvs fs ext) as [R W]; auto; [unfold IdRT; rewrite CI; auto|]. split; auto. split; [auto|exact I].
  - (* object with an identifier *) intros cls c nl k n req l s kvs fs ext K NL CI _ IHl HS CF _ IH EF G. destruct (good_class_parts cls c nl k G K) as (NK & GF & GL).
    destruct (record_round cls c nl k [(n, VStr s)] kvs fs ext) as [R W]; auto.
    { unfold IdRT; rewrite CI; exists s; split; auto. intros b o FO HB. destruct (IHl (GL _ _ _ CI)) as [(j & SJ & LJ) _]. injection SJ as <-. destruct (LJ I b o None FO HB) as (w & RW & LW). apply renamed_kind in RW. subst w. exists s. split; [left; auto|auto]. }
    split; auto. split; [auto|exact I].
  - (* object with a blank name *) intros cls c nl k n req i sr nl' s kvs fs ext K NL CI NL' BB BN IS CF _ IH EF G. destruct (good_class_parts cls c nl k G K) as (NK & GF & GL).
    destruct (record_round cls c nl k [(n, VStr s)] kvs fs ext) as [R W]; auto.
    { unfold IdRT; rewrite CI; exists s; split; auto. intros b o FO HB. exists (inside b (s_path (urlsplit s))). split; [right; auto|]. split; [apply home_inside; auto|].
      apply (uri_text _ _ _ _ _ _ (inside b (s_path (urlsplit s)))); [apply expand_blank; auto; apply FO|apply linked_ok; auto; apply linked_any; auto; exact (HB BB _ [])|].
      destruct IS as [-> | ->]; [apply Loads_body; split; [discriminate|]; exists 0; reflexivity|].
      apply union_ok. exists [LPrim PNull], (LPrim PStr), []. split; auto. split; [constructor; [|constructor]|]; apply Loads_body; (split; [discriminate|]); exists 0; reflexivity. }
    split; auto. split; [auto|exact I].
  - (* union *) intros pre a post v RF _ IH G. apply good_union in G. assert (GA : good a) by (apply (proj1 (Forall_forall _ _) G); apply in_or_app; cbn; auto). destruct (IH GA) as [(j & S & L) D]. split; auto.
    exists j. split; auto. intros SC b o root FO HB. destruct (L SC b o root FO HB) as (w & RW & LW). exists w. split; auto. apply union_ok. exists pre, a, post. split; auto. split; auto. apply Forall_forall. intros t I. eapply refuses_loads; eauto; [|apply FO].
    apply (proj1 (Forall_forall _ _) G). apply in_or_app. auto.
  - (* uri *) intros i si vt sr nl v NL _ IH M G. assert (GI : good i) by (destruct G as [A B]; split; [exact A|apply direct_fieldable; exact B]). destruct (IH GI) as [(j & S & L) D]. split; auto. exists j. split; auto.
    intros SC b o root FO HB. assert (FO' : Fit (with_container None nl o)) by (apply fit_within; auto). destruct (L SC b _ None FO' HB) as (w & RW & LW). exists w. split; auto. clear L.
    pose proof (save_kind V RV _ _ S) as SK. destruct v; try (subst j; apply uri_other; [exact I|exact LW]); try (destruct SK as [? ->]; apply uri_other; [exact I|exact LW]).
    + subst j. destruct M as [ST LK]. apply (uri_text _ _ _ _ _ _ s); auto; [apply expand_settled; auto; apply FO'|apply linked_ok; auto].
    + destruct SK as [js ->]. apply uri_other; auto. intros s I. apply expand_settled; [apply FO'|]. rewrite save_seq in S. destruct (save_list V RV l) as [js'|] eqn:E; cbn [bind] in S; [|discriminate]. assert (js' = js) by congruence. subst js'.
      apply save_list_ok in E. eapply texts_saved in I; eauto. apply (proj1 (Forall_forall _ _) M). auto.
  - (* type *) intros i rs salad v _ IH M G. assert (GI : good i) by (destruct G as [A B]; cbn [sound EndProofs.fieldable] in A, B; apply andb_true_iff in A, B; split; [apply A|apply direct_fieldable; apply B]). destruct (IH GI) as [(j & S & L) D]. split; auto. exists j. split; auto.
    intros SC b o root FO HB. destruct (L SC b o None FO HB) as (w & RW & LW). exists w. split; auto. clear L. apply type_dsl_via. unfold resolved. pose proof (save_kind V RV _ _ S) as SK. destruct v; try (subst j; exact LW); try (destruct SK as [? ->]; exact LW).
    + subst j. destruct M as [ST IN]. cbn [type_dsl]. rewrite resolved_name; auto. apply FO.
    + destruct SK as [js ->]. destruct M as [M ND]. cbn [type_dsl]. rewrite save_seq in S. destruct (save_list V RV l) as [js'|] eqn:E; cbn [bind] in S; [|discriminate]. assert (js' = js) by congruence. subst js'.
      apply save_list_ok in E. rewrite (resolve_texts _ l js E); [exact LW| |auto|intros s _ []]. intros s I. apply (proj1 (Forall_forall _ _) M) in I. apply resolved_name; try apply I. apply FO.
  - (* identifier map *) intros i s p v NM _ IH G. assert (GI : good i) by (destruct G as [A B]; cbn [sound EndProofs.fieldable] in A, B; apply andb_true_iff in A, B; destruct A as [A _], B as [B _]; apply andb_true_iff in A, B; split; [apply A|apply direct_fieldable; apply B]).
    destruct (IH GI) as [(j & S & L) D]. split; auto. exists j. split; auto. intros SC b o root FO HB. destruct (L SC b o None FO HB) as (w & RW & LW). exists w. split; auto. clear L. apply id_map_via. pose proof (save_kind V RV _ _ S) as SK. destruct v; try discriminate; try (subst j; exact LW). destruct SK as [? ->]. exact LW.
  - (* patterns *) intros vs PO _ IH G. assert (GP : good patterns).
    { destruct G as [A B]. cbn [sound EndProofs.fieldable EndProofs.direct all_of_them] in A, B. change (sound known proxied (LUnion [LPrim PNull; patterns; LArray patterns]) = true) in A. apply sound_union in A. inversion A as [|? ? _ A']; subst. inversion A' as [|? ? A'' _]; subst. split; exact A''. }
    specialize (IH GP). destruct (deep_list _ _ IH) as [R W]. split; [|split; [split; exact I|exact W]]. destruct (known_class "SecondaryFileSchema") as (k & K & _); [exact (proj1 GP)|]. apply (pattern_round k); auto.
  - (* named *) intros n l v P _ IH G. destruct (IH (good_proxy n l G P)) as [(j & S & L) D]. split; auto. exists j. split; auto. intros SC b o root FO HB. destruct (L SC b o None FO HB) as (w & RW & LW). exists w. split; auto. apply (proxy_via urljoin supported_schemes check_exists fetch_text read_yaml uuid classes proxies n l); auto.
  - constructor.
  - intros i v vs _ IH _ IHs G. constructor; auto.
  - constructor.
  - intros f fs kvs NR _ IH G. inversion G; subst. constructor; auto. split; auto.
  - intros f fs v kvs NV _ IH _ IHs G. inversion G; subst. constructor; auto. split; auto. right. split; auto. apply IH. auto.
Qed.
End Round.

(** Without blank names nothing is renamed *)
Section NotRenamed.
Variables (classes : string -> option class) (V : list (string * string)).
Fixpoint not_renamed v w (R : Renamed classes V false v w) {struct R} : v = w.
Proof.
  destruct R as [v|vs ws F|d e F|cls k fs gs ext K F]; [reflexivity| | |].
  - f_equal. induction F as [|v w vs ws R F IH]; [reflexivity|]. f_equal; [apply not_renamed; exact R|exact IH].
  - f_equal. induction F as [|[a v] [b w] d e R F IH]; [reflexivity|]. destruct R as [E R]. cbn [fst snd] in E, R. f_equal; [|exact IH]. f_equal; [congruence|apply not_renamed; exact R].
  - f_equal. induction F as [|[a v] [b w] fs gs R F IH]; [reflexivity|]. destruct R as [E R]. cbn [fst snd] in E, R. f_equal; [|exact IH]. f_equal; [congruence|]. destruct R as [R|R]; [apply not_renamed; exact R|destruct R as [R _]; discriminate R].
Qed.
End NotRenamed.
