(** * Proofs about what a packed document means *)
From Verif Require Import PyBase PyBaseProofs UtilsModel PackModel PackSpec PackProofs PackTreeProofs PackStepProofs MeaningSpec.

(** ** mappings and lists *)
Lemma With_dset k v d : With k v d (dset k v d).
Proof. split; [apply dget_dset_same|]. intros k' N. apply dget_dset_other. auto. Qed.
Lemma With_same k v d : dget k d = Some v -> With k v d d.
Proof. split; auto. Qed.
Lemma mmap_Forall2 {A B} (f : A -> M B) (R : A -> B -> Prop) l : forall s l' s',
  (forall x s y s', In x l -> f x s = Ok (y, s') -> R x y) -> mmap f l s = Ok (l', s') -> Forall2 R l l'.
Proof.
  induction l as [|x l IH]; intros s l' s' H E; cbn in E; inv_ok; constructor.
  - eapply H; [|eassumption]. cbn; auto.
  - eapply IH; [|eassumption]. intros; eapply H; [|eassumption]. cbn; auto.
Qed.
Lemma mapM_Forall2 {A B} (f : A -> result B) (R : A -> B -> Prop) l : forall l',
  (forall x y, In x l -> f x = Ok y -> R x y) -> mapM f l = Ok l' -> Forall2 R l l'.
Proof.
  induction l as [|x l IH]; intros l' H E; cbn in E; inv_ok; constructor.
  - eapply H; [|eassumption]. cbn; auto.
  - eapply IH; [|eassumption]. intros; eapply H; [|eassumption]. cbn; auto.
Qed.
Lemma Listed_of j kf vf l : normalize_to_list j kf vf = Ok l -> Listed kf vf j l.
Proof.
  intros E. destruct j; cbn in E; try discriminate.
  - injection E as <-. constructor.
  - constructor. eapply mapM_Forall2; [|exact E]. intros [k v] y _ Y. unfold to_list_entry in Y. cbn [fst snd] in Y.
    destruct v; try (destruct vf as [f|]; [|discriminate]; injection Y as <-; eapply En_short; [discriminate|reflexivity|apply With_dset]).
    injection Y as <-. apply En_full. apply With_dset.
Qed.
Lemma Section_of k kf vf d l : normalize_to_list (get_or k d (JList [])) kf vf = Ok l -> Section_ k kf vf d l.
Proof.
  unfold get_or, Section_. destruct (dget k d) as [j|] eqn:G; intros E.
  - right. exists j. split; auto. apply Listed_of. auto.
  - left. split; auto. cbn in E. congruence.
Qed.
Lemma Items_of j l : iter j = Ok l -> Items j l.
Proof.
  destruct j; cbn; intros E; try discriminate; injection E as <-; try constructor.
  replace (map JStr (dkeys d)) with (map (fun kv : string * json => JStr (fst kv)) d); [constructor|].
  unfold dkeys. rewrite map_map. reflexivity.
Qed.

(** ** listify *)
Lemma listify_listed d d' : listify_everything d = Ok d' -> AllListed d d'.
Proof.
  intros E. unfold listify_everything in E. inv_ok.
  set (d1 := dset "inputs" (JList a) d) in *. set (d2 := dset "outputs" (JList a0) d1) in *.
  set (d3 := dset "requirements" (JList a1) d2) in *.
  assert (G1 : dget "inputs" d3 = Some (JList a)) by (unfold d3, d2, d1; rewrite 2 dget_dset_other by discriminate; apply dget_dset_same).
  assert (G2 : dget "outputs" d3 = Some (JList a0)) by (unfold d3, d2, d1; rewrite 1 dget_dset_other by discriminate; apply dget_dset_same).
  assert (G3 : dget "requirements" d3 = Some (JList a1)) by (unfold d3; apply dget_dset_same).
  assert (G4 : dget "steps" d3 = dget "steps" d) by (unfold d3, d2, d1; rewrite 3 dget_dset_other by discriminate; reflexivity).
  assert (K : forall k, ~ In k ["inputs"; "outputs"; "requirements"; "steps"] -> dget k d3 = dget k d).
  { intros k N. unfold d3, d2, d1. cbn in N. rewrite !dget_dset_other by (intros ->; tauto). reflexivity. }
  assert (C3 : dget "class" d3 = dget "class" d) by (apply K; cbn; intuition discriminate).
  apply Section_of in E0.
  assert (S2 : Section_ "outputs" "id" (Some "type") d a0).
  { apply Section_of in E1. unfold Section_ in *. unfold d1 in E1. rewrite dget_dset_other in E1 by discriminate. exact E1. }
  assert (S3 : Section_ "requirements" "class" None d a1).
  { apply Section_of in E2. unfold Section_ in *. unfold d2, d1 in E2. rewrite 2 dget_dset_other in E2 by discriminate. exact E2. }
  destruct (get_is "class" "Workflow" d3) eqn:W; cbn [negb] in E.
  - inv_ok. apply get_is_spec in W. rewrite C3 in W.
    split. { intros k N. rewrite dget_dset_other by (intros ->; apply N; cbn; tauto). auto. }
    rewrite !dget_dset_other by discriminate.
    split; [eauto|]. split; [eauto|]. split; [eauto|]. split; [|intros N; destruct (N W)].
    intros _. rewrite dget_dset_same.
    assert (S4 : Section_ "steps" "id" None d a2).
    { apply Section_of in E3. unfold Section_ in *. rewrite G4 in E3. exact E3. }
    exists a2, a3. split; auto. split; auto. eapply mapM_Forall2; [|exact E4].
    intros x y _ Y. destruct x; cbn; try congruence. inv_ok. eexists _, _. split; [apply Section_of; eassumption|]. split; [apply With_dset|reflexivity].
  - inv_ok. apply get_is_false in W. rewrite C3 in W. split; auto. split; [eauto|]. split; [eauto|]. split; [eauto|]. split; [contradiction|]. auto.
Qed.

(** ** sources *)
Lemma normalize_normal d : AllNormal d (normalize_sources d).
Proof.
  unfold normalize_sources. destruct (get_is "class" "Workflow" d) eqn:W; cbn [negb].
  2:{ apply get_is_false in W. split; [intros k _; reflexivity|]. split; auto. split; contradiction. }
  apply get_is_spec in W.
  assert (MF : forall {A} (R : A -> A -> Prop) f l, (forall x, R x (f x)) -> Forall2 R l (map f l)).
  { intros A R f l H. induction l; constructor; auto. }
  set (d1 := match dget "steps" d with Some (JList l) => dset "steps" (JList (map normalize_step l)) d | _ => d end).
  assert (A : (forall k, k <> "steps" -> dget k d1 = dget k d) /\
     forall l, dget "steps" d = Some (JList l) -> exists l', dget "steps" d1 = Some (JList l') /\ Forall2 StepNormal l l').
  { unfold d1. destruct (dget "steps" d) as [[| | | |s|l|d2]|] eqn:E; try (split; auto; discriminate).
    split; [intros; apply dget_dset_other; auto|].
    intros l0 X. injection X as <-. eexists. rewrite dget_dset_same. split; [reflexivity|]. apply MF. apply normalize_step_spec. }
  destruct A as (A1 & A3). unfold AllNormal, SameExcept.
  destruct (dget "outputs" d1) as [[| | | |s|l|d2]|] eqn:E;
    try (split; [intros k N; apply A1; intros ->; apply N; cbn; tauto|]; split; [contradiction|]; split; [auto|]; intros _ l L; rewrite A1 in E by discriminate; congruence).
  split; [intros k N; rewrite dget_dset_other by (intros ->; apply N; cbn; tauto); apply A1; intros ->; apply N; cbn; tauto|].
  split; [contradiction|]. split.
  - intros _ l0 L. rewrite dget_dset_other by discriminate. auto.
  - intros _ l0 L. rewrite A1 in E by discriminate. rewrite L in E. injection E as ->.
    eexists. rewrite dget_dset_same. split; [reflexivity|]. apply MF. apply normalize_entry_spec.
Qed.

Section World.
  Variable url_scheme url_path : string -> string.
  Variable urljoin : string -> string -> string.
  Variable read_text urlopen : string -> result string.
  Variable parse_yaml : string -> result json.
  (** a scheme holds no slashes (and no colon) *)
  Hypothesis no_file_scheme : forall u, url_scheme u <> "file://".

  Notation load := (load_linked_file url_scheme url_path urljoin read_text urlopen parse_yaml).
  Notation resolved := (resolved_path url_scheme url_path urljoin).
  Notation inline := (inline_type url_scheme url_path urljoin read_text urlopen parse_yaml).
  Notation inlines := (inline_types url_scheme url_path urljoin read_text urlopen parse_yaml).
  Notation imports := (resolve_imports url_scheme url_path urljoin read_text urlopen parse_yaml).
  Notation schemadefs := (load_schemadefs url_scheme url_path urljoin read_text urlopen parse_yaml).
  Notation Target := (Target url_scheme url_path urljoin).
  Notation Text := (Text url_scheme url_path read_text urlopen).
  Notation File := (File url_scheme url_path urljoin read_text urlopen).
  Notation Contents := (Contents url_scheme url_path urljoin read_text urlopen parse_yaml).
  Notation Means := (Means url_scheme url_path urljoin read_text urlopen parse_yaml).
  Notation Local := (Local url_scheme).

  Lemma local_spec u : local url_scheme u = true <-> Local u.
  Proof.
    unfold local, Local, smem. cbn [existsb]. rewrite orb_false_r, orb_true_iff, !String.eqb_eq. split; [intros [X|X]; [destruct (no_file_scheme _ X)|auto]|auto].
  Qed.
  Lemma local_false u : local url_scheme u = false <-> ~ Local u.
  Proof. rewrite <- local_spec. destruct (local url_scheme u); split; congruence. Qed.

  Lemma Target_spec base link u : Target base link u <-> u = resolved base link.
  Proof.
    unfold resolved_path. destruct (String.eqb_spec (url_scheme link) "file://") as [X|_]; [destruct (no_file_scheme _ X)|].
    destruct (String.eqb_spec (url_scheme link) "") as [L|L].
    - destruct (local url_scheme base) eqn:B; [apply local_spec in B|apply local_false in B].
      + destruct (String.eqb_spec link "") as [->|N].
        * split; [intros H; inversion H; subst; auto; contradiction|intros ->; apply To_itself; auto].
        * split; [intros H; inversion H; subst; auto; contradiction|intros ->; apply To_beside; auto].
      + split; [intros H; inversion H; subst; auto; contradiction|intros ->; apply To_remote; auto].
    - split; [intros H; inversion H; subst; auto; contradiction|intros ->; apply To_url; auto].
  Qed.
  Lemma Text_spec u t : Text u t <-> (if local url_scheme u then read_text (url_path u) else urlopen u) = Ok t.
  Proof.
    unfold MeaningSpec.Text. destruct (local url_scheme u) eqn:B; [apply local_spec in B|apply local_false in B]; tauto.
  Qed.
  Lemma Symbolic_spec u t : SymbolicLink url_scheme u t <-> is_github_symbolic_link url_scheme u t = true.
  Proof.
    unfold SymbolicLink, is_github_symbolic_link. rewrite !andb_true_iff, !negb_true_iff, local_false. tauto.
  Qed.

  Lemma load_File (b : bool) : forall fuel base link v u, load fuel base link b = Ok (v, u) ->
    exists t, File base link t u /\ (if b then parse_yaml t = Ok v else v = JStr t).
  Proof.
    induction fuel as [|fuel IH]; intros base link v u E; [discriminate|]. cbn [load_linked_file] in E. inv_ok.
    apply Text_spec in E0. destruct (is_github_symbolic_link _ _ _) eqn:S.
    - apply Symbolic_spec in S. destruct (IH _ _ _ _ E) as (t & F & P). exists t. split; auto.
      eapply F_symbolic; [apply Target_spec; reflexivity| | |exact F]; auto.
    - assert (N : ~ SymbolicLink url_scheme (resolved base link) a) by (rewrite Symbolic_spec; congruence).
      exists a. destruct b; inv_ok; (split; [apply F_here; auto; apply Target_spec; reflexivity|auto]).
  Qed.
  Lemma File_load (b : bool) (v : json) : forall base link t u, File base link t u -> (if b then parse_yaml t = Ok v else v = JStr t) ->
    exists fuel, load fuel base link b = Ok (v, u).
  Proof.
    induction 1 as [base link u t T X N|base link u t t' u' T X SY F IH]; intros P.
    - exists 1. cbn [load_linked_file]. apply Target_spec in T. subst u. apply Text_spec in X. rewrite X. cbn [bind].
      rewrite Symbolic_spec in N. destruct (is_github_symbolic_link _ _ _); [congruence|]. destruct b; [rewrite P; reflexivity|subst; reflexivity].
    - destruct (IH P) as [fuel E]. exists (S fuel). cbn [load_linked_file]. apply Target_spec in T. subst u. apply Text_spec in X. rewrite X. cbn [bind].
      apply Symbolic_spec in SY. rewrite SY. exact E.
  Qed.
  Lemma load_Contents fuel base link v u : load fuel base link true = Ok (v, u) -> Contents base link v u.
  Proof. intros E. destruct (load_File true _ _ _ _ _ E) as (t & F & P). exists t. auto. Qed.

  (** ** types *)
  Lemma split_two c s : has_char c s = true -> exists f n r, s = (f ++ String c (n ++ r))%string /\ has_char c f = false /\
    has_char c n = false /\ (r = "" \/ exists r', r = String c r') /\ nth 0 (split_char c s) "" = f /\ nth 1 (split_char c s) "" = n.
  Proof.
    intros H. apply has_char_spec in H.
    assert (X : forall s, exists f r, s = (f ++ r)%string /\ has_char c f = false /\ (r = "" \/ exists r', r = String c r') /\
       nth 0 (split_char c s) "" = f /\ match r with EmptyString => split_char c s = [f] | String _ r' => split_char c s = f :: split_char c r' end).
    { clear. induction s as [|x s IH].
      - exists "", "". cbn. auto 6.
      - destruct (Ascii.eqb x c) eqn:E.
        + apply Ascii.eqb_eq in E. subst x. exists "", (String c s). split; auto. split; auto. split; eauto.
          pose proof (split_char_app c "" s) as Y. cbn [append] in Y. cbn [has_char] in Y.
          assert (Z : split_char c (String c s) = "" :: split_char c s) by (first [apply Y; reflexivity|cbn; rewrite Ascii.eqb_refl; reflexivity]).
          rewrite Z. auto.
        + destruct IH as (f & r & -> & F & R & N & M). exists (String x f), r. split; auto.
          assert (F' : has_char c (String x f) = false) by (cbn; rewrite F, orb_false_r; rewrite <- E; try reflexivity; apply Ascii.eqb_sym).
          split; auto. split; auto. destruct r as [|y r'].
          * rewrite sapp_nil_r. rewrite (split_char_none c (String x f)) by auto. auto.
          * destruct R as [R|[r2 R]]; [discriminate|]. injection R as -> <-.
            pose proof (split_char_app c (String x f) r') as Y. 
            assert (Z : split_char c (String x f ++ String c r') = String x f :: split_char c r') by (apply Y; auto).
            change (String x (f ++ String c r')) with (String x f ++ String c r')%string. rewrite Z. auto. }
    destruct (X s) as (f & r & -> & F & R & N & M). destruct R as [->|[r' ->]].
    { rewrite sapp_nil_r in H. apply has_char_spec in H. congruence. }
    destruct (X r') as (n & r2 & -> & F2 & R2 & N2 & M2). exists f, n, r2. split; [reflexivity|]. split; auto. split; auto. split; auto. split; auto.
    rewrite M. cbn. exact N2.
  Qed.

  Lemma type_path_named base s p q : type_path url_scheme url_path urljoin base s = (p, q) -> Named url_scheme url_path urljoin base s p q.
  Proof.
    unfold type_path. destruct (has_char "#" s) eqn:H; intros E.
    - destruct (split_two _ _ H) as (f & n & r & S & F & N & R & N0 & N1). cbv zeta in E. rewrite N0, N1 in E. injection E as <- <-.
      eapply Nm_there; [exact S|exact F|exact N|exact R|]. apply Target_spec. reflexivity.
    - injection E as <- <-. apply Nm_here. auto.
  Qed.

  Lemma name_copy_copied d s d' s' : name_copy d s = Ok (d', s') -> Copied d d'.
  Proof.
    unfold name_copy. intros E. destruct (dget "name" d) as [[]|] eqn:G; try discriminate.
    - destruct (smem _ _); inv_ok; [|eapply Cp_same; eauto]. eapply Cp_number; [eauto|]. apply With_dset.
    - inv_ok. eapply Cp_new; auto. apply With_dset.
  Qed.

  Section Inline.
    Variable udt : list (string * json).
    Let table (p : string) : option json := dget p udt.

    Lemma inline_means : forall fuel v base s j s', inline fuel v base udt s = Ok (j, s') -> Means table base v j.
    Proof.
      induction fuel as [|fuel IH]; intros v base s j s' E; [discriminate|]. cbn [inline_type] in E. inv_ok.
      destruct v as [| | | |str|l|d]; inv_ok.
      - destruct (endswith "[]" str) eqn:E1; inv_ok.
        { apply endswith_spec in E1. destruct E1 as [p ->]. pose proof (sdrop_last_app p "[]") as Y; cbn [String.length] in Y; match goal with H : inline _ _ _ _ _ = Ok _ |- _ => rewrite Y in H end. apply M_sugar_array. eauto. }
        destruct (endswith "?" str) eqn:E2; inv_ok.
        { apply endswith_spec in E2. destruct E2 as [p ->]. pose proof (sdrop_last_app p "?") as Y; cbn [String.length] in Y; match goal with H : inline _ _ _ _ _ = Ok _ |- _ => rewrite Y in H end. apply M_sugar_optional. eauto. }
        destruct (smem str built_in_types) eqn:E3; inv_ok.
        { constructor. apply smem_In. auto. }
        assert (B1 : ~ ends_in "[]" str) by (intros X; apply endswith_spec in X; congruence).
        assert (B2 : ~ ends_in "?" str) by (intros X; apply endswith_spec in X; congruence).
        assert (B3 : ~ In str built_in_types) by (intros X; apply smem_In in X; congruence).
        destruct (type_path _ _ _ base str) as [prefix path] eqn:TP. destruct (dget path udt) as [[| | | | | |d]|] eqn:G; inv_ok.
        eapply M_name; [exact B3|exact B1|exact B2|apply type_path_named; exact TP|exact G|eapply name_copy_copied; eauto|]. eauto.
      - apply M_union. eapply mmap_Forall2; [|eassumption]. intros ? ? ? ? ? HH; eapply IH; exact HH.
      - assert (T : Absent "$import" d -> forall j s', (match get_or "type" d JNull with
                | JNull => fail MissingTypeName
                | t =>
                    if is_str "enum" t then ret (JDict d)
                    else if is_str "array" t then
                      match dget "items" d with
                      | None => fail AttributeError
                      | Some i => let* i' := inline fuel i base udt in ret (JDict (dset "items" i' d))
                      end
                    else if is_str "record" t then
                      match dget "fields" d with
                      | None => fail AttributeError
                      | Some f =>
                          let* fields := lift (normalize_to_list f "name" (Some "type")) in
                          let* fields' := mmap (fun x => inline fuel x base udt) fields in
                          ret (JDict (dset "fields" (JList fields') d))
                      end
                    else if match t with JStr s => smem s built_in_types | _ => false end then ret (JDict d)
                    else let* t' := inline fuel t base udt in ret (JDict (dset "type" t' d))
                end) s0 = Ok (j, s') -> Means table base (JDict d) j).
        { clear E j s'. intros AB j s' E. unfold get_or in E.
          assert (X : forall t, dget "type" d = Some t -> t <> JNull ->
            (if is_str "enum" t then ret (JDict d)
                    else if is_str "array" t then
                      match dget "items" d with
                      | None => fail AttributeError
                      | Some i => let* i' := inline fuel i base udt in ret (JDict (dset "items" i' d))
                      end
                    else if is_str "record" t then
                      match dget "fields" d with
                      | None => fail AttributeError
                      | Some f =>
                          let* fields := lift (normalize_to_list f "name" (Some "type")) in
                          let* fields' := mmap (fun x => inline fuel x base udt) fields in
                          ret (JDict (dset "fields" (JList fields') d))
                      end
                    else if match t with JStr s => smem s built_in_types | _ => false end then ret (JDict d)
                    else let* t' := inline fuel t base udt in ret (JDict (dset "type" t' d))) s0 = Ok (j, s') -> Means table base (JDict d) j).
          { clear E. intros t T NN E. destruct (is_str "enum" t) eqn:E1.
            { apply is_str_spec in E1. subst t. inv_ok. apply M_enum; auto. }
            destruct (is_str "array" t) eqn:E2.
            { apply is_str_spec in E2. subst t. destruct (dget "items" d) as [i|] eqn:GI; inv_ok.
              eapply M_array; [exact AB|exact T|exact GI| |apply With_dset]. eauto. }
            destruct (is_str "record" t) eqn:E3.
            { apply is_str_spec in E3. subst t. destruct (dget "fields" d) as [i|] eqn:GI; inv_ok.
              eapply M_record; [exact AB|exact T|exact GI|apply Listed_of; eassumption| |apply With_dset].
              eapply mmap_Forall2; [|eassumption]. intros ? ? ? ? ? HH; eapply IH; exact HH. }
            assert (N1 : t <> JStr "enum") by (intros ->; discriminate).
            assert (N2 : t <> JStr "array") by (intros ->; discriminate).
            assert (N3 : t <> JStr "record") by (intros ->; discriminate).
            destruct (match t with JStr s => smem s built_in_types | _ => false end) eqn:E4.
            { inv_ok. destruct t; try discriminate. eapply M_typed; eauto; [|apply With_same; eauto]. constructor. apply smem_In. auto. }
            inv_ok. eapply M_typed; eauto. apply With_dset. }
          destruct (dget "type" d) as [t|]; [|discriminate]. specialize (X t eq_refl).
          destruct t; try discriminate; (apply X; [discriminate|exact E]). }
        assert (D : (Absent "$import" d /\ get_or "$import" d JNull = JNull) \/ exists x, dget "$import" d = Some x /\ x <> JNull /\ get_or "$import" d JNull = x).
        { unfold Absent, get_or. destruct (dget "$import" d) as [x|]; [|auto]. destruct x; auto; right; eexists; (split; [reflexivity|split; [discriminate|reflexivity]]). }
        destruct D as [[AB D]|(x & GX & NX & D)]; rewrite D in E.
        + apply (T AB _ _ E).
        + clear T. destruct x as [| | | |lk|x|x]; try congruence; inv_ok; try discriminate.
          cbn in *. inv_ok. eapply M_import; [exact GX|eapply load_Contents; eauto|]. eauto.
    Qed.

    Lemma inline_types_ports fuel d port base s d' s' l : dget port d = Some (JList l) ->
      inlines fuel d port base udt s = Ok (d', s') ->
      exists l', Ports url_scheme url_path urljoin read_text urlopen parse_yaml table base l l' /\ d' = dset port (JList l') d.
    Proof.
      intros G E. unfold inline_types, item in E. rewrite G in E. cbn [lift bind] in E.
      apply mbind_Ok in E. destruct E as (p & s1 & E1 & E). unfold lift in E1. cbn in E1. injection E1 as <- <-.
      apply mbind_Ok in E. destruct E as (w & s1 & E1 & E). apply lift_Ok in E1. destruct E1 as (w' & E1 & X). injection X as <- ->.
      apply mbind_Ok in E. destruct E as ([defs base'] & s1 & E2 & E). apply lift_Ok in E2. destruct E2 as (w' & E2 & X). injection X as X ->. subst w'.
      apply mbind_Ok in E. destruct E as (l0 & s1 & E3 & E). apply lift_Ok in E3. destruct E3 as (w' & E3 & X). injection X as <- ->.
      apply mbind_Ok in E. destruct E as (l' & s1 & E4 & E). cbn in E. injection E as <- <-.
      exists l'. split; auto.
      assert (F : Forall2 (Means table base') l0 l') by (eapply mmap_Forall2; [|exact E4]; intros ? ? ? ? ? HH; eapply inline_means; exact HH).
      apply Items_of in E3. unfold Ports.
      destruct w.
      - left. destruct l as [|x l]; [discriminate|]. destruct x as [| | | | | |p]; try discriminate. destruct l; [|discriminate].
        inv_ok. unfold item in *. destruct (dget "id" p) as [i|] eqn:GI; [|discriminate]. destruct (dget "type" p) as [t|] eqn:GT; [|discriminate].
        inv_ok. match goal with H : is_str "$import" _ = true |- _ => apply is_str_spec in H; subst end.
        match goal with H : as_link _ = Ok _ |- _ => destruct a; try discriminate; cbn in H; inv_ok end.
        eexists p, _, defs, base'. split; [reflexivity|]. split; [exact GI|]. split; [exact GT|]. split; [eapply load_Contents; eauto|]. eauto.
      - right. injection E2 as <- <-. split.
        + intros p ->. unfold item in E1. intros GI. rewrite GI in E1. discriminate.
        + inversion E3; subst. exact F.
    Qed.
  End Inline.

  (** ** the table *)
  Lemma dget_dset {V} k k' (v : V) d : dget k (dset k' v d) = if String.eqb k k' then Some v else dget k d.
  Proof. destruct (String.eqb_spec k k') as [->|N]; [apply dget_dset_same|apply dget_dset_other; auto]. Qed.
  Lemma NoDup_dset {V} k (v : V) d : NoDup (dkeys d) -> NoDup (dkeys (dset k v d)).
  Proof.
    unfold dkeys. induction d as [|[k' v'] d IH]; cbn; intros N.
    - constructor; [auto|constructor].
    - destruct (String.eqb_spec k k') as [->|X]; cbn; auto. inversion N; subst. constructor; auto.
      intros I. apply H1. clear - I X. induction d as [|[k2 v2] d IH]; cbn in *; [destruct I as [I|[]]; congruence|].
      destruct (String.eqb k k2); cbn in *; tauto.
  Qed.
  Lemma dget_dupdate {V} n (e d : list (string * V)) : NoDup (dkeys e) ->
    dget n (dupdate d e) = match dget n e with Some v => Some v | None => dget n d end.
  Proof.
    unfold dupdate. revert d. induction e as [|[k v] e IH]; intros d N; [reflexivity|]. cbn in N. inversion N; subst.
    cbn [fold_left fst snd]. rewrite IH by auto. cbn [dget]. rewrite dget_dset.
    destruct (dget n e) as [w|] eqn:G.
    - destruct (String.eqb_spec n k) as [->|]; auto. apply dget_In in G. exfalso. apply H1. unfold dkeys. apply in_map_iff. exists (k, w). auto.
    - destruct (String.eqb n k); auto.
  Qed.
  Lemma NoDup_dupdate {V} (e : list (string * V)) : forall d, NoDup (dkeys d) -> NoDup (dkeys (dupdate d e)).
  Proof. unfold dupdate. induction e as [|[k v] e IH]; intros d N; cbn; auto. apply IH. apply NoDup_dset. auto. Qed.

  (** [t'] is [t] with some of [D], at least all of it by name *)
  Record Adds (D : string -> json -> Prop) (t t' : list (string * json)) : Prop := {
    ad_nodup : NoDup (dkeys t) -> NoDup (dkeys t');
    ad_keep : forall p, dget p t <> None -> dget p t' <> None;
    ad_sound : forall p v, dget p t' = Some v -> dget p t = Some v \/ D p v;
    ad_complete : forall p v, D p v -> dget p t' <> None }.
  Lemma Adds_trans (D1 D2 D : string -> json -> Prop) t t1 t2 : Adds D1 t t1 -> Adds D2 t1 t2 ->
    (forall p v, D p v <-> D1 p v \/ D2 p v) -> Adds D t t2.
  Proof.
    intros A B H. constructor.
    - intros N. apply (ad_nodup _ _ _ B), (ad_nodup _ _ _ A). auto.
    - intros p N. apply (ad_keep _ _ _ B), (ad_keep _ _ _ A). auto.
    - intros p v G. destruct (ad_sound _ _ _ B _ _ G) as [G1|]; [|right; apply H; auto].
      destruct (ad_sound _ _ _ A _ _ G1); auto. right. apply H. auto.
    - intros p v X. apply H in X. destruct X as [X|X]; [apply (ad_keep _ _ _ B), (ad_complete _ _ _ A _ _ X)|apply (ad_complete _ _ _ B _ _ X)].
  Qed.
  Lemma Adds_none D t : (forall p v, ~ D p v) -> Adds D t t.
  Proof. intros H. constructor; auto. intros p v X. destruct (H _ _ X). Qed.
  Lemma Adds_one (D : string -> json -> Prop) p0 v0 t : (forall p v, D p v <-> p = p0 /\ v = v0) -> Adds D t (dset p0 v0 t).
  Proof.
    intros H. constructor.
    - apply NoDup_dset.
    - intros p N. rewrite dget_dset. destruct (String.eqb p p0); [discriminate|auto].
    - intros p v. rewrite dget_dset. destruct (String.eqb_spec p p0) as [->|]; auto. intros X. injection X as <-. right. apply H. auto.
    - intros p v X. apply H in X. destruct X as [-> ->]. rewrite dget_dset_same. discriminate.
  Qed.
  Lemma Adds_iff (D D' : string -> json -> Prop) t t' : (forall p v, D p v <-> D' p v) -> Adds D t t' -> Adds D' t t'.
  Proof.
    intros H A. constructor; try apply A.
    - intros p v G. destruct (ad_sound _ _ _ A _ _ G); auto. right. apply H. auto.
    - intros p v X. eapply (ad_complete _ _ _ A). apply H. eauto.
  Qed.

  Lemma foldM_adds (f : list (string * json) -> json -> result (list (string * json))) (D : json -> string -> json -> Prop) :
    forall l t t', (forall x t t', In x l -> f t x = Ok t' -> Adds (D x) t t') -> foldM f l t = Ok t' ->
    Adds (fun p v => exists x, In x l /\ D x p v) t t'.
  Proof.
    induction l as [|x l IH]; intros t t' H E; cbn in E; inv_ok.
    - apply Adds_none. intros p v (x & [] & _).
    - eapply Adds_trans; [eapply H; [left; reflexivity|eassumption]|eapply IH; [|eassumption]; intros; eapply H; eauto; right; auto|].
      intros p v. split.
      + intros (y & [<-|I] & Y); eauto.
      + intros [Y|(y & I & Y)]; [exists x|exists y]; cbn; auto.
  Qed.

  Definition of_types (prefix : string) (l : list json) (p : string) (v : json) : Prop :=
    exists n, Defined l n v /\ p = (prefix ++ "#" ++ n)%string.
  Lemma add_types_adds prefix types t t' l : iter types = Ok l -> add_types prefix types t = Ok t' -> Adds (of_types prefix l) t t'.
  Proof.
    intros I E. unfold add_types in E. rewrite I in E. cbn [bind] in E.
    eapply Adds_iff; [|eapply (foldM_adds _ (fun x p v => exists d n, x = JDict d /\ dget "name" d = Some (JStr n) /\ v = x /\ p = (prefix ++ "#" ++ n)%string)); [|exact E]].
    - intros p v. unfold of_types, Defined. split.
      + intros (x & IX & d & n & -> & G & -> & ->). exists n. split; auto. exists d. auto.
      + intros (n & (d & -> & IX & G) & ->). exists (JDict d). split; auto. exists d, n. auto.
    - clear. intros x t t' _ E. destruct x as [| | | | | |d]; try discriminate. unfold get_or in E.
      destruct (dget "name" d) as [n|] eqn:G; [|discriminate]. destruct n; try discriminate. injection E as <-.
      apply Adds_one. intros p v. split.
      + intros (d' & n & X & G' & -> & ->). injection X as <-. rewrite G in G'. injection G' as <-. auto.
      + intros [-> ->]. eauto 8.
  Qed.

  (** the type of a types list *)
  Definition of_list (prefix : string) (types : json) (p : string) (v : json) : Prop :=
    exists l, types = JList l /\ of_types prefix l p v.
  Lemma add_types_list prefix types t t' : add_types prefix types t = Ok t' -> Adds (of_list prefix types) t t'.
  Proof.
    intros E. destruct (iter types) as [l|e] eqn:I; [|unfold add_types in E; rewrite I in E; discriminate].
    pose proof (add_types_adds _ _ _ _ _ I E) as A. eapply Adds_iff; [|exact A]. intros p v. split.
    - intros X. destruct types; cbn in I; try discriminate; injection I as <-.
      + destruct X as (n & (d & -> & IX & _) & _). apply in_map_iff in IX. destruct IX as (c & Y & _). discriminate.
      + eexists. eauto.
      + destruct X as (n & (d' & -> & IX & _) & _). apply in_map_iff in IX. destruct IX as (c & Y & _). discriminate.
    - intros (l' & -> & X). cbn in I. injection I as <-. exact X.
  Qed.

  Notation addsch := (add_schema url_scheme url_path urljoin read_text urlopen parse_yaml).
  Lemma add_schema_case fuel base udt d : (exists link, d = [("$import", link)]) \/
    ((forall link, d <> [("$import", link)]) /\ addsch fuel base udt (JDict d) = match get_or "name" d JNull with
                | JStr k => Ok (dset (base ++ "#" ++ k)%string (JDict d) udt)
                | JNull => Ok (dset (base ++ "#None")%string (JDict d) udt)
                | _ => Err TypeError
                end).
  Proof.
    destruct d as [|[k v] d]; [right; split; [discriminate|reflexivity]|]. destruct d as [|p d].
    - destruct (string_dec k "$import") as [->|N]; [left; eauto|]. right. split; [congruence|]. unfold add_schema.
      repeat match goal with |- context [match ?s with EmptyString => _ | String _ _ => _ end] => destruct s; try reflexivity
          | |- context [match ?c with Ascii.Ascii _ _ _ _ _ _ _ _ => _ end] => destruct c
          | |- context [if ?b then _ else _] => destruct b; try reflexivity end. congruence.
    - right. split; [congruence|]. unfold add_schema.
      repeat match goal with |- context [match ?s with EmptyString => _ | String _ _ => _ end] => destruct s; try reflexivity
          | |- context [match ?c with Ascii.Ascii _ _ _ _ _ _ _ _ => _ end] => destruct c
          | |- context [if ?b then _ else _] => destruct b; try reflexivity end.
  Qed.
  (** what one entry of the schema definition adds *)
  Inductive OfSchema (base : string) (x : json) : string -> json -> Prop :=
  | Os_import link c u n v : x = JDict [("$import", JStr link)] -> Contents base link c u ->
      Defined (match c with JList defs => defs | _ => [c] end) n v -> OfSchema base x (u ++ "#" ++ n) v
  | Os_here d n : x = JDict d -> dget "name" d = Some (JStr n) -> OfSchema base x (base ++ "#" ++ n) x
  | Os_nameless d : x = JDict d -> Absent "name" d -> (forall link, d <> [("$import", link)]) -> OfSchema base x (base ++ "#None") x.

  Lemma File_fun base link t u : File base link t u -> forall t' u', File base link t' u' -> t' = t /\ u' = u.
  Proof.
    intros F t' u' F'. destruct (File_load false _ _ _ _ _ F eq_refl) as [f1 L1]. destruct (File_load false _ _ _ _ _ F' eq_refl) as [f2 L2].
    pose proof (load_fun _ _ _ _ _ _ _ _ _ _ _ _ _ L1 L2) as X. injection X as <- <-. auto.
  Qed.
  Lemma Contents_fun base link v u v' u' : Contents base link v u -> Contents base link v' u' -> v' = v /\ u' = u.
  Proof.
    intros (t & F & P) (t' & F' & P'). destruct (File_fun _ _ _ _ F _ _ F') as [-> ->]. rewrite P in P'. injection P' as <-. auto.
  Qed.

  Lemma add_schema_adds fuel base t x t' : addsch fuel base t x = Ok t' -> Adds (OfSchema base x) t t'.
  Proof.
    intros E. destruct x as [| | | | | |d]; try discriminate. destruct (add_schema_case fuel base t d) as [[link ->]|[N S]].
    - cbn in E. inv_ok. destruct link; try discriminate. match goal with H : as_link _ = Ok _ |- _ => cbn in H; inv_ok end.
      match goal with H : load _ _ _ _ = Ok (?j, ?s) |- _ => apply load_Contents in H; rename j into c; rename s into u; rename H into C end.
      apply add_types_list in E. eapply Adds_iff; [|exact E]. intros p v. split.
      + intros (l & LL & n & DF & ->). eapply Os_import; [reflexivity|exact C|]. destruct c; try discriminate LL; injection LL as <-; exact DF.
      + intros X. inversion X; subst.
        * injection H as <-. destruct (Contents_fun _ _ _ _ _ _ C H0) as [-> ->].
          destruct H1 as (d & -> & IX & G). destruct c; try (destruct IX as [IX|[]]; discriminate).
          -- eexists. split; [reflexivity|]. exists n. split; auto. exists d. auto.
          -- eexists. split; [reflexivity|]. exists n. split; auto. exists d. auto.
        * injection H as <-. discriminate.
        * injection H as <-. exfalso. eapply H1. reflexivity.
    - rewrite S in E. unfold get_or in E.
      assert (NI : forall link, JDict d <> JDict [("$import", JStr link)]) by (intros link X; injection X as X; exact (N _ X)).
      destruct (dget "name" d) as [nm0|] eqn:G.
      + destruct nm0; try discriminate; injection E as <-; apply Adds_one; intros p v; split.
        * intros X. inversion X; subst; [destruct (NI _ H)|injection H as <-; congruence|auto].
        * intros [-> ->]. eapply Os_nameless; [reflexivity|right; auto|auto].
        * intros X. inversion X; subst; [destruct (NI _ H)| |injection H as <-; destruct H0; congruence].
          injection H as <-. rewrite G in H0. injection H0 as <-. auto.
        * intros [-> ->]. eapply Os_here; eauto.
      + injection E as <-; apply Adds_one; intros p v; split.
        * intros X. inversion X; subst; [destruct (NI _ H)|injection H as <-; congruence|auto].
        * intros [-> ->]. eapply Os_nameless; [reflexivity|left; auto|auto].
  Qed.

  Notation Required := (Required url_scheme url_path urljoin read_text urlopen parse_yaml).
  (** what one imported requirement adds *)
  Definition OfRequirement (base : string) (x : json) (p : string) (v : json) : Prop :=
    exists d link r u ts n, x = JDict d /\ dget "$import" d = Some (JStr link) /\ Contents base link (JDict r) u /\
      SchemaDef (JDict r) /\ dget "types" r = Some (JList ts) /\ Defined ts n v /\ p = (u ++ "#" ++ n)%string.
  Lemma import_requirement_adds fuel base t x x' t' :
    import_requirement url_scheme url_path urljoin read_text urlopen parse_yaml fuel base t x = Ok (x', t') ->
    Required base x x' /\ Adds (OfRequirement base x) t t'.
  Proof.
    intros E. unfold import_requirement in E.
    assert (NO : (forall d, x = JDict d -> dget "$import" d = None) -> Adds (OfRequirement base x) t t).
    { intros H. apply Adds_none. intros p v (d & link & r & u & ts & n & -> & G & _). rewrite (H d eq_refl) in G. discriminate. }
    destruct x as [| | | | | |d]; try (inv_ok; split; [apply Rq_same; discriminate|apply NO; discriminate]).
    destruct (dget "$import" d) as [link|] eqn:G.
    2:{ inv_ok. assert (H : forall d0, JDict d = JDict d0 -> dget "$import" d0 = None) by (intros d0 X; injection X as <-; auto).
        split; [apply Rq_same; auto|apply NO; auto]. }
    inv_ok. destruct link; try discriminate. match goal with H : as_link _ = Ok _ |- _ => cbn in H; inv_ok end.
    match goal with H : load _ _ _ _ = Ok (?j, ?s) |- _ => apply load_Contents in H; rename j into c; rename s into u; rename H into C end.
    unfold json_item in *. destruct c as [| | | | | |r]; try discriminate.
    match goal with H : item "class" r = Ok ?a |- _ => unfold item in H; destruct (dget "class" r) as [cl|] eqn:GC; [|discriminate]; injection H as <- end.
    destruct (is_str "SchemaDefRequirement" cl) eqn:CS.
    - apply is_str_spec in CS. subst cl. inv_ok. unfold item in *. destruct (dget "types" r) as [ts|] eqn:GT; [|discriminate].
      match goal with H : Ok ts = Ok _ |- _ => injection H as <- end.
      assert (SD : SchemaDef (JDict r)) by (exists r; auto). split; [eapply Rq_import; eauto|].
      match goal with H : add_types _ _ _ = Ok _ |- _ => apply add_types_list in H; eapply Adds_iff; [|exact H] end. intros p v. split.
      + intros (l & -> & n & DF & ->). exists d. do 5 eexists. split; [reflexivity|]. split; [exact G|]. split; [exact C|]. split; [exact SD|]. split; [exact GT|]. split; [exact DF|reflexivity].
      + intros (d' & link & r' & u' & ts' & n & X & G' & C' & _ & GT' & DF & ->). injection X as <-. rewrite G in G'. injection G' as <-.
        destruct (Contents_fun _ _ _ _ _ _ C C') as [X ->]. injection X as ->. rewrite GT in GT'. injection GT' as ->.
        eexists. split; [reflexivity|]. exists n. auto.
    - assert (SD : ~ SchemaDef (JDict r)). { intros (r' & X & GC'). injection X as <-. rewrite GC in GC'. injection GC' as ->. cbn in CS. discriminate. }
      inv_ok. split; [eapply Rq_other; eauto|]. apply Adds_none.
      intros p v (d' & link & r' & u' & ts' & n & X & G' & C' & SD' & _). injection X as <-. rewrite G in G'. injection G' as <-.
      destruct (Contents_fun _ _ _ _ _ _ C C') as [X ->]. injection X as ->. contradiction.
  Qed.

  Lemma SchemaDef_dec r : {SchemaDef r} + {~ SchemaDef r}.
  Proof.
    destruct r as [| | | | | |d]; try (right; intros (d & X & _); discriminate).
    destruct (get_is "class" "SchemaDefRequirement" d) eqn:G.
    - left. exists d. split; auto. apply get_is_spec. auto.
    - right. intros (d' & X & G'). injection X as <-. apply get_is_false in G. contradiction.
  Qed.

  Lemma find_schemadef_spec l d : find_schemadef l = Ok d ->
    FirstSchemaDef l d \/ (d = [] /\ forall d', ~ FirstSchemaDef l d').
  Proof.
    revert d. induction l as [|x l IH]; intros d E; cbn in E.
    - injection E as <-. right. split; auto. intros d' (l1 & l2 & X & _). destruct l1; discriminate.
    - destruct x as [| | | | | |r]; try discriminate. destruct (get_is "class" "SchemaDefRequirement" r) eqn:G.
      + injection E as <-. left. exists [], l. split; auto. split; [apply get_is_spec; auto|constructor].
      + assert (N : ~ SchemaDef (JDict r)). { intros (d' & X & G'). injection X as <-. apply get_is_false in G. contradiction. }
        destruct (IH _ E) as [(l1 & l2 & -> & C & F)|[-> H]].
        * left. exists (JDict r :: l1), l2. split; auto.
        * right. split; auto. intros d' (l1 & l2 & X & C & F). destruct l1 as [|y l1]; cbn in X; injection X as <- X.
          -- apply N. exists r. auto.
          -- apply (H d'). exists l1, l2. apply Forall_cons_iff in F. tauto.
  Qed.
  Lemma FirstSchemaDef_fun l d d' : FirstSchemaDef l d -> FirstSchemaDef l d' -> d' = d.
  Proof.
    intros (l1 & l2 & -> & C & F) (m1 & m2 & X & C' & F').
    revert m1 X F'. induction l1 as [|x l1 IH]; intros m1 X F'.
    - destruct m1 as [|y m1]; cbn in X; [congruence|]. injection X as <- X. apply Forall_cons_iff in F'. destruct F' as [F' _]. destruct F'. exists d. auto.
    - apply Forall_cons_iff in F. destruct F as [F1 F]. destruct m1 as [|y m1]; cbn in X; injection X as X1 X.
      + subst x. destruct F1. exists d'. auto.
      + apply Forall_cons_iff in F'. destruct F'. eauto.
  Qed.

  Notation Declared := (Declared url_scheme url_path urljoin read_text urlopen parse_yaml).
  Notation Table := (Table url_scheme url_path urljoin read_text urlopen parse_yaml).

  Lemma schemadefs_table fuel d base parent d' udt l : dget "requirements" d = Some (JList l) -> NoDup (dkeys parent) ->
    schemadefs fuel d base parent = Ok (d', udt) ->
    NoDup (dkeys udt) /\ exists l' keep, Forall2 (Required base) l l' /\
      Table base (fun p => dget p parent) (fun p => dget p udt) l l' /\ Without SchemaDef l' keep /\
      dget "requirements" d' = Some (JList keep) /\ forall k, k <> "requirements" -> dget k d' = dget k d.
  Proof.
    intros G NP E. unfold load_schemadefs in E. apply bind_Ok in E. destruct E as ([d1 t2] & EB & E).
    apply bind_Ok in E. destruct E as (reqs & ER & E). apply bind_Ok in E. destruct E as (keep & EK & E). injection E as <- <-.
    unfold build_user_defined_type_dict in EB. unfold get_or at 1 in EB. rewrite G in EB. cbn [iter bind] in EB.
    apply bind_Ok in EB. destruct EB as ([l' t1] & EF & EB). apply bind_Ok in EB. destruct EB as (sd & FS & EB).
    assert (X : d1 = dset "requirements" (JList l') d /\ exists ts, (dget "types" sd = Some (JList ts) \/ (dget "types" sd = None /\ ts = [])) /\
              foldM (addsch fuel base) ts t1 = Ok t2).
    { unfold get_or in EB. destruct (dget "types" sd) as [tj|] eqn:GT.
      - destruct tj; try discriminate. apply bind_Ok in EB. destruct EB as (u & ET & EB). injection EB as <- <-. eauto.
      - apply bind_Ok in EB. destruct EB as (u & ET & EB). injection EB as <- <-. split; auto. exists []. auto. }
    destruct X as (-> & ts & GT & ET).
    unfold get_or in ER. rewrite dget_dset_same in ER. cbn in ER. injection ER as <-.
    assert (A1 : Forall2 (Required base) l l' /\ Adds (fun p v => exists x, In x l /\ OfRequirement base x p v) [] t1).
    { assert (X : forall l done t done' t', foldM (fun (acc : list json * list (string * json)) (entry : json) => let '(done, udt) := acc in
               do ' (entry', udt0) <- import_requirement url_scheme url_path urljoin read_text urlopen parse_yaml fuel base udt entry;
               Ok (done ++ [entry'], udt0)) l (done, t) = Ok (done', t') ->
          exists more, done' = done ++ more /\ Forall2 (Required base) l more /\ Adds (fun p v => exists x, In x l /\ OfRequirement base x p v) t t').
      { clear - no_file_scheme. induction l as [|x l IH]; intros done t done' t' E; cbn [foldM] in E.
        - injection E as <- <-. exists []. rewrite app_nil_r. split; auto. split; [constructor|]. apply Adds_none. intros p v (x & [] & _).
        - apply bind_Ok in E. destruct E as ([done1 t1] & E1 & E). apply bind_Ok in E1. destruct E1 as ([x' t1'] & E1 & E2). injection E2 as <- <-.
          destruct (import_requirement_adds _ _ _ _ _ _ E1) as [R A]. destruct (IH _ _ _ _ E) as (more & -> & F & A2).
          exists (x' :: more). rewrite <- app_assoc. split; auto. split; [constructor; auto|].
          eapply Adds_trans; [exact A|exact A2|]. intros p v. split.
          + intros (y & [<-|I] & Y); eauto.
          + intros [Y|(y & I & Y)]; [exists x|exists y]; cbn; auto. }
      destruct (X _ _ _ _ _ EF) as (more & -> & F & A). auto. }
    destruct A1 as [F A1].
    assert (A2 : Adds (fun p v => exists x, In x ts /\ OfSchema base x p v) t1 t2).
    { eapply foldM_adds; [|exact ET]. intros x u u' _ X. eapply add_schema_adds; eauto. }
    pose proof (Adds_trans _ _ (fun p v => (exists x, In x l /\ OfRequirement base x p v) \/ (exists x, In x ts /\ OfSchema base x p v)) _ _ _ A1 A2 ltac:(tauto)) as A.
    assert (DEC : forall p v, ((exists x, In x l /\ OfRequirement base x p v) \/ (exists x, In x ts /\ OfSchema base x p v)) <-> Declared base l l' p v).
    { intros p v. split.
      - intros [(x & I & d0 & link & r & u & ts0 & n & -> & G0 & C0 & S0 & T0 & D0 & ->)|(x & I & O)].
        + eapply De_required; eauto.
        + destruct (find_schemadef_spec _ _ FS) as [FS'|[-> _]].
          2:{ destruct GT as [GT|[_ ->]]; [discriminate|destruct I]. }
          destruct GT as [GT|[_ ->]]; [|destruct I].
          inversion O; subst.
          * eapply De_imported; eauto.
          * eapply De_here; eauto. eexists. split; [reflexivity|]. auto.
          * eapply De_nameless; eauto.
      - intros X. inversion X; subst.
        + left. eexists. split; [eassumption|]. unfold OfRequirement. exists d0, link, r, u, ts0, n. auto 10.
        + right. destruct (find_schemadef_spec _ _ FS) as [FS'|[_ H']]; [|destruct (H' _ H)].
          rewrite (FirstSchemaDef_fun _ _ _ FS' H) in *. destruct GT as [GT|[GT ->]]; [|congruence]. assert (ts0 = ts) by congruence. subst ts0.
          eexists. split; [eassumption|]. eapply Os_import; eauto.
        + right. destruct (find_schemadef_spec _ _ FS) as [FS'|[_ H']]; [|destruct (H' _ H)].
          rewrite (FirstSchemaDef_fun _ _ _ FS' H) in *. destruct GT as [GT|[GT ->]]; [|congruence]. assert (ts0 = ts) by congruence. subst ts0.
          destruct H1 as (d1 & -> & I & N). eexists. split; [eassumption|]. eapply Os_here; eauto.
        + right. destruct (find_schemadef_spec _ _ FS) as [FS'|[_ H']]; [|destruct (H' _ H)].
          rewrite (FirstSchemaDef_fun _ _ _ FS' H) in *. destruct GT as [GT|[GT ->]]; [|congruence]. assert (ts0 = ts) by congruence. subst ts0.
          eexists. split; [eassumption|]. eapply Os_nameless; eauto. }
    apply (Adds_iff _ _ _ _ DEC) in A.
    split; [apply NoDup_dupdate, (ad_nodup _ _ _ A); constructor|].
    eexists l', _. split; [exact F|]. split.
    { constructor.
      - intros p v X. rewrite dget_dupdate by auto. rewrite X. reflexivity.
      - intros p v X. rewrite dget_dupdate in X by auto. destruct (dget p parent); [left; auto|]. right.
        destruct (ad_sound _ _ _ A _ _ X) as [Y|Y]; [discriminate|auto].
      - intros p v X. rewrite dget_dupdate by auto. destruct (dget p parent); [discriminate|]. eapply (ad_complete _ _ _ A); eauto. }
    split; [|split; [apply dget_dset_same|]].
    - revert keep EK. clear.
      induction l' as [|x l' IH]; intros k E; cbn in E; inv_ok; [constructor|].
      destruct x as [| | | | | |r]; try discriminate. inv_ok. cbn [combine filter snd]. destruct (get_is "class" "SchemaDefRequirement" r) eqn:GC; cbn [negb map fst].
      + apply Wo_drop; auto. exists r. split; auto. apply get_is_spec. auto.
      + apply Wo_keep; auto. intros (r' & X & Y). injection X as <-. apply get_is_false in GC. contradiction.
    - intros k N. rewrite !dget_dset_other by auto. reflexivity.
  Qed.
End World.
