(** * Proofs about packing twice *)
From Verif Require Import PyBase PyBaseProofs UtilsModel PackModel PackSpec PackProofs PackTreeProofs PackStepProofs PackNameProofs AgainSpec.

Lemma dset_id {V} k (v : V) d : dget k d = Some v -> dset k v d = d.
Proof.
  induction d as [|[k' v'] d IH]; cbn; [discriminate|]. destruct (String.eqb_spec k k') as [->|N].
  - intros H. injection H as ->. reflexivity.
  - intros H. rewrite (IH H). reflexivity.
Qed.

(** ** links *)
Lemma LinkFree_list l : LinkFree (JList l) -> Forall LinkFree l.
Proof.
  intros H. apply Forall_forall. intros x I d [->|D]; apply H; right; [constructor; auto|].
  eapply In_deeper; [exact D|constructor; auto].
Qed.
Lemma LinkFree_entry k v d : LinkFree (JDict d) -> In (k, v) d -> LinkFree v.
Proof.
  intros H I d' [->|D]; apply H; right; [econstructor; eauto|]. eapply In_deeper; [exact D|econstructor; eauto].
Qed.
Lemma LinkFree_dget k v d : LinkFree (JDict d) -> dget k d = Some v -> LinkFree v.
Proof. intros H G. eapply LinkFree_entry; [exact H|]. apply dget_In. exact G. Qed.
Lemma LinkFree_keys d : LinkFree (JDict d) -> dget "$import" d = None /\ dget "$include" d = None.
Proof. intros H. apply H. left. reflexivity. Qed.
Lemma LinkFree_import_of j : LinkFree j -> import_of j = None.
Proof.
  intros H. apply import_of_none. intros (k & link & -> & K). destruct (LinkFree_keys _ H) as [A B]. cbn in A, B.
  destruct K; subst; discriminate.
Qed.
Lemma LinkFree_run d st run : LinkFree (JDict d) -> step_of d st -> runs st run -> LinkFree (JDict run).
Proof.
  intros H (l & L & I) R. eapply LinkFree_dget; [|exact R]. pose proof (LinkFree_dget _ _ _ H L) as HL.
  apply LinkFree_list in HL. rewrite Forall_forall in HL. auto.
Qed.

(** ** computations that give back what they are given *)
Lemma mapM_id {A} (f : A -> result A) l : Forall (fun x => f x = Ok x) l -> mapM f l = Ok l.
Proof. induction 1 as [|x l H F IH]; cbn; [reflexivity|]. rewrite H. cbn. rewrite IH. reflexivity. Qed.
Lemma mmap_id {A} (f : A -> M A) l : Forall (fun x => forall s, exists s', f x s = Ok (x, s')) l ->
  forall s, exists s', mmap f l s = Ok (l, s').
Proof.
  induction 1 as [|x l H F IH]; intros s; cbn; [eexists; reflexivity|].
  destruct (H s) as [s1 E1]. destruct (IH s1) as [s2 E2]. exists s2. unfold mbind. rewrite E1. cbn. rewrite E2. reflexivity.
Qed.
Lemma map_id_Forall {A} (f : A -> A) l : Forall (fun x => f x = x) l -> map f l = l.
Proof. induction 1 as [|x l H F IH]; cbn; congruence. Qed.

(** enough fuel for each is enough for all *)
Lemma enough {A} (P : nat -> A -> Prop) l : Forall (fun x => exists n, forall f, n <= f -> P f x) l ->
  exists n, forall f, n <= f -> Forall (P f) l.
Proof.
  induction 1 as [|x l [n H] F [m IH]]; [exists 0; constructor|].
  exists (Nat.max n m). intros f L. constructor; [apply H; lia|apply IH; lia].
Qed.

(** ** sections that are lists already *)
Lemma listify_id d : list_section "inputs" d -> list_section "outputs" d -> list_section "requirements" d ->
  (IsWorkflow d -> exists l, dget "steps" d = Some (JList l) /\ forall st, In (JDict st) l -> list_section "in" st) ->
  listify_everything d = Ok d.
Proof.
  intros [li I] [lo O] [lr R] S. unfold listify_everything.
  unfold get_or at 1. rewrite I. cbn [normalize_to_list bind]. rewrite (dset_id _ _ _ I).
  unfold get_or at 1. rewrite O. cbn [normalize_to_list bind]. rewrite (dset_id _ _ _ O).
  unfold get_or at 1. rewrite R. cbn [normalize_to_list bind]. rewrite (dset_id _ _ _ R).
  destruct (get_is "class" "Workflow" d) eqn:W; cbn [negb]; [|reflexivity].
  apply get_is_spec in W. destruct (S W) as (l & L & F). unfold get_or at 1. rewrite L. cbn [normalize_to_list bind].
  rewrite (mapM_id _ l).
  - cbn [bind]. rewrite (dset_id _ _ _ L). reflexivity.
  - apply Forall_forall. intros v J. destruct v as [| | | | | |st]; try reflexivity. destruct (F st J) as [ll LL].
    unfold get_or. rewrite LL. cbn [normalize_to_list bind]. rewrite (dset_id _ _ _ LL). reflexivity.
Qed.

(** ** sources without # *)
Lemma normalize_id s : (forall r, s <> String "#" r) -> _normalize s = s.
Proof. intros H. symmetry. apply OneHash_spec. right. auto. Qed.
Lemma normalize_entry_id key e : (forall s, EntryRef key e s -> forall r, s <> String "#" r) -> normalize_entry key e = e.
Proof.
  intros H. destruct e as [| | | |s| |d]; try reflexivity; cbn.
  - rewrite normalize_id; [reflexivity|]. apply H. left. reflexivity.
  - destruct (dget key d) as [[| | | |s| |]|] eqn:G; try reflexivity.
    rewrite normalize_id by (apply H; right; eauto). rewrite (dset_id _ _ _ G). reflexivity.
Qed.
Lemma normalize_sources_id d : (IsWorkflow d -> forall s, SourceRef d s -> forall r, s <> String "#" r) -> normalize_sources d = d.
Proof.
  intros H. unfold normalize_sources. destruct (get_is "class" "Workflow" d) eqn:W; cbn [negb]; [|reflexivity].
  apply get_is_spec in W. specialize (H W).
  assert (S : match dget "steps" d with
              | Some (JList l) => dset "steps" (JList (map normalize_step l)) d
              | _ => d
              end = d).
  { destruct (dget "steps" d) as [[| | | | |l|]|] eqn:G; try reflexivity. rewrite map_id_Forall; [apply dset_id; exact G|].
    apply Forall_forall. intros st J. destruct st as [| | | | | |st]; try reflexivity. cbn [normalize_step].
    destruct (dget "in" st) as [[| | | | |li|]|] eqn:G1; try reflexivity. rewrite map_id_Forall; [rewrite dset_id by exact G1; reflexivity|].
    apply Forall_forall. intros e Je. apply normalize_entry_id. intros s Es. apply H. left. exists st, li, e.
    split; [exists l; auto|]. auto. }
  rewrite S. destruct (dget "outputs" d) as [[| | | | |l|]|] eqn:G; try reflexivity. rewrite map_id_Forall; [apply dset_id; exact G|].
  apply Forall_forall. intros e Je. apply normalize_entry_id. intros s Es. apply H. right. exists l, e. auto.
Qed.

(** ** the requirement is not added twice *)
Lemma classes_snoc l : forall a, mapM (json_item "class") l = Ok a ->
  mapM (json_item "class") (l ++ [subworkflow_requirement]) = Ok (a ++ [JStr "SubworkflowFeatureRequirement"]).
Proof.
  induction l as [|x l IH]; intros a E; cbn [mapM app] in *; inv_ok; [reflexivity|].
  rewrite E0. cbn [bind]. rewrite (IH _ E1). reflexivity.
Qed.
Lemma add_missing_again d d' : add_missing_requirements d = Ok d' -> add_missing_requirements d' = Ok d'.
Proof.
  intros E. pose proof (add_missing_spec _ _ E) as (l & L & [[-> _]|(W & RW & NP & ->)]); [exact E|].
  unfold add_missing_requirements in *. unfold get_or at 1. rewrite dget_dset_same. rewrite L in E. inv_ok.
  rewrite (classes_snoc _ _ E0). cbn [bind].
  assert (W' : get_is "class" "Workflow" (dset "requirements" (JList (l ++ [subworkflow_requirement])) d) = true).
  { apply get_is_spec. rewrite dget_dset_other by discriminate. exact W. }
  rewrite W'. apply get_is_spec in W. rewrite W in E. inv_ok.
  unfold item in *. rewrite dget_dset_other by discriminate. rewrite E1. cbn [bind]. rewrite E2. cbn [bind]. rewrite E3. cbn [bind].
  rewrite existsb_app. cbn [existsb is_str]. rewrite String.eqb_refl, orb_true_r. cbn [orb negb]. rewrite andb_false_r. reflexivity.
Qed.

(** ** what is the same when packed again *)
Section Steady.
  Variable ver : Type.
  Variable parse_version : string -> result ver.
  Variable version_gt : ver -> ver -> bool.
  Notation dv := (dv ver parse_version).
  Notation newer := (newer ver parse_version version_gt).

  (** a step runs a process of a version known here to be no newer than [e] *)
  Definition NoNewer (run : dict) (e : json) : Prop :=
    forall rv, dget "cwlVersion" run = Some rv -> exists a b, dv rv a /\ dv e b /\ version_gt a b = false.

  Inductive Steady : json -> dict -> Prop :=
  | Steady_at e d li lo lr :
      dget "inputs" d = Some (JList li) -> Forall Inlined li ->
      dget "outputs" d = Some (JList lo) -> Forall Inlined lo ->
      dget "requirements" d = Some (JList lr) ->
      (forall r, In (JDict r) lr -> dget "class" r <> Some (JStr "SchemaDefRequirement")) ->
      add_missing_requirements d = Ok d ->
      (IsWorkflow d -> exists l, dget "steps" d = Some (JList l) /\
         forall st, In (JDict st) l -> list_section "in" st /\ dget "id" st <> None /\
           exists run, runs st run /\ Steady (get_or "cwlVersion" d e) run /\ NoNewer run (get_or "cwlVersion" d e)) ->
      Steady e d.

  Fixpoint Steady_ind' (P : json -> dict -> Prop)
    (H : forall e d li lo lr,
      dget "inputs" d = Some (JList li) -> Forall Inlined li ->
      dget "outputs" d = Some (JList lo) -> Forall Inlined lo ->
      dget "requirements" d = Some (JList lr) ->
      (forall r, In (JDict r) lr -> dget "class" r <> Some (JStr "SchemaDefRequirement")) ->
      add_missing_requirements d = Ok d ->
      (IsWorkflow d -> exists l, dget "steps" d = Some (JList l) /\
         forall st, In (JDict st) l -> list_section "in" st /\ dget "id" st <> None /\
           exists run, runs st run /\ Steady (get_or "cwlVersion" d e) run /\ P (get_or "cwlVersion" d e) run /\ NoNewer run (get_or "cwlVersion" d e)) ->
      P e d) e d (S : Steady e d) {struct S} : P e d.
  Proof.
    destruct S as [e d li lo lr I FI O FO R NS A W]. eapply H; eauto.
    intros WD. destruct (W WD) as (l & L & F). exists l. split; [exact L|]. intros st J.
    destruct (F st J) as (X1 & X2 & run & X3 & X4 & X5). split; [exact X1|]. split; [exact X2|]. exists run. split; [exact X3|]. split; [exact X4|].
    split; [|exact X5]. apply Steady_ind'; assumption.
  Defined.

  Hypothesis version_order : ordered ver version_gt.

  Lemma NoNewer_trans run e e' : NoNewer run e -> newer e' e -> NoNewer run e'.
  Proof.
    intros H (b' & b & A & B & V) rv G. destruct (H rv G) as (a & b0 & D1 & D2 & V1).
    rewrite (dv_fun _ _ _ _ _ D2 B) in V1. exists a, b'. split; [exact D1|]. split; [exact A|].
    destruct (version_gt a b') eqn:X; [|reflexivity]. destruct (proj2 version_order a b b' X) as [Y|Y]; [congruence|].
    rewrite (proj1 version_order _ _ V) in Y. discriminate Y.
  Qed.
  Lemma Steady_newer : forall e d, Steady e d -> forall e', newer e' e -> Steady e' d.
  Proof.
    apply (Steady_ind' (fun e d => forall e', newer e' e -> Steady e' d)).
    intros e d li lo lr I FI O FO R NS A W e' N. eapply Steady_at; eauto. intros WD. destruct (W WD) as (l & L & F).
    exists l. split; [exact L|]. intros st J. destruct (F st J) as (X1 & X2 & run & X3 & X4 & X5 & X6).
    split; [exact X1|]. split; [exact X2|]. exists run. split; [exact X3|]. unfold get_or in *.
    destruct (dget "cwlVersion" d); [auto|]. split; [auto|]. eapply NoNewer_trans; eauto.
  Qed.
End Steady.

(** ** packing again *)
Section Second.
  Variable url_scheme url_path : string -> string.
  Variable urljoin : string -> string -> string.
  Variable read_text urlopen : string -> result string.
  Variable parse_yaml : string -> result json.
  Variable ver : Type.
  Variable parse_version : string -> result ver.
  Variable version_gt : ver -> ver -> bool.

  Notation load := (load_linked_file url_scheme url_path urljoin read_text urlopen parse_yaml).
  Notation packp := (pack_process url_scheme url_path urljoin read_text urlopen parse_yaml ver parse_version version_gt).
  Notation imports := (resolve_imports url_scheme url_path urljoin read_text urlopen parse_yaml).
  Notation inline := (inline_type url_scheme url_path urljoin read_text urlopen parse_yaml).
  Notation inlines := (inline_types url_scheme url_path urljoin read_text urlopen parse_yaml).

  Lemma imports_id j : LinkFree j -> exists n, forall f, n <= f -> forall base, imports f j base = Ok j.
  Proof.
    induction j as [| | | | |l IH|d IH] using json_ind'; intros H;
      try (exists 1; intros f L base; destruct f; [lia|reflexivity]).
    - apply LinkFree_list in H.
      assert (F : Forall (fun x => exists n, forall f, n <= f -> LinkFree x /\ forall base, imports f x base = Ok x) l).
      { rewrite Forall_forall in *. intros x J. destruct (IH x J (H x J)) as [n E]. exists n. intros f L. split; [apply H; exact J|]. apply E. exact L. }
      destruct (enough _ _ F) as [n E]. exists (S n). intros f L base. destruct f as [|f]; [lia|].
      cbn [resolve_imports]. rewrite mapM_id; [reflexivity|]. eapply Forall_impl; [|apply (E f); lia].
      intros x [X1 X2]. cbn beta. rewrite (LinkFree_import_of _ X1). cbn [bind]. apply X2.
    - assert (F : Forall (fun kv => exists n, forall f, n <= f -> LinkFree (snd kv) /\ forall base, imports f (snd kv) base = Ok (snd kv)) d).
      { rewrite Forall_forall in *. intros [k x] J. pose proof (LinkFree_entry _ _ _ H J) as HX. destruct (IH (k, x) J HX) as [n E].
        exists n. intros f L. cbn [snd] in *. split; [exact HX|]. apply E. exact L. }
      destruct (enough _ _ F) as [n E]. exists (S n). intros f L base. destruct f as [|f]; [lia|].
      cbn [resolve_imports]. rewrite mapM_id; [reflexivity|]. eapply Forall_impl; [|apply (E f); lia].
      intros [k x] [X1 X2]. cbn [snd fst] in *. rewrite (LinkFree_import_of _ X1). cbn [bind]. rewrite X2. reflexivity.
  Qed.

  Lemma built_in_plain s : In s built_in_types -> endswith "[]" s = false /\ endswith "?" s = false /\ smem s built_in_types = true.
  Proof. intros I. cbn in I. repeat (destruct I as [<-|I]; [repeat split; reflexivity|]). destruct I. Qed.

  Definition InlineKeeps (f : nat) (j : json) : Prop :=
    forall base udt s, exists s', inline f j base udt s = Ok (j, s').

  Fixpoint Inlined_ind' (P : json -> Prop)
    (H1 : forall s, In s built_in_types -> P (JStr s))
    (H2 : forall l, Forall P l -> P (JList l))
    (H3 : forall d, dget "type" d = Some (JStr "enum") -> P (JDict d))
    (H4 : forall d i, dget "type" d = Some (JStr "array") -> dget "items" d = Some i -> P i -> P (JDict d))
    (H5 : forall d l, dget "type" d = Some (JStr "record") -> dget "fields" d = Some (JList l) -> Forall P l -> P (JDict d))
    (H6 : forall d t, dget "type" d = Some t -> Inlined t -> P t -> P (JDict d))
    j (I : Inlined j) {struct I} : P j.
  Proof.
    set (IH := Inlined_ind' P H1 H2 H3 H4 H5 H6).
    destruct I as [s B|l F|d T|d i T G I|d l T G F|d t T I].
    - exact (H1 s B).
    - apply H2. induction F; constructor; auto.
    - exact (H3 d T).
    - exact (H4 d i T G (IH i I)).
    - apply (H5 d l T G). clear T G. induction F; constructor; auto.
    - exact (H6 d t T I (IH t I)).
  Defined.

  Lemma inline_id j : Inlined j -> LinkFree j -> exists n, forall f, n <= f -> InlineKeeps f j.
  Proof.
    intros X0. induction X0 as [s B|l IH|d T|d i T G IH|d l T G IH|d t T I IH] using Inlined_ind'; intros H.
    - destruct (built_in_plain s B) as (A1 & A2 & A3). exists 1. intros f L base udt s0. destruct f as [|f]; [lia|].
      cbn [inline_type]. unfold mbind, tick. cbn [bind]. rewrite A1, A2, A3. eexists. reflexivity.
    - apply LinkFree_list in H.
      assert (F : Forall (fun x => exists n, forall f, n <= f -> InlineKeeps f x) l).
      { rewrite Forall_forall in *. intros x J. apply IH; auto. }
      destruct (enough _ _ F) as [n E]. exists (S n). intros f L base udt s0. destruct f as [|f]; [lia|].
      cbn [inline_type]. unfold mbind at 1, tick. cbn [bind]. specialize (E f ltac:(lia)).
      match goal with |- context [mbind (mmap ?g l) _ ?cur] => destruct (mmap_id g l) with (s := cur) as [s' ES] end.
      { eapply Forall_impl; [|exact E]. intros x X s1. apply X. }
      unfold mbind. rewrite ES. cbn [bind]. eexists. reflexivity.
    - exists 1. intros f L base udt s0. destruct f as [|f]; [lia|]. cbn [inline_type]. unfold mbind, tick. cbn [bind].
      unfold get_or. rewrite (proj1 (LinkFree_keys _ H)), T. cbn [is_str]. rewrite String.eqb_refl. eexists. reflexivity.
    - destruct (IH (LinkFree_dget _ _ _ H G)) as [n E]. exists (S n). intros f L base udt s0. destruct f as [|f]; [lia|].
      cbn [inline_type]. unfold mbind at 1, tick. cbn [bind].
      unfold get_or. rewrite (proj1 (LinkFree_keys _ H)), T. cbn [is_str String.eqb Ascii.eqb Bool.eqb]. rewrite G.
      match goal with |- context [mbind (inline f i base udt) _ ?s] => destruct (E f ltac:(lia) base udt s) as [s' ES] end.
      unfold mbind. rewrite ES. cbn [bind]. rewrite (dset_id _ _ _ G). eexists. reflexivity.
    - pose proof (LinkFree_dget _ _ _ H G) as HL. apply LinkFree_list in HL.
      assert (F : Forall (fun x => exists n, forall f, n <= f -> InlineKeeps f x) l).
      { rewrite Forall_forall in *. intros x J. apply IH; auto. }
      destruct (enough _ _ F) as [n E]. exists (S n). intros f L base udt s0. destruct f as [|f]; [lia|].
      cbn [inline_type]. unfold mbind at 1, tick. cbn [bind]. specialize (E f ltac:(lia)).
      unfold get_or. rewrite (proj1 (LinkFree_keys _ H)), T. cbn [is_str String.eqb Ascii.eqb Bool.eqb]. rewrite G.
      unfold mbind at 1, lift. cbn [normalize_to_list bind].
      match goal with |- context [mbind (mmap ?g l) _ ?cur] => destruct (mmap_id g l) with (s := cur) as [s' ES] end.
      { eapply Forall_impl; [|exact E]. intros x X s1. apply X. }
      unfold mbind. rewrite ES. cbn [bind]. rewrite (dset_id _ _ _ G). eexists. reflexivity.
    - destruct (IH (LinkFree_dget _ _ _ H T)) as [n E]. exists (S n). intros f L base udt s0. destruct f as [|f]; [lia|].
      cbn [inline_type]. unfold mbind at 1, tick. cbn [bind].
      unfold get_or. rewrite (proj1 (LinkFree_keys _ H)), T.
      assert (R : forall s1, exists s', mbind (inline f t base udt) (fun t' => ret (JDict (dset "type" t' d))) s1 = Ok (JDict d, s')).
      { intros s1. destruct (E f ltac:(lia) base udt s1) as [s' ES]. unfold mbind. rewrite ES. cbn [bind].
        rewrite (dset_id _ _ _ T). eexists. reflexivity. }
      inversion I as [s B X|l F X|d' T' X|d' i T' G' I' X|d' l T' G' F' X|d' t' T' I' X]; subst t; cbn [is_str]; try apply R.
      destruct (built_in_plain s B) as (_ & _ & A3).
      assert (N : String.eqb s "enum" = false /\ String.eqb s "array" = false /\ String.eqb s "record" = false).
      { clear - B. cbn in B. repeat (destruct B as [<-|B]; [repeat split; reflexivity|]). destruct B. }
      destruct N as (N1 & N2 & N3). rewrite N1, N2, N3, A3. eexists. reflexivity.
  Qed.

  Lemma inlines_id port d l : dget port d = Some (JList l) -> Forall Inlined l -> LinkFree (JDict d) ->
    (forall q, l = [JDict q] -> exists id, dget "id" q = Some id /\ id <> JStr "$import") ->
    exists n, forall f, n <= f -> forall base udt s, exists s', inlines f d port base udt s = Ok (d, s').
  Proof.
    intros G F H Q. pose proof (LinkFree_dget _ _ _ H G) as HL. apply LinkFree_list in HL.
    assert (FE : Forall (fun x => exists n, forall f, n <= f -> InlineKeeps f x) l).
    { rewrite Forall_forall in *. intros x J. apply inline_id; auto. }
    destruct (enough _ _ FE) as [n E]. exists n. intros f L base udt s. specialize (E f L).
    unfold inline_types, mbind at 1, lift at 1, item. rewrite G. cbn [bind].
    assert (W : match JList l with
                | JList [JDict p] => do id <- match dget "id" p with Some v => Ok v | None => Err KeyError end; Ok (is_str "$import" id)
                | _ => Ok false
                end = Ok false).
    { destruct l as [|x l]; [reflexivity|]. destruct x as [| | | | | |q]; try reflexivity. destruct l; [|reflexivity].
      destruct (Q q eq_refl) as (id & D & N). rewrite D. cbn [bind]. destruct (is_str "$import" id) eqn:X; [|reflexivity].
      apply is_str_spec in X. contradiction. }
    unfold mbind at 1, lift at 1. rewrite W. cbn [bind]. unfold mbind at 1, lift at 1. cbn [bind].
    unfold mbind at 1, lift at 1. cbn [iter bind].
    match goal with |- context [mbind (mmap ?g l) _ ?cur] => destruct (mmap_id g l) with (s := cur) as [s' ES] end.
    { eapply Forall_impl; [|exact E]. intros x X s1. apply X. }
    unfold mbind. rewrite ES. cbn [bind]. rewrite (dset_id _ _ _ G). eexists. reflexivity.
  Qed.
  Opaque inline_types.

  Lemma schemadefs_id d l f base parent : dget "requirements" d = Some (JList l) -> LinkFree (JDict d) ->
    (forall r, In (JDict r) l -> dget "class" r <> Some (JStr "SchemaDefRequirement")) ->
    (forall x, In x l -> exists r, x = JDict r) ->
    load_schemadefs url_scheme url_path urljoin read_text urlopen parse_yaml f d base parent = Ok (d, dupdate [] parent).
  Proof.
    intros G H NS AD. pose proof (LinkFree_dget _ _ _ H G) as HL. apply LinkFree_list in HL. rewrite Forall_forall in HL.
    assert (FM : forall done, foldM (fun acc entry =>
               let '(done, udt) := acc in
               do ' (entry', udt) <- import_requirement url_scheme url_path urljoin read_text urlopen parse_yaml f base udt entry;
               Ok (done ++ [entry'], udt)) l (done, []) = Ok (done ++ l, [])).
    { clear G NS. induction l as [|x l IH]; intros done; cbn [foldM]; [rewrite app_nil_r; reflexivity|].
      destruct (AD x (or_introl eq_refl)) as [r ->]. cbn [import_requirement].
      rewrite (proj1 (LinkFree_keys _ (HL _ (or_introl eq_refl)))). cbn [bind].
      rewrite IH; [rewrite <- app_assoc; reflexivity| |]; intros; [apply AD|apply HL]; right; assumption. }
    assert (FS : find_schemadef l = Ok []).
    { clear G HL FM. induction l as [|x l IH]; [reflexivity|]. destruct (AD x (or_introl eq_refl)) as [r ->]. cbn [find_schemadef].
      destruct (get_is "class" "SchemaDefRequirement" r) eqn:X; [apply get_is_spec in X; destruct (NS r (or_introl eq_refl) X)|].
      apply IH; intros; [apply NS|apply AD]; right; assumption. }
    assert (FK : mapM (fun r => match r with
                              | JDict d => Ok (negb (get_is "class" "SchemaDefRequirement" d))
                              | _ => Err AttributeError
                              end) l = Ok (map (fun _ => true) l)).
    { clear G HL FM FS. induction l as [|x l IH]; [reflexivity|]. destruct (AD x (or_introl eq_refl)) as [r ->]. cbn [mapM map].
      destruct (get_is "class" "SchemaDefRequirement" r) eqn:X; [apply get_is_spec in X; destruct (NS r (or_introl eq_refl) X)|].
      cbn [bind negb]. rewrite IH; [reflexivity| |]; intros; [apply NS|apply AD]; right; assumption. }
    assert (FF : map fst (filter snd (combine l (map (fun _ => true) l))) = l).
    { clear. induction l as [|x l IH]; cbn; congruence. }
    unfold load_schemadefs, build_user_defined_type_dict. unfold get_or at 1. rewrite G. cbn [iter bind].
    rewrite FM. cbn [app bind]. rewrite FS. cbn [bind]. rewrite (dset_id _ _ _ G).
    unfold get_or at 1. cbn [dget foldM bind]. unfold get_or. rewrite G. cbn [iter bind]. rewrite FK. cbn [bind]. rewrite FF.
    rewrite (dset_id _ _ _ G). reflexivity.
  Qed.

  Lemma requirements_are_dicts d l : dget "requirements" d = Some (JList l) -> add_missing_requirements d = Ok d ->
    forall x, In x l -> exists r, x = JDict r.
  Proof.
    intros G E. unfold add_missing_requirements in E. unfold get_or in E. rewrite G in E. inv_ok. clear - E0.
    revert a E0. induction l as [|y l IH]; intros a E x J; [destruct J|]. cbn [mapM] in E. inv_ok. destruct J as [<-|J].
    - destruct y; try discriminate. eauto.
    - eapply IH; eauto.
  Qed.

  Lemma raise_id d e run : NoNewer ver parse_version version_gt run (get_or "cwlVersion" d e) ->
    raise_version ver parse_version version_gt d e run = Ok d.
  Proof.
    intros N. unfold raise_version. destruct (dget "cwlVersion" run) as [rv|] eqn:G; [|reflexivity].
    destruct (N rv G) as (a & b & (s & -> & A) & (t & T & B) & V). rewrite T. cbn [as_text bind]. rewrite B. cbn [bind]. rewrite A. cbn [bind].
    rewrite V. reflexivity.
  Qed.

  Notation stepl := (resolve_step_list url_scheme url_path urljoin read_text urlopen parse_yaml ver parse_version version_gt).

  (** the steps of a document stay the same when the processes they run do *)
  Lemma steps_id pk f base e udt d l :
    (forall st, In (JDict st) l -> dget "id" st <> None /\
       exists run, runs st run /\ NoNewer ver parse_version version_gt run (get_or "cwlVersion" d e) /\
         forall s, exists s', pk (JDict run) base (get_or "cwlVersion" d e) udt s = Ok (run, s')) ->
    forall s, exists s', stepl pk f base e udt d l s = Ok ((d, l), s').
  Proof.
    induction l as [|v l IH]; intros H s; cbn [resolve_step_list]; [eexists; reflexivity|].
    assert (V : exists s1, resolve_step url_scheme url_path urljoin read_text urlopen parse_yaml ver parse_version version_gt pk f base e udt d v s = Ok ((d, v), s1)).
    { destruct v as [| | | | | |st]; try (eexists; reflexivity).
      destruct (H st (or_introl eq_refl)) as (ID & run & R & NN & K). unfold resolve_step.
      unfold mbind at 1, lift at 1, item. destruct (dget "id" st) as [id|]; [|congruence]. cbn [bind].
      unfold runs in R. rewrite R. destruct (K s) as [s1 E1]. unfold mbind. rewrite E1. cbn [bind]. unfold lift. rewrite (raise_id _ _ _ NN).
      cbn [bind]. rewrite (dset_id _ _ _ R). eexists. reflexivity. }
    destruct V as [s1 E1]. destruct (IH (fun st J => H st (or_intror J)) s1) as [s2 E2].
    unfold mbind. rewrite E1. cbn [bind]. rewrite E2. cbn [bind]. eexists. reflexivity.
  Qed.

  Lemma pack_again : forall e d, Steady ver parse_version version_gt e d -> LinkFree (JDict d) -> PlainSources d -> NamedPorts d ->
    exists n, forall f, n <= f -> forall base udt s, exists s', packp f (JDict d) base e udt s = Ok (d, s').
  Proof.
    apply (Steady_ind' ver parse_version version_gt (fun e d => LinkFree (JDict d) -> PlainSources d -> NamedPorts d ->
      exists n, forall f, n <= f -> forall base udt s, exists s', packp f (JDict d) base e udt s = Ok (d, s'))).
    intros e d li lo lr I FI O FO R NS A W LF PS NP.
    assert (SL : IsWorkflow d -> exists l, dget "steps" d = Some (JList l) /\ forall st, In (JDict st) l -> list_section "in" st).
    { intros WD. destruct (W WD) as (l & L & F). exists l. split; [exact L|]. intros st J. apply (F st J). }
    destruct (inlines_id "inputs" d li I FI LF) as [n1 E1].
    { intros q ->. eapply (NP d "inputs"); [constructor|left; reflexivity|exact I]. }
    destruct (inlines_id "outputs" d lo O FO LF) as [n2 E2].
    { intros q ->. eapply (NP d "outputs"); [constructor|right; reflexivity|exact O]. }
    destruct (imports_id _ LF) as [n3 E3].
    assert (ST : exists n, forall f, n <= f -> forall base udt s, exists s',
      resolve_steps url_scheme url_path urljoin read_text urlopen parse_yaml ver parse_version version_gt (packp f)
         f d base (get_or "cwlVersion" d e) udt s = Ok (d, s')).
    { unfold resolve_steps. destruct (get_is "class" "Workflow" d) eqn:WC; cbn [negb]; [|exists 0; intros; eexists; reflexivity].
      apply get_is_spec in WC. destruct (W WC) as (l & L & F).
      assert (FA : Forall (fun v => exists n, forall f, n <= f -> forall st, v = JDict st -> exists run, runs st run /\
         NoNewer ver parse_version version_gt run (get_or "cwlVersion" d e) /\
         forall base udt s, exists s', packp f (JDict run) base (get_or "cwlVersion" d e) udt s = Ok (run, s')) l).
      { apply Forall_forall. intros v J.
        assert (DD : (exists st, v = JDict st) \/ forall st, v <> JDict st) by (destruct v; eauto; right; discriminate).
        destruct DD as [[st ->]|N]; [|exists 0; intros f Lf st X; destruct (N st X)].
        destruct (F st J) as (X1 & X2 & run & X3 & X4 & X5 & X6).
        assert (SO : step_of d st) by (exists l; auto).
        destruct X5 as [n E].
        - exact (LinkFree_run _ _ _ LF SO X3).
        - intros p s N. apply PS. eapply N_step; eauto.
        - intros p k q N. apply NP. eapply N_step; eauto.
        - exists n. intros f Lf st' X. injection X as <-. exists run. auto. }
      destruct (enough _ _ FA) as [n E]. exists n. intros f Lf base udt s. specialize (E f Lf). rewrite Forall_forall in E.
      unfold mbind at 1, lift at 1, item. rewrite L. cbn [bind]. unfold mbind at 1, lift at 1. cbn [iter bind].
      assert (GG : get_or "cwlVersion" d (get_or "cwlVersion" d e) = get_or "cwlVersion" d e).
      { unfold get_or. destruct (dget "cwlVersion" d); reflexivity. }
      destruct (steps_id (packp f) f base (get_or "cwlVersion" d e) udt d l) with (s := s) as [s' ES].
      { intros st J. split; [apply (F st J)|]. destruct (E _ J st eq_refl) as (run & X1 & X2 & X3). exists run. rewrite GG. auto. }
      unfold mbind. rewrite ES. cbn [bind]. rewrite (dset_id _ _ _ L). eexists. reflexivity. }
    destruct ST as [n4 E4].
    exists (S (n1 + n2 + n3 + n4)). intros f Lf base udt s. destruct f as [|f]; [lia|]. cbn [pack_process].
    unfold mbind at 1, lift at 1. rewrite (listify_id d); [|eexists; eauto|eexists; eauto|eexists; eauto|exact SL]. cbn [bind].
    rewrite (normalize_sources_id d); [|intros _ s0 SR; exact (PS d s0 (N_self d) SR)].
    unfold mbind at 1, lift at 1. rewrite (schemadefs_id d lr); [|exact R|exact LF|exact NS|exact (requirements_are_dicts _ _ R A)]. cbn [bind].
    unfold resolve_schemadefs.
    destruct (E1 f ltac:(lia) base (dupdate [] udt) s) as [s1 X1].
    destruct (E2 f ltac:(lia) base (dupdate [] udt) s1) as [s2 X2].
    unfold mbind at 1. unfold mbind at 1. rewrite X1. cbn [bind]. rewrite X2. cbn [bind].
    unfold mbind at 1, lift at 1. rewrite (E3 f ltac:(lia)). cbn [bind].
    destruct (E4 f ltac:(lia) base (dupdate [] udt) s2) as [s3 X3]. unfold mbind at 1. rewrite X3. cbn [bind].
    unfold lift. rewrite A. cbn [bind]. eexists. reflexivity.
  Qed.
End Second.

(** ** packing the first time *)
Section First.
  Variable url_scheme url_path : string -> string.
  Variable urljoin : string -> string -> string.
  Variable read_text urlopen : string -> result string.
  Variable parse_yaml : string -> result json.
  Variable ver : Type.
  Variable parse_version : string -> result ver.
  Variable version_gt : ver -> ver -> bool.

  Notation load := (load_linked_file url_scheme url_path urljoin read_text urlopen parse_yaml).
  Notation packp := (pack_process url_scheme url_path urljoin read_text urlopen parse_yaml ver parse_version version_gt).
  Notation imports := (resolve_imports url_scheme url_path urljoin read_text urlopen parse_yaml).
  Notation stepl := (resolve_step_list url_scheme url_path urljoin read_text urlopen parse_yaml ver parse_version version_gt).
  Notation Steady := (Steady ver parse_version version_gt).
  Notation NoNewer := (NoNewer ver parse_version version_gt).
  Notation newer := (newer ver parse_version version_gt).
  Hypothesis files_text : forall t j, parse_yaml t = Ok j -> TextClasses j.
  Hypothesis version_order : ordered ver version_gt.

  Lemma newer_trans a b c : newer a b -> newer b c -> newer a c.
  Proof.
    intros (x & y & A1 & A2 & A3) (y' & z & B1 & B2 & B3). rewrite (dv_fun _ _ _ _ _ B1 A2) in B3.
    exists x, z. split; [exact A1|]. split; [exact B2|]. destruct (proj2 version_order x z y A3) as [H|H]; [exact H|].
    rewrite (proj1 version_order _ _ B3) in H. discriminate H.
  Qed.

  (** raising the version leaves a version no older *)
  Lemma raise_newer cwl cv run cwl1 : raise_version ver parse_version version_gt cwl cv run = Ok cwl1 ->
    (get_or "cwlVersion" cwl1 cv = get_or "cwlVersion" cwl cv \/ newer (get_or "cwlVersion" cwl1 cv) (get_or "cwlVersion" cwl cv)) /\
    NoNewer run (get_or "cwlVersion" cwl1 cv) /\ (dget "cwlVersion" cwl1 = None -> dget "cwlVersion" cwl = None).
  Proof.
    intros E. unfold raise_version in E. destruct (dget "cwlVersion" run) as [rv|] eqn:G.
    - inv_ok. destruct rv as [| | | |t| |]; try discriminate. match goal with H : as_text (JStr t) = Ok _ |- _ => injection H as <- end.
      destruct (get_or "cwlVersion" cwl cv) as [| | | |u| |] eqn:EV; try discriminate.
      match goal with H : as_text (JStr u) = Ok _ |- _ => injection H as <- end.
      match goal with |- context [version_gt ?x ?y] => destruct (version_gt x y) eqn:V end.
      + assert (X : get_or "cwlVersion" (dset "cwlVersion" (JStr t) cwl) cv = JStr t) by (unfold get_or; rewrite dget_dset_same; reflexivity).
        rewrite X. split; [right; eexists _, _; split; [|split]; [| |exact V]; eexists; eauto|]. split.
        * intros rv RV. rewrite G in RV. injection RV as <-. eexists _, _. split; [eexists; eauto|]. split; [eexists; eauto|].
          match goal with |- ?b = false => destruct b eqn:Z; [|reflexivity] end. rewrite (proj1 version_order _ _ Z) in Z. discriminate Z.
        * rewrite dget_dset_same. discriminate.
      + rewrite EV. split; [left; reflexivity|]. split; [|auto].
        intros rv RV. rewrite G in RV. injection RV as <-. eexists _, _. split; [eexists; eauto|]. split; [eexists; eauto|]. exact V.
    - inv_ok. split; [left; reflexivity|]. split; [|auto]. intros rv RV. rewrite G in RV. discriminate RV.
  Qed.

  Lemma steps_steady pk f base cv parent :
    (forall src base' v par s run s', TC src -> TCtable par -> pk src base' v par s = Ok (run, s') -> Steady v run) ->
    TCtable parent -> forall l cwl s cwl' l' s', Forall TC l -> stepl pk f base cv parent cwl l s = Ok ((cwl', l'), s') ->
    (get_or "cwlVersion" cwl' cv = get_or "cwlVersion" cwl cv \/ newer (get_or "cwlVersion" cwl' cv) (get_or "cwlVersion" cwl cv)) /\
    (dget "cwlVersion" cwl' = None -> dget "cwlVersion" cwl = None) /\
    forall st', In (JDict st') l' -> exists st run, In (JDict st) l /\ st' = dset "run" (JDict run) st /\ dget "id" st <> None /\
      Steady (get_or "cwlVersion" cwl' cv) run /\ NoNewer run (get_or "cwlVersion" cwl' cv).
  Proof.
    intros HP TP. induction l as [|v l IH]; intros cwl s cwl' l' s' F E; cbn [resolve_step_list] in E.
    - inv_ok. split; [left; reflexivity|]. split; [auto|]. intros st' [].
    - apply mbind_Ok in E. destruct E as ([cwl1 v1] & s1 & E1 & E). apply mbind_Ok in E. destruct E as ([cwl2 l2] & s2 & E2 & E).
      unfold ret in E. injection E as -> <- <-. apply Forall_cons_iff in F. destruct F as [F1 F].
      destruct (IH _ _ _ _ _ F E2) as (A & B & C).
      assert (DD : (exists st, v = JDict st) \/ forall st, v <> JDict st) by (destruct v; eauto; right; discriminate).
      destruct DD as [[d ->]|N].
      2: { assert (X : (cwl1, v1) = (cwl, v)) by (destruct v; try (unfold resolve_step, ret in E1; congruence); destruct (N d eq_refl)).
           injection X as -> ->. split; [exact A|]. split; [exact B|]. intros st' [->|J]; [destruct (N st' eq_refl)|].
           destruct (C st' J) as (st & run & C1 & C2). exists st, run. split; [right; exact C1|exact C2]. }
      unfold resolve_step in E1. apply mbind_Ok in E1. destruct E1 as (id & sa & Ea & E1).
      apply lift_Ok in Ea. destruct Ea as (id' & Ea & X). injection X as <- ->.
      apply mbind_Ok in E1. destruct E1 as (run & sb & Eb & E1).
      apply mbind_Ok in E1. destruct E1 as (cwlc & sc & Ec & E1). apply lift_Ok in Ec. destruct Ec as (x & Ec & X). injection X as <- ->.
      unfold ret in E1. injection E1 as -> <- <-.
      assert (SR : Steady (get_or "cwlVersion" cwl cv) run).
      { destruct (dget "run" d) as [r|] eqn:R; [|discriminate].
        pose proof (TC_dget _ _ _ F1 R) as TR.
        assert (Eb' : (exists link, r = JStr link) \/ pk r base (get_or "cwlVersion" cwl cv) parent s = Ok (run, sb)).
        { destruct r; try (right; exact Eb). left. eauto. }
        destruct Eb' as [[link ->]|Eb']; [|eapply HP; [exact TR|exact TP|exact Eb']].
        apply mbind_Ok in Eb. destruct Eb as ([src u] & sd & Ed & Eb). apply lift_Ok in Ed. destruct Ed as (y & Ed & X). injection X as <- ->.
        eapply HP; [|constructor|exact Eb]. exact (load_TC _ _ _ _ _ _ files_text _ _ _ _ _ Ed). }
      destruct (raise_newer _ _ _ _ Ec) as (R1 & R2 & R3).
      split. { destruct A as [A|A]; [rewrite A; exact R1|]. right. destruct R1 as [R1|R1]; [rewrite <- R1; exact A|]. eapply newer_trans; eauto. }
      split; [auto|]. intros st' [X|J].
      + injection X as <-. exists d, run. split; [left; reflexivity|]. split; [reflexivity|]. split.
        { unfold item in Ea. destruct (dget "id" d); discriminate. }
        assert (S1 : Steady (get_or "cwlVersion" cwl1 cv) run).
        { destruct R1 as [R1|R1]; [rewrite R1; exact SR|]. eapply Steady_newer; eauto. }
        destruct A as [A|A]; [rewrite A; auto|]. split; [eapply Steady_newer; eauto|eapply NoNewer_trans; eauto].
      + destruct (C st' J) as (st & run' & C1 & C2). exists st, run'. split; [right; exact C1|exact C2].
  Qed.

  Lemma pack_steady : forall fuel j base cv parent s d' s', TC j -> TCtable parent ->
    packp fuel j base cv parent s = Ok (d', s') -> Steady cv d'.
  Proof.
    induction fuel as [|fuel IH]; intros j base cv parent s d' s' T TP E; [discriminate|].
    pose proof (pack_ports url_scheme url_path urljoin read_text urlopen parse_yaml ver parse_version version_gt files_text _ _ _ _ _ _ _ _ T TP E d' (N_self d')) as PB.
    destruct (pack_process_inv _ _ _ _ _ _ _ _ _ _ _ _ _ _ _ _ _ E) as (d & d1 & d2 & udt & d3 & s1 & s2 & d4 & d5 & -> & E1 & E2 & E3 & E4 & E5 & E6).
    destruct (ready _ _ _ _ _ _ files_text _ _ _ _ _ _ _ _ _ _ _ T TP E1 E2 E3 E4) as [R U].
    destruct (r_inputs _ R) as [li LI]. destruct (r_outputs _ R) as [lo LO]. destruct (r_reqs _ R) as [lr LR].
    assert (D5 : (forall k, k <> "steps" -> k <> "cwlVersion" -> dget k d5 = dget k d4) /\
       (IsWorkflow d5 -> exists l, dget "steps" d5 = Some (JList l) /\ forall st, In (JDict st) l -> list_section "in" st /\ dget "id" st <> None /\
           exists run, runs st run /\ Steady (get_or "cwlVersion" d5 cv) run /\ NoNewer run (get_or "cwlVersion" d5 cv))).
    { unfold resolve_steps in E5. destruct (get_is "class" "Workflow" d4) eqn:WC; cbn [negb] in E5.
      - apply get_is_spec in WC. destruct (r_steps _ R WC) as (l & L & IN). unfold item in E5. rewrite L in E5.
        apply mbind_Ok in E5. destruct E5 as (x & sa & Ea & E5). cbn in Ea. injection Ea as <- <-.
        apply mbind_Ok in E5. destruct E5 as (x & sa & Ea & E5). cbn in Ea. injection Ea as <- <-.
        apply mbind_Ok in E5. destruct E5 as ([cwl' l'] & sa & Ea & E5). cbn in E5. injection E5 as <- <-.
        assert (TL : Forall TC l). { apply TC_list. eapply TC_dget; [exact (r_text _ R)|exact L]. }
        destruct (steps_steady _ _ _ _ _ (fun src b v par s0 run s0' A B C => IH _ _ _ _ _ _ _ A B C) U _ _ _ _ _ _ TL Ea) as (A & B & C).
        pose proof (step_list_spec _ _ _ _ _ _ _ _ _ _ _ _ _ _ _ _ _ _ _ _ Ea) as SS.
        split. { intros k N1 N2. rewrite dget_dset_other by exact N1. eapply Stepped_other; [exact N2|exact SS]. }
        intros _. exists l'. split; [apply dget_dset_same|]. intros st' J. destruct (C st' J) as (st & run & C1 & -> & C3 & C4 & C5).
        split. { unfold list_section. rewrite dget_dset_other by discriminate. apply IN. exact C1. }
        split. { rewrite dget_dset_other by discriminate. exact C3. }
        exists run. split; [apply dget_dset_same|].
        assert (GE : get_or "cwlVersion" (dset "steps" (JList l') cwl') cv = get_or "cwlVersion" cwl' (get_or "cwlVersion" d4 cv)).
        { unfold get_or. rewrite dget_dset_other by discriminate. destruct (dget "cwlVersion" cwl') eqn:G; [reflexivity|]. rewrite (B eq_refl). reflexivity. }
        rewrite GE. auto.
      - apply get_is_false in WC. unfold ret in E5. injection E5 as <- <-. split; [auto|]. intros W. destruct (WC W). }
    destruct D5 as [K5 S5].
    assert (RL5 : dget "requirements" d5 = Some (JList lr)) by (rewrite K5 by discriminate; exact LR).
    destruct (finish_reqs _ _ _ RL5 E6) as (lr' & LR' & RX).
    assert (OT : forall k, k <> "requirements" -> dget k d' = dget k d5) by (intros; eapply finish_other; eauto).
    assert (LI' : dget "inputs" d' = Some (JList li)) by (rewrite OT, K5 by discriminate; exact LI).
    assert (LO' : dget "outputs" d' = Some (JList lo)) by (rewrite OT, K5 by discriminate; exact LO).
    eapply Steady_at; [exact LI'|exact (PB "inputs" li (or_introl eq_refl) LI')|exact LO'|exact (PB "outputs" lo (or_intror eq_refl) LO')|exact LR'| | |].
    - intros r J. destruct RX as [->| ->]; [apply (r_schema _ R); exists lr; auto|].
      apply in_app_iff in J. destruct J as [J|[J|[]]]; [apply (r_schema _ R); exists lr; auto|].
      unfold subworkflow_requirement in J. injection J as <-. cbn. discriminate.
    - eapply add_missing_again; exact E6.
    - intros W. unfold IsWorkflow in W. rewrite OT in W by discriminate. destruct (S5 W) as (l & L & F). exists l.
      rewrite OT by discriminate. split; [exact L|]. unfold get_or in *. rewrite OT by discriminate. exact F.
  Qed.

  Lemma pack_version_kept fuel d base cv parent s d' s' v : TC (JDict d) -> TCtable parent ->
    packp fuel (JDict d) base cv parent s = Ok (d', s') -> dget "cwlVersion" d = Some v -> exists e, dget "cwlVersion" d' = Some e.
  Proof.
    intros T TP E G. destruct fuel as [|fuel]; [discriminate|].
    destruct (pack_process_inv _ _ _ _ _ _ _ _ _ _ _ _ _ _ _ _ _ E) as (d0 & d1 & d2 & udt & d3 & s1 & s2 & d4 & d5 & X & E1 & E2 & E3 & E4 & E5 & E6).
    injection X as <-.
    destruct (ready _ _ _ _ _ _ files_text _ _ _ _ _ _ _ _ _ _ _ T TP E1 E2 E3 E4) as [R U].
    assert (G4 : dget "cwlVersion" d4 <> None).
    { destruct (listify_spec _ _ E1 T) as (T1 & _ & _ & _ & K1 & _). destruct (normalize_sources_spec d1) as (TN & KN & _). cbv zeta in *.
      destruct (load_schemadefs_spec _ _ _ _ _ _ files_text _ _ _ _ _ _ (TN T1) TP E2) as (T2 & _ & K2 & _).
      unfold resolve_schemadefs in E3. apply mbind_Ok in E3. destruct E3 as (d25 & s25 & E25 & E3).
      destruct (inline_types_spec _ _ _ _ _ _ files_text _ _ _ _ _ _ _ _ E25) as (_ & K25 & _).
      destruct (inline_types_spec _ _ _ _ _ _ files_text _ _ _ _ _ _ _ _ E3) as (_ & K3 & _).
      destruct (imports_ok_S _ _ _ _ _ _ _ _ _ _ E4) as [f ->].
      destruct (imports_dict _ _ _ _ _ _ _ _ _ _ E4) as (d4' & X & F). injection X as <-.
      pose proof (done_dget _ _ _ _ _ _ _ _ _ _ "cwlVersion" F) as D.
      rewrite K3, K25, K2, KN in D by discriminate. rewrite K1, G in D by (cbn; intuition discriminate).
      destruct (dget "cwlVersion" d4); [discriminate|destruct D]. }
    rewrite (finish_other _ _ "cwlVersion" ltac:(discriminate) E6).
    destruct (dget "cwlVersion" d5) as [e|] eqn:G5; [eauto|]. exfalso. apply G4.
    unfold resolve_steps in E5. destruct (get_is "class" "Workflow" d4) eqn:WC; cbn [negb] in E5; [|unfold ret in E5; injection E5 as <- <-; exact G5].
    apply get_is_spec in WC. destruct (r_steps _ R WC) as (l & L & IN). unfold item in E5. rewrite L in E5.
    apply mbind_Ok in E5. destruct E5 as (x & sa & Ea & E5). cbn in Ea. injection Ea as <- <-.
    apply mbind_Ok in E5. destruct E5 as (x & sa & Ea & E5). cbn in Ea. injection Ea as <- <-.
    apply mbind_Ok in E5. destruct E5 as ([cwl' l'] & sa & Ea & E5). cbn in E5. injection E5 as <- <-.
    assert (TL : Forall TC l). { apply TC_list. eapply TC_dget; [exact (r_text _ R)|exact L]. }
    destruct (steps_steady _ _ _ _ _ (fun src b v par s0 run s0' A B C => pack_steady _ _ _ _ _ _ _ _ A B C) U _ _ _ _ _ _ TL Ea) as (A & B & C).
    apply B. rewrite dget_dset_other in G5 by discriminate. exact G5.
  Qed.
End First.
