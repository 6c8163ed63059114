(** * Proofs about packing: steps, versions, whole documents *)
From Verif Require Import PyBase PyBaseProofs UtilsModel PackModel PackSpec PackProofs PackTreeProofs.

Section Steps.
  Variable url_scheme url_path : string -> string.
  Variable urljoin : string -> string -> string.
  Variable read_text urlopen : string -> result string.
  Variable parse_yaml : string -> result json.
  Variable ver : Type.
  Variable parse_version : string -> result ver.
  Variable version_gt : ver -> ver -> bool.
  Variable pk : json -> string -> json -> list (string * json) -> M dict.

  Notation load := (load_linked_file url_scheme url_path urljoin read_text urlopen parse_yaml).

  (** what packing the steps amounts to *)
  Inductive Stepped (base : string) (cv : json) (parent : list (string * json)) : dict -> list json -> dict -> list json -> Prop :=
  | St_nil cwl : Stepped base cv parent cwl [] cwl []
  | St_other cwl v l cwl' l' : (forall d, v <> JDict d) -> Stepped base cv parent cwl l cwl' l' ->
      Stepped base cv parent cwl (v :: l) cwl' (v :: l')
  | St_step cwl d src base' par s s' run cwl1 l cwl' l' :
      (dget "run" d = Some src \/ exists f link u, load f base link true = Ok (src, u)) ->
      (par = [] \/ par = parent) ->
      pk src base' (get_or "cwlVersion" cwl cv) par s = Ok (run, s') ->
      raise_version ver parse_version version_gt cwl cv run = Ok cwl1 ->
      Stepped base cv parent cwl1 l cwl' l' ->
      Stepped base cv parent cwl (JDict d :: l) cwl' (JDict (dset "run" (JDict run) d) :: l').

  Lemma step_list_spec fuel base cv parent : forall l cwl s cwl' l' s',
    resolve_step_list url_scheme url_path urljoin read_text urlopen parse_yaml ver parse_version version_gt pk fuel base cv parent cwl l s
      = Ok ((cwl', l'), s') -> Stepped base cv parent cwl l cwl' l'.
  Proof.
    induction l as [|v l IH]; intros cwl s cwl' l' s' E; cbn [resolve_step_list] in E.
    - inv_ok. constructor.
    - apply mbind_Ok in E. destruct E as ([cwl1 v1] & s1 & E1 & E). apply mbind_Ok in E. destruct E as ([cwl2 l2] & s2 & E2 & E).
      unfold ret in E. inv_ok. apply IH in E2.
      unfold resolve_step in E1. destruct v as [| | | | | |d]; try (inv_ok; apply St_other; [discriminate|auto]).
      inv_ok. destruct (dget "run" d) as [src|] eqn:R; [|inv_ok].
      destruct src; try (eapply St_step; [left; exact R|right; reflexivity| | | ]; eauto; fail).
      inv_ok. eapply St_step; [right; eauto|left; reflexivity| | | ]; eauto.
  Qed.

  Lemma raise_version_other cwl cv run cwl1 k : k <> "cwlVersion" ->
    raise_version ver parse_version version_gt cwl cv run = Ok cwl1 -> dget k cwl1 = dget k cwl.
  Proof.
    intros N E. unfold raise_version in E. destruct (dget "cwlVersion" run); inv_ok; auto.
    destruct (version_gt _ _); auto. apply dget_dset_other. auto.
  Qed.

  Lemma Stepped_other base cv parent cwl l cwl' l' k : k <> "cwlVersion" ->
    Stepped base cv parent cwl l cwl' l' -> dget k cwl' = dget k cwl.
  Proof. intros N. induction 1; auto. rewrite IHStepped. eapply raise_version_other; eauto. Qed.

  (** a property of packed processes holds of what the steps run *)
  Lemma Stepped_runs (P : dict -> Prop) base cv parent cwl l cwl' l' :
    (forall src base' v par s run s', TC src -> TCtable par -> pk src base' v par s = Ok (run, s') -> P run) ->
    (forall t j, parse_yaml t = Ok j -> TextClasses j) -> Forall TC l -> TCtable parent ->
    Stepped base cv parent cwl l cwl' l' ->
    forall st', In (JDict st') l' -> exists st run, In (JDict st) l /\ st' = dset "run" (JDict run) st /\ P run.
  Proof.
    intros HP FT F TP. induction 1 as [cwl|cwl v l cwl' l' N S IH|cwl d src base' par s s' run cwl1 l cwl' l' HS HPar HK HR S IH].
    - intros st' [].
    - apply Forall_cons_iff in F. destruct F as [F1 F]. intros st' [->|J]; [destruct (N st'); reflexivity|].
      destruct (IH F st' J) as (st & run & A & B & C). exists st, run. cbn; auto.
    - apply Forall_cons_iff in F. destruct F as [F1 F]. intros st' [X|J].
      + injection X as <-. exists d, run. split; [cbn; auto|]. split; auto. eapply HP; [| |exact HK].
        * destruct HS as [HS|(f & link & u & HS)]; [eapply TC_dget; eauto|]. exact (load_TC _ _ _ _ _ _ FT _ _ _ _ _ HS).
        * destruct HPar; subst; auto. constructor.
      + destruct (IH F st' J) as (st & run' & A & B & C). exists st, run'. cbn; auto.
  Qed.
End Steps.

(** ** the added requirement *)
Lemma runs_workflow_spec l b : runs_workflow l = Ok b ->
  (b = true <-> exists st run, In (JDict st) l /\ runs st run /\ IsWorkflow run) .
Proof.
  revert b. induction l as [|x l IH]; intros b E; cbn in E; inv_ok.
  - split; [discriminate|]. intros (st & run & [] & _).
  - unfold json_item in E0. destruct x as [| | | | | |st]; try discriminate. unfold item in E0.
    destruct (dget "run" st) as [r|] eqn:R; [|discriminate]. injection E0 as <-.
    unfold json_item in E1. destruct r as [| | | | | |run]; try discriminate. unfold item in E1.
    destruct (dget "class" run) as [c|] eqn:C; [|discriminate]. injection E1 as <-.
    destruct (is_str "Workflow" c) eqn:W.
    + inv_ok. apply is_str_spec in W. subst c. split; auto. intros _. exists st, run. cbn; auto.
    + rewrite (IH _ E). split.
      * intros (st' & run' & I & J). exists st', run'. cbn; auto.
      * intros (st' & run' & [X|I] & J & K).
        { injection X as ->. unfold runs in J. rewrite R in J. injection J as ->. unfold IsWorkflow in K. rewrite C in K.
          injection K as ->. discriminate. }
        eauto.
Qed.

Lemma add_missing_spec d d' : add_missing_requirements d = Ok d' ->
  exists l, (get_or "requirements" d (JList []) = JList l) /\
  ((d' = d /\ (IsWorkflow d -> runs_a_workflow d -> exists r, In (JDict r) l /\ dget "class" r = Some (JStr "SubworkflowFeatureRequirement"))) \/
   (IsWorkflow d /\ runs_a_workflow d /\
    (forall r, In (JDict r) l -> dget "class" r <> Some (JStr "SubworkflowFeatureRequirement")) /\
    d' = dset "requirements" (JList (l ++ [subworkflow_requirement])) d)).
Proof.
  intros E. unfold add_missing_requirements in E. destruct (get_or "requirements" d (JList [])) as [| | | | |l|] eqn:G; try discriminate.
  exists l. split; auto. inv_ok. rename a into present. rename E0 into P.
  assert (X : existsb (is_str "SubworkflowFeatureRequirement") present = true <->
     exists r, In (JDict r) l /\ dget "class" r = Some (JStr "SubworkflowFeatureRequirement")).
  { clear - P. revert present P. induction l as [|x l IH]; intros present P; cbn in P; inv_ok.
    - cbn. split; [discriminate|]. intros (r & [] & _).
    - cbn. rewrite orb_true_iff. match goal with H : mapM _ l = Ok _ |- _ => rewrite (IH _ H) end. split.
      + intros [A|(r & A & B)]; [|exists r; auto]. apply is_str_spec in A. subst.
        match goal with H : json_item _ x = Ok _ |- _ => unfold json_item, item in H; destruct x; try discriminate; destruct (dget "class" d) eqn:C; [|discriminate]; injection H as -> end.
        eauto.
      + intros (r & [->|A] & B); [|eauto]. left.
        match goal with H : json_item _ _ = Ok _ |- _ => unfold json_item, item in H; rewrite B in H; injection H as <- end.
        apply is_str_spec. reflexivity. }
  destruct (get_is "class" "Workflow" d) eqn:W.
  - apply get_is_spec in W. inv_ok. unfold item in E0. destruct (dget "steps" d) as [st|] eqn:S; [|discriminate].
    injection E0 as ->. pose proof (runs_workflow_spec _ _ E2) as R.
    assert (RW : runs_a_workflow d <-> a1 = true).
    { rewrite R. unfold runs_a_workflow, step_of. split.
      - intros (st & run & (l' & A & B) & C). rewrite S in A. injection A as ->. cbn in E1. injection E1 as ->. eauto.
      - intros (st & run & A & B). exists st, run. split; auto. destruct a; cbn in E1; try discriminate; injection E1 as <-.
        + apply in_map_iff in A. destruct A as (x & A & _). discriminate.
        + eauto.
        + apply in_map_iff in A. destruct A as (x & A & _). discriminate. }
    destruct (a1 && negb (existsb (is_str "SubworkflowFeatureRequirement") present)) eqn:B; inv_ok.
    + apply andb_true_iff in B. destruct B as [B1 B2]. right. split; auto. split; [apply RW; auto|]. split; auto.
      intros r I C. apply negb_true_iff in B2. assert (existsb (is_str "SubworkflowFeatureRequirement") present = true) by (apply X; eauto). congruence.
    + left. split; auto. intros _ H. apply RW in H. subst a1. cbn in B. apply negb_false_iff in B. apply X. auto.
  - inv_ok. left. split; auto. intros H. apply get_is_false in W. contradiction.
Qed.

Section Pack.
  Variable url_scheme url_path : string -> string.
  Variable urljoin : string -> string -> string.
  Variable read_text urlopen : string -> result string.
  Variable parse_yaml : string -> result json.
  Variable ver : Type.
  Variable parse_version : string -> result ver.
  Variable version_gt : ver -> ver -> bool.

  Notation load := (load_linked_file url_scheme url_path urljoin read_text urlopen parse_yaml).
  Notation packp := (pack_process url_scheme url_path urljoin read_text urlopen parse_yaml ver parse_version version_gt).
  Notation imports := (resolve_imports url_scheme url_path urljoin read_text urlopen parse_yaml).

  (** the stages of packing *)
  Lemma pack_process_inv fuel j base cv parent s d' s' : packp (S fuel) j base cv parent s = Ok (d', s') ->
    exists d d1 d2 udt d3 s1 s2 d4 d5, j = JDict d /\ listify_everything d = Ok d1 /\
      load_schemadefs url_scheme url_path urljoin read_text urlopen parse_yaml fuel (normalize_sources d1) base parent = Ok (d2, udt) /\
      resolve_schemadefs url_scheme url_path urljoin read_text urlopen parse_yaml fuel d2 base udt s = Ok (d3, s1) /\
      imports fuel (JDict d3) base = Ok (JDict d4) /\
      resolve_steps url_scheme url_path urljoin read_text urlopen parse_yaml ver parse_version version_gt (packp fuel)
         fuel d4 base (get_or "cwlVersion" d4 cv) udt s1 = Ok (d5, s2) /\
      add_missing_requirements d5 = Ok d'.
  Proof.
    cbn [pack_process]. intros E. destruct j as [| | | | | |d]; try discriminate.
    apply mbind_Ok in E. destruct E as (d1 & s1 & E1 & E). apply lift_Ok in E1. destruct E1 as (x1 & E1 & X). injection X as -> ->.
    apply mbind_Ok in E. destruct E as ([d2 udt] & s2 & E2 & E). apply lift_Ok in E2. destruct E2 as (x2 & E2 & X). injection X as X1 ->. subst x2.
    apply mbind_Ok in E. destruct E as (d3 & s3 & E3 & E).
    apply mbind_Ok in E. destruct E as (j4 & s4 & E4 & E). apply lift_Ok in E4. destruct E4 as (x4 & E4 & X). injection X as -> ->.
    destruct x4 as [| | | | | |d4]; try discriminate.
    apply mbind_Ok in E. destruct E as (d5 & s5 & E5 & E). apply lift_Ok in E. destruct E as (x6 & E & X). injection X as -> ->.
    eauto 20.
  Qed.

  Hypothesis files_text : forall t j, parse_yaml t = Ok j -> TextClasses j.

  Definition Packed (d : dict) : Prop := SelfContained d /\ NoImports (JDict d).

  Lemma Packed_not_import d : SelfContained d -> ~ IsImport (JDict d).
  Proof.
    intros H. inversion H as [d' [l1 A] [l2 B] _ _ _ _ E]; subst. eapply not_import_two; [|exact A|exact B]. discriminate.
  Qed.

  (** the document just before its steps are packed *)
  Record Ready (d : dict) : Prop := {
    r_text : TC (JDict d);
    r_inputs : list_section "inputs" d;
    r_outputs : list_section "outputs" d;
    r_reqs : list_section "requirements" d;
    r_schema : forall r, requires d (JDict r) -> dget "class" r <> Some (JStr "SchemaDefRequirement");
    r_steps : IsWorkflow d -> exists l, dget "steps" d = Some (JList l) /\ forall st, In (JDict st) l -> list_section "in" st
  }.

  Lemma ready fuel d d1 base parent d2 udt d3 s s1 d4 : TC (JDict d) -> TCtable parent ->
    listify_everything d = Ok d1 ->
    load_schemadefs url_scheme url_path urljoin read_text urlopen parse_yaml fuel (normalize_sources d1) base parent = Ok (d2, udt) ->
    resolve_schemadefs url_scheme url_path urljoin read_text urlopen parse_yaml fuel d2 base udt s = Ok (d3, s1) ->
    imports fuel (JDict d3) base = Ok (JDict d4) -> Ready d4 /\ TCtable udt.
  Proof.
    intros T TP E1 E2 E3 E4.
    destruct (listify_spec _ _ E1 T) as (T1 & I1 & O1 & R1 & K1 & S1).
    destruct (normalize_sources_spec d1) as (TN & KN & ON & SN). cbv zeta in *.
    set (dn := normalize_sources d1) in *. specialize (TN T1).
    destruct (load_schemadefs_spec _ _ _ _ _ _ files_text _ _ _ _ _ _ TN TP E2) as (T2 & U & K2 & (rl & R2 & KE)).
    unfold resolve_schemadefs in E3. apply mbind_Ok in E3. destruct E3 as (d25 & s25 & E25 & E3).
    destruct (inline_types_spec _ _ _ _ _ _ files_text _ _ _ _ _ _ _ _ E25) as (I25 & K25 & T25).
    destruct (inline_types_spec _ _ _ _ _ _ files_text _ _ _ _ _ _ _ _ E3) as (O3 & K3 & T3).
    specialize (T25 ltac:(discriminate) U T2). specialize (T3 ltac:(discriminate) U T25).
    assert (I3 : list_section "inputs" d3). { unfold list_section in *. rewrite K3 by discriminate. auto. }
    assert (R3 : dget "requirements" d3 = Some (JList rl)). { rewrite K3, K25 by discriminate. auto. }
    assert (C3 : dget "class" d3 = dget "class" d1). { rewrite K3, K25, K2, KN by discriminate. reflexivity. }
    assert (S3 : dget "steps" d3 = dget "steps" dn). { rewrite K3, K25, K2 by discriminate. reflexivity. }
    destruct (imports_ok_S _ _ _ _ _ _ _ _ _ _ E4) as [f ->].
    pose proof (imports_TC _ _ _ _ _ _ files_text _ _ _ _ E4 T3) as T4.
    destruct (imports_dict _ _ _ _ _ _ _ _ _ _ E4) as (d4' & X & F). injection X as <-.
    split; [|exact U]. constructor; auto.
    - eapply done_list; eauto.
    - eapply done_list; eauto.
    - eapply done_list; [exact F|]. eexists; eauto.
    - intros r (l & L & J). pose proof (done_dget _ _ _ _ _ _ _ _ _ _ "requirements" F) as D. rewrite R3, L in D.
      destruct (ivalue_list _ _ _ _ _ _ _ _ _ _ D) as (f' & l' & _ & X & F2). injection X as <-.
      destruct (Forall2_in_r _ _ _ _ F2 J) as (e & Ie & Ve). rewrite Forall_forall in KE.
      eapply kept_not_schema; [exact files_text| |apply KE; exact Ie|exact Ve].
      pose proof (TC_dget _ _ _ T3 R3) as TR. apply TC_list in TR. rewrite Forall_forall in TR. auto.
    - intros W. assert (W1 : IsWorkflow d1).
      { unfold IsWorkflow in *. rewrite (done_class _ _ _ _ _ _ _ _ _ _ T3 F) in W. rewrite C3 in W. auto. }
      destruct (S1 W1) as (l & L & IL). destruct (SN l L) as (ln & LN & ILN). specialize (ILN IL).
      rewrite LN in S3. pose proof (done_dget _ _ _ _ _ _ _ _ _ _ "steps" F) as D. rewrite S3 in D.
      destruct (dget "steps" d4) as [v4|] eqn:G4; [|destruct D].
      destruct (ivalue_list _ _ _ _ _ _ _ _ _ _ D) as (f' & l4 & _ & -> & F4). exists l4. split; auto.
      intros st J. destruct (Forall2_in_r _ _ _ _ F4 J) as (e & Ie & Ve).
      destruct e as [| | | |str|el|ed].
      + unfold ivalue in Ve. cbn [import_of bind] in Ve. apply imports_atom in Ve; [discriminate|exact I].
      + unfold ivalue in Ve. cbn [import_of bind] in Ve. apply imports_atom in Ve; [discriminate|exact I].
      + unfold ivalue in Ve. cbn [import_of bind] in Ve. apply imports_atom in Ve; [discriminate|exact I].
      + unfold ivalue in Ve. cbn [import_of bind] in Ve. apply imports_atom in Ve; [discriminate|exact I].
      + apply ivalue_str in Ve. discriminate.
      + destruct (ivalue_list _ _ _ _ _ _ _ _ _ _ Ve) as (f2 & l2 & _ & X & _). discriminate.
      + pose proof (ILN ed Ie) as [il IL2].
        assert (N : ~ IsImport (JDict ed)) by (eapply not_import_key; [| |exact IL2]; discriminate).
        destruct (ivalue_dict _ _ _ _ _ _ _ _ _ _ N Ve) as (f2 & d2' & _ & X & F2). injection X as <-.
        eapply done_list; [exact F2|]. eexists; eauto.
  Qed.

  Lemma resolve_steps_inv pk fuel d base cv udt s d5 s' : Ready d ->
    resolve_steps url_scheme url_path urljoin read_text urlopen parse_yaml ver parse_version version_gt pk fuel d base cv udt s = Ok (d5, s') ->
    (~ IsWorkflow d /\ d5 = d) \/
    (IsWorkflow d /\ exists l cwl' l', dget "steps" d = Some (JList l) /\
       Stepped url_scheme url_path urljoin read_text urlopen parse_yaml ver parse_version version_gt pk base cv udt d l cwl' l' /\
       d5 = dset "steps" (JList l') cwl').
  Proof.
    intros R E. unfold resolve_steps in E. destruct (get_is "class" "Workflow" d) eqn:W; cbn [negb] in E.
    - right. apply get_is_spec in W. split; auto. destruct (r_steps _ R W) as (l & L & _).
      unfold item in E. rewrite L in E.
      apply mbind_Ok in E. destruct E as (x & s1 & E1 & E). cbn in E1. injection E1 as <- <-.
      apply mbind_Ok in E. destruct E as (x & s1 & E1 & E). cbn in E1. injection E1 as <- <-.
      apply mbind_Ok in E. destruct E as ([cwl' l'] & s1 & E1 & E). apply step_list_spec in E1.
      cbn in E. injection E as <- <-. eauto 8.
    - left. apply get_is_false in W. cbn in E. injection E as <- <-. auto.
  Qed.

  Notation Stepped := (Stepped url_scheme url_path urljoin read_text urlopen parse_yaml ver parse_version version_gt).

  Lemma Stepped_nondict pk base cv parent cwl l cwl' l' : Stepped pk base cv parent cwl l cwl' l' ->
    forall v, (forall d, v <> JDict d) -> In v l' -> In v l.
  Proof. induction 1; cbn; auto; intros w N [<-|J]; auto. destruct (N _ eq_refl). Qed.
  Lemma Stepped_clean pk base cv parent cwl l cwl' l' : Stepped pk base cv parent cwl l cwl' l' ->
    Forall (fun kv => Clean (snd kv)) cwl -> Forall (fun kv => Clean (snd kv)) cwl'.
  Proof.
    induction 1; auto. intros F. apply IHStepped. unfold raise_version in H2. destruct (dget "cwlVersion" run) as [rv|]; inv_ok; auto.
    destruct (version_gt _ _); auto. apply Forall_dset; auto. destruct rv; try discriminate. apply Clean_str.
  Qed.

  (** what add_missing_requirements leaves alone *)
  Lemma finish_other d5 d' k : k <> "requirements" -> add_missing_requirements d5 = Ok d' -> dget k d' = dget k d5.
  Proof.
    intros N E. destruct (add_missing_spec _ _ E) as (l & _ & [[-> _]|(_ & _ & _ & ->)]); auto. apply dget_dset_other. auto.
  Qed.
  Lemma finish_reqs d5 d' l : dget "requirements" d5 = Some (JList l) -> add_missing_requirements d5 = Ok d' ->
    exists l', dget "requirements" d' = Some (JList l') /\ (l' = l \/ l' = l ++ [subworkflow_requirement]).
  Proof.
    intros G E. destruct (add_missing_spec _ _ E) as (l0 & L & [[-> _]|(_ & _ & _ & ->)]); eauto.
    unfold get_or in L. rewrite G in L. injection L as ->. rewrite dget_dset_same. eauto.
  Qed.

  Lemma pack_packed (files_plain : forall t j, parse_yaml t = Ok j -> ~ IsImport j) : forall fuel j base cv parent s d' s', TC j -> TCtable parent ->
    packp fuel j base cv parent s = Ok (d', s') -> Packed d'.
  Proof.
    induction fuel as [|fuel IH]; intros j base cv parent s d' s' T TP E; [discriminate|].
    destruct (pack_process_inv _ _ _ _ _ _ _ _ E) as (d & d1 & d2 & udt & d3 & s1 & s2 & d4 & d5 & -> & E1 & E2 & E3 & E4 & E5 & E6).
    destruct (ready _ _ _ _ _ _ _ _ _ _ _ T TP E1 E2 E3 E4) as [R U].
    pose proof (proj1 (imports_clean _ _ _ _ _ _ files_plain _ _ _ _ E4)) as CL.
    assert (D5 : (forall k, k <> "steps" -> k <> "cwlVersion" -> dget k d5 = dget k d4) /\ NoImports (JDict d5) /\
       (IsWorkflow d5 -> list_section "steps" d5 /\ forall st, step_of d5 st -> list_section "in" st /\ exists run, runs st run /\ Packed run)).
    { destruct (resolve_steps_inv _ _ _ _ _ _ _ _ _ R E5) as [[NW ->]|(W & l & cwl' & l' & L & S & ->)].
      - split; auto. split; [exact CL|]. contradiction.
      - assert (TL : Forall TC l). { apply TC_list. eapply TC_dget; [exact (r_text _ R)|exact L]. }
        assert (RU := Stepped_runs _ _ _ _ _ _ _ _ _ _ Packed _ _ _ _ _ _ _ (fun src b v par s0 run s0' A B C => IH _ _ _ _ _ _ _ A B C) files_text TL U S).
        assert (NL : Forall Clean l).
        { pose proof CL as C. apply NoImports_dict in C. apply (dget_Forall _ _ _ _ C) in L. cbn in L.
          destruct L as [L _]. apply NoImports_list in L. auto. }
        rewrite Forall_forall in NL.
        split; [intros k N1 N2; rewrite dget_dset_other by auto; eapply Stepped_other; eauto|]. split.
        + apply NoImports_dict. apply Forall_dset.
          * eapply Stepped_clean; eauto. apply NoImports_dict. exact CL.
          * cbn. split; [|intros (k & v & X & _); discriminate]. apply NoImports_list. apply Forall_forall. intros v J.
            assert (DD : (exists dd, v = JDict dd) \/ forall dd, v <> JDict dd) by (destruct v; eauto; right; discriminate).
            destruct DD as [[st' ->]|N].
            -- destruct (RU st' J) as (st & run & A & -> & P1 & P2). specialize (NL _ A). destruct NL as [NL _].
               split.
               ++ apply NoImports_dict. apply Forall_dset; [apply NoImports_dict; auto|]. cbn. split; auto. apply Packed_not_import; auto.
               ++ eapply not_import_key; [| |apply dget_dset_same]; discriminate.
            -- apply NL. eapply Stepped_nondict; eauto.
        + intros _. split; [eexists; apply dget_dset_same|]. intros st' (l0 & L0 & J). rewrite dget_dset_same in L0. injection L0 as <-.
          destruct (RU st' J) as (st & run & A & -> & P). split.
          * destruct (r_steps _ R W) as (l1 & L1 & IN). rewrite L in L1. injection L1 as <-.
            unfold list_section. rewrite dget_dset_other by discriminate. apply IN. auto.
          * exists run. split; auto. apply dget_dset_same. }
    destruct D5 as (K5 & C5 & S5).
    destruct (r_reqs _ R) as [rl RL].
    assert (RL5 : dget "requirements" d5 = Some (JList rl)) by (rewrite K5 by discriminate; auto).
    destruct (finish_reqs _ _ _ RL5 E6) as (rl' & RL' & RX).
    assert (OT : forall k, k <> "requirements" -> dget k d' = dget k d5) by (intros; eapply finish_other; eauto).
    split.
    - constructor.
      + unfold list_section. rewrite OT, K5 by discriminate. exact (r_inputs _ R).
      + unfold list_section. rewrite OT, K5 by discriminate. exact (r_outputs _ R).
      + eexists; eauto.
      + intros r (l & L & J). rewrite RL' in L. injection L as <-. destruct RX as [->| ->].
        * apply (r_schema _ R). exists rl. auto.
        * apply in_app_iff in J. destruct J as [J|[J|[]]]; [apply (r_schema _ R); exists rl; auto|].
          unfold subworkflow_requirement in J. injection J as <-. cbn. discriminate.
      + intros W. unfold IsWorkflow in W. rewrite OT in W by discriminate. destruct (S5 W) as [X _].
        unfold list_section. rewrite OT by discriminate. exact X.
      + intros W st ST. unfold IsWorkflow in W. rewrite OT in W by discriminate. destruct (S5 W) as [_ X].
        unfold step_of in ST. rewrite OT in ST by discriminate. destruct (X st ST) as (A & run & B & C & _). split; auto. exists run. auto.
    - destruct (add_missing_spec _ _ E6) as (l & L & [[-> _]|(_ & _ & _ & ->)]); auto.
      apply NoImports_dict. apply Forall_dset; [apply NoImports_dict; auto|]. cbn. split; [|intros (k & v & X & _); discriminate].
      unfold get_or in L. rewrite RL5 in L. injection L as <-.
      apply NoImports_list. apply Forall_app. split.
      + apply NoImports_dict in C5. apply (dget_Forall _ _ _ _ C5) in RL5. destruct RL5 as [X _]. apply NoImports_list in X. auto.
      + constructor; [|constructor]. split.
        * apply NoImports_dict. constructor; [apply Clean_str|constructor].
        * intros (k & v & X & Y). unfold subworkflow_requirement in X. injection X as <- <-. destruct Y; discriminate.
  Qed.

  (** ** the subworkflow requirement *)
  Lemma pack_subworkflow : forall fuel j base cv parent s d' s', TC j -> TCtable parent ->
    packp fuel j base cv parent s = Ok (d', s') ->
    forall w, Nested w d' -> IsWorkflow w -> runs_a_workflow w -> lists_subworkflow w.
  Proof.
    induction fuel as [|fuel IH]; intros j base cv parent s d' s' T TP E; [discriminate|].
    destruct (pack_process_inv _ _ _ _ _ _ _ _ E) as (d & d1 & d2 & udt & d3 & s1 & s2 & d4 & d5 & -> & E1 & E2 & E3 & E4 & E5 & E6).
    destruct (ready _ _ _ _ _ _ _ _ _ _ _ T TP E1 E2 E3 E4) as [R U].
    assert (ST : forall st, step_of d' st -> IsWorkflow d' -> exists run, runs st run /\ forall w, Nested w run -> IsWorkflow w -> runs_a_workflow w -> lists_subworkflow w).
    { intros st ST W. unfold step_of in ST. unfold IsWorkflow in W.
      rewrite (finish_other _ _ "steps" ltac:(discriminate) E6) in ST. rewrite (finish_other _ _ "class" ltac:(discriminate) E6) in W.
      destruct (resolve_steps_inv _ _ _ _ _ _ _ _ _ R E5) as [[NW ->]|(W4 & l & cwl' & l' & L & S & ->)]; [contradiction|].
      assert (TL : Forall TC l). { apply TC_list. eapply TC_dget; [exact (r_text _ R)|exact L]. }
      destruct ST as (l0 & L0 & J). rewrite dget_dset_same in L0. injection L0 as <-.
      destruct (Stepped_runs _ _ _ _ _ _ _ _ _ _ _ _ _ _ _ _ _ _ (fun src b v par s0 run s0' A B C => IH _ _ _ _ _ _ _ A B C) files_text TL U S _ J) as (st0 & run & A & -> & P).
      exists run. split; auto. apply dget_dset_same. }
    intros w N. inversion N as [|d0 st run p W S RU N']; subst.
    - intros W RW. destruct (r_reqs _ R) as [rl RL].
      assert (RL5 : dget "requirements" d5 = Some (JList rl)).
      { destruct (resolve_steps_inv _ _ _ _ _ _ _ _ _ R E5) as [[NW ->]|(W4 & l & cwl' & l' & L & S & ->)]; auto.
        rewrite dget_dset_other by discriminate. erewrite (Stepped_other _ _ _ _ _ _ _ _ _ _ _ _ _ _ _ _ _ "requirements"); [exact RL|discriminate|exact S]. }
      destruct (add_missing_spec _ _ E6) as (l & L & [[-> H]|(W5 & R5 & NP & ->)]).
      + unfold get_or in L. rewrite RL5 in L. injection L as <-. destruct (H W RW) as (r & I & C).
        exists r. split; auto. exists rl. auto.
      + exists [("class", JStr "SubworkflowFeatureRequirement")]. split; [|reflexivity]. eexists. rewrite dget_dset_same. split; [reflexivity|].
        apply in_app_iff. right. left. reflexivity.
    - destruct (ST st S W) as (run' & RU' & H). unfold runs in *. rewrite RU in RU'. injection RU' as <-. auto.
  Qed.

  (** ** versions *)
  Hypothesis version_order : ordered ver version_gt.

  Definition dv (j : json) (v : ver) : Prop := exists s, j = JStr s /\ parse_version (strip_v s) = Ok v.
  Definition newer (j1 j2 : json) : Prop := exists a b, dv j1 a /\ dv j2 b /\ version_gt a b = true.
  Definition below (d : dict) (e : json) : Prop := forall p a, Nested p d -> declares parse_version p a -> forall b, dv e b -> version_gt a b = false.
  Definition AllBelow (d : dict) : Prop := forall w, Nested w d -> forall p a b, Nested p w -> declares parse_version p a ->
    declares parse_version w b -> version_gt a b = false.

  Lemma dv_fun j a b : dv j a -> dv j b -> a = b.
  Proof. intros (s & -> & A) (t & X & B). injection X as <-. congruence. Qed.

  Lemma below_trans d e e' b : dv e b -> below d e -> (forall b', dv e' b' -> version_gt b b' = false) -> below d e'.
  Proof.
    intros D B N p a NP DP b' D'. destruct (version_gt a b') eqn:G; auto.
    destruct (proj2 version_order a b b' G) as [H|H].
    - rewrite (B p a NP DP b D) in H. discriminate.
    - rewrite (N b' D') in H. discriminate.
  Qed.

  Lemma raise_spec cwl cv run cwl1 : raise_version ver parse_version version_gt cwl cv run = Ok cwl1 ->
    below run (get_or "cwlVersion" run (get_or "cwlVersion" cwl cv)) ->
    below run (get_or "cwlVersion" cwl1 cv) /\
    (get_or "cwlVersion" cwl1 cv = get_or "cwlVersion" cwl cv \/ newer (get_or "cwlVersion" cwl1 cv) (get_or "cwlVersion" cwl cv)) /\
    (dget "cwlVersion" cwl1 = dget "cwlVersion" cwl \/ (exists v, dget "cwlVersion" cwl1 = Some v) /\ dget "cwlVersion" cwl1 = dget "cwlVersion" run).
  Proof.
    intros E B. unfold raise_version in E. unfold get_or at 1 in B. destruct (dget "cwlVersion" run) as [rv|] eqn:G.
    - inv_ok. match goal with H : as_text rv = Ok ?t |- _ => destruct rv; try discriminate; injection H as -> end.
      match goal with H : as_text (get_or "cwlVersion" cwl cv) = Ok ?t |- _ => destruct (get_or "cwlVersion" cwl cv) eqn:EV; try discriminate; injection H as -> end.
      match goal with |- context [version_gt ?x ?y] => destruct (version_gt x y) eqn:V end.
      + unfold get_or at 1 2 3. rewrite !dget_dset_same. split; auto. split; [right|right; eauto].
        eexists _, _. split; [|split]; [| |exact V]; eexists; eauto.
      + rewrite EV. split; auto. eapply below_trans; [|exact B|]; [eexists; eauto|].
        intros b' (t & X & Y). injection X as <-. congruence.
    - inv_ok. auto.
  Qed.

  Lemma newer_asym e1 e2 b1 b2 : newer e1 e2 -> dv e1 b1 -> dv e2 b2 -> version_gt b2 b1 = false.
  Proof.
    intros (a & b & A & B & V) D1 D2. rewrite (dv_fun _ _ _ D1 A), (dv_fun _ _ _ D2 B). apply (proj1 version_order). auto.
  Qed.

  Lemma Stepped_versions pk base cv parent cwl l cwl' l' :
    (forall src base' v par s run s', pk src base' v par s = Ok (run, s') -> TC src -> TCtable par -> below run (get_or "cwlVersion" run v) /\ AllBelow run) ->
    Forall TC l -> TCtable parent ->
    Stepped pk base cv parent cwl l cwl' l' ->
    (get_or "cwlVersion" cwl' cv = get_or "cwlVersion" cwl cv \/ newer (get_or "cwlVersion" cwl' cv) (get_or "cwlVersion" cwl cv)) /\
    (dget "cwlVersion" cwl' = dget "cwlVersion" cwl \/ (exists v, dget "cwlVersion" cwl' = Some v) /\ exists st run, In (JDict st) l' /\ runs st run /\ dget "cwlVersion" cwl' = dget "cwlVersion" run) /\
    (forall st, In (JDict st) l' -> exists run, runs st run /\ AllBelow run /\ below run (get_or "cwlVersion" cwl' cv)).
  Proof.
    intros HP F TP. induction 1 as [cwl|cwl v l cwl' l' N S IH|cwl d src base' par s s' run cwl1 l cwl' l' HS HPar HK HR S IH].
    - split; auto. split; auto. intros st [].
    - apply Forall_cons_iff in F. destruct F as [F1 F]. destruct (IH F) as (A & B & C). split; auto. split.
      + destruct B as [B|(B1 & st & run & B2 & B3)]; auto. right. split; auto. exists st, run. cbn; tauto.
      + intros st [->|J]; [destruct (N st); reflexivity|auto].
    - apply Forall_cons_iff in F. destruct F as [F1 F]. destruct (IH F) as (A & B & C).
      assert (TS : TC src).
      { destruct HS as [HS|(f & link & u & HS)]; [eapply TC_dget; eauto|]. exact (load_TC _ _ _ _ _ _ files_text _ _ _ _ _ HS). }
      assert (TPar : TCtable par) by (destruct HPar; subst; auto; constructor).
      destruct (HP _ _ _ _ _ _ _ HK TS TPar) as [P1 P2].
      destruct (raise_spec _ _ _ _ HR P1) as (R1 & R2 & R3).
      assert (PE : forall b b', dv (get_or "cwlVersion" cwl1 cv) b -> dv (get_or "cwlVersion" cwl' cv) b' -> version_gt b b' = false).
      { intros b b' D D'. destruct A as [A|A].
        - rewrite A in D'. rewrite (dv_fun _ _ _ D D'). destruct (version_gt b' b') eqn:G; auto. rewrite (proj1 version_order _ _ G) in G. discriminate.
        - eapply newer_asym; eauto. }
      split.
      { destruct A as [A|A]; [rewrite A; auto|]. destruct R2 as [R2|R2]; [rewrite <- R2; auto|]. right.
        destruct A as (x & y & A1 & A2 & A3). destruct R2 as (y' & z & B1 & B2 & B3). rewrite (dv_fun _ _ _ B1 A2) in B3.
        exists x, z. split; auto. split; auto. destruct (proj2 version_order x z y A3) as [H|H]; auto.
        rewrite (proj1 version_order _ _ B3) in H. discriminate. }
      split.
      { destruct B as [B|(B1 & st & r & B2 & B3 & B4)].
        - destruct R3 as [R3|[R3 R4]]; [left; congruence|]. right. rewrite B. split; auto. exists (dset "run" (JDict run) d), run.
          split; [cbn; auto|]. split; auto. apply dget_dset_same.
        - right. split; auto. exists st, r. cbn; auto. }
      intros st [X|J]; [|auto]. injection X as <-. exists run. split; [apply dget_dset_same|]. split; auto.
      destruct A as [A|A]; [rewrite A; auto|]. pose proof A as A'. destruct A' as (x & y & A1 & A2 & A3).
      eapply below_trans; [exact A2|exact R1|]. intros b' D'. eapply PE; eauto.
  Qed.

  Lemma pack_versions : forall fuel j base cv parent s d' s', packp fuel j base cv parent s = Ok (d', s') ->
    TC j -> TCtable parent -> below d' (get_or "cwlVersion" d' cv) /\ AllBelow d'.
  Proof.
    induction fuel as [|fuel IH]; intros j base cv parent s d' s' E T TP; [discriminate|].
    destruct (pack_process_inv _ _ _ _ _ _ _ _ E) as (d & d1 & d2 & udt & d3 & s1 & s2 & d4 & d5 & -> & E1 & E2 & E3 & E4 & E5 & E6).
    destruct (ready _ _ _ _ _ _ _ _ _ _ _ T TP E1 E2 E3 E4) as [R U].
    assert (X : IsWorkflow d' -> forall st, step_of d' st -> exists run, runs st run /\ AllBelow run /\ below run (get_or "cwlVersion" d' cv)).
    { intros W st ST. unfold step_of in ST. unfold IsWorkflow in W. unfold get_or in *.
      rewrite (finish_other _ _ "steps" ltac:(discriminate) E6) in ST. rewrite (finish_other _ _ "class" ltac:(discriminate) E6) in W.
      rewrite (finish_other _ _ "cwlVersion" ltac:(discriminate) E6).
      destruct (resolve_steps_inv _ _ _ _ _ _ _ _ _ R E5) as [[NW ->]|(W4 & l & cwl' & l' & L & S & ->)]; [contradiction|].
      assert (TL : Forall TC l). { apply TC_list. eapply TC_dget; [exact (r_text _ R)|exact L]. }
      destruct ST as (l0 & L0 & J). rewrite dget_dset_same in L0. injection L0 as <-.
      destruct (Stepped_versions _ _ _ _ _ _ _ _ IH TL U S) as (A & B & C).
      destruct (C st J) as (run & C1 & C2 & C3). exists run. split; auto. split; auto.
      rewrite dget_dset_other by discriminate. unfold get_or in C3.
      destruct (dget "cwlVersion" cwl') eqn:G; auto.
      destruct B as [B|[[v B] _]]; [|congruence]. rewrite <- B in C3. auto. }
    assert (BL : below d' (get_or "cwlVersion" d' cv)).
    { intros p a N D b DB. inversion N as [|d0 st run p' W S RU N']; subst.
      - destruct D as (t & D1 & D2). unfold get_or in DB. rewrite D1 in DB. destruct DB as (t' & X1 & X2). injection X1 as <-.
        rewrite D2 in X2. injection X2 as <-. destruct (version_gt a a) eqn:G; auto. rewrite (proj1 version_order _ _ G) in G. discriminate.
      - destruct (X W st S) as (run' & RU' & _ & H). unfold runs in *. rewrite RU in RU'. injection RU' as <-. eapply H; eauto. }
    split; auto. intros w N. inversion N as [|d0 st run p' W S RU N']; subst.
    - intros p a b NP DP DB. eapply BL; eauto. destruct DB as (t & D1 & D2). unfold get_or. rewrite D1. exists t. auto.
    - destruct (X W st S) as (run' & RU' & H & _). unfold runs in *. rewrite RU in RU'. injection RU' as <-. apply H; auto.
  Qed.

  (** the version of the packed process is its own, or that of a process a step runs *)
  Lemma pack_version_source fuel d base cv parent s d' s' t : packp fuel (JDict d) base cv parent s = Ok (d', s') ->
    TC (JDict d) -> TCtable parent -> dget "cwlVersion" d = Some (JStr t) ->
    dget "cwlVersion" d' = Some (JStr t) \/
    exists v st run, dget "cwlVersion" d' = Some v /\ step_of d' st /\ runs st run /\ dget "cwlVersion" run = Some v.
  Proof.
    intros E T TP G. destruct fuel as [|fuel]; [discriminate|].
    destruct (pack_process_inv _ _ _ _ _ _ _ _ E) as (d0 & d1 & d2 & udt & d3 & s1 & s2 & d4 & d5 & X & E1 & E2 & E3 & E4 & E5 & E6).
    injection X as <-.
    destruct (ready _ _ _ _ _ _ _ _ _ _ _ T TP E1 E2 E3 E4) as [R U].
    assert (G4 : dget "cwlVersion" d4 = Some (JStr t)).
    { destruct (listify_spec _ _ E1 T) as (T1 & _ & _ & _ & K1 & _). destruct (normalize_sources_spec d1) as (TN & KN & _). cbv zeta in *.
      destruct (load_schemadefs_spec _ _ _ _ _ _ files_text _ _ _ _ _ _ (TN T1) TP E2) as (T2 & _ & K2 & _).
      unfold resolve_schemadefs in E3. apply mbind_Ok in E3. destruct E3 as (d25 & s25 & E25 & E3).
      destruct (inline_types_spec _ _ _ _ _ _ files_text _ _ _ _ _ _ _ _ E25) as (_ & K25 & _).
      destruct (inline_types_spec _ _ _ _ _ _ files_text _ _ _ _ _ _ _ _ E3) as (_ & K3 & _).
      destruct (imports_ok_S _ _ _ _ _ _ _ _ _ _ E4) as [f ->].
      destruct (imports_dict _ _ _ _ _ _ _ _ _ _ E4) as (d4' & X & F). injection X as <-.
      eapply done_text; [exact F|]. rewrite K3, K25, K2, KN by discriminate. rewrite K1; auto. cbn. intuition discriminate. }
    unfold step_of. rewrite (finish_other _ _ "cwlVersion" ltac:(discriminate) E6), (finish_other _ _ "steps" ltac:(discriminate) E6).
    destruct (resolve_steps_inv _ _ _ _ _ _ _ _ _ R E5) as [[NW ->]|(W4 & l & cwl' & l' & L & S & ->)]; [auto|].
    assert (TL : Forall TC l). { apply TC_list. eapply TC_dget; [exact (r_text _ R)|exact L]. }
    destruct (Stepped_versions _ _ _ _ _ _ _ _ (pack_versions fuel) TL U S) as (_ & B & _).
    rewrite dget_dset_other by discriminate. destruct B as [B|[[v B1] (st & run & B2 & B3 & B4)]]; [left; congruence|].
    right. exists v, st, run. split; auto. split; [|split; [auto|congruence]]. eexists. rewrite dget_dset_same. split; eauto.
  Qed.
End Pack.
