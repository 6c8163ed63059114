(** * Proofs about what a packed document means: imports, steps, documents *)
From Verif Require Import PyBase PyBaseProofs UtilsModel PackModel PackSpec PackProofs PackTreeProofs PackStepProofs MeaningSpec MeaningProofs.

Section World.
  Variable url_scheme url_path : string -> string.
  Variable urljoin : string -> string -> string.
  Variable read_text urlopen : string -> result string.
  Variable parse_yaml : string -> result json.
  Variable ver : Type.
  Variable parse_version : string -> result ver.
  Variable version_gt : ver -> ver -> bool.
  Hypothesis no_file_scheme : forall u, url_scheme u <> "file://".

  Notation load := (load_linked_file url_scheme url_path urljoin read_text urlopen parse_yaml).
  Notation imports := (resolve_imports url_scheme url_path urljoin read_text urlopen parse_yaml).
  Notation packp := (pack_process url_scheme url_path urljoin read_text urlopen parse_yaml ver parse_version version_gt).
  Notation Contents := (Contents url_scheme url_path urljoin read_text urlopen parse_yaml).
  Notation Replaced := (Replaced url_scheme url_path urljoin read_text urlopen parse_yaml).
  Notation ReplacedValue := (ReplacedValue url_scheme url_path urljoin read_text urlopen parse_yaml).
  Notation Packs := (Packs url_scheme url_path urljoin read_text urlopen parse_yaml).
  Notation StepPacks := (StepPacks url_scheme url_path urljoin read_text urlopen parse_yaml).

  Lemma imports_Replaced base : forall fuel j j', imports fuel j base = Ok j' -> Replaced base j j'.
  Proof.
    induction fuel as [|fuel IH]; intros j j' E; [discriminate|].
    assert (V : forall v v', ivalue url_scheme url_path urljoin read_text urlopen parse_yaml fuel base v = Ok v' -> ReplacedValue base v v').
    { intros v v' X. unfold ivalue in X. pose proof (import_of_spec v) as S. destruct (import_of v) as [[link b]|] eqn:O.
      - destruct v as [| | | | | |d]; try discriminate. destruct d as [|[k x] d]; [discriminate|]. destruct d; [|discriminate]. cbn in O.
        apply bind_Ok in X. destruct X as (v1 & X1 & X). apply bind_Ok in X1. destruct X1 as (lk & X1 & X2). apply bind_Ok in X2. destruct X2 as ([v2 u] & X2 & X3).
        injection X3 as ->.
        destruct (String.eqb_spec k "$import") as [->|N1].
        + injection O as -> <-. destruct link; try discriminate. cbn in X1. injection X1 as ->.
          eapply Rv_import; [eapply load_Contents; eauto|]. auto.
        + destruct (String.eqb_spec k "$include") as [->|N2]; [|discriminate]. injection O as -> <-. destruct link; try discriminate. cbn in X1. injection X1 as ->.
          destruct (load_File _ _ _ _ _ _ no_file_scheme _ _ _ _ _ _ X2) as (t & F & ->). apply imports_atom in X; [|exact I]. subst v'. eapply Rv_include; eauto.
      - cbn [bind] in X. apply Rv_plain; auto. }
    destruct j as [| | | | |l|d]; try (apply imports_atom in E; [subst j'; apply Re_atom; exact I|exact I]).
    - destruct (imports_list _ _ _ _ _ _ _ _ _ _ E) as (l' & -> & F). apply Re_list. clear E. induction F; constructor; auto.
    - destruct (imports_dict _ _ _ _ _ _ _ _ _ _ E) as (d' & -> & F). apply Re_dict. clear E. induction F as [|kv kv' d d' [A B] F' IHF]; constructor; auto.
  Qed.

  Hypothesis files_text : forall t j, parse_yaml t = Ok j -> TextClasses j.

  Section Steps.
    Variable pk : json -> string -> json -> list (string * json) -> M dict.
    Hypothesis pk_packs : forall src base cv par s run s', TC src -> TCtable par -> NoDup (dkeys par) ->
      pk src base cv par s = Ok (run, s') -> exists d, src = JDict d /\ Packs base (fun p => dget p par) d run.

    Lemma step_list_packs fuel base cv udt : TCtable udt -> NoDup (dkeys udt) -> forall l cwl s cwl' l' s', Forall TC l ->
      resolve_step_list url_scheme url_path urljoin read_text urlopen parse_yaml ver parse_version version_gt pk fuel base cv udt cwl l s
        = Ok ((cwl', l'), s') ->
      Forall2 (StepPacks base (fun p => dget p udt)) l l' /\ forall k, k <> "cwlVersion" -> dget k cwl' = dget k cwl.
    Proof.
      intros U ND. induction l as [|v l IH]; intros cwl s cwl' l' s' T E; cbn [resolve_step_list] in E.
      - inv_ok. split; [constructor|auto].
      - apply Forall_cons_iff in T. destruct T as [T1 T].
        apply mbind_Ok in E. destruct E as ([cwl1 v1] & s1 & E1 & E). apply mbind_Ok in E. destruct E as ([cwl2 l2] & s2 & E2 & E).
        unfold ret in E. injection E as <- <- <-. destruct (IH _ _ _ _ _ T E2) as [F K].
        unfold resolve_step in E1. destruct v as [| | | | | |d]; try (inv_ok; split; [constructor; [apply Sp_other; discriminate|auto]|auto]; fail).
        apply mbind_Ok in E1. destruct E1 as (x & s3 & _ & E1). apply mbind_Ok in E1. destruct E1 as (run & s4 & ER & E1).
        apply mbind_Ok in E1. destruct E1 as (cwl3 & s5 & EV & E1). apply lift_Ok in EV. destruct EV as (x1 & EV & X). injection X as -> ->.
        cbn in E1. injection E1 as <- <- <-.
        split; [|intros k N; rewrite K by auto; eapply raise_version_other; eauto].
        constructor; auto. destruct (dget "run" d) as [src|] eqn:R; [|discriminate].
        assert (D : (exists link, src = JStr link) \/ exists s4', pk src base (get_or "cwlVersion" cwl cv) udt s3 = Ok (run, s4')) by (destruct src; eauto).
        destruct D as [[link ->]|[s4' D]].
        + apply mbind_Ok in ER. destruct ER as ([j u] & s6 & EL & ER). apply lift_Ok in EL. destruct EL as (x2 & EL & X). injection X as <- ->.
          destruct (pk_packs _ _ _ _ _ _ _ (load_TC _ _ _ _ _ _ files_text _ _ _ _ _ EL) ltac:(constructor) ltac:(constructor) ER) as (rd & -> & P).
          eapply Sp_file; [exact R|eapply load_Contents; eauto|exact P|apply With_dset].
        + destruct (pk_packs _ _ _ _ _ _ _ (TC_dget _ _ _ T1 R) U ND D) as (rd & -> & P).
          eapply Sp_inline; [exact R|exact P|apply With_dset].
    Qed.
  End Steps.

  Lemma pack_process_packs : forall fuel j base cv parent s d' s', TC j -> TCtable parent -> NoDup (dkeys parent) ->
    packp fuel j base cv parent s = Ok (d', s') -> exists d, j = JDict d /\ Packs base (fun p => dget p parent) d d'.
  Proof.
    induction fuel as [|fuel IH]; intros j base cv parent s d' s' T TP ND E; [discriminate|].
    destruct (pack_process_inv _ _ _ _ _ _ _ _ _ _ _ _ _ _ _ _ _ E) as (d & d1 & d2 & udt & d3 & s1 & s2 & d4 & d5 & -> & E1 & E2 & E3 & E4 & E5 & E6).
    destruct (ready _ _ _ _ _ _ files_text _ _ _ _ _ _ _ _ _ _ _ T TP E1 E2 E3 E4) as [R U].
    exists d. split; auto.
    pose proof (listify_listed _ _ E1) as LI. pose proof (normalize_normal d1) as NO.
    set (dn := normalize_sources d1) in *.
    assert (SEC : (exists l, dget "inputs" dn = Some (JList l)) /\ (exists l, dget "outputs" dn = Some (JList l)) /\ exists l, dget "requirements" dn = Some (JList l)).
    { destruct (listify_spec _ _ E1 T) as (T1 & I1 & O1 & R1 & K1 & S1). destruct (normalize_sources_spec d1) as (TN & KN & ON & SN).
      split; [|split; [exact (ON O1)|]].
      - unfold dn. rewrite KN by discriminate. exact I1.
      - unfold dn. rewrite KN by discriminate. exact R1. }
    destruct SEC as ((li & GI) & (lo & GO) & (lr & GR)).
    destruct (schemadefs_table _ _ _ _ _ _ no_file_scheme _ _ _ _ _ _ _ GR ND E2) as (NU & lr' & keep & F & TB & WO & GK & K2).
    unfold resolve_schemadefs in E3. apply mbind_Ok in E3. destruct E3 as (d25 & s25 & E25 & E3).
    assert (GI2 : dget "inputs" d2 = Some (JList li)) by (rewrite K2 by discriminate; auto).
    destruct (inline_types_ports _ _ _ _ _ _ no_file_scheme _ _ _ _ _ _ _ _ _ GI2 E25) as (li' & PI & ->).
    assert (GO2 : dget "outputs" (dset "inputs" (JList li') d2) = Some (JList lo)) by (rewrite dget_dset_other, K2 by discriminate; auto).
    destruct (inline_types_ports _ _ _ _ _ _ no_file_scheme _ _ _ _ _ _ _ _ _ GO2 E3) as (lo' & PO & ->).
    set (d3 := dset "outputs" (JList lo') (dset "inputs" (JList li') d2)) in *.
    pose proof (imports_Replaced _ _ _ _ E4) as RE.
    assert (TY : AllTyped url_scheme url_path urljoin read_text urlopen parse_yaml base (fun p => dget p parent) (fun p => dget p udt) dn d3).
    { split; [intros k N; unfold d3; cbn in N; rewrite 2 dget_dset_other by (intros ->; tauto); apply K2; intros ->; tauto|].
      split; [|split].
      - exists lr, lr'. split; auto. split; auto. split; auto. exists keep. split; auto. unfold d3. rewrite 2 dget_dset_other by discriminate. auto.
      - exists li, li'. split; auto. split; auto. unfold d3. rewrite dget_dset_other by discriminate. apply dget_dset_same.
      - exists lo, lo'. split; auto. split; auto. unfold d3. apply dget_dset_same. }
    destruct (r_reqs _ R) as [rl RL].
    assert (S5 : (forall k, k <> "steps" -> k <> "cwlVersion" -> dget k d5 = dget k d4) /\
      (~ IsWorkflow d4 -> dget "steps" d5 = dget "steps" d4) /\
      (IsWorkflow d4 -> exists l l', dget "steps" d4 = Some (JList l) /\ dget "steps" d5 = Some (JList l') /\ Forall2 (StepPacks base (fun p => dget p udt)) l l')).
    { unfold resolve_steps in E5. destruct (get_is "class" "Workflow" d4) eqn:W; cbn [negb] in E5.
      - apply get_is_spec in W. destruct (r_steps _ R W) as (l & L & _). unfold item in E5. rewrite L in E5.
        apply mbind_Ok in E5. destruct E5 as (x & s3 & X & E5). cbn in X. injection X as <- <-.
        apply mbind_Ok in E5. destruct E5 as (x & s3 & X & E5). cbn in X. injection X as <- <-.
        apply mbind_Ok in E5. destruct E5 as ([cwl' l'] & s3 & X & E5). cbn in E5. injection E5 as <- <-.
        assert (TL : Forall TC l) by (apply TC_list; eapply TC_dget; [exact (r_text _ R)|exact L]).
        destruct (step_list_packs _ (fun src b c par s0 run s0' A B C D => IH src b c par s0 run s0' A B C D) _ _ _ _ U NU _ _ _ _ _ _ TL X) as [F2 K].
        split; [intros k N1 N2; rewrite dget_dset_other by auto; auto|]. split; [contradiction|].
        intros _. exists l, l'. rewrite dget_dset_same. auto.
      - apply get_is_false in W. cbn in E5. injection E5 as <- <-. split; auto. split; auto. contradiction. }
    destruct S5 as (K5 & N5 & W5).
    assert (RL5 : dget "requirements" d5 = Some (JList rl)) by (rewrite K5 by discriminate; auto).
    destruct (finish_reqs _ _ _ RL5 E6) as (rl' & RL' & RX).
    assert (OT : forall k, k <> "requirements" -> dget k d' = dget k d5) by (intros; eapply finish_other; eauto).
    eapply Pk; [exact LI|exact NO|exact TY|exact RE| | | | ].
    - intros k N. cbn in N. rewrite OT, K5 by (intros ->; tauto). reflexivity.
    - rewrite OT by discriminate. auto.
    - rewrite OT by discriminate. auto.
    - rewrite RL', RL. destruct RX as [->| ->]; [left; auto|right; eauto].
  Qed.
End World.
