(** * Packing: properties C21-C26, C51, C52 *)
From Verif Require Import PyBase PyBaseProofs UtilsModel PackModel PackSpec PackProofs PackTreeProofs PackStepProofs PackNameProofs.

Section Packing.
  Variable url_scheme url_path : string -> string.
  Variable urljoin : string -> string -> string.
  Variable read_text urlopen : string -> result string.
  Variable parse_yaml : string -> result json.
  Variable ver : Type.
  Variable parse_version : string -> result ver.
  Variable version_gt : ver -> ver -> bool.

  Notation load := (load_linked_file url_scheme url_path urljoin read_text urlopen parse_yaml).
  Notation pack := (pack url_scheme url_path urljoin read_text urlopen parse_yaml ver parse_version version_gt).
  Notation inline := (inline_type url_scheme url_path urljoin read_text urlopen parse_yaml).

  (** no file has an import or an include as its whole contents *)
  Definition no_file_is_an_import : Prop := forall t j, parse_yaml t = Ok j -> ~ IsImport j.
  (** a "class" is written as a text, in every file *)
  Definition classes_are_texts : Prop := forall t j, parse_yaml t = Ok j -> TextClasses j.

  Lemma pack_inv fuel path s d s' : pack fuel path s = Ok (d, s') ->
    exists d0 url, load fuel path "" true = Ok (JDict d0, url) /\
      ((dget "$graph" d0 <> None /\ d = d0 /\ s' = s) \/
       (dget "$graph" d0 = None /\ exists v, dget "cwlVersion" d0 = Some v /\
        pack_process url_scheme url_path urljoin read_text urlopen parse_yaml ver parse_version version_gt fuel (JDict d0) url v [] s = Ok (d, s'))).
  Proof.
    unfold PackModel.pack. intros E. apply mbind_Ok in E. destruct E as ([j url] & s1 & E1 & E).
    apply lift_Ok in E1. destruct E1 as (x & E1 & X). inversion X; subst; clear X.
    destruct j as [| | | | | |d0]; try discriminate. exists d0, url. split; auto.
    destruct (dmem "$graph" d0) eqn:G.
    - unfold ret in E. injection E as <- <-. left. split; auto. unfold dmem in G. intros X. rewrite X in G. discriminate.
    - right. split; [unfold dmem in G; destruct (dget "$graph" d0); [discriminate|reflexivity]|].
      apply mbind_Ok in E. destruct E as (v & s1 & E2 & E). apply lift_Ok in E2. destruct E2 as (x & E2 & X). inversion X; subst; clear X.
      unfold item in E2. destruct (dget "cwlVersion" d0) as [v'|]; [|discriminate]. injection E2 as ->. eauto.
  Qed.

  (** ** C21 *)
  Theorem C21_packed_self_contained_partial fuel path s d s' :
    no_file_is_an_import -> classes_are_texts ->
    pack fuel path s = Ok (d, s') ->
    (dget "$graph" d <> None /\ exists url, load fuel path "" true = Ok (JDict d, url)) \/
    (SelfContained d /\ NoImports (JDict d)).
  Proof.
    intros FP FT E. destruct (pack_inv _ _ _ _ _ E) as (d0 & url & L & [(G & -> & _)|(G & v & V & P)]); [left; eauto|].
    right. eapply pack_packed; [exact FT|exact FP| |constructor|exact P]. exact (load_TC _ _ _ _ _ _ FT _ _ _ _ _ L).
  Qed.

  (** ** C22 *)
  Theorem C22_packed_version_highest fuel path s d s' w p a b :
    classes_are_texts -> ordered ver version_gt ->
    pack fuel path s = Ok (d, s') -> dget "$graph" d = None ->
    Nested w d -> Nested p w -> declares parse_version p a -> declares parse_version w b -> version_gt a b = false.
  Proof.
    intros FT O E NG NW NP DP DW. destruct (pack_inv _ _ _ _ _ E) as (d0 & url & L & [(G & -> & _)|(G & v & V & P)]); [contradiction|].
    eapply (pack_versions _ _ _ _ _ _ _ _ _ FT O); [exact P| |constructor|exact NW|exact NP|exact DP|exact DW].
    exact (load_TC _ _ _ _ _ _ FT _ _ _ _ _ L).
  Qed.
  Theorem C22_packed_version_declared fuel path s d s' d0 url t :
    classes_are_texts -> ordered ver version_gt ->
    pack fuel path s = Ok (d, s') -> load fuel path "" true = Ok (JDict d0, url) -> dget "$graph" d0 = None ->
    dget "cwlVersion" d0 = Some (JStr t) ->
    dget "cwlVersion" d = Some (JStr t) \/
    exists v st run, dget "cwlVersion" d = Some v /\ step_of d st /\ runs st run /\ dget "cwlVersion" run = Some v.
  Proof.
    intros FT O E L NG V. destruct (pack_inv _ _ _ _ _ E) as (d1 & url' & L' & [(G & -> & _)|(G & v & V' & P)]).
    - rewrite L in L'. injection L' as <- <-. contradiction.
    - rewrite L in L'. injection L' as <- <-. eapply (pack_version_source _ _ _ _ _ _ _ _ _ FT O); [exact P| |constructor|exact V].
      exact (load_TC _ _ _ _ _ _ FT _ _ _ _ _ L).
  Qed.

  (** ** C23 *)
  Theorem C23_subworkflow_listed fuel path s d s' w :
    classes_are_texts -> pack fuel path s = Ok (d, s') -> dget "$graph" d = None ->
    Nested w d -> IsWorkflow w -> runs_a_workflow w -> lists_subworkflow w.
  Proof.
    intros FT E NG N W R. destruct (pack_inv _ _ _ _ _ E) as (d0 & url & L & [(G & -> & _)|(G & v & V & P)]); [contradiction|].
    eapply (pack_subworkflow _ _ _ _ _ _ _ _ _ FT); [|constructor|exact P|exact N|exact W|exact R].
    exact (load_TC _ _ _ _ _ _ FT _ _ _ _ _ L).
  Qed.

  (** ** C25 *)
  Theorem C25_inlined fuel v base udt s j s' : inline fuel v base udt s = Ok (j, s') -> Inlined j.
  Proof. apply inline_inlined. Qed.
  Theorem C25_packed_ports fuel path s d s' p :
    classes_are_texts -> pack fuel path s = Ok (d, s') -> dget "$graph" d = None -> Nested p d -> ports_builtin p.
  Proof.
    intros FT E NG N. destruct (pack_inv _ _ _ _ _ E) as (d0 & url & L & [(G & -> & _)|(G & v & V & P)]); [contradiction|].
    eapply (pack_ports _ _ _ _ _ _ _ _ _ FT); [|constructor|exact P|exact N].
    exact (load_TC _ _ _ _ _ _ FT _ _ _ _ _ L).
  Qed.
  (** an unknown name is an error whatever the file system *)
  Theorem C25_unknown_rejected fuel name base udt s :
    ~ In name built_in_types -> (forall p, name <> (p ++ "[]")%string) -> (forall p, name <> (p ++ "?")%string) ->
    has_char "#" name = false -> dget (base ++ "#" ++ name)%string udt = None ->
    inline (S fuel) (JStr name) base udt s = Err RuntimeError.
  Proof.
    intros B A O H D. apply inline_unknown; auto.
    - destruct (endswith "[]" name) eqn:E; auto. apply endswith_spec in E. destruct E as [p E]. destruct (A p E).
    - destruct (endswith "?" name) eqn:E; auto. apply endswith_spec in E. destruct E as [p E]. destruct (O p E).
    - unfold type_path. rewrite H. exact D.
  Qed.

  (** ** C26 *)
  Theorem C26_names_distinct_partial s1 f1 r1 b1 u1 j1 s2 s3 f2 r2 b2 u2 j2 s4 :
    Run url_scheme url_path urljoin read_text urlopen parse_yaml naming0 s1 ->
    plain_table u1 -> reference r1 -> inline f1 (JStr r1) b1 u1 s1 = Ok (j1, s2) ->
    Run url_scheme url_path urljoin read_text urlopen parse_yaml s2 s3 ->
    plain_table u2 -> reference r2 -> inline f2 (JStr r2) b2 u2 s3 = Ok (j2, s4) ->
    exists d1 d2 n1 n2, j1 = JDict d1 /\ j2 = JDict d2 /\
      dget "name" d1 = Some (JStr n1) /\ dget "name" d2 = Some (JStr n2) /\ n1 <> n2.
  Proof.
    intros R0 P1 A1 E1 R1 P2 A2 E2.
    destruct (Run_Names _ _ _ _ _ _ _ _ R0 Names0) as [N1 _].
    destruct (inline_reference _ _ _ _ _ _ _ _ _ _ _ _ _ P1 N1 A1 E1) as (d1 & n1 & x1 & -> & D1 & G1 & N2).
    destruct (Run_Names _ _ _ _ _ _ _ _ R1 N2) as [N3 [x2 G2]].
    destruct (inline_reference _ _ _ _ _ _ _ _ _ _ _ _ _ P2 N3 A2 E2) as (d2 & n2 & x3 & -> & D2 & G3 & N4).
    exists d1, d2, n1, n2. repeat (split; auto). intros ->.
    pose proof (n_nodup _ N4) as ND. rewrite G3 in ND. apply NoDup_remove_2 in ND. apply ND.
    apply in_app_iff. left. rewrite G2, G1, !in_app_iff. cbn. auto.
  Qed.
  (** and so do the copies made inside other copies: [given] lists the names in order *)
  Theorem C26_all_names_distinct_partial s :
    Run url_scheme url_path urljoin read_text urlopen parse_yaml naming0 s -> NoDup (given s).
  Proof. intros R. destruct (Run_Names _ _ _ _ _ _ _ _ R Names0) as [N _]. exact (n_nodup _ N). Qed.

  (** ** C52 *)
  Theorem C52_imports_in_place_partial fuel j base j' :
    (forall t j, parse_yaml t = Ok j -> NoImports j) ->
    resolve_imports url_scheme url_path urljoin read_text urlopen parse_yaml fuel j base = Ok j' ->
    Expands (reaches url_scheme url_path urljoin read_text urlopen parse_yaml)
            (reaches_text url_scheme url_path urljoin read_text urlopen parse_yaml) base j j'.
  Proof. intros F. apply imports_expand. exact F. Qed.
End Packing.
Print Assumptions C21_packed_self_contained_partial.
Print Assumptions C22_packed_version_highest.
Print Assumptions C22_packed_version_declared.
Print Assumptions C23_subworkflow_listed.
Print Assumptions C25_inlined.
Print Assumptions C25_packed_ports.
Print Assumptions C25_unknown_rejected.
Print Assumptions C26_names_distinct_partial.
Print Assumptions C26_all_names_distinct_partial.
Print Assumptions C52_imports_in_place_partial.

(** C23: exactly what is added, and when *)
Theorem C23_added_exactly d d' : add_missing_requirements d = Ok d' ->
  (d' <> d -> IsWorkflow d /\ runs_a_workflow d /\ ~ lists_subworkflow d) /\
  (IsWorkflow d -> runs_a_workflow d -> lists_subworkflow d') /\
  (forall k, k <> "requirements" -> dget k d' = dget k d) /\
  (forall l, dget "requirements" d = Some (JList l) ->
     dget "requirements" d' = Some (JList l) \/ dget "requirements" d' = Some (JList (l ++ [subworkflow_requirement]))).
Proof.
  intros E. destruct (add_missing_spec _ _ E) as (l & L & [[-> H]|(W & R & N & ->)]).
  - split; [congruence|]. split; [|auto]. intros W R. destruct (H W R) as (r & I & C). exists r. split; auto. exists l. split; auto.
    unfold get_or in L. destruct (dget "requirements" d); [congruence|]. injection L as <-. destruct I.
  - split.
    { intros _. split; auto. split; auto. intros (r & (l0 & L0 & I) & C). unfold get_or in L. rewrite L0 in L. injection L as ->. eapply N; eauto. }
    split.
    { intros _ _. exists [("class", JStr "SubworkflowFeatureRequirement")]. split; [|reflexivity]. eexists. rewrite dget_dset_same. split; [reflexivity|].
      apply in_app_iff. right. left. reflexivity. }
    split; [intros k NK; apply dget_dset_other; auto|]. intros l0 L0. unfold get_or in L. rewrite L0 in L. injection L as ->.
    right. apply dget_dset_same.
Qed.
Print Assumptions C23_added_exactly.

(** ** C24 *)
Theorem C24_sources_normalised d : let d' := normalize_sources d in
  (~ IsWorkflow d -> d' = d) /\
  (forall k, k <> "steps" -> k <> "outputs" -> dget k d' = dget k d) /\ dkeys d' = dkeys d /\
  (IsWorkflow d -> forall l, dget "steps" d = Some (JList l) -> exists l', dget "steps" d' = Some (JList l') /\ Forall2 StepNormal l l') /\
  (IsWorkflow d -> forall l, dget "outputs" d = Some (JList l) ->
     exists l', dget "outputs" d' = Some (JList l') /\ Forall2 (EntryNormal "outputSource") l l').
Proof.
  cbv zeta. unfold normalize_sources. destruct (get_is "class" "Workflow" d) eqn:W; cbn [negb].
  2:{ apply get_is_false in W. repeat split; auto; contradiction. }
  apply get_is_spec in W. split; [contradiction|].
  assert (MF : forall {A} (R : A -> A -> Prop) f l, (forall x, R x (f x)) -> Forall2 R l (map f l)).
  { intros A R f l H. induction l; constructor; auto. }
  set (d1 := match dget "steps" d with Some (JList l) => dset "steps" (JList (map normalize_step l)) d | _ => d end).
  assert (A : (forall k, k <> "steps" -> dget k d1 = dget k d) /\ dkeys d1 = dkeys d /\
     forall l, dget "steps" d = Some (JList l) -> exists l', dget "steps" d1 = Some (JList l') /\ Forall2 StepNormal l l').
  { unfold d1. destruct (dget "steps" d) as [[| | | |s|l|d2]|] eqn:E; try (repeat split; auto; discriminate).
    split; [intros; apply dget_dset_other; auto|]. split; [eapply dkeys_dset_same; eauto|].
    intros l0 X. injection X as <-. eexists. rewrite dget_dset_same. split; [reflexivity|]. apply MF. apply normalize_step_spec. }
  destruct A as (A1 & A2 & A3).
  destruct (dget "outputs" d1) as [[| | | |s|l|d2]|] eqn:E;
    try (split; [auto|]; split; [auto|]; split; [auto|]; intros _ l L; rewrite A1 in E by discriminate; congruence).
  split; [intros k K1 K2; rewrite dget_dset_other by auto; auto|].
  split; [rewrite <- A2; eapply dkeys_dset_same; eauto|]. split.
  - intros _ l0 L. rewrite dget_dset_other by discriminate. auto.
  - intros _ l0 L. rewrite A1 in E by discriminate. rewrite L in E. injection E as ->.
    eexists. rewrite dget_dset_same. split; [reflexivity|]. apply MF. apply normalize_entry_spec.
Qed.
Print Assumptions C24_sources_normalised.
Theorem C24_normalising_twice d : (forall s, SourceRef d s -> ~ DoubleHash s) ->
  normalize_sources (normalize_sources d) = normalize_sources d.
Proof. apply normalize_sources_twice. Qed.
Print Assumptions C24_normalising_twice.
Theorem C24_graph_unchanged us up uj rt uo py ver pv gt fuel path s d url :
  load_linked_file us up uj rt uo py fuel path "" true = Ok (JDict d, url) -> dget "$graph" d <> None ->
  pack us up uj rt uo py ver pv gt fuel path s = Ok (d, s).
Proof.
  intros L G. unfold pack, mbind, lift. rewrite L. cbn. unfold dmem. destruct (dget "$graph" d); [reflexivity|congruence].
Qed.
Print Assumptions C24_graph_unchanged.

(** ** C25: a type that contains itself is never finished *)
Theorem C25_recursive_type_never_ends us up uj rt uo py fuel s :
  inline_type us up uj rt uo py fuel (JStr "R") "" recursive_table s = Err OutOfFuel.
Proof. apply recursive_diverges. Qed.
Print Assumptions C25_recursive_type_never_ends.

(** ** a small file system *)
Module Demo.
  Definition files : list (string * json) :=
    [("main.cwl", JDict [("class", JStr "Workflow"); ("cwlVersion", JStr "v1.0");
        ("requirements", JDict [("SchemaDefRequirement", JDict [("types", JList [JDict [("$import", JStr "types.yml")]])])]);
        ("inputs", JDict [("x", JStr "types.yml#T")]); ("outputs", JList []);
        ("steps", JDict [("s", JDict [("run", JStr "sub.cwl"); ("in", JDict [("a", JStr "#x")]); ("out", JList [])])])]);
     ("types.yml", JList [JDict [("name", JStr "T"); ("type", JStr "enum"); ("symbols", JList [JStr "a"])]]);
     ("sub.cwl", JDict [("class", JStr "Workflow"); ("cwlVersion", JStr "v1.1"); ("inputs", JDict [("a", JStr "Any")]);
        ("outputs", JList []); ("hints", JDict [("$import", JStr "hints.yml")]);
        ("steps", JList [JDict [("id", JStr "t"); ("in", JList []); ("out", JList []);
           ("run", JDict [("class", JStr "CommandLineTool"); ("cwlVersion", JStr "v1.2"); ("inputs", JList []); ("outputs", JList [])])]])]);
     ("hints.yml", JList []);
     ("chain.cwl", JDict [("class", JStr "CommandLineTool"); ("cwlVersion", JStr "v1.0"); ("inputs", JList []); ("outputs", JList []);
        ("hints", JDict [("$import", JStr "link.yml")])]);
     ("link.yml", JDict [("$import", JStr "hints.yml")]);
     ("done.cwl", JDict [("cwlVersion", JStr "v1.0"); ("$graph", JList [])])].
  Definition text (s : string) : result string := Ok s.
  Definition parse (s : string) : result json := match dget s files with Some j => Ok j | None => Err FileNotFoundError end.
  (** without the file whose whole contents are an import *)
  Definition parse' (s : string) : result json := if String.eqb s "link.yml" then Err FileNotFoundError else parse s.
  Definition version (s : string) : result nat :=
    if String.eqb s "1.0" then Ok 0 else if String.eqb s "1.1" then Ok 1 else if String.eqb s "1.2" then Ok 2 else Err ValueError.
  Definition no_scheme (_ : string) : string := "".
  Definition join (b l : string) : string := l.
  Definition run (p : string) := pack no_scheme (fun s => s) join text text parse' nat version (fun a b => Nat.ltb b a) 30 p naming0.

  Fixpoint ImportFree (j : json) : bool :=
    match j with
    | JList l => forallb ImportFree l
    | JDict d => negb (match d with [(k, _)] => smem k ["$import"; "$include"] | _ => false end) && forallb (fun kv => ImportFree (snd kv)) d
    | _ => true
    end.
  Lemma parse_all (P : json -> Prop) : Forall (fun kv => fst kv = "link.yml" \/ P (snd kv)) files -> forall t j, parse' t = Ok j -> P j.
  Proof.
    intros F t j E. unfold parse', parse in E. destruct (String.eqb_spec t "link.yml") as [->|N]; [discriminate|].
    destruct (dget t files) as [x|] eqn:G; [|discriminate]. injection E as ->. apply dget_In in G. rewrite Forall_forall in F.
    destruct (F _ G) as [X|X]; auto. contradiction.
  Qed.
  Fixpoint classes_ok (j : json) : bool :=
    match j with
    | JList l => forallb classes_ok l
    | JDict d => match dget "class" d with Some (JStr _) | None => true | _ => false end && forallb (fun kv => classes_ok (snd kv)) d
    | _ => true
    end.
  Lemma classes_ok_TC j : classes_ok j = true -> TextClasses j.
  Proof.
    induction j as [| | | | |l IH|d IH] using json_ind'; intros H; try (apply TC_atom; exact I).
    - apply TC_list. cbn in H. rewrite forallb_forall in H. rewrite Forall_forall in *. intros x X. apply IH; auto.
    - cbn in H. apply andb_true_iff in H. destruct H as [H1 H2]. rewrite forallb_forall in H2. rewrite Forall_forall in IH.
      change (TC (JDict d)). rewrite TC_def. apply every_dict. split.
      + intros d' v X G. injection X as <-. rewrite G in H1. destruct v; try discriminate. eauto.
      + apply Forall_forall. intros [k v] X. apply (IH (k, v)); auto.
  Qed.
  Lemma texts : classes_are_texts parse'.
  Proof. intros t j. apply (parse_all TextClasses). repeat (apply Forall_cons; [right; apply classes_ok_TC; reflexivity|]). constructor. Qed.
  Lemma plain : no_file_is_an_import parse'.
  Proof.
    intros t j. apply (parse_all (fun j => ~ IsImport j)).
    repeat (apply Forall_cons; [first [left; reflexivity|right; intros (k & l & X & _); discriminate X]|]). constructor.
  Qed.
  Lemma order : ordered nat (fun a b => Nat.ltb b a).
  Proof. split; [intros a b H; apply Nat.ltb_lt in H; apply Nat.ltb_ge; lia|]. intros a b c H. rewrite !Nat.ltb_lt in *. lia. Qed.
End Demo.
Definition demo_packed : dict := match Demo.run "main.cwl" with Ok (d, _) => d | Err _ => [] end.

(** C21-C23, C25: the hypotheses are met by a workflow running a workflow running a tool *)
Example C21_example : exists s, Demo.run "main.cwl" = Ok (demo_packed, s) /\ no_file_is_an_import Demo.parse' /\ classes_are_texts Demo.parse'.
Proof. eexists. split; [vm_compute; reflexivity|]. split; [apply Demo.plain|apply Demo.texts]. Qed.
Example C22_example : ordered nat (fun a b => Nat.ltb b a) /\ dget "$graph" demo_packed = None /\
  dget "cwlVersion" demo_packed = Some (JStr "v1.2") /\
  exists st run, IsWorkflow demo_packed /\ step_of demo_packed st /\ runs st run /\ dget "cwlVersion" run = Some (JStr "v1.2") /\ IsWorkflow run.
Proof.
  split; [apply Demo.order|]. split; [reflexivity|]. split; [reflexivity|]. eexists _, _. split; [reflexivity|].
  split; [eexists; split; [vm_compute; reflexivity|left; reflexivity]|]. vm_compute. split; [reflexivity|]. split; reflexivity.
Qed.
Example C23_example : runs_a_workflow demo_packed /\ dget "requirements" demo_packed = Some (JList [subworkflow_requirement]).
Proof.
  split; [|reflexivity]. eexists _, _. split; [eexists; split; [vm_compute; reflexivity|left; reflexivity]|]. vm_compute. split; reflexivity.
Qed.
Example C24_example : exists d, Demo.run "done.cwl" = Ok (d, naming0) /\ dget "$graph" d <> None /\
  normalize_sources [("class", JStr "Workflow"); ("steps", JList [JDict [("in", JList [JDict [("source", JStr "#a/b")]])]])]
    = [("class", JStr "Workflow"); ("steps", JList [JDict [("in", JList [JDict [("source", JStr "a/b")]])]])].
Proof. eexists. split; [vm_compute; reflexivity|]. split; [discriminate|reflexivity]. Qed.
Example C25_example : dget "inputs" demo_packed =
  Some (JList [JDict [("type", JDict [("name", JStr "T"); ("type", JStr "enum"); ("symbols", JList [JStr "a"])]); ("id", JStr "x")]]).
Proof. reflexivity. Qed.

(** C21 is false in general: a file whose whole contents are an import leaves that import in place *)
Theorem C21_import_remains_refuted : exists us up uj rt uo py ver pv gt fuel path d s,
  classes_are_texts py /\ ordered ver gt /\
  pack us up uj rt uo py ver pv gt fuel path naming0 = Ok (d, s) /\ dget "$graph" d = None /\ ~ NoImports (JDict d).
Proof.
  exists Demo.no_scheme, (fun s => s), Demo.join, Demo.text, Demo.text, Demo.parse, nat, Demo.version, (fun a b => Nat.ltb b a), 30, "chain.cwl".
  eexists _, _. split.
  { intros t j E. unfold Demo.parse in E. destruct (dget t Demo.files) as [x|] eqn:G; [|discriminate]. injection E as ->. apply dget_In in G.
    assert (F : Forall (fun kv => TextClasses (snd kv)) Demo.files) by (repeat (apply Forall_cons; [apply Demo.classes_ok_TC; reflexivity|]); constructor).
    rewrite Forall_forall in F. exact (F _ G). }
  split; [apply Demo.order|]. split; [vm_compute; reflexivity|]. split; [reflexivity|].
  intros H. eapply (H (JDict [("$import", JStr "hints.yml")])); [|exists "$import", (JStr "hints.yml"); auto].
  apply (In_dict "hints"). cbn. auto 10.
Qed.
Print Assumptions C21_import_remains_refuted.

(** ** C26 *)
Module Names.
  Definition enum (n : string) : json := JDict [("name", JStr n); ("type", JStr "enum"); ("symbols", JList [])].
  Definition table : list (string * json) := [("#T", enum "T"); ("#U", enum "U")].
  Definition clash : list (string * json) := [("#T", enum "T"); ("#T_3", enum "T_3")].
  Definition inline := inline_type Demo.no_scheme (fun s => s) Demo.join Demo.text Demo.text Demo.parse.
End Names.
Example C26_example : plain_table Names.table /\ reference "T" /\ exists s1 s2,
  Names.inline 5 (JStr "T") "" Names.table naming0 = Ok (Names.enum "T", s1) /\
  Names.inline 5 (JStr "T") "" Names.table s1 = Ok (Names.enum "T_3", s2).
Proof.
  split.
  - assert (NN : forall n, has_char "_" n = false -> ~ numbered n).
    { assert (H : forall p q, has_char "_" (p ++ String "_" q) = true).
      { induction p as [|c p IH]; intros q; cbn [append has_char]; [reflexivity|]. rewrite IH. apply orb_true_r. }
      intros n E (p & k & X). subst n. change ("_" ++ str_nat k)%string with (String "_" (str_nat k)) in E. rewrite H in E. discriminate. }
    intros k d [X|[X|[]]]; injection X as <- <-; (split; [intros n X; injection X as <-; apply NN; reflexivity|reflexivity]).
  - split; [split; [reflexivity|split; [reflexivity|cbn; intuition discriminate]]|].
    eexists _, _. split; vm_compute; reflexivity.
Qed.
(** a user type may itself be called T_3 *)
Theorem C26_names_refuted : exists j1 j2 j3 s1 s2 s3,
  Names.inline 5 (JStr "T") "" Names.clash naming0 = Ok (j1, s1) /\
  Names.inline 5 (JStr "T") "" Names.clash s1 = Ok (j2, s2) /\
  Names.inline 5 (JStr "T_3") "" Names.clash s2 = Ok (j3, s3) /\
  exists d2 d3 n, j2 = JDict d2 /\ j3 = JDict d3 /\ dget "name" d2 = Some (JStr n) /\ dget "name" d3 = Some (JStr n).
Proof.
  eexists _, _, _, _, _, _. split; [vm_compute; reflexivity|]. split; [vm_compute; reflexivity|]. split; [vm_compute; reflexivity|].
  eexists _, _, _. repeat split; reflexivity.
Qed.
Print Assumptions C26_names_refuted.

(** ** C51 *)
(** the documented errors for incomplete types are never raised: computing their message fails first *)
Theorem C51_incomplete_types_refuted us up uj rt uo py fuel base udt s d :
  dget "$import" d = None ->
  (dget "type" d = Some (JStr "array") -> dget "items" d = None ->
   inline_type us up uj rt uo py (S fuel) (JDict d) base udt s = Err AttributeError) /\
  (dget "type" d = Some (JStr "record") -> dget "fields" d = None ->
   inline_type us up uj rt uo py (S fuel) (JDict d) base udt s = Err AttributeError).
Proof.
  intros I. split; intros T N; cbn [inline_type]; unfold mbind, tick, get_or; cbn [bind]; rewrite I, T; cbn [is_str String.eqb];
    cbn -[inline_type]; rewrite N; reflexivity.
Qed.
Print Assumptions C51_incomplete_types_refuted.
Theorem C51_missing_type_reported us up uj rt uo py fuel base udt s d :
  dget "$import" d = None -> dget "type" d = None ->
  inline_type us up uj rt uo py (S fuel) (JDict d) base udt s = Err MissingTypeName.
Proof. intros I T. cbn [inline_type]; unfold mbind, tick, get_or; cbn [bind]; rewrite I, T. reflexivity. Qed.
Print Assumptions C51_missing_type_reported.
Example C51_example : dget "$import" [("type", JStr "array")] = None /\ dget "items" [("type", JStr "array")] = None.
Proof. split; reflexivity. Qed.

(** ** C52: an import inside an imported file is looked up beside the importing document *)
Module Dirs.
  Definition files : list (string * json) :=
    [("dir/a.yml", JDict [("y", JDict [("$import", JStr "b.yml")])]); ("dir/b.yml", JStr "right"); ("b.yml", JStr "wrong")].
  Definition parse (s : string) : result json := match dget s files with Some j => Ok j | None => Err FileNotFoundError end.
  (** the directory of the base followed by the link *)
  Definition join (b l : string) : string := if startswith "dir/" b then ("dir/" ++ l)%string else l.
  Definition doc : json := JDict [("x", JDict [("$import", JStr "dir/a.yml")])].
End Dirs.
Theorem C52_nested_import_refuted : exists us up uj rt uo py fuel j base j' j'',
  resolve_imports us up uj rt uo py fuel j base = Ok j' /\
  Expands (reaches us up uj rt uo py) (reaches_text us up uj rt uo py) base j j'' /\ j' <> j''.
Proof.
  exists Demo.no_scheme, (fun s => s), Dirs.join, Demo.text, Demo.text, Dirs.parse, 9, Dirs.doc, "main.cwl".
  eexists _, (JDict [("x", JDict [("y", JStr "right")])]). split; [vm_compute; reflexivity|]. split; [|discriminate].
  apply Ex_dict. constructor; [|constructor]. split; [reflexivity|]. cbn [snd].
  eapply Ev_import; [exists 1; vm_compute; reflexivity|].
  apply Ex_dict. constructor; [|constructor]. split; [reflexivity|]. cbn [snd].
  eapply Ev_import; [exists 1; vm_compute; reflexivity|]. apply Ex_atom. exact I.
Qed.
Print Assumptions C52_nested_import_refuted.
Example C52_example : exists j, resolve_imports Demo.no_scheme (fun s => s) Demo.join Demo.text Demo.text Demo.parse' 9
    (JDict [("hints", JDict [("$import", JStr "hints.yml")])]) "" = Ok j /\ j = JDict [("hints", JList [])].
Proof. eexists. split; vm_compute; reflexivity. Qed.
