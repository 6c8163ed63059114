(** * Proofs about type inlining inside packing: names, packed ports, imports of imports *)
From Coq Require Import DecimalString DecimalNat DecimalFacts.
From Verif Require Import PyBase PyBaseProofs UtilsModel PackModel PackSpec PackProofs PackTreeProofs PackStepProofs TypeModel NameProofs.

(** ** numbers as texts *)
Lemma str_nat_inj a b : str_nat a = str_nat b -> a = b.
Proof.
  unfold str_nat. intros H.
  assert (X : NilZero.uint_of_string (NilZero.string_of_uint (Nat.to_uint a)) = NilZero.uint_of_string (NilZero.string_of_uint (Nat.to_uint b))) by congruence.
  assert (N : forall n, Nat.to_uint n <> Decimal.Nil).
  { intros n E. apply (unorm_nonnil (Nat.to_uint n)). rewrite <- Unsigned.to_of, Unsigned.of_to. exact E. }
  rewrite !NilZero.usu in X by apply N. injection X as X. apply Unsigned.to_uint_inj. exact X.
Qed.

Lemma uint_no_underscore u : has_char "_" (NilEmpty.string_of_uint u) = false.
Proof. induction u; auto. Qed.
Lemma str_nat_no_underscore n : has_char "_" (str_nat n) = false.
Proof.
  unfold str_nat, NilZero.string_of_uint. destruct (Nat.to_uint n); try reflexivity; apply (uint_no_underscore (_ _)).
Qed.
Lemma numbered_inj p k p' k' : (p ++ "_" ++ str_nat k)%string = (p' ++ "_" ++ str_nat k')%string -> k = k'.
Proof.
  intros H. apply str_nat_inj.
  rewrite <- (last_part_app "_" p (str_nat k)) by apply str_nat_no_underscore.
  rewrite <- (last_part_app "_" p' (str_nat k')) by apply str_nat_no_underscore.
  f_equal. exact H.
Qed.

Section Files.
  Variable url_scheme url_path : string -> string.
  Variable urljoin : string -> string -> string.
  Variable read_text urlopen : string -> result string.
  Variable parse_yaml : string -> result json.

  Notation load := (load_linked_file url_scheme url_path urljoin read_text urlopen parse_yaml).
  Notation inline := (inline_type url_scheme url_path urljoin read_text urlopen parse_yaml).
  Notation inlines := (inline_types url_scheme url_path urljoin read_text urlopen parse_yaml).
  Notation imports := (resolve_imports url_scheme url_path urljoin read_text urlopen parse_yaml).

  (** ** names *)
  Record Names (s : naming) : Prop := {
    n_nodup : NoDup (given s);
    n_used : forall n, In n (used_names s) -> ~ numbered n;
    n_given : forall n, In n (given s) -> In n (used_names s) \/ exists p k, n = (p ++ "_" ++ str_nat k)%string /\ k <= uniq_id s
  }.

  Lemma NoDup_snoc {A} (l : list A) x : NoDup l -> ~ In x l -> NoDup (l ++ [x]).
  Proof.
    intros N H. induction N as [|y l NI N IH]; cbn; [constructor; auto; constructor|]. constructor.
    - rewrite in_app_iff. cbn in *. intros [X|[->|[]]]; tauto.
    - apply IH. cbn in H. tauto.
  Qed.

  Definition plain_dict (d : dict) : Prop :=
    (forall n, dget "name" d = Some (JStr n) -> ~ numbered n) /\ dget "$import" d = None.
  (** the names in a table of types are not numbered; no entry is an import *)
  Definition plain_table (udt : list (string * json)) : Prop := forall k d, In (k, JDict d) udt -> plain_dict d.

  Lemma tick_copy_Names s u s0 d d' s1 : Names s -> plain_dict d -> tick s = Ok (u, s0) -> name_copy d s0 = Ok (d', s1) ->
    Names s1 /\ (exists n, dget "name" d' = Some (JStr n) /\ given s1 = given s ++ [n]) /\ dget "$import" d' = None.
  Proof.
    intros [A B C] [P1 P2] T E. unfold tick in T. injection T as <- <-. unfold name_copy in E. cbn [uniq_id used_names given] in E.
    assert (FR : forall p, ~ In (p ++ "_" ++ str_nat (S (uniq_id s)))%string (given s)).
    { intros p I. destruct (C _ I) as [X|(p' & k & X & L)].
      - apply B in X. apply X. eexists _, _. reflexivity.
      - apply numbered_inj in X. subst k. lia. }
    assert (GN : forall p, Names {| uniq_id := S (uniq_id s); used_names := used_names s; given := given s ++ [(p ++ "_" ++ str_nat (S (uniq_id s)))%string] |}).
    { intros p. constructor; cbn [uniq_id used_names given]; auto.
      - apply NoDup_snoc; auto.
      - intros n I. apply in_app_iff in I. destruct I as [I|[<-|[]]].
        + destruct (C _ I) as [X|(p' & k & X & L)]; auto. right. exists p', k. split; auto.
        + right. exists p, (S (uniq_id s)). auto. }
    destruct (dget "name" d) as [[| | | |n| |]|] eqn:G; try discriminate.
    - destruct (smem n (used_names s)) eqn:M; inv_ok.
      + split; [apply GN|]. split; [eexists; rewrite dget_dset_same; split; reflexivity|]. rewrite dget_dset_other by discriminate. auto.
      + assert (NI : ~ In n (used_names s)). { intros I. apply smem_In in I. congruence. }
        specialize (P1 n eq_refl). split; [|split; [eexists; split; [eauto|reflexivity]|auto]].
        constructor; cbn [uniq_id used_names given].
        * apply NoDup_snoc; auto. intros I. destruct (C _ I) as [X|(p' & k & X & L)]; [contradiction|]. apply P1. exists p', k. auto.
        * intros m I. apply in_app_iff in I. destruct I as [I|[<-|[]]]; auto.
        * intros m I. apply in_app_iff in I. destruct I as [I|[<-|[]]].
          -- destruct (C _ I) as [X|(p' & k & X & L)]; [left; apply in_app_iff; auto|]. right. exists p', k. auto.
          -- left. apply in_app_iff. cbn; auto.
    - inv_ok. split; [apply (GN "user_type")|]. split; [eexists; rewrite dget_dset_same; split; reflexivity|].
      rewrite dget_dset_other by discriminate. auto.
  Qed.

  Lemma tick_Names s u s0 : Names s -> tick s = Ok (u, s0) -> Names s0 /\ given s0 = given s.
  Proof.
    intros [A B C] T. unfold tick in T. injection T as <- <-. split; [|reflexivity]. constructor; cbn; auto.
    intros n I. destruct (C _ I) as [X|(p' & k & X & L)]; auto. right. exists p', k. auto.
  Qed.

  Definition extends (l l' : list string) : Prop := exists x, l' = l ++ x.
  Lemma extends_refl l : extends l l. Proof. exists []. rewrite app_nil_r. reflexivity. Qed.
  Lemma extends_trans a b c : extends a b -> extends b c -> extends a c.
  Proof. intros [x ->] [y ->]. exists (x ++ y). rewrite app_assoc. reflexivity. Qed.

  Lemma inline_Names : forall fuel v base udt s j s', plain_table udt -> Names s -> inline fuel v base udt s = Ok (j, s') ->
    Names s' /\ extends (given s) (given s').
  Proof.
    induction fuel as [|fuel IH]; intros v base udt s j s' P N E; [discriminate|]. cbn [inline_type] in E.
    apply mbind_Ok in E. destruct E as (u & s0 & T & E). destruct (tick_Names _ _ _ N T) as [N0 G0].
    assert (MM : forall l s1 l' s2, Names s1 -> mmap (fun x => inline fuel x base udt) l s1 = Ok (l', s2) -> Names s2 /\ extends (given s1) (given s2)).
    { intros l s1 l' s2 NN EE. apply (mmap_inv _ (fun s => Names s /\ extends (given s1) (given s))) in EE; auto using extends_refl.
      intros x sa y sb _ [X1 X2] Y. destruct (IH _ _ _ _ _ _ P X1 Y). split; auto. eapply extends_trans; eauto. }
    rewrite <- G0.
    destruct v as [| | | |str|l|d]; try discriminate.
    - destruct (endswith "[]" str) eqn:E1; [inv_ok; eapply IH; eauto|].
      destruct (endswith "?" str) eqn:E2; [inv_ok; eapply IH; eauto|].
      destruct (smem str built_in_types) eqn:E3; [inv_ok; auto using extends_refl|].
      destruct (type_path _ _ _ base str) as [prefix path]. destruct (dget path udt) as [[| | | | | |d]|] eqn:G; try discriminate.
      apply mbind_Ok in E. destruct E as (d' & s1 & C & E). apply dget_In in G.
      destruct (tick_copy_Names _ _ _ _ _ _ N (P _ _ G) T C) as (N1 & (n & _ & G1) & _).
      destruct (IH _ _ _ _ _ _ P N1 E) as [A B]. split; auto. eapply extends_trans; [|exact B]. rewrite G1, G0. eexists; reflexivity.
    - inv_ok. eapply MM; eauto.
    - assert (R : forall t, (if is_str "enum" t then ret (JDict d)
                    else if is_str "array" t then
                      match dget "items" d with
                      | None => fail AttributeError
                      | Some i => let* i' := inline fuel i base udt in ret (JDict (dset "items" i' d))
                      end
                    else if is_str "record" t then
                      match dget "fields" d with
                      | None => fail AttributeError
                      | Some f =>
                          let* fields := lift (normalize_to_list f "name" (Some "type")) in
                          let* fields' := mmap (fun x => inline fuel x base udt) fields in
                          ret (JDict (dset "fields" (JList fields') d))
                      end
                    else if match t with JStr s => smem s built_in_types | _ => false end then ret (JDict d)
                    else let* t' := inline fuel t base udt in ret (JDict (dset "type" t' d))) s0 = Ok (j, s') -> Names s' /\ extends (given s0) (given s')).
      { clear E. intros t E. destruct (is_str "enum" t); [inv_ok; auto using extends_refl|].
        destruct (is_str "array" t). { destruct (dget "items" d); inv_ok. eapply IH; eauto. }
        destruct (is_str "record" t). { destruct (dget "fields" d); inv_ok. eapply MM; eauto. }
        destruct (match t with JStr s => smem s built_in_types | _ => false end); inv_ok; auto using extends_refl. eapply IH; eauto. }
      destruct (get_or "$import" d JNull) eqn:EI;
        try (specialize (R (get_or "type" d JNull)); destruct (get_or "type" d JNull); try discriminate; apply R; exact E); clear R;
        apply mbind_Ok in E; destruct E as (lk & sA & L1 & E); apply lift_Ok in L1; destruct L1 as (lk' & L1 & X); injection X as XA XB; subst lk sA;
        apply mbind_Ok in E; destruct E as (lj & sB & L2 & E); apply lift_Ok in L2; destruct L2 as (lk2 & L2 & X); injection X as XC XD; subst lj sB;
        destruct lk2 as [im nb]; eapply IH; eauto.
  Qed.

  (** a reference to a user type gives a mapping carrying the name given to the copy *)
  Definition reference (r : string) : Prop := endswith "[]" r = false /\ endswith "?" r = false /\ ~ In r built_in_types.
  Lemma inline_keeps_name fuel d base udt s j s' n : dget "$import" d = None -> dget "name" d = Some n ->
    inline fuel (JDict d) base udt s = Ok (j, s') -> exists d', j = JDict d' /\ dget "name" d' = Some n.
  Proof.
    intros NI G E. destruct fuel; [discriminate|]. cbn [inline_type] in E. unfold get_or at 1 in E. rewrite NI in E.
    apply mbind_Ok in E. destruct E as (u & s0 & T & E). 
    assert (R : forall t, (if is_str "enum" t then ret (JDict d)
                    else if is_str "array" t then
                      match dget "items" d with
                      | None => fail AttributeError
                      | Some i => let* i' := inline fuel i base udt in ret (JDict (dset "items" i' d))
                      end
                    else if is_str "record" t then
                      match dget "fields" d with
                      | None => fail AttributeError
                      | Some f =>
                          let* fields := lift (normalize_to_list f "name" (Some "type")) in
                          let* fields' := mmap (fun x => inline fuel x base udt) fields in
                          ret (JDict (dset "fields" (JList fields') d))
                      end
                    else if match t with JStr s => smem s built_in_types | _ => false end then ret (JDict d)
                    else let* t' := inline fuel t base udt in ret (JDict (dset "type" t' d))) s0 = Ok (j, s') -> exists d', j = JDict d' /\ dget "name" d' = Some n).
    { clear E. intros t E. destruct (is_str "enum" t); [inv_ok; eauto|].
        destruct (is_str "array" t). { destruct (dget "items" d); inv_ok. eexists; split; [reflexivity|]. rewrite dget_dset_other by discriminate. auto. }
        destruct (is_str "record" t). { destruct (dget "fields" d); inv_ok. eexists; split; [reflexivity|]. rewrite dget_dset_other by discriminate. auto. }
        destruct (match t with JStr s => smem s built_in_types | _ => false end); inv_ok; eauto.
        eexists; split; [reflexivity|]. rewrite dget_dset_other by discriminate. auto. }
    specialize (R (get_or "type" d JNull)); destruct (get_or "type" d JNull); try discriminate; apply R; exact E.
  Qed.

  Lemma inline_reference fuel r base udt s j s' : plain_table udt -> Names s -> reference r ->
    inline fuel (JStr r) base udt s = Ok (j, s') ->
    exists d n x, j = JDict d /\ dget "name" d = Some (JStr n) /\ given s' = given s ++ n :: x /\ Names s'.
  Proof.
    intros P N (R1 & R2 & R3) E. pose proof (inline_Names _ _ _ _ _ _ _ P N E) as [N' _].
    destruct fuel; [discriminate|]. cbn [inline_type] in E. rewrite R1, R2 in E.
    apply mbind_Ok in E. destruct E as (u & s0 & T & E).
    destruct (smem r built_in_types) eqn:E3; [apply smem_In in E3; contradiction|].
    destruct (type_path _ _ _ base r) as [prefix path]. destruct (dget path udt) as [[| | | | | |d]|] eqn:G; try discriminate.
    apply mbind_Ok in E. destruct E as (d' & s1 & C & E). apply dget_In in G.
    destruct (tick_copy_Names _ _ _ _ _ _ N (P _ _ G) T C) as (N1 & (n & GN & G1) & NI).
    destruct (inline_keeps_name _ _ _ _ _ _ _ _ NI GN E) as (d'' & -> & GN').
    destruct (inline_Names _ _ _ _ _ _ _ P N1 E) as [_ [x X]]. exists d'', n, x. split; auto. split; auto. split; auto.
    rewrite X, G1, <- app_assoc. reflexivity.
  Qed.

  (** a run: any number of inlinings, with any tables of plain names *)
  Inductive Run : naming -> naming -> Prop :=
  | Run_refl s : Run s s
  | Run_step s v fuel base udt j s1 s2 : plain_table udt -> inline fuel v base udt s = Ok (j, s1) -> Run s1 s2 -> Run s s2.
  Lemma Run_Names s s' : Run s s' -> Names s -> Names s' /\ extends (given s) (given s').
  Proof.
    induction 1 as [s|s v fuel base udt j s1 s2 P E R IH]; intros N; [auto using extends_refl|].
    destruct (inline_Names _ _ _ _ _ _ _ P N E) as [A B]. destruct (IH A) as [C D]. split; auto. eapply extends_trans; eauto.
  Qed.
  Lemma Names0 : Names naming0.
  Proof using. clear. constructor; cbn; try tauto. constructor. Qed.

  (** ** packed ports *)
  Lemma Inlined_not_import j : Inlined j -> ~ IsImport j.
  Proof.
    intros H. destruct H as [s S|l F|d H|d i H H1 H2|d l H H1 H2|d t H H1];
      try (intros (k & v & X & _); discriminate); (eapply not_import_key; [| |exact H]; discriminate).
  Qed.
  Lemma ivalue_plain fuel base j v : ~ IsImport j ->
    ivalue url_scheme url_path urljoin read_text urlopen parse_yaml fuel base j = Ok v -> imports fuel j base = Ok v.
  Proof. intros N E. unfold ivalue in E. rewrite (import_of_none _ N) in E. exact E. Qed.

  Lemma imports_Inlined : forall fuel j base j', Inlined j -> imports fuel j base = Ok j' -> Inlined j'.
  Proof.
    induction fuel as [|fuel IH]; intros j base j' H E; [discriminate|].
    assert (V : forall v v', Inlined v -> ivalue url_scheme url_path urljoin read_text urlopen parse_yaml fuel base v = Ok v' -> Inlined v').
    { intros v v' I X. apply ivalue_plain in X; [|apply Inlined_not_import; auto]. eauto. }
    assert (VL : forall l l', Forall Inlined l -> Forall2 (fun v v' => ivalue url_scheme url_path urljoin read_text urlopen parse_yaml fuel base v = Ok v') l l' -> Forall Inlined l').
    { intros l l' F F2. induction F2; constructor; apply Forall_cons_iff in F; destruct F; eauto. }
    destruct H as [s S|l F|d H|d i H H1 H2|d l H H1 H2|d t H H1].
    - cbn in E. injection E as <-. constructor. auto.
    - destruct (imports_list _ _ _ _ _ _ _ _ _ _ E) as (l' & -> & F2). constructor. eauto.
    - destruct (imports_dict _ _ _ _ _ _ _ _ _ _ E) as (d' & -> & F). apply I_enum. eapply done_text; eauto.
    - destruct (imports_dict _ _ _ _ _ _ _ _ _ _ E) as (d' & -> & F). pose proof (done_dget _ _ _ _ _ _ _ _ _ _ "items" F) as D.
      rewrite H1 in D. destruct (dget "items" d') eqn:G; [|destruct D]. eapply I_array; [eapply done_text; eauto|exact G|]. eauto.
    - destruct (imports_dict _ _ _ _ _ _ _ _ _ _ E) as (d' & -> & F). pose proof (done_dget _ _ _ _ _ _ _ _ _ _ "fields" F) as D.
      rewrite H1 in D. destruct (dget "fields" d') eqn:G; [|destruct D].
      destruct (ivalue_list _ _ _ _ _ _ _ _ _ _ D) as (f & l' & -> & -> & F2).
      eapply I_record; [eapply done_text; eauto|exact G|].
      assert (Inlined (JList l')) as X.
      { eapply (V (JList l)); [constructor; auto|]. exact D. }
      inversion X. auto.
    - destruct (imports_dict _ _ _ _ _ _ _ _ _ _ E) as (d' & -> & F). pose proof (done_dget _ _ _ _ _ _ _ _ _ _ "type" F) as D.
      rewrite H in D. destruct (dget "type" d') eqn:G; [|destruct D]. eapply I_port; [exact G|]. eauto.
  Qed.

  (** the two sections of ports hold only inlined types *)

  Lemma inline_types_ports fuel d port base udt s d' s' : inlines fuel d port base udt s = Ok (d', s') ->
    exists l, dget port d' = Some (JList l) /\ Forall Inlined l.
  Proof.
    intros E. unfold inline_types in E. inv_ok. eexists. rewrite dget_dset_same. split; [reflexivity|].
    eapply mmap_Forall; [|eassumption]. intros ? ? ? ? ? HH. eapply inline_inlined. exact HH.
  Qed.

  Variable ver : Type.
  Variable parse_version : string -> result ver.
  Variable version_gt : ver -> ver -> bool.
  Notation packp := (pack_process url_scheme url_path urljoin read_text urlopen parse_yaml ver parse_version version_gt).
  Hypothesis files_text : forall t j, parse_yaml t = Ok j -> TextClasses j.

  Lemma pack_ports : forall fuel j base cv parent s d' s', TC j -> TCtable parent ->
    packp fuel j base cv parent s = Ok (d', s') -> forall p, Nested p d' -> ports_builtin p.
  Proof.
    induction fuel as [|fuel IH]; intros j base cv parent s d' s' T TP E; [discriminate|].
    destruct (pack_process_inv _ _ _ _ _ _ _ _ _ _ _ _ _ _ _ _ _ E) as (d & d1 & d2 & udt & d3 & s1 & s2 & d4 & d5 & -> & E1 & E2 & E3 & E4 & E5 & E6).
    destruct (ready _ _ _ _ _ _ files_text _ _ _ _ _ _ _ _ _ _ _ T TP E1 E2 E3 E4) as [R U].
    intros p N. inversion N as [|d0 st run p' W S RU N']; subst.
    - intros k l K L.
      assert (L4 : dget k d4 = Some (JList l)).
      { rewrite (finish_other d5 d' k) in L; [|destruct K; subst; discriminate|exact E6].
        destruct (resolve_steps_inv _ _ _ _ _ _ _ _ _ _ _ _ _ _ _ _ _ _ R E5) as [[NW ->]|(W4 & l0 & cwl' & l' & _ & S & ->)]; auto.
        rewrite dget_dset_other in L by (destruct K; subst; discriminate).
        rewrite <- L. symmetry. eapply Stepped_other; [|exact S]. destruct K; subst; discriminate. }
      assert (L3 : exists l3, dget k d3 = Some (JList l3) /\ Forall Inlined l3).
      { unfold resolve_schemadefs in E3. apply mbind_Ok in E3. destruct E3 as (d25 & s25 & E25 & E3). destruct K as [-> | ->].
        - destruct (inline_types_spec _ _ _ _ _ _ files_text _ _ _ _ _ _ _ _ E3) as (_ & K3 & _).
          rewrite K3 by discriminate. eapply inline_types_ports; eauto.
        - eapply inline_types_ports; eauto. }
      destruct L3 as (l3 & L3 & F3). destruct (imports_ok_S _ _ _ _ _ _ _ _ _ _ E4) as [f ->].
      destruct (imports_dict _ _ _ _ _ _ _ _ _ _ E4) as (d4' & X & F). injection X as <-.
      pose proof (done_dget _ _ _ _ _ _ _ _ _ _ k F) as D. rewrite L3, L4 in D.
      apply ivalue_plain in D; [|intros (k0 & v & X & _); discriminate].
      apply (imports_Inlined _ (JList l3)) in D; [|constructor; auto]. inversion D. auto.
    - pose proof (finish_other _ _ "steps" ltac:(discriminate) E6) as FS. pose proof (finish_other _ _ "class" ltac:(discriminate) E6) as FC.
      unfold step_of in S. unfold IsWorkflow in W. rewrite FS in S. rewrite FC in W.
      destruct (resolve_steps_inv _ _ _ _ _ _ _ _ _ _ _ _ _ _ _ _ _ _ R E5) as [[NW ->]|(W4 & l & cwl' & l' & L & S' & ->)]; [contradiction|].
      assert (TL : Forall TC l). { apply TC_list. eapply TC_dget; [exact (r_text _ R)|exact L]. }
      destruct S as (l0 & L0 & J). rewrite dget_dset_same in L0. injection L0 as <-.
      destruct (Stepped_runs _ _ _ _ _ _ _ _ _ _ _ _ _ _ _ _ _ _ (fun src b v par s0 run s0' A B C => IH _ _ _ _ _ _ _ A B C) files_text TL U S' _ J) as (st0 & run' & A & -> & P).
      unfold runs in RU. rewrite dget_dset_same in RU. injection RU as <-. auto.
  Qed.

  (** ** imports inside imported files *)
  Lemma imports_none : forall fuel j base j', NoImports j -> imports fuel j base = Ok j' -> j' = j.
  Proof.
    induction fuel as [|fuel IH]; intros j base j' N E; [discriminate|].
    destruct j as [| | | | |l|d]; try (apply imports_atom in E; [auto|exact I]).
    - destruct (imports_list _ _ _ _ _ _ _ _ _ _ E) as (l' & -> & F). apply NoImports_list in N. f_equal. clear E.
      induction F as [|x y l l' X F IHF]; auto. apply Forall_cons_iff in N. destruct N as [[N1 N2] N].
      f_equal; [|auto]. apply ivalue_plain in X; auto. eauto.
    - destruct (imports_dict _ _ _ _ _ _ _ _ _ _ E) as (d' & -> & F). apply NoImports_dict in N. f_equal. clear E.
      induction F as [|[k x] [k' y] l l' [K X] F IHF]; auto. apply Forall_cons_iff in N. destruct N as [[N1 N2] N].
      cbn in *. subst. f_equal; [|auto]. f_equal. apply ivalue_plain in X; auto. eauto.
  Qed.

  Definition reaches base link v url := exists f, load f base link true = Ok (v, url).
  Definition reaches_text base link t := exists f url, load f base link false = Ok (JStr t, url).

  Lemma NoImports_expands : forall j, NoImports j -> forall base, Expands reaches reaches_text base j j.
  Proof.
    induction j as [| | | | |l IH|d IH] using json_ind'; intros N base; try (apply Ex_atom; exact I).
    - apply NoImports_list in N. apply Ex_list. rewrite Forall_forall in N, IH.
      assert (X : forall l0, incl l0 l -> Forall2 (ExpandsValue reaches reaches_text base) l0 l0).
      { induction l0 as [|x l0 IH0]; intros H; constructor; [|apply IH0; intros y Y; apply H; cbn; auto].
        destruct (N x) as [N1 N2]; [apply H; cbn; auto|]. apply Ev_plain; auto. apply IH; auto. apply H; cbn; auto. }
      apply X. apply incl_refl.
    - apply NoImports_dict in N. apply Ex_dict. rewrite Forall_forall in N, IH.
      assert (X : forall d0, incl d0 d -> Forall2 (fun kv kv' => fst kv' = fst kv /\ ExpandsValue reaches reaches_text base (snd kv) (snd kv')) d0 d0).
      { induction d0 as [|x d0 IH0]; intros H; constructor; [|apply IH0; intros y Y; apply H; cbn; auto].
        destruct (N x) as [N1 N2]; [apply H; cbn; auto|]. split; auto. apply Ev_plain; auto. apply IH; auto. apply H; cbn; auto. }
      apply X. apply incl_refl.
  Qed.

  Lemma imports_expand : (forall t j, parse_yaml t = Ok j -> NoImports j) ->
    forall fuel j base j', imports fuel j base = Ok j' -> Expands reaches reaches_text base j j'.
  Proof.
    intros FL. induction fuel as [|fuel IH]; intros j base j' E; [discriminate|].
    assert (V : forall v v', ivalue url_scheme url_path urljoin read_text urlopen parse_yaml fuel base v = Ok v' -> ExpandsValue reaches reaches_text base v v').
    { intros v v' X. unfold ivalue in X. pose proof (import_of_spec v) as S. destruct (import_of v) as [[link b]|] eqn:G.
      - destruct v as [| | | | | |d]; try discriminate. destruct d as [|[k x] d]; [discriminate|]. destruct d; [|discriminate]. cbn in G.
        apply bind_Ok in X. destruct X as (y & X1 & X2). apply bind_Ok in X1. destruct X1 as (lk & X1 & X3).
        apply bind_Ok in X3. destruct X3 as ([y' url] & X3 & X4). injection X4 as ->.
        destruct (String.eqb_spec k "$import") as [->|NE].
        + injection G as <- <-. destruct x; try discriminate. injection X1 as ->.
          pose proof (load_yaml _ _ _ _ _ _ NoImports FL _ _ _ _ _ X3) as N. rewrite (imports_none _ _ _ _ N X2).
          eapply Ev_import; [exists fuel; exact X3|]. apply NoImports_expands. auto.
        + destruct (String.eqb_spec k "$include") as [->|NE']; [|discriminate]. injection G as <- <-. destruct x; try discriminate. injection X1 as ->.
          destruct (load_text _ _ _ _ _ _ _ _ _ _ _ X3) as [txt ->]. apply imports_atom in X2; [|exact I]. subst v'.
          apply Ev_include. exists fuel, url. auto.
      - cbn in X. apply Ev_plain; auto. }
    destruct j as [| | | | |l|d]; try (apply imports_atom in E; [subst; apply Ex_atom; exact I|exact I]).
    - destruct (imports_list _ _ _ _ _ _ _ _ _ _ E) as (l' & -> & F). apply Ex_list. clear E. induction F; constructor; auto.
    - destruct (imports_dict _ _ _ _ _ _ _ _ _ _ E) as (d' & -> & F). apply Ex_dict. clear E.
      induction F as [|x y l l' [K X] F IHF]; constructor; auto.
  Qed.
End Files.

(** ** normalising twice *)
Lemma _normalize_twice s : ~ DoubleHash s -> _normalize (_normalize s) = _normalize s.
Proof.
  intros N. destruct s as [|c s]; [reflexivity|]. unfold _normalize at 2 3. unfold startswith. cbn [prefix].
  destruct (Ascii.ascii_dec "#" c) as [<-|NC].
  - replace (prefix "" s) with true by (destruct s; reflexivity). cbn [sdrop]. unfold _normalize, startswith.
    destruct s as [|c2 s]; [reflexivity|]. cbn [prefix]. destruct (Ascii.ascii_dec "#" c2) as [<-|NC]; [|reflexivity].
    exfalso. apply N. exists s. reflexivity.
  - unfold _normalize, startswith. cbn [prefix]. destruct (Ascii.ascii_dec "#" c); [contradiction|reflexivity].
Qed.
Lemma dset_dset {V} k (v w : V) d : dset k w (dset k v d) = dset k w d.
Proof.
  induction d as [|[k' x] d IH]; cbn.
  - rewrite String.eqb_refl. reflexivity.
  - destruct (String.eqb_spec k k') as [->|N]; cbn; [rewrite String.eqb_refl; reflexivity|].
    destruct (String.eqb_spec k k'); [contradiction|]. f_equal. exact IH.
Qed.
Lemma normalize_entry_twice key e : (forall s, EntryRef key e s -> ~ DoubleHash s) ->
  normalize_entry key (normalize_entry key e) = normalize_entry key e.
Proof.
  intros H. destruct e as [| | | |s|l|d]; cbn; auto.
  - rewrite _normalize_twice; auto. apply H. left. auto.
  - destruct (dget key d) as [[| | | |s|l|d2]|] eqn:E; cbn; try (rewrite E; reflexivity).
    rewrite dget_dset_same, dset_dset, _normalize_twice; auto. apply H. right. eauto.
Qed.
Lemma map_twice {A} (f : A -> A) l : (forall x, In x l -> f (f x) = f x) -> map f (map f l) = map f l.
Proof. intros H. rewrite map_map. apply map_ext_in. auto. Qed.
Lemma normalize_step_twice st : (forall d l e s, st = JDict d -> dget "in" d = Some (JList l) -> In e l -> EntryRef "source" e s -> ~ DoubleHash s) ->
  normalize_step (normalize_step st) = normalize_step st.
Proof.
  intros H. destruct st as [| | | |s|l|d]; cbn; auto.
  destruct (dget "in" d) as [[| | | |s|l|d2]|] eqn:E; cbn; try (rewrite E; reflexivity).
  rewrite dget_dset_same, dset_dset, map_twice; auto. intros x X. apply normalize_entry_twice. intros s. eapply H; eauto.
Qed.
Lemma normalize_sources_twice d : (forall s, SourceRef d s -> ~ DoubleHash s) ->
  normalize_sources (normalize_sources d) = normalize_sources d.
Proof.
  intros H. unfold normalize_sources at 2 3.
  destruct (get_is "class" "Workflow" d) eqn:W; cbn [negb]; [|unfold normalize_sources; rewrite W; reflexivity].
  set (d1 := match dget "steps" d with Some (JList l) => dset "steps" (JList (map normalize_step l)) d | _ => d end).
  assert (S1 : match dget "steps" d1 with Some (JList l) => dset "steps" (JList (map normalize_step l)) d1 | _ => d1 end = d1 /\
     get_is "class" "Workflow" d1 = true /\ dget "outputs" d1 = dget "outputs" d /\
     match dget "steps" d1 with Some (JList l) => map normalize_step l = l | _ => True end).
  { unfold d1. destruct (dget "steps" d) as [[| | | |s|l|d2]|] eqn:E; try (rewrite E; auto).
    assert (MT : map normalize_step (map normalize_step l) = map normalize_step l).
    { apply map_twice. intros x X. apply normalize_step_twice. intros st il e s -> I J K. apply H. left. exists st, il, e. split; auto. exists l. auto. }
    rewrite dget_dset_same, dset_dset, dget_dset_other by discriminate. rewrite MT. repeat split; auto.
    apply get_is_spec. rewrite dget_dset_other by discriminate. apply get_is_spec. auto. }
  destruct S1 as (S1 & S2 & S3 & S4).
  set (d2 := match dget "outputs" d1 with Some (JList l) => dset "outputs" (JList (map (normalize_entry "outputSource") l)) d1 | _ => d1 end).
  assert (O1 : dget "steps" d2 = dget "steps" d1 /\ get_is "class" "Workflow" d2 = true /\
    match dget "outputs" d2 with Some (JList l) => dset "outputs" (JList (map (normalize_entry "outputSource") l)) d2 | _ => d2 end = d2).
  { unfold d2. destruct (dget "outputs" d1) as [[| | | |s|l|d3]|] eqn:E; try (rewrite E; auto).
    rewrite dget_dset_same, dset_dset, dget_dset_other by discriminate. split; auto. split.
    - apply get_is_spec. rewrite dget_dset_other by discriminate. apply get_is_spec. auto.
    - f_equal. f_equal. apply map_twice. intros x X. apply normalize_entry_twice. intros s K. apply H. right. exists l, x. rewrite <- S3. auto. }
  destruct O1 as (O1 & O2 & O3).
  unfold normalize_sources. rewrite O2. cbn [negb]. rewrite O1.
  assert (SS : match dget "steps" d1 with Some (JList l) => dset "steps" (JList (map normalize_step l)) d2 | _ => d2 end = d2).
  { destruct (dget "steps" d1) as [[| | | |s|l|d3]|] eqn:E; auto. rewrite S4.
    assert (SD : forall (dd : dict) k v, dget k dd = Some v -> dset k v dd = dd).
    { clear. induction dd as [|[k' x] dd IH]; cbn; intros k v E; [discriminate|]. destruct (String.eqb_spec k k') as [->|N]; [congruence|]. f_equal. auto. }
    apply SD. congruence. }
  rewrite SS. exact O3.
Qed.

(** ** a type that contains itself *)
Definition recursive_table : list (string * json) :=
  [("#R", JDict [("name", JStr "R"); ("type", JStr "record");
                 ("fields", JList [JDict [("name", JStr "next"); ("type", JStr "R")]])])].
Lemma recursive_diverges us up uj rt uo py : forall fuel s,
  inline_type us up uj rt uo py fuel (JStr "R") "" recursive_table s = Err OutOfFuel.
Proof.
  induction fuel as [fuel IH] using lt_wf_ind. intros s.
  destruct fuel as [|f1]; [reflexivity|]. cbn [inline_type]. unfold mbind at 1, tick at 1. cbn [bind].
  replace (endswith "[]" "R") with false by reflexivity. replace (endswith "?" "R") with false by reflexivity.
  replace (smem "R" built_in_types) with false by reflexivity. unfold type_path. cbn [has_char Ascii.eqb Bool.eqb].
  assert (G : dget "#R" recursive_table = Some (JDict [("name", JStr "R"); ("type", JStr "record");
                 ("fields", JList [JDict [("name", JStr "next"); ("type", JStr "R")]])])) by reflexivity.
  change (("" ++ "#" ++ "R")%string) with "#R". 
  match goal with |- context [if ?b then _ else _] => replace b with false by reflexivity end. cbv beta iota. rewrite G.
  assert (RR : forall n s, inline_type us up uj rt uo py f1 (JDict [("name", JStr n); ("type", JStr "record");
                 ("fields", JList [JDict [("name", JStr "next"); ("type", JStr "R")]])]) "" recursive_table s = Err OutOfFuel).
  { intros n s0. destruct f1 as [|f2]; [reflexivity|]. cbn [inline_type]. unfold mbind at 1, tick at 1. cbn [bind].
    assert (FF : forall s, inline_type us up uj rt uo py f2 (JDict [("name", JStr "next"); ("type", JStr "R")]) "" recursive_table s = Err OutOfFuel).
    { intros s1. destruct f2 as [|f3]; [reflexivity|]. cbn [inline_type]. unfold mbind at 1, tick at 1. cbn [bind].
      cbn [get_or dget String.eqb]. cbn. unfold mbind. rewrite IH by lia. reflexivity. }
    cbn. unfold mbind, lift. cbn. rewrite FF. reflexivity. }
  unfold mbind, name_copy. cbn [dget String.eqb Ascii.eqb Bool.eqb].
  match goal with |- context [if ?b then _ else _] => destruct b end; cbn; apply RR.
Qed.
