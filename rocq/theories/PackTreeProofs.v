(** * Proofs about packing: documents, imports and steps *)
From Verif Require Import PyBase PyBaseProofs UtilsModel PackModel PackSpec PackProofs.

Lemma Forall_dupdate {V} (Q : string * V -> Prop) d2 : forall d, Forall Q d -> Forall Q d2 -> Forall Q (dupdate d d2).
Proof.
  unfold dupdate. induction d2 as [|[k v] d2 IH]; cbn; auto. intros d F G. apply Forall_cons_iff in G. destruct G as [G1 G2].
  apply IH; auto. apply Forall_dset; auto.
Qed.
Lemma dget_Forall {V} (Q : string * V -> Prop) k v d : Forall Q d -> dget k d = Some v -> Q (k, v).
Proof. intros F E. rewrite Forall_forall in F. apply F. apply dget_In. auto. Qed.

Lemma iter_TC j l : TC j -> iter j = Ok l -> Forall TC l.
Proof.
  intros H E. destruct j; cbn in E; inv_ok; try discriminate.
  - apply Forall_map. apply Forall_forall. intros. apply TC_str.
  - apply TC_list. auto.
  - apply Forall_map. apply Forall_forall. intros. apply TC_str.
Qed.
Lemma foldM_inv {A B} (f : A -> B -> result A) (P : A -> Prop) (Q : B -> Prop) l : forall a a',
  (forall a b a', P a -> Q b -> f a b = Ok a' -> P a') -> Forall Q l -> P a -> foldM f l a = Ok a' -> P a'.
Proof.
  induction l as [|x l IH]; intros a a' H F Pa E; cbn in E; inv_ok; auto.
  apply Forall_cons_iff in F. destruct F. eapply IH; [| | |exact E]; eauto.
Qed.

Definition TCtable (udt : list (string * json)) : Prop := Forall (fun kv => TC (snd kv)) udt.

Section Files.
  Variable url_scheme url_path : string -> string.
  Variable urljoin : string -> string -> string.
  Variable read_text urlopen : string -> result string.
  Variable parse_yaml : string -> result json.

  Notation load := (load_linked_file url_scheme url_path urljoin read_text urlopen parse_yaml).
  Notation inline := (inline_type url_scheme url_path urljoin read_text urlopen parse_yaml).
  Notation inlines := (inline_types url_scheme url_path urljoin read_text urlopen parse_yaml).
  Notation imports := (resolve_imports url_scheme url_path urljoin read_text urlopen parse_yaml).
  Notation schemadefs := (load_schemadefs url_scheme url_path urljoin read_text urlopen parse_yaml).

  Hypothesis files_text : forall t j, parse_yaml t = Ok j -> TextClasses j.

  Lemma load_TC f base link j u : load f base link true = Ok (j, u) -> TC j.
  Proof. apply load_yaml. auto. Qed.

  (** ** inlining keeps classes texts *)
  Lemma name_copy_TC d s d' s' : TC (JDict d) -> name_copy d s = Ok (d', s') -> TC (JDict d').
  Proof.
    intros H E. unfold name_copy in E. destruct (dget "name" d) as [[]|]; try discriminate.
    - destruct (smem _ _); inv_ok; auto. apply TC_dset; eauto using TC_str.
    - inv_ok. apply TC_dset; eauto using TC_str.
  Qed.

  Lemma inline_TC : forall fuel v base udt s j s', TCtable udt -> TC v -> inline fuel v base udt s = Ok (j, s') -> TC j.
  Proof.
    induction fuel as [|fuel IH]; intros v base udt s j s' U T E; [discriminate|]. cbn [inline_type] in E. inv_ok.
    destruct v as [| | | |str|l|d]; inv_ok.
    - destruct (endswith "[]" str) eqn:E1; inv_ok.
      { change (TC (JDict (dset "items" a0 [("type", JStr "array")]))). apply TC_dset; [|discriminate|].
        - eapply IH; [| |eassumption]; auto. apply TC_str.
        - apply TC_single; eauto using TC_str. }
      destruct (endswith "?" str) eqn:E2; inv_ok.
      { apply TC_list. constructor; [apply TC_str|]. constructor; [|constructor]. eapply IH; [| |eassumption]; auto. apply TC_str. }
      destruct (smem str built_in_types) eqn:E3; inv_ok; auto.
      destruct (type_path _ _ _ base str) as [prefix path]. destruct (dget path udt) as [[| | | | | |d]|] eqn:G; inv_ok.
      apply (dget_Forall _ _ _ _ U) in G. cbn in G. eapply IH; [| |eassumption]; auto. eapply name_copy_TC; eauto.
    - apply TC_list in T. apply TC_list. eapply mmap_Forall; [|eassumption].
      rewrite Forall_forall in T. intros ? ? ? ? ? HH; eapply IH; [| |exact HH]; auto.
    - assert (R : forall t, dget "type" d = Some t ->
            (if is_str "enum" t then ret (JDict d)
                    else if is_str "array" t then
                      match dget "items" d with
                      | None => fail AttributeError
                      | Some i => let* i' := inline fuel i base udt in ret (JDict (dset "items" i' d))
                      end
                    else if is_str "record" t then
                      match dget "fields" d with
                      | None => fail AttributeError
                      | Some f =>
                          let* fields := lift (normalize_to_list f "name" (Some "type")) in
                          let* fields' := mmap (fun x => inline fuel x base udt) fields in
                          ret (JDict (dset "fields" (JList fields') d))
                      end
                    else if match t with JStr s => smem s built_in_types | _ => false end then ret (JDict d)
                    else let* t' := inline fuel t base udt in ret (JDict (dset "type" t' d))) s0 = Ok (j, s') -> TC j).
      { clear E. intros t G E. destruct (is_str "enum" t); inv_ok; auto.
        destruct (is_str "array" t).
        { destruct (dget "items" d) eqn:GI; inv_ok. apply TC_dset; auto; [|discriminate].
          eapply IH; [| |eassumption]; auto. eapply TC_dget; eauto. }
        destruct (is_str "record" t).
        { destruct (dget "fields" d) eqn:GI; inv_ok. apply TC_dset; auto; [|discriminate].
          apply TC_list. eapply mmap_Forall; [|eassumption].
          match goal with H : normalize_to_list _ _ _ = Ok ?l |- _ => assert (F : Forall TC l);
            [eapply normalize_to_list_TC; [| |exact H]; [eapply TC_dget; eauto|discriminate]|] end.
          rewrite Forall_forall in F. intros ? ? ? ? ? HH; eapply IH; [| |exact HH]; auto. }
        destruct (match t with JStr s => smem s built_in_types | _ => false end); inv_ok; auto.
        apply TC_dset; auto; [|discriminate]. eapply IH; [| |eassumption]; auto. eapply TC_dget; eauto. }
      assert (R' : (match get_or "type" d JNull with JNull => fail MissingTypeName | t => 
            (if is_str "enum" t then ret (JDict d)
                    else if is_str "array" t then
                      match dget "items" d with
                      | None => fail AttributeError
                      | Some i => let* i' := inline fuel i base udt in ret (JDict (dset "items" i' d))
                      end
                    else if is_str "record" t then
                      match dget "fields" d with
                      | None => fail AttributeError
                      | Some f =>
                          let* fields := lift (normalize_to_list f "name" (Some "type")) in
                          let* fields' := mmap (fun x => inline fuel x base udt) fields in
                          ret (JDict (dset "fields" (JList fields') d))
                      end
                    else if match t with JStr s => smem s built_in_types | _ => false end then ret (JDict d)
                    else let* t' := inline fuel t base udt in ret (JDict (dset "type" t' d))) end) s0 = Ok (j, s') -> TC j).
      { clear E. unfold get_or. intros E. destruct (dget "type" d) as [t|]; [|discriminate]. specialize (R t eq_refl).
        destruct t; try discriminate; apply R; exact E. }
      destruct (get_or "$import" d JNull) eqn:EI; try (apply R'; exact E); clear R R'; inv_ok;
        (eapply IH; [| |eassumption]; auto; eapply load_TC; eauto).
  Qed.

  (** only the given section changes, and it becomes a list *)
  Lemma inline_types_spec fuel d port base udt s d' s' : inlines fuel d port base udt s = Ok (d', s') ->
    list_section port d' /\ (forall k, k <> port -> dget k d' = dget k d) /\
    (port <> "class" -> TCtable udt -> TC (JDict d) -> TC (JDict d')).
  Proof.
    intros E. unfold inline_types in E. inv_ok.
    split; [eexists; apply dget_dset_same|]. split; [intros; apply dget_dset_other; auto|].
    intros N U T. apply TC_dset; auto; [|congruence]. apply TC_list. eapply mmap_Forall; [|eassumption].
    assert (F : Forall TC a1).
    { eapply iter_TC; [|eassumption]. unfold item in E5. destruct (dget port d) eqn:G; [|discriminate]. injection E5 as ->.
      destruct a3; inv_ok; [|eapply TC_dget; eauto].
      destruct a4 as [| | | | |l|]; try discriminate. destruct l as [|x l]; [discriminate|]. destruct x; try discriminate.
      destruct l; try discriminate. inv_ok. eapply load_TC; eauto. }
    rewrite Forall_forall in F. intros ? ? ? ? ? HH; eapply inline_TC; [| |exact HH]; auto.
  Qed.

  (** ** schema definitions *)
  Lemma add_types_TC prefix types udt udt' : TC types -> TCtable udt -> add_types prefix types udt = Ok udt' -> TCtable udt'.
  Proof.
    intros T U E. unfold add_types in E. inv_ok. eapply foldM_inv with (Q := TC); [| | |exact E]; auto; [|eapply iter_TC; eauto].
    intros t v t' PT TV X. destruct v; try discriminate. destruct (get_or "name" _ _); inv_ok; try discriminate. apply Forall_dset; auto.
  Qed.
  Lemma add_schema_TC fuel base udt sch udt' : TC sch -> TCtable udt ->
    add_schema url_scheme url_path urljoin read_text urlopen parse_yaml fuel base udt sch = Ok udt' -> TCtable udt'.
  Proof.
    intros T U E. destruct sch as [| | | | | |d]; try discriminate.
    assert (R : match get_or "name" d JNull with
                | JStr k => Ok (dset (base ++ "#" ++ k)%string (JDict d) udt)
                | JNull => Ok (dset (base ++ "#None")%string (JDict d) udt)
                | _ => Err TypeError
                end = Ok udt' -> TCtable udt').
    { intros X. destruct (get_or "name" d JNull); inv_ok; try discriminate; apply Forall_dset; auto. }
    assert (S : (exists link, d = [("$import", link)]) \/ add_schema url_scheme url_path urljoin read_text urlopen parse_yaml fuel base udt (JDict d) = match get_or "name" d JNull with
                | JStr k => Ok (dset (base ++ "#" ++ k)%string (JDict d) udt)
                | JNull => Ok (dset (base ++ "#None")%string (JDict d) udt)
                | _ => Err TypeError
                end).
    { clear E R T. destruct d as [|[k v] d]; [right; reflexivity|]. destruct d as [|p d].
      - destruct (string_dec k "$import") as [->|N]; [left; eauto|]. right. unfold add_schema.
        repeat match goal with |- context [match ?s with EmptyString => _ | String _ _ => _ end] => destruct s; try reflexivity
          | |- context [match ?c with Ascii.Ascii _ _ _ _ _ _ _ _ => _ end] => destruct c
          | |- context [if ?b then _ else _] => destruct b; try reflexivity end. congruence.
      - right. unfold add_schema.
        repeat match goal with |- context [match ?s with EmptyString => _ | String _ _ => _ end] => destruct s; try reflexivity
          | |- context [match ?c with Ascii.Ascii _ _ _ _ _ _ _ _ => _ end] => destruct c
          | |- context [if ?b then _ else _] => destruct b; try reflexivity end. }
    destruct S as [[link ->]|S]; [|rewrite S in E; auto].
    cbn in E. inv_ok. eapply add_types_TC; [| |exact E]; auto. apply load_TC in E1. destruct j; auto. apply TC_list. auto.
  Qed.

  (** an entry kept in requirements was not, and does not name, a schema definition *)
  Definition kept_entry (fuel : nat) (base : string) (e : json) : Prop :=
    exists d, e = JDict d /\ dget "class" d <> Some (JStr "SchemaDefRequirement") /\
      forall link, dget "$import" d = Some (JStr link) ->
        exists r u, load fuel base link true = Ok (JDict r, u) /\ dget "class" r <> Some (JStr "SchemaDefRequirement").

  Lemma import_requirement_spec fuel base udt e e' udt' : TC e -> TCtable udt ->
    import_requirement url_scheme url_path urljoin read_text urlopen parse_yaml fuel base udt e = Ok (e', udt') ->
    TC e' /\ TCtable udt' /\
    (forall d, e' = JDict d -> dget "class" d <> Some (JStr "SchemaDefRequirement") -> kept_entry fuel base e').
  Proof.
    intros T U E. unfold import_requirement in E. destruct e as [| | | | | |d]; inv_ok; try (split; auto; split; auto; discriminate).
    destruct (dget "$import" d) as [link|] eqn:G.
    - inv_ok. pose proof (load_TC _ _ _ _ _ E1) as L. destruct (is_str "SchemaDefRequirement" a0) eqn:C; inv_ok.
      + split; auto. split.
        { eapply add_types_TC; [| |eassumption]; auto. unfold json_item in E3. destruct e'; try discriminate. unfold item in E3.
          destruct (dget "types" _) eqn:X; [|discriminate]. inv_ok. eapply TC_dget; eauto. }
        intros d' -> N. apply is_str_spec in C. subst a0. unfold json_item, item in E2. destruct (dget "class" d') eqn:X; [|discriminate].
        inv_ok. contradiction.
      + split; auto. split; auto. intros d' X N. injection X as <-. exists d. split; auto. split; auto.
        intros link' G'. rewrite G in G'. injection G' as ->. cbn in E0. inv_ok.
        unfold json_item, item in E2. destruct j; try discriminate. destruct (dget "class" d0) as [c|] eqn:X; [|discriminate]. inv_ok.
        eexists _, _. split; [eassumption|]. rewrite X. intros Y. injection Y as ->. discriminate.
    - inv_ok. split; auto. split; auto. intros d' X N. injection X as <-. exists d. split; auto. split; auto. congruence.
  Qed.

  Lemma load_schemadefs_spec fuel d base parent d' udt : TC (JDict d) -> TCtable parent ->
    schemadefs fuel d base parent = Ok (d', udt) ->
    TC (JDict d') /\ TCtable udt /\ (forall k, k <> "requirements" -> dget k d' = dget k d) /\
    exists l, dget "requirements" d' = Some (JList l) /\ Forall (kept_entry fuel base) l.
  Proof.
    intros T P E. unfold load_schemadefs in E. inv_ok. unfold build_user_defined_type_dict in E0. inv_ok.
    assert (F : Forall TC a1) by (eapply iter_TC; [|eassumption]; apply TC_get_or; auto; apply TC_list; constructor).
    assert (X : Forall TC l0 /\ TCtable l1 /\ Forall (fun e => forall d, e = JDict d -> dget "class" d <> Some (JStr "SchemaDefRequirement") -> kept_entry fuel base e) l0).
    { revert E3. apply (foldM_inv _ (fun acc => Forall TC (fst acc) /\ TCtable (snd acc) /\ Forall (fun e => forall d, e = JDict d -> dget "class" d <> Some (JStr "SchemaDefRequirement") -> kept_entry fuel base e) (fst acc)) TC); auto.
      - intros [done t] e [done' t'] (A & B & C) TE X. cbn [fst snd] in *. inv_ok.
        match goal with H : import_requirement _ _ _ _ _ _ _ _ _ _ = Ok _ |- _ => destruct (import_requirement_spec _ _ _ _ _ _ TE B H) as (Y1 & Y2 & Y3) end.
        rewrite !Forall_app. auto.
      - cbn. repeat split; constructor. }
    destruct X as (X1 & X2 & X3).
    destruct (get_or "types" a2 (JList [])) eqn:GT; try discriminate. inv_ok.
    assert (TS : TC (JDict a2)).
    { clear - E4 X1. revert a2 E4. induction l0 as [|x l IH]; cbn; intros a3 E; inv_ok.
      - rewrite TC_def. apply every_dict. split; [|constructor]. intros d v X. injection X as <-. discriminate.
      - apply Forall_cons_iff in X1. destruct X1. destruct x; try discriminate. destruct (get_is _ _ _); inv_ok; auto. }
    assert (U : TCtable l).
    { revert E5. apply foldM_inv with (Q := TC); auto.
      - intros u sch u' A B C. eapply add_schema_TC; eauto.
      - apply TC_list. rewrite <- GT. apply TC_get_or; auto. apply TC_list; constructor. }
    assert (E6 : a = l0).
    { unfold get_or in E1. rewrite dget_dset_same in E1. cbn in E1. inv_ok. auto. }
    subst a.
    assert (K : Forall TC (map fst (filter snd (combine l0 a0))) /\ Forall (kept_entry fuel base) (map fst (filter snd (combine l0 a0)))).
    { clear - E2 X1 X3. revert a0 E2. induction l0 as [|x l IH]; intros a2 E; cbn in E; inv_ok; [split; constructor|].
      apply Forall_cons_iff in X1, X3. destruct X1 as [X1 X1']. destruct X3 as [X3 X3']. match goal with H : mapM _ l = Ok _ |- _ => destruct (IH X1' X3' _ H) as [A B] end.
      cbn [combine filter]. destruct x; try discriminate. inv_ok. cbn [snd]. destruct (get_is "class" "SchemaDefRequirement" d) eqn:G; cbn [negb map fst]; auto.
      split; constructor; auto. apply (X3 d); auto. apply get_is_false. auto. }
    destruct K as [K1 K2].
    split. { apply TC_dset; [apply TC_list; auto|discriminate|]. apply TC_dset; [apply TC_list; auto|discriminate|]. auto. }
    split. { apply Forall_dupdate; auto. }
    split. { intros k N. rewrite !dget_dset_other by auto. reflexivity. }
    eexists. rewrite dget_dset_same. split; [reflexivity|]. auto.
  Qed.

  (** ** imports *)
  Hypothesis files_plain : forall t j, parse_yaml t = Ok j -> ~ IsImport j.

  Definition ivalue (fuel : nat) (base : string) (v : json) : result json :=
    do v <- match import_of v with
            | Some (link, is_import) =>
                do link <- as_link link;
                do ' (v', _) <- load fuel base link is_import; Ok v'
            | None => Ok v
            end;
    imports fuel v base.

  Lemma import_of_spec v : match import_of v with Some _ => IsImport v | None => ~ IsImport v end.
  Proof using. clear.
    unfold import_of, IsImport. destruct v as [| | | | | |d]; try (intros (k0 & l0 & H & _); discriminate).
    destruct d as [|[k l] d]; try (intros (k0 & l0 & H & _); discriminate).
    destruct d; try (intros (k0 & l0 & H & _); discriminate).
    destruct (String.eqb_spec k "$import") as [->|N1]; [eauto 6|].
    destruct (String.eqb_spec k "$include") as [->|N2]; [eauto 6|].
    intros (k' & l' & H & K). injection H as <- <-. tauto.
  Qed.
  Lemma import_of_none v : ~ IsImport v -> import_of v = None.
  Proof using. intros N. pose proof (import_of_spec v). destruct (import_of v); auto. contradiction. Qed.

  Definition entry_done (fuel : nat) (base : string) (kv kv' : string * json) : Prop :=
    fst kv' = fst kv /\ ivalue fuel base (snd kv) = Ok (snd kv').
  Lemma imports_dict fuel d base j : imports (S fuel) (JDict d) base = Ok j ->
    exists d', j = JDict d' /\ Forall2 (entry_done fuel base) d d'.
  Proof.
    cbn [resolve_imports]. intros E. inv_ok. eexists; split; [reflexivity|]. revert E0.
    generalize a. clear a. induction d as [|[k v] d IH]; intros a E; cbn [mapM fst snd] in E; inv_ok; constructor; auto.
    split; [reflexivity|]. unfold ivalue; cbn [snd]. rewrite E3. exact E2.
  Qed.
  Lemma imports_list fuel l base j : imports (S fuel) (JList l) base = Ok j ->
    exists l', j = JList l' /\ Forall2 (fun v v' => ivalue fuel base v = Ok v') l l'.
  Proof.
    cbn [resolve_imports]. intros E. inv_ok. eexists; split; [reflexivity|]. revert E0.
    generalize a. clear a. induction l as [|v l IH]; intros a E; cbn [mapM] in E; inv_ok; constructor; auto.
    unfold ivalue. match goal with H : _ = Ok ?x, G : imports _ ?x _ = Ok _ |- _ => rewrite H; exact G end.
  Qed.
  Lemma imports_ok_S fuel j base j' : imports fuel j base = Ok j' -> exists f, fuel = S f.
  Proof. destruct fuel; [discriminate|eauto]. Qed.
  Lemma imports_atom fuel j base j' : match j with JList _ | JDict _ => False | _ => True end ->
    imports fuel j base = Ok j' -> j' = j.
  Proof. intros A E. destruct fuel; [discriminate|]. destruct j; destruct A; cbn in E; congruence. Qed.

  Lemma done_keys fuel base d d' : Forall2 (entry_done fuel base) d d' -> dkeys d' = dkeys d.
  Proof. induction 1 as [|[k v] [k' v'] d d' [A B] F IH]; cbn in *; [reflexivity|]. subst. f_equal. exact IH. Qed.
  Lemma done_dget fuel base d d' k : Forall2 (entry_done fuel base) d d' ->
    match dget k d, dget k d' with
    | Some v, Some v' => ivalue fuel base v = Ok v'
    | None, None => True
    | _, _ => False
    end.
  Proof.
    induction 1 as [|[k1 v] [k2 v'] d d' [A B] F IH]; cbn in *; auto. subst k2. destruct (String.eqb k k1); auto.
  Qed.

  Definition Clean (j : json) : Prop := NoImports j /\ ~ IsImport j.
  Lemma NoImports_list l : NoImports (JList l) <-> Forall Clean l.
  Proof.
    rewrite Forall_forall. split.
    - intros H x I. split; [intros y Y; apply H; eapply In_deeper; eauto; constructor; auto|apply H; constructor; auto].
    - intros H x I. apply Inside_inv in I. destruct I as (y & I & J). destruct (H _ I). destruct J as [->|J]; auto.
  Qed.
  Lemma NoImports_dict d : NoImports (JDict d) <-> Forall (fun kv => Clean (snd kv)) d.
  Proof.
    rewrite Forall_forall. split.
    - intros H [k x] I. cbn. split; [intros y Y; apply H; eapply In_deeper; eauto; econstructor; eauto|apply H; econstructor; eauto].
    - intros H x I. apply Inside_inv in I. destruct I as (k & y & I & J). specialize (H _ I). cbn in H. destruct H. destruct J as [->|J]; auto.
  Qed.
  Lemma NoImports_atom j : match j with JList _ | JDict _ => False | _ => True end -> NoImports j.
  Proof. intros A x I. apply Inside_inv in I. destruct j; destruct A; destruct I. Qed.
  Lemma Clean_str s : Clean (JStr s).
  Proof. split; [apply NoImports_atom; exact I|]. intros (k & l & H & _). discriminate. Qed.

  Lemma imports_clean : forall fuel j base j', imports fuel j base = Ok j' -> NoImports j' /\ (~ IsImport j -> ~ IsImport j').
  Proof.
    induction fuel as [|fuel IH]; intros j base j' E; [discriminate|].
    assert (V : forall v v', ivalue fuel base v = Ok v' -> Clean v').
    { intros v v' X. unfold ivalue in X. pose proof (import_of_spec v) as S. destruct (import_of v) as [[link b]|]; inv_ok.
      - match goal with H : imports _ _ _ = Ok _ |- _ => destruct (IH _ _ _ H) as [A B] end. split; auto. apply B.
        destruct b.
        + match goal with H : load _ _ _ true = Ok _ |- _ => exact (load_yaml _ _ _ _ _ _ (fun j => ~ IsImport j) files_plain _ _ _ _ _ H) end.
        + match goal with H : load _ _ _ false = Ok _ |- _ => destruct (load_text _ _ _ _ _ _ _ _ _ _ _ H) as [txt ->] end.
          intros (k & l & H & _). discriminate.
      - match goal with H : imports _ _ _ = Ok _ |- _ => destruct (IH _ _ _ H) as [A B] end. split; auto. }
    destruct j as [| | | | |l|d]; try (apply imports_atom in E; [subst j'; split; auto; apply NoImports_atom; exact I|exact I]).
    - destruct (imports_list _ _ _ _ E) as (l' & -> & F). split.
      + apply NoImports_list. clear E. induction F; constructor; eauto.
      + intros _ (k & x & H & _). discriminate.
    - destruct (imports_dict _ _ _ _ E) as (d' & -> & F). split.
      + apply NoImports_dict. clear E. induction F as [|kv kv' d d' [A B] F' IHF]; constructor; eauto.
      + intros N (k & x & H & K). apply N. injection H as ->. inversion F as [|[k0 v0] kv' d0 d0' [A B] F']; subst.
        inversion F'; subst. cbn in A. subst. exists k0, v0. auto.
  Qed.

  Lemma imports_TC : forall fuel j base j', imports fuel j base = Ok j' -> TC j -> TC j'.
  Proof.
    induction fuel as [|fuel IH]; intros j base j' E T; [discriminate|].
    assert (V : forall v v', ivalue fuel base v = Ok v' -> TC v -> TC v').
    { intros v v' X TV. unfold ivalue in X. destruct (import_of v) as [[link b]|]; inv_ok; [|eauto].
      match goal with H : imports _ _ _ = Ok _ |- _ => apply (IH _ _ _ H) end.
      destruct b.
      + eapply load_TC; eauto.
      + match goal with H : load _ _ _ false = Ok _ |- _ => destruct (load_text _ _ _ _ _ _ _ _ _ _ _ H) as [txt ->] end. apply TC_str. }
    destruct j as [| | | | |l|d]; try (apply imports_atom in E; [subst j'; auto|exact I]).
    - destruct (imports_list _ _ _ _ E) as (l' & -> & F). apply TC_list in T. apply TC_list. clear E.
      induction F as [|x y l l' X F' IHF]; constructor; apply Forall_cons_iff in T; destruct T; eauto.
    - destruct (imports_dict _ _ _ _ E) as (d' & -> & F). rewrite TC_def in *. apply every_dict in T. destruct T as [T0 T].
      apply every_dict. split.
      + intros d0 v X G. injection X as <-. pose proof (done_dget _ _ _ _ "class" F) as D. rewrite G in D.
        destruct (dget "class" d) as [c|] eqn:GC; [|destruct D]. destruct (T0 d c eq_refl GC) as [s ->].
        unfold ivalue in D. cbn [import_of bind] in D. apply imports_atom in D; [|exact I]. eauto.
      + clear E T0. induction F as [|x y l l' [A X] F' IHF]; constructor; apply Forall_cons_iff in T; destruct T; auto.
        rewrite <- TC_def in *. eauto.
  Qed.

  Lemma not_import_two d k k' v v' : k <> k' -> dget k d = Some v -> dget k' d = Some v' -> ~ IsImport (JDict d).
  Proof.
    intros N A B (k0 & l & H & _). injection H as ->. cbn in A, B.
    destruct (String.eqb_spec k k0); [|discriminate]. destruct (String.eqb_spec k' k0); [|discriminate]. congruence.
  Qed.
  Lemma not_import_key d k v : k <> "$import" -> k <> "$include" -> dget k d = Some v -> ~ IsImport (JDict d).
  Proof.
    intros N1 N2 A (k0 & l & H & K). injection H as ->. cbn in A.
    destruct (String.eqb_spec k k0); [|discriminate]. destruct K; congruence.
  Qed.

  Lemma ivalue_list fuel base l v' : ivalue fuel base (JList l) = Ok v' ->
    exists f l', fuel = S f /\ v' = JList l' /\ Forall2 (fun v v' => ivalue f base v = Ok v') l l'.
  Proof.
    unfold ivalue. cbn [import_of bind]. intros E. destruct (imports_ok_S _ _ _ _ E) as [f ->].
    destruct (imports_list _ _ _ _ E) as (l' & -> & F). eauto 6.
  Qed.
  Lemma ivalue_str fuel base s v' : ivalue fuel base (JStr s) = Ok v' -> v' = JStr s.
  Proof. unfold ivalue. cbn [import_of bind]. apply imports_atom. exact I. Qed.
  Lemma ivalue_dict fuel base d v' : ~ IsImport (JDict d) -> ivalue fuel base (JDict d) = Ok v' ->
    exists f d', fuel = S f /\ v' = JDict d' /\ Forall2 (entry_done f base) d d'.
  Proof.
    unfold ivalue. intros N. rewrite (import_of_none _ N). cbn [bind]. intros E. destruct (imports_ok_S _ _ _ _ E) as [f ->].
    destruct (imports_dict _ _ _ _ E) as (d' & -> & F). eauto 6.
  Qed.

  Lemma Forall2_in_r {A B} (R : A -> B -> Prop) l l' y : Forall2 R l l' -> In y l' -> exists x, In x l /\ R x y.
  Proof. induction 1; cbn; intros H1; [destruct H1|]. destruct H1 as [<-|H1]; eauto. destruct (IHForall2 H1) as (z & ? & ?). eauto. Qed.

  Lemma done_list fuel base d d' k : Forall2 (entry_done fuel base) d d' -> list_section k d -> list_section k d'.
  Proof.
    intros F [l L]. pose proof (done_dget _ _ _ _ k F) as D. rewrite L in D. destruct (dget k d') eqn:G; [|destruct D].
    destruct (ivalue_list _ _ _ _ D) as (f & l' & _ & -> & _). unfold list_section. rewrite G. eauto.
  Qed.
  Lemma done_text fuel base d d' k s : Forall2 (entry_done fuel base) d d' -> dget k d = Some (JStr s) -> dget k d' = Some (JStr s).
  Proof.
    intros F L. pose proof (done_dget _ _ _ _ k F) as D. rewrite L in D. destruct (dget k d') eqn:G; [|destruct D].
    apply ivalue_str in D. congruence.
  Qed.
  Lemma done_class fuel base d d' : TC (JDict d) -> Forall2 (entry_done fuel base) d d' -> dget "class" d' = dget "class" d.
  Proof.
    intros T F. destruct (dget "class" d) as [c|] eqn:G.
    - destruct (TC_class _ _ T G) as [s ->]. eapply done_text; eauto.
    - pose proof (done_dget _ _ _ _ "class" F) as D. rewrite G in D. destruct (dget "class" d'); [destruct D|reflexivity].
  Qed.

  (** a requirement that was kept is not a schema definition after imports either *)
  Lemma kept_not_schema f0 fuel base e d' : TC e -> kept_entry f0 base e -> ivalue fuel base e = Ok (JDict d') ->
    dget "class" d' <> Some (JStr "SchemaDefRequirement").
  Proof.
    intros T (d & -> & C & L) E. unfold ivalue in E. destruct (import_of (JDict d)) as [[link b]|] eqn:G.
    - inv_ok. destruct d as [|[k v] d]; [discriminate|]. destruct d; [|discriminate]. cbn in G.
      destruct (String.eqb_spec k "$import") as [->|N].
      + injection G as -> <-. destruct link; try discriminate. injection E1 as ->.
        destruct (L a0 eq_refl) as (r & u & LD & NC). pose proof (load_fun _ _ _ _ _ _ _ _ _ _ _ _ _ LD E2) as X. injection X as <- <-.
        destruct (imports_ok_S _ _ _ _ E) as [f ->]. destruct (imports_dict _ _ _ _ E) as (r' & X & F). injection X as <-.
        rewrite (done_class _ _ _ _ (load_TC _ _ _ _ _ LD) F). auto.
      + destruct (String.eqb k "$include"); [|discriminate]. injection G as <- <-.
        match goal with H : load _ _ _ false = Ok _ |- _ => destruct (load_text _ _ _ _ _ _ _ _ _ _ _ H) as [txt ->] end.
        apply imports_atom in E; [discriminate|exact I].
    - cbn [bind] in E. destruct (imports_ok_S _ _ _ _ E) as [f ->]. destruct (imports_dict _ _ _ _ E) as (r' & X & F). injection X as <-.
      rewrite (done_class _ _ _ _ T F). auto.
  Qed.
End Files.
