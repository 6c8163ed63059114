(** * Lemmas for C76 and C77 *)
From Verif Require Import PyBase PyBaseProofs UtilsModel PackModel PackSpec PackProofs RefactorModel RefactorSpec RefactorProofs NormalModel NormalSpec.

Lemma text_in_graph j b : text_in "$graph" j = Ok b <-> Container j /\ (b = true <-> Graph j).
Proof.
  assert (X : forall P : Prop, forall c : bool, (c = true <-> P) -> (Ok c = Ok b <-> (b = true <-> P))).
  { intros P c H. split; [intros [= <-]; exact H|]. intros H'. f_equal. destruct c, b; intuition congruence. }
  unfold Container. destruct j as [|b'|z|q|s|l|d]; cbn [text_in]; try (split; [discriminate|intros [[[? ?]|[[? ?]|[? ?]]] _]; discriminate]).
  - rewrite (X (Graph (JStr s))); [split; [intros H; split; [right; right; eauto|exact H]|tauto]|]. split; [intros; constructor; auto|intros G; inversion G; auto].
  - rewrite (X (Graph (JList l))); [split; [intros H; split; [right; left; eauto|exact H]|tauto]|]. rewrite existsb_exists. split.
    + intros (x & I & E). constructor. destruct x; try discriminate E. cbn in E. apply String.eqb_eq in E. subst. exact I.
    + intros G. inversion G; subst. exists (JStr "$graph"). split; auto.
  - rewrite (X (Graph (JDict d))); [split; [intros H; split; [left; eauto|exact H]|tauto]|]. unfold dmem. split.
    + destruct (dget "$graph" d) eqn:E; [intros _; econstructor; eauto|discriminate].
    + intros G. inversion G as [d' v E| |]; subst. rewrite E. reflexivity.
Qed.

Section Packing.
  Variable url_scheme url_path : string -> string.
  Variable urljoin : string -> string -> string.
  Variable urlopen : string -> result string.
  Variable parse_yaml : string -> result json.
  Variable ver : Type.
  Variable parse_version : string -> result ver.
  Variable version_gt : ver -> ver -> bool.
  Variable fuel : nat.
  Variable writable : string -> bool.
  Notation pack_file := (pack_file url_scheme url_path urljoin urlopen parse_yaml ver parse_version version_gt fuel).
  Context {P U : Type}.
  Variable parse : string -> result json.
  Variable dump : json -> result string.
  Variable encode : json -> string * option exn.
  Variable upgrade : string -> dict -> U -> files -> files * result (json * U).
  Variable path_uri : string -> string.
  Variable load : json -> string -> result (P + list P).
  Variable traverse : bool -> bool -> bool -> bool -> P -> result P.
  Variable save : P -> result json.
  Variable temporary : files -> string.
  Notation one_document := (one_document url_scheme url_path urljoin urlopen parse_yaml ver parse_version version_gt fuel writable parse dump encode upgrade path_uri load traverse save temporary).
  Notation documents := (documents url_scheme url_path urljoin urlopen parse_yaml ver parse_version version_gt fuel writable parse dump encode upgrade path_uri load traverse save temporary).
  Notation packed_of := (packed_of url_scheme url_path urljoin urlopen parse_yaml ver parse_version version_gt fuel dump temporary).
  Notation refactored := (refactored load traverse save).
  Notation Document := (Document parse).
  Notation Upgraded := (Upgraded upgrade).
  Notation Rewritten := (Rewritten path_uri load traverse save).
  (** packing in a new directory that has only the document *)
  Definition PackAlone (text name : string) (fs : files) (names : naming) (d : dict) (names' : naming) : Prop :=
    let path := (temporary fs ++ "/" ++ name)%string in pack_file (fset path text fs) path names = Ok (d, names').
  Notation Packed := (Packed dump PackAlone).
  Notation Writes := (Writes parse dump encode upgrade path_uri load traverse save PackAlone writable).
  Notation Normalised := (Normalised parse dump encode upgrade path_uri load traverse save PackAlone writable).

  Lemma mapM_F2 {A B} (f : A -> result B) l l' : mapM f l = Ok l' <-> Forall2 (fun a b => f a = Ok b) l l'.
  Proof.
    revert l'. induction l as [|a l IH]; intros l'; cbn [mapM]; [split; [intros [= <-]; constructor|intros F; inversion F; auto]|].
    split.
    - destruct (f a) as [b|] eqn:E; cbn [bind]; [|discriminate]. destruct (mapM f l) as [bs|] eqn:E2; cbn [bind]; [|discriminate]. intros [= <-]. constructor; auto. apply IH. reflexivity.
    - intros F. inversion F as [|a' b l2 bs E F']; subst. rewrite E. cbn [bind]. apply IH in F'. rewrite F'. reflexivity.
  Qed.
  Lemma refactored_spec o document j j' :
    (if no_expression_refactoring o then Ok j else refactored o j (path_uri document)) = Ok j' <-> Rewritten o document j j'.
  Proof.
    unfold NormalModel.refactored. split.
    - destruct (no_expression_refactoring o) eqn:N; [intros [= <-]; apply Rewritten_not; auto|].
      destruct (load j (path_uri document)) as [[p|ps]|] eqn:L; cbn [bind]; [| |discriminate].
      + destruct (traverse _ _ _ _ p) as [p'|] eqn:T; cbn [bind]; [|discriminate]. intros S. eapply Rewritten_process; eauto.
      + destruct (mapM save ps) as [js|] eqn:S; cbn [bind]; [|discriminate]. intros [= <-]. eapply Rewritten_list; eauto. apply mapM_F2. exact S.
    - intros R. inversion R as [N|p p' j1 N L T S|ps js N L S]; subst; rewrite N; auto; rewrite L; cbn [bind].
      + rewrite T. exact S.
      + apply mapM_F2 in S. rewrite S. reflexivity.
  Qed.
  Lemma packed_spec document j fs names r names' : packed_of document j fs names = Ok (r, names') <-> Packed (base_name document) fs names j r names'.
  Proof using url_scheme url_path urljoin urlopen parse_yaml ver parse_version version_gt fuel dump temporary.
    unfold NormalModel.packed_of. split.
    - destruct (text_in "$graph" j) as [g|] eqn:T; cbn [bind]; [|discriminate]. apply text_in_graph in T. destruct T as [C G]. destruct g.
      + intros [= <- <-]. apply Packed_already. apply G. reflexivity.
      + destruct (dump j) as [text|] eqn:D; cbn [bind]; [|discriminate]. destruct (pack_file _ _ _) as [[d n]|] eqn:Pk; cbn [bind]; [|discriminate]. intros [= <- <-].
        apply (Packed_now _ _ _ _ _ _ text d n); [exact C|intros X; apply G in X; discriminate X|exact D|exact Pk].
    - intros Pk. destruct Pk as [G|text d n C G D A].
      + assert (T : text_in "$graph" j = Ok true). { apply text_in_graph. split; [|split; intros _; [exact G|reflexivity]]. unfold Container. destruct G; [left|right; left|right; right]; eexists; reflexivity. }
        rewrite T. reflexivity.
      + assert (T : text_in "$graph" j = Ok false) by (apply text_in_graph; split; [exact C|]; split; [intros X; discriminate X|intros X; destruct (G X)]).
        rewrite T. cbn [bind]. rewrite D. cbn [bind]. unfold PackAlone in A. cbv zeta in A. rewrite A. reflexivity.
  Qed.
  Lemma base_name_spec document name : (document = name \/ exists q, document = (q ++ "/" ++ name)%string) -> has_char "/" name = false -> base_name document = name.
  Proof.
    intros D N. assert (O : Output "d" document ("d/" ++ name)) by (exists name; auto).
    apply output_path_Output in O. unfold output_path in O. cbn [append] in O. injection O as O. exact O.
  Qed.
  Lemma base_name_of document : (document = base_name document \/ exists q, document = (q ++ "/" ++ base_name document)%string) /\ has_char "/" (base_name document) = false.
  Proof.
    assert (O : Output "d" document (output_path "d" document)) by (apply output_path_Output; reflexivity).
    destruct O as (n & E & N & D). unfold output_path in E. cbn [append] in E. injection E as E. fold (base_name document) in E. rewrite E. auto.
  Qed.

  Lemma older_smem v : smem v ["draft-3"; "cwl:draft-3"; "v1.0"; "v1.1"] = true <-> In v older.
  Proof. apply smem_In. Qed.
  Lemma one_next dir o document st st' b : one_document dir o document st = (st', Next b) <-> b = false /\ exists packed, Writes dir o document st packed st'.
  Proof.
    unfold NormalModel.one_document, read_file. split.
    - destruct (fget document (s_files st)) as [text|] eqn:F; [|discriminate]. destruct (parse text) as [[| | | | | |d]|] eqn:Ps; try discriminate.
      assert (Dc : Document (s_files st) document d) by (exists text; auto).
      destruct (match dget "cwlVersion" d with Some (JStr v) => _ | _ => _ end) as [st1 up] eqn:E. intros H.
      destruct up as [[j|]|]; try discriminate.
      assert (Up : Upgraded dir d st j st1).
      { destruct (dget "cwlVersion" d) as [[| | | |v| |]|] eqn:V; try discriminate. destruct (smem v _) eqn:O.
        - destruct (upgrade dir d (s_imports st) (s_files st)) as [fs [[j1 u]|]] eqn:Ug; [|discriminate]. injection E as <- <-. eapply Upgraded_to; eauto. apply older_smem. exact O.
        - destruct (String.eqb_spec v "v1.2") as [-> |]; [|discriminate]. injection E as <- <-. apply Upgraded_not. exact V. }
      destruct (if no_expression_refactoring o then _ else _) as [j'|] eqn:R; cbn [bind] in H; [|discriminate]. apply refactored_spec in R.
      destruct (packed_of document j' _ _) as [[packed names]|] eqn:Pk; [|discriminate]. apply packed_spec in Pk.
      destruct (writable _) eqn:W; [|discriminate]. destruct (encode packed) as [t [e|]] eqn:En; [discriminate|]. injection H as <- <-. split; auto. exists packed.
      destruct (base_name_of document) as [N1 N2]. exact (Writes_intro _ _ _ _ _ _ _ _ _ _ dir o document st packed d j st1 j' (base_name document) names _ t Dc Up R N1 N2 Pk eq_refl W En).
    - intros (-> & packed & W). inversion W as [d j st1 j' name names p text Dc Up Rw Nm Sl Pk -> Wr En]; subst.
      destruct Dc as (t & -> & ->). pose proof (base_name_spec _ _ Nm Sl) as B. subst name. apply refactored_spec in Rw. apply packed_spec in Pk.
      assert (X : (match dget "cwlVersion" d with
            | Some (JStr v) =>
                if smem v ["draft-3"; "cwl:draft-3"; "v1.0"; "v1.1"] then
                  match upgrade dir d (s_imports st) (s_files st) with
                  | (fs, Ok (j, u)) => (State fs (s_names st) u, Some (Ok j))
                  | (fs, Err e) => (with_files fs st, Some (Err e))
                  end
                else if String.eqb v "v1.2" then (st, Some (Ok (JDict d)))
                else (st, None)
            | _ => (st, None)
            end) = (st1, Some (Ok j))).
      { inversion Up as [V|v fs j0 u V I Ug]; subst; rewrite V.
        - reflexivity.
        - apply older_smem in I. rewrite I, Ug. reflexivity. }
      rewrite X, Rw. cbn [bind]. rewrite Pk. unfold output_path in *. fold (base_name document). rewrite Wr, En. reflexivity.
  Qed.
  Lemma documents_zero dir o docs st st' : (forall d st s c, one_document dir o d st = (s, Return c) -> c <> 0%Z) ->
    documents dir o docs st = (st', Ok 0%Z) <-> Normalised dir o docs st st'.
  Proof.
    intros NZ. revert st. induction docs as [|d docs IH]; intros st; cbn [NormalModel.documents].
    - split; [intros [= <-]; constructor|intros N; inversion N; auto].
    - split.
      + destruct (one_document dir o d st) as [s1 e] eqn:E. destruct e as [b|c|e]; [|intros [= _ ->]; destruct (NZ _ _ _ _ E eq_refl)|discriminate].
        intros H. apply one_next in E. destruct E as (_ & packed & W). econstructor; [exact W|]. apply IH. exact H.
      + intros N. inversion N as [|d' docs' st0 packed st1 st2 W N']; subst. assert (E : one_document dir o d st = (st1, Next false)) by (apply one_next; eauto).
        rewrite E. apply IH. exact N'.
  Qed.
  Lemma one_return dir o document st st' c : one_document dir o document st = (st', Return c) <-> c = (-1)%Z /\ st' = st /\ Unsupported parse (s_files st) document.
  Proof.
    unfold NormalModel.one_document, read_file, Unsupported. split.
    - destruct (fget document (s_files st)) as [text|] eqn:F; [|discriminate]. destruct (parse text) as [[| | | | | |d]|] eqn:Ps; try discriminate.
      assert (Dc : Document (s_files st) document d) by (exists text; auto).
      destruct (match dget "cwlVersion" d with Some (JStr v) => _ | _ => _ end) as [st1 up] eqn:E. intros H.
      destruct up as [[j|]|]; [|discriminate|].
      + exfalso. destruct (bind _ _) as [[packed names]|]; [|discriminate]. destruct (writable _); [|discriminate]. destruct (encode packed) as [t [e|]]; discriminate.
      + injection H as <- <-. split; auto. assert (X : st1 = st /\ (forall v, dget "cwlVersion" d = Some (JStr v) -> v <> "v1.2" /\ ~ In v older)).
        { destruct (dget "cwlVersion" d) as [[| | | |v| |]|]; try (injection E as <-; split; [auto|intros v' [=]]).
          destruct (smem v _) eqn:O; [destruct (upgrade _ _ _ _) as [fs [[? ?]|]]; discriminate|]. destruct (String.eqb_spec v "v1.2"); [discriminate|]. injection E as <-.
          split; auto. intros v' [= <-]. split; auto. intros I. apply older_smem in I. congruence. }
        destruct X as [-> X]. split; auto. exists d. auto.
    - intros (-> & -> & d & (text & -> & ->) & N). destruct (dget "cwlVersion" d) as [[| | | |v| |]|] eqn:V; try reflexivity.
      destruct (N v eq_refl) as [N1 N2]. destruct (smem v _) eqn:O; [apply older_smem in O; contradiction|]. apply String.eqb_neq in N1. rewrite N1. reflexivity.
  Qed.
End Packing.
