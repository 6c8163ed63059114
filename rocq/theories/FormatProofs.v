From Verif Require Import PyBase PyBaseProofs FormatModel FormatSpec.

Lemma term_eqb_eq a b : term_eqb a b = true <-> a = b.
Proof.
  destruct a, b; cbn; rewrite ?String.eqb_eq; split; intros H; try discriminate; congruence.
Qed.
Lemma pred_eqb_eq a b : pred_eqb a b = true <-> a = b.
Proof.
  destruct a, b; cbn; rewrite ?String.eqb_eq; split; intros H; try discriminate; try congruence.
Qed.
Lemma ident_eqb_eq a b : ident_eqb a b = true <-> a = b.
Proof.
  destruct a, b; cbn; rewrite ?String.eqb_eq, ?term_eqb_eq; split; intros H; try discriminate; try congruence.
Qed.
Lemma visited_mem_In x l : visited_mem x l = true <-> In x l.
Proof.
  unfold visited_mem. rewrite existsb_exists. split.
  - intros (y & I & E). apply ident_eqb_eq in E. subst. auto.
  - intros I. exists x. split; auto. apply ident_eqb_eq. auto.
Qed.
Lemma visited_mem_not x l : visited_mem x l = false <-> ~ In x l.
Proof. rewrite <- visited_mem_In. destruct (visited_mem x l); split; congruence. Qed.

Lemma objects_In g s p o : In o (objects g s p) <-> In (s, p, o) g.
Proof.
  unfold objects. rewrite in_map_iff. split.
  - intros ([[a b] c] & <- & I). apply filter_In in I. destruct I as [I E]. cbn in *.
    apply andb_true_iff in E. destruct E as [E1 E2].
    apply term_eqb_eq in E1. apply pred_eqb_eq in E2. subst. auto.
  - intros I. exists (s, p, o). split; auto. apply filter_In. split; auto. cbn.
    apply andb_true_iff. split; [apply term_eqb_eq|apply pred_eqb_eq]; auto.
Qed.
Lemma subjects_In g p o s : In s (subjects g p o) <-> In (s, p, o) g.
Proof.
  unfold subjects. rewrite in_map_iff. split.
  - intros ([[a b] c] & <- & I). apply filter_In in I. destruct I as [I E]. cbn in *.
    apply andb_true_iff in E. destruct E as [E1 E2].
    apply term_eqb_eq in E1. apply pred_eqb_eq in E2. subst. auto.
  - intros I. exists (s, p, o). split; auto. apply filter_In. split; auto. cbn.
    apply andb_true_iff. split; [apply term_eqb_eq|apply pred_eqb_eq]; auto.
Qed.

(** successors of a format: the terms the three loops go through *)
Definition succs (g : graph) (x : string) : list term :=
  objects g (Uri x) SubClassOf ++ objects g (Uri x) EquivalentClass ++ subjects g EquivalentClass (Uri x).

Lemma succs_Link g x b : Link g x b <-> exists t, In t (succs g x) /\ term_text t = b.
Proof.
  unfold succs. split.
  - intros [o I E|o I E|s I E]; eexists; rewrite ?in_app_iff, ?objects_In, ?subjects_In; eauto.
  - intros (t & I & E). rewrite !in_app_iff, !objects_In, subjects_In in I.
    destruct I as [I|[I|I]]; [eapply L_sub|eapply L_eq|eapply L_eq_sym]; eauto.
Qed.

Section Search.
  Variables (g : graph) (cls : string).

  Definition universe (fmt : string) : list ident :=
    Plain fmt :: map (fun t => Term (fst (fst t))) g ++ map (fun t => Term (snd t)) g.

  Lemma succs_universe fmt x t : In t (succs g x) -> In (Term t) (universe fmt).
  Proof.
    unfold succs, universe. rewrite !in_app_iff, !objects_In, subjects_In. right.
    apply in_app_iff.
    destruct H as [H|[H|H]]; [right|right|left]; apply in_map_iff; eexists; (split; [|exact H]); auto.
  Qed.

  (** number of identifiers not visited yet *)
  Definition unseen (u vis : list ident) : nat :=
    List.length (filter (fun x => negb (visited_mem x vis)) u).

  Lemma unseen_le u vis vis' : incl vis vis' -> unseen u vis' <= unseen u vis.
  Proof.
    intros I. unfold unseen. induction u as [|x u IH]; cbn; auto.
    destruct (visited_mem x vis) eqn:E.
    - apply visited_mem_In in E. apply I in E. apply visited_mem_In in E. rewrite E. cbn. auto.
    - destruct (visited_mem x vis'); cbn; lia.
  Qed.
  Lemma unseen_lt u vis x : In x u -> ~ In x vis -> unseen u (x :: vis) < unseen u vis.
  Proof.
    intros I N. induction u as [|y u IH]; [destruct I|].
    assert (LE : unseen u (x :: vis) <= unseen u vis) by (apply unseen_le; intros z; right; auto).
    unfold unseen in *. cbn [filter].
    destruct I as [->|I].
    - assert (E : visited_mem x (x :: vis) = true) by (apply visited_mem_In; left; auto).
      assert (E' : visited_mem x vis = false) by (apply visited_mem_not; auto).
      rewrite E, E'. cbn [negb List.length]. lia.
    - specialize (IH I).
      destruct (visited_mem y vis) eqn:E.
      + assert (E' : visited_mem y (x :: vis) = true)
          by (apply visited_mem_In; right; apply visited_mem_In; auto).
        rewrite E'. cbn [negb]. auto.
      + destruct (visited_mem y (x :: vis)); cbn [negb List.length]; lia.
  Qed.

  (** what a call or a loop guarantees when it does not find [cls] *)
  Definition closed_between (vis vis' : list ident) : Prop :=
    forall y, In y vis' -> ~ In y vis ->
      text y <> cls /\ forall t, In t (succs g (text y)) -> In (Term t) vis' /\ term_text t <> cls.

  Definition good (x : ident) (vis : list ident) (r : result (bool * list ident)) : Prop :=
    match r with
    | Err _ => False
    | Ok (true, vis') => Reach g (text x) cls
    | Ok (false, vis') =>
        incl vis vis' /\ In x vis' /\ text x <> cls /\ closed_between vis vis'
    end.

  Definition good_list (l : list term) (vis : list ident) (r : result (bool * list ident)) : Prop :=
    match r with
    | Err _ => False
    | Ok (true, vis') => exists t, In t l /\ Reach g (term_text t) cls
    | Ok (false, vis') =>
        incl vis vis' /\ (forall t, In t l -> In (Term t) vis' /\ term_text t <> cls)
        /\ closed_between vis vis'
    end.

  Lemma closed_between_trans a b c :
    incl b c -> closed_between a b -> closed_between b c -> closed_between a c.
  Proof.
    intros I H1 H2 y Hy Ny.
    destruct (visited_mem y b) eqn:E.
    - apply visited_mem_In in E. destruct (H1 y E Ny) as [T S]. split; auto.
      intros t Ht. destruct (S t Ht). split; auto.
    - apply visited_mem_not in E. auto.
  Qed.

  Lemma search_good rec u :
    forall l vis n,
    (forall t vis, In t l -> unseen u vis <= n -> good (Term t) vis (rec (Term t) vis)) ->
    unseen u vis <= n ->
    good_list l vis (search rec l vis).
  Proof.
    induction l as [|o l IH]; intros vis n H M; cbn [search].
    - cbn. split; [apply incl_refl|]. split; [intros t []|]. intros y Hy Ny. contradiction.
    - pose proof (H o vis (or_introl eq_refl) M) as G.
      destruct (rec (Term o) vis) as [[[] vis']|e]; cbn [bind]; [| |destruct G].
      + cbn in G |- *. eauto.
      + cbn in G. destruct G as (I & Io & T & C).
        specialize (IH vis' n).
        assert (G : good_list l vis' (search rec l vis')).
        { apply IH. { intros; apply H; [right|]; auto. }
          pose proof (unseen_le u vis vis' I). lia. }
        destruct (search rec l vis') as [[[] v2]|e]; cbn in G |- *; [| |destruct G].
        * destruct G as (t & It & R). eauto.
        * destruct G as (I2 & L2 & C2).
          split; [eapply incl_tran; eauto|]. split.
          -- intros t [<-|It]; auto.
          -- eapply closed_between_trans; eauto.
  Qed.

  Lemma subclass_good fmt0 : forall fuel x vis,
    In x (universe fmt0) -> unseen (universe fmt0) vis < fuel ->
    In x vis -> text x <> cls ->
    subclass fuel cls (Some g) x vis = Ok (false, vis).
  Proof.
    intros [|fuel] x vis _ M I T; [lia|]. cbn [subclass].
    apply String.eqb_neq in T. rewrite T.
    apply visited_mem_In in I. rewrite I. reflexivity.
  Qed.

  Lemma subclass_spec fmt0 : forall fuel x vis,
    In x (universe fmt0) -> unseen (universe fmt0) vis < fuel ->
    good x vis (subclass fuel cls (Some g) x vis).
  Proof.
    induction fuel as [|fuel IH]; intros x vis U M; [lia|]. cbn [subclass].
    destruct (String.eqb (text x) cls) eqn:T.
    { apply String.eqb_eq in T. cbn. rewrite T. constructor. }
    apply String.eqb_neq in T.
    destruct (visited_mem x vis) eqn:V.
    { apply visited_mem_In in V. cbn. repeat split; auto using incl_refl; contradiction. }
    apply visited_mem_not in V.
    pose proof (unseen_lt _ _ _ U V) as LT.
    assert (REC : forall t vis', In t (succs g (text x)) -> unseen (universe fmt0) vis' <= unseen (universe fmt0) (x :: vis) ->
      good (Term t) vis' (subclass fuel cls (Some g) (Term t) vis')).
    { intros t vis' It L. apply IH; [eapply succs_universe; eauto|lia]. }
    assert (S1 := search_good (subclass fuel cls (Some g)) (universe fmt0)
                    (objects g (Uri (text x)) SubClassOf) (x :: vis) (unseen (universe fmt0) (x :: vis))).
    lapply S1; [clear S1; intros S1|intros t v It; apply REC; unfold succs; rewrite in_app_iff; auto].
    specialize (S1 (le_n _)).
    destruct (search _ (objects g (Uri (text x)) SubClassOf) _) as [[[] v1]|e]; cbn [bind]; cbn in S1; [| |destruct S1].
    { destruct S1 as (t & It & R). cbn. eapply R_step; eauto. apply succs_Link. exists t.
      unfold succs. rewrite in_app_iff. auto. }
    destruct S1 as (I1 & L1 & C1).
    assert (S2 := search_good (subclass fuel cls (Some g)) (universe fmt0)
                    (objects g (Uri (text x)) EquivalentClass) v1 (unseen (universe fmt0) (x :: vis))).
    lapply S2; [clear S2; intros S2|intros t v It; apply REC; unfold succs; rewrite !in_app_iff; auto].
    specialize (S2 (unseen_le _ _ _ I1)).
    destruct (search _ (objects g (Uri (text x)) EquivalentClass) _) as [[[] v2]|e]; cbn [bind]; cbn in S2; [| |destruct S2].
    { destruct S2 as (t & It & R). cbn. eapply R_step; eauto. apply succs_Link. exists t.
      unfold succs. rewrite !in_app_iff. auto. }
    destruct S2 as (I2 & L2 & C2).
    assert (S3 := search_good (subclass fuel cls (Some g)) (universe fmt0)
                    (subjects g EquivalentClass (Uri (text x))) v2 (unseen (universe fmt0) (x :: vis))).
    lapply S3; [clear S3; intros S3|intros t v It; apply REC; unfold succs; rewrite !in_app_iff; auto].
    specialize (S3 (unseen_le _ _ _ (incl_tran I1 I2))).
    destruct (search _ (subjects g EquivalentClass (Uri (text x))) _) as [[[] v3]|e]; cbn [bind]; cbn in S3; [| |destruct S3].
    { destruct S3 as (t & It & R). cbn. eapply R_step; eauto. apply succs_Link. exists t.
      unfold succs. rewrite !in_app_iff. auto. }
    destruct S3 as (I3 & L3 & C3). cbn.
    assert (X3 : In x v3) by (apply I3, I2, I1; left; auto).
    split. { intros y Hy. apply I3, I2, I1. right. auto. }
    split; auto. split; auto.
    intros y Hy Ny.
    destruct (ident_eqb y x) eqn:E.
    - apply ident_eqb_eq in E. subst y. split; auto.
      intros t It. unfold succs in It. rewrite !in_app_iff in It.
      destruct It as [It|[It|It]]; [destruct (L1 t It)|destruct (L2 t It)|destruct (L3 t It)]; auto.
    - assert (C : closed_between (x :: vis) v3).
      { eapply closed_between_trans; [exact I3| |exact C3].
        eapply closed_between_trans; [exact I2|exact C1|exact C2]. }
      apply C; auto. intros [->|H]; auto.
      assert (ident_eqb y y = true) by (apply ident_eqb_eq; auto). congruence.
  Qed.

  Lemma filter_length_le {A} (f : A -> bool) l : List.length (filter f l) <= List.length l.
  Proof. induction l as [|x l IH]; cbn; auto. destruct (f x); cbn; lia. Qed.

  Lemma formatSubclassOf_graph fmt :
    exists b, formatSubclassOf fmt cls (Some g) = Ok b /\ (b = true <-> Reach g fmt cls).
  Proof.
    unfold formatSubclassOf.
    assert (G : good (Plain fmt) [] (subclass (subclass_fuel (Some g)) cls (Some g) (Plain fmt) [])).
    { apply (subclass_spec fmt); [left; auto|]. unfold subclass_fuel, unseen.
      pose proof (filter_length_le (fun x => negb (visited_mem x [])) (universe fmt)) as F.
      unfold universe in *. cbn [List.length] in F. rewrite app_length, !map_length in F.
      cbv iota. unfold graph, triple in *. lia. }
    destruct (subclass _ cls (Some g) (Plain fmt) []) as [[[] v]|e]; cbn [bind]; cbn in G; [| |destruct G].
    - exists true. split; auto. split; auto.
    - destruct G as (_ & I & T & C). exists false. split; auto. split; [discriminate|].
      intros R. exfalso.
      assert (K : forall a b, Reach g a b -> b = cls -> (exists y, In y v /\ text y = a) -> False).
      { induction 1 as [a|a b c L R' IH]; intros E (y & Iy & Ty).
        - destruct (C y Iy ltac:(auto)) as [N _]. congruence.
        - apply IH; auto. apply succs_Link in L. destruct L as (t & It & Tt).
          destruct (C y Iy ltac:(auto)) as [_ S]. rewrite Ty in S.
          destruct (S t It). exists (Term t). auto. }
      eapply K; eauto.
  Qed.
End Search.

Lemma formatSubclassOf_spec ontology fmt cls :
  exists b, formatSubclassOf fmt cls ontology = Ok b /\ (b = true <-> IsA ontology fmt cls).
Proof.
  destruct ontology as [g|]; [apply formatSubclassOf_graph|].
  unfold formatSubclassOf, subclass_fuel, IsA. cbn.
  destruct (String.eqb fmt cls) eqn:E; cbn; eexists; split; eauto.
  - apply String.eqb_eq in E. tauto.
  - apply String.eqb_neq in E. split; [discriminate|contradiction].
Qed.

Lemma IsA_refl ontology f : IsA ontology f f.
Proof. destruct ontology; cbn; [constructor|reflexivity]. Qed.

Lemma any_format_spec ontology f l :
  exists b, any_format f l ontology = Ok b /\ (b = true <-> exists c, In c l /\ IsA ontology f c).
Proof.
  induction l as [|c l (b & E & IH)]; cbn [any_format].
  - exists false. split; auto. split; [discriminate|]. intros (c & [] & _).
  - destruct (String.eqb f c) eqn:Q.
    + exists true. split; auto. split; auto. intros _. apply String.eqb_eq in Q. subst.
      exists c. split; [left; auto|apply IsA_refl].
    + destruct (formatSubclassOf_spec ontology f c) as (b' & -> & H). cbn [bind].
      destruct b'.
      * exists true. split; auto. split; auto. intros _. exists c. split; [left; auto|apply H; auto].
      * exists b. split; auto. rewrite IH. split.
        -- intros (c' & I & A). exists c'. split; [right|]; auto.
        -- intros (c' & [<-|I] & A); [apply H in A; discriminate|eauto].
Qed.

Lemma check_format_first ontology formats : forall pre d post,
  Forall (fun f => f = None \/ f = Some []) pre -> d <> [] -> format_is_text d ->
  (Acceptable ontology formats d ->
     check_format (pre ++ Some d :: post) formats ontology = Ok tt) /\
  (~ Acceptable ontology formats d ->
     check_format (pre ++ Some d :: post) formats ontology = Err ValidationException).
Proof.
  induction 1 as [|f pre F P IH]; intros N X; cbn [app check_format].
  - destruct d as [|kv d]; [congruence|]. cbn [file_empty].
    set (dd := kv :: d) in *. clearbody dd. clear N.
    destruct (dget "format" dd) as [v|] eqn:E.
    + destruct (X v E) as [f ->].
      destruct (any_format_spec ontology f formats) as (b & -> & H). cbn [bind].
      destruct b; split; intros A; auto.
      * exfalso. apply A. destruct (proj1 H eq_refl) as (c & I & S). exists f, c. auto.
      * exfalso. destruct A as (f' & c & E' & I & S). rewrite E in E'. injection E' as <-.
        assert (false = true) by (apply H; eauto). discriminate.
    + split; auto. intros (f & c & E' & _). congruence.
  - replace (file_empty f) with true; [auto|]. destruct F; subst; auto.
Qed.

Lemma check_format_none ontology formats : forall l,
  Forall (fun f => f = None \/ f = Some []) l -> check_format l formats ontology = Ok tt.
Proof.
  induction 1 as [|f l F P IH]; cbn [check_format]; auto.
  replace (file_empty f) with true; [auto|]. destruct F; subst; auto.
Qed.
