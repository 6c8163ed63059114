(** * Proofs for C74: what saving yields, and that loading it yields the object again *)
From Verif Require Import PyBase PyBaseProofs NameProofs ParserModel LoaderModel LoaderSpec LoaderProofs AddressProofs VersionModel VersionSpec RefusalProofs EndProofs SaveModel SaveSpec.
From Coq Require Import Lia.

(** ** Dictionaries *)
Lemma dset_fresh {V} k (v : V) d : ~ In k (map fst d) -> dset k v d = d ++ [(k, v)].
Proof.
  induction d as [|[k' v'] d IH]; cbn [dset map fst In app]; auto. intros N. destruct (String.eqb k k') eqn:E; [apply String.eqb_eq in E; subst; tauto|].
  rewrite IH by tauto. reflexivity.
Qed.
Lemma dupdate_fresh {V} (e : list (string * V)) : forall d, NoDup (map fst d ++ map fst e) -> dupdate d e = d ++ e.
Proof.
  unfold dupdate. induction e as [|[k v] e IH]; intros d N; cbn [fold_left fst snd map] in *; [rewrite app_nil_r; auto|].
  pose proof (NoDup_remove _ _ _ N) as [N1 N2]. rewrite dset_fresh by (intros X; apply N2, in_or_app; auto). rewrite IH; [rewrite <- app_assoc; reflexivity|].
  rewrite map_app, <- app_assoc. exact N.
Qed.
Lemma dget_app {V} k (d e : list (string * V)) : dget k (d ++ e) = match dget k d with Some v => Some v | None => dget k e end.
Proof. induction d as [|[k' v'] d IH]; cbn [dget app]; auto. destruct (String.eqb k k'); auto. Qed.
Lemma dget_None {V} k (d : list (string * V)) : dget k d = None <-> ~ In k (map fst d).
Proof.
  induction d as [|[k' v'] d IH]; cbn [dget map fst In]; [tauto|]. destruct (String.eqb k k') eqn:E.
  - apply String.eqb_eq in E. subst. split; [discriminate|tauto].
  - apply String.eqb_neq in E. rewrite IH. split; [intros N [X|X]; auto|tauto].
Qed.

Section Saves.
Variables (vocab rvocab : list (string * string)).
Notation save := (save vocab rvocab).
Notation saved_class := (saved_class vocab rvocab).

Definition save_list : list lv -> result (list json) :=
  fix go (l : list lv) : result (list json) := match l with [] => Ok [] | v :: l => do j <- save v; do r <- go l; Ok (j :: r) end.
Definition save_map : list (string * lv) -> result (list (string * json)) :=
  fix go (d : list (string * lv)) : result (list (string * json)) :=
    match d with [] => Ok [] | (k, v) :: d => do j <- save v; do r <- go d; Ok ((k, j) :: r) end.
Definition save_fields : list (string * lv) -> list (string * json) -> result (list (string * json)) :=
  fix go (fs : list (string * lv)) (r : list (string * json)) : result (list (string * json)) :=
    match fs with
    | [] => Ok r
    | (k, v) :: fs =>
        if is_none v then go fs r
        else if String.eqb k "class" then
          match v with VStr c => do c <- saved_class c; go fs (dset k (JStr c) r) | _ => Err TypeError end
        else do j <- save v; go fs (dset k j r)
    end.
Lemma save_seq l : save (VSeq l) = do r <- save_list l; Ok (JList r).
Proof. reflexivity. Qed.
Lemma save_vmap d : save (VMap d) = do r <- save_map d; Ok (JDict r).
Proof. reflexivity. Qed.
Lemma save_obj c fs ext : save (VObj c fs ext) = do r <- save_fields fs (dupdate [] ext); Ok (JDict r).
Proof. reflexivity. Qed.
Lemma save_list_ok l js : save_list l = Ok js <-> Forall2 (fun v j => save v = Ok j) l js.
Proof.
  revert js. induction l as [|v l IH]; intros js; cbn [save_list].
  - split; [intros [= <-]; constructor|inversion 1; auto].
  - fold save_list. split.
    + destruct (save v) as [j|] eqn:E; cbn [bind]; [|discriminate]. destruct (save_list l) as [r|] eqn:F; cbn [bind]; [|discriminate]. intros [= <-]. constructor; auto. apply IH. auto.
    + inversion 1 as [|? j ? r E F]; subst. rewrite E. cbn [bind]. apply IH in F. rewrite F. reflexivity.
Qed.
Lemma save_map_ok d es : save_map d = Ok es <-> Forall2 (fun kv e => fst e = fst kv /\ save (snd kv) = Ok (snd e)) d es.
Proof.
  revert es. induction d as [|[k v] d IH]; intros es; cbn [save_map].
  - split; [intros [= <-]; constructor|inversion 1; auto].
  - fold save_map. split.
    + destruct (save v) as [j|] eqn:E; cbn [bind]; [|discriminate]. destruct (save_map d) as [r|] eqn:F; cbn [bind]; [|discriminate]. intros [= <-]. constructor; auto. apply IH. auto.
    + inversion 1 as [|? [k' j] ? r [E1 E] F]; subst. cbn [fst snd] in *. subst. rewrite E. cbn [bind]. apply IH in F. rewrite F. reflexivity.
Qed.

(** The entry of one field *)
Inductive SavedField : string * lv -> list (string * json) -> Prop :=
| SF_null k : SavedField (k, VNull) []
| SF_class c t : saved_class c = Ok t -> SavedField ("class", VStr c) [("class", JStr t)]
| SF_value k v j : v <> VNull -> k <> "class" -> save v = Ok j -> SavedField (k, v) [(k, j)].
Lemma saved_keys kv es : SavedField kv es -> forall k, In k (map fst es) -> k = fst kv.
Proof. destruct 1; cbn; intros k' []; subst; tauto. Qed.
Lemma save_fields_ok fs : forall r r', NoDup (map fst r ++ map fst fs) ->
  (save_fields fs r = Ok r' <-> exists ess, Forall2 SavedField fs ess /\ r' = r ++ List.concat ess).
Proof.
  induction fs as [|[k v] fs IH]; intros r r' N; cbn [save_fields].
  - split; [intros [= <-]; exists []; cbn; rewrite app_nil_r; auto|]. intros (ess & F & ->). inversion F; subst. cbn. rewrite app_nil_r. reflexivity.
  - fold save_fields. cbn [map fst] in N. pose proof (NoDup_remove _ _ _ N) as [N1 N2].
    assert (FR : ~ In k (map fst r)) by (intros X; apply N2, in_or_app; auto).
    assert (IH' : forall j, save_fields fs (dset k j r) = Ok r' <-> exists ess, Forall2 SavedField fs ess /\ r' = r ++ [(k, j)] ++ List.concat ess).
    { intros j. rewrite dset_fresh by auto. rewrite IH by (rewrite map_app, <- app_assoc; exact N). split; intros (ess & F & ->); exists ess; (split; [auto|]); rewrite <- app_assoc; reflexivity. }
    destruct (is_none v) eqn:IN.
    + destruct v; try discriminate. rewrite IH by exact N1. split.
      * intros (ess & F & ->). exists ([] :: ess). split; [constructor; [constructor|auto]|reflexivity].
      * intros (ess & F & ->). inversion F as [|? es ? ess' S F']; subst. inversion S; subst; [|congruence]. exists ess'. auto.
    + assert (VN : v <> VNull) by (intros ->; discriminate). destruct (String.eqb k "class") eqn:EC.
      * apply String.eqb_eq in EC. subst k. split.
        -- destruct v; try discriminate. destruct (saved_class s) as [t|] eqn:SC; cbn [bind]; [|discriminate]. rewrite IH'. intros (ess & F & ->). exists ([("class", JStr t)] :: ess). split; [constructor; [constructor; auto|auto]|reflexivity].
        -- intros (ess & F & ->). inversion F as [|? es ? ess' S F']; subst. inversion S; subst; try congruence. match goal with H : saved_class _ = Ok _ |- _ => rewrite H end. cbn [bind]. rewrite IH'. exists ess'. auto.
      * apply String.eqb_neq in EC. split.
        -- destruct (save v) as [j|] eqn:SV; cbn [bind]; [|discriminate]. rewrite IH'. intros (ess & F & ->). exists ([(k, j)] :: ess). split; [constructor; [constructor; auto|auto]|reflexivity].
        -- intros (ess & F & ->). inversion F as [|? es ? ess' S F']; subst. inversion S; subst; try congruence. match goal with H : save _ = Ok _ |- _ => rewrite H end. cbn [bind]. rewrite IH'. exists ess'. auto.
Qed.
(** Names that differ *)
Definition tidy (v : lv) : Prop := match v with VObj _ fs ext => NoDup (map fst ext ++ map fst fs) | _ => True end.
Lemma save_obj_ok c fs ext j : tidy (VObj c fs ext) ->
  (save (VObj c fs ext) = Ok j <-> exists ess, Forall2 SavedField fs ess /\ j = JDict (ext ++ List.concat ess)).
Proof.
  cbn [tidy]. intros N. rewrite save_obj. assert (NE : NoDup (map fst ext)) by (clear - N; induction (map fst ext); [constructor|]; inversion N; subst; constructor; auto; intros X; apply H1, in_or_app; auto).
  rewrite dupdate_fresh by exact NE. cbn [app]. split.
  - destruct (save_fields fs ext) as [r|] eqn:E; cbn [bind]; [|discriminate]. intros [= <-]. apply save_fields_ok in E; auto. destruct E as (ess & F & ->). eauto.
  - intros (ess & F & ->). rewrite (proj2 (save_fields_ok fs ext (ext ++ List.concat ess) N)); eauto.
Qed.
(** Looking up what was saved *)
Lemma concat_keys fs ess : Forall2 SavedField fs ess -> forall k, In k (map fst (List.concat ess)) -> In k (map fst fs).
Proof.
  induction 1 as [|kv es fs ess S F IH]; cbn [List.concat map fst In]; [tauto|]. intros k. rewrite map_app, in_app_iff. intros [H|H]; [left; symmetry; eapply saved_keys; eauto|right; auto].
Qed.
Lemma saved_get fs ess k : Forall2 SavedField fs ess -> NoDup (map fst fs) ->
  match dget k fs with
  | None => dget k (List.concat ess) = None
  | Some v => exists es, SavedField (k, v) es /\ dget k (List.concat ess) = dget k es
  end.
Proof.
  induction 1 as [|[k' v] es fs ess S F IH]; cbn [List.concat dget map fst]; [auto|]. intros N. inversion N as [|? ? N1 N2]; subst.
  rewrite dget_app. destruct (String.eqb k k') eqn:E.
  - apply String.eqb_eq in E. subst k'. exists es. split; auto. destruct (dget k es) eqn:G; auto. apply dget_None. intros X. apply N1. eapply concat_keys; eauto.
  - apply String.eqb_neq in E. assert (G : dget k es = None) by (apply dget_None; intros X; apply E; apply (saved_keys _ _ S) in X; exact X). rewrite G. exact (IH N2).
Qed.

(** Kinds of values are kept *)
Lemma save_kind v j : save v = Ok j ->
  match v with
  | VNull => j = JNull | VBool b => j = JBool b | VInt z => j = JInt z | VFloat s => j = JFloat s | VStr s => j = JStr s
  | VSeq _ => exists l, j = JList l | VMap _ | VObj _ _ _ => exists d, j = JDict d
  end.
Proof.
  destruct v; try (intros [= <-]; reflexivity).
  - rewrite save_seq. destruct (save_list l); cbn [bind]; [|discriminate]. intros [= <-]. eauto.
  - rewrite save_vmap. destruct (save_map d); cbn [bind]; [|discriminate]. intros [= <-]. eauto.
  - rewrite save_obj. destruct (save_fields fields _); cbn [bind]; [|discriminate]. intros [= <-]. eauto.
Qed.
Lemma save_of_json j : save (of_json j) = Ok j.
Proof.
  induction j as [| | | | |l IH|d IH] using json_ind'; try reflexivity.
  - change (of_json (JList l)) with (VSeq (map of_json l)). rewrite save_seq. assert (E : save_list (map of_json l) = Ok l); [|rewrite E; reflexivity].
    apply save_list_ok. clear - IH. induction IH; constructor; auto.
  - change (of_json (JDict d)) with (VMap (map (fun kv => (fst kv, of_json (snd kv))) d)). rewrite save_vmap. assert (E : save_map (map (fun kv => (fst kv, of_json (snd kv))) d) = Ok d); [|rewrite E; reflexivity].
    apply save_map_ok. clear - IH. induction IH; constructor; auto.
Qed.
(** The identifiers of saved elements *)
Lemma ids_saved vs js : Forall2 (fun v j => save v = Ok j) vs js -> Forall tidy vs -> Forall (fun v => match v with VObj _ _ ext => dget "id" ext = None | _ => True end) vs ->
  forall ts, flat_map id_of vs = map VStr ts -> ids js = map JStr ts.
Proof.
  intros F T E. assert (X : forall v j, save v = Ok j -> tidy v -> match v with VObj _ _ ext => dget "id" ext = None | _ => True end -> exists is, id_of v = is /\
    (forall ts, is = map VStr ts -> match element_id j with Some i => [i] | None => [] end = map JStr ts)).
  { intros v j S TV EV. exists (id_of v). split; auto. intros ts. pose proof (save_kind v j S) as K. unfold id_of.
    destruct v; cbn [entry]; try (subst j; intros H; destruct ts; [reflexivity|discriminate]).
    - destruct K as [l' ->]. intros H. destruct ts; [reflexivity|discriminate].
    - rewrite save_vmap in S. destruct (save_map d) as [es|] eqn:M; cbn [bind] in S; [|discriminate]. assert (j = JDict es) by congruence. subst j. apply save_map_ok in M.
      assert (G : match dget "id" d with None => dget "id" es = None | Some v => exists e, dget "id" es = Some e /\ save v = Ok e end).
      { clear - M. induction M as [|[k v] [k' e] d es [A B] M IH]; cbn [dget]; auto. cbn [fst snd] in *. subst k'. destruct (String.eqb "id" k); eauto. }
      cbn [element_id]. destruct (dget "id" d) as [v|]; [destruct G as (e & -> & SE)|rewrite G; intros H; destruct ts; [reflexivity|discriminate]].
      pose proof (save_kind _ _ SE) as K'. intros H. destruct v; try (destruct ts as [|? []]; discriminate). { subst e. destruct ts; [reflexivity|discriminate]. }
      subst e. destruct ts as [|t []]; try discriminate. injection H as ->. reflexivity.
    - apply save_obj_ok in S; auto. destruct S as (ess & SF & ->). cbn [element_id]. rewrite dget_app, EV. cbn [tidy] in TV.
      assert (NF : NoDup (map fst fields)) by (clear - TV; induction (map fst extension_fields); [exact TV|apply IHl; inversion TV; auto]).
      pose proof (saved_get fields ess "id" SF NF) as G. destruct (dget "id" fields) as [v|]; [destruct G as (es & SV & G)|]; rewrite G; [|intros H; destruct ts; [reflexivity|discriminate]].
      inversion SV; subst; cbn [dget].
      + intros H. destruct ts; [reflexivity|discriminate].
      + change (String.eqb "id" "id") with true. cbn iota. match goal with H : save _ = Ok _ |- _ => pose proof (save_kind _ _ H) as K' end. intros H.
        destruct v; try (destruct ts as [|? []]; discriminate); try congruence. subst. destruct ts as [|t []]; try discriminate. injection H as ->. reflexivity. }
  induction F as [|v j vs js S F IH]; intros ts H; cbn [flat_map] in H.
  - destruct ts; [reflexivity|discriminate].
  - inversion T; inversion E; subst. destruct (X v j S) as (is & EI & XI); auto. rewrite ids_cons.
    apply map_eq_app in H as Y || (symmetry in H; apply map_eq_app in H as Y). destruct Y as (t1 & t2 & -> & A & B). rewrite map_app. f_equal; [apply XI; rewrite <- EI; auto|apply IH; auto].
Qed.
End Saves.
