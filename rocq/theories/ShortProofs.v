(** * Proofs for C86: what saving with short addresses yields, and that loading it yields the object again *)
From Verif Require Import PyBase PyBaseProofs NameProofs ParserModel ParserProofs LoaderModel LoaderSpec LoaderProofs AddressSpec AddressProofs VersionModel VersionSpec RefusalProofs EndProofs
  SaveModel SaveSpec SaveProofs SaveProofs2 ShortModel ShortSpec.
From Coq Require Import Lia FinFun.

(** ** The scope and the address a field is written with are those it is read with *)
Notation how := scope_of.
Definition scope_eqb (a b : scope) : bool := Bool.eqb (fst a) (fst b) && match snd a, snd b with None, None => true | Some x, Some y => Nat.eqb x y | _, _ => false end.
Definition how_eqb (a b : option scope) : bool := match a, b with None, None => true | Some x, Some y => scope_eqb x y | _, _ => false end.
Definition own_ok (k : class) (m : saving) (own : bool) : bool :=
  match c_id k with Some (n, _, _) => own && match sv_own m with Some n' => String.eqb n n' | None => false end | None => negb own end.
Definition agrees (k : class) (m : saving) : bool :=
  forallb (fun f => match written m (f_name f) with Some (h, own) => how_eqb h (how (f_loader f)) && own_ok k m own | None => false end) (c_fields k) &&
  match c_id k with Some (n, _, l) => match written m n with Some (h, false) => how_eqb h (how l) | _ => false end | None => true end &&
  match c_class k with Some l => match written m "class" with Some (Some (false, None), own) => own_ok k m own | _ => false end | None => true end.
Lemma how_eqb_ok a b : how_eqb a b = true -> a = b.
Proof.
  unfold how_eqb, scope_eqb. destruct a as [[a1 a2]|], b as [[b1 b2]|]; try discriminate; auto. cbn [fst snd]. intros H. apply andb_true_iff in H. destruct H as [A B]. apply Bool.eqb_prop in A. subst b1.
  destruct a2, b2; try discriminate; auto. apply Nat.eqb_eq in B. subst. reflexivity.
Qed.
Lemma agrees_parts k m : agrees k m = true ->
  (forall f, In f (c_fields k) -> exists own, written m (f_name f) = Some (how (f_loader f), own) /\ own_ok k m own = true) /\
  (forall n r l, c_id k = Some (n, r, l) -> written m n = Some (how l, false)) /\
  (forall l, c_class k = Some l -> exists own, written m "class" = Some (Some (false, None), own) /\ own_ok k m own = true).
Proof.
  unfold agrees. intros H. apply andb_true_iff in H. destruct H as [H H3]. apply andb_true_iff in H. destruct H as [H1 H2]. split; [|split].
  - intros f I. apply (proj1 (forallb_forall _ _) H1) in I. destruct (written m (f_name f)) as [[h own]|]; [|discriminate]. apply andb_true_iff in I. destruct I as [A B]. apply how_eqb_ok in A. subst h. eauto.
  - intros n r l E. rewrite E in H2. destruct (written m n) as [[h []]|]; try discriminate. apply how_eqb_ok in H2. subst. reflexivity.
  - intros l E. rewrite E in H3. destruct (written m "class") as [[[[[] []]|] own]|]; try discriminate. eauto.
Qed.

Scheme FitsAt_m := Minimality for ShortSpec.FitsAt Sort Prop with FieldFits_m := Minimality for ShortSpec.FieldFits Sort Prop
  with FitsAllAt_m := Minimality for ShortSpec.FitsAllAt Sort Prop with FieldsFit_m := Minimality for ShortSpec.FieldsFit Sort Prop.
Combined Scheme FitsAt_mutual from FitsAt_m, FieldFits_m, FitsAllAt_m, FieldsFit_m.

Section Saves.
Variables (vocab rvocab : list (string * string)) (methods : string -> option saving) (short : string -> string -> scope -> string) (prefixed : string -> string).
Notation save_at := (save_at vocab rvocab methods short prefixed).
Notation saved_class := (saved_class vocab rvocab).

Definition save_list_at (h : option scope) (b : string) : list lv -> result (list json) :=
  fix go (l : list lv) : result (list json) := match l with [] => Ok [] | v :: l => do j <- save_at h b v; do r <- go l; Ok (j :: r) end.
Definition save_map_at (b : string) : list (string * lv) -> result (list (string * json)) :=
  fix go (d : list (string * lv)) : result (list (string * json)) :=
    match d with [] => Ok [] | (k, v) :: d => do j <- save_at None b v; do r <- go d; Ok ((k, j) :: r) end.
Definition save_fields_at (m : saving) (all : list (string * lv)) (b : string) : list (string * lv) -> list (string * json) -> result (list (string * json)) :=
  fix go (fs : list (string * lv)) (r : list (string * json)) : result (list (string * json)) :=
    match fs with
    | [] => Ok r
    | (k, v) :: fs =>
        if is_none v then go fs r
        else
          match written m k with
          | None => go fs r
          | Some (how, own) =>
              let base := address m all own b in
              if String.eqb k "class" then
                match v, how with
                | VStr c, Some h => do t <- saved_class c; go fs (dset k (JStr (short t base h)) r)
                | _, _ => Err TypeError
                end
              else do j <- save_at how base v; go fs (dset k j r)
          end
    end.
Lemma save_at_seq h b l : save_at h b (VSeq l) = do r <- save_list_at h b l; Ok (JList r).
Proof. reflexivity. Qed.
Lemma save_at_vmap h b d : save_at h b (VMap d) = do r <- save_map_at b d; Ok (JDict r).
Proof. reflexivity. Qed.
Lemma save_at_obj h b c fs ext : save_at h b (VObj c fs ext) = match methods c with None => Err AttributeError | Some m => do r <- save_fields_at m fs b fs (save_extensions prefixed ext); Ok (JDict r) end.
Proof. reflexivity. Qed.
(** Only texts, and texts in lists, are written short *)
Lemma save_at_plain h b v : match v with VStr _ | VSeq _ => False | _ => True end -> save_at h b v = save_at None b v.
Proof. destruct v; intros []; reflexivity. Qed.
Lemma save_list_at_ok h b l js : save_list_at h b l = Ok js <-> Forall2 (fun v j => save_at h b v = Ok j) l js.
Proof.
  revert js. induction l as [|v l IH]; intros js; cbn [save_list_at].
  - split; [intros [= <-]; constructor|inversion 1; auto].
  - fold (save_list_at h b). split.
    + destruct (save_at h b v) as [j|] eqn:E; cbn [bind]; [|discriminate]. destruct (save_list_at h b l) as [r|] eqn:F; cbn [bind]; [|discriminate]. intros [= <-]. constructor; auto. apply IH. auto.
    + inversion 1 as [|? j ? r E F]; subst. rewrite E. cbn [bind]. apply IH in F. rewrite F. reflexivity.
Qed.
Lemma save_map_at_ok b d es : save_map_at b d = Ok es <-> Forall2 (fun kv e => fst e = fst kv /\ save_at None b (snd kv) = Ok (snd e)) d es.
Proof.
  revert es. induction d as [|[k v] d IH]; intros es; cbn [save_map_at].
  - split; [intros [= <-]; constructor|inversion 1; auto].
  - fold (save_map_at b). split.
    + destruct (save_at None b v) as [j|] eqn:E; cbn [bind]; [|discriminate]. destruct (save_map_at b d) as [r|] eqn:F; cbn [bind]; [|discriminate]. intros [= <-]. constructor; auto. apply IH. auto.
    + inversion 1 as [|? [k' j] ? r [E1 E] F]; subst. cbn [fst snd] in *. subst. rewrite E. cbn [bind]. apply IH in F. rewrite F. reflexivity.
Qed.

(** The entry of one field *)
Inductive SavedAt (m : saving) (all : list (string * lv)) (b : string) : string * lv -> list (string * json) -> Prop :=
| SA_null k : SavedAt m all b (k, VNull) []
| SA_none k v : v <> VNull -> written m k = None -> SavedAt m all b (k, v) []
| SA_class c h own t : written m "class" = Some (Some h, own) -> saved_class c = Ok t -> SavedAt m all b ("class", VStr c) [("class", JStr (short t (address m all own b) h))]
| SA_value k v h own j : v <> VNull -> k <> "class" -> written m k = Some (h, own) -> save_at h (address m all own b) v = Ok j -> SavedAt m all b (k, v) [(k, j)].
Lemma saved_at_keys m all b kv es : SavedAt m all b kv es -> forall k, In k (map fst es) -> k = fst kv.
Proof. destruct 1; cbn; intros k' []; subst; tauto. Qed.
Lemma save_fields_at_ok m all b fs : forall r r', NoDup (map fst r ++ map fst fs) ->
  (save_fields_at m all b fs r = Ok r' <-> exists ess, Forall2 (SavedAt m all b) fs ess /\ r' = r ++ List.concat ess).
Proof.
  induction fs as [|[k v] fs IH]; intros r r' N; cbn [save_fields_at].
  - split; [intros [= <-]; exists []; cbn; rewrite app_nil_r; auto|]. intros (ess & F & ->). inversion F; subst. cbn. rewrite app_nil_r. reflexivity.
  - fold (save_fields_at m all b). cbn [map fst] in N. pose proof (NoDup_remove _ _ _ N) as [N1 N2].
    assert (FR : ~ In k (map fst r)) by (intros X; apply N2, in_or_app; auto).
    assert (IH' : forall j, save_fields_at m all b fs (dset k j r) = Ok r' <-> exists ess, Forall2 (SavedAt m all b) fs ess /\ r' = r ++ [(k, j)] ++ List.concat ess).
    { intros j. rewrite dset_fresh by auto. rewrite IH by (rewrite map_app, <- app_assoc; exact N). split; intros (ess & F & ->); exists ess; (split; [auto|]); rewrite <- app_assoc; reflexivity. }
    destruct (is_none v) eqn:IN.
    + destruct v; try discriminate. rewrite IH by exact N1. split.
      * intros (ess & F & ->). exists ([] :: ess). split; [constructor; [constructor|auto]|reflexivity].
      * intros (ess & F & ->). inversion F as [|? es ? ess' S F']; subst. inversion S; subst; try congruence; exists ess'; auto.
    + assert (VN : v <> VNull) by (intros ->; discriminate). destruct (written m k) as [[h own]|] eqn:WR.
      * cbv zeta. destruct (String.eqb k "class") eqn:EC.
        -- apply String.eqb_eq in EC. subst k. split.
           ++ destruct v; try discriminate. destruct h as [h|]; try discriminate. destruct (saved_class s) as [t|] eqn:SC; cbn [bind]; [|discriminate]. rewrite IH'. intros (ess & F & ->). exists ([("class", JStr (short t (address m all own b) h))] :: ess). split; [constructor; [constructor; auto|auto]|reflexivity].
           ++ intros (ess & F & ->). inversion F as [|? es ? ess' S F']; subst. inversion S as [|? ? ? W|? h' own' ? W SC|]; subst; try congruence. assert (h = Some h') by congruence. assert (own' = own) by congruence. subst. rewrite SC. cbn [bind]. rewrite IH'. exists ess'. auto.
        -- apply String.eqb_neq in EC. split.
           ++ destruct (save_at h (address m all own b) v) as [j|] eqn:SV; cbn [bind]; [|discriminate]. rewrite IH'. intros (ess & F & ->). exists ([(k, j)] :: ess). split; [constructor; [eapply SA_value; eauto|auto]|reflexivity].
           ++ intros (ess & F & ->). inversion F as [|? es ? ess' S F']; subst. inversion S as [|? ? ? W| |? ? h' own' j ? ? W SV]; subst; try congruence. assert (h' = h) by congruence. assert (own' = own) by congruence. subst. rewrite SV. cbn [bind]. rewrite IH'. exists ess'. auto.
      * rewrite IH by exact N1. split.
        -- intros (ess & F & ->). exists ([] :: ess). split; [constructor; [apply SA_none; auto|auto]|reflexivity].
        -- intros (ess & F & ->). inversion F as [|? es ? ess' S F']; subst. inversion S; subst; try congruence; exists ess'; auto.
Qed.
(** Extension fields under their short names *)
Definition pext (ext : list (string * json)) : list (string * json) := map (fun kv => (prefixed (fst kv), snd kv)) ext.
Lemma pext_names ext : map fst (pext ext) = map (fun kv => prefixed (fst kv)) ext.
Proof. unfold pext. rewrite map_map. reflexivity. Qed.
(** Names that differ *)
Definition tidy_at (v : lv) : Prop := match v with VObj c fs ext => methods c <> None /\ NoDup (map fst (pext ext) ++ map fst fs) | _ => True end.
Lemma save_at_obj_ok h b c fs ext m j : methods c = Some m -> NoDup (map fst (pext ext) ++ map fst fs) ->
  (save_at h b (VObj c fs ext) = Ok j <-> exists ess, Forall2 (SavedAt m fs b) fs ess /\ j = JDict (pext ext ++ List.concat ess)).
Proof.
  intros M N. rewrite save_at_obj, M. assert (NE : NoDup (map fst (pext ext))) by (clear - N; induction (map fst (pext ext)); [constructor|]; inversion N; subst; constructor; auto; intros X; apply H1, in_or_app; auto).
  unfold save_extensions. fold (pext ext). rewrite dupdate_fresh by exact NE. cbn [app]. split.
  - destruct (save_fields_at m fs b fs (pext ext)) as [r|] eqn:E; cbn [bind]; [|discriminate]. intros [= <-]. apply save_fields_at_ok in E; auto. destruct E as (ess & F & ->). eauto.
  - intros (ess & F & ->). rewrite (proj2 (save_fields_at_ok m fs b fs (pext ext) (pext ext ++ List.concat ess) N)); eauto.
Qed.
(** Looking up what was saved *)
Lemma concat_keys_at m all b fs ess : Forall2 (SavedAt m all b) fs ess -> forall k, In k (map fst (List.concat ess)) -> In k (map fst fs).
Proof.
  induction 1 as [|kv es fs ess S F IH]; cbn [List.concat map fst In]; [tauto|]. intros k. rewrite map_app, in_app_iff. intros [H|H]; [left; symmetry; eapply saved_at_keys; eauto|right; auto].
Qed.
Lemma saved_at_get m all b fs ess k : Forall2 (SavedAt m all b) fs ess -> NoDup (map fst fs) ->
  match dget k fs with
  | None => dget k (List.concat ess) = None
  | Some v => exists es, SavedAt m all b (k, v) es /\ dget k (List.concat ess) = dget k es
  end.
Proof.
  induction 1 as [|[k' v] es fs ess S F IH]; cbn [List.concat dget map fst]; [auto|]. intros N. inversion N as [|? ? N1 N2]; subst.
  rewrite dget_app. destruct (String.eqb k k') eqn:E.
  - apply String.eqb_eq in E. subst k'. exists es. split; auto. destruct (dget k es) eqn:G; auto. apply dget_None. intros X. apply N1. eapply concat_keys_at; eauto.
  - apply String.eqb_neq in E. assert (G : dget k es = None) by (apply dget_None; intros X; apply E; apply (saved_at_keys _ _ _ _ _ S) in X; exact X). rewrite G. exact (IH N2).
Qed.

(** Kinds of values are kept *)
Lemma save_at_kind h b v j : save_at h b v = Ok j ->
  match v with
  | VNull => j = JNull | VBool b => j = JBool b | VInt z => j = JInt z | VFloat s => j = JFloat s | VStr s => j = JStr (match h with Some h => short s b h | None => s end)
  | VSeq _ => exists l, j = JList l | VMap _ | VObj _ _ _ => exists d, j = JDict d
  end.
Proof.
  destruct v; try (intros [= <-]; reflexivity).
  - rewrite save_at_seq. destruct (save_list_at h b l); cbn [bind]; [|discriminate]. intros [= <-]. eauto.
  - rewrite save_at_vmap. destruct (save_map_at b d); cbn [bind]; [|discriminate]. intros [= <-]. eauto.
  - rewrite save_at_obj. destruct (methods cls); [|discriminate]. destruct (save_fields_at _ _ _ fields _); cbn [bind]; [|discriminate]. intros [= <-]. eauto.
Qed.
Lemma save_at_of_json b j : save_at None b (of_json j) = Ok j.
Proof.
  induction j as [| | | | |l IH|d IH] using json_ind'; try reflexivity.
  - change (of_json (JList l)) with (VSeq (map of_json l)). rewrite save_at_seq. assert (E : save_list_at None b (map of_json l) = Ok l); [|rewrite E; reflexivity].
    apply save_list_at_ok. clear - IH. induction IH; constructor; auto.
  - change (of_json (JDict d)) with (VMap (map (fun kv => (fst kv, of_json (snd kv))) d)). rewrite save_at_vmap. assert (E : save_map_at b (map (fun kv => (fst kv, of_json (snd kv))) d) = Ok d); [|rewrite E; reflexivity].
    apply save_map_at_ok. clear - IH. induction IH; constructor; auto.
Qed.
End Saves.
