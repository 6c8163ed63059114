(** * Proofs for C86: a test for [FitsAt] *)
From Verif Require Import PyBase PyBaseProofs NameProofs ParserModel LoaderModel LoaderSpec SaveModel SaveSpec SaveProofs2 SaveProofs3 ShortModel ShortSpec ShortProofs.

Section Test.
Variables (urljoin : string -> string -> result string) (supported_schemes : list string) (check_exists : string -> result bool) (classes : string -> option class) (proxies : string -> option loader).
Variables (short : string -> string -> scope -> string) (prefixed : string -> string) (V RV : list (string * string)) (unchecked : bool).
Notation FitsAt := (FitsAt urljoin supported_schemes check_exists classes proxies short prefixed V RV unchecked).
Notation FieldFits := (FieldFits urljoin supported_schemes check_exists classes proxies short prefixed V RV unchecked).
Notation FitsAllAt := (FitsAllAt urljoin supported_schemes check_exists classes proxies short prefixed V RV unchecked).
Notation FieldsFit := (FieldsFit urljoin supported_schemes check_exists classes proxies short prefixed V RV unchecked).
Notation read_as := (read_as urljoin supported_schemes V RV).
Notation restored := (restored urljoin supported_schemes short V RV).
Notation Refuses := (Refuses supported_schemes classes proxies V RV).
Notation class_fits_at := (class_fits_at supported_schemes check_exists short V RV unchecked).
Notation extensions_fit_at := (extensions_fit_at urljoin supported_schemes prefixed V RV).
Notation settled_b := (settled_b supported_schemes V RV).
Notation linked_b := (linked_b check_exists unchecked).
Notation refuses_b := (refuses_b supported_schemes classes proxies V RV).
Notation class_fits_b := (class_fits_b supported_schemes check_exists V RV unchecked).

Definition read_as_b (b : string) (h : scope) (vt : bool) (t s : string) : bool :=
  match expand_url urljoin supported_schemes t b (Options None false None V RV) (fst h) vt (snd h) with Ok u => String.eqb u s | Err _ => false end.
Lemma read_as_ok b h vt t s : read_as_b b h vt t s = true -> read_as b h vt t s.
Proof.
  unfold read_as_b, ShortSpec.read_as. intros H o A B. assert (E : expand_url urljoin supported_schemes t b o (fst h) vt (snd h) = expand_url urljoin supported_schemes t b (Options None false None V RV) (fst h) vt (snd h)).
  { unfold expand_url. cbn [vocab rvocab]. rewrite A, B. reflexivity. }
  rewrite E. destruct (expand_url _ _ _ _ _ _ _ _) as [u|]; [|discriminate]. apply String.eqb_eq in H. subst. reflexivity.
Qed.
Definition restored_b (b b' : string) (h : scope) (vt : bool) (s : string) : bool := read_as_b b' h vt (short s b h) s.
Definition plain_id_b (v : lv) : bool := match entry "id" v with None | Some VNull | Some (VStr _) => true | _ => false end.
Definition apart_at_b (b : string) (vs : list lv) : bool := forallb plain_id_b vs && different (flat_map (written_id short b) vs).
Lemma apart_at_ok b vs : apart_at_b b vs = true -> apart_at short b vs.
Proof.
  unfold apart_at_b, apart_at. rewrite andb_true_iff. intros [A B]. split; [|apply different_NoDup; auto]. apply Forall_forall. intros x I. apply (proj1 (forallb_forall _ _) A) in I. unfold plain_id_b, plain_id in *. destruct (entry "id" x) as [[]|]; auto; discriminate.
Qed.
Definition class_fits_at_b (b : string) (k : class) (kvs : list (string * lv)) : bool :=
  class_fits_b k kvs && (absent (c_class k) || match saved_class V RV (c_name k) with Ok t => String.eqb (short t b (false, None)) t | Err _ => true end).
Lemma class_fits_at_ok b k kvs : class_fits_at_b b k kvs = true -> class_fits_at b k kvs.
Proof.
  unfold class_fits_at_b. rewrite andb_true_iff. intros [A B]. split; [apply class_fits_ok; auto|]. intros C t E. rewrite E in B. apply orb_true_iff in B. destruct B as [B|B]; [apply absent_b in B; congruence|apply String.eqb_eq; auto].
Qed.
Definition extensions_fit_at_b (k : class) (ext : list (string * json)) : bool :=
  different (map fst ext) && different (map (fun kv => prefixed (fst kv)) ext) &&
  forallb (fun kv => has_char ":" (prefixed (fst kv)) && negb (smem (prefixed (fst kv)) (attrs k)) && read_as_b "" (false, None) false (prefixed (fst kv)) (fst kv)) ext.
Lemma extensions_fit_at_ok k ext : extensions_fit_at_b k ext = true -> extensions_fit_at k ext.
Proof.
  unfold extensions_fit_at_b. rewrite !andb_true_iff. intros [[A B] C]. split; [apply different_NoDup; auto|]. split; [apply different_NoDup; auto|]. apply Forall_forall. intros kv I. apply (proj1 (forallb_forall _ _) C) in I. rewrite !andb_true_iff in I. destruct I as [[I1 I2] I3].
  split; auto. split; [apply not_smem; auto|apply read_as_ok; auto].
Qed.
Section Fields.
Variable fits1 : string -> string -> loader -> lv -> bool.
Definition field_b (b b' : string) (l : loader) (v : lv) : bool :=
  match l with
  | LUri i si vt sr nl => not_false nl && fits1 b b' i v &&
      match v with VStr s => restored_b b b' (si, sr) vt s && linked_b nl s | VSeq vs => forallb (fun v => negb (is_seq v)) vs && forallb (restored_b b b' (si, sr) vt) (texts vs) | _ => true end
  | _ => fits1 b b' l v
  end.
Fixpoint fields_at_b (b b' : string) (fs : list field) (kvs : list (string * lv)) : bool :=
  match fs, kvs with
  | [], [] => true
  | f :: fs, (n, v) :: kvs => String.eqb n (f_name f) && (if is_none v then negb (f_required f) else field_b b (if f_subscope f then inside b' "run" else b') (f_loader f) v) && fields_at_b b b' fs kvs
  | _, _ => false
  end.
Fixpoint union_at_b (refuses1 : loader -> lv -> bool) (b b' : string) (ls : list loader) (v : lv) : bool :=
  match ls with [] => false | l :: ls => fits1 b b' l v || refuses1 l v && union_at_b refuses1 b b' ls v end.
Definition rest_at_b (b b' : string) (k : class) (kvs : list (string * lv)) (ext : list (string * json)) : bool :=
  let m := match c_class k with Some _ => 1 | None => 0 end in
  class_fits_at_b b k (firstn m kvs) && fields_at_b b b' (c_fields k) (skipn m kvs) && extensions_fit_at_b k ext.
Definition record_at_b (b b' : string) (k : class) (v : lv) : bool :=
  match v with
  | VObj c kvs ext =>
      String.eqb c (c_name k) &&
      match c_id k, kvs with
      | None, _ => rest_at_b b b' k kvs ext
      | Some (n, _, l), (n', VStr s) :: kvs => String.eqb n' n && field_b b b' l (VStr s) && rest_at_b s s k kvs ext
      | _, _ => false
      end
  | _ => false
  end.
Hypothesis ok : forall b b' l v, fits1 b b' l v = true -> FitsAt b b' l v.
Lemma field_b_ok b b' l v : field_b b b' l v = true -> FieldFits b b' l v.
Proof.
  unfold field_b. destruct l; try (intros H; apply W_other; auto; fail). rewrite !andb_true_iff. intros [[A B] C]. apply W_uri; auto; [apply not_false_ok; auto|]. destruct v; auto.
  - apply andb_true_iff in C. destruct C as [C D]. split; [apply read_as_ok; auto|apply linked_b_ok; auto].
  - apply andb_true_iff in C. destruct C as [C D]. split; apply Forall_forall; intros x I; [apply (proj1 (forallb_forall _ _) C) in I; apply negb_true_iff; auto|apply (proj1 (forallb_forall _ _) D) in I; apply read_as_ok; auto].
Qed.
Lemma fields_at_ok b b' fs : forall kvs, fields_at_b b b' fs kvs = true -> FieldsFit b b' fs kvs.
Proof.
  induction fs as [|f fs IH]; intros [|[n v] kvs]; try discriminate; [constructor|]. cbn [fields_at_b]. rewrite !andb_true_iff. intros [[A B] C]. apply String.eqb_eq in A. subst n.
  destruct (is_none v) eqn:N; [destruct v; try discriminate; apply negb_true_iff in B; constructor; auto|]. constructor; auto; [intros ->; discriminate|apply field_b_ok; auto].
Qed.
Lemma union_at_ok r b b' ls v : (forall l, r l v = true -> Refuses l v) -> union_at_b r b b' ls v = true -> FitsAt b b' (LUnion ls) v.
Proof.
  intros R H. assert (X : exists pre a post, ls = pre ++ a :: post /\ (forall l, In l pre -> Refuses l v) /\ FitsAt b b' a v).
  { induction ls as [|l ls IH]; [discriminate|]. cbn [union_at_b] in H. apply orb_true_iff in H. destruct H as [H|H]; [exists [], l, ls; split; auto; split; auto; intros ? []|]. apply andb_true_iff in H. destruct H as [A B].
    destruct (IH B) as (pre & a & post & -> & P & F). exists (l :: pre), a, post. split; auto. split; auto. intros x [<-|I]; auto. }
  destruct X as (pre & a & post & -> & P & F). apply S_union; auto.
Qed.
Lemma rest_at_ok b b' k kvs ext : rest_at_b b b' k kvs ext = true -> exists c fs, kvs = c ++ fs /\ class_fits_at b k c /\ FieldsFit b b' (c_fields k) fs /\ extensions_fit_at k ext.
Proof.
  unfold rest_at_b. cbv zeta. set (m := match c_class k with Some _ => 1 | None => 0 end). rewrite !andb_true_iff. intros [[A B] C]. exists (firstn m kvs), (skipn m kvs). rewrite firstn_skipn. split; auto. split; [apply class_fits_at_ok; auto|]. split; [apply fields_at_ok; auto|apply extensions_fit_at_ok; auto].
Qed.
Lemma record_at_ok b b' cls c nl k v : classes cls = Some k -> nl <> Some false -> record_at_b b b' k v = true -> FitsAt b b' (LRecord cls c nl) v.
Proof.
  intros K NL. destruct v as [| | | | | | |n kvs ext]; try discriminate. cbn [record_at_b]. rewrite andb_true_iff. intros [A B]. apply String.eqb_eq in A. subst n. destruct (c_id k) as [[[n r] l]|] eqn:CI.
  - destruct kvs as [|[n' []] kvs]; try discriminate. rewrite !andb_true_iff in B. destruct B as [[A B] C]. apply String.eqb_eq in A. subst n'. destruct (rest_at_ok _ _ _ _ _ C) as (cl & fs & -> & X1 & X2 & X3). eapply S_identified; eauto. apply field_b_ok. auto.
  - destruct (rest_at_ok _ _ _ _ _ B) as (cl & fs & -> & X1 & X2 & X3). eapply S_record; eauto.
Qed.
Lemma all_at_ok b b' i vs : forallb (fits1 b b' i) vs = true -> FitsAllAt b b' i vs.
Proof. induction vs as [|v vs IH]; [constructor|]. cbn [forallb]. rewrite andb_true_iff. intros []. constructor; auto. Qed.
End Fields.

Fixpoint fits_at_b (fuel : nat) (b b' : string) (l : loader) (v : lv) : bool :=
  match fuel with O => false | S fuel =>
  match l with
  | LAny => match to_json v with Some JNull | None => false | Some _ => true end
  | LPrim tp => has_prim tp v
  | LEnum ss => match v with VStr s => smem s ss | _ => false end
  | LExpression => is_text v
  | LArray i => match v with VSeq vs => forallb (fits_at_b fuel b b' i) vs && forallb (fun v => negb (is_seq v)) vs && apart_at_b b vs | _ => false end
  | LMap i _ nl => match v with VMap d => not_false nl && forallb (fits_at_b fuel b b' i) (map snd d) | _ => false end
  | LRecord cls _ nl => match classes cls with Some k => not_false nl && record_at_b (fits_at_b fuel) b b' k v | None => false end
  | LUnion ls => union_at_b (fits_at_b fuel) (refuses_b fuel) b b' ls v
  | LUri _ _ _ _ _ => false
  | LTypeDSL i _ _ => fits_at_b fuel b b' i v && match v with VStr s => settled_b true s && endswithb_name s
                                          | VSeq vs => forallb (fun s => settled_b true s && endswithb_name s) (texts vs) && different (texts vs) | _ => true end
  | LIdMap i _ _ => negb (is_map v) && fits_at_b fuel b b' i v
  | LSecondary i => match v with VSeq vs => patterns_b i && forallb pattern_object_b vs && forallb (fits_at_b fuel b b' patterns) vs | _ => false end
  | LProxy n => match proxies n with Some l => fits_at_b fuel b b' l v | None => false end
  end end.
Theorem fits_at_ok fuel : forall b b' l v, fits_at_b fuel b b' l v = true -> FitsAt b b' l v.
Proof.
  induction fuel as [|fuel IH]; intros b b' l v; [discriminate|]. cbn [fits_at_b]. destruct l.
  - destruct (to_json v) as [j|] eqn:E; [|discriminate]. intros H. apply to_json_of in E. subst v. apply S_any. intros ->. discriminate.
  - apply S_prim.
  - destruct v; try discriminate. intros H. apply S_enum. apply smem_In. auto.
  - destruct v; try discriminate. constructor.
  - destruct v; try discriminate. rewrite !andb_true_iff. intros [[A B] C]. apply S_array; [eapply all_at_ok; eauto| |apply apart_at_ok; auto]. apply Forall_forall. intros x I. apply (proj1 (forallb_forall _ _) B) in I. apply negb_true_iff in I. auto.
  - destruct v; try discriminate. rewrite andb_true_iff. intros [A B]. apply S_map; [apply not_false_ok; auto|eapply all_at_ok; eauto].
  - destruct v; try discriminate. rewrite !andb_true_iff. intros [[A B] C]. apply patterns_ok in A. subst. apply S_secondary; [|eapply all_at_ok; eauto]. apply Forall_forall. intros x I. apply (proj1 (forallb_forall _ _) B) in I. apply pattern_object_ok. auto.
  - destruct (classes cls) as [k|] eqn:K; [|discriminate]. rewrite andb_true_iff. intros [A B]. eapply record_at_ok; eauto. apply not_false_ok. auto.
  - intros H. eapply union_at_ok; eauto. intros l. apply refuses_ok.
  - discriminate.
  - rewrite andb_true_iff. intros [A B]. apply S_type; auto. destruct v; auto.
    + apply andb_true_iff in B. destruct B. split; [apply settled_ok; auto|apply name_b; auto].
    + apply andb_true_iff in B. destruct B as [B C]. split; [|apply different_NoDup; auto]. apply Forall_forall. intros s I. apply (proj1 (forallb_forall _ _) B) in I. apply andb_true_iff in I. destruct I. split; [apply settled_ok; auto|apply name_b; auto].
  - rewrite andb_true_iff. intros [A B]. apply negb_true_iff in A. apply S_idmap; auto.
  - destruct (proxies name) as [l|] eqn:P; [|discriminate]. intros H. eapply S_proxy; eauto.
Qed.
End Test.
