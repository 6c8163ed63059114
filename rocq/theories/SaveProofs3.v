(** * Proofs for C74: a test for [Fits] *)
From Verif Require Import PyBase PyBaseProofs NameProofs ParserModel LoaderModel LoaderSpec SaveSpec SaveProofs2.
From Coq Require Import Lia.

Definition endswithb_name (s : string) : bool := negb (endswith "[]" s) && negb (endswith "?" s).
Lemma name_b s : endswithb_name s = true -> is_name s.
Proof. unfold endswithb_name. intros H. apply andb_true_iff in H. destruct H as [A B]. apply negb_true_iff in A, B. split; auto. Qed.
Fixpoint to_json (v : lv) : option json :=
  match v with
  | VNull => Some JNull | VBool b => Some (JBool b) | VInt z => Some (JInt z) | VFloat s => Some (JFloat s) | VStr s => Some (JStr s)
  | VSeq l => option_map JList ((fix go l := match l with [] => Some [] | v :: l => match to_json v, go l with Some j, Some r => Some (j :: r) | _, _ => None end end) l)
  | VMap d => option_map JDict ((fix go d := match d with [] => Some [] | (k, v) :: d => match to_json v, go d with Some j, Some r => Some ((k, j) :: r) | _, _ => None end end) d)
  | VObj _ _ _ => None
  end.
Section LvInd.
Variable P : lv -> Prop.
Hypotheses (h1 : P VNull) (h2 : forall b, P (VBool b)) (h3 : forall z, P (VInt z)) (h4 : forall s, P (VFloat s)) (h5 : forall s, P (VStr s))
  (h6 : forall l, Forall P l -> P (VSeq l)) (h7 : forall d, Forall (fun kv => P (snd kv)) d -> P (VMap d)) (h8 : forall c fs ext, P (VObj c fs ext)).
Fixpoint lv_ind' (v : lv) : P v :=
  match v with
  | VNull => h1 | VBool b => h2 b | VInt z => h3 z | VFloat s => h4 s | VStr s => h5 s
  | VSeq l => h6 l ((fix go l : Forall P l := match l with [] => Forall_nil _ | x :: l => Forall_cons x (lv_ind' x) (go l) end) l)
  | VMap d => h7 d ((fix go d : Forall (fun kv => P (snd kv)) d := match d with [] => Forall_nil _ | kv :: d => Forall_cons kv (lv_ind' (snd kv)) (go d) end) d)
  | VObj c fs ext => h8 c fs ext
  end.
End LvInd.
Lemma to_json_of v : forall j, to_json v = Some j -> v = of_json j.
Proof.
  induction v as [| | | | |l IH|d IH|] using lv_ind'; intros j; try (intros [= <-]; reflexivity); try discriminate; cbn [to_json].
  - intros H. match type of H with option_map _ ?x = _ => destruct x as [js|] eqn:E; [|discriminate] end. injection H as <-. change (of_json (JList js)) with (VSeq (map of_json js)). f_equal.
    revert js E. induction IH as [|v l V IH IHl]; intros js; [intros [= <-]; auto|]. destruct (to_json v) as [j|] eqn:J; [|discriminate].
    match goal with |- match ?x with _ => _ end = _ -> _ => destruct x as [r|] eqn:R; [|discriminate] end. intros [= <-]. cbn [map]. f_equal; auto.
  - intros H. match type of H with option_map _ ?x = _ => destruct x as [js|] eqn:E; [|discriminate] end. injection H as <-. change (of_json (JDict js)) with (VMap (map (fun kv => (fst kv, of_json (snd kv))) js)). f_equal.
    revert js E. induction IH as [|[k v] d V IH IHd]; intros js; [intros [= <-]; auto|]. cbn [snd] in V. destruct (to_json v) as [j|] eqn:J; [|discriminate].
    match goal with |- match ?x with _ => _ end = _ -> _ => destruct x as [r|] eqn:R; [|discriminate] end. intros [= <-]. cbn [map fst snd]. f_equal; auto. f_equal. auto.
Qed.

Section Test.
Variables (supported_schemes : list string) (check_exists : string -> result bool) (classes : string -> option class) (proxies : string -> option loader).
Variables (V RV : list (string * string)) (unchecked blanks : bool).
Notation full_address := (full_address supported_schemes V).
Notation Settled := (Settled supported_schemes V RV).
Notation linked := (linked check_exists unchecked).
Notation class_named := (class_named supported_schemes V RV).
Notation Refuses := (Refuses supported_schemes classes proxies V RV).
Notation class_fits := (class_fits supported_schemes check_exists V RV unchecked).
Notation extensions_fit := (extensions_fit supported_schemes V).
Notation Fits := (Fits supported_schemes check_exists classes proxies V RV unchecked blanks).
Notation FitAll := (FitAll supported_schemes check_exists classes proxies V RV unchecked blanks).
Notation FitFields := (FitFields supported_schemes check_exists classes proxies V RV unchecked blanks).

Definition absent {A} (x : option A) : bool := match x with None => true | Some _ => false end.
Lemma absent_b {A} (x : option A) : absent x = true -> x = None.
Proof. destruct x; [discriminate|auto]. Qed.
Definition full_b (s : string) : bool :=
  negb (String.eqb (s_scheme (urlsplit s)) "") && smem (s_scheme (urlsplit s)) supported_schemes && absent (dget (before ":" s) V).
Lemma full_ok s : full_b s = true -> full_address s.
Proof. unfold full_b. rewrite !andb_true_iff. intros [[A B] C]. apply negb_true_iff, String.eqb_neq in A. apply absent_b in C. repeat split; auto. Qed.
Definition settled_b (vt : bool) (s : string) : bool :=
  vt && dmem s V || full_b s && (negb vt || absent (dget s RV)) || negb vt && (startswith "$(" s || startswith "${" s) && absent (dget (before ":" s) V).
Lemma settled_ok vt s : settled_b vt s = true -> Settled vt s.
Proof.
  unfold settled_b. rewrite !orb_true_iff, !andb_true_iff. intros [[[A B]|[A B]]|[[A B] C]].
  - apply Settled_term; auto.
  - apply Settled_address; [apply full_ok; auto|]. intros ->. cbn in B. apply absent_b. auto.
  - apply Settled_expression; [destruct vt; auto; discriminate|apply B|apply absent_b; auto].
Qed.
Definition linked_b (nl : option bool) (s : string) : bool :=
  match nl with Some true => true | None => unchecked | _ => false end || match check_exists s with Ok true | Err ValidationException => true | _ => false end.
Lemma linked_b_ok nl s : linked_b nl s = true -> linked nl s.
Proof.
  unfold linked_b, SaveSpec.linked. rewrite orb_true_iff. intros [H|H]; [destruct nl as [[]|]; auto; discriminate|]. destruct (check_exists s) as [[]|[]]; auto; discriminate.
Qed.
Definition class_named_b (c : string) : bool :=
  match dget c V with
  | None => false
  | Some uri =>
      let ns := sdrop_last (String.length c) uri in
      match dget ns RV with
      | None => true
      | Some p => String.eqb p "" || negb (has_char ":" p) && (match dget p V with Some n => String.eqb n ns | None => false end) && String.eqb uri (ns ++ c) &&
          negb (dmem (p ++ ":" ++ c)%string V) && negb (String.eqb (s_scheme (urlsplit uri)) "") && smem (s_scheme (urlsplit uri)) supported_schemes && (match dget uri RV with Some t => String.eqb t c | None => false end)
      end
  end.
Lemma class_named_ok c : class_named_b c = true -> class_named c.
Proof.
  unfold class_named_b, SaveSpec.class_named. destruct (dget c V) as [uri|]; [|discriminate]. intros H. exists uri. split; auto. cbv zeta in H.
  destruct (dget (sdrop_last (String.length c) uri) RV) as [p|]; auto. apply orb_true_iff in H. destruct H as [H|H]; [left; apply String.eqb_eq; auto|right].
  rewrite !andb_true_iff in H. destruct H as ((((((A & B) & C) & D) & E) & F) & G). apply negb_true_iff in A, D, E. apply String.eqb_neq in E. apply String.eqb_eq in C.
  destruct (dget p V) as [n|]; [|discriminate]. apply String.eqb_eq in B. destruct (dget uri RV) as [t|]; [|discriminate]. apply String.eqb_eq in G. subst. repeat split; auto.
Qed.
Definition none_b (x : option lv) : bool := match x with None | Some VNull => true | _ => false end.
Definition no_entry_b (x : string) (v : lv) : bool := none_b (entry x v) && match v with VObj _ _ ext => absent (dget x ext) | _ => true end.
Lemma no_entry_ok x v : no_entry_b x v = true -> no_entry x v.
Proof.
  unfold no_entry_b, no_entry. rewrite andb_true_iff. intros [A B]. split; [destruct (entry x v) as [[]|]; auto; discriminate|]. destruct v; auto. apply absent_b. auto.
Qed.
Definition keys_of (v : lv) : list string := match v with VMap d => map fst d | VObj _ fs _ => map fst fs | _ => [] end.

Fixpoint refuses_b (fuel : nat) (l : loader) (v : lv) : bool :=
  match fuel with O => false | S fuel =>
  match l with
  | LAny => is_none v
  | LPrim tp => negb (has_prim tp v)
  | LEnum ss => match v with VStr s => negb (smem s ss) | _ => true end
  | LExpression => negb (is_text v)
  | LArray _ => negb (is_seq v)
  | LMap _ _ _ => negb (is_map v)
  | LRecord cls _ _ =>
      negb (is_map v) ||
      match classes cls with
      | None => false
      | Some k =>
          negb (absent (c_class k)) && (no_entry_b "class" v || match entry "class" v with Some (VStr t) => class_named_b t && negb (String.eqb t (c_name k)) && negb (match dget (c_name k) V with Some u => String.eqb u t | None => false end) | _ => false end) ||
          existsb (fun x => negb (none_b (entry x v)) && negb (smem x (attrs k)) && negb (has_char ":" x)) (keys_of v) ||
          existsb (fun f => f_required f && no_entry_b (f_name f) v) (c_fields k) ||
          existsb (fun f => match f_loader f, entry (f_name f) v with
                            | LTypeDSL (LEnum ss) _ _, Some (VStr t) => settled_b true t && endswithb_name t && negb (smem t ss)
                            | _, _ => false end) (c_fields k)
      end
  | LUnion ls => forallb (fun l => refuses_b fuel l v) ls
  | LProxy n => match proxies n with Some l => refuses_b fuel l v | None => false end
  | LSecondary _ => negb (is_map v) && negb (is_seq v) && negb (is_text v) ||
      match v with VSeq vs => existsb (fun v => match v with VObj _ _ _ => no_entry_b "pattern" v | _ => false end) vs | _ => false end
  | _ => false
  end end.
Lemma not_smem x l : negb (smem x l) = true -> ~ In x l.
Proof. intros H I. apply smem_In in I. rewrite I in H. discriminate. Qed.
Lemma refuses_ok fuel : forall l v, refuses_b fuel l v = true -> Refuses l v.
Proof.
  induction fuel as [|fuel IH]; intros l v; [discriminate|]. cbn [refuses_b]. destruct l; try discriminate.
  - destruct v; try discriminate. constructor.
  - intros H. apply negb_true_iff in H. constructor. auto.
  - intros H. constructor. intros s ->. apply not_smem. auto.
  - intros H. apply negb_true_iff in H. constructor. auto.
  - intros H. apply negb_true_iff in H. constructor. auto.
  - intros H. apply negb_true_iff in H. constructor. auto.
  - rewrite orb_true_iff, !andb_true_iff. intros [((A & B) & C)|H]; [apply negb_true_iff in A, B, C; apply N_secondary; auto|]. destruct v; try discriminate. apply existsb_exists in H. destruct H as (x & I & H). destruct x; try discriminate.
    eapply N_patterns; eauto. apply no_entry_ok. auto.
  - rewrite orb_true_iff. intros [H|H]; [apply negb_true_iff in H; apply N_record; auto|]. destruct (classes cls) as [k|] eqn:K; [|discriminate]. rewrite !orb_true_iff in H. destruct H as [[[H|H]|H]|H].
    + apply andb_true_iff in H. destruct H as [A H]. assert (C : c_class k <> None) by (destruct (c_class k); discriminate). apply orb_true_iff in H. destruct H as [H|H]; [eapply N_no_class; eauto; apply no_entry_ok; auto|].
      destruct (entry "class" v) as [[]|] eqn:E; try discriminate. rewrite !andb_true_iff in H. destruct H as [[H1 H2] H3]. apply negb_true_iff, String.eqb_neq in H2. apply negb_true_iff in H3. eapply N_class; eauto; [apply class_named_ok; auto|]. intros D. rewrite D, String.eqb_refl in H3. discriminate.
    + apply existsb_exists in H. destruct H as (x & _ & H). rewrite !andb_true_iff in H. destruct H as [[A B] C]. apply negb_true_iff in A, C. destruct (entry x v) as [w|] eqn:E; [|discriminate]. eapply (N_unknown _ _ _ _ _ cls container no_link_check k v x w); eauto; [intros ->; discriminate|apply not_smem; auto].
    + apply existsb_exists in H. destruct H as (f & I & H). apply andb_true_iff in H. destruct H as [A B]. eapply N_missing; eauto. apply no_entry_ok. auto.
    + apply existsb_exists in H. destruct H as (f & I & H). destruct (f_loader f) as [| | | | | | | | | |i rs salad| |] eqn:FL; try discriminate. destruct i as [| |ss| | | | | | | | | |]; try discriminate. destruct (entry (f_name f) v) as [[]|] eqn:E; try discriminate.
      rewrite !andb_true_iff in H. destruct H as [[A B] C]. eapply N_type; eauto; [apply settled_ok; auto|apply name_b; auto|apply not_smem; auto].
  - intros H. apply N_union. intros l I. apply IH. apply (proj1 (forallb_forall _ _) H). auto.
  - destruct (proxies name) as [l|] eqn:P; [|discriminate]. intros H. eapply N_proxy; eauto.
Qed.

Definition class_fits_b (k : class) (kvs : list (string * lv)) : bool :=
  match c_class k with
  | None => match kvs with [] => true | _ => false end
  | Some l => match kvs, l with [(n, VStr c)], LUri _ _ _ _ nl => String.eqb n "class" && String.eqb c (c_name k) && class_named_b (c_name k) && linked_b nl (c_name k) | _, _ => false end
  end.
Lemma class_fits_ok k kvs : class_fits_b k kvs = true -> class_fits k kvs.
Proof.
  unfold class_fits_b, SaveSpec.class_fits. destruct (c_class k) as [l|]; [|destruct kvs; [auto|discriminate]]. destruct kvs as [|[n []] []]; try discriminate. destruct l; try discriminate. rewrite !andb_true_iff. intros [[[A B] C] D].
  apply String.eqb_eq in A, B. subst. split; auto. split; [apply class_named_ok; auto|apply linked_b_ok; auto].
Qed.
Definition extensions_fit_b (k : class) (ext : list (string * json)) : bool :=
  different (map fst ext) && forallb (fun kv => full_b (fst kv) && negb (smem (fst kv) (attrs k))) ext.
Lemma extensions_fit_ok k ext : extensions_fit_b k ext = true -> extensions_fit k ext.
Proof.
  unfold extensions_fit_b. rewrite andb_true_iff. intros [A B]. split; [apply different_NoDup; auto|]. apply Forall_forall. intros kv I. apply (proj1 (forallb_forall _ _) B) in I. apply andb_true_iff in I. destruct I as [I1 I2].
  split; [apply full_ok; auto|apply not_smem; auto].
Qed.
Definition text_of (v : lv) : option string := match v with VStr s => Some s | _ => None end.
Fixpoint all_texts (vs : list lv) : option (list string) :=
  match vs with [] => Some [] | VStr s :: vs => option_map (cons s) (all_texts vs) | _ => None end.
Lemma all_texts_ok vs ts : all_texts vs = Some ts -> vs = map VStr ts.
Proof.
  revert ts. induction vs as [|v vs IH]; intros ts; [intros [= <-]; auto|]. cbn [all_texts]. destruct v; try discriminate. destruct (all_texts vs) as [r|]; [|discriminate]. intros [= <-]. cbn [map]. f_equal. auto.
Qed.
Definition apart_b (vs : list lv) : bool := match all_texts (flat_map id_of vs) with Some ts => different ts | None => false end.
Lemma apart_ok vs : apart_b vs = true -> apart vs.
Proof. unfold apart_b, apart. destruct (all_texts (flat_map id_of vs)) as [ts|] eqn:E; [|discriminate]. intros D. exists ts. split; [apply all_texts_ok; auto|apply different_NoDup; auto]. Qed.
Definition not_false (nl : option bool) : bool := match nl with Some false => false | _ => true end.
Lemma not_false_ok nl : not_false nl = true -> nl <> Some false.
Proof. intros H ->. discriminate. Qed.
Definition pattern_object_b (v : lv) : bool :=
  match v with VObj c [(a, _); (b, _)] [] => String.eqb c "SecondaryFileSchema" && String.eqb a "pattern" && String.eqb b "required" | _ => false end.
Lemma pattern_object_ok v : pattern_object_b v = true -> pattern_object v.
Proof.
  destruct v as [| | | | | | |c fs ext]; try discriminate. destruct fs as [|[a p] [|[b r] []]]; try discriminate. destruct ext; try discriminate. cbn [pattern_object_b]. rewrite !andb_true_iff. intros [[A B] C]. apply String.eqb_eq in A, B, C. subst. exists p, r. auto.
Qed.
Definition patterns_b (i : loader) : bool :=
  match i with
  | LUnion [LPrim PNull; LRecord a None None; LArray (LRecord b None None)] => String.eqb a "SecondaryFileSchema" && String.eqb b "SecondaryFileSchema"
  | _ => false
  end.
Lemma patterns_ok i : patterns_b i = true -> i = LUnion [LPrim PNull; patterns; LArray patterns].
Proof.
  unfold patterns_b. intros H. repeat match type of H with context [match ?x with _ => _ end] => destruct x; try discriminate end. apply andb_true_iff in H. destruct H as [A B]. apply String.eqb_eq in A, B. subst. reflexivity.
Qed.

Definition blank_b (l : loader) (s : string) : bool :=
  blanks && startswith "_:" s && negb (has_char "#" s) && absent (dget "_" V) &&
  match l with LUri i true false _ nl => not_false nl && match i with LPrim PStr | LUnion [LPrim PNull; LPrim PStr] => true | _ => false end | _ => false end.
Lemma blank_ok l s : blank_b l s = true -> blanks = true /\ blank_name V s /\ exists i sr nl, l = LUri i true false sr nl /\ nl <> Some false /\ (i = LPrim PStr \/ i = LUnion [LPrim PNull; LPrim PStr]).
Proof.
  unfold blank_b. rewrite !andb_true_iff. intros [[[[A B] C] D] E]. split; auto. split; [repeat split; auto; [apply negb_true_iff; auto|apply absent_b; auto]|]. destruct l as [| | | | | | | | |i si vt sr nl| | |]; try discriminate. destruct si, vt; try discriminate.
  apply andb_true_iff in E. destruct E as [E1 E2]. exists i, sr, nl. split; auto. split; [apply not_false_ok; auto|]. clear - E2. repeat match type of E2 with context [match ?x with _ => _ end] => destruct x; try discriminate end; auto.
Qed.

(** A test for addresses in whose scope everything is there *)
Variable home_b : string -> bool.
Hypothesis home_ok : forall s, home_b s = true -> home check_exists unchecked blanks s.

Section Fields.
Variable fits1 : loader -> lv -> bool.
Fixpoint fields_b (fs : list field) (kvs : list (string * lv)) : bool :=
  match fs, kvs with
  | [], [] => true
  | f :: fs, (n, v) :: kvs => String.eqb n (f_name f) && (if is_none v then negb (f_required f) else fits1 (f_loader f) v) && fields_b fs kvs
  | _, _ => false
  end.
(** A union: the alternatives that refuse, and then one that fits *)
Fixpoint union_b (refuses1 : loader -> lv -> bool) (ls : list loader) (v : lv) : bool :=
  match ls with [] => false | l :: ls => fits1 l v || refuses1 l v && union_b refuses1 ls v end.
Definition rest_b (k : class) (kvs : list (string * lv)) (ext : list (string * json)) : bool :=
  let m := match c_class k with Some _ => 1 | None => 0 end in
  class_fits_b k (firstn m kvs) && fields_b (c_fields k) (skipn m kvs) && extensions_fit_b k ext.
Definition record_b (k : class) (v : lv) : bool :=
  match v with
  | VObj c kvs ext =>
      String.eqb c (c_name k) &&
      match c_id k, kvs with
      | None, _ => rest_b k kvs ext
      | Some (n, _, l), (n', VStr s) :: kvs => String.eqb n' n && (fits1 l (VStr s) && home_b s || blank_b l s) && rest_b k kvs ext
      | _, _ => false
      end
  | _ => false
  end.
Hypothesis ok : forall l v, fits1 l v = true -> Fits l v.
Lemma fields_ok fs : forall kvs, fields_b fs kvs = true -> FitFields fs kvs.
Proof.
  induction fs as [|f fs IH]; intros [|[n v] kvs]; try discriminate; [constructor|]. cbn [fields_b]. rewrite !andb_true_iff. intros [[A B] C]. apply String.eqb_eq in A. subst n.
  destruct (is_none v) eqn:N; [destruct v; try discriminate; apply negb_true_iff in B; constructor; auto|]. constructor; auto. intros ->. discriminate.
Qed.
Lemma union_b_ok r ls v : (forall l, r l v = true -> Refuses l v) -> union_b r ls v = true -> Fits (LUnion ls) v.
Proof.
  intros R H. assert (X : exists pre a post, ls = pre ++ a :: post /\ (forall l, In l pre -> Refuses l v) /\ Fits a v).
  { induction ls as [|l ls IH]; [discriminate|]. cbn [union_b] in H. apply orb_true_iff in H. destruct H as [H|H]; [exists [], l, ls; split; auto; split; auto; intros ? []|]. apply andb_true_iff in H. destruct H as [A B].
    destruct (IH B) as (pre & a & post & -> & P & F). exists (l :: pre), a, post. split; auto. split; auto. intros x [<-|I]; auto. }
  destruct X as (pre & a & post & -> & P & F). apply F_union; auto.
Qed.
Lemma rest_ok k kvs ext : rest_b k kvs ext = true -> exists c fs, kvs = c ++ fs /\ class_fits k c /\ FitFields (c_fields k) fs /\ extensions_fit k ext.
Proof.
  unfold rest_b. cbv zeta. set (m := match c_class k with Some _ => 1 | None => 0 end). rewrite !andb_true_iff. intros [[A B] C]. exists (firstn m kvs), (skipn m kvs). rewrite firstn_skipn. split; auto. split; [apply class_fits_ok; auto|]. split; [apply fields_ok; auto|apply extensions_fit_ok; auto].
Qed.
Lemma record_b_ok cls c nl k v : classes cls = Some k -> nl <> Some false -> record_b k v = true -> Fits (LRecord cls c nl) v.
Proof.
  intros K NL. destruct v as [| | | | | | |n kvs ext]; try discriminate. cbn [record_b]. rewrite andb_true_iff. intros [A B]. apply String.eqb_eq in A. subst n. destruct (c_id k) as [[[n r] l]|] eqn:CI.
  - destruct kvs as [|[n' []] kvs]; try discriminate. rewrite !andb_true_iff in B. destruct B as [[A B] C]. apply String.eqb_eq in A. subst n'. destruct (rest_ok _ _ _ C) as (cl & fs & -> & X1 & X2 & X3). apply orb_true_iff in B. destruct B as [B|B]; [apply andb_true_iff in B; destruct B; eapply F_identified; eauto|].
    apply blank_ok in B. destruct B as (BB & BN & i & sr & nl' & -> & NL' & IS). eapply F_blank; eauto.
  - destruct (rest_ok _ _ _ B) as (cl & fs & -> & X1 & X2 & X3). eapply F_record; eauto.
Qed.
Lemma all_ok i vs : forallb (fits1 i) vs = true -> FitAll i vs.
Proof. induction vs as [|v vs IH]; [constructor|]. cbn [forallb]. rewrite andb_true_iff. intros []. constructor; auto. Qed.
End Fields.

Fixpoint fits_b (fuel : nat) (l : loader) (v : lv) : bool :=
  match fuel with O => false | S fuel =>
  match l with
  | LAny => match to_json v with Some JNull | None => false | Some _ => true end
  | LPrim tp => has_prim tp v
  | LEnum ss => match v with VStr s => smem s ss | _ => false end
  | LExpression => is_text v
  | LArray i => match v with VSeq vs => forallb (fits_b fuel i) vs && forallb (fun v => negb (is_seq v)) vs && apart_b vs | _ => false end
  | LMap i _ nl => match v with VMap d => not_false nl && forallb (fits_b fuel i) (map snd d) | _ => false end
  | LRecord cls _ nl => match classes cls with Some k => not_false nl && record_b (fits_b fuel) k v | None => false end
  | LUnion ls => union_b (fits_b fuel) (refuses_b fuel) ls v
  | LUri i si vt sr nl => not_false nl && fits_b fuel i v && match v with VStr s => settled_b vt s && linked_b nl s | VSeq vs => forallb (settled_b vt) (texts vs) | _ => true end
  | LTypeDSL i _ _ => fits_b fuel i v && match v with VStr s => settled_b true s && endswithb_name s
                                          | VSeq vs => forallb (fun s => settled_b true s && endswithb_name s) (texts vs) && different (texts vs) | _ => true end
  | LIdMap i _ _ => negb (is_map v) && fits_b fuel i v
  | LSecondary i => match v with VSeq vs => patterns_b i && forallb pattern_object_b vs && forallb (fits_b fuel patterns) vs | _ => false end
  | LProxy n => match proxies n with Some l => fits_b fuel l v | None => false end
  end end.
Theorem fits_ok fuel : forall l v, fits_b fuel l v = true -> Fits l v.
Proof.
  induction fuel as [|fuel IH]; intros l v; [discriminate|]. cbn [fits_b]. destruct l.
  - destruct (to_json v) as [j|] eqn:E; [|discriminate]. intros H. apply to_json_of in E. subst v. apply F_any. intros ->. discriminate.
  - apply F_prim.
  - destruct v; try discriminate. intros H. apply F_enum. apply smem_In. auto.
  - destruct v; try discriminate. constructor.
  - destruct v; try discriminate. rewrite !andb_true_iff. intros [[A B] C]. apply F_array; [eapply all_ok; eauto| |apply apart_ok; auto]. apply Forall_forall. intros x I. apply (proj1 (forallb_forall _ _) B) in I. apply negb_true_iff in I. auto.
  - destruct v; try discriminate. rewrite andb_true_iff. intros [A B]. apply F_map; [apply not_false_ok; auto|eapply all_ok; eauto].
  - destruct v; try discriminate. rewrite !andb_true_iff. intros [[A B] C]. apply patterns_ok in A. subst. apply F_secondary; [|eapply all_ok; eauto]. apply Forall_forall. intros x I. apply (proj1 (forallb_forall _ _) B) in I. apply pattern_object_ok. auto.
  - destruct (classes cls) as [k|] eqn:K; [|discriminate]. rewrite andb_true_iff. intros [A B]. eapply record_b_ok; eauto. apply not_false_ok. auto.
  - intros H. eapply union_b_ok; eauto. intros l. apply refuses_ok.
  - rewrite !andb_true_iff. intros [[A B] C]. apply F_uri; auto; [apply not_false_ok; auto|]. destruct v; auto.
    + apply andb_true_iff in C. destruct C. split; [apply settled_ok; auto|apply linked_b_ok; auto].
    + apply Forall_forall. intros s I. apply settled_ok. apply (proj1 (forallb_forall _ _) C). auto.
  - rewrite andb_true_iff. intros [A B]. apply F_type; auto. destruct v; auto.
    + apply andb_true_iff in B. destruct B. split; [apply settled_ok; auto|apply name_b; auto].
    + apply andb_true_iff in B. destruct B as [B C]. split; [|apply different_NoDup; auto]. apply Forall_forall. intros s I. apply (proj1 (forallb_forall _ _) B) in I. apply andb_true_iff in I. destruct I. split; [apply settled_ok; auto|apply name_b; auto].
  - rewrite andb_true_iff. intros [A B]. apply negb_true_iff in A. apply F_idmap; auto.
  - destruct (proxies name) as [l|] eqn:P; [|discriminate]. intros H. eapply F_proxy; eauto.
Qed.
End Test.
