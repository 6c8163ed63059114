(** * Proofs about type, secondaryFiles and identifier shorthands and about expanded identifiers *)
From Verif Require Import PyBase PyBaseProofs NameProofs ParserModel ParserProofs LoaderModel LoaderSpec LoaderProofs.
From Coq Require Import Lia Bool NArith.

(** ** Type shorthands *)
Lemma endswith_app p s : endswith p (s ++ p) = true.
Proof. apply endswith_spec. eauto. Qed.
Lemma ends_opt_array s : endswith "?" (s ++ "[]") = false.
Proof.
  destruct (endswith "?" (s ++ "[]")) eqn:E; auto. apply endswith_spec in E. destruct E as [r E]. exfalso.
  assert (X : srev (s ++ "[]") = srev (r ++ "?")) by congruence. rewrite !srev_app_distr in X. cbn in X. discriminate.
Qed.
Lemma ends_array_opt s : endswith "[]" (s ++ "?") = false.
Proof.
  destruct (endswith "[]" (s ++ "?")) eqn:E; auto. apply endswith_spec in E. destruct E as [r E]. exfalso.
  assert (X : srev (s ++ "?") = srev (r ++ "[]")) by congruence. rewrite !srev_app_distr in X. cbn in X. discriminate.
Qed.
Lemma drop1 s c : sdrop_last 1 (s ++ String c "") = s.
Proof. apply (sdrop_last_app s (String c "")). Qed.
Lemma drop2 s : sdrop_last 2 (s ++ "[]") = s.
Proof. apply (sdrop_last_app s "[]"). Qed.
Lemma split_opt s : (s ++ "[]?" = (s ++ "[]") ++ "?")%string.
Proof. rewrite sapp_assoc. reflexivity. Qed.

Section Types.
Variable expand : string -> result string.
Let Means (s t : string) : Prop := expand s = Ok t.
Lemma resolve_short n s t : Short Means s t -> resolve (S n) expand true s = Ok t.
Proof.
  intros H. destruct H as [s t [A B] M|s t [A B] M|s t [A B] M|s t [A B] M]; cbn [resolve]; unfold Means in M.
  - rewrite B. cbv zeta. rewrite A, M. auto.
  - rewrite endswith_app. cbv zeta. rewrite drop1, A, M. auto.
  - rewrite ends_opt_array. cbv zeta. rewrite endswith_app, drop2, A, M. auto.
  - rewrite split_opt, endswith_app. cbv zeta. rewrite drop1, endswith_app, drop2, A, M. auto.
Qed.
Lemma resolve_nested_old n s : resolve (S n) expand true (s ++ "[][]") = Ok (JStr (s ++ "[][]")) /\
  resolve (S n) expand true (s ++ "[][]?") = Ok (JStr (s ++ "[][]?")).
Proof.
  assert (E1 : (s ++ "[][]" = (s ++ "[]") ++ "[]")%string) by (rewrite sapp_assoc; reflexivity).
  assert (E2 : (s ++ "[][]?" = ((s ++ "[]") ++ "[]") ++ "?")%string) by (rewrite !sapp_assoc; reflexivity).
  split; cbn [resolve].
  - rewrite E1, ends_opt_array. cbv zeta. rewrite endswith_app, drop2, endswith_app. auto.
  - rewrite E2, endswith_app. cbv zeta. rewrite drop1, endswith_app, drop2, endswith_app. auto.
Qed.
(** The only results under the old rules *)
Lemma resolve_old n s t : resolve (S n) expand true s = Ok t ->
  Short (fun s t => expand s = Ok t) s t \/
  (exists r, (s = r ++ "[][]" \/ s = r ++ "[][]?")%string /\ t = JStr s) \/
  (exists r x, (endswith "?" r = true /\ expand r = Ok x) /\
     ((s = r ++ "?")%string /\ t = optional (JStr x) \/ (s = r ++ "[]")%string /\ t = array_of (JStr x) \/ (s = r ++ "[]?")%string /\ t = optional (array_of (JStr x)))).
Proof.
  cbn [resolve]. cbv zeta. destruct (endswith "?" s) eqn:Q.
  - apply endswith_spec in Q. destruct Q as [q ->]. rewrite drop1. destruct (endswith "[]" q) eqn:A.
    + apply endswith_spec in A. destruct A as [r ->]. rewrite drop2. destruct (endswith "[]" r) eqn:B.
      * apply endswith_spec in B. destruct B as [x ->]. intros H. injection H as <-. right. left. exists x. split; [right; rewrite !sapp_assoc; auto|auto].
      * destruct (expand r) as [x|] eqn:E; cbn [bind]; [|discriminate]. intros H. injection H as <-. rewrite <- split_opt. destruct (endswith "?" r) eqn:C.
        -- right. right. exists r, x. auto 6.
        -- left. apply Short_optional_array; [split; auto|auto].
    + destruct (expand q) as [x|] eqn:E; cbn [bind]; [|discriminate]. intros H. injection H as <-. destruct (endswith "?" q) eqn:C.
      * right. right. exists q, x. auto 6.
      * left. apply Short_optional; [split; auto|auto].
  - destruct (endswith "[]" s) eqn:A.
    + apply endswith_spec in A. destruct A as [r ->]. rewrite drop2. destruct (endswith "[]" r) eqn:B.
      * apply endswith_spec in B. destruct B as [x ->]. intros H. injection H as <-. right. left. exists x. split; [left; rewrite !sapp_assoc; auto|auto].
      * destruct (expand r) as [x|] eqn:E; cbn [bind]; [|discriminate]. intros H. injection H as <-. destruct (endswith "?" r) eqn:C.
        -- right. right. exists r, x. auto 6.
        -- left. apply Short_array; [split; auto|auto].
    + destruct (expand s) as [x|] eqn:E; cbn [bind]; [|discriminate]. intros H. injection H as <-. left. apply Short_name; [split; auto|auto].
Qed.
(** The later rules; the code expands a name twice, which must change nothing *)
Lemma resolve_nested (idem : forall s t, expand s = Ok t -> expand t = Ok t) s t : Nested Means s t ->
  forall n, String.length s < n -> resolve n expand false s = Ok t.
Proof.
  intros H. induction H as [s t [A B] M|s t [A B] M|s t H IH|s t H IH]; intros [|n] L; try lia; cbn [resolve]; unfold Means in *.
  - rewrite B. cbv zeta. rewrite A, M. auto.
  - rewrite endswith_app. cbv zeta. rewrite drop1, A, M. auto.
  - rewrite ends_opt_array. cbv zeta. rewrite endswith_app, drop2. rewrite slength_app in L. cbn [String.length] in L.
    rewrite IH by lia. cbn [bind]. destruct t; auto. inversion H; subst. rewrite (idem s); auto.
  - rewrite split_opt, endswith_app. cbv zeta. rewrite drop1, endswith_app, drop2. rewrite split_opt, !slength_app in L. cbn [String.length] in L.
    rewrite IH by lia. cbn [bind]. destruct t; auto. inversion H; subst. rewrite (idem s); auto.
Qed.
End Types.

Lemma salad_1_1 : salad_before_1_3 "v1.1" = Ok true.
Proof. reflexivity. Qed.

(** Lists of types: what is added and what not *)
Lemma add_new_app r i : exists s, add_new r i = r ++ s /\ (s = [i] /\ existsb (py_eqb i) r = false \/ s = [] /\ existsb (py_eqb i) r = true).
Proof. unfold add_new. destruct (existsb (py_eqb i) r) eqn:E; [exists []; rewrite app_nil_r; auto|exists [i]; auto]. Qed.
Lemma add_members r t : match t with JList l => fold_left add_new l r | _ => add_new r t end = fold_left add_new (members t) r.
Proof. destruct t; reflexivity. Qed.
Lemma existsb_false {A} (f : A -> bool) l : existsb f l = false <-> forall y, In y l -> f y = false.
Proof.
  split.
  - intros E y I. destruct (f y) eqn:Y; auto. assert (existsb f l = true) by (apply existsb_exists; eauto). congruence.
  - intros H. destruct (existsb f l) eqn:E; auto. apply existsb_exists in E. destruct E as [y [I Y]]. rewrite H in Y; auto.
Qed.
Lemma add_all l : forall r,
  (Distinct r -> Distinct (fold_left add_new l r)) /\
  (exists s, fold_left add_new l r = r ++ s /\ incl s l) /\
  (forall x, In x l -> exists y, In y (fold_left add_new l r) /\ (x = y \/ py_eqb x y = true)).
Proof.
  induction l as [|x l IH]; intros r; cbn [fold_left].
  - split; [auto|]. split; [exists []; rewrite app_nil_r; split; [auto|intros y []]|intros x []].
  - destruct (IH (add_new r x)) as (D & (s & S & I) & C). destruct (add_new_app r x) as (u & U & V).
    split; [|split].
    + intros R. apply D. rewrite U. destruct V as [[-> E]|[-> E]]; [|rewrite app_nil_r; auto]. constructor; auto. apply existsb_false. exact E.
    + exists (u ++ s). rewrite S, U, app_assoc. split; [auto|]. apply incl_app; [|apply incl_tl; auto]. destruct V as [[-> _]|[-> _]]; [intros y [<-|[]]; left; auto|intros y []].
    + intros y [<-|Y]; [|apply C; auto]. rewrite S, U. destruct V as [[-> E]|[-> E]].
      * exists x. split; [|auto]. apply in_or_app. left. apply in_or_app. right. left. auto.
      * apply existsb_exists in E. destruct E as [y [Y E]]. exists y. split; [|auto]. rewrite app_nil_r. apply in_or_app. auto.
Qed.
(** A list of texts *)
Lemma resolve_texts f ss : forall r out, resolve_list f r (map JStr ss) = Ok out ->
  exists ts, Forall2 (fun s t => f s = Ok t) ss ts /\ out = fold_left add_new (flat_map members ts) r.
Proof.
  induction ss as [|s ss IH]; intros r out; cbn [map resolve_list].
  - intros H. injection H as <-. exists []. split; [constructor|auto].
  - destruct (f s) as [t|] eqn:E; cbn [bind]; [|discriminate]. rewrite add_members. intros H. destruct (IH _ _ H) as (ts & F & ->). exists (t :: ts).
    split; [auto|]. cbn [flat_map]. rewrite fold_left_app. auto.
Qed.
Lemma resolve_texts_ok f ss ts : Forall2 (fun s t => f s = Ok t) ss ts -> forall r,
  resolve_list f r (map JStr ss) = Ok (fold_left add_new (flat_map members ts) r).
Proof.
  induction 1 as [|s t ss ts E F IH]; intros r; cbn [map resolve_list]; [auto|]. rewrite E. cbn [bind]. rewrite add_members, IH.
  cbn [flat_map]. rewrite fold_left_app. auto.
Qed.
Lemma add_distinct l : forall r, Distinct r -> (forall x, In x l -> forall y, In y r -> py_eqb x y = false) ->
  (forall a x b, l = a ++ x :: b -> forall y, In y a -> py_eqb x y = false) -> fold_left add_new l r = r ++ l.
Proof.
  induction l as [|x l IH]; intros r R H D; cbn [fold_left]; [rewrite app_nil_r; auto|].
  assert (E : existsb (py_eqb x) r = false) by (apply existsb_false; intros y Y; apply H; [left; auto|auto]).
  unfold add_new at 2. rewrite E. rewrite IH.
  - rewrite <- app_assoc. auto.
  - constructor; auto. apply existsb_false. auto.
  - intros z Z y Y. apply in_app_iff in Y. destruct Y as [Y|[<-|[]]]; [apply H; [right; auto|auto]|].
    apply in_split in Z. destruct Z as (a & b & ->). apply (D (x :: a) z b); [auto|left; auto].
  - intros a z b -> y Y. apply (D (x :: a) z b); [auto|right; auto].
Qed.

(** ** secondaryFiles *)
Lemma dpop_nil {V} (k : string) (d : list (string * V)) : dpop k d = [] <-> forall k', In k' (dkeys d) -> k' = k.
Proof.
  unfold dpop. induction d as [|[x v] d IH]; cbn [filter dkeys map fst].
  - split; [intros _ k' []|auto].
  - destruct (String.eqb_spec k x) as [->|N]; cbn [negb].
    + rewrite IH. split; [intros H k' [<-|I]; auto|intros H k' I; apply H; right; auto].
    + split; [discriminate|]. intros H. destruct N. symmetry. apply H. left. auto.
Qed.
Lemma dkeys_dpop {V} k (d : list (string * V)) k' : In k' (dkeys (dpop k d)) <-> In k' (dkeys d) /\ k' <> k.
Proof.
  unfold dpop. induction d as [|[x v] d IH]; cbn [filter dkeys map fst].
  - tauto.
  - destruct (String.eqb_spec k x) as [->|N]; cbn [negb dkeys map fst In].
    + change (map fst (filter (fun kv => negb (String.eqb x (fst kv))) d)) with (dkeys (filter (fun kv : string * V => negb (String.eqb x (fst kv))) d)). rewrite IH. 
      split; [intros [A B]; auto|intros [[A|A] B]; [congruence|auto]].
    + change (map fst (filter (fun kv => negb (String.eqb k (fst kv))) d)) with (dkeys (filter (fun kv : string * V => negb (String.eqb k (fst kv))) d)). rewrite IH.
      split; [intros [<-|[A B]]; auto|intros [[A|A] B]; auto].
Qed.
Lemma secondary_item_spec d e : secondary_item d = Ok e <-> Secondary d e.
Proof.
  split.
  - destruct d as [| | | |s| |d]; cbn [secondary_item]; try discriminate.
    + unfold secondary_text. destruct (endswith "?" s) eqn:E; intros H; injection H as <-.
      * apply endswith_spec in E. destruct E as [r ->]. rewrite drop1. constructor.
      * constructor. intros q ->. rewrite endswith_app in E. discriminate.
    + unfold secondary_map. destruct (dget "pattern" d) as [p|] eqn:P; [|discriminate].
      destruct (dpop "required" (dpop "pattern" d)) as [|x l] eqn:R; [|discriminate]. intros H. injection H as <-. constructor.
      * auto.
      * intros k K. destruct (string_dec k "pattern") as [->|N]; [auto|right]. apply (proj1 (dpop_nil _ _) R). apply dkeys_dpop. auto.
      * rewrite dget_dpop_other by discriminate. destruct (dget "required" d); auto.
  - intros [p|p N|d' p r P K R]; cbn [secondary_item].
    + unfold secondary_text. rewrite endswith_app, drop1. auto.
    + unfold secondary_text. destruct (endswith "?" p) eqn:E; auto. apply endswith_spec in E. destruct E as [q E]. destruct (N q E).
    + unfold secondary_map. rewrite P. assert (E : dpop "required" (dpop "pattern" d') = []).
      { apply dpop_nil. intros k I. apply dkeys_dpop in I. destruct I as [I N]. destruct (K k I); [contradiction|auto]. }
      rewrite E. rewrite dget_dpop_other by discriminate. destruct R as [->|[-> ->]]; auto.
Qed.
Lemma secondary_item_err d e : secondary_item d = Err e -> e = ValidationException.
Proof.
  destruct d; cbn [secondary_item]; try congruence. unfold secondary_map. destruct (dget "pattern" d); [|congruence].
  destruct (dpop "required" (dpop "pattern" d)); congruence.
Qed.
Lemma secondary_dsl_items d : secondary_dsl d = mapM secondary_item (as_list d).
Proof. destruct d; cbn [secondary_dsl as_list mapM bind secondary_item]; auto. Qed.
Lemma mapM_fails {A B} (f : A -> result B) l e : (forall x e', f x = Err e' -> e' = e) -> (Exists (fun x => forall y, f x <> Ok y) l <-> mapM f l = Err e).
Proof.
  intros H. induction l as [|x l IH]; cbn [mapM].
  - split; [intros X; inversion X|discriminate].
  - destruct (f x) as [y|e'] eqn:E; cbn [bind].
    + split.
      * intros X. inversion X as [? ? Y|? ? Y]; subst; [destruct (Y y); auto|]. apply IH in Y. rewrite Y. auto.
      * destruct (mapM f l) as [ys|e'] eqn:M; cbn [bind]; [discriminate|]. intros X. right. apply IH. congruence.
    + split; [intros _; rewrite (H _ _ E); auto|]. intros X. left. intros y. congruence.
Qed.

(** ** Identifier maps *)
Lemma id_map_entry_spec s p k v e : (forall q, p = Some q -> q <> s) -> (id_map_entry s p k v = Ok e <-> Entry s p k v e).
Proof.
  intros N. unfold id_map_entry. split.
  - destruct v as [| | | | | |d].
    7:{ intros H. injection H as <-. constructor. }
    all: destruct p as [q|]; [|discriminate]; destruct (String.eqb_spec q "") as [|Q]; [discriminate|]; intros H;
      match type of H with Ok ?x = Ok ?y => assert (X : y = x) by congruence; rewrite X; clear X H end; rewrite dset_new by (cbn [dget]; destruct (String.eqb_spec s q); [destruct (N q eq_refl); auto|auto]); apply Entry_value; auto; discriminate.
  - intros [d|q w -> Q S D]; [auto|]. assert (X : dset s (JStr k) [(q, w)] = [(q, w); (s, JStr k)]).
    { rewrite dset_new; auto. cbn [dget]. destruct (String.eqb_spec s q); [congruence|auto]. }
    rewrite X. destruct (String.eqb_spec q ""); [contradiction|]. destruct w; auto. destruct (D d eq_refl).
Qed.
Lemma id_map_entry_err s p k v e : id_map_entry s p k v = Err e -> e = ValidationException.
Proof. unfold id_map_entry. destruct v; try discriminate; destruct p as [q|]; try congruence; destruct (String.eqb q ""); congruence. Qed.

(** ** Identifiers *)
Lemma clean_no c s : clean_char c = false -> clean s -> has_char c s = false.
Proof. intros C H. apply (has_char_sforall clean_char); auto. Qed.
Lemma clean_control s : clean s -> lstrip_control s = s.
Proof.
  destruct s as [|c s]; [auto|]. intros H. cbn [lstrip_control]. unfold clean in H. cbn [sforall] in H. apply andb_true_iff in H. destruct H as [H _].
  unfold clean_char in H. apply andb_true_iff in H. destruct H as [H _]. apply Nat.ltb_lt in H. destruct (Nat.leb_spec (nat_of_ascii c) 32); [lia|auto].
Qed.
Lemma clean_safe s : clean s -> sforall (fun c => negb (is_unsafe c)) s = true.
Proof.
  unfold clean. induction s as [|c s IH]; cbn [sforall]; auto. rewrite !andb_true_iff. intros [A B]. split; auto.
  unfold clean_char in A. apply andb_true_iff in A. destruct A as [A _]. apply Nat.ltb_lt in A. unfold is_unsafe.
  destruct (Ascii.eqb_spec c "009"); [subst; cbn in A; lia|]. destruct (Ascii.eqb_spec c "010"); [subst; cbn in A; lia|].
  destruct (Ascii.eqb_spec c "013"); [subst; cbn in A; lia|]. auto.
Qed.
Lemma clean_app a b : clean (a ++ b) <-> clean a /\ clean b.
Proof. unfold clean. rewrite sforall_app, andb_true_iff. tauto. Qed.

Lemma no_slashes (p : string) : startswith "//" p = false -> match p with String "/" (String "/" r) => (take_netloc r, drop_netloc r) | _ => ("", p) end = ("", p).
Proof.
  intros S. destruct p as [|c1 [|c2 p]]; [reflexivity| |].
  - destruct c1 as [[] [] [] [] [] [] [] []]; reflexivity.
  - destruct (Ascii.eqb_spec c1 "/") as [->|N1]; [destruct (Ascii.eqb_spec c2 "/") as [->|N2]; [destruct p; discriminate S|]|].
    + destruct c2 as [[] [] [] [] [] [] [] []]; try reflexivity. congruence.
    + destruct c1 as [[] [] [] [] [] [] [] []]; try reflexivity. congruence.
Qed.
Lemma urlsplit_name s : clean s -> startswith "//" s = false -> urlsplit s = SplitUrl "" "" s "" "".
Proof.
  intros C S. unfold urlsplit. rewrite clean_control, remove_unsafe_none by auto using clean_safe.
  rewrite (cut_none ":") by (apply clean_no; auto). rewrite no_slashes by auto. unfold before, after.
  rewrite (cut_none "#") by (apply clean_no; auto). rewrite (cut_none "?") by (apply clean_no; auto). auto.
Qed.
Lemma urlsplit_file p rest f : clean p -> sforall (fun c => negb (is_unsafe c)) f = true -> rest = "" /\ f = "" \/ rest = String "#" f ->
  urlsplit (file_base p ++ rest) = SplitUrl "file" "" ("/" ++ p) "" f.
Proof.
  intros C F R. unfold urlsplit, file_base.
  match goal with |- context [lstrip_control ?x] => change (lstrip_control x) with x end.
  assert (U : sforall (fun c => negb (is_unsafe c)) rest = true) by (destruct R as [[-> _]| ->]; [auto|cbn [sforall]; rewrite F; auto]).
  rewrite remove_unsafe_none by (cbn [append sforall]; rewrite sforall_app, (clean_safe _ C), U; reflexivity).
  change (("file:///" ++ p) ++ rest)%string with ("file:///" ++ (p ++ rest))%string. cbn [append].
  match goal with |- context [cut ":" (String "f" (String "i" (String "l" (String "e" (String ":" ?x)))))] =>
    change (cut ":" (String "f" (String "i" (String "l" (String "e" (String ":" x)))))) with (Some ("file", x)) end.
  cbv iota. change (is_alpha "f" && sforall is_scheme_char "ile") with true. cbv iota.
  change (smap lower_char "file") with "file". cbn [take_netloc drop_netloc Ascii.eqb orb Bool.eqb].
  unfold after, before. change (String "/" (p ++ rest)) with (String "/" p ++ rest)%string.
  assert (H : has_char "#" (String "/" p) = false) by (cbn [has_char]; rewrite (clean_no "#" p); auto).
  assert (Q : has_char "?" (String "/" p) = false) by (cbn [has_char]; rewrite (clean_no "?" p); auto).
  destruct R as [[-> ->]| ->].
  - rewrite sapp_nil_r, (cut_none "#"), (cut_none "?") by auto. auto.
  - rewrite cut_app by auto. rewrite (cut_none "?") by auto. auto.
Qed.
Lemma urlunsplit_file p f : startswith "/" p = false -> urlunsplit (SplitUrl "file" "" ("/" ++ p) "" f) = (file_base p ++ (if String.eqb f "" then "" else "#" ++ f))%string.
Proof.
  intros S. unfold urlunsplit. cbn [s_path s_netloc s_scheme s_query s_fragment].
  assert (E : startswith "//" ("/" ++ p) = false).
  { destruct p as [|c p]; [reflexivity|]. destruct (Ascii.eqb_spec c "/") as [->|N]; [destruct p; discriminate S|]. destruct c as [[] [] [] [] [] [] [] []]; try reflexivity. congruence. }
  rewrite E. change (String.eqb "file" "") with false. change (String.eqb "" "") with true. change (smem "file" uses_netloc) with true. cbn [negb andb orb].
  assert (A : startswith "/" ("/" ++ p) = true) by (destruct p; reflexivity). rewrite A. cbn [negb]. rewrite andb_false_r.
  unfold file_base. cbn [append]. destruct (String.eqb f ""); [rewrite sapp_nil_r; auto|auto].
Qed.

Section Expand.
Variables (urljoin : string -> string -> result string) (supported : list string).
Let expand_url := expand_url urljoin supported.

Lemma no_prefix (o : options) s : has_char ":" s = false ->
  match vocab o with [] => s | _ => if has_char ":" s then match dget (before ":" s) (vocab o) with Some v => (v ++ sdrop (String.length (before ":" s) + 1) s)%string | None => s end else s end = s.
Proof. intros ->. destruct (vocab o); auto. Qed.

Lemma expand_scoped p f s o : clean p -> startswith "/" p = false -> sforall (fun c => negb (is_unsafe c)) f = true -> name s ->
  expand_url s (file_base p ++ (if String.eqb f "" then "" else "#" ++ f)) o true false None =
  Ok (file_base p ++ "#" ++ (if String.eqb f "" then s else f ++ "/" ++ s))%string.
Proof.
  intros C S F (N & K & S1 & S2 & S3 & N1 & N2). unfold expand_url, LoaderModel.expand_url.
  apply String.eqb_neq in N1. apply String.eqb_neq in N2. rewrite N1, N2. cbn [orb andb]. cbv zeta.
  rewrite no_prefix by (apply clean_no; auto). rewrite urlsplit_name by auto. cbn [s_scheme s_fragment s_path]. change (String.eqb "" "") with true. cbn [negb andb orb].
  rewrite S2, S3. cbn [orb]. rewrite (urlsplit_file p _ f) by (auto; destruct (String.eqb_spec f "") as [->|]; auto).
  cbn [s_scheme s_fragment s_path s_netloc s_query bind]. change (String.eqb ("/" ++ p) "") with false. cbv iota.
  apply String.eqb_neq in N. destruct (String.eqb_spec f "") as [->|Nf].
  - rewrite urlunsplit_file by auto. rewrite N. auto.
  - rewrite urlunsplit_file by auto. assert (X : String.eqb (f ++ "/" ++ s) "" = false) by (destruct f; [congruence|reflexivity]). rewrite X. auto.
Qed.

Lemma pop_app (a : list string) b : pop (List.length b) (a ++ b) = a.
Proof.
  revert a. induction b as [|x b IH] using rev_ind; intros a; [rewrite app_nil_r; auto|].
  rewrite app_length, Nat.add_1_r. cbn [pop]. rewrite app_assoc, removelast_last. apply IH.
Qed.
Lemma split_join (ps : list string) : ps <> [] -> Forall (fun p => has_char "/" p = false) ps -> split_char "/" (sjoin "/" ps) = ps.
Proof.
  intros N F. induction F as [|p ps P F IH]; [congruence|]. destruct ps as [|q ps].
  - cbn [sjoin]. apply split_char_none. auto.
  - rewrite sjoin_cons by discriminate. cbn [append]. rewrite split_char_app by auto. rewrite IH by discriminate. auto.
Qed.
Lemma sjoin_nonempty (ps : list string) s : s <> "" -> sjoin "/" (ps ++ [s]) <> "".
Proof.
  intros N. destruct ps as [|p [|q ps]]; cbn [app]; [cbn [sjoin]; auto| |]; rewrite sjoin_cons by discriminate; destruct p; discriminate.
Qed.
Lemma expand_reference p scope dropped s o : clean p -> startswith "/" p = false -> scope ++ dropped <> [] ->
  Forall (fun c => has_char "/" c = false /\ sforall (fun c => negb (is_unsafe c)) c = true) (scope ++ dropped) -> sjoin "/" (scope ++ dropped) <> "" -> name s ->
  expand_url s (file_base p ++ "#" ++ sjoin "/" (scope ++ dropped)) o false false (Some (List.length dropped)) =
  Ok (file_base p ++ "#" ++ sjoin "/" (scope ++ [s]))%string.
Proof.
  intros C S NE F NJ (N & K & S1 & S2 & S3 & N1 & N2). unfold expand_url, LoaderModel.expand_url.
  apply String.eqb_neq in N1. apply String.eqb_neq in N2. rewrite N1, N2. cbn [orb andb]. cbv zeta.
  rewrite no_prefix by (apply clean_no; auto). rewrite urlsplit_name by auto. cbn [s_scheme s_fragment s_path]. change (String.eqb "" "") with true. cbn [negb andb orb].
  rewrite S2, S3. cbn [orb].
  assert (U : sforall (fun c => negb (is_unsafe c)) (sjoin "/" (scope ++ dropped)) = true).
  { clear NE NJ. induction F as [|x l [_ X] F IH]; [reflexivity|]. destruct l as [|y l]; [exact X|]. rewrite sjoin_cons by discriminate.
    rewrite !sforall_app, X, IH. reflexivity. }
  rewrite (urlsplit_file p _ (sjoin "/" (scope ++ dropped))) by auto.
  cbn [s_scheme s_fragment s_path s_netloc s_query bind].
  rewrite split_join; [|exact NE|eapply Forall_impl; [|exact F]; intros a [A _]; exact A]. rewrite pop_app. rewrite urlunsplit_file by auto.
  destruct (String.eqb_spec (sjoin "/" (scope ++ [s])) ""); [destruct (sjoin_nonempty scope s); auto|auto].
Qed.
(** An absolute identifier stands for itself *)
Lemma expand_absolute p f s base o sid sref : clean p -> sforall (fun c => negb (is_unsafe c)) f = true -> s = (file_base p ++ "#" ++ f)%string \/ s = file_base p ->
  smem "file" supported = true -> dget "file" (vocab o) = None -> expand_url s base o sid false sref = Ok s.
Proof.
  intros C F E SU V. assert (U : s_scheme (urlsplit s) = "file").
  { destruct E as [->|E]; [rewrite (urlsplit_file p _ f) by auto; auto|]. rewrite <- (sapp_nil_r (file_base p)) in E. rewrite E, (urlsplit_file p _ "") by auto. auto. }
  assert (B : exists r, s = ("file:" ++ r)%string) by (destruct E as [->| ->]; unfold file_base; cbn [append]; eauto). destruct B as [r B].
  unfold expand_url, LoaderModel.expand_url. assert (X : String.eqb s "@id" || String.eqb s "@type" = false) by (rewrite B; reflexivity). rewrite X. cbn [andb]. cbv zeta.
  assert (P : match vocab o with [] => s | _ => if has_char ":" s then match dget (before ":" s) (vocab o) with Some v => (v ++ sdrop (String.length (before ":" s) + 1) s)%string | None => s end else s end = s).
  { destruct (vocab o) eqn:VO; auto. rewrite <- VO in V |- *. assert (Q : before ":" s = "file") by (rewrite B; reflexivity). rewrite Q, V. destruct (has_char ":" s); auto. }
  rewrite P.
  rewrite U, SU. change (String.eqb "file" "") with false. cbn [negb andb orb bind]. auto.
Qed.
(** An expression stands for itself, unless it looks like a name with a known prefix *)
Lemma expand_expression s base o sid sref : startswith "$(" s = true \/ startswith "${" s = true -> dget (before ":" s) (vocab o) = None ->
  expand_url s base o sid false sref = Ok s.
Proof.
  intros E V. unfold expand_url, LoaderModel.expand_url.
  assert (X : String.eqb s "@id" || String.eqb s "@type" = false).
  { assert (Y : exists r, s = String "$" r) by (destruct E as [E|E]; apply startswith_spec in E; destruct E as [r ->]; cbn [append]; eauto). destruct Y as [r ->]. reflexivity. }
  rewrite X. cbn [andb]. cbv zeta.
  assert (P : match vocab o with [] => s | _ => if has_char ":" s then match dget (before ":" s) (vocab o) with Some v => (v ++ sdrop (String.length (before ":" s) + 1) s)%string | None => s end else s end = s).
  { destruct (vocab o) eqn:VO; auto. rewrite <- VO in V |- *. rewrite V. destruct (has_char ":" s); auto. }
  rewrite P.
  assert (Y : startswith "$(" s || startswith "${" s = true) by (destruct E as [-> | ->]; auto using orb_true_r).
  rewrite <- orb_assoc, Y, orb_true_r. auto.
Qed.
Lemma expand_term s base o sid sref : dmem s (vocab o) = true -> expand_url s base o sid true sref = Ok s.
Proof. intros M. unfold expand_url, LoaderModel.expand_url. rewrite M. cbn [andb]. destruct (String.eqb s "@id" || String.eqb s "@type"); auto. Qed.
End Expand.
