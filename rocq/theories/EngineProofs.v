(** * Proofs about version tests and image files *)
From Verif Require Import PyBase PyBaseProofs ImageModel ImageSpec ImageProofs.
From Coq Require Import NArith Lia.

(** ** Reading the version *)
Lemma version_match_contains s : forall b r, version_match b s = Some r -> contains " version " s = true.
Proof.
  induction s as [|c s IH]; intros b r H; cbn [version_match] in H; [discriminate|]. cbn [contains].
  destruct (startswith " version " (String c s)) eqn:E; [reflexivity|]. rewrite andb_false_r in H. cbn [orb].
  destruct (Ascii.eqb c c_nl); [discriminate|]. destruct (version_match _ s) eqn:V; [eapply IH; eauto|discriminate].
Qed.

Lemma contains_skip c p a b : has_char c a = false -> contains (String c p) (a ++ b) = contains (String c p) b.
Proof.
  induction a as [|d a IH]; cbn [has_char append contains]; auto. intros H. apply orb_false_elim in H. destruct H as [D H].
  rewrite IH by auto. unfold startswith. cbn [String.prefix]. destruct (ascii_dec c d) as [->|]; auto.
  rewrite Ascii.eqb_refl in D. discriminate.
Qed.

Lemma take_while_app f a b : sforall f a = true -> (forall c r, b = String c r -> f c = false) -> take_while f (a ++ b) = a.
Proof.
  induction a as [|c a IH]; cbn [sforall append take_while]; intros A B.
  - destruct b as [|c b]; auto. cbn. rewrite (B c b); auto.
  - apply andb_true_iff in A. destruct A as [-> A]. rewrite IH; auto.
Qed.

Lemma sforall_app f a b : sforall f (a ++ b) = sforall f a && sforall f b.
Proof. induction a; cbn; auto. rewrite IHa, andb_assoc. auto. Qed.
Lemma sforall_impl (f g : ascii -> bool) s : (forall c, f c = true -> g c = true) -> sforall f s = true -> sforall g s = true.
Proof. intros H. induction s; cbn; auto. rewrite !andb_true_iff. intros []; auto. Qed.
Lemma has_char_sforall f c s : f c = false -> sforall f s = true -> has_char c s = false.
Proof.
  intros F. induction s as [|d s IH]; cbn; auto. rewrite andb_true_iff. intros [A B]. rewrite IH by auto.
  destruct (Ascii.eqb_spec c d) as [->|]; [congruence|auto].
Qed.

Lemma numerals_chars ns : Forall numeral ns -> sforall is_version_char (sjoin "." ns) = true.
Proof.
  induction 1 as [|n ns [N1 N2] F IH]; auto.
  assert (X : sforall is_version_char n = true).
  { eapply sforall_impl; [|exact N2]. intros c H. unfold is_version_char. rewrite H. auto. }
  destruct ns as [|m ns]; [exact X|]. rewrite sjoin_cons by discriminate. rewrite sforall_app, X. cbn [andb append sforall]. 
  rewrite IH. reflexivity.
Qed.

Lemma split_numerals ns : ns <> [] -> Forall numeral ns -> split_char "." (sjoin "." ns) = ns.
Proof.
  intros NE F. induction F as [|n ns [N1 N2] F IH]; [congruence|].
  assert (X : has_char "." n = false) by (eapply has_char_sforall; [|exact N2]; reflexivity).
  destruct ns as [|m ns]; [apply split_char_none; auto|]. rewrite sjoin_cons by discriminate.
  change (n ++ "." ++ sjoin "." (m :: ns))%string with (n ++ String "." (sjoin "." (m :: ns)))%string.
  rewrite split_char_app by auto. rewrite IH by discriminate. auto.
Qed.

Lemma int_acc_value s : forall acc, int_acc acc s = (acc * 10 ^ N.of_nat (String.length s) + value s)%N.
Proof.
  induction s as [|c s IH]; intros acc; cbn [int_acc value String.length].
  - cbn. lia.
  - rewrite IH. unfold digit. rewrite Nat2N.inj_succ, N.pow_succ_r by lia. lia.
Qed.
Lemma mapM_int ns : Forall numeral ns -> mapM int_of ns = Ok (map value ns).
Proof.
  induction 1 as [|n ns [N1 _] F IH]; auto. cbn [mapM map]. unfold int_of at 1. apply String.eqb_neq in N1. rewrite N1.
  cbn [bind]. rewrite IH. cbn [bind]. rewrite int_acc_value. do 2 f_equal. 
Qed.

Lemma startswith_app p s : startswith p (p ++ s) = true.
Proof. induction p as [|c p IH]; [destruct s; auto|]. unfold startswith in *. cbn. destruct (ascii_dec c c); [auto|congruence]. Qed.

Lemma version_match_flavor flav : forall b rest, has_char c_nl flav = false -> (b ++ flav)%string <> "" ->
  (forall b', version_match b' (sdrop 1 rest) = None) ->
  forall v, v <> "" -> take_while is_version_char (sdrop 9 rest) = v -> startswith " version " rest = true ->
  version_match b (flav ++ rest) = Some ((b ++ flav)%string, v).
Proof.
  induction flav as [|c flav IH]; intros b rest N NE H v V T S.
  - rewrite sapp_nil_r in *. cbn [append]. destruct rest as [|d rest]; [discriminate|]. cbn [version_match].
    apply String.eqb_neq in NE. rewrite NE, S, T. cbn [negb andb]. cbn [sdrop] in H. rewrite H.
    replace (sdrop 0 rest) with rest in * by (destruct rest; auto).
    destruct v as [|x v]; [congruence|]. destruct (Ascii.eqb d c_nl); auto.
  - cbn [has_char] in N. apply orb_false_elim in N. destruct N as [C N]. cbn [append version_match]. rewrite Ascii.eqb_sym, C.
    rewrite IH with (v := v); auto.
    + rewrite sapp_assoc. reflexivity.
    + rewrite sapp_assoc. cbn. auto.
Qed.

Lemma lstrip_nonspace c r : is_space c = false -> lstrip (String c r) = String c r.
Proof. intros H. cbn. rewrite H. auto. Qed.
Lemma rstrip_line s c : (exists r, s = (r ++ String c "")%string) -> is_space c = false -> rstrip (s ++ String c_nl "") = s.
Proof.
  intros (r & ->) H. unfold rstrip. rewrite !srev_app_distr. cbn [srev srev_app append]. 
  change (lstrip (String c_nl (String c (srev r)))) with (lstrip (String c (srev r))). rewrite lstrip_nonspace by auto.
  rewrite srev_cons, srev_involutive. auto.
Qed.
Lemma last_char s : s <> "" -> exists r c, s = (r ++ String c "")%string.
Proof.
  induction s as [|c s IH]; [congruence|]. intros _. destruct s as [|d s]; [exists "", c; auto|].
  destruct IH as (r & x & E); [discriminate|]. exists (String c r), x. rewrite E. auto.
Qed.

Lemma Prints_match out flav v : Prints out flav v -> exists vs, version_match "" (strip out) = Some (flav, vs) /\
  mapM int_of (split_char "." vs) = Ok v.
Proof.
  intros (ns & suf & -> & NE & F & -> & NL & (c & r & FE & SP) & S1 & S2 & S3).
  exists (sjoin "." ns). split; [|rewrite split_numerals by auto; apply mapM_int; auto].
  assert (JNE : sjoin "." ns <> "").
  { destruct F as [|n ns [N1 _] F]; [congruence|]. destruct ns; [exact N1|]. rewrite sjoin_cons by discriminate.
    destruct n; [congruence|discriminate]. }
  assert (CH := numerals_chars _ F).
  assert (ST : strip (flav ++ " version " ++ sjoin "." ns ++ suf ++ String c_nl "") = (flav ++ " version " ++ sjoin "." ns ++ suf)%string).
  { unfold strip.
    assert (L : lstrip (flav ++ " version " ++ sjoin "." ns ++ suf ++ String c_nl "") = (flav ++ " version " ++ sjoin "." ns ++ suf ++ String c_nl "")%string)
      by (rewrite FE; apply lstrip_nonspace; auto).
    rewrite L. clear L.
    replace (flav ++ " version " ++ sjoin "." ns ++ suf ++ String c_nl "")%string with ((flav ++ " version " ++ sjoin "." ns ++ suf) ++ String c_nl "")%string
      by (rewrite !sapp_assoc; reflexivity).
    destruct suf as [|x suf].
    - rewrite sapp_nil_r. destruct (last_char _ JNE) as (a & z & E). eapply rstrip_line with (c := z).
      + exists (flav ++ " version " ++ a)%string. rewrite E, !sapp_assoc. auto.
      + rewrite E, sforall_app in CH. apply andb_true_iff in CH. destruct CH as [_ CH]. cbn [sforall] in CH. rewrite andb_true_r in CH.
        destruct z as [[] [] [] [] [] [] [] []]; vm_compute in CH |- *; congruence.
    - destruct (last_char (String x suf)) as (a & z & E); [discriminate|]. eapply rstrip_line with (c := z).
      + exists (flav ++ " version " ++ sjoin "." ns ++ a)%string. rewrite E, !sapp_assoc. auto.
      + eapply S2; eauto. }
  rewrite ST.
  change flav with ("" ++ flav)%string at 2.
  apply version_match_flavor; auto.
  - cbn. subst flav. discriminate.
  - intros b'. destruct (version_match b' _) as [p|] eqn:V; [|auto]. apply version_match_contains in V. exfalso.
    cbn [append sdrop] in V.
    change (contains " version " ("version" ++ (String " " (sjoin "." ns ++ suf))) = true) in V.
    rewrite contains_skip in V by reflexivity.
    cbn [contains] in V. apply orb_true_iff in V. destruct V as [V|V].
    + destruct (sjoin "." ns) as [|d j] eqn:J; [congruence|]. cbn [sforall] in CH. apply andb_true_iff in CH. destruct CH as [CH _].
      unfold startswith in V. cbn [append String.prefix] in V. destruct (ascii_dec " " " ") in V; [|congruence].
      destruct (ascii_dec "v" d) in V; [subst d; discriminate|discriminate].
    + rewrite contains_skip in V; [congruence|]. eapply has_char_sforall; [|exact CH]. reflexivity.
  - change (sdrop 9 (" version " ++ sjoin "." ns ++ suf)) with (sdrop 0 (sjoin "." ns ++ suf)).
    replace (sdrop 0 (sjoin "." ns ++ suf)) with (sjoin "." ns ++ suf)%string by (destruct (sjoin "." ns ++ suf)%string; auto).
    apply take_while_app; auto. intros d q E. destruct (S1 _ _ E) as [A B]. unfold is_version_char. rewrite A.
    destruct (Ascii.eqb_spec d "."); [congruence|auto].
  - apply startswith_app.
Qed.

(** ** The version tests *)
Section Versions.
Variable out : nat -> result string.

Definition known (w : world) (v : list N) (f : string) : Prop := version w = Some v /\ flavor w = f.

Lemma get_version_known w v f : known w v f -> get_version out w = (Ok (v, f), w).
Proof. intros [V F]. unfold get_version. rewrite V, F. auto. Qed.

(** Reading the version either fails or leaves it known, and changes nothing else. *)
Lemma get_version_spec w : exists r w', get_version out w = (r, w') /\ files w' = files w /\ commands w' = commands w /\
  match r with Ok (v, f) => known w' v f /\ v <> [] \/ version w = Some v | Err _ => version w' = None /\ version w = None end.
Proof.
  unfold get_version. destruct (version w) as [v|] eqn:V; [eexists; eexists; split; [reflexivity|]; auto|].
  destruct (out (asked w)) as [o|e]; [|eexists; eexists; split; [reflexivity|]; auto].
  destruct (version_match "" (strip o)) as [[f vs]|]; [|eexists; eexists; split; [reflexivity|]; auto].
  destruct (mapM int_of (split_char "." vs)) as [v|e] eqn:M; [|eexists; eexists; split; [reflexivity|]; auto].
  eexists; eexists; split; [reflexivity|]. cbn. split; auto. split; auto. left. split; [split; auto|].
  destruct (split_char "." vs) as [|s l] eqn:SC; [destruct (split_char_nonnil "." vs); auto|].
  cbn [mapM] in M. intros ->. destruct (int_of s); [|discriminate]. cbn [bind] in M. destruct (mapM int_of l); discriminate.
Qed.

Lemma known_after w p w' : get_version out w = (Ok p, w') -> known w' (fst p) (snd p).
Proof.
  intros H. unfold get_version in H. destruct (version w) eqn:V; [injection H as <- <-; split; auto|].
  destruct (out (asked w)); [|discriminate]. destruct (version_match "" (strip a)) as [[f vs]|]; [|discriminate].
  destruct (mapM int_of (split_char "." vs)); [|discriminate]. injection H as <- <-. split; auto.
Qed.

(** The five tests on a known version *)
Definition apptainer_ok (v : list N) (f : string) : bool :=
  String.eqb f "apptainer" && match v with a :: _ => N.leb 1 a | [] => false end.
Lemma apptainer_eq w v f : known w v f -> v <> [] -> is_apptainer_1_or_newer out w = (Ok (apptainer_ok v f), w).
Proof.
  intros K NE. unfold is_apptainer_1_or_newer, mbind. rewrite (get_version_known _ _ _ K). cbn [fst snd]. unfold apptainer_ok.
  destruct (String.eqb f "apptainer"); cbn [negb andb]; auto. destruct v; [congruence|]. reflexivity.
Qed.
Lemma v3_eq w a v f : known w (a :: v) f -> is_version_3_or_newer out w = (Ok (apptainer_ok (a :: v) f || N.leb 3 a), w).
Proof.
  intros K. unfold is_version_3_or_newer, mbind. rewrite (apptainer_eq _ _ _ K) by discriminate.
  destruct (apptainer_ok (a :: v) f); auto. rewrite (get_version_known _ _ _ K). reflexivity.
Qed.
Definition from3 (m : N) (a : N) (v : list N) : result bool :=
  if N.leb 4 a then Ok true else if N.eqb a 3 then match v with [] => Err IndexError | b :: _ => Ok (N.leb m b) end else Ok false.
Lemma v31_eq w a v f : known w (a :: v) f ->
  is_version_3_1_or_newer out w = ((if apptainer_ok (a :: v) f then Ok true else from3 1 a v), w).
Proof.
  intros K. unfold is_version_3_1_or_newer, mbind. rewrite (apptainer_eq _ _ _ K) by discriminate.
  destruct (apptainer_ok (a :: v) f); auto. rewrite (get_version_known _ _ _ K). cbn [fst at_ nth_error ret]. unfold from3.
  destruct (N.leb 4 a); auto. destruct (N.eqb a 3); auto. destruct v; auto.
Qed.
Lemma v34_eq w a v f : known w (a :: v) f ->
  is_version_3_4_or_newer out w = ((if apptainer_ok (a :: v) f then Ok true else from3 4 a v), w).
Proof.
  intros K. unfold is_version_3_4_or_newer, mbind. rewrite (apptainer_eq _ _ _ K) by discriminate.
  destruct (apptainer_ok (a :: v) f); auto. rewrite (get_version_known _ _ _ K). cbn [fst at_ nth_error ret]. unfold from3.
  destruct (N.leb 4 a); auto. destruct (N.eqb a 3); auto. destruct v; auto.
Qed.
Lemma v26_eq w a v f : known w (a :: v) f ->
  is_version_2_6 out w =
    ((if String.eqb f "singularity" || String.eqb f "singularity-ce"
      then if N.eqb a 2 then match v with [] => Err IndexError | b :: _ => Ok (N.eqb b 6) end else Ok false
      else Ok false), w).
Proof.
  intros K. unfold is_version_2_6, mbind. rewrite (get_version_known _ _ _ K). cbn [fst snd].
  rewrite <- negb_orb. destruct (String.eqb f "singularity" || String.eqb f "singularity-ce"); cbn [negb]; auto.
  cbn [at_ nth_error ret]. destruct (N.eqb a 2); auto. destruct v; auto.
Qed.

(** Each test first reads the version; what it then answers is what it answers once known. *)
Definition test_of (m : M bool) : Prop := forall w,
  match get_version out w with
  | (Err e, w') => m w = (Err e, w')
  | (Ok _, w') => m w = m w'
  end.
Lemma get_version_twice w p w' : get_version out w = (Ok p, w') -> get_version out w' = (Ok p, w').
Proof. intros H. pose proof (known_after _ _ _ H) as K. rewrite (get_version_known _ _ _ K). destruct p; auto. Qed.
Lemma bind_get {A} (k : list N * string -> M A) w :
  mbind (get_version out) k w = match get_version out w with (Err e, w') => (Err e, w') | (Ok p, w') => k p w' end.
Proof. unfold mbind. destruct (get_version out w) as [[]]; auto. Qed.
Lemma test_apptainer : test_of (is_apptainer_1_or_newer out).
Proof.
  intros w. unfold is_apptainer_1_or_newer. rewrite bind_get. destruct (get_version out w) as [[p|e] w'] eqn:G; auto.
  rewrite bind_get, (get_version_twice _ _ _ G). auto.
Qed.
Lemma test_bind (k : bool -> M bool) : test_of (mbind (is_apptainer_1_or_newer out) k).
Proof.
  intros w. pose proof (test_apptainer w) as T. destruct (get_version out w) as [[p|e] w'] eqn:G; unfold mbind; rewrite T; auto.
Qed.
Lemma test_26 : test_of (is_version_2_6 out).
Proof.
  intros w. unfold is_version_2_6. rewrite bind_get. destruct (get_version out w) as [[p|e] w'] eqn:G; auto.
  rewrite bind_get, (get_version_twice _ _ _ G). auto.
Qed.
Lemma test_3 : test_of (is_version_3_or_newer out). Proof. apply test_bind. Qed.
Lemma test_31 : test_of (is_version_3_1_or_newer out). Proof. apply test_bind. Qed.
Lemma test_34 : test_of (is_version_3_4_or_newer out). Proof. apply test_bind. Qed.
End Versions.

(** ** File names *)
Definition sep (c : ascii) : ascii := if Ascii.eqb c "/" || Ascii.eqb c ":" then "_"%char else c.
Lemma stem_smap s : replace_char ":" "_" (replace_char "/" "_" s) = smap sep s.
Proof.
  induction s as [|c s IH]; auto. cbn [replace_char smap]. unfold sep at 1. destruct (Ascii.eqb c "/") eqn:A.
  - cbn [append replace_char orb]. change (Ascii.eqb "_" ":") with false. cbn iota. rewrite IH. auto.
  - cbn [replace_char orb]. destruct (Ascii.eqb c ":") eqn:B; rewrite IH; auto.
Qed.
Lemma sjoin_empty l : sjoin "" l = fold_right append "" l.
Proof.
  unfold sjoin. induction l as [|a [|b l] IH]; auto.
  - cbn. rewrite sapp_nil_r. auto.
  - cbn [String.concat fold_right] in *. rewrite IH. auto.
Qed.
Lemma join_split_slash s : sjoin "" (split_char "/" s) = replace_char "/" "" s.
Proof.
  rewrite sjoin_empty. induction s as [|c s IH]; auto. cbn [split_char replace_char].
  destruct (Ascii.eqb c "/"); [cbn; auto|]. destruct (split_char "/" s) as [|x l] eqn:E; [destruct (split_char_nonnil "/" s); auto|].
  cbn [fold_right append] in *. rewrite IH. auto.
Qed.
Lemma replace_char_app c r a b : replace_char c r (a ++ b) = (replace_char c r a ++ replace_char c r b)%string.
Proof. induction a as [|d a IH]; cbn; auto. destruct (Ascii.eqb d c); rewrite IH; cbn; auto. rewrite sapp_assoc. auto. Qed.
Lemma has_char_replace_same c r s : has_char c r = false -> has_char c (replace_char c r s) = false.
Proof.
  intros H. induction s as [|d s IH]; auto. cbn [replace_char]. destruct (Ascii.eqb d c) eqn:E.
  - rewrite has_char_app, H, IH. auto.
  - cbn [has_char]. rewrite Ascii.eqb_sym, E, IH. auto.
Qed.
Lemma has_char_replace_other c d r s : has_char c r = false -> has_char c s = false -> has_char c (replace_char d r s) = false.
Proof.
  intros H. induction s as [|x s IH]; auto. cbn [replace_char has_char]. intros K. apply orb_false_elim in K. destruct K as [K1 K2].
  destruct (Ascii.eqb x d) eqn:E.
  - rewrite has_char_app, H, IH; auto.
  - cbn [has_char]. rewrite K1, IH; auto.
Qed.

Lemma has_char_sep s : has_char "/" (smap sep s) = false.
Proof.
  induction s as [|c s IH]; auto. cbn [smap has_char]. rewrite IH, orb_false_r. unfold sep.
  destruct (Ascii.eqb_spec c "/") as [->|]; auto. destruct (Ascii.eqb_spec c ":") as [->|]; auto. cbn [orb].
  apply Ascii.eqb_neq. auto.
Qed.
Lemma sep_sep c d : sep c = sep d <-> c = d \/ is_separator c /\ is_separator d.
Proof.
  unfold is_separator. split.
  - unfold sep. destruct (Ascii.eqb_spec c "/"), (Ascii.eqb_spec c ":"), (Ascii.eqb_spec d "/"), (Ascii.eqb_spec d ":"); cbn [orb]; intros E; subst; auto 6; try discriminate.
  - intros [->|[[->|[->| ->]] [->|[->| ->]]]]; reflexivity.
Qed.
Lemma smap_sep_same r1 : forall r2, smap sep r1 = smap sep r2 <-> SameUpToSeparators r1 r2.
Proof.
  induction r1 as [|c s IH]; intros [|d t]; cbn [smap]; split; intros H; try discriminate; try (inversion H; fail).
  - constructor.
  - reflexivity.
  - injection H as A B. constructor; [apply sep_sep; auto|apply IH; auto].
  - inversion H; subst. f_equal; [apply sep_sep; auto|apply IH; auto].
Qed.
Lemma slength_smap f s : String.length (smap f s) = String.length s.
Proof. induction s; cbn; auto. Qed.
Lemma app_same_r (a b c : string) : (a ++ c = b ++ c)%string -> a = b.
Proof.
  revert b. induction a as [|x a IH]; intros [|y b] H; auto.
  - exfalso. apply (f_equal String.length) in H. rewrite !slength_app in H. cbn in H. lia.
  - exfalso. apply (f_equal String.length) in H. rewrite !slength_app in H. cbn in H. lia.
  - cbn in H. injection H as -> H. f_equal. auto.
Qed.

(** References of the usual form are told apart. *)
Lemma sep_id c : c <> "/"%char -> c <> ":"%char -> sep c = c.
Proof. intros A B. unfold sep. apply Ascii.eqb_neq in A, B. rewrite A, B. auto. Qed.
Lemma has_char_cons_neg c d s : has_char c (String d s) = false -> c <> d /\ has_char c s = false.
Proof. cbn [has_char]. intros H. apply orb_false_elim in H. destruct H as [A B]. apply Ascii.eqb_neq in A. auto. Qed.

Definition no_us s := has_char "_" s = false.
Lemma usual_inj_tag t1 : forall t2, no_us t1 -> no_us t2 -> has_char "/" t1 = false -> has_char ":" t1 = false ->
  has_char "/" t2 = false -> has_char ":" t2 = false -> smap sep t1 = smap sep t2 -> t1 = t2.
Proof.
  unfold no_us. induction t1 as [|c s IH]; intros [|d t] A B C D E F H; auto; try discriminate.
  apply has_char_cons_neg in A, B, C, D, E, F. cbn [smap] in H. injection H as X Y. f_equal.
  - rewrite !sep_id in X; intuition congruence.
  - apply IH; tauto.
Qed.
Lemma tag_has_no_us t : no_us t -> has_char "/" t = false -> has_char ":" t = false -> has_char "_" (smap sep t) = false.
Proof.
  unfold no_us. induction t as [|c s IH]; intros A B C; auto. apply has_char_cons_neg in A, B, C. cbn [smap has_char].
  rewrite sep_id by intuition congruence. rewrite IH by tauto. rewrite orb_false_r. apply Ascii.eqb_neq. tauto.
Qed.
Lemma smap_app f a b : smap f (a ++ b) = (smap f a ++ smap f b)%string.
Proof. induction a; cbn; congruence. Qed.
Lemma usual_inj_path p1 : forall p2, no_us p1 -> no_us p2 -> has_char ":" p1 = false -> has_char ":" p2 = false ->
  forall t1 t2, no_us t1 -> no_us t2 -> has_char "/" t1 = false -> has_char ":" t1 = false ->
  has_char "/" t2 = false -> has_char ":" t2 = false ->
  smap sep (p1 ++ ":" ++ t1) = smap sep (p2 ++ ":" ++ t2) -> p1 = p2 /\ t1 = t2.
Proof.
  unfold no_us. induction p1 as [|c p1 IH]; intros [|d p2] A B C D t1 t2 E F G1 G2 H1 H2 X.
  - cbn [append smap] in X. injection X as X. split; auto. apply usual_inj_tag; auto.
  - exfalso. cbn [append smap] in X. injection X as _ X. assert (Y := tag_has_no_us _ E G1 G2). rewrite X, smap_app, has_char_app in Y.
    cbn [smap append has_char] in Y. change (sep ":") with "_"%char in Y. rewrite Ascii.eqb_refl, orb_true_r in Y. discriminate.
  - exfalso. cbn [append smap] in X. injection X as _ X. assert (Y := tag_has_no_us _ F H1 H2). rewrite <- X, smap_app, has_char_app in Y.
    cbn [smap append has_char] in Y. change (sep ":") with "_"%char in Y. rewrite Ascii.eqb_refl, orb_true_r in Y. discriminate.
  - apply has_char_cons_neg in A, B, C, D. cbn [append smap] in X. injection X as X Y.
    assert (c = d). { apply sep_sep in X. unfold is_separator in X. intuition congruence. }
    subst d. destruct (IH p2) with (t1 := t1) (t2 := t2); try tauto. subst. auto.
Qed.

Section Names.
Variable out : nat -> result string.

(** The ending of the name depends on the version alone. *)
Definition ending (v : list N) (f : string) : result string :=
  match v with
  | [] => Err IndexError
  | a :: r =>
      match (if String.eqb f "singularity" || String.eqb f "singularity-ce"
             then if N.eqb a 2 then match r with [] => Err IndexError | b :: _ => Ok (N.eqb b 6) end else Ok false
             else Ok false) with
      | Err e => Err e
      | Ok true => Ok ".img"
      | Ok false => if apptainer_ok (a :: r) f || N.leb 3 a then Ok ".sif" else Err GenericException
      end
  end.
Lemma name_known req w v f : known w v f -> v <> [] ->
  singularity_image_name out req w = (match ending v f with Ok s => Ok (smap sep req ++ s)%string | Err e => Err e end, w).
Proof.
  intros K NE. destruct v as [|a r]; [congruence|]. unfold singularity_image_name. rewrite stem_smap. cbn zeta. unfold mbind.
  rewrite (v26_eq _ _ _ _ _ K). cbn [ending].
  destruct (if String.eqb f "singularity" || String.eqb f "singularity-ce" then _ else _) as [[]|]; auto.
  rewrite (v3_eq _ _ _ _ _ K). destruct (apptainer_ok (a :: r) f || N.leb 3 a); auto. rewrite (get_version_known _ _ _ _ K). auto.
Qed.
Lemma name_unknown req w : version w = None ->
  singularity_image_name out req w =
    match get_version out w with (Err e, w') => (Err e, w') | (Ok _, w') => singularity_image_name out req w' end.
Proof.
  intros U. unfold singularity_image_name. unfold mbind at 1. pose proof (test_26 out w) as T.
  destruct (get_version out w) as [[p|e] w'] eqn:G; rewrite T; auto.
Qed.
(** [version w = Some []] cannot arise: reading a version gives at least one number. *)
Definition sane (w : world) : Prop := version w <> Some [].
Lemma name_spec req w r w' : sane w -> singularity_image_name out req w = (r, w') ->
  sane w' /\ files w' = files w /\ commands w' = commands w /\
  forall n, r = Ok n -> exists v f s, known w' v f /\ v <> [] /\ ending v f = Ok s /\ n = (smap sep req ++ s)%string.
Proof.
  intros SA H. destruct (version w) as [v|] eqn:V.
  - assert (v <> []) by (intros ->; apply SA; auto). rewrite (name_known req w v (flavor w)) in H by (auto; split; auto).
    injection H as <- <-. split; auto. split; auto. split; auto. intros n. destruct (ending v (flavor w)) as [s|] eqn:E; [|discriminate].
    intros X. injection X as <-. exists v, (flavor w), s. repeat split; auto.
  - rewrite name_unknown in H by auto. destruct (get_version_spec out w) as (g & w1 & G & F & C & S). rewrite G in H.
    destruct g as [[v f]|e].
    + destruct S as [[K NE]|S]; [|congruence]. rewrite (name_known req w1 v f) in H by auto. injection H as <- <-. split.
      { unfold sane. destruct K as [-> _]. congruence. }
      split; auto. split; auto. intros n. destruct (ending v f) as [s|] eqn:E; [|discriminate]. intros X. injection X as <-. exists v, f, s. auto.
    + injection H as <- <-. split; [unfold sane; destruct S as [-> _]; discriminate|]. split; auto. split; auto. discriminate.
Qed.
Lemma ending_ext v f s : ending v f = Ok s -> s = ".img" \/ s = ".sif".
Proof.
  destruct v as [|a r]; [discriminate|]. cbn [ending]. destruct (if String.eqb f "singularity" || String.eqb f "singularity-ce" then _ else _) as [[]|].
  - intros H; injection H; auto.
  - destruct (_ || _); [intros H; injection H; auto|discriminate].
  - discriminate.
Qed.
End Names.
