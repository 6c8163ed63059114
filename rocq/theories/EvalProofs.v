(** * Parameter references, evaluator and do_eval: lemmas *)
From Verif Require Import PyBase PyBaseProofs ExprModel ExprSpec ScanProofs InterpProofs
  EvalModel EvalSpec.

(** ** Matching a written segment *)
Definition no_word_head (s : string) : Prop :=
  match s with String c _ => is_word c = false | "" => True end.

Lemma word_ends_run n rest : n <> "" -> sforall is_word n = true -> no_word_head rest ->
  exists l, word_ends (n ++ rest)%string = rest :: l.
Proof.
  intros NE W H. revert NE W. induction n as [|c n IH]; [congruence|]. intros _ W.
  cbn [sforall] in W. apply andb_true_iff in W. destruct W as [W1 W2].
  cbn [append word_ends]. rewrite W1.
  destruct n as [|d n].
  - cbn [append]. destruct rest as [|x rest]; [exists []; reflexivity|].
    cbn [word_ends]. simpl in H. rewrite H. exists []. reflexivity.
  - destruct (IH ltac:(discriminate) W2) as [l E]. rewrite E. simpl. eauto.
Qed.

Lemma index_ends_run d rest : sforall is_digit d = true -> forall b, (d <> "" \/ b = true) ->
  index_ends b (d ++ String "]" rest)%string = [rest].
Proof.
  induction d as [|c d IH]; intros W b NE.
  - destruct NE as [NE| ->]; [congruence|]. reflexivity.
  - cbn [sforall] in W. apply andb_true_iff in W. destruct W as [W1 W2].
    cbn [append index_ends]. rewrite W1. apply IH; auto.
Qed.

Lemma quote_key_head q k : q <> "]"%char -> q <> c_bs ->
  contains (String q "]") (String q k) = false ->
  forall rest, match (quote_key q k ++ String q rest)%string with
               | String d _ => d <> "]"%char | "" => True end.
Proof.
  intros N1 N2 H rest. destruct k as [|c k].
  - simpl. auto.
  - cbn [quote_key]. destruct (Ascii.eqb_spec c q) as [->|N].
    + simpl. discriminate.
    + simpl. intros ->. cbn [contains] in H. apply orb_false_iff in H. destruct H as [H _].
      unfold startswith in H. rewrite <- not_true_iff_false in H. apply H.
      apply (startswith_app (String q "]") k).
Qed.

Lemma contains_tail p c k : contains p (String c k) = false -> contains p k = false.
Proof. cbn [contains]. intros H. apply orb_false_iff in H. tauto. Qed.

Lemma q_ends_run q k rest : q = c_sq \/ q = c_dq -> contains (String q "]") k = false ->
  forall b, (k <> "" \/ b = true) ->
  exists l, q_ends q b (quote_key q k ++ String q (String "]" rest))%string = rest :: l.
Proof.
  intros Hq. assert (N1 : q <> "]"%char) by (destruct Hq as [-> | ->]; discriminate).
  assert (N2 : q <> c_bs) by (destruct Hq as [-> | ->]; discriminate).
  induction k as [|c k IH]; intros H b NE.
  - destruct NE as [NE| ->]; [congruence|]. cbn [quote_key append q_ends].
    rewrite Ascii.eqb_refl. apply Ascii.eqb_neq in N2. rewrite N2. simpl. eauto.
  - pose proof (contains_tail _ _ _ H) as H'.
    destruct (IH H' true (or_intror eq_refl)) as [l E].
    cbn [quote_key]. destruct (Ascii.eqb_spec c q) as [->|N].
    + cbn [append]. cbn [q_ends].
      replace (Ascii.eqb c_bs q) with false by (symmetry; apply Ascii.eqb_neq; congruence).
      rewrite Ascii.eqb_refl. cbn [andb].
      replace (Ascii.eqb q c_bs) with false by (symmetry; apply Ascii.eqb_neq; congruence).
      rewrite E.
      pose proof (quote_key_head q k N1 N2 H (String "]" rest)) as HD.
      destruct (quote_key q k ++ String q (String "]" rest))%string as [|d s'].
      * simpl. eauto.
      * apply Ascii.eqb_neq in HD. rewrite Ascii.eqb_refl, HD. simpl. eauto.
    + cbn [append q_ends]. apply Ascii.eqb_neq in N. rewrite N, E. simpl. eauto.
Qed.

Lemma write_seg_nonempty s : exists c t, write_seg s = String c t /\ is_word c = false.
Proof. destruct s; simpl; eauto. Qed.

Lemma seg_ends_write s rest : plain_seg s -> no_word_head rest ->
  exists l, seg_ends (write_seg s ++ rest)%string = rest :: l.
Proof.
  intros P H. destruct s as [n|k|k|d]; cbn [plain_seg write_seg] in *.
  - destruct P as [P1 P2]. cbn [append seg_ends]. rewrite Ascii.eqb_refl.
    apply word_ends_run; auto.
  - destruct P as (P1 & P2 & _). cbn [append]. rewrite sapp_assoc. cbn [append seg_ends].
    replace (Ascii.eqb "[" ".") with false by reflexivity. rewrite Ascii.eqb_refl.
    replace (Ascii.eqb "'" c_sq) with true by reflexivity.
    apply (q_ends_run c_sq); auto.
  - destruct P as (P1 & P2 & _). cbn [append]. rewrite sapp_assoc. cbn [append seg_ends].
    replace (Ascii.eqb "[" ".") with false by reflexivity. rewrite Ascii.eqb_refl.
    replace (Ascii.eqb c_dq c_sq) with false by reflexivity.
    rewrite Ascii.eqb_refl. apply (q_ends_run c_dq); auto.
  - destruct P as (P1 & P2). cbn [append]. rewrite sapp_assoc. cbn [append].
    destruct d as [|c d]; [congruence|]. cbn [append seg_ends].
    replace (Ascii.eqb "[" ".") with false by reflexivity. rewrite Ascii.eqb_refl.
    pose proof P2 as P3. cbn [sforall] in P3. apply andb_true_iff in P3. destruct P3 as [P3 _].
    replace (Ascii.eqb c c_sq) with false
      by (symmetry; apply Ascii.eqb_neq; intros ->; discriminate).
    replace (Ascii.eqb c c_dq) with false
      by (symmetry; apply Ascii.eqb_neq; intros ->; discriminate).
    exists []. apply (index_ends_run (String c d) rest P2 false). left; discriminate.
Qed.

Lemma segment_match_write s rest : plain_seg s -> no_word_head rest ->
  segment_match (write_seg s ++ rest)%string = Some (write_seg s, rest).
Proof.
  intros P H. unfold segment_match. destruct (seg_ends_write s rest P H) as [l ->].
  rewrite slength_app, Nat.add_sub, stake_app_length. reflexivity.
Qed.

Lemma write_path_head p rest : no_word_head rest -> no_word_head (write_path p ++ rest)%string.
Proof.
  destruct p as [|s p]; auto. intros _. cbn [write_path].
  destruct (write_seg_nonempty s) as (c & t & E & W). rewrite E. simpl. auto.
Qed.

Lemma write_seg_length s : 1 <= String.length (write_seg s).
Proof. destruct (write_seg_nonempty s) as (c & t & E & _). rewrite E. simpl. lia. Qed.

Lemma segs_match_write p : Forall plain_seg p -> forall fuel,
  String.length (write_path p) < fuel -> segs_match fuel (write_path p ++ ")")%string = true.
Proof.
  induction 1 as [|s p P HP IH]; intros fuel L; (destruct fuel as [|fuel]; [lia|]).
  - simpl. reflexivity.
  - cbn [write_path segs_match]. apply orb_true_iff. left. rewrite sapp_assoc.
    destruct (seg_ends_write s (write_path p ++ ")")%string P) as [l ->].
    { apply write_path_head. reflexivity. }
    cbn [existsb]. rewrite IH; auto. cbn [write_path] in L. rewrite slength_app in L.
    pose proof (write_seg_length s). lia.
Qed.

Lemma word_run_app w rest : sforall is_word w = true -> no_word_head rest ->
  word_run (w ++ rest)%string = (w, rest).
Proof.
  induction w as [|c w IH]; intros W H.
  - destruct rest as [|x rest]; [reflexivity|]. simpl in *. rewrite H. reflexivity.
  - cbn [sforall] in W. apply andb_true_iff in W. destruct W as [W1 W2].
    cbn [append word_run]. rewrite W1, IH; auto.
Qed.

Lemma param_match_write root p : root <> "" -> sforall is_word root = true ->
  Forall plain_seg p -> param_match (write_ref root p) = Some root.
Proof.
  intros NE W P. unfold param_match, write_ref. cbn [append]. rewrite Ascii.eqb_refl.
  rewrite (word_run_app root _ W (write_path_head p ")" eq_refl)).
  apply String.eqb_neq in NE. rewrite NE.
  rewrite (segs_match_write p P); auto. rewrite slength_app. simpl. lia.
Qed.

(** ** Reading back a key *)
Lemma replace2_quote q k : q <> c_bs -> replace2 c_bs q (String q "") (quote_key q k) = k.
Proof.
  intros N. induction k as [|c k IH]; [reflexivity|]. cbn [quote_key].
  destruct (Ascii.eqb_spec c q) as [->|Nq].
  - cbn [replace2]. rewrite !Ascii.eqb_refl. cbn [andb append]. rewrite IH. reflexivity.
  - assert (E : replace2 c_bs q (String q "") (String c (quote_key q k))
                = String c (replace2 c_bs q (String q "") (quote_key q k))).
    { destruct k as [|d k]; [reflexivity|]. cbn [quote_key].
      destruct (Ascii.eqb_spec d q) as [->|Nd].
      - cbn [replace2]. replace (Ascii.eqb c_bs q) with false
          by (symmetry; apply Ascii.eqb_neq; congruence).
        rewrite andb_false_r. reflexivity.
      - cbn [replace2]. apply Ascii.eqb_neq in Nd. rewrite Nd, andb_false_r. reflexivity. }
    rewrite E, IH. reflexivity.
Qed.

Lemma replace2_absent a b r s : contains (String a (String b "")) s = false ->
  replace2 a b r s = s.
Proof.
  induction s as [|c s IH]; intros H; [reflexivity|].
  pose proof (contains_tail _ _ _ H) as H'. specialize (IH H').
  cbn [replace2]. destruct s as [|d s]; [reflexivity|].
  destruct (Ascii.eqb_spec c a) as [->|Na]; cbn [andb].
  - destruct (Ascii.eqb_spec d b) as [->|Nb].
    + exfalso. cbn [contains] in H. apply orb_false_iff in H. destruct H as [H _].
      rewrite <- not_true_iff_false in H. apply H.
      apply (startswith_app (String a (String b "")) s).
    + rewrite IH. reflexivity.
  - rewrite IH. reflexivity.
Qed.

Lemma contains_quote_key b q k : b <> q -> q <> c_bs -> b <> c_bs ->
  contains (String c_bs (String b "")) k = false ->
  contains (String c_bs (String b "")) (quote_key q k) = false.
Proof.
  intros Nb Nq Nbs H. induction k as [|c k IH]; [reflexivity|].
  pose proof (contains_tail _ _ _ H) as H'. specialize (IH H').
  cbn [quote_key]. destruct (Ascii.eqb_spec c q) as [->|N].
  - cbn [contains]. rewrite IH.
    assert (E1 : startswith (String c_bs (String b "")) (String c_bs (String q (quote_key q k))) = false).
    { unfold startswith. cbn [String.prefix]. destruct (ascii_dec c_bs c_bs); auto.
      destruct (ascii_dec b q); auto. congruence. }
    assert (E2 : startswith (String c_bs (String b "")) (String q (quote_key q k)) = false).
    { unfold startswith. cbn [String.prefix]. destruct (ascii_dec c_bs q); auto. congruence. }
    rewrite E1, E2. reflexivity.
  - cbn [contains]. rewrite IH, orb_false_r.
    cbn [contains] in H. apply orb_false_iff in H. destruct H as [H _].
    unfold startswith in *. cbn [String.prefix] in *. destruct (ascii_dec c_bs c) as [<-|]; auto.
    destruct k as [|d k]; [reflexivity|]. cbn [quote_key].
    destruct (Ascii.eqb_spec d q) as [->|Nd].
    + cbn [String.prefix]. destruct (ascii_dec b c_bs) as [->|]; auto. congruence.
    + cbn [String.prefix] in *. destruct (ascii_dec b d); auto. destruct k; discriminate.
Qed.

Lemma sdrop_last_2 a x y : sdrop_last 2 (a ++ String x (String y ""))%string = a.
Proof. apply (sdrop_last_app a (String x (String y ""))). Qed.

Lemma unquote_single k : contains (String c_bs (String c_dq "")) k = false ->
  unquote_key (write_seg (SQuoted k)) = k.
Proof.
  intros H. unfold unquote_key. cbn [write_seg append sdrop].
  rewrite (sdrop_last_2 (quote_key c_sq k) "'" "]").
  rewrite replace2_quote by discriminate. apply replace2_absent; auto.
Qed.

Lemma unquote_double k : contains (String c_bs (String c_sq "")) k = false ->
  unquote_key (write_seg (DQuoted k)) = k.
Proof.
  intros H. unfold unquote_key. cbn [write_seg append sdrop].
  rewrite (sdrop_last_2 (quote_key c_dq k) c_dq "]").
  rewrite (replace2_absent c_bs c_sq).
  - apply replace2_quote; discriminate.
  - apply contains_quote_key; auto; discriminate.
Qed.

(** ** Digits *)
Lemma int_acc_app acc d c :
  int_of_digits_acc acc (d ++ String c "")%string
  = 10 * int_of_digits_acc acc d + (nat_of_ascii c - 48).
Proof.
  revert acc; induction d as [|x d IH]; intros acc; [reflexivity|].
  cbn [append int_of_digits_acc]. apply IH.
Qed.

Lemma snoc_cases (s : string) : s = "" \/ exists t c, s = (t ++ String c "")%string.
Proof.
  induction s as [|x s [->|(t & c & ->)]]; auto.
  - right. exists "", x. reflexivity.
  - right. exists (String x t), c. reflexivity.
Qed.

Lemma Denotes_int d n : Denotes d n -> int_of_digits d = n.
Proof.
  induction 1 as [|d n c H IH Hc]; [reflexivity|].
  unfold int_of_digits in *. rewrite int_acc_app, IH. reflexivity.
Qed.

Lemma Denotes_total : forall k d, String.length d <= k -> sforall is_digit d = true ->
  Denotes d (int_of_digits d).
Proof.
  induction k as [|k IH]; intros d L W.
  - destruct d; [constructor|simpl in L; lia].
  - destruct (snoc_cases d) as [->|(t & c & ->)]; [constructor|].
    rewrite sforall_app in W. apply andb_true_iff in W. destruct W as [W1 W2].
    cbn [sforall] in W2. rewrite andb_true_r in W2.
    unfold int_of_digits. rewrite int_acc_app.
    apply (Den_snoc t (int_of_digits t) c); auto. apply IH; auto.
    rewrite slength_app in L. simpl in L. lia.
Qed.

Lemma int_Denotes d : sforall is_digit d = true -> Denotes d (int_of_digits d).
Proof. apply (Denotes_total (String.length d)). lia. Qed.

(** ** One step of regex_eval on a written path *)
Lemma write_path_nil p : write_path p = "" <-> p = [].
Proof.
  split; [|intros ->; reflexivity]. destruct p as [|s p]; auto. cbn [write_path].
  destruct (write_seg_nonempty s) as (c & t & -> & _). discriminate.
Qed.

Definition str_step (fuel : nat) (p : list seg) (v : json) (k : string) : result json :=
  match v with
  | JList l => if String.eqb k "length" && match p with [] => true | _ => false end
               then Ok (JInt (Z.of_nat (List.length l))) else Err WorkflowException
  | JDict d => match dget k d with
               | None => Err WorkflowException
               | Some x => regex_eval fuel (write_path p) x
               end
  | _ => Err WorkflowException
  end.

Definition int_step (fuel : nat) (p : list seg) (v : json) (key : nat) : result json :=
  match v with
  | JList l =>
      if negb (key =? 0) && (List.length l <=? key) then Err WorkflowException
      else match nth_error l key with
           | None => Err IndexError
           | Some x => regex_eval fuel (write_path p) x
           end
  | _ => Err WorkflowException
  end.

Lemma path_empty_test p : String.eqb (write_path p) "" = match p with [] => true | _ => false end.
Proof.
  destruct p as [|s p]; [reflexivity|]. apply String.eqb_neq. rewrite write_path_nil. discriminate.
Qed.

Lemma regex_step fuel s p v : plain_seg s ->
  regex_eval (S fuel) (write_path (s :: p)) v
  = match s with
    | Dot k | SQuoted k | DQuoted k => str_step fuel p v k
    | Index t => int_step fuel p v (int_of_digits t)
    end.
Proof.
  intros P. cbn [regex_eval].
  assert (NE : String.eqb (write_path (s :: p)) "" = false).
  { apply String.eqb_neq. rewrite write_path_nil. discriminate. }
  rewrite NE. cbn [write_path].
  rewrite (segment_match_write s (write_path p) P).
  2:{ rewrite <- (sapp_nil_r (write_path p)). apply write_path_head. exact I. }
  destruct s as [k|k|k|t].
  - cbn [write_seg append]. rewrite Ascii.eqb_refl. unfold str_step.
    destruct v; auto. rewrite path_empty_test. reflexivity.
  - destruct P as (P1 & P2 & P3).
    assert (U := unquote_single k P3).
    change (write_seg (SQuoted k)) with (String "[" (String "'" (quote_key c_sq k ++ "']")%string)) in *.
    rewrite U. unfold str_step. destruct v; auto. rewrite path_empty_test. reflexivity.
  - destruct P as (P1 & P2 & P3).
    assert (U := unquote_double k P3).
    change (write_seg (DQuoted k)) with (String "[" (String c_dq (quote_key c_dq k ++ String c_dq "]")%string)) in *.
    rewrite U. unfold str_step. destruct v; auto. rewrite path_empty_test. reflexivity.
  - destruct P as (P1 & P2). cbn [write_seg append].
    replace (Ascii.eqb "[" ".") with false by reflexivity.
    destruct t as [|c t]; [congruence|].
    assert (D : is_digit c = true) by (cbn [sforall] in P2; apply andb_true_iff in P2; tauto).
    cbn [append].
    replace (Ascii.eqb c c_sq) with false
      by (symmetry; apply Ascii.eqb_neq; intros ->; discriminate).
    replace (Ascii.eqb c c_dq) with false
      by (symmetry; apply Ascii.eqb_neq; intros ->; discriminate).
    cbn [orb].
    replace (sdrop_last 1 (String c (t ++ "]"))) with (String c t)
      by (symmetry; apply (sdrop_last_app (String c t) "]")).
    unfold int_step. destruct v; reflexivity.
Qed.

Lemma regex_nil fuel v : regex_eval (S fuel) "" v = Ok v.
Proof. reflexivity. Qed.

Lemma path_fuel s p fuel : String.length (write_path (s :: p)) < S fuel ->
  String.length (write_path p) < fuel.
Proof.
  cbn [write_path]. rewrite slength_app. pose proof (write_seg_length s). lia.
Qed.

Lemma regex_walk v p w : Walk v p w -> Forall plain_seg p -> forall fuel,
  String.length (write_path p) < fuel -> regex_eval fuel (write_path p) v = Ok w.
Proof.
  induction 1 as [v|d n v p w E H IH|d n v p w E H IH|d n v p w E H IH|l t n v p w D E H IH|l s Hs];
    intros P fuel L; (destruct fuel as [|fuel]; [lia|]).
  - apply regex_nil.
  - inversion P; subst. rewrite regex_step by auto. cbn [str_step]. rewrite E.
    apply IH; auto. eapply path_fuel; eauto.
  - inversion P; subst. rewrite regex_step by auto. cbn [str_step]. rewrite E.
    apply IH; auto. eapply path_fuel; eauto.
  - inversion P; subst. rewrite regex_step by auto. cbn [str_step]. rewrite E.
    apply IH; auto. eapply path_fuel; eauto.
  - inversion P; subst. rewrite regex_step by auto. cbn [int_step].
    rewrite (Denotes_int _ _ D), E.
    assert (F : List.length l <=? n = false).
    { apply Nat.leb_gt. apply nth_error_Some. congruence. }
    rewrite F, andb_false_r. apply IH; auto. eapply path_fuel; eauto.
  - inversion P; subst. rewrite regex_step by auto.
    destruct Hs as [->|[->| ->]]; reflexivity.
Qed.

(** the three outcomes, for every written path *)
Lemma regex_outcomes p : Forall plain_seg p -> forall fuel v,
  String.length (write_path p) < fuel ->
  (exists w, Walk v p w /\ regex_eval fuel (write_path p) v = Ok w) \/
  (ZeroOfEmpty v p /\ regex_eval fuel (write_path p) v = Err IndexError) \/
  ((~ exists w, Walk v p w) /\ ~ ZeroOfEmpty v p /\
   regex_eval fuel (write_path p) v = Err WorkflowException).
Proof.
  induction 1 as [|s p P HP IH]; intros fuel v L; (destruct fuel as [|fuel]; [lia|]).
  - left. exists v. split; [constructor|apply regex_nil].
  - pose proof (path_fuel s p fuel L) as L'.
    rewrite regex_step by auto.
    assert (STR : forall k, s = Dot k \/ s = SQuoted k \/ s = DQuoted k ->
      (exists w, Walk v (s :: p) w /\ str_step fuel p v k = Ok w) \/
      (ZeroOfEmpty v (s :: p) /\ str_step fuel p v k = Err IndexError) \/
      ((~ exists w, Walk v (s :: p) w) /\ ~ ZeroOfEmpty v (s :: p) /\
       str_step fuel p v k = Err WorkflowException)).
    { intros k Hk.
      assert (NI : forall t, s <> Index t) by (intros t ->; destruct Hk as [?|[?|?]]; discriminate).
      assert (KK : forall k', s = Dot k' \/ s = SQuoted k' \/ s = DQuoted k' -> k' = k).
      { intros k' Hk'. destruct Hk as [->|[->| ->]]; destruct Hk' as [E|[E|E]]; congruence. }
      unfold str_step. destruct v as [| | | | |l|d].
      1-5: (right; right; split; [|split; auto];
            [intros [w W]; inversion W|intros Z; inversion Z]).
      - destruct (String.eqb k "length" && match p with [] => true | _ => false end) eqn:C.
        + left. exists (JInt (Z.of_nat (List.length l))). split; auto.
          apply andb_true_iff in C. destruct C as [C1 C2]. apply String.eqb_eq in C1. subst k.
          destruct p; [|discriminate]. constructor; auto.
        + right. right. split; [|split; auto].
          * intros [w W]. inversion W as [| | | |l0 t n v0 p0 w0 D E W0|l0 s0 Hs]; subst.
            -- eapply NI; eauto.
            -- assert (k = "length") as -> by (symmetry; apply KK; auto).
               discriminate C.
          * intros Z. inversion Z; subst; eapply NI; eauto.
      - destruct (dget k d) as [x|] eqn:E.
        + destruct (IH fuel x L') as [(w & W & R)|[(Z & R)|(NW & NZ & R)]].
          * left. exists w. split; auto. destruct Hk as [->|[->| ->]]; econstructor; eauto.
          * right. left. split; auto. destruct Hk as [->|[->| ->]]; econstructor; eauto.
          * right. right. split; [|split; auto].
            -- intros [w W]. apply NW. exists w. clear - E Hk W.
               destruct Hk as [->|[->| ->]]; inversion W; subst;
                 match goal with H : Walk ?y p w |- _ => replace x with y by congruence; exact H end.
            -- intros Z. apply NZ. clear - E Hk Z.
               destruct Hk as [->|[->| ->]]; inversion Z; subst;
                 match goal with H : ZeroOfEmpty ?y p |- _ => replace x with y by congruence; exact H end.
        + right. right. split; [|split; auto].
          * intros [w W]. clear - E Hk W.
            destruct Hk as [->|[->| ->]]; inversion W; subst; congruence.
          * intros Z. clear - E Hk Z.
            destruct Hk as [->|[->| ->]]; inversion Z; subst; congruence. }
    destruct s as [k|k|k|t]; [apply STR; auto|apply STR; auto|apply STR; auto|].
    clear STR. destruct P as [P1 P2]. pose proof (int_Denotes t P2) as D.
    unfold int_step. destruct v as [| | | | |l|d].
    1-5,7: (right; right; split; [|split; auto];
            [intros [w W]; inversion W|intros Z; inversion Z]).
    assert (DD : forall n, Denotes t n -> n = int_of_digits t)
      by (intros n Hn; symmetry; apply Denotes_int; auto).
    destruct (nth_error l (int_of_digits t)) as [x|] eqn:E.
    + assert (F : List.length l <=? int_of_digits t = false).
      { apply Nat.leb_gt. apply nth_error_Some. congruence. }
      rewrite F, andb_false_r.
      destruct (IH fuel x L') as [(w & W & R)|[(Z & R)|(NW & NZ & R)]].
      * left. exists w. split; auto. econstructor; eauto.
      * right. left. split; auto. econstructor; eauto.
      * right. right. split; [|split; auto].
        -- intros [w W]. apply NW. exists w. inversion W as [| | | |l0 t0 n v0 p0 w0 D0 E0 W0|l0 s0 Hs]; subst.
           ++ rewrite (DD _ D0), E in E0. injection E0 as <-. auto.
           ++ destruct Hs as [?|[?|?]]; discriminate.
        -- intros Z. apply NZ. inversion Z as [t0 p0 D0| | | |l0 t0 n v0 p0 D0 E0 Z0]; subst.
           ++ destruct (int_of_digits t); discriminate.
           ++ rewrite (DD _ D0), E in E0. injection E0 as <-. auto.
    + assert (L2 : List.length l <= int_of_digits t) by (apply nth_error_None; auto).
      apply Nat.leb_le in L2. rewrite L2, andb_true_r.
      assert (NW : ~ exists w, Walk (JList l) (Index t :: p) w).
      { intros [w W]. inversion W as [| | | |l0 t0 n v0 p0 w0 D0 E0 W0|l0 s0 Hs]; subst.
        - rewrite (DD _ D0) in E0. congruence.
        - destruct Hs as [?|[?|?]]; discriminate. }
      destruct (Nat.eqb_spec (int_of_digits t) 0) as [Z|NZ]; cbn [negb].
      * right. left. split; auto. rewrite Z in *. apply Nat.leb_le in L2.
        destruct l; [|simpl in L2; lia]. constructor; auto.
      * right. right. split; auto. split; auto.
        intros ZE. inversion ZE as [t0 p0 D0| | | |l0 t0 n v0 p0 D0 E0 Z0]; subst.
        -- rewrite (DD _ D0) in *. congruence.
        -- rewrite (DD _ D0) in E0. congruence.
Qed.

(** ** Fuel: matching always consumes something *)
Lemma word_ends_shorter s r : In r (word_ends s) -> String.length r < String.length s.
Proof.
  induction s as [|c s IH]; simpl; [tauto|]. destruct (is_word c); [|simpl; tauto].
  rewrite in_app_iff. intros [H|[<-|[]]]; [specialize (IH H)|]; lia.
Qed.

Lemma q_ends_shorter q : forall k s b r, String.length s <= k -> In r (q_ends q b s) ->
  String.length r < String.length s.
Proof.
  induction k as [|k IH]; intros s b r L H; (destruct s as [|c s]; [destruct H|]);
    cbn [String.length] in *; [lia|].
  cbn [q_ends] in H. rewrite !in_app_iff in H. destruct H as [H|[H|H]].
  - destruct (Ascii.eqb c q); [destruct H|]. apply IH in H; lia.
  - destruct s as [|d s]; [destruct H|]. destruct (_ && _); [|destruct H].
    cbn [String.length] in *. apply IH in H; lia.
  - destruct s as [|d s]; [destruct H|]. destruct (_ && _); [|destruct H].
    destruct H as [<-|[]]. cbn [String.length]. lia.
Qed.

Lemma index_ends_shorter s : forall b r, In r (index_ends b s) -> String.length r < String.length s.
Proof.
  induction s as [|c s IH]; intros b r H; [destruct H|]. cbn [index_ends String.length] in *.
  destruct (is_digit c); [apply IH in H; lia|].
  destruct (_ && _); [|destruct H]. destruct H as [<-|[]]. lia.
Qed.

Lemma seg_ends_shorter s r : In r (seg_ends s) -> String.length r < String.length s.
Proof.
  destruct s as [|c s]; [intros []|]. cbn [seg_ends]. intros H. cbn [String.length].
  destruct (Ascii.eqb c "."); [apply word_ends_shorter in H; lia|].
  destruct (Ascii.eqb c "["); [|destruct H].
  destruct s as [|q s]; [destruct H|].
  destruct (Ascii.eqb q c_sq); [apply (q_ends_shorter _ _ _ _ _ (le_n _)) in H; cbn [String.length]; lia|].
  destruct (Ascii.eqb q c_dq); [apply (q_ends_shorter _ _ _ _ _ (le_n _)) in H; cbn [String.length]; lia|].
  apply index_ends_shorter in H. lia.
Qed.

Lemma regex_eval_errors fuel : forall s v e, String.length s < fuel ->
  regex_eval fuel s v = Err e -> e = WorkflowException \/ e = IndexError.
Proof.
  induction fuel as [|fuel IH]; intros s v e L H; [lia|].
  cbn [regex_eval] in H. destruct (String.eqb s ""); [discriminate|].
  unfold segment_match in H. destruct (seg_ends s) as [|rest l] eqn:E; [discriminate|].
  assert (LR : String.length rest < fuel).
  { assert (In rest (seg_ends s)) by (rewrite E; left; auto).
    apply seg_ends_shorter in H0. lia. }
  destruct (stake _ s) as [|c0 seg']; [injection H; auto|].
  assert (KS : forall key, match v with
      | JList l0 => if String.eqb key "length" && String.eqb rest ""
                   then Ok (JInt (Z.of_nat (List.length l0))) else Err WorkflowException
      | JDict d => match dget key d with
                   | None => Err WorkflowException | Some v0 => regex_eval fuel rest v0 end
      | _ => Err WorkflowException end = Err e -> e = WorkflowException \/ e = IndexError).
  { intros key K. destruct v; try (injection K; auto; fail).
    - destruct (String.eqb key "length" && String.eqb rest ""); [discriminate|injection K; auto].
    - destruct (dget key d); [eapply IH; eauto|injection K; auto]. }
  destruct (Ascii.eqb c0 "."); [eapply KS; eauto|].
  destruct seg' as [|c1 seg'']; [injection H; auto|].
  destruct (Ascii.eqb c1 c_sq || Ascii.eqb c1 c_dq); [eapply KS; eauto|].
  destruct v; try (injection H; auto; fail).
  match type of H with (if ?b then _ else _) = _ => destruct b end; [injection H; auto|].
  match type of H with match ?b with _ => _ end = _ => destruct b end;
    [eapply IH; eauto|injection H; auto].
Qed.

(** ** evaluator *)
Section EvalLemmas.
  Context {St : Type}.
  Variable js : St -> string -> string -> St * result json.


  Lemma root_word root : is_root root -> root <> "" /\ sforall is_word root = true /\
    String.eqb root "null" = false /\ is_cwl_parameter_context_key root = true.
  Proof. intros [->|[->| ->]]; repeat split; discriminate. Qed.

  Lemma rem_of_ref root p :
    sdrop_last 1 (sdrop (1 + String.length root) (write_ref root p)) = write_path p.
  Proof.
    unfold write_ref. cbn [append Nat.add sdrop]. rewrite sdrop_app_length.
    apply (sdrop_last_app (write_path p) ")").
  Qed.

  Lemma evaluator_ref obj jslib fullJS st root p v :
    is_root root -> dget root obj = Some v -> Forall plain_seg p ->
    evaluator js obj jslib fullJS st (write_ref root p)
    = match regex_eval (String.length (write_path p) + 1) (write_path p) v with
      | Err WorkflowException =>
          if fullJS then js st (write_ref root p) jslib else (st, Err JavascriptException)
      | r => (st, r)
      end.
  Proof.
    intros R V P. destruct (root_word root R) as (N & W & NN & K).
    unfold evaluator. rewrite (param_match_write root p N W P).
    rewrite NN, andb_false_r, K, V, rem_of_ref. reflexivity.
  Qed.

  Lemma evaluator_walk obj jslib fullJS st root p v w :
    is_root root -> dget root obj = Some v -> Forall plain_seg p -> Walk v p w ->
    evaluator js obj jslib fullJS st (write_ref root p) = (st, Ok w).
  Proof.
    intros R V P H. rewrite (evaluator_ref _ _ _ _ _ _ _ R V P).
    rewrite (regex_walk v p w H P) by lia. reflexivity.
  Qed.

  Lemma evaluator_null obj jslib fullJS st :
    evaluator js obj jslib fullJS st "(null)" = (st, Ok JNull).
  Proof. reflexivity. Qed.

  Lemma evaluator_nowhere obj jslib fullJS st root p v :
    is_root root -> dget root obj = Some v -> Forall plain_seg p ->
    ~ (exists w, Walk v p w) -> ~ ZeroOfEmpty v p ->
    evaluator js obj jslib fullJS st (write_ref root p)
    = if fullJS then js st (write_ref root p) jslib else (st, Err JavascriptException).
  Proof.
    intros R V P NW NZ. rewrite (evaluator_ref _ _ _ _ _ _ _ R V P).
    destruct (regex_outcomes p P (String.length (write_path p) + 1) v ltac:(lia))
      as [(w & W & _)|[(Z & _)|(_ & _ & ->)]].
    - exfalso; eauto.
    - exfalso; auto.
    - reflexivity.
  Qed.

  Lemma evaluator_zero_of_empty obj jslib fullJS st root p v :
    is_root root -> dget root obj = Some v -> Forall plain_seg p -> ZeroOfEmpty v p ->
    ~ (exists w, Walk v p w) /\
    evaluator js obj jslib fullJS st (write_ref root p) = (st, Err IndexError).
  Proof.
    intros R V P Z.
    assert (NW : ~ exists w, Walk v p w).
    { clear - Z. induction Z as [t p D|d n v p E Z IH|d n v p E Z IH|d n v p E Z IH|l t n v p D E Z IH];
        intros [w W]; inversion W; subst.
      - destruct n; discriminate.
      - match goal with H : _ \/ _ \/ _ |- _ => destruct H as [?|[?|?]]; discriminate end.
      - apply IH. exists w. replace v with v0 by congruence. auto.
      - apply IH. exists w. replace v with v0 by congruence. auto.
      - apply IH. exists w. replace v with v0 by congruence. auto.
      - apply IH. exists w.
        match goal with H : Denotes t ?m |- _ =>
          assert (m = n) as -> by (apply Denotes_int in H; apply Denotes_int in D; congruence) end.
        replace v with v0 by congruence. auto.
      - match goal with H : _ \/ _ \/ _ |- _ => destruct H as [?|[?|?]]; discriminate end. }
    split; auto. rewrite (evaluator_ref _ _ _ _ _ _ _ R V P).
    destruct (regex_outcomes p P (String.length (write_path p) + 1) v ltac:(lia))
      as [(w & W & _)|[(_ & ->)|(_ & NZ & _)]].
    - exfalso; eauto.
    - reflexivity.
    - exfalso; auto.
  Qed.
End EvalLemmas.

Lemma evaluator_no_js {St} (js1 js2 : St -> string -> string -> St * result json) obj jslib st ex :
  evaluator js1 obj jslib false st ex = evaluator js2 obj jslib false st ex /\
  fst (evaluator js1 obj jslib false st ex) = st.
Proof.
  unfold evaluator. destruct (param_match ex) as [w|]; [|auto].
  destruct (_ && _); [auto|]. destruct (is_cwl_parameter_context_key w); [|auto].
  destruct (dget w obj); [|auto]. destruct (regex_eval _ _ _) as [x|e]; [auto|]. destruct e; auto.
Qed.

Lemma evaluator_errors {St} (js : St -> string -> string -> St * result json) obj jslib fullJS st ex st' e :
  (forall k, is_cwl_parameter_context_key k = true -> dget k obj <> None) ->
  (forall st ex st' e, js st ex jslib = (st', Err e) -> is_Exception e = true) ->
  evaluator js obj jslib fullJS st ex = (st', Err e) -> is_Exception e = true.
Proof.
  intros ROOT JS. unfold evaluator.
  assert (FB : (if fullJS then js st ex jslib else (st, Err JavascriptException)) = (st', Err e) ->
               is_Exception e = true).
  { destruct fullJS; [apply JS|intros [= _ <-]; reflexivity]. }
  destruct (param_match ex) as [w|]; [|apply FB].
  destruct (_ && _); [discriminate|].
  destruct (is_cwl_parameter_context_key w) eqn:K; [|apply FB].
  specialize (ROOT w K). destruct (dget w obj) as [v|]; [|congruence].
  destruct (regex_eval _ _ v) as [x|x] eqn:R; [discriminate|].
  apply regex_eval_errors in R; [|lia]. destruct R as [->| ->]; [apply FB|intros [= _ <-]; reflexivity].
Qed.

(** ** items: where errors and state changes come from *)
Section ItemsLemmas.
  Context {St : Type}.
  Variable ev : St -> string -> St * result json.
  Variable txt : json -> string.
  Variable P : exn -> Prop.
  Hypothesis PS : P SubstitutionError.
  Hypothesis PE : forall st b st' e, ev st b = (st', Err e) -> P e.

  Lemma items_text_errors nr its : forall st st' e,
    items_text ev txt nr st its = (st', Err e) -> P e.
  Proof.
    induction its as [|i its IH]; intros st st' e H; [discriminate|].
    destruct i as [s|c|o|b|]; cbn [items_text] in H.
    - destruct (items_text ev txt nr st its) as [st1 [t|x]] eqn:E; cbn [bind] in H; [discriminate|].
      injection H as <- <-. eauto.
    - destruct (items_text ev txt nr st its) as [st1 [t|x]] eqn:E; cbn [bind] in H; [discriminate|].
      injection H as <- <-. eauto.
    - destruct (items_text ev txt nr st its) as [st1 [t|x]] eqn:E; cbn [bind] in H; [discriminate|].
      injection H as <- <-. eauto.
    - destruct (ev st b) as [st1 [v|x]] eqn:E1.
      + destruct (items_text ev txt nr st1 its) as [st2 [t|x]] eqn:E; cbn [bind] in H; [discriminate|].
        injection H as <- <-. eauto.
      + injection H as <- <-. eauto.
    - injection H as <- <-. auto.
  Qed.

  Lemma items_value_cases nr st its :
    (exists b, its = [Lit ""; Ref b; Lit ""] /\ items_value ev txt nr st its = ev st b) \/
    ((forall b, its <> [Lit ""; Ref b; Lit ""]) /\
     items_value ev txt nr st its =
     let (st', r) := items_text ev txt nr st its in (st', do t <- r; Ok (JStr t))).
  Proof.
    unfold items_value.
    destruct its as [|i1 its]; [right; split; [discriminate|reflexivity]|].
    destruct i1 as [s1| | | |]; try (right; split; [discriminate|reflexivity]).
    destruct s1 as [|c1 s1]; [|right; split; [discriminate|reflexivity]].
    destruct its as [|i2 its]; [right; split; [discriminate|reflexivity]|].
    destruct i2 as [ | | |b|]; try (right; split; [discriminate|reflexivity]).
    destruct its as [|i3 its]; [right; split; [discriminate|reflexivity]|].
    destruct i3 as [s3| | | |]; try (right; split; [discriminate|reflexivity]).
    destruct s3 as [|c3 s3]; [|right; split; [discriminate|reflexivity]].
    destruct its as [|i4 its]; [|right; split; [discriminate|reflexivity]].
    left. eauto.
  Qed.

  Lemma items_value_errors nr st its st' e :
    items_value ev txt nr st its = (st', Err e) -> P e.
  Proof.
    destruct (items_value_cases nr st its) as [(b & _ & ->)|(_ & ->)]; [eauto|].
    destruct (items_text ev txt nr st its) as [st1 [t|x]] eqn:E; cbn [bind]; [discriminate|].
    intros [= <- <-]. eapply items_text_errors; eauto.
  Qed.
End ItemsLemmas.

Lemma items_text_ext {St} (ev1 ev2 : St -> string -> St * result json) txt nr its :
  (forall st b, ev1 st b = ev2 st b) ->
  forall st, items_text ev1 txt nr st its = items_text ev2 txt nr st its.
Proof.
  intros H. induction its as [|i its IH]; intros st; [reflexivity|].
  destruct i; cbn [items_text]; rewrite ?IH; auto.
  rewrite H. destruct (ev2 st body) as [st1 [v|e]]; auto. rewrite IH. reflexivity.
Qed.

Lemma items_text_state {St} (ev : St -> string -> St * result json) txt nr its :
  (forall st b, fst (ev st b) = st) ->
  forall st, fst (items_text ev txt nr st its) = st.
Proof.
  intros H. induction its as [|i its IH]; intros st; [reflexivity|].
  destruct i; cbn [items_text].
  1-3: (specialize (IH st); destruct (items_text ev txt nr st its); auto).
  - specialize (H st body). destruct (ev st body) as [st1 [v|e]]; cbn [fst] in H; subst; auto.
    specialize (IH st). destruct (items_text ev txt nr st its); auto.
  - reflexivity.
Qed.

Lemma items_value_ext {St} (ev1 ev2 : St -> string -> St * result json) txt nr its st :
  (forall st b, ev1 st b = ev2 st b) ->
  items_value ev1 txt nr st its = items_value ev2 txt nr st its.
Proof.
  intros H. destruct (items_value_cases ev1 txt nr st its) as [(b & -> & ->)|(N & ->)].
  - rewrite H. reflexivity.
  - destruct (items_value_cases ev2 txt nr st its) as [(b & E & _)|(_ & ->)].
    + exfalso; eapply N; eauto.
    + rewrite (items_text_ext ev1 ev2); auto.
Qed.

Lemma items_value_state {St} (ev : St -> string -> St * result json) txt nr its st :
  (forall st b, fst (ev st b) = st) -> fst (items_value ev txt nr st its) = st.
Proof.
  intros H. destruct (items_value_cases ev txt nr st its) as [(b & _ & ->)|(_ & ->)]; [auto|].
  pose proof (items_text_state ev txt nr its H st) as E.
  destruct (items_text ev txt nr st its); auto.
Qed.

(** ** do_eval *)

Lemma escaping_old v : old_rules_version v -> escaping_of_version v = esc_code false.
Proof. intros [->|[->|[->|[->|[->| ->]]]]]; reflexivity. Qed.

Lemma escaping_new v : ~ old_rules_version v -> escaping_of_version v = esc_code true.
Proof.
  intros H. unfold escaping_of_version. destruct (smem v OLD_ESCAPE_CWL_VERSIONS) eqn:E; auto.
  apply smem_In in E. exfalso. apply H. unfold old_rules_version.
  repeat (destruct E as [<-|E]; [tauto|]). destruct E.
Qed.

Lemma expressionLib_wf r : wf_requirement r -> expressionLib r = Ok (lib_of r).
Proof.
  intros [_ [H|[l H]]]; unfold expressionLib, lib_of; rewrite H; auto.
  induction l as [|x l IH]; [reflexivity|]. cbn [map mapM bind flat_map]. 
  assert (E : mapM (fun x => match x with JStr s => Ok s | _ => Err TypeError end) (map JStr l)
              = Ok (flat_map (fun x => match x with JStr s => [s] | _ => [] end) (map JStr l))).
  { clear. induction l as [|y l IH]; [reflexivity|]. cbn [map mapM bind flat_map].
    rewrite IH. reflexivity. }
  rewrite E. reflexivity.
Qed.

Section FindJs.
  Variable dumps4 : json -> string.
  Lemma find_js_none vars rs : Forall wf_requirement rs -> Forall (fun r => ~ is_js_requirement r) rs ->
    find_js dumps4 vars rs = Ok (false, "").
  Proof.
    induction 1 as [|r rs W HW IH]; intros H; [reflexivity|]. inversion H; subst.
    cbn [find_js]. destruct W as [[c E] _]. rewrite E.
    destruct (json_eqb (JStr c) (JStr "InlineJavascriptRequirement")) eqn:J.
    - exfalso. apply H2. apply json_eqb_eq in J. unfold is_js_requirement. congruence.
    - auto.
  Qed.

  Lemma find_js_last vars pre r post : wf_requirement r -> is_js_requirement r ->
    Forall wf_requirement pre -> Forall (fun r => ~ is_js_requirement r) pre ->
    find_js dumps4 vars (pre ++ r :: post) = Ok (true, jshead dumps4 (lib_of r) vars).
  Proof.
    intros W J. induction pre as [|x pre IH]; intros WP NP.
    - cbn [app find_js]. rewrite J, json_eqb_refl. rewrite (expressionLib_wf r W). reflexivity.
    - inversion WP; inversion NP; subst. cbn [app find_js].
      destruct H1 as [[c E] _]. rewrite E.
      destruct (json_eqb (JStr c) (JStr "InlineJavascriptRequirement")) eqn:JJ; auto.
      exfalso. apply H5. apply json_eqb_eq in JJ. unfold is_js_requirement. congruence.
  Qed.

  Lemma find_js_wf vars rs : Forall wf_requirement rs -> exists b l, find_js dumps4 vars rs = Ok (b, l).
  Proof.
    induction 1 as [|r rs W HW IH]; [eexists _, _; reflexivity|]. cbn [find_js].
    pose proof (expressionLib_wf r W) as L. destruct W as [[c E] _]. rewrite E.
    destruct (json_eqb _ _); [rewrite L; eexists _, _; reflexivity|auto].
  Qed.
End FindJs.

Lemma root_vars_roots inp ctx out tmp res k :
  is_cwl_parameter_context_key k = true -> dget k (root_vars inp ctx out tmp res) <> None.
Proof.
  unfold is_cwl_parameter_context_key. rewrite smem_In. intros [<-|[<-|[<-|[]]]]; discriminate.
Qed.

Section DoEval.
  Context {St : Type}.
  Variable js : St -> string -> string -> St * result json.
  Variable dumps dumps4 : json -> string.
  Variable loads : string -> string.
  Hypothesis LIB : json_library_ok dumps loads.


  Lemma do_eval_meaning st s inp reqs out tmp res ctx (sw : bool) ver fullJS jslib nr its :
    contains "$(" s || contains "${" s = true ->
    find_js dumps4 (root_vars inp ctx out tmp res) (rev reqs) = Ok (fullJS, jslib) ->
    escaping_of_version ver = esc_code nr ->
    Items nr (if sw then strip s else s) its ->
    do_eval js dumps dumps4 loads st (JStr s) inp reqs out tmp res ctx sw ver
    = as_workflow_failure (items_value (evaluator js (root_vars inp ctx out tmp res) jslib fullJS)
              (value_text dumps) nr st its).
  Proof.
    intros N F E I. unfold do_eval, needs_parsing. rewrite N, F, E.
    rewrite (interpolate_items _ _ _ LIB nr sw s its st I).
    unfold as_workflow_failure. destruct (items_value _ _ nr st its) as [st1 [v|e]]; reflexivity.
  Qed.

  Lemma do_eval_passthrough st ex inp reqs out tmp res ctx sw ver :
    (forall s, ex = JStr s -> contains "$(" s = false /\ contains "${" s = false) ->
    do_eval js dumps dumps4 loads st ex inp reqs out tmp res ctx sw ver = (st, Ok ex).
  Proof.
    intros H. destruct ex; auto. unfold do_eval, needs_parsing.
    destruct (H s eq_refl) as [-> ->]. reflexivity.
  Qed.

  Lemma rules_of ver : exists nr, escaping_of_version ver = esc_code nr.
  Proof.
    unfold escaping_of_version. destruct (smem _ _); [exists false|exists true]; reflexivity.
  Qed.

  Lemma do_eval_failures st ex inp reqs out tmp res ctx sw ver st' e :
    Forall wf_requirement reqs ->
    (forall st x l st' e, js st x l = (st', Err e) -> is_Exception e = true) ->
    do_eval js dumps dumps4 loads st ex inp reqs out tmp res ctx sw ver = (st', Err e) ->
    e = WorkflowException.
  Proof.
    intros W JS H. destruct ex; try discriminate.
    destruct (contains "$(" s || contains "${" s) eqn:N.
    2:{ unfold do_eval, needs_parsing in H. rewrite N in H. discriminate. }
    destruct (find_js_wf dumps4 (root_vars inp ctx out tmp res) (rev reqs)) as (b & l & F).
    { apply Forall_rev. auto. }
    destruct (rules_of ver) as [nr R].
    destruct (Items_total nr (if sw then strip s else s)) as [its I].
    rewrite (do_eval_meaning st s inp reqs out tmp res ctx sw ver b l nr its N F R I) in H.
    destruct (items_value _ _ nr st its) as [st1 [v|x]] eqn:E; cbn [as_workflow_failure] in H; [discriminate|].
    assert (X : is_Exception x = true).
    { eapply (items_value_errors _ _ (fun x => is_Exception x = true)); [reflexivity| |exact E].
      intros st2 ex2 st3 e3. apply evaluator_errors.
      - intros k. apply root_vars_roots.
      - intros ? ? ? ?. apply JS. }
    rewrite X in H. injection H; auto.
  Qed.
End DoEval.

Lemma do_eval_no_js {St} (js1 js2 : St -> string -> string -> St * result json)
      dumps dumps4 loads st ex inp reqs out tmp res ctx sw ver :
  json_library_ok dumps loads ->
  Forall wf_requirement reqs -> Forall (fun r => ~ is_js_requirement r) reqs ->
  do_eval js1 dumps dumps4 loads st ex inp reqs out tmp res ctx sw ver
  = do_eval js2 dumps dumps4 loads st ex inp reqs out tmp res ctx sw ver /\
  fst (do_eval js1 dumps dumps4 loads st ex inp reqs out tmp res ctx sw ver) = st.
Proof.
  intros LIB W N. destruct ex; auto.
  destruct (contains "$(" s || contains "${" s) eqn:NP.
  2:{ unfold do_eval, needs_parsing. rewrite NP. auto. }
  assert (F : find_js dumps4 (root_vars inp ctx out tmp res) (rev reqs) = Ok (false, "")).
  { apply find_js_none; apply Forall_rev; auto. }
  destruct (rules_of ver) as [nr R].
  destruct (Items_total nr (if sw then strip s else s)) as [its I].
  rewrite (do_eval_meaning js1 _ _ _ LIB st s inp reqs out tmp res ctx sw ver _ _ nr its NP F R I).
  rewrite (do_eval_meaning js2 _ _ _ LIB st s inp reqs out tmp res ctx sw ver _ _ nr its NP F R I).
  split.
  - f_equal.
  - assert (E := items_value_state (evaluator js1 (root_vars inp ctx out tmp res) "" false)
                   (value_text dumps) nr its st).
    destruct (items_value _ _ nr st its) as [st1 [v|e]]; cbn [as_workflow_failure fst] in *; apply E;
      intros; apply (evaluator_no_js js1 js1).
Qed.

(** ** A written path is a reference for the scanner *)

Lemma Balanced_app o c a b : bracket o c -> Balanced o c a -> Balanced o c b -> Balanced o c (a ++ b)%string.
Proof.
  intros B Ha Hb. induction Ha as [|x s N1 N2 N3 N4 Ha IH|a s Ha1 IH1 Ha2 IH2|q a s Hq Q Ha IH]; auto.
  - cbn [append]. apply B_char; auto.
  - cbn [append]. rewrite sapp_assoc. cbn [append]. apply B_nest; auto.
  - cbn [append]. rewrite sapp_assoc. cbn [append]. apply B_quote; auto.
Qed.

Lemma Balanced_chars o c s :
  sforall (fun x => negb (Ascii.eqb x o || Ascii.eqb x c || Ascii.eqb x c_sq || Ascii.eqb x c_dq)) s = true ->
  Balanced o c s.
Proof.
  induction s as [|x s IH]; intros H; [constructor|]. cbn [sforall] in H.
  apply andb_true_iff in H. destruct H as [H1 H2]. apply negb_true_iff in H1.
  rewrite !orb_false_iff in H1. destruct H1 as [[[E1 E2] E3] E4].
  apply Ascii.eqb_neq in E1, E2, E3, E4. apply B_char; auto.
Qed.

Lemma sforall_impl (p q : ascii -> bool) s : (forall c, p c = true -> q c = true) ->
  sforall p s = true -> sforall q s = true.
Proof.
  intros H. induction s as [|c s IH]; auto. cbn [sforall]. rewrite !andb_true_iff.
  intros [H1 H2]. auto.
Qed.

Lemma word_safe c : is_word c = true ->
  negb (Ascii.eqb c "(" || Ascii.eqb c ")" || Ascii.eqb c c_sq || Ascii.eqb c c_dq) = true.
Proof.
  intros H. apply negb_true_iff. rewrite !orb_false_iff, !Ascii.eqb_neq.
  repeat split; intros ->; discriminate.
Qed.

Lemma digit_safe c : is_digit c = true ->
  negb (Ascii.eqb c "(" || Ascii.eqb c ")" || Ascii.eqb c c_sq || Ascii.eqb c c_dq) = true.
Proof.
  intros H. apply negb_true_iff. rewrite !orb_false_iff, !Ascii.eqb_neq.
  repeat split; intros ->; discriminate.
Qed.

Lemma Quoted_key q k : q <> c_bs -> has_char c_bs k = false -> Quoted q (quote_key q k).
Proof.
  intros N. induction k as [|c k IH]; intros H; [constructor|].
  cbn [has_char] in H. apply orb_false_iff in H. destruct H as [H1 H2].
  cbn [quote_key]. destruct (Ascii.eqb_spec c q) as [->|Nq].
  - apply Q_esc; auto.
  - apply Q_char; auto. apply Ascii.eqb_neq in H1. congruence.
Qed.

Lemma paren_bracket : bracket "(" ")".
Proof. left; auto. Qed.

Lemma Balanced_seg s : plain_seg s -> no_bs s -> Balanced "(" ")" (write_seg s).
Proof.
  destruct s as [n|k|k|d]; cbn [plain_seg no_bs write_seg]; intros P N.
  - apply Balanced_chars. cbn [append sforall]. apply andb_true_iff. split; [reflexivity|].
    eapply sforall_impl; [apply word_safe|tauto].
  - cbn [append].
    apply B_char; try discriminate.
    change (String "'" (quote_key c_sq k ++ "']"))%string
      with (String c_sq (quote_key c_sq k ++ String c_sq "]"))%string.
    apply B_quote; auto.
    + apply Quoted_key; auto; discriminate.
    + apply B_char; try discriminate. constructor.
  - apply B_char; try discriminate. apply B_quote; auto.
    + apply Quoted_key; auto; discriminate.
    + apply B_char; try discriminate. constructor.
  - cbn [append]. apply B_char; try discriminate.
    apply Balanced_app; [apply paren_bracket| |].
    + apply Balanced_chars. eapply sforall_impl; [apply digit_safe|tauto].
    + apply B_char; try discriminate. constructor.
Qed.

Lemma Balanced_path p : Forall plain_seg p -> Forall no_bs p -> Balanced "(" ")" (write_path p).
Proof.
  induction 1 as [|s p P HP IH]; intros N; [constructor|]. inversion N; subst.
  cbn [write_path]. apply Balanced_app; [apply paren_bracket|apply Balanced_seg|]; auto.
Qed.

Lemma write_ref_Reference root p : is_root root -> Forall plain_seg p -> Forall no_bs p ->
  Reference (String "$" (write_ref root p)).
Proof.
  intros R P N. unfold write_ref. cbn [append]. rewrite <- sapp_assoc.
  apply (Ref_intro "(" ")" (root ++ write_path p) paren_bracket).
  apply Balanced_app; [apply paren_bracket| |apply Balanced_path; auto].
  destruct (root_word root R) as (_ & W & _).
  apply Balanced_chars. eapply sforall_impl; [apply word_safe|auto].
Qed.

Lemma rstrip_snoc a c : is_space c = false -> rstrip (a ++ String c "")%string = (a ++ String c "")%string.
Proof.
  intros H. unfold rstrip. rewrite srev_app_distr.
  change (srev (String c "")) with (String c ""). cbn [append lstrip]. rewrite H.
  change (String c (srev a)) with (String c "" ++ srev a)%string.
  rewrite srev_app_distr, srev_involutive. reflexivity.
Qed.

Lemma strip_ref root p : strip (String "$" (write_ref root p)) = String "$" (write_ref root p).
Proof.
  unfold strip. cbn [lstrip]. replace (is_space "$") with false by reflexivity.
  unfold write_ref.
  assert (E : String "$" ("(" ++ root ++ write_path p ++ ")")%string
              = (String "$" ("(" ++ root ++ write_path p) ++ String ")" "")%string).
  { cbn [append]. rewrite !sapp_assoc. reflexivity. }
  rewrite E. apply rstrip_snoc. reflexivity.
Qed.

Lemma Reference_items nr body : Reference (String "$" body) ->
  Items nr (String "$" body) [Lit ""; Ref body; Lit ""].
Proof.
  intros H.
  assert (I : Items nr ("" ++ String "$" (body ++ ""))%string [Lit ""; Ref body; Lit ""]).
  { apply It_ref; auto.
    - apply NoStart_nil.
    - constructor. left. apply NoStart_nil. }
  cbn [append] in I. rewrite sapp_nil_r in I. exact I.
Qed.

Lemma Items_reference nr s b : Items nr s [Lit ""; Ref b; Lit ""] ->
  s = String "$" b /\ Reference (String "$" b).
Proof.
  intros H. inversion H as [| | |p r s0 its Hp HR HI E1 E2|]; subst.
  pose proof (Items_scanner _ _ _ HI) as [<- _]. cbn [append]. rewrite sapp_nil_r. auto.
Qed.

Lemma ref_needs_parsing body : Reference (String "$" body) ->
  contains "$(" (String "$" body) || contains "${" (String "$" body) = true.
Proof.
  intros H. destruct (Reference_inv body H) as (o & c & a & B & _ & ->).
  apply orb_true_iff.
  destruct B as [[-> _]|[-> _]]; [left|right]; apply contains_spec;
    exists "", (a ++ String c "")%string; reflexivity.
Qed.

Section DoEvalRef.
  Context {St : Type}.
  Variable js : St -> string -> string -> St * result json.
  Variable dumps dumps4 : json -> string.
  Variable loads : string -> string.
  Hypothesis LIB : json_library_ok dumps loads.

  Lemma do_eval_path st inp reqs out tmp res ctx sw ver root p v w :
    Forall wf_requirement reqs -> is_root root ->
    dget root (root_vars inp ctx out tmp res) = Some v ->
    Forall plain_seg p -> Forall no_bs p -> Walk v p w ->
    do_eval js dumps dumps4 loads st (JStr (String "$" (write_ref root p)))
      inp reqs out tmp res ctx sw ver = (st, Ok w).
  Proof.
    intros W R V P N WK.
    pose proof (write_ref_Reference root p R P N) as HR.
    destruct (find_js_wf dumps4 (root_vars inp ctx out tmp res) (rev reqs)) as (b & l & F).
    { apply Forall_rev; auto. }
    destruct (rules_of ver) as [nr E].
    rewrite (do_eval_meaning js dumps dumps4 loads LIB st _ inp reqs out tmp res ctx sw ver b l nr
               [Lit ""; Ref (write_ref root p); Lit ""] (ref_needs_parsing _ HR) F E).
    - cbn [items_value]. rewrite (evaluator_walk js _ _ _ _ _ _ _ _ R V P WK). reflexivity.
    - destruct sw; [rewrite strip_ref|]; apply Reference_items; auto.
  Qed.

  Lemma param_match_brace s : param_match (String "{" s) = None.
  Proof. reflexivity. Qed.

  Lemma strip_reference body : Reference (String "$" body) -> strip (String "$" body) = String "$" body.
  Proof.
    intros H. destruct (Reference_inv body H) as (o & c & a & B & _ & ->).
    unfold strip. cbn [lstrip]. replace (is_space "$") with false by reflexivity.
    change (String "$" (String o (a ++ String c "")))%string
      with (String "$" (String o a) ++ String c "")%string.
    apply rstrip_snoc. destruct B as [[_ ->]|[_ ->]]; reflexivity.
  Qed.

  Lemma do_eval_js_lib st inp pre r post out tmp res ctx sw ver body :
    Forall wf_requirement (pre ++ r :: post) -> is_js_requirement r ->
    Forall (fun r => ~ is_js_requirement r) post ->
    Reference (String "$" (String "{" body)) ->
    do_eval js dumps dumps4 loads st (JStr (String "$" (String "{" body)))
      inp (pre ++ r :: post) out tmp res ctx sw ver
    = as_workflow_failure (js st (String "{" body) (jshead dumps4 (lib_of r) (root_vars inp ctx out tmp res))).
  Proof.
    intros W J N HR. apply Forall_app in W. destruct W as [W1 W2]. inversion W2; subst.
    assert (F : find_js dumps4 (root_vars inp ctx out tmp res) (rev (pre ++ r :: post))
                = Ok (true, jshead dumps4 (lib_of r) (root_vars inp ctx out tmp res))).
    { rewrite rev_app_distr. cbn [rev]. rewrite <- app_assoc. cbn [app].
      apply find_js_last; auto; apply Forall_rev; auto. }
    destruct (rules_of ver) as [nr E].
    rewrite (do_eval_meaning js dumps dumps4 loads LIB st _ inp _ out tmp res ctx sw ver _ _ nr
               [Lit ""; Ref (String "{" body); Lit ""] (ref_needs_parsing _ HR) F E).
    - cbn [items_value]. unfold evaluator. rewrite param_match_brace. reflexivity.
    - destruct sw; [rewrite strip_reference by auto|]; apply Reference_items; auto.
  Qed.
End DoEvalRef.
