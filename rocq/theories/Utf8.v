(** * UTF-8, and what [utf8] of ParserModel accepts *)
From Coq Require Import NArith Lia ZArith Zify ZifyN.
From Verif Require Import PyBase PyBaseProofs ParserModel.

(** ** Specification: Unicode scalar values and their UTF-8 encoding (RFC 3629, section 3) *)
Open Scope N_scope.
Definition scalar (n : N) : Prop := n < 55296 \/ 57344 <= n < 1114112. (* D800, E000, 110000 *)
Definition bytes (l : list N) : string := fold_right (fun b s => String (ascii_of_N b) s) "" l.
Definition utf8_char (n : N) : list N :=
  if n <? 128 then [n]
  else if n <? 2048 then [192 + n / 64; 128 + n mod 64]
  else if n <? 65536 then [224 + n / 4096; 128 + n / 64 mod 64; 128 + n mod 64]
  else [240 + n / 262144; 128 + n / 4096 mod 64; 128 + n / 64 mod 64; 128 + n mod 64].
Definition Utf8 (s : string) : Prop := exists chars, Forall scalar chars /\ s = bytes (flat_map utf8_char chars).
Close Scope N_scope.

(** ** Proofs *)
Lemma bytes_app a b : bytes (a ++ b) = (bytes a ++ bytes b)%string.
Proof. induction a as [|x a IH]; [reflexivity|]. cbn. f_equal. exact IH. Qed.
Lemma between_N a b m : (m < 256)%N -> between a b (ascii_of_N m) = ((N.of_nat a <=? m)%N && (m <=? N.of_nat b)%N).
Proof.
  intros H. unfold between, nat_of_ascii. rewrite N_ascii_embedding by exact H. f_equal.
  - destruct (N.leb_spec (N.of_nat a) m); [apply Nat.leb_le | apply Nat.leb_gt]; lia.
  - destruct (N.leb_spec m (N.of_nat b)); [apply Nat.leb_le | apply Nat.leb_gt]; lia.
Qed.
Lemma between_yes a b m : (m < 256)%N -> (N.of_nat a <= m <= N.of_nat b)%N -> between a b (ascii_of_N m) = true.
Proof. intros L (A & B). rewrite between_N by exact L. apply N.leb_le in A, B. rewrite A, B. reflexivity. Qed.
Lemma between_no a b m : (m < 256)%N -> (m < N.of_nat a \/ N.of_nat b < m)%N -> between a b (ascii_of_N m) = false.
Proof. intros L [A | A]; rewrite between_N by exact L; apply N.leb_gt in A; rewrite A; [reflexivity | apply andb_false_r]. Qed.
Lemma utf8_one c s : between 0 127 c = true -> utf8 (String c s) = utf8 s.
Proof. intros H. cbn [utf8]. rewrite H. reflexivity. Qed.
Lemma utf8_two c d s : between 0 127 c = false -> between 194 223 c = true -> between 128 191 d = true -> utf8 (String c (String d s)) = utf8 s.
Proof. intros A B C. cbn [utf8]. rewrite A, B, C. reflexivity. Qed.
Lemma utf8_three c d e s : between 0 127 c = false -> between 194 223 c = false ->
  between 224 224 c && between 160 191 d || between 225 236 c && between 128 191 d
  || between 237 237 c && between 128 159 d || between 238 239 c && between 128 191 d = true -> between 128 191 e = true ->
  utf8 (String c (String d (String e s))) = utf8 s.
Proof. intros A B C D. cbn [utf8]. rewrite A, B, C, D. reflexivity. Qed.
Lemma utf8_four c d e g s : between 0 127 c = false -> between 194 223 c = false ->
  between 224 224 c = false -> between 225 236 c = false -> between 237 237 c = false -> between 238 239 c = false ->
  between 240 240 c && between 144 191 d || between 241 243 c && between 128 191 d || between 244 244 c && between 128 143 d = true ->
  between 128 191 e = true -> between 128 191 g = true -> utf8 (String c (String d (String e (String g s)))) = utf8 s.
Proof. intros A B C1 C2 C3 C4 D E F. cbn [utf8]. rewrite A, B, C1, C2, C3, C4, D, E, F. reflexivity. Qed.
(** the digits of a number to the base 64 *)
Lemma digits n : exists a b c d, (n = 262144 * a + 4096 * b + 64 * c + d /\ b < 64 /\ c < 64 /\ d < 64 /\
  n / 262144 = a /\ n / 4096 = 64 * a + b /\ n / 4096 mod 64 = b /\ n / 64 = 4096 * a + 64 * b + c /\ n / 64 mod 64 = c /\ n mod 64 = d)%N.
Proof.
  assert (A : (n / 262144 = n / 64 / 64 / 64)%N) by (rewrite !N.div_div by discriminate; reflexivity).
  assert (B : (n / 4096 = n / 64 / 64)%N) by (rewrite !N.div_div by discriminate; reflexivity).
  rewrite A, B. set (p := (n / 64)%N). set (q := (p / 64)%N). set (r := (q / 64)%N).
  assert (P : (n = 64 * p + n mod 64 /\ n mod 64 < 64)%N) by (split; [apply N.div_mod' | apply N.mod_lt; discriminate]).
  assert (Q : (p = 64 * q + p mod 64 /\ p mod 64 < 64)%N) by (split; [apply N.div_mod' | apply N.mod_lt; discriminate]).
  assert (R : (q = 64 * r + q mod 64 /\ q mod 64 < 64)%N) by (split; [apply N.div_mod' | apply N.mod_lt; discriminate]).
  exists r, (q mod 64)%N, (p mod 64)%N, (n mod 64)%N. clearbody r q p.
  repeat match goal with |- context [(?x mod 64)%N] => generalize dependent (x mod 64)%N end. intros. repeat split; lia.
Qed.
Lemma utf8_char_ok n s : scalar n -> utf8 (bytes (utf8_char n) ++ s) = utf8 s.
Proof.
  intros S. unfold utf8_char. unfold scalar in S. destruct (digits n) as (a & b & c & d & Hn & Hb & Hc & Hd & E1 & E2 & E3 & E4 & E5 & E6).
  rewrite E1, E3, E5, E6, E4, E2. clear E1 E2 E3 E4 E5 E6.
  destruct (N.ltb_spec n 128); [|destruct (N.ltb_spec n 2048); [|destruct (N.ltb_spec n 65536)]]; cbn [bytes fold_right append].
  - apply utf8_one, between_yes; lia.
  - apply utf8_two; [apply between_no | apply between_yes | apply between_yes]; lia.
  - assert (a = 0)%N by lia. subst a. apply utf8_three; [apply between_no; lia | apply between_no; lia | | apply between_yes; lia].
    rewrite !orb_true_iff, !andb_true_iff.
    assert (K : (b = 0 /\ 32 <= c \/ 1 <= b <= 12 \/ b = 13 /\ c < 32 \/ 14 <= b <= 15)%N) by lia.
    destruct K as [(K & K') | [K | [(K & K') | K]]]; [left; left; left | left; left; right | left; right | right]; split; apply between_yes; lia.
  - apply utf8_four; try (apply between_no; lia); try (apply between_yes; lia).
    rewrite !orb_true_iff, !andb_true_iff.
    assert (K : (a = 0 /\ 16 <= b \/ 1 <= a <= 3 \/ a = 4 /\ b < 16)%N) by lia.
    destruct K as [(K & K') | [K | (K & K')]]; [left; left | left; right | right]; split; apply between_yes; lia.
Qed.
Lemma between_range a b c : between a b c = true -> (N.of_nat a <= N_of_ascii c <= N.of_nat b)%N.
Proof. unfold between, nat_of_ascii. rewrite andb_true_iff, !Nat.leb_le. lia. Qed.
Lemma as_byte c m : N_of_ascii c = m -> ascii_of_N m = c.
Proof. intros <-. apply ascii_N_embedding. Qed.
Lemma Utf8_cons n s : scalar n -> Utf8 s -> Utf8 (bytes (utf8_char n) ++ s).
Proof. intros S (l & F & ->). exists (n :: l). split; [constructor; auto|]. cbn [flat_map]. symmetry. apply bytes_app. Qed.

Lemma utf8_sound k : forall s, String.length s <= k -> utf8 s = true -> Utf8 s.
Proof.
  induction k as [|k IH]; intros s L H.
  { destruct s; [exists []; split; [constructor | reflexivity] | cbn in L; lia]. }
  destruct s as [|c s1]; [exists []; split; [constructor | reflexivity]|]. cbn [utf8 String.length] in *.
  destruct (between 0 127 c) eqn:B1.
  { apply between_range in B1. cbn [N.of_nat] in B1. 
    assert (Q : String c s1 = (bytes (utf8_char (N_of_ascii c)) ++ s1)%string).
    { unfold utf8_char. destruct (N.ltb_spec (N_of_ascii c) 128); [|lia]. cbn. rewrite ascii_N_embedding. reflexivity. }
    rewrite Q. apply Utf8_cons; [left; lia|]. apply IH; [lia | exact H]. }
  destruct s1 as [|d s2]; [discriminate|]. cbn [String.length] in L.
  destruct (between 194 223 c && between 128 191 d) eqn:B2.
  { apply andb_true_iff in B2. destruct B2 as (Bc & Bd). apply between_range in Bc, Bd. cbn [N.of_nat] in Bc, Bd.
    set (n := (64 * (N_of_ascii c - 192) + (N_of_ascii d - 128))%N).
    assert (Q : String c (String d s2) = (bytes (utf8_char n) ++ s2)%string).
    { unfold utf8_char. destruct (N.ltb_spec n 128); [lia|]. destruct (N.ltb_spec n 2048); [|lia]. cbn [bytes fold_right append].
      rewrite (as_byte c), (as_byte d) by lia. reflexivity. }
    rewrite Q. apply Utf8_cons; [unfold scalar; lia|]. apply IH; [lia | exact H]. }
  destruct s2 as [|e s3]; [discriminate|]. cbn [String.length] in L.
  match type of H with (if ?x then _ else _) = _ => destruct x eqn:B3 end.
  { rewrite andb_true_iff, !orb_true_iff, !andb_true_iff in B3. destruct B3 as (Bcd & Be). apply between_range in Be. cbn [N.of_nat] in Be.
    set (n := (4096 * (N_of_ascii c - 224) + 64 * (N_of_ascii d - 128) + (N_of_ascii e - 128))%N).
    assert (K : (224 <= N_of_ascii c <= 239 /\ 128 <= N_of_ascii d <= 191 /\ 2048 <= n < 65536 /\ ~ 55296 <= n < 57344)%N).
    { destruct Bcd as [[[(A & B) | (A & B)] | (A & B)] | (A & B)]; apply between_range in A, B; cbn [N.of_nat] in A, B; lia. }
    assert (Q : String c (String d (String e s3)) = (bytes (utf8_char n) ++ s3)%string).
    { unfold utf8_char. destruct (N.ltb_spec n 128); [lia|]. destruct (N.ltb_spec n 2048); [lia|]. destruct (N.ltb_spec n 65536); [|lia]. cbn [bytes fold_right append].
      rewrite (as_byte c), (as_byte d), (as_byte e) by lia. reflexivity. }
    rewrite Q. apply Utf8_cons; [unfold scalar; lia|]. apply IH; [lia | exact H]. }
  destruct s3 as [|g s4]; [discriminate|]. cbn [String.length] in L.
  match type of H with (if ?x then _ else _) = _ => destruct x eqn:B4; [|discriminate] end.
  rewrite !andb_true_iff, !orb_true_iff, !andb_true_iff in B4. destruct B4 as ((Bcd & Be) & Bg). apply between_range in Be, Bg. cbn [N.of_nat] in Be, Bg.
  set (n := (262144 * (N_of_ascii c - 240) + 4096 * (N_of_ascii d - 128) + 64 * (N_of_ascii e - 128) + (N_of_ascii g - 128))%N).
  assert (K : (240 <= N_of_ascii c <= 244 /\ 128 <= N_of_ascii d <= 191 /\ 65536 <= n < 1114112)%N).
  { destruct Bcd as [[(A & B) | (A & B)] | (A & B)]; apply between_range in A, B; cbn [N.of_nat] in A, B; lia. }
  assert (Q : String c (String d (String e (String g s4))) = (bytes (utf8_char n) ++ s4)%string).
  { unfold utf8_char. destruct (N.ltb_spec n 128); [lia|]. destruct (N.ltb_spec n 2048); [lia|]. destruct (N.ltb_spec n 65536); [lia|]. cbn [bytes fold_right append].
    rewrite (as_byte c), (as_byte d), (as_byte e), (as_byte g) by lia. reflexivity. }
  rewrite Q. apply Utf8_cons; [unfold scalar; lia|]. apply IH; [lia | exact H].
Qed.

Theorem utf8_iff s : utf8 s = true <-> Utf8 s.
Proof.
  split; [apply (utf8_sound (String.length s)); lia|]. intros (l & F & ->). induction F as [|n l S F IH]; [reflexivity|].
  cbn [flat_map]. rewrite bytes_app, utf8_char_ok; auto.
Qed.
