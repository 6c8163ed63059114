(** * Proofs about loading, saving, reading contents and stream shortcuts *)
From Verif Require Import PyBase PyBaseProofs NameProofs ParserModel ParserSpec.
From Coq Require Import NArith Lia.

(** ** Streams *)
Lemma is_type_spec n p : is_type n p = true <-> shortcut n p.
Proof.
  unfold is_type, shortcut. destruct (po_type p); split; intros H; try discriminate.
  - apply String.eqb_eq in H. congruence.
  - injection H as ->. apply String.eqb_refl.
Qed.
Lemma is_type_false n p : is_type n p = false <-> ~ shortcut n p.
Proof. rewrite <- is_type_spec. destruct (is_type n p); split; congruence. Qed.
Lemma stdout_not_stderr p : shortcut "stdout" p -> ~ shortcut "stderr" p.
Proof. unfold shortcut. intros -> H. discriminate. Qed.

Section Streams.
Variable digest : tool -> string.

Definition OutRel (t' : tool) (o o' : port) : Prop :=
  (shortcut "stdout" o -> po_binding o = None /\ Captures o o' (t_stdout t')) /\
  (shortcut "stderr" o -> po_binding o = None /\ Captures o o' (t_stderr t')) /\
  (~ shortcut "stdout" o -> ~ shortcut "stderr" o -> o' = o).

Lemma convert_outputs_spec todo : forall t seen t', t_outputs t = seen ++ todo -> convert_outputs digest t seen todo = Ok t' ->
  (exists outs, t_outputs t' = seen ++ outs /\ Forall2 (OutRel t') todo outs) /\
  t_inputs t' = t_inputs t /\ t_stdin t' = t_stdin t /\ t_rest t' = t_rest t /\
  (t_stdout t' = t_stdout t \/ t_stdout t = None /\ Exists (shortcut "stdout") todo) /\
  (t_stderr t' = t_stderr t \/ t_stderr t = None /\ Exists (shortcut "stderr") todo) /\
  (Exists (shortcut "stdout") todo -> t_stdout t' <> None) /\
  (Exists (shortcut "stderr") todo -> t_stderr t' <> None).
Proof.
  induction todo as [|out todo IH]; intros t seen t' HO H; cbn [convert_outputs] in H.
  - injection H as <-. split; [exists []; split; [rewrite HO; auto|constructor]|]. repeat split; auto; intros X; inversion X.
  - destruct (is_type "stdout" out) eqn:E1; [|destruct (is_type "stderr" out) eqn:E2].
    + apply is_type_spec in E1. destruct (po_binding out) eqn:B; [discriminate|].
      set (t1 := match t_stdout t with Some _ => t | None => set_stdout (digest t) t end) in *.
      assert (SO : exists f, t_stdout t1 = Some f) by (unfold t1; destruct (t_stdout t) eqn:S; [eauto|cbn; eauto]).
      destruct SO as (f & SO). rewrite SO in H. cbn [option_map] in H.
      set (out' := Port (po_id out) (JStr "File") (Some (glob_binding f))) in *.
      apply IH in H; [|rewrite <- app_assoc; reflexivity].
      destruct H as ((outs & A & F) & I1 & I2 & I3 & I4 & I5 & I6 & I7).
      cbn [set_outputs t_outputs t_inputs t_stdin t_stdout t_stderr t_rest] in *.
      assert (S1 : t_stdout t' = Some f) by (destruct I4 as [->|[X _]]; [auto|congruence]).
      assert (T1 : t_inputs t1 = t_inputs t /\ t_stdin t1 = t_stdin t /\ t_rest t1 = t_rest t /\ t_stderr t1 = t_stderr t /\
                   (t_stdout t = None \/ t_stdout t1 = t_stdout t)).
      { unfold t1. destruct (t_stdout t) eqn:Q; cbn; repeat split; auto. }
      destruct T1 as (T1 & T2 & T3 & T4 & T5). rewrite T1 in I1. rewrite T2 in I2. rewrite T3 in I3. rewrite T4 in I5.
      split.
      { exists (out' :: outs). split; [rewrite A, <- app_assoc; reflexivity|]. constructor; auto. split; [|split].
        - intros _. split; auto. exists f. auto.
        - intros X. destruct (stdout_not_stderr _ E1 X).
        - congruence. }
      repeat split; auto.
      * destruct T5 as [T5|T5]; [right; auto|left; congruence].
      * destruct I5 as [I5|[I5 X]]; auto.
      * congruence.
      * intros X. inversion X; subst; auto; destruct (stdout_not_stderr _ E1); auto.
    + apply is_type_false in E1. apply is_type_spec in E2. destruct (po_binding out) eqn:B; [discriminate|].
      set (t1 := match t_stderr t with Some _ => t | None => set_stderr (digest t) t end) in *.
      assert (SO : exists f, t_stderr t1 = Some f) by (unfold t1; destruct (t_stderr t) eqn:S; [eauto|cbn; eauto]).
      destruct SO as (f & SO). rewrite SO in H. cbn [option_map] in H.
      set (out' := Port (po_id out) (JStr "File") (Some (glob_binding f))) in *.
      apply IH in H; [|rewrite <- app_assoc; reflexivity].
      destruct H as ((outs & A & F) & I1 & I2 & I3 & I4 & I5 & I6 & I7).
      cbn [set_outputs t_outputs t_inputs t_stdin t_stdout t_stderr t_rest] in *.
      assert (S1 : t_stderr t' = Some f) by (destruct I5 as [->|[X _]]; [auto|congruence]).
      assert (T1 : t_inputs t1 = t_inputs t /\ t_stdin t1 = t_stdin t /\ t_rest t1 = t_rest t /\ t_stdout t1 = t_stdout t /\
                   (t_stderr t = None \/ t_stderr t1 = t_stderr t)).
      { unfold t1. destruct (t_stderr t) eqn:Q; cbn; repeat split; auto. }
      destruct T1 as (T1 & T2 & T3 & T4 & T5). rewrite T1 in I1. rewrite T2 in I2. rewrite T3 in I3. rewrite T4 in I4.
      split.
      { exists (out' :: outs). split; [rewrite A, <- app_assoc; reflexivity|]. constructor; auto. split; [|split].
        - intros X. contradiction.
        - intros _. split; auto. exists f. auto.
        - congruence. }
      repeat split; auto.
      * destruct I4 as [I4|[I4 X]]; auto.
      * destruct T5 as [T5|T5]; [right; auto|left; congruence].
      * intros X. inversion X; subst; auto; contradiction.
      * congruence.
    + apply is_type_false in E1, E2. apply IH in H; [|rewrite <- app_assoc; auto].
      destruct H as ((outs & A & F) & I1 & I2 & I3 & I4 & I5 & I6 & I7).
      split.
      { exists (out :: outs). split; [rewrite A, <- app_assoc; reflexivity|]. constructor; auto. split; [|split]; auto; contradiction. }
      repeat split; auto.
      * destruct I4 as [I4|[I4 X]]; auto.
      * destruct I5 as [I5|[I5 X]]; auto.
      * intros X. inversion X; subst; auto; contradiction.
      * intros X. inversion X; subst; auto; contradiction.
Qed.

Lemma convert_outputs_err todo : forall t seen e, convert_outputs digest t seen todo = Err e <->
  e = ValidationException /\ Exists (fun o => (shortcut "stdout" o \/ shortcut "stderr" o) /\ po_binding o <> None) todo.
Proof.
  induction todo as [|out todo IH]; intros t seen e; cbn [convert_outputs].
  - split; [discriminate|intros [_ X]; inversion X].
  - rewrite Exists_cons. destruct (is_type "stdout" out) eqn:E1; [|destruct (is_type "stderr" out) eqn:E2].
    + apply is_type_spec in E1. destruct (po_binding out) eqn:B.
      * split; [intros H; injection H as <-; split; auto; left; split; [auto|congruence]|]. intros [-> _]. auto.
      * rewrite IH. split; [tauto|]. intros [-> [[_ X]|X]]; [congruence|auto].
    + apply is_type_spec in E2. destruct (po_binding out) eqn:B.
      * split; [intros H; injection H as <-; split; auto; left; split; [auto|congruence]|]. intros [-> _]. auto.
      * rewrite IH. split; [tauto|]. intros [-> [[_ X]|X]]; [congruence|auto].
    + apply is_type_false in E1, E2. rewrite IH. tauto.
Qed.

Lemma convert_outputs_done todo : forall t seen, Forall (fun o => ~ shortcut "stdout" o /\ ~ shortcut "stderr" o) todo ->
  convert_outputs digest t seen todo = Ok t.
Proof.
  induction todo as [|o todo IH]; intros t seen F; auto. inversion_clear F as [|? ? [A B] F']. cbn [convert_outputs].
  apply is_type_false in A, B. rewrite A, B. auto.
Qed.

Lemma PortName_short id : PortName id (short id).
Proof.
  unfold short, PortName.
  assert (L : forall c s, has_char c (List.last (split_char c s) "") = false /\
    (s = List.last (split_char c s) "" \/ exists pre, s = (pre ++ String c (List.last (split_char c s) ""))%string)).
  { intros c s. induction s as [|d s [IH1 IH2]]; [cbn; auto|]. cbn [split_char]. destruct (Ascii.eqb_spec d c) as [->|N].
    - destruct (split_char c s) as [|h r] eqn:E; [destruct (split_char_nonnil c s); auto|].
      change (List.last ("" :: h :: r) "") with (List.last (h :: r) ""). split; auto. right. destruct IH2 as [IH2|(pre & IH2)].
      + exists "". cbn [append]. rewrite <- IH2. auto.
      + exists (String c pre). cbn [append]. rewrite <- IH2. auto.
    - destruct (split_char c s) as [|h r] eqn:E; [destruct (split_char_nonnil c s); auto|]. destruct r as [|h2 r].
      + cbn [List.last] in *. split.
        * cbn [has_char]. rewrite IH1, orb_false_r. apply Ascii.eqb_neq. auto.
        * destruct IH2 as [->|(pre & IH2)]; [auto|]. right. exists (String d pre). exfalso.
          assert (X : split_char c s = split_char c pre ++ split_char c h).
          { rewrite IH2. apply split_char_app_any. }
          rewrite E in X. destruct (split_char c pre) as [|p1 [|p2 pr]] eqn:P; [destruct (split_char_nonnil c pre); auto| |].
          -- cbn in X. injection X as X Y. destruct (split_char_nonnil c h); auto.
          -- cbn in X. discriminate.
      + change (List.last (String d h :: h2 :: r) "") with (List.last (h :: h2 :: r) ""). split; auto. right.
        destruct IH2 as [IH2|(pre & IH2)].
        * exfalso. rewrite IH2 in E. rewrite split_char_none in E by auto. discriminate.
        * exists (String d pre). cbn [append]. rewrite <- IH2. auto. }
  destruct (L "#"%char id) as [A1 A2]. set (m := List.last (split_char "#" id) "") in *. destruct (L "/"%char m) as [B1 B2].
  set (n := List.last (split_char "/" m) "") in *. split; [|split; auto].
  - destruct B2 as [B2|(pre & B2)]; [rewrite <- B2; auto|]. rewrite B2, has_char_app in A1. apply orb_false_elim in A1. destruct A1 as [_ A1].
    cbn [has_char] in A1. apply orb_false_elim in A1. tauto.
  - destruct B2 as [B2|(pre & B2)].
    + rewrite <- B2. destruct A2 as [A2|(pre & A2)]; auto. right. exists pre, "#"%char. auto.
    + right. destruct A2 as [A2|(pre2 & A2)].
      * exists pre, "/"%char. rewrite A2 at 1. auto.
      * exists (pre2 ++ String "#" pre)%string, "/"%char. split; auto. rewrite A2, B2. rewrite sapp_assoc. reflexivity.
Qed.

Lemma convert_inputs_spec todo : forall t seen t', t_inputs t = seen ++ todo -> convert_inputs t seen todo = Ok t' ->
  t_outputs t' = t_outputs t /\ t_stdout t' = t_stdout t /\ t_stderr t' = t_stderr t /\ t_rest t' = t_rest t /\
  (Forall (fun i => ~ shortcut "stdin" i) todo /\ t' = t \/
   exists pre i post, todo = pre ++ i :: post /\ shortcut "stdin" i /\ po_binding i = None /\ t_stdin t = None /\
     Forall (fun i => ~ shortcut "stdin" i) (pre ++ post) /\
     t_inputs t' = seen ++ pre ++ Port (po_id i) (JStr "File") None :: post /\
     t_stdin t' = Some ("$(inputs." ++ short (po_id i) ++ ".path)")%string).
Proof.
  induction todo as [|inp todo IH]; intros t seen t' HI H; cbn [convert_inputs] in H.
  - injection H as <-. repeat split; auto.
  - destruct (is_type "stdin" inp) eqn:E.
    + apply is_type_spec in E. destruct (po_binding inp) eqn:B; [discriminate|]. destruct (t_stdin t) eqn:S; [discriminate|].
      apply IH in H; [|rewrite <- app_assoc; reflexivity].
      cbn [set_inputs set_stdin t_outputs t_inputs t_stdin t_stdout t_stderr t_rest] in H.
      destruct H as (H1 & H2 & H3 & H4 & [[F ->]|(pre & i & post & _ & _ & _ & X & _)]); [|discriminate].
      repeat split; auto. right. exists [], inp, todo. cbn [app t_inputs t_stdin set_inputs set_stdin]. repeat split; auto.
    + apply is_type_false in E. apply IH in H; [|rewrite <- app_assoc; auto].
      destruct H as (H1 & H2 & H3 & H4 & [[F ->]|(pre & i & post & -> & SI & B & S & F & HI' & S')]).
      * repeat split; auto.
      * repeat split; auto. right. exists (inp :: pre), i, post. repeat split; auto; [constructor; auto|]. rewrite HI', <- app_assoc. reflexivity.
Qed.

Lemma convert_inputs_err todo : forall t seen e, convert_inputs t seen todo = Err e <->
  e = ValidationException /\
  (Exists (fun i => shortcut "stdin" i /\ (po_binding i <> None \/ t_stdin t <> None)) todo \/
   exists a i b j c, todo = a ++ i :: b ++ j :: c /\ shortcut "stdin" i /\ shortcut "stdin" j).
Proof.
  induction todo as [|inp todo IH]; intros t seen e; cbn [convert_inputs].
  - split; [discriminate|]. intros [_ [X|(a & i & b & j & c & X & _)]]; [inversion X|destruct a; discriminate].
  - rewrite Exists_cons. destruct (is_type "stdin" inp) eqn:E.
    + apply is_type_spec in E. destruct (po_binding inp) eqn:B.
      { split; [intros H; injection H as <-; split; auto; left; left; split; auto; left; congruence|]. intros [-> _]. auto. }
      destruct (t_stdin t) eqn:S.
      { split; [intros H; injection H as <-; split; auto; left; left; split; auto; right; congruence|]. intros [-> _]. auto. }
      rewrite IH. cbn [set_inputs set_stdin t_stdin]. split.
      * intros [-> X]. split; auto. right.
        assert (Y : exists j, In j todo /\ shortcut "stdin" j).
        { destruct X as [X|(a & i & b & j & c & -> & SI & SJ)].
          - apply Exists_exists in X. destruct X as (j & I & SJ & _). eauto.
          - exists i. split; auto. apply in_app_iff. right. left. auto. }
        destruct Y as (j & I & SJ). apply in_split in I. destruct I as (b & c & ->). exists [], inp, b, j, c. auto.
      * intros [-> X]. split; auto. left.
        assert (Y : exists j, In j todo /\ shortcut "stdin" j).
        { destruct X as [[(_ & [X|X])|X]|(a & i & b & j & c & X & SI & SJ)].
          - congruence.
          - congruence.
          - apply Exists_exists in X. destruct X as (j & I & SJ & _). eauto.
          - destruct a as [|x a]; cbn in X; injection X as _ ->.
            + exists j. split; auto. apply in_app_iff. right. left. auto.
            + exists j. split; auto. apply in_app_iff. right. right. apply in_app_iff. right. left. auto. }
        destruct Y as (j & I & SJ). apply Exists_exists. exists j. split; auto. split; auto. right. discriminate.
    + apply is_type_false in E. rewrite IH. split.
      * intros [-> [X|(a & i & b & j & c & -> & SI & SJ)]]; split; auto. right. exists (inp :: a), i, b, j, c. auto.
      * intros [-> [[[X _]|X]|(a & i & b & j & c & X & SI & SJ)]]; [contradiction| |]; split; auto.
        destruct a as [|x a]; cbn in X; injection X as -> X; [contradiction|]. right. exists a, i, b, j, c. auto.
Qed.

Lemma convert_inputs_done todo : forall t seen, Forall (fun i => ~ shortcut "stdin" i) todo -> convert_inputs t seen todo = Ok t.
Proof.
  induction todo as [|o todo IH]; intros t seen F; auto. inversion_clear F as [|? ? A F']. cbn [convert_inputs].
  apply is_type_false in A. rewrite A. auto.
Qed.
End Streams.

(** ** Contents *)
Lemma stake_all n s : String.length s <= n -> stake n s = s.
Proof. revert s. induction n; intros [|c s] H; cbn in *; auto; [lia|]. rewrite IHn by lia. auto. Qed.
Lemma slength_stake n s : String.length (stake n s) = Nat.min n (String.length s).
Proof. revert s. induction n; intros [|c s]; cbn; auto. Qed.
Lemma stake_prefix n s : exists r, s = (stake n s ++ r)%string.
Proof. revert s. induction n as [|n IH]; intros [|c s]; [exists ""|exists (String c s)|exists ""|]; auto. destruct (IH s) as (r & E). exists r. cbn. rewrite <- E. auto. Qed.

(** ** Versions *)
Lemma int_acc_value s : forall acc, int_acc acc s = (acc * 10 ^ N.of_nat (String.length s) + value s)%N.
Proof.
  induction s as [|c s IH]; intros acc; cbn [int_acc value String.length].
  - cbn. lia.
  - rewrite IH. unfold digit. rewrite Nat2N.inj_succ, N.pow_succ_r by lia. lia.
Qed.
Lemma int_of_spec s n : int_of s = Ok n <-> numeral s /\ n = value s.
Proof.
  unfold int_of, numeral. destruct (String.eqb_spec s "") as [->|N]; cbn [orb].
  - split; [discriminate|intros [[X _] _]; congruence].
  - destruct (sforall is_digit s); cbn [negb].
    + rewrite int_acc_value. split; [intros H; injection H as <-; split; auto; lia|]. intros [_ ->]. f_equal.
    + split; [discriminate|intros [[_ X] _]; congruence].
Qed.
Lemma mapM_int ss ns : mapM int_of ss = Ok ns <-> Forall numeral ss /\ ns = map value ss.
Proof.
  revert ns. induction ss as [|s ss IH]; intros ns; cbn [mapM map].
  - split; [intros H; injection H as <-; auto|intros [_ ->]; auto].
  - split.
    + intros H. destruct (int_of s) as [n|] eqn:E; [|discriminate]. cbn [bind] in H. apply int_of_spec in E. destruct E as [E ->].
      destruct (mapM int_of ss) as [m|] eqn:F; [|discriminate]. injection H as <-. destruct (proj1 (IH m) eq_refl) as [A ->]. auto.
    + intros [F ->]. inversion_clear F. rewrite (proj2 (int_of_spec s (value s))) by auto. cbn [bind].
      rewrite (proj2 (IH (map value ss))) by auto. auto.
Qed.
Lemma has_char_sforall f c s : f c = false -> sforall f s = true -> has_char c s = false.
Proof.
  intros F. induction s as [|d s IH]; cbn; auto. rewrite andb_true_iff. intros [A B]. rewrite IH by auto.
  destruct (Ascii.eqb_spec c d) as [->|]; [congruence|auto].
Qed.
Lemma split_numerals ns : ns <> [] -> Forall numeral ns -> split_char "." (sjoin "." ns) = ns.
Proof.
  intros NE F. induction F as [|n ns [N1 N2] F IH]; [congruence|].
  assert (X : has_char "." n = false) by (eapply has_char_sforall; [|exact N2]; reflexivity).
  destruct ns as [|m ns]; [apply split_char_none; auto|]. rewrite sjoin_cons by discriminate.
  change (n ++ "." ++ sjoin "." (m :: ns))%string with (n ++ String "." (sjoin "." (m :: ns)))%string.
  rewrite split_char_app by auto. rewrite IH by discriminate. auto.
Qed.
Lemma version_split_spec v ns : IsVersion v ns -> version_split v = Ok ns.
Proof.
  intros (nums & -> & NE & F & ->). cbn [version_split append]. 
  replace (sdrop 1 (String "v" (sjoin "." nums))) with (sjoin "." nums) by (cbn; destruct (sjoin "." nums); auto).
  rewrite split_numerals by auto. apply mapM_int. auto.
Qed.

Lemma list_lt_spec a : forall b, list_lt a b = true -> at_least a b.
Proof.
  induction a as [|x a IH]; intros [|y b] H; cbn in *; auto; [discriminate|]. destruct (N.ltb_spec x y); auto.
  destruct (N.ltb_spec y x); [discriminate|]. right. split; [lia|auto].
Qed.
Lemma list_ge_spec a : forall b, list_lt a b = false -> at_least b a.
Proof.
  induction a as [|x a IH]; intros [|y b] H; cbn in *; auto; [discriminate|]. destruct (N.ltb_spec x y); [discriminate|].
  destruct (N.ltb_spec y x); auto. right. split; [lia|auto].
Qed.
Lemma at_least_trans a : forall b c, at_least a b -> at_least b c -> at_least a c.
Proof.
  induction a as [|x a IH]; intros [|y b] [|z c] H K; cbn in *; auto; try contradiction.
  destruct H as [H|[-> H]], K as [K|[-> K]]; auto; [left; lia|]. right. split; auto. eauto.
Qed.
Lemma at_least_refl a : at_least a a.
Proof. induction a; cbn; auto. Qed.

Lemma max_from_spec vs : forall best key r, version_split best = Ok key -> max_from best key vs = Ok r ->
  (r = best \/ In r vs) /\ exists k, version_split r = Ok k /\ at_least key k /\ forall v kv, In v vs -> version_split v = Ok kv -> at_least kv k.
Proof.
  induction vs as [|v vs IH]; intros best key r B H; cbn [max_from] in H.
  - injection H as <-. split; auto. exists key. repeat split; auto; [apply at_least_refl|contradiction].
  - destruct (version_split v) as [kv|] eqn:V; [|discriminate]. cbn [bind] in H. destruct (list_lt key kv) eqn:L.
    + destruct (IH _ _ _ V H) as (M & k & K & LE & ALL). split; [right; destruct M; cbn; auto|]. exists k. split; auto. split.
      * eapply at_least_trans; [apply list_lt_spec; eauto|auto].
      * intros w kw [<-|I] W; [congruence|eauto].
    + destruct (IH _ _ _ B H) as (M & k & K & LE & ALL). split; [destruct M; cbn; auto|]. exists k. split; auto. split; auto.
      intros w kw [<-|I] W; [|eauto]. assert (kw = kv) by congruence. subst. eapply at_least_trans; [apply list_ge_spec; eauto|auto].
Qed.
Lemma max_version_spec vs r : max_version vs = Ok r ->
  In r vs /\ exists k, version_split r = Ok k /\ forall v kv, In v vs -> version_split v = Ok kv -> at_least kv k.
Proof.
  destruct vs as [|v vs]; [discriminate|]. cbn [max_version]. destruct (version_split v) as [kv|] eqn:V; [|discriminate]. cbn [bind].
  intros H. destruct (max_from_spec _ _ _ _ V H) as (M & k & K & LE & ALL). split; [destruct M; cbn; auto|]. exists k. split; auto.
  intros w kw [<-|I] W; [congruence|eauto].
Qed.
Lemma max_from_ok vs : forall best key, Forall (fun v => exists k, version_split v = Ok k) vs -> exists r, max_from best key vs = Ok r.
Proof.
  induction vs as [|v vs IH]; intros best key F; cbn [max_from]; [eauto|]. inversion_clear F as [|? ? (k & K) F']. rewrite K. cbn [bind].
  destruct (list_lt key k); auto.
Qed.
Lemma max_version_ok vs : vs <> [] -> Forall (fun v => exists k, version_split v = Ok k) vs -> exists r, max_version vs = Ok r.
Proof.
  destruct vs as [|v vs]; [congruence|]. intros _ F. inversion_clear F as [|? ? (k & K) F']. cbn [max_version]. rewrite K. cbn [bind]. apply max_from_ok; auto.
Qed.

Lemma versions_spec docs : versions (map JDict docs) = Ok (flat_map (fun e => match dget "cwlVersion" e with Some JNull | None => [] | Some v => [v] end) docs).
Proof.
  induction docs as [|e docs IH]; auto. cbn [map versions flat_map]. rewrite IH. cbn [bind]. destruct (dget "cwlVersion" e) as [[]|]; auto.
Qed.

(** ** Loading *)
Lemma lstrip_names s : Names s (lstrip_char "#" s).
Proof.
  induction s as [|c s IH]; [constructor; discriminate|]. cbn [lstrip_char]. destruct (Ascii.eqb_spec c "#") as [->|N].
  - constructor. auto.
  - constructor. intros r E. congruence.
Qed.
Lemma Names_lstrip s i : Names s i -> i = lstrip_char "#" s.
Proof.
  induction 1 as [i H|s i H IH]; cbn [lstrip_char].
  - destruct i as [|c i]; auto. cbn [lstrip_char]. destruct (Ascii.eqb_spec c "#") as [->|N]; auto. destruct (H i); auto.
  - rewrite Ascii.eqb_refl. auto.
Qed.
Lemma Names_no_hash s i : Names s i -> forall r, i <> String "#" r.
Proof. induction 1; auto. Qed.

Lemma graph_id_spec el i : graph_id el = Ok i <-> has_name el i.
Proof.
  unfold graph_id, has_name. split.
  - intros H. destruct el as [| | | | | |e]; try discriminate. destruct (dget "id" e) as [[| | | |s| |]|] eqn:D; try discriminate.
    injection H as <-. exists e, s. repeat split; auto. apply lstrip_names.
  - intros (e & s & -> & D & N). rewrite D. apply Names_lstrip in N. congruence.
Qed.
Lemma has_name_inj el i j : has_name el i -> has_name el j -> i = j.
Proof. rewrite <- !graph_id_spec. congruence. Qed.

Lemma find_id_spec i els el : find_id i els = Ok el <-> exists e, el = JDict e /\ FirstNamed els i e.
Proof.
  induction els as [|x els IH]; cbn [find_id].
  - split; [discriminate|]. intros (e & _ & pre & post & X & _). destruct pre; discriminate.
  - destruct (graph_id x) as [j|] eqn:G; cbn [bind].
    + pose proof (proj1 (graph_id_spec _ _) G) as G'. destruct (String.eqb_spec j i) as [->|N].
      * split.
        -- intros H. injection H as <-. destruct G' as (e & s & -> & D & NN). exists e. split; auto. exists [], els.
           repeat split; auto. exists e, s. auto.
        -- intros (e & -> & pre & post & X & HN & F). destruct pre as [|y pre]; cbn in X; injection X as -> X; auto.
           inversion_clear F as [|? ? (k & K1 & K2) _]. destruct (K2 (has_name_inj _ _ _ K1 G')).
      * rewrite IH. split.
        -- intros (e & -> & pre & post & -> & HN & F). exists e. split; auto. exists (x :: pre), post. repeat split; auto. constructor; eauto.
        -- intros (e & -> & pre & post & X & HN & F). exists e. split; auto. destruct pre as [|y pre]; cbn in X; injection X as -> X.
           ++ destruct (N (has_name_inj _ _ _ G' HN)).
           ++ inversion_clear F. exists pre, post. auto.
    + split; [discriminate|]. intros (e0 & -> & pre & post & X & HN & F). exfalso.
      assert (exists j, has_name x j) as (j & J).
      { destruct pre as [|y pre]; cbn in X; injection X as -> X; [eauto|]. inversion_clear F as [|? ? (k & K & _) _]. eauto. }
      apply graph_id_spec in J. congruence.
Qed.
Lemma find_id_missing i els : find_id i els = Err GraphTargetMissingException <-> Forall (fun el => exists j, has_name el j /\ j <> i) els.
Proof.
  induction els as [|x els IH]; cbn [find_id]; [split; auto|]. destruct (graph_id x) as [j|] eqn:G; cbn [bind].
  - pose proof (proj1 (graph_id_spec _ _) G) as G'. destruct (String.eqb_spec j i) as [->|N].
    + split; [discriminate|]. intros F. inversion_clear F as [|? ? (k & K1 & K2) _]. destruct (K2 (has_name_inj _ _ _ K1 G')).
    + rewrite IH. split; [intros F; constructor; eauto|]. intros F. inversion_clear F; auto.
  - split.
    + intros H. injection H as ->. unfold graph_id in G. destruct x as [| | | | | |e]; try discriminate.
      destruct (dget "id" e) as [[]|]; discriminate.
    + intros F. inversion_clear F as [|? ? (k & K1 & _) _]. apply graph_id_spec in K1. congruence.
Qed.

(** ** Paths *)
Lemma cut_spec c s a b : cut c s = Some (a, b) -> s = (a ++ String c b)%string /\ has_char c a = false.
Proof.
  revert a b. induction s as [|d s IH]; cbn [cut]; intros a b H; [discriminate|]. destruct (Ascii.eqb_spec d c) as [->|N].
  - injection H as <- <-. auto.
  - destruct (cut c s) as [[x y]|]; [|discriminate]. injection H as <- <-. destruct (IH x y eq_refl) as [-> A]. split; auto. cbn [has_char].
    rewrite A, orb_false_r. apply Ascii.eqb_neq. auto.
Qed.
Lemma cut_none c s : has_char c s = false -> cut c s = None.
Proof.
  induction s as [|d s IH]; cbn [cut has_char]; auto. intros H. apply orb_false_elim in H. destruct H as [A B]. apply Ascii.eqb_neq in A.
  destruct (Ascii.eqb_spec d c) as [->|N]; [congruence|]. rewrite IH; auto.
Qed.
Lemma cut_app c s t : has_char c s = false -> cut c (s ++ String c t) = Some (s, t).
Proof.
  induction s as [|d s IH]; cbn [cut has_char append]; intros H; [rewrite Ascii.eqb_refl; auto|]. apply orb_false_elim in H. destruct H as [A B].
  apply Ascii.eqb_neq in A. destruct (Ascii.eqb_spec d c) as [->|N]; [congruence|]. rewrite IH; auto.
Qed.
Lemma plain_no c p : plain_char c = false -> sforall plain_char p = true -> has_char c p = false.
Proof. apply has_char_sforall. Qed.

Lemma drop_params_none s : has_char ";" s = false -> drop_params s = s.
Proof.
  induction s as [|c s IH]; cbn [drop_params has_char]; auto. intros H. pose proof H as H0. apply orb_false_elim in H. destruct H as [A B].
  destruct (has_char "/" s); [rewrite IH; auto|]. destruct (Ascii.eqb c "/"); unfold before; rewrite cut_none; auto.
Qed.
Lemma remove_unsafe_none s : sforall (fun c => negb (is_unsafe c)) s = true -> remove_unsafe s = s.
Proof.
  induction s as [|c s IH]; cbn [sforall remove_unsafe]; auto. rewrite andb_true_iff. intros [A B]. destruct (is_unsafe c); [discriminate|].
  rewrite IH; auto.
Qed.
Lemma plain_safe p : sforall plain_char p = true -> sforall (fun c => negb (is_unsafe c)) p = true.
Proof.
  induction p as [|c p IH]; cbn [sforall]; auto. rewrite !andb_true_iff. intros [A B]. split; auto. unfold plain_char in A. apply andb_true_iff in A. destruct A as [A _].
  apply Nat.leb_le in A. unfold is_unsafe. 
  destruct (Ascii.eqb_spec c "009"); [subst; cbn in A; lia|]. destruct (Ascii.eqb_spec c "010"); [subst; cbn in A; lia|].
  destruct (Ascii.eqb_spec c "013"); [subst; cbn in A; lia|]. auto.
Qed.
Lemma sforall_app f a b : sforall f (a ++ b) = sforall f a && sforall f b.
Proof. induction a as [|c a IH]; cbn [append sforall]; auto. rewrite IH, andb_assoc. auto. Qed.

Lemma lstrip_control_plain p r : plain_path p -> (forall c r', r = String c r' -> 32 < nat_of_ascii c) -> lstrip_control (p ++ r) = (p ++ r)%string.
Proof.
  intros (P & _ & S) R. destruct p as [|c p]; cbn [append].
  - destruct r as [|c r]; auto. cbn [lstrip_control]. specialize (R c r eq_refl). destruct (Nat.leb_spec (nat_of_ascii c) 32); auto; lia.
  - cbn [lstrip_control]. destruct (Nat.leb_spec (nat_of_ascii c) 32) as [L|]; auto. exfalso. cbn [sforall] in P. apply andb_true_iff in P.
    destruct P as [P _]. unfold plain_char in P. apply andb_true_iff in P. destruct P as [P _]. apply Nat.leb_le in P.
    assert (E : nat_of_ascii c = 32) by lia. assert (C : c = " "%char) by (rewrite <- (ascii_nat_embedding c), E; reflexivity). subst c. destruct p; discriminate S.
Qed.

Lemma urlparse_fragment p f : plain_path p -> sforall (fun c => negb (is_unsafe c)) f = true -> urlparse (p ++ String "#" f) = Uri "" p f.
Proof.
  intros PP F. pose proof PP as (P & S & S'). unfold urlparse.
  rewrite lstrip_control_plain; auto; [|intros c r' E; injection E as <- <-; cbn; lia].
  rewrite remove_unsafe_none by (rewrite sforall_app, (plain_safe _ P); cbn [sforall]; rewrite F; reflexivity).
  assert (SC : match cut ":" (p ++ String "#" f) with
    | Some (String c a, b) => if is_alpha c && sforall is_scheme_char a then (smap lower_char (String c a), b) else ("", (p ++ String "#" f)%string)
    | _ => ("", (p ++ String "#" f)%string) end = ("", (p ++ String "#" f)%string)).
  { destruct (cut ":" (p ++ String "#" f)) as [[[|c a] b]|] eqn:C; auto. apply cut_spec in C. destruct C as [C _].
    assert (HP : has_char ":" p = false) by (apply plain_no; auto).
    assert (X : has_char "#" (String c a) = true).
    { clear - C HP. revert p C HP. generalize (String c a). clear c a. induction s as [|d s IH]; intros p C HP.
      - destruct p as [|e p]; cbn in C; [discriminate|]. injection C as -> _. cbn in HP. discriminate.
      - destruct p as [|e p]; cbn [append] in C; injection C as -> C; [cbn [has_char]; rewrite Ascii.eqb_refl; reflexivity|]. cbn [has_char] in *. apply orb_false_elim in HP. destruct HP as [_ HP].
        rewrite (IH _ C HP). apply orb_true_r. }
    cbn [has_char] in X. destruct (Ascii.eqb_spec "#" c) as [<-|N]; [reflexivity|]. cbn [orb] in X.
    assert (Y : sforall is_scheme_char a = false).
    { destruct (sforall is_scheme_char a) eqn:Y; auto. assert (has_char "#" a = false) by (eapply has_char_sforall; [|exact Y]; reflexivity). congruence. }
    rewrite Y, andb_false_r. auto. }
  rewrite SC. 
  assert (SL : match (p ++ String "#" f)%string with String "/" (String "/" r) => drop_netloc r | _ => (p ++ String "#" f)%string end = (p ++ String "#" f)%string).
  { destruct p as [|c1 [|c2 p]]; [reflexivity| |].
    - cbn [append]. destruct c1 as [[] [] [] [] [] [] [] []]; reflexivity.
    - cbn [append]. destruct (Ascii.eqb_spec c1 "/") as [->|N1]; [destruct (Ascii.eqb_spec c2 "/") as [->|N2]; [destruct p; discriminate S|]|].
      + destruct c2 as [[] [] [] [] [] [] [] []]; try reflexivity. congruence.
      + destruct c1 as [[] [] [] [] [] [] [] []]; try reflexivity. congruence. }
  rewrite SL. unfold before, after. rewrite cut_app by (apply plain_no; auto). rewrite (cut_none "?") by (apply plain_no; auto).
  change (smem "" uses_params) with true. cbv iota. rewrite drop_params_none by (apply plain_no; auto). auto.
Qed.

Lemma urlparse_plain p : plain_path p -> urlparse p = Uri "" p "".
Proof.
  intros PP. pose proof PP as (P & S & S'). unfold urlparse.
  assert (L : lstrip_control p = p) by (rewrite <- (sapp_nil_r p) at 1; rewrite lstrip_control_plain; [apply sapp_nil_r|auto|discriminate]).
  rewrite L, remove_unsafe_none by (apply plain_safe; auto). rewrite (cut_none ":") by (apply plain_no; auto).
  assert (SL : match p with String "/" (String "/" r) => drop_netloc r | _ => p end = p).
  { destruct p as [|c1 [|c2 p]]; [reflexivity| |].
    - destruct c1 as [[] [] [] [] [] [] [] []]; reflexivity.
    - destruct (Ascii.eqb_spec c1 "/") as [->|N1]; [destruct (Ascii.eqb_spec c2 "/") as [->|N2]; [destruct p; discriminate S|]|].
      + destruct c2 as [[] [] [] [] [] [] [] []]; try reflexivity. congruence.
      + destruct c1 as [[] [] [] [] [] [] [] []]; try reflexivity. congruence. }
  rewrite SL. unfold before, after. rewrite (cut_none "#") by (apply plain_no; auto). rewrite (cut_none "?") by (apply plain_no; auto).
  change (smem "" uses_params) with true. cbv iota. rewrite drop_params_none by (apply plain_no; auto). auto.
Qed.

Lemma replace_char_none c d s : has_char c s = false -> replace_char c d s = s.
Proof.
  induction s as [|x s IH]; cbn [has_char replace_char]; auto. intros H. apply orb_false_elim in H. destruct H as [A B].
  rewrite IH by auto. rewrite Ascii.eqb_sym in A. rewrite A. auto.
Qed.
Lemma unquote_cons c s : c <> "%"%char -> unquote (String c s) = String c (unquote s).
Proof. intros N. cbn [unquote]. destruct c as [[] [] [] [] [] [] [] []]; try reflexivity. congruence. Qed.
Lemma unquote_none s : has_char "%" s = false -> unquote s = s.
Proof.
  induction s as [|c s IH]; auto. cbn [has_char]. intros H. apply orb_false_elim in H. destruct H as [A B]. apply Ascii.eqb_neq in A.
  rewrite unquote_cons by congruence. rewrite IH; auto.
Qed.
Lemma unquote_plus_plain p : plain_path p -> unquote_plus p = p.
Proof.
  intros (P & _). unfold unquote_plus. rewrite replace_char_none by (apply plain_no; auto). apply unquote_none. apply plain_no; auto.
Qed.

Lemma hex_round c : (exists x y, hex_value (hex_digit (nat_of_ascii c / 16)) = Some x /\ hex_value (hex_digit (nat_of_ascii c mod 16)) = Some y /\ ascii_of_nat (16 * x + y) = c).
Proof. destruct c as [[] [] [] [] [] [] [] []]; eexists; eexists; (split; [reflexivity|]); (split; [reflexivity|]); reflexivity. Qed.
Lemma unquote_quote p : unquote (quote p) = p.
Proof.
  induction p as [|c p IH]; auto. cbn [quote]. destruct (unreserved c) eqn:U.
  - rewrite unquote_cons; [rewrite IH; auto|]. intros ->. discriminate.
  - destruct (hex_round c) as (x & y & X & Y & E). cbn [unquote]. rewrite X, Y, E, IH. auto.
Qed.
Definition quoted_char (c : ascii) : bool := unreserved c || Ascii.eqb c "%".
Lemma hex_digit_unreserved c : unreserved (hex_digit (nat_of_ascii c / 16)) = true /\ unreserved (hex_digit (nat_of_ascii c mod 16)) = true.
Proof. destruct c as [[] [] [] [] [] [] [] []]; split; reflexivity. Qed.
Lemma quote_chars p : sforall quoted_char (quote p) = true.
Proof.
  induction p as [|c p IH]; auto. cbn [quote]. destruct (unreserved c) eqn:U; cbn [sforall]; rewrite IH.
  - unfold quoted_char. rewrite U. auto.
  - destruct (hex_digit_unreserved c) as [A B]. unfold quoted_char. rewrite A, B. auto.
Qed.
Lemma quote_no c p : quoted_char c = false -> has_char c (quote p) = false.
Proof. intros H. eapply has_char_sforall; [exact H|apply quote_chars]. Qed.
Lemma unquote_plus_quote p : unquote_plus (quote p) = p.
Proof. unfold unquote_plus. rewrite replace_char_none by (apply quote_no; reflexivity). apply unquote_quote. Qed.
Lemma quoted_safe p : sforall quoted_char p = true -> sforall (fun c => negb (is_unsafe c)) p = true.
Proof.
  induction p as [|c p IH]; cbn [sforall]; auto. rewrite !andb_true_iff. intros [A B]. split; auto.
  destruct (is_unsafe c) eqn:U; auto. unfold is_unsafe in U.
  destruct (Ascii.eqb_spec c "009"); [subst; discriminate|]. destruct (Ascii.eqb_spec c "010"); [subst; discriminate|].
  destruct (Ascii.eqb_spec c "013"); [subst; discriminate|]. discriminate.
Qed.
Lemma urlparse_file_uri p f : sforall (fun c => negb (is_unsafe c)) f = true -> startswith "/" p = true ->
  urlparse ("file://" ++ quote p ++ String "#" f) = Uri "file" (quote p) f /\ urlparse ("file://" ++ quote p) = Uri "file" (quote p) "".
Proof.
  intros F S. destruct p as [|c p]; [discriminate|]. assert (c = "/"%char) as ->.
  { cbn in S. destruct c as [[] [] [] [] [] [] [] []]; try discriminate; auto. }
  change (quote (String "/" p)) with (String "/" (quote p)).
  set (q := quote p) in *.
  assert (Q : sforall (fun c => negb (is_unsafe c)) q = true) by (apply quoted_safe, quote_chars).
  unfold urlparse. cbn [append]. split.
  - match goal with |- context [lstrip_control ?x] => change (lstrip_control x) with x end.
    rewrite remove_unsafe_none by (cbn [sforall]; rewrite sforall_app, Q; cbn [sforall]; rewrite F; reflexivity).
    match goal with |- context [cut ":" (String "f" (String "i" (String "l" (String "e" (String ":" ?x)))))] =>
      change (cut ":" (String "f" (String "i" (String "l" (String "e" (String ":" x)))))) with (Some ("file", x)) end.
    cbv iota. change (is_alpha "f" && sforall is_scheme_char "ile") with true. cbv iota.
    change (smap lower_char "file") with "file". cbn [drop_netloc Ascii.eqb orb Bool.eqb].
    unfold after, before.
    change (String "/" (q ++ String "#" f)) with ((String "/" q) ++ String "#" f)%string.
    rewrite cut_app by (cbn [has_char]; unfold q; rewrite quote_no; reflexivity).
    rewrite (cut_none "?") by (cbn [has_char]; unfold q; rewrite quote_no; reflexivity). reflexivity.
  - match goal with |- context [lstrip_control ?x] => change (lstrip_control x) with x end.
    rewrite remove_unsafe_none by (cbn [sforall]; rewrite Q; reflexivity).
    match goal with |- context [cut ":" (String "f" (String "i" (String "l" (String "e" (String ":" ?x)))))] =>
      change (cut ":" (String "f" (String "i" (String "l" (String "e" (String ":" x)))))) with (Some ("file", x)) end.
    cbv iota. change (is_alpha "f" && sforall is_scheme_char "ile") with true. cbv iota.
    change (smap lower_char "file") with "file". cbn [drop_netloc Ascii.eqb orb Bool.eqb].
    unfold after, before.
    rewrite (cut_none "#") by (cbn [has_char]; unfold q; rewrite quote_no; reflexivity).
    rewrite (cut_none "?") by (cbn [has_char]; unfold q; rewrite quote_no; reflexivity). reflexivity.
Qed.

(** ** The generated names of the two streams *)
Section Separate.
Variable digest : tool -> string.
Lemma later_stderr todo : forall t seen t', t_stdout t <> None -> t_stderr t = None -> t_outputs t = seen ++ todo ->
  Exists (shortcut "stderr") todo -> convert_outputs digest t seen todo = Ok t' ->
  exists tb, t_stdout tb <> None /\ t_stderr t' = Some (digest tb).
Proof.
  induction todo as [|out todo IH]; intros t seen t' SO SE HO X H; [inversion X|]. cbn [convert_outputs] in H.
  destruct (is_type "stdout" out) eqn:E1; [|destruct (is_type "stderr" out) eqn:E2].
  - apply is_type_spec in E1. destruct (po_binding out); [discriminate|]. destruct (t_stdout t) eqn:S; [|congruence].
    inversion X as [? ? X0|? ? X0]; subst; [destruct (stdout_not_stderr _ E1 X0)|].
    eapply IH; [| |  |exact X0|exact H]; [cbn; congruence|exact SE|cbn; rewrite <- app_assoc; reflexivity].
  - destruct (po_binding out); [discriminate|]. rewrite SE in H.
    apply convert_outputs_spec in H; [|cbn; rewrite <- app_assoc; reflexivity].
    cbn [set_outputs set_stderr t_stderr] in H. destruct H as (_ & _ & _ & _ & _ & [I5|[I5 _]] & _); [|discriminate]. exists t. auto.
  - apply is_type_false in E1, E2. inversion X as [? ? X0|? ? X0]; subst; [contradiction|].
    eapply IH; [exact SO|exact SE| |exact X0|exact H]; rewrite <- app_assoc; auto.
Qed.
Lemma later_stdout todo : forall t seen t', t_stderr t <> None -> t_stdout t = None -> t_outputs t = seen ++ todo ->
  Exists (shortcut "stdout") todo -> convert_outputs digest t seen todo = Ok t' ->
  exists tb, t_stderr tb <> None /\ t_stdout t' = Some (digest tb).
Proof.
  induction todo as [|out todo IH]; intros t seen t' SE SO HO X H; [inversion X|]. cbn [convert_outputs] in H.
  destruct (is_type "stdout" out) eqn:E1; [|destruct (is_type "stderr" out) eqn:E2].
  - destruct (po_binding out); [discriminate|]. rewrite SO in H.
    apply convert_outputs_spec in H; [|cbn; rewrite <- app_assoc; reflexivity].
    cbn [set_outputs set_stdout t_stdout] in H. destruct H as (_ & _ & _ & _ & [I5|[I5 _]] & _); [|discriminate]. exists t. auto.
  - apply is_type_spec in E2. destruct (po_binding out); [discriminate|]. destruct (t_stderr t) eqn:S; [|congruence].
    inversion X as [? ? X0|? ? X0]; subst; [destruct (stdout_not_stderr _ X0 E2)|].
    eapply IH; [| |  |exact X0|exact H]; [cbn; congruence|exact SO|cbn; rewrite <- app_assoc; reflexivity].
  - apply is_type_false in E1, E2. inversion X as [? ? X0|? ? X0]; subst; [contradiction|].
    eapply IH; [exact SE|exact SO| |exact X0|exact H]; rewrite <- app_assoc; auto.
Qed.
Lemma separate todo : forall t seen t', t_stdout t = None -> t_stderr t = None -> t_outputs t = seen ++ todo ->
  Exists (shortcut "stdout") todo -> Exists (shortcut "stderr") todo -> convert_outputs digest t seen todo = Ok t' ->
  exists ta tb, ta <> tb /\ t_stdout t' = Some (digest ta) /\ t_stderr t' = Some (digest tb).
Proof.
  induction todo as [|out todo IH]; intros t seen t' SO SE HO X Y H; [inversion X|]. cbn [convert_outputs] in H.
  destruct (is_type "stdout" out) eqn:E1; [|destruct (is_type "stderr" out) eqn:E2].
  - apply is_type_spec in E1. destruct (po_binding out); [discriminate|]. rewrite SO in H.
    inversion Y as [? ? Y0|? ? Y0]; subst; [destruct (stdout_not_stderr _ E1 Y0)|].
    assert (HO' : forall o, t_outputs (set_outputs (seen ++ o :: todo) (set_stdout (digest t) t)) = (seen ++ [o]) ++ todo) by (intros; cbn; rewrite <- app_assoc; reflexivity).
    pose proof H as H0. eapply later_stderr in H; [|discriminate|exact SE|apply HO'|exact Y0]. destruct H as (tb & B1 & B2).
    apply convert_outputs_spec in H0; [|apply HO']. cbn [set_outputs set_stdout t_stdout] in H0.
    destruct H0 as (_ & _ & _ & _ & [I5|[I5 _]] & _); [|discriminate]. exists t, tb. repeat split; auto. congruence.
  - apply is_type_spec in E2. destruct (po_binding out); [discriminate|]. rewrite SE in H.
    inversion X as [? ? Y0|? ? Y0]; subst; [destruct (stdout_not_stderr _ Y0 E2)|].
    assert (HO' : forall o, t_outputs (set_outputs (seen ++ o :: todo) (set_stderr (digest t) t)) = (seen ++ [o]) ++ todo) by (intros; cbn; rewrite <- app_assoc; reflexivity).
    pose proof H as H0. eapply later_stdout in H; [|discriminate|exact SO|apply HO'|exact Y0]. destruct H as (tb & B1 & B2).
    apply convert_outputs_spec in H0; [|apply HO']. cbn [set_outputs set_stderr t_stderr] in H0.
    destruct H0 as (_ & _ & _ & _ & _ & [I5|[I5 _]] & _); [|discriminate]. exists tb, t. repeat split; auto. congruence.
  - apply is_type_false in E1, E2. inversion X as [? ? X0|? ? X0]; subst; [contradiction|]. inversion Y as [? ? Y0|? ? Y0]; subst; [contradiction|].
    eapply IH; [exact SO|exact SE| |exact X0|exact Y0|exact H]; rewrite <- app_assoc; auto.
Qed.
End Separate.

(** the host of a URI *)
Definition host_char (c : ascii) : bool := negb (Ascii.eqb c "/" || Ascii.eqb c "?" || Ascii.eqb c "#") && negb (is_unsafe c).
Definition ends_host (r : string) : Prop := r = "" \/ startswith "/" r = true \/ startswith "?" r = true \/ startswith "#" r = true.
Lemma drop_netloc_host h r : sforall host_char h = true -> ends_host r -> drop_netloc (h ++ r) = r.
Proof.
  intros H E. induction h as [|c h IH]; cbn [append].
  - destruct E as [-> | E]; [reflexivity|]. destruct r as [|x r]; [reflexivity|]. cbn [drop_netloc].
    assert (Q : Ascii.eqb x "/" || Ascii.eqb x "?" || Ascii.eqb x "#" = true); [|rewrite Q; reflexivity].
    rewrite !startswith_spec in E. destruct E as [(z & E) | [(z & E) | (z & E)]]; injection E as -> _; reflexivity.
  - cbn [sforall] in H. apply andb_true_iff in H. destruct H as (A & B). cbn [drop_netloc].
    unfold host_char in A. apply andb_true_iff in A. destruct A as (A & _). apply negb_true_iff in A. rewrite A. auto.
Qed.
Lemma host_safe h : sforall host_char h = true -> sforall (fun c => negb (is_unsafe c)) h = true.
Proof.
  induction h as [|c h IH]; cbn [sforall]; auto. rewrite !andb_true_iff. unfold host_char. rewrite andb_true_iff. tauto.
Qed.
Lemma urlparse_host h r : sforall host_char h = true -> ends_host r -> sforall (fun c => negb (is_unsafe c)) r = true ->
  urlparse ("file://" ++ h ++ r) = Uri "file" (before "?" (before "#" r)) (after "#" r).
Proof.
  intros H E R. unfold urlparse. cbn [append].
  match goal with |- context [lstrip_control ?x] => change (lstrip_control x) with x end.
  rewrite remove_unsafe_none by (cbn [sforall]; rewrite sforall_app, R, (host_safe _ H); reflexivity).
  match goal with |- context [cut ":" (String "f" (String "i" (String "l" (String "e" (String ":" ?x)))))] =>
    change (cut ":" (String "f" (String "i" (String "l" (String "e" (String ":" x)))))) with (Some ("file", x)) end.
  cbv iota. change (is_alpha "f" && sforall is_scheme_char "ile") with true. cbv iota.
  change (smap lower_char "file") with "file". rewrite drop_netloc_host by auto. reflexivity.
Qed.
