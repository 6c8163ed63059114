(** * Proofs about the Node.js engine *)
From Verif Require Import PyBase PyBaseProofs NodeModel NodeSpec.
From Verif Require ParserModel.
From Coq Require Import ZArith Lia.

(** ** Texts *)
Lemma slen_app a b : String.length (a ++ b) = String.length a + String.length b.
Proof. induction a; cbn; auto. Qed.

Lemma stake_sdrop n s : (stake n s ++ sdrop n s)%string = s.
Proof. revert s; induction n; destruct s; cbn; auto. f_equal. apply IHn. Qed.

Lemma stake_app_exact a b : stake (String.length a) (a ++ b) = a.
Proof. induction a; cbn; [destruct b; auto|f_equal; auto]. Qed.

Lemma cut_line_spec s l r : cut_line s = Some (l, r) <-> s = (l ++ String c_nl r)%string /\ has_char c_nl l = false.
Proof.
  revert l r; induction s as [|c s IH]; intros l r; cbn [cut_line].
  - split; [discriminate|]. intros [H _]. destruct l; discriminate.
  - destruct (Ascii.eqb_spec c c_nl) as [->|N].
    + split.
      * intros H; injection H as <- <-; auto.
      * intros [H A]. destruct l as [|d l]; cbn [append] in H; injection H; intros; subst; auto.
        cbn [has_char] in A. rewrite Ascii.eqb_refl in A. discriminate.
    + destruct (cut_line s) as [[l' r']|] eqn:E.
      * destruct (proj1 (IH l' r') eq_refl) as [-> A]. split.
        -- intros H; injection H as <- <-. split; auto. cbn [has_char]. rewrite A, orb_false_r.
           apply Ascii.eqb_neq. congruence.
        -- intros [H B]. destruct l as [|d l]; cbn [append] in H.
           ++ injection H as H _. contradiction.
           ++ injection H as <- H. cbn [has_char] in B. apply orb_false_iff in B as [_ B].
              assert (X : Some (l', r') = Some (l, r)) by (apply IH; auto). injection X as <- <-; auto.
      * split; [discriminate|]. intros [H B]. destruct l as [|d l]; cbn [append] in H.
        -- injection H as H _. contradiction.
        -- injection H as <- H. cbn [has_char] in B. apply orb_false_iff in B as [_ B].
           assert (X : None = Some (l, r)) by (apply IH; auto). discriminate.
Qed.

Lemma cut_line_app l r : has_char c_nl l = false -> cut_line (l ++ String c_nl r) = Some (l, r).
Proof. intros H. apply cut_line_spec; auto. Qed.

Lemma cut_line_None s : cut_line s = None <-> has_char c_nl s = false.
Proof.
  induction s as [|c s IH]; cbn [cut_line has_char]; [tauto|].
  rewrite (Ascii.eqb_sym c_nl c). destruct (Ascii.eqb c c_nl); cbn [orb]; [split; discriminate|].
  destruct (cut_line s) as [[l r]|]; rewrite <- IH; split; congruence.
Qed.

Lemma marker_line : has_char c_nl marker = false. Proof. reflexivity. Qed.
Lemma app_line_inj l r l' r' : has_char c_nl l = false -> has_char c_nl l' = false ->
  (l ++ String c_nl r = l' ++ String c_nl r')%string -> l = l' /\ r = r'.
Proof. intros A B H. apply (f_equal cut_line) in H. rewrite !cut_line_app in H by auto. injection H; auto. Qed.

Lemma nonl_app a b : (a ++ nl ++ b)%string = (a ++ String c_nl b)%string. Proof. reflexivity. Qed.

(** The end mark shows only at the end of what one script prints. *)
Lemma mark_ends_once text p q : one_line text ->
  (p ++ q = text ++ nl ++ marker ++ nl)%string -> endswith process_finished_str p = true -> q = "".
Proof.
  intros [T1 T2] H E. apply endswith_spec in E as [x ->].
  unfold process_finished_str in *. rewrite nonl_app in H. unfold nl in *.
  rewrite !sapp_assoc in H. cbn [append] in H.
  destruct (cut_line x) as [[x1 x2]|] eqn:C.
  - apply cut_line_spec in C as [-> C]. rewrite sapp_assoc in H. cbn [append] in H.
    apply app_line_inj in H as [-> H]; auto.
    destruct (cut_line x2) as [[a b]|] eqn:D.
    + apply cut_line_spec in D as [-> D]. rewrite sapp_assoc in H. cbn [append] in H.
      apply app_line_inj in H as [-> H]; auto using marker_line. exfalso.
      apply (f_equal String.length) in H. rewrite slen_app in H. cbn in H. lia.
    + apply cut_line_None in D. rewrite <- sapp_assoc in H. apply app_line_inj in H as [_ H]; auto using marker_line.
      rewrite has_char_app, D. reflexivity.
  - apply cut_line_None in C. rewrite <- sapp_assoc in H. apply app_line_inj in H as [H _]; auto.
    + subst. exfalso. assert (Y : endswith marker (x ++ marker) = true) by (apply endswith_spec; eauto). congruence.
    + rewrite has_char_app, C. reflexivity.
Qed.

Lemma mark_alone p q : (p ++ q = marker ++ nl)%string -> endswith process_finished_str p = true -> q = "".
Proof.
  intros H E. apply endswith_spec in E as [x ->]. unfold process_finished_str in *.
  apply (f_equal String.length) in H. rewrite !slen_app in H. destruct q; auto. cbn in H. lia.
Qed.

Lemma mark_not_empty : endswith process_finished_str "" = false. Proof. reflexivity. Qed.

Lemma strip_text text : strip_mark (text ++ nl ++ marker ++ nl) = text.
Proof.
  unfold strip_mark, sdrop_last. rewrite !slen_app.
  replace (_ - _) with (String.length text) by (cbn; lia). apply stake_app_exact.
Qed.
Lemma strip_alone : strip_mark (marker ++ nl) = "". Proof. reflexivity. Qed.
Lemma strip_prefix p q text : (p ++ q = text ++ nl ++ marker ++ nl)%string -> exists more, text = (strip_mark p ++ more)%string.
Proof.
  intros H. unfold strip_mark, sdrop_last.
  assert (L : String.length p - (String.length process_finished_str + 1) <= String.length text).
  { apply (f_equal String.length) in H. rewrite !slen_app in H. cbn in H |- *. lia. }
  assert (X : stake (String.length p - (String.length process_finished_str + 1)) p =
              stake (String.length p - (String.length process_finished_str + 1)) text).
  { remember (String.length p - _) as k eqn:K. assert (A : k <= String.length p) by lia. clear K.
    revert p text H L A. induction k; intros p text H L A; [destruct p, text; reflexivity|].
    destruct p; [cbn in A; lia|]. destruct text; [cbn in L; lia|]. cbn [append] in H. injection H as <- H.
    cbn [stake]. f_equal. apply IHk; auto; cbn in *; lia. }
  rewrite X. exists (sdrop (String.length p - (String.length process_finished_str + 1)) text). symmetry. apply stake_sdrop.
Qed.
Lemma strip_short p q : (p ++ q = marker ++ nl)%string -> strip_mark p = "".
Proof.
  intros H. unfold strip_mark, sdrop_last. replace (_ - _) with 0; [destruct p; reflexivity|].
  apply (f_equal String.length) in H. rewrite !slen_app in H. cbn in *. lia.
Qed.

(** ** Lists of processes *)
Lemma nth_replace_same {A} i (x : A) l y : nth_error l i = Some y -> nth_error (replace_nth i x l) i = Some x.
Proof. revert l; induction i; destruct l; cbn; intros H; try discriminate; auto. Qed.
Lemma nth_replace_other {A} i j (x : A) l : i <> j -> nth_error (replace_nth i x l) j = nth_error l j.
Proof. revert j l; induction i; destruct l, j; cbn; intros H; auto; contradiction. Qed.
Lemma nth_snoc {A} (l : list A) x i y : nth_error l i = Some y -> nth_error (l ++ [x]) i = Some y.
Proof. intros H. rewrite nth_error_app1; auto. apply nth_error_Some. congruence. Qed.

Lemma key_eqb_eq a b : key_eqb a b = true <-> a = b.
Proof.
  destruct a as [e c], b as [e' c']. unfold key_eqb; cbn. rewrite andb_true_iff. split.
  - intros [A B]. f_equal; [destruct e, e'; cbn in A; congruence|].
    destruct c, c'; try congruence. apply String.eqb_eq in B. congruence.
  - intros H; injection H as <- <-. split; [destruct e; reflexivity|]. destruct c; auto. apply String.eqb_refl.
Qed.
Lemma lookup_In k l p : lookup k l = Some p -> In (k, p) l.
Proof.
  induction l as [|[k' p'] l IH]; cbn; [discriminate|]. destruct (key_eqb k k') eqn:E.
  - apply key_eqb_eq in E. intros H; injection H as <-; subst; auto.
  - auto.
Qed.

(** ** What the handlers print *)
Fixpoint outs (l : list (stream * string)) : string :=
  match l with
  | [] => ""
  | (Stdout, w) :: l' => w ++ outs l'
  | (Stderr, _) :: l' => outs l'
  end.
Definition said (o : outcome) : string := outs (handler_writes false o).

Lemma outs_first o : outs (handler_writes true o) = "". Proof. destruct o; reflexivity. Qed.
Lemma said_Returns c t : said (Returns c t) = (t ++ nl ++ marker ++ nl)%string.
Proof. unfold said, handler_writes. cbn [outs]. rewrite sapp_nil_r, sapp_assoc. reflexivity. Qed.
Lemma said_Throws c t : said (Throws c t) = (marker ++ nl)%string.
Proof. reflexivity. Qed.
Lemma said_Hangs c : said (Hangs c) = "". Proof. reflexivity. Qed.

Section Inv.
Variable dumps : string -> string.
Variable parse : string -> option string.
Variable complaint : string -> string.
Variable runs : engine -> option string -> string -> outcome -> Prop.
Variable pipe_buf : nat.
Hypothesis JL : json_lines dumps parse.
Hypothesis PL : prints_lines runs.

Notation node_step := (node_step parse complaint runs pipe_buf).
Notation handles := (handles parse complaint runs).
Notation step := (step dumps parse complaint runs pipe_buf).
Notation reachable := (reachable dumps parse complaint runs pipe_buf).

(** A process nobody waits for, and a process that serves an evaluation *)
Definition idle (n : node) : Prop :=
  n_first n = false /\ n_incoming n = "" /\ n_stdin n = "" /\ n_out n = "" /\ outs (n_todo n) = "".
Definition sending (n : node) (ev : evaluation) : Prop :=
  n_first n = false /\ (n_incoming n ++ n_stdin n ++ ev_stdin ev = dumps (rq_script (ev_request ev)) ++ nl)%string /\
  n_out n = "" /\ ev_out ev = "" /\ outs (n_todo n) = "".
Definition preparing (n : node) (ev : evaluation) : Prop :=
  n_first n = true /\ (exists c, n_incoming n ++ n_stdin n ++ ev_stdin ev = dumps c ++ nl ++ dumps (rq_script (ev_request ev)) ++ nl)%string /\
  n_out n = "" /\ ev_out ev = "" /\ outs (n_todo n) = "".
Definition answering (n : node) (ev : evaluation) : Prop :=
  n_first n = false /\ n_incoming n = "" /\ n_stdin n = "" /\ ev_stdin ev = "" /\
  exists o, runs (n_engine n) (n_context n) (rq_script (ev_request ev)) o /\
            (ev_out ev ++ n_out n ++ outs (n_todo n) = said o)%string.
Definition busy (n : node) (ev : evaluation) : Prop := sending n ev \/ preparing n ev \/ answering n ev.

Definition serves (n : node) (t : nat) (r : request) : Prop :=
  n_owner n = t /\ engine_of r = Ok (n_engine n) /\ rq_context r = n_context n.

Definition content (s : system) (pid : nat) (n : node) : Prop :=
  match th_now (sy_threads s (n_owner n)) with
  | Some ev => if Nat.eqb (ev_pid ev) pid then busy n ev else idle n
  | None => idle n
  end.

Definition good (earlier : list record) (r : record) : Prop :=
  forall pid out err, rc_pid r = Some pid -> ~ disturbed earlier pid -> rc_end r = Finished 0 out err ->
    beginning_of_own_output runs (rc_request r) out /\ (rc_killed r = false -> own_output runs (rc_request r) out).
Fixpoint good_log (l : list record) : Prop := match l with [] => True | r :: l' => good l' r /\ good_log l' end.

Record inv (s : system) : Prop := {
  i_procs : forall t k pid, In (k, pid) (th_procs (sy_threads s t)) ->
    exists n, nth_error (sy_nodes s) pid = Some n /\ n_owner n = t /\ (n_engine n, n_context n) = k;
  i_now : forall t ev, th_now (sy_threads s t) = Some ev ->
    exists n, nth_error (sy_nodes s) (ev_pid ev) = Some n /\ serves n t (ev_request ev);
  i_log : forall t r pid, In r (th_log (sy_threads s t)) -> rc_pid r = Some pid ->
    exists n, nth_error (sy_nodes s) pid = Some n /\ serves n t (rc_request r);
  i_exit : forall pid n c, nth_error (sy_nodes s) pid = Some n -> n_exit n = Some c -> c <> 0%Z;
  i_timer : forall t ev, th_now (sy_threads s t) = Some ev -> ev_timer ev <> Armed -> ev_killed ev = true;
  i_left : forall t ev, th_now (sy_threads s t) = Some ev -> ev_left ev = true ->
    ev_killed ev = true \/ process_finished ev = Ok true \/
    exists n c, nth_error (sy_nodes s) (ev_pid ev) = Some n /\ n_exit n = Some c;
  i_content : forall pid n, nth_error (sy_nodes s) pid = Some n ->
    disturbed (th_log (sy_threads s (n_owner n))) pid \/ n_exit n <> None \/ content s pid n;
  i_good : forall t, good_log (th_log (sy_threads s t)) }.

(** ** Steps of a process *)
Lemma handles_same n l r n' : handles n l r n' ->
  n_owner n' = n_owner n /\ n_engine n' = n_engine n /\ n_context n' = n_context n /\ n_exit n' = n_exit n.
Proof. intros H; destruct H; cbn; auto. Qed.
Lemma node_step_same n n' : node_step n n' -> n_owner n' = n_owner n /\ n_engine n' = n_engine n /\ n_context n' = n_context n.
Proof.
  intros H; destruct H; cbn; auto.
  - apply handles_same in H5. cbn in H5. tauto.
  - apply handles_same in H4. tauto.
  - destruct f; auto.
Qed.
Lemma node_step_alive n n' : node_step n n' -> n_exit n = None.
Proof. intros H; destruct H; auto. Qed.
Lemma node_step_exit n n' c : node_step n n' -> n_exit n' = Some c -> c <> 0%Z.
Proof.
  intros H E; destruct H; cbn in E; try congruence.
  - apply handles_same in H5. cbn in H5. destruct H5 as (_ & _ & _ & X). congruence.
  - apply handles_same in H4. destruct H4 as (_ & _ & _ & X). congruence.
  - destruct f; cbn in E; congruence.
Qed.

Lemma line_whole inc chunk rest d :
  has_char c_nl d = false ->
  (inc ++ chunk ++ rest = d ++ nl)%string -> forall l r, cut_line (inc ++ chunk) = Some (l, r) -> l = d /\ r = "" /\ rest = "".
Proof.
  intros D E l r C. apply cut_line_spec in C as [C N]. rewrite <- sapp_assoc, C, sapp_assoc in E. cbn [append] in E.
  apply app_line_inj in E as [-> E]; auto. destruct r, rest; try discriminate; auto.
Qed.
Lemma line_first inc chunk rest d after :
  has_char c_nl d = false ->
  (inc ++ chunk ++ rest = d ++ nl ++ after)%string -> forall l r, cut_line (inc ++ chunk) = Some (l, r) -> l = d /\ (r ++ rest)%string = after.
Proof.
  intros D E l r C. apply cut_line_spec in C as [C N]. rewrite <- sapp_assoc, C, sapp_assoc in E. cbn [append] in E.
  apply app_line_inj in E as [-> E]; auto.
Qed.

Lemma handle_sending n ev line rest n' : sending n ev -> cut_line (n_incoming n) = Some (line, rest) -> handles n line rest n' ->
  busy n' ev.
Proof.
  intros (F & E & O & EO & T) C H.
  assert (X := E). rewrite <- (sapp_nil_r (n_incoming n)) in C.
  destruct (line_whole (n_incoming n) "" (n_stdin n ++ ev_stdin ev) (dumps (rq_script (ev_request ev)))
              (proj1 (JL _)) X _ _ C) as (-> & -> & R).
  destruct H as [script o P RU|P].
  - rewrite (proj2 (JL _)) in P. injection P as <-. right; right.
    unfold answering; cbn. rewrite F, O, EO.
    assert (n_stdin n = "" /\ ev_stdin ev = "") as [-> ->] by (destruct (n_stdin n), (ev_stdin ev); try discriminate; auto).
    repeat split; auto. exists o. split; auto.
  - rewrite (proj2 (JL _)) in P. discriminate.
Qed.
Lemma handle_preparing n ev line rest n' : preparing n ev -> cut_line (n_incoming n) = Some (line, rest) -> handles n line rest n' ->
  busy n' ev.
Proof.
  intros (F & [c E] & O & EO & T) C H.
  rewrite <- (sapp_nil_r (n_incoming n)) in C.
  destruct (line_first (n_incoming n) "" (n_stdin n ++ ev_stdin ev) (dumps c) _ (proj1 (JL _)) E _ _ C) as (-> & R).
  destruct H as [script o P RU|P].
  - left. unfold sending; cbn. rewrite F. rewrite outs_first. auto.
  - rewrite (proj2 (JL _)) in P. discriminate.
Qed.

Lemma busy_moved n n1 ev : n_first n1 = n_first n -> n_engine n1 = n_engine n -> n_context n1 = n_context n ->
  (n_incoming n1 ++ n_stdin n1 = n_incoming n ++ n_stdin n)%string -> n_out n1 = n_out n -> n_todo n1 = n_todo n ->
  sending n ev \/ preparing n ev -> sending n1 ev \/ preparing n1 ev.
Proof.
  intros A B C D E F [(S1 & S2 & S3 & S4 & S5)|(S1 & [c S2] & S3 & S4 & S5)]; [left|right]; unfold sending, preparing;
    rewrite A, E, F, <- sapp_assoc, D, sapp_assoc; repeat split; eauto.
Qed.
Lemma answering_silent n ev chunk more : answering n ev -> n_stdin n = (chunk ++ more)%string -> chunk = "" /\ more = "" /\ n_incoming n = "".
Proof. intros (_ & I & S & _) H. rewrite S in H. destruct chunk, more; try discriminate; auto. Qed.

Lemma node_step_busy n n' ev : node_step n n' -> busy n ev -> n_exit n' <> None \/ busy n' ev.
Proof.
  intros H B. destruct H as [chunk more X T HU S C|chunk more line rest n' X T HU S NE C H|line rest n' X T HU EN C H|f a b more X T W|code X NZ].
  - right. destruct B as [B|[B|B]].
    + destruct (busy_moved n (set_input n (n_incoming n ++ chunk) more) ev) as [Y|Y]; unfold busy; auto.
      cbn. rewrite S, sapp_assoc. reflexivity.
    + destruct (busy_moved n (set_input n (n_incoming n ++ chunk) more) ev) as [Y|Y]; unfold busy; auto.
      cbn. rewrite S, sapp_assoc. reflexivity.
    + right; right. destruct (answering_silent _ _ _ _ B S) as (-> & -> & I).
      destruct B as (B1 & B2 & B3 & B4 & o & B5 & B6). unfold answering; cbn. rewrite I. repeat split; auto. eauto.
  - right. destruct B as [B|[B|B]].
    + assert (Y : sending (set_input n (n_incoming n ++ chunk) more) ev \/ preparing (set_input n (n_incoming n ++ chunk) more) ev).
      { eapply busy_moved; try (left; exact B); auto. cbn. rewrite S, sapp_assoc. reflexivity. }
      destruct Y as [Y|Y]; [eapply handle_sending|eapply handle_preparing]; eauto.
    + assert (Y : sending (set_input n (n_incoming n ++ chunk) more) ev \/ preparing (set_input n (n_incoming n ++ chunk) more) ev).
      { eapply busy_moved; try (right; exact B); auto. cbn. rewrite S, sapp_assoc. reflexivity. }
      destruct Y as [Y|Y]; [eapply handle_sending|eapply handle_preparing]; eauto.
    + destruct (answering_silent _ _ _ _ B S) as (-> & -> & I). contradiction.
  - right. destruct B as [B|[B|B]]; [eapply handle_sending|eapply handle_preparing|]; eauto.
    destruct B as (_ & B & _). rewrite B in C. discriminate.
  - right. assert (Q : outs (n_todo n) = outs ((f, a) :: (if String.eqb b "" then more else (f, b) :: more))).
    { rewrite T. destruct (String.eqb_spec b "") as [->|NB]; [rewrite sapp_nil_r; reflexivity|].
      destruct f; cbn [outs]; auto using sapp_assoc. }
    destruct B as [(B1 & B2 & B3 & B4 & B5)|[(B1 & B2 & B3 & B4 & B5)|(B1 & B2 & B3 & B4 & o & B5 & B6)]].
    + left. rewrite Q in B5. unfold sending. destruct f; cbn in *; rewrite ?B3; auto.
      assert (a = "" /\ outs (if String.eqb b "" then more else (Stdout, b) :: more) = "") as [-> ->].
      { destruct a; [auto|discriminate]. }
      auto.
    + right; left. rewrite Q in B5. unfold preparing. destruct f; cbn in *; rewrite ?B3; auto.
      assert (a = "" /\ outs (if String.eqb b "" then more else (Stdout, b) :: more) = "") as [-> ->].
      { destruct a; [auto|discriminate]. }
      auto.
    + right; right. rewrite Q in B6. unfold answering. destruct f; cbn in *; repeat split; auto; exists o; split; auto.
      rewrite sapp_assoc. auto.
  - left. cbn. discriminate.
Qed.

Lemma node_step_idle n n' : node_step n n' -> idle n -> n_exit n' <> None \/ idle n'.
Proof.
  intros H (I1 & I2 & I3 & I4 & I5).
  destruct H as [chunk more X T HU S C|chunk more line rest n' X T HU S NE C H|line rest n' X T HU EN C H|f a b more X T W|code X NZ].
  - right. rewrite I3 in S. destruct chunk, more; try discriminate. unfold idle; cbn. rewrite I2. auto.
  - rewrite I3 in S. destruct chunk; try discriminate. contradiction.
  - rewrite I2 in C. discriminate.
  - right. assert (Q : outs (n_todo n) = outs ((f, a) :: (if String.eqb b "" then more else (f, b) :: more))).
    { rewrite T. destruct (String.eqb_spec b "") as [->|NB]; [rewrite sapp_nil_r; reflexivity|].
      destruct f; cbn [outs]; auto using sapp_assoc. }
    rewrite I5 in Q. unfold idle. destruct f; cbn in *; auto.
    rewrite I4. assert (a = "" /\ outs (if String.eqb b "" then more else (Stdout, b) :: more) = "") as [-> ->].
    { destruct a; [auto|discriminate]. }
    auto.
  - left. cbn. discriminate.
Qed.

(** ** The turns of the loop *)
Lemma turn_same w ev n ev' n' : turn pipe_buf w ev n = (ev', n') ->
  ev_request ev' = ev_request ev /\ ev_pid ev' = ev_pid ev /\ ev_timer ev' = ev_timer ev /\ ev_killed ev' = ev_killed ev /\
  n_owner n' = n_owner n /\ n_engine n' = n_engine n /\ n_context n' = n_context n /\ n_exit n' = n_exit n /\
  (ev_left ev' = ev_left ev \/ n_exit n <> None).
Proof.
  unfold turn. destruct (n_exit n) as [c|] eqn:X; [destruct (if w then _ else _) eqn:B|];
    intros H; injection H as <- <-; cbn; rewrite ?X; repeat split; auto; right; congruence.
Qed.
Lemma turn_busy w ev n ev' n' : turn pipe_buf w ev n = (ev', n') -> n_exit n = None -> busy n ev -> busy n' ev'.
Proof.
  unfold turn. intros H X B. rewrite X in H. injection H as <- <-.
  set (buf := if w then stake pipe_buf (ev_stdin ev) else "").
  assert (Q : (buf ++ (if w then sdrop pipe_buf (ev_stdin ev) else ev_stdin ev) = ev_stdin ev)%string).
  { unfold buf. destruct w; [apply stake_sdrop|reflexivity]. }
  destruct B as [(B1 & B2 & B3 & B4 & B5)|[(B1 & [c B2] & B3 & B4 & B5)|(B1 & B2 & B3 & B4 & o & B5 & B6)]].
  - left. unfold sending; cbn. rewrite B3, B4. cbn.
    rewrite (sapp_assoc (n_stdin n)), Q. repeat split; auto; destruct pipe_buf; reflexivity.
  - right; left. unfold preparing; cbn. rewrite B3, B4. cbn.
    rewrite (sapp_assoc (n_stdin n)), Q. repeat split; eauto; destruct pipe_buf; reflexivity.
  - right; right. unfold answering; cbn. rewrite B4 in *.
    assert (buf = "" /\ (if w then sdrop pipe_buf "" else "") = "") as [-> ->].
    { destruct buf, (if w then _ else _); try discriminate; auto. }
    rewrite B3. repeat split; auto. exists o. split; auto.
    rewrite sapp_assoc. rewrite <- (sapp_assoc (stake _ _)), stake_sdrop. auto.
Qed.

(** ** The end of an evaluation *)
Lemma finished_out ev : process_finished ev = Ok true -> endswith process_finished_str (ev_out ev) = true.
Proof.
  unfold process_finished, ParserModel.decode. destruct (ParserModel.utf8 (ev_out ev)); cbn [bind]; [|discriminate].
  destruct (endswith process_finished_str (ev_out ev)); auto; discriminate.
Qed.
Lemma busy_finished n ev t : serves n t (ev_request ev) -> busy n ev -> process_finished ev = Ok true ->
  own_output runs (ev_request ev) (strip_mark (ev_out ev)) /\ idle n.
Proof.
  intros (_ & V1 & V2) B F. apply finished_out in F.
  destruct B as [(B1 & B2 & B3 & B4 & B5)|[(B1 & [c B2] & B3 & B4 & B5)|(B1 & B2 & B3 & B4 & o & B5 & B6)]].
  - rewrite B4 in F. discriminate.
  - rewrite B4 in F. discriminate.
  - assert (can_have runs (ev_request ev) o) as CH.
    { exists (n_engine n). split; auto. rewrite V2. exact B5. }
    assert (Q : (n_out n ++ outs (n_todo n))%string = "").
    { destruct o as [con text|con shown|con].
      - rewrite said_Returns in B6. eapply mark_ends_once; eauto.
      - rewrite said_Throws in B6. eapply mark_alone; eauto.
      - rewrite said_Hangs in B6. destruct (ev_out ev); discriminate. }
    split.
    + rewrite Q, sapp_nil_r in B6. rewrite B6. destruct o as [con text|con shown|con].
      * rewrite said_Returns, strip_text. left. eauto.
      * rewrite said_Throws, strip_alone. right. split; eauto.
      * rewrite said_Hangs in B6. rewrite B6 in F. discriminate.
    + unfold idle. destruct (n_out n); [|discriminate]. cbn in Q. auto.
Qed.
Lemma busy_beginning n ev t : serves n t (ev_request ev) -> busy n ev ->
  beginning_of_own_output runs (ev_request ev) (strip_mark (ev_out ev)).
Proof.
  intros (_ & V1 & V2) B.
  destruct B as [(B1 & B2 & B3 & B4 & B5)|[(B1 & [c B2] & B3 & B4 & B5)|(B1 & B2 & B3 & B4 & o & B5 & B6)]].
  - left. rewrite B4. reflexivity.
  - left. rewrite B4. reflexivity.
  - assert (can_have runs (ev_request ev) o) as CH.
    { exists (n_engine n). split; auto. rewrite V2. exact B5. }
    destruct o as [con text|con shown|con].
    + rewrite said_Returns in B6. apply strip_prefix in B6 as [more ->]. right. eauto.
    + rewrite said_Throws in B6. apply strip_short in B6. left; auto.
    + rewrite said_Hangs in B6. left. destruct (ev_out ev); [reflexivity|discriminate].
Qed.

Lemma return_code_0 polled killed : (forall c, polled = Some c -> c <> 0%Z) -> return_code polled killed = 0%Z -> polled = None.
Proof.
  intros H. unfold return_code. destruct polled as [c|]; auto. specialize (H c eq_refl).
  destruct (Z.eqb_spec c 0); [contradiction|]. destruct killed; [discriminate|congruence].
Qed.

(** ** The invariant *)
Definition extends (l l' : list node) : Prop := forall pid n, nth_error l pid = Some n ->
  exists n', nth_error l' pid = Some n' /\ n_owner n' = n_owner n /\ n_engine n' = n_engine n /\ n_context n' = n_context n /\
             forall c, n_exit n = Some c -> n_exit n' = Some c.

Lemma extends_refl l : extends l l.
Proof. intros pid n H. exists n. auto. Qed.
Lemma extends_replace l pid n n' : nth_error l pid = Some n ->
  n_owner n' = n_owner n -> n_engine n' = n_engine n -> n_context n' = n_context n ->
  (forall c, n_exit n = Some c -> n_exit n' = Some c) -> extends l (replace_nth pid n' l).
Proof.
  intros H A B C D q m Q. destruct (Nat.eq_dec pid q) as [<-|N].
  - rewrite H in Q. injection Q as <-. exists n'. rewrite (nth_replace_same _ _ _ _ H). auto.
  - exists m. rewrite nth_replace_other by auto. auto.
Qed.
Lemma extends_snoc l x : extends l (l ++ [x]).
Proof. intros pid n H. exists n. rewrite (nth_snoc _ _ _ _ H). auto. Qed.

Definition owned l t r pid : Prop := exists n, nth_error l pid = Some n /\ serves n t r.
Lemma owned_extends l l' t r pid : extends l l' -> owned l t r pid -> owned l' t r pid.
Proof.
  intros E (n & H & A & B & C). destruct (E _ _ H) as (n' & H' & X & Y & Z & _). exists n'. split; auto.
  unfold serves. rewrite X, Y, Z. auto.
Qed.
Definition keyed l t (k : key) pid : Prop := exists n, nth_error l pid = Some n /\ n_owner n = t /\ (n_engine n, n_context n) = k.
Lemma keyed_extends l l' t k pid : extends l l' -> keyed l t k pid -> keyed l' t k pid.
Proof.
  intros E (n & H & A & B). destruct (E _ _ H) as (n' & H' & X & Y & Z & _). exists n'. split; auto. rewrite X, Y, Z; auto.
Qed.
Definition ended (l : list node) pid : Prop := exists n c, nth_error l pid = Some n /\ n_exit n = Some c.
Lemma ended_extends l l' pid : extends l l' -> ended l pid -> ended l' pid.
Proof. intros E (n & c & H & X). destruct (E _ _ H) as (n' & H' & _ & _ & _ & Y). exists n', c. auto. Qed.

Lemma thread_same s t th : with_thread s t th t = th.
Proof. unfold with_thread. rewrite Nat.eqb_refl. reflexivity. Qed.
Lemma thread_other s t th t' : t <> t' -> with_thread s t th t' = sy_threads s t'.
Proof. intros H. unfold with_thread. apply Nat.eqb_neq in H. rewrite H. reflexivity. Qed.

(** A change of one thread and of the processes keeps all but the content of the processes. *)
Lemma inv_thread s l' t th o :
  inv s -> extends (sy_nodes s) l' ->
  (forall pid n c, nth_error l' pid = Some n -> n_exit n = Some c -> c <> 0%Z) ->
  (forall k pid, In (k, pid) (th_procs th) -> keyed l' t k pid) ->
  (forall ev, th_now th = Some ev -> owned l' t (ev_request ev) (ev_pid ev)) ->
  (forall r pid, In r (th_log th) -> rc_pid r = Some pid -> owned l' t (rc_request r) pid) ->
  (forall ev, th_now th = Some ev -> ev_timer ev <> Armed -> ev_killed ev = true) ->
  (forall ev, th_now th = Some ev -> ev_left ev = true ->
     ev_killed ev = true \/ process_finished ev = Ok true \/ ended l' (ev_pid ev)) ->
  good_log (th_log th) ->
  (forall pid n, nth_error l' pid = Some n ->
    disturbed (th_log (with_thread s t th (n_owner n))) pid \/ n_exit n <> None \/
    content (System l' (with_thread s t th) o) pid n) ->
  inv (System l' (with_thread s t th) o).
Proof.
  intros [I1 I2 I3 I4 I5 I6 I7 I8] E X P N L T F G C. constructor; cbn; auto.
  - intros t' k pid. destruct (Nat.eq_dec t t') as [<-|D]; [rewrite thread_same; apply P|rewrite thread_other by auto].
    intros H. apply I1 in H. eapply keyed_extends; eauto.
  - intros t' ev. destruct (Nat.eq_dec t t') as [<-|D]; [rewrite thread_same; apply N|rewrite thread_other by auto].
    intros H. apply I2 in H. eapply owned_extends; eauto.
  - intros t' r pid. destruct (Nat.eq_dec t t') as [<-|D]; [rewrite thread_same; apply L|rewrite thread_other by auto].
    intros H H'. eapply I3 in H; eauto. eapply owned_extends; eauto.
  - intros t' ev. destruct (Nat.eq_dec t t') as [<-|D]; [rewrite thread_same; apply T|rewrite thread_other by auto]. apply I5.
  - intros t' ev. destruct (Nat.eq_dec t t') as [<-|D]; [rewrite thread_same; apply F|rewrite thread_other by auto].
    intros H H'. destruct (I6 _ _ H H') as [Y|[Y|Y]]; auto. right; right. eapply ended_extends; eauto.
  - intros t'. destruct (Nat.eq_dec t t') as [<-|D]; [rewrite thread_same; auto|rewrite thread_other by auto]. apply I8.
Qed.

Lemma content_other s t th o l' pid n : n_owner n <> t ->
  content s pid n -> content (System l' (with_thread s t th) o) pid n.
Proof. unfold content; cbn. intros H. rewrite thread_other by auto. auto. Qed.

Lemma inv_node s pid n n' : inv s -> nth_error (sy_nodes s) pid = Some n -> node_step n n' ->
  inv (System (replace_nth pid n' (sy_nodes s)) (sy_threads s) (sy_orphans s)).
Proof.
  intros I H S. destruct (node_step_same _ _ S) as (A & B & C).
  assert (E : extends (sy_nodes s) (replace_nth pid n' (sy_nodes s))).
  { eapply extends_replace; eauto. rewrite (node_step_alive _ _ S). discriminate. }
  destruct I as [I1 I2 I3 I4 I5 I6 I7 I8]. constructor; cbn; auto.
  - intros t k q Q. apply I1 in Q. eapply keyed_extends; eauto.
  - intros t ev Q. apply I2 in Q. eapply owned_extends; eauto.
  - intros t r q Q Q'. eapply I3 in Q; eauto. eapply owned_extends; eauto.
  - intros q m c Q. destruct (Nat.eq_dec pid q) as [<-|N].
    + rewrite (nth_replace_same _ _ _ _ H) in Q. injection Q as <-. eapply node_step_exit; eauto.
    + rewrite nth_replace_other in Q by auto. eauto.
  - intros t ev Q Q'. destruct (I6 _ _ Q Q') as [Y|[Y|Y]]; auto. right; right. eapply ended_extends; eauto.
  - intros q m Q. destruct (Nat.eq_dec pid q) as [<-|N].
    + rewrite (nth_replace_same _ _ _ _ H) in Q. injection Q as <-. rewrite A.
      destruct (I7 _ _ H) as [Y|[Y|Y]]; auto; [rewrite (node_step_alive _ _ S) in Y; contradiction|].
      right. unfold content in *. cbn. rewrite A. destruct (th_now (sy_threads s (n_owner n))) as [ev|].
      * destruct (Nat.eqb (ev_pid ev) pid); [eapply node_step_busy|eapply node_step_idle]; eauto.
      * eapply node_step_idle; eauto.
    + rewrite nth_replace_other in Q by auto. exact (I7 _ _ Q).
Qed.

Lemma inv_kill s pid n : inv s -> nth_error (sy_nodes s) pid = Some n ->
  inv (System (replace_nth pid (set_killed n) (sy_nodes s)) (sy_threads s) (sy_orphans s)).
Proof.
  intros I H.
  assert (E : extends (sy_nodes s) (replace_nth pid (set_killed n) (sy_nodes s))).
  { eapply extends_replace; eauto. }
  destruct I as [I1 I2 I3 I4 I5 I6 I7 I8]. constructor; cbn; auto.
  - intros t k q Q. apply I1 in Q. eapply keyed_extends; eauto.
  - intros t ev Q. apply I2 in Q. eapply owned_extends; eauto.
  - intros t r q Q Q'. eapply I3 in Q; eauto. eapply owned_extends; eauto.
  - intros q m c Q. destruct (Nat.eq_dec pid q) as [<-|N].
    + rewrite (nth_replace_same _ _ _ _ H) in Q. injection Q as <-. cbn. eauto.
    + rewrite nth_replace_other in Q by auto. eauto.
  - intros t ev Q Q'. destruct (I6 _ _ Q Q') as [Y|[Y|Y]]; auto. right; right. eapply ended_extends; eauto.
  - intros q m Q. destruct (Nat.eq_dec pid q) as [<-|N].
    + rewrite (nth_replace_same _ _ _ _ H) in Q. injection Q as <-. exact (I7 _ _ H).
    + rewrite nth_replace_other in Q by auto. exact (I7 _ _ Q).
Qed.

Lemma busy_ext n ev ev' : ev_request ev' = ev_request ev -> ev_stdin ev' = ev_stdin ev -> ev_out ev' = ev_out ev ->
  busy n ev -> busy n ev'.
Proof. unfold busy, sending, preparing, answering. intros -> -> ->. auto. Qed.

(** A change of the evaluation in progress that leaves processes and history alone *)
Lemma inv_now s t ev ev' o : inv s -> th_now (sy_threads s t) = Some ev ->
  ev_request ev' = ev_request ev -> ev_pid ev' = ev_pid ev -> ev_stdin ev' = ev_stdin ev -> ev_out ev' = ev_out ev ->
  (ev_timer ev' <> Armed -> ev_killed ev' = true) ->
  (ev_left ev' = true -> ev_killed ev' = true \/ process_finished ev' = Ok true \/ ended (sy_nodes s) (ev_pid ev')) ->
  inv (System (sy_nodes s) (with_thread s t (Thread (th_procs (sy_threads s t)) (Some ev') (th_log (sy_threads s t)))) o).
Proof.
  intros I H A B C D T L. assert (I' := I). destruct I' as [I1 I2 I3 I4 I5 I6 I7 I8].
  apply inv_thread; cbn; auto using extends_refl.
  - intros k pid. apply I1.
  - intros e Q. injection Q as <-. rewrite A, B. apply (I2 _ _ H).
  - intros r pid. apply I3.
  - intros e Q. injection Q as <-. auto.
  - intros e Q. injection Q as <-. auto.
  - intros pid n Q. destruct (I7 _ _ Q) as [Y|[Y|Y]]; auto.
    + left. destruct (Nat.eq_dec t (n_owner n)) as [->|N]; [rewrite thread_same|rewrite thread_other by auto]; auto.
    + right; right. destruct (Nat.eq_dec t (n_owner n)) as [->|N]; [|apply content_other; auto].
      unfold content in *; cbn. rewrite thread_same. cbn. rewrite H in Y. rewrite B.
      destruct (Nat.eqb (ev_pid ev) pid); auto. eapply busy_ext; eauto.
Qed.

Lemma disturbed_cons r l pid : disturbed l pid -> disturbed (r :: l) pid.
Proof. intros (x & A & B). exists x. split; auto. right; auto. Qed.

(** The end of an evaluation *)
Lemma inv_done s t ev r o : inv s -> th_now (sy_threads s t) = Some ev ->
  rc_request r = ev_request ev -> rc_pid r = Some (ev_pid ev) ->
  good (th_log (sy_threads s t)) r ->
  (forall n, nth_error (sy_nodes s) (ev_pid ev) = Some n -> n_owner n = t ->
     disturbed (r :: th_log (sy_threads s t)) (ev_pid ev) \/ n_exit n <> None \/ idle n) ->
  inv (System (sy_nodes s) (with_thread s t (Thread (th_procs (sy_threads s t)) None (r :: th_log (sy_threads s t)))) o).
Proof.
  intros I H A B G D. assert (I' := I). destruct I' as [I1 I2 I3 I4 I5 I6 I7 I8].
  apply inv_thread; cbn; auto using extends_refl; try discriminate.
  - intros k pid. apply I1.
  - intros x pid [<-|Q] P; [|eapply I3; eauto]. rewrite A. rewrite B in P. injection P as <-. apply (I2 _ _ H).
  - intros pid n Q. destruct (Nat.eq_dec t (n_owner n)) as [E|N].
    + destruct (Nat.eq_dec (ev_pid ev) pid) as [<-|P].
      * subst t. rewrite thread_same. cbn. destruct (D _ Q eq_refl) as [Y|[Y|Y]]; auto.
        right; right. unfold content; cbn. rewrite thread_same. exact Y.
      * destruct (I7 _ _ Q) as [Y|[Y|Y]]; auto; subst t.
        -- left. rewrite thread_same. cbn. apply disturbed_cons; auto.
        -- right; right. unfold content in *; cbn. rewrite thread_same. cbn. rewrite H in Y.
           apply Nat.eqb_neq in P. rewrite P in Y. exact Y.
    + rewrite thread_other by auto. destruct (I7 _ _ Q) as [Y|[Y|Y]]; auto. right; right. apply content_other; auto.
Qed.

Lemma inv_turn s t ev n w ev' n' : inv s -> th_now (sy_threads s t) = Some ev -> ev_left ev = false ->
  nth_error (sy_nodes s) (ev_pid ev) = Some n -> turn pipe_buf w ev n = (ev', n') ->
  inv (System (replace_nth (ev_pid ev) n' (sy_nodes s))
        (with_thread s t (Thread (th_procs (sy_threads s t)) (Some ev') (th_log (sy_threads s t)))) (sy_orphans s)).
Proof.
  intros I H L N T. destruct (turn_same _ _ _ _ _ T) as (A & B & C & D & E & F & G & X & Y).
  assert (EX : extends (sy_nodes s) (replace_nth (ev_pid ev) n' (sy_nodes s))).
  { eapply extends_replace; eauto. intros c. rewrite X. auto. }
  assert (I' := I). destruct I' as [I1 I2 I3 I4 I5 I6 I7 I8].
  destruct (I2 _ _ H) as (m & Q & SV). rewrite N in Q. injection Q as <-.
  apply inv_thread; cbn; auto.
  - intros q m c Q. destruct (Nat.eq_dec (ev_pid ev) q) as [<-|NE].
    + rewrite (nth_replace_same _ _ _ _ N) in Q. injection Q as <-. rewrite X. eauto.
    + rewrite nth_replace_other in Q by auto. eauto.
  - intros k pid Q. apply I1 in Q. eapply keyed_extends; eauto.
  - intros e Q. injection Q as <-. rewrite A, B. eapply owned_extends; eauto. exists n; auto.
  - intros r pid Q P. eapply I3 in Q; eauto. eapply owned_extends; eauto.
  - intros e Q. injection Q as <-. rewrite C, D. eauto.
  - intros e Q. injection Q as <-. intros L'. destruct Y as [Y|Y]; [congruence|]. right; right.
    destruct (n_exit n) as [c|] eqn:Z; [|contradiction]. exists n', c. rewrite B, (nth_replace_same _ _ _ _ N). auto.
  - intros pid m Q. destruct (Nat.eq_dec (ev_pid ev) pid) as [<-|NE].
    + rewrite (nth_replace_same _ _ _ _ N) in Q. injection Q as <-. rewrite E.
      destruct SV as (SV & _). rewrite SV, thread_same. cbn.
      destruct (I7 _ _ N) as [Z|[Z|Z]].
      * left. rewrite SV in Z. auto.
      * right; left. congruence.
      * destruct (n_exit n) eqn:XN; [right; left; congruence|]. right; right.
        unfold content in *; cbn. rewrite E, SV, thread_same. cbn. rewrite SV, H, Nat.eqb_refl in Z.
        rewrite B, Nat.eqb_refl. eapply turn_busy; eauto.
    + rewrite nth_replace_other in Q by auto. destruct (I7 _ _ Q) as [Z|[Z|Z]]; auto.
      * left. destruct (Nat.eq_dec t (n_owner m)) as [->|O]; [rewrite thread_same|rewrite thread_other by auto]; auto.
      * right; right. destruct (Nat.eq_dec t (n_owner m)) as [->|O]; [|apply content_other; auto].
        unfold content in *; cbn. rewrite thread_same. cbn. rewrite H in Z. rewrite B.
        apply Nat.eqb_neq in NE. rewrite NE in *. auto.
Qed.

Lemma reusable_Some s t k pid : reusable s t k = Some pid ->
  In (k, pid) (th_procs (sy_threads s t)) /\ exists n, nth_error (sy_nodes s) pid = Some n /\ n_exit n = None.
Proof.
  unfold reusable. destruct (lookup k _) as [p|] eqn:L; [|discriminate].
  destruct (nth_error (sy_nodes s) p) as [n|] eqn:N; [|discriminate]. destruct (n_exit n) eqn:X; [discriminate|].
  intros H; injection H as <-. split; [apply lookup_In; auto|]. eauto.
Qed.

Lemma inv_start s t r failure : inv s -> th_now (sy_threads s t) = None -> inv (exec_start dumps s t r failure).
Proof.
  intros I H. unfold exec_start.
  assert (R : forall e, inv (System (sy_nodes s) (with_thread s t
     (Thread (th_procs (sy_threads s t)) None (Record_ r None false None (Raised e) :: th_log (sy_threads s t)))) (sy_orphans s))).
  { intros e. assert (I' := I). destruct I' as [I1 I2 I3 I4 I5 I6 I7 I8]. apply inv_thread; cbn; auto using extends_refl; try discriminate.
    - intros k pid. apply I1.
    - intros x pid [<-|Q]; [discriminate|]. eapply I3; eauto.
    - split; auto. intros pid out err X; discriminate.
    - intros pid n Q. destruct (I7 _ _ Q) as [Y|[Y|Y]]; auto.
      + left. destruct (Nat.eq_dec t (n_owner n)) as [->|N]; [rewrite thread_same|rewrite thread_other by auto]; auto.
        apply disturbed_cons; auto.
      + right; right. destruct (Nat.eq_dec t (n_owner n)) as [->|N]; [|apply content_other; auto].
        unfold content in *; cbn. rewrite thread_same. cbn. rewrite H in Y. auto. }
  destruct (engine_of r) as [e|e] eqn:EN; [|apply R].
  destruct (reusable s t (e, rq_context r)) as [pid|] eqn:RE.
  - apply reusable_Some in RE as (RE & n0 & N0 & X0).
    assert (I' := I). destruct I' as [I1 I2 I3 I4 I5 I6 I7 I8]. apply inv_thread; cbn; auto using extends_refl.
    + intros k q. apply I1.
    + intros ev Q. injection Q as <-. cbn. destruct (I1 _ _ _ RE) as (n & A & B & C). injection C as C1 C2.
      exists n. split; auto. repeat split; congruence.
    + intros x q. apply I3.
    + intros ev Q. injection Q as <-. cbn. congruence.
    + intros ev Q. injection Q as <-. discriminate.
    + intros q n Q. destruct (I7 _ _ Q) as [Y|[Y|Y]]; auto.
      * left. destruct (Nat.eq_dec t (n_owner n)) as [->|N]; [rewrite thread_same|rewrite thread_other by auto]; auto.
      * right; right. destruct (Nat.eq_dec t (n_owner n)) as [->|N]; [|apply content_other; auto].
        unfold content in *; cbn. rewrite thread_same. cbn. rewrite H in Y.
        destruct (Nat.eqb pid q); auto. left. destruct Y as (Y1 & Y2 & Y3 & Y4 & Y5).
        unfold sending; cbn. rewrite Y2, Y3. repeat split; auto.
  - destruct failure as [e'|]; [apply R|].
    assert (I' := I). destruct I' as [I1 I2 I3 I4 I5 I6 I7 I8].
    assert (NX : nth_error (sy_nodes s ++ [new_node t e (rq_context r)]) (List.length (sy_nodes s)) = Some (new_node t e (rq_context r))).
    { rewrite nth_error_app2, Nat.sub_diag; auto. }
    assert (CASE : forall q n, nth_error (sy_nodes s ++ [new_node t e (rq_context r)]) q = Some n ->
       nth_error (sy_nodes s) q = Some n \/ q = List.length (sy_nodes s) /\ n = new_node t e (rq_context r)).
    { intros q n Q. destruct (Nat.lt_ge_cases q (List.length (sy_nodes s))) as [L|L].
      - left. rewrite nth_error_app1 in Q; auto.
      - right. assert (q < List.length (sy_nodes s ++ [new_node t e (rq_context r)])) by (apply nth_error_Some; congruence).
        rewrite app_length in H0. cbn in H0. assert (q = List.length (sy_nodes s)) as -> by lia. split; auto. congruence. }
    apply inv_thread; cbn; auto using extends_snoc.
    + intros q n c Q. apply CASE in Q as [Q|[-> ->]]; eauto. discriminate.
    + intros k q [Q|Q].
      * injection Q as <- <-. exists (new_node t e (rq_context r)). auto.
      * apply I1 in Q. eapply keyed_extends; eauto using extends_snoc.
    + intros ev Q. injection Q as <-. cbn. exists (new_node t e (rq_context r)). repeat split; auto.
    + intros x q Q P. eapply I3 in Q; eauto. eapply owned_extends; eauto using extends_snoc.
    + intros ev Q. injection Q as <-. cbn. congruence.
    + intros ev Q. injection Q as <-. discriminate.
    + intros q n Q. apply CASE in Q as [Q|[-> ->]].
      * assert (q < List.length (sy_nodes s)) by (apply nth_error_Some; congruence).
        destruct (I7 _ _ Q) as [Y|[Y|Y]]; auto.
        -- left. destruct (Nat.eq_dec t (n_owner n)) as [->|N]; [rewrite thread_same|rewrite thread_other by auto]; auto.
        -- right; right. destruct (Nat.eq_dec t (n_owner n)) as [->|N]; [|apply content_other; auto].
           unfold content in *; cbn. rewrite thread_same. cbn. rewrite H in Y.
           destruct (Nat.eqb_spec (List.length (sy_nodes s)) q); auto. lia.
      * right; right. unfold content; cbn. rewrite thread_same. cbn. rewrite Nat.eqb_refl.
        unfold engine_of in EN. destruct (rq_console r), (rq_context r) as [c|] eqn:CX; try discriminate; injection EN as <-.
        -- left. unfold sending; cbn. unfold stdin_text. rewrite CX. cbn. auto.
        -- right; left. unfold preparing; cbn. unfold stdin_text. rewrite CX. cbn. repeat split; auto.
           exists c. rewrite sapp_assoc. reflexivity.
        -- left. unfold sending; cbn. unfold stdin_text. rewrite CX. cbn. auto.
Qed.

Lemma inv_end s t ev n o : inv s -> th_now (sy_threads s t) = Some ev -> ev_left ev = true ->
  nth_error (sy_nodes s) (ev_pid ev) = Some n ->
  inv (System (sy_nodes s) (with_thread s t (Thread (th_procs (sy_threads s t)) None
         (Record_ (ev_request ev) (Some (ev_pid ev)) (ev_killed ev) (n_exit n) (result_of ev (n_exit n)) :: th_log (sy_threads s t)))) o).
Proof.
  intros I H L N. destruct (i_now _ I _ _ H) as (m & Q & SV). rewrite N in Q. injection Q as <-.
  assert (SV' := SV). destruct SV' as (OW & _).
  assert (CT := i_content _ I _ _ N). rewrite OW in CT. unfold content in CT. rewrite OW, H, Nat.eqb_refl in CT.
  assert (LF := i_left _ I _ _ H L).
  apply (inv_done s t ev); auto.
  - intros pid out err P ND RE. cbn in *. injection P as <-. unfold result_of in RE.
    destruct (ParserModel.decode (strip_mark (ev_out ev))) as [out'|] eqn:D1; [|discriminate].
    destruct (ParserModel.decode (strip_mark (ev_err ev))) as [err'|] eqn:D2; [|discriminate].
    injection RE as RC <- <-. apply return_code_0 in RC; [|intros c; exact (i_exit _ I _ _ c N)].
    unfold ParserModel.decode in D1. destruct (ParserModel.utf8 _); [|discriminate]. injection D1 as <-.
    destruct CT as [CT|[CT|CT]]; [contradiction|contradiction|]. split.
    + eapply busy_beginning; eauto.
    + intros K. destruct LF as [LF|[LF|(m & c & M1 & M2)]]; [congruence| |congruence].
      eapply busy_finished; eauto.
  - intros m M _. rewrite N in M. injection M as <-.
    destruct (ev_killed ev) eqn:K.
    { left. eexists; split; [left; reflexivity|]. cbn. auto. }
    destruct CT as [CT|[CT|CT]]; auto.
    { left. apply disturbed_cons; auto. }
    destruct LF as [LF|[LF|(m & c & M1 & M2)]]; [congruence| |right; left; congruence].
    right; right. eapply busy_finished; eauto.
Qed.

Lemma inv_step s s' : inv s -> step s s' -> inv s'.
Proof.
  intros I S. destruct S.
  - eapply inv_node; eauto.
  - eapply inv_start; eauto.
  - eapply inv_turn; eauto.
  - eapply inv_now; eauto; cbn.
    + intros X. exact (i_timer _ I _ _ H X).
    + intros _. destruct H1 as [X|[X Y]]; [right; left; exact X|]. left. apply (i_timer _ I _ _ H). destruct (ev_timer ev); discriminate.
  - eapply inv_done; eauto.
    + intros pid out err P ND RE; discriminate.
    + intros n N _. left. eexists; split; [left; reflexivity|]. cbn. eauto.
  - eapply inv_now; eauto; cbn; auto.
  - pose proof (inv_kill _ _ _ I H1) as IK. eapply (inv_now (System (replace_nth (ev_pid ev) (set_killed n) (sy_nodes s)) (sy_threads s) (sy_orphans s))); eauto; cbn; auto.
  - eapply inv_end; eauto.
  - eapply inv_kill; eauto.
Qed.

Lemma inv_reachable s : reachable s -> inv s.
Proof.
  induction 1 as [|s s' _ IH S]; [|eapply inv_step; eauto].
  constructor; cbn; try discriminate; try contradiction; auto.
  all: intros [|pid]; discriminate.
Qed.

End Inv.
