(** * C40, C41: evaluations of JavaScript *)
From Verif Require Import PyBase PyBaseProofs NodeModel NodeSpec NodeProofs NodeRuns.
From Verif Require ParserModel.
From Coq Require Import ZArith Lia.

Section Props.
Variable dumps : string -> string.
Variable parse : string -> option string.
Variable complaint : string -> string.
Variable pipe_buf : nat.

Lemma good_log_split (runs : engine -> option string -> string -> outcome -> Prop) later r earlier : good_log runs (later ++ r :: earlier) -> good runs earlier r.
Proof. induction later; cbn; tauto. Qed.

(** Whatever threads, timers and processes do: an evaluation that returns in time reads exactly
    what its own script printed, provided the evaluations that used the same process before it
    ended in time and were read to the end.  ([th_log] has the latest evaluation first.) *)
Theorem C40_own_output (runs : engine -> option string -> string -> outcome -> Prop) : json_lines dumps parse -> prints_lines runs ->
  forall s t later r earlier pid out err,
  reachable dumps parse complaint runs pipe_buf s ->
  th_log (sy_threads s t) = later ++ r :: earlier ->
  rc_pid r = Some pid -> ~ disturbed earlier pid ->
  rc_killed r = false -> rc_end r = Finished 0 out err ->
  own_output runs (rc_request r) out.
Proof.
  intros JL PL s t later r earlier pid out err R L P D K E.
  pose proof (i_good _ _ _ (inv_reachable _ _ _ _ _ JL PL _ R) t) as G. rewrite L in G.
  apply good_log_split in G. exact (proj2 (G pid out err P D E) K).
Qed.

(** Even if the time has run out, what is returned as the output is the beginning of it. *)
Theorem C40_beginning_of_own_output (runs : engine -> option string -> string -> outcome -> Prop) : json_lines dumps parse -> prints_lines runs ->
  forall s t later r earlier pid out err,
  reachable dumps parse complaint runs pipe_buf s ->
  th_log (sy_threads s t) = later ++ r :: earlier ->
  rc_pid r = Some pid -> ~ disturbed earlier pid ->
  rc_end r = Finished 0 out err ->
  beginning_of_own_output runs (rc_request r) out.
Proof.
  intros JL PL s t later r earlier pid out err R L P D E.
  pose proof (i_good _ _ _ (inv_reachable _ _ _ _ _ JL PL _ R) t) as G. rewrite L in G.
  apply good_log_split in G. exact (proj1 (G pid out err P D E)).
Qed.

(** Evaluations share a process only within one thread, with one engine and one context. *)
Theorem C40_private_processes (runs : engine -> option string -> string -> outcome -> Prop) : json_lines dumps parse -> prints_lines runs ->
  forall s t1 t2 r1 r2 pid,
  reachable dumps parse complaint runs pipe_buf s ->
  In r1 (th_log (sy_threads s t1)) -> In r2 (th_log (sy_threads s t2)) ->
  rc_pid r1 = Some pid -> rc_pid r2 = Some pid ->
  t1 = t2 /\ engine_of (rc_request r1) = engine_of (rc_request r2) /\ rq_context (rc_request r1) = rq_context (rc_request r2).
Proof.
  intros JL PL s t1 t2 r1 r2 pid R A B P Q. pose proof (inv_reachable _ _ _ _ _ JL PL _ R) as I.
  destruct (i_log _ _ _ I _ _ _ A P) as (n & N & O1 & O2 & O3). destruct (i_log _ _ _ I _ _ _ B Q) as (m & M & Q1 & Q2 & Q3).
  rewrite N in M. injection M as <-. repeat split; congruence.
Qed.

(** An evaluation starts on a process that has not ended, of this thread, engine and context. *)
Theorem C40_starts_on_a_live_process (runs : engine -> option string -> string -> outcome -> Prop) : json_lines dumps parse -> prints_lines runs ->
  forall s t r failure ev,
  reachable dumps parse complaint runs pipe_buf s -> th_now (sy_threads s t) = None ->
  th_now (sy_threads (exec_start dumps s t r failure) t) = Some ev ->
  ev_request ev = r /\
  exists n, nth_error (sy_nodes (exec_start dumps s t r failure)) (ev_pid ev) = Some n /\
    n_exit n = None /\ n_owner n = t /\ engine_of r = Ok (n_engine n) /\ n_context n = rq_context r.
Proof.
  intros JL PL s t r failure ev R N H. pose proof (inv_reachable _ _ _ _ _ JL PL _ R) as I.
  unfold exec_start in *. destruct (engine_of r) as [e|e] eqn:E; [|cbn in H; rewrite thread_same in H; discriminate].
  destruct (reusable s t (e, rq_context r)) as [pid|] eqn:RE.
  - cbn in *. rewrite thread_same in H. injection H as <-. apply reusable_Some in RE as (RE & n & A & B).
    destruct (i_procs _ _ _ I _ _ _ RE) as (m & M1 & M2 & M3). rewrite A in M1. injection M1 as <-. injection M3 as M3 M4.
    cbn. split; auto. exists n. repeat split; auto. congruence.
  - destruct failure; cbn in *; rewrite thread_same in H; [discriminate|]. injection H as <-. cbn. split; auto.
    exists (new_node t e (rq_context r)). rewrite nth_error_app2, Nat.sub_diag; auto.
Qed.

(** If all that scripts print is ASCII, every evaluation that got a process ends with a return
    code and the texts read: no evaluation breaks off in the middle. *)
Theorem C40_ascii_partial (runs : engine -> option string -> string -> outcome -> Prop) : prints_ascii runs -> (forall line, ascii_text (complaint line)) ->
  forall s t r pid,
  reachable dumps parse complaint runs pipe_buf s -> In r (th_log (sy_threads s t)) -> rc_pid r = Some pid ->
  exists code out err, rc_end r = Finished code out err.
Proof. intros PA CA s t r pid R A P. exact (t_log _ (tidy_reachable _ _ _ _ _ PA CA _ R) _ _ _ A P). Qed.

(** ** Schedules *)
Lemma node_receives (runs : engine -> option string -> string -> outcome -> Prop) n script o : json_lines dumps parse ->
  n_exit n = None -> n_todo n = [] -> n_hung n = false -> n_incoming n = "" -> n_stdin n = (dumps script ++ nl)%string ->
  n_first n = false -> runs (n_engine n) (n_context n) script o ->
  node_step parse complaint runs pipe_buf n
    (Node (n_owner n) (n_engine n) (n_context n) false "" "" (handler_writes false o) (never_ends o) (n_out n) (n_err n) (n_killed n) None).
Proof.
  intros JL X T H I S F R. destruct (JL script) as [J1 J2].
  eapply (Receive_line _ _ _ _ n (dumps script ++ nl) "" (dumps script) ""); auto.
  - rewrite S, sapp_nil_r. reflexivity.
  - destruct (dumps script); discriminate.
  - rewrite I. apply cut_line_spec. auto.
  - rewrite I. replace (Node _ _ _ _ _ _ _ _ _ _ _ _) with
      (set_first (set_todo (set_input (set_input n ("" ++ (dumps script ++ nl)) "") "" (n_stdin (set_input n ("" ++ (dumps script ++ nl)) "")))
        (handler_writes (n_first (set_input n ("" ++ (dumps script ++ nl)) "")) o) (never_ends o)) false).
    + econstructor; eauto.
    + unfold set_first, set_todo, set_input; cbn -[handler_writes]. rewrite X, F. reflexivity.
Qed.

Lemma node_writes (runs : engine -> option string -> string -> outcome -> Prop) n f w more : n_exit n = None -> n_todo n = (f, w) :: more ->
  node_step parse complaint runs pipe_buf n
    (Node (n_owner n) (n_engine n) (n_context n) (n_first n) (n_stdin n) (n_incoming n) more (n_hung n)
       (match f with Stdout => n_out n ++ w | Stderr => n_out n end) (match f with Stdout => n_err n | Stderr => n_err n ++ w end)
       (n_killed n) (n_exit n)).
Proof.
  intros X T. pose proof (Write parse complaint runs pipe_buf n f w "" more X) as W. rewrite sapp_nil_r in W. specialize (W T (fun _ => eq_refl)).
  destruct f; exact W.
Qed.

Definition plain_idle t (e : engine) c := Node t e c false "" "" [] false "" "" false None.

(** A plain evaluation on a fresh process, up to the moment its script has been run *)
Lemma first_answer (runs : engine -> option string -> string -> outcome -> Prop) t r e o : json_lines dumps parse -> 0 < pipe_buf ->
  engine_of r = Ok e -> e <> WithContext -> runs e (rq_context r) (rq_script r) o ->
  sees dumps parse complaint runs pipe_buf t [((e, rq_context r), 0)] []
    (Some (Evaluation r 0 "" "" "" Armed false false)) 0
    (Node t e (rq_context r) false "" "" (handler_writes false o) (never_ends o) "" "" false None).
Proof.
  intros JL PB E NC R.
  assert (CX : rq_context r = None).
  { unfold engine_of in E. destruct (rq_console r), (rq_context r); try discriminate; auto. injection E as <-. contradiction. }
  pose proof (sees_start dumps parse complaint runs pipe_buf t r e E) as S.
  eapply (sees_send _ _ _ _ _ _ _ _ _ PB _ _ _ (le_n _)) in S; try reflexivity.
  unfold ev_sent, set_input, new_node, evaluation_of, stdin_text in S. cbn [ev_request ev_pid ev_stdin ev_out ev_err ev_timer ev_killed ev_left
    n_owner n_engine n_context n_first n_stdin n_incoming n_todo n_hung n_out n_err n_killed n_exit append] in S.
  eapply sees_node in S; [|eapply (node_receives runs _ (rq_script r) o); cbn; auto].
  - exact S.
  - rewrite CX. reflexivity.
  - destruct e; auto. contradiction.
Qed.

Lemma ev_same_finished ev : ascii_text (ev_out ev) -> ascii_text (ev_err ev) ->
  process_finished ev = Ok (endswith process_finished_str (ev_out ev) && endswith process_finished_str (ev_err ev)).
Proof.
  intros A B. unfold process_finished. rewrite !ascii_decode by auto. cbn [bind]. destruct (endswith _ (ev_out ev)); reflexivity.
Qed.

(** Reading until both ends have been seen *)
Lemma drain (runs : engine -> option string -> string -> outcome -> Prop) t procs log r pid n fo fe : 0 < pipe_buf -> ascii_text fo -> ascii_text fe ->
  endswith process_finished_str fo = true -> endswith process_finished_str fe = true -> n_exit n = None ->
  forall k out err o e, String.length o + String.length e <= k -> (out ++ o)%string = fo -> (err ++ e)%string = fe ->
  sees dumps parse complaint runs pipe_buf t procs log (Some (Evaluation r pid "" out err Armed false false)) pid (set_pipes n o e) ->
  exists out' err' o' e', (out' ++ o')%string = fo /\ (err' ++ e')%string = fe /\
    process_finished (Evaluation r pid "" out' err' Armed false false) = Ok true /\
    sees dumps parse complaint runs pipe_buf t procs log (Some (Evaluation r pid "" out' err' Armed false false)) pid (set_pipes n o' e').
Proof.
  intros PB AO AE EO EE X. induction k as [|k IH]; intros out err o e K O E S.
  - destruct o, e; try (cbn in K; lia). rewrite sapp_nil_r in O, E. subst. exists fo, fe, "", "".
    rewrite !sapp_nil_r. repeat split; auto. rewrite ev_same_finished by auto. cbn [ev_out ev_err]. rewrite EO, EE. reflexivity.
  - assert (A1 : ascii_text out) by (rewrite <- O in AO; apply ascii_app in AO; tauto).
    assert (A2 : ascii_text err) by (rewrite <- E in AE; apply ascii_app in AE; tauto).
    destruct (process_finished (Evaluation r pid "" out err Armed false false)) as [b|x] eqn:F.
    2: { rewrite ev_same_finished in F by auto. discriminate. }
    destruct b. { exists out, err, o, e. auto. }
    eapply (sees_turn _ _ _ _ _ _ _ _ _ _ _ false) in S; eauto.
    2: { unfold turn. cbn. rewrite X. reflexivity. }
    cbn in S. unfold set_input, set_pipes in S; cbn in S. rewrite sapp_nil_r in S.
    eapply (IH (out ++ stake pipe_buf o)%string (err ++ stake pipe_buf e)%string (sdrop pipe_buf o) (sdrop pipe_buf e)).
    + rewrite !sdrop_length. destruct o as [|a o], e as [|b e]; cbn [String.length] in *; [|lia|lia|lia].
      rewrite !sapp_nil_r in O, E. subst. rewrite ev_same_finished in F by auto. cbn [ev_out ev_err] in F. rewrite EO, EE in F. discriminate.
    + rewrite sapp_assoc, stake_sdrop. auto.
    + rewrite sapp_assoc, stake_sdrop. auto.
    + exact S.
Qed.

(** A script that returns can be answered: its text is returned, with return code 0. *)
Theorem C40_can_answer (runs : engine -> option string -> string -> outcome -> Prop) : json_lines dumps parse -> 0 < pipe_buf ->
  forall r e console text, engine_of r = Ok e -> e <> WithContext ->
  runs e (rq_context r) (rq_script r) (Returns console text) -> one_line text -> ascii_text text -> ascii_text console ->
  exists s t err, reachable dumps parse complaint runs pipe_buf s /\
    th_log (sy_threads s t) = [Record_ r (Some 0) false None (Finished 0 text err)].
Proof.
  intros JL PB r e console text E NC R OL AT AC.
  pose proof (first_answer runs 0 r e _ JL PB E NC R) as S. unfold handler_writes, never_ends in S.
  eapply sees_node in S; [|eapply node_writes; reflexivity]. cbn -[append nl marker] in S.
  eapply sees_node in S; [|eapply node_writes; reflexivity]. cbn -[append nl marker] in S.
  eapply sees_node in S; [|eapply node_writes; reflexivity]. cbn -[append nl marker] in S.
  eapply sees_node in S; [|eapply node_writes; reflexivity]. cbn -[append nl marker] in S.
  change (append "" console) with console in S. change (append "" (append text nl)) with (append text nl) in S.
  assert (MA : ascii_text (marker ++ nl)) by reflexivity.
  eapply (drain runs 0 _ _ r 0 (plain_idle 0 e (rq_context r)) ((text ++ nl) ++ marker ++ nl) (console ++ marker ++ nl)) in S; auto.
  - destruct S as (out & err & o & e' & O1 & O2 & F & S).
    eapply sees_leave in S; auto. apply sees_end in S; auto. destruct S as (s & RE & _ & L & _).
    unfold leave, result_of in L. cbn [ev_out ev_err ev_killed ev_request n_exit set_pipes plain_idle return_code] in L. exists s, 0. eexists. split; auto. rewrite L.
    assert (Q : o = "").
    { rewrite sapp_assoc in O1. apply (mark_ends_once text out o OL O1). apply (finished_out _ F). }
    subst o. rewrite sapp_nil_r, sapp_assoc in O1. subst out. rewrite strip_text.
    rewrite ascii_decode by auto.
    assert (AE : ascii_text err).
    { assert (Y : ascii_text (console ++ marker ++ nl)) by (apply ascii_app; auto). rewrite <- O2 in Y. apply ascii_app in Y. tauto. }
    rewrite ascii_decode by (apply strip_ascii; auto). reflexivity.
  - apply ascii_app. split; auto. apply ascii_app. split; auto; reflexivity.
  - apply ascii_app. split; auto.
  - apply endswith_spec. unfold process_finished_str. exists (text ++ nl)%string. reflexivity.
  - apply endswith_spec. unfold process_finished_str. eauto.
Qed.

(** ** The timeout (C41) *)

(** When the time runs out and the process has ended, the error says so. *)
Theorem C41_timeout_reported_partial (runs : engine -> option string -> string -> outcome -> Prop) loads :
  forall s t r c code out err,
  reachable dumps parse complaint runs pipe_buf s -> In r (th_log (sy_threads s t)) ->
  rc_killed r = true -> rc_seen r = Some c -> rc_end r = Finished code out err ->
  eval_result loads (code, out, err) = inr Long_running_script_killed.
Proof.
  intros s t r c code out err R A K S E. destruct (c_log _ (codes_reachable _ _ _ _ _ _ R) _ _ A) as [C1 C2].
  apply C2 in E. rewrite S, K in E. unfold return_code in E. rewrite S in C1.
  destruct (Z.eqb_spec c 0); [congruence|]. subst. reflexivity.
Qed.

(** A value is returned only if the process has not been seen to end; the value is then that of
    the text of the script or, if the time had run out, of its beginning. *)
Theorem C41_values (runs : engine -> option string -> string -> outcome -> Prop) loads : json_lines dumps parse -> prints_lines runs ->
  forall s t later r earlier pid code out err v,
  reachable dumps parse complaint runs pipe_buf s ->
  th_log (sy_threads s t) = later ++ r :: earlier -> rc_pid r = Some pid -> ~ disturbed earlier pid ->
  rc_end r = Finished code out err -> eval_result loads (code, out, err) = inl v ->
  rc_seen r = None /\ loads out = Some v /\ beginning_of_own_output runs (rc_request r) out /\
  (rc_killed r = false -> own_output runs (rc_request r) out).
Proof.
  intros JL PL s t later r earlier pid code out err v R L P D E V.
  assert (A : In r (th_log (sy_threads s t))) by (rewrite L; apply in_or_app; right; left; reflexivity).
  destruct (c_log _ (codes_reachable _ _ _ _ _ _ R) _ _ A) as [C1 C2]. pose proof (C2 _ _ _ E) as C3.
  unfold eval_result in V. destruct (Z.eqb_spec code 0) as [->|N]; cbn [negb] in V; [|discriminate].
  destruct (loads out) eqn:LO; [|discriminate]. injection V as <-.
  pose proof (i_good _ _ _ (inv_reachable _ _ _ _ _ JL PL _ R) t) as G. rewrite L in G. apply good_log_split in G.
  destruct (G pid out err P D E) as [G1 G2]. repeat split; auto.
  symmetry in C3. eapply return_code_0; eauto. intros c X ->. contradiction.
Qed.

(** A script that never ends never gives a value. *)
Theorem C41_endless_script (runs : engine -> option string -> string -> outcome -> Prop) loads : json_lines dumps parse -> prints_lines runs -> loads "" = None ->
  forall s t later r earlier pid code out err,
  reachable dumps parse complaint runs pipe_buf s ->
  th_log (sy_threads s t) = later ++ r :: earlier -> rc_pid r = Some pid -> ~ disturbed earlier pid ->
  (forall o, can_have runs (rc_request r) o -> exists console, o = Hangs console) ->
  rc_end r = Finished code out err ->
  exists f, eval_result loads (code, out, err) = inr f.
Proof.
  intros JL PL LE s t later r earlier pid code out err R L P D H E.
  destruct (eval_result loads (code, out, err)) as [v|f] eqn:V; [|eauto]. exfalso.
  destruct (C41_values runs loads JL PL _ _ _ _ _ _ _ _ _ _ R L P D E V) as (_ & LO & [->|(con & more & B)] & _); [congruence|].
  destruct (H _ B) as [c X]. discriminate.
Qed.

(** Every evaluation can be ended without any help of the process. *)
Theorem C41_can_end (runs : engine -> option string -> string -> outcome -> Prop) : json_lines dumps parse -> prints_lines runs ->
  forall s t ev, reachable dumps parse complaint runs pipe_buf s -> th_now (sy_threads s t) = Some ev ->
  exists s' r, steps dumps parse complaint runs pipe_buf s s' /\ th_now (sy_threads s' t) = None /\
    th_log (sy_threads s' t) = r :: th_log (sy_threads s t) /\ rc_request r = ev_request ev /\
    (forall pid n', nth_error (sy_nodes s') pid = Some n' ->
       exists n, nth_error (sy_nodes s) pid = Some n /\ (n' = n \/ n' = set_killed n)).
Proof.
  intros JL PL s t ev R H. destruct (i_now _ _ _ (inv_reachable _ _ _ _ _ JL PL _ R) _ _ H) as (n & N & _).
  destruct (end_always dumps parse complaint runs pipe_buf s t ev n H N) as (s' & r & A & B & C & D & E).
  exists s', r. auto.
Qed.

(** ** Findings *)
Definition only (script : string) (o : outcome) (e : engine) (c : option string) (s : string) (o' : outcome) : Prop :=
  s = script /\ o' = o.

(** If the killed process has not been reaped yet when it is polled, what had been read of the
    output is taken for all of it: a wrong number is returned. *)
Theorem C41_killed_process_refuted : json_lines dumps parse -> 512 <= pipe_buf ->
  let runs := only "1" (Returns "" "-0.0000012345678901234567") in
  prints_lines runs /\
  exists s t r, reachable dumps parse complaint runs pipe_buf s /\
    th_log (sy_threads s t) = [r] /\ rc_request r = Request false None "1" /\
    rc_killed r = true /\ rc_end r = Finished 0 "-0.0" "" /\
    forall loads v, loads "-0.0" = Some v -> eval_result loads (0%Z, "-0.0", "") = inl v.
Proof.
  intros JL PB runs. split.
  { intros e c sc con text [_ H]. injection H as -> ->. split; reflexivity. }
  pose proof (first_answer runs 0 (Request false None "1") Plain (Returns "" "-0.0000012345678901234567") JL ltac:(lia) eq_refl ltac:(discriminate) (conj eq_refl eq_refl)) as S.
  unfold handler_writes, never_ends in S. cbn [rq_context] in S.
  eapply sees_node in S; [|eapply node_writes; reflexivity]. cbn -[append nl marker] in S.
  eapply sees_node in S; [|eapply node_writes; reflexivity]. cbn -[append nl marker] in S.
  assert (TK : forall w, String.length w <= 512 -> stake pipe_buf w = w /\ sdrop pipe_buf w = "").
  { intros w W. assert (B : String.length w <= pipe_buf) by lia. clear -B. revert pipe_buf B.
    induction w as [|a w IH]; intros [|p] B; cbn in *; auto; try lia. destruct (IH p); [lia|]. split; congruence. }
  eapply (sees_turn _ _ _ _ _ _ _ _ _ _ _ false) in S; [|reflexivity|reflexivity|reflexivity|reflexivity|].
  2: { unfold turn, read_pipe. cbn [n_exit n_out n_err set_input n_stdin n_incoming].
       rewrite (proj1 (TK (append "" (append "-0.0000012345678901234567" nl)) ltac:(cbn; lia))),
               (proj2 (TK (append "" (append "-0.0000012345678901234567" nl)) ltac:(cbn; lia))),
               (proj1 (TK (append "" "") ltac:(cbn; lia))), (proj2 (TK (append "" "") ltac:(cbn; lia))). reflexivity. }
  apply sees_expire in S; auto. apply sees_kill in S; auto. apply sees_leave in S; auto.
  apply sees_end in S; auto. destruct S as (s & R & _ & L & _). exists s, 0. eexists. split; [exact R|]. split; [exact L|].
  repeat split; auto. intros loads v V. unfold eval_result. cbn. rewrite V. reflexivity.
Qed.

Lemma last_char a b x y : (a ++ String x "" = b ++ String y "")%string -> x = y.
Proof.
  revert b; induction a as [|c a IH]; intros [|d b]; cbn [append]; intros H; injection H; intros; auto; eauto.
  - destruct b; discriminate.
  - destruct a; discriminate.
Qed.
Fixpoint letters (k : nat) : string := match k with 0 => "" | S k' => String "a" (letters k') end.
Lemma letters_length k : String.length (letters k) = k. Proof. induction k; cbn; auto. Qed.
Lemma letters_cut k : ParserModel.utf8 (letters k ++ String "195" "") = false.
Proof. induction k; [reflexivity|]. cbn [letters append ParserModel.utf8]. exact IHk. Qed.
Lemma letters_line k s : has_char c_nl (letters k ++ s) = has_char c_nl s.
Proof. induction k; cbn; auto. Qed.

(** A text with a character whose bytes are in two different reads breaks an evaluation off: what
    it had not read yet stays in the pipe.  The next evaluation breaks off on the rest, and
    from then on each evaluation returns the value of the one before it. *)
Theorem C40_next_evaluations_refuted : json_lines dumps parse -> 512 <= pipe_buf ->
  let text := (String c_dq (letters (pipe_buf - 2)) ++ String "195" (String "169" (String c_dq "")))%string in
  let runs := fun (e : engine) (c : option string) script o =>
    script = "1" /\ o = Returns "" text \/ script = "2" /\ o = Returns "" "2" \/ script = "3" /\ o = Returns "" "3" in
  prints_lines runs /\ ParserModel.utf8 text = true /\
  exists s t r1 r2 r3, reachable dumps parse complaint runs pipe_buf s /\
    th_log (sy_threads s t) = [r3; r2; r1] /\
    rc_request r1 = Request false None "1" /\ rc_killed r1 = false /\ rc_end r1 = Raised ValueError /\
    rc_request r2 = Request false None "2" /\ rc_killed r2 = false /\ rc_end r2 = Raised ValueError /\
    rc_request r3 = Request false None "3" /\ rc_killed r3 = false /\ (exists err, rc_end r3 = Finished 0 "2" err) /\
    ~ own_output runs (rc_request r3) "2".
Proof.
  intros JL PB text runs.
  set (head := (String c_dq (letters (pipe_buf - 2)) ++ String "195" "")%string).
  set (tail := (String "169" (String c_dq nl))).
  assert (HT : (text ++ nl = head ++ tail)%string).
  { unfold text, head, tail. rewrite !sapp_assoc. reflexivity. }
  assert (HL : String.length head = pipe_buf).
  { unfold head. rewrite slen_app. cbn. rewrite letters_length. lia. }
  assert (UH : ParserModel.utf8 head = false) by (apply letters_cut).
  clearbody head. assert (PB0 : 0 < pipe_buf) by lia.
  split; [|split].
  { intros e c sc con t H. destruct H as [[_ H]|[[_ H]|[_ H]]]; injection H as -> ->; try (split; reflexivity).
    split.
    - unfold text. cbn [append has_char]. rewrite letters_line. reflexivity.
    - destruct (endswith marker text) eqn:E; auto. apply endswith_spec in E as [x E]. exfalso.
      assert (Y : ((String c_dq (letters (pipe_buf - 2)) ++ String "195" (String "169" "")) ++ String c_dq ""
                   = (x ++ "r1cepzbhUTxtykz5XTC") ++ String "4" "")%string) by (rewrite !sapp_assoc; exact E).
      apply last_char in Y. discriminate. }
  { unfold text. cbn [append ParserModel.utf8]. clear. induction (pipe_buf - 2); [reflexivity|]. exact IHn. }
  assert (TK : forall w, String.length w <= pipe_buf -> stake pipe_buf w = w /\ sdrop pipe_buf w = "").
  { intros w B. clear -B. revert pipe_buf B.
    induction w as [|a w IH]; intros [|p] B; cbn in *; auto; try lia. destruct (IH p); [lia|]. split; congruence. }
  pose proof (first_answer runs 0 (Request false None "1") Plain (Returns "" text) JL ltac:(lia) eq_refl ltac:(discriminate)
                (or_introl (conj eq_refl eq_refl))) as S.
  unfold handler_writes, never_ends in S. cbn [rq_context] in S. rewrite HT in S.
  eapply sees_node in S; [|eapply node_writes; reflexivity]. cbn -[append nl marker] in S.
  eapply sees_node in S; [|eapply (Write _ _ _ _ _ Stdout head tail); [reflexivity|reflexivity|]].
  2: { rewrite slen_app, HL. cbn. lia. }
  cbn -[append nl marker tail] in S. change (String.eqb tail "") with false in S. cbv iota in S.
  eapply (sees_turn _ _ _ _ _ _ _ _ _ _ _ false) in S; [|reflexivity|reflexivity|reflexivity|reflexivity|].
  2: { unfold turn, read_pipe. cbn [n_exit n_out n_err set_input set_todo set_pipes n_stdin n_incoming n_todo n_hung].
       rewrite (proj1 (TK (append "" head) ltac:(cbn; lia))), (proj2 (TK (append "" head) ltac:(cbn; lia))),
               (proj1 (TK (append "" "") ltac:(cbn; lia))), (proj2 (TK (append "" "") ltac:(cbn; lia))). reflexivity. }
  eapply sees_break in S; [|reflexivity|reflexivity|].
  2: { unfold process_finished, ParserModel.decode. cbn [ev_out append fst snd]. rewrite UH. reflexivity. }
  eapply (sees_restart _ _ _ _ _ _ _ _ _ _ (Request false None "2") Plain) in S; [|reflexivity|reflexivity|reflexivity].
  eapply (sees_send _ _ _ _ _ _ _ _ _ PB0 _ _ _ (le_n _)) in S; try reflexivity.
  unfold ev_sent, set_input, evaluation_of, stdin_text, set_pipes in S. cbn -[append nl marker tail] in S.
  eapply sees_node in S; [|eapply node_writes; reflexivity]. cbn -[append nl marker tail] in S.
  eapply sees_node in S; [|eapply node_writes; reflexivity]. cbn -[append nl marker tail] in S.
  eapply (sees_turn _ _ _ _ _ _ _ _ _ _ _ false) in S; [|reflexivity|reflexivity|reflexivity|reflexivity|].
  2: { unfold turn, read_pipe. cbn -[append nl marker tail stake sdrop].
       rewrite (proj1 (TK (append (append "" tail) (append marker nl)) ltac:(cbn; lia))), (proj2 (TK (append (append "" tail) (append marker nl)) ltac:(cbn; lia))),
               (proj1 (TK "" ltac:(cbn; lia))), (proj2 (TK "" ltac:(cbn; lia))). reflexivity. }
  eapply sees_break in S; [|reflexivity|reflexivity|reflexivity].
  cbn -[append nl marker tail] in S.
  eapply sees_node in S; [|eapply node_writes; reflexivity]. cbn -[append nl marker tail] in S.
  eapply sees_node in S; [|eapply (node_receives runs _ "2" (Returns "" "2") JL); [reflexivity..|apply sapp_nil_r|reflexivity|right; left; split; reflexivity]].
  cbn -[append nl marker tail] in S.
  do 4 (eapply sees_node in S; [|eapply node_writes; reflexivity]; cbn -[append nl marker tail] in S).
  eapply (sees_restart _ _ _ _ _ _ _ _ _ _ (Request false None "3") Plain) in S; [|reflexivity|reflexivity|reflexivity].
  match type of S with sees _ _ _ _ _ _ _ _ _ _ ?n => set (n3 := n) in S end.
  eapply (sees_turn _ _ _ _ _ _ _ _ _ _ _ false) in S; [|reflexivity|reflexivity|reflexivity|reflexivity|].
  2: { unfold turn, read_pipe. change (n_out (set_input n3 (n_incoming n3) (n_stdin n3 ++ ""))) with (n_out n3).
       change (n_err (set_input n3 (n_incoming n3) (n_stdin n3 ++ ""))) with (n_err n3).
       rewrite (proj1 (TK (n_out n3) ltac:(cbn; lia))), (proj2 (TK (n_out n3) ltac:(cbn; lia))),
               (proj1 (TK (n_err n3) ltac:(cbn; lia))), (proj2 (TK (n_err n3) ltac:(cbn; lia))). reflexivity. }
  apply sees_leave in S; [|reflexivity|left; reflexivity].
  apply sees_end in S; [|reflexivity|reflexivity].
  destruct S as (s & R & _ & L & _). exists s, 0. eexists; eexists; eexists. split; [exact R|]. split; [exact L|].
  repeat (split; [reflexivity|]). split; [eexists; reflexivity|].
  intros [(con & e & E & X)|[_ X]]; [|discriminate].
  destruct X as [[X _]|[[X _]|[_ X]]]; discriminate.
Qed.
End Props.

Print Assumptions C40_own_output.
Print Assumptions C40_beginning_of_own_output.
Print Assumptions C40_private_processes.
Print Assumptions C40_starts_on_a_live_process.
Print Assumptions C40_ascii_partial.
Print Assumptions C40_can_answer.
Print Assumptions C41_timeout_reported_partial.
Print Assumptions C41_values.
Print Assumptions C41_endless_script.
Print Assumptions C41_can_end.
Print Assumptions C41_killed_process_refuted.
Print Assumptions C40_next_evaluations_refuted.

(** ** A library and a script that meet the hypotheses *)
Definition enc1 (c : ascii) : string :=
  String (ascii_of_nat (97 + nat_of_ascii c / 16)) (String (ascii_of_nat (97 + nat_of_ascii c mod 16)) "").
Fixpoint enc (s : string) : string := match s with "" => "" | String c s' => enc1 c ++ enc s' end.
Fixpoint dec (s : string) : option string :=
  match s with
  | String a (String b s') =>
      match dec s' with
      | Some t => Some (String (ascii_of_nat ((nat_of_ascii a - 97) * 16 + (nat_of_ascii b - 97))) t)
      | None => None
      end
  | "" => Some ""
  | _ => None
  end.
Lemma enc1_dec c t s : dec s = Some t -> dec (enc1 c ++ s) = Some (String c t) /\ has_char c_nl (enc1 c) = false.
Proof. intros H. destruct c as [[] [] [] [] [] [] [] []]; cbn -[dec] in *; cbn [dec]; rewrite H; split; reflexivity. Qed.
Example C40_json_lines : json_lines enc dec.
Proof.
  intros s. induction s as [|c s [A B]]; [split; reflexivity|]. destruct (enc1_dec c s (enc s) B) as [X Y].
  cbn [enc]. rewrite has_char_app, A, Y, X. split; reflexivity.
Qed.
Example C40_run : exists s t err, reachable enc dec (fun _ => "") (only "6*7" (Returns "" "42")) 4096 s /\
  th_log (sy_threads s t) = [Record_ (Request false None "6*7") (Some 0) false None (Finished 0 "42" err)] /\
  ~ disturbed [] 0 /\ own_output (only "6*7" (Returns "" "42")) (Request false None "6*7") "42".
Proof.
  destruct (C40_can_answer enc dec (fun _ => "") 4096 (only "6*7" (Returns "" "42")) C40_json_lines ltac:(apply Nat.ltb_lt; reflexivity)
             (Request false None "6*7") Plain "" "42" eq_refl ltac:(discriminate) (conj eq_refl eq_refl)
             (conj eq_refl eq_refl) eq_refl eq_refl) as (s & t & err & R & L).
  exists s, t, err. repeat split; auto.
  - intros (r & [] & _).
  - left. exists "", Plain. repeat split.
Qed.
