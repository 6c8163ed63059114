(** * Runs of the Node.js engine: text that is always decoded, progress, and particular schedules *)
From Verif Require Import PyBase PyBaseProofs NodeModel NodeSpec NodeProofs.
From Verif Require ParserModel.
From Coq Require Import ZArith Lia.

(** ** ASCII output is always decoded *)
Lemma ascii_app a b : ascii_text (a ++ b) <-> ascii_text a /\ ascii_text b.
Proof. unfold ascii_text. induction a; cbn; [tauto|]. rewrite !andb_true_iff, IHa. tauto. Qed.
Lemma ascii_stake n s : ascii_text s -> ascii_text (stake n s).
Proof. rewrite <- (stake_sdrop n s) at 1. rewrite ascii_app. tauto. Qed.
Lemma ascii_sdrop n s : ascii_text s -> ascii_text (sdrop n s).
Proof. rewrite <- (stake_sdrop n s) at 1. rewrite ascii_app. tauto. Qed.
Lemma ascii_utf8 s : ascii_text s -> ParserModel.utf8 s = true.
Proof.
  unfold ascii_text. induction s as [|c s IH]; auto. cbn [sforall]. rewrite andb_true_iff. intros [A B]. cbn [ParserModel.utf8].
  unfold ParserModel.between at 1. apply Nat.ltb_lt in A. assert (X : nat_of_ascii c <=? 127 = true) by (apply Nat.leb_le; lia).
  rewrite X. cbn [Nat.leb andb]. auto.
Qed.
Lemma ascii_decode s : ascii_text s -> ParserModel.decode s = Ok s.
Proof. intros H. unfold ParserModel.decode. rewrite ascii_utf8; auto. Qed.

Section Ascii.
Variable dumps : string -> string.
Variable parse : string -> option string.
Variable complaint : string -> string.
Variable runs : engine -> option string -> string -> outcome -> Prop.
Variable pipe_buf : nat.
Hypothesis PA : prints_ascii runs.
Hypothesis CA : forall l, ascii_text (complaint l).
Notation node_step := (node_step parse complaint runs pipe_buf).
Notation handles := (handles parse complaint runs).
Notation step := (step dumps parse complaint runs pipe_buf).
Notation reachable := (reachable dumps parse complaint runs pipe_buf).

Definition clean (n : node) : Prop :=
  ascii_text (n_out n) /\ ascii_text (n_err n) /\ Forall (fun w => ascii_text (snd w)) (n_todo n).

Lemma writes_ascii first o :
  match o with
  | Returns console text => ascii_text console /\ ascii_text text
  | Throws console shown => ascii_text console /\ ascii_text shown
  | Hangs console => ascii_text console
  end -> Forall (fun w => ascii_text (snd w)) (handler_writes first o).
Proof.
  assert (M : ascii_text (marker ++ nl)) by reflexivity.
  destruct o; cbn -[append]; destruct first; intros; repeat constructor; cbn -[append]; try tauto.
  apply ascii_app. split; [tauto|reflexivity].
Qed.
Lemma handles_clean n l r n' : clean n -> handles n l r n' -> clean n'.
Proof.
  intros (A & B & C) H. destruct H as [script o P R|P]; unfold clean; cbn -[handler_writes]; repeat split; auto; apply writes_ascii.
  - exact (PA _ _ _ _ R).
  - split; [reflexivity|apply CA].
Qed.
Lemma node_step_clean n n' : clean n -> node_step n n' -> clean n'.
Proof.
  intros K S. destruct S as [| | |f a b more X T W|]; auto.
  - eapply handles_clean; [|eauto]. exact K.
  - eapply handles_clean; [|eauto]. exact K.
  - destruct K as (A & B & C). rewrite T in C. inversion C as [|? ? C1 C2]; subst. cbn in C1. apply ascii_app in C1 as [C1 C3].
    unfold clean. destruct f; cbn; repeat split; auto; try (apply ascii_app; auto);
      destruct (String.eqb b ""); auto.
Qed.

Record tidy (s : system) : Prop := {
  t_nodes : forall pid n, nth_error (sy_nodes s) pid = Some n -> clean n;
  t_now : forall t ev, th_now (sy_threads s t) = Some ev -> ascii_text (ev_out ev) /\ ascii_text (ev_err ev);
  t_log : forall t r pid, In r (th_log (sy_threads s t)) -> rc_pid r = Some pid -> exists code out err, rc_end r = Finished code out err }.

Lemma tidy_thread s l' t th o : tidy s ->
  (forall pid n, nth_error l' pid = Some n -> clean n) ->
  (forall ev, th_now th = Some ev -> ascii_text (ev_out ev) /\ ascii_text (ev_err ev)) ->
  (forall r pid, In r (th_log th) -> rc_pid r = Some pid -> exists code out err, rc_end r = Finished code out err) ->
  tidy (System l' (with_thread s t th) o).
Proof.
  intros [A B C] D E F. constructor; cbn; auto; intros t'; (destruct (Nat.eq_dec t t') as [<-|N];
    [rewrite thread_same|rewrite thread_other by auto]); eauto.
Qed.
Lemma replace_clean (l : list node) pid n' : (forall p n, nth_error l p = Some n -> clean n) -> clean n' ->
  forall p n, nth_error (replace_nth pid n' l) p = Some n -> clean n.
Proof.
  intros A K p n H. destruct (Nat.eq_dec pid p) as [<-|N].
  - destruct (nth_error l pid) as [m|] eqn:E.
    + rewrite (nth_replace_same _ _ _ _ E) in H. congruence.
    + exfalso. revert H E. clear. revert pid. induction l as [|y l IH]; intros [|i]; cbn; try discriminate. apply IH.
  - rewrite nth_replace_other in H by auto. eauto.
Qed.
Lemma finished_decodes ev : ascii_text (ev_out ev) -> ascii_text (ev_err ev) -> exists b, process_finished ev = Ok b.
Proof.
  intros A B. unfold process_finished. rewrite !ascii_decode by auto. cbn [bind].
  destruct (endswith _ _); eauto.
Qed.
Lemma strip_ascii s : ascii_text s -> ascii_text (strip_mark s).
Proof. apply ascii_stake. Qed.

Lemma tidy_step s s' : tidy s -> step s s' -> tidy s'.
Proof.
  intros I S. assert (I' := I). destruct I' as [A B C]. destruct S.
  - constructor; cbn; auto. apply replace_clean; auto. eapply node_step_clean; eauto.
  - unfold exec_start. destruct (engine_of r) as [e|e]; [destruct (reusable s t (e, rq_context r)); [|destruct failure]|].
    + apply tidy_thread; cbn; auto. intros ev Q; injection Q as <-. cbn. split; reflexivity. intros x p. apply C.
    + apply tidy_thread; cbn; auto; [discriminate|]. intros x p [<-|Q]; [discriminate|]. eauto.
    + apply tidy_thread; cbn; auto.
      * intros p n Q. destruct (Nat.lt_ge_cases p (List.length (sy_nodes s))) as [L|L].
        -- rewrite nth_error_app1 in Q; eauto.
        -- rewrite nth_error_app2 in Q by auto. destruct (p - _) as [|k]; [injection Q as <-|destruct k; discriminate].
           repeat split; constructor.
      * intros ev Q; injection Q as <-. cbn. split; reflexivity.
      * intros x p. apply C.
    + apply tidy_thread; cbn; auto; [discriminate|]. intros x p [<-|Q]; [discriminate|]. eauto.
  - destruct (B _ _ H) as [B1 B2]. destruct (A _ _ H3) as (A1 & A2 & A3). unfold turn in H4.
    assert (X : clean n' /\ ascii_text (ev_out ev') /\ ascii_text (ev_err ev')).
    { destruct (n_exit n); [destruct (if w then _ else _)|]; injection H4 as <- <-; cbn; unfold clean; cbn;
        repeat split; auto using ascii_sdrop; apply ascii_app; auto using ascii_stake. }
    destruct X as (X1 & X2 & X3). apply tidy_thread; cbn; auto.
    + apply replace_clean; auto.
    + intros e Q; injection Q as <-. auto.
    + intros x p. apply C.
  - apply tidy_thread; cbn; auto; [intros e Q; injection Q as <-; cbn; eauto|]. intros x p. apply C.
  - destruct (B _ _ H) as [B1 B2]. destruct (finished_decodes ev B1 B2) as [b X]. congruence.
  - apply tidy_thread; cbn; auto; [intros e Q; injection Q as <-; cbn; eauto|]. intros x p. apply C.
  - apply tidy_thread; cbn; auto; [|intros e Q; injection Q as <-; cbn; eauto|].
    + apply replace_clean; auto. exact (A _ _ H1).
    + intros x p. apply C.
  - destruct (B _ _ H) as [B1 B2]. apply tidy_thread; cbn; auto; [discriminate|].
    intros x p [<-|Q]; [|eauto]. cbn. intros _. unfold result_of. rewrite !ascii_decode by auto using strip_ascii. eauto.
  - constructor; cbn; auto. apply replace_clean; auto. exact (A _ _ H0).
Qed.

Lemma tidy_reachable s : reachable s -> tidy s.
Proof.
  induction 1 as [|s s' _ IH S]; [|eapply tidy_step; eauto].
  constructor; cbn; try discriminate; try contradiction. intros [|pid]; discriminate.
Qed.
End Ascii.

(** ** Return codes *)
Section Codes.
Variable dumps : string -> string.
Variable parse : string -> option string.
Variable complaint : string -> string.
Variable runs : engine -> option string -> string -> outcome -> Prop.
Variable pipe_buf : nat.
Notation step := (step dumps parse complaint runs pipe_buf).
Notation reachable := (reachable dumps parse complaint runs pipe_buf).
Notation node_step := (node_step parse complaint runs pipe_buf).

Definition coded (r : record) : Prop :=
  rc_seen r <> Some 0%Z /\
  forall code out err, rc_end r = Finished code out err -> code = return_code (rc_seen r) (rc_killed r).
Record codes (s : system) : Prop := {
  c_exit : forall pid n c, nth_error (sy_nodes s) pid = Some n -> n_exit n = Some c -> c <> 0%Z;
  c_log : forall t r, In r (th_log (sy_threads s t)) -> coded r }.

Lemma codes_thread s l' t th o : codes s ->
  (forall pid n c, nth_error l' pid = Some n -> n_exit n = Some c -> c <> 0%Z) ->
  (forall r, In r (th_log th) -> coded r) -> codes (System l' (with_thread s t th) o).
Proof.
  intros [A B] D E. constructor; cbn; auto; intros t'; (destruct (Nat.eq_dec t t') as [<-|N];
    [rewrite thread_same|rewrite thread_other by auto]); eauto.
Qed.
Lemma replace_codes (l : list node) pid n n' : (forall p n c, nth_error l p = Some n -> n_exit n = Some c -> c <> 0%Z) ->
  nth_error l pid = Some n -> (forall c, n_exit n' = Some c -> c <> 0%Z) ->
  forall p m c, nth_error (replace_nth pid n' l) p = Some m -> n_exit m = Some c -> c <> 0%Z.
Proof.
  intros A E K p m c H. destruct (Nat.eq_dec pid p) as [<-|N].
  - rewrite (nth_replace_same _ _ _ _ E) in H. injection H as <-. auto.
  - rewrite nth_replace_other in H by auto. eauto.
Qed.
Lemma codes_step s s' : codes s -> step s s' -> codes s'.
Proof.
  intros I S. assert (I' := I). destruct I' as [A B]. destruct S.
  - constructor; cbn; auto. eapply replace_codes; eauto. intros c. eapply node_step_exit; eauto.
  - assert (R : forall e r', In r' (Record_ r None false None (Raised e) :: th_log (sy_threads s t)) -> coded r').
    { intros e r' [<-|Q]; [|eauto]. split; cbn; discriminate. }
    unfold exec_start. destruct (engine_of r) as [e|e]; [destruct (reusable s t (e, rq_context r)); [|destruct failure]|];
      apply codes_thread; cbn; auto; try (apply R); try (intros; eapply B; eassumption).
    intros p n c Q. destruct (Nat.lt_ge_cases p (List.length (sy_nodes s))) as [L|L].
    + rewrite nth_error_app1 in Q; eauto.
    + rewrite nth_error_app2 in Q by auto. destruct (p - _) as [|k]; [injection Q as <-; discriminate|destruct k; discriminate].
  - apply codes_thread; cbn; auto; [|intros; eapply B; eassumption]. eapply replace_codes; eauto. intros c.
    destruct (turn_same _ _ _ _ _ _ H4) as (_ & _ & _ & _ & _ & _ & _ & X & _). rewrite X. eauto.
  - apply codes_thread; cbn; auto; intros; eapply B; eassumption.
  - apply codes_thread; cbn; auto. intros x [<-|Q]; [|eauto]. split; cbn; discriminate.
  - apply codes_thread; cbn; auto; intros; eapply B; eassumption.
  - apply codes_thread; cbn; auto; [|intros; eapply B; eassumption]. eapply replace_codes; eauto; intros c; cbn; eauto.
  - apply codes_thread; cbn; auto. intros x [<-|Q]; [|eauto]. split; cbn.
    + intros X. exact (A _ _ _ H1 X eq_refl).
    + intros code out err. unfold result_of. destruct (ParserModel.decode (strip_mark (ev_out ev))); [|discriminate].
      destruct (ParserModel.decode (strip_mark (ev_err ev))); [|discriminate]. congruence.
  - constructor; cbn; auto. eapply replace_codes; eauto; intros c; cbn; eauto.
Qed.
Lemma codes_reachable s : reachable s -> codes s.
Proof.
  induction 1 as [|s s' _ IH S]; [|eapply codes_step; eauto].
  constructor; cbn; try contradiction. intros [|pid]; discriminate.
Qed.

(** ** An evaluation can always be ended *)
Inductive steps : system -> system -> Prop :=
| Steps_none s : steps s s
| Steps_one s s1 s2 : step s s1 -> steps s1 s2 -> steps s s2.

Lemma steps_reachable s s' : steps s s' -> reachable s -> reachable s'.
Proof. induction 1; auto. intros R. apply IHsteps. econstructor 2; eauto. Qed.

Definition untouched (l l' : list node) : Prop :=
  forall pid n', nth_error l' pid = Some n' -> exists n, nth_error l pid = Some n /\ (n' = n \/ n' = set_killed n).

Lemma end_left s t ev n : th_now (sy_threads s t) = Some ev -> ev_left ev = true ->
  nth_error (sy_nodes s) (ev_pid ev) = Some n ->
  exists s' r, steps s s' /\ th_now (sy_threads s' t) = None /\
    th_log (sy_threads s' t) = r :: th_log (sy_threads s t) /\ rc_request r = ev_request ev /\ sy_nodes s' = sy_nodes s.
Proof.
  intros H L N. eexists; eexists. split; [econstructor; [eapply Ends; eauto|constructor]|].
  cbn. rewrite thread_same. cbn. auto.
Qed.
Lemma end_fired s t ev n : th_now (sy_threads s t) = Some ev -> ev_timer ev = Fired ->
  nth_error (sy_nodes s) (ev_pid ev) = Some n ->
  exists s' r, steps s s' /\ th_now (sy_threads s' t) = None /\
    th_log (sy_threads s' t) = r :: th_log (sy_threads s t) /\ rc_request r = ev_request ev /\ sy_nodes s' = sy_nodes s.
Proof.
  intros H T N. destruct (ev_left ev) eqn:L; [eapply end_left; eauto|].
  destruct (process_finished ev) as [b|e] eqn:F.
  - edestruct (end_left (System (sy_nodes s)
                   (with_thread s t (Thread (th_procs (sy_threads s t)) (Some (leave ev)) (th_log (sy_threads s t))))
                   (sy_orphans s)) t (leave ev) n) as (s' & r & S & A & B & C & D); cbn; auto; [rewrite thread_same; reflexivity|].
    exists s', r. split; [econstructor; [eapply Leaves; eauto|exact S]|].
    + destruct b; auto. right. rewrite T. auto.
    + cbn in B. rewrite thread_same in B. auto.
  - eexists; eexists. split; [econstructor; [eapply Breaks; eauto|constructor]|].
    cbn. rewrite thread_same. cbn. auto.
Qed.
Lemma untouched_refl l : untouched l l. Proof. intros p n H. eauto. Qed.
Lemma untouched_kill l pid n : nth_error l pid = Some n -> untouched l (replace_nth pid (set_killed n) l).
Proof.
  intros H p m Q. destruct (Nat.eq_dec pid p) as [<-|N].
  - rewrite (nth_replace_same _ _ _ _ H) in Q. injection Q as <-. eauto.
  - rewrite nth_replace_other in Q by auto. eauto.
Qed.
Lemma end_firing s t ev n : th_now (sy_threads s t) = Some ev -> ev_timer ev = Firing ->
  nth_error (sy_nodes s) (ev_pid ev) = Some n ->
  exists s' r, steps s s' /\ th_now (sy_threads s' t) = None /\
    th_log (sy_threads s' t) = r :: th_log (sy_threads s t) /\ rc_request r = ev_request ev /\ untouched (sy_nodes s) (sy_nodes s').
Proof.
  intros H T N.
  edestruct (end_fired (System (replace_nth (ev_pid ev) (set_killed n) (sy_nodes s))
                   (with_thread s t (Thread (th_procs (sy_threads s t)) (Some (set_timer ev Fired)) (th_log (sy_threads s t))))
                   (sy_orphans s)) t (set_timer ev Fired) (set_killed n)) as (s' & r & S & A & B & C & D);
    cbn; auto; [rewrite thread_same; reflexivity|eapply nth_replace_same; eauto|].
  exists s', r. split; [econstructor; [eapply Kills; eauto|exact S]|]. cbn in *. rewrite thread_same in B.
  rewrite D. auto using untouched_kill.
Qed.
Lemma end_always s t ev n : th_now (sy_threads s t) = Some ev -> nth_error (sy_nodes s) (ev_pid ev) = Some n ->
  exists s' r, steps s s' /\ th_now (sy_threads s' t) = None /\
    th_log (sy_threads s' t) = r :: th_log (sy_threads s t) /\ rc_request r = ev_request ev /\ untouched (sy_nodes s) (sy_nodes s').
Proof.
  intros H N. destruct (ev_timer ev) eqn:T.
  - edestruct (end_firing (System (sy_nodes s)
                   (with_thread s t (Thread (th_procs (sy_threads s t)) (Some (set_timer ev Firing)) (th_log (sy_threads s t))))
                   (sy_orphans s)) t (set_timer ev Firing) n) as (s' & r & S & A & B & C & D);
    cbn; auto; [rewrite thread_same; reflexivity|].
    exists s', r. split; [econstructor; [eapply Expires; eauto|exact S]|]. cbn in *. rewrite thread_same in B. auto.
  - eapply end_firing; eauto.
  - destruct (end_fired s t ev n H T N) as (s' & r & S & A & B & C & D). exists s', r. rewrite D. auto using untouched_refl.
Qed.

(** ** Schedules of one thread and one process *)
Definition sees (t : nat) (procs : list (key * nat)) (log : list record) (now : option evaluation) (pid : nat) (n : node) : Prop :=
  exists s, reachable s /\ th_procs (sy_threads s t) = procs /\ th_log (sy_threads s t) = log /\
            th_now (sy_threads s t) = now /\ nth_error (sy_nodes s) pid = Some n.

Lemma sees_node t procs log now pid n n' : sees t procs log now pid n -> node_step n n' -> sees t procs log now pid n'.
Proof.
  intros (s & R & A & B & C & D) S. eexists. split; [econstructor 2; [exact R|]; eapply Node_runs; eauto|].
  cbn. repeat split; auto. eapply nth_replace_same; eauto.
Qed.
Lemma sees_turn t procs log ev pid n w ev' n' : sees t procs log (Some ev) pid n -> ev_pid ev = pid -> ev_left ev = false ->
  process_finished ev = Ok false -> alive (ev_timer ev) = true -> turn pipe_buf w ev n = (ev', n') ->
  sees t procs log (Some ev') pid n'.
Proof.
  intros (s & R & A & B & C & D) <- L F T TU. eexists. split; [econstructor 2; [exact R|]; eapply Turns; eauto|].
  cbn. rewrite thread_same. cbn. repeat split; auto. eapply nth_replace_same; eauto.
Qed.
Lemma sees_leave t procs log ev pid n : sees t procs log (Some ev) pid n -> ev_left ev = false ->
  (process_finished ev = Ok true \/ process_finished ev = Ok false /\ alive (ev_timer ev) = false) ->
  sees t procs log (Some (leave ev)) pid n.
Proof.
  intros (s & R & A & B & C & D) L F. eexists. split; [econstructor 2; [exact R|]; eapply Leaves; eauto|].
  cbn. rewrite thread_same. cbn. repeat split; auto.
Qed.
Lemma sees_break t procs log ev pid n e : sees t procs log (Some ev) pid n -> ev_pid ev = pid -> ev_left ev = false ->
  process_finished ev = Err e ->
  sees t procs (Record_ (ev_request ev) (Some pid) (ev_killed ev) None (Raised e) :: log) None pid n.
Proof.
  intros (s & R & A & B & C & D) <- L F. eexists. split; [econstructor 2; [exact R|]; eapply Breaks; eauto|].
  cbn. rewrite thread_same. cbn. rewrite B. repeat split; auto.
Qed.
Lemma sees_end t procs log ev pid n : sees t procs log (Some ev) pid n -> ev_pid ev = pid -> ev_left ev = true ->
  sees t procs (Record_ (ev_request ev) (Some pid) (ev_killed ev) (n_exit n) (result_of ev (n_exit n)) :: log) None pid n.
Proof.
  intros (s & R & A & B & C & D) <- L. eexists. split; [econstructor 2; [exact R|]; eapply Ends; eauto|].
  cbn. rewrite thread_same. cbn. rewrite B. repeat split; auto.
Qed.
Lemma sees_expire t procs log ev pid n : sees t procs log (Some ev) pid n -> ev_timer ev = Armed ->
  sees t procs log (Some (set_timer ev Firing)) pid n.
Proof.
  intros (s & R & A & B & C & D) L. eexists. split; [econstructor 2; [exact R|]; eapply Expires; eauto|].
  cbn. rewrite thread_same. cbn. repeat split; auto.
Qed.
Lemma sees_kill t procs log ev pid n : sees t procs log (Some ev) pid n -> ev_pid ev = pid -> ev_timer ev = Firing ->
  sees t procs log (Some (set_timer ev Fired)) pid (set_killed n).
Proof.
  intros (s & R & A & B & C & D) <- L. eexists. split; [econstructor 2; [exact R|]; eapply Kills; eauto|].
  cbn. rewrite thread_same. cbn. repeat split; auto. eapply nth_replace_same; eauto.
Qed.
Lemma sees_restart t procs log pid n r e : sees t procs log None pid n -> engine_of r = Ok e ->
  lookup (e, rq_context r) procs = Some pid -> n_exit n = None ->
  sees t procs log (Some (evaluation_of dumps false r pid)) pid n.
Proof.
  intros (s & R & A & B & C & D) E L X. eexists. split; [econstructor 2; [exact R|]; eapply (Starts _ _ _ _ _ s t r None); eauto|].
  unfold exec_start. rewrite E. unfold reusable. rewrite A, L, D, X. cbn. rewrite thread_same. cbn. auto.
Qed.
Lemma sees_start t r e : engine_of r = Ok e ->
  sees t [((e, rq_context r), 0)] [] (Some (evaluation_of dumps true r 0)) 0 (new_node t e (rq_context r)).
Proof.
  intros E. eexists. split; [econstructor 2; [constructor 1|]; eapply (Starts _ _ _ _ _ initial t r None); reflexivity|].
  unfold exec_start. rewrite E. cbn. rewrite thread_same. cbn. auto.
Qed.

Definition ev_sent ev := Evaluation (ev_request ev) (ev_pid ev) "" (ev_out ev) (ev_err ev) (ev_timer ev) (ev_killed ev) (ev_left ev).

Lemma sdrop_length k s : String.length (sdrop k s) = String.length s - k.
Proof. revert s; induction k; destruct s; cbn; auto. Qed.

(** All that is to be sent can be sent. *)
Lemma sees_send t procs log pid : 0 < pipe_buf -> forall k ev n, String.length (ev_stdin ev) <= k ->
  sees t procs log (Some ev) pid n -> ev_pid ev = pid -> ev_left ev = false ->
  process_finished ev = Ok false -> alive (ev_timer ev) = true -> n_out n = "" -> n_err n = "" -> n_exit n = None ->
  sees t procs log (Some (ev_sent ev)) pid (set_input n (n_incoming n) (n_stdin n ++ ev_stdin ev)).
Proof.
  intros PB. induction k as [|k IH]; intros ev n K S P L F T O E X.
  - destruct ev as [rq p st out er ti ki le]; cbn in *. destruct st; [|cbn in K; lia]. rewrite sapp_nil_r.
    destruct n; cbn in *. exact S.
  - destruct (ev_stdin ev) as [|c st] eqn:Q.
    { destruct ev as [rq p st out er ti ki le]; cbn in *. subst st. rewrite sapp_nil_r. destruct n; cbn in *. exact S. }
    assert (S1 : sees t procs log (Some (Evaluation (ev_request ev) (ev_pid ev) (sdrop pipe_buf (ev_stdin ev)) (ev_out ev) (ev_err ev) (ev_timer ev) (ev_killed ev) (ev_left ev)))
                   pid (set_input n (n_incoming n) (n_stdin n ++ stake pipe_buf (ev_stdin ev)))).
    { eapply (sees_turn _ _ _ ev _ n true); eauto. unfold turn, read_pipe. rewrite X. cbn. rewrite O, E.
      replace (stake pipe_buf "") with "" by (destruct pipe_buf; reflexivity).
      replace (sdrop pipe_buf "") with "" by (destruct pipe_buf; reflexivity).
      rewrite !sapp_nil_r. unfold set_pipes, set_input. cbn. rewrite O, E, X. reflexivity. }
    eapply IH in S1; cbn; auto.
    + cbn in S1. rewrite sapp_assoc, stake_sdrop, Q in S1. exact S1.
    + rewrite sdrop_length, Q. cbn in *. destruct pipe_buf; lia.
Qed.
End Codes.
