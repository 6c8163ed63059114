(** * Proofs that what the matcher accepts are the parameter references *)
From Verif Require Import PyBase PyBaseProofs EvalModel EvalSpec.
From Coq Require Import Lia.

Lemma word_ends_sound s : forall r, In r (word_ends s) -> exists n, s = (n ++ r)%string /\ n <> "" /\ sforall is_word n = true.
Proof.
  induction s as [|c s IH]; intros r H; [destruct H|]. cbn [word_ends] in H. destruct (is_word c) eqn:W; [|destruct H].
  apply in_app_iff in H. destruct H as [H|[<-|[]]].
  - destruct (IH r H) as (n & -> & _ & F). exists (String c n). repeat split; [discriminate|]. cbn [sforall]. rewrite W. exact F.
  - exists (String c ""). repeat split; [discriminate|]. cbn [sforall]. rewrite W. reflexivity.
Qed.
Lemma q_ends_sound q : forall k s b r, String.length s <= k -> In r (q_ends q b s) ->
  exists t, s = (t ++ String q (String "]" r))%string /\ (QuotedText q t \/ t = "" /\ b = true).
Proof.
  induction k as [|k IH]; intros s b r L H; (destruct s as [|c s]; [destruct H|]); cbn [String.length] in L; [lia|].
  cbn [q_ends] in H. apply in_app_iff in H. destruct H as [H|H]; [|apply in_app_iff in H; destruct H as [H|H]].
  - destruct (Ascii.eqb_spec c q) as [->|N]; [destruct H|]. destruct (IH s true r ltac:(lia) H) as (t & -> & T).
    exists (String c t). split; [reflexivity|]. left. constructor; auto. destruct T as [T|[T _]]; auto.
  - destruct s as [|d s]; [destruct H|]. cbn [String.length] in L. destruct (Ascii.eqb_spec c c_bs) as [->|]; [|destruct H]. destruct (Ascii.eqb_spec d q) as [->|]; [|destruct H].
    cbn [andb] in H. destruct (IH s true r ltac:(lia) H) as (t & -> & T). exists (String c_bs (String q t)). split; [reflexivity|]. left. apply QT_escape. destruct T as [T|[T _]]; auto.
  - destruct s as [|d s]; [destruct H|]. destruct b; [|destruct H]. destruct (Ascii.eqb_spec c q) as [->|]; [|destruct H].
    destruct (Ascii.eqb_spec d "]") as [->|]; [|destruct H]. destruct H as [<-|[]]. exists "". auto.
Qed.
Lemma index_ends_sound s : forall b r, In r (index_ends b s) -> exists d, s = (d ++ String "]" r)%string /\ sforall is_digit d = true /\ (d <> "" \/ b = true).
Proof.
  induction s as [|c s IH]; intros b r H; [destruct H|]. cbn [index_ends] in H. destruct (is_digit c) eqn:D.
  - destruct (IH true r H) as (d & -> & F & _). exists (String c d). repeat split; [|left; discriminate]. cbn [sforall]. rewrite D. exact F.
  - destruct b; [|destruct H]. cbn [andb] in H. destruct (Ascii.eqb_spec c "]") as [->|]; [|destruct H]. destruct H as [<-|[]]. exists "". auto.
Qed.
Lemma seg_ends_sound s r : In r (seg_ends s) -> exists t, s = (t ++ r)%string /\ SegmentText t.
Proof.
  destruct s as [|c s]; [intros []|]. cbn [seg_ends]. destruct (Ascii.eqb_spec c ".") as [->|_].
  - intros H. apply word_ends_sound in H. destruct H as (n & -> & N & F). exists ("." ++ n)%string. split; [reflexivity|]. constructor; auto.
  - destruct (Ascii.eqb_spec c "[") as [->|_]; [|intros []]. destruct s as [|q s]; [intros []|].
    assert (Q : forall q, (q = c_sq \/ q = c_dq) -> In r (q_ends q false s) -> exists t, String "[" (String q s) = (t ++ r)%string /\ SegmentText t).
    { intros q' Q H. apply (q_ends_sound q' (String.length s)) in H; [|lia]. destruct H as (t & -> & [T|[_ T]]); [|discriminate].
      exists (String "[" (String q' (t ++ String q' "]"))). split; [|constructor; auto]. cbn [append]. rewrite sapp_assoc. reflexivity. }
    destruct (Ascii.eqb_spec q c_sq) as [->|_]; [apply Q; auto|]. destruct (Ascii.eqb_spec q c_dq) as [->|_]; [apply Q; auto|].
    intros H. apply index_ends_sound in H. destruct H as (d & E & F & [N|N]); [|discriminate]. exists ("[" ++ d ++ "]")%string. split; [|constructor; auto].
    cbn [append]. rewrite sapp_assoc. cbn [append]. rewrite <- E. reflexivity.
Qed.
Lemma segs_match_sound n : forall s, segs_match n s = true -> exists t e, s = (t ++ ")" ++ e)%string /\ SegmentTexts t /\ (e = "" \/ e = String c_nl "").
Proof.
  induction n as [|n IH]; intros s H; [discriminate|]. cbn [segs_match] in H. apply orb_true_iff in H. destruct H as [H|H].
  - apply existsb_exists in H. destruct H as (r & I & H). apply seg_ends_sound in I. destruct I as (t & -> & T). apply IH in H. destruct H as (t' & e & -> & T' & E).
    exists (t ++ t')%string, e. rewrite sapp_assoc. repeat split; auto. constructor; auto.
  - unfold close_paren_end in H. apply orb_true_iff in H. destruct H as [H|H]; apply String.eqb_eq in H; subst s; exists ""; eexists; (split; [reflexivity|]); (split; [constructor|auto]).
Qed.
Lemma word_run_sound s : forall w r, word_run s = (w, r) -> s = (w ++ r)%string /\ sforall is_word w = true.
Proof.
  induction s as [|c s IH]; intros w r; cbn [word_run]; [intros [= <- <-]; auto|]. destruct (is_word c) eqn:W; [|intros [= <- <-]; auto].
  destruct (word_run s) as [w' r'] eqn:E. intros [= <- <-]. destruct (IH w' r' eq_refl) as [-> F]. split; [reflexivity|]. cbn [sforall]. rewrite W. exact F.
Qed.
Lemma param_match_sound ex w : param_match ex = Some w -> RefText w ex.
Proof.
  destruct ex as [|c s]; [discriminate|]. cbn [param_match]. destruct (Ascii.eqb_spec c "(") as [->|_]; [|discriminate].
  destruct (word_run s) as [w' r] eqn:W. apply word_run_sound in W. destruct W as [-> F].
  destruct (String.eqb_spec w' "") as [->|N]; [discriminate|]. cbn [negb andb]. destruct (segs_match _ r) eqn:S; [|discriminate]. intros [= ->].
  apply segs_match_sound in S. destruct S as (t & e & -> & T & E). exists t, e. auto.
Qed.
Lemma evaluator_other {St} (js : St -> string -> string -> St * result json) obj jslib fullJS st ex :
  (forall root, RefText root ex -> ~ is_root root) -> ex <> "(null)" ->
  evaluator js obj jslib fullJS st ex = if fullJS then js st ex jslib else (st, Err JavascriptException).
Proof.
  intros R N. unfold evaluator. destruct (param_match ex) as [w|] eqn:P; [|reflexivity]. apply param_match_sound in P.
  destruct (_ && String.eqb w "null") eqn:B.
  - exfalso. apply andb_true_iff in B. destruct B as [L W]. apply String.eqb_eq in W. subst w. apply Nat.eqb_eq in L. destruct P as (t & e & -> & _ & _ & T & E).
    cbn [append String.length] in L. rewrite slength_app in L. cbn [append String.length] in L. apply N. destruct t as [|a t]; [|cbn in L; lia]. destruct e as [|a e]; [reflexivity|cbn in L; lia].
  - destruct (is_cwl_parameter_context_key w) eqn:K; [|reflexivity]. exfalso. apply (R w P). unfold is_cwl_parameter_context_key in K. apply smem_In in K. cbn in K. unfold is_root. intuition.
Qed.
