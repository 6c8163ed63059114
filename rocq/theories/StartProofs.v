(** * Proofs for C42 *)
From Verif Require Import PyBase PyBaseProofs StartModel StartSpec.
From Verif Require Import ParserSpec ParserProofs.
From Verif Require ParserModel EngineProofs.
From Coq Require Import NArith Lia.

Definition sforall_app := EngineProofs.sforall_app.
Definition sforall_impl := EngineProofs.sforall_impl.

(** ** Stripping *)
Fixpoint dropw (f : ascii -> bool) (s : string) : string :=
  match s with String c s' => if f c then dropw f s' else s | "" => "" end.
Definition both f s := srev (dropw f (srev (dropw f s))).
Lemma strip_both s : strip s = both is_space s.
Proof. assert (X : forall t, lstrip t = dropw is_space t) by (induction t as [|c t IH]; cbn; auto; rewrite IH; auto). unfold strip, rstrip, both. rewrite !X. auto. Qed.
Lemma strip_v_both s : strip_v s = both (Ascii.eqb "v") s.
Proof.
  assert (X : forall t, lstrip_char "v" t = dropw (Ascii.eqb "v") t).
  { induction t as [|c t IH]; cbn [lstrip_char dropw]; auto. rewrite IH, Ascii.eqb_sym. auto. }
  unfold strip_v, both. rewrite !X. auto.
Qed.
Lemma dropw_decomp f s : exists a, s = (a ++ dropw f s)%string /\ only f a.
Proof.
  induction s as [|c s (a & E & O)]; [exists ""; split; reflexivity|]. cbn [dropw]. destruct (f c) eqn:F.
  - exists (String c a). split; [cbn; f_equal; auto|]. unfold only. cbn. rewrite F. apply O.
  - exists "". split; reflexivity.
Qed.
Lemma only_srev f s : only f s -> only f (srev s).
Proof.
  unfold only. induction s as [|c s IH]; auto. rewrite srev_cons, sforall_app. cbn [sforall]. rewrite !andb_true_iff. tauto.
Qed.
Lemma both_decomp f s : exists a b, s = (a ++ both f s ++ b)%string /\ only f a /\ only f b.
Proof.
  destruct (dropw_decomp f s) as (a & E & A). destruct (dropw_decomp f (srev (dropw f s))) as (b & E' & B).
  exists a, (srev b). repeat split; auto using only_srev. unfold both.
  rewrite <- srev_app_distr, <- E', srev_involutive. exact E.
Qed.
Lemma dropw_app f a s : only f a -> (forall c r, s = String c r -> f c = false) -> dropw f (a ++ s) = s.
Proof.
  unfold only. intros A H. induction a as [|c a IH]; cbn in *.
  - destruct s as [|c r]; auto. cbn. rewrite (H c r); auto.
  - apply andb_true_iff in A. destruct A as [-> A]. auto.
Qed.
Lemma both_core f a s b : only f a -> only f b -> (forall c r, s = String c r -> f c = false) ->
  (forall c r, s = (r ++ String c "")%string -> f c = false) -> s <> "" -> both f (a ++ s ++ b) = s.
Proof.
  intros A B H1 H2 NE. unfold both. rewrite dropw_app; auto.
  - rewrite srev_app_distr. rewrite dropw_app; [apply srev_involutive|apply only_srev; auto|].
    intros c r E. apply (H2 c (srev r)). rewrite <- srev_cons, <- E, srev_involutive. auto.
  - intros c r E. destruct s as [|d s]; [congruence|]. cbn in E. injection E as <- _. eapply H1; eauto.
Qed.
Lemma last_in_sforall f s c r : sforall f s = true -> s = (r ++ String c "")%string -> f c = true.
Proof. intros H ->. rewrite sforall_app in H. cbn in H. apply andb_true_iff in H. destruct H as [_ H]. apply andb_true_iff in H. tauto. Qed.

Definition vchar c := is_digit c || Ascii.eqb "." c.
Lemma Dotted_chars s v : Dotted s v -> sforall vchar s = true /\ s <> "" /\
  (forall c r, s = String c r -> is_digit c = true) /\ (forall c r, s = (r ++ String c "")%string -> is_digit c = true).
Proof.
  intros (ns & -> & NE & F & _). clear v. induction F as [|n ns [N1 N2] F IH]; [congruence|]. clear NE.
  assert (V : sforall vchar n = true) by (eapply sforall_impl; [|exact N2]; unfold vchar; intros c ->; auto).
  destruct ns as [|m ns].
  - cbn. repeat split; auto.
    + intros c r ->. cbn in N2. apply andb_true_iff in N2. tauto.
    + intros c r E. eapply last_in_sforall; eauto.
  - rewrite sjoin_cons by discriminate. destruct IH as (I1 & I2 & I3 & I4); [discriminate|].
    set (t := sjoin "." (m :: ns)) in *. clearbody t. repeat split.
    + rewrite !sforall_app, V, I1. reflexivity.
    + destruct n; cbn; congruence.
    + intros c r E. destruct n as [|d n]; [congruence|]. cbn in E. injection E as <- _. cbn in N2. apply andb_true_iff in N2. tauto.
    + intros c r E. destruct (dropw_decomp (fun _ => true) t) as (_ & _ & _).
      assert (X : exists q, t = (q ++ String c "")%string).
      { assert (Y : srev (n ++ "." ++ t) = String c (srev r)) by (rewrite E, srev_app_distr; reflexivity).
        rewrite !srev_app_distr in Y. destruct (srev t) as [|d u] eqn:Z.
        - apply (f_equal srev) in Z. rewrite srev_involutive in Z. cbn in Z. congruence.
        - cbn in Y. injection Y as <- _. exists (srev u). rewrite <- srev_cons, <- Z, srev_involutive. auto. }
      destruct X as [q X]. eapply I4; eauto.
Qed.
Lemma digit_not_space c : is_digit c = true -> is_space c = false.
Proof.
  unfold is_digit, is_space. rewrite andb_true_iff, !PeanoNat.Nat.leb_le. intros [A B]. apply orb_false_iff.
  split; apply andb_false_iff; rewrite !PeanoNat.Nat.leb_gt; lia.
Qed.
Lemma v_not_space c : Ascii.eqb "v" c = true -> is_space c = false.
Proof. intros H. apply Ascii.eqb_eq in H. subst. reflexivity. Qed.
Lemma digit_not_v c : is_digit c = true -> Ascii.eqb "v" c = false.
Proof. intros H. destruct (Ascii.eqb_spec "v" c); auto. subst. discriminate. Qed.
Lemma only_cons f c r : only f (String c r) -> f c = true.
Proof. unfold only. cbn. rewrite andb_true_iff. tauto. Qed.

Lemma Dotted_ints s v : Dotted s v <-> mapM ParserModel.int_of (split_char "." s) = Ok v.
Proof.
  split.
  - intros (ns & -> & NE & F & ->). rewrite split_numerals by auto. apply mapM_int. auto.
  - intros H. apply mapM_int in H. destruct H as [F E]. exists (split_char "." s). repeat split; auto.
    + symmetry. apply (sjoin_split_char "." s).
    + apply split_char_nonnil.
Qed.
Lemma app_last (x y : string) c r : (x ++ y)%string = (r ++ String c "")%string -> y <> "" -> exists q, y = (q ++ String c "")%string.
Proof.
  intros E NE. assert (Y : srev (x ++ y) = String c (srev r)) by (rewrite E, srev_app_distr; reflexivity).
  rewrite srev_app_distr in Y. destruct (srev y) as [|d u] eqn:Z.
  - apply (f_equal srev) in Z. rewrite srev_involutive in Z. cbn in Z. congruence.
  - cbn in Y. injection Y as <- _. exists (srev u). rewrite <- srev_cons, <- Z, srev_involutive. auto.
Qed.
Lemma Prints_version_ints out v :
  Prints_version out v <-> mapM ParserModel.int_of (split_char "." (strip_v (strip out))) = Ok v.
Proof.
  rewrite <- Dotted_ints. split.
  - intros (w1 & a & s & b & w2 & -> & W1 & A & D & B & W2).
    destruct (Dotted_chars _ _ D) as (_ & NE & D1 & D2).
    replace (w1 ++ a ++ s ++ b ++ w2)%string with (w1 ++ (a ++ s ++ b) ++ w2)%string by (rewrite !sapp_assoc; auto).
    rewrite strip_both, both_core; auto.
    + rewrite strip_v_both, both_core; auto; intros; apply digit_not_v; eauto.
    + intros c r E. destruct a as [|d a].
      * destruct s as [|d s]; [congruence|]. cbn in E. injection E as <- _. apply digit_not_space. eauto.
      * cbn in E. injection E as <- _. apply v_not_space. apply only_cons in A. auto.
    + intros c r E. destruct b as [|d b].
      * rewrite sapp_nil_r in E. apply app_last in E; auto. destruct E as [q E]. apply digit_not_space. eauto.
      * rewrite <- sapp_assoc in E. apply app_last in E; [|discriminate]. destruct E as [q E]. apply v_not_space.
        apply (last_in_sforall _ _ _ _ B E).
    + destruct a; cbn; [|discriminate]. destruct s; cbn; congruence.
  - intros D. destruct (both_decomp is_space out) as (w1 & w2 & E & W1 & W2).
    destruct (both_decomp (Ascii.eqb "v") (strip out)) as (a & b & E' & A & B).
    rewrite strip_v_both in D. exists w1, a, (both (Ascii.eqb "v") (strip out)), b, w2. repeat split; auto.
    rewrite E at 1. rewrite <- strip_both, E' at 1. rewrite !sapp_assoc. auto.
Qed.

Lemma list_ge_spec a b : list_ge a b = true <-> at_least b a.
Proof.
  revert b. induction a as [|x a IH]; intros [|y b]; cbn [list_ge at_least]; try tauto.
  - split; [discriminate|tauto].
  - destruct (N.eqb_spec x y) as [->|NE]; [rewrite IH|rewrite N.ltb_lt]; split; intuition (try lia).
Qed.
Lemma at_least_dec b a : at_least b a \/ ~ at_least b a.
Proof. rewrite <- list_ge_spec. destruct (list_ge a b); [left|right]; congruence. Qed.
Lemma Prints_version_dec out : (exists v, Prints_version out v) \/ (forall v, ~ Prints_version out v).
Proof.
  destruct (mapM ParserModel.int_of (split_char "." (strip_v (strip out)))) as [v|e] eqn:E.
  - left. exists v. apply Prints_version_ints. auto.
  - right. intros v H. apply Prints_version_ints in H. congruence.
Qed.

(** ** One world *)
Section World.
Variable prints : command -> answer.
Variable starts : command -> start_answer.
Variable files : bool -> string -> list string.
Variable minimum_str : string.
Variable minimum : list N.
Hypothesis minimum_ok : Dotted minimum_str minimum.
Variable js : string.
Variable cache : option string.
Variable cwd : string.
Variable userns : bool.
Variable force : bool.
Variable engine : string.

Let prints' := fun (_ : list event) c => prints c.
Let starts' := fun (_ : list event) c => starts c.
Definition pulled (h : list event) : bool := match h with Ran (_ :: "pull" :: _) :: _ => true | _ => false end.
Let glob' := fun h p => files (pulled h) p.

Definition version_answer (a : answer) : bool + problem :=
  match a with
  | Printed out => match mapM ParserModel.int_of (split_char "." (strip_v (strip out))) with
                   | Ok v => inl (list_ge v minimum)
                   | Err _ => inr (P_error Value)
                   end
  | Exit_status => inr P_called | Not_found => inr P_enoent | Os_error => inr P_os | Undecodable => inr (P_error Value)
  end.
Lemma check_version n s :
  check_js_threshold_version prints' minimum_str n s =
  (version_answer (prints [n; "-v"]), State (Ran [n; "-v"] :: did s) (have_node_slim s)).
Proof.
  unfold check_js_threshold_version, mbind, check_output, of_answer, prints', version_answer.
  destruct (prints [n; "-v"]) as [out| | | |]; auto. unfold ints.
  destruct (mapM ParserModel.int_of (split_char "." (strip_v (strip out)))) as [v|e]; auto.
  rewrite (proj1 (Dotted_ints _ _) minimum_ok). reflexivity.
Qed.

(** ** Local *)
Definition local_result (l : local) (r : (option command * bool) + problem) : Prop :=
  match l with
  | Use n => r = inl (Some [n; "--eval"; js], true)
  | Unreadable => r = inr (P_error Value)
  | Too_old | None_found => exists d, r = inl (d, false)
  end.
Definition quiet (h : list event) : Prop := pulled h = false.
Lemma fails_cases a : fails a -> exists p, of_answer a = inr p /\ match p with P_error _ => False | _ => True end.
Proof. intros [->|[->| ->]]; eexists; split; cbn; eauto; exact I. Qed.

Lemma local_run names l : Local prints starts minimum js names l -> forall d s, (names = [] -> quiet (did s)) ->
  exists r s', try_nodes prints' starts' minimum_str js names d s = (r, s') /\ local_result l r /\
    have_node_slim s' = have_node_slim s /\ quiet (did s').
Proof.
  induction 1 as [|n ns r M L IH|n ns v (out & (S1 & S2 & S3) & V) A|n ns v (out & (S1 & S2 & S3) & V) A|n ns U]; intros d s Q.
  - exists (inl (d, false)), s. cbn. eauto 10.
  - cbn [try_nodes]. unfold check_output at 1. unfold prints' at 1. unfold probe at 1.
    destruct M as [(t & E & NE)|[F|[E [N|[U F]]]]].
    + rewrite E. cbn [of_answer]. apply String.eqb_neq in NE. rewrite NE. cbn [negb].
      edestruct (IH d) as (r' & s' & R & ?); [|exists r', s'; split; [exact R|assumption]]. intros _; reflexivity.
    + destruct (fails_cases _ F) as (p & -> & P). destruct p; try contradiction;
        (edestruct (IH d) as (r' & s' & R & ?); [|exists r', s'; split; [exact R|assumption]]; intros _; reflexivity).
    + rewrite E. cbn [of_answer String.eqb Ascii.eqb Bool.eqb negb]. unfold popen at 1. unfold starts' at 1.
      destruct (starts [n; "--eval"; js]); [congruence| |];
        (edestruct (IH d) as (r' & s' & R & ?); [|exists r', s'; split; [exact R|assumption]]; intros _; reflexivity).
    + rewrite E. cbn [of_answer String.eqb Ascii.eqb Bool.eqb negb]. unfold popen at 1. unfold starts' at 1. rewrite U.
      cbn [did have_node_slim]. rewrite check_version. cbn [did have_node_slim].
      destruct F as [->|[->| ->]]; cbn [version_answer];
        (edestruct (IH (Some [n; "--eval"; js])) as (r' & s' & R & ?); [|exists r', s'; split; [exact R|assumption]];
         intros; reflexivity).
  - cbn [try_nodes]. unfold check_output at 1. unfold prints' at 1. unfold probe at 1. rewrite S1.
    cbn [of_answer String.eqb Ascii.eqb Bool.eqb negb]. unfold popen at 1. unfold starts' at 1. rewrite S2.
    cbn [did have_node_slim]. rewrite check_version, S3. cbn [did have_node_slim version_answer].
    apply Prints_version_ints in V. rewrite V. apply list_ge_spec in A. rewrite A.
    do 2 eexists. split; [reflexivity|]. repeat split; reflexivity.
  - cbn [try_nodes]. unfold check_output at 1. unfold prints' at 1. unfold probe at 1. rewrite S1.
    cbn [of_answer String.eqb Ascii.eqb Bool.eqb negb]. unfold popen at 1. unfold starts' at 1. rewrite S2.
    cbn [did have_node_slim]. rewrite check_version, S3. cbn [did have_node_slim version_answer].
    apply Prints_version_ints in V. rewrite V.
    destruct (list_ge v minimum) eqn:G; [apply list_ge_spec in G; contradiction|].
    do 2 eexists. split; [reflexivity|]. split; [eexists; reflexivity|]. split; reflexivity.
  - cbn [try_nodes]. unfold check_output at 1. unfold prints' at 1. unfold probe at 1.
    destruct U as [E|[(S1 & S2 & S3)|(out & (S1 & S2 & S3) & V)]].
    + rewrite E. cbn [of_answer]. do 2 eexists. split; [reflexivity|]. repeat split; reflexivity.
    + rewrite S1. cbn [of_answer String.eqb Ascii.eqb Bool.eqb negb]. unfold popen at 1. unfold starts' at 1. rewrite S2.
      cbn [did have_node_slim]. rewrite check_version, S3. cbn [did have_node_slim version_answer].
      do 2 eexists. split; [reflexivity|]. repeat split; reflexivity.
    + rewrite S1. cbn [of_answer String.eqb Ascii.eqb Bool.eqb negb]. unfold popen at 1. unfold starts' at 1. rewrite S2.
      cbn [did have_node_slim]. rewrite check_version, S3. cbn [did have_node_slim version_answer].
      destruct (mapM ParserModel.int_of (split_char "." (strip_v (strip out)))) as [v|e] eqn:I.
      * apply Prints_version_ints in I. exfalso. eapply V; eauto.
      * do 2 eexists. split; [reflexivity|]. repeat split; reflexivity.
Qed.
Lemma Local_total names : exists l, Local prints starts minimum js names l.
Proof.
  induction names as [|n ns (l & L)]; [exists None_found; constructor|].
  assert (S : missing prints starts js n \/ unreadable prints starts js n \/ exists out, says_version prints starts js n (Printed out)).
  { unfold missing, unreadable, says_version, fails.
    destruct (prints [n; "--eval"; "process.stdout.write('t')"]) as [t| | | |]; [|left; tauto..|tauto].
    destruct (string_dec t "t") as [->|NE]; [|left; left; eauto].
    destruct (starts [n; "--eval"; js]); [|left; right; right; split; auto; left; discriminate..].
    destruct (prints [n; "-v"]) as [out| | | |]; [right; right; eauto|left; right; right; tauto..|right; left; tauto]. }
  destruct S as [M|[U|(out & S)]].
  - exists l. apply Local_missing; auto.
  - exists Unreadable. apply Local_unreadable; auto.
  - destruct (Prints_version_dec out) as [(v & V)|V].
    + destruct (at_least_dec minimum v); [exists (Use n); apply Local_good with v|exists Too_old; apply Local_old with v]; auto; exists out; auto.
    + exists Unreadable. apply Local_unreadable. right. right. eauto.
Qed.

(** ** Containers *)
Lemma image_dir_sif : (image_dir cache cwd ++ "/node_alpine.sif")%string = sif cache cwd.
Proof. unfold image_dir, sif. destruct cache as [[|c r]|]; reflexivity. Qed.
Lemma node_image_default : node_image engine = default_image engine.
Proof. reflexivity. Qed.
Definition container_result (o : option (command + error)) (r : option command + problem) : Prop :=
  match o with
  | Some (inl c) => r = inl (Some c)
  | Some (inr e) => r = inr (P_error e)
  | None => r = inl None
  end.
Notation known_engine := (known_engine engine).
Lemma container_command_in i : known_engine ->
  container_command userns js engine i = in_container js userns engine i.
Proof. intros [->|[->|[->| ->]]]; reflexivity. Qed.

Notation prep := (prepare_image prints' glob' cache cwd force engine).
Definition is_nil {A} (l : list A) : bool := match l with [] => true | _ => false end.
Lemma pull_run i need s : pull_image prints' glob' cache cwd force engine i need s =
  (match of_answer (prints (pull force engine i)) with
   | inl _ => inl tt
   | inr p => match p with
              | P_error _ => inr p
              | _ => if need && negb (is_nil (files true (sif cache cwd))) then inl tt else inr p
              end
   end, State (Ran (pull force engine i) :: did s) (have_node_slim s)).
Proof.
  unfold pull_image. rewrite image_dir_sif. unfold catch, mbind, check_output, prints'.
  change ([engine; "pull"] ++ (if force then ["--force"] else []) ++ [i]) with (pull force engine i).
  assert (G : glob' (Ran (pull force engine i) :: did s) (sif cache cwd) = files true (sif cache cwd)) by reflexivity.
  destruct (of_answer (prints (pull force engine i))) as [t|p]; [reflexivity|].
  destruct p; cbn [did have_node_slim]; try reflexivity;
    (destruct need; [unfold glob_glob; cbn [did have_node_slim]; rewrite G; destruct (files true (sif cache cwd)); reflexivity|reflexivity]).
Qed.

(** What an answer that is no output becomes *)
Definition image_of (i : string) (need : bool) (s : state) : (string + problem) * state :=
  match pull_image prints' glob' cache cwd force engine i need s with
  | (inl _, s') => (inl i, State (did s') true)
  | (inr p, s') => (inr p, s')
  end.
Lemma prep_docker s : engine = "docker" \/ engine = "podman" -> have_node_slim s = false ->
  let c := [engine; "images"; "-q"; default_image engine] in
  let s1 := State (Ran c :: did s) false in
  prep s = match prints c with
           | Printed t => if negb (has_char c_nl t) || force then image_of (default_image engine) false s1
                          else (inl (default_image engine), State (did s1) true)
           | a => (match of_answer a with inl _ => inl "" | inr p => inr p end, s1)
           end.
Proof.
  intros D K. cbv zeta. unfold prepare_image. rewrite K.
  replace (String.eqb engine "docker" || String.eqb engine "podman") with true by (destruct D as [->| ->]; reflexivity).
  unfold mbind at 1 2, check_output at 1, prints' at 1. rewrite K, <- node_image_default.
  destruct (prints [engine; "images"; "-q"; node_image engine]) as [t| | | |]; try reflexivity.
  cbn [of_answer ret]. unfold ret, mbind, image_of.
  destruct (negb (has_char c_nl t) || force); [|reflexivity].
  destruct (pull_image prints' glob' cache cwd force engine (node_image engine) false
    {| did := Ran [engine; "images"; "-q"; node_image engine] :: did s; have_node_slim := false |}) as [[?|?] ?]; reflexivity.
Qed.
Lemma find_image_nl t : has_char c_nl (find_image engine t) = false.
Proof.
  unfold find_image. destruct (contains (node_image engine) t); [|reflexivity]. unfold node_image.
  destruct (String.eqb engine "singularity"); [reflexivity|].
  destruct (String.eqb engine "podman" || String.eqb engine "udocker"); reflexivity.
Qed.
Lemma prep_udocker s : engine = "udocker" -> have_node_slim s = false ->
  let c := [engine; "images"] in
  let s1 := State (Ran c :: did s) false in
  prep s = match prints c with
           | Printed t => image_of (default_image engine) false s1
           | a => (match of_answer a with inl _ => inl "" | inr p => inr p end, s1)
           end.
Proof.
  intros D K. cbv zeta. unfold prepare_image. rewrite K.
  replace (String.eqb engine "docker" || String.eqb engine "podman") with false by (rewrite D; reflexivity).
  replace (String.eqb engine "singularity") with false by (rewrite D; reflexivity).
  replace (String.eqb engine "udocker") with true by (rewrite D; reflexivity).
  unfold mbind at 1 2, check_output at 1, prints' at 1. rewrite K, <- node_image_default.
  destruct (prints [engine; "images"]) as [t| | | |]; try reflexivity.
  cbn [of_answer ret]. unfold ret, mbind, image_of. rewrite find_image_nl. cbn [negb orb].
  destruct (pull_image prints' glob' cache cwd force engine (node_image engine) false
    {| did := Ran [engine; "images"] :: did s; have_node_slim := false |}) as [[?|?] ?]; reflexivity.
Qed.
Lemma prep_singularity s : engine = "singularity" -> have_node_slim s = false -> quiet (did s) ->
  prep s = match files false (sif cache cwd) with
           | [] => image_of (default_image engine) true s
           | i :: _ => if force then image_of i false s else (inl i, State (did s) true)
           end.
Proof.
  intros D K Q. unfold prepare_image. rewrite image_dir_sif. rewrite K.
  replace (String.eqb engine "docker" || String.eqb engine "podman") with false by (rewrite D; reflexivity).
  replace (String.eqb engine "singularity") with true by (rewrite D; reflexivity).
  assert (G : glob' (did s) (sif cache cwd) = files false (sif cache cwd)) by (unfold glob'; rewrite Q; auto).
  unfold mbind at 1 2, glob_glob at 1. rewrite G.
  destruct (files false (sif cache cwd)) as [|i is]; unfold ret, mbind, image_of; cbn [orb].
  - change (node_image engine) with (default_image engine).
    destruct (pull_image prints' glob' cache cwd force engine (default_image engine) true s) as [[?|?] ?]; reflexivity.
  - destruct force; [|reflexivity].
    destruct (pull_image prints' glob' cache cwd true engine i false s) as [[?|?] ?]; reflexivity.
Qed.
Lemma image_of_ok i need s : (exists t, prints (pull force engine i) = Printed t) \/
    need = true /\ files true (sif cache cwd) <> [] /\ fails (prints (pull force engine i)) ->
  exists s', image_of i need s = (inl i, s').
Proof.
  intros H. unfold image_of. rewrite pull_run. destruct H as [(t & ->)|(-> & F & [->|[->| ->]])]; cbn [of_answer].
  all: try (eexists; reflexivity).
  all: destruct (files true (sif cache cwd)); [congruence|]; eexists; reflexivity.
Qed.

Lemma image_run known i : Image prints files cache cwd force engine known i -> forall s, have_node_slim s = known ->
  quiet (did s) -> exists s', prep s = (inl i, s').
Proof.
  intros I s K Q. destruct I as [E|i E L F|i t E T P|E (A & G & G') F]; rewrite E in K; [|clear E..].
  - unfold prepare_image. rewrite K. eexists. reflexivity.
  - destruct L as [c t U [[D ->]|[X _]] P N|i more D G]; [|congruence|].
    + rewrite prep_docker by auto. cbv zeta. rewrite P, N, F. eexists; reflexivity.
    + rewrite prep_singularity by auto. rewrite G, F. eexists; reflexivity.
  - destruct T as [[L F]|[L ->]].
    + destruct L as [c t' U [[D ->]|[X _]] P' N|i more D G]; [|congruence|].
      * rewrite prep_docker by auto. cbv zeta. rewrite P', F, orb_true_r. apply image_of_ok. eauto.
      * rewrite prep_singularity by auto. rewrite G. rewrite F. apply image_of_ok. eauto.
    + destruct L as [c t' U [[D ->]|[X _]] P' N|c t' D [[[D'|D'] _]|[_ ->]] P'|D G]; try congruence.
      * rewrite prep_docker by auto. cbv zeta. rewrite P', N. cbn [negb orb]. apply image_of_ok. eauto.
      * rewrite prep_udocker by auto. cbv zeta. rewrite P'. apply image_of_ok. eauto.
      * rewrite prep_singularity by auto. rewrite G. apply image_of_ok. eauto.
  - rewrite prep_singularity by auto. rewrite G. apply image_of_ok. eauto 10.
Qed.
Lemma image_of_bad i need s : (forall t, prints (pull force engine i) <> Printed t) ->
    ~ (need = true /\ files true (sif cache cwd) <> [] /\ fails (prints (pull force engine i))) ->
  exists p s', of_answer (prints (pull force engine i)) = inr p /\ image_of i need s = (inr p, s').
Proof.
  intros H1 H2. unfold image_of. rewrite pull_run. unfold fails in H2.
  destruct (prints (pull force engine i)) as [t| | | |]; cbn [of_answer]; [congruence|..|do 2 eexists; split; reflexivity].
  all: destruct need; cbn [andb]; [|do 2 eexists; split; reflexivity].
  all: destruct (files true (sif cache cwd)); cbn [is_nil negb]; [do 2 eexists; split; reflexivity|].
  all: exfalso; apply H2; repeat split; auto; discriminate.
Qed.
Lemma no_image_run known a : No_image prints files cache cwd force engine known a -> forall s, have_node_slim s = known ->
  quiet (did s) -> exists p s', of_answer a = inr p /\ prep s = (inr p, s').
Proof.
  intros I s K Q. destruct I as [c a E L P N|i a E T P N A]; rewrite E in K; clear E.
  - destruct L as [[D ->]|[D ->]].
    + rewrite prep_docker by auto. cbv zeta. rewrite P. destruct a; [congruence|..]; do 2 eexists; split; reflexivity.
    + rewrite prep_udocker by auto. cbv zeta. rewrite P. destruct a; [congruence|..]; do 2 eexists; split; reflexivity.
  - subst a. destruct T as [[L F]|[L ->]].
    + destruct L as [c t' U [[D ->]|[X _]] P' N'|i more D G]; [|congruence|].
      * rewrite prep_docker by auto. cbv zeta. rewrite P', N'. replace (negb true || force) with true by (rewrite F; auto). apply image_of_bad; auto. intros [? _]. discriminate.
      * rewrite prep_singularity by auto. rewrite G. assert (X : forall A (x y : A), (if force then x else y) = x) by (rewrite F; auto). rewrite X. apply image_of_bad; auto. intros [? _]. discriminate.
    + destruct L as [c t' U [[D ->]|[X _]] P' N'|c t' D [[[D'|D'] _]|[_ ->]] P'|D G]; try congruence.
      * rewrite prep_docker by auto. cbv zeta. rewrite P', N'. cbn [negb orb]. apply image_of_bad; auto. intros [? _]. discriminate.
      * rewrite prep_udocker by auto. cbv zeta. rewrite P'. apply image_of_bad; auto. intros [? _]. discriminate.
      * rewrite prep_singularity by auto. rewrite G. apply image_of_bad; auto. intros (_ & X & Y). apply A. unfold appears. auto.
Qed.
Lemma Image_total known : (exists i, Image prints files cache cwd force engine known i) \/
  (exists a, No_image prints files cache cwd force engine known a) \/ known = false /\ ~ known_engine.
Proof.
  destruct known; [left; eexists; apply Image_known; auto|].
  assert (PULL : forall i, to_pull prints files cache cwd force engine i ->
    (exists i, Image prints files cache cwd force engine false i) \/ (exists a, No_image prints files cache cwd force engine false a)).
  { intros i T. destruct (prints (pull force engine i)) as [t| | | |] eqn:P.
    1: left; exists i; eapply Image_pulled; eauto.
    all: assert (NP : forall s, prints (pull force engine i) <> Printed s) by (rewrite P; discriminate).
    4: { right. exists Undecodable. apply No_image_pull with i; auto; [congruence|]. intros [_ [X|[X|X]]]; discriminate. }
    all: assert (D : appears files cache cwd engine \/ ~ appears files cache cwd engine).
    1,3,5: unfold appears; destruct (string_dec engine "singularity"); [|tauto]; destruct (files false (sif cache cwd)); [|right; intros (_ & X & _); discriminate];
      destruct (files true (sif cache cwd)); [right; tauto|left; repeat split; auto; discriminate].
    all: destruct D as [D|D]; [|right; eexists; apply No_image_pull with i; [reflexivity|exact T|reflexivity|exact NP|intros [X _]; contradiction]].
    all: left; exists (default_image engine); apply Image_appeared; auto.
    all: assert (X : i = default_image engine);
      [destruct T as [[L _]|[_ X]]; [|exact X]; destruct D as (D1 & D2 & _); destruct L as [c t U L' P' N'|i more D3 G]; [auto|congruence]|].
    all: rewrite <- X; unfold fails; rewrite P; auto. }
  destruct (string_dec engine "docker") as [D|N1].
  2: destruct (string_dec engine "podman") as [D|N2].
  3: destruct (string_dec engine "singularity") as [D|N3].
  4: destruct (string_dec engine "udocker") as [D|N4]; [|right; right; split; auto; intros [X|[X|[X|X]]]; contradiction].
  - rename D into D0. assert (D : engine = "docker" \/ engine = "podman") by auto.
    assert (U : engine <> "udocker") by (rewrite D0; discriminate). clear D0.
    assert (L : listing engine [engine; "images"; "-q"; default_image engine]) by (left; auto).
    destruct (prints [engine; "images"; "-q"; default_image engine]) as [t| | | |] eqn:P.
    2-5: right; left; eexists; eapply No_image_list; eauto; discriminate.
    destruct (has_char c_nl t) eqn:C; [destruct force eqn:F|].
    + edestruct PULL as [X|X]; [left; split; [eapply listed_docker; eauto|auto]|auto|auto].
    + left. eexists. apply Image_present; auto. eapply listed_docker; eauto.
    + edestruct PULL as [X|X]; [right; split; [eapply unlisted_docker; eauto|reflexivity]|auto|auto].
  - assert (D0 : engine = "docker" \/ engine = "podman") by auto.
    assert (U : engine <> "udocker") by (rewrite D; discriminate). 
    assert (L : listing engine [engine; "images"; "-q"; default_image engine]) by (left; auto).
    destruct (prints [engine; "images"; "-q"; default_image engine]) as [t| | | |] eqn:P.
    2-5: right; left; eexists; eapply No_image_list; eauto; discriminate.
    destruct (has_char c_nl t) eqn:C; [destruct force eqn:F|].
    + edestruct PULL as [X|X]; [left; split; [eapply listed_docker; eauto|auto]|auto|auto].
    + left. eexists. apply Image_present; auto. eapply listed_docker; eauto.
    + edestruct PULL as [X|X]; [right; split; [eapply unlisted_docker; eauto|reflexivity]|auto|auto].
  - destruct (files false (sif cache cwd)) as [|i is] eqn:G.
    + edestruct PULL as [X|X]; [right; split; [eapply unlisted_file; eauto|reflexivity]|auto|auto].
    + destruct force eqn:F.
      * edestruct PULL as [X|X]; [left; split; [eapply listed_file; eauto|auto]|auto|auto].
      * left. exists i. apply Image_present; auto. eapply listed_file; eauto.
  - assert (L : listing engine [engine; "images"]) by (right; auto).
    destruct (prints [engine; "images"]) as [t| | | |] eqn:P.
    2-5: right; left; eexists; eapply No_image_list; eauto; discriminate.
    edestruct PULL as [X|X]; [right; split; [eapply unlisted_udocker; eauto|reflexivity]|auto|auto].
Qed.

Notation try_c := (try_container prints' starts' glob' cache cwd userns js force engine).
Lemma Image_engine known i : (known = true -> known_engine) -> Image prints files cache cwd force engine known i -> known_engine.
Proof.
  intros K I.
  assert (LL : forall c, listing engine c -> known_engine) by (intros c [[[?|?] _]|[? _]]; unfold StartSpec.known_engine; auto).
  assert (SS : engine = "singularity" -> known_engine) by (unfold StartSpec.known_engine; auto).
  assert (L1 : forall j, listed prints files cache cwd engine j -> known_engine) by (intros j []; eauto).
  assert (L2 : unlisted prints files cache cwd engine -> known_engine) by (intros []; eauto).
  destruct I as [?|? ? ? _|? ? ? [[? _]|[? _]] _|? (? & _) _]; eauto.
Qed.
Lemma container_run known o : (known = true -> known_engine) ->
  Container prints starts files js cache cwd userns force engine known o -> forall s, have_node_slim s = known ->
  quiet (did s) -> container_result o (fst (try_c s)).
Proof.
  intros KE C s K Q. unfold try_container, catch, mbind.
  destruct C as [i I S|i I S|i I S|a N A|N|N|U E].
  1-3: assert (EN := Image_engine _ _ KE I); destruct (image_run _ _ I s K Q) as (s' & ->);
    rewrite container_command_in by auto; unfold popen, starts'; rewrite S; reflexivity.
  1-3: destruct (no_image_run _ _ N s K Q) as (p & s' & P & ->).
  - destruct A as [->| ->]; cbn in P; injection P as <-; reflexivity.
  - cbn in P; injection P as <-; reflexivity.
  - cbn in P; injection P as <-; reflexivity.
  - unfold prepare_image. rewrite K, U. unfold StartSpec.known_engine in E.
    destruct (String.eqb_spec engine "docker"); [tauto|]. destruct (String.eqb_spec engine "podman"); [tauto|].
    destruct (String.eqb_spec engine "singularity"); [tauto|]. destruct (String.eqb_spec engine "udocker"); [tauto|].
    reflexivity.
Qed.
Lemma Container_total known : (known = true -> known_engine) ->
  exists o, Container prints starts files js cache cwd userns force engine known o.
Proof.
  intros KE. destruct (Image_total known) as [(i & I)|[(a & N)|[K E]]].
  - destruct (starts (in_container js userns engine i)) eqn:S; eexists; [eapply Container_up|eapply Container_not_found|eapply Container_os]; eauto.
  - assert (X : forall t, a <> Printed t) by (destruct N; auto).
    destruct a as [t| | | |]; [congruence|..]; eexists.
    + eapply Container_no_image; eauto.
    + eapply Container_no_image; eauto.
    + apply Container_no_image_os; auto.
    + apply Container_no_image_text; auto.
  - eexists. apply Container_unknown; auto.
Qed.

Notation new := (new_js_proc prints' starts' glob' cache cwd userns minimum_str js force engine).
Definition as_result (r : command + error) : command + problem := match r with inl c => inl c | inr e => inr (P_error e) end.
Notation StartS := (Start prints starts files minimum js cache cwd userns force engine).
Lemma start_run known r : (known = true -> known_engine) -> StartS known r ->
  forall s, have_node_slim s = known -> fst (new s) = as_result r.
Proof.
  intros KE St s K. unfold new_js_proc. unfold mbind at 1.
  assert (RUN : forall l, Local prints starts minimum js local_names l -> exists r s',
    try_nodes prints' starts' minimum_str js local_names None s = (r, s') /\ local_result l r /\
    have_node_slim s' = have_node_slim s /\ quiet (did s')) by (intros l L; apply local_run; auto; discriminate).
  change ["nodejs"; "node"] with local_names.
  assert (OLD : Local prints starts minimum js local_names Too_old \/ Local prints starts minimum js local_names None_found ->
    exists d s', try_nodes prints' starts' minimum_str js local_names None s = (inl (d, false), s') /\
      have_node_slim s' = known /\ quiet (did s')).
  { intros [L|L]; destruct (RUN _ L) as (r' & s' & E & (d & ->) & S & Q); exists d, s'; rewrite S; auto. }
  destruct St as [n L|L|r O C|O C].
  - destruct (RUN _ L) as (r' & s' & -> & E & _). cbn [local_result] in E. subst r'. reflexivity.
  - destruct (RUN _ L) as (r' & s' & -> & E & _). cbn [local_result] in E. subst r'. reflexivity.
  - destruct (OLD O) as (d & s' & -> & S & Q). assert (R := container_run _ _ KE C s' S Q).
    replace (match d with Some _ => negb false | None => true end) with true by (destruct d; reflexivity).
    unfold mbind. destruct (try_c s') as [x s'']. cbn [fst container_result] in R.
    destruct r; subst x; reflexivity.
  - destruct (OLD O) as (d & s' & -> & S & Q). assert (R := container_run _ _ KE C s' S Q).
    replace (match d with Some _ => negb false | None => true end) with true by (destruct d; reflexivity).
    unfold mbind. destruct (try_c s') as [x s'']. cbn [fst container_result] in R. subst x.
    destruct d; reflexivity.
Qed.
Lemma Start_total known : (known = true -> known_engine) -> exists r, StartS known r.
Proof.
  intros KE. destruct (Local_total local_names) as (l & L). destruct (Container_total known KE) as (o & C).
  destruct l as [n| | |].
  - eexists. eapply Start_local; eauto.
  - destruct o as [r|]; eexists; [eapply Start_container|eapply Start_nothing]; eauto.
  - eexists. apply Start_unreadable; auto.
  - destruct o as [r|]; eexists; [eapply Start_container|eapply Start_nothing]; eauto.
Qed.
Lemma as_result_inj r r' : as_result r = as_result r' -> r = r'.
Proof. destruct r, r'; cbn; congruence. Qed.
Lemma start_exact known r s : (known = true -> known_engine) -> have_node_slim s = known ->
  fst (new s) = as_result r <-> StartS known r.
Proof.
  intros KE K. split; [|intros; eapply start_run; eauto].
  intros E. destruct (Start_total known KE) as (r' & S). assert (X := start_run _ _ KE S s K).
  rewrite E in X. apply as_result_inj in X. subst. auto.
Qed.
End World.
