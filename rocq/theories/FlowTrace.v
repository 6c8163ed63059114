(** * The way of each step through the refactoring of a workflow *)
From Verif Require Import PyBase PyBaseProofs PackModel ExprModel EvalModel RefactorModel RefactorSpec RefactorProofs
  FlowModel FlowSpec FlowProofs FlowProofs2.

Section Trace.
  Variable gx : json -> json -> json -> result (option string).
  Variable ev : string -> json -> result json.
  Variable src_example : list wstep -> wstep -> src -> result json.
  Variable self_example : list wstep -> wstep -> src -> result json.
  Variable src_params : list wstep -> src -> result nat.
  Variable src_known : list wstep -> wstep -> string -> result unit.
  Variable out_known : list wstep -> src -> result unit.
  Variable load_run : string -> result (tool * bool).
  Variable attrs : list string.
  Variable replace_etool skip1 skip2 : bool.
  Notation tstep := (traverse_step gx src_example self_example src_params src_known attrs replace_etool skip1 skip2).
  Notation sloop := (steps_loop gx src_example self_example src_params src_known attrs replace_etool skip1 skip2).

  (** A step is skipped or traversed; the steps generated for it are visited as well.  At the end
      requirements and inputs may be added ([last]). *)
  Inductive Visited (last : wstep -> wstep -> Prop) (all : list wstep) : wstep -> wstep -> Prop :=
  | V_skip st st' : startswith "_expression" (ws_id st) = true -> last st st' -> Visited last all st st'
  | V_step wreqs pre post st st1 st' gen m sub :
      startswith "_expression" (ws_id st) = false ->
      tstep wreqs pre post st = Ok (st1, gen, m, sub) -> last st1 st' ->
      (forall g, In g gen -> exists g', In g' all /\ Visited last all g g') ->
      Visited last all st st'.

  Lemma steps_loop_visits : forall fuel wreqs done_ todo m wreqs' all m',
    sloop fuel wreqs done_ todo m = Ok (wreqs', all, m') ->
    exists todo' news, all = done_ ++ todo' ++ news /\ Forall2 (Visited eq all) todo todo'.
  Proof.
    induction fuel as [|fuel IH]; intros wreqs done_ todo m wreqs' all m' E; cbn [steps_loop] in E.
    { destruct todo; [|discriminate]. injection E as <- <- <-. exists [], []. rewrite !app_nil_r. split; auto. }
    destruct todo as [|st todo].
    { injection E as <- <- <-. exists [], []. rewrite !app_nil_r. split; auto. }
    destruct (startswith "_expression" (ws_id st)) eqn:Sk.
    { destruct (IH _ _ _ _ _ _ _ E) as (t' & news & A1 & A2). rewrite <- app_assoc in A1. exists (st :: t'), news.
      split; auto. constructor; auto. apply V_skip; auto. }
    binv E r Er. destruct r as [[[st' gen] ms] sub].
    destruct (IH _ _ _ _ _ _ _ E) as (t' & news & A1 & A2).
    apply Forall2_app_inv_l in A2. destruct A2 as (t1 & g1 & A2 & A2g & ->).
    rewrite <- !app_assoc in A1. exists (st' :: t1), (g1 ++ news). split; [exact A1|]. constructor; auto.
    eapply V_step; [exact Sk | exact Er | reflexivity|].
    intros g G. destruct (Forall2_in_l _ _ _ _ A2g G) as (g' & G' & V). exists g'. split; auto.
    rewrite A1. repeat (rewrite in_app_iff; cbn [In]). auto 10.
  Qed.

  (** the last additions: a step whose name begins with [_expression_] is left alone *)
  Definition finished (new : list wstep) (s s' : wstep) : Prop := ext new s s' /\ (own_step s = false -> s' = s).

  Lemma Visited_finished new all all' : (forall g, In g all -> exists g', In g' all' /\ finished new g g') ->
    forall st st1, Visited eq all st st1 -> forall st', finished new st1 st' -> Visited (finished new) all' st st'.
  Proof.
    intros H. fix F 3. intros st st1 V. destruct V as [st st1 Sk <- | wreqs pre post st s1 st1 gen m sub Sk T <- G]; intros st' L.
    - apply V_skip; auto.
    - eapply V_step; [exact Sk | exact T | exact L |]. intros g Ig. destruct (G g Ig) as (g1 & I1 & V1).
      destruct (H g1 I1) as (g' & I' & L'). exists g'. split; [exact I'|]. exact (F g g1 V1 g' L').
  Qed.

  Lemma add_req_own r ins s : own_step s = false -> add_req r ins s = s.
  Proof. unfold add_req. intros ->. reflexivity. Qed.
  Lemma add_req_id r ins s : own_step (add_req r ins s) = own_step s.
  Proof. unfold add_req. destruct (own_step s) eqn:O; auto. Qed.

  Lemma finished_trans new a b c : finished new a b -> finished new b c -> finished new a c.
  Proof.
    intros (A & A') (B & B'). split; [eapply ext_trans; eauto|]. intros O. pose proof (A' O) as ->. auto.
  Qed.
  Lemma finished_refl new s : finished new s s.
  Proof. split; [apply ext_refl|]; auto. Qed.
  Lemma add_req_finished new r ins s : Forall (fed new) ins -> finished new s (add_req r ins s).
  Proof. intros F. split; [apply add_req_ext; exact F|]. apply add_req_own. Qed.
  Lemma map_finished new (f : wstep -> wstep) base l : (forall s, finished new s (f s)) -> Forall2 (finished new) base l ->
    Forall2 (finished new) base (map f l).
  Proof. intros H F. induction F; constructor; auto. eapply finished_trans; eauto. Qed.

  Lemma process_reqs_finished winputs wreqs steps wreqs' all m :
    process_reqs gx ev attrs replace_etool winputs wreqs steps = Ok (wreqs', all, m) ->
    exists new, Forall (made (step_name "workflow") []) new /\ Forall2 (finished new) (steps ++ new) all.
  Proof.
    unfold process_reqs. intros E. binv E q Eqq. injection E as <- <- <-.
    apply (wrq_reqs_ok _ _ _ _ steps _ _ _ _ _ []) in Eqq; [| split; cbn; auto 10 using app_nil_r | intros X; cbn in X; congruence].
    destruct Eqq as (new & [A1 A2 A3 A4 A5 A6] & I). cbn [app] in *. exists new. split; auto.
    assert (F0 : Forall2 (finished new) (steps ++ new) (q_steps q)) by (rewrite A1; apply Forall2_refl; intros; apply finished_refl).
    set (s1 := match q_env q with Some d => _ | None => _ end).
    assert (F1 : Forall2 (finished new) (steps ++ new) s1).
    { subst s1. destruct (q_env q); auto. apply map_finished; auto. intros s. apply add_req_finished. apply feeds. auto. }
    set (s2 := match q_res q with Some d => _ | None => _ end).
    assert (F2 : Forall2 (finished new) (steps ++ new) s2).
    { subst s2. destruct (q_res q); auto. apply map_finished; auto. intros s. apply add_req_finished. apply feeds. auto. }
    destruct (q_iwd q) as [li|] eqn:Ei; auto. apply map_finished; auto. intros s. apply add_req_finished.
    destruct (q_giwd q) as [|n l] eqn:Eg.
    - destruct I as (_ & g & G & N); [congruence | auto |]. constructor; auto. split; [reflexivity|]. split; [reflexivity|].
      right. exists g. split; auto. cbn. rewrite N. reflexivity.
    - exact (iwd_feeds new (q_index q) (n :: l) A5).
  Qed.

  Theorem workflow_visits_loaded fuel w w' m :
    traverse_workflow gx ev src_example self_example src_params src_known out_known load_run attrs replace_etool skip1 skip2 fuel w
      = Ok (w', m) ->
    exists olds news new, wf_steps w' = olds ++ news /\
      Forall2 (fun st st' => exists st0, (exists ml, load_step load_run replace_etool st = Ok (st0, ml)) /\ Visited (finished new) (wf_steps w') st0 st') (wf_steps w) olds.
  Proof.
    unfold traverse_workflow. intros E. binv E ls El. binv E r Er. destruct r as [[wr1 s1] m1].
    binv E u Eu. binv E p Ep. destruct p as [[outs s2] m2]. binv E q Eqq. destruct q as [[wr3 s3] m3].
    injection E as <- <-. cbn [wf_steps].
    apply mapM_Forall2 in El.
    assert (Lo : Forall2 (fun st st0 => exists ml, load_step load_run replace_etool st = Ok (st0, ml)) (wf_steps w) (map fst ls)).
    { clear - El. induction El as [|st (st', ml) a b H F IH]; cbn; constructor; eauto. }
    destruct (steps_loop_visits _ _ _ _ _ _ _ _ Er) as (t' & n1 & A1 & A2). cbn [app] in A1.
    destruct (pick_loop_ok _ _ _ _ _ _ _ _ _ _ Ep) as (outs' & n2 & B1 & B2 & _).
    destruct (process_reqs_finished _ _ _ _ _ _ Eqq) as (n3 & C1 & C2).
    assert (Fin : forall g, In g s1 -> exists g', In g' s3 /\ finished n3 g g').
    { intros g G. apply (Forall2_in_l _ _ _ _ C2). rewrite B2. rewrite !in_app_iff. auto. }
    rewrite B2, A1, <- !app_assoc in C2. apply Forall2_app_inv_l in C2. destruct C2 as (olds & news & C2 & C2n & Es3).
    exists olds, news, n3. split; auto.
    clear - Lo A2 C2 Fin. revert t' olds A2 C2. induction Lo as [|a b la lb H L IH]; intros t' olds A2 C2.
    - inversion A2; subst. inversion C2; subst. constructor.
    - inversion A2 as [|? c ? lc F1 F2]; subst. inversion C2 as [|? d ? ld G1 G2]; subst. constructor; [|eauto].
      exists b. split; auto. eapply Visited_finished; eauto.
  Qed.
  Theorem workflow_visits fuel w w' m :
    traverse_workflow gx ev src_example self_example src_params src_known out_known load_run attrs replace_etool skip1 skip2 fuel w
      = Ok (w', m) ->
    exists olds news new, wf_steps w' = olds ++ news /\
      Forall2 (fun st st' => exists st0, loaded st st0 /\ Visited (finished new) (wf_steps w') st0 st') (wf_steps w) olds.
  Proof.
    intros E. apply workflow_visits_loaded in E. destruct E as (olds & news & new & A & F). exists olds, news, new. split; auto.
    eapply Forall2_mono; [|exact F]. intros st st' (st0 & (ml & L) & V). exists st0. split; auto. apply load_step_ok in L. tauto.
  Qed.
End Trace.
