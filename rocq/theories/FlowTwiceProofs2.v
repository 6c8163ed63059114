(** * What the first refactoring leaves for a second one *)
From Verif Require Import PyBase PyBaseProofs PackModel ExprModel RefactorModel RefactorSpec RefactorProofs
  FlowModel FlowSpec FlowProofs FlowProofs2 FlowToolSpec FlowOldSpec FlowOldProofs FlowTwiceSpec FlowTwiceProofs.

(** ** generated steps run tools that are not converted again *)
Definition kind_ok (re : bool) (g : wstep) : Prop := exists t, ws_run g = RTool t /\ (re = true -> is_etool t = false).
Definition gen_ok (re : bool) (g : wstep) : Prop := startswith "_expression" (ws_id g) = true -> kind_ok re g.
Lemma nw_add re l g : Forall (gen_ok re) l -> gen_ok re g -> Forall (gen_ok re) (l ++ [g]).
Proof. intros A B. apply Forall_app. split; auto. Qed.
Lemma gk_if re a b name ins sc me : is_etool a = false -> gen_ok re (gen_step name ins (if re then a else b) sc me).
Proof. intros E _. exists (if re then a else b). split; [reflexivity|]. intros ->. exact E. Qed.
Ltac gk := apply gk_if; reflexivity.

Section Proofs.
  Variable gx : json -> json -> json -> result (option string).
  Variable ev : string -> json -> result json.
  Variable src_example self_example : list wstep -> wstep -> src -> result json.
  Variable src_params : list wstep -> src -> result nat.
  Variable src_known : list wstep -> wstep -> string -> result unit.
  Variable out_known : list wstep -> src -> result unit.
  Variable load_run : string -> result (tool * bool).
  Variable attrs : list string.
  Variable replace_etool skip1 skip2 : bool.
  Local Notation nw := (gen_ok replace_etool).

  Lemma value_nw wreqs pre post mock orig orig_ins : forall todo st done_ gen st' gen',
    value_loop gx self_example src_params src_known replace_etool wreqs pre post st mock orig orig_ins done_ todo gen = Ok (st', gen') ->
    Forall nw gen -> Forall nw gen'.
  Proof.
    induction todo as [|inp todo IH]; intros st done_ gen st' gen' E H; cbn [value_loop] in E; [injection E as <- <-; exact H|].
    destruct (filled (si_valueFrom inp)); [|eapply IH; eauto].
    cbn zeta in E. binv E self Es. binv E x Ex. destruct x as [expr|]; [|eapply IH; eauto].
    destruct (negb _); [discriminate E|]. binv E k Ek. binv E g Eg.
    eapply IH; [exact E|]. apply nw_add; [auto|]. unfold valueFrom_step in Eg. destruct (String.eqb _ _); [discriminate Eg|].
    binv Eg ps Ep. injection Eg as <-. gk.
  Qed.

  Lemma res_nw wreqs sn i inputs values : forall l p p',
    foldM (fun p a =>
      let v := match dget a values with Some v => v | None => JNull end in
      if negb (truthy v) then Ok p
      else do x <- find_expr gx v inputs JNull;
           match x with
           | None => Ok p
           | Some expr =>
               let name := ("_expression_" ++ sn ++ "_ResourceRequirement_" ++ a)%string in
               let g := tool_expr_step replace_etool wreqs (p_step p) name None expr in
               do st <- set_tool_req i
                    (RRes (dset a (JStr ("$(inputs._" ++ a ++ ")"))
                             (match nth_req i (p_step p) with RRes v => v | _ => [] end))) (p_step p);
               Ok {| p_step := st; p_gen := p_gen p ++ [g]; p_env := p_env p;
                     p_res := p_res p ++ [(("_" ++ a)%string, name)]; p_iwd := p_iwd p; p_mod := true |}
           end) l p = Ok p' -> Forall nw (p_gen p) -> Forall nw (p_gen p').
  Proof.
    induction l as [|a l IH]; intros p p' E H; cbn [foldM] in E; [injection E as <-; exact H|].
    binv E p1 E1. apply (IH _ _ E). clear E IH. cbn zeta in E1.
    destruct (negb _) in E1; [injection E1 as <-; exact H|]. binv E1 x Ex. destruct x; [|injection E1 as <-; exact H].
    binv E1 st Es. injection E1 as <-. apply nw_add; [auto | gk].
  Qed.
  Lemma entries_nw wreqs preqs sn i inputs : forall l k p p',
    plr_entries gx replace_etool wreqs preqs sn i inputs k l p = Ok p' -> Forall nw (p_gen p) -> Forall nw (p_gen p').
  Proof.
    induction l as [|e l IH]; intros k p p' E H; cbn [plr_entries] in E; [injection E as <-; exact H|].
    cbn zeta in E. binv E p1 E1. apply (IH _ _ _ E). clear E IH.
    destruct e as [s | en enm | o].
    - binv E1 x Ex. destruct x; [|injection E1 as <-; exact H]. binv E1 st Es. injection E1 as <-. apply nw_add; [auto | gk].
    - destruct (filled en).
      + binv E1 x Ex. destruct x; [|injection E1 as <-; exact H]. binv E1 y Ey. binv E1 st Es. injection E1 as <-. apply nw_add; [auto | gk].
      + destruct (filled enm); [|injection E1 as <-; exact H].
        binv E1 x Ex. destruct x; [|injection E1 as <-; exact H]. binv E1 st Es. injection E1 as <-. apply nw_add; [auto | gk].
    - injection E1 as <-. exact H.
  Qed.
  Lemma reqs_nw wreqs preqs sn inputs : forall l i p p',
    plr_reqs gx attrs replace_etool skip2 wreqs preqs sn inputs i l p = Ok p' -> Forall nw (p_gen p) -> Forall nw (p_gen p').
  Proof.
    induction l as [|r l IH]; intros i p p' E H; cbn [plr_reqs] in E; [injection E as <-; exact H|].
    binv E p1 E1. apply (IH _ _ _ E). clear E IH.
    destruct r; try (injection E1 as <-; exact H).
    - apply plr_env_ok in E1. rewrite E1. exact H.
    - unfold plr_res in E1. exact (res_nw _ _ _ _ _ _ _ _ E1 H).
    - unfold plr_iwd in E1. destruct skip2; [injection E1 as <-; exact H|].
      destruct l0; try (injection E1 as <-; exact H).
      + destruct (String.eqb _ _); [injection E1 as <-; exact H|]. binv E1 x Ex. destruct x; [|injection E1 as <-; exact H].
        binv E1 st Es. injection E1 as <-. apply nw_add; [auto | gk].
      + exact (entries_nw _ _ _ _ _ _ _ _ _ E1 H).
  Qed.
  Lemma level_nw wreqs orig w w' m :
    process_level_reqs gx attrs replace_etool skip2 wreqs orig w = Ok (w', m) -> Forall nw (snd w) -> Forall nw (snd w').
  Proof.
    unfold process_level_reqs. destruct orig as [u|t|s]; try discriminate. intros E H.
    destruct (t_reqs t) as [[|r l]|]; try (injection E as <- <-; exact H).
    destruct (String.eqb _ _); [injection E as <- <-; exact H|]. binv E p Ep. injection E as <- <-.
    exact (reqs_nw _ _ _ _ _ _ _ _ Ep H).
  Qed.

  Lemma args_nw wreqs sid inputs : forall l k w w' m,
    arg_loop gx replace_etool wreqs sid inputs k l w = Ok (w', m) -> Forall nw (snd w) -> Forall nw (snd w').
  Proof.
    induction l as [|a l IH]; intros k w w' m E H; cbn [arg_loop] in E; [injection E as <- <-; exact H|].
    cbn zeta in E. binv E x Ex. destruct x as [expr|]; [|eapply IH; eauto].
    destruct w as [st gen]. binv E st' Es. binv E r Er. injection E as <- <-. destruct r as [w2 m2]. cbn [fst].
    apply (IH _ _ _ _ Er). cbn [snd]. apply nw_add; [auto | gk].
  Qed.
  Lemma stream_nw wreqs sid inputs err v w w' m :
    stream_expr gx replace_etool wreqs sid inputs err v w = Ok (w', m) -> Forall nw (snd w) -> Forall nw (snd w').
  Proof.
    unfold stream_expr. intros E H. destruct (filled v); [|injection E as <- <-; exact H].
    binv E x Ex. destruct x; [|injection E as <- <-; exact H]. destruct w as [st gen]. injection E as <- <-. cbn [snd].
    apply nw_add; [auto | gk].
  Qed.
  Lemma binding_nw wreqs sid inputs : forall l w w' m,
    binding_loop gx replace_etool skip1 wreqs sid inputs l w = Ok (w', m) -> Forall nw (snd w) -> Forall nw (snd w').
  Proof.
    induction l as [|i l IH]; intros w w' m E H; cbn [binding_loop] in E; [injection E as <- <-; exact H|].
    cbn zeta in E. binv E x Ex. destruct x as [expr|]; [|eapply IH; eauto].
    destruct w as [st gen]. binv E r Er. injection E as <- <-. destruct r as [w2 m2]. cbn [fst].
    apply (IH _ _ _ Er). cbn [snd]. apply nw_add; [auto | gk].
  Qed.
  Lemma output_nw wreqs sid inputs clt : forall l w w' m s,
    output_loop gx replace_etool skip1 skip2 wreqs sid inputs clt l w = Ok (w', m, s) -> Forall nw (snd w) -> Forall nw (snd w').
  Proof.
    induction l as [|o l IH]; intros w w' m s E H; cbn [output_loop] in E; [injection E as <- <- <-; exact H|].
    cbn zeta in E. binv E x Ex. binv E y Ey. binv E w2 Ew. binv E r Er. injection E as <- <- <-.
    destruct r as [[w3 m3] s3]. cbn [fst]. apply (IH _ _ _ _ Er).
    destruct x as [ex|].
    - destruct w as [st gen]. destruct y as [expr|].
      + destruct (existsb _ _); [discriminate Ew|]. injection Ew as <-. cbn [snd]. apply nw_add; [auto | gk].
      + injection Ew as <-. cbn [snd]. apply nw_add; [auto | gk].
    - destruct y as [expr|].
      + destruct (existsb _ _); [discriminate Ew|]. injection Ew as <-. exact H.
      + injection Ew as <-. exact H.
  Qed.
  Lemma clt_nw wreqs clt w w' m s :
    traverse_clt gx replace_etool skip1 skip2 wreqs clt w = Ok (w', m, s) -> Forall nw (snd w) -> Forall nw (snd w').
  Proof.
    unfold traverse_clt. intros E H. destruct (String.eqb _ _); [injection E as <- <- <-; exact H|].
    cbn zeta in E. binv E a Ea. binv E b Eb. binv E c Ec. binv E d Ed. binv E e Ee. injection E as <- <- <-.
    destruct a as [wa ma], b as [wb mb], c as [wc mc], d as [wd md], e as [[we me] se]. cbn [fst snd] in *.
    apply (output_nw _ _ _ _ _ _ _ _ _ Ee). apply (binding_nw _ _ _ _ _ _ _ Ed). apply (stream_nw _ _ _ _ _ _ _ _ Ec).
    apply (stream_nw _ _ _ _ _ _ _ _ Eb). destruct skip1; [injection Ea as <- <-; exact H|]. exact (args_nw _ _ _ _ _ _ _ _ Ea H).
  Qed.

  Lemma tstep_nw wreqs pre post st st' gen m sub : ws_when st = None -> startswith "_expression" (ws_id st) = false ->
    traverse_step gx src_example self_example src_params src_known attrs replace_etool skip1 skip2 wreqs pre post st = Ok (st', gen, m, sub) ->
    nw st' /\ Forall nw gen.
  Proof.
    intros W Sk E. split.
    { destruct (traverse_step_ok _ _ _ _ _ _ _ _ _ _ _ _ _ _ _ _ _ E) as (K & _).
      unfold gen_ok. rewrite (sa_id _ _ _ (so_after _ _ _ K)), Sk. discriminate. }
    unfold traverse_step in E. binv E mock Em.
    destruct (String.eqb (ws_id st) ""). { injection E as <- <- <- <-. constructor. }
    binv E v Ev. destruct v as [s1 g1].
    destruct (value_loop_ok _ _ _ _ _ _ _ _ _ _ _ _ _ _ _ _ _ Ev (incl_refl _)) as (d & new & A1 & _).
    assert (W1 : ws_when s1 = None) by (rewrite A1; exact W).
    assert (H1 : Forall nw g1) by (eapply value_nw; [exact Ev | constructor]).
    rewrite W1 in E. cbn [filled bind] in E. binv E p Ep. binv E c Ec.
    destruct p as [w3 m3], c as [[w4 m4] sub4]. cbn [fst snd] in *. injection E as _ <- _ _.
    pose proof (level_nw _ _ _ _ _ Ep H1) as H3.
    destruct (ws_run st) as [u|t|ids]; try (injection Ec as <- _ _; exact H3).
    destruct (is_clt t); [|injection Ec as <- _ _; exact H3]. exact (clt_nw _ _ _ _ _ _ Ec H3).
  Qed.
  Definition plain (st : wstep) : Prop := nw st /\ (startswith "_expression" (ws_id st) = false -> ws_when st = None).
  Lemma plain_gen gen : Forall nw gen -> Forall (fun g => startswith "_expression" (ws_id g) = true) gen -> Forall plain gen.
  Proof. intros A B. rewrite Forall_forall in *. intros g G. split; [auto|]. rewrite (B g G). discriminate. Qed.
  Lemma steps_nw : forall fuel wreqs done_ todo m wr all m',
    steps_loop gx src_example self_example src_params src_known attrs replace_etool skip1 skip2 fuel wreqs done_ todo m = Ok (wr, all, m') ->
    Forall nw done_ -> Forall plain todo -> Forall nw all.
  Proof.
    induction fuel as [|fuel IH]; intros wreqs done_ todo m wr all m' E H T; destruct todo as [|st todo]; cbn [steps_loop] in E;
      try discriminate E; try (injection E as <- <- <-; exact H).
    apply Forall_cons_iff in T. destruct T as ((T1 & T3) & T2).
    destruct (startswith "_expression" (ws_id st)) eqn:Sk; [eapply IH; [exact E | apply nw_add; assumption | exact T2]|].
    binv E r Er. destruct r as [[[st' gen] m1] sub]. destruct (tstep_nw _ _ _ _ _ _ _ _ (T3 eq_refl) Sk Er) as (N1 & N2).
    eapply IH; [exact E | apply nw_add; assumption | apply Forall_app; split; [assumption|]].
    apply plain_gen; [exact N2|]. eapply plain_step_gen; eauto.
  Qed.

  Lemma wenv_nw wl inputs req : forall defs k q q', wrq_env gx replace_etool wl inputs req k defs q = Ok q' ->
    Forall nw (q_steps q) -> Forall nw (q_steps q').
  Proof.
    induction defs as [|[n v] defs IH]; intros k q q' E H; cbn [wrq_env] in E; [injection E as <-; exact H|].
    cbn zeta in E. binv E x Ex. destruct x as [expr|]; [|eapply IH; eauto].
    binv E nn En. eapply IH; [exact E|]. cbn [q_steps]. apply nw_add; [auto | gk].
  Qed.
  Lemma wres_nw wl inputs values : forall l q q', wrq_res gx replace_etool wl inputs values l q = Ok q' ->
    Forall nw (q_steps q) -> Forall nw (q_steps q').
  Proof.
    induction l as [|a l IH]; intros q q' E H; cbn [wrq_res] in E; [injection E as <-; exact H|].
    cbn zeta in E. binv E x Ex. destruct x as [expr|]; [|eapply IH; eauto].
    eapply IH; [exact E|]. cbn [q_steps]. apply nw_add; [auto | gk].
  Qed.
  Lemma wentries_nw wl inputs : forall l k q q', wrq_entries gx ev replace_etool wl inputs k l q = Ok q' ->
    Forall nw (q_steps q) -> Forall nw (q_steps q').
  Proof.
    induction l as [|e l IH]; intros k q q' E H; cbn [wrq_entries] in E; [injection E as <-; exact H|].
    cbn zeta in E. binv E q1 E1. apply (IH _ _ _ E). clear E IH.
    destruct e as [s | en enm | o].
    - binv E1 x Ex. destruct x; [|injection E1 as <-; exact H]. binv E1 nn En. injection E1 as <-. cbn [q_steps]. apply nw_add; [auto | gk].
    - destruct (filled en).
      + binv E1 x Ex. destruct x; [|injection E1 as <-; exact H]. binv E1 y Ey. discriminate E1.
      + destruct (filled enm); [|injection E1 as <-; exact H].
        binv E1 x Ex. destruct x; [|injection E1 as <-; exact H]. binv E1 nn En. injection E1 as <-. cbn [q_steps]. apply nw_add; [auto | gk].
    - injection E1 as <-. exact H.
  Qed.
  Lemma wreqs_nw wl inputs : forall l q q', wrq_reqs gx ev attrs replace_etool wl inputs l q = Ok q' ->
    Forall nw (q_steps q) -> Forall nw (q_steps q').
  Proof.
    induction l as [|r l IH]; intros q q' E H; cbn [wrq_reqs] in E; [injection E as <-; exact H|].
    binv E q1 E1. apply (IH _ _ E). clear E IH. destruct r; try (injection E1 as <-; exact H).
    - exact (wenv_nw _ _ _ _ _ _ _ E1 H).
    - exact (wres_nw _ _ _ _ _ _ E1 H).
    - unfold wrq_iwd in E1. destruct l0 as [|s|[|e li]|s]; try (injection E1 as <-; exact H).
      + destruct (String.eqb _ _); [injection E1 as <-; exact H|]. binv E1 x Ex. destruct x; [|injection E1 as <-; exact H].
        injection E1 as <-. cbn [q_steps]. apply nw_add; [auto | gk].
      + binv E1 q2 E2. injection E1 as <-. cbn [q_steps]. eapply wentries_nw; [exact E2|]. exact H.
  Qed.
  Lemma process_nw winputs wreqs steps wreqs' all m :
    process_reqs gx ev attrs replace_etool winputs wreqs steps = Ok (wreqs', all, m) -> Forall nw steps -> Forall nw all.
  Proof.
    unfold process_reqs. intros E H. binv E q Eqq. injection E as _ <- _.
    apply wreqs_nw in Eqq; [|exact H].
    assert (M : forall r ins l, Forall nw l -> Forall nw (map (add_req r ins) l)).
    { intros r ins l F. apply Forall_forall. intros s S. apply in_map_iff in S. destruct S as (s0 & <- & S).
      rewrite Forall_forall in F. unfold add_req. destruct (own_step s0); exact (F s0 S). }
    destruct (q_env q), (q_res q), (q_iwd q); repeat apply M; exact Eqq.
  Qed.

End Proofs.
