(** * Proofs about the command of a refactored tool *)
From Verif Require Import PyBase PyBaseProofs PackModel ExprModel EvalModel RefactorModel RefactorSpec RefactorProofs
  FlowModel FlowSpec FlowProofs FlowProofs2 FlowTrace FlowValueSpec FlowValueProofs FlowReqProofs FlowReqProofs2 FlowToolSpec FlowToolProofs FlowToolProofs2 FlowToolProofs3
  FlowEvalSpec TraverseModel TraverseSpec SameSpec.

(** ** The inputs that a step gets *)
Definition adds (P : sinput -> Prop) (a b : wstep) : Prop := ws_id b = ws_id a /\ exists l, ws_in b = ws_in a ++ l /\ Forall P l.
Lemma adds_refl P a : adds P a a.
Proof. split; auto. exists []. rewrite app_nil_r. auto. Qed.
Lemma adds_trans P a b c : adds P a b -> adds P b c -> adds P a c.
Proof. intros (A & x & X & F) (B & y & Y & G). split; [congruence|]. exists (x ++ y). rewrite Y, X, app_assoc. split; auto. apply Forall_app. auto. Qed.
Lemma adds_one (P : sinput -> Prop) a b e : ws_id b = ws_id a -> ws_in b = ws_in a ++ [e] -> P e -> adds P a b.
Proof. intros A B C. split; auto. exists [e]. auto. Qed.
Lemma adds_same (P : sinput -> Prop) a b : ws_id b = ws_id a -> ws_in b = ws_in a -> adds P a b.
Proof. intros A B. split; auto. exists []. rewrite app_nil_r. auto. Qed.

Section Fed.
  Variable gx : json -> json -> json -> result (option string).
  Variable attrs : list string.
  Variable replace_etool skip1 skip2 : bool.
  Variable n : string.
  Notation fed_ := (Fed attrs n).

  Lemma arg_fed wreqs inputs l : forall k w w' m,
    arg_loop gx replace_etool wreqs n inputs k l w = Ok (w', m) -> adds fed_ (fst w) (fst w').
  Proof.
    induction l as [|a l IH]; intros k (st, gen) w' m E; cbn [arg_loop] in E.
    { injection E as <- <-. apply adds_refl. }
    binv E x Ex. destruct x as [expr|]; [|exact (IH _ _ _ _ E)].
    binv E st1 Es. binv E r Er. destruct r as (w2, m2). injection E as <- <-. apply IH in Er. cbn [fst snd] in *.
    eapply adds_trans; [|exact Er]. destruct (ws_run st) as [|t|]; try discriminate Es. binv Es args Ea. injection Es as <-.
    destruct a as [s|v].
    - eapply adds_one; [| | apply (Fd_text attrs n k)]; cbn; [reflexivity|]. do 2 f_equal. rewrite !sapp_assoc. reflexivity.
    - eapply adds_one; [| | apply (Fd_arg attrs n k)]; cbn; [reflexivity|]. unfold fed_by, feed. rewrite !sapp_assoc. reflexivity.
  Qed.
  Lemma stream_fed wreqs inputs err value w w' m :
    stream_expr gx replace_etool wreqs n inputs err value w = Ok (w', m) -> adds fed_ (fst w) (fst w').
  Proof.
    unfold stream_expr. intros E. destruct (filled value); [|injection E as <- <-; apply adds_refl]. binv E x Ex.
    destruct x as [expr|]; [|injection E as <- <-; apply adds_refl]. destruct w as (st, gen). injection E as <- <-. cbn [fst].
    destruct err.
    - eapply adds_one; [| | apply (Fd_stderr attrs n)]; [destruct (ws_run st); reflexivity|].
      cbn [add_in with_in ws_in append_tool_input with_run]. unfold fed_by, feed. rewrite !sapp_assoc. destruct (ws_run st); reflexivity.
    - eapply adds_one; [| | apply (Fd_stdout attrs n)]; [destruct (ws_run st); reflexivity|].
      cbn [add_in with_in ws_in append_tool_input with_run]. unfold fed_by, feed. rewrite !sapp_assoc. destruct (ws_run st); reflexivity.
  Qed.
  Lemma binding_fed wreqs inputs l : forall w w' m,
    binding_loop gx replace_etool skip1 wreqs n inputs l w = Ok (w', m) -> adds fed_ (fst w) (fst w').
  Proof.
    induction l as [|i l IH]; intros (st, gen) w' m E; cbn [binding_loop] in E.
    { injection E as <- <-. apply adds_refl. }
    binv E x Ex. destruct x as [expr|]; [|exact (IH _ _ _ E)].
    binv E r Er. destruct r as (w2, m2). injection E as <- <-. apply IH in Er. cbn [fst snd] in *.
    eapply adds_trans; [|exact Er]. eapply adds_one; [| | apply (Fd_binding attrs n (after_hash (ti_id i)))]; [reflexivity|].
    cbn [add_in with_in ws_in append_tool_input with_run]. unfold fed_by, feed. rewrite !sapp_assoc. reflexivity.
  Qed.
  Lemma output_fed wreqs inputs clt l : forall w w' m s,
    output_loop gx replace_etool skip1 skip2 wreqs n inputs clt l w = Ok (w', m, s) -> adds fed_ (fst w) (fst w').
  Proof.
    induction l as [|o l IH]; intros (st, gen) w' m s E; cbn [output_loop] in E.
    { injection E as <- <- <-. apply adds_refl. }
    binv E x Ex. set (w1 := match x with None => _ | Some _ => _ end) in E.
    assert (A : adds fed_ st (fst w1)).
    { subst w1. destruct x as [expr|]; [|apply adds_refl]. eapply adds_one; [| | apply (Fd_glob attrs n (after_hash (to_id o)))]; [reflexivity|].
      cbn [fst add_in with_in ws_in append_tool_input with_run]. unfold fed_by, feed. rewrite !sapp_assoc. reflexivity. }
    binv E y Ey. binv E w2 Ew. binv E r Er. destruct r as ((w3, m3), s3). injection E as <- <- <-. apply IH in Er. cbn [fst snd] in *.
    eapply adds_trans; [exact A|]. eapply adds_trans; [|exact Er]. destruct y as [expr|]; [|injection Ew as <-; apply adds_refl].
    destruct (existsb _ _); [discriminate Ew|]. injection Ew as <-. apply adds_same; reflexivity.
  Qed.

  (** requirements *)
  Lemma set_tool_req_same i r st st' : set_tool_req i r st = Ok st' -> ws_id st' = ws_id st /\ ws_in st' = ws_in st.
  Proof.
    unfold set_tool_req. intros E. destruct (ws_run st) as [|t|]; try discriminate E. destruct (t_reqs t); [|discriminate E].
    binv E l' El. injection E as <-. auto.
  Qed.
  Lemma set_listing_same i k e st st' : set_listing i k e st = Ok st' -> ws_id st' = ws_id st /\ ws_in st' = ws_in st.
  Proof.
    unfold set_listing. intros E. destruct (nth_req i st) as [| |[| | |]| | | |]; try discriminate E. binv E l' El. eapply set_tool_req_same; eauto.
  Qed.
  (** what will be added later *)
  Definition later (l : list (string * string)) : Prop := Forall (fun e => fed_ (fed_by (fst e) (snd e ++ "/result"))) l.
  Record well (st0 : wstep) (p : plr) : Prop := {
    wl_step : adds fed_ st0 (p_step p); wl_env : later (p_env p); wl_res : later (p_res p); wl_iwd : later (p_iwd p) }.
  Lemma later_add l e : later l -> fed_ (fed_by (fst e) (snd e ++ "/result")) -> later (l ++ [e]).
  Proof. intros A B. apply Forall_app. auto. Qed.

  Lemma plr_env_fed st0 inputs defs : forall p p', plr_env gx inputs defs p = Ok p' -> well st0 p -> well st0 p'.
  Proof.
    unfold plr_env. induction defs as [|d defs IH]; intros p p' E W; cbn [foldM] in E; [injection E as <-; exact W|].
    binv E q Eqq. apply (IH _ _ E). destruct (String.eqb _ _); [injection Eqq as <-; exact W|]. binv Eqq x Ex. destruct x; [discriminate Eqq|].
    injection Eqq as <-. exact W.
  Qed.
  Lemma plr_res_fed st0 wreqs i inputs values p p' : plr_res gx attrs replace_etool wreqs n i inputs values p = Ok p' -> well st0 p -> well st0 p'.
  Proof.
    unfold plr_res. match goal with |- foldM ?f _ _ = _ -> _ => set (F := f) end.
    assert (G : forall l, incl l attrs -> forall p p', foldM F l p = Ok p' -> well st0 p -> well st0 p').
    2:{ intros E W. exact (G attrs (incl_refl _) _ _ E W). }
    clear p p'. induction l as [|a l IH]; intros Inc p p' E W; cbn [foldM] in E; [injection E as <-; exact W|].
    binv E q Eqq. apply (IH (fun x X => Inc x (or_intror X)) _ _ E). subst F. cbn beta zeta in Eqq. destruct (negb _); [injection Eqq as <-; exact W|]. binv Eqq x Ex.
    destruct x as [expr|]; [|injection Eqq as <-; exact W]. binv Eqq st Es. injection Eqq as <-. destruct W as [W1 W2 W3 W4].
    split; cbn [p_step p_env p_res p_iwd]; auto.
    - eapply adds_trans; [exact W1|]. apply set_tool_req_same in Es. apply adds_same; tauto.
    - apply later_add; auto. refine (eq_ind _ (fun z => fed_ (fed_by ("_" ++ a) z)) (Fd_res attrs n a (Inc a (or_introl eq_refl))) _ _).
      cbn [snd append]. rewrite ?sapp_assoc. cbn [append]. rewrite ?sapp_assoc. reflexivity.
  Qed.
  Lemma plr_entries_fed st0 wreqs preqs i inputs l : forall k p p',
    plr_entries gx replace_etool wreqs preqs n i inputs k l p = Ok p' -> well st0 p -> well st0 p'.
  Proof.
    induction l as [|e l IH]; intros k p p' E W; cbn [plr_entries] in E; [injection E as <-; exact W|].
    binv E q Eqq. apply (IH _ _ _ E). destruct W as [W1 W2 W3 W4].
    assert (Put : forall st g, ws_id st = ws_id (p_step p) /\ ws_in st = ws_in (p_step p) -> well st0
      {| p_step := st; p_gen := p_gen p ++ [g]; p_env := p_env p; p_res := p_res p;
         p_iwd := p_iwd p ++ [(("_iwdr_listing_" ++ str_nat k)%string, ("_expression_" ++ n ++ "_InitialWorkDirRequirement_" ++ str_nat k)%string)]; p_mod := true |}).
    { intros st g (S1 & S2). split; cbn [p_step p_env p_res p_iwd]; auto.
      - eapply adds_trans; [exact W1|]. apply adds_same; auto.
      - apply later_add; auto. refine (eq_ind _ (fun z => fed_ (fed_by _ z)) (Fd_entry attrs n k) _ _).
        cbn [snd append]. rewrite ?sapp_assoc. cbn [append]. rewrite ?sapp_assoc. reflexivity. }
    assert (W : well st0 p) by (split; auto).
    destruct e as [s|en enm|s].
    - binv Eqq x Ex. destruct x as [expr|]; [|injection Eqq as <-; exact W]. binv Eqq st Es. injection Eqq as <-. apply Put. eapply set_listing_same; eauto.
    - destruct (filled en) as [txt|].
      + binv Eqq x Ex. destruct x as [expr|]; [|injection Eqq as <-; exact W]. binv Eqq ex' Ee. binv Eqq st Es. injection Eqq as <-. apply Put. eapply set_listing_same; eauto.
      + destruct (filled enm) as [nm|]; [|injection Eqq as <-; exact W].
        binv Eqq x Ex. destruct x as [expr|]; [|injection Eqq as <-; exact W]. binv Eqq st Es. injection Eqq as <-. apply Put. eapply set_listing_same; eauto.
    - injection Eqq as <-. exact W.
  Qed.
  Lemma add_tool_input_same x st : ws_id (add_tool_input x st) = ws_id st /\ ws_in (add_tool_input x st) = ws_in st.
  Proof. unfold add_tool_input. destruct (ws_run st) as [|t|]; auto. destruct (is_clt t); auto. Qed.
  Lemma plr_iwd_fed st0 wreqs preqs i inputs li p p' : plr_iwd gx replace_etool skip2 wreqs preqs n i inputs li p = Ok p' -> well st0 p -> well st0 p'.
  Proof.
    unfold plr_iwd. intros E W. destruct skip2; [injection E as <-; exact W|].
    destruct li as [|s|l|s]; try (injection E as <-; exact W).
    - destruct (String.eqb s ""); [injection E as <-; exact W|]. binv E x Ex. destruct x as [expr|]; [|injection E as <-; exact W].
      binv E st Es. injection E as <-. destruct W as [W1 W2 W3 W4]. split; cbn [p_step p_env p_res p_iwd]; auto.
      eapply adds_trans; [exact W1|]. apply set_tool_req_same in Es. destruct Es as (S1 & S2).
      match goal with |- adds _ _ (add_tool_input ?a ?b) => destruct (add_tool_input_same a b) as (A1 & A2) end.
      eapply adds_one; [rewrite A1; exact S1 | rewrite A2; cbn [add_in with_in ws_in]; rewrite S2; reflexivity|].
      refine (eq_ind _ (fun z => fed_ (fed_by _ z)) (Fd_listing attrs n) _ _).
      cbn [append]. rewrite ?sapp_assoc. reflexivity.
    - exact (plr_entries_fed _ _ _ _ _ _ _ _ _ E W).
  Qed.
  Lemma plr_reqs_fed st0 wreqs preqs inputs l : forall i p p',
    plr_reqs gx attrs replace_etool skip2 wreqs preqs n inputs i l p = Ok p' -> well st0 p -> well st0 p'.
  Proof.
    induction l as [|r l IH]; intros i p p' E W; cbn [plr_reqs] in E; [injection E as <-; exact W|].
    binv E q Eqq. apply (IH _ _ _ E). destruct r; try (injection Eqq as <-; exact W).
    - exact (plr_env_fed _ _ _ _ _ Eqq W).
    - exact (plr_res_fed _ _ _ _ _ _ _ Eqq W).
    - exact (plr_iwd_fed _ _ _ _ _ _ _ _ Eqq W).
  Qed.
  Lemma plr_feed_fed l : later l -> forall st, adds fed_ st (plr_feed l st).
  Proof.
    unfold plr_feed. induction l as [|e l IH]; intros L st; cbn [fold_left]; [apply adds_refl|]. inversion L as [|? ? L1 L2]; subst.
    eapply adds_trans; [|apply IH; exact L2]. destruct (add_tool_input_same (fst e) (add_in (feed (fst e) (snd e ++ "/result")) st)) as (A1 & A2).
    eapply adds_one; [rewrite A1; reflexivity | rewrite A2; reflexivity | exact L1].
  Qed.
  Lemma level_fed wreqs orig w w' m : after_first_hash (ws_id (fst w)) = n ->
    process_level_reqs gx attrs replace_etool skip2 wreqs orig w = Ok (w', m) -> adds fed_ (fst w) (fst w').
  Proof.
    unfold process_level_reqs. intros N E. destruct orig as [|t|]; try discriminate E.
    destruct (t_reqs t) as [[|r l]|]; try (injection E as <- <-; apply adds_refl).
    destruct (String.eqb _ _); [injection E as <- <-; apply adds_refl|]. binv E p Ep. injection E as <- <-. rewrite N in Ep.
    apply (plr_reqs_fed (fst w)) in Ep; [|split; [apply adds_refl | apply Forall_nil ..]].
    destruct Ep as [W1 W2 W3 W4]. cbn [fst].
    eapply adds_trans; [exact W1|]. eapply adds_trans; [apply plr_feed_fed; exact W2|]. eapply adds_trans; [apply plr_feed_fed; exact W3|].
    apply plr_feed_fed. exact W4.
  Qed.
  Lemma clt_fed wreqs t w w' m s : after_hash (ws_id (fst w)) = n ->
    traverse_clt gx replace_etool skip1 skip2 wreqs t w = Ok (w', m, s) -> adds fed_ (fst w) (fst w').
  Proof.
    unfold traverse_clt. intros N E. destruct (String.eqb _ _); [injection E as <- <- <-; apply adds_refl|].
    rewrite N in E. binv E a Ea. binv E b Eb. binv E c Ec. binv E d Ed. binv E e Ee. injection E as <- <- <-.
    destruct a as (wa, ma), b as (wb, mb), c as (wc, mc), d as (wd, md), e as ((we, me), se). cbn [fst snd] in *.
    apply stream_fed in Eb, Ec. apply binding_fed in Ed. apply output_fed in Ee.
    assert (A : adds fed_ (fst w) (fst wa)) by (destruct skip1; [injection Ea as <- <-; apply adds_refl | eapply arg_fed; exact Ea]).
    eapply adds_trans; [exact A|]. eapply adds_trans; [exact Eb|]. eapply adds_trans; [exact Ec|]. eapply adds_trans; [exact Ed | exact Ee].
  Qed.
End Fed.

Lemma value_loop_plain gx self_example src_params src_known replace_etool wreqs pre post st mock orig ins : forall todo done_ gen st' gen',
  Forall (fun i => si_valueFrom i = None) todo ->
  value_loop gx self_example src_params src_known replace_etool wreqs pre post st mock orig ins done_ todo gen = Ok (st', gen') ->
  st' = with_in (done_ ++ todo) st /\ gen' = gen.
Proof.
  induction todo as [|i todo IH]; intros done_ gen st' gen' F E; cbn [value_loop] in E.
  { injection E as <- <-. rewrite app_nil_r. auto. }
  inversion F as [|? ? F1 F2]; subst. rewrite F1 in E. cbn [filled] in E. apply IH in E; auto. rewrite <- app_assoc in E. exact E.
Qed.

Section Wrapped.
  Variable gx : json -> json -> json -> result (option string).
  Variable ev : string -> json -> result json.
  Variable src_example self_example : list wstep -> wstep -> src -> result json.
  Variable src_params : list wstep -> src -> result nat.
  Variable src_known : list wstep -> wstep -> string -> result unit.
  Variable out_known : list wstep -> src -> result unit.
  Variable load_run : string -> result (tool * bool).
  Variable attrs : list string.
  Variable replace_etool skip1 skip2 : bool.
  Notation refactored fuel w := (traverse_workflow gx ev src_example self_example src_params src_known out_known load_run attrs
                                   replace_etool skip1 skip2 fuel w).
  Notation tstep := (traverse_step gx src_example self_example src_params src_known attrs replace_etool skip1 skip2).

  Lemma tstep_fed wreqs pre post st st' gen m sub t : tstep wreqs pre post st = Ok (st', gen, m, sub) ->
    ws_id st <> "" -> after_first_hash (ws_id st) = after_hash (ws_id st) -> ws_run st = RTool t -> t_kind t = KClt ->
    Forall (fun i => si_valueFrom i = None) (ws_in st) -> ws_when st = None ->
    adds (Fed attrs (after_hash (ws_id st))) st st'.
  Proof.
    intros T Nid One R K F Wn. revert T. unfold traverse_step. intros E. binv E mock Em. pose proof Nid as Nid'. apply String.eqb_neq in Nid'. rewrite Nid' in E.
    binv E v Ev. destruct v as [s1 g1]. apply value_loop_plain in Ev; [|exact F]. cbn [app] in Ev. destruct Ev as (-> & ->).
    cbn [with_in ws_when] in E. rewrite Wn in E. cbn [filled bind] in E. binv E p Ep. binv E c Ec.
    destruct p as [[s3 g3] m3], c as [[[s4 g4] m4] sub4]. cbn [fst snd] in *. injection E as <- <- <- <-.
    rewrite R in Ep, Ec. rewrite (proj2 (is_clt_kind t) K) in Ec.
    set (s2 := with_in (ws_in st) st) in *. assert (A0 : adds (Fed attrs (after_hash (ws_id st))) st s2) by (apply adds_same; reflexivity).
    apply level_fed with (n := after_hash (ws_id st)) in Ep; [|exact One]. cbn [fst] in Ep.
    apply clt_fed with (attrs := attrs) (n := after_hash (ws_id st)) in Ec; [|cbn [fst]; rewrite (proj1 Ep); reflexivity]. cbn [fst] in Ec.
    eapply adds_trans; [exact A0|]. eapply adds_trans; [exact Ep | exact Ec].
  Qed.

  (** requirements of the workflow: at most that for sub-workflows *)
  Definition only_sub (r : option (list wreq)) : Prop := Forall (fun r => r = RSubwf) (match r with Some l => l | None => [] end).
  Lemma need_subwf_only r : only_sub r -> only_sub (need_subwf r).
  Proof.
    unfold only_sub, need_subwf. intros H. destruct r as [[|x l]|]; try (repeat constructor). destruct (existsb _ _); [exact H|].
    apply Forall_app. split; [exact H | repeat constructor].
  Qed.
  Lemma steps_loop_only : forall fuel wreqs done_ todo m wreqs' all m', only_sub wreqs ->
    steps_loop gx src_example self_example src_params src_known attrs replace_etool skip1 skip2 fuel wreqs done_ todo m = Ok (wreqs', all, m') -> only_sub wreqs'.
  Proof.
    induction fuel as [|fuel IH]; intros wreqs done_ todo m wreqs' all m' O E; (destruct todo as [|st todo]; cbn [steps_loop] in E; [injection E as <- <- <-; exact O|]).
    { discriminate E. }
    destruct (startswith _ _); [exact (IH _ _ _ _ _ _ _ O E)|]. binv E r Er. destruct r as [[[st' gen] ms] sub].
    eapply IH; [|exact E]. destruct sub; [apply need_subwf_only|]; exact O.
  Qed.
  Lemma process_reqs_only wi wreqs steps wreqs' all m : only_sub wreqs ->
    process_reqs gx ev attrs replace_etool wi wreqs steps = Ok (wreqs', all, m) -> all = steps.
  Proof.
    unfold process_reqs, only_sub. intros O E. binv E q Eqq. injection E as _ <- _.
    assert (G : forall wl inputs l q q', Forall (fun r => r = RSubwf) l -> wrq_reqs gx ev attrs replace_etool wl inputs l q = Ok q' -> q' = q).
    { clear. intros wl inputs l. induction l as [|r l IH]; intros q q' F E; cbn [wrq_reqs] in E; [injection E as <-; reflexivity|].
      inversion F as [|? ? F1 F2]; subst. cbn [bind] in E. exact (IH _ _ F2 E). }
    rewrite (G _ _ _ _ _ O Eqq). reflexivity.
  Qed.

  Theorem wrapped_fed fuel c w' m : t_kind (cm_tool c) = KClt -> refactored fuel (wrap_tool c) = Ok (w', m) ->
    exists main made new, wf_steps w' = main :: made /\
      ws_in main = map (fun i => feed (after_hash (ti_id i)) (after_hash (ti_id i))) (t_inputs (cm_tool c)) ++ new /\ Forall (Fed attrs "main") new.
  Proof.
    intros K E. unfold traverse_workflow in E. cbn [wrap_tool wf_steps wf_inputs wf_outputs wf_reqs mapM] in E.
    set (st := {| ws_id := "#main" |}) in E.
    assert (L : load_step load_run replace_etool st = Ok (st, false)).
    { unfold load_step. cbn [st ws_run]. unfold is_etool. rewrite K. reflexivity. }
    rewrite L in E. cbn [bind map fst existsb snd orb] in E. binv E r Er. destruct r as [[wr1 s1] m1].
    binv E u Eu. binv E p Ep. destruct p as [[outs s2] m2]. binv E q Eqq. destruct q as [[wr3 s3] m3].
    injection E as <- _. cbn [wf_steps].
    pose proof (steps_loop_only _ _ _ _ _ _ _ _ (Forall_nil _ : only_sub None) Er) as O.
    apply process_reqs_only in Eqq; [|exact O]. subst s3.
    destruct (pick_loop_ok _ _ _ _ _ _ _ _ _ _ Ep) as (outs' & n2 & _ & -> & _).
    destruct fuel as [|fuel]; [discriminate Er|]. cbn [steps_loop] in Er.
    replace (startswith "_expression" (ws_id st)) with false in Er by reflexivity.
    binv Er r Et. destruct r as [[[st' gen] ms] sub].
    apply steps_loop_visits in Er. destruct Er as (t' & news & -> & _). cbn [app].
    eapply tstep_fed in Et; [| discriminate | reflexivity | reflexivity | exact K | | reflexivity].
    - destruct Et as (_ & l & A & B). exists st', ((t' ++ news) ++ n2), l. split; [reflexivity|]. split; [exact A | exact B].
    - cbn [st ws_in]. apply Forall_forall. intros i I. apply in_map_iff in I. destruct I as (j & <- & _). reflexivity.
  Qed.
End Wrapped.

(** ** Names *)
Lemma all_chars_app p a b : all_chars p (a ++ b) = all_chars p a && all_chars p b.
Proof. induction a as [|c a IH]; [reflexivity|]. cbn. rewrite IH, andb_assoc. reflexivity. Qed.
Lemma all_chars_mono (p q : ascii -> bool) s : (forall c, p c = true -> q c = true) -> all_chars p s = true -> all_chars q s = true.
Proof. intros H. induction s as [|c s IH]; [reflexivity|]. cbn. rewrite !andb_true_iff. intros (A & B). auto. Qed.
Lemma all_chars_no p c s : p c = false -> all_chars p s = true -> has_char c s = false.
Proof.
  intros H. induction s as [|d s IH]; [reflexivity|]. cbn [all_chars has_char]. rewrite andb_true_iff. intros (A & B). rewrite (IH B), orb_false_r.
  destruct (Ascii.eqb_spec c d) as [<-|N]; [congruence|]. reflexivity.
Qed.
Lemma str_nat_digits k : all_chars digit (str_nat k) = true.
Proof.
  assert (U : forall u, all_chars digit (DecimalString.NilEmpty.string_of_uint u) = true) by (induction u; auto).
  unfold str_nat, DecimalString.NilZero.string_of_uint. destruct (Nat.to_uint k); try reflexivity; apply (U (_ _)).
Qed.
Lemma str_nat_nonempty k : str_nat k <> "".
Proof. unfold str_nat, DecimalString.NilZero.string_of_uint. destruct (Nat.to_uint k); discriminate. Qed.
Lemma last_part_suffix p s : has_char "/" s = false -> last_part (p ++ s) = (last_part p ++ s)%string.
Proof.
  intros H. induction p as [|c p IH]; [apply last_part_none; exact H|]. cbn [append last_part]. cbn [has_char]. rewrite has_char_app, H, orb_false_r.
  destruct (has_char "/" p) eqn:P.
  - rewrite orb_true_r. exact IH.
  - rewrite orb_false_r. destruct (Ascii.eqb "/" c); reflexivity.
Qed.
Lemma last_part_slash p s : has_char "/" s = false -> last_part (p ++ "/" ++ s) = s.
Proof.
  intros H. induction p as [|c p IH].
  - cbn. rewrite H. reflexivity.
  - cbn [append last_part has_char]. rewrite has_char_app. cbn [append has_char]. rewrite orb_true_r, orb_true_r. exact IH.
Qed.

(** last characters *)
Fixpoint ends_in (p : ascii -> bool) (s : string) : bool :=
  match s with "" => false | String c "" => p c | String _ s' => ends_in p s' end.
Lemma ends_in_app p a b : b <> "" -> ends_in p (a ++ b) = ends_in p b.
Proof.
  intros N. induction a as [|c a IH]; [reflexivity|]. cbn [append ends_in]. rewrite IH. destruct (a ++ b)%string eqn:E; [|reflexivity].
  destruct a; [exact (False_rect _ (N E)) | discriminate E].
Qed.
Lemma ends_in_all p s : s <> "" -> all_chars p s = true -> ends_in p s = true.
Proof.
  induction s as [|c s IH]; intros N H; [destruct N; reflexivity|]. cbn in H. apply andb_true_iff in H. destruct H as (A & B).
  cbn [ends_in]. destruct s as [|d s]; [exact A|]. apply IH; [discriminate | exact B].
Qed.

(** the references that are written in a tool, and the ends of the names of the steps *)
Inductive Ref (attrs : list string) : string -> string -> Prop :=
| Rf_arg k : Ref attrs ("_arguments_" ++ str_nat k) ("_arguments_" ++ str_nat k)
| Rf_stdout : Ref attrs "_stdout" "_stdout"
| Rf_stderr : Ref attrs "_stderr" "_stderr"
| Rf_res a : In a attrs -> Ref attrs ("_" ++ a) ("_ResourceRequirement_" ++ a).

Section Refs.
  Variable attrs : list string.
  Hypothesis fields : Forall FieldName attrs.
  Lemma field a : In a attrs -> FieldName a.
  Proof. rewrite Forall_forall in fields. apply fields. Qed.
  Lemma field_no a c : letter c = false -> In a attrs -> has_char c a = false.
  Proof. intros L I. destruct (field a I) as (A & _). eapply all_chars_no; eauto. Qed.

  Lemma ref_under place mid : Ref attrs place mid -> startswith "_" place = true.
  Proof. intros [k| | |a I]; try reflexivity. apply (startswith_app "_"). Qed.
  Lemma ref_ident place mid : Ref attrs place mid -> identifier place = true.
  Proof.
    intros [k| | |a I]; try reflexivity.
    - unfold identifier. rewrite all_chars_app. apply andb_true_iff. split; [reflexivity|].
      eapply all_chars_mono; [|apply str_nat_digits]. intros c ->. rewrite orb_true_r. reflexivity.
    - unfold identifier. rewrite all_chars_app. apply andb_true_iff. split; [reflexivity|].
      eapply all_chars_mono; [|apply (field a I)]. intros c ->. reflexivity.
  Qed.
  Lemma ident_no c place mid : (letter c || digit c || Ascii.eqb c "_") = false -> Ref attrs place mid -> has_char c place = false.
  Proof. intros N R. apply ref_ident in R. eapply all_chars_no; [|exact R]. exact N. Qed.
  Lemma ref_param place mid x : Ref attrs place mid -> ParamName place x -> x = place.
  Proof.
    intros R (f & F & P). apply after_hash_Fragment in F. rewrite after_hash_none in F by (eapply ident_no; [reflexivity | exact R]). subst f.
    destruct P as (P1 & [-> | (a & P2)]); [reflexivity|]. exfalso.
    assert (H : has_char "/" place = false) by (eapply ident_no; [reflexivity | exact R]). rewrite P2, has_char_app in H. cbn in H.
    rewrite orb_true_r in H. discriminate H.
  Qed.

  Lemma ref_mid place mid : Ref attrs place mid -> has_char "#" mid = false.
  Proof.
    intros [k| | |a I]; try reflexivity.
    - rewrite has_char_app, str_nat_no_hash. reflexivity.
    - rewrite has_char_app. apply (field_no a "#") in I; [|reflexivity]. rewrite I. reflexivity.
  Qed.

  Lemma ref_not_suffix place mid z (suf : string) : Ref attrs place mid -> In suf ["glob"; "valueFrom"] -> place <> (z ++ "_" ++ suf)%string.
  Proof.
    intros [k| | |a I] S E.
    - assert (X : ends_in digit ("_arguments_" ++ str_nat k) = true) by (rewrite ends_in_app by apply str_nat_nonempty; apply ends_in_all; [apply str_nat_nonempty | apply str_nat_digits]).
      rewrite E in X. rewrite ends_in_app in X by discriminate. destruct S as [<- | [<- | []]]; discriminate X.
    - assert (X : ends_in (fun c => Ascii.eqb c "t") "_stdout" = true) by reflexivity.
      rewrite E in X. rewrite ends_in_app in X by discriminate. destruct S as [<- | [<- | []]]; discriminate X.
    - assert (X : ends_in (fun c => Ascii.eqb c "r") "_stderr" = true) by reflexivity.
      rewrite E in X. rewrite ends_in_app in X by discriminate. destruct S as [<- | [<- | []]]; discriminate X.
    - destruct z as [|c z]; cbn [append] in E.
      + injection E as ->. apply field in I. destruct I as (_ & N). apply N. destruct S as [<- | [<- | []]]; cbn; auto.
      + injection E as _ ->. apply (field_no _ "_") in I; [|reflexivity]. rewrite has_char_app in I. cbn in I. rewrite orb_true_r in I. discriminate I.
  Qed.
  Lemma ref_field_under a s : In a attrs -> ("_" ++ a = "_" ++ s)%string -> has_char "_" s = true -> False.
  Proof. intros I E H. cbn in E. injection E as <-. apply (field_no _ "_") in I; [congruence | reflexivity]. Qed.

  Lemma fed_ref n place mid j : Ref attrs place mid -> Fed attrs n j -> name_of j = place ->
    j = fed_by place ("_expression_" ++ n ++ mid ++ "/result").
  Proof.
    intros R F. destruct F as [k|k| | |x|x|b I| |k]; unfold name_of; cbn [si_id fed_by]; intros E.
    - rewrite last_part_none in E by (rewrite has_char_app, str_nat_no_slash; reflexivity).
      destruct R as [k'| | |a Ia]; [| discriminate E | discriminate E |].
      + cbn in E. assert (Q : str_nat k' = str_nat k) by congruence. rewrite Q, sapp_assoc. reflexivity.
      + exfalso. eapply ref_field_under; [exact Ia | symmetry; exact E | reflexivity].
    - exfalso. change "/result" with ("/" ++ "result")%string in E. rewrite <- !sapp_assoc in E. rewrite sapp_assoc, last_part_slash in E by reflexivity.
      apply ref_under in R. rewrite <- E in R. discriminate R.
    - cbn in E. destruct R as [k'| | |a Ia]; [discriminate E | reflexivity | discriminate E |].
      exfalso. injection E as E. subst a. apply field in Ia. destruct Ia as (_ & N). apply N. cbn. auto.
    - cbn in E. destruct R as [k'| | |a Ia]; [discriminate E | discriminate E | reflexivity |].
      exfalso. injection E as E. subst a. apply field in Ia. destruct Ia as (_ & N). apply N. cbn. auto.
    - exfalso. rewrite <- (sapp_assoc "_"), last_part_suffix in E by reflexivity. symmetry in E. eapply (ref_not_suffix place mid _ "valueFrom"); [exact R | cbn; auto | exact E].
    - exfalso. rewrite <- (sapp_assoc "_"), last_part_suffix in E by reflexivity. symmetry in E. eapply (ref_not_suffix place mid _ "glob"); [exact R | cbn; auto | exact E].
    - rewrite last_part_none in E by (cbn [append has_char]; apply field_no; [reflexivity | exact I]).
      destruct R as [k'| | |a Ia].
      + exfalso. eapply ref_field_under; [exact I | exact E | reflexivity].
      + exfalso. cbn in E. injection E as ->. apply field in I. destruct I as (_ & N). apply N. cbn. auto.
      + exfalso. cbn in E. injection E as ->. apply field in I. destruct I as (_ & N). apply N. cbn. auto.
      + cbn in E. injection E as ->. rewrite sapp_assoc. reflexivity.
    - cbn in E. destruct R as [k'| | |a Ia]; [discriminate E .. |]. exfalso. injection E as E. subst a. exact (ref_field_under _ "iwdr_listing" Ia eq_refl eq_refl).
    - rewrite last_part_none in E by (rewrite has_char_app, str_nat_no_slash; reflexivity).
      destruct R as [k'| | |a Ia]; [discriminate E .. |]. exfalso. eapply ref_field_under; [exact Ia | symmetry; exact E | reflexivity].
  Qed.
End Refs.
