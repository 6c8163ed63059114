(** * Proofs about the expression library of the tools made for expressions *)
From Verif Require Import PyBase PyBaseProofs PackModel ExprModel EvalModel RefactorModel RefactorSpec RefactorProofs RefactorProps
  FlowModel FlowSpec FlowProofs FlowProofs2 FlowTrace FlowValueSpec FlowReqSpec FlowReqProofs FlowReqProofs2 LibSpec.

Section Good.
  (** the libraries in question *)
  Variable good : option (list string) -> Prop.
  Definition all_good (r : option (list wreq)) : Prop := forall lib, In (RJs lib) (all_reqs r) -> good lib.
  Definition fine (wreqs : option (list wreq)) : Prop := all_good wreqs /\ ((exists lib, In (RJs lib) (all_reqs wreqs)) \/ good None).

  Lemma js_in lib r : In (InlineJS lib) (jsreqs r) -> In (RJs lib) (all_reqs r).
  Proof.
    destruct r as [l|]; [|intros []]. cbn [jsreqs all_reqs]. intros I. apply in_map_iff in I. destruct I as (x & E & I).
    destruct x; try discriminate E. injection E as <-. exact I.
  Qed.
  Lemma in_js lib r : In (RJs lib) (all_reqs r) -> In (InlineJS lib) (jsreqs r).
  Proof. destruct r as [l|]; [|intros []]. cbn [jsreqs all_reqs]. intros I. apply in_map_iff. exists (RJs lib). auto. Qed.

  Definition all_good_js (p : list jsreq) : Prop := forall lib, In (InlineJS lib) p -> good lib.
  Lemma all_good_jsreqs r : all_good r -> all_good_js (jsreqs r).
  Proof. intros A lib I. apply A. apply js_in. exact I. Qed.
  Lemma find_good wreqs procs : fine wreqs -> Forall all_good_js procs -> In (jsreqs wreqs) procs -> good (find_expressionLib procs).
  Proof.
    intros (_ & D) F I. remember (find_expressionLib procs) as lib eqn:E. symmetry in E. apply C62_last_declaration in E.
    rewrite Forall_forall in F. destruct E as [(a & p & b & -> & (x & y & -> & _) & _) | (-> & N)].
    - eapply F; [rewrite in_app_iff; right; left; reflexivity|]. rewrite in_app_iff. right. left. reflexivity.
    - destruct D as [(lib & D) | D]; [|exact D]. rewrite Forall_forall in N. destruct (N _ I lib (in_js _ _ D)).
  Qed.

  Variable replace_etool : bool.
  (** no file is staged *)
  Definition no_files (reqs : list wreq) : Prop := forall l, ~ In (RIwd l) reqs.
  (** a tool made for an expression *)
  Definition made_tool (t : tool) : Prop :=
    if replace_etool then exists e lib, good lib /\ t = etool_to_cltool e lib
    else t_kind t = KEtool /\ all_good (t_reqs t) /\ exists lib rest, t_reqs t = Some (RJs lib :: rest) /\ no_files rest.
  Definition made_run (r : run) : Prop := exists t, r = RTool t /\ made_tool t.
  Fixpoint subs (r : run) : Prop := match r with RSub s => made_tool (sb_gen_tool s) /\ subs (sb_run s) | _ => True end.
  Definition agree (st : wstep) : Prop := all_good (ws_reqs st) /\ all_good (run_reqs (ws_run st)).

  Lemma choice_made ps lib lib' rest text : good lib -> good lib' -> (forall x, In (RJs x) rest -> good x) -> no_files rest ->
    made_tool (if replace_etool then etool_to_cltool (etool ps (RJs lib :: rest) text) lib' else etool ps (RJs lib :: rest) text).
  Proof.
    intros G G' R N. unfold made_tool. destruct replace_etool; [eexists; exists lib'; split; [exact G' | reflexivity]|]. split; [reflexivity|]. split; [|eexists; eexists; split; [reflexivity | exact N]].
    intros x [E | I]; [injection E as <-; exact G | exact (R x I)].
  Qed.
  Lemma copied_good r : all_good r -> forall x, In (RJs x) (copied_reqs r) -> good x.
  Proof. intros A x I. destruct r as [l|]; [|destruct I]. apply filter_In in I. apply A. exact (proj1 I). Qed.

  Lemma copied_files r : no_files (copied_reqs r).
  Proof. intros l I. destruct r as [reqs|]; [|destruct I]. apply filter_In in I. destruct I as (_ & I). discriminate I. Qed.

  Lemma tool_expr_run wreqs st name self expr : fine wreqs -> agree st -> made_run (ws_run (tool_expr_step replace_etool wreqs st name self expr)).
  Proof.
    intros F (_ & A). eexists. split; [reflexivity|]. pose proof (all_good_jsreqs _ (proj1 F)) as Fw. pose proof (all_good_jsreqs _ A) as Ft. apply choice_made.
    - unfold etool_lib. eapply find_good; [exact F | repeat constructor; auto | cbn; auto].
    - eapply find_good; [exact F | repeat constructor; auto | cbn; auto].
    - apply copied_good. exact A.
    - apply copied_files.
  Qed.
  Lemma expr_run wreqs procs name source expr : fine wreqs -> Forall all_good_js procs -> In (jsreqs wreqs) procs ->
    made_run (ws_run (expr_step replace_etool procs name source expr)).
  Proof.
    intros F A I. eexists. split; [reflexivity|]. apply choice_made; [eapply find_good; eauto | eapply find_good; eauto | intros x [] | intros l []].
  Qed.

  (** a generated step *)
  Definition plain_etool (r : run) : Prop := exists t lib, r = RTool t /\ t_kind t = KEtool /\ t_reqs t = Some [RJs lib].
  Definition name_ok (g : wstep) : Prop := startswith "_expression" (ws_id g) = true \/
    startswith "_when_expression_" (ws_id g) = true /\ (replace_etool = false -> plain_etool (ws_run g)).
  Definition made_ok (g : wstep) : Prop := made_run (ws_run g) /\ agree g /\ name_ok g.
  Lemma made_tool_good t : made_tool t -> all_good (t_reqs t).
  Proof.
    unfold made_tool. destruct replace_etool; [|intros (_ & A & _); exact A]. intros (e & lib & _ & ->) x [E | []]. discriminate E.
  Qed.
  Lemma made_agree g : ws_reqs g = None -> made_run (ws_run g) -> name_ok g -> made_ok g.
  Proof.
    intros R M N. split; [exact M|]. split; [|exact N]. split; [rewrite R; intros lib [] |]. destruct M as (t & -> & M). exact (made_tool_good t M).
  Qed.

  Definition inv (w : wstep * list wstep) : Prop := agree (fst w) /\ subs (ws_run (fst w)) /\ Forall made_ok (snd w).

  Lemma append_reqs n r : run_reqs (append_run_input n r) = run_reqs r.
  Proof. destruct r; reflexivity. Qed.
  Lemma append_subs n r : subs r -> subs (append_run_input n r).
  Proof. revert r. fix F 1. intros [u|t|s]; cbn; auto. intros (A & B). split; [exact A | apply F; exact B]. Qed.
  Lemma inv_next st st' gen g : inv (st, gen) -> ws_reqs st' = ws_reqs st -> all_good (run_reqs (ws_run st')) -> subs (ws_run st') -> made_ok g -> inv (st', gen ++ [g]).
  Proof.
    intros ((A & _) & _ & F) R G S M. split; [split; cbn [fst]; [rewrite R; exact A | exact G]|]. split; [exact S|].
    cbn [snd]. apply Forall_app. auto.
  Qed.
  Lemma remove_js_good t : all_good (t_reqs t) -> all_good (t_reqs (remove_js t)).
  Proof.
    intros A lib I. apply A. cbn [remove_js tool_hints tool_reqs t_reqs] in I. destruct (t_reqs t) as [l|]; [|destruct I]. cbn [all_reqs].
    destruct (filter _ l) as [|r l'] eqn:E; [destruct l; destruct I|]. cbn [all_reqs] in I. rewrite <- E in I. apply filter_In in I. tauto.
  Qed.

  Variable gx : json -> json -> json -> result (option string).
  Variable attrs : list string.
  Variable skip1 skip2 : bool.
  Variable wreqs : option (list wreq).
  Hypothesis F : fine wreqs.

  Lemma tool_expr_ok st name self expr : startswith "_expression" name = true -> agree st -> made_ok (tool_expr_step replace_etool wreqs st name self expr).
  Proof. intros N A. apply made_agree; [reflexivity | apply tool_expr_run; auto | left; exact N]. Qed.
  Lemma expr_ok procs name source expr : startswith "_expression" name = true -> Forall all_good_js procs -> In (jsreqs wreqs) procs -> made_ok (expr_step replace_etool procs name source expr).
  Proof. intros N A I. apply made_agree; [reflexivity | eapply expr_run; eauto | left; exact N]. Qed.

  Lemma arg_inv n inputs l : forall k w w' m, arg_loop gx replace_etool wreqs n inputs k l w = Ok (w', m) -> inv w -> inv w'.
  Proof.
    induction l as [|a l IH]; intros k (st, gen) w' m E I; cbn [arg_loop] in E.
    { injection E as <- <-. exact I. }
    binv E x Ex. destruct x as [expr|]; [|exact (IH _ _ _ _ E I)].
    binv E st1 Es. binv E r Er. destruct r as (w2, m2). injection E as <- <-. apply IH in Er; [exact Er|]. clear IH Er.
    pose proof I as ((A1 & A2) & S & _). cbn [fst] in A1, A2, S. destruct (ws_run st) as [|t|] eqn:R; try discriminate Es. binv Es args Ea. injection Es as <-.
    eapply inv_next; [exact I | reflexivity | | exact Logic.I | apply tool_expr_ok; [reflexivity | split; [exact A1 | rewrite R; exact A2]]].
    exact (remove_js_good (tool_inputs _ (tool_args args t)) A2).
  Qed.
  Lemma stream_inv n inputs err value w w' m : stream_expr gx replace_etool wreqs n inputs err value w = Ok (w', m) -> inv w -> inv w'.
  Proof.
    unfold stream_expr. intros E I. destruct (filled value); [|injection E as <- <-; exact I]. binv E x Ex.
    destruct x as [expr|]; [|injection E as <- <-; exact I]. destruct w as (st, gen). injection E as <- <-.
    pose proof I as ((A1 & A2) & S & _). cbn [fst] in A1, A2, S.
    eapply inv_next; [exact I | destruct (ws_run st); reflexivity | | | apply tool_expr_ok; [reflexivity | split; auto]].
    - cbn [ws_run add_in with_in append_tool_input with_run]. rewrite append_reqs. destruct (ws_run st) as [|t|] eqn:R; cbn [with_run ws_run]; rewrite ?R; exact A2.
    - cbn [ws_run add_in with_in append_tool_input with_run]. apply append_subs. destruct (ws_run st) as [|t|] eqn:R; cbn [with_run ws_run]; rewrite ?R; exact S.
  Qed.
  Lemma appended st gen inp name g : inv (st, gen) -> made_ok g -> inv (add_in (feed inp name) (append_tool_input inp st), gen ++ [g]).
  Proof.
    intros I M. pose proof I as ((A1 & A2) & S & _). cbn [fst] in A1, A2, S. eapply inv_next; [exact I | reflexivity | | | exact M].
    - cbn [ws_run add_in with_in append_tool_input with_run]. rewrite append_reqs. exact A2.
    - cbn [ws_run add_in with_in append_tool_input with_run]. apply append_subs. exact S.
  Qed.
  Lemma binding_inv n inputs l : forall w w' m, binding_loop gx replace_etool skip1 wreqs n inputs l w = Ok (w', m) -> inv w -> inv w'.
  Proof.
    induction l as [|i l IH]; intros (st, gen) w' m E I; cbn [binding_loop] in E.
    { injection E as <- <-. exact I. }
    binv E x Ex. destruct x as [expr|]; [|exact (IH _ _ _ E I)].
    binv E r Er. destruct r as (w2, m2). injection E as <- <-. apply IH in Er; [exact Er|].
    apply appended; [exact I|]. apply tool_expr_ok; [reflexivity | exact (proj1 I)].
  Qed.
  Lemma moved_subs o r : subs r -> subs (moved_run skip1 o r).
  Proof. destruct r; auto. Qed.
  Lemma sub_good clt st o expr : all_good (t_reqs clt) -> agree st -> subs (ws_run st) ->
    subs (RSub (sub_workflow replace_etool skip1 wreqs clt st o expr)).
  Proof.
    intros C (A & B) S. cbn [subs sub_workflow sb_gen_tool sb_run]. split; [|apply moved_subs; exact S].
    pose proof (all_good_jsreqs _ (proj1 F)) as Fw. pose proof (all_good_jsreqs _ A) as Fs. pose proof (all_good_jsreqs _ C) as Fc.
    apply choice_made; [eapply find_good; [exact F | repeat constructor; auto | cbn; auto] | eapply find_good; [exact F | repeat constructor; auto | cbn; auto] | intros x [] | intros l []].
  Qed.
  Lemma output_inv n inputs clt l : all_good (t_reqs clt) -> forall w w' m s,
    output_loop gx replace_etool skip1 skip2 wreqs n inputs clt l w = Ok (w', m, s) -> inv w -> inv w'.
  Proof.
    intros C. induction l as [|o l IH]; intros (st, gen) w' m s E I; cbn [output_loop] in E.
    { injection E as <- <- <-. exact I. }
    binv E x Ex. set (w1 := match x with None => _ | Some _ => _ end) in E.
    assert (I1 : inv w1). { subst w1. destruct x as [expr|]; [|exact I]. apply appended; [exact I|]. apply tool_expr_ok; [reflexivity | exact (proj1 I)]. }
    binv E y Ey. binv E w2 Ew. binv E r Er. destruct r as ((w3, m3), s3). injection E as <- <- <-. apply IH in Er; [exact Er|].
    destruct y as [expr|]; [|injection Ew as <-; exact I1].
    destruct (existsb _ _); [discriminate Ew|]. injection Ew as <-. destruct I1 as ((A1 & A2) & S & G).
    split; [split; [exact A1 | intros lib []]|]. split; [|exact G]. apply sub_good; auto. split; auto.
  Qed.

  (** requirements *)
  Lemma set_nth_in {A} (x y : A) : forall i l l', set_nth i x l = Ok l' -> In y l' -> y = x \/ In y l.
  Proof.
    induction i as [|i IH]; intros [|z l] l' E I; cbn [set_nth] in E; try discriminate E.
    - injection E as <-. destruct I as [<- | I]; [left; reflexivity | right; right; exact I].
    - binv E r Er. injection E as <-. destruct I as [<- | I]; [right; left; reflexivity|].
      destruct (IH _ _ Er I) as [-> | J]; [left; reflexivity | right; right; exact J].
  Qed.
  Lemma set_tool_req_good i r st st' : set_tool_req i r st = Ok st' -> is_js r = false -> agree st -> agree st' /\ (exists t, ws_run st' = RTool t) /\ ws_reqs st' = ws_reqs st.
  Proof.
    unfold set_tool_req. intros E J (A & B). destruct (ws_run st) as [|t|]; try discriminate E. destruct (t_reqs t) as [l|] eqn:R; [|discriminate E].
    binv E l' El. injection E as <-. split; [|split; [eexists; reflexivity | reflexivity]]. split; [exact A|].
    intros lib I. cbn in I. destruct (set_nth_in _ _ _ _ _ El I) as [<- | I']; [discriminate J|]. apply B. cbn. rewrite R. exact I'.
  Qed.
  Lemma set_listing_good i k e st st' : set_listing i k e st = Ok st' -> agree st -> agree st' /\ (exists t, ws_run st' = RTool t) /\ ws_reqs st' = ws_reqs st.
  Proof.
    unfold set_listing. intros E. destruct (nth_req i st) as [| |[| | |]| | | |]; try discriminate E. binv E l' El. eapply set_tool_req_good; eauto.
  Qed.
  Definition pinv (p : plr) : Prop := inv (p_step p, p_gen p).
  Lemma plr_env_inv inputs defs p p' : plr_env gx inputs defs p = Ok p' -> pinv p -> pinv p'.
  Proof. intros E. apply plr_env_ok in E. subst p'. auto. Qed.
  Lemma pinv_next p p' g : pinv p -> agree (p_step p') /\ (exists t, ws_run (p_step p') = RTool t) /\ ws_reqs (p_step p') = ws_reqs (p_step p) ->
    p_gen p' = p_gen p ++ [g] -> made_ok g -> pinv p'.
  Proof.
    intros I ((_ & B) & (t & R) & Q) E M. unfold pinv. rewrite E. eapply inv_next; [exact I | exact Q | exact B | rewrite R; exact Logic.I | exact M].
  Qed.
  Lemma plr_res_inv n i inputs values p p' : plr_res gx attrs replace_etool wreqs n i inputs values p = Ok p' -> pinv p -> pinv p'.
  Proof.
    unfold plr_res. generalize attrs. intros l. revert p p'. induction l as [|a l IH]; intros p p' E I; cbn [foldM] in E; [injection E as <-; exact I|].
    binv E q Eqq. apply (IH _ _ E). cbn beta zeta in Eqq. destruct (negb _); [injection Eqq as <-; exact I|]. binv Eqq x Ex.
    destruct x as [expr|]; [|injection Eqq as <-; exact I]. binv Eqq st Es. injection Eqq as <-.
    eapply pinv_next; [exact I | | reflexivity |]; cbn [p_step].
    - eapply set_tool_req_good; [exact Es | reflexivity | exact (proj1 I)].
    - apply tool_expr_ok; [reflexivity | exact (proj1 I)].
  Qed.
  Lemma plr_entries_inv preqs n i inputs l : all_good_js preqs -> forall k p p',
    plr_entries gx replace_etool wreqs preqs n i inputs k l p = Ok p' -> pinv p -> pinv p'.
  Proof.
    intros P. pose proof (all_good_jsreqs _ (proj1 F)) as Fw. induction l as [|e l IH]; intros k p p' E I; cbn [plr_entries] in E; [injection E as <-; exact I|].
    binv E q Eqq. apply (IH _ _ _ E). pose proof (proj1 I) as A. cbn [fst] in A.
    assert (X : forall name source expr, startswith "_expression" name = true -> made_ok (expr_step replace_etool [jsreqs wreqs; preqs] name source expr)) by (intros; apply expr_ok; [assumption | repeat constructor; auto | cbn; auto]).
    destruct e as [s|en enm|s].
    - binv Eqq x Ex. destruct x as [expr|]; [|injection Eqq as <-; exact I]. binv Eqq st Es. injection Eqq as <-.
      eapply pinv_next; [exact I | eapply set_listing_good; eauto | reflexivity | apply X; reflexivity].
    - destruct (filled en) as [txt|].
      + binv Eqq x Ex. destruct x as [expr|]; [|injection Eqq as <-; exact I]. binv Eqq ex' Ee. binv Eqq st Es. injection Eqq as <-.
        eapply pinv_next; [exact I | eapply set_listing_good; eauto | reflexivity | apply tool_expr_ok; [reflexivity | exact A]].
      + destruct (filled enm) as [nm|]; [|injection Eqq as <-; exact I].
        binv Eqq x Ex. destruct x as [expr|]; [|injection Eqq as <-; exact I]. binv Eqq st Es. injection Eqq as <-.
        eapply pinv_next; [exact I | eapply set_listing_good; eauto | reflexivity | apply X; reflexivity].
    - injection Eqq as <-. exact I.
  Qed.
  Lemma add_tool_input_good x st : agree st -> agree (add_tool_input x st).
  Proof. unfold add_tool_input. intros (A & B). destruct (ws_run st) as [|t|] eqn:R; try (split; [exact A | rewrite R; exact B]).
    destruct (is_clt t); split; auto. rewrite R. exact B. Qed.
  Lemma add_tool_input_subs x st : subs (ws_run st) -> subs (ws_run (add_tool_input x st)).
  Proof. unfold add_tool_input. intros A. destruct (ws_run st) as [|t|] eqn:R; try (rewrite R; exact A). destruct (is_clt t); [exact Logic.I | rewrite R; exact A]. Qed.
  Lemma plr_iwd_inv preqs n i inputs li p p' : all_good_js preqs ->
    plr_iwd gx replace_etool skip2 wreqs preqs n i inputs li p = Ok p' -> pinv p -> pinv p'.
  Proof.
    intros P. unfold plr_iwd. intros E I. destruct skip2; [injection E as <-; exact I|].
    destruct li as [|s|l|s]; try (injection E as <-; exact I).
    - destruct (String.eqb s ""); [injection E as <-; exact I|]. binv E x Ex. destruct x as [expr|]; [|injection E as <-; exact I].
      binv E st Es. injection E as <-. destruct (set_tool_req_good _ _ _ _ Es eq_refl (proj1 I)) as (A & (t & R) & Q).
      pose proof (all_good_jsreqs _ (proj1 F)) as Fw.
      set (s2 := add_in _ st). assert (A2 : agree s2) by exact A. pose proof (add_tool_input_good "_iwdr_listing" s2 A2) as A3.
      unfold pinv. cbn [p_step p_gen]. split; [exact A3|]. split.
      + apply add_tool_input_subs. cbn. rewrite R. exact Logic.I.
      + cbn [snd]. apply Forall_app. split; [exact (proj2 (proj2 I))|]. constructor; [|constructor]. apply expr_ok; [reflexivity | repeat constructor; auto | cbn; auto].
    - exact (plr_entries_inv _ _ _ _ _ P _ _ _ E I).
  Qed.
  Lemma plr_reqs_inv preqs n inputs l : all_good_js preqs -> forall i p p',
    plr_reqs gx attrs replace_etool skip2 wreqs preqs n inputs i l p = Ok p' -> pinv p -> pinv p'.
  Proof.
    intros P. induction l as [|r l IH]; intros i p p' E I; cbn [plr_reqs] in E; [injection E as <-; exact I|].
    binv E q Eqq. apply (IH _ _ _ E). destruct r; try (injection Eqq as <-; exact I).
    - exact (plr_env_inv _ _ _ _ Eqq I).
    - exact (plr_res_inv _ _ _ _ _ _ Eqq I).
    - exact (plr_iwd_inv _ _ _ _ _ _ _ P Eqq I).
  Qed.
  Lemma plr_feed_inv l : forall st, agree st /\ subs (ws_run st) -> agree (plr_feed l st) /\ subs (ws_run (plr_feed l st)).
  Proof.
    unfold plr_feed. induction l as [|e l IH]; intros st A; cbn [fold_left]; [exact A|]. apply IH.
    set (s2 := add_in _ st). assert (A2 : agree s2 /\ subs (ws_run s2)) by exact A. split; [apply add_tool_input_good; tauto | apply add_tool_input_subs; tauto].
  Qed.
  Lemma level_inv orig w w' m : all_good (run_reqs orig) ->
    process_level_reqs gx attrs replace_etool skip2 wreqs orig w = Ok (w', m) -> inv w -> inv w'.
  Proof.
    unfold process_level_reqs. intros O E I. destruct orig as [|t|]; try discriminate E.
    destruct (t_reqs t) as [[|r l]|] eqn:R; try (injection E as <- <-; exact I).
    destruct (String.eqb _ _); [injection E as <- <-; exact I|]. binv E p Ep. injection E as <- <-.
    apply plr_reqs_inv in Ep; [| rewrite <- R; apply all_good_jsreqs; exact O | destruct w; exact I].
    destruct Ep as (A & S & G). cbn [fst snd] in *. destruct (plr_feed_inv (p_env p) _ (conj A S)) as (A1 & S1).
    destruct (plr_feed_inv (p_res p) _ (conj A1 S1)) as (A2 & S2). destruct (plr_feed_inv (p_iwd p) _ (conj A2 S2)) as (A3 & S3).
    split; [exact A3|]. split; [exact S3 | exact G].
  Qed.
  Lemma clt_inv t w w' m s : all_good (t_reqs t) -> traverse_clt gx replace_etool skip1 skip2 wreqs t w = Ok (w', m, s) -> inv w -> inv w'.
  Proof.
    unfold traverse_clt. intros C E I. destruct (String.eqb _ _); [injection E as <- <- <-; exact I|].
    binv E a Ea. binv E b Eb. binv E c Ec. binv E d Ed. binv E e Ee. injection E as <- <- <-.
    destruct a as (wa, ma), b as (wb, mb), c as (wc, mc), d as (wd, md), e as ((we, me), se). cbn [fst snd] in *.
    eapply output_inv; [exact C | exact Ee|]. eapply binding_inv; [exact Ed|]. eapply stream_inv; [exact Ec|]. eapply stream_inv; [exact Eb|].
    destruct skip1; [injection Ea as <- <-; exact I | eapply arg_inv; [exact Ea | exact I]].
  Qed.

  Variable src_example self_example : list wstep -> wstep -> src -> result json.
  Variable src_params : list wstep -> src -> result nat.
  Variable src_known : list wstep -> wstep -> string -> result unit.

  Lemma valueFrom_made steps st inp orig ins name expr g : startswith "_expression" name = true -> agree st -> all_good (run_reqs orig) ->
    valueFrom_step src_params replace_etool wreqs steps st inp orig ins name expr = Ok g -> made_ok g.
  Proof.
    intros Nm (A & _) O. unfold valueFrom_step. intros E. destruct (String.eqb _ _); [discriminate E|]. binv E ps Eps. injection E as <-.
    pose proof (all_good_jsreqs _ (proj1 F)) as Fw. pose proof (all_good_jsreqs _ A) as Fs. pose proof (all_good_jsreqs _ O) as Fo.
    apply made_agree; [reflexivity| | left; exact Nm]. eexists. split; [reflexivity|]. apply choice_made.
    - unfold etool_lib. eapply find_good; [exact F | repeat constructor; auto | cbn; auto].
    - eapply find_good; [exact F | repeat constructor; auto | cbn; auto].
    - apply copied_good. exact O.
    - apply copied_files.
  Qed.
  Lemma give_js_good orig r : all_good (run_reqs r) -> all_good (run_reqs (give_js wreqs orig r)).
  Proof.
    intros A. destruct orig as [|o|]; try exact A. destruct r as [|t|]; try exact A. cbn [give_js]. destruct (_ && _); [|exact A].
    intros lib I. cbn in I. apply in_app_iff in I. destruct I as [I | [E | []]]; [apply A; exact I|]. injection E as <-.
    apply (find_good wreqs [jsreqs wreqs]); [exact F | repeat constructor; apply all_good_jsreqs; exact (proj1 F) | cbn; auto].
  Qed.
  Lemma give_js_subs orig r : subs r -> subs (give_js wreqs orig r).
  Proof. intros A. destruct orig as [|o|]; try exact A. destruct r as [|t|]; try exact A. cbn [give_js]. destruct (_ && _); exact A. Qed.
  Lemma value_loop_inv pre post mock orig ins : all_good (run_reqs orig) -> forall todo st done_ gen st' gen',
    value_loop gx self_example src_params src_known replace_etool wreqs pre post st mock orig ins done_ todo gen = Ok (st', gen') -> inv (st, gen) -> inv (st', gen').
  Proof.
    intros O. induction todo as [|i todo IH]; intros st done_ gen st' gen' E I; cbn [value_loop] in E.
    { injection E as <- <-. exact I. }
    destruct (filled _) as [text|]; [|exact (IH _ _ _ _ _ E I)]. binv E self Eself. binv E x Ex.
    destruct x as [expr|]; [|exact (IH _ _ _ _ _ E I)]. destruct (negb _); [discriminate E|]. binv E u Eu. binv E g Eg.
    destruct I as ((A1 & A2) & S & G). cbn [fst snd] in *.
    assert (A3 : agree (with_run (give_js wreqs orig (ws_run st)) st)) by (split; [exact A1 | apply give_js_good; exact A2]).
    apply (IH _ _ _ _ _ E). split; [exact A3|]. split; [apply give_js_subs; exact S|]. cbn [snd]. apply Forall_app. split; [exact G|]. constructor; [|constructor].
    eapply valueFrom_made; [| exact A3 | exact O | exact Eg]. reflexivity.
  Qed.
  Lemma when_inv steps st ins expr st' g gen : when_step src_params replace_etool wreqs steps st ins expr = Ok (st', g) -> inv (st, gen) -> inv (st', gen ++ [g]).
  Proof.
    unfold when_step. intros E I. binv E ps Eps. injection E as <- <-. pose proof I as ((A1 & A2) & S & _). cbn [fst] in A1, A2, S.
    eapply inv_next; [exact I | reflexivity | exact A2 | exact S|]. apply made_agree; [reflexivity| |].
    2:{ right. split; [apply (startswith_app "_when_expression_")|]. intros K. eexists. eexists. split; [cbn [ws_run gen_step]; rewrite K; reflexivity|]. split; reflexivity. }
    eexists. split; [reflexivity|].
    pose proof (all_good_jsreqs _ (proj1 F)) as Fw. pose proof (all_good_jsreqs _ A1) as Fs.
    apply choice_made; [eapply find_good; [exact F | repeat constructor; auto | cbn; auto] | eapply find_good; [exact F | repeat constructor; auto | cbn; auto] | intros x [] | intros l []].
  Qed.
  Lemma tstep_inv pre post st st' gen m sub :
    traverse_step gx src_example self_example src_params src_known attrs replace_etool skip1 skip2 wreqs pre post st = Ok (st', gen, m, sub) ->
    agree st -> subs (ws_run st) -> inv (st', gen).
  Proof.
    unfold traverse_step. intros E A S. binv E mock Em. destruct (String.eqb _ _); [injection E as <- <- _ _; split; [exact A | split; [exact S | constructor]]|].
    binv E v Ev. destruct v as [s1 g1]. apply value_loop_inv in Ev; [| exact (proj2 A) | split; [exact A | split; [exact S | constructor]]].
    binv E x Ex. binv E w Ew. binv E p Ep. binv E c Ec.
    assert (I2 : inv w). { destruct x as [expr|]; [|injection Ew as <-; exact Ev]. binv Ew r Er. destruct r as (s2, g2). injection Ew as <-. eapply when_inv; eauto. }
    destruct p as [w3 m3], c as [[[s4 g4] m4] sub4]. cbn [fst snd] in *. injection E as <- <- _ _.
    apply level_inv in Ep; [| exact (proj2 A) | exact I2].
    destruct (ws_run st) as [|t|] eqn:R; try (injection Ec as -> _ _; exact Ep).
    destruct (is_clt t); [|injection Ec as -> _ _; exact Ep]. eapply clt_inv; [| exact Ec | exact Ep]. pose proof (proj2 A) as A2. rewrite R in A2. exact A2.
  Qed.

  (** an ExpressionTool that only declares JavaScript is left alone *)
  Lemma value_loop_run pre post mock orig ins : (forall r, give_js wreqs orig r = r) -> forall todo st done_ gen st' gen',
    value_loop gx self_example src_params src_known replace_etool wreqs pre post st mock orig ins done_ todo gen = Ok (st', gen') -> ws_run st' = ws_run st.
  Proof.
    intros O. induction todo as [|i todo IH]; intros st done_ gen st' gen' E; cbn [value_loop] in E.
    { injection E as <- <-. reflexivity. }
    destruct (filled _) as [text|]; [|exact (IH _ _ _ _ _ E)]. binv E self Eself. binv E x Ex.
    destruct x as [expr|]; [|exact (IH _ _ _ _ _ E)]. destruct (negb _); [discriminate E|]. binv E u Eu. binv E g Eg.
    apply IH in E. rewrite E. cbn [ws_run with_run]. apply O.
  Qed.
  Lemma tstep_plain pre post st st' gen m sub :
    traverse_step gx src_example self_example src_params src_known attrs replace_etool skip1 skip2 wreqs pre post st = Ok (st', gen, m, sub) ->
    plain_etool (ws_run st) -> ws_run st' = ws_run st.
  Proof.
    unfold traverse_step. intros E (t & lib & R & K & Q). binv E mock Em. destruct (String.eqb _ _); [injection E as <- <- _ _; reflexivity|].
    binv E v Ev. destruct v as [s1 g1]. apply value_loop_run in Ev.
    2:{ intros r. rewrite R. destruct r; try reflexivity. cbn [give_js]. rewrite Q. rewrite existsb_app. cbn. rewrite orb_true_r, andb_false_r. reflexivity. }
    binv E x Ex. binv E w Ew. binv E p Ep. binv E c Ec. rewrite R in Ep, Ec.
    assert (R2 : ws_run (fst w) = ws_run st).
    { destruct x as [expr|]; [|injection Ew as <-; exact Ev]. binv Ew r Er. injection Ew as <-. unfold when_step in Er. binv Er ps Eps. injection Er as <-. exact Ev. }
    unfold is_clt in Ec. rewrite K in Ec. injection Ec as <-. injection E as <- _ _ _. cbn [fst].
    unfold process_level_reqs in Ep. rewrite Q in Ep. destruct (String.eqb _ _); [injection Ep as <-; exact R2|]. cbn [plr_reqs bind] in Ep. injection Ep as <-. exact R2.
  Qed.

  (** ** Requirements of the workflow *)
  Definition more (base steps : list wstep) : Prop := exists new, steps = base ++ new /\ Forall made_ok new.
  Lemma more_refl base : more base base.
  Proof. exists []. rewrite app_nil_r. auto. Qed.
  Lemma more_add base steps name source expr : startswith "_expression" name = true -> more base steps ->
    more base (steps ++ [expr_step replace_etool [jsreqs wreqs] name source expr]).
  Proof.
    intros N (new & -> & A). exists (new ++ [expr_step replace_etool [jsreqs wreqs] name source expr]). rewrite app_assoc. split; [reflexivity|].
    apply Forall_app. split; [exact A|]. constructor; [|constructor]. apply expr_ok; [exact N | repeat constructor; apply all_good_jsreqs; exact (proj1 F) | cbn; auto].
  Qed.
  Variable ev : string -> json -> result json.
  Lemma wrq_env_more base inputs req defs : forall k q q',
    wrq_env gx replace_etool (jsreqs wreqs) inputs req k defs q = Ok q' -> more base (q_steps q) -> more base (q_steps q').
  Proof.
    induction defs as [|(n, v) defs IH]; intros k q q' E M; cbn [wrq_env] in E; [injection E as <-; exact M|].
    binv E x Ex. destruct x as [expr|]; [|exact (IH _ _ _ E M)]. binv E new En. apply (IH _ _ _ E). cbn [q_steps]. apply more_add; [reflexivity | exact M].
  Qed.
  Lemma wrq_res_more base inputs values l : forall q q',
    wrq_res gx replace_etool (jsreqs wreqs) inputs values l q = Ok q' -> more base (q_steps q) -> more base (q_steps q').
  Proof.
    induction l as [|a l IH]; intros q q' E M; cbn [wrq_res] in E; [injection E as <-; exact M|].
    binv E x Ex. destruct x as [expr|]; [|exact (IH _ _ E M)]. apply (IH _ _ E). cbn [q_steps]. apply more_add; [reflexivity | exact M].
  Qed.
  Lemma wrq_entries_more base inputs l : forall k q q',
    wrq_entries gx ev replace_etool (jsreqs wreqs) inputs k l q = Ok q' -> more base (q_steps q) -> more base (q_steps q').
  Proof.
    induction l as [|e l IH]; intros k q q' E M; cbn [wrq_entries] in E; [injection E as <-; exact M|].
    binv E q1 Eq1. apply (IH _ _ _ E). cbn [q_iwd q_steps q_mod q_env q_genv q_res q_gres q_giwd q_penv q_pres q_piwd] in Eq1. destruct e as [s|en enm|s].
    - binv Eq1 x Ex. destruct x as [expr|]; [|injection Eq1 as <-; exact M]. binv Eq1 new En. injection Eq1 as <-. apply more_add; [reflexivity | exact M].
    - destruct (filled en) as [txt|].
      + binv Eq1 x Ex. destruct x as [expr|]; [|injection Eq1 as <-; exact M]. binv Eq1 u Eu. discriminate Eq1.
      + destruct (filled enm) as [nm|]; [|injection Eq1 as <-; exact M].
        binv Eq1 x Ex. destruct x as [expr|]; [|injection Eq1 as <-; exact M]. binv Eq1 new En. injection Eq1 as <-. apply more_add; [reflexivity | exact M].
    - injection Eq1 as <-. exact M.
  Qed.
  Lemma wrq_iwd_more base inputs li q q' :
    wrq_iwd gx ev replace_etool (jsreqs wreqs) inputs li q = Ok q' -> more base (q_steps q) -> more base (q_steps q').
  Proof.
    unfold wrq_iwd. intros E M. destruct li as [|s|l|s]; try (injection E as <-; exact M).
    - destruct (String.eqb _ _); [injection E as <-; exact M|]. binv E x Ex. destruct x as [expr|]; [|injection E as <-; exact M]. injection E as <-.
      apply more_add; [reflexivity | exact M].
    - destruct l as [|e l]; [injection E as <-; exact M|]. binv E q1 Eq1. injection E as <-. cbn [q_steps]. exact (wrq_entries_more _ _ _ _ _ _ Eq1 M).
  Qed.
  Lemma wrq_reqs_more base inputs l : forall q q',
    wrq_reqs gx ev attrs replace_etool (jsreqs wreqs) inputs l q = Ok q' -> more base (q_steps q) -> more base (q_steps q').
  Proof.
    induction l as [|r l IH]; intros q q' E M; cbn [wrq_reqs] in E; [injection E as <-; exact M|].
    binv E q1 Eq1. apply (IH _ _ E). destruct r; try (injection Eq1 as <-; exact M).
    - exact (wrq_env_more _ _ _ _ _ _ _ Eq1 M).
    - exact (wrq_res_more _ _ _ _ _ _ Eq1 M).
    - exact (wrq_iwd_more _ _ _ _ _ Eq1 M).
  Qed.
  Definition same_run (a b : wstep) : Prop := ws_run b = ws_run a /\ ws_id b = ws_id a.
  Lemma add_req_same r ins s : same_run s (add_req r ins s).
  Proof. unfold add_req. destruct (own_step s); split; reflexivity. Qed.
  Lemma map_same r ins base l : Forall2 same_run base l -> Forall2 same_run base (map (add_req r ins) l).
  Proof.
    intros H. induction H as [|a b x y (A & B) H IH]; cbn [map]; constructor; [|exact IH]. destruct (add_req_same r ins b) as (C & D). split; congruence.
  Qed.
  Lemma process_reqs_more wi steps wreqs' all m : process_reqs gx ev attrs replace_etool wi wreqs steps = Ok (wreqs', all, m) ->
    exists new, Forall2 same_run (steps ++ new) all /\ Forall made_ok new.
  Proof.
    unfold process_reqs. intros E. binv E q Eqq. injection E as _ <- _. apply (wrq_reqs_more steps) in Eqq; [|apply more_refl].
    destruct Eqq as (new & Q & M). exists new. split; [|exact M]. rewrite <- Q.
    assert (F0 : Forall2 same_run (q_steps q) (q_steps q)) by (apply Forall2_refl; split; reflexivity).
    destruct (q_iwd q); [apply map_same|]; (destruct (q_res q); [apply map_same|]; (destruct (q_env q); [apply map_same|]; exact F0)).
  Qed.
  Lemma pick_more out_known : forall todo done_ steps m outs all m',
    pick_loop out_known replace_etool wreqs done_ todo steps m = Ok (outs, all, m') -> exists new, all = steps ++ new /\ Forall (fun g => made_run (ws_run g)) new.
  Proof.
    induction todo as [|o todo IH]; intros done_ steps m outs all m' E; cbn [pick_loop] in E.
    { injection E as <- <- <-. exists []. rewrite app_nil_r. auto. }
    destruct (filled _) as [p|]; [|exact (IH _ _ _ _ _ _ E)]. binv E expr Ee. binv E sources Es. binv E u Eu.
    destruct (IH _ _ _ _ _ _ E) as (new & -> & A). rewrite <- app_assoc. eexists. split; [reflexivity|]. constructor; [|exact A].
    eapply expr_run; [exact F | repeat constructor; apply all_good_jsreqs; exact (proj1 F) | cbn; auto].
  Qed.
End Good.

Section Whole.
  Variable good : option (list string) -> Prop.
  Variable gx : json -> json -> json -> result (option string).
  Variable ev : string -> json -> result json.
  Variable src_example self_example : list wstep -> wstep -> src -> result json.
  Variable src_params : list wstep -> src -> result nat.
  Variable src_known : list wstep -> wstep -> string -> result unit.
  Variable out_known : list wstep -> src -> result unit.
  Variable load_run : string -> result (tool * bool).
  Variable attrs : list string.
  Variable replace_etool skip1 skip2 : bool.
  Notation sloop := (steps_loop gx src_example self_example src_params src_known attrs replace_etool skip1 skip2).
  Notation made_run := (made_run good replace_etool).
  Notation made_ok := (made_ok good replace_etool).
  Notation subs := (subs good replace_etool).

  Lemma need_subwf_fine wreqs : fine good wreqs -> fine good (need_subwf wreqs).
  Proof.
    intros (A & B). destruct (need_subwf_adds wreqs) as (tail & E & T & _).
    assert (X : forall lib, In (RJs lib) (all_reqs (need_subwf wreqs)) <-> In (RJs lib) (all_reqs wreqs)).
    { intros lib. change (all_reqs (need_subwf wreqs)) with (list_of (need_subwf wreqs)). rewrite E. change (list_of wreqs) with (all_reqs wreqs).
      rewrite in_app_iff. split; [|auto]. intros [I | I]; [exact I|]. rewrite Forall_forall in T. specialize (T _ I). discriminate T. }
    split.
    - intros lib I. apply A. apply X. exact I.
    - destruct B as [(lib & B) | B]; [left; exists lib; apply X; exact B | right; exact B].
  Qed.

  (** what a step generated in the loop is at the end *)
  Definition final (g : wstep) : Prop :=
    (replace_etool = false \/ startswith "_when_expression_" (ws_id g) = false) -> made_run (ws_run g).
  Lemma steps_loop_made : forall fuel wreqs done_ todo m wreqs' all m', sloop fuel wreqs done_ todo m = Ok (wreqs', all, m') ->
    fine good wreqs -> Forall (fun st => agree good st /\ subs (ws_run st)) todo ->
    fine good wreqs' /\ exists todo' news, all = done_ ++ todo' ++ news /\
      Forall2 (fun st st' => subs (ws_run st') /\ (made_ok st -> final st')) todo todo' /\
      Forall (fun g => subs (ws_run g) /\ final g) news.
  Proof.
    induction fuel as [|fuel IH]; intros wreqs done_ todo m wreqs' all m' E Fi T; (destruct todo as [|st todo]; cbn [steps_loop] in E;
      [injection E as <- <- <-; split; [exact Fi|]; exists [], []; rewrite !app_nil_r; auto|]).
    { discriminate E. }
    inversion T as [|? ? (T1 & T1') T2]; subst.
    destruct (startswith "_expression" (ws_id st)) eqn:Sk.
    { destruct (IH _ _ _ _ _ _ _ E Fi T2) as (Fi' & t' & news & A1 & A2 & A3). split; [exact Fi'|]. rewrite <- app_assoc in A1. exists (st :: t'), news.
      split; [exact A1|]. split; [|exact A3]. constructor; [|exact A2]. split; [exact T1'|]. intros (M & _) _. exact M. }
    binv E r Er. destruct r as [[[st' gen] ms] sub].
    pose proof (tstep_inv good replace_etool gx attrs skip1 skip2 wreqs Fi src_example self_example src_params src_known _ _ _ _ _ _ _ Er T1 T1') as (I1 & I2 & I3).
    cbn [fst snd] in I1, I2, I3.
    destruct (IH _ _ _ _ _ _ _ E) as (Fi' & t' & news & A1 & A2 & A3).
    { destruct sub; [apply need_subwf_fine|]; exact Fi. }
    { apply Forall_app. split; [exact T2|]. eapply Forall_impl; [|exact I3]. intros g (M & A & _). split; [exact A|]. destruct M as (t & -> & _). exact I. }
    split; [exact Fi'|]. apply Forall2_app_inv_l in A2. destruct A2 as (t1 & g1 & A2 & A2g & ->).
    rewrite <- !app_assoc in A1. exists (st' :: t1), (g1 ++ news). split; [exact A1|]. split.
    - constructor; [|exact A2]. split; [exact I2|]. intros (M & _ & N). destruct N as [N | (N & P)]; [rewrite N in Sk; discriminate Sk|].
      intros [K | K].
      + rewrite (tstep_plain replace_etool gx attrs skip1 skip2 wreqs src_example self_example src_params src_known _ _ _ _ _ _ _ Er (P K)). exact M.
      + apply tstep_reqs in Er. destruct Er as (_ & Er). rewrite Er, N in K. discriminate K.
    - apply Forall_app. split; [|exact A3]. rewrite Forall_forall. intros g' G. destruct (Forall2_in_r _ _ _ _ A2g G) as (g & Ig & S & H). split; [exact S|].
      apply H. rewrite Forall_forall in I3. apply I3. exact Ig.
  Qed.

  Theorem workflow_made fuel w w' m :
    traverse_workflow gx ev src_example self_example src_params src_known out_known load_run attrs replace_etool skip1 skip2 fuel w = Ok (w', m) ->
    fine good (wf_reqs w) -> (forall st, In st (wf_steps w) -> ~ is_sub (ws_run st)) ->
    (forall st, In st (wf_steps w) -> all_good good (ws_reqs st)) ->
    (forall st t, In st (wf_steps w) -> ws_run st = RTool t -> all_good good (t_reqs t)) ->
    (forall st u t m, In st (wf_steps w) -> ws_run st = RUri u -> load_run u = Ok (t, m) -> all_good good (t_reqs t)) ->
    exists olds news, wf_steps w' = olds ++ news /\ List.length olds = List.length (wf_steps w) /\
      Forall final news /\ Forall (fun st => subs (ws_run st)) (wf_steps w').
  Proof.
    unfold traverse_workflow. intros E Fi NS H1 H2 H3. binv E ls El. binv E r Er. destruct r as [[wr1 s1] m1].
    binv E u Eu. binv E p Ep. destruct p as [[outs s2] m2]. binv E q Eqq. destruct q as [[wr3 s3] m3].
    injection E as <- <-. cbn [wf_steps].
    assert (Lo : Forall (fun st => agree good st /\ subs (ws_run st)) (map fst ls) /\ List.length ls = List.length (wf_steps w)).
    { revert NS H1 H2 H3. apply mapM_Forall2 in El. clear - El. induction El as [|st (st', ml) a b H F IH]; intros NS H1 H2 H3; [split; constructor|].
      destruct IH as (IH & Len); [intros; eapply NS; right; eauto | intros; eapply H1; right; eauto | intros; eapply H2; eauto; right; auto | intros; eapply H3; eauto; right; auto|].
      split; [|cbn; rewrite Len; reflexivity]. cbn [map fst]. constructor; [|exact IH].
      unfold load_step in H. pose proof (H1 st (or_introl eq_refl)) as A. destruct (ws_run st) as [uri|t|s] eqn:R.
      - binv H r Er. destruct r as (t, mt). injection H as <- _. split; [|exact I]. split; [exact A|]. exact (H3 st _ _ _ (or_introl eq_refl) R Er).
      - destruct (is_etool t && replace_etool); injection H as <- _.
        + split; [|exact I]. split; [exact A|]. intros lib [X | []]. discriminate X.
        + split; [|rewrite R; exact I]. split; [exact A|]. rewrite R. exact (H2 st t (or_introl eq_refl) R).
      - destruct (NS st (or_introl eq_refl)). rewrite R. exact I. }
    destruct Lo as (Lo & Len).
    destruct (steps_loop_made _ _ _ _ _ _ _ _ Er Fi Lo) as (Fi1 & t' & n1 & A1 & A2 & A3). cbn [app] in A1.
    destruct (pick_more good replace_etool wr1 Fi1 out_known _ _ _ _ _ _ _ Ep) as (n2 & B1 & B2).
    destruct (process_reqs_more good replace_etool gx attrs wr1 Fi1 ev _ _ _ _ _ Eqq) as (n3 & C1 & C2).
    rewrite B1, A1, <- !app_assoc in C1. apply Forall2_app_inv_l in C1. destruct C1 as (olds & news & C1 & C1n & Es3).
    exists olds, news. split; [exact Es3|]. split.
    { rewrite <- (Forall2_len _ _ _ C1), <- (Forall2_len _ _ _ A2), map_length. exact Len. }
    assert (N : Forall (fun g => subs (ws_run g) /\ final g) (n1 ++ n2 ++ n3)).
    { apply Forall_app. split; [exact A3|]. apply Forall_app. split.
      - eapply Forall_impl; [|exact B2]. intros g M. split; [|intros _; exact M]. destruct M as (t & -> & _). exact I.
      - eapply Forall_impl; [|exact C2]. intros g (M & _). split; [|intros _; exact M]. destruct M as (t & -> & _). exact I. }
    assert (N' : Forall (fun g => subs (ws_run g) /\ final g) news).
    { rewrite Forall_forall in *. intros g' G. destruct (Forall2_in_r _ _ _ _ C1n G) as (g & Ig & R & Q). destruct (N g Ig) as (N1 & N2).
      split; [rewrite R; exact N1|]. unfold final. rewrite R, Q. exact N2. }
    split; [eapply Forall_impl; [|exact N']; cbn; tauto|]. rewrite Es3. apply Forall_app. split; [|eapply Forall_impl; [|exact N']; cbn; tauto].
    rewrite Forall_forall. intros st' G. destruct (Forall2_in_r _ _ _ _ C1 G) as (st & Ist & R & _). rewrite R.
    destruct (Forall2_in_r _ _ _ _ A2 Ist) as (st0 & _ & S & _). exact S.
  Qed.
End Whole.
