(** * Proofs about the refactoring of tools in workflows *)
From Verif Require Import PyBase PyBaseProofs PackModel ExprModel EvalModel RefactorModel RefactorSpec RefactorProofs
  FlowModel FlowSpec FlowProofs FlowProofs2 FlowTrace FlowValueSpec FlowValueProofs FlowReqSpec FlowReqProofs FlowReqProofs2
  FlowToolSpec FlowToolProofs FlowToolProofs2.

Section Mono.
  Variable gx : json -> json -> json -> result (option string).
  Variables (all all' : list wstep) (st st2 st' : wstep) (t t' : tool).
  Hypothesis H : forall g, In g all -> own_step g = false -> startswith "_expression" (ws_id g) = true -> In g all'.
  Hypothesis same_id : ws_id st2 = ws_id st.
  Hypothesis same_in : ws_in st2 = ws_in st.

  Lemma MadeForTool_other place self e g : MadeForTool st st' t place self e g -> MadeForTool st2 st' t place self e g.
  Proof. intros [A B C D E F]. unfold added in *. split; rewrite ?same_id, ?same_in; auto. unfold added. rewrite same_in. exact D. Qed.
  Lemma AloneFor_other place e g : AloneFor st place e g -> AloneFor st2 place e g.
  Proof. intros A. unfold AloneFor. rewrite same_id. exact A. Qed.
  Lemma LinkedHere_other x g : LinkedHere st st' t' x g -> LinkedHere st2 st' t' x g.
  Proof. intros A. unfold LinkedHere, added in *. rewrite same_in. exact A. Qed.
  Hint Resolve MadeForTool_other AloneFor_other LinkedHere_other : core.

  Lemma made_named place self e g : MadeForTool st st' t place self e g -> has_char "#" place = false -> In g all -> In g all'.
  Proof.
    intros [(n & F & N) _ _ _ _ _] P I. apply H; auto.
    - unfold own_step. apply negb_false_iff. rewrite N. rewrite after_hash_none.
      + apply (startswith_app "_expression_").
      + rewrite !has_char_app, P. rewrite (proj1 F). reflexivity.
    - rewrite N. apply (startswith_app "_expression").
  Qed.
  Lemma alone_named place e g : AloneFor st place e g -> has_char "#" place = false -> In g all -> In g all'.
  Proof.
    intros (n & F & [N _ _ _ _]) P I. apply H; auto.
    - unfold own_step. apply negb_false_iff. rewrite N. rewrite after_hash_none.
      + apply (startswith_app "_expression_").
      + rewrite !has_char_app, P. rewrite (proj1 F). reflexivity.
    - rewrite N. apply (startswith_app "_expression").
  Qed.
  Lemma TextMoved_mono place o o' : has_char "#" place = false -> TextMoved gx all st st' t t' place o o' -> TextMoved gx all' st2 st' t t' place o o'.
  Proof. intros P [? K | s e g A B C D L]; [constructor; auto|]. eapply TM_moved; eauto using made_named. Qed.
  Lemma ArgsMoved_mono k l l' : ArgsMoved gx all st st' t t' k l l' -> ArgsMoved gx all' st2 st' t t' k l l'.
  Proof.
    induction 1 as [|k a a' l l' M _ IH]; constructor; auto.
    assert (P : has_char "#" ("_arguments_" ++ str_nat k) = false) by (rewrite has_char_app, str_nat_no_hash; reflexivity).
    destruct M as [v v' M | s K | s e g A B C D F].
    - constructor. apply TextMoved_mono; auto.
    - constructor; auto.
    - eapply AM_moved; eauto using made_named. unfold added in *. rewrite same_in. exact F.
  Qed.
  Lemma frag_place n p : (exists i, Fragment i n) -> has_char "#" p = false -> has_char "#" ("_" ++ n ++ p) = false.
  Proof. intros (i & F) P. rewrite !has_char_app, P, (proj1 F). reflexivity. Qed.
  Lemma BindingMade_mono p : BindingMade gx all st st' t t' p -> BindingMade gx all' st2 st' t t' p.
  Proof.
    intros [A | (s & e & g & n & A & B & C & D & F & M & L)]; [left; exact A|]. right. exists s, e, g, n.
    repeat (split; auto). eapply made_named; eauto. apply frag_place; eauto.
  Qed.
  Lemma GlobMade_mono p : GlobMade gx all st st' t t' p -> GlobMade gx all' st2 st' t t' p.
  Proof.
    intros [A | [A | (e & g & n & i & A & B & D & F & M & L)]]; [left; exact A | right; left; exact A|]. right. right. exists e, g, n, i.
    repeat (split; auto). eapply made_named; eauto. apply frag_place; eauto.
  Qed.
  Lemma ToolMoved_mono skip1 : ToolMoved gx all st st' t t' skip1 -> ToolMoved gx all' st2 st' t t' skip1.
  Proof.
    intros [A1 Ah A2 A3 A4 A5 A6 A7 A8]. split; auto using TextMoved_mono.
    - destruct skip1; auto using ArgsMoved_mono.
    - intros S. specialize (A6 S). eapply Forall_impl; [|exact A6]. intros p. apply BindingMade_mono.
    - eapply Forall_impl; [|exact A8]. intros p. apply GlobMade_mono.
  Qed.

  Variable attrs : list string.
  Hypothesis attrs_ok : Forall (fun a => has_char "#" a = false) attrs.
  Lemma ToolEntriesMoved_mono k l l' : ToolEntriesMoved gx all st st' t t' k l l' -> ToolEntriesMoved gx all' st2 st' t t' k l l'.
  Proof.
    induction 1 as [|k a a' l l' M _ IH]; constructor; auto.
    assert (P : has_char "#" ("_InitialWorkDirRequirement_" ++ str_nat k) = false) by (rewrite has_char_app, str_nat_no_hash; reflexivity).
    destruct M as [e A | s x g A B C D | en nm x g A B C D F G | txt name x x' g A B C D F G].
    - apply TE_kept; auto.
    - eapply TE_text; eauto using alone_named.
    - eapply TE_name; eauto using alone_named.
    - eapply TE_entry; eauto using made_named.
  Qed.
  Lemma ToolReqMoved_mono skip2 r r' : ToolReqMoved gx all st st' t t' attrs skip2 r r' -> ToolReqMoved gx all' st2 st' t t' attrs skip2 r r'.
  Proof.
    intros [d A | v v' A | li A | li A B | s e g A B C D F | l l' A | r0 A B C].
    - apply TR_env; auto.
    - apply TR_res. intros a. destruct (A a) as [K | (B & C & e & g & D & F & G & L)]; [left; exact K|]. right.
      split; [exact B|]. split; [exact C|]. exists e, g. split; [exact D|]. split; [|split; auto].
      eapply made_named; eauto. rewrite has_char_app. rewrite Forall_forall in attrs_ok. rewrite (attrs_ok a C). reflexivity.
    - apply TR_iwd_skip; auto.
    - apply TR_iwd_kept; auto.
    - eapply TR_iwd_text; eauto using alone_named.
    - apply TR_iwd_list. apply ToolEntriesMoved_mono. exact A.
    - apply TR_other; auto.
  Qed.
  Lemma ToolReqsMoved_mono skip2 : ToolReqsMoved gx all st st' t t' attrs skip2 -> ToolReqsMoved gx all' st2 st' t t' attrs skip2.
  Proof.
    unfold ToolReqsMoved. destruct (t_reqs t) as [l|]; auto. intros (l1 & F & R). exists l1. split; auto.
    eapply Forall2_mono; [|exact F]. intros a b. apply ToolReqMoved_mono.
  Qed.
End Mono.

(** the run of a step does not change when it is not an ExpressionTool *)
Lemma give_js_clt wreqs t r : is_etool t = false -> give_js wreqs (RTool t) r = r.
Proof. intros K. unfold give_js. destruct r; auto. rewrite K. reflexivity. Qed.

Section Steps.
  Variable gx : json -> json -> json -> result (option string).
  Variable ev : string -> json -> result json.
  Variable src_example : list wstep -> wstep -> src -> result json.
  Variable self_example : list wstep -> wstep -> src -> result json.
  Variable src_params : list wstep -> src -> result nat.
  Variable src_known : list wstep -> wstep -> string -> result unit.
  Variable out_known : list wstep -> src -> result unit.
  Variable load_run : string -> result (tool * bool).
  Variable attrs : list string.
  Variable replace_etool skip1 skip2 : bool.
  Hypothesis attrs_ok : Forall (fun a => has_char "#" a = false) attrs.
  Notation tstep := (traverse_step gx src_example self_example src_params src_known attrs replace_etool skip1 skip2).

  Lemma value_loop_run wreqs pre post mock t ins : is_etool t = false -> forall todo st done_ gen st' gen',
    value_loop gx self_example src_params src_known replace_etool wreqs pre post st mock (RTool t) ins done_ todo gen = Ok (st', gen') ->
    ws_run st' = ws_run st /\ ws_id st' = ws_id st /\ List.length (ws_in st') = List.length (done_ ++ todo).
  Proof.
    intros K. induction todo as [|inp todo IH]; intros st done_ gen st' gen' E; cbn [value_loop] in E.
    { injection E as <- <-. rewrite app_nil_r. auto. }
    assert (Skip : value_loop gx self_example src_params src_known replace_etool wreqs pre post st mock (RTool t) ins (done_ ++ [inp]) todo gen = Ok (st', gen') ->
      ws_run st' = ws_run st /\ ws_id st' = ws_id st /\ List.length (ws_in st') = List.length (done_ ++ inp :: todo)).
    { intros Es. apply IH in Es. rewrite <- app_assoc in Es. exact Es. }
    destruct (filled (si_valueFrom inp)) as [text|]; [|apply Skip; exact E].
    cbn zeta in E. binv E self Es. binv E x Ex. destruct x as [expr|]; [|apply Skip; exact E].
    destruct (negb (has_input (RTool t) (si_id inp))); [discriminate|]. binv E k Ek. binv E g Eg.
    apply IH in E. destruct E as (E1 & E2 & E3). rewrite E1, E2, E3. cbn [with_run ws_run ws_id]. rewrite give_js_clt by exact K.
    rewrite <- app_assoc, !app_length. auto.
  Qed.

  Lemma tstep_tool wreqs pre post st st' gen m sub t :
    tstep wreqs pre post st = Ok (st', gen, m, sub) -> ws_id st <> "" -> after_first_hash (ws_id st) = after_hash (ws_id st) ->
    ws_run st = RTool t -> t_kind t = KClt ->
    exists t', inner (ws_run st') = Some t' /\
      forall all fin, incl gen all -> grows st' fin -> ToolMoved gx all st fin t t' skip1 /\ ToolReqsMoved gx all st fin t t' attrs skip2.
  Proof.
    intros T Nid One R K. assert (Ke : is_etool t = false) by (unfold is_etool; rewrite K; reflexivity).
    revert T. unfold traverse_step. intros E. binv E mock Em. pose proof Nid as Nid'. apply String.eqb_neq in Nid'. rewrite Nid' in E.
    binv E v Ev. destruct v as [s1 g1]. binv E x Ex. binv E w Ew. binv E p Ep. binv E c Ec.
    destruct w as [s2 g2], p as [[s3 g3] m3], c as [[[s4 g4] m4] sub4]. cbn [fst snd] in *. injection E as <- <- <- <-.
    rewrite R in Ev, Ep, Ec. rewrite (proj2 (is_clt_kind t) K) in Ec.
    destruct (value_loop_run _ _ _ _ _ _ Ke _ _ _ _ _ _ Ev) as (R1 & I1 & L1). cbn [app] in L1.
    assert (S2 : ws_id s2 = ws_id st /\ List.length (ws_in st) <= List.length (ws_in s2) /\ ws_run s2 = RTool t).
    { destruct x as [expr|].
      - binv Ew r Er. destruct r as [s2' gw]. cbn [fst snd] in Ew. injection Ew as <- <-. apply when_ok in Er. destruct Er as (-> & _ & _).
        cbn [add_in with_in with_when ws_id ws_in ws_run]. rewrite app_length, L1, I1, R1, R. split; [reflexivity|]. split; [lia | reflexivity].
      - injection Ew as <- <-. rewrite I1, L1, R1, R. auto. }
    destruct S2 as (I2 & L2 & R2).
    assert (N2 : now st t s2).
    { split; [exact I2 | exact L2|]. exists []. rewrite app_nil_r, R2. split; [reflexivity | intros x0 []]. }
    destruct (level_phase gx replace_etool skip2 st t One Nid attrs attrs_ok wreqs s2 g2 s3 g3 m3 t K N2 R2 eq_refl Ep)
      as (t3 & n3 & -> & G3 & N3 & R3 & S3 & M3).
    destruct (clt_phase gx replace_etool skip1 skip2 st t wreqs s3 (g2 ++ n3) s4 g4 m4 sub4 t3 Ec Nid N3 R3)
      as (t4 & n4 & -> & G4 & R4 & Q4 & T4 & M4); [apply S3 .. |].
    exists t4. split; [exact R4|]. intros all fin I G. split.
    - apply M4; auto. intros z Z. apply I, in_or_app. auto.
    - apply M3; auto. 2: eapply grows_trans; eauto. intros z Z. apply I, in_or_app. left. apply in_or_app. auto.
  Qed.

  Theorem tool_workflow fuel w w' m :
    traverse_workflow gx ev src_example self_example src_params src_known out_known load_run attrs replace_etool skip1 skip2 fuel w
      = Ok (w', m) ->
    exists olds news, wf_steps w' = olds ++ news /\
      Forall2 (fun st st' => StartsWith "_expression" (ws_id st) \/ ws_id st = "" \/ after_first_hash (ws_id st) <> after_hash (ws_id st) \/
                 forall t, (ws_run st = RTool t \/ (exists u ml, ws_run st = RUri u /\ load_run u = Ok (t, ml))) -> t_kind t = KClt ->
                   exists t', inner (ws_run st') = Some t' /\
                     ToolMoved gx (wf_steps w') st st' t t' skip1 /\ ToolReqsMoved gx (wf_steps w') st st' t t' attrs skip2) (wf_steps w) olds.
  Proof.
    intros E. apply workflow_visits_loaded in E. destruct E as (olds & news & new & A1 & A2). exists olds, news. split; auto.
    eapply Forall2_mono; [|exact A2]. clear A1 A2. intros st st' (st0 & (ml & L) & V).
    assert (L0 : st0 = with_run (ws_run st0) st) by (apply load_step_ok in L; apply L).
    inversion V as [? ? Sk _ | wreqs pre post ? st1 ? gen m1 sub Sk T F G]; subst.
    { left. apply startswith_spec. rewrite L0 in Sk. exact Sk. }
    right. destruct (String.eqb_spec (ws_id st) "") as [|Nid]; [auto|]. right.
    destruct (String.eqb_spec (after_first_hash (ws_id st)) (after_hash (ws_id st))) as [One | N1]; [|auto]. right.
    intros t Rt K.
    assert (R0 : ws_run st0 = RTool t).
    { unfold load_step in L. destruct Rt as [Rt | (u & ml' & Rt & Lt)]; rewrite Rt in L.
      - unfold is_etool in L. rewrite K in L. cbn in L. injection L as <- <-. exact Rt.
      - rewrite Lt in L. cbn in L. injection L as <- <-. reflexivity. }
    assert (I0 : ws_id st0 = ws_id st) by (rewrite L0; reflexivity).
    rewrite <- I0 in Nid, One.
    destruct (tstep_tool _ _ _ _ _ _ _ _ t T Nid One R0 K) as (t' & R' & M). exists t'.
    assert (Gf : grows st1 st').
    { destruct F as ([X1 _ _ _ _ _ (extra & X2 & _)] & _). split; eauto. }
    assert (Inc : forall g, In g gen -> own_step g = false -> startswith "_expression" (ws_id g) = true -> In g (wf_steps w')).
    { intros g Ig O Sg. destruct (G g Ig) as (g' & I' & Vg). inversion Vg as [? ? _ Fg | ? ? ? ? ? ? ? ? ? Sg' _ _ _]; subst; [|congruence].
      rewrite <- (proj2 Fg O). exact I'. }
    split; [rewrite (ex_run _ _ _ (proj1 F)); exact R'|].
    destruct (M gen st' (incl_refl _) Gf) as (M1 & M2).
    split.
    - eapply ToolMoved_mono; [exact Inc | | |exact M1]; rewrite L0; reflexivity.
    - eapply ToolReqsMoved_mono; [exact Inc | | | exact attrs_ok | exact M2]; rewrite L0; reflexivity.
  Qed.
End Steps.
