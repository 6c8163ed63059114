(** * The expression library of the steps made for outputEvals *)
From Verif Require Import PyBase PyBaseProofs PackModel ExprModel EvalModel RefactorModel RefactorSpec RefactorProofs RefactorProps
  FlowModel FlowSpec FlowProofs FlowProofs2 FlowProps FlowTrace FlowValueSpec FlowValueProofs FlowValueProps FlowReqSpec
  FlowToolSpec FlowToolProofs FlowToolProofs2 FlowToolProofs3 FlowToolProps FlowEvalSpec FlowEvalProofs FlowEvalProps LibSpec.

(** ** Specification *)

(** the first declaration of JavaScript among requirements; none *)
Definition FirstJs (r : option (list wreq)) (lib : option (list string)) : Prop :=
  exists a b, all_reqs r = a ++ RJs lib :: b /\ forall x, ~ In (RJs x) a.
Definition NoJavascript (r : option (list wreq)) : Prop := forall lib, ~ In (RJs lib) (all_reqs r).
(** the library of the first of several places that declares JavaScript *)
Inductive LibraryOf : list (option (list wreq)) -> option (list string) -> Prop :=
| LO_none : LibraryOf [] None
| LO_here r l lib : FirstJs r lib -> LibraryOf (r :: l) lib
| LO_next r l lib : NoJavascript r -> LibraryOf l lib -> LibraryOf (r :: l) lib.

(** ** Proofs *)
Lemma first_js_spec r : match first_js (jsreqs r) with Some lib => FirstJs r lib | None => NoJavascript r end.
Proof.
  unfold FirstJs, NoJavascript. destruct r as [l|]; [|cbn; intros x []]. cbn [jsreqs all_reqs].
  induction l as [|x l IH]; [cbn; intros y []|].
  destruct x; cbn [map jsreq_of first_js]; try (eexists [], l; split; [reflexivity|intros ? []]; fail).
  all: destruct (first_js (map jsreq_of l)) as [lib'|].
  all: try (destruct IH as (a & b & -> & N); eexists (_ :: a), b; split; [reflexivity|]; intros y [Y|Y]; [discriminate Y | exact (N y Y)]).
  all: intros y [Y|Y]; [discriminate Y | exact (IH y Y)].
Qed.
Lemma find_lib_LibraryOf l : LibraryOf l (find_lib_rev (map jsreqs l)).
Proof.
  induction l as [|r l IH]; [constructor|]. cbn [map find_lib_rev]. pose proof (first_js_spec r) as H.
  destruct (first_js (jsreqs r)); [apply LO_here | apply LO_next]; auto.
Qed.
Lemma need_subwf_first wreqs : first_js (jsreqs (need_subwf wreqs)) = first_js (jsreqs wreqs).
Proof.
  unfold need_subwf. destruct wreqs as [[|x l]|]; try reflexivity. destruct (existsb _ _); [reflexivity|].
  cbn [jsreqs]. rewrite map_app. generalize (map jsreq_of (x :: l)). intros k. induction k as [|y k IH]; [reflexivity|].
  destruct y; cbn; auto.
Qed.

Lemma append_Inside n : forall r g, Inside (append_run_input n r) g -> Inside r g.
Proof.
  fix F 1. intros [u|t|s] g H; cbn in H; [inversion H..|]. inversion H as [? | ? ? D]; subst.
  - exact (In_here s).
  - apply In_deep. apply F. exact D.
Qed.
Lemma moved_Inside skip1 o g r : Inside (moved_run skip1 o r) g -> Inside r g.
Proof. destruct r as [u|t|s]; cbn; auto. intros H. inversion H. Qed.

Section Step.
  Variable gx : json -> json -> json -> result (option string).
  Variable ev : string -> json -> result json.
  Variable src_example self_example : list wstep -> wstep -> src -> result json.
  Variable src_params : list wstep -> src -> result nat.
  Variable src_known : list wstep -> wstep -> string -> result unit.
  Variable out_known : list wstep -> src -> result unit.
  Variable load_run : string -> result (tool * bool).
  Variable attrs : list string.
  Variable replace_etool skip1 skip2 : bool.
  Notation tstep := (traverse_step gx src_example self_example src_params src_known attrs replace_etool skip1 skip2).
  Notation sloop := (steps_loop gx src_example self_example src_params src_known attrs replace_etool skip1 skip2).
  Notation refactored fuel w := (traverse_workflow gx ev src_example self_example src_params src_known out_known load_run attrs
                                   replace_etool skip1 skip2 fuel w).

  (** the places whose library counts: the workflow, the step, the tool; only the workflow for a
      CommandLineTool in the place of an ExpressionTool *)
  Definition places (w : option (list wreq)) (st : wstep) (t : tool) : list (option (list wreq)) :=
    if replace_etool then [w] else [w; ws_reqs st; t_reqs t].

  Section Inner.
    Variables (W wreqs : option (list wreq)) (st0 : wstep) (t0 : tool).
    Hypothesis SAME : first_js (jsreqs wreqs) = first_js (jsreqs W).
    Definition right_lib (g : tool) : Prop := exists lib, Evaluates lib g /\ LibraryOf (places W st0 t0) lib.
    Definition held (cur : wstep) : Prop := ws_reqs cur = ws_reqs st0 /\ forall g, Inside (ws_run cur) g -> right_lib g.

    Lemma sub_right cur o e : held cur -> right_lib (sb_gen_tool (sub_workflow replace_etool skip1 wreqs t0 cur o e)).
    Proof.
      intros (R & _). unfold right_lib, places. cbn [sub_workflow sb_gen_tool]. destruct replace_etool.
      - eexists. split; [eapply Ev_program; reflexivity|]. pose proof (find_lib_LibraryOf [W]) as L. cbn [map find_lib_rev] in L.
        rewrite <- SAME in L. exact L.
      - exists (find_expressionLib [jsreqs (t_reqs t0); jsreqs (ws_reqs cur); jsreqs wreqs]). split.
        + eapply Ev_etool; [reflexivity | reflexivity|]. exists [], []. split; [reflexivity | intros ? []].
        + pose proof (find_lib_LibraryOf [W; ws_reqs st0; t_reqs t0]) as L. unfold find_expressionLib. cbn [rev app].
          cbn [map find_lib_rev] in *. rewrite R, SAME. exact L.
    Qed.
    Lemma held_output n inputs l : forall w w' m s,
      output_loop gx replace_etool skip1 skip2 wreqs n inputs t0 l w = Ok (w', m, s) -> held (fst w) -> held (fst w').
    Proof.
      induction l as [|o l IH]; intros (st, gen) w' m s E H; cbn [output_loop] in E.
      { injection E as <- <- <-. exact H. }
      binv E x Ex. set (w1 := match x with None => _ | Some _ => _ end) in E.
      assert (I1 : held (fst w1)).
      { subst w1. destruct x as [expr|]; [|exact H]. destruct H as (H1 & H2). split; [exact H1|]. intros g G. apply H2.
        cbn [fst add_in with_in append_tool_input with_run ws_run] in G. eapply append_Inside. exact G. }
      binv E y Ey. binv E w2 Ew. binv E r Er. destruct r as ((w3, m3), s3). injection E as <- <- <-. apply IH in Er; [exact Er|].
      destruct y as [expr|]; [|injection Ew as <-; exact I1].
      destruct (existsb _ _); [discriminate Ew|]. injection Ew as <-. cbn [fst]. split; [exact (proj1 I1)|].
      cbn [with_run ws_run]. intros g G. inversion G as [? | ? ? D]; subst.
      - apply sub_right. exact I1.
      - apply (proj2 I1). eapply moved_Inside. exact D.
    Qed.
    Lemma held_clt cur gen w' m s t1 : traverse_clt gx replace_etool skip1 skip2 wreqs t0 (cur, gen) = Ok (w', m, s) ->
      ws_run cur = RTool t1 -> ws_reqs cur = ws_reqs st0 -> held (fst w').
    Proof.
      unfold traverse_clt. cbn [fst]. intros E R Q.
      assert (H0 : forall c t, ws_run c = RTool t -> ws_reqs c = ws_reqs st0 -> held c).
      { intros c t Rc Qc. split; [exact Qc|]. rewrite Rc. intros g G. inversion G. }
      destruct (String.eqb (ws_id cur) ""); [injection E as <- <- <-; eapply H0; eauto|].
      binv E a Ea. binv E b Eb. binv E c Ec. binv E d Ed. binv E e Ee.
      destruct a as [[sa ga] ma], b as [[sb gb] mb], c as [[sc gc] mc], d as [[sd gd] md], e as [[[se ge] me] sube].
      cbn [fst snd] in *. injection E as <- <- <-. cbn [fst].
      pose (nm := fun _ : string => True). assert (Nm : forall r, nm ("_expression_" ++ after_hash (ws_id cur) ++ String "_" r)%string) by (intros; exact Logic.I).
      assert (Aa : exists new, evolves nm cur sa new /\ same_outs (ws_run cur) (ws_run sa)).
      { destruct skip1.
        - injection Ea as <- <- <-. exists []. split; [apply evolves_refl | apply same_outs_refl].
        - destruct (arg_loop_evolves nm _ _ _ _ Nm _ _ _ _ _ _ _ _ Ea) as (na & _ & Va & Oa & _). eauto. }
      destruct Aa as (na & Va & Oa).
      destruct (stream_evolves nm _ _ _ _ Nm _ _ _ _ _ _ _ _ Eb) as (nb & _ & Vb & Ob & _).
      destruct (stream_evolves nm _ _ _ _ Nm _ _ _ _ _ _ _ _ Ec) as (nc & _ & Vc & Oc & _).
      destruct (binding_evolves nm _ _ _ _ _ Nm _ _ _ _ _ _ _ Ed) as (nd & _ & Vd & Od & _).
      pose proof (evolves_trans _ _ _ _ _ _ Va (evolves_trans _ _ _ _ _ _ Vb (evolves_trans _ _ _ _ _ _ Vc Vd))) as V.
      pose proof (same_outs_trans _ _ _ Oa (same_outs_trans _ _ _ Ob (same_outs_trans _ _ _ Oc Od))) as O4.
      destruct (O4 _ R) as (td & Rd & _).
      eapply (held_output _ _ _ _ _ _ _ Ee). cbn [fst]. eapply H0; [exact Rd|]. rewrite (ev_reqs _ _ _ _ V). exact Q.
    Qed.
    Lemma held_step pre post st' gen m sub : tstep wreqs pre post st0 = Ok (st', gen, m, sub) -> ws_run st0 = RTool t0 -> t_kind t0 = KClt ->
      held st'.
    Proof.
      intros T R K. assert (Ke : is_etool t0 = false) by (unfold is_etool; rewrite K; reflexivity).
      revert T. unfold traverse_step. intros E. binv E mock Em. destruct (String.eqb (ws_id st0) "") eqn:Nid.
      { injection E as <- <- <- <-. split; [reflexivity|]. rewrite R. intros g G. inversion G. }
      binv E v Ev. destruct v as [s1 g1]. binv E x Ex. binv E w Ew. binv E p Ep. binv E c Ec.
      destruct w as [s2 g2], p as [[s3 g3] m3], c as [[[s4 g4] m4] sub4]. cbn [fst snd] in *. injection E as <- <- <- <-.
      assert (Q1 : ws_reqs s1 = ws_reqs st0).
      { clear - Ev. remember (ws_in st0) as ins eqn:Hi. assert (G : forall todo done_ st gen s1 g1,
          value_loop gx self_example src_params src_known replace_etool wreqs pre post st mock (ws_run st0) ins done_ todo gen = Ok (s1, g1) ->
          ws_reqs s1 = ws_reqs st).
        { clear. induction todo as [|inp todo IH]; intros done_ st gen s1 g1 E; cbn [value_loop] in E.
          { injection E as <- <-. reflexivity. }
          destruct (filled (si_valueFrom inp)) as [text|]; [|eapply IH; exact E].
          cbn zeta in E. binv E self Es. binv E x Ex. destruct x as [expr|]; [|eapply IH; exact E].
          destruct (negb (has_input (ws_run st0) (si_id inp))); [discriminate|]. binv E k Ek. binv E g Eg.
          apply IH in E. exact E. }
        eapply G. exact Ev. }
      rewrite R in Ev, Ep, Ec. rewrite (proj2 (is_clt_kind t0) K) in Ec.
      destruct (value_loop_run _ _ _ _ _ _ _ _ _ _ _ Ke _ _ _ _ _ _ Ev) as (R1 & I1 & L1).
      assert (S2 : ws_run s2 = RTool t0 /\ ws_reqs s2 = ws_reqs st0).
      { destruct x as [expr|].
        - binv Ew r Er. destruct r as [s2' gw]. cbn [fst snd] in Ew. injection Ew as <- <-. apply when_ok in Er. destruct Er as (-> & _ & _).
          cbn [add_in with_in with_when ws_run ws_reqs]. rewrite R1, R. auto.
        - injection Ew as <- <-. rewrite R1, R. auto. }
      destruct S2 as (R2 & Q2). pose (nm := fun _ : string => True).
      destruct (level_reqs_evolves nm _ _ _ _ _ _ _ (fun _ => Logic.I) _ _ _ _ Ep) as (n3 & _ & V3 & O3 & _).
      destruct (O3 _ R2) as (t3 & R3 & _).
      eapply (held_clt _ _ (s4, g4) _ _ _ Ec R3). rewrite (ev_reqs _ _ _ _ V3). exact Q2.
    Qed.
  End Inner.

  Lemma steps_loop_lib W : forall fuel wreqs done_ todo m wreqs' all m', sloop fuel wreqs done_ todo m = Ok (wreqs', all, m') ->
    first_js (jsreqs wreqs) = first_js (jsreqs W) ->
    exists todo' news, all = done_ ++ todo' ++ news /\
      Forall2 (fun st st' => startswith "_expression" (ws_id st) = true \/
                 forall t, ws_run st = RTool t -> t_kind t = KClt -> held W st t st') todo todo'.
  Proof.
    induction fuel as [|fuel IH]; intros wreqs done_ todo m wreqs' all m' E S; cbn [steps_loop] in E.
    { destruct todo; [|discriminate]. injection E as <- <- <-. exists [], []. rewrite !app_nil_r. split; auto. }
    destruct todo as [|st todo].
    { injection E as <- <- <-. exists [], []. rewrite !app_nil_r. split; auto. }
    destruct (startswith "_expression" (ws_id st)) eqn:Sk.
    { destruct (IH _ _ _ _ _ _ _ E S) as (t' & news & A1 & A2). rewrite <- app_assoc in A1. exists (st :: t'), news.
      split; auto. }
    binv E r Er. destruct r as [[[st' gen] ms] sub].
    destruct (IH _ _ _ _ _ _ _ E) as (t' & news & A1 & A2); [destruct sub; [rewrite need_subwf_first|]; exact S|].
    apply Forall2_app_inv_l in A2. destruct A2 as (t1 & g1 & A2 & A2g & ->).
    rewrite <- !app_assoc in A1. exists (st' :: t1), (g1 ++ news). split; [exact A1|]. constructor; auto.
    right. intros t R K. eapply held_step; eauto.
  Qed.

  (** ** C84: the library of an outputEval

      The step made for the outputEval of a tool has the library of the workflow if that declares
      JavaScript, otherwise that of the step, otherwise that of the tool, otherwise none. *)
  Theorem C84_output_library : forall fuel w w' m, refactored fuel w = Ok (w', m) ->
    exists olds news, wf_steps w' = olds ++ news /\
      Forall2 (fun st st' => forall t, ~ StartsWith "_expression" (ws_id st) -> RunsTool load_run st t -> t_kind t = KClt ->
                 forall g, Inside (ws_run st') g -> exists lib, Evaluates lib g /\ LibraryOf (places (wf_reqs w) st t) lib)
        (wf_steps w) olds.
  Proof.
    unfold traverse_workflow. intros fuel w w' m E. binv E ls El. binv E r Er. destruct r as [[wr1 s1] m1].
    binv E u Eu. binv E p Ep. destruct p as [[outs s2] m2]. binv E q Eqq. destruct q as [[wr3 s3] m3].
    injection E as <- <-. cbn [wf_steps].
    apply mapM_Forall2 in El.
    assert (Lo : Forall2 (fun st st0 => exists ml, load_step load_run replace_etool st = Ok (st0, ml)) (wf_steps w) (map fst ls)).
    { clear - El. induction El as [|st (st', ml) a b H F IH]; cbn; constructor; eauto. }
    destruct (steps_loop_lib (wf_reqs w) _ _ _ _ _ _ _ _ Er eq_refl) as (t' & n1 & A1 & A2). cbn [app] in A1.
    destruct (pick_loop_ok _ _ _ _ _ _ _ _ _ _ Ep) as (outs' & n2 & B1 & B2 & _).
    destruct (process_reqs_finished _ _ _ _ _ _ _ _ _ _ Eqq) as (n3 & C1 & C2).
    rewrite B2, A1, <- !app_assoc in C2. apply Forall2_app_inv_l in C2. destruct C2 as (olds & news & C2 & C2n & Es3).
    exists olds, news. split; auto.
    clear - Lo A2 C2. revert t' olds A2 C2. induction Lo as [|a b la lb H L IH]; intros t' olds A2 C2.
    - inversion A2; subst. inversion C2; subst. constructor.
    - inversion A2 as [|? c ? lc F1 F2]; subst. inversion C2 as [|? d ? ld G1 G2]; subst. constructor; [|eauto].
      intros t N Rt K g G. destruct H as (ml & H).
      assert (L0 : b = with_run (ws_run b) a) by (apply load_step_ok in H; apply H).
      assert (R0 : ws_run b = RTool t).
      { unfold load_step in H. destruct Rt as [Rt | (u & ml' & Rt & Lt)]; rewrite Rt in H.
        - unfold is_etool in H. rewrite K in H. cbn in H. injection H as <- <-. exact Rt.
        - rewrite Lt in H. cbn in H. injection H as <- <-. reflexivity. }
      destruct F1 as [F1 | F1].
      { destruct N. apply startswith_spec. rewrite L0 in F1. exact F1. }
      destruct (F1 t R0 K) as (_ & F3). rewrite (ex_run _ _ _ (proj1 G1)) in G. specialize (F3 g G).
      unfold right_lib in F3. rewrite L0 in F3. exact F3.
  Qed.
End Step.
Print Assumptions C84_output_library.

(** a case: the tool declares a library; then the step another one; then the workflow as well *)
Definition lib_workflow (wreqs sreqs : option (list wreq)) : workflow :=
  {| wf_inputs := wf_inputs (rich_workflow one_eval SNone); wf_outputs := [];
     wf_steps := [{| ws_id := "w.cwl#s"; ws_in := two_inputs; ws_run := RTool (tool_reqs (Some [RJs (Some ["t"])]) one_eval);
                     ws_scatter := SNone; ws_scatterMethod := None; ws_when := None; ws_reqs := sreqs |}];
     wf_reqs := wreqs |}.
Definition output_lib (w : workflow) : option (option (list wreq)) :=
  match demo_run [] w with
  | Ok (w', _) => match first_sub w' with Some s => Some (t_reqs (sb_gen_tool s)) | None => None end
  | Err _ => None
  end.
Example C84_output_library_case :
  output_lib (lib_workflow None None) = Some (Some [RJs (Some ["t"])]) /\
  output_lib (lib_workflow (Some [RStepExpr]) (Some [RJs (Some ["s"])])) = Some (Some [RJs (Some ["s"])]) /\
  output_lib (lib_workflow (Some [RJs (Some ["w"])]) (Some [RJs (Some ["s"])])) = Some (Some [RJs (Some ["w"])]) /\
  LibraryOf (places false None (rich_step [] SNone one_eval) (tool_reqs (Some [RSubwf; RJs (Some ["t"]); RJs None]) one_eval)) (Some ["t"]).
Proof.
  split; [vm_compute; reflexivity|]. split; [vm_compute; reflexivity|]. split; [vm_compute; reflexivity|].
  apply LO_next; [intros x []|]. apply LO_next; [intros x []|]. apply LO_here. exists [RSubwf], [RJs None]. split; [reflexivity|].
  intros x [X|[]]. discriminate X.
Qed.
