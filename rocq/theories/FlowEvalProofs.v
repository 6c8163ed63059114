(** * Proofs about outputEval *)
From Verif Require Import PyBase PyBaseProofs PackModel ExprModel EvalModel RefactorModel RefactorSpec RefactorProofs
  FlowModel FlowSpec FlowProofs FlowProofs2 FlowTrace FlowValueSpec FlowValueProofs FlowReqSpec FlowReqProofs FlowReqProofs2
  FlowToolSpec FlowToolProofs FlowToolProofs2 FlowToolProofs3 FlowEvalSpec.

(** later: more inputs, the same [when] *)
Definition later (a b : wstep) : Prop := grows a b /\ ws_when b = ws_when a.
Lemma later_refl a : later a a.
Proof. split; [apply grows_refl | reflexivity]. Qed.
Lemma later_trans a b c : later a b -> later b c -> later a c.
Proof. intros (A & B) (C & D). split; [eapply grows_trans; eauto | congruence]. Qed.

Lemma plain_names_b l : filter (fun n => negb (startswith "_" n)) l = plain_names l.
Proof. unfold plain_names. induction l as [|x l IH]; cbn; [reflexivity|]. rewrite underscored_b, IH. reflexivity. Qed.
Lemma param_names {A} (f : A -> string) l : Forall2 (fun p x => ParamName (f p) x) l (map (fun p => basename (after_hash (f p))) l).
Proof. induction l; cbn; constructor; auto. exists (after_hash (f a)). split; [apply after_hash_frag | apply basename_LastPart]. Qed.
Lemma by_name_b l : filter (fun i => negb (startswith "_" (si_id i))) (map by_name l) = map by_name (filter (fun i => negb (underscored (name_of i))) l).
Proof. induction l as [|i l IH]; cbn; [reflexivity|]. rewrite <- underscored_b. destruct (underscored (name_of i)); cbn; rewrite IH; reflexivity. Qed.

Section Outputs.
  Variable gx : json -> json -> json -> result (option string).
  Variable replace_etool skip1 skip2 : bool.
  Variables (st0 : wstep) (t0 : tool).

  Lemma visible_append name r l : VisibleOutputs r l -> VisibleOutputs (append_run_input name r) l.
  Proof. destruct r; cbn; auto. Qed.
  Lemma layers_append fin name t' : forall r l, Layers st0 fin t0 t' l r ->
    exists t2, Layers st0 fin t0 t2 l (append_run_input name r) /\ t_outputs t2 = t_outputs t'.
  Proof.
    intros r l L. induction L as [|o e l s [A B (bf & af & n & outs & C) D E F G] L (t2 & IH & O)].
    - eexists. split; [constructor|]. reflexivity.
    - exists t2. split; [|exact O]. cbn [append_run_input]. constructor; [|exact IH]. split; auto.
      exists bf, af, n, outs. destruct C as (C1 & C2 & C3 & C4 & C5). repeat (split; [assumption|]). split; [|exact C5]. apply visible_append. exact C4.
  Qed.

  Record sofar (cur : wstep) (evs : list (toutput * string)) : Prop := {
    sf_id : ws_id cur = ws_id st0;
    sf_len : List.length (ws_in st0) <= List.length (ws_in cur);
    sf_method : ws_scatterMethod cur = ws_scatterMethod st0;
    sf_run : exists t', (forall fin, later cur fin -> Layers st0 fin t0 t' (rev evs) (ws_run cur)) /\
      match evs with [] => t_outputs t' = t_outputs t0 | _ => Forall2 (OutEval evs) (t_outputs t0) (t_outputs t') end }.

  Lemma sofar_append cur evs name e : sofar cur evs -> sofar (add_in e (append_tool_input name cur)) evs.
  Proof.
    intros [A B C (t' & D & F)]. split; cbn; auto; [rewrite app_length; lia|].
    destruct (layers_append (add_in e (append_tool_input name cur)) name t' _ _ (D (add_in e (append_tool_input name cur)) ltac:(split; [split; [reflexivity | exists [e]; reflexivity] | reflexivity])))
      as (t2 & _ & O).
    destruct (layers_append cur name t' _ _ (D cur (later_refl _))) as (t3 & L3 & O3).
    exists t3. split; [|rewrite O3; exact F]. intros fin G.
    assert (Gc : later cur fin) by (eapply later_trans; [|exact G]; split; [split; [reflexivity | exists [e]; reflexivity] | reflexivity]).
    destruct (layers_append fin name t' _ _ (D fin Gc)) as (t4 & L4 & _).
    assert (X : t4 = t3).
    { clear - L3 L4. revert L3 L4. generalize (rev evs) (append_run_input name (ws_run cur)). intros l r L3. revert t4 fin.
      induction L3; intros t4 fin L4; inversion L4; subst; eauto. }
    subst t4. exact L4.
  Qed.

  Lemma moved_eval out_id t1 o0 e evs : t_outputs t1 = t_outputs t0 -> out_id = after_hash (to_id o0) -> evs = [(o0, e)] ->
    exists t2, moved_run skip1 out_id (RTool t1) = RTool t2 /\ Forall2 (OutEval evs) (t_outputs t0) (t_outputs t2).
  Proof.
    intros O -> ->. cbn [moved_run]. eexists. split; [reflexivity|]. cbn [t_outputs].
    replace (t_outputs (if skip1 then t1 else remove_js t1)) with (t_outputs t0) by (rewrite <- O; destruct skip1; reflexivity).
    clear. induction (t_outputs t0) as [|o l IH]; cbn; constructor; auto. split; [right; apply after_hash_frag|]. split; [reflexivity|]. cbn [to_eval to_contents].
    destruct (String.eqb_spec (after_hash (to_id o)) (after_hash (to_id o0))) as [Q|Q].
    - split; [auto|]. intros N. destruct N. exists (after_hash (to_id o)). split; [apply after_hash_frag | rewrite Q; apply after_hash_frag].
    - split; [|auto]. intros (n & A & B). apply after_hash_Fragment in A, B. congruence.
  Qed.

  Lemma outs_of_moved out_id r : exists outs, VisibleOutputs (moved_run skip1 out_id r) outs /\
    filter (fun n => negb (startswith "_" n)) (match r with RTool t => map (fun o => basename (after_hash (to_id o))) (t_outputs t)
      | RSub s => map fst (sb_outputs s) | RUri _ => [] end) = outs.
  Proof.
    eexists. split; [|reflexivity]. rewrite plain_names_b. destruct r as [u|t|s]; cbn [moved_run VisibleOutputs]; auto.
    eexists. split; [|reflexivity]. cbn [t_outputs].
    replace (t_outputs (if skip1 then t else remove_js t)) with (t_outputs t) by (destruct skip1; reflexivity).
    induction (t_outputs t) as [|o l IH]; cbn; constructor; auto. cbn [to_id]. exists (after_hash (to_id o)).
    split; [apply after_hash_Fragment, after_hash_twice | apply basename_LastPart].
  Qed.

  Lemma sub_layer wreqs cur o e fin : ws_id cur = ws_id st0 -> List.length (ws_in st0) <= List.length (ws_in cur) ->
    ws_scatterMethod cur = ws_scatterMethod st0 -> later cur fin -> Layer st0 fin t0 o e (sub_workflow replace_etool skip1 wreqs t0 cur o e).
  Proof.
    intros A B C ((D & more & E) & F). split.
    - cbn [sub_workflow sb_id]. rewrite A. apply after_hash_frag.
    - eexists. split; [apply param_names|]. cbn [sub_workflow sb_inputs run_input_ids]. apply plain_names_b.
    - destruct (outs_of_moved (after_hash (to_id o)) (ws_run cur)) as (outs & V & O).
      exists (ws_in cur), more, (after_hash (to_id o)), outs. split; [exact E|]. split; [exact B|]. split; [apply after_hash_frag|].
      split; [exact V|]. split; [reflexivity|]. cbn [sub_workflow sb_in sb_gen_in sb_outputs sb_id sb_gen].
      assert (M : map (fun i => {| si_id := basename (si_id i); si_source := SOne (basename (si_id i)); si_valueFrom := si_valueFrom i;
                        si_linkMerge := None; si_default := si_default i |}) (ws_in cur) = map by_name (ws_in cur)).
      { apply map_ext. intros i. unfold by_name, name_of. rewrite basename_last_part. reflexivity. }
      rewrite M. split; [reflexivity|]. split; [rewrite by_name_b; reflexivity|]. unfold sub_outputs. rewrite O. reflexivity.
    - eexists. split; [reflexivity|]. cbn [sub_workflow sb_gen_tool]. destruct replace_etool; [right; split; [reflexivity|]; eexists; reflexivity|left; split; reflexivity].
    - cbn [sub_workflow sb_gen_tool sb_inputs]. destruct replace_etool; cbn [etool_to_cltool etool t_inputs]; rewrite ?map_map; cbn [map ti_id];
        rewrite ?map_map; cbn [ti_id]; f_equal; apply map_id.
    - cbn. congruence.
    - cbn. exact C.
  Qed.

  Lemma output_layers wreqs sid inputs l : forall cur gen st' gen' m sub evs,
    output_loop gx replace_etool skip1 skip2 wreqs sid inputs t0 l (cur, gen) = Ok ((st', gen'), m, sub) -> sofar cur evs ->
    exists more, (if skip2 then more = [] else EvalsOf gx l more) /\ later cur st' /\ sofar st' (evs ++ more).
  Proof.
    induction l as [|o l IH]; intros cur gen st' gen' m sub evs E S; cbn [output_loop] in E.
    { injection E as <- <- <- <-. exists []. rewrite app_nil_r. split; [destruct skip2; constructor|]. split; [apply later_refl | exact S]. }
    binv E x Ex. cbn zeta in E. binv E y Ey.
    match type of E with context [match y with None => Ok ?w | Some _ => _ end] => set (w1 := w) in E end.
    assert (W1 : later cur (fst w1) /\ sofar (fst w1) evs).
    { subst w1. destruct x as [expr|]; cbn [fst]; [|split; [apply later_refl | exact S]].
      split; [split; [split; [reflexivity | eexists; reflexivity] | reflexivity]|]. apply sofar_append. exact S. }
    destruct W1 as (L1 & S1). clearbody w1. binv E w2 E2. binv E r Er. destruct r as [[[st3 gen3] m3] sub3]. injection E as <- <- <- <-. cbn [fst snd].
    assert (W2 : exists m1, (if skip2 then m1 = [] else forall more, EvalsOf gx l more -> EvalsOf gx (o :: l) (m1 ++ more)) /\
              later (fst w1) (fst w2) /\ sofar (fst w2) (evs ++ m1)).
    { destruct y as [expr|].
      - destruct skip2; [discriminate|]. destruct (existsb _ _); [discriminate|]. injection E2 as <-. cbn [fst].
        destruct (filled (to_eval o)) as [v|] eqn:Fv; [|discriminate]. apply filled_Some in Fv. destruct Fv as (V & Nv).
        unfold find_expr in Ey. binv Ey z Ez. injection Ey as Ey. apply filled_Some in Ey. destruct Ey as (-> & Nx).
        exists [(o, expr)]. split.
        { intros more M. cbn. eapply EO_moved; eauto. split; eauto. }
        split; [split; [apply grows_run | reflexivity]|]. destruct S1 as [A B C (t' & D & F)]. split; cbn [with_run ws_id ws_in ws_scatterMethod ws_run]; auto.
        assert (Dc : forall fin, later (with_run (RSub (sub_workflow replace_etool skip1 wreqs t0 (fst w1) o expr)) (fst w1)) fin -> later (fst w1) fin).
        { intros fin ((X & Y) & Z). split; [split; [exact X | exact Y] | exact Z]. }
        destruct evs as [|ev evs].
        + specialize (D (fst w1) (later_refl _)) as D0. inversion D0 as [R00 R0|]; subst.
          destruct (moved_eval _ t' o expr _ F eq_refl eq_refl) as (t2 & M1 & M2). exists t2. split; [|exact M2].
          intros fin G. cbn [app rev]. constructor; [apply sub_layer; auto|]. cbn [sub_workflow sb_run]. rewrite <- R0, M1. constructor.
        + exists t'. split.
          * intros fin G. rewrite rev_app_distr. cbn [rev app]. constructor; [apply sub_layer; auto|]. cbn [sub_workflow sb_run].
            specialize (D fin (Dc fin G)). inversion D as [Q1 Q2|o1 e1 l1 s1 X1 X2 Q1 Q2]; [destruct (app_cons_not_nil (rev evs) [] ev Q1)|].
            cbn [moved_run]. rewrite Q1, Q2. exact D.
          * clear - F. destruct ev. eapply Forall2_mono; [|exact F]. cbn. intros a b (X1 & X2 & X3). split; auto.
      - injection E2 as <-. exists []. rewrite app_nil_r. split; [|split; [apply later_refl | exact S1]].
        destruct skip2; [reflexivity|]. intros more M. cbn. apply EO_kept; auto. intros s Es. rewrite Es in Ey. cbn [filled] in Ey.
        destruct (String.eqb s "") eqn:Ns; [left; apply String.eqb_eq; exact Ns|]. right.
        unfold find_expr in Ey. binv Ey z Ez. injection Ey as Ey. eexists _, _, z. split; [exact Ez|].
        destruct z as [s'|]; auto. cbn in Ey. destruct (String.eqb_spec s' "") as [->|]; auto; discriminate. }
    destruct W2 as (m1 & X1 & L2 & S2). destruct w2 as [st2 gen2]. cbn [fst snd] in *.
    destruct (IH _ _ _ _ _ _ _ Er S2) as (more & Y1 & Y2 & Y3). exists (m1 ++ more). split.
    - destruct skip2; [subst; reflexivity|]. apply X1. exact Y1.
    - split; [|rewrite app_assoc; exact Y3]. eapply later_trans; [exact L1|]. eapply later_trans; [exact L2 | exact Y2].
  Qed.

  Lemma clt_layers wreqs cur gen st' gen' m sub t1 :
    traverse_clt gx replace_etool skip1 skip2 wreqs t0 (cur, gen) = Ok ((st', gen'), m, sub) -> ws_id st0 <> "" ->
    ws_id cur = ws_id st0 -> List.length (ws_in st0) <= List.length (ws_in cur) -> ws_scatterMethod cur = ws_scatterMethod st0 ->
    ws_run cur = RTool t1 -> t_outputs t1 = t_outputs t0 ->
    exists evs, (if skip2 then evs = [] else EvalsOf gx (t_outputs t0) evs) /\ sofar st' evs.
  Proof.
    unfold traverse_clt. cbn [fst]. intros E Nid A B C R O. apply String.eqb_neq in Nid. rewrite <- A in Nid. rewrite Nid in E.
    binv E a Ea. binv E b Eb. binv E c Ec. binv E d Ed. binv E e Ee.
    destruct a as [[sa ga] ma], b as [[sb gb] mb], c as [[sc gc] mc], d as [[sd gd] md], e as [[[se ge] me] sube].
    cbn [fst snd] in *. injection E as <- <- <- <-.
    pose (nm := fun _ : string => True). assert (Nm : forall r, nm ("_expression_" ++ after_hash (ws_id cur) ++ String "_" r)%string) by (intros; exact I).
    assert (Aa : exists new, evolves nm cur sa new /\ same_outs (ws_run cur) (ws_run sa)).
    { destruct skip1.
      - injection Ea as <- <- <-. exists []. split; [apply evolves_refl | apply same_outs_refl].
      - destruct (arg_loop_evolves nm _ _ _ _ Nm _ _ _ _ _ _ _ _ Ea) as (na & _ & Va & Oa & _). eauto. }
    destruct Aa as (na & Va & Oa).
    destruct (stream_evolves nm _ _ _ _ Nm _ _ _ _ _ _ _ _ Eb) as (nb & _ & Vb & Ob & _).
    destruct (stream_evolves nm _ _ _ _ Nm _ _ _ _ _ _ _ _ Ec) as (nc & _ & Vc & Oc & _).
    destruct (binding_evolves nm _ _ _ _ _ Nm _ _ _ _ _ _ _ Ed) as (nd & _ & Vd & Od & _).
    pose proof (evolves_trans _ _ _ _ _ _ Va (evolves_trans _ _ _ _ _ _ Vb (evolves_trans _ _ _ _ _ _ Vc Vd))) as V.
    pose proof (same_outs_trans _ _ _ Oa (same_outs_trans _ _ _ Ob (same_outs_trans _ _ _ Oc Od))) as O4.
    destruct (O4 _ R) as (td & Rd & Otd & _).
    assert (S : sofar sd []).
    { destruct V as [V1 V2 V3 V4 V5 (x & V6 & V7) V8]. split; try congruence.
      - rewrite V6, app_length. lia.
      - exists td. split; [|congruence]. intros fin _. rewrite Rd. constructor. }
    destruct (output_layers _ _ _ _ _ _ _ _ _ _ _ Ee S) as (more & X1 & X2 & X3). exists more. split; auto.
  Qed.
End Outputs.

Lemma Layer_other st st2 fin t o e s : ws_id st2 = ws_id st -> ws_in st2 = ws_in st -> ws_scatterMethod st2 = ws_scatterMethod st ->
  Layer st fin t o e s -> Layer st2 fin t o e s.
Proof. intros A B C [X1 X2 X3 X4 X5 X6 X7]. split; auto; rewrite ?A, ?B, ?C; auto. Qed.
Lemma Layers_other st st2 fin t t' : ws_id st2 = ws_id st -> ws_in st2 = ws_in st -> ws_scatterMethod st2 = ws_scatterMethod st ->
  forall l r, Layers st fin t t' l r -> Layers st2 fin t t' l r.
Proof. intros A B C l r L. induction L; constructor; auto. eapply Layer_other; eauto. Qed.
Lemma Layers_inner st fin t t' l r : Layers st fin t t' l r -> inner r = Some t'.
Proof. intros L. induction L; cbn; auto. Qed.

Section Steps.
  Variable gx : json -> json -> json -> result (option string).
  Variable ev : string -> json -> result json.
  Variable src_example : list wstep -> wstep -> src -> result json.
  Variable self_example : list wstep -> wstep -> src -> result json.
  Variable src_params : list wstep -> src -> result nat.
  Variable src_known : list wstep -> wstep -> string -> result unit.
  Variable out_known : list wstep -> src -> result unit.
  Variable load_run : string -> result (tool * bool).
  Variable attrs : list string.
  Variable replace_etool skip1 skip2 : bool.
  Notation tstep := (traverse_step gx src_example self_example src_params src_known attrs replace_etool skip1 skip2).

  Lemma value_loop_method wreqs pre post mock t ins : forall todo st done_ gen st' gen',
    value_loop gx self_example src_params src_known replace_etool wreqs pre post st mock t ins done_ todo gen = Ok (st', gen') ->
    ws_scatterMethod st' = ws_scatterMethod st.
  Proof.
    induction todo as [|inp todo IH]; intros st done_ gen st' gen' E; cbn [value_loop] in E.
    { injection E as <- <-. reflexivity. }
    destruct (filled (si_valueFrom inp)) as [text|]; [|eapply IH; exact E].
    cbn zeta in E. binv E self Es. binv E x Ex. destruct x as [expr|]; [|eapply IH; exact E].
    destruct (negb (has_input t (si_id inp))); [discriminate|]. binv E k Ek. binv E g Eg.
    apply IH in E. exact E.
  Qed.

  Lemma tstep_eval wreqs pre post st st' gen m sub t :
    tstep wreqs pre post st = Ok (st', gen, m, sub) -> ws_id st <> "" -> ws_run st = RTool t -> t_kind t = KClt ->
    exists evs, (if skip2 then evs = [] else EvalsOf gx (t_outputs t) evs) /\ sofar st t st' evs.
  Proof.
    intros T Nid R K. assert (Ke : is_etool t = false) by (unfold is_etool; rewrite K; reflexivity).
    revert T. unfold traverse_step. intros E. binv E mock Em. pose proof Nid as Nid'. apply String.eqb_neq in Nid'. rewrite Nid' in E.
    binv E v Ev. destruct v as [s1 g1]. binv E x Ex. binv E w Ew. binv E p Ep. binv E c Ec.
    destruct w as [s2 g2], p as [[s3 g3] m3], c as [[[s4 g4] m4] sub4]. cbn [fst snd] in *. injection E as <- <- <- <-.
    pose proof (value_loop_method _ _ _ _ _ _ _ _ _ _ _ _ Ev) as M1.
    rewrite R in Ev, Ep, Ec. rewrite (proj2 (is_clt_kind t) K) in Ec.
    destruct (value_loop_run _ _ _ _ _ _ _ _ _ _ _ Ke _ _ _ _ _ _ Ev) as (R1 & I1 & L1). cbn [app] in L1.
    assert (S2 : ws_id s2 = ws_id st /\ List.length (ws_in st) <= List.length (ws_in s2) /\ ws_run s2 = RTool t /\ ws_scatterMethod s2 = ws_scatterMethod st).
    { destruct x as [expr|].
      - binv Ew r Er. destruct r as [s2' gw]. cbn [fst snd] in Ew. injection Ew as <- <-. apply when_ok in Er. destruct Er as (-> & _ & _).
        cbn [add_in with_in with_when ws_id ws_in ws_run ws_scatterMethod]. rewrite app_length, L1, I1, R1, R. split; [reflexivity|].
        split; [lia|]. auto.
      - injection Ew as <- <-. rewrite I1, L1, R1, R. auto. }
    destruct S2 as (I2 & L2 & R2 & C2).
    pose (nm := fun _ : string => True). 
    destruct (level_reqs_evolves nm _ _ _ _ _ _ _ (fun _ => I) _ _ _ _ Ep) as (n3 & _ & V3 & O3 & _).
    destruct (O3 _ R2) as (t3 & R3 & Ot3 & _).
    destruct V3 as [V1 V2 V3 V4 V5 (y & V6 & V7) V8].
    eapply clt_layers; [exact Ec | exact Nid | congruence | rewrite V6, app_length; lia | congruence | exact R3 | exact Ot3].
  Qed.

  Theorem eval_workflow fuel w w' m :
    traverse_workflow gx ev src_example self_example src_params src_known out_known load_run attrs replace_etool skip1 skip2 fuel w
      = Ok (w', m) ->
    exists olds news, wf_steps w' = olds ++ news /\
      Forall2 (fun st st' => forall t, ~ StartsWith "_expression" (ws_id st) -> ws_id st <> "" -> RunsTool load_run st t -> t_kind t = KClt ->
                 exists t', inner (ws_run st') = Some t' /\ EvalMoved gx st st' t t' skip2) (wf_steps w) olds.
  Proof.
    intros E. apply workflow_visits_loaded in E. destruct E as (olds & news & new & A1 & A2). exists olds, news. split; auto.
    eapply Forall2_mono; [|exact A2]. clear A1 A2. intros st st' (st0 & (ml & L) & V) t Ns Nid Rt K.
    assert (L0 : st0 = with_run (ws_run st0) st) by (apply load_step_ok in L; apply L).
    inversion V as [? ? Sk _ | wreqs pre post ? st1 ? gen m1 sub Sk T F G]; subst.
    { destruct Ns. apply startswith_spec. rewrite L0 in Sk. exact Sk. }
    assert (R0 : ws_run st0 = RTool t).
    { unfold load_step in L. destruct Rt as [Rt | (u & ml' & Rt & Lt)]; rewrite Rt in L.
      - unfold is_etool in L. rewrite K in L. cbn in L. injection L as <- <-. exact Rt.
      - rewrite Lt in L. cbn in L. injection L as <- <-. reflexivity. }
    assert (I0 : ws_id st0 = ws_id st) by (rewrite L0; reflexivity).
    rewrite <- I0 in Nid.
    destruct (tstep_eval _ _ _ _ _ _ _ _ t T Nid R0 K) as (evs & X1 & [_ _ _ (t' & Lt & Ot)]). exists t'.
    assert (Gf : later st1 st').
    { destruct F as ([X2 Y1 Y2 Y3 Y4 Y5 (extra & Y6 & _)] & _). split; [split; eauto | congruence]. }
    specialize (Lt _ Gf). rewrite <- (ex_run _ _ _ (proj1 F)) in Lt. split; [eapply Layers_inner; eauto|].
    exists evs. split; [exact X1|]. split.
    - eapply Layers_other; [| | | exact Lt]; rewrite L0; reflexivity.
    - destruct evs as [|ev0 evs]; [|exact Ot]. rewrite Ot. apply Forall2_refl. intros o. split; [left; reflexivity | auto].
  Qed.
End Steps.
