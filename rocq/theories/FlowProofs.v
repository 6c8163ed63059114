(** * Proofs about the refactoring of workflows: what happens to one step *)
From Verif Require Import PyBase PyBaseProofs PackModel ExprModel EvalModel RefactorModel RefactorSpec RefactorProofs FlowModel FlowSpec.

Lemma bind_inv {A B} (r : result A) (f : A -> result B) y : bind r f = Ok y -> exists x, r = Ok x /\ f x = Ok y.
Proof. destruct r; cbn; [eauto | discriminate]. Qed.
Ltac binv H x E := apply bind_inv in H; destruct H as (x & E & H).

(** ** Steps that evolve *)
Definition fed (new : list wstep) (e : sinput) : Prop :=
  startswith "_" (si_id e) = true /\ si_valueFrom e = None /\
  (si_source e = SNone \/ exists g, In g new /\ si_source e = SOne (ws_id g ++ "/result")).
(** the one output, without an outputEval *)
Definition plain_result : toutput := {| to_id := "result"; to_glob := JNull; to_eval := None; to_contents := false |}.
Definition gives (g : wstep) : Prop := exists t, ws_run g = RTool t /\ t_outputs t = [plain_result].
Lemma gives_GivesResult g : gives g -> GivesResult g.
Proof. intros (t & R & O). exists t. rewrite O. auto. Qed.
Section Names.
(** the names the generated steps may have *)
Variable nm : string -> Prop.
Definition made (ins : list sinput) (g : wstep) : Prop :=
  nm (ws_id g) /\ gives g /\
  forall i, In i (ws_in g) -> exists j, In j ins /\ si_source i = si_source j.

Record evolves (st st' : wstep) (new : list wstep) : Prop := {
  ev_id : ws_id st' = ws_id st;
  ev_scatter : ws_scatter st' = ws_scatter st;
  ev_method : ws_scatterMethod st' = ws_scatterMethod st;
  ev_when : ws_when st' = ws_when st;
  ev_reqs : ws_reqs st' = ws_reqs st;
  ev_in : exists extra, ws_in st' = ws_in st ++ extra /\ Forall (fed new) extra;
  ev_new : Forall (made (ws_in st')) new }.

Definition same_outs (r r' : run) : Prop :=
  forall t, r = RTool t -> exists t', r' = RTool t' /\ t_outputs t' = t_outputs t /\ t_kind t' = t_kind t.
Lemma same_outs_refl r : same_outs r r.
Proof. intros t ->. eauto. Qed.
Lemma same_outs_trans a b c : same_outs a b -> same_outs b c -> same_outs a c.
Proof.
  intros H K t E. destruct (H t E) as (t1 & E1 & O1 & Q1). destruct (K t1 E1) as (t2 & E2 & O2 & Q2).
  exists t2. repeat split; congruence.
Qed.

Lemma fed_mono n1 n2 e : (forall g, In g n1 -> In g n2) -> fed n1 e -> fed n2 e.
Proof. intros S (A & B & [C | (g & G & C)]); repeat split; auto; right; eauto. Qed.
Lemma made_mono i1 i2 g : (forall j, In j i1 -> In j i2) -> made i1 g -> made i2 g.
Proof. intros S (A & B & C). repeat split; auto. intros i H. destruct (C i H) as (j & J & E). eauto. Qed.

Lemma evolves_refl st : evolves st st [].
Proof. split; auto. exists []. rewrite app_nil_r. auto. Qed.
Lemma evolves_trans a b c n1 n2 : evolves a b n1 -> evolves b c n2 -> evolves a c (n1 ++ n2).
Proof.
  intros [A1 A2 A3 A4 A5 (x1 & A6 & A7) A8] [B1 B2 B3 B4 B5 (x2 & B6 & B7) B8].
  split; try congruence.
  - exists (x1 ++ x2). split; [rewrite B6, A6, app_assoc; auto|]. apply Forall_app. split.
    + eapply Forall_impl; [|exact A7]. intros e. apply fed_mono. intros g G. apply in_or_app; auto.
    + eapply Forall_impl; [|exact B7]. intros e. apply fed_mono. intros g G. apply in_or_app; auto.
  - apply Forall_app. split; auto. eapply Forall_impl; [|exact A8]. intros g. apply made_mono.
    rewrite B6. intros j J. apply in_or_app; auto.
Qed.
(** changing only what is run *)
Lemma evolves_run st r : evolves st (with_run r st) [].
Proof. split; auto. exists []. rewrite app_nil_r. auto. Qed.
Lemma evolves_add st e new : fed new e -> Forall (made (ws_in st ++ [e])) new -> evolves st (add_in e st) new.
Proof. intros H K. split; auto. exists [e]. auto. Qed.

Lemma startswith_more p a b : startswith p a = true -> startswith p (a ++ b)%string = true.
Proof. rewrite !startswith_spec. intros (r & ->). exists (r ++ b)%string. rewrite sapp_assoc. reflexivity. Qed.

Lemma tool_choice_gives (b : bool) ps reqs text lib :
  t_outputs (if b then etool_to_cltool (etool ps reqs text) lib else etool ps reqs text) = [plain_result].
Proof. destruct b; reflexivity. Qed.

Lemma tool_expr_made b wreqs st name self expr ins :
  nm name -> (forall j, In j (ws_in st) -> In j ins) ->
  made ins (tool_expr_step b wreqs st name self expr).
Proof.
  intros N S. split; [exact N|]. split; [eexists; split; [reflexivity | apply tool_choice_gives]|].
  intros i H. cbn [tool_expr_step gen_step ws_in] in H. apply filter_In in H. destruct H as (H & _).
  apply in_map_iff in H. destruct H as (j & <- & J). exists j. auto.
Qed.
Lemma expr_made b procs name expr ins : nm name -> made ins (expr_step b procs name SNone expr).
Proof.
  intros N. split; [exact N|]. split; [eexists; split; [reflexivity | apply tool_choice_gives]|]. intros i [].
Qed.

(** the step [g] is made, the tool changed somehow, and an input fed by it added *)
Lemma evolves_one st g e r : fed [g] e -> made (ws_in st) g -> evolves st (add_in e (with_run r st)) [g].
Proof.
  intros F M. split; auto.
  - exists [e]. auto.
  - constructor; auto. eapply made_mono; [|exact M]. intros j J. cbn. apply in_or_app; auto.
Qed.

Lemma append_tool_input_run n st : append_tool_input n st = with_run (ws_run (append_tool_input n st)) st.
Proof. unfold append_tool_input. destruct st as [? ? []]; reflexivity. Qed.
Lemma add_tool_input_run n st : add_tool_input n st = with_run (ws_run (add_tool_input n st)) st.
Proof. unfold add_tool_input. destruct st as [? ? [|t|]]; try reflexivity. cbn. destruct (is_clt t); reflexivity. Qed.
Lemma append_same_outs n st : same_outs (ws_run st) (ws_run (append_tool_input n st)).
Proof. unfold append_tool_input. intros t E. rewrite E. cbn. eauto. Qed.
Lemma add_same_outs n st : same_outs (ws_run st) (ws_run (add_tool_input n st)).
Proof. unfold add_tool_input. intros t E. rewrite E. destruct (is_clt t); cbn; eauto. Qed.

Lemma with_run_twice r r' st : with_run r (with_run r' st) = with_run r st.
Proof. reflexivity. Qed.
Lemma add_in_run e r st : add_in e (with_run r st) = with_run r (add_in e st).
Proof. reflexivity. Qed.

Section Step.
  Variable gx : json -> json -> json -> result (option string).
  Variable attrs : list string.
  Variable replace_etool skip1 skip2 : bool.

  (** *** arguments *)
  Lemma arg_loop_evolves wreqs sid (Nm : forall r, nm ("_expression_" ++ sid ++ String "_" r)) inputs l : forall k st gen st' gen' m,
    arg_loop gx replace_etool wreqs sid inputs k l (st, gen) = Ok ((st', gen'), m) ->
    exists new, gen' = gen ++ new /\ evolves st st' new /\ same_outs (ws_run st) (ws_run st') /\
      (m = false -> st' = st /\ new = []).
  Proof.
    induction l as [|a l IH]; intros k st gen st' gen' m E; cbn [arg_loop] in E.
    { injection E as <- <- <-. exists []. rewrite app_nil_r. repeat split; auto using evolves_refl, same_outs_refl; apply evolves_refl. }
    binv E x Ex. destruct x as [expr|]; [|eapply IH; exact E].
    binv E st1 E1. destruct (ws_run st) as [u|t|ins] eqn:R; try discriminate E1.
    binv E1 args Ea. injection E1 as <-.
    binv E r Er. destruct r as [[st2 gen2] m2]. injection E as <- <- <-.
    set (inp := ("_arguments_" ++ str_nat k)%string) in *.
    set (name := ("_expression_" ++ sid ++ inp)%string) in *.
    set (g := tool_expr_step replace_etool wreqs st name None expr) in *.
    set (e := match a with AText _ => _ | ABind _ => _ end) in Er.
    match type of Er with arg_loop _ _ _ _ _ _ _ (?s, _) = _ => set (s3 := s) in Er end.
    assert (S3 : evolves st s3 [g] /\ same_outs (ws_run st) (ws_run s3)).
    { assert (Q : s3 = add_in e (with_run (ws_run s3) st)).
      { subst s3. reflexivity. }
      split.
      - rewrite Q. apply evolves_one.
        + subst e. destruct a; (split; [reflexivity | split; [reflexivity |]]); [left; reflexivity | right; exists g; cbn; auto].
        + apply tool_expr_made; auto. apply Nm.
      - intros t' T'. rewrite R in T'. injection T' as <-. subst s3. cbn. eauto. }
    destruct S3 as (V3 & O3). rewrite R in O3.
    destruct (IH _ _ _ _ _ _ Er) as (new & G & V & O & _).
    exists (g :: new). split; [rewrite G, <- app_assoc; reflexivity|]. split; [exact (evolves_trans _ _ _ _ _ V3 V)|].
    split; [eapply same_outs_trans; [exact O3 | exact O]|]. discriminate.
  Qed.
  (** *** streams *)
  Lemma stream_evolves wreqs sid (Nm : forall r, nm ("_expression_" ++ sid ++ String "_" r)) inputs err v st gen st' gen' m :
    stream_expr gx replace_etool wreqs sid inputs err v (st, gen) = Ok ((st', gen'), m) ->
    exists new, gen' = gen ++ new /\ evolves st st' new /\ same_outs (ws_run st) (ws_run st') /\
      (m = false -> st' = st /\ new = []).
  Proof.
    intros E. unfold stream_expr in E.
    assert (N : forall a, Ok ((st, gen), false) = Ok a -> a = ((st', gen'), m) ->
       exists new, gen' = gen ++ new /\ evolves st st' new /\ same_outs (ws_run st) (ws_run st') /\ (m = false -> st' = st /\ new = [])).
    { intros a A B. rewrite B in A. injection A as <- <- <-. exists []. rewrite app_nil_r.
      repeat split; auto using same_outs_refl; apply evolves_refl. }
    destruct (filled v) as [s|]; [|eapply N; [exact E | reflexivity]].
    binv E x Ex. destruct x as [expr|]; [|eapply N; [exact E | reflexivity]]. clear N.
    cbn zeta in E. injection E as <- <- <-.
    set (inp := if err then "_stderr" else "_stdout").
    set (name := ("_expression_" ++ sid ++ inp)%string).
    set (g := tool_expr_step replace_etool wreqs st name None expr).
    exists [g]. split; [reflexivity|]. split; [|split; [|discriminate]].
    - match goal with |- evolves _ (add_in ?e ?s) _ => replace s with (with_run (ws_run s) st) end.
      + apply evolves_one.
        * split; [subst inp; destruct err; reflexivity | split; [reflexivity|]]. right. exists g. cbn; auto.
        * apply tool_expr_made; auto. subst name inp. destruct err; apply Nm.
      + destruct st as [? ? []]; reflexivity.
    - intros t R. cbn. rewrite R. cbn. eauto.
  Qed.

  (** *** input bindings *)
  Lemma binding_evolves wreqs sid (Nm : forall r, nm ("_expression_" ++ sid ++ String "_" r)) inputs l : forall st gen st' gen' m,
    binding_loop gx replace_etool skip1 wreqs sid inputs l (st, gen) = Ok ((st', gen'), m) ->
    exists new, gen' = gen ++ new /\ evolves st st' new /\ same_outs (ws_run st) (ws_run st') /\
      (m = false -> st' = st /\ new = []).
  Proof.
    induction l as [|i l IH]; intros st gen st' gen' m E; cbn [binding_loop] in E.
    { injection E as <- <- <-. exists []. rewrite app_nil_r. repeat split; auto using same_outs_refl; apply evolves_refl. }
    binv E x Ex. destruct x as [expr|]; [|eapply IH; exact E].
    cbn zeta in E. binv E r Er. destruct r as [[st2 gen2] m2]. injection E as <- <- <-.
    set (inp := ("_" ++ after_hash (ti_id i) ++ "_valueFrom")%string) in *.
    set (name := ("_expression_" ++ sid ++ inp)%string) in *.
    set (g := tool_expr_step replace_etool wreqs st name (Some (after_hash (ti_id i))) expr) in *.
    destruct (IH _ _ _ _ _ Er) as (new & G & V & O & _).
    exists (g :: new). split; [rewrite G, <- app_assoc; reflexivity|]. split; [|split; [|discriminate]].
    - refine (evolves_trans _ _ _ [g] _ _ V). rewrite append_tool_input_run. apply evolves_one.
      + split; [apply (startswith_app "_") | split; [reflexivity|]]. right. exists g. cbn; auto.
      + apply tool_expr_made; auto. apply Nm.
    - eapply same_outs_trans; [apply append_same_outs | exact O].
  Qed.

  (** *** outputs *)
  Lemma output_evolves wreqs sid (Nm : forall r, nm ("_expression_" ++ sid ++ String "_" r)) inputs ids l : forall st gen st' gen' m sub,
    output_loop gx replace_etool skip1 skip2 wreqs sid inputs ids l (st, gen) = Ok ((st', gen'), m, sub) ->
    exists new, gen' = gen ++ new /\ evolves st st' new /\
      (Forall (fun o => filled (to_eval o) = None) l -> same_outs (ws_run st) (ws_run st')) /\
      (m = false -> st' = st /\ new = [] /\ sub = false).
  Proof.
    induction l as [|o l IH]; intros st gen st' gen' m sub E; cbn [output_loop] in E.
    { injection E as <- <- <- <-. exists []. rewrite app_nil_r. repeat split; auto using same_outs_refl; apply evolves_refl. }
    binv E x Ex. cbn zeta in E. binv E y Ey.
    match type of E with context [match y with None => Ok ?w | Some _ => _ end] => set (w1 := w) in E end.
    assert (W1 : exists n1, snd w1 = gen ++ n1 /\ evolves st (fst w1) n1 /\ same_outs (ws_run st) (ws_run (fst w1)) /\
                   (x = None -> w1 = (st, gen) /\ n1 = [])).
    { subst w1. destruct x as [expr|].
      - eexists [_]. cbn [fst snd]. split; [reflexivity|]. split; [|split; [|discriminate]].
        + rewrite append_tool_input_run. apply evolves_one.
          * split; [apply (startswith_app "_") | split; [reflexivity|]]. right. eexists. split; [left; reflexivity | reflexivity].
          * apply tool_expr_made; auto. apply Nm.
        + apply append_same_outs.
      - exists []. rewrite app_nil_r. repeat split; auto using same_outs_refl; apply evolves_refl. }
    destruct W1 as (n1 & G1 & V1 & O1 & N1). clearbody w1.
    binv E w2 E2.
    assert (W2 : snd w2 = snd w1 /\ evolves (fst w1) (fst w2) [] /\ (y = None -> w2 = w1)).
    { destruct y as [expr|].
      - destruct (existsb _ _); [discriminate|]. injection E2 as <-. cbn. repeat split; try apply evolves_run. discriminate.
      - injection E2 as <-. repeat split; auto; apply evolves_refl. }
    destruct W2 as (G2 & V2 & N2).
    binv E r Er. destruct r as [[[st3 gen3] m3] sub3]. injection E as <- <- <- <-. cbn [fst snd].
    destruct w2 as [st2 gen2], w1 as [st1 gen1]. cbn [fst snd] in *. subst gen2 gen1.
    destruct (IH _ _ _ _ _ _ Er) as (new & G & V & O & N).
    exists (n1 ++ new). split; [rewrite G, app_assoc; reflexivity|]. split.
    - exact (evolves_trans _ _ _ _ _ V1 (evolves_trans _ _ _ [] _ V2 V)).
    - split.
      + intros F. inversion F as [|? ? F1 F2]; subst.
        assert (Y : y = None). { rewrite F1 in Ey. destruct skip2; injection Ey as <-; reflexivity. }
        specialize (N2 Y). injection N2 as -> . eapply same_outs_trans; [exact O1 | auto].
      + destruct x; [discriminate|]. destruct y; [discriminate|].
        intros M. destruct (N M) as (-> & -> & ->). specialize (N2 eq_refl). destruct (N1 eq_refl) as (N1a & ->).
        injection N1a as ->. injection N2 as ->. repeat split.
  Qed.

  Lemma clt_evolves wreqs clt st (Nm : forall r, nm ("_expression_" ++ after_hash (ws_id st) ++ String "_" r)) gen st' gen' m sub :
    traverse_clt gx replace_etool skip1 skip2 wreqs clt (st, gen) = Ok ((st', gen'), m, sub) ->
    exists new, gen' = gen ++ new /\ evolves st st' new /\
      (Forall (fun o => filled (to_eval o) = None) (t_outputs clt) -> same_outs (ws_run st) (ws_run st')) /\
      (m = false -> st' = st /\ new = [] /\ sub = false).
  Proof.
    unfold traverse_clt. cbn [fst]. destruct (String.eqb (ws_id st) "").
    { intros E. injection E as <- <- <- <-. exists []. rewrite app_nil_r. repeat split; auto using same_outs_refl; apply evolves_refl. }
    intros E. binv E a Ea. binv E b Eb. binv E c Ec. binv E d Ed. binv E e Ee.
    destruct a as [[sa ga] ma], b as [[sb gb] mb], c as [[sc gc] mc], d as [[sd gd] md], e as [[[se ge] me] sube].
    cbn [fst snd] in *. injection E as <- <- <- <-.
    assert (A : exists new, ga = gen ++ new /\ evolves st sa new /\ same_outs (ws_run st) (ws_run sa) /\ (ma = false -> sa = st /\ new = [])).
    { destruct skip1; [|eapply (arg_loop_evolves _ _ Nm); exact Ea]. injection Ea as <- <- <-. exists []. rewrite app_nil_r.
      repeat split; auto using same_outs_refl; apply evolves_refl. }
    destruct A as (na & -> & Va & Oa & Na).
    destruct (stream_evolves _ _ Nm _ _ _ _ _ _ _ _ Eb) as (nb & -> & Vb & Ob & Nb).
    destruct (stream_evolves _ _ Nm _ _ _ _ _ _ _ _ Ec) as (nc & -> & Vc & Oc & Nc).
    destruct (binding_evolves _ _ Nm _ _ _ _ _ _ _ Ed) as (nd & -> & Vd & Od & Nd).
    destruct (output_evolves _ _ Nm _ _ _ _ _ _ _ _ _ Ee) as (ne & -> & Ve & Oe & Ne).
    exists (na ++ nb ++ nc ++ nd ++ ne). split; [rewrite <- !app_assoc; reflexivity|]. split; [|split].
    - eapply evolves_trans; [exact Va|]. eapply evolves_trans; [exact Vb|]. eapply evolves_trans; [exact Vc|].
      eapply evolves_trans; [exact Vd | exact Ve].
    - intros F. eapply same_outs_trans; [exact Oa|]. eapply same_outs_trans; [exact Ob|]. eapply same_outs_trans; [exact Oc|].
      eapply same_outs_trans; [exact Od | auto].
    - intros M. rewrite !orb_false_iff in M. destruct M as ((((M1 & M2) & M3) & M4) & M5).
      destruct (Na M1) as (-> & ->). destruct (Nb M2) as (-> & ->). destruct (Nc M3) as (-> & ->). destruct (Nd M4) as (-> & ->).
      destruct (Ne M5) as (-> & -> & ->). repeat split.
  Qed.

  (** *** requirements of the tool *)
  (** what is collected on the way: the inputs to be fed at the end *)
  Definition pending (new : list wstep) (l : list (string * string)) : Prop :=
    Forall (fun e => startswith "_" (fst e) = true /\ exists g, In g new /\ ws_id g = snd e) l.
  Record plr_ok (p0 : plr) (p : plr) (new : list wstep) : Prop := {
    po_gen : p_gen p = p_gen p0 ++ new;
    po_ev : evolves (p_step p0) (p_step p) new;
    po_outs : same_outs (ws_run (p_step p0)) (ws_run (p_step p));
    po_env : exists l, p_env p = p_env p0 ++ l /\ pending new l;
    po_res : exists l, p_res p = p_res p0 ++ l /\ pending new l;
    po_iwd : exists l, p_iwd p = p_iwd p0 ++ l /\ pending new l;
    po_mod : (p_mod p = true /\ p_mod p0 = false -> new <> []) /\ (p_mod p = false -> p = p0 /\ new = []);
    po_true : p_mod p0 = true -> p_mod p = true }.

  Lemma pending_mono n1 n2 l : (forall g, In g n1 -> In g n2) -> pending n1 l -> pending n2 l.
  Proof. intros S. apply Forall_impl. intros e (A & g & G & B). split; auto. eauto. Qed.
  Lemma pending_app n1 n2 a b : pending n1 a -> pending n2 b -> pending (n1 ++ n2) (a ++ b).
  Proof.
    intros A B. apply Forall_app. split.
    - refine (pending_mono n1 _ a _ A). intros g G. apply in_or_app. auto.
    - refine (pending_mono n2 _ b _ B). intros g G. apply in_or_app. auto.
  Qed.
  Lemma plr_ok_refl p : plr_ok p p [].
  Proof.
    split; try (exists []; split; [rewrite app_nil_r; reflexivity | constructor]); auto using same_outs_refl, evolves_refl.
    - rewrite app_nil_r. reflexivity.
    - split; [intros (A & B); congruence | auto].
  Qed.
  Lemma plr_ok_trans p0 p1 p2 n1 n2 : plr_ok p0 p1 n1 -> plr_ok p1 p2 n2 -> plr_ok p0 p2 (n1 ++ n2).
  Proof.
    intros [A1 A2 A3 (a4 & A4 & A4') (a5 & A5 & A5') (a6 & A6 & A6') (A7 & A8) A9] [B1 B2 B3 (b4 & B4 & B4') (b5 & B5 & B5') (b6 & B6 & B6') (B7 & B8) B9].
    assert (L : forall g : wstep, In g n1 -> In g (n1 ++ n2)) by (intros; apply in_or_app; auto).
    assert (R : forall g : wstep, In g n2 -> In g (n1 ++ n2)) by (intros; apply in_or_app; auto).
    split.
    - rewrite B1, A1, app_assoc. reflexivity.
    - eapply evolves_trans; eauto.
    - eapply same_outs_trans; eauto.
    - exists (a4 ++ b4). split; [rewrite B4, A4, app_assoc; reflexivity | apply pending_app; assumption].
    - exists (a5 ++ b5). split; [rewrite B5, A5, app_assoc; reflexivity | apply pending_app; assumption].
    - exists (a6 ++ b6). split; [rewrite B6, A6, app_assoc; reflexivity | apply pending_app; assumption].
    - split.
      + intros (M & M0). destruct (p_mod p1) eqn:M1.
        * intros H. apply app_eq_nil in H. destruct H as (H & _). apply A7; auto.
        * destruct (A8 eq_refl) as (-> & ->). cbn. apply B7. auto.
      + intros M. destruct (B8 M) as (-> & ->). destruct (A8 M) as (-> & ->). auto.
    - auto.
  Qed.

  Lemma set_tool_req_run i r st st' : set_tool_req i r st = Ok st' ->
    st' = with_run (ws_run st') st /\ same_outs (ws_run st) (ws_run st').
  Proof.
    unfold set_tool_req. destruct (ws_run st) as [u|t|ids] eqn:R; try discriminate.
    destruct (t_reqs t) as [l|]; [|discriminate]. intros E. binv E l' El. injection E as <-. split; [reflexivity|].
    intros t' T. injection T as <-. cbn. eauto.
  Qed.
  Lemma set_listing_run i k e st st' : set_listing i k e st = Ok st' ->
    st' = with_run (ws_run st') st /\ same_outs (ws_run st) (ws_run st').
  Proof.
    unfold set_listing. destruct (nth_req i st) as [| |[]| | | |]; try discriminate.
    intros E. binv E l' El. exact (set_tool_req_run _ _ _ _ E).
  Qed.
  Lemma evolves_made st st' g : st' = with_run (ws_run st') st -> made (ws_in st) g -> evolves st st' [g].
  Proof.
    intros E M. rewrite E. split; auto. exists []. rewrite app_nil_r. auto.
  Qed.

  Lemma plr_env_ok inputs defs p p' : plr_env gx inputs defs p = Ok p' -> p' = p.
  Proof.
    unfold plr_env. revert p p'. induction defs as [|d l IH]; intros p p' E; cbn [foldM] in E; [congruence|].
    binv E p1 E1. destruct (String.eqb (snd d) ""); [injection E1 as <-; auto|].
    binv E1 x Ex. destruct x; [discriminate|]. injection E1 as <-; auto.
  Qed.

  Lemma plr_res_ok wreqs sn (Nm : forall r, nm ("_expression_" ++ sn ++ String "_" r)) i inputs values p p' : plr_res gx attrs replace_etool wreqs sn i inputs values p = Ok p' ->
    exists new, plr_ok p p' new.
  Proof.
    unfold plr_res. revert p p'. induction attrs as [|a l IH]; intros p p' E; cbn [foldM] in E.
    { injection E as <-. exists []. apply plr_ok_refl. }
    binv E p1 E1.
    assert (P1 : exists new, plr_ok p p1 new).
    { destruct (negb (truthy _)); [injection E1 as <-; exists []; apply plr_ok_refl|].
      binv E1 x Ex. destruct x as [expr|]; [|injection E1 as <-; exists []; apply plr_ok_refl].
      cbn zeta in E1. binv E1 st Est. injection E1 as <-. destruct (set_tool_req_run _ _ _ _ Est) as (Q & O).
      eexists [_]. split; cbn [p_gen p_step p_env p_res p_iwd p_mod]; [reflexivity|..]; auto.
      - apply evolves_made; auto. apply tool_expr_made; auto. apply Nm.
      - exists []. rewrite app_nil_r. split; [reflexivity | constructor].
      - eexists [_]. split; [reflexivity|]. constructor; [|constructor]. split; [apply (startswith_app "_")|]. eexists. split; [left; reflexivity | reflexivity].
      - exists []. rewrite app_nil_r. split; [reflexivity | constructor].
      - split; discriminate. }
    destruct P1 as (n1 & P1). destruct (IH _ _ E) as (n2 & P2). exists (n1 ++ n2). eapply plr_ok_trans; eauto.
  Qed.

  Lemma plr_entries_ok wreqs preqs sn (Nm : forall r, nm ("_expression_" ++ sn ++ String "_" r)) i inputs l : forall k p p',
    plr_entries gx replace_etool wreqs preqs sn i inputs k l p = Ok p' -> exists new, plr_ok p p' new.
  Proof.
    induction l as [|e l IH]; intros k p p' E; cbn [plr_entries] in E.
    { injection E as <-. exists []. apply plr_ok_refl. }
    binv E p1 E1.
    assert (Put : forall g st, made (ws_in (p_step p)) g -> ws_id g = ("_expression_" ++ sn ++ "_InitialWorkDirRequirement_" ++ str_nat k)%string ->
      st = with_run (ws_run st) (p_step p) -> same_outs (ws_run (p_step p)) (ws_run st) ->
      plr_ok p {| p_step := st; p_gen := p_gen p ++ [g]; p_env := p_env p; p_res := p_res p;
                  p_iwd := p_iwd p ++ [(("_iwdr_listing_" ++ str_nat k)%string, ("_expression_" ++ sn ++ "_InitialWorkDirRequirement_" ++ str_nat k)%string)]; p_mod := true |} [g]).
    { intros g st M N Q O. split; cbn [p_gen p_step p_env p_res p_iwd p_mod]; auto.
      - apply evolves_made; auto.
      - exists []. rewrite app_nil_r. split; [reflexivity | constructor].
      - exists []. rewrite app_nil_r. split; [reflexivity | constructor].
      - eexists [_]. split; [reflexivity|]. constructor; [|constructor]. split; [apply (startswith_app "_")|]. exists g. split; [left; reflexivity | exact N].
      - split; discriminate. }
    assert (P1 : exists new, plr_ok p p1 new).
    { destruct e as [s|en enm|j].
      - binv E1 x Ex. destruct x as [expr|]; [|injection E1 as <-; exists []; apply plr_ok_refl].
        binv E1 st Est. injection E1 as <-. destruct (set_listing_run _ _ _ _ _ Est) as (Q & O).
        eexists. apply Put; auto. apply expr_made. apply Nm.
      - destruct (filled en) as [txt|].
        + binv E1 x Ex. destruct x as [expr|]; [|injection E1 as <-; exists []; apply plr_ok_refl].
          binv E1 xx E2. cbn zeta in E1. binv E1 st Est. injection E1 as <-. destruct (set_listing_run _ _ _ _ _ Est) as (Q & O).
          eexists. apply Put; auto. apply tool_expr_made; auto. apply Nm.
        + destruct (filled enm) as [nmt|]; [|injection E1 as <-; exists []; apply plr_ok_refl].
          binv E1 x Ex. destruct x as [expr|]; [|injection E1 as <-; exists []; apply plr_ok_refl].
          binv E1 st Est. injection E1 as <-. destruct (set_listing_run _ _ _ _ _ Est) as (Q & O).
          eexists. apply Put; auto. apply expr_made. apply Nm.
      - injection E1 as <-; exists []; apply plr_ok_refl. }
    destruct P1 as (n1 & P1). destruct (IH _ _ _ E) as (n2 & P2). exists (n1 ++ n2). eapply plr_ok_trans; eauto.
  Qed.

  Lemma plr_iwd_ok wreqs preqs sn (Nm : forall r, nm ("_expression_" ++ sn ++ String "_" r)) i inputs l p p' :
    plr_iwd gx replace_etool skip2 wreqs preqs sn i inputs l p = Ok p' -> exists new, plr_ok p p' new.
  Proof.
    unfold plr_iwd. destruct skip2; [intros E; injection E as <-; exists []; apply plr_ok_refl|].
    destruct l as [|s|l|s]; try (intros E; injection E as <-; exists []; apply plr_ok_refl).
    - destruct (String.eqb s ""); [intros E; injection E as <-; exists []; apply plr_ok_refl|].
      intros E. binv E x Ex. destruct x as [expr|]; [|injection E as <-; exists []; apply plr_ok_refl].
      cbn zeta in E. binv E st Est. injection E as <-. destruct (set_tool_req_run _ _ _ _ Est) as (Q & O).
      set (g := expr_step _ _ _ _ _). exists [g].
      assert (M : made (ws_in (p_step p)) g) by (apply expr_made; apply Nm).
      split; cbn [p_gen p_step p_env p_res p_iwd p_mod]; auto.
      + rewrite add_tool_input_run, Q, add_in_run, with_run_twice, <- add_in_run. apply evolves_one; auto.
        split; [reflexivity | split; [reflexivity|]]. right. exists g. cbn; auto.
      + eapply same_outs_trans; [exact O|]. eapply same_outs_trans; [|apply add_same_outs]. cbn. apply same_outs_refl.
      + exists []. rewrite app_nil_r. split; [reflexivity | constructor].
      + exists []. rewrite app_nil_r. split; [reflexivity | constructor].
      + exists []. rewrite app_nil_r. split; [reflexivity | constructor].
      + split; discriminate.
    - apply (plr_entries_ok _ _ _ Nm).
  Qed.

  Lemma plr_reqs_ok wreqs preqs sn (Nm : forall r, nm ("_expression_" ++ sn ++ String "_" r)) inputs l : forall i p p',
    plr_reqs gx attrs replace_etool skip2 wreqs preqs sn inputs i l p = Ok p' -> exists new, plr_ok p p' new.
  Proof.
    induction l as [|r l IH]; intros i p p' E; cbn [plr_reqs] in E.
    { injection E as <-. exists []. apply plr_ok_refl. }
    binv E p1 E1.
    assert (P1 : exists new, plr_ok p p1 new).
    { destruct r; try (injection E1 as <-; exists []; apply plr_ok_refl).
      - apply plr_env_ok in E1. subst. exists []. apply plr_ok_refl.
      - eapply (plr_res_ok _ _ Nm); exact E1.
      - eapply (plr_iwd_ok _ _ _ Nm); exact E1. }
    destruct P1 as (n1 & P1). destruct (IH _ _ _ E) as (n2 & P2). exists (n1 ++ n2). eapply plr_ok_trans; eauto.
  Qed.

  (** feeding inputs from steps that are already there *)
  Lemma plr_feed_ok l : forall st new, pending new l -> Forall (made (ws_in st)) new ->
    evolves st (plr_feed l st) new /\ same_outs (ws_run st) (ws_run (plr_feed l st)).
  Proof.
    induction l as [|e l IH]; intros st new P M.
    { split; [|apply same_outs_refl]. split; auto. exists []. rewrite app_nil_r. auto. }
    inversion P as [|? ? P1 P2]; subst. destruct P1 as (U & g & G & N).
    set (st1 := add_tool_input (fst e) (add_in (feed (fst e) (snd e ++ "/result")) st)).
    change (plr_feed (e :: l) st) with (plr_feed l st1).
    assert (I1 : ws_in st1 = ws_in st ++ [feed (fst e) (snd e ++ "/result")]).
    { subst st1. rewrite add_tool_input_run. reflexivity. }
    assert (M1 : Forall (made (ws_in st1)) new).
    { eapply Forall_impl; [|exact M]. intros h. apply made_mono. rewrite I1. intros j J. apply in_or_app; auto. }
    destruct (IH st1 new P2 M1) as ([A1 A2 A3 A4 A5 (x & A6 & A7) A8] & O).
    assert (R1 : st1 = with_run (ws_run st1) (add_in (feed (fst e) (snd e ++ "/result")) st)) by apply add_tool_input_run.
    split.
    - split; [rewrite A1, R1; reflexivity | rewrite A2, R1; reflexivity | rewrite A3, R1; reflexivity | rewrite A4, R1; reflexivity | rewrite A5, R1; reflexivity | | exact A8].
      exists (feed (fst e) (snd e ++ "/result") :: x). split; [rewrite A6, I1, <- app_assoc; reflexivity|].
      constructor; auto. split; [exact U | split; [reflexivity|]]. right. exists g. split; auto. cbn. rewrite N. reflexivity.
    - eapply same_outs_trans; [|exact O]. eapply same_outs_trans; [|apply add_same_outs]. apply same_outs_refl.
  Qed.

  Lemma evolves_same a b c n1 n2 : evolves a b n1 -> evolves b c n2 -> (forall g, In g n2 -> In g n1) -> evolves a c n1.
  Proof.
    intros V1 V2 S. destruct (evolves_trans _ _ _ _ _ V1 V2) as [A1 A2 A3 A4 A5 (x & A6 & A7) A8].
    split; auto.
    - exists x. split; auto. eapply Forall_impl; [|exact A7]. intros e. apply fed_mono. intros g G. apply in_app_or in G. destruct G; auto.
    - apply Forall_app in A8. tauto.
  Qed.

  Lemma level_reqs_evolves wreqs orig st (Nm : forall r, nm ("_expression_" ++ after_first_hash (ws_id st) ++ String "_" r)) gen st' gen' m :
    process_level_reqs gx attrs replace_etool skip2 wreqs orig (st, gen) = Ok ((st', gen'), m) ->
    exists new, gen' = gen ++ new /\ evolves st st' new /\ same_outs (ws_run st) (ws_run st') /\
      (m = false -> st' = st /\ new = []).
  Proof.
    unfold process_level_reqs. destruct orig as [u|t|ids]; try discriminate.
    assert (N : Ok ((st, gen), false) = Ok ((st', gen'), m) ->
      exists new, gen' = gen ++ new /\ evolves st st' new /\ same_outs (ws_run st) (ws_run st') /\ (m = false -> st' = st /\ new = [])).
    { intros E. injection E as <- <- <-. exists []. rewrite app_nil_r. repeat split; auto using same_outs_refl; apply evolves_refl. }
    destruct (t_reqs t) as [[|r0 rs]|]; auto. cbn [fst snd]. destruct (String.eqb (ws_id st) ""); auto. clear N.
    intros E. binv E p Ep. injection E as <- <- <-.
    destruct (plr_reqs_ok _ _ _ Nm _ _ _ _ _ Ep) as (new & [A1 A2 A3 (a4 & A4 & A4') (a5 & A5 & A5') (a6 & A6 & A6') (A7 & A8) A9]).
    cbn [p_gen p_step p_env p_res p_iwd p_mod app] in *. subst a4 a5 a6.
    exists new. split; auto.
    destruct (plr_feed_ok _ (p_step p) new A4' (ev_new _ _ _ A2)) as (F1 & O1).
    destruct (plr_feed_ok _ _ new A5' (ev_new _ _ _ F1)) as (F2 & O2).
    destruct (plr_feed_ok _ _ new A6' (ev_new _ _ _ F2)) as (F3 & O3).
    split; [|split].
    - eapply evolves_same; [exact A2 | | intros g G; exact G].
      eapply evolves_same; [exact F1 | | intros g G; exact G].
      eapply evolves_same; [exact F2 | exact F3 | auto].
    - eapply same_outs_trans; [exact A3|]. eapply same_outs_trans; [exact O1|]. eapply same_outs_trans; [exact O2 | exact O3].
    - intros M. destruct (A8 M) as (-> & ->). auto.
  Qed.
End Step.
End Names.
