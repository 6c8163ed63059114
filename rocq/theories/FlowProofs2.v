(** * Proofs about the refactoring of workflows: one step, all steps, the whole *)
From Verif Require Import PyBase PyBaseProofs PackModel ExprModel EvalModel RefactorModel RefactorSpec RefactorProofs FlowModel FlowSpec FlowProofs.

Lemma basename_LastPart s : LastPart s (basename s).
Proof. exact (split_last_fragment "/" s). Qed.
Lemma Fragment_after_hash s : Fragment s (after_hash s).
Proof. apply after_hash_Fragment. reflexivity. Qed.
Lemma after_hash_twice s : after_hash (after_hash s) = after_hash s.
Proof. apply after_hash_Fragment. split; [apply (split_last_fragment "#" s) | auto]. Qed.
Lemma filled_Some o t : filled o = Some t -> o = Some t /\ t <> "".
Proof. destruct o as [s|]; cbn; [|discriminate]. destruct (String.eqb_spec s ""); [discriminate|]. intros E. injection E as ->. auto. Qed.

(** ** Sources *)
Definition Old (ins : list sinput) (x : string) : Prop :=
  exists j y, In j ins /\ Mentions (si_source j) y /\ (x = y \/ Fragment y x).

Lemma mentions_short s x : Mentions (short_source s) x -> exists y, Mentions s y /\ (x = y \/ Fragment y x).
Proof.
  destruct s as [|y|l]; cbn.
  - intros [H | (l & H & _)]; discriminate.
  - destruct (String.eqb_spec y "") as [->|].
    + intros M. exists x. split; auto.
    + intros [H | (l & H & _)]; [|discriminate]. injection H as <-. exists y. split; [left; reflexivity | right; apply Fragment_after_hash].
  - intros [H | (l' & H & I)]; [discriminate|]. injection H as <-. apply in_map_iff in I. destruct I as (y & <- & I).
    exists y. split; [right; eauto | right; apply Fragment_after_hash].
Qed.
Lemma Fragment_twice a b c : Fragment a b -> Fragment b c -> Fragment a c.
Proof. rewrite <- !after_hash_Fragment. intros <- <-. symmetry. apply after_hash_twice. Qed.
Lemma Old_Fragment ins x y : Old ins x -> Fragment x y -> Old ins y.
Proof.
  intros (j & z & J & M & [-> | F]) G; exists j, z; split; auto; split; auto.
  right. eapply Fragment_twice; eauto.
Qed.

(** ** Names *)
Definition step_name (id s : string) : Prop :=
  exists n r, (n = after_hash id \/ n = after_first_hash id) /\ s = ("_expression_" ++ n ++ String "_" r)%string.
Lemma step_name_expression id s : step_name id s -> startswith "_expression_" s = true.
Proof. intros (n & r & _ & ->). apply (startswith_app "_expression_"). Qed.
Definition when_name (id s : string) : Prop := s = ("_when_expression_" ++ after_hash id)%string.

(** ** valueFrom *)
Definition vmade (ins : list sinput) (g : wstep) : Prop :=
  gives g /\ forall i x, In i (ws_in g) -> Mentions (si_source i) x -> Old ins x.

Lemma InputAfter_mono st n1 n2 i i' : (forall g, In g n1 -> exists g', In g' n2 /\ ws_id g' = ws_id g) ->
  InputAfter st n1 i i' -> InputAfter st n2 i i'.
Proof.
  intros S [-> | (n & x & g & F & L & G & N & V & ->)]; [left; reflexivity|]. right.
  destruct (S g G) as (g' & G' & E). exists n, x, g'. rewrite E. auto 10.
Qed.
Lemma incl_same (n1 n2 : list wstep) : incl n1 n2 -> forall g, In g n1 -> exists g', In g' n2 /\ ws_id g' = ws_id g.
Proof. eauto. Qed.
Lemma Forall2_mono {A B} (P Q : A -> B -> Prop) l l' : (forall a b, P a b -> Q a b) -> Forall2 P l l' -> Forall2 Q l l'.
Proof. intros S F. induction F; constructor; auto. Qed.
Lemma Forall2_refl {A} (P : A -> A -> Prop) l : (forall a, P a a) -> Forall2 P l l.
Proof. intros S. induction l; constructor; auto. Qed.

Lemma Forall2_len {A B} (P : A -> B -> Prop) l l' : Forall2 P l l' -> List.length l = List.length l'.
Proof. intros F. induction F; cbn; congruence. Qed.

Section Flow.
  Variable gx : json -> json -> json -> result (option string).
  Variable ev : string -> json -> result json.
  Variable src_example : list wstep -> wstep -> src -> result json.
  Variable self_example : list wstep -> wstep -> src -> result json.
  Variable src_params : list wstep -> src -> result nat.
  Variable src_known : list wstep -> wstep -> string -> result unit.
  Variable out_known : list wstep -> src -> result unit.
  Variable load_run : string -> result (tool * bool).
  Variable attrs : list string.
  Variable replace_etool skip1 skip2 : bool.

  Lemma valueFrom_made wreqs steps st inp orig orig_ins name expr g :
    valueFrom_step src_params replace_etool wreqs steps st inp orig orig_ins name expr = Ok g -> In inp orig_ins ->
    ws_id g = name /\ vmade orig_ins g.
  Proof.
    intros E H. unfold valueFrom_step in E. destruct (String.eqb (si_id inp) ""); [discriminate|].
    binv E ps Ep. cbn zeta in E. injection E as <-. split; [reflexivity|]. split.
    { eexists. split; [reflexivity|]. destruct replace_etool; reflexivity. }
    intros i x I M. cbn [gen_step ws_in] in I. apply filter_In in I. destruct I as (I & _).
    apply in_map_iff in I. destruct I as (j & <- & J).
    assert (Q : exists y, Mentions (si_source j) y /\ (x = y \/ Fragment y x)).
    { unfold sibling_input in M. destruct (String.eqb (si_id j) ""); [eauto|]. apply mentions_short; exact M. }
    destruct Q as (y & My & F). apply in_app_or in J. destruct J as [J | J]; [exists j, y; auto|].
    destruct (sourced _) in J; [|destruct J]. destruct J as [<- | []]. exists inp, y. auto.
  Qed.

  Lemma give_js_outs wreqs orig r : same_outs r (give_js wreqs orig r).
  Proof.
    unfold give_js. destruct orig, r; try apply same_outs_refl. destruct (_ && _); [|apply same_outs_refl].
    intros t' E. injection E as <-. cbn. eauto.
  Qed.

  Lemma value_loop_ok wreqs pre post mock orig orig_ins : forall todo st done_ gen st' gen',
    value_loop gx self_example src_params src_known replace_etool wreqs pre post st mock orig orig_ins done_ todo gen = Ok (st', gen') ->
    incl todo orig_ins ->
    exists done2 new, st' = with_in (done_ ++ done2) (with_run (ws_run st') st) /\ gen' = gen ++ new /\
      Forall2 (InputAfter st new) todo done2 /\
      Forall (fun g => step_name (ws_id st) (ws_id g) /\ vmade orig_ins g) new /\
      same_outs (ws_run st) (ws_run st') /\ (new = [] -> st' = with_in (done_ ++ todo) st).
  Proof.
    induction todo as [|inp todo IH]; intros st done_ gen st' gen' E S; cbn [value_loop] in E.
    { injection E as <- <-. exists [], []. rewrite !app_nil_r. repeat split; auto using same_outs_refl. }
    assert (S' : incl todo orig_ins) by (intros a A; apply S; right; exact A).
    assert (Skip : forall st, value_loop gx self_example src_params src_known replace_etool wreqs pre post st mock orig orig_ins (done_ ++ [inp]) todo gen = Ok (st', gen') ->
      exists done2 new, st' = with_in (done_ ++ done2) (with_run (ws_run st') st) /\ gen' = gen ++ new /\
      Forall2 (InputAfter st new) (inp :: todo) done2 /\
      Forall (fun g => step_name (ws_id st) (ws_id g) /\ vmade orig_ins g) new /\
      same_outs (ws_run st) (ws_run st') /\ (new = [] -> st' = with_in (done_ ++ inp :: todo) st)).
    { intros s Es. destruct (IH _ _ _ _ _ Es S') as (d2 & new & A1 & A2 & A3 & A4 & A5 & A6).
      exists (inp :: d2), new. rewrite <- app_assoc in A1. repeat split; auto.
      - constructor; auto. left; reflexivity.
      - intros N. rewrite (A6 N), <- app_assoc. reflexivity. }
    destruct (filled (si_valueFrom inp)) as [text|] eqn:Ft; [|apply Skip; exact E].
    cbn zeta in E. binv E self Es. binv E x Ex. destruct x as [expr|]; [|apply Skip; exact E]. clear Skip.
    destruct (negb (has_input orig (si_id inp))); [discriminate|].
    binv E k Ek. binv E g Eg.
    set (name := ("_expression_" ++ after_hash (ws_id st) ++ "_" ++ basename (si_id inp))%string) in *.
    apply valueFrom_made in Eg; [|apply S; left; reflexivity]. destruct Eg as (Ng & Mg).
    destruct (IH _ _ _ _ _ E S') as (d2 & new & A1 & A2 & A3 & A4 & A5 & _). clear IH.
    exists ({| si_id := si_id inp; si_source := SOne (name ++ "/result"); si_valueFrom := None;
              si_linkMerge := si_linkMerge inp; si_default := si_default inp |} :: d2), (g :: new).
    rewrite <- app_assoc in A1, A2. repeat split; auto.
    - constructor.
      + right. exists (after_hash (ws_id st)), (basename (si_id inp)), g.
        split; [apply Fragment_after_hash|]. split; [apply basename_LastPart|]. split; [left; reflexivity|].
        split; [exact Ng|]. split; [exists text; apply filled_Some; exact Ft|]. rewrite Ng. reflexivity.
      + eapply Forall2_mono; [|exact A3]. intros a b. apply (InputAfter_mono st new). apply incl_same. intros z Z. right; exact Z.
    - constructor; auto. split; auto. rewrite Ng. exists (after_hash (ws_id st)), (basename (si_id inp)). auto.
    - eapply same_outs_trans; [|exact A5]. apply give_js_outs.
    - discriminate.
  Qed.

  (** ** when *)
  Lemma when_ok wreqs steps st orig_ins expr st' g :
    when_step src_params replace_etool wreqs steps st orig_ins expr = Ok (st', g) ->
    st' = add_in (feed "_when" (ws_id g ++ "/result")) (with_when (Some "$(inputs._when)") st) /\
    ws_id g = ("_when_expression_" ++ after_hash (ws_id st))%string /\ vmade orig_ins g.
  Proof.
    unfold when_step. intros E. binv E ps Ep. cbn zeta in E. injection E as <- <-. repeat split.
    - eexists. split; [reflexivity|]. destruct replace_etool; reflexivity.
    - intros i x I M. cbn [gen_step ws_in] in I. apply filter_In in I. destruct I as (I & _).
      apply in_map_iff in I. destruct I as (j & <- & J).
      assert (Q : exists y, Mentions (si_source j) y /\ (x = y \/ Fragment y x)).
      { unfold when_input in M. destruct (String.eqb (si_id j) ""); [eauto|]. apply mentions_short; exact M. }
      destruct Q as (y & My & F). exists j, y. auto.
  Qed.

  (** ** One step *)
  (** every source is an old one or a result *)
  Definition srcs_ok (P : string -> Prop) (all : list wstep) (s : wstep) : Prop :=
    forall i x, In i (ws_in s) -> Mentions (si_source i) x -> P x \/ exists g, In g all /\ gives g /\ x = (ws_id g ++ "/result")%string.

  Record step_ok (st st' : wstep) (gen : list wstep) : Prop := {
    so_after : StepAfter gen st st';
    so_gives : Forall gives gen;
    so_names : Forall (fun g => step_name (ws_id st) (ws_id g) \/
                                (when_name (ws_id st) (ws_id g) /\ vmade (ws_in st) g)) gen;
    so_srcs : Forall (srcs_ok (Old (ws_in st)) gen) (st' :: gen);
    so_keeps : gives st -> gives st' }.

  Lemma mentions_one a x : Mentions (SOne a) x -> x = a.
  Proof. intros [H | (l & H & _)]; [injection H; auto | discriminate]. Qed.
  Lemma srcs_mono P n1 n2 s : incl n1 n2 -> srcs_ok P n1 s -> srcs_ok P n2 s.
  Proof. intros S H i x I M. destruct (H i x I M) as [A | (g & G & B)]; eauto 6. Qed.

  Lemma evolves_srcs nm P st st' gen new : srcs_ok P gen st -> evolves nm st st' new ->
    Forall (srcs_ok P (gen ++ new)) (st' :: new).
  Proof.
    intros H [A1 A2 A3 A4 A5 (x & A6 & A7) A8].
    assert (H' : srcs_ok P (gen ++ new) st').
    { intros i y I M. rewrite A6 in I. apply in_app_or in I. destruct I as [I | I].
      - destruct (H i y I M) as [B | (g & G & B)]; [auto|]. right. exists g. split; auto. apply in_or_app; auto.
      - rewrite Forall_forall in A7. destruct (A7 i I) as (_ & _ & [N | (g & G & N)]); rewrite N in M.
        + destruct M as [M | (l & M & _)]; discriminate.
        + apply mentions_one in M. right. exists g. split; [apply in_or_app; auto|].
          rewrite Forall_forall in A8. destruct (A8 g G) as (_ & B & _). auto. }
    constructor; auto. rewrite Forall_forall in *. intros g G. destruct (A8 g G) as (_ & _ & C).
    intros i y I M. destruct (C i I) as (j & J & E). rewrite E in M. exact (H' j y J M).
  Qed.

  Lemma StepAfter_mono n1 n2 st st' : (forall g, In g n1 -> exists g', In g' n2 /\ ws_id g' = ws_id g) ->
    StepAfter n1 st st' -> StepAfter n2 st st'.
  Proof.
    intros S [A1 A2 A3 A4 (old & new & A5 & A6 & A7) A8]. split; auto.
    - exists old, new. split; auto. split; auto. eapply Forall2_mono; [|exact A6]. intros a b. apply InputAfter_mono; exact S.
    - destruct A8 as [A8 | (A8 & g & i & G & I & N & C & W)]; auto. right. split; auto.
      destruct (S g G) as (g' & G' & E). exists g', i. rewrite E. auto.
  Qed.
  Lemma StepAfter_evolves nm gen new st s1 s2 : StepAfter gen st s1 -> evolves nm s1 s2 new -> StepAfter (gen ++ new) st s2.
  Proof.
    intros H [B1 B2 B3 B4 B5 (x & B6 & B7) B8].
    apply (StepAfter_mono _ (gen ++ new)) in H; [|apply incl_same; intros g G; apply in_or_app; auto].
    destruct H as [A1 A2 A3 (ad & A4) (old & nw & A5 & A6 & A7) A8]. split; try congruence.
    - exists ad. rewrite B5. exact A4.
    - exists old, (nw ++ x). split; [rewrite B6, A5, app_assoc; reflexivity|]. split; auto. apply Forall_app. split; auto.
      eapply Forall_impl; [|exact B7]. intros e (U & _). apply startswith_spec in U. exact U.
    - rewrite B4. destruct A8 as [A8 | (A8 & g & i & G & I & R)]; auto. right. split; auto. exists g, i. split; auto.
      split; auto. rewrite B6. apply in_or_app; auto.
  Qed.

  Lemma evolves_step gen new st s1 s2 : step_ok st s1 gen -> evolves (step_name (ws_id st)) s1 s2 new ->
    (gives s1 -> gives s2) -> step_ok st s2 (gen ++ new).
  Proof.
    intros [H1 H2 H3 H4 H5] V K. split.
    - eapply StepAfter_evolves; eauto.
    - apply Forall_app. split; auto. eapply Forall_impl; [|exact (ev_new _ _ _ _ V)]. intros g (_ & G & _). exact G.
    - apply Forall_app. split; auto. eapply Forall_impl; [|exact (ev_new _ _ _ _ V)]. intros g (G & _). auto.
    - inversion H4 as [|? ? H41 H42]; subst. pose proof (evolves_srcs _ _ _ _ _ _ H41 V) as Q. inversion Q; subst.
      constructor; auto. apply Forall_app. split; auto. eapply Forall_impl; [|exact H42]. intros g.
      apply srcs_mono. intros z Z. apply in_or_app; auto.
    - auto.
  Qed.

  Lemma same_outs_gives s1 s2 : same_outs (ws_run s1) (ws_run s2) -> gives s1 -> gives s2.
  Proof. intros O (t & R & E). destruct (O t R) as (t' & R' & E' & _). exists t'. split; auto. congruence. Qed.

  Lemma with_in_id st : with_in (ws_in st) st = st.
  Proof. destruct st; reflexivity. Qed.

  Lemma traverse_step_ok wreqs pre post st st' gen m sub :
    traverse_step gx src_example self_example src_params src_known attrs replace_etool skip1 skip2 wreqs pre post st
      = Ok (st', gen, m, sub) ->
    step_ok st st' gen /\ (m = false -> st' = st /\ gen = [] /\ sub = false).
  Proof.
    unfold traverse_step. intros E. binv E mock Em.
    assert (R0 : step_ok st st []).
    { split; auto.
      - split; auto.
        + exists []. rewrite app_nil_r. reflexivity.
        + exists (ws_in st), []. rewrite app_nil_r. repeat split; auto. apply Forall2_refl. left; reflexivity.
      - constructor; auto. intros i x I M. left. exists i, x. auto. }
    destruct (String.eqb (ws_id st) "").
    { injection E as <- <- <- <-. auto. }
    binv E v Ev. destruct v as [s1 g1]. binv E x Ex. binv E w Ew. binv E p Ep. binv E c Ec.
    destruct w as [s2 g2], p as [[s3 g3] m3], c as [[[s4 g4] m4] sub4]. cbn [fst snd] in *. injection E as <- <- <- <-.
    (* the inputs *)
    destruct (value_loop_ok _ _ _ _ _ _ _ _ _ _ _ _ Ev (incl_refl _)) as (d & new & A1 & A2 & A3 & A4 & A5 & A6).
    cbn [app] in A1, A2, A6. subst g1.
    assert (K1 : step_ok st s1 new).
    { split.
      - rewrite A1. split; auto.
        + exists []. rewrite app_nil_r. reflexivity.
        + exists d, []. cbn [ws_in with_in]. rewrite app_nil_r. auto.
      - eapply Forall_impl; [|exact A4]. intros g (_ & G & _). exact G.
      - eapply Forall_impl; [|exact A4]. intros g (G & _). auto.
      - rewrite Forall_forall in A4. constructor.
        + intros i y I M. rewrite A1 in I. cbn [ws_in with_in] in I.
          apply In_nth_error in I. destruct I as (k & I).
          assert (Q : exists i0, In i0 (ws_in st) /\ InputAfter st new i0 i).
          { clear - A3 I. revert k I. induction A3 as [|a b la lb Hab F IH]; intros k I; [destruct k; discriminate|].
            destruct k as [|k]; cbn in I.
            - injection I as <-. exists a. cbn; auto.
            - destruct (IH k I) as (i0 & I0 & Q). exists i0. cbn; auto. }
          destruct Q as (i0 & I0 & [-> | (n & z & g & F & L & G & N & V & ->)]).
          * left. exists i0, y. auto.
          * cbn [si_source] in M. apply mentions_one in M. right. exists g. destruct (A4 g G) as (_ & B & _). auto.
        + apply Forall_forall. intros g G i y I M. left. destruct (A4 g G) as (_ & _ & B). eapply B; eauto.
      - apply same_outs_gives. exact A5. }
    (* when *)
    assert (K2 : step_ok st s2 g2 /\ (x = None -> s2 = s1 /\ g2 = new)).
    { destruct x as [expr|].
      - binv Ew r Er. destruct r as [s2' gw]. cbn [fst snd] in Ew. injection Ew as <- <-. split; [|discriminate].
        apply when_ok in Er. destruct Er as (-> & Nw & Mw). destruct K1 as [B1 B2 B3 B4 B5].
        assert (Ii : incl new (new ++ [gw])) by (intros z Z; apply in_or_app; auto).
        split.
        + apply (StepAfter_mono _ (new ++ [gw])) in B1; [|apply incl_same; exact Ii].
          destruct B1 as [C1 C2 C3 C4 (old & nw & C5 & C6 & C7) C8]. split; auto.
          * exists old, (nw ++ [feed "_when" (ws_id gw ++ "/result")]). cbn [ws_in add_in with_in with_when].
            rewrite C5, app_assoc. split; auto. split; auto. apply Forall_app. split; auto. constructor; auto.
            exists "when". reflexivity.
          * right. split; [reflexivity|]. exists gw, (feed "_when" (ws_id gw ++ "/result")).
            split; [apply in_or_app; right; left; reflexivity|]. cbn [ws_in add_in with_in with_when].
            split; [apply in_or_app; right; left; reflexivity|]. repeat split. rewrite Nw. eexists. reflexivity.
        + apply Forall_app. split; auto. constructor; auto. destruct Mw; auto.
        + apply Forall_app. split; auto. constructor; auto. right. split; auto. unfold when_name. rewrite Nw, A1. reflexivity.
        + inversion B4 as [|? ? B41 B42]; subst. constructor.
          * intros i y I M. cbn [ws_in add_in with_in with_when] in I. apply in_app_or in I. destruct I as [I | [<- | []]].
            -- exact (srcs_mono _ _ _ _ Ii B41 i y I M).
            -- cbn [feed si_source] in M. apply mentions_one in M. right. exists gw. split; [apply in_or_app; right; left; reflexivity|].
               destruct Mw; auto.
          * apply Forall_app. split.
            -- eapply Forall_impl; [|exact B42]. intros g. apply srcs_mono. exact Ii.
            -- constructor; auto. intros i y I M. left. destruct Mw as (_ & Mw). eapply Mw; eauto.
        + intros G. destruct (B5 G) as (t & R & O). exists t. auto.
      - injection Ew as <- <-. auto. }
    destruct K2 as (K2 & N2).
    (* requirements *)
    assert (Id2 : ws_id s2 = ws_id st) by apply (sa_id _ _ _ (so_after _ _ _ K2)).
    assert (Nm2 : forall r, step_name (ws_id st) ("_expression_" ++ after_first_hash (ws_id s2) ++ String "_" r)).
    { intros r. rewrite Id2. exists (after_first_hash (ws_id st)), r. auto. }
    destruct (level_reqs_evolves (step_name (ws_id st)) _ _ _ _ _ _ _ Nm2 _ _ _ _ Ep) as (n3 & -> & V3 & O3 & U3).
    pose proof (evolves_step _ _ _ _ _ K2 V3 (same_outs_gives _ _ O3)) as K3.
    (* the tool *)
    assert (K4 : step_ok st s4 g4 /\ (m4 = false -> s4 = s3 /\ g4 = g2 ++ n3 /\ sub4 = false)).
    { destruct (ws_run st) as [u|t|ids] eqn:R.
      - injection Ec as <- <- <- <-. auto.
      - destruct (is_clt t).
        + assert (Nm3 : forall r, step_name (ws_id st) ("_expression_" ++ after_hash (ws_id s3) ++ String "_" r)).
          { intros r. rewrite (sa_id _ _ _ (so_after _ _ _ K3)). exists (after_hash (ws_id st)), r. auto. }
          destruct (clt_evolves (step_name (ws_id st)) _ _ _ _ _ _ _ Nm3 _ _ _ _ _ Ec) as (n4 & -> & V4 & O4 & U4). split.
          * assert (K4 : step_ok st s4 ((g2 ++ n3) ++ n4)).
            { destruct K3 as [B1 B2 B3 B4 B5].
              split.
              - exact (StepAfter_evolves _ _ _ _ _ _ B1 V4).
              - apply Forall_app. split; auto. eapply Forall_impl; [|exact (ev_new _ _ _ _ V4)]. intros g (_ & G & _). exact G.
              - apply Forall_app. split; auto. eapply Forall_impl; [|exact (ev_new _ _ _ _ V4)]. intros g (G & _). auto.
              - inversion B4 as [|? ? B41 B42]; subst. pose proof (evolves_srcs _ _ _ _ _ _ B41 V4) as Q'. inversion Q'; subst.
                constructor; auto. apply Forall_app. split; auto. eapply Forall_impl; [|exact B42]. intros g.
                apply srcs_mono. intros z Z. apply in_or_app; auto.
              - intros G. eapply same_outs_gives; [|exact (B5 G)]. apply O4. destruct G as (t' & R' & O'). rewrite R in R'.
                injection R' as <-. rewrite O'. constructor; auto. }
            exact K4.
          * intros M. destruct (U4 M) as (-> & -> & ->). rewrite app_nil_r. auto.
        + injection Ec as <- <- <- <-. auto.
      - injection Ec as <- <- <- <-. auto. }
    destruct K4 as (K4 & N4). split; auto.
    intros M. rewrite !orb_false_iff in M. destruct M as (((M1 & M2) & M3) & M4).
    destruct (N4 M4) as (-> & -> & ->). destruct (U3 M3) as (-> & ->).
    destruct x; [discriminate|]. destruct (N2 eq_refl) as (-> & ->). destruct new; [|discriminate].
    rewrite (A6 eq_refl), with_in_id. auto.
  Qed.

  (** ** All steps *)
  Lemma srcs_keep P all all' s : (forall g, In g all -> gives g -> exists g', In g' all' /\ gives g' /\ ws_id g' = ws_id g) ->
    srcs_ok P all s -> srcs_ok P all' s.
  Proof.
    intros K H i x I M. destruct (H i x I M) as [A | (g & G & B & ->)]; auto. right.
    destruct (K g G B) as (g' & G' & B' & N). exists g'. rewrite N. auto.
  Qed.
  Lemma StepAfter_refl all st : StepAfter all st st.
  Proof.
    split; auto.
    - exists []. rewrite app_nil_r. reflexivity.
    - exists (ws_in st), []. rewrite app_nil_r. repeat split; auto. apply Forall2_refl. left; reflexivity.
  Qed.
  Lemma Forall2_in_l {A B} (R : A -> B -> Prop) l l' a : Forall2 R l l' -> In a l -> exists b, In b l' /\ R a b.
  Proof. intros F. induction F as [|x y l l' H F IH]; intros I; [destruct I|]. destruct I as [<- | I]; [exists y; cbn; auto|]. destruct (IH I) as (b & B1 & B2). exists b. cbn; auto. Qed.
  Lemma Forall2_in_r {A B} (R : A -> B -> Prop) l l' b : Forall2 R l l' -> In b l' -> exists a, In a l /\ R a b.
  Proof. intros F. induction F as [|x y l l' H F IH]; intros I; [destruct I|]. destruct I as [<- | I]; [exists x; cbn; auto|]. destruct (IH I) as (a & B1 & B2). exists a. cbn; auto. Qed.

  Definition own_srcs (P : string -> Prop) (s : wstep) : Prop := forall i x, In i (ws_in s) -> Mentions (si_source i) x -> P x.
  Definition made_name (s : wstep) : Prop := MadeName (ws_id s).

  Lemma steps_loop_ok (P : string -> Prop) (PF : forall x y, P x -> Fragment x y -> P y) :
    forall fuel wreqs done_ todo m wreqs' all m',
    steps_loop gx src_example self_example src_params src_known attrs replace_etool skip1 skip2 fuel wreqs done_ todo m
      = Ok (wreqs', all, m') ->
    Forall (srcs_ok P (done_ ++ todo)) (done_ ++ todo) ->
    Forall (fun s => startswith "_expression" (ws_id s) = true \/ own_srcs P s) todo ->
    exists todo' news, all = done_ ++ todo' ++ news /\
      Forall2 (StepAfter all) todo todo' /\ Forall2 (fun s s' => gives s -> gives s') todo todo' /\
      Forall made_name news /\ Forall gives news /\ Forall (srcs_ok P all) all /\
      (m' = false -> m = false /\ todo' = todo /\ news = [] /\ wreqs' = wreqs).
  Proof.
    induction fuel as [|fuel IH]; intros wreqs done_ todo m wreqs' all m' E H T; cbn [steps_loop] in E.
    { destruct todo; [|discriminate]. injection E as <- <- <-. exists [], []. rewrite !app_nil_r in *. repeat split; auto. }
    destruct todo as [|st todo].
    { injection E as <- <- <-. exists [], []. rewrite !app_nil_r in *. repeat split; auto. }
    inversion T as [|? ? T1 T2]; subst.
    destruct (startswith "_expression" (ws_id st)) eqn:Sk.
    { destruct (IH _ _ _ _ _ _ _ E) as (t' & news & A1 & A2 & A3 & A4 & A5 & A6 & A7); auto.
      { rewrite <- app_assoc. exact H. }
      rewrite <- app_assoc in A1. exists (st :: t'), news. repeat split; auto.
      - constructor; auto. apply StepAfter_refl.
      - destruct (A7 H0) as (? & -> & ? & ?). auto.
      - destruct (A7 H0) as (? & -> & ? & ?). auto.
      - destruct (A7 H0) as (? & -> & ? & ?). auto.
      - destruct (A7 H0) as (? & -> & ? & ?). auto. }
    binv E r Er. destruct r as [[[st' gen] ms] sub].
    apply traverse_step_ok in Er. destruct Er as ([B1 B2 B3 B4 B5] & Bm).
    destruct T1 as [T1 | T1]; [congruence|].
    assert (OP : forall x, Old (ws_in st) x -> P x).
    { intros x (j & y & J & M & [-> | F]); [eapply T1; eauto|]. eapply PF; [eapply T1; eauto | exact F]. }
    set (all1 := (done_ ++ [st']) ++ todo ++ gen).
    assert (Keep : forall g, In g (done_ ++ st :: todo) -> gives g -> exists g', In g' all1 /\ gives g' /\ ws_id g' = ws_id g).
    { intros g G Gi. apply in_app_or in G. destruct G as [G | [<- | G]].
      - exists g. subst all1. split; [|auto]. rewrite !in_app_iff. auto.
      - exists st'. split; [subst all1; rewrite !in_app_iff; cbn; auto|]. split; [auto|]. apply (sa_id _ _ _ B1).
      - exists g. subst all1. split; [|auto]. rewrite !in_app_iff. auto. }
    assert (GenIn : incl gen all1) by (intros g G; subst all1; rewrite !in_app_iff; auto).
    destruct (IH _ _ _ _ _ _ _ E) as (t' & news & A1 & A2 & A3 & A4 & A5 & A6 & A7).
    { fold all1. apply Forall_forall. intros s S.
      assert (Q : In s (done_ ++ st :: todo) \/ In s (st' :: gen)).
      { subst all1. rewrite !in_app_iff in S. cbn in S. rewrite in_app_iff. cbn. tauto. }
      destruct Q as [Q | Q].
      - rewrite Forall_forall in H. exact (srcs_keep _ _ _ _ Keep (H s Q)).
      - rewrite Forall_forall in B4. intros i x I M. destruct (B4 s Q i x I M) as [O | (g & G & B)]; [left; auto|].
        right. exists g. auto. }
    { apply Forall_app. split; auto. eapply Forall_impl; [|exact B3]. intros g [G | (_ & _ & G)].
      - left. apply step_name_expression in G. apply startswith_spec in G. destruct G as (r & ->). apply (startswith_app "_expression" ("_" ++ r)).
      - right. intros i x I M. apply OP. eapply G; eauto. }
    apply Forall2_app_inv_l in A2. destruct A2 as (t1 & g1 & A2 & A2g & ->).
    apply Forall2_app_inv_l in A3. destruct A3 as (t1' & g1' & A3 & A3g & Q).
    assert (t1' = t1 /\ g1' = g1) as (-> & ->).
    { apply Forall2_len in A2, A3. rewrite A2 in A3. clear - Q A3. revert t1' Q A3.
      induction t1 as [|a t1 IH]; intros [|b t1'] Q L; try discriminate L; cbn in Q; [auto|].
      injection Q as -> Q. injection L as L. destruct (IH _ Q L) as (-> & ->). auto. }
    exists (st' :: t1), (g1 ++ news).
    rewrite <- app_assoc in A1. cbn [app] in A1. rewrite <- app_assoc in A1. split; [exact A1|].
    assert (Gids : forall g, In g gen -> exists g', In g' all /\ ws_id g' = ws_id g).
    { intros g G. destruct (Forall2_in_l _ _ _ _ A2g G) as (g' & G' & SA). exists g'.
      split; [|apply (sa_id _ _ _ SA)]. rewrite A1. rewrite !in_app_iff. cbn. rewrite !in_app_iff. auto. }
    split; [constructor; auto; eapply StepAfter_mono; [exact Gids | exact B1]|].
    split; [constructor; auto|]. split.
    { apply Forall_app. split; auto. apply Forall_forall. intros g' G'.
      destruct (Forall2_in_r _ _ _ _ A2g G') as (g & G & SA). unfold made_name. rewrite (sa_id _ _ _ SA).
      rewrite Forall_forall in B3. destruct (B3 g G) as [N | (N & _)]; [left; apply startswith_spec; eapply step_name_expression; exact N | right; left; rewrite N; eexists; reflexivity]. }
    split.
    { apply Forall_app. split; auto. apply Forall_forall. intros g' G'.
      destruct (Forall2_in_r _ _ _ _ A3g G') as (g & G & SA). apply SA. rewrite Forall_forall in B2. auto. }
    split; auto. intros M. destruct (A7 M) as (M1 & Q1 & -> & W). apply orb_false_iff in M1. destruct M1 as (-> & ->).
    destruct (Bm eq_refl) as (-> & -> & ->). inversion A2g; subst. rewrite !app_nil_r in Q1. subst. auto.
  Qed.

  (** ** Outputs *)
  Definition pick_made (outs : list woutput) (g : wstep) : Prop :=
    StartsWith "_pickValue_workflow_step_" (ws_id g) /\ gives g /\
    forall i x, In i (ws_in g) -> Mentions (si_source i) x -> exists o y, In o outs /\ Mentions (wo_source o) y /\ Fragment y x.

  Lemma pick_loop_ok wreqs : forall todo done_ steps m outs all m',
    pick_loop out_known replace_etool wreqs done_ todo steps m = Ok (outs, all, m') ->
    exists outs' new, outs = done_ ++ outs' /\ all = steps ++ new /\ Forall2 (OutAfter new) todo outs' /\
      Forall (pick_made todo) new /\ (m' = false -> m = false /\ outs' = todo /\ new = []).
  Proof.
    induction todo as [|o todo IH]; intros done_ steps m outs all m' E; cbn [pick_loop] in E.
    { injection E as <- <- <-. exists [], []. rewrite !app_nil_r. repeat split; auto. }
    assert (W : forall g, pick_made todo g -> pick_made (o :: todo) g).
    { intros g (A & B & C). repeat split; auto. intros i x I M. destruct (C i x I M) as (o' & y & O & R). exists o', y. cbn; auto. }
    destruct (filled (wo_pick o)) as [p|] eqn:Fp.
    - binv E expr Ee. binv E sources Es. binv E u Eu.
      destruct (IH _ _ _ _ _ _ E) as (outs' & new & A1 & A2 & A3 & A4 & A5).
      set (name := ("_pickValue_workflow_step_" ++ after_hash (wo_id o))%string) in *.
      set (g := expr_step replace_etool [jsreqs wreqs] name sources expr) in *.
      rewrite <- app_assoc in A1, A2. eexists (_ :: outs'), (g :: new). split; [exact A1|]. split; [exact A2|]. split; [|split].
      + constructor.
        * right. exists (after_hash (wo_id o)), g. split; [apply Fragment_after_hash|]. split; [left; reflexivity|].
          split; [reflexivity|]. split; [exists p; apply filled_Some; exact Fp | reflexivity].
        * eapply Forall2_mono; [|exact A3]. intros a b [-> | (n & g' & F & G & R)]; [left; reflexivity|]. right. exists n, g'. cbn; auto.
      + constructor; [|eapply Forall_impl; [exact W | exact A4]]. split; [eexists; reflexivity|]. split.
        * eexists. split; [reflexivity|]. destruct replace_etool; reflexivity.
        * intros i x I M. cbn [expr_step gen_step ws_in] in I. subst g. cbn [expr_step gen_step ws_in] in I.
          destruct (sourced sources); [|destruct I]. destruct I as [<- | []]. cbn [si_source] in M.
          exists o. destruct (wo_source o) as [|y|l]; cbn in Es; try discriminate; injection Es as <-.
          -- apply mentions_one in M. subst x. exists y. cbn. split; auto. split; [left; reflexivity | apply Fragment_after_hash].
          -- destruct M as [M | (l' & M & I)]; [discriminate|]. injection M as <-. apply in_map_iff in I.
             destruct I as (y & <- & I). exists y. cbn. split; auto. split; [right; eauto | apply Fragment_after_hash].
      + intros M. destruct (A5 M) as (Q & _). discriminate Q.
    - destruct (IH _ _ _ _ _ _ E) as (outs' & new & A1 & A2 & A3 & A4 & A5).
      rewrite <- app_assoc in A1. exists (o :: outs'), new. repeat split; auto.
      + constructor; auto. left; reflexivity.
      + eapply Forall_impl; [exact W | exact A4].
      + destruct (A5 H) as (? & -> & ?). auto.
      + destruct (A5 H) as (? & -> & ?). auto.
      + destruct (A5 H) as (? & -> & ?). auto.
  Qed.

  (** ** Requirements of the workflow *)
  Definition named (new : list wstep) (e : string * string) : Prop :=
    startswith "_" (snd e) = true /\ exists g, In g new /\ ws_id g = fst e.
  Record wq_ok (base : list wstep) (q : wrq) (new : list wstep) : Prop := {
    wq_steps : q_steps q = base ++ new;
    wq_made : Forall (made (step_name "workflow") []) new;
    wq_env : Forall (named new) (q_genv q);
    wq_res : Forall (named new) (q_gres q);
    wq_iwd : Forall (fun n => exists g, In g new /\ ws_id g = n) (q_giwd q);
    wq_quiet : q_mod q = false -> new = [] /\ q_env q = None /\ q_res q = None /\ q_giwd q = [] /\
                 q_penv q = false /\ q_pres q = false /\ q_piwd q = false }.
  Definition iwd_name : string := "_expression_workflow_InitialWorkDirRequirement".
  Definition iwd_ok (q : wrq) (new : list wstep) : Prop :=
    q_iwd q <> None -> q_giwd q = [] -> q_mod q = true /\ exists g, In g new /\ ws_id g = iwd_name.

  Lemma wname r : step_name "workflow" ("_expression_" ++ "workflow" ++ String "_" r).
  Proof. exists "workflow", r. auto. Qed.
  Lemma named_mono n1 n2 e : incl n1 n2 -> named n1 e -> named n2 e.
  Proof. intros S (A & g & G & B). split; auto. eauto. Qed.
  Lemma named_all n1 n2 l : incl n1 n2 -> Forall (named n1) l -> Forall (named n2) l.
  Proof. intros S. apply Forall_impl. intros e. apply named_mono. exact S. Qed.
  Lemma names_all n1 n2 (l : list string) : incl n1 n2 -> Forall (fun n => exists g : wstep, In g n1 /\ ws_id g = n) l ->
    Forall (fun n => exists g, In g n2 /\ ws_id g = n) l.
  Proof. intros S. apply Forall_impl. intros e (g & G & B). eauto. Qed.

  Lemma wrq_env_ok base wl inputs req defs : forall k q q' new,
    wrq_env gx replace_etool wl inputs req k defs q = Ok q' -> wq_ok base q new -> iwd_ok q new ->
    exists new', wq_ok base q' (new ++ new') /\ iwd_ok q' (new ++ new').
  Proof.
    induction defs as [|(n, v) defs IH]; intros k q q' new E K I; cbn [wrq_env] in E.
    { injection E as <-. exists []. rewrite app_nil_r. auto. }
    binv E x Ex. destruct x as [expr|].
    - cbn zeta in E. binv E nw En. destruct K as [A1 A2 A3 A4 A5 A6].
      set (g := expr_step replace_etool [wl] _ SNone expr) in E.
      assert (S : incl new (new ++ [g])) by (intros z Z; apply in_or_app; auto).
      destruct (IH _ _ _ (new ++ [g]) E) as (n2 & K2).
      + split; cbn [q_steps q_genv q_gres q_giwd q_mod q_env q_res q_penv q_pres q_piwd] in *.
        * rewrite A1, app_assoc. reflexivity.
        * apply Forall_app. split; auto. constructor; auto. apply expr_made. apply wname.
        * apply Forall_app. split; [eapply named_all; eauto|]. constructor; auto.
          split; [apply (startswith_app "_")|]. exists g. split; [apply in_or_app; right; left; reflexivity | reflexivity].
        * eapply named_all; eauto.
        * eapply names_all; eauto.
        * discriminate.
      + intros X Y. cbn [q_iwd q_giwd q_mod] in *. destruct (I X Y) as (_ & h & H & N). split; auto. exists h. auto.
      + exists (g :: n2). rewrite <- app_assoc in K2. exact K2.
    - eapply IH; [exact E | | exact I]. destruct K. split; auto.
  Qed.

  Lemma wrq_res_ok base wl inputs values l : forall q q' new,
    wrq_res gx replace_etool wl inputs values l q = Ok q' -> wq_ok base q new -> iwd_ok q new ->
    exists new', wq_ok base q' (new ++ new') /\ iwd_ok q' (new ++ new').
  Proof.
    induction l as [|a l IH]; intros q q' new E K I; cbn [wrq_res] in E.
    { injection E as <-. exists []. rewrite app_nil_r. auto. }
    binv E x Ex. destruct x as [expr|]; [|eapply IH; eauto].
    destruct K as [A1 A2 A3 A4 A5 A6]. cbn zeta in E.
    set (g := expr_step replace_etool [wl] _ SNone expr) in E.
    assert (S : incl new (new ++ [g])) by (intros z Z; apply in_or_app; auto).
    destruct (IH _ _ (new ++ [g]) E) as (n2 & K2).
    + split; cbn [q_steps q_genv q_gres q_giwd q_mod q_env q_res q_penv q_pres q_piwd] in *.
      * rewrite A1, app_assoc. reflexivity.
      * apply Forall_app. split; auto. constructor; auto. apply expr_made. apply wname.
      * eapply named_all; eauto.
      * apply Forall_app. split; [eapply named_all; eauto|]. constructor; auto.
        split; [apply (startswith_app "_")|]. exists g. split; [apply in_or_app; right; left; reflexivity | reflexivity].
      * eapply names_all; eauto.
      * discriminate.
    + intros X Y. cbn [q_iwd q_giwd q_mod] in *. destruct (I X Y) as (_ & h & H & N). split; auto. exists h. auto.
    + exists (g :: n2). rewrite <- app_assoc in K2. exact K2.
  Qed.

  Lemma wrq_entries_ok base wl inputs l : forall k q q' new,
    wrq_entries gx ev replace_etool wl inputs k l q = Ok q' -> wq_ok base q new ->
    exists new', wq_ok base q' (new ++ new').
  Proof.
    induction l as [|e l IH]; intros k q q' new E K; cbn [wrq_entries] in E.
    { injection E as <-. exists []. rewrite app_nil_r. auto. }
    binv E q1 E1. set (q0 := {| q_steps := q_steps q; q_index := k |}) in E1.
    assert (K0 : wq_ok base q0 new) by (destruct K; split; auto). clearbody q0. clear K q.
    set (name := ("_expression_workflow_InitialWorkDirRequirement_" ++ str_nat k)%string) in *.
    assert (Put : forall expr, (do new <- match q_iwd q0 with
                    | Some (LList li) => set_nth k (EText ("$(inputs._iwdr_listing_" ++ str_nat k)) li
                    | _ => Err AttributeError
                    end;
          Ok {| q_steps := q_steps q0 ++ [expr_step replace_etool [wl] name SNone expr]; q_mod := true; q_index := k;
                q_env := q_env q0; q_genv := q_genv q0; q_res := q_res q0; q_gres := q_gres q0;
                q_iwd := Some (LList new); q_giwd := q_giwd q0 ++ [name];
                q_penv := q_penv q0; q_pres := q_pres q0; q_piwd := q_piwd q0 |}) = Ok q1 ->
       exists new', wq_ok base q1 (new ++ new')).
    { intros expr Q. binv Q nw En. injection Q as <-. destruct K0 as [A1 A2 A3 A4 A5 A6].
      set (g := expr_step replace_etool [wl] name SNone expr) in *. exists [g].
      assert (S : incl new (new ++ [g])) by (intros z Z; apply in_or_app; auto).
      split; cbn [q_steps q_genv q_gres q_giwd q_mod q_env q_res q_penv q_pres q_piwd] in *.
      * rewrite A1, app_assoc. reflexivity.
      * apply Forall_app. split; auto. constructor; auto. apply expr_made. apply wname.
      * eapply named_all; eauto.
      * eapply named_all; eauto.
      * apply Forall_app. split; [eapply names_all; eauto|]. constructor; auto. exists g. split; [apply in_or_app; right; left; reflexivity | reflexivity].
      * discriminate. }
    assert (P1 : exists new', wq_ok base q1 (new ++ new')).
    { assert (Same : Ok q0 = Ok q1 -> exists new', wq_ok base q1 (new ++ new')).
      { intros Q. injection Q as <-. exists []. rewrite app_nil_r. exact K0. }
      destruct e as [s|en enm|j]; auto.
      - binv E1 x Ex. destruct x as [expr|]; auto. exact (Put expr E1).
      - destruct (filled en) as [txt|].
        + binv E1 x Ex. destruct x as [expr|]; auto. binv E1 y Ey. discriminate.
        + destruct (filled enm) as [nm|]; auto. binv E1 x Ex. destruct x as [expr|]; auto. exact (Put expr E1). }
    destruct P1 as (n1 & P1). destruct (IH _ _ _ _ E P1) as (n2 & P2). exists (n1 ++ n2). rewrite app_assoc. exact P2.
  Qed.

  Lemma wrq_iwd_ok base wl inputs l q q' new :
    wrq_iwd gx ev replace_etool wl inputs l q = Ok q' -> wq_ok base q new -> iwd_ok q new ->
    exists new', wq_ok base q' (new ++ new') /\ iwd_ok q' (new ++ new').
  Proof.
    intros E K I. assert (Same : Ok q = Ok q' -> exists new', wq_ok base q' (new ++ new') /\ iwd_ok q' (new ++ new')).
    { intros Q. injection Q as <-. exists []. rewrite app_nil_r. auto. }
    unfold wrq_iwd in E. destruct l as [|s|[|e l]|s]; auto.
    - destruct (String.eqb s ""); auto. binv E x Ex. destruct x as [expr|]; auto. injection E as <-.
      destruct K as [A1 A2 A3 A4 A5 A6].
      set (g := expr_step replace_etool [wl] _ SNone expr). exists [g].
      assert (S : incl new (new ++ [g])) by (intros z Z; apply in_or_app; auto).
      split; [split|]; cbn [q_steps q_genv q_gres q_giwd q_mod q_env q_res q_penv q_pres q_piwd] in *.
      * rewrite A1, app_assoc. reflexivity.
      * apply Forall_app. split; auto. constructor; auto. apply expr_made. apply (wname "InitialWorkDirRequirement").
      * eapply named_all; eauto.
      * eapply named_all; eauto.
      * eapply names_all; eauto.
      * discriminate.
      * intros _ _. split; [reflexivity|]. exists g. split; [apply in_or_app; right; left; reflexivity | reflexivity].
    - binv E q1 E1. injection E as <-.
      apply (wrq_entries_ok base _ _ _ _ _ _ new) in E1; [|destruct K; split; auto].
      destruct E1 as (n1 & [A1 A2 A3 A4 A5 A6]). exists n1. split.
      + split; auto. cbn [q_steps q_genv q_gres q_giwd q_mod q_env q_res q_penv q_pres q_piwd].
        intros M. destruct (A6 M) as (? & ? & ? & G & ? & ? & ?). rewrite G. auto 10.
      + intros X Y. cbn [q_iwd q_giwd] in *. rewrite Y in X. congruence.
  Qed.

  Lemma wrq_reqs_ok base wl inputs l : forall q q' new,
    wrq_reqs gx ev attrs replace_etool wl inputs l q = Ok q' -> wq_ok base q new -> iwd_ok q new ->
    exists new', wq_ok base q' (new ++ new') /\ iwd_ok q' (new ++ new').
  Proof.
    induction l as [|r l IH]; intros q q' new E K I; cbn [wrq_reqs] in E.
    { injection E as <-. exists []. rewrite app_nil_r. auto. }
    binv E q1 E1.
    assert (P1 : exists new', wq_ok base q1 (new ++ new') /\ iwd_ok q1 (new ++ new')).
    { assert (Same : Ok q = Ok q1 -> exists new', wq_ok base q1 (new ++ new') /\ iwd_ok q1 (new ++ new')).
      { intros Q. injection Q as <-. exists []. rewrite app_nil_r. auto. }
      destruct r; auto; [eapply wrq_env_ok | eapply wrq_res_ok | eapply wrq_iwd_ok]; eauto. }
    destruct P1 as (n1 & P1 & I1). destruct (IH _ _ _ E P1 I1) as (n2 & P2). exists (n1 ++ n2). rewrite app_assoc. exact P2.
  Qed.

  (** a step that got requirements and inputs *)
  Record ext (new : list wstep) (s s' : wstep) : Prop := {
    ex_id : ws_id s' = ws_id s; ex_run : ws_run s' = ws_run s;
    ex_scatter : ws_scatter s' = ws_scatter s; ex_method : ws_scatterMethod s' = ws_scatterMethod s;
    ex_when : ws_when s' = ws_when s;
    ex_reqs : exists added, (match ws_reqs s' with Some l => l | None => [] end)
                            = (match ws_reqs s with Some l => l | None => [] end) ++ added;
    ex_in : exists extra, ws_in s' = ws_in s ++ extra /\ Forall (fed new) extra }.
  Lemma ext_refl new s : ext new s s.
  Proof. split; auto; exists []; rewrite app_nil_r; auto. Qed.
  Lemma ext_trans new a b c : ext new a b -> ext new b c -> ext new a c.
  Proof.
    intros [A1 A2 A3 A4 A5 (x & A6) (y & A7 & A8)] [B1 B2 B3 B4 B5 (x' & B6) (y' & B7 & B8)]. split; try congruence.
    - exists (x ++ x'). rewrite B6, A6, app_assoc. reflexivity.
    - exists (y ++ y'). rewrite B7, A7, app_assoc. split; auto. apply Forall_app. auto.
  Qed.
  Lemma add_req_ext new r ins s : Forall (fed new) ins -> ext new s (add_req r ins s).
  Proof.
    intros F. unfold add_req. destruct (own_step s); [|apply ext_refl]. split; auto.
    - exists [r]. reflexivity.
    - exists ins. auto.
  Qed.
  Lemma map_ext2 new (f : wstep -> wstep) base l : (forall s, ext new s (f s)) -> Forall2 (ext new) base l -> Forall2 (ext new) base (map f l).
  Proof. intros H F. induction F; constructor; auto. eapply ext_trans; eauto. Qed.

  Lemma feeds new l : Forall (named new) l -> Forall (fed new) (map (fun e => feed (snd e) (fst e ++ "/result")) l).
  Proof.
    intros F. apply Forall_forall. intros i I. apply in_map_iff in I. destruct I as (e & <- & I).
    rewrite Forall_forall in F. destruct (F e I) as (U & g & G & N). split; [exact U|]. split; [reflexivity|].
    right. exists g. split; auto. cbn. rewrite N. reflexivity.
  Qed.

  Lemma iwd_feeds new k l : Forall (fun n => exists g, In g new /\ ws_id g = n) l ->
    Forall (fed new) (map (fun n => feed ("_iwdr_listing_" ++ str_nat k) (n ++ "/result")) l).
  Proof.
    intros F. apply Forall_forall. intros i I. apply in_map_iff in I. destruct I as (e & <- & I).
    rewrite Forall_forall in F. destruct (F e I) as (g & G & N). split; [apply (startswith_app "_")|]. split; [reflexivity|].
    right. exists g. split; auto. cbn. rewrite N. reflexivity.
  Qed.

  Lemma process_reqs_ok winputs wreqs steps wreqs' all m :
    process_reqs gx ev attrs replace_etool winputs wreqs steps = Ok (wreqs', all, m) ->
    exists new, Forall (made (step_name "workflow") []) new /\ Forall2 (ext new) (steps ++ new) all /\
      (m = false -> new = [] /\ all = steps /\ wreqs' = wreqs).
  Proof.
    unfold process_reqs. intros E. binv E q Eqq. injection E as <- <- <-.
    apply (wrq_reqs_ok steps _ _ _ _ _ []) in Eqq; [| split; cbn; auto 10 using app_nil_r | intros X; cbn in X; congruence].
    destruct Eqq as (new & [A1 A2 A3 A4 A5 A6] & I). cbn [app] in *. exists new. split; auto.
    assert (F0 : Forall2 (ext new) (steps ++ new) (q_steps q)) by (rewrite A1; apply Forall2_refl; intros; apply ext_refl).
    split.
    - set (s1 := match q_env q with Some d => _ | None => _ end).
      assert (F1 : Forall2 (ext new) (steps ++ new) s1).
      { subst s1. destruct (q_env q); auto. apply map_ext2; auto. intros s. apply add_req_ext. apply feeds. auto. }
      set (s2 := match q_res q with Some d => _ | None => _ end).
      assert (F2 : Forall2 (ext new) (steps ++ new) s2).
      { subst s2. destruct (q_res q); auto. apply map_ext2; auto. intros s. apply add_req_ext. apply feeds. auto. }
      destruct (q_iwd q) as [li|] eqn:Ei; auto. apply map_ext2; auto. intros s. apply add_req_ext.
      destruct (q_giwd q) as [|n l] eqn:Eg.
      + destruct I as (_ & g & G & N); [congruence | auto |]. constructor; auto. split; [reflexivity|]. split; [reflexivity|].
        right. exists g. split; auto. cbn. rewrite N. reflexivity.
      + exact (iwd_feeds new (q_index q) (n :: l) A5).
    - intros M. destruct (A6 M) as (-> & -> & -> & G & P1 & P2 & P3). rewrite app_nil_r in A1.
      assert (Ei : q_iwd q = None). { destruct (q_iwd q) eqn:Ei; auto. destruct I as (X & _); congruence. }
      rewrite Ei. repeat split; auto. destruct wreqs as [l|]; auto. f_equal.
      clear - P1 P2 P3. induction l as [|r l IH]; cbn; auto. rewrite IH. destruct r; cbn; rewrite ?P1, ?P2, ?P3; reflexivity.
  Qed.

  (** ** The whole *)
  Definition loaded (st st' : wstep) : Prop :=
    st' = with_run (ws_run st') st.
  Lemma load_step_ok st st' m : load_step load_run replace_etool st = Ok (st', m) ->
    loaded st st' /\ (m = false -> forall t, ws_run st = RTool t -> st' = st).
  Proof.
    unfold load_step, loaded. destruct (ws_run st) as [u|t|ids] eqn:R.
    - intros E. binv E r Er. injection E as <- <-. split; [reflexivity|]. discriminate.
    - destruct (is_etool t && replace_etool).
      + intros E. injection E as <- <-. split; [reflexivity | discriminate].
      + intros E. injection E as <- <-. split; [|auto]. destruct st; reflexivity.
    - intros E. injection E as <- <-. split; [|auto]. destruct st; reflexivity.
  Qed.

  Lemma StepAfter_ext all new st s s' : StepAfter all st s -> ext new s s' -> StepAfter all st s'.
  Proof.
    intros [A1 A2 A3 (ad & A4) (old & nw & A5 & A6 & A7) A8] [B1 B2 B3 B4 B5 (x' & B6) (y' & B7 & B8)]. split; try congruence.
    - exists (ad ++ x'). rewrite B6, A4, app_assoc. reflexivity.
    - exists old, (nw ++ y'). rewrite B7, A5, app_assoc. split; auto. split; auto. apply Forall_app. split; auto.
      eapply Forall_impl; [|exact B8]. intros e (U & _). apply startswith_spec. exact U.
    - rewrite B5. destruct A8 as [A8 | (A8 & g & i & G & I & R)]; auto. right. split; auto. exists g, i. split; auto. split; auto.
      rewrite B7. apply in_or_app; auto.
  Qed.
  Lemma StepAfter_loaded all st s s' : loaded st s -> StepAfter all s s' -> StepAfter all st s'.
  Proof. intros L A. rewrite L in A. destruct A as [A1 A2 A3 A4 A5 A6]. split; auto. Qed.

  Lemma mapM_Forall2 {A B} (f : A -> result B) l l' : mapM f l = Ok l' -> Forall2 (fun a b => f a = Ok b) l l'.
  Proof.
    revert l'. induction l as [|a l IH]; intros l' E; cbn [mapM] in E; [injection E as <-; constructor|].
    binv E b Eb. binv E r Er. injection E as <-. constructor; auto.
  Qed.

  Theorem traverse_workflow_ok fuel w w' m :
    traverse_workflow gx ev src_example self_example src_params src_known out_known load_run attrs replace_etool skip1 skip2 fuel w
      = Ok (w', m) ->
    Closed w w' /\ wf_inputs w' = wf_inputs w /\ Forall2 (OutAfter (wf_steps w')) (wf_outputs w) (wf_outputs w') /\
    (exists olds news, wf_steps w' = olds ++ news /\ Forall2 (StepAfter (wf_steps w')) (wf_steps w) olds /\
       Forall (fun g => MadeName (ws_id g) /\ GivesResult g) news) /\
    (m = false -> Forall2 (fun st st' => st' = with_run (ws_run st') st /\ forall t, ws_run st = RTool t -> st' = st) (wf_steps w) (wf_steps w') /\
                  wf_outputs w' = wf_outputs w).
  Proof.
    unfold traverse_workflow. intros E. binv E ls El. binv E r Er. destruct r as [[wr1 s1] m1].
    binv E u Eu. binv E p Ep. destruct p as [[outs s2] m2]. binv E q Eqq. destruct q as [[wr3 s3] m3].
    injection E as <- <-. cbn [wf_inputs wf_outputs wf_steps].
    apply mapM_Forall2 in El.
    assert (Lo : Forall2 loaded (wf_steps w) (map fst ls)).
    { clear - El. induction El as [|st (st', ml) a b H F IH]; cbn; constructor; auto. apply load_step_ok in H. tauto. }
    assert (InLo : forall s, In s (map fst ls) -> exists s0, In s0 (wf_steps w) /\ ws_in s = ws_in s0).
    { intros s S. destruct (Forall2_in_r _ _ _ _ Lo S) as (s0 & S0 & L). exists s0. split; auto. rewrite L. reflexivity. }
    set (P := OldSource w).
    assert (PF : forall x y, P x -> Fragment x y -> P y).
    { intros x y (z & [-> | F] & Z) G; exists z; split; auto. right. eapply Fragment_twice; eauto. }
    assert (Own : forall s, In s (map fst ls) -> own_srcs P s).
    { intros s S i x I M. destruct (InLo s S) as (s0 & S0 & Q). exists x. split; auto. left. exists s0, i. rewrite <- Q. auto. }
    destruct (steps_loop_ok P PF _ _ _ _ _ _ _ _ Er) as (t' & n1 & A1 & A2 & A3 & A4 & A5 & A6 & A7).
    { apply Forall_forall. intros s S i x I M. left. exact (Own s S i x I M). }
    { apply Forall_forall. intros s S. right. apply Own; exact S. }
    cbn [app] in A1.
    destruct (pick_loop_ok _ _ _ _ _ _ _ _ Ep) as (outs' & n2 & B1 & B2 & B3 & B4 & B5). cbn [app] in B1. subst outs'.
    destruct (process_reqs_ok _ _ _ _ _ _ Eqq) as (n3 & C1 & C2 & C3).
    assert (Ext : forall g, In g (s2 ++ n3) -> exists g', In g' s3 /\ ext n3 g g').
    { intros g G. exact (Forall2_in_l _ _ _ _ C2 G). }
    assert (Ids : forall g, In g (s2 ++ n3) -> exists g', In g' s3 /\ ws_id g' = ws_id g).
    { intros g G. destruct (Ext g G) as (g' & G' & X). exists g'. split; auto. apply (ex_id _ _ _ X). }
    assert (Gv : forall g, In g (s2 ++ n3) -> gives g -> exists g', In g' s3 /\ gives g' /\ ws_id g' = ws_id g).
    { intros g G (t & R & O). destruct (Ext g G) as (g' & G' & X). exists g'. split; auto. split; [|apply (ex_id _ _ _ X)].
      exists t. rewrite (ex_run _ _ _ X). auto. }
    assert (Gm : forall g, In g n3 -> gives g).
    { intros g G. rewrite Forall_forall in C1. destruct (C1 g G) as (_ & Q & _). exact Q. }
    (* every source of every step *)
    assert (All : forall s, In s s3 -> srcs_ok P s3 s).
    { assert (Pre : forall s, In s (s2 ++ n3) -> srcs_ok P s3 s).
      { intros s S. apply in_app_or in S. destruct S as [S | S].
        - rewrite B2 in S. apply in_app_or in S. destruct S as [S | S].
          + rewrite Forall_forall in A6. eapply srcs_keep; [|exact (A6 s S)]. intros g G. apply Gv.
            apply in_or_app. left. rewrite B2. apply in_or_app. auto.
          + rewrite Forall_forall in B4. destruct (B4 s S) as (_ & _ & Q). intros i x I M. left.
            destruct (Q i x I M) as (o & y & O & My & F). exists y. split; auto. right. eauto.
        - rewrite Forall_forall in C1. destruct (C1 s S) as (_ & _ & Q). intros i x I M. destruct (Q i I) as (j & J & _). destruct J. }
      intros s S. destruct (Forall2_in_r _ _ _ _ C2 S) as (s0 & S0 & [X1 X2 X3 X4 X5 X6 (extra & X7 & X8)]).
      intros i x I M. rewrite X7 in I. apply in_app_or in I. destruct I as [I | I]; [exact (Pre s0 S0 i x I M)|].
      rewrite Forall_forall in X8. destruct (X8 i I) as (_ & _ & [N | (g & G & N)]); rewrite N in M.
      - destruct M as [M | (l & M & _)]; discriminate.
      - apply mentions_one in M. right. destruct (Gv g) as (g' & G' & H & Q); auto; [apply in_or_app; auto|].
        exists g'. rewrite Q. auto. }
    split.
    { split; cbn [wf_steps wf_outputs].
      - intros s i x S I M. destruct (All s S i x I M) as [Q | (g & G & H & ->)]; [left; exact Q|]. right. exists g. auto using gives_GivesResult.
      - intros o x O M. destruct (Forall2_in_r _ _ _ _ B3 O) as (o0 & O0 & [-> | (n & g & F & G & N & V & ->)]).
        + left. exists x. split; auto. right. eauto.
        + cbn [wo_source] in M. apply mentions_one in M. right. rewrite Forall_forall in B4. destruct (B4 g G) as (_ & H & _).
          destruct (Gv g) as (g' & G' & H' & Q); auto; [apply in_or_app; left; rewrite B2; apply in_or_app; auto|].
          exists g'. rewrite Q. auto using gives_GivesResult. }
    split; [reflexivity|]. split.
    { eapply Forall2_mono; [|exact B3]. intros a b [-> | (n & g & F & G & N & V & ->)]; [left; reflexivity|]. right.
      destruct (Ids g) as (g' & G' & Q); [apply in_or_app; left; rewrite B2; apply in_or_app; auto|].
      exists n, g'. rewrite Q. auto 10. }
    split.
    - rewrite B2, A1, <- !app_assoc in C2. apply Forall2_app_inv_l in C2. destruct C2 as (olds & news & C2 & C2n & Es3).
      exists olds, news. split; auto. split.
      + assert (F : Forall2 (StepAfter s3) (map fst ls) t').
        { eapply Forall2_mono; [|exact A2]. intros a b. apply StepAfter_mono. intros g G. apply Ids.
          apply in_or_app. left. rewrite B2. apply in_or_app. auto. }
        clear - Lo F C2. revert t' olds F C2. induction Lo as [|a b la lb H L IH]; intros t' olds F C2.
        * inversion F; subst. inversion C2; subst. constructor.
        * inversion F as [|? c ? lc F1 F2]; subst. inversion C2 as [|? d ? ld G1 G2]; subst. constructor; [|eauto].
          eapply StepAfter_ext; [|exact G1]. eapply StepAfter_loaded; eauto.
      + apply Forall_forall. intros g' G'. destruct (Forall2_in_r _ _ _ _ C2n G') as (g & G & X).
        assert (Q : MadeName (ws_id g) /\ gives g).
        { rewrite !in_app_iff in G. destruct G as [G | [G | G]].
          - rewrite Forall_forall in A4, A5. split; [apply A4 | apply A5]; exact G.
          - rewrite Forall_forall in B4. destruct (B4 g G) as (N & H & _). split; auto. right; right; exact N.
          - rewrite Forall_forall in C1. destruct (C1 g G) as (N & H & _). split; auto. left. apply startswith_spec. eapply step_name_expression. exact N. }
        rewrite (ex_id _ _ _ X). split; [tauto|]. destruct Q as (_ & t & R & O). exists t. rewrite (ex_run _ _ _ X), O. auto.
    - intros M. rewrite !orb_false_iff in M. destruct M as ((M1 & M2) & M3).
      destruct (C3 M3) as (_ & -> & _). destruct (B5 M2) as (_ & -> & ->). destruct (A7 M1) as (Ms & -> & -> & _).
      rewrite B2, A1, !app_nil_r. split; [|reflexivity]. clear - El Ms.
      induction El as [|st (st', ml) a b H F IH]; cbn; constructor.
      + cbn in Ms. apply orb_false_iff in Ms. destruct Ms as (-> & _). apply load_step_ok in H. destruct H as (L & K). split; [exact L | exact (K eq_refl)].
      + apply IH. cbn in Ms. apply orb_false_iff in Ms. tauto.
  Qed.
End Flow.
