(** * Lemmas on the requirements of a workflow: the whole refactoring *)
From Verif Require Import PyBase PyBaseProofs PackModel ExprModel EvalModel RefactorModel RefactorSpec RefactorProofs
  FlowModel FlowSpec FlowProofs FlowProofs2 FlowTrace FlowValueSpec FlowValueProofs FlowReqSpec FlowReqProofs.

Lemma str_nat_no_hash n : has_char "#" (str_nat n) = false.
Proof.
  assert (U : forall u, has_char "#" (DecimalString.NilEmpty.string_of_uint u) = false) by (induction u; auto).
  unfold str_nat, DecimalString.NilZero.string_of_uint. destruct (Nat.to_uint n); try reflexivity; apply (U (_ _)).
Qed.
Lemma own_Own st : own_step st = true <-> Own st.
Proof.
  unfold own_step, Own. rewrite negb_true_iff. split.
  - intros H n F S. apply after_hash_Fragment in F. rewrite F in H. apply startswith_spec in S. congruence.
  - intros H. destruct (startswith "_expression_" (after_hash (ws_id st))) eqn:S; auto. exfalso.
    apply startswith_spec in S. apply (H (after_hash (ws_id st))); auto. apply after_hash_Fragment. reflexivity.
Qed.
Lemma not_own_Own st : own_step st = false <-> ~ Own st.
Proof. rewrite <- own_Own. destruct (own_step st); split; congruence. Qed.
Lemma Own_id s s' : ws_id s' = ws_id s -> Own s' <-> Own s.
Proof. unfold Own. intros ->. tauto. Qed.

Section Whole.
  Variable gx : json -> json -> json -> result (option string).
  Variable ev : string -> json -> result json.
  Variable src_example self_example : list wstep -> wstep -> src -> result json.
  Variable src_params : list wstep -> src -> result nat.
  Variable src_known : list wstep -> wstep -> string -> result unit.
  Variable out_known : list wstep -> src -> result unit.
  Variable load_run : string -> result (tool * bool).
  Variable attrs : list string.
  Variable replace_etool skip1 skip2 : bool.
  Notation tstep := (traverse_step gx src_example self_example src_params src_known attrs replace_etool skip1 skip2).
  Notation sloop := (steps_loop gx src_example self_example src_params src_known attrs replace_etool skip1 skip2).
  Notation refactored fuel w := (traverse_workflow gx ev src_example self_example src_params src_known out_known load_run attrs
                                   replace_etool skip1 skip2 fuel w).
  Notation reqs_run wl inputs l q := (wrq_reqs gx ev attrs replace_etool wl inputs l q).

  Lemma tstep_reqs wreqs pre post st st' gen m sub : tstep wreqs pre post st = Ok (st', gen, m, sub) ->
    ws_reqs st' = ws_reqs st /\ ws_id st' = ws_id st.
  Proof.
    unfold traverse_step. intros E. binv E mock Em.
    destruct (String.eqb (ws_id st) ""); [injection E as <- <- <- <-; auto|].
    binv E v Ev. destruct v as [s1 g1]. binv E x Ex. binv E w Ew. binv E p Ep. binv E c Ec.
    destruct w as [s2 g2], p as [[s3 g3] m3], c as [[[s4 g4] m4] sub4]. cbn [fst snd] in *. injection E as <- <- <- <-.
    assert (K1 : ws_reqs s1 = ws_reqs st /\ ws_id s1 = ws_id st).
    { destruct (value_loop_ok _ _ _ _ _ _ _ _ _ _ _ _ _ _ _ _ _ Ev (incl_refl _)) as (d & new & A1 & _). rewrite A1. auto. }
    assert (K2 : ws_reqs s2 = ws_reqs st /\ ws_id s2 = ws_id st).
    { destruct x as [expr|]; [|injection Ew as <- <-; exact K1].
      binv Ew r Er. destruct r as [s2' gw]. cbn [fst snd] in Ew. injection Ew as <- <-.
      apply when_ok in Er. destruct Er as (-> & _). exact K1. }
    assert (K3 : ws_reqs s3 = ws_reqs st /\ ws_id s3 = ws_id st).
    { destruct (level_reqs_evolves (fun _ => True) _ _ _ _ _ _ _ (fun _ => I) _ _ _ _ Ep) as (n3 & _ & V & _).
      rewrite (ev_reqs _ _ _ _ V), (ev_id _ _ _ _ V). exact K2. }
    destruct (ws_run st) as [u|t|ids]; try (injection Ec as <- <- <- <-; exact K3).
    destruct (is_clt t); [|injection Ec as <- <- <- <-; exact K3].
    destruct (clt_evolves (fun _ => True) _ _ _ _ _ _ _ (fun _ => I) _ _ _ _ _ Ec) as (n4 & _ & V & _).
    rewrite (ev_reqs _ _ _ _ V), (ev_id _ _ _ _ V). exact K3.
  Qed.

  Definition list_of (o : option (list wreq)) : list wreq := match o with Some l => l | None => [] end.
  Lemma need_subwf_adds wreqs : exists tail, list_of (need_subwf wreqs) = list_of wreqs ++ tail /\ Forall (fun r => r = RSubwf) tail /\
    (list_of (need_subwf wreqs) <> [] -> need_subwf wreqs = Some (list_of (need_subwf wreqs))).
  Proof.
    unfold need_subwf. destruct wreqs as [[|r l]|].
    - exists [RSubwf]. auto.
    - destruct (existsb _ (r :: l)); [exists [] | exists [RSubwf]]; rewrite ?app_nil_r; auto.
    - exists [RSubwf]. auto.
  Qed.

  Lemma steps_loop_reqs : forall fuel wreqs done_ todo m wreqs' all m',
    sloop fuel wreqs done_ todo m = Ok (wreqs', all, m') ->
    (exists tail, list_of wreqs' = list_of wreqs ++ tail /\ Forall (fun r => r = RSubwf) tail) /\
    (exists todo' news, all = done_ ++ todo' ++ news /\
       Forall2 (fun s s' => ws_reqs s' = ws_reqs s /\ ws_id s' = ws_id s) todo todo').
  Proof.
    induction fuel as [|fuel IH]; intros wreqs done_ todo m wreqs' all m' E; cbn [steps_loop] in E.
    { destruct todo; [|discriminate]. injection E as <- <- <-. split; exists []; [|exists []]; rewrite ?app_nil_r; auto. }
    destruct todo as [|st todo].
    { injection E as <- <- <-. split; exists []; [|exists []]; rewrite ?app_nil_r; auto. }
    destruct (startswith "_expression" (ws_id st)) eqn:Sk.
    { destruct (IH _ _ _ _ _ _ _ E) as (T & t' & news & A1 & A2). split; auto. rewrite <- app_assoc in A1. exists (st :: t'), news.
      split; auto. }
    binv E r Er. destruct r as [[[st' gen] ms] sub]. apply tstep_reqs in Er.
    destruct (IH _ _ _ _ _ _ _ E) as ((tail & T1 & T2) & t' & news & A1 & A2). split.
    - destruct sub; [|eauto]. destruct (need_subwf_adds wreqs) as (t0 & T3 & T4 & _). exists (t0 ++ tail).
      rewrite T1, T3, app_assoc. split; auto. apply Forall_app. auto.
    - apply Forall2_app_inv_l in A2. destruct A2 as (t1 & g1 & A2 & A2g & ->).
      rewrite <- !app_assoc in A1. exists (st' :: t1), (g1 ++ news). split; [exact A1|]. constructor; auto.
  Qed.

  Definition not_js (r : wreq) : Prop := match r with RJs _ | RStepExpr => False | _ => True end.

  Lemma whole fuel w w' m : refactored fuel w = Ok (w', m) ->
    exists q steps wl inputs tail, Forall (fun r => r = RSubwf) tail /\
      reqs_run wl inputs (wreqs_of w ++ tail) (start steps) = Ok q /\
      Forall2 (added (extra_reqs q) (extra_ins q)) (q_steps q) (wf_steps w') /\
      Added w w' (extra_reqs q) /\
      (forall r, In r (wreqs_of w') <-> In r (wreqs_of w ++ tail) /\ kept_req q r = true /\ not_js r).
  Proof.
    unfold traverse_workflow. intros E. binv E ls El. binv E r Er. destruct r as [[wr1 s1] m1].
    binv E u Eu. binv E p Ep. destruct p as [[outs s2] m2]. binv E q Eqq. destruct q as [[wr3 s3] m3].
    injection E as <- <-. cbn [wf_steps].
    apply mapM_Forall2 in El.
    assert (Lo : Forall2 loaded (wf_steps w) (map fst ls)).
    { clear - El. induction El as [|st (st', ml) a b H F IH]; cbn; constructor; auto. apply load_step_ok in H. tauto. }
    destruct (steps_loop_reqs _ _ _ _ _ _ _ _ Er) as ((tail & T1 & T2) & t' & n1 & A1 & A2). cbn [app] in A1.
    destruct (pick_loop_ok _ _ _ _ _ _ _ _ _ _ Ep) as (outs' & n2 & B1 & B2 & _).
    destruct (process_reqs_exact _ _ _ _ _ _ _ _ _ _ Eqq) as (q & Q1 & Q2 & Q3).
    exists q, s2, (jsreqs wr1), (wf_mock (wf_inputs w)), tail. split; auto.
    assert (L1 : match wr1 with Some l => l | None => [] end = wreqs_of w ++ tail) by exact T1.
    rewrite L1 in Q1. split; auto. split; auto. split.
    - destruct (wrq_reqs_frame _ _ _ _ _ _ _ _ _ Q1) as ((n3 & S3) & _). cbn [start q_steps] in S3.
      rewrite S3, B2, A1, <- !app_assoc in Q2. apply Forall2_app_inv_l in Q2. destruct Q2 as (olds & news & C & _ & ->).
      exists olds, news. split; auto. clear - Lo A2 C. revert t' olds A2 C.
      induction Lo as [|a b la lb H L IH]; intros t' olds A2 C.
      + inversion A2; subst. inversion C; subst. constructor.
      + inversion A2 as [|? c ? lc F1 F2]; subst. inversion C as [|? d ? ld G1 G2]; subst. constructor; [|eauto].
        destruct F1 as (F1 & F1'). rewrite H in F1, F1'. cbn [with_run ws_reqs ws_id] in F1, F1'.
        assert (R : reqs_of c = reqs_of a) by (unfold reqs_of; rewrite F1; reflexivity).
        destruct G1 as [D1 D2 D3]. rewrite <- not_own_Own, <- own_Own.
        assert (O : own_step c = own_step a) by (unfold own_step; rewrite F1'; reflexivity). rewrite <- O, <- R. split.
        * intros X. apply D3. exact X.
        * intros X. rewrite D2; auto.
    - intros x. assert (X : In x (wreqs_of w ++ tail) /\ kept_req q x = true <-> In x (list_of wr3)).
      { subst wr3. rewrite <- L1. destruct wr1 as [l|]; cbn; [rewrite filter_In; tauto | tauto]. }
      unfold wreqs_of at 1. cbn [wf_reqs]. rewrite <- and_assoc, X. clear. destruct wr3 as [[|r l]|]; cbn [list_of]; try (cbn; tauto).
      rewrite filter_In. apply and_iff_compat_l. destruct x; cbn; split; try tauto; try congruence.
  Qed.

  (** ** Generated steps *)
  Lemma expr_step_alone wl name e : MadeAlone name e (expr_step replace_etool [wl] name SNone e).
  Proof.
    split; try reflexivity.
    - unfold expr_step. destruct replace_etool; (eexists; split; [reflexivity|]); [right | left]; cbn; eauto.
    - unfold expr_step. destruct replace_etool; (eexists; split; [reflexivity|]); reflexivity.
  Qed.
  Lemma expr_step_own wl x e : has_char "#" x = false -> own_step (expr_step replace_etool [wl] ("_expression_workflow_" ++ x) SNone e) = false.
  Proof.
    intros H. apply not_own_Own. intros O. apply (O ("_expression_workflow_" ++ x)%string).
    - split; [rewrite has_char_app, H; reflexivity|]. left. reflexivity.
    - exists ("workflow_" ++ x)%string. reflexivity.
  Qed.

  Section Final.
    Variable q : wrq.
    Variable all : list wstep.
    Hypothesis F : Forall2 (added (extra_reqs q) (extra_ins q)) (q_steps q) all.
    Lemma final_alone wl x e : In (expr_step replace_etool [wl] ("_expression_workflow_" ++ x) SNone e) (q_steps q) ->
      has_char "#" x = false -> In (expr_step replace_etool [wl] ("_expression_workflow_" ++ x) SNone e) all.
    Proof.
      intros I H. destruct (Forall2_in_l _ _ _ _ F I) as (g & G & [_ A _]). rewrite A in G; auto. apply expr_step_own. exact H.
    Qed.
    Lemma final_given r : In r (extra_reqs q) -> Given all r.
    Proof.
      intros R st S O. destruct (Forall2_in_r _ _ _ _ F S) as (s & Is & [A _ B]). apply (Own_id _ _ A) in O. apply own_Own in O.
      destruct (B O) as (_ & ->). apply in_or_app. auto.
    Qed.
    Lemma final_linked g x : In (feed x (ws_id g ++ "/result")) (extra_ins q) -> Linked all g x.
    Proof.
      intros R st S O. destruct (Forall2_in_r _ _ _ _ F S) as (s & Is & [A _ B]). apply (Own_id _ _ A) in O. apply own_Own in O.
      destruct (B O) as (-> & _). exists (feed x (ws_id g ++ "/result")). split; [apply in_or_app; auto|]. auto.
    Qed.
  End Final.

  Lemma subwf_free (P : wreq -> Prop) tail : ~ P RSubwf -> Forall (fun r => r = RSubwf) tail -> Forall (fun r => ~ P r) tail.
  Proof. intros N. apply Forall_impl. intros r ->. exact N. Qed.

  Lemma env_part_eq q q' : env_part q' = env_part q -> q_env q' = q_env q /\ q_genv q' = q_genv q /\ q_penv q' = q_penv q.
  Proof. unfold env_part. intros E. injection E; auto. Qed.
  Lemma res_part_eq q q' : res_part q' = res_part q -> q_res q' = q_res q /\ q_gres q' = q_gres q /\ q_pres q' = q_pres q.
  Proof. unfold res_part. intros E. injection E; auto. Qed.
  Lemma iwd_part_eq q q' : iwd_part q' = iwd_part q -> q_iwd q' = q_iwd q /\ q_giwd q' = q_giwd q /\ q_piwd q' = q_piwd q.
  Proof. unfold iwd_part. intros E. injection E; auto. Qed.

  Lemma once_run (P : wreq -> Prop) l r tail wl inputs steps q : ~ P RSubwf -> Forall (fun r => r = RSubwf) tail ->
    Once P l r -> reqs_run wl inputs (l ++ tail) (start steps) = Ok q ->
    exists q1 q2 a b, reqs_run wl inputs a (start steps) = Ok q1 /\ reqs_run wl inputs [r] q1 = Ok q2 /\ reqs_run wl inputs b q2 = Ok q /\
      Forall (fun x => ~ P x) a /\ Forall (fun x => ~ P x) b /\ (forall x, P x -> In x (l ++ tail) -> x = r).
  Proof.
    intros N T (a & b & -> & A & B) E. rewrite <- app_assoc in E. cbn [app] in E.
    change (r :: b ++ tail) with ([r] ++ (b ++ tail)) in E.
    apply wrq_reqs_app in E. destruct E as (q1 & E1 & E). apply wrq_reqs_app in E. destruct E as (q2 & E2 & E3).
    exists q1, q2, a, (b ++ tail). split; auto. split; auto. split; auto. split; auto.
    assert (BT : Forall (fun x => ~ P x) (b ++ tail)) by (apply Forall_app; split; auto; apply subwf_free; auto).
    split; auto. intros x Px I. rewrite <- app_assoc in I. apply in_app_or in I. destruct I as [I | [<- | I]]; auto.
    - rewrite Forall_forall in A. elim (A x I Px).
    - rewrite Forall_forall in BT. elim (BT x I Px).
  Qed.

  Lemma run_one wl inputs r q q' : reqs_run wl inputs [r] q = Ok q' ->
    match r with
    | REnv defs => wrq_env gx replace_etool wl inputs defs 0 defs q
    | RRes values => wrq_res gx replace_etool wl inputs values attrs q
    | RIwd li => wrq_iwd gx ev replace_etool wl inputs li q
    | _ => Ok q
    end = Ok q'.
  Proof. cbn [wrq_reqs]. intros E. binv E q1 E1. injection E as <-. exact E1. Qed.

  Lemma env_run_moved k l l' mv (steps : list wstep) :
    (forall j e, In (j, e) mv -> exists g, In g steps /\ MadeAlone (env_name j) e g /\ Linked steps g (env_in j)) ->
    env_run gx k l l' mv -> EnvsMoved gx steps k l l'.
  Proof.
    intros H R. induction R as [|k n v l l' mv N R IH|k n v e l l' mv V N R IH]; constructor.
    - apply EM_kept. exact N.
    - apply IH. exact H.
    - destruct (H k e (or_introl eq_refl)) as (g & A & B & C). eapply EM_moved; eauto.
    - apply IH. intros j x I. apply H. right. exact I.
  Qed.

  Theorem env_whole fuel w w' m defs : refactored fuel w = Ok (w', m) -> Once IsEnv (wreqs_of w) (REnv defs) ->
    exists rs, Added w w' rs /\
      ((Forall (fun d => NotFound gx (snd d)) defs /\ In (REnv defs) (wreqs_of w') /\ Forall (fun r => ~ IsEnv r) rs) \/
       (exists defs', EnvsMoved gx (wf_steps w') 0 defs defs' /\ Exists (fun d => exists e, Found gx (snd d) e) defs /\
          In (REnv defs') rs /\ (forall r, In r rs -> IsEnv r -> r = REnv defs') /\
          Given (wf_steps w') (REnv defs') /\ Forall (fun r => ~ IsEnv r) (wreqs_of w'))).
  Proof.
    intros E O. destruct (whole _ _ _ _ E) as (q & steps & wl & inputs & tail & T & Q & F & A & K). clear E.
    exists (extra_reqs q). split; auto.
    destruct (once_run _ _ _ _ _ _ _ _ (fun x => x) T O Q) as (q1 & q2 & a & b & E1 & E2 & E3 & NA & NB & U).
    destruct (wrq_reqs_frame _ _ _ _ _ _ _ _ _ E1) as (_ & P1 & _). specialize (P1 NA). apply env_part_eq in P1. destruct P1 as (P1 & P2 & P3).
    cbn [start q_env q_genv q_penv] in P1, P2, P3.
    destruct (wrq_reqs_frame _ _ _ _ _ _ _ _ _ E3) as ((n3 & S3) & R1 & _). specialize (R1 NB). apply env_part_eq in R1. destruct R1 as (R1 & R2 & R3).
    apply run_one in E2. destruct (wrq_env_exact _ _ _ _ _ _ 0 [] [] _ _ E2 eq_refl eq_refl eq_refl (or_introl (conj P1 eq_refl))) as (defs' & mv & R & Eq2).
    assert (X1 : q_env q = if some_of mv then Some defs' else None) by (rewrite R1, Eq2; cbn [q_env]; rewrite P1; reflexivity).
    assert (X2 : q_genv q = map (fun p => (env_name (fst p), env_in (fst p))) mv) by (rewrite R2, Eq2; cbn [q_genv]; rewrite P2; reflexivity).
    assert (X3 : q_penv q = some_of mv) by (rewrite R3, Eq2; cbn [q_penv]; rewrite P3; reflexivity).
    assert (X4 : forall j e, In (j, e) mv -> In (expr_step replace_etool [wl] (env_name j) SNone e) (q_steps q)).
    { intros j e J. rewrite S3, Eq2. cbn [q_steps]. apply in_or_app. left. apply in_or_app. right. apply in_map_iff. exists (j, e). auto. }
    clear E1 E2 E3 Eq2 S3 R1 R2 R3 P1 P2 P3.
    assert (In0 : In (REnv defs) (wreqs_of w ++ tail)).
    { destruct O as (x & y & -> & _). rewrite !in_app_iff. cbn. auto. }
    destruct mv as [|mv0 mv]; cbn [some_of] in *.
    - left. apply env_run_none in R. destruct R as (_ & R). split; auto. split.
      + apply K. split; auto. cbn [kept_req]. rewrite X3. cbn. auto.
      + apply Forall_forall. intros r I. unfold extra_reqs in I. rewrite X1 in I. cbn [app] in I.
        apply in_app_or in I. destruct I as [I | I]; [destruct (q_res q) | destruct (q_iwd q)]; cbn in I; try destruct I as [<- | []]; try destruct I; cbn; auto.
    - right. exists defs'. split; [|split; [|split; [|split; [|split]]]].
      + eapply env_run_moved; [|exact R]. intros j e J. exists (expr_step replace_etool [wl] (env_name j) SNone e).
        split; [|split].
        * apply (final_alone q _ F wl ("EnvVarRequirement_" ++ str_nat j)); [exact (X4 j e J)|]. rewrite has_char_app, str_nat_no_hash. reflexivity.
        * apply expr_step_alone.
        * apply (final_linked q _ F). unfold extra_ins. rewrite X1. apply in_or_app. left. unfold gen_ins. rewrite X2.
          apply in_map_iff. exists (env_name j, env_in j). split; auto. apply in_map_iff. exists (j, e). auto.
      + clear - R. remember (mv0 :: mv) as l eqn:El. induction R as [|k n v l0 l' mv1 N R IH|k n v e l0 l' mv1 V N R IH]; [discriminate | |].
        * right. auto.
        * left. exists e. exact N.
      + unfold extra_reqs. rewrite X1. left. reflexivity.
      + intros r I. unfold extra_reqs in I. rewrite X1 in I. cbn [app In] in I. destruct I as [<- | I]; auto.
        apply in_app_or in I. destruct I as [I | I]; [destruct (q_res q) | destruct (q_iwd q)]; cbn in I; try destruct I as [<- | []]; try destruct I; cbn; tauto.
      + apply (final_given q _ F). unfold extra_reqs. rewrite X1. left. reflexivity.
      + apply Forall_forall. intros r I Ie. apply K in I. destruct I as (I & Kr & _). rewrite (U r Ie I) in Kr. cbn [kept_req] in Kr. rewrite X3 in Kr. discriminate.
  Qed.

  (** *** Resources *)
  Lemma fold_dget (mv : list (string * string)) a : forall d,
    dget a (fold_left (fun d p => dset (fst p) (res_ref (fst p)) d) mv d)
    = if existsb (fun p => String.eqb (fst p) a) mv then Some (res_ref a) else dget a d.
  Proof.
    induction mv as [|(x, e) mv IH]; intros d; cbn [fold_left existsb fst]; auto. rewrite IH.
    destruct (existsb _ mv) eqn:X; [rewrite orb_true_r; reflexivity|]. rewrite orb_false_r.
    destruct (String.eqb_spec x a) as [->|N]; [apply dget_dset_same | apply dget_dset_other; congruence].
  Qed.
  Lemma res_run_in values l mv a : res_run gx values l mv ->
    (forall e, In (a, e) mv -> In a l /\ ValueFound gx (value_of values a) e) /\
    (In a l -> ValueNotFound gx (value_of values a) \/ exists e, In (a, e) mv).
  Proof.
    intros R. induction R as [|b l mv N R IH|b e l mv N R IH]; cbn [In].
    - split; tauto.
    - destruct IH as (I1 & I2). split.
      + intros e I. destruct (I1 e I). auto.
      + intros [-> | I]; auto.
    - destruct IH as (I1 & I2). split.
      + intros x [I | I]; [injection I as -> ->; auto|]. destruct (I1 x I). auto.
      + intros [-> | I]; eauto. destruct (I2 I) as [? | (x & ?)]; eauto.
  Qed.

  Theorem res_whole fuel w w' m values : Forall (fun a => has_char "#" a = false) attrs ->
    refactored fuel w = Ok (w', m) -> Once IsRes (wreqs_of w) (RRes values) ->
    exists rs, Added w w' rs /\
      ((Forall (fun a => ValueNotFound gx (value_of values a)) attrs /\ In (RRes values) (wreqs_of w') /\ Forall (fun r => ~ IsRes r) rs) \/
       (exists values', (forall a, ResMoved gx (wf_steps w') attrs values values' a) /\ Exists (fun a => exists e, ValueFound gx (value_of values a) e) attrs /\
          In (RRes values') rs /\ (forall r, In r rs -> IsRes r -> r = RRes values') /\
          Given (wf_steps w') (RRes values') /\ Forall (fun r => ~ IsRes r) (wreqs_of w'))).
  Proof.
    intros At E O. destruct (whole _ _ _ _ E) as (q & steps & wl & inputs & tail & T & Q & F & A & K). clear E.
    exists (extra_reqs q). split; auto.
    destruct (once_run _ _ _ _ _ _ _ _ (fun x => x) T O Q) as (q1 & q2 & a & b & E1 & E2 & E3 & NA & NB & U).
    destruct (wrq_reqs_frame _ _ _ _ _ _ _ _ _ E1) as (_ & _ & P1 & _). specialize (P1 NA). apply res_part_eq in P1. destruct P1 as (P1 & P2 & P3).
    cbn [start q_res q_gres q_pres] in P1, P2, P3.
    destruct (wrq_reqs_frame _ _ _ _ _ _ _ _ _ E3) as ((n3 & S3) & _ & R1 & _). specialize (R1 NB). apply res_part_eq in R1. destruct R1 as (R1 & R2 & R3).
    apply run_one in E2. destruct (wrq_res_exact _ _ _ _ _ _ _ _ E2) as (mv & R & Eq2).
    assert (X1 : q_res q = if some_of mv then Some (fold_left (fun d p => dset (fst p) (res_ref (fst p)) d) mv []) else None)
      by (rewrite R1, Eq2; cbn [q_res]; rewrite P1; reflexivity).
    assert (X2 : q_gres q = map (fun p => (res_name (fst p), ("_" ++ fst p)%string)) mv) by (rewrite R2, Eq2; cbn [q_gres]; rewrite P2; reflexivity).
    assert (X3 : q_pres q = some_of mv) by (rewrite R3, Eq2; cbn [q_pres]; rewrite P3; reflexivity).
    assert (X4 : forall j e, In (j, e) mv -> In (expr_step replace_etool [wl] (res_name j) SNone e) (q_steps q)).
    { intros j e J. rewrite S3, Eq2. cbn [q_steps]. apply in_or_app. left. apply in_or_app. right. apply in_map_iff. exists (j, e). auto. }
    clear E1 E2 E3 Eq2 S3 R1 R2 R3 P1 P2 P3.
    assert (In0 : In (RRes values) (wreqs_of w ++ tail)).
    { destruct O as (x & y & -> & _). rewrite !in_app_iff. cbn. auto. }
    assert (Rs : forall r, In r (extra_reqs q) -> IsRes r -> exists d, q_res q = Some d /\ r = RRes d).
    { intros r I H. unfold extra_reqs in I. rewrite !in_app_iff in I. destruct I as [I | [I | I]].
      - destruct (q_env q); cbn in I; [destruct I as [<- | []]; destruct H | destruct I].
      - destruct (q_res q) as [d|]; cbn in I; [|destruct I]. destruct I as [<- | []]. eauto.
      - destruct (q_iwd q); cbn in I; [destruct I as [<- | []]; destruct H | destruct I]. }
    destruct mv as [|mv0 mv]; cbn [some_of] in *.
    - left. split; [|split].
      + apply Forall_forall. intros x I. destruct (res_run_in _ _ _ x R) as (_ & H). destruct (H I) as [? | (e & [])]; auto.
      + apply K. split; auto. cbn [kept_req]. rewrite X3. cbn. auto.
      + apply Forall_forall. intros r I H. destruct (Rs r I H) as (d & D & _). congruence.
    - right. match type of X1 with _ = Some ?v => exists v end. split; [|split; [|split; [|split; [|split]]]].
      + intros x. unfold ResMoved. fold (value_of values x). rewrite fold_dget.
        destruct (existsb (fun p => String.eqb (fst p) x) (mv0 :: mv)) eqn:Ex.
        * right. apply existsb_exists in Ex. destruct Ex as ((y, e) & I & Ey). cbn in Ey. apply String.eqb_eq in Ey. subst y.
          destruct (res_run_in _ _ _ x R) as (H & _). destruct (H e I) as (Ia & V). split; auto. split; auto.
          exists e, (expr_step replace_etool [wl] (res_name x) SNone e). split; auto. split; [|split].
          -- apply (final_alone q _ F wl ("ResourceRequirement_" ++ x)); [exact (X4 x e I)|]. rewrite has_char_app.
             rewrite Forall_forall in At. rewrite (At x Ia). reflexivity.
          -- apply expr_step_alone.
          -- apply (final_linked q _ F). unfold extra_ins. rewrite X1. apply in_or_app. right. apply in_or_app. left. unfold gen_ins. rewrite X2.
             apply in_map_iff. exists (res_name x, ("_" ++ x)%string). split; auto. apply in_map_iff. exists (x, e). auto.
        * left. split; auto. intros Ia. destruct (res_run_in _ _ _ x R) as (_ & H). destruct (H Ia) as [? | (e & I)]; auto.
          exfalso. assert (X : existsb (fun p => String.eqb (fst p) x) (mv0 :: mv) = true); [|congruence].
          apply existsb_exists. exists (x, e). split; auto. cbn. apply String.eqb_refl.
      + destruct mv0 as (x, e). destruct (res_run_in _ _ _ x R) as (H & _). destruct (H e (or_introl eq_refl)) as (Ia & V).
        apply Exists_exists. exists x. eauto.
      + unfold extra_reqs. rewrite X1. rewrite !in_app_iff. cbn. auto.
      + intros r I H. destruct (Rs r I H) as (d & D & ->). congruence.
      + apply (final_given q _ F). unfold extra_reqs. rewrite X1. rewrite !in_app_iff. cbn. auto.
      + apply Forall_forall. intros r I Ie. apply K in I. destruct I as (I & Kr & _). rewrite (U r Ie I) in Kr. cbn [kept_req] in Kr. rewrite X3 in Kr. discriminate.
  Qed.

  (** *** Files *)
  Lemma iwd_run_moved k last l l' mv (steps : list wstep) :
    (forall j e, In (j, e) mv -> exists g, In g steps /\ MadeAlone (iwd_nth j) e g /\ Linked steps g ("_iwdr_listing_" ++ str_nat last)) ->
    iwd_run gx k l l' mv -> EntriesMoved gx steps k last l l'.
  Proof.
    intros H R. induction R as [|k e l l' mv N R IH|k e s x l l' mv V N R IH]; constructor.
    - apply EnM_kept. exact N.
    - apply IH. exact H.
    - destruct (H k x (or_introl eq_refl)) as (g & A & B & C). eapply EnM_moved; eauto.
    - apply IH. intros j y I. apply H. right. exact I.
  Qed.

  Theorem iwd_whole fuel w w' m li :
    refactored fuel w = Ok (w', m) -> Once IsIwd (wreqs_of w) (RIwd li) ->
    exists rs, Added w w' rs /\
      ((match li with
        | LText s => NotFound gx s
        | LList l => Forall (fun e => forall s, Plain e s \/ Named e s \/ Texted e s -> NotFound gx s) l
        | _ => True
        end /\ In (RIwd li) (wreqs_of w') /\ Forall (fun r => ~ IsIwd r) rs) \/
       (exists li', match li with
          | LText s => li' = LText "$(inputs._iwdr_listing)" /\ ListingMoved gx (wf_steps w') s
          | LList l => exists l' last, li' = LList l' /\ EntriesMoved gx (wf_steps w') 0 last l l' /\
               Exists (fun e => exists s x, (Plain e s \/ Named e s) /\ Found gx s x) l /\
               (Forall (fun r => ~ IsEnv r) (wreqs_of w) -> last = List.length l - 1)
          | _ => False
          end /\
          In (RIwd li') rs /\ (forall r, In r rs -> IsIwd r -> r = RIwd li') /\
          Given (wf_steps w') (RIwd li') /\ Forall (fun r => ~ IsIwd r) (wreqs_of w'))).
  Proof.
    intros E O. destruct (whole _ _ _ _ E) as (q & steps & wl & inputs & tail & T & Q & F & A & K). clear E.
    exists (extra_reqs q). split; auto.
    assert (Ix : Forall (fun r => ~ IsEnv r) (wreqs_of w) -> forall a b, wreqs_of w ++ tail = a ++ RIwd li :: b -> Forall (fun r => ~ IsEnv r) b).
    { intros H a b X. assert (Y : Forall (fun r => ~ IsEnv r) (wreqs_of w ++ tail)) by (apply Forall_app; split; auto; apply subwf_free; auto).
      rewrite X in Y. apply Forall_app in Y. destruct Y as (_ & Y). inversion Y; auto. }
    destruct O as (a & b0 & El & NA & NB0).
    assert (NB : Forall (fun x => ~ IsIwd x) (b0 ++ tail)) by (apply Forall_app; split; auto; apply subwf_free; auto).
    assert (El2 : wreqs_of w ++ tail = a ++ RIwd li :: b0 ++ tail) by (rewrite El, <- app_assoc; reflexivity).
    specialize (fun H => Ix H _ _ El2). rewrite El2 in K, Q. set (b := b0 ++ tail) in *.
    change (RIwd li :: b) with ([RIwd li] ++ b) in Q.
    apply wrq_reqs_app in Q. destruct Q as (q1 & E1 & Q). apply wrq_reqs_app in Q. destruct Q as (q2 & E2 & E3).
    assert (U : forall x, IsIwd x -> In x (a ++ RIwd li :: b) -> x = RIwd li).
    { intros x X I. apply in_app_or in I. destruct I as [I | [<- | I]]; auto.
      - rewrite Forall_forall in NA. elim (NA x I X).
      - rewrite Forall_forall in NB. elim (NB x I X). }
    destruct (wrq_reqs_frame _ _ _ _ _ _ _ _ _ E1) as (_ & _ & _ & P1 & _). specialize (P1 NA). apply iwd_part_eq in P1. destruct P1 as (P1 & P2 & P3).
    cbn [start q_iwd q_giwd q_piwd] in P1, P2, P3.
    destruct (wrq_reqs_frame _ _ _ _ _ _ _ _ _ E3) as ((n3 & S3) & _ & _ & R1 & R4). specialize (R1 NB). apply iwd_part_eq in R1. destruct R1 as (R1 & R2 & R3).
    apply run_one in E2. destruct (wrq_iwd_exact _ _ _ _ _ _ _ _ E2 P2) as (nm & mv & iw & idx & S2 & Eq2 & C).
    assert (X1 : q_iwd q = if some_of mv then Some iw else None).
    { rewrite R1, Eq2; cbn [q_iwd]; rewrite P1. destruct (some_of mv); auto. destruct li as [| |[|? ?]|]; reflexivity. }
    assert (X2 : q_giwd q = match li with LList _ => map (fun p => nm (fst p)) mv | _ => [] end) by (rewrite R2, Eq2; reflexivity).
    assert (X3 : q_piwd q = some_of mv) by (rewrite R3, Eq2; cbn [q_piwd]; rewrite P3; reflexivity).
    assert (X4 : forall j e, In (j, e) mv -> In (expr_step replace_etool [wl] (nm j) SNone e) (q_steps q)).
    { intros j e J. rewrite S3, S2. apply in_or_app. left. apply in_or_app. right. apply in_map_iff. exists (j, e). auto. }
    assert (X5 : Forall (fun r => ~ IsEnv r) (wreqs_of w) -> q_index q = idx).
    { intros H. rewrite R4; auto. rewrite Eq2. reflexivity. }
    clear E1 E2 E3 Eq2 S3 S2 R1 R2 R3 R4 P1 P2 P3.
    assert (Rs : forall r, In r (extra_reqs q) -> IsIwd r -> exists d, q_iwd q = Some d /\ r = RIwd d).
    { intros r I H. unfold extra_reqs in I. rewrite !in_app_iff in I. destruct I as [I | [I | I]].
      - destruct (q_env q); cbn in I; [destruct I as [<- | []]; destruct H | destruct I].
      - destruct (q_res q); cbn in I; [destruct I as [<- | []]; destruct H | destruct I].
      - destruct (q_iwd q) as [d|]; cbn in I; [|destruct I]. destruct I as [<- | []]. eauto. }
    destruct mv as [|mv0 mv]; cbn [some_of] in *.
    - left. split; [|split].
      + destruct li as [|s|l|s]; auto.
        * destruct C as ([(_ & N) | (e & _ & N & _)] & _); [auto | discriminate].
        * destruct C as (_ & _ & l' & _ & R). apply iwd_run_none in R. tauto.
      + apply K. split; [rewrite in_app_iff; cbn; auto|]. cbn [kept_req]. rewrite X3. cbn. auto.
      + apply Forall_forall. intros r I H. destruct (Rs r I H) as (d & D & _). congruence.
    - right. exists iw. split; [|split; [|split; [|split]]].
      + destruct li as [|s|l|s]; try (destruct C; discriminate).
        * destruct C as ([(N & _) | (e & Fo & Em & -> & ->)] & _); [discriminate|]. split; auto. injection Em as -> ->.
          exists e, (expr_step replace_etool [wl] "_expression_workflow_InitialWorkDirRequirement" SNone e). split; auto. split; [|split].
          -- apply (final_alone q _ F wl "InitialWorkDirRequirement"); [|reflexivity]. apply (X4 0 e). left. reflexivity.
          -- apply expr_step_alone.
          -- apply (final_linked q _ F). unfold extra_ins, iwd_ins. rewrite X1, X2. rewrite !in_app_iff. right. right. left. reflexivity.
        * destruct C as (-> & Hi & l' & -> & R). exists l', (q_index q). split; auto. split; [|split].
          -- eapply iwd_run_moved; [|exact R]. intros j e J. exists (expr_step replace_etool [wl] (iwd_nth j) SNone e). split; [|split].
             ++ apply (final_alone q _ F wl ("InitialWorkDirRequirement_" ++ str_nat j)); [exact (X4 j e J)|]. rewrite has_char_app, str_nat_no_hash. reflexivity.
             ++ apply expr_step_alone.
             ++ apply (final_linked q _ F). unfold extra_ins, iwd_ins. rewrite X1, X2. rewrite !in_app_iff. right. right.
                assert (L : forall (d : list sinput) g n, In n g -> In (feed ("_iwdr_listing_" ++ str_nat (q_index q)) (n ++ "/result"))
                  (match g with [] => d | _ :: _ => map (fun n => feed ("_iwdr_listing_" ++ str_nat (q_index q)) (n ++ "/result")) g end)).
                { intros d [|x g] n I; [destruct I|]. apply (in_map (fun n => feed ("_iwdr_listing_" ++ str_nat (q_index q)) (n ++ "/result"))). exact I. }
                apply (L [] (map (fun p : nat * string => iwd_nth (fst p)) (mv0 :: mv)) (iwd_nth j)). apply in_map_iff. exists (j, e). auto.
          -- clear - R. remember (mv0 :: mv) as ll eqn:El. induction R as [|k e l l' mv1 N R IH|k e s x l l' mv1 V N R IH]; [discriminate | |].
             ++ right. auto.
             ++ left. exists s, x. auto.
          -- intros H. rewrite (X5 H). apply Hi. intros ->. inversion R.
      + unfold extra_reqs. rewrite X1. rewrite !in_app_iff. cbn. auto.
      + intros r I H. destruct (Rs r I H) as (d & D & ->). congruence.
      + apply (final_given q _ F). unfold extra_reqs. rewrite X1. rewrite !in_app_iff. cbn. auto.
      + apply Forall_forall. intros r I Ie. apply K in I. destruct I as (I & Kr & _). rewrite (U r Ie I) in Kr. cbn [kept_req] in Kr. rewrite X3 in Kr. discriminate.
  Qed.
End Whole.
