(** * Nothing is left to refactor *)
From Verif Require Import PyBase PyBaseProofs PackModel ExprModel RefactorModel RefactorSpec RefactorProofs
  FlowModel FlowSpec FlowProofs FlowProofs2 FlowProofs3 FlowValueSpec FlowValueProofs FlowValueProps FlowReqSpec FlowToolSpec FlowToolProps
  FlowEvalSpec FlowEvalProps FlowOldSpec FlowOldProofs FlowOldProofs2 FlowTwiceSpec FlowTwiceProofs FlowTwiceProofs2 EngineProofs FlowToolProofs.

Lemma app_length_inj {A} : forall (a b c d : list A), a ++ b = c ++ d -> List.length a = List.length c -> a = c /\ b = d.
Proof.
  induction a as [|x a IH]; intros b [|y c] d E L; try discriminate L; [auto|]. cbn in *. injection E as -> E. injection L as L.
  destruct (IH _ _ _ E L) as (-> & ->). auto.
Qed.

Lemma F2_length {A B} (R : A -> B -> Prop) l l' : Forall2 R l l' -> List.length l = List.length l'.
Proof. induction 1; cbn; auto. Qed.
Lemma filled_no (o : option string) : filled o = None -> o = None \/ o = Some "".
Proof. destruct o as [s|]; cbn; [|auto]. destruct (String.eqb_spec s ""); [subst; auto | discriminate]. Qed.

Lemma str_nat_word k : sforall is_word (str_nat k) = true.
Proof.
  assert (U : forall u, sforall is_word (DecimalString.NilEmpty.string_of_uint u) = true) by (induction u; auto).
  unfold str_nat, DecimalString.NilZero.string_of_uint. destruct (Nat.to_uint k); try reflexivity; apply (U (_ _)).
Qed.

Section Proofs.
  Variable gx : json -> json -> json -> result (option string).
  Variable ev : string -> json -> result json.
  Variable src_example self_example : list wstep -> wstep -> src -> result json.
  Variable src_params : list wstep -> src -> result nat.
  Variable src_known : list wstep -> wstep -> string -> result unit.
  Variable out_known : list wstep -> src -> result unit.
  Variable load_run : string -> result (tool * bool).
  Variable attrs : list string.
  Variable replace_etool skip1 skip2 : bool.

  (** ** the inputs that were added have no valueFrom; the steps that were added are skipped *)
  Definition adds (st st' : wstep) : Prop :=
    ws_id st' = ws_id st /\
    exists old new, ws_in st' = old ++ new /\ List.length old = List.length (ws_in st) /\ Forall (fun i => si_valueFrom i = None) new.
  Lemma adds_refl st : adds st st.
  Proof. split; [reflexivity|]. exists (ws_in st), []. rewrite app_nil_r. auto. Qed.
  Lemma adds_ext new a b c : adds a b -> ext new b c -> adds a c.
  Proof.
    intros (I & old & nw & A1 & A2 & A3) X. split; [rewrite (ex_id _ _ _ X); exact I|].
    destruct (ex_in _ _ _ X) as (extra & B1 & B2). exists old, (nw ++ extra). rewrite B1, A1, app_assoc.
    split; [reflexivity|]. split; [exact A2|]. apply Forall_app. split; [exact A3|]. eapply Forall_impl; [|exact B2]. intros e (_ & V & _). exact V.
  Qed.
  Lemma adds_app a b l : adds a b -> forall c, ws_id c = ws_id b -> ws_in c = ws_in b ++ l -> Forall (fun i => si_valueFrom i = None) l -> adds a c.
  Proof.
    intros (I & old & nw & A1 & A2 & A3) c B1 B2 B3. split; [congruence|]. exists old, (nw ++ l). rewrite B2, A1, app_assoc.
    split; [reflexivity|]. split; [exact A2|]. apply Forall_app. auto.
  Qed.

  Lemma tstep_adds wreqs pre post st st' gen m sub : ws_when st = None ->
    traverse_step gx src_example self_example src_params src_known attrs replace_etool skip1 skip2 wreqs pre post st = Ok (st', gen, m, sub) ->
    adds st st'.
  Proof.
    unfold traverse_step. intros W E. binv E mock Em.
    destruct (String.eqb (ws_id st) ""). { injection E as <- <- <- <-. apply adds_refl. }
    binv E v Ev. destruct v as [s1 g1].
    destruct (value_loop_ok _ _ _ _ _ _ _ _ _ _ _ _ _ _ _ _ _ Ev (incl_refl _)) as (d & new & A1 & A2 & A3 & A4 & _).
    assert (W1 : ws_when s1 = None) by (rewrite A1; exact W).
    rewrite W1 in E. cbn [filled bind] in E. binv E p Ep. binv E c Ec.
    destruct p as [[s3 g3] m3], c as [[[s4 g4] m4] sub4]. cbn [fst snd] in *. injection E as <- <- <- <-.
    assert (Id1 : ws_id s1 = ws_id st) by (rewrite A1; reflexivity).
    assert (B1 : adds st s1).
    { split; [exact Id1|]. exists d, []. rewrite app_nil_r. split; [rewrite A1; reflexivity|]. split; [|constructor].
      symmetry. eapply F2_length. exact A3. }
    assert (Nm2 : forall r, step_name (ws_id st) ("_expression_" ++ after_first_hash (ws_id s1) ++ String "_" r)).
    { intros r. rewrite Id1. exists (after_first_hash (ws_id st)), r. auto. }
    destruct (level_reqs_evolves (step_name (ws_id st)) _ _ _ _ _ _ _ Nm2 _ _ _ _ Ep) as (n3 & -> & V3 & _ & _).
    assert (F : forall gs l, Forall (fed gs) l -> Forall (fun i => si_valueFrom i = None) l).
    { intros gs l H. eapply Forall_impl; [|exact H]. intros e (_ & V & _). exact V. }
    assert (B3 : adds st s3).
    { destruct (ev_in _ _ _ _ V3) as (x & X1 & X2). eapply adds_app; [exact B1 | exact (ev_id _ _ _ _ V3) | exact X1 | eapply F; exact X2]. }
    destruct (ws_run st) as [u|t|ids]; [injection Ec as <- <- <- <-; exact B3 | | injection Ec as <- <- <- <-; exact B3].
    destruct (is_clt t); [|injection Ec as <- <- <- <-; exact B3].
    assert (Nm3 : forall r, step_name (ws_id st) ("_expression_" ++ after_hash (ws_id s3) ++ String "_" r)).
    { intros r. rewrite (ev_id _ _ _ _ V3), Id1. exists (after_hash (ws_id st)), r. auto. }
    destruct (clt_evolves (step_name (ws_id st)) _ _ _ _ _ _ _ Nm3 _ _ _ _ _ Ec) as (n4 & -> & V4 & _ & _).
    destruct (ev_in _ _ _ _ V4) as (x & X1 & X2). eapply adds_app; [exact B3 | exact (ev_id _ _ _ _ V4) | exact X1 | eapply F; exact X2].
  Qed.

  Definition named (g : wstep) : Prop := startswith "_expression" (ws_id g) = true.
  Definition plain_when (st : wstep) : Prop := startswith "_expression" (ws_id st) = false -> ws_when st = None.
  Lemma steps_shape : forall fuel wreqs done_ todo m wr all m',
    steps_loop gx src_example self_example src_params src_known attrs replace_etool skip1 skip2 fuel wreqs done_ todo m = Ok (wr, all, m') ->
    Forall plain_when todo ->
    exists todo' news, all = done_ ++ todo' ++ news /\ Forall2 adds todo todo' /\ Forall named news.
  Proof.
    induction fuel as [|fuel IH]; intros wreqs done_ todo m wr all m' E T; destruct todo as [|st todo]; cbn [steps_loop] in E;
      try discriminate E; try (injection E as <- <- <-; exists [], []; rewrite !app_nil_r; repeat split; constructor).
    apply Forall_cons_iff in T. destruct T as (T1 & T2).
    destruct (startswith "_expression" (ws_id st)) eqn:Sk.
    - destruct (IH _ _ _ _ _ _ _ E T2) as (t' & n & -> & A & B). exists (st :: t'), n. rewrite <- app_assoc. cbn [app].
      split; [reflexivity|]. split; [constructor; [apply adds_refl | exact A] | exact B].
    - binv E r Er. destruct r as [[[st' gen] m1] sub].
      pose proof (plain_step_gen _ _ _ _ _ _ _ _ _ _ _ _ _ _ _ _ _ (T1 Sk) Er) as G.
      assert (T3 : Forall plain_when (todo ++ gen)).
      { apply Forall_app. split; [exact T2|]. eapply Forall_impl; [|exact G]. intros g X Y. rewrite X in Y. discriminate Y. }
      destruct (IH _ _ _ _ _ _ _ E T3) as (t' & n & -> & A & B).
      apply Forall2_app_inv_l in A. destruct A as (a & b & A1 & A2 & ->). exists (st' :: a), (b ++ n).
      rewrite <- !app_assoc. cbn [app]. split; [reflexivity|]. split.
      + constructor; [exact (tstep_adds _ _ _ _ _ _ _ _ (T1 Sk) Er) | exact A1].
      + apply Forall_app. split; [|exact B]. clear - A2 G. induction A2 as [|x y l l' H A2 IH]; constructor.
        * apply Forall_inv in G. unfold named. destruct H as (-> & _). exact G.
        * apply IH. apply Forall_inv_tail in G. exact G.
  Qed.
  Lemma adds_trans_ext new : forall a b c, Forall2 adds a b -> Forall2 (ext new) b c -> Forall2 adds a c.
  Proof.
    intros a b c A. revert c. induction A as [|x y a b H A IH]; intros c B; inversion B; constructor; [eapply adds_ext; eauto | auto].
  Qed.
  Lemma named_ext new : forall b c, Forall named b -> Forall2 (ext new) b c -> Forall named c.
  Proof.
    intros b c A B. induction B as [|x y b c H B IH]; constructor.
    - apply Forall_inv in A. unfold named. rewrite (ex_id _ _ _ H). exact A.
    - apply IH. apply Forall_inv_tail in A. exact A.
  Qed.
  Lemma process_shape winputs wreqs steps wreqs' all m a b orig :
    process_reqs gx ev attrs replace_etool winputs wreqs steps = Ok (wreqs', all, m) ->
    steps = a ++ b -> Forall2 adds orig a -> Forall named b ->
    exists olds news, all = olds ++ news /\ Forall2 adds orig olds /\ Forall named news.
  Proof.
    intros E -> A B. destruct (process_reqs_ok _ _ _ _ _ _ _ _ _ _ E) as (new & P1 & P2 & _).
    rewrite <- app_assoc in P2. apply Forall2_app_inv_l in P2. destruct P2 as (x & y & X & Y & ->).
    exists x, y. split; [reflexivity|]. split; [eapply adds_trans_ext; eauto|]. eapply named_ext; [|exact Y].
    apply Forall_app. split; [exact B|]. eapply Forall_impl; [|exact P1]. intros g (G & _). eapply step_name_skipped. exact G.
  Qed.

  (** ** requirements of the workflow that are still there have no expressions *)
  Lemma find_calm v i s : find_expr gx v i s = Ok None -> NoneFound gx v i s.
  Proof. unfold find_expr, NoneFound. intros E. binv E r Er. injection E as E. apply filled_no in E. destruct E as [-> | ->]; auto. Qed.
  Lemma find_calm_text o s i : filled o = Some s -> find_expr gx (JStr s) i JNull = Ok None -> calm_text_at gx i o.
  Proof. intros F E t ->. apply filled_Some in F. destruct F as (F & _). injection F as ->. right. exact (find_calm _ _ _ E). Qed.
  Lemma empty_calm i o : filled o = None -> calm_text_at gx i o.
  Proof. intros F t ->. apply filled_no in F. destruct F as [F | F]; [discriminate F|]. injection F as ->. auto. Qed.

  Lemma wenv_flags wl inputs req : forall defs k q q', wrq_env gx replace_etool wl inputs req k defs q = Ok q' ->
    (q_penv q' = false -> q_penv q = false /\ Forall (fun d => calm_text_at gx inputs (Some (snd d))) defs) /\
    q_pres q' = q_pres q /\ q_piwd q' = q_piwd q.
  Proof.
    induction defs as [|[n v] defs IH]; intros k q q' E; cbn [wrq_env] in E; [injection E as <-; auto|].
    cbn zeta in E. binv E x Ex. destruct x as [expr|].
    - binv E nn En. destruct (IH _ _ _ E) as (A & B). cbn [q_penv q_pres q_piwd] in *. split; [|exact B].
      intros F. destruct (A F) as (X & _). discriminate X.
    - destruct (IH _ _ _ E) as (A & B). cbn [q_penv q_pres q_piwd] in *. split; [|exact B].
      intros F. destruct (A F) as (X & Y). split; [exact X|]. constructor; [|exact Y]. cbn [snd]. intros s S. injection S as <-.
      destruct (String.eqb_spec v ""); [auto|]. right. exact (find_calm _ _ _ Ex).
  Qed.
  Lemma wres_flags wl inputs values : forall l q q', wrq_res gx replace_etool wl inputs values l q = Ok q' ->
    (q_pres q' = false -> q_pres q = false /\ forall a, In a l -> let v := match dget a values with Some v => v | None => JNull end in
                       truthy v = true -> calm_at gx inputs v) /\
    q_penv q' = q_penv q /\ q_piwd q' = q_piwd q.
  Proof.
    induction l as [|a l IH]; intros q q' E; cbn [wrq_res] in E; [injection E as <-; cbn; tauto|].
    cbn zeta in E. binv E x Ex. destruct x as [expr|].
    - destruct (IH _ _ E) as (A & B). cbn [q_penv q_pres q_piwd] in *. split; [|exact B].
      intros F. destruct (A F) as (X & _). discriminate X.
    - destruct (IH _ _ E) as (A & B). split; [|exact B].
      intros F. destruct (A F) as (X & Y). split; [exact X|]. intros b [<- | I]; [|exact (Y b I)]. cbn zeta. intros T. rewrite T in Ex.
      exact (find_calm _ _ _ Ex).
  Qed.
  Lemma wentries_flags wl inputs : forall l k q q', wrq_entries gx ev replace_etool wl inputs k l q = Ok q' ->
    (q_giwd q' = [] -> q_giwd q = [] /\ Forall (quiet_entry gx inputs) l) /\
    q_penv q' = q_penv q /\ q_pres q' = q_pres q /\ q_piwd q' = q_piwd q.
  Proof.
    induction l as [|e l IH]; intros k q q' E; cbn [wrq_entries] in E; [injection E as <-; auto|].
    cbn zeta in E. binv E q1 E1. destruct (IH _ _ _ E) as (A & B1 & B2 & B3). clear E IH. rewrite B1, B2, B3.
    assert (P : forall g, q_giwd q1 = q_giwd q ++ [g] -> forall X : Prop, q_giwd q' = [] -> X).
    { intros g G X F. destruct (A F) as (C & _). rewrite G in C. destruct (q_giwd q); discriminate C. }
    assert (K : quiet_entry gx inputs e -> q_giwd q1 = q_giwd q -> q_giwd q' = [] -> q_giwd q = [] /\ Forall (quiet_entry gx inputs) (e :: l)).
    { intros H G F. destruct (A F) as (C & D). rewrite G in C. auto. }
    destruct e as [s | en enm | o].
    - binv E1 x Ex. destruct x.
      + binv E1 nn En. injection E1 as <-. split; [|auto]. eapply P. reflexivity.
      + injection E1 as <-. split; [|auto]. apply K; [|reflexivity]. exact (find_calm _ _ _ Ex).
    - destruct (filled en) eqn:Fe.
      + binv E1 x Ex. destruct x; [binv E1 y Ey; discriminate E1|]. injection E1 as <-. split; [|auto]. apply K; [|reflexivity].
        split; [exact (find_calm_text _ _ _ Fe Ex) | rewrite Fe; discriminate].
      + destruct (filled enm) eqn:Fn.
        * binv E1 x Ex. destruct x.
          -- binv E1 nn En. injection E1 as <-. split; [|auto]. eapply P. reflexivity.
          -- injection E1 as <-. split; [|auto]. apply K; [|reflexivity].
             split; [exact (empty_calm _ _ Fe) | intros _; exact (find_calm_text _ _ _ Fn Ex)].
        * injection E1 as <-. split; [|auto]. apply K; [|reflexivity]. split; [exact (empty_calm _ _ Fe) | intros _; exact (empty_calm _ _ Fn)].
    - injection E1 as <-. split; [|auto]. apply K; [exact Logic.I | reflexivity].
  Qed.
  Lemma wiwd_flags wl inputs li q q' : wrq_iwd gx ev replace_etool wl inputs li q = Ok q' ->
    (q_piwd q' = false -> q_piwd q = false /\ quiet_req gx attrs inputs false (RIwd li)) /\ q_penv q' = q_penv q /\ q_pres q' = q_pres q.
  Proof.
    unfold wrq_iwd. intros E. destruct li as [|s|[|e l]|s]; cbn [quiet_req]; try (injection E as <-; auto).
    - destruct (String.eqb_spec s "") as [->|N].
      + injection E as <-. split; [|auto]. intros F. split; [exact F|]. right. intros x X. injection X as <-. auto.
      + binv E x Ex. destruct x.
        * injection E as <-. split; [discriminate | auto].
        * injection E as <-. split; [|auto]. intros F. split; [exact F|]. right. intros x X. injection X as <-. right. exact (find_calm _ _ _ Ex).
    - binv E q1 E1. destruct (wentries_flags _ _ _ _ _ _ E1) as (A & B1 & B2 & B3). injection E as <-.
      cbn [q_penv q_pres q_piwd q_giwd] in *. split; [|auto]. destruct (q_giwd q1); [|discriminate].
      intros F. rewrite B3 in F. destruct (A eq_refl) as (_ & C). auto.
  Qed.
  Lemma wreqs_flags wl inputs : forall l q q', wrq_reqs gx ev attrs replace_etool wl inputs l q = Ok q' ->
    Forall (fun r => kept_req q' r = true -> quiet_req gx attrs inputs false r) l /\
    (q_penv q' = false -> q_penv q = false) /\ (q_pres q' = false -> q_pres q = false) /\ (q_piwd q' = false -> q_piwd q = false).
  Proof.
    induction l as [|r l IH]; intros q q' E; cbn [wrq_reqs] in E; [injection E as <-; auto|].
    binv E q1 E1. destruct (IH _ _ E) as (A & B1 & B2 & B3). clear E IH.
    destruct r; try (injection E1 as <-; split; [constructor; [intros _; exact Logic.I | exact A] | auto]).
    - destruct (wenv_flags _ _ _ _ _ _ _ E1) as (C1 & C2 & C3). rewrite C2 in B2. rewrite C3 in B3. split.
      + constructor; [|exact A]. cbn [kept_req quiet_req]. intros K. apply negb_true_iff in K. apply C1. auto.
      + split; [|auto]. intros F. apply C1. auto.
    - destruct (wres_flags _ _ _ _ _ _ E1) as (C1 & C2 & C3). rewrite C2 in B1. rewrite C3 in B3. split.
      + constructor; [|exact A]. cbn [kept_req quiet_req]. intros K. apply negb_true_iff in K. apply C1. auto.
      + split; [auto|]. split; [|auto]. intros F. apply C1. auto.
    - destruct (wiwd_flags _ _ _ _ _ E1) as (C1 & C2 & C3). rewrite C2 in B1. rewrite C3 in B2. split.
      + constructor; [|exact A]. cbn [kept_req]. intros K. apply negb_true_iff in K. apply C1. auto.
      + split; [auto|]. split; [auto|]. intros F. apply C1. auto.
  Qed.
  Lemma process_left winputs wreqs steps wreqs' all m :
    process_reqs gx ev attrs replace_etool winputs wreqs steps = Ok (wreqs', all, m) -> Forall (quiet_req gx attrs (wf_mock winputs) false) (reqs_list wreqs').
  Proof.
    unfold process_reqs. intros E. binv E q Eqq. injection E as <- _ _. destruct (wreqs_flags _ _ _ _ _ Eqq) as (A & _).
    destruct wreqs as [l|]; [|constructor]. cbn [reqs_list]. apply Forall_forall. intros r R. apply filter_In in R. destruct R as (R & K).
    rewrite Forall_forall in A. exact (A r R K).
  Qed.

  (** ** so has the tool *)
  Hypothesis sees : SeesReferences gx.
  Lemma steady_calm s : Steady gx (JStr s) -> NotFound gx s -> Calm gx (JStr s).
  Proof.
    intros S [-> | (i & self & r & E & R)]; [apply sees|]. apply S. exists i, self. unfold NoneFound. rewrite E. destruct R as [-> | ->]; auto.
  Qed.
  Lemma steady_text o : SteadyText gx o -> (forall s, o = Some s -> NotFound gx s) -> CalmText gx o.
  Proof. intros S H s E. right. apply steady_calm; auto. Qed.
  Lemma calm_any o i : CalmText gx o -> calm_text_at gx i o.
  Proof. intros C s E. destruct (C s E) as [X | X]; [auto | right; apply X]. Qed.
  Lemma calm_not_found s e : Calm gx (JStr s) -> Found gx s e -> False.
  Proof. intros C (N & i & self & E). destruct (C i self) as [X | X]; rewrite X in E; [discriminate E|]. injection E as E. auto. Qed.

  Section One.
    Variables (all : list wstep) (st st' : wstep) (t t' : tool).
    Local Notation here := (tool_mock (t_inputs t')).
    Lemma mock_has : forall l p d, (dget (after_hash (ti_id p)) d <> None \/ In p l) ->
      dget (after_hash (ti_id p)) (fold_left (fun d i => dset (after_hash (ti_id i)) (example_input (ti_type i)) d) l d) <> None.
    Proof.
      induction l as [|q l IH]; intros p d H; cbn [fold_left]; [destruct H as [H | []]; exact H|]. apply IH.
      destruct H as [H | [-> | H]]; [|left; rewrite dget_dset_same; discriminate | right; exact H]. left.
      destruct (string_dec (after_hash (ti_id p)) (after_hash (ti_id q))) as [->|N]; [rewrite dget_dset_same; discriminate|].
      rewrite dget_dset_other; auto.
    Qed.
    Lemma ref_calm x : sforall is_word x = true -> Declares t' ("_" ++ x) -> calm_at gx here (JStr ("$(inputs._" ++ x ++ ")")).
    Proof.
      intros W (p & I & E). destruct sees as (_ & S). apply S; [exact W|].
      assert (H : after_hash (ti_id p) = ("_" ++ x)%string).
      { rewrite E. apply after_hash_none. change (("_" ++ x)%string) with (String "_" x). cbn [has_char].
        rewrite (has_char_sforall is_word "#" x); auto. }
      rewrite <- H. apply mock_has. right. exact I.
    Qed.
    Lemma ref_text x : sforall is_word x = true -> Declares t' ("_" ++ x) -> calm_text_at gx here (Some ("$(inputs._" ++ x ++ ")")%string).
    Proof. intros W D s E. injection E as <-. right. apply ref_calm; assumption. Qed.
    Lemma words_nat p k : sforall is_word p = true -> sforall is_word (p ++ str_nat k) = true.
    Proof. intros H. rewrite sforall_app, H. apply str_nat_word. Qed.
    Lemma text_left x o o' : sforall is_word x = true -> SteadyText gx o -> TextMoved gx all st st' t t' ("_" ++ x) o o' -> calm_text_at gx here o'.
    Proof.
      intros W S H. inversion H as [y N|s e g N F I G L]; subst; [apply calm_any, steady_text; assumption|]. apply (ref_text x W). apply L.
    Qed.
    Lemma args_left : forall k l l', ArgsMoved gx all st st' t t' k l l' -> (forall a, In a l -> SteadyText gx (ArgText a)) ->
      Forall (fun a => match a with AText s => calm_at gx here (JStr s) | ABind v => calm_text_at gx here v end) l'.
    Proof.
      intros k l l' H. induction H as [|k a a' l l' A _ IH]; intros S; constructor; [|apply IH; intros x X; apply S; right; exact X].
      pose proof (S a (or_introl eq_refl)) as Sa. inversion A as [v v' T|s N|s e g F I G D L]; subst.
      - eapply (text_left ("arguments_" ++ str_nat k)); [apply words_nat; reflexivity | exact Sa | exact T].
      - apply steady_calm; [apply Sa; reflexivity | exact N].
      - apply (ref_text ("arguments_" ++ str_nat k)); [apply words_nat; reflexivity | exact D].
    Qed.
    Lemma entries_left : forall k l l', ToolEntriesMoved gx all st st' t t' k l l' -> (forall s, In (EText s) l -> Calm gx (JStr s)) ->
      (forall e s, In e l -> EntrySays e s -> Steady gx (JStr s)) -> Forall (quiet_entry gx here) l'.
    Proof.
      intros k l l' H. induction H as [|k e e' l l' M _ IH]; intros C S; constructor.
      - pose proof (fun s => S e s (or_introl eq_refl)) as Se. inversion M as [x N|s x g F|en nm x g N1 N2 F I G L|txt name x x' g N1 F T I G L]; subst.
        + destruct e' as [s | en enm | o]; cbn [quiet_entry].
          * apply C. left; reflexivity.
          * cbn [EntrySays] in Se. split.
            -- intros s ->. destruct (string_dec s "") as [Z|Z]; [auto|]. right. apply steady_calm; [auto|]. apply N. right. right. exists enm. auto.
            -- intros Fe s ->. destruct (string_dec s "") as [Z|Z]; [auto|]. right. apply steady_calm; [auto|]. apply N. right. left. exists en.
               split; [reflexivity|]. split; [exact Z|]. apply filled_no in Fe. exact Fe.
          * exact Logic.I.
        + exfalso. eapply calm_not_found; [|exact F]. apply C. left; reflexivity.
        + split; [|intros _; apply (ref_text ("iwdr_listing_" ++ str_nat k)); [apply words_nat; reflexivity | apply L]].
          intros s ->. left. destruct N1 as [N1 | N1]; [discriminate N1|]. injection N1 as ->. reflexivity.
        + split; [apply (ref_text ("iwdr_listing_" ++ str_nat k)); [apply words_nat; reflexivity | apply L]|]. cbn [filled]. discriminate.
      - apply IH; [intros s I; apply C; right; exact I | intros e0 s I; apply S; right; exact I].
    Qed.
    Hypothesis fields : Forall (fun a => sforall is_word a = true) attrs.
    Lemma req_left r r' : ToolReqMoved gx all st st' t t' attrs skip2 r r' -> SteadyReq gx r ->
      (skip2 = false -> forall es s, r = RIwd (LList es) -> In (EText s) es -> Calm gx (JStr s)) -> quiet_req gx attrs here skip2 r'.
    Proof.
      intros H S C. inversion H as [defs N|values values' N|li N|li N1 N2|s e g N F I G L|l l' N|x N1 N2 N3]; subst.
      - cbn in S |- *. rewrite Forall_forall in *. intros [n v] D s E. injection E as <-. right. apply steady_calm; [exact (S n v D)|]. exact (N _ D).
      - cbn in S |- *. intros a I. cbn zeta. destruct (N a) as [(E & V) | (E & _ & e & g & _ & _ & _ & L)]; rewrite E.
        + destruct (dget a values) as [v|] eqn:Ea; [|discriminate]. intros T. destruct (V I) as [F | (i & r & G & R)]; [rewrite T in F; discriminate F|].
          apply (S a v Ea). exists i, JNull. unfold NoneFound. rewrite G. destruct R as [-> | ->]; auto.
        + intros _. rewrite Forall_forall in fields. apply (ref_calm a (fields a I)). apply L.
      - cbn. auto.
      - cbn in S |- *. right. destruct li; auto.
        + intros s0 E. injection E as <-. right. apply steady_calm; [exact S | auto].
        + destruct (N1 l eq_refl).
      - cbn. auto.
      - cbn in S |- *. destruct skip2; [auto|]. right. eapply entries_left; [exact N | | exact S]. intros s I. exact (C eq_refl _ _ eq_refl I).
      - destruct r'; try exact Logic.I; [destruct (N1 Logic.I) | destruct (N2 Logic.I) | destruct (N3 Logic.I)].
    Qed.
    Lemma js_incl : forall l l', JsRemoved l l' -> incl l' l.
    Proof.
      intros l l' H. induction H as [|r l l' N H IH|lib l l' H IH]; [apply incl_refl | |].
      - intros x [<- | X]; [left; reflexivity | right; auto].
      - intros x X. right; auto.
    Qed.

    Lemma tool_left : ToolMoved gx all st st' t t' skip1 -> ToolReqsMoved gx all st st' t t' attrs skip2 -> EvalMoved gx st st' t t' skip2 ->
      Extractable gx skip1 skip2 t -> quiet_tool gx attrs skip1 skip2 t' /\ ws_run st' = RTool t' /\ t_kind t' = KClt.
    Proof.
      intros M R (evs & E1 & E2 & E3) [X1 X6 X7 X8 X9 X2 X3 X4 X5].
      assert (Ev : evs = []).
      { destruct skip2; [exact E1|]. specialize (X4 eq_refl). clear - E1 X4. induction E1 as [|o l evs N E IH|o s e l evs N1 N2 F E IH]; [reflexivity| |].
        - apply IH. intros o' O. apply X4. right; exact O.
        - exfalso. destruct (X4 o (or_introl eq_refl) s N1) as [Z | Z]; [exact (N2 Z) | exact (calm_not_found _ _ Z F)]. }
      subst evs. cbn [rev] in E2. inversion E2 as [Ru|]. split; [|split; [reflexivity | rewrite (tm_kind _ _ _ _ _ _ _ M); exact X1]].
      assert (Rq : forall l l1, t_reqs t = Some l -> Forall2 (ToolReqMoved gx all st st' t t' attrs skip2) l l1 -> Forall (quiet_req gx attrs here skip2) l1).
      { intros l l1 L F. apply Forall_forall. intros r' I. destruct (Forall2_in_r _ _ _ _ F I) as (r & I2 & T). eapply req_left; [exact T | exact (X9 _ _ L I2) |].
        intros S es s -> I3. eapply X5; eauto. }
      split.
      - unfold ToolReqsMoved in R. destruct (t_reqs t) as [l|] eqn:L; [|rewrite R; constructor].
        destruct R as (l1 & F & [Q | Q]); pose proof (Rq l l1 eq_refl F) as G; [rewrite Q; exact G|].
        apply js_incl in Q. apply Forall_forall. intros r I. rewrite Forall_forall in G. apply G, Q. exact I.
      - intros S. pose proof (tm_args _ _ _ _ _ _ _ M) as A. rewrite S in A. exact (args_left _ _ _ A (X6 S)).
      - exact (text_left "stdout" _ _ eq_refl X7 (tm_stdout _ _ _ _ _ _ _ M)).
      - exact (text_left "stderr" _ _ eq_refl X8 (tm_stderr _ _ _ _ _ _ _ M)).
      - intros S. destruct (tm_inputs _ _ _ _ _ _ _ M) as (old & new & -> & F & N). apply Forall_app. split.
        + apply Forall_forall. intros p' I. destruct (Forall2_in_r _ _ _ _ F I) as (p & I2 & _ & _ & V). rewrite V. exact (X2 S p I2).
        + eapply Forall_impl; [|exact N]. intros p (_ & V). rewrite V. intros s E. discriminate E.
      - apply Forall_forall. intros o' I. destruct (Forall2_in_r _ _ _ _ E3 I) as (o & I2 & _ & G & _). rewrite G. exact (X3 o I2).
      - intros S. apply Forall_forall. intros o' I. destruct (Forall2_in_r _ _ _ _ E3 I) as (o & I2 & _ & _ & G & _). rewrite G. exact (X4 S o I2).
    Qed.
  End One.

  (** ** twice *)
  Hypothesis examples : forall steps st s, exists v, src_example steps st s = Ok v.
  Hypothesis selves : forall steps st s, exists v, self_example steps st s = Ok v.
  Local Notation refactored fuel w := (traverse_workflow gx ev src_example self_example src_params src_known out_known load_run attrs
                                   replace_etool skip1 skip2 fuel w).
  Lemma workflow_twice : Forall (fun a => sforall is_word a = true) attrs -> params_found src_params -> forall fuel fuel' w w' m,
    Older w -> Steps gx load_run skip1 skip2 w -> refactored fuel w = Ok (w', m) -> List.length (wf_steps w') <= fuel' ->
    exists w'', refactored fuel' w' = Ok (w'', false) /\ SameWorkflow w' w''.
  Proof.
    intros WA PF fuel fuel' w w' m O St E L.
    assert (NO : names_ok attrs).
    { unfold names_ok. eapply Forall_impl; [|exact WA]. intros a H. exact (has_char_sforall is_word "#" a eq_refl H). }
    pose proof (workflow_stays _ _ _ _ _ _ _ _ _ _ _ _ _ _ _ _ O E) as O'.
    destruct (C65_value_from _ _ _ _ _ _ _ _ _ _ _ _ PF _ _ _ _ E) as (olds & news & W1 & V).
    destruct (refactored_both _ _ _ _ _ _ _ _ _ _ _ _ _ _ _ _ NO E) as (olds2 & news2 & W2 & T).
    destruct (C69_output_evals _ _ _ _ _ _ _ _ _ _ _ _ _ _ _ _ E) as (olds3 & news3 & W3 & Ev).
    assert (H : (exists olds news, wf_steps w' = olds ++ news /\ Forall2 adds (wf_steps w) olds /\ Forall named news) /\
                Forall (gen_ok replace_etool) (wf_steps w') /\ Forall (quiet_req gx attrs (wf_mock (wf_inputs w')) false) (reqs_list (wf_reqs w')) /\
                Forall (fun r => match r with RJs _ | RStepExpr => False | _ => True end) (reqs_list (wf_reqs w')) /\
                (exists u, mapM (fun p => source_line (check_input gx (wf_mock (wf_inputs w')) p)) (wf_inputs w') = Ok u)).
    { unfold traverse_workflow in E. binv E ls El. binv E r Er. destruct r as [[wr1 s1] m1].
      binv E u Eu. destruct O as [OW OP]. rewrite (no_pick_loop out_known) in E by (apply Forall_forall; exact OP). cbn [bind app] in E.
      binv E q Eqq. destruct q as [[wr3 s3] m3]. injection E as <- _. cbn [wf_steps wf_reqs wf_inputs].
      assert (Ls : Forall2 (fun st s => ws_id s = ws_id st /\ ws_in s = ws_in st /\ ws_when s = ws_when st) (wf_steps w) (map fst ls)).
      { apply mapM_Forall2 in El. clear - El. induction El as [|st [s b] l ls H El IH]; constructor; [|exact IH].
        apply load_step_ok in H. destruct H as (H & _). cbn [fst]. rewrite H. auto. }
      assert (P : Forall (plain replace_etool) (map fst ls) /\ Forall plain_when (map fst ls)).
      { split; apply Forall_forall; intros s S; destruct (Forall2_in_r _ _ _ _ Ls S) as (st & I & A1 & A2 & A3); destruct (St st I) as (_ & N & _).
        - split; [|intros _; rewrite A3; exact (OW st I)]. intros X. exfalso. apply N. rewrite A1 in X. apply StartsWith_b. exact X.
        - intros _. rewrite A3. exact (OW st I). }
      destruct P as (P1 & P2). split; [|split; [|split; [|split]]].
      - destruct (steps_shape _ _ _ _ _ _ _ _ Er P2) as (a & b & A & B & C). cbn [app] in A.
        eapply process_shape; [exact Eqq | exact A | | exact C]. clear - B Ls. revert a B. induction Ls as [|x y l l' H Ls IH]; intros a B; inversion B; subst; constructor.
        + destruct H as (Ha & Hb & _). match goal with X : adds y _ |- _ => destruct X as (X1 & X2) end. split; [congruence|]. rewrite Hb in X2. exact X2.
        + apply IH. assumption.
      - eapply process_nw; [exact Eqq|]. eapply steps_nw; [exact Er | constructor | exact P1].
      - pose proof (process_left _ _ _ _ _ _ Eqq) as F. destruct wr3 as [[|r l]|]; try constructor. cbn [reqs_list] in *.
        apply Forall_forall. intros x X. apply filter_In in X. rewrite Forall_forall in F. apply F. apply X.
      - destruct wr3 as [[|r l]|]; try constructor. cbn [reqs_list].
        apply Forall_forall. intros x X. apply filter_In in X. destruct X as (_ & X). destruct x; try exact Logic.I; discriminate X.
      - eauto. }
    destruct H as ((olds4 & news4 & W4 & A & N) & G & R & J & U).
    assert (Q : forall a b c d, wf_steps w' = a ++ b -> wf_steps w' = c ++ d -> List.length a = List.length (wf_steps w) ->
                  List.length c = List.length (wf_steps w) -> a = c).
    { intros a b c d X Y Z1 Z2. rewrite X in Y. apply (app_length_inj _ _ _ _ Y). congruence. }
    pose proof (F2_length _ _ _ V) as L1. pose proof (F2_length _ _ _ T) as L2.
    pose proof (F2_length _ _ _ Ev) as L3. pose proof (F2_length _ _ _ A) as L4.
    assert (olds2 = olds) by (eapply Q; eauto). assert (olds3 = olds) by (eapply Q; eauto). assert (olds4 = olds) by (eapply Q; eauto).
    subst olds2 olds3 olds4.
    assert (Old : Forall (fun st' => quiet_step gx attrs skip1 skip2 st' /\ kind_ok replace_etool st') olds).
    { apply Forall_forall. intros st' I.
      assert (Ix : exists st, In st (wf_steps w) /\ (InputsMoved gx (wf_steps w') st st') /\
        (forall t, RunsTool load_run st t -> t_kind t = KClt -> exists t', inner (ws_run st') = Some t' /\
           ToolMoved gx (wf_steps w') st st' t t' skip1 /\ ToolReqsMoved gx (wf_steps w') st st' t t' attrs skip2 /\ EvalMoved gx st st' t t' skip2) /\
        adds st st').
      { assert (F : Forall2 (fun st s => InputsMoved gx (wf_steps w') st s /\
          (forall t, RunsTool load_run st t -> t_kind t = KClt -> exists t', inner (ws_run s) = Some t' /\
           ToolMoved gx (wf_steps w') st s t t' skip1 /\ ToolReqsMoved gx (wf_steps w') st s t t' attrs skip2 /\ EvalMoved gx st s t t' skip2) /\
          adds st s) (wf_steps w) olds).
        { clear - V T Ev A St. unfold Steps in St. set (aw := wf_steps w') in *. clearbody aw. set (l := wf_steps w) in *. clearbody l.
          revert T Ev A St. induction V as [|st s l olds V1 V IH]; intros T Ev A St; constructor.
          - inversion T as [|? ? ? ? T1 ?]; subst. inversion Ev as [|? ? ? ? Ev1 ?]; subst. inversion A as [|? ? ? ? A1 ?]; subst.
            destruct (St st (or_introl eq_refl)) as (Z1 & Z2 & Z3 & _). split; [|split; [|exact A1]].
            + destruct V1 as [V1 | [V1 | V1]]; [destruct (Z2 V1) | destruct (Z1 V1) | exact V1].
            + intros t Rt K. destruct (T1 t Z2 Z1 Z3 Rt K) as (t' & Y1 & Y2 & Y3). destruct (Ev1 t Z2 Z1 Rt K) as (t2 & Y4 & Y5).
              rewrite Y1 in Y4. injection Y4 as <-. eauto.
          - inversion T; subst. inversion Ev; subst. inversion A; subst. apply IH; auto. intros x X. apply St. right; exact X. }
        destruct (Forall2_in_r _ _ _ _ F I) as (st & X & Y). exists st. split; [exact X | exact Y]. }
      destruct Ix as (st & Is & Mv & Tl & (_ & o1 & n1 & D1 & D2 & D3)). destruct (St st Is) as (_ & _ & _ & Sv & t & Rt & X).
      destruct (Tl t Rt (xt_kind _ _ _ _ X)) as (t' & _ & Y1 & Y2 & Y3).
      destruct (tool_left _ _ _ _ _ WA Y1 Y2 Y3 X) as (Z1 & Z2 & Z3). split.
      - split; [|split].
        + destruct Mv as (o2 & n2 & C1 & C2 & _). rewrite D1 in C1. destruct (app_length_inj _ _ _ _ C1) as (<- & <-).
          { rewrite D2. eapply F2_length. exact C2. }
          rewrite D1. apply Forall_app. split.
          * apply Forall_forall. intros i' Ii. destruct (Forall2_in_r _ _ _ _ C2 Ii) as (i & Ij & M). inversion M; [apply steady_text; [subst; exact (Sv _ Ij) | assumption]|].
            cbn. intros s Es. discriminate Es.
          * eapply Forall_impl; [|exact D3]. intros i Vi. rewrite Vi. intros s Es. discriminate Es.
        + apply (od_when _ O'). rewrite W1. apply in_or_app. left; exact I.
        + exists t'. auto.
      - exists t'. split; [exact Z2|]. intros _. unfold is_etool. rewrite Z3. reflexivity. }
    assert (New : Forall named news).
    { rewrite W1 in W4. apply app_inv_head in W4. subst. exact N. }
    apply workflow_quiet; auto.
    - rewrite W1. apply Forall_app. split; [eapply Forall_impl; [|exact Old]; intros s (Qs & _); right; exact Qs | eapply Forall_impl; [|exact New]; auto].
    - rewrite W1. apply Forall_app. split; [eapply Forall_impl; [|exact Old]; intros s (_ & K); exact K|].
      apply Forall_forall. intros s S. rewrite Forall_forall in G, New. apply G; [rewrite W1; apply in_or_app; right; exact S | exact (New s S)].
    - apply Forall_forall. exact (od_pick _ O').
  Qed.
End Proofs.
