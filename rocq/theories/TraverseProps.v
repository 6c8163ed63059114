(** * C81, C82: a process on its own *)
From Verif Require Import PyBase PyBaseProofs PackModel ExprModel EvalModel ExprSpec ExprProps EvalSpec RefactorModel RefactorSpec RefactorProofs RefactorProps
  FlowModel FlowSpec FlowProofs FlowProofs2 FlowProps FlowValueSpec FlowValueProofs FlowValueProps FlowReqSpec
  FlowToolSpec FlowToolProofs FlowToolProps TraverseModel TraverseSpec.

Lemma tool_stream_same t : tool_stream false (t_stdout t) t = t.
Proof. destruct t; reflexivity. Qed.
Lemma expand_none digest given k now types : Forall (fun ty => ty <> JStr "stdout") types ->
  expand_loop digest given k now types = (types, now).
Proof.
  intros F. revert k now. induction F as [|ty types H F IH]; intros k now; [reflexivity|]. cbn [expand_loop].
  destruct (is_stdout ty) eqn:S.
  - destruct H. destruct ty; try discriminate S. cbn in S. apply String.eqb_eq in S. congruence.
  - rewrite IH. reflexivity.
Qed.
Lemma expand_nth digest given k now types n : nth_error (fst (expand_loop digest given k now types)) n
  = option_map (fun ty => if is_stdout ty then JStr "File" else ty) (nth_error types n).
Proof.
  revert k now n. induction types as [|ty types IH]; intros k now n; [destruct n; reflexivity|]. cbn [expand_loop].
  destruct (is_stdout ty) eqn:S; cbn [fst]; (destruct n as [|n]; cbn [nth_error option_map]; [rewrite S; reflexivity | apply IH]).
Qed.
Lemma expand_stdout digest given k now types : Forall (fun ty => ty <> JStr "stdout") types -> snd (expand_loop digest given k now types) = now.
Proof. intros F. rewrite expand_none by exact F. reflexivity. Qed.
Lemma main_OneHash : OneHash "#main".
Proof.
  intros a b E. destruct a as [|c a]; cbn in E; [injection E as <-; reflexivity|]. injection E as _ E.
  repeat (destruct a as [|? a]; cbn in E; [discriminate E | injection E as _ E]). destruct a; discriminate E.
Qed.
Lemma main_Fragment : Fragment "#main" "main".
Proof. split; [reflexivity|]. right. exists "". reflexivity. Qed.
Lemma outer_length ins extra : List.length (outer_inputs ins extra) = List.length ins.
Proof. revert extra. induction ins as [|i ins IH]; intros extra; [reflexivity|]. cbn. f_equal. apply IH. Qed.
Lemma outer_nth ins extra k p x i : nth_error ins k = Some p -> nth_error extra k = Some x ->
  nth_error (outer_inputs ins extra) k = Some i -> SameInput p x i.
Proof.
  revert extra k. induction ins as [|j ins IH]; intros extra k Ep Ex Ei; [destruct k; discriminate Ep|].
  destruct extra as [|y extra]; [destruct k; discriminate Ex|]. destruct k as [|k].
  - cbn in Ep, Ex, Ei. injection Ep as ->. injection Ex as ->. injection Ei as <-. repeat split; apply (after_hash_Fragment (ti_id p)); reflexivity.
  - cbn in Ep, Ex, Ei. eapply IH; eauto.
Qed.

Section Whole.
  Variable gx : json -> json -> json -> result (option string).
  Variable ev : string -> json -> result json.
  Variable src_example self_example : list wstep -> wstep -> src -> result json.
  Variable src_params : list wstep -> src -> result nat.
  Variable src_known : list wstep -> wstep -> string -> result unit.
  Variable out_known : list wstep -> src -> result unit.
  Variable load_run : string -> result (tool * bool).
  Variable attrs : list string.
  Variable replace_etool skip1 skip2 : bool.
  Variable digest : nat -> string.
  Notation refactored fuel p := (traverse gx ev src_example self_example src_params src_known out_known load_run attrs
                                   replace_etool skip1 skip2 digest fuel false p).
  Notation inner_refactored fuel w := (traverse_workflow gx ev src_example self_example src_params src_known out_known load_run attrs
                                   replace_etool skip1 skip2 fuel w).

  Lemma tool_inv fuel c p m : t_kind (cm_tool c) = KClt -> refactored fuel (PTool c) = Ok (p, m) ->
    exists w', inner_refactored fuel (wrap_tool (expand_stream_shortcuts digest c)) = Ok (w', m) /\
      p = if m then PWorkflow w' else PTool (expand_stream_shortcuts digest c).
  Proof.
    intros K E. unfold traverse, is_clt in E. rewrite K in E. cbn [andb negb] in E.
    destruct (inner_refactored fuel _) as [(w', m')|x]; [|discriminate E]. cbn [bind fst snd] in E.
    exists w'. destruct m'; injection E as <- <-; auto.
  Qed.

  (** ** C81: a CommandLineTool becomes a workflow with the same inputs and outputs *)
  Theorem C81_interface : params_found src_params -> forall fuel c w', t_kind (cm_tool c) = KClt ->
    refactored fuel (PTool c) = Ok (PWorkflow w', true) -> exists main, Around c w' main.
  Proof.
    intros P fuel c w' K E. destruct (tool_inv _ _ _ _ K E) as (w0 & E0 & Q). injection Q as <-.
    destruct (C63_interface_kept _ _ _ _ _ _ _ _ _ _ _ _ _ _ _ _ E0) as (I1 & I2).
    destruct (C63_steps_kept _ _ _ _ _ _ _ _ _ _ _ _ _ _ _ _ E0) as (olds & news & S1 & S2 & S3).
    destruct (C65_when _ _ _ _ _ _ _ _ _ _ _ _ P _ _ _ _ E0) as (olds2 & news2 & T1 & T2).
    cbn [wrap_tool wf_steps wf_inputs wf_outputs] in *.
    inversion S2 as [|s0 main l0 l1 A B]; subst. inversion B; subst.
    inversion T2 as [|s0 main2 l0 l1 A2 B2]; subst. inversion B2; subst.
    rewrite S1 in T1. cbn [app] in T1. injection T1 as <- _. exists main. split.
    - intros L. rewrite I1. split; [apply outer_length|]. intros. eapply outer_nth; eauto.
    - clear - I2. cbn [expand_stream_shortcuts cm_tool tool_stream t_outputs] in I2.
      remember (map _ (t_outputs (cm_tool c))) as l eqn:L. revert L. generalize (t_outputs (cm_tool c)). 
      induction I2 as [|o o' la lb H F IH]; intros outs L; (destruct outs as [|x outs]; [|]); try discriminate L; constructor.
      + injection L as -> ->. destruct H as [-> | (n & g & _ & _ & _ & (q & Hq & _) & _)]; [|discriminate Hq].
        repeat split; apply (after_hash_Fragment (to_id x)); reflexivity.
      + apply IH. injection L as _ ->. reflexivity.
    - exists news. split; [exact S1 | exact S3].
    - rewrite (sa_id _ _ _ A). exact main_Fragment.
    - destruct (sa_in _ _ _ A) as (old & new & Q1 & Q2 & Q3). exists old, new. split; [exact Q1|]. split; [|exact Q3].
      cbn [expand_stream_shortcuts cm_tool tool_stream t_inputs ws_in] in Q2. clear - Q2. rename Q2 into I2.
      remember (map _ (t_inputs (cm_tool c))) as l eqn:L. revert L. generalize (t_inputs (cm_tool c)). 
      induction I2 as [|o o' la lb H F IH]; intros outs L; (destruct outs as [|x outs]; [|]); try discriminate L; constructor.
      + injection L as -> ->. destruct H as [-> | (n & y & g & _ & _ & _ & _ & (q & Hq & _) & _)]; [|discriminate Hq].
        repeat split; apply (after_hash_Fragment (ti_id x)); reflexivity.
      + apply IH. injection L as _ ->. reflexivity.
    - rewrite (sa_scatter _ _ _ A). reflexivity.
    - destruct A2 as [A2 | [A2 | [A2 _ | t e g0 g i A2 _ _ _ _ _ _ _ _ _ _]]].
      + destruct A2 as (r & A2). discriminate A2.
      + discriminate A2.
      + rewrite A2. reflexivity.
      + discriminate A2.
  Qed.

  (** The tool run by that step is the one that was given, but for the expressions, each of which is
      computed by a step of its own as in C67 and C68.  ([stdout] may be the generated name, if an
      output has the type stdout.) *)
  Theorem C81_expressions : names_ok attrs -> forall fuel c w', t_kind (cm_tool c) = KClt ->
    refactored fuel (PTool c) = Ok (PWorkflow w', true) ->
    exists st main made t t', wf_steps w' = main :: made /\ ws_id st = ws_id main /\ Forall2 Passed (t_inputs (cm_tool c)) (ws_in st) /\
      ToolOf c t /\ inner (ws_run main) = Some t' /\
      ToolMoved gx (wf_steps w') st main t t' skip1 /\ ToolReqsMoved gx (wf_steps w') st main t t' attrs skip2.
  Proof.
    intros A fuel c w' K E. destruct (tool_inv _ _ _ _ K E) as (w0 & E0 & Q). injection Q as <-.
    destruct (refactored_both _ _ _ _ _ _ _ _ _ _ _ _ _ _ _ _ A E0) as (olds & news & R1 & R2).
    destruct (C63_steps_kept _ _ _ _ _ _ _ _ _ _ _ _ _ _ _ _ E0) as (olds2 & news2 & S1 & S2 & _).
    cbn [wrap_tool wf_steps] in R2, S2.
    inversion R2 as [|st main l0 l1 H B]; subst. inversion B; subst.
    inversion S2 as [|st' main2 l0 l1 H2 B2]; subst. inversion B2; subst.
    rewrite R1 in S1. cbn [app] in S1. injection S1 as <- _.
    destruct (H (cm_tool (expand_stream_shortcuts digest c))) as (t' & T1 & T2 & T3).
    - intros (r & X). discriminate X.
    - discriminate.
    - exact main_OneHash.
    - left. reflexivity.
    - exact K.
    - eexists. exists main, news, (cm_tool (expand_stream_shortcuts digest c)), t'.
      split; [exact R1|]. split; [symmetry; exact (sa_id _ _ _ H2)|]. split; [|split; [|split; [exact T1 | split; [exact T2 | exact T3]]]].
      + cbn [ws_in expand_stream_shortcuts cm_tool tool_stream t_inputs]. clear. induction (t_inputs (cm_tool c)) as [|p l IH]; cbn [map]; constructor; [|exact IH].
        repeat split; apply (after_hash_Fragment (ti_id p)); reflexivity.
      + split; [eexists; reflexivity|]. intros F. cbn [expand_stream_shortcuts cm_tool]. rewrite expand_stdout by exact F. apply tool_stream_same.
  Qed.

  (** When nothing was modified, the tool is the one that was given. *)
  Theorem C81_unmodified : forall fuel c p, t_kind (cm_tool c) = KClt -> Forall (fun ty => ty <> JStr "stdout") (cm_types c) ->
    refactored fuel (PTool c) = Ok (p, false) -> p = PTool c.
  Proof.
    intros fuel c p K F E. destruct (tool_inv _ _ _ _ K E) as (w0 & E0 & ->). f_equal.
    unfold expand_stream_shortcuts. rewrite expand_none by exact F. cbn [fst snd]. rewrite tool_stream_same. destruct c; reflexivity.
  Qed.

  (** What is neither a CommandLineTool nor a Workflow, nor an ExpressionTool to be replaced, is left
      alone; and so is every CommandLineTool inside another process. *)
  Theorem C81_left_alone : forall fuel inside c,
    t_kind (cm_tool c) = KOperation \/ (t_kind (cm_tool c) = KClt /\ inside = true) \/ (t_kind (cm_tool c) = KEtool /\ replace_etool = false) ->
    traverse gx ev src_example self_example src_params src_known out_known load_run attrs replace_etool skip1 skip2 digest fuel inside (PTool c)
      = Ok (PTool c, false).
  Proof. intros fuel inside c [K | [(K & ->) | (K & ->)]]; unfold traverse, is_clt, is_etool; rewrite K; reflexivity. Qed.

  (** It always ends. *)
  Theorem C81_ends :
    (forall a b c, gx a b c <> Err OutOfFuel) -> (forall a b, ev a b <> Err OutOfFuel) ->
    (forall a b c, src_example a b c <> Err OutOfFuel) -> (forall a b c, self_example a b c <> Err OutOfFuel) ->
    (forall a b, src_params a b <> Err OutOfFuel) -> (forall a b c, src_known a b c <> Err OutOfFuel) ->
    (forall a b, out_known a b <> Err OutOfFuel) -> (forall a, load_run a <> Err OutOfFuel) ->
    forall p, exists n r, r <> Err OutOfFuel /\ forall fuel, n <= fuel -> refactored fuel p = r.
  Proof.
    intros H1 H2 H3 H4 H5 H6 H7 H8 p.
    assert (G : forall w, exists n r, r <> Err OutOfFuel /\ forall fuel, n <= fuel -> inner_refactored fuel w = r)
      by (intros w; apply C63_ends; assumption).
    destruct p as [c | w].
    - unfold traverse. destruct (is_clt (cm_tool c) && negb false).
      + destruct (G (wrap_tool (expand_stream_shortcuts digest c))) as (n & r & R & F). exists n. eexists. split; [|intros fuel L; rewrite (F fuel L); reflexivity].
        destruct r as [(w', [|])|e]; cbn; congruence.
      + exists 0. eexists. split; [|intros; reflexivity]. destruct (is_etool (cm_tool c) && replace_etool); [|discriminate].
        unfold find_expr. destruct (gx _ _ _) eqn:Q; [discriminate|]. cbn. intros X. injection X as ->. exact (H1 _ _ _ Q).
    - destruct (G w) as (n & r & R & F). exists n. eexists. split; [|intros fuel L; cbn [traverse]; rewrite (F fuel L); reflexivity].
      destruct r as [(w', m)|e]; cbn; congruence.
  Qed.
End Whole.
Print Assumptions C81_interface.
Print Assumptions C81_expressions.
Print Assumptions C81_unmodified.
Print Assumptions C81_left_alone.
Print Assumptions C81_ends.

(** *** Values *)

Lemma Forall2_same_length {A B} (R : A -> B -> Prop) l l' : Forall2 R l l' -> List.length l = List.length l'.
Proof. intros F. induction F; cbn; congruence. Qed.
Lemma param_name id n : Fragment id n -> has_char "/" n = false -> ParamName id n.
Proof. intros F H. exists n. split; [exact F|]. split; [exact H|]. left. reflexivity. Qed.

(** An expression of the tool, computed by the step made for it, has the value it has in the tool, when
    the inputs of the tool and of the workflow have the values [env], if it uses only inputs of the tool
    that do not begin with an underscore. *)
Theorem C81_values : forall (val : src -> option string -> json -> option string -> json) (env : string -> json)
    (js : string -> (string -> option json) -> json) (uses : string -> string -> Prop),
  (forall e o o', (forall x, uses e x -> o x = o' x) -> js e o = js e o') ->
  (forall x, val (SOne x) None JNull None = env x) ->
  forall c w' st main t, Around c w' main -> Forall2 Passed (t_inputs (cm_tool c)) (ws_in st) -> ToolOf c t -> PlainNames (cm_tool c) ->
  forall place self e g, MadeForTool st main t place self e g ->
    (forall x, uses e x -> ~ StartsWith "_" x /\ exists p, In p (t_inputs (cm_tool c)) /\ Fragment (ti_id p) x) ->
  forall own, (forall x, own_inputs (cm_tool c) env x (own x)) ->
    js e (inputs_in val (ws_in g) (params_of (ws_run g))) = js e own.
Proof.
  intros val env js uses J V c w' st main t A Ps ((s & ->) & _) PN place self e g M U own Own.
  set (ps := t_inputs (cm_tool c)) in *.
  destruct (ar_in _ _ _ A) as (old & new & I1 & I2 & I3). fold ps in I2.
  assert (L : List.length (ws_in st) = List.length old) by (rewrite <- (Forall2_same_length _ _ _ Ps); apply (Forall2_same_length _ _ _ I2)).
  set (names := map (fun p => after_hash (ti_id p)) ps).
  assert (Slash : forall p, In p ps -> has_char "/" (after_hash (ti_id p)) = false).
  { intros p Ip. unfold PlainNames in PN. rewrite Forall_forall in PN. destruct (PN p Ip) as (n & F & H). apply after_hash_Fragment in F. congruence. }
  assert (Fn : Forall2 (fun p x => ParamName (ti_id p) x) (t_inputs (tool_stream false s (cm_tool c))) names).
  { cbn [tool_stream t_inputs]. fold ps. subst names. clear - Slash. induction ps as [|p l IH]; cbn [map]; constructor.
    - apply param_name; [apply after_hash_Fragment; reflexivity | apply Slash; left; reflexivity].
    - apply IH. intros q Iq. apply Slash. right. exact Iq. }
  assert (Names : forall x, In x names <-> exists p, In p ps /\ Fragment (ti_id p) x).
  { intros x. unfold names. rewrite in_map_iff. split; intros (p & P1 & P2); exists p; rewrite <- after_hash_Fragment in *; tauto. }
  assert (Old : forall i, In i old -> name_of i = si_id i /\ value_of val i = env (si_id i)).
  { intros i Ii. destruct (Forall2_in_r _ _ _ _ I2 Ii) as (p & Ip & P1 & P2 & P3 & P4 & P5). split.
    - unfold name_of. apply last_part_none. apply after_hash_Fragment in P1. rewrite <- P1. apply Slash. exact Ip.
    - unfold value_of. rewrite P2, P3, P4, P5. apply V. }
  assert (Uo : forall x, uses e x -> exists i, In i old /\ name_of i = x).
  { intros x Ux. destruct (U x Ux) as (_ & p & Ip & F). destruct (Forall2_in_l _ _ _ _ I2 Ip) as (i & Ii & P1 & _). exists i. split; [exact Ii|].
    destruct (Old i Ii) as (-> & _). apply after_hash_Fragment in F, P1. congruence. }
  rewrite (C67_value_kept_partial val js uses J st main _ place self e g names M Fn).
  - apply J. intros x Ux. unfold inputs_in. destruct (U x Ux) as (_ & Ex).
    assert (E1 : existsb (String.eqb x) names = true) by (apply existsb_exists; exists x; split; [apply Names; exact Ex | apply String.eqb_refl]).
    rewrite E1, I1. destruct (Own x) as [(-> & _) | (_ & N)]; [|destruct Ex as (p & Ip & F); destruct (N p Ip F)].
    destruct (Uo x Ux) as (i & Ii & Ni).
    assert (Fa : forall l, In i l -> (forall j, In j l -> In j old) -> match find (fun i => String.eqb (name_of i) x) (l ++ new) with Some i => Some (value_of val i) | None => None end = Some (env x)).
    { intros l. induction l as [|j l IH]; intros Il Sub; [destruct Il|]. cbn [app find]. destruct (String.eqb (name_of j) x) eqn:Q.
      - apply String.eqb_eq in Q. destruct (Old j (Sub j (or_introl eq_refl))) as (O1 & O2). rewrite O2. congruence.
      - apply IH; [destruct Il as [-> | Il]; [rewrite Ni, String.eqb_refl in Q; discriminate Q | exact Il] | intros k Ik; apply Sub; right; exact Ik]. }
    apply Fa; auto.
  - intros x Ux. destruct (U x Ux) as (U1 & U2). split; [exact U1|]. split; [apply Names; exact U2|].
    destruct (Uo x Ux) as (i & Ii & Ni). exists i. split; [|exact Ni]. rewrite I1, L, firstn_app, firstn_all, Nat.sub_diag. cbn [firstn]. rewrite app_nil_r. exact Ii.
Qed.
Print Assumptions C81_values.

(** *** Formats *)

Section Refused.
  Variable gx : json -> json -> json -> result (option string).
  Variable ev : string -> json -> result json.
  Variable src_example self_example : list wstep -> wstep -> src -> result json.
  Variable src_params : list wstep -> src -> result nat.
  Variable src_known : list wstep -> wstep -> string -> result unit.
  Variable out_known : list wstep -> src -> result unit.
  Variable load_run : string -> result (tool * bool).
  Variable attrs : list string.
  Variable replace_etool skip1 skip2 : bool.
  Variable digest : nat -> string.
  Notation refactored fuel p := (traverse gx ev src_example self_example src_params src_known out_known load_run attrs
                                   replace_etool skip1 skip2 digest fuel false p).

  (** an expression is found in the value, whatever the inputs are *)
  Definition AlwaysFound (v : json) : Prop := truthy v = true /\ forall inputs self r, gx v inputs self = Ok r -> r <> None /\ r <> Some "".
  Lemma find_always v inputs self : AlwaysFound v -> find_expr gx v inputs self <> Ok None.
  Proof.
    intros (_ & A). unfold find_expr. destruct (gx v inputs self) as [r|x] eqn:E; [|discriminate]. cbn [bind].
    destruct (A _ _ _ E) as (N1 & N2). destruct r as [r|]; [|congruence]. cbn [filled]. destruct (String.eqb_spec r ""); [congruence|]. discriminate.
  Qed.
  Lemma mapM_fails {A B} (f : A -> result B) l a : In a l -> (forall b, f a <> Ok b) -> forall r, mapM f l <> Ok r.
  Proof.
    intros I N. induction l as [|x l IH]; [destruct I|]. intros r E. cbn [mapM] in E. destruct (f x) as [b|] eqn:Q; [|discriminate E]. cbn [bind] in E.
    destruct (mapM f l) as [bs|] eqn:R; [|discriminate E]. destruct I as [-> | I]; [exact (N _ Q) | exact (IH I _ eq_refl)].
  Qed.

  (** A tool with an expression in the format or in the secondaryFiles of an input is not refactored: the
      workflow around it would have it, where the refactoring cannot replace it. *)
  Theorem C81_format_refused : forall c k p x, t_kind (cm_tool c) = KClt ->
    nth_error (t_inputs (cm_tool c)) k = Some p -> nth_error (cm_extra c) k = Some x ->
    (AlwaysFound (fst x) \/ exists s, In s (snd x) /\ AlwaysFound s) ->
    forall fuel r, refactored fuel (PTool c) <> Ok r.
  Proof.
    intros c k p x K Ep Ex F fuel (q, m) E. destruct (tool_inv _ _ _ _ _ _ _ _ _ _ _ _ _ _ _ _ _ K E) as (w' & E0 & _).
    unfold traverse_workflow in E0. cbn [wrap_tool wf_inputs] in E0.
    set (c' := expand_stream_shortcuts digest c) in *.
    destruct (mapM (load_step load_run replace_etool) _) as [ls|]; [|discriminate E0]. cbn [bind] in E0.
    destruct (steps_loop _ _ _ _ _ _ _ _ _ _ _ _ _ _) as [((wr & ss) & m1)|]; [|discriminate E0]. cbn [bind] in E0.
    destruct (mapM _ (outer_inputs _ _)) as [us|] eqn:Q; [|discriminate E0]. revert Q.
    assert (Ei : exists i, nth_error (outer_inputs (t_inputs (cm_tool c')) (cm_extra c')) k = Some i /\ wi_format i = fst x /\ wi_secondary i = snd x).
    { cbn. clear - Ep Ex. revert k Ep Ex. generalize (t_inputs (cm_tool c)) (cm_extra c). intros l. induction l as [|j l IH]; intros ex k Ep Ex; [destruct k; discriminate Ep|].
      destruct ex as [|y ex]; [destruct k; discriminate Ex|]. destruct k as [|k]; [injection Ex as ->; eexists; split; [reflexivity | split; reflexivity]|]. exact (IH ex k Ep Ex). }
    destruct Ei as (i & Ei & W1 & W2). apply nth_error_In in Ei. apply (mapM_fails _ _ i Ei). intros u.
    unfold source_line, check_input. rewrite W1, W2.
    assert (Sec : forall inputs, (exists s, In s (snd x) /\ AlwaysFound s) -> forall r,
      mapM (fun s => do y <- find_expr gx s inputs empty_file; match y with Some _ => Err WorkflowException | None => Ok tt end) (snd x) <> Ok r).
    { intros inputs (s & Is & As). apply (mapM_fails _ _ s Is). intros b Eb. pose proof (find_always s inputs empty_file As) as N.
      destruct (find_expr gx s inputs empty_file) as [[y|]|y]; cbn [bind] in Eb; congruence. }
    set (inputs := wf_mock (outer_inputs (t_inputs (cm_tool c')) (cm_extra c'))).
    destruct F as [F | F].
    - pose proof (find_always (fst x) inputs JNull F) as N. rewrite (proj1 F).
      destruct (find_expr gx (fst x) inputs JNull) as [[y|]|y]; cbn [bind]; [discriminate | congruence | destruct y; discriminate].
    - specialize (Sec inputs F). destruct (if truthy (fst x) then find_expr gx (fst x) inputs JNull else Ok None) as [[y|]|y]; cbn [bind]; [discriminate | | destruct y; discriminate].
      destruct (mapM _ (snd x)) as [v|v]; [destruct (Sec v eq_refl)|]. cbn [bind]. destruct v; discriminate.
  Qed.

  (** *** The type stdout *)

  (** An output of the type stdout is not taken from the standard output afterwards: it is a File without
      an outputBinding. *)
  Theorem C81_stdout_lost : forall fuel c c' k o, t_kind (cm_tool c) = KClt ->
    nth_error (cm_types c) k = Some (JStr "stdout") -> nth_error (t_outputs (cm_tool c)) k = Some o -> to_glob o = JNull ->
    refactored fuel (PTool c) = Ok (PTool c', false) ->
    exists ty, nth_error (cm_types c') k = Some ty /\ nth_error (t_outputs (cm_tool c')) k = Some o /\ ~ TakesStdout (cm_tool c') ty o.
  Proof.
    intros fuel c c' k o K T O G E. destruct (tool_inv _ _ _ _ _ _ _ _ _ _ _ _ _ _ _ _ _ K E) as (w' & _ & Q). injection Q as ->.
    exists (JStr "File"). split; [cbn [expand_stream_shortcuts cm_types]; rewrite expand_nth, T; reflexivity|]. split; [exact O|].
    intros [Q | (_ & s & _ & _ & Q)]; [discriminate Q | rewrite G in Q; discriminate Q].
  Qed.
  (** The same in the workflow: the tool that the step runs has no outputBinding for it either, and the type
      stdout is no type for an output of a workflow. *)
  Theorem C81_stdout_lost_workflow : names_ok attrs -> forall fuel c w' k o, t_kind (cm_tool c) = KClt ->
    nth_error (cm_types c) k = Some (JStr "stdout") -> nth_error (t_outputs (cm_tool c)) k = Some o -> to_glob o = JNull ->
    refactored fuel (PTool c) = Ok (PWorkflow w', true) ->
    exists main made t' o', wf_steps w' = main :: made /\ inner (ws_run main) = Some t' /\
      nth_error (t_outputs t') k = Some o' /\ ShortFor (to_id o) (to_id o') /\ ~ TakesStdout t' (JStr "File") o'.
  Proof.
    intros A fuel c w' k o K T O G E.
    destruct (C81_expressions _ _ _ _ _ _ _ _ _ _ _ _ _ A _ _ _ K E) as (st & main & made & t & t' & S1 & _ & _ & ((s & ->) & _) & S5 & S6 & _).
    pose proof (tm_outputs _ _ _ _ _ _ _ S6) as F. cbn [tool_stream t_outputs] in F.
    assert (X : forall l l', Forall2 OutSame l l' -> forall k, nth_error l k = Some o -> exists o', nth_error l' k = Some o' /\ OutSame o o').
    { clear. intros l l' F. induction F as [|a b l l' H F IH]; intros k E; [destruct k; discriminate E|]. destruct k as [|k]; [injection E as ->; exists b; auto | apply IH; exact E]. }
    destruct (X _ _ F k O) as (o' & O1 & O2 & O3). exists main, made, t', o'. repeat (split; [assumption|]).
    intros [Q | (_ & z & _ & _ & Q)]; [discriminate Q | rewrite O3, G in Q; discriminate Q].
  Qed.
End Refused.
Print Assumptions C81_format_refused.
Print Assumptions C81_stdout_lost.
Print Assumptions C81_stdout_lost_workflow.

(** *** Cases *)
Definition demo_digest (k : nat) : string := ("digest" ++ str_nat k)%string.
Definition demo_traverse (replace_etool : bool) (p : process) : result (process * bool) :=
  traverse demo_gx demo_plain (fun _ _ _ => Ok (JInt 23)) (fun _ _ _ => Ok (JInt 23)) (fun _ _ => Ok 1)
    (fun _ _ _ => Ok tt) (fun _ _ => Ok tt) (fun _ => Err WorkflowException) ["coresMin"; "ramMin"] replace_etool false false demo_digest 100 false p.
Definition demo_command : command :=
  {| cm_tool := rich_tool; cm_extra := [(JNull, []); (JStr "edam:format_2330", [JStr ".bai"])]; cm_types := [JStr "File"] |}.
Example C81_case : exists w', demo_traverse true (PTool demo_command) = Ok (PWorkflow w', true) /\
  map (fun i => (wi_id i, wi_format i)) (wf_inputs w') = [("x", JNull); ("y", JStr "edam:format_2330")] /\
  map (fun o => (wo_id o, wo_source o)) (wf_outputs w') = [("out", SOne "main/out")] /\
  (exists main made, wf_steps w' = main :: made /\ ws_id main = "#main" /\ List.length made = 8 /\
    map (fun i => (si_id i, si_source i)) (firstn 2 (ws_in main)) = [("x", SOne "x"); ("y", SOne "y")]) /\
  params_found (fun (_ : list wstep) (_ : src) => Ok 1) /\ names_ok ["coresMin"; "ramMin"] /\ PlainNames (cm_tool demo_command) /\
  t_kind (cm_tool demo_command) = KClt.
Proof.
  eexists. split; [vm_compute; reflexivity|]. split; [reflexivity|]. split; [reflexivity|]. split.
  - eexists. eexists. split; [reflexivity|]. split; [reflexivity|]. split; reflexivity.
  - split; [intros steps s n E; injection E as <-; auto|]. split; [repeat constructor|]. split; [|reflexivity].
    repeat constructor; [exists "x" | exists "y"]; (split; [split; [reflexivity | right; exists "t.cwl"; reflexivity] | reflexivity]).
Qed.
(** the value of the expression of stdout: the step made for it, and the tool *)
Definition demo_env (x : string) : json := if String.eqb x "x" then JInt 4 else JInt 5.
Definition env_val (s : src) (merge : option string) (default : json) (vf : option string) : json := match s with SOne x => demo_env x | _ => default end.
Example C81_values_case : exists w' main made g, demo_traverse true (PTool demo_command) = Ok (PWorkflow w', true) /\
  wf_steps w' = main :: made /\ In g made /\ ws_id g = "_expression_main_stdout" /\
  inputs_in env_val (ws_in g) (params_of (ws_run g)) "x" = Some (JInt 4) /\ inputs_in env_val (ws_in g) (params_of (ws_run g)) "y" = Some (JInt 5) /\
  own_inputs (cm_tool demo_command) demo_env "x" (Some (JInt 4)).
Proof.
  eexists. eexists. eexists. eexists. split; [vm_compute; reflexivity|]. split; [reflexivity|].
  split; [do 5 right; left; reflexivity|]. split; [reflexivity|]. split; [reflexivity|]. split; [reflexivity|].
  left. split; [reflexivity|]. exists (tin "t.cwl#x"). split; [left; reflexivity|]. split; [reflexivity | right; exists "t.cwl"; reflexivity].
Qed.
Definition plain_command : command :=
  {| cm_tool := plain_tool ["t.cwl#x"]; cm_extra := [(JNull, [])]; cm_types := [] |}.
Example C81_unmodified_case : demo_traverse true (PTool plain_command) = Ok (PTool plain_command, false).
Proof. vm_compute. reflexivity. Qed.
Definition file_command (format : json) : command :=
  {| cm_tool := plain_tool ["t.cwl#x"]; cm_extra := [(format, [])]; cm_types := [] |}.
Example C81_format_case : demo_traverse true (PTool (file_command (JStr "${return inputs.f;}"))) = Err WorkflowException /\
  AlwaysFound demo_gx (JStr "${return inputs.f;}").
Proof. split; [vm_compute; reflexivity|]. split; [reflexivity|]. intros inputs self r E. vm_compute in E. injection E as <-. split; discriminate. Qed.

(** Outputs of the type stdout *)
Definition out (n : string) : toutput := {| to_id := n; to_glob := JNull; to_eval := None; to_contents := false |}.
Definition stdout_command (outs : list (string * json)) (args : list targ) : command :=
  {| cm_tool := {| t_kind := KClt; t_inputs := [tin "t.cwl#x"]; t_args := args; t_stdout := None; t_stderr := None;
                   t_outputs := map (fun o => out (fst o)) outs; t_reqs := None; t_hints := []; t_expression := "" |};
     cm_extra := [(JNull, [])]; cm_types := map snd outs |}.
Theorem C81_stdout_refuted : ~ (forall c c' k ty o, t_kind (cm_tool c) = KClt ->
  nth_error (cm_types c) k = Some ty -> nth_error (t_outputs (cm_tool c)) k = Some o -> TakesStdout (cm_tool c) ty o ->
  demo_traverse true (PTool c) = Ok (PTool c', false) ->
  exists ty' o', nth_error (cm_types c') k = Some ty' /\ nth_error (t_outputs (cm_tool c')) k = Some o' /\ TakesStdout (cm_tool c') ty' o').
Proof.
  intros H. set (c := stdout_command [("t.cwl#o", JStr "stdout")] []).
  destruct (demo_traverse true (PTool c)) as [([c'|], [|])|] eqn:E; try (vm_compute in E; discriminate E).
  destruct (H c c' 0 (JStr "stdout") (out "t.cwl#o") eq_refl eq_refl eq_refl (or_introl eq_refl) E) as (ty' & o' & E1 & E2 & T).
  destruct (C81_stdout_lost _ _ _ _ _ _ _ _ _ _ _ _ _ _ c c' 0 (out "t.cwl#o") eq_refl eq_refl eq_refl eq_refl E) as (ty & F1 & F2 & N).
  rewrite E1 in F1. rewrite E2 in F2. injection F1 as ->. injection F2 as ->. exact (N T).
Qed.
Print Assumptions C81_stdout_refuted.
(** with an expression: the workflow *)
Example C81_stdout_case : exists w', demo_traverse true (PTool (stdout_command [("t.cwl#o", JStr "stdout"); ("t.cwl#p", JStr "stdout")] [ABind (Some "$(inputs.x + 1)")])) = Ok (PWorkflow w', true) /\
  exists t', first_tool w' = Some t' /\ t_stdout t' = Some "digest1" /\ map to_glob (t_outputs t') = [JNull; JNull].
Proof. eexists. split; [vm_compute; reflexivity|]. eexists. split; [vm_compute; reflexivity|]. split; reflexivity. Qed.
(** The type stderr is not expanded at all. *)
Example C81_stderr_case : demo_traverse true (PTool (stdout_command [("t.cwl#o", JStr "stderr")] [])) = Ok (PTool (stdout_command [("t.cwl#o", JStr "stderr")] []), false).
Proof. vm_compute. reflexivity. Qed.

(** ** C82: an ExpressionTool becomes a command that runs its code *)
Section Etool.
  Variable gx : json -> json -> json -> result (option string).
  Variable ev : string -> json -> result json.
  Variable src_example self_example : list wstep -> wstep -> src -> result json.
  Variable src_params : list wstep -> src -> result nat.
  Variable src_known : list wstep -> wstep -> string -> result unit.
  Variable out_known : list wstep -> src -> result unit.
  Variable load_run : string -> result (tool * bool).
  Variable attrs : list string.
  Variable skip1 skip2 : bool.
  Variable digest : nat -> string.
  Notation refactored gx fuel p := (traverse gx ev src_example self_example src_params src_known out_known load_run attrs
                                   true skip1 skip2 digest fuel false p).

  Lemma etool_inv fuel c p m : t_kind (cm_tool c) = KEtool -> refactored gx fuel (PTool c) = Ok (p, m) ->
    m = true /\ exists c' e, p = PTool c' /\ SameSignature c c' /\ WritesProgram c' (script [] e) /\
      exists r, gx (JStr (t_expression (cm_tool c))) (tool_mock (t_inputs (cm_tool c))) JNull = Ok r /\
        e = match filled r with Some e => e | None => t_expression (cm_tool c) end.
  Proof.
    intros K E. unfold traverse, is_clt, is_etool, find_expr in E. rewrite K in E. cbn [andb] in E.
    destruct (gx _ _ _) as [r|] eqn:G; [|discriminate E]. cbn [bind] in E. injection E as <- <-. split; [reflexivity|].
    eexists. exists (match filled r with Some e => e | None => t_expression (cm_tool c) end). split; [reflexivity|]. split; [|split].
    - unfold SameSignature. cbn [cm_tool cm_types cm_extra etool_to_cltool t_inputs t_outputs]. rewrite !map_map. cbn [ti_id ti_type to_id].
      destruct (filled r); cbn [with_expression t_inputs t_outputs]; repeat split; apply map_ext; reflexivity.
    - repeat split. cbn [cm_tool etool_to_cltool t_reqs]. destruct (filled r); reflexivity.
    - exists r. split; reflexivity.
  Qed.

  (** The command has the inputs and the outputs of the ExpressionTool; it writes a program, whose text,
      when its references are evaluated with the newer rules, has the code of the tool if that is a code
      block.  (Code without double backslashes and without what looks like a reference: see C61.) *)
  Theorem C82_signature : forall fuel c p m, t_kind (cm_tool c) = KEtool -> refactored gx fuel (PTool c) = Ok (p, m) ->
    m = true /\ exists c' text, p = PTool c' /\ SameSignature c c' /\ WritesProgram c' text.
  Proof. intros fuel c p m K E. destruct (etool_inv _ _ _ _ K E) as (M & c' & e & E1 & E2 & E3 & _). eauto 7. Qed.
End Etool.
Print Assumptions C82_signature.

Lemma returned_contains a b x : a = "$"%char \/ a = c_bs -> b <> ";"%char ->
  contains (String a (String b "")) x = false -> contains (String a (String b "")) ("return " ++ x ++ ";") = false.
Proof.
  intros A B C. cbn [append]. rewrite !contains2_cons, contains2_app by congruence. rewrite C. cbn [orb]. rewrite contains2_cons.
  destruct A as [-> | ->]; reflexivity.
Qed.

Section Code.
  Variable js0 : unit -> string -> string -> unit * result json.
  Variable dumps dumps4 : json -> string.
  Variable loads : string -> string.
  Variable ev : string -> json -> result json.
  Variable src_example self_example : list wstep -> wstep -> src -> result json.
  Variable src_params : list wstep -> src -> result nat.
  Variable src_known : list wstep -> wstep -> string -> result unit.
  Variable out_known : list wstep -> src -> result unit.
  Variable load_run : string -> result (tool * bool).
  Variable attrs : list string.
  Variable skip1 skip2 : bool.
  Variable digest : nat -> string.
  Notation refactored fuel p := (traverse (get_expression js0 dumps dumps4 loads) ev src_example self_example src_params src_known out_known load_run attrs
                                   true skip1 skip2 digest fuel false p).
  Hypothesis LIB : json_library_ok dumps loads.

  (** The program that is run, for all inputs: [js] is the engine, which is not used. *)
  Definition RunsCode (text : string) (lib : list string) (code : string) : Prop :=
    forall (St : Type) (js : St -> string -> string -> St * result json) st inputs reqs outdir tmpdir res ctx sw ver,
    Forall wf_requirement reqs -> ~ old_rules_version ver ->
    exists runtime, do_eval js dumps dumps4 loads st (JStr text) (JDict inputs) reqs outdir tmpdir res ctx sw ver
      = (st, Ok (JStr (program (dumps (JDict inputs)) (dumps (JDict runtime)) lib code))).
  Lemma script_RunsCode e code : HasCode e code -> Inert code -> NoPair code -> RunsCode (script [] e) [] code.
  Proof.
    intros H I N St js st inputs reqs outdir tmpdir res ctx sw ver W V.
    destruct (C61_script_partial St js dumps dumps4 loads st inputs reqs outdir tmpdir res ctx sw ver [] e code LIB W V H I N (Forall_nil _)) as (rt & _ & _ & _ & E).
    exists rt. exact E.
  Qed.

  Theorem C82_block_partial : forall fuel c p m code, t_kind (cm_tool c) = KEtool -> refactored fuel (PTool c) = Ok (p, m) ->
    HasCode (t_expression (cm_tool c)) code -> Inert code -> NoPair code ->
    exists c' text, p = PTool c' /\ WritesProgram c' text /\ RunsCode text [] code.
  Proof.
    intros fuel c p m code K E H I N. destruct (etool_inv _ _ _ _ _ _ _ _ _ _ _ _ _ _ _ _ K E) as (_ & c' & e & E1 & _ & E3 & r & E4 & E5).
    exists c', (script [] e). split; [exact E1|]. split; [exact E3|]. apply script_RunsCode; auto.
    assert (S : startswith "${" (strip (t_expression (cm_tool c))) = true) by (unfold HasCode in H; rewrite H; destruct code; reflexivity).
    cbn [get_expression] in E4. rewrite S in E4. injection E4 as <-. subst e. cbn [filled]. destruct (String.eqb _ _); exact H.
  Qed.
  (** A text [$(code)] that needs JavaScript: the code is returned. *)
  Theorem C82_reference_partial : forall fuel c p m code, t_kind (cm_tool c) = KEtool -> refactored fuel (PTool c) = Ok (p, m) ->
    t_expression (cm_tool c) = ("$(" ++ code ++ ")")%string -> Inert code -> NoPair code ->
    (forall v, snd (do_eval js0 dumps dumps4 loads tt (JStr (t_expression (cm_tool c))) (tool_mock (t_inputs (cm_tool c))) [] (Some "") (Some "") [] JNull true "") <> Ok v) ->
    exists c' text, p = PTool c' /\ WritesProgram c' text /\ RunsCode text [] ("return " ++ code ++ ";").
  Proof.
    intros fuel c p m code K E X I N V. destruct (etool_inv _ _ _ _ _ _ _ _ _ _ _ _ _ _ _ _ K E) as (_ & c' & e & E1 & _ & E3 & r & E4 & E5).
    exists c', (script [] e). split; [exact E1|]. split; [exact E3|]. rewrite X in *.
    rewrite (C60_single js0 dumps dumps4 loads LIB code _ _ (proj1 I) V) in E4. injection E4 as <-. cbn [filled append String.eqb] in E5.
    subst e. apply script_RunsCode.
    - pose proof (last_char_strip "$" ("{return " ++ code ++ ";") "}" eq_refl eq_refl) as L. unfold HasCode.
      cbn [append] in *. rewrite ?sapp_assoc in L. cbn [append] in L. rewrite L. rewrite sapp_assoc. reflexivity.
    - split; (apply returned_contains; [left; reflexivity | discriminate | apply I]).
    - apply returned_contains; [right; reflexivity | discriminate | exact N].
  Qed.
End Code.
Print Assumptions C82_block_partial.
Print Assumptions C82_reference_partial.

(** *** Cases *)
Definition expression_tool (reqs : option (list wreq)) (text : string) : tool :=
  {| t_kind := KEtool; t_inputs := [tin "t.cwl#x"]; t_args := []; t_stdout := None; t_stderr := None;
     t_outputs := [out "t.cwl#o"]; t_reqs := reqs; t_hints := []; t_expression := text |}.
Definition expression_command (reqs : option (list wreq)) (text : string) : command :=
  {| cm_tool := expression_tool reqs text; cm_extra := [(JNull, [])]; cm_types := [JStr "int"] |}.
Definition demo_script (lines : list string) : string :=
  sjoin (String c_nl "") ([String c_dq ("use strict" ++ String c_dq ";"); "var inputs=$(inputs);"; "var runtime=$(runtime);"]
    ++ lines ++ ["process.stdout.write(JSON.stringify(ret));"]).
Example C82_case : exists c', demo_traverse true (PTool (expression_command None "${return {o: inputs.x};}")) = Ok (PTool c', true) /\
  WritesProgram c' (demo_script ["var ret = function(){return {o: inputs.x};}();"]) /\ map ti_id (t_inputs (cm_tool c')) = ["t.cwl#x"] /\
  HasCode "${return {o: inputs.x};}" "return {o: inputs.x};" /\ Inert "return {o: inputs.x};" /\ NoPair "return {o: inputs.x};".
Proof. eexists. split; [vm_compute; reflexivity|]. repeat split. Qed.
Example C82_reference_case : exists c', demo_traverse true (PTool (expression_command None "$({o: inputs.x + 1})")) = Ok (PTool c', true) /\
  WritesProgram c' (demo_script ["var ret = function(){return {o: inputs.x + 1};}();"]) /\
  (forall v, snd (do_eval no_engine demo_dumps demo_dumps demo_loads tt (JStr "$({o: inputs.x + 1})") (tool_mock [tin "t.cwl#x"]) [] (Some "") (Some "") [] JNull true "") <> Ok v).
Proof. eexists. split; [vm_compute; reflexivity|]. split; [repeat split|]. intros v. vm_compute. discriminate. Qed.

(** What is wrong.  A reference that can be evaluated without JavaScript is not made into code that
    returns it: nothing in the program returns anything. *)
Definition Returns (text : string) : Prop := contains "return" text = true.
Theorem C82_plain_reference_refuted : exists c', demo_traverse true (PTool (expression_command None "$(inputs.x)")) = Ok (PTool c', true) /\
  exists text, WritesProgram c' text /\ ~ Returns text.
Proof.
  eexists. split; [vm_compute; reflexivity|]. exists (demo_script ["var ret = function(){inputs.x}();"]). split; [repeat split|].
  unfold Returns. vm_compute. discriminate.
Qed.
Print Assumptions C82_plain_reference_refuted.
(** The library that the tool declares is not in the program. *)
Theorem C82_library_refuted : exists c', demo_traverse true (PTool (expression_command (Some [RJs (Some ["var k = 7;"])]) "${return {o: k};}")) = Ok (PTool c', true) /\
  exists text, WritesProgram c' text /\ contains "var k = 7;" text = false /\ contains "return {o: k};" text = true.
Proof.
  eexists. split; [vm_compute; reflexivity|]. exists (demo_script ["var ret = function(){return {o: k};}();"]). repeat split.
Qed.
Print Assumptions C82_library_refuted.
(** In a step of a workflow, no reference is made into code that returns it. *)
Theorem C82_in_workflow_refuted : exists w' main made t', demo_traverse true
    (PWorkflow (one_step_workflow (rich_step [sin "w.cwl#s/x" "w.cwl#n" None] SNone (expression_tool None "$({o: inputs.x + 1})")))) = Ok (PWorkflow w', true) /\
  wf_steps w' = main :: made /\ inner (ws_run main) = Some t' /\
  exists text, WritesProgram {| cm_tool := t'; cm_extra := []; cm_types := [] |} text /\ ~ Returns text.
Proof.
  eexists. eexists. eexists. eexists. split; [vm_compute; reflexivity|]. split; [reflexivity|]. split; [vm_compute; reflexivity|].
  exists (demo_script ["var ret = function(){{o: inputs.x + 1}}();"]). split; [repeat split|]. unfold Returns. vm_compute. discriminate.
Qed.
Print Assumptions C82_in_workflow_refuted.
