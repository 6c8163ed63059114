(** * More about refactored workflows: loaded processes, expressions of inputs *)
From Verif Require Import PyBase PyBaseProofs PackModel ExprModel ExprSpec ExprProps EvalModel RefactorModel RefactorSpec RefactorProofs
  FlowModel FlowSpec FlowProofs FlowProofs2 FlowProofs3 FlowProps.

(** the same workflow without the formats and secondaryFiles of its inputs *)
Definition bare_input (p : winput) : winput := {| wi_id := wi_id p; wi_type := wi_type p; wi_format := JNull; wi_secondary := [] |}.
Definition bare (w : workflow) : workflow :=
  {| wf_inputs := map bare_input (wf_inputs w); wf_outputs := wf_outputs w; wf_steps := wf_steps w; wf_reqs := wf_reqs w |}.

Section More.
  Variable gx : json -> json -> json -> result (option string).
  Variable ev : string -> json -> result json.
  Variable src_example self_example : list wstep -> wstep -> src -> result json.
  Variable src_params : list wstep -> src -> result nat.
  Variable src_known : list wstep -> wstep -> string -> result unit.
  Variable out_known : list wstep -> src -> result unit.
  Variable load_run : string -> result (tool * bool).
  Variable attrs : list string.
  Variable replace_etool skip1 skip2 : bool.
  Notation refactored fuel w := (traverse_workflow gx ev src_example self_example src_params src_known out_known load_run attrs
                                   replace_etool skip1 skip2 fuel w).

  (** What a step names by reference is loaded; if nothing was modified, neither was that. *)
  Theorem C63_unmodified_loaded : forall fuel w w', refactored fuel w = Ok (w', false) ->
    Forall2 (fun st st' => forall u, ws_run st = RUri u -> exists t, load_run u = Ok (t, false) /\ st' = with_run (RTool t) st)
      (wf_steps w) (wf_steps w').
  Proof.
    intros fuel w w' E. unfold traverse_workflow in E. binv E ls El. binv E r Er. destruct r as [[wr1 s1] m1].
    binv E u Eu. binv E p Ep. destruct p as [[outs s2] m2]. binv E q Eqq. destruct q as [[wr3 s3] m3].
    injection E as <- M. cbn [wf_steps]. rewrite !orb_false_iff in M. destruct M as ((M1 & M2) & M3).
    apply mapM_Forall2 in El.
    destruct (steps_loop_ok gx src_example self_example src_params src_known out_known attrs replace_etool skip1 skip2 (fun _ => True)
      (fun _ _ _ _ => Logic.I) _ _ _ _ _ _ _ _ Er) as (t' & n1 & A1 & A2 & A3 & A4 & A5 & A6 & A7).
    { apply Forall_forall. intros s S i x I X. left. exact Logic.I. }
    { apply Forall_forall. intros s S. right. intros i x I X. exact Logic.I. }
    cbn [app] in A1.
    destruct (pick_loop_ok _ _ _ _ _ _ _ _ _ _ Ep) as (outs' & n2 & B1 & B2 & B3 & B4 & B5).
    destruct (process_reqs_ok _ _ _ _ _ _ _ _ _ _ Eqq) as (n3 & C1 & C2 & C3).
    destruct (C3 M3) as (_ & -> & _). cbn [app] in B1. subst outs'. destruct (B5 M2) as (_ & -> & ->). destruct (A7 M1) as (Ms & -> & -> & _).
    rewrite B2, A1, !app_nil_r. clear - El Ms.
    induction El as [|st (st', ml) a b H F IH]; cbn; constructor.
    - intros u R. cbn in Ms. apply orb_false_iff in Ms. destruct Ms as (-> & _). unfold load_step in H. rewrite R in H.
      binv H r Er. destruct r as [t mt]. cbn [fst snd] in H. injection H as <- ->. eauto.
    - apply IH. cbn in Ms. apply orb_false_iff in Ms. tauto.
  Qed.

  (** Formats and secondaryFiles of workflow inputs are only looked at: if none is an
      expression they change nothing, otherwise the workflow is refused, whatever the search
      for an expression said. *)
  Definition NoExpressions (w : workflow) (p : winput) : Prop :=
    (truthy (wi_format p) = true -> exists r, gx (wi_format p) (wf_mock (wf_inputs w)) JNull = Ok r /\ (r = None \/ r = Some "")) /\
    (forall s, In s (wi_secondary p) -> exists r, gx s (wf_mock (wf_inputs w)) empty_file = Ok r /\ (r = None \/ r = Some "")).

  Lemma wf_mock_bare l : wf_mock (map bare_input l) = wf_mock l.
  Proof.
    unfold wf_mock. f_equal. generalize (@nil (string * json)) as d. induction l as [|p l IH]; intros d; [reflexivity|].
    cbn [map fold_left bare_input wi_id wi_type]. apply IH.
  Qed.
  Lemma filled_none r : filled r = None <-> r = None \/ r = Some "".
  Proof.
    unfold filled. destruct r as [s|]; [|tauto]. destruct (String.eqb_spec s "") as [->|N]; [tauto|].
    split; [discriminate|]. intros [H|H]; [discriminate H|]. congruence.
  Qed.
  Hypothesis FUEL : forall a b c, gx a b c <> Err OutOfFuel.

  Lemma find_expr_cases s i x : (exists r, gx s i x = Ok r /\ (r = None \/ r = Some "") /\ find_expr gx s i x = Ok None) \/
    ((forall r, gx s i x = Ok r -> ~ (r = None \/ r = Some "")) /\
     ((exists e, find_expr gx s i x = Ok (Some e)) \/ exists e, e <> OutOfFuel /\ find_expr gx s i x = Err e)).
  Proof.
    unfold find_expr. pose proof (FUEL s i x) as FU. destruct (gx s i x) as [r|e].
    - cbn [bind]. destruct (filled r) as [t|] eqn:F.
      + right. split; [|left; eauto]. intros r' E. injection E as <-. intros X. apply filled_none in X. congruence.
      + left. exists r. apply filled_none in F. auto.
    - right. cbn [bind]. split; [discriminate|]. right. exists e. split; [congruence|reflexivity].
  Qed.

  Lemma secondary_cases i : forall l,
    ((forall s, In s l -> exists r, gx s i empty_file = Ok r /\ (r = None \/ r = Some "")) /\
     exists u, mapM (fun s => do y <- find_expr gx s i empty_file; match y with Some _ => Err WorkflowException | None => Ok tt end) l = Ok u) \/
    ((exists s, In s l /\ forall r, gx s i empty_file = Ok r -> ~ (r = None \/ r = Some "")) /\
     exists e, e <> OutOfFuel /\
       mapM (fun s => do y <- find_expr gx s i empty_file; match y with Some _ => Err WorkflowException | None => Ok tt end) l = Err e).
  Proof.
    induction l as [|s l IH]; [left; split; [intros s []|eexists; reflexivity]|]. cbn [mapM].
    destruct (find_expr_cases s i empty_file) as [(r & E & N & ->)|(N & [(t & ->)|(e & NF & ->)])].
    - cbn [bind]. destruct IH as [(A & u & ->)|((s' & I & B) & e & NF & ->)]; cbn [bind].
      + left. split; [|eauto]. intros s' [<-|I]; eauto.
      + right. split; [exists s'; cbn; auto|eauto].
    - right. split; [exists s; cbn; auto|]. cbn [bind]. exists WorkflowException. split; [discriminate|reflexivity].
    - right. split; [exists s; cbn; auto|]. cbn [bind]. eauto.
  Qed.

  Lemma check_cases w p : (NoExpressions w p /\ source_line (check_input gx (wf_mock (wf_inputs w)) p) = Ok tt) \/
    (~ NoExpressions w p /\ source_line (check_input gx (wf_mock (wf_inputs w)) p) = Err WorkflowException).
  Proof.
    assert (SL : forall (r : result unit), r <> Err OutOfFuel -> (forall x, r <> Ok x) -> source_line r = Err WorkflowException).
    { intros [x|[]] A B; try reflexivity; [destruct (B x); reflexivity|destruct A; reflexivity]. }
    unfold check_input, NoExpressions. set (i := wf_mock (wf_inputs w)).
    destruct (secondary_cases i (wi_secondary p)) as [(A & u & ->)|((s & I & B) & e & NF & ->)];
    (destruct (truthy (wi_format p));
      [destruct (find_expr_cases (wi_format p) i JNull) as [(r & E & N & ->)|(N & [(t & ->)|(e' & NF' & ->)])]|]);
    cbn [bind].
    1, 4: left; split; [split; [intros TT; try discriminate TT; eauto|exact A]|reflexivity].
    1, 2: right; split; [intros [X _]; destruct (X eq_refl) as (r & E & Q); exact (N r E Q)|]; apply SL; congruence.
    all: right; split; [try (intros [_ X]; destruct (X s I) as (r' & E' & Q); exact (B r' E' Q))|apply SL; congruence].
  Qed.

  Lemma checks_cases w : forall l,
    (Forall (NoExpressions w) l /\ exists u, mapM (fun p => source_line (check_input gx (wf_mock (wf_inputs w)) p)) l = Ok u) \/
    ((exists p, In p l /\ ~ NoExpressions w p) /\
     mapM (fun p => source_line (check_input gx (wf_mock (wf_inputs w)) p)) l = Err WorkflowException).
  Proof.
    induction l as [|p l IH]; [left; split; [constructor|eexists; reflexivity]|]. cbn [mapM].
    destruct (check_cases w p) as [[N ->]|[N ->]]; cbn [bind].
    - destruct IH as [(F & u & ->)|((p' & I & B) & ->)]; cbn [bind].
      + left. split; [constructor; auto|eauto].
      + right. split; [exists p'; cbn; auto|reflexivity].
    - right. split; [exists p; cbn; auto|reflexivity].
  Qed.

  Lemma process_reqs_bare l wreqs steps :
    process_reqs gx ev attrs replace_etool (map bare_input l) wreqs steps = process_reqs gx ev attrs replace_etool l wreqs steps.
  Proof. unfold process_reqs. rewrite wf_mock_bare. reflexivity. Qed.

  Theorem C63_input_expressions : forall fuel w w1 m, refactored fuel (bare w) = Ok (w1, m) ->
    (Forall (NoExpressions w) (wf_inputs w) ->
       refactored fuel w = Ok ({| wf_inputs := wf_inputs w; wf_outputs := wf_outputs w1; wf_steps := wf_steps w1; wf_reqs := wf_reqs w1 |}, m)) /\
    ((exists p, In p (wf_inputs w) /\ ~ NoExpressions w p) -> refactored fuel w = Err WorkflowException).
  Proof.
    intros fuel w w1 m E. unfold traverse_workflow in *. cbn [bare wf_inputs wf_outputs wf_steps wf_reqs] in E.
    binv E ls El. rewrite El. cbn [bind]. binv E r Er. destruct r as [[wr1 s1] m1]. rewrite Er. cbn [bind].
    binv E u Eu. destruct (checks_cases w (wf_inputs w)) as [(F & u' & ->)|((p & I & N) & ->)]; cbn [bind].
    - split.
      + intros _. binv E pl Ep. destruct pl as [[outs s2] m2]. rewrite ?Ep. cbn [bind]. rewrite process_reqs_bare in E.
        binv E q Eqq. destruct q as [[wr3 s3] m3]. rewrite ?Eqq. cbn [bind]. injection E as <- <-. reflexivity.
      + intros (p & I & N). rewrite Forall_forall in F. destruct (N (F p I)).
    - split; [|reflexivity]. intros F. rewrite Forall_forall in F. destruct (N (F p I)).
  Qed.
End More.
Print Assumptions C63_unmodified_loaded.
Print Assumptions C63_input_expressions.

(** *** cases *)
Definition plain_tool : tool :=
  {| t_kind := KClt; t_inputs := []; t_args := []; t_stdout := None; t_stderr := None; t_outputs := [];
     t_reqs := None; t_hints := []; t_expression := "" |}.
Definition more_gx (e _ _ : json) : result (option string) :=
  match e with JStr s => Ok (if startswith "$" s then Some s else None) | JNull => Ok None | _ => Err TypeError end.
Definition more_run (w : workflow) : result (workflow * bool) :=
  traverse_workflow more_gx demo_plain (fun _ _ _ => Ok (JInt 23)) (fun _ _ _ => Ok (JInt 23)) (fun _ _ => Ok 1)
    (fun _ _ _ => Ok tt) (fun _ _ => Ok tt) (fun u => if String.eqb u "t.cwl" then Ok (plain_tool, false) else Ok (plain_tool, true)) [] false false false 100 w.
Definition more_workflow (u : string) (format : json) : workflow :=
  {| wf_inputs := [{| wi_id := "w.cwl#n"; wi_type := JStr "File"; wi_format := format; wi_secondary := [JStr ".bai"] |}];
     wf_outputs := [];
     wf_steps := [{| ws_id := "w.cwl#s"; ws_in := []; ws_scatter := SNone; ws_scatterMethod := None; ws_when := None;
                     ws_run := RUri u; ws_reqs := None |}];
     wf_reqs := None |}.
Example C63_unmodified_loaded_case : exists w', more_run (more_workflow "t.cwl" JNull) = Ok (w', false) /\
  (exists w2, more_run (more_workflow "u.cwl" JNull) = Ok (w2, true)) /\
  Forall2 (fun st st' => exists t, ws_run st = RUri "t.cwl" /\ ws_run st' = RTool t) (wf_steps (more_workflow "t.cwl" JNull)) (wf_steps w').
Proof.
  eexists. split; [vm_compute; reflexivity|]. split; [eexists; vm_compute; reflexivity|]. cbn [wf_steps]. repeat constructor.
  eexists. split; reflexivity.
Qed.
Example C63_input_expressions_case : (forall a b c, more_gx a b c <> Err OutOfFuel) /\
  (exists w1 m, more_run (bare (more_workflow "t.cwl" (JStr "$(1 + 1)"))) = Ok (w1, m)) /\
  more_run (more_workflow "t.cwl" (JStr "$(1 + 1)")) = Err WorkflowException /\
  exists w1 m, more_run (more_workflow "t.cwl" (JStr "edam:1")) = Ok (w1, m).
Proof.
  split; [intros [] ? ?; cbn; discriminate|]. split; [|split]; try (eexists; eexists); vm_compute; reflexivity.
Qed.
