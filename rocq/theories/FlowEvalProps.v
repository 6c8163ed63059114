(** * Properties of the workflows made for outputEval *)
From Verif Require Import PyBase PyBaseProofs PackModel ExprModel EvalModel RefactorModel RefactorSpec RefactorProofs
  FlowModel FlowSpec FlowProofs FlowProofs2 FlowProps FlowValueSpec FlowValueProofs FlowValueProps FlowReqSpec FlowReqProofs FlowReqProofs2
  FlowReqProps FlowToolSpec FlowToolProofs FlowToolProofs2 FlowToolProofs3 FlowToolProps FlowEvalSpec FlowEvalProofs.

Section Whole.
  Variable gx : json -> json -> json -> result (option string).
  Variable ev : string -> json -> result json.
  Variable src_example self_example : list wstep -> wstep -> src -> result json.
  Variable src_params : list wstep -> src -> result nat.
  Variable src_known : list wstep -> wstep -> string -> result unit.
  Variable out_known : list wstep -> src -> result unit.
  Variable load_run : string -> result (tool * bool).
  Variable attrs : list string.
  Variable replace_etool skip1 skip2 : bool.
  Notation refactored fuel w := (traverse_workflow gx ev src_example self_example src_params src_known out_known load_run attrs
                                   replace_etool skip1 skip2 fuel w).

  (** ** C69: the outputEval of a CommandLineTool is computed by a step of its own, in a workflow
      that takes the place of the tool *)
  Theorem C69_output_evals : forall fuel w w' m, refactored fuel w = Ok (w', m) ->
    exists olds news, wf_steps w' = olds ++ news /\
      Forall2 (fun st st' => forall t, ~ StartsWith "_expression" (ws_id st) -> ws_id st <> "" -> RunsTool load_run st t -> t_kind t = KClt ->
                 exists t', inner (ws_run st') = Some t' /\ EvalMoved gx st st' t t' skip2) (wf_steps w) olds.
  Proof. apply eval_workflow. Qed.
End Whole.
Print Assumptions C69_output_evals.

(** The workflow has the outputs of the tool, and each is linked: to the step that runs what ran
    before, or, for [o], to the step made for it. *)
Theorem C69_outputs_kept : forall gx st st' t t' skip2 s names, EvalMoved gx st st' t t' skip2 -> ws_run st' = RSub s ->
  Forall2 (fun o x => ParamName (to_id o) x) (t_outputs t) names ->
  map fst (sb_outputs s) = plain_names names /\
  forall x source, In (x, source) (sb_outputs s) -> source = (sb_gen s ++ "/result")%string \/ source = (sb_id s ++ "/" ++ x)%string.
Proof.
  intros gx st st' t t' skip2 s names (evs & _ & L & O) R F. rewrite R in L.
  assert (Names : Forall2 (fun o x => ParamName (to_id o) x) (t_outputs t') names).
  { clear - O F. revert names F. induction O as [|o o' l l' H O IH]; intros names F; inversion F as [|? x ? names' P F']; subst; constructor; auto.
    destruct H as ([-> | H] & _); [exact P|]. destruct P as (f & P1 & P2). exists (to_id o').
    apply after_hash_Fragment in P1. apply after_hash_Fragment in H. subst f. rewrite H in P2. split; [|exact P2].
    rewrite <- H. apply after_hash_Fragment, after_hash_twice. }
  assert (V : forall l r, Layers st st' t t' l r -> forall outs, VisibleOutputs r outs -> outs = plain_names names).
  { clear - Names. intros l r L. induction L as [|o e l s [_ _ (bf & af & n & outs & C1 & C2 & C3 & C4 & C5 & C6 & C7 & C8) _ _ _ _] L IH]; intros os V.
    - destruct V as (names' & F & ->). f_equal. revert names Names. induction F as [|o x l l' P F IH]; intros names N; inversion N as [|? y ? names' Q N']; subst; [reflexivity|].
      f_equal; [|apply IH; exact N']. destruct P as (f & P1 & P2), Q as (f' & Q1 & Q2). apply after_hash_Fragment in P1, Q1. subst f f'.
      pose proof (last_fragment_unique _ _ _ (proj1 P2) (proj2 P2)). pose proof (last_fragment_unique _ _ _ (proj1 Q2) (proj2 Q2)). congruence.
    - cbn in V. subst os. rewrite C8, map_map. cbn. rewrite map_id, (IH _ C4). unfold plain_names. clear. induction names as [|x l IH]; cbn; [reflexivity|].
      destruct (underscored x) eqn:U; cbn; [exact IH|]. rewrite U. cbn. rewrite IH. reflexivity. }
  inversion L as [|o e l s' [_ _ (bf & af & n & outs & C1 & C2 & C3 & C4 & C5 & C6 & C7 & C8) _ _ _ _] L']; subst. split.
  - rewrite C8, map_map. cbn. rewrite map_id. eapply V; eauto.
  - intros x source I. rewrite C8 in I. apply in_map_iff in I. destruct I as (y & E & _). destruct (String.eqb y n); injection E as <- <-; auto.
Qed.
Print Assumptions C69_outputs_kept.

(** What the expression sees as inputs is what the tool sees as inputs, as far as it uses inputs
    [x] that
    - do not begin with an underscore,
    - are parameters of the tool, and inputs of the step from the beginning,
    - have no valueFrom after the refactoring (it would be evaluated again in the workflow).
    [val] gives inputs of steps their values, from source, linkMerge, default and valueFrom only;
    [val'] does so inside the workflow, where the source [x] is its input. *)
Theorem C69_value_kept_partial : forall (val val' : src -> option string -> json -> option string -> json)
    (js : string -> (string -> option json) -> json) (uses : string -> string -> Prop),
  (forall e o o', (forall x, uses e x -> o x = o' x) -> js e o = js e o') ->
  forall st st' t o e s names, Layer st st' t o e s -> Forall2 (fun p x => ParamName (ti_id p) x) (t_inputs t) names ->
    (forall x i v, In x (sb_inputs s) -> In i (ws_in st') -> name_of i = x -> inputs_in val (ws_in st') names x = Some v ->
       val' (SOne x) None (si_default i) None = v) ->
    (forall x, uses e x -> ~ StartsWith "_" x /\ In x names /\
       (exists i, In i (firstn (List.length (ws_in st)) (ws_in st')) /\ name_of i = x) /\
       (forall i, In i (ws_in st') -> name_of i = x -> si_valueFrom i = None)) ->
    js e (inputs_in val' (sb_gen_in s) (map ti_id (t_inputs (sb_gen_tool s)))) = js e (inputs_in val (ws_in st') names).
Proof.
  intros val val' js uses J st st' t o e s names L Fn Hv U. apply J. intros x Ux. destruct (U x Ux) as (U1 & U2 & (i & U3 & U4) & U5).
  destruct L as [_ (names' & N1 & N2) (before & after & n & outs & B1 & B2 & B3 & _ & _ & _ & B4 & _) _ P _ _].
  assert (En : names' = names).
  { clear - Fn N1. revert names' N1. induction Fn as [|p x l l' H F IH]; intros ns T2; inversion T2 as [|? y ? ys H2 F2]; subst; [reflexivity|].
    f_equal; [|apply IH; exact F2]. destruct H as (f & H1 & H3). destruct H2 as (f' & H4 & H5). apply after_hash_Fragment in H1, H4. subst f f'.
    pose proof (last_fragment_unique _ _ _ (proj1 H3) (proj2 H3)). pose proof (last_fragment_unique _ _ _ (proj1 H5) (proj2 H5)). congruence. }
  subst names'. assert (Us : startswith "_" x = false) by (destruct (startswith "_" x) eqn:S; auto; exfalso; apply U1, StartsWith_b; exact S).
  assert (Ix : In x (sb_inputs s)) by (rewrite N2; apply filter_In; split; auto; rewrite underscored_b, Us; reflexivity).
  assert (Ib : In i before).
  { rewrite B1, firstn_app in U3. replace (List.length (ws_in st) - List.length before) with 0 in U3 by lia. rewrite app_nil_r in U3.
    rewrite <- (firstn_skipn (List.length (ws_in st)) before). apply in_or_app. auto. }
  assert (E1 : existsb (String.eqb x) names = true) by (apply existsb_exists; exists x; split; auto; apply String.eqb_refl).
  assert (Fa : exists b, find (fun i => String.eqb (name_of i) x) (ws_in st') = Some b /\ In b (ws_in st') /\ name_of b = x /\
    find (fun i => String.eqb (name_of i) x) (sb_gen_in s) = Some (by_name b)).
  { assert (Fb : exists b, find (fun i => String.eqb (name_of i) x) before = Some b /\ name_of b = x /\
       find (fun i => String.eqb (name_of i) x) (map by_name (filter (fun i => negb (underscored (name_of i))) before)) = Some (by_name b)).
    { clear - Ib U4 Us. induction before as [|a l IH]; [destruct Ib|]. cbn [find filter].
      assert (Na : name_of (by_name a) = name_of a) by (unfold name_of at 1; cbn; apply last_part_twice).
      destruct (String.eqb (name_of a) x) eqn:Q.
      - exists a. apply String.eqb_eq in Q. split; [reflexivity|]. split; [exact Q|].
        rewrite underscored_b, Q, Us. cbn [negb map find]. rewrite Na, Q, String.eqb_refl. reflexivity.
      - destruct Ib as [-> | Ib]; [rewrite U4, String.eqb_refl in Q; discriminate|]. destruct (IH Ib) as (b & F1 & F2 & F3). exists b.
        split; [exact F1|]. split; [exact F2|]. destruct (underscored (name_of a)); cbn [negb map find]; [exact F3|]. rewrite Na, Q. exact F3. }
    destruct Fb as (b & F1 & F2 & F3). exists b.
    assert (App : forall l l', find (fun i => String.eqb (name_of i) x) l = Some l' -> forall r, find (fun i => String.eqb (name_of i) x) (l ++ r) = Some l').
    { clear. induction l as [|a l IH]; cbn; [discriminate|]. intros l' E r. destruct (String.eqb (name_of a) x); auto. }
    split; [rewrite B1; apply App; exact F1|]. split; [rewrite B1; apply in_or_app; left; apply find_some in F1; tauto|]. split; [exact F2|].
    rewrite B4. apply App. exact F3. }
  destruct Fa as (b & F1 & F2 & F3 & F4).
  specialize (Hv x b). unfold inputs_in in *. rewrite E1, F1 in *. rewrite P, F4. cbn [existsb].
  assert (E2 : existsb (String.eqb x) (sb_inputs s) = true) by (apply existsb_exists; exists x; split; auto; apply String.eqb_refl).
  rewrite E2, orb_true_r. f_equal. unfold value_of at 1. cbn [by_name si_source si_linkMerge si_default si_valueFrom].
  rewrite F3, (U5 b F2 F3). apply Hv; auto.
Qed.
Print Assumptions C69_value_kept_partial.

(** What is not done: the inputs that begin with an underscore, such as those that carry the
    results of other expressions of the tool, and the condition, have no source in the workflow. *)
Theorem C69_underscores_lost : forall st st' t o e s, Layer st st' t o e s ->
  forall i, In i (sb_in s) -> StartsWith "_" (si_id i) -> si_source i = SOne (si_id i) /\ ~ In (si_id i) (sb_inputs s).
Proof.
  intros st st' t o e s [_ (names & _ & N) (before & after & n & outs & _ & _ & _ & _ & _ & B & _) _ _ _ _] i I U.
  rewrite B in I. apply in_map_iff in I. destruct I as (j & <- & _). split; [reflexivity|]. rewrite N. intros F. apply filter_In in F.
  destruct F as (_ & F). apply StartsWith_b in U. rewrite underscored_b, U in F. discriminate.
Qed.
Print Assumptions C69_underscores_lost.

(** *** Cases *)
Definition eval_out (n : string) (glob : json) (e : option string) : toutput :=
  {| to_id := ("t.cwl#" ++ n)%string; to_glob := glob; to_eval := e; to_contents := true |}.
Definition eval_tool (outs : list toutput) (stdout : option string) : tool :=
  {| t_kind := KClt; t_inputs := [tin "t.cwl#x"; tin "t.cwl#y"]; t_args := []; t_stdout := stdout; t_stderr := None;
     t_outputs := outs; t_reqs := Some [RJs None]; t_hints := []; t_expression := "" |}.
Definition first_sub (w : workflow) : option (sub run) :=
  match wf_steps w with st :: _ => match ws_run st with RSub s => Some s | _ => None end | [] => None end.
Definition one_eval : tool := eval_tool [eval_out "n" (JStr "a.txt") (Some "$(self[0].size + inputs.x)"); eval_out "other" (JStr "b.txt") None] None.
Definition links (l : list sinput) : list (string * src) := map (fun i => (si_id i, si_source i)) l.

Example C69_case : exists w' s, demo_run [] (rich_workflow one_eval SNone) = Ok (w', true) /\ first_sub w' = Some s /\
  sb_inputs s = ["x"; "y"] /\ links (sb_in s) = [("x", SOne "x"); ("y", SOne "y")] /\
  sb_outputs s = [("n", "expression_n_outputEval/result"); ("other", "s/other")] /\
  sb_gen s = "expression_n_outputEval" /\ links (sb_gen_in s) = [("x", SOne "x"); ("y", SOne "y"); ("self", SOne "s/n")] /\
  Runs (RTool (sb_gen_tool s)) (etool_expression (Some "self") "${return self[0].size + inputs.x;}") /\
  (exists t', sb_run s = RTool t' /\ map to_eval (t_outputs t') = [None; None] /\ map to_contents (t_outputs t') = [false; true]) /\
  inputs_of w' = [("w.cwl#s/x", SOne "w.cwl#n"); ("w.cwl#s/y", SOne "w.cwl#n")].
Proof.
  eexists. eexists. split; [vm_compute; reflexivity|]. split; [vm_compute; reflexivity|].
  split; [reflexivity|]. split; [reflexivity|]. split; [reflexivity|]. split; [reflexivity|]. split; [reflexivity|].
  split; [eexists; split; [reflexivity|]; left; split; reflexivity|]. split; [eexists; split; [reflexivity|]; split; reflexivity | reflexivity].
Qed.
(** the hypotheses of the theorem about values: the inputs seen by the expression are those of the tool *)
Example C69_value_case : exists w' s st', demo_run [] (rich_workflow one_eval SNone) = Ok (w', true) /\ first_sub w' = Some s /\
  nth_error (wf_steps w') 0 = Some st' /\
  let val' (a : src) (b : option string) (c : json) (d : option string) :=
    match a with SOne x => match inputs_in tval (ws_in st') ["x"; "y"] x with Some v => v | None => c end | _ => c end in
  inputs_in val' (sb_gen_in s) (map ti_id (t_inputs (sb_gen_tool s))) "x" = Some (JStr "w.cwl#n") /\
  inputs_in tval (ws_in st') ["x"; "y"] "x" = Some (JStr "w.cwl#n") /\
  (forall i, In i (ws_in st') -> si_valueFrom i = None).
Proof.
  eexists. eexists. eexists. split; [vm_compute; reflexivity|]. split; [vm_compute; reflexivity|]. split; [vm_compute; reflexivity|].
  split; [vm_compute; reflexivity|]. split; [vm_compute; reflexivity|]. cbn [ws_in]. intros i [<- | [<- | []]]; reflexivity.
Qed.

(** Two outputs with an outputEval: the second stays in the tool as well, and what it computes there
    is the [self] of the step made for it. *)
Theorem C69_twice_refuted : exists w' s t', 
  demo_run [] (rich_workflow (eval_tool [eval_out "n" (JStr "a.txt") (Some "$(self.length + 1)"); eval_out "k" (JStr "b.txt") (Some "$(self.length + 2)")] None) SNone)
    = Ok (w', true) /\
  first_sub w' = Some s /\ Runs (RTool (sb_gen_tool s)) (etool_expression (Some "self") "${return self.length + 2;}") /\
  In ("self", SOne "s/k") (links (sb_gen_in s)) /\
  (exists s2, sb_run s = RSub s2 /\ In ("k", "s/k") (sb_outputs s2) /\ sb_run s2 = RTool t') /\
  exists o, In o (t_outputs t') /\ to_id o = "k" /\ to_eval o = Some "$(self.length + 2)".
Proof.
  eexists. eexists. eexists. split; [vm_compute; reflexivity|]. split; [vm_compute; reflexivity|].
  split; [eexists; split; [reflexivity|]; left; split; reflexivity|]. split; [vm_compute; auto|].
  split; [eexists; split; [reflexivity|]; split; [vm_compute; auto | reflexivity]|].
  eexists. split; [right; left; reflexivity|]. split; reflexivity.
Qed.
Print Assumptions C69_twice_refuted.

(** The result of another expression of the tool does not get inside. *)
Theorem C69_stdout_refuted : exists w' s t', demo_run [] (rich_workflow
    (eval_tool [eval_out "n" (JStr "a.txt") (Some "$(self.length + 1)")] (Some "$(inputs.x + 'a')")) SNone) = Ok (w', true) /\
  In ("_stdout", SOne "_expression_s_stdout/result") (inputs_of w') /\ first_sub w' = Some s /\
  In ("_stdout", SOne "_stdout") (links (sb_in s)) /\ ~ In "_stdout" (sb_inputs s) /\
  sb_run s = RTool t' /\ t_stdout t' = Some "$(inputs._stdout)".
Proof.
  eexists. eexists. eexists. split; [vm_compute; reflexivity|]. split; [vm_compute; auto|]. split; [vm_compute; reflexivity|].
  split; [vm_compute; auto|]. split; [vm_compute; intuition discriminate|]. split; [reflexivity|]. reflexivity.
Qed.
Print Assumptions C69_stdout_refuted.

(** The condition is also that of the step inside, where what it refers to has no source. *)
Theorem C69_when_refuted : exists w' s st', demo_run [] (one_step_workflow
    {| ws_id := "w.cwl#s"; ws_in := two_inputs; ws_run := RTool one_eval; ws_scatter := SNone; ws_scatterMethod := None;
       ws_when := Some "$(inputs.y > 2)"; ws_reqs := None |}) = Ok (w', true) /\
  nth_error (wf_steps w') 0 = Some st' /\ ws_run st' = RSub s /\ ws_when st' = Some "$(inputs._when)" /\ sb_when s = Some "$(inputs._when)" /\
  In ("_when", SOne "_when") (links (sb_in s)) /\ ~ In "_when" (sb_inputs s).
Proof.
  eexists. eexists. eexists. split; [vm_compute; reflexivity|]. split; [vm_compute; reflexivity|]. split; [vm_compute; reflexivity|].
  split; [reflexivity|]. split; [reflexivity|]. split; [vm_compute; auto|]. vm_compute. intuition discriminate.
Qed.
Print Assumptions C69_when_refuted.

(** A step with an input that has no source, only a default, cannot be refactored. *)
Theorem C69_default_refused : demo_run [] (one_step_workflow
    (rich_step (two_inputs ++ [{| si_id := "w.cwl#s/z"; si_source := SNone; si_valueFrom := None; si_linkMerge := None; si_default := JInt 1 |}]) SNone one_eval))
  = Err AttributeError.
Proof. vm_compute. reflexivity. Qed.

(** A parameter reference in a valueFrom is left where it is, and is in the step inside too: it is
    evaluated twice there, and once more for the step that computes the outputEval. *)
Theorem C69_valueFrom_refuted : exists w' s st',
  traverse_workflow demo_gx demo_plain (fun _ _ _ => Ok (JInt 23)) (fun _ _ _ => Ok (JDict [("a", JDict [("a", JInt 1)])])) (fun _ _ => Ok 1)
    (fun _ _ _ => Ok tt) (fun _ _ => Ok tt) (fun _ => Err WorkflowException) [] false false false 100 (one_step_workflow
    (rich_step [sin "w.cwl#s/x" "w.cwl#n" (Some "$(self.a)"); sin "w.cwl#s/y" "w.cwl#n" None] SNone one_eval)) = Ok (w', true) /\
  nth_error (wf_steps w') 0 = Some st' /\ ws_run st' = RSub s /\
  map si_valueFrom (ws_in st') = [Some "$(self.a)"; None] /\ map si_valueFrom (sb_in s) = [Some "$(self.a)"; None] /\
  map si_valueFrom (sb_gen_in s) = [Some "$(self.a)"; None; None].
Proof.
  eexists. eexists. eexists. split; [vm_compute; reflexivity|]. split; [vm_compute; reflexivity|]. split; [vm_compute; reflexivity|].
  repeat split.
Qed.
Print Assumptions C69_valueFrom_refuted.

(** A glob after the output with outputEval: its input is given to the step and to the tool, not to
    the workflow between them. *)
Theorem C69_glob_refuted : exists w' s t', demo_run [] (rich_workflow
    (eval_tool [eval_out "n" (JStr "a.txt") (Some "$(self.length + 1)"); eval_out "k" (JStr "$(inputs.x + 'c')") None] None) SNone) = Ok (w', true) /\
  In ("_k_glob", SOne "_expression_s_k_glob/result") (inputs_of w') /\ first_sub w' = Some s /\ sb_run s = RTool t' /\
  In "_k_glob" (map ti_id (t_inputs t')) /\ ~ In "_k_glob" (map fst (links (sb_in s))) /\ ~ In "_k_glob" (sb_inputs s).
Proof.
  eexists. eexists. eexists. split; [vm_compute; reflexivity|]. split; [vm_compute; auto|]. split; [vm_compute; reflexivity|].
  split; [reflexivity|]. split; [vm_compute; auto|]. split; vm_compute; intuition discriminate.
Qed.
Print Assumptions C69_glob_refuted.
