(** * Properties of the names of the steps of a refactored workflow *)
From Verif Require Import PyBase PyBaseProofs PackModel ExprModel EvalModel RefactorModel RefactorSpec RefactorProofs
  FlowModel FlowSpec FlowProofs FlowProofs2 FlowProps FlowValueSpec FlowValueProofs FlowValueProps FlowReqSpec FlowReqProofs FlowReqProofs2
  FlowReqProps FlowToolSpec FlowToolProofs FlowToolProofs2 FlowToolProofs3 FlowToolProps FlowNameSpec FlowNameProofs FlowNameProofs2.

(** ** C70 *)
(** Steps of a refactored workflow have different names, whenever the names of the document keep apart. *)
Theorem C70_names_apart_partial gx ev src_example self_example src_params src_known out_known load_run attrs replace_etool skip1 skip2 fuel w w' m :
  traverse_workflow gx ev src_example self_example src_params src_known out_known load_run attrs replace_etool skip1 skip2 fuel w = Ok (w', m) ->
  NamesApart load_run attrs replace_etool w -> NoDup (map step_name (wf_steps w')).
Proof. apply names_apart. Qed.
Print Assumptions C70_names_apart_partial.

(** Names without underscores keep apart from each other. *)
Lemma no_char_split c a b s : has_char c s = false -> s <> (a ++ String c b)%string.
Proof.
  intros H E. subst s. rewrite has_char_app in H. apply orb_false_iff in H. destruct H as (_ & H). cbn [has_char] in H.
  rewrite Ascii.eqb_refl in H. discriminate.
Qed.
Theorem C70_plain_names load attrs replace_etool w :
  NoDup (map step_name (wf_steps w)) ->
  Forall (fun n => n <> "" /\ n <> "workflow" /\ has_char "_" n = false) (map step_name (wf_steps w)) ->
  Forall (fun st => OneHash (ws_id st)) (wf_steps w) ->
  (forall st t, In st (wf_steps w) -> RunsTool load st t ->
     NoDup (places attrs replace_etool st t) /\ no_hashes (places attrs replace_etool st t)) ->
  (forall st, In st (wf_steps w) -> has_text (ws_when st) = true -> NoDup (when_places replace_etool st) /\ no_hashes (when_places replace_etool st)) ->
  NoDup (workflow_places attrs w) /\ no_hashes (workflow_places attrs w) ->
  NoDup (map (fun o => fragment (wo_id o)) (filter (fun o => has_text (wo_pick o)) (wf_outputs w))) ->
  NamesApart load attrs replace_etool w.
Proof.
  intros N F H1 H2 H3 H4 H5. rewrite Forall_forall in F. split; auto.
  - constructor; auto. intros I. apply F in I. tauto.
  - apply Forall_forall. intros n I. apply F in I. destruct I as (A & _ & B). split; [exact A|]. intros (r & ->). discriminate B.
  - intros a b r Ia Ib. assert (B : has_char "_" b = false) by (destruct Ib as [<- | Ib]; [reflexivity | apply F; exact Ib]).
    exact (no_char_split "_" a r b B).
Qed.
Print Assumptions C70_plain_names.

(** *** Cases *)
Fixpoint distinctb (l : list string) : bool :=
  match l with [] => true | x :: r => negb (existsb (String.eqb x) r) && distinctb r end.
Lemma distinctb_spec l : NoDup l <-> distinctb l = true.
Proof.
  induction l as [|x l IH]; cbn [distinctb]; [split; [reflexivity | constructor]|]. rewrite andb_true_iff, negb_true_iff, <- IH.
  assert (Q : existsb (String.eqb x) l = false <-> ~ In x l).
  { rewrite <- not_true_iff_false. apply not_iff_compat. rewrite existsb_exists. split.
    - intros (y & I & E). apply String.eqb_eq in E. subst. exact I.
    - intros I. exists x. split; [exact I | apply String.eqb_refl]. }
  rewrite Q. split; [intros N; inversion N; auto | intros (A & B); constructor; auto].
Qed.
Ltac distinct := apply distinctb_spec; vm_compute; reflexivity.
Ltac all_plain := repeat (constructor; [reflexivity|]); try constructor.
Lemma demo_onehash : OneHash "w.cwl#s".
Proof. exact (proj1 (proj2 (proj2 (rich_hypotheses [] SNone demo_tool)))). Qed.

Example C70_demo : exists w', demo_run [] demo_workflow = Ok (w', true) /\
  NamesApart (fun _ => Err WorkflowException) [] false demo_workflow /\
  map step_name (wf_steps w') = ["s"; "_expression_s_x"; "_when_expression_s"; "_expression_s_arguments_0"; "_expression_s_stdout";
                                 "_expression__when_expression_s_x"; "_pickValue_workflow_step_o"; "_expression_workflow_EnvVarRequirement_0"].
Proof.
  eexists. split; [vm_compute; reflexivity|]. split; [|vm_compute; reflexivity]. apply C70_plain_names.
  - distinct.
  - vm_compute. constructor; [|constructor]. repeat split; discriminate.
  - constructor; [exact demo_onehash | constructor].
  - intros st t [<- | []] [R | (u & m & R & _)]; [|discriminate R]. injection R as <-. split; [distinct | vm_compute; all_plain].
  - intros st [<- | []] _. split; [distinct | vm_compute; all_plain].
  - split; [distinct | vm_compute; all_plain].
  - distinct.
Qed.
Example C70_rich : exists w', demo_run ["coresMin"; "ramMin"] (rich_workflow rich_tool SNone) = Ok (w', true) /\
  NamesApart (fun _ => Err WorkflowException) ["coresMin"; "ramMin"] false (rich_workflow rich_tool SNone).
Proof.
  eexists. split; [vm_compute; reflexivity|]. apply C70_plain_names.
  - distinct.
  - vm_compute. constructor; [|constructor]. repeat split; discriminate.
  - constructor; [exact demo_onehash | constructor].
  - intros st t [<- | []] [R | (u & m & R & _)]; [|discriminate R]. injection R as <-. split; [distinct | vm_compute; all_plain].
  - intros st [<- | []] [=].
  - split; constructor.
  - constructor.
Qed.

(** *** What does not hold *)
Definition named_step (n : string) (ins : list sinput) (t : tool) : wstep :=
  {| ws_id := n; ws_in := ins; ws_run := RTool t; ws_scatter := SNone; ws_scatterMethod := None; ws_when := None; ws_reqs := None |}.
Definition steps_workflow (l : list wstep) (r : option (list wreq)) : workflow :=
  {| wf_inputs := [{| wi_id := "w.cwl#n"; wi_type := JStr "int"; wi_format := JNull; wi_secondary := [] |}];
     wf_outputs := []; wf_steps := l; wf_reqs := r |}.
(** two steps of the result share a name, although those of the document do not *)
Definition Collides (w : workflow) : Prop :=
  NoDup (map ws_id (wf_steps w)) /\ Forall (fun st => NoDup (map si_id (ws_in st))) (wf_steps w) /\
  exists w' m, demo_run [] w = Ok (w', m) /\ ~ NoDup (map step_name (wf_steps w')).
Ltac twice := rewrite distinctb_spec; vm_compute; discriminate.

(** the step [a] with the input [b_c], the step [a_b] with the input [c] *)
Definition underscores : workflow := steps_workflow
  [named_step "w.cwl#a" [sin "w.cwl#a/b_c" "w.cwl#n" (Some "$(self + 1)")] (plain_tool ["t.cwl#b_c"]);
   named_step "w.cwl#a_b" [sin "w.cwl#a_b/c" "w.cwl#n" (Some "$(self + 2)")] (plain_tool ["t.cwl#c"])] None.
(** an input called [stdout], of a tool whose stdout is an expression *)
Definition stdout_tool : tool :=
  {| t_kind := KClt; t_inputs := [tin "t.cwl#stdout"]; t_args := []; t_stdout := Some "$(inputs.stdout + 'a')"; t_stderr := None;
     t_outputs := []; t_reqs := None; t_hints := []; t_expression := "" |}.
Definition stdouts : workflow := steps_workflow
  [named_step "w.cwl#s" [sin "w.cwl#s/stdout" "w.cwl#n" (Some "$(self + 1)")] stdout_tool] None.
(** a step called [workflow], with an input called as a requirement *)
Definition workflows : workflow := steps_workflow
  [named_step "w.cwl#workflow" [sin "w.cwl#workflow/EnvVarRequirement_0" "w.cwl#n" (Some "$(self + 1)")] (plain_tool ["t.cwl#EnvVarRequirement_0"])]
  (Some [REnv [("A", "$(1 + 1)")]]).
(** a document that was refactored before and got a new expression *)
Definition again : workflow := steps_workflow
  [named_step "w.cwl#s" [sin "w.cwl#s/x" "w.cwl#_expression_s_x/result" (Some "$(self + 1)")] (plain_tool ["t.cwl#x"]);
   named_step "w.cwl#_expression_s_x" [sin "w.cwl#_expression_s_x/x" "w.cwl#n" None] (plain_tool ["t.cwl#x"])] None.

Theorem C70_names_apart_refuted : Collides underscores /\ Collides stdouts /\ Collides workflows /\ Collides again.
Proof.
  assert (C : forall w, distinctb (map ws_id (wf_steps w)) && forallb (fun st => distinctb (map si_id (ws_in st))) (wf_steps w) &&
    match demo_run [] w with Ok (w', _) => negb (distinctb (map step_name (wf_steps w'))) | Err _ => false end = true -> Collides w).
  { intros w H. rewrite !andb_true_iff in H. destruct H as ((H1 & H2) & H3). split; [apply distinctb_spec; exact H1|]. split.
    - apply Forall_forall. intros st I. apply distinctb_spec. rewrite forallb_forall in H2. auto.
    - destruct (demo_run [] w) as [[w' m]|]; [|discriminate]. exists w', m. split; [reflexivity|]. rewrite distinctb_spec.
      apply negb_true_iff in H3. congruence. }
  split; [|split; [|split]]; apply C; vm_compute; reflexivity.
Qed.
Print Assumptions C70_names_apart_refuted.

(** Names of inputs of one step: what is made for the tool and what is made for the workflow share a name, and so do
    two entries of a listing of the workflow. *)
Definition cores_tool : tool :=
  {| t_kind := KClt; t_inputs := [tin "t.cwl#x"]; t_args := []; t_stdout := None; t_stderr := None; t_outputs := [];
     t_reqs := Some [RRes [("coresMin", JStr "$(inputs.x + 1)")]]; t_hints := []; t_expression := "" |}.
Definition cores : workflow := steps_workflow [named_step "w.cwl#s" [sin "w.cwl#s/x" "w.cwl#n" None] cores_tool]
  (Some [RRes [("coresMin", JStr "$(2 + 3)")]]).
Definition entries : workflow := steps_workflow [named_step "w.cwl#s" [sin "w.cwl#s/x" "w.cwl#n" None] (plain_tool ["t.cwl#x"])]
  (Some [RIwd (LList [EText "$(1 + 1)"; EText "$(2 + 2)"])]).
Theorem C70_inputs_apart_refuted : forall w, w = cores \/ w = entries ->
  Forall (fun st => NoDup (map si_id (ws_in st))) (wf_steps w) /\ NamesApart (fun _ => Err WorkflowException) ["coresMin"] false w /\
  exists w' m st, demo_run ["coresMin"] w = Ok (w', m) /\ In st (wf_steps w') /\ step_name st = "s" /\ ~ NoDup (map si_id (ws_in st)).
Proof.
  intros w W. split; [destruct W as [-> | ->]; cbn; (constructor; [distinct | constructor])|]. split.
  - apply C70_plain_names; destruct W as [-> | ->]; try (distinct; fail); try (split; [distinct | vm_compute; all_plain]; fail);
      try (vm_compute; constructor; [|constructor]; repeat split; discriminate);
      try (constructor; [exact demo_onehash | constructor]);
      try (intros st t [<- | []] [R | (u & m & R & _)]; [|discriminate R]; injection R as <-; split; [distinct | vm_compute; all_plain]);
      intros st [<- | []] [=].
  - destruct W as [-> | ->]; eexists _, _, _; (split; [vm_compute; reflexivity|]); (split; [left; reflexivity|]); (split; [reflexivity|]); twice.
Qed.
Print Assumptions C70_inputs_apart_refuted.
