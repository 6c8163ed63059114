(** * Properties of the refactoring of tools in workflows *)
From Verif Require Import PyBase PyBaseProofs PackModel ExprModel EvalModel RefactorModel RefactorSpec RefactorProofs
  FlowModel FlowSpec FlowProofs FlowProofs2 FlowProps FlowValueSpec FlowValueProofs FlowValueProps FlowReqSpec FlowReqProofs FlowReqProofs2
  FlowReqProps FlowToolSpec FlowToolProofs FlowToolProofs2 FlowToolProofs3.

(** an id with one number sign *)
Lemma after_first_none s : has_char "#" s = false -> after_first "#" s = None.
Proof.
  induction s as [|c s IH]; [reflexivity|]. cbn [after_first has_char]. intros H. apply orb_false_iff in H. destruct H as (A & B).
  rewrite Ascii.eqb_sym, A. auto.
Qed.
Lemma after_first_some s : has_char "#" s = true -> exists a b, s = (a ++ "#" ++ b)%string /\ after_first "#" s = Some b.
Proof.
  induction s as [|c s IH]; [discriminate|]. cbn [after_first has_char]. rewrite (Ascii.eqb_sym "#" c). destruct (Ascii.eqb_spec c "#") as [->|N].
  - intros _. exists "", s. auto.
  - intros H. destruct (IH H) as (a & b & -> & E). exists (String c a), b. auto.
Qed.
Lemma OneHash_same id : OneHash id -> after_first_hash id = after_hash id.
Proof.
  intros O. unfold after_first_hash. destruct (has_char "#" id) eqn:H.
  - destruct (after_first_some _ H) as (a & b & E & ->). symmetry. apply after_hash_Fragment. split; [eapply O; exact E|].
    right. exists a. exact E.
  - rewrite after_first_none by exact H. symmetry. apply after_hash_none. exact H.
Qed.

Section Whole.
  Variable gx : json -> json -> json -> result (option string).
  Variable ev : string -> json -> result json.
  Variable src_example self_example : list wstep -> wstep -> src -> result json.
  Variable src_params : list wstep -> src -> result nat.
  Variable src_known : list wstep -> wstep -> string -> result unit.
  Variable out_known : list wstep -> src -> result unit.
  Variable load_run : string -> result (tool * bool).
  Variable attrs : list string.
  Variable replace_etool skip1 skip2 : bool.
  Notation refactored fuel w := (traverse_workflow gx ev src_example self_example src_params src_known out_known load_run attrs
                                   replace_etool skip1 skip2 fuel w).
  (** the names of resources have no number sign *)
  Definition names_ok : Prop := Forall (fun a => has_char "#" a = false) attrs.

  (** the steps of the document that are refactored *)
  Definition Refactored (P : wstep -> wstep -> tool -> tool -> Prop) (w w' : workflow) : Prop :=
    exists olds news, wf_steps w' = olds ++ news /\
      Forall2 (fun st st' => forall t, ~ StartsWith "_expression" (ws_id st) -> ws_id st <> "" -> OneHash (ws_id st) ->
                 RunsTool load_run st t -> t_kind t = KClt -> exists t', inner (ws_run st') = Some t' /\ P st st' t t') (wf_steps w) olds.
  Lemma refactored_both fuel w w' m : names_ok -> refactored fuel w = Ok (w', m) ->
    Refactored (fun st st' t t' => ToolMoved gx (wf_steps w') st st' t t' skip1 /\ ToolReqsMoved gx (wf_steps w') st st' t t' attrs skip2) w w'.
  Proof.
    intros A E. destruct (tool_workflow _ _ _ _ _ _ _ _ _ _ _ _ A _ _ _ _ E) as (olds & news & A1 & A2). exists olds, news. split; auto.
    eapply Forall2_mono; [|exact A2]. intros st st' H t N1 N2 N3 R K. destruct H as [H | [H | [H | H]]].
    - destruct (N1 H).
    - destruct (N2 H).
    - destruct (H (OneHash_same _ N3)).
    - exact (H t R K).
  Qed.
  Lemma Refactored_mono (P Q : wstep -> wstep -> tool -> tool -> Prop) w w' : (forall st st' t t', P st st' t t' -> Q st st' t t') ->
    Refactored P w w' -> Refactored Q w w'.
  Proof.
    intros I (olds & news & A1 & A2). exists olds, news. split; auto. eapply Forall2_mono; [|exact A2].
    intros st st' H t N1 N2 N3 R K. destruct (H t N1 N2 N3 R K) as (t' & X & Y). eauto.
  Qed.

  (** ** C67: expressions of a CommandLineTool are computed by steps of their own

      arguments, stdout, stderr, the valueFrom of an inputBinding, glob *)
  Theorem C67_tool_texts : names_ok -> forall fuel w w' m, refactored fuel w = Ok (w', m) ->
    Refactored (fun st st' t t' => ToolMoved gx (wf_steps w') st st' t t' skip1) w w'.
  Proof. intros A fuel w w' m E. eapply Refactored_mono; [|eapply refactored_both; eauto]. cbn. tauto. Qed.

  (** ** C68: so are those of the requirements of the tool *)
  Theorem C68_tool_requirements : names_ok -> forall fuel w w' m, refactored fuel w = Ok (w', m) ->
    Refactored (fun st st' t t' => ToolReqsMoved gx (wf_steps w') st st' t t' attrs skip2) w w'.
  Proof. intros A fuel w w' m E. eapply Refactored_mono; [|eapply refactored_both; eauto]. cbn. tauto. Qed.

  (** What is not done: the expression of an inputBinding is still in the tool, and so is that of a
      glob.  Both are then evaluated twice: in the step made for it, and in its place. *)
  Theorem C67_binding_stays : names_ok -> forall fuel w w' m, refactored fuel w = Ok (w', m) ->
    Refactored (fun st st' t t' =>
      (forall p s, In p (t_inputs t) -> ti_valueFrom p = Some s -> exists p', In p' (t_inputs t') /\ ShortFor (ti_id p) (ti_id p') /\ ti_valueFrom p' = Some s) /\
      (forall o, In o (t_outputs t) -> exists o', In o' (t_outputs t') /\ ShortFor (to_id o) (to_id o') /\ to_glob o' = to_glob o)) w w'.
  Proof.
    intros A fuel w w' m E. eapply Refactored_mono; [|eapply refactored_both; eauto]. intros st st' t t' (M & _). split.
    - intros p s I V. destruct (tm_inputs _ _ _ _ _ _ _ M) as (old & new & E1 & F & _).
      destruct (Forall2_in_l _ _ _ _ F I) as (p' & I' & S1 & S2 & S3). exists p'. rewrite E1, S3. split; [apply in_or_app; auto | auto].
    - intros o I. destruct (Forall2_in_l _ _ _ _ (tm_outputs _ _ _ _ _ _ _ M) I) as (o' & I' & S1 & S2). eauto.
  Qed.

  (** A tool with an expression in an EnvVarRequirement cannot be refactored at all. *)
  Theorem C68_env_refused : names_ok -> forall w st t defs n v,
    In st (wf_steps w) -> ~ StartsWith "_expression" (ws_id st) -> ws_id st <> "" -> OneHash (ws_id st) ->
    RunsTool load_run st t -> t_kind t = KClt ->
    (exists l, t_reqs t = Some l /\ In (REnv defs) l) -> In (n, v) defs -> v <> "" ->
    (forall inputs self r, gx (JStr v) inputs self = Ok r -> r <> None /\ r <> Some "") ->
    forall fuel r, refactored fuel w <> Ok r.
  Proof.
    intros A w st t defs n v I N1 N2 N3 R K (l & Q & Il) Id Nv G fuel (w', m) E.
    destruct (C68_tool_requirements A _ _ _ _ E) as (olds & news & _ & F).
    destruct (Forall2_in_l _ _ _ _ F I) as (st' & _ & H). destruct (H t N1 N2 N3 R K) as (t' & _ & T).
    unfold ToolReqsMoved in T. rewrite Q in T. destruct T as (l1 & T & _). destruct (Forall2_in_l _ _ _ _ T Il) as (r & _ & M).
    inversion M as [d X | | | | | | r0 X]; subst.
    - rewrite Forall_forall in X. destruct (X _ Id) as [Y | (i & s & r & Y & Z)]; [auto|]. destruct (G _ _ _ Y) as (Z1 & Z2). destruct Z; auto.
    - apply X. exact Logic.I.
  Qed.
End Whole.
Print Assumptions C67_tool_texts.
Print Assumptions C68_tool_requirements.
Print Assumptions C67_binding_stays.
Print Assumptions C68_env_refused.

(** *** Values *)

Lemma find_renamed x before : startswith "_" x = false ->
  match find (fun i => String.eqb (name_of i) x) (map renamed (filter (fun i => negb (underscored (name_of i))) before)) with
  | Some i => find (fun i => String.eqb (name_of i) x) before = None -> False | None => find (fun i => String.eqb (name_of i) x) before = None end /\
  forall val : src -> option string -> json -> option string -> json,
  option_map (value_of val) (find (fun i => String.eqb (name_of i) x) (map renamed (filter (fun i => negb (underscored (name_of i))) before)))
  = option_map (value_of val) (find (fun i => String.eqb (name_of i) x) before).
Proof.
  intros U. induction before as [|i before (IH1 & IH2)]; [split; reflexivity|]. cbn [filter find].
  assert (Nr : name_of (renamed i) = name_of i) by (unfold name_of at 1; cbn; apply last_part_twice).
  destruct (String.eqb (name_of i) x) eqn:Q.
  - apply String.eqb_eq in Q. assert (Ub : underscored (name_of i) = false) by (rewrite underscored_b, Q; exact U).
    rewrite Ub. cbn [negb map find]. rewrite Nr, Q, String.eqb_refl. split; [discriminate | reflexivity].
  - destruct (underscored (name_of i)); cbn [negb map find]; [split; auto|]. rewrite Nr, Q. split; auto.
Qed.

(** The value of an expression in the step made for it is the value it would have in the tool, run
    by the refactored step, if it uses only inputs [x] that
    - do not begin with an underscore,
    - are parameters of the tool, and inputs of the step from the beginning;
    [val] gives inputs of steps their values, from source, linkMerge, default and valueFrom only.
    (Steps that are scattered: [C67_scatter_refuted].) *)
Theorem C67_value_kept_partial : forall (val : src -> option string -> json -> option string -> json)
    (js : string -> (string -> option json) -> json) (uses : string -> string -> Prop),
  (forall e o o', (forall x, uses e x -> o x = o' x) -> js e o = js e o') ->
  forall st st' t place self e g names, MadeForTool st st' t place self e g ->
    Forall2 (fun p x => ParamName (ti_id p) x) (t_inputs t) names ->
    (forall x, uses e x -> ~ StartsWith "_" x /\ In x names /\
       exists i, In i (firstn (List.length (ws_in st)) (ws_in st')) /\ name_of i = x) ->
    js e (inputs_in val (ws_in g) (params_of (ws_run g))) = js e (inputs_in val (ws_in st') names).
Proof.
  intros val js uses J st st' t place self e g names M Fn U. apply J. intros x Ux. destruct (U x Ux) as (U1 & U2 & i & U3 & U4).
  destruct (mt_in _ _ _ _ _ _ _ M) as (before & after & B1 & B2 & B3).
  destruct (mt_tool _ _ _ _ _ _ _ M) as (tg & names' & extra & T1 & T2 & T3 & T4).
  assert (En : names' = names).
  { clear - Fn T2. revert names' T2. induction Fn as [|p x l l' H F IH]; intros ns T2; inversion T2 as [|? y ? ys H2 F2]; subst; [reflexivity|].
    f_equal; [|apply IH; exact F2]. destruct H as (f & H1 & H3). destruct H2 as (f' & H4 & H5). apply after_hash_Fragment in H1, H4. subst f f'.
    pose proof (last_fragment_unique _ _ _ (proj1 H3) (proj2 H3)). pose proof (last_fragment_unique _ _ _ (proj1 H5) (proj2 H5)). congruence. }
  subst names'. unfold inputs_in, params_of. rewrite T1, T3, B3.
  assert (Us : startswith "_" x = false) by (destruct (startswith "_" x) eqn:S; auto; exfalso; apply U1, StartsWith_b; exact S).
  assert (E1 : existsb (String.eqb x) names = true) by (apply existsb_exists; exists x; split; auto; apply String.eqb_refl).
  assert (E2 : existsb (String.eqb x) (filter (fun x => negb (underscored x)) names ++ extra) = true).
  { apply existsb_exists. exists x. split; [|apply String.eqb_refl]. apply in_or_app. left. apply filter_In. split; auto. rewrite underscored_b, Us. reflexivity. }
  rewrite E1, E2.
  destruct (find_renamed x before Us) as (_ & F). specialize (F val).
  assert (Ib : In i before).
  { rewrite B1, firstn_app in U3. replace (List.length (ws_in st) - List.length before) with 0 in U3 by lia. rewrite app_nil_r in U3.
    rewrite <- (firstn_skipn (List.length (ws_in st)) before). apply in_or_app. auto. }
  assert (Fa : find (fun i => String.eqb (name_of i) x) (ws_in st') = find (fun i => String.eqb (name_of i) x) before).
  { rewrite B1. clear - Ib U4. induction before as [|a l IH]; [destruct Ib|]. cbn. destruct (String.eqb (name_of a) x) eqn:Q; auto.
    destruct Ib as [-> | Ib]; [rewrite U4, String.eqb_refl in Q; discriminate | auto]. }
  rewrite Fa. destruct (find _ before) as [b|], (find _ (map renamed _)) as [c|]; cbn in F; congruence.
Qed.
Print Assumptions C67_value_kept_partial.

(** An input that begins with an underscore is not seen, whatever it is linked to. *)
Theorem C67_underscores_lost : forall st st' t place self e g, MadeForTool st st' t place self e g ->
  forall val x, StartsWith "_" x -> inputs_in val (ws_in g) (params_of (ws_run g)) x = None.
Proof.
  intros st st' t place self e g M val x U. apply StartsWith_b in U. unfold inputs_in.
  destruct (mt_in _ _ _ _ _ _ _ M) as (before & after & B1 & B2 & B3). rewrite B3.
  destruct (existsb _ _); auto.
  assert (F : find (fun i => String.eqb (name_of i) x) (map renamed (filter (fun i => negb (underscored (name_of i))) before)) = None).
  { clear - U. induction before as [|i l IH]; [reflexivity|]. cbn [filter]. destruct (underscored (name_of i)) eqn:Ui; [exact IH|].
    cbn [negb map find]. assert (Nr : name_of (renamed i) = name_of i) by (unfold name_of at 1; cbn; apply last_part_twice). rewrite Nr.
    destruct (String.eqb (name_of i) x) eqn:Q; [|exact IH]. apply String.eqb_eq in Q. rewrite underscored_b, Q, U in Ui. discriminate. }
  rewrite F. reflexivity.
Qed.
Print Assumptions C67_underscores_lost.

(** *** Cases *)
Definition rich_tool : tool :=
  {| t_kind := KClt; t_inputs := [tin "t.cwl#x"; {| ti_id := "t.cwl#y"; ti_type := JStr "int"; ti_valueFrom := Some "$(self + 1)" |}];
     t_args := [ABind (Some "$(inputs.y + 1)"); AText "-v"; AText "$(inputs.x + 2)"];
     t_stdout := Some "$(inputs.x + 'a')"; t_stderr := Some "err.txt";
     t_outputs := [{| to_id := "t.cwl#out"; to_glob := JStr "$(inputs.y + 'b')"; to_eval := None; to_contents := false |}];
     t_reqs := Some [RRes [("coresMin", JStr "$(inputs.x + 1)"); ("ramMin", JInt 4)]; RJs None;
                     RIwd (LList [EText "$(inputs.x + 2)"; EDirent (Some "$(inputs.y + 3)") (Some "f.txt"); EDirent (Some "plain") None])];
     t_hints := [ROther "DockerRequirement"; RJs None]; t_expression := "" |}.
Definition rich_step (ins : list sinput) (scatter : src) (t : tool) : wstep :=
  {| ws_id := "w.cwl#s"; ws_in := ins; ws_run := RTool t; ws_scatter := scatter; ws_scatterMethod := None; ws_when := None; ws_reqs := None |}.
Definition two_inputs : list sinput := [sin "w.cwl#s/x" "w.cwl#n" None; sin "w.cwl#s/y" "w.cwl#n" None].
Definition rich_workflow (t : tool) (scatter : src) : workflow := one_step_workflow (rich_step two_inputs scatter t).
Definition first_tool (w : workflow) : option tool := match wf_steps w with st :: _ => inner (ws_run st) | [] => None end.
Definition inputs_of (w : workflow) : list (string * src) :=
  match wf_steps w with st :: _ => map (fun i => (si_id i, si_source i)) (ws_in st) | [] => [] end.

(** the steps of the examples meet the hypotheses *)
Lemma rich_hypotheses ins scatter t : ~ StartsWith "_expression" (ws_id (rich_step ins scatter t)) /\ ws_id (rich_step ins scatter t) <> "" /\
  OneHash (ws_id (rich_step ins scatter t)) /\ RunsTool (fun _ => Err WorkflowException) (rich_step ins scatter t) t.
Proof.
  split; [rewrite StartsWith_b; discriminate|]. split; [discriminate|]. split; [|left; reflexivity].
  cbn. intros a b E. destruct (has_char "#" b) eqn:H; auto. exfalso.
  assert (C : forall s, (exists a b, s = (a ++ "#" ++ b)%string /\ has_char "#" b = true) ->
    match after_first "#" s with Some r => has_char "#" r = true | None => False end).
  { clear. induction s as [|c s IH]; intros (a & b & E & H); [destruct a; discriminate|]. cbn [after_first].
    destruct (Ascii.eqb_spec c "#") as [->|N].
    - destruct a as [|d a]; cbn in E; injection E; intros; subst; [exact H|]. rewrite has_char_app. cbn. rewrite orb_true_r. reflexivity.
    - destruct a as [|d a]; cbn in E; injection E; intros; subst; [destruct N; reflexivity|]. apply IH. exists a, b. auto. }
  specialize (C "w.cwl#s" (ex_intro _ a (ex_intro _ b (conj E H)))). vm_compute in C. discriminate.
Qed.

Example C67_case : exists w', demo_run ["coresMin"; "ramMin"] (rich_workflow rich_tool SNone) = Ok (w', true) /\
  map ws_id (wf_steps w') = ["w.cwl#s"; "_expression_s_ResourceRequirement_coresMin"; "_expression_s_InitialWorkDirRequirement_0";
    "_expression_s_InitialWorkDirRequirement_1"; "_expression_s_arguments_0"; "_expression_s_arguments_2";
    "_expression_s_stdout"; "_expression_s_y_valueFrom"; "_expression_s_out_glob"] /\
  exists t', first_tool w' = Some t' /\
    t_args t' = [ABind (Some "$(inputs._arguments_0)"); AText "-v"; ABind (Some "$(inputs._arguments_2)")] /\
    t_stdout t' = Some "$(inputs._stdout)" /\ t_stderr t' = Some "err.txt" /\ t_hints t' = [ROther "DockerRequirement"] /\
    t_reqs t' = Some [RRes [("coresMin", JStr "$(inputs._coresMin)"); ("ramMin", JInt 4)];
      RIwd (LList [EText "$(inputs._iwdr_listing_0"; EDirent (Some "$(inputs._iwdr_listing_1)") (Some "f.txt"); EDirent (Some "plain") None])].
Proof.
  eexists. split; [vm_compute; reflexivity|]. split; [reflexivity|]. eexists. split; [vm_compute; reflexivity|]. repeat split.
Qed.
(** the step for stdout sees both inputs of the tool; [tval] stands for values *)
Definition tval (s : src) (merge : option string) (default : json) (vf : option string) : json :=
  match s with SOne x => JStr x | _ => default end.
Example C67_value_case : exists w' g, demo_run ["coresMin"; "ramMin"] (rich_workflow rich_tool SNone) = Ok (w', true) /\
  nth_error (wf_steps w') 6 = Some g /\ ws_id g = "_expression_s_stdout" /\
  Runs (ws_run g) (etool_expression None "${return inputs.x + 'a';}") /\
  inputs_in tval (ws_in g) (params_of (ws_run g)) "x" = Some (JStr "w.cwl#n") /\
  inputs_in tval (ws_in g) (params_of (ws_run g)) "y" = Some (JStr "w.cwl#n") /\
  inputs_in tval (ws_in g) (params_of (ws_run g)) "_arguments_0" = None.
Proof.
  eexists. eexists. split; [vm_compute; reflexivity|]. split; [reflexivity|]. split; [reflexivity|]. split.
  - eexists. split; [reflexivity|]. left. split; reflexivity.
  - repeat split.
Qed.
Example C68_env_case : exists r, demo_gx (JStr "${return 1;}") (JDict []) JNull = Ok (Some r) /\ r <> "" /\
  demo_run [] (rich_workflow (tool_reqs (Some [REnv [("A", "${return 1;}")]]) (plain_tool ["t.cwl#x"])) SNone) = Err TypeError.
Proof. eexists. split; [vm_compute; reflexivity|]. split; [discriminate | vm_compute; reflexivity]. Qed.
Example C68_env_found inputs self r : demo_gx (JStr "${return 1;}") inputs self = Ok r -> r <> None /\ r <> Some "".
Proof. vm_compute. intros H. injection H as <-. split; discriminate. Qed.

(** A scattered step: the step made for an expression is not scattered, so it sees the whole array. *)
Theorem C67_scatter_refuted : exists w' g, demo_run [] (rich_workflow demo_tool (SOne "w.cwl#s/x")) = Ok (w', true) /\
  In g (wf_steps w') /\ ws_id g = "_expression_s_stdout" /\ ws_scatter g = SNone /\
  Runs (ws_run g) (etool_expression None "${return inputs.x + 'a';}") /\
  map (fun i => (si_id i, si_source i)) (ws_in g) = [("x", SOne "w.cwl#n"); ("y", SOne "w.cwl#n")] /\
  exists st', nth_error (wf_steps w') 0 = Some st' /\ ws_scatter st' = SOne "w.cwl#s/x" /\ In (sin "w.cwl#s/x" "w.cwl#n" None) (ws_in st').
Proof.
  eexists. eexists. split; [vm_compute; reflexivity|]. split; [right; right; left; reflexivity|].
  split; [reflexivity|]. split; [reflexivity|]. split; [eexists; split; [reflexivity|]; left; split; reflexivity|]. split; [reflexivity|].
  eexists. split; [reflexivity|]. split; [reflexivity|]. left. reflexivity.
Qed.
Print Assumptions C67_scatter_refuted.

(** An argument that is a text refers afterwards to an input that the step does not have: whatever
    the step has under that name is not there. *)
Theorem C67_argument_refuted : exists w' t', demo_run ["coresMin"; "ramMin"] (rich_workflow rich_tool SNone) = Ok (w', true) /\
  first_tool w' = Some t' /\ In (AText "$(inputs.x + 2)") (t_args rich_tool) /\ nth_error (t_args t') 2 = Some (ABind (Some "$(inputs._arguments_2)")) /\
  (forall st', nth_error (wf_steps w') 0 = Some st' -> forall i, In i (ws_in st') -> name_of i <> "_arguments_2") /\
  In ("_expression_s_arguments_2/result", SNone) (inputs_of w').
Proof.
  eexists. eexists. split; [vm_compute; reflexivity|]. split; [vm_compute; reflexivity|]. split; [right; right; left; reflexivity|].
  split; [reflexivity|]. split.
  - cbn [nth_error wf_steps]. intros st' E. injection E as <-. cbn [ws_in].
    intros i I. repeat (destruct I as [<- | I]; [discriminate|]). destruct I.
  - vm_compute. repeat (try (left; reflexivity); right).
Qed.
Print Assumptions C67_argument_refuted.

(** The InlineJavascriptRequirement of the tool is removed although expressions remain in it. *)
Theorem C67_javascript_refuted : exists w' t', demo_run ["coresMin"; "ramMin"] (rich_workflow rich_tool SNone) = Ok (w', true) /\
  first_tool w' = Some t' /\ (exists l, t_reqs rich_tool = Some l /\ In (RJs None) l) /\
  (forall l r, t_reqs t' = Some l -> In r l -> is_js r = false) /\
  (exists p, In p (t_inputs t') /\ ti_valueFrom p = Some "$(self + 1)") /\ (exists o, In o (t_outputs t') /\ to_glob o = JStr "$(inputs.y + 'b')").
Proof.
  eexists. eexists. split; [vm_compute; reflexivity|]. split; [vm_compute; reflexivity|].
  split; [eexists; split; [reflexivity|]; right; left; reflexivity|]. split.
  - intros l r E I. injection E as <-. destruct I as [<- | [<- | []]]; reflexivity.
  - split; [eexists; split; [right; left; reflexivity | reflexivity] | eexists; split; [left; reflexivity | reflexivity]].
Qed.
Print Assumptions C67_javascript_refuted.

(** An expression that is an entry of a listing is evaluated without inputs, and the reference in
    its place lacks its bracket. *)
Theorem C68_entry_refuted : exists w' t' g, demo_run ["coresMin"; "ramMin"] (rich_workflow rich_tool SNone) = Ok (w', true) /\
  first_tool w' = Some t' /\ (exists l li, t_reqs t' = Some l /\ In (RIwd (LList li)) l /\ In (EText "$(inputs._iwdr_listing_0") li) /\
  In g (wf_steps w') /\ ws_id g = "_expression_s_InitialWorkDirRequirement_0" /\ ws_in g = [] /\
  Runs (ws_run g) (etool_expression None "${return inputs.x + 2;}").
Proof.
  eexists. eexists. eexists. split; [vm_compute; reflexivity|]. split; [vm_compute; reflexivity|].
  split; [eexists; eexists; split; [reflexivity|]; split; [right; left; reflexivity | left; reflexivity]|].
  split; [right; right; left; reflexivity|]. split; [reflexivity|]. split; [reflexivity|].
  eexists. split; [reflexivity|]. left. split; reflexivity.
Qed.
Print Assumptions C68_entry_refuted.

(** A listing that is one expression becomes a tuple instead of a text. *)
Theorem C68_listing_refuted : exists w' t',
  demo_run [] (rich_workflow (tool_reqs (Some [RIwd (LText "$(1 + 1)")]) (plain_tool ["t.cwl#x"])) SNone) = Ok (w', true) /\
  first_tool w' = Some t' /\ t_reqs t' = Some [RIwd (LTuple "$(inputs._iwdr_listing)")].
Proof. eexists. eexists. split; [vm_compute; reflexivity|]. split; vm_compute; reflexivity. Qed.
Print Assumptions C68_listing_refuted.

(** An entry with a name: a name that is an expression is written into the code with its dollar
    sign, and a body of JavaScript is written where an expression is expected. *)
Theorem C68_code_refuted : forall en, en = "$(inputs.x + 1)" \/ en = "${return 1;}" ->
  exists w' g, demo_run [] (rich_workflow (tool_reqs (Some [RIwd (LList [EDirent (Some en) (Some "$(inputs.y + 'n')")])]) (plain_tool ["t.cwl#x"])) SNone) = Ok (w', true) /\
  In g (wf_steps w') /\ ws_id g = "_expression_s_InitialWorkDirRequirement_0" /\
  Runs (ws_run g) (etool_expression None ("${var result; var entryname = $(inputs.y + 'n'); var entry = "
    ++ (if String.eqb en "${return 1;}" then "return 1;" else "inputs.x + 1") ++ entry_code)).
Proof.
  intros en [-> | ->]; eexists; eexists; (split; [vm_compute; reflexivity|]); (split; [right; left; reflexivity|]); (split; [reflexivity|]);
    eexists; (split; [reflexivity|]); left; split; reflexivity.
Qed.
Print Assumptions C68_code_refuted.
