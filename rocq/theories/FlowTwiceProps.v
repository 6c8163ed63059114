(** * Properties of refactoring a workflow that was refactored *)
From Verif Require Import PyBase PyBaseProofs PackModel ExprModel ExprSpec ExprProps EvalModel EvalSpec EvalProofs RefactorModel RefactorSpec RefactorProofs
  RefactorProps FlowModel FlowSpec FlowProps FlowValueSpec FlowValueProofs FlowValueProps FlowReqSpec FlowToolSpec FlowToolProps FlowOldSpec FlowOldProps
  FlowTwiceSpec FlowTwiceProofs FlowTwiceProofs2 FlowTwiceProofs3.

(** ** C89: refactoring again changes nothing *)

(** get_expression takes none of the references that the refactoring writes for an expression, if
    the input is there *)
Theorem C89_references : forall js dumps dumps4 loads, json_library_ok dumps loads ->
  SeesReferences (get_expression js dumps dumps4 loads).
Proof.
  intros js dumps dumps4 loads LIB. split; [intros i self; left; reflexivity|].
  intros x d W D. left.
  assert (T : ("$(inputs._" ++ x ++ ")")%string = String "$" (write_ref "inputs" [Dot ("_" ++ x)])).
  { unfold write_ref. cbn [write_path write_seg append]. rewrite sapp_nil_r. reflexivity. }
  refine (proj2 (C60_none _ _ _ _ LIB _ _ _) _). right. exists ("$(inputs._" ++ x ++ ")")%string. split; [reflexivity|]. split; [rewrite T, strip_ref; reflexivity|].
  right. destruct (dget ("_" ++ x) d) as [v|] eqn:E; [|destruct (D eq_refl)]. exists v. rewrite T.
  rewrite (C09_reference_end_to_end _ _ _ _ _ _ _ _ _ _ _ _ _ _ "inputs" [Dot ("_" ++ x)] (JDict d) v); auto.
  - left; reflexivity.
  - constructor; [|constructor]. cbn [plain_seg]. split; [discriminate|]. cbn [append sforall]. rewrite W. reflexivity.
  - repeat constructor.
  - eapply W_dot; [exact E | constructor].
Qed.
Print Assumptions C89_references.

Section Whole.
  Variable gx : json -> json -> json -> result (option string).
  Variable ev : string -> json -> result json.
  Variable src_example self_example : list wstep -> wstep -> src -> result json.
  Variable src_params : list wstep -> src -> result nat.
  Variable src_known : list wstep -> wstep -> string -> result unit.
  Variable out_known : list wstep -> src -> result unit.
  Variable load_run : string -> result (tool * bool).
  Variable attrs : list string.
  Variable replace_etool skip1 skip2 : bool.
  Notation refactored fuel w := (traverse_workflow gx ev src_example self_example src_params src_known out_known load_run attrs
                                   replace_etool skip1 skip2 fuel w).
  (** the types of sources are found *)
  Definition types_found : Prop :=
    (forall steps st s, exists v, src_example steps st s = Ok v) /\ (forall steps st s, exists v, self_example steps st s = Ok v).

  (** The full statement: for every workflow.  Proved for workflows without [when] and [pickValue]
      whose steps run tools without expressions in the places that are not cleared: those are
      [C89_glob_refuted], [C89_binding_refuted] and [C89_entry_refuted]. *)
  Theorem C89_again_partial : SeesReferences gx -> types_found -> params_found src_params ->
    Forall (fun a => sforall is_word a = true) attrs ->
    forall fuel fuel' w w' m, Older w -> Steps gx load_run skip1 skip2 w ->
    refactored fuel w = Ok (w', m) -> List.length (wf_steps w') <= fuel' ->
    exists w'', refactored fuel' w' = Ok (w'', false) /\ SameWorkflow w' w''.
  Proof. intros S (T1 & T2) P A fuel fuel' w w' m O St E L. eapply workflow_twice; eauto. Qed.
End Whole.
Print Assumptions C89_again_partial.

(** *** The small workflow of C88, with an entry in the requirements of the tool *)
Definition twice_tool : tool :=
  {| t_kind := KClt; t_inputs := [tin "t.cwl#x"; tin "t.cwl#y"]; t_args := [ABind (Some "$(inputs.y + 1)"); AText "-v"];
     t_stdout := Some "$(inputs.x + 'a')"; t_stderr := Some "err.txt";
     t_outputs := [{| to_id := "t.cwl#out"; to_glob := JStr "a.txt"; to_eval := None; to_contents := false |}];
     t_reqs := Some [RRes [("coresMin", JStr "$(inputs.x + 1)"); ("ramMin", JInt 4)];
                     RIwd (LList [EDirent (Some "$(inputs.y + 3)") None])];
     t_hints := []; t_expression := "" |}.
Definition twice_workflow (t : tool) : workflow :=
  {| wf_inputs := wf_inputs demo_workflow;
     wf_outputs := [{| wo_id := "w.cwl#o"; wo_source := SOne "w.cwl#s/out"; wo_pick := None |}];
     wf_steps := [rich_step [sin "w.cwl#s/x" "w.cwl#n" (Some "$(self + 1)"); sin "w.cwl#s/y" "w.cwl#n" None] SNone t];
     wf_reqs := wf_reqs demo_workflow |}.
Definition twice_run (replace : bool) (w : workflow) : result (workflow * bool) :=
  traverse_workflow demo_gx demo_plain (fun _ _ _ => Ok (JInt 23)) (fun _ _ _ => Ok (JInt 23)) (fun _ _ => Ok 1)
    (fun _ _ _ => Ok tt) (fun _ _ => Ok tt) (fun _ => Err WorkflowException) ["coresMin"; "ramMin"] replace false false 100 w.
Ltac steady := intros; first [ intros (i & s & [H | H]); vm_compute in H; discriminate H | intros _ i s; left; reflexivity ].
Example C89_case_hypotheses : Older (twice_workflow twice_tool) /\ Steps demo_gx (fun _ => Err WorkflowException) false false (twice_workflow twice_tool).
Proof.
  split; [split; [intros st [<- | []]; reflexivity | intros o [<- | []]; reflexivity]|].
  intros st [<- | []].
  destruct (rich_hypotheses [sin "w.cwl#s/x" "w.cwl#n" (Some "$(self + 1)"); sin "w.cwl#s/y" "w.cwl#n" None] SNone twice_tool) as (H1 & H2 & H3 & H4).
  split; [exact H2|]. split; [exact H1|]. split; [exact H3|]. split.
  { intros i [<- | [<- | []]] s E; [|discriminate E]. injection E as <-. steady. }
  exists twice_tool. split; [exact H4|]. split.
  - reflexivity.
  - intros _ a [<- | [<- | []]] s E; injection E as <-; steady.
  - intros s E; injection E as <-; steady.
  - intros s E; injection E as <-; steady.
  - intros l r E I. injection E as <-. destruct I as [<- | [<- | []]]; cbn [SteadyReq].
    + intros a v. cbn [dget]. destruct (String.eqb _ _); [intros E; injection E as <-; steady|]. destruct (String.eqb _ _); [|discriminate].
      intros E; injection E as <-; steady.
    + intros e s [<- | []] [E | E]; [injection E as <-; steady | discriminate E].
  - intros _ p [<- | [<- | []]] s E; discriminate E.
  - intros o [<- | []] _ i s. left; reflexivity.
  - intros _ o [<- | []] s E. discriminate E.
  - intros _ l es s E I1 I2. injection E as <-. destruct I1 as [X | [X | []]]; [discriminate X|]. injection X as <-.
    destruct I2 as [X | []]; discriminate X.
Qed.
Lemma twice_again replace w w' m : Older w -> Steps demo_gx (fun _ => Err WorkflowException) false false w ->
  twice_run replace w = Ok (w', m) -> List.length (wf_steps w') <= 100 -> exists w'', twice_run replace w' = Ok (w'', false) /\ SameWorkflow w' w''.
Proof.
  unfold twice_run. intros O St E L.
  refine (C89_again_partial _ _ _ _ _ _ _ _ _ _ _ _ _ _ _ _ _ _ _ _ _ O St E L).
  - apply C89_references. exact demo_library.
  - split; intros; eauto.
  - intros steps s n H. injection H as <-. apply le_n.
  - repeat constructor.
Qed.
Definition twice_names : list string :=
  ["w.cwl#s"; "_expression_s_x"; "_expression_s_ResourceRequirement_coresMin"; "_expression_s_InitialWorkDirRequirement_0";
   "_expression_s_arguments_0"; "_expression_s_stdout"; "_expression_workflow_EnvVarRequirement_0"].
Lemma twice_first replace : exists w', twice_run replace (twice_workflow twice_tool) = Ok (w', true) /\
  (List.length (wf_steps w') <=? 100) = true /\ map ws_id (wf_steps w') = twice_names.
Proof. destruct replace; eexists; (split; [vm_compute; reflexivity|]); split; vm_compute; reflexivity. Qed.
Example C89_case : forall replace, exists w' w'', twice_run replace (twice_workflow twice_tool) = Ok (w', true) /\
  twice_run replace w' = Ok (w'', false) /\ SameWorkflow w' w'' /\ map ws_id (wf_steps w') = twice_names.
Proof.
  intros replace. destruct (twice_first replace) as (w' & E & L & N). apply Nat.leb_le in L. destruct C89_case_hypotheses as (O & St).
  destruct (twice_again replace _ _ _ O St E L) as (w'' & E2 & S). exists w', w''. auto.
Qed.

(** *** Where a second run is not the end of it *)
Fixpoint once (l : list string) : bool := match l with [] => true | x :: l' => negb (existsb (String.eqb x) l') && once l' end.
Lemma once_true l : NoDup l -> once l = true.
Proof.
  induction 1 as [|x l N _ IH]; [reflexivity|]. cbn [once]. rewrite IH, andb_true_r. apply negb_true_iff.
  destruct (existsb (String.eqb x) l) eqn:E; [|reflexivity]. apply existsb_exists in E. destruct E as (y & I & E). apply String.eqb_eq in E. subst y.
  destruct (N I).
Qed.
(** An expression in a glob is extracted again, into a second step of the same name ... *)
Theorem C89_glob_refuted : exists t w' w'', twice_run false (twice_workflow t) = Ok (w', true) /\ twice_run false w' = Ok (w'', true) /\
  List.length (wf_steps w') < List.length (wf_steps w'') /\ ~ NoDup (map ws_id (wf_steps w'')).
Proof.
  exists {| t_kind := KClt; t_inputs := [tin "t.cwl#x"; tin "t.cwl#y"]; t_args := []; t_stdout := None; t_stderr := None;
            t_outputs := [{| to_id := "t.cwl#out"; to_glob := JStr "$(inputs.y + 'b')"; to_eval := None; to_contents := false |}];
            t_reqs := None; t_hints := []; t_expression := "" |}.
  do 2 eexists. split; [vm_compute; reflexivity|]. split; [vm_compute; reflexivity|]. split; [cbn; lia|].
  intros H. apply once_true in H. revert H. vm_compute. discriminate.
Qed.
Print Assumptions C89_glob_refuted.
(** ... so is one in an inputBinding ... *)
Theorem C89_binding_refuted : exists t w' w'', twice_run false (twice_workflow t) = Ok (w', true) /\ twice_run false w' = Ok (w'', true) /\
  List.length (wf_steps w') < List.length (wf_steps w'') /\ ~ NoDup (map ws_id (wf_steps w'')).
Proof.
  exists {| t_kind := KClt; t_inputs := [tin "t.cwl#x"; {| ti_id := "t.cwl#y"; ti_type := JStr "int"; ti_valueFrom := Some "$(self + 1)" |}];
            t_args := []; t_stdout := None; t_stderr := None; t_outputs := []; t_reqs := None; t_hints := []; t_expression := "" |}.
  do 2 eexists. split; [vm_compute; reflexivity|]. split; [vm_compute; reflexivity|]. split; [cbn; lia|].
  intros H. apply once_true in H. revert H. vm_compute. discriminate.
Qed.
Print Assumptions C89_binding_refuted.
(** ... and the reference written for an entry of a listing has no closing bracket: the second run fails. *)
Theorem C89_entry_refuted : exists t w', twice_run false (twice_workflow t) = Ok (w', true) /\ twice_run false w' = Err SubstitutionError.
Proof.
  exists (tool_reqs (Some [RIwd (LList [EText "$(inputs.x + 2)"])]) (plain_tool ["t.cwl#x"; "t.cwl#y"])).
  eexists. split; [vm_compute; reflexivity|]. vm_compute. reflexivity.
Qed.
Print Assumptions C89_entry_refuted.
