(** * C65: which steps can be refactored: an input with an expression has to be one of the tool *)
From Verif Require Import PyBase PyBaseProofs PackModel ExprModel ExprSpec ExprProps EvalModel RefactorModel RefactorSpec RefactorProofs
  FlowModel FlowSpec FlowProofs FlowProofs2 FlowTrace FlowProps FlowValueSpec FlowValueProofs FlowValueProps.

(** The tool has an input of this name: what is after the number sign and the last slash *)
Definition Declares (t : tool) (name : string) : Prop := exists p f, In p (t_inputs t) /\ Fragment (ti_id p) f /\ last_part f = name.

Lemma has_input_Declares t id : has_input (RTool t) id = true -> Declares t (last_part id).
Proof.
  cbn [has_input]. rewrite existsb_exists. intros (p & I & H). apply andb_true_iff in H. destruct H as [_ H]. apply String.eqb_eq in H.
  exists p, (after_hash (ti_id p)). split; auto. split; [apply after_hash_Fragment; auto|]. rewrite <- !basename_last_part. exact H.
Qed.
Lemma Declares_cltool t lib name : Declares (etool_to_cltool t lib) name -> Declares t name.
Proof. intros (p & f & I & F & N). cbn in I. apply in_map_iff in I. destruct I as (q & <- & I). exists q, f. auto. Qed.

Section Targets.
  Variable gx : json -> json -> json -> result (option string).
  Variable ev : string -> json -> result json.
  Variable src_example self_example : list wstep -> wstep -> src -> result json.
  Variable src_params : list wstep -> src -> result nat.
  Variable src_known : list wstep -> wstep -> string -> result unit.
  Variable out_known : list wstep -> src -> result unit.
  Variable load_run : string -> result (tool * bool).
  Variable attrs : list string.
  Variable replace_etool skip1 skip2 : bool.
  Notation refactored fuel w := (traverse_workflow gx ev src_example self_example src_params src_known out_known load_run attrs
                                   replace_etool skip1 skip2 fuel w).

  Lemma value_loop_targets wreqs pre post mock orig ins : forall todo st done_ gen r,
    value_loop gx self_example src_params src_known replace_etool wreqs pre post st mock orig ins done_ todo gen = Ok r ->
    Forall (fun i => (forall t, si_valueFrom i = Some t -> NotFound gx t) \/ has_input orig (si_id i) = true) todo.
  Proof.
    induction todo as [|inp todo IH]; intros st done_ gen r E; [constructor|]. cbn [value_loop] in E.
    destruct (filled (si_valueFrom inp)) as [text|] eqn:Ft.
    2:{ constructor; [|eapply IH; exact E]. left. intros t Et. rewrite Et in Ft. cbn in Ft. left. destruct (String.eqb_spec t ""); [auto|discriminate Ft]. }
    cbn zeta in E. binv E self Es. binv E x Ex. apply find_Found in Ex. apply filled_Some in Ft. destruct Ft as (Ft & Fn). destruct x as [expr|].
    2:{ constructor; [|eapply IH; exact E]. left. intros t Et. rewrite Et in Ft. injection Ft as ->. exact Ex. }
    destruct (has_input orig (si_id inp)) eqn:Hi; cbn [negb] in E; [|discriminate E]. binv E k Ek. binv E g Eg. constructor; [right; auto|]. eapply IH. exact E.
  Qed.
  (** If a workflow is refactored, then every input of a step whose valueFrom has an expression is
      an input of the tool of the step *)
  Theorem C65_target : forall fuel w w' m, refactored fuel w = Ok (w', m) ->
    forall st t i text, In st (wf_steps w) -> ws_run st = RTool t -> ws_id st <> "" -> ~ StartsWith "_expression" (ws_id st) ->
    In i (ws_in st) -> si_valueFrom i = Some text -> NotFound gx text \/ Declares t (name_of i).
  Proof.
    intros fuel w w' m E st t i text I R Nid Nex Ii Vf. apply workflow_visits_loaded in E. destruct E as (olds & news & new & _ & F).
    destruct (Forall2_in_l _ _ _ _ F I) as (st' & _ & st0 & (ml & L) & V).
    assert (K : ws_in st0 = ws_in st /\ ws_id st0 = ws_id st /\ exists t0, ws_run st0 = RTool t0 /\ (Declares t0 (name_of i) -> Declares t (name_of i))).
    { unfold load_step in L. rewrite R in L. destruct (is_etool t && replace_etool); injection L as <- _; (split; [reflexivity|]; split; [reflexivity|]); eexists; (split; [first [reflexivity|exact R]|]); auto. apply Declares_cltool. }
    destruct K as (K1 & K2 & t0 & K3 & K4).
    inversion V as [? ? Sk _ | wreqs pre post ? st1 ? gen m1 sub Sk T Fi G]; subst; [exfalso; apply Nex; apply startswith_spec; rewrite <- K2; exact Sk|].
    unfold traverse_step in T. binv T mock Em. rewrite K2 in T. apply String.eqb_neq in Nid. rewrite Nid in T. binv T v Ev. destruct v as [s1 g1]. apply value_loop_targets in Ev. rewrite K1 in Ev.
    rewrite Forall_forall in Ev. destruct (Ev i Ii) as [H|H]; [left; eauto|]. right. apply K4. rewrite K3 in H. apply has_input_Declares. exact H.
  Qed.
End Targets.
Print Assumptions C65_target.

(** A name with a slash in the tool is found *)
Definition main_step (names : list string) : wstep :=
  {| ws_id := "w.cwl#s"; ws_in := [sin "w.cwl#s/x" "w.cwl#n" (Some "$(self + 1)"); sin "w.cwl#s/y" "w.cwl#n" None]; ws_run := RTool (plain_tool names);
     ws_scatter := SNone; ws_scatterMethod := None; ws_when := None; ws_reqs := None |}.
Example C65_target_case : exists w', demo_run [] (one_step_workflow (main_step ["t.cwl#main/x"; "t.cwl#main/y"])) = Ok (w', true) /\
  Declares (plain_tool ["t.cwl#main/x"; "t.cwl#main/y"]) "x" /\ ~ StartsWith "_expression" "w.cwl#s".
Proof.
  eexists. split; [vm_compute; reflexivity|]. split; [|intros H; apply startswith_spec in H; discriminate H].
  exists (tin "t.cwl#main/x"), "main/x". split; [left; reflexivity|]. split; [apply after_hash_Fragment; reflexivity|reflexivity].
Qed.
(** Steps may have inputs that their tool does not have; others may use them in their valueFrom.
    If such an input has an expression itself, the workflow is refused. *)
Theorem C65_target_refuted : exists st, GoodIds st /\
  (exists w', demo_run [] (one_step_workflow (with_run (RTool (plain_tool ["t.cwl#main/x"; "t.cwl#main/y"])) st)) = Ok (w', true)) /\
  demo_run [] (one_step_workflow st) = Err WorkflowException.
Proof.
  exists (main_step ["t.cwl#main/y"]). split; [good_ids|]. split; [eexists; vm_compute; reflexivity|vm_compute; reflexivity].
Qed.
Print Assumptions C65_target_refuted.
