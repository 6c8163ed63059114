(** * C84: the tools made for expressions declare JavaScript and have the library *)
From Verif Require Import PyBase PyBaseProofs PackModel ExprModel EvalModel ExprSpec ExprProps EvalSpec RefactorModel RefactorSpec RefactorProofs RefactorProps
  FlowModel FlowSpec FlowProofs FlowProofs2 FlowProps FlowValueSpec FlowValueProofs FlowValueProps FlowReqSpec
  FlowToolSpec FlowToolProofs FlowToolProps TraverseModel TraverseProps LibSpec LibProofs.

Lemma Counts_exists reqs lib : In (RJs lib) reqs -> exists lib', Counts reqs lib' /\ In (RJs lib') reqs.
Proof.
  assert (D : forall l, (exists lib', Counts l lib' /\ In (RJs lib') l) \/ (forall lib', ~ In (RJs lib') l)).
  { induction l as [|r l [(x & (a & b & -> & N) & I) | N]].
    - right. intros x [].
    - left. exists x. split; [exists (r :: a), b; auto | right; exact I].
    - destruct r as [| | |x| | |]; try (right; intros y [E | I]; [discriminate E | exact (N y I)]).
      left. exists x. split; [exists [], l; auto | left; reflexivity]. }
  intros I. destruct (D reqs) as [X | N]; [exact X | destruct (N lib I)].
Qed.
Lemma made_Evaluates good b t : made_tool good b t -> exists lib, good lib /\ Evaluates lib t.
Proof.
  unfold made_tool. destruct b.
  - intros (e & lib & G & ->). exists lib. split; [exact G|]. eapply Ev_program; reflexivity.
  - intros (K & A & lib & rest & R & _). destruct (Counts_exists (RJs lib :: rest) lib (or_introl eq_refl)) as (x & C & I).
    exists x. split; [apply A; rewrite R; exact I|]. eapply Ev_etool; eauto.
Qed.
Lemma subs_Inside good b r t : subs good b r -> Inside r t -> exists lib, good lib /\ Evaluates lib t.
Proof. intros S I. induction I as [s | s t I IH]; destruct S as (S1 & S2); [eapply made_Evaluates; eauto | auto]. Qed.

Lemma made_files good t : made_tool good false t -> forall l, ~ In (RIwd l) (all_reqs (t_reqs t)).
Proof. intros (_ & _ & lib & rest & R & N) l I. rewrite R in I. destruct I as [E | I]; [discriminate E | exact (N l I)]. Qed.

Section Whole.
  Variable gx : json -> json -> json -> result (option string).
  Variable ev : string -> json -> result json.
  Variable src_example self_example : list wstep -> wstep -> src -> result json.
  Variable src_params : list wstep -> src -> result nat.
  Variable src_known : list wstep -> wstep -> string -> result unit.
  Variable out_known : list wstep -> src -> result unit.
  Variable load_run : string -> result (tool * bool).
  Variable attrs : list string.
  Variable replace_etool skip1 skip2 : bool.
  Notation refactored fuel w := (traverse_workflow gx ev src_example self_example src_params src_known out_known load_run attrs
                                   replace_etool skip1 skip2 fuel w).

  (** Every step that is added runs a tool that evaluates its expression with JavaScript, with some
      library, and so does every expression tool in a sub-workflow.  A step for a [when] is visited
      again, which may move the program it runs when ExpressionTools are replaced. *)
  Theorem C84_javascript : forall fuel w w' m, refactored fuel w = Ok (w', m) ->
    (forall st, In st (wf_steps w) -> ~ is_sub (ws_run st)) ->
    exists olds news, wf_steps w' = olds ++ news /\ List.length olds = List.length (wf_steps w) /\
      (forall g, In g news -> replace_etool = false \/ ~ StartsWith "_when_expression_" (ws_id g) ->
         exists t lib, ws_run g = RTool t /\ Evaluates lib t) /\
      (forall st t, In st (wf_steps w') -> Inside (ws_run st) t -> exists lib, Evaluates lib t).
  Proof.
    intros fuel w w' m E NS.
    assert (T : forall r, all_good (fun _ => True) r) by (intros r x _; exact I).
    destruct (workflow_made (fun _ => True) _ _ _ _ _ _ _ _ _ _ _ _ _ _ _ _ E (conj (T _) (or_intror I)) NS (fun _ _ => T _) (fun _ _ _ _ => T _) (fun _ _ _ _ _ _ _ => T _))
      as (olds & news & A & B & C & D).
    exists olds, news. split; [exact A|]. split; [exact B|]. rewrite Forall_forall in C, D. split.
    - intros g G K. destruct (C g G) as (t & R & M).
        { destruct K as [K | K]; [left; exact K | right]. destruct (startswith _ _) eqn:S; [|reflexivity]. destruct K. apply StartsWith_b. exact S. }
        destruct (made_Evaluates _ _ _ M) as (lib & _ & Ev). eauto.
    - intros st t I J. destruct (subs_Inside _ _ _ _ (D st I) J) as (lib & _ & Ev). eauto.
  Qed.

  (** If the workflow declares the library and no step or tool declares another one, or if there
      is none at all, then all expressions are evaluated with it. *)
  Theorem C84_library_partial : forall lib fuel w w' m, OneLibrary load_run lib w -> refactored fuel w = Ok (w', m) ->
    (forall st, In st (wf_steps w) -> ~ is_sub (ws_run st)) ->
    exists olds news, wf_steps w' = olds ++ news /\ List.length olds = List.length (wf_steps w) /\
      (forall g, In g news -> replace_etool = false \/ ~ StartsWith "_when_expression_" (ws_id g) ->
         exists t, ws_run g = RTool t /\ Evaluates lib t) /\
      (forall st t, In st (wf_steps w') -> Inside (ws_run st) t -> Evaluates lib t).
  Proof.
    intros lib fuel w w' m [O1 O2 O3 O4 O5] E NS.
    destruct (workflow_made (fun x => x = lib) _ _ _ _ _ _ _ _ _ _ _ _ _ _ _ _ E) as (olds & news & A & B & C & D); auto.
    - split; [exact O1|]. destruct O2 as [O2 | ->]; [left; eauto | right; reflexivity].
    - exists olds, news. split; [exact A|]. split; [exact B|]. rewrite Forall_forall in C, D. split.
      + intros g G K. destruct (C g G) as (t & R & M).
        { destruct K as [K | K]; [left; exact K | right]. destruct (startswith _ _) eqn:S; [|reflexivity]. destruct K. apply StartsWith_b. exact S. }
        destruct (made_Evaluates _ _ _ M) as (x & -> & Ev). eauto.
      + intros st t I J. destruct (subs_Inside _ _ _ _ (D st I) J) as (x & -> & Ev). exact Ev.
  Qed.

  (** An ExpressionTool that is made stages no file, whatever the tool stages for which its
      expression was written: no InitialWorkDirRequirement is copied. *)
  Theorem C84_no_files : forall fuel w w' m, refactored fuel w = Ok (w', m) -> replace_etool = false ->
    (forall st, In st (wf_steps w) -> ~ is_sub (ws_run st)) ->
    exists olds news, wf_steps w' = olds ++ news /\ List.length olds = List.length (wf_steps w) /\
      (forall g, In g news -> exists t, ws_run g = RTool t /\ t_kind t = KEtool /\ forall l, ~ In (RIwd l) (all_reqs (t_reqs t))) /\
      (forall st t, In st (wf_steps w') -> Inside (ws_run st) t -> t_kind t = KEtool /\ forall l, ~ In (RIwd l) (all_reqs (t_reqs t))).
  Proof.
    intros fuel w w' m E Er NS.
    assert (T : forall r, all_good (fun _ => True) r) by (intros r x _; exact I).
    destruct (workflow_made (fun _ => True) _ _ _ _ _ _ _ _ _ _ _ _ _ _ _ _ E (conj (T _) (or_intror I)) NS (fun _ _ => T _) (fun _ _ _ _ => T _) (fun _ _ _ _ _ _ _ => T _))
      as (olds & news & A & B & C & D).
    exists olds, news. split; [exact A|]. split; [exact B|]. rewrite Forall_forall in C, D. rewrite Er in C, D. split.
    - intros g G. destruct (C g G (or_introl eq_refl)) as (t & R & M). exists t. split; [exact R|]. split; [exact (proj1 M) | exact (made_files _ _ M)].
    - intros st t J K. specialize (D st J). clear - D K. induction K as [s | s t K IH]; destruct D as (D1 & D2); [|exact (IH D2)].
      split; [exact (proj1 D1) | exact (made_files _ _ D1)].
  Qed.
End Whole.
Print Assumptions C84_javascript.
Print Assumptions C84_no_files.
Print Assumptions C84_library_partial.

(** *** Cases *)
Definition lib_tool (lib : option (list string)) : tool :=
  {| t_kind := KClt; t_inputs := [tin "t.cwl#x"; tin "t.cwl#y"]; t_args := [ABind (Some "$(f(inputs.x))"); ABind (Some "$(f(inputs.y))")];
     t_stdout := Some "$(f(inputs.x))"; t_stderr := None;
     t_outputs := [{| to_id := "t.cwl#out"; to_glob := JStr "a.txt"; to_eval := Some "$(f(self[0]))"; to_contents := false |}];
     t_reqs := Some [RJs lib; ROther "NetworkAccess"]; t_hints := []; t_expression := "" |}.
Definition lib_step (lib slib : option (list string)) : wstep :=
  {| ws_id := "w.cwl#s"; ws_in := [sin "w.cwl#s/x" "w.cwl#n" (Some "$(f(self))"); sin "w.cwl#s/y" "w.cwl#n" None]; ws_run := RTool (lib_tool lib);
     ws_scatter := SNone; ws_scatterMethod := None; ws_when := Some "$(f(inputs.x) > 1)"; ws_reqs := Some [RJs slib] |}.
Definition lib_workflow (lib slib wlib : option (list string)) : workflow :=
  let w := one_step_workflow (lib_step lib slib) in
  {| wf_inputs := wf_inputs w; wf_outputs := wf_outputs w; wf_steps := wf_steps w; wf_reqs := Some [RStepExpr; RJs wlib] |}.
Definition lib_run (replace_etool : bool) (w : workflow) : result (workflow * bool) :=
  traverse_workflow demo_gx demo_plain (fun _ _ _ => Ok (JInt 23)) (fun _ _ _ => Ok (JInt 23)) (fun _ _ => Ok 1)
    (fun _ _ _ => Ok tt) (fun _ _ => Ok tt) (fun _ => Err WorkflowException) ["coresMin"] replace_etool false false 100 w.
Definition lib_of (t : tool) : list wreq := match t_reqs t with Some l => filter is_js l | None => [] end.
Definition libs_of (w : workflow) : list (string * list wreq) :=
  map (fun g => (ws_id g, match ws_run g with RTool t => lib_of t | RSub s => lib_of (sb_gen_tool s) | RUri _ => [] end)) (wf_steps w).

Example C84_case : exists w', lib_run false (lib_workflow (Some ["f"]) (Some ["f"]) (Some ["f"])) = Ok (w', true) /\
  OneLibrary (fun _ => Err WorkflowException) (Some ["f"]) (lib_workflow (Some ["f"]) (Some ["f"]) (Some ["f"])) /\
  (forall st, In st (wf_steps (lib_workflow (Some ["f"]) (Some ["f"]) (Some ["f"]))) -> ~ is_sub (ws_run st)) /\
  libs_of w' = map (fun n => (fst n, map RJs (snd n)))
    [("w.cwl#s", [Some ["f"]]); ("_expression_s_x", [Some ["f"]; Some ["f"]]); ("_when_expression_s", [Some ["f"]]);
     ("_expression_s_arguments_0", [Some ["f"]; Some ["f"]]); ("_expression_s_arguments_1", [Some ["f"]]); ("_expression_s_stdout", [Some ["f"]]);
     ("_expression__when_expression_s_x", [Some ["f"]; Some ["f"]])].
Proof.
  eexists. split; [vm_compute; reflexivity|]. split; [|split].
  - split.
    + intros x [E | [E | []]]; [discriminate E | injection E as <-; reflexivity].
    + left. right. left. reflexivity.
    + intros st [<- | []] x [E | []]. injection E as <-. reflexivity.
    + intros st t [<- | []] E x. injection E as <-. intros [E | [E | []]]; [injection E as <-; reflexivity | discriminate E].
    + intros st u t m [<- | []] E. discriminate E.
  - intros st [<- | []] [].
  - vm_compute. reflexivity.
Qed.

(** a tool that stages a file: its expression tools stage none *)
Definition staging_tool : tool :=
  let t := lib_tool (Some ["f"]) in
  {| t_kind := t_kind t; t_inputs := t_inputs t; t_args := t_args t; t_stdout := t_stdout t; t_stderr := t_stderr t; t_outputs := t_outputs t;
     t_reqs := Some [RJs (Some ["f"]); RIwd (LList [EDirent (Some "a") (Some "a.txt")]); ROther "NetworkAccess"]; t_hints := []; t_expression := "" |}.
Definition staging_workflow : workflow :=
  one_step_workflow {| ws_id := "w.cwl#s"; ws_in := [sin "w.cwl#s/x" "w.cwl#n" (Some "$(f(self))"); sin "w.cwl#s/y" "w.cwl#n" None]; ws_run := RTool staging_tool;
     ws_scatter := SNone; ws_scatterMethod := None; ws_when := None; ws_reqs := None |}.
Example C84_no_files_case : exists w', lib_run false staging_workflow = Ok (w', true) /\
  (forall st, In st (wf_steps staging_workflow) -> ~ is_sub (ws_run st)) /\
  In (RIwd (LList [EDirent (Some "a") (Some "a.txt")])) (all_reqs (t_reqs staging_tool)) /\
  map (fun g => (ws_id g, match ws_run g with RTool t => t_reqs t | _ => None end)) (tl (wf_steps w')) =
    [("_expression_s_x", Some [RJs (Some ["f"]); RJs (Some ["f"]); ROther "NetworkAccess"]);
     ("_expression_s_arguments_0", Some [RJs (Some ["f"]); RJs (Some ["f"]); ROther "NetworkAccess"]);
     ("_expression_s_arguments_1", Some [RJs None; ROther "NetworkAccess"]);
     ("_expression_s_stdout", Some [RJs None; ROther "NetworkAccess"])].
Proof.
  eexists. split; [vm_compute; reflexivity|]. split; [intros st [<- | []] []|]. split; [right; left; reflexivity|]. vm_compute. reflexivity.
Qed.

(** The library of a tool reaches only the expressions up to the first argument: then the tool has
    lost its InlineJavascriptRequirement. *)
Definition lib_command : command := {| cm_tool := lib_tool (Some ["t"]); cm_extra := []; cm_types := [JStr "File"] |}.
Theorem C84_tool_library_refuted : exists w' t0 t1 t2, demo_traverse false (PTool lib_command) = Ok (PWorkflow w', true) /\
  Counts (all_reqs (t_reqs (cm_tool lib_command))) (Some ["t"]) /\
  map (fun g => (ws_id g, ws_run g)) (tl (wf_steps w')) =
    [("_expression_main_arguments_0", RTool t0); ("_expression_main_arguments_1", RTool t1); ("_expression_main_stdout", RTool t2)] /\
  Evaluates (Some ["t"]) t0 /\ Evaluates None t1 /\ Evaluates None t2 /\
  t_expression t1 = etool_expression None "${return f(inputs.y);}".
Proof.
  eexists. eexists. eexists. eexists. split; [vm_compute; reflexivity|].
  split; [exists [], [ROther "NetworkAccess"]; split; [reflexivity | intros x [E | []]; discriminate E]|]. split; [reflexivity|].
  split; [eapply Ev_etool; [reflexivity | reflexivity|]; exists [RJs (Some ["t"])], [ROther "NetworkAccess"]; split; [reflexivity | intros x [E | []]; discriminate E]|].
  split; [eapply Ev_etool; [reflexivity | reflexivity|]; exists [], [ROther "NetworkAccess"]; split; [reflexivity | intros x [E | []]; discriminate E]|].
  split; [eapply Ev_etool; [reflexivity | reflexivity|]; exists [], [ROther "NetworkAccess"]; split; [reflexivity | intros x [E | []]; discriminate E]|].
  reflexivity.
Qed.
Print Assumptions C84_tool_library_refuted.

(** When ExpressionTools are replaced, the library of a tool reaches none of its expressions. *)
Theorem C84_replaced_library_refuted : exists w', demo_traverse true (PTool lib_command) = Ok (PWorkflow w', true) /\
  List.length (wf_steps w') = 4 /\
  (forall g, In g (tl (wf_steps w')) -> exists t, ws_run g = RTool t /\ Evaluates None t) /\
  (forall st t, In st (wf_steps w') -> Inside (ws_run st) t -> Evaluates None t).
Proof.
  eexists. split; [vm_compute; reflexivity|]. split; [reflexivity|]. split.
  - intros g I. cbn [tl wf_steps] in I. destruct I as [<- | [<- | [<- | []]]]; (eexists; split; [reflexivity|]).
    + apply (Ev_program None _ (etool_expression None "${return f(inputs.x);}")); vm_compute; reflexivity.
    + apply (Ev_program None _ (etool_expression None "${return f(inputs.y);}")); vm_compute; reflexivity.
    + apply (Ev_program None _ (etool_expression None "${return f(inputs.x);}")); vm_compute; reflexivity.
  - intros st t I J. cbn [wf_steps] in I. destruct I as [<- | I].
    + cbn [ws_run] in J. inversion J as [s E | s t' H E]; subst; [apply (Ev_program None _ (etool_expression (Some "self") "${return f(self[0]);}")); vm_compute; reflexivity|]. inversion H.
    + repeat (destruct I as [<- | I]; [inversion J|]). destruct I.
Qed.
Print Assumptions C84_replaced_library_refuted.

(** When workflow, step and tool have libraries of their own: the valueFrom of a step is evaluated
    with that of the tool, the arguments of the tool but the first and its outputEval with that of
    the workflow. *)
Theorem C84_own_library_refuted : exists w' tx tw t0 t1 s, lib_run false (lib_workflow (Some ["t"]) (Some ["s"]) (Some ["w"])) = Ok (w', true) /\
  map (fun g => (ws_id g, ws_run g)) (firstn 5 (wf_steps w')) =
    [("w.cwl#s", RSub s); ("_expression_s_x", RTool tx); ("_when_expression_s", RTool tw);
     ("_expression_s_arguments_0", RTool t0); ("_expression_s_arguments_1", RTool t1)] /\
  Evaluates (Some ["t"]) tx /\ Evaluates (Some ["s"]) tw /\ Evaluates (Some ["t"]) t0 /\ Evaluates (Some ["w"]) t1 /\
  Evaluates (Some ["w"]) (sb_gen_tool s).
Proof.
  eexists. eexists. eexists. eexists. eexists. eexists. split; [vm_compute; reflexivity|]. split; [reflexivity|].
  split; [eapply Ev_etool; [reflexivity | reflexivity|]; exists [RJs (Some ["s"])], [ROther "NetworkAccess"]; split; [reflexivity | intros x [E | []]; discriminate E]|].
  split; [eapply Ev_etool; [reflexivity | reflexivity|]; exists [], []; split; [reflexivity | intros x []]|].
  split; [eapply Ev_etool; [reflexivity | reflexivity|]; exists [RJs (Some ["w"])], [ROther "NetworkAccess"]; split; [reflexivity | intros x [E | []]; discriminate E]|].
  split; [eapply Ev_etool; [reflexivity | reflexivity|]; exists [], [ROther "NetworkAccess"]; split; [reflexivity | intros x [E | []]; discriminate E]|].
  eapply Ev_etool; [reflexivity | reflexivity|]; exists [], []; split; [reflexivity | intros x []].
Qed.
Print Assumptions C84_own_library_refuted.
