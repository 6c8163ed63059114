(** * Properties of the refactoring of [valueFrom] and [when] *)
From Verif Require Import PyBase PyBaseProofs PackModel ExprModel ExprSpec ExprProps EvalModel RefactorModel RefactorSpec RefactorProofs
  FlowModel FlowSpec FlowProofs FlowProofs2 FlowProps FlowValueSpec FlowValueProofs.

(** ** C65: valueFrom and when are computed by a step of their own *)
Section Whole.
  Variable gx : json -> json -> json -> result (option string).
  Variable ev : string -> json -> result json.
  Variable src_example self_example : list wstep -> wstep -> src -> result json.
  Variable src_params : list wstep -> src -> result nat.
  Variable src_known : list wstep -> wstep -> string -> result unit.
  Variable out_known : list wstep -> src -> result unit.
  Variable load_run : string -> result (tool * bool).
  Variable attrs : list string.
  Variable replace_etool skip1 skip2 : bool.
  Notation refactored fuel w := (traverse_workflow gx ev src_example self_example src_params src_known out_known load_run attrs
                                   replace_etool skip1 skip2 fuel w).

  (** Looking up the parameters of a source yields at least one or fails. *)
  Definition params_found : Prop := forall steps s n, src_params steps s = Ok n -> 0 < n.

  (** Every input of every step is as it was if no expression is found in its valueFrom;
      otherwise it is linked to a new step that runs the expression, and [InputMoved] says which
      inputs that step sees.  The same for [when]. *)
  Theorem C65_value_from : params_found -> forall fuel w w' m, refactored fuel w = Ok (w', m) ->
    exists olds news, wf_steps w' = olds ++ news /\
      Forall2 (fun st st' => StartsWith "_expression" (ws_id st) \/ ws_id st = "" \/ InputsMoved gx (wf_steps w') st st')
        (wf_steps w) olds.
  Proof.
    intros P fuel w w' m E. destruct (valueFrom_workflow _ _ _ _ _ _ _ _ _ _ _ _ P _ _ _ _ E) as (o & n & A & B).
    exists o, n. split; auto. eapply Forall2_mono; [|exact B]. cbn. tauto.
  Qed.
  Theorem C65_when : params_found -> forall fuel w w' m, refactored fuel w = Ok (w', m) ->
    exists olds news, wf_steps w' = olds ++ news /\
      Forall2 (fun st st' => StartsWith "_expression" (ws_id st) \/ ws_id st = "" \/ WhenMoved gx (wf_steps w') st st')
        (wf_steps w) olds.
  Proof.
    intros P fuel w w' m E. destruct (valueFrom_workflow _ _ _ _ _ _ _ _ _ _ _ _ P _ _ _ _ E) as (o & n & A & B).
    exists o, n. split; auto. eapply Forall2_mono; [|exact B]. cbn. tauto.
  Qed.
End Whole.
Print Assumptions C65_value_from.
Print Assumptions C65_when.

(** An expression that uses neither the name of its own input, nor names that end with it or
    begin with an underscore, nor inputs that are linked to nothing, has the same value in the
    generated step as in the step, when the input has no linkMerge and no default and is not
    named like an ending of [self].  (Scattered steps: see [C65_scatter_refuted].) *)
Theorem C65_value_kept_partial : forall (val : src -> option string -> json -> json)
    (js : string -> (string -> option json) -> json -> json) (uses : string -> string -> Prop),
  by_name val -> (forall s, s = SNone \/ s = SMany [] -> val s None JNull = JNull) ->
  (forall e o o' self, (forall x, uses e x -> o x = o' x) -> js e o self = js e o' self) ->
  forall st i e g, MadeFor st i e g -> GoodIds st -> In i (ws_in st) ->
  si_linkMerge i = None -> si_default i = JNull -> ~ EndsWith (name_of i) "self" ->
  (forall x, uses e x -> x <> "self" /\ ~ StartsWith "_" x /\ ~ EndsWith (name_of i) x /\
             forall j, In j (ws_in st) -> name_of j = x -> Fed j) ->
  js e (object val (ws_in st)) (given val i)
  = js e (seen val g) (match seen val g "self" with Some v => v | None => JNull end).
Proof.
  intros val js uses V U J st i e g M G I L D Se Us.
  pose proof (mf_seen _ _ _ _ M val V G) as Sn.
  assert (Sf : match seen val g "self" with Some v => v | None => JNull end = given val i).
  { unfold given. rewrite L, D. destruct (seen val g "self") as [v|] eqn:S.
    - apply Sn in S. destruct S as ([(_ & _ & ->) | (j & Ij & Ej & _)] & _); auto.
      destruct G as (_ & G). destruct (G j Ij) as (_ & _ & X & _). congruence.
    - assert (F : ~ Fed i).
      { intros F. assert (seen val g "self" = Some (val (si_source i) None JNull)); [|congruence].
        apply Sn. split; [left; auto|]. split; auto. rewrite StartsWith_b. discriminate. }
      symmetry. apply U. unfold Fed in F. destruct (si_source i) as [|x|[|x l]]; auto; exfalso; apply F; split; congruence. }
  rewrite Sf. apply J. intros x Ux. destruct (Us x Ux) as (U1 & U2 & U3 & U4).
  destruct (object val (ws_in st) x) as [v|] eqn:O.
  - apply object_iff in O; [|apply G]. destruct O as (j & Ij & Ej & ->). symmetry. apply Sn. split; auto. right. exists j. auto.
  - destruct (seen val g x) as [v|] eqn:S; auto. apply Sn in S. destruct S as ([(X & _) | (j & Ij & Ej & _ & Ev)] & _); [congruence|].
    rewrite <- O. apply object_iff; [apply G|]. exists j. auto.
Qed.
Print Assumptions C65_value_kept_partial.

(** What is always lost: the input itself, every input with a name ending like it, every
    input that has only a default. *)
Theorem C65_inputs_lost : forall st i e g, MadeFor st i e g -> GoodIds st -> forall val, by_name val ->
  seen val g (name_of i) = None /\
  (forall j, In j (ws_in st) -> EndsWith (name_of i) (name_of j) -> seen val g (name_of j) = None) /\
  (forall j, In j (ws_in st) -> ~ Fed j -> seen val g (name_of j) = None).
Proof.
  intros st i e g M G val V. pose proof (mf_seen _ _ _ _ M val V G) as Sn.
  assert (A : forall y, EndsWith (name_of i) y -> seen val g y = None).
  { intros y H. destruct (seen val g y) as [v|] eqn:S; auto. apply Sn in S. tauto. }
  split; [apply A; exists ""; reflexivity|]. split; [auto|]. intros j J F.
  destruct (seen val g (name_of j)) as [v|] eqn:S; auto. apply Sn in S.
  destruct S as ([(X & _) | (k & K & Ek & Fk & _)] & _).
  - destruct G as (_ & G). destruct (G j J) as (_ & _ & Y & _). congruence.
  - exfalso. apply F. rewrite (name_unique (ws_in st) j k); auto. apply G.
Qed.
Print Assumptions C65_inputs_lost.

(** *** Cases *)
Lemma made_here st i e g :
  valueFrom_step (fun _ _ => Ok 1) false None [st] st i (ws_run st) (ws_in st)
    ("_expression_" ++ after_hash (ws_id st) ++ "_" ++ basename (si_id i)) e = Ok g ->
  In i (ws_in st) -> MadeFor st i e g.
Proof.
  intros E I. assert (P : params_found (fun _ _ => Ok 1)) by (intros a b n H; injection H as <-; lia).
  exact (proj2 (valueFrom_exact (fun _ _ => Ok JNull) (fun _ _ _ => Ok JNull) (fun _ _ _ => Ok JNull) _
    (fun _ _ _ => Ok tt) (fun _ _ => Ok tt) (fun _ => Err TypeError) _ P _ _ _ _ _ _ _ _ E I eq_refl)).
Qed.

Definition demo_val (s : src) (merge : option string) (default : json) : json :=
  match s with
  | SNone | SMany [] => default
  | _ => match merge with Some m => JStr m | None => JInt 7 end
  end.
Lemma demo_val_by_name : by_name demo_val.
Proof. intros s s' l d H. destruct H as [| |l1 l2 F]; auto. destruct F; reflexivity. Qed.
Lemma demo_val_unlinked : forall s, s = SNone \/ s = SMany [] -> demo_val s None JNull = JNull.
Proof. intros s [-> | ->]; reflexivity. Qed.

Definition plain_tool (names : list string) : tool :=
  {| t_kind := KClt; t_inputs := map tin names; t_args := []; t_stdout := None; t_stderr := None;
     t_outputs := [{| to_id := "t.cwl#out"; to_glob := JStr "a.txt"; to_eval := None; to_contents := false |}];
     t_reqs := None; t_hints := []; t_expression := "" |}.
Definition one_step (ins : list sinput) (scatter : src) (when : option string) : wstep :=
  {| ws_id := "w.cwl#s"; ws_in := ins; ws_run := RTool (plain_tool (map (fun i => "t.cwl#" ++ last_part (si_id i))%string ins));
     ws_scatter := scatter; ws_scatterMethod := None; ws_when := when; ws_reqs := None |}.
Definition one_step_workflow (st : wstep) : workflow :=
  {| wf_inputs := [{| wi_id := "w.cwl#n"; wi_type := JStr "int"; wi_format := JNull; wi_secondary := [] |}];
     wf_outputs := []; wf_steps := [st]; wf_reqs := None |}.

Ltac good_ids := split; [cbn; repeat constructor; cbn; intuition discriminate|];
  cbn; intros ? H; repeat (destruct H as [<- | H]; [repeat split; try discriminate; cbn; intros ? X; try discriminate; injection X as <-;
                                                     intros F; apply after_hash_Fragment in F; discriminate|]); destruct H.

(** Something good: [$(self + inputs.y)] of the input x *)
Definition good_step : wstep := one_step [sin "w.cwl#s/x" "w.cwl#n" (Some "$(self + inputs.y)"); sin "w.cwl#s/y" "w.cwl#n" None] SNone None.
Example C65_case : exists w' g, demo_run [] (one_step_workflow good_step) = Ok (w', true) /\ In g (wf_steps w') /\
  MadeFor good_step (sin "w.cwl#s/x" "w.cwl#n" (Some "$(self + inputs.y)")) "${return self + inputs.y;}" g /\
  GoodIds good_step /\ ws_id g = "_expression_s_x" /\
  seen demo_val g "y" = Some (JInt 7) /\ seen demo_val g "self" = Some (JInt 7) /\ seen demo_val g "x" = None /\
  Found demo_gx "$(self + inputs.y)" "${return self + inputs.y;}" /\ NotFound demo_gx "plain".
Proof.
  eexists. eexists. split; [vm_compute; reflexivity|]. split; [cbn; right; left; reflexivity|].
  split; [apply made_here; [vm_compute; reflexivity | cbn; auto]|]. split; [good_ids|].
  split; [reflexivity|]. split; [reflexivity|]. split; [reflexivity|]. split; [reflexivity|]. split.
  - split; [discriminate|]. exists (JDict []), JNull. vm_compute. reflexivity.
  - right. exists JNull, JNull, None. split; [vm_compute; reflexivity | auto].
Qed.
Example C65_kept_case : exists js : string -> (string -> option json) -> json -> json, exists uses : string -> string -> Prop,
  (forall e o o' self, (forall x, uses e x -> o x = o' x) -> js e o self = js e o' self) /\
  (forall x, uses "${return self + inputs.y;}" x <-> x = "y") /\
  js "" (fun _ => Some (JInt 1)) JNull <> js "" (fun _ => None) JNull.
Proof.
  exists (fun _ o _ => match o "y" with Some v => v | None => JNull end), (fun _ x => x = "y"). split.
  - intros e o o' self H. rewrite (H "y" eq_refl). reflexivity.
  - split; [tauto|discriminate].
Qed.
(** with [when] *)
Example C65_when_case : exists w', demo_run [] demo_workflow = Ok (w', true) /\
  exists g, In g (wf_steps w') /\ ws_id g = "_when_expression_s" /\ seen demo_val g "y" = Some (JInt 7) /\
  map (fun i => (si_id i, si_source i, si_valueFrom i)) (ws_in g)
  = [("x", SOne "_expression__when_expression_s_x/result", None); ("y", SOne "n", None);
     ("_envDef0", SOne "_expression_workflow_EnvVarRequirement_0/result", None)].
Proof.
  eexists. split; [vm_compute; reflexivity|]. eexists. split; [right; right; left; reflexivity|].
  split; [reflexivity|]. split; reflexivity.
Qed.

(** The claim without conditions is false.  [Changed]: in some refactored workflow an expression
    has another value in the generated step. *)
Definition Changed (st : wstep) : Prop := exists w' m i e g,
  demo_run [] (one_step_workflow st) = Ok (w', m) /\ In i (ws_in st) /\ In g (wf_steps w') /\ MadeFor st i e g /\ GoodIds st /\
  ws_scatter st = SNone /\
  exists js : (string -> option json) -> json -> json,
    js (object demo_val (ws_in st)) (given demo_val i)
    <> js (seen demo_val g) (match seen demo_val g "self" with Some v => v | None => JNull end).
Ltac changed e js := eexists; eexists; eexists; exists e; eexists; split; [vm_compute; reflexivity|];
  split; [cbn; left; reflexivity|]; split; [cbn; right; left; reflexivity|];
  split; [apply made_here; [vm_compute; reflexivity | cbn; auto]|]; split; [good_ids|]; split; [reflexivity|];
  exists js; vm_compute; discriminate.
Definition use_name (x : string) (o : string -> option json) (self : json) : json := match o x with Some v => v | None => JNull end.
Definition use_self (o : string -> option json) (self : json) : json := self.

(** [inputs.x] in the valueFrom of x *)
Theorem C65_own_name_refuted : Changed (one_step [sin "w.cwl#s/x" "w.cwl#n" (Some "$(inputs.x + 1)")] SNone None).
Proof. changed "${return inputs.x + 1;}" (use_name "x"). Qed.
(** [inputs.max] in the valueFrom of x *)
Theorem C65_suffix_refuted : Changed (one_step [sin "w.cwl#s/x" "w.cwl#n" (Some "$(inputs.max + 1)"); sin "w.cwl#s/max" "w.cwl#n" None] SNone None).
Proof. changed "${return inputs.max + 1;}" (use_name "max"). Qed.
(** [inputs.y] when y has only a default *)
Theorem C65_default_refuted : Changed (one_step [sin "w.cwl#s/x" "w.cwl#n" (Some "$(inputs.y + 1)");
   {| si_id := "w.cwl#s/y"; si_source := SNone; si_valueFrom := None; si_linkMerge := None; si_default := JInt 3 |}] SNone None).
Proof. changed "${return inputs.y + 1;}" (use_name "y"). Qed.
(** [self] in the valueFrom of an input named f *)
Theorem C65_self_refuted : Changed (one_step [sin "w.cwl#s/f" "w.cwl#n" (Some "$(self + 1)")] SNone None).
Proof. changed "${return self + 1;}" use_self. Qed.
(** [self] when the input has only a default *)
Theorem C65_self_default_refuted : Changed (one_step [
   {| si_id := "w.cwl#s/x"; si_source := SNone; si_valueFrom := Some "$(self + 1)"; si_linkMerge := None; si_default := JInt 3 |}] SNone None).
Proof. changed "${return self + 1;}" use_self. Qed.
(** [self] when the links are merged *)
Theorem C65_merge_refuted : Changed (one_step [
   {| si_id := "w.cwl#s/x"; si_source := SMany ["w.cwl#n"; "w.cwl#n"]; si_valueFrom := Some "$(self + 1)";
      si_linkMerge := Some "merge_flattened"; si_default := JNull |}] SNone None).
Proof. changed "${return self + 1;}" use_self. Qed.
Print Assumptions C65_own_name_refuted.
Print Assumptions C65_suffix_refuted.
Print Assumptions C65_default_refuted.
Print Assumptions C65_self_refuted.
Print Assumptions C65_self_default_refuted.
Print Assumptions C65_merge_refuted.

(** A generated step scatters over its own input only: an input next to it that the step scatters
    over is given to the expression as a whole. *)
Theorem C65_scatter_refuted : exists st w' m i e g, demo_run [] (one_step_workflow st) = Ok (w', m) /\ In i (ws_in st) /\
  In g (wf_steps w') /\ MadeFor st i e g /\ ws_scatter st = SMany ["w.cwl#s/y"] /\ e = "${return inputs.y + 1;}" /\
  ws_scatter g = SNone /\ seen demo_val g "y" = Some (JInt 7).
Proof.
  exists (one_step [sin "w.cwl#s/x" "w.cwl#n" (Some "$(inputs.y + 1)"); sin "w.cwl#s/y" "w.cwl#n" None] (SMany ["w.cwl#s/y"]) None).
  eexists; eexists; eexists; exists "${return inputs.y + 1;}"; eexists; split; [vm_compute; reflexivity|].
  split; [cbn; left; reflexivity|]; split; [cbn; right; left; reflexivity|];
  split; [apply made_here; [vm_compute; reflexivity | cbn; auto]|]. repeat split.
Qed.
Print Assumptions C65_scatter_refuted.

(** A step with [when] and an input that has only a valueFrom cannot be refactored: the step made
    for [when] has that input too, but its tool does not. *)
Theorem C65_when_refuted : exists st, GoodIds st /\
  demo_run [] (one_step_workflow (with_when None st)) <> Err WorkflowException /\
  demo_run [] (one_step_workflow st) = Err WorkflowException.
Proof.
  exists (one_step [{| si_id := "w.cwl#s/x"; si_source := SNone; si_valueFrom := Some "$(1 + 1)"; si_linkMerge := None; si_default := JNull |};
                    sin "w.cwl#s/y" "w.cwl#n" None] SNone (Some "$(inputs.y > 2)")).
  split; [good_ids|]. split; vm_compute; [discriminate | reflexivity].
Qed.
Print Assumptions C65_when_refuted.
