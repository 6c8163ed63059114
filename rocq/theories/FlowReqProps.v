(** * Properties of the refactoring of the requirements of a workflow *)
From Verif Require Import PyBase PyBaseProofs PackModel ExprModel ExprSpec ScanProofs InterpProofs ExprProps EvalModel EvalProofs RefactorModel RefactorSpec
  RefactorProofs FlowModel FlowSpec FlowProofs FlowProofs2 FlowProps FlowValueSpec FlowValueProofs FlowValueProps FlowReqSpec FlowReqProofs FlowReqProofs2.

(** ** C66: expressions in requirements of a workflow are computed by steps of their own *)
Section Whole.
  Variable gx : json -> json -> json -> result (option string).
  Variable ev : string -> json -> result json.
  Variable src_example self_example : list wstep -> wstep -> src -> result json.
  Variable src_params : list wstep -> src -> result nat.
  Variable src_known : list wstep -> wstep -> string -> result unit.
  Variable out_known : list wstep -> src -> result unit.
  Variable load_run : string -> result (tool * bool).
  Variable attrs : list string.
  Variable replace_etool skip1 skip2 : bool.
  Notation refactored fuel w := (traverse_workflow gx ev src_example self_example src_params src_known out_known load_run attrs
                                   replace_etool skip1 skip2 fuel w).

  (** An EnvVarRequirement stays if it has no expression.  Otherwise it moves from the workflow
      to every step, with a reference in the place of each expression; the reference is to a new
      input of the step, linked to a new step that runs the expression. *)
  Theorem C66_env : forall fuel w w' m defs, refactored fuel w = Ok (w', m) -> Once IsEnv (wreqs_of w) (REnv defs) ->
    exists rs, Added w w' rs /\
      ((Forall (fun d => NotFound gx (snd d)) defs /\ In (REnv defs) (wreqs_of w') /\ Forall (fun r => ~ IsEnv r) rs) \/
       (exists defs', EnvsMoved gx (wf_steps w') 0 defs defs' /\ Exists (fun d => exists e, Found gx (snd d) e) defs /\
          In (REnv defs') rs /\ (forall r, In r rs -> IsEnv r -> r = REnv defs') /\
          Given (wf_steps w') (REnv defs') /\ Forall (fun r => ~ IsEnv r) (wreqs_of w'))).
  Proof. intros fuel w w' m defs. apply env_whole. Qed.

  (** A ResourceRequirement: the same, but of the resources only those with an expression are kept. *)
  Theorem C66_resources : Forall (fun a => has_char "#" a = false) attrs ->
    forall fuel w w' m values, refactored fuel w = Ok (w', m) -> Once IsRes (wreqs_of w) (RRes values) ->
    exists rs, Added w w' rs /\
      ((Forall (fun a => ValueNotFound gx (match dget a values with Some v => v | None => JNull end)) attrs /\
        In (RRes values) (wreqs_of w') /\ Forall (fun r => ~ IsRes r) rs) \/
       (exists values', (forall a, ResMoved gx (wf_steps w') attrs values values' a) /\
          Exists (fun a => exists e, ValueFound gx (match dget a values with Some v => v | None => JNull end) e) attrs /\
          In (RRes values') rs /\ (forall r, In r rs -> IsRes r -> r = RRes values') /\
          Given (wf_steps w') (RRes values') /\ Forall (fun r => ~ IsRes r) (wreqs_of w'))).
  Proof. intros A fuel w w' m values. apply res_whole. exact A. Qed.

  (** An InitialWorkDirRequirement with one expression *)
  Theorem C66_listing : forall fuel w w' m s, refactored fuel w = Ok (w', m) -> Once IsIwd (wreqs_of w) (RIwd (LText s)) ->
    exists rs, Added w w' rs /\
      ((NotFound gx s /\ In (RIwd (LText s)) (wreqs_of w') /\ Forall (fun r => ~ IsIwd r) rs) \/
       (ListingMoved gx (wf_steps w') s /\
        In (RIwd (LText "$(inputs._iwdr_listing)")) rs /\ (forall r, In r rs -> IsIwd r -> r = RIwd (LText "$(inputs._iwdr_listing)")) /\
        Given (wf_steps w') (RIwd (LText "$(inputs._iwdr_listing)")) /\ Forall (fun r => ~ IsIwd r) (wreqs_of w'))).
  Proof.
    intros fuel w w' m s E O. destruct (iwd_whole _ _ _ _ _ _ _ _ _ _ _ _ _ _ _ _ _ E O) as (rs & A & [H | (li & (-> & B) & C)]);
      exists rs; split; auto.
  Qed.

  (** An InitialWorkDirRequirement with a list of entries *)
  Theorem C66_entries : forall fuel w w' m l, refactored fuel w = Ok (w', m) -> Once IsIwd (wreqs_of w) (RIwd (LList l)) ->
    exists rs, Added w w' rs /\
      ((Forall (fun e => forall s, Plain e s \/ Named e s \/ Texted e s -> NotFound gx s) l /\
        In (RIwd (LList l)) (wreqs_of w') /\ Forall (fun r => ~ IsIwd r) rs) \/
       (exists l' last, EntriesMoved gx (wf_steps w') 0 last l l' /\
          Exists (fun e => exists s x, (Plain e s \/ Named e s) /\ Found gx s x) l /\
          (Forall (fun r => ~ IsEnv r) (wreqs_of w) -> last = List.length l - 1) /\
          In (RIwd (LList l')) rs /\ (forall r, In r rs -> IsIwd r -> r = RIwd (LList l')) /\
          Given (wf_steps w') (RIwd (LList l')) /\ Forall (fun r => ~ IsIwd r) (wreqs_of w'))).
  Proof.
    intros fuel w w' m l E O. destruct (iwd_whole _ _ _ _ _ _ _ _ _ _ _ _ _ _ _ _ _ E O) as (rs & A & [H | (li & (l' & last & -> & B) & C)]);
      exists rs; split; auto. right. exists l', last. destruct B as (B1 & B2 & B3). auto.
  Qed.
End Whole.
Print Assumptions C66_env.
Print Assumptions C66_resources.
Print Assumptions C66_listing.
Print Assumptions C66_entries.

(** The generated steps see no input at all. *)
Theorem C66_inputs_lost : forall name e g, MadeAlone name e g -> forall val x, seen val g x = None.
Proof. intros name e g M val x. unfold seen. destruct (ma_tool _ _ _ M) as (t & -> & ->). reflexivity. Qed.
Print Assumptions C66_inputs_lost.
(** So an expression keeps its value if it uses none. *)
Theorem C66_value_kept_partial : forall (js : string -> (string -> option json) -> json -> json) (uses : string -> string -> Prop),
  (forall e o o' self, (forall x, uses e x -> o x = o' x) -> js e o self = js e o' self) ->
  forall name e g, MadeAlone name e g -> (forall x, ~ uses e x) ->
  forall val (inputs : string -> option json), js e inputs JNull = js e (seen val g) JNull.
Proof. intros js uses J name e g M U val inputs. apply J. intros x X. elim (U x X). Qed.
Print Assumptions C66_value_kept_partial.

(** *** Cases *)
Definition req_workflow (r : list wreq) (st : list wreq) : workflow :=
  {| wf_inputs := [{| wi_id := "w.cwl#n"; wi_type := JStr "int"; wi_format := JNull; wi_secondary := [] |}];
     wf_outputs := []; wf_steps := [with_reqs (Some st) (one_step [sin "w.cwl#s/x" "w.cwl#n" None] SNone None)]; wf_reqs := Some r |}.

Definition steps_made (w : workflow) : list (string * list wreq * list (string * src)) :=
  map (fun s => (ws_id s, reqs_of s, map (fun i => (si_id i, si_source i)) (ws_in s))) (wf_steps w).

Example C66_case : exists w', demo_run ["coresMin"; "ramMin"]
    (req_workflow [REnv [("A", "a"); ("B", "$(1 + 1)")]; RRes [("coresMin", JStr "$(2 + 3)"); ("ramMin", JInt 4)]; RIwd (LText "$(3 + 4)")] []) = Ok (w', true) /\
  steps_made w' =
   [("w.cwl#s", [REnv [("A", "a"); ("B", "$(inputs._envDef1)")]; RRes [("coresMin", JStr "$(inputs._coresMin)")]; RIwd (LText "$(inputs._iwdr_listing)")],
     [("w.cwl#s/x", SOne "w.cwl#n"); ("_envDef1", SOne "_expression_workflow_EnvVarRequirement_1/result");
      ("_coresMin", SOne "_expression_workflow_ResourceRequirement_coresMin/result");
      ("_iwdr_listing", SOne "_expression_workflow_InitialWorkDirRequirement/result")]);
    ("_expression_workflow_EnvVarRequirement_1", [], []);
    ("_expression_workflow_ResourceRequirement_coresMin", [], []);
    ("_expression_workflow_InitialWorkDirRequirement", [], [])] /\
  wreqs_of w' = [] /\
  Once IsEnv (wreqs_of (req_workflow [REnv [("A", "a"); ("B", "$(1 + 1)")]; RIwd (LText "x")] [])) (REnv [("A", "a"); ("B", "$(1 + 1)")]).
Proof.
  eexists. split; [vm_compute; reflexivity|]. split; [vm_compute; reflexivity|]. split; [reflexivity|].
  exists [], [RIwd (LText "x")]. split; [reflexivity|]. split; [constructor|]. constructor; [|constructor]. cbn. auto.
Qed.
Example C66_entries_case : exists w', demo_run []
    (req_workflow [RIwd (LList [EText "$(1 + 1)"; EDirent None (Some "$(2 + 2)"); EText "c"])] []) = Ok (w', true) /\
  steps_made w' =
   [("w.cwl#s", [RIwd (LList [EText "$(inputs._iwdr_listing_0"; EText "$(inputs._iwdr_listing_1"; EText "c"])],
     [("w.cwl#s/x", SOne "w.cwl#n"); ("_iwdr_listing_2", SOne "_expression_workflow_InitialWorkDirRequirement_0/result");
      ("_iwdr_listing_2", SOne "_expression_workflow_InitialWorkDirRequirement_1/result")]);
    ("_expression_workflow_InitialWorkDirRequirement_0", [], []);
    ("_expression_workflow_InitialWorkDirRequirement_1", [], [])].
Proof. eexists. split; vm_compute; reflexivity. Qed.
Example C66_kept_case : exists w', demo_run ["coresMin"] (req_workflow [REnv [("A", "a")]; RRes [("coresMin", JInt 4)]; RIwd (LList [EText "c"])] []) = Ok (w', false) /\
  wreqs_of w' = [REnv [("A", "a")]; RRes [("coresMin", JInt 4)]; RIwd (LList [EText "c"])].
Proof. eexists. split; vm_compute; reflexivity. Qed.

(** *** What does not hold *)

(** [inputs] in a requirement of the workflow: some expression found there has another value. *)
Theorem C66_inputs_refuted : exists w' e g, demo_run [] (req_workflow [REnv [("A", "$(inputs.x + 1)")]] []) = Ok (w', true) /\
  In g (wf_steps w') /\ MadeAlone "_expression_workflow_EnvVarRequirement_0" e g /\ e = "${return inputs.x + 1;}" /\
  object demo_val [sin "w.cwl#s/x" "w.cwl#n" None] "x" = Some (JInt 7) /\ seen demo_val g "x" = None.
Proof.
  eexists; exists "${return inputs.x + 1;}"; eexists. split; [vm_compute; reflexivity|].
  split; [cbn; right; left; reflexivity|]. split.
  - split; try reflexivity; [|eexists; split; reflexivity]. eexists. split; [reflexivity|]. left. split; reflexivity.
  - repeat split; reflexivity.
Qed.
Print Assumptions C66_inputs_refuted.

(** A resource that is a number is lost if another one has an expression. *)
Theorem C66_resources_refuted : forall js_attrs, js_attrs = ["coresMin"; "ramMin"] ->
  exists w', demo_run js_attrs (req_workflow [RRes [("coresMin", JStr "$(2 + 3)"); ("ramMin", JInt 4)]] []) = Ok (w', true) /\
  wreqs_of w' = [] /\ exists st, In st (wf_steps w') /\ Own st /\ reqs_of st = [RRes [("coresMin", JStr "$(inputs._coresMin)")]].
Proof.
  intros a ->. eexists. split; [vm_compute; reflexivity|]. split; [reflexivity|]. eexists. split; [left; reflexivity|].
  split; [|reflexivity]. intros n F (r & S). subst n. apply after_hash_Fragment in F. discriminate.
Qed.
Print Assumptions C66_resources_refuted.

(** A step that has such a requirement itself is given a second one. *)
Theorem C66_twice_refuted : exists w', demo_run [] (req_workflow [REnv [("A", "$(1 + 1)")]] [REnv [("A", "own")]]) = Ok (w', true) /\
  exists st, In st (wf_steps w') /\ reqs_of st = [REnv [("A", "own")]; REnv [("A", "$(inputs._envDef0)")]].
Proof. eexists. split; [vm_compute; reflexivity|]. eexists. split; [left; reflexivity|reflexivity]. Qed.
Print Assumptions C66_twice_refuted.

(** The reference to an entry of a listing is never closed. *)
Theorem C66_reference_refuted : forall gx steps k last l l', EntriesMoved gx steps k last l l' ->
  forall e', In e' l' -> In e' l \/ exists s, e' = EText s /\ startswith "$(" s = true /\ contains ")" s = false.
Proof.
  intros gx steps k last l l' M. induction M as [|k last d d' l l' H M IH]; intros e' I; [destruct I|].
  destruct I as [<- | I]; [|destruct (IH e' I); auto; left; right; auto].
  destruct H as [e N | e s x g P F G A L]; [left; left; reflexivity|]. right. eexists. split; [reflexivity|]. split; [reflexivity|].
  assert (U : forall u, contains ")" (DecimalString.NilEmpty.string_of_uint u) = false) by (induction u; auto).
  cbn [append]. cbn. unfold str_nat, DecimalString.NilZero.string_of_uint. destruct (Nat.to_uint k); try reflexivity; apply (U (_ _)).
Qed.
Print Assumptions C66_reference_refuted.

(** ** The text of an entry *)
Section Entry.
  Variable js : unit -> string -> string -> unit * result json.
  Variable dumps dumps4 : json -> string.
  Variable loads : string -> string.
  Hypothesis LIB : json_library_ok dumps loads.
  Notation gexpr := (get_expression js dumps dumps4 loads).

  Lemma starts_items s its : Items true (String "$" (String "{" s)) its -> its = [Lit ""; Unclosed] \/ exists r t, its = Lit "" :: Ref (String "{" r) :: t.
  Proof.
    intros I. remember (String "$" (String "{" s)) as u eqn:U.
    assert (P : forall p x, NoStart p -> (p ++ x)%string = String "$" (String "{" s) -> p = "" \/ (p = "$" /\ x = String "{" s)).
    { intros [|c [|d p]] x N E; cbn in E; auto.
      - injection E as -> ->. auto.
      - injection E as -> -> _. destruct N as (_ & _ & N). destruct p; discriminate N. }
    destruct I as [z N | p c z its N C I | p o z its E N O I | p r z its N R I | p o c z N B C].
    - destruct N as [N | (p & N & E)].
      + subst z. destruct N as (_ & _ & N). destruct s; discriminate N.
      + rewrite E in U. destruct (P _ _ N U) as [-> | (-> & X)]; discriminate.
    - destruct (P _ _ N U) as [-> | (-> & X)]; discriminate.
    - destruct (P _ _ N U) as [-> | (-> & X)]; discriminate.
    - right. destruct (P _ _ N U) as [-> | (-> & X)]; [|discriminate]. cbn in U. injection U as U.
      destruct r as [|c r]; [inversion R|]. cbn in U. injection U as -> U. eauto.
    - left. destruct (P _ _ N U) as [-> | (-> & X)]; [|discriminate]. reflexivity.
  Qed.

  Lemma strip_parts s : exists a b, s = (a ++ strip s ++ b)%string.
  Proof.
    assert (L : forall t, exists a, t = (a ++ lstrip t)%string).
    { induction t as [|c t (a & IH)]; [exists ""; reflexivity|]. cbn [lstrip]. destruct (is_space c); [|exists ""; reflexivity].
      exists (String c a). cbn. rewrite <- IH. reflexivity. }
    assert (R : forall t, exists b, t = (rstrip t ++ b)%string).
    { intros t. destruct (L (srev t)) as (a & E). exists (srev a). unfold rstrip. rewrite <- srev_app_distr, <- E, srev_involutive. reflexivity. }
    unfold strip. destruct (L s) as (a & E). destruct (R (lstrip s)) as (b & F). exists a, b. rewrite <- F. exact E.
  Qed.
  Lemma strip_contains s : startswith "${" (strip s) = true -> contains "$(" s || contains "${" s = true.
  Proof.
    intros H. apply startswith_spec in H. destruct H as (r & H). apply orb_true_iff. right.
    destruct (strip_parts s) as (a & b & E). rewrite H in E. apply contains_spec. exists a, (r ++ b)%string. rewrite E, <- ?append_assoc. reflexivity.
  Qed.

  Lemma code_not_evaluated s inputs self : startswith "${" (strip s) = true -> plain_eval js dumps dumps4 loads s inputs self = Err WorkflowException.
  Proof.
    intros H. destruct (plain_eval js dumps dumps4 loads s inputs self) as [v|x] eqn:E.
    2:{ f_equal. eapply peval_failures; eauto. }
    exfalso. unfold plain_eval in E. destruct (Items_total true (strip s)) as [its I].
    rewrite (do_eval_meaning js dumps dumps4 loads LIB tt s inputs [] (Some "") (Some "") [] self true "" false "" true its (strip_contains s H) eq_refl eq_refl I) in E.
    apply startswith_spec in H. destruct H as (r & H). rewrite H in I.
    destruct (starts_items _ _ I) as [-> | (t & u & ->)].
    - cbn in E. discriminate.
    - match type of E with context [items_value ?ev ?txt _ _ _] =>
        destruct (items_value_cases ev txt true tt (Lit "" :: Ref (String "{" t) :: u)) as [(b & X & Y) | (_ & Y)] end; rewrite Y in E.
      + injection X as <- _. cbn in E. discriminate.
      + cbn in E. discriminate.
  Qed.

  (** When an expression is found in the text of an entry, evaluating the text (line 897) fails:
      nothing after it is reached. *)
  Theorem C66_entry_evaluation : forall s inputs self e, gexpr (JStr s) inputs self = Ok (Some e) ->
    plain_eval js dumps dumps4 loads s inputs self = Err WorkflowException.
  Proof.
    intros s inputs self e. cbn [get_expression]. destruct (startswith "${" (strip s)) eqn:S; [intros _; apply code_not_evaluated; exact S|].
    destruct (contains "$(" s); [|discriminate].
    destruct (plain_eval js dumps dumps4 loads s inputs self) as [v|x] eqn:E; [discriminate|]. intros _. f_equal. eapply peval_failures; eauto.
  Qed.

  (** So no workflow with such an entry can be refactored. *)
  Theorem C66_entry_refused : forall ev src_example self_example src_params src_known out_known load_run attrs replace_etool skip1 skip2 fuel w l s n,
    Once IsIwd (wreqs_of w) (RIwd (LList l)) -> In (EDirent (Some s) n) l -> startswith "${" (strip s) = true ->
    forall r, traverse_workflow gexpr ev src_example self_example src_params src_known out_known load_run attrs replace_etool skip1 skip2 fuel w <> Ok r.
  Proof.
    intros ev se sf sp sk ok lr at_ re s1 s2 fuel w l s n O I S (w', m) E.
    destruct (C66_entries _ _ _ _ _ _ _ _ _ _ _ _ _ _ _ _ _ E O) as (rs & _ & H).
    assert (N : ~ NotFound gexpr s).
    { intros [-> | (i & f & r & X & Y)]; [discriminate S|]. cbn [get_expression] in X. rewrite S in X. injection X as <-.
      destruct Y as [Y | Y]; [discriminate|]. injection Y as ->. discriminate S. }
    assert (Ne : s <> "") by (intros ->; discriminate S).
    assert (Tx : Texted (EDirent (Some s) n) s) by (exists n; auto).
    destruct H as [(F & _) | (l' & last & M & _)].
    - rewrite Forall_forall in F. apply N. apply (F _ I). auto.
    - clear - M I N Ne Tx. induction M as [|k last d d' l l' H M IH]; [destruct I|].
      destruct I as [-> | I]; [|auto]. inversion H as [e K | e t x g P]; subst.
      + apply N. apply K. auto.
      + destruct P as [P | (t0 & P & _ & [-> | ->])]; try discriminate. injection P as P _. congruence.
  Qed.
End Entry.
Print Assumptions C66_entry_evaluation.
Print Assumptions C66_entry_refused.
Example C66_entry_case : startswith "${" (strip " ${return 1;}") = true /\
  Once IsIwd (wreqs_of (req_workflow [RIwd (LList [EDirent (Some " ${return 1;}") (Some "a")])] [])) (RIwd (LList [EDirent (Some " ${return 1;}") (Some "a")])) /\
  demo_run [] (req_workflow [RIwd (LList [EDirent (Some " ${return 1;}") (Some "a")])] []) = Err WorkflowException /\
  demo_run [] (req_workflow [RIwd (LList [EDirent (Some "$(1 + 1)") (Some "a")])] []) = Err WorkflowException.
Proof.
  split; [reflexivity|]. split; [exists [], []; auto|]. split; vm_compute; reflexivity.
Qed.
