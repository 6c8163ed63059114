(** * Properties C13-C17, C48, C49: type compatibility, links and source names *)
From Verif Require Import PyBase PyBaseProofs TypeModel TypeSpec TypeProofs LinkProofs NameProofs TypeProofs2.

Definition t_int := TName "int".
Definition t_string := TName "string".
Definition t_null := TName "null".

Ltac solve_wf :=
  repeat first [apply Forall_nil | apply Forall_cons | split]; cbn; intros; auto; try discriminate.

(** ** C13 *)
Theorem C13_assignment_decides_the_relation : forall src sink strict,
  exists b, can_assign_src_to_sink src sink strict = Ok b /\ (b = true <-> Assignable strict src sink).
Proof. exact can_assign_decides. Qed.
Print Assumptions C13_assignment_decides_the_relation.
Example C13_case :
  can_assign_src_to_sink (TRecord (Some [("r#a", t_int); ("r#z", t_int)]))
     (TRecord (Some [("q#a", TUnion [t_null; t_int]); ("q#b", TUnion [t_null; t_string])])) true = Ok true /\
  can_assign_src_to_sink (TArray (TUnion [t_null; t_int])) (TArray t_int) true = Ok false /\
  can_assign_src_to_sink (TArray (TUnion [t_null; t_int])) (TArray t_int) false = Ok true.
Proof. repeat split; vm_compute; reflexivity. Qed.

Theorem C13_types_connect_to_themselves : forall t strict, Sensible t ->
  can_assign_src_to_sink t t strict = Ok true.
Proof.
  intros t strict S. destruct (can_assign_decides t t strict) as (b & -> & B).
  f_equal. apply B. apply Sensible_refl. auto.
Qed.
Print Assumptions C13_types_connect_to_themselves.
Example C13_self_case : Sensible (TArray (TUnion [t_null; TArray t_int])).
Proof.
  apply Se_array, Se_union.
  - intros t [<-|[<-|[]]]; repeat constructor.
  - intros t [<-|[<-|[]]] [l E]; discriminate.
  - exists (TArray t_int). split; [cbn; auto|discriminate].
Qed.

(** Refuted: a strictly accepted link can deliver a value the sink does not take, because
    strictness is dropped below a union. *)
Theorem C13_strict_is_sound_refuted : exists name_values enum_values src sink v,
  (forall v, name_values "null" v <-> v = JNull) /\
  can_assign_src_to_sink src sink true = Ok true /\
  Produces name_values enum_values src v /\ ~ Accepts name_values enum_values sink v.
Proof.
  exists (fun s v => (s = "null" /\ v = JNull) \/ (s = "int" /\ exists n, v = JInt n) \/ (s = "string" /\ exists x, v = JStr x)),
    (fun _ _ _ _ _ => False), (TArray (TUnion [t_int; t_string])), (TUnion [TArray t_int; t_string]), (JList [JStr "x"]).
  split. { intros v. split; [intros [[_ ->]|[[E _]|[E _]]]; [reflexivity|discriminate|discriminate]|auto]. }
  split; [vm_compute; reflexivity|]. split.
  - constructor. constructor; [|constructor]. apply Pro_union with t_string; [cbn; auto|].
    constructor; [discriminate|]. right. right. eauto.
  - intros H. inversion H as [| | |l t v I A| |]; subst. destruct I as [<-|[<-|[]]].
    + inversion A as [| | | |t l F|]; subst. apply Forall_inv in F.
      inversion F as [|s v N| | | |]; subst.
      destruct N as [[E _]|[[_ [n E]]|[E _]]]; discriminate.
    + inversion A as [|s v N| | | |]; subst. destruct N as [[E _]|[[E _]|[_ [x E]]]]; discriminate.
Qed.
Print Assumptions C13_strict_is_sound_refuted.

(** Partial: sound when the unions of the source only face the strict comparison. *)
Theorem C13_strict_is_sound_partial : forall name_values enum_values,
  (forall v, name_values "null" v <-> v = JNull) -> forall src sink v,
  can_assign_src_to_sink src sink true = Ok true -> Aligned src sink ->
  Produces name_values enum_values src v -> Accepts name_values enum_values sink v.
Proof.
  intros nv ev NV src sink v C AL P. destruct (can_assign_decides src sink true) as (b & E & B).
  rewrite C in E. injection E as <-. eapply strict_sound; eauto. apply B. reflexivity.
Qed.
Print Assumptions C13_strict_is_sound_partial.
Example C13_sound_case : exists src sink, Aligned src sink /\ can_assign_src_to_sink src sink true = Ok true /\
  src = TArray (TUnion [t_int; t_string]) /\ sink = TArray (TUnion [t_null; t_string; t_int]).
Proof.
  exists (TArray (TUnion [t_int; t_string])), (TArray (TUnion [t_null; t_string; t_int])).
  split; [|split; [vm_compute; reflexivity|auto]].
  apply Al_array, Al_union. intros t [<-|[<-|[]]]; constructor; discriminate.
Qed.

(** Refuted: equal enums never connect when the ports are of different kinds, be it a step
    output and a tool input or a workflow input and a tool input. *)
Theorem C13_enum_between_ports_refuted : forall name symbols rest strict source,
  In source ["CommandOutputEnumSchema"; "InputEnumSchema"] ->
  can_assign_src_to_sink (TEnum source name symbols rest)
    (TEnum "CommandInputEnumSchema" name symbols rest) strict = Ok false.
Proof. intros name symbols rest strict source [<-|[<-|[]]]; reflexivity. Qed.
Print Assumptions C13_enum_between_ports_refuted.

(** ** C14 *)
Theorem C14_verdicts : forall srctype sinktype linkMerge,
  linkMerge = None \/ linkMerge = Some "merge_nested" \/ linkMerge = Some "merge_flattened" ->
  exists t v, Merged linkMerge srctype t /\ check_types srctype sinktype linkMerge None = Ok v /\
    (v = Pass <-> Assignable true t sinktype) /\
    (v = Warning <-> ~ Assignable true t sinktype /\ Assignable false t sinktype) /\
    (v = Exception_ <-> ~ Assignable true t sinktype /\ ~ Assignable false t sinktype).
Proof.
  intros t u m M. destruct (check_types_merge m t u M) as (t' & H & ->).
  destruct (check_plain_spec t' u) as (v & E & R). exists t', v. auto.
Qed.
Print Assumptions C14_verdicts.
Theorem C14_value_from_passes : forall srctype sinktype linkMerge e,
  check_types srctype sinktype linkMerge (Some e) = Ok Pass.
Proof. reflexivity. Qed.
Print Assumptions C14_value_from_passes.
Theorem C14_unknown_merge_rejected : forall srctype sinktype m,
  m <> "merge_nested" -> m <> "merge_flattened" ->
  check_types srctype sinktype (Some m) None = Err ValidationException.
Proof. intros. apply check_types_invalid; auto. Qed.
Print Assumptions C14_unknown_merge_rejected.
Theorem C14_merge_is_determined : forall m t a b, Merged m t a -> Merged m t b -> a = b.
Proof. exact Merged_fun. Qed.
Print Assumptions C14_merge_is_determined.
Example C14_case :
  check_types t_int (TArray t_int) (Some "merge_nested") None = Ok Pass /\
  check_types (TArray t_int) (TArray t_int) (Some "merge_nested") None = Ok Exception_ /\
  check_types (TUnion [TArray t_int; t_null]) (TArray t_int) (Some "merge_flattened") None = Ok Warning /\
  check_types t_int t_string (Some "concat") None = Err ValidationException.
Proof. repeat split; vm_compute; reflexivity. Qed.

(** ** C15 *)
(** v1.0 and v1.1 *)
Theorem C15_links_reported_v1_0_v1_1 : forall v src_ids steps types sinks, v <> V12 ->
  links_wf v src_ids types sinks ->
  exists ck ws es, check_all_types v src_ids steps types sinks = Ok ck /\
    ck_warnings ck = List.concat ws /\ ck_exceptions ck = List.concat es /\
    Forall2 (fun sk w => exists kept, Kept (PossiblyCompatible v steps types sk) (links sk) kept /\
               w = map (entry_for v sk) kept) sinks ws /\
    Forall2 (fun sk e => exists kept, Kept (Incompatible v steps types sk) (links sk) kept /\
               e = map (entry_for v sk) kept) sinks es.
Proof.
  intros v src_ids steps types sinks NV WF.
  destruct (check_all_kept v src_ids steps types sinks WF) as (ck & ws & es & E & W & X & FW & FE); [congruence|].
  exists ck, ws, es. repeat split; auto.
  clear - NV FW. induction FW as [|sk w sinks ws (kept & K & ->) FW IH]; constructor; auto.
  exists kept. split; auto. destruct v; [reflexivity|reflexivity|congruence].
Qed.
Print Assumptions C15_links_reported_v1_0_v1_1.

(** v1.2, partial: sources whose step collects a loop feed at most one link, and the links
    from a source whose step is conditional all expect null from it, or none does.  Missing:
    other shared sources of that kind, for which it is refuted below. *)
Theorem C15_links_reported_v1_2_partial : forall src_ids steps types sinks,
  links_wf V12 src_ids types sinks -> special_once steps sinks ->
  exists ck ws es, check_all_types V12 src_ids steps types sinks = Ok ck /\
    ck_warnings ck = List.concat ws /\ ck_exceptions ck = List.concat es /\
    Forall2 (fun sk w => exists kept, Kept (PossiblyCompatible V12 steps types sk) (links sk) kept /\
               w = notes V12 steps types sk ++ map (entry_for V12 sk) kept) sinks ws /\
    Forall2 (fun sk e => exists kept, Kept (Incompatible V12 steps types sk) (links sk) kept /\
               e = map (entry_for V12 sk) kept) sinks es.
Proof. intros src_ids steps types sinks WF SO. apply check_all_kept; auto. Qed.
Print Assumptions C15_links_reported_v1_2_partial.

Definition mk_sink id src := {| sk_id := id; sk_source := src; sk_linkMerge := None; sk_pickValue := None;
                                sk_valueFrom := None; sk_default := JNull |}.
Definition mk_step id ins outs run_in run_out := {| st_id := id; st_in := ins; st_out := outs; st_scatter := NoSource;
  st_scatterMethod := None; st_when := false; st_loop_all := false; run_inputs := run_in; run_outputs := run_out |}.
Definition collecting (s : step) := {| st_id := st_id s; st_in := st_in s; st_out := st_out s; st_scatter := st_scatter s;
  st_scatterMethod := st_scatterMethod s; st_when := st_when s; st_loop_all := true;
  run_inputs := run_inputs s; run_outputs := run_outputs s |}.
Definition conditional (s : step) := {| st_id := st_id s; st_in := st_in s; st_out := st_out s; st_scatter := st_scatter s;
  st_scatterMethod := st_scatterMethod s; st_when := true; st_loop_all := st_loop_all s;
  run_inputs := run_inputs s; run_outputs := run_outputs s |}.

Definition demo_types := [("w#s/o", t_int); ("w#i", t_string); ("w#s/x", TArray t_int); ("w#out", TArray t_int); ("w#out2", t_string)].
Definition demo_steps := [("w#s/o", collecting (mk_step "w#s" [] ["w#s/o"] [] []))].

(** Refuted: the output of a collecting loop step used twice is wrapped in an array twice. *)
Theorem C15_shared_loop_source_refuted : exists src_ids steps types sinks ck e,
  links_wf V12 src_ids types sinks /\
  check_all_types V12 src_ids steps types sinks = Ok ck /\ In e (ck_exceptions ck) /\
  forall sk src, In sk sinks -> In src (links sk) -> LinkFits true V12 steps types sk src.
Proof.
  exists ["w#s/o"], demo_steps, demo_types, [mk_sink "w#s/x" (OneSource "w#s/o"); mk_sink "w#out" (OneSource "w#s/o")].
  eexists. eexists. split.
  { solve_wf. }
  split; [vm_compute; reflexivity|]. split; [cbn; left; reflexivity|].
  intros sk src [<-|[<-|[]]] [<-|[]]; right; exists t_int, (TArray t_int), (TArray t_int), (TArray t_int);
    (split; [reflexivity|]; split; [eapply (ST_v12 V12 demo_steps _ "w#s/o" t_int t_int); reflexivity|];
     split; [constructor|]; split; [reflexivity|]; apply A_array, A_same; left; eexists; reflexivity).
Qed.
Print Assumptions C15_shared_loop_source_refuted.

(** Refuted: once one link from a conditional step expects null, a later link that picks
    the first value that is not null is reported too, although an earlier one is not. *)
Definition cond_types := [("w#s/o", t_int); ("w#i", t_int); ("w#a", TUnion [t_null; t_int]); ("w#b", t_int)].
Definition cond_steps := [("w#s/o", conditional (mk_step "w#s" [] ["w#s/o"] [] []))].
Definition picking id src := {| sk_id := id; sk_source := src; sk_linkMerge := None; sk_pickValue := Some "first_non_null";
                                sk_valueFrom := None; sk_default := JNull |}.
Theorem C15_shared_conditional_source_refuted : exists src_ids steps types a b ck ck',
  links_wf V12 src_ids types [a; b] /\
  (forall sk src, In sk [a; b] -> In src (links sk) -> LinkFits true V12 steps types sk src) /\
  check_all_types V12 src_ids steps types [a; b] = Ok ck /\ ck_warnings ck <> [] /\
  check_all_types V12 src_ids steps types [b; a] = Ok ck' /\ ck_warnings ck' = [].
Proof.
  exists ["w#s/o"; "w#i"], cond_steps, cond_types, (mk_sink "w#a" (OneSource "w#s/o")), (picking "w#b" (Sources ["w#s/o"; "w#i"])).
  eexists. eexists. split; [solve_wf|]. split.
  { assert (I : forall s b, Assignable b (TName s) (TName s)) by (intros s b; apply A_same; left; eexists; reflexivity).
    intros sk src [<-|[<-|[]]].
    - intros [<-|[]]. right. exists t_int, (TUnion [t_null; t_int]), (TUnion [t_null; t_int]), (TUnion [t_null; t_int]).
      split; [reflexivity|]. split.
      { apply (ST_v12 V12 cond_steps _ "w#s/o" t_int (TUnion [t_null; t_int])); [reflexivity|]. apply WN_other; [intros (l & Q); discriminate Q|discriminate]. }
      split; [constructor|]. split; [reflexivity|]. destruct (can_assign_decides (TUnion [t_null; t_int]) (TUnion [t_null; t_int]) true) as (b & E & B).
      apply B. vm_compute in E. congruence.
    - intros [<-|[<-|[]]]; right; exists t_int, t_int, t_int, t_int; (split; [reflexivity|]);
        (split; [match goal with |- SourceType _ _ _ ?x _ _ => apply (ST_v12 V12 cond_steps _ x t_int t_int); reflexivity end|]);
        (split; [constructor|]); (split; [reflexivity|]); apply I. }
  split; [vm_compute; reflexivity|]. split; [cbn; discriminate|]. split; vm_compute; reflexivity.
Qed.
Print Assumptions C15_shared_conditional_source_refuted.


Example C15_case : exists ck,
  check_all_types V12 ["w#s/o"; "w#i"] demo_steps demo_types
    [mk_sink "w#out" (OneSource "w#s/o"); mk_sink "w#out2" (OneSource "w#i"); mk_sink "w#s/x" (OneSource "w#i")] = Ok ck
  /\ links_wf V12 ["w#s/o"; "w#i"] demo_types
    [mk_sink "w#out" (OneSource "w#s/o"); mk_sink "w#out2" (OneSource "w#i"); mk_sink "w#s/x" (OneSource "w#i")]
  /\ special_once demo_steps
    [mk_sink "w#out" (OneSource "w#s/o"); mk_sink "w#out2" (OneSource "w#i"); mk_sink "w#s/x" (OneSource "w#i")]
  /\ map e_src (ck_exceptions ck) = ["w#i"] /\ ck_warnings ck = [].
Proof.
  eexists. split; [vm_compute; reflexivity|]. split; [solve_wf|].
  split; [|split; reflexivity]. apply special_once_test_true. vm_compute. reflexivity.
Qed.

(** ** C16 *)
Definition demo_wf version step_in_type source := {|
  wf_version := version;
  wf_inputs := [{| p_id := "w#i"; p_type := t_int |}; {| p_id := "w#n"; p_type := TUnion [t_null; t_int] |}];
  wf_outputs := [(mk_sink "w#out" (Sources ["w#s/o"; "w#i"]), TArray (TUnion [t_int; t_string]))];
  wf_steps := [mk_step "w#s" [mk_sink "w#s/x" source] ["w#s/o"]
                 [{| p_id := "w#s/x"; p_type := step_in_type |}] [{| p_id := "w#s/o"; p_type := t_string |}]] |}.

(** v1.0 and v1.1 *)
Theorem C16_incompatible_links_rejected_v1_0_v1_1 : forall wf v types,
  (wf_version wf = "v1.0" /\ v = V10) \/ (wf_version wf = "v1.1" /\ v = V11) ->
  linked v wf -> all_types wf = Ok types ->
  (static_checker wf = Err ValidationException <->
     exists sk src, In sk (sinks_of wf) /\ In src (links sk) /\ Incompatible v (step_of_params wf) types sk src) /\
  (static_checker wf = Ok tt \/ static_checker wf = Err ValidationException).
Proof.
  intros wf v types V L A. assert (K : known_version (wf_version wf) = Some v) by (destruct V as [[-> ->]|[-> ->]]; reflexivity).
  apply static_checker_spec; auto.
  - apply linked_wf; auto.
  - intros ->. destruct V as [[_ E]|[_ E]]; discriminate.
Qed.
Print Assumptions C16_incompatible_links_rejected_v1_0_v1_1.

(** v1.2, partial: with the restriction of C15. *)
Theorem C16_incompatible_links_rejected_v1_2_partial : forall wf types,
  wf_version wf = "v1.2" -> linked V12 wf -> all_types wf = Ok types ->
  special_once (step_of_params wf) (sinks_of wf) ->
  (static_checker wf = Err ValidationException <->
     exists sk src, In sk (sinks_of wf) /\ In src (links sk) /\ Incompatible V12 (step_of_params wf) types sk src) /\
  (static_checker wf = Ok tt \/ static_checker wf = Err ValidationException).
Proof.
  intros wf types V L A SO. apply static_checker_spec; auto.
  - rewrite V. reflexivity.
  - apply linked_wf; auto.
Qed.
Print Assumptions C16_incompatible_links_rejected_v1_2_partial.
Example C16_case :
  static_checker (demo_wf "v1.2" t_int (OneSource "w#i")) = Ok tt /\
  static_checker (demo_wf "v1.1" t_string (OneSource "w#i")) = Err ValidationException /\
  static_checker (demo_wf "v1.0" t_int (OneSource "w#n")) = Ok tt /\
  linked V12 (demo_wf "v1.2" t_int (OneSource "w#i")) /\
  linked V11 (demo_wf "v1.1" t_string (OneSource "w#i")) /\
  special_once (step_of_params (demo_wf "v1.2" t_int (OneSource "w#i"))) (sinks_of (demo_wf "v1.2" t_int (OneSource "w#i"))) /\
  is_ok (all_types (demo_wf "v1.1" t_string (OneSource "w#i"))) = true.
Proof.
  split; [vm_compute; reflexivity|]. split; [vm_compute; reflexivity|]. split; [vm_compute; reflexivity|].
  split; [solve_wf|].
  split; [solve_wf|].
  split; [|vm_compute; reflexivity]. apply special_once_test_true. vm_compute. reflexivity.
Qed.

(** a conditional step with an input, whose output feeds two links *)
Definition cond_wf := {|
  wf_version := "v1.2"; wf_inputs := [{| p_id := "w#i"; p_type := t_int |}];
  wf_outputs := [(mk_sink "w#a" (OneSource "w#s/o"), t_string); (mk_sink "w#b" (OneSource "w#s/o"), t_int)];
  wf_steps := [conditional (mk_step "w#s" [mk_sink "w#s/x" (OneSource "w#i")] ["w#s/o"]
                 [{| p_id := "w#s/x"; p_type := t_int |}] [{| p_id := "w#s/o"; p_type := t_string |}])] |}.
Example C16_conditional_case :
  static_checker cond_wf = Err ValidationException /\ linked V12 cond_wf /\ is_ok (all_types cond_wf) = true /\
  special_once (step_of_params cond_wf) (sinks_of cond_wf).
Proof.
  split; [vm_compute; reflexivity|]. split; [solve_wf|]. split; [vm_compute; reflexivity|].
  apply special_once_test_true. vm_compute. reflexivity.
Qed.

(** The types exist unless a step names an output its process does not have; that is
    rejected in every supported version. *)
Theorem C16_unknown_step_output_rejected : forall wf,
  In (wf_version wf) ["v1.0"; "v1.1"; "v1.2"] ->
  ((exists st o, In st (wf_steps wf) /\ In o (st_out st) /\
      Forall (fun p => ~ exists n, PortName o n /\ PortName (p_id p) n) (run_outputs st)) ->
   static_checker wf = Err ValidationException) /\
  ((forall st o, In st (wf_steps wf) -> In o (st_out st) ->
      exists p n, In p (run_outputs st) /\ PortName o n /\ PortName (p_id p) n) ->
   exists types, all_types wf = Ok types).
Proof.
  intros wf V. split.
  - intros (st & o & I & J & U).
    destruct (all_types_cases wf) as [(types & _ & N)|[E _]]; [exfalso; eapply N; eauto|].
    unfold static_checker, static_checker_report.
    destruct V as [<-|[<-|[<-|[]]]]; cbn [known_version String.eqb Ascii.eqb Bool.eqb]; cbn; rewrite E; reflexivity.
  - intros H. destruct (all_types_cases wf) as [(types & E & N)|[E (st & o & I & J & U)]]; eauto.
    destruct (H st o I J) as (p & n & IP & P1 & P2). unfold unmatched in U. rewrite Forall_forall in U.
    exfalso. apply (U p IP). eauto.
Qed.
Print Assumptions C16_unknown_step_output_rejected.

(** Refuted: a required step input that gets no value does not make the workflow invalid
    by itself, although a message about it is prepared. *)
Theorem C16_unfed_required_input_refuted : exists wf r,
  static_checker wf = Ok tt /\ static_checker_report wf = Ok r /\ r_unfed r = ["w#s/x"] /\
  In (mk_sink "w#s/x" NoSource) (sinks_of wf) /\ wf_version wf = "v1.2" /\
  exists st p, In st (wf_steps wf) /\ In p (run_inputs st) /\ p_id p = "w#s/x" /\ p_type p = t_int.
Proof.
  exists (demo_wf "v1.2" t_int NoSource). eexists. split; [vm_compute; reflexivity|].
  split; [vm_compute; reflexivity|]. split; [reflexivity|]. split; [cbn; auto|]. split; [reflexivity|].
  eexists. eexists. split; [left; reflexivity|]. split; [left; reflexivity|]. split; reflexivity.
Qed.
Print Assumptions C16_unfed_required_input_refuted.

(** Refuted: the inputs of a tool in a file of its own are not checked: the workflow below
    feeds an integer to the string input x of tool.cwl. *)
Definition external_wf := {|
  wf_version := "v1.2"; wf_inputs := [{| p_id := "file:///w.cwl#i"; p_type := t_int |}]; wf_outputs := [];
  wf_steps := [mk_step "file:///w.cwl#s" [mk_sink "file:///w.cwl#s/x" (OneSource "file:///w.cwl#i")] []
                 [{| p_id := "file:///tool.cwl#x"; p_type := t_string |}] []] |}.
Theorem C16_external_tool_refuted : exists wf st sk p src,
  static_checker wf = Ok tt /\ In st (wf_steps wf) /\ In sk (st_in st) /\ In p (run_inputs st) /\
  (exists n, PortName (sk_id sk) n /\ PortName (p_id p) n) /\
  In src (wf_inputs wf) /\ sk_source sk = OneSource (p_id src) /\ sk_valueFrom sk = None /\
  ~ Assignable false (p_type src) (p_type p).
Proof.
  exists external_wf, (mk_step "file:///w.cwl#s" [mk_sink "file:///w.cwl#s/x" (OneSource "file:///w.cwl#i")] []
                 [{| p_id := "file:///tool.cwl#x"; p_type := t_string |}] []),
    (mk_sink "file:///w.cwl#s/x" (OneSource "file:///w.cwl#i")), {| p_id := "file:///tool.cwl#x"; p_type := t_string |},
    {| p_id := "file:///w.cwl#i"; p_type := t_int |}.
  split; [vm_compute; reflexivity|]. split; [cbn; auto|]. split; [cbn; auto|]. split; [cbn; auto|].
  split. { exists "x". rewrite !PortName_spec. split; reflexivity. }
  split; [cbn; auto|]. split; [reflexivity|]. split; [reflexivity|].
  cbn [p_type]. destruct (can_assign_decides t_int t_string false) as (b & E & B).
  rewrite <- B. vm_compute in E. congruence.
Qed.
Print Assumptions C16_external_tool_refuted.

(** Refuted: an unknown source inside a list is not reported as a validation error. *)
Theorem C16_unknown_source_in_list_refuted : exists wf wf',
  static_checker wf = Err KeyError /\ static_checker wf' = Err ValidationException /\
  wf = demo_wf "v1.2" t_int (Sources ["w#i"; "w#typo"]) /\ wf' = demo_wf "v1.2" t_int (OneSource "w#typo").
Proof. eexists. eexists. repeat split; vm_compute; reflexivity. Qed.
Print Assumptions C16_unknown_source_in_list_refuted.

(** Refuted: an empty v1.2 source list ends in an internal error. *)
Theorem C16_empty_source_list_refuted : exists wf, wf = demo_wf "v1.2" t_int (Sources []) /\
  static_checker wf = Err IndexError.
Proof. eexists. split; [reflexivity|]. vm_compute. reflexivity. Qed.
Print Assumptions C16_empty_source_list_refuted.

(** ** C17 *)
Theorem C17_step_output_nesting : forall st o n p, PortName o n ->
  First (fun p => PortName (p_id p) n) (run_outputs st) p ->
  exists t, type_for_step_output st o = Ok t /\
    ArrayNesting (scatter_levels (st_scatter st) (st_scatterMethod st)) (p_type p) t.
Proof.
  intros st o n p N F. apply PortName_spec in N. subst n. unfold type_for_step_output.
  assert (E : find (fun p => String.eqb (port_name (p_id p)) (port_name o)) (run_outputs st) = Some p).
  { apply find_First. destruct F as (pre & post & -> & P & F). exists pre, post. split; auto.
    apply PortName_spec in P. split; [apply String.eqb_eq; auto|].
    eapply Forall_impl; [|exact F]. cbn. intros q NQ E. apply NQ, PortName_spec. apply String.eqb_eq in E. auto. }
  rewrite E. destruct (st_scatter st) eqn:S.
  - exists (p_type p). split; auto. constructor.
  - eexists. split; [reflexivity|]. apply (scattered_spec (OneSource s)). discriminate.
  - eexists. split; [reflexivity|]. apply (scattered_spec (Sources l)). discriminate.
Qed.
Print Assumptions C17_step_output_nesting.
Theorem C17_nesting_is_determined : forall n t a b, ArrayNesting n t a -> ArrayNesting n t b -> a = b.
Proof. intros n t a b A B. apply nest_spec in A, B. congruence. Qed.
Print Assumptions C17_nesting_is_determined.
Theorem C17_unknown_step_output : forall st o,
  (forall n p, PortName o n -> In p (run_outputs st) -> ~ PortName (p_id p) n) ->
  type_for_step_output st o = Err ValidationException.
Proof.
  intros st o H. apply type_for_step_output_none. unfold unmatched. apply Forall_forall. intros p I (n & A & B).
  eapply H; eauto.
Qed.
Print Assumptions C17_unknown_step_output.

Theorem C17_step_input : forall st sk f p, sk_valueFrom sk = None -> Fragment (sk_id sk) f ->
  First (fun p => Fragment (p_id p) f) (run_inputs st) p ->
  (In (sk_id sk) (scatter_list (st_scatter st)) -> type_for_step_input st sk = TArray (p_type p)) /\
  (~ In (sk_id sk) (scatter_list (st_scatter st)) -> type_for_step_input st sk = p_type p).
Proof.
  intros st sk f p V N F. unfold Fragment in *. apply AfterLast_spec in N. subst f. unfold type_for_step_input. rewrite V.
  assert (E : find (fun p => String.eqb (last_part "#" (p_id p)) (last_part "#" (sk_id sk))) (run_inputs st) = Some p).
  { apply find_First. destruct F as (pre & post & -> & P & F). exists pre, post. split; auto.
    apply AfterLast_spec in P. split; [apply String.eqb_eq; auto|].
    eapply Forall_impl; [|exact F]. cbn. intros q NQ E. apply NQ, AfterLast_spec. apply String.eqb_eq in E. auto. }
  rewrite E. destruct (smem (sk_id sk) (scatter_list (st_scatter st))) eqn:M.
  - apply smem_In in M. tauto.
  - split; [|reflexivity]. intros I. apply smem_In in I. congruence.
Qed.
Print Assumptions C17_step_input.
Definition scatter_step m := {| st_id := "w#s"; st_in := []; st_out := ["w#s/o"]; st_scatter := Sources ["w#s/x"; "w#s/y"; "w#s/z"];
  st_scatterMethod := m; st_when := false; st_loop_all := false;
  run_inputs := [{| p_id := "w#s/x"; p_type := t_int |}]; run_outputs := [{| p_id := "tool#q"; p_type := t_string |}; {| p_id := "tool#o"; p_type := t_int |}] |}.
Example C17_case :
  type_for_step_output (scatter_step (Some "nested_crossproduct")) "w#s/o" = Ok (TArray (TArray (TArray t_int))) /\
  type_for_step_output (scatter_step (Some "flat_crossproduct")) "w#s/o" = Ok (TArray t_int) /\
  type_for_step_output (scatter_step (Some "dotproduct")) "w#s/n" = Err ValidationException /\
  type_for_step_input (scatter_step None) (mk_sink "w#s/x" NoSource) = TArray t_int /\
  PortName "w#s/o" "o" /\ First (fun p => PortName (p_id p) "o") (run_outputs (scatter_step None)) {| p_id := "tool#o"; p_type := t_int |}.
Proof.
  repeat split; try (vm_compute; reflexivity).
  - apply PortName_spec. reflexivity.
  - exists [{| p_id := "tool#q"; p_type := t_string |}], []. split; [reflexivity|]. split; [apply PortName_spec; reflexivity|].
    constructor; [|constructor]. rewrite PortName_spec. vm_compute. discriminate.
Qed.

(** ** C48 *)
Theorem C48_source_names : forall process sources parent,
  named_steps process -> (forall p, parent = Some p -> named_steps p) -> sources <> [] ->
  param_for_source_id process sources parent =
    match flat_map (denoted (scope process parent)) sources with
    | [] => Err WorkflowException
    | [x] => Ok (OneParam x)
    | l => Ok (Params l)
    end.
Proof. exact param_for_source_spec. Qed.
Print Assumptions C48_source_names.
Definition demo_parent := Wf [{| p_id := "w#i"; p_type := t_int |}]
  [scatter_step None; mk_step "w#s2" [] ["w#s2/o"] [] [{| p_id := "tool2#o"; p_type := t_int |}]].
Example C48_case : exists a b c,
  named_steps demo_parent /\
  param_for_source_id (Tool [{| p_id := "t#x"; p_type := t_string |}]) ["w#s/o"] (Some demo_parent) = Ok (OneParam a) /\
  snd a = Some (3, "dotproduct") /\ p_id (fst a) = "tool#o" /\
  param_for_source_id demo_parent ["w#s2/o"; "#i"] None = Ok (Params [b; c]) /\
  p_id (fst b) = "tool2#o" /\ p_id (fst c) = "w#i" /\
  param_for_source_id demo_parent ["w#s/x"] None = Err WorkflowException.
Proof.
  do 3 eexists. split; [repeat constructor; discriminate|].
  split; [vm_compute; reflexivity|]. split; [reflexivity|]. split; [reflexivity|]. split; [vm_compute; reflexivity|].
  repeat split; vm_compute; reflexivity.
Qed.

(** ** C49 *)
(** One parameter found: scatter, merge and pick. *)
Theorem C49_one_parameter : forall process sources parent linkMerge pickValue x,
  named_steps process -> (forall p, parent = Some p -> named_steps p) -> scatter_list sources <> [] ->
  flat_map (denoted (scope process parent)) (scatter_list sources) = [x] ->
  exists t t1 t2, type_for_source process sources parent linkMerge pickValue = Ok t2 /\
    Delivers x t /\ SourcesMerged linkMerge false t t1 /\ ValuePicked pickValue t1 t2.
Proof.
  intros process sources parent lm pv x N NP NE D. unfold type_for_source.
  rewrite param_for_source_spec by auto. rewrite D. cbn [bind]. destruct x as [p sc].
  eexists. eexists. eexists. split; [reflexivity|].
  split; [apply delivers_spec; reflexivity|]. split; [apply merged_spec; reflexivity|]. apply picked_spec. reflexivity.
Qed.
Print Assumptions C49_one_parameter.

(** Several, partial: only names and enums, no scatter.  Missing: other types, for which it
    is refuted below. *)
Theorem C49_several_parameters_partial : forall process sources parent linkMerge pickValue x y l,
  named_steps process -> (forall p, parent = Some p -> named_steps p) ->
  flat_map (denoted (scope process parent)) (scatter_list sources) = x :: y :: l ->
  Forall (fun x => is_leaf (p_type (fst x)) /\ snd x = None) (x :: y :: l) ->
  exists types t t1 t2, type_for_source process sources parent linkMerge pickValue = Ok t2 /\
    Distinct (map (fun x => p_type (fst x)) (x :: y :: l)) types /\
    t = match types with [t] => t | _ => TUnion types end /\
    SourcesMerged linkMerge (match sources with Sources s => Nat.ltb 1 (List.length s) | _ => false end) t t1 /\
    ValuePicked pickValue t1 t2.
Proof.
  intros process sources parent lm pv x y l N NP D F. unfold type_for_source.
  assert (NE : scatter_list sources <> []) by (intros E; rewrite E in D; discriminate).
  rewrite param_for_source_spec by auto. rewrite D. cbn [bind].
  destruct (add_leaves (x :: y :: l) [] []) as (types & E & DI); [constructor|exact F|]. rewrite E. cbn [bind].
  exists types. eexists. eexists. eexists. split; [reflexivity|]. split; [exact DI|]. split; [reflexivity|].
  split; [apply merged_spec; reflexivity|]. apply picked_spec. reflexivity.
Qed.
Print Assumptions C49_several_parameters_partial.
Definition typed_inputs (l : list (string * ctype)) := Wf (map (fun x => {| p_id := ("w#" ++ fst x)%string; p_type := snd x |}) l) [].
Example C49_case :
  type_for_source (typed_inputs [("a", t_int); ("b", t_string); ("c", t_int)]) (Sources ["w#a"; "w#b"; "w#c"]) None None None
    = Ok (TArray (TUnion [t_int; t_string])) /\
  type_for_source (typed_inputs [("a", t_int); ("b", t_string); ("c", t_int)]) (Sources ["w#a"; "w#c"]) None None (Some "first_non_null")
    = Ok t_int /\
  type_for_source demo_parent (OneSource "w#s/o") None (Some "merge_flattened") None = Ok (TArray t_int) /\
  flat_map (denoted (scope (typed_inputs [("a", t_int); ("b", t_string)]) None)) ["w#a"; "w#b"] =
    [({| p_id := "w#a"; p_type := t_int |}, None); ({| p_id := "w#b"; p_type := t_string |}, None)].
Proof. repeat split; vm_compute; reflexivity. Qed.

(** Refuted: after an array every later type is dropped. *)
Theorem C49_types_after_an_array_refuted : exists types sources,
  type_for_source (typed_inputs types) sources None None None = Ok (TArray (TArray t_int)) /\
  types = [("a", TArray t_int); ("b", t_string)] /\ sources = Sources ["w#a"; "w#b"].
Proof. eexists. eexists. repeat split; vm_compute; reflexivity. Qed.
Print Assumptions C49_types_after_an_array_refuted.

(** Refuted: a type other than a record after a record ends in an internal error. *)
Theorem C49_type_after_a_record_refuted : exists types sources,
  type_for_source (typed_inputs types) sources None None None = Err AttributeError /\
  types = [("a", TRecord (Some [("f", t_int)])); ("b", t_string)] /\ sources = Sources ["w#a"; "w#b"].
Proof. eexists. eexists. repeat split; vm_compute; reflexivity. Qed.
Print Assumptions C49_type_after_a_record_refuted.

(** Refuted: an unknown source among several is ignored without an error. *)
Theorem C49_missing_source_refuted : exists sources,
  type_for_source (typed_inputs [("a", t_int)]) sources None None None = Ok t_int /\ sources = Sources ["w#a"; "w#typo"] /\
  denoted (scope (typed_inputs [("a", t_int)]) None) "w#typo" = [].
Proof. eexists. repeat split; vm_compute; reflexivity. Qed.
Print Assumptions C49_missing_source_refuted.

(** Refuted: the scatter of a later source is forgotten when its unscattered type is known. *)
Theorem C49_scattered_twin_refuted : exists process,
  type_for_source process (Sources ["w#i"; "w#s/o"]) None None None = Ok (TArray t_int) /\
  map snd (flat_map (denoted (scope process None)) ["w#i"; "w#s/o"]) = [None; Some (3, "dotproduct")].
Proof. exists demo_parent. repeat split; vm_compute; reflexivity. Qed.
Print Assumptions C49_scattered_twin_refuted.

(** ** C13, C16, C17, C49: further exact statements *)

(** Record fields are matched by the short names of their identifiers. *)
Theorem C13_field_names : forall id name, shortname id = name <-> ShortName id name.
Proof. intros id name. rewrite shortname_spec. split; auto. Qed.
Print Assumptions C13_field_names.
Example C13_field_names_case :
  ShortName "file:///d/w.cwl#rec/a" "a" /\ ShortName "file:///d/w.cwl" "w.cwl" /\ ShortName "p/q#" "q" /\
  ~ ShortName "w#rec/a" "rec/a".
Proof.
  rewrite <- !C13_field_names. repeat split; try (vm_compute; reflexivity). vm_compute. discriminate.
Qed.

(** A CWL version other than the three supported ones is refused. *)
Theorem C16_unknown_version_rejected : forall wf, ~ In (wf_version wf) ["v1.0"; "v1.1"; "v1.2"] ->
  static_checker wf = Err GenericException.
Proof.
  intros wf N. unfold static_checker, static_checker_report, known_version.
  destruct (String.eqb_spec (wf_version wf) "v1.0") as [E|_]; [exfalso; apply N; cbn; auto|].
  destruct (String.eqb_spec (wf_version wf) "v1.1") as [E|_]; [exfalso; apply N; cbn; auto|].
  destruct (String.eqb_spec (wf_version wf) "v1.2") as [E|_]; [exfalso; apply N; cbn; auto|]. reflexivity.
Qed.
Print Assumptions C16_unknown_version_rejected.

(** A link from something that is neither a workflow input nor a step output is never
    accepted, in any version. *)
Theorem C16_unknown_source_rejected : forall wf sk src,
  In (wf_version wf) ["v1.0"; "v1.1"; "v1.2"] ->
  In sk (sinks_of wf) -> In src (links sk) -> ~ In src (sources_of wf) ->
  exists e, static_checker wf = Err e.
Proof.
  intros wf sk src V. assert (K : exists v, known_version (wf_version wf) = Some v).
  { destruct V as [<-|[<-|[<-|[]]]]; eexists; reflexivity. }
  destruct K as [v K]. intros I J N. eapply unknown_source; eauto.
Qed.
Print Assumptions C16_unknown_source_rejected.

(** When no link has a list of sources the error is the validation error. *)
Theorem C16_unknown_single_source : forall wf types sk src,
  In (wf_version wf) ["v1.0"; "v1.1"; "v1.2"] -> all_types wf = Ok types ->
  (forall sk, In sk (sinks_of wf) -> sk_source sk = NoSource \/ exists s, sk_source sk = OneSource s) ->
  In sk (sinks_of wf) -> sk_source sk = OneSource src -> ~ In src (sources_of wf) ->
  static_checker wf = Err ValidationException.
Proof.
  intros wf types sk src V A S I J N. destruct (C16_unknown_source_rejected wf sk src V I) as [e E]; auto.
  { unfold links. rewrite J. cbn. auto. }
  assert (K : exists v, known_version (wf_version wf) = Some v).
  { destruct V as [<-|[<-|[<-|[]]]]; eexists; reflexivity. }
  destruct K as [v K]. destruct (single_checker wf v types K A) as [H|H]; [|congruence|exact H].
  apply Forall_forall. exact S.
Qed.
Print Assumptions C16_unknown_single_source.
Definition single_wf version source := {|
  wf_version := version;
  wf_inputs := [{| p_id := "w#i"; p_type := t_int |}];
  wf_outputs := [(mk_sink "w#out" (OneSource "w#s/o"), t_string)];
  wf_steps := [mk_step "w#s" [mk_sink "w#s/x" source; mk_sink "w#s/y" NoSource] ["w#s/o"]
                 [{| p_id := "w#s/x"; p_type := t_int |}; {| p_id := "w#s/y"; p_type := t_int |}] [{| p_id := "w#s/o"; p_type := t_string |}]] |}.
Example C16_unknown_source_case :
  is_ok (all_types (single_wf "v1.1" (OneSource "w#typo"))) = true /\
  (forall sk, In sk (sinks_of (single_wf "v1.1" (OneSource "w#typo"))) -> sk_source sk = NoSource \/ exists s, sk_source sk = OneSource s) /\
  ~ In "w#typo" (sources_of (single_wf "v1.1" (OneSource "w#typo"))) /\
  static_checker (single_wf "v1.1" (OneSource "w#typo")) = Err ValidationException /\
  static_checker (single_wf "v1.3" (OneSource "w#i")) = Err GenericException.
Proof.
  split; [reflexivity|]. split.
  - intros sk [<-|[<-|[<-|[]]]]; cbn; eauto.
  - split; [|split; vm_compute; reflexivity]. vm_compute. intros [H|[H|[]]]; discriminate.
Qed.

(** The inputs reported as required but without a value are exactly those whose type does
    not allow null and that have no source, no default and no valueFrom. *)
Theorem C16_unfed_inputs_reported : forall wf v types,
  (wf_version wf = "v1.0" /\ v = V10) \/ (wf_version wf = "v1.1" /\ v = V11) \/ (wf_version wf = "v1.2" /\ v = V12) ->
  linked v wf -> all_types wf = Ok types -> (v = V12 -> special_once (step_of_params wf) (sinks_of wf)) ->
  exists r l, static_checker_report wf = Ok r /\ r_unfed r = map sk_id l /\
    Kept (Unfed types) (flat_map st_in (wf_steps wf)) l.
Proof.
  intros wf v types V L A SO. assert (K : known_version (wf_version wf) = Some v) by (destruct V as [[-> ->]|[[-> ->]|[-> ->]]]; reflexivity).
  destruct (static_report wf v types K A (linked_wf v wf types L A) SO) as (r & E & _ & _ & U).
  exists r, (filter (unfed types) (step_inputs wf)). split; auto. split; auto.
  apply filter_Kept. intros x _. apply unfed_spec.
Qed.
Print Assumptions C16_unfed_inputs_reported.
Example C16_unfed_case : exists r, static_checker_report (single_wf "v1.2" (OneSource "w#i")) = Ok r /\ r_unfed r = ["w#s/y"] /\
  linked V12 (single_wf "v1.2" (OneSource "w#i")) /\
  special_once (step_of_params (single_wf "v1.2" (OneSource "w#i"))) (sinks_of (single_wf "v1.2" (OneSource "w#i"))).
Proof.
  eexists. split; [vm_compute; reflexivity|]. split; [reflexivity|]. split; [solve_wf|].
  apply special_once_test_true. vm_compute. reflexivity.
Qed.

(** With valueFrom, or without a tool input of its name, a step input takes anything. *)
Theorem C17_step_input_any : forall st sk,
  (exists e, sk_valueFrom sk = Some e) \/
  (forall f p, Fragment (sk_id sk) f -> In p (run_inputs st) -> ~ Fragment (p_id p) f) ->
  type_for_step_input st sk = TName "Any".
Proof.
  intros st sk [[e E]|N]; unfold type_for_step_input; [rewrite E; reflexivity|].
  destruct (sk_valueFrom sk); [reflexivity|].
  destruct (find _ (run_inputs st)) as [p|] eqn:F; [|reflexivity]. exfalso.
  apply find_some in F. destruct F as [I F]. apply String.eqb_eq in F.
  apply (N (last_part "#" (sk_id sk)) p); auto; apply AfterLast_spec; auto.
Qed.
Print Assumptions C17_step_input_any.
Example C17_step_input_any_case :
  type_for_step_input (scatter_step None) {| sk_id := "w#s/x"; sk_source := NoSource; sk_linkMerge := None; sk_pickValue := None;
    sk_valueFrom := Some "$(1)"; sk_default := JNull |} = TName "Any".
Proof. reflexivity. Qed.

(** Types made of names, enums and records are told apart by content. *)
Theorem C49_record_types_compared : forall a b, Plain a -> Plain b -> (_compare_type a b = Ok true <-> SameType a b).
Proof. intros a b PA PB. apply compare_plain; auto. Qed.
Print Assumptions C49_record_types_compared.
Example C49_record_types_case :
  Plain (TRecord (Some [("r#a", t_int); ("r#b", TRecord (Some [("c", t_string)]))])) /\
  _compare_type (TRecord (Some [("r#a", t_int); ("r#b", t_string)])) (TRecord (Some [("q#b", t_string); ("q#a", t_int)])) = Ok true /\
  _compare_type (TRecord (Some [("r#a", t_int)])) (TRecord (Some [("q#b", t_string); ("q#a", t_int)])) = Ok false.
Proof.
  split; [|split; vm_compute; reflexivity].
  assert (L : forall s, is_leaf (TName s)) by (intros s; left; eauto).
  apply Pl_record. intros k t (pre & n & post & E & _). injection E as E.
  destruct pre as [|x [|y pre]]; cbn in E.
  - injection E as _ <- _. constructor. apply L.
  - injection E as _ _ <- _. apply Pl_record. intros k' t' (pre' & n' & post' & E' & _). injection E' as E'.
    destruct pre' as [|x' pre']; cbn in E'; [|destruct pre'; discriminate].
    injection E' as _ <- _. constructor. apply L.
  - destruct pre; discriminate.
Qed.

(** Partial: a scattered source of a new type behind unscattered ones adds the array type it
    delivers.  Missing: what follows it, see C49_types_after_an_array_refuted. *)
Theorem C49_scattered_source_partial : forall process sources parent linkMerge pickValue pre x,
  named_steps process -> (forall p, parent = Some p -> named_steps p) -> pre <> [] ->
  flat_map (denoted (scope process parent)) (scatter_list sources) = pre ++ [x] ->
  Forall (fun x => is_leaf (p_type (fst x)) /\ snd x = None) pre ->
  ~ In (p_type (fst x)) (map (fun x => p_type (fst x)) pre) ->
  exists types t t1 t2, type_for_source process sources parent linkMerge pickValue = Ok t2 /\
    Distinct (map (fun x => p_type (fst x)) pre) types /\ Delivers x t /\
    SourcesMerged linkMerge (match sources with Sources s => Nat.ltb 1 (List.length s) | _ => false end)
      (TUnion (types ++ [t])) t1 /\
    ValuePicked pickValue t1 t2.
Proof.
  intros process sources parent lm pv pre x N NP PN D F NI. unfold type_for_source.
  assert (NE : scatter_list sources <> []).
  { intros E. rewrite E in D. cbn in D. symmetry in D. apply app_eq_nil in D. destruct D. discriminate. }
  rewrite param_for_source_spec by auto. rewrite D.
  destruct (add_scattered pre x F NI) as (d & t & E & DX & DD).
  assert (dn : d <> []).
  { destruct pre as [|y pre']; [congruence|]. intros ->.
    apply (proj1 (Distinct_incl _ _ DD (p_type (fst y)))). cbn. auto. }
  destruct pre as [|y pre]; [congruence|]. cbn [app] in *. destruct (pre ++ [x]) as [|z l] eqn:P.
  { apply app_eq_nil in P. destruct P. discriminate. }
  assert (E2 : foldM add_source_type (y :: z :: l) [] = Ok (d ++ [t])) by (rewrite <- P; exact E).
  cbn [bind]. rewrite E2. cbn [bind]. destruct d as [|d0 d]; [congruence|].
  assert (M : match (d0 :: d) ++ [t] with [u] => u | _ => TUnion ((d0 :: d) ++ [t]) end = TUnion ((d0 :: d) ++ [t])).
  { destruct d; reflexivity. }
  rewrite M. exists (d0 :: d), t. eexists. eexists. split; [reflexivity|]. split; [exact DD|]. split; [exact DX|].
  split; [apply merged_spec; reflexivity|]. apply picked_spec. reflexivity.
Qed.
Print Assumptions C49_scattered_source_partial.
Example C49_scattered_case : exists x y,
  flat_map (denoted (scope (Wf [{| p_id := "w#b"; p_type := t_string |}] [scatter_step (Some "nested_crossproduct")]) None)) ["w#b"; "w#s/o"] = [x] ++ [y] /\
  snd y = Some (3, "nested_crossproduct") /\
  type_for_source (Wf [{| p_id := "w#b"; p_type := t_string |}] [scatter_step (Some "nested_crossproduct")]) (Sources ["w#b"; "w#s/o"]) None
    (Some "merge_nested") None = Ok (TArray (TUnion [t_string; TArray (TArray (TArray t_int))])).
Proof. eexists. eexists. split; [vm_compute; reflexivity|]. split; reflexivity. Qed.
