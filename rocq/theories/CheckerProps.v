(** C15 and C16 said of the workflow as written, in one theorem for the three versions. *)
From Verif Require Import PyBase PyBaseProofs TypeModel TypeSpec TypeProofs LinkProofs NameProofs TypeProofs2 TypeProps CheckerSpec CheckerProofs.

Lemma version_known wf v : Version wf v -> known_version (wf_version wf) = Some v.
Proof. intros [[-> ->]|[[-> ->]|[-> ->]]]; reflexivity. Qed.

(** ** C16 *)
(** A workflow is rejected exactly if a step names an output its process does not have or
    a link does not fit even under the lenient comparison.  Partial: ports have distinct
    names, sources exist, and in v1.2 [sharing]; the steps' required inputs without a value
    do not make it fail (C16_unfed_required_input_refuted). *)
Theorem C16_static_checker_partial : forall wf v, Version wf v -> NoDup (ports wf) -> well_linked v wf -> (v = V12 -> sharing wf) ->
  (static_checker wf = Err ValidationException <->
     (exists st o, In st (wf_steps wf) /\ In o (st_out st) /\
        forall n p, PortName o n -> In p (run_outputs st) -> ~ PortName (p_id p) n) \/
     (exists sk src, In sk (sinks_of wf) /\ In src (links sk) /\ ~ Fits true wf v sk src /\ ~ Fits false wf v sk src)) /\
  (static_checker wf = Ok tt \/ static_checker wf = Err ValidationException).
Proof.
  intros wf v V ND WL SH. assert (SO : v = V12 -> special_once (step_of_params wf) (sinks_of wf)).
  { intros E. apply (sharing_once wf ND v WL). auto. }
  destruct (all_types_cases wf) as [(types & A & M)|(A & st & o & I & J & U)].
  - destruct (static_checker_spec wf v types (version_known wf v V) A (linked_wf v wf types (well_linked_linked wf v WL) A) SO) as [S1 S2].
    split; [|exact S2]. rewrite S1. split.
    + intros (sk & src & I & J & N1 & N2). right. exists sk, src. destruct (WL sk I) as (Q & _).
      rewrite !(fits wf ND types) by auto. auto.
    + intros [(st & o & I & J & N)|(sk & src & I & J & N1 & N2)].
      * exfalso. apply (M st o I J). unfold unmatched. apply Forall_forall. intros p K (n & B & C). eapply N; eauto.
      * exists sk, src. destruct (WL sk I) as (Q & _). rewrite !(fits wf ND types) in * by auto. repeat split; auto.
  - assert (E : static_checker wf = Err ValidationException).
    { unfold static_checker, static_checker_report. rewrite (version_known wf v V), A. reflexivity. }
    split; [|auto]. split; [|auto]. intros _. left. exists st, o. split; [exact I|]. split; [exact J|].
    intros n p B K C. unfold unmatched in U. rewrite Forall_forall in U. apply (U p K). eauto.
Qed.
Print Assumptions C16_static_checker_partial.

(** ** C15 *)
Lemma entry_ok v sk src : Entry v sk src (entry_for v sk src).
Proof.
  unfold Entry, entry_for. cbn [e_src e_sink e_linkMerge e_message]. split; [reflexivity|]. split; [reflexivity|].
  split; [apply merged_by; reflexivity|]. split; [destruct v; congruence|]. split.
  - intros -> p ->. reflexivity.
  - intros -> ->. reflexivity.
Qed.
Lemma takes_null_spec u : takes_null u = true <-> AcceptsNull u.
Proof.
  unfold AcceptsNull. destruct u; cbn; try (split; [discriminate|intros (l' & E & _); discriminate E]).
  all: rewrite existsb_exists; split;
    [intros (t & I & E); eexists; split; [reflexivity|]; destruct t; try discriminate E; apply String.eqb_eq in E; subst; exact I
    |intros (l' & E & I); injection E as <-; eexists; split; [exact I|reflexivity]].
Qed.
Lemma entry_eta (e : entry) a b c d : e_src e = a -> e_sink e = b -> e_linkMerge e = c -> e_message e = d ->
  e = {| e_src := a; e_sink := b; e_linkMerge := c; e_message := d |}.
Proof. destruct e; cbn; intros; subst; reflexivity. Qed.

Section Remarks.
Variables (wf : workflow) (types : list (string * ctype)) (sk : sink).
Hypotheses (ND : NoDup (ports wf)) (A : all_types wf = Ok types) (SK : dget (sk_id sk) types <> None)
  (SRC : forall src, In src (links sk) -> In src (sources_of wf)).

Lemma sink_refuses_null : (exists u, PortType wf (sk_id sk) u /\ ~ AcceptsNull u) <->
  match dget (sk_id sk) types with Some u => negb (takes_null u) | None => false end = true.
Proof.
  destruct (dget (sk_id sk) types) as [u|] eqn:U; [|congruence]. rewrite negb_true_iff. split.
  - intros (u' & P & N). apply (port_type wf ND types A) in P. assert (u' = u) as -> by congruence.
    destruct (takes_null u) eqn:T; [|reflexivity]. apply takes_null_spec in T. contradiction.
  - intros N. exists u. split; [apply (port_type wf ND types A); exact U|]. intros T. apply takes_null_spec in T. congruence.
Qed.

Lemma remarks e : In e (notes V12 (step_of_params wf) types sk) <-> Remark wf sk e.
Proof.
  unfold notes. rewrite in_app_iff. split.
  - intros [I|I].
    + destruct (several sk) eqn:S; [destruct I|]. destruct (sk_pickValue sk) as [p|] eqn:P; [|destruct I].
      apply in_map_iff in I. destruct I as (src & <- & I). unfold Remark. cbn [e_src e_sink e_linkMerge e_message].
      split; [exact I|]. split; [reflexivity|]. split; [apply merged_by; reflexivity|]. left.
      split; [apply only_source; auto|]. split; congruence.
    + apply in_map_iff in I. destruct I as (src & <- & I). apply filter_In in I. destruct I as [I C]. apply andb_true_iff in C.
      destruct C as [C1 C2]. unfold Remark. cbn [e_src e_sink e_linkMerge e_message].
      split; [exact I|]. split; [reflexivity|]. split; [apply merged_by; reflexivity|]. right.
      split; [apply (may_be_null wf ND sk src I); auto|]. split; [apply sink_refuses_null; exact C2|].
      pose proof (only_source sk src I) as OS. destruct (several sk).
      * right. split; [|reflexivity]. intros X. apply OS in X. discriminate X.
      * left. split; [apply OS; reflexivity|reflexivity].
  - intros (I & E & M & H). apply merged_by in M. pose proof (only_source sk (e_src e) I) as OS.
    destruct H as [(O & P & T)|(N & U & T)].
    + left. apply OS in O. rewrite O. destruct (sk_pickValue sk) as [p|]; [|congruence]. apply in_map_iff. exists (e_src e).
      split; [|exact I]. symmetry. apply entry_eta; auto.
    + right. apply in_map_iff. exists (e_src e). split.
      * symmetry. apply entry_eta; auto. destruct T as [[O T]|[O T]]; [apply OS in O; rewrite O; exact T|].
        destruct (several sk); [exact T|]. exfalso. apply O, OS. reflexivity.
      * apply filter_In. split; [exact I|]. apply andb_true_iff.
        split; [apply (may_be_null wf ND sk (e_src e) I); auto|apply sink_refuses_null; exact U].
Qed.

Lemma starved : Starved wf sk <-> unfed types sk = true.
Proof.
  rewrite unfed_spec. unfold Starved, Unfed. split.
  - intros (S & D & V & u & P & N & X). split; [|auto]. exists u. split; [apply (port_type wf ND types A); exact P|]. split; [exact N|].
    intros l -> I. apply X. exists l. auto.
  - intros ((u & P & N & X) & S & D & V). split; [exact S|]. split; [exact D|]. split; [exact V|]. exists u.
    split; [apply (port_type wf ND types A); exact P|]. split; [exact N|]. intros (l & E & I). exact (X l E I).
Qed.
End Remarks.

Lemma entries_ok v sk l : Forall2 (Entry v sk) l (map (entry_for v sk) l).
Proof. induction l; constructor; auto. apply entry_ok. Qed.

(** What the checker says about every link, and which step inputs it finds without a value. *)
Theorem C15_report_partial : forall wf v, Version wf v -> NoDup (ports wf) -> well_linked v wf -> (v = V12 -> sharing wf) ->
  outputs_exist wf ->
  exists r ws es l, static_checker_report wf = Ok r /\
    r_warnings r = List.concat ws /\ r_exceptions r = List.concat es /\ r_unfed r = map sk_id l /\
    Forall2 (fun sk w => exists remarks kept entries, w = remarks ++ entries /\
      Kept (fun src => ~ Fits true wf v sk src /\ Fits false wf v sk src) (links sk) kept /\ Forall2 (Entry v sk) kept entries /\
      (forall e, In e remarks <-> v = V12 /\ Remark wf sk e)) (sinks_of wf) ws /\
    Forall2 (fun sk e => exists kept,
      Kept (fun src => ~ Fits true wf v sk src /\ ~ Fits false wf v sk src) (links sk) kept /\ Forall2 (Entry v sk) kept e) (sinks_of wf) es /\
    Kept (Starved wf) (flat_map st_in (wf_steps wf)) l.
Proof.
  intros wf v V ND WL SH OE. assert (SO : v = V12 -> special_once (step_of_params wf) (sinks_of wf)).
  { intros E. apply (sharing_once wf ND v WL). auto. }
  destruct (all_types_cases wf) as [(types & A & _)|(_ & st & o & I & J & U)].
  2:{ exfalso. destruct (OE st o I J) as (n & p & P1 & P2 & P3). unfold unmatched in U. rewrite Forall_forall in U. apply (U p P2). eauto. }
  pose proof (linked_wf v wf types (well_linked_linked wf v WL) A) as WF.
  destruct (static_report wf v types (version_known wf v V) A WF SO) as (r & E & W & X & U).
  assert (SRC : forall sk src, In sk (sinks_of wf) -> In src (links sk) -> In src (sources_of wf)).
  { intros sk src I J. destruct (WL sk I) as (Q & _). auto. }
  exists r, (map (sink_warnings v (step_of_params wf) types) (sinks_of wf)),
    (map (sink_exceptions v (step_of_params wf) types) (sinks_of wf)), (filter (unfed types) (step_inputs wf)).
  rewrite <- !flat_map_concat_map. split; [exact E|]. split; [exact W|]. split; [exact X|]. split; [exact U|]. split; [|split].
  - apply Forall2_map_r. intros sk I. unfold sink_warnings.
    exists (notes v (step_of_params wf) types sk), (filter (fun s => is_warning (lverdict v (step_of_params wf) types sk s)) (links sk)),
      (map (entry_for v sk) (filter (fun s => is_warning (lverdict v (step_of_params wf) types sk s)) (links sk))).
    split; [reflexivity|]. split; [|split; [apply entries_ok|]].
    + apply filter_Kept. intros s J. rewrite !(fits wf ND types) by eauto.
      exact (proj1 (links_verdicts v (source_ids wf) (step_of_params wf) types (sinks_of wf) sk s WF I J)).
    + intros e. assert (Q : v = V12 -> (In e (notes V12 (step_of_params wf) types sk) <-> Remark wf sk e)).
      { intros EV. apply remarks; [exact ND|exact A| |eauto]. apply (all_types_keys wf types); auto. left. apply in_map. exact I. }
      destruct v; cbn [notes]; try (split; [intros []|intros (EV & _); discriminate EV]).
      rewrite (Q eq_refl). tauto.
  - apply Forall2_map_r. intros sk I. unfold sink_exceptions.
    exists (filter (fun s => is_exception (lverdict v (step_of_params wf) types sk s)) (links sk)). split; [|apply entries_ok].
    apply filter_Kept. intros s J. rewrite !(fits wf ND types) by eauto.
    exact (proj2 (links_verdicts v (source_ids wf) (step_of_params wf) types (sinks_of wf) sk s WF I J)).
  - apply filter_Kept. intros sk I. rewrite (starved wf types sk ND A). reflexivity.
Qed.
Print Assumptions C15_report_partial.

(** a v1.2 workflow whose conditional step feeds two outputs, one prepared for null *)
Definition report_wf := {|
  wf_version := "v1.2"; wf_inputs := [{| p_id := "w#i"; p_type := t_int |}];
  wf_outputs := [(mk_sink "w#a" (OneSource "w#s/o"), TUnion [t_null; t_string]); (mk_sink "w#b" (OneSource "w#s/o"), t_string);
                 (mk_sink "w#c" (OneSource "w#i"), t_string)];
  wf_steps := [conditional (mk_step "w#s" [mk_sink "w#s/x" (OneSource "w#i"); mk_sink "w#s/y" NoSource] ["w#s/o"]
                 [{| p_id := "w#s/x"; p_type := t_int |}; {| p_id := "w#s/y"; p_type := t_int |}] [{| p_id := "w#s/o"; p_type := t_string |}])] |}.
Lemma report_wf_links : well_linked V12 report_wf.
Proof.
  intros sk I. cbn in I. destruct I as [<-|[<-|[<-|[<-|[<-|[]]]]]]; cbn;
    (split; [intros src J; repeat (destruct J as [<-|J]; [auto|]); destruct J|]; split; [discriminate|]; intros m _ _ M; apply merged_by in M; discriminate M).
Qed.
Lemma report_wf_sharing : sharing report_wf.
Proof.
  split.
  - intros l1 src l2 l3 _ (st & I & _ & C). cbn in I. destruct I as [<-|[]]. discriminate C.
  - intros sk sk' src I I' J J' [C _]. split; [exact C|]. cbn in I'.
    destruct I' as [<-|[<-|[<-|[<-|[<-|[]]]]]]; right; reflexivity.
Qed.
Example C15_report_case : Version report_wf V12 /\ NoDup (ports report_wf) /\ well_linked V12 report_wf /\ sharing report_wf /\
  outputs_exist report_wf /\ static_checker report_wf = Err ValidationException /\
  exists r, static_checker_report report_wf = Ok r /\ map e_sink (r_warnings r) = ["w#b"; "w#b"] /\
    map e_sink (r_exceptions r) = ["w#c"] /\ r_unfed r = ["w#s/y"].
Proof.
  split; [right; right; auto|]. split; [apply nodup_test_true; vm_compute; reflexivity|]. split; [exact report_wf_links|].
  split; [exact report_wf_sharing|]. split.
  - intros st o I J. cbn in I. destruct I as [<-|[]]. cbn in J. destruct J as [<-|[]]. exists "o", {| p_id := "w#s/o"; p_type := t_string |}.
    split; [apply PortName_spec; reflexivity|]. split; [cbn; auto|apply PortName_spec; reflexivity].
  - split; [vm_compute; reflexivity|]. eexists. split; [vm_compute; reflexivity|]. auto.
Qed.
