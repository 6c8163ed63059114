(** The static checker, seen from the workflow as written. *)
From Verif Require Import PyBase PyBaseProofs TypeModel TypeSpec TypeProofs LinkProofs NameProofs TypeProofs2 CheckerSpec.
From Coq Require Import Lia Permutation.

(** ** link merge *)
Lemma non_null_pick_spec pv : non_null_pick pv = true <-> exists p, pv = Some p /\ In p ["first_non_null"; "the_only_non_null"].
Proof.
  unfold non_null_pick. destruct pv as [p|].
  - rewrite orb_true_iff, !String.eqb_eq. split.
    + intros [->| ->]; eexists; (split; [reflexivity|]); cbn; auto.
    + intros (q & E & [<-|[<-|[]]]); injection E as ->; auto.
  - split; [discriminate|]. intros (p & E & _). discriminate E.
Qed.
Lemma several_spec sk l : sk_source sk = Sources l -> several sk = true <-> 2 <= List.length l.
Proof. intros E. unfold several. rewrite E. cbn [scatter_list]. rewrite Nat.ltb_lt. lia. Qed.
Lemma or_else_given m b : m <> "" -> or_else (Some m) b = Some m.
Proof. intros N. unfold or_else. destruct (String.eqb_spec m ""); congruence. Qed.
Lemma or_else_absent a b : a = None \/ a = Some "" -> or_else a b = b.
Proof. intros [->| ->]; reflexivity. Qed.

Lemma merged_by_sound v sk m : MergedBy v sk m -> m = link_merge v sk.
Proof.
  intros H. unfold link_merge. destruct H as [s E|E|l -> E L|l p -> E L P I|l m E C G N|l E L C G|l NV E L G].
  - assert (S : several sk = false) by (unfold several; rewrite E; reflexivity). rewrite S, E. destruct v; reflexivity.
  - assert (S : several sk = false) by (unfold several; rewrite E; reflexivity). rewrite S, E. destruct v; reflexivity.
  - destruct (several sk) eqn:S; [|reflexivity]. apply (several_spec sk l E) in S. lia.
  - rewrite (proj2 (several_spec sk l E) L). rewrite (proj2 (non_null_pick_spec (sk_pickValue sk))) by eauto. reflexivity.
  - rewrite G, (or_else_given m _ N), E. destruct v; try reflexivity. destruct (C eq_refl) as [L P].
    rewrite (proj2 (several_spec sk l E) L). destruct (non_null_pick (sk_pickValue sk)) eqn:NP; [|reflexivity].
    apply non_null_pick_spec in NP. contradiction.
  - rewrite (or_else_absent _ _ G), (proj2 (several_spec sk l E) L), E. destruct v; try reflexivity. specialize (C eq_refl).
    destruct (non_null_pick (sk_pickValue sk)) eqn:NP; [|reflexivity]. apply non_null_pick_spec in NP. contradiction.
  - rewrite (or_else_absent _ _ G), E. destruct (several sk) eqn:S; [apply (several_spec sk l E) in S; lia|].
    destruct v; [reflexivity|reflexivity|contradiction].
Qed.
Lemma given_or_not (a : option string) : (exists m, a = Some m /\ m <> "") \/ (a = None \/ a = Some "").
Proof. destruct a as [m|]; [|auto]. destruct (string_dec m "") as [->|N]; [auto|]. left. eauto. Qed.
Lemma merged_by_total v sk : exists m, MergedBy v sk m.
Proof.
  destruct (sk_source sk) as [|s|l] eqn:E; [eexists; eapply MB_none; eauto|eexists; eapply MB_one; eauto|].
  destruct (le_lt_dec (List.length l) 1) as [L|L].
  - destruct v.
    1,2: destruct (given_or_not (sk_linkMerge sk)) as [(m & G & N)|G];
      [exists (Some m); eapply MB_given; eauto; discriminate|exists None; eapply MB_single; eauto; discriminate].
    exists None. eapply MB_v12_single; eauto.
  - destruct (non_null_pick (sk_pickValue sk)) eqn:P.
    + apply non_null_pick_spec in P. destruct P as (p & P & I). destruct v.
      1,2: destruct (given_or_not (sk_linkMerge sk)) as [(m & G & N)|G];
        [exists (Some m); eapply MB_given; eauto; discriminate|eexists; eapply MB_several; eauto; discriminate].
      exists None. eapply MB_v12_picked; eauto.
    + assert (NP : ~ exists p, sk_pickValue sk = Some p /\ In p ["first_non_null"; "the_only_non_null"]).
      { intros Q. apply non_null_pick_spec in Q. congruence. }
      destruct (given_or_not (sk_linkMerge sk)) as [(m & G & N)|G];
        [exists (Some m); eapply MB_given; eauto|eexists; eapply MB_several; eauto].
Qed.
Lemma merged_by v sk m : MergedBy v sk m <-> m = link_merge v sk.
Proof.
  split; [apply merged_by_sound|]. intros ->. destruct (merged_by_total v sk) as [m M]. rewrite <- (merged_by_sound v sk m M). exact M.
Qed.

(** ** dictionaries with distinct keys *)
Lemma NoDup_app_cons {A} (l m : list A) x : NoDup (l ++ x :: m) -> ~ In x l /\ NoDup ((l ++ [x]) ++ m).
Proof.
  intros H. split; [|rewrite <- app_assoc; exact H]. apply NoDup_remove_2 in H. intros I. apply H. apply in_app_iff. auto.
Qed.
Lemma dupdate_new {V} (l : list (string * V)) : forall d, NoDup (map fst (d ++ l)) -> dupdate d l = d ++ l.
Proof.
  induction l as [|[k v] l IH]; intros d H; [cbn; rewrite app_nil_r; reflexivity|].
  rewrite map_app in H. cbn [map fst] in H. apply NoDup_app_cons in H. destruct H as [N H].
  cbn [dupdate fold_left fst snd]. change (fold_left _ l ?x) with (dupdate x l).
  rewrite dset_new by (apply dget_None; exact N). rewrite IH; [rewrite <- app_assoc; reflexivity|].
  rewrite map_app, map_app. exact H.
Qed.
Lemma dget_nodup {V} (l : list (string * V)) k v : NoDup (map fst l) -> (dget k l = Some v <-> In (k, v) l).
Proof.
  intros ND. split; [apply dget_In|]. induction l as [|[k' v'] l IH]; [intros []|].
  cbn [map fst] in ND. apply NoDup_cons_iff in ND. destruct ND as [N ND]. cbn [dget]. intros [E|I].
  - injection E as -> ->. rewrite String.eqb_refl. reflexivity.
  - destruct (String.eqb_spec k k') as [->|]; [|auto]. exfalso. apply N. apply (in_map fst) in I. exact I.
Qed.

(** ** the step of a port *)
Definition step_ports (st : step) : list string := map sk_id (st_in st) ++ st_out st.
Lemma step_of_params_list steps : NoDup (flat_map step_ports steps) ->
  fold_left (fun d st => dupdate (dupdate d (map (fun s => (sk_id s, st)) (st_in st))) (map (fun o => (o, st)) (st_out st))) steps []
  = flat_map (fun st => map (fun k => (k, st)) (step_ports st)) steps.
Proof.
  set (entries := fun st => map (fun k => (k, st)) (step_ports st)).
  assert (K : forall l, map fst (flat_map entries l) = flat_map step_ports l).
  { induction l as [|st l IH]; [reflexivity|]. cbn [flat_map]. rewrite map_app, IH. f_equal. unfold entries. rewrite map_map.
    rewrite map_id. reflexivity. }
  assert (G : forall l d, NoDup (map fst (d ++ flat_map entries l)) ->
    fold_left (fun d st => dupdate (dupdate d (map (fun s => (sk_id s, st)) (st_in st))) (map (fun o => (o, st)) (st_out st))) l d
    = d ++ flat_map entries l).
  { induction l as [|st l IH]; intros d H; cbn [fold_left flat_map] in *; [rewrite app_nil_r; reflexivity|].
    assert (E : dupdate (dupdate d (map (fun s => (sk_id s, st)) (st_in st))) (map (fun o => (o, st)) (st_out st)) = d ++ entries st).
    { rewrite <- dupdate_app.
      replace (map (fun s => (sk_id s, st)) (st_in st) ++ map (fun o => (o, st)) (st_out st)) with (entries st)
        by (unfold entries, step_ports; rewrite map_app, map_map; reflexivity).
      apply dupdate_new. rewrite app_assoc, map_app in H. apply NoDup_app_remove_r in H. exact H. }
    rewrite E, IH; rewrite <- app_assoc; auto. }
  intros ND. apply (G steps []). cbn [app]. rewrite K. exact ND.
Qed.

Section Workflow.
Variable wf : workflow.
Hypothesis ND : NoDup (ports wf).

Lemma nd_steps : NoDup (flat_map step_ports (wf_steps wf)).
Proof. unfold ports in ND. apply NoDup_app_remove_l in ND. apply NoDup_app_remove_l in ND. exact ND. Qed.

Lemma step_of_port k st : dget k (step_of_params wf) = Some st <-> In st (wf_steps wf) /\ In k (step_ports st).
Proof.
  unfold step_of_params. rewrite step_of_params_list by exact nd_steps. rewrite dget_nodup.
  - rewrite in_flat_map. split.
    + intros (st' & I & J). apply in_map_iff in J. destruct J as (k' & E & J). injection E as -> ->. auto.
    + intros [I J]. exists st. split; [exact I|]. apply in_map_iff. eauto.
  - replace (map fst (flat_map (fun st0 => map (fun k0 => (k0, st0)) (step_ports st0)) (wf_steps wf)))
      with (flat_map step_ports (wf_steps wf)); [exact nd_steps|].
    clear ND. induction (wf_steps wf) as [|s l IH]; [reflexivity|]. cbn [flat_map]. rewrite map_app, <- IH, map_map, map_id. reflexivity.
Qed.

Lemma NoDup_app_disjoint {A} (l m : list A) x : NoDup (l ++ m) -> In x l -> In x m -> False.
Proof.
  induction l as [|y l IH]; [intros _ []|]. cbn [app]. intros H [->|I] J; apply NoDup_cons_iff in H; destruct H as [N H].
  - apply N. apply in_app_iff. auto.
  - auto.
Qed.
Lemma nd_one_step : forall l (st : step), In st l -> NoDup (flat_map step_ports l) -> NoDup (step_ports st).
Proof.
  induction l as [|s l IH]; [intros st []|]. cbn [flat_map]. intros st [->|I] H; [apply NoDup_app_remove_r in H; exact H|].
  apply NoDup_app_remove_l in H. auto.
Qed.

(** a source is not the input of a step, and not an output of the workflow *)
Lemma source_not_sink k sk : In k (sources_of wf) -> In sk (sinks_of wf) -> sk_id sk <> k.
Proof.
  intros I J E. unfold sources_of, sinks_of in *. rewrite in_app_iff in I, J.
  pose proof nd_steps as NS. unfold ports in ND. change (fun st : step => map sk_id (st_in st) ++ st_out st) with step_ports in ND.
  assert (SO : forall l : list step, In k (flat_map st_out l) -> In k (flat_map step_ports l)).
  { intros l. rewrite !in_flat_map. intros (st & A & B). exists st. split; auto. unfold step_ports. apply in_app_iff. auto. }
  destruct J as [J|J].
  - apply in_flat_map in J. destruct J as (st & A & B).
    assert (KP : In k (step_ports st)) by (unfold step_ports; apply in_app_iff; left; rewrite <- E; apply in_map; exact B).
    assert (KS : In k (flat_map step_ports (wf_steps wf))) by (apply in_flat_map; eauto).
    destruct I as [I|I].
    + apply (NoDup_app_disjoint _ _ k ND I). apply in_app_iff. auto.
    + apply in_flat_map in I. destruct I as (st' & A' & B').
      assert (st = st').
      { assert (P : dget k (step_of_params wf) = Some st) by (apply step_of_port; auto).
        assert (P' : dget k (step_of_params wf) = Some st') by (apply step_of_port; split; auto; unfold step_ports; apply in_app_iff; auto).
        congruence. }
      subst st'. pose proof (nd_one_step _ _ A NS) as N1. unfold step_ports in N1.
      eapply (NoDup_app_disjoint _ _ k N1); eauto. rewrite <- E. apply in_map. exact B.
  - assert (KO : In k (map (fun o => sk_id (fst o)) (wf_outputs wf))).
    { rewrite <- (map_map fst sk_id). rewrite <- E. apply in_map. exact J. }
    destruct I as [I|I].
    + apply (NoDup_app_disjoint _ _ k ND I). apply in_app_iff. auto.
    + apply NoDup_app_remove_l in ND. apply (NoDup_app_disjoint _ _ k ND KO). auto.
Qed.

Lemma from_step_source (p : step -> bool) k : In k (sources_of wf) ->
  (from_step (step_of_params wf) p k = true <-> exists st, In st (wf_steps wf) /\ In k (st_out st) /\ p st = true).
Proof.
  intros I. unfold from_step. split.
  - destruct (dget k (step_of_params wf)) as [st|] eqn:E; [|discriminate]. intros P. apply step_of_port in E. destruct E as [A B].
    exists st. split; [exact A|]. split; [|exact P]. unfold step_ports in B. apply in_app_iff in B. destruct B as [B|B]; [|exact B].
    exfalso. apply in_map_iff in B. destruct B as (sk & E & B). apply (source_not_sink k sk I); [|exact E].
    unfold sinks_of. apply in_app_iff. left. apply in_flat_map. eauto.
  - intros (st & A & B & P). rewrite (proj2 (step_of_port k st)); [exact P|]. split; [exact A|]. unfold step_ports. apply in_app_iff. auto.
Qed.
Lemma conditional_spec k : In k (sources_of wf) -> (from_step (step_of_params wf) st_when k = true <-> Conditional wf k).
Proof. apply from_step_source. Qed.
Lemma collected_spec k : In k (sources_of wf) -> (collected (step_of_params wf) k = true <-> Collected wf k).
Proof. apply from_step_source. Qed.

Lemma only_source sk src : In src (links sk) -> (OnlySource sk src <-> several sk = false).
Proof.
  unfold OnlySource, several, links. destruct (sk_source sk) as [|s|[|a [|b l]]]; cbn.
  - intros [].
  - intros [->|[]]. split; auto.
  - intros [].
  - intros [->|[]]. split; auto.
  - intros _. split; [|discriminate]. intros [H|H]; discriminate H.
Qed.
Lemma may_be_null sk src : In src (links sk) -> In src (sources_of wf) ->
  (may_be_skipped (step_of_params wf) sk src = true <-> MayBeNull wf sk src).
Proof.
  intros L I. unfold may_be_skipped, MayBeNull. rewrite andb_true_iff, orb_true_iff, negb_true_iff.
  rewrite (conditional_spec src I), (only_source sk src L).
  assert (P : match sk_pickValue sk with None => true | Some _ => false end = true <-> sk_pickValue sk = None)
    by (destruct (sk_pickValue sk); split; congruence).
  rewrite P. reflexivity.
Qed.

(** ** the types *)
Lemma step_input_type st sk t : StepInputType st sk t <-> type_for_step_input st sk = t.
Proof.
  assert (FF : forall f p, Fragment (sk_id sk) f -> First (fun p => Fragment (p_id p) f) (run_inputs st) p ->
    find (fun p => String.eqb (last_part "#" (p_id p)) (last_part "#" (sk_id sk))) (run_inputs st) = Some p).
  { intros f p N F. unfold Fragment in *. apply AfterLast_spec in N. subst f. apply find_First.
    destruct F as (pre & post & -> & P & F). exists pre, post. split; auto.
    apply AfterLast_spec in P. split; [apply String.eqb_eq; auto|].
    eapply Forall_impl; [|exact F]. cbn. intros q NQ E. apply NQ, AfterLast_spec. apply String.eqb_eq in E. auto. }
  assert (FR : Fragment (sk_id sk) (last_part "#" (sk_id sk))) by (apply AfterLast_spec; reflexivity).
  split.
  - intros H. unfold type_for_step_input. destruct H as [e E|f V N A|f p V N F M|f p V N F M]; [rewrite E; reflexivity| | |]; rewrite V.
    + destruct (find _ (run_inputs st)) as [p|] eqn:F; [|reflexivity]. exfalso. apply find_some in F. destruct F as [I F].
      apply String.eqb_eq in F. apply AfterLast_spec in N. subst f. apply (A p I). apply AfterLast_spec. auto.
    + rewrite (FF f p N F). apply smem_In in M. rewrite M. reflexivity.
    + rewrite (FF f p N F). destruct (smem (sk_id sk) (scatter_list (st_scatter st))) eqn:Q; [|reflexivity]. apply smem_In in Q. contradiction.
  - intros <-. unfold type_for_step_input. destruct (sk_valueFrom sk) as [e|] eqn:V; [eapply SI_computed; eauto|].
    destruct (find _ (run_inputs st)) as [p|] eqn:F.
    + assert (FP : First (fun p => Fragment (p_id p) (last_part "#" (sk_id sk))) (run_inputs st) p).
      { apply find_First in F. destruct F as (pre & post & -> & P & F). exists pre, post. split; auto.
        split; [apply AfterLast_spec; apply String.eqb_eq in P; auto|].
        eapply Forall_impl; [|exact F]. cbn. intros q NQ E. apply NQ. apply String.eqb_eq. apply AfterLast_spec in E. auto. }
      destruct (smem (sk_id sk) (scatter_list (st_scatter st))) eqn:Q.
      * eapply SI_scattered; eauto. apply smem_In. exact Q.
      * eapply SI_plain; eauto. intros M. apply smem_In in M. congruence.
    + eapply SI_unknown; eauto. intros p I P. apply AfterLast_spec in P.
      pose proof (find_none _ _ F p I) as X. cbn in X. rewrite <- P, String.eqb_refl in X. discriminate X.
Qed.

Lemma step_output_type st o t : StepOutputType st o t <-> type_for_step_output st o = Ok t.
Proof.
  assert (FIRST : forall p, find (fun p => String.eqb (port_name (p_id p)) (port_name o)) (run_outputs st) = Some p <->
    First (fun p => PortName (p_id p) (port_name o)) (run_outputs st) p).
  { intros p. rewrite find_First. split; intros (pre & post & E & P & F); exists pre, post; (split; [exact E|]); split.
    - apply PortName_spec. apply String.eqb_eq in P. auto.
    - eapply Forall_impl; [|exact F]. cbn. intros q NQ X. apply NQ. apply String.eqb_eq. apply PortName_spec in X. auto.
    - apply PortName_spec in P. apply String.eqb_eq. auto.
    - eapply Forall_impl; [|exact F]. cbn. intros q NQ X. apply NQ. apply PortName_spec. apply String.eqb_eq in X. auto. }
  assert (TY : forall p, exists t', ArrayNesting (scatter_levels (st_scatter st) (st_scatterMethod st)) (p_type p) t' /\
     match st_scatter st with
     | NoSource => Ok (p_type p)
     | sc => Ok (scattered (List.length (scatter_list sc)) (st_scatterMethod st) (p_type p))
     end = Ok t').
  { intros p. destruct (st_scatter st) eqn:S.
    - exists (p_type p). split; [constructor|reflexivity].
    - eexists. split; [|reflexivity]. apply (scattered_spec (OneSource s)). discriminate.
    - eexists. split; [|reflexivity]. apply (scattered_spec (Sources l)). discriminate. }
  unfold type_for_step_output. split.
  - intros [n p t0 N F A]. apply PortName_spec in N. subst n. rewrite (proj2 (FIRST p) F).
    destruct (TY p) as (t' & A' & ->). f_equal. apply nest_spec in A, A'. congruence.
  - destruct (find _ (run_outputs st)) as [p|] eqn:F; [|discriminate]. pose proof (proj1 (FIRST p) eq_refl) as F1. destruct (TY p) as (t' & A' & ->).
    intros E. injection E as <-. econstructor; eauto. apply PortName_spec. reflexivity.
Qed.

Lemma step_types_list st ts : NoDup (step_ports st) -> step_types st = Ok ts ->
  map fst ts = step_ports st /\
  (forall k t, In (k, t) ts <-> (exists sk, In sk (st_in st) /\ sk_id sk = k /\ type_for_step_input st sk = t) \/
                                (In k (st_out st) /\ type_for_step_output st k = Ok t)).
Proof.
  intros N. unfold step_types. destruct (mapM _ (st_out st)) as [outs|] eqn:M; [|discriminate]. cbn [bind]. intros E. injection E as <-.
  apply mapM_Ok in M.
  assert (K : map fst outs = st_out st).
  { clear N. induction M as [|o e l outs H M IH]; [reflexivity|]. cbn [map]. rewrite IH. f_equal.
    destruct (type_for_step_output st o); [|discriminate H]. injection H as <-. reflexivity. }
  rewrite <- dupdate_app. rewrite dupdate_new; cbn [app].
  2:{ rewrite map_app, map_map, K. exact N. }
  split; [rewrite map_app, map_map, K; reflexivity|]. intros k t. rewrite in_app_iff.
  assert (L : In (k, t) (map (fun s => (sk_id s, type_for_step_input st s)) (st_in st)) <->
              exists sk, In sk (st_in st) /\ sk_id sk = k /\ type_for_step_input st sk = t).
  { rewrite in_map_iff. split.
    - intros (sk & E & I). injection E as <- <-. eauto.
    - intros (sk & I & <- & <-). eauto. }
  rewrite L.
  assert (R : In (k, t) outs <-> In k (st_out st) /\ type_for_step_output st k = Ok t).
  { clear - M. induction M as [|o e l outs H M IH]; [cbn; tauto|]. cbn [In]. rewrite IH.
    destruct (type_for_step_output st o) as [t0|] eqn:T; [|discriminate H]. injection H as <-. split.
    - intros [E|[A B]]; [injection E as <- <-; auto|auto].
    - intros [[->|A] B]; [left; congruence|auto]. }
  rewrite R. reflexivity.
Qed.

Lemma fold_dupdate_new {V} (ls : list (list (string * V))) : forall d, NoDup (map fst (d ++ List.concat ls)) ->
  fold_left dupdate ls d = d ++ List.concat ls.
Proof.
  induction ls as [|l ls IH]; intros d H; cbn [fold_left List.concat] in *; [rewrite app_nil_r; reflexivity|].
  rewrite dupdate_new; [|rewrite app_assoc, map_app in H; apply NoDup_app_remove_r in H; exact H].
  rewrite IH; rewrite <- app_assoc; auto.
Qed.

Lemma port_type types : all_types wf = Ok types -> forall k t, dget k types = Some t <-> PortType wf k t.
Proof.
  intros A. unfold all_types in A. destruct (mapM step_types (wf_steps wf)) as [ts|] eqn:M; [|discriminate A]. cbn [bind] in A. injection A as <-.
  apply mapM_Ok in M. pose proof nd_steps as NS.
  assert (S : map fst (List.concat ts) = flat_map step_ports (wf_steps wf) /\
    forall k t, In (k, t) (List.concat ts) <-> exists st, In st (wf_steps wf) /\
      ((exists sk, In sk (st_in st) /\ sk_id sk = k /\ type_for_step_input st sk = t) \/
       (In k (st_out st) /\ type_for_step_output st k = Ok t))).
  { clear ND. induction M as [|st d l ts H M IH]; [split; [reflexivity|]; intros k t; cbn; split; [intros []|intros (st & [] & _)]|].
    cbn [flat_map] in NS. destruct (step_types_list st d (NoDup_app_remove_r _ _ NS) H) as [K1 I1].
    destruct (IH (NoDup_app_remove_l _ _ NS)) as [K2 I2]. cbn [List.concat flat_map]. split; [rewrite map_app, K1, K2; reflexivity|].
    intros k t. rewrite in_app_iff, I1, I2. split.
    - intros [X|(st' & X & Y)]; [exists st; cbn; auto|exists st'; cbn; auto].
    - intros (st' & [<-|X] & Y); [auto|right; eauto]. }
  destruct S as [KS IS].
  set (ins := map (fun p => (p_id p, p_type p)) (wf_inputs wf)). set (outs := map (fun o => (sk_id (fst o), snd o)) (wf_outputs wf)).
  assert (NK : NoDup (map fst ((List.concat ts ++ ins) ++ outs))).
  { rewrite !map_app, KS. unfold ins, outs. rewrite !map_map. cbn [fst].
    change (map (fun x : param => p_id x) (wf_inputs wf)) with (map p_id (wf_inputs wf)).
    unfold ports in ND. change (fun st : step => map sk_id (st_in st) ++ st_out st) with step_ports in ND. revert ND.
    generalize (flat_map step_ports (wf_steps wf)) as x, (map p_id (wf_inputs wf)) as y, (map (fun o => sk_id (fst o)) (wf_outputs wf)) as z.
    intros x y z H. eapply Permutation_NoDup; [|exact H].
    rewrite <- (app_assoc x y z), (app_assoc y z x). apply Permutation_app_comm. }
  assert (TE : dupdate (dupdate (fold_left dupdate ts []) ins) outs = (List.concat ts ++ ins) ++ outs).
  { rewrite fold_dupdate_new; [cbn [app]|cbn [app]; rewrite KS; exact NS].
    rewrite (dupdate_new ins); [|rewrite map_app in NK; apply NoDup_app_remove_r in NK; exact NK].
    apply dupdate_new. exact NK. }
  rewrite TE. intros k t. rewrite dget_nodup by exact NK. rewrite !in_app_iff, IS. unfold ins, outs. rewrite !in_map_iff. split.
  - intros [[(st & I & [(sk & J & <- & T)|(J & T)])|(p & E & I)]|([sk t'] & E & I)].
    + eapply PT_step_input; eauto. apply step_input_type. exact T.
    + eapply PT_step_output; eauto. apply step_output_type. exact T.
    + injection E as <- <-. apply PT_input. exact I.
    + injection E as <- <-. apply PT_output. exact I.
  - intros [p I|sk t' I|st sk t' I J T|st o t' I J T].
    + left. right. eauto.
    + right. exists (sk, t'). auto.
    + left. left. exists st. split; [exact I|]. left. exists sk. apply step_input_type in T. auto.
    + left. left. exists st. split; [exact I|]. right. apply step_output_type in T. auto.
Qed.

(** ** links *)
Lemma carries types v sk src t : all_types wf = Ok types -> In src (links sk) -> In src (sources_of wf) ->
  (Carries wf v sk src t <-> exists t0, dget src types = Some t0 /\ SourceType v (step_of_params wf) sk src t0 t).
Proof.
  intros A L I. pose proof (may_be_null sk src L I) as MB. pose proof (collected_spec src I) as CO. split.
  - intros [t1 NV P|t1 t2 t3 EV P N1 N2 C1 C2]; exists t1; (split; [apply (port_type types A); exact P|]); [apply ST_plain; exact NV|].
    replace t3 with (if collected (step_of_params wf) src then TArray t2 else t2).
    + apply ST_v12; [exact EV|]. destruct (may_be_skipped _ sk src).
      * apply N1, MB. reflexivity.
      * apply N2. intros X. apply MB in X. discriminate X.
    + destruct (collected (step_of_params wf) src).
      * symmetry. apply C1, CO. reflexivity.
      * symmetry. apply C2. intros X. apply CO in X. discriminate X.
  - intros (t0 & D & S). apply (port_type types A) in D. destruct S as [t NV|t t1 EV W]; [apply Ca_before; auto|].
    eapply Ca_v12; [exact EV|exact D| | | |].
    + intros X. apply MB in X. rewrite X in W. exact W.
    + intros X. destruct (may_be_skipped _ sk src); [exfalso; apply X, MB; reflexivity|exact W].
    + intros X. apply CO in X. rewrite X. reflexivity.
    + intros X. destruct (collected _ src); [exfalso; apply X, CO; reflexivity|reflexivity].
Qed.

Lemma fits types strict v sk src : all_types wf = Ok types -> In src (links sk) -> In src (sources_of wf) ->
  (Fits strict wf v sk src <-> LinkFits strict v (step_of_params wf) types sk src).
Proof.
  intros A L I. unfold Fits, LinkFits. apply or_iff_compat_l. split.
  - intros (t & m & t' & u & C & M & G & P & S). apply (carries types) in C; auto. destruct C as (t0 & D & C).
    apply merged_by in M. subst m. exists t0, t, t', u. split; [exact D|]. split; [exact C|]. split; [exact G|].
    split; [apply (port_type types A); exact P|exact S].
  - intros (t0 & t & t' & u & D & C & G & P & S). exists t, (link_merge v sk), t', u. split; [apply (carries types); eauto|].
    split; [apply merged_by; reflexivity|]. split; [exact G|]. split; [apply (port_type types A); exact P|exact S].
Qed.

Lemma well_linked_linked v : well_linked v wf -> linked v wf.
Proof.
  intros W. unfold linked. apply Forall_forall. intros sk I. destruct (W sk I) as (A & B & C).
  split; [apply Forall_forall; exact A|]. split; [exact B|]. intros V L.
  destruct (link_merge v sk) as [m|] eqn:E; [|auto]. right.
  destruct (C m V L) as [->| ->]; auto. apply merged_by. auto.
Qed.

Lemma nodup_filter {A} (dec : forall x y : A, {x = y} + {x <> y}) (p : A -> bool) : forall l,
  (forall l1 x l2 l3, l = l1 ++ x :: l2 ++ x :: l3 -> p x = false) -> NoDup (filter p l).
Proof.
  induction l as [|x l IH]; intros H; cbn [filter]; [constructor|].
  assert (R : NoDup (filter p l)).
  { apply IH. intros l1 y l2 l3 E. apply (H (x :: l1) y l2 l3). rewrite E. reflexivity. }
  destruct (p x) eqn:P; [|exact R]. constructor; [|exact R]. intros I. apply filter_In in I. destruct I as [I _].
  apply in_split in I. destruct I as (l2 & l3 & ->). specialize (H [] x l2 l3 eq_refl). congruence.
Qed.

Lemma sharing_once v : well_linked v wf -> sharing wf -> special_once (step_of_params wf) (sinks_of wf).
Proof.
  intros W [S1 S2]. assert (SRC : forall sk src, In sk (sinks_of wf) -> In src (links sk) -> In src (sources_of wf)).
  { intros sk src I J. destruct (W sk I) as (A & _). auto. }
  split; [|split].
  - apply (nodup_filter string_dec). intros l1 x l2 l3 E. destruct (collected (step_of_params wf) x) eqn:C; [|reflexivity]. exfalso.
    apply (S1 l1 x l2 l3 E). apply collected_spec; [|exact C].
    assert (I : In x (flat_map links (sinks_of wf))) by (rewrite E; apply in_app_iff; cbn; auto).
    apply in_flat_map in I. destruct I as (sk & I & J). eauto.
  - intros sk sk' src I I' J J'. assert (Q := SRC sk src I J).
    pose proof (may_be_null sk src J Q) as M. pose proof (may_be_null sk' src J' Q) as M'.
    pose proof (S2 sk sk' src I I' J J') as H. pose proof (S2 sk' sk src I' I J' J) as H'.
    destruct (may_be_skipped _ sk src), (may_be_skipped _ sk' src); auto; exfalso.
    + assert (X : MayBeNull wf sk src) by (apply M; reflexivity). apply H, M' in X. discriminate X.
    + assert (X : MayBeNull wf sk' src) by (apply M'; reflexivity). apply H', M in X. discriminate X.
  - apply Forall_forall. intros sk I J. apply filter_In in J. destruct J as [J _]. apply in_flat_map in J. destruct J as (sk' & I' & J').
    apply (source_not_sink (sk_id sk) sk); auto. eauto.
Qed.
End Workflow.
