(** * Proofs about the refactoring of workflows: the loop over the steps ends *)
From Verif Require Import PyBase PyBaseProofs PackModel ExprModel EvalModel RefactorModel RefactorSpec RefactorProofs FlowModel FlowSpec FlowProofs FlowProofs2.
From Coq Require Import Lia.

Definition nofuel {A} (r : result A) : Prop := r <> Err OutOfFuel.
Lemma nofuel_ok {A} (x : A) : nofuel (Ok x). Proof. discriminate. Qed.
Lemma nofuel_bind {A B} (r : result A) (f : A -> result B) : nofuel r -> (forall x, r = Ok x -> nofuel (f x)) -> nofuel (bind r f).
Proof. destruct r as [x|e]; cbn; [auto|]. intros H _ E. apply H. injection E as ->. reflexivity. Qed.
Lemma nofuel_foldM {A B} (f : B -> A -> result B) l : (forall b a, In a l -> nofuel (f b a)) -> forall b, nofuel (foldM f l b).
Proof.
  induction l as [|a l IH]; intros H b; cbn [foldM]; [discriminate|]. apply nofuel_bind; [apply H; left; reflexivity|].
  intros x _. apply IH. intros c d D. apply H. right; exact D.
Qed.
Lemma nofuel_mapM {A B} (f : A -> result B) l : (forall a, nofuel (f a)) -> nofuel (mapM f l).
Proof.
  intros H. induction l as [|a l IH]; cbn [mapM]; [discriminate|]. apply nofuel_bind; auto. intros x _. apply nofuel_bind; auto.
  intros y _. discriminate.
Qed.
Lemma nofuel_set_nth {A} i (x : A) l : nofuel (set_nth i x l).
Proof. revert i. induction l as [|y l IH]; intros [|i]; cbn [set_nth]; try discriminate. apply nofuel_bind; auto. intros z _. discriminate. Qed.

Section Flow.
  Variable gx : json -> json -> json -> result (option string).
  Variable ev : string -> json -> result json.
  Variable src_example : list wstep -> wstep -> src -> result json.
  Variable self_example : list wstep -> wstep -> src -> result json.
  Variable src_params : list wstep -> src -> result nat.
  Variable src_known : list wstep -> wstep -> string -> result unit.
  Variable out_known : list wstep -> src -> result unit.
  Variable load_run : string -> result (tool * bool).
  Variable attrs : list string.
  Variable replace_etool skip1 skip2 : bool.

  (** ** What a step generates has a lower rank *)
  Definition rank (s : wstep) : nat :=
    if startswith "_expression" (ws_id s) then 0 else match filled (ws_when s) with None => 1 | Some _ => 2 end.

  Lemma rank_expression s : startswith "_expression_" (ws_id s) = true -> rank s = 0.
  Proof.
    intros G. unfold rank. apply startswith_spec in G. destruct G as (r & ->).
    pose proof (startswith_app "_expression" ("_" ++ r)) as Q. cbn [append] in *. rewrite Q. reflexivity.
  Qed.
  Lemma made_rank ins l : Forall (made (fun s => startswith "_expression_" s = true) ins) l -> Forall (fun g => rank g = 0) l.
  Proof. apply Forall_impl. intros g (G & _). apply rank_expression. exact G. Qed.

  Lemma traverse_rank wreqs pre post st st' gen m sub :
    traverse_step gx src_example self_example src_params src_known attrs replace_etool skip1 skip2 wreqs pre post st
      = Ok (st', gen, m, sub) -> startswith "_expression" (ws_id st) = false ->
    Forall (fun g => rank g < rank st) gen.
  Proof.
    intros E S. assert (R : 1 <= rank st) by (unfold rank; rewrite S; destruct (filled (ws_when st)); lia).
    unfold traverse_step in E. binv E mock Em. destruct (String.eqb (ws_id st) ""); [injection E as <- <- <- <-; constructor|].
    binv E v Ev. destruct v as [s1 g1]. binv E x Ex. binv E w Ew. binv E p Ep. binv E c Ec.
    destruct w as [s2 g2], p as [[s3 g3] m3], c as [[[s4 g4] m4] sub4]. cbn [fst snd] in *. injection E as <- <- <- <-.
    destruct (value_loop_ok _ _ _ _ _ _ _ _ _ _ _ _ _ _ _ _ _ Ev (incl_refl _)) as (d & new & A1 & A2 & A3 & A4 & A5 & A6).
    cbn [app] in A1, A2, A6. subst g1.
    assert (Low : forall l, Forall (fun g => rank g = 0) l -> Forall (fun g => rank g < rank st) l).
    { intros l. apply Forall_impl. intros g ->. lia. }
    assert (N1 : Forall (fun g => rank g < rank st) new).
    { apply Low. eapply Forall_impl; [|exact A4]. intros g (G & _). apply rank_expression. eapply step_name_expression. exact G. }
    assert (N2 : Forall (fun g => rank g < rank st) g2).
    { destruct x as [expr|].
      - binv Ew r Er. injection Ew as <- <-. apply Forall_app. split; auto. constructor; auto.
        destruct r as [s2' gw]. cbn [fst snd]. unfold when_step in Er. binv Er ps Eps. injection Er as <- <-.
        assert (W : ws_when st = ws_when s1) by (rewrite A1; reflexivity).
        assert (R2 : rank st = 2).
        { unfold rank. rewrite S, W. destruct (filled (ws_when s1)); [reflexivity|]. injection Ex as Ex. discriminate Ex. }
        rewrite R2. cbn. destruct (startswith _ _); cbn; lia.
      - injection Ew as <- <-. exact N1. }
    destruct (level_reqs_evolves (fun s => startswith "_expression_" s = true) _ _ _ _ _ _ _
                (fun r => startswith_app "_expression_" _) _ _ _ _ Ep) as (n3 & -> & V3 & O3 & U3).
    assert (N3 : Forall (fun g => rank g < rank st) (g2 ++ n3)).
    { apply Forall_app. split; auto. apply Low. eapply made_rank. exact (ev_new _ _ _ _ V3). }
    assert (Same : (s3, g2 ++ n3, false, false) = (s4, g4, m4, sub4) -> Forall (fun g => rank g < rank st) g4).
    { intros Q. injection Q as <- <- <- <-. exact N3. }
    destruct (ws_run st) as [u|t|ids]; try (injection Ec as <- <- <- <-; exact N3).
    destruct (is_clt t); [|injection Ec as <- <- <- <-; exact N3].
    destruct (clt_evolves (fun s => startswith "_expression_" s = true) _ _ _ _ _ _ _
                (fun r => startswith_app "_expression_" _) _ _ _ _ _ Ec) as (n4 & -> & V4 & O4 & U4).
    apply Forall_app. split; auto. apply Low. eapply made_rank. exact (ev_new _ _ _ _ V4).
  Qed.

  (** ** The loop ends *)
  Notation loop := (steps_loop gx src_example self_example src_params src_known attrs replace_etool skip1 skip2).
  Notation tstep := (traverse_step gx src_example self_example src_params src_known attrs replace_etool skip1 skip2).

  (** with enough fuel the loop gives one result, and it is out of fuel only if the treatment
      of a step is *)
  Definition ends (todo : list wstep) : Prop := forall wreqs done_ m,
    exists n r, (forall fuel, n <= fuel -> loop fuel wreqs done_ todo m = r) /\
      (r = Err OutOfFuel -> exists wr pre post st, tstep wr pre post st = Err OutOfFuel).

  Lemma ends_all : forall r L, Forall (fun s => rank s < S r) L -> (forall G, Forall (fun s => rank s < r) G -> ends G) ->
    forall G, Forall (fun s => rank s < r) G -> ends (L ++ G).
  Proof.
    intros r L FL Hr. induction L as [|s L IH]; intros G FG; [apply Hr; exact FG|].
    inversion FL as [|? ? F1 F2]; subst. intros wreqs done_ m. cbn [app].
    destruct (startswith "_expression" (ws_id s)) eqn:Sk.
    - destruct (IH F2 G FG wreqs (done_ ++ [s]) m) as (n & x & H & Hx). exists (S n), x. split; auto.
      intros [|fuel] Le; [lia|]. cbn [steps_loop]. rewrite Sk. apply H. lia.
    - destruct (tstep wreqs done_ (L ++ G) s) as [v|e] eqn:Et.
      + destruct v as [[[s' gen] ms] sub]. pose proof (traverse_rank _ _ _ _ _ _ _ _ Et Sk) as Rk.
        assert (FG' : Forall (fun s => rank s < r) (G ++ gen)).
        { apply Forall_app. split; auto. eapply Forall_impl; [|exact Rk]. cbn. intros g. lia. }
        destruct (IH F2 (G ++ gen) FG' (if sub then need_subwf wreqs else wreqs) (done_ ++ [s']) (m || ms)) as (n & x & H & Hx).
        exists (S n), x. split; auto. intros [|fuel] Le; [lia|]. cbn [steps_loop]. rewrite Sk, Et. cbn [bind].
        rewrite <- app_assoc. apply H. lia.
      + exists 1, (Err e). split; [intros [|fuel] Le; [lia|]; cbn [steps_loop]; rewrite Sk, Et; reflexivity|].
        intros Q. injection Q as ->. exists wreqs, done_, (L ++ G), s. exact Et.
  Qed.

  Theorem steps_loop_ends todo : ends todo.
  Proof.
    assert (H : forall r G, Forall (fun s => rank s < r) G -> ends G).
    { induction r as [|r IH]; intros G F.
      - destruct G as [|s G]; [|inversion F; lia]. intros wreqs done_ m. exists 0, (Ok (wreqs, done_, m)).
        split; [intros [|fuel] _; reflexivity | discriminate].
      - rewrite <- (app_nil_r G). apply (ends_all r); auto. }
    apply (H 3). apply Forall_forall. intros s _. unfold rank. destruct (startswith _ _); [lia|]. destruct (filled _); lia.
  Qed.

  (** ** No other function runs out of fuel *)
  Hypothesis gx_nofuel : forall a b c, nofuel (gx a b c).
  Hypothesis ev_nofuel : forall a b, nofuel (ev a b).
  Hypothesis se_nofuel : forall a b c, nofuel (src_example a b c).
  Hypothesis sf_nofuel : forall a b c, nofuel (self_example a b c).
  Hypothesis sp_nofuel : forall a b, nofuel (src_params a b).
  Hypothesis sk_nofuel : forall a b c, nofuel (src_known a b c).
  Hypothesis ok_nofuel : forall a b, nofuel (out_known a b).
  Hypothesis lr_nofuel : forall a, nofuel (load_run a).

  Lemma find_nofuel a b c : nofuel (find_expr gx a b c).
  Proof. apply nofuel_bind; auto. intros x _. discriminate. Qed.

  Ltac nf_step := first
    [ discriminate | assumption
    | apply gx_nofuel | apply ev_nofuel | apply se_nofuel | apply sf_nofuel | apply sp_nofuel | apply sk_nofuel | apply ok_nofuel
    | apply lr_nofuel | apply find_nofuel | apply nofuel_set_nth | (apply nofuel_mapM; intros ?) | (apply nofuel_foldM; intros ? ? ?)
    | (apply nofuel_bind; [|intros ? ?])
    | match goal with |- nofuel (match ?x with _ => _ end) => destruct x eqn:? end ].
  Ltac nf := cbn zeta; repeat nf_step.

  Lemma step_mock_nofuel steps st : nofuel (step_mock src_example steps st).
  Proof.
    unfold step_mock. nf; cbn in *; try discriminate.
    all: match goal with H : src_example ?a ?b ?c = Err OutOfFuel |- _ => exact (False_ind _ (se_nofuel a b c H)) | _ => idtac end.
    all: intros Q; injection Q as ->; match goal with H : src_example ?a ?b ?c = Err _ |- _ => exact (se_nofuel a b c H) end.
  Qed.
  Lemma source_params_nofuel steps ins e : nofuel (source_params src_params steps ins e).
  Proof. induction ins as [|i ins IH]; cbn [source_params]; nf. Qed.
  Lemma value_loop_nofuel wreqs pre post mock orig orig_ins : forall todo st done_ gen,
    nofuel (value_loop gx self_example src_params src_known replace_etool wreqs pre post st mock orig orig_ins done_ todo gen).
  Proof.
    induction todo as [|i todo IH]; intros st done_ gen; cbn [value_loop]; [discriminate|].
    destruct (filled _); [|apply IH]. cbn zeta. apply nofuel_bind; [nf|]. intros self _. apply nofuel_bind; [nf|].
    intros [expr|] _; [|apply IH]. destruct (negb _); [discriminate|]. apply nofuel_bind; [nf|]. intros u _.
    apply nofuel_bind; [|intros g _; apply IH]. unfold valueFrom_step. cbn zeta. destruct (String.eqb _ _); [discriminate|].
    apply nofuel_bind; [apply source_params_nofuel | discriminate].
  Qed.
  Lemma set_tool_req_nofuel i r st : nofuel (set_tool_req i r st).
  Proof. unfold set_tool_req. nf. Qed.
  Lemma set_listing_nofuel i k e st : nofuel (set_listing i k e st).
  Proof. unfold set_listing. destruct (nth_req i st) as [| |[]| | | |]; try discriminate. apply nofuel_bind; [nf|]. intros. apply set_tool_req_nofuel. Qed.
  Lemma plr_entries_nofuel wreqs preqs sn i inputs l : forall k p, nofuel (plr_entries gx replace_etool wreqs preqs sn i inputs k l p).
  Proof.
    induction l as [|e l IH]; intros k p; cbn [plr_entries]; [discriminate|]. cbn zeta. apply nofuel_bind; [|intros; apply IH].
    destruct e as [s|en enm|j]; [| |discriminate].
    - apply nofuel_bind; [nf|]. intros [x|] _; [|discriminate]. apply nofuel_bind; [apply set_listing_nofuel | discriminate].
    - destruct (filled en).
      + apply nofuel_bind; [nf|]. intros [x|] _; [|discriminate]. apply nofuel_bind; [nf|]. intros y _.
        apply nofuel_bind; [apply set_listing_nofuel | discriminate].
      + destruct (filled enm); [|discriminate]. apply nofuel_bind; [nf|]. intros [x|] _; [|discriminate].
        apply nofuel_bind; [apply set_listing_nofuel | discriminate].
  Qed.
  Lemma plr_reqs_nofuel wreqs preqs sn inputs l : forall i p, nofuel (plr_reqs gx attrs replace_etool skip2 wreqs preqs sn inputs i l p).
  Proof.
    induction l as [|r l IH]; intros i p; cbn [plr_reqs]; [discriminate|]. apply nofuel_bind; [|intros; apply IH].
    destruct r as [defs|vs|li| | | |]; try discriminate.
    - unfold plr_env. nf.
    - unfold plr_res. apply nofuel_foldM. intros b a _. cbn zeta. destruct (negb _); [discriminate|]. apply nofuel_bind; [nf|].
      intros [x|] _; [|discriminate]. apply nofuel_bind; [apply set_tool_req_nofuel | discriminate].
    - unfold plr_iwd. destruct skip2; [discriminate|]. destruct li as [|s|l'|s]; try discriminate; [|apply plr_entries_nofuel].
      destruct (String.eqb s ""); [discriminate|]. apply nofuel_bind; [nf|]. intros [x|] _; [|discriminate]. cbn zeta.
      apply nofuel_bind; [apply set_tool_req_nofuel | discriminate].
  Qed.
  Lemma arg_nofuel wreqs sid inputs l : forall k w, nofuel (arg_loop gx replace_etool wreqs sid inputs k l w).
  Proof.
    induction l as [|a l IH]; intros k w; cbn [arg_loop]; [discriminate|]. cbn zeta. apply nofuel_bind; [nf|].
    intros [x|] _; [|apply IH]. destruct w as [st gen]. apply nofuel_bind; [nf|]. intros s _.
    apply nofuel_bind; [apply IH | discriminate].
  Qed.
  Lemma stream_nofuel wreqs sid inputs b v w : nofuel (stream_expr gx replace_etool wreqs sid inputs b v w).
  Proof. unfold stream_expr. destruct (filled v); [|discriminate]. apply nofuel_bind; [nf|]. intros [x|] _; [|discriminate]. destruct w. discriminate. Qed.
  Lemma binding_nofuel wreqs sid inputs l : forall w, nofuel (binding_loop gx replace_etool skip1 wreqs sid inputs l w).
  Proof.
    induction l as [|a l IH]; intros w; cbn [binding_loop]; [discriminate|]. apply nofuel_bind; [nf|].
    intros [x|] _; [|apply IH]. destruct w as [st gen]. apply nofuel_bind; [apply IH | discriminate].
  Qed.
  Lemma output_nofuel wreqs sid inputs ids l : forall w, nofuel (output_loop gx replace_etool skip1 skip2 wreqs sid inputs ids l w).
  Proof.
    induction l as [|a l IH]; intros w; cbn [output_loop]; [discriminate|]. apply nofuel_bind; [nf|]. intros x _. cbn zeta.
    apply nofuel_bind; [nf|]. intros y _. apply nofuel_bind; [destruct y; [destruct (existsb _ _)|]; discriminate|].
    intros w2 _. apply nofuel_bind; [apply IH | discriminate].
  Qed.
  Lemma traverse_step_nofuel wreqs pre post st : nofuel (tstep wreqs pre post st).
  Proof.
    unfold traverse_step. apply nofuel_bind; [apply step_mock_nofuel|]. intros mock _.
    destruct (String.eqb _ _); [discriminate|]. cbn zeta. apply nofuel_bind; [apply value_loop_nofuel|]. intros [s g] _.
    apply nofuel_bind; [nf|]. intros x _. apply nofuel_bind.
    { destruct x; [|discriminate]. apply nofuel_bind; [|discriminate]. unfold when_step. cbn zeta.
      apply nofuel_bind; [apply source_params_nofuel | discriminate]. }
    intros w _. apply nofuel_bind.
    { unfold process_level_reqs. destruct (ws_run st) as [|t|]; try discriminate. destruct (t_reqs t) as [[|r l]|]; try discriminate.
      destruct (String.eqb _ _); [discriminate|]. apply nofuel_bind; [apply plr_reqs_nofuel | discriminate]. }
    intros p _. apply nofuel_bind; [|discriminate]. destruct (ws_run st) as [|t|]; try discriminate.
    destruct (is_clt t); [|discriminate]. unfold traverse_clt. destruct (String.eqb _ _); [discriminate|]. cbn zeta.
    apply nofuel_bind; [destruct skip1; [discriminate | apply arg_nofuel]|]. intros.
    apply nofuel_bind; [apply stream_nofuel|]. intros. apply nofuel_bind; [apply stream_nofuel|]. intros.
    apply nofuel_bind; [apply binding_nofuel|]. intros. apply nofuel_bind; [apply output_nofuel | discriminate].
  Qed.
  Lemma source_line_nofuel {A} (r : result A) : nofuel r -> nofuel (source_line r).
  Proof. destruct r as [x|e]; cbn; [auto|]. destruct e; auto; discriminate. Qed.
  Lemma pick_nofuel wreqs : forall todo done_ steps m, nofuel (pick_loop out_known replace_etool wreqs done_ todo steps m).
  Proof.
    induction todo as [|o todo IH]; intros done_ steps m; cbn [pick_loop]; [discriminate|].
    destruct (filled _); [|apply IH]. apply nofuel_bind; [apply source_line_nofuel; unfold pick_expr; nf|]. intros x _.
    apply nofuel_bind; [apply source_line_nofuel; nf|]. intros sr _. apply nofuel_bind; [apply source_line_nofuel; nf|]. intros. apply IH.
  Qed.
  Lemma wrq_entries_nofuel wl inputs l : forall k q, nofuel (wrq_entries gx ev replace_etool wl inputs k l q).
  Proof.
    induction l as [|e l IH]; intros k q; cbn [wrq_entries]; [discriminate|]. cbn zeta. apply nofuel_bind; [|intros; apply IH]. nf.
  Qed.
  Lemma process_reqs_nofuel winputs wreqs steps : nofuel (process_reqs gx ev attrs replace_etool winputs wreqs steps).
  Proof.
    unfold process_reqs. cbn zeta. apply nofuel_bind; [|discriminate].
    generalize (match wreqs with Some l => l | None => [] end). intros l.
    generalize {| q_steps := steps; q_mod := false; q_index := 0; q_env := None; q_genv := []; q_res := None; q_gres := [];
                 q_iwd := None; q_giwd := []; q_penv := false; q_pres := false; q_piwd := false |}.
    induction l as [|r l IH]; intros q; cbn [wrq_reqs]; [discriminate|]. apply nofuel_bind; [|intros; apply IH].
    destruct r as [defs|vs|li| | | |]; try discriminate.
    - generalize 0. generalize defs at 1. intros req. revert q. induction defs as [|(n, v) defs IHd]; intros q k; cbn [wrq_env]; [discriminate|].
      cbn zeta. apply nofuel_bind; [nf|]. intros [x|] _; [|apply IHd]. apply nofuel_bind; [nf|]. intros; apply IHd.
    - revert q. generalize attrs. induction attrs0 as [|a l0 IHd]; intros q; cbn [wrq_res]; [discriminate|].
      cbn zeta. apply nofuel_bind; [nf|]. intros [x|] _; apply IHd.
    - unfold wrq_iwd. destruct li as [|s|[|e l']|s]; try discriminate.
      + destruct (String.eqb _ _); [discriminate|]. apply nofuel_bind; [nf|]. intros [x|] _; discriminate.
      + apply nofuel_bind; [apply wrq_entries_nofuel | discriminate].
  Qed.

  Theorem traverse_workflow_ends w : exists n r, nofuel r /\ forall fuel, n <= fuel ->
    traverse_workflow gx ev src_example self_example src_params src_known out_known load_run attrs replace_etool skip1 skip2 fuel w = r.
  Proof.
    unfold traverse_workflow.
    assert (L : nofuel (mapM (load_step load_run replace_etool) (wf_steps w))).
    { apply nofuel_mapM. intros s. unfold load_step. destruct (ws_run s); nf. }
    destruct (mapM (load_step load_run replace_etool) (wf_steps w)) as [ls|e].
    2:{ exists 0, (Err e). split; auto. intros Q. apply L. injection Q as ->. reflexivity. }
    cbn [bind]. destruct (steps_loop_ends (map fst ls) (wf_reqs w) [] (existsb snd ls)) as (n & r & H & F).
    eexists n, _. split; [|intros fuel Le; rewrite (H fuel Le); reflexivity].
    apply nofuel_bind.
    { intros Q. destruct (F Q) as (wr & pre & post & st & T). exact (traverse_step_nofuel _ _ _ _ T). }
    intros [[wr1 s1] m1] _. apply nofuel_bind.
    { apply nofuel_mapM. intros p. apply source_line_nofuel. unfold check_input. apply nofuel_bind; [nf|].
      intros [x|] _; [discriminate|]. apply nofuel_bind; [|discriminate]. apply nofuel_mapM. intros s. nf. }
    intros u _. apply nofuel_bind; [apply pick_nofuel|]. intros [[outs s2] m2] _.
    apply nofuel_bind; [apply process_reqs_nofuel|]. intros [[wr3 s3] m3] _. discriminate.
  Qed.
End Flow.
