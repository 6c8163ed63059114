(** * What the refactoring leaves alone *)
From Verif Require Import PyBase PyBaseProofs PackModel ExprModel RefactorModel RefactorSpec RefactorProofs
  FlowModel FlowSpec FlowProofs FlowProofs2 FlowToolSpec FlowOldSpec FlowOldProofs FlowTwiceSpec.

Section Quiet.
  Variable gx : json -> json -> json -> result (option string).
  Variable ev : string -> json -> result json.
  Variable src_example self_example : list wstep -> wstep -> src -> result json.
  Variable src_params : list wstep -> src -> result nat.
  Variable src_known : list wstep -> wstep -> string -> result unit.
  Variable out_known : list wstep -> src -> result unit.
  Variable load_run : string -> result (tool * bool).
  Variable attrs : list string.
  Variable replace_etool skip1 skip2 : bool.
  Hypothesis examples : forall steps st s, exists v, src_example steps st s = Ok v.
  Hypothesis selves : forall steps st s, exists v, self_example steps st s = Ok v.

  Lemma none_find v i s : NoneFound gx v i s -> find_expr gx v i s = Ok None.
  Proof. intros C. unfold find_expr. destruct C as [-> | ->]; reflexivity. Qed.
  Lemma calm_find v i s : Calm gx v -> find_expr gx v i s = Ok None.
  Proof. intros C. apply none_find. apply C. Qed.
  Lemma calm_text o s i self : CalmText gx o -> filled o = Some s -> find_expr gx (JStr s) i self = Ok None.
  Proof. intros C F. apply filled_Some in F. destruct F as (-> & N). destruct (C s eq_refl) as [X | X]; [destruct (N X)|]. apply calm_find. exact X. Qed.

  Lemma foldM_total {A B} (f : B -> A -> result B) : (forall d p, exists d', f d p = Ok d') -> forall l d, exists d', foldM f l d = Ok d'.
  Proof. intros T. induction l as [|p l IH]; intros d; cbn [foldM]; [eauto|]. destruct (T d p) as (d1 & ->). cbn [bind]. apply IH. Qed.
  Lemma mock_total steps st : exists m, step_mock src_example steps st = Ok m.
  Proof.
    unfold step_mock. match goal with |- context [foldM ?f _ _] => destruct (foldM_total f) with (l := ws_in st) (d := @nil (string * json)) as (d & E) end.
    { intros d p. cbn zeta. destruct (examples steps st (si_source p)) as (v & ->).
      destruct (si_source p); eauto. destruct (filled _); eauto. destruct (truthy _); eauto. }
    rewrite E. cbn. eauto.
  Qed.

  Lemma value_quiet wreqs pre post mock orig orig_ins : forall todo st done_ gen,
    Forall (fun i => CalmText gx (si_valueFrom i)) todo ->
    value_loop gx self_example src_params src_known replace_etool wreqs pre post st mock orig orig_ins done_ todo gen
    = Ok (with_in (done_ ++ todo) st, gen).
  Proof.
    induction todo as [|inp todo IH]; intros st done_ gen H; cbn [value_loop]; [rewrite app_nil_r; reflexivity|].
    apply Forall_cons_iff in H. destruct H as (H1 & H2).
    assert (N : value_loop gx self_example src_params src_known replace_etool wreqs pre post st mock orig orig_ins (done_ ++ [inp]) todo gen
                = Ok (with_in (done_ ++ inp :: todo) st, gen)) by (rewrite IH, <- app_assoc by exact H2; reflexivity).
    destruct (filled (si_valueFrom inp)) as [text|] eqn:F; [|exact N]. cbn zeta.
    assert (S : exists self, (if sourced (si_source inp) then self_example (pre ++ with_in (done_ ++ inp :: todo) st :: post ++ gen)
                                (with_in (done_ ++ inp :: todo) st) (si_source inp) else Ok JNull) = Ok self).
    { destruct (sourced _); [apply selves | eauto]. }
    destruct S as (self & ->). cbn [bind]. rewrite (calm_text _ _ _ _ H1 F). cbn [bind]. exact N.
  Qed.

  (** ** requirements *)
  Definition calm_at (a v : json) : Prop := NoneFound gx v a JNull.
  Definition calm_text_at (a : json) (o : option string) : Prop := forall s, o = Some s -> s = "" \/ calm_at a (JStr s).
  Lemma at_find a v : calm_at a v -> find_expr gx v a JNull = Ok None.
  Proof. apply none_find. Qed.
  Lemma at_text a o s : calm_text_at a o -> filled o = Some s -> find_expr gx (JStr s) a JNull = Ok None.
  Proof. intros C F. apply filled_Some in F. destruct F as (-> & N). destruct (C s eq_refl) as [X | X]; [destruct (N X)|]. apply at_find. exact X. Qed.
  Definition quiet_entry (at_ : json) (e : entry) : Prop :=
    match e with
    | EText s => calm_at at_ (JStr s)
    | EDirent en enm => calm_text_at at_ en /\ (filled en = None -> calm_text_at at_ enm)
    | EOther _ => True
    end.
  Definition quiet_req (at_ : json) (skip : bool) (r : wreq) : Prop :=
    match r with
    | REnv defs => Forall (fun d => calm_text_at at_ (Some (snd d))) defs
    | RRes values => forall a, In a attrs -> let v := match dget a values with Some v => v | None => JNull end in
                       truthy v = true -> calm_at at_ v
    | RIwd li => skip = true \/ match li with
                                | LText s => calm_text_at at_ (Some s)
                                | LList l => Forall (quiet_entry at_) l
                                | _ => True
                                end
    | _ => True
    end.

  Lemma env_quiet inputs p : forall defs, Forall (fun d => calm_text_at inputs (Some (snd d))) defs -> plr_env gx inputs defs p = Ok p.
  Proof.
    unfold plr_env. induction defs as [|d defs IH]; intros H; cbn [foldM]; [reflexivity|].
    apply Forall_cons_iff in H. destruct H as (H1 & H2).
    destruct (String.eqb_spec (snd d) "") as [E|E]; cbn [bind]; [apply IH; exact H2|].
    destruct (H1 _ eq_refl) as [X | X]; [destruct (E X)|]. rewrite (at_find _ _ X). cbn [bind]. apply IH. exact H2.
  Qed.
  Lemma res_quiet wreqs sn i inputs values p : quiet_req inputs skip2 (RRes values) -> plr_res gx attrs replace_etool wreqs sn i inputs values p = Ok p.
  Proof.
    cbn [quiet_req]. unfold plr_res. intros H.
    assert (G : forall l, incl l attrs -> foldM (fun p a =>
      let v := match dget a values with Some v => v | None => JNull end in
      if negb (truthy v) then Ok p
      else do x <- find_expr gx v inputs JNull;
           match x with
           | None => Ok p
           | Some expr =>
               let name := ("_expression_" ++ sn ++ "_ResourceRequirement_" ++ a)%string in
               let g := tool_expr_step replace_etool wreqs (p_step p) name None expr in
               do st <- set_tool_req i
                    (RRes (dset a (JStr ("$(inputs._" ++ a ++ ")"))
                             (match nth_req i (p_step p) with RRes v => v | _ => [] end))) (p_step p);
               Ok {| p_step := st; p_gen := p_gen p ++ [g]; p_env := p_env p;
                     p_res := p_res p ++ [(("_" ++ a)%string, name)]; p_iwd := p_iwd p; p_mod := true |}
           end) l p = Ok p).
    { induction l as [|a l IH]; intros I; cbn [foldM]; [reflexivity|]. cbn zeta.
      pose proof (H a (I a (or_introl eq_refl))) as Ha. cbn zeta in Ha.
      assert (I' : incl l attrs) by (intros z Z; apply I; right; exact Z).
      destruct (truthy _); cbn [negb bind]; [|apply IH; exact I'].
      rewrite (at_find _ _ (Ha eq_refl)). cbn [bind]. apply IH. exact I'. }
    exact (G attrs (incl_refl _)).
  Qed.
  Lemma entries_quiet wreqs preqs sn i inputs p : forall l k, Forall (quiet_entry inputs) l ->
    plr_entries gx replace_etool wreqs preqs sn i inputs k l p = Ok p.
  Proof.
    induction l as [|e l IH]; intros k H; cbn [plr_entries]; [reflexivity|]. cbn zeta.
    apply Forall_cons_iff in H. destruct H as (H1 & H2).
    destruct e as [s | en enm | o]; cbn [quiet_entry] in H1.
    - rewrite (at_find _ _ H1). cbn [bind]. apply IH. exact H2.
    - destruct H1 as (Hen & Hnm). destruct (filled en) eqn:F.
      + rewrite (at_text _ _ _ Hen F). cbn [bind]. apply IH. exact H2.
      + destruct (filled enm) eqn:F2; [|cbn [bind]; apply IH; exact H2].
        rewrite (at_text _ _ _ (Hnm eq_refl) F2). cbn [bind]. apply IH. exact H2.
    - cbn [bind]. apply IH. exact H2.
  Qed.
  Lemma text_quiet s inputs : calm_text_at inputs (Some s) -> String.eqb s "" = false -> find_expr gx (JStr s) inputs JNull = Ok None.
  Proof. intros C E. destruct (C s eq_refl) as [X | X]; [subst; discriminate E|]. apply at_find. exact X. Qed.
  Lemma reqs_quiet wreqs preqs sn inputs p : forall l i, Forall (quiet_req inputs skip2) l ->
    plr_reqs gx attrs replace_etool skip2 wreqs preqs sn inputs i l p = Ok p.
  Proof.
    induction l as [|r l IH]; intros i H; cbn [plr_reqs]; [reflexivity|].
    apply Forall_cons_iff in H. destruct H as (H1 & H2).
    assert (E : match r with
          | REnv defs => plr_env gx inputs defs p
          | RRes values => plr_res gx attrs replace_etool wreqs sn i inputs values p
          | RIwd li => plr_iwd gx replace_etool skip2 wreqs preqs sn i inputs li p
          | _ => Ok p
          end = Ok p).
    { destruct r; try reflexivity.
      all: try (apply env_quiet; exact H1); try (apply res_quiet; exact H1).
      all: cbn [quiet_req] in H1; unfold plr_iwd; destruct skip2; [reflexivity|]; destruct H1 as [H1 | H1]; [discriminate H1|].
      all: match goal with x : listing |- _ => destruct x end; try reflexivity.
      all: try (destruct (String.eqb _ _) eqn:Es; [reflexivity|]; rewrite (text_quiet _ _ H1 Es); reflexivity).
      apply entries_quiet. exact H1. }
    rewrite E. cbn [bind]. apply IH. exact H2.
  Qed.

  (** ** the tool *)
  Definition arg_text (a : targ) : option string := match a with AText s => Some s | ABind v => filled v end.
  Record quiet_tool (t : tool) : Prop := {
    qt_reqs : Forall (quiet_req (tool_mock (t_inputs t)) skip2) (reqs_list (t_reqs t));
    qt_args : skip1 = false -> Forall (fun a => match a with AText s => calm_at (tool_mock (t_inputs t)) (JStr s) | ABind v => calm_text_at (tool_mock (t_inputs t)) v end) (t_args t);
    qt_stdout : calm_text_at (tool_mock (t_inputs t)) (t_stdout t); qt_stderr : calm_text_at (tool_mock (t_inputs t)) (t_stderr t);
    qt_bindings : skip1 = false -> Forall (fun p => CalmText gx (ti_valueFrom p)) (t_inputs t);
    qt_globs : Forall (fun o => truthy (to_glob o) = true -> Calm gx (to_glob o)) (t_outputs t);
    qt_evals : skip2 = false -> Forall (fun o => CalmText gx (to_eval o)) (t_outputs t) }.

  Lemma level_quiet wreqs t w : Forall (quiet_req (tool_mock (t_inputs t)) skip2) (reqs_list (t_reqs t)) ->
    process_level_reqs gx attrs replace_etool skip2 wreqs (RTool t) w = Ok (w, false).
  Proof.
    intros H. unfold process_level_reqs. destruct (t_reqs t) as [[|r l]|]; try reflexivity.
    destruct (String.eqb _ _); [reflexivity|]. rewrite reqs_quiet by exact H. destruct w as [st gen]. reflexivity.
  Qed.
  Lemma args_quiet wreqs sid inputs w : forall l k,
    Forall (fun a => match a with AText s => calm_at inputs (JStr s) | ABind v => calm_text_at inputs v end) l ->
    arg_loop gx replace_etool wreqs sid inputs k l w = Ok (w, false).
  Proof.
    induction l as [|a l IH]; intros k H; cbn [arg_loop]; [reflexivity|]. cbn zeta.
    apply Forall_cons_iff in H. destruct H as (H1 & H2).
    assert (E : match (match a with AText s => Some s | ABind v => filled v end) with
                | Some s => find_expr gx (JStr s) inputs JNull | None => Ok None end = Ok None).
    { destruct a as [s|v]; [apply at_find; exact H1|]. destruct (filled v) eqn:F; [|reflexivity]. exact (at_text _ _ _ H1 F). }
    rewrite E. cbn [bind]. apply IH. exact H2.
  Qed.
  Lemma stream_quiet wreqs sid inputs err v w : calm_text_at inputs v -> stream_expr gx replace_etool wreqs sid inputs err v w = Ok (w, false).
  Proof.
    intros C. unfold stream_expr. destruct (filled v) eqn:F; [|reflexivity]. rewrite (at_text _ _ _ C F). reflexivity.
  Qed.
  Lemma binding_quiet wreqs sid inputs w : forall l, (skip1 = false -> Forall (fun p => CalmText gx (ti_valueFrom p)) l) ->
    binding_loop gx replace_etool skip1 wreqs sid inputs l w = Ok (w, false).
  Proof.
    induction l as [|i l IH]; intros H; cbn [binding_loop]; [reflexivity|]. cbn zeta.
    assert (E : (if skip1 then Ok None
                 else match filled (ti_valueFrom i) with
                      | Some v => find_expr gx (JStr v) inputs (example_input (ti_type i))
                      | None => Ok None
                      end) = Ok None).
    { destruct skip1; [reflexivity|]. specialize (H eq_refl). apply Forall_inv in H. destruct (filled _) eqn:F; [|reflexivity].
      exact (calm_text _ _ _ _ H F). }
    rewrite E. cbn [bind]. apply IH. intros S. specialize (H S). apply Forall_inv_tail in H. exact H.
  Qed.
  Lemma output_quiet wreqs sid inputs clt w : forall l, Forall (fun o => truthy (to_glob o) = true -> Calm gx (to_glob o)) l ->
    (skip2 = false -> Forall (fun o => CalmText gx (to_eval o)) l) ->
    output_loop gx replace_etool skip1 skip2 wreqs sid inputs clt l w = Ok (w, false, false).
  Proof.
    induction l as [|o l IH]; intros H G; cbn [output_loop]; [reflexivity|].
    apply Forall_cons_iff in H. destruct H as (H1 & H2).
    assert (E : (if truthy (to_glob o) then find_expr gx (to_glob o) inputs JNull else Ok None) = Ok None).
    { destruct (truthy (to_glob o)); [|reflexivity]. apply calm_find. auto. }
    rewrite E. cbn [bind]. cbn zeta.
    assert (E2 : (if skip2 then Ok None
                 else match filled (to_eval o) with
                      | Some v => find_expr gx (JStr v) inputs (eval_self (to_contents o))
                      | None => Ok None
                      end) = Ok None).
    { destruct skip2; [reflexivity|]. specialize (G eq_refl). apply Forall_inv in G. destruct (filled _) eqn:F; [|reflexivity].
      exact (calm_text _ _ _ _ G F). }
    rewrite E2. cbn [bind]. rewrite IH; [reflexivity | exact H2|].
    intros S. specialize (G S). apply Forall_inv_tail in G. exact G.
  Qed.
  Lemma clt_quiet wreqs t w : quiet_tool t -> traverse_clt gx replace_etool skip1 skip2 wreqs t w = Ok (w, false, false).
  Proof.
    intros [Q1 Q2 Q3 Q4 Q5 Q6 Q7]. unfold traverse_clt. destruct (String.eqb _ _); [reflexivity|]. cbn zeta.
    assert (E : (if skip1 then Ok (w, false) else
                 arg_loop gx replace_etool wreqs (after_hash (ws_id (fst w))) (tool_mock (t_inputs t)) 0 (t_args t) w) = Ok (w, false)).
    { destruct skip1; [reflexivity|]. apply args_quiet. auto. }
    rewrite E. cbn [bind fst snd]. rewrite (stream_quiet _ _ _ _ _ _ Q3). cbn [bind fst snd].
    rewrite (stream_quiet _ _ _ _ _ _ Q4). cbn [bind fst snd]. rewrite binding_quiet by exact Q5. cbn [bind fst snd].
    rewrite output_quiet by assumption. reflexivity.
  Qed.

  (** ** a step, all steps *)
  Definition quiet_step (st : wstep) : Prop :=
    Forall (fun i => CalmText gx (si_valueFrom i)) (ws_in st) /\ ws_when st = None /\
    exists t, ws_run st = RTool t /\ quiet_tool t.
  Lemma step_quiet wreqs pre post st : quiet_step st ->
    traverse_step gx src_example self_example src_params src_known attrs replace_etool skip1 skip2 wreqs pre post st
    = Ok (st, [], false, false).
  Proof.
    intros (H1 & H2 & t & H3 & H4). unfold traverse_step. destruct (mock_total (pre ++ st :: post) st) as (mock & ->). cbn [bind].
    destruct (String.eqb (ws_id st) ""); [reflexivity|]. cbn zeta.
    rewrite value_quiet by exact H1. cbn [bind app]. rewrite with_in_id, H2. cbn [filled bind]. rewrite H3.
    rewrite level_quiet by exact (qt_reqs _ H4). cbn [bind fst snd].
    destruct (is_clt t); [rewrite clt_quiet by exact H4|]; reflexivity.
  Qed.
  Lemma steps_quiet : forall todo fuel wreqs done_ m, List.length todo <= fuel ->
    Forall (fun s => startswith "_expression" (ws_id s) = true \/ quiet_step s) todo ->
    steps_loop gx src_example self_example src_params src_known attrs replace_etool skip1 skip2 fuel wreqs done_ todo m
    = Ok (wreqs, done_ ++ todo, m).
  Proof.
    induction todo as [|st todo IH]; intros fuel wreqs done_ m L H.
    { destruct fuel; cbn [steps_loop]; rewrite app_nil_r; reflexivity. }
    destruct fuel as [|fuel]; [cbn in L; lia|]. cbn [steps_loop]. cbn in L.
    apply Forall_cons_iff in H. destruct H as (H1 & H2).
    assert (N : steps_loop gx src_example self_example src_params src_known attrs replace_etool skip1 skip2 fuel wreqs (done_ ++ [st]) todo m
                = Ok (wreqs, done_ ++ st :: todo, m)) by (rewrite IH, <- app_assoc by (assumption || lia); reflexivity).
    destruct (startswith "_expression" (ws_id st)); [exact N|]. destruct H1 as [H1 | H1]; [discriminate H1|].
    rewrite step_quiet by exact H1. cbn [bind]. rewrite app_nil_r, orb_false_r. exact N.
  Qed.

  (** ** requirements of the workflow *)
  Record still (steps : list wstep) (q : wrq) : Prop := {
    sl_steps : q_steps q = steps; sl_mod : q_mod q = false; sl_env : q_env q = None; sl_res : q_res q = None; sl_iwd : q_iwd q = None;
    sl_giwd : q_giwd q = []; sl_penv : q_penv q = false; sl_pres : q_pres q = false; sl_piwd : q_piwd q = false }.
  Lemma wenv_still steps wl inputs req : forall defs k q, Forall (fun d => calm_text_at inputs (Some (snd d))) defs -> still steps q ->
    exists q', wrq_env gx replace_etool wl inputs req k defs q = Ok q' /\ still steps q'.
  Proof.
    induction defs as [|[n v] defs IH]; intros k q H S; cbn [wrq_env]; [eauto|]. cbn zeta.
    apply Forall_cons_iff in H. destruct H as (H1 & H2).
    assert (E : (if String.eqb v "" then Ok None else find_expr gx (JStr v) inputs JNull) = Ok None).
    { destruct (String.eqb v "") eqn:Ev; [reflexivity|]. exact (text_quiet _ _ H1 Ev). }
    rewrite E. cbn [bind]. apply IH; [exact H2|]. destruct S; split; assumption.
  Qed.
  Lemma wres_still steps wl inputs values q : forall l, (forall a, In a l -> let v := match dget a values with Some v => v | None => JNull end in
                       truthy v = true -> calm_at inputs v) -> still steps q ->
    exists q', wrq_res gx replace_etool wl inputs values l q = Ok q' /\ still steps q'.
  Proof.
    induction l as [|a l IH]; intros H S; cbn [wrq_res]; [eauto|]. cbn zeta.
    pose proof (H a (or_introl eq_refl)) as Ha. cbn zeta in Ha.
    destruct (truthy _).
    - rewrite (at_find _ _ (Ha eq_refl)). cbn [bind]. apply IH; [|exact S]. intros b B. apply H. right; exact B.
    - cbn [bind]. apply IH; [|exact S]. intros b B. apply H. right; exact B.
  Qed.
  (** while the entries are read the listing is there *)
  Record stilli (steps : list wstep) (li : listing) (q : wrq) : Prop := {
    si_steps : q_steps q = steps; si_mod : q_mod q = false; si_env : q_env q = None; si_res : q_res q = None; si_iwd : q_iwd q = Some li;
    si_giwd : q_giwd q = []; si_penv : q_penv q = false; si_pres : q_pres q = false; si_piwd : q_piwd q = false }.
  Lemma wentries_still steps li wl inputs : forall l k q, Forall (quiet_entry inputs) l -> stilli steps li q ->
    exists q', wrq_entries gx ev replace_etool wl inputs k l q = Ok q' /\ stilli steps li q'.
  Proof.
    induction l as [|e l IH]; intros k q H S; cbn [wrq_entries]; [eauto|]. cbn zeta.
    apply Forall_cons_iff in H. destruct H as (H1 & H2).
    set (q1 := {| q_steps := q_steps q; q_mod := q_mod q; q_index := k; q_env := q_env q; q_genv := q_genv q;
                  q_res := q_res q; q_gres := q_gres q; q_iwd := q_iwd q; q_giwd := q_giwd q;
                  q_penv := q_penv q; q_pres := q_pres q; q_piwd := q_piwd q |}) in *.
    assert (S1 : stilli steps li q1) by (subst q1; destruct S; split; assumption).
    destruct e as [s | en enm | o]; cbn [quiet_entry] in H1.
    - rewrite (at_find _ _ H1). cbn [bind]. apply IH; assumption.
    - destruct H1 as (Hen & Hnm). destruct (filled en) eqn:F.
      + rewrite (at_text _ _ _ Hen F). cbn [bind]. apply IH; assumption.
      + destruct (filled enm) eqn:F2; [|cbn [bind]; apply IH; assumption].
        rewrite (at_text _ _ _ (Hnm eq_refl) F2). cbn [bind]. apply IH; assumption.
    - cbn [bind]. apply IH; assumption.
  Qed.
  Lemma wiwd_still steps wl inputs li q : quiet_req inputs false (RIwd li) -> still steps q ->
    exists q', wrq_iwd gx ev replace_etool wl inputs li q = Ok q' /\ still steps q'.
  Proof.
    cbn [quiet_req]. intros [H | H] S; [discriminate H|]. unfold wrq_iwd. destruct li as [|s|[|e l]|s]; eauto.
    - destruct (String.eqb s "") eqn:Es; [eauto|]. rewrite (text_quiet _ _ H Es). cbn [bind]. eauto.
    - destruct (wentries_still steps (LList (e :: l)) wl inputs (e :: l) 0
        {| q_steps := q_steps q; q_mod := q_mod q; q_index := q_index q; q_env := q_env q; q_genv := q_genv q;
           q_res := q_res q; q_gres := q_gres q; q_iwd := Some (LList (e :: l)); q_giwd := q_giwd q;
           q_penv := q_penv q; q_pres := q_pres q; q_piwd := q_piwd q |} H) as (q' & E & S').
      { destruct S; split; assumption || reflexivity. }
      rewrite E. cbn [bind]. eexists. split; [reflexivity|]. destruct S' as [A1 A2 A3 A4 A5 A6 A7 A8 A9].
      rewrite A6. split; assumption || reflexivity.
  Qed.
  Lemma wreqs_still steps wl inputs : forall l q, Forall (quiet_req inputs false) l -> still steps q ->
    exists q', wrq_reqs gx ev attrs replace_etool wl inputs l q = Ok q' /\ still steps q'.
  Proof.
    induction l as [|r l IH]; intros q H S; cbn [wrq_reqs]; [eauto|].
    apply Forall_cons_iff in H. destruct H as (H1 & H2).
    assert (E : exists q1, match r with
                | REnv defs => wrq_env gx replace_etool wl inputs defs 0 defs q
                | RRes values => wrq_res gx replace_etool wl inputs values attrs q
                | RIwd li => wrq_iwd gx ev replace_etool wl inputs li q
                | _ => Ok q
                end = Ok q1 /\ still steps q1).
    { destruct r; try (eexists; split; [reflexivity | exact S]).
      - apply wenv_still; assumption.
      - apply wres_still; assumption.
      - apply wiwd_still; assumption. }
    destruct E as (q1 & -> & S1). cbn [bind]. apply IH; assumption.
  Qed.
  Lemma process_quiet winputs wreqs steps : Forall (quiet_req (wf_mock winputs) false) (reqs_list wreqs) ->
    process_reqs gx ev attrs replace_etool winputs wreqs steps = Ok (wreqs, steps, false).
  Proof.
    intros H. unfold process_reqs.
    destruct (wreqs_still steps (jsreqs wreqs) (wf_mock winputs) (reqs_list wreqs)
      {| q_steps := steps; q_mod := false; q_index := 0; q_env := None; q_genv := []; q_res := None; q_gres := [];
         q_iwd := None; q_giwd := []; q_penv := false; q_pres := false; q_piwd := false |} H) as (q & E & S).
    { split; reflexivity. }
    unfold reqs_list in E. rewrite E. cbn [bind]. destruct S as [A1 A2 A3 A4 A5 A6 A7 A8 A9]. rewrite A1, A2, A3, A4, A5.
    f_equal. f_equal. f_equal. destruct wreqs as [l|]; [|reflexivity]. f_equal.
    clear - A7 A8 A9. induction l as [|r l IH]; cbn; [reflexivity|]. rewrite IH. destruct r; cbn; rewrite ?A7, ?A8, ?A9; reflexivity.
  Qed.

  (** ** the workflow *)
  Lemma load_quiet st : (exists t, ws_run st = RTool t /\ (replace_etool = true -> is_etool t = false)) ->
    load_step load_run replace_etool st = Ok (st, false).
  Proof.
    intros (t & R & H). unfold load_step. rewrite R. destruct replace_etool; [rewrite H by reflexivity|]; rewrite ?andb_false_r; reflexivity.
  Qed.
  Lemma loads_quiet : forall l, Forall (fun st => exists t, ws_run st = RTool t /\ (replace_etool = true -> is_etool t = false)) l ->
    mapM (load_step load_run replace_etool) l = Ok (map (fun st => (st, false)) l).
  Proof.
    induction l as [|st l IH]; intros H; cbn [mapM map]; [reflexivity|]. apply Forall_cons_iff in H. destruct H as (H1 & H2).
    rewrite (load_quiet _ H1). cbn [bind]. rewrite (IH H2). reflexivity.
  Qed.
  Lemma workflow_quiet fuel w :
    List.length (wf_steps w) <= fuel ->
    Forall (fun s => startswith "_expression" (ws_id s) = true \/ quiet_step s) (wf_steps w) ->
    Forall (fun st => exists t, ws_run st = RTool t /\ (replace_etool = true -> is_etool t = false)) (wf_steps w) ->
    Forall (fun o => wo_pick o = None) (wf_outputs w) ->
    Forall (quiet_req (wf_mock (wf_inputs w)) false) (reqs_list (wf_reqs w)) ->
    Forall (fun r => match r with RJs _ | RStepExpr => False | _ => True end) (reqs_list (wf_reqs w)) ->
    (exists u, mapM (fun p => source_line (check_input gx (wf_mock (wf_inputs w)) p)) (wf_inputs w) = Ok u) ->
    exists w', traverse_workflow gx ev src_example self_example src_params src_known out_known load_run attrs replace_etool skip1 skip2 fuel w
               = Ok (w', false) /\ SameWorkflow w w'.
  Proof.
    intros L S K P R J (u & U). unfold traverse_workflow. rewrite (loads_quiet _ K). cbn [bind].
    rewrite map_map. cbn [fst]. rewrite map_id.
    assert (X : existsb snd (map (fun st : wstep => (st, false)) (wf_steps w)) = false).
    { clear. induction (wf_steps w); [reflexivity|]. cbn. assumption. }
    rewrite X. rewrite steps_quiet by assumption. cbn [bind app]. rewrite U. cbn [bind].
    rewrite (FlowOldProofs.no_pick_loop out_known) by exact P. cbn [bind app]. rewrite process_quiet by exact R. cbn [bind].
    eexists. split; [reflexivity|]. split; [reflexivity|]. split; [reflexivity|]. split; [reflexivity|]. cbn [wf_reqs].
    destruct (wf_reqs w) as [[|r l]|]; try reflexivity. cbn [reqs_list] in J |- *.
    assert (F : forall l, Forall (fun r => match r with RJs _ | RStepExpr => False | _ => True end) l ->
      filter (fun r => match r with RJs _ | RStepExpr => false | _ => true end) l = l).
    { clear. induction l as [|x l IH]; intros H; cbn [filter]; [reflexivity|]. apply Forall_cons_iff in H. destruct H as (H1 & H2).
      rewrite (IH H2). destruct x; try reflexivity; destruct H1. }
    exact (F _ J).
  Qed.
End Quiet.
