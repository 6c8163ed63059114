(** * The example inputs on which expressions are tried out *)
From Verif Require Import PyBase PyBaseProofs PackModel ExprModel EvalModel RefactorModel RefactorSpec RefactorProofs
  FlowModel FlowSpec FlowProofs FlowProofs2 FlowProps FlowEvalProofs.

(** ** Specification *)

(** values of the types of CWL that have a name *)
Inductive OfType : string -> json -> Prop :=
| OT_string s : OfType "string" (JStr s)
| OT_int z : (-2147483648 <= z <= 2147483647)%Z -> OfType "int" (JInt z)
| OT_long z : (-9223372036854775808 <= z <= 9223372036854775807)%Z -> OfType "long" (JInt z)
| OT_boolean b : OfType "boolean" (JBool b)
| OT_null : OfType "null" JNull
| OT_float s : OfType "float" (JFloat s)
| OT_double s : OfType "double" (JFloat s)
| OT_file d : dget "class" d = Some (JStr "File") -> (exists b, dget "basename" d = Some (JStr b)) ->
    (exists k x, (k = "location" \/ k = "path" \/ k = "contents") /\ dget k d = Some (JStr x)) -> OfType "File" (JDict d)
| OT_directory d l : dget "class" d = Some (JStr "Directory") -> (exists x, dget "location" d = Some (JStr x)) ->
    dget "listing" d = Some (JList l) -> Forall (OfType "File") l -> OfType "Directory" (JDict d).

(** the example for a type: a value of it if it is one of six, otherwise null *)
Definition has_example : list string := ["null"; "boolean"; "int"; "string"; "File"; "Directory"].
Definition ExampleOf (t v : json) : Prop :=
  (exists s, t = JStr s /\ In s has_example /\ OfType s v) \/ ((forall s, t = JStr s -> ~ In s has_example) /\ v = JNull).

(** an object with an entry for every name of a list of inputs and no other; the value is an
    example for the type of the last input of that name *)
Definition ExampleInputs (l : list (string * json)) (d : list (string * json)) : Prop :=
  NoDup (map fst d) /\ (forall n, In n (map fst d) <-> exists id t, In (id, t) l /\ Fragment id n) /\
  forall a b id t n, l = a ++ (id, t) :: b -> Fragment id n -> (forall id' t', In (id', t') b -> ~ Fragment id' n) ->
    exists v, dget n d = Some v /\ ExampleOf t v.

(** values that do not count as a default; texts that do not count as valueFrom *)
Definition Nothing (j : json) : Prop :=
  j = JNull \/ j = JBool false \/ j = JInt 0 \/ j = JFloat "0.0" \/ j = JFloat "-0.0" \/ j = JStr "" \/ j = JList [] \/ j = JDict [].
Definition NoText (o : option string) : Prop := o = None \/ o = Some "".

(** what the example inputs of a step have for one of its inputs: a text where valueFrom
    computes it, the default, or an example for the type of the source, if that is known *)
Inductive StepExample (of_source : src -> result json) (p : sinput) : option json -> Prop :=
| SE_valueFrom v : si_source p = SNone -> ~ NoText (si_valueFrom p) -> OfType "string" v -> StepExample of_source p (Some v)
| SE_default : si_source p = SNone -> NoText (si_valueFrom p) -> ~ Nothing (si_default p) ->
    StepExample of_source p (Some (si_default p))
| SE_source v : si_source p <> SNone -> of_source (si_source p) = Ok v -> StepExample of_source p (Some v)
| SE_unknown e : si_source p <> SNone -> of_source (si_source p) = Err e ->
    e = WorkflowException \/ e = GraphTargetMissingException -> StepExample of_source p None
(** an input without any value is looked up under no name *)
| SE_unset r : si_source p = SNone -> NoText (si_valueFrom p) -> Nothing (si_default p) ->
    (exists v, of_source SNone = Ok v /\ r = Some v) \/
    (exists e, of_source SNone = Err e /\ (e = WorkflowException \/ e = GraphTargetMissingException) /\ r = None) ->
    StepExample of_source p r.

(** ** Proofs *)
Lemma truthy_Nothing j : truthy j = false <-> Nothing j.
Proof.
  unfold Nothing. destruct j as [|b|z|f|s|l|d]; cbn [truthy].
  - tauto.
  - destruct b; split; intros H; try discriminate H; auto. repeat destruct H as [H|H]; discriminate H.
  - rewrite negb_false_iff, Z.eqb_eq. split; [intros ->; auto|]. intros H. repeat destruct H as [H|H]; congruence.
  - rewrite negb_false_iff. cbn [smem existsb]. rewrite !orb_true_iff, !String.eqb_eq. split.
    + intros [->|[->|H]]; [tauto|tauto|discriminate H].
    + intros H. repeat destruct H as [H|H]; try discriminate H; injection H as ->; tauto.
  - rewrite negb_false_iff, String.eqb_eq. split; [intros ->; tauto|]. intros H. repeat destruct H as [H|H]; congruence.
  - destruct l; split; intros H; try discriminate H; try tauto. repeat destruct H as [H|H]; discriminate H.
  - destruct d; split; intros H; try discriminate H; try tauto. repeat destruct H as [H|H]; discriminate H.
Qed.
Lemma filled_NoText o : filled o = None <-> NoText o.
Proof.
  unfold filled, NoText. destruct o as [s|]; [|tauto]. destruct (String.eqb_spec s "") as [->|N]; [tauto|].
  split; [discriminate|]. intros [H|H]; congruence.
Qed.

Lemma example_ok t : ExampleOf t (example_input t).
Proof.
  destruct t as [|b|z|f|s|l|d]; try (right; split; [intros s E; discriminate E|reflexivity]).
  cbn [example_input].
  destruct (String.eqb_spec s "Directory") as [->|N1].
  { left. exists "Directory". split; [reflexivity|]. split; [cbn; tauto|].
    eapply OT_directory; [reflexivity|eexists; reflexivity|reflexivity|]. constructor; [|constructor].
    apply OT_file; [reflexivity|eexists; reflexivity|]. exists "contents". eexists. split; [tauto|reflexivity]. }
  destruct (String.eqb_spec s "File") as [->|N2].
  { left. exists "File". split; [reflexivity|]. split; [cbn; tauto|].
    apply OT_file; [reflexivity|eexists; reflexivity|]. exists "location". eexists. split; [tauto|reflexivity]. }
  destruct (String.eqb_spec s "int") as [->|N3]; [left; exists "int"; split; [reflexivity|]; split; [cbn; tauto|constructor; lia]|].
  destruct (String.eqb_spec s "string") as [->|N4]; [left; exists "string"; split; [reflexivity|]; split; [cbn; tauto|constructor]|].
  destruct (String.eqb_spec s "boolean") as [->|N5]; [left; exists "boolean"; split; [reflexivity|]; split; [cbn; tauto|constructor]|].
  destruct (String.eqb_spec s "null") as [->|N6]; [left; exists "null"; split; [reflexivity|]; split; [cbn; tauto|constructor]|].
  right. split; [|reflexivity]. intros s' E. injection E as <-. cbn. intros H. repeat destruct H as [H|H]; congruence || contradiction.
Qed.

Lemma keys_dset {V} k (v : V) d n : In n (map fst (dset k v d)) <-> n = k \/ In n (map fst d).
Proof.
  induction d as [|[k' v'] d IH]; cbn [dset].
  - cbn. intuition.
  - destruct (String.eqb_spec k k') as [->|N]; cbn [map fst In]; [intuition|]. rewrite IH. intuition.
Qed.
Lemma nodup_dset {V} k (v : V) d : NoDup (map fst d) -> NoDup (map fst (dset k v d)).
Proof.
  induction d as [|[k' v'] d IH]; cbn [dset map fst]; intros H; [constructor; [intros []|constructor]|].
  inversion H as [|? ? H1 H2]; subst. destruct (String.eqb_spec k k') as [->|N]; cbn [map fst]; [constructor; auto|].
  constructor; [|auto]. rewrite keys_dset. intros [->|X]; auto.
Qed.

Section Build.
  Context {A : Type} (id : A -> string) (ty : A -> json).
  Let build l d := fold_left (fun d i => dset (after_hash (id i)) (example_input (ty i)) d) l d.
  Lemma build_keys l : forall d n, In n (map fst (build l d)) <-> In n (map fst d) \/ exists i, In i l /\ Fragment (id i) n.
  Proof.
    induction l as [|i l IH]; intros d n; cbn [build fold_left].
    - split; [tauto|]. intros [H|(i & [] & _)]; exact H.
    - fold (build l (dset (after_hash (id i)) (example_input (ty i)) d)). rewrite IH, keys_dset. split.
      + intros [[->|H]|(j & J & F)]; [right; exists i; split; [left; reflexivity|apply Fragment_after_hash] | tauto | right; exists j; split; [right; exact J|exact F]].
      + intros [H|(j & [->|J] & F)]; [tauto| left; left; symmetry; apply after_hash_Fragment; exact F | right; eauto].
  Qed.
  Lemma build_nodup l : forall d, NoDup (map fst d) -> NoDup (map fst (build l d)).
  Proof. induction l as [|i l IH]; intros d H; [exact H|]. apply IH, nodup_dset, H. Qed.
  Lemma build_other l : forall d n, (forall j, In j l -> ~ Fragment (id j) n) -> dget n (build l d) = dget n d.
  Proof.
    induction l as [|i l IH]; intros d n H; [reflexivity|]. cbn [build fold_left].
    fold (build l (dset (after_hash (id i)) (example_input (ty i)) d)). rewrite IH; [|intros j J; apply H; right; exact J].
    apply dget_dset_other. intros ->. apply (H i (or_introl eq_refl)), Fragment_after_hash.
  Qed.
  Lemma build_ok l : ExampleInputs (map (fun i => (id i, ty i)) l) (build l []).
  Proof.
    split; [apply build_nodup; constructor|]. split.
    - intros n. rewrite build_keys. split.
      + intros [[]|(i & I & F)]. exists (id i), (ty i). split; [|exact F]. apply in_map_iff. eauto.
      + intros (x & t & I & F). apply in_map_iff in I. destruct I as (i & E & I). injection E as <- <-. right. eauto.
    - intros a b x t n E F L. apply map_eq_app in E. destruct E as (a' & r & -> & <- & E). destruct r as [|i r]; [discriminate E|].
      cbn [map] in E. injection E as <- <- <-. exists (example_input (ty i)). split; [|apply example_ok].
      unfold build. rewrite fold_left_app. cbn [fold_left]. apply after_hash_Fragment in F.
      fold (build a' []). fold (build r (dset (after_hash (id i)) (example_input (ty i)) (build a' []))).
      rewrite build_other; [rewrite F; apply dget_dset_same|]. intros j J X. apply (L (id j) (ty j)); [|exact X].
      apply in_map_iff. eauto.
  Qed.
End Build.

Theorem C90_process_inputs : forall l, exists d, tool_mock l = JDict d /\ ExampleInputs (map (fun i => (ti_id i, ti_type i)) l) d.
Proof. intros l. eexists. split; [reflexivity|]. apply (build_ok ti_id ti_type). Qed.
Theorem C90_workflow_inputs : forall l, exists d, wf_mock l = JDict d /\ ExampleInputs (map (fun i => (wi_id i, wi_type i)) l) d.
Proof. intros l. eexists. split; [reflexivity|]. apply (build_ok wi_id wi_type). Qed.

Lemma LastPart_basename s x : LastPart s x <-> x = basename s.
Proof.
  split; [|intros ->; apply basename_LastPart]. intros (A & B). symmetry. exact (last_fragment_unique "/" s x A B).
Qed.

Section Step.
  Variable src_example : list wstep -> wstep -> src -> result json.
  Variables (steps : list wstep) (st : wstep).
  Notation of_source := (src_example steps st).
  Definition one (d : list (string * json)) (p : sinput) : result (list (string * json)) :=
      let n := basename (si_id p) in
      let by_type :=
        match src_example steps st (si_source p) with
        | Ok v => Ok (dset n v d)
        | Err WorkflowException => Ok d
        | Err GraphTargetMissingException => Ok d
        | Err e => Err e
        end in
      match si_source p with
      | SNone =>
          match filled (si_valueFrom p) with
          | Some _ => Ok (dset n (example_input (JStr "string")) d)
          | None => if truthy (si_default p) then Ok (dset n (si_default p) d) else by_type
          end
      | _ => by_type
      end.
  Lemma step_mock_one : step_mock src_example steps st = do d <- foldM one (ws_in st) []; Ok (JDict d).
  Proof. reflexivity. Qed.
  Definition put (n : string) (r : option json) (d : list (string * json)) := match r with Some v => dset n v d | None => d end.
  Lemma one_ok d p d' : one d p = Ok d' -> exists r, StepExample of_source p r /\ d' = put (basename (si_id p)) r d.
  Proof.
    unfold one. intros E.
    destruct (si_source p) as [|x|l] eqn:S.
    - destruct (filled (si_valueFrom p)) as [t|] eqn:F.
      + injection E as <-. exists (Some (example_input (JStr "string"))). split; [|reflexivity].
        apply SE_valueFrom; [exact S| |constructor]. intros X. apply filled_NoText in X. congruence.
      + apply filled_NoText in F. destruct (truthy (si_default p)) eqn:T.
        * injection E as <-. exists (Some (si_default p)). split; [|reflexivity]. apply SE_default; auto.
          intros X. apply truthy_Nothing in X. congruence.
        * apply truthy_Nothing in T. destruct (src_example steps st SNone) as [v|e] eqn:Q.
          -- injection E as <-. exists (Some v). split; [|reflexivity]. apply SE_unset; eauto.
          -- destruct e; try discriminate E; injection E as <-; exists None; (split; [|reflexivity]); apply SE_unset; auto; right; eexists; split; [exact Q|tauto|exact Q|tauto].
    - assert (N : si_source p <> SNone) by (rewrite S; discriminate).
      destruct (src_example steps st (SOne x)) as [v|e] eqn:Q.
      + injection E as <-. exists (Some v). split; [|reflexivity]. apply SE_source; [exact N|rewrite S; exact Q].
      + destruct e; try discriminate E; injection E as <-; exists None; (split; [|reflexivity]); eapply SE_unknown; try exact N; try (rewrite S; exact Q); tauto.
    - assert (N : si_source p <> SNone) by (rewrite S; discriminate).
      destruct (src_example steps st (SMany l)) as [v|e] eqn:Q.
      + injection E as <-. exists (Some v). split; [|reflexivity]. apply SE_source; [exact N|rewrite S; exact Q].
      + destruct e; try discriminate E; injection E as <-; exists None; (split; [|reflexivity]); eapply SE_unknown; try exact N; try (rewrite S; exact Q); tauto.
  Qed.
  Lemma one_total p r : StepExample of_source p r -> forall d, exists d', one d p = Ok d'.
  Proof.
    intros H d. unfold one. destruct H as [v S V O|S V D|v S Q|e S Q X|r S V D X].
    - rewrite S. destruct (filled (si_valueFrom p)) as [t|] eqn:F; [eauto|]. apply filled_NoText in F. contradiction.
    - rewrite S. apply filled_NoText in V. rewrite V. destruct (truthy (si_default p)) eqn:T; [eauto|]. apply truthy_Nothing in T. contradiction.
    - destruct (si_source p); [congruence| |]; rewrite Q; eauto.
    - destruct (si_source p); [congruence| |]; rewrite Q; destruct X as [->| ->]; eauto.
    - rewrite S. apply filled_NoText in V. rewrite V. apply truthy_Nothing in D. rewrite D.
      destruct X as [(v & Q & _)|(e & Q & [->| ->] & _)]; rewrite Q; eauto.
  Qed.
  Lemma put_keys n r d k : In k (map fst (put n r d)) -> k = n \/ In k (map fst d).
  Proof. destruct r as [v|]; cbn [put]; [rewrite keys_dset; auto|auto]. Qed.
  Lemma put_other n r d k : k <> n -> dget k (put n r d) = dget k d.
  Proof. destruct r as [v|]; cbn [put]; [apply dget_dset_other|auto]. Qed.

  Lemma steps_keys l : forall d d', foldM one l d = Ok d' -> NoDup (map fst d) ->
    NoDup (map fst d') /\ forall n, In n (map fst d') -> In n (map fst d) \/ exists p, In p l /\ LastPart (si_id p) n.
  Proof.
    induction l as [|p l IH]; intros d d' E N; cbn [foldM] in E; [injection E as <-; auto|].
    binv E d1 E1. destruct (one_ok _ _ _ E1) as (r & _ & ->).
    destruct (IH _ _ E) as (A & B). { destruct r; [apply nodup_dset|]; exact N. }
    split; [exact A|]. intros n I. destruct (B n I) as [H|(q & Q & L)]; [|right; exists q; split; [right; exact Q|exact L]].
    apply put_keys in H. destruct H as [->|H]; [|auto]. right. exists p. split; [left; reflexivity|apply basename_LastPart].
  Qed.
  Lemma steps_other l : forall d d' n, foldM one l d = Ok d' -> (forall q, In q l -> ~ LastPart (si_id q) n) -> dget n d' = dget n d.
  Proof.
    induction l as [|p l IH]; intros d d' n E N; cbn [foldM] in E; [injection E as <-; reflexivity|].
    binv E d1 E1. destruct (one_ok _ _ _ E1) as (r & _ & ->). rewrite (IH _ _ n E); [|intros q Q; apply N; right; exact Q].
    apply put_other. intros ->. apply (N p (or_introl eq_refl)), basename_LastPart.
  Qed.
  Lemma foldM_app {A T} (f : T -> A -> result T) a b s : foldM f (a ++ b) s = do s' <- foldM f a s; foldM f b s'.
  Proof. revert s. induction a as [|x a IH]; intros s; cbn [app foldM bind]; [reflexivity|]. destruct (f s x); cbn [bind]; [apply IH|reflexivity]. Qed.

  (** The example inputs of a step *)
  Theorem C90_step_inputs v : step_mock src_example steps st = Ok v -> exists d, v = JDict d /\ NoDup (map fst d) /\
    (forall n, In n (map fst d) -> exists p, In p (ws_in st) /\ LastPart (si_id p) n) /\
    (forall a p b n, ws_in st = a ++ p :: b -> LastPart (si_id p) n -> (forall q, In q a \/ In q b -> ~ LastPart (si_id q) n) ->
       StepExample of_source p (dget n d)).
  Proof.
    rewrite step_mock_one. intros E. binv E d Ed. injection E as <-. exists d. split; [reflexivity|].
    destruct (steps_keys _ _ _ Ed) as (A & B); [constructor|]. split; [exact A|]. split.
    - intros n I. destruct (B n I) as [[]|H]; exact H.
    - intros a p b n L P N. rewrite L, foldM_app in Ed. binv Ed d1 E1. cbn [foldM] in Ed. binv Ed d2 E2.
      destruct (one_ok _ _ _ E2) as (r & R & ->). apply LastPart_basename in P. subst n.
      rewrite (steps_other _ _ _ _ Ed); [|auto]. destruct r as [x|]; cbn [put].
      + rewrite dget_dset_same. exact R.
      + rewrite (steps_other _ _ _ _ E1); [|auto]. exact R.
  Qed.
  Theorem C90_step_total : (forall p, In p (ws_in st) -> exists r, StepExample of_source p r) ->
    exists v, step_mock src_example steps st = Ok v.
  Proof.
    rewrite step_mock_one. generalize (ws_in st) as l. intros l H.
    assert (G : forall d, exists d', foldM one l d = Ok d').
    { induction l as [|p l IH]; intros d; cbn [foldM]; [eauto|]. destruct (H p (or_introl eq_refl)) as (r & R).
      destruct (one_total _ _ R d) as (d1 & ->). cbn [bind]. apply IH. intros q Q. apply H. right. exact Q. }
    destruct (G []) as (d & ->). cbn [bind]. eauto.
  Qed.
  Lemma unset_fails p : In p (ws_in st) -> si_source p = SNone -> NoText (si_valueFrom p) -> Nothing (si_default p) ->
    of_source SNone = Err TypeError -> forall v, step_mock src_example steps st <> Ok v.
  Proof.
    rewrite step_mock_one. intros I S V D Q v E. binv E d Ed. apply in_split in I. destruct I as (a & b & L).
    rewrite L, foldM_app in Ed. binv Ed d1 E1. cbn [foldM] in Ed. binv Ed d2 E2. unfold one in E2. rewrite S in E2.
    apply filled_NoText in V. apply truthy_Nothing in D. rewrite V, D, Q in E2. discriminate E2.
  Qed.
End Step.

(** The value of self for an outputEval: one file, with contents exactly if loadContents is set *)
Theorem C90_output_self : forall contents, exists d, eval_self contents = JList [JDict d] /\ OfType "File" (JDict d) /\
  (exists base root ext, dget "basename" d = Some (JStr base) /\ dget "nameroot" d = Some (JStr root) /\ dget "nameext" d = Some (JStr ext)) /\
  ((exists c, dget "contents" d = Some (JStr c)) <-> contents = true).
Proof.
  intros c. eexists. split; [reflexivity|]. destruct c.
  all: split; [apply OT_file; [reflexivity|eexists; reflexivity|]; exists "path"; eexists; split; [tauto|reflexivity]|].
  all: split; [do 3 eexists; repeat split; reflexivity|].
  - split; [reflexivity|]. intros _. eexists. reflexivity.
  - split; [intros (x & E); discriminate E|discriminate].
Qed.

Section Flow.
  Variable gx : json -> json -> json -> result (option string).
  Variable ev : string -> json -> result json.
  Variable src_example self_example : list wstep -> wstep -> src -> result json.
  Variable src_params : list wstep -> src -> result nat.
  Variable src_known : list wstep -> wstep -> string -> result unit.
  Variable out_known : list wstep -> src -> result unit.
  Variable load_run : string -> result (tool * bool).
  Variable attrs : list string.
  Variable replace_etool skip1 skip2 : bool.
  Notation refactored fuel w := (traverse_workflow gx ev src_example self_example src_params src_known out_known load_run attrs
                                   replace_etool skip1 skip2 fuel w).

  Lemma loop_fails (UNSET : forall steps st, src_example steps st SNone = Err TypeError) st p :
    startswith "_expression" (ws_id st) = false -> In p (ws_in st) -> si_source p = SNone -> NoText (si_valueFrom p) -> Nothing (si_default p) ->
    forall fuel wreqs done_ todo m r, In st todo ->
    steps_loop gx src_example self_example src_params src_known attrs replace_etool skip1 skip2 fuel wreqs done_ todo m <> Ok r.
  Proof.
    intros X I S V D. induction fuel as [|fuel IH]; intros wreqs done_ todo m r T E; cbn [steps_loop] in E.
    { destruct todo; [destruct T|discriminate E]. }
    destruct todo as [|s todo]; [destruct T|]. destruct T as [->|T].
    - rewrite X in E. binv E q Eqq. unfold traverse_step in Eqq. binv Eqq mock Em.
      exact (unset_fails src_example _ st p I S V D (UNSET _ _) _ Em).
    - destruct (startswith "_expression" (ws_id s)); [exact (IH _ _ _ _ _ T E)|].
      binv E q Eqq. destruct q as [[[s' gen] m'] sub]. refine (IH _ _ _ _ _ _ E). apply in_or_app. left. exact T.
  Qed.

  (** Looking for the type of no source is a TypeError (parser/utils.py:275 goes through None).
      So a workflow in which an input of a step is left without a value, or has a default such
      as 0, false or an empty text, cannot be refactored, even if there is no expression in it. *)
  Theorem C90_unset_input : (forall steps st, src_example steps st SNone = Err TypeError) ->
    forall w st p, In st (wf_steps w) -> startswith "_expression" (ws_id st) = false ->
    In p (ws_in st) -> si_source p = SNone -> NoText (si_valueFrom p) -> Nothing (si_default p) ->
    forall fuel r, refactored fuel w <> Ok r.
  Proof.
    intros UNSET w st p T X I S V D fuel r E. unfold traverse_workflow in E. binv E ls El. binv E q Eqq.
    apply mapM_Forall2 in El.
    assert (H : exists st', In st' (map fst ls) /\ ws_id st' = ws_id st /\ ws_in st' = ws_in st).
    { clear - El T. induction El as [|s (s', b) a c H F IH]; [destruct T|]. destruct T as [->|T].
      - exists s'. split; [left; reflexivity|]. unfold load_step in H. destruct (ws_run st) as [u|t|sb].
        + binv H q Eqq. injection H as <- <-. auto.
        + destruct (is_etool t && replace_etool); injection H as <- <-; auto.
        + injection H as <- <-. auto.
      - destruct (IH T) as (x & A & B). exists x. split; [right; exact A|exact B]. }
    destruct H as (st' & T' & X' & I'). rewrite <- X' in X. rewrite <- I' in I.
    exact (loop_fails UNSET st' p X I S V D _ _ _ _ _ _ T' Eqq).
  Qed.
End Flow.

(** What is expected of the examples and not so: that each is a value of its type, and that the
    names of the example file agree with each other *)
Theorem C90_type_refuted : forall t, In t ["long"; "float"; "double"] -> ~ OfType t (example_input (JStr t)).
Proof. intros t [<-|[<-|[<-|[]]]] H; inversion H. Qed.
Theorem C90_array_refuted : forall items l, example_input (JDict [("type", JStr "array"); ("items", items)]) <> JList l.
Proof. discriminate. Qed.
Theorem C90_file_names_refuted : exists d base root ext, example_input (JStr "File") = JDict d /\
  dget "basename" d = Some (JStr base) /\ dget "nameroot" d = Some (JStr root) /\ dget "nameext" d = Some (JStr ext) /\
  base <> (root ++ ext)%string.
Proof. do 4 eexists. split; [reflexivity|]. repeat (split; [reflexivity|]). discriminate. Qed.

(** ** Cases *)
Definition unset_case (d : json) : workflow :=
  {| wf_inputs := []; wf_outputs := [];
     wf_steps := [{| ws_id := "w.cwl#s"; ws_in := [{| si_id := "w.cwl#s/x"; si_source := SNone; si_valueFrom := None; si_linkMerge := None; si_default := d |}];
                     ws_run := RTool {| t_kind := KClt; t_inputs := [{| ti_id := "t.cwl#x"; ti_type := JStr "int"; ti_valueFrom := None |}];
                                        t_args := []; t_stdout := None; t_stderr := None; t_outputs := []; t_reqs := None; t_hints := [];
                                        t_expression := "" |};
                     ws_scatter := SNone; ws_scatterMethod := None; ws_when := None; ws_reqs := None |}];
     wf_reqs := None |}.
Definition no_source (_ : list wstep) (_ : wstep) (s : src) : result json := match s with SNone => Err TypeError | _ => Ok JNull end.
Definition unset_run (w : workflow) : result (workflow * bool) :=
  traverse_workflow (fun _ _ _ => Ok None) (fun _ _ => Ok JNull) no_source no_source (fun _ _ => Ok 1) (fun _ _ _ => Ok tt) (fun _ _ => Ok tt)
    (fun _ => Err WorkflowException) [] false false false 9 w.
Example C90_unset_input_case : unset_run (unset_case (JInt 0)) = Err TypeError /\ unset_run (unset_case (JInt 1)) = Ok (unset_case (JInt 1), false).
Proof. split; reflexivity. Qed.
Example C90_step_inputs_case : step_mock no_source [] (hd (gen_step "" [] (etool [] [] "") SNone None) (wf_steps (unset_case (JInt 1)))) = Ok (JDict [("x", JInt 1)]).
Proof. reflexivity. Qed.
Example C90_process_inputs_case : tool_mock [{| ti_id := "t.cwl#x"; ti_type := JStr "int"; ti_valueFrom := None |};
    {| ti_id := "t.cwl#y"; ti_type := JStr "float"; ti_valueFrom := None |}; {| ti_id := "t.cwl#b"; ti_type := JStr "boolean"; ti_valueFrom := None |}] =
  JDict [("x", JInt 23); ("y", JNull); ("b", JBool true)].
Proof. reflexivity. Qed.

Print Assumptions C90_process_inputs.
Print Assumptions C90_workflow_inputs.
Print Assumptions C90_step_inputs.
Print Assumptions C90_step_total.
Print Assumptions C90_output_self.
Print Assumptions C90_unset_input.
Print Assumptions C90_type_refuted.
Print Assumptions C90_array_refuted.
Print Assumptions C90_file_names_refuted.
