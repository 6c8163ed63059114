(** * Lemmas about pickValue and its programs *)
From Verif Require Import PyBase PyBaseProofs RefactorSpec RefactorModel FlowModel FlowSpec FlowProofs FlowProofs2 FlowValueSpec PickSpec.

(** ** The language is deterministic *)
Scheme Eval_m := Minimality for Eval Sort Prop
  with Exec_m := Minimality for Exec Sort Prop
  with Exec1_m := Minimality for Exec1 Sort Prop
  with Loop_m := Minimality for Loop Sort Prop
  with Each_m := Minimality for Each Sort Prop.
Combined Scheme js_ind from Eval_m, Exec_m, Exec1_m, Loop_m, Each_m.

Ltac same IH := match goal with H : _ |- _ => apply IH in H end.
Lemma deterministic : forall r,
  (forall e v, Eval r e v -> forall v', Eval r e v' -> v' = v) /\
  (forall l o, Exec r l o -> forall o', Exec r l o' -> o' = o) /\
  (forall s o, Exec1 r s o -> forall o', Exec1 r s o' -> o' = o) /\
  (forall i b l o, Loop r i b l o -> forall o', Loop r i b l o' -> o' = o) /\
  (forall i b l o, Each r i b l o -> forall o', Each r i b l o' -> o' = o).
Proof.
  apply js_ind; intros;
    match goal with H : Eval _ _ ?v |- ?v = _ => inversion H; subst | H : Exec _ _ ?v |- ?v = _ => inversion H; subst
                  | H : Exec1 _ _ ?v |- ?v = _ => inversion H; subst | H : Loop _ _ _ _ ?v |- ?v = _ => inversion H; subst
                  | H : Each _ _ _ _ ?v |- ?v = _ => inversion H; subst end; try reflexivity;
    repeat match goal with
           | IH : forall v, Eval ?r ?e v -> v = _, H : Eval ?r ?e _ |- _ => apply IH in H; try discriminate H; try (injection H; clear H; intros); subst
           | IH : forall v, Exec ?r ?e v -> v = _, H : Exec ?r ?e _ |- _ => apply IH in H; try discriminate H; try (injection H; clear H; intros); subst
           | IH : forall v, Exec1 ?r ?e v -> v = _, H : Exec1 ?r ?e _ |- _ => apply IH in H; try discriminate H; try (injection H; clear H; intros); subst
           | IH : forall v, Loop ?r ?a ?b ?c v -> v = _, H : Loop ?r ?a ?b ?c _ |- _ => apply IH in H; try discriminate H; try (injection H; clear H; intros); subst
           | IH : forall v, Each ?r ?a ?b ?c v -> v = _, H : Each ?r ?a ?b ?c _ |- _ => apply IH in H; try discriminate H; try (injection H; clear H; intros); subst
           | H : ends (Goes _) |- _ => destruct H
           end; try congruence.
  { assert (Z.of_nat n = Z.of_nat n0) by congruence. assert (n = n0) by lia. congruence. }
  all: try (match goal with A : ?r ?i = Some (JInt ?z), B : ?r ?i = Some (JInt ?z') |- _ => assert (z = z') by congruence; subst end).
  all: repeat match goal with
           | IH : forall v, Loop ?r ?a ?b ?c v -> v = _, H : Loop ?r ?a ?b ?c _ |- _ => apply IH in H; subst
           end; try congruence.
  match goal with A : ?r ?x = Some (JList ?l), B : ?r ?x = Some (JList ?m), H : Each _ _ _ ?m _ |- _ => assert (l = m) by congruence; subst; auto end.
Qed.


(** ** The three programs *)
Definition wrapped (body : list jstmt) : list jstmt := [SVar "self" (EDot "inputs" "self"); SReturn (EResult (ECall body))].
Definition not_null (e : jexpr) : jexpr := EDiffers e ENull.
Definition complain (text : string) : jstmt := SThrow (EPlus (EText text) (EVar "self")).
Definition first_body : list jstmt := [SIf (not_null (EIndex "self" "i")) [SReturn (EIndex "self" "i")] None].
Definition first_prog : list jstmt :=
  [SFor "i" (EDot "self" "length") first_body; complain "pickValue=first_non_null, but no non-null value found: "].
Definition only_body : list jstmt :=
  [SIf (not_null (EVar "item"))
     [SIf (not_null (EVar "found")) [complain "pickValue=the_only_non_null, but multiple non-null values found: "]
        (Some [SSet "found" (EVar "item")])] None].
Definition only_prog : list jstmt :=
  [SVar "found" ENull; SEach "self" "item" only_body; SIf (not_null (EVar "found")) [SReturn (EVar "found")] None;
   complain "pickValue=the_only_non_null, but no non-null value found: "].
Definition all_body : list jstmt := [SIf (not_null (EVar "item")) [SPush "results" (EVar "item")] None].
Definition all_prog : list jstmt := [SVar "results" EEmpty; SEach "self" "item" all_body; SReturn (EVar "results")].

Lemma pick_code p text : pick_expr p = Ok text ->
  (p = "first_non_null" /\ Code (etool_expression (Some "self") text) (wrapped first_prog)) \/
  (p = "the_only_non_null" /\ Code (etool_expression (Some "self") text) (wrapped only_prog)) \/
  (p = "all_non_null" /\ Code (etool_expression (Some "self") text) (wrapped all_prog)).
Proof.
  assert (G : forall code prog, Writes code prog -> Code ("${" ++ code ++ "}") prog) by (intros; eexists; eauto).
  unfold pick_expr. destruct (String.eqb_spec p "first_non_null") as [->|_]; [|destruct (String.eqb_spec p "the_only_non_null") as [->|_];
    [|destruct (String.eqb_spec p "all_non_null") as [->|_]; [|discriminate]]]; intros E; injection E as <-.
  - left. split; [reflexivity|].
    match goal with |- Code ?t _ => let t' := eval vm_compute in (sdrop_last 1 (sdrop 2 t)) in exists t' end. split; vm_compute; reflexivity.
  - right. left. split; [reflexivity|].
    match goal with |- Code ?t _ => let t' := eval vm_compute in (sdrop_last 1 (sdrop 2 t)) in exists t' end. split; vm_compute; reflexivity.
  - right. right. split; [reflexivity|].
    match goal with |- Code ?t _ => let t' := eval vm_compute in (sdrop_last 1 (sdrop 2 t)) in exists t' end. split; vm_compute; reflexivity.
Qed.

(** ** What they do *)
Lemma null_dec (v : json) : {v = JNull} + {v <> JNull}.
Proof. destruct v; [left; reflexivity | right; discriminate ..]. Qed.
Lemma is_null_not v : v <> JNull -> negb (is_null v) = true.
Proof. destruct v; [congruence | reflexivity ..]. Qed.
Lemma ev_not_null r e v : Eval r e (Value v) -> v <> JNull -> Eval r (not_null e) (Value (JBool true)).
Proof. intros E N. rewrite <- (is_null_not v N). apply E_differs. exact E. Qed.
Lemma ev_null r e : Eval r e (Value JNull) -> Eval r (not_null e) (Value (JBool false)).
Proof. intros E. change false with (negb (is_null JNull)). apply E_differs. exact E. Qed.
Lemma nth_middle (a : list json) v b : nth_error (a ++ v :: b) (List.length a) = Some v.
Proof. rewrite nth_error_app2, Nat.sub_diag; [reflexivity | lia]. Qed.

Section First.
  Variable r : env.
  Variable all : list json.
  Notation bound := (EDot "self" "length").
  Lemma less r' n : r' "self" = Some (JList all) -> r' "i" = Some (JInt (Z.of_nat n)) ->
    Eval r' (ELess (EVar "i") bound) (Value (JBool (Z.of_nat n <? Z.of_nat (List.length all))%Z)).
  Proof. intros S I. apply E_less; [apply E_var; exact I | apply E_length; exact S]. Qed.
  Lemma first_end a r' : a = all -> r' "self" = Some (JList all) -> r' "i" = Some (JInt (Z.of_nat (List.length a))) ->
    Loop r' "i" bound first_body (Goes r').
  Proof. intros -> S I. apply L_done. pose proof (less r' _ S I) as L. rewrite Z.ltb_irrefl in L. exact L. Qed.
  Lemma at_i a v b r' : a ++ v :: b = all -> r' "self" = Some (JList all) -> r' "i" = Some (JInt (Z.of_nat (List.length a))) ->
    Eval r' (ELess (EVar "i") bound) (Value (JBool true)) /\ Eval r' (EIndex "self" "i") (Value v).
  Proof.
    intros A S I. split.
    - pose proof (less r' _ S I) as L. replace (_ <? _)%Z with true in L; [exact L|]. symmetry. apply Z.ltb_lt.
      rewrite <- A, app_length. cbn. lia.
    - eapply E_index; [exact S | exact I|]. rewrite <- A. apply nth_middle.
  Qed.
  Lemma first_skip a b r' o : a ++ JNull :: b = all -> r' "self" = Some (JList all) -> r' "i" = Some (JInt (Z.of_nat (List.length a))) ->
    Loop (bind "i" (Some (JInt (Z.of_nat (List.length (a ++ [JNull]))))) r') "i" bound first_body o -> Loop r' "i" bound first_body o.
  Proof.
    intros A S I L. destruct (at_i _ _ _ _ A S I) as (B & V). eapply L_again; [exact B | | exact I|].
    - eapply X_next; [|apply X_nil]. apply X_skip. apply ev_null. exact V.
    - rewrite app_length in L. cbn [List.length] in L. replace (Z.of_nat _ + 1)%Z with (Z.of_nat (List.length a + 1)) by lia. exact L.
  Qed.
  Lemma first_found : forall a' v b a r', a ++ a' ++ v :: b = all -> AllNull a' -> v <> JNull ->
    r' "self" = Some (JList all) -> r' "i" = Some (JInt (Z.of_nat (List.length a))) -> Loop r' "i" bound first_body (Returns v).
  Proof.
    induction a' as [|x a' IH]; intros v b a r' A N V S I.
    - destruct (at_i a v b r' A S I) as (B & X). eapply L_ends; [exact B | | exact Logic.I].
      eapply X_ends; [|exact Logic.I]. apply X_yes; [eapply ev_not_null; eauto|]. eapply X_ends; [|exact Logic.I]. apply X_return. exact X.
    - apply Forall_cons_iff in N; destruct N as (-> & N'). cbn [app] in *. eapply (first_skip a); [exact A | exact S | exact I|].
      apply (IH v b (a ++ [JNull])); auto. rewrite <- app_assoc. exact A.
  Qed.
  Lemma first_none : forall l a r', a ++ l = all -> AllNull l ->
    r' "self" = Some (JList all) -> r' "i" = Some (JInt (Z.of_nat (List.length a))) -> exists r'', Loop r' "i" bound first_body (Goes r'').
  Proof.
    induction l as [|x l IH]; intros a r' A N S I.
    - rewrite app_nil_r in A. eexists. eapply first_end; eauto.
    - apply Forall_cons_iff in N; destruct N as (-> & N'). destruct (IH (a ++ [JNull]) (bind "i" (Some (JInt (Z.of_nat (List.length (a ++ [JNull]))))) r')) as (r'' & L); auto.
      { rewrite <- app_assoc. exact A. }
      exists r''. eapply (first_skip a); eauto.
  Qed.
End First.

Section Each.
  Notation each_only := (fun r l o => Each r "item" only_body l o).
  Lemma only_skip r l o : each_only (bind "item" (r "item") (bind "item" (Some JNull) r)) l o -> each_only r (JNull :: l) o.
  Proof. intros E. eapply A_again; [|exact E]. eapply X_next; [|apply X_nil]. apply X_skip. apply ev_null. apply E_var. reflexivity. Qed.
  Lemma only_nulls : forall l r f, AllNull l -> r "found" = Some f -> exists r', each_only r l (Goes r') /\ r' "found" = Some f.
  Proof.
    induction l as [|x l IH]; intros r f N F; [exists r; split; [apply A_done | exact F]|].
    apply Forall_cons_iff in N; destruct N as (-> & N'). destruct (IH (bind "item" (r "item") (bind "item" (Some JNull) r)) f N' F) as (r' & E & G).
    exists r'. split; [|exact G]. apply only_skip. exact E.
  Qed.
  Lemma only_take r v l o : v <> JNull -> r "found" = Some JNull ->
    (forall r', r' "found" = Some v -> each_only r' l o) -> each_only r (v :: l) o.
  Proof.
    intros V F H. apply A_again with (r' := bind "found" (Some v) (bind "item" (Some v) r)); [|apply H; reflexivity]. eapply X_next; [|apply X_nil].
    apply X_yes; [apply (ev_not_null _ _ v); [apply E_var; reflexivity | exact V]|]. eapply X_next; [|apply X_nil].
    apply X_no; [apply ev_null; apply E_var; exact F|]. eapply X_next; [|apply X_nil]. apply X_set. apply E_var. reflexivity.
  Qed.
  Lemma only_second r f v l : f <> JNull -> v <> JNull -> r "found" = Some f -> each_only r (v :: l) Throws.
  Proof.
    intros Fn V F. apply A_throws. eapply X_ends; [|exact Logic.I].
    apply X_yes; [apply (ev_not_null _ _ v); [apply E_var; reflexivity | exact V]|]. eapply X_ends; [|exact Logic.I].
    apply X_yes; [apply (ev_not_null _ _ f); [apply E_var; exact F | exact Fn]|]. eapply X_ends; [apply X_throw | exact Logic.I].
  Qed.
  Lemma only_found_then_throws : forall b r f w c, f <> JNull -> w <> JNull -> r "found" = Some f -> each_only r (b ++ w :: c) Throws.
  Proof.
    induction b as [|x b IH]; intros r f w c Fn W F; [exact (only_second _ f _ _ Fn W F)|]. cbn [app].
    destruct (null_dec x) as [->|X]; [|exact (only_second _ f _ _ Fn X F)]. apply only_skip. exact (IH _ f w c Fn W F).
  Qed.
  Lemma only_two_throws : forall a r v b w c, v <> JNull -> w <> JNull -> r "found" = Some JNull -> each_only r (a ++ v :: b ++ w :: c) Throws.
  Proof.
    induction a as [|x a IH]; intros r v b w c V W F; cbn [app].
    - apply only_take; [exact V | exact F|]. intros r' R. exact (only_found_then_throws _ _ v w c V W R).
    - destruct (null_dec x) as [->|X]; [apply only_skip; apply IH; auto|]. apply only_take; [exact X | exact F|].
      intros r' R. replace (a ++ v :: b ++ w :: c) with ((a ++ v :: b) ++ w :: c) by (rewrite <- app_assoc; reflexivity). exact (only_found_then_throws _ _ x w c X W R).
  Qed.

  Lemma all_kept l l' : Kept l l' -> forall r acc, r "results" = Some (JList acc) ->
    exists r', Each r "item" all_body l (Goes r') /\ r' "results" = Some (JList (acc ++ l')).
  Proof.
    induction 1 as [|l l' K IH|v l l' V K IH]; intros r acc R.
    - exists r. rewrite app_nil_r. split; [apply A_done | exact R].
    - destruct (IH (bind "item" (r "item") (bind "item" (Some JNull) r)) acc R) as (r' & E & G). exists r'. split; [|exact G].
      eapply A_again; [|exact E]. eapply X_next; [|apply X_nil]. apply X_skip. apply ev_null. apply E_var. reflexivity.
    - edestruct (IH (bind "item" (r "item") (bind "results" (Some (JList (acc ++ [v]))) (bind "item" (Some v) r))) (acc ++ [v]) eq_refl) as (r' & E & G).
      exists r'. rewrite <- app_assoc in G. split; [|exact G].
      eapply A_again; [|exact E]. eapply X_next; [|apply X_nil].
      apply X_yes; [apply (ev_not_null _ _ v); [apply E_var; reflexivity | exact V]|]. eapply X_next; [|apply X_nil].
      apply X_push; [exact R | apply E_var; reflexivity].
  Qed.
End Each.

Definition body_of (p : string) : list jstmt :=
  if String.eqb p "first_non_null" then first_prog else if String.eqb p "the_only_non_null" then only_prog else all_prog.
Definition out_of (o : option json) : outcome := match o with Some v => Returns v | None => Throws end.
Lemma body_runs p l o : Picked p l o -> forall r, r "self" = Some (JList l) -> Exec r (body_of p) (out_of o).
Proof.
  intros P r S. destruct P as [a v b N V | l N | a v b N V Nb | l N | a v b w c V W | l l' K]; cbn [out_of].
  - eapply X_ends; [|exact Logic.I]. change (Returns v) with (leave "i" r (Returns v)). apply X_for.
    apply (first_found (a ++ v :: b) a v b []); auto.
  - destruct (first_none l l [] (bind "i" (Some (JInt 0)) r) eq_refl N S eq_refl) as (r' & L).
    eapply X_next; [exact (X_for _ _ _ _ _ L)|]. eapply X_ends; [apply X_throw | exact Logic.I].
  - eapply X_next; [apply X_var; apply E_null|]. set (r1 := bind "found" (Some JNull) r).
    assert (X : exists r', Each r1 "item" only_body (a ++ v :: b) (Goes r') /\ r' "found" = Some v).
    { assert (Q : forall a r1, AllNull a -> r1 "found" = Some JNull -> exists r', Each r1 "item" only_body (a ++ v :: b) (Goes r') /\ r' "found" = Some v).
      { clear - V Nb. induction a as [|x a IH]; intros r1 N R.
        - edestruct (only_nulls b (bind "item" (r1 "item") (bind "found" (Some v) (bind "item" (Some v) r1))) v Nb eq_refl) as (r' & E & F).
          exists r'. split; [|exact F]. eapply A_again; [|exact E]. eapply X_next; [|apply X_nil].
          apply X_yes; [apply (ev_not_null _ _ v); [apply E_var; reflexivity | exact V]|]. eapply X_next; [|apply X_nil].
          apply X_no; [apply ev_null; apply E_var; exact R|]. eapply X_next; [|apply X_nil]. apply X_set. apply E_var. reflexivity.
        - apply Forall_cons_iff in N; destruct N as (-> & N'). destruct (IH (bind "item" (r1 "item") (bind "item" (Some JNull) r1)) N' R) as (r' & E & F).
          exists r'. split; [|exact F]. apply only_skip. exact E. }
      apply Q; [exact N | reflexivity]. }
    destruct X as (r' & E & F). eapply X_next; [eapply X_each; [exact S | exact E]|].
    eapply X_ends; [|exact Logic.I]. apply X_yes; [apply (ev_not_null _ _ v); [apply E_var; exact F | exact V]|].
    eapply X_ends; [apply X_return; apply E_var; exact F | exact Logic.I].
  - eapply X_next; [apply X_var; apply E_null|]. destruct (only_nulls l (bind "found" (Some JNull) r) JNull N eq_refl) as (r' & E & F).
    eapply X_next; [eapply X_each; [exact S | exact E]|]. eapply X_next; [apply X_skip; apply ev_null; apply E_var; exact F|].
    eapply X_ends; [apply X_throw | exact Logic.I].
  - eapply X_next; [apply X_var; apply E_null|]. eapply X_ends; [|exact Logic.I]. eapply X_each; [exact S|]. apply only_two_throws; auto.
  - eapply X_next; [apply X_var; apply E_empty|]. destruct (all_kept l l' K (bind "results" (Some (JList [])) r) [] eq_refl) as (r' & E & F).
    eapply X_next; [eapply X_each; [exact S | exact E]|]. eapply X_ends; [apply X_return; apply E_var; exact F | exact Logic.I].
Qed.

(** ** Every list has a result *)
Lemma split_null l : AllNull l \/ exists a v b, l = a ++ v :: b /\ AllNull a /\ v <> JNull.
Proof.
  induction l as [|x l IH]; [left; constructor|]. destruct (null_dec x) as [->|X].
  - destruct IH as [N | (a & v & b & -> & N & V)]; [left; constructor; auto|]. right. exists (JNull :: a), v, b. split; [reflexivity|]. split; [constructor; auto | exact V].
  - right. exists [], x, l. split; [reflexivity|]. split; [constructor | exact X].
Qed.
Lemma kept_total l : exists l', Kept l l'.
Proof.
  induction l as [|x l (l' & K)]; [exists []; constructor|]. destruct (null_dec x) as [->|X]; [exists l' | exists (x :: l')]; constructor; auto.
Qed.
Lemma picked_total p l : p = "first_non_null" \/ p = "the_only_non_null" \/ p = "all_non_null" -> exists o, Picked p l o.
Proof.
  intros [-> | [-> | ->]].
  - destruct (split_null l) as [N | (a & v & b & -> & N & V)]; eexists; [apply P_first_none | apply P_first]; auto.
  - destruct (split_null l) as [N | (a & v & b & -> & N & V)]; [eexists; apply P_only_none; exact N|].
    destruct (split_null b) as [M | (c & w & d & -> & M & W)]; eexists; [apply P_only | apply P_only_two]; auto.
  - destruct (kept_total l) as (l' & K). eexists. apply P_all. exact K.
Qed.

Lemma program_picks p inputs l out : p = "first_non_null" \/ p = "the_only_non_null" \/ p = "all_non_null" ->
  dget "self" inputs = Some (JList l) ->
  (Exec (only_inputs inputs) (wrapped (body_of p)) out <->
   (exists v, Picked p l (Some v) /\ out = Returns (JDict [("result", v)])) \/ (Picked p l None /\ out = Throws)).
Proof.
  intros Hp S.
  assert (X : forall o, Picked p l o -> Exec (only_inputs inputs) (wrapped (body_of p))
                (match o with Some v => Returns (JDict [("result", v)]) | None => Throws end)).
  { intros o P. eapply X_next; [apply X_var; eapply E_field; [reflexivity | exact S]|].
    pose proof (body_runs p l o P (bind "self" (Some (JList l)) (only_inputs inputs)) eq_refl) as B.
    eapply X_ends; [|destruct o; exact Logic.I]. destruct o as [v|]; [apply X_return; apply E_result; apply E_call; exact B|].
    apply X_return_throws. apply E_result_throws. apply E_call_throws. exact B. }
  split.
  - intros E. destruct (picked_total p l Hp) as (o & P). pose proof (proj1 (proj2 (deterministic _)) _ _ (X o P) _ E) as ->.
    destruct o as [v|]; [left; eauto | right; auto].
  - intros [(v & P & ->) | (P & ->)]; [exact (X (Some v) P) | exact (X None P)].
Qed.

(** ** The step *)
Lemma pick_step replace_etool procs o p g text : pick_expr p = Ok text ->
  (wo_source o = SNone -> False) ->
  let sources := match wo_source o with SNone => SNone | SOne x => SOne (after_hash x) | SMany l => SMany (map after_hash l) end in
  ws_id g = ("_pickValue_workflow_step_" ++ after_hash (wo_id o))%string ->
  (exists extra, ws_in g = ws_in (expr_step replace_etool procs (ws_id g) sources text) ++ extra /\ forall j, In j extra -> StartsWith "_" (si_id j)) ->
  ws_run g = ws_run (expr_step replace_etool procs (ws_id g) sources text) ->
  ws_scatter g = SNone -> ws_when g = None ->
  PickMade o p g.
Proof.
  intros Ep NS sources Id (extra & In_ & Ex) R Sc Wh. split; auto.
  - exists (after_hash (wo_id o)). split; [apply Fragment_after_hash | exact Id].
  - intros (L1 & L2). unfold sources, expr_step, gen_step in In_. cbn [ws_in] in In_.
    assert (Sd : sourced (match wo_source o with SNone => SNone | SOne x => SOne (after_hash x) | SMany l => SMany (map after_hash l) end) = true).
    { destruct (wo_source o) as [|x|[|x l]]; [destruct NS; reflexivity | | congruence | reflexivity]. cbn.
      destruct (String.eqb_spec (after_hash x) "") as [E|]; [|reflexivity]. destruct (L2 x eq_refl). rewrite <- E. apply Fragment_after_hash. }
    rewrite Sd in In_. eexists. exists extra. split; [exact In_|]. split; [reflexivity|]. cbn [si_source si_linkMerge si_valueFrom si_default].
    split; [|auto]. destruct (wo_source o) as [|x|l]; constructor.
    + right. apply Fragment_after_hash.
    + clear. induction l as [|x l IH]; cbn; constructor; auto. right. apply Fragment_after_hash.
  - rewrite R. unfold expr_step, gen_step. cbn [ws_run]. destruct (wo_source o); [destruct NS; reflexivity| |]; destruct replace_etool; (eexists; split; [reflexivity|]; split; reflexivity).
  - assert (H : Runs (ws_run g) (etool_expression (Some "self") text)).
    { rewrite R. unfold expr_step, gen_step, sources. cbn [ws_run]. destruct (wo_source o); [destruct NS; reflexivity| |]; destruct replace_etool;
        (eexists; split; [reflexivity|]); [right | left | right | left]; cbn; eauto. }
    exists (etool_expression (Some "self") text), (wrapped (body_of p)). split; [exact H|].
    destruct (pick_code p text Ep) as [(-> & C) | [(-> & C) | (-> & C)]]; (split; [exact C|]); intros; apply program_picks; auto.
Qed.
