(** * C43-C45, C60-C62: the refactoring tool: texts, references, libraries and files *)
From Verif Require Import PyBase PyBaseProofs ExprModel ExprSpec EvalModel EvalSpec EvalProofs InterpProofs
  RefactorModel RefactorSpec RefactorProofs ExprProps.
From Coq Require Import ZArith Lia.

(** ** C43: escaped text *)

(** Escaping puts a slash between each dollar sign and an opening bracket after it,
    and changes nothing else. *)
Theorem C43_exact : forall s, escape_expression_field s = slashed s.
Proof. exact escape_is_slashed. Qed.
Print Assumptions C43_exact.

(** Escaped text holds nothing that is evaluated: evaluation gives it back, in every version
    and with every JavaScript engine. *)
Theorem C43_inert : forall (St : Type) (js : St -> string -> string -> St * result json) dumps dumps4 loads
    st s inp reqs out tmp res ctx sw ver,
  Inert (escape_expression_field s) /\
  do_eval js dumps dumps4 loads st (JStr (escape_expression_field s)) inp reqs out tmp res ctx sw ver
  = (st, Ok (JStr (escape_expression_field s))).
Proof.
  intros. rewrite escape_is_slashed. split; [apply slashed_inert|].
  apply do_eval_passthrough. intros t [= <-]. apply slashed_inert.
Qed.
Print Assumptions C43_inert.

Theorem C43_unchanged : forall s, Inert s -> escape_expression_field s = s.
Proof. intros s I. rewrite escape_is_slashed. apply slashed_unchanged; auto. Qed.
Print Assumptions C43_unchanged.
Example C43_case : escape_expression_field "a ${b} $$(c) $x $" = "a $/{b} $$/(c) $x $"
  /\ Inert "a $ (b) {c} $" /\ ~ Inert "a $(b)".
Proof. split; [reflexivity|split; [split; reflexivity|intros [A _]; discriminate]]. Qed.

(** What is evaluated later is the escaped text: the original does not come back. *)
Theorem C43_original_refuted : ~ (forall (js : unit -> string -> string -> unit * result json) dumps dumps4 loads s inp,
  snd (do_eval js dumps dumps4 loads tt (JStr (escape_expression_field s)) inp [] None None [] JNull true "v1.2") = Ok (JStr s)).
Proof.
  intros H. specialize (H (fun st _ _ => (st, Ok JNull)) demo_dumps demo_dumps demo_loads "var x = '${y}';" JNull).
  vm_compute in H. discriminate.
Qed.
Print Assumptions C43_original_refuted.

(** ** C44: redirecting references *)

(** Replacing a workflow input by the output of a step redirects exactly the references to
    that input: in every step, in every output, in single sources and in lists. *)
Theorem C44_replace_input : forall w name target w', name <> "" ->
  replace_wf_input_ref_with_step_output w name target = w' ->
  Forall2 (Forall2 (Redirected (fun x => x = name) target)) (w_steps w) (w_steps w') /\
  Forall2 (Redirected (fun x => x = name) target) (w_outputs w) (w_outputs w').
Proof.
  intros w name target w' N <-. unfold replace_wf_input_ref_with_step_output. cbn [w_steps w_outputs]. split.
  - induction (w_steps w) as [|s l IH]; cbn [map]; constructor; auto.
    clear - N. induction s as [|x s IH]; cbn [map]; constructor; auto. apply replace_src_redirected; auto.
  - induction (w_outputs w) as [|x s IH]; cbn [map]; constructor; auto. apply replace_src_redirected; auto.
Qed.
Print Assumptions C44_replace_input.
Example C44_replace_case :
  replace_wf_input_ref_with_step_output
    {| w_steps := [[SOne "a"; SMany ["b"; "a"]]; []; [SNone; SOne "a/x"]]; w_outputs := [SOne "a"; SMany ["c"]] |} "a" "s/result"
  = {| w_steps := [[SOne "s/result"; SMany ["b"; "s/result"]]; []; [SNone; SOne "a/x"]]; w_outputs := [SOne "s/result"; SMany ["c"]] |}.
Proof. reflexivity. Qed.

(** Renaming a source: when the function returns, in the steps exactly the sources that name
    [old] are redirected; in the outputs exactly those that name an output [old] of any step. *)
Theorem C44_rename : forall w old new w', old <> "" -> rename_step_source w old new = Ok w' ->
  Forall2 (Forall2 (Redirected (fun x => Fragment x old) new)) (w_steps w) (w_steps w') /\
  Forall2 (Redirected (fun x => FromStep x old) new) (w_outputs w) (w_outputs w').
Proof.
  intros w old new w' N E. unfold rename_step_source in E.
  destruct (mapM (rename_output old new) (w_outputs w)) as [outs|] eqn:M; cbn [bind] in E; [|discriminate].
  injection E as <-. cbn [w_steps w_outputs]. split.
  - clear M. induction (w_steps w) as [|s l IH]; cbn [map]; constructor; auto.
    clear - N. induction s as [|x s IH]; cbn [map]; constructor; auto. apply rename_input_redirected; auto.
  - revert outs M. induction (w_outputs w) as [|x s IH]; intros outs M.
    + injection M as <-. constructor.
    + cbn [mapM] in M. destruct (rename_output old new x) as [y|] eqn:E; cbn [bind] in M; [|discriminate].
      destruct (mapM (rename_output old new) s) as [ys|]; cbn [bind] in M; [|discriminate].
      injection M as <-. constructor; auto. apply rename_output_ok; auto.
Qed.
Print Assumptions C44_rename.

(** It raises exactly when some output has a list of sources, or one source that does not
    name the output of a step; the first such output decides. *)
Theorem C44_rename_raises : forall w old new e,
  rename_step_source w old new = Err e <->
  exists a s b, w_outputs w = a ++ s :: b /\
    (forall x, In x a -> exists y, rename_output old new x = Ok y) /\
    ((e = IndexError /\ exists x f, s = SOne x /\ x <> "" /\ Fragment x f /\ has_char "/" f = false) \/
     (e = AttributeError /\ exists x l, s = SMany (x :: l))).
Proof.
  intros w old new e. unfold rename_step_source.
  assert (H : (exists x, mapM (rename_output old new) (w_outputs w) = Err x /\ x = e) <->
    exists a s b, w_outputs w = a ++ s :: b /\ (forall x, In x a -> exists y, rename_output old new x = Ok y) /\ rename_output old new s = Err e).
  { induction (w_outputs w) as [|x l IH]; cbn [mapM].
    - split; [intros (x & D & _); discriminate|]. intros (a & s & b & E & _). destruct a; discriminate.
    - destruct (rename_output old new x) as [y|x0] eqn:EX; cbn [bind].
      + split.
        * intros (x0 & E & ->). destruct (mapM (rename_output old new) l) as [ys|x1]; cbn [bind] in E; [discriminate|].
          injection E as ->. destruct (proj1 IH (ex_intro _ e (conj eq_refl eq_refl))) as (a & s & b & -> & F & R).
          exists (x :: a), s, b. split; [reflexivity|]. split; auto. intros z [<-|I]; eauto.
        * intros (a & s & b & E & F & R). destruct a as [|z a]; injection E as <- ->; [congruence|].
          destruct (proj2 IH) as (x1 & E1 & ->).
          { exists a, s, b. split; auto. split; auto. intros q I. apply F. right; auto. }
          rewrite E1. cbn [bind]. eauto.
      + split.
        * intros (x1 & [= <-] & <-). exists [], x, l. split; [reflexivity|]. split; [intros ? []|auto].
        * intros (a & s & b & E & F & R). destruct a as [|z a]; injection E as <- ->; [|destruct (F x (or_introl eq_refl)); congruence].
          exists x0. split; auto. congruence. }
  transitivity (exists x, mapM (rename_output old new) (w_outputs w) = Err x /\ x = e).
  - destruct (mapM (rename_output old new) (w_outputs w)); cbn [bind]; split; intros X; try discriminate; try (destruct X as (? & ? & ?); congruence).
    injection X as ->. eauto.
  - rewrite H. setoid_rewrite rename_output_err. reflexivity.
Qed.
Print Assumptions C44_rename_raises.
Example C44_rename_case :
  rename_step_source {| w_steps := [[SOne "file:///w.cwl#x"; SMany ["y"; "#x"]]]; w_outputs := [SOne "file:///w.cwl#step/x"; SNone] |} "x" "n"
  = Ok {| w_steps := [[SOne "n"; SMany ["y"; "n"]]]; w_outputs := [SOne "n"; SNone] |}
  /\ rename_step_source {| w_steps := []; w_outputs := [SOne "x"] |} "x" "n" = Err IndexError
  /\ rename_step_source {| w_steps := []; w_outputs := [SMany ["s/x"]] |} "x" "n" = Err AttributeError.
Proof. repeat split; reflexivity. Qed.

(** The step part of a name is not looked at in outputs: an output that names the same-named
    output of another step is redirected too, and one that names exactly the renamed source is not. *)
Theorem C44_rename_outputs_refuted : ~ (forall w old new w', old <> "" -> rename_step_source w old new = Ok w' ->
  Forall2 (Redirected (fun x => Fragment x old) new) (w_outputs w) (w_outputs w')).
Proof.
  intros H. specialize (H {| w_steps := [[SOne "s1/x"]]; w_outputs := [SOne "s1/x"] |} "s1/x" "n" _ ltac:(discriminate) eq_refl).
  vm_compute in H. inversion H as [|? ? ? ? R]; subst. inversion R as [|? ? [[_ E]|[N _]]|]; subst; [discriminate|].
  apply N. split; [reflexivity|left; reflexivity].
Qed.
Print Assumptions C44_rename_outputs_refuted.
Example C44_other_step : rename_step_source {| w_steps := []; w_outputs := [SOne "s2/x"] |} "x" "s1/y" = Ok {| w_steps := []; w_outputs := [SOne "s1/y"] |}.
Proof. reflexivity. Qed.

(** ** C45: files and exit codes of a run *)
Section Runs.
  Context {P : Type}.
  Variable parse : string -> result json.
  Variable traverse : string -> json -> string -> result (P * bool).
  Variable render : P -> result string.
  Notation run := (refactor parse traverse render).

  (** Only the output files are written. *)
  Theorem C45_frame : forall dir inputs fs q, (forall d, In d inputs -> ~ Output dir d q) ->
    fget q (fst (run dir inputs fs)) = fget q fs.
  Proof.
    intros dir inputs fs q N. apply documents_frame. intros d I E. apply (N d I). apply output_path_Output. auto.
  Qed.

  Section Codes.
    Variable dir : string.
    Variable inputs : list string.
    Variable fs : files.
    (* no input is the output of an input *)
    Hypothesis APART : forall x y, In x inputs -> In y inputs -> ~ Output dir x y.

    Lemma apart_paths x y : In x inputs -> In y inputs -> output_path dir x <> y.
    Proof. intros A B E. apply (APART x y A B). apply output_path_Output; auto. Qed.
    Lemma agrees_start : agrees fs inputs fs. Proof. intros d _. reflexivity. Qed.
  End Codes.

  (** Several documents. *)
  Theorem C45_zero : forall dir inputs fs, (forall x y, In x inputs -> In y inputs -> ~ Output dir x y) -> 1 < List.length inputs ->
    (snd (run dir inputs fs) = Ok 0%Z <->
     Forall (fun d => exists t, fget d fs = Some t /\
        ((exists out, Refactored parse traverse render d t out) \/ Unchanged parse traverse d t)) inputs).
  Proof.
    intros dir inputs fs AP L. unfold refactor. replace (List.length inputs <=? 1) with false by (symmetry; apply Nat.leb_gt; lia).
    rewrite (documents_code parse traverse render dir fs false inputs (apart_paths dir inputs AP) fs (agrees_start inputs fs)). clear L AP. split.
    - intros H. assert (G : forall c, c = 0%Z -> Code parse traverse render fs false inputs c 0 ->
        Forall (fun d => exists t, fget d fs = Some t /\
        ((exists out, Refactored parse traverse render d t out) \/ Unchanged parse traverse d t)) inputs).
      { clear H. induction inputs as [|d ds IH]; intros c E H; [constructor|].
        inversion H as [|? ? ? ? D H2|? ? ? ? D H2| |]; subst.
        - constructor; [|eapply IH; eauto]. destruct D as (t & T & [X|[_ X]]); exists t; auto.
        - exfalso. clear - H2. remember 1%Z as c1. remember 0%Z as c0. induction H2; subst; try discriminate; auto. }
      eapply G; eauto.
    - induction 1 as [|d ds (t & T & X) F IH]; [constructor|]. apply Code_done; auto. exists t. split; auto. tauto.
  Qed.

  Lemma code_one fs docs : Code parse traverse render fs false docs 1 1 <->
    Forall (fun d => Done parse traverse render fs false d \/ Skipped parse traverse render fs d) docs.
  Proof.
    split.
    - induction docs as [|d ds IH]; intros H; [constructor|].
      inversion H; subst; constructor; auto.
    - induction 1 as [|d ds [D|D] F IH]; [constructor|apply Code_done; auto|apply Code_skip; auto].
  Qed.

  Theorem C45_one : forall dir inputs fs, (forall x y, In x inputs -> In y inputs -> ~ Output dir x y) -> 1 < List.length inputs ->
    (snd (run dir inputs fs) = Ok 1%Z <->
     Forall (fun d => exists t, fget d fs = Some t /\
        ((exists out, Refactored parse traverse render d t out) \/ Unchanged parse traverse d t \/ Failed parse traverse render d t)) inputs /\
     Exists (fun d => exists t, fget d fs = Some t /\ Failed parse traverse render d t) inputs).
  Proof.
    intros dir inputs fs AP L. unfold refactor. replace (List.length inputs <=? 1) with false by (symmetry; apply Nat.leb_gt; lia).
    rewrite (documents_code parse traverse render dir fs false inputs (apart_paths dir inputs AP) fs (agrees_start inputs fs)). clear L AP. split.
    - induction inputs as [|d ds IH]; intros H; [inversion H|].
      inversion H as [|? ? ? ? D H2|? ? ? ? D H2| |]; subst.
      + destruct (IH H2) as [A B]. split; [|right; auto]. constructor; auto.
        destruct D as (t & T & [X|[_ X]]); exists t; auto.
      + apply code_one in H2. split.
        * constructor; [destruct D as (t & T & X); exists t; auto|].
          eapply Forall_impl; [|exact H2]. intros z [(t & T & [X|[_ X]])|(t & T & X)]; exists t; auto.
        * left. exact D.
    - intros [F E]. induction E as [d ds (t & T & X)|d ds E IH].
      + apply Code_skip; [exists t; auto|]. apply code_one. apply Forall_inv_tail in F.
        eapply Forall_impl; [|exact F]. intros z (t' & T' & [Y|[Y|Y]]); [left|left|right]; exists t'; auto.
      + pose proof (Forall_inv F) as (t & T & X). apply Forall_inv_tail in F.
        destruct X as [X|[X|X]].
        * apply Code_done; auto. exists t; auto.
        * apply Code_done; auto. exists t; auto.
        * apply Code_skip; [exists t; auto|]. apply code_one.
          eapply Forall_impl; [|exact F]. intros z (t' & T' & [Y|[Y|Y]]); [left|left|right]; exists t'; auto.
  Qed.

  (** An unsupported version ends the run at once, after the documents before it. *)
  Theorem C45_unsupported : forall dir inputs fs, (forall x y, In x inputs -> In y inputs -> ~ Output dir x y) ->
    (snd (run dir inputs fs) = Ok (-1)%Z <->
     exists a d b t, inputs = a ++ d :: b /\ fget d fs = Some t /\ Unsupported parse t /\
       Forall (fun d => exists t, fget d fs = Some t /\
        ((exists out, Refactored parse traverse render d t out) \/ Failed parse traverse render d t \/
         (1 < List.length inputs /\ Unchanged parse traverse d t))) a).
  Proof.
    intros dir inputs fs AP. unfold refactor.
    rewrite (documents_code parse traverse render dir fs _ inputs (apart_paths dir inputs AP) fs (agrees_start inputs fs)). clear AP.
    remember (List.length inputs <=? 1) as single eqn:ES.
    assert (ES' : single = false <-> 1 < List.length inputs) by (rewrite ES; apply Nat.leb_gt). clear ES.
    assert (G : forall docs c, c = 0%Z \/ c = 1%Z -> Code parse traverse render fs single docs c (-1) <->
      exists a d b t, docs = a ++ d :: b /\ fget d fs = Some t /\ Unsupported parse t /\
       Forall (fun d => exists t, fget d fs = Some t /\
        ((exists out, Refactored parse traverse render d t out) \/ Failed parse traverse render d t \/
         (1 < List.length inputs /\ Unchanged parse traverse d t))) a).
    { induction docs as [|d ds IH]; intros c Hc.
      - split; [intros H; inversion H; subst; destruct Hc; discriminate|]. intros ([|] & ? & ? & ? & E & _); discriminate.
      - split.
        + intros H. inversion H as [|? ? ? ? D H2|? ? ? ? D H2|? ? ? t T U|]; subst.
          * apply IH in H2; auto. destruct H2 as (a & e & b & t & -> & T & U & F).
            exists (d :: a), e, b, t. split; [reflexivity|]. do 2 (split; auto). constructor; auto.
            destruct D as (t' & T' & [X|[X1 X]]); exists t'; split; auto. right. right. split; auto. apply ES'. exact X1.
          * apply IH in H2; auto. destruct H2 as (a & e & b & t & -> & T & U & F).
            exists (d :: a), e, b, t. split; [reflexivity|]. do 2 (split; auto). constructor; auto.
            destruct D as (t' & T' & X); exists t'; auto.
          * exists [], d, ds, t. split; [reflexivity|]. do 2 (split; auto).
        + intros ([|x a] & e & b & t & E & T & U & F); injection E as -> ->.
          * eapply Code_unsupported; eauto.
          * pose proof (Forall_inv F) as (t' & T' & X). apply Forall_inv_tail in F.
            destruct X as [X|[X|[X1 X]]].
            -- apply Code_done; [exists t'; auto|]. apply IH; auto. exists a, e, b, t; auto.
            -- apply Code_skip; [exists t'; auto|]. apply IH; auto. exists a, e, b, t; auto.
            -- apply Code_done; [exists t'; split; auto; right; split; auto; apply ES'; auto|]. apply IH; auto. exists a, e, b, t; auto. }
    apply G; auto.
  Qed.

  (** A single document: 0 when it was rewritten, 7 when there was nothing to do, 1 when it failed. *)
  Theorem C45_single : forall dir d fs t, ~ Output dir d d -> fget d fs = Some t ->
    (snd (run dir [d] fs) = Ok 7%Z <-> Unchanged parse traverse d t) /\
    (snd (run dir [d] fs) = Ok 0%Z <-> exists out, Refactored parse traverse render d t out) /\
    (snd (run dir [d] fs) = Ok 1%Z <-> Failed parse traverse render d t).
  Proof.
    intros dir d fs t N T. unfold refactor. change (List.length [d] <=? 1) with true.
    assert (AP : forall x y, In x [d] -> In y [d] -> ~ Output dir x y) by (intros x y [<-|[]] [<-|[]]; auto).
    assert (I : forall r, Code parse traverse render fs true [d] 0 r -> 
       (r = 0%Z /\ exists out, Refactored parse traverse render d t out) \/ (r = 1%Z /\ Failed parse traverse render d t) \/ r = (-1)%Z \/ (r = 7%Z /\ Unchanged parse traverse d t)).
    { intros r H. inversion H as [|? ? ? ? (t' & T' & [X|[X _]]) H2|? ? ? ? (t' & T' & X) H2|? ? ? t' T' U|? ? ? t' _ T' U]; subst;
        try discriminate; unfold Text in T'; assert (t' = t) by congruence; subst t'.
      - inversion H2; subst. left; auto.
      - inversion H2; subst. auto.
      - auto.
      - auto. }
    split; [|split]; rewrite (documents_code parse traverse render dir fs true [d] (apart_paths dir [d] AP) fs (agrees_start [d] fs)); split.
    - intros H. destruct (I _ H) as [[E _]|[[E _]|[E|[_ X]]]]; try discriminate; auto.
    - intros U. eapply Code_single; eauto.
    - intros H. destruct (I _ H) as [[_ X]|[[E _]|[E|[E X]]]]; try discriminate; auto.
    - intros U. apply Code_done; [exists t; auto|constructor].
    - intros H. destruct (I _ H) as [[E X]|[[_ X]|[E|[E X]]]]; try discriminate; auto.
    - intros U. apply Code_skip; [exists t; auto|constructor].
  Qed.

  (** There are no other codes; 7 is for single documents only. *)
  Theorem C45_codes : forall dir inputs fs r, snd (run dir inputs fs) = Ok r ->
    r = 0%Z \/ r = 1%Z \/ r = (-1)%Z \/ (r = 7%Z /\ List.length inputs = 1).
  Proof.
    intros dir inputs fs r. unfold refactor.
    enough (G : forall docs c fs, (c = 0 \/ c = 1)%Z -> snd (documents parse traverse render dir (List.length inputs <=? 1) docs c fs) = Ok r ->
      r = 0%Z \/ r = 1%Z \/ r = (-1)%Z \/ (r = 7%Z /\ List.length inputs <= 1 /\ docs <> [])).
    { intros H. destruct (G inputs 0%Z fs (or_introl eq_refl) H) as [?|[?|[?|(? & L & NE)]]]; auto.
      right. right. right. split; auto. destruct inputs as [|x [|y l]]; [congruence|reflexivity|cbn in L; lia]. }
    induction docs as [|d ds IH]; intros c fs0 Hc H.
    - cbn [documents snd] in H. injection H as <-. tauto.
    - cbn [documents] in H. destruct (one_document parse traverse render dir (List.length inputs <=? 1) d fs0) as [fs' e] eqn:E.
      destruct (one_inv _ _ _ _ _ _ _ _ _ E) as [(x & -> & _)|(t & _ & [(o & _ & -> & _)|[(_ & _ & _ & -> & _)|[(_ & S1 & -> & _)|[(_ & -> & _)|(_ & -> & _)]]]])];
        cbn [snd] in H; try discriminate.
      + destruct (IH _ _ Hc H) as [?|[?|[?|(? & ? & ?)]]]; auto. right. right. right. repeat split; auto; discriminate.
      + destruct (IH _ _ Hc H) as [?|[?|[?|(? & ? & ?)]]]; auto. right. right. right. repeat split; auto; discriminate.
      + injection H as <-. right. right. right. repeat split; auto; [apply Nat.leb_le; auto|discriminate].
      + injection H as <-. auto.
      + destruct (IH 1%Z fs' (or_intror eq_refl) H) as [?|[?|[?|(? & ? & ?)]]]; auto. right. right. right. repeat split; auto; discriminate.
  Qed.

  (** What the output files hold after a run that returns 0 or 1: the header and the new text of a
      document that was rewritten, the old text of one that needed no change, and nothing
      new for one that failed; provided no two documents have the same output file. *)
  Theorem C45_contents : forall dir inputs fs r fs',
    (forall x y, In x inputs -> In y inputs -> ~ Output dir x y) ->
    (forall x y p, In x inputs -> In y inputs -> Output dir x p -> Output dir y p -> x = y) -> NoDup inputs ->
    run dir inputs fs = (fs', Ok r) -> (r = 0%Z \/ r = 1%Z) ->
    forall d p t, In d inputs -> Output dir d p -> fget d fs = Some t ->
    (forall out, Refactored parse traverse render d t out -> fget p fs' = Some ("#!/usr/bin/env cwl-runner" ++ String c_nl out)%string) /\
    (Unchanged parse traverse d t -> fget p fs' = Some t) /\
    (Failed parse traverse render d t -> fget p fs' = fget p fs).
  Proof.
    intros dir inputs fs r fs' AP INJ ND H Hr d p t I O T. apply output_path_Output in O. subst p.
    unfold refactor in H.
    set (single := List.length inputs <=? 1) in *.
    pose proof (documents_code parse traverse render dir fs single inputs (apart_paths dir inputs AP) fs (agrees_start inputs fs) 0%Z r) as DC.
    rewrite H in DC. cbn [snd] in DC. destruct DC as [DC _]. specialize (DC eq_refl).
    assert (G : Forall (fun x => Done parse traverse render fs single x \/ Skipped parse traverse render fs x) inputs).
    { assert (G : forall docs c q, Code parse traverse render fs single docs c q -> q = 0%Z \/ q = 1%Z ->
        Forall (fun x => Done parse traverse render fs single x \/ Skipped parse traverse render fs x) docs).
      { intros docs c q X. induction X; intros Q; [constructor|constructor; auto|constructor; auto| |];
          destruct Q; discriminate. }
      eapply G; eauto. }
    apply in_split in I. destruct I as (a & b & E).
    assert (NB : forall x, In x b -> output_path dir x <> output_path dir d).
    { intros x Ix EE. assert (x = d).
      { apply (INJ x d (output_path dir d)); try (rewrite E; apply in_or_app; right); [right; auto|left; auto|apply output_path_Output; auto|apply output_path_Output; auto]. }
      subst x. rewrite E in ND. apply NoDup_remove_2 in ND. apply ND. apply in_or_app. auto. }
    assert (FA : Forall (fun x => Done parse traverse render fs single x \/ Skipped parse traverse render fs x) a).
    { rewrite E in G. apply Forall_app in G. tauto. }
    pose proof (documents_contents parse traverse render dir fs single inputs (apart_paths dir inputs AP) a d b E NB fs (agrees_start inputs fs) 0%Z r) as C.
    rewrite H in C. cbn [fst snd] in C. specialize (C eq_refl FA). destruct C as [C1 C2].
    split; [|split].
    - intros out R. rewrite (C1 t out T R). reflexivity.
    - intros U. apply (C2 t); auto. destruct single eqn:SG; [|reflexivity]. exfalso.
      assert (inputs = [d]).
      { subst single. apply Nat.leb_le in SG. rewrite E in *. rewrite app_length in SG. cbn [List.length] in SG.
        destruct a; [|cbn [List.length] in SG; lia]. destruct b; [reflexivity|cbn [List.length] in SG; lia]. }
      assert (ND' : ~ Output dir d d) by (apply AP; rewrite H0; left; reflexivity).
      pose proof (proj2 (proj1 (C45_single dir d fs t ND' T)) U) as X. unfold refactor in X.
      rewrite <- H0 in X. fold single in X. rewrite SG in X.
      assert (XX : snd (documents parse traverse render dir true inputs 0 fs) = Ok r) by (rewrite H; reflexivity).
      rewrite XX in X. injection X as ->. destruct Hr; discriminate.
    - intros F. pose proof (documents_skip parse traverse render dir fs single inputs (apart_paths dir inputs AP) (output_path dir d) fs (agrees_start inputs fs)) as S1.
      assert (SK : forall x, In x inputs -> output_path dir x = output_path dir d -> Skipped parse traverse render fs x).
      { intros x Ix EE. assert (x = d).
        { apply (INJ x d (output_path dir d)); [exact Ix|rewrite E; apply in_or_app; right; left; reflexivity|apply output_path_Output; exact EE|apply output_path_Output; reflexivity]. }
        subst x. exists t. auto. }
      specialize (S1 SK 0%Z). rewrite H in S1. exact S1.
  Qed.
End Runs.
Print Assumptions C45_frame.
Print Assumptions C45_zero.
Print Assumptions C45_one.
Print Assumptions C45_unsupported.
Print Assumptions C45_single.
Print Assumptions C45_codes.
Print Assumptions C45_contents.

(** A run over three documents: one is rewritten, one copied, one fails. *)
Definition demo_parse (s : string) : result json := Ok (JDict [("cwlVersion", JStr (stake 4 s)); ("rest", JStr (sdrop 4 s))]).
Definition demo_traverse (v : string) (j : json) (doc : string) : result (string * bool) :=
  match j with
  | JDict d => match dget "rest" d with
               | Some (JStr "E") => Ok ("new", true)
               | Some (JStr "X") => Err WorkflowException
               | _ => Ok ("old", false)
               end
  | _ => Err TypeError
  end.
Definition demo_render (s : string) : result string := Ok s.
Definition demo_fs : files := [("a.cwl", "v1.2E"); ("b.cwl", "v1.0"); ("c.cwl", "v1.1X"); ("d.cwl", "v2.0")].
Example C45_case :
  refactor demo_parse demo_traverse demo_render "out" ["a.cwl"; "b.cwl"; "c.cwl"] demo_fs
  = (demo_fs ++ [("out/a.cwl", ("#!/usr/bin/env cwl-runner" ++ String c_nl "new")%string); ("out/b.cwl", "v1.0")], Ok 1%Z)
  /\ snd (refactor demo_parse demo_traverse demo_render "out" ["b.cwl"] demo_fs) = Ok 7%Z
  /\ snd (refactor demo_parse demo_traverse demo_render "out" ["a.cwl"] demo_fs) = Ok 0%Z
  /\ snd (refactor demo_parse demo_traverse demo_render "out" ["a.cwl"; "d.cwl"; "c.cwl"] demo_fs) = Ok (-1)%Z
  /\ (forall x y, In x ["a.cwl"; "b.cwl"; "c.cwl"] -> In y ["a.cwl"; "b.cwl"; "c.cwl"] -> ~ Output "out" x y).
Proof.
  repeat (split; [vm_compute; reflexivity|]). intros x y A B O. apply output_path_Output in O. subst y.
  cbn in A. destruct A as [<-|[<-|[<-|[]]]]; vm_compute in B; intuition discriminate.
Qed.

(** Two documents with the same name in different directories: the second result replaces the first. *)
Theorem C45_all_outputs_refuted : ~ (forall parse (traverse : string -> json -> string -> result (string * bool)) render dir inputs fs fs' d p t out,
  NoDup inputs -> (forall x y, In x inputs -> In y inputs -> ~ Output dir x y) ->
  refactor parse traverse render dir inputs fs = (fs', Ok 0%Z) -> In d inputs -> Output dir d p -> fget d fs = Some t ->
  Refactored parse traverse render d t out -> fget p fs' = Some ("#!/usr/bin/env cwl-runner" ++ String c_nl out)%string).
Proof.
  intros H.
  specialize (H demo_parse demo_traverse demo_render "out" ["x/a.cwl"; "y/a.cwl"] [("x/a.cwl", "v1.2E"); ("y/a.cwl", "v1.0")] [("x/a.cwl", "v1.2E"); ("y/a.cwl", "v1.0"); ("out/a.cwl", "v1.0")] "x/a.cwl" "out/a.cwl" "v1.2E" "new").
  assert (E : Some "v1.0" = Some ("#!/usr/bin/env cwl-runner" ++ String c_nl "new")%string); [|discriminate].
  apply H.
  - repeat constructor; cbn; intuition discriminate.
  - intros x y A B O. apply output_path_Output in O. subst y.
    cbn in A. destruct A as [<-|[<-|[]]]; vm_compute in B; intuition discriminate.
  - vm_compute. reflexivity.
  - left; reflexivity.
  - apply output_path_Output. reflexivity.
  - reflexivity.
  - econstructor; try reflexivity. right. right. reflexivity.
Qed.
Print Assumptions C45_all_outputs_refuted.

(** ** C60: which texts need JavaScript, and the expression made of them *)
Section Expressions.
  Variable js : unit -> string -> string -> unit * result json.
  Variable dumps dumps4 : json -> string.
  Variable loads : string -> string.
  Hypothesis LIB : json_library_ok dumps loads.
  Notation gexpr := (get_expression js dumps dumps4 loads).
  (* the value of a text where JavaScript is not allowed *)
  Notation no_js_value s inputs self :=
    (snd (do_eval js dumps dumps4 loads tt (JStr s) inputs [] (Some "") (Some "") [] self true "")).

  (** Nothing is extracted exactly when the value is not a text, or is a text without code block
      that has no references or can be evaluated without JavaScript. *)
  Theorem C60_none : forall x inputs self,
    gexpr x inputs self = Ok None <->
    (forall s, x <> JStr s) \/
    exists s, x = JStr s /\ startswith "${" (strip s) = false /\
      (contains "$(" s = false \/ exists v, no_js_value s inputs self = Ok v).
  Proof.
    intros x inputs self. destruct x as [| | | |s| |]; try (split; [intros _; left; discriminate|reflexivity]).
    cbn [get_expression]. split.
    - intros H. right. exists s. split; auto. destruct (startswith "${" (strip s)); [discriminate|]. split; auto.
      destruct (contains "$(" s); auto. right.
      destruct (plain_eval js dumps dumps4 loads s inputs self) as [v|e] eqn:E; [exists v; exact E|].
      apply (peval_failures js dumps dumps4 loads LIB) in E as E'. subst e. exfalso.
      destruct (negb (String.eqb (stake 2 s) "$(") || negb (endswith ")" s) || (2 <? S (count2 "$" "(" s))); [|discriminate].
      destruct (convert dumps 2 s); discriminate.
    - intros [H|(t & [= <-] & S1 & H)]; [exfalso; apply (H s); reflexivity|]. rewrite S1.
      destruct (contains "$(" s) eqn:C; [|reflexivity]. destruct H as [H|[v H]]; [discriminate|].
      unfold plain_eval. rewrite H. reflexivity.
  Qed.

  (** A code block is taken as it is. *)
  Theorem C60_code_block : forall s inputs self, startswith "${" (strip s) = true -> gexpr (JStr s) inputs self = Ok (Some s).
  Proof. intros s inputs self H. cbn [get_expression]. rewrite H. reflexivity. Qed.

  (** A text [$(code)] without another opening, that needs JavaScript: the code is returned as its value. *)
  Theorem C60_single : forall code inputs self, contains "$(" code = false ->
    (forall v, no_js_value ("$(" ++ code ++ ")")%string inputs self <> Ok v) ->
    gexpr (JStr ("$(" ++ code ++ ")")) inputs self = Ok (Some ("${return " ++ code ++ ";}")%string).
  Proof.
    intros code inputs self C N. apply get_single; auto.
    destruct (plain_eval js dumps dumps4 loads ("$(" ++ code ++ ")") inputs self) as [v|e] eqn:E; [exfalso; eapply N; exact E|].
    f_equal. eapply peval_failures; eauto.
  Qed.

  (** Any other text that needs JavaScript: the concatenation of its pieces, in order, if no
      piece of plain text needs escaping. *)
  Theorem C60_interpolated_partial : forall s its inputs self, dumps_quotes dumps ->
    startswith "${" (strip s) = false -> contains "$(" s = true ->
    (forall v, no_js_value s inputs self <> Ok v) ->
    (startswith "$(" s = false \/ endswith ")" s = false \/ exists a b, s = ("$(" ++ a ++ "$(" ++ b)%string) ->
    Items true (strip s) its ->
    (~ In Unclosed its -> (forall p, In (Lit p) its -> Quotable p) ->
     gexpr (JStr s) inputs self = Ok (Some ("${return " ++ concatenation (fun t => dumps (JStr t)) its ++ ";}")%string)) /\
    (In Unclosed its -> gexpr (JStr s) inputs self = Err SubstitutionError).
  Proof.
    intros s its inputs self Q S1 S2 N C I.
    assert (E : plain_eval js dumps dumps4 loads s inputs self = Err WorkflowException).
    { destruct (plain_eval js dumps dumps4 loads s inputs self) as [v|e] eqn:E; [exfalso; eapply N; exact E|].
      f_equal. eapply peval_failures; eauto. }
    assert (C' : startswith "$(" s = false \/ endswith ")" s = false \/ 1 < count2 "$" "(" s).
    { destruct C as [C|[C|(a & b & ->)]]; auto. right. right.
      change (1 < S (count2 "$" "(" (a ++ "$(" ++ b))). apply -> Nat.succ_lt_mono.
      clear. enough (H : forall k a, String.length a <= k -> 0 < count2 "$" "(" (a ++ "$(" ++ b)) by eauto.
      induction k as [|k IH]; intros x L; (destruct x as [|c x]; [cbn; lia|]); cbn [String.length] in L; [lia|].
      cbn [append count2]. destruct x as [|d x].
      - cbn [append]. change (Ascii.eqb "$" "(") with false. rewrite andb_false_r. cbn [count2]. cbn. lia.
      - cbn [append]. destruct (Ascii.eqb c "$" && Ascii.eqb d "("); [lia|].
        apply (IH (String d x)). cbn [String.length] in *. lia. }
    destruct (get_other js dumps dumps4 loads s inputs self its S1 S2 E C' I) as [A B].
    split; [|exact B]. intros U F. rewrite (A U), (raw_quotable dumps its Q F). reflexivity.
  Qed.
End Expressions.
Print Assumptions C60_none.
Print Assumptions C60_code_block.
Print Assumptions C60_single.
Print Assumptions C60_interpolated_partial.

Definition nojs (st : unit) (_ _ : string) : unit * result json := (st, Err JavascriptException).
Notation demo_get s inputs := (get_expression nojs demo_dumps demo_dumps demo_loads (JStr s) inputs JNull).
Example C60_case :
  demo_get "$(inputs.x)" (JDict [("x", JInt 1)]) = Ok None
  /\ demo_get " ${return 1;} " JNull = Ok (Some " ${return 1;} ")
  /\ demo_get "$(inputs.x + 1)" (JDict [("x", JInt 1)]) = Ok (Some "${return inputs.x + 1;}")
  /\ demo_get "n = $(1 + 1)" JNull
     = Ok (Some ("${return " ++ concatenation (fun t => demo_dumps (JStr t)) [Lit "n = "; Ref "(1 + 1)"; Lit ""] ++ ";}")%string)
  /\ demo_get "$(1 + 1) $(2" JNull = Err SubstitutionError.
Proof. repeat split; vm_compute; reflexivity. Qed.
Example C60_items : Items true "n = $(1 + 1)" [Lit "n = "; Ref "(1 + 1)"; Lit ""].
Proof.
  apply (It_ref true "n = " "(1 + 1)" ""); [repeat split| |constructor; left; repeat split].
  apply (Ref_intro "(" ")" "1 + 1"); [apply paren_bracket|]. apply Balanced_chars. reflexivity.
Qed.

(** Parameter references to the resources are taken for JavaScript ... *)
Theorem C60_parameter_references_refuted : ~ (forall path inputs, Forall plain_seg path ->
  get_expression nojs demo_dumps demo_dumps demo_loads (JStr (String "$" (write_ref "runtime" path))) inputs JNull = Ok None).
Proof.
  intros H. specialize (H [Dot "cores"] (JDict []) ltac:(repeat constructor; discriminate)). vm_compute in H. discriminate.
Qed.
Print Assumptions C60_parameter_references_refuted.
(** ... a text that starts with a reference and ends with a bracket is taken for one reference ... *)
Theorem C60_code_refuted : ~ (forall s its, Items true (strip s) its -> ~ In Unclosed its ->
  (forall p, In (Lit p) its -> Quotable p) -> (forall b, its <> [Lit ""; Ref b; Lit ""]) ->
  startswith "${" (strip s) = false -> contains "$(" s = true ->
  get_expression nojs demo_dumps demo_dumps demo_loads (JStr s) JNull JNull
  = Ok (Some ("${return " ++ concatenation (fun t => demo_dumps (JStr t)) its ++ ";}")%string)).
Proof.
  intros H.
  assert (I : Items true (strip "$(1 + 1) (copy)") [Lit ""; Ref "(1 + 1)"; Lit " (copy)"]).
  { apply (It_ref true "" "(1 + 1)" " (copy)"); [repeat split| |constructor; left; repeat split].
    apply (Ref_intro "(" ")" "1 + 1"); [apply paren_bracket|]. apply Balanced_chars. reflexivity. }
  specialize (H "$(1 + 1) (copy)" _ I).
  assert (N : ~ In Unclosed [Lit ""; Ref "(1 + 1)"; Lit " (copy)"]) by (cbn; intuition discriminate).
  assert (Q : forall p, In (Lit p) [Lit ""; Ref "(1 + 1)"; Lit " (copy)"] -> Quotable p).
  { intros p [E|[E|[E|[]]]]; try discriminate; injection E as <-; reflexivity. }
  specialize (H N Q ltac:(discriminate) eq_refl eq_refl). vm_compute in H. discriminate.
Qed.
Print Assumptions C60_code_refuted.
(** ... white space around a reference makes its value a text ... *)
Theorem C60_white_space_refuted : ~ (forall code e, Reference ("$(" ++ code ++ ")") ->
  get_expression nojs demo_dumps demo_dumps demo_loads (JStr (" $(" ++ code ++ ")")) JNull JNull = Ok (Some e) ->
  get_expression nojs demo_dumps demo_dumps demo_loads (JStr ("$(" ++ code ++ ")")) JNull JNull = Ok (Some e)).
Proof.
  intros H.
  assert (R : Reference ("$(" ++ "1 + 1" ++ ")")).
  { apply (Ref_intro "(" ")" "1 + 1"); [apply paren_bracket|]. apply Balanced_chars. reflexivity. }
  specialize (H "1 + 1" _ R eq_refl). vm_compute in H. discriminate.
Qed.
Print Assumptions C60_white_space_refuted.
(** ... and quotes in the plain text are not escaped. *)
Theorem C60_interpolated_refuted : ~ (forall s its, Items true (strip s) its -> ~ In Unclosed its ->
  startswith "${" (strip s) = false -> startswith "$(" s = false -> contains "$(" s = true ->
  get_expression nojs demo_dumps demo_dumps demo_loads (JStr s) JNull JNull
  = Ok (Some ("${return " ++ concatenation (fun t => demo_dumps (JStr t)) its ++ ";}")%string)).
Proof.
  intros H.
  assert (I : Items true (strip (String c_dq "$(1 + 1)")) [Lit (String c_dq ""); Ref "(1 + 1)"; Lit ""]).
  { apply (It_ref true (String c_dq "") "(1 + 1)" ""); [repeat split| |constructor; left; repeat split].
    apply (Ref_intro "(" ")" "1 + 1"); [apply paren_bracket|]. apply Balanced_chars. reflexivity. }
  specialize (H (String c_dq "$(1 + 1)") _ I).
  assert (N : ~ In Unclosed [Lit (String c_dq ""); Ref "(1 + 1)"; Lit ""]) by (cbn; intuition discriminate).
  specialize (H N eq_refl eq_refl eq_refl). vm_compute in H. discriminate.
Qed.
Print Assumptions C60_interpolated_refuted.

(** ** C61: the text of the generated tools *)

Lemma unclosed_dec its : In Unclosed its \/ ~ In Unclosed its.
Proof.
  induction its as [|i its [IH|IH]]; [right; intros []|left; right; auto|].
  destruct i; try (right; intros [E|E]; [discriminate|auto]; fail). left; left; reflexivity.
Qed.

(** An expression that came from a text with references is complete in the generated
    ExpressionTool. *)
Theorem C61_converted_body : forall js dumps dumps4 loads s inputs self e name,
  startswith "${" (strip s) = false -> get_expression js dumps dumps4 loads (JStr s) inputs self = Ok (Some e) ->
  exists code, e = ("${" ++ code ++ ";}")%string /\
    etool_expression name e
    = ("${" ++ match name with Some n => if String.eqb n "" then "" else String c_nl ("  var self=inputs." ++ n ++ ";") | None => "" end
       ++ String c_nl ("  return {" ++ String c_dq ("result" ++ String c_dq (": function(){" ++ code ++ "}()};" ++ String c_nl " }"))))%string.
Proof.
  intros js dumps dumps4 loads s inputs self e name S1 E.
  assert (exists code, e = ("${" ++ code ++ ";}")%string) as [code ->].
  { cbn [get_expression] in E. rewrite S1 in E. destruct (contains "$(" s); [|discriminate].
    destruct (plain_eval js dumps dumps4 loads s inputs self) as [v|x]; [discriminate|].
    assert (G : (if negb (String.eqb (stake 2 s) "$(") || negb (endswith ")" s) || (2 <? S (count2 "$" "(" s))
        then do t <- convert dumps 2 s; Ok (Some t)
        else Ok (Some ("${return " ++ sdrop_last 1 (sdrop 2 (strip s)) ++ ";}")%string)) = Ok (Some e))
      by (destruct x; try discriminate; exact E).
    destruct (negb (String.eqb (stake 2 s) "$(") || negb (endswith ")" s) || (2 <? S (count2 "$" "(" s))).
    - destruct (Items_total true (strip s)) as [its I].
      destruct (unclosed_dec its) as [U|U].
      + unfold convert in G. rewrite (convert_loop_unclosed dumps _ its I U) in G by lia. discriminate.
      + rewrite (convert_items dumps s its I U) in G. cbn [bind] in G. injection G as <-.
        exists ("return " ++ raw_concatenation dumps its)%string. reflexivity.
    - injection G as <-. exists ("return " ++ sdrop_last 1 (sdrop 2 (strip s)))%string. reflexivity. }
  exists code. split; auto. unfold etool_expression.
  change (sdrop 2 ("${" ++ code ++ ";}")) with (code ++ ";}")%string.
  replace (sdrop_last 2 (code ++ ";}")) with code by (symmetry; exact (sdrop_last_app code ";}")).
  reflexivity.
Qed.
Print Assumptions C61_converted_body.

(** A code block loses its last character before the bracket, whatever it is. *)
Theorem C61_block_body : forall code c name,
  etool_expression name ("${" ++ code ++ String c "}") = etool_expression name ("${" ++ code ++ ";}").
Proof.
  intros code c name. unfold etool_expression.
  change (sdrop 2 ("${" ++ code ++ String c "}")) with (code ++ String c "}")%string.
  change (sdrop 2 ("${" ++ code ++ ";}")) with (code ++ ";}")%string.
  replace (sdrop_last 2 (code ++ String c "}")) with code by (symmetry; exact (sdrop_last_app code (String c "}"))).
  replace (sdrop_last 2 (code ++ ";}")) with code by (symmetry; exact (sdrop_last_app code ";}")).
  reflexivity.
Qed.
Print Assumptions C61_block_body.
Theorem C61_block_refuted : ~ (forall code name, exists a b, etool_expression name ("${" ++ code ++ "}") = (a ++ code ++ b)%string).
Proof.
  intros H. destruct (H "return 1" None) as (a & b & E).
  assert (C : contains "return 1" (etool_expression None ("${" ++ "return 1" ++ "}")) = true).
  { apply contains_spec. eauto. }
  vm_compute in C. discriminate.
Qed.
Print Assumptions C61_block_refuted.

(** The script of a generated CommandLineTool, where the newer escaping rules apply: the
    inputs and the runtime values are filled in, and the code runs as it was written, if it has
    no double backslash and the library has none of what is evaluated. *)
Theorem C61_script_partial : forall (St : Type) (js : St -> string -> string -> St * result json) dumps dumps4 loads
    st inputs reqs out tmp res ctx sw ver lib expression code,
  json_library_ok dumps loads -> Forall wf_requirement reqs -> ~ old_rules_version ver ->
  HasCode expression code -> Inert code -> NoPair code -> Forall (fun l => Inert l /\ NoPair l) lib ->
  exists runtime,
  dget "outdir" runtime = Some (directory out) /\ dget "tmpdir" runtime = Some (directory tmp) /\
  (forall k, k <> "outdir" -> k <> "tmpdir" -> dget k runtime = dget k res) /\
  do_eval js dumps dumps4 loads st (JStr (script lib expression)) (JDict inputs) reqs out tmp res ctx sw ver
  = (st, Ok (JStr (sjoin (String c_nl "") (
      [String c_dq ("use strict" ++ String c_dq ";"); "var inputs=" ++ dumps (JDict inputs) ++ ";"; "var runtime=" ++ dumps (JDict runtime) ++ ";"]
      ++ lib ++
      ["var ret = function(){" ++ code ++ "}();"; "process.stdout.write(JSON.stringify(ret));"]))%string)).
Proof.
  intros St js dumps dumps4 loads st inputs reqs out tmp res ctx sw ver lib expression code LIB W V HC I NP PL.
  exists (dset "outdir" (directory out) (dset "tmpdir" (directory tmp) res)).
  split; [apply dget_dset_same|]. split; [rewrite dget_dset_other by discriminate; apply dget_dset_same|].
  split; [intros k K1 K2; rewrite !dget_dset_other by auto; reflexivity|].
  rewrite (script_eval js dumps dumps4 loads LIB st inputs reqs out tmp res ctx sw ver lib expression code W V HC NP PL).
  rewrite slashed_unchanged by auto. do 3 f_equal. unfold script_text.
  generalize (dumps (JDict inputs)) (dumps (JDict (dset "outdir" (directory out) (dset "tmpdir" (directory tmp) res)))). intros x y.
  destruct lib as [|l lib].
  - cbn [app]. rewrite !sjoin_cons. cbn [sjoin quoted_raw dq nl append]. rewrite ?sapp_assoc. cbn [append]. rewrite ?sapp_assoc. reflexivity.
  - change ([String c_dq ("use strict" ++ String c_dq ";"); "var inputs=" ++ x ++ ";"; "var runtime=" ++ y ++ ";"]%string ++ (l :: lib) ++
      ["var ret = function(){" ++ code ++ "}();"; "process.stdout.write(JSON.stringify(ret));"]%string)
    with ((String c_dq ("use strict" ++ String c_dq ";")) :: ("var inputs=" ++ x ++ ";")%string :: ("var runtime=" ++ y ++ ";")%string :: ((l :: lib) ++
      ["var ret = function(){" ++ code ++ "}();"; "process.stdout.write(JSON.stringify(ret));"]%string)).
    assert (J : forall l lib z w, sjoin (String c_nl "") ((l :: lib) ++ [z; w]) = (sjoin nl (l :: lib) ++ String c_nl (z ++ String c_nl w))%string).
    { clear. intros l lib z w. revert l. induction lib as [|m lib IH]; intros l; [reflexivity|].
      change ((l :: m :: lib) ++ [z; w]) with (l :: m :: (lib ++ [z; w])). rewrite !sjoin_cons.
      specialize (IH m). cbn [app] in IH. rewrite IH. rewrite !sapp_assoc. reflexivity. }
    cbn [app]. rewrite !sjoin_cons. specialize (J l lib ("var ret = function(){" ++ code ++ "}();")%string "process.stdout.write(JSON.stringify(ret));").
    cbn [app] in J. rewrite J. generalize (sjoin nl (l :: lib)). intros q.
    cbn [quoted_raw dq nl append]. rewrite ?sapp_assoc. cbn [append]. rewrite ?sapp_assoc. reflexivity.
Qed.
Print Assumptions C61_script_partial.
Example C61_script_case : HasCode " ${return inputs.x;}" "return inputs.x;" /\ Inert "return inputs.x;" /\ NoPair "return inputs.x;"
  /\ script ["var y=1;"] "${return inputs.x;}"
     = sjoin (String c_nl "") [String c_dq ("use strict" ++ String c_dq ";"); "var inputs=$(inputs);"; "var runtime=$(runtime);"; "var y=1;";
         "var ret = function(){return inputs.x;}();"; "process.stdout.write(JSON.stringify(ret));"].
Proof. repeat split. Qed.

(** What the hypotheses exclude: the code that runs is not the code that was written. *)
Definition runs_code (ver : string) (lib : list string) (code : string) : Prop :=
  exists a b text,
    do_eval nojs demo_dumps demo_dumps demo_loads tt (JStr (script lib ("${" ++ code ++ "}"))) (JDict []) [] None None [] JNull true ver
    = (tt, Ok (JStr text)) /\ text = (a ++ "function(){" ++ code ++ "}" ++ b)%string.
Lemma runs_code_check ver lib code text :
  do_eval nojs demo_dumps demo_dumps demo_loads tt (JStr (script lib ("${" ++ code ++ "}"))) (JDict []) [] None None [] JNull true ver
    = (tt, Ok (JStr text)) -> contains ("function(){" ++ code ++ "}") text = false -> ~ runs_code ver lib code.
Proof.
  intros E C (a & b & t & E2 & Et). rewrite E in E2. injection E2 as <-. 
  assert (X : contains ("function(){" ++ code ++ "}") text = true).
  { apply contains_spec. exists a, b. rewrite Et. rewrite !sapp_assoc. reflexivity. }
  congruence.
Qed.
Theorem C61_brackets_refuted : ~ (forall code, NoPair code -> runs_code "v1.2" [] code).
Proof. intros H. generalize (H "return '$(' + 1;" eq_refl). eapply runs_code_check; vm_compute; reflexivity. Qed.
Print Assumptions C61_brackets_refuted.
Theorem C61_backslashes_refuted : ~ (forall code, Inert code -> runs_code "v1.2" [] code).
Proof.
  intros H. generalize (H ("return '" ++ String c_bs (String c_bs "n';"))%string (conj eq_refl eq_refl)).
  eapply runs_code_check; vm_compute; reflexivity.
Qed.
Print Assumptions C61_backslashes_refuted.
Theorem C61_old_versions_refuted : ~ (forall code, Inert code -> NoPair code -> runs_code "v1.0" [] code).
Proof.
  intros H. generalize (H ("return '" ++ String c_bs "n';")%string (conj eq_refl eq_refl) eq_refl).
  eapply runs_code_check; vm_compute; reflexivity.
Qed.
Print Assumptions C61_old_versions_refuted.
(** The library is not escaped: a reference in it is evaluated. *)
Theorem C61_library_refuted : ~ (forall lib code, Inert code -> NoPair code ->
  exists text, do_eval nojs demo_dumps demo_dumps demo_loads tt (JStr (script [lib] ("${" ++ code ++ "}"))) (JDict []) [] None None [] JNull true "v1.2"
    = (tt, Ok (JStr text)) /\ contains lib text = true).
Proof.
  intros H. destruct (H "var s = '$(inputs)';" "return s;" (conj eq_refl eq_refl) eq_refl) as (t & E & C).
  revert E. match goal with |- ?x = _ -> _ => let v := eval vm_compute in x in change x with v end.
  intros [= <-]. vm_compute in C. discriminate.
Qed.
Print Assumptions C61_library_refuted.

(** ** C62: the expression library *)

(** The library is that of the last process in the list that declares JavaScript; there is none
    when no process does. *)
Theorem C62_last_declaration : forall processes lib,
  find_expressionLib processes = lib <->
  (exists a p b, processes = a ++ p :: b /\ Declares p lib /\ Forall NoJS b) \/ (lib = None /\ Forall NoJS processes).
Proof.
  intros processes lib. split.
  - intros <-.
    assert (D : forall p, (exists l, Declares p l) \/ NoJS p).
    { induction p as [|[l|cls] p [[l' (x & y & -> & N)]|N]].
      - right. intros l [].
      - left. exists l, [], (x ++ InlineJS l' :: y). split; [reflexivity|intros ? []].
      - left. exists l, [], p. split; [reflexivity|intros ? []].
      - left. exists l', (OtherReq cls :: x), y. split; [reflexivity|]. intros q [E|I]; [discriminate|eapply N; eauto].
      - right. intros l [E|I]; [discriminate|eapply N; eauto]. }
    induction processes as [|p l IH] using rev_ind; [right; split; [reflexivity|constructor]|].
    destruct (D p) as [[lib Dp]|N].
    + left. exists l, p, []. rewrite (find_lib_hit l p [] lib (Forall_nil _) Dp). repeat split; auto.
    + assert (E : find_expressionLib (l ++ [p]) = find_expressionLib l).
      { unfold find_expressionLib. rewrite rev_app_distr. apply (find_lib_skip [p]). repeat constructor. exact N. }
      rewrite E. destruct IH as [(a & q & b & -> & Dq & F)|[-> F]].
      * left. exists a, q, (b ++ [p]). rewrite <- app_assoc. repeat split; auto. apply Forall_app; auto.
      * right. split; auto. apply Forall_app; auto.
  - intros [(a & p & b & -> & D & F)|[-> F]]; [apply find_lib_hit; auto|apply find_lib_none; auto].
Qed.
Print Assumptions C62_last_declaration.

(** For an expression of a step, the step decides before the workflow, with and without
    replacing ExpressionTools. *)
Theorem C62_step_expression : forall replace_etool process step workflow lib, Declares step lib ->
  step_expression_lib replace_etool process step workflow = lib.
Proof.
  intros [] process step workflow lib D; unfold step_expression_lib, etool_lib.
  - apply (find_lib_hit [workflow] step [] lib); auto.
  - apply (find_lib_hit [process; workflow] step [] lib); auto.
Qed.
Print Assumptions C62_step_expression.
Example C62_case : step_expression_lib true [] [OtherReq "DockerRequirement"; InlineJS (Some ["b"])] [InlineJS (Some ["a"])] = Some ["b"]
  /\ find_expressionLib [[InlineJS (Some ["a"])]; [OtherReq "x"]] = Some ["a"].
Proof. split; reflexivity. Qed.

(** For an expression of a tool, the declaration of the tool should decide: instead the workflow
    comes first, and with replaced ExpressionTools the library of the tool is lost. *)
Theorem C62_tool_expression_partial : forall replace_etool tool workflow,
  (NoJS workflow -> forall lib, Declares tool lib -> replace_etool = false -> tool_expression_lib replace_etool tool workflow = lib) /\
  (forall lib, Declares workflow lib -> tool_expression_lib replace_etool tool workflow = lib).
Proof.
  intros replace_etool tool workflow. split.
  - intros N lib D ->. apply (find_lib_hit [] tool [workflow] lib); auto.
  - intros lib D. destruct replace_etool; [apply (find_lib_hit [] workflow [] lib); auto|apply (find_lib_hit [tool] workflow [] lib); auto].
Qed.
Print Assumptions C62_tool_expression_partial.
Theorem C62_tool_expression_refuted :
  ~ (forall tool workflow lib, Declares tool lib -> tool_expression_lib false tool workflow = lib) /\
  ~ (forall tool workflow lib, NoJS workflow -> Declares tool lib -> tool_expression_lib true tool workflow = lib).
Proof.
  split; intros H.
  - specialize (H [InlineJS (Some ["tool"])] [InlineJS (Some ["workflow"])] (Some ["tool"])).
    assert (D : Declares [InlineJS (Some ["tool"])] (Some ["tool"])) by (exists [], []; split; [reflexivity|intros ? []]).
    specialize (H D). discriminate.
  - specialize (H [InlineJS (Some ["tool"])] [] (Some ["tool"])).
    assert (D : Declares [InlineJS (Some ["tool"])] (Some ["tool"])) by (exists [], []; split; [reflexivity|intros ? []]).
    specialize (H ltac:(intros ? []) D). discriminate.
Qed.
Print Assumptions C62_tool_expression_refuted.
