(** * C83: a refactored tool runs the same command *)
From Verif Require Import PyBase PyBaseProofs PackModel ExprModel EvalModel ExprSpec ExprProps EvalSpec RefactorModel RefactorSpec RefactorProofs RefactorProps
  FlowModel FlowSpec FlowProofs FlowProofs2 FlowProps FlowValueSpec FlowValueProofs FlowValueProps FlowReqSpec
  FlowToolSpec FlowToolProofs FlowToolProps FlowEvalSpec FlowEvalProps TraverseModel TraverseSpec TraverseProps SameSpec SameProofs.

Lemma fields_ok attrs : Forall FieldName attrs -> names_ok attrs.
Proof. apply Forall_impl. intros a (A & _). eapply all_chars_no; [|exact A]. reflexivity. Qed.
Lemma expand_same digest c : Forall (fun ty => ty <> JStr "stdout") (cm_types c) -> expand_stream_shortcuts digest c = c.
Proof. intros F. unfold expand_stream_shortcuts. rewrite expand_none by exact F. cbn [fst snd]. rewrite tool_stream_same. destruct c; reflexivity. Qed.
Lemma EvalsOf_none gx outs evs : (forall o s e, In o outs -> to_eval o = Some s -> ~ Found gx s e) -> EvalsOf gx outs evs -> evs = [].
Proof.
  intros N H. induction H as [|o l evs A H IH|o s e l evs A B C H IH]; [reflexivity | |].
  - apply IH. intros o' s e I. apply N. right. exact I.
  - destruct (N o s e (or_introl eq_refl) A C).
Qed.

Lemma Forall2_refl_in {A} (R : A -> A -> Prop) l : (forall a, In a l -> R a a) -> Forall2 R l l.
Proof. induction l as [|a l IH]; intros H; constructor; [apply H; left; reflexivity | apply IH; intros b B; apply H; right; exact B]. Qed.
Lemma Forall2_mono_in {A B} (R Q : A -> B -> Prop) l l' : Forall2 R l l' -> (forall a b, In a l -> R a b -> Q a b) -> Forall2 Q l l'.
Proof. intros F. induction F as [|a b l l' H F IH]; intros G; constructor; [apply G; [left; reflexivity | exact H] | apply IH; intros x y I; apply G; right; exact I]. Qed.
Lemma Layers_nil st st' t t' r : Layers st st' t t' [] r -> r = RTool t'.
Proof. intros H. inversion H. reflexivity. Qed.
Lemma JsRemoved_in l l' : JsRemoved l l' -> forall r, NotJs r -> In r l -> In r l'.
Proof.
  induction 1 as [|r0 l l' N H IH|lib l l' H IH]; intros r J I; [destruct I | |].
  - destruct I as [<- | I]; [left; reflexivity | right; apply IH; auto].
  - destruct I as [<- | I]; [destruct J | apply IH; auto].
Qed.

Section Whole.
  Variable gx : json -> json -> json -> result (option string).
  Variable ev : string -> json -> result json.
  Variable src_example self_example : list wstep -> wstep -> src -> result json.
  Variable src_params : list wstep -> src -> result nat.
  Variable src_known : list wstep -> wstep -> string -> result unit.
  Variable out_known : list wstep -> src -> result unit.
  Variable load_run : string -> result (tool * bool).
  Variable attrs : list string.
  Variable replace_etool skip1 skip2 : bool.
  Variable digest : nat -> string.
  Notation refactored fuel p := (traverse gx ev src_example self_example src_params src_known out_known load_run attrs
                                   replace_etool skip1 skip2 digest fuel false p).

  (** the step that runs the tool gets no other inputs than these *)
  Theorem C83_added_inputs : forall fuel c w', t_kind (cm_tool c) = KClt ->
    refactored fuel (PTool c) = Ok (PWorkflow w', true) ->
    exists main made old new, wf_steps w' = main :: made /\ ws_in main = old ++ new /\
      Forall2 Passed (t_inputs (cm_tool c)) old /\ Forall (Fed attrs "main") new.
  Proof.
    intros fuel c w' K E. destruct (tool_inv _ _ _ _ _ _ _ _ _ _ _ _ _ _ _ _ _ K E) as (w0 & E0 & Q). injection Q as <-.
    destruct (wrapped_fed _ _ _ _ _ _ _ _ _ _ _ _ _ (expand_stream_shortcuts digest c) _ _ K E0) as (main & made & new & A & B & C).
    exists main, made. eexists. exists new. split; [exact A|]. split; [exact B|]. split; [|exact C].
    cbn [expand_stream_shortcuts cm_tool tool_stream t_inputs]. clear. induction (t_inputs (cm_tool c)) as [|p l IH]; cbn [map]; constructor; [|exact IH].
    repeat split; apply (after_hash_Fragment (ti_id p)); reflexivity.
  Qed.

  Theorem C83_same_command_partial : params_found src_params -> Forall FieldName attrs ->
    forall c, Suitable gx (cm_tool c) (cm_types c) ->
    forall fuel w', refactored fuel (PTool c) = Ok (PWorkflow w', true) ->
    exists main made t', wf_steps w' = main :: made /\ ws_run main = RTool t' /\
      forall eval uses, Meaning (cm_tool c) eval uses ->
      forall gives, Computes gx (cm_tool c) eval gives made ->
      forall v val, Links v val -> Solves v val gives made ->
      forall own, (forall x, own_inputs (cm_tool c) v x (own x)) ->
      forall names, Forall2 (fun p x => ParamName (ti_id p) x) (t_inputs t') names ->
        SameCommand eval own (inputs_in val (ws_in main) names) (cm_tool c) t'.
  Proof.
    intros P FN c [K PN Un So Se St] fuel w' E.
    destruct (C81_interface _ _ _ _ _ _ _ _ _ _ _ _ _ P _ _ _ K E) as (main & Ar).
    destruct (ar_steps _ _ _ Ar) as (made & Es & _).
    destruct (C83_added_inputs _ _ _ K E) as (main2 & made2 & old & new & Es2 & In1 & In2 & In3).
    rewrite Es in Es2. injection Es2 as <- <-.
    destruct (C81_expressions _ _ _ _ _ _ _ _ _ _ _ _ _ (fields_ok _ FN) _ _ _ K E) as (st & main2 & made2 & t & t' & Es2 & Id & Ps & To & Inn & TM & TR).
    pose proof Es2 as Es2'. rewrite Es in Es2'. injection Es2' as <- <-. clear Es2.
    pose proof (proj2 To So) as Et. 
    destruct (tool_inv _ _ _ _ _ _ _ _ _ _ _ _ _ _ _ _ _ K E) as (w0 & E0 & Q). injection Q as <-.
    rewrite (expand_same digest c So) in E0.
    destruct (C69_output_evals _ _ _ _ _ _ _ _ _ _ _ _ _ _ _ _ E0) as (olds & news & Ev1 & Ev2).
    cbn [wrap_tool wf_steps] in Ev2. inversion Ev2 as [|st0 main2 l0 l1 H B]; subst. inversion B; subst.
    rewrite Es in Ev1. cbn [app] in Ev1. injection Ev1 as <- _.
    destruct (H (cm_tool c)) as (t2 & Inn2 & EM); [intros (r & X); discriminate X | discriminate | left; reflexivity | exact K|].
    rewrite Inn in Inn2. injection Inn2 as <-. destruct EM as (evs & Ee & Ly & Oe).
    assert (Ne : evs = []) by (destruct skip2; [exact Ee | exact (EvalsOf_none _ _ _ Se Ee)]). subst evs. cbn [rev] in Ly. apply Layers_nil in Ly.
    exists main, made, t'. split; [exact Es|]. split; [exact Ly|].
    intros eval uses [ML MR MU] gives MM v val Lk Sv own Own names Nm.
    set (now := inputs_in val (ws_in main) names).
    (* inputs of the tool *)
    assert (Slash : forall p n, In p (t_inputs (cm_tool c)) -> Fragment (ti_id p) n -> has_char "/" n = false).
    { intros p n Ip F. unfold PlainNames in PN. rewrite Forall_forall in PN. destruct (PN p Ip) as (n' & F' & N). apply after_hash_Fragment in F, F'. congruence. }
    assert (OldI : forall i, In i old -> name_of i = si_id i /\ value_of val i = v (si_id i) /\ startswith "_" (si_id i) = false /\
              exists p, In p (t_inputs (cm_tool c)) /\ Fragment (ti_id p) (si_id i)).
    { intros i I. destruct (Forall2_in_r _ _ _ _ In2 I) as (p & Ip & P1 & P2 & P3 & P4 & P5). split; [|split; [|split]].
      - unfold name_of. apply last_part_none. exact (Slash p _ Ip P1).
      - unfold value_of. rewrite P2, P3, P4, P5. apply Lk.
      - destruct (startswith "_" (si_id i)) eqn:S; auto. exfalso. eapply Un; [exact Ip | exact P1 | apply StartsWith_b; exact S].
      - eauto. }
    assert (Len : List.length (ws_in st) = List.length old) by (rewrite <- (Forall2_same_length _ _ _ Ps); apply (Forall2_same_length _ _ _ In2)).
    assert (Ad : added st main = new).
    { unfold added. rewrite In1, Len, skipn_app, skipn_all, Nat.sub_diag. reflexivity. }
    assert (Nst : forall n, Fragment (ws_id st) n -> n = "main").
    { intros n F. rewrite Id in F. apply after_hash_Fragment in F. pose proof (ar_name _ _ _ Ar) as F2. apply after_hash_Fragment in F2. congruence. }
    destruct (tm_inputs _ _ _ _ _ _ _ TM) as (told & tnew & Ti1 & Ti2 & Ti3).
    assert (Own1 : forall p x, In p (t_inputs (cm_tool c)) -> Fragment (ti_id p) x -> own x = Some (v x)).
    { intros p x Ip F. destruct (Own x) as [(-> & _) | (_ & N)]; [reflexivity | destruct (N p Ip F)]. }
    assert (Now1 : forall p x, In p (t_inputs (cm_tool c)) -> Fragment (ti_id p) x -> now x = Some (v x)).
    { intros p x Ip F. unfold now, inputs_in.
      assert (Ex : existsb (String.eqb x) names = true).
      { destruct (Forall2_in_l _ _ _ _ Ti2 Ip) as (p' & Ip' & (S1 & _)).
        assert (I' : In p' (t_inputs t')) by (rewrite Ti1; apply in_or_app; auto).
        destruct (Forall2_in_l _ _ _ _ Nm I') as (y & Iy & (f & Ff & Fl)). apply existsb_exists. exists y. split; [exact Iy|]. apply String.eqb_eq.
        apply after_hash_Fragment in F, Ff.
        assert (Ef : f = x). { destruct S1 as [S1 | S1]; [congruence|]. apply after_hash_Fragment in S1. rewrite <- S1 in Ff. rewrite after_hash_twice in Ff. congruence. }
        rewrite Ef in Fl. destruct Fl as (F1 & [F2 | (a & F2)]); [congruence|]. exfalso.
        assert (Hs : has_char "/" x = false) by (apply (Slash p x Ip); apply after_hash_Fragment; exact F).
        rewrite F2, has_char_app in Hs. cbn in Hs. rewrite orb_true_r in Hs. discriminate Hs. }
      rewrite Ex, In1.
      destruct (Forall2_in_l _ _ _ _ In2 Ip) as (i & Ii & (P1 & _)). apply after_hash_Fragment in F, P1.
      assert (Fa : forall l, In i l -> (forall j, In j l -> In j old) -> match find (fun i => String.eqb (name_of i) x) (l ++ new) with Some i => Some (value_of val i) | None => None end = Some (v x)).
      { intros l. induction l as [|j l IH]; intros Il Sub; [destruct Il|]. cbn [app find]. destruct (OldI j (Sub j (or_introl eq_refl))) as (O1 & O2 & _). rewrite O1. destruct (String.eqb (si_id j) x) eqn:Q.
        - apply String.eqb_eq in Q. rewrite O2, Q. reflexivity.
        - apply IH; [destruct Il as [-> | Il]; [|exact Il] | intros k Ik; apply Sub; right; exact Ik]. apply String.eqb_neq in Q. congruence. }
      apply Fa; auto. }
    assert (Same : forall text self, TextOf (cm_tool c) text -> eval self text now = eval self text own).
    { intros text self T. apply ML. intros x U. destruct (MU text x T U) as (p & Ip & F). rewrite (Own1 p x Ip F). exact (Now1 p x Ip F). }
    (* the values that are linked *)
    assert (Linked : forall place mid text inputs self e g, Ref attrs place mid -> TextOf (cm_tool c) text -> gx text inputs self = Ok (Some e) -> e <> "" ->
      In g (main :: made) -> MadeForTool st main (cm_tool c) mid None e g -> LinkedHere st main t' place g ->
      eval JNull (JStr ("$(inputs." ++ place ++ ")")) now = eval JNull text own).
    { intros place mid text inputs self e g R T G Ne Ig M ((p & Ip & Ep) & Ia). rewrite Ad in Ia.
      destruct (mt_id _ _ _ _ _ _ _ M) as (n & Fn & Eg). apply Nst in Fn. subst n.
      assert (Im : In g made).
      { destruct Ig as [<- | Ig]; [|exact Ig]. exfalso. pose proof (ar_name _ _ _ Ar) as X. apply after_hash_Fragment in X. rewrite Eg in X.
        rewrite after_hash_none in X by (rewrite !has_char_app, (ref_mid _ FN _ _ R); reflexivity). discriminate X. }
      assert (Nw : now place = Some (v (ws_id g ++ "/result")%string)).
      { unfold now, inputs_in.
        assert (Ex : existsb (String.eqb place) names = true).
        { destruct (Forall2_in_l _ _ _ _ Nm Ip) as (y & Iy & Py). rewrite Ep in Py. apply (ref_param _ FN _ _ _ R) in Py. subst y.
          apply existsb_exists. exists place. split; [exact Iy | apply String.eqb_refl]. }
        rewrite Ex, In1.
        assert (Fo : forall l, (forall j, In j l -> In j old) -> find (fun i => String.eqb (name_of i) place) (l ++ new) = find (fun i => String.eqb (name_of i) place) new).
        { intros l. induction l as [|j l IH]; intros Sub; [reflexivity|]. cbn [app find]. destruct (OldI j (Sub j (or_introl eq_refl))) as (O1 & _ & O3 & _).
          rewrite O1. destruct (String.eqb_spec (si_id j) place) as [Q|_]; [|apply IH; intros k Ik; apply Sub; right; exact Ik].
          rewrite Q, (ref_under _ _ _ R) in O3. discriminate O3. }
        rewrite Fo by auto.
        destruct (find _ new) as [j|] eqn:Fj.
        - apply find_some in Fj. destruct Fj as (Ij & Ej). apply String.eqb_eq in Ej. rewrite Forall_forall in In3.
          rewrite (fed_ref attrs FN "main" place mid j R (In3 j Ij) Ej). unfold value_of. cbn [fed_by si_source si_linkMerge si_default si_valueFrom].
          rewrite Lk, Eg, !sapp_assoc. reflexivity.
        - exfalso. pose proof (find_none _ _ Fj _ Ia) as X. cbn beta in X. unfold name_of in X. cbn [si_id] in X.
          rewrite last_part_none in X by (eapply ident_no; [exact FN | reflexivity | exact R]). rewrite String.eqb_refl in X. discriminate X. }
      rewrite (MR place _ now (ref_ident _ FN _ _ R) Nw), (Sv g Im), (MM g text inputs self e _ Im T G Ne (mt_text _ _ _ _ _ _ _ M)).
      refine (C81_values val v (fun _ => eval JNull text) (fun _ => uses text) _ Lk c w' st main (cm_tool c) Ar Ps To PN mid None e g M _ own Own).
      - intros _ o o' Ho. apply ML. exact Ho.
      - intros x U. destruct (MU text x T U) as (q & Iq & F). split; [exact (Un q x Iq F) | eauto]. }
    assert (Text : forall place o o', Ref attrs place place -> TextMoved gx (main :: made) st main (cm_tool c) t' place o o' ->
      (forall s, o = Some s -> TextOf (cm_tool c) (JStr s)) -> SameText eval own now o o').
    { intros place o o' R M T. destruct M as [o N | s e g Ns (Ne & inputs & self & G) Ig Mg Lg].
      - destruct o as [s|]; [|exact I]. cbn [SameText]. apply Same. apply T. reflexivity.
      - cbn [SameText]. eapply Linked; eauto. }
    rewrite Es in TM, TR.
    assert (Req : forall r, NotJs r -> In r (reqs_of (cm_tool c)) -> exists r', In r' (reqs_of t') /\ ToolReqMoved gx (main :: made) st main (cm_tool c) t' attrs skip2 r r').
    { intros r N Ir. unfold ToolReqsMoved in TR. unfold reqs_of in *. destruct (t_reqs (cm_tool c)) as [l|]; [|destruct Ir].
      destruct TR as (l1 & F & L). destruct (Forall2_in_l _ _ _ _ F Ir) as (r' & Ir' & M). exists r'. split; [|exact M].
      destruct L as [-> | L]; [exact Ir'|]. eapply JsRemoved_in; [exact L | | exact Ir']. destruct M; try exact I. exact N. }
    split.
    - exact (tm_kind _ _ _ _ _ _ _ TM).
    - pose proof (tm_args _ _ _ _ _ _ _ TM) as TA. destruct skip1.
      + rewrite TA. apply Forall2_refl_in. intros [s|[s|]] Ia; cbn [SameArg SameText]; [apply Same, TO_text; exact Ia | apply Same, TO_bind; exact Ia | exact I].
      + assert (G : forall k l l', ArgsMoved gx (main :: made) st main (cm_tool c) t' k l l' -> incl l (t_args (cm_tool c)) -> Forall2 (SameArg eval own now) l l').
        { intros k l l' A. induction A as [k | k a a' l l' A1 A2 IH]; intros Sub; constructor; [|apply IH; intros z Z; apply Sub; right; exact Z].
          assert (Ia : In a (t_args (cm_tool c))) by (apply Sub; left; reflexivity).
          destruct A1 as [o o' M | s N | s e g Fd Ig Mg _ _].
          - cbn [SameArg]. eapply Text; [apply Rf_arg | exact M|]. intros s ->. apply TO_bind. exact Ia.
          - cbn [SameArg SameText]. apply Same, TO_text. exact Ia.
          - destruct (St s e Ia Fd). }
        exact (G _ _ _ TA (incl_refl _)).
    - eapply Text; [apply Rf_stdout | exact (tm_stdout _ _ _ _ _ _ _ TM)|]. intros s Q. apply TO_stdout. exact Q.
    - eapply Text; [apply Rf_stderr | exact (tm_stderr _ _ _ _ _ _ _ TM)|]. intros s Q. apply TO_stderr. exact Q.
    - exists told, tnew. split; [exact Ti1|]. split.
      + eapply Forall2_mono_in; [exact Ti2|]. intros p p' Ip (S1 & S2 & S3).
        pose proof (after_hash_frag (ti_id p)) as Fp. exists (after_hash (ti_id p)), (v (after_hash (ti_id p))).
        split; [apply param_name; [exact Fp | exact (Slash p _ Ip Fp)]|]. split.
        { apply param_name; [|exact (Slash p _ Ip Fp)]. apply after_hash_Fragment. destruct S1 as [-> | S1]; [reflexivity|]. apply after_hash_Fragment in S1. rewrite <- S1. apply after_hash_twice. }
        split; [exact S2|]. split; [exact (Own1 p _ Ip Fp)|]. split; [exact (Now1 p _ Ip Fp)|].
        rewrite S3. destruct (ti_valueFrom p) as [s|] eqn:V; [|exact I]. apply Same. eapply TO_binding; eauto.
      + eapply Forall_impl; [|exact Ti3]. intros p (_ & Q). exact Q.
    - eapply Forall2_mono_in; [exact Oe|]. intros o o' Io (S1 & S2 & S3 & S4). split; [exact S1|]. split; [rewrite S2; apply Same, TO_glob; exact Io|].
      split; [exact S4|]. rewrite S3. destruct (to_eval o) as [s|] eqn:V; [|exact I]. intros self. apply Same. eapply TO_eval; eauto.
    - intros values Iv. destruct (Req (RRes values) I Iv) as (r' & Ir & M). inversion M as [|values0 values' HV| | | | |r0 _ N _]; subst; [|destruct N; exact I].
      exists values'. split; [exact Ir|]. intros a. destruct (HV a) as [(D1 & _) | (D1 & Ia & e & g & (Ne & inputs & G) & Ig & Mg & Lg)].
      + unfold resource at 1. rewrite D1. apply Same. apply TO_resource. exact Iv.
      + unfold resource at 1. rewrite D1. eapply (Linked ("_" ++ a)%string ("_ResourceRequirement_" ++ a)%string (resource values a)); eauto using Rf_res, TO_resource.
    - intros defs Id2. destruct (Req (REnv defs) I Id2) as (r' & Ir & M). inversion M as [d HV| | | | | |r0 N _ _]; subst; [|destruct N; exact I].
      exists defs. split; [exact Ir|]. apply Forall2_refl_in. intros (x, s) Ix. split; [reflexivity|]. apply Same. eapply TO_env; eauto.
  Qed.
End Whole.
Print Assumptions C83_added_inputs.
Print Assumptions C83_same_command_partial.

(** *** A case: a tool with expressions in arguments, stdout, resources and an inputBinding *)
Definition same_tool : tool :=
  {| t_kind := KClt; t_inputs := [tin "t.cwl#x"; {| ti_id := "t.cwl#y"; ti_type := JStr "int"; ti_valueFrom := Some "$(self + 1)" |}];
     t_args := [ABind (Some "$(inputs.y + 1)"); AText "-v"; ABind (Some "$(inputs.y + 2)")];
     t_stdout := Some "$(inputs.x + 'a')"; t_stderr := Some "err.txt";
     t_outputs := [{| to_id := "t.cwl#out"; to_glob := JStr "out.txt"; to_eval := None; to_contents := false |}];
     t_reqs := Some [RRes [("coresMin", JStr "$(inputs.y + 3)"); ("ramMin", JInt 4)]; RJs None; REnv [("A", "b")]];
     t_hints := []; t_expression := "" |}.
Definition same_command : command := {| cm_tool := same_tool; cm_extra := []; cm_types := [JStr "File"] |}.

(** values: numbers are added, texts are put together *)
Definition plus (k : Z) (w : option json) : json := match w with Some (JInt n) => JInt (n + k) | _ => JNull end.
Definition then_a (w : option json) : json := match w with Some (JStr s) => JStr (s ++ "a") | _ => JNull end.
Definition entry_of (s : string) : option (string * (option json -> json)) :=
  dget s [("$(inputs.y + 1)", ("y", plus 1)); ("$(inputs.y + 2)", ("y", plus 2)); ("$(inputs.y + 3)", ("y", plus 3)); ("$(inputs.x + 'a')", ("x", then_a))].
Definition reference (s : string) : option string :=
  match after_first "." s with
  | Some r => if startswith "$(inputs." s then (if String.eqb s ("$(inputs." ++ sdrop_last 1 r ++ ")") then Some (sdrop_last 1 r) else None) else None
  | None => None
  end.
Definition same_eval (self text : json) (o : string -> option json) : json :=
  match text with
  | JStr s => if String.eqb s "$(self + 1)" then plus 1 (Some self)
              else match entry_of s with
                   | Some (x, f) => f (o x)
                   | None => match reference s with Some x => match o x with Some w => w | None => JNull end | None => text end
                   end
  | _ => text
  end.
Definition same_uses (text : json) (x : string) : Prop :=
  match text with
  | JStr s => match entry_of s with Some (y, _) => y = x | None => reference s = Some x end
  | _ => False
  end.
Definition same_gives (r : run) (o : string -> option json) : json :=
  match r with
  | RTool t => match find (fun s => String.eqb (t_expression t) (etool_expression None ("${return " ++ sdrop_last 1 (sdrop 2 s) ++ ";}")))
                          ["$(inputs.y + 1)"; "$(inputs.y + 2)"; "$(inputs.y + 3)"; "$(inputs.x + 'a')"] with
               | Some s => same_eval JNull (JStr s) o
               | None => JNull
               end
  | _ => JNull
  end.
Definition same_values (x : string) : json :=
  match dget x [("x", JStr "f"); ("y", JInt 5); ("_expression_main_arguments_0/result", JInt 6); ("_expression_main_arguments_2/result", JInt 7);
                ("_expression_main_stdout/result", JStr "fa"); ("_expression_main_ResourceRequirement_coresMin/result", JInt 8)] with
  | Some v => v
  | None => JNull
  end.
Definition same_link (s : src) (merge : option string) (default : json) (vf : option string) : json :=
  match s with SOne x => same_values x | _ => default end.
Definition same_own (x : string) : option json := if String.eqb x "x" then Some (JStr "f") else if String.eqb x "y" then Some (JInt 5) else None.

Lemma same_reference x : reference ("$(inputs." ++ x ++ ")") = Some x.
Proof.
  unfold reference. assert (A : after_first "." ("$(inputs." ++ x ++ ")") = Some (x ++ ")")%string) by reflexivity. rewrite A.
  rewrite (startswith_app "$(inputs."). rewrite (sdrop_last_app x ")" : sdrop_last 1 (x ++ ")") = x), String.eqb_refl. reflexivity.
Qed.
Lemma same_entry x : identifier x = true -> entry_of ("$(inputs." ++ x ++ ")") = None /\ String.eqb ("$(inputs." ++ x ++ ")") "$(self + 1)" = false.
Proof.
  intros I. apply all_chars_no with (c := " "%char) in I; [|reflexivity].
  assert (G : forall t, has_char " " t = true -> String.eqb ("$(inputs." ++ x ++ ")") ("$(inputs." ++ t) = false).
  { intros t H. apply String.eqb_neq. intros E. apply (sapp_inj_l "$(inputs.") in E. rewrite <- E, has_char_app, I in H. discriminate H. }
  split; [|reflexivity]. unfold entry_of. cbn [dget].
  change "$(inputs.y + 1)" with ("$(inputs." ++ "y + 1)")%string. change "$(inputs.y + 2)" with ("$(inputs." ++ "y + 2)")%string.
  change "$(inputs.y + 3)" with ("$(inputs." ++ "y + 3)")%string. change "$(inputs.x + 'a')" with ("$(inputs." ++ "x + 'a')")%string.
  rewrite (G "y + 1)" eq_refl), (G "y + 2)" eq_refl), (G "y + 3)" eq_refl), (G "x + 'a')" eq_refl). reflexivity.
Qed.
Lemma same_texts text : TextOf same_tool text ->
  In text (map JStr ["$(inputs.y + 1)"; "-v"; "$(inputs.y + 2)"; "$(inputs.x + 'a')"; "err.txt"; "$(self + 1)"; "out.txt"; "$(inputs.y + 3)"; "b"] ++ [JInt 4; JNull]).
Proof.
  intros [s I | s I | s E | s E | p s I E | o I | o s I E | values a I | defs x s I J]; cbn in *.
  - destruct I as [I | [I | [I | []]]]; first [discriminate I | injection I as <-; auto 20].
  - destruct I as [I | [I | [I | []]]]; first [discriminate I | injection I as <-; auto 20].
  - injection E as <-. auto 20.
  - injection E as <-. auto 20.
  - destruct I as [<- | [<- | []]]; [discriminate E | injection E as <-; auto 20].
  - destruct I as [<- | []]. auto 20.
  - destruct I as [<- | []]. discriminate E.
  - destruct I as [I | [I | [I | []]]]; try discriminate I. injection I as <-. unfold resource. cbn [dget].
    destruct (String.eqb a "coresMin"); [auto 20|]. destruct (String.eqb a "ramMin"); auto 20.
  - destruct I as [I | [I | [I | []]]]; try discriminate I. injection I as <-. destruct J as [J | []]. injection J as <- <-. auto 20.
Qed.
Lemma same_meaning : Meaning same_tool same_eval same_uses.
Proof.
  split.
  - intros self text o o' H. destruct text as [| | | | s | |]; try reflexivity. unfold same_uses, same_eval in *. destruct (String.eqb s "$(self + 1)"); [reflexivity|].
    destruct (entry_of s) as [(y, f)|]; [rewrite (H y eq_refl); reflexivity|]. destruct (reference s) as [y|]; [|reflexivity]. rewrite (H y eq_refl). reflexivity.
  - intros x w o I O. unfold same_eval. destruct (same_entry x I) as (A & ->). rewrite A, same_reference, O. reflexivity.
  - intros text x T U. apply same_texts in T. 
    assert (G : forall n, n = "x" \/ n = "y" -> exists p, In p (t_inputs same_tool) /\ Fragment (ti_id p) n).
    { intros n [-> | ->]; eexists; [split; [left; reflexivity|] | split; [right; left; reflexivity|]]; (split; [reflexivity | right; exists "t.cwl"; reflexivity]). }
    apply G. cbn in T. repeat (destruct T as [<- | T]; [vm_compute in U; first [discriminate U | destruct U; first [left; reflexivity | right; reflexivity]]|]). destruct T.
Qed.
Example C83_case : exists w' main made t', demo_traverse false (PTool same_command) = Ok (PWorkflow w', true) /\
  wf_steps w' = main :: made /\ ws_run main = RTool t' /\
  t_args t' = [ABind (Some "$(inputs._arguments_0)"); AText "-v"; ABind (Some "$(inputs._arguments_2)")] /\
  Suitable demo_gx same_tool (cm_types same_command) /\ Forall FieldName ["coresMin"; "ramMin"] /\ Meaning same_tool same_eval same_uses /\
  Computes demo_gx same_tool same_eval same_gives made /\ Links same_values same_link /\ Solves same_values same_link same_gives made /\
  (forall x, own_inputs same_tool same_values x (same_own x)) /\
  Forall2 (fun p x => ParamName (ti_id p) x) (t_inputs t') (map (fun p => basename (after_hash (ti_id p))) (t_inputs t')) /\
  inputs_in same_link (ws_in main) (map (fun p => basename (after_hash (ti_id p))) (t_inputs t')) "_arguments_0" = Some (JInt 6).
Proof.
  eexists. eexists. eexists. eexists. split; [vm_compute; reflexivity|]. split; [reflexivity|]. split; [reflexivity|]. split; [reflexivity|].
  split.
  { split; try reflexivity.
    - repeat constructor; [exists "x" | exists "y"]; (split; [split; [reflexivity | right; exists "t.cwl"; reflexivity] | reflexivity]).
    - intros p n I F S. apply after_hash_Fragment in F. apply StartsWith_b in S. destruct I as [<- | [<- | []]]; vm_compute in F; subst n; discriminate S.
    - repeat constructor; discriminate.
    - intros o s e [<- | []] E; discriminate E.
    - intros s e [I | [I | [I | []]]] (N & inputs & self & G); try discriminate I. injection I as <-. vm_compute in G. discriminate G. }
  split; [repeat constructor; intros [E | [E | [E | [E | []]]]]; discriminate E|].
  split; [exact same_meaning|]. split.
  { intros g text inputs self e o Ig T G Ne R. apply same_texts in T.
    repeat (destruct T as [<- | T]; [try (vm_compute in G; discriminate G)|]); [.. | destruct T]; vm_compute in G; injection G as <-;
    destruct R as (t & Rt & [(_ & R) | (K & _)]);
    repeat (destruct Ig as [<- | Ig]; [injection Rt as <-; first [vm_compute in R; discriminate R | reflexivity | discriminate K]|]); destruct Ig. }
  split; [intros x; reflexivity|]. split.
  { intros g Ig. repeat (destruct Ig as [<- | Ig]; [vm_compute; reflexivity|]). destruct Ig. }
  split.
  { intros x. unfold same_own. destruct (String.eqb_spec x "x") as [->|N1]; [|destruct (String.eqb_spec x "y") as [->|N2]].
    - left. split; [reflexivity|]. eexists. split; [left; reflexivity|]. split; [reflexivity | right; exists "t.cwl"; reflexivity].
    - left. split; [reflexivity|]. eexists. split; [right; left; reflexivity|]. split; [reflexivity | right; exists "t.cwl"; reflexivity].
    - right. split; [reflexivity|]. intros p I F. apply after_hash_Fragment in F. destruct I as [<- | [<- | []]]; vm_compute in F; subst x; congruence. }
  split; [|vm_compute; reflexivity].
  match goal with |- Forall2 _ ?l _ => generalize l end. intros l. induction l; constructor; [apply ParamName_b | assumption].
Qed.
