(** * Proofs about the refactoring of the expressions of tools *)
From Verif Require Import PyBase PyBaseProofs PackModel ExprModel EvalModel RefactorModel RefactorSpec RefactorProofs
  FlowModel FlowSpec FlowProofs FlowProofs2 FlowTrace FlowValueSpec FlowValueProofs FlowReqProofs FlowReqProofs2 FlowToolSpec.

Lemma underscored_b s : underscored s = startswith "_" s.
Proof.
  destruct s as [|c s]; [reflexivity|]. cbn [underscored startswith]. destruct (Ascii.eqb_spec "_" c) as [<-|N]; [destruct s; reflexivity|].
  destruct c as [[] [] [] [] [] [] [] []]; try reflexivity. exfalso. apply N. reflexivity.
Qed.
Lemma basename_LastPart s : LastPart s (basename s).
Proof. rewrite basename_last_part. apply last_part_LastPart. Qed.
Lemma after_hash_frag s : Fragment s (after_hash s).
Proof. apply after_hash_Fragment. reflexivity. Qed.
Lemma ParamName_b s : ParamName s (basename (after_hash s)).
Proof. exists (after_hash s). split; [apply after_hash_frag | apply basename_LastPart]. Qed.
Lemma after_hash_twice s : after_hash (after_hash s) = after_hash s.
Proof. apply after_hash_Fragment. destruct (after_hash_frag s) as (A & B). split; auto. Qed.
Lemma has_hash_after s : has_char "#" (after_hash s) = false.
Proof. apply after_hash_frag. Qed.
Lemma after_hash_none s : has_char "#" s = false -> after_hash s = s.
Proof. intros H. apply after_hash_Fragment. split; auto. Qed.
Lemma no_hash_place a b c : has_char "#" a = false -> has_char "#" b = false -> has_char "#" c = false ->
  has_char "#" (a ++ b ++ c) = false.
Proof. intros A B C. rewrite !has_char_app, A, B, C. reflexivity. Qed.

Lemma str_nat_no_slash n : has_char "/" (str_nat n) = false.
Proof.
  assert (U : forall u, has_char "/" (DecimalString.NilEmpty.string_of_uint u) = false) by (induction u; auto).
  unfold str_nat, DecimalString.NilZero.string_of_uint. destruct (Nat.to_uint n); try reflexivity; apply (U (_ _)).
Qed.

(** the tool inside, and its parameters *)
Definition ti_short (p : tinput) : tinput := {| ti_id := after_hash (ti_id p); ti_type := ti_type p; ti_valueFrom := ti_valueFrom p |}.
Lemma JsRemoved_trans a b : JsRemoved a b -> forall c, JsRemoved b c -> JsRemoved a c.
Proof.
  induction 1 as [|r l l' N H IH|lib l l' H IH]; intros c C.
  - exact C.
  - inversion C; subst; [constructor; auto|]. destruct N.
  - constructor. auto.
Qed.
Record ToolRel0 (t1 t2 : tool) : Prop := {
  tr_kind : t_kind t2 = t_kind t1;
  tr_hints : t_hints t2 = t_hints t1 \/ JsRemoved (t_hints t1) (t_hints t2);
  tr_inputs : exists old new, t_inputs t2 = old ++ new /\ Forall2 ParamSame (t_inputs t1) old /\
                Forall (fun p => startswith "_" (ti_id p) = true /\ has_char "#" (ti_id p) = false /\ ti_valueFrom p = None) new;
  tr_outputs : Forall2 OutSame (t_outputs t1) (t_outputs t2) }.

Lemma ShortFor_trans a b c : ShortFor a b -> ShortFor b c -> ShortFor a c.
Proof.
  intros [-> | F] H; auto. destruct H as [-> | G]; [right; exact F|]. right.
  apply after_hash_Fragment in F, G. apply after_hash_Fragment. rewrite <- G, <- F. symmetry. apply after_hash_twice.
Qed.
Lemma ParamSame_trans a b c : ParamSame a b -> ParamSame b c -> ParamSame a c.
Proof. intros (A1 & A2 & A3) (B1 & B2 & B3). repeat split; try congruence. eapply ShortFor_trans; eauto. Qed.
Lemma OutSame_trans a b c : OutSame a b -> OutSame b c -> OutSame a c.
Proof. intros (A1 & A2) (B1 & B2). repeat split; try congruence. eapply ShortFor_trans; eauto. Qed.
Lemma ParamSame_refl a : ParamSame a a.
Proof. repeat split. left. reflexivity. Qed.
Lemma OutSame_refl a : OutSame a a.
Proof. repeat split. left. reflexivity. Qed.
Lemma Forall2_trans {A} (P : A -> A -> Prop) : (forall a b c, P a b -> P b c -> P a c) ->
  forall l1 l2, Forall2 P l1 l2 -> forall l3, Forall2 P l2 l3 -> Forall2 P l1 l3.
Proof. intros T l1 l2 F. induction F; intros l3 G; inversion G; subst; constructor; eauto. Qed.

Lemma ToolRel0_refl t : ToolRel0 t t.
Proof.
  split; auto.
  - exists (t_inputs t), []. rewrite app_nil_r. repeat split; auto. apply Forall2_refl. apply ParamSame_refl.
  - apply Forall2_refl. apply OutSame_refl.
Qed.
Lemma same_added a b : ParamSame a b ->
  startswith "_" (ti_id a) = true /\ has_char "#" (ti_id a) = false /\ ti_valueFrom a = None -> b = a.
Proof.
  intros (A1 & A2 & A3) (B1 & B2 & B3). destruct a as [i1 t1 v1], b as [i2 t2 v2]. cbn in *. subst. f_equal.
  destruct A1 as [-> | F]; auto. apply after_hash_Fragment in F. rewrite after_hash_none in F; auto.
Qed.
Lemma ToolRel0_trans a b c : ToolRel0 a b -> ToolRel0 b c -> ToolRel0 a c.
Proof.
  intros [A1 Ah (o1 & n1 & A2 & A3 & A4) A5] [B1 Bh (o2 & n2 & B2 & B3 & B4) B5]. split; try congruence.
  - destruct Ah as [Ah|Ah]; [rewrite <- Ah; exact Bh|]. destruct Bh as [Bh|Bh]; [rewrite Bh; auto|]. right. eapply JsRemoved_trans; eauto.
  - rewrite A2 in B3. apply Forall2_app_inv_l in B3. destruct B3 as (o3 & n3 & B3 & B6 & ->).
    exists o3, (n3 ++ n2). rewrite B2, <- app_assoc. split; auto. split.
    + exact (Forall2_trans _ ParamSame_trans _ _ A3 _ B3).
    + apply Forall_app. split; auto. clear - A4 B6. induction B6; constructor.
      * inversion A4; subst. rewrite (same_added _ _ H); auto.
      * inversion A4; auto.
  - exact (Forall2_trans _ OutSame_trans _ _ A5 _ B5).
Qed.
Lemma ToolRel0_declares a b x : has_char "#" x = false -> ToolRel0 a b -> Declares a x -> Declares b x.
Proof.
  intros Hx [_ _ (o & n & A2 & A3 & _) _] (p & P & <-). destruct (Forall2_in_l _ _ _ _ A3 P) as (p' & P' & ([E | E] & _)).
  - exists p'. rewrite A2. split; [apply in_or_app; auto | exact E].
  - exists p'. rewrite A2. split; [apply in_or_app; auto|]. apply after_hash_Fragment in E. rewrite <- E. apply after_hash_none. exact Hx.
Qed.


(** the requirements: as they were, or without InlineJavascriptRequirement *)
Definition rlist (r : option (list wreq)) : list wreq := match r with Some l => l | None => [] end.
Definition ReqsLater (r r' : option (list wreq)) : Prop := r' = r \/ (r <> None /\ JsRemoved (rlist r) (rlist r')).
Lemma JsRemoved_nil c : JsRemoved [] c -> c = [].
Proof. intros H. inversion H. reflexivity. Qed.
Lemma JsRemoved_filter l : JsRemoved l (filter (fun r => negb (is_js r)) l).
Proof. induction l as [|r l IH]; [constructor|]. destruct r; cbn; constructor; auto; exact I. Qed.
Lemma JsRemoved_refl_no l l' : JsRemoved l l' -> forall l2, JsRemoved l' l2 -> l2 = l'.
Proof.
  induction 1 as [|r l l' N H IH|lib l l' H IH]; intros l2 C; auto.
  - apply JsRemoved_nil. exact C.
  - inversion C; subst; [f_equal; auto|]. destruct N.
Qed.
Lemma ReqsLater_refl r : ReqsLater r r.
Proof. left. reflexivity. Qed.
Lemma ReqsLater_trans a b c : ReqsLater a b -> ReqsLater b c -> ReqsLater a c.
Proof.
  intros [-> | (Na & A)] H; auto. destruct H as [-> | (Nb & B)]; right; split; auto. eapply JsRemoved_trans; eauto.
Qed.
Lemma remove_js_later t : ReqsLater (t_reqs t) (t_reqs (remove_js t)).
Proof.
  cbn. destruct (t_reqs t) as [l|]; [|left; reflexivity]. right. split; [discriminate|]. cbn [rlist].
  pose proof (JsRemoved_filter l) as H. destruct (filter _ l) as [|x m] eqn:F; auto. destruct l; auto.
Qed.
Record ToolRel (t1 t2 : tool) : Prop := { tr_rel : ToolRel0 t1 t2; tr_reqs : ReqsLater (t_reqs t1) (t_reqs t2) }.
Lemma ToolRel_refl t : ToolRel t t.
Proof. split; [apply ToolRel0_refl | apply ReqsLater_refl]. Qed.
Lemma ToolRel_trans a b c : ToolRel a b -> ToolRel b c -> ToolRel a c.
Proof. intros [A1 A2] [B1 B2]. split; [eapply ToolRel0_trans; eauto | eapply ReqsLater_trans; eauto]. Qed.
Lemma ToolRel_declares a b x : has_char "#" x = false -> ToolRel a b -> Declares a x -> Declares b x.
Proof. intros H [A _]. apply ToolRel0_declares; auto. Qed.

(** ** What a step is like while it is refactored *)
Definition grows (a b : wstep) : Prop := ws_id b = ws_id a /\ exists more, ws_in b = ws_in a ++ more.
Lemma grows_refl a : grows a a.
Proof. split; auto. exists []. rewrite app_nil_r. reflexivity. Qed.
Lemma grows_trans a b c : grows a b -> grows b c -> grows a c.
Proof. intros (A & x & X) (B & y & Y). split; [congruence|]. exists (x ++ y). rewrite Y, X, app_assoc. reflexivity. Qed.
Lemma grows_run st r : grows st (with_run r st).
Proof. split; auto. exists []. cbn. rewrite app_nil_r. reflexivity. Qed.
Lemma grows_add st e : grows st (add_in e st).
Proof. split; auto. exists [e]. reflexivity. Qed.

Lemma skipn_app_le {A} n (l l' : list A) : n <= List.length l -> skipn n (l ++ l') = skipn n l ++ l'.
Proof. intros H. rewrite skipn_app. replace (n - List.length l) with 0 by lia. reflexivity. Qed.

Section Step.
  Variable gx : json -> json -> json -> result (option string).
  Variable attrs : list string.
  Variable replace_etool skip1 skip2 : bool.
  (** the step and its tool at the beginning *)
  Variables (st0 : wstep) (t0 : tool).

  Record now (cur : wstep) : Prop := {
    nw_id : ws_id cur = ws_id st0;
    nw_len : List.length (ws_in st0) <= List.length (ws_in cur);
    nw_ids : exists extra, run_input_ids (ws_run cur) = run_input_ids (RTool t0) ++ extra /\
               forall x, In x extra -> exists i, In i (added st0 cur) /\ x = basename (after_hash (si_id i)) }.

  Lemma added_grows a b : List.length (ws_in st0) <= List.length (ws_in a) -> grows a b -> incl (added st0 a) (added st0 b).
  Proof. intros L (_ & m & E) i I. unfold added in *. rewrite E, skipn_app_le by exact L. apply in_or_app. auto. Qed.
  Lemma added_new a b e : List.length (ws_in st0) <= List.length (ws_in a) -> grows (add_in e a) b -> In e (added st0 b).
  Proof.
    intros L (_ & m & E). unfold added. rewrite E. cbn. rewrite <- app_assoc, skipn_app_le by exact L. apply in_or_app. right. left. reflexivity.
  Qed.

  Lemma choice_run_ids (b : bool) ps reqs text lib :
    map ti_id (t_inputs (if b then etool_to_cltool (etool ps reqs text) lib else etool ps reqs text)) = ps.
  Proof. destruct b; cbn; rewrite !map_map; cbn; apply map_id. Qed.

  Lemma made_now wreqs cur fin place self e : now cur -> grows cur fin ->
    MadeForTool st0 fin t0 place self e
      (tool_expr_step replace_etool wreqs cur ("_expression_" ++ after_hash (ws_id cur) ++ place) self e).
  Proof.
    intros [A B (ex & C & D)] G. pose proof (added_grows _ _ B G) as I. destruct G as (G1 & more & G2). split.
    - exists (after_hash (ws_id st0)). split; [apply after_hash_frag|]. cbn. rewrite A. reflexivity.
    - cbn. apply etool_runs.
    - exists (ws_in cur), more. split; auto. split; auto. cbn [tool_expr_step gen_step ws_in].
      generalize (ws_in cur) as l. induction l as [|i l IH]; [reflexivity|]. cbn [map filter]. cbn [si_id].
      unfold name_of. rewrite underscored_b, <- basename_last_part. destruct (negb (startswith "_" (basename (si_id i)))); [|exact IH].
      cbn [map]. rewrite IH. f_equal. unfold renamed, name_of. rewrite <- basename_last_part. reflexivity.
    - eexists. exists (map (fun p => basename (after_hash (ti_id p))) (t_inputs t0)), ex. split; [reflexivity|]. split; [|split].
      + clear. induction (t_inputs t0); constructor; auto. apply ParamName_b.
      + rewrite choice_run_ids, C. unfold run_input_ids. f_equal. apply filter_ext. intros x. rewrite underscored_b. reflexivity.
      + intros x X. destruct (D x X) as (i & Ii & ->). exists i. split; [apply I; exact Ii | apply ParamName_b].
    - reflexivity.
    - reflexivity.
  Qed.

  (** an input for the tool is added, and one for the step *)
  Lemma now_add cur place i : now cur -> si_id i = place \/ startswith "_" (basename (after_hash place)) = true ->
    now (add_in i (append_tool_input place cur)).
  Proof.
    intros [A B (ex & C & D)] P. split; auto.
    - cbn. rewrite app_length. cbn. lia.
    - assert (L : incl (added st0 cur) (added st0 (add_in i (append_tool_input place cur)))).
      { intros j J. unfold added in *. cbn. rewrite skipn_app_le by exact B. apply in_or_app. auto. }
      assert (K : exists x2, run_input_ids (ws_run (append_tool_input place cur)) = run_input_ids (ws_run cur) ++ x2 /\
                   (forall x, In x x2 -> x = basename (after_hash place) /\ startswith "_" x = false)).
      { unfold append_tool_input. cbn [ws_run with_run]. destruct (ws_run cur) as [u|t|s]; cbn [append_run_input].
        - exists []. rewrite app_nil_r. split; auto. intros x [].
        - unfold run_input_ids. cbn [tool_inputs t_inputs]. rewrite map_app, filter_app. eexists. split; [reflexivity|].
          cbn [map filter ti_id]. intros x X. destruct (startswith "_" (basename (after_hash place))) eqn:S; cbn [negb] in X; [destruct X|].
          destruct X as [<- | []]. auto.
        - exists []. rewrite app_nil_r. split; [reflexivity|]. intros x []. }
      destruct K as (x2 & K1 & K2). exists (ex ++ x2). split; [cbn [add_in with_in ws_run]; rewrite K1, C, app_assoc; reflexivity|].
      intros x X. apply in_app_iff in X. destruct X as [X | X].
      + destruct (D x X) as (j & J & E). exists j. split; auto.
      + destruct (K2 x X) as (-> & S). destruct P as [P | P]; [|congruence]. exists i. split; [|rewrite P; reflexivity].
        unfold added. cbn. rewrite skipn_app_le by exact B. apply in_or_app. right. left. reflexivity.
  Qed.
  Lemma now_run cur r : now cur -> run_input_ids r = run_input_ids (ws_run cur) -> now (with_run r cur).
  Proof. intros [A B (ex & C & D)] R. split; auto. exists ex. cbn [with_run ws_run]. rewrite R. auto. Qed.

  Lemma append_RTool place cur t : ws_run cur = RTool t ->
    exists t2, ws_run (append_tool_input place cur) = RTool t2 /\ t_args t2 = t_args t /\ t_stdout t2 = t_stdout t /\ t_stderr t2 = t_stderr t /\
      Declares t2 place /\ (startswith "_" place = true -> has_char "#" place = false -> ToolRel t t2).
  Proof.
    intros R. unfold append_tool_input. rewrite R. cbn. eexists. split; [reflexivity|]. cbn. repeat split; auto.
    - eexists. split; [apply in_or_app; right; left; reflexivity | reflexivity].
    - exists (t_inputs t), [{| ti_id := place; ti_type := JNull; ti_valueFrom := None |}]. repeat split; auto.
      apply Forall2_refl. apply ParamSame_refl.
    - apply Forall2_refl. apply OutSame_refl.
    - apply ReqsLater_refl.
  Qed.
  Lemma remove_js_same t : ToolRel t (remove_js t) /\ t_args (remove_js t) = t_args t /\ t_stdout (remove_js t) = t_stdout t /\
    t_stderr (remove_js t) = t_stderr t /\ t_inputs (remove_js t) = t_inputs t.
  Proof.
    split; [|auto]. split; [|apply remove_js_later]. destruct (ToolRel0_refl t) as [A H B C]. split; auto. right. apply JsRemoved_filter.
  Qed.

  (** *** arguments *)
  Lemma place_no_hash x : has_char "#" (("_arguments_" ++ str_nat x)%string) = false.
  Proof. rewrite has_char_app, str_nat_no_hash. reflexivity. Qed.
  Lemma arguments_local k : startswith "_" (basename (after_hash ("_arguments_" ++ str_nat k))) = true.
  Proof.
    rewrite after_hash_none by apply place_no_hash. rewrite basename_last_part, last_part_none; [apply (startswith_app "_")|].
    rewrite has_char_app, str_nat_no_slash. reflexivity.
  Qed.

  Lemma ids_same t t2 : t_inputs t2 = t_inputs t -> run_input_ids (RTool t2) = run_input_ids (RTool t).
  Proof. intros E. unfold run_input_ids. rewrite E. reflexivity. Qed.
  Lemma args_same t args : ToolRel t (tool_args args t).
  Proof. destruct (ToolRel_refl t) as [[A H B C] D]. split; [split; auto|exact D]. Qed.
  Lemma stream_same t err v : ToolRel t (tool_stream err v t).
  Proof. destruct (ToolRel_refl t) as [[A H B C] D]. split; [split; auto|exact D]. Qed.

  Lemma arg_phase wreqs inputs l : forall k cur gen st' gen' m pre t1,
    arg_loop gx replace_etool wreqs (after_hash (ws_id st0)) inputs k l (cur, gen) = Ok ((st', gen'), m) ->
    now cur -> ws_run cur = RTool t1 -> t_args t1 = pre ++ l -> List.length pre = k ->
    exists t2 new l', gen' = gen ++ new /\ grows cur st' /\ now st' /\ ws_run st' = RTool t2 /\ ToolRel t1 t2 /\
      t_stdout t2 = t_stdout t1 /\ t_stderr t2 = t_stderr t1 /\ t_args t2 = pre ++ l' /\
      forall all fin tf, grows st' fin -> ToolRel t2 tf -> incl new all -> ArgsMoved gx all st0 fin t0 tf k l l'.
  Proof.
    induction l as [|a l IH]; intros k cur gen st' gen' m pre t1 E N R A L; cbn [arg_loop] in E.
    { injection E as <- <- <-. exists t1, [], []. rewrite app_nil_r. repeat split; auto using grows_refl, ToolRel_refl; try apply ToolRel_refl; try apply N.
      - exists []. rewrite app_nil_r. reflexivity.
      - constructor. }
    binv E x Ex. destruct x as [expr|].
    2:{ assert (Kept : forall all fin tf, ArgMoved gx all st0 fin t0 tf ("_arguments_" ++ str_nat k) a a).
        { intros. destruct a as [s|v].
          - apply AM_kept. apply find_Found in Ex. exact Ex.
          - apply AM_bind. apply TM_kept. intros s ->. destruct (String.eqb s "") eqn:Es.
            + left. apply String.eqb_eq. exact Es.
            + cbn [filled] in Ex. rewrite Es in Ex. apply find_Found in Ex. exact Ex. }
        destruct (IH (S k) _ _ _ _ _ (pre ++ [a]) _ E N R) as (t2 & new & l' & B1 & B2 & B3 & B4 & B5 & B6 & B7 & B8 & B9).
        { rewrite <- app_assoc. exact A. }
        { rewrite app_length. cbn. lia. }
        exists t2, new, (a :: l'). rewrite <- app_assoc in B8. repeat (split; [assumption|]). intros all fin tf G T I.
        constructor; [apply Kept | apply B9; auto]. }
    rewrite R in E. cbn [bind] in E. rewrite A, <- L, set_nth_app, L in E. cbn [bind] in E.
    set (inp := ("_arguments_" ++ str_nat k)%string) in *.
    rewrite <- (nw_id _ N) in E.
    set (g := tool_expr_step replace_etool wreqs cur ("_expression_" ++ after_hash (ws_id cur) ++ inp) None expr) in *.
    set (arg := ABind (Some ("$(inputs." ++ inp ++ ")")%string)) in *.
    set (e := match a with AText _ => _ | ABind _ => _ end) in E.
    set (c1 := with_run (RTool (tool_args (pre ++ arg :: l) t1)) cur) in *.
    assert (N1 : now c1). { apply now_run; auto. rewrite R. apply ids_same. reflexivity. }
    destruct (append_RTool inp c1 (tool_args (pre ++ arg :: l) t1) eq_refl) as (t2 & R2 & D1 & D2 & D3 & D4 & D5).
    specialize (D5 (startswith_app "_" _) (place_no_hash k)).
    set (c2 := add_in e (append_tool_input inp c1)) in *.
    assert (N2 : now c2). { apply now_add; auto. right. apply arguments_local. }
    assert (R2' : ws_run c2 = RTool t2) by exact R2. rewrite R2' in E.
    set (c3 := with_run (RTool (remove_js t2)) c2) in *.
    destruct (remove_js_same t2) as (J1 & J2 & J3 & J4 & J5).
    assert (N3 : now c3). { apply now_run; auto. rewrite R2'. apply ids_same. exact J5. }
    binv E r Er. destruct r as [[st2 gen2] m2]. injection E as <- <- <-. rewrite (nw_id _ N) in Er.
    destruct (IH (S k) c3 _ _ _ _ (pre ++ [arg]) (remove_js t2) Er N3 eq_refl) as (t3 & new & l' & B1 & B2 & B3 & B4 & B5 & B6 & B7 & B8 & B9).
    { rewrite J2, D1. cbn. rewrite <- app_assoc. reflexivity. }
    { rewrite app_length. cbn. lia. }
    cbn [fst]. exists t3, (g :: new), (arg :: l'). rewrite <- app_assoc in B1, B8.
    assert (Gc : grows cur c3). { split; [reflexivity|]. exists [e]. reflexivity. }
    assert (T3 : ToolRel t1 t3).
    { eapply ToolRel_trans; [apply args_same|]. eapply ToolRel_trans; [exact D5|]. eapply ToolRel_trans; [exact J1 | exact B5]. }
    split; [exact B1|]. split; [eapply grows_trans; eauto|]. split; [exact B3|]. split; [exact B4|]. split; [exact T3|].
    split; [rewrite B6, J3, D2; reflexivity|]. split; [rewrite B7, J4, D3; reflexivity|]. split; [exact B8|].
    intros all fin tf Gf Tf I. constructor; [|apply B9; auto; intros z Z; apply I; right; exact Z].
    assert (Mg : MadeForTool st0 fin t0 inp None expr g).
    { apply made_now; auto. eapply grows_trans; [exact Gc|]. eapply grows_trans; [exact B2 | exact Gf]. }
    assert (Dg : Declares tf inp).
    { eapply ToolRel_declares; [apply place_no_hash | | exact D4].
      eapply ToolRel_trans; [exact J1|]. eapply ToolRel_trans; [exact B5 | exact Tf]. }
    assert (Ig : In e (added st0 fin)).
    { apply (added_new cur); [apply N|]. apply (grows_trans _ c3); [|eapply grows_trans; [exact B2 | exact Gf]].
      split; [reflexivity|]. exists []. cbn. rewrite app_nil_r. reflexivity. }
    subst e arg. destruct a as [s|v].
    - apply find_Found in Ex. eapply AM_moved; [exact Ex | apply I; left; reflexivity | exact Mg | exact Dg | exact Ig].
    - destruct (filled v) as [s|] eqn:Fv; [|discriminate]. apply filled_Some in Fv. destruct Fv as (-> & Ns). apply find_Found in Ex.
      apply AM_bind. eapply TM_moved; [exact Ns | exact Ex | apply I; left; reflexivity | exact Mg |]. split; [exact Dg | exact Ig].
  Qed.

  (** *** streams *)
  Definition stream_of (err : bool) (t : tool) : option string := if err then t_stderr t else t_stdout t.
  Lemma stream_phase wreqs inputs err v cur gen st' gen' m t1 :
    stream_expr gx replace_etool wreqs (after_hash (ws_id st0)) inputs err v (cur, gen) = Ok ((st', gen'), m) ->
    now cur -> ws_run cur = RTool t1 -> stream_of err t1 = v ->
    exists t2 new, gen' = gen ++ new /\ grows cur st' /\ now st' /\ ws_run st' = RTool t2 /\ ToolRel t1 t2 /\
      t_args t2 = t_args t1 /\ stream_of (negb err) t2 = stream_of (negb err) t1 /\
      forall all fin tf, grows st' fin -> ToolRel t2 tf -> incl new all ->
        TextMoved gx all st0 fin t0 tf (if err then "_stderr" else "_stdout") v (stream_of err t2).
  Proof.
    intros E N R V. unfold stream_expr in E.
    assert (Kept : (forall s, v = Some s -> NotFound gx s) -> Ok ((cur, gen), false) = Ok ((st', gen'), m) ->
      exists t2 new, gen' = gen ++ new /\ grows cur st' /\ now st' /\ ws_run st' = RTool t2 /\ ToolRel t1 t2 /\
      t_args t2 = t_args t1 /\ stream_of (negb err) t2 = stream_of (negb err) t1 /\
      forall all fin tf, grows st' fin -> ToolRel t2 tf -> incl new all ->
        TextMoved gx all st0 fin t0 tf (if err then "_stderr" else "_stdout") v (stream_of err t2)).
    { intros K Q. injection Q as <- <- <-. exists t1, []. rewrite app_nil_r. repeat split; auto using grows_refl; try apply ToolRel_refl; try apply N.
      - exists []. rewrite app_nil_r. reflexivity.
      - intros. rewrite V. apply TM_kept. exact K. }
    destruct (filled v) as [s|] eqn:Fv.
    2:{ apply Kept; [|exact E]. intros s ->. cbn in Fv. destruct (String.eqb s "") eqn:Es; [left; apply String.eqb_eq; exact Es | discriminate]. }
    apply filled_Some in Fv. destruct Fv as (Fv & Ns).
    binv E x Ex. apply find_Found in Ex. destruct x as [expr|].
    2:{ apply Kept; [|exact E]. intros s' Es. rewrite Fv in Es. injection Es as <-. exact Ex. }
    clear Kept. cbn zeta in E. rewrite R, <- (nw_id _ N) in E.
    set (inp := if err then "_stderr" else "_stdout") in *.
    assert (Hi : has_char "#" inp = false) by (subst inp; destruct err; reflexivity).
    assert (Si : startswith "_" inp = true) by (subst inp; destruct err; reflexivity).
    set (g := tool_expr_step replace_etool wreqs cur ("_expression_" ++ after_hash (ws_id cur) ++ inp) None expr) in *.
    set (t2 := tool_stream err (Some ("$(inputs." ++ inp ++ ")")%string) t1) in *.
    set (c1 := with_run (RTool t2) cur) in *.
    set (e := feed inp (("_expression_" ++ after_hash (ws_id cur) ++ inp) ++ "/result")) in *.
    assert (N1 : now c1). { apply now_run; auto. rewrite R. apply ids_same. reflexivity. }
    destruct (append_RTool inp c1 t2 eq_refl) as (t3 & R3 & D1 & D2 & D3 & D4 & D5). specialize (D5 Si Hi).
    injection E as <- <- <-.
    assert (Gc : grows cur (add_in e (append_tool_input inp c1))). { split; [reflexivity|]. exists [e]. reflexivity. }
    exists t3, [g]. split; [reflexivity|]. split; [exact Gc|]. split; [apply now_add; auto|]. split; [exact R3|].
    split; [eapply ToolRel_trans; [apply stream_same | exact D5]|]. split; [rewrite D1; reflexivity|].
    split; [unfold stream_of; rewrite D2, D3; destruct err; reflexivity|].
    intros all fin tf Gf Tf I.
    replace (stream_of err t3) with (Some ("$(inputs." ++ inp ++ ")")%string) by (unfold stream_of; rewrite D2, D3; destruct err; reflexivity).
    rewrite Fv. eapply TM_moved; [exact Ns | exact Ex | apply I; left; reflexivity | |].
    - apply made_now; auto. eapply grows_trans; [exact Gc | exact Gf].
    - split; [eapply ToolRel_declares; [exact Hi | exact Tf | exact D4]|].
      apply (added_new cur); [apply N|]. eapply grows_trans; [|exact Gf]. split; [reflexivity|]. exists []. cbn. rewrite app_nil_r. reflexivity.
  Qed.

  (** *** input bindings *)
  Lemma binding_place n : startswith "_" ("_" ++ n ++ "_valueFrom") = true.
  Proof. apply (startswith_app "_"). Qed.
  Lemma binding_phase wreqs inputs l : forall cur gen st' gen' m t1,
    binding_loop gx replace_etool skip1 wreqs (after_hash (ws_id st0)) inputs l (cur, gen) = Ok ((st', gen'), m) ->
    now cur -> ws_run cur = RTool t1 ->
    exists t2 new, gen' = gen ++ new /\ grows cur st' /\ now st' /\ ws_run st' = RTool t2 /\ ToolRel t1 t2 /\
      t_args t2 = t_args t1 /\ t_stdout t2 = t_stdout t1 /\ t_stderr t2 = t_stderr t1 /\
      forall all fin tf, grows st' fin -> ToolRel t2 tf -> incl new all -> skip1 = false ->
        Forall (BindingMade gx all st0 fin t0 tf) l.
  Proof.
    induction l as [|i l IH]; intros cur gen st' gen' m t1 E N R; cbn [binding_loop] in E.
    { injection E as <- <- <-. exists t1, []. rewrite app_nil_r. repeat split; auto using grows_refl; try apply ToolRel_refl; try apply N.
      exists []. rewrite app_nil_r. reflexivity. }
    binv E x Ex. destruct x as [expr|].
    2:{ destruct (IH _ _ _ _ _ _ E N R) as (t2 & new & B1 & B2 & B3 & B4 & B5 & B6 & B7 & B8 & B9).
        exists t2, new. repeat (split; [assumption|]). intros all fin tf G T I Sk. constructor; [|apply B9; auto].
        left. rewrite Sk in Ex. intros s Es. rewrite Es in Ex. cbn [filled] in Ex. destruct (String.eqb s "") eqn:Q.
        - left. apply String.eqb_eq. exact Q.
        - apply find_Found in Ex. exact Ex. }
    cbn zeta in E. rewrite <- (nw_id _ N) in E.
    set (n := after_hash (ti_id i)) in *. set (inp := ("_" ++ n ++ "_valueFrom")%string) in *.
    assert (Hi : has_char "#" inp = false) by (apply (no_hash_place "_"); [reflexivity | apply has_hash_after | reflexivity]).
    set (g := tool_expr_step replace_etool wreqs cur ("_expression_" ++ after_hash (ws_id cur) ++ inp) (Some n) expr) in *.
    set (e := feed inp (("_expression_" ++ after_hash (ws_id cur) ++ inp) ++ "/result")) in *.
    destruct (append_RTool inp cur t1 R) as (t2 & R2 & D1 & D2 & D3 & D4 & D5). specialize (D5 (binding_place n) Hi).
    set (c2 := add_in e (append_tool_input inp cur)) in *.
    assert (N2 : now c2). { apply now_add; auto. }
    binv E r Er. destruct r as [[st2 gen2] m2]. injection E as <- <- <-. rewrite (nw_id _ N) in Er.
    destruct (IH c2 _ _ _ _ t2 Er N2 R2) as (t3 & new & B1 & B2 & B3 & B4 & B5 & B6 & B7 & B8 & B9). cbn [fst].
    assert (Gc : grows cur c2). { split; [reflexivity|]. exists [e]. reflexivity. }
    exists t3, (g :: new). rewrite <- app_assoc in B1. split; [exact B1|]. split; [eapply grows_trans; eauto|].
    split; [exact B3|]. split; [exact B4|]. split; [eapply ToolRel_trans; eauto|].
    split; [congruence|]. split; [congruence|]. split; [congruence|].
    intros all fin tf Gf Tf I Sk. constructor; [|apply B9; auto; intros z Z; apply I; right; exact Z].
    rewrite Sk in Ex. destruct (filled (ti_valueFrom i)) as [s|] eqn:Fv; [|discriminate]. apply filled_Some in Fv. destruct Fv as (Fv & Ns).
    apply find_Found in Ex. right. exists s, expr, g, n. split; [exact Fv|]. split; [exact Ns|]. split; [exact Ex|].
    split; [apply I; left; reflexivity|]. split; [apply after_hash_frag|]. split.
    - apply made_now; auto. eapply grows_trans; [exact Gc|]. eapply grows_trans; [exact B2 | exact Gf].
    - split; [eapply ToolRel_declares; [exact Hi | eapply ToolRel_trans; [exact B5 | exact Tf] | exact D4]|].
      apply (added_new cur); [apply N|]. apply (grows_trans _ c2); [|eapply grows_trans; [exact B2 | exact Gf]].
      split; [reflexivity|]. exists []. cbn. rewrite app_nil_r. reflexivity.
  Qed.

  (** *** outputs *)
  Lemma append_inner place cur t : inner (ws_run cur) = Some t ->
    exists t2, inner (ws_run (append_tool_input place cur)) = Some t2 /\ t_args t2 = t_args t /\ t_stdout t2 = t_stdout t /\ t_stderr t2 = t_stderr t /\
      Declares t2 place /\ (startswith "_" place = true -> has_char "#" place = false -> ToolRel t t2).
  Proof.
    unfold append_tool_input. cbn [with_run ws_run]. generalize (ws_run cur). fix F 1. intros r I.
    destruct r as [u|t'|sb]; cbn in I; [discriminate| |].
    - injection I as ->. destruct (append_RTool place (with_run (RTool t) st0) t eq_refl) as (t2 & R & K). exists t2.
      cbn in R. injection R as R. subst t2. split; [reflexivity | exact K].
    - destruct sb. cbn in *. apply F. exact I.
  Qed.
  Lemma moved_inner out_id r t : inner r = Some t ->
    exists t2, inner (moved_run skip1 out_id r) = Some t2 /\ t_args t2 = t_args t /\ t_stdout t2 = t_stdout t /\ t_stderr t2 = t_stderr t /\ ToolRel t t2.
  Proof.
    destruct r as [u|t'|sb]; cbn; [discriminate| |].
    - intros I. injection I as ->. eexists. split; [reflexivity|]. split; [destruct skip1; reflexivity|].
      split; [destruct skip1; reflexivity|]. split; [destruct skip1; reflexivity|].
      split; [|destruct skip1; [apply ReqsLater_refl | apply (remove_js_later t)]]. destruct skip1; split; cbn; try reflexivity.
      1: left; reflexivity. 3: right; apply JsRemoved_filter.
      2,4: induction (t_outputs t); cbn; constructor; auto; split; cbn; auto; right; apply after_hash_frag.
      all: eexists; exists []; rewrite app_nil_r; split; [reflexivity|]; split; auto;
        induction (t_inputs t); cbn; constructor; auto; repeat split; cbn; right; apply after_hash_frag.
    - intros I. exists t. repeat split; auto; apply ToolRel_refl.
  Qed.
  Lemma sub_ids wreqs cur o e : run_input_ids (RSub (sub_workflow replace_etool skip1 wreqs t0 cur o e)) = run_input_ids (RTool t0).
  Proof.
    unfold run_input_ids at 1. cbn [sub_workflow sb_inputs]. unfold run_input_ids. 
    generalize (map (fun i => basename (after_hash (ti_id i))) (t_inputs t0)). intros l. induction l as [|x l IH]; auto. cbn.
    destruct (negb (startswith "_" x)) eqn:S; auto. cbn. rewrite S, IH. reflexivity.
  Qed.

  Lemma output_phase wreqs inputs l : forall cur gen st' gen' m sub t1,
    output_loop gx replace_etool skip1 skip2 wreqs (after_hash (ws_id st0)) inputs t0 l (cur, gen) = Ok ((st', gen'), m, sub) ->
    now cur -> inner (ws_run cur) = Some t1 ->
    exists t2 new, gen' = gen ++ new /\ grows cur st' /\ now st' /\ inner (ws_run st') = Some t2 /\ ToolRel t1 t2 /\
      t_args t2 = t_args t1 /\ t_stdout t2 = t_stdout t1 /\ t_stderr t2 = t_stderr t1 /\
      forall all fin tf, grows st' fin -> ToolRel t2 tf -> incl new all -> Forall (GlobMade gx all st0 fin t0 tf) l.
  Proof.
    induction l as [|o l IH]; intros cur gen st' gen' m sub t1 E N R; cbn [output_loop] in E.
    { injection E as <- <- <- <-. exists t1, []. rewrite app_nil_r. repeat split; auto using grows_refl; try apply ToolRel_refl; try apply N.
      exists []. rewrite app_nil_r. reflexivity. }
    binv E x Ex. cbn zeta in E. binv E y Ey.
    match type of E with context [match y with None => Ok ?w | Some _ => _ end] => set (w1 := w) in E end.
    assert (W1 : exists t2 n1, snd w1 = gen ++ n1 /\ grows cur (fst w1) /\ now (fst w1) /\ inner (ws_run (fst w1)) = Some t2 /\ ToolRel t1 t2 /\
      t_args t2 = t_args t1 /\ t_stdout t2 = t_stdout t1 /\ t_stderr t2 = t_stderr t1 /\
      forall all fin tf, grows (fst w1) fin -> ToolRel t2 tf -> incl n1 all -> GlobMade gx all st0 fin t0 tf o).
    { subst w1. destruct x as [expr|].
      - set (n := after_hash (to_id o)). set (inp := ("_" ++ n ++ "_glob")%string).
        assert (Hi : has_char "#" inp = false) by (apply (no_hash_place "_"); [reflexivity | apply has_hash_after | reflexivity]).
        set (g := tool_expr_step _ _ _ _ _ _). set (e := feed _ _). cbn [fst snd].
        destruct (append_inner inp cur t1 R) as (t2 & R2 & D1 & D2 & D3 & D4 & D5). specialize (D5 (startswith_app "_" _) Hi).
        exists t2, [g]. split; [reflexivity|].
        assert (Gc : grows cur (add_in e (append_tool_input inp cur))). { split; [reflexivity|]. exists [e]. reflexivity. }
        split; [exact Gc|]. split; [apply now_add; auto|]. split; [exact R2|]. split; [exact D5|]. repeat (split; [congruence|]).
        intros all fin tf Gf Tf I. right. right.
        destruct (truthy (to_glob o)); [|discriminate]. unfold find_expr in Ex. binv Ex z Ez. injection Ex as Ex. apply filled_Some in Ex. destruct Ex as (-> & Nx).
        exists expr, g, n, inputs. split; [exact Ez|]. split; [exact Nx|]. split; [apply I; left; reflexivity|]. split; [apply after_hash_frag|]. split.
        + subst g. rewrite <- (nw_id _ N). apply made_now; auto. eapply grows_trans; eauto.
        + split; [eapply ToolRel_declares; [exact Hi | exact Tf | exact D4]|].
          apply (added_new cur); [apply N|]. eapply grows_trans; [|exact Gf]. split; [reflexivity|]. exists []. cbn. rewrite app_nil_r. reflexivity.
      - exists t1, []. cbn [fst snd]. rewrite app_nil_r. repeat split; auto using grows_refl; try apply ToolRel_refl; try apply N.
        { exists []. rewrite app_nil_r. reflexivity. }
        intros all fin tf _ _ _. destruct (truthy (to_glob o)) eqn:Tr; [|left; exact Tr]. right. left.
        unfold find_expr in Ex. binv Ex z Ez. injection Ex as Ex. exists inputs, z. split; [exact Ez|].
        destruct z as [s|]; auto. cbn in Ex. destruct (String.eqb_spec s "") as [->|]; auto; discriminate. }
    destruct W1 as (t2 & n1 & G1 & V1 & N1 & R1 & T1 & A1 & A2 & A3 & M1). clearbody w1.
    binv E w2 E2.
    assert (W2 : exists t3, snd w2 = snd w1 /\ grows (fst w1) (fst w2) /\ now (fst w2) /\ inner (ws_run (fst w2)) = Some t3 /\ ToolRel t2 t3 /\
      t_args t3 = t_args t2 /\ t_stdout t3 = t_stdout t2 /\ t_stderr t3 = t_stderr t2).
    { destruct y as [expr|].
      - destruct (existsb _ _); [discriminate|]. injection E2 as <-. cbn [fst snd].
        destruct (moved_inner (after_hash (to_id o)) _ _ R1) as (t3 & R3 & B1 & B2 & B3 & B4).
        exists t3. split; [reflexivity|]. split; [apply grows_run|]. split.
        + destruct N1 as [P Q (ex & X1 & X2)]. split; auto. exists []. rewrite app_nil_r. split; [apply sub_ids|]. intros z [].
        + split; [exact R3|]. auto.
      - injection E2 as <-. exists t2. repeat split; auto using grows_refl; try apply ToolRel_refl; try apply N1.
        exists []. rewrite app_nil_r. reflexivity. }
    destruct W2 as (t3 & G2 & V2 & N2 & R2 & T2 & C1 & C2 & C3).
    binv E r Er. destruct r as [[[st3 gen3] m3] sub3]. injection E as <- <- <- <-. cbn [fst snd].
    destruct w2 as [st2 gen2], w1 as [st1 gen1]. cbn [fst snd] in *. subst gen2 gen1.
    destruct (IH _ _ _ _ _ _ _ Er N2 R2) as (t4 & new & B1 & B2 & B3 & B4 & B5 & B6 & B7 & B8 & B9).
    exists t4, (n1 ++ new). split; [rewrite B1, app_assoc; reflexivity|].
    split; [eapply grows_trans; [exact V1|]; eapply grows_trans; [exact V2 | exact B2]|]. split; [exact B3|]. split; [exact B4|].
    split; [eapply ToolRel_trans; [exact T1|]; eapply ToolRel_trans; [exact T2 | exact B5]|]. repeat (split; [congruence|]).
    intros all fin tf Gf Tf I. constructor.
    - apply M1; [eapply grows_trans; [exact V2|]; eapply grows_trans; [exact B2 | exact Gf] | | intros z Z; apply I, in_or_app; auto].
      eapply ToolRel_trans; [exact T2|]. eapply ToolRel_trans; [exact B5 | exact Tf].
    - apply B9; auto. intros z Z. apply I, in_or_app. auto.
  Qed.

  (** *** the whole tool *)
  Lemma clt_phase wreqs cur gen st' gen' m sub t1 :
    traverse_clt gx replace_etool skip1 skip2 wreqs t0 (cur, gen) = Ok ((st', gen'), m, sub) ->
    ws_id st0 <> "" -> now cur -> ws_run cur = RTool t1 -> ToolRel0 t0 t1 ->
    t_args t1 = t_args t0 -> t_stdout t1 = t_stdout t0 -> t_stderr t1 = t_stderr t0 ->
    exists t2 new, gen' = gen ++ new /\ grows cur st' /\ inner (ws_run st') = Some t2 /\
      ReqsLater (t_reqs t1) (t_reqs t2) /\ ToolRel t1 t2 /\
      forall all fin, grows st' fin -> incl new all -> ToolMoved gx all st0 fin t0 t2 skip1.
  Proof.
    unfold traverse_clt. cbn [fst]. intros E Nid N R T P1 P2 P3. apply String.eqb_neq in Nid. rewrite <- (nw_id _ N) in Nid. rewrite Nid in E.
    rewrite (nw_id _ N) in E.
    binv E a Ea. binv E b Eb. binv E c Ec. binv E d Ed. binv E e Ee.
    destruct a as [[sa ga] ma], b as [[sb gb] mb], c as [[sc gc] mc], d as [[sd gd] md], e as [[[se ge] me] sube].
    cbn [fst snd] in *. injection E as <- <- <- <-.
    assert (A : exists t2 new, ga = gen ++ new /\ grows cur sa /\ now sa /\ ws_run sa = RTool t2 /\ ToolRel t1 t2 /\
      t_stdout t2 = t_stdout t1 /\ t_stderr t2 = t_stderr t1 /\
      forall all fin tf, grows sa fin -> ToolRel t2 tf -> incl new all ->
        if skip1 then t_args t2 = t_args t0 else ArgsMoved gx all st0 fin t0 tf 0 (t_args t0) (t_args t2)).
    { destruct skip1.
      - injection Ea as <- <- <-. exists t1, []. rewrite app_nil_r. repeat split; auto using grows_refl; try apply ToolRel_refl; try apply N.
        exists []. rewrite app_nil_r. reflexivity.
      - destruct (arg_phase _ _ _ 0 _ _ _ _ _ [] _ Ea N R P1 eq_refl) as (t2 & new & l' & B1 & B2 & B3 & B4 & B5 & B6 & B7 & B8 & B9).
        exists t2, new. repeat (split; [assumption|]). cbn in B8. rewrite B8. exact B9. }
    destruct A as (ta & na & -> & Ga & Na & Ra & Ta & Oa & Ea' & Ma).
    destruct (stream_phase _ _ false _ _ _ _ _ _ _ Eb Na Ra) as (tb & nb & -> & Gb & Nb & Rb & Tb & Ab & Sb & Mb); [cbn; congruence|].
    destruct (stream_phase _ _ true _ _ _ _ _ _ _ Ec Nb Rb) as (tc & nc & -> & Gc & Nc & Rc & Tc & Ac & Sc & Mc); [cbn in *; congruence|].
    destruct (binding_phase _ _ _ _ _ _ _ _ _ Ed Nc Rc) as (td & nd & -> & Gd & Nd & Rd & Td & Ad & Od & Ed' & Md).
    destruct (output_phase _ _ _ _ _ _ _ _ _ td Ee Nd) as (te & ne & -> & Ge & Ne & Re & Te & Ae & Oe & Ee' & Me); [rewrite Rd; reflexivity|].
    exists te, (na ++ nb ++ nc ++ nd ++ ne). split; [rewrite <- !app_assoc; reflexivity|].
    split; [eapply grows_trans; [exact Ga|]; eapply grows_trans; [exact Gb|]; eapply grows_trans; [exact Gc|]; eapply grows_trans; eassumption|].
    split; [exact Re|].
    assert (T1e : ToolRel t1 te).
    { eapply ToolRel_trans; [exact Ta|]. eapply ToolRel_trans; [exact Tb|]. eapply ToolRel_trans; [exact Tc|]. eapply ToolRel_trans; eassumption. }
    split; [apply T1e|]. split; [exact T1e|]. intros all fin Gf I.
    assert (Gd' : grows sd fin) by (eapply grows_trans; eassumption).
    assert (Gc' : grows sc fin) by (eapply grows_trans; eassumption).
    assert (Gb' : grows sb fin) by (eapply grows_trans; eassumption).
    assert (Ga' : grows sa fin) by (eapply grows_trans; eassumption).
    assert (Td' : ToolRel tc te) by (eapply ToolRel_trans; eassumption).
    assert (Tc' : ToolRel tb te) by (eapply ToolRel_trans; eassumption).
    assert (Tb' : ToolRel ta te) by (eapply ToolRel_trans; eassumption).
    assert (Tall : ToolRel0 t0 te) by (eapply ToolRel0_trans; [exact T | apply T1e]).
    assert (Ia : incl na all /\ incl nb all /\ incl nc all /\ incl nd all /\ incl ne all).
    { repeat split; intros z Z; apply I; rewrite !in_app_iff; auto. }
    destruct Ia as (Ia & Ib & Ic & Id & Ie). cbn [stream_of negb] in *.
    assert (Aall : t_args te = t_args ta) by congruence.
    assert (Oall : t_stdout te = t_stdout tb) by congruence.
    assert (Eall : t_stderr te = t_stderr tc) by congruence.
    destruct Tall as [K1 Kh (o1 & n1 & K2 & K3 & K4) K5]. split; try assumption.
    - rewrite Aall. exact (Ma all fin te Ga' Tb' Ia).
    - rewrite Oall. exact (Mb all fin te Gb' Tc' Ib).
    - rewrite Eall. exact (Mc all fin te Gc' Td' Ic).
    - exists o1, n1. repeat split; auto. eapply Forall_impl; [|exact K4]. cbn. intros p (U1 & _ & U2). split; auto. apply startswith_spec. exact U1.
    - intros Sk. exact (Md all fin te Gd' Te Id Sk).
    - exact (Me all fin te Gf (ToolRel_refl te) Ie).
  Qed.
End Step.
