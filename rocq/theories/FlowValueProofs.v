(** * Proofs about [valueFrom] and [when] *)
From Verif Require Import PyBase PyBaseProofs PackModel ExprModel EvalModel RefactorModel RefactorSpec RefactorProofs
  FlowModel FlowSpec FlowProofs FlowProofs2 FlowTrace FlowValueSpec.

(** ** Names *)
Lemma last_part_LastPart s : LastPart s (last_part s).
Proof.
  induction s as [|c s IH]; [split; auto|]. cbn [last_part].
  destruct (has_char "/" (String c s)) eqn:H; [|split; auto].
  destruct (has_char "/" s) eqn:H'.
  - destruct IH as (A & B). split; auto. right. destruct B as [B | (p & B)].
    + rewrite <- B in A. congruence.
    + exists (String c p). rewrite B at 1. reflexivity.
  - split; auto. right. cbn [has_char] in H. rewrite H', orb_false_r in H. apply Ascii.eqb_eq in H. subst c.
    exists "". reflexivity.
Qed.
Lemma basename_last_part s : basename s = last_part s.
Proof. destruct (last_part_LastPart s) as (A & B). apply (last_fragment_unique "/"); auto. Qed.
Lemma has_char_last_part s : has_char "/" (last_part s) = false.
Proof. apply last_part_LastPart. Qed.
Lemma last_part_none s : has_char "/" s = false -> last_part s = s.
Proof. rewrite <- basename_last_part. intros H. apply (last_fragment_unique "/"); auto. Qed.
Lemma last_part_twice s : last_part (last_part s) = last_part s.
Proof. apply last_part_none. apply has_char_last_part. Qed.

Lemma last_part_snoc p c : has_char "/" (String c "") = false -> last_part (p ++ String c "") = (last_part p ++ String c "")%string.
Proof.
  intros H. rewrite <- basename_last_part. destruct (last_part_LastPart p) as (A & B). apply (last_fragment_unique "/").
  - rewrite has_char_app, A. exact H.
  - destruct B as [B | (r & B)]; [left; rewrite <- B; reflexivity|]. right. exists r. rewrite B at 1. rewrite !sapp_assoc. reflexivity.
Qed.

Lemma basename_after_hash s : has_char "#" (last_part s) = false -> basename (after_hash s) = last_part s.
Proof.
  intros H. destruct (Fragment_after_hash s) as (F & [E | (p & E)]).
  - rewrite <- E. apply basename_last_part.
  - apply (last_fragment_unique "/"); [apply has_char_last_part|].
    set (q := after_hash s) in *. destruct (basename_LastPart q) as (A & B).
    assert (Q : last_part s = basename q \/ q = basename q).
    { destruct B as [B | (r & B)]; auto. left. rewrite <- basename_last_part. apply (last_fragment_unique "/"); auto.
      right. exists (p ++ "#" ++ r)%string. rewrite E, B at 1. rewrite !sapp_assoc. reflexivity. }
    destruct Q as [Q | Q]; [rewrite Q; exact B|].
    destruct (last_part_LastPart s) as (_ & [L | (r & L)]).
    { exfalso. rewrite <- L, E in H. rewrite has_char_app in H. cbn in H. rewrite orb_true_r in H. discriminate. }
    exfalso. assert (C : last_part s = (last_part (p ++ "#") ++ q)%string).
    { destruct (last_part_LastPart (p ++ "#")) as (PA & PB). rewrite <- (basename_last_part s).
      apply (last_fragment_unique "/").
      - rewrite has_char_app, PA. rewrite Q. exact A.
      - destruct PB as [PB | (r' & PB)].
        + left. rewrite <- PB. rewrite E, !sapp_assoc. reflexivity.
        + right. exists r'. rewrite E. change (p ++ "#" ++ q)%string with (p ++ ("#" ++ q))%string.
          rewrite <- sapp_assoc, PB at 1. rewrite !sapp_assoc. reflexivity. }
    rewrite C, has_char_app in H. apply orb_false_iff in H. destruct H as (H & _).
    assert (P : has_char "#" (last_part (p ++ "#")) = true).
    { rewrite last_part_snoc by reflexivity. rewrite has_char_app. apply orb_true_r. }
    congruence.
Qed.

(** ** Contexts *)
Lemma name_unique l a b : NoDup (map name_of l) -> In a l -> In b l -> name_of a = name_of b -> a = b.
Proof.
  induction l as [|c l IH]; intros N A B E; [destruct A|]. cbn in N. inversion N as [|? ? N1 N2]; subst.
  destruct A as [<- | A], B as [<- | B]; auto.
  - exfalso. apply N1. rewrite E. apply in_map. exact B.
  - exfalso. apply N1. rewrite <- E. apply in_map. exact A.
Qed.
Lemma object_iff val ins : NoDup (map name_of ins) -> forall y v,
  object val ins y = Some v <-> exists j, In j ins /\ name_of j = y /\ v = given val j.
Proof.
  intros N y v. unfold object. destruct (find _ ins) as [i|] eqn:F.
  - apply find_some in F. destruct F as (I & E). apply String.eqb_eq in E. split.
    + intros Q. injection Q as <-. eauto.
    + intros (j & J & Ej & ->). f_equal. f_equal.
      apply (name_unique ins); auto. congruence.
  - split; [discriminate|]. intros (j & J & Ej & _). pose proof (find_none _ _ F j J) as Q. cbn in Q.
    rewrite Ej, String.eqb_refl in Q. discriminate.
Qed.

Lemma sourced_short s : sourced (short_source s) = true -> sourced s = true.
Proof.
  destruct s as [|x|[|x l]]; cbn; auto. destruct (String.eqb_spec x ""); cbn; auto. intros H. subst. exact H.
Qed.
Lemma sourced_Fed i : sourced (si_source i) = true -> Fed i.
Proof. unfold Fed, sourced. destruct (si_source i) as [|x|[|x l]]; try discriminate; split; congruence. Qed.
Definition full (i : sinput) : Prop := forall x, si_source i = SOne x -> ~ Fragment x "".
Lemma Fed_sourced i : full i -> Fed i -> sourced (si_source i) = true /\ sourced (short_source (si_source i)) = true.
Proof.
  unfold Fed, full. destruct (si_source i) as [|x|[|x l]]; cbn; try (intros _ (A & B); congruence); auto.
  intros H _. destruct (String.eqb_spec x "") as [->|N].
  - exfalso. apply (H ""); auto. split; auto.
  - cbn. split; auto. destruct (String.eqb_spec (after_hash x) "") as [E|]; auto. exfalso. apply (H x); auto. apply after_hash_Fragment. exact E.
Qed.
Lemma short_SameSource s : SameSource s (short_source s).
Proof.
  destruct s as [|x|l]; cbn.
  - constructor.
  - destruct (String.eqb_spec x ""); constructor; [left; auto|right; apply Fragment_after_hash].
  - constructor. induction l; cbn; constructor; auto. right. apply Fragment_after_hash.
Qed.

Lemma NoDup_filter_map {A B} (f : A -> B) (P : A -> bool) l : NoDup (map f l) -> NoDup (map f (filter P l)).
Proof.
  induction l as [|a l IH]; cbn; intros N; auto. inversion N as [|? ? N1 N2]; subst. destruct (P a); auto. cbn. constructor; auto.
  intros H. apply N1. apply in_map_iff in H. destruct H as (b & E & H). apply filter_In in H. rewrite <- E. apply in_map. tauto.
Qed.

Lemma StartsWith_b p s : StartsWith p s <-> startswith p s = true.
Proof. symmetry. apply startswith_spec. Qed.
Lemma EndsWith_b p s : EndsWith p s <-> endswith p s = true.
Proof. symmetry. apply endswith_spec. Qed.

Lemma etool_inputs_in (b : bool) ps reqs text lib y :
  existsb (fun p => String.eqb (ti_id p) y) (t_inputs (if b then etool_to_cltool (etool ps reqs text) lib else etool ps reqs text)) = true
  <-> In y ps.
Proof.
  assert (Q : map ti_id (t_inputs (if b then etool_to_cltool (etool ps reqs text) lib else etool ps reqs text)) = ps).
  { destruct b; cbn; rewrite ?map_map; cbn; rewrite ?map_map; apply map_id. }
  rewrite existsb_exists. transitivity (In y (map ti_id (t_inputs (if b then etool_to_cltool (etool ps reqs text) lib else etool ps reqs text)))).
  2:{ rewrite Q. reflexivity. }
  rewrite in_map_iff. split.
  - intros (p & P & E). apply String.eqb_eq in E. eauto.
  - intros (p & E & P). exists p. split; auto. apply String.eqb_eq. exact E.
Qed.
Lemma etool_runs (b : bool) ps reqs text lib :
  Runs (RTool (if b then etool_to_cltool (etool ps reqs text) lib else etool ps reqs text)) text.
Proof.
  destruct b; eexists; (split; [reflexivity|]).
  - right. split; [reflexivity|]. eexists. reflexivity.
  - left. split; reflexivity.
Qed.

Section Steps.
  Variable gx : json -> json -> json -> result (option string).
  Variable ev : string -> json -> result json.
  Variable src_example : list wstep -> wstep -> src -> result json.
  Variable self_example : list wstep -> wstep -> src -> result json.
  Variable src_params : list wstep -> src -> result nat.
  Variable src_known : list wstep -> wstep -> string -> result unit.
  Variable out_known : list wstep -> src -> result unit.
  Variable load_run : string -> result (tool * bool).
  Variable attrs : list string.
  Variable replace_etool skip1 skip2 : bool.
  Hypothesis params_found : forall steps s n, src_params steps s = Ok n -> 0 < n.

  Lemma source_params_in steps ex y : forall ins ps, source_params src_params steps ins ex = Ok ps ->
    (In y ps <-> exists j, In j ins /\ si_id j <> "" /\ basename (after_hash (si_id j)) = y /\ sourced (si_source j) = true /\ y <> ex).
  Proof.
    induction ins as [|i ins IH]; intros ps E; cbn [source_params] in E.
    { injection E as <-. split; [intros []|]. intros (j & [] & _). }
    destruct (String.eqb_spec (si_id i) "") as [Z|Z].
    { rewrite (IH _ E). split; intros (j & J & R); exists j; cbn; auto. destruct J as [<- | J]; auto. tauto. }
    cbn zeta in E. destruct (sourced (si_source i) && negb (String.eqb (basename (after_hash (si_id i))) ex)) eqn:C.
    - binv E k Ek. binv E r Er. injection E as <-. apply andb_true_iff in C. destruct C as (C1 & C2).
      apply negb_true_iff in C2. apply String.eqb_neq in C2. rewrite in_app_iff, (IH _ Er). split.
      + intros [H | (j & J & R)]; [|exists j; cbn; auto]. apply repeat_spec in H. subst y. exists i. cbn; auto 10.
      + intros (j & [<- | J] & H1 & H2 & H3 & H4); [|right; exists j; auto 10]. left. subst y.
        pose proof (params_found _ _ _ Ek). destruct k; [lia|]. left. reflexivity.
    - rewrite (IH _ E). split; intros (j & J & R); exists j; cbn; auto. destruct J as [<- | J]; auto.
      destruct R as (R1 & R2 & R3 & R4). rewrite R3, R2 in C. cbn in C. apply negb_false_iff in C. apply String.eqb_eq in C. congruence.
  Qed.

  Lemma name_sibling j : name_of (sibling_input j) = name_of j.
  Proof.
    unfold sibling_input, name_of. destruct (String.eqb_spec (si_id j) ""); [reflexivity|]. cbn [si_id].
    rewrite basename_last_part. apply last_part_twice.
  Qed.
  Lemma given_sibling val j : by_name val -> given val (sibling_input j) = given val j.
  Proof.
    intros V. unfold sibling_input, given. destruct (String.eqb_spec (si_id j) ""); [reflexivity|]. cbn. apply V. apply short_SameSource.
  Qed.
  Lemma name_when j : name_of (when_input j) = name_of j.
  Proof.
    unfold when_input, name_of. destruct (String.eqb_spec (si_id j) ""); [reflexivity|]. cbn [si_id].
    rewrite basename_last_part. apply last_part_twice.
  Qed.
  Lemma given_when val j : by_name val -> given val (when_input j) = given val j.
  Proof.
    intros V. unfold when_input, given. destruct (String.eqb_spec (si_id j) ""); [reflexivity|]. cbn. apply V. apply short_SameSource.
  Qed.
  (** ids of the inputs of generated steps are names *)
  Lemma id_sibling j : name_of j <> "" -> si_id (sibling_input j) = name_of j.
  Proof.
    unfold sibling_input, name_of. intros H. destruct (String.eqb_spec (si_id j) "") as [E|]; [rewrite E in H; exfalso; apply H; reflexivity|].
    apply basename_last_part.
  Qed.
  Lemma id_when j : name_of j <> "" -> si_id (when_input j) = name_of j.
  Proof.
    unfold when_input, name_of. intros H. destruct (String.eqb_spec (si_id j) "") as [E|]; [rewrite E in H; exfalso; apply H; reflexivity|].
    apply basename_last_part.
  Qed.

  Lemma scatter_names_in s x : In x (scatter_names s) <-> exists y, Mentions s y /\ last_part y = x.
  Proof.
    destruct s as [|z|l]; cbn.
    - split; [intros []|]. intros (y & [E | (l & E & _)] & _); discriminate.
    - rewrite basename_last_part. split.
      + intros [<- | []]. exists z. split; [left|]; auto.
      + intros (y & [E | (l & E & _)] & <-); [|discriminate]. injection E as ->. auto.
    - rewrite in_map_iff. split.
      + intros (y & <- & I). exists y. rewrite basename_last_part. split; auto. right. eauto.
      + intros (y & [E | (l' & E & I)] & <-); [discriminate|]. injection E as <-. exists y. rewrite basename_last_part. auto.
  Qed.

  Lemma step_declares st lib : StepLibrary st lib -> RefactorSpec.Declares (jsreqs (ws_reqs st)) lib.
  Proof.
    intros (a & b & -> & N). unfold jsreqs. rewrite map_app. eexists. eexists. split; [reflexivity|].
    intros l I. apply in_map_iff in I. destruct I as (r & E & I). destruct r; try discriminate E. injection E as ->. exact (N l I).
  Qed.
  Lemma step_lib a p lib : RefactorSpec.Declares p lib ->
    match a with [x] => find_expressionLib [x; p] = lib | [x; y] => find_expressionLib ([x] ++ [y; p]) = lib | _ => True end.
  Proof. intros D. destruct a as [|x [|y [|z a]]]; auto; [apply (find_lib_hit [x] p [] lib) | apply (find_lib_hit [x; y] p [] lib)]; auto. Qed.
  Lemma valueFrom_exact wreqs steps st inp orig name expr g :
    valueFrom_step src_params replace_etool wreqs steps st inp orig (ws_in st) name expr = Ok g ->
    In inp (ws_in st) -> name = ("_expression_" ++ after_hash (ws_id st) ++ "_" ++ basename (si_id inp))%string ->
    ws_id g = name /\ MadeFor st inp expr g.
  Proof.
    intros E Iin N. unfold valueFrom_step in E. destruct (String.eqb_spec (si_id inp) "") as [|Z]; [discriminate|].
    binv E ps Ep. cbn zeta in E. injection E as <-.
    split; [reflexivity|]. set (hs := sourced (short_source (si_source inp))) in *.
    assert (Hs : GoodIds st -> (hs = true <-> Fed inp)).
    { intros (_ & G). split; [intros H; apply sourced_Fed, sourced_short; exact H|].
      intros F. apply (Fed_sourced inp); auto. destruct (G inp Iin) as (_ & _ & _ & G4). exact G4. }
    split.
    - exists (after_hash (ws_id st)). split; [apply Fragment_after_hash|]. cbn [ws_id gen_step]. rewrite N. unfold name_of.
      rewrite basename_last_part. reflexivity.
    - exists (if hs then Some "self" else None). split; [apply etool_runs|]. split.
      + intros G F. rewrite (proj2 (Hs G) F). reflexivity.
      + intros F. destruct hs eqn:H; auto. exfalso. apply F. apply sourced_Fed, sourced_short. exact H.
    - intros val V G y v. specialize (Hs G). destruct G as (ND & G).
      unfold seen. cbn [ws_run gen_step ws_in].
      set (selfs := if hs then [_] else []).
      assert (ND' : NoDup (map name_of (map sibling_input (ws_in st ++ selfs)))).
      { rewrite map_map. rewrite (map_ext _ name_of) by (intros; apply name_sibling). rewrite map_app.
        subst selfs. destruct hs; [|rewrite app_nil_r; auto]. cbn [map].
        apply NoDup_rev in ND. rewrite <- (rev_involutive (map _ _ ++ _)). apply NoDup_rev. rewrite rev_app_distr. cbn. constructor; auto.
        rewrite <- in_rev. intros H. apply in_map_iff in H. destruct H as (j & E & J). destruct (G j J) as (_ & _ & X & _). apply X. rewrite E. reflexivity. }
      match goal with |- context [existsb ?f ?l] => destruct (existsb f l) eqn:Ex end.
      + pose proof Ex as Ex'. apply etool_inputs_in in Ex'. rewrite object_iff by (apply NoDup_filter_map; exact ND'). clear Ex.
        split.
        * intros (k & K & Ek & ->). apply filter_In in K. destruct K as (K & KF). apply in_map_iff in K. destruct K as (j & <- & J).
          rewrite name_sibling in Ek. rewrite given_sibling by exact V.
          assert (Nj : name_of j <> "" ).
          { apply in_app_or in J. destruct J as [J | J]; [apply G; exact J|]. subst selfs. destruct hs; [|destruct J].
            destruct J as [<- | []]. discriminate. }
          rewrite id_sibling in KF by exact Nj. rewrite Ek in KF. rewrite basename_last_part in KF.
          apply andb_true_iff in KF. destruct KF as (_ & KF). apply negb_true_iff in KF. apply orb_false_iff in KF. destruct KF as (K1 & K2).
          split; [|rewrite StartsWith_b, EndsWith_b; unfold name_of; rewrite K1, K2; split; discriminate].
          apply in_app_or in J. destruct J as [J | J].
          -- right. exists j. split; auto. split; auto. split; auto.
             assert (Ys : y <> "self") by (rewrite <- Ek; apply G; exact J).
             assert (In y ps). { destruct hs; [|exact Ex']. apply in_app_or in Ex'. destruct Ex' as [|[<-|[]]]; [assumption|congruence]. }
             apply (source_params_in _ _ _ _ _ Ep) in H. destruct H as (j' & J' & H1 & H2 & H3 & H4).
             assert (j' = j).
             { destruct (G j' J') as (G1 & _). rewrite basename_after_hash in H2 by exact G1.
               change (name_of j' = y) in H2. apply (name_unique (ws_in st)); auto. congruence. }
             subst j'. apply sourced_Fed. exact H3.
          -- left. subst selfs. destruct hs eqn:H; [|destruct J]. destruct J as [<- | []]. rewrite <- Ek. split; [reflexivity|].
             split; [apply Hs; reflexivity|]. reflexivity.
        * intros (H & S1 & S2). rewrite StartsWith_b in S1. rewrite EndsWith_b in S2. apply not_true_is_false in S1, S2.
          assert (KF : forall j, name_of j = y -> y <> "" ->
            negb (String.eqb (si_id (sibling_input j)) "") && negb (startswith "_" (si_id (sibling_input j)) || endswith (basename (si_id inp)) (si_id (sibling_input j))) = true).
          { intros j Ej Ny. rewrite id_sibling by congruence. rewrite Ej, basename_last_part. unfold name_of in S2.
            rewrite S1, S2. apply String.eqb_neq in Ny. rewrite Ny. reflexivity. }
          destruct H as [(-> & F & ->) | (j & J & Ej & F & ->)].
          -- apply Hs in F. exists (sibling_input {| si_id := "self"; si_source := si_source inp; si_valueFrom := None; si_linkMerge := None; si_default := JNull |}).
             split.
             ++ apply filter_In. split.
                ** apply in_map. apply in_or_app. right. subst selfs. rewrite F. left. reflexivity.
                ** apply KF; [reflexivity|discriminate].
             ++ rewrite name_sibling, given_sibling by exact V. split; reflexivity.
          -- exists (sibling_input j). split.
             ++ apply filter_In. split; [apply in_map; apply in_or_app; auto|]. apply KF; auto. rewrite <- Ej. apply G. exact J.
             ++ rewrite name_sibling, given_sibling by exact V. auto.
      + split; [discriminate|]. intros (H & S1 & S2). exfalso.
        assert (In y (if hs then ps ++ ["self"] else ps)); [|eapply eq_true_false_abs; [|exact Ex]; apply etool_inputs_in; exact H0].
        destruct H as [(-> & F & _) | (j & J & Ej & F & _)].
        * apply Hs in F. rewrite F. apply in_or_app. right. left. reflexivity.
        * assert (In y ps); [|destruct hs; auto; apply in_or_app; auto].
          apply (source_params_in _ _ _ _ _ Ep). exists j. destruct (G j J) as (G1 & G2 & G3 & G4). split; auto. split.
          { intros Q. apply G2. unfold name_of. rewrite Q. reflexivity. }
          rewrite basename_after_hash by exact G1. split; auto. split; [apply Fed_sourced; auto|].
          intros Q. apply S2. exists "". unfold name_of. rewrite <- basename_last_part. exact Q.
    - cbn [ws_in gen_step]. intros j J. apply filter_In in J. destruct J as (J & Nj). apply in_map_iff in J. destruct J as (k & <- & _).
      unfold sibling_input in *. destruct (String.eqb (si_id k) "") eqn:Ek; [rewrite Ek in Nj; discriminate Nj|]. cbn [si_valueFrom].
      unfold filled. destruct (si_valueFrom k) as [x|]; [|auto]. destruct (String.eqb_spec x "") as [->|]; auto.
    - intros lib L. apply step_declares in L. unfold etool_lib. rewrite (step_lib [_; _] _ lib L), (step_lib [_] _ lib L).
      destruct replace_etool; (eexists; split; [reflexivity|]); [right | left]; (split; [reflexivity|]); eexists; reflexivity.
    - cbn [ws_scatter gen_step]. destruct (smem (basename (si_id inp)) (scatter_names (ws_scatter st))) eqn:Sc.
      + left. split; auto. apply smem_In in Sc. apply scatter_names_in in Sc. rewrite basename_last_part in Sc. exact Sc.
      + right. split; auto. intros s M E. assert (Q : In (basename (si_id inp)) (scatter_names (ws_scatter st))).
        { apply scatter_names_in. exists s. rewrite basename_last_part. auto. }
        apply smem_In in Q. congruence.
    - reflexivity.
    - reflexivity.
  Qed.

  Lemma when_exact wreqs steps st st0 expr st' g :
    when_step src_params replace_etool wreqs steps st (ws_in st0) expr = Ok (st', g) ->
    ws_id st = ws_id st0 -> ws_scatter st = ws_scatter st0 -> ws_scatterMethod st = ws_scatterMethod st0 -> ws_reqs st = ws_reqs st0 ->
    MadeForWhen st0 expr g.
  Proof.
    intros E Hid Hsc Hm Hr. unfold when_step in E. binv E ps Ep. cbn zeta in E. injection E as _ <-. split.
    - exists (after_hash (ws_id st)). rewrite <- Hid. split; [apply Fragment_after_hash | reflexivity].
    - apply etool_runs.
    - intros val V (ND & G) y v. unfold seen. cbn [ws_run gen_step ws_in].
      assert (ND' : NoDup (map name_of (map when_input (ws_in st0)))).
      { rewrite map_map. rewrite (map_ext _ name_of) by (intros; apply name_when). exact ND. }
      match goal with |- context [existsb ?f ?l] => destruct (existsb f l) eqn:Ex end.
      + apply etool_inputs_in in Ex. rewrite object_iff by (apply NoDup_filter_map; exact ND').
        split.
        * intros (k & K & Ek & ->). apply filter_In in K. destruct K as (K & KF). apply in_map_iff in K. destruct K as (j & <- & J).
          rewrite name_when in Ek. rewrite given_when by exact V.
          destruct (G j J) as (G1 & G2 & G3 & G4).
          rewrite id_when in KF by exact G2. rewrite Ek in KF.
          apply andb_true_iff in KF. destruct KF as (_ & KF). apply negb_true_iff in KF.
          split; [|rewrite StartsWith_b, KF; discriminate].
          exists j. split; auto. split; auto. split; auto.
          apply (source_params_in _ _ _ _ _ Ep) in Ex. destruct Ex as (j' & J' & H1 & H2 & H3 & H4).
          assert (j' = j).
          { destruct (G j' J') as (G1' & _). rewrite basename_after_hash in H2 by exact G1'.
            change (name_of j' = y) in H2. apply (name_unique (ws_in st0)); auto. congruence. }
          subst j'. apply sourced_Fed. exact H3.
        * intros ((j & J & Ej & F & ->) & S1). rewrite StartsWith_b in S1. apply not_true_is_false in S1.
          destruct (G j J) as (G1 & G2 & G3 & G4). exists (when_input j). split.
          -- apply filter_In. split; [apply in_map; auto|]. rewrite id_when by exact G2. rewrite Ej, S1.
             rewrite <- Ej. apply String.eqb_neq in G2. rewrite G2. reflexivity.
          -- rewrite name_when, given_when by exact V. auto.
      + split; [discriminate|]. intros ((j & J & Ej & F & _) & S1). exfalso.
        eapply eq_true_false_abs; [|exact Ex]. apply etool_inputs_in.
        apply (source_params_in _ _ _ _ _ Ep). exists j. destruct (G j J) as (G1 & G2 & G3 & G4). split; auto. split.
        { intros Q. apply G2. unfold name_of. rewrite Q. reflexivity. }
        rewrite basename_after_hash by exact G1. split; auto. split; [apply Fed_sourced; auto|]. congruence.
    - cbn [ws_in gen_step]. intros i I. apply filter_In in I. destruct I as (I & _). apply in_map_iff in I. destruct I as (j & <- & J).
      exists j. split; auto. unfold when_input. destruct (String.eqb_spec (si_id j) ""); [auto|]. cbn. split; auto. left.
      apply basename_last_part.
    - intros lib L. apply step_declares in L. rewrite <- Hr in L. rewrite (step_lib [_] _ lib L).
      destruct replace_etool; (eexists; split; [reflexivity|]); [right | left]; (split; [reflexivity|]); eexists; reflexivity.
    - cbn. exact Hsc.
    - cbn. exact Hm.
    - reflexivity.
  Qed.

  (** ** The loop over the inputs *)
  Lemma MadeFor_same st st2 i e g : ws_id st2 = ws_id st -> ws_in st2 = ws_in st -> ws_scatter st2 = ws_scatter st ->
    ws_scatterMethod st2 = ws_scatterMethod st -> ws_reqs st2 = ws_reqs st -> MadeFor st2 i e g -> MadeFor st i e g.
  Proof.
    intros E1 E2 E3 E4 E5 [A B C V L D F G]. unfold GoodIds, StepLibrary in *. rewrite E1, E2, E3, E4, E5 in *. split; auto.
  Qed.
  Lemma find_Found t inputs self r : find_expr gx (JStr t) inputs self = Ok r ->
    match r with Some e => Found gx t e | None => NotFound gx t end.
  Proof.
    unfold find_expr. intros E. binv E x Ex. injection E as <-. destruct x as [e|]; cbn.
    - destruct (String.eqb_spec e "") as [->|N]; [right; eauto 10|]. split; eauto.
    - right. eauto 10.
  Qed.

  Lemma InputMoved_incl (n1 n2 : list wstep) st i i' :
    (forall g, In g n1 -> startswith "_expression" (ws_id g) = true -> In g n2) -> InputMoved gx n1 st i i' -> InputMoved gx n2 st i i'.
  Proof.
    intros H [K | t e g Vf Ne Fo G M]; [constructor; auto|]. econstructor; eauto. apply H; auto.
    destruct M as [(n & _ & N) _ _ _ _ _]. rewrite N. apply (startswith_app "_expression" ("_" ++ n ++ "_" ++ name_of i)).
  Qed.

  Lemma value_loop_exact wreqs pre post mock orig st0 : forall todo st done_ gen st' gen',
    value_loop gx self_example src_params src_known replace_etool wreqs pre post st mock orig (ws_in st0) done_ todo gen = Ok (st', gen') ->
    incl todo (ws_in st0) -> st = with_run (ws_run st) st0 ->
    exists done2 new, st' = with_in (done_ ++ done2) (with_run (ws_run st') st) /\ gen' = gen ++ new /\
      Forall2 (InputMoved gx new st0) todo done2.
  Proof.
    induction todo as [|inp todo IH]; intros st done_ gen st' gen' E S Q; cbn [value_loop] in E.
    { injection E as <- <-. exists [], []. rewrite !app_nil_r. repeat split; auto. }
    assert (S' : incl todo (ws_in st0)) by (intros a A; apply S; right; exact A).
    assert (Skip : (forall t, si_valueFrom inp = Some t -> NotFound gx t) ->
      value_loop gx self_example src_params src_known replace_etool wreqs pre post st mock orig (ws_in st0) (done_ ++ [inp]) todo gen = Ok (st', gen') ->
      exists done2 new, st' = with_in (done_ ++ done2) (with_run (ws_run st') st) /\ gen' = gen ++ new /\
      Forall2 (InputMoved gx new st0) (inp :: todo) done2).
    { intros NF Es. destruct (IH _ _ _ _ _ Es S' Q) as (d2 & new & A1 & A2 & A3).
      exists (inp :: d2), new. rewrite <- app_assoc in A1. repeat split; auto. constructor; auto. constructor. exact NF. }
    destruct (filled (si_valueFrom inp)) as [text|] eqn:Ft.
    2:{ apply Skip; [|exact E]. intros t Et. rewrite Et in Ft. cbn in Ft. left. destruct (String.eqb_spec t ""); [auto|discriminate]. }
    cbn zeta in E. binv E self Es. binv E x Ex. apply find_Found in Ex. apply filled_Some in Ft. destruct Ft as (Ft & Fn).
    destruct x as [expr|].
    2:{ apply Skip; [|exact E]. intros t Et. rewrite Et in Ft. injection Ft as ->. exact Ex. }
    clear Skip. destruct (negb (has_input orig (si_id inp))); [discriminate|].
    binv E k Ek. binv E g Eg.
    set (name := ("_expression_" ++ after_hash (ws_id st) ++ "_" ++ basename (si_id inp))%string) in *.
    set (s1 := with_run (give_js wreqs orig (ws_run st)) st) in *.
    assert (I1 : ws_in s1 = ws_in st0) by (subst s1; cbn; rewrite Q; reflexivity).
    rewrite <- I1 in Eg. apply valueFrom_exact in Eg; [|rewrite I1; apply S; left; reflexivity|reflexivity].
    destruct Eg as (Ng & Mg).
    assert (M0 : MadeFor st0 inp expr g) by (eapply MadeFor_same; [..|exact Mg]; subst s1; cbn; rewrite Q; reflexivity).
    assert (Q1 : s1 = with_run (ws_run s1) st0) by (subst s1; cbn; rewrite Q; reflexivity).
    destruct (IH _ _ _ _ _ E S' Q1) as (d2 & new & A1 & A2 & A3). clear IH.
    exists ({| si_id := si_id inp; si_source := SOne (name ++ "/result"); si_valueFrom := None;
              si_linkMerge := si_linkMerge inp; si_default := si_default inp |} :: d2), (g :: new).
    rewrite <- app_assoc in A1, A2. repeat split; auto.
    constructor.
    - rewrite <- Ng. eapply IM_moved; eauto. left. reflexivity.
    - eapply Forall2_mono; [|exact A3]. intros a b. apply InputMoved_incl. intros z Z _. right. exact Z.
  Qed.

  Notation tstep := (traverse_step gx src_example self_example src_params src_known attrs replace_etool skip1 skip2).

  (** One step: the generated step of [when] is [g0] *)
  Definition WhenMade (gen : list wstep) (st st' : wstep) : Prop :=
    (ws_when st' = ws_when st /\ forall t, ws_when st = Some t -> NotFound gx t) \/
    (exists t e g0 i, ws_when st = Some t /\ t <> "" /\ Found gx t e /\ MadeForWhen st e g0 /\ In g0 gen /\
       ws_when st' = Some "$(inputs._when)" /\ In i (ws_in st') /\ si_id i = "_when" /\ si_source i = SOne (ws_id g0 ++ "/result")).

  Lemma tstep_exact wreqs pre post st st' gen m sub :
    tstep wreqs pre post st = Ok (st', gen, m, sub) -> ws_id st <> "" ->
    InputsMoved gx gen st st' /\ WhenMade gen st st'.
  Proof.
    unfold traverse_step. intros E Nid. binv E mock Em. apply String.eqb_neq in Nid. rewrite Nid in E.
    binv E v Ev. destruct v as [s1 g1]. binv E x Ex. binv E w Ew. binv E p Ep. binv E c Ec.
    destruct w as [s2 g2], p as [[s3 g3] m3], c as [[[s4 g4] m4] sub4]. cbn [fst snd] in *. injection E as <- <- <- <-.
    destruct (value_loop_exact _ _ _ _ _ st _ _ _ _ _ _ Ev (incl_refl _)) as (d & new & A1 & A2 & A3); [destruct st; reflexivity|].
    cbn [app] in A1, A2. subst g1.
    assert (W1 : ws_when s1 = ws_when st) by (rewrite A1; reflexivity).
    assert (I1 : ws_in s1 = d) by (rewrite A1; reflexivity).
    assert (K2 : (ws_in s2 = d \/ exists i, ws_in s2 = d ++ [i] /\ si_id i = "_when") /\ incl new g2 /\ WhenMade g2 st s2 /\ ws_id s2 = ws_id st).
    { destruct x as [expr|].
      - binv Ew r Er. destruct r as [s2' gw]. cbn [fst snd] in Ew. injection Ew as <- <-.
        assert (Mw : MadeForWhen st expr gw) by (eapply when_exact; [exact Er|..]; rewrite A1; reflexivity).
        apply when_ok in Er. destruct Er as (-> & Nw & _).
        split; [right; exists (feed "_when" (ws_id gw ++ "/result")); cbn; rewrite I1; auto|].
        split; [intros z Z; apply in_or_app; auto|]. split; [|rewrite A1; reflexivity].
        right. destruct (filled (ws_when s1)) as [t|] eqn:Ft; [|discriminate]. apply filled_Some in Ft. destruct Ft as (Ft & Fn).
        apply find_Found in Ex. exists t, expr, gw, (feed "_when" (ws_id gw ++ "/result")). rewrite <- W1.
        split; [exact Ft|]. split; [exact Fn|]. split; [exact Ex|]. split; [exact Mw|].
        split; [apply in_or_app; right; left; reflexivity|]. split; [reflexivity|].
        split; [cbn; apply in_or_app; right; left; reflexivity|]. split; reflexivity.
      - injection Ew as <- <-. split; [left; exact I1|]. split; [apply incl_refl|]. split; [|rewrite A1; reflexivity].
        left. split; auto. intros t Et. rewrite <- W1 in Et. rewrite Et in Ex. cbn [filled] in Ex.
        destruct (String.eqb t "") eqn:N; [left; apply String.eqb_eq; exact N|]. apply find_Found in Ex. exact Ex. }
    destruct K2 as (I2 & Inc2 & Wh2 & Id2).
    assert (Ev3 : exists nm n3, g3 = g2 ++ n3 /\ evolves nm s2 s3 n3).
    { exists (step_name (ws_id st)).
      assert (Nm2 : forall r, step_name (ws_id st) ("_expression_" ++ after_first_hash (ws_id s2) ++ String "_" r)).
      { intros r. rewrite Id2. exists (after_first_hash (ws_id st)), r. auto. }
      destruct (level_reqs_evolves (step_name (ws_id st)) _ _ _ _ _ _ _ Nm2 _ _ _ _ Ep) as (n3 & -> & V3 & _). eauto. }
    destruct Ev3 as (nm & n3 & -> & V3).
    assert (Ev4 : exists nm' n4, g4 = (g2 ++ n3) ++ n4 /\ evolves nm' s3 s4 n4).
    { exists (step_name (ws_id st)).
      assert (Same : Ok (s3, g2 ++ n3, false, false) = Ok (s4, g4, m4, sub4) -> exists n4, g4 = (g2 ++ n3) ++ n4 /\ evolves (step_name (ws_id st)) s3 s4 n4).
      { intros Q. injection Q as <- <- _ _. exists []. rewrite app_nil_r. split; auto. apply evolves_refl. }
      destruct (ws_run st) as [u|t|ids] eqn:R; auto. destruct (is_clt t); auto.
      assert (Nm3 : forall r, step_name (ws_id st) ("_expression_" ++ after_hash (ws_id s3) ++ String "_" r)).
      { intros r. rewrite (ev_id _ _ _ _ V3), Id2. exists (after_hash (ws_id st)), r. auto. }
      destruct (clt_evolves (step_name (ws_id st)) _ _ _ _ _ _ _ Nm3 _ _ _ _ _ Ec) as (n4 & -> & V4 & _). eauto. }
    destruct Ev4 as (nm' & n4 & -> & V4).
    destruct (ev_in _ _ _ _ V3) as (e3 & I3 & F3). destruct (ev_in _ _ _ _ V4) as (e4 & I4 & F4).
    assert (Fe : forall n e, Forall (fed n) e -> Forall (fun i => StartsWith "_" (si_id i)) e).
    { intros n e F. eapply Forall_impl; [|exact F]. intros i (U & _). apply startswith_spec. exact U. }
    assert (Inc : incl g2 ((g2 ++ n3) ++ n4)) by (intros z Z; rewrite !in_app_iff; auto).
    split.
    - destruct I2 as [I2 | (i & I2 & Ui)].
      + exists d, (e3 ++ e4). rewrite I4, I3, I2, <- app_assoc. split; auto. split.
        * eapply Forall2_mono; [|exact A3]. intros a b. apply InputMoved_incl. intros z Z _. apply Inc2 in Z. rewrite !in_app_iff. auto.
        * apply Forall_app. eauto.
      + exists d, (i :: e3 ++ e4). rewrite I4, I3, I2, <- !app_assoc. split; auto. split.
        * eapply Forall2_mono; [|exact A3]. intros a b. apply InputMoved_incl. intros z Z _. apply Inc2 in Z. rewrite !in_app_iff. auto.
        * constructor; [exists "when"; exact Ui|]. apply Forall_app. eauto.
    - unfold WhenMade in *. rewrite (ev_when _ _ _ _ V4), (ev_when _ _ _ _ V3), I4, I3.
      destruct Wh2 as [? | (t & e & g0 & i & B1 & B2 & B3 & B4 & B5 & B6 & B7 & B8 & B9)]; [left; auto|]. right.
      exists t, e, g0, i. repeat (split; auto). rewrite !in_app_iff. auto.
  Qed.

  (** ** The whole *)
  Lemma own_expression n x : has_char "#" n = false -> has_char "#" x = false ->
    after_hash ("_expression_" ++ n ++ "_" ++ x) = ("_expression_" ++ n ++ "_" ++ x)%string.
  Proof.
    intros A B. apply after_hash_Fragment. split; auto. rewrite !has_char_app, A, B. reflexivity.
  Qed.
  Lemma MadeFor_finished new st i e g g' : In i (ws_in st) -> MadeFor st i e g -> finished new g g' -> MadeFor st i e g'.
  Proof.
    intros I [(n & A1 & A2) B C W L D E F] ([X1 X2 X3 X4 X5 X6 X7] & O). split; try congruence.
    - exists n. split; auto. congruence.
    - rewrite X2. exact B.
    - intros val V G. rewrite O; [apply C; auto|]. unfold own_step. destruct G as (_ & G). destruct (G i I) as (G1 & _).
      rewrite A2, own_expression; [|apply A1|exact G1]. apply negb_false_iff. apply (startswith_app "_expression_").
    - destruct X7 as (extra & -> & X8). intros j J. apply in_app_or in J. destruct J as [J | J]; [exact (W j J)|].
      rewrite Forall_forall in X8. destruct (X8 j J) as (_ & Y & _). left. exact Y.
    - rewrite X2. exact L.
  Qed.
  Lemma InputMoved_finished new n1 n2 st i i' :
    (forall g, In g n1 -> startswith "_expression" (ws_id g) = true -> exists g', In g' n2 /\ finished new g g') ->
    In i (ws_in st) -> InputMoved gx n1 st i i' -> InputMoved gx n2 st i i'.
  Proof.
    intros H I [K | t e g Vf Ne Fo G M]; [constructor; auto|].
    destruct (H g G) as (g' & G' & Fi).
    { destruct (mf_id _ _ _ _ M) as (n & _ & N). rewrite N. apply (startswith_app "_expression" ("_" ++ n ++ "_" ++ name_of i)). }
    rewrite <- (ex_id _ _ _ (proj1 Fi)). eapply IM_moved; eauto. eapply MadeFor_finished; eauto.
  Qed.
  Lemma Forall2_In_mono {A B} (P Q : A -> B -> Prop) l l' : (forall a b, In a l -> P a b -> Q a b) -> Forall2 P l l' -> Forall2 Q l l'.
  Proof. intros S F. induction F; constructor; auto using in_eq. apply IHF. intros; apply S; auto using in_cons. Qed.

  Notation visited := (Visited gx src_example self_example src_params src_known attrs replace_etool skip1 skip2).
  Lemma visited_inputs new all st st1 st' gen wreqs pre post m sub : ws_id st <> "" ->
    tstep wreqs pre post st = Ok (st1, gen, m, sub) -> finished new st1 st' ->
    (forall g, In g gen -> exists g', In g' all /\ visited (finished new) all g g') ->
    InputsMoved gx all st st' /\ WhenMade gen st st'.
  Proof.
    intros Nid T (X & _) G. destruct (tstep_exact _ _ _ _ _ _ _ _ T Nid) as ((old & nw & I1 & F & U) & Wh).
    destruct (ex_in _ _ _ X) as (extra & I2 & Fx). split.
    - exists old, (nw ++ extra). rewrite I2, I1, <- app_assoc. split; auto. split.
      + eapply Forall2_In_mono; [|exact F]. intros a b Ia. apply (InputMoved_finished new); auto.
        intros g Ig Sg. destruct (G g Ig) as (g' & I' & V). exists g'. split; auto.
        inversion V; subst; [assumption|congruence].
      + apply Forall_app. split; auto. eapply Forall_impl; [|exact Fx]. intros i (Ui & _). apply startswith_spec. exact Ui.
    - unfold WhenMade in *. rewrite (ex_when _ _ _ X), I2.
      destruct Wh as [? | (t & e & g0 & i & B1 & B2 & B3 & B4 & B5 & B6 & B7 & B8 & B9)]; [left; auto|]. right.
      exists t, e, g0, i. repeat (split; auto). apply in_or_app. auto.
  Qed.

  Theorem valueFrom_workflow fuel w w' m :
    traverse_workflow gx ev src_example self_example src_params src_known out_known load_run attrs replace_etool skip1 skip2 fuel w
      = Ok (w', m) ->
    exists olds news, wf_steps w' = olds ++ news /\
      Forall2 (fun st st' => StartsWith "_expression" (ws_id st) \/ ws_id st = "" \/
                             (InputsMoved gx (wf_steps w') st st' /\ WhenMoved gx (wf_steps w') st st')) (wf_steps w) olds.
  Proof.
    intros E. apply workflow_visits in E. destruct E as (olds & news & new & A1 & A2). exists olds, news. split; auto.
    eapply Forall2_mono; [|exact A2]. clear A1 A2. intros st st' (st0 & L & V).
    assert (S0 : ws_id st0 = ws_id st /\ ws_in st0 = ws_in st /\ ws_scatter st0 = ws_scatter st /\
                 ws_scatterMethod st0 = ws_scatterMethod st /\ ws_when st0 = ws_when st /\ ws_reqs st0 = ws_reqs st) by (rewrite L; cbn; repeat split).
    destruct S0 as (L1 & L2 & L3 & L4 & L5 & L6).
    inversion V as [? ? Sk _ | wreqs pre post ? st1 ? gen m1 sub Sk T F G]; subst.
    { left. apply startswith_spec. rewrite <- L1. exact Sk. }
    right. destruct (String.eqb_spec (ws_id st) "") as [|Nid]; auto. right.
    rewrite <- L1 in Nid. destruct (visited_inputs _ _ _ _ _ _ _ _ _ _ _ Nid T F G) as ((old & nw & I & Fo & U) & Wh).
    split.
    - exists old, nw. split; auto. split; auto. rewrite L2 in Fo. eapply Forall2_mono; [|exact Fo].
      intros a b [K | t e g Vf Ne Fd Ig M]; [constructor; auto|]. eapply IM_moved; eauto. eapply MadeFor_same; eauto.
    - destruct Wh as [(B1 & B2) | (t & e & g0 & i & B1 & B2 & B3 & B4 & B5 & B6 & B7 & B8 & B9)].
      + apply WM_kept; rewrite <- L5; auto.
      + destruct (G g0 B5) as (g & Ig & Vg).
        assert (Ng : exists n, ws_id g0 = ("_when_expression_" ++ n)%string) by (destruct (mw_id _ _ _ B4) as (n & _ & N); eauto).
        destruct Ng as (n & Ng).
        inversion Vg as [? ? Sg _ | wreqs' pre' post' ? g1 ? gen' m' sub' Sg Tg Fg Gg]; subst; [rewrite Ng in Sg; discriminate|].
        assert (Ig0 : InputsMoved gx (wf_steps w') g0 g).
        { eapply visited_inputs; eauto. rewrite Ng. discriminate. }
        assert (Idg : ws_id g = ws_id g0).
        { rewrite (ex_id _ _ _ (proj1 Fg)). apply traverse_step_ok in Tg. destruct Tg as ([SA _ _ _ _] & _). apply SA. }
        eapply (WM_moved _ _ _ _ t e g0 g i); auto; try congruence.
        destruct B4 as [C1 C2 C3 C4 Cl C5 C6 C7]. unfold GoodIds, StepLibrary in *. rewrite L1, L2, L3, L4, L6 in *. split; auto.
  Qed.
End Steps.
