(** * Properties C28-C31: container images, citations, Singularity versions *)
From Verif Require Import PyBase PyBaseProofs ImageModel ImageSpec ImageProofs EngineProofs.
From Coq Require Import NArith Lia.

(** ** C28 *)
Definition docker_own (e e' : entry) : Prop := exists d d', e = Docker d /\ e' = Docker d' /\ Tagged d d'.

Lemma normalise_tagged e : is_docker e = true -> docker_own e (normalise e).
Proof.
  destruct e as [[s|]| | |]; try discriminate; intros _.
  - unfold normalise. destruct (has_char ":" s) eqn:H; cbn [negb].
    + destruct (proj1 (has_char_spec _ _) H) as (a & b & ->). exists (Some (a ++ ":" ++ b)%string), (Some (a ++ ":" ++ b)%string).
      repeat split. constructor.
    + exists (Some s), (Some (s ++ ":latest")%string). repeat split. constructor. intros a b ->.
      rewrite has_char_app in H. cbn [append has_char] in H. rewrite Ascii.eqb_refl, orb_true_r in H. discriminate.
  - exists None, None. repeat split. constructor.
Qed.
Lemma traverse_gtrav load : traverse load = gtrav load
  (fun r h => map normalise (filter is_docker (entries r) ++ filter is_docker (entries h)))
  (fun r h => filter is_docker (entries r) ++ filter is_docker (entries h)).
Proof. reflexivity. Qed.
Lemma selects_id sel f R : selects sel (fun r h => map (fun e => e) (f r h)) R -> selects sel f R.
Proof. intros H r h. destruct (H r h) as (ps & A & B & C). cbv beta in C. rewrite map_id in C. eauto. Qed.

(** The extractor yields one requirement for each DockerRequirement standing anywhere in the
    process, its steps or what they run, and nothing else; those of a process get the tag
    "latest" when they have none, those of a step are left alone. *)
Theorem C28_extracted_exactly load fuel p rs : traverse load fuel p = (rs, None) ->
  exists places, NoDup places /\
    (forall pl, In pl places <-> exists d, At load p pl (Docker d)) /\
    Forall2 (fun pl r => exists d d', At load p pl (Docker d) /\ r = Docker d' /\
               (on_step pl /\ d' = d \/ ~ on_step pl /\ Tagged d d')) places rs.
Proof.
  intros E. rewrite traverse_gtrav in E.
  pose proof (gtrav_covers load is_docker _ _ docker_own (fun e e' => e' = e)
    (filter_selects _ _ _ normalise_tagged) (selects_id _ _ _ (filter_selects is_docker _ (fun e => e) (fun e _ => eq_refl))) fuel p) as (pls & N & S & C & F).
  rewrite E in *. cbn [fst snd ok_of] in *. exists pls. split; auto. split.
  - intros pl. split.
    + intros I. destruct (S _ I) as ([d| | |] & A & B); try discriminate. eauto.
    + intros (d & A). eapply C; eauto.
  - eapply Forall2_impl; [|exact F]. intros pl r (e & A & B & R). destruct e as [d| | |]; try discriminate. destruct R as [[O ->]|[O R]].
    + exists d, d. auto.
    + destruct R as (d0 & d' & X & -> & T). injection X as ->. exists d0, d'. auto.
Qed.
Print Assumptions C28_extracted_exactly.

(** The extraction ends without error just when everything run at any depth can be loaded
    and nothing runs itself; any other ending is a document that failed to load (or an endless
    descent). *)
Theorem C28_ends load p :
  (Finite load p <-> exists fuel, snd (traverse load fuel p) = None) /\
  (Finite load p -> exists rs fuel, forall fuel', fuel <= fuel' -> traverse load fuel' p = (rs, None)) /\
  (forall fuel x, snd (traverse load fuel p) = Some x -> x = OutOfFuel \/ Broken load p x).
Proof.
  rewrite traverse_gtrav. apply gtrav_ends.
Qed.
Print Assumptions C28_ends.

(** A workflow whose first step runs a tool kept in another document, and whose second step
    has a requirement of its own and runs a nested workflow *)
Definition tool_a := Process false None (Some [Other "X"; Docker (Some "debian")]) [].
Definition inner_wf := Process true (Some [Docker (Some "r.io/a/b:1")]) None [Step None None (Uri "a.cwl")].
Definition outer_wf := Process true None None
  [Step None None (Uri "a.cwl"); Step (Some [Docker (Some "busybox")]) None (Inline inner_wf)].
Definition load_a (u : string) : result process := if String.eqb u "a.cwl" then Ok tool_a else Err FileNotFoundError.
Example C28_extracted_exactly_nonvacuous : traverse load_a 5 outer_wf =
  ([Docker (Some "debian:latest"); Docker (Some "busybox"); Docker (Some "r.io/a/b:1"); Docker (Some "debian:latest")], None) /\
  Finite load_a outer_wf.
Proof.
  split; [reflexivity|]. apply (proj2 (proj1 (C28_ends load_a outer_wf))). exists 5. reflexivity.
Qed.

(** But a DockerRequirement among the hints of a workflow step is not extracted: the parser
    leaves those hints as plain data. *)
Theorem C28_step_hints_refuted :
  (forall requirements hints, extract_docker_reqs requirements (Some (map load_step_hint hints)) = extract_docker_reqs requirements None) /\
  exists hint image, load_entry hint = Docker (Some image) /\
    forall load tool, traverse load 2 (Process true None None [Step None (Some [load_step_hint hint]) (Inline (Process false None None tool))]) = ([], None).
Proof.
  split.
  - intros r hs. unfold extract_docker_reqs. f_equal. cbn [entries]. induction hs; cbn; auto.
  - exists (JDict [("class", JStr "DockerRequirement"); ("dockerPull", JStr "debian:8")]), "debian:8". split; [reflexivity|].
    intros. reflexivity.
Qed.
Print Assumptions C28_step_hints_refuted.

(** And an image with a registry port but no tag gets no tag. *)
Theorem C28_port_untagged_refuted : exists image, (forall load, traverse load 1 (Process false (Some [Docker (Some image)]) None []) = ([Docker (Some image)], None))
  /\ image = "localhost:5000/debian".
Proof. exists "localhost:5000/debian". split; [|reflexivity]. intros. reflexivity. Qed.
Print Assumptions C28_port_untagged_refuted.

(** ** C29 *)
Lemma cite_gtrav load : cite_traverse load = gtrav load
  (fun r h => filter is_software (entries r) ++ filter is_software (entries h))
  (fun r h => filter is_software (entries r) ++ filter is_software (entries h)).
Proof. reflexivity. Qed.

Theorem C29_extracted_exactly load fuel p rs : cite_traverse load fuel p = (rs, None) ->
  exists places, NoDup places /\
    (forall pl, In pl places <-> exists s, At load p pl (Software s)) /\
    Forall2 (fun pl r => exists s, r = Software s /\ At load p pl (Software s)) places rs.
Proof.
  intros E. rewrite cite_gtrav in E.
  pose proof (gtrav_covers load is_software _ _ (fun e e' => e' = e) (fun e e' => e' = e)
    (selects_id _ _ _ (filter_selects is_software _ (fun e => e) (fun e _ => eq_refl)))
    (selects_id _ _ _ (filter_selects is_software _ (fun e => e) (fun e _ => eq_refl))) fuel p) as (pls & N & S & C & F).
  rewrite E in *. cbn [fst snd ok_of] in *. exists pls. split; auto. split.
  - intros pl. split.
    + intros I. destruct (S _ I) as ([|s| |] & A & B); try discriminate. eauto.
    + intros (d & A). eapply C; eauto.
  - eapply Forall2_impl; [|exact F]. intros pl r (e & A & B & R). destruct e as [|s| |]; try discriminate. exists s. destruct R as [[_ ->]|[_ ->]]; auto.
Qed.
Print Assumptions C29_extracted_exactly.

Theorem C29_ends load p :
  (Finite load p <-> exists fuel, snd (cite_traverse load fuel p) = None) /\
  (Finite load p -> exists rs fuel, forall fuel', fuel <= fuel' -> cite_traverse load fuel' p = (rs, None)) /\
  (forall fuel x, snd (cite_traverse load fuel p) = Some x -> x = OutOfFuel \/ Broken load p x).
Proof.
  rewrite cite_gtrav. apply gtrav_ends.
Qed.
Print Assumptions C29_ends.

(** The program prints one line for each package of each of them, in the same order. *)
Theorem C29_printed load show fuel input lines : cite_run load show fuel input = (lines, None) ->
  exists p places packages, load input = Ok p /\ NoDup places /\
    (forall pl, In pl places <-> exists s, At load p pl (Software s)) /\
    Forall2 (fun pl s => At load p pl (Software s)) places packages /\
    Forall2 (fun pk line => line = ("Package: " ++ pk_name pk ++ ", version: " ++ show (pk_version pk) ++ ", specs: " ++ show (pk_specs pk))%string)
      (List.concat packages) lines.
Proof.
  unfold cite_run. destruct (load input) as [p|]; [|discriminate]. intros E.
  destruct (cite_traverse load fuel p) as [rs o] eqn:T. cbn [fst snd] in E. injection E as <- ->.
  destruct (C29_extracted_exactly _ _ _ _ T) as (pls & N & I & F). exists p, pls.
  assert (X : exists packages, rs = map Software packages /\ Forall2 (fun pl s => At load p pl (Software s)) pls packages).
  { clear -F. induction F as [|pl r pls rs (s & -> & A) F (ps & -> & B)]; [exists []; auto|]. exists (s :: ps). split; auto. }
  destruct X as (ps & -> & B). exists ps. split; auto. split; auto. split; auto. split; auto. clear.
  induction ps as [|s ps IH]; cbn; [constructor|]. apply Forall2_app; auto.
  induction s; cbn; constructor; auto.
Qed.
Print Assumptions C29_printed.

Definition samtools := Package "samtools" (Some ["1.9"]) None.
Definition cited := Process true None (Some [Software [samtools; Package "bwa" None None]])
  [Step (Some [Software [samtools]]) None (Uri "a.cwl")].
Example C29_nonvacuous : cite_run (fun u => if String.eqb u "a.cwl" then Ok tool_a else Ok cited)
    (fun o => match o with Some _ => "['1.9']" | None => "None" end) 3 "main.cwl" =
  (["Package: samtools, version: ['1.9'], specs: None"; "Package: bwa, version: None, specs: None";
    "Package: samtools, version: ['1.9'], specs: None"], None).
Proof. reflexivity. Qed.

Theorem C29_step_hints_refuted :
  (forall requirements hints, extract_software_reqs requirements (Some (map load_step_hint hints)) = extract_software_reqs requirements None) /\
  exists hint, load_entry hint = Software [] /\
    forall load tool, cite_traverse load 2 (Process true None None [Step None (Some [load_step_hint hint]) (Inline (Process false None None tool))]) = ([], None).
Proof.
  split.
  - intros r hs. unfold extract_software_reqs. f_equal. cbn [entries]. induction hs; cbn; auto.
  - exists (JDict [("class", JStr "SoftwareRequirement"); ("packages", JDict [("samtools", JDict [])])]). split; [reflexivity|].
    intros. reflexivity.
Qed.
Print Assumptions C29_step_hints_refuted.

(** ** C31 *)
Definition unknown (w : world) : Prop := version w = None.

(** What each test answers, for every text the version command can print *)
Theorem C31_answers out w text flav v : unknown w -> out (asked w) = Ok text -> Prints text flav v ->
  exists w', get_version out w = (Ok (v, flav), w') /\
  (exists b, is_apptainer_1_or_newer out w = (Ok b, w') /\ (b = true <-> flav = "apptainer" /\ at_least [1%N] v)) /\
  (exists b, is_version_3_or_newer out w = (Ok b, w') /\
     (b = true <-> flav = "apptainer" /\ at_least [1%N] v \/ at_least [3%N] v)) /\
  (v <> [3%N] ->
     (exists b, is_version_3_1_or_newer out w = (Ok b, w') /\
        (b = true <-> flav = "apptainer" /\ at_least [1%N] v \/ at_least [3%N; 1%N] v)) /\
     (exists b, is_version_3_4_or_newer out w = (Ok b, w') /\
        (b = true <-> flav = "apptainer" /\ at_least [1%N] v \/ at_least [3%N; 4%N] v))) /\
  (v <> [2%N] ->
     exists b, is_version_2_6 out w = (Ok b, w') /\
       (b = true <-> (flav = "singularity" \/ flav = "singularity-ce") /\ exists r, v = (2 :: 6 :: r)%N)).
Proof.
  intros U O P. destruct (Prints_match _ _ _ P) as (vs & VM & MI).
  set (w' := World (files w) (commands w) (Some v) flav (S (asked w))).
  assert (G : get_version out w = (Ok (v, flav), w')).
  { unfold get_version. rewrite U, O, VM, MI. reflexivity. }
  exists w'. split; auto. assert (K := known_after _ _ _ _ G). cbn [fst snd] in K.
  assert (NE : exists a r, v = a :: r).
  { destruct P as (ns & suf & _ & NE & _ & -> & _). destruct ns as [|n ns]; [congruence|]. cbn. eauto. }
  destruct NE as (a & r & ->).
  assert (AP : apptainer_ok (a :: r) flav = true <-> flav = "apptainer" /\ at_least [1%N] (a :: r)).
  { unfold apptainer_ok. rewrite andb_true_iff, String.eqb_eq, N.leb_le. cbn [at_least]. intuition lia. }
  pose proof (test_apptainer out w) as T0. pose proof (test_3 out w) as T1. pose proof (test_31 out w) as T2.
  pose proof (test_34 out w) as T3. pose proof (test_26 out w) as T4. rewrite G in *.
  split; [|split; [|split]].
  - exists (apptainer_ok (a :: r) flav). rewrite T0, (apptainer_eq _ _ _ _ K) by discriminate. split; auto.
  - exists (apptainer_ok (a :: r) flav || N.leb 3 a). rewrite T1, (v3_eq _ _ _ _ _ K). split; auto.
    rewrite orb_true_iff, AP, N.leb_le. cbn [at_least]. intuition lia.
  - intros N3.
    assert (L : forall m, exists b, (if apptainer_ok (a :: r) flav then Ok true else from3 m a r) = Ok b /\
      (b = true <-> flav = "apptainer" /\ at_least [1%N] (a :: r) \/ at_least [3%N; m] (a :: r))).
    { intros m. destruct (apptainer_ok (a :: r) flav) eqn:E.
      - exists true. split; auto. rewrite <- AP. tauto.
      - assert (NAP : ~ (flav = "apptainer" /\ at_least [1%N] (a :: r))) by (rewrite <- AP; discriminate).
        unfold from3. destruct (N.leb_spec 4 a); [exists true; split; auto; split; auto; intros _; right; cbn; left; lia|].
        destruct (N.eqb_spec a 3) as [->|].
        + destruct r as [|b r]; [congruence|]. exists (N.leb m b). split; auto. rewrite N.leb_le. split.
          * intros L. right. cbn. right. split; auto. destruct (N.eq_dec m b); [right; auto|left; lia].
          * intros [X|[X|[_ [X|[X _]]]]]; try tauto; lia.
        + exists false. split; auto. split; [discriminate|]. intros [X|[X|[X _]]]; try tauto; lia. }
    split.
    + destruct (L 1%N) as (b & E & I). exists b. rewrite T2, (v31_eq _ _ _ _ _ K), E. auto.
    + destruct (L 4%N) as (b & E & I). exists b. rewrite T3, (v34_eq _ _ _ _ _ K), E. auto.
  - intros N2. rewrite T4, (v26_eq _ _ _ _ _ K).
    assert (FL : (String.eqb flav "singularity" || String.eqb flav "singularity-ce") = true <-> flav = "singularity" \/ flav = "singularity-ce")
      by (rewrite orb_true_iff, !String.eqb_eq; tauto).
    destruct (String.eqb flav "singularity" || String.eqb flav "singularity-ce").
    + destruct (N.eqb_spec a 2) as [->|].
      * destruct r as [|b r]; [congruence|]. exists (N.eqb b 6). split; auto. rewrite N.eqb_eq. split.
        -- intros ->. split; [tauto|eauto].
        -- intros [_ (q & X)]. congruence.
      * exists false. split; auto. split; [discriminate|]. intros [_ (q & X)]. congruence.
    + exists false. split; auto. split; [discriminate|]. intros [X _]. apply FL in X. discriminate.
Qed.
Print Assumptions C31_answers.

Definition ce_text := ("singularity-ce version 3.10.2-jammy" ++ String c_nl "")%string.
Example C31_answers_nonvacuous : Prints ce_text "singularity-ce" [3%N; 10%N; 2%N].
Proof.
  exists ["3"; "10"; "2"], "-jammy". repeat split; try discriminate.
  - repeat (constructor; [split; [discriminate|reflexivity]|]). constructor.
  - exists "s"%char, "ingularity-ce". auto.
  - injection H as <- <-. reflexivity.
  - injection H as <- <-. discriminate.
  - intros c r E. assert (X := f_equal srev E). rewrite srev_app_distr in X.
    change (String "y" (srev "-jamm") = String c (srev r)) in X. injection X as <- _. reflexivity.
Qed.

(** The tests are ordered, whatever was printed and whenever they are asked. *)
Theorem C31_ordered out w :
  (fst (is_version_3_4_or_newer out w) = Ok true -> fst (is_version_3_1_or_newer out w) = Ok true) /\
  (fst (is_version_3_1_or_newer out w) = Ok true -> fst (is_version_3_or_newer out w) = Ok true) /\
  (fst (is_apptainer_1_or_newer out w) = Ok true ->
     fst (is_version_3_4_or_newer out w) = Ok true /\ fst (is_version_2_6 out w) = Ok false) /\
  (fst (is_version_2_6 out w) = Ok true ->
     fst (is_version_3_or_newer out w) = Ok false /\ exists f r, fst (get_version out w) = Ok ((2 :: 6 :: r)%N, f)).
Proof.
  pose proof (test_apptainer out w) as T0. pose proof (test_3 out w) as T1. pose proof (test_31 out w) as T2.
  pose proof (test_34 out w) as T3. pose proof (test_26 out w) as T4.
  destruct (get_version out w) as [[p|e] w'] eqn:G; rewrite T0, T1, T2, T3, T4.
  2:{ cbn. repeat split; discriminate. }
  assert (K := known_after _ _ _ _ G). clear T0 T1 T2 T3 T4. destruct p as [v f]. cbn [fst snd] in K.
  destruct v as [|a v].
  { assert (X : fst (is_apptainer_1_or_newer out w') <> Ok true).
    { unfold is_apptainer_1_or_newer, mbind. rewrite (get_version_known _ _ _ _ K). cbn [fst snd].
      destruct (negb (String.eqb f "apptainer")); discriminate. }
    assert (Y : forall k : bool -> M bool, (forall (b : bool) w0, known w0 [] f -> fst (k b w0) = fst (if b then (Ok true, w0) else (@Err bool IndexError, w0))) ->
      fst (mbind (is_apptainer_1_or_newer out) k w') <> Ok true).
    { intros k Hk. unfold mbind. destruct (is_apptainer_1_or_newer out w') as [[b|] w1] eqn:E; [|discriminate].
      assert (w1 = w').
      { unfold is_apptainer_1_or_newer, mbind in E. rewrite (get_version_known _ _ _ _ K) in E. cbn [fst snd] in E.
        destruct (negb (String.eqb f "apptainer")); injection E; auto; discriminate. }
      subst w1. rewrite Hk by auto. destruct b; [|discriminate]. exfalso. apply X. reflexivity. }
    split; [|split; [|split]].
    - intros H. exfalso. revert H. apply Y. intros [] w0 K0; auto. unfold mbind. rewrite (get_version_known _ _ _ _ K0). auto.
    - intros H. exfalso. revert H. apply Y. intros [] w0 K0; auto. unfold mbind. rewrite (get_version_known _ _ _ _ K0). auto.
    - intros H. exfalso. apply (X H).
    - unfold is_version_2_6, mbind. rewrite (get_version_known _ _ _ _ K). cbn [fst snd].
      destruct (_ && _); discriminate. }
  rewrite (v34_eq _ _ _ _ _ K), (v31_eq _ _ _ _ _ K), (v3_eq _ _ _ _ _ K), (v26_eq _ _ _ _ _ K), (apptainer_eq _ _ _ _ K) by discriminate.
  cbn [fst].
  assert (L : forall m m', (m' <= m)%N -> from3 m a v = Ok true -> from3 m' a v = Ok true).
  { intros m m' LE. unfold from3. destruct (N.leb 4 a); auto. destruct (N.eqb a 3); auto. destruct v as [|b v]; [discriminate|].
    intros H. injection H as H. apply N.leb_le in H. f_equal. apply N.leb_le. lia. }
  split; [|split; [|split]].
  - destruct (apptainer_ok (a :: v) f); auto. apply L. lia.
  - destruct (apptainer_ok (a :: v) f); auto. unfold from3. destruct (N.leb_spec 4 a).
    + intros _. f_equal. apply orb_true_iff. right. apply N.leb_le. lia.
    + destruct (N.eqb_spec a 3) as [->|]; [|discriminate]. intros _. reflexivity.
  - intros H. injection H as H. rewrite H. split; auto. unfold apptainer_ok in H. apply andb_true_iff in H. destruct H as [H _].
    apply String.eqb_eq in H. subst f. reflexivity.
  - unfold apptainer_ok. destruct (String.eqb_spec f "singularity") as [->|]; [|destruct (String.eqb_spec f "singularity-ce") as [->|]];
      cbn [orb]; try discriminate; (destruct (N.eqb_spec a 2) as [->|]; [|discriminate]); (destruct v as [|b v]; [discriminate|]); intros H;
      injection H as H; apply N.eqb_eq in H; subst b; split; try reflexivity; eauto.
Qed.
Print Assumptions C31_ordered.

(** Once the version is known, no later question runs the command again or changes the answer. *)
Theorem C31_asked_once out w p w' questions : get_version out w = (Ok p, w') ->
  fold_left (fun w q => ask out q w) questions w' = w' /\ get_version out w' = (Ok p, w').
Proof.
  intros H. split; [|eapply get_version_twice; eauto]. assert (K := known_after _ _ _ _ H).
  assert (A : forall q, ask out q w' = w').
  { assert (AP : snd (is_apptainer_1_or_newer out w') = w').
    { unfold is_apptainer_1_or_newer, mbind. rewrite (get_version_known _ _ _ _ K). cbn [fst snd].
      destruct (negb (String.eqb (snd p) "apptainer")); auto. unfold at_. destruct (nth_error _ _); auto. }
    assert (B : forall k : bool -> M bool, (forall b, snd (k b w') = w') -> snd (mbind (is_apptainer_1_or_newer out) k w') = w').
    { intros k Hk. unfold mbind. destruct (is_apptainer_1_or_newer out w') as [[b|] w1]; cbn in AP; subst; auto. }
    intros []; cbn [ask]; auto.
    - rewrite (get_version_known _ _ _ _ K). auto.
    - unfold is_version_2_6, mbind. rewrite (get_version_known _ _ _ _ K). cbn [fst snd]. destruct (_ && _); auto. unfold at_.
      destruct (fst p) as [|x [|y l]]; cbn; auto; repeat (match goal with |- context [if ?b then _ else _] => destruct b end; cbn; auto).
    - apply B. intros []; auto. unfold mbind. rewrite (get_version_known _ _ _ _ K). unfold at_. cbn [fst].
      destruct (fst p) as [|x [|y l]]; cbn; auto; repeat (match goal with |- context [if ?b then _ else _] => destruct b end; cbn; auto).
    - apply B. intros []; auto. unfold mbind. rewrite (get_version_known _ _ _ _ K). unfold at_. cbn [fst].
      destruct (fst p) as [|x [|y l]]; cbn; auto; repeat (match goal with |- context [if ?b then _ else _] => destruct b end; cbn; auto).
    - apply B. intros []; auto. unfold mbind. rewrite (get_version_known _ _ _ _ K). unfold at_. cbn [fst].
      destruct (fst p) as [|x [|y l]]; cbn; auto; repeat (match goal with |- context [if ?b then _ else _] => destruct b end; cbn; auto). }
  induction questions as [|q qs IH]; cbn; auto. rewrite A. auto.
Qed.
Print Assumptions C31_asked_once.
Example C31_asked_once_nonvacuous : let w := World [] [] None "" 0 in
  fst (get_version (fun n => if Nat.eqb n 0 then Ok ce_text else Err OSErrorE) w) = Ok ([3%N; 10%N; 2%N], "singularity-ce").
Proof. vm_compute. reflexivity. Qed.

(** A version of a single number makes the later tests fail instead of answering. *)
Theorem C31_single_number_refuted : exists text, Prints text "singularity" [3%N] /\
  forall w, version w = None ->
    fst (is_version_3_1_or_newer (fun _ => Ok text) w) = Err IndexError /\
    fst (is_version_3_or_newer (fun _ => Ok text) w) = Ok true.
Proof.
  exists ("singularity version 3" ++ String c_nl "")%string. split.
  - exists ["3"], "". repeat split; try discriminate.
    + repeat constructor. discriminate.
    + exists "s"%char, "ingularity". auto.
    + intros c r E. destruct r; discriminate.
  - intros w U. unfold is_version_3_1_or_newer, is_version_3_or_newer, is_apptainer_1_or_newer, mbind, get_version. rewrite U.
    vm_compute. auto.
Qed.
Print Assumptions C31_single_number_refuted.
