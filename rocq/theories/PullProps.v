(** * Property C30: where container images are saved *)
From Verif Require Import PyBase PyBaseProofs ImageModel ImageSpec ImageProofs EngineProofs ImageProps.
From Coq Require Import NArith Lia.

(** ** File names *)

(** With Singularity: the name depends on the reference and the version only, has no slash, and
    two references share it just when they differ in "/", ":" and "_" only.  References
    "path:tag" without underscore and port never do. *)
Theorem C30_singularity_names_partial out w r1 r2 n1 w1 : version w <> Some [] ->
  singularity_image_name out r1 w = (Ok n1, w1) ->
  exists n2, singularity_image_name out r2 w1 = (Ok n2, w1) /\ singularity_image_name out r1 w1 = (Ok n1, w1) /\
    has_char "/" n1 = false /\
    (n1 = n2 <-> SameUpToSeparators r1 r2) /\
    (Usual r1 -> Usual r2 -> n1 = n2 -> r1 = r2).
Proof.
  intros SA H. destruct (name_spec out r1 w _ _ SA H) as (_ & _ & _ & X). destruct (X _ eq_refl) as (v & f & s & K & NE & E & ->).
  exists (smap sep r2 ++ s)%string. rewrite !(name_known out _ _ _ _ K NE), E. split; auto. split; auto. split.
  { rewrite has_char_app, has_char_sep. destruct (ending_ext _ _ _ E) as [-> | ->]; reflexivity. }
  assert (I : (smap sep r1 ++ s)%string = (smap sep r2 ++ s)%string <-> SameUpToSeparators r1 r2).
  { rewrite <- smap_sep_same. split; [apply app_same_r|congruence]. }
  split; auto. intros (p1 & t1 & -> & A1 & A2 & A3 & A4 & A5) (p2 & t2 & -> & B1 & B2 & B3 & B4 & B5) Q.
  apply I in Q. apply smap_sep_same in Q. destruct (usual_inj_path p1 p2) with (t1 := t1) (t2 := t2); auto. subst. auto.
Qed.
Print Assumptions C30_singularity_names_partial.

(** With Docker: no slash; two references share the name just when, their slashes removed, they
    differ in ":" and "_" only. *)
Definition colon_or_underscore (c : ascii) : Prop := c = ":"%char \/ c = "_"%char.
Definition not_slash (c : ascii) : bool := negb (Ascii.eqb c "/").
Definition docker_stem (r : string) := replace_char ":" "_" (replace_char "/" "" r).
Lemma docker_name_stem r : docker_image_name r = (docker_stem r ++ ".tar")%string.
Proof. unfold docker_image_name, docker_stem. rewrite join_split_slash, replace_char_app. reflexivity. Qed.
Lemma docker_stem_list r : docker_stem r =
  string_of_list_ascii (map (fun c => if Ascii.eqb c ":" then "_"%char else c) (filter not_slash (list_ascii_of_string r))).
Proof.
  unfold docker_stem, not_slash. induction r as [|c r IH]; auto. cbn [replace_char list_ascii_of_string filter].
  destruct (Ascii.eqb_spec c "/") as [->|N]; cbn [negb append]; auto. cbn [replace_char map string_of_list_ascii].
  destruct (Ascii.eqb c ":"); cbn [append]; rewrite IH; auto.
Qed.
Lemma string_of_list_inj a b : string_of_list_ascii a = string_of_list_ascii b -> a = b.
Proof. intros H. apply (f_equal list_ascii_of_string) in H. rewrite !list_ascii_of_string_of_list_ascii in H. auto. Qed.

Theorem C30_docker_names_partial r1 r2 :
  has_char "/" (docker_image_name r1) = false /\
  (docker_image_name r1 = docker_image_name r2 <->
   Forall2 (fun c d => c = d \/ colon_or_underscore c /\ colon_or_underscore d)
     (filter not_slash (list_ascii_of_string r1)) (filter not_slash (list_ascii_of_string r2))).
Proof.
  split.
  - rewrite docker_name_stem, has_char_app. unfold docker_stem. rewrite has_char_replace_other; auto. apply has_char_replace_same. auto.
  - rewrite !docker_name_stem, !docker_stem_list. split.
    + intros H. apply app_same_r, string_of_list_inj in H. revert H. generalize (filter not_slash (list_ascii_of_string r2)).
      induction (filter not_slash (list_ascii_of_string r1)) as [|c l IH]; intros [|d m] H; try discriminate; constructor; auto.
      * cbn in H. injection H as H _. unfold colon_or_underscore. destruct (Ascii.eqb_spec c ":"), (Ascii.eqb_spec d ":"); subst; auto.
      * apply IH. cbn in H. injection H as _ H. auto.
    + intros F. do 2 f_equal. induction F as [|c d l m H F IH]; auto. cbn [map]. rewrite IH. f_equal.
      unfold colon_or_underscore in H. destruct H as [->|[[->| ->] [->| ->]]]; auto.
Qed.
Print Assumptions C30_docker_names_partial.

(** Different images do share files. *)
Theorem C30_names_clash_refuted :
  (exists r1 r2, r1 <> r2 /\ Usual r1 /\ Usual r2 /\ docker_image_name r1 = docker_image_name r2) /\
  (exists r1 r2, r1 <> r2 /\ forall out w, singularity_image_name out r1 w = singularity_image_name out r2 w).
Proof.
  split.
  - exists "bio/tool:1", "biotool:1". split; [discriminate|]. split; [exists "bio/tool", "1"|split; [exists "biotool", "1"|]]; repeat split.
  - exists "bio/tool:1", "bio_tool:1". split; [discriminate|]. intros. reflexivity.
Qed.
Print Assumptions C30_names_clash_refuted.

(** ** Pulling *)

(** Singularity: an image whose file exists is not pulled again. *)
Theorem C30_singularity_cached out engine req d cmd w name w1 : version w <> Some [] ->
  singularity_image_name out req w = (Ok name, w1) -> In (d ++ "/" ++ name)%string (files w) ->
  exists w', singularity_save out engine req (Some d) cmd false w = (Ok tt, w') /\ commands w' = commands w /\ files w' = files w.
Proof.
  intros SA H I. unfold singularity_save, mbind. rewrite H. destruct (name_spec out req w _ _ SA H) as (_ & F & C & _).
  apply smem_In in I. unfold join_path. rewrite F, I. cbn [andb negb]. eauto.
Qed.
Print Assumptions C30_singularity_cached.

(** Singularity: an image whose file does not exist, or whose pull is forced, is pulled, with one
    command, into that file; it is a success just when the command is. *)
Theorem C30_singularity_pulled out engine req d cmd (force : bool) w name w1 : version w <> Some [] ->
  singularity_image_name out req w = (Ok name, w1) -> force = true \/ ~ In (d ++ "/" ++ name)%string (files w) ->
  let argv := if force then [cmd; "pull"; "--force"; "--name"; (d ++ "/" ++ name)%string; ("docker://" ++ req)%string]
              else [cmd; "pull"; "--name"; (d ++ "/" ++ name)%string; ("docker://" ++ req)%string] in
  exists r w', singularity_save out engine req (Some d) cmd force w = (r, w') /\
    commands w' = commands w ++ [argv] /\ files w' = snd (engine w1 argv) /\
    r = match fst (engine w1 argv) with None => Ok tt | Some e => Err e end.
Proof.
  intros SA H I argv. unfold singularity_save, mbind at 1. rewrite H. destruct (name_spec out req w _ _ SA H) as (SA1 & F & C & X).
  destruct (X _ eq_refl) as (v & f & s & K & NE & E & ->).
  assert (Z : smem (join_path d (smap sep req ++ s)) (files w1) && negb force = false).
  { destruct I as [->|I]; [apply andb_false_r|]. destruct (smem _ _) eqn:M; auto. apply smem_In in M. rewrite F in M. contradiction. }
  rewrite Z. unfold mbind, run_command.
  replace ([cmd; "pull"] ++ (if force then ["--force"] else []) ++ ["--name"; join_path d (smap sep req ++ s); ("docker://" ++ req)%string])
    with argv by (unfold argv, join_path; destruct force; reflexivity).
  destruct (fst (engine w1 argv)) as [e|] eqn:EE; cbn [fst].
  - do 2 eexists. split; [reflexivity|]. cbn. rewrite C. auto.
  - set (w2 := World _ _ _ _ _). assert (K2 : known w2 v f) by exact K. rewrite (name_known out _ _ _ _ K2 NE), E.
    do 2 eexists. split; [reflexivity|]. cbn. rewrite C. auto.
Qed.
Print Assumptions C30_singularity_pulled.

Definition ce_world := World ["/imgs/debian_8.sif"] [] None "" 0.
Example C30_singularity_nonvacuous : version ce_world <> Some [] /\
  fst (singularity_image_name (fun _ => Ok ce_text) "debian:8" ce_world) = Ok "debian_8.sif" /\
  In ("/imgs" ++ "/" ++ "debian_8.sif")%string (files ce_world) /\
  fst (singularity_image_name (fun _ => Ok ce_text) "debian:9" ce_world) = Ok "debian_9.sif" /\
  ~ In ("/imgs" ++ "/" ++ "debian_9.sif")%string (files ce_world) /\ Usual "quay.io/bio/debian:8".
Proof.
  split; [discriminate|]. split; [vm_compute; reflexivity|]. split; [left; reflexivity|]. split; [vm_compute; reflexivity|].
  split; [intros [H|[]]; discriminate|]. exists "quay.io/bio/debian", "8". repeat split.
Qed.

(** Docker: one pull, and with a directory one save into the file named after the reference;
    an old file is replaced. *)
Theorem C30_docker_saved engine req dir cmd force w w' : docker_save engine req dir cmd force w = (Ok tt, w') ->
  commands w' = commands w ++ [cmd; "pull"; req] ::
    match dir with None => [] | Some d => [[cmd; "save"; "-o"; (d ++ "/" ++ docker_image_name req)%string; req]] end.
Proof.
  unfold docker_save, mbind, run_command. destruct (fst (engine w [cmd; "pull"; req])); [discriminate|].
  destruct dir as [d|]; [|intros H; injection H as <-; reflexivity].
  set (w1 := World _ _ _ _ _).
  assert (Y : forall w2, commands w2 = commands w1 ->
    (let w3 := World (snd (engine w2 [cmd; "save"; "-o"; join_path d (docker_image_name req); req]))
        (commands w2 ++ [[cmd; "save"; "-o"; join_path d (docker_image_name req); req]]) (version w2) (flavor w2) (asked w2) in
     match fst (engine w2 [cmd; "save"; "-o"; join_path d (docker_image_name req); req]) with
     | Some e => (Err e, w3) | None => (Ok tt, w3) end) = (Ok tt, w') ->
    commands w' = commands w ++ [[cmd; "pull"; req]; [cmd; "save"; "-o"; (d ++ "/" ++ docker_image_name req)%string; req]]).
  { intros w2 C. cbv zeta. destruct (fst _); [discriminate|]. intros H. injection H as <-. cbn [commands]. rewrite C. unfold w1. cbn [commands].
    rewrite <- app_assoc. reflexivity. }
  destruct force.
  - destruct (smem _ _); [|discriminate]. apply Y. reflexivity.
  - apply Y. reflexivity.
Qed.
Print Assumptions C30_docker_saved.
Example C30_docker_saved_nonvacuous :
  exists w', docker_save (fun w _ => (None, files w)) "debian:8" (Some "/imgs") "docker" true (World ["/imgs/debian_8.tar"] [] None "" 0) = (Ok tt, w').
Proof. eexists. vm_compute. reflexivity. Qed.

(** With Docker an image that was saved before is always pulled again; and forcing the pull of an
    image that was not saved before fails after the pull, without saving it. *)
Theorem C30_docker_cache_refuted :
  (forall engine req dir cmd force w, exists rest,
     commands (snd (docker_save engine req dir cmd force w)) = commands w ++ [cmd; "pull"; req] :: rest) /\
  (forall engine req d cmd w, let argv := [cmd; "pull"; req] in
     fst (engine w argv) = None -> ~ In (d ++ "/" ++ docker_image_name req)%string (snd (engine w argv)) ->
     fst (docker_save engine req (Some d) cmd true w) = Err FileNotFoundError /\
     commands (snd (docker_save engine req (Some d) cmd true w)) = commands w ++ [argv]).
Proof.
  split.
  - intros. unfold docker_save, mbind, run_command. destruct (fst (engine w [cmd; "pull"; req])); [exists []; reflexivity|].
    destruct dir as [d|]; [|exists []; reflexivity].
    set (w1 := World _ _ _ _ _).
    assert (Y : forall w2, commands w2 = commands w1 -> exists rest, commands (snd (
      let w3 := World (snd (engine w2 [cmd; "save"; "-o"; join_path d (docker_image_name req); req]))
        (commands w2 ++ [[cmd; "save"; "-o"; join_path d (docker_image_name req); req]]) (version w2) (flavor w2) (asked w2) in
      match fst (engine w2 [cmd; "save"; "-o"; join_path d (docker_image_name req); req]) with
      | Some e => (@Err unit e, w3) | None => (Ok tt, w3) end)) = commands w ++ [cmd; "pull"; req] :: rest).
    { intros w2 C. cbv zeta. destruct (fst _); cbn [snd commands]; rewrite C; unfold w1; cbn [commands]; rewrite <- app_assoc; eexists; reflexivity. }
    destruct force.
    + destruct (smem _ _); [|exists []; reflexivity]. apply Y. reflexivity.
    + apply Y. reflexivity.
  - intros engine req d cmd w argv E N. unfold docker_save, mbind, run_command. fold argv. rewrite E. cbn [files].
    destruct (smem (join_path d (docker_image_name req)) (snd (engine w argv))) eqn:M; [apply smem_In in M; contradiction|].
    split; reflexivity.
Qed.
Print Assumptions C30_docker_cache_refuted.

(** ** The whole program *)

(** With Singularity and without forcing, no file is pulled twice in one run, however often its
    image occurs in the workflow. *)
Definition target_of (argv : list string) : string := nth 3 argv "".
Theorem C30_run_pulls_once out engine load fuel a w r w' : keeps_files engine -> version w <> Some [] -> commands w = [] ->
  a_singularity a = true -> a_force a = false ->
  docker_run out engine load fuel a w = (r, w') ->
  NoDup (map target_of (commands w')) /\
  Forall (fun argv => exists cmd url, argv = [cmd; "pull"; "--name"; target_of argv; url] /\ ~ In (target_of argv) (files w)) (commands w').
Proof.
  intros KF SA C0 SG FO. unfold docker_run. rewrite SG. destruct (a_dir a) as [d|] eqn:D.
  2:{ cbn. intros H. injection H as <- <-. rewrite C0. cbn. split; constructor. }
  cbn [andb]. destruct (load (a_input a)) as [top|e].
  2:{ intros H. injection H as <- <-. rewrite C0. cbn. split; constructor. }
  set (shape := fun argv => exists cmd url, argv = [cmd; "pull"; "--name"; target_of argv; url] /\ ~ In (target_of argv) (files w)).
  set (Weak := fun w1 => NoDup (map target_of (commands w1)) /\ Forall shape (commands w1)).
  set (Inv := fun w1 => Weak w1 /\ version w1 <> Some [] /\ incl (files w) (files w1) /\ forall argv, In argv (commands w1) -> In (target_of argv) (files w1)).
  assert (SAVE : forall s w1 r1 w2, Inv w1 -> save_image out engine a s w1 = (r1, w2) -> Weak w2 /\ (r1 = Ok tt -> Inv w2)).
  { intros s w1 r1 w2 [[N F] [S1 [IN K]]] H. unfold save_image in H. rewrite SG, FO, D in H.
    set (cmd := match a_engine a with Some c => c | None => "singularity" end) in H.
    destruct (singularity_image_name out s w1) as [[n|e] w1'] eqn:NM.
    2:{ unfold singularity_save, mbind in H. rewrite NM in H. injection H as <- <-.
        destruct (name_spec out _ _ _ _ S1 NM) as (A & B & C & _). unfold Weak. rewrite C. split; [split; auto|discriminate]. }
    destruct (name_spec out _ _ _ _ S1 NM) as (A & B & C & _).
    destruct (in_dec string_dec (d ++ "/" ++ n)%string (files w1)) as [I|I].
    - destruct (C30_singularity_cached out engine s d cmd w1 n w1' S1 NM I) as (w3 & E & EC & EF). 
      assert (w3 = w1').
      { unfold singularity_save, mbind in E. rewrite NM in E. apply smem_In in I. unfold join_path in E. rewrite B, I in E. cbn [andb negb] in E.
        injection E; auto. }
      subst w3. rewrite E in H. injection H as <- <-.
      unfold Inv, Weak. rewrite EC, EF. repeat split; auto.
    - destruct (C30_singularity_pulled out engine s d cmd false w1 n w1' S1 NM (or_intror I)) as (r3 & w3 & E & EC & EF & ER).
      cbv beta iota zeta in E, EC, EF, ER. 
      assert (SA3 : version w3 <> Some []).
      { unfold singularity_save, mbind in E. rewrite NM in E. destruct (smem _ _ && _) in E; [injection E; intros; subst; auto|].
        unfold run_command in E. set (ar := ([cmd; "pull"] ++ _)) in E. destruct (fst (engine w1' ar)); [injection E as _ <-; exact A|].
        set (w4 := World _ _ _ _ _) in E. destruct (singularity_image_name out s w4) as [q w5] eqn:NM2.
        destruct (name_spec out s w4 _ _ A NM2) as (A2 & _). destruct q; injection E as _ <-; exact A2. }
      rewrite E in H. injection H as <- <-.
      set (ar := [cmd; "pull"; "--name"; (d ++ "/" ++ n)%string; ("docker://" ++ s)%string]) in *.
      assert (WK : Weak w3).
      { unfold Weak. rewrite EC, map_app. cbn [map]. change (target_of ar) with (d ++ "/" ++ n)%string. split.
        - apply NoDup_app_intro; auto; [repeat constructor; intros []|]. intros x J [<-|[]]. apply in_map_iff in J. destruct J as (av & T & J).
          apply I. rewrite <- T. apply K. auto.
        - apply Forall_app. split; auto. constructor; [|constructor]. exists cmd, ("docker://" ++ s)%string. split; [reflexivity|].
          intros J. apply I. apply IN. exact J. }
      split; auto. intros ->. destruct (fst (engine w1' ar)) eqn:FE; [discriminate|].
      destruct (KF w1' ar) as [IC CR]. specialize (CR cmd _ _ eq_refl FE). rewrite B in IC.
      split; auto. split; auto. rewrite EF. split.
      + intros x J. apply IC. apply IN. auto.
      + intros av J. rewrite EC in J. apply in_app_iff in J. destruct J as [J|[<-|[]]]; [apply IC; apply K; auto|exact CR]. }
  assert (ALL : forall ended rs w1 r1 w2, Inv w1 -> pull_all out engine a rs ended w1 = (r1, w2) -> Weak w2).
  { intros ended rs. induction rs as [|x rs IH]; intros w1 r1 w2 IV H; cbn [pull_all] in H.
    - destruct ended; injection H as _ <-; apply IV.
    - unfold mbind in H at 1. destruct x as [[s|]| | |]; cbn [ret] in H; try (eapply IH; eauto; fail).
      destruct (String.eqb s ""); cbn [ret] in H; [eapply IH; eauto|].
      destruct (save_image out engine a s w1) as [[[]|e] w3] eqn:E; destruct (SAVE _ _ _ _ IV E) as [X Y].
      + exact (IH _ _ _ (Y eq_refl) H).
      + injection H as _ <-. auto. }
  intros H. unfold mbind in H. destruct (pull_all out engine a (fst (traverse load fuel top)) (snd (traverse load fuel top)) w) as [r1 w1] eqn:P.
  assert (X : Weak w1).
  { eapply ALL; eauto. unfold Inv, Weak. rewrite C0. cbn. repeat split; auto; try constructor; try contradiction. intros x; auto. }
  destruct r1; injection H as _ <-; exact X.
Qed.
Print Assumptions C30_run_pulls_once.
(** Singularity images must go to a directory: without one the program ends before it
    reads the workflow or runs anything; with one it gets as far as reading it. *)
Theorem C30_singularity_needs_a_directory out engine fuel a w : a_singularity a = true ->
  (a_dir a = None -> forall load, docker_run out engine load fuel a w = (Err SystemExitE, w)) /\
  (a_dir a <> None -> forall e, docker_run out engine (fun _ => Err e) fuel a w = (Err e, w)).
Proof. intros S. unfold docker_run. rewrite S. destruct (a_dir a); cbn [andb]; split; intros H; intros; try congruence; reflexivity. Qed.
Print Assumptions C30_singularity_needs_a_directory.

(** With Docker the run executes, for each requirement yielded that names an image, in order,
    one pull and (with a directory) one save, and returns the requirements. *)
Definition docker_commands (a : args) (r : entry) : list (list string) :=
  match r with
  | Docker (Some (String c s)) =>
      let req := String c s in
      let cmd := match a_engine a with Some c => c | None => "docker" end in
      [cmd; "pull"; req] ::
        match a_dir a with None => [] | Some d => [[cmd; "save"; "-o"; (d ++ "/" ++ docker_image_name req)%string; req]] end
  | _ => []
  end.
Theorem C30_run_docker out engine load fuel a w rs w' : a_singularity a = false ->
  docker_run out engine load fuel a w = (Ok rs, w') ->
  exists top, load (a_input a) = Ok top /\ traverse load fuel top = (rs, None) /\
    commands w' = commands w ++ flat_map (docker_commands a) rs.
Proof.
  intros SG. unfold docker_run. rewrite SG. cbn [andb]. destruct (load (a_input a)) as [top|]; [|discriminate].
  intros H. exists top. split; auto. destruct (traverse load fuel top) as [l o]. cbn [fst snd] in H. unfold mbind in H.
  destruct (pull_all out engine a l o w) as [[[]|] w1] eqn:P; [|discriminate]. injection H as -> ->.
  assert (X : forall l w, pull_all out engine a l o w = (Ok tt, w') -> o = None /\ commands w' = commands w ++ flat_map (docker_commands a) l).
  { clear P w. intros l. induction l as [|x l IH]; intros w H; cbn [pull_all] in H.
    - destruct o; [discriminate|]. injection H as <-. cbn. rewrite app_nil_r. auto.
    - unfold mbind in H at 1. cbn [flat_map].
      destruct x as [[[|c s]|]| | |]; cbn [ret String.eqb] in H; try (apply IH; auto; fail).
      unfold save_image in H. rewrite SG in H.
      destruct (docker_save engine (String c s) (a_dir a) _ (a_force a) w) as [[[]|] w2] eqn:S; [|discriminate].
      apply C30_docker_saved in S. destruct (IH _ H) as [-> Y]. split; auto. rewrite Y, S. cbn [docker_commands]. rewrite <- !app_assoc. reflexivity. }
  destruct (X _ _ P) as [-> Y]. auto.
Qed.
Print Assumptions C30_run_docker.

(** Where names clash the second image is silently replaced by the first. *)
Definition two_tools := Process true None None
  [Step None None (Inline (Process false (Some [Docker (Some "bio/tool:1")]) None []));
   Step None None (Inline (Process false (Some [Docker (Some "bio_tool:1")]) None []))].
Theorem C30_clash_serves_other_image_refuted :
  let engine := fun w argv => (None, files w ++ [target_of argv]) in
  keeps_files engine /\
  exists rs w', docker_run (fun _ => Ok ce_text) engine (fun _ => Ok two_tools) 3
      (Args "wf.cwl" (Some "imgs") true None false) (World [] [] None "" 0) = (Ok rs, w') /\
    rs = [Docker (Some "bio/tool:1"); Docker (Some "bio_tool:1")] /\
    commands w' = [["singularity"; "pull"; "--name"; "imgs/bio_tool_1.sif"; "docker://bio/tool:1"]].
Proof.
  cbv zeta. split.
  - intros w argv. cbn [fst snd]. split; [intros x I; apply in_app_iff; auto|]. intros cmd t u -> _. apply in_app_iff. right. left. reflexivity.
  - do 2 eexists. split; [vm_compute; reflexivity|]. split; reflexivity.
Qed.
Print Assumptions C30_clash_serves_other_image_refuted.

Example C30_run_docker_nonvacuous : exists w', docker_run (fun _ => Err OSErrorE) (fun w argv => (None, files w)) load_a 5
    (Args "a.cwl" (Some "imgs") false (Some "podman") false) (World [] [] None "" 0) = (Ok [Docker (Some "debian:latest")], w') /\
  commands w' = [["podman"; "pull"; "debian:latest"]; ["podman"; "save"; "-o"; "imgs/debian_latest.tar"; "debian:latest"]].
Proof. eexists. split; [vm_compute; reflexivity|reflexivity]. Qed.
