(** * C42: which engine is started *)
From Verif Require Import PyBase PyBaseProofs StartModel StartSpec StartProofs.
From Verif Require Import ParserSpec.
From Coq Require Import NArith Lia.

(** The version check, whatever has been run before: the versions are compared component by
    component, and a text that is no version is a ValueError. *)
Theorem C42_version : forall prints minimum_str minimum n s,
  Dotted minimum_str minimum ->
  (forall good, fst (check_js_threshold_version prints minimum_str n s) = inl good <->
     exists out v, prints (did s) [n; "-v"] = Printed out /\ Prints_version out v /\
       (good = true <-> at_least minimum v)) /\
  (fst (check_js_threshold_version prints minimum_str n s) = inr (P_error Value) <->
     prints (did s) [n; "-v"] = Undecodable \/
     exists out, prints (did s) [n; "-v"] = Printed out /\ forall v, ~ Prints_version out v).
Proof.
  intros prints minimum_str minimum n s M. apply Dotted_ints in M.
  unfold check_js_threshold_version, mbind, check_output. destruct (prints (did s) [n; "-v"]) as [out| | | |] eqn:P; cbn [of_answer fst].
  - unfold ints. rewrite M. destruct (mapM ParserModel.int_of (split_char "." (strip_v (strip out)))) as [v|e] eqn:E; cbn [ret raise fst].
    + unfold ret. cbn [fst]. apply Prints_version_ints in E. split.
      * intros good. split.
        -- intros H. injection H as <-. exists out, v. repeat split; auto; apply list_ge_spec.
        -- intros (out' & v' & Q & V & G). injection Q as <-. f_equal.
           assert (v' = v) as -> by (apply Prints_version_ints in V, E; congruence).
           rewrite <- list_ge_spec in G. destruct good, (list_ge v minimum); intuition congruence.
      * split; [discriminate|]. intros [X|(o & Q & X)]; [discriminate|]. injection Q as <-. exfalso. eapply X; eauto.
    + unfold raise. cbn [fst]. split.
      * intros good. split; [discriminate|]. intros (out' & v' & Q & V & _). injection Q as <-. apply Prints_version_ints in V. congruence.
      * split; auto. intros _. right. exists out. split; auto. intros v V. apply Prints_version_ints in V. congruence.
  - split; [|split; [discriminate|intros [?|(? & ? & _)]; discriminate]]. intros good. split; [discriminate|intros (? & ? & ? & _); discriminate].
  - split; [|split; [discriminate|intros [?|(? & ? & _)]; discriminate]]. intros good. split; [discriminate|intros (? & ? & ? & _); discriminate].
  - split; [|split; [discriminate|intros [?|(? & ? & _)]; discriminate]]. intros good. split; [discriminate|intros (? & ? & ? & _); discriminate].
  - split; [|split; auto]. intros good. split; [discriminate|intros (? & ? & ? & _); discriminate].
Qed.

(** The start-up, exactly: the first name of a working Node.js decides; a good version is used, an
    unreadable one is an error, and otherwise a container is tried; nothing at all is a
    JavascriptException.  The programs found may answer anything; files may appear when an image is
    pulled. *)
Theorem C42_start : forall prints starts files minimum_str minimum js cache cwd userns force engine s r,
  Dotted minimum_str minimum ->
  (have_node_slim s = true -> known_engine engine) ->
  fst (new_js_proc (fun _ => prints) (fun _ => starts) (fun h => files (pulled h)) cache cwd userns minimum_str
         js force engine s)
    = match r with inl c => inl c | inr e => inr (P_error e) end <->
  Start prints starts files minimum js cache cwd userns force engine (have_node_slim s) r.
Proof.
  intros. exact (start_exact prints starts files minimum_str minimum H js cache cwd userns force engine (have_node_slim s) r s H0 eq_refl).
Qed.

(** However the programs behave from one run to the next, what is returned runs the script with a
    local Node.js that has just shown a version that is good enough, or in a container; and it is a
    process that has been started. *)
Definition local_choice prints minimum js (c : command) (h : list event) : Prop :=
  exists n out v before, (n = "nodejs" \/ n = "node") /\ c = [n; "--eval"; js] /\
    h = Ran [n; "-v"] :: Started c :: Ran [n; "--eval"; "process.stdout.write('t')"] :: before /\
    prints before [n; "--eval"; "process.stdout.write('t')"] = Printed "t" /\
    prints (Started c :: Ran [n; "--eval"; "process.stdout.write('t')"] :: before) [n; "-v"] = Printed out /\
    Prints_version out v /\ at_least minimum v.
Definition container_choice userns js engine (c : command) (h : list event) : Prop :=
  exists i before, c = container_command userns js engine i /\ h = Started c :: before.
Lemma try_nodes_any prints starts minimum_str minimum js names d s r s' :
  Dotted minimum_str minimum -> (forall n, In n names -> n = "nodejs" \/ n = "node") ->
  try_nodes prints starts minimum_str js names d s = (inl r, s') -> snd r = true ->
  exists c, fst r = Some c /\ local_choice prints minimum js c (did s').
Proof.
  intros M. revert d s. induction names as [|n names IH]; intros d s N E G; cbn [try_nodes] in E.
  - unfold ret in E. injection E as <- <-. discriminate.
  - assert (N' : forall m, In m names -> m = "nodejs" \/ m = "node") by (intros; apply N; right; auto).
    unfold check_output at 1 in E. unfold probe in E.
    destruct (prints (did s) [n; "--eval"; "process.stdout.write('t')"]) as [t| | | |] eqn:P; cbn [of_answer] in E; eauto; [|discriminate].
    destruct (String.eqb_spec t "t") as [->|]; cbn [negb] in E; eauto.
    unfold popen in E at 1. cbn [did have_node_slim] in E.
    destruct (starts (Ran [n; "--eval"; "process.stdout.write('t')"] :: did s) [n; "--eval"; js]); eauto.
    unfold check_js_threshold_version, mbind, check_output in E. cbn [did have_node_slim] in E.
    match type of E with context [prints ?h [n; "-v"]] => destruct (prints h [n; "-v"]) as [out| | | |] eqn:V end; cbn [of_answer] in E; eauto; [|discriminate].
    unfold ints in E. apply Dotted_ints in M as M'. rewrite M' in E.
    destruct (mapM ParserModel.int_of (split_char "." (strip_v (strip out)))) as [v|] eqn:I; cbn [ret] in E; [|discriminate].
    unfold ret in E. injection E as <- <-. cbn [snd fst did] in *. exists [n; "--eval"; js]. split; auto.
    exists n, out, v, (did s). repeat split; auto; [apply N; left; auto|apply Prints_version_ints; auto|apply list_ge_spec; auto].
Qed.
Lemma try_container_any prints starts glob cache cwd userns js force engine s c s' :
  try_container prints starts glob cache cwd userns js force engine s = (inl (Some c), s') ->
  container_choice userns js engine c (did s').
Proof.
  unfold try_container, catch, mbind. destruct (prepare_image prints glob cache cwd force engine s) as [[i|p] s1].
  - unfold popen. destruct (starts (did s1) (container_command userns js engine i)); unfold ret, raise; intros H; try discriminate.
    injection H as <- <-. exists i, (did s1). auto.
  - destruct p; unfold ret, raise; discriminate.
Qed.
Theorem C42_any_world : forall prints starts glob minimum_str minimum js cache cwd userns force engine s c s',
  Dotted minimum_str minimum ->
  new_js_proc prints starts glob cache cwd userns minimum_str js force engine s = (inl c, s') ->
  local_choice prints minimum js c (did s') \/ container_choice userns js engine c (did s').
Proof.
  intros until s'. intros M E. unfold new_js_proc in E. unfold mbind at 1 in E.
  destruct (try_nodes prints starts minimum_str js ["nodejs"; "node"] None s) as [[[d good]|p] s1] eqn:T; [|discriminate].
  assert (L : good = true -> exists c, d = Some c /\ local_choice prints minimum js c (did s1)).
  { intros ->. apply (try_nodes_any _ _ _ _ _ _ _ _ _ _ M) in T; auto. intros n [<-|[<-|[]]]; auto. }
  destruct good.
  - destruct (L eq_refl) as (c' & -> & C). cbn in E. injection E as <- <-. auto.
  - replace (match d with Some _ => negb false | None => true end) with true in E by (destruct d; auto).
    unfold mbind in E. destruct (try_container prints starts glob cache cwd userns js force engine s1) as [[[c'|]|p] s2] eqn:TC; [| |discriminate].
    + cbn in E. injection E as <- <-. right. eapply try_container_any; eauto.
    + destruct d; discriminate.
Qed.

(** A world with this Node.js under each name, and nothing else *)
Definition machine (versions : list (string * string)) (c : command) : answer :=
  match c with
  | [n; "--eval"; _] => match dget n versions with Some _ => Printed "t" | None => Not_found end
  | [n; "-v"] => match dget n versions with Some v => Printed (v ++ String c_nl "") | None => Not_found end
  | _ => Not_found
  end.
Definition machine_starts (versions : list (string * string)) (c : command) : start_answer :=
  match c with n :: _ => match dget n versions with Some _ => Up | None => Start_not_found end | [] => Start_not_found end.
Definition start_on versions engine : command + problem :=
  fst (new_js_proc (fun _ => machine versions) (fun _ => machine_starts versions) (fun _ _ => []) None "/" false "0.10.26"
         "1+1" false engine (State [] false)).

Example C42_minimum : Dotted "0.10.26" [0; 10; 26]%N.
Proof. apply Dotted_ints. reflexivity. Qed.
(** Numbers are compared, not texts: 0.9 is before 0.10, and 4.2.6 and 0.10.26 are accepted. *)
Example C42_versions :
  start_on [("node", "v4.2.6")] "docker" = inl ["node"; "--eval"; "1+1"] /\
  start_on [("node", "v0.10.26")] "docker" = inl ["node"; "--eval"; "1+1"] /\
  start_on [("node", "v0.9.30")] "docker" = inr (P_error Js) /\
  start_on [] "docker" = inr (P_error Js) /\
  start_on [("nodejs", "v18.19.0"); ("node", "v20.1.0")] "docker" = inl ["nodejs"; "--eval"; "1+1"].
Proof. vm_compute. auto. Qed.

(** "when no local binary qualifies a container is tried, and an error is raised if neither is
    available" is false: one that qualifies is not used when an older one comes first... *)
Theorem C42_older_first_refuted : ~ (forall versions n v,
  In n ["nodejs"; "node"] -> has_version (machine versions) (machine_starts versions) "1+1" n v -> at_least [0; 10; 26]%N v ->
  exists c, start_on versions "docker" = inl c).
Proof.
  intros H. destruct (H [("nodejs", "v0.10.25"); ("node", "v18.19.0")] "node" [18; 19; 0]%N) as (c & E).
  - right. left. auto.
  - exists ("v18.19.0" ++ String c_nl "")%string. split; [repeat split; reflexivity|]. apply Prints_version_ints. reflexivity.
  - left. reflexivity.
  - vm_compute in E. discriminate.
Qed.
(** ... and the version of a nightly or pre-release build is an error of another kind, even when a
    container is available: *)
Definition with_docker (m : command -> answer) (c : command) : answer :=
  match c with "docker" :: _ => Printed ("1f3eab9cd2" ++ String c_nl "") | _ => m c end.
Definition docker_starts (m : command -> start_answer) (c : command) : start_answer :=
  match c with "docker" :: _ => Up | _ => m c end.
Definition start_with_docker versions : command + problem :=
  fst (new_js_proc (fun _ => with_docker (machine versions)) (fun _ => docker_starts (machine_starts versions)) (fun _ _ => []) None "/" false
         "0.10.26" "1+1" false "docker" (State [] false)).
Theorem C42_prerelease_refuted : ~ (forall versions,
  (exists c, start_with_docker versions = inl c) \/ start_with_docker versions = inr (P_error Js)).
Proof.
  intros H. destruct (H [("node", "v21.0.0-nightly20230801")]) as [[c E]|E]; vm_compute in E; discriminate.
Qed.
(** With a container, an old local version and none at all are both well. *)
Example C42_container :
  start_with_docker [("nodejs", "v0.10.25"); ("node", "v18.19.0")] = start_with_docker [] /\
  start_with_docker [] = inl ["docker"; "run"; "--attach=STDIN"; "--attach=STDOUT"; "--attach=STDERR"; "--sig-proxy=true";
    "--interactive"; "--rm"; "node:alpine"; "node"; "--eval"; "1+1"].
Proof. vm_compute. auto. Qed.
(** [C42_start] applies to these worlds: *)
Example C42_start_case : Start (with_docker (machine [])) (docker_starts (machine_starts [])) (fun _ _ => []) [0; 10; 26]%N "1+1" None "/" false
  false "docker" false (inl ["docker"; "run"; "--attach=STDIN"; "--attach=STDOUT"; "--attach=STDERR"; "--sig-proxy=true";
    "--interactive"; "--rm"; "node:alpine"; "node"; "--eval"; "1+1"]).
Proof.
  apply (C42_start (with_docker (machine [])) (docker_starts (machine_starts [])) (fun _ _ => []) "0.10.26" [0; 10; 26]%N "1+1" None "/" false
    false "docker" (State [] false) (inl _)).
  - exact C42_minimum.
  - intros _. left. reflexivity.
  - vm_compute. reflexivity.
Qed.
Print Assumptions C42_version.
Print Assumptions C42_start.
Print Assumptions C42_any_world.
Print Assumptions C42_older_first_refuted.
Print Assumptions C42_prerelease_refuted.
