(** * Model of src/cwl_utils/docker_extract.py, cite_extract.py, image_puller.py and singularity.py *)
From Verif Require Import PyBase.
From Coq Require Import NArith.

(** ** Processes as the parser hands them over *)

(** A package of a SoftwareRequirement (cite_extract.py lines 51-56) *)
Record package := Package { pk_name : string; pk_version : option (list string); pk_specs : option (list string) }.

(** An entry of [requirements] or [hints].  [isinstance] (docker_extract.py lines 109, 113,
    cite_extract.py lines 41, 45) tells loaded requirement objects apart; [Plain] is an entry
    the parser leaves as plain data, which no [isinstance] test accepts. *)
Inductive entry :=
| Docker (pull : option string)
| Software (packages : list package)
| Other (cls : string)
| Plain (j : json).

(** The part of a process docker_extract.py:105-135 and cite_extract.py look at: its class,
    requirements, hints and steps; of a step, its requirements, hints and [run] *)
Inductive process := Process (is_workflow : bool) (requirements hints : option (list entry)) (steps : list step)
with step := Step (requirements hints : option (list entry)) (runs : run)
with run := Uri (u : string) | Inline (p : process).

(** [isinstance(process, cwl.Workflow)] (docker_extract.py:117-121) *)
Definition p_workflow p := match p with Process w _ _ _ => w end.
(** [process.requirements] (docker_extract.py:105-114) *)
Definition p_requirements p := match p with Process _ r _ _ => r end.
(** [process.hints] (docker_extract.py:105-114) *)
Definition p_hints p := match p with Process _ _ h _ => h end.
(** [workflow.steps] (docker_extract.py:131-135) *)
Definition p_steps p := match p with Process _ _ _ s => s end.
(** [step.requirements] (docker_extract.py:105-114, 131-135) *)
Definition s_requirements s := match s with Step r _ _ => r end.
(** [step.hints] (docker_extract.py:105-114, 131-135) *)
Definition s_hints s := match s with Step _ h _ => h end.
(** [step.run] (docker_extract.py:124-128) *)
Definition s_run s := match s with Step _ _ r => r end.

(** How the three generated parsers load one entry of a list of requirements or hints: of a
    process, by class (parser/cwl_v1_2.py lines 13616, 13663, 22111, 22158); [hints] of a
    workflow step, by [Any_type], which keeps the data as it is (lines 21372 and 28823).
    Simplified: only the class and "dockerPull" of an entry matter here; an unknown class in
    [requirements] of the real parser is an error. *)
Definition load_entry (j : json) : entry :=
  match j with
  | JDict d =>
      match dget "class" d with
      | Some (JStr c) =>
          if String.eqb c "DockerRequirement"
          then Docker (match dget "dockerPull" d with Some (JStr s) => Some s | _ => None end)
          else if String.eqb c "SoftwareRequirement" then Software []
          else Other c
      | _ => Plain j
      end
  | _ => Plain j
  end.
Definition load_step_hint (j : json) : entry := Plain j.

(** A generator: the values it yields, in order, and the error that ends it, if any. *)
Definition gen (A : Type) := (list A * option exn)%type.
Definition gcat {A} (a : gen A) (b : gen A) : gen A :=
  match snd a with None => (fst a ++ fst b, snd b) | Some e => (fst a, Some e) end.
Definition yields {A} (l : list A) : gen A := (l, None).

(** [if xs: for x in xs] *)
Definition entries (l : option (list entry)) : list entry := match l with Some l => l | None => [] end.

Section Extract.
(** [cwl.load_document_by_uri] *)
Variable load : string -> result process.

(** ** docker_extract.py *)
Definition is_docker (e : entry) : bool := match e with Docker _ => true | _ => false end.

(** lines 105-114; used with processes and with steps *)
Definition extract_docker_reqs (requirements hints : option (list entry)) : list entry :=
  filter is_docker (entries requirements) ++ filter is_docker (entries hints).

(** lines 99-102, the body of the loop *)
Definition normalise (e : entry) : entry :=
  match e with
  | Docker (Some s) => if negb (has_char ":" s) then Docker (Some (s ++ ":latest")%string) else e
  | _ => e
  end.

(** lines 95-102 *)
Definition extract_docker_requirements (p : process) : list entry :=
  map normalise (extract_docker_reqs (p_requirements p) (p_hints p)).

(** lines 124-128 *)
Definition get_process_from_step (s : step) : result process :=
  match s_run s with Uri u => load u | Inline p => Ok p end.

(** lines 117-121 and 131-135.  The depth of nesting is not bounded in advance: [fuel] stands
    for it, and a workflow that runs itself for ever runs out of any fuel. *)
Fixpoint traverse (fuel : nat) (p : process) : gen entry :=
  match fuel with
  | O => ([], Some OutOfFuel)
  | S fuel =>
      gcat (yields (extract_docker_requirements p))
        (if p_workflow p then
           fold_right (fun s rest =>
             gcat (yields (extract_docker_reqs (s_requirements s) (s_hints s)))
               (gcat (match get_process_from_step s with
                      | Ok q => traverse fuel q
                      | Err e => ([], Some e)
                      end) rest)) (yields []) (p_steps p)
         else yields [])
  end.

(** ** cite_extract.py *)
Definition is_software (e : entry) : bool := match e with Software _ => true | _ => false end.

(** lines 35-46 *)
Definition extract_software_reqs (requirements hints : option (list entry)) : list entry :=
  filter is_software (entries requirements) ++ filter is_software (entries hints).

(** lines 59-63 and 73-77 *)
Fixpoint cite_traverse (fuel : nat) (p : process) : gen entry :=
  match fuel with
  | O => ([], Some OutOfFuel)
  | S fuel =>
      gcat (yields (extract_software_reqs (p_requirements p) (p_hints p)))
        (if p_workflow p then
           fold_right (fun s rest =>
             gcat (yields (extract_software_reqs (s_requirements s) (s_hints s)))
               (gcat (match get_process_from_step s with
                      | Ok q => cite_traverse fuel q
                      | Err e => ([], Some e)
                      end) rest)) (yields []) (p_steps p)
         else yields [])
  end.

(** lines 49-56; [show] is Python's text of a list of strings or None *)
Variable show : option (list string) -> string.
Definition package_line (p : package) : string :=
  ("Package: " ++ pk_name p ++ ", version: " ++ show (pk_version p) ++ ", specs: " ++ show (pk_specs p))%string.
Definition process_software_requirement (e : entry) : list string :=
  match e with Software ps => map package_line ps | _ => [] end.

(** lines 23-27: what is printed, and the error that ends the program, if any *)
Definition cite_run (fuel : nat) (input : string) : list string * option exn :=
  match load input with
  | Err e => ([], Some e)
  | Ok top => let g := cite_traverse fuel top in (flat_map process_software_requirement (fst g), snd g)
  end.
End Extract.

(** ** singularity.py *)

(** What the programs below see and change.  [files]: the paths that exist; [commands]: the
    argument lists of the container engine's runs so far, oldest first; [version]: lines
    12 and 15, the cached version and flavor; [asked]: how often the version command ran. *)
Record world := World {
  files : list string;
  commands : list (list string);
  version : option (list N);
  flavor : string;
  asked : nat }.

(** A program: its result and the world it leaves *)
Definition M (A : Type) := world -> result A * world.
Definition ret {A} (a : A) : M A := fun w => (Ok a, w).
Definition throw {A} (e : exn) : M A := fun w => (Err e, w).
Definition mbind {A B} (m : M A) (f : A -> M B) : M B :=
  fun w => match m w with (Ok a, w') => f a w' | (Err e, w') => (Err e, w') end.
Notation "'let!' x := m 'in' k" := (mbind m (fun x => k)) (at level 100, x name, right associativity).

(** [0-9\.] of the pattern in singularity.py:34 *)
Definition is_version_char (c : ascii) : bool := is_digit c || Ascii.eqb c ".".
(** the longest run for [0-9\.]+ of the pattern in singularity.py:34 *)
Fixpoint take_while (f : ascii -> bool) (s : string) : string :=
  match s with String c s' => if f c then String c (take_while f s') else "" | "" => "" end.

(** [re.match(r"(.+) version ([0-9\.]+)", s)] (line 34): the first group is as long as
    possible, is not empty and has no newline; [before] is the text already passed. *)
Fixpoint version_match (before s : string) : option (string * string) :=
  match s with
  | "" => None
  | String c s' =>
      let here :=
        if negb (String.eqb before "") && startswith " version " s then
          match take_while is_version_char (sdrop 9 s) with "" => None | v => Some (before, v) end
        else None in
      if Ascii.eqb c c_nl then here
      else match version_match (before ++ String c "")%string s' with Some r => Some r | None => here end
  end.

(** [int(i)] of a text of digits (line 39) *)
Definition digit (c : ascii) : N := (N_of_ascii c - 48)%N.
Fixpoint int_acc (acc : N) (s : string) : N :=
  match s with "" => acc | String c s' => int_acc (10 * acc + digit c)%N s' end.
Definition int_of (s : string) : result N := if String.eqb s "" then Err ValueError else Ok (int_acc 0 s).

Section Engines.
(** The text printed by the n-th run of [singularity --version], or the error of running it *)
Variable version_output : nat -> result string.

(** lines 18-45 *)
Definition get_version : M (list N * string) := fun w =>
  match version w with
  | Some v => (Ok (v, flavor w), w)
  | None =>
      let w1 := World (files w) (commands w) None (flavor w) (S (asked w)) in
      match version_output (asked w) with
      | Err e => (Err e, w1)
      | Ok out =>
          match version_match "" (strip out) with
          | None => (Err RuntimeError, w1)
          | Some (f, vs) =>
              match mapM int_of (split_char "." vs) with
              | Err e => (Err e, w1)
              | Ok v => (Ok (v, f), World (files w) (commands w) (Some v) f (S (asked w)))
              end
          end
      end
  end.

(** [v[i]] *)
Definition at_ (v : list N) (i : nat) : M N := match nth_error v i with Some n => ret n | None => throw IndexError end.

(** lines 48-58 *)
Definition is_apptainer_1_or_newer : M bool :=
  let! v := get_version in
  if negb (String.eqb (snd v) "apptainer") then ret false
  else let! a := at_ (fst v) 0 in ret (N.leb 1 a).

(** lines 61-70 *)
Definition is_version_2_6 : M bool :=
  let! v := get_version in
  if negb (String.eqb (snd v) "singularity") && negb (String.eqb (snd v) "singularity-ce") then ret false
  else let! a := at_ (fst v) 0 in
       if N.eqb a 2 then let! b := at_ (fst v) 1 in ret (N.eqb b 6) else ret false.

(** lines 73-78 *)
Definition is_version_3_or_newer : M bool :=
  let! b := is_apptainer_1_or_newer in
  if (b : bool) then ret true
  else let! v := get_version in let! a := at_ (fst v) 0 in ret (N.leb 3 a).

(** lines 81-86 *)
Definition is_version_3_1_or_newer : M bool :=
  let! b := is_apptainer_1_or_newer in
  if (b : bool) then ret true
  else let! v := get_version in
       let! a := at_ (fst v) 0 in
       if N.leb 4 a then ret true
       else if N.eqb a 3 then let! m := at_ (fst v) 1 in ret (N.leb 1 m) else ret false.

(** lines 89-94 *)
Definition is_version_3_4_or_newer : M bool :=
  let! b := is_apptainer_1_or_newer in
  if (b : bool) then ret true
  else let! v := get_version in
       let! a := at_ (fst v) 0 in
       if N.leb 4 a then ret true
       else if N.eqb a 3 then let! m := at_ (fst v) 1 in ret (N.leb 4 m) else ret false.

(** ** image_puller.py *)

(** One run of the container engine: its error, if any, and the files that exist afterwards.
    It may depend on everything that happened before. *)
Variable engine : world -> list string -> option exn * list string.

(** image_puller.py:39-48: the command is run and recorded; its failure is the error raised *)
Definition run_command (argv : list string) : M unit := fun w =>
  let r := engine w argv in
  let w' := World (snd r) (commands w ++ [argv]) (version w) (flavor w) (asked w) in
  match fst r with Some e => (Err e, w') | None => (Ok tt, w') end.

(** [Path(d, n)] as text, for a directory [d] written in normal form and a plain name [n] *)
Definition join_path (d n : string) : string := (d ++ "/" ++ n)%string.

(** lines 54-58; joining the parts between slashes with "" *)
Definition docker_image_name (req : string) : string :=
  replace_char ":" "_" (sjoin "" (split_char "/" req) ++ ".tar")%string.

(** lines 64-83.  [dir = Some d] with a non-empty [d], or None.  The log and the printed hint
    are left out. *)
Definition docker_save (req : string) (dir : option string) (cmd : string) (force : bool) : M unit :=
  let! _ := run_command [cmd; "pull"; req] in
  match dir with
  | None => ret tt
  | Some d =>
      let dest := join_path d (docker_image_name req) in
      let! _ := (if force then
                   fun w => if smem dest (files w)
                            then (Ok tt, World (filter (fun f => negb (String.eqb f dest)) (files w)) (commands w)
                                               (version w) (flavor w) (asked w))
                            else (Err FileNotFoundError, w)
                 else ret tt) in
      run_command [cmd; "save"; "-o"; dest; req]
  end.

(** lines 92-105 *)
Definition singularity_image_name (req : string) : M string :=
  let image_name := replace_char ":" "_" (replace_char "/" "_" req) in
  let! a := is_version_2_6 in
  if (a : bool) then ret (image_name ++ ".img")%string
  else let! b := is_version_3_or_newer in
       if (b : bool) then ret (image_name ++ ".sif")%string
       else let! _ := get_version in throw GenericException.

(** lines 107-133; without a directory line 112 fails on an unset variable *)
Definition singularity_save (req : string) (dir : option string) (cmd : string) (force : bool) : M unit :=
  match dir with
  | None => throw GenericException
  | Some d =>
      let! n := singularity_image_name req in
      let target := join_path d n in
      fun w =>
        if smem target (files w) && negb force then (Ok tt, w)
        else (let! _ := run_command ([cmd; "pull"] ++ (if force then ["--force"] else [])
                                     ++ ["--name"; target; ("docker://" ++ req)%string]) in
              let! _ := singularity_image_name req in ret tt) w
  end.

(** ** docker_extract.py, lines 47-92 *)
Record args := Args { a_input : string; a_dir : option string; a_singularity : bool;
                      a_engine : option string; a_force : bool }.

(** lines 69-91 *)
Definition save_image (a : args) (pull : string) : M unit :=
  if a_singularity a
  then singularity_save pull (a_dir a) (match a_engine a with Some c => c | None => "singularity" end) (a_force a)
  else docker_save pull (a_dir a) (match a_engine a with Some c => c | None => "docker" end) (a_force a).

(** lines 59-92: the requirements yielded so far are [done]; those without a "dockerPull"
    (or with an empty one) are only reported. *)
Fixpoint pull_all (a : args) (rs : list entry) (ended : option exn) : M unit :=
  match rs with
  | [] => match ended with Some e => throw e | None => ret tt end
  | r :: rs =>
      let! _ := (match r with
                 | Docker (Some s) => if String.eqb s "" then ret tt else save_image a s
                 | _ => ret tt
                 end) in
      pull_all a rs ended
  end.

(** lines 47-92.  Creating the directory (line 54) is left out: it concerns no file that the
    rest of the program looks at. *)
Definition docker_run (load : string -> result process) (fuel : nat) (a : args) : M (list entry) :=
  if a_singularity a && (match a_dir a with None => true | Some _ => false end) then throw SystemExitE
  else match load (a_input a) with
       | Err e => throw e
       | Ok top =>
           let g := traverse load fuel top in
           let! _ := pull_all a (fst g) (snd g) in ret (fst g)
       end.
End Engines.
