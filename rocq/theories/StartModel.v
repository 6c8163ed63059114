(** * Model of how the Node.js engine starts a process: src/cwl_utils/sandboxjs.py lines 99-108,
      140-157 and 279-470 *)
From Verif Require Import PyBase.
From Verif Require ParserModel.
From Coq Require Import NArith.

(** the argument list of [subprocess.Popen] (sandboxjs.py:279-470) *)
Definition command := list string.

(** What running a program can give: its output, a non-zero exit status (CalledProcessError), an
    OSError, with errno ENOENT or another one, or output that is not text (UnicodeDecodeError, a
    ValueError). *)
Inductive answer := Printed (s : string) | Exit_status | Not_found | Os_error | Undecodable.

(** What starting a process can give: a process, or an OSError with errno ENOENT or another one *)
Inductive start_answer := Up | Start_not_found | Start_os_error.

(** The errors that leave new_js_proc.  [Js] is JavascriptException; [Unknown] the Exception of
    line 354. *)
Inductive error := Js | Value | Os | Unknown.
Inductive problem := P_called | P_enoent | P_os | P_error (e : error).

(** What has been done so far: programs run to their end, and processes started *)
Inductive event := Ran (c : command) | Started (c : command).

Section Start.
(** The world: what a program prints, and whether a process can be started, which may depend on
    what has been done before; the files that match a pattern; the environment *)
Variable prints : list event -> command -> answer.
Variable starts : list event -> command -> start_answer.
Variable glob : list event -> string -> list string.
Variable singularity_cache : option string.
Variable cwd : string.
(** singularity_supports_userns(): modelled in ImageModel; here its answer *)
Variable supports_userns : bool.
(** [self.minimum_node_version_str] *)
Variable minimum_node_version_str : string.

(** The state: what has been done, latest first, and [self.have_node_slim] *)
Record state := State { did : list event; have_node_slim : bool }.
Definition M (A : Type) := state -> (A + problem) * state.
Definition ret {A} (a : A) : M A := fun s => (inl a, s).
Definition raise {A} (p : problem) : M A := fun s => (inr p, s).
Definition mbind {A B} (m : M A) (f : A -> M B) : M B := fun s =>
  match m s with (inl a, s') => f a s' | (inr p, s') => (inr p, s') end.
(** [try: m except ...: f] *)
Definition catch {A} (m : M A) (f : problem -> M A) : M A := fun s =>
  match m s with (inl a, s') => (inl a, s') | (inr p, s') => f p s' end.
Definition of_answer (a : answer) : string + problem :=
  match a with Printed s => inl s | Exit_status => inr P_called | Not_found => inr P_enoent | Os_error => inr P_os
  | Undecodable => inr (P_error Value) end.

(** [subprocess.check_output(c, text=True)] *)
Definition check_output (c : command) : M string := fun s =>
  (of_answer (prints (did s) c), State (Ran c :: did s) (have_node_slim s)).
(** [subprocess.Popen(c, ...)], and [processes_to_kill.append]; a process is known by its command *)
Definition popen (c : command) : M command := fun s =>
  match starts (did s) c with
  | Up => (inl c, State (Started c :: did s) (have_node_slim s))
  | Start_not_found => (inr P_enoent, s)
  | Start_os_error => (inr P_os, s)
  end.
Definition glob_glob (p : string) : M (list string) := fun s => (inl (glob (did s) p), s).

(** [s.strip("v")] *)
Definition strip_v (s : string) : string := srev (lstrip_char "v" (srev (lstrip_char "v" s))).

(** [int(v) for v in s.split(".")].  Simplified: [int] takes decimal digits only. *)
Definition ints (s : string) : M (list N) :=
  match mapM ParserModel.int_of (split_char "." s) with Ok l => ret l | Err _ => raise (P_error Value) end.

(** [a >= b] for lists of integers *)
Fixpoint list_ge (a b : list N) : bool :=
  match a, b with
  | _, [] => true
  | [], _ :: _ => false
  | x :: a', y :: b' => if N.eqb x y then list_ge a' b' else N.ltb y x
  end.

(** lines 140-157 *)
Definition check_js_threshold_version (working_alias : string) : M bool :=
  mbind (check_output [working_alias; "-v"]) (fun out =>
  mbind (ints (strip_v (strip out))) (fun current =>
  mbind (ints minimum_node_version_str) (fun minimum =>
  ret (list_ge current minimum)))).

Section New.
Variable js_text : string.

(** lines 289-311: the loop over the names of Node.js.  Its result: the process, if one was
    started, and whether its version is good enough.  In one turn, [None] is [continue]. *)
Definition probe := ["--eval"; "process.stdout.write('t')"].
Fixpoint try_nodes (names : list string) (nodejs : option command) : M (option command * bool) :=
  match names with
  | [] => ret (nodejs, false)
  | n :: names' => fun s =>
      match check_output (n :: probe) s with
      | (inr p, s1) => match p with P_error _ => (inr p, s1) | _ => try_nodes names' nodejs s1 end
      | (inl out, s1) =>
          if negb (String.eqb out "t") then try_nodes names' nodejs s1
          else
            match popen [n; "--eval"; js_text] s1 with
            | (inr p, s2) => match p with P_error _ => (inr p, s2) | _ => try_nodes names' nodejs s2 end
            | (inl proc, s2) =>
                match check_js_threshold_version n s2 with
                | (inl good, s3) => (inl (Some proc, good), s3)
                | (inr p, s3) => match p with P_error _ => (inr p, s3) | _ => try_nodes names' (Some proc) s3 end
                end
            end
      end
  end.

Variable force_docker_pull : bool.
Variable container_engine : string.

(** lines 315-319 *)
Definition node_image : string :=
  if String.eqb container_engine "singularity" then "docker://docker.io/node:alpine"
  else if String.eqb container_engine "podman" || String.eqb container_engine "udocker" then "docker.io/library/node:alpine"
  else "node:alpine".

(** [re.search(re.escape(nodeimg), text)] gives the image or nothing *)
Definition find_image (text : string) : string := if contains node_image text then node_image else "".

(** the directory of lines 331-338 and 370-372, used for singularity only *)
Definition image_dir : string :=
  match singularity_cache with Some c => if String.eqb c "" then cwd else c | None => cwd end.

(** lines 364-388: pulling the image *)
Definition pull_image (image : string) (need_singularity : bool) : M unit :=
  let commands := [container_engine; "pull"] ++ (if force_docker_pull then ["--force"] else []) ++ [image] in
  catch (mbind (check_output commands) (fun _ => ret tt))
        (fun p => match p with
                  | P_error _ => raise p
                  | _ => if need_singularity
                         then mbind (glob_glob (image_dir ++ "/node_alpine.sif")) (fun l =>
                                match l with [] => raise p | _ => ret tt end)
                         else raise p
                  end).

(** lines 321-389: the image to use.  [len(dockerimgs.split("\n")) <= 1] *)
Definition prepare_image : M string := fun s =>
  if have_node_slim s then (inl node_image, s)
  else
    mbind
      (if String.eqb container_engine "docker" || String.eqb container_engine "podman"
       then mbind (check_output [container_engine; "images"; "-q"; node_image]) (fun imgs =>
              ret (node_image, negb (has_char c_nl imgs), false))
       else if String.eqb container_engine "singularity"
       then mbind (glob_glob (image_dir ++ "/node_alpine.sif")) (fun imgs =>
              ret (match imgs with [] => node_image | i :: _ => i end, match imgs with [] => true | _ => false end,
                   match imgs with [] => true | _ => false end))
       else if String.eqb container_engine "udocker"
       then mbind (check_output [container_engine; "images"]) (fun text =>
              ret (node_image, negb (has_char c_nl (find_image text)), false))
       else raise (P_error Unknown))
      (fun x => let '(image, needed, need_singularity) := x in
         mbind (if needed || force_docker_pull then pull_image image need_singularity else ret tt) (fun _ =>
         fun s' => (inl image, State (did s') true))) s.

(** lines 390-432 *)
Definition container_command (image : string) : command :=
  [container_engine]
  ++ (if negb (String.eqb container_engine "singularity") && negb (contains "udocker" container_engine)
      then ["run"; "--attach=STDIN"; "--attach=STDOUT"; "--attach=STDERR"; "--sig-proxy=true"; "--interactive"; "--rm"]
      else if contains "singularity" container_engine
      then ["exec"; "--contain"; "--ipc"; "--cleanenv"; if supports_userns then "--userns" else "--pid"]
      else if contains "udocker" container_engine
      then ["run"; "--device=/dev/stdin"; "--device=/dev/stdout"; "--device=/dev/stderr"]
      else [])
  ++ [image; "node"; "--eval"; js_text].

(** lines 314-449; [None] if no container can be had *)
Definition try_container : M (option command) :=
  catch (mbind prepare_image (fun image => mbind (popen (container_command image)) (fun c => ret (Some c))))
        (fun p => match p with
                  | P_enoent | P_called => ret None
                  | P_os => raise (P_error Os)
                  | P_error _ => raise p
                  end).

(** lines 279-470 *)
Definition new_js_proc : M command :=
  mbind (try_nodes ["nodejs"; "node"] None) (fun x =>
  let '(nodejs, required_node_version) := x in
  mbind (if match nodejs with None => true | Some _ => negb required_node_version end then try_container else ret None) (fun c =>
  let docker := match c with Some _ => true | None => false end in
  match match c with Some _ => c | None => nodejs end with
  | None => raise (P_error Js)
  | Some proc => if negb docker && negb required_node_version then raise (P_error Js) else ret proc
  end)).
End New.
End Start.
