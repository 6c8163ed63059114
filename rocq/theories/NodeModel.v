(** * Model of the Node.js engine: src/cwl_utils/sandboxjs.py lines 96-108, 159-277 and 472-525,
      and of the programs it runs, src/cwl_utils/cwlNodeEngine.js, cwlNodeEngineJSConsole.js and
      cwlNodeEngineWithContext.js.

    Python threads, the timer of each evaluation and the Node.js processes run side by side; the
    model is a transition system whose steps are the observable actions of each of them.  Texts
    are the bytes that travel through the pipes. *)
From Verif Require Import PyBase.
From Verif Require ParserModel.
From Coq Require Import ZArith.

(** ** The programs that run in Node.js *)

(** sandboxjs.py lines 181-189 *)
Inductive engine := Plain | Console | WithContext.

(** cwlNodeEngine.js line 17 and sandboxjs.py line 103 *)
Definition marker : string := "r1cepzbhUTxtykz5XTC4".
Definition nl : string := String c_nl "".
Definition process_finished_str : string := marker ++ nl.

(** What a script does when [vm.runInNewContext] runs it.  [console] is what it prints with the
    console of cwlNodeEngineJSConsole.js (lines 2-7).  Simplified: a script reaches nothing of the
    process but that console. *)
Inductive outcome :=
| Returns (console text : string)  (* [text] is what JSON.stringify makes of the value, or "undefined" *)
| Throws (console shown : string)  (* [shown] is what console.error(e) prints *)
| Hangs (console : string).

(** the two output pipes of a process (sandboxjs.py:237, 254) *)
Inductive stream := Stdout | Stderr.

(** A Node.js process.  [n_owner] is the thread that started it, [n_todo] are the writes its
    handler has still to make, [n_hung] tells that a script never ends, [n_out] and [n_err] are
    the bytes in its output pipes, [n_stdin] those in its input pipe, [n_exit] its exit status. *)
Record node := Node {
  n_owner : nat; n_engine : engine; n_context : option string;
  n_first : bool; n_stdin : string; n_incoming : string;
  n_todo : list (stream * string); n_hung : bool;
  n_out : string; n_err : string; n_killed : bool; n_exit : option Z }.

(** a Node.js process reads or is sent input (sandboxjs.py:250-253, cwlNodeEngine.js:4-10) *)
Definition set_input n i s := Node (n_owner n) (n_engine n) (n_context n) (n_first n) s i
  (n_todo n) (n_hung n) (n_out n) (n_err n) (n_killed n) (n_exit n).
(** the writes left to the handler of cwlNodeEngine.js:11-18 *)
Definition set_todo n t h := Node (n_owner n) (n_engine n) (n_context n) (n_first n) (n_stdin n) (n_incoming n)
  t h (n_out n) (n_err n) (n_killed n) (n_exit n).
(** cwlNodeEngineWithContext.js:25-27: the first line, the context, has been read *)
Definition set_first n b := Node (n_owner n) (n_engine n) (n_context n) b (n_stdin n) (n_incoming n)
  (n_todo n) (n_hung n) (n_out n) (n_err n) (n_killed n) (n_exit n).
(** the bytes in the two output pipes change (sandboxjs.py:254-258) *)
Definition set_pipes n o e := Node (n_owner n) (n_engine n) (n_context n) (n_first n) (n_stdin n) (n_incoming n)
  (n_todo n) (n_hung n) o e (n_killed n) (n_exit n).
(** [nodejs.kill()] (sandboxjs.py:222) *)
Definition set_killed n := Node (n_owner n) (n_engine n) (n_context n) (n_first n) (n_stdin n) (n_incoming n)
  (n_todo n) (n_hung n) (n_out n) (n_err n) true (n_exit n).
(** the process ends; [poll()] then gives this status (sandboxjs.py:198, 267-273) *)
Definition set_exit n c := Node (n_owner n) (n_engine n) (n_context n) (n_first n) (n_stdin n) (n_incoming n)
  (n_todo n) (n_hung n) (n_out n) (n_err n) (n_killed n) (Some c).

(** [i = incoming.indexOf("\n")], [incoming.substr(0, i)], [incoming.substr(i+1)]
    (cwlNodeEngine.js lines 6-10) *)
Fixpoint cut_line (s : string) : option (string * string) :=
  match s with
  | "" => None
  | String c s' => if Ascii.eqb c c_nl then Some ("", s')
                   else match cut_line s' with Some (l, r) => Some (String c l, r) | None => None end
  end.

(** cwlNodeEngine.js lines 8-18, cwlNodeEngineJSConsole.js lines 14-29: the writes for one script.
    cwlNodeEngineWithContext.js lines 10-37 print neither value nor end marks for the first
    script, which makes the context. *)
Definition handler_writes (first : bool) (o : outcome) : list (stream * string) :=
  match o with
  | Returns console text =>
      (Stderr, console) :: if first then [] else [(Stdout, text ++ nl); (Stdout, marker ++ nl); (Stderr, marker ++ nl)]
  | Throws console shown =>
      (Stderr, console) :: (Stderr, shown) :: if first then [] else [(Stdout, marker ++ nl); (Stderr, marker ++ nl)]
  | Hangs console => [(Stderr, console)]
  end%string.
Definition never_ends (o : outcome) : bool := match o with Hangs _ => true | _ => false end.

Section System.
(** [json_dumps] of a text and JSON.parse of a line (schema-salad and Node.js) *)
Variable dumps : string -> string.
Variable parse : string -> option string.
(** What console.error prints of the SyntaxError of a line that is no JSON *)
Variable complaint : string -> string.
(** What a script can do in an engine with a context: any of the outcomes related to it *)
Variable runs : engine -> option string -> string -> outcome -> Prop.
(** select.PIPE_BUF *)
Variable pipe_buf : nat.

(** The handler of one line.  A line that is no JSON is reported as an exception; then
    cwlNodeEngine.js line 9 is reached before line 10, so the line stays in [incoming]. *)
Inductive handles (n : node) (line rest : string) : node -> Prop :=
| Handles_script script o :
    parse line = Some script -> runs (n_engine n) (n_context n) script o ->
    handles n line rest
      (set_first (set_todo (set_input n rest (n_stdin n)) (handler_writes (n_first n) o) (never_ends o)) false)
| Handles_other :
    parse line = None ->
    handles n line rest
      (set_first (set_todo (set_input n (match n_engine n with WithContext => rest | _ => n_incoming n end) (n_stdin n))
                    (handler_writes (n_first n) (Throws "" (complaint line))) false) false).

(** The steps of a live process.  [process.stdin.on("data", ...)] takes whatever part of the
    pipe; Node.js runs one handler at a time and its writes go to the pipes in order, those of at
    most PIPE_BUF bytes at once.  cwlNodeEngineWithContext.js goes on with the next line it
    already has (line 10, "while").  A process may die at any time ([Crash]), be it killed or
    not. *)
Inductive node_step (n : node) : node -> Prop :=
| Receive chunk more :
    n_exit n = None -> n_todo n = [] -> n_hung n = false -> n_stdin n = (chunk ++ more)%string ->
    cut_line (n_incoming n ++ chunk) = None ->
    node_step n (set_input n (n_incoming n ++ chunk) more)
| Receive_line chunk more line rest n' :
    n_exit n = None -> n_todo n = [] -> n_hung n = false -> n_stdin n = (chunk ++ more)%string -> chunk <> "" ->
    cut_line (n_incoming n ++ chunk) = Some (line, rest) ->
    handles (set_input n (n_incoming n ++ chunk) more) line rest n' ->
    node_step n n'
| Next_line line rest n' :
    n_exit n = None -> n_todo n = [] -> n_hung n = false -> n_engine n = WithContext ->
    cut_line (n_incoming n) = Some (line, rest) -> handles n line rest n' ->
    node_step n n'
| Write f a b more :
    n_exit n = None -> n_todo n = (f, (a ++ b)%string) :: more ->
    (String.length (a ++ b) <= pipe_buf -> b = "") ->
    node_step n (set_todo (match f with
                           | Stdout => set_pipes n (n_out n ++ a) (n_err n)
                           | Stderr => set_pipes n (n_out n) (n_err n ++ a)
                           end)
                   (if String.eqb b "" then more else (f, b) :: more) (n_hung n))
| Crash code :
    n_exit n = None -> code <> 0%Z -> node_step n (set_exit n code).

(** ** exec_js_process *)

(** The arguments js_console, context and js_text of exec_js_process (sandboxjs.py:159-167) *)
Record request := Request { rq_console : bool; rq_context : option string; rq_script : string }.

(** lines 178-189 *)
Definition engine_of (r : request) : result engine :=
  match rq_console r, rq_context r with
  | true, Some _ => Err NotImplementedError
  | true, None => Ok Console
  | false, Some _ => Ok WithContext
  | false, None => Ok Plain
  end.

(** [threading.Timer]: waiting, running [terminate] (lines 218-222; [killed] is set, the kill not
    yet sent), done *)
Inductive timer := Armed | Firing | Fired.
(** [timer.is_alive()] *)
Definition alive (t : timer) : bool := match t with Fired => false | _ => true end.

(** An evaluation in progress: the local variables of exec_js_process.  [ev_left] tells that the
    loop of lines 247-260 has been left. *)
Record evaluation := Evaluation {
  ev_request : request; ev_pid : nat; ev_stdin : string; ev_out : string; ev_err : string;
  ev_timer : timer; ev_killed : bool; ev_left : bool }.

(** How an evaluation ends, and the local variables at that time: [rc_seen] is what [poll()] told. *)
Inductive ending := Finished (returncode : Z) (stdout stderr : string) | Raised (e : exn).
Record record := Record_ { rc_request : request; rc_pid : option nat; rc_killed : bool; rc_seen : option Z; rc_end : ending }.

(** [self.localdata]: what belongs to one thread.  The dictionary is keyed by engine and context
    (lines 193-196, 209-214). *)
Definition key := (engine * option string)%type.
Definition engine_eqb (a b : engine) : bool :=
  match a, b with Plain, Plain | Console, Console | WithContext, WithContext => true | _, _ => false end.
Definition key_eqb (a b : key) : bool :=
  engine_eqb (fst a) (fst b)
  && match snd a, snd b with None, None => true | Some s, Some t => String.eqb s t | _, _ => false end.
Fixpoint lookup (k : key) (l : list (key * nat)) : option nat :=
  match l with [] => None | (k', p) :: l' => if key_eqb k k' then Some p else lookup k l' end.

(** One Python thread: its [self.localdata.procs] (sandboxjs.py:175-176), the call of
    exec_js_process it is in, and the calls it has finished *)
Record thread := Thread { th_procs : list (key * nat); th_now : option evaluation; th_log : list record }.
(** [sy_orphans]: processes that a timer nobody waits for will still kill *)
Record system := System { sy_nodes : list node; sy_threads : nat -> thread; sy_orphans : list nat }.

(** only this thread's [self.localdata] changes (sandboxjs.py:175-176, 209-214) *)
Definition with_thread (s : system) (t : nat) (th : thread) : nat -> thread :=
  fun t' => if Nat.eqb t t' then th else sy_threads s t'.
(** one of the processes changes state; the others keep theirs *)
Fixpoint replace_nth {A} (i : nat) (x : A) (l : list A) : list A :=
  match i, l with
  | _, [] => []
  | 0, _ :: l' => x :: l'
  | S i', y :: l' => y :: replace_nth i' x l'
  end.

(** lines 228-231 *)
Definition stdin_text (created_new_process : bool) (r : request) : string :=
  (match created_new_process, rq_context r with true, Some c => dumps c ++ nl | _, _ => "" end
   ++ (dumps (rq_script r) ++ nl))%string.

(** sandboxjs.py:216-235: the local variables when the loop starts *)
Definition evaluation_of (created : bool) (r : request) (pid : nat) : evaluation :=
  Evaluation r pid (stdin_text created r) "" "" Armed false false.

(** a process just started by [new_js_proc] (sandboxjs.py:203-207) *)
Definition new_node (owner : nat) (e : engine) (c : option string) : node :=
  Node owner e c (match e with WithContext => true | _ => false end) "" "" [] false "" "" false None.

(** lines 193-198: the process of this thread, engine and context, unless it has ended *)
Definition reusable (s : system) (t : nat) (k : key) : option nat :=
  match lookup k (th_procs (sy_threads s t)) with
  | Some pid =>
      match nth_error (sy_nodes s) pid with
      | Some n => match n_exit n with None => Some pid | Some _ => None end
      | None => None
      end
  | None => None
  end.

(** lines 175-231.  [failure] is the error of [new_js_proc], if it has to be called and fails. *)
Definition exec_start (s : system) (t : nat) (r : request) (failure : option exn) : system :=
  let th := sy_threads s t in
  let raise e :=
    System (sy_nodes s) (with_thread s t (Thread (th_procs th) None (Record_ r None false None (Raised e) :: th_log th)))
           (sy_orphans s) in
  match engine_of r with
  | Err e => raise e
  | Ok e =>
      let k := (e, rq_context r) in
      match reusable s t k with
      | Some pid => System (sy_nodes s) (with_thread s t (Thread (th_procs th) (Some (evaluation_of false r pid)) (th_log th)))
                           (sy_orphans s)
      | None =>
          match failure with
          | Some e => raise e
          | None =>
              let pid := List.length (sy_nodes s) in
              System (sy_nodes s ++ [new_node t e (rq_context r)])
                     (with_thread s t (Thread ((k, pid) :: th_procs th) (Some (evaluation_of true r pid)) (th_log th)))
                     (sy_orphans s)
          end
      end
  end.

(** lines 240-245: both buffers are decoded in full each time; the second only if the first ends
    with the mark *)
Definition process_finished (ev : evaluation) : result bool :=
  do out <- ParserModel.decode (ev_out ev);
  if endswith process_finished_str out
  then do err <- ParserModel.decode (ev_err ev); Ok (endswith process_finished_str err)
  else Ok false.

(** the loop of sandboxjs.py:247-260 is left *)
Definition leave ev := Evaluation (ev_request ev) (ev_pid ev) (ev_stdin ev) (ev_out ev) (ev_err ev) (ev_timer ev) (ev_killed ev) true.
(** [terminate] (sandboxjs.py:218-222) runs: [killed] is set *)
Definition set_timer ev t := Evaluation (ev_request ev) (ev_pid ev) (ev_stdin ev) (ev_out ev) (ev_err ev) t true (ev_left ev).

(** [os.read(fd, PIPE_BUF)] on a pipe that select reports: at most PIPE_BUF of the bytes there *)
Definition read_pipe (pipe : string) : string * string := (stake pipe_buf pipe, sdrop pipe_buf pipe).

(** lines 248-260, one turn of the loop; [writable] tells whether select found the input pipe
    ready.  Writing to a process that has ended is an OSError, which leaves the loop.  Reading
    from an output pipe that is empty happens only after the end of the process and gives
    nothing. *)
Definition turn (writable : bool) (ev : evaluation) (n : node) : evaluation * node :=
  let buf := if writable then stake pipe_buf (ev_stdin ev) else "" in
  let ev1 := Evaluation (ev_request ev) (ev_pid ev) (if writable then sdrop pipe_buf (ev_stdin ev) else ev_stdin ev)
               (ev_out ev) (ev_err ev) (ev_timer ev) (ev_killed ev) (ev_left ev) in
  match n_exit n, buf with
  | Some _, String _ _ => (leave ev1, n)
  | _, _ =>
      let n1 := set_input n (n_incoming n) (n_stdin n ++ buf) in
      (Evaluation (ev_request ev1) (ev_pid ev1) (ev_stdin ev1)
         (ev_out ev1 ++ fst (read_pipe (n_out n1))) (ev_err ev1 ++ fst (read_pipe (n_err n1)))
         (ev_timer ev1) (ev_killed ev1) (ev_left ev1),
       set_pipes n1 (snd (read_pipe (n_out n1))) (snd (read_pipe (n_err n1))))
  end.

(** lines 264-265: the end mark and the newline before it are cut off *)
Definition strip_mark (buf : string) : string := sdrop_last (String.length process_finished_str + 1) buf.

(** lines 269-275 *)
Definition return_code (polled : option Z) (killed : bool) : Z :=
  match polled with
  | None => 0
  | Some c => if Z.eqb c 0 then 0 else if killed then -1 else c
  end.

(** lines 261-277 *)
Definition result_of (ev : evaluation) (polled : option Z) : ending :=
  match ParserModel.decode (strip_mark (ev_out ev)), ParserModel.decode (strip_mark (ev_err ev)) with
  | Ok out, Ok err => Finished (return_code polled (ev_killed ev)) out err
  | Err e, _ => Raised e
  | Ok _, Err e => Raised e
  end.

(** The steps of the whole system. *)
Inductive step (s : system) : system -> Prop :=
| Node_runs pid n n' :
    nth_error (sy_nodes s) pid = Some n -> node_step n n' ->
    step s (System (replace_nth pid n' (sy_nodes s)) (sy_threads s) (sy_orphans s))
| Starts t r failure :
    th_now (sy_threads s t) = None ->
    step s (exec_start s t r failure)
(** a turn of the loop, whose condition holds (line 247) *)
| Turns t ev n w ev' n' :
    th_now (sy_threads s t) = Some ev -> ev_left ev = false ->
    process_finished ev = Ok false -> alive (ev_timer ev) = true ->
    nth_error (sy_nodes s) (ev_pid ev) = Some n -> turn w ev n = (ev', n') ->
    step s (System (replace_nth (ev_pid ev) n' (sy_nodes s))
                   (with_thread s t (Thread (th_procs (sy_threads s t)) (Some ev') (th_log (sy_threads s t))))
                   (sy_orphans s))
(** the condition of the loop fails *)
| Leaves t ev :
    th_now (sy_threads s t) = Some ev -> ev_left ev = false ->
    (process_finished ev = Ok true \/ process_finished ev = Ok false /\ alive (ev_timer ev) = false) ->
    step s (System (sy_nodes s)
                   (with_thread s t (Thread (th_procs (sy_threads s t)) (Some (leave ev)) (th_log (sy_threads s t))))
                   (sy_orphans s))
(** the condition of the loop raises UnicodeDecodeError: the timer is not cancelled *)
| Breaks t ev e :
    th_now (sy_threads s t) = Some ev -> ev_left ev = false -> process_finished ev = Err e ->
    step s (System (sy_nodes s)
                   (with_thread s t (Thread (th_procs (sy_threads s t)) None
                      (Record_ (ev_request ev) (Some (ev_pid ev)) (ev_killed ev) None (Raised e) :: th_log (sy_threads s t))))
                   (if alive (ev_timer ev) then ev_pid ev :: sy_orphans s else sy_orphans s))
(** the timer expires: [killed.append(True)] *)
| Expires t ev :
    th_now (sy_threads s t) = Some ev -> ev_timer ev = Armed ->
    step s (System (sy_nodes s)
                   (with_thread s t (Thread (th_procs (sy_threads s t)) (Some (set_timer ev Firing)) (th_log (sy_threads s t))))
                   (sy_orphans s))
(** ... and [nodejs.kill()] *)
| Kills t ev n :
    th_now (sy_threads s t) = Some ev -> ev_timer ev = Firing -> nth_error (sy_nodes s) (ev_pid ev) = Some n ->
    step s (System (replace_nth (ev_pid ev) (set_killed n) (sy_nodes s))
                   (with_thread s t (Thread (th_procs (sy_threads s t)) (Some (set_timer ev Fired)) (th_log (sy_threads s t))))
                   (sy_orphans s))
(** lines 261-277; a timer that is already running [terminate] cannot be cancelled *)
| Ends t ev n :
    th_now (sy_threads s t) = Some ev -> ev_left ev = true -> nth_error (sy_nodes s) (ev_pid ev) = Some n ->
    step s (System (sy_nodes s)
                   (with_thread s t (Thread (th_procs (sy_threads s t)) None
                      (Record_ (ev_request ev) (Some (ev_pid ev)) (ev_killed ev) (n_exit n) (result_of ev (n_exit n))
                       :: th_log (sy_threads s t))))
                   (match ev_timer ev with Firing => ev_pid ev :: sy_orphans s | _ => sy_orphans s end))
(** a forgotten timer kills its process *)
| Orphan_kills pid n :
    In pid (sy_orphans s) -> nth_error (sy_nodes s) pid = Some n ->
    step s (System (replace_nth pid (set_killed n) (sy_nodes s)) (sy_threads s) (sy_orphans s)).

(** no thread has evaluated anything yet (sandboxjs.py:99-108) *)
Definition initial : system := System [] (fun _ => Thread [] None []) [].

(** The states that any interleaving of the steps above leads to *)
Inductive reachable : system -> Prop :=
| Reach_initial : reachable initial
| Reach_step s s' : reachable s -> step s s' -> reachable s'.

(** ** NodeJSEngine.eval *)

(** The text of the message is not modelled, only which of the three it is. *)
Inductive failure := Long_running_script_killed | Script_failed | No_json.
Variable loads : string -> option json.

(** lines 501-525; each failure is a JavascriptException *)
Definition eval_result (r : Z * string * string) : json + failure :=
  let '(returncode, stdout, _) := r in
  if negb (Z.eqb returncode 0)
  then inr (if Z.eqb returncode (-1) then Long_running_script_killed else Script_failed)
  else match loads stdout with Some v => inl v | None => inr No_json end.
End System.
