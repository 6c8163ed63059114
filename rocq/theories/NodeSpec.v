(** * What the Node.js engine is expected to do *)
From Verif Require Import PyBase NodeModel.
From Coq Require Import ZArith.

(** The JSON library: a serialised text is one line, and reading it gives the text back. *)
Definition json_lines (dumps : string -> string) (parse : string -> option string) : Prop :=
  forall s, has_char c_nl (dumps s) = false /\ parse (dumps s) = Some s.

(** What JSON.stringify prints is one line; and no JSON text ends with the end mark (a JSON text
    that ends with a digit is a number, and the character before it is no "C"). *)
Definition one_line (text : string) : Prop := has_char c_nl text = false /\ endswith marker text = false.
Definition prints_lines (runs : engine -> option string -> string -> outcome -> Prop) : Prop :=
  forall e c script console text, runs e c script (Returns console text) -> one_line text.

(** The script of a request, run in its engine and context, can have this outcome. *)
Definition can_have (runs : engine -> option string -> string -> outcome -> Prop) (r : request) (o : outcome) : Prop :=
  exists e, engine_of r = Ok e /\ runs e (rq_context r) (rq_script r) o.

(** [out] is what the script of the request prints: its value, or nothing if it throws. *)
Definition own_output runs (r : request) (out : string) : Prop :=
  (exists console, can_have runs r (Returns console out)) \/
  (exists console shown, can_have runs r (Throws console shown)) /\ out = "".
(** [out] is the beginning of what the script of the request prints. *)
Definition beginning_of_own_output runs (r : request) (out : string) : Prop :=
  out = "" \/ exists console more, can_have runs r (Returns console (out ++ more)).

(** The evaluations that used a process before all ended in time and were read to the end. *)
Definition disturbed (earlier : list record) (pid : nat) : Prop :=
  exists r, In r earlier /\ rc_pid r = Some pid /\ (rc_killed r = true \/ exists e, rc_end r = Raised e).

(** All a script prints is 7-bit ASCII. *)
Definition ascii_text (s : string) : Prop := sforall (fun c => Nat.ltb (nat_of_ascii c) 128) s = true.
Definition prints_ascii (runs : engine -> option string -> string -> outcome -> Prop) : Prop :=
  forall e c script o, runs e c script o ->
    match o with
    | Returns console text => ascii_text console /\ ascii_text text
    | Throws console shown => ascii_text console /\ ascii_text shown
    | Hangs console => ascii_text console
    end.
