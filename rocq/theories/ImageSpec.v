(** * Specification for C28-C31: where requirements stand, version order, image files *)
From Verif Require Import PyBase ImageModel.
From Coq Require Import NArith.

(** ** Where an entry stands in a process and in what it runs *)
Inductive sect := InRequirements | InHints.
Definition listed (s : sect) (requirements hints : option (list entry)) : list entry :=
  match (match s with InRequirements => requirements | InHints => hints end) with Some l => l | None => [] end.

(** [Own s i]: the i-th entry of the process itself; [OfStep k s i]: of its k-th step;
    [Below k pl]: at [pl] in the process run by its k-th step. *)
Inductive place := Own (s : sect) (i : nat) | OfStep (k : nat) (s : sect) (i : nat) | Below (k : nat) (pl : place).

Section Places.
Variable load : string -> result process.

(** A step runs a process written in place or one loaded from a document. *)
Definition Runs (s : step) (q : process) : Prop :=
  s_run s = Inline q \/ exists u, s_run s = Uri u /\ load u = Ok q.

Inductive At : process -> place -> entry -> Prop :=
| At_own p s i e : nth_error (listed s (p_requirements p) (p_hints p)) i = Some e -> At p (Own s i) e
| At_step p k st s i e : p_workflow p = true -> nth_error (p_steps p) k = Some st ->
    nth_error (listed s (s_requirements st) (s_hints st)) i = Some e -> At p (OfStep k s i) e
| At_below p k st q pl e : p_workflow p = true -> nth_error (p_steps p) k = Some st -> Runs st q ->
    At q pl e -> At p (Below k pl) e.

(** Everything the process runs, at any depth, can be loaded, and nothing runs itself. *)
Inductive Finite : process -> Prop :=
| Finite_tool p : p_workflow p = false -> Finite p
| Finite_workflow p : p_workflow p = true ->
    (forall st, In st (p_steps p) -> exists q, Runs st q /\ Finite q) -> Finite p.

(** Some step, at some depth, refers to a document that fails to load with this error. *)
Inductive Broken : process -> exn -> Prop :=
| Broken_here p st u e : p_workflow p = true -> In st (p_steps p) -> s_run st = Uri u -> load u = Err e -> Broken p e
| Broken_below p st q e : p_workflow p = true -> In st (p_steps p) -> Runs st q -> Broken q e -> Broken p e.
End Places.

(** The place belongs to a step, not to a process. *)
Fixpoint on_step (pl : place) : Prop :=
  match pl with Own _ _ => False | OfStep _ _ _ => True | Below _ pl => on_step pl end.

(** The image reference [d'] is [d] with the tag "latest" added when there is no colon. *)
Inductive Tagged : option string -> option string -> Prop :=
| Tagged_none : Tagged None None
| Tagged_kept a b : Tagged (Some (a ++ ":" ++ b)%string) (Some (a ++ ":" ++ b)%string)
| Tagged_added s : (forall a b, s <> (a ++ ":" ++ b)%string) -> Tagged (Some s) (Some (s ++ ":latest")%string).

(** ** Versions *)

(** The number a text of decimal digits stands for *)
Fixpoint value (s : string) : N :=
  match s with "" => 0 | String c s' => (N_of_ascii c - 48) * 10 ^ N.of_nat (String.length s') + value s' end%N.
Definition numeral (s : string) : Prop := s <> "" /\ sforall is_digit s = true.

(** The order of versions: component by component, a missing component being the smallest *)
Fixpoint at_least (bound v : list N) : Prop :=
  match bound, v with
  | [], _ => True
  | _ :: _, [] => False
  | b :: bound, n :: v => (b < n)%N \/ b = n /\ at_least bound v
  end.

(** What [singularity --version] prints: one line with the flavor, " version ", numbers
    separated by dots, and possibly more text. *)
Definition Prints (out flav : string) (v : list N) : Prop := exists numerals suffix,
  out = (flav ++ " version " ++ sjoin "." numerals ++ suffix ++ String c_nl "")%string /\
  numerals <> [] /\ Forall numeral numerals /\ v = map value numerals /\
  has_char c_nl flav = false /\
  (exists c r, flav = String c r /\ is_space c = false) /\
  (forall c r, suffix = String c r -> is_digit c = false /\ c <> "."%char) /\
  (forall c r, suffix = (r ++ String c "")%string -> is_space c = false) /\
  contains " version " suffix = false.

(** Everything a program can ask singularity.py *)
Inductive question := GetVersion | IsApptainer1 | Is26 | Is3 | Is31 | Is34.
Definition ask (out : nat -> result string) (q : question) (w : world) : world :=
  match q with
  | GetVersion => snd (get_version out w)
  | IsApptainer1 => snd (is_apptainer_1_or_newer out w)
  | Is26 => snd (is_version_2_6 out w)
  | Is3 => snd (is_version_3_or_newer out w)
  | Is31 => snd (is_version_3_1_or_newer out w)
  | Is34 => snd (is_version_3_4_or_newer out w)
  end.

(** ** Image references *)

(** Equal but for the choice between "/", ":" and "_" *)
Definition is_separator (c : ascii) : Prop := c = "/"%char \/ c = ":"%char \/ c = "_"%char.
Inductive SameUpToSeparators : string -> string -> Prop :=
| Same_nil : SameUpToSeparators "" ""
| Same_cons c d s t : c = d \/ is_separator c /\ is_separator d -> SameUpToSeparators s t ->
    SameUpToSeparators (String c s) (String d t).

(** A reference "path:tag" without underscore or registry port *)
Definition Usual (r : string) : Prop := exists path tag, r = (path ++ ":" ++ tag)%string /\
  has_char ":" path = false /\ has_char "_" path = false /\
  has_char ":" tag = false /\ has_char "_" tag = false /\ has_char "/" tag = false.

(** A pull creates the file it names, and no command removes a file. *)
Definition keeps_files (engine : world -> list string -> option exn * list string) : Prop :=
  forall w argv, incl (files w) (snd (engine w argv)) /\
    forall cmd target url, argv = [cmd; "pull"; "--name"; target; url] -> fst (engine w argv) = None ->
      In target (snd (engine w argv)).
