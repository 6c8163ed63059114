(** * Model of src/cwl_utils/expression.py: scanner, interpolate, evaluator,
    needs_parsing, do_eval. *)
From Verif Require Import PyBase.

(** expression.py:38-47, the token enumeration [t]. *)
Inductive tok : Set :=
| T_DEFAULT | T_DOLLAR | T_PAREN | T_BRACE | T_SINGLE_QUOTE | T_DOUBLE_QUOTE | T_BACKSLASH.

(** comparison of two members of the enumeration of expression.py:38-47 *)
Definition tok_eqb (a b : tok) : bool :=
  match a, b with
  | T_DEFAULT, T_DEFAULT | T_DOLLAR, T_DOLLAR | T_PAREN, T_PAREN | T_BRACE, T_BRACE
  | T_SINGLE_QUOTE, T_SINGLE_QUOTE | T_DOUBLE_QUOTE, T_DOUBLE_QUOTE
  | T_BACKSLASH, T_BACKSLASH => true
  | _, _ => false
  end.

(** expression.py:113-119, what happens when the text is exhausted.  The stack is
    kept with its top ([stack[-1]] in Python) at the head of the list, so that for
    a stack of two elements [stack[1]] is the head. *)
Definition scan_end (stack : list tok) : result (option (nat * nat)) :=
  if (1 <? List.length stack)
     && negb ((List.length stack =? 2)
              && match stack with
                 | t :: _ => tok_eqb t T_BACKSLASH || tok_eqb t T_DOLLAR
                 | [] => false
                 end)
  then Err SubstitutionError
  else Ok None.

(** [stack[-1] == x] after a [pop]; an empty stack would be an IndexError. *)
Definition top_is (x : tok) (stack : list tok) : result bool :=
  match stack with
  | [] => Err IndexError
  | t :: _ => Ok (tok_eqb t x)
  end.

(** expression.py:55-111, the scanning loop: [i], [stack] and [start] are the
    Python variables.  [fuel] bounds the number of iterations (the loop can stay on
    one character once, lines 77-78). *)
Fixpoint scan_loop (fuel : nat) (scan : string) (i : nat) (stack : list tok) (start : nat)
  : result (option (nat * nat)) :=
  match fuel with
  | O => Err OutOfFuel
  | S fuel =>
    match String.get i scan with
    | None => scan_end stack
    | Some c =>
      match stack with
      | [] => Err IndexError
      | state :: rest =>
        match state with
        | T_DEFAULT =>
            if Ascii.eqb c "$" then scan_loop fuel scan (i + 1) (T_DOLLAR :: stack) start
            else if Ascii.eqb c c_bs then scan_loop fuel scan (i + 1) (T_BACKSLASH :: stack) start
            else scan_loop fuel scan (i + 1) stack start
        | T_BACKSLASH =>
            do b <- top_is T_DEFAULT rest;
            if b then Ok (Some (i - 1, i + 1))
            else scan_loop fuel scan (i + 1) rest start
        | T_DOLLAR =>
            if Ascii.eqb c "(" then scan_loop fuel scan (i + 1) (T_PAREN :: stack) (i - 1)
            else if Ascii.eqb c "{" then scan_loop fuel scan (i + 1) (T_BRACE :: stack) (i - 1)
            else (* stack.pop(); i -= 1; then i += 1 *)
              scan_loop fuel scan i rest start
        | T_PAREN =>
            if Ascii.eqb c "(" then scan_loop fuel scan (i + 1) (T_PAREN :: stack) start
            else if Ascii.eqb c ")" then
              do b <- top_is T_DOLLAR rest;
              if b then Ok (Some (start, i + 1))
              else scan_loop fuel scan (i + 1) rest start
            else if Ascii.eqb c c_sq then scan_loop fuel scan (i + 1) (T_SINGLE_QUOTE :: stack) start
            else if Ascii.eqb c c_dq then scan_loop fuel scan (i + 1) (T_DOUBLE_QUOTE :: stack) start
            else scan_loop fuel scan (i + 1) stack start
        | T_BRACE =>
            if Ascii.eqb c "{" then scan_loop fuel scan (i + 1) (T_BRACE :: stack) start
            else if Ascii.eqb c "}" then
              do b <- top_is T_DOLLAR rest;
              if b then Ok (Some (start, i + 1))
              else scan_loop fuel scan (i + 1) rest start
            else if Ascii.eqb c c_sq then scan_loop fuel scan (i + 1) (T_SINGLE_QUOTE :: stack) start
            else if Ascii.eqb c c_dq then scan_loop fuel scan (i + 1) (T_DOUBLE_QUOTE :: stack) start
            else scan_loop fuel scan (i + 1) stack start
        | T_SINGLE_QUOTE =>
            if Ascii.eqb c c_sq then scan_loop fuel scan (i + 1) rest start
            else if Ascii.eqb c c_bs then scan_loop fuel scan (i + 1) (T_BACKSLASH :: stack) start
            else scan_loop fuel scan (i + 1) stack start
        | T_DOUBLE_QUOTE =>
            if Ascii.eqb c c_dq then scan_loop fuel scan (i + 1) rest start
            else if Ascii.eqb c c_bs then scan_loop fuel scan (i + 1) (T_BACKSLASH :: stack) start
            else scan_loop fuel scan (i + 1) stack start
        end
      end
    end
  end.

(** expression.py:50-119 *)
Definition scanner (scan : string) : result (option (nat * nat)) :=
  scan_loop (2 * String.length scan + 2) scan 0 [T_DEFAULT] 0.

(** ** interpolate

    The evaluator (expression.py:226-229) is a parameter [ev]: it gets the text
    after the dollar up to and including the closing bracket, and a state of any
    type that it may read and change (the JavaScript engine, logs, ...).
    [dumps]/[loads] are json_dumps(.., sort_keys=True) and json.loads. *)
Section Interpolate.
  Context {St : Type}.
  Variable ev : St -> string -> St * result json.
  Variable dumps : json -> string.
  Variable loads : string -> string.

  (** expression.py:233-236: the text inserted for a value. [leaf[0]] on an empty
      text is an IndexError. *)
  Definition leaf_text (e : json) : result string :=
    match dumps e with
    | EmptyString => Err IndexError
    | String c _ => Ok (if Ascii.eqb c c_dq then loads (dumps e) else dumps e)
    end.

  (** expression.py:244-265: the text inserted for a backslash escape found at
      [w0,w1) and the position from which scanning continues. *)
  Definition escape_text (escaping_behavior : nat) (scan : string) (w0 w1 : nat)
    : result (string * nat) :=
    match escaping_behavior with
    | 1 =>
        match String.get (w1 - 1) scan with
        | Some c => Ok (String c "", w1)
        | None => Err IndexError
        end
    | 2 =>
        let e := sslice w0 (w1 + 1) scan in
        if String.eqb e (String c_bs "$(") || String.eqb e (String c_bs "${") then
          Ok (sdrop 1 e, w1 + 1)
        else match String.get 1 e with
             | None => Err IndexError
             | Some c =>
                 if Ascii.eqb c c_bs then Ok (String c_bs "", w1)
                 else Ok (stake 2 e, w1)
             end
    | _ => Err GenericException
    end.

  (** expression.py:217-272 with convert_to_expression=False.  [parts] are the
      Python list [parts] at the head of the loop; one unit of fuel per
      iteration. *)
  Fixpoint interp_loop (fuel : nat) (escaping_behavior : nat) (st : St) (scan : string)
           (parts : list string) : St * result json :=
    match fuel with
    | O => (st, Err OutOfFuel)
    | S fuel =>
      match scanner scan with
      | Err e => (st, Err e)
      | Ok None => (st, Ok (JStr (sjoin "" (parts ++ [scan]))))
      | Ok (Some (w0, w1)) =>
        let parts := parts ++ [stake w0 scan] in
        match String.get w0 scan with
        | None => (st, Err IndexError)
        | Some c =>
          if Ascii.eqb c "$" then
            let (st', r) := ev st (sslice (w0 + 1) w1 scan) in
            match r with
            | Err e => (st', Err e)
            | Ok e =>
              if (w0 =? 0) && (w1 =? String.length scan) && (List.length parts <=? 1)
              then (st', Ok e)
              else match leaf_text e with
                   | Err x => (st', Err x)
                   | Ok leaf =>
                       interp_loop fuel escaping_behavior st' (sdrop w1 scan) (parts ++ [leaf])
                   end
            end
          else if Ascii.eqb c c_bs then
            match escape_text escaping_behavior scan w0 w1 with
            | Err e => (st, Err e)
            | Ok (txt, w1') =>
                interp_loop fuel escaping_behavior st (sdrop w1' scan) (parts ++ [txt])
            end
          else interp_loop fuel escaping_behavior st (sdrop w1 scan) parts
        end
      end
    end.

  (** expression.py:189-272 (convert_to_expression=False). *)
  Definition interpolate (strip_whitespace : bool) (escaping_behavior : nat) (st : St)
             (scan : string) : St * result json :=
    let scan := if strip_whitespace then strip scan else scan in
    interp_loop (String.length scan + 1) escaping_behavior st scan [].
End Interpolate.

(** expression.py:283-284 *)
Definition needs_parsing (snippet : json) : bool :=
  match snippet with
  | JStr s => contains "$(" s || contains "${" s
  | _ => false
  end.

(** expression.py:24-31 *)
Definition OLD_ESCAPE_CWL_VERSIONS : list string :=
  ["v1.0"; "v1.1.0-dev1"; "v1.1"; "v1.2.0-dev1"; "v1.2.0-dev2"; "v1.2.0-dev3"].

(** expression.py:329 *)
Definition escaping_of_version (cwlVersion : string) : nat :=
  if smem cwlVersion OLD_ESCAPE_CWL_VERSIONS then 1 else 2.
