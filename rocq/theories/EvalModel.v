(** * Model of parameter references (sandboxjs.py:37-44, 527-626) and of
    evaluator, jshead and do_eval (expression.py:122-186, 275-337). *)
From Verif Require Import PyBase ExprModel.

(** ** The regular expressions

    A matcher returns the list of texts that can remain after the match, in the
    order in which Python's backtracking matcher tries them. *)

(** sandboxjs.py:37 [\w+] (ASCII word characters only). *)
Fixpoint word_ends (s : string) : list string :=
  match s with
  | EmptyString => []
  | String c s' => if is_word c then word_ends s' ++ [s'] else []
  end.

(** sandboxjs.py:38-39 [([^q]|\\q)+q\]] after the opening [[q]; [started] tells
    whether the group has matched at least once. *)
Fixpoint q_ends (q : ascii) (started : bool) (s : string) : list string :=
  match s with
  | EmptyString => []
  | String c s' =>
      (if Ascii.eqb c q then [] else q_ends q true s')
      ++ (match s' with
          | String d s'' => if Ascii.eqb c c_bs && Ascii.eqb d q then q_ends q true s'' else []
          | EmptyString => []
          end)
      ++ (match s' with
          | String d s'' => if started && Ascii.eqb c q && Ascii.eqb d "]" then [s''] else []
          | EmptyString => []
          end)
  end.

(** sandboxjs.py:40 [\[[0-9]+\]] after the opening bracket. *)
Fixpoint index_ends (started : bool) (s : string) : list string :=
  match s with
  | EmptyString => []
  | String c s' =>
      if is_digit c then index_ends true s'
      else if started && Ascii.eqb c "]" then [s'] else []
  end.

(** sandboxjs.py:41 [segments]: the alternatives start with different characters. *)
Definition seg_ends (s : string) : list string :=
  match s with
  | String c s' =>
      if Ascii.eqb c "." then word_ends s'
      else if Ascii.eqb c "[" then
        match s' with
        | String q s'' =>
            if Ascii.eqb q c_sq then q_ends c_sq false s''
            else if Ascii.eqb q c_dq then q_ends c_dq false s''
            else index_ends false s'
        | EmptyString => []
        end
      else []
  | EmptyString => []
  end.

(** sandboxjs.py:42 [segment_re.match]: the first way to match; returns
    [m.group(1)] and the text after it. *)
Definition segment_match (s : string) : option (string * string) :=
  match seg_ends s with
  | [] => None
  | rest :: _ => Some (stake (String.length s - String.length rest) s, rest)
  end.

(** sandboxjs.py:43 the tail [segments*\)$] ([$] also matches before a final
    newline); every segment consumes at least one character. *)
Definition close_paren_end (s : string) : bool :=
  String.eqb s ")" || String.eqb s (String ")" (String c_nl "")).

(** sandboxjs.py:43 the rest [segments*\)$] of param_str, trying every way to match a segment *)
Fixpoint segs_match (fuel : nat) (s : string) : bool :=
  match fuel with
  | O => false
  | S fuel => existsb (segs_match fuel) (seg_ends s) || close_paren_end s
  end.

(** the longest prefix of word characters, and the rest *)
Fixpoint word_run (s : string) : string * string :=
  match s with
  | EmptyString => (EmptyString, EmptyString)
  | String c s' =>
      if is_word c then let (w, r) := word_run s' in (String c w, r) else (EmptyString, s)
  end.

(** sandboxjs.py:43-44 [param_re.match(ex)]: [Some first_symbol] on success.  The
    group [\w+] can only succeed with the longest run, because no segment and no
    closing parenthesis starts with a word character. *)
Definition param_match (ex : string) : option string :=
  match ex with
  | String c s =>
      if Ascii.eqb c "(" then
        let (w, r) := word_run s in
        if negb (String.eqb w "") && segs_match (String.length r + 1) r then Some w else None
      else None
  | EmptyString => None
  end.

(** [int(text)] for a text of ASCII digits *)
Fixpoint int_of_digits_acc (acc : nat) (s : string) : nat :=
  match s with
  | EmptyString => acc
  | String c s' => int_of_digits_acc (10 * acc + (nat_of_ascii c - 48)) s'
  end.
Definition int_of_digits (s : string) : nat := int_of_digits_acc 0 s.

(** sandboxjs.py:542-543 [s[2:-2].replace("\\'", "'").replace('\\"', '"')] *)
Definition unquote_key (s : string) : string :=
  replace2 c_bs c_dq (String c_dq "")
    (replace2 c_bs c_sq (String c_sq "") (sdrop_last 2 (sdrop 2 s))).

(** sandboxjs.py:527-626 regex_eval.  The three branches at 580-606 do the same
    lookup.  The texts of the error messages (parsed_string) are not modelled, and
    neither is the limit on the number of digits of a Python int literal. *)
Fixpoint regex_eval (fuel : nat) (remaining_string : string) (current_value : json)
  : result json :=
  match fuel with
  | O => Err OutOfFuel
  | S fuel =>
    if String.eqb remaining_string "" then Ok current_value
    else
      match segment_match remaining_string with
      | None => Ok current_value
      | Some (seg, rest) =>
          let key_str (key : string) :=
            match current_value with
            | JList l =>
                if String.eqb key "length" && String.eqb rest ""
                then Ok (JInt (Z.of_nat (List.length l)))
                else Err WorkflowException
            | JDict d =>
                match dget key d with
                | None => Err WorkflowException
                | Some v => regex_eval fuel rest v
                end
            | _ => Err WorkflowException
            end in
          let key_int (key : nat) :=
            match current_value with
            | JList l =>
                if negb (key =? 0) && (List.length l <=? key) then Err WorkflowException
                else match nth_error l key with
                     | None => Err IndexError
                     | Some v => regex_eval fuel rest v
                     end
            | _ => Err WorkflowException
            end in
          match seg with
          | String c0 seg' =>
              if Ascii.eqb c0 "." then key_str seg'
              else match seg' with
                   | String c1 _ =>
                       if Ascii.eqb c1 c_sq || Ascii.eqb c1 c_dq then key_str (unquote_key seg)
                       else key_int (int_of_digits (sdrop_last 1 seg'))
                   | EmptyString => Err IndexError
                   end
          | EmptyString => Err IndexError
          end
      end
  end.

(** types.py:106-109 *)
Definition is_cwl_parameter_context_key (key : string) : bool :=
  smem key ["inputs"; "self"; "runtime"].

Section Eval.
  Context {St : Type}.
  (** [js_engine.eval(ex, jslib)], an external engine with a state of any type *)
  Variable js : St -> string -> string -> St * result json.
  Variable dumps : json -> string.       (* json_dumps(.., sort_keys=True) *)
  Variable dumps4 : json -> string.      (* json_dumps(.., indent=4) *)
  Variable loads : string -> string.     (* json.loads of a JSON string *)

  (** expression.py:122-186 evaluator (the asynchronous variants of the engine's
      methods are treated like the synchronous ones). *)
  Definition evaluator (obj : dict) (jslib : string) (fullJS : bool) (st : St) (ex : string)
    : St * result json :=
    let fallback := if fullJS then js st ex jslib else (st, Err JavascriptException) in
    match param_match ex with
    | Some first_symbol =>
        let first_symbol_end := 1 + String.length first_symbol in
        if (first_symbol_end + 1 =? String.length ex) && String.eqb first_symbol "null" then
          (st, Ok JNull)
        else if is_cwl_parameter_context_key first_symbol then
          let rem := sdrop_last 1 (sdrop first_symbol_end ex) in
          match dget first_symbol obj with
          | None => (st, Err KeyError)
          | Some v =>
              match regex_eval (String.length rem + 1) rem v with
              | Err WorkflowException => fallback
              | r => (st, r)
              end
          end
        else fallback
    | None => fallback
    end.

  (** expression.py:275-280 jshead *)
  Definition jshead (engine_config : list string) (rootvars : dict) : string :=
    sjoin (String c_nl "")
      (engine_config ++
       map (fun kv => "var " ++ fst kv ++ " = " ++ dumps4 (snd kv) ++ ";")%string rootvars).

  (** [cast(list[str], r.get("expressionLib", []))] used as a list of strings:
      anything else fails when it is concatenated or joined. *)
  Definition expressionLib (r : dict) : result (list string) :=
    match dget "expressionLib" r with
    | None => Ok []
    | Some (JList l) =>
        mapM (fun x => match x with JStr s => Ok s | _ => Err TypeError end) l
    | Some _ => Err TypeError
    end.

  (** expression.py:315-319: [reversed] is applied by the caller; returns
      (fullJS, jslib). *)
  Fixpoint find_js (rootvars : dict) (rev_requirements : list dict) : result (bool * string) :=
    match rev_requirements with
    | [] => Ok (false, "")
    | r :: rs =>
        match dget "class" r with
        | None => Err KeyError
        | Some cls =>
            if json_eqb cls (JStr "InlineJavascriptRequirement") then
              do lib <- expressionLib r; Ok (true, jshead lib rootvars)
            else find_js rootvars rs
        end
    end.

  (** [x or None] for an optional string *)
  Definition or_None (x : option string) : json :=
    match x with
    | None => JNull
    | Some s => if String.eqb s "" then JNull else JStr s
    end.

  (** expression.py:305-310: the root variables.  bytes2str_in_dicts is the
      identity here because model values contain no bytes objects (see the
      separate model of that function). *)
  Definition root_vars (jobinput : json) (context : json) (outdir tmpdir : option string)
             (resources : dict) : dict :=
    [("inputs", jobinput); ("self", context);
     ("runtime", JDict (dset "outdir" (or_None outdir)
                          (dset "tmpdir" (or_None tmpdir) resources)))].

  (** expression.py:287-337 do_eval *)
  Definition do_eval (st : St) (ex : json) (jobinput : json) (requirements : list dict)
             (outdir tmpdir : option string) (resources : dict) (context : json)
             (strip_whitespace : bool) (cwlVersion : string) : St * result json :=
    let rootvars := root_vars jobinput context outdir tmpdir resources in
    match ex with
    | JStr s =>
        if needs_parsing ex then
          match find_js rootvars (rev requirements) with
          | Err e => (st, Err e)
          | Ok (fullJS, jslib) =>
              match interpolate (evaluator rootvars jslib fullJS) dumps loads
                      strip_whitespace (escaping_of_version cwlVersion) st s with
              | (st', Err e) => (st', Err (if is_Exception e then WorkflowException else e))
              | r => r
              end
          end
        else (st, Ok ex)
    | _ => (st, Ok ex)
    end.
End Eval.
