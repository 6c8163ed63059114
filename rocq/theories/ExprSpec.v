(** * What a reference and an escape are, independently of the scanner.

    This file is the whole vocabulary of the theorems about expression.py; it does
    not mention the model. *)
From Verif Require Import PyBase.

(** The inside of a quoted string: no closing quote, except after a backslash. *)
Inductive Quoted (q : ascii) : string -> Prop :=
| Q_nil : Quoted q ""
| Q_char c s : c <> q -> c <> c_bs -> Quoted q s -> Quoted q (String c s)
| Q_esc c s : Quoted q s -> Quoted q (String c_bs (String c s)).

(** Balanced text with respect to one bracket kind [o]/[c]: other characters,
    nested bracket pairs, and quoted strings (inside which brackets do not
    count). *)
Inductive Balanced (o c : ascii) : string -> Prop :=
| B_nil : Balanced o c ""
| B_char x s : x <> o -> x <> c -> x <> c_sq -> x <> c_dq ->
    Balanced o c s -> Balanced o c (String x s)
| B_nest a s : Balanced o c a -> Balanced o c s ->
    Balanced o c (String o (a ++ String c s))
| B_quote q a s : q = c_sq \/ q = c_dq -> Quoted q a -> Balanced o c s ->
    Balanced o c (String q (a ++ String q s)).

(** The two bracket kinds a reference may use. *)
Definition bracket (o c : ascii) : Prop :=
  (o = "("%char /\ c = ")"%char) \/ (o = "{"%char /\ c = "}"%char).

(** [$(...)] or [${...}]; [body] is what the evaluator receives: everything after
    the dollar. *)
Inductive Reference : string -> Prop :=
| Ref_intro o c a : bracket o c -> Balanced o c a ->
    Reference (String "$" (String o (a ++ String c ""))).

(** A backslash and the character after it. *)
Inductive Escape : string -> Prop :=
| Escape_intro c : Escape (String c_bs (String c "")).

(** Text in which neither an escape nor a reference starts. *)
Definition NoStart (s : string) : Prop :=
  has_char c_bs s = false /\ contains "$(" s = false /\ contains "${" s = false.

(** Text in which nothing starts up to its end: a lone backslash as very last
    character does not start an escape. *)
Definition NothingStarts (s : string) : Prop :=
  NoStart s \/ exists p, NoStart p /\ s = (p ++ String c_bs "")%string.

(** [rest] (what follows an opening bracket) never reaches the closing bracket. *)
Definition NeverCloses (o c : ascii) (rest : string) : Prop :=
  ~ exists a post, Balanced o c a /\ rest = (a ++ String c post)%string.

(** The first escape or reference of [s] occupies positions [a] to [b] (exclusive). *)
Definition Start_at (s : string) (a b : nat) : Prop :=
  exists pre region post,
    s = (pre ++ region ++ post)%string /\ NoStart pre /\
    (Escape region \/ Reference region) /\
    a = String.length pre /\ b = String.length pre + String.length region.

(** ** Tokens of an interpolated text *)
Inductive item : Type :=
| Lit (s : string)       (* literal run, copied *)
| Esc (c : ascii)        (* backslash + one character *)
| EscRef (o : ascii)     (* backslash + $ + opening bracket (v1.2 rules only) *)
| Ref (body : string)    (* a reference; [body] is the text after the dollar *)
| Unclosed.              (* a reference that is never closed *)

Definition opening (o : ascii) : Prop := o = "("%char \/ o = "{"%char.

(** [Items newrules s its]: [its] is the reading of [s] from left to right.
    Literal runs extend up to the first start.  Under the new (v1.2) rules a
    backslash before [$(] or [${] takes the bracket along; under the old ones it
    takes just one character. *)
Inductive Items (newrules : bool) : string -> list item -> Prop :=
| It_end s : NothingStarts s -> Items newrules s [Lit s]
| It_esc p c s its :
    NoStart p ->
    ~ (newrules = true /\ c = "$"%char /\ exists o s', opening o /\ s = String o s') ->
    Items newrules s its ->
    Items newrules (p ++ String c_bs (String c s)) (Lit p :: Esc c :: its)
| It_escref p o s its :
    newrules = true -> NoStart p -> opening o ->
    Items newrules s its ->
    Items newrules (p ++ String c_bs (String "$" (String o s))) (Lit p :: EscRef o :: its)
| It_ref p r s its :
    NoStart p -> Reference (String "$" r) ->
    Items newrules s its ->
    Items newrules (p ++ String "$" (r ++ s)) (Lit p :: Ref r :: its)
| It_unclosed p o c s :
    NoStart p -> bracket o c -> NeverCloses o c s ->
    Items newrules (p ++ String "$" (String o s)) [Lit p; Unclosed].

(** ** Meaning of the items

    [ev] evaluates a reference, threading a state of arbitrary type; [txt] is the
    textual form of a value. *)
Section Meaning.
  Context {St : Type}.
  Variable ev : St -> string -> St * result json.
  Variable txt : json -> string.

  Fixpoint items_text (newrules : bool) (st : St) (its : list item) : St * result string :=
    match its with
    | [] => (st, Ok "")
    | Lit s :: its' =>
        let (st', r) := items_text newrules st its' in
        (st', do t <- r; Ok (s ++ t)%string)
    | Esc c :: its' =>
        let (st', r) := items_text newrules st its' in
        let piece :=
          if newrules then
            if Ascii.eqb c c_bs then String c_bs ""      (* double backslash: one backslash *)
            else String c_bs (String c "")               (* anything else: kept as it is *)
          else String c "" in                            (* old rules: drop the backslash *)
        (st', do t <- r; Ok (piece ++ t)%string)
    | EscRef o :: its' =>
        let (st', r) := items_text newrules st its' in
        (st', do t <- r; Ok (String "$" (String o t)))
    | Ref body :: its' =>
        let (st1, v) := ev st body in
        match v with
        | Err e => (st1, Err e)
        | Ok v =>
            let (st2, r) := items_text newrules st1 its' in
            (st2, do t <- r; Ok (txt v ++ t)%string)
        end
    | Unclosed :: _ => (st, Err SubstitutionError)
    end.

  (** The whole: a single reference keeps its value, everything else is text. *)
  Definition items_value (newrules : bool) (st : St) (its : list item) : St * result json :=
    match its with
    | [Lit ""; Ref body; Lit ""] => ev st body
    | _ => let (st', r) := items_text newrules st its in (st', do t <- r; Ok (JStr t))
    end.
End Meaning.

(** The textual form of a value, given a JSON serialiser: a string stands for
    itself, everything else for its JSON text. *)
Definition value_text (dumps : json -> string) (v : json) : string :=
  match v with JStr s => s | _ => dumps v end.

(** What we assume of the JSON library: the text of a value is not empty, it
    starts with a double quote exactly for strings, and reading back the text of a
    string gives the string. *)
Definition json_library_ok (dumps : json -> string) (loads : string -> string) : Prop :=
  (forall s, exists t, dumps (JStr s) = String c_dq t) /\
  (forall s, loads (dumps (JStr s)) = s) /\
  (forall v, (forall s, v <> JStr s) -> exists c t, dumps v = String c t /\ c <> c_dq).

(** ** Escaping a text so that it is literal under the v1.2 rules *)
Fixpoint escape (s : string) : string :=
  match s with
  | EmptyString => EmptyString
  | String c s' =>
      if Ascii.eqb c c_bs then String c_bs (String c_bs (escape s'))
      else if Ascii.eqb c "$" then
        match s' with
        | String o _ =>
            if Ascii.eqb o "(" || Ascii.eqb o "{" then String c_bs (String "$" (escape s'))
            else String c (escape s')
        | EmptyString => String c (escape s')
        end
      else String c (escape s')
  end.
