(** * What the refactoring tool is meant to do with texts, references and files *)
From Verif Require Import PyBase ExprSpec.
From Verif Require Import RefactorModel. (* for the types [src], [jsreq] only *)

(** ** Inert text *)
Definition Inert (s : string) : Prop := contains "$(" s = false /\ contains "${" s = false.

(** A slash between each dollar and an opening bracket after it; nothing else changes. *)
Fixpoint slashed (s : string) : string :=
  match s with
  | EmptyString => EmptyString
  | String c s' =>
      match s' with
      | String o _ =>
          if Ascii.eqb c "$" && (Ascii.eqb o "(" || Ascii.eqb o "{")
          then String c (String "/" (slashed s')) else String c (slashed s')
      | EmptyString => String c ""
      end
  end.

(** ** The JavaScript expression for an interpolated text

    [lit s] is the JavaScript string literal that denotes [s].  Each piece of the
    text is an operand; strings stand for themselves, the value of a reference is
    used as it is when it is a string and as its JSON text otherwise. *)
Section Concatenation.
  Variable lit : string -> string.

  (** the code between the brackets of a reference, given as text after the dollar *)
  Definition reference_code (body : string) : string := sdrop_last 1 (sdrop 1 body).

  Definition operand (i : item) : string :=
    match i with
    | Lit s => lit s
    | Esc c => lit (if Ascii.eqb c c_bs then String c_bs "" else String c_bs (String c ""))
    | EscRef o => lit (String "$" (String o ""))
    | Ref body =>
        ("function(){var item =" ++ reference_code body ++ "; if (typeof(item) === "
          ++ String c_dq ("string" ++ String c_dq "){ return item; } else { return JSON.stringify(item); }}()"))%string
    | Unclosed => ""
    end.
  Definition concatenation (its : list item) : string := sjoin " + " (map operand its).
End Concatenation.

(** A text that can be put between double quotes as it is. *)
Definition quotable (c : ascii) : bool :=
  (32 <=? nat_of_ascii c) && (nat_of_ascii c <=? 126) && negb (Ascii.eqb c c_dq) && negb (Ascii.eqb c c_bs).
Definition Quotable (s : string) : Prop := sforall quotable s = true.
(** What we use of [json.dumps] on strings: such texts are only put between quotes, ... *)
Definition dumps_quotes (dumps : json -> string) : Prop :=
  forall s, Quotable s -> dumps (JStr s) = String c_dq (s ++ String c_dq "").
(** ... and in every text a double quote gets a backslash. *)
Definition dumps_escapes (dumps : json -> string) : Prop :=
  forall a b, exists a' b', dumps (JStr (a ++ String c_dq b)) = (a' ++ String c_bs (String c_dq b'))%string.

(** ** The code of an expression *)
(** [HasCode s code]: apart from surrounding white space [s] is the code block
    [${code}]. *)
Definition HasCode (s code : string) : Prop := strip s = ("${" ++ code ++ "}")%string.

(** ** Expression libraries *)
(** the requirements of a process declare JavaScript, with this library *)
Definition Declares (reqs : list jsreq) (lib : option (list string)) : Prop :=
  exists x y, reqs = x ++ InlineJS lib :: y /\ forall l, ~ In (InlineJS l) x.
Definition NoJS (reqs : list jsreq) : Prop := forall l, ~ In (InlineJS l) reqs.

(** ** Names *)
(** what a source refers to: the part after the last number sign *)
Definition Fragment (s f : string) : Prop :=
  has_char "#" f = false /\ (s = f \/ exists p, s = (p ++ "#" ++ f)%string).

(** [FromStep x old]: the source [x] names the output [old] of some step. *)
Definition FromStep (x old : string) : Prop :=
  exists step, has_char "/" step = false /\ Fragment x (step ++ "/" ++ old).

(** [Redirected hit new s t]: [t] is [s] with exactly the names in [hit] replaced
    by [new].  ([src] is the type of sources of the model.) *)
Inductive Redirected (hit : string -> Prop) (new : string) : src -> src -> Prop :=
| R_none : Redirected hit new SNone SNone
| R_one x y : (hit x /\ y = new) \/ (~ hit x /\ y = x) -> Redirected hit new (SOne x) (SOne y)
| R_many l l' : Forall2 (fun x y => (hit x /\ y = new) \/ (~ hit x /\ y = x)) l l' ->
    Redirected hit new (SMany l) (SMany l').

(** ** Files: which document ends how, judged by the files before the run *)
Section Documents.
  Context {P : Type}.
  Variable parse : string -> result json.          (* reading YAML *)
  Variable traverse : string -> json -> string -> result (P * bool).
  Variable render : P -> result string.

  Definition supported_version (v : json) : Prop :=
    v = JStr "v1.0" \/ v = JStr "v1.1" \/ v = JStr "v1.2".
  Definition skippable (e : exn) : Prop := e = WorkflowException \/ e = GraphTargetMissingException.

  Inductive Refactored (document text out : string) : Prop :=
  | Refactored_intro d v p : parse text = Ok (JDict d) -> dget "cwlVersion" d = Some (JStr v) ->
      supported_version (JStr v) -> traverse v (JDict d) document = Ok (p, true) -> render p = Ok out ->
      Refactored document text out.
  Inductive Unchanged (document text : string) : Prop :=
  | Unchanged_intro d v p : parse text = Ok (JDict d) -> dget "cwlVersion" d = Some (JStr v) ->
      supported_version (JStr v) -> traverse v (JDict d) document = Ok (p, false) ->
      Unchanged document text.
  Inductive Unsupported (text : string) : Prop :=
  | Unsupported_intro d v : parse text = Ok (JDict d) -> dget "cwlVersion" d = Some v ->
      ~ supported_version v -> Unsupported text.
  Inductive Failed (document text : string) : Prop :=
  | Failed_traverse d v e : parse text = Ok (JDict d) -> dget "cwlVersion" d = Some (JStr v) ->
      supported_version (JStr v) -> traverse v (JDict d) document = Err e -> skippable e ->
      Failed document text
  | Failed_render d v p e : parse text = Ok (JDict d) -> dget "cwlVersion" d = Some (JStr v) ->
      supported_version (JStr v) -> traverse v (JDict d) document = Ok (p, true) ->
      render p = Err e -> skippable e -> Failed document text.
End Documents.

(** The file a document is written to: same name, in the output directory. *)
Definition Output (dir document path : string) : Prop :=
  exists name, path = (dir ++ "/" ++ name)%string /\ has_char "/" name = false /\
    (document = name \/ exists p, document = (p ++ "/" ++ name)%string).
