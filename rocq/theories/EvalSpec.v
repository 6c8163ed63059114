(** * What a parameter reference means, independently of the matcher and evaluator. *)
From Verif Require Import PyBase.

(** One step of a path, in one of the four spellings of the CWL grammar. *)
Inductive seg : Type :=
| Dot (name : string)          (* .name *)
| SQuoted (key : string)       (* ['key'] *)
| DQuoted (key : string)       (* ["key"] *)
| Index (digits : string).     (* [digits] *)

(** A key written between quotes [q]: each [q] is preceded by a backslash. *)
Fixpoint quote_key (q : ascii) (k : string) : string :=
  match k with
  | EmptyString => EmptyString
  | String c k' =>
      if Ascii.eqb c q then String c_bs (String q (quote_key q k')) else String c (quote_key q k')
  end.

Definition write_seg (s : seg) : string :=
  match s with
  | Dot n => "." ++ n
  | SQuoted k => "['" ++ quote_key c_sq k ++ "']"
  | DQuoted k => String "[" (String c_dq (quote_key c_dq k ++ String c_dq "]"))
  | Index d => "[" ++ d ++ "]"
  end%string.

Fixpoint write_path (p : list seg) : string :=
  match p with
  | [] => EmptyString
  | s :: p' => (write_seg s ++ write_path p')%string
  end.

(** The reference body [(root path)]. *)
Definition write_ref (root : string) (p : list seg) : string :=
  ("(" ++ root ++ write_path p ++ ")")%string.

(** Spellings the grammar can express.  A quoted key is not empty, does not
    contain its own closing sequence (quote, bracket), and does not contain the
    escape sequence of the other quote (which reading would unescape too). *)
Definition plain_seg (s : seg) : Prop :=
  match s with
  | Dot n => n <> "" /\ sforall is_word n = true
  | SQuoted k => k <> "" /\ contains "']" k = false /\
                 contains (String c_bs (String c_dq "")) k = false
  | DQuoted k => k <> "" /\ contains (String c_dq "]") k = false /\
                 contains (String c_bs (String c_sq "")) k = false
  | Index d => d <> "" /\ sforall is_digit d = true
  end.

(** The number a digit string denotes. *)
Inductive Denotes : string -> nat -> Prop :=
| Den_nil : Denotes "" 0
| Den_snoc d n c : Denotes d n -> is_digit c = true ->
    Denotes (d ++ String c "") (10 * n + (nat_of_ascii c - nat_of_ascii "0")).

(** [Walk v p w]: walking path [p] from value [v] arrives at [w].  The length of
    a list can be asked for as the last step. *)
Inductive Walk : json -> list seg -> json -> Prop :=
| W_end v : Walk v [] v
| W_dot d n v p w : dget n d = Some v -> Walk v p w -> Walk (JDict d) (Dot n :: p) w
| W_sq d k v p w : dget k d = Some v -> Walk v p w -> Walk (JDict d) (SQuoted k :: p) w
| W_dq d k v p w : dget k d = Some v -> Walk v p w -> Walk (JDict d) (DQuoted k :: p) w
| W_index l t n v p w : Denotes t n -> nth_error l n = Some v -> Walk v p w ->
    Walk (JList l) (Index t :: p) w
| W_length l s : s = Dot "length" \/ s = SQuoted "length" \/ s = DQuoted "length" ->
    Walk (JList l) [s] (JInt (Z.of_nat (List.length l))).

(** At some step the path asks for element 0 (spelled with any number of zeros)
    of an empty list. *)
Inductive ZeroOfEmpty : json -> list seg -> Prop :=
| ZE_here t p : Denotes t 0 -> ZeroOfEmpty (JList []) (Index t :: p)
| ZE_dot d n v p : dget n d = Some v -> ZeroOfEmpty v p -> ZeroOfEmpty (JDict d) (Dot n :: p)
| ZE_sq d k v p : dget k d = Some v -> ZeroOfEmpty v p -> ZeroOfEmpty (JDict d) (SQuoted k :: p)
| ZE_dq d k v p : dget k d = Some v -> ZeroOfEmpty v p -> ZeroOfEmpty (JDict d) (DQuoted k :: p)
| ZE_index l t n v p : Denotes t n -> nth_error l n = Some v -> ZeroOfEmpty v p ->
    ZeroOfEmpty (JList l) (Index t :: p).

(** Requirements, read as CWL means them. *)
Definition is_js_requirement (r : dict) : Prop :=
  dget "class" r = Some (JStr "InlineJavascriptRequirement").
Definition wf_requirement (r : dict) : Prop :=
  (exists c, dget "class" r = Some (JStr c)) /\
  (dget "expressionLib" r = None \/
   exists l, dget "expressionLib" r = Some (JList (map JStr l))).
Definition lib_of (r : dict) : list string :=
  match dget "expressionLib" r with
  | Some (JList l) => flat_map (fun x => match x with JStr s => [s] | _ => [] end) l
  | _ => []
  end.

(** The root names of a parameter reference. *)
Definition is_root (root : string) : Prop := root = "inputs" \/ root = "self" \/ root = "runtime".

(** Keys without backslashes. *)
Definition no_bs (s : seg) : Prop :=
  match s with
  | SQuoted k | DQuoted k => has_char c_bs k = false
  | _ => True
  end.

(** The CWL versions with the old escaping rules. *)
Definition old_rules_version (v : string) : Prop :=
  v = "v1.0" \/ v = "v1.1.0-dev1" \/ v = "v1.1" \/
  v = "v1.2.0-dev1" \/ v = "v1.2.0-dev2" \/ v = "v1.2.0-dev3".

(** What a caller of do_eval sees of an evaluation: exceptions arrive as
    WorkflowException. *)
Definition as_workflow_failure {St : Type} (r : St * result json) : St * result json :=
  match r with
  | (st', Err e) => (st', Err (if is_Exception e then WorkflowException else e))
  | r => r
  end.

(** The value of runtime.outdir and runtime.tmpdir: the directory, or null when there is none. *)
Definition directory (d : option string) : json :=
  match d with None | Some "" => JNull | Some s => JStr s end.

(** ** Which texts are parameter references
    The text between two quotes [q]: one or more characters other than [q], or
    [q] after a backslash. *)
Inductive QuotedText (q : ascii) : string -> Prop :=
| QT_char c s : c <> q -> s = "" \/ QuotedText q s -> QuotedText q (String c s)
| QT_escape s : s = "" \/ QuotedText q s -> QuotedText q (String c_bs (String q s)).
Inductive SegmentText : string -> Prop :=
| ST_field n : n <> "" -> sforall is_word n = true -> SegmentText ("." ++ n)
| ST_quoted q t : q = c_sq \/ q = c_dq -> QuotedText q t ->
    SegmentText (String "[" (String q (t ++ String q "]")))
| ST_index d : d <> "" -> sforall is_digit d = true -> SegmentText ("[" ++ d ++ "]").
Inductive SegmentTexts : string -> Prop :=
| STs_nil : SegmentTexts ""
| STs_cons s t : SegmentText s -> SegmentTexts t -> SegmentTexts (s ++ t).
(** [RefText root ex]: [ex] is a bracketed reference from [root], a line feed may follow. *)
Definition RefText (root ex : string) : Prop :=
  exists t e, ex = ("(" ++ root ++ t ++ ")" ++ e)%string /\ root <> "" /\ sforall is_word root = true /\
    SegmentTexts t /\ (e = "" \/ e = String c_nl "").
