(** * What it means that a refactored tool runs the same command *)
From Verif Require Import PyBase RefactorSpec FlowSpec FlowValueSpec FlowReqSpec FlowToolSpec FlowEvalSpec TraverseSpec.
From Verif Require Import PackModel RefactorModel FlowModel. (* for the types of documents, decimal numbers and the texts of C61 *)

(** ** Names *)
Definition letter (c : ascii) : bool :=
  let n := nat_of_ascii c in (Nat.leb 65 n && Nat.leb n 90) || (Nat.leb 97 n && Nat.leb n 122).
Definition digit (c : ascii) : bool := let n := nat_of_ascii c in Nat.leb 48 n && Nat.leb n 57.
Fixpoint all_chars (p : ascii -> bool) (s : string) : bool :=
  match s with EmptyString => true | String c s' => p c && all_chars p s' end.
(** letters, digits and underscores *)
Definition identifier (s : string) : bool := all_chars (fun c => letter c || digit c || Ascii.eqb c "_") s.
(** the fields of a ResourceRequirement: letters, and none is called as a field of the tool *)
Definition FieldName (a : string) : Prop := all_chars letter a = true /\ ~ In a ["stdout"; "stderr"; "glob"; "valueFrom"].

(** ** The inputs that a step gets for the expressions of its tool, [n] being its name *)
Inductive Fed (attrs : list string) (n : string) : sinput -> Prop :=
| Fd_arg k : Fed attrs n (fed_by ("_arguments_" ++ str_nat k) ("_expression_" ++ n ++ "_arguments_" ++ str_nat k ++ "/result"))
| Fd_text k : Fed attrs n {| si_id := "_expression_" ++ n ++ "_arguments_" ++ str_nat k ++ "/result"; si_source := SNone; si_valueFrom := None;
                             si_linkMerge := Some ("_arguments_" ++ str_nat k)%string; si_default := JNull |}
| Fd_stdout : Fed attrs n (fed_by "_stdout" ("_expression_" ++ n ++ "_stdout/result"))
| Fd_stderr : Fed attrs n (fed_by "_stderr" ("_expression_" ++ n ++ "_stderr/result"))
| Fd_binding x : Fed attrs n (fed_by ("_" ++ x ++ "_valueFrom") ("_expression_" ++ n ++ "_" ++ x ++ "_valueFrom/result"))
| Fd_glob x : Fed attrs n (fed_by ("_" ++ x ++ "_glob") ("_expression_" ++ n ++ "_" ++ x ++ "_glob/result"))
| Fd_res a : In a attrs -> Fed attrs n (fed_by ("_" ++ a) ("_expression_" ++ n ++ "_ResourceRequirement_" ++ a ++ "/result"))
| Fd_listing : Fed attrs n (fed_by "_iwdr_listing" ("_expression_" ++ n ++ "_InitialWorkDirRequirement/result"))
| Fd_entry k : Fed attrs n (fed_by ("_iwdr_listing_" ++ str_nat k) ("_expression_" ++ n ++ "_InitialWorkDirRequirement_" ++ str_nat k ++ "/result")).

(** ** The command of a tool *)

(** the value of a resource *)
Definition resource (values : list (string * json)) (a : string) : json := match dget a values with Some v => v | None => JNull end.
Definition reqs_of (t : tool) : list wreq := match t_reqs t with Some l => l | None => [] end.

(** the texts of a tool that are evaluated when it runs (entries of a listing: see C68) *)
Inductive TextOf (t : tool) : json -> Prop :=
| TO_bind s : In (ABind (Some s)) (t_args t) -> TextOf t (JStr s)
| TO_text s : In (AText s) (t_args t) -> TextOf t (JStr s)
| TO_stdout s : t_stdout t = Some s -> TextOf t (JStr s)
| TO_stderr s : t_stderr t = Some s -> TextOf t (JStr s)
| TO_binding p s : In p (t_inputs t) -> ti_valueFrom p = Some s -> TextOf t (JStr s)
| TO_glob o : In o (t_outputs t) -> TextOf t (to_glob o)
| TO_eval o s : In o (t_outputs t) -> to_eval o = Some s -> TextOf t (JStr s)
| TO_resource values a : In (RRes values) (reqs_of t) -> TextOf t (resource values a)
| TO_env defs x s : In (REnv defs) (reqs_of t) -> In (x, s) defs -> TextOf t (JStr s).

Section Same.
  (** the value of a field: self, the text, the inputs *)
  Variable eval : json -> json -> (string -> option json) -> json.
  (** the inputs that the tool sees, before and after *)
  Variables own now : string -> option json.

  Definition SameText (s s' : option string) : Prop :=
    match s, s' with
    | None, None => True
    | Some s, Some s' => eval JNull (JStr s') now = eval JNull (JStr s) own
    | _, _ => False
    end.
  Definition SameArg (a a' : targ) : Prop :=
    match a, a' with
    | ABind v, ABind v' => SameText v v'
    | AText s, AText s' => SameText (Some s) (Some s')
    | _, _ => False
    end.
  (** an input: the same name and type, the same value, and the same value on the command line *)
  Definition SameParam (p p' : tinput) : Prop :=
    exists x w, ParamName (ti_id p) x /\ ParamName (ti_id p') x /\ ti_type p' = ti_type p /\ own x = Some w /\ now x = Some w /\
      match ti_valueFrom p, ti_valueFrom p' with
      | None, None => True
      | Some s, Some s' => eval w (JStr s') now = eval w (JStr s) own
      | _, _ => False
      end.
  (** an output: the same files, and the same value made of them *)
  Definition SameResult (o o' : toutput) : Prop :=
    ShortFor (to_id o) (to_id o') /\ eval JNull (to_glob o') now = eval JNull (to_glob o) own /\ to_contents o' = to_contents o /\
    match to_eval o, to_eval o' with
    | None, None => True
    | Some s, Some s' => forall self, eval self (JStr s') now = eval self (JStr s) own
    | _, _ => False
    end.
  Definition SameResources (values values' : list (string * json)) : Prop :=
    forall a, eval JNull (resource values' a) now = eval JNull (resource values a) own.
  Definition SameEnv (defs defs' : list (string * string)) : Prop :=
    Forall2 (fun d d' => fst d' = fst d /\ eval JNull (JStr (snd d')) now = eval JNull (JStr (snd d)) own) defs defs'.

  Record SameCommand (t t' : tool) : Prop := {
    sc_kind : t_kind t' = t_kind t;
    sc_args : Forall2 SameArg (t_args t) (t_args t');
    sc_stdout : SameText (t_stdout t) (t_stdout t');
    sc_stderr : SameText (t_stderr t) (t_stderr t');
    sc_inputs : exists old new, t_inputs t' = old ++ new /\ Forall2 SameParam (t_inputs t) old /\ Forall (fun p => ti_valueFrom p = None) new;
    sc_outputs : Forall2 SameResult (t_outputs t) (t_outputs t');
    sc_res : forall values, In (RRes values) (reqs_of t) -> exists values', In (RRes values') (reqs_of t') /\ SameResources values values';
    sc_env : forall defs, In (REnv defs) (reqs_of t) -> exists defs', In (REnv defs') (reqs_of t') /\ SameEnv defs defs' }.
End Same.

(** ** Values in a workflow *)

(** [v] has a value for every input of the workflow, under its name, and for the result of every step
    made by the refactoring, under [step/result]: the result of the tool that the step runs.
    [val] is the value of an input of a step: of source, linkMerge, default and valueFrom. *)
Section Workflow.
  Variable v : string -> json.
  Variable val : src -> option string -> json -> option string -> json.
  (** the result of running a process on inputs *)
  Variable gives : run -> (string -> option json) -> json.
  Definition Links : Prop := forall x, val (SOne x) None JNull None = v x.
  Definition Solves (made : list wstep) : Prop :=
    forall g, In g made -> v (ws_id g ++ "/result")%string = gives (ws_run g) (inputs_in val (ws_in g) (params_of (ws_run g))).
End Workflow.

(** ** What is taken for granted about values: [uses], the inputs that a text uses *)
Record Meaning (t : tool) (eval : json -> json -> (string -> option json) -> json) (uses : json -> string -> Prop) : Prop := {
  (** the value of a text depends on the inputs it uses *)
  mn_local : forall self text o o', (forall x, uses text x -> o x = o' x) -> eval self text o = eval self text o';
  (** a parameter reference *)
  mn_reference : forall x w o, identifier x = true -> o x = Some w -> eval JNull (JStr ("$(inputs." ++ x ++ ")")) o = w;
  (** the texts of [t] use inputs of [t] *)
  mn_uses : forall text x, TextOf t text -> uses text x -> exists p, In p (t_inputs t) /\ Fragment (ti_id p) x }.
(** a tool made for an expression found in a text of [t] gives the value of that text (C60, C61, C82) *)
Definition Computes (gx : json -> json -> json -> result (option string)) (t : tool)
    (eval : json -> json -> (string -> option json) -> json) (gives : run -> (string -> option json) -> json) (made : list wstep) : Prop :=
  forall g text inputs self e o, In g made -> TextOf t text -> gx text inputs self = Ok (Some e) -> e <> "" ->
    Runs (ws_run g) (etool_expression None e) -> gives (ws_run g) o = eval JNull text o.

(** ** Tools to which this applies: see C69 for outputEval, C67 for texts as arguments, C81 for stdout *)
Record Suitable (gx : json -> json -> json -> result (option string)) (t : tool) (types : list json) : Prop := {
  su_kind : t_kind t = KClt;
  su_names : PlainNames t;
  su_under : forall p n, In p (t_inputs t) -> Fragment (ti_id p) n -> ~ StartsWith "_" n;
  su_stdout : Forall (fun ty => ty <> JStr "stdout") types;
  su_evals : forall o s e, In o (t_outputs t) -> to_eval o = Some s -> ~ Found gx s e;
  su_texts : forall s e, In (AText s) (t_args t) -> ~ Found gx s e }.
