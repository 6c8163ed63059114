(** * Documents that are refactored completely *)
From Verif Require Import PyBase FlowSpec FlowToolSpec FlowOldSpec.
From Verif Require Import RefactorModel FlowModel. (* for the types of documents *)

Section Twice.
  (** get_expression: text, inputs, self *)
  Variable gx : json -> json -> json -> result (option string).

  (** there is no expression in the text with these inputs; with any inputs *)
  Definition NoneFound (v inputs self : json) : Prop := gx v inputs self = Ok None \/ gx v inputs self = Ok (Some "").
  Definition Calm (v : json) : Prop := forall inputs self, NoneFound v inputs self.
  Definition CalmText (o : option string) : Prop := forall s, o = Some s -> s = "" \/ Calm (JStr s).
  (** if there is none with some inputs, there is none with any: so for plain texts and for code,
      but not for references to inputs *)
  Definition Steady (v : json) : Prop := (exists inputs self, NoneFound v inputs self) -> Calm v.
  Definition SteadyText (o : option string) : Prop := forall s, o = Some s -> Steady (JStr s).
  (** The reference that the refactoring writes is no expression if the input is there; nor is the
      empty text. *)
  Definition SeesReferences : Prop :=
    Calm (JStr "") /\
    forall x d, sforall is_word x = true -> dget ("_" ++ x) d <> None -> NoneFound (JStr ("$(inputs._" ++ x ++ ")")) (JDict d) JNull.

  Definition ArgText (a : targ) : option string := match a with AText s => Some s | ABind v => v end.
  Definition EntrySays (e : entry) (s : string) : Prop :=
    match e with EText s' => s = s' | EDirent text name => text = Some s \/ name = Some s | EOther _ => False end.
  Definition SteadyReq (r : wreq) : Prop :=
    match r with
    | REnv defs => forall n v, In (n, v) defs -> Steady (JStr v)
    | RRes values => forall a v, dget a values = Some v -> Steady v
    | RIwd (LText s) => Steady (JStr s)
    | RIwd (LList es) => forall e s, In e es -> EntrySays e s -> Steady (JStr s)
    | _ => True
    end.

  (** A CommandLineTool without expressions in the places that are not cleared by the refactoring:
      the valueFrom of an inputBinding, glob, outputEval, and the entries of a listing that are
      plain texts; and with steady texts in the others.  [skip1], [skip2]: the options that leave some of them out. *)
  Record Extractable (skip1 skip2 : bool) (t : tool) : Prop := {
    xt_kind : t_kind t = KClt;
    xt_args : skip1 = false -> forall a, In a (t_args t) -> SteadyText (ArgText a);
    xt_stdout : SteadyText (t_stdout t);
    xt_stderr : SteadyText (t_stderr t);
    xt_reqs : forall l r, t_reqs t = Some l -> In r l -> SteadyReq r;
    xt_bindings : skip1 = false -> forall p, In p (t_inputs t) -> CalmText (ti_valueFrom p);
    xt_globs : forall o, In o (t_outputs t) -> truthy (to_glob o) = true -> Calm (to_glob o);
    xt_evals : skip2 = false -> forall o, In o (t_outputs t) -> CalmText (to_eval o);
    xt_entries : skip2 = false -> forall l es s, t_reqs t = Some l -> In (RIwd (LList es)) l -> In (EText s) es -> Calm (JStr s) }.

  (** every step has a name of its own and runs such a tool *)
  Definition Steps (load : string -> result (tool * bool)) (skip1 skip2 : bool) (w : workflow) : Prop :=
    forall st, In st (wf_steps w) ->
      ws_id st <> "" /\ ~ StartsWith "_expression" (ws_id st) /\ OneHash (ws_id st) /\
      (forall i, In i (ws_in st) -> SteadyText (si_valueFrom i)) /\
      exists t, RunsTool load st t /\ Extractable skip1 skip2 t.
End Twice.

(** the requirements, as a list *)
Definition reqs_list (o : option (list wreq)) : list wreq := match o with Some l => l | None => [] end.
(** the same workflow *)
Definition SameWorkflow (w w' : workflow) : Prop :=
  wf_inputs w' = wf_inputs w /\ wf_outputs w' = wf_outputs w /\ wf_steps w' = wf_steps w /\
  reqs_list (wf_reqs w') = reqs_list (wf_reqs w).
