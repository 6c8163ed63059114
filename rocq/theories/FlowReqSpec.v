(** * What the tool is meant to do with the requirements of a workflow *)
From Verif Require Import PackModel PyBase RefactorSpec FlowSpec FlowValueSpec.
From Verif Require Import RefactorModel FlowModel. (* for the types of documents, decimal numbers and the texts of C61 *)

(** a step that was not generated for an expression: its name does not begin with [_expression_] *)
Definition Own (st : wstep) : Prop := forall n, Fragment (ws_id st) n -> ~ StartsWith "_expression_" n.
Definition reqs_of (st : wstep) : list wreq := match ws_reqs st with Some l => l | None => [] end.
Definition IsEnv (r : wreq) : Prop := match r with REnv _ => True | _ => False end.
Definition IsRes (r : wreq) : Prop := match r with RRes _ => True | _ => False end.
Definition IsIwd (r : wreq) : Prop := match r with RIwd _ => True | _ => False end.

(** A step that evaluates [e] and sees no input: neither the step nor its tool has any. *)
Record MadeAlone (name e : string) (g : wstep) : Prop := {
  ma_id : ws_id g = name;
  ma_text : Runs (ws_run g) (etool_expression None e);
  ma_in : ws_in g = [];
  ma_tool : exists t, ws_run g = RTool t /\ t_inputs t = [];
  ma_scatter : ws_scatter g = SNone;
  ma_when : ws_when g = None }.

(** every step of the document has an input [x] that is linked to the result of [g] *)
Definition Linked (steps : list wstep) (g : wstep) (x : string) : Prop :=
  forall st, In st steps -> Own st -> exists i, In i (ws_in st) /\ si_id i = x /\
    si_source i = SOne (ws_id g ++ "/result") /\ si_valueFrom i = None.
Definition wreqs_of (w : workflow) : list wreq := match wf_reqs w with Some l => l | None => [] end.
(** The requirements [rs] were added to the steps of the document, and nothing else. *)
Definition Added (w w' : workflow) (rs : list wreq) : Prop :=
  exists olds news, wf_steps w' = olds ++ news /\
    Forall2 (fun st st' => (Own st -> reqs_of st' = reqs_of st ++ rs) /\ (~ Own st -> reqs_of st' = reqs_of st))
      (wf_steps w) olds.
(** every step of the document has the requirement *)
Definition Given (steps : list wstep) (r : wreq) : Prop := forall st, In st steps -> Own st -> In r (reqs_of st).

(** the requirement is there, and no other of its kind *)
Definition Once (P : wreq -> Prop) (l : list wreq) (r : wreq) : Prop :=
  exists a b, l = a ++ r :: b /\ Forall (fun x => ~ P x) a /\ Forall (fun x => ~ P x) b.

Section Reqs.
  (** get_expression: text, inputs, self *)
  Variable gx : json -> json -> json -> result (option string).

  (** ** EnvVarRequirement *)
  Inductive EnvMoved (steps : list wstep) (k : nat) : string * string -> string * string -> Prop :=
  | EM_kept n v : NotFound gx v -> EnvMoved steps k (n, v) (n, v)
  | EM_moved n v e g : v <> "" -> Found gx v e -> In g steps ->
      MadeAlone ("_expression_workflow_EnvVarRequirement_" ++ str_nat k) e g ->
      Linked steps g ("_envDef" ++ str_nat k) ->
      EnvMoved steps k (n, v) (n, ("$(inputs._envDef" ++ str_nat k ++ ")")%string).
  (** the definitions afterwards, one by one *)
  Inductive EnvsMoved (steps : list wstep) : nat -> list (string * string) -> list (string * string) -> Prop :=
  | EsM_nil k : EnvsMoved steps k [] []
  | EsM_cons k d d' l l' : EnvMoved steps k d d' -> EnvsMoved steps (S k) l l' -> EnvsMoved steps k (d :: l) (d' :: l').

  (** ** ResourceRequirement *)
  Definition ValueFound (v : json) (e : string) : Prop := e <> "" /\ exists inputs, gx v inputs JNull = Ok (Some e).
  Definition ValueNotFound (v : json) : Prop :=
    truthy v = false \/ exists inputs r, gx v inputs JNull = Ok r /\ (r = None \/ r = Some "").
  (** the value of a resource afterwards *)
  Definition ResMoved (steps : list wstep) (attrs : list string) (values values' : list (string * json)) (a : string) : Prop :=
    let v := match dget a values with Some v => v | None => JNull end in
    (dget a values' = None /\ (In a attrs -> ValueNotFound v)) \/
    (dget a values' = Some (JStr ("$(inputs._" ++ a ++ ")")) /\ In a attrs /\
     exists e g, ValueFound v e /\ In g steps /\ MadeAlone ("_expression_workflow_ResourceRequirement_" ++ a) e g /\
       Linked steps g ("_" ++ a)).

  (** ** InitialWorkDirRequirement with one expression as its listing *)
  Definition ListingMoved (steps : list wstep) (s : string) : Prop :=
    exists e g, Found gx s e /\ In g steps /\ MadeAlone "_expression_workflow_InitialWorkDirRequirement" e g /\
      Linked steps g "_iwdr_listing".
  (** An entry of a listing: an expression, or an object with a text or a name that may be one.
      The name counts only if there is no text. *)
  Definition no_text (t : option string) : Prop := t = None \/ t = Some "".
  Definition Plain (e : entry) (s : string) : Prop := e = EText s.
  Definition Named (e : entry) (s : string) : Prop := exists t, e = EDirent t (Some s) /\ s <> "" /\ no_text t.
  Definition Texted (e : entry) (s : string) : Prop := exists n, e = EDirent (Some s) n /\ s <> "".
  (** an entry afterwards *)
  Inductive EntryMoved (steps : list wstep) (k : nat) (last : nat) : entry -> entry -> Prop :=
  | EnM_kept e : (forall s, Plain e s \/ Named e s \/ Texted e s -> NotFound gx s) -> EntryMoved steps k last e e
  | EnM_moved e s x g : Plain e s \/ Named e s -> Found gx s x -> In g steps ->
      MadeAlone ("_expression_workflow_InitialWorkDirRequirement_" ++ str_nat k) x g ->
      Linked steps g ("_iwdr_listing_" ++ str_nat last) ->
      EntryMoved steps k last e (EText ("$(inputs._iwdr_listing_" ++ str_nat k)).
  Inductive EntriesMoved (steps : list wstep) : nat -> nat -> list entry -> list entry -> Prop :=
  | EnsM_nil k last : EntriesMoved steps k last [] []
  | EnsM_cons k last d d' l l' : EntryMoved steps k last d d' -> EntriesMoved steps (S k) last l l' ->
      EntriesMoved steps k last (d :: l) (d' :: l').
End Reqs.
