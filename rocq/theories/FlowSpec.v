(** * What the refactoring tool is meant to do with workflows *)
From Verif Require Import PyBase RefactorSpec.
From Verif Require Import RefactorModel FlowModel. (* for the types of documents only *)

(** ** Names and sources *)
Definition Mentions (s : src) (x : string) : Prop := s = SOne x \/ exists l, s = SMany l /\ In x l.

(** the part of an id after the last slash *)
Definition LastPart (id x : string) : Prop :=
  has_char "/" x = false /\ (id = x \/ exists p, id = (p ++ "/" ++ x)%string).

(** [x] is a source of the document, perhaps written without the name of the file *)
Definition OldSource (w : workflow) (x : string) : Prop :=
  exists y, (x = y \/ Fragment y x) /\
    ((exists st i, In st (wf_steps w) /\ In i (ws_in st) /\ Mentions (si_source i) y) \/
     (exists o, In o (wf_outputs w) /\ Mentions (wo_source o) y)).

(** the step has exactly one output, [result] *)
Definition GivesResult (g : wstep) : Prop :=
  exists t, ws_run g = RTool t /\ map to_id (t_outputs t) = ["result"].
(** [x] is the result of one of the steps *)
Definition ResultOf (steps : list wstep) (x : string) : Prop :=
  exists g, In g steps /\ x = (ws_id g ++ "/result")%string /\ GivesResult g.

(** every source of the steps and outputs is an old one, or the result of a step *)
Definition Closed (w w' : workflow) : Prop :=
  (forall st i x, In st (wf_steps w') -> In i (ws_in st) -> Mentions (si_source i) x ->
     OldSource w x \/ ResultOf (wf_steps w') x) /\
  (forall o x, In o (wf_outputs w') -> Mentions (wo_source o) x ->
     OldSource w x \/ ResultOf (wf_steps w') x).

(** ** Steps *)
Definition StartsWith (p s : string) : Prop := exists r, s = (p ++ r)%string.
Definition EndsWith (p s : string) : Prop := exists r, s = (r ++ p)%string.

(** An input of a step afterwards: as it was, or fed by the step made from its
    valueFrom. *)
Definition InputAfter (st : wstep) (gen : list wstep) (i i' : sinput) : Prop :=
  i' = i \/
  exists n x g, Fragment (ws_id st) n /\ LastPart (si_id i) x /\ In g gen /\
    ws_id g = ("_expression_" ++ n ++ "_" ++ x)%string /\
    (exists t, si_valueFrom i = Some t /\ t <> "") /\
    i' = {| si_id := si_id i; si_source := SOne (ws_id g ++ "/result"); si_valueFrom := None;
            si_linkMerge := si_linkMerge i; si_default := si_default i |}.

(** A step afterwards: the same step, with the same inputs in the same order followed by
    new ones, whose names begin with an underscore. *)
Record StepAfter (gen : list wstep) (st st' : wstep) : Prop := {
  sa_id : ws_id st' = ws_id st;
  sa_scatter : ws_scatter st' = ws_scatter st;
  sa_method : ws_scatterMethod st' = ws_scatterMethod st;
  sa_reqs : exists added, (match ws_reqs st' with Some l => l | None => [] end)
                          = (match ws_reqs st with Some l => l | None => [] end) ++ added;
  sa_in : exists old new, ws_in st' = old ++ new /\ Forall2 (InputAfter st gen) (ws_in st) old /\
            Forall (fun i => StartsWith "_" (si_id i)) new;
  sa_when : ws_when st' = ws_when st \/
            (ws_when st' = Some "$(inputs._when)" /\
             exists g i, In g gen /\ In i (ws_in st') /\ si_id i = "_when" /\
               si_source i = SOne (ws_id g ++ "/result") /\ StartsWith "_when_expression_" (ws_id g)) }.

(** An output of the workflow afterwards: as it was, or, if it had a pickValue, the result
    of the step made for it. *)
Definition OutAfter (gen : list wstep) (o o' : woutput) : Prop :=
  o' = o \/
  exists n g, Fragment (wo_id o) n /\ In g gen /\ ws_id g = ("_pickValue_workflow_step_" ++ n)%string /\
    (exists p, wo_pick o = Some p /\ p <> "") /\
    o' = {| wo_id := wo_id o; wo_source := SOne (ws_id g ++ "/result"); wo_pick := None |}.

(** the names of the steps made by the tool *)
Definition MadeName (s : string) : Prop :=
  StartsWith "_expression_" s \/ StartsWith "_when_expression_" s \/ StartsWith "_pickValue_workflow_step_" s.
