(** * The names of the steps of a refactored workflow *)
From Verif Require Import PyBase RefactorSpec FlowSpec FlowValueSpec FlowReqSpec FlowToolSpec.
From Verif Require Import PackModel RefactorModel FlowModel. (* for the types of documents *)

(** what follows the last number sign, or the whole *)
Fixpoint fragment (s : string) : string :=
  match s with
  | EmptyString => EmptyString
  | String c r => if has_char "#" r then fragment r else if Ascii.eqb c "#" then r else s
  end.
Definition step_name (st : wstep) : string := fragment (ws_id st).

Definition has_text (o : option string) : bool := match o with Some (String _ _) => true | _ => false end.
Definition numbered (p : string) (n : nat) : list string := map (fun k => (p ++ str_nat k)%string) (seq 0 n).

(** ** The places in a step where an expression may be, by their names *)
Definition value_places (ins : list sinput) : list string := map name_of (filter (fun i => has_text (si_valueFrom i)) ins).
Definition req_places (attrs : list string) (r : wreq) : list string :=
  match r with
  | RRes _ => map (fun a => ("ResourceRequirement_" ++ a)%string) attrs
  | RIwd (LText _) => ["InitialWorkDirRequirement"]
  | RIwd (LList l) => numbered "InitialWorkDirRequirement_" (List.length l)
  | _ => []
  end.
Definition tool_places (t : tool) : list string :=
  numbered "arguments_" (List.length (t_args t)) ++
  (if has_text (t_stdout t) then ["stdout"] else []) ++ (if has_text (t_stderr t) then ["stderr"] else []) ++
  map (fun p => (fragment (ti_id p) ++ "_valueFrom")%string) (filter (fun p => has_text (ti_valueFrom p)) (t_inputs t)) ++
  map (fun o => (fragment (to_id o) ++ "_glob")%string) (filter (fun o => match to_glob o with JNull => false | _ => true end) (t_outputs t)).
(** an ExpressionTool written in its step becomes a CommandLineTool: its script and its stdout.  One that is loaded
    has been refactored by then, and is taken as it is. *)
Definition made_places : list string := ["InitialWorkDirRequirement_0"; "stdout"].
Definition run_places (attrs : list string) (replace_etool : bool) (t : tool) : list string :=
  match t_kind t, replace_etool with
  | KEtool, true => made_places
  | KClt, _ => flat_map (req_places attrs) (match t_reqs t with Some l => l | None => [] end) ++ tool_places t
  | _, _ => flat_map (req_places attrs) (match t_reqs t with Some l => l | None => [] end)
  end.
Definition written_there (st : wstep) : bool := match ws_run st with RTool _ => true | _ => false end.
Definition places (attrs : list string) (replace_etool : bool) (st : wstep) (t : tool) : list string :=
  value_places (ws_in st) ++ run_places attrs (written_there st && replace_etool) t.
(** the step made for a condition has the inputs of the step and is refactored too *)
Definition when_places (replace_etool : bool) (st : wstep) : list string :=
  value_places (ws_in st) ++ (if replace_etool then made_places else []).
(** the places of a workflow *)
Definition wf_req_places (attrs : list string) (r : wreq) : list string :=
  match r with
  | REnv l => numbered "EnvVarRequirement_" (List.length l)
  | _ => req_places attrs r
  end.
Definition workflow_places (attrs : list string) (w : workflow) : list string :=
  flat_map (wf_req_places attrs) (match wf_reqs w with Some l => l | None => [] end).

(** ** Names that keep apart *)
Definition no_hashes (l : list string) : Prop := Forall (fun s => has_char "#" s = false) l.
Record NamesApart (load : string -> result (tool * bool)) (attrs : list string) (replace_etool : bool) (w : workflow) : Prop := {
  (** names of steps differ, are not empty, do not begin with an underscore, are not [workflow], and none is
      another one, or [workflow], followed by an underscore and more *)
  na_steps : NoDup ("workflow" :: map step_name (wf_steps w));
  na_begin : Forall (fun n => n <> "" /\ ~ StartsWith "_" n) (map step_name (wf_steps w));
  na_prefix : forall a b r, In a ("workflow" :: map step_name (wf_steps w)) -> In b ("workflow" :: map step_name (wf_steps w)) ->
                b <> (a ++ "_" ++ r)%string;
  na_ids : Forall (fun st => OneHash (ws_id st)) (wf_steps w);
  (** the places of one step differ *)
  na_places : forall st t, In st (wf_steps w) -> RunsTool load st t ->
    NoDup (places attrs replace_etool st t) /\ no_hashes (places attrs replace_etool st t);
  na_when : forall st, In st (wf_steps w) -> has_text (ws_when st) = true ->
    NoDup (when_places replace_etool st) /\ no_hashes (when_places replace_etool st);
  (** so do those of the workflow, and the outputs with pickValue *)
  na_workflow : NoDup (workflow_places attrs w) /\ no_hashes (workflow_places attrs w);
  na_outputs : NoDup (map (fun o => fragment (wo_id o)) (filter (fun o => has_text (wo_pick o)) (wf_outputs w))) }.
