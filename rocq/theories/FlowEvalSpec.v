(** * What the tool is meant to do with outputEval *)
From Verif Require Import PyBase RefactorSpec FlowSpec FlowValueSpec FlowReqSpec FlowToolSpec.
From Verif Require Import PackModel RefactorModel FlowModel. (* for the types of documents and the texts of C61 *)

Definition plain_names (l : list string) : list string := filter (fun x => negb (underscored x)) l.

(** the names of the outputs of a process, but for those that begin with an underscore *)
Definition VisibleOutputs (r : run) (l : list string) : Prop :=
  match r with
  | RTool t => exists names, Forall2 (fun o x => ParamName (to_id o) x) (t_outputs t) names /\ l = plain_names names
  | RSub s => l = plain_names (map fst (sb_outputs s))
  | RUri _ => l = []
  end.

(** an input of a step inside, linked to the input of the workflow that has its name *)
Definition by_name (i : sinput) : sinput :=
  {| si_id := name_of i; si_source := SOne (name_of i); si_valueFrom := si_valueFrom i; si_linkMerge := None; si_default := si_default i |}.
Definition fed_by (x source : string) : sinput :=
  {| si_id := x; si_source := SOne source; si_valueFrom := None; si_linkMerge := None; si_default := JNull |}.

Section Eval.
  (** get_expression: text, inputs, self *)
  Variable gx : json -> json -> json -> result (option string).
  Variables (st st' : wstep) (t : tool).

  (** [s] is the workflow made for the outputEval of [o], the expression [e].  It has two steps:
      one that runs what the step [st] ran before, and one that computes [e] from the same inputs
      and, as self, the output [o] of the first.  Its outputs are those of the first step, but [o]
      is the result of the second. *)
  Record Layer (o : toutput) (e : string) (s : sub run) : Prop := {
    ly_id : Fragment (ws_id st) (sb_id s);
    ly_inputs : exists names, Forall2 (fun p x => ParamName (ti_id p) x) (t_inputs t) names /\ sb_inputs s = plain_names names;
    ly_links : exists before after n outs, ws_in st' = before ++ after /\ List.length (ws_in st) <= List.length before /\
      Fragment (to_id o) n /\ VisibleOutputs (sb_run s) outs /\
      sb_gen s = ("expression_" ++ n ++ "_outputEval")%string /\
      sb_in s = map by_name before /\
      sb_gen_in s = map by_name (filter (fun i => negb (underscored (name_of i))) before) ++ [fed_by "self" (sb_id s ++ "/" ++ n)] /\
      sb_outputs s = map (fun x => (x, if String.eqb x n then (sb_gen s ++ "/result")%string else (sb_id s ++ "/" ++ x)%string)) outs;
    ly_text : Runs (RTool (sb_gen_tool s)) (etool_expression (Some "self") e);
    ly_params : map ti_id (t_inputs (sb_gen_tool s)) = "self" :: sb_inputs s;
    ly_when : sb_when s = ws_when st';
    ly_method : sb_method s = ws_scatterMethod st }.

  (** the workflows around the tool [t'], the outermost first *)
  Inductive Layers (t' : tool) : list (toutput * string) -> run -> Prop :=
  | Ls_tool : Layers t' [] (RTool t')
  | Ls_sub o e l s : Layer o e s -> Layers t' l (sb_run s) -> Layers t' ((o, e) :: l) (RSub s).

  (** the outputs whose outputEval is an expression *)
  Inductive EvalsOf : list toutput -> list (toutput * string) -> Prop :=
  | EO_nil : EvalsOf [] []
  | EO_kept o l evs : (forall s, to_eval o = Some s -> NotFound gx s) -> EvalsOf l evs -> EvalsOf (o :: l) evs
  | EO_moved o s e l evs : to_eval o = Some s -> s <> "" -> Found gx s e -> EvalsOf l evs -> EvalsOf (o :: l) ((o, e) :: evs).

  (** an output of the tool afterwards: the first of these loses outputEval and loadContents *)
  Definition same_output (o o1 : toutput) : Prop := exists n, Fragment (to_id o) n /\ Fragment (to_id o1) n.
  Definition OutEval (evs : list (toutput * string)) (o o' : toutput) : Prop :=
    ShortFor (to_id o) (to_id o') /\ to_glob o' = to_glob o /\
    match evs with
    | [] => to_eval o' = to_eval o /\ to_contents o' = to_contents o
    | (o1, _) :: _ => (same_output o o1 -> to_eval o' = None /\ to_contents o' = false) /\
                      (~ same_output o o1 -> to_eval o' = to_eval o /\ to_contents o' = to_contents o)
    end.

  Definition EvalMoved (t' : tool) (skip2 : bool) : Prop :=
    exists evs, (if skip2 then evs = [] else EvalsOf (t_outputs t) evs) /\
      Layers t' (rev evs) (ws_run st') /\ Forall2 (OutEval evs) (t_outputs t) (t_outputs t').
End Eval.
