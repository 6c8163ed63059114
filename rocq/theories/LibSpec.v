(** * The expression library of the tools made for expressions *)
From Verif Require Import PyBase RefactorSpec FlowSpec FlowValueSpec FlowReqSpec.
From Verif Require Import PackModel RefactorModel FlowModel. (* for the types of documents and the program text of C61 *)

(** ** Which library an expression is evaluated with *)

(** the requirement that counts is the last one (expression.py:315-319, C05) *)
Definition Counts (reqs : list wreq) (lib : option (list string)) : Prop :=
  exists a b, reqs = a ++ RJs lib :: b /\ forall lib', ~ In (RJs lib') b.
Definition lines_of (lib : option (list string)) : list string := match lib with Some l => l | None => [] end.

(** A tool made for an expression evaluates it with the library [lib]: an ExpressionTool declares
    JavaScript with this library, a CommandLineTool in its place runs a program (C61) with it. *)
Inductive Evaluates (lib : option (list string)) : tool -> Prop :=
| Ev_etool t reqs : t_kind t = KEtool -> t_reqs t = Some reqs -> Counts reqs lib -> Evaluates lib t
| Ev_program t e : t_kind t = KClt ->
    t_reqs t = Some [RIwd (LList [EDirent (Some (script (lines_of lib) e)) (Some "expression.js")])] -> Evaluates lib t.

(** the expression tools in the sub-workflows that are made for outputEvals *)
Inductive Inside : run -> tool -> Prop :=
| In_here s : Inside (RSub s) (sb_gen_tool s)
| In_deep s t : Inside (sb_run s) t -> Inside (RSub s) t.

(** ** Workflows with one library *)
Definition all_reqs (r : option (list wreq)) : list wreq := match r with Some l => l | None => [] end.
(** every declaration of JavaScript has the library [lib] *)
Definition Only (lib : option (list string)) (r : option (list wreq)) : Prop := forall lib', In (RJs lib') (all_reqs r) -> lib' = lib.
Definition is_sub (r : run) : Prop := match r with RSub _ => True | _ => False end.
Record OneLibrary (load : string -> result (tool * bool)) (lib : option (list string)) (w : workflow) : Prop := {
  ol_workflow : Only lib (wf_reqs w);
  ol_declared : In (RJs lib) (all_reqs (wf_reqs w)) \/ lib = None;
  ol_steps : forall st, In st (wf_steps w) -> Only lib (ws_reqs st);
  ol_tools : forall st t, In st (wf_steps w) -> ws_run st = RTool t -> Only lib (t_reqs t);
  ol_loaded : forall st u t m, In st (wf_steps w) -> ws_run st = RUri u -> load u = Ok (t, m) -> Only lib (t_reqs t) }.
