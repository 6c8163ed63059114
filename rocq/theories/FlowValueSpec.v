(** * What the tool is meant to do with [valueFrom] and [when] *)
From Verif Require Import PyBase RefactorSpec FlowSpec.
From Verif Require Import RefactorModel FlowModel. (* for the types of documents and the texts of C61 *)

(** the part of an id after the last slash *)
Fixpoint last_part (s : string) : string :=
  match s with
  | EmptyString => EmptyString
  | String _ s' => if has_char "/" s then (if has_char "/" s' then last_part s' else s') else s
  end.
Definition name_of (i : sinput) : string := last_part (si_id i).

(** ** Values of inputs *)

(** the same source, perhaps without the name of the file *)
Definition ShortFor (x y : string) : Prop := y = x \/ Fragment x y.
Inductive SameSource : src -> src -> Prop :=
| SS_none : SameSource SNone SNone
| SS_one x y : ShortFor x y -> SameSource (SOne x) (SOne y)
| SS_many l l' : Forall2 ShortFor l l' -> SameSource (SMany l) (SMany l').

(** something is linked to the input *)
Definition Fed (i : sinput) : Prop := si_source i <> SNone /\ si_source i <> SMany [].

Section Values.
  (** [val source linkMerge default]: the value a step input is given *)
  Variable val : src -> option string -> json -> json.
  (** the name of the file makes no difference *)
  Definition by_name : Prop := forall s s' l d, SameSource s s' -> val s' l d = val s l d.

  (** the value of an input before its valueFrom is evaluated: what [inputs] and [self] are
      in expressions of the step *)
  Definition given (i : sinput) : json := val (si_source i) (si_linkMerge i) (si_default i).
  (** [inputs] in a valueFrom of a step with these inputs *)
  Definition object (ins : list sinput) (x : string) : option json :=
    match find (fun i => String.eqb (name_of i) x) ins with Some i => Some (given i) | None => None end.
  (** [inputs] in the tool run by a generated step: the inputs of the step that the tool declares *)
  Definition seen (g : wstep) (x : string) : option json :=
    match ws_run g with
    | RTool t => if existsb (fun p => String.eqb (ti_id p) x) (t_inputs t) then object (ws_in g) x else None
    | _ => None
    end.
End Values.

(** The tool evaluates the text: it is an ExpressionTool with it, or runs the script made of it. *)
Definition Runs (r : run) (text : string) : Prop :=
  exists t, r = RTool t /\
    ((t_kind t = KEtool /\ t_expression t = text) \/
     (t_kind t = KClt /\ exists lib, t_reqs t = Some [RIwd (LList [EDirent (Some (script lib text)) (Some "expression.js")])])).

(** the step declares JavaScript with this library *)
Definition StepLibrary (st : wstep) (lib : option (list string)) : Prop :=
  exists a b, ws_reqs st = Some (a ++ RJs lib :: b) /\ forall l, ~ In (RJs l) a.
(** The tool declares JavaScript with this library before everything else, or runs a script with it. *)
Definition HasLibrary (r : run) (lib : option (list string)) : Prop :=
  exists t, r = RTool t /\
    ((t_kind t = KEtool /\ exists rest, t_reqs t = Some (RJs lib :: rest)) \/
     (t_kind t = KClt /\ exists text, t_reqs t = Some [RIwd (LList [EDirent (Some (script (match lib with Some l => l | None => [] end) text))
                                                           (Some "expression.js")])])).

Section Moved.
  (** get_expression: text, inputs, self *)
  Variable gx : json -> json -> json -> result (option string).

  (** an expression [e] was found in [t], or none *)
  Definition Found (t e : string) : Prop := e <> "" /\ exists inputs self, gx (JStr t) inputs self = Ok (Some e).
  Definition NotFound (t : string) : Prop :=
    t = "" \/ exists inputs self r, gx (JStr t) inputs self = Ok r /\ (r = None \/ r = Some "").

  (** ids as the loader writes them: no number sign after the last slash; one name each, and
      the names [self] and the empty name are not used; sources are not empty *)
  Definition GoodIds (st : wstep) : Prop :=
    NoDup (map name_of (ws_in st)) /\
    forall i, In i (ws_in st) -> has_char "#" (name_of i) = false /\ name_of i <> "" /\ name_of i <> "self" /\
                forall x, si_source i = SOne x -> ~ Fragment x "".

  (** The step made for the expression [e] of the input [i] of [st]. *)
  Record MadeFor (st : wstep) (i : sinput) (e : string) (g : wstep) : Prop := {
    mf_id : exists n, Fragment (ws_id st) n /\ ws_id g = ("_expression_" ++ n ++ "_" ++ name_of i)%string;
    mf_text : exists self, Runs (ws_run g) (etool_expression self e) /\
                (GoodIds st -> Fed i -> self = Some "self") /\ (~ Fed i -> self = None);
    (* the inputs its tool sees: those linked to the step, not beginning with an underscore and
       not ending with the name of [i]; and [self], if it does not end so either *)
    mf_seen : forall val, by_name val -> GoodIds st -> forall y v,
      seen val g y = Some v <->
      ((y = "self" /\ Fed i /\ v = val (si_source i) None JNull) \/
       (exists j, In j (ws_in st) /\ name_of j = y /\ Fed j /\ v = given val j)) /\
      ~ StartsWith "_" y /\ ~ EndsWith (name_of i) y;
    (* they are given as they are *)
    mf_valueFrom : forall j, In j (ws_in g) -> si_valueFrom j = None \/ si_valueFrom j = Some "";
    mf_library : forall lib, StepLibrary st lib -> HasLibrary (ws_run g) lib;
    mf_scatter : (ws_scatter g = SMany ["self"] /\ exists s, Mentions (ws_scatter st) s /\ last_part s = name_of i) \/
                 (ws_scatter g = SNone /\ forall s, Mentions (ws_scatter st) s -> last_part s <> name_of i);
    mf_method : ws_scatterMethod g = ws_scatterMethod st;
    mf_when : ws_when g = None }.

  (** An input of a step afterwards *)
  Inductive InputMoved (all : list wstep) (st : wstep) (i : sinput) : sinput -> Prop :=
  | IM_kept : (forall t, si_valueFrom i = Some t -> NotFound t) -> InputMoved all st i i
  | IM_moved t e g :
      si_valueFrom i = Some t -> t <> "" -> Found t e -> In g all -> MadeFor st i e g ->
      InputMoved all st i {| si_id := si_id i; si_source := SOne (ws_id g ++ "/result"); si_valueFrom := None;
                             si_linkMerge := si_linkMerge i; si_default := si_default i |}.
  (** all inputs of a step afterwards; the new ones begin with an underscore *)
  Definition InputsMoved (all : list wstep) (st st' : wstep) : Prop :=
    exists old new, ws_in st' = old ++ new /\ Forall2 (InputMoved all st) (ws_in st) old /\
                    Forall (fun i => StartsWith "_" (si_id i)) new.

  (** The step made for the expression [e] of [when]. *)
  Record MadeForWhen (st : wstep) (e : string) (g : wstep) : Prop := {
    mw_id : exists n, Fragment (ws_id st) n /\ ws_id g = ("_when_expression_" ++ n)%string;
    mw_text : Runs (ws_run g) (etool_expression None e);
    mw_seen : forall val, by_name val -> GoodIds st -> forall y v,
      seen val g y = Some v <->
      (exists j, In j (ws_in st) /\ name_of j = y /\ Fed j /\ v = given val j) /\ ~ StartsWith "_" y;
    (* the valueFrom of its inputs is that of the inputs of the step *)
    mw_valueFrom : forall i, In i (ws_in g) -> exists j, In j (ws_in st) /\ (si_id i = name_of j \/ i = j) /\
                             si_valueFrom i = si_valueFrom j;
    mw_library : forall lib, StepLibrary st lib -> HasLibrary (ws_run g) lib;
    mw_scatter : ws_scatter g = ws_scatter st;
    mw_method : ws_scatterMethod g = ws_scatterMethod st;
    mw_when : ws_when g = None }.
  (** [when] afterwards.  The generated step [g0] is then treated like the others. *)
  Inductive WhenMoved (all : list wstep) (st st' : wstep) : Prop :=
  | WM_kept : ws_when st' = ws_when st -> (forall t, ws_when st = Some t -> NotFound t) -> WhenMoved all st st'
  | WM_moved t e g0 g i :
      ws_when st = Some t -> t <> "" -> Found t e -> MadeForWhen st e g0 ->
      In g all -> ws_id g = ws_id g0 -> InputsMoved all g0 g ->
      ws_when st' = Some "$(inputs._when)" -> In i (ws_in st') -> si_id i = "_when" ->
      si_source i = SOne (ws_id g ++ "/result") -> WhenMoved all st st'.
End Moved.
