(** * What the tool is meant to do with the expressions of a CommandLineTool *)
From Verif Require Import PyBase RefactorSpec FlowSpec FlowValueSpec FlowReqSpec.
From Verif Require Import PackModel RefactorModel FlowModel. (* for the types of documents, decimal numbers and the texts of C61 *)

(** the tool that is run in the end: inside the workflows made for an outputEval *)
Fixpoint inner (r : run) : option tool :=
  match r with RUri _ => None | RTool t => Some t | RSub s => inner (sb_run s) end.

(** names that are kept for the inputs the refactoring adds *)
Definition underscored (s : string) : bool := match s with String "_" _ => true | _ => false end.
(** the input, under its name *)
Definition renamed (i : sinput) : sinput :=
  {| si_id := name_of i; si_source := si_source i; si_valueFrom := si_valueFrom i;
     si_linkMerge := si_linkMerge i; si_default := si_default i |}.
(** the name of a parameter of a tool: the last part of the fragment of its id *)
Definition ParamName (id x : string) : Prop := exists f, Fragment id f /\ LastPart f x.

(** at most one number sign in an id *)
Definition OneHash (id : string) : Prop := forall a b, id = (a ++ "#" ++ b)%string -> has_char "#" b = false.
(** the tool that the step runs: written there, or found by the loader *)
Definition RunsTool (load : string -> result (tool * bool)) (st : wstep) (t : tool) : Prop :=
  ws_run st = RTool t \/ exists u m, ws_run st = RUri u /\ load u = Ok (t, m).

(** ** Values of inputs *)
Section InputValues.
  (** the value of an input of a step: source, linkMerge, default, valueFrom *)
  Variable val : src -> option string -> json -> option string -> json.
  Definition value_of (i : sinput) : json := val (si_source i) (si_linkMerge i) (si_default i) (si_valueFrom i).
  (** [inputs] in a tool that has the parameters [declared], run by a step with the inputs [ins] *)
  Definition inputs_in (ins : list sinput) (declared : list string) (x : string) : option json :=
    if existsb (String.eqb x) declared
    then match find (fun i => String.eqb (name_of i) x) ins with Some i => Some (value_of i) | None => None end
    else None.
End InputValues.
Definition params_of (r : run) : list string := match r with RTool t => map ti_id (t_inputs t) | _ => [] end.

(** the requirements, or hints, without InlineJavascriptRequirement *)
Definition NotJs (r : wreq) : Prop := match r with RJs _ => False | _ => True end.
Inductive JsRemoved : list wreq -> list wreq -> Prop :=
| JR_nil : JsRemoved [] []
| JR_keep r l l' : NotJs r -> JsRemoved l l' -> JsRemoved (r :: l) (r :: l')
| JR_drop lib l l' : JsRemoved l l' -> JsRemoved (RJs lib :: l) l'.

(** The JavaScript that makes a File of an entry that has a name. *)
Definition entry_code : string :=
";
if (typeof entry === 'string' || entry instanceof String) {
result = {""class"": ""File"", ""basename"": entryname, ""contents"": entry} ;
if (typeof entryname === 'string' || entryname instanceof String) {
result.basename = entryname ;
}
} else {
result = entry ;
}
return result; }".

Section Tool.
  (** get_expression: text, inputs, self *)
  Variable gx : json -> json -> json -> result (option string).
  Variables (all : list wstep) (st st' : wstep) (t t' : tool).

  (** the inputs of the step that were not there before *)
  Definition added : list sinput := skipn (List.length (ws_in st)) (ws_in st').

  (** The step made for an expression [e] of the tool run by [st].  It has the inputs that step
      has by then, and its tool declares the inputs that the tool declares; but not those that
      begin with an underscore. *)
  Record MadeForTool (place : string) (self : option string) (e : string) (g : wstep) : Prop := {
    mt_id : exists n, Fragment (ws_id st) n /\ ws_id g = ("_expression_" ++ n ++ place)%string;
    mt_text : Runs (ws_run g) (etool_expression self e);
    mt_in : exists before after, ws_in st' = before ++ after /\ List.length (ws_in st) <= List.length before /\
      ws_in g = map renamed (filter (fun i => negb (underscored (name_of i))) before);
    mt_tool : exists tg names extra, ws_run g = RTool tg /\
      Forall2 (fun p x => ParamName (ti_id p) x) (t_inputs t) names /\
      map ti_id (t_inputs tg) = filter (fun x => negb (underscored x)) names ++ extra /\
      (forall x, In x extra -> exists i, In i added /\ ParamName (si_id i) x);
    mt_scatter : ws_scatter g = SNone;
    mt_when : ws_when g = None }.

  (** the tool has an input [x] *)
  Definition Declares (x : string) : Prop := exists p, In p (t_inputs t') /\ ti_id p = x.
  (** the input [x] of the step is linked to the result of [g], and the tool has such an input *)
  Definition LinkedHere (x : string) (g : wstep) : Prop :=
    Declares x /\ In {| si_id := x; si_source := SOne (ws_id g ++ "/result"); si_valueFrom := None;
                        si_linkMerge := None; si_default := JNull |} added.

  (** A text afterwards: as it was, or a reference to the input that has the value. *)
  Inductive TextMoved (place : string) : option string -> option string -> Prop :=
  | TM_kept o : (forall s, o = Some s -> NotFound gx s) -> TextMoved place o o
  | TM_moved s e g : s <> "" -> Found gx s e -> In g all -> MadeForTool place None e g -> LinkedHere place g ->
      TextMoved place (Some s) (Some ("$(inputs." ++ place ++ ")")%string).

  (** An argument: a binding with a text, or a text.  For a text, the input of the step gets
      the id of the result, no source, and its own name as linkMerge. *)
  Inductive ArgMoved (place : string) : targ -> targ -> Prop :=
  | AM_bind v v' : TextMoved place v v' -> ArgMoved place (ABind v) (ABind v')
  | AM_kept s : NotFound gx s -> ArgMoved place (AText s) (AText s)
  | AM_moved s e g : Found gx s e -> In g all -> MadeForTool place None e g -> Declares place ->
      In {| si_id := ws_id g ++ "/result"; si_source := SNone; si_valueFrom := None;
            si_linkMerge := Some place; si_default := JNull |} added ->
      ArgMoved place (AText s) (ABind (Some ("$(inputs." ++ place ++ ")")%string)).
  Inductive ArgsMoved : nat -> list targ -> list targ -> Prop :=
  | AsM_nil k : ArgsMoved k [] []
  | AsM_cons k a a' l l' : ArgMoved ("_arguments_" ++ str_nat k) a a' -> ArgsMoved (S k) l l' -> ArgsMoved k (a :: l) (a' :: l').

  (** For the valueFrom of an inputBinding, and for a glob, a step is made and linked.  (The
      text itself stays: [ParamSame], [OutSame].) *)
  Definition BindingMade (p : tinput) : Prop :=
    (forall s, ti_valueFrom p = Some s -> NotFound gx s) \/
    exists s e g n, ti_valueFrom p = Some s /\ s <> "" /\ Found gx s e /\ In g all /\ Fragment (ti_id p) n /\
      MadeForTool ("_" ++ n ++ "_valueFrom") (Some n) e g /\ LinkedHere ("_" ++ n ++ "_valueFrom") g.
  Definition GlobMade (o : toutput) : Prop :=
    truthy (to_glob o) = false \/
    (exists inputs r, gx (to_glob o) inputs JNull = Ok r /\ (r = None \/ r = Some "")) \/
    exists e g n inputs, gx (to_glob o) inputs JNull = Ok (Some e) /\ e <> "" /\ In g all /\ Fragment (to_id o) n /\
      MadeForTool ("_" ++ n ++ "_glob") None e g /\ LinkedHere ("_" ++ n ++ "_glob") g.

  (** parameters of the tool afterwards *)
  Definition ParamSame (p p' : tinput) : Prop :=
    ShortFor (ti_id p) (ti_id p') /\ ti_type p' = ti_type p /\ ti_valueFrom p' = ti_valueFrom p.
  Definition OutSame (o o' : toutput) : Prop := ShortFor (to_id o) (to_id o') /\ to_glob o' = to_glob o.

  (** The whole tool afterwards, but for requirements and outputEval; its hints are as they were,
      but for InlineJavascriptRequirement *)
  Record ToolMoved (skip1 : bool) : Prop := {
    tm_kind : t_kind t' = t_kind t;
    tm_hints : t_hints t' = t_hints t \/ JsRemoved (t_hints t) (t_hints t');
    tm_args : if skip1 then t_args t' = t_args t else ArgsMoved 0 (t_args t) (t_args t');
    tm_stdout : TextMoved "_stdout" (t_stdout t) (t_stdout t');
    tm_stderr : TextMoved "_stderr" (t_stderr t) (t_stderr t');
    tm_inputs : exists old new, t_inputs t' = old ++ new /\ Forall2 ParamSame (t_inputs t) old /\
                  Forall (fun p => StartsWith "_" (ti_id p) /\ ti_valueFrom p = None) new;
    tm_bindings : skip1 = false -> Forall BindingMade (t_inputs t);
    tm_outputs : Forall2 OutSame (t_outputs t) (t_outputs t');
    tm_globs : Forall GlobMade (t_outputs t) }.

  (** *** Requirements of the tool *)

  (** a step that sees no input *)
  Definition AloneFor (place e : string) (g : wstep) : Prop :=
    exists n, Fragment (ws_id st) n /\ MadeAlone ("_expression_" ++ n ++ place) e g.

  (** the value of a resource afterwards *)
  Definition ResValueMoved (attrs : list string) (values values' : list (string * json)) (a : string) : Prop :=
    let v := match dget a values with Some v => v | None => JNull end in
    (dget a values' = dget a values /\ (In a attrs -> ValueNotFound gx v)) \/
    (dget a values' = Some (JStr ("$(inputs._" ++ a ++ ")")) /\ In a attrs /\
     exists e g, ValueFound gx v e /\ In g all /\ MadeForTool ("_ResourceRequirement_" ++ a) None e g /\ LinkedHere ("_" ++ a) g).

  (** The text that is evaluated for an entry of a listing: the expression itself, or, if the
      entry has a name, a function that makes a File of that name.  The text of the entry is
      taken without its first two characters and its last one. *)
  Definition EntryText (txt : string) (name : option string) (e e' : string) : Prop :=
    (name = None /\ e' = e) \/
    exists nm q inside, name = Some nm /\
      ((q = nm /\ exists x, Found gx nm x) \/ (q = (dq ++ nm ++ dq)%string /\ NotFound gx nm)) /\
      (forall c1 c2 c3 body, txt = (String c1 (String c2 "") ++ body ++ String c3 "")%string -> inside = body) /\
      e' = ("${var result; var entryname = " ++ q ++ "; var entry = " ++ inside ++ entry_code)%string.

  (** an entry of a listing afterwards *)
  Inductive ToolEntryMoved (k : nat) : entry -> entry -> Prop :=
  | TE_kept e : (forall s, Plain e s \/ Named e s \/ Texted e s -> NotFound gx s) -> ToolEntryMoved k e e
  | TE_text s x g : Found gx s x -> In g all -> AloneFor ("_InitialWorkDirRequirement_" ++ str_nat k) x g ->
      LinkedHere ("_iwdr_listing_" ++ str_nat k) g ->
      ToolEntryMoved k (EText s) (EText ("$(inputs._iwdr_listing_" ++ str_nat k))
  | TE_name en nm x g : no_text en -> nm <> "" -> Found gx nm x -> In g all ->
      AloneFor ("_InitialWorkDirRequirement_" ++ str_nat k) x g -> LinkedHere ("_iwdr_listing_" ++ str_nat k) g ->
      ToolEntryMoved k (EDirent en (Some nm)) (EDirent en (Some ("$(inputs._iwdr_listing_" ++ str_nat k ++ ")")%string))
  | TE_entry txt name x x' g : txt <> "" -> Found gx txt x -> EntryText txt name x x' -> In g all ->
      MadeForTool ("_InitialWorkDirRequirement_" ++ str_nat k) None x' g -> LinkedHere ("_iwdr_listing_" ++ str_nat k) g ->
      ToolEntryMoved k (EDirent (Some txt) name) (EDirent (Some ("$(inputs._iwdr_listing_" ++ str_nat k ++ ")")%string) name).
  Inductive ToolEntriesMoved : nat -> list entry -> list entry -> Prop :=
  | TEs_nil k : ToolEntriesMoved k [] []
  | TEs_cons k e e' l l' : ToolEntryMoved k e e' -> ToolEntriesMoved (S k) l l' -> ToolEntriesMoved k (e :: l) (e' :: l').

  (** a requirement afterwards *)
  Inductive ToolReqMoved (attrs : list string) (skip2 : bool) : wreq -> wreq -> Prop :=
  | TR_env defs : Forall (fun d => NotFound gx (snd d)) defs -> ToolReqMoved attrs skip2 (REnv defs) (REnv defs)
  | TR_res values values' : (forall a, ResValueMoved attrs values values' a) -> ToolReqMoved attrs skip2 (RRes values) (RRes values')
  | TR_iwd_skip li : skip2 = true -> ToolReqMoved attrs skip2 (RIwd li) (RIwd li)
  | TR_iwd_kept li : (forall l, li <> LList l) -> (forall s, li = LText s -> NotFound gx s) -> ToolReqMoved attrs skip2 (RIwd li) (RIwd li)
  | TR_iwd_text s e g : s <> "" -> Found gx s e -> In g all -> AloneFor "_InitialWorkDirRequirement" e g -> LinkedHere "_iwdr_listing" g ->
      ToolReqMoved attrs skip2 (RIwd (LText s)) (RIwd (LTuple "$(inputs._iwdr_listing)"))
  | TR_iwd_list l l' : ToolEntriesMoved 0 l l' -> ToolReqMoved attrs skip2 (RIwd (LList l)) (RIwd (LList l'))
  | TR_other r : ~ IsEnv r -> ~ IsRes r -> ~ IsIwd r -> ToolReqMoved attrs skip2 r r.

  (** All requirements: one by one, and perhaps without InlineJavascriptRequirement. *)
  Definition ToolReqsMoved (attrs : list string) (skip2 : bool) : Prop :=
    match t_reqs t with
    | None => t_reqs t' = None
    | Some l => exists l1, Forall2 (ToolReqMoved attrs skip2) l l1 /\
                  (t_reqs t' = Some l1 \/ JsRemoved l1 (match t_reqs t' with Some l2 => l2 | None => [] end))
    end.
End Tool.
