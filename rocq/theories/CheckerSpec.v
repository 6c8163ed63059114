(** What the static checker accepts, said of the workflow as written. *)
From Verif Require Import PyBase TypeModel TypeSpec.

(** the type of a step input: that of the tool's input of its name, an array of it where
    the step scatters over the input; anything if there is none, or with valueFrom *)
Inductive StepInputType (st : step) (sk : sink) : ctype -> Prop :=
| SI_computed e : sk_valueFrom sk = Some e -> StepInputType st sk (TName "Any")
| SI_unknown f : sk_valueFrom sk = None -> Fragment (sk_id sk) f ->
    (forall p, In p (run_inputs st) -> ~ Fragment (p_id p) f) -> StepInputType st sk (TName "Any")
| SI_scattered f p : sk_valueFrom sk = None -> Fragment (sk_id sk) f ->
    First (fun p => Fragment (p_id p) f) (run_inputs st) p -> In (sk_id sk) (scatter_list (st_scatter st)) ->
    StepInputType st sk (TArray (p_type p))
| SI_plain f p : sk_valueFrom sk = None -> Fragment (sk_id sk) f ->
    First (fun p => Fragment (p_id p) f) (run_inputs st) p -> ~ In (sk_id sk) (scatter_list (st_scatter st)) ->
    StepInputType st sk (p_type p).

(** the type of a step output: that of the tool's output of its name, nested by scatter *)
Inductive StepOutputType (st : step) (o : string) : ctype -> Prop :=
| SO_scattered n p t : PortName o n -> First (fun p => PortName (p_id p) n) (run_outputs st) p ->
    ArrayNesting (scatter_levels (st_scatter st) (st_scatterMethod st)) (p_type p) t -> StepOutputType st o t.

(** the type of a port of a workflow *)
Inductive PortType (wf : workflow) : string -> ctype -> Prop :=
| PT_input p : In p (wf_inputs wf) -> PortType wf (p_id p) (p_type p)
| PT_output sk t : In (sk, t) (wf_outputs wf) -> PortType wf (sk_id sk) t
| PT_step_input st sk t : In st (wf_steps wf) -> In sk (st_in st) -> StepInputType st sk t -> PortType wf (sk_id sk) t
| PT_step_output st o t : In st (wf_steps wf) -> In o (st_out st) -> StepOutputType st o t -> PortType wf o t.

(** all ports *)
Definition ports (wf : workflow) : list string :=
  map p_id (wf_inputs wf) ++ map (fun o => sk_id (fst o)) (wf_outputs wf)
  ++ flat_map (fun st => map sk_id (st_in st) ++ st_out st) (wf_steps wf).

(** every output a step names is one of its process *)
Definition outputs_exist (wf : workflow) : Prop :=
  forall st o, In st (wf_steps wf) -> In o (st_out st) ->
  exists n p, PortName o n /\ In p (run_outputs st) /\ PortName (p_id p) n.

(** a source is the output of a step with a condition, or of one that collects all
    iterations of a loop *)
Definition Conditional (wf : workflow) (src : string) : Prop :=
  exists st, In st (wf_steps wf) /\ In src (st_out st) /\ st_when st = true.
Definition Collected (wf : workflow) (src : string) : Prop :=
  exists st, In st (wf_steps wf) /\ In src (st_out st) /\ st_loop_all st = true.

(** a link whose sink has to expect null from a conditional step: its only source, or one
    of several without pickValue *)
Definition OnlySource (sk : sink) (src : string) : Prop := sk_source sk = OneSource src \/ sk_source sk = Sources [src].
Definition MayBeNull (wf : workflow) (sk : sink) (src : string) : Prop :=
  Conditional wf src /\ (OnlySource sk src \/ sk_pickValue sk = None).

(** what a link carries (v1.2; earlier versions have neither conditions nor loops) *)
Inductive Carries (wf : workflow) (v : version) (sk : sink) (src : string) : ctype -> Prop :=
| Ca_before t : v <> V12 -> PortType wf src t -> Carries wf v sk src t
| Ca_v12 t t1 t2 : v = V12 -> PortType wf src t ->
    (MayBeNull wf sk src -> WithNull t t1) -> (~ MayBeNull wf sk src -> t1 = t) ->
    (Collected wf src -> t2 = TArray t1) -> (~ Collected wf src -> t2 = t1) ->
    Carries wf v sk src t2.

(** how the sources of a sink are merged: as linkMerge says, several sources by
    merge_nested where it says nothing; a single source not given in a list is not merged,
    in v1.2 one in a list is neither, nor are sources of which one is picked *)
Inductive MergedBy (v : version) (sk : sink) : option string -> Prop :=
| MB_one s : sk_source sk = OneSource s -> MergedBy v sk None
| MB_none : sk_source sk = NoSource -> MergedBy v sk None
| MB_v12_single l : v = V12 -> sk_source sk = Sources l -> List.length l <= 1 -> MergedBy v sk None
| MB_v12_picked l p : v = V12 -> sk_source sk = Sources l -> 2 <= List.length l ->
    sk_pickValue sk = Some p -> In p ["first_non_null"; "the_only_non_null"] -> MergedBy v sk None
| MB_given l m : sk_source sk = Sources l ->
    (v = V12 -> 2 <= List.length l /\ ~ exists p, sk_pickValue sk = Some p /\ In p ["first_non_null"; "the_only_non_null"]) ->
    sk_linkMerge sk = Some m -> m <> "" -> MergedBy v sk (Some m)
| MB_several l : sk_source sk = Sources l -> 2 <= List.length l ->
    (v = V12 -> ~ exists p, sk_pickValue sk = Some p /\ In p ["first_non_null"; "the_only_non_null"]) ->
    sk_linkMerge sk = None \/ sk_linkMerge sk = Some "" -> MergedBy v sk (Some "merge_nested")
| MB_single l : v <> V12 -> sk_source sk = Sources l -> List.length l <= 1 ->
    sk_linkMerge sk = None \/ sk_linkMerge sk = Some "" -> MergedBy v sk None.

(** a link is fine under (non-)strict comparison *)
Definition Fits (strict : bool) (wf : workflow) (v : version) (sk : sink) (src : string) : Prop :=
  sk_valueFrom sk <> None \/
  exists t m t' u, Carries wf v sk src t /\ MergedBy v sk m /\ Merged m t t' /\
    PortType wf (sk_id sk) u /\ Assignable strict t' u.

(** the sources are inputs of the workflow or outputs of steps; a v1.2 list of sources is
    not empty; a merge method in force is a known one *)
Definition well_linked (v : version) (wf : workflow) : Prop :=
  forall sk, In sk (sinks_of wf) ->
    (forall src, In src (links sk) -> In src (sources_of wf)) /\
    (v = V12 -> sk_source sk <> Sources []) /\
    (forall m, sk_valueFrom sk = None -> links sk <> [] -> MergedBy v sk (Some m) -> m = "merge_nested" \/ m = "merge_flattened").

(** shared sources: one that is a collected loop feeds one link, the links from one that is
    conditional agree whether they expect null *)
Definition sharing (wf : workflow) : Prop :=
  (forall l1 src l2 l3, flat_map links (sinks_of wf) = l1 ++ src :: l2 ++ src :: l3 -> ~ Collected wf src) /\
  (forall sk sk' src, In sk (sinks_of wf) -> In sk' (sinks_of wf) -> In src (links sk) -> In src (links sk') ->
     MayBeNull wf sk src -> MayBeNull wf sk' src).

Definition Version (wf : workflow) (v : version) : Prop :=
  (wf_version wf = "v1.0" /\ v = V10) \/ (wf_version wf = "v1.1" /\ v = V11) \/ (wf_version wf = "v1.2" /\ v = V12).

(** the report on a link *)
Definition Entry (v : version) (sk : sink) (src : string) (e : entry) : Prop :=
  e_src e = src /\ e_sink e = sk_id sk /\ MergedBy v sk (e_linkMerge e) /\
  (v <> V12 -> e_message e = None) /\
  (v = V12 -> forall p, sk_pickValue sk = Some p -> e_message e = Some ("pickValue is " ++ p)%string) /\
  (v = V12 -> sk_pickValue sk = None -> e_message e = None).

(** the remarks of v1.2: pickValue on a single source; a sink not prepared for the null
    it has to expect *)
Definition AcceptsNull (u : ctype) : Prop := exists l, u = TUnion l /\ In (TName "null") l.
Definition Remark (wf : workflow) (sk : sink) (e : entry) : Prop :=
  In (e_src e) (links sk) /\ e_sink e = sk_id sk /\ MergedBy V12 sk (e_linkMerge e) /\
  ((OnlySource sk (e_src e) /\ sk_pickValue sk <> None /\
    e_message e = Some "pickValue is used but only a single input source is declared") \/
   (MayBeNull wf sk (e_src e) /\ (exists u, PortType wf (sk_id sk) u /\ ~ AcceptsNull u) /\
    ((OnlySource sk (e_src e) /\ e_message e = Some "Source is from conditional step and may produce `null`") \/
     (~ OnlySource sk (e_src e) /\ e_message e = Some "Source is from conditional step, but pickValue is not used")))).

(** a step input that needs a value and gets none *)
Definition Starved (wf : workflow) (sk : sink) : Prop :=
  sk_source sk = NoSource /\ sk_default sk = JNull /\ sk_valueFrom sk = None /\
  exists u, PortType wf (sk_id sk) u /\ u <> TName "null" /\ ~ AcceptsNull u.
