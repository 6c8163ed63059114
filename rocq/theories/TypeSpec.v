(** * Specification of type compatibility, links and source names *)
From Verif Require Import PyBase TypeModel.

(** ** assignability *)

(** the type of the field with short name [k] (the last one, should names repeat) *)
Definition FieldOf (fields : option (list (string * ctype))) (k : string) (t : ctype) : Prop :=
  exists pre n post, fields = Some (pre ++ (n, t) :: post) /\ shortname n = k /\
    Forall (fun f => shortname (fst f) <> k) post.
Definition NoField (fields : option (list (string * ctype))) (k : string) : Prop :=
  forall l, fields = Some l -> Forall (fun f => shortname (fst f) <> k) l.

Definition is_union (t : ctype) : Prop := exists l, t = TUnion l.
Definition is_leaf (t : ctype) : Prop :=
  (exists s, t = TName s) \/ (exists c n s r, t = TEnum c n s r).

(** [Assignable strict src sink], the documented relation *)
Inductive Assignable : bool -> ctype -> ctype -> Prop :=
| A_any_source strict sink : Assignable strict (TName "Any") sink
| A_any_sink strict src : Assignable strict src (TName "Any")
| A_same strict t : is_leaf t -> Assignable strict t t
| A_array strict a b : Assignable strict a b -> Assignable strict (TArray a) (TArray b)
| A_record strict fs gs :
    (forall k u, FieldOf gs k u ->
       (exists t, FieldOf fs k t /\ Assignable strict t u) \/
       (NoField fs k /\ Assignable strict (TName "null") u)) ->
    Assignable strict (TRecord fs) (TRecord gs)
| A_every_alternative l sink :
    (forall t, In t l -> Assignable false t sink) -> Assignable true (TUnion l) sink
| A_some_alternative l t sink :
    In t l -> t <> TName "null" -> Assignable false t sink -> Assignable false (TUnion l) sink
| A_sink_alternative strict src l t :
    ~ is_union src -> In t l -> Assignable false src t -> Assignable strict src (TUnion l).

(** what linkMerge makes of a source type *)
Inductive Flattened : ctype -> ctype -> Prop :=
| Fl_union l l' : Forall2 Flattened l l' -> Flattened (TUnion l) (TUnion l')
| Fl_array t : Flattened (TArray t) (TArray t)
| Fl_other t : ~ is_union t -> (forall u, t <> TArray u) -> Flattened t (TArray t).
Inductive Merged : option string -> ctype -> ctype -> Prop :=
| M_none t : Merged None t t
| M_nested t : Merged (Some "merge_nested") t (TArray t)
| M_flattened t t' : Flattened t t' -> Merged (Some "merge_flattened") t t'.

(** ** what types mean *)
Section Values.
  (** meaning of type names other than Any, and of enums *)
  Variable name_values : string -> json -> Prop.
  Variable enum_values : string -> string -> list string -> string -> json -> Prop.

  Definition field_value (d : dict) (k : string) : json :=
    match dget k d with Some v => v | None => JNull end.

  (** [Accepts t v]: a port of type [t] can take [v]; extra record entries are ignored *)
  Inductive Accepts : ctype -> json -> Prop :=
  | Acc_any v : Accepts (TName "Any") v
  | Acc_name s v : name_values s v -> Accepts (TName s) v
  | Acc_enum c n s r v : enum_values c n s r v -> Accepts (TEnum c n s r) v
  | Acc_union l t v : In t l -> Accepts t v -> Accepts (TUnion l) v
  | Acc_array t l : Forall (Accepts t) l -> Accepts (TArray t) (JList l)
  | Acc_record fs d : (forall k t, FieldOf fs k t -> Accepts t (field_value d k)) ->
      Accepts (TRecord fs) (JDict d).

  (** [Produces t v]: a port of type [t] can deliver [v]; a record value has no entries
      besides its fields *)
  Inductive Produces : ctype -> json -> Prop :=
  | Pro_name s v : s <> "Any" -> name_values s v -> Produces (TName s) v
  | Pro_enum c n s r v : enum_values c n s r v -> Produces (TEnum c n s r) v
  | Pro_union l t v : In t l -> Produces t v -> Produces (TUnion l) v
  | Pro_array t l : Forall (Produces t) l -> Produces (TArray t) (JList l)
  | Pro_record fs d : (forall k t, FieldOf fs k t -> Produces t (field_value d k)) ->
      (forall k, NoField fs k -> dget k d = None) ->
      Produces (TRecord fs) (JDict d).
End Values.

(** no Any and no union anywhere in the type *)
Inductive UnionFree : ctype -> Prop :=
| UF_name s : s <> "Any" -> UnionFree (TName s)
| UF_enum c n s r : UnionFree (TEnum c n s r)
| UF_array t : UnionFree t -> UnionFree (TArray t)
| UF_record fs : (forall k t, FieldOf fs k t -> UnionFree t) -> UnionFree (TRecord fs).

(** unions of the source only face the strict comparison: they are met at the top or
    below arrays and records of both sides, and their alternatives contain none *)
Inductive Aligned : ctype -> ctype -> Prop :=
| Al_free t u : UnionFree t -> Aligned t u
| Al_union l u : (forall t, In t l -> UnionFree t) -> Aligned (TUnion l) u
| Al_array t u : Aligned t u -> Aligned (TArray t) (TArray u)
| Al_record fs gs : (forall k t u, FieldOf fs k t -> FieldOf gs k u -> Aligned t u) ->
    Aligned (TRecord fs) (TRecord gs).

(** ** arrays of arrays *)
Inductive ArrayNesting : nat -> ctype -> ctype -> Prop :=
| AN_0 t : ArrayNesting 0 t t
| AN_S n t t' : ArrayNesting n t t' -> ArrayNesting (S n) t (TArray t').

(** how many array levels scatter adds to an output *)
Definition scatter_levels (sc : sources) (method : option string) : nat :=
  match sc with
  | NoSource => 0
  | _ => match method with
         | Some m => if String.eqb m "nested_crossproduct" then List.length (scatter_list sc) else 1
         | None => 1
         end
  end.

(** the first element satisfying [P] *)
Definition First {A} (P : A -> Prop) (l : list A) (x : A) : Prop :=
  exists pre post, l = pre ++ x :: post /\ P x /\ Forall (fun y => ~ P y) pre.

(** ** links *)
Definition several (sk : sink) : bool := Nat.ltb 1 (List.length (scatter_list (sk_source sk))).
Definition links (sk : sink) : list string := scatter_list (sk_source sk).

(** the link merge method in force for a sink: only a list of sources has one; several
    sources default to merge_nested; in v1.2 picking one non-null source turns it off,
    and so does a list of one *)
Definition link_merge (v : version) (sk : sink) : option string :=
  let given := or_else (sk_linkMerge sk) (if several sk then Some "merge_nested" else None) in
  match v, sk_source sk with
  | V12, _ => if several sk then (if non_null_pick (sk_pickValue sk) then None else given) else None
  | _, Sources _ => given
  | _, _ => None
  end.

(** v1.2: a source from a conditional step may be null, unless values are picked from
    several sources; one from a loop collecting all iterations is an array *)
Definition may_be_skipped (steps : list (string * step)) (sk : sink) (src : string) : bool :=
  from_step steps st_when src &&
  (negb (several sk) || match sk_pickValue sk with None => true | Some _ => false end).
Definition collected (steps : list (string * step)) (src : string) : bool :=
  from_step steps st_loop_all src.

Inductive WithNull : ctype -> ctype -> Prop :=
| WN_already l : In (TName "null") l -> WithNull (TUnion l) (TUnion l)
| WN_union l : ~ In (TName "null") l -> WithNull (TUnion l) (TUnion (TName "null" :: l))
| WN_null : WithNull (TName "null") (TUnion [TName "null"])
| WN_other t : ~ is_union t -> t <> TName "null" -> WithNull t (TUnion [TName "null"; t]).

Inductive SourceType (v : version) (steps : list (string * step)) (sk : sink) (src : string)
  : ctype -> ctype -> Prop :=
| ST_plain t : v <> V12 -> SourceType v steps sk src t t
| ST_v12 t t1 : v = V12 ->
    (if may_be_skipped steps sk src then WithNull t t1 else t1 = t) ->
    SourceType v steps sk src t (if collected steps src then TArray t1 else t1).

(** the link from [src] to [sk] is fine under (non-)strict comparison *)
Definition LinkFits (strict : bool) (v : version) (steps : list (string * step))
           (types : list (string * ctype)) (sk : sink) (src : string) : Prop :=
  sk_valueFrom sk <> None \/
  exists t0 t t' u, dget src types = Some t0 /\ SourceType v steps sk src t0 t /\
    Merged (link_merge v sk) t t' /\ dget (sk_id sk) types = Some u /\ Assignable strict t' u.
Definition Incompatible v steps types sk src : Prop :=
  ~ LinkFits true v steps types sk src /\ ~ LinkFits false v steps types sk src.
Definition PossiblyCompatible v steps types sk src : Prop :=
  ~ LinkFits true v steps types sk src /\ LinkFits false v steps types sk src.

Definition entry_for (v : version) (sk : sink) (src : string) : entry :=
  {| e_src := src; e_sink := sk_id sk; e_linkMerge := link_merge v sk;
     e_message := match v with
                  | V12 => option_map (fun p => ("pickValue is " ++ p)%string) (sk_pickValue sk)
                  | _ => None
                  end |}.

(** a union with null among its alternatives *)
Definition takes_null (u : ctype) : bool :=
  match u with
  | TUnion l => existsb (fun t => match t with TName s => String.eqb s "null" | _ => false end) l
  | _ => false
  end.

(** a step input that must have a value and gets none *)
Definition Unfed (types : list (string * ctype)) (sk : sink) : Prop :=
  (exists u, dget (sk_id sk) types = Some u /\ u <> TName "null" /\
     forall l, u = TUnion l -> ~ In (TName "null") l) /\
  sk_source sk = NoSource /\ sk_default sk = JNull /\ sk_valueFrom sk = None.

(** the documented extra warnings of v1.2 *)
Definition notes (v : version) (steps : list (string * step)) (types : list (string * ctype)) (sk : sink) : list entry :=
  let note src m := {| e_src := src; e_sink := sk_id sk; e_linkMerge := link_merge v sk; e_message := Some m |} in
  match v with
  | V12 =>
      (if several sk then [] else
         match sk_pickValue sk with
         | Some _ => map (fun src => note src "pickValue is used but only a single input source is declared") (links sk)
         | None => []
         end)
      ++ map (fun src => note src (if several sk
                                   then "Source is from conditional step, but pickValue is not used"
                                   else "Source is from conditional step and may produce `null`"))
           (filter (fun src => may_be_skipped steps sk src &&
                      match dget (sk_id sk) types with Some u => negb (takes_null u) | None => false end) (links sk))
  | _ => []
  end.

(** every source and sink is known, a v1.2 source list is not empty and the link merge
    method exists *)
Definition links_wf (v : version) (src_ids : list string) (types : list (string * ctype)) (sinks : list sink) : Prop :=
  Forall (fun sk =>
    dget (sk_id sk) types <> None /\
    Forall (fun src => In src src_ids /\ dget src types <> None) (links sk) /\
    (v = V12 -> sk_source sk <> Sources []) /\
    (sk_valueFrom sk = None -> links sk <> [] ->
       link_merge v sk = None \/ link_merge v sk = Some "merge_nested" \/ link_merge v sk = Some "merge_flattened")) sinks.

(** the elements satisfying [P], in order *)
Inductive Kept {A} (P : A -> Prop) : list A -> list A -> Prop :=
| K_nil : Kept P [] []
| K_yes x l l' : P x -> Kept P l l' -> Kept P (x :: l) (x :: l')
| K_no x l l' : ~ P x -> Kept P l l' -> Kept P (x :: l) l'.

(** the links of a workflow: every source is a workflow input or a step output, v1.2 lists
    are not empty, link merge methods exist *)
Definition sinks_of (wf : workflow) : list sink := flat_map st_in (wf_steps wf) ++ map fst (wf_outputs wf).
Definition sources_of (wf : workflow) : list string := map p_id (wf_inputs wf) ++ flat_map st_out (wf_steps wf).
Definition linked (v : version) (wf : workflow) : Prop :=
  Forall (fun sk =>
    Forall (fun src => In src (sources_of wf)) (links sk) /\
    (v = V12 -> sk_source sk <> Sources []) /\
    (sk_valueFrom sk = None -> links sk <> [] ->
       link_merge v sk = None \/ link_merge v sk = Some "merge_nested" \/ link_merge v sk = Some "merge_flattened"))
    (sinks_of wf).

(** v1.2: outputs of steps collecting a loop feed at most one link; the links from an
    output of a conditional step all expect null from it, or none does; such outputs are
    not sinks as well *)
Definition special (steps : list (string * step)) (src : string) : bool :=
  from_step steps st_when src || from_step steps st_loop_all src.
Definition special_once (steps : list (string * step)) (sinks : list sink) : Prop :=
  NoDup (filter (collected steps) (flat_map links sinks)) /\
  (forall sk sk' src, In sk sinks -> In sk' sinks -> In src (links sk) -> In src (links sk') ->
     may_be_skipped steps sk src = may_be_skipped steps sk' src) /\
  Forall (fun sk => ~ In (sk_id sk) (filter (special steps) (flat_map links sinks))) sinks.

(** ** names *)
(** the text after the last [c] *)
Definition AfterLast (c : ascii) (id part : string) : Prop :=
  has_char c part = false /\ (id = part \/ exists p, id = (p ++ String c part)%string).
Definition Fragment (id frag : string) : Prop := AfterLast "#" id frag.
Definition PortName (id name : string) : Prop := exists f, Fragment id f /\ AfterLast "/" f name.

(** what names in a process denote: its inputs, and step/port for step outputs *)
Definition step_scope (st : step) : list (string * found) :=
  flat_map (fun o =>
    map (fun p => ((last_part "#" (st_id st) ++ String "/" (port_name o))%string, (p, step_scatter_context st)))
        (filter (fun p => String.eqb (port_name (p_id p)) (port_name o)) (run_outputs st))) (st_out st).
Definition inputs_scope (l : list param) : list (string * found) :=
  map (fun p => (last_part "#" (p_id p), (p, None))) l.
Definition workflow_scope (p : proc) : list (string * found) :=
  match p with Tool _ => [] | Wf inputs steps => inputs_scope inputs ++ flat_map step_scope steps end.
Definition scope (process : proc) (parent : option proc) : list (string * found) :=
  match process with Tool inputs => inputs_scope inputs | Wf _ _ => workflow_scope process end
  ++ match parent with Some p => workflow_scope p | None => [] end.
Definition denoted (sc : list (string * found)) (source : string) : list found :=
  map snd (filter (fun c => String.eqb (fst c) (last_part "#" source)) sc).

Definition named_steps (p : proc) : Prop :=
  match p with Tool _ => True | Wf _ steps => Forall (fun st => last_part "#" (st_id st) <> "") steps end.

(** distinct elements in order of first occurrence *)
Inductive Distinct {A} : list A -> list A -> Prop :=
| D_nil : Distinct [] []
| D_new l x d : Distinct l d -> ~ In x l -> Distinct (l ++ [x]) (d ++ [x])
| D_old l x d : Distinct l d -> In x l -> Distinct (l ++ [x]) d.

(** the type a found parameter delivers: scatter wraps it *)
Inductive Delivers : found -> ctype -> Prop :=
| Del_plain p : Delivers (p, None) (p_type p)
| Del_nested p n t : ArrayNesting n (p_type p) t -> Delivers (p, Some (n, "nested_crossproduct")) t
| Del_flat p n m : m <> "nested_crossproduct" -> Delivers (p, Some (n, m)) (TArray (p_type p)).

(** linkMerge on the computed type: without a (known) method several sources give an array *)
Inductive SourcesMerged : option string -> bool -> ctype -> ctype -> Prop :=
| SM_merge m b t t' : m <> None -> Merged m t t' -> SourcesMerged m b t t'
| SM_several m t : m <> Some "merge_nested" -> m <> Some "merge_flattened" -> SourcesMerged m true t (TArray t)
| SM_one m t : m <> Some "merge_nested" -> m <> Some "merge_flattened" -> SourcesMerged m false t t.

(** picking one non-null value takes an element of an array *)
Inductive ValuePicked : option string -> ctype -> ctype -> Prop :=
| VP_first t : ValuePicked (Some "first_non_null") (TArray t) t
| VP_only t : ValuePicked (Some "the_only_non_null") (TArray t) t
| VP_other pv t : pv <> Some "first_non_null" -> pv <> Some "the_only_non_null" -> ValuePicked pv t t
| VP_no_array pv t : (forall u, t <> TArray u) -> ValuePicked pv t t.

(** every type is assignable to itself when its unions have a non-null alternative and no
    union inside a union *)
Inductive Sensible : ctype -> Prop :=
| Se_name s : Sensible (TName s)
| Se_enum c n s r : Sensible (TEnum c n s r)
| Se_array t : Sensible t -> Sensible (TArray t)
| Se_record fs : (forall k t, FieldOf fs k t -> Sensible t) -> Sensible (TRecord fs)
| Se_union l : (forall t, In t l -> Sensible t) -> (forall t, In t l -> ~ is_union t) ->
    (exists t, In t l /\ t <> TName "null") -> Sensible (TUnion l).

(** the short name of an identifier: what follows the last slash of its fragment (the text
    behind the first #), or of the text before the # when there is no fragment *)
Definition ShortName (id name : string) : Prop :=
  (exists path frag, id = (path ++ String "#" frag)%string /\ has_char "#" path = false /\ frag <> "" /\
     AfterLast "/" frag name) \/
  (exists path, (id = path \/ id = (path ++ "#")%string) /\ has_char "#" path = false /\ AfterLast "/" path name).

(** names, enums and records of these *)
Inductive Plain : ctype -> Prop :=
| Pl_leaf t : is_leaf t -> Plain t
| Pl_record fs : (forall k t, FieldOf fs k t -> Plain t) -> Plain (TRecord fs).

(** equal types: the same name or enum, or records with the same fields of equal types *)
Inductive SameType : ctype -> ctype -> Prop :=
| Same_leaf t : is_leaf t -> SameType t t
| Same_record fs gs :
    (forall k t, FieldOf fs k t -> exists u, FieldOf gs k u /\ SameType t u) ->
    (forall k, NoField fs k -> NoField gs k) -> SameType (TRecord fs) (TRecord gs).
