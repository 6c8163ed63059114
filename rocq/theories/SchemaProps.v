(** * Properties C18, C19: JSON schema generation *)
From Verif Require Import PyBase PyBaseProofs UtilsModel UtilsProofs SchemaModel SchemaSpec SchemaProofs.

(** ** C18 *)
(** Whenever slimming succeeds, the definitions left are exactly the used ones, in
    their order and unchanged; every used name is still defined; every other key of the
    schema is unchanged. *)
Theorem C18_keeps_exactly_the_used : forall schema defs s',
  dget "definitions" schema = Some (JDict defs) -> slim_definitions schema = Ok s' ->
  exists defs', dget "definitions" s' = Some (JDict defs') /\
    (exists keep, (forall n, keep n = true <-> Used defs (properties_of schema) n) /\
                  defs' = filter (fun kv => keep (fst kv)) defs) /\
    (forall n, Used defs (properties_of schema) n -> dget n defs' = dget n defs /\ dget n defs' <> None) /\
    (forall n, ~ Used defs (properties_of schema) n -> dget n defs' = None) /\
    (forall k, k <> "definitions" -> dget k s' = dget k schema) /\ dkeys s' = dkeys schema.
Proof.
  intros schema defs s' HD H. destruct (slim_ok _ _ _ HD H) as (keep & K & -> & D).
  exists (filter (fun kv => keep (fst kv)) defs). split; [apply dget_dset_same|].
  assert (G : forall n, dget n (filter (fun kv => keep (fst kv)) defs) = if keep n then dget n defs else None).
  { intros n. clear. induction defs as [|[k v] l IH]; cbn; [destruct (keep n); auto|].
    destruct (String.eqb_spec n k) as [<-|N].
    - destruct (keep n) eqn:E; cbn; [rewrite String.eqb_refl; auto|auto].
    - destruct (keep k) eqn:E; cbn; [apply String.eqb_neq in N; rewrite N|]; auto. }
  split; [exists keep; auto|]. split.
  { intros n U. rewrite G. pose proof (D n U) as Dn. unfold dmem in Dn. rewrite G in Dn.
    apply K in U. rewrite U in *. split; auto. destruct (dget n defs); congruence. }
  split. { intros n U. rewrite G. destruct (keep n) eqn:E; auto. apply K in E. contradiction. }
  split. { intros k N. apply dget_dset_other; auto. }
  rewrite dkeys_dset. unfold dmem. rewrite HD. reflexivity.
Qed.
Print Assumptions C18_keeps_exactly_the_used.

(** Slimming succeeds exactly when no used reference dangles or is not a text, and
    otherwise it reports which. *)
Theorem C18_when_it_succeeds : forall schema defs,
  dget "definitions" schema = Some (JDict defs) ->
  ((exists s', slim_definitions schema = Ok s') <->
   (refs_are_texts defs (properties_of schema) /\
    forall n, Used defs (properties_of schema) n -> dget n defs <> None)) /\
  (forall e, slim_definitions schema = Err e ->
   (e = KeyError /\ exists n, Used defs (properties_of schema) n /\ dget n defs = None) \/
   (e = AttributeError /\ ~ refs_are_texts defs (properties_of schema))).
Proof. intros schema defs HD. split; [apply slim_succeeds; auto|intros e; apply slim_fails; auto]. Qed.
Print Assumptions C18_when_it_succeeds.

(** the name a reference or identifier stands for *)
Theorem C18_reference_name : forall r n, Names r n <-> get_value_from_uri r = n.
Proof. apply Names_iff. Qed.
Print Assumptions C18_reference_name.

Definition demo_schema : dict :=
  [ ("properties", JDict [("x", definition_ref "A"); ("y", JDict [("oneOf", JList [definition_ref "B"])])]);
    ("definitions", JDict [ ("A", JDict [("items", definition_ref "C")]); ("Z", JDict []);
                            ("B", JDict []); ("C", JDict [("items", definition_ref "A")]) ]) ].
Example C18_case : exists s', slim_definitions demo_schema = Ok s' /\
  dget "definitions" s' =
    Some (JDict [ ("A", JDict [("items", definition_ref "C")]); ("B", JDict []);
                  ("C", JDict [("items", definition_ref "A")]) ]).
Proof. eexists. split; reflexivity. Qed.

(** ** C19 *)
(** One property per input, in order; the required list is exactly the inputs that may
    not be left out, in order; a property accepts null exactly when its input may be left
    out.  Left out of the statement: an input whose whole type is null (see the
    refutation), record objects whose [type_] is not "record", unions hiding a null
    inside a nested union, and two inputs with one name. *)
Theorem C19_schema_partial : forall template indexed schemadef inputs schema,
  cwl_to_jsonschema template indexed schemadef inputs = Ok schema ->
  NoDup (map in_name inputs) ->
  Forall (fun i => proper_record (in_type i) /\ in_type i <> XStr "null") inputs ->
  exists props, dget "properties" schema = Some (JDict props) /\
    dkeys props = map in_name inputs /\
    (exists mandatory, (forall i, In i inputs -> (mandatory i = true <-> ~ omittable i)) /\
       dget "required" schema = Some (JList (map (fun i => JStr (in_name i)) (filter mandatory inputs)))) /\
    (forall i, In i inputs -> rest_null_free (in_type i) ->
       exists p, dget (in_name i) props = Some p /\
         (omittable i -> admits_null (fun _ => false) p = true) /\
         (~ omittable i -> admits_null (fun _ => false) p = false)).
Proof.
  intros template indexed sd inputs schema H N F.
  destruct (jsonschema_inputs _ _ _ _ _ H N) as (props & P & K & R & A). rewrite Forall_forall in F.
  exists props. split; auto. split; auto. split.
  { exists required_of. split; auto. intros i I. destruct (F i I). apply required_iff; auto. }
  intros i I RN. destruct (A i I) as (p & G & Q). exists p. split; auto. specialize (Q RN).
  destruct (F i I) as [F1 F2]. pose proof (required_iff i F1 F2) as RI. rewrite Q. split; intros O.
  - destruct (required_of i); auto. exfalso. apply RI; auto.
  - apply RI in O. rewrite O. reflexivity.
Qed.
Print Assumptions C19_schema_partial.

(** An input of type null is listed as required. *)
Theorem C19_null_type_refuted : exists template inputs schema i,
  cwl_to_jsonschema template [] None inputs = Ok schema /\ NoDup (map in_name inputs) /\
  In i inputs /\ omittable i /\
  exists l, dget "required" schema = Some (JList l) /\ In (JStr (in_name i)) l.
Proof.
  set (i := {| in_id := "file:///w.cwl#x"; in_type := XStr "null"; in_default := JNull; in_doc := JNull |}).
  exists [("definitions", JDict [])], [i]. eexists. exists i.
  split; [reflexivity|]. split; [repeat constructor; cbn; tauto|]. split; [cbn; auto|].
  split; [left; right; left; reflexivity|]. eexists. split; [reflexivity|]. cbn. auto.
Qed.
Print Assumptions C19_null_type_refuted.

Definition demo_inputs : list input_parameter :=
  [ {| in_id := "file:///w.cwl#a"; in_type := XStr "File"; in_default := JNull; in_doc := JNull |};
    {| in_id := "file:///w.cwl#b"; in_type := XList [XStr "null"; XArrayObj (XStr "int")]; in_default := JNull; in_doc := JNull |};
    {| in_id := "file:///w.cwl#c"; in_type := XStr "int"; in_default := JInt 3; in_doc := JStr "a number" |} ].
Example C19_case : exists schema,
  cwl_to_jsonschema [("definitions", JDict [("File", JDict []); ("Directory", JDict [])])] [] None demo_inputs = Ok schema /\
  NoDup (map in_name demo_inputs) /\
  Forall (fun i => proper_record (in_type i) /\ in_type i <> XStr "null") demo_inputs /\
  Forall (fun i => rest_null_free (in_type i)) demo_inputs /\
  dget "required" schema = Some (JList [JStr "a"]) /\
  dget "definitions" schema = Some (JDict [("File", JDict [])]).
Proof.
  eexists. split; [reflexivity|]. split; [repeat constructor; cbn; intuition discriminate|].
  split. { repeat constructor; try discriminate; intros ? ? X; discriminate X. }
  split. { repeat constructor; cbn; auto; discriminate. }
  split; reflexivity.
Qed.
