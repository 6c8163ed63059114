(** * Property C59: what the generated JSON schema accepts *)
From Verif Require Import PyBase PyBaseProofs UtilsModel UtilsProofs SchemaModel SchemaSpec SchemaProofs
  JsonSpec JsonProofs JsonProofs2 JsonProofs3.

(** The schema written for a type accepts exactly the values the type admits, a union
    asking for exactly one of its alternatives. *)
Theorem C59_type_schema : forall ref named t td,
  generate_type_dict_from_type t = Ok td ->
  FieldsDistinct t -> definitions_agree ref named t ->
  forall v, accepts ref (JDict td) v = admitted named t v.
Proof. intros. apply type_dict_reading; auto. Qed.
Print Assumptions C59_type_schema.

(** The whole schema accepts exactly the objects that give every mandatory input and
    whose given inputs fit: null or the type for an input that may be left out, the
    type for the others. *)
Theorem C59_input_object : forall ref named template indexed schemadef inputs schema,
  cwl_to_jsonschema template indexed schemadef inputs = Ok schema ->
  NoDup (map in_name inputs) -> plain_template template ->
  Forall (fun i => proper_record (in_type i) /\ in_type i <> XStr "null" /\
                   FieldsDistinct (in_type i) /\ definitions_agree ref named (in_type i)) inputs ->
  forall v, accepts ref (JDict schema) v = true <->
    exists o, v = JDict o /\ forall i, In i inputs ->
      (dget (in_name i) o = None -> omittable i) /\
      (forall x, dget (in_name i) o = Some x ->
         (omittable i -> admitted named (with_null (in_type i)) x = true) /\
         (~ omittable i -> admitted named (in_type i) x = true)).
Proof.
  intros ref named template indexed sd inputs schema H N P F v.
  rewrite (jsonschema_reading ref named _ _ _ _ _ H N P).
  2: { eapply Forall_impl; [|exact F]. cbn. tauto. }
  assert (E : forall o, (forall i, In i inputs ->
        match dget (in_name i) o with
        | Some x => (if required_of i then admitted named (in_type i) x else admitted named (with_null (in_type i)) x) = true
        | None => required_of i = false
        end) <-> (forall i, In i inputs ->
      (dget (in_name i) o = None -> omittable i) /\
      (forall x, dget (in_name i) o = Some x ->
         (omittable i -> admitted named (with_null (in_type i)) x = true) /\
         (~ omittable i -> admitted named (in_type i) x = true)))).
  { intros o. rewrite Forall_forall in F. split; intros X i I; specialize (X i I);
      destruct (F i I) as (F1 & F2 & _); pose proof (required_iff i F1 F2) as RI;
      assert (D : required_of i = false <-> omittable i).
    1, 3: destruct (required_of i) eqn:R; (split; intros Y; try discriminate; auto);
         [exfalso; apply RI; auto|]; unfold omittable, nullable in *;
         unfold required_of, get_is_required_from_input_parameter in R;
         destruct (in_type i) as [s|l| | | | | | | |ty f] eqn:T;
         [destruct (endswith "?" s) eqn:ES; [apply endswith_spec in ES; destruct ES as [r ->]; left; left; eauto|]
         |destruct (existsb is_null_name l) eqn:EN; [apply existsb_null in EN; left; right; right; eauto|]
         | | | | | | | | rewrite (F1 ty f eq_refl) in R; cbn in R];
         right; intros Z; rewrite Z in R; discriminate.
    - destruct (dget (in_name i) o) as [x|]; (split; [intros Z|intros x' Z]); try discriminate; [|apply D; auto].
      injection Z as <-. destruct (required_of i).
      + split; auto. intros O. apply D in O. discriminate.
      + split; auto. intros O. exfalso. apply O, D. auto.
    - destruct X as [X1 X2]. destruct (dget (in_name i) o) as [x|]; [|apply D; auto].
      destruct (X2 x eq_refl) as [Y1 Y2]. destruct (required_of i).
      + apply Y2. apply RI. auto.
      + apply Y1, D. auto. }
  split; intros (o & -> & X); exists o; split; auto; apply E; auto.
Qed.
Print Assumptions C59_input_object.

(** Full statement of C59: a value of the type of an input, by the CWL standard, is
    accepted.  It holds when no value belongs to two alternatives of a union; see the
    refutations for the rest. *)
Theorem C59_values_accepted_partial : forall ref named t td v,
  generate_type_dict_from_type t = Ok td -> FieldsDistinct t -> definitions_agree ref named t ->
  Separate named t -> HasType named t v -> accepts ref (JDict td) v = true.
Proof. intros. rewrite (type_dict_reading ref named t); auto. apply typed_admitted; auto. Qed.
Print Assumptions C59_values_accepted_partial.

(** An input of type int or float does not accept 3, which is both. *)
Theorem C59_overlap_refuted : exists td, forall ref named,
  generate_type_dict_from_type (XList [XStr "int"; XStr "float"]) = Ok td /\
  HasType named (XList [XStr "int"; XStr "float"]) (JInt 3) /\
  accepts ref (JDict td) (JInt 3) = false.
Proof.
  eexists. intros ref named. split; [reflexivity|]. split; [|reflexivity].
  eapply HT_union; [cbn; left; reflexivity|]. constructor.
Qed.
Print Assumptions C59_overlap_refuted.

(** The definition of a record type: an object with its fields, of which those with a
    null alternative may be missing. *)
Theorem C59_record_definition : forall ref named name fields ds ts,
  generate_definition_from_schema (RecordSchema name (Some fields)) = Ok ds ->
  NoDup (map (fun f => get_value_from_uri (fst f)) fields) ->
  Forall2 (fun f t => sanitise_type (snd f) = Ok t) fields ts ->
  Forall (fun t => flat_union t /\ FieldsDistinct t /\ definitions_agree ref named t) ts ->
  exists def, ds = [(to_pascal_case (get_value_from_uri name), def)] /\
    forall v, accepts ref def v = true <->
      exists o, v = JDict o /\
        Forall2 (fun f t => match dget (get_value_from_uri (fst f)) o with
                            | Some x => admitted named (given_type t) x = true
                            | None => null_is_alternative t
                            end) fields ts.
Proof. intros. apply definition_reading; auto. Qed.
Print Assumptions C59_record_definition.

(** An optional field of a record type may be missing but not null. *)
Theorem C59_null_field_refuted : exists name def, forall ref,
  generate_definition_from_schema (RecordSchema name (Some [("file:///w.cwl#r/x", XStr "string?")]))
    = Ok [("R", def)] /\
  accepts ref def (JDict []) = true /\ accepts ref def (JDict [("x", JNull)]) = false.
Proof. exists "file:///w.cwl#r". eexists. intros ref. repeat split. Qed.
Print Assumptions C59_null_field_refuted.

(** Two record types with the same last name share one definition: the later one. *)
Theorem C59_same_name_refuted : exists a b inputs schema da db,
  a <> b /\ da <> db /\
  generate_definition_from_schema a = Ok [("Row", da)] /\
  generate_definition_from_schema b = Ok [("Row", db)] /\
  cwl_to_jsonschema [("definitions", JDict [])] [a; b] None inputs = Ok schema /\
  map in_type inputs = [XStr "file:///a.yaml#row"; XStr "file:///b.yaml#row"] /\
  dget "definitions" schema = Some (JDict [("Row", db)]).
Proof.
  exists (RecordSchema "file:///a.yaml#row" (Some [("file:///a.yaml#row/x", XStr "int")])),
         (RecordSchema "file:///b.yaml#row" (Some [("file:///b.yaml#row/y", XStr "string")])).
  exists [ {| in_id := "file:///w.cwl#p"; in_type := XStr "file:///a.yaml#row"; in_default := JNull; in_doc := JNull |};
           {| in_id := "file:///w.cwl#q"; in_type := XStr "file:///b.yaml#row"; in_default := JNull; in_doc := JNull |} ].
  do 3 eexists. split; [discriminate|].
  split. 2: split; [reflexivity|split; [reflexivity|split; [reflexivity|split; reflexivity]]].
  discriminate.
Qed.
Print Assumptions C59_same_name_refuted.

(** A type has a schema exactly when it is built from type names, absolute URIs and
    imports; otherwise a ValueError says so. *)
Theorem C59_supported_types : forall t,
  match generate_type_dict_from_type t with
  | Ok _ => Supported t
  | Err e => e = ValueError /\ ~ Supported t
  end.
Proof. exact supported_iff. Qed.
Print Assumptions C59_supported_types.

(** The definitions of the schema are those generated for the record types, later ones
    winning, over those of the template, as far as they are used. *)
Theorem C59_definitions : forall template tdefs indexed schemadef inputs gens schema,
  dget "definitions" template = Some (JDict tdefs) ->
  Forall2 (fun s g => generate_definition_from_schema s = Ok g)
    (indexed ++ match schemadef with Some l => l | None => [] end) gens ->
  cwl_to_jsonschema template indexed schemadef inputs = Ok schema ->
  exists all keep, Overlay tdefs gens all /\
    (forall n, keep n = true <-> Used all (properties_of schema) n) /\
    dget "definitions" schema = Some (JDict (filter (fun kv => keep (fst kv)) all)).
Proof.
  intros template tdefs indexed sd inputs gens schema TD FG H.
  destruct (jsonschema_shape _ _ _ _ _ H) as (ps & M & _). apply mapM_Forall2 in M.
  destruct (jsonschema_definitions _ _ _ _ _ _ _ TD FG M) as (all & OV & _ & K).
  destruct (K schema H) as (_ & keep & A & B). exists all, keep. auto.
Qed.
Print Assumptions C59_definitions.

(** A schema is generated whenever the input types are supported and every definition
    that is needed, by an input or by a definition, is there. *)
Theorem C59_generated : forall template tdefs indexed schemadef inputs gens all,
  dget "definitions" template = Some (JDict tdefs) ->
  Forall2 (fun s g => generate_definition_from_schema s = Ok g)
    (indexed ++ match schemadef with Some l => l | None => [] end) gens ->
  Overlay tdefs gens all ->
  Forall (fun i => Supported (in_type i) /\ NoRefField (in_type i) /\ plain_doc (in_doc i) /\
                   in_name i <> "$ref") inputs ->
  (forall n d r, dget n all = Some d -> RefIn r d ->
     exists s, r = JStr s /\ forall m, Names s m -> dget m all <> None) ->
  (forall i n, In i inputs -> Needs (in_type i) n -> dget n all <> None) ->
  exists schema, cwl_to_jsonschema template indexed schemadef inputs = Ok schema.
Proof. intros. eapply jsonschema_succeeds; eauto. Qed.
Print Assumptions C59_generated.

(** a case that meets the hypotheses *)
Definition demo_template : dict :=
  [("definitions", JDict [("File", JDict []); ("Directory", JDict []); ("Any", JDict [])])].
Definition demo_record : type_schema :=
  RecordSchema "file:///t.yaml#my_row" (Some [("file:///t.yaml#my_row/x", XStr "File?")]).
Definition demo_input : input_parameter :=
  {| in_id := "file:///w.cwl#r"; in_type := XStr "file:///t.yaml#my_row"; in_default := JNull; in_doc := JNull |}.
Definition demo_definition : json :=
  JDict [("type", JStr "object");
         ("properties", JDict [("x", JDict [("$ref", JStr "#/definitions/File"); ("description", JStr "")])]);
         ("required", JList [])].
Example C59_case_generated : exists gens all schema,
  Forall2 (fun s g => generate_definition_from_schema s = Ok g) ([] ++ [demo_record]) gens /\
  Overlay [("File", JDict []); ("Directory", JDict []); ("Any", JDict [])] gens all /\
  Supported (in_type demo_input) /\ dget "MyRow" all <> None /\
  cwl_to_jsonschema demo_template [] (Some [demo_record]) [demo_input] = Ok schema.
Proof.
  exists [[("MyRow", demo_definition)]],
    [("MyRow", demo_definition); ("File", JDict []); ("Directory", JDict []); ("Any", JDict [])]. eexists.
  split; [repeat constructor|]. split.
  - intros n d. cbn [dget]. split.
    + destruct (String.eqb_spec n "MyRow") as [->|N]; intros H.
      * injection H as <-. left. exists []. eexists. exists []. split; [reflexivity|]. split; [reflexivity|constructor].
      * right. split; [|exact H]. constructor; [|constructor]. cbn [dget].
        destruct (String.eqb_spec n "MyRow"); [contradiction|reflexivity].
    + intros [(pre & g & post & E & G & _)|[F H]].
      * destruct pre as [|a pre]; [|destruct pre; discriminate]. cbn in E. injection E as <- <-. cbn [dget] in G.
        destruct (String.eqb n "MyRow"); [exact G|discriminate].
      * inversion F as [|a b Fa Fb]; subst. cbn [dget] in Fa. destruct (String.eqb n "MyRow"); [discriminate|exact H].
  - split; [|split; [discriminate|reflexivity]].
    apply Su_uri. exists "f"%char, "ile", "///t.yaml#my_row". split; [reflexivity|].
    split; [cbn; tauto|]. intros d [<-|[<-|[<-|[]]]]; cbn; tauto.
Qed.
Definition demo_ref (r : string) (v : json) : bool :=
  match v with JDict o => String.eqb r "#/definitions/File" && dmem "class" o | _ => false end.
Definition demo_named (n : string) (v : json) : bool :=
  match v with JDict o => String.eqb n "File" && dmem "class" o | _ => false end.
Definition demo_type : texp :=
  XList [XStr "null"; XArrayObj (XStr "File");
         XRecordObj "record" (Some [("file:///w.cwl#i/a", XStr "int"); ("file:///w.cwl#i/b", XList [XStr "null"; XStr "File"])])].
Example C59_case_hyp : FieldsDistinct demo_type /\ definitions_agree demo_ref demo_named demo_type.
Proof.
  split.
  - repeat constructor; cbn; intuition discriminate.
  - split.
    + intros s v I. cbn in I. destruct I as [<-|[<-|[<-|[]]]]; destruct v; reflexivity.
    + intros u n v M. exfalso.
      repeat match goal with
      | H : Mentions _ (XList _) |- _ => inversion H; subst; clear H
      | H : Mentions _ (XRecordObj _ _) |- _ => inversion H; subst; clear H
      | H : Mentions _ (XArrayObj _) |- _ => inversion H; subst; clear H
      | H : Mentions _ (XStr _) |- _ => inversion H; subst; clear H
      | H : Mentions _ demo_type |- _ => unfold demo_type in H
      | H : In _ (_ :: _) |- _ => destruct H as [H|H]; subst; cbn [snd] in *
      | H : In _ [] |- _ => destruct H
      | H : ~ In _ _ |- _ => apply H; cbn; tauto
      end.
Qed.
Example C59_case : exists td, generate_type_dict_from_type demo_type = Ok td /\
  accepts demo_ref (JDict td) (JDict [("a", JInt 1)]) = true /\
  accepts demo_ref (JDict td) (JList [JDict [("class", JStr "File")]; JStr "x"]) = false.
Proof. eexists. repeat split. Qed.
Example C59_case_separate : Separate demo_named demo_type.
Proof.
  unfold demo_type. constructor.
  - repeat constructor. intros i j a b v Hi Hj A B.
    destruct i as [|[|[|i]]], j as [|[|[|j]]]; try reflexivity; try discriminate;
      injection Hi as <-; injection Hj as <-; destruct v; discriminate.
  - intros i j a b v Hi Hj A B.
    destruct i as [|[|[|[|i]]]], j as [|[|[|[|j]]]]; try reflexivity; try discriminate;
      injection Hi as <-; injection Hj as <-; destruct v; discriminate.
Qed.
Example C59_case_record : exists ts,
  Forall2 (fun f t => sanitise_type (snd f) = Ok t)
    [("file:///w.cwl#r/x", XStr "string?"); ("file:///w.cwl#r/y", XStr "int[]")] ts /\
  Forall (fun t => flat_union t /\ FieldsDistinct t) ts.
Proof.
  eexists. split; [repeat constructor|].
  repeat constructor; try (intros l l' E; inversion E; subst; cbn; intuition discriminate).
Qed.
