(** * Property C27: splitting packed documents *)
From Verif Require Import PyBase PyBaseProofs GraphModel GraphSpec GraphProofs GraphTypeProofs.

Lemma lstrip_plain P : plain_name P -> lstrip_char "#" P = P /\ lstrip_char "#" ("#" ++ P) = P.
Proof.
  intros (NE & _ & NH). cbn [append lstrip_char]. rewrite Ascii.eqb_refl. destruct P as [|c P]; [congruence|].
  cbn [lstrip_char]. destruct (Ascii.eqb_spec c "#") as [->|N]; [destruct (NH P); reflexivity|auto].
Qed.
Lemma target_file bn mf P f : TargetFile bn mf P f -> file_name bn mf P = f.
Proof.
  unfold file_name. intros [[N F]|[(-> & m & -> & F)|(-> & -> & F)]].
  - apply String.eqb_neq in N. rewrite N. apply FileFor_strip. auto.
  - rewrite String.eqb_refl. apply FileFor_strip. auto.
  - rewrite String.eqb_refl. apply FileFor_strip. auto.
Qed.
Lemma process_files_app a b : process_files (a ++ b) = process_files a ++ process_files b.
Proof. induction a as [|[f j|f j] a IH]; cbn; congruence. Qed.
Lemma type_files_app a b : type_files (a ++ b) = type_files a ++ type_files b.
Proof. induction a as [|[f j|f j] a IH]; cbn; congruence. Qed.
Lemma process_files_appends l : process_files (map (fun fj => Append (fst fj) (snd fj)) l) = [].
Proof. induction l; auto. Qed.
Lemma type_files_appends l : type_files (map (fun fj => Append (fst fj) (snd fj)) l) = l.
Proof. induction l as [|[f j] l IH]; cbn; congruence. Qed.

Lemma split_entry_spec bn mf version entry ops : split_entry bn mf version entry = Ok ops ->
  exists e id doc, entry = JDict e /\ dget "id" e = Some (JStr id) /\
    process_files ops = [(file_name bn mf (lstrip_char "#" id), doc)] /\
    forall P, process_entry entry P e -> lstrip_char "#" id = P /\ exists imports, Moved version e P doc imports (type_files ops).
Proof.
  intros E. unfold split_entry in E. destruct entry as [| | | | | |e]; try discriminate. destruct (dget "id" e) as [[| | | |id| |]|] eqn:G; try discriminate.
  apply bind_inv in E. destruct E as ([[j i] f] & E1 & E). apply bind_inv in E. destruct E as (doc & E2 & E). injection E as <-.
  exists e, id, doc. split; auto. split; auto. split.
  { rewrite process_files_app, process_files_appends. reflexivity. }
  intros P (_ & H & PN).
  assert (X : lstrip_char "#" id = P).
  { destruct (lstrip_plain _ PN) as [A B]. destruct H as [H|H]; rewrite G in H; injection H as ->; auto. }
  split; auto. rewrite X in *. exists i. rewrite type_files_app, type_files_appends. cbn [type_files]. rewrite app_nil_r.
  constructor.
  - intros p d D. destruct (rewrite_at _ _ _ _ D _ _ _ E1) as (d1 & D1 & F1). destruct (passes_at _ _ _ _ _ D1 E2) as (d' & D' & Q).
    exists d'. split; auto. eapply Rewritten_spec; eauto. apply PN.
  - intros p d te F T S L NS PF H0. destruct (schema_at _ _ _ _ NS PF H0 _ _ _ S L _ _ _ E1) as (A & B & _). split; auto.
    eapply passes_schema_at; eauto.
  - intros p d te F T S L NS PF H0. destruct (schema_at _ _ _ _ NS PF (or_intror H0) _ _ _ S L _ _ _ E1) as (_ & _ & C). auto.
Qed.

(** Every process of the graph is written to one file, in order; its references are
    rewritten as specified; its types are moved to their files and imported from there. *)
Theorem C27_processes_moved_partial bn mf source l version ops :
  dget "$graph" source = Some (JList l) -> dget "cwlVersion" source = Some version ->
  graph_split bn mf (JDict source) = Ok ops ->
  Forall2 (fun entry fd => exists e, entry = JDict e /\
             forall P, process_entry entry P e ->
               (forall f, TargetFile bn mf P f -> fst fd = f) /\
               exists imports, Moved version e P (snd fd) imports (type_files ops))
          l (process_files ops).
Proof.
  intros G V E. unfold graph_split in E. rewrite G, V in E. apply bind_inv in E. destruct E as (r & E & X). injection X as <-.
  assert (Y : forall types, (forall x, In x (type_files (List.concat r)) -> In x types) ->
    Forall2 (fun entry fd => exists e, entry = JDict e /\
             forall P, process_entry entry P e ->
               (forall f, TargetFile bn mf P f -> fst fd = f) /\
               exists imports, Moved version e P (snd fd) imports types)
          l (process_files (List.concat r))).
  2:{ apply Y. auto. }
  clear G V. revert r E. induction l as [|x l IH]; intros r E types T; cbn [mapM] in E; [injection E as <-; constructor|].
  apply bind_inv in E. destruct E as (o & E1 & E). apply bind_inv in E. destruct E as (os & E2 & Q). injection Q as <-.
  cbn [List.concat] in *. rewrite process_files_app. rewrite type_files_app in T.
  destruct (split_entry_spec _ _ _ _ _ E1) as (e & id & doc & -> & G & PF & H). rewrite PF. cbn [app]. constructor.
  - exists e. split; auto. intros P PE. destruct (H P PE) as (ID & imports & [A B C]). split.
    + intros f TF. cbn [fst]. rewrite ID. apply target_file. auto.
    + exists imports. constructor; auto. intros p d te F T0 S L NS PN D. destruct (C _ _ _ _ _ S L NS PN D) as (e2 & I & Z).
      exists e2. split; auto. apply T. apply in_app_iff. auto.
  - apply IH; auto. intros y I. apply T. apply in_app_iff. auto.
Qed.
Print Assumptions C27_processes_moved_partial.

(** When file names do not clash, each process is what its file finally holds. *)
Lemma apply_ops_other fs ops f : ~ In f (map fst (process_files ops)) -> ~ In f (map fst (type_files ops)) -> apply_ops fs ops f = fs f.
Proof.
  unfold apply_ops. revert fs. induction ops as [|[g j|g j] ops IH]; intros fs A B; cbn in *; auto.
  - rewrite IH; [|tauto|tauto]. cbn. destruct (String.eqb_spec f g); [subst; tauto|reflexivity].
  - rewrite IH; [|tauto|tauto]. cbn. destruct (String.eqb_spec f g); [subst; tauto|reflexivity].
Qed.
Theorem C27_file_contents_partial fs ops f doc :
  In (f, doc) (process_files ops) -> NoDup (map fst (process_files ops)) -> ~ In f (map fst (type_files ops)) ->
  apply_ops fs ops f = [doc].
Proof.
  revert fs. induction ops as [|[g j|g j] ops IH]; intros fs I ND NT; [destruct I| |]; cbn in *.
  - apply IH; auto. 
  - inversion ND as [|? ? NI ND']; subst. destruct I as [I|I].
    + injection I as -> ->. change (apply_ops (apply_op fs (Overwrite f doc)) ops f = [doc]). rewrite apply_ops_other; auto.
      cbn. rewrite String.eqb_refl. reflexivity.
    + apply IH; auto.
Qed.
Print Assumptions C27_file_contents_partial.

(** References inside a process find the same thing as before: an identifier, or an output
    listed by a step. *)
Lemma own_inj P a b : own P a = own P b <-> a = b.
Proof. split; [|congruence]. unfold own. intros H. apply sapp_inj_l in H. apply sapp_inj_l in H. apply sapp_inj_l in H. auto. Qed.
Theorem C27_references_kept version e P doc imports types p q k d1 d2 r s :
  Moved version e P doc imports types -> In k ["outputSource"; "source"; "scatter"] ->
  DictAt (body version e) p d1 -> dget k d1 = Some (JStr (own P r)) ->
  DictAt (body version e) q d2 -> dget "id" d2 = Some (JStr (own P s)) ->
  exists d1' d2' r' s', DictAt doc p d1' /\ dget k d1' = Some (JStr r') /\ DictAt doc q d2' /\ dget "id" d2' = Some (JStr s') /\
    (r' = s' <-> own P r = own P s) /\
    forall l, dget "out" d2 = Some (JList (map (fun o => JStr (own P s ++ "/" ++ o)%string) l)) ->
      dget "out" d2' = Some (JList (map JStr l)) /\
      forall o, In o l -> (r' = (s' ++ "/" ++ o)%string <-> own P r = (own P s ++ "/" ++ o)%string).
Proof.
  intros [A _ _] K D1 G1 D2 G2. destruct (A _ _ D1) as (d1' & D1' & R1). destruct (A _ _ D2) as (d2' & D2' & R2).
  exists d1', d2', r, s. split; auto. split; [apply (r_own _ _ _ _ R1 k r); [cbn in *; tauto|exact G1]|].
  split; auto. split; [apply (r_own _ _ _ _ R2 "id" s); [cbn; auto|exact G2]|].
  split; [symmetry; apply own_inj|]. intros l O. split.
  - eapply (r_out _ _ _ _ R2); [|exact G2|exact O]. unfold own. discriminate.
  - intros o _. replace (own P s ++ "/" ++ o)%string with (own P (s ++ "/" ++ o)); [symmetry; apply own_inj|].
    unfold own. rewrite !sapp_assoc. reflexivity.
Qed.
Print Assumptions C27_references_kept.

(** a reference to another process names the file written for it *)
Theorem C27_run_names_the_file version e P doc imports types bn mf p d X f :
  Moved version e P doc imports types -> DictAt (body version e) p d -> dget "run" d = Some (JStr ("#" ++ X)) ->
  X <> "main" -> TargetFile bn mf X f -> exists d', DictAt doc p d' /\ dget "run" d' = Some (JStr f).
Proof.
  intros [A _ _] D G N [[_ F]|[(-> & _)|(-> & _)]]; try congruence. destruct (A _ _ D) as (d' & D' & R). exists d'. split; auto.
  eapply (r_run _ _ _ _ R); eauto.
Qed.
Print Assumptions C27_run_names_the_file.

(** A file that is not a packed document is left alone, and so is every other file. *)
Theorem C27_not_packed bn mf s fs f : dget "$graph" s = None -> exists ops, graph_split bn mf (JDict s) = Ok ops /\ apply_ops fs ops f = fs f.
Proof. intros G. exists []. unfold graph_split. rewrite G. auto. Qed.
Print Assumptions C27_not_packed.

(** ** a packed workflow *)
Module Packed.
  Definition tool : dict := [("class", JStr "CommandLineTool"); ("id", JStr "#tool.cwl");
    ("inputs", JList [JDict [("id", JStr "#tool.cwl/a"); ("type", JStr "#types.yml/T")]]); ("outputs", JList [JDict [("id", JStr "#tool.cwl/o"); ("type", JStr "int")]]);
    ("requirements", JList [JDict [("class", JStr "SchemaDefRequirement");
       ("types", JList [JDict [("name", JStr "#types.yml/T"); ("type", JStr "enum"); ("symbols", JList [])]])]])].
  Definition main : dict := [("class", JStr "Workflow"); ("id", JStr "#main");
    ("inputs", JList [JDict [("id", JStr "#main/x"); ("type", JStr "#types.yml/T")]]);
    ("outputs", JList [JDict [("id", JStr "#main/y"); ("type", JStr "int"); ("outputSource", JStr "#main/s/o")]]);
    ("requirements", JList [JDict [("class", JStr "SchemaDefRequirement"); ("types", JList [JDict [("$import", JStr "#types.yml/T")]])]]);
    ("steps", JList [JDict [("id", JStr "#main/s"); ("run", JStr "#tool.cwl"); ("in", JList [JDict [("id", JStr "#main/s/a"); ("source", JStr "#main/x")]]);
       ("out", JList [JStr "#main/s/o"])]])].
  Definition doc (l : list dict) : json := JDict [("cwlVersion", JStr "v1.2"); ("$graph", JList (map JDict l))].
End Packed.
Example C27_example : exists ops, graph_split "p.cwl" None (Packed.doc [Packed.tool; Packed.main]) = Ok ops /\
  process_files ops = [
    ("tool.cwl", JDict [("class", JStr "CommandLineTool");
       ("inputs", JList [JDict [("id", JStr "a"); ("type", JStr "types.yml#T")]]); ("outputs", JList [JDict [("id", JStr "o"); ("type", JStr "int")]]);
       ("requirements", JList [JDict [("class", JStr "SchemaDefRequirement"); ("types", JList [JDict [("symbols", JList []); ("$import", JStr "types.yml")]])]]);
       ("cwlVersion", JStr "v1.2")]);
    ("unpacked_p.cwl", JDict [("class", JStr "Workflow");
       ("inputs", JList [JDict [("id", JStr "x"); ("type", JStr "types.yml#T")]]);
       ("outputs", JList [JDict [("id", JStr "y"); ("type", JStr "int"); ("outputSource", JStr "s/o")]]);
       ("requirements", JList [JDict [("class", JStr "SchemaDefRequirement"); ("types", JList [JDict [("$import", JStr "types.yml")]])]]);
       ("steps", JList [JDict [("id", JStr "s"); ("run", JStr "tool.cwl"); ("in", JList [JDict [("id", JStr "s/a"); ("source", JStr "x")]]); ("out", JList [JStr "o"])]]);
       ("cwlVersion", JStr "v1.2")])] /\
  type_files ops = [("types.yml", JDict [("name", JStr "T"); ("type", JStr "enum"); ("symbols", JList [])])].
Proof. eexists. split; [vm_compute; reflexivity|]. split; reflexivity. Qed.
Lemma not_schema d : forallb (fun kv => negb (String.eqb (fst kv) "class" && json_eqb (snd kv) (JStr "SchemaDefRequirement"))) d = true -> ~ is_schemadef d.
Proof. intros H I. rewrite forallb_forall in H. apply H in I. cbn in I. discriminate. Qed.
Example C27_example_places :
  process_entry (JDict Packed.main) "main" Packed.main /\ process_entry (JDict Packed.tool) "tool.cwl" Packed.tool /\
  TargetFile "p.cwl" None "tool.cwl" "tool.cwl" /\ TargetFile "p.cwl" None "main" "unpacked_p.cwl" /\
  (exists d, DictAt (body (JStr "v1.2") Packed.main) [inl "outputs"; inr 0] d /\ dget "outputSource" d = Some (JStr (own "main" "s/o"))) /\
  (exists d, DictAt (body (JStr "v1.2") Packed.main) [inl "steps"; inr 0] d /\ dget "id" d = Some (JStr (own "main" "s")) /\
     dget "out" d = Some (JList (map (fun o => JStr (own "main" "s" ++ "/" ++ o)%string) ["o"])) /\ dget "run" d = Some (JStr ("#" ++ "tool.cwl"))) /\
  (exists d te, SchemaAt (body (JStr "v1.2") Packed.tool) [inl "requirements"; inr 0] d /\ lists_type d te /\ ~ is_schemadef te /\ defines_type te "types.yml" "T").
Proof.
  assert (PM : plain_name "main") by (repeat split; [discriminate|discriminate]).
  assert (PT : plain_name "tool.cwl") by (repeat split; [discriminate|discriminate]).
  split; [split; [reflexivity|split; [left; reflexivity|exact PM]]|]. split; [split; [reflexivity|split; [left; reflexivity|exact PT]]|].
  split; [left; split; [discriminate|apply (FF_has _ "tool"); reflexivity]|].
  split; [right; right; split; [reflexivity|]; split; [reflexivity|apply (FF_has _ "unpacked_p"); reflexivity]|].
  split; [|split].
  - eexists. split.
    + eapply At_key; [apply not_schema; reflexivity|cbn; intuition discriminate|reflexivity|].
      eapply At_index; [reflexivity|]. constructor. apply not_schema. reflexivity.
    + reflexivity.
  - eexists. split.
    + eapply At_key; [apply not_schema; reflexivity|cbn; intuition discriminate|reflexivity|].
      eapply At_index; [reflexivity|]. constructor. apply not_schema. reflexivity.
    + repeat split; reflexivity.
  - eexists _, _. split; [|split; [|split]].
    + eapply Sc_key; [apply not_schema; reflexivity|cbn; intuition discriminate|reflexivity|].
      eapply Sc_index; [reflexivity|]. constructor. left. reflexivity.
    + eexists. split; [reflexivity|left; reflexivity].
    + apply not_schema. reflexivity.
    + repeat split; reflexivity.
Qed.

(** record types with fields, steps listing their outputs as mappings *)
Module Fields.
  Definition record : dict := [("name", JStr "#types.yml/R"); ("type", JStr "record");
    ("fields", JList [JDict [("name", JStr "#types.yml/R/f"); ("type", JStr "types.yml/T")]; JDict [("name", JStr "#types.yml/R/g"); ("type", JStr "int")]])].
  Definition main : dict := [("class", JStr "Workflow"); ("id", JStr "#main"); ("inputs", JList []); ("outputs", JList []);
    ("requirements", JList [JDict [("class", JStr "SchemaDefRequirement"); ("types", JList [JDict record])]]);
    ("steps", JList [JDict [("id", JStr "#main/s"); ("run", JStr "#tool.cwl"); ("in", JList []); ("out", JList [JDict [("id", JStr "#main/s/o")]])];
                     JDict [("run", JStr "#tool.cwl"); ("in", JList []); ("out", JList [JStr "#main/s/o"])]])].
End Fields.
Example C27_example_fields : exists ops, graph_split "p.cwl" None (Packed.doc [Fields.main]) = Ok ops /\
  process_files ops = [("unpacked_p.cwl", JDict [("class", JStr "Workflow"); ("inputs", JList []); ("outputs", JList []);
    ("requirements", JList [JDict [("class", JStr "SchemaDefRequirement"); ("types", JList [JDict [("$import", JStr "types.yml")]])]]);
    ("steps", JList [JDict [("id", JStr "s"); ("run", JStr "tool.cwl"); ("in", JList []); ("out", JList [JDict [("id", JStr "o")]])];
                     JDict [("run", JStr "tool.cwl"); ("in", JList []); ("out", JList [JStr "#main/s/o"])]]);
    ("cwlVersion", JStr "v1.2")])] /\
  type_files ops = [("types.yml", JDict [("name", JStr "R"); ("type", JStr "record");
    ("fields", JList [JDict [("name", JStr "f"); ("type", JStr "T")]; JDict [("name", JStr "g"); ("type", JStr "int")]])])].
Proof. eexists. split; [vm_compute; reflexivity|]. split; reflexivity. Qed.
Example C27_example_field_places : exists d, SchemaAt (body (JStr "v1.2") Fields.main) [inl "requirements"; inr 0] d /\ lists_type d Fields.record /\
  ~ is_schemadef Fields.record /\ defines_type Fields.record "types.yml" "R" /\ plain_name "types.yml".
Proof.
  eexists. split; [|split; [|split; [|split]]].
  - eapply Sc_key; [apply not_schema; reflexivity|cbn; intuition discriminate|reflexivity|].
    eapply Sc_index; [reflexivity|]. constructor. left. reflexivity.
  - eexists. split; [reflexivity|left; reflexivity].
  - apply not_schema. reflexivity.
  - repeat split; reflexivity.
  - repeat split; discriminate.
Qed.

(** ** what goes wrong *)
(** an output fed from several sources cannot be split *)
Theorem output_source_list_fails P rest1 rest2 l : ~ is_schemadef rest1 ->
  (forall k v, In (k, v) rest1 -> rewrite_leaf P None k v = Ok None /\ match v with JList _ | JDict _ => False | _ => True end) ->
  dget "id" (rest1 ++ ("outputSource", JList l) :: rest2) = None ->
  rewrite P (JDict (rest1 ++ ("outputSource", JList l) :: rest2)) = Err GenericException.
Proof.
  intros NS H ID. rewrite rewrite_dict, ID. generalize (@nil (string * json)) at 1. generalize (@nil string). generalize (@nil (string * json)).
  induction rest1 as [|[k v] rest1 IH]; intros f i b; cbn [app rewrite_items].
  - reflexivity.
  - destruct (String.eqb k "class" && _) eqn:C.
    + exfalso. apply NS. apply andb_true_iff in C. destruct C as [C1 C2]. apply String.eqb_eq in C1. subst k.
      destruct v; try discriminate. apply String.eqb_eq in C2. subst. left. reflexivity.
    + destruct (H k v (or_introl eq_refl)) as [L A]. rewrite L.
      assert (R : rewrite P v = Ok (v, [], [])) by (destruct v; try reflexivity; destruct A). rewrite R. cbn [within bind].
      apply IH; [intros X; apply NS; right; exact X|intros k0 v0 X; apply H; right; exact X|].
      cbn [app dget] in ID. destruct (String.eqb "id" k); [discriminate|exact ID].
Qed.
Print Assumptions output_source_list_fails.
Theorem C27_valid_workflow_rejected_refuted : exists main,
  dget "outputs" main = Some (JList [JDict [("id", JStr "#main/y"); ("outputSource", JList [JStr "#main/a"; JStr "#main/b"])]]) /\
  graph_split "p.cwl" None (Packed.doc [main]) = Err GenericException.
Proof.
  exists [("id", JStr "#main"); ("class", JStr "Workflow"); ("inputs", JList [JDict [("id", JStr "#main/a")]; JDict [("id", JStr "#main/b")]]);
    ("outputs", JList [JDict [("id", JStr "#main/y"); ("outputSource", JList [JStr "#main/a"; JStr "#main/b"])]]); ("steps", JList [])].
  split; vm_compute; reflexivity.
Qed.
Print Assumptions C27_valid_workflow_rejected_refuted.

(** two processes may share one file *)
Theorem C27_one_file_each_refuted : exists a b ops fs,
  a <> b /\ graph_split "p.cwl" None (Packed.doc [[("id", JStr ("#" ++ a))]; [("id", JStr ("#" ++ b))]]) = Ok ops /\
  (exists f, map fst (process_files ops) = [f; f] /\ List.length (apply_ops fs ops f) = 1).
Proof.
  exists "sort", "sort.cwl". eexists _, (fun _ => []). split; [discriminate|]. split; [vm_compute; reflexivity|].
  exists "sort.cwl". split; reflexivity.
Qed.
Print Assumptions C27_one_file_each_refuted.

(** a reference to the main process names no file written for it *)
Theorem C27_run_main_refuted : exists d ops doc, dget "run" d = Some (JStr "#main") /\
  graph_split "p.cwl" None (Packed.doc [[("id", JStr "#w"); ("steps", JList [JDict d])]; [("id", JStr "#main")]]) = Ok ops /\
  map fst (process_files ops) = ["w.cwl"; "unpacked_p.cwl"] /\ dget "w.cwl" (process_files ops) = Some doc /\
  exists d', DictAt doc [inl "steps"; inr 0] d' /\ dget "run" d' = Some (JStr "main.cwl").
Proof.
  exists [("run", JStr "#main")]. eexists _, _. split; [reflexivity|]. split; [vm_compute; reflexivity|]. split; [reflexivity|]. split; [reflexivity|].
  eexists. split.
  - eapply At_key; [apply not_schema; reflexivity|cbn; intuition discriminate|reflexivity|].
    eapply At_index; [reflexivity|]. constructor. apply not_schema. reflexivity.
  - reflexivity.
Qed.
Print Assumptions C27_run_main_refuted.

(** a type given as a list keeps the packed names of the types in it *)
Theorem C27_optional_type_refuted : exists e ops doc d',
  In ("requirements", JList [JDict [("class", JStr "SchemaDefRequirement"); ("types", JList [JDict [("$import", JStr "#types.yml/T")]])]]) e /\
  graph_split "p.cwl" None (Packed.doc [e]) = Ok ops /\ process_files ops = [("w.cwl", doc)] /\
  DictAt doc [inl "inputs"; inr 0] d' /\ dget "type" d' = Some (JList [JStr "null"; JStr "#types.yml/T"]).
Proof.
  exists [("id", JStr "#w"); ("inputs", JList [JDict [("id", JStr "#w/x"); ("type", JList [JStr "null"; JStr "#types.yml/T"])]]);
    ("requirements", JList [JDict [("class", JStr "SchemaDefRequirement"); ("types", JList [JDict [("$import", JStr "#types.yml/T")]])]])].
  eexists _, _, _. split; [cbn; auto|]. split; [vm_compute; reflexivity|]. split; [reflexivity|].
  split.
  - eapply At_key; [apply not_schema; reflexivity|cbn; intuition discriminate|reflexivity|].
    eapply At_index; [reflexivity|]. constructor. apply not_schema. reflexivity.
  - reflexivity.
Qed.
Print Assumptions C27_optional_type_refuted.

(** types of one file that refer to each other keep the packed names too *)
Theorem C27_type_in_same_file_refuted : exists e ops,
  graph_split "p.cwl" None (Packed.doc [e]) = Ok ops /\
  exists e2 fields f, In ("types.yml", JDict e2) (type_files ops) /\ dget "fields" e2 = Some (JList fields) /\ In (JDict f) fields /\
    dget "type" f = Some (JStr "#types.yml/T").
Proof.
  exists [("id", JStr "#w"); ("requirements", JList [JDict [("class", JStr "SchemaDefRequirement"); ("types", JList
    [JDict [("name", JStr "#types.yml/T"); ("type", JStr "enum"); ("symbols", JList [])];
     JDict [("name", JStr "#types.yml/R"); ("type", JStr "record"); ("fields", JList [JDict [("name", JStr "#types.yml/R/f"); ("type", JStr "#types.yml/T")]])]])]])].
  eexists. split; [vm_compute; reflexivity|]. eexists _, _, _. split; [right; left; reflexivity|]. split; [reflexivity|]. split; [left; reflexivity|]. reflexivity.
Qed.
Print Assumptions C27_type_in_same_file_refuted.
