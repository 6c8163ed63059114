(** * C80: the index of loaded documents *)
From Verif Require Import PyBase PyBaseProofs NameProofs ParserModel LoaderModel LoaderProofs VersionModel VersionSpec RefusalProofs IndexModel IndexSpec IndexProofs IndexAlone.

Lemma idx_latest k L v : idx_get k L = Some v -> latest L k v.
Proof.
  induction L as [|e L IH]; cbn [idx_get]; [discriminate|].
  assert (X : (forall w, e <> Wrote k w) -> idx_get k L = Some v -> latest (e :: L) k v).
  { intros N H. destruct (IH H) as (newer & older & -> & F). exists (e :: newer), older. split; [reflexivity|]. intros w [E|I]; [apply (N w E)|apply (F w I)]. }
  destruct e as [k' v'| |]; try (apply X; discriminate). destruct (String.eqb k k') eqn:E.
  - apply String.eqb_eq in E. intros [= ->]. subst. exists [], L. split; [reflexivity|]. intros w [].
  - apply X. apply String.eqb_neq in E. intros w H. injection H as -> _. exact (E eq_refl).
Qed.

Section Props.
Variables (urljoin : string -> string -> result string) (supported_schemes : list string) (check_exists : string -> result bool)
  (fetch_text : string -> result string) (read_yaml : string -> result json) (uuid : json -> string).

Section AnyTables.
Variables (classes : string -> option class) (proxies : string -> option loader).
(** Loading without an index, see C36-C39, C54-C56, C71-C73 *)
Let plainly := document_load urljoin supported_schemes check_exists fetch_text read_yaml uuid classes proxies.
(** The code *)
Let indexed := document_load_s urljoin supported_schemes check_exists fetch_text read_yaml uuid classes proxies true.
(** The code without the look into the index before a file is read *)
Let anew := document_load_s urljoin supported_schemes check_exists fetch_text read_yaml uuid classes proxies false.

(** The index does not change what a document is loaded as, as long as an address stands for one
    thing: when every import is read anew, each question for an address under which something was
    written before is answered with just that. *)
Theorem C80_same_partial n l d base o : plainly n l d base o <> Err NotImplementedError -> plainly n l d base o <> Err KeyError ->
  settled (snd (anew n l d base o [])) -> fst (indexed n l d base o []) = plainly n l d base o.
Proof.
  intros N1 N2 S. destruct (tri_loads urljoin supported_schemes check_exists fetch_text read_yaml uuid classes proxies n) as (_ & T & _).
  destruct (T l d base o) as [[O|O]|H]; [destruct (N1 O)|destruct (N2 O)|]. destruct (H [] []) as (_ & _ & K); [discriminate|]. apply K, S.
Qed.
(** Reading every import anew is loading without an index *)
Theorem C80_anew n l d base o : plainly n l d base o <> Err NotImplementedError -> plainly n l d base o <> Err KeyError ->
  fst (anew n l d base o []) = plainly n l d base o.
Proof.
  intros N1 N2. destruct (tri_loads urljoin supported_schemes check_exists fetch_text read_yaml uuid classes proxies n) as (_ & T & _).
  destruct (T l d base o) as [[O|O]|H]; [destruct (N1 O)|destruct (N2 O)|]. destruct (H [] []) as (K & _); [discriminate|]. exact K.
Qed.
(** A file is never read for an address that is known already; so a file that was imported is not
    read again when it is imported once more *)
Theorem C80_once n l d base o : opened_for_new (snd (indexed n l d base o [])).
Proof.
  apply (proj2 (keeps_loads urljoin supported_schemes check_exists fetch_text read_yaml uuid classes proxies true opened_for_new (fun _ => True)
     ltac:(intros L k v H _ u E w Q; apply happened_cons in Q; destruct Q as [[Q _]|Q]; [discriminate Q|apply (H u E w Q)])
     ltac:(intros L k v H _ u E w Q; apply happened_cons in Q; destruct Q as [[Q _]|Q]; [discriminate Q|apply (H u E w Q)])
     ltac:(intros L url H _ G u E w Q; apply happened_cons in Q; destruct Q as [[Q <-]|Q]; [injection Q as <-; apply idx_get_none, G|apply (H u E w Q)])
     ltac:(discriminate)
     ltac:(intros L url r H _ u E w Q; apply happened_cons in Q; destruct Q as [[Q _]|Q]; [discriminate Q|apply (H u E w Q)])
     ltac:(auto) n)); auto.
  intros u E w Q. destruct (happened_nil _ _ Q).
Qed.
(** What is imported is what was loaded last from that address: each import of a file gives the same
    object, until something else gets the same address *)
Theorem C80_latest n l d base o : answers_latest (snd (indexed n l d base o [])).
Proof.
  apply (proj2 (keeps_loads urljoin supported_schemes check_exists fetch_text read_yaml uuid classes proxies true answers_latest (fun _ => True)
     ltac:(intros L k v H _ u w E Q; apply happened_cons in Q; destruct Q as [[Q _]|Q]; [discriminate Q|apply (H u w E Q)])
     ltac:(intros L k v H _ u w E Q; apply happened_cons in Q; destruct Q as [[Q _]|Q]; [discriminate Q|apply (H u w E Q)])
     ltac:(intros L url H _ _ u w E Q; apply happened_cons in Q; destruct Q as [[Q _]|Q]; [discriminate Q|apply (H u w E Q)])
     ltac:(discriminate)
     ltac:(intros L url r H G u w E Q; apply happened_cons in Q; destruct Q as [[Q <-]|Q]; [injection Q as -> ->; apply idx_latest, G; reflexivity|apply (H u w E Q)])
     ltac:(auto) n)); auto.
  intros u w E Q. destruct (happened_nil _ _ Q).
Qed.
(** An address with a fragment selects the object that has this address as its identifier (or a whole
    document with this address, which only [$base] can give one with a fragment) *)
Theorem C80_selects n l d base o url v : In (Asked url (Ok v)) (snd (indexed n l d base o [])) ->
  named url v \/ document_address fetch_text read_yaml d base url.
Proof.
  set (A := document_address fetch_text read_yaml d base).
  set (P := fun L : log => (forall k v, In (Wrote k v) L -> named k v \/ A k) /\ forall k v, In (Asked k (Ok v)) L -> named k v \/ A k).
  assert (K : P (snd (indexed n l d base o []))); [|destruct K as [_ K]; apply K].
  apply (proj2 (keeps_loads urljoin supported_schemes check_exists fetch_text read_yaml uuid classes proxies true P A
     ltac:(intros L k w [H1 H2] N; split; intros k' w' [I|I]; [injection I as <- <-; auto|auto|discriminate I|auto])
     ltac:(intros L k w [H1 H2] N; split; intros k' w' [I|I]; [injection I as <- <-; auto|auto|discriminate I|auto])
     ltac:(intros L k [H1 H2] _ _; split; intros k' w' [I|I]; [discriminate I|auto|discriminate I|auto])
     ltac:(discriminate)
     ltac:(intros L k r [H1 H2] G; split; intros k' w' [I|I]; [discriminate I|auto|injection I as <- ->; apply H1, idx_get_wrote, G; reflexivity|auto])
     ltac:(intros u t x F Y; split; right; right; exists (before "#" u), t, x; auto) n)).
  - left. reflexivity.
  - right. left. reflexivity.
  - split; intros k w [].
Qed.
End AnyTables.

(** A document without [$import] and [$include] asks for no address, and the index does not change
    what it is loaded as *)
Theorem C80_alone v n d base o cached : self_contained d -> (forall s, d <> JStr s) ->
  alone (snd (document_load_s urljoin supported_schemes check_exists fetch_text read_yaml uuid (classes_of v) (proxies_of v) cached n (top_of v) d base o [])).
Proof.
  intros S N.
  destruct (quiet_document urljoin supported_schemes check_exists fetch_text read_yaml uuid (classes_of v) (proxies_of v) (known_in v) (proxied_in v) (tables_known v) (tables_proxied v) cached n
    (top_of v) d base o (tables_top v) S N []) as (M & E & A). rewrite E, app_nil_r. exact A.
Qed.
Lemma plainly_fine v n d base o : (forall b u, loaded_or_refused (urljoin b u)) -> (forall u, loaded_or_refused (check_exists u)) -> self_contained d -> (forall s, d <> JStr s) ->
  ~ outside (document_load urljoin supported_schemes check_exists fetch_text read_yaml uuid (classes_of v) (proxies_of v) n (top_of v) d base o).
Proof.
  intros UJ CE S N.
  assert (X : forall n j b o r, self_contained j -> ~ outside (load urljoin supported_schemes check_exists fetch_text read_yaml uuid (classes_of v) (proxies_of v) n (top_of v) j b o r)).
  { intros m j b o' r J O. pose proof (load_fine urljoin supported_schemes check_exists fetch_text read_yaml uuid (classes_of v) (proxies_of v) UJ CE (known_in v) (proxied_in v) (tables_known v) (tables_proxied v) m
      (top_of v) j b o' r (or_introl (tables_top v)) J) as F. destruct O as [E|E]; rewrite E in F; exact F. }
  destruct n as [|n]; [intros [O|O]; discriminate O|]. rewrite document_load_S.
  destruct d as [| | | |s|items|d]; cbn [document_body]; try (intros [O|O]; discriminate O).
  - destruct (N s eq_refl).
  - apply X, S.
  - apply sc_dict in S. assert (D2 : Forall sc_pair (no_graph_keys d)) by (unfold no_graph_keys; repeat apply sc_dpop; exact S).
    assert (Y : forall b, ~ outside (match dget "$graph" (no_graph_keys d) with
        | Some g => load urljoin supported_schemes check_exists fetch_text read_yaml uuid (classes_of v) (proxies_of v) n (top_of v) g b (with_namespaces (namespaces d) o) None
        | None => load urljoin supported_schemes check_exists fetch_text read_yaml uuid (classes_of v) (proxies_of v) n (top_of v) (JDict (no_graph_keys d)) b (with_namespaces (namespaces d) o) (Some b) end)).
    { intros b. destruct (dget "$graph" (no_graph_keys d)) as [g|] eqn:G; apply X; [eapply sc_dget; eauto|apply sc_dict, D2]. }
    destruct (dget "$base" d) as [[]|]; cbn [bind]; try (intros [O|O]; discriminate O); apply Y.
Qed.
Theorem C80_alone_same v n d base o : (forall b u, loaded_or_refused (urljoin b u)) -> (forall u, loaded_or_refused (check_exists u)) ->
  self_contained d -> (forall s, d <> JStr s) ->
  fst (document_load_s urljoin supported_schemes check_exists fetch_text read_yaml uuid (classes_of v) (proxies_of v) true n (top_of v) d base o [])
  = document_load urljoin supported_schemes check_exists fetch_text read_yaml uuid (classes_of v) (proxies_of v) n (top_of v) d base o.
Proof.
  intros UJ CE S N. pose proof (plainly_fine v n d base o UJ CE S N) as F. apply C80_same_partial.
  - intros E. apply F. left. exact E.
  - intros E. apply F. right. exact E.
  - intros u r E w Q _. pose proof (C80_alone v n d base o false S N) as A. destruct Q as [later Q]. rewrite Q in A.
    destruct (A (Asked u r)) as (k & x & K); [apply in_or_app; right; left; reflexivity|discriminate K].
Qed.
End Props.

(** ** Cases that meet the hypotheses, and findings *)
Definition world_join (b u : string) : result string := Ok (if startswith "file:" u then u else "file:///d/" ++ u)%string.
Definition world_fetch (u : string) : result string :=
  if String.eqb u "file:///d/p.yml" then Ok "parameter" else if String.eqb u "file:///d/t.cwl" then Ok "tool" else if String.eqb u "file:///d/g.cwl" then Ok "packed" else Err GenericException.
Definition world_tool (id : string) : json := JDict [("class", JStr "CommandLineTool"); ("id", JStr id); ("inputs", JList []); ("outputs", JList [])].
Definition world_yaml (t : string) : result json :=
  if String.eqb t "parameter" then Ok (JDict [("id", JStr "x"); ("type", JStr "File")])
  else if String.eqb t "tool" then Ok (world_tool "main")
  else if String.eqb t "packed" then Ok (JDict [("$graph", JList [world_tool "a"; world_tool "b"])])
  else Err GenericException.
Definition world_uuid (j : json) : string := "0".
Definition world_check (u : string) : result bool := Ok true.
Definition import (u : string) : json := JDict [("$import", JStr u)].
Definition tool (inputs outputs : list json) : json := JDict [("cwlVersion", JStr "v1.2"); ("class", JStr "CommandLineTool"); ("inputs", JList inputs); ("outputs", JList outputs)].
Definition world_indexed (cached : bool) (d : json) := document_load_s world_join ["file"] world_check world_fetch world_yaml world_uuid (classes_of V1_2) (proxies_of V1_2) cached 30 (top_of V1_2) d
  "file:///d/a.cwl" (options_of V1_2 "file:///d/a.cwl" true) [].
Definition world_plain (d : json) := document_load world_join ["file"] world_check world_fetch world_yaml world_uuid (classes_of V1_2) (proxies_of V1_2) 30 (top_of V1_2) d
  "file:///d/a.cwl" (options_of V1_2 "file:///d/a.cwl" true).
Definition field_of (name : string) (r : result lv) : option lv := match r with Ok (VObj _ fs _) => dget name fs | _ => None end.
Definition classes_in (v : option lv) : list string := match v with Some (VSeq l) => map (fun x => match x with VObj c _ _ => c | _ => "" end) l | _ => [] end.
Definition workflow (run : json) : json := JDict [("cwlVersion", JStr "v1.2"); ("class", JStr "Workflow"); ("inputs", JList []); ("outputs", JList []);
  ("steps", JList [JDict [("id", JStr "s"); ("in", JList []); ("out", JList []); ("run", run)]])].
Definition run_of (r : result lv) : option lv := match field_of "steps" r with Some (VSeq [VObj _ fs _]) => dget "run" fs | _ => None end.
Definition opened (L : log) : list string := flat_map (fun e => match e with Opened u => [u] | _ => [] end) L.
Lemma settled_nil : settled [].
Proof. intros u r E v Q. destruct (happened_nil _ _ Q). Qed.
Lemma settled_other e L : (forall u r, e <> Asked u r) -> settled L -> settled (e :: L).
Proof. intros N S u r E v Q. apply happened_cons in Q. destruct Q as [[Q _]|Q]; [destruct (N u r Q)|apply (S u r E v Q)]. Qed.
Lemma settled_asked u r L : (forall v, In (Wrote u v) L -> Ok v = r) -> settled L -> settled (Asked u r :: L).
Proof. intros N S u' r' E v Q I. apply happened_cons in Q. destruct Q as [[Q <-]|Q]; [injection Q as <- <-; symmetry; apply (N v I)|apply (S u' r' E v Q I)]. Qed.

(** A parameter imported twice: the file is read once, and the two are the same *)
Example C80_example : let d := tool [import "p.yml"; import "p.yml"] [] in
  (exists v, world_plain d = Ok v) /\ settled (snd (world_indexed false d)) /\ opened (snd (world_indexed true d)) = ["file:///d/p.yml"] /\
  opened (snd (world_indexed false d)) = ["file:///d/p.yml"; "file:///d/p.yml"] /\
  exists x, field_of "inputs" (fst (world_indexed true d)) = Some (VSeq [x; x]).
Proof.
  cbv zeta. split; [|split; [|split; [|split]]].
  - vm_compute. eexists. reflexivity.
  - remember (snd (world_indexed false (tool [import "p.yml"; import "p.yml"] []))) as L eqn:E. vm_compute in E. subst L.
    repeat (first [apply settled_nil | apply settled_other; [discriminate|] | apply settled_asked; [intros w I; cbn [In] in I; repeat (destruct I as [I|I]; [first [discriminate I | injection I as <-; reflexivity]|]); destruct I|]]).
  - vm_compute. reflexivity.
  - vm_compute. reflexivity.
  - vm_compute. eexists. reflexivity.
Qed.
(** An object selected by its fragment *)
Example C80_selects_example : exists v L, world_indexed true (workflow (import "t.cwl#main")) = (Ok v, L) /\ opened L = ["file:///d/t.cwl#main"] /\
  exists fs, run_of (Ok v) = Some (VObj "CommandLineTool" (("id", VStr "file:///d/t.cwl#main") :: fs) []) /\ existsb (fun e => match e with Asked u (Ok (VObj _ _ _)) => String.eqb u "file:///d/t.cwl#main" | _ => false end) L = true.
Proof. vm_compute. eexists. eexists. split; [reflexivity|]. split; [reflexivity|]. eexists. split; reflexivity. Qed.
Example C80_alone_example : (forall b u, loaded_or_refused (world_join b u)) /\ (forall u, loaded_or_refused (world_check u)) /\
  self_contained (tool [JDict [("id", JStr "x"); ("type", JStr "File")]] []) /\ exists v, fst (world_indexed true (tool [JDict [("id", JStr "x"); ("type", JStr "File")]] [])) = Ok v.
Proof. split; [exact (fun _ _ => Logic.I)|]. split; [exact (fun _ => Logic.I)|]. split; [cbn; repeat split; discriminate|]. vm_compute. eexists. reflexivity. Qed.

(** Finding: a file imported where an input is expected and then where an output is expected is not
    loaded as an output: the tool has an input parameter among its outputs, and a file that would be
    refused there is not refused *)
Theorem C80_two_types_refuted : ~ forall d v, world_plain d = Ok v -> fst (world_indexed true d) = Ok v.
Proof.
  intros H. assert (E : exists v, world_plain (tool [import "p.yml"] [import "p.yml"]) = Ok v) by (vm_compute; eexists; reflexivity). destruct E as [v E].
  pose proof (H _ _ E) as K. rewrite <- E in K. apply (f_equal (fun r => classes_in (field_of "outputs" r))) in K. vm_compute in K. discriminate K.
Qed.
Example C80_two_types_example : let d := tool [import "p.yml"] [import "p.yml"] in
  classes_in (field_of "outputs" (world_plain d)) = ["CommandOutputParameter"] /\ classes_in (field_of "outputs" (fst (world_indexed true d))) = ["CommandInputParameter"].
Proof. vm_compute. split; reflexivity. Qed.
(** Finding: a parameter whose identifier is the address of a file is what an import of that file gives *)
Theorem C80_shadow_refuted : let d := tool [JDict [("id", JStr "file:///d/p.yml"); ("type", JStr "int")]; import "p.yml"] [] in
  opened (snd (world_indexed true d)) = [] /\ (exists x, field_of "inputs" (fst (world_indexed true d)) = Some (VSeq [x; x])) /\ forall x, field_of "inputs" (world_plain d) <> Some (VSeq [x; x]).
Proof. cbv zeta. split; [vm_compute; reflexivity|]. split; [vm_compute; eexists; reflexivity|]. intros x H. vm_compute in H. injection H as H1 H2. rewrite <- H1 in H2. discriminate H2. Qed.
(** Finding: a tool in a packed file cannot be imported for a step, as the whole file is loaded as if
    it were the tool; a tool in a file of its own can *)
Theorem C80_packed_refuted : fst (world_indexed true (workflow (import "g.cwl#a"))) = Err ValidationException /\
  (exists L v, document_load_s world_join ["file"] world_check world_fetch world_yaml world_uuid (classes_of V1_2) (proxies_of V1_2) true 30 (top_of V1_2) (JStr "g.cwl#a")
     "file:///d/a.cwl" (options_of V1_2 "file:///d/a.cwl" true) [] = (Ok v, L) /\ named "file:///d/g.cwl#a" v).
Proof. vm_compute. split; [reflexivity|]. eexists. eexists. split; [reflexivity|]. repeat eexists. Qed.

Print Assumptions C80_same_partial.
Print Assumptions C80_anew.
Print Assumptions C80_once.
Print Assumptions C80_latest.
Print Assumptions C80_selects.
Print Assumptions C80_alone.
Print Assumptions C80_alone_same.
Print Assumptions C80_two_types_refuted.
Print Assumptions C80_shadow_refuted.
Print Assumptions C80_packed_refuted.
