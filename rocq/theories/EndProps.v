(** * C73: loading a document without imports ends *)
From Verif Require Import PyBase PyBaseProofs NameProofs ParserModel LoaderModel LoaderSpec LoaderProofs VersionModel VersionSpec RefusalProofs VersionProps EndProofs.
From Coq Require Import Lia.

(** The tables satisfy what the proof needs *)
Lemma ends_known v c : known_in v c = true -> exists k, classes_of v c = Some k /\ good_class (known_in v) (proxied_in v) k = true.
Proof.
  assert (A : forallb (fun kv => negb (known_in v (fst kv)) || good_class (known_in v) (proxied_in v) (snd kv)) (all_of v) = true) by (destruct v; vm_compute; reflexivity).
  assert (E : classes_of v c = dget c (all_of v)) by (destruct v; reflexivity).
  intros KN. assert (K : exists k, classes_of v c = Some k) by (unfold known_in in KN; destruct (classes_of v c); [eauto|discriminate]). destruct K as [k K].
  rewrite K in *. exists k. split; auto. symmetry in E. apply dget_In in E. apply (proj1 (forallb_forall _ _) A) in E. cbn [fst snd] in E. rewrite KN in E. exact E.
Qed.
Lemma ends_proxied v n : proxied_in v n = true -> exists l, proxies_of v n = Some l /\ direct (known_in v) (proxied_in v) l = true /\ shallow l = true.
Proof.
  assert (A : forallb (fun kv => direct (known_in v) (proxied_in v) (snd kv) && shallow (snd kv)) (named_of v) = true) by (destruct v; vm_compute; reflexivity).
  assert (E : proxies_of v n = dget n (named_of v)) by (destruct v; reflexivity).
  unfold proxied_in. destruct (proxies_of v n) as [l|] eqn:K; [|discriminate]. intros _. exists l. split; auto.
  symmetry in E. apply dget_In in E. apply (proj1 (forallb_forall _ _) A) in E. apply andb_true_iff. exact E.
Qed.
Lemma ends_top v : fieldable (known_in v) (proxied_in v) (top_of v) = true.
Proof. destruct v; vm_compute; reflexivity. Qed.

Section Props.
Variables (urljoin : string -> string -> result string) (supported_schemes : list string) (check_exists : string -> result bool)
  (fetch_text : string -> result string) (read_yaml : string -> result json) (uuid : json -> string).
Let Parses := Parses urljoin supported_schemes check_exists fetch_text read_yaml uuid.
Let LoadsIn := LoadsIn urljoin supported_schemes check_exists fetch_text read_yaml uuid.
Let doc v := document_load urljoin supported_schemes check_exists fetch_text read_yaml uuid (classes_of v) (proxies_of v).

Lemma doc_mono v l d b o r n : r <> Err OutOfFuel -> doc v n l d b o = r -> forall m, n <= m -> doc v m l d b o = r.
Proof.
  intros O H m L. induction L as [|m L IH]; auto.
  destruct (proj2 (step urljoin supported_schemes check_exists fetch_text read_yaml uuid (classes_of v) (proxies_of v) m) l d b o) as [E|E].
  - unfold doc in IH. congruence.
  - unfold doc in *. congruence.
Qed.
(** A document has at most one result *)
Lemma parses_det v d base o r r' : Parses v d base o r -> Parses v d base o r' -> r = r'.
Proof.
  intros [O [n L]] [O' [m M]]. pose proof (doc_mono v _ _ _ _ r n O L (Nat.max n m) ltac:(lia)) as A. pose proof (doc_mono v _ _ _ _ r' m O' M (Nat.max n m) ltac:(lia)) as B. congruence.
Qed.

(** ** Every document without $import and $include, that is not itself an address, is loaded or
    refused: the parser comes to an end with it, with one result *)
Theorem C73_ends_partial v d base o : (forall b u, urljoin b u <> Err OutOfFuel) -> (forall u, check_exists u <> Err OutOfFuel) ->
  self_contained d -> (forall u, d <> JStr u) -> exists r, Parses v d base o r /\ forall r', Parses v d base o r' -> r' = r.
Proof.
  intros UJ CE SC NS.
  assert (X : forall j b o root, self_contained j -> Ev (fun n => load urljoin supported_schemes check_exists fetch_text read_yaml uuid (classes_of v) (proxies_of v) n (top_of v) j b o root)).
  { intros j b o' root S.
    destruct (loads_end urljoin supported_schemes check_exists fetch_text read_yaml uuid (classes_of v) (proxies_of v) UJ CE (known_in v) (proxied_in v) (ends_known v) (ends_proxied v) j S) as [A _].
    apply (A (top_of v) (ends_top v)). }
  assert (Y : Ev (fun n => doc v n (top_of v) d base o)).
  { apply Ev_S. apply (Ev_ext _ (fun n => document_body urljoin fetch_text read_yaml (load urljoin supported_schemes check_exists fetch_text read_yaml uuid (classes_of v) (proxies_of v) n) (doc v n) (top_of v) d base o)).
    { intros n. unfold doc. rewrite document_load_S. reflexivity. }
    destruct d; cbn [document_body]; try (apply Ev_const; discriminate).
    - destruct (NS s eq_refl).
    - apply X. exact SC.
    - assert (SN : Forall sc_pair (no_graph_keys d)) by (unfold no_graph_keys; repeat apply sc_dpop; apply sc_dict, SC).
      assert (Z : forall b o', Ev (fun n => match dget "$graph" (no_graph_keys d) with
        | Some g => load urljoin supported_schemes check_exists fetch_text read_yaml uuid (classes_of v) (proxies_of v) n (top_of v) g b o' None
        | None => load urljoin supported_schemes check_exists fetch_text read_yaml uuid (classes_of v) (proxies_of v) n (top_of v) (JDict (no_graph_keys d)) b o' (Some b) end)).
      { intros b o'. destruct (dget "$graph" (no_graph_keys d)) as [g|] eqn:G; apply X; [eapply sc_dget; eauto|apply sc_dict, SN]. }
      destruct (dget "$base" d) as [[]|]; cbn [bind]; try (apply Ev_const; discriminate); apply Z. }
  destruct Y as (n & r & O & H). assert (P : Parses v d base o r) by (split; [exact O|]; exists n; apply H; lia).
  exists r. split; auto. intros r' P'. eapply parses_det; eauto.
Qed.
(** With addresses that can be joined and checked, the result is an object or a validation error *)
Theorem C73_loaded_or_refused_partial v d base o : (forall b u, urljoin b u <> Err OutOfFuel) -> (forall u, check_exists u <> Err OutOfFuel) ->
  (forall b u, loaded_or_refused (urljoin b u)) -> (forall u, loaded_or_refused (check_exists u)) ->
  self_contained (JDict d) -> dget "$base" d = None \/ (exists b, dget "$base" d = Some (JStr b)) ->
  (exists val, Parses v (JDict d) base o (Ok val)) \/ Parses v (JDict d) base o (Err ValidationException).
Proof.
  intros UJ CE UJ' CE' SC B. destruct (C73_ends_partial v (JDict d) base o UJ CE SC) as (r & P & _); [discriminate|].
  destruct (C58_loaded_or_refused urljoin supported_schemes check_exists fetch_text read_yaml uuid v d base o r UJ' CE' SC B P) as [[val ->] | ->]; eauto.
Qed.
(** ** A file that imports itself is not: the parser does not come to an end *)
Theorem C73_import_refuted v url u text o r :
  fileuri o = Some url -> urljoin url u = Ok url -> has_char "#" url = false -> fetch_text url = Ok text -> read_yaml text = Ok (JList [JDict [("$import", JStr u)]]) ->
  ~ Parses v (JList [JDict [("$import", JStr u)]]) url o r.
Proof.
  intros FU J NF FT RY.
  set (d := JList [JDict [("$import", JStr u)]]) in *.
  assert (DB : forall ld dl l b o, document_body urljoin fetch_text read_yaml ld dl l d b o = ld l d b o None) by reflexivity.
  assert (FD : forall n l b o, fileuri o = Some url -> load_field urljoin fetch_text read_yaml (load urljoin supported_schemes check_exists fetch_text read_yaml uuid (classes_of v) (proxies_of v) n) (doc v n) (JDict [("$import", JStr u)]) l b o
    = doc v n l d url (with_fileuri url o)).
  { intros n l b o' F. cbn [load_field]. change (dget "$import" [("$import", JStr u)]) with (Some (JStr u)). cbn iota. rewrite F, J. cbn [bind]. unfold document_load_by_url. rewrite NF, FT. cbn [bind]. rewrite RY. reflexivity. }
  assert (A : forall n i b o, fileuri o = Some url -> load urljoin supported_schemes check_exists fetch_text read_yaml uuid (classes_of v) (proxies_of v) n (LArray i) d b o None = Err OutOfFuel
    /\ doc v n (LUnion [LArray i; i]) d b o = Err OutOfFuel).
  { intros n. induction n as [n IH] using lt_wf_ind. intros i b o' F. destruct n as [|n]; [split; reflexivity|]. split.
    - rewrite load_S. cbn [load_body]. unfold d at 1. cbn [load_elements]. fold (doc v). rewrite FD by exact F. destruct (IH n ltac:(lia) i url (with_fileuri url o') eq_refl) as [_ H]. rewrite H. reflexivity.
    - unfold doc. rewrite document_load_S, DB. destruct n as [|n]; [reflexivity|]. rewrite load_S. cbn [load_body map first_of].
      destruct (IH n ltac:(lia) i b o' F) as [H _]. rewrite H. reflexivity. }
  assert (T : exists rs i, top_of v = LUnion (rs ++ [LArray i]) /\ Forall (fun l => match l with LRecord _ _ _ => True | _ => False end) rs).
  { destruct v; unfold top_of; cbv delta [CwlTablesV1_0.top CwlTablesV1_1.top CwlTablesV1_2.top]; 
      match goal with |- context [?t = _] => let t' := eval hnf in t in change t with t' end;
      match goal with |- context [LUnion ?l = _] => exists (removelast l); exists (match last l LAny with LArray i => i | _ => LAny end) end; (split; [vm_compute; reflexivity|vm_compute; repeat constructor]). }
  destruct T as (rs & i & T & R).
  intros [O [n H]]. apply O. rewrite <- H. fold (doc v). destruct n as [|n]; [reflexivity|]. unfold doc. rewrite document_load_S, DB, T. destruct n as [|n]; [reflexivity|].
  rewrite load_S. cbn [load_body]. clear T H. induction R as [|l rs L R IH]; cbn [app map first_of].
  - destruct (A n i url o FU) as [-> _]. reflexivity.
  - destruct l; try contradiction. destruct n as [|n]; [reflexivity|].
    assert (E : forall cls c nl, load urljoin supported_schemes check_exists fetch_text read_yaml uuid (classes_of v) (proxies_of v) (S n) (LRecord cls c nl) d url o None = Err ValidationException) by (intros; rewrite load_S; reflexivity).
    rewrite E. exact IH.
Qed.
End Props.

(** ** Cases that meet the hypotheses *)
Example C73_example_hypotheses : (forall b u, example_join b u <> Err OutOfFuel) /\ (forall u, example_check u <> Err OutOfFuel) /\ (forall b u, loaded_or_refused (example_join b u)) /\
  (forall u, loaded_or_refused (example_check u)) /\ self_contained (JDict (example_tool "v1.0")) /\ dget "$base" (example_tool "v1.0") = None.
Proof. repeat split; discriminate. Qed.
(** Loaded by one parser and refused by another *)
Example C73_example : (exists val, Parses example_join ["file"] example_check example_fetch example_yaml example_uuid V1_0 (JDict (example_tool "v1.0")) "file:///a.cwl" (options_of V1_0 "file:///a.cwl" false) (Ok val)) /\
  Parses example_join ["file"] example_check example_fetch example_yaml example_uuid V1_2 (JDict (example_tool "v1.0")) "file:///a.cwl" (options_of V1_2 "file:///a.cwl" false) (Err ValidationException).
Proof. split; [apply (C57_example V1_0)|apply C58_example]. Qed.
Example C73_import_example : let url := "file:///a.cwl" in let join (b u : string) := Ok "file:///a.cwl" in let fetch (u : string) := Ok "- $import: a.cwl" in
  let yaml (t : string) := Ok (JList [JDict [("$import", JStr "a.cwl")]]) in
  fileuri (options_of V1_2 url false) = Some url /\ join url "a.cwl" = Ok url /\ has_char "#" url = false /\ fetch url = Ok "- $import: a.cwl" /\ yaml "- $import: a.cwl" = Ok (JList [JDict [("$import", JStr "a.cwl")]]).
Proof. repeat split. Qed.

Print Assumptions C73_ends_partial.
Print Assumptions C73_loaded_or_refused_partial.
Print Assumptions C73_import_refuted.
