(** * C74: saving a document and loading it again *)
From Verif Require Import PyBase PyBaseProofs NameProofs ParserModel LoaderModel LoaderSpec LoaderProofs VersionModel VersionSpec RefusalProofs VersionProofs VersionProps EndProofs EndProps
  SaveModel SaveSpec SaveProofs SaveProofs2 SaveProofs3.
From Coq Require Import Lia.

(** The tables satisfy what the proof needs *)
Lemma classes_all v c : classes_of v c = dget c (all_of v).
Proof. destruct v; reflexivity. Qed.
Lemma neat_known v c k : known_in v c = true -> classes_of v c = Some k -> neat_class k = true.
Proof.
  assert (A : forallb (fun kv => negb (known_in v (fst kv)) || neat_class (snd kv)) (all_of v) = true) by (destruct v; vm_compute; reflexivity).
  intros KN K. rewrite classes_all in K. apply dget_In in K. apply (proj1 (forallb_forall _ _) A) in K. cbn [fst snd] in K. rewrite KN in K. exact K.
Qed.
Definition pattern_class_b (k : class) : bool :=
  String.eqb (c_name k) "SecondaryFileSchema" && absent (c_id k) && absent (c_class k) &&
  match c_fields k with
  | [Field a true _ false; Field b false (LUnion (LPrim PNull :: _)) false] => String.eqb a "pattern" && String.eqb b "required"
  | _ => false
  end.
Lemma pattern_known v k : classes_of v "SecondaryFileSchema" = Some k -> pattern_class k.
Proof.
  assert (A : match classes_of v "SecondaryFileSchema" with Some k => pattern_class_b k | None => true end = true) by (destruct v; vm_compute; reflexivity).
  intros K. rewrite K in A. unfold pattern_class_b in A. rewrite !andb_true_iff in A. destruct A as [[[A B] C] D]. apply String.eqb_eq in A. apply absent_b in B, C. unfold pattern_class. repeat (split; [assumption|]).
  repeat match type of D with context [match ?x with _ => _ end] => destruct x; try discriminate end.
  apply andb_true_iff in D. destruct D as [D E]. apply String.eqb_eq in D, E. subst. eauto.
Qed.
Definition no_dollar (k : class) : bool := forallb (fun n => negb (startswith "$" n)) (attrs k).
Lemma no_dollar_in v c k : classes_of v c = Some k -> no_dollar k = true.
Proof.
  assert (A : forallb (fun kv => no_dollar (snd kv)) (all_of v) = true) by (destruct v; vm_compute; reflexivity).
  intros K. rewrite classes_all in K. apply dget_In in K. apply (proj1 (forallb_forall _ _) A) in K. exact K.
Qed.

Section Props.
Variables (urljoin : string -> string -> result string) (supported_schemes : list string) (check_exists : string -> result bool)
  (fetch_text : string -> result string) (read_yaml : string -> result json) (uuid : json -> string).
Let Parses := Parses urljoin supported_schemes check_exists fetch_text read_yaml uuid.
Let LoadsIn := LoadsIn urljoin supported_schemes check_exists fetch_text read_yaml uuid.
(** Joining addresses and looking for files end, in an answer or in a validation error *)
Hypothesis joins : forall b u, (exists r, urljoin b u = Ok r) \/ urljoin b u = Err ValidationException.
Hypothesis checks : forall u, (exists r, check_exists u = Ok r) \/ check_exists u = Err ValidationException.

Lemma ends_joins b u : loaded_or_refused (urljoin b u) /\ urljoin b u <> Err OutOfFuel.
Proof. destruct (joins b u) as [[r ->]|E]; [|rewrite E]; split; try exact I; discriminate. Qed.
Lemma ends_checks u : loaded_or_refused (check_exists u) /\ check_exists u <> Err OutOfFuel.
Proof. destruct (checks u) as [[r ->]|E]; [|rewrite E]; split; try exact I; discriminate. Qed.

Section Version.
Variable v : version.
Notation Fits V RV u b := (Fits supported_schemes check_exists (classes_of v) (proxies_of v) V RV u b).
Notation home u b := (home check_exists u b).
Notation Renamed V b := (Renamed (classes_of v) V b).
Lemma rounds V RV u bl l val : Fits V RV u bl l val -> sound (known_in v) (proxied_in v) l = true -> fieldable (known_in v) (proxied_in v) l = true ->
  (exists j, save V RV val = Ok j /\ (self_contained j -> forall b o root, vocab o = V -> rvocab o = RV -> (u = true -> no_link_check o = true) -> home u bl b ->
    exists val', Renamed V bl val val' /\ LoadsIn v l j b o root (Ok val'))) /\ deep val.
Proof.
  intros F S Fd.
  destruct (proj1 (fits_round urljoin supported_schemes check_exists fetch_text read_yaml uuid (classes_of v) (proxies_of v)
    (fun b u => proj1 (ends_joins b u)) (fun b u => proj2 (ends_joins b u)) (fun u => proj1 (ends_checks u)) (fun u => proj2 (ends_checks u))
    (known_in v) (proxied_in v) (tables_known v) (ends_known v) (tables_proxied v) (ends_proxied v) (neat_known v) (pattern_known v) V RV u bl) l val F (conj S Fd)) as [(j & SV & L) D].
  split; auto. exists j. split; auto. intros SC b o root A B C H. apply L; auto. split; [split|]; auto.
Qed.
(** No blank names *)
Lemma no_blanks V u b : home u false b /\ forall val val', Renamed V false val val' -> val = val'.
Proof. split; [intros H; discriminate H|]. intros val val'. apply not_renamed. Qed.

(** ** An object of any class of the version is loaded again as it was, but for blank names *)
Theorem C74_object_partial cls val V RV unchecked blanks : known_in v cls = true -> Fits V RV unchecked blanks (LRecord cls None None) val ->
  exists j, save V RV val = Ok j /\
    (self_contained j -> forall base o root, vocab o = V -> rvocab o = RV -> (unchecked = true -> no_link_check o = true) -> home unchecked blanks base ->
     exists val', Renamed V blanks val val' /\ LoadsIn v (LRecord cls None None) j base o root (Ok val')).
Proof. intros K F. apply rounds; auto. Qed.
Theorem C74_object_named_partial cls val V RV unchecked : known_in v cls = true -> Fits V RV unchecked false (LRecord cls None None) val ->
  exists j, save V RV val = Ok j /\
    (self_contained j -> forall base o root, vocab o = V -> rvocab o = RV -> (unchecked = true -> no_link_check o = true) ->
     LoadsIn v (LRecord cls None None) j base o root (Ok val)).
Proof.
  intros K F. destruct (C74_object_partial cls val V RV unchecked false K F) as (j & S & L). exists j. split; auto. intros SC base o root A B C.
  destruct (L SC base o root A B C (proj1 (no_blanks V unchecked base))) as (val' & R & LV). apply (proj2 (no_blanks V unchecked base)) in R. subst val'. exact LV.
Qed.

(** ** A document *)
Lemma object_keys V RV u bl l val : Fits V RV u bl l val -> forall c fs ext, val = VObj c fs ext ->
  exists cls k, classes_of v cls = Some k /\ (forall x, In x (map fst fs) -> In x (attrs k)) /\ extensions_fit supported_schemes V k ext.
Proof.
  assert (FF : forall fs kvs, FitFields supported_schemes check_exists (classes_of v) (proxies_of v) V RV u bl fs kvs -> map fst kvs = map f_name fs).
  { intros fs kvs F. induction F; cbn [map fst]; f_equal; auto. }
  assert (CF : forall k kvs, class_fits supported_schemes check_exists V RV u k kvs -> forall x, In x (map fst kvs) -> In x (attrs k)).
  { intros k kvs. unfold class_fits, attrs. destruct (c_class k); [intros [-> _]|intros ->]; cbn [map fst In]; [intros x [<-|[]]|tauto]. rewrite !in_app_iff. right. left. left. auto. }
  assert (AF : forall k x, In x (map f_name (c_fields k)) -> In x (attrs k)) by (intros k x I; unfold attrs; rewrite !in_app_iff; auto).
  intros F. induction F; intros ? ? ? E; try discriminate; eauto.
  - destruct j; discriminate.
  - subst. destruct tp; discriminate.
  - injection E as <- <- <-. exists cls, k. split; auto. split; auto. intros x. rewrite map_app, in_app_iff. intros [I|I]; eauto. apply AF. rewrite <- (FF _ _ H3). auto.
  - injection E as <- <- <-. exists cls, k. split; auto. split; auto. intros x. cbn [map fst In]. rewrite map_app, in_app_iff. intros [<-|[I|I]]; eauto.
    + unfold attrs. rewrite H1, !in_app_iff. cbn. tauto.
    + apply AF. rewrite <- (FF _ _ H4). auto.
  - injection E as <- <- <-. exists cls, k. split; auto. split; auto. intros x. cbn [map fst In]. rewrite map_app, in_app_iff. intros [<-|[I|I]]; eauto.
    + unfold attrs. rewrite H1, !in_app_iff. cbn. tauto.
    + apply AF. rewrite <- (FF _ _ H7). auto.
Qed.
(** What a saved object has no key for *)
Lemma saved_plain V RV u bl l c fs ext r x : Fits V RV u bl l (VObj c fs ext) -> tidy (VObj c fs ext) -> save V RV (VObj c fs ext) = Ok (JDict r) ->
  startswith "$" x = true -> has_char ":" x = false -> ~ In x (map fst r).
Proof.
  intros F T S D C I. destruct (object_keys _ _ _ _ _ _ F c fs ext eq_refl) as (cls & k & K & A & (_ & E)).
  apply save_obj_ok in S; auto. destruct S as (ess & SF & S). assert (r = ext ++ List.concat ess) by congruence. subst r. rewrite map_app, in_app_iff in I. destruct I as [I|I].
  - apply in_map_iff in I. destruct I as (kv & <- & I). apply (proj1 (Forall_forall _ _) E) in I. destruct I as [[NS _] _]. apply NS. apply no_colon_scheme. auto.
  - apply (concat_keys _ _ _ _ SF) in I. apply A in I. pose proof (no_dollar_in v cls k K) as N. apply (proj1 (forallb_forall _ _) N) in I. rewrite D in I. discriminate.
Qed.
Lemma dpop_keep {A} k (d : list (string * A)) : ~ In k (map fst d) -> dpop k d = d.
Proof. intros N. apply dpop_absent. apply dget_None. auto. Qed.
Lemma dpop_last {A} k k' (x : A) d : ~ In k (map fst d) -> dpop k (d ++ [(k', x)]) = if String.eqb k k' then d else d ++ [(k', x)].
Proof.
  intros N. unfold dpop. rewrite filter_app. assert (E : filter (fun kv => negb (String.eqb k (fst kv))) d = d) by (apply (dpop_keep k d); auto). rewrite E. cbn [filter fst]. destruct (String.eqb k k'); cbn [negb]; [rewrite app_nil_r|]; auto.
Qed.
(** The header is read again, and gone from what is loaded *)
Lemma header_read (ns : list (string * string)) schemas r :
  (forall x, startswith "$" x = true -> has_char ":" x = false -> ~ In x (map fst r)) ->
  let d := with_header ns schemas r in no_graph_keys d = r /\ namespaces d = ns /\ dget "$base" d = None /\ dget "$graph" r = None /\ (self_contained (JDict d) -> self_contained (JDict r)).
Proof.
  intros N. assert (NB : ~ In "$base" (map fst r)) by (apply N; reflexivity). assert (NN : ~ In "$namespaces" (map fst r)) by (apply N; reflexivity).
  assert (NS : ~ In "$schemas" (map fst r)) by (apply N; reflexivity). assert (NG : ~ In "$graph" (map fst r)) by (apply N; reflexivity). cbv zeta.
  assert (Q : flat_map (fun kv => match snd kv with JStr v => [(fst kv, v)] | _ => [] end) (map (fun kv => (fst kv, JStr (snd kv))) ns) = ns) by (induction ns as [|[] ns IH]; cbn in *; congruence).
  assert (X : exists a b, with_header ns schemas r = r ++ a ++ b /\ (a = match ns with [] => [] | _ => [("$namespaces", JDict (map (fun kv => (fst kv, JStr (snd kv))) ns))] end) /\
    (b = match schemas with [] => [] | _ => [("$schemas", JList schemas)] end)).
  { unfold with_header. eexists _, _. split; [|split; reflexivity]. destruct ns as [|n ns]; destruct schemas as [|s ss]; cbv iota zeta; rewrite ?app_nil_r; auto; repeat rewrite dset_fresh; rewrite <- ?app_assoc; auto; rewrite map_app, in_app_iff; intros [I|[I|[]]]; try discriminate; contradiction. }
  destruct X as (a & b & -> & EA & EB).
  assert (DG : forall x, dget x (r ++ a ++ b) = match dget x r with Some y => Some y | None => dget x (a ++ b) end) by (intros x; apply dget_app).
  split; [|split; [|split; [|split]]].
  - unfold no_graph_keys, dpop. rewrite !filter_app. assert (K : forall x, ~ In x (map fst r) -> filter (fun kv => negb (String.eqb x (fst kv))) r = r) by (intros x I; apply (dpop_keep x r I)).
    rewrite !K by auto. subst a b. destruct ns, schemas; cbn [filter fst negb String.eqb Ascii.eqb Bool.eqb app]; rewrite ?app_nil_r; auto.
  - unfold namespaces. rewrite DG, (proj2 (dget_None _ _) NN). subst a b. destruct ns; [destruct schemas; reflexivity|]. cbn [app dget]. exact Q.
  - rewrite DG, (proj2 (dget_None _ _) NB). subst a b. destruct ns, schemas; reflexivity.
  - apply dget_None. auto.
  - intros SC. apply sc_dict. apply sc_dict in SC. apply Forall_app in SC. apply SC.
Qed.
(** A process: the document it is saved as is loaded as the same process, but for blank names *)
Theorem C74_document_partial val ns schemas base o unchecked blanks cls fs ext : val = VObj cls fs ext ->
  let here := with_namespaces ns o in
  Fits (vocab here) (rvocab here) unchecked blanks (top_of v) val -> (unchecked = true -> no_link_check o = true) -> home unchecked blanks base ->
  exists j, save_document (vocab here) (rvocab here) ns schemas val = Ok j /\
    (self_contained j -> exists val', Renamed (vocab here) blanks val val' /\ Parses v j base o (Ok val')).
Proof.
  intros -> here F U HB. destruct (rounds _ _ _ _ _ _ F (tables_top v) (ends_top v)) as [(j & SV & L) D]. destruct D as [[T _] _].
  pose proof (save_kind _ _ _ _ SV) as [r ->]. exists (JDict (with_header ns schemas r)). unfold save_document, save_top. rewrite SV. cbn [bind]. split; auto. intros SC.
  destruct (header_read ns schemas r) as (H1 & H2 & H3 & H4 & H5).
  { intros x A B. exact (saved_plain _ _ _ _ _ _ _ _ _ x F T SV A B). }
  destruct (L (H5 SC) base here (Some base) eq_refl eq_refl U HB) as (val' & R & LV). exists val'. split; auto. destruct LV as [NO [n LD]]. split; auto.
  exists (S n). rewrite document_load_S. cbn [document_body]. rewrite H3. cbn [bind]. cbv zeta. rewrite H1, H2, H4. exact LD.
Qed.
(** and as exactly the same process if no name is blank *)
Theorem C74_document_named_partial val ns schemas base o unchecked cls fs ext : val = VObj cls fs ext ->
  let here := with_namespaces ns o in
  Fits (vocab here) (rvocab here) unchecked false (top_of v) val -> (unchecked = true -> no_link_check o = true) ->
  exists j, save_document (vocab here) (rvocab here) ns schemas val = Ok j /\ (self_contained j -> Parses v j base o (Ok val)).
Proof.
  intros E here F U. destruct (C74_document_partial val ns schemas base o unchecked false cls fs ext E F U (proj1 (no_blanks [] unchecked base))) as (j & S & L). exists j. split; auto. intros SC. destruct (L SC) as (val' & R & P).
  apply (proj2 (no_blanks (vocab here) unchecked base)) in R. subst val'. exact P.
Qed.
(** A list of processes: the packed document *)
Theorem C74_graph_partial val base o unchecked blanks vs j : val = VSeq vs ->
  Fits (vocab o) (rvocab o) unchecked blanks (top_of v) val -> (unchecked = true -> no_link_check o = true) -> home unchecked blanks base ->
  save_document (vocab o) (rvocab o) [] [] val = Ok j -> self_contained j -> exists val', Renamed (vocab o) blanks val val' /\ Parses v j base o (Ok val').
Proof.
  intros -> F U HB SD SC. destruct (rounds _ _ _ _ _ _ F (tables_top v) (ends_top v)) as [(j' & SV & L) _]. rewrite save_seq in SV. destruct (save_list (vocab o) (rvocab o) vs) as [js|] eqn:SL; cbn [bind] in SV; [|discriminate]. injection SV as <-.
  unfold save_document in SD. assert (M : mapM (save_top (vocab o) (rvocab o) [] []) vs = Ok js).
  { apply mapM_Ok. apply save_list_ok in SL. eapply F2_impl; [|exact SL]. intros x y E. unfold save_top. rewrite E. cbn [bind with_header]. destruct y; auto. }
  rewrite M in SD. cbn [bind] in SD. assert (E : exists ver, j = JDict [("cwlVersion", ver); ("$graph", JList js)]).
  { cbn [ParserModel.save] in SD. match type of SD with bind ?x _ = _ => assert (G : x = Ok js) end.
    { clear. induction js as [|j js IH]; [reflexivity|]. cbn [map ParserModel.save bind]. cbn [map] in IH. rewrite IH. reflexivity. }
    rewrite G in SD. cbn [bind] in SD. assert (FB : forallb is_process (map (Obj true) js) = true) by (clear; induction js; auto). rewrite FB in SD. cbn [andb] in SD.
    destruct (versions js) as [vers|]; cbn [bind] in SD; [|discriminate]. destruct (max_version vers) as [ver|]; cbn [bind] in SD; [|discriminate]. injection SD as <-. eauto. }
  destruct E as [ver ->]. assert (SJ : self_contained (JList js)) by (cbn in SC; apply SC).
  destruct (L SJ base o None eq_refl eq_refl U HB) as (val' & R & LV). exists val'. split; auto. destruct LV as [NO [n LD]]. split; auto. exists (S n). rewrite document_load_S. cbn [document_body dget]. cbv beta iota zeta.
  change (String.eqb "$base" "cwlVersion") with false. change (String.eqb "$base" "$graph") with false. cbv iota. cbn [bind].
  change (namespaces [("cwlVersion", ver); ("$graph", JList js)]) with (@nil (string * string)). change (no_graph_keys [("cwlVersion", ver); ("$graph", JList js)]) with [("cwlVersion", ver); ("$graph", JList js)].
  cbn [dget]. change (String.eqb "$graph" "cwlVersion") with false. change (String.eqb "$graph" "$graph") with true. cbv iota.
  replace (with_namespaces [] o) with o by (destruct o; reflexivity). exact LD.
Qed.
End Version.
End Props.

(** ** Cases that meet the hypotheses: a workflow with a tool in a step, extension fields, types and
    hints, loaded from a document in short form *)
Definition near_join (b u : string) : result string := Ok (if startswith "#" u then before "#" b ++ u else b ++ "/" ++ u)%string.
Definition example_nested (i : list (string * json)) : list (string * json) :=
  i ++ [("class", JStr "ExpressionTool"); ("inputs", JDict []); ("outputs", JDict [("o", JStr "string[]?")]); ("expression", JStr "$(1)")].
Definition example_flow (ver : string) (i note : list (string * json)) : list (string * json) :=
  i ++ [("class", JStr "Workflow"); ("cwlVersion", JStr ver);
    ("inputs", JDict [("a", JStr "int[]?"); ("b", JDict ([("type", JStr "File"); ("secondaryFiles", JStr ".bai")] ++ note))]);
    ("outputs", JDict [("z", JDict [("type", JStr "string[]?"); ("outputSource", JStr "s/o")])]);
    ("requirements", JDict [("InlineJavascriptRequirement", JDict [])]);
    ("hints", JDict [("ResourceRequirement", JDict [("coresMin", JInt 2)])]);
    ("steps", JDict [("s", JDict [("run", JDict (example_nested [])); ("in", JDict [("x", JStr "a")]); ("out", JList [JStr "o"])])])].
Definition example_document (v : version) : json := JDict (("$namespaces", JDict [("ex", JStr "file:///ex#")]) :: example_flow (version_text v) [] [("ex:note", JInt 1)]).
Definition example_graph (v : version) : json :=
  JDict [("$graph", JList [JDict (example_flow (version_text v) [("id", JStr "#main")] []); JDict (example_nested [("id", JStr "#t")])])].
Notation ParsesHere := (VersionSpec.Parses near_join ["file"] example_check example_fetch example_yaml example_uuid).
Notation FitsHere v := (SaveSpec.Fits ["file"] example_check (classes_of v) (proxies_of v)).
Definition start (v : version) : options := options_of v "file:///a.cwl" false.
Definition load_here (v : version) (d : json) : option lv :=
  match document_load near_join ["file"] example_check example_fetch example_yaml example_uuid (classes_of v) (proxies_of v) 30 (top_of v) d "file:///a.cwl" (start v) with Ok w => Some w | Err _ => None end.
Lemma load_here_ok v d w : load_here v d = Some w -> ParsesHere v d "file:///a.cwl" (start v) (Ok w).
Proof. unfold load_here. destruct (document_load _ _ _ _ _ _ _ _ _ _ _ _ _) as [w'|] eqn:E; [|discriminate]. intros [= ->]. split; [discriminate|]. eauto. Qed.
Lemma home_here : forall s, (fun _ : string => true) s = true -> home example_check false true s.
Proof. intros s _ _ x xs. right. right. left. reflexivity. Qed.
Definition fits_here (v : version) (ns : list (string * string)) (w : lv) : bool :=
  let o := with_namespaces ns (start v) in fits_b ["file"] example_check (classes_of v) (proxies_of v) (vocab o) (rvocab o) false true (fun _ => true) 30 (top_of v) w.
Fixpoint contained (j : json) : bool :=
  match j with
  | JList l => (fix all (l : list json) := match l with [] => true | x :: l => contained x && all l end) l
  | JDict d => (fix all (d : list (string * json)) := match d with [] => true | (k, x) :: d => negb (String.eqb k "$import") && negb (String.eqb k "$include") && contained x && all d end) d
  | _ => true
  end.
Fixpoint contained_ok (j : json) : contained j = true -> self_contained j.
Proof.
  destruct j as [| | | | |l|d]; try (intros _; exact I); cbn [contained self_contained].
  - induction l as [|x l IH]; [auto|]. rewrite andb_true_iff. intros [A B]. split; [apply contained_ok; exact A|apply IH; exact B].
  - induction d as [|[k x] d IH]; [auto|]. rewrite !andb_true_iff. intros [[[A B] C] D]. apply negb_true_iff, String.eqb_neq in A, B. split; [split; auto|]. split; [apply contained_ok; exact C|apply IH; exact D].
Qed.
Definition round_here (v : version) (d : json) (ns : list (string * string)) : bool :=
  match load_here v d with
  | Some w => fits_here v ns w && match save_document (vocab (with_namespaces ns (start v))) (rvocab (with_namespaces ns (start v))) ns [] w with Ok j => contained j | Err _ => false end
  | None => false
  end.
Lemma fits_here_ok v ns w : fits_here v ns w = true -> let o := with_namespaces ns (start v) in FitsHere v (vocab o) (rvocab o) false true (top_of v) w.
Proof. unfold fits_here. cbv zeta. apply fits_ok. exact home_here. Qed.
Lemma round_here_ok v d ns : round_here v d ns = true -> exists w j, let o := with_namespaces ns (start v) in
  ParsesHere v d "file:///a.cwl" (start v) (Ok w) /\ FitsHere v (vocab o) (rvocab o) false true (top_of v) w /\ save_document (vocab o) (rvocab o) ns [] w = Ok j /\ self_contained j.
Proof.
  unfold round_here. destruct (load_here v d) as [w|] eqn:L; [|intros C; discriminate C]. rewrite andb_true_iff. intros [F S]. destruct (save_document _ _ ns [] w) as [j|] eqn:E; [|discriminate S].
  exists w, j. exact (conj (load_here_ok v d w L) (conj (fits_here_ok v ns w F) (conj E (contained_ok j S)))).
Qed.
Example C74_document_example : forall v, exists w j, let o := with_namespaces [("ex", "file:///ex#")] (start v) in
  ParsesHere v (example_document v) "file:///a.cwl" (start v) (Ok w) /\ FitsHere v (vocab o) (rvocab o) false true (top_of v) w /\ save_document (vocab o) (rvocab o) [("ex", "file:///ex#")] [] w = Ok j /\ self_contained j.
Proof. intros v. apply round_here_ok. destruct v; vm_compute; reflexivity. Qed.
Example C74_graph_example : forall v, exists w j, let o := with_namespaces [] (start v) in
  ParsesHere v (example_graph v) "file:///a.cwl" (start v) (Ok w) /\ FitsHere v (vocab o) (rvocab o) false true (top_of v) w /\ save_document (vocab o) (rvocab o) [] [] w = Ok j /\ self_contained j.
Proof. intros v. apply round_here_ok. destruct v; vm_compute; reflexivity. Qed.
Example C74_example_hypotheses : (forall b u, (exists r, near_join b u = Ok r) \/ near_join b u = Err ValidationException) /\ (forall u, (exists r, example_check u = Ok r) \/ example_check u = Err ValidationException) /\
  home example_check false true "file:///a.cwl" /\ (forall v, known_in v "ExpressionTool" = true).
Proof. split; [intros; left; eexists; reflexivity|]. split; [intros; left; eexists; reflexivity|]. split; [apply home_here; auto|]. intros v; destruct v; vm_compute; reflexivity. Qed.

(** ** Blank names do change: a tool in a step that has no id *)
Definition changed (v : version) (d : json) : bool :=
  match load_here v d with
  | Some w => match save_document (vocab (start v)) (rvocab (start v)) [] [] w with
              | Ok j => match load_here v j with
                        | Some (VObj _ fs _) => match dget "steps" fs, w with Some (VSeq (VObj _ gs _ :: _)), VObj _ fs' _ =>
                            match dget "steps" fs', dget "run" gs with
                            | Some (VSeq (VObj _ gs' _ :: _)), Some (VObj _ hs _) => match dget "run" gs' with Some (VObj _ hs' _) => match dget "id" hs, dget "id" hs' with
                                | Some (VStr a), Some (VStr b) => negb (String.eqb a b) | _, _ => false end | _ => false end
                            | _, _ => false end | _, _ => false end
                        | _ => false end
              | Err _ => false end
  | None => false
  end.
Lemma changed_ok v d : changed v d = true -> exists w j w', ParsesHere v d "file:///a.cwl" (start v) (Ok w) /\
  save_document (vocab (start v)) (rvocab (start v)) [] [] w = Ok j /\ ParsesHere v j "file:///a.cwl" (start v) (Ok w') /\ w' <> w.
Proof.
  unfold changed. destruct (load_here v d) as [w|] eqn:L; [|intros C; discriminate C]. destruct (save_document (vocab (start v)) (rvocab (start v)) [] [] w) as [j|] eqn:S; [|intros C; discriminate C].
  destruct (load_here v j) as [w'|] eqn:L'; [|intros C; discriminate C]. intros C. exists w, j, w'. split; [apply load_here_ok; auto|]. split; [auto|]. split; [apply load_here_ok; auto|]. clear L L' S. intros ->. destruct w as [| | | | | | |c fs ext]; try discriminate C.
  destruct (dget "steps" fs) as [[]|]; try discriminate C. destruct l as [|[] l]; try discriminate C. destruct (dget "run" fields) as [[]|]; try discriminate C. destruct (dget "id" fields0) as [[]|]; try discriminate C. rewrite String.eqb_refl in C. discriminate C.
Qed.
Theorem C74_blank_refuted v : exists d w j w', ParsesHere v d "file:///a.cwl" (start v) (Ok w) /\
  save_document (vocab (start v)) (rvocab (start v)) [] [] w = Ok j /\ ParsesHere v j "file:///a.cwl" (start v) (Ok w') /\ w' <> w.
Proof. exists (JDict (example_flow (version_text v) [] [])). apply changed_ok. destruct v; vm_compute; reflexivity. Qed.
(** Two ids written differently may be the same address: the list is loaded, but what it is saved as
    is refused *)
Definition example_twice (v : version) : json :=
  JDict [("class", JStr "ExpressionTool"); ("cwlVersion", JStr (version_text v)); ("expression", JStr "$(1)"); ("outputs", JList []);
    ("inputs", JList [JDict [("id", JStr "a"); ("type", JStr "int")]; JDict [("id", JStr "#a"); ("type", JStr "int")]])].
Definition refused_after (v : version) (d : json) (ns : list (string * string)) : bool :=
  match load_here v d with
  | Some w => match save_document (vocab (with_namespaces ns (start v))) (rvocab (with_namespaces ns (start v))) ns [] w with
              | Ok j => match document_load near_join ["file"] example_check example_fetch example_yaml example_uuid (classes_of v) (proxies_of v) 30 (top_of v) j "file:///a.cwl" (start v) with
                        | Err ValidationException => true | _ => false end
              | Err _ => false end
  | None => false
  end.
Definition refused_here (v : version) (j : json) : result lv :=
  document_load near_join ["file"] example_check example_fetch example_yaml example_uuid (classes_of v) (proxies_of v) 30 (top_of v) j "file:///a.cwl" (start v).
Lemma refused_here_ok v j : refused_here v j = Err ValidationException -> ParsesHere v j "file:///a.cwl" (start v) (Err ValidationException).
Proof. unfold refused_here. intros H. split; [intros C; discriminate C|]. eauto. Qed.
Lemma refused_after_ok v d ns : refused_after v d ns = true -> exists w j, let o := with_namespaces ns (start v) in
  ParsesHere v d "file:///a.cwl" (start v) (Ok w) /\ save_document (vocab o) (rvocab o) ns [] w = Ok j /\ ParsesHere v j "file:///a.cwl" (start v) (Err ValidationException).
Proof.
  unfold refused_after. destruct (load_here v d) as [w|] eqn:L; [|intros C; discriminate C]. destruct (save_document _ _ ns [] w) as [j|] eqn:S; [|intros C; discriminate C].
  intros H. exists w, j. refine (conj (load_here_ok v d w L) (conj S (refused_here_ok v j _))). clear L S. unfold refused_here. destruct (document_load _ _ _ _ _ _ _ _ _ _ j _ _) as [|e]; [discriminate H|]. destruct e; try discriminate H. reflexivity.
Qed.
Theorem C74_same_id_refuted v : exists d w j, let o := with_namespaces [] (start v) in ParsesHere v d "file:///a.cwl" (start v) (Ok w) /\
  save_document (vocab o) (rvocab o) [] [] w = Ok j /\ ParsesHere v j "file:///a.cwl" (start v) (Err ValidationException).
Proof. exists (example_twice v). apply refused_after_ok. destruct v; vm_compute; reflexivity. Qed.
(** A packed document with namespaces: saved, they are repeated in every process, and the document is
    refused *)
Definition example_packed (v : version) : json :=
  match example_graph v with JDict d => JDict (("$namespaces", JDict [("ex", JStr "file:///ex#")]) :: d) | j => j end.
Theorem C74_packed_namespaces_refuted v : exists d w j, let o := with_namespaces [("ex", "file:///ex#")] (start v) in ParsesHere v d "file:///a.cwl" (start v) (Ok w) /\
  save_document (vocab o) (rvocab o) [("ex", "file:///ex#")] [] w = Ok j /\ ParsesHere v j "file:///a.cwl" (start v) (Err ValidationException).
Proof. exists (example_packed v). apply refused_after_ok. destruct v; vm_compute; reflexivity. Qed.

Print Assumptions C74_object_partial.
Print Assumptions C74_object_named_partial.
Print Assumptions C74_document_partial.
Print Assumptions C74_document_named_partial.
Print Assumptions C74_graph_partial.
Print Assumptions C74_blank_refuted.
Print Assumptions C74_same_id_refuted.
Print Assumptions C74_packed_namespaces_refuted.
