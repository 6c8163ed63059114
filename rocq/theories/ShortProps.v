(** * C86: saving with short addresses, the default, and loading again *)
From Verif Require Import PyBase PyBaseProofs NameProofs ParserModel LoaderModel LoaderSpec LoaderProofs VersionModel VersionSpec RefusalProofs VersionProofs VersionProps EndProofs EndProps
  SaveModel SaveSpec SaveProofs SaveProofs2 SaveProofs3 SaveProps ShortModel SaveTables ShortSpec ShortProofs ShortProofs2 ShortProofs3.
From Coq Require Import Lia.

Definition saved_of (v : version) : list (string * saving) := match v with V1_0 => saved_v1_0 | V1_1 => saved_v1_1 | V1_2 => saved_v1_2 end.
Definition methods_of (v : version) (c : string) : option saving := dget c (saved_of v).

(** ** The tables *)
Lemma agree_known v c k : known_in v c = true -> classes_of v c = Some k -> exists m, methods_of v (c_name k) = Some m /\ agrees k m = true.
Proof.
  assert (A : forallb (fun kv => negb (known_in v (fst kv)) || match methods_of v (c_name (snd kv)) with Some m => agrees (snd kv) m | None => false end) (all_of v) = true) by (destruct v; vm_compute; reflexivity).
  intros KN K. rewrite classes_all in K. apply dget_In in K. apply (proj1 (forallb_forall _ _) A) in K. cbn [fst snd] in K. rewrite KN in K. cbn [negb orb] in K. destruct (methods_of v (c_name k)) as [m|]; [eauto|discriminate].
Qed.
Lemma ids_scoped v c m h own : methods_of v c = Some m -> written m "id" = Some (h, own) -> h = Some (true, None) /\ own = false.
Proof.
  assert (A : forallb (fun cm => match written (snd cm) "id" with Some (Some (true, None), false) | None => true | _ => false end) (saved_of v) = true) by (destruct v; vm_compute; reflexivity).
  intros M W. apply dget_In in M. apply (proj1 (forallb_forall _ _) A) in M. cbn [snd] in M. rewrite W in M. destruct h as [[[] []]|]; try discriminate. destruct own; try discriminate. auto.
Qed.
Definition typed_field (f : field) : bool := match f_loader f with LTypeDSL (LEnum _) _ _ => true | _ => false end.
Lemma types_plain v cls k f ss rs salad c m h own : classes_of v cls = Some k -> In f (c_fields k) -> f_loader f = LTypeDSL (LEnum ss) rs salad -> methods_of v c = Some m -> written m (f_name f) = Some (h, own) -> h = None.
Proof.
  assert (A : forallb (fun kv => forallb (fun f => negb (typed_field f) || String.eqb (f_name f) "type") (c_fields (snd kv))) (all_of v) = true) by (destruct v; vm_compute; reflexivity).
  assert (B : forallb (fun cm => match written (snd cm) "type" with Some (Some _, _) => false | _ => true end) (saved_of v) = true) by (destruct v; vm_compute; reflexivity).
  intros K I E M W. rewrite classes_all in K. apply dget_In in K. apply (proj1 (forallb_forall _ _) A) in K. cbn [snd] in K. apply (proj1 (forallb_forall _ _) K) in I. unfold typed_field in I. rewrite E in I. cbn [negb orb] in I. apply String.eqb_eq in I. rewrite I in W.
  apply dget_In in M. apply (proj1 (forallb_forall _ _) B) in M. cbn [snd] in M. rewrite W in M. destruct h; [discriminate|auto].
Qed.
Lemma plain_names v c m x : methods_of v c = Some m -> startswith "$" x = true -> written m x = None.
Proof.
  assert (A : forallb (fun cm => forallb (fun f => negb (startswith "$" (fst (fst f)))) (sv_fields (snd cm))) (saved_of v) = true) by (destruct v; vm_compute; reflexivity).
  intros M D. apply dget_In in M. apply (proj1 (forallb_forall _ _) A) in M. cbn [snd] in M. unfold written. destruct (find _ (sv_fields m)) as [f|] eqn:F; auto. apply find_some in F. destruct F as [I E]. apply (proj1 (forallb_forall _ _) M) in I. apply String.eqb_eq in E. rewrite E, D in I. discriminate.
Qed.

(** Every field that is loaded is written, in the scope it is loaded in; the identifier relative to
    the address around the object, everything else relative to the identifier *)
Theorem C86_same_scope v cls k : known_in v cls = true -> classes_of v cls = Some k ->
  exists m, methods_of v (c_name k) = Some m /\
    (forall f, In f (c_fields k) -> exists own, written m (f_name f) = Some (scope_of (f_loader f), own) /\ (own = true <-> c_id k <> None)) /\
    (forall n req l, c_id k = Some (n, req, l) -> sv_own m = Some n \/ c_fields k = [] /\ c_class k = None) /\
    (forall n req l, c_id k = Some (n, req, l) -> written m n = Some (scope_of l, false)) /\
    (forall l, c_class k = Some l -> exists own, written m "class" = Some (Some (false, None), own) /\ (own = true <-> c_id k <> None)).
Proof.
  intros KN K. destruct (agree_known v cls k KN K) as (m & M & A). exists m. split; auto. apply agrees_parts in A. destruct A as (A & B & C).
  assert (O : forall own, own_ok k m own = true -> (own = true <-> c_id k <> None)).
  { intros own. unfold own_ok. destruct (c_id k) as [[[n r] l]|]; [rewrite andb_true_iff; intros [-> _]; split; auto; discriminate|destruct own; [discriminate|]; split; [discriminate|intros X; contradiction X; auto]]. }
  assert (Q : forall own n r l, own_ok k m own = true -> c_id k = Some (n, r, l) -> sv_own m = Some n).
  { intros own n r l X E. unfold own_ok in X. rewrite E in X. apply andb_true_iff in X. destruct X as [_ X]. destruct (sv_own m); [|discriminate]. apply String.eqb_eq in X. subst. auto. }
  split; [|split; [|split]].
  - intros f I. destruct (A f I) as (own & W & X). eauto.
  - intros n r l E. destruct (c_fields k) as [|f fs] eqn:F.
    + destruct (c_class k) as [c|] eqn:CC; [|auto]. destruct (C c eq_refl) as (own & _ & X). left. eauto.
    + destruct (A f (or_introl eq_refl)) as (own & _ & X). left. eauto.
  - auto.
  - intros l E. destruct (C l E) as (own & W & X). eauto.
Qed.

Section Props.
Variables (urljoin : string -> string -> result string) (supported_schemes : list string) (check_exists : string -> result bool)
  (fetch_text : string -> result string) (read_yaml : string -> result json) (uuid : json -> string).
Let Parses := Parses urljoin supported_schemes check_exists fetch_text read_yaml uuid.
Let LoadsIn := LoadsIn urljoin supported_schemes check_exists fetch_text read_yaml uuid.
(** Joining addresses and looking for files end, in an answer or in a validation error *)
Hypothesis joins : forall b u, (exists r, urljoin b u = Ok r) \/ urljoin b u = Err ValidationException.
Hypothesis checks : forall u, (exists r, check_exists u = Ok r) \/ check_exists u = Err ValidationException.
(** How addresses and the names of extension fields are written *)
Variables (short : string -> string -> scope -> string) (prefixed : string -> string).

Section Version.
Variable v : version.
Notation FitsAt V RV u := (FitsAt urljoin supported_schemes check_exists (classes_of v) (proxies_of v) short prefixed V RV u).
Notation save_at V RV := (save_at V RV (methods_of v) short prefixed).
Notation save_document_at V RV := (save_document_at V RV (methods_of v) short prefixed).
Lemma rounds_at V RV u b b' l val : FitsAt V RV u b b' l val -> sound (known_in v) (proxied_in v) l = true -> fieldable (known_in v) (proxied_in v) l = true ->
  (exists j, save_at V RV None b val = Ok j /\ (self_contained j -> forall o root, vocab o = V -> rvocab o = RV -> (u = true -> no_link_check o = true) -> LoadsIn v l j b' o root (Ok val))) /\
  deep (methods_of v) short prefixed V RV b val.
Proof.
  intros F S Fd.
  destruct (proj1 (fits_round_at urljoin supported_schemes check_exists fetch_text read_yaml uuid (classes_of v) (proxies_of v)
    (fun b u => proj1 (ends_joins urljoin joins b u)) (fun b u => proj2 (ends_joins urljoin joins b u)) (fun u => proj1 (ends_checks check_exists checks u)) (fun u => proj2 (ends_checks check_exists checks u))
    (known_in v) (proxied_in v) (tables_known v) (ends_known v) (tables_proxied v) (ends_proxied v) (neat_known v) (pattern_known v) (methods_of v) short prefixed (agree_known v) (ids_scoped v) (types_plain v) V RV u) b b' l val F (conj S Fd)) as [(j & SV & L) D].
  split; auto. exists j. split; auto. intros SC o root A B C. apply L; auto. split; [split|]; auto.
Qed.

(** ** An object of any class of the version, written relative to [b], is loaded in [b'] as it was *)
Theorem C86_object_partial cls val V RV unchecked b b' : known_in v cls = true -> FitsAt V RV unchecked b b' (LRecord cls None None) val ->
  exists j, save_at V RV None b val = Ok j /\
    (self_contained j -> forall o root, vocab o = V -> rvocab o = RV -> (unchecked = true -> no_link_check o = true) ->
     LoadsIn v (LRecord cls None None) j b' o root (Ok val)).
Proof. intros K F. apply (rounds_at _ _ _ _ _ _ _ F); auto. Qed.

(** ** A document *)
Lemma saved_at_plain V RV b c fs ext r x : well (methods_of v) short prefixed V RV b (VObj c fs ext) -> save_at V RV None b (VObj c fs ext) = Ok (JDict r) ->
  startswith "$" x = true -> has_char ":" x = false -> ~ In x (map fst r).
Proof.
  intros (m & M & N & _ & P & _) S D C I. apply (save_at_obj_ok _ _ _ _ _ _ _ _ _ _ m) in S; auto. destruct S as (ess & SF & [= ->]). rewrite map_app, in_app_iff in I. destruct I as [I|I].
  - apply P in C. apply (proj1 (dget_None _ _)) in C. contradiction.
  - assert (W : written m x = None) by (apply (plain_names v c); auto).
    clear - I SF W. induction SF as [|kv es fs' ess E SF IH]; [contradiction|]. cbn [List.concat] in I. rewrite map_app, in_app_iff in I. destruct I as [I|I]; [|apply IH; auto].
    destruct E; cbn [map fst In] in I; try contradiction; destruct I as [<-|[]]; congruence.
Qed.
(** A process: the document it is saved as, written relative to [b], is loaded at [base] as the same process *)
Theorem C86_document_partial val ns schemas b base o unchecked cls fs ext : val = VObj cls fs ext ->
  let here := with_namespaces ns o in
  FitsAt (vocab here) (rvocab here) unchecked b base (top_of v) val -> (unchecked = true -> no_link_check o = true) ->
  exists j, save_document_at (vocab here) (rvocab here) ns schemas b val = Ok j /\ (self_contained j -> Parses v j base o (Ok val)).
Proof.
  intros -> here F U. destruct (rounds_at _ _ _ _ _ _ _ F (tables_top v) (ends_top v)) as [(j & SV & L) [W _]].
  pose proof (save_at_kind _ _ _ _ _ _ _ _ _ SV) as [r ->]. exists (JDict (with_header ns schemas r)). unfold ShortModel.save_document_at, save_top_at. rewrite SV. cbn [bind]. split; auto. intros SC.
  destruct (header_read ns schemas r) as (H1 & H2 & H3 & H4 & H5).
  { intros x A B. exact (saved_at_plain _ _ _ _ _ _ _ x W SV A B). }
  destruct (L (H5 SC) here (Some base) eq_refl eq_refl U) as [NO [n LD]]. split; auto.
  exists (S n). rewrite document_load_S. cbn [document_body]. rewrite H3. cbn [bind]. cbv zeta. rewrite H1, H2, H4. exact LD.
Qed.
(** A list of processes: the packed document *)
Theorem C86_graph_partial val b base o unchecked vs j : val = VSeq vs ->
  FitsAt (vocab o) (rvocab o) unchecked b base (top_of v) val -> (unchecked = true -> no_link_check o = true) ->
  save_document_at (vocab o) (rvocab o) [] [] b val = Ok j -> self_contained j -> Parses v j base o (Ok val).
Proof.
  intros -> F U SD SC. destruct (rounds_at _ _ _ _ _ _ _ F (tables_top v) (ends_top v)) as [(j' & SV & L) _]. rewrite save_at_seq in SV. destruct (save_list_at (vocab o) (rvocab o) (methods_of v) short prefixed None b vs) as [js|] eqn:SL; cbn [bind] in SV; [|discriminate]. injection SV as <-.
  unfold ShortModel.save_document_at in SD. assert (M : mapM (save_top_at (vocab o) (rvocab o) (methods_of v) short prefixed [] [] b) vs = Ok js).
  { apply mapM_Ok. apply save_list_at_ok in SL. eapply F2_impl; [|exact SL]. intros x y E. unfold save_top_at. rewrite E. cbn [bind with_header]. destruct y; auto. }
  rewrite M in SD. cbn [bind] in SD. assert (E : exists ver, j = JDict [("cwlVersion", ver); ("$graph", JList js)]).
  { cbn [ParserModel.save] in SD. match type of SD with bind ?x _ = _ => assert (G : x = Ok js) end.
    { clear. induction js as [|j js IH]; [reflexivity|]. cbn [map ParserModel.save bind]. cbn [map] in IH. rewrite IH. reflexivity. }
    rewrite G in SD. cbn [bind] in SD. assert (FB : forallb is_process (map (Obj true) js) = true) by (clear; induction js; auto). rewrite FB in SD. cbn [andb] in SD.
    destruct (versions js) as [vers|]; cbn [bind] in SD; [|discriminate]. destruct (max_version vers) as [ver|]; cbn [bind] in SD; [|discriminate]. injection SD as <-. eauto. }
  destruct E as [ver ->]. assert (SJ : self_contained (JList js)) by (cbn in SC; apply SC).
  destruct (L SJ o None eq_refl eq_refl U) as [NO [n LD]]. split; auto. exists (S n). rewrite document_load_S. cbn [document_body dget]. cbv beta iota zeta.
  change (String.eqb "$base" "cwlVersion") with false. change (String.eqb "$base" "$graph") with false. cbv iota. cbn [bind].
  change (namespaces [("cwlVersion", ver); ("$graph", JList js)]) with (@nil (string * string)). change (no_graph_keys [("cwlVersion", ver); ("$graph", JList js)]) with [("cwlVersion", ver); ("$graph", JList js)].
  cbn [dget]. change (String.eqb "$graph" "cwlVersion") with false. change (String.eqb "$graph" "$graph") with true. cbv iota.
  replace (with_namespaces [] o) with o by (destruct o; reflexivity). exact LD.
Qed.
End Version.
End Props.

(** ** Cases that meet the hypotheses *)
(** Joining and shortening addresses in one directory.  [short_here] is [save_relative_uri] as
    schema-salad publishes it, for addresses [file:///name] and [file:///name#fragment]. *)
Definition file_join (b u : string) : result string := Ok (if startswith "#" u then before "#" b ++ u else if startswith "file:" u then u else "file:///" ++ u)%string.
Fixpoint drop_last (n : nat) (l : list string) : list string := match n with O => l | S n => drop_last n (removelast l) end.
Definition short_here (u b : string) (h : scope) : string :=
  if String.eqb u b then u
  else if startswith "file:///" u && startswith "file:///" b then
    if String.eqb (before "#" u) (before "#" b) then
      let frag := after "#" u in
      let around := match snd h with None => (after "#" b ++ "/")%string | Some n => concat "/" (drop_last n (split_char "/" (after "#" b ++ "/"))) end in
      if startswith around frag then substring (length around) (length frag - length around) frag else frag
    else substring 8 (length u - 8) u
  else u.
Definition prefix_here (s : string) : string := if startswith "file:///ex#" s then ("ex:" ++ substring 11 (length s - 11) s)%string else s.
(** A workflow with extension fields, types and hints; in v1.0 with a tool in a step, later with a
    reference to a tool *)
Definition short_flow (v : version) : json :=
  JDict [("$namespaces", JDict [("ex", JStr "file:///ex#")]);
    ("class", JStr "Workflow"); ("cwlVersion", JStr (version_text v));
    ("inputs", JDict [("a", JStr (match v with V1_0 => "int[]?" | _ => "int?" end)); ("b", JDict [("type", JStr "File"); ("secondaryFiles", JStr ".bai"); ("format", JStr "ex:fmt"); ("ex:note", JInt 1)])]);
    ("outputs", JDict [("z", JDict [("type", JStr "string?"); ("outputSource", JStr "s/o")])]);
    ("requirements", JDict [("InlineJavascriptRequirement", JDict [])]);
    ("hints", JDict [("ResourceRequirement", JDict [("coresMin", JInt 2)])]);
    ("steps", JDict [("s", JDict [("run", match v with V1_0 => JDict (example_nested [("id", JStr "inner")]) | _ => JStr "t.cwl" end); ("in", JDict [("x", JStr "a"); ("y", JList [JStr "a"; JStr "b"])]); ("out", JList [JStr "o"])])])].
Notation ParsesNear := (VersionSpec.Parses file_join ["file"] example_check example_fetch example_yaml example_uuid).
Notation FitsNear v o := (ShortSpec.FitsAt file_join ["file"] example_check (classes_of v) (proxies_of v) short_here prefix_here (vocab o) (rvocab o) false).
Notation save_near v o := (ShortModel.save_document_at (vocab o) (rvocab o) (methods_of v) short_here prefix_here).
Definition load_near (v : version) (d : json) : option lv :=
  match document_load file_join ["file"] example_check example_fetch example_yaml example_uuid (classes_of v) (proxies_of v) 30 (top_of v) d "file:///a.cwl" (start v) with Ok w => Some w | Err _ => None end.
Lemma load_near_ok v d w : load_near v d = Some w -> ParsesNear v d "file:///a.cwl" (start v) (Ok w).
Proof. unfold load_near. destruct (document_load _ _ _ _ _ _ _ _ _ _ _ _ _) as [w'|] eqn:E; [|discriminate]. intros [= ->]. split; [discriminate|]. eauto. Qed.
Definition here (v : version) : options := with_namespaces [("ex", "file:///ex#")] (start v).
Definition fits_near (v : version) (b : string) (w : lv) : bool :=
  fits_at_b file_join ["file"] example_check (classes_of v) (proxies_of v) short_here prefix_here (vocab (here v)) (rvocab (here v)) false 30 b "file:///a.cwl" (top_of v) w.

Lemma fits_near_ok v b w : fits_near v b w = true -> FitsNear v (here v) b "file:///a.cwl" (top_of v) w.
Proof. unfold fits_near. apply fits_at_ok. Qed.
Definition round_near (v : version) (b : string) : bool :=
  match load_near v (short_flow v) with
  | Some w => fits_near v b w && match save_near v (here v) [("ex", "file:///ex#")] [] b w with Ok j => contained j | Err _ => false end
  | None => false
  end.
Lemma round_near_ok v b : round_near v b = true -> exists w j,
  ParsesNear v (short_flow v) "file:///a.cwl" (start v) (Ok w) /\ FitsNear v (here v) b "file:///a.cwl" (top_of v) w /\ save_near v (here v) [("ex", "file:///ex#")] [] b w = Ok j /\ self_contained j.
Proof.
  unfold round_near. destruct (load_near v (short_flow v)) as [w|] eqn:L; [|intros C; discriminate C]. rewrite andb_true_iff. intros [F S]. destruct (save_near v (here v) _ [] b w) as [j|] eqn:E; [|discriminate S].
  exists w, j. exact (conj (load_near_ok v _ w L) (conj (fits_near_ok v b w F) (conj E (contained_ok j S)))).
Qed.
(** Written relative to nothing, as [cwl_utils.parser.save] does, or relative to the document *)
Example C86_document_example : forall v b, b = "" \/ b = "file:///a.cwl" -> exists w j,
  ParsesNear v (short_flow v) "file:///a.cwl" (start v) (Ok w) /\ FitsNear v (here v) b "file:///a.cwl" (top_of v) w /\ save_near v (here v) [("ex", "file:///ex#")] [] b w = Ok j /\ self_contained j.
Proof. intros v b H. apply round_near_ok. destruct H as [-> | ->]; destruct v; vm_compute; reflexivity. Qed.
Definition short_graph (v : version) : json :=
  JDict [("$graph", JList [
    JDict [("id", JStr "#main"); ("class", JStr "Workflow"); ("cwlVersion", JStr (version_text v)); ("inputs", JDict [("a", JStr "int?")]); ("outputs", JDict []);
      ("steps", JDict [("s", JDict [("run", JStr "t.cwl"); ("in", JDict [("x", JDict [("default", JInt 1)])]); ("out", JList [])])])];
    JDict [("id", JStr "#t"); ("class", JStr "ExpressionTool"); ("inputs", JDict [("x", JStr "int")]); ("outputs", JDict []); ("expression", JStr "$(1)")]])].
Lemma fits_top_ok v b w : fits_at_b file_join ["file"] example_check (classes_of v) (proxies_of v) short_here prefix_here (vocab (start v)) (rvocab (start v)) false 30 b "file:///a.cwl" (top_of v) w = true ->
  FitsNear v (start v) b "file:///a.cwl" (top_of v) w.
Proof. apply fits_at_ok. Qed.
Definition graph_near (v : version) (b : string) : bool :=
  match load_near v (short_graph v) with
  | Some (VSeq vs) => fits_at_b file_join ["file"] example_check (classes_of v) (proxies_of v) short_here prefix_here (vocab (start v)) (rvocab (start v)) false 30 b "file:///a.cwl" (top_of v) (VSeq vs) &&
      match save_near v (start v) [] [] b (VSeq vs) with Ok j => contained j | Err _ => false end
  | _ => false
  end.
Lemma graph_near_ok v b : graph_near v b = true -> exists vs j,
  ParsesNear v (short_graph v) "file:///a.cwl" (start v) (Ok (VSeq vs)) /\ FitsNear v (start v) b "file:///a.cwl" (top_of v) (VSeq vs) /\ save_near v (start v) [] [] b (VSeq vs) = Ok j /\ self_contained j.
Proof.
  unfold graph_near. destruct (load_near v (short_graph v)) as [[| | | | |vs| |]|] eqn:L; try (intros C; discriminate C). rewrite andb_true_iff. intros [F S]. destruct (save_near v (start v) [] [] b (VSeq vs)) as [j|] eqn:E; [|discriminate S].
  exists vs, j. exact (conj (load_near_ok v _ _ L) (conj (fits_top_ok v b _ F) (conj E (contained_ok j S)))).
Qed.
Example C86_graph_example : forall v b, b = "" \/ b = "file:///a.cwl" -> exists vs j,
  ParsesNear v (short_graph v) "file:///a.cwl" (start v) (Ok (VSeq vs)) /\ FitsNear v (start v) b "file:///a.cwl" (top_of v) (VSeq vs) /\ save_near v (start v) [] [] b (VSeq vs) = Ok j /\ self_contained j.
Proof. intros v b H. apply graph_near_ok. destruct H as [-> | ->]; destruct v; vm_compute; reflexivity. Qed.
Example C86_example_hypotheses : (forall b u, (exists r, file_join b u = Ok r) \/ file_join b u = Err ValidationException) /\ (forall u, (exists r, example_check u = Ok r) \/ example_check u = Err ValidationException) /\
  (forall v, known_in v "WorkflowStep" = true /\ exists k, classes_of v "WorkflowStep" = Some k /\ c_id k <> None /\ c_fields k <> []).
Proof. split; [intros; left; eexists; reflexivity|]. split; [intros; left; eexists; reflexivity|]. intros v; destruct v; (split; [vm_compute; reflexivity|eexists; split; [vm_compute; reflexivity|split; discriminate]]). Qed.

(** ** The id of a tool in a step changes: it is read in the scope [run] of the step, but written
    relative to the step *)
Definition run_flow (v : version) : json :=
  JDict [("class", JStr "Workflow"); ("cwlVersion", JStr (version_text v)); ("inputs", JDict []); ("outputs", JDict []);
    ("steps", JDict [("s", JDict [("run", JDict (example_nested [("id", JStr "inner")])); ("in", JDict []); ("out", JList [JStr "o"])])])].
(** The id of the process the first step runs *)
Definition run_id (w : lv) : option string :=
  match w with
  | VObj _ fs _ => match dget "steps" fs with
                   | Some (VSeq (VObj _ gs _ :: _)) => match dget "run" gs with Some (VObj _ hs _) => match dget "id" hs with Some (VStr s) => Some s | _ => None end | _ => None end
                   | _ => None end
  | _ => None
  end.
(** The name of the type of the first input *)
Definition type_name (w : lv) : option string :=
  match w with
  | VObj _ fs _ => match dget "inputs" fs with
                   | Some (VSeq (VObj _ gs _ :: _)) => match dget "type" gs with Some (VObj _ hs _) => match dget "name" hs with Some (VStr s) => Some s | _ => None end | _ => None end
                   | _ => None end
  | _ => None
  end.
Definition array_tool (v : version) : json :=
  JDict [("class", JStr "ExpressionTool"); ("cwlVersion", JStr (version_text v)); ("expression", JStr "$(1)"); ("outputs", JList []); ("inputs", JDict [("a", JStr "int[]")])].
Definition twice_near (v : version) (d : json) (b : string) : option (lv * json * lv) :=
  match load_near v d with
  | Some w => match save_near v (start v) [] [] b w with Ok j => match load_near v j with Some w' => Some (w, j, w') | None => None end | Err _ => None end
  | None => None
  end.
Definition differs (get : lv -> option string) (a b : string) (r : option (lv * json * lv)) : bool :=
  match r with Some (w, _, w') => match get w, get w' with Some x, Some y => String.eqb x a && String.eqb y b | _, _ => false end | None => false end.
Lemma differs_ok get a c v d b : differs get a c (twice_near v d b) = true -> exists w j w', ParsesNear v d "file:///a.cwl" (start v) (Ok w) /\
  save_near v (start v) [] [] b w = Ok j /\ ParsesNear v j "file:///a.cwl" (start v) (Ok w') /\ get w = Some a /\ get w' = Some c.
Proof.
  unfold twice_near, differs. destruct (load_near v d) as [w|] eqn:L; [|intros C; discriminate C]. destruct (save_near v (start v) [] [] b w) as [j|] eqn:S; [|intros C; discriminate C].
  destruct (load_near v j) as [w'|] eqn:L'; [|intros C; discriminate C]. intros C. exists w, j, w'. refine (conj (load_near_ok v d w L) (conj S (conj (load_near_ok v j w' L') _))). clear L L' S.
  destruct (get w) as [x|]; [|discriminate C]. destruct (get w') as [y|]; [|discriminate C]. apply andb_true_iff in C. destruct C as [A B]. apply String.eqb_eq in A, B. subst. auto.
Qed.
Theorem C86_run_refuted v b : v <> V1_0 -> b = "" \/ b = "file:///a.cwl" -> exists w j w', ParsesNear v (run_flow v) "file:///a.cwl" (start v) (Ok w) /\
  save_near v (start v) [] [] b w = Ok j /\ ParsesNear v j "file:///a.cwl" (start v) (Ok w') /\ run_id w = Some "file:///a.cwl#s/run/inner" /\ run_id w' = Some "file:///a.cwl#s/run/run/inner".
Proof. intros N H. apply differs_ok. destruct v; [contradiction N; reflexivity| |]; destruct H as [-> | ->]; vm_compute; reflexivity. Qed.
(** ** The name made up for the type of an array changes *)
Theorem C86_array_refuted v b : v <> V1_0 -> b = "" \/ b = "file:///a.cwl" -> exists w j w', ParsesNear v (array_tool v) "file:///a.cwl" (start v) (Ok w) /\
  save_near v (start v) [] [] b w = Ok j /\ ParsesNear v j "file:///a.cwl" (start v) (Ok w') /\ type_name w = Some "_:0" /\ type_name w' = Some "file:///a.cwl#a/_:0".
Proof. intros N H. apply differs_ok. destruct v; [contradiction N; reflexivity| |]; destruct H as [-> | ->]; vm_compute; reflexivity. Qed.

Print Assumptions C86_same_scope.
Print Assumptions C86_object_partial.
Print Assumptions C86_document_partial.
Print Assumptions C86_graph_partial.
Print Assumptions C86_run_refuted.
Print Assumptions C86_array_refuted.
