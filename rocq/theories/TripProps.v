(** * C87: saving and loading with the functions of the package *)
From Verif Require Import PyBase PyBaseProofs NameProofs ParserModel ParserSpec ParserProofs ParserProps LoaderModel LoaderSpec LoaderProofs VersionModel VersionSpec RefusalProofs VersionProofs VersionProps EndProofs EndProps
  SaveModel SaveSpec SaveProofs SaveProofs2 SaveProofs3 SaveProps ShortModel SaveTables ShortSpec ShortProofs ShortProofs2 ShortProofs3 ShortProps InputModel TripModel TripSpec.
From Coq Require Import Lia.

Lemma version_named_text v : version_named (version_text v) = Some v.
Proof. destruct v; reflexivity. Qed.
Lemma version_supported v : supported (version_text v).
Proof. destruct v; cbn; unfold supported; auto. Qed.
Lemma version_scope v c m : methods_of v c = Some m -> match written m "cwlVersion" with Some (h, _) => h = Some (false, None) | None => True end.
Proof.
  assert (A : forallb (fun cm => match written (snd cm) "cwlVersion" with Some (Some (false, None), _) | None => true | _ => false end) (saved_of v) = true) by (destruct v; vm_compute; reflexivity).
  intros M. apply dget_In in M. apply (proj1 (forallb_forall _ _) A) in M. cbn [snd] in M. destruct (written m "cwlVersion") as [[[[[] []]|] own]|]; auto; discriminate.
Qed.
Lemma dset_back {A} k (x : A) d : dget k d = Some x -> dset k x d = d.
Proof.
  induction d as [|[k' y] d IH]; cbn [dget dset]; [discriminate|]. destruct (String.eqb k k') eqn:E; [intros [= ->]; apply String.eqb_eq in E; subst; auto|intros H; f_equal; auto].
Qed.
Lemma names_keys {A} (d : list (string * A)) k : dget k d <> None -> In k (map fst d).
Proof. intros H. destruct (in_dec string_dec k (map fst d)) as [I|I]; auto. apply dget_None in I. contradiction. Qed.

(** The version and the id of a saved process *)
Section Saved.
Variables (short : string -> string -> scope -> string) (prefixed : string -> string) (v : version) (V RV : list (string * string)).
Notation save_at := (save_at V RV (methods_of v) short prefixed).
Notation well := (well (methods_of v) short prefixed V RV).
Lemma saved_entry b c fs ext r x : well b (VObj c fs ext) -> save_at None b (VObj c fs ext) = Ok (JDict r) -> has_char ":" x = false -> x <> "class" ->
  match dget x fs with
  | None | Some VNull => dget x r = None
  | Some w => exists m h own j, methods_of v c = Some m /\ written m x = Some (h, own) /\ save_at h (address m fs own b) w = Ok j /\ dget x r = Some j
  end.
Proof.
  intros (m & M & N & W & P & _) S C NC. apply (save_at_obj_ok _ _ _ _ _ _ _ _ _ _ m) in S; auto. destruct S as (ess & SF & [= ->]).
  rewrite dget_app, (P x C). pose proof (saved_at_get _ _ _ _ _ m fs b fs ess x SF (nodup_right _ _ N)) as G. destruct (dget x fs) as [w|] eqn:D; [|exact G]. destruct G as (es & SA & ->).
  assert (NW : written m x <> None) by (apply W; apply names_keys; congruence).
  inversion SA as [k|k w' X1 X2|cc h own t X1 X2|k w' h own j X1 X2 X3 X4]; subst.
  - reflexivity.
  - contradiction.
  - contradiction NC; reflexivity.
  - cbn [dget]. rewrite String.eqb_refl. destruct w; try (exists m, h, own, j; auto); contradiction.
Qed.
Hypothesis version_stays : forall b, short (version_text v) b (false, None) = version_text v.
Lemma saved_declares b p r : declares v p -> well b p -> save_at None b p = Ok (JDict r) -> dget "cwlVersion" r = Some (JStr (version_text v)).
Proof.
  intros (c & fs & ext & -> & D) W S. pose proof (saved_entry _ _ _ _ _ "cwlVersion" W S eq_refl ltac:(discriminate)) as G. rewrite D in G. destruct G as (m & h & own & j & M & WR & SJ & ->).
  pose proof (version_scope v c m M) as X. rewrite WR in X. subst h. cbn [ShortModel.save_at] in SJ. rewrite version_stays in SJ. congruence.
Qed.
Lemma saved_undeclared b p r : undeclared p -> well b p -> save_at None b p = Ok (JDict r) -> dget "cwlVersion" r = None.
Proof.
  intros (c & fs & ext & -> & D) W S. pose proof (saved_entry _ _ _ _ _ "cwlVersion" W S eq_refl ltac:(discriminate)) as G. destruct D as [D|D]; rewrite D in G; exact G.
Qed.
Lemma saved_name b p r name : found_as short b p name -> well b p -> save_at None b p = Ok (JDict r) -> has_name (JDict r) name.
Proof.
  intros (c & fs & ext & s & -> & D & NM) W S. pose proof (saved_entry _ _ _ _ _ "id" W S eq_refl ltac:(discriminate)) as G. rewrite D in G. destruct G as (m & h & own & j & M & WR & SJ & G).
  destruct (ids_scoped v c m h own M WR) as [-> ->]. cbn [ShortModel.save_at] in SJ. injection SJ as <-. exists r, (short s b (true, None)). split; auto. split; auto.
  rewrite G. unfold address. destruct (sv_own m); reflexivity.
Qed.
End Saved.

Lemma header_get (ns : list (string * string)) schemas (r : list (string * json)) x : x <> "$namespaces" -> x <> "$schemas" -> dget x (with_header ns schemas r) = dget x r.
Proof. intros A B. unfold with_header. destruct ns, schemas; cbv zeta iota; rewrite ?dget_dset_other by auto; auto. Qed.
Lemma max_same x k vs : version_split x = Ok k -> Forall (eq x) vs -> max_from x k vs = Ok x.
Proof.
  intros S. assert (L : list_lt k k = false) by (clear; induction k as [|n k IH]; auto; cbn [list_lt]; rewrite N.ltb_irrefl; auto).
  induction 1 as [|y vs E F IH]; auto. subst y. cbn [max_from]. rewrite S. cbn [bind]. rewrite L. exact IH.
Qed.
Lemma max_version_same x vs : (exists k, version_split x = Ok k) -> vs <> [] -> Forall (eq x) vs -> max_version vs = Ok x.
Proof. intros [k S] N F. destruct vs as [|y vs]; [contradiction|]. apply Forall_cons_iff in F. destruct F as [<- F]. cbn [max_version]. rewrite S. cbn [bind]. apply max_same; auto. Qed.
Lemma version_numbers v : exists k, version_split (JStr (version_text v)) = Ok k.
Proof. destruct v; eexists; reflexivity. Qed.
Lemma declaring_set v c fs ext : NoDup (map fst fs) ->
  (if has_version (VObj c fs ext) then set_version (version_text v) (VObj c fs ext) else VObj c fs ext) = declaring v (VObj c fs ext).
Proof.
  intros N. unfold has_version, dmem, declaring. cbn [set_version]. destruct (dget "cwlVersion" fs) as [w|] eqn:D.
  - f_equal. revert D N. induction fs as [|[k x] fs IH]; cbn [dget dset map fst]; [discriminate|]. rewrite String.eqb_sym. destruct (String.eqb k "cwlVersion") eqn:E.
    + intros _ N. apply String.eqb_eq in E. subst k. inversion N as [|? ? N1 N2]; subst. f_equal. clear - N1. induction fs as [|[k x] fs IH]; auto. cbn [map fst In] in N1. apply Decidable.not_or in N1. destruct N1 as [A B]. cbn [map fst]. rewrite <- IH by auto. apply String.eqb_neq in A. rewrite A. reflexivity.
    + intros D N. inversion N; subst. f_equal; auto.
  - f_equal. revert D. clear N. induction fs as [|[k x] fs IH]; cbn [dget map fst]; auto. rewrite String.eqb_sym. destruct (String.eqb k "cwlVersion") eqn:E; [discriminate|]. intros D. f_equal; auto.
Qed.
Lemma declares_already v c fs ext : NoDup (map fst fs) -> dget "cwlVersion" fs = Some (VStr (version_text v)) -> declaring v (VObj c fs ext) = VObj c fs ext.
Proof.
  intros N D. rewrite <- declaring_set by auto. unfold has_version, dmem. rewrite D. cbn [set_version]. rewrite dset_back; auto.
Qed.

Section Props.
Variables (urljoin : string -> string -> result string) (supported_schemes : list string) (check_exists : string -> result bool)
  (fetch_text : string -> result string) (read_yaml : string -> result json) (uuid : json -> string).
Let LoadsAny := LoadsAny urljoin supported_schemes check_exists fetch_text read_yaml uuid.
(** Joining addresses and looking for files end, in an answer or in a validation error *)
Hypothesis joins : forall b u, (exists r, urljoin b u = Ok r) \/ urljoin b u = Err ValidationException.
Hypothesis checks : forall u, (exists r, check_exists u = Ok r) \/ check_exists u = Err ValidationException.
(** How addresses and the names of extension fields are written; a version is written as it is *)
Variables (short : string -> string -> scope -> string) (prefixed : string -> string).
Variable v : version.
Hypothesis version_stays : forall b, short (version_text v) b (false, None) = version_text v.
(** The options the parsers are given *)
Variable opts : version -> options.
Notation FitsAt V RV u := (FitsAt urljoin supported_schemes check_exists (classes_of v) (proxies_of v) short prefixed V RV u).
Notation save_at V RV := (save_at V RV (methods_of v) short prefixed).
Notation save_document_at V RV := (save_document_at V RV (methods_of v) short prefixed).
Notation rounds V RV u b b' l val F := (rounds_at urljoin supported_schemes check_exists fetch_text read_yaml uuid joins checks short prefixed v V RV u b b' l val F).

Lemma saved_process V RV u ns schemas b base val : FitsAt V RV u b base (top_of v) val -> declares v val \/ undeclared val ->
  exists r, save_at V RV None b val = Ok (JDict r) /\ save_document_at V RV ns schemas b val = Ok (JDict (with_header ns schemas r)) /\ well (methods_of v) short prefixed V RV b val /\ dget "$graph" r = None.
Proof.
  intros F D. destruct (rounds V RV u b base (top_of v) val F (tables_top v) (ends_top v)) as [(j & SV & _) [W _]].
  assert (O : exists c fs ext, val = VObj c fs ext) by (destruct D as [(c & fs & ext & -> & _)|(c & fs & ext & -> & _)]; eauto). destruct O as (c & fs & ext & ->).
  pose proof (save_at_kind _ _ _ _ _ _ _ _ _ SV) as [r ->]. exists r. split; auto. split; [unfold ShortModel.save_document_at, save_top_at; rewrite SV; reflexivity|]. split; auto.
  apply dget_None. apply (saved_at_plain short prefixed v V RV b c fs ext r "$graph" W SV); reflexivity.
Qed.
Lemma wells V RV u b base vs : FitsAt V RV u b base (top_of v) (VSeq vs) -> Forall (well (methods_of v) short prefixed V RV b) vs.
Proof. intros F. destruct (rounds V RV u b base (top_of v) (VSeq vs) F (tables_top v) (ends_top v)) as [_ [_ D]]. exact D. Qed.

(** ** A process that declares its version *)
Theorem C87_process_partial val ns schemas b base unchecked : let here := with_namespaces ns (opts v) in
  FitsAt (vocab here) (rvocab here) unchecked b base (top_of v) val -> (unchecked = true -> no_link_check (opts v) = true) -> declares v val ->
  exists j, save_document_at (vocab here) (rvocab here) ns schemas b val = Ok j /\ (self_contained j -> forall id load_all, LoadsAny j base opts id load_all (Ok (One val))).
Proof.
  intros here F U D. destruct (saved_process _ _ _ ns schemas _ _ _ F (or_introl D)) as (r & SV & SD & W & NG).
  pose proof (saved_declares short prefixed v _ _ version_stays b val r D W SV) as DV. destruct D as (c & fs & ext & -> & _).
  destruct (C86_document_partial urljoin supported_schemes check_exists fetch_text read_yaml uuid joins checks short prefixed v (VObj c fs ext) ns schemas b base (opts v) unchecked c fs ext eq_refl F U) as (j & SJ & L).
  exists j. split; auto. intros SC id all. destruct (L SC) as [_ [n P]]. fold here in SJ. rewrite SD in SJ. injection SJ as <-. split; [discriminate|]. exists n. unfold load_any. apply C32_load_iff.
  exists (version_text v), (JDict (with_header ns schemas r)), (One (VObj c fs ext)). split; [|split; [|split]].
  - split; [|apply version_supported]. rewrite header_get by discriminate. auto.
  - left. split; auto. left. rewrite header_get by discriminate. auto.
  - unfold parse_version. rewrite version_named_text, P. reflexivity.
  - reflexivity.
Qed.
(** ** A process without a version is saved, but what it is saved as is refused *)
Theorem C87_unversioned val ns schemas b base unchecked V RV :
  FitsAt V RV unchecked b base (top_of v) val -> undeclared val ->
  exists j, save_document_at V RV ns schemas b val = Ok j /\ forall id load_all, LoadsAny j base opts id load_all (Err ValidationException).
Proof.
  intros F D. destruct (saved_process _ _ _ ns schemas _ _ _ F (or_intror D)) as (r & SV & SD & W & NG). pose proof (saved_undeclared short prefixed v _ _ b val r D W SV) as DV.
  exists (JDict (with_header ns schemas r)). split; auto. intros id all. split; [discriminate|]. exists 0. unfold load_any. apply C32_version_required.
  - intros t [X _]. rewrite header_get in X by discriminate. congruence.
  - left. rewrite header_get by discriminate. auto.
Qed.

(** ** A list of processes *)
Lemma saved_list V RV u b base vs : FitsAt V RV u b base (top_of v) (VSeq vs) -> Forall (fun p => declares v p \/ undeclared p) vs -> Exists (declares v) vs ->
  exists js, Forall2 (fun p j => exists r, j = JDict r /\ save_at V RV None b p = Ok (JDict r) /\ well (methods_of v) short prefixed V RV b p) vs js /\
    save_document_at V RV [] [] b (VSeq vs) = Ok (JDict [("cwlVersion", JStr (version_text v)); ("$graph", JList js)]).
Proof.
  intros F D E. pose proof (wells _ _ _ _ _ _ F) as W. destruct (rounds V RV u b base (top_of v) (VSeq vs) F (tables_top v) (ends_top v)) as [(j & SV & _) _].
  rewrite save_at_seq in SV. destruct (save_list_at V RV (methods_of v) short prefixed None b vs) as [js|] eqn:SL; cbn [bind] in SV; [|discriminate]. apply save_list_at_ok in SL.
  assert (S2 : Forall2 (fun p j => exists r, j = JDict r /\ save_at V RV None b p = Ok (JDict r) /\ well (methods_of v) short prefixed V RV b p) vs js).
  { clear - SL D W. induction SL as [|p j vs js S SL IH]; constructor.
    - apply Forall_inv in D. apply Forall_inv in W. assert (O : exists c fs ext, p = VObj c fs ext) by (destruct D as [(c & fs & ext & -> & _)|(c & fs & ext & -> & _)]; eauto). destruct O as (c & fs & ext & ->).
      pose proof (save_at_kind _ _ _ _ _ _ _ _ _ S) as [r ->]. eauto.
    - apply IH; [apply Forall_inv_tail in D|apply Forall_inv_tail in W]; auto. }
  exists js. split; auto. unfold ShortModel.save_document_at.
  assert (M : mapM (save_top_at V RV (methods_of v) short prefixed [] [] b) vs = Ok js).
  { apply mapM_Ok. eapply F2_impl; [|exact SL]. intros x y X. unfold save_top_at. rewrite X. cbn [bind with_header]. destruct y; auto. }
  rewrite M. cbn [bind]. cbn [ParserModel.save]. match goal with |- bind ?x _ = _ => assert (G : x = Ok js) end.
  { clear. induction js as [|j js IH]; [reflexivity|]. cbn [map ParserModel.save bind]. cbn [map] in IH. rewrite IH. reflexivity. }
  rewrite G. cbn [bind]. assert (FB : forallb is_process (map (Obj true) js) = true) by (clear; induction js; auto). rewrite FB. cbn [andb].
  assert (VS : exists vers, versions js = Ok vers /\ vers <> [] /\ Forall (eq (JStr (version_text v))) vers).
  { assert (VS : exists vers, versions js = Ok vers /\ Forall (eq (JStr (version_text v))) vers /\ (Exists (declares v) vs -> vers <> [])).
    { clear - S2 D version_stays. induction S2 as [|p j vs js (r & -> & S & W) S2 IH]; [exists []; split; auto; split; auto; intros X; inversion X|].
      destruct (IH (Forall_inv_tail D)) as (vers & VE & VF & VN). cbn [versions]. rewrite VE. cbn [bind]. destruct (Forall_inv D) as [DD|UD].
      - rewrite (saved_declares short prefixed v V RV version_stays b p r DD W S). eexists. split; [reflexivity|]. split; [constructor; auto|]. intros _ X. discriminate X.
      - rewrite (saved_undeclared short prefixed v V RV b p r UD W S). exists vers. split; auto. split; auto. intros X. apply Exists_cons in X. destruct X as [X|X]; auto.
        destruct X as (c & fs & ext & -> & X). destruct UD as (c' & fs' & ext' & [= -> -> ->] & Y). destruct Y; congruence. }
    destruct VS as (vers & A & B & C). exists vers. auto. }
  destruct VS as (vers & VE & VN & VF). rewrite VE. cbn [bind]. rewrite (max_version_same (JStr (version_text v)) vers (version_numbers v) VN VF). reflexivity.
Qed.
(** All of it: every process is loaded as it was, declaring the version *)
Theorem C87_list_partial vs b base unchecked :
  FitsAt (vocab (opts v)) (rvocab (opts v)) unchecked b base (top_of v) (VSeq vs) -> (unchecked = true -> no_link_check (opts v) = true) ->
  Forall (fun p => declares v p \/ undeclared p) vs -> Exists (declares v) vs ->
  exists j, save_document_at (vocab (opts v)) (rvocab (opts v)) [] [] b (VSeq vs) = Ok j /\
    (self_contained j -> forall id, LoadsAny j base opts id true (Ok (Many (map (declaring v) vs)))).
Proof.
  intros F U D E. destruct (saved_list _ _ _ _ _ _ F D E) as (js & S2 & SD). eexists. split; [exact SD|]. intros SC id.
  destruct (C86_graph_partial urljoin supported_schemes check_exists fetch_text read_yaml uuid joins checks short prefixed v (VSeq vs) b base (opts v) unchecked vs _ eq_refl F U SD SC) as [_ [n P]].
  split; [discriminate|]. exists n. unfold load_any. apply C32_load_iff. eexists (version_text v), _, (Many vs). split; [|split; [|split]].
  - split; [reflexivity|apply version_supported].
  - left. split; auto.
  - unfold parse_version. rewrite version_named_text, P. reflexivity.
  - exists (map (declaring v) vs). split; auto. apply Stamped_map. apply map_ext_in. intros p I. pose proof (proj1 (Forall_forall _ _) (wells _ _ _ _ _ _ F) p I) as W.
    pose proof (proj1 (Forall_forall _ _) D p I) as DP. assert (O : exists c fs ext, p = VObj c fs ext) by (destruct DP as [(c & fs & ext & -> & _)|(c & fs & ext & -> & _)]; eauto). destruct O as (c & fs & ext & ->).
    destruct W as (m & _ & N & _). symmetry. apply declaring_set. apply (nodup_right _ _ N).
Qed.
(** which is the list as it was if all of them declare it *)
Theorem C87_declared vs b base unchecked V RV : FitsAt V RV unchecked b base (top_of v) (VSeq vs) -> Forall (declares v) vs -> map (declaring v) vs = vs.
Proof.
  intros F D. pose proof (wells _ _ _ _ _ _ F) as W. clear F. induction D as [|p vs (c & fs & ext & -> & D) DS IH]; auto. cbn [map]. rewrite IH by (apply Forall_inv_tail in W; auto). f_equal. apply Forall_inv in W. destruct W as (m & _ & N & _).
  apply declares_already; auto. apply (nodup_right _ _ N).
Qed.
(** One of it: the first process that is found under the name *)
Theorem C87_pick_partial vs b base unchecked pre p post id :
  FitsAt (vocab (opts v)) (rvocab (opts v)) unchecked b base (top_of v) (VSeq vs) -> FitsAt (vocab (opts v)) (rvocab (opts v)) unchecked b base (top_of v) p -> (unchecked = true -> no_link_check (opts v) = true) ->
  Forall (declares v) vs -> vs = pre ++ p :: post ->
  let name := match id with Some i => i | None => "main" end in found_as short b p name -> Forall (fun q => exists other, found_as short b q other /\ other <> name) pre ->
  exists j, save_document_at (vocab (opts v)) (rvocab (opts v)) [] [] b (VSeq vs) = Ok j /\ (self_contained j -> LoadsAny j base opts id false (Ok (One p))).
Proof.
  intros F FP U D -> name NP NQ. destruct (saved_list _ _ _ _ _ _ F) as (js & S2 & SD); [eapply Forall_impl; [|exact D]; auto|apply Exists_exists; exists p; split; [apply in_elt|apply Forall_forall with (x := p) in D; auto; apply in_elt]|].
  eexists. split; [exact SD|]. intros SC. apply Forall2_app_inv_l in S2. destruct S2 as (js1 & js2 & S1 & S2 & ->). inversion S2 as [|? ? ? js3 (r & -> & SP & WP) S3]; subst.
  assert (DP : declares v p) by (apply Forall_forall with (x := p) in D; auto; apply in_elt).
  pose proof (saved_declares short prefixed v _ _ version_stays b p r DP WP SP) as DV.
  destruct DP as (c & fs & ext & -> & _).
  destruct (C86_document_partial urljoin supported_schemes check_exists fetch_text read_yaml uuid joins checks short prefixed v (VObj c fs ext) [] [] b base (opts v) unchecked c fs ext eq_refl) as (j & SJ & L); auto.
  replace (with_namespaces [] (opts v)) with (opts v) in SJ by (destruct (opts v); reflexivity).
  unfold ShortModel.save_document_at, save_top_at in SJ. rewrite SP in SJ. cbn [bind with_header] in SJ. injection SJ as <-.
  assert (SR : self_contained (JDict r)).
  { cbn in SC. destruct SC as [_ [_ [_ [SC _]]]]. clear - SC. induction js1 as [|x js1 IH]; [apply SC|]. cbn [app] in SC. apply IH. apply SC. }
  destruct (L SR) as [_ [n P]]. split; [discriminate|]. exists n. unfold load_any. apply C32_load_iff. eexists (version_text v), (JDict r), (One (VObj c fs ext)). split; [|split; [|split]].
  - split; [reflexivity|apply version_supported].
  - right. split; auto. exists (js1 ++ JDict r :: js3), r. split; [reflexivity|]. split; [|rewrite dset_back; auto].
    exists js1, js3. split; auto. split; [eapply saved_name; eauto|]. clear - S1 NQ. induction S1 as [|q j pre js (rq & -> & SQ & WQ) S1 IH]; constructor.
    + apply Forall_inv in NQ. destruct NQ as (other & A & B). exists other. split; auto. eapply saved_name; eauto.
    + apply Forall_inv_tail in NQ. auto.
  - unfold parse_version. rewrite version_named_text, P. reflexivity.
  - reflexivity.
Qed.
(** and none if none is found under the name *)
Theorem C87_missing vs b base unchecked V RV id :
  FitsAt V RV unchecked b base (top_of v) (VSeq vs) -> Forall (fun p => declares v p \/ undeclared p) vs -> Exists (declares v) vs ->
  Forall (fun q => exists other, found_as short b q other /\ other <> match id with Some i => i | None => "main" end) vs ->
  exists j, save_document_at V RV [] [] b (VSeq vs) = Ok j /\ LoadsAny j base opts id false (Err GraphTargetMissingException).
Proof.
  intros F D E NQ. destruct (saved_list _ _ _ _ _ _ F D E) as (js & S2 & SD). eexists. split; [exact SD|]. split; [discriminate|]. exists 0. unfold load_any. eapply C32_missing_target; [reflexivity|].
  clear - S2 NQ. induction S2 as [|q j vs js (rq & -> & SQ & WQ) S2 IH]; constructor.
  - apply Forall_inv in NQ. destruct NQ as (other & A & B). exists other. split; auto. eapply saved_name; eauto.
  - apply Forall_inv_tail in NQ. auto.
Qed.
End Props.

(** ** Cases that meet the hypotheses *)
Example C87_version_example : forall v b, short_here (version_text v) b (false, None) = version_text v.
Proof. intros v b. unfold short_here. destruct (String.eqb (version_text v) b); auto. destruct v; reflexivity. Qed.
Notation LoadsNear := (TripSpec.LoadsAny file_join ["file"] example_check example_fetch example_yaml example_uuid).
Definition declares_b (v : version) (p : lv) : bool := match p with VObj _ fs _ => match dget "cwlVersion" fs with Some (VStr s) => String.eqb s (version_text v) | _ => false end | _ => false end.
Lemma declares_ok v p : declares_b v p = true -> declares v p.
Proof. destruct p as [| | | | | | |c fs ext]; try discriminate. cbn [declares_b]. destruct (dget "cwlVersion" fs) as [[]|] eqn:D; try discriminate. intros E. apply String.eqb_eq in E. subst. exists c, fs, ext. auto. Qed.
Definition undeclared_b (p : lv) : bool := match p with VObj _ fs _ => match dget "cwlVersion" fs with None | Some VNull => true | _ => false end | _ => false end.
Lemma undeclared_ok p : undeclared_b p = true -> undeclared p.
Proof. destruct p as [| | | | | | |c fs ext]; try discriminate. cbn [undeclared_b]. destruct (dget "cwlVersion" fs) as [[]|] eqn:D; try discriminate; exists c, fs, ext; auto. Qed.
Definition fits_start (v : version) (b : string) (w : lv) : bool :=
  fits_at_b file_join ["file"] example_check (classes_of v) (proxies_of v) short_here prefix_here (vocab (start v)) (rvocab (start v)) false 30 b "file:///a.cwl" (top_of v) w.
Lemma fits_start_ok v b w : fits_start v b w = true -> FitsNear v (start v) b "file:///a.cwl" (top_of v) w.
Proof. unfold fits_start. apply fits_at_ok. Qed.
Definition found_b (b : string) (p : lv) (name : string) : bool :=
  match p with VObj _ fs _ => match dget "id" fs with Some (VStr s) => String.eqb (lstrip_char "#" (short_here s b (true, None))) name | _ => false end | _ => false end.
Lemma found_ok b p name : found_b b p name = true -> found_as short_here b p name.
Proof.
  destruct p as [| | | | | | |c fs ext]; try discriminate. cbn [found_b]. destruct (dget "id" fs) as [[]|] eqn:D; try discriminate. intros E. apply String.eqb_eq in E. exists c, fs, ext, s. split; auto. split; auto. rewrite <- E. apply lstrip_names.
Qed.
Example C87_process_example : forall v b, b = "" \/ b = "file:///a.cwl" -> exists w j,
  FitsNear v (here v) b "file:///a.cwl" (top_of v) w /\ declares v w /\ save_near v (here v) [("ex", "file:///ex#")] [] b w = Ok j /\ self_contained j.
Proof.
  assert (X : forall v b, match load_near v (short_flow v) with Some w => round_near v b && declares_b v w | None => false end = true -> exists w j,
    FitsNear v (here v) b "file:///a.cwl" (top_of v) w /\ declares v w /\ save_near v (here v) [("ex", "file:///ex#")] [] b w = Ok j /\ self_contained j).
  { intros v b. unfold round_near. destruct (load_near v (short_flow v)) as [w|]; [|intros C; discriminate C]. rewrite !andb_true_iff. intros [[F S] D]. destruct (save_near v (here v) _ [] b w) as [j|] eqn:E; [|discriminate S].
    exists w, j. exact (conj (fits_near_ok v b w F) (conj (declares_ok v w D) (conj E (contained_ok j S)))). }
  intros v b H. apply X. destruct H as [-> | ->]; destruct v; vm_compute; reflexivity.
Qed.
Definition lone_tool : json := JDict [("id", JStr "#t"); ("class", JStr "ExpressionTool"); ("inputs", JDict [("x", JStr "int")]); ("outputs", JDict []); ("expression", JStr "$(1)")].
Example C87_unversioned_example : forall v, exists w, FitsNear v (start v) "" "file:///a.cwl" (top_of v) w /\ undeclared w.
Proof.
  assert (X : forall v, match load_near v lone_tool with Some w => fits_start v "" w && undeclared_b w | None => false end = true -> exists w, FitsNear v (start v) "" "file:///a.cwl" (top_of v) w /\ undeclared w).
  { intros v. destruct (load_near v lone_tool) as [w|]; [|intros C; discriminate C]. rewrite andb_true_iff. intros [F D]. exists w. exact (conj (fits_start_ok v "" w F) (undeclared_ok w D)). }
  intros v. apply X. destruct v; vm_compute; reflexivity.
Qed.
Definition trip_graph (v : version) : json :=
  JDict [("cwlVersion", JStr (version_text v)); ("$graph", JList [
    JDict [("id", JStr "#t"); ("cwlVersion", JStr (version_text v)); ("class", JStr "ExpressionTool"); ("inputs", JDict [("x", JStr "int")]); ("outputs", JDict []); ("expression", JStr "$(1)")];
    JDict [("id", JStr "#main"); ("cwlVersion", JStr (version_text v)); ("class", JStr "Workflow"); ("inputs", JDict [("a", JStr "int?")]); ("outputs", JDict []);
      ("steps", JDict [("s", JDict [("run", JStr "t.cwl"); ("in", JDict [("x", JDict [("default", JInt 1)])]); ("out", JList [])])])]])].
Definition pair_near (v : version) (b t m : string) : bool :=
  match load_near v (trip_graph v) with
  | Some (VSeq [q; p]) => fits_start v b (VSeq [q; p]) && fits_start v b p && declares_b v q && declares_b v p && found_b b q t && found_b b p m &&
      match save_near v (start v) [] [] b (VSeq [q; p]) with Ok j => contained j | Err _ => false end
  | _ => false
  end.
Lemma pair_near_ok v b t m : pair_near v b t m = true -> exists q p j,
  FitsNear v (start v) b "file:///a.cwl" (top_of v) (VSeq [q; p]) /\ FitsNear v (start v) b "file:///a.cwl" (top_of v) p /\ declares v q /\ declares v p /\ found_as short_here b q t /\ found_as short_here b p m /\
  save_near v (start v) [] [] b (VSeq [q; p]) = Ok j /\ self_contained j.
Proof.
  unfold pair_near. destruct (load_near v (trip_graph v)) as [[| | | | |[|q [|p []]]| |]|]; try (intros C; discriminate C). rewrite !andb_true_iff. intros [[[[[[F G] D1] D2] N1] N2] S]. destruct (save_near v (start v) [] [] b (VSeq [q; p])) as [j|] eqn:E; [|discriminate S].
  exists q, p, j. exact (conj (fits_start_ok v b _ F) (conj (fits_start_ok v b p G) (conj (declares_ok v q D1) (conj (declares_ok v p D2) (conj (found_ok b q t N1) (conj (found_ok b p m N2) (conj E (contained_ok j S)))))))).
Qed.
(** Saved relative to the document, the processes are found under their names *)
Example C87_pick_example : forall v, exists q p j,
  FitsNear v (start v) "file:///a.cwl" "file:///a.cwl" (top_of v) (VSeq [q; p]) /\ FitsNear v (start v) "file:///a.cwl" "file:///a.cwl" (top_of v) p /\ declares v q /\ declares v p /\
  found_as short_here "file:///a.cwl" q "t" /\ found_as short_here "file:///a.cwl" p "main" /\ save_near v (start v) [] [] "file:///a.cwl" (VSeq [q; p]) = Ok j /\ self_contained j.
Proof. intros v. apply pair_near_ok. destruct v; vm_compute; reflexivity. Qed.
(** ** but saved as [cwl_utils.parser.save] does when no base is given, under their full addresses: the
    main process of a packed document is loaded, but not any more after saving *)
Lemma file_joins : forall b u, (exists r, file_join b u = Ok r) \/ file_join b u = Err ValidationException.
Proof. intros; left; eexists; reflexivity. Qed.
Lemma example_checks : forall u, (exists r, example_check u = Ok r) \/ example_check u = Err ValidationException.
Proof. intros; left; eexists; reflexivity. Qed.
Definition main_near (v : version) : bool :=
  match load_any file_join ["file"] example_check example_fetch example_yaml example_uuid 30 "file:///a.cwl" start (trip_graph v) None false with Ok (One p) => found_b "" p "file:///a.cwl#main" | _ => false end.
Lemma main_near_ok v : main_near v = true -> exists p, LoadsNear (trip_graph v) "file:///a.cwl" start None false (Ok (One p)).
Proof.
  unfold main_near. destruct (load_any _ _ _ _ _ _ _ _ _ _ _ _) as [[p|]|] eqn:E; try (intros C; discriminate C). intros _. exists p. split; [discriminate|]. exists 30. exact E.
Qed.
Theorem C87_main_refuted v : exists vs j p, FitsNear v (start v) "" "file:///a.cwl" (top_of v) (VSeq vs) /\ Forall (declares v) vs /\
  LoadsNear (trip_graph v) "file:///a.cwl" start None false (Ok (One p)) /\
  save_near v (start v) [] [] "" (VSeq vs) = Ok j /\ LoadsNear j "file:///a.cwl" start None false (Err GraphTargetMissingException).
Proof.
  assert (M : main_near v = true) by (destruct v; vm_compute; reflexivity). assert (P : pair_near v "" "file:///a.cwl#t" "file:///a.cwl#main" = true) by (destruct v; vm_compute; reflexivity).
  destruct (main_near_ok v M) as [w MW]. destruct (pair_near_ok v _ _ _ P) as (q & p & j & F & _ & D1 & D2 & N1 & N2 & _ & _).
  destruct (C87_missing file_join ["file"] example_check example_fetch example_yaml example_uuid file_joins example_checks short_here prefix_here v (C87_version_example v) start [q; p] "" "file:///a.cwl" false _ _ None F) as (j' & S & L).
  - repeat constructor; auto.
  - left. auto.
  - constructor; [|constructor; [|constructor]]; eexists; (split; [eassumption|discriminate]).
  - exists [q; p], j', w. exact (conj F (conj (Forall_cons _ D1 (Forall_cons _ D2 (Forall_nil _))) (conj MW (conj S L)))).
Qed.

Print Assumptions C87_process_partial.
Print Assumptions C87_unversioned.
Print Assumptions C87_list_partial.
Print Assumptions C87_declared.
Print Assumptions C87_pick_partial.
Print Assumptions C87_missing.
Print Assumptions C87_main_refuted.
