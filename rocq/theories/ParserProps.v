(** * C32-C35 and C53: loading, saving, reading contents, stream shortcuts *)
From Verif Require Import PyBase PyBaseProofs NameProofs ParserModel ParserSpec ParserProofs Utf8.
From Coq Require Import NArith Lia.

(** ** C32: loading *)
Section Load.
Variables (obj : Type) (parse : string -> json -> result (loaded obj)) (has_version : obj -> bool) (set_version : string -> obj -> obj).
Let load := load_document_by_yaml obj parse has_version set_version.

(** The document is parsed as it is if it has no "$graph" or everything was asked for, and else the
    first process with the wanted name ("main" by default), given the version of the document.  The
    parser is that of the declared version; the objects of a list get that version. *)
Definition Target (d : list (string * json)) (v : string) (id : option string) (load_all : bool) (y : json) : Prop :=
  (dget "$graph" d = None \/ load_all = true) /\ y = JDict d \/
  load_all = false /\ exists els e, dget "$graph" d = Some (JList els) /\
    FirstNamed els (match id with Some i => i | None => "main" end) e /\
    y = JDict (dset "cwlVersion" (JStr v) e).
Definition Stamped (v : string) (r r' : loaded obj) : Prop :=
  match r with
  | One o => r' = One o
  | Many l => exists l', r' = Many l' /\
      Forall2 (fun o o' => (has_version o = true -> o' = set_version v o) /\ (has_version o = false -> o' = o)) l l'
  end.

Lemma Stamped_map v l l' : Forall2 (fun o o' => (has_version o = true -> o' = set_version v o) /\ (has_version o = false -> o' = o)) l l' <->
  l' = map (fun o => if has_version o then set_version v o else o) l.
Proof.
  split.
  - induction 1 as [|o o' l l' [A B] F IH]; auto. cbn [map]. rewrite <- IH. destruct (has_version o); f_equal; auto.
  - intros ->. induction l as [|o l IH]; constructor; auto. destruct (has_version o); split; congruence.
Qed.

Lemma target_step d id load_all : (forall v v0, dget "cwlVersion" d = v0 ->
  forall y, (if dmem "$graph" d && negb load_all then
                 do el <- get_id_from_graph d id;
                 match el with
                 | JDict e => Ok (JDict (dset "cwlVersion" (match v0 with Some v => v | None => JNull end) e))
                 | _ => Err TypeError
                 end
               else Ok (JDict d)) = Ok y -> v0 = Some (JStr v) -> Target d v id load_all y).
Proof.
  intros v v0 V y H ->. unfold Target. destruct (dget "$graph" d) as [g|] eqn:G.
  - assert (M : dmem "$graph" d = true) by (unfold dmem; rewrite G; auto). rewrite M in H. destruct load_all; cbn [negb andb] in H.
    { injection H as <-. left. auto. }
    right. split; auto. unfold get_id_from_graph in H. rewrite G in H.
    destruct (graph_items g) as [els|] eqn:I; [|discriminate]. cbn [bind] in H.
    destruct (find_id _ els) as [el|] eqn:F; [|discriminate]. apply find_id_spec in F. destruct F as (e & -> & F). cbn [bind] in H. injection H as <-.
    destruct g; try discriminate.
    + exfalso. injection I as <-. destruct F as (pre & post & X & _).
      assert (Y : In (JDict e) (map (fun c => JStr (String c "")) (list_ascii_of_string s))) by (rewrite X; apply in_app_iff; right; left; auto).
      apply in_map_iff in Y. destruct Y as (c & Y & _). discriminate.
    + injection I as <-. exists l, e. auto.
    + exfalso. injection I as <-. destruct F as (pre & post & X & _).
      assert (Y : In (JDict e) (map (fun k => JStr k) (dkeys d0))) by (rewrite X; apply in_app_iff; right; left; auto).
      apply in_map_iff in Y. destruct Y as (c & Y & _). discriminate.
  - assert (M : dmem "$graph" d = false).
    { unfold dmem; rewrite G; auto. }
    rewrite M in H. cbn [andb] in H. injection H as <-. left. auto.
Qed.
Lemma target_back d id load_all v y : Target d v id load_all y ->
  (if dmem "$graph" d && negb load_all then
                 do el <- get_id_from_graph d id;
                 match el with
                 | JDict e => Ok (JDict (dset "cwlVersion" (JStr v) e))
                 | _ => Err TypeError
                 end
               else Ok (JDict d)) = Ok y.
Proof.
  intros [[[N| ->] ->]|(-> & els & e & G & F & ->)].
  - assert (M : dmem "$graph" d = false).
    { unfold dmem; rewrite N; auto. }
    rewrite M. auto.
  - rewrite andb_false_r. auto.
  - assert (M : dmem "$graph" d = true) by (unfold dmem; rewrite G; auto). rewrite M. cbn [negb andb].
    unfold get_id_from_graph. rewrite G. cbn [graph_items bind].
    rewrite (proj2 (find_id_spec _ els (JDict e))); [reflexivity|eauto].
Qed.

Theorem C32_load_iff d id load_all r : load (JDict d) id load_all = Ok r <->
  exists v y r0, Declares d v /\ Target d v id load_all y /\ parse v y = Ok r0 /\ Stamped v r0 r.
Proof.
  unfold load, load_document_by_yaml. cbn [cwl_version bind]. split.
  - intros H. destruct (if _ && _ then _ else _) as [y|] eqn:Y in H; [|discriminate]. cbn [bind] in H.
    destruct (match dget "cwlVersion" d with Some (JStr "v1.0") => _ | _ => _ end) as [v|] eqn:V in H; [|discriminate].
    cbn [bind] in H. destruct (parse v y) as [r0|] eqn:P; [|discriminate]. cbn [bind] in H.
    assert (D : dget "cwlVersion" d = Some (JStr v) /\ supported v).
    { unfold supported. destruct (dget "cwlVersion" d) as [[| | | |s| |]|]; try discriminate.
      destruct (String.eqb_spec s "v1.0") as [->|N0]; [injection V as <-; auto|].
      destruct (String.eqb_spec s "v1.1") as [->|N1]; [injection V as <-; auto|].
      destruct (String.eqb_spec s "v1.2") as [->|N2]; [injection V as <-; auto|].
      exfalso. revert V. clear - N0 N1 N2.
      destruct s as [|c s]; [discriminate|]. destruct c as [[] [] [] [] [] [] [] []]; try discriminate.
      destruct s as [|c s]; [discriminate|]. destruct c as [[] [] [] [] [] [] [] []]; try discriminate.
      destruct s as [|c s]; [discriminate|]. destruct c as [[] [] [] [] [] [] [] []]; try discriminate.
      destruct s as [|c s]; [discriminate|]. destruct c as [[] [] [] [] [] [] [] []]; try discriminate;
      destruct s as [|c s]; try discriminate; congruence. }
    exists v, y, r0. split; [exact D|]. split; [|split; auto].
    + eapply target_step; [reflexivity|exact Y|tauto].
    + destruct r0 as [o|l]; injection H as <-; cbn [Stamped]; auto. eexists. split; [reflexivity|]. apply Stamped_map. auto.
  - intros (v & y & r0 & [D S] & T & P & ST). rewrite D. rewrite (target_back _ _ _ _ _ T). cbn [bind].
    assert (V : match v with "v1.0" => Ok "v1.0" | "v1.1" => Ok "v1.1" | "v1.2" => Ok "v1.2" | _ => Err ValidationException end = Ok v).
    { destruct S as [->|[->| ->]]; reflexivity. }
    rewrite V. cbn [bind]. rewrite P. cbn [bind]. destruct r0 as [o|l]; cbn [Stamped] in ST.
    + congruence.
    + destruct ST as (l' & -> & F). apply Stamped_map in F. congruence.
Qed.

(** Which process a graph yields is determined. *)
Theorem C32_target_unique els i e e' : FirstNamed els i e -> FirstNamed els i e' -> e = e'.
Proof using.
  clear. intros A B. assert (X : find_id i els = Ok (JDict e)) by (apply find_id_spec; eauto).
  assert (Y : find_id i els = Ok (JDict e')) by (apply find_id_spec; eauto). congruence.
Qed.

(** A document that is no mapping is refused, and so is one without a supported version. *)
Theorem C32_not_a_mapping y id load_all : (forall d, y <> JDict d) -> load y id load_all = Err ValidationException.
Proof. intros N. unfold load, load_document_by_yaml. destruct y; auto. destruct (N d); auto. Qed.

Theorem C32_version_required d id load_all : (forall v, ~ Declares d v) -> (dget "$graph" d = None \/ load_all = true) ->
  load (JDict d) id load_all = Err ValidationException.
Proof.
  intros N G. unfold load, load_document_by_yaml. cbn [cwl_version bind].
  assert (M : dmem "$graph" d && negb load_all = false).
  { destruct G as [G| ->]; [|apply andb_false_r]. unfold dmem; rewrite G; auto. }
  rewrite M. cbn [bind]. unfold Declares, supported in N. 
  destruct (dget "cwlVersion" d) as [[| | | |s| |]|]; auto.
  destruct (String.eqb_spec s "v1.0") as [->|N0]; [destruct (N "v1.0"); auto|].
  destruct (String.eqb_spec s "v1.1") as [->|N1]; [destruct (N "v1.1"); auto|].
  destruct (String.eqb_spec s "v1.2") as [->|N2]; [destruct (N "v1.2"); auto|].
  match goal with |- bind ?x _ = _ => assert (X : x = Err ValidationException) end.
  { clear - N0 N1 N2.
    destruct s as [|c s]; [reflexivity|]. destruct c as [[] [] [] [] [] [] [] []]; try reflexivity.
    destruct s as [|c s]; [reflexivity|]. destruct c as [[] [] [] [] [] [] [] []]; try reflexivity.
    destruct s as [|c s]; [reflexivity|]. destruct c as [[] [] [] [] [] [] [] []]; try reflexivity.
    destruct s as [|c s]; [reflexivity|]. destruct c as [[] [] [] [] [] [] [] []]; try reflexivity;
    destruct s as [|c s]; try reflexivity; congruence. }
  rewrite X. auto.
Qed.

(** A graph in which no process has the wanted name is refused with its own exception. *)
Theorem C32_missing_target d els id : dget "$graph" d = Some (JList els) ->
  Forall (fun el => exists j, has_name el j /\ j <> match id with Some i => i | None => "main" end) els ->
  load (JDict d) id false = Err GraphTargetMissingException.
Proof.
  intros G F. unfold load, load_document_by_yaml. cbn [cwl_version bind].
  assert (M : dmem "$graph" d = true) by (unfold dmem; rewrite G; auto). rewrite M. cbn [negb andb].
  unfold get_id_from_graph. rewrite G. cbn [graph_items bind]. rewrite (proj2 (find_id_missing _ els)); auto.
Qed.

(** Finding: a name given with its "#" is never found. *)
Theorem C32_hash_never_found els r : ~ exists e, FirstNamed els (String "#" r) e.
Proof using.
  clear. intros (e & pre & post & _ & (e' & s & _ & _ & N) & _). exact (Names_no_hash _ _ N r eq_refl).
Qed.

(** A text is loaded as the document it holds, and anything else as the document it is.  Missing: asking for the whole
    graph of a text. *)
Theorem C32_load_document_partial read_yaml (doc : json) id y load_all :
  (forall s, doc = JStr s -> read_yaml s = Ok y /\ load_all = false) -> ((forall s, doc <> JStr s) -> doc = y) ->
  load_document obj parse has_version set_version read_yaml doc id load_all = load y id load_all.
Proof.
  intros A B. destruct doc; cbn [load_document]; try (rewrite <- B; [reflexivity|discriminate]).
  unfold load_document_by_string. destruct (A _ eq_refl) as (A1 & ->). rewrite A1. reflexivity.
Qed.
(** The version of a document is read from mappings only. *)
Theorem C32_cwl_version y : (forall d, y = JDict d -> cwl_version y = Ok (dget "cwlVersion" d)) /\
  ((forall d, y <> JDict d) -> cwl_version y = Err ValidationException).
Proof using. clear. split; [intros d ->; reflexivity|]. intros N. destruct y; try reflexivity. destruct (N d eq_refl). Qed.
End Load.
Print Assumptions C32_load_iff.
Print Assumptions C32_target_unique.
Print Assumptions C32_not_a_mapping.
Print Assumptions C32_version_required.
Print Assumptions C32_missing_target.
Print Assumptions C32_hash_never_found.
Print Assumptions C32_load_document_partial.
Print Assumptions C32_cwl_version.

Definition a_tool (i : string) : json := JDict [("id", JStr i); ("class", JStr "CommandLineTool")].
Definition a_graph : json := JDict [("cwlVersion", JStr "v1.1"); ("$graph", JList [a_tool "#a"; a_tool "main"; a_tool "##a"])].
Definition keep_parse (v : string) (y : json) : result (loaded json) :=
  match y with
  | JDict d => match dget "$graph" d with Some (JList l) => Ok (Many l) | _ => Ok (One (JList [JStr v; y])) end
  | _ => Err ValidationException
  end.
Definition stamp (v : string) (j : json) : json := match j with JDict d => JDict (dset "cwlVersion" (JStr v) d) | _ => j end.
Example C32_a : load_document_by_yaml json keep_parse (fun _ => true) stamp a_graph (Some "a") false =
  Ok (One (JList [JStr "v1.1"; JDict [("id", JStr "#a"); ("class", JStr "CommandLineTool"); ("cwlVersion", JStr "v1.1")]])).
Proof. reflexivity. Qed.
Example C32_all : exists l, load_document_by_yaml json keep_parse (fun _ => true) stamp a_graph None true = Ok (Many l) /\ List.length l = 3.
Proof. eexists. split; reflexivity. Qed.
Example C32_absent : load_document_by_yaml json keep_parse (fun _ => true) stamp a_graph (Some "b") false = Err GraphTargetMissingException.
Proof. reflexivity. Qed.

(** Finding: for a text, [load_all] has no effect (line 364 does not pass it on): asking for all
    processes of a graph yields one of them, or an error. *)
Theorem C32_text_load_all_refuted : exists read_yaml text y,
  read_yaml text = Ok y /\
  load_document json keep_parse (fun _ => true) stamp read_yaml (JStr text) None true <>
  load_document_by_yaml json keep_parse (fun _ => true) stamp y None true.
Proof. exists (fun _ => Ok a_graph), "text", a_graph. split; [reflexivity|discriminate]. Qed.
Print Assumptions C32_text_load_all_refuted.

(** ** C53: loading by path *)
Section Uri.
Variables (obj : Type) (parse : string -> json -> result (loaded obj)) (has_version : obj -> bool) (set_version : string -> obj -> obj)
  (read_yaml : string -> result json) (read_file fetch : string -> result string).
Let load_uri := load_document_by_uri obj parse has_version set_version read_yaml read_file fetch.
Let load_text := load_document_by_string obj parse has_version set_version read_yaml.
Definition no_control (f : string) : Prop := sforall (fun c => negb (is_unsafe c)) f = true.

Theorem C53_plain_path_partial p load_all : plain_path p ->
  load_uri p load_all = (do text <- read_file p; load_text text None load_all).
Proof.
  intros P. unfold load_uri, load_document_by_uri. rewrite urlparse_plain by auto. cbn [u_fragment u_scheme u_path].
  rewrite unquote_plus_plain by auto. reflexivity.
Qed.
Theorem C53_plain_path_fragment_partial p f load_all : plain_path p -> f <> "" -> no_control f ->
  load_uri (p ++ "#" ++ f) load_all = (do text <- read_file p; load_text text (Some f) load_all).
Proof.
  intros P NE C. unfold load_uri, load_document_by_uri. change ("#" ++ f)%string with (String "#" f). rewrite urlparse_fragment by auto.
  cbn [u_fragment u_scheme u_path]. apply String.eqb_neq in NE. rewrite NE. rewrite unquote_plus_plain by auto. reflexivity.
Qed.
(** The URI of a file, as [Path.as_uri] writes it, is read from the file of that name, whatever
    characters the name has. *)
Theorem C53_file_uri p f load_all : startswith "/" p = true -> no_control f ->
  load_uri ("file://" ++ quote p) load_all = (do text <- read_file p; load_text text None load_all) /\
  (f <> "" -> load_uri ("file://" ++ quote p ++ "#" ++ f) load_all = (do text <- read_file p; load_text text (Some f) load_all)).
Proof.
  intros S C. destruct (urlparse_file_uri p f C S) as [A B]. unfold load_uri, load_document_by_uri.
  change ("#" ++ f)%string with (String "#" f). rewrite A, B. cbn [u_fragment u_scheme u_path]. rewrite unquote_plus_quote. split; auto.
  intros NE. apply String.eqb_neq in NE. rewrite NE. auto.
Qed.
(** A host in the URI is ignored: the file is the one of the path, which ends at a question mark or number sign. *)
Definition host_name (h : string) : Prop := no_control h /\ has_char "/" h = false /\ has_char "?" h = false /\ has_char "#" h = false.
Theorem C53_file_host h p q f load_all : host_name h -> p = "" \/ startswith "/" p = true -> no_control q -> has_char "#" q = false -> no_control f ->
  load_uri ("file://" ++ h ++ quote p) load_all = (do text <- read_file p; load_text text None load_all) /\
  load_uri ("file://" ++ h ++ quote p ++ "?" ++ q) load_all = (do text <- read_file p; load_text text None load_all) /\
  (f <> "" -> load_uri ("file://" ++ h ++ quote p ++ "#" ++ f) load_all = (do text <- read_file p; load_text text (Some f) load_all) /\
              load_uri ("file://" ++ h ++ quote p ++ "?" ++ q ++ "#" ++ f) load_all = (do text <- read_file p; load_text text (Some f) load_all)).
Proof.
  intros (H1 & H2 & H3 & H4) P Q1 Q2 F.
  assert (H : sforall host_char h = true).
  { clear - H1 H2 H3 H4. unfold no_control in H1. induction h as [|c h IH]; auto. cbn [sforall has_char] in *.
    apply andb_true_iff in H1. destruct H1 as (A & B). apply orb_false_iff in H2, H3, H4. destruct H2 as (C1 & C2), H3 as (D1 & D2), H4 as (E1 & E2).
    rewrite IH by auto. unfold host_char. rewrite A, !(Ascii.eqb_sym c), C1, D1, E1. reflexivity. }
  assert (E : forall r, r = "" \/ startswith "?" r = true \/ startswith "#" r = true -> ends_host (quote p ++ r)).
  { intros r R. destruct P as [-> | P]; [cbn; unfold ends_host; tauto|]. right. left. apply startswith_spec in P. destruct P as (z & ->). change (quote ("/" ++ z)) with ("/" ++ quote z)%string. rewrite sapp_assoc. apply startswith_app. }
  assert (Qs : no_control (quote p)) by (apply quoted_safe, quote_chars).
  assert (N1 : has_char "#" (quote p) = false) by (apply quote_no; reflexivity).
  assert (N2 : has_char "?" (quote p) = false) by (apply quote_no; reflexivity).
  assert (Pl : forall r frag, urlparse r = Uri "file" (quote p) frag ->
    load_uri r load_all = (do text <- read_file p; load_text text (if String.eqb frag "" then None else Some frag) load_all)).
  { intros r frag U. unfold load_uri, load_document_by_uri. rewrite U. cbn [u_fragment u_scheme u_path]. rewrite unquote_plus_quote. reflexivity. }
  unfold no_control in *.
  assert (Cb : forall c (a b : string), has_char c a = false -> before c (a ++ String c b) = a /\ after c (a ++ String c b) = b).
  { intros c a b A. unfold before, after. rewrite cut_app by exact A. auto. }
  assert (Cn : forall c a, has_char c a = false -> before c a = a /\ after c a = "").
  { intros c a A. unfold before, after. rewrite cut_none by exact A. auto. }
  split; [|split].
  - rewrite (Pl _ ""); [reflexivity|]. rewrite urlparse_host; auto.
    + destruct (Cn _ _ N1) as (-> & ->), (Cn _ _ N2) as (-> & _). reflexivity.
    + specialize (E "" (or_introl eq_refl)). rewrite sapp_nil_r in E. exact E.
  - rewrite (Pl _ ""); [reflexivity|]. change ("?" ++ q)%string with (String "?" q). rewrite urlparse_host; auto.
    + assert (M : has_char "#" (quote p ++ String "?" q) = false) by (rewrite has_char_app, N1; cbn [has_char]; rewrite Q2; reflexivity).
      destruct (Cn _ _ M) as (-> & ->), (Cb "?"%char _ q N2) as (-> & _). reflexivity.
    + apply E. right. left. cbn. destruct q; reflexivity.
    + rewrite sforall_app, Qs. cbn [sforall]. rewrite Q1. reflexivity.
  - intros NE. apply String.eqb_neq in NE. split; (rewrite (Pl _ f); [rewrite NE; reflexivity|]).
    + change ("#" ++ f)%string with (String "#" f). rewrite urlparse_host; auto.
      * destruct (Cb "#"%char _ f N1) as (-> & ->), (Cn _ _ N2) as (-> & _). reflexivity.
      * apply E. right. right. cbn. destruct f; reflexivity.
      * rewrite sforall_app, Qs. cbn [sforall]. rewrite F. reflexivity.
    + change ("?" ++ q ++ "#" ++ f)%string with (String "?" (q ++ String "#" f)). rewrite urlparse_host; auto.
      * assert (M : has_char "#" (quote p ++ String "?" q) = false) by (rewrite has_char_app, N1; cbn [has_char]; rewrite Q2; reflexivity).
        replace (quote p ++ String "?" (q ++ String "#" f))%string with ((quote p ++ String "?" q) ++ String "#" f)%string by (rewrite sapp_assoc; reflexivity).
        destruct (Cb "#"%char _ f M) as (-> & ->), (Cb "?"%char _ q N2) as (-> & _). reflexivity.
      * apply E. right. left. cbn. destruct (q ++ String "#" f)%string; reflexivity.
      * rewrite sforall_app, Qs. cbn [sforall]. rewrite sforall_app, Q1. cbn [sforall]. rewrite F. reflexivity.
Qed.
(** The scheme may be written in capital letters. *)
Theorem C53_file_case c1 c2 c3 c4 r load_all : In c1 ["f"; "F"]%char -> In c2 ["i"; "I"]%char -> In c3 ["l"; "L"]%char -> In c4 ["e"; "E"]%char ->
  load_uri (String c1 (String c2 (String c3 (String c4 (":" ++ r))))) load_all = load_uri ("file:" ++ r) load_all.
Proof.
  intros [<-|[<-|[]]] [<-|[<-|[]]] [<-|[<-|[]]] [<-|[<-|[]]]; reflexivity.
Qed.
(** A path without "#" given as a [Path] is read from the file of that name, whatever its characters. *)
Theorem C53_path_object p load_all : has_char "#" p = false ->
  load_document_by_path obj parse has_version set_version read_yaml read_file p load_all =
  (do text <- read_file p; load_text text None load_all).
Proof.
  intros H. unfold load_document_by_path. destruct (read_file p); auto. cbn [bind].
  replace (nth_error (split_char "#" (last (split_char "/" p) "")) 1) with (@None string); auto.
  rewrite split_char_none; auto.
  assert (X : forall c d s, has_char c s = false -> Forall (fun x => has_char c x = false) (split_char d s)).
  { clear. intros c d s. induction s as [|x s IH]; cbn [split_char has_char]; intros H; [repeat constructor|].
    apply orb_false_elim in H. destruct H as [A B]. specialize (IH B). destruct (Ascii.eqb x d); [constructor; auto|].
    destruct (split_char d s) as [|h r]; [|inversion_clear IH]; constructor; auto; cbn [has_char]; rewrite A; auto. }
  specialize (X _ "/"%char _ H). destruct (split_char "/" p) as [|h r]; auto. 
  rewrite Forall_forall in X. apply X.
  clear. revert h. induction r as [|h2 r IH]; intros h; [left; auto|]. right. apply (IH h2).
Qed.
End Uri.
Print Assumptions C53_plain_path_partial.
Print Assumptions C53_plain_path_fragment_partial.
Print Assumptions C53_file_uri.
Print Assumptions C53_path_object.
Print Assumptions C53_file_host.
Print Assumptions C53_file_case.
Example C53_host : host_name "localhost:80" /\ no_control "a=b" /\ has_char "#" "a=b" = false.
Proof. repeat split. Qed.
Example C53_plain : plain_path "/a b/wf-1_x.cwl" /\ no_control "main/step:1".
Proof. repeat split. Qed.
Example C53_quote : quote "/a+b?.cwl" = "/a%2Bb%3F.cwl" /\ startswith "/" "/a+b?.cwl" = true.
Proof. split; reflexivity. Qed.

(** Findings: a path is read as a URI, so a local file whose name has one of + ? ; % or a colon is
    not the file that is read. *)
Definition echo_load (path : string) : result (loaded json) :=
  load_document_by_uri json (fun _ y => Ok (One y)) (fun _ => true) stamp
    (fun text => Ok (JDict [("cwlVersion", JStr "v1.2"); ("file", JStr text)])) (fun p => Ok p) (fun u => Ok ("remote: " ++ u)%string) path false.
Definition file_read (r : result (loaded json)) (p : string) : Prop :=
  r = Ok (One (JDict [("cwlVersion", JStr "v1.2"); ("file", JStr p)])).
Theorem C53_path_characters_refuted :
  file_read (echo_load "a+b.cwl") "a b.cwl" /\ file_read (echo_load "a?.cwl") "a" /\ file_read (echo_load "a;b.cwl") "a" /\
  file_read (echo_load "a%20b.cwl") "a b.cwl" /\ file_read (echo_load "a:b.cwl") "remote: a:b.cwl".
Proof. repeat split. Qed.
Print Assumptions C53_path_characters_refuted.

(** Finding: the fragment of a [Path] selects a process, but the file read is the one whose name
    includes the fragment. *)
Theorem C53_path_object_fragment_refuted : forall read_file,
  (forall p text, read_file p = Ok text -> p = "/wf.cwl") ->
  (exists text, read_file "/wf.cwl" = Ok text) ->
  ~ exists r, load_document_by_path json (fun _ y => Ok (One y)) (fun _ => true) stamp
    (fun text => Ok (JDict [("cwlVersion", JStr "v1.2")])) read_file "/wf.cwl#main" false = Ok r.
Proof.
  intros rf H _ (r & E). unfold load_document_by_path in E. destruct (rf "/wf.cwl#main") as [t|] eqn:R; [|discriminate].
  apply H in R. discriminate.
Qed.
Print Assumptions C53_path_object_fragment_refuted.

(** ** C33: saving *)
Definition declared (e : list (string * json)) : option json :=
  match dget "cwlVersion" e with Some JNull => None | v => v end.

Lemma save_seq docs : (fix go (l : list ParserModel.value) : result (list json) :=
                   match l with [] => Ok [] | v :: l => do j <- save true v; do js <- go l; Ok (j :: js) end) (map (fun e => Obj true (JDict e)) docs)
  = Ok (map JDict docs).
Proof. induction docs as [|e docs IH]; auto. cbn [map]. cbn [save bind]. rewrite IH. auto. Qed.

(** Processes that declare versions, at least one of them, are saved as a graph, in order, with the
    newest of the declared versions. *)
Theorem C33_newest_version (docs : list (list (string * json))) :
  (forall e v, In e docs -> declared e = Some v -> exists ns, IsVersion v ns) ->
  (exists e v, In e docs /\ declared e = Some v) ->
  exists latest k, save true (Seq (map (fun e => Obj true (JDict e)) docs)) =
      Ok (JDict [("cwlVersion", latest); ("$graph", JList (map JDict docs))]) /\
    IsVersion latest k /\ (exists e, In e docs /\ declared e = Some latest) /\
    forall e v kv, In e docs -> declared e = Some v -> IsVersion v kv -> at_least kv k.
Proof.
  intros V (e0 & v0 & I0 & D0). cbn [save]. rewrite save_seq. cbn [bind].
  assert (FB : forallb is_process (map (fun e => Obj true (JDict e)) docs) = true).
  { apply forallb_forall. intros x X. apply in_map_iff in X. destruct X as (e & <- & _). auto. }
  rewrite FB. cbn [andb]. rewrite versions_spec. cbn [bind].
  set (vs := flat_map (fun e => match dget "cwlVersion" e with Some JNull | None => [] | Some v => [v] end) docs).
  assert (IN : forall v, In v vs <-> exists e, In e docs /\ declared e = Some v).
  { intros v. unfold vs, declared. rewrite in_flat_map. split.
    - intros (e & I & X). exists e. split; auto. destruct (dget "cwlVersion" e) as [[]|]; cbn in X; intuition congruence.
    - intros (e & I & X). exists e. split; auto. destruct (dget "cwlVersion" e) as [[]|]; try discriminate; injection X as <-; left; auto. }
  assert (OK : Forall (fun v => exists k, version_split v = Ok k) vs).
  { apply Forall_forall. intros v X. apply IN in X. destruct X as (e & I & D). destruct (V e v I D) as (ns & N). exists ns. apply version_split_spec; auto. }
  assert (NE : vs <> []). { intros N. assert (X : In v0 vs) by (apply IN; eauto). rewrite N in X. contradiction. }
  destruct (max_version_ok vs NE OK) as (latest & L). destruct (max_version_spec _ _ L) as (IL & k & K & ALL).
  apply IN in IL. destruct IL as (e & IE & DE). destruct (V e latest IE DE) as (ns & N). pose proof (version_split_spec _ _ N) as N'.
  assert (ns = k) by congruence. subst ns.
  exists latest, k. rewrite L. cbn [bind]. split; auto. split; auto. split; [eauto|].
  intros e1 v1 k1 I1 D1 V1. apply (ALL v1 k1); [apply IN; eauto|apply version_split_spec; auto].
Qed.
Print Assumptions C33_newest_version.
Definition c33_docs : list (list (string * json)) :=
  [[("id", JStr "a"); ("cwlVersion", JStr "v1.0")]; [("id", JStr "b"); ("cwlVersion", JStr "v1.10")]; [("id", JStr "c")]; [("id", JStr "d"); ("cwlVersion", JStr "v1.2")]].
Lemma numeral_dec s : match s with "" => false | _ => sforall is_digit s end = true -> numeral s.
Proof. destruct s; [discriminate|]. intros H. split; [discriminate|auto]. Qed.
Example C33_docs : (forall e v, In e c33_docs -> declared e = Some v -> exists ns, IsVersion v ns) /\
  save true (Seq (map (fun e => Obj true (JDict e)) c33_docs)) =
  Ok (JDict [("cwlVersion", JStr "v1.10"); ("$graph", JList (map JDict c33_docs))]).
Proof.
  split; [|reflexivity]. intros e v I D.
  assert (H : forall a b, numeral a -> numeral b -> exists ns, IsVersion (JStr ("v" ++ sjoin "." [a; b])) ns).
  { intros a b A B. eexists. exists [a; b]. repeat split; auto. discriminate. }
  destruct I as [<-|[<-|[<-|[<-|[]]]]]; cbn in D; try discriminate; injection D as <-.
  - apply (H "1" "0"); apply numeral_dec; reflexivity.
  - apply (H "1" "10"); apply numeral_dec; reflexivity.
  - apply (H "1" "2"); apply numeral_dec; reflexivity.
Qed.

(** The newest version is unique up to its spelling: versions that are at least each other are equal. *)
Theorem C33_newest_unique a b : at_least a b -> at_least b a -> a = b.
Proof.
  revert b. induction a as [|x a IH]; intros [|y b]; cbn [at_least]; auto; try contradiction.
  intros [L|[-> L]] [M|[E M]]; try lia. f_equal; auto.
Qed.
Print Assumptions C33_newest_unique.

(** Anything but a top-level list of processes is saved item by item, in order. *)
Theorem C33_other_lists top l js :
  Forall2 (fun v j => save top v = Ok j) l js -> top = false \/ Exists (fun v => forall j, v <> Obj true j) l ->
  save top (Seq l) = Ok (JList js).
Proof.
  intros F H. cbn [save].
  assert (G : (fix go (l : list ParserModel.value) : result (list json) :=
                   match l with [] => Ok [] | v :: l => do j <- save top v; do js <- go l; Ok (j :: js) end) l = Ok js).
  { clear H. induction F as [|v j l js E F IH]; auto. rewrite E. cbn [bind]. rewrite IH. auto. }
  rewrite G. cbn [bind]. assert (X : top && forallb is_process l = false).
  { destruct H as [->|H]; auto. apply andb_false_iff. right. destruct (forallb is_process l) eqn:B; auto. exfalso.
    rewrite forallb_forall in B. apply Exists_exists in H. destruct H as (v & I & N). specialize (B v I).
    destruct v as [b j| | |]; cbn in B; try discriminate. subst. destruct (N j); auto. }
  rewrite X. auto.
Qed.
Theorem C33_mapping top d js :
  Forall2 (fun kv kj => fst kv = fst kj /\ save false (snd kv) = Ok (snd kj)) d js -> save top (Map d) = Ok (JDict js).
Proof.
  intros F. cbn [save].
  assert (G : (fix go (d : list (string * ParserModel.value)) : result (list (string * json)) :=
                  match d with [] => Ok [] | (k, v) :: d => do j <- save false v; do js <- go d; Ok ((k, j) :: js) end) d = Ok js).
  { induction F as [|[k v] [k' j] d js [K E] F IH]; auto. cbn [fst snd] in *. subst k'. rewrite E. cbn [bind]. rewrite IH. auto. }
  rewrite G. auto.
Qed.
Print Assumptions C33_other_lists.
Print Assumptions C33_mapping.
Example C33_mixed : save true (Seq [Obj true (JStr "p"); Plain (JStr "x")]) = Ok (JList [JStr "p"; JStr "x"]).
Proof. reflexivity. Qed.
Example C33_map_ex : save true (Map [("k", Seq [Plain (JStr "x")])]) = Ok (JDict [("k", JList [JStr "x"])]).
Proof. reflexivity. Qed.

(** Findings: processes of which none declares a version cannot be saved together (also the empty
    list), and neither can one with a development version. *)
Theorem C33_no_version_refuted docs : Forall (fun e => declared e = None) docs ->
  save true (Seq (map (fun e => Obj true (JDict e)) docs)) = Err ValueError.
Proof.
  intros F. cbn [save]. rewrite save_seq. cbn [bind].
  assert (FB : forallb is_process (map (fun e => Obj true (JDict e)) docs) = true).
  { apply forallb_forall. intros x X. apply in_map_iff in X. destruct X as (e & <- & _). auto. }
  rewrite FB. cbn [andb]. rewrite versions_spec. cbn [bind].
  replace (flat_map _ docs) with (@nil json); auto. induction F as [|e docs D F IH]; auto.
  cbn [flat_map]. rewrite <- IH; auto.
  - unfold declared in D. destruct (dget "cwlVersion" e) as [[]|]; auto; discriminate.
Qed.
Theorem C33_dev_version_refuted : exists docs,
  save true (Seq (map (fun e => Obj true (JDict e)) docs)) = Err ValueError /\
  map declared docs = [Some (JStr "v1.2.0-dev1")].
Proof. exists [[("cwlVersion", JStr "v1.2.0-dev1")]]. split; reflexivity. Qed.
Print Assumptions C33_no_version_refuted.
Print Assumptions C33_dev_version_refuted.

(** ** C34: stream shortcuts *)
Section Streams.
Variable digest : tool -> string.
Theorem C34_v1_0 t t' : convert_stdstreams_v1_0 digest t = Ok t' ->
  OutputsConverted t t' /\ t_inputs t' = t_inputs t /\ t_stdin t' = t_stdin t.
Proof.
  intros H. apply convert_outputs_spec in H; auto. destruct H as ((outs & A & F) & I1 & I2 & I3 & I4 & I5 & _).
  cbn [app] in A. subst outs. split; [|auto]. constructor; auto.
Qed.
Theorem C34_v1_2 t t' : convert_stdstreams_v1_2 digest t = Ok t' -> OutputsConverted t t' /\ InputsConverted t t'.
Proof.
  unfold convert_stdstreams_v1_2. intros H. destruct (convert_outputs digest t [] (t_outputs t)) as [t1|] eqn:E; [|discriminate]. cbn [bind] in H.
  destruct (C34_v1_0 _ _ E) as ([O1 O2 O3 O4] & I1 & I2). apply convert_inputs_spec in H; auto.
  destruct H as (A & B & C & D & X). split.
  - constructor; rewrite ?A, ?B, ?C, ?D; auto.
  - destruct X as [[F ->]|(pre & i & post & P & SI & PB & SN & F & Q & S)].
    + apply Inputs_same; auto. rewrite <- I1. auto.
    + eapply Inputs_stdin with (name := short (po_id i)); eauto; try congruence. apply PortName_short.
Qed.
Theorem C34_v1_1 t t' : convert_stdstreams_v1_1 digest t = Ok t' -> OutputsConverted t t' /\ InputsConverted t t'.
Proof. apply C34_v1_2. Qed.

(** Nothing is left to convert, and converting again changes nothing. *)
Lemma out_no_shortcut t t' : OutputsConverted t t' -> Forall (fun o => ~ shortcut "stdout" o /\ ~ shortcut "stderr" o) (t_outputs t').
Proof using.
  intros [F _ _ _]. induction F as [|o o' l l' (A & B & C) F IH]; constructor; auto.
  destruct (is_type "stdout" o) eqn:E1; [|destruct (is_type "stderr" o) eqn:E2].
  - apply is_type_spec in E1. destruct (A E1) as (_ & n & _ & ->). split; discriminate.
  - apply is_type_spec in E2. destruct (B E2) as (_ & n & _ & ->). split; discriminate.
  - apply is_type_false in E1, E2. rewrite (C E1 E2). auto.
Qed.
Theorem C34_no_shortcuts_left t t' : convert_stdstreams_v1_2 digest t = Ok t' ->
  Forall (fun o => ~ shortcut "stdout" o /\ ~ shortcut "stderr" o) (t_outputs t') /\ Forall (fun i => ~ shortcut "stdin" i) (t_inputs t').
Proof.
  intros H. destruct (C34_v1_2 _ _ H) as [O I]. split; [apply (out_no_shortcut t); auto|].
  destruct I as [F E _|pre i post name _ _ _ _ F E _ _]; rewrite E; auto.
  apply Forall_app in F. destruct F as [F1 F2]. apply Forall_app. split; auto. constructor; auto. discriminate.
Qed.
Theorem C34_idempotent t t' :
  (convert_stdstreams_v1_0 digest t = Ok t' -> convert_stdstreams_v1_0 digest t' = Ok t') /\
  (convert_stdstreams_v1_2 digest t = Ok t' -> convert_stdstreams_v1_2 digest t' = Ok t').
Proof.
  split; intros H.
  - apply convert_outputs_done. apply (out_no_shortcut t). apply C34_v1_0. auto.
  - destruct (C34_no_shortcuts_left _ _ H) as [A B]. unfold convert_stdstreams_v1_2. rewrite convert_outputs_done by auto. cbn [bind].
    apply convert_inputs_done. auto.
Qed.

(** Exactly the contradictory descriptions are refused. *)
Theorem C34_refused t e :
  (convert_stdstreams_v1_0 digest t = Err e <-> e = ValidationException /\ bad_output t) /\
  (convert_stdstreams_v1_2 digest t = Err e <-> e = ValidationException /\ (bad_output t \/ bad_input t)).
Proof.
  split; [apply convert_outputs_err|]. unfold convert_stdstreams_v1_2.
  destruct (convert_outputs digest t [] (t_outputs t)) as [t1|x] eqn:E; cbn [bind].
  - destruct (C34_v1_0 _ _ E) as (_ & I1 & I2). rewrite convert_inputs_err, I1, I2. unfold bad_input. split; [tauto|].
    intros [-> [B|B]]; [|auto]. assert (X : convert_outputs digest t [] (t_outputs t) = Err ValidationException) by (apply convert_outputs_err; auto). congruence.
  - pose proof (proj1 (convert_outputs_err _ _ _ _ _) E) as [-> B]. split; [intros H; injection H as <-; auto|]. intros [-> _]. auto.
Qed.

(** The two streams are not sent to one file unless the description says so. *)
Theorem C34_streams_separate t t' : (forall a b, digest a = digest b -> a = b) ->
  t_stdout t = None -> t_stderr t = None -> Exists (shortcut "stdout") (t_outputs t) -> Exists (shortcut "stderr") (t_outputs t) ->
  convert_stdstreams_v1_2 digest t = Ok t' ->
  exists a b, t_stdout t' = Some a /\ t_stderr t' = Some b /\ a <> b.
Proof.
  intros INJ SO SE XO XE H. unfold convert_stdstreams_v1_2 in H. destruct (convert_outputs digest t [] (t_outputs t)) as [t1|] eqn:E; [|discriminate]. cbn [bind] in H.
  apply convert_inputs_spec in H; auto. destruct H as (_ & A & B & _).
  destruct (separate digest (t_outputs t) t [] t1 SO SE eq_refl XO XE E) as (ta & tb & N & S1 & S2).
  exists (digest ta), (digest tb). rewrite A, B. repeat split; auto.
Qed.
End Streams.
Print Assumptions C34_v1_0.
Print Assumptions C34_v1_1.
Print Assumptions C34_v1_2.
Print Assumptions C34_no_shortcuts_left.
Print Assumptions C34_idempotent.
Print Assumptions C34_refused.
Print Assumptions C34_streams_separate.
Definition c34_digest (t : tool) : string := match t_stdout t with Some s => ("e" ++ s)%string | None => "0" end.
Definition c34_tool : tool :=
  Tool [Port "f.cwl#main/n" (JStr "int") None; Port "f.cwl#main/in" (JStr "stdin") None]
    [Port "o" (JStr "stdout") None; Port "x" (JStr "File") (Some (glob_binding "x")); Port "e" (JStr "stderr") None] None (Some "log") None JNull.
Example C34_ex : convert_stdstreams_v1_2 c34_digest c34_tool = Ok (
  Tool [Port "f.cwl#main/n" (JStr "int") None; Port "f.cwl#main/in" (JStr "File") None]
    [Port "o" (JStr "File") (Some (glob_binding "log")); Port "x" (JStr "File") (Some (glob_binding "x")); Port "e" (JStr "File") (Some (glob_binding "elog"))]
    (Some "$(inputs.in.path)") (Some "log") (Some "elog") JNull).
Proof. reflexivity. Qed.
Example C34_bad : convert_stdstreams_v1_2 c34_digest (Tool [] [Port "o" (JStr "stdout") (Some JNull)] None None None JNull) = Err ValidationException.
Proof. reflexivity. Qed.

(** ** C35: reading contents *)
(** In v1.2 the whole file is read if it has at most 64 KiB, and else the reading is refused. *)
Theorem C35_v1_2 f : (N.of_nat (String.length f) <= 65536)%N /\ content_limit_respected_read_bytes_v1_2 f = Ok f \/
  (65536 < N.of_nat (String.length f))%N /\ content_limit_respected_read_bytes_v1_2 f = Err WorkflowException.
Proof.
  unfold content_limit_respected_read_bytes_v1_2, read_bytes, CONTENT_LIMIT.
  rewrite slength_stake. destruct (N.leb_spec (N.of_nat (String.length f)) 65536) as [L|L].
  - left. split; auto. rewrite stake_all by lia. destruct (N.ltb_spec (64 * 1024) (N.of_nat (Nat.min (N.to_nat (64 * 1024 + 1)) (String.length f)))); auto. lia.
  - right. split; auto. destruct (N.ltb_spec (64 * 1024) (N.of_nat (Nat.min (N.to_nat (64 * 1024 + 1)) (String.length f)))); auto. lia.
Qed.
(** In v1.0 and v1.1 the first 64 KiB are read. *)
Theorem C35_v1_0 f : exists contents rest, content_limit_respected_read_bytes_v1_0 f = Ok contents /\ f = (contents ++ rest)%string /\
  (N.of_nat (String.length contents) <= 65536)%N /\ (rest <> "" -> N.of_nat (String.length contents) = 65536%N).
Proof.
  unfold content_limit_respected_read_bytes_v1_0, read_bytes, CONTENT_LIMIT.
  destruct (stake_prefix (N.to_nat (64 * 1024)) f) as (r & E). exists (stake (N.to_nat (64 * 1024)) f), r. split; auto. split; auto.
  pose proof (slength_stake (N.to_nat (64 * 1024)) f) as L. split; [lia|]. intros NE.
  assert (0 < String.length r) by (destruct r; [congruence|cbn; lia]).
  assert (String.length f = String.length (stake (N.to_nat (64 * 1024)) f) + String.length r) by (rewrite E at 1; apply slength_app). lia.
Qed.
(** The text read in v1.2 is the text of the file, if it is UTF-8.  Missing: the same for v1.0 and
    v1.1, where it fails. *)
(** A text within the limit is read if it is UTF-8 and refused if it is not. *)
Theorem C35_text_v1_2 f : (N.of_nat (String.length f) <= 65536)%N ->
  (Utf8 f -> content_limit_respected_read_v1_2 f = Ok f) /\ (~ Utf8 f -> content_limit_respected_read_v1_2 f = Err ValueError).
Proof.
  intros L. rewrite <- utf8_iff. unfold content_limit_respected_read_v1_2. destruct (C35_v1_2 f) as [[_ ->]|[X _]]; [|lia]. cbn [bind]. unfold decode.
  destruct (utf8 f); split; congruence.
Qed.
Theorem C35_text_v1_0_partial f : (N.of_nat (String.length f) <= 65536)%N ->
  (Utf8 f -> content_limit_respected_read_v1_0 f = Ok f) /\ (~ Utf8 f -> content_limit_respected_read_v1_0 f = Err ValueError).
Proof.
  intros L. rewrite <- utf8_iff. unfold content_limit_respected_read_v1_0, content_limit_respected_read_bytes_v1_0, read_bytes, CONTENT_LIMIT. cbn [bind].
  rewrite stake_all by lia. unfold decode. destruct (utf8 f); split; congruence.
Qed.
(** Files of one-byte characters of any size are read as the first 64 KiB. *)
Lemma utf8_ascii s : sforall (fun c => nat_of_ascii c <? 128) s = true -> utf8 s = true.
Proof.
  induction s as [|c s IH]; auto. cbn [sforall]. rewrite andb_true_iff. intros [A B]. cbn [utf8]. unfold between at 1.
  apply Nat.ltb_lt in A. destruct (Nat.leb_spec (nat_of_ascii c) 127); [|lia]. cbn [Nat.leb andb]. auto.
Qed.
Theorem C35_text_v1_0_ascii_partial f : sforall (fun c => nat_of_ascii c <? 128) f = true -> exists contents rest,
  content_limit_respected_read_v1_0 f = Ok contents /\ f = (contents ++ rest)%string /\
  (N.of_nat (String.length contents) <= 65536)%N /\ (rest <> "" -> N.of_nat (String.length contents) = 65536%N).
Proof.
  intros A. destruct (C35_v1_0 f) as (c & r & E & F & L & X). exists c, r. split; auto. unfold content_limit_respected_read_v1_0. rewrite E. cbn [bind].
  unfold decode. rewrite utf8_ascii; auto. rewrite F, sforall_app in A. apply andb_true_iff in A. tauto.
Qed.
Print Assumptions C35_v1_2.
Print Assumptions C35_v1_0.
Print Assumptions C35_text_v1_2.
Print Assumptions C35_text_v1_0_partial.
Print Assumptions C35_text_v1_0_ascii_partial.
(** hello, and the numbers of e with an accent, the euro sign and a clef; the lone byte 195 *)
Example C35_small : content_limit_respected_read_v1_2 "hello" = Ok "hello" /\ Utf8 "hello" /\
  Utf8 (bytes [195; 169; 226; 130; 172; 240; 157; 132; 158]%N) /\ ~ Utf8 (bytes [195]%N).
Proof.
  split; [vm_compute; reflexivity|]. split; [apply utf8_iff; reflexivity|]. split; [exists [233; 8364; 119070]%N; split; [|reflexivity]|].
  - repeat (apply Forall_cons; [unfold scalar; lia|]). constructor.
  - rewrite <- utf8_iff. discriminate.
Qed.

(** Finding: in v1.0 and v1.1 a text with a character across the limit is not read at all. *)
Fixpoint repeat_char (n : nat) (c : ascii) (s : string) : string := match n with O => s | S n => String c (repeat_char n c s) end.
Lemma repeat_utf8 n s : utf8 (repeat_char n "a" s) = utf8 s.
Proof. induction n; auto. Qed.
Lemma stake_repeat n m s : stake (n + m) (repeat_char n "a" s) = repeat_char n "a" (stake m s).
Proof. induction n as [|n IH]; cbn; auto. rewrite IH. auto. Qed.
Definition e_acute : string := String (ascii_of_nat 195) (String (ascii_of_nat 169) "").
Theorem C35_text_v1_0_refuted : exists f, Utf8 f /\ content_limit_respected_read_v1_0 f = Err ValueError.
Proof.
  exists (repeat_char (N.to_nat 65535) "a" e_acute). split.
  - apply utf8_iff. rewrite repeat_utf8. reflexivity.
  - unfold content_limit_respected_read_v1_0, content_limit_respected_read_bytes_v1_0, read_bytes, CONTENT_LIMIT. cbn [bind].
    replace (N.to_nat (64 * 1024)) with (N.to_nat 65535 + 1) by lia. rewrite stake_repeat. unfold decode. rewrite repeat_utf8. reflexivity.
Qed.
Print Assumptions C35_text_v1_0_refuted.
