(** * C76, C77: the normalizer and the packer *)
From Verif Require Import PyBase PyBaseProofs UtilsModel PackModel PackSpec PackProofs PackProps RefactorModel RefactorSpec RefactorProofs NormalModel NormalSpec NormalProofs.

Section Props.
  Variable url_scheme url_path : string -> string.
  Variable urljoin : string -> string -> string.
  Variable urlopen : string -> result string.
  Variable parse_yaml : string -> result json.
  Variable ver : Type.
  Variable parse_version : string -> result ver.
  Variable version_gt : ver -> ver -> bool.
  Variable fuel : nat.
  Variable writable : string -> bool.
  Notation pack_file := (pack_file url_scheme url_path urljoin urlopen parse_yaml ver parse_version version_gt fuel).

  Section Normalize.
  Context {P U : Type}.
  Variable parse : string -> result json.
  Variable dump : json -> result string.
  Variable encode : json -> string * option exn.
  Variable upgrade : string -> dict -> U -> files -> files * result (json * U).
  Variable path_uri : string -> string.
  Variable load : json -> string -> result (P + list P).
  Variable traverse : bool -> bool -> bool -> bool -> P -> result P.
  Variable save : P -> result json.
  Variable temporary : files -> string.
  Notation one_document := (one_document url_scheme url_path urljoin urlopen parse_yaml ver parse_version version_gt fuel writable parse dump encode upgrade path_uri load traverse save temporary).
  Notation documents := (documents url_scheme url_path urljoin urlopen parse_yaml ver parse_version version_gt fuel writable parse dump encode upgrade path_uri load traverse save temporary).
  Notation normalize := (normalize url_scheme url_path urljoin urlopen parse_yaml ver parse_version version_gt fuel writable parse dump encode upgrade path_uri load traverse save temporary).
  Notation PackAlone := (PackAlone url_scheme url_path urljoin urlopen parse_yaml ver parse_version version_gt fuel temporary).
  Notation Packed := (Packed dump PackAlone).
  Notation Writes := (Writes parse dump encode upgrade path_uri load traverse save PackAlone writable).
  Notation Normalised := (Normalised parse dump encode upgrade path_uri load traverse save PackAlone writable).
  Notation start := (fun fs u => State fs naming0 u).

  Lemma return_not_zero dir o d (st : @state U) s c : one_document dir o d st = (s, Return c) -> c <> 0%Z.
  Proof. intros E. apply one_return in E. destruct E as (-> & _). discriminate. Qed.
  (** ** The result of a run: 0 when all documents were written, in order, -1 at the first document
      of a version that is not supported, with those before it written and nothing else done *)
  Theorem C76_zero dir o inputs u fs st : normalize dir o inputs u fs = (st, Ok 0%Z) <-> Normalised dir o inputs (start fs u) st.
  Proof. apply documents_zero. apply return_not_zero. Qed.
  Lemma documents_app dir o a b st : documents dir o (a ++ b) st =
    match documents dir o a st with (st1, Ok c) => if Z.eqb c 0 then documents dir o b st1 else (st1, Ok c) | r => r end.
  Proof.
    revert st. induction a as [|d a IH]; intros st; cbn [app NormalModel.documents]; [destruct (documents dir o b st); reflexivity|].
    destruct (one_document dir o d st) as [s1 [k|c|e]] eqn:E; [apply IH| |reflexivity]. apply return_not_zero in E. apply Z.eqb_neq in E. rewrite E. reflexivity.
  Qed.
  Theorem C76_unsupported dir o inputs u fs st : normalize dir o inputs u fs = (st, Ok (-1)%Z) <->
    exists a x b, inputs = a ++ x :: b /\ Normalised dir o a (start fs u) st /\ Unsupported parse (s_files st) x.
  Proof.
    unfold NormalModel.normalize. set (st0 := State fs naming0 u). clearbody st0. split.
    - revert st0. induction inputs as [|d ds IH]; intros st0; cbn [NormalModel.documents]; [discriminate|].
      destruct (one_document dir o d st0) as [s1 [k|c|e]] eqn:E; intros H; [| |discriminate].
      + apply IH in H. destruct H as (a & x & b & -> & N & X). exists (d :: a), x, b. split; auto. split; auto. apply one_next in E. destruct E as (_ & packed & W). econstructor; eauto.
      + injection H as <- ->. apply one_return in E. destruct E as (_ & -> & X). exists [], d, ds. split; auto. split; [constructor|auto].
    - intros (a & x & b & -> & N & X). apply documents_zero in N; [|apply return_not_zero]. rewrite documents_app, N. change (Z.eqb 0 0) with true. cbv iota. cbn [NormalModel.documents].
      assert (E : one_document dir o x st = (st, Return (-1)%Z)) by (apply one_return; auto). rewrite E. reflexivity.
  Qed.
  Theorem C76_codes dir o inputs u fs st c : normalize dir o inputs u fs = (st, Ok c) -> c = 0%Z \/ c = (-1)%Z.
  Proof.
    unfold NormalModel.normalize. generalize (State fs naming0 u). induction inputs as [|d ds IH]; intros st0; cbn [NormalModel.documents]; [intros [= _ <-]; auto|].
    destruct (one_document dir o d st0) as [s1 [k|c'|e]] eqn:E; [apply IH| |discriminate]. apply one_return in E. destruct E as (-> & _). intros [= _ <-]. auto.
  Qed.

  (** ** Only the files named after the documents, in the chosen directory, are written, and what
      the upgrader writes *)
  Definition upgrader_keeps (dir q : string) : Prop := forall d u fs, fget q (fst (upgrade dir d u fs)) = fget q fs.
  Lemma one_frame dir o d st q : upgrader_keeps dir q -> ~ Output dir d q -> fget q (s_files (fst (one_document dir o d st))) = fget q (s_files st).
  Proof.
    intros K N. unfold NormalModel.one_document. destruct (read_file _ _) as [text|]; [|reflexivity]. destruct (parse text) as [[| | | | | |dd]|]; try reflexivity.
    destruct (match dget "cwlVersion" dd with Some (JStr v) => _ | _ => _ end) as [st1 up] eqn:E.
    assert (X : fget q (s_files st1) = fget q (s_files st)).
    { destruct (dget "cwlVersion" dd) as [[| | | |v| |]|]; try (injection E as <- <-; reflexivity). destruct (smem v _).
      - pose proof (K dd (s_imports st) (s_files st)) as Kq. destruct (upgrade dir dd (s_imports st) (s_files st)) as [fs1 [[j1 u1]|]]; injection E as <- <-; exact Kq.
      - destruct (String.eqb v "v1.2"); injection E as <- <-; reflexivity. }
    destruct up as [[j|]|]; try exact X. destruct (bind _ _) as [[packed names]|]; [|exact X]. destruct (writable _); [|exact X]. destruct (encode packed) as [t f].
    cbn [fst with_files s_files]. rewrite fget_fset_other; [exact X|]. intros E1. apply N. apply output_path_Output. symmetry. exact E1.
  Qed.
  Lemma documents_frame dir o inputs st q : upgrader_keeps dir q -> (forall d, In d inputs -> ~ Output dir d q) ->
    fget q (s_files (fst (documents dir o inputs st))) = fget q (s_files st).
  Proof.
    intros K. revert st. induction inputs as [|d ds IH]; intros st N; cbn [NormalModel.documents]; [reflexivity|].
    pose proof (one_frame dir o d st q K (N d (or_introl eq_refl))) as X. destruct (one_document dir o d st) as [s1 [k|c|e]]; cbn [fst] in *; auto.
    rewrite IH; [exact X|]. intros x I. apply N. right. exact I.
  Qed.
  Theorem C76_frame dir o inputs u fs q : upgrader_keeps dir q -> (forall d, In d inputs -> ~ Output dir d q) ->
    fget q (s_files (fst (normalize dir o inputs u fs))) = fget q fs.
  Proof. intros K N. apply (documents_frame dir o inputs (State fs naming0 u) q K N). Qed.
  (** An error at a document: those before it are written, those after it are not looked at *)
  Theorem C76_stops dir o inputs u fs st e : normalize dir o inputs u fs = (st, Err e) ->
    exists a x b st1, inputs = a ++ x :: b /\ Normalised dir o a (start fs u) st1 /\
      forall q, upgrader_keeps dir q -> ~ Output dir x q -> fget q (s_files st) = fget q (s_files st1).
  Proof.
    unfold NormalModel.normalize. generalize (State fs naming0 u). induction inputs as [|d ds IH]; intros st0; cbn [NormalModel.documents]; [discriminate|].
    destruct (one_document dir o d st0) as [s1 [k|c|e']] eqn:E; intros H; [|discriminate|].
    - apply IH in H. destruct H as (a & x & b & st1 & -> & N & X). exists (d :: a), x, b, st1. split; auto. split; auto. apply one_next in E. destruct E as (_ & packed & W). econstructor; eauto.
    - injection H as <- _. exists [], d, ds, st0. split; auto. split; [constructor|]. intros q K N. pose proof (one_frame dir o d st0 q K N) as X. rewrite E in X. exact X.
  Qed.

  (** ** What is written *)
  Lemma Normalised_app dir o a b st st' : Normalised dir o (a ++ b) st st' <-> exists st1, Normalised dir o a st st1 /\ Normalised dir o b st1 st'.
  Proof.
    revert st. induction a as [|d a IH]; intros st; cbn [app].
    - split; [intros N; exists st; split; [constructor|auto]|]. intros (st1 & N1 & N2). inversion N1; subst. exact N2.
    - split.
      + intros N. inversion N as [|d' ds st0 packed s1 s2 W N']; subst. apply IH in N'. destruct N' as (st1 & N1 & N2). exists st1. split; auto. econstructor; eauto.
      + intros (st1 & N1 & N2). inversion N1 as [|d' ds st0 packed s1 s2 W N']; subst. econstructor; [exact W|]. apply IH. eauto.
  Qed.
  (** The file of a document has the JSON text of the packed document, unless a later document has
      the same name *)
  Theorem C76_output dir o a x b st st' p : Normalised dir o (a ++ x :: b) st st' -> Output dir x p ->
    upgrader_keeps dir p -> (forall y, In y b -> ~ Output dir y p) ->
    exists st1 st2 packed text, Normalised dir o a st st1 /\ Writes dir o x st1 packed st2 /\ encode packed = (text, None) /\ fget p (s_files st') = Some text.
  Proof.
    intros N Op K L. apply Normalised_app in N. destruct N as (st1 & N1 & N2). inversion N2 as [|d' ds st0 packed st2 s2 W N3]; subst.
    assert (X : exists text, encode packed = (text, None) /\ fget p (s_files st2) = Some text).
    { inversion W as [d j sti j' name names p' text Dc Up Rw Nm Sl Pk Ep Wr En]; subst. exists text. split; auto. cbn [s_files].
      assert (p = (dir ++ "/" ++ name)%string) as ->; [|apply fget_fset_same].
      apply output_path_Output in Op. rewrite <- Op. unfold output_path. fold (base_name x). rewrite (base_name_spec x name Nm Sl). reflexivity. }
    destruct X as (text & En & F). exists st1, st2, packed, text. repeat split; auto.
    apply documents_zero in N3; [|apply return_not_zero]. pose proof (documents_frame dir o b st2 p K L) as Fr. rewrite N3 in Fr. cbn [fst] in Fr. rewrite Fr. exact F.
  Qed.
  (** What is written is a [$graph], or a document that needs no other *)
  Theorem C76_self_contained_partial dir o x st packed st' : no_file_is_an_import parse_yaml -> classes_are_texts parse_yaml ->
    Writes dir o x st packed st' -> Graph packed \/ exists d, packed = JDict d /\ SelfContained d /\ NoImports (JDict d).
  Proof.
    intros F1 F2 W. inversion W as [d j st1 j' name names p text Dc Up Rw Nm Sl Pk Ep Wr En]; subst.
    inversion Pk as [G|t d' n C G D A]; subst; [left; exact G|]. unfold NormalProofs.PackAlone in A. cbv zeta in A.
    apply (C21_packed_self_contained_partial _ _ _ _ _ _ _ _ _ _ _ _ _ _ F1 F2) in A. destruct A as [[Gr _]|[S NI]].
    - left. destruct (dget "$graph" d') as [v|] eqn:E; [|congruence]. econstructor; eauto.
    - right. eauto.
  Qed.

  (** ** Findings *)
  (** Two documents of the same name: only the last one is left *)
  Theorem C76_same_name_refuted dir o x y st st' p : Normalised dir o [x; y] st st' -> Output dir x p -> Output dir y p -> upgrader_keeps dir p ->
    exists st1 packed text, Writes dir o y st1 packed st' /\ encode packed = (text, None) /\ fget p (s_files st') = Some text.
  Proof.
    intros N Ox Oy K. destruct (C76_output dir o [x] y [] st st' p N Oy K) as (st1 & st2 & packed & text & N1 & W & En & F); [intros z []|].
    exists st1, packed, text. split; auto. inversion N as [|d0 ds0 s0 pk0 s1 s2 W0 N0]; subst. inversion N0 as [|d1 ds1 s3 pk1 s4 s5 W1 N2]; subst. inversion N2; subst.
    inversion N1 as [|d2 ds2 s6 pk2 s7 s8 W2 N3]; subst. inversion N3; subst.
    assert (s1 = st1) as ->.
    { assert (E1 : one_document dir o x st = (s1, Next false)) by (apply one_next; eauto). assert (E2 : one_document dir o x st = (st1, Next false)) by (apply one_next; eauto). congruence. }
    assert (E1 : one_document dir o y st1 = (st', Next false)) by (apply one_next; eauto). assert (E2 : one_document dir o y st1 = (st2, Next false)) by (apply one_next; eauto).
    replace st' with st2 by congruence. exact W.
  Qed.
  (** A value that JSON cannot express (a date, say): the file of the document, which may have been
      there before, is left with only a part of the text *)
  Theorem C76_truncated_refuted dir o x p st d j names packed part e : Document parse (s_files st) x d -> dget "cwlVersion" d = Some (JStr "v1.2") ->
    Rewritten path_uri load traverse save o x (JDict d) j -> Packed (base_name x) (s_files st) (s_names st) j packed names ->
    Output dir x p -> writable p = true -> encode packed = (part, Some e) ->
    forall docs, exists st', documents dir o (x :: docs) st = (st', Err e) /\ fget p (s_files st') = Some part.
  Proof.
    intros (t & F & Ps) V Rw Pk Op Wr En docs. apply output_path_Output in Op. subst p. cbn [NormalModel.documents]. unfold NormalModel.one_document, read_file. rewrite F, Ps, V.
    change (smem "v1.2" _) with false. cbv iota. change (String.eqb "v1.2" "v1.2") with true. cbv iota. apply refactored_spec in Rw. rewrite Rw. cbn [bind].
    apply packed_spec in Pk. rewrite Pk. rewrite Wr, En. eexists. split; [reflexivity|]. apply fget_fset_same.
  Qed.
  Lemma load_alone n path text j fs : url_scheme "" = "" -> url_scheme path = "" -> url_path path = path -> parse_yaml text = Ok j ->
    load_linked_file url_scheme url_path urljoin (read_file (fset path text fs)) urlopen parse_yaml (S n) path "" true = Ok (j, path).
  Proof.
    intros U0 Us Up Y. cbn [load_linked_file]. unfold resolved_path. rewrite U0. change (String.eqb "" "file://") with false. change (String.eqb "" "") with true. cbv iota.
    assert (Lc : local url_scheme path = true) by (unfold local; rewrite Us; reflexivity). rewrite Lc. cbv iota. rewrite Lc, Up. unfold read_file. rewrite fget_fset_same. cbn [bind].
    unfold is_github_symbolic_link. rewrite Lc. cbn [negb andb]. rewrite Y. reflexivity.
  Qed.
  (** A document with [$graph] cannot be normalized, unless its expressions are kept: its processes
      become a list, which cannot be packed *)
  Theorem C76_graph_refuted dir o x st d ps ds text : no_expression_refactoring o = false ->
    Document parse (s_files st) x d -> dget "cwlVersion" d = Some (JStr "v1.2") ->
    load (JDict d) (path_uri x) = Ok (inr ps) -> Forall2 (fun p d => save p = Ok (JDict d)) ps ds ->
    dump (JList (map JDict ds)) = Ok text -> parse_yaml text = Ok (JList (map JDict ds)) -> 0 < fuel ->
    let path := (temporary (s_files st) ++ "/" ++ base_name x)%string in url_scheme "" = "" -> url_scheme path = "" -> url_path path = path ->
    forall docs, documents dir o (x :: docs) st = (st, Err TypeError).
  Proof.
    intros R (t & F & Ps) V L S D Y Fu path U0 Us Up docs. cbn [NormalModel.documents]. unfold NormalModel.one_document, read_file. rewrite F, Ps, V.
    change (smem "v1.2" _) with false. cbv iota. change (String.eqb "v1.2" "v1.2") with true. cbv iota. rewrite R. unfold NormalModel.refactored. rewrite L. cbn [bind].
    assert (M : mapM save ps = Ok (map JDict ds)) by (apply mapM_F2; clear - S; induction S; cbn; constructor; auto). rewrite M. cbn [bind].
    unfold NormalModel.packed_of. assert (T : text_in "$graph" (JList (map JDict ds)) = Ok false).
    { cbn [text_in]. f_equal. clear. induction ds; cbn; auto. }
    rewrite T. cbn [bind]. rewrite D. cbn [bind]. fold path. unfold NormalModel.pack_file, PackModel.pack. destruct fuel as [|n]; [inversion Fu|].
    unfold mbind at 1, lift at 1. rewrite (load_alone n path text _ _ U0 Us Up Y). reflexivity.
  Qed.
  Lemma step_unread n rd base i link s : (forall k b, load_linked_file url_scheme url_path urljoin rd urlopen parse_yaml (S k) base link b = Err FileNotFoundError) ->
    pack_process url_scheme url_path urljoin rd urlopen parse_yaml ver parse_version version_gt (S (S (S (S (S (S n))))))
      (JDict [("cwlVersion", JStr "v1.2"); ("class", JStr "Workflow"); ("inputs", JList []); ("outputs", JList []);
              ("steps", JList [JDict [("id", JStr i); ("run", JStr link); ("in", JList []); ("out", JList [])]])]) base (JStr "v1.2") [] s = Err FileNotFoundError.
  Proof.
    intros X. set (st := JDict [("id", JStr i); ("run", JStr link); ("in", JList []); ("out", JList [])]).
    set (D := [("cwlVersion", JStr "v1.2"); ("class", JStr "Workflow"); ("inputs", JList []); ("outputs", JList []); ("steps", JList [st])]).
    set (D1 := D ++ [("requirements", JList [])]). set (m := S (S (S (S (S n))))).
    change (pack_process url_scheme url_path urljoin rd urlopen parse_yaml ver parse_version version_gt (S m)) with
      (fun cwl base cwl_version parent => match cwl with
        | JDict cwl =>
            let* cwl := lift (listify_everything cwl) in
            let cwl := normalize_sources cwl in
            let* ' (cwl, udt) := lift (load_schemadefs url_scheme url_path urljoin rd urlopen parse_yaml m cwl base parent) in
            let* cwl := resolve_schemadefs url_scheme url_path urljoin rd urlopen parse_yaml m cwl base udt in
            let* cwl := lift (resolve_imports url_scheme url_path urljoin rd urlopen parse_yaml m (JDict cwl) base) in
            match cwl with
            | JDict cwl =>
                let* cwl := resolve_steps url_scheme url_path urljoin rd urlopen parse_yaml ver parse_version version_gt
                  (pack_process url_scheme url_path urljoin rd urlopen parse_yaml ver parse_version version_gt m) m cwl base (get_or "cwlVersion" cwl cwl_version) udt in
                lift (add_missing_requirements cwl)
            | _ => fail TypeError
            end
        | _ => fail AttributeError
        end). cbv beta iota.
    assert (E1 : listify_everything D = Ok D1) by reflexivity.
    assert (E2 : normalize_sources D1 = D1) by reflexivity.
    assert (E3 : load_schemadefs url_scheme url_path urljoin rd urlopen parse_yaml m D1 base [] = Ok (D1, [])) by reflexivity.
    assert (E4 : resolve_schemadefs url_scheme url_path urljoin rd urlopen parse_yaml m D1 base [] s = Ok (D1, s)) by reflexivity.
    assert (E5 : resolve_imports url_scheme url_path urljoin rd urlopen parse_yaml m (JDict D1) base = Ok (JDict D1)) by reflexivity.
    unfold mbind at 1, lift at 1. rewrite E1. cbn [bind]. cbv zeta. rewrite E2. unfold mbind at 1, lift at 1. rewrite E3. cbn [bind]. unfold mbind at 1. rewrite E4. cbn [bind].
    unfold mbind at 1, lift at 1. rewrite E5. cbn [bind]. unfold mbind at 1, resolve_steps. change (negb (get_is "class" "Workflow" D1)) with false. cbv iota.
    change (item "steps" D1) with (@Ok json (JList [st])). unfold mbind at 1, lift at 1. cbn [bind iter]. unfold mbind at 1, lift at 1. cbn [bind]. cbn [resolve_step_list].
    unfold mbind at 1. unfold mbind at 1. unfold resolve_step at 1. unfold st at 1. change (item "id" _) with (@Ok json (JStr i)). unfold mbind at 1, lift at 1. cbn [bind].
    unfold mbind at 1. change (dget "run" _) with (Some (JStr link)). cbv iota. unfold mbind at 1, lift at 1. unfold m at 1. rewrite X. reflexivity.
  Qed.
  (** A workflow that runs a tool of another file cannot be normalized while its expressions are
      kept: it is packed where only the workflow is *)
  Theorem C76_linked_step_refuted dir o x st i link text n : no_expression_refactoring o = true -> fuel = 6 + n ->
    let d := [("cwlVersion", JStr "v1.2"); ("class", JStr "Workflow"); ("inputs", JList []); ("outputs", JList []);
              ("steps", JList [JDict [("id", JStr i); ("run", JStr link); ("in", JList []); ("out", JList [])]])] in
    Document parse (s_files st) x d -> dump (JDict d) = Ok text -> parse_yaml text = Ok (JDict d) ->
    let alone := temporary (s_files st) in let path := (alone ++ "/" ++ base_name x)%string in let tool := (alone ++ "/" ++ link)%string in
    url_scheme "" = "" -> url_scheme path = "" -> url_path path = path -> link <> "" -> url_scheme link = "" ->
    urljoin path link = tool -> url_scheme tool = "" -> url_path tool = tool ->
    link <> base_name x -> fget tool (s_files st) = None ->
    forall docs, documents dir o (x :: docs) st = (st, Err FileNotFoundError).
  Proof.
    intros R Fu d (t & F & Ps) D Y alone path tool U0 Us Up L1 L2 J T1 T2 NB NF docs. cbn [NormalModel.documents]. unfold NormalModel.one_document, read_file. rewrite F, Ps.
    change (dget "cwlVersion" d) with (Some (JStr "v1.2")). cbv iota.
    change (smem "v1.2" _) with false. cbv iota. change (String.eqb "v1.2" "v1.2") with true. cbv iota. rewrite R. cbn [bind].
    unfold NormalModel.packed_of. change (text_in "$graph" (JDict d)) with (@Ok bool false). cbn [bind]. rewrite D. cbn [bind]. fold path.
    unfold NormalModel.pack_file, PackModel.pack. rewrite Fu. cbn [Nat.add]. unfold mbind at 1, lift at 1. rewrite (load_alone _ path text _ _ U0 Us Up Y). cbn [bind].
    change (dmem "$graph" d) with false. cbv iota. change (item "cwlVersion" d) with (@Ok json (JStr "v1.2")).
    unfold mbind at 1, lift at 1. cbn [bind].
    assert (X : forall k s, load_linked_file url_scheme url_path urljoin (read_file (fset path text (s_files st))) urlopen parse_yaml (S k) path link s = Err FileNotFoundError).
    { intros k b. cbn [load_linked_file]. unfold resolved_path. rewrite L2. change (String.eqb "" "file://") with false. change (String.eqb "" "") with true. cbv iota.
      assert (Lp : local url_scheme path = true) by (unfold local; rewrite Us; reflexivity). assert (Lt : local url_scheme tool = true) by (unfold local; rewrite T1; reflexivity).
      rewrite Lp. cbv iota. apply String.eqb_neq in L1. rewrite L1, J, Lt.
      rewrite T2. unfold read_file at 1. rewrite fget_fset_other, NF; [reflexivity|]. unfold tool, path. intros E. apply sapp_inj_l in E. injection E as E. contradiction. }
    unfold d. rewrite (step_unread n (read_file (fset path text (s_files st))) path i link _ X). reflexivity.
  Qed.
  End Normalize.

  (** ** The packer *)
  Variable dumps : Z -> json -> result string.
  Notation pack_cli := (pack_cli url_scheme url_path urljoin urlopen parse_yaml ver parse_version version_gt fuel writable dumps).
  (** [text] is what the packed document is written as *)
  Definition PackedText (fs : files) (cwlfile : string) (indent : Z) (text : string) : Prop :=
    exists d names, pack_file fs cwlfile naming0 = Ok (d, names) /\ dumps indent (JDict d) = Ok text.
  (** A file gets the whole text and a final newline, and nothing else changes; so does the standard
      output when there is no file *)
  Theorem C77_file cwlfile p indent w w' c : pack_cli cwlfile (Some p) indent w = (w', Ok c) <->
    c = 0%Z /\ writable p = true /\ exists text, PackedText (w_files w) cwlfile indent text /\ w' = World (fset p (text ++ String c_nl "") (w_files w)) (w_stdout w).
  Proof.
    unfold NormalModel.pack_cli, PackedText. split.
    - destruct (pack_file (w_files w) cwlfile naming0) as [[d n]|]; cbn [bind]; [|discriminate]. destruct (dumps indent (JDict d)) as [t|] eqn:D; [|discriminate].
      destruct (writable p); [|discriminate]. intros [= <- <-]. split; auto. split; auto. exists t. split; eauto.
    - intros (-> & W & text & (d & n & E & D) & ->). rewrite E. cbn [bind]. rewrite D, W. reflexivity.
  Qed.
  Theorem C77_stdout cwlfile indent w w' c : pack_cli cwlfile None indent w = (w', Ok c) <->
    c = 0%Z /\ exists text, PackedText (w_files w) cwlfile indent text /\ w' = World (w_files w) (w_stdout w ++ text ++ String c_nl "").
  Proof.
    unfold NormalModel.pack_cli, PackedText. split.
    - destruct (pack_file (w_files w) cwlfile naming0) as [[d n]|]; cbn [bind]; [|discriminate]. destruct (dumps indent (JDict d)) as [t|] eqn:D; [|discriminate].
      intros [= <- <-]. split; auto. exists t. split; eauto.
    - intros (-> & text & (d & n & E & D) & ->). rewrite E. cbn [bind]. rewrite D. reflexivity.
  Qed.
  (** An error, in packing, in writing JSON or in opening the file, changes nothing *)
  Theorem C77_failure cwlfile outfile indent w w' e : pack_cli cwlfile outfile indent w = (w', Err e) -> w' = w.
  Proof.
    unfold NormalModel.pack_cli. destruct (bind _ _) as [t|]; [|intros [= <- _]; auto]. destruct outfile as [p|]; [|discriminate]. destruct (writable p); [discriminate|intros [= <- _]; auto].
  Qed.
  Theorem C77_frame cwlfile outfile indent w q : outfile <> Some q -> fget q (w_files (fst (pack_cli cwlfile outfile indent w))) = fget q (w_files w).
  Proof.
    intros N. unfold NormalModel.pack_cli. destruct (bind _ _) as [t|]; [|reflexivity]. destruct outfile as [p|]; [|reflexivity]. destruct (writable p); [|reflexivity].
    cbn [fst w_files]. apply fget_fset_other. congruence.
  Qed.
  Theorem C77_self_contained_partial fs cwlfile indent text : no_file_is_an_import parse_yaml -> classes_are_texts parse_yaml -> PackedText fs cwlfile indent text ->
    exists d, dumps indent (JDict d) = Ok text /\ (Graph (JDict d) \/ SelfContained d /\ NoImports (JDict d)).
  Proof.
    intros F1 F2 (d & n & E & D). exists d. split; auto. apply (C21_packed_self_contained_partial _ _ _ _ _ _ _ _ _ _ _ _ _ _ F1 F2) in E. destruct E as [[Gr _]|[S NI]]; auto.
    left. destruct (dget "$graph" d) as [v|] eqn:G; [|congruence]. econstructor; eauto.
  Qed.
End Props.

(** ** Examples *)
Module Tools.
Definition tool (ty : json) : list (string * json) :=
  [("cwlVersion", JStr "v1.2"); ("class", JStr "CommandLineTool"); ("requirements", JList [JDict [("class", JStr "SchemaDefRequirement"); ("types", JList [JDict [("name", JStr "T"); ("type", JStr "enum"); ("symbols", JList [])]])]]);
   ("inputs", JList [JDict [("id", JStr "a"); ("type", ty)]]); ("outputs", JList [])].
Definition graph : list (string * json) := [("cwlVersion", JStr "v1.2"); ("$graph", JList [JDict (tool (JStr "int"))])].
Definition workflow : list (string * json) :=
  [("cwlVersion", JStr "v1.2"); ("class", JStr "Workflow"); ("inputs", JList []); ("outputs", JList []);
   ("steps", JList [JDict [("id", JStr "s"); ("run", JStr "b.cwl"); ("in", JList []); ("out", JList [])]])].
Definition old : list (string * json) := [("cwlVersion", JStr "v0.9"); ("class", JStr "Workflow")].
(** texts are the names of the documents *)
Definition texts : list (string * json) := [("A", JDict (tool (JStr "T"))); ("B", JDict (tool (JStr "int"))); ("G", JDict graph); ("W", JDict workflow); ("O", JDict old); ("L", JList [JDict (tool (JStr "int"))])].
Definition parse (t : string) : result json := match dget t texts with Some j => Ok j | None => Err ValueError end.
Fixpoint name_of (j : json) (l : list (string * json)) : result string :=
  match l with [] => Err ValueError | (t, k) :: l => if json_eqb j k then Ok t else name_of j l end.
Definition dump (j : json) : result string := name_of j texts.
(** the names of the types in the written document *)
Fixpoint type_names (fuel : nat) (j : json) : string :=
  match fuel with
  | O => ""
  | S n => match j with
           | JDict d => sjoin "" (map (fun kv => (if String.eqb (fst kv) "name" then (match snd kv with JStr s => s | _ => "" end) else "") ++ type_names n (snd kv))%string d)
           | JList l => sjoin "" (map (type_names n) l)
           | _ => ""
           end
  end.
Definition encode (j : json) : string * option exn := (("JSON " ++ type_names 9 j)%string, None).
Definition upgrade (dir : string) (d : dict) (u : unit) (fs : files) : files * result (json * unit) := (fs, Ok (JDict (dset "cwlVersion" (JStr "v1.2") d), u)).
Definition load (j : json) (uri : string) : result (json + list json) :=
  match j with JDict d => match dget "$graph" d with Some (JList l) => Ok (inr l) | _ => Ok (inl j) end | _ => Err ValidationException end.
Definition fs : files := [("in/a.cwl", "A"); ("in/b.cwl", "B"); ("in/g.cwl", "G"); ("in/w.cwl", "W"); ("in/o.cwl", "O"); ("more/a.cwl", "A"); ("more/c.cwl", "A")].
Definition join (b l : string) : string := if startswith "/tmp" b then ("/tmp/x/" ++ l)%string else ("in/" ++ l)%string.
Definition kept : flags := {| etools := false; skip_some1 := false; skip_some2 := false; no_expression_refactoring := true |}.
Definition changed : flags := {| etools := false; skip_some1 := false; skip_some2 := false; no_expression_refactoring := false |}.
Definition run (o : flags) (inputs : list string) : @state unit * result Z :=
  normalize (fun _ => "") (fun s => s) join (fun _ => Err FileNotFoundError) parse nat (fun _ => Ok 0) (fun _ _ => false) 20 (fun _ => true)
    parse dump encode upgrade (fun p => p) load (fun _ _ _ _ p => Ok p) (fun p => Ok p) (fun _ => "/tmp/x") "out" o inputs tt fs.
End Tools.
(** A run of two documents; then one that stops at an unsupported document *)
Example C76_zero_example : exists st, Tools.run Tools.kept ["in/a.cwl"; "in/b.cwl"; "in/g.cwl"] = (st, Ok 0%Z) /\
  fget "out/a.cwl" (s_files st) = Some "JSON T" /\ fget "out/b.cwl" (s_files st) = Some "JSON " /\ fget "out/g.cwl" (s_files st) = Some "JSON T".
Proof. eexists. split; [vm_compute; reflexivity|]. split; [reflexivity|split; reflexivity]. Qed.
Example C76_unsupported_example : exists st, Tools.run Tools.kept ["in/a.cwl"; "in/o.cwl"; "in/b.cwl"] = (st, Ok (-1)%Z) /\
  fget "out/a.cwl" (s_files st) = Some "JSON T" /\ fget "out/b.cwl" (s_files st) = None.
Proof. eexists. split; [vm_compute; reflexivity|]. split; reflexivity. Qed.
(** The two findings, met by the same documents: the graph when expressions are changed, the workflow
    when they are kept (packed where it is it would have been written) *)
Example C76_stops_example : (exists st, Tools.run Tools.changed ["in/a.cwl"; "in/g.cwl"; "in/b.cwl"] = (st, Err TypeError) /\ fget "out/a.cwl" (s_files st) = Some "JSON T" /\ fget "out/g.cwl" (s_files st) = None) /\
  (exists st, Tools.run Tools.kept ["in/b.cwl"; "in/w.cwl"] = (st, Err FileNotFoundError) /\ fget "out/w.cwl" (s_files st) = None) /\
  exists d s, pack (fun _ => "") (fun s => s) Tools.join (read_file Tools.fs) (fun _ => Err FileNotFoundError) Tools.parse nat (fun _ => Ok 0) (fun _ _ => false) 20 "in/w.cwl" naming0 = Ok (d, s).
Proof.
  split; [|split].
  - eexists. split; [vm_compute; reflexivity|]. split; reflexivity.
  - eexists. split; [vm_compute; reflexivity|]. reflexivity.
  - eexists _, _. vm_compute. reflexivity.
Qed.
Example C76_frame_example : upgrader_keeps Tools.upgrade "out" "in/a.cwl" /\ ~ Output "out" "in/b.cwl" "in/a.cwl" /\ Output "out" "in/b.cwl" "out/b.cwl".
Proof.
  split; [intros d u fs; reflexivity|]. split; [intros (n & E & _); discriminate|]. exists "b.cwl". split; auto. split; auto. right. exists "in". reflexivity.
Qed.
(** Finding: what is written for a document depends on the documents before it: the names of its
    types are changed when another document used them *)
Theorem C76_independent_refuted : exists x y st st',
  Tools.run Tools.kept [y] = (st, Ok 0%Z) /\ Tools.run Tools.kept [x; y] = (st', Ok 0%Z) /\
  fget "out/c.cwl" (s_files st) = Some "JSON T" /\ fget "out/c.cwl" (s_files st') <> Some "JSON T" /\ (forall p, Output "out" x p -> ~ Output "out" y p).
Proof.
  exists "in/a.cwl", "more/c.cwl". eexists _, _. split; [vm_compute; reflexivity|]. split; [vm_compute; reflexivity|]. split; [reflexivity|]. split; [discriminate|].
  intros p O1 O2. apply output_path_Output in O1, O2. subst p. discriminate.
Qed.
Example C76_same_name_example : exists st, Tools.run Tools.kept ["in/a.cwl"; "more/a.cwl"] = (st, Ok 0%Z).
Proof. eexists. vm_compute. reflexivity. Qed.
Definition cli (cwlfile : string) (outfile : option string) (w : world) : world * result Z :=
  pack_cli (fun _ => "") (fun s => s) Tools.join (fun _ => Err FileNotFoundError) Tools.parse nat (fun _ => Ok 0) (fun _ _ => false) 20 (fun p => negb (startswith "/" p))
    (fun _ j => match Tools.encode j with (t, None) => Ok t | (_, Some e) => Err e end) cwlfile outfile 4 w.
Example C77_example : cli "in/w.cwl" (Some "out.json") (World Tools.fs "") = (World (Tools.fs ++ [("out.json", "JSON " ++ String c_nl "")%string]) "", Ok 0%Z) /\
  cli "in/w.cwl" None (World Tools.fs "") = (World Tools.fs ("JSON " ++ String c_nl ""), Ok 0%Z) /\
  cli "in/none.cwl" (Some "out.json") (World Tools.fs "") = (World Tools.fs "", Err FileNotFoundError) /\ cli "in/w.cwl" (Some "/x") (World Tools.fs "") = (World Tools.fs "", Err OSErrorE).
Proof. repeat split; vm_compute; reflexivity. Qed.

Print Assumptions C76_zero.
Print Assumptions C76_unsupported.
Print Assumptions C76_codes.
Print Assumptions C76_frame.
Print Assumptions C76_stops.
Print Assumptions C76_output.
Print Assumptions C76_self_contained_partial.
Print Assumptions C76_same_name_refuted.
Print Assumptions C76_truncated_refuted.
Print Assumptions C76_graph_refuted.
Print Assumptions C76_linked_step_refuted.
Print Assumptions C77_file.
Print Assumptions C77_stdout.
Print Assumptions C77_failure.
Print Assumptions C77_frame.
Print Assumptions C77_self_contained_partial.
Print Assumptions C76_independent_refuted.
