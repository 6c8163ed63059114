(** * C79: the schema command *)
From Verif Require Import PyBase PyBaseProofs UtilsModel SchemaModel SchemaSpec UtilsProofs SchemaProofs RefactorModel RefactorProofs JsonSpec JsonProofs JsonProofs2 JsonProofs3 JsonProps NormalModel CommandModel CommandSpec.

Lemma lower_is c x : is_lower x = true -> Ascii.eqb x (lower_char c) = true <-> In c [x; upper_char x].
Proof.
  intros L. destruct x as [[] [] [] [] [] [] [] []]; try (exfalso; vm_compute in L; discriminate L); clear L;
    destruct c as [[] [] [] [] [] [] [] []]; vm_compute; split; intros H; try discriminate; auto; destruct H as [H|[H|[]]]; discriminate.
Qed.
Lemma lower_colon c : Ascii.eqb ":" (lower_char c) = true <-> c = ":"%char.
Proof. destruct c as [[] [] [] [] [] [] [] []]; vm_compute; split; intros H; try discriminate; auto. Qed.
Lemma starts_step a p b s : startswith (String a p) (String b s) = Ascii.eqb a b && startswith p s.
Proof. unfold startswith. cbn [String.prefix]. destruct (ascii_dec a b) as [->|N]; [rewrite Ascii.eqb_refl; reflexivity|]. apply Ascii.eqb_neq in N. rewrite N. reflexivity. Qed.
Lemma file_uri_iff s : startswith "file:" (smap lower_char s) = true <-> FileUri s.
Proof.
  unfold FileUri. destruct s as [|f [|i [|l [|e [|c r]]]]].
  1-5: split; [cbn [smap]; rewrite ?starts_step; change (startswith "file:" "") with false; change (startswith "ile:" "") with false; change (startswith "le:" "") with false; change (startswith "e:" "") with false; change (startswith ":" "") with false; rewrite ?andb_false_r; intros H; discriminate H
       |intros (f' & i' & l' & e' & r' & E & _); discriminate E].
  cbn [smap]. rewrite !starts_step. assert (Z : forall s, startswith "" s = true) by (destruct s; reflexivity). rewrite Z, andb_true_r, !andb_true_iff.
  rewrite (lower_is f "f" eq_refl), (lower_is i "i" eq_refl), (lower_is l "l" eq_refl), (lower_is e "e" eq_refl), lower_colon.
  change (upper_char "f") with "F"%char. change (upper_char "i") with "I"%char. change (upper_char "l") with "L"%char. change (upper_char "e") with "E"%char. split.
  - intros (A1 & A2 & A3 & A4 & ->). exists f, i, l, e, r. auto.
  - intros (f' & i' & l' & e' & r' & Q & A1 & A2 & A3 & A4). injection Q as -> -> -> -> -> ->. auto.
Qed.
Lemma file_is_uri s : FileUri s -> AbsoluteUri s.
Proof.
  intros (f & i & l & e & r & -> & F & I' & L & E). exists f, (String i (String l (String e ""))), r. split; [reflexivity|].
  split; [destruct F as [<-|[<-|[]]]; vm_compute; tauto|]. cbn [list_ascii_of_string In]. intros d [<-|[<-|[<-|[]]]].
  - destruct I' as [<-|[<-|[]]]; vm_compute; tauto.
  - destruct L as [<-|[<-|[]]]; vm_compute; tauto.
  - destruct E as [<-|[<-|[]]]; vm_compute; tauto.
Qed.
Lemma path_is_no_uri r : ~ AbsoluteUri (String "/" r).
Proof. intros (c & a & b & E & I' & _). injection E as <- _. vm_compute in I'. repeat (destruct I' as [I'|I']; [discriminate I'|]). exact I'. Qed.
Lemma local_iff s : is_local_uri s = true <-> FileUri s.
Proof.
  unfold is_local_uri. rewrite andb_true_iff, file_uri_iff, is_uri_iff. split; [tauto|]. intros F. split; auto. apply file_is_uri. exact F.
Qed.
Lemma schemadefs_iff reqs sd : SchemaDefs reqs sd <-> first_schemadef reqs = sd.
Proof.
  destruct reqs as [l|]; cbn [first_schemadef].
  - split.
    + intros H. inversion H as [a ts r N|l' N|]; subst.
      * clear H. induction a as [|x a IH]; cbn [app find].
        { cbn [fst]. rewrite String.eqb_refl. reflexivity. }
        pose proof (N x (or_introl eq_refl)) as Nx. apply String.eqb_neq in Nx. rewrite Nx. apply IH. intros y Iy. apply N. right. exact Iy.
      * clear H. induction l as [|x l IH]; cbn [find]; auto.
        pose proof (N x (or_introl eq_refl)) as Nx. apply String.eqb_neq in Nx. rewrite Nx. apply IH. intros y Iy. apply N. right. exact Iy.
    + assert (X : forall l, match find (fun r => String.eqb (fst r) "SchemaDefRequirement") l with
        | Some r => exists a b, l = a ++ ("SchemaDefRequirement", snd r) :: b /\ forall x : string * list type_schema, In x a -> fst x <> "SchemaDefRequirement"
        | None => forall x, In x l -> fst x <> "SchemaDefRequirement" end).
      { clear. induction l as [|[n ts] l IH]; cbn [find fst]; [intros x []|]. destruct (String.eqb_spec n "SchemaDefRequirement") as [->|N].
        - exists [], l. split; [reflexivity|intros x []].
        - destruct (find _ l) as [r|].
          + destruct IH as (a & b & -> & A). exists ((n, ts) :: a), b. split; auto. intros x [<-|I']; auto.
          + intros x [<-|I']; auto. }
      specialize (X l). destruct (find _ l) as [r|]; intros <-; [|constructor; exact X]. destruct X as (a & b & -> & A). constructor. exact A.
  - split; [intros H; inversion H; reflexivity|intros <-; constructor].
Qed.

Section Props.
  Variable template : dict.
  Variable directory : string -> bool.
  Variable path_uri url_path : string -> string.
  Variable status : string -> result Z.
  Variable load : files -> string -> result (process + list process).
  Variable dumps : dict -> result string.
  Variable writable parent_is_dir : string -> bool.
  Notation Located := (Located directory path_uri url_path status).
  Notation get_cwl_url := (get_cwl_url directory path_uri url_path status).
  Notation run := (run template directory path_uri url_path status load dumps parent_is_dir).
  Notation main := (main template directory path_uri url_path status load dumps writable parent_is_dir).

  (** A file can only be opened in a directory that is there *)
  Definition opens_in_directories : Prop := forall p, writable p = true -> parent_is_dir p = true.
  Definition Openable (d : Destination) : Prop := match d with Stdout => True | File_ p => writable p = true end.
  (** The schema of a process: see C18, C19 and C59 *)
  Definition Schema (p : process) (s : dict) : Prop :=
    exists sd, SchemaDefs (pr_requirements p) sd /\ cwl_to_jsonschema template (pr_indexed p) sd (pr_inputs p) = Ok s.

  Lemma there_iff fs p : path_exists directory fs p = true <-> There directory fs p.
  Proof.
    unfold path_exists, There. destruct (fget p fs) as [t|]; split; eauto.
    intros [[t E]|E]; [discriminate E|exact E].
  Qed.
  (** ** The document that is read *)
  Theorem C79_located fs url uri : get_cwl_url fs url = Ok uri <-> Located fs url uri.
  Proof.
    unfold CommandModel.get_cwl_url. split.
    - destruct (is_uri url) eqn:U; cbn [negb].
      + destruct (is_local_uri url) eqn:L.
        * destruct (path_exists directory fs (url_path url)) eqn:E; cbn [negb]; [|discriminate]. intros [= <-]. apply Located_file; [apply local_iff, L|apply there_iff, E].
        * destruct (status url) as [z|] eqn:S; cbn [bind]; [|discriminate]. destruct (Z.eqb_spec z 200) as [->|]; [|discriminate]. intros [= <-]. apply Located_web; auto.
          { apply is_uri_iff, U. } intros F. apply local_iff in F. congruence.
      + destruct (path_exists directory fs url) eqn:E; cbn [negb]; [|discriminate]. destruct (startswith "/" url) eqn:S; [|discriminate]. intros [= <-].
        apply startswith_spec in S. destruct S as [r ->]. constructor. apply there_iff, E.
    - intros H. destruct H as [r T|u F T|u A F S].
      + assert (U : is_uri (String "/" r) = false). { reflexivity. }
        rewrite U. cbn [negb]. apply there_iff in T. rewrite T. destruct r; reflexivity.
      + pose proof (file_is_uri u F) as A. apply is_uri_iff in A. apply local_iff in F. apply there_iff in T. rewrite A, F, T. reflexivity.
      + apply is_uri_iff in A. rewrite A. destruct (is_local_uri u) eqn:L; [exfalso; apply F, local_iff, L|]. rewrite S. reflexivity.
  Qed.
  Lemma schema_iff p s : schema_of template (inl p) = Ok s <-> Schema p s.
  Proof.
    unfold schema_of, Schema. split.
    - intros E. exists (first_schemadef (pr_requirements p)). split; auto. apply schemadefs_iff. reflexivity.
    - intros (sd & S & E). apply schemadefs_iff in S. rewrite S. exact E.
  Qed.
  Definition file_of (d : Destination) : option string := match d with Stdout => None | File_ p => Some p end.
  Lemma main_chosen url out d w : Chosen out d -> Openable d -> main url out w = run url (file_of d) (opened d w).
  Proof.
    intros C O. unfold CommandModel.main. destruct C as [| |p N]; [reflexivity|reflexivity|]. apply String.eqb_neq in N. rewrite N. cbn in O. rewrite O. reflexivity.
  Qed.
  Lemma chosen_total out : exists d, Chosen out d.
  Proof. destruct out as [p|]; [|eexists; constructor]. destruct (String.eqb_spec p "-") as [->|N]; eexists; constructor. exact N. Qed.
  Lemma not_openable url out d w : Chosen out d -> ~ Openable d -> main url out w = (w, Ok 2%Z).
  Proof.
    intros C O. unfold CommandModel.main. destruct C as [| |p N]; [exfalso; apply O; exact I|exfalso; apply O; exact I|]. apply String.eqb_neq in N. rewrite N.
    cbn in O. destruct (writable p); [exfalso; apply O; reflexivity|reflexivity].
  Qed.
  Lemma parent_there d : opens_in_directories -> Openable d -> (match file_of d with Some p => negb (parent_is_dir p) | None => false end) = false.
  Proof. intros H O. destruct d as [|p]; [reflexivity|]. cbn in *. rewrite (H p O). reflexivity. Qed.

  (** ** 0: the schema was written, and nothing else *)
  Theorem C79_zero url out d w w' : opens_in_directories -> Chosen out d ->
    main url out w = (w', Ok 0%Z) <->
    Openable d /\ exists uri p s text, Located (w_files (opened d w)) url uri /\ load (w_files (opened d w)) uri = Ok (inl p) /\
      Schema p s /\ dumps s = Ok text /\ w' = with_text d (text ++ nl) (opened d w).
  Proof.
    intros H C. split.
    - intros E. assert (O : Openable d). { destruct d as [|p]; [exact I|]. cbn. destruct (writable p) eqn:W; auto. rewrite (not_openable url out (File_ p) w C) in E; [discriminate E|]. cbn. congruence. }
      split; auto. rewrite (main_chosen url out d w C O) in E. unfold CommandModel.run in E. destruct (get_cwl_url _ url) as [uri|] eqn:G; [|discriminate E].
      rewrite (parent_there d H O) in E. destruct (load _ uri) as [[p|ps]|] eqn:L; [|discriminate E|discriminate E].
      destruct (schema_of template (inl p)) as [s|] eqn:S; [|discriminate E]. destruct (dumps s) as [text|] eqn:D; [|discriminate E].
      exists uri, p, s, text. apply C79_located in G. apply schema_iff in S. repeat split; auto. destruct d; injection E as <-; reflexivity.
    - intros (O & uri & p & s & text & G & L & S & D & ->). rewrite (main_chosen url out d w C O). unfold CommandModel.run. apply C79_located in G. rewrite G.
      rewrite (parent_there d H O), L. apply schema_iff in S. rewrite S, D. destruct d; reflexivity.
  Qed.
  (** ** The other results: 2 when the output cannot be opened, with nothing done; 1 when the document
      was loaded but there is no schema of it *)
  Theorem C79_two url out d w w' : Chosen out d -> main url out w = (w', Ok 2%Z) <-> ~ Openable d /\ w' = w.
  Proof.
    intros C. split.
    - intros E. assert (O : Openable d \/ ~ Openable d). { destruct d as [|p]; [left; exact I|]. cbn. destruct (writable p); [left; reflexivity|right; discriminate]. }
      destruct O as [O|O]; [|split; auto; rewrite (not_openable url out d w C O) in E; injection E as <-; reflexivity].
      exfalso. rewrite (main_chosen url out d w C O) in E. unfold CommandModel.run in E. destruct (get_cwl_url _ url) as [uri|]; [|discriminate E].
      destruct (match file_of d with Some p => _ | None => _ end); [discriminate E|]. destruct (load _ uri) as [x|]; [|discriminate E].
      destruct (schema_of template x) as [s|]; [|discriminate E]. destruct (dumps s); [|discriminate E]. destruct (file_of d); discriminate E.
    - intros [O ->]. apply (not_openable url out d w C O).
  Qed.
  Theorem C79_one url out d w w' : opens_in_directories -> Chosen out d ->
    main url out w = (w', Ok 1%Z) <->
    Openable d /\ w' = opened d w /\ exists uri x, Located (w_files (opened d w)) url uri /\ load (w_files (opened d w)) uri = Ok x /\
      forall p, x = inl p -> ~ exists s, Schema p s.
  Proof.
    intros H C. split.
    - intros E. assert (O : Openable d). { destruct d as [|p]; [exact I|]. cbn. destruct (writable p) eqn:W; auto. rewrite (not_openable url out (File_ p) w C) in E; [discriminate E|]. cbn. congruence. }
      rewrite (main_chosen url out d w C O) in E. unfold CommandModel.run in E. destruct (get_cwl_url _ url) as [uri|] eqn:G; [|discriminate E].
      rewrite (parent_there d H O) in E. destruct (load _ uri) as [x|] eqn:L; [|discriminate E].
      destruct (schema_of template x) as [s|e] eqn:S; [destruct (dumps s); [destruct d; discriminate E|discriminate E]|].
      injection E as <-. split; auto. split; auto. exists uri, x. apply C79_located in G. split; auto. split; auto. intros p -> (s & Y). apply schema_iff in Y. congruence.
    - intros (O & -> & uri & x & G & L & S). rewrite (main_chosen url out d w C O). unfold CommandModel.run. apply C79_located in G. rewrite G, (parent_there d H O), L.
      destruct x as [p|ps]; [|reflexivity]. destruct (schema_of template (inl p)) as [s|] eqn:Y; [|reflexivity]. exfalso. apply (S p eq_refl). exists s. apply schema_iff, Y.
  Qed.
  Theorem C79_codes url out w w' c : main url out w = (w', Ok c) -> c = 0%Z \/ c = 1%Z \/ c = 2%Z.
  Proof.
    assert (R : forall o v v' k, run url o v = (v', Ok k) -> k = 0%Z \/ k = 1%Z).
    { intros o v v' k. unfold CommandModel.run. destruct (get_cwl_url _ url) as [uri|]; [|discriminate].
      destruct (match o with Some p => _ | None => _ end); [intros [= _ <-]; auto|]. destruct (load _ uri) as [x|]; [|discriminate].
      destruct (schema_of template x) as [s|]; [|intros [= _ <-]; auto]. destruct (dumps s); [|discriminate]. destruct o; intros [= _ <-]; auto. }
    unfold CommandModel.main. destruct out as [p|]; [|intros E; apply R in E; tauto]. destruct (String.eqb p "-"); [intros E; apply R in E; tauto|].
    destruct (writable p); [intros E; apply R in E; tauto|]. intros [= _ <-]. auto.
  Qed.
  Lemma ends url out d w : Chosen out d -> Openable d ->
    (exists text, main url out w = (with_text d text (opened d w), Ok 0%Z)) \/ (fst (main url out w) = opened d w /\ snd (main url out w) <> Ok 0%Z).
  Proof.
    intros C O. rewrite (main_chosen url out d w C O). unfold CommandModel.run. destruct (get_cwl_url _ url) as [uri|]; [|right; split; [reflexivity|discriminate]].
    destruct (match file_of d with Some p => _ | None => _ end); [right; split; [reflexivity|discriminate]|]. destruct (load _ uri) as [x|]; [|right; split; [reflexivity|discriminate]].
    destruct (schema_of template x) as [s|]; [|right; split; [reflexivity|discriminate]]. destruct (dumps s) as [text|]; [|right; split; [reflexivity|discriminate]].
    left. exists (text ++ nl)%string. destruct d; reflexivity.
  Qed.
  (** ** Whatever happens, no file but the output is written, and nothing is printed unless the whole
      schema is *)
  Theorem C79_frame url out w q : out <> Some q -> fget q (w_files (fst (main url out w))) = fget q (w_files w).
  Proof.
    intros N. destruct (chosen_total out) as [d C]. assert (O : Openable d \/ ~ Openable d). { destruct d as [|p]; [left; exact I|]. cbn. destruct (writable p); [left; reflexivity|right; discriminate]. }
    assert (Q : forall p, d = File_ p -> q <> p). { intros p -> ->. inversion C; subst. apply N. reflexivity. }
    assert (X : fget q (w_files (opened d w)) = fget q (w_files w)). { destruct d as [|p]; [reflexivity|]. apply fget_fset_other. exact (Q p eq_refl). }
    destruct O as [O|O]; [|rewrite (not_openable url out d w C O); reflexivity]. destruct (ends url out d w C O) as [(text & E)|[E _]]; rewrite E; cbn [fst]; [|exact X].
    destruct d as [|p]; [exact X|]. cbn [with_text w_files]. rewrite fget_fset_other; [exact X|exact (Q p eq_refl)].
  Qed.
  Theorem C79_printed url out w : snd (main url out w) <> Ok 0%Z \/ (exists p, out = Some p /\ p <> "-") -> w_stdout (fst (main url out w)) = w_stdout w.
  Proof.
    intros H. destruct (chosen_total out) as [d C]. assert (O : Openable d \/ ~ Openable d). { destruct d as [|p]; [left; exact I|]. cbn. destruct (writable p); [left; reflexivity|right; discriminate]. }
    assert (X : w_stdout (opened d w) = w_stdout w) by (destruct d; reflexivity).
    destruct O as [O|O]; [|rewrite (not_openable url out d w C O); reflexivity]. destruct (ends url out d w C O) as [(text & E)|[E _]]; rewrite E in *; cbn [fst snd] in *; [|exact X].
    destruct H as [H|(p & -> & N)]; [exfalso; apply H; reflexivity|]. inversion C; subst; [exfalso; apply N; reflexivity|]. exact X.
  Qed.
  (** ** What is written is the schema, and it accepts the input objects of the process *)
  Theorem C79_accepts_partial url out d w w' loads ref named :
    opens_in_directories -> Chosen out d -> main url out w = (w', Ok 0%Z) ->
    (forall s t, dumps s = Ok t -> loads (t ++ nl)%string = Ok (JDict s)) -> plain_template template ->
    exists uri p schema text, Located (w_files (opened d w)) url uri /\ load (w_files (opened d w)) uri = Ok (inl p) /\
      w' = with_text d text (opened d w) /\ loads text = Ok (JDict schema) /\
      (NoDup (map in_name (pr_inputs p)) ->
       Forall (fun i => proper_record (in_type i) /\ in_type i <> XStr "null" /\ FieldsDistinct (in_type i) /\ definitions_agree ref named (in_type i)) (pr_inputs p) ->
       forall v, accepts ref (JDict schema) v = true <->
         exists o, v = JDict o /\ forall i, In i (pr_inputs p) ->
           (dget (in_name i) o = None -> omittable i) /\
           (forall x, dget (in_name i) o = Some x ->
              (omittable i -> admitted named (with_null (in_type i)) x = true) /\ (~ omittable i -> admitted named (in_type i) x = true))).
  Proof.
    intros H C E Ld Pt. apply (C79_zero url out d w w' H C) in E. destruct E as (O & uri & p & s & text & G & L & (sd & Sd & S) & D & ->).
    exists uri, p, s, (text ++ nl)%string. split; auto. split; auto. split; auto. split; [apply Ld; exact D|]. intros Nd F. apply (C59_input_object ref named template (pr_indexed p) sd (pr_inputs p) s S Nd Pt F).
  Qed.

  (** ** A document that is not there is reported as such; nothing is written *)
  Theorem C79_missing url out d w : Chosen out d -> Openable d -> Missing directory url_path status (w_files (opened d w)) url ->
    main url out w = (opened d w, Err FileNotFoundError).
  Proof.
    intros C O M. rewrite (main_chosen url out d w C O). unfold CommandModel.run, CommandModel.get_cwl_url.
    assert (X : forall p, ~ There directory (w_files (opened d w)) p -> path_exists directory (w_files (opened d w)) p = false).
    { intros p T. destruct (path_exists _ _ p) eqn:E; [|reflexivity]. destruct T. apply there_iff, E. }
    destruct M as [p U T|u F T|u code A F S N].
    - assert (is_uri p = false) as ->. { destruct (is_uri p) eqn:E; auto. exfalso. apply U, is_uri_iff, E. } rewrite (X _ T). reflexivity.
    - pose proof (file_is_uri u F) as A. apply is_uri_iff in A. apply local_iff in F. rewrite A, F, (X _ T). reflexivity.
    - apply is_uri_iff in A. rewrite A. destruct (is_local_uri u) eqn:L; [exfalso; apply F, local_iff, L|]. rewrite S. cbn [negb bind].
      apply Z.eqb_neq in N. rewrite N. reflexivity.
  Qed.

  (** ** Findings *)
  (** A run that fails empties the file that was to be written *)
  Theorem C79_emptied_refuted url p w : p <> "-" -> writable p = true -> snd (main url (Some p) w) <> Ok 0%Z ->
    fget p (w_files (fst (main url (Some p) w))) = Some "".
  Proof.
    intros N W H. assert (C : Chosen (Some p) (File_ p)) by (constructor; exact N). destruct (ends url (Some p) (File_ p) w C W) as [(text & E)|[E _]]; rewrite E in *.
    - exfalso. apply H. reflexivity.
    - apply fget_fset_same.
  Qed.
  (** A relative path is never accepted, although a path to a document that is there is asked for *)
  Theorem C79_relative_refuted url out d w : Chosen out d -> Openable d -> ~ AbsoluteUri url -> (forall r, url <> String "/" r) -> There directory (w_files (opened d w)) url ->
    main url out w = (opened d w, Err ValueError).
  Proof.
    intros C O U R T. rewrite (main_chosen url out d w C O). unfold CommandModel.run, CommandModel.get_cwl_url.
    assert (is_uri url = false) as ->. { destruct (is_uri url) eqn:E; auto. exfalso. apply U, is_uri_iff, E. }
    apply there_iff in T. rewrite T. cbn [negb]. destruct (startswith "/" url) eqn:S; [|reflexivity]. apply startswith_spec in S. destruct S as [r ->]. exfalso. exact (R r eq_refl).
  Qed.
  (** The document named as output: it is lost before it is read *)
  Theorem C79_same_file_refuted r w p e : p = String "/" r -> writable p = true -> parent_is_dir p = true ->
    (forall fs, fget p fs = Some "" -> load fs (path_uri p) = Err e) ->
    exists w', main p (Some p) w = (w', Err e) /\ fget p (w_files w') = Some "".
  Proof.
    intros -> W P L. assert (C : Chosen (Some (String "/" r)) (File_ (String "/" r))) by (constructor; discriminate).
    rewrite (main_chosen _ _ (File_ (String "/" r)) w C W). unfold CommandModel.run. set (p := String "/" r) in *. set (w1 := opened (File_ p) w).
    assert (F : fget p (w_files w1) = Some "") by apply fget_fset_same.
    assert (G : get_cwl_url (w_files w1) p = Ok (path_uri p)). { apply C79_located. constructor. left. eauto. }
    rewrite G. cbn [file_of]. rewrite P. cbn [negb]. rewrite (L _ F). exists w1. split; auto.
  Qed.
End Props.

Module Tool.
  Definition drop7 (u : string) : string := substring 7 (String.length u) u.
  Definition template : dict := [("definitions", JDict [("File", JDict []); ("Directory", JDict [])])].
  Definition reads : process := {| pr_indexed := []; pr_requirements := Some [("InlineJavascriptRequirement", [])];
    pr_inputs := [{| in_id := "file:///w.cwl#a"; in_type := XStr "File"; in_default := JNull; in_doc := JNull |}] |}.
  Definition odd : process := {| pr_indexed := []; pr_requirements := None;
    pr_inputs := [{| in_id := "file:///w.cwl#a"; in_type := XStr "strange"; in_default := JNull; in_doc := JNull |}] |}.
  Definition fs : files := [("/d/w.cwl", "W"); ("/d/o.cwl", "O"); ("/d/g.cwl", "G"); ("w.cwl", "W"); ("/out.json", "before")].
  Definition load (fs : files) (u : string) : result (process + list process) :=
    match fget (if startswith "file://" u then drop7 u else u) fs with
    | Some "W" => Ok (inl reads) | Some "O" => Ok (inl odd) | Some "G" => Ok (inr [reads]) | _ => Err ValidationException end.
  Definition main := main template (fun _ => false) (fun p => "file://" ++ p)%string (fun u => drop7 u) (fun _ => Err OSErrorE) load (fun _ => Ok "{}") (startswith "/") (startswith "/").
End Tool.
(** A run that writes the schema, to a file and to the standard output; then runs that fail *)
Example C79_example : opens_in_directories (startswith "/") (startswith "/") /\ plain_template Tool.template /\
  Tool.main "/d/w.cwl" (Some "/new.json") (World Tool.fs "") = (World (Tool.fs ++ [("/new.json", "{}" ++ nl)%string]) "", Ok 0%Z) /\
  Tool.main "file:///d/w.cwl" (Some "-") (World Tool.fs "x") = (World Tool.fs ("x{}" ++ nl), Ok 0%Z) /\
  snd (Tool.main "/d/o.cwl" None (World Tool.fs "")) = Ok 1%Z /\ snd (Tool.main "/d/g.cwl" None (World Tool.fs "")) = Ok 1%Z /\
  Tool.main "/d/w.cwl" (Some "no/new.json") (World Tool.fs "") = (World Tool.fs "", Ok 2%Z).
Proof.
  split; [intros p H; exact H|]. split; [split; [repeat constructor; cbn; intuition discriminate|]; intros k I'; cbn in I'; destruct I' as [<-|[<-|[<-|[<-|[]]]]]; reflexivity|].
  repeat split; vm_compute; reflexivity.
Qed.
Example C79_accepts_example : NoDup (map in_name (pr_inputs Tool.reads)) /\
  Forall (fun i => proper_record (in_type i) /\ in_type i <> XStr "null" /\ FieldsDistinct (in_type i)) (pr_inputs Tool.reads) /\
  exists s, Schema Tool.template Tool.reads s.
Proof.
  split; [repeat constructor; intros []|]. split.
  - apply Forall_cons; [|apply Forall_nil]. split; [intros ty f E; discriminate E|]. split; [discriminate|constructor].
  - eexists. exists None. split; [apply schemadefs_iff; reflexivity|vm_compute; reflexivity].
Qed.
Example C79_findings_example :
  (exists w', Tool.main "/d/o.cwl" (Some "/out.json") (World Tool.fs "") = (w', Ok 1%Z) /\ fget "/out.json" Tool.fs = Some "before" /\ fget "/out.json" (w_files w') = Some "") /\
  Tool.main "w.cwl" None (World Tool.fs "") = (World Tool.fs "", Err ValueError) /\
  (exists w', Tool.main "/d/w.cwl" (Some "/d/w.cwl") (World Tool.fs "") = (w', Err ValidationException) /\ fget "/d/w.cwl" (w_files w') = Some "").
Proof. repeat split; try (eexists; split; [vm_compute; reflexivity|]; repeat split; reflexivity). Qed.

Example C79_missing_example : Missing (fun _ => false) Tool.drop7 (fun _ => Ok 404%Z) Tool.fs "http://x/w.cwl" /\
  Missing (fun _ => false) Tool.drop7 (fun _ => Ok 404%Z) Tool.fs "File:///d/x.cwl" /\ Missing (fun _ => false) Tool.drop7 (fun _ => Ok 404%Z) Tool.fs "x.cwl" /\
  Tool.main "/d/x.cwl" None (World Tool.fs "") = (World Tool.fs "", Err FileNotFoundError).
Proof.
  split; [|split; [|split; [|reflexivity]]].
  - apply (Missing_web _ _ _ _ _ 404%Z); [apply is_uri_iff; reflexivity | | reflexivity | discriminate]. intros F. apply local_iff in F. discriminate F.
  - apply Missing_file; [apply local_iff; reflexivity|]. intros [(t & E) | E]; discriminate E.
  - apply Missing_path; [|intros [(t & E) | E]; discriminate E]. intros A. apply is_uri_iff in A. discriminate A.
Qed.

Print Assumptions C79_missing.
Print Assumptions C79_located.
Print Assumptions C79_zero.
Print Assumptions C79_two.
Print Assumptions C79_one.
Print Assumptions C79_codes.
Print Assumptions C79_frame.
Print Assumptions C79_printed.
Print Assumptions C79_accepts_partial.
Print Assumptions C79_emptied_refuted.
Print Assumptions C79_relative_refuted.
Print Assumptions C79_same_file_refuted.
