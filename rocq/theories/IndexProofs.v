(** * Lemmas about loading with an index *)
From Verif Require Import PyBase PyBaseProofs ParserModel ParserProofs LoaderModel LoaderProofs IndexModel IndexSpec.
From Coq Require Import Lia.

(** ** Histories *)
Lemma happened_app N L e E : happened L e E -> happened (N ++ L) e E.
Proof. intros [l ->]. exists (N ++ l). apply app_assoc. Qed.
Lemma happened_cons x L e E : happened (x :: L) e E -> (x = e /\ L = E) \/ happened L e E.
Proof. intros [[|y l] H]; cbn in H; injection H as -> ->; [left; auto|right; exists l; reflexivity]. Qed.
Lemma happened_nil e E : ~ happened [] e E.
Proof. intros [[|] H]; discriminate H. Qed.
Lemma settled_app N L : settled (N ++ L) -> settled L.
Proof. intros S u r E v H. apply (S u r E v). apply happened_app, H. Qed.
Lemma idx_get_wrote k L v : idx_get k L = Some v -> In (Wrote k v) L.
Proof.
  induction L as [|e L IH]; cbn [idx_get]; [discriminate|]. destruct e as [k' v'| |]; [|right; auto..].
  destruct (String.eqb k k') eqn:E; [|right; auto]. apply String.eqb_eq in E. intros [= ->]. subst. left. reflexivity.
Qed.
Lemma idx_get_none k L v : idx_get k L = None -> ~ In (Wrote k v) L.
Proof.
  induction L as [|e L IH]; cbn [idx_get]; intros N I; [destruct I|]. destruct I as [-> |I].
  - rewrite String.eqb_refl in N. discriminate N.
  - destruct e; try (apply IH; auto; fail). destruct (String.eqb k key); [discriminate N|]. apply IH; auto.
Qed.
(** What the index of the code knows was also written when every import is read *)
Definition sub (Lt Lf : log) : Prop := forall k v, idx_get k Lt = Some v -> In (Wrote k v) Lf.
Lemma sub_same e Lt Lf : sub Lt Lf -> sub (e :: Lt) (e :: Lf).
Proof.
  intros S k v. cbn [idx_get]. destruct e as [k' v'| |]; try (intros H; right; apply S, H).
  destruct (String.eqb k k') eqn:E; [|intros H; right; apply S, H]. apply String.eqb_eq in E. intros [= ->]. subst. left. reflexivity.
Qed.
Lemma sub_more N Lt Lf : sub Lt Lf -> sub Lt (N ++ Lf).
Proof. intros S k v H. apply in_or_app. right. apply S, H. Qed.
Lemma sub_asked u r u' r' Lt Lf : sub Lt Lf -> sub (Asked u r :: Lt) (Asked u' r' :: Lf).
Proof. intros S k v H. right. apply S, H. Qed.

(** ** Three ways of loading: without an index, with one, and with one that is only written *)
(** What an address with a fragment, or a file with only a text in it, gives is not in LoaderModel *)
Definition outside {A} (r : result A) : Prop := r = Err NotImplementedError \/ r = Err KeyError.
Definition tri {A} (r : result A) (mt mf : SM A) : Prop :=
  outside r \/ forall Lt Lf, sub Lt Lf ->
    fst (mf Lf) = r /\ (exists N, snd (mf Lf) = N ++ Lf) /\ (settled (snd (mf Lf)) -> fst (mt Lt) = r /\ sub (snd (mt Lt)) (snd (mf Lf))).
Lemma outside_bind {A B} (r : result A) (f : A -> result B) : outside r -> outside (bind r f).
Proof. intros [-> | ->]; [left|right]; reflexivity. Qed.
Lemma tri_lift {A} (r : result A) : tri r (lift r) (lift r).
Proof. right. intros Lt Lf S. cbn. split; [reflexivity|]. split; [exists []; reflexivity|]. auto. Qed.
Lemma tri_bind {A B} (r : result A) mt mf (f : A -> result B) (gt gf : A -> SM B) :
  tri r mt mf -> (forall a, tri (f a) (gt a) (gf a)) -> tri (bind r f) (sbind mt gt) (sbind mf gf).
Proof.
  intros [O|H] K; [left; apply outside_bind, O|]. destruct r as [a|e]; cbn [bind].
  - destruct (K a) as [O|Ka]; [left; exact O|]. right. intros Lt Lf S. unfold sbind. destruct (H Lt Lf S) as (E & [N G] & T).
    destruct (mf Lf) as [x Lf1]; cbn [fst snd] in *; subst x Lf1.
    assert (X : settled (N ++ Lf) -> fst (gf a (N ++ Lf)) = f a /\ (exists M, snd (gf a (N ++ Lf)) = M ++ N ++ Lf) /\ (settled (snd (gf a (N ++ Lf))) -> fst (let (r, L) := mt Lt in match r with Ok a => gt a L | Err e => (Err e, L) end) = f a /\ sub (snd (let (r, L) := mt Lt in match r with Ok a => gt a L | Err e => (Err e, L) end)) (snd (gf a (N ++ Lf))))).
    { intros Z. destruct (T Z) as [T1 T2]. destruct (mt Lt) as [y Lt1]; cbn [fst snd] in *; subst y. apply Ka, T2. }
    destruct (Ka Lf (N ++ Lf)) as (E2 & [M G2] & _). { intros k v Y. apply in_or_app; right. apply idx_get_wrote, Y. }
    split; [exact E2|]. split; [exists (M ++ N); rewrite <- app_assoc; exact G2|]. intros Z. rewrite G2 in Z.
    destruct (X (settled_app _ _ Z)) as (_ & _ & X3). rewrite G2 in X3. rewrite G2. apply X3, Z.
  - right. intros Lt Lf S. unfold sbind. destruct (H Lt Lf S) as (E & [N G] & T).
    destruct (mf Lf) as [x Lf1]; cbn [fst snd] in *; subst x Lf1. split; [reflexivity|]. split; [exists N; reflexivity|]. intros Z. destruct (T Z) as [T1 T2].
    destruct (mt Lt) as [y Lt1]; cbn [fst snd] in *; subst y. auto.
Qed.
Lemma tri_lbind {A B} (r : result A) (f : A -> result B) gt gf : (forall a, tri (f a) (gt a) (gf a)) -> tri (bind r f) (sbind (lift r) gt) (sbind (lift r) gf).
Proof. apply tri_bind, tri_lift. Qed.
Lemma tri_noted {A} (r : result A) mt mf : tri r mt mf -> tri (noted r) (noted_s mt) (noted_s mf).
Proof.
  intros [[-> | ->]|H]; [left; left; reflexivity|left; right; reflexivity|]. right. intros Lt Lf S. unfold noted_s. destruct (H Lt Lf S) as (E & [N G] & T).
  destruct (mf Lf) as [x Lf1]; cbn [fst snd] in *; subst x Lf1. split; [reflexivity|]. split; [exists N; reflexivity|]. intros Z. destruct (T Z) as [T1 T2].
  destruct (mt Lt) as [y Lt1]; cbn [fst snd] in *; subst y. auto.
Qed.
Lemma tri_note e {A} (r : result A) mt mf : tri r mt mf -> tri r (sbind (note e) (fun _ => mt)) (sbind (note e) (fun _ => mf)).
Proof.
  intros [O|H]; [left; exact O|]. right. intros Lt Lf S. unfold sbind, note. destruct (H (e :: Lt) (e :: Lf) (sub_same e _ _ S)) as (E & [N G] & T).
  split; [exact E|]. split; [exists (N ++ [e]); rewrite G, <- app_assoc; reflexivity|exact T].
Qed.
Lemma tri_elements f gt gf fl : (forall d, tri (f d) (gt d) (gf d)) -> forall ds fields, tri (load_elements f fl fields ds) (load_elements_s gt fl fields ds) (load_elements_s gf fl fields ds).
Proof.
  intros H ds. induction ds as [|d ds IH]; intros fields; cbn [load_elements load_elements_s]; [apply tri_lift|].
  apply tri_bind; [apply tri_noted, H|]. intros lf.
  destruct (match lf with Some _ => _ | None => _ end) as [fields' dup]. apply tri_bind; [apply IH|]. intros rest. apply tri_lift.
Qed.
Lemma tri_values f gt gf : (forall d, tri (f d) (gt d) (gf d)) -> forall ds, tri (load_values f ds) (load_values_s gt ds) (load_values_s gf ds).
Proof.
  intros H ds. induction ds as [|[k d] ds IH]; cbn [load_values load_values_s]; [apply tri_lift|].
  apply tri_bind; [apply tri_noted, H|]. intros lf. apply tri_bind; [apply IH|]. intros rest. apply tri_lift.
Qed.
Lemma first_other m ms L r L' : m tt L = (r, L') -> r <> Err ValidationException -> first_of_s (m :: ms) L = (r, L').
Proof. intros E H. cbn [first_of_s]. rewrite E. destruct r as [|[]]; try reflexivity. destruct (H eq_refl). Qed.
Lemma first_refused m ms L L' : m tt L = (Err ValidationException, L') -> first_of_s (m :: ms) L = first_of_s ms L'.
Proof. intros E. cbn [first_of_s]. rewrite E. reflexivity. Qed.
Lemma tri_first_cons r1 m1t m1f rs mst msf : tri (r1 tt) (m1t tt) (m1f tt) -> tri (first_of rs) (first_of_s mst) (first_of_s msf) ->
  tri (first_of (r1 :: rs)) (first_of_s (m1t :: mst)) (first_of_s (m1f :: msf)).
Proof.
  intros [O|H] K. { left. cbn [first_of]. destruct O as [-> | ->]; [left|right]; reflexivity. }
  assert (D : r1 tt = Err ValidationException \/ r1 tt <> Err ValidationException) by (destruct (r1 tt) as [|[]]; try (right; discriminate); left; reflexivity).
  destruct D as [D|D].
  - assert (Fo : first_of (r1 :: rs) = first_of rs) by (cbn [first_of]; rewrite D; reflexivity). rewrite Fo. rewrite D in H.
    destruct K as [O|K]; [left; exact O|]. right. intros Lt Lf S. destruct (H Lt Lf S) as (E & [N G] & T).
    destruct (m1f tt Lf) as [x Lf1] eqn:F1; cbn [fst snd] in *; subst x Lf1. rewrite (first_refused _ _ _ _ F1).
    destruct (K (N ++ Lf) (N ++ Lf)) as (E2 & [M G2] & _). { intros k v. apply idx_get_wrote. }
    split; [exact E2|]. split; [exists (M ++ N); rewrite <- app_assoc; exact G2|]. intros Z. pose proof Z as Z'. rewrite G2 in Z'.
    destruct (T (settled_app _ _ Z')) as [T1 T2]. destruct (m1t tt Lt) as [y Lt1] eqn:F2; cbn [fst snd] in *; subst y. rewrite (first_refused _ _ _ _ F2).
    apply K; auto.
  - assert (Fo : first_of (r1 :: rs) = r1 tt) by (cbn [first_of]; destruct (r1 tt) as [|[]]; try reflexivity; destruct (D eq_refl)). rewrite Fo.
    right. intros Lt Lf S. destruct (H Lt Lf S) as (E & [N G] & T).
    destruct (m1f tt Lf) as [x Lf1] eqn:F1; cbn [fst snd] in *; subst x Lf1. rewrite (first_other _ _ _ _ _ F1 D).
    split; [reflexivity|]. split; [exists N; reflexivity|]. intros Z. destruct (T Z) as [T1 T2].
    destruct (m1t tt Lt) as [y Lt1] eqn:F2; cbn [fst snd] in *; subst y. rewrite (first_other _ _ _ _ _ F2 D). auto.
Qed.
Lemma tri_first {X} (ls : list X) f gt gf : (forall x, tri (f x) (gt x) (gf x)) ->
  tri (first_of (map (fun x (_ : unit) => f x) ls)) (first_of_s (map (fun x (_ : unit) => gt x) ls)) (first_of_s (map (fun x (_ : unit) => gf x) ls)).
Proof.
  intros H. induction ls as [|x ls IH]; [apply tri_lift|]. cbn [map]. apply tri_first_cons; [apply H|exact IH].
Qed.

Section Loading.
Variables (urljoin : string -> string -> result string) (supported_schemes : list string) (check_exists : string -> result bool)
  (fetch_text : string -> result string) (read_yaml : string -> result json) (uuid : json -> string)
  (classes : string -> option class) (proxies : string -> option loader).
Notation load := (LoaderModel.load urljoin supported_schemes check_exists fetch_text read_yaml uuid classes proxies).
Notation document_load := (LoaderModel.document_load urljoin supported_schemes check_exists fetch_text read_yaml uuid classes proxies).
Notation load_s c := (IndexModel.load_s urljoin supported_schemes check_exists fetch_text read_yaml uuid classes proxies c).
Notation document_load_s c := (IndexModel.document_load_s urljoin supported_schemes check_exists fetch_text read_yaml uuid classes proxies c).
Notation body := (LoaderModel.load_body urljoin supported_schemes check_exists fetch_text read_yaml uuid classes proxies).
Notation dbody := (LoaderModel.document_body urljoin fetch_text read_yaml).
Notation body_s c := (IndexModel.load_body_s urljoin supported_schemes check_exists fetch_text read_yaml uuid classes proxies c).
Notation dbody_s c := (IndexModel.document_body_s urljoin fetch_text read_yaml c).
Lemma load_s_S c n : load_s c (S n) = body_s c (load_s c n) (document_load_s c n).
Proof. unfold IndexModel.load_s, IndexModel.document_load_s. cbn [loads_s]. destruct (loads_s _ _ _ _ _ _ _ _ _ n). reflexivity. Qed.
Lemma document_load_s_S c n : document_load_s c (S n) = dbody_s c (load_s c n) (document_load_s c n).
Proof. unfold IndexModel.load_s, IndexModel.document_load_s. cbn [loads_s]. destruct (loads_s _ _ _ _ _ _ _ _ _ n). reflexivity. Qed.

Lemma before_none url : has_char "#" url = false -> before "#" url = url.
Proof. intros H. unfold before. rewrite ParserProofs.cut_none by exact H. reflexivity. Qed.

Section Step.
Variables (ld : loading) (dl : doc_loading) (lt lf : loading_s) (dt df : doc_loading_s).
Hypothesis TL : forall l d b o r, tri (ld l d b o r) (lt l d b o r) (lf l d b o r).
Hypothesis TD : forall l d b o, tri (dl l d b o) (dt l d b o) (df l d b o).
(** a document that is no text is found under its address *)
Hypothesis FT : forall l d b o L v L', (forall s, d <> JStr s) -> dt l d b o L = (Ok v, L') -> idx_get b L' = Some v.
Hypothesis FF : forall l d b o L v L', (forall s, d <> JStr s) -> df l d b o L = (Ok v, L') -> idx_get b L' = Some v.

Lemma tri_by_url l url o : tri (document_load_by_url fetch_text read_yaml dl l url o)
  (document_load_by_url_s fetch_text read_yaml true dt l url o) (document_load_by_url_s fetch_text read_yaml false df l url o).
Proof.
  unfold document_load_by_url. destruct (has_char "#" url) eqn:HS; [left; left; reflexivity|].
  assert (X : tri (do text <- fetch_text url; do doc <- read_yaml text;
      match doc with JStr _ => do _ <- dl l doc url (with_fileuri url o); Err KeyError | _ => dl l doc url (with_fileuri url o) end)
      (load_file_s fetch_text read_yaml dt l url o) (load_file_s fetch_text read_yaml df l url o)).
  { unfold load_file_s. cbv zeta. rewrite (before_none url HS). apply tri_note. apply tri_lbind. intros text. apply tri_lbind. intros doc.
    assert (Same : forall e, dl l doc url (with_fileuri url o) = Err e ->
      tri (match doc with JStr _ => do _ <- dl l doc url (with_fileuri url o); Err KeyError | _ => dl l doc url (with_fileuri url o) end)
        (sbind (dt l doc url (with_fileuri url o)) (fun _ L => (match idx_get url L with Some v => Ok v | None => Err KeyError end, L)))
        (sbind (df l doc url (with_fileuri url o)) (fun _ L => (match idx_get url L with Some v => Ok v | None => Err KeyError end, L)))).
    { intros e R. replace (match doc with JStr _ => do _ <- dl l doc url (with_fileuri url o); Err KeyError | _ => dl l doc url (with_fileuri url o) end) with (@Err lv e)
        by (rewrite R; destruct doc; reflexivity).
      pose proof (TD l doc url (with_fileuri url o)) as H. rewrite R in H. destruct H as [O|H]; [left; exact O|]. right. intros Lt Lf S. unfold sbind. destruct (H Lt Lf S) as (E & [N G] & T).
      destruct (df l doc url (with_fileuri url o) Lf) as [x Lf1] eqn:F1; cbn [fst snd] in *; subst x Lf1. split; [reflexivity|]. split; [exists N; reflexivity|]. intros Z. destruct (T Z) as [T1 T2].
      destruct (dt l doc url (with_fileuri url o) Lt) as [y Lt1]; cbn [fst snd] in *; subst y. auto. }
    destruct (dl l doc url (with_fileuri url o)) as [v|e] eqn:R; [clear Same|exact (Same e eq_refl)].
    destruct (match doc with JStr _ => true | _ => false end) eqn:D0; [left; right; destruct doc; try discriminate D0; reflexivity|].
    assert (D : forall s, doc <> JStr s) by (intros s ->; discriminate D0). 
    replace (match doc with JStr _ => do _ <- Ok v; Err KeyError | _ => Ok v end) with (Ok v) by (destruct doc; try reflexivity; discriminate D0).
    pose proof (TD l doc url (with_fileuri url o)) as H. rewrite R in H. destruct H as [O|H]; [left; exact O|]. right. intros Lt Lf S. unfold sbind. destruct (H Lt Lf S) as (E & [N G] & T).
    destruct (df l doc url (with_fileuri url o) Lf) as [x Lf1] eqn:F1; cbn [fst snd] in *; subst x Lf1. cbn beta.
    rewrite (FF _ _ _ _ _ _ _ D F1). split; [reflexivity|]. split; [exists N; reflexivity|]. intros Z. destruct (T Z) as [T1 T2].
    destruct (dt l doc url (with_fileuri url o) Lt) as [y Lt1] eqn:F2; cbn [fst snd] in *; subst y. rewrite (FT _ _ _ _ _ _ _ D F2). auto. }
  destruct X as [O|X]; [left; exact O|]. right. intros Lt Lf S. destruct (X Lt Lf S) as (E & [N G] & T). unfold document_load_by_url_s.
  destruct (load_file_s fetch_text read_yaml df l url o Lf) as [x Lf1] eqn:F1; cbn [fst snd] in *; subst x Lf1.
  split; [reflexivity|]. split; [eexists (_ :: N); reflexivity|]. intros Z. destruct (idx_get url Lt) as [v|] eqn:IG.
  - cbn [fst snd]. split.
    + symmetry. apply (Z url _ (N ++ Lf) v); [exists []; reflexivity|]. apply in_or_app. right. apply S, IG.
    + apply sub_asked. apply sub_more, S.
  - destruct (T (settled_app [_] _ Z)) as [T1 T2]. destruct (load_file_s fetch_text read_yaml dt l url o Lt) as [y Lt1]; cbn [fst snd] in *; subst y.
    split; [reflexivity|]. apply sub_asked, T2.
Qed.
Lemma tri_field val l b o : tri (load_field urljoin fetch_text read_yaml ld dl val l b o)
  (load_field_s urljoin fetch_text read_yaml true lt dt val l b o) (load_field_s urljoin fetch_text read_yaml false lf df val l b o).
Proof.
  destruct val; try (apply TL). cbn [load_field load_field_s]. destruct (dget "$import" d) as [u|].
  - destruct (fileuri o); [|apply tri_lift]. destruct u; try apply tri_lift. apply tri_lbind. intros url. apply tri_by_url.
  - destruct (dget "$include" d) as [u|]; [|apply TL]. destruct (fileuri o); [|apply tri_lift]. destruct u; try apply tri_lift.
    apply tri_lbind. intros url. apply tri_lbind. intros text. apply TL.
Qed.
Lemma tri_fields f gt gf b o d : (forall l v b, tri (f l v b) (gt l v b) (gf l v b)) -> forall fs,
  tri (load_fields urljoin supported_schemes f b o d fs) (load_fields_s urljoin supported_schemes gt b o d fs) (load_fields_s urljoin supported_schemes gf b o d fs).
Proof.
  intros H fs. induction fs as [|x fs IH]; cbn [load_fields load_fields_s]; [apply tri_lift|]. apply tri_bind.
  - unfold load_one, load_one_s. apply tri_lbind. intros b'. destruct (dget (f_name x) d) as [v|]; [|apply tri_lift].
    destruct v; try (apply tri_noted, H). destruct (f_required x); [apply tri_lift|apply tri_noted, H].
  - intros v. apply tri_bind; [exact IH|]. intros rest. apply tri_lift.
Qed.
Lemma tri_from_doc k d b o root : tri (from_doc urljoin supported_schemes fetch_text read_yaml uuid ld dl k d b o root)
  (from_doc_s urljoin supported_schemes fetch_text read_yaml uuid true lt dt k d b o root) (from_doc_s urljoin supported_schemes fetch_text read_yaml uuid false lf df k d b o root).
Proof.
  unfold from_doc, from_doc_s. apply tri_bind.
  { unfold load_id, load_id_s. destruct (c_id k) as [[[name req] idl]|]; [|apply tri_lift]. apply tri_bind; [|intros id; apply tri_lift].
    destruct (dget name d); [apply tri_noted, tri_field|apply tri_lift]. }
  intros idr. cbv zeta. apply tri_bind.
  { unfold load_class, load_class_s. destruct (c_class k); [|apply tri_lift]. destruct (dget "class" d) as [v|]; [|apply tri_lift].
    destruct v; try apply tri_lift; (apply tri_bind; [apply tri_field|intros c; apply tri_lift]). }
  intros cl. apply tri_bind. { apply tri_fields. intros. apply tri_field. }
  intros fs. apply tri_lbind. intros ext. destruct idr as [[i b']|]; [|apply tri_lift]. destruct fs as [fs|]; [|apply tri_lift]. destruct ext as [ext|]; [|apply tri_lift].
  unfold index_object. destruct i as [|[nm []] i]; try apply tri_lift. apply tri_note, tri_lift.
Qed.
Lemma tri_body l d b o r : tri (body ld dl l d b o r) (body_s true lt dt l d b o r) (body_s false lf df l d b o r).
Proof.
  destruct l; cbn [load_body load_body_s]; try apply tri_lift.
  - destruct d; try apply tri_lift. apply tri_bind; [|intros x; apply tri_lift]. apply tri_elements. intros e. apply tri_field.
  - destruct d; try apply tri_lift. apply tri_bind; [|intros x; apply tri_lift]. apply tri_values. intros e. apply tri_field.
  - apply tri_lbind. intros x. apply TL.
  - destruct d; try apply tri_lift. destruct (classes cls); [|apply tri_lift]. apply tri_from_doc.
  - apply (tri_first alternates (fun t => ld t d b o r)). intros t. apply TL.
  - cbv zeta. apply tri_lbind. intros x. apply tri_lbind. intros _. apply TL.
  - apply tri_lbind. intros x. apply TL.
  - apply tri_lbind. intros x. apply TL.
  - destruct (proxies name); [apply TL|apply tri_lift].
Qed.
Lemma tri_then_note {A} (r : result A) mt mf (w : A -> SM unit) :
  tri r mt mf -> (forall a, tri (Ok a) (sbind (w a) (fun _ => lift (Ok a))) (sbind (w a) (fun _ => lift (Ok a)))) ->
  tri r (sbind mt (fun a => sbind (w a) (fun _ => lift (Ok a)))) (sbind mf (fun a => sbind (w a) (fun _ => lift (Ok a)))).
Proof.
  intros H K. replace r with (bind r (fun a => Ok a)) by (destruct r; reflexivity). apply tri_bind; [exact H|exact K].
Qed.
Lemma tri_document l d b o : tri (dbody ld dl l d b o) (dbody_s true lt dt l d b o) (dbody_s false lf df l d b o).
Proof.
  destruct d; cbn [document_body document_body_s]; try apply tri_lift.
  - apply tri_lbind. intros url. apply tri_by_url.
  - apply (tri_then_note _ _ _ (fun v => note (Wrote b v))); [apply TL|]. intros a. apply tri_note, tri_lift.
  - cbv zeta. apply tri_lbind. intros b'.
    match goal with |- tri ?r (sbind ?mt _) (sbind ?mf _) => assert (X : tri r mt mf) by (destruct (dget "$graph" (no_graph_keys d)); apply TL) end.
    match goal with |- tri ?r _ _ => replace r with (bind r (fun a => Ok a)) by (destruct r; reflexivity) end. apply tri_bind; [exact X|].
    intros a. apply tri_note. destruct (String.eqb b b'); [apply (tri_lift (Ok a))|apply tri_note, tri_lift].
Qed.
Lemma found_document c (lx : loading_s) dx l d b o L v L' : (forall s, d <> JStr s) -> dbody_s c lx dx l d b o L = (Ok v, L') -> idx_get b L' = Some v.
Proof.
  intros D H. destruct d as [| | | |s|items|d]; try discriminate H.
  - destruct (D s eq_refl).
  - cbn [document_body_s] in H. unfold sbind, note, lift in H. destruct (lx l (JList items) b o None L) as [[x|] L1]; [|discriminate H]. injection H as -> <-.
    cbn [idx_get]. rewrite String.eqb_refl. reflexivity.
  - cbn [document_body_s] in H. cbv zeta in H. unfold sbind, note, lift in H.
    destruct (match dget "$base" d with None => Ok b | Some (JStr b0) => Ok b0 | Some _ => Err TypeError end) as [b'|]; [|discriminate H].
    match type of H with (let (_, _) := ?m in _) = _ => destruct m as [[x|] L1]; [|discriminate H] end.
    destruct (String.eqb b b') eqn:E; injection H as -> <-; cbn [idx_get]; [rewrite E; reflexivity|rewrite String.eqb_refl; reflexivity].
Qed.
End Step.

Theorem tri_loads n : (forall l d b o r, tri (load n l d b o r) (load_s true n l d b o r) (load_s false n l d b o r)) /\
  (forall l d b o, tri (document_load n l d b o) (document_load_s true n l d b o) (document_load_s false n l d b o)) /\
  forall c l d b o L v L', (forall s, d <> JStr s) -> document_load_s c n l d b o L = (Ok v, L') -> idx_get b L' = Some v.
Proof.
  induction n as [|n (IL & ID & IF)].
  - split; [intros; apply tri_lift|]. split; [intros; apply tri_lift|]. discriminate.
  - split; [|split].
    + intros. rewrite load_S, !load_s_S. apply tri_body; auto; intros; eapply IF; eauto.
    + intros. rewrite document_load_S, !document_load_s_S. apply tri_document; auto; intros; eapply IF; eauto.
    + intros c l d b o L v L' D. rewrite document_load_s_S. apply found_document, D.
Qed.

(** ** What every step keeps *)
Section Kept.
Variable c : bool.
(** a property of histories, and the addresses under which whole documents are written *)
Variables (P : log -> Prop) (A : string -> Prop).
Hypothesis PO : forall L k v, P L -> named k v -> P (Wrote k v :: L).
Hypothesis PD : forall L k v, P L -> A k -> P (Wrote k v :: L).
Hypothesis PP : forall L url, P L -> c = true -> idx_get url L = None -> P (Opened url :: L).
Hypothesis PP' : forall L url, P L -> c = false -> P (Opened url :: L).
Hypothesis PA : forall L url r, P L -> (forall v, r = Ok v -> idx_get url L = Some v) -> P (Asked url r :: L).
Hypothesis AF : forall url text d, fetch_text (before "#" url) = Ok text -> read_yaml text = Ok d -> A (before "#" url) /\ A (base_of d (before "#" url)).
Definition keeps {X} (m : SM X) : Prop := forall L, P L -> P (snd (m L)).
Lemma keeps_lift {X} (r : result X) : keeps (lift r).
Proof. intros L H. exact H. Qed.
Lemma keeps_bind {X Y} (m : SM X) (f : X -> SM Y) : keeps m -> (forall a, keeps (f a)) -> keeps (sbind m f).
Proof. intros H K L Z. unfold sbind. specialize (H L Z). destruct (m L) as [[a|e] L1]; cbn [snd] in *; [apply K, H|exact H]. Qed.
Lemma keeps_lbind {X Y} (r : result X) (f : X -> SM Y) : (forall a, r = Ok a -> keeps (f a)) -> keeps (sbind (lift r) f).
Proof. intros K L Z. unfold sbind, lift. destruct r as [a|e]; [apply K; auto|exact Z]. Qed.
Lemma keeps_noted {X} (m : SM X) : keeps m -> keeps (noted_s m).
Proof. intros H L Z. unfold noted_s. specialize (H L Z). destruct (m L). exact H. Qed.
Lemma keeps_elements g fl : (forall d, keeps (g d)) -> forall ds fields, keeps (load_elements_s g fl fields ds).
Proof.
  intros H ds. induction ds as [|d ds IH]; intros fields; cbn [load_elements_s]; [apply keeps_lift|].
  apply keeps_bind; [apply keeps_noted, H|]. intros lf.
  destruct (match lf with Some _ => _ | None => _ end) as [fields' dup]. apply keeps_bind; [apply IH|]. intros rest. apply keeps_lift.
Qed.
Lemma keeps_values g : (forall d, keeps (g d)) -> forall ds, keeps (load_values_s g ds).
Proof.
  intros H ds. induction ds as [|[k d] ds IH]; cbn [load_values_s]; [apply keeps_lift|].
  apply keeps_bind; [apply keeps_noted, H|]. intros lf. apply keeps_bind; [apply IH|]. intros rest. apply keeps_lift.
Qed.
Lemma keeps_first {X} (ls : list X) g : (forall x, keeps (g x)) -> keeps (first_of_s (map (fun x (_ : unit) => g x) ls)).
Proof.
  intros H. induction ls as [|x ls IH]; [apply keeps_lift|]. intros L Z. cbn [map first_of_s]. specialize (H x L Z).
  destruct (g x L) as [[|[]] L1]; cbn [snd] in *; auto.
Qed.
Section Step.
Variables (lx : loading_s) (dx : doc_loading_s).
Hypothesis KL : forall l d b o r, keeps (lx l d b o r).
Hypothesis KD : forall l d b o, A b -> A (base_of d b) -> keeps (dx l d b o).
Lemma keeps_by_url l url o : keeps (document_load_by_url_s fetch_text read_yaml c dx l url o).
Proof.
  intros L Z. unfold document_load_by_url_s.
  assert (X : P (Opened url :: L) -> P (snd (load_file_s fetch_text read_yaml dx l url o L)) /\
     forall v, fst (load_file_s fetch_text read_yaml dx l url o L) = Ok v -> idx_get url (snd (load_file_s fetch_text read_yaml dx l url o L)) = Some v).
  { intros Y. unfold load_file_s. unfold sbind at 1 4 7. unfold note. cbv zeta.
    destruct (fetch_text (before "#" url)) as [text|] eqn:F; [|cbn; split; [exact Y|discriminate]].
    destruct (read_yaml text) as [doc|] eqn:R; [|cbn; rewrite R; cbn; split; [exact Y|discriminate]].
    destruct (AF url text doc F R) as [A1 A2]. pose proof (KD l doc (before "#" url) (with_fileuri (before "#" url) o) A1 A2 _ Y) as K.
    unfold sbind, lift. rewrite R. destruct (dx l doc (before "#" url) (with_fileuri (before "#" url) o) (Opened url :: L)) as [[x|e] L1]; cbn [fst snd] in *.
    - split; [exact K|]. intros v H. destruct (idx_get url L1) as [w|] eqn:G; [|discriminate H]. congruence.
    - split; [exact K|discriminate]. }
  assert (D : c = true \/ c = false) by (destruct c; auto). destruct D as [D|D]; rewrite D.
  - destruct (idx_get url L) as [v|] eqn:G.
    + cbn [snd]. apply PA; [exact Z|]. intros w [= <-]. exact G.
    + destruct (X (PP L url Z D G)) as [X1 X2]. destruct (load_file_s fetch_text read_yaml dx l url o L) as [r L1]. cbn [fst snd] in *. apply PA; auto.
  - destruct (X (PP' L url Z D)) as [X1 X2]. destruct (load_file_s fetch_text read_yaml dx l url o L) as [r L1]. cbn [fst snd] in *. apply PA; auto.
Qed.
Lemma keeps_field val l b o : keeps (load_field_s urljoin fetch_text read_yaml c lx dx val l b o).
Proof.
  destruct val; try (apply KL). cbn [load_field_s]. destruct (dget "$import" d) as [u|].
  - destruct (fileuri o); [|apply keeps_lift]. destruct u; try apply keeps_lift. apply keeps_lbind. intros url _. apply keeps_by_url.
  - destruct (dget "$include" d) as [u|]; [|apply KL]. destruct (fileuri o); [|apply keeps_lift]. destruct u; try apply keeps_lift.
    apply keeps_lbind. intros url _. apply keeps_lbind. intros text _. apply KL.
Qed.
Lemma keeps_fields g b o d : (forall l v b, keeps (g l v b)) -> forall fs, keeps (load_fields_s urljoin supported_schemes g b o d fs).
Proof.
  intros H fs. induction fs as [|x fs IH]; cbn [load_fields_s]; [apply keeps_lift|]. apply keeps_bind.
  - unfold load_one_s. apply keeps_lbind. intros b' _. destruct (dget (f_name x) d) as [v|]; [|apply keeps_lift].
    destruct v; try (apply keeps_noted, H). destruct (f_required x); [apply keeps_lift|apply keeps_noted, H].
  - intros v. apply keeps_bind; [exact IH|]. intros rest. apply keeps_lift.
Qed.
Lemma keeps_from_doc k d b o root : keeps (from_doc_s urljoin supported_schemes fetch_text read_yaml uuid c lx dx k d b o root).
Proof.
  unfold from_doc_s. apply keeps_bind.
  { unfold load_id_s. destruct (c_id k) as [[[name req] idl]|]; [|apply keeps_lift]. apply keeps_bind; [|intros id; apply keeps_lift].
    destruct (dget name d); [apply keeps_noted, keeps_field|apply keeps_lift]. }
  intros idr. cbv zeta. apply keeps_bind.
  { unfold load_class_s. destruct (c_class k); [|apply keeps_lift]. destruct (dget "class" d) as [v|]; [|apply keeps_lift].
    destruct v; try apply keeps_lift; (apply keeps_bind; [apply keeps_field|intros x; apply keeps_lift]). }
  intros cl. apply keeps_bind. { apply keeps_fields. intros. apply keeps_field. }
  intros fs. apply keeps_lbind. intros ext _. destruct idr as [[i b']|]; [|apply keeps_lift]. destruct fs as [fs|]; [|apply keeps_lift]. destruct ext as [ext|]; [|apply keeps_lift].
  unfold index_object. destruct i as [|[nm []] i]; try apply keeps_lift. intros L Z. cbn. apply PO; [exact Z|]. unfold named. eauto 10.
Qed.
Lemma keeps_body l d b o r : keeps (body_s c lx dx l d b o r).
Proof.
  destruct l; cbn [load_body_s]; try apply keeps_lift.
  - destruct d; try apply keeps_lift. apply keeps_bind; [|intros x; apply keeps_lift]. apply keeps_elements. intros e. apply keeps_field.
  - destruct d; try apply keeps_lift. apply keeps_bind; [|intros x; apply keeps_lift]. apply keeps_values. intros e. apply keeps_field.
  - apply keeps_lbind. intros x _. apply KL.
  - destruct d; try apply keeps_lift. destruct (classes cls); [|apply keeps_lift]. apply keeps_from_doc.
  - apply (keeps_first alternates). intros t. apply KL.
  - cbv zeta. apply keeps_lbind. intros x _. apply keeps_lbind. intros _ _. apply KL.
  - apply keeps_lbind. intros x _. apply KL.
  - apply keeps_lbind. intros x _. apply KL.
  - destruct (proxies name); [apply KL|apply keeps_lift].
Qed.
Lemma keeps_document l d b o : A b -> A (base_of d b) -> keeps (dbody_s c lx dx l d b o).
Proof.
  intros A1 A2. destruct d; cbn [document_body_s]; try apply keeps_lift.
  - apply keeps_lbind. intros url _. apply keeps_by_url.
  - apply keeps_bind; [apply KL|]. intros v L Z. cbn. apply PD; assumption.
  - cbv zeta. apply keeps_lbind. intros b' B. 
    assert (E : b' = base_of (JDict d) b) by (cbn [base_of]; destruct (dget "$base" d) as [[]|]; congruence). subst b'.
    apply keeps_bind; [destruct (dget "$graph" (no_graph_keys d)); apply KL|]. intros v L Z. unfold sbind, note, lift.
    destruct (String.eqb b (base_of (JDict d) b)); cbn [snd]; [apply PD; assumption|]. apply PD; [|exact A1]. apply PD; assumption.
Qed.
End Step.
Theorem keeps_loads n : (forall l d b o r, keeps (load_s c n l d b o r)) /\ forall l d b o, A b -> A (base_of d b) -> keeps (document_load_s c n l d b o).
Proof.
  induction n as [|n [IL ID]]; [split; intros; apply keeps_lift|]. split; intros.
  - rewrite load_s_S. apply keeps_body; auto.
  - rewrite document_load_s_S. apply keeps_document; auto.
Qed.
End Kept.
End Loading.
