(** * Proofs about loaders: more fuel changes nothing, and laws for each loader *)
From Verif Require Import PyBase PyBaseProofs NameProofs ParserModel LoaderModel LoaderSpec.
From Coq Require Import Lia.

Lemma F2_impl {A B} (P Q : A -> B -> Prop) xs ys : (forall x y, P x y -> Q x y) -> Forall2 P xs ys -> Forall2 Q xs ys.
Proof. induction 2; constructor; auto. Qed.

(** ** Fuel *)
Definition ref {A} (r r' : result A) : Prop := r = Err OutOfFuel \/ r = r'.
Lemma ref_refl {A} (r : result A) : ref r r.
Proof. right. auto. Qed.
Lemma ref_bind {A B} (r r' : result A) (k k' : A -> result B) : ref r r' -> (forall a, ref (k a) (k' a)) -> ref (bind r k) (bind r' k').
Proof. intros [-> | ->] H; [left; auto|]. destruct r' as [a|e]; cbn [bind]; [apply H|apply ref_refl]. Qed.
Lemma ref_noted {A} (r r' : result A) : ref r r' -> ref (noted r) (noted r').
Proof. intros [-> | ->]; [left; auto|apply ref_refl]. Qed.
Lemma ref_first_of {A} (f g : A -> result lv) ts : (forall t, ref (f t) (g t)) ->
  ref (first_of (map (fun t => fun _ : unit => f t) ts)) (first_of (map (fun t => fun _ : unit => g t) ts)).
Proof.
  intros H. induction ts as [|t ts IH]; [apply ref_refl|]. cbn [map first_of]. destruct (H t) as [-> | ->]; [left; auto|].
  destruct (g t) as [v|[]]; auto using ref_refl.
Qed.
Lemma ref_elements f g flatten ds : (forall d, ref (f d) (g d)) -> forall fields, ref (load_elements f flatten fields ds) (load_elements g flatten fields ds).
Proof.
  intros H. induction ds as [|d ds IH]; intros fields; [apply ref_refl|]. cbn [load_elements]. apply ref_bind; [apply ref_noted; auto|].
  intros lf. destruct (match lf, element_id d with Some _, Some i => _ | _, _ => _ end) as [fields' dup]. apply ref_bind; auto. intros a. apply ref_refl.
Qed.
Lemma ref_values f g d : (forall v, ref (f v) (g v)) -> ref (load_values f d) (load_values g d).
Proof.
  intros H. induction d as [|[k v] d IH]; [apply ref_refl|]. cbn [load_values]. apply ref_bind; [apply ref_noted; auto|].
  intros lf. apply ref_bind; auto using ref_refl.
Qed.
Lemma ref_fields ex sc f g base o d fs : (forall l v b, ref (f l v b) (g l v b)) -> ref (load_fields ex sc f base o d fs) (load_fields ex sc g base o d fs).
Proof.
  intros H. induction fs as [|x fs IH]; [apply ref_refl|]. cbn [load_fields]. apply ref_bind; [|intros v; apply ref_bind; auto using ref_refl].
  unfold load_one. apply ref_bind; [apply ref_refl|]. intros b. destruct (dget (f_name x) d) as [[]|]; try (apply ref_noted; auto); try apply ref_refl.
  destruct (f_required x); [apply ref_refl|apply ref_noted; auto].
Qed.

Section Loaders.
Variables (urljoin : string -> string -> result string) (supported_schemes : list string) (check_exists : string -> result bool)
  (fetch_text : string -> result string) (read_yaml : string -> result json) (uuid : json -> string)
  (classes : string -> option class) (proxies : string -> option loader).
Let body := load_body urljoin supported_schemes check_exists fetch_text read_yaml uuid classes proxies.
Let dbody := document_body urljoin fetch_text read_yaml.
Let load := load urljoin supported_schemes check_exists fetch_text read_yaml uuid classes proxies.
Let document_load := document_load urljoin supported_schemes check_exists fetch_text read_yaml uuid classes proxies.
Let field_of := load_field urljoin fetch_text read_yaml.

Lemma load_S n : load (S n) = body (load n) (document_load n).
Proof. unfold load, document_load, LoaderModel.load, LoaderModel.document_load, body. cbn [loads]. destruct (loads _ _ _ _ _ _ _ _ n). auto. Qed.
Lemma document_load_S n : document_load (S n) = dbody (load n) (document_load n).
Proof. unfold load, document_load, LoaderModel.load, LoaderModel.document_load, dbody. cbn [loads]. destruct (loads _ _ _ _ _ _ _ _ n). auto. Qed.

Section Mono.
Variables (ld ld' : loading) (dl dl' : doc_loading).
Hypothesis HL : forall l d b o r, ref (ld l d b o r) (ld' l d b o r).
Hypothesis HD : forall l d b o, ref (dl l d b o) (dl' l d b o).
Lemma ref_by_url l u o : ref (document_load_by_url fetch_text read_yaml dl l u o) (document_load_by_url fetch_text read_yaml dl' l u o).
Proof.
  unfold document_load_by_url. destruct (has_char "#" u); [apply ref_refl|]. apply ref_bind; [apply ref_refl|]. intros t. apply ref_bind; [apply ref_refl|]. intros d. destruct d; auto. apply ref_bind; [auto|]. intros. apply ref_refl.
Qed.
Lemma ref_field v l b o : ref (field_of ld dl v l b o) (field_of ld' dl' v l b o).
Proof.
  unfold field_of, load_field. destruct v; auto. destruct (dget "$import" d) as [u|].
  - destruct (fileuri o); [|apply ref_refl]. destruct u; try apply ref_refl. apply ref_bind; [apply ref_refl|]. intros u. apply ref_by_url.
  - destruct (dget "$include" d) as [u|]; auto. destruct (fileuri o); [|apply ref_refl]. destruct u; try apply ref_refl.
    apply ref_bind; [apply ref_refl|]. intros u. apply ref_bind; [apply ref_refl|]. auto.
Qed.
Lemma ref_from_doc k d b o r : ref (from_doc urljoin supported_schemes fetch_text read_yaml uuid ld dl k d b o r)
  (from_doc urljoin supported_schemes fetch_text read_yaml uuid ld' dl' k d b o r).
Proof.
  unfold from_doc. apply ref_bind.
  - unfold load_id. destruct (c_id k) as [[[name req] idl]|]; [|apply ref_refl]. apply ref_bind; [|auto using ref_refl].
    destruct (dget name d); [|apply ref_refl]. apply ref_noted. apply ref_field.
  - intros idr. cbv zeta. apply ref_bind.
    + unfold load_class. destruct (c_class k); [|apply ref_refl]. destruct (dget "class" d) as [[]|]; try apply ref_refl;
        (apply ref_bind; [apply ref_field|auto using ref_refl]).
    + intros cl. apply ref_bind; [|auto using ref_refl]. apply ref_fields. intros. apply ref_field.
Qed.
Lemma ref_body l d b o r : ref (body ld dl l d b o r) (body ld' dl' l d b o r).
Proof.
  unfold body, load_body. destruct l.
  - apply ref_refl.
  - apply ref_refl.
  - apply ref_refl.
  - apply ref_refl.
  - destruct d; try apply ref_refl. apply ref_bind; [|auto using ref_refl]. apply ref_elements. intros. apply ref_field.
  - destruct d; try apply ref_refl. apply ref_bind; [|auto using ref_refl]. apply ref_values. intros. apply ref_field.
  - apply ref_bind; [apply ref_refl|]. auto.
  - destruct d; try apply ref_refl. destruct (classes cls); [|apply ref_refl]. apply ref_from_doc.
  - apply ref_first_of. auto.
  - cbv zeta. apply ref_bind; [apply ref_refl|]. intros d'. apply ref_bind; [apply ref_refl|]. auto.
  - apply ref_bind; [apply ref_refl|]. auto.
  - apply ref_bind; [apply ref_refl|]. auto.
  - destruct (proxies name); [auto|apply ref_refl].
Qed.
Lemma ref_dbody l d b o : ref (dbody ld dl l d b o) (dbody ld' dl' l d b o).
Proof.
  unfold dbody, document_body. destruct d; try apply ref_refl.
  - apply ref_bind; [apply ref_refl|]. intros u. apply ref_by_url.
  - auto.
  - apply ref_bind; [apply ref_refl|]. intros u. cbv zeta. destruct (dget "$graph" (no_graph_keys d)); auto.
Qed.
End Mono.

Lemma step n : (forall l d b o r, ref (load n l d b o r) (load (S n) l d b o r)) /\ (forall l d b o, ref (document_load n l d b o) (document_load (S n) l d b o)).
Proof.
  induction n as [|n [IH1 IH2]].
  - split; intros; left; reflexivity.
  - split; intros.
    + rewrite (load_S n), (load_S (S n)). apply ref_body; auto.
    + rewrite (document_load_S n), (document_load_S (S n)). apply ref_dbody; auto.
Qed.
Lemma ref_le n m : n <= m -> (forall l d b o r, ref (load n l d b o r) (load m l d b o r)) /\ (forall l d b o, ref (document_load n l d b o) (document_load m l d b o)).
Proof.
  induction 1 as [|m L [IH1 IH2]]; [split; intros; apply ref_refl|]. destruct (step m) as [S1 S2]. split; intros.
  - destruct (IH1 l d b o r) as [->|E]; [left; auto|rewrite E; auto].
  - destruct (IH2 l d b o) as [->|E]; [left; auto|rewrite E; auto].
Qed.

(** ** The result of loading, whatever the fuel *)
Definition Loads (l : loader) (d : json) (b : string) (o : options) (root : option string) (r : result lv) : Prop :=
  r <> Err OutOfFuel /\ exists n, load n l d b o root = r.
Definition LoadsField (d : json) (l : loader) (b : string) (o : options) (r : result lv) : Prop :=
  r <> Err OutOfFuel /\ exists n, field_of (load n) (document_load n) d l b o = r.

Lemma Loads_det l d b o root r r' : Loads l d b o root r -> Loads l d b o root r' -> r = r'.
Proof.
  intros [N [n <-]] [N' [m <-]]. destruct (Nat.le_ge_cases n m) as [L|L]; destruct (ref_le _ _ L) as [R _].
  - destruct (R l d b o root) as [E|E]; congruence.
  - destruct (R l d b o root) as [E|E]; congruence.
Qed.
Lemma Loads_at l d b o root r n : Loads l d b o root r -> exists m, n <= m /\ load m l d b o root = r.
Proof.
  intros [N [k E]]. exists (Nat.max n k). split; [lia|]. destruct (ref_le k (Nat.max n k)) as [R _]; [lia|].
  destruct (R l d b o root) as [X|X]; congruence.
Qed.
Lemma Loads_ge l d b o root r n m : load n l d b o root = r -> r <> Err OutOfFuel -> n <= m -> load m l d b o root = r.
Proof. intros E N L. destruct (ref_le n m L) as [R _]. destruct (R l d b o root) as [X|X]; congruence. Qed.
Lemma field_ge d l b o r n m : field_of (load n) (document_load n) d l b o = r -> r <> Err OutOfFuel -> n <= m ->
  field_of (load m) (document_load m) d l b o = r.
Proof.
  intros E N L. destruct (ref_le n m L) as [R1 R2]. destruct (ref_field _ _ _ _ R1 R2 d l b o) as [X|X]; congruence.
Qed.
Lemma LoadsField_det l d b o r r' : LoadsField d l b o r -> LoadsField d l b o r' -> r = r'.
Proof.
  intros [N [n E]] [N' [m E']]. rewrite <- (field_ge _ _ _ _ _ n (Nat.max n m) E N) by lia. apply field_ge with (n := m); auto. lia.
Qed.
(** Ordinary values are loaded as they are. *)
Lemma LoadsField_plain d l b o r : (forall e, d = JDict e -> dget "$import" e = None /\ dget "$include" e = None) ->
  (LoadsField d l b o r <-> Loads l d b o None r).
Proof.
  intros H. assert (E : forall ld dl, field_of ld dl d l b o = ld l d b o None).
  { intros. unfold field_of, load_field. destruct d; auto. destruct (H d eq_refl) as [-> ->]. auto. }
  unfold LoadsField, Loads. split; intros [N [n X]]; (split; [auto|exists n]); [rewrite <- X; symmetry; apply E|rewrite E; auto].
Qed.

(** A relation that says what the body does, in terms of [Loads] *)
Lemma Loads_body l d b o root r : Loads l d b o root r <-> r <> Err OutOfFuel /\ exists n, body (load n) (document_load n) l d b o root = r.
Proof.
  unfold Loads. split; intros [N [n E]]; (split; [auto|]).
  - destruct n as [|n]; [cbn in E; congruence|]. exists n. rewrite load_S in E. auto.
  - exists (S n). rewrite load_S. auto.
Qed.
(** ** Unions *)
Lemma first_of_ok (f : loader -> result lv) ts v : first_of (map (fun t => fun _ : unit => f t) ts) = Ok v <->
  exists pre t post, ts = pre ++ t :: post /\ Forall (fun t => f t = Err ValidationException) pre /\ f t = Ok v.
Proof.
  split.
  - induction ts as [|t ts IH]; cbn [map first_of]; [discriminate|]. destruct (f t) as [w|e] eqn:E.
    + intros X. exists [], t, ts. split; [auto|]. split; [constructor|]. congruence.
    + destruct e; try discriminate. intros X. destruct (IH X) as (pre & t' & post & -> & F & Y). exists (t :: pre), t', post. auto.
  - intros (pre & t & post & -> & F & E). induction F as [|t' pre E' F IH]; cbn [app map first_of]; [rewrite E; auto|]. rewrite E'. auto.
Qed.
Lemma first_of_err (f : loader -> result lv) ts e : e <> ValidationException -> (first_of (map (fun t => fun _ : unit => f t) ts) = Err e <->
  exists pre t post, ts = pre ++ t :: post /\ Forall (fun t => f t = Err ValidationException) pre /\ f t = Err e).
Proof.
  intros N. split.
  - induction ts as [|t ts IH]; cbn [map first_of]; [congruence|]. destruct (f t) as [w|e'] eqn:E; [discriminate|]. intros X.
    destruct (match e' with ValidationException => true | _ => false end) eqn:V.
    + destruct e'; try discriminate. destruct (IH X) as (pre & t' & post & -> & F & Y). exists (t :: pre), t', post. auto.
    + exists [], t, ts. split; [auto|]. split; [constructor|]. destruct e'; congruence.
  - intros (pre & t & post & -> & F & E). induction F as [|t' pre E' F IH]; cbn [app map first_of]; [|rewrite E'; auto].
    rewrite E. destruct e; congruence.
Qed.
Lemma first_of_fail (f : loader -> result lv) ts : first_of (map (fun t => fun _ : unit => f t) ts) = Err ValidationException <->
  Forall (fun t => f t = Err ValidationException) ts.
Proof.
  split.
  - induction ts as [|t ts IH]; cbn [map first_of]; [constructor|]. destruct (f t) as [w|e] eqn:E; [discriminate|].
    destruct e; try discriminate. constructor; auto.
  - induction 1 as [|t ts E F IH]; cbn [map first_of]; [auto|]. rewrite E. auto.
Qed.

(** One amount of fuel for many loads *)
Lemma fuel_for {A} (P : A -> nat -> Prop) (xs : list A) : (forall x n m, P x n -> n <= m -> P x m) ->
  Forall (fun x => exists n, P x n) xs -> exists n, Forall (fun x => P x n) xs.
Proof.
  intros M F. induction F as [|x xs [n X] F [k IH]]; [exists 0; constructor|]. exists (Nat.max n k). constructor; [apply (M x n); auto; lia|].
  eapply Forall_impl; [|exact IH]. intros a Y. apply (M a k); auto. lia.
Qed.
Lemma fuel_for2 {A B} (P : A -> B -> nat -> Prop) (xs : list A) (ys : list B) : (forall x y n m, P x y n -> n <= m -> P x y m) ->
  Forall2 (fun x y => exists n, P x y n) xs ys -> exists n, Forall2 (fun x y => P x y n) xs ys.
Proof.
  intros M F. induction F as [|x y xs ys [n X] F [k IH]]; [exists 0; constructor|]. exists (Nat.max n k). constructor; [apply (M x y n); auto; lia|].
  clear F. induction IH as [|x' y' xs' ys' Y F IH']; constructor; auto. apply (M x' y' k); auto. lia.
Qed.

Lemma Loads_alt ts d b o root r : r <> Err OutOfFuel ->
  (Loads (LUnion ts) d b o root r <-> exists n, first_of (map (fun t => fun _ : unit => load n t d b o root) ts) = r).
Proof. intros N. rewrite Loads_body. cbn [body load_body]. unfold body. cbn [load_body]. tauto. Qed.

Lemma union_ok ts d b o root v : Loads (LUnion ts) d b o root (Ok v) <->
  exists pre t post, ts = pre ++ t :: post /\ Forall (fun t => Loads t d b o root (Err ValidationException)) pre /\ Loads t d b o root (Ok v).
Proof.
  rewrite Loads_alt by discriminate. split.
  - intros [n X]. apply first_of_ok in X. destruct X as (pre & t & post & -> & F & E). exists pre, t, post. split; [auto|]. split.
    + eapply Forall_impl; [|exact F]. intros a Y. split; [discriminate|exists n; auto].
    + split; [discriminate|exists n; auto].
  - intros (pre & t & post & -> & F & [_ [n E]]).
    destruct (fuel_for (fun t n => load n t d b o root = Err ValidationException) pre) as [k G].
    { intros x i j Y L. eapply Loads_ge; eauto. discriminate. }
    { eapply Forall_impl; [|exact F]. intros a [_ Y]. exact Y. }
    exists (Nat.max n k). apply first_of_ok. exists pre, t, post. split; [auto|]. split.
    + eapply Forall_impl; [|exact G]. intros a Y. cbn beta in Y. eapply Loads_ge; eauto; [discriminate|lia].
    + eapply Loads_ge; eauto; [discriminate|lia].
Qed.
Lemma union_err ts d b o root e : e <> ValidationException -> e <> OutOfFuel -> (Loads (LUnion ts) d b o root (Err e) <->
  exists pre t post, ts = pre ++ t :: post /\ Forall (fun t => Loads t d b o root (Err ValidationException)) pre /\ Loads t d b o root (Err e)).
Proof.
  intros N1 N2. assert (N : @Err lv e <> Err OutOfFuel) by congruence. rewrite Loads_alt by auto. split.
  - intros [n X]. apply first_of_err in X; auto. destruct X as (pre & t & post & -> & F & E). exists pre, t, post. split; [auto|]. split.
    + eapply Forall_impl; [|exact F]. intros a Y. split; [discriminate|exists n; auto].
    + split; [auto|exists n; auto].
  - intros (pre & t & post & -> & F & [_ [n E]]).
    destruct (fuel_for (fun t n => load n t d b o root = Err ValidationException) pre) as [k G].
    { intros x i j Y L. eapply Loads_ge; eauto. discriminate. }
    { eapply Forall_impl; [|exact F]. intros a [_ Y]. exact Y. }
    exists (Nat.max n k). apply first_of_err; auto. exists pre, t, post. split; [auto|]. split.
    + eapply Forall_impl; [|exact G]. intros a Y. cbn beta in Y. eapply Loads_ge; eauto; [discriminate|lia].
    + eapply Loads_ge; eauto. lia.
Qed.
Lemma union_fail ts d b o root : Loads (LUnion ts) d b o root (Err ValidationException) <->
  Forall (fun t => Loads t d b o root (Err ValidationException)) ts.
Proof.
  rewrite Loads_alt by discriminate. split.
  - intros [n X]. apply first_of_fail in X. eapply Forall_impl; [|exact X]. intros a Y. split; [discriminate|exists n; auto].
  - intros F. destruct (fuel_for (fun t n => load n t d b o root = Err ValidationException) ts) as [k G].
    { intros x i j Y L. eapply Loads_ge; eauto. discriminate. }
    { eapply Forall_impl; [|exact F]. intros a [_ Y]. exact Y. }
    exists k. apply first_of_fail. exact G.
Qed.

(** ** Arrays *)
Lemma flat_cons f v vs : flat f (v :: vs) = match v with VSeq l => if f then l ++ flat f vs else v :: flat f vs | _ => v :: flat f vs end.
Proof. unfold flat. destruct f; cbn [map List.concat element]; destruct v; reflexivity. Qed.
Lemma existsb_json i l : existsb (json_eqb i) l = true <-> In i l.
Proof.
  rewrite existsb_exists. split.
  - intros [x [I E]]. apply json_eqb_eq in E. subst. auto.
  - intros I. exists i. split; [auto|]. apply json_eqb_refl.
Qed.
Lemma ids_cons d ds : ids (d :: ds) = match element_id d with Some i => [i] | None => [] end ++ ids ds.
Proof. unfold ids, element_id. cbn [flat_map]. destruct d; auto. destruct (dget "id" d) as [[]|]; auto. Qed.
Lemma elements_ok f fl ds : forall fields l,
  load_elements f fl fields ds = Ok (Some l) <->
  exists vs, Forall2 (fun d v => f d = Ok v) ds vs /\ NoDup (ids ds) /\ (forall i, In i fields -> ~ In i (ids ds)) /\ l = flat fl vs.
Proof.
  induction ds as [|d ds IH]; intros fields l.
  - cbn [load_elements]. split.
    + intros X. exists []. split; [constructor|]. split; [constructor|]. split; [intros i _ []|]. destruct fl; cbn; congruence.
    + intros (vs & F & _ & _ & ->). inversion F; subst. destruct fl; auto.
  - rewrite ids_cons. cbn [load_elements]. destruct (f d) as [v|e] eqn:E.
    2:{ split.
        - destruct e; cbn [noted bind]; try discriminate.
          destruct (load_elements f fl fields ds) as [[r|]|]; cbn [bind]; discriminate.
        - intros (vs & F & _). inversion F; subst. congruence. }
    cbn [noted bind]. destruct (element_id d) as [i|] eqn:I.
    + destruct (existsb (json_eqb i) fields) eqn:X.
      * apply existsb_json in X. split.
        -- destruct (load_elements f fl fields ds) as [[r|]|]; cbn [bind]; discriminate.
        -- intros (vs & _ & _ & D & _). destruct (D i X). left. auto.
      * assert (X' : ~ In i fields) by (intros Y; apply existsb_json in Y; congruence). split.
        -- destruct (load_elements f fl (fields ++ [i]) ds) as [[r|]|] eqn:R; cbn [bind]; try discriminate. intros Y.
           destruct (proj1 (IH _ _) R) as (vs & F & N & D & ->). exists (v :: vs). split; [auto|]. split; [|split].
           ++ cbn [app]. constructor; auto. apply D. apply in_app_iff. right. left. auto.
           ++ intros j J [<-|K]; [auto|]. eapply D; [apply in_app_iff; left; eauto|auto].
           ++ rewrite flat_cons. congruence.
        -- intros (vs & F & N & D & ->). inversion F as [|d' v' ds' vs' E' F' E1 E2]; subst. cbn [app] in N. apply NoDup_cons_iff in N. destruct N as [N1 N2].
           rewrite (proj2 (IH (fields ++ [i]) (flat fl vs'))).
           ++ cbn [bind]. rewrite flat_cons. replace v' with v by congruence. auto.
           ++ exists vs'. split; [auto|]. split; [auto|]. split; [|auto]. intros j J K. apply in_app_iff in J. destruct J as [J|[<-|[]]]; [|auto].
              apply (D j J). right. auto.
    + cbn [app]. split.
      * destruct (load_elements f fl fields ds) as [[r|]|] eqn:R; cbn [bind]; try discriminate. intros Y.
        destruct (proj1 (IH _ _) R) as (vs & F & N & D & ->). exists (v :: vs). split; [auto|]. split; [auto|]. split; [auto|].
        rewrite flat_cons. congruence.
      * intros (vs & F & N & D & ->). inversion F as [|d' v' ds' vs' E' F' E1 E2]; subst.
        rewrite (proj2 (IH fields (flat fl vs'))) by (exists vs'; auto). cbn [bind]. rewrite flat_cons. replace v' with v by congruence. auto.
Qed.
(** Nothing but noted errors: the outcome is an ordinary one *)
Lemma elements_total f fl ds : forall fields, Forall (fun d => f d = Err ValidationException \/ exists v, f d = Ok v) ds ->
  exists r, load_elements f fl fields ds = Ok r.
Proof.
  intros fields F. revert fields. induction F as [|d ds [E|[v E]] F IH]; intros fields; cbn [load_elements]; [eauto| |]; rewrite E; cbn [noted bind].
  - destruct (IH fields) as [r ->]. cbn [bind]. eauto.
  - destruct (match element_id d with Some _ => _ | None => _ end) as [fields' dup]. destruct (IH fields') as [[r|] ->]; cbn [bind]; eauto. destruct dup; eauto.
Qed.
(** Any other exception of an element is an exception of the whole *)
Lemma elements_err f fl ds e : forall fields, load_elements f fl fields ds = Err e ->
  e <> ValidationException /\ exists pre d post, ds = pre ++ d :: post /\ f d = Err e.
Proof.
  induction ds as [|d ds IH]; intros fields; cbn [load_elements]; [discriminate|]. destruct (f d) as [v|e'] eqn:E.
  - cbn [noted bind]. destruct (match element_id d with Some _ => _ | None => _ end) as [fields' dup]. destruct (load_elements f fl fields' ds) as [[r|]|e'] eqn:R; cbn [bind].
    + destruct dup; discriminate.
    + discriminate.
    + intros X. injection X as ->. destruct (IH _ R) as (N & pre & d' & post & -> & Y). split; [auto|]. exists (d :: pre), d', post. auto.
  - destruct (match e' with ValidationException => true | _ => false end) eqn:V.
    + destruct e'; try discriminate. cbn [noted bind]. destruct (load_elements f fl fields ds) as [[r|]|e'] eqn:R; cbn [bind]; try discriminate.
      intros X. injection X as ->. destruct (IH _ R) as (N & pre & d' & post & -> & Y). split; [auto|]. exists (d :: pre), d', post. auto.
    + assert (N : noted (Err (A := lv) e') = Err e') by (destruct e'; auto; discriminate). rewrite N. cbn [bind]. intros X. injection X as <-. split.
      * destruct e'; try discriminate; auto.
      * exists [], d, ds. auto.
Qed.

Definition LoadsElement (items : loader) (d : json) (b : string) (o : options) (r : result lv) : Prop := LoadsField d (LUnion [LArray items; items]) b o r.

Lemma array_body items ds b o root r : Loads (LArray items) (JList ds) b o root r <-> r <> Err OutOfFuel /\ exists n,
  (do x <- load_elements (fun d => field_of (load n) (document_load n) d (LUnion [LArray items; items]) b o) (flattens o) [] ds;
   match x with Some l => Ok (VSeq l) | None => Err ValidationException end) = r.
Proof. rewrite Loads_body. unfold body. cbn [load_body]. tauto. Qed.

Lemma array_ok items ds b o root v : Loads (LArray items) (JList ds) b o root (Ok v) <->
  exists vs, Forall2 (fun d v => LoadsElement items d b o (Ok v)) ds vs /\ NoDup (ids ds) /\ v = VSeq (flat (flattens o) vs).
Proof.
  rewrite array_body. split.
  - intros [_ [n X]]. destruct (load_elements _ _ _ ds) as [[l|]|] eqn:E; cbn [bind] in X; try discriminate. apply elements_ok in E.
    destruct E as (vs & F & N & _ & ->). exists vs. split; [|split; [auto|congruence]].
    eapply F2_impl; [|exact F]. cbn beta. intros d w Y. split; [discriminate|exists n; auto].
  - intros (vs & F & N & ->). split; [discriminate|].
    destruct (fuel_for2 (fun d v n => field_of (load n) (document_load n) d (LUnion [LArray items; items]) b o = Ok v) ds vs) as [k G].
    { intros x y i j Y L. eapply field_ge; eauto. discriminate. }
    { eapply F2_impl; [|exact F]. cbn beta. intros d w [_ Y]. exact Y. }
    exists k. rewrite (proj2 (elements_ok _ (flattens o) ds [] (flat (flattens o) vs))); [auto|]. exists vs. split; [exact G|]. split; [auto|]. split; [intros i []|auto].
Qed.
Lemma array_fail items ds b o root :
  Forall (fun d => LoadsElement items d b o (Err ValidationException) \/ exists v, LoadsElement items d b o (Ok v)) ds ->
  (Loads (LArray items) (JList ds) b o root (Err ValidationException) <->
   Exists (fun d => LoadsElement items d b o (Err ValidationException)) ds \/ ~ NoDup (ids ds)).
Proof.
  intros F. set (ok := fun d n => field_of (load n) (document_load n) d (LUnion [LArray items; items]) b o = Err ValidationException \/
    exists v, field_of (load n) (document_load n) d (LUnion [LArray items; items]) b o = Ok v).
  assert (M : forall x n m, ok x n -> n <= m -> ok x m).
  { intros x n m [Y|[v Y]] L; [left|right; exists v]; eapply field_ge; eauto; discriminate. }
  destruct (fuel_for ok ds M) as [k G].
  { eapply Forall_impl; [|exact F]. intros d [[_ [n Y]]|[v [_ [n Y]]]]; exists n; [left|right; exists v]; auto. }
  assert (T : exists r, load_elements (fun d => field_of (load k) (document_load k) d (LUnion [LArray items; items]) b o) (flattens o) [] ds = Ok r)
    by (apply elements_total; exact G).
  destruct T as [r T]. assert (L : Loads (LArray items) (JList ds) b o root (match r with Some l => Ok (VSeq l) | None => Err ValidationException end)).
  { rewrite array_body. split; [destruct r; discriminate|]. exists k. rewrite T. destruct r; auto. }
  split.
  - intros L'.
    assert (D : Exists (fun d => LoadsElement items d b o (Err ValidationException)) ds \/ exists vs, Forall2 (fun d v => LoadsElement items d b o (Ok v)) ds vs).
    { clear - F. induction F as [|d ds [E|[v E]] F IH].
      - right. exists []. constructor.
      - left. left. auto.
      - destruct IH as [IH|[vs IH]]; [left; right; auto|right; exists (v :: vs); auto]. }
    destruct D as [D|[vs D]]; [left; auto|right]. intros N.
    assert (X : Loads (LArray items) (JList ds) b o root (Ok (VSeq (flat (flattens o) vs)))) by (apply array_ok; eauto).
    pose proof (Loads_det _ _ _ _ _ _ _ X L'). discriminate.
  - intros H. destruct r as [l|]; [|exact L]. apply array_ok in L. destruct L as (vs & V & N & _). destruct H as [H|H]; [|contradiction].
    exfalso. clear F G T N. induction V as [|d v ds vs E V IH]; inversion H as [? ? Y|? ? Y]; subst; auto.
    pose proof (LoadsField_det _ _ _ _ _ _ E Y). discriminate.
Qed.
Lemma array_not_list items d b o root r : (forall ds, d <> JList ds) -> r <> Err OutOfFuel ->
  (Loads (LArray items) d b o root r <-> r = Err ValidationException).
Proof.
  intros H N. rewrite Loads_body. unfold body. cbn [load_body]. destruct d; try (split; [intros [_ [n X]]; congruence|intros ->; split; [auto|exists 0; auto]]).
  destruct (H l eq_refl).
Qed.
(** An element is an item, or, first, an array of items *)
Lemma element_ok items d b o v : (forall e, d = JDict e -> dget "$import" e = None /\ dget "$include" e = None) ->
  (LoadsElement items d b o (Ok v) <->
   match d with
   | JList ds => Loads (LArray items) d b o None (Ok v) \/ Loads (LArray items) d b o None (Err ValidationException) /\ Loads items d b o None (Ok v)
   | _ => Loads items d b o None (Ok v)
   end).
Proof.
  intros H. unfold LoadsElement. rewrite LoadsField_plain by auto. rewrite union_ok.
  assert (E : (exists pre t post, [LArray items; items] = pre ++ t :: post /\ Forall (fun t => Loads t d b o None (Err ValidationException)) pre /\ Loads t d b o None (Ok v))
    <-> Loads (LArray items) d b o None (Ok v) \/ Loads (LArray items) d b o None (Err ValidationException) /\ Loads items d b o None (Ok v)).
  { split.
    - intros (pre & t & post & X & F & L). destruct pre as [|p pre]; cbn [app] in X; inversion X; subst; [auto|]. inversion F; subst.
      destruct pre as [|p' pre]; cbn [app] in *; [|destruct pre; discriminate].
      match goal with Y : [_] = [_] |- _ => inversion Y; subst; auto | _ => idtac end. inversion X; subst. auto.
    - intros [L|[L1 L2]]; [exists [], (LArray items), [items]; auto|]. exists [LArray items], items, []. auto. }
  rewrite E. destruct d as [| | | | |ds|]; try reflexivity;
    (split; [intros [L|[_ L]]; [apply array_not_list in L; [discriminate|intros ? ?; discriminate|discriminate]|auto]|
             intros L; right; split; [apply array_not_list; [intros ? ?; discriminate|discriminate|auto]|auto]]).
Qed.

(** ** Loaders that rewrite the document first *)
Lemma Loads_via l inner d (T : result json) b o root b' o' root' r :
  (forall n, body (load n) (document_load n) l d b o root = do d' <- T; load n inner d' b' o' root') ->
  (Loads l d b o root r <-> match T with Ok d' => Loads inner d' b' o' root' r | Err e => r = Err e /\ e <> OutOfFuel end).
Proof.
  intros H. rewrite Loads_body. destruct T as [d'|e]; cbn [bind] in H.
  - unfold Loads. split; intros [N [n E]]; (split; [auto|exists n]); [rewrite <- E; auto|rewrite H; auto].
  - split.
    + intros [N [n E]]. rewrite H in E. split; [auto|congruence].
    + intros [-> N]. split; [congruence|exists 0; auto].
Qed.

Lemma id_map_via inner s p d b o root r : Loads (LIdMap inner s p) d b o root r <->
  match id_map s p d with Ok d' => Loads inner d' b o None r | Err e => r = Err e /\ e <> OutOfFuel end.
Proof. apply Loads_via. intros n. reflexivity. Qed.
Lemma secondary_via inner d b o root r : Loads (LSecondary inner) d b o root r <->
  match secondary_dsl d with Ok l => Loads inner (JList l) b o root r | Err e => r = Err e /\ e <> OutOfFuel end.
Proof.
  rewrite (Loads_via _ inner d (do l <- secondary_dsl d; Ok (JList l)) b o root b o root).
  - destruct (secondary_dsl d); reflexivity.
  - intros n. unfold body. cbn [load_body]. destruct (secondary_dsl d); reflexivity.
Qed.
Definition resolved (b : string) (o : options) (refScope : option nat) (salad : string) (d : json) : result json :=
  type_dsl (fun s =>
    do old <- (if endswith "[]" (if endswith "?" s then sdrop_last 1 s else s) then salad_before_1_3 salad else Ok true);
    resolve (S (String.length s)) (fun u => expand_url urljoin supported_schemes u b o false true refScope) old s) d.
Lemma type_dsl_via inner refScope salad d b o root r : Loads (LTypeDSL inner refScope salad) d b o root r <->
  match resolved b o refScope salad d with Ok d' => Loads inner d' b o None r | Err e => r = Err e /\ e <> OutOfFuel end.
Proof. apply Loads_via. intros n. reflexivity. Qed.
Lemma proxy_via name l d b o root r : proxies name = Some l -> (Loads (LProxy name) d b o root r <-> Loads l d b o None r).
Proof. intros P. apply (Loads_via _ l d (Ok d)). intros n. unfold body. cbn [load_body]. rewrite P. auto. Qed.

(** ** Objects *)
Definition Scoped (o : options) (name base b : string) : Prop := expand_url urljoin supported_schemes name base o true false None = Ok b.
Definition Expands (o : options) (k k' : string) : Prop := expand_url urljoin supported_schemes k "" o false false None = Ok k'.
Definition FieldLoads (o : options) (j : json) (l : loader) (b : string) (r : result lv) : Prop := LoadsField j l b o r.

Lemma noted_ok {A} (r : result A) a : noted r = Ok (Some a) <-> r = Ok a.
Proof. destruct r as [x|[]]; cbn; split; intros X; congruence. Qed.

Section AtFuel.
Variables (n : nat) (o : options).
Let fld (j : json) (l : loader) (b : string) (r : result lv) : Prop := field_of (load n) (document_load n) j l b o = r.
Lemma one_ok d base f v : load_one urljoin supported_schemes (fun l v b => field_of (load n) (document_load n) v l b o) base o d f = Ok (Some v) <->
  FieldValue fld (Scoped o) d base f v.
Proof.
  unfold load_one. split.
  - destruct (if f_subscope f then _ else _) as [b|e] eqn:S; cbn [bind]; [|discriminate].
    assert (SC : ScopeOf (Scoped o) f base b) by (unfold ScopeOf, Scoped; destruct (f_subscope f); congruence).
    destruct (dget (f_name f) d) as [j|] eqn:G.
    + intros X. assert (Y : (f_required f = true -> j <> JNull) /\ field_of (load n) (document_load n) j (f_loader f) b o = Ok v).
      { destruct j; try (apply (proj1 (noted_ok _ _)) in X; split; [discriminate|exact X]). destruct (f_required f); [discriminate|]. apply (proj1 (noted_ok _ _)) in X. split; [discriminate|exact X]. }
      destruct Y as [Y1 Y2]. eapply Field_present; eauto.
    + destruct (f_required f) eqn:R; [discriminate|]. intros X. injection X as <-. eapply Field_absent; eauto.
  - intros H. assert (SC : forall b, ScopeOf (Scoped o) f base b ->
        (if f_subscope f then expand_url urljoin supported_schemes (f_name f) base o true false None else Ok base) = Ok b).
    { unfold ScopeOf, Scoped. intros b. destruct (f_subscope f); [auto|congruence]. }
    destruct H as [b S G R|b j v S G R L]; rewrite (SC b S); cbn [bind]; rewrite G.
    + rewrite R. auto.
    + unfold fld in L. destruct j; try (apply (proj2 (noted_ok _ _)); exact L). destruct (f_required f); [destruct R; auto|]. apply (proj2 (noted_ok _ _)). exact L.
Qed.
Lemma fields_ok d base fs l : load_fields urljoin supported_schemes (fun l v b => field_of (load n) (document_load n) v l b o) base o d fs = Ok (Some l) <->
  Forall2 (fun f kv => fst kv = f_name f /\ FieldValue fld (Scoped o) d base f (snd kv)) fs l.
Proof.
  revert l. induction fs as [|f fs IH]; intros l; cbn [load_fields].
  - split; [intros X; injection X as <-; constructor|intros F; inversion F; auto].
  - split.
    + destruct (load_one _ _ _ base o d f) as [[v|]|e] eqn:E; cbn [bind]; try discriminate;
        destruct (load_fields _ _ _ base o d fs) as [[r|]|e'] eqn:R; cbn [bind]; try discriminate.
      intros X. injection X as <-. constructor; [split; [auto|]|apply IH; auto]. cbn [snd]. apply one_ok. exact E.
    + intros F. inversion F as [|f' [k v] fs' l' [K V] F' E1 E2]; subst. cbn [fst snd] in *. subst k. apply one_ok in V. rewrite V. cbn [bind].
      apply IH in F'. rewrite F'. auto.
Qed.
Lemma id_ok k d base root i b : load_id urljoin fetch_text read_yaml uuid (load n) (document_load n) k d base o root = Ok (Some (i, b)) <->
  Identity fld (uuid (JDict d)) k d base root i b.
Proof.
  unfold load_id. split.
  - destruct (c_id k) as [[[name req] idl]|] eqn:C; [|intros X; injection X as <- <-; apply Identity_none; auto].
    destruct (dget name d) as [j|] eqn:G.
    + change (load_field urljoin fetch_text read_yaml (load n) (document_load n) j idl base o) with (field_of (load n) (document_load n) j idl base o).
      destruct (field_of (load n) (document_load n) j idl base o) as [v|e] eqn:L; cbn [noted bind].
      * destruct v; cbn [bind]; try discriminate.
        -- assert (N : dget name d = None \/ exists j, dget name d = Some j /\ fld j idl base (Ok VNull)) by (right; exists j; auto).
           destruct root as [r|]; [intros X; injection X as <- <-; eapply Identity_root; eauto|].
           destruct req; [discriminate|]. intros X. injection X as <- <-. eapply Identity_blank; eauto.
        -- intros X. injection X as <- <-. eapply Identity_given; eauto.
      * destruct e; discriminate.
    + cbn [bind]. destruct root as [r|]; [intros X; injection X as <- <-; eapply Identity_root; eauto|].
      destruct req; [discriminate|]. intros X. injection X as <- <-. eapply Identity_blank; eauto.
  - assert (A : forall j idl r, fld j idl base r -> load_field urljoin fetch_text read_yaml (load n) (document_load n) j idl base o = r) by (intros; auto).
    intros [C|name req l j s C G L|name req l r C G ->|name l C G ->]; rewrite C.
    + auto.
    + rewrite G. rewrite (A _ _ _ L). auto.
    + destruct G as [G|[j [G L]]]; rewrite G; [auto|]. rewrite (A _ _ _ L). auto.
    + destruct G as [G|[j [G L]]]; rewrite G; [auto|]. rewrite (A _ _ _ L). auto.
Qed.
Lemma class_ok k d base c : load_class urljoin fetch_text read_yaml (load n) (document_load n) k d base o = Ok c <->
  Classed fld k (vocab o) d base c.
Proof.
  unfold load_class. split.
  - destruct (c_class k) as [l|] eqn:C; [|intros X; injection X as <-; apply Classed_none; auto].
    destruct (dget "class" d) as [j|] eqn:G; [|discriminate]. intros X.
    assert (Y : j <> JNull /\ (do c <- load_field urljoin fetch_text read_yaml (load n) (document_load n) j l base o;
      match c with
      | VStr s => if String.eqb s (c_name k) || match dget (c_name k) (vocab o) with Some t => String.eqb s t | None => false end
                  then Ok [("class", VStr (c_name k))] else Err ValidationException
      | _ => Err ValidationException
      end) = Ok c) by (destruct j; [discriminate| | | | | |]; split; congruence).
    clear X. destruct Y as [N X]. destruct (load_field _ _ _ _ _ j l base o) as [v|] eqn:L; cbn [bind] in X; [|discriminate].
    destruct v; try discriminate. destruct (String.eqb s (c_name k) || _) eqn:M; [|discriminate]. injection X as <-.
    eapply Classed_by; eauto. apply Bool.orb_true_iff in M. destruct M as [M|M]; [left; apply String.eqb_eq; auto|right].
    destruct (dget (c_name k) (vocab o)); [|discriminate]. apply String.eqb_eq in M. congruence.
  - intros [C|l j s C G N L M]; rewrite C; [auto|]. rewrite G.
    assert (E : load_field urljoin fetch_text read_yaml (load n) (document_load n) j l base o = Ok (VStr s)) by exact L.
    assert (Q : (String.eqb s (c_name k) || match dget (c_name k) (vocab o) with Some t => String.eqb s t | None => false end) = true).
    { destruct M as [->|M]; [rewrite String.eqb_refl; auto|]. rewrite M, String.eqb_refl. apply Bool.orb_true_r. }
    destruct j; try congruence; rewrite E; cbn [bind]; rewrite Q; auto.
Qed.
End AtFuel.
Lemma ext_ok o k d : forall acc r, load_extensions urljoin supported_schemes o (attrs k) d acc = Ok (Some r) <->
  exists ext, Forall2 (Extension (Expands o)) (others k d) ext /\ r = dupdate acc ext.
Proof.
  induction d as [|[key v] d IH]; intros acc r; cbn [load_extensions others filter fst].
  - split; [intros X; exists []; split; [constructor|cbn; congruence]|intros (ext & F & ->); inversion F; auto].
  - destruct (smem key (attrs k)) eqn:M; cbn [negb]; [apply IH|].
    destruct (String.eqb key "" || negb (has_char ":" key)) eqn:B.
    + split.
      * destruct (load_extensions _ _ o (attrs k) d acc) as [[x|]|]; cbn [bind]; discriminate.
      * intros (ext & F & _). inversion F as [|kv kv' l l' [H _] F' E1 E2]; subst. cbn [fst] in H. rewrite H in B.
        apply Bool.orb_true_iff in B. destruct B as [B|B]; [|discriminate]. apply String.eqb_eq in B. subst. discriminate.
    + assert (H : has_char ":" key = true) by (destruct (has_char ":" key); auto; rewrite Bool.orb_true_r in B; discriminate). split.
      * destruct (expand_url _ _ key "" o false false None) as [ex|] eqn:E; cbn [bind]; [|discriminate]. intros X. apply IH in X.
        destruct X as (ext & F & ->). exists ((ex, v) :: ext). split; [|reflexivity]. constructor; [|exact F]. split; [auto|]. split; [exact E|auto].
      * intros (ext & F & ->). inversion F as [|kv [ex v'] l l' [_ [E V]] F' E1 E2]; subst. cbn [fst snd] in *. subst v'. unfold Expands in E. rewrite E. cbn [bind].
        apply IH. exists l'. auto.
Qed.

Lemma from_doc_ok n k d base o root v : from_doc urljoin supported_schemes fetch_text read_yaml uuid (load n) (document_load n) k d base o root = Ok v <->
  Object (fun j l b r => field_of (load n) (document_load n) j l b o = r) (Scoped o) (Expands o) (uuid (JDict d)) k (vocab o) d base root v.
Proof.
  unfold from_doc. split.
  - destruct (load_id _ _ _ _ _ _ k d base o root) as [[[i b]|]|] eqn:I; cbn [bind]; cbv zeta; try discriminate;
    (destruct (load_class _ _ _ _ _ k d _ o) as [c|] eqn:C; cbn [bind]; [|discriminate]);
    (destruct (load_fields _ _ _ _ o d (c_fields k)) as [[fs|]|] eqn:F; cbn [bind]; try discriminate);
    (destruct (load_extensions _ _ o (attrs k) d []) as [[ext|]|] eqn:X; cbn [bind]; try discriminate).
    intros Y. injection Y as <-. apply id_ok in I. apply class_ok in C. apply fields_ok in F. apply ext_ok in X. destruct X as (x & X & ->).
    exists i, b, c, fs, x. auto.
  - intros (i & b & c & fs & ext & I & C & F & X & ->). apply id_ok in I. apply class_ok in C. apply fields_ok in F.
    assert (E : load_extensions urljoin supported_schemes o (attrs k) d [] = Ok (Some (dupdate [] ext))) by (apply ext_ok; eauto).
    rewrite I. cbn [bind]. cbv zeta. rewrite C. cbn [bind]. unfold field_of in F. rewrite F. cbn [bind]. rewrite E. auto.
Qed.

(** An object at one amount of fuel is an object, and conversely *)
Lemma Object_mono (P Q : json -> loader -> string -> result lv -> Prop) sc ex bl k names d base root v :
  (forall j l b w, P j l b (Ok w) -> Q j l b (Ok w)) -> Object P sc ex bl k names d base root v -> Object Q sc ex bl k names d base root v.
Proof.
  intros H (i & b & c & fs & ext & I & C & F & X & ->). exists i, b, c, fs, ext. split; [|split; [|split; [|split; [auto|auto]]]].
  - destruct I as [I|n req l j s I G L|n req l r I G R|n l I G R].
    + apply Identity_none; auto.
    + eapply Identity_given; eauto.
    + eapply Identity_root; eauto. destruct G as [G|[j [G L]]]; [auto|right; eauto].
    + eapply Identity_blank; eauto. destruct G as [G|[j [G L]]]; [auto|right; eauto].
  - destruct C as [C|l j s C G N L M]; [apply Classed_none; auto|eapply Classed_by; eauto].
  - eapply F2_impl; [|exact F]. intros f kv [K V]. split; [auto|]. destruct V as [b' S G R|b' j v S G R L]; [eapply Field_absent; eauto|eapply Field_present; eauto].
Qed.
Lemma Object_fuel o sc ex bl k names d base root v : Object (FieldLoads o) sc ex bl k names d base root v ->
  exists n, Object (fun j l b r => field_of (load n) (document_load n) j l b o = r) sc ex bl k names d base root v.
Proof.
  intros (i & b & c & fs & ext & I & C & F & X & ->).
  set (Q := fun n j l b r => field_of (load n) (document_load n) j l b o = r).
  assert (M : forall n m j l b w, n <= m -> Q n j l b (Ok w) -> Q m j l b (Ok w)) by (intros n m j l b' w L Y; eapply field_ge; eauto; discriminate).
  assert (I' : exists n, Identity (Q n) bl k d base root i b).
  { destruct I as [I|n req l j s I G L|n req l r I G R|n l I G R].
    - exists 0. apply Identity_none; auto.
    - destruct L as [_ [m L]]. exists m. eapply Identity_given; eauto.
    - destruct G as [G|[j [G [_ [m L]]]]]; [exists 0; eapply Identity_root; eauto|exists m; eapply Identity_root; eauto; right; exists j; auto].
    - destruct G as [G|[j [G [_ [m L]]]]]; [exists 0; eapply Identity_blank; eauto|exists m; eapply Identity_blank; eauto; right; exists j; auto]. }
  assert (C' : exists n, Classed (Q n) k names d b c).
  { destruct C as [C|l j s C G N [_ [m L]] S]; [exists 0; apply Classed_none; auto|exists m; eapply Classed_by; eauto]. }
  assert (V : forall n m f v, n <= m -> FieldValue (Q n) sc d b f v -> FieldValue (Q m) sc d b f v).
  { intros n m f v L [b' S G R|b' j w S G R Y]; [eapply Field_absent; eauto|eapply Field_present; eauto]. }
  destruct (fuel_for2 (fun f (kv : string * lv) n => fst kv = f_name f /\ FieldValue (Q n) sc d b f (snd kv)) (c_fields k) fs) as [n3 F'].
  { intros f kv i' j' [K Y] L. split; [auto|]. eapply V; eauto. }
  { eapply F2_impl; [|exact F]. intros f kv [K [b' S G R|b' j w S G R [_ [m Y]]]]; [exists 0; split; [auto|eapply Field_absent; eauto]|].
    exists m. split; [auto|]. eapply Field_present; eauto. }
  destruct I' as [n1 I']. destruct C' as [n2 C']. set (n := Nat.max n1 (Nat.max n2 n3)).
  assert (M1 : n1 <= n) by (unfold n; lia). assert (M2 : n2 <= n) by (unfold n; lia). assert (M3 : n3 <= n) by (unfold n; lia).
  exists n. exists i, b, c, fs, ext. split; [|split; [|split; [|split; [auto|auto]]]].
  - destruct I' as [I'|n' req l j s I' G L|n' req l r I' G R|n' l I' G R].
    + apply Identity_none; auto.
    + eapply Identity_given; eauto. apply (M n1 n); auto.
    + eapply Identity_root; eauto. destruct G as [G|[j [G L]]]; [auto|right; exists j; split; [auto|apply (M n1 n); auto]].
    + eapply Identity_blank; eauto. destruct G as [G|[j [G L]]]; [auto|right; exists j; split; [auto|apply (M n1 n); auto]].
  - destruct C' as [C'|l j s C' G N L S]; [apply Classed_none; auto|eapply Classed_by; eauto]. apply (M n2 n); auto.
  - eapply F2_impl; [|exact F']. intros f kv [K Y]. split; [auto|]. apply (V n3 n); auto.
Qed.

Lemma record_ok cls c nlc k d base o root v : classes cls = Some k -> (Loads (LRecord cls c nlc) (JDict d) base o root (Ok v) <->
  let o' := with_container c nlc o in Object (FieldLoads o') (Scoped o') (Expands o') (uuid (JDict d)) k (vocab o) d base root v).
Proof.
  intros K. cbv zeta. rewrite Loads_body. unfold body. cbn [load_body]. rewrite K. split.
  - intros [_ [n X]]. apply from_doc_ok in X. eapply Object_mono; [|exact X]. intros j l b w Y. split; [discriminate|exists n; exact Y].
  - intros X. split; [discriminate|]. apply Object_fuel in X. destruct X as [n X]. exists n. apply from_doc_ok. exact X.
Qed.
Lemma record_not_map cls c nlc d base o root r : (forall e, d <> JDict e) -> r <> Err OutOfFuel -> (Loads (LRecord cls c nlc) d base o root r <-> r = Err ValidationException).
Proof.
  intros H N. rewrite Loads_body. unfold body. cbn [load_body].
  destruct d as [| | | | | |e]; try (split; [intros [_ [n X]]; congruence|intros ->; split; [auto|exists 0; auto]]). destruct (H e eq_refl).
Qed.

End Loaders.
