(** * Proofs that loading a document without imports ends *)
From Verif Require Import PyBase PyBaseProofs NameProofs ParserModel LoaderModel LoaderProofs ShorthandProofs VersionModel VersionSpec RefusalProofs.
From Coq Require Import Lia.

Lemma In_dset {V} k (v : V) k0 v0 : forall d, In (k, v) (dset k0 v0 d) -> In (k, v) d \/ (k, v) = (k0, v0).
Proof.
  induction d as [|[k' v'] a IH]; cbn; [intros [E|[]]; auto|].
  destruct (String.eqb_spec k0 k') as [<-|N]; cbn; intros [E|I]; auto. destruct (IH I); auto.
Qed.
(** Induction over loaders *)
Section LoaderInd.
Variable P : loader -> Prop.
Hypotheses (h1 : P LAny) (h2 : forall tp, P (LPrim tp)) (h3 : forall ss, P (LEnum ss)) (h4 : P LExpression) (h5 : forall i, P i -> P (LArray i))
  (h6 : forall v c n, P v -> P (LMap v c n)) (h7 : forall i, P i -> P (LSecondary i)) (h8 : forall c cn n, P (LRecord c cn n))
  (h9 : forall ls, Forall P ls -> P (LUnion ls)) (h10 : forall i a b c n, P i -> P (LUri i a b c n)) (h11 : forall i r s, P i -> P (LTypeDSL i r s))
  (h12 : forall i s p, P i -> P (LIdMap i s p)) (h13 : forall n, P (LProxy n)).
Fixpoint loader_ind' (l : loader) : P l :=
  match l with
  | LAny => h1 | LPrim tp => h2 tp | LEnum ss => h3 ss | LExpression => h4 | LArray i => h5 i (loader_ind' i)
  | LMap v c n => h6 v c n (loader_ind' v) | LSecondary i => h7 i (loader_ind' i) | LRecord c cn n => h8 c cn n
  | LUnion ls => h9 ls ((fix go (ls : list loader) : Forall P ls := match ls with [] => Forall_nil _ | l :: ls => Forall_cons l (loader_ind' l) (go ls) end) ls)
  | LUri i a b c n => h10 i a b c n (loader_ind' i) | LTypeDSL i r s => h11 i r s (loader_ind' i) | LIdMap i s p => h12 i s p (loader_ind' i) | LProxy n => h13 n
  end.
End LoaderInd.

(** ** What the tables must satisfy *)
Section Static.
Variables (known proxied : string -> bool).
Definition all_of_them (p : loader -> bool) : list loader -> bool := fix all ls := match ls with [] => true | l :: ls => p l && all ls end.
(** No shorthands of its own: it looks into the document at once *)
Fixpoint direct (l : loader) : bool :=
  match l with
  | LAny | LPrim _ | LEnum _ | LExpression => true
  | LArray i => direct i
  | LMap v _ _ => direct v
  | LRecord c _ _ => known c
  | LUnion ls => all_of_them direct ls
  | LProxy n => proxied n
  | _ => false
  end.
(** No named loader among the alternatives *)
Fixpoint shallow (l : loader) : bool :=
  match l with LProxy _ => false | LUnion ls => all_of_them shallow ls | _ => true end.
(** At most one shorthand *)
Fixpoint fieldable (l : loader) : bool :=
  match l with
  | LUri i _ _ _ _ => direct i
  | LSecondary i => direct i
  | LIdMap i s p => direct i && plain_key s && match p with Some p => plain_key p | None => true end
  | LTypeDSL i _ v => direct i && match salad_before_1_3 v with Ok b => b | Err _ => false end
  | LUnion ls => all_of_them fieldable ls
  | l => direct l
  end.
(** None of the two shorthands that make the document larger *)
Fixpoint no_dsl (l : loader) : bool :=
  match l with LTypeDSL _ _ _ | LSecondary _ => false | LUnion ls => all_of_them no_dsl ls | _ => true end.
Definition shorthand_keys : list string := ["items"; "pattern"; "required"].
Definition good_class (k : class) : bool :=
  match c_id k with Some (n, _, l) => fieldable l && no_dsl l | None => true end &&
  match c_class k with Some l => fieldable l && no_dsl l | None => true end &&
  forallb (fun f => fieldable (f_loader f) && (negb (smem (f_name f) shorthand_keys) || no_dsl (f_loader f))) (c_fields k).
Lemma all_Forall p ls : all_of_them p ls = true <-> Forall (fun l => p l = true) ls.
Proof. induction ls as [|l ls IH]; cbn; [split; auto|]. rewrite andb_true_iff, IH. split; [intros []; auto|inversion 1; auto]. Qed.
End Static.

(** ** Results that settle as the fuel grows *)
Definition Ev {A} (F : nat -> result A) : Prop := exists n r, r <> Err OutOfFuel /\ forall m, n <= m -> F m = r.
Lemma Ev_const {A} (r : result A) : r <> Err OutOfFuel -> Ev (fun _ => r).
Proof. intros N. exists 0, r. auto. Qed.
Lemma Ev_ext {A} (F G : nat -> result A) : (forall n, F n = G n) -> Ev G -> Ev F.
Proof. intros E (n & r & N & H). exists n, r. split; auto. intros m L. rewrite E. auto. Qed.
Lemma Ev_S {A} (F : nat -> result A) : Ev (fun n => F (S n)) -> Ev F.
Proof. intros (n & r & N & H). exists (S n), r. split; auto. intros [|m] L; [lia|]. apply H. lia. Qed.
Lemma Ev_bind {A B} (F : nat -> result A) (K : nat -> A -> result B) : Ev F -> (forall a, Ev (fun n => K n a)) -> Ev (fun n => bind (F n) (K n)).
Proof.
  intros (n & r & N & H) E. destruct r as [a|e].
  - destruct (E a) as (n' & r' & N' & H'). exists (Nat.max n n'), r'. split; auto. intros m L. rewrite H by lia. cbn [bind]. apply H'. lia.
  - exists n, (Err e). split; [congruence|]. intros m L. rewrite H by lia. reflexivity.
Qed.
Lemma Ev_noted {A} (F : nat -> result A) : Ev F -> Ev (fun n => noted (F n)).
Proof.
  intros (n & r & N & H). exists n, (noted r). split; [|intros m L; rewrite H by lia; reflexivity]. destruct r as [a|[]]; cbn [noted]; congruence.
Qed.
Lemma Ev_first (ls : list loader) (f : nat -> loader -> result lv) : Forall (fun l => Ev (fun n => f n l)) ls ->
  Ev (fun n => first_of (map (fun t => fun _ : unit => f n t) ls)).
Proof.
  induction 1 as [|l ls (n & r & N & H) F IH]; cbn [map first_of]; [apply Ev_const; discriminate|]. destruct IH as (n' & r' & N' & H').
  destruct (match r with Err ValidationException => true | _ => false end) eqn:D.
  - exists (Nat.max n n'), r'. split; auto. intros m L. rewrite H by lia. rewrite H' by lia. destruct r as [|[]]; try discriminate. reflexivity.
  - exists n, r. split; auto. intros m L. rewrite H by lia. destruct r as [|[]]; try discriminate; reflexivity.
Qed.
Lemma Ev_elements (f : nat -> json -> result lv) fl ds : Forall (fun d => Ev (fun n => f n d)) ds -> forall fields, Ev (fun n => load_elements (f n) fl fields ds).
Proof.
  induction 1 as [|d ds E F IH]; intros fields; cbn [load_elements]; [apply Ev_const; discriminate|]. apply Ev_bind; [apply Ev_noted; exact E|]. intros lf.
  destruct (match lf, element_id d with Some _, Some i => if existsb (json_eqb i) fields then (fields, true) else (fields ++ [i], false) | _, _ => (fields, false) end) as [fields' dup].
  apply (Ev_bind (fun n => load_elements (f n) fl fields' ds)); [apply IH|]. intros rest. apply Ev_const. destruct lf, rest; try discriminate. destruct dup; discriminate.
Qed.
Lemma Ev_values (f : nat -> json -> result lv) d : Forall (fun kv => Ev (fun n => f n (snd kv))) d -> Ev (fun n => load_values (f n) d).
Proof.
  induction 1 as [|[k v] d E F IH]; cbn [load_values]; [apply Ev_const; discriminate|]. apply Ev_bind; [apply Ev_noted; exact E|]. intros lf.
  apply (Ev_bind (fun n => load_values (f n) d)); [apply IH|]. intros rest. apply Ev_const. destruct lf, rest; discriminate.
Qed.

Section Ends.
Variables (urljoin : string -> string -> result string) (supported_schemes : list string) (check_exists : string -> result bool)
  (fetch_text : string -> result string) (read_yaml : string -> result json) (uuid : json -> string)
  (classes : string -> option class) (proxies : string -> option loader).
Hypothesis joins : forall b u, urljoin b u <> Err OutOfFuel.
Hypothesis checks : forall u, check_exists u <> Err OutOfFuel.
Variables (known proxied : string -> bool).
Hypothesis known_class : forall c, known c = true -> exists k, classes c = Some k /\ good_class known proxied k = true.
Hypothesis known_proxy : forall n, proxied n = true -> exists l, proxies n = Some l /\ direct known proxied l = true /\ shallow l = true.
Notation load := (load urljoin supported_schemes check_exists fetch_text read_yaml uuid classes proxies).
Notation document_load := (document_load urljoin supported_schemes check_exists fetch_text read_yaml uuid classes proxies).
Notation expand := (expand_url urljoin supported_schemes).
Notation direct := (direct known proxied).
Notation fieldable := (fieldable known proxied).

Definition Ends (l : loader) (d : json) : Prop := forall b o root, Ev (fun n => load n l d b o root).

Lemma expand_ends u b o si vt sr : expand u b o si vt sr <> Err OutOfFuel.
Proof.
  unfold expand_url. destruct (_ || _); [discriminate|]. destruct (_ && _); [discriminate|]. cbv zeta.
  match goal with |- bind ?r _ <> _ => assert (X : r <> Err OutOfFuel); [|destruct r as [w|e]; cbn [bind]; [|congruence]] end.
  - destruct (_ || _); [discriminate|]. destruct (_ && _); [discriminate|]. destruct sr as [n|]; [|apply joins]. destruct (String.eqb _ _); [discriminate|apply joins].
  - destruct vt; [|discriminate]. destruct (String.eqb _ _); [discriminate|]. destruct (dget _ _); discriminate.
Qed.
Lemma field_ends l d b o : self_contained d -> Ends l d -> Ev (fun n => load_field urljoin fetch_text read_yaml (load n) (document_load n) d l b o).
Proof.
  intros S E. apply (Ev_ext _ (fun n => load n l d b o None)); [|apply E]. intros n.
  apply (field_plain urljoin supported_schemes check_exists fetch_text read_yaml uuid classes proxies); auto.
Qed.
Lemma ends_union ls d : Forall (fun l => Ends l d) ls -> Ends (LUnion ls) d.
Proof.
  intros F b o root. apply Ev_S. apply (Ev_ext _ (fun n => first_of (map (fun t => fun _ : unit => load n t d b o root) ls))).
  - intros n. rewrite load_S. reflexivity.
  - apply (Ev_first ls (fun n t => load n t d b o root)). eapply Forall_impl; [|exact F]. intros l E. apply E.
Qed.
(** A loader that changes the document and goes on with another *)
Lemma ends_via l d inner (T : string -> options -> result json) b o root o' root' :
  (forall n, load (S n) l d b o root = do d' <- T b o; load n inner d' b o' root') -> T b o <> Err OutOfFuel ->
  (forall d', T b o = Ok d' -> Ends inner d') -> Ev (fun n => load n l d b o root).
Proof.
  intros H N E. apply Ev_S. apply (Ev_ext _ _ H). destruct (T b o) as [d'|e]; cbn [bind]; [apply E; reflexivity|apply Ev_const; congruence].
Qed.

(** ** Lists, mappings and other values *)
Lemma array_ends items ds : Forall self_contained ds -> Forall (fun d => Ends (LArray items) d /\ Ends items d) ds -> Ends (LArray items) (JList ds).
Proof.
  intros S F b o root. apply Ev_S.
  apply (Ev_ext _ (fun n => do r <- load_elements (fun d => load_field urljoin fetch_text read_yaml (load n) (document_load n) d (LUnion [LArray items; items]) b o) (flattens o) [] ds;
    match r with Some l => Ok (VSeq l) | None => Err ValidationException end)).
  - intros n. rewrite load_S. reflexivity.
  - apply (Ev_bind (fun n => load_elements (fun d => load_field urljoin fetch_text read_yaml (load n) (document_load n) d (LUnion [LArray items; items]) b o) (flattens o) [] ds)).
    + apply (Ev_elements (fun n d => load_field urljoin fetch_text read_yaml (load n) (document_load n) d (LUnion [LArray items; items]) b o)).
      clear - S F joins checks. induction S as [|d ds SD S IH]; [constructor|]. inversion F as [|x y [E1 E2] F']; subst. constructor; [|apply IH; exact F'].
      apply field_ends; [exact SD|]. apply ends_union. repeat constructor; auto.
    + intros [l|]; apply Ev_const; discriminate.
Qed.
Lemma map_ends values c nl d : Forall sc_pair d -> Forall (fun kv => Ends values (snd kv)) d -> Ends (LMap values c nl) (JDict d).
Proof.
  intros S F b o root. apply Ev_S.
  apply (Ev_ext _ (fun n => do r <- load_values (fun v => load_field urljoin fetch_text read_yaml (load n) (document_load n) v values b (with_container c nl o)) d;
    match r with Some d => Ok (VMap d) | None => Err ValidationException end)).
  - intros n. rewrite load_S. reflexivity.
  - apply (Ev_bind (fun n => load_values (fun v => load_field urljoin fetch_text read_yaml (load n) (document_load n) v values b (with_container c nl o)) d)).
    + apply (Ev_values (fun n v => load_field urljoin fetch_text read_yaml (load n) (document_load n) v values b (with_container c nl o))).
      clear - S F joins checks. induction S as [|d ds SD S IH]; [constructor|]. inversion F; subst. constructor; [|auto]. apply field_ends; [apply SD|auto].
    + intros [l|]; apply Ev_const; discriminate.
Qed.
Lemma fields_end o d : Forall sc_pair d -> forall fs base,
  Forall (fun f => forall j, dget (f_name f) d = Some j -> Ends (f_loader f) j) fs ->
  Ev (fun n => load_fields urljoin supported_schemes (fun l v b => load_field urljoin fetch_text read_yaml (load n) (document_load n) v l b o) base o d fs).
Proof.
  intros S fs base F. induction F as [|f fs H F IH]; cbn [load_fields]; [apply Ev_const; discriminate|].
  apply (Ev_bind (fun n => load_one urljoin supported_schemes (fun l v b => load_field urljoin fetch_text read_yaml (load n) (document_load n) v l b o) base o d f)).
  - unfold load_one. apply Ev_bind.
    + apply Ev_const. destruct (f_subscope f); [apply expand_ends|discriminate].
    + intros b. destruct (dget (f_name f) d) as [j|] eqn:G; [|apply Ev_const; destruct (f_required f); discriminate].
      assert (SJ : self_contained j) by (eapply sc_dget; eauto).
      assert (X : Ev (fun n => noted (load_field urljoin fetch_text read_yaml (load n) (document_load n) j (f_loader f) b o))).
      { apply Ev_noted. apply field_ends; [exact SJ|]. apply H. reflexivity. }
      destruct j; try exact X. destruct (f_required f); [apply Ev_const; discriminate|exact X].
  - intros v. apply (Ev_bind (fun n => load_fields urljoin supported_schemes (fun l v b => load_field urljoin fetch_text read_yaml (load n) (document_load n) v l b o) base o d fs)); [exact IH|].
    intros rest. apply Ev_const. destruct v, rest; discriminate.
Qed.
Lemma extensions_end o names d : forall ext, load_extensions urljoin supported_schemes o names d ext <> Err OutOfFuel.
Proof.
  induction d as [|[k v] d IH]; intros ext; cbn [load_extensions]; [discriminate|]. destruct (smem k names); [apply IH|]. destruct (_ || _).
  - specialize (IH ext). destruct (load_extensions _ _ _ _ d ext); cbn [bind]; congruence.
  - pose proof (expand_ends k "" o false false None) as X. destruct (expand_url _ _ k _ _ _ _ _); cbn [bind]; [apply IH|congruence].
Qed.
Lemma record_ends cls c nl k d : classes cls = Some k -> Forall sc_pair d ->
  (forall n req l j, c_id k = Some (n, req, l) -> dget n d = Some j -> Ends l j) ->
  (forall l j, c_class k = Some l -> dget "class" d = Some j -> Ends l j) ->
  Forall (fun f => forall j, dget (f_name f) d = Some j -> Ends (f_loader f) j) (c_fields k) -> Ends (LRecord cls c nl) (JDict d).
Proof.
  intros K S HI HC HF b o root. apply Ev_S.
  apply (Ev_ext _ (fun n => from_doc urljoin supported_schemes fetch_text read_yaml uuid (load n) (document_load n) k d b (with_container c nl o) root)).
  - intros n. rewrite load_S. cbn [load_body]. rewrite K. reflexivity.
  - unfold from_doc. set (o' := with_container c nl o).
    apply (Ev_bind (fun n => load_id urljoin fetch_text read_yaml uuid (load n) (document_load n) k d b o' root)).
    + unfold load_id. destruct (c_id k) as [[[nm req] idl]|] eqn:CI; [|apply Ev_const; discriminate].
      apply (Ev_bind (fun n => match dget nm d with None => Ok (Some VNull) | Some v => noted (load_field urljoin fetch_text read_yaml (load n) (document_load n) v idl b o') end)).
      * destruct (dget nm d) as [j|] eqn:G; [|apply Ev_const; discriminate]. apply Ev_noted, field_ends; [eapply sc_dget; eauto|]. eapply HI; eauto.
      * intros [[]|]; apply Ev_const; try discriminate. destruct root; [discriminate|]. destruct req; discriminate.
    + intros idr. cbv zeta. set (b' := match idr with Some (_, b1) => b1 | None => b end).
      apply (Ev_bind (fun n => load_class urljoin fetch_text read_yaml (load n) (document_load n) k d b' o')).
      * unfold load_class. destruct (c_class k) as [cll|] eqn:CC; [|apply Ev_const; discriminate]. destruct (dget "class" d) as [j|] eqn:G; [|apply Ev_const; discriminate].
        assert (X : Ev (fun n => do c0 <- load_field urljoin fetch_text read_yaml (load n) (document_load n) j cll b' o';
          match c0 with VStr s => if String.eqb s (c_name k) || match dget (c_name k) (vocab o') with Some t => String.eqb s t | None => false end then Ok [("class", VStr (c_name k))] else Err ValidationException | _ => Err ValidationException end)).
        { apply (Ev_bind (fun n => load_field urljoin fetch_text read_yaml (load n) (document_load n) j cll b' o')).
          - apply field_ends; [eapply sc_dget; eauto|]. eapply HC; eauto.
          - intros x. apply Ev_const. destruct x; try discriminate. destruct (_ || _); discriminate. }
        destruct j; try exact X. apply Ev_const. discriminate.
      * intros cl. apply (Ev_bind (fun n => load_fields urljoin supported_schemes (fun l v b => load_field urljoin fetch_text read_yaml (load n) (document_load n) v l b o') b' o' d (c_fields k))).
        -- apply fields_end; auto.
        -- intros fs. apply (Ev_bind (fun _ => load_extensions urljoin supported_schemes o' (attrs k) d [])); [apply Ev_const, extensions_end|].
           intros ext. apply Ev_const. destruct idr as [[]|]; [|discriminate]. destruct fs; [|discriminate]. destruct ext; discriminate.
Qed.
Lemma ends_now l d : (forall b o root n, load (S n) l d b o root <> Err OutOfFuel /\ load (S n) l d b o root = load 1 l d b o root) -> Ends l d.
Proof. intros H b o root. exists 1, (load 1 l d b o root). split; [apply H|]. intros [|m] L; [lia|]. apply H. Qed.

(** Loaders without shorthands, given what they need *)
Section Direct.
Variable d : json.
Hypothesis LA : forall items, direct items = true -> Ends (LArray items) d.
Hypothesis LM : forall v c nl, direct v = true -> Ends (LMap v c nl) d.
Hypothesis LR : forall c cn nl, known c = true -> Ends (LRecord c cn nl) d.
Lemma shallow_ends : forall l, direct l = true -> shallow l = true -> Ends l d.
Proof.
  intros l. induction l as [|tp|syms| |items _|values c nl _|inner _|cls c nl|alts IH|inner si vt sr nl _|inner rs salad _|inner subj pred _|name] using loader_ind';
    intros D S; try discriminate; cbn [EndProofs.direct shallow] in D, S.
  - apply ends_now. intros. rewrite !load_S. cbn [load_body]. split; [destruct d; discriminate|reflexivity].
  - apply ends_now. intros. rewrite !load_S. cbn [load_body]. split; [destruct (is_prim tp d); discriminate|reflexivity].
  - apply ends_now. intros. rewrite !load_S. cbn [load_body]. split; [destruct d; try discriminate; destruct (smem s syms); discriminate|reflexivity].
  - apply ends_now. intros. rewrite !load_S. cbn [load_body]. split; [destruct d; discriminate|reflexivity].
  - apply LA. exact D.
  - apply LM. exact D.
  - apply LR. exact D.
  - apply ends_union. clear LA LM LR. induction IH as [|a alts A IH IHa]; [constructor|]. cbn [all_of_them] in D, S. apply andb_true_iff in D, S. destruct D as [D1 D2], S as [S1 S2].
    constructor; [apply A; assumption|apply IHa; assumption].
Qed.
Lemma direct_ends : forall l, direct l = true -> Ends l d.
Proof.
  intros l. induction l as [|tp|syms| |items _|values c nl _|inner _|cls c nl|alts IH|inner si vt sr nl _|inner rs salad _|inner subj pred _|name] using loader_ind';
    intros D; try discriminate; try (apply shallow_ends; [exact D|reflexivity]).
  - apply ends_union. cbn [EndProofs.direct] in D. clear LA LM LR. induction IH as [|a alts A IH IHa]; [constructor|]. cbn [all_of_them] in D. apply andb_true_iff in D. destruct D as [D1 D2].
    constructor; [apply A; assumption|apply IHa; assumption].
  - cbn [EndProofs.direct] in D. destruct (known_proxy name D) as (l & P & DL & SL). intros b o root.
    apply (ends_via _ _ l (fun _ _ => Ok d) b o root o None); [|discriminate|].
    + intros n. rewrite load_S. cbn [load_body bind]. rewrite P. reflexivity.
    + intros d' [= <-]. apply shallow_ends; assumption.
Qed.
End Direct.

Definition DE (d : json) : Prop := forall l, direct l = true -> Ends l d.
Definition AE (d : json) : Prop := forall l, fieldable l = true -> Ends l d.
Lemma direct_fieldable : forall l, direct l = true -> fieldable l = true.
Proof.
  intros l. induction l as [|tp|syms| |items _|values c nl _|inner _|cls c nl|alts IH|inner si vt sr nl _|inner rs salad _|inner subj pred _|name] using loader_ind';
    intros D; try discriminate; auto.
  cbn [EndProofs.direct EndProofs.fieldable] in *. induction IH as [|a alts A IH IHa]; [reflexivity|]. cbn [all_of_them] in *. apply andb_true_iff in D. destruct D as [D1 D2].
  rewrite (A D1), (IHa D2). reflexivity.
Qed.
Lemma AE_DE d : AE d -> DE d.
Proof. intros A l D. apply A, direct_fieldable, D. Qed.
Definition scalar (d : json) : bool := match d with JList _ | JDict _ => false | _ => true end.
Lemma scalar_DE d : scalar d = true -> DE d.
Proof.
  intros S l. apply (direct_ends d); intros; apply ends_now; intros; rewrite !load_S; cbn [load_body]; destruct d; try discriminate; (split; [discriminate|reflexivity]).
Qed.
Lemma list_DE ds : Forall self_contained ds -> Forall DE ds -> DE (JList ds).
Proof.
  intros S F l. apply (direct_ends (JList ds)).
  - intros items D. apply array_ends; auto. eapply Forall_impl; [|exact F]. intros e E. split; apply E; auto.
  - intros v c nl _. apply ends_now. intros. rewrite !load_S. cbn [load_body]. split; [discriminate|reflexivity].
  - intros c cn nl _. apply ends_now. intros. rewrite !load_S. cbn [load_body]. split; [discriminate|reflexivity].
Qed.
Lemma dict_DE d : Forall sc_pair d -> Forall (fun kv => DE (snd kv)) d ->
  (forall k x, dget k d = Some x -> forall l, fieldable l = true -> (smem k shorthand_keys = false \/ no_dsl l = true) -> Ends l x) -> DE (JDict d).
Proof.
  intros S F H l0. apply (direct_ends (JDict d)).
  - intros items _. apply ends_now. intros. rewrite !load_S. cbn [load_body]. split; [discriminate|reflexivity].
  - intros v c nl D. apply map_ends; auto. eapply Forall_impl; [|exact F]. intros e E. apply E. exact D.
  - intros c cn nl KN. destruct (known_class c KN) as (k & K & G). unfold good_class in G. apply andb_true_iff in G. destruct G as [G GF]. apply andb_true_iff in G. destruct G as [GI GC].
    apply (record_ends c cn nl k d K S).
    + intros n req l j E GD. rewrite E in GI. apply andb_true_iff in GI. destruct GI as [G1 G2]. apply (H n j GD l G1). auto.
    + intros l j E GD. rewrite E in GC. apply andb_true_iff in GC. destruct GC as [G1 G2]. apply (H "class" j GD l G1). auto.
    + apply Forall_forall. intros f IF j GD. apply (proj1 (forallb_forall _ _) GF) in IF. apply andb_true_iff in IF. destruct IF as [G1 G2].
      apply (H (f_name f) j GD _ G1). apply orb_true_iff in G2. destruct G2 as [G2|G2]; [left; apply negb_true_iff; exact G2|auto].
Qed.

(** ** Loaders with a shorthand *)
Lemma uri_ends i si vt sr nl d : direct i = true -> DE d -> (match d with JList ds => Forall self_contained ds /\ Forall DE ds | _ => True end) -> Ends (LUri i si vt sr nl) d.
Proof.
  intros D E K b o root.
  set (T := fun (b : string) (o : options) =>
    let o' := with_container None nl o in
    do doc <- (match d with
               | JList l => do l <- mapM (fun i => match i with JStr s => do u <- expand s b o' si vt sr; Ok (JStr u) | _ => Ok i end) l; Ok (JList l)
               | JStr s => do u <- expand s b o' si vt sr; Ok (JStr u)
               | _ => Ok d
               end);
    do _ <- (match doc with
             | JStr s => if no_link_check o' then Ok tt
                         else match check_exists s with Ok true => Ok tt | Ok false => Err ValidationException | Err ValidationException => Ok tt | Err e => Err e end
             | _ => Ok tt
             end);
    Ok doc).
  assert (MN : forall l o', mapM (fun i => match i with JStr s => do u <- expand s b o' si vt sr; Ok (JStr u) | _ => Ok i end) l <> Err OutOfFuel).
  { intros l o'. induction l as [|x l IH]; cbn [mapM]; [discriminate|].
    match goal with |- bind ?r _ <> _ => assert (X : r <> Err OutOfFuel); [|destruct r; cbn [bind]; [|congruence]] end.
    - destruct x; try discriminate. pose proof (expand_ends s b o' si vt sr) as X. destruct (expand_url _ _ s b o' si vt sr); cbn [bind]; congruence.
    - match goal with |- bind ?r _ <> _ => destruct r; cbn [bind]; congruence end. }
  apply (ends_via _ _ i T b o root (with_container None nl o) None).
  - intros n. rewrite load_S. cbn [load_body]. unfold T. cbv zeta. match goal with |- bind ?r _ = _ => destruct r as [j|]; cbn [bind]; [|reflexivity] end.
    match goal with |- bind ?r _ = _ => destruct r as [[]|]; cbn [bind]; reflexivity end.
  - unfold T. cbv zeta. match goal with |- bind ?r _ <> _ => assert (X : r <> Err OutOfFuel); [|destruct r as [j|]; cbn [bind]; [|congruence]] end.
    + destruct d; try discriminate.
      * match goal with |- bind (expand_url ?a1 ?a2 ?a3 ?a4 ?a5 ?a6 ?a7 ?a8) _ <> _ => pose proof (expand_ends a3 a4 a5 a6 a7 a8) as X; destruct (expand_url a1 a2 a3 a4 a5 a6 a7 a8); cbn [bind]; congruence end.
      * match goal with |- bind (mapM ?f ?l) _ <> _ => pose proof (MN l (with_container None nl o)) as X; destruct (mapM f l); cbn [bind]; congruence end.
    + match goal with |- bind ?r _ <> _ => assert (Y : r <> Err OutOfFuel); [|destruct r as [[]|]; cbn [bind]; congruence] end.
      destruct j; try discriminate. destruct (no_link_check _); [discriminate|]. specialize (checks s). destruct (check_exists s) as [[]|[]]; try discriminate. congruence.
  - intros d' H. unfold T in H. cbv zeta in H.
    assert (E' : DE d'); [|apply E'; exact D].
    match type of H with bind ?r _ = _ => destruct r as [j|] eqn:J; cbn [bind] in H; [|discriminate] end.
    match type of H with bind ?r _ = _ => destruct r as [[]|]; cbn [bind] in H; [|discriminate] end. injection H as <-.
    destruct d; try (injection J as <-; exact E).
    + match type of J with bind ?r _ = _ => destruct r; cbn [bind] in J; [|discriminate] end. injection J as <-. apply scalar_DE. reflexivity.
    + match type of J with bind ?r _ = _ => destruct r as [x|] eqn:M; cbn [bind] in J; [|discriminate] end. injection J as <-. destruct K as [K1 K2].
      apply mapM_Ok in M.
      assert (R : Forall self_contained x /\ Forall DE x).
      { clear - M K1 K2 joins checks known_class known_proxy. induction M as [|y z l x H M IH]; [auto|]. inversion K1; subst. inversion K2; subst. destruct IH as [I1 I2]; auto.
        assert (Z : self_contained z /\ DE z); [|destruct Z; split; constructor; auto].
        destruct y; try (injection H as <-; auto). match type of H with bind ?r _ = _ => destruct r; cbn [bind] in H; [|discriminate] end. injection H as <-. split; [exact I|apply scalar_DE; reflexivity]. }
      apply list_DE; apply R.
Qed.
Lemma ends_to l d inner d' : (forall b o root n, load (S n) l d b o root = load n inner d' b o (match l with LSecondary _ => root | _ => None end)) -> Ends inner d' -> Ends l d.
Proof. intros H E b o root. apply Ev_S. apply (Ev_ext _ _ (H b o root)). apply E. Qed.
Lemma ends_error l d e : e <> OutOfFuel -> (forall b o root n, load (S n) l d b o root = Err e) -> Ends l d.
Proof. intros N H. apply ends_now. intros. rewrite !H. split; [congruence|reflexivity]. Qed.
Lemma id_map_ends i s p d : direct i = true -> DE d -> (forall e, d = JDict e -> forall ds, id_map s p (JDict e) = Ok (JList ds) -> Forall self_contained ds /\ Forall DE ds) -> Ends (LIdMap i s p) d.
Proof.
  intros D E H. destruct (id_map s p d) as [d'|e] eqn:M.
  - apply (ends_to _ _ i d'); [intros; rewrite load_S; cbn [load_body]; rewrite M; reflexivity|].
    destruct d; try (cbn [id_map] in M; injection M as <-; apply E; exact D).
    assert (X : exists ds, d' = JList ds). { cbn [id_map] in M. destruct (mapM _ d) as [r|]; cbn [bind] in M; [|discriminate]. exists r. congruence. }
    destruct X as [ds ->]. destruct (H d eq_refl ds M). apply list_DE; auto.
  - apply (ends_error _ _ e); [|intros; rewrite load_S; cbn [load_body]; rewrite M; reflexivity].
    destruct d; try discriminate. cbn [id_map] in M. intros ->. clear H E. induction d as [|kv d IH]; cbn [mapM bind] in M; [discriminate|].
    destruct (id_map_entry s p (fst kv) (snd kv)) eqn:X; cbn [bind] in M.
    + apply IH. destruct (mapM (fun kv0 => id_map_entry s p (fst kv0) (snd kv0)) d); cbn [bind] in *; congruence.
    + apply id_map_entry_err in X. congruence.
Qed.
(** No-shorthand fields on texts and other values *)
Lemma no_dsl_scalar d : scalar d = true -> forall l, fieldable l = true -> no_dsl l = true -> Ends l d.
Proof.
  intros S l. induction l as [|tp|syms| |items _|values c nl _|inner _|cls c nl|alts IH|inner si vt sr nl _|inner rs salad _|inner subj pred _|name] using loader_ind';
    intros D N; try discriminate; try (apply scalar_DE; assumption).
  - apply ends_union. cbn [EndProofs.fieldable no_dsl] in D, N. induction IH as [|a alts A IH IHa]; [constructor|]. cbn [all_of_them] in D, N.
    apply andb_true_iff in D, N. destruct D, N. constructor; auto.
  - cbn [EndProofs.fieldable] in D. apply uri_ends; auto; [apply scalar_DE; exact S|]. destruct d; try exact I; discriminate.
  - cbn [EndProofs.fieldable] in D. apply andb_true_iff in D. destruct D as [D _]. apply andb_true_iff in D. destruct D as [D _]. apply id_map_ends; auto; [apply scalar_DE; exact S|].
    intros e ->. discriminate.
Qed.
Definition typed (b : string) (o : options) (rs : option nat) (d : json) : result json :=
  type_dsl (fun s => resolve (S (String.length s)) (fun u => expand u b o false true rs) true s) d.
Lemma type_dsl_ext f g d : (forall s, f s = g s) -> type_dsl f d = type_dsl g d.
Proof.
  intros X. destruct d; cbn [type_dsl]; auto. f_equal. generalize (@nil json). induction l as [|y l IH]; intros r; [reflexivity|]. cbn [resolve_list]. destruct y; auto.
  rewrite X. destruct (g s); cbn [bind]; auto.
Qed.
Lemma type_dsl_ends f d : (forall s, f s <> Err OutOfFuel) -> type_dsl f d <> Err OutOfFuel.
Proof.
  intros N. destruct d; try discriminate; cbn [type_dsl]; auto.
  assert (X : forall r, resolve_list f r l <> Err OutOfFuel).
  { induction l as [|y l IH]; intros r; cbn [resolve_list]; [discriminate|]. destruct y; auto. specialize (N s). destruct (f s); cbn [bind]; [auto|congruence]. }
  specialize (X []). destruct (resolve_list f [] l); cbn [bind]; congruence.
Qed.
Lemma type_dsl_DE f d r : (forall s j, f s = Ok j -> self_contained j /\ DE j /\ match j with JList l => Forall DE l | _ => True end) -> self_contained d -> DE d -> (match d with JList ds => Forall DE ds | _ => True end) ->
  type_dsl f d = Ok r -> DE r.
Proof.
  intros F S E K H. destruct d; try (injection H as <-; exact E); cbn [type_dsl] in H; [eapply F; eauto|].
  destruct (resolve_list f [] l) as [x|] eqn:R; cbn [bind] in H; [|discriminate]. injection H as <-. apply sc_list in S.
  assert (G : forall ds r x, resolve_list f r ds = Ok x -> Forall self_contained ds -> Forall DE ds -> Forall self_contained r -> Forall DE r -> Forall self_contained x /\ Forall DE x).
  { clear - F. assert (add : forall r i, Forall self_contained r -> Forall DE r -> self_contained i -> DE i -> Forall self_contained (add_new r i) /\ Forall DE (add_new r i)).
    { intros r i A B C D. unfold add_new. destruct (existsb _ r); auto. split; apply Forall_app; auto. }
    induction ds as [|d ds IH]; intros r x H S D SR DR; cbn [resolve_list] in H; [injection H as <-; auto|]. inversion S; subst. inversion D; subst.
    assert (Z : resolve_list f (r ++ [d]) ds = Ok x -> Forall self_contained x /\ Forall DE x). { intros Z. apply (IH _ _ Z); auto; apply Forall_app; auto. }
    destruct d; auto. clear Z. destruct (f s) as [j|] eqn:J; cbn [bind] in H; [|discriminate]. destruct (F s j J) as (SJ & DJ & LJ).
    assert (Y : Forall self_contained (add_new r j) /\ Forall DE (add_new r j)) by auto.
    destruct j; try (apply (IH _ _ H); auto; apply Y). apply sc_list in SJ.
    assert (X : Forall self_contained (fold_left add_new l r) /\ Forall DE (fold_left add_new l r)).
    { clear - add SJ LJ SR DR. revert r SR DR. induction l as [|y l IH]; intros r SR DR; cbn [fold_left]; auto. inversion SJ; subst. inversion LJ; subst.
      destruct (add r y); auto. }
    apply (IH _ _ H); auto; apply X. }
  destruct (G _ _ _ R S K); auto. apply list_DE; auto.
Qed.
(** What a document must satisfy for all loaders of fields *)
Lemma AE_intro d : self_contained d -> DE d -> (match d with JList ds => Forall DE ds | _ => True end) ->
  (forall r, secondary_dsl d = Ok r -> Forall DE r) -> (forall b o rs r, typed b o rs d = Ok r -> DE r) ->
  (forall s p r, id_map s p d = Ok (JList r) -> plain_key s = true -> match p with Some p => plain_key p = true | None => True end -> Forall DE r) -> AE d.
Proof.
  intros S E K HS HT HI l. induction l as [|tp|syms| |items _|values c nl _|inner _|cls c nl|alts IH|inner si vt sr nl _|inner rs salad _|inner subj pred _|name] using loader_ind';
    intros D; try (apply E; exact D).
  - cbn [EndProofs.fieldable] in D. intros b o root. apply (ends_via _ _ inner (fun _ _ => do r <- secondary_dsl d; Ok (JList r)) b o root o root).
    + intros n. rewrite load_S. cbn [load_body]. destruct (secondary_dsl d); reflexivity.
    + assert (N : secondary_dsl d <> Err OutOfFuel); [|destruct (secondary_dsl d); cbn [bind]; congruence].
      assert (NM : forall e, secondary_map e <> Err OutOfFuel). { intros e. unfold secondary_map. destruct (dget _ e); [|discriminate]. cbv zeta. destruct (dpop _ _); discriminate. }
      destruct d; try discriminate; cbn [secondary_dsl].
      * clear - NM. induction l as [|x l IH]; cbn [mapM]; [discriminate|]. assert (X : secondary_item x <> Err OutOfFuel) by (destruct x; try discriminate; apply NM).
        destruct (secondary_item x); cbn [bind]; [|congruence]. destruct (mapM _ l); cbn [bind]; congruence.
      * specialize (NM d). destruct (secondary_map d); cbn [bind]; congruence.
    + intros d' H. destruct (secondary_dsl d) as [r|] eqn:R; cbn [bind] in H; [|discriminate]. injection H as <-. apply (list_DE r); auto. destruct (sc_secondary d S) as [_ SR]. auto.
  - apply ends_union. cbn [EndProofs.fieldable] in D. induction IH as [|a alts A IH IHa]; [constructor|]. cbn [all_of_them] in D. apply andb_true_iff in D. destruct D. constructor; auto.
  - cbn [EndProofs.fieldable] in D. apply uri_ends; auto. destruct d; auto. apply sc_list in S. auto.
  - cbn [EndProofs.fieldable] in D. apply andb_true_iff in D. destruct D as [D V]. destruct (salad_before_1_3 salad) as [[]|] eqn:SV; try discriminate.
    intros b o root. apply (ends_via _ _ inner (fun b o => typed b o rs d) b o root o None).
    + intros n. rewrite load_S. cbn [load_body]. unfold typed. rewrite SV. f_equal. apply type_dsl_ext. intros s. destruct (endswith "[]" _); reflexivity.
    + apply type_dsl_ends. intros s. cbn [resolve]. cbv zeta. assert (NE := fun u => expand_ends u b o false true rs). destruct (endswith "[]" _).
      * destruct (endswith "[]" _); [discriminate|]. match goal with |- bind (expand_url ?a1 ?a2 ?a3 ?a4 ?a5 ?a6 ?a7 ?a8) _ <> _ => specialize (NE a3); destruct (expand_url a1 a2 a3 a4 a5 a6 a7 a8); cbn [bind]; congruence end.
      * match goal with |- bind (expand_url ?a1 ?a2 ?a3 ?a4 ?a5 ?a6 ?a7 ?a8) _ <> _ => specialize (NE a3); destruct (expand_url a1 a2 a3 a4 a5 a6 a7 a8); cbn [bind]; congruence end.
    + intros d' H. apply (HT b o rs); auto.
  - cbn [EndProofs.fieldable] in D. apply andb_true_iff in D. destruct D as [D V]. apply andb_true_iff in D. destruct D as [D W]. apply id_map_ends; auto.
    intros e -> ds H. assert (PP : match pred with Some p => plain_key p = true | None => True end) by (destruct pred; auto). split.
    + destruct (sc_id_map subj pred _ W PP S) as [_ SJ]. specialize (SJ _ H). apply sc_list in SJ. exact SJ.
    + eapply HI; eauto.
Qed.

(** Texts *)
Lemma secondary_text_DE s : DE (secondary_text s).
Proof.
  assert (X : forall t r, Forall (fun kv => scalar (snd kv) = true /\ self_contained (snd kv) /\ fst kv = "required") r -> DE (JDict (("pattern", JStr t) :: r))).
  { intros t r F. apply dict_DE.
    - constructor; [repeat constructor; discriminate|]. eapply Forall_impl; [|exact F]. intros [k v] (_ & A & B). cbn [fst snd] in *. subst k. repeat split; try discriminate. exact A.
    - constructor; [apply scalar_DE; reflexivity|]. eapply Forall_impl; [|exact F]. intros [k v] (A & _ & _). apply scalar_DE, A.
    - intros k x G l L N. assert (KX : smem k shorthand_keys = true /\ scalar x = true).
      { cbn [dget] in G. destruct (String.eqb_spec k "pattern") as [-> |]; [injection G as <-; split; reflexivity|].
        clear - G F. induction F as [|[k' v] r (A & _ & B) F IH]; cbn [dget] in G; [discriminate|]. cbn [fst snd] in *. subst k'. destruct (String.eqb_spec k "required") as [-> |]; auto.
        injection G as <-. auto. }
      destruct KX as [KX SX]. apply no_dsl_scalar; auto. destruct N as [N|N]; [congruence|exact N]. }
  unfold secondary_text. destruct (endswith "?" s); apply X; repeat constructor.
Qed.
Lemma resolved_DE b o rs s j : AE (JStr "array") -> resolve (S (String.length s)) (fun u => expand u b o false true rs) true s = Ok j ->
  self_contained j /\ DE j /\ match j with JList l => Forall DE l | _ => True end.
Proof.
  intros A H. split; [eapply sc_resolve; eauto|].
  cbn [resolve] in H. cbv zeta in H.
  assert (N : forall t, DE (JStr t)) by (intros; apply scalar_DE; reflexivity).
  assert (F : forall (b : bool) x, match x with JStr _ | JDict _ => True | _ => False end -> self_contained x -> DE x ->
    DE (if b then JList [JStr "null"; x] else x) /\ match (if b then JList [JStr "null"; x] else x) with JList l => Forall DE l | _ => True end).
  { intros [] x K S D; [split; [apply list_DE; repeat constructor; auto|auto]|]. split; [exact D|]. destruct x; auto; contradiction. }
  destruct (endswith "[]" _).
  - destruct (endswith "[]" _).
    + injection H as <-. split; auto.
    + match type of H with bind ?r _ = _ => destruct r as [i|]; cbn [bind] in H; [|discriminate] end. injection H as <-. apply F; [exact I|cbn; repeat split; discriminate|].
      apply dict_DE.
      * repeat constructor; discriminate.
      * repeat constructor; cbn [snd]; auto.
      * intros k x G l L M. cbn in G. destruct (String.eqb_spec k "type") as [-> |]; [injection G as <-; auto|]. destruct (String.eqb_spec k "items") as [-> |]; [|discriminate]. injection G as <-.
        apply no_dsl_scalar; auto. destruct M as [M|M]; [discriminate|exact M].
  - match type of H with bind ?r _ = _ => destruct r as [i|]; cbn [bind] in H; [|discriminate] end. injection H as <-. apply F; auto; exact I.
Qed.
Lemma text_AE_if s : (forall b o rs r, typed b o rs (JStr s) = Ok r -> DE r) -> AE (JStr s).
Proof.
  intros H. apply AE_intro; auto; try exact I; [apply scalar_DE; reflexivity| |].
  - cbn [secondary_dsl]. intros r [= <-]. repeat constructor. apply secondary_text_DE.
  - discriminate.
Qed.
Lemma array_AE : AE (JStr "array").
Proof.
  apply text_AE_if. intros b o rs r H. unfold typed in H. cbn [type_dsl] in H. cbn [resolve] in H.
  change (endswith "?" "array") with false in H. cbv zeta in H. cbn iota in H. change (endswith "[]" "array") with false in H. cbn iota in H.
  destruct (expand_url _ _ _ _ _ _ _ _); cbn [bind] in H; [|discriminate]. injection H as <-. apply scalar_DE. reflexivity.
Qed.
Lemma text_AE s : AE (JStr s).
Proof. apply text_AE_if. intros b o rs r H. unfold typed in H. cbn [type_dsl] in H. eapply resolved_DE; eauto. apply array_AE. Qed.
Lemma scalar_AE d : scalar d = true -> AE d.
Proof.
  intros S. destruct d; try discriminate; try apply text_AE; (apply AE_intro; [exact I|apply scalar_DE; reflexivity|exact I|discriminate|intros b0 o0 rs0 r0 [= <-]; apply scalar_DE; reflexivity|discriminate]).
Qed.
(** ** Every self-contained document *)
Lemma entries_DE d : Forall sc_pair d -> Forall (fun kv => AE (snd kv)) d -> DE (JDict d).
Proof.
  intros S F. apply dict_DE; auto.
  - eapply Forall_impl; [|exact F]. intros kv A. apply AE_DE, A.
  - intros k x G l L _. apply dget_In in G. apply (proj1 (Forall_forall _ _) F) in G. apply G. exact L.
Qed.
Lemma secondary_DE d : self_contained d -> match d with JDict e => Forall (fun kv => AE (snd kv)) e | _ => True end -> forall j, secondary_item d = Ok j -> DE j.
Proof.
  intros S K j H. destruct d; try discriminate.
  - cbn [secondary_item] in H. injection H as <-. apply secondary_text_DE.
  - cbn [secondary_item] in H. assert (SD := S). apply sc_dict in SD. destruct (sc_secondary_map d SD) as [_ SJ]. specialize (SJ _ H). unfold secondary_map in H.
    destruct (dget "pattern" d) as [p|] eqn:P; [|discriminate]. cbv zeta in H. destruct (dpop "required" (dpop "pattern" d)); [|discriminate]. 
    assert (AG : forall k x, dget k d = Some x -> AE x). { intros k x G. apply dget_In in G. apply (proj1 (Forall_forall _ _) K) in G. exact G. }
    assert (AR : AE (match dget "required" (dpop "pattern" d) with Some r => r | None => JNull end)).
    { destruct (dget "required" (dpop "pattern" d)) as [r|] eqn:R; [|apply scalar_AE; reflexivity]. rewrite dget_dpop_other in R by discriminate. eauto. }
    injection H as <-. apply sc_dict in SJ. apply entries_DE; auto. repeat constructor; eauto.
Qed.
Definition kids (d : json) : Prop := match d with JList l => Forall AE l | JDict e => Forall (fun kv => AE (snd kv)) e | _ => True end.
Lemma loads_end d : self_contained d -> AE d /\ kids d.
Proof.
  induction d as [| | | | |l IH|e IH] using json_ind'; intros S; try (split; [apply scalar_AE; reflexivity|exact I]).
  - apply sc_list in S. assert (F : Forall (fun d => AE d /\ kids d) l). { clear - IH S known_class known_proxy joins checks. induction IH; inversion S; subst; constructor; auto. }
    assert (FA : Forall AE l) by (eapply Forall_impl; [|exact F]; intros a []; auto). split; [|exact FA].
    assert (FD : Forall DE l) by (eapply Forall_impl; [|exact FA]; apply AE_DE).
    apply AE_intro; auto; [apply sc_list; exact S|apply list_DE; auto| | |intros s p r [= <-] _ _; exact FD].
    + cbn [secondary_dsl]. intros r M. apply mapM_Ok in M. clear - M S F known_class known_proxy joins checks. induction M as [|x y l r H M IH]; [constructor|].
      inversion S; subst. inversion F as [|? ? [A K]]; subst. constructor; auto. eapply secondary_DE; eauto. destruct x; auto.
    + intros b o rs r. unfold typed. apply type_dsl_DE; [|apply sc_list; exact S|apply list_DE; auto|auto]. intros s j. apply resolved_DE, array_AE.
  - apply sc_dict in S. assert (F : Forall (fun kv => AE (snd kv) /\ kids (snd kv)) e). { clear - IH S known_class known_proxy joins checks. induction IH; inversion S as [|? ? [? ?]]; subst; constructor; auto. }
    assert (FA : Forall (fun kv => AE (snd kv)) e) by (eapply Forall_impl; [|exact F]; intros a []; auto). split; [|exact FA].
    assert (SD : self_contained (JDict e)) by (apply sc_dict; exact S). assert (ED : DE (JDict e)) by (apply entries_DE; auto).
    apply AE_intro; auto; try exact I.
    + cbn [secondary_dsl]. intros r H. destruct (secondary_map e) as [j|] eqn:M; cbn [bind] in H; [|discriminate]. injection H as <-. repeat constructor. apply (secondary_DE (JDict e)); auto.
    + intros b o rs r [= <-]. exact ED.
    + intros s p r H PS PP. cbn [id_map] in H. destruct (mapM _ e) as [x|] eqn:M; cbn [bind] in H; [|discriminate]. injection H as <-. apply mapM_Ok in M.
      clear - M S F PS PP known_class known_proxy joins checks. induction M as [|[k v] y l r H M IH]; [constructor|]. inversion S as [|? ? [_ SV] S']; subst. inversion F as [|? ? [A K] F']; subst. cbn [fst snd] in *. constructor; auto.
      assert (X : forall d, Forall sc_pair d -> Forall (fun kv => AE (snd kv)) d -> DE (JDict (dset s (JStr k) d))).
      { intros d SD FD. apply entries_DE; [apply sc_dset; auto; exact I|]. apply Forall_forall. intros [k' v'] I'. apply In_dset in I'. destruct I' as [I'|I'].
        2: injection I' as _ ->; apply text_AE.
        apply (proj1 (Forall_forall _ _) FD) in I'. exact I'. }
      assert (Y : match p with Some p => if String.eqb p "" then Err ValidationException else Ok (JDict (dset s (JStr k) [(p, v)])) | None => Err ValidationException end = Ok y -> DE y).
      { destruct p as [p|]; [|discriminate]. destruct (String.eqb p ""); [discriminate|]. intros Z. assert (JDict (dset s (JStr k) [(p, v)]) = y) as <- by congruence. apply X; [|auto].
        change (Forall sc_pair (dset p v [])). apply sc_dset; auto. }
      destruct v; cbn [id_map_entry] in H; auto. assert (JDict (dset s (JStr k) d) = y) as <- by congruence. apply X; [apply sc_dict; exact SV|exact K].
Qed.
End Ends.
