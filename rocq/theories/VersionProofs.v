(** * Proofs about the three generated parsers *)
From Verif Require Import PyBase PyBaseProofs NameProofs ParserModel LoaderModel LoaderProofs ShorthandProofs LoaderSpec VersionModel VersionSpec ParserProofs.
From Coq Require Import Lia.

Section Dispatch.
Variables (urljoin : string -> string -> result string) (supported_schemes : list string) (check_exists : string -> result bool)
  (fetch_text : string -> result string) (read_yaml : string -> result json) (uuid : json -> string)
  (classes : string -> option class) (proxies : string -> option loader).
Let load := load urljoin supported_schemes check_exists fetch_text read_yaml uuid classes proxies.
Let document_load := document_load urljoin supported_schemes check_exists fetch_text read_yaml uuid classes proxies.
Let Loads := LoaderSpec.Loads urljoin supported_schemes check_exists fetch_text read_yaml uuid classes proxies.

(** A class loader, given a term *)
Definition class_loader (c : string) (l : loader) : Prop :=
  l = LUri (LEnum [c]) false true None None \/ l = LUri (LPrim PStr) false true None None.
Lemma class_field n b o t c l w : class_loader c l -> dmem t (vocab o) = true ->
  load_field urljoin fetch_text read_yaml (load n) (document_load n) (JStr t) l b o = Ok w -> w = VStr t /\ 2 <= n /\ (no_link_check o = true \/ check_exists t = Ok true \/ check_exists t = Err ValidationException).
Proof.
  intros C D. cbn [load_field]. destruct n as [|n]; [discriminate|]. unfold load. rewrite load_S.
  assert (E : expand_url urljoin supported_schemes t b (with_container None None o) false true None = Ok t) by (apply expand_term; exact D).
  assert (L : forall inner, load_body urljoin supported_schemes check_exists fetch_text read_yaml uuid classes proxies (load n) (document_load n) (LUri inner false true None None) (JStr t) b o None
    = do _ <- (if no_link_check o then Ok tt else match check_exists t with Ok true => Ok tt | Ok false => Err ValidationException | Err ValidationException => Ok tt | Err e => Err e end);
      load n inner (JStr t) b (with_container None None o) None).
  { intros inner. cbn [load_body]. cbv zeta. rewrite E. cbn [bind]. reflexivity. }
  assert (X : load_body urljoin supported_schemes check_exists fetch_text read_yaml uuid classes proxies (load n) (document_load n) l (JStr t) b o None = Ok w ->
    w = VStr t /\ 2 <= S n /\ (no_link_check o = true \/ check_exists t = Ok true \/ check_exists t = Err ValidationException)).
  { destruct n as [|n]; [destruct C as [-> | ->]; rewrite L; destruct (no_link_check o); cbn [bind]; try discriminate; destruct (check_exists t) as [[]|[]]; discriminate|].
    assert (P : forall r, load (S n) (LPrim PStr) (JStr t) b (with_container None None o) None = r -> r = Ok (VStr t)) by (intros r <-; unfold load; rewrite load_S; reflexivity).
    assert (Q : forall v, load (S n) (LEnum [c]) (JStr t) b (with_container None None o) None = Ok v -> v = VStr t).
    { intros v. unfold load. rewrite load_S. cbn [load_body]. destruct (smem t [c]); congruence. }
    destruct C as [-> | ->]; rewrite L; destruct (no_link_check o); cbn [bind]; intros H.
    - apply Q in H. repeat split; [auto|lia|auto].
    - destruct (check_exists t) as [[]|[]] eqn:K; cbn [bind] in H; try discriminate; apply Q in H; repeat split; auto; lia.
    - apply P in H. repeat split; [congruence|lia|auto].
    - destruct (check_exists t) as [[]|[]] eqn:K; cbn [bind] in H; try discriminate; apply P in H; repeat split; auto; try lia; congruence. }
  exact X.
Qed.
(** The same text with another class's loader *)
Lemma class_field_other n b o t c l : class_loader c l -> dmem t (vocab o) = true -> 2 <= n ->
  (no_link_check o = true \/ check_exists t = Ok true \/ check_exists t = Err ValidationException) -> 
  load_field urljoin fetch_text read_yaml (load n) (document_load n) (JStr t) l b o = Err ValidationException \/
  load_field urljoin fetch_text read_yaml (load n) (document_load n) (JStr t) l b o = Ok (VStr t).
Proof.
  intros C D N K. cbn [load_field]. destruct n as [|[|n]]; [lia|lia|]. unfold load at 1 2. rewrite load_S. fold load. fold document_load.
  assert (E : expand_url urljoin supported_schemes t b (with_container None None o) false true None = Ok t) by (apply expand_term; exact D).
  assert (G : (if no_link_check o then Ok tt else match check_exists t with Ok true => Ok tt | Ok false => Err ValidationException | Err ValidationException => Ok tt | Err e => Err e end) = Ok tt).
  { destruct K as [-> | [-> | ->]]; [auto| |]; destruct (no_link_check o); auto. }
  assert (L : forall inner, load_body urljoin supported_schemes check_exists fetch_text read_yaml uuid classes proxies (load (S n)) (document_load (S n)) (LUri inner false true None None) (JStr t) b o None
    = load (S n) inner (JStr t) b (with_container None None o) None).
  { intros inner. cbn [load_body]. cbv zeta. rewrite E. cbn [bind]. change (no_link_check (with_container None None o)) with (no_link_check o). rewrite G. reflexivity. }
  destruct C as [-> | ->]; rewrite L; unfold load; rewrite load_S; cbn [load_body].
  - destruct (smem t [c]); auto.
  - auto.
Qed.

(** The process classes share their identifier field *)
Variables (names : list string) (idf : option (string * bool * loader)) (rest : loader).
Hypothesis table : forall c, In c names -> exists k l, classes c = Some k /\ c_name k = c /\ c_id k = idf /\ c_class k = Some l /\ class_loader c l.

Lemma record_body c k d b o root n : classes c = Some k ->
  load (S n) (LRecord c None None) (JDict d) b o root =
  from_doc urljoin supported_schemes fetch_text read_yaml uuid (load n) (document_load n) k d b (with_container None None o) root.
Proof. intros K. unfold load. rewrite load_S. cbn [load_body]. rewrite K. reflexivity. Qed.

Lemma record_class c d b o root v t : In c names -> dget "class" d = Some (JStr t) -> dmem t (vocab o) = true -> dget c (vocab o) <> Some t ->
  Loads (LRecord c None None) (JDict d) b o root (Ok v) -> c = t /\ exists fields ext, v = VObj t fields ext.
Proof.
  intros I G D V [_ [n L]]. destruct (table c I) as (k & l & K & N & _ & C & CL). destruct n as [|n]; [discriminate|].
  change (load (S n) (LRecord c None None) (JDict d) b o root = Ok v) in L. rewrite (record_body c k) in L by auto.
  unfold from_doc in L. destruct (load_id _ _ _ _ _ _ k d b _ root) as [idr|] eqn:ID; cbn [bind] in L; [|discriminate]. cbv zeta in L.
  destruct (load_class _ _ _ _ _ k d _ _) as [cl|] eqn:LC; cbn [bind] in L; [|discriminate].
  unfold load_class in LC. rewrite C, G in LC.
  destruct (load_field urljoin fetch_text read_yaml (load n) (document_load n) (JStr t) l _ _) as [w|] eqn:F; cbn [bind] in LC; [|discriminate].
  destruct (class_field n _ (with_container None None o) t c l w CL D F) as [-> _].
  assert (E : c = t).
  { destruct (String.eqb_spec t (c_name k)) as [E|NE]; [congruence|]. cbn [orb] in LC.
    change (vocab (with_container None None o)) with (vocab o) in LC. rewrite N in LC. destruct (dget c (vocab o)) as [x|]; [|discriminate].
    destruct (String.eqb_spec t x); [congruence|discriminate]. }
  split; [exact E|]. destruct (load_fields _ _ _ _ _ d (c_fields k)) as [fs|]; cbn [bind] in L; [|discriminate].
  destruct (load_extensions _ _ _ (attrs k) d []) as [ext|]; cbn [bind] in L; [|discriminate]. destruct idr as [[i bb]|]; [|discriminate].
  destruct fs; [|discriminate]. destruct ext; [|discriminate]. injection L as <-. exists (i ++ cl ++ l0), l1. congruence.
Qed.
(** Once one process class loads the mapping, every other refuses it *)
Lemma record_others c c' d b o root v t : In c names -> In c' names -> dget "class" d = Some (JStr t) -> dmem t (vocab o) = true ->
  (forall c, In c names -> dget c (vocab o) <> Some t) -> c' <> t ->
  Loads (LRecord c None None) (JDict d) b o root (Ok v) -> Loads (LRecord c' None None) (JDict d) b o root (Err ValidationException).
Proof.
  intros I I' G D V NE [_ [n L]]. destruct (table c I) as (k & l & K & N & IDF & C & CL). destruct (table c' I') as (k' & l' & K' & N' & IDF' & C' & CL').
  destruct n as [|n]; [discriminate|].
  change (load (S n) (LRecord c None None) (JDict d) b o root = Ok v) in L. rewrite (record_body c k) in L by auto.
  unfold from_doc in L. destruct (load_id _ _ _ _ _ _ k d b _ root) as [idr|] eqn:ID; cbn [bind] in L; [|discriminate]. cbv zeta in L.
  destruct (load_class _ _ _ _ _ k d _ _) as [cl|] eqn:LC; cbn [bind] in L; [|discriminate].
  unfold load_class in LC. rewrite C, G in LC.
  destruct (load_field urljoin fetch_text read_yaml (load n) (document_load n) (JStr t) l _ _) as [w|] eqn:F; cbn [bind] in LC; [|discriminate].
  destruct (class_field n _ (with_container None None o) t c l w CL D F) as (-> & N2 & CH).
  split; [discriminate|]. exists (S n). change (load (S n) (LRecord c' None None) (JDict d) b o root = Err ValidationException). rewrite (record_body c' k') by auto.
  unfold from_doc. assert (ID' : load_id urljoin fetch_text read_yaml uuid (load n) (document_load n) k' d b (with_container None None o) root = Ok idr).
  { rewrite <- ID. unfold load_id. rewrite IDF, IDF'. reflexivity. }
  rewrite ID'. cbn [bind]. cbv zeta. unfold load_class. rewrite C', G.
  destruct (class_field_other n (match idr with Some (_, b0) => b0 | None => b end) (with_container None None o) t c' l' CL' D N2 CH) as [-> | ->]; cbn [bind]; [auto|].
  destruct (String.eqb_spec t (c_name k')) as [E|_]; [congruence|]. cbn [orb]. change (vocab (with_container None None o)) with (vocab o). rewrite N'.
  specialize (V c' I'). destruct (dget c' (vocab o)) as [x|]; [|auto]. destruct (String.eqb_spec t x); [congruence|auto].
Qed.

Lemma dispatch d b o root v t : dget "class" d = Some (JStr t) -> dmem t (vocab o) = true -> (forall c, In c names -> dget c (vocab o) <> Some t) ->
  NoDup names ->
  (Loads (LUnion (map (fun c => LRecord c None None) names ++ [LArray rest])) (JDict d) b o root (Ok v) <->
   In t names /\ Loads (LRecord t None None) (JDict d) b o root (Ok v)).
Proof.
  intros G D V ND. split.
  - intros L. apply (proj1 (union_ok _ _ _ _ _ _ _ _ _ _ _ _ _ _)) in L. destruct L as (pre & l & post & E & F & L).
    assert (I : In l (map (fun c => LRecord c None None) names ++ [LArray rest])) by (rewrite E; apply in_or_app; right; left; auto).
    apply in_app_iff in I. destruct I as [I|[<-|[]]].
    + apply in_map_iff in I. destruct I as [c [<- I]]. assert (c = t) as -> by (eapply record_class; eauto). auto.
    + exfalso. apply (proj1 (array_not_list _ _ _ _ _ _ _ _ rest (JDict d) b o root (Ok v) ltac:(discriminate) ltac:(discriminate))) in L. discriminate.
  - intros [I L]. apply (proj2 (union_ok _ _ _ _ _ _ _ _ _ _ _ _ _ _)). apply in_split in I. destruct I as (pre & post & E).
    exists (map (fun c => LRecord c None None) pre), (LRecord t None None), (map (fun c => LRecord c None None) post ++ [LArray rest]). split; [|split; [|exact L]].
    + rewrite E, map_app, <- app_assoc. reflexivity.
    + apply Forall_forall. intros l Il. apply in_map_iff in Il. destruct Il as [c [<- Ic]].
      assert (T : In t names) by (rewrite E; apply in_or_app; right; left; auto).
      eapply record_others with (c := t); eauto.
      * rewrite E. apply in_or_app. auto.
      * intros ->. rewrite E in ND. apply NoDup_remove_2 in ND. apply ND. apply in_or_app. auto.
Qed.
Lemma no_class d b o root v : dget "class" d = None \/ dget "class" d = Some JNull ->
  ~ Loads (LUnion (map (fun c => LRecord c None None) names ++ [LArray rest])) (JDict d) b o root (Ok v).
Proof.
  intros G L. apply (proj1 (union_ok _ _ _ _ _ _ _ _ _ _ _ _ _ _)) in L. destruct L as (pre & l & post & E & F & L).
  assert (I : In l (map (fun c => LRecord c None None) names ++ [LArray rest])) by (rewrite E; apply in_or_app; right; left; auto).
  apply in_app_iff in I. destruct I as [I|[<-|[]]].
  - apply in_map_iff in I. destruct I as [c [<- I]]. destruct (table c I) as (k & l & K & N & _ & C & CL).
    apply (proj1 (record_ok _ _ _ _ _ _ _ _ c None None k d b o root v K)) in L. destruct L as (i & b' & cl & fs & ext & _ & CC & _).
    destruct CC as [X|l' j s X Y Z]; [congruence|]. destruct G as [G|G]; congruence.
  - apply (proj1 (array_not_list _ _ _ _ _ _ _ _ rest (JDict d) b o root (Ok v) ltac:(discriminate) ltac:(discriminate))) in L. discriminate.
Qed.
End Dispatch.

Lemma tables_share v : exists rest idf, top_of v = LUnion (map (fun c => LRecord c None None) (process_names v) ++ [LArray rest]) /\
  (forall c, In c (process_names v) -> exists k l, classes_of v c = Some k /\ c_name k = c /\ c_id k = idf /\ c_class k = Some l /\ class_loader c l).
Proof.
  destruct v; eexists; eexists; (split; [reflexivity|]); intros c I; cbn [process_names] in I;
    repeat (destruct I as [<-|I]; [eexists; eexists; split; [vm_compute; reflexivity|]; repeat (split; [reflexivity|]); first [left; reflexivity|right; reflexivity]|]); destruct I.
Qed.
Lemma names_distinct v : NoDup (process_names v).
Proof. destruct v; repeat constructor; cbn; intuition discriminate. Qed.
Lemma no_colon_scheme s : has_char ":" s = false -> s_scheme (urlsplit s) = "".
Proof.
  intros H. assert (L : forall s, has_char ":" s = false -> has_char ":" (lstrip_control s) = false).
  { clear. induction s as [|c s IH]; intros H; auto. cbn [lstrip_control]. destruct (_ <=? 32); auto. apply IH. cbn [has_char] in H. apply orb_false_elim in H. tauto. }
  assert (R : forall s, has_char ":" s = false -> has_char ":" (remove_unsafe s) = false).
  { clear. induction s as [|c s IH]; intros H; auto. cbn [remove_unsafe]. cbn [has_char] in H. apply orb_false_elim in H. destruct H as [A B].
    destruct (is_unsafe c); auto. cbn [has_char]. rewrite A. auto. }
  unfold urlsplit. cbv zeta. rewrite (ParserProofs.cut_none ":") by auto. 
  match goal with |- context [let '(netloc, rest) := ?x in _] => destruct x end. reflexivity.
Qed.
