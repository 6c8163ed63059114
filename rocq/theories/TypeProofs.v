(** * Lemmas about the static type checker *)
From Verif Require Import PyBase PyBaseProofs TypeModel TypeSpec.

(** ** field dictionaries *)
Lemma dupdate_app {V} (d l m : list (string * V)) : dupdate d (l ++ m) = dupdate (dupdate d l) m.
Proof. unfold dupdate. apply fold_left_app. Qed.

Lemma dget_dupdate_last {V} k (v : V) pre post d :
  Forall (fun f => fst f <> k) post -> dget k (dupdate d (pre ++ (k, v) :: post)) = Some v.
Proof.
  intros F. rewrite dupdate_app. cbn. change (fold_left _ post ?x) with (dupdate x post).
  revert F. generalize (dupdate d pre). induction post as [|[k' v'] post IH] using rev_ind; intros d' F.
  - apply dget_dset_same.
  - apply Forall_app in F. destruct F as [F1 F2]. apply Forall_inv in F2. cbn in F2.
    rewrite dupdate_app. cbn. rewrite dget_dset_other by congruence. auto.
Qed.

Lemma dget_dupdate_none {V} k (l d : list (string * V)) :
  Forall (fun f => fst f <> k) l -> dget k (dupdate d l) = dget k d.
Proof.
  induction l as [|[k' v'] l IH] using rev_ind; intros F; [reflexivity|].
  apply Forall_app in F. destruct F as [F1 F2]. apply Forall_inv in F2. cbn in F2.
  rewrite dupdate_app. cbn. rewrite dget_dset_other by congruence. auto.
Qed.

Lemma last_occurrence {V} (f : string -> string) k (l : list (string * V)) :
  Forall (fun x => f (fst x) <> k) l \/
  exists pre n v post, l = pre ++ (n, v) :: post /\ f n = k /\ Forall (fun x => f (fst x) <> k) post.
Proof.
  induction l as [|[n v] l IH] using rev_ind; [auto|].
  destruct (string_dec (f n) k) as [E|E].
  - right. exists l, n, v, []. auto.
  - destruct IH as [IH|(pre & n' & v' & post & -> & E' & F)].
    + left. apply Forall_app. split; auto.
    + right. exists pre, n', v', (post ++ [(n, v)]). rewrite <- app_assoc. cbn. split; auto. split; auto.
      apply Forall_app. auto.
Qed.

Lemma field_dict_some fs k t : FieldOf fs k t -> dget k (field_dict fs) = Some t.
Proof.
  intros (pre & n & post & -> & <- & F). unfold field_dict. rewrite map_app. cbn [map fst snd].
  apply dget_dupdate_last. apply Forall_map. exact F.
Qed.
Lemma field_dict_none fs k : NoField fs k -> dget k (field_dict fs) = None.
Proof.
  intros N. unfold field_dict. rewrite dget_dupdate_none; [reflexivity|]. apply Forall_map.
  destruct fs as [l|]; [apply (N l); auto|constructor].
Qed.
Lemma field_cases fs k : NoField fs k \/ exists t, FieldOf fs k t.
Proof.
  destruct fs as [l|]; [|left; intros l E; discriminate].
  destruct (last_occurrence shortname k l) as [F|(pre & n & v & post & -> & E & F)].
  - left. intros l' E. injection E as <-. auto.
  - right. exists v, pre, n, post. auto.
Qed.
Lemma field_dict_iff fs k t : dget k (field_dict fs) = Some t <-> FieldOf fs k t.
Proof.
  split; [|apply field_dict_some]. intros H. destruct (field_cases fs k) as [N|[u F]].
  - apply field_dict_none in N. congruence.
  - pose proof (field_dict_some _ _ _ F). congruence.
Qed.
Lemma field_dict_none_iff fs k : dget k (field_dict fs) = None <-> NoField fs k.
Proof.
  split; [|apply field_dict_none]. intros H. destruct (field_cases fs k) as [N|[u F]]; auto.
  apply field_dict_some in F. congruence.
Qed.

(** ** sizes *)
Lemma tsize_pos t : 1 <= tsize t.
Proof. destruct t as [| | |[]|]; cbn; lia. Qed.
Lemma tsize_union t l : In t l -> tsize t < tsize (TUnion l).
Proof.
  cbn. intros I. induction l as [|x l IH]; [destruct I|]. destruct I as [->|I]; [lia|].
  specialize (IH I). lia.
Qed.
Lemma tsize_field fs k t : FieldOf fs k t -> tsize t < tsize (TRecord fs).
Proof.
  intros (pre & n & post & -> & _). cbn. induction pre as [|[? ?] pre IH]; cbn; lia.
Qed.

(** ** monadic any/all *)
Lemma existsM_spec {A} (p : A -> result bool) (P : A -> Prop) l :
  (forall x, In x l -> exists b, p x = Ok b /\ (b = true <-> P x)) ->
  exists b, existsM p l = Ok b /\ (b = true <-> exists x, In x l /\ P x).
Proof.
  induction l as [|x l IH]; intros H; cbn.
  - exists false. split; auto. split; [discriminate|intros (x & [] & _)].
  - destruct (H x) as (b & -> & B); [cbn; auto|]. cbn. destruct b.
    + exists true. split; auto. split; auto. intros _. exists x. split; auto. apply B; auto.
    + destruct IH as (b & -> & B'); [intros; apply H; cbn; auto|]. exists b. split; auto.
      rewrite B'. split; intros (y & I & Y).
      * eauto.
      * destruct I as [<-|I]; [apply B in Y; discriminate|eauto].
Qed.
Lemma forallM_spec {A} (p : A -> result bool) (P : A -> Prop) l :
  (forall x, In x l -> exists b, p x = Ok b /\ (b = true <-> P x)) ->
  exists b, forallM p l = Ok b /\ (b = true <-> forall x, In x l -> P x).
Proof.
  induction l as [|x l IH]; intros H; cbn.
  - exists true. split; auto. split; auto. intros _ x [].
  - destruct (H x) as (b & -> & B); [cbn; auto|]. cbn. destruct b.
    + destruct IH as (b & -> & B'); [intros; apply H; cbn; auto|]. exists b. split; auto.
      rewrite B'. split.
      * intros G y [<-|I]; [apply B; auto|auto].
      * intros G y I. apply G. auto.
    + exists false. split; auto. split; [discriminate|]. intros G. apply B. apply G. auto.
Qed.

Lemma slist_eqb_eq a b : slist_eqb a b = true <-> a = b.
Proof.
  revert b. induction a as [|x a IH]; destruct b as [|y b]; cbn; split; intros H; try discriminate; auto.
  - apply andb_true_iff in H. destruct H as [H1 H2]. apply String.eqb_eq in H1. apply IH in H2. congruence.
  - injection H as -> ->. rewrite String.eqb_refl. apply IH. reflexivity.
Qed.
Lemma is_name_eq n t : is_name n t = true <-> t = TName n.
Proof.
  destruct t; cbn; split; intros H; try discriminate.
  - apply String.eqb_eq in H. congruence.
  - injection H as ->. apply String.eqb_refl.
Qed.
Lemma py_eq_iff a b : py_eq a b = true <-> a = b /\ is_leaf a.
Proof.
  unfold is_leaf. destruct a, b; cbn; split; intros H; try discriminate;
    try (destruct H as [H _]; discriminate H);
    try (destruct H as [_ [[? H]|(? & ? & ? & ? & H)]]; discriminate H).
  - apply String.eqb_eq in H. subst. eauto.
  - destruct H as [H _]. injection H as ->. apply String.eqb_refl.
  - rewrite !andb_true_iff, !String.eqb_eq, slist_eqb_eq in H. destruct H as (((-> & ->) & ->) & ->).
    split; [reflexivity|]. right. eauto 6.
  - destruct H as [H _]. injection H as -> -> -> ->. rewrite !String.eqb_refl.
    assert (slist_eqb symbols0 symbols0 = true) as -> by (apply slist_eqb_eq; auto). reflexivity.
Qed.

(** ** can_assign decides Assignable *)
Ltac no_leaf := match goal with X : is_leaf _ |- _ => exfalso; destruct X as [[? X]|(? & ? & ? & ? & X)]; discriminate X end.
Ltac no_union := match goal with X : ~ is_union _ |- _ => exfalso; apply X; eexists; reflexivity end.
Lemma not_any t : is_name "Any" t = false -> t <> TName "Any".
Proof. intros H ->. discriminate. Qed.

Lemma dkeys_field k d : In k (dkeys d) <-> exists t : ctype, dget k d = Some t.
Proof.
  destruct (dget k d) as [t|] eqn:E.
  - split; eauto. intros _. eapply dget_Some_key; eauto.
  - apply dget_None in E. split; [contradiction|intros [t H]; discriminate].
Qed.

Lemma can_assign_spec : forall fuel src sink strict, tsize src + tsize sink < fuel ->
  exists b, can_assign fuel src sink strict = Ok b /\ (b = true <-> Assignable strict src sink).
Proof.
  induction fuel as [|fuel IH]; intros src sink strict L; [lia|]. cbn [can_assign].
  destruct (is_name "Any" src) eqn:A1; cbn [orb].
  { apply is_name_eq in A1. subst. exists true. split; auto. split; auto. intros _. constructor. }
  destruct (is_name "Any" sink) eqn:A2.
  { apply is_name_eq in A2. subst. exists true. split; auto. split; auto. intros _. constructor. }
  apply not_any in A1, A2.
  assert (EQ : ~ is_union src -> ~ is_union sink ->
     (forall a b, src = TArray a -> sink = TArray b -> False) ->
     (forall a b, src = TRecord a -> sink = TRecord b -> False) ->
     py_eq src sink = true <-> Assignable strict src sink).
  { intros U1 U2 NA NR. rewrite py_eq_iff. split.
    - intros [<- LF]. constructor; auto.
    - intros H. inversion H; subst; try congruence; auto;
        try (exfalso; eauto; fail); try (exfalso; apply U1; eexists; reflexivity);
        try (exfalso; apply U2; eexists; reflexivity). }
  assert (UN : forall l, src = TUnion l ->
    exists b, (if strict then forallM (fun t => can_assign fuel t sink false) l
               else existsM (fun t => if is_name "null" t then Ok false else can_assign fuel t sink false) l) = Ok b
              /\ (b = true <-> Assignable strict src sink)).
  { intros l ->. destruct strict.
    - destruct (forallM_spec (fun t => can_assign fuel t sink false) (fun t => Assignable false t sink) l) as (b & -> & B).
      { intros t I. apply IH. pose proof (tsize_union t l I). lia. }
      exists b. split; auto. rewrite B. split; intros H; [constructor; auto|].
      inversion H; subst; try congruence; auto; solve [no_leaf|no_union].
    - destruct (existsM_spec (fun t => if is_name "null" t then Ok false else can_assign fuel t sink false)
                  (fun t => t <> TName "null" /\ Assignable false t sink) l) as (b & -> & B).
      { intros t I. destruct (is_name "null" t) eqn:N.
        - exists false. split; auto. split; [discriminate|]. intros [H _]. apply is_name_eq in N. contradiction.
        - destruct (IH t sink false) as (b & -> & B); [pose proof (tsize_union t l I); lia|].
          exists b. split; auto. rewrite B. split; [|tauto]. intros H. split; auto. intros ->. discriminate. }
      exists b. split; auto. rewrite B. split.
      + intros (t & I & N & H). eapply A_some_alternative; eauto.
      + intros H. inversion H; subst; try congruence; eauto; solve [no_leaf|no_union]. }
  assert (SU : forall l, sink = TUnion l -> ~ is_union src ->
    exists b, existsM (fun t => can_assign fuel src t false) l = Ok b
              /\ (b = true <-> Assignable strict src sink)).
  { intros l -> NU.
    destruct (existsM_spec (fun t => can_assign fuel src t false) (fun t => Assignable false src t) l) as (b & -> & B).
    { intros t I. apply IH. pose proof (tsize_union t l I). lia. }
    exists b. split; auto. rewrite B. split.
    - intros (t & I & H). eapply A_sink_alternative; eauto.
    - intros H. inversion H; subst; try congruence; eauto; solve [no_leaf|no_union]. }
  destruct src as [s|l|a|fs|c n ss r] eqn:Es.
  - destruct sink as [s'|l'|a'|fs'|c' n' ss' r'] eqn:Ek;
    [ |apply SU; auto; intros [? X]; discriminate| | | ];
    (eexists; split; [reflexivity|]; apply EQ; try (intros [? X]; discriminate); intros; discriminate).
  - destruct sink; apply UN; reflexivity.
  - destruct sink as [s'|l'|a'|fs'|c' n' ss' r'] eqn:Ek;
    [ |apply SU; auto; intros [? X]; discriminate| | | ];
    try (eexists; split; [reflexivity|]; apply EQ; try (intros [? X]; discriminate); intros; discriminate).
    destruct (IH a a' strict) as (b & -> & B); [cbn in L; lia|]. exists b. split; auto. rewrite B.
    split; intros H; [constructor; auto|]. inversion H; subst; auto; no_leaf.
  - destruct sink as [s'|l'|a'|gs|c' n' ss' r'] eqn:Ek;
    [ |apply SU; auto; intros [? X]; discriminate| | | ];
    try (eexists; split; [reflexivity|]; apply EQ; try (intros [? X]; discriminate); intros; discriminate).
    cbv zeta.
    destruct (forallM_spec (fun key => can_assign fuel (dget_or key (field_dict fs) (TName "null"))
                                              (dget_or key (field_dict gs) (TName "null")) strict)
       (fun key => Assignable strict (dget_or key (field_dict fs) (TName "null"))
                                     (dget_or key (field_dict gs) (TName "null"))) (dkeys (field_dict gs))) as (b & -> & B).
    { intros k I. apply IH. apply dkeys_field in I. destruct I as [u G]. unfold dget_or. rewrite G.
      apply field_dict_iff, tsize_field in G. destruct (dget k (field_dict fs)) as [t|] eqn:F.
      - apply field_dict_iff, tsize_field in F. lia.
      - cbn [tsize]. pose proof (tsize_pos (TRecord fs)). lia. }
    exists b. split; auto. rewrite B. unfold dget_or. split.
    + intros H. apply A_record. intros k u G. apply field_dict_iff in G.
      assert (I : In k (dkeys (field_dict gs))) by (apply dkeys_field; eauto).
      specialize (H k I). rewrite G in H. destruct (dget k (field_dict fs)) as [t|] eqn:F.
      * left. exists t. split; auto. apply field_dict_iff; auto.
      * right. split; auto. apply field_dict_none_iff; auto.
    + intros H k I. apply dkeys_field in I. destruct I as [u G]. rewrite G. apply field_dict_iff in G.
      inversion H as [| |? ? X| |? ? ? R| | |]; subst.
      * exfalso. destruct X as [[? X]|(? & ? & ? & ? & X)]; discriminate.
      * destruct (R k u G) as [(t & F & A)|(N & A)].
        -- apply field_dict_iff in F. rewrite F. auto.
        -- apply field_dict_none_iff in N. rewrite N. auto.
  - destruct sink as [s'|l'|a'|fs'|c' n' ss' r'] eqn:Ek;
    [ |apply SU; auto; intros [? X]; discriminate| | | ];
    (eexists; split; [reflexivity|]; apply EQ; try (intros [? X]; discriminate); intros; discriminate).
Qed.

Lemma can_assign_decides src sink strict :
  exists b, can_assign_src_to_sink src sink strict = Ok b /\ (b = true <-> Assignable strict src sink).
Proof. apply can_assign_spec. lia. Qed.

(** ** meaning of strict assignment *)
Section AssignableInd.
  Variable P : bool -> ctype -> ctype -> Prop.
  Hypothesis H1 : forall strict sink, P strict (TName "Any") sink.
  Hypothesis H2 : forall strict src, P strict src (TName "Any").
  Hypothesis H3 : forall strict t, is_leaf t -> P strict t t.
  Hypothesis H4 : forall strict a b, Assignable strict a b -> P strict a b -> P strict (TArray a) (TArray b).
  Hypothesis H5 : forall strict fs gs,
    (forall k u, FieldOf gs k u ->
       (exists t, FieldOf fs k t /\ Assignable strict t u /\ P strict t u) \/
       (NoField fs k /\ Assignable strict (TName "null") u /\ P strict (TName "null") u)) ->
    P strict (TRecord fs) (TRecord gs).
  Hypothesis H6 : forall l sink, (forall t, In t l -> Assignable false t sink) ->
    (forall t, In t l -> P false t sink) -> P true (TUnion l) sink.
  Hypothesis H7 : forall l t sink, In t l -> t <> TName "null" -> Assignable false t sink -> P false t sink ->
    P false (TUnion l) sink.
  Hypothesis H8 : forall strict src l t, ~ is_union src -> In t l -> Assignable false src t -> P false src t ->
    P strict src (TUnion l).
  Fixpoint Assignable_ind' strict a b (H : Assignable strict a b) {struct H} : P strict a b :=
    match H in Assignable s a b return P s a b with
    | A_any_source s k => H1 s k
    | A_any_sink s k => H2 s k
    | A_same s t L => H3 s t L
    | A_array s a b A => H4 s a b A (Assignable_ind' _ _ _ A)
    | A_record s fs gs R => H5 s fs gs (fun k u G =>
        match R k u G with
        | or_introl (ex_intro _ t (conj F A)) => or_introl (ex_intro _ t (conj F (conj A (Assignable_ind' _ _ _ A))))
        | or_intror (conj N A) => or_intror (conj N (conj A (Assignable_ind' _ _ _ A)))
        end)
    | A_every_alternative l k A => H6 l k A (fun t J => Assignable_ind' _ _ _ (A t J))
    | A_some_alternative l t k J N A => H7 l t k J N A (Assignable_ind' _ _ _ A)
    | A_sink_alternative s src l t N J A => H8 s src l t N J A (Assignable_ind' _ _ _ A)
    end.
End AssignableInd.

Section Meaning.
  Variable name_values : string -> json -> Prop.
  Variable enum_values : string -> string -> list string -> string -> json -> Prop.
  Notation Acc := (Accepts name_values enum_values).
  Notation Pro := (Produces name_values enum_values).
  Hypothesis null_value : forall v, name_values "null" v <-> v = JNull.

  Lemma leaf_values t v : is_leaf t -> Pro t v -> Acc t v.
  Proof.
    intros [[s ->]|(c & n & s & r & ->)] P; inversion P; subst; [apply Acc_name|apply Acc_enum]; auto.
  Qed.

  (** for union-free sources either comparison means inclusion *)
  Lemma free_sound strict src sink : Assignable strict src sink -> UnionFree src ->
    forall v, Pro src v -> Acc sink v.
  Proof.
    intros H. induction H as [strict sink|strict src|strict t LF|strict a b H IH|strict fs gs IH|l sink H IH|l t sink I N H IH|strict src l t NU I H IH]
      using Assignable_ind'; intros UF v P.
    - inversion UF. congruence.
    - constructor.
    - apply leaf_values; auto.
    - inversion UF; subst. inversion P; subst. constructor. eapply Forall_impl; [|eassumption]. auto.
    - inversion UF as [| | |? F]; subst. inversion P as [| | | |? d D M]; subst. constructor. intros k u G.
      destruct (IH k u G) as [(t & Ft & A & X)|(Nf & A & X)].
      + apply X; [apply (F k); auto|apply D; auto].
      + unfold field_value. rewrite (M k Nf). apply X; [constructor; discriminate|].
        apply Pro_name; [discriminate|]. apply null_value; auto.
    - inversion UF.
    - inversion UF.
    - eapply Acc_union; eauto.
  Qed.

  Lemma strict_sound strict src sink : Assignable strict src sink -> strict = true -> Aligned src sink ->
    forall v, Pro src v -> Acc sink v.
  Proof.
    intros H. induction H as [strict sink|strict src|strict t LF|strict a b H IH|strict fs gs IH|l sink H IH|l t sink I N H IH|strict src l t NU I H IH]
      using Assignable_ind'; intros S AL v P; subst.
    - inversion P. congruence.
    - constructor.
    - apply leaf_values; auto.
    - inversion AL as [? ? U| |? ? A|]; subst.
      + eapply free_sound; eauto. constructor; eauto.
      + inversion P; subst. constructor. eapply Forall_impl; [|eassumption]. auto.
    - inversion AL as [? ? U| | |? ? A]; subst.
      + eapply free_sound; eauto. apply A_record. intros k u G.
        destruct (IH k u G) as [(t & Ft & X & _)|(Nf & X & _)]; eauto.
      + inversion P as [| | | |? d D M]; subst. constructor. intros k u G.
        destruct (IH k u G) as [(t & Ft & _ & X)|(Nf & _ & X)].
        * apply X; auto. eapply A; eauto.
        * unfold field_value. rewrite (M k Nf). apply X; auto; [constructor; constructor; discriminate|].
          apply Pro_name; [discriminate|]. apply null_value; auto.
    - inversion AL as [? ? U|? ? U| |]; subst; [inversion U|].
      inversion P; subst. eapply free_sound; eauto.
    - discriminate.
    - inversion AL as [? ? U|? ? U| |]; subst.
      + eapply Acc_union; eauto. eapply free_sound; eauto.
      + exfalso. apply NU. eexists; reflexivity.
  Qed.
End Meaning.

(** ** check_types *)
Section CtypeInd.
  Variable P : ctype -> Prop.
  Hypothesis H1 : forall s, P (TName s).
  Hypothesis H2 : forall l, Forall P l -> P (TUnion l).
  Hypothesis H3 : forall t, P t -> P (TArray t).
  Hypothesis H4 : P (TRecord None).
  Hypothesis H5 : forall l, Forall (fun f => P (snd f)) l -> P (TRecord (Some l)).
  Hypothesis H6 : forall c n s r, P (TEnum c n s r).
  Fixpoint ctype_ind' (t : ctype) : P t :=
    match t with
    | TName s => H1 s
    | TUnion l => H2 l ((fix go l : Forall P l :=
        match l with [] => Forall_nil _ | x :: l' => Forall_cons x (ctype_ind' x) (go l') end) l)
    | TArray t => H3 t (ctype_ind' t)
    | TRecord None => H4
    | TRecord (Some l) => H5 l ((fix go l : Forall (fun f => P (snd f)) l :=
        match l with [] => Forall_nil _ | x :: l' => Forall_cons x (ctype_ind' (snd x)) (go l') end) l)
    | TEnum c n s r => H6 c n s r
    end.
End CtypeInd.

Lemma merge_flatten_spec : forall t t', Flattened t t' <-> t' = merge_flatten_type t.
Proof.
  assert (O : forall t t', ~ is_union t -> (forall u, t <> TArray u) -> Flattened t t' <-> t' = TArray t).
  { intros t t' U A. split; [|intros ->; constructor; auto]. intros H. destruct H; auto; exfalso.
    - apply U. eexists; reflexivity.
    - eapply A. reflexivity. }
  induction t as [s|l F|t IH| |l F|c n s r] using ctype_ind'; intros t'; cbn [merge_flatten_type];
    try (apply O; [intros [? X]; discriminate|intros ? X; discriminate]).
  - split.
    + intros H. inversion H as [? l' F2| |? U]; subst; [|exfalso; apply U; eexists; reflexivity].
      f_equal. clear H. induction F2 as [|x y l l' H F2 IHF]; [reflexivity|].
      apply Forall_cons_iff in F. destruct F as [F1 F]. cbn. f_equal; auto. apply F1. exact H.
    + intros ->. constructor. induction F as [|x l Fx F IHF]; constructor; auto. apply Fx. reflexivity.
  - split; [intros H; inversion H; subst; auto; exfalso; match goal with X : forall u, TArray _ <> TArray u |- _ => eapply X; reflexivity end|intros ->; constructor].
Qed.

Lemma check_plain_spec t u : exists v, check_plain t u = Ok v /\
  (v = Pass <-> Assignable true t u) /\
  (v = Warning <-> ~ Assignable true t u /\ Assignable false t u) /\
  (v = Exception_ <-> ~ Assignable true t u /\ ~ Assignable false t u).
Proof.
  unfold check_plain. destruct (can_assign_decides t u true) as (b & -> & B). cbn [bind]. destruct b.
  - assert (Assignable true t u) by (apply B; auto). exists Pass. split; auto.
    repeat split; intros; try discriminate; tauto.
  - assert (N : ~ Assignable true t u) by (intros X; apply B in X; discriminate).
    destruct (can_assign_decides t u false) as (b & -> & B'). cbn [bind]. destruct b.
    + assert (Assignable false t u) by (apply B'; auto). exists Warning. split; auto.
      repeat split; intros; try discriminate; tauto.
    + assert (N' : ~ Assignable false t u) by (intros X; apply B' in X; discriminate).
      exists Exception_. split; auto. repeat split; intros; try discriminate; tauto.
Qed.

Lemma Merged_fun m t a b : Merged m t a -> Merged m t b -> a = b.
Proof.
  intros H H'. inversion H; subst; inversion H'; subst; auto.
  repeat match goal with X : Flattened _ _ |- _ => apply merge_flatten_spec in X end. congruence.
Qed.

Lemma check_types_merge m t u : (m = None \/ m = Some "merge_nested" \/ m = Some "merge_flattened") ->
  exists t', Merged m t t' /\ check_types t u m None = check_plain t' u.
Proof.
  intros [-> | [-> | -> ]].
  - exists t. split; [constructor|reflexivity].
  - exists (TArray t). split; [constructor|reflexivity].
  - exists (merge_flatten_type t). split; [constructor; apply merge_flatten_spec; auto|reflexivity].
Qed.

Lemma check_types_invalid m t u : m <> "merge_nested" -> m <> "merge_flattened" ->
  check_types t u (Some m) None = Err ValidationException.
Proof. intros A B. cbn. apply String.eqb_neq in A, B. rewrite A, B. reflexivity. Qed.
