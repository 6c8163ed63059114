(** * Schema definitions of a split document *)
From Verif Require Import PyBase PyBaseProofs GraphModel GraphSpec GraphProofs.

Lemma external_own F T : plain_name F -> rewrite_import (JStr (own F T)) = Ok (JStr F).
Proof.
  intros (NE & NS & NH). unfold rewrite_import, own. do 2 f_equal.
  change ("#" ++ F ++ "/" ++ T)%string with (("#" ++ F) ++ String "/" T)%string.
  rewrite split_char_app by (cbn; rewrite NS; reflexivity). cbn [nth]. cbn [append lstrip_char]. rewrite Ascii.eqb_refl.
  destruct F as [|c F]; [reflexivity|]. cbn [lstrip_char]. destruct (Ascii.eqb_spec c "#") as [->|N]; auto. destruct (NH F). reflexivity.
Qed.
Lemma external_plain F : plain_name F -> rewrite_import (JStr F) = Ok (JStr F).
Proof.
  intros (NE & NS & NH). unfold rewrite_import. do 2 f_equal. rewrite split_char_none by auto. cbn [nth].
  destruct F as [|c F]; [reflexivity|]. cbn [lstrip_char]. destruct (Ascii.eqb_spec c "#") as [->|N]; auto. destruct (NH F). reflexivity.
Qed.
Lemma own_split F T : plain_name F -> has_char "/" T = false -> split_char "/" (lstrip_char "#" (own F T)) = [F; T].
Proof.
  intros (NE & NS & NH) NT. unfold own. cbn [append lstrip_char]. rewrite Ascii.eqb_refl.
  destruct F as [|c F]; [congruence|]. cbn [append lstrip_char]. destruct (Ascii.eqb_spec c "#") as [->|N]; [destruct (NH F); reflexivity|].
  change (String c (F ++ String "/" T))%string with ((String c F) ++ String "/" T)%string. rewrite split_char_app by auto.
  rewrite split_char_none by auto. reflexivity.
Qed.

Lemma NoDup_snoc' {A} (l : list A) x : NoDup l -> ~ In x l -> NoDup (l ++ [x]).
Proof.
  intros N H. induction N as [|y l NI N IH]; cbn; [constructor; auto; constructor|]. constructor.
  - rewrite in_app_iff. cbn in *. intros [X|[->|[]]]; tauto.
  - apply IH. cbn in H. tauto.
Qed.
Lemma dedupe_spec : forall l seen l' seen', dedupe seen l = Ok (l', seen') ->
  (forall F, In F seen -> In F seen') /\
  (forall e F, In (JDict e) l -> dget "$import" e = Some (JStr F) -> In F seen' /\
     (In F seen \/ exists e', In (JDict e') l' /\ dget "$import" e' = Some (JStr F))) /\
  (forall F, In F seen' -> In F seen \/ exists e', In (JDict e') l' /\ dget "$import" e' = Some (JStr F)) /\
  (NoDup seen -> NoDup seen') /\
  (forall e, In e l' -> In e l) /\
  (forall e, In (JDict e) l -> dget "$import" e = None -> In (JDict e) l').
Proof.
  induction l as [|x l IH]; intros seen l' seen' E; cbn [dedupe] in E.
  - injection E as <- <-. repeat split; auto; try (intros; cbn in *; tauto).
  - assert (K : forall l0, (match x with JDict e => dget "$import" e = None | _ => True end) ->
                (do ' (l1, seen0) <- dedupe seen l; Ok (x :: l1, seen0)) = Ok (l', seen') -> l0 = x :: l ->
      (forall F, In F seen -> In F seen') /\
      (forall e F, In (JDict e) l0 -> dget "$import" e = Some (JStr F) -> In F seen' /\
         (In F seen \/ exists e', In (JDict e') l' /\ dget "$import" e' = Some (JStr F))) /\
      (forall F, In F seen' -> In F seen \/ exists e', In (JDict e') l' /\ dget "$import" e' = Some (JStr F)) /\
      (NoDup seen -> NoDup seen') /\
      (forall e, In e l' -> In e l0) /\
      (forall e, In (JDict e) l0 -> dget "$import" e = None -> In (JDict e) l')).
    { intros l0 N K ->. apply bind_inv in K. destruct K as ([l1 s1] & K & X). injection X as <- <-.
      destruct (IH _ _ _ K) as (A & B & C & D & G & H). repeat split; auto.
      - destruct H0 as [->|I]; [cbn in N; congruence|]. apply (B e F); auto.
      - destruct H0 as [->|I]; [cbn in N; congruence|]. destruct (B e F I H1) as [_ [Y|(e' & Y & Z)]]; auto. right. exists e'. cbn; auto.
      - intros F I. destruct (C F I) as [Y|(e' & Y & Z)]; auto. right. exists e'. cbn; auto.
      - intros e [->|I]; cbn; auto.
      - intros e [->|I] Q; cbn; auto. }
    destruct x as [| | | |s|lx|e]; try (apply (K _ Logic.I E eq_refl)).
    destruct (dget "$import" e) as [[| | | |f|lf|df]|] eqn:I; try discriminate; [|apply (K _ eq_refl E eq_refl)].
    clear K. destruct (smem f seen) eqn:M.
    + destruct (IH _ _ _ E) as (A & B & C & D & G & H). apply smem_In in M. repeat split; auto.
      * destruct H0 as [Y|Y]; [injection Y as ->; rewrite I in H1; injection H1 as ->; auto|]. apply (B e0 F); auto.
      * destruct H0 as [Y|Y]; [injection Y as ->; rewrite I in H1; injection H1 as ->; auto|]. apply (B e0 F); auto.
      * cbn. auto.
      * intros e0 [Y|Y] Q; [injection Y as ->; congruence|auto].
    + apply bind_inv in E. destruct E as ([l1 s1] & E & X). injection X as <- <-.
      destruct (IH _ _ _ E) as (A & B & C & D & G & H).
      assert (NM : ~ In f seen). { intros Y. apply smem_In in Y. congruence. }
      assert (FS : In f s1) by (apply A; apply in_app_iff; right; cbn; auto).
      repeat split.
      * intros F Y. apply A. apply in_app_iff. auto.
      * destruct H0 as [Y|Y]; [injection Y as ->; rewrite I in H1; injection H1 as ->; auto|]. apply (B e0 F); auto.
      * destruct H0 as [Y|Y].
        -- injection Y as ->. right. exists e0. cbn; auto.
        -- destruct (B e0 F Y H1) as [_ [Z|(e' & Z & W)]].
           ++ apply in_app_iff in Z. destruct Z as [Z|[<-|[]]]; auto. right. exists e. cbn; auto.
           ++ right. exists e'. cbn; auto.
      * intros F Y. destruct (C F Y) as [Z|(e' & Z & W)]; [|right; exists e'; cbn; auto].
        apply in_app_iff in Z. destruct Z as [Z|[<-|[]]]; auto. right. exists e. cbn; auto.
      * intros ND. apply D. apply NoDup_snoc'; auto.
      * intros e0 [<-|Y]; cbn; auto.
      * intros e0 [Y|Y] Q; [injection Y as ->; congruence|cbn; auto].
Qed.

(** ** one entry of "types" *)
Definition still (e e' : dict) : Prop := exists P t, e' = e \/ Forall2 (Field P t) e e'.
Lemma still_import e e' F T : plain_name F -> still e e' -> imports_type e F T ->
  dget "$import" e' = Some (JStr (own F T)) \/ dget "$import" e' = Some (JStr F).
Proof.
  intros PN (P & t & [->|H]) E; [auto|]. destruct (Field_dget _ _ _ _ _ _ H E) as (v & G & _ & L). cbn [fst snd] in L.
  assert (X : rewrite_leaf P t "$import" (JStr (own F T)) = Ok (Some (JStr F))).
  { change (bind (rewrite_import (JStr (own F T))) (fun v => Ok (Some v)) = Ok (Some (JStr F))). rewrite external_own; auto. }
  rewrite X in L. destruct L as [L|[L _]]; [|discriminate]. injection L as <-. auto.
Qed.
Lemma still_absent e e' k : still e e' -> dget k e = None -> dget k e' = None.
Proof.
  intros (P & t & [->|H]) E; auto. revert E. induction H as [|[k1 v1] [k2 v2] l l' [X _] _ IH]; cbn in *; auto. subst k2.
  destruct (String.eqb k k1); [discriminate|auto].
Qed.
Lemma still_text e e' k s : still e e' -> (k = "name" \/ k = "type") -> dget k e = Some (JStr s) -> dget k e' = Some (JStr s).
Proof.
  intros (P & t & [->|H]) K E; auto. destruct (Field_dget _ _ _ _ _ _ H E) as (v & G & _ & L). cbn [fst snd] in L.
  assert (X : rewrite_leaf P t k (JStr s) = Ok None) by (destruct K; subst k; reflexivity). rewrite X in L.
  destruct L as [L|(_ & i & f & L)]; [discriminate|]. apply rewrite_atom in L; [|exact I]. congruence.
Qed.

Definition fields_still (l l' : list json) : Prop :=
  Forall2 (fun x x' => forall f, x = JDict f -> ~ is_schemadef f -> exists f', x' = JDict f' /\ still f f') l l'.
Lemma still_fields e e' l : still e e' -> dget "fields" e = Some (JList l) -> exists l', dget "fields" e' = Some (JList l') /\ fields_still l l'.
Proof.
  intros (P & t & [->|H]) E.
  - exists l. split; auto. clear. induction l as [|x l IH]; constructor; auto. intros f -> _. exists f. split; auto. exists "", None. auto.
  - destruct (Field_dget _ _ _ _ _ _ H E) as (v & G & _ & L). cbn [fst snd] in L.
    destruct L as [L|(_ & i & f & L)]; [discriminate|]. apply rewrite_list in L. destruct L as (l' & -> & F). exists l'. split; auto.
    clear - F. induction F as [|x y l l' (i & f & H) F IH]; constructor; auto. intros d -> NS. rewrite rewrite_dict in H.
    destruct (rewrite_items_spec _ _ _ _ _ _ _ _ _ NS H) as (d' & -> & FF). exists d'. split; auto. exists P, (dget "id" d). auto.
Qed.
Lemma still_keys e e' : still e e' -> dkeys e' = dkeys e.
Proof. intros (P & t & [->|H]); auto. eapply Field_keys; eauto. Qed.
Lemma field_moved F T f f' y : plain_name F -> has_char "/" T = false -> still f f' -> rewrite_field F (JDict f') = Ok y ->
  exists g, y = JDict g /\ dkeys g = dkeys f /\
    (forall n, has_char "/" n = false -> dget "name" f = Some (JStr (own F T ++ "/" ++ n)%string) -> dget "name" g = Some (JStr n)) /\
    (forall X, dget "type" f = Some (JStr (F ++ "/" ++ X)%string) -> dget "type" g = Some (JStr X)) /\
    (forall s, (forall r, s <> (F ++ r)%string) -> dget "type" f = Some (JStr s) -> dget "type" g = Some (JStr s)).
Proof.
  intros (_ & NF & _) NT S E. unfold rewrite_field in E. destruct (dget "name" f') as [[| | | |n0| |]|] eqn:N; try discriminate.
  destruct (nth_error (split_char "/" n0) 2) as [n'|] eqn:K; [|discriminate]. apply types_dict in E. destruct E as (g & -> & FF).
  exists g. split; auto. split; [|split; [|split]].
  - transitivity (dkeys (dset "name" (JStr n') f')).
    + clear - FF. unfold dkeys. induction FF as [|x y l l' [X _] _ IH]; cbn; congruence.
    + rewrite (dkeys_dset_present _ _ _ _ N). apply still_keys. auto.
  - intros n NN D. rewrite (still_text _ _ "name" _ S (or_introl eq_refl) D) in N. assert (n0 = (own F T ++ "/" ++ n)%string) by congruence. subst n0.
    assert (Q : split_char "/" (own F T ++ "/" ++ n) = [("#" ++ F)%string; T; n]).
    { unfold own. replace (("#" ++ F ++ "/" ++ T) ++ "/" ++ n)%string with (("#" ++ F) ++ String "/" (T ++ String "/" n))%string.
      - rewrite split_char_app by (cbn; rewrite NF; reflexivity). rewrite split_char_app by auto. rewrite split_char_none by auto. reflexivity.
      - cbn [append]. rewrite !sapp_assoc. cbn [append]. reflexivity. }
    rewrite Q in K. injection K as <-.
    destruct (F2_dget (TField F true) (fun a b H => proj1 H) _ _ _ _ FF (dget_dset_same "name" (JStr n) f')) as (w & D' & _ & W). cbn in W. congruence.
  - intros X D. assert (D1 : dget "type" (dset "name" (JStr n') f') = Some (JStr (F ++ "/" ++ X))).
    { rewrite dget_dset_other by discriminate. apply (still_text _ _ "type" _ S (or_intror eq_refl) D). }
    destruct (F2_dget (TField F true) (fun a b H => proj1 H) _ _ _ _ FF D1) as (w & D' & _ & W). cbn [fst snd] in W.
    destruct W as (s' & W & ->). unfold rewrite_type_name in W. rewrite startswith_app, sdrop_app_plus in W. injection W as <-. exact D'.
  - intros s NS D. assert (D1 : dget "type" (dset "name" (JStr n') f') = Some (JStr s)).
    { rewrite dget_dset_other by discriminate. apply (still_text _ _ "type" _ S (or_intror eq_refl) D). }
    destruct (F2_dget (TField F true) (fun a b H => proj1 H) _ _ _ _ FF D1) as (w & D' & _ & W). cbn [fst snd] in W.
    destruct W as (s' & W & ->). unfold rewrite_type_name in W. destruct (startswith F s) eqn:Y; [|injection W as <-; exact D'].
    apply startswith_spec in Y. destruct Y as [r ->]. destruct (NS r). reflexivity.
Qed.
Lemma fields_moved F T l l0 l' : plain_name F -> has_char "/" T = false -> fields_still l l0 -> mapM (rewrite_field F) l0 = Ok l' -> Forall2 (FieldMoved F T) l l'.
Proof.
  intros PN NT S. revert l'. induction S as [|x x0 l l0 H S IH]; intros l' E; cbn [mapM] in E; [injection E as <-; constructor|].
  apply bind_inv in E. destruct E as (y & E1 & E). apply bind_inv in E. destruct E as (ys & E2 & X). injection X as <-. constructor; auto.
  intros f -> NS. destruct (H _ eq_refl NS) as (f' & -> & SF). eapply field_moved; eauto.
Qed.

Lemma typedef_import e e' F T r : plain_name F -> still e e' -> imports_type e F T -> rewrite_typedef (JDict e') = Ok r ->
  exists e1, fst r = JDict e1 /\ dget "$import" e1 = Some (JStr F).
Proof.
  intros PN S IT E. unfold rewrite_typedef in E.
  destruct (still_import _ _ _ _ PN S IT) as [G|G]; rewrite G in E; apply bind_inv in E; destruct E as (v & E1 & E2); injection E2 as <-; cbn [fst].
  - rewrite external_own in E1 by auto. injection E1 as <-. eexists. split; [reflexivity|]. apply dget_dset_same.
  - rewrite external_plain in E1 by auto. injection E1 as <-. eexists. split; [reflexivity|]. apply dget_dset_same.
Qed.
Lemma typedef_define e e' F T r : plain_name F -> still e e' -> defines_type e F T -> rewrite_typedef (JDict e') = Ok r ->
  (exists e1, fst r = JDict e1 /\ dget "$import" e1 = Some (JStr F)) /\
  exists e2, snd r = [(F, JDict e2)] /\ dget "name" e2 = Some (JStr T) /\
    (forall s, dget "type" e = Some (JStr s) -> dget "type" e2 = Some (JStr s)) /\
    forall l, dget "fields" e = Some (JList l) -> exists l', dget "fields" e2 = Some (JList l') /\ Forall2 (FieldMoved F T) l l'.
Proof.
  intros PN S (NI & N & NT) E. unfold rewrite_typedef in E. rewrite (still_absent _ _ _ S NI) in E.
  rewrite (still_text _ _ "name" _ S (or_introl eq_refl) N) in E.
  assert (H : has_char "/" (own F T) = true).
  { unfold own. change ("#" ++ F ++ "/" ++ T)%string with (("#" ++ F) ++ String "/" T)%string. rewrite has_char_app. cbn [has_char].
    rewrite Ascii.eqb_refl. cbn [orb]. apply orb_true_r. }
  rewrite H, (own_split _ _ PN NT) in E. apply bind_inv in E. destruct E as (e2 & E1 & E).
  assert (Z : forall l, dget "fields" e = Some (JList l) -> exists l', dget "fields" e2 = Some (JList l') /\ Forall2 (FieldMoved F T) l l').
  { intros l D. destruct (still_fields _ _ _ S D) as (l0 & D0 & FS). rewrite dget_dset_other, D0 in E1 by discriminate.
    apply bind_inv in E1. destruct E1 as (l' & E1 & X). injection X as <-. exists l'. split; [apply dget_dset_same|]. eapply fields_moved; eauto. }
  assert (X : dget "name" e2 = Some (JStr T) /\ forall s, dget "type" e = Some (JStr s) -> dget "type" e2 = Some (JStr s)).
  { assert (Y : e2 = dset "name" (JStr T) e' \/ exists l, e2 = dset "fields" (JList l) (dset "name" (JStr T) e')).
    { destruct (dget "fields" _) as [[| | | |[|c s]|l|[|y d]]|]; try discriminate; try (left; congruence).
      apply bind_inv in E1. destruct E1 as (l' & _ & E1). injection E1 as <-. eauto. }
    destruct Y as [->|[l ->]].
    - split; [apply dget_dset_same|]. intros s D. rewrite dget_dset_other by discriminate. eapply still_text; eauto.
    - rewrite !dget_dset_other by discriminate. split; [apply dget_dset_same|]. intros s D.
      rewrite !dget_dset_other by discriminate. eapply still_text; eauto. }
  destruct (dmem "type" e2) eqn:M; [|discriminate]. injection E as <-. cbn [fst snd]. split.
  - eexists. split; [reflexivity|]. rewrite !dget_dpop_other by discriminate. apply dget_dset_same.
  - destruct X as [X1 X2]. exists e2. split; [reflexivity|]. split; [exact X1|]. split; [exact X2|exact Z].
Qed.

Lemma mapM_at {A B} (f : A -> result B) l r x : mapM f l = Ok r -> In x l -> exists y, In y r /\ f x = Ok y.
Proof.
  revert r. induction l as [|a l IH]; intros r E I; [destruct I|]. cbn [mapM] in E. apply bind_inv in E. destruct E as (y & E1 & E).
  apply bind_inv in E. destruct E as (ys & E2 & X). injection X as <-. destruct I as [->|I]; [exists y; cbn; auto|].
  destruct (IH _ E2 I) as (z & Z & W). exists z. cbn. auto.
Qed.

(** ** the loop reaching a schema definition *)
Lemma rewrite_items_schema P t : forall d before i f j i' f', is_schemadef d ->
  rewrite_items P t before i f d = Ok (j, i', f') ->
  exists d0 f0 f1, rewrite_schemadef (before ++ d0) = Ok (j, i', f0) /\ f' = f1 ++ f0 /\ is_schemadef d0 /\
    forall k v, ~ In k (dkeys before) -> dget k d = Some v -> exists v', dget k (before ++ d0) = Some v' /\ (v' = v \/ Field P t (k, v) (k, v')).
Proof.
  assert (AP : forall k (a b : dict), ~ In k (dkeys a) -> dget k (a ++ b) = dget k b).
  { intros k a b. induction a as [|[k1 v1] a IH]; cbn; auto. intros N. destruct (String.eqb_spec k k1); [intuition congruence|]. apply IH. tauto. }
  induction d as [|[k v] d IH]; intros before i f j i' f' NS E; cbn [rewrite_items] in E; [destruct NS|].
  destruct (String.eqb k "class" && _) eqn:C.
  - apply within_inv in E. apply bind_inv in E. destruct E as ([[j1 i1] f1] & E & X). injection X as <- <- <-.
    exists ((k, v) :: d), f1, f. repeat split; auto. intros k0 v0 N G. rewrite AP by auto. eauto.
  - apply bind_inv in E. destruct E as ([[v' i1] f1] & E1 & E2). apply within_inv in E1.
    assert (NS' : is_schemadef d). { destruct NS as [X|X]; auto. injection X as -> ->. discriminate. }
    destruct (IH _ _ _ _ _ _ NS' E2) as (d0 & f0 & f2 & R & -> & K & G).
    exists ((k, v') :: d0), f0, f2. rewrite <- app_assoc in R. split; [exact R|]. split; auto. split; [right; auto|].
    intros k0 v0 N D. rewrite <- app_assoc in G. cbn [app] in G. cbn in D. destruct (String.eqb_spec k0 k) as [->|NE].
    + injection D as ->. rewrite AP by auto. cbn. rewrite String.eqb_refl. exists v'. split; auto. right. split; [reflexivity|]. cbn [fst snd].
      destruct (rewrite_leaf P t k v0) as [[w|]|e] eqn:L; [left; congruence| |discriminate]. right. split; eauto.
    + apply G; auto. unfold dkeys. rewrite map_app, in_app_iff. cbn. intuition.
Qed.

Lemma union_l a b x : In x a -> In x (union a b).
Proof. intros. apply in_app_iff. auto. Qed.
Lemma union_r a b x : In x b -> In x (union a b).
Proof.
  intros I. apply in_app_iff. destruct (smem x a) eqn:M; [left; apply smem_In; auto|]. right. apply filter_In. rewrite M. auto.
Qed.

Lemma schema_here P d j i f e F T : rewrite P (JDict d) = Ok (j, i, f) -> is_schemadef d -> lists_type d e -> ~ is_schemadef e -> plain_name F ->
  imports_type e F T \/ defines_type e F T ->
  In F i /\ kept_at j [] F /\
  (defines_type e F T -> exists e2, In (F, JDict e2) f /\ dget "name" e2 = Some (JStr T) /\
     (forall s, dget "type" e = Some (JStr s) -> dget "type" e2 = Some (JStr s)) /\
     forall l, dget "fields" e = Some (JList l) -> exists l', dget "fields" e2 = Some (JList l') /\ Forall2 (FieldMoved F T) l l').
Proof.
  intros E S (types & G & IE) NS PN H. rewrite rewrite_dict in E.
  destruct (rewrite_items_schema _ _ _ _ _ _ _ _ _ S E) as (d0 & f0 & f1 & R & -> & K & D). cbn [app] in R, D.
  destruct (D _ _ (fun x => x) G) as (v' & G0 & FV).
  assert (X : exists types0 e0, v' = JList types0 /\ In (JDict e0) types0 /\ still e e0).
  { destruct FV as [->|[_ [L|(_ & i1 & f2 & L)]]]; cbn [fst snd] in *.
    - exists types, e. repeat split; auto. exists P, None. auto.
    - discriminate.
    - apply rewrite_list in L. destruct L as (types0 & -> & F2). clear - F2 IE NS.
      assert (Y : exists y, In y types0 /\ exists i f, rewrite P (JDict e) = Ok (y, i, f)).
      { induction F2 as [|a b l l' H F2 IH]; [destruct IE|]. destruct IE as [->|IE]; [exists b; cbn; auto|].
        destruct (IH IE) as (y & Y & W). exists y. cbn. auto. }
      destruct Y as (y & Y & i2 & f3 & W). rewrite rewrite_dict in W. destruct (rewrite_items_spec _ _ _ _ _ _ _ _ _ NS W) as (e0 & -> & FF).
      exists types0, e0. repeat split; auto. exists P, (dget "id" e). auto. }
  destruct X as (types0 & e0 & -> & IE0 & ST). unfold rewrite_schemadef in R. rewrite G0 in R.
  apply bind_inv in R. destruct R as (r & R1 & R). apply bind_inv in R. destruct R as ([ty se] & R2 & R). injection R as <- <- <-.
  destruct (mapM_at _ _ _ _ R1 IE0) as (y & IY & TY).
  destruct (dedupe_spec _ _ _ _ R2) as (_ & B & _).
  assert (FY : exists e1, fst y = JDict e1 /\ dget "$import" e1 = Some (JStr F)).
  { destruct H as [H|H]; [eapply typedef_import; eauto|]. exact (proj1 (typedef_define _ _ _ _ _ PN ST H TY)). }
  destruct FY as (e1 & Y1 & Y2).
  assert (I1 : In (JDict e1) (map fst r)). { rewrite <- Y1. apply in_map. auto. }
  destruct (B _ _ I1 Y2) as [B1 [[]|(e' & B2 & B3)]]. split; auto. split.
  - exists (dset "types" (JList ty) d0), e'. split; [|split; auto].
    + constructor. rename K into C0. unfold is_schemadef in *. clear - C0. induction d0 as [|[k v] d0 IH]; [destruct C0|]. cbn [dset]. destruct (String.eqb_spec "types" k) as [<-|N].
      * destruct C0 as [X|X]; [discriminate|cbn; auto].
      * destruct C0 as [X|X]; [left; auto|right; auto].
    + exists ty. split; auto. apply dget_dset_same.
  - intros HD. destruct (typedef_define _ _ _ _ _ PN ST HD TY) as (_ & e2 & Z1 & Z2 & Z3 & Z4). exists e2. split; [|auto].
    apply in_app_iff. right. apply in_flat_map. exists y. split; auto. rewrite Z1. cbn. auto.
Qed.

(** ** anywhere in a document *)

Lemma rewrite_list_files P : forall l j i f, rewrite P (JList l) = Ok (j, i, f) ->
  exists l', j = JList l' /\ forall n x, nth_error l n = Some x -> exists y i0 f0, nth_error l' n = Some y /\
    rewrite P x = Ok (y, i0, f0) /\ incl i0 i /\ incl f0 f.
Proof.
  intros l j i f E. cbn [rewrite] in E. apply bind_inv in E. destruct E as ([[l' i0] f0] & E & X). injection X as <- <- <-.
  exists l'. split; auto. revert l' i0 f0 E. induction l as [|x l IH]; intros l' i0 f0 E; cbn in E.
  - intros [|n] x X; discriminate.
  - apply bind_inv in E. destruct E as ([[x' i1] f1] & E1 & E). apply bind_inv in E. destruct E as ([[l1 i2] f2] & E2 & X).
    injection X as <- <- <-. intros [|n] y N; cbn in N.
    + injection N as <-. exists x', i1, f1. repeat split; auto; intros z Z; [apply union_l; auto|apply in_app_iff; auto].
    + destruct (IH _ _ _ E2 _ _ N) as (w & i3 & f3 & W1 & W2 & W3 & W4). exists w, i3, f3. repeat split; auto; intros z Z.
      * apply union_r. auto.
      * apply in_app_iff. auto.
Qed.
Lemma rewrite_items_files P t : forall d before i f j i' f', ~ is_schemadef d ->
  rewrite_items P t before i f d = Ok (j, i', f') -> incl i i' /\ incl f f' /\
  exists d', j = JDict (before ++ d') /\ Forall2 (fun kv kv' => fst kv' = fst kv /\
     (rewrite_leaf P t (fst kv) (snd kv) = Ok (Some (snd kv')) \/
      exists i0 f0, rewrite P (snd kv) = Ok (snd kv', i0, f0) /\ incl i0 i' /\ incl f0 f')) d d'.
Proof.
  induction d as [|[k v] d IH]; intros before i f j i' f' NS E; cbn [rewrite_items] in E.
  - injection E as <- <- <-. split; [apply incl_refl|]. split; [apply incl_refl|]. exists []. rewrite app_nil_r. auto.
  - destruct (String.eqb k "class" && _) eqn:C.
    + exfalso. apply NS. apply andb_true_iff in C. destruct C as [C1 C2]. apply String.eqb_eq in C1. subst k.
      destruct v; try discriminate. apply String.eqb_eq in C2. subst. left. reflexivity.
    + apply bind_inv in E. destruct E as ([[v' i1] f1] & E1 & E2). apply within_inv in E1.
      destruct (IH _ _ _ _ _ _ (fun X => NS (or_intror X)) E2) as (I1 & I2 & d' & -> & F).
      split; [intros x X; apply I1; apply union_l; auto|]. split; [intros x X; apply I2; apply in_app_iff; auto|].
      exists ((k, v') :: d'). rewrite <- app_assoc. split; [reflexivity|]. constructor; auto. split; [reflexivity|]. cbn [fst snd].
      destruct (rewrite_leaf P t k v) as [[w|]|e] eqn:L; [| |discriminate].
      * left. congruence.
      * right. exists i1, f1. split; auto. split; intros x X; [apply I1; apply union_r; auto|apply I2; apply in_app_iff; auto].
Qed.
Lemma leaf_descends_schema P t k v v' p e : ~ In k reference_keys -> SchemaAt v p e -> rewrite_leaf P t k v <> Ok (Some v').
Proof.
  intros NK D E. assert (NT : forall s, v <> JStr s) by (intros s ->; inversion D). unfold rewrite_leaf in E. cbn [In reference_keys] in NK.
  destruct (String.eqb_spec k "run") as [->|N1].
  { destruct v as [| | | |s| |]; try discriminate. destruct (NT s); auto. }
  destruct (String.eqb_spec k "id") as [->|N2]; cbn [orb] in E.
  { destruct v as [| | | |s| |]; try discriminate. destruct (NT s); auto. }
  destruct (String.eqb_spec k "outputSource") as [->|N3].
  { destruct v as [| | | |s| |]; try discriminate. destruct (NT s); auto. }
  destruct (String.eqb_spec k "out") as [->|N4]; [intuition congruence|].
  destruct (smem k ["source"; "scatter"; "items"; "format"]) eqn:M.
  { apply smem_In in M. cbn [In] in M. intuition congruence. }
  destruct (String.eqb_spec k "$import") as [->|N5]; [intuition congruence|]. discriminate.
Qed.

Lemma schema_at P e F T : ~ is_schemadef e -> plain_name F -> imports_type e F T \/ defines_type e F T ->
  forall j p d, SchemaAt j p d -> lists_type d e -> forall j' i f, rewrite P j = Ok (j', i, f) ->
  In F i /\ kept_at j' p F /\
  (defines_type e F T -> exists e2, In (F, JDict e2) f /\ dget "name" e2 = Some (JStr T) /\
     (forall s, dget "type" e = Some (JStr s) -> dget "type" e2 = Some (JStr s)) /\
     forall l, dget "fields" e = Some (JList l) -> exists l', dget "fields" e2 = Some (JList l') /\ Forall2 (FieldMoved F T) l l').
Proof.
  intros NS PN H. induction 1 as [d S|d k x p d1 S NK G D IH|l n x p d1 N D IH]; intros LT j' i f E.
  - eapply schema_here; eauto.
  - pose proof E as E0. rewrite rewrite_dict in E. destruct (rewrite_items_files _ _ _ _ _ _ _ _ _ S E) as (_ & _ & d' & -> & FF). cbn [app].
    destruct (F2_dget _ (fun a b H => proj1 H) _ _ _ _ FF G) as (x' & G' & _ & [L|(i0 & f0 & R & I1 & I2)]); cbn [fst snd] in *.
    + destruct (leaf_descends_schema _ _ _ _ _ _ _ NK D L).
    + destruct (IH LT _ _ _ R) as (A & (d2 & e' & B1 & B2 & B3) & C). split; auto. split.
      * exists d2, e'. split; auto. eapply Sc_key; eauto. intros X. apply S.
        rewrite rewrite_dict in E0. destruct (rewrite_items_spec _ _ _ _ _ _ _ _ _ S E0) as (d'' & Y & FF'). injection Y as ->. eapply Field_class; eauto.
      * intros DT. destruct (C DT) as (e2 & C1 & C2). exists e2. auto.
  - apply rewrite_list_files in E. destruct E as (l' & -> & X). destruct (X _ _ N) as (y & i0 & f0 & Y & R & I1 & I2).
    destruct (IH LT _ _ _ R) as (A & (d2 & e' & B1 & B2 & B3) & C). split; auto. split.
    + exists d2, e'. split; auto. econstructor; eauto.
    + intros DT. destruct (C DT) as (e2 & C1 & C2). exists e2. auto.
Qed.

(** the later passes leave the imports in place *)
Lemma types_schema_at g b F : forall j p, kept_at j p F -> forall j', rewrite_types g b j = Ok j' -> kept_at j' p F.
Proof.
  intros j p (d & e & S & L & I) j' E.
  assert (X : exists d', SchemaAt j' p d' /\ Forall2 (TField g b) d d').
  { clear L I. revert j' E. induction S as [d NS|d k x p d1 NS NK G D IH|l n x p d1 N D IH]; intros j' E.
    - apply types_dict in E. destruct E as (d' & -> & FF). exists d'. split; auto. constructor. unfold is_schemadef in *. clear - FF NS.
      induction FF as [|[k v] [k' v'] l l' [H1 H2] _ IH]; cbn in *; auto. subst k'. destruct NS as [X|X]; auto.
      injection X as -> ->. cbn in H2. subst. auto.
    - apply types_dict in E. destruct E as (d' & -> & FF).
      destruct (F2_dget (TField g b) (fun a b H => proj1 H) _ _ _ _ FF G) as (x' & G' & _ & R); cbn [fst snd] in *.
      assert (R' : rewrite_types g b x = Ok x'). { destruct x; auto. inversion D. }
      destruct (IH _ R') as (e' & D' & F'). exists e'. split; auto. eapply Sc_key; eauto. intros X. apply NS. eapply TField_class; eauto.
    - apply types_list in E. destruct E as (l' & -> & FF).
      assert (X : exists y, nth_error l' n = Some y /\ rewrite_types g b x = Ok y).
      { clear - FF N. revert n N. induction FF as [|a c l l' H FF IH]; intros [|n] N; cbn in *; try discriminate; [|auto].
        injection N as ->. eauto. }
      destruct X as (y & Y & R). destruct (IH _ R) as (e' & D' & F'). exists e'. split; auto. econstructor; eauto. }
  destruct X as (d' & S' & FF). destruct L as (types & G & IE).
  destruct (F2_dget (TField g b) (fun a b H => proj1 H) _ _ _ _ FF G) as (x' & G' & _ & R); cbn [fst snd] in *.
  apply types_list in R. destruct R as (types' & -> & F2).
  assert (X : exists e', In e' types' /\ rewrite_types g b (JDict e) = Ok e').
  { clear - F2 IE. induction F2 as [|a c l l' H F2 IH]; [destruct IE|]. destruct IE as [->|IE]; [exists c; cbn; auto|].
    destruct (IH IE) as (y & Y & Z). exists y. cbn. auto. }
  destruct X as (e' & IE' & R). apply types_dict in R. destruct R as (e1 & -> & F1).
  destruct (F2_dget (TField g b) (fun a b H => proj1 H) _ _ _ _ F1 I) as (x1 & G1 & _ & R); cbn [fst snd] in R. cbn in R. subst x1.
  exists d', e1. split; auto. split; auto. exists types'. auto.
Qed.
Lemma passes_schema_at F : forall imports j p j', kept_at j p F ->
  foldM (fun doc import_name => rewrite_types ("#" ++ import_name) false doc) imports j = Ok j' -> kept_at j' p F.
Proof.
  induction imports as [|g imports IH]; intros j p j' K E; cbn [foldM] in E; [injection E as <-; auto|].
  apply bind_inv in E. destruct E as (j1 & E1 & E2). eapply IH; [|exact E2]. eapply types_schema_at; eauto.
Qed.
