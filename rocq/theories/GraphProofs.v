(** * Proofs about splitting packed documents *)
From Verif Require Import PyBase PyBaseProofs GraphModel GraphSpec.

Lemma bind_inv {A B} (m : result A) (f : A -> result B) r : bind m f = Ok r -> exists a, m = Ok a /\ f a = Ok r.
Proof. destruct m; cbn; [eauto|discriminate]. Qed.
Lemma within_inv {A} (r : result A) a : within r = Ok a -> r = Ok a.
Proof. destruct r; cbn; [auto|discriminate]. Qed.

(** ** texts *)
Lemma cut_spec c a b : has_char c a = false -> cut c (a ++ String c b) = Some (a, b).
Proof.
  induction a as [|d a IH]; cbn [append cut has_char]; intros H; [rewrite Ascii.eqb_refl; reflexivity|].
  apply orb_false_iff in H. destruct H as [H1 H2]. rewrite Ascii.eqb_sym, H1. rewrite IH; auto.
Qed.
Lemma strip_cwl_has b : strip_cwl (b ++ ".cwl") = b.
Proof.
  unfold strip_cwl. replace (endswith (String c_nl "") (b ++ ".cwl")) with false.
  - rewrite srev_app_distr. change (srev ".cwl") with "lwc.". cbn [append]. cbn -[srev append]. rewrite srev_involutive, sapp_nil_r. reflexivity.
  - symmetry. destruct (endswith _ _) eqn:E; auto. apply endswith_spec in E. destruct E as [r E].
    apply (f_equal srev) in E. rewrite !srev_app_distr in E. change (srev ".cwl") with "lwc." in E. discriminate.
Qed.
Lemma strip_cwl_no X : (forall b, X <> (b ++ "cwl")%string) -> (forall b, X <> (b ++ String c_nl "")%string) -> strip_cwl X = X.
Proof.
  intros A B. unfold strip_cwl. destruct (endswith (String c_nl "") X) eqn:E.
  { apply endswith_spec in E. destruct E as [r ->]. destruct (B r). reflexivity. }
  destruct (srev X) as [|l [|w [|c [|x r]]]] eqn:R; auto.
  destruct (Ascii.eqb_spec l "l"); auto. destruct (Ascii.eqb_spec w "w"); auto. destruct (Ascii.eqb_spec c "c"); auto. subst.
  exfalso. apply (A (srev r ++ String x "")%string). rewrite <- (srev_involutive X), R, !srev_cons, !sapp_assoc. reflexivity.
Qed.
Lemma FileFor_strip X f : FileFor X f -> (strip_cwl X ++ ".cwl")%string = f.
Proof.
  intros [b ->|A B].
  - rewrite strip_cwl_has. reflexivity.
  - rewrite strip_cwl_no; auto.
Qed.
Lemma own_starts P s : startswith ("#" ++ P) (own P s) = true.
Proof. unfold own. apply startswith_spec. exists ("/" ++ s)%string. rewrite sapp_assoc. reflexivity. Qed.
Lemma own_drop P s : sdrop (String.length P + 2) (own P s) = s.
Proof.
  unfold own. replace (String.length P + 2) with (S (String.length P + 1)) by lia. cbn [sdrop append].
  rewrite sdrop_app_plus. reflexivity.
Qed.

(** ** the loop over a mapping *)
Definition Field (P : string) (t : option json) (kv kv' : string * json) : Prop :=
  fst kv' = fst kv /\
  (rewrite_leaf P t (fst kv) (snd kv) = Ok (Some (snd kv')) \/
   rewrite_leaf P t (fst kv) (snd kv) = Ok None /\ exists i f, rewrite P (snd kv) = Ok (snd kv', i, f)).

Definition rewrite_items (P : string) (t : option json) :=
  fix go (before : list (string * json)) (imports : list string) (files : list (string * json)) (d : list (string * json))
           : result (json * list string * list (string * json)) :=
         match d with
         | [] => Ok (JDict before, imports, files)
         | (k, v) :: d' =>
             if String.eqb k "class" && match v with JStr c => String.eqb c "SchemaDefRequirement" | _ => false end
             then within (do ' (j, i, f) <- rewrite_schemadef (before ++ (k, v) :: d'); Ok (j, i, files ++ f))
             else
               do ' (v', i, f) <-
                 within match rewrite_leaf P t k v with
                        | Err e => Err e
                        | Ok (Some v') => Ok (v', [], [])
                        | Ok None => rewrite P v
                        end;
               go (before ++ [(k, v')]) (union imports i) (files ++ f) d'
         end.
Lemma rewrite_dict P d : rewrite P (JDict d) = rewrite_items P (dget "id" d) [] [] [] d.
Proof. reflexivity. Qed.

Lemma rewrite_items_spec P t : forall d before i f j i' f', ~ is_schemadef d ->
  rewrite_items P t before i f d = Ok (j, i', f') -> exists d', j = JDict (before ++ d') /\ Forall2 (Field P t) d d'.
Proof.
  induction d as [|[k v] d IH]; intros before i f j i' f' NS E; cbn [rewrite_items] in E.
  - injection E as <- <- <-. exists []. rewrite app_nil_r. auto.
  - destruct (String.eqb k "class" && _) eqn:C.
    + exfalso. apply NS. apply andb_true_iff in C. destruct C as [C1 C2]. apply String.eqb_eq in C1. subst k.
      destruct v; try discriminate. apply String.eqb_eq in C2. subst. left. reflexivity.
    + apply bind_inv in E. destruct E as ([[v' i1] f1] & E1 & E2). apply within_inv in E1.
      destruct (IH _ _ _ _ _ _ (fun X => NS (or_intror X)) E2) as (d' & -> & F).
      exists ((k, v') :: d'). rewrite <- app_assoc. split; [reflexivity|]. constructor; auto. split; [reflexivity|]. cbn [fst snd].
      destruct (rewrite_leaf P t k v) as [[w|]|e] eqn:L; [| |discriminate].
      * left. congruence.
      * right. split; auto. eauto.
Qed.
Lemma rewrite_list P : forall l j i f, rewrite P (JList l) = Ok (j, i, f) ->
  exists l', j = JList l' /\ Forall2 (fun x y => exists i f, rewrite P x = Ok (y, i, f)) l l'.
Proof.
  intros l j i f E. cbn [rewrite] in E. apply bind_inv in E. destruct E as ([[l' i0] f0] & E & X). injection X as <- <- <-.
  exists l'. split; auto. revert l' i0 f0 E. induction l as [|x l IH]; intros l' i0 f0 E; cbn in E.
  - injection E as <- <- <-. constructor.
  - apply bind_inv in E. destruct E as ([[x' i1] f1] & E1 & E). apply bind_inv in E. destruct E as ([[l1 i2] f2] & E2 & X).
    injection X as <- <- <-. constructor; eauto.
Qed.
Lemma rewrite_atom P v v' i f : (match v with JList _ | JDict _ => False | _ => True end) -> rewrite P v = Ok (v', i, f) -> v' = v.
Proof. destruct v; cbn [rewrite]; intros A E; try injection E; intros; subst; auto; destruct A. Qed.
(** the kind of a value never changes *)
Lemma rewrite_items_dict P t : forall d before i f j i' f', rewrite_items P t before i f d = Ok (j, i', f') -> exists d', j = JDict d'.
Proof.
  induction d as [|[k v] d IH]; intros before i f j i' f' E; cbn [rewrite_items] in E.
  - injection E as <- <- <-. eauto.
  - destruct (String.eqb k "class" && _).
    + apply within_inv in E. apply bind_inv in E. destruct E as ([[j1 i1] f1] & E & X). injection X as <- <- <-.
      unfold rewrite_schemadef in E. destruct (dget "types" _) as [[]|]; try discriminate. apply bind_inv in E. destruct E as (r & _ & E).
      apply bind_inv in E. destruct E as ([ty se] & _ & E). injection E as <- <- <-. eauto.
    + apply bind_inv in E. destruct E as ([[v' i1] f1] & _ & E). eauto.
Qed.
Lemma rewrite_text P v s i f : rewrite P v = Ok (JStr s, i, f) -> v = JStr s.
Proof.
  destruct v; intros E; try (cbn [rewrite] in E; congruence).
  - apply rewrite_list in E. destruct E as (? & X & _). discriminate.
  - rewrite rewrite_dict in E. apply rewrite_items_dict in E. destruct E as [? X]. discriminate.
Qed.

Lemma Field_keys P t d d' : Forall2 (Field P t) d d' -> dkeys d' = dkeys d.
Proof. unfold dkeys. induction 1 as [|x y l l' [H _] _ IH]; cbn; congruence. Qed.
Lemma F2_dget (R : string * json -> string * json -> Prop) : (forall a b, R a b -> fst b = fst a) ->
  forall d d' k v, Forall2 R d d' -> dget k d = Some v -> exists v', dget k d' = Some v' /\ R (k, v) (k, v').
Proof.
  intros RK d d' k v F. induction F as [|[k1 v1] [k2 v2] l l' H F IH]; cbn; [discriminate|]. pose proof (RK _ _ H) as X. cbn in X. subst k2.
  destruct (String.eqb_spec k k1) as [->|N]; auto. intros X. injection X as ->. eauto.
Qed.
Lemma Field_dget P t d d' k v : Forall2 (Field P t) d d' -> dget k d = Some v -> exists v', dget k d' = Some v' /\ Field P t (k, v) (k, v').
Proof. apply F2_dget. intros a b [H _]. exact H. Qed.

Lemma leaf_class P t v : rewrite_leaf P t "class" v = Ok None.
Proof. reflexivity. Qed.
Lemma Field_class P t d d' : Forall2 (Field P t) d d' -> is_schemadef d' -> is_schemadef d.
Proof.
  unfold is_schemadef. induction 1 as [|[k v] [k' v'] l l' [H1 H2] _ IH]; cbn; auto. cbn in H1, H2. subst k'. intros [X|X]; [|auto].
  injection X as -> ->. rewrite leaf_class in H2. destruct H2 as [H2|(_ & i & f & H2)]; [discriminate|]. apply rewrite_text in H2. subst. auto.
Qed.

Lemma DictAt_not_text s p e : ~ DictAt (JStr s) p e.
Proof. inversion 1. Qed.
(** which fields the general case handles *)
Lemma leaf_descends P t k v v' p e : ~ In k reference_keys -> DictAt v p e -> rewrite_leaf P t k v <> Ok (Some v').
Proof.
  intros NK D E. unfold rewrite_leaf in E. cbn [In reference_keys] in NK.
  destruct (String.eqb_spec k "run") as [->|N1].
  { destruct v as [| | | |s| |]; try discriminate. apply DictAt_not_text in D. destruct D. }
  destruct (String.eqb_spec k "id") as [->|N2]; cbn [orb] in E.
  { destruct v as [| | | |s| |]; try discriminate. apply DictAt_not_text in D. destruct D. }
  destruct (String.eqb_spec k "outputSource") as [->|N3].
  { destruct v as [| | | |s| |]; try discriminate. apply DictAt_not_text in D. destruct D. }
  destruct (String.eqb_spec k "out") as [->|N4]; [intuition congruence|].
  destruct (smem k ["source"; "scatter"; "items"; "format"]) eqn:M.
  { apply smem_In in M. cbn [In] in M. intuition congruence. }
  destruct (String.eqb_spec k "$import") as [->|N5]; [intuition congruence|]. discriminate.
Qed.

Lemma rewrite_at P : forall j p d, DictAt j p d -> forall j' i f, rewrite P j = Ok (j', i, f) ->
  exists d', DictAt j' p d' /\ Forall2 (Field P (dget "id" d)) d d'.
Proof.
  induction 1 as [d NS|d k x p e NS NK G D IH|l n x p e N D IH]; intros j' i f E.
  - rewrite rewrite_dict in E. destruct (rewrite_items_spec _ _ _ _ _ _ _ _ _ NS E) as (d' & -> & F). cbn [app].
    exists d'. split; auto. constructor. intros X. apply NS. eapply Field_class; eauto.
  - rewrite rewrite_dict in E. destruct (rewrite_items_spec _ _ _ _ _ _ _ _ _ NS E) as (d' & -> & F). cbn [app].
    destruct (Field_dget _ _ _ _ _ _ F G) as (x' & G' & _ & [L|(L & i1 & f1 & R)]); cbn [fst snd] in *.
    + destruct (leaf_descends _ _ _ _ _ _ _ NK D L).
    + destruct (IH _ _ _ R) as (e' & D' & F'). exists e'. split; auto. eapply At_key; eauto. intros X. apply NS. eapply Field_class; eauto.
  - apply rewrite_list in E. destruct E as (l' & -> & F).
    assert (X : exists y, nth_error l' n = Some y /\ exists i f, rewrite P x = Ok (y, i, f)).
    { clear - F N. revert n N. induction F as [|a b l l' H F IH]; intros [|n] N; cbn in *; try discriminate; [|auto].
      injection N as ->. eauto. }
    destruct X as (y & Y & i1 & f1 & R). destruct (IH _ _ _ R) as (e' & D' & F'). exists e'. split; auto. econstructor; eauto.
Qed.

(** ** type names *)
Definition TField (g : string) (b : bool) (kv kv' : string * json) : Prop :=
  fst kv' = fst kv /\
  match snd kv with
  | JStr s => if String.eqb (fst kv) "type" || String.eqb (fst kv) "items"
              then exists s', rewrite_type_name g b s = Ok s' /\ snd kv' = JStr s' else snd kv' = snd kv
  | v => rewrite_types g b v = Ok (snd kv')
  end.
Lemma types_dict g b d j : rewrite_types g b (JDict d) = Ok j -> exists d', j = JDict d' /\ Forall2 (TField g b) d d'.
Proof.
  cbn [rewrite_types]. intros E. apply bind_inv in E. destruct E as (d' & E & X). injection X as <-. exists d'. split; auto.
  revert d' E. induction d as [|[k v] d IH]; intros d' E; [injection E as <-; constructor|].
  apply bind_inv in E. destruct E as (v' & E1 & E). apply bind_inv in E. destruct E as (d1 & E2 & X). injection X as <-.
  constructor; [|auto]. split; [reflexivity|]. cbn [fst snd]. destruct v as [| | | |s|l|d2]; auto.
  destruct (String.eqb k "type" || String.eqb k "items"); [|congruence]. apply bind_inv in E1. destruct E1 as (s' & E1 & X). injection X as <-. eauto.
Qed.
Lemma types_list g b l j : rewrite_types g b (JList l) = Ok j -> exists l', j = JList l' /\ Forall2 (fun x y => rewrite_types g b x = Ok y) l l'.
Proof.
  cbn [rewrite_types]. intros E. apply bind_inv in E. destruct E as (l' & E & X). injection X as <-. exists l'. split; auto.
  revert l' E. induction l as [|x l IH]; intros l' E; [injection E as <-; constructor|].
  apply bind_inv in E. destruct E as (v' & E1 & E). apply bind_inv in E. destruct E as (d1 & E2 & X). injection X as <-. constructor; auto.
Qed.
Lemma TField_class g b d d' : Forall2 (TField g b) d d' -> is_schemadef d' -> is_schemadef d.
Proof.
  unfold is_schemadef. induction 1 as [|[k v] [k' v'] l l' [H1 H2] _ IH]; cbn; auto. cbn in H1, H2. subst k'. intros [X|X]; [|auto].
  injection X as -> ->. destruct v as [| | | |s|l0|d2]; try discriminate.
  - cbn in H2. injection H2 as ->. auto.
  - apply types_list in H2. destruct H2 as (? & X & _). discriminate.
  - apply types_dict in H2. destruct H2 as (? & X & _). discriminate.
Qed.
Lemma types_at g b : forall j p d, DictAt j p d -> forall j', rewrite_types g b j = Ok j' ->
  exists d', DictAt j' p d' /\ Forall2 (TField g b) d d'.
Proof.
  induction 1 as [d NS|d k x p e NS NK G D IH|l n x p e N D IH]; intros j' E.
  - apply types_dict in E. destruct E as (d' & -> & F). exists d'. split; auto. constructor. intros X. apply NS. eapply TField_class; eauto.
  - apply types_dict in E. destruct E as (d' & -> & F).
    destruct (F2_dget (TField g b) (fun a b H => proj1 H) _ _ _ _ F G) as (x' & G' & _ & R); cbn [fst snd] in *.
    assert (R' : rewrite_types g b x = Ok x'). { destruct x; auto. apply DictAt_not_text in D. destruct D. }
    destruct (IH _ R') as (e' & D' & F'). exists e'. split; auto. eapply At_key; eauto. intros X. apply NS. eapply TField_class; eauto.
  - apply types_list in E. destruct E as (l' & -> & F).
    assert (X : exists y, nth_error l' n = Some y /\ rewrite_types g b x = Ok y).
    { clear - F N. revert n N. induction F as [|a c l l' H F IH]; intros [|n] N; cbn in *; try discriminate; [|auto].
      injection N as ->. eauto. }
    destruct X as (y & Y & R). destruct (IH _ R) as (e' & D' & F'). exists e'. split; auto. econstructor; eauto.
Qed.

(** what all the passes over imported files together do to one mapping *)
Definition simple (v : json) : Prop :=
  match v with JDict _ => False | JList l => Forall (fun x => exists s, x = JStr s) l | _ => True end.
Definition entry_kept (x x' : json) : Prop :=
  (forall s, x = JStr s -> x' = JStr s) /\
  forall m, x = JDict m -> exists m', x' = JDict m' /\ dkeys m' = dkeys m /\ forall s, dget "id" m = Some (JStr s) -> dget "id" m' = Some (JStr s).
Record Passed (imports : list string) (d d' : dict) : Prop := {
  p_keys : dkeys d' = dkeys d;
  p_same : forall k v, simple v -> k <> "type" -> k <> "items" -> dget k d = Some v -> dget k d' = Some v;
  p_same_type : forall k v, match v with JList _ | JDict _ | JStr _ => False | _ => True end -> dget k d = Some v -> dget k d' = Some v;
  p_nohash : forall k s, (forall r, s <> String "#" r) -> dget k d = Some (JStr s) -> dget k d' = Some (JStr s);
  p_type : forall F s, In F imports -> plain_name F -> dget "type" d = Some (JStr (own F s)) -> dget "type" d' = Some (JStr (F ++ "#" ++ s)%string);
  p_list : forall k l, dget k d = Some (JList l) -> exists l', dget k d' = Some (JList l') /\ Forall2 entry_kept l l'
}.
Lemma types_simple g b v v' : simple v -> match v with JStr _ => False | _ => True end -> rewrite_types g b v = Ok v' -> v' = v.
Proof.
  destruct v as [| | | |s|l|d]; cbn [simple]; intros S N E; try (cbn in E; congruence); try tauto.
  apply types_list in E. destruct E as (l' & -> & F). f_equal. clear N. induction F as [|x y l l' H F IH]; auto.
  inversion S as [|? ? [s ->] S']; subst. cbn in H. injection H as <-. f_equal. auto.
Qed.
Lemma type_name_nohash g s : (forall r, s <> String "#" r) -> rewrite_type_name ("#" ++ g) false s = Ok s.
Proof.
  intros N. unfold rewrite_type_name. destruct (startswith ("#" ++ g) s) eqn:E; auto. apply startswith_spec in E. destruct E as [r ->].
  destruct (N (g ++ r)%string). reflexivity.
Qed.
Lemma type_name_own g F s s' : plain_name F -> rewrite_type_name ("#" ++ g) false (own F s) = Ok s' ->
  s' = own F s \/ s' = (F ++ "#" ++ s)%string.
Proof.
  intros (_ & NS & _) E. unfold rewrite_type_name in E. destruct (startswith ("#" ++ g) (own F s)); [|left; congruence].
  unfold own in E. cbn [append sdrop] in E. change ("/" ++ s)%string with (String "/" s) in E. rewrite (cut_spec _ _ _ NS) in E. right. injection E as <-. reflexivity.
Qed.
Lemma type_name_here F s : plain_name F -> rewrite_type_name ("#" ++ F) false (own F s) = Ok (F ++ "#" ++ s)%string.
Proof.
  intros (_ & NS & _). unfold rewrite_type_name. rewrite own_starts. unfold own. cbn [append sdrop].
  change ("/" ++ s)%string with (String "/" s). rewrite (cut_spec _ _ _ NS). reflexivity.
Qed.
Lemma plain_nohash F s : plain_name F -> forall r, (F ++ s)%string <> String "#" r.
Proof. intros (N & _ & H) r E. destruct F as [|c F]; [congruence|]. cbn in E. injection E as E1 E2. subst c. apply (H F). reflexivity. Qed.

Lemma TField_Passed g d d' : Forall2 (TField ("#" ++ g) false) d d' ->
  dkeys d' = dkeys d /\
  (forall k v, simple v -> k <> "type" -> k <> "items" -> dget k d = Some v -> dget k d' = Some v) /\
  (forall k v, match v with JList _ | JDict _ | JStr _ => False | _ => True end -> dget k d = Some v -> dget k d' = Some v) /\
  (forall k s, (forall r, s <> String "#" r) -> dget k d = Some (JStr s) -> dget k d' = Some (JStr s)) /\
  (forall F s, plain_name F -> dget "type" d = Some (JStr (own F s)) ->
     (F <> g /\ dget "type" d' = Some (JStr (own F s))) \/ dget "type" d' = Some (JStr (F ++ "#" ++ s)%string)) /\
  (forall k l, dget k d = Some (JList l) -> exists l', dget k d' = Some (JList l') /\ Forall2 entry_kept l l').
Proof.
  intros H. assert (G : forall k v, dget k d = Some v -> exists v', dget k d' = Some v' /\ TField ("#" ++ g) false (k, v) (k, v')).
  { intros k v. apply F2_dget; auto. intros a b [X _]. exact X. }
  split. { clear G. unfold dkeys. induction H as [|x y l l' [X _] _ IH]; cbn; congruence. }
  split; [|split; [|split; [|split]]].
  - intros k v S N1 N2 D. destruct (G _ _ D) as (v' & D' & _ & R). cbn [fst snd] in R. rewrite D'. f_equal.
    destruct v as [| | | |s|l|d2]; try (eapply types_simple; [exact S|exact I|exact R]).
    destruct (String.eqb_spec k "type"); [congruence|]. destruct (String.eqb_spec k "items"); [congruence|]. exact R.
  - intros k v S D. destruct (G _ _ D) as (v' & D' & _ & R). cbn [fst snd] in R. rewrite D'. f_equal.
    destruct v as [| | | |s|l|d2]; try destruct S; cbn in R; congruence.
  - intros k s N D. destruct (G _ _ D) as (v' & D' & _ & R). cbn [fst snd] in R. rewrite D'. f_equal.
    destruct (String.eqb k "type" || String.eqb k "items"); auto. destruct R as (s' & R & ->). rewrite type_name_nohash in R by auto. congruence.
  - intros F s PN D. destruct (G _ _ D) as (v' & D' & _ & R). cbn [fst snd String.eqb orb] in R. cbn in R. destruct R as (s' & R & ->). rewrite D'.
    destruct (string_dec F g) as [->|N].
    + right. pose proof (type_name_here g s PN) as X. assert (Y : Ok s' = Ok (g ++ "#" ++ s)%string) by exact (eq_trans (eq_sym R) X). injection Y as ->. reflexivity.
    + apply (type_name_own g) in R; auto. destruct R as [->| ->]; auto.
  - intros k l D. destruct (G _ _ D) as (v' & D' & _ & R). cbn [fst snd] in R. apply types_list in R. destruct R as (l' & -> & R).
    exists l'. split; auto. clear - R. induction R as [|x y l l' H R IH]; constructor; auto. split.
    + intros s ->. cbn in H. congruence.
    + intros m ->. apply types_dict in H. destruct H as (m' & -> & H). exists m'. split; auto. split.
      * clear - H. unfold dkeys. induction H as [|x y l l' [X _] _ IH]; cbn; congruence.
      * intros s D. destruct (F2_dget (TField ("#" ++ g) false) (fun a b H => proj1 H) _ _ _ _ H D) as (w & D' & _ & Q). cbn in Q. subst. auto.
Qed.
Lemma entry_kept_trans l1 l2 : Forall2 entry_kept l1 l2 -> forall l3, Forall2 entry_kept l2 l3 -> Forall2 entry_kept l1 l3.
Proof.
  induction 1 as [|x y l l' [H1 H2] _ IH]; intros l3 K; inversion K as [|? z ? l3' [K1 K2] K']; subst; constructor; auto. split.
  - intros s E. auto.
  - intros m E. destruct (H2 _ E) as (m1 & E1 & A1 & B1). destruct (K2 _ E1) as (m2 & E2 & A2 & B2). exists m2. split; auto. split; [congruence|auto].
Qed.
Lemma entry_kept_refl l : Forall2 entry_kept l l.
Proof. induction l as [|x l IH]; constructor; auto. split; eauto. Qed.

Lemma passes_at : forall imports j p d j', DictAt j p d ->
  foldM (fun doc import_name => rewrite_types ("#" ++ import_name) false doc) imports j = Ok j' ->
  exists d', DictAt j' p d' /\ Passed imports d d'.
Proof.
  induction imports as [|g imports IH]; intros j p d j' D E; cbn [foldM] in E.
  - injection E as <-. exists d. split; auto. constructor; auto; [intros F s []|]. intros k l G. exists l. split; auto. apply entry_kept_refl.
  - apply bind_inv in E. destruct E as (j1 & E1 & E2). destruct (types_at _ _ _ _ _ D _ E1) as (d1 & D1 & F1).
    destruct (IH _ _ _ _ D1 E2) as (d' & D' & [A B C E F L]). exists d'. split; auto.
    destruct (TField_Passed _ _ _ F1) as (A1 & B1 & C1 & E0 & G1 & L1). constructor.
    + congruence.
    + intros k v S N1 N2 G. apply B; auto.
    + intros k v S G. apply C; auto.
    + intros k s N G. apply E; auto.
    + intros F0 s I PN G. destruct (G1 _ _ PN G) as [[N G2]|G2].
      * destruct I as [->|I]; [congruence|]. auto.
      * apply E; auto. intros r. apply plain_nohash. auto.
    + intros k l G. destruct (L1 _ _ G) as (l1 & G1' & K1). destruct (L _ _ G1') as (l2 & G2 & K2). exists l2. split; auto. eapply entry_kept_trans; eauto.
Qed.

Lemma dkeys_dset_present k v w (d : dict) : dget k d = Some w -> dkeys (dset k v d) = dkeys d.
Proof.
  unfold dkeys. induction d as [|[k1 v1] d IH]; cbn; [discriminate|]. destruct (String.eqb_spec k k1) as [->|N]; cbn; [reflexivity|].
  intros H. f_equal. auto.
Qed.
(** ** one mapping, all passes *)
Lemma Rewritten_spec P imports d d1 d' : has_char "/" P = false ->
  Forall2 (Field P (dget "id" d)) d d1 -> Passed imports d1 d' -> Rewritten P imports d d'.
Proof.
  intros NS H [A B C E F PL].
  assert (G : forall k v, dget k d = Some v -> exists v', dget k d1 = Some v' /\ Field P (dget "id" d) (k, v) (k, v')).
  { intros k v. apply Field_dget. auto. }
  assert (L : forall k v v', rewrite_leaf P (dget "id" d) k v = Ok (Some v') -> dget k d = Some v -> dget k d1 = Some v').
  { intros k v v' L D. destruct (G _ _ D) as (w & D1 & _ & [X|[X _]]); cbn [fst snd] in X; rewrite L in X; congruence. }
  assert (S : forall k v, rewrite_leaf P (dget "id" d) k v = Ok None -> match v with JList _ | JDict _ => False | _ => True end ->
              dget k d = Some v -> dget k d1 = Some v).
  { intros k v L0 M D. destruct (G _ _ D) as (w & D1 & _ & [X|[_ (i & f & X)]]); cbn [fst snd] in X; [congruence|].
    apply rewrite_atom in X; auto. congruence. }
  constructor.
  - rewrite A. eapply Field_keys; eauto.
  - intros k s K D. apply B; [exact I|intros ->; cbn in K; intuition discriminate|intros ->; cbn in K; intuition discriminate|].
    revert D. apply L. unfold rewrite_leaf. cbn in K. destruct K as [<-|[<-|[<-|[<-|[]]]]]; cbn -[append own startswith sdrop cut String.length].
    + rewrite (own_starts P s). cbv iota. rewrite own_drop. reflexivity.
    + rewrite (own_starts P s). cbv iota. rewrite own_drop. reflexivity.
    + unfold own. cbn [append]. cbn -[append cut]. change ("/" ++ s)%string with (String "/" s). rewrite (cut_spec _ _ _ NS), String.eqb_refl. reflexivity.
    + unfold own. cbn [append]. cbn -[append cut]. change ("/" ++ s)%string with (String "/" s). rewrite (cut_spec _ _ _ NS), String.eqb_refl. reflexivity.
  - intros k F0 s K N PN D. apply E; [intros r; apply plain_nohash; auto|]. revert D. apply L.
    assert (X : smem k ["source"; "scatter"; "items"; "format"] = true) by (apply smem_In; auto).
    assert (M : rewrite_leaf P (dget "id" d) k (JStr (own F0 s)) =
                match cut "/" (F0 ++ "/" ++ s) with
                | Some (file, sub) => Ok (Some (JStr (if String.eqb file P then sub else file ++ "#" ++ sub)))
                | None => Ok (Some (JStr (own F0 s))) end).
    { cbn in K. destruct K as [<-|[<-|[<-|[<-|[]]]]]; reflexivity. }
    rewrite M. change ("/" ++ s)%string with (String "/" s). destruct PN as (_ & NF & _). rewrite (cut_spec _ _ _ NF).
    destruct (String.eqb_spec F0 P); [congruence|reflexivity].
  - intros k l K D. destruct (G _ _ D) as (v' & D1 & _ & X). cbn [fst snd] in X.
    assert (M : rewrite_leaf P (dget "id" d) k (JList l) = do l' <- mapM (rewrite_source_entry P) l; Ok (Some (JList l'))).
    { cbn in K. destruct K as [<-|[<-|[]]]; reflexivity. }
    rewrite M in X. destruct (mapM (rewrite_source_entry P) l) as [l'|e] eqn:Q; cbn in X; [|destruct X as [X|[X _]]; discriminate].
    destruct X as [X|[X _]]; [|discriminate]. injection X as <-. exists l'. split.
    + apply B; auto; [|intros ->; cbn in K; intuition discriminate|intros ->; cbn in K; intuition discriminate].
      clear - Q. cbn [simple]. revert l' Q. induction l as [|x l IH]; intros l' Q; cbn in Q; [injection Q as <-; constructor|].
      destruct x; cbn in Q; try discriminate. apply bind_inv in Q. destruct Q as (ys & Q & X). injection X as <-. constructor; eauto.
      match goal with |- context [if ?b then _ else _] => destruct b end; eauto.
    + clear - Q. revert l' Q. induction l as [|x l IH]; intros l' Q; cbn [mapM] in Q; [injection Q as <-; constructor|].
      apply bind_inv in Q. destruct Q as (y & Q1 & Q). apply bind_inv in Q. destruct Q as (ys & Q & X). injection X as <-. constructor; [|auto].
      destruct x as [| | | |s0| |]; try discriminate. unfold rewrite_source_entry in Q1. injection Q1 as <-. split.
      * intros s X. injection X as ->. pose proof (own_starts P s) as W. cbn [append] in W. rewrite W, own_drop. reflexivity.
      * intros N. destruct (startswith (String "#" P) s0) eqn:W; auto. apply startswith_spec in W. destruct W as [r ->].
        destruct (N r). reflexivity.
  - intros X f FF D. rewrite <- (FileFor_strip _ _ FF). apply B; [exact I|discriminate|discriminate|]. revert D. apply L. reflexivity.
  - intros t l NE D1 D2. apply B; [|discriminate|discriminate|].
    { cbn. clear. induction l; constructor; eauto. }
    revert D2. apply L. rewrite D1.
    assert (Q : mapM (rewrite_id (Some (JStr t))) (map (fun o => JStr (t ++ "/" ++ o)) l) = Ok (map JStr l)).
    2:{ change (bind (mapM (rewrite_id (Some (JStr t))) (map (fun o => JStr (t ++ "/" ++ o)) l)) (fun l' => Ok (Some (JList l'))) = Ok (Some (JList (map JStr l)))).
        rewrite Q. reflexivity. }
    clear - NE. induction l as [|o l IH]; auto. cbn [map mapM]. unfold rewrite_id at 1. apply String.eqb_neq in NE. rewrite NE.
    cbn [negb andb]. rewrite startswith_app, sdrop_app_plus. change (sdrop 1 ("/" ++ o)) with o. cbn [bind]. rewrite IH. reflexivity.
  - intros t ms D1 D2 FM.
    assert (D3 : dget "out" d1 = Some (JList (map (fun mo => JDict (dset "id" (JStr (snd mo)) (fst mo))) ms))).
    { revert D2. apply L. rewrite D1.
      assert (Q : mapM (rewrite_id (Some (JStr t))) (map JDict (map fst ms)) = Ok (map (fun mo => JDict (dset "id" (JStr (snd mo)) (fst mo))) ms)).
      2:{ change (bind (mapM (rewrite_id (Some (JStr t))) (map JDict (map fst ms))) (fun l' => Ok (Some (JList l'))) =
                  Ok (Some (JList (map (fun mo => JDict (dset "id" (JStr (snd mo)) (fst mo))) ms)))). rewrite Q. reflexivity. }
      clear - FM. induction FM as [|[m o] ms H FM IH]; auto. cbn [map mapM fst snd] in *. unfold rewrite_id at 1. rewrite H.
      rewrite startswith_app, sdrop_app_plus. change (sdrop 1 ("/" ++ o)) with o. cbn [bind]. rewrite IH. reflexivity. }
    destruct (PL _ _ D3) as (l' & D4 & K). rewrite D4. clear - K FM. revert l' K. induction FM as [|[m o] ms H FM IH]; intros l' K.
    + inversion K; subst. exists []. split; constructor.
    + cbn [map fst snd] in *. inversion K as [|? y ? l1 [_ K1] K2]; subst. destruct (K1 _ eq_refl) as (m' & -> & Q1 & Q2).
      destruct (IH _ K2) as (ms' & Q3 & Q4). injection Q3 as ->. exists (m' :: ms'). split; [reflexivity|]. constructor; auto. cbn [fst snd]. split.
      * apply Q2. apply dget_dset_same.
      * rewrite Q1. exact (dkeys_dset_present _ _ _ _ H).
  - intros l D1 D2. apply B; [|discriminate|discriminate|].
    { cbn. clear. induction l; constructor; eauto. }
    revert D2. apply L. rewrite D1.
    assert (Q : mapM (rewrite_id None) (map JStr l) = Ok (map JStr l)).
    2:{ change (bind (mapM (rewrite_id None) (map JStr l)) (fun l' => Ok (Some (JList l'))) = Ok (Some (JList (map JStr l)))). rewrite Q. reflexivity. }
    clear. induction l as [|o l IH]; auto. cbn [map mapM]. unfold rewrite_id at 1. cbn [bind]. rewrite IH. reflexivity.
  - intros l m D IM. destruct (G _ _ D) as (v' & D1 & _ & X). cbn [fst snd] in X.
    assert (Y : exists l', mapM (rewrite_id (dget "id" d)) l = Ok l').
    { destruct (mapM (rewrite_id (dget "id" d)) l) as [l'|e] eqn:Q; eauto. exfalso.
      assert (M : rewrite_leaf P (dget "id" d) "out" (JList l) = do l' <- mapM (rewrite_id (dget "id" d)) l; Ok (Some (JList l'))) by reflexivity.
      rewrite M, Q in X. cbn [bind] in X. destruct X as [X|[X _]]; discriminate. }
    destruct Y as (l' & Y). clear - Y IM. revert l' Y. induction l as [|x l IH]; intros l' Y; [destruct IM|]. cbn [mapM] in Y.
    apply bind_inv in Y. destruct Y as (y & Y1 & Y). apply bind_inv in Y. destruct Y as (ys & Y2 & _). destruct IM as [->|IM]; [|eauto].
    unfold rewrite_id in Y1. destruct (dget "id" m) as [[]|]; try discriminate. eauto.
  - intros D. destruct (G _ _ D) as (v' & D1 & _ & X). cbn [fst snd] in X. destruct X as [X|[X _]]; discriminate.
  - intros k s K NE N D. apply E; auto.
    assert (Q : startswith ("#" ++ P) s = false).
    { destruct (startswith ("#" ++ P) s) eqn:W; auto. apply startswith_spec in W. destruct W as [r ->]. destruct (N (P ++ r)%string). reflexivity. }
    destruct s as [|c s]; [congruence|]. assert (QC : Ascii.eqb c "#" = false).
    { destruct (Ascii.eqb_spec c "#"); auto. subst. destruct (N s). reflexivity. }
    cbn in K. destruct K as [<-|[<-|[<-|[<-|[<-|[<-|[]]]]]]].
    + revert D. apply S; [|exact I]. unfold rewrite_leaf. cbn -[append startswith]. rewrite Q. reflexivity.
    + revert D. apply S; [|exact I]. unfold rewrite_leaf. cbn -[append startswith]. rewrite Q. reflexivity.
    + revert D. apply S; [|exact I]. unfold rewrite_leaf. cbn -[append startswith Ascii.eqb]. rewrite QC. reflexivity.
    + revert D. apply L. unfold rewrite_leaf. cbn -[append startswith Ascii.eqb]. rewrite QC. reflexivity.
    + revert D. apply L. unfold rewrite_leaf. cbn -[append startswith Ascii.eqb]. rewrite QC. reflexivity.
    + revert D. apply L. unfold rewrite_leaf. cbn -[append startswith Ascii.eqb]. rewrite QC. reflexivity.
  - intros F0 s IF PN D. apply F; [exact IF|exact PN|]. revert D. apply S; [reflexivity|exact I].
  - intros s N D. apply E; [exact N|]. revert D. apply S; [reflexivity|exact I].
  - intros k v NK M D.
    assert (D1 : dget k d1 = Some v).
    { revert D. apply S; auto. unfold rewrite_leaf. cbn in NK.
      destruct (String.eqb_spec k "run"); [intuition congruence|]. destruct (String.eqb_spec k "id"); [intuition congruence|].
      destruct (String.eqb_spec k "outputSource"); [intuition congruence|]. destruct (String.eqb_spec k "out"); [intuition congruence|]. cbn [orb].
      destruct (smem k _) eqn:Q; [apply smem_In in Q; cbn in Q; intuition congruence|].
      destruct (String.eqb_spec k "$import"); [intuition congruence|]. reflexivity. }
    apply B; auto; [destruct v; cbn; auto; destruct M|cbn in NK; intuition congruence|cbn in NK; intuition congruence].
Qed.
