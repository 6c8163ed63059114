(** * Lemmas about the Python vocabulary of PyBase. *)
From Verif Require Import PyBase.

(** ** Strings *)
Lemma sapp_assoc (a b c : string) : ((a ++ b) ++ c = a ++ (b ++ c))%string.
Proof. induction a as [|x a IH]; simpl; congruence. Qed.

Lemma sapp_nil_r (a : string) : (a ++ "" = a)%string.
Proof. induction a as [|x a IH]; simpl; congruence. Qed.

Lemma slength_app (a b : string) :
  String.length (a ++ b)%string = String.length a + String.length b.
Proof. induction a as [|x a IH]; simpl; congruence. Qed.

Lemma sdrop_app_length (a b : string) : sdrop (String.length a) (a ++ b)%string = b.
Proof. induction a as [|x a IH]; simpl; auto. Qed.

Lemma stake_app_length (a b : string) : stake (String.length a) (a ++ b)%string = a.
Proof. induction a as [|x a IH]; simpl; [destruct b|rewrite IH]; auto. Qed.

Lemma sdrop_app_plus (a b : string) n :
  sdrop (String.length a + n) (a ++ b)%string = sdrop n b.
Proof. induction a as [|x a IH]; simpl; auto. Qed.

Lemma stake_app_plus (a b : string) n :
  stake (String.length a + n) (a ++ b)%string = (a ++ stake n b)%string.
Proof. induction a as [|x a IH]; simpl; congruence. Qed.

Lemma sdrop_all (a : string) n : String.length a <= n -> sdrop n a = "".
Proof.
  revert n; induction a as [|x a IH]; intros n H; destruct n; simpl in *; auto; try lia.
  apply IH; lia.
Qed.

Lemma stake_all (a : string) n : String.length a <= n -> stake n a = a.
Proof.
  revert n; induction a as [|x a IH]; intros n H; destruct n; simpl in *; auto; try lia.
  rewrite IH; [auto|lia].
Qed.

Lemma stake_sdrop (n : nat) (s : string) : (stake n s ++ sdrop n s = s)%string.
Proof.
  revert s; induction n as [|n IH]; intros s; destruct s; simpl; auto.
  rewrite IH; auto.
Qed.

Lemma slength_stake n s : String.length (stake n s) = Nat.min n (String.length s).
Proof.
  revert s; induction n as [|n IH]; intros s; destruct s; simpl; auto.
Qed.

Lemma slength_sdrop n s : String.length (sdrop n s) = String.length s - n.
Proof.
  revert s; induction n as [|n IH]; intros s; destruct s; simpl; auto.
Qed.

Lemma sapp_inj_l (a b c : string) : (a ++ b = a ++ c)%string -> b = c.
Proof. induction a as [|x a IH]; simpl; intros H; [auto|injection H; auto]. Qed.

Lemma sapp_eq_nil (a b : string) : (a ++ b = "")%string -> a = "" /\ b = "".
Proof. destruct a; simpl; [auto|discriminate]. Qed.

Lemma sapp_inj_length (a b a' b' : string) :
  String.length a = String.length a' -> (a ++ b = a' ++ b')%string -> a = a' /\ b = b'.
Proof.
  revert a'; induction a as [|x a IH]; intros [|x' a'] L H; simpl in *; try lia; auto.
  injection H as -> H. destruct (IH a' ltac:(lia) H) as [-> ->]; auto.
Qed.

Lemma startswith_spec p s : startswith p s = true <-> exists r, s = (p ++ r)%string.
Proof.
  unfold startswith. revert s; induction p as [|c p IH]; intros s.
  - split; [intros _; exists s; auto|destruct s; auto].
  - destruct s as [|d s]; cbn [String.prefix].
    + split; [discriminate|intros [r H]; discriminate].
    + destruct (ascii_dec c d) as [->|N].
      * rewrite IH. split; intros [r H]; exists r; [simpl; congruence|injection H; auto].
      * split; [discriminate|intros [r H]; injection H; congruence].
Qed.

Lemma startswith_app p r : startswith p (p ++ r)%string = true.
Proof. apply startswith_spec; eauto. Qed.

Lemma contains_spec p s : contains p s = true <-> exists a b, s = (a ++ p ++ b)%string.
Proof.
  induction s as [|c s IH]; cbn [contains].
  - rewrite orb_false_r, startswith_spec. split.
    + intros [r H]. exists "", r. auto.
    + intros (a & b & H). destruct a; simpl in H; [eauto|discriminate].
  - rewrite orb_true_iff, startswith_spec, IH. split.
    + intros [[r H]|(a & b & H)].
      * exists "", r; auto.
      * exists (String c a), b. simpl. congruence.
    + intros (a & b & H). destruct a as [|x a]; simpl in H.
      * left; eauto.
      * right. injection H as -> H. eauto.
Qed.

Lemma has_char_spec c s : has_char c s = true <-> exists a b, s = (a ++ String c b)%string.
Proof.
  induction s as [|d s IH]; simpl.
  - split; [discriminate|]. intros (a & b & H). destruct a; discriminate.
  - rewrite orb_true_iff, IH, Ascii.eqb_eq. split.
    + intros [->|(a & b & ->)]; [exists "", s|exists (String d a), b]; auto.
    + intros (a & b & H). destruct a as [|x a]; simpl in H; injection H as -> H.
      * auto.
      * right; eauto.
Qed.

Lemma has_char_app c a b : has_char c (a ++ b)%string = has_char c a || has_char c b.
Proof. induction a as [|d a IH]; simpl; auto. rewrite IH, orb_assoc; auto. Qed.

Lemma sforall_app p a b : sforall p (a ++ b)%string = sforall p a && sforall p b.
Proof. induction a as [|d a IH]; simpl; auto. rewrite IH, andb_assoc; auto. Qed.

Lemma endswith_spec p s : endswith p s = true <-> exists r, s = (r ++ p)%string.
Proof.
  unfold endswith. rewrite andb_true_iff, Nat.leb_le, String.eqb_eq. split.
  - intros [L H]. exists (stake (String.length s - String.length p) s).
    transitivity (stake (String.length s - String.length p) s
                  ++ sdrop (String.length s - String.length p) s)%string.
    + symmetry; apply stake_sdrop.
    + rewrite H; auto.
  - intros [r ->]. rewrite slength_app. split; [lia|].
    replace (_ + _ - _) with (String.length r) by lia. apply sdrop_app_length.
Qed.

Lemma sdrop_last_app a b : sdrop_last (String.length b) (a ++ b)%string = a.
Proof.
  unfold sdrop_last. rewrite slength_app.
  replace (_ + _ - _) with (String.length a) by lia. apply stake_app_length.
Qed.

Lemma split_char_nonnil c s : split_char c s <> [].
Proof.
  destruct s as [|d s]; simpl; [discriminate|].
  destruct (Ascii.eqb d c); [discriminate|]. destruct (split_char c s); discriminate.
Qed.

Lemma split_char_none c s : has_char c s = false -> split_char c s = [s].
Proof.
  induction s as [|d s IH]; simpl; auto. rewrite orb_false_iff. intros [H1 H2].
  rewrite Ascii.eqb_sym, H1, IH; auto.
Qed.

Lemma split_char_app c a b :
  has_char c a = false -> split_char c (a ++ String c b)%string = a :: split_char c b.
Proof.
  induction a as [|d a IH]; simpl.
  - rewrite Ascii.eqb_refl; auto.
  - rewrite orb_false_iff. intros [H1 H2]. rewrite Ascii.eqb_sym, H1, IH; auto.
Qed.

Lemma sjoin_cons sep x y l :
  sjoin sep (x :: y :: l) = (x ++ sep ++ sjoin sep (y :: l))%string.
Proof. reflexivity. Qed.

Lemma sjoin_split_char c s : sjoin (String c "") (split_char c s) = s.
Proof.
  induction s as [|d s IH]; auto. cbn [split_char].
  destruct (Ascii.eqb_spec d c) as [->|N].
  - destruct (split_char c s) as [|h t] eqn:E; [destruct (split_char_nonnil _ _ E)|].
    rewrite sjoin_cons, IH. reflexivity.
  - destruct (split_char c s) as [|h t] eqn:E; [destruct (split_char_nonnil _ _ E)|].
    destruct t as [|h' t].
    + simpl in *. congruence.
    + rewrite sjoin_cons in *. simpl in *. congruence.
Qed.

Lemma split_char_parts c s : Forall (fun x => has_char c x = false) (split_char c s).
Proof.
  induction s as [|d s IH]; simpl; [repeat constructor|].
  destruct (Ascii.eqb_spec d c) as [->|N]; [constructor; auto|].
  destruct (split_char c s) as [|h t]; inversion IH; subst; constructor; simpl; auto.
  - rewrite orb_false_r. apply Ascii.eqb_neq; congruence.
  - rewrite H1, orb_false_r. apply Ascii.eqb_neq; congruence.
Qed.

(** ** Reversal and stripping *)
Lemma srev_app_spec a acc : srev_app a acc = (srev a ++ acc)%string.
Proof.
  unfold srev. revert acc. induction a as [|c a IH]; simpl; auto. intros acc.
  rewrite IH, (IH (String c "")), sapp_assoc. auto.
Qed.

Lemma srev_cons c a : srev (String c a) = (srev a ++ String c "")%string.
Proof. unfold srev at 1. simpl. apply srev_app_spec. Qed.

Lemma srev_app_distr a b : srev (a ++ b)%string = (srev b ++ srev a)%string.
Proof.
  induction a as [|c a IH]; simpl.
  - rewrite sapp_nil_r; auto.
  - rewrite !srev_cons, IH, sapp_assoc; auto.
Qed.

Lemma srev_involutive a : srev (srev a) = a.
Proof.
  induction a as [|c a IH]; simpl; auto.
  rewrite srev_cons, srev_app_distr, IH. auto.
Qed.

Lemma slength_srev a : String.length (srev a) = String.length a.
Proof.
  induction a as [|c a IH]; auto. rewrite srev_cons, slength_app. simpl. lia.
Qed.

(** ** Dicts *)
Section DictLemmas.
  Context {V : Type}.
  Implicit Types d e : list (string * V).

  Lemma dget_dset_same k v d : dget k (dset k v d) = Some v.
  Proof.
    induction d as [|[k' v'] d IH]; simpl.
    - rewrite String.eqb_refl; auto.
    - destruct (String.eqb_spec k k') as [->|N]; simpl.
      + rewrite String.eqb_refl; auto.
      + destruct (String.eqb_spec k k'); [contradiction|auto].
  Qed.

  Lemma dget_dset_other k k' v d : k <> k' -> dget k (dset k' v d) = dget k d.
  Proof.
    intros N. induction d as [|[k2 v2] d IH]; simpl.
    - destruct (String.eqb_spec k k'); [contradiction|auto].
    - destruct (String.eqb_spec k' k2) as [->|N2]; simpl.
      + destruct (String.eqb_spec k k2); [contradiction|auto].
      + destruct (String.eqb k k2); auto.
  Qed.

  Lemma dget_In k v d : dget k d = Some v -> In (k, v) d.
  Proof.
    induction d as [|[k' v'] d IH]; simpl; [discriminate|].
    destruct (String.eqb_spec k k') as [->|N]; [intros [= ->]|]; auto.
  Qed.

  Lemma dget_None k d : dget k d = None <-> ~ In k (dkeys d).
  Proof.
    induction d as [|[k' v'] d IH]; simpl; [tauto|].
    destruct (String.eqb_spec k k') as [->|N]; [split; [discriminate|tauto]|].
    rewrite IH. split; intros H; [intros [E|E]; [congruence|tauto]|tauto].
  Qed.

  Lemma dget_Some_key k v d : dget k d = Some v -> In k (dkeys d).
  Proof. intros H. apply dget_In in H. apply (in_map fst) in H. exact H. Qed.

  Lemma In_dget k v d : wf_dict d -> In (k, v) d -> dget k d = Some v.
  Proof.
    unfold wf_dict. induction d as [|[k' v'] d IH]; simpl; [tauto|].
    intros W [E|H]; inversion W; subst.
    - injection E as -> ->. rewrite String.eqb_refl; auto.
    - destruct (String.eqb_spec k k') as [->|N]; auto.
      exfalso. match goal with H1 : ~ In _ _ |- _ => apply H1 end.
      apply (in_map fst) in H. exact H.
  Qed.

  Lemma dkeys_dset k v d :
    dkeys (dset k v d) = if dmem k d then dkeys d else dkeys d ++ [k].
  Proof.
    unfold dmem. induction d as [|[k' v'] d IH]; simpl; auto.
    destruct (String.eqb_spec k k') as [->|N]; simpl; auto.
    rewrite IH. destruct (dget k d); auto.
  Qed.

  Lemma dset_new k v d : dget k d = None -> dset k v d = d ++ [(k, v)].
  Proof.
    induction d as [|[k' v'] d IH]; simpl; auto.
    destruct (String.eqb k k'); [discriminate|]. intros H. rewrite IH; auto.
  Qed.

  Lemma wf_dset k v d : wf_dict d -> wf_dict (dset k v d).
  Proof.
    unfold wf_dict. intros W. rewrite dkeys_dset. destruct (dmem k d) eqn:E; auto.
    unfold dmem in E. destruct (dget k d) eqn:G; [discriminate|].
    apply dget_None in G.
    apply NoDup_rev in W. rewrite <- (rev_involutive (dkeys d ++ [k])).
    apply NoDup_rev. rewrite rev_app_distr. simpl. constructor; auto.
    rewrite <- in_rev. auto.
  Qed.

  Lemma dget_dpop_same k d : dget k (dpop k d) = None.
  Proof.
    unfold dpop. induction d as [|[k' v'] d IH]; simpl; auto.
    destruct (String.eqb_spec k k') as [->|N]; simpl; auto.
    destruct (String.eqb_spec k k'); [contradiction|auto].
  Qed.

  Lemma dget_dpop_other k k' d : k <> k' -> dget k (dpop k' d) = dget k d.
  Proof.
    intros N. unfold dpop. induction d as [|[k2 v2] d IH]; simpl; auto.
    destruct (String.eqb_spec k' k2) as [->|N2]; simpl.
    - destruct (String.eqb_spec k k2); [contradiction|auto].
    - destruct (String.eqb k k2); auto.
  Qed.

  Lemma wf_dpop k d : wf_dict d -> wf_dict (dpop k d).
  Proof.
    unfold wf_dict, dpop, dkeys. induction d as [|[k' v'] d IH]; simpl; auto.
    intros W; inversion W; subst. destruct (String.eqb k k'); simpl; auto.
    constructor; auto. intros H. apply in_map_iff in H. destruct H as ([k2 v2] & E & H).
    simpl in E; subst. apply filter_In in H. destruct H as [H _].
    apply (in_map fst) in H. contradiction.
  Qed.

  Lemma dpop_absent k d : dget k d = None -> dpop k d = d.
  Proof.
    unfold dpop. induction d as [|[k' v'] d IH]; simpl; auto.
    destruct (String.eqb k k'); [discriminate|]. simpl. intros H; rewrite IH; auto.
  Qed.

  Lemma dmem_true k d : dmem k d = true <-> In k (dkeys d).
  Proof.
    unfold dmem. destruct (dget k d) eqn:E.
    - split; auto. intros _. eapply dget_Some_key; eauto.
    - apply dget_None in E. split; [discriminate|contradiction].
  Qed.
End DictLemmas.

Lemma smem_In x l : smem x l = true <-> In x l.
Proof.
  unfold smem. rewrite existsb_exists. split.
  - intros (y & H & E). apply String.eqb_eq in E. congruence.
  - intros H. exists x. rewrite String.eqb_refl; auto.
Qed.

(** ** Values *)
Lemma json_eqb_refl a : json_eqb a a = true.
Proof.
  induction a as [|b|z|s|s|l IH|d IH] using json_ind'; cbn [json_eqb];
    auto using Bool.eqb_reflx, Z.eqb_refl, String.eqb_refl.
  - induction IH as [|x l Hx Hl IHl]; auto. rewrite Hx. auto.
  - induction IH as [|[k v] l Hx Hl IHl]; auto. simpl in Hx. rewrite String.eqb_refl, Hx. auto.
Qed.

Lemma json_eqb_eq a b : json_eqb a b = true <-> a = b.
Proof.
  split; [|intros ->; apply json_eqb_refl].
  revert b. induction a as [|x|z|s|s|l IH|d IH] using json_ind'; intros [|y|z'|s'|s'|l'|d'];
    cbn [json_eqb]; try discriminate; auto.
  - intros H. apply Bool.eqb_prop in H. congruence.
  - intros H. apply Z.eqb_eq in H. congruence.
  - intros H. apply String.eqb_eq in H. congruence.
  - intros H. apply String.eqb_eq in H. congruence.
  - intros H. f_equal. revert l' H.
    induction IH as [|x l Hx Hl IHl]; intros [|y l'] H; try discriminate; auto.
    apply andb_true_iff in H. destruct H as [H1 H2]. f_equal; auto.
  - intros H. f_equal. revert d' H.
    induction IH as [|[k v] l Hx Hl IHl]; intros [|[k' v'] l'] H; try discriminate; auto.
    apply andb_true_iff in H. destruct H as [H1 H2].
    apply andb_true_iff in H1. destruct H1 as [H0 H1]. apply String.eqb_eq in H0.
    simpl in Hx. apply Hx in H1. f_equal; [congruence|auto].
Qed.

(** ** Sequencing *)
Lemma mapM_Ok {A B} (f : A -> result B) xs ys :
  mapM f xs = Ok ys <-> Forall2 (fun x y => f x = Ok y) xs ys.
Proof.
  revert ys. induction xs as [|x xs IH]; intros ys; simpl.
  - split; [intros [= <-]; constructor|intros H; inversion H; auto].
  - unfold bind. split.
    + destruct (f x) eqn:E; [|discriminate].
      destruct (mapM f xs) eqn:E2; [|discriminate].
      intros [= <-]. constructor; auto. apply IH; auto.
    + intros H; inversion H; subst. rewrite H2.
      apply IH in H4. rewrite H4. auto.
Qed.
