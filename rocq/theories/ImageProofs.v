(** * Proofs about extraction, image files and version tests *)
From Verif Require Import PyBase PyBaseProofs ImageModel ImageSpec.
From Coq Require Import NArith Lia.

(** ** Traversal *)
Lemma nth_error_nil {A} i : nth_error (@nil A) i = None.
Proof. destruct i; auto. Qed.
Lemma Forall2_impl {A B} (P Q : A -> B -> Prop) a b : (forall x y, P x y -> Q x y) -> Forall2 P a b -> Forall2 Q a b.
Proof. intros H F. induction F; constructor; auto. Qed.
Lemma Forall2_map_l {A A' B} (g : A -> A') (R : A' -> B -> Prop) a b : Forall2 (fun x y => R (g x) y) a b -> Forall2 R (map g a) b.
Proof. induction 1; cbn; constructor; auto. Qed.

Lemma NoDup_app_intro {A} (a b : list A) : NoDup a -> NoDup b -> (forall x, In x a -> In x b -> False) -> NoDup (a ++ b).
Proof.
  induction a as [|x a IH]; cbn; auto. intros Na Nb D. inversion_clear Na. constructor.
  - rewrite in_app_iff. intros [X|X]; [auto|apply (D x); auto].
  - apply IH; auto. intros y P Q. apply (D y); auto.
Qed.
Lemma NoDup_map_inj {A B} (f : A -> B) l : (forall x y, f x = f y -> x = y) -> NoDup l -> NoDup (map f l).
Proof.
  intros I N. induction N as [|x l H N IH]; cbn; constructor; auto. rewrite in_map_iff. intros (y & E & X).
  apply I in E. subst. auto.
Qed.

Section Traverse.
Variable load : string -> result process.
Variable sel : entry -> bool.
Variable own : option (list entry) -> option (list entry) -> list entry.
Variable stp : option (list entry) -> option (list entry) -> list entry.
Variables Ro Rs : entry -> entry -> Prop.

Definition section_list (s : sect) (r h : option (list entry)) := listed s r h.

Definition selects (f : option (list entry) -> option (list entry) -> list entry) (R : entry -> entry -> Prop) :=
  forall r h, exists ps : list (sect * nat), NoDup ps /\
    (forall s i, In (s, i) ps <-> exists e, nth_error (listed s r h) i = Some e /\ sel e = true) /\
    Forall2 (fun p e' => exists e, nth_error (listed (fst p) r h) (snd p) = Some e /\ sel e = true /\ R e e') ps (f r h).
Hypothesis Hown : selects own Ro.
Hypothesis Hstp : selects stp Rs.

Fixpoint gtrav (fuel : nat) (p : process) : gen entry :=
  match fuel with
  | O => ([], Some OutOfFuel)
  | S fuel =>
      gcat (yields (own (p_requirements p) (p_hints p)))
        (if p_workflow p then
           fold_right (fun s rest =>
             gcat (yields (stp (s_requirements s) (s_hints s)))
               (gcat (match get_process_from_step load s with
                      | Ok q => gtrav fuel q
                      | Err e => ([], Some e)
                      end) rest)) (yields []) (p_steps p)
         else yields [])
  end.

Lemma gcat_yields {A} (l : list A) g : gcat (yields l) g = (l ++ fst g, snd g).
Proof. reflexivity. Qed.

Definition Rel (p : process) (pl : place) (e' : entry) : Prop :=
  exists e, At load p pl e /\ sel e = true /\ (on_step pl /\ Rs e e' \/ ~ on_step pl /\ Ro e e').

Lemma get_process_Runs s q : get_process_from_step load s = Ok q <-> Runs load s q.
Proof.
  unfold get_process_from_step, Runs. destruct (s_run s) as [u|p]; split.
  - intros; right; eauto.
  - intros [X|(u' & X & E)]; [discriminate|]. injection X as ->. auto.
  - intros X; injection X as ->; auto.
  - intros [X|(u' & X & E)]; [injection X as ->; auto|discriminate].
Qed.
Lemma Runs_fun s q q' : Runs load s q -> Runs load s q' -> q = q'.
Proof. rewrite <- !get_process_Runs. congruence. Qed.

Definition steps_gen fuel (l : list step) : gen entry :=
  fold_right (fun s rest =>
             gcat (yields (stp (s_requirements s) (s_hints s)))
               (gcat (match get_process_from_step load s with
                      | Ok q => gtrav fuel q
                      | Err e => ([], Some e)
                      end) rest)) (yields []) l.

Lemma gtrav_S fuel p : gtrav (S fuel) p =
  gcat (yields (own (p_requirements p) (p_hints p))) (if p_workflow p then steps_gen fuel (p_steps p) else yields []).
Proof. reflexivity. Qed.
Lemma steps_gen_cons fuel s l : steps_gen fuel (s :: l) =
  gcat (yields (stp (s_requirements s) (s_hints s)))
    (gcat (match get_process_from_step load s with Ok q => gtrav fuel q | Err e => ([], Some e) end) (steps_gen fuel l)).
Proof. reflexivity. Qed.

(** Sound always, complete when no error ends the traversal. *)
Definition Covers (p : process) (all : bool) (rs : list entry) : Prop :=
  exists pls, NoDup pls /\
    (forall pl, In pl pls -> exists e, At load p pl e /\ sel e = true) /\
    (all = true -> forall pl e, At load p pl e -> sel e = true -> In pl pls) /\
    Forall2 (Rel p) pls rs.

Definition ok_of (o : option exn) : bool := match o with None => true | Some _ => false end.

(** The steps of [p] from the k-th on *)
Definition of_step_from (k : nat) (pl : place) : Prop :=
  match pl with Own _ _ => False | OfStep j _ _ => k <= j | Below j _ => k <= j end.

Lemma gtrav_covers fuel : forall p, Covers p (ok_of (snd (gtrav fuel p))) (fst (gtrav fuel p)).
Proof using Hown Hstp.
  induction fuel as [|fuel IH]; intros p.
  { exists []. cbn. repeat split; try constructor; try contradiction. discriminate. }
  cbn [gtrav]. rewrite gcat_yields. cbn [fst snd].
  destruct (Hown (p_requirements p) (p_hints p)) as (ops & ON & OI & OF).
  assert (STEPS : forall l k, p_workflow p = true -> (forall i, nth_error l i = nth_error (p_steps p) (k + i)) ->
    exists pls, NoDup pls /\ (forall pl, In pl pls -> of_step_from k pl) /\
      (forall pl, In pl pls -> exists e, At load p pl e /\ sel e = true) /\
      (ok_of (snd (steps_gen fuel l)) = true -> forall pl e, of_step_from k pl -> At load p pl e -> sel e = true -> In pl pls) /\
      Forall2 (Rel p) pls (fst (steps_gen fuel l))).
  { intros l. induction l as [|st l IHl]; intros k W SUB.
    - exists []. cbn. split; [constructor|]. split; [contradiction|]. split; [contradiction|]. split; [|constructor].
      intros _ pl e F A _.
      assert (NS : forall j, k <= j -> nth_error (p_steps p) j = None).
      { intros j L. specialize (SUB (j - k)). rewrite nth_error_nil in SUB. replace (k + (j - k)) with j in SUB by lia. auto. }
      inversion A; subst; cbn in F; try contradiction; rewrite NS in * by auto; discriminate.
    - cbn [steps_gen fold_right]. rewrite gcat_yields. fold (steps_gen fuel l).
      assert (HD : nth_error (p_steps p) k = Some st) by (specialize (SUB 0); rewrite Nat.add_0_r in SUB; auto).
      assert (TL : forall i, nth_error l i = nth_error (p_steps p) (S k + i)).
      { intros i. specialize (SUB (S i)). cbn [nth_error] in SUB. rewrite SUB. f_equal. lia. }
      destruct (IHl (S k) W TL) as (pls & N & K & S1 & C1 & F1). clear IHl.
      destruct (Hstp (s_requirements st) (s_hints st)) as (sps & SN & SI & SF).
      pose (spl := map (fun p : sect * nat => OfStep k (fst p) (snd p)) sps).
      assert (X : exists bps, NoDup bps /\ (forall b, In b bps -> exists pl, b = Below k pl) /\
        (forall pl, In pl bps -> exists e, At load p pl e /\ sel e = true) /\
        (ok_of (snd (match get_process_from_step load st with Ok q => gtrav fuel q | Err e => ([], Some e) end)) = true ->
           forall pl e, At load p (Below k pl) e -> sel e = true -> In (Below k pl) bps) /\
        Forall2 (Rel p) bps (fst (match get_process_from_step load st with Ok q => gtrav fuel q | Err e => ([], Some e) end))).
      { destruct (get_process_from_step load st) as [q|x] eqn:G.
        - apply get_process_Runs in G. destruct (IH q) as (ql & QN & QS & QC & QF). exists (map (Below k) ql). split; [|split; [|split; [|split]]].
          + apply NoDup_map_inj; auto. congruence.
          + intros b I. apply in_map_iff in I. destruct I as (pl & <- & _). eauto.
          + intros b I. apply in_map_iff in I. destruct I as (pl & <- & I). destruct (QS _ I) as (e & A & B). exists e. split; auto.
            econstructor; eauto.
          + intros OK pl e A S. apply in_map. inversion A; subst. apply (QC OK pl e); auto.
            match goal with H : nth_error _ k = Some ?s |- _ => assert (s = st) by congruence; subst end.
            match goal with H : Runs load st ?q' |- _ => assert (q' = q) by (eapply Runs_fun; eauto); subst end. auto.
          + apply Forall2_map_l. eapply Forall2_impl; [|exact QF]. intros pl e' (e & A & S & R). exists e. split; [econstructor; eauto|]. auto.
        - exists []. cbn. split; [constructor|]. split; [contradiction|]. split; [contradiction|]. split; [discriminate|constructor]. }
      destruct X as (bps & BN & BB & BS & BC & BF).
      set (g := match get_process_from_step load st with Ok q => gtrav fuel q | Err e => ([], Some e) end) in *.
      assert (SPN : NoDup spl) by (apply NoDup_map_inj; auto; intros [] [] E; injection E; congruence).
      assert (SPS : forall pl, In pl spl -> exists e, At load p pl e /\ sel e = true).
      { intros pl I. apply in_map_iff in I. destruct I as ([s i] & <- & I). apply SI in I. destruct I as (e & A & B).
        exists e. split; auto. econstructor; eauto. }
      assert (SPF : Forall2 (Rel p) spl (stp (s_requirements st) (s_hints st))).
      { apply Forall2_map_l. eapply Forall2_impl; [|exact SF]. intros [s i] e' (e & A & S & R). exists e. split; [econstructor; eauto|].
        split; auto. left. split; [exact I|auto]. }
      assert (D1 : forall x, In x spl -> In x bps -> False).
      { intros x I J. apply in_map_iff in I. destruct I as (? & <- & _). destruct (BB _ J). discriminate. }
      unfold gcat. destruct (snd g) as [x|] eqn:GE; cbn [fst snd] in *.
      + exists (spl ++ bps). split; [|split; [|split; [|split]]].
        * apply NoDup_app_intro; auto.
        * intros pl I. apply in_app_iff in I. destruct I as [I|I]; [apply in_map_iff in I; destruct I as (? & <- & _)|destruct (BB _ I) as (? & ->)]; cbn; auto.
        * intros pl I. apply in_app_iff in I. destruct I; auto.
        * discriminate.
        * apply Forall2_app; auto.
      + exists (spl ++ bps ++ pls). split; [|split; [|split; [|split]]].
        * apply NoDup_app_intro; auto; [apply NoDup_app_intro; auto|].
          -- intros x I J. destruct (BB _ I) as (? & ->). apply K in J. cbn in J. lia.
          -- intros x I J. apply in_app_iff in J. destruct J as [J|J]; [eapply D1; eauto|]. apply in_map_iff in I.
             destruct I as (? & <- & _). apply K in J. cbn in J. lia.
        * intros pl I. rewrite !in_app_iff in I. destruct I as [I|[I|I]].
          -- apply in_map_iff in I; destruct I as (? & <- & _). cbn; auto.
          -- destruct (BB _ I) as (? & ->). cbn; auto.
          -- apply K in I. destruct pl; cbn in *; lia.
        * intros pl I. rewrite !in_app_iff in I. destruct I as [I|[I|I]]; auto.
        * intros OK pl e F A S. rewrite !in_app_iff.
          destruct pl as [s i|j s i|j pl]; cbn in F; [contradiction| |].
          -- destruct (Nat.eq_dec j k) as [->|NE].
             ++ left. apply in_map_iff. exists (s, i). split; auto. apply SI. exists e. split; auto. inversion A; subst. congruence.
             ++ right; right. apply (C1 OK _ e); auto. cbn. lia.
          -- destruct (Nat.eq_dec j k) as [->|NE].
             ++ right; left. refine (BC _ _ e _ _); auto. change (ok_of (snd g) = true). rewrite GE. reflexivity.
             ++ right; right. apply (C1 OK _ e); auto. cbn. lia.
        * apply Forall2_app; auto. apply Forall2_app; auto. }
  pose (opl := map (fun p : sect * nat => ImageSpec.Own (fst p) (snd p)) ops).
  assert (OPN : NoDup opl) by (apply NoDup_map_inj; auto; intros [] [] E; injection E; congruence).
  assert (OPS : forall pl, In pl opl -> exists e, At load p pl e /\ sel e = true).
  { intros pl I. apply in_map_iff in I. destruct I as ([s i] & <- & I). apply OI in I. destruct I as (e & A & B).
    exists e. split; auto. constructor; auto. }
  assert (OPF : Forall2 (Rel p) opl (own (p_requirements p) (p_hints p))).
  { apply Forall2_map_l. eapply Forall2_impl; [|exact OF]. intros [s i] e' (e & A & S & R). exists e. split; [constructor; auto|].
    split; [exact S|]. right. split; [intros []|auto]. }
  destruct (p_workflow p) eqn:W.
  - destruct (STEPS (p_steps p) 0 eq_refl (fun i => eq_refl)) as (pls & N & K & S1 & C1 & F1). fold (steps_gen fuel (p_steps p)).
    exists (opl ++ pls). split; [|split; [|split]].
    + apply NoDup_app_intro; auto. intros x I J. apply in_map_iff in I. destruct I as (? & <- & _). apply K in J. contradiction.
    + intros pl I. apply in_app_iff in I. destruct I; auto.
    + intros OK pl e A S. apply in_app_iff. destruct pl as [s i|j s i|j pl].
      * left. apply in_map_iff. exists (s, i). split; auto. apply OI. exists e. inversion A; subst. auto.
      * right. apply (C1 OK _ e); auto. cbn. lia.
      * right. apply (C1 OK _ e); auto. cbn. lia.
    + apply Forall2_app; auto.
  - cbn [yields fst snd]. rewrite app_nil_r. exists opl. split; auto. split; auto. split; auto.
    intros _ pl e A S. inversion A; subst; try congruence. apply in_map_iff. exists (s, i). split; auto. apply OI. eauto.
Qed.

Lemma gtrav_mono fuel : forall p, snd (gtrav fuel p) = None -> gtrav (S fuel) p = gtrav fuel p.
Proof using.
  clear. induction fuel as [|fuel IH]; intros p H; [discriminate|]. rewrite (gtrav_S fuel) in H |- *. rewrite (gtrav_S (S fuel)). rewrite !gcat_yields in *. cbn [snd] in H.
  destruct (p_workflow p); auto.
  assert (X : forall l, snd (steps_gen fuel l) = None -> steps_gen (S fuel) l = steps_gen fuel l).
  { clear H. induction l as [|st l IHl]; intros H; auto. rewrite !steps_gen_cons in *. rewrite !gcat_yields in *. cbn [snd] in H.
    destruct (get_process_from_step load st) as [q|x]; [|discriminate].
    unfold gcat in H. destruct (snd (gtrav fuel q)) eqn:E; [discriminate|]. cbn [snd] in H.
    rewrite (IH q E), (IHl H). auto. }
  rewrite X; auto.
Qed.

Lemma gtrav_le fuel fuel' p : snd (gtrav fuel p) = None -> fuel <= fuel' -> gtrav fuel' p = gtrav fuel p.
Proof using.
  clear. intros H L. induction L; auto. rewrite gtrav_mono; auto. rewrite IHL. auto.
Qed.

Lemma gtrav_finite p : Finite load p -> exists fuel, forall fuel', fuel <= fuel' -> snd (gtrav fuel' p) = None.
Proof using.
  clear. revert p. fix IH 2. intros p H. destruct H as [p W|p W H].
  - exists 1. intros [|f] L; [lia|]. cbn [gtrav]. rewrite gcat_yields, W. auto.
  - assert (X : exists fuel, forall fuel', fuel <= fuel' -> snd (steps_gen fuel' (p_steps p)) = None).
    { assert (H' : forall st, In st (p_steps p) -> exists q, Runs load st q /\
        exists fuel, forall fuel', fuel <= fuel' -> snd (gtrav fuel' q) = None).
      { intros st I. destruct (H st I) as (q & R & F). exists q. split; auto. }
      clear H. revert H'. generalize (p_steps p). induction l as [|st l IHl]; intros H.
      - exists 0. auto.
      - destruct (H st (or_introl eq_refl)) as (q & R & f1 & F1). destruct IHl as (f2 & F2); [intros s I; apply H; cbn; auto|].
        exists (f1 + f2). intros f' L. cbn [steps_gen fold_right]. fold (steps_gen f' l). rewrite gcat_yields. cbn [snd].
        apply get_process_Runs in R. rewrite R. unfold gcat. rewrite F1 by lia. cbn [snd]. apply F2. lia. }
    destruct X as (f & X). exists (S f). intros [|f'] L; [lia|]. cbn [gtrav]. rewrite gcat_yields, W. cbn [snd].
    fold (steps_gen f' (p_steps p)). apply X. lia.
Qed.

Lemma gtrav_done_finite fuel : forall p, snd (gtrav fuel p) = None -> Finite load p.
Proof using.
  clear. induction fuel as [|fuel IH]; intros p H; [discriminate|]. cbn [gtrav] in H. rewrite gcat_yields in H. cbn [snd] in H.
  destruct (p_workflow p) eqn:W; [|apply Finite_tool; auto]. apply Finite_workflow; auto. fold (steps_gen fuel (p_steps p)) in H.
  revert H. clear W. generalize (p_steps p). induction l as [|st l IHl]; intros H s I; [contradiction|].
  cbn [steps_gen fold_right] in H. fold (steps_gen fuel l) in *. rewrite gcat_yields in *. cbn [snd] in H.
  destruct (get_process_from_step load st) as [q|x] eqn:G; [|discriminate].
  unfold gcat in H. destruct (snd (gtrav fuel q)) eqn:E; [discriminate|]. cbn [snd] in H. destruct I as [<-|I]; [|auto].
  exists q. split; [apply get_process_Runs; auto|auto].
Qed.

Lemma gtrav_error fuel : forall p x, snd (gtrav fuel p) = Some x -> x = OutOfFuel \/ Broken load p x.
Proof using.
  clear. induction fuel as [|fuel IH]; intros p x H; [injection H; auto|]. cbn [gtrav] in H. rewrite gcat_yields in H. cbn [snd] in H.
  destruct (p_workflow p) eqn:W; [|discriminate]. fold (steps_gen fuel (p_steps p)) in H.
  assert (X : forall l, (forall s, In s l -> In s (p_steps p)) -> snd (steps_gen fuel l) = Some x -> x = OutOfFuel \/ Broken load p x).
  { induction l as [|st l IHl]; intros SUB E; [discriminate|]. cbn [steps_gen fold_right] in E. fold (steps_gen fuel l) in *.
    rewrite gcat_yields in *. cbn [snd] in E. destruct (get_process_from_step load st) as [q|y] eqn:G.
    - unfold gcat in E. destruct (snd (gtrav fuel q)) eqn:GE; cbn [snd] in E.
      + injection E as ->. destruct (IH _ _ GE) as [|B]; auto. right. eapply Broken_below; eauto; [apply SUB; cbn; auto|apply get_process_Runs; auto].
      + apply IHl; auto. intros s I. apply SUB. cbn; auto.
    - injection E as ->. right. unfold get_process_from_step in G. destruct (s_run st) as [u|] eqn:R; [|discriminate].
      eapply Broken_here; eauto. apply SUB. cbn; auto. }
  apply (X (p_steps p)); auto.
Qed.

Lemma gtrav_ends p :
  (Finite load p <-> exists fuel, snd (gtrav fuel p) = None) /\
  (Finite load p -> exists rs fuel, forall fuel', fuel <= fuel' -> gtrav fuel' p = (rs, None)) /\
  (forall fuel x, snd (gtrav fuel p) = Some x -> x = OutOfFuel \/ Broken load p x).
Proof using.
  clear. split; [split|split].
  - intros H. destruct (gtrav_finite p H) as (f & F). exists f. apply F. auto.
  - intros (f & F). eapply gtrav_done_finite; eauto.
  - intros H. destruct (gtrav_finite p H) as (f & F). exists (fst (gtrav f p)), f. intros f' L.
    rewrite (gtrav_le f f'); auto. specialize (F f (le_n _)). destruct (gtrav f p). cbn in *. subst. auto.
  - intros f x. apply gtrav_error.
Qed.
End Traverse.

(** Filtering a list keeps the selected positions. *)
Lemma filter_positions (sel : entry -> bool) (l : list entry) : exists is, NoDup is /\
  (forall i, In i is <-> exists e, nth_error l i = Some e /\ sel e = true) /\
  Forall2 (fun i e => nth_error l i = Some e /\ sel e = true) is (filter sel l).
Proof.
  induction l as [|x l (is & N & I & F)].
  - exists []. split; [constructor|]. split; [|constructor]. intros i. rewrite nth_error_nil. split; [contradiction|intros (? & ? & _); discriminate].
  - cbn [filter].
    assert (N' : NoDup (map S is)) by (apply NoDup_map_inj; auto; congruence).
    assert (F' : Forall2 (fun i e => nth_error (x :: l) i = Some e /\ sel e = true) (map S is) (filter sel l)) by (apply Forall2_map_l; exact F).
    destruct (sel x) eqn:E.
    + exists (0 :: map S is). split; [|split].
      * constructor; auto. rewrite in_map_iff. intros (? & ? & _). discriminate.
      * intros [|i]; cbn.
        -- split; [intros _; eauto|auto].
        -- rewrite in_map_iff. split.
           ++ intros [X|(j & X & J)]; [discriminate|]. injection X as ->. apply I; auto.
           ++ intros H. right. exists i. split; auto. apply I; auto.
      * constructor; auto.
    + exists (map S is). split; auto. split; auto. intros [|i]; cbn; rewrite in_map_iff.
      -- split; [intros (? & ? & _); discriminate|]. intros (e & X & Y). congruence.
      -- split.
         ++ intros (j & X & J). injection X as ->. apply I; auto.
         ++ intros H. exists i. split; auto. apply I; auto.
Qed.

Lemma filter_selects sel (R : entry -> entry -> Prop) (g : entry -> entry) : (forall e, sel e = true -> R e (g e)) ->
  selects sel (fun r h => map g (filter sel (entries r) ++ filter sel (entries h))) R.
Proof.
  intros HR r h. destruct (filter_positions sel (entries r)) as (a & NA & IA & FA). destruct (filter_positions sel (entries h)) as (b & NB & IB & FB).
  exists (map (pair InRequirements) a ++ map (pair InHints) b). split; [|split].
  - apply NoDup_app_intro; try (apply NoDup_map_inj; auto; congruence).
    intros x I J. apply in_map_iff in I, J. destruct I as (? & <- & _), J as (? & ? & _). discriminate.
  - intros s i. rewrite in_app_iff, !in_map_iff. destruct s.
    + rewrite <- IA. split; [intros [(j & X & J)|(j & X & J)]; congruence|]. intros J. left. eauto.
    + rewrite <- IB. split; [intros [(j & X & J)|(j & X & J)]; congruence|]. intros J. right. eauto.
  - rewrite map_app. apply Forall2_app; apply Forall2_map_l; cbn [fst snd].
    + clear -FA HR. unfold entries in *. induction FA as [|i e is es (A & B) F IH]; cbn; constructor; auto. exists e. auto.
    + clear -FB HR. unfold entries in *. induction FB as [|i e is es (A & B) F IH]; cbn; constructor; auto. exists e. auto.
Qed.
