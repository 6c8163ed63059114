(** * The interpolator refines the reading into items (expression.py:189-272) *)
From Verif Require Import PyBase PyBaseProofs ExprModel ExprSpec ScanProofs.

(** ** Items: total and deterministic *)
Lemma Reference_inv r : Reference (String "$" r) ->
  exists o c a, bracket o c /\ Balanced o c a /\ r = String o (a ++ String c "").
Proof. intros H. inversion H; subst. eauto 10. Qed.

Lemma scanner_Ref p r s : NoStart p -> Reference (String "$" r) ->
  scanner (p ++ String "$" (r ++ s))%string
  = Ok (Some (String.length p, String.length p + 1 + String.length r)).
Proof.
  intros Hp HR. destruct (Reference_inv r HR) as (o & c & a & B & Ba & ->).
  cbn [append]. rewrite sapp_assoc. cbn [append].
  rewrite (scanner_ref p o c a s Hp B Ba). do 3 f_equal. cbn [String.length].
  rewrite slength_app. simpl. lia.
Qed.

Lemma Items_total_aux nr : forall k s, String.length s <= k -> exists its, Items nr s its.
Proof.
  induction k as [|k IH]; intros s L;
    destruct (scanner_classified s) as [H|p c post Hp ->|p o c a post Hp B Ba ->|p o c post Hp B NC ->].
  all: try (exists [Lit s]; constructor; auto; fail).
  all: try (exists [Lit p; Unclosed]; eapply It_unclosed; eauto; fail).
  all: rewrite slength_app in L; simpl in L.
  - lia.
  - lia.
  - destruct (IH post ltac:(lia)) as [its Hits].
    assert (D : (nr = true /\ c = "$"%char /\ exists o s', opening o /\ post = String o s') \/
                ~ (nr = true /\ c = "$"%char /\ exists o s', opening o /\ post = String o s')).
    { destruct nr; [|right; intros [? _]; discriminate].
      destruct (Ascii.eqb_spec c "$") as [->|N]; [|right; intros (_ & ? & _); auto].
      destruct post as [|o s']; [right; intros (_ & _ & ? & ? & _ & ?); discriminate|].
      destruct (Ascii.eqb_spec o "(") as [->|N1]; [left; repeat split; exists "("%char, s'; split; [left|]; auto|].
      destruct (Ascii.eqb_spec o "{") as [->|N2]; [left; repeat split; exists "{"%char, s'; split; [right|]; auto|].
      right. intros (_ & _ & o' & s'' & [-> | ->] & E); injection E; auto. }
    destruct D as [(-> & -> & o & s' & Ho & ->)|N].
    + destruct (IH s' ltac:(simpl in L; lia)) as [its' Hits'].
      eexists. eapply It_escref; eauto.
    + eexists. eapply It_esc; eauto.
  - rewrite slength_app in L. simpl in L.
    destruct (IH post ltac:(lia)) as [its Hits].
    eexists.
    replace (p ++ String "$" (String o (a ++ String c post)))%string
      with (p ++ String "$" (String o (a ++ String c "") ++ post))%string.
    + eapply It_ref; eauto. econstructor; eauto.
    + cbn [append]. rewrite sapp_assoc. reflexivity.
Qed.

Lemma Items_total nr s : exists its, Items nr s its.
Proof. eapply Items_total_aux; eauto. Qed.

(** What the scanner says at the head of each reading. *)
Lemma Items_scanner nr s its : Items nr s its ->
  match its with
  | [Lit p] => p = s /\ scanner s = Ok None
  | Lit p :: Esc c :: _ =>
      scanner s = Ok (Some (String.length p, String.length p + 2))
  | Lit p :: EscRef o :: _ =>
      scanner s = Ok (Some (String.length p, String.length p + 2))
  | Lit p :: Ref r :: _ =>
      scanner s = Ok (Some (String.length p, String.length p + 1 + String.length r))
  | [Lit p; Unclosed] => scanner s = Err SubstitutionError
  | _ => False
  end.
Proof.
  intros H. destruct H as [s H|p c s its Hp N H|p o s its E Hp Ho H|p r s its Hp HR H|p o c s Hp B NC].
  - split; auto. apply scanner_nothing; auto.
  - apply scanner_esc; auto.
  - apply scanner_esc; auto.
  - apply scanner_Ref; auto.
  - eapply scanner_unclosed; eauto.
Qed.

Lemma bracket_opening o c : bracket o c -> opening o.
Proof. intros [[-> _]|[-> _]]; [left|right]; auto. Qed.

Lemma first_open_unique p o s p2 o2 s2 :
  NoStart p -> NoStart p2 -> opening o -> opening o2 ->
  (p ++ String "$" (String o s) = p2 ++ String "$" (String o2 s2))%string -> p = p2.
Proof.
  revert p2. induction p as [|x p IH]; intros p2 H H2 Ho Ho2 E.
  - destruct p2 as [|y p2]; auto. exfalso. cbn [append] in E. injection E as <- E.
    apply NoStart_cons in H2. destruct H2 as (_ & _ & N). apply N. split; auto.
    destruct p2 as [|z p2]; cbn [append] in E; injection E as -> E.
    + destruct Ho; discriminate.
    + eauto.
  - apply NoStart_cons in H. destruct H as (N1 & H & N).
    destruct p2 as [|y p2].
    + exfalso. cbn [append] in E. injection E as -> E. apply N. split; auto.
      destruct p as [|z p]; cbn [append] in E; injection E as E1 E.
      * subst. destruct Ho2; discriminate.
      * subst. eauto.
    + cbn [append] in E. injection E as -> E. apply NoStart_cons in H2.
      f_equal. apply IH; tauto.
Qed.

Lemma Items_det nr s its : Items nr s its -> forall its', Items nr s its' -> its' = its.
Proof.
  intros H. induction H as [s H|p c s its Hp N H IH|p o s its E Hp Ho H IH|p r s its Hp HR H IH|p o c s Hp B NC];
    intros its' H'.
  - pose proof (scanner_nothing s H) as S1. pose proof (Items_scanner _ _ _ H') as S2.
    destruct H'; rewrite S1 in S2; try discriminate; auto.
  - pose proof (scanner_esc p c s Hp) as S1. pose proof (Items_scanner _ _ _ H') as S2.
    remember (p ++ String c_bs (String c s))%string as u eqn:Eu.
    destruct H' as [s2 H2|p2 c2 s2 its2 Hp2 N2 H2|p2 o2 s2 its2 E2 Hp2 Ho2 H2|p2 r2 s2 its2 Hp2 HR2 H2|p2 o2 c2 s2 Hp2 B2 NC2];
      rewrite S1 in S2; try discriminate.
    + destruct S2; discriminate.
    + injection S2 as L _. destruct (sapp_inj_length _ _ _ _ (eq_sym L) Eu) as [-> [= -> ->]].
      rewrite (IH _ H2). reflexivity.
    + injection S2 as L _. destruct (sapp_inj_length _ _ _ _ (eq_sym L) Eu) as [-> [= <- <-]].
      exfalso. apply N. split; [auto|split; [auto|exists o2, s2; auto]].
    + injection S2 as L _. destruct (sapp_inj_length _ _ _ _ (eq_sym L) Eu) as [-> E3]. discriminate.
  - pose proof (scanner_esc p "$" (String o s) Hp) as S1. pose proof (Items_scanner _ _ _ H') as S2.
    remember (p ++ String c_bs (String "$" (String o s)))%string as u eqn:Eu.
    destruct H' as [s2 H2|p2 c2 s2 its2 Hp2 N2 H2|p2 o2 s2 its2 E2 Hp2 Ho2 H2|p2 r2 s2 its2 Hp2 HR2 H2|p2 o2 c2 s2 Hp2 B2 NC2];
      rewrite S1 in S2; try discriminate.
    + destruct S2; discriminate.
    + injection S2 as L _. destruct (sapp_inj_length _ _ _ _ (eq_sym L) Eu) as [-> [= -> ->]].
      exfalso. apply N2. split; [auto|split; [auto|exists o, s; auto]].
    + injection S2 as L _. destruct (sapp_inj_length _ _ _ _ (eq_sym L) Eu) as [-> [= -> ->]].
      rewrite (IH _ H2). reflexivity.
    + injection S2 as L _. destruct (sapp_inj_length _ _ _ _ (eq_sym L) Eu) as [-> E3]. discriminate.
  - pose proof (scanner_Ref p r s Hp HR) as S1. pose proof (Items_scanner _ _ _ H') as S2.
    remember (p ++ String "$" (r ++ s))%string as u eqn:Eu.
    destruct H' as [s2 H2|p2 c2 s2 its2 Hp2 N2 H2|p2 o2 s2 its2 E2 Hp2 Ho2 H2|p2 r2 s2 its2 Hp2 HR2 H2|p2 o2 c2 s2 Hp2 B2 NC2];
      rewrite S1 in S2; try discriminate.
    + destruct S2; discriminate.
    + injection S2 as L _. destruct (sapp_inj_length _ _ _ _ (eq_sym L) Eu) as [-> E3]. discriminate.
    + injection S2 as L _. destruct (sapp_inj_length _ _ _ _ (eq_sym L) Eu) as [-> E3]. discriminate.
    + injection S2 as L L2. destruct (sapp_inj_length _ _ _ _ (eq_sym L) Eu) as [-> [= E3]].
      assert (L3 : String.length r2 = String.length r) by lia.
      destruct (sapp_inj_length _ _ _ _ L3 E3) as [-> ->].
      rewrite (IH _ H2). reflexivity.
  - pose proof (scanner_unclosed p o c s Hp B NC) as S1. pose proof (Items_scanner _ _ _ H') as S2.
    remember (p ++ String "$" (String o s))%string as u eqn:Eu.
    destruct H' as [s2 H2|p2 c2 s2 its2 Hp2 N2 H2|p2 o2 s2 its2 E2 Hp2 Ho2 H2|p2 r2 s2 its2 Hp2 HR2 H2|p2 o2 c2 s2 Hp2 B2 NC2];
      rewrite S1 in S2; try discriminate.
    + destruct S2; discriminate.
    + rewrite (first_open_unique _ _ _ _ _ _ Hp2 Hp (bracket_opening _ _ B2) (bracket_opening _ _ B) Eu).
      reflexivity.
Qed.


(** ** Refinement *)
Lemma sjoin_snoc l x : sjoin "" (l ++ [x]) = (sjoin "" l ++ x)%string.
Proof.
  induction l as [|a l IH]; [reflexivity|].
  destruct l as [|b l]; [reflexivity|].
  change ((a :: b :: l) ++ [x]) with (a :: b :: (l ++ [x])).
  rewrite !sjoin_cons. change (b :: (l ++ [x])) with ((b :: l) ++ [x]). rewrite IH.
  cbn [append]. rewrite sapp_assoc. reflexivity.
Qed.

Lemma get_app_len p c s : String.get (String.length p) (p ++ String c s)%string = Some c.
Proof. apply get_app_length. Qed.

Lemma get_app_plus p s n : String.get (String.length p + n) (p ++ s)%string = String.get n s.
Proof. induction p as [|x p IH]; simpl; auto. Qed.

Lemma sslice_app p a s n : n = String.length p ->
  sslice n (n + String.length a) (p ++ a ++ s)%string = a.
Proof.
  intros ->. unfold sslice. rewrite stake_app_plus, stake_app_length.
  apply sdrop_app_length.
Qed.

Section Refine.
  Context {St : Type}.
  Variable ev : St -> string -> St * result json.
  Variable dumps : json -> string.
  Variable loads : string -> string.
  Hypothesis LIB : json_library_ok dumps loads.

  Lemma leaf_text_ok v : leaf_text dumps loads v = Ok (value_text dumps v).
  Proof.
    destruct LIB as (L1 & L2 & L3). unfold leaf_text.
    destruct v; try (edestruct L3 as (c & t & E & N);
      [|rewrite E; apply Ascii.eqb_neq in N; rewrite N; rewrite <- E; reflexivity]; discriminate).
    destruct (L1 s) as [t E]. rewrite E, Ascii.eqb_refl, <- E. cbn. rewrite L2. reflexivity.
  Qed.

  Definition esc_code (nr : bool) : nat := if nr then 2 else 1.

  (** the text of an escape *)
  Lemma escape_text_esc nr p c s :
    ~ (nr = true /\ c = "$"%char /\ exists o s', opening o /\ s = String o s') ->
    escape_text (esc_code nr) (p ++ String c_bs (String c s))%string
      (String.length p) (String.length p + 2)
    = Ok (if nr then if Ascii.eqb c c_bs then String c_bs "" else String c_bs (String c "")
          else String c "", String.length p + 2).
  Proof.
    intros N. destruct nr; cbn [esc_code escape_text].
    - assert (E : sslice (String.length p) (String.length p + 2 + 1) (p ++ String c_bs (String c s))
                  = String c_bs (String c (stake 1 s))).
      { unfold sslice. rewrite <- Nat.add_assoc. rewrite stake_app_plus, sdrop_app_length. reflexivity. }
      rewrite E. clear E.
      assert (F : String.eqb (String c_bs (String c (stake 1 s))) (String c_bs "$(")
                  || String.eqb (String c_bs (String c (stake 1 s))) (String c_bs "${") = false).
      { apply orb_false_iff. rewrite !String.eqb_neq.
        split; intros E; injection E as -> E; destruct s as [|y s]; try discriminate;
          cbn [stake] in E; injection E as ->; apply N; repeat split; eexists _, s;
          (split; [|reflexivity]); [left|right]; reflexivity. }
      rewrite F. cbn [String.get].
      destruct (Ascii.eqb c c_bs); reflexivity.
    - replace (String.length p + 2 - 1) with (String.length p + 1) by lia.
      rewrite get_app_plus. reflexivity.
  Qed.

  Lemma escape_text_ref p o s : opening o ->
    escape_text 2 (p ++ String c_bs (String "$" (String o s)))%string
      (String.length p) (String.length p + 2)
    = Ok (String "$" (String o ""), String.length p + 3).
  Proof.
    intros Ho. cbn [escape_text].
    assert (E : sslice (String.length p) (String.length p + 2 + 1)
                  (p ++ String c_bs (String "$" (String o s)))
                = String c_bs (String "$" (String o ""))).
    { unfold sslice. rewrite <- Nat.add_assoc. rewrite stake_app_plus, sdrop_app_length.
      destruct s; reflexivity. }
    rewrite E. clear E. replace (String.length p + 2 + 1) with (String.length p + 3) by lia.
    destruct Ho as [-> | ->]; reflexivity.
  Qed.

  (** after the first part: pure text *)
  Lemma interp_text nr s its : Items nr s its ->
    forall fuel st parts, String.length s < fuel -> parts <> [] ->
    interp_loop ev dumps loads fuel (esc_code nr) st s parts
    = let (st', r) := items_text ev (value_text dumps) nr st its in
      (st', do t <- r; Ok (JStr (sjoin "" parts ++ t))).
  Proof.
    intros H. induction H as [s H|p c s its Hp N H IH|p o s its E Hp Ho H IH|p r s its Hp HR H IH|p o c s Hp B NC];
      intros fuel st parts L NE; (destruct fuel as [|fuel]; [lia|]); cbn [interp_loop].
    - rewrite (scanner_nothing s H). cbn [items_text bind]. rewrite sjoin_snoc, sapp_nil_r. reflexivity.
    - rewrite (scanner_esc p c s Hp), stake_app_length, get_app_len. cbn [Ascii.eqb].
      replace (Ascii.eqb c_bs "$") with false by reflexivity. rewrite Ascii.eqb_refl.
      rewrite escape_text_esc by auto.
      replace (sdrop (String.length p + 2) (p ++ String c_bs (String c s))) with s
        by (rewrite sdrop_app_plus; reflexivity).
      rewrite slength_app in L. simpl in L.
      rewrite IH by (try lia; destruct parts; discriminate).
      cbn [items_text]. destruct (items_text ev (value_text dumps) nr st its) as [st' [t|e]]; cbn [bind]; auto.
      rewrite !sjoin_snoc, !sapp_assoc. reflexivity.
    - subst nr. rewrite (scanner_esc p "$" (String o s) Hp), stake_app_length, get_app_len.
      replace (Ascii.eqb c_bs "$") with false by reflexivity. rewrite Ascii.eqb_refl.
      cbn [esc_code]. rewrite escape_text_ref by auto.
      replace (sdrop (String.length p + 3) (p ++ String c_bs (String "$" (String o s)))) with s
        by (rewrite sdrop_app_plus; reflexivity).
      rewrite slength_app in L. simpl in L. cbn [esc_code] in IH.
      rewrite IH by (try lia; destruct parts; discriminate).
      cbn [items_text]. destruct (items_text ev (value_text dumps) true st its) as [st' [t|e]]; cbn [bind]; auto.
      rewrite !sjoin_snoc, !sapp_assoc. reflexivity.
    - rewrite (scanner_Ref p r s Hp HR), stake_app_length, get_app_len. rewrite Ascii.eqb_refl.
      assert (EB : sslice (String.length p + 1) (String.length p + 1 + String.length r)
                     (p ++ String "$" (r ++ s)) = r).
      { rewrite app_cons_shift. apply sslice_app. rewrite length_snoc. reflexivity. }
      rewrite EB. cbn [items_text].
      assert (ES : sdrop (String.length p + 1 + String.length r) (p ++ String "$" (r ++ s)) = s).
      { rewrite app_cons_shift. rewrite <- (length_snoc p "$"). rewrite sdrop_app_plus.
        apply sdrop_app_length. }
      rewrite slength_app in L. simpl in L. rewrite slength_app in L.
      destruct (ev st r) as [st1 [v|e]]; [|reflexivity].
      assert (F : List.length (parts ++ [p]) <=? 1 = false).
      { apply Nat.leb_gt. rewrite app_length. simpl. destruct parts; [congruence|simpl; lia]. }
      rewrite F, andb_false_r, leaf_text_ok, ES.
      rewrite IH by (try lia; destruct parts; discriminate).
      destruct (items_text ev (value_text dumps) nr st1 its) as [st' [t|e]]; cbn [bind]; auto.
      rewrite !sjoin_snoc, !sapp_assoc. reflexivity.
    - rewrite (scanner_unclosed p o c s Hp B NC). reflexivity.
  Qed.

  Lemma Items_nil_text nr its : Items nr "" its -> its = [Lit ""].
  Proof.
    intros H. eapply Items_det; [|exact H]. constructor. left. apply NoStart_nil.
  Qed.

  Lemma interp_value nr s its : Items nr s its ->
    forall fuel st, String.length s < fuel ->
    interp_loop ev dumps loads fuel (esc_code nr) st s []
    = items_value ev (value_text dumps) nr st its.
  Proof.
    intros H fuel st L. destruct fuel as [|fuel]; [lia|]. cbn [interp_loop].
    destruct H as [s H|p c s its Hp N H|p o s its E Hp Ho H|p r s its Hp HR H|p o c s Hp B NC].
    - rewrite (scanner_nothing s H). cbn [app]. unfold items_value.
      assert (E : (match [Lit s] with [Lit ""; Ref body; Lit ""] => ev st body | _ =>
                let (st', r) := items_text ev (value_text dumps) nr st [Lit s] in
                (st', do t <- r; Ok (JStr t)) end)
              = (st, Ok (JStr (s ++ "")))) by (destruct s; reflexivity).
      rewrite E, sapp_nil_r. reflexivity.
    - rewrite (scanner_esc p c s Hp), stake_app_length, get_app_len.
      replace (Ascii.eqb c_bs "$") with false by reflexivity. rewrite Ascii.eqb_refl.
      rewrite escape_text_esc by auto.
      replace (sdrop (String.length p + 2) (p ++ String c_bs (String c s))) with s
        by (rewrite sdrop_app_plus; reflexivity).
      rewrite slength_app in L. simpl in L.
      rewrite (interp_text nr s its H) by (try lia; discriminate).
      assert (E : forall l, items_value ev (value_text dumps) nr st (Lit p :: Esc c :: l)
                = let (st', r) := items_text ev (value_text dumps) nr st (Lit p :: Esc c :: l) in
                  (st', do t <- r; Ok (JStr t))) by (destruct p; reflexivity).
      rewrite E. cbn [items_text].
      destruct (items_text ev (value_text dumps) nr st its) as [st' [t|e]]; cbn [bind]; auto.
      cbn [app]. rewrite sjoin_cons. cbn [append sjoin String.concat]. rewrite !sapp_assoc. reflexivity.
    - subst nr. rewrite (scanner_esc p "$" (String o s) Hp), stake_app_length, get_app_len.
      replace (Ascii.eqb c_bs "$") with false by reflexivity. rewrite Ascii.eqb_refl.
      cbn [esc_code]. rewrite escape_text_ref by auto.
      replace (sdrop (String.length p + 3) (p ++ String c_bs (String "$" (String o s)))) with s
        by (rewrite sdrop_app_plus; reflexivity).
      rewrite slength_app in L. simpl in L.
      pose proof (interp_text true s its H) as IT. cbn [esc_code] in IT.
      rewrite IT by (try lia; discriminate).
      assert (E : forall l, items_value ev (value_text dumps) true st (Lit p :: EscRef o :: l)
                = let (st', r) := items_text ev (value_text dumps) true st (Lit p :: EscRef o :: l) in
                  (st', do t <- r; Ok (JStr t))) by (destruct p; reflexivity).
      rewrite E. cbn [items_text].
      destruct (items_text ev (value_text dumps) true st its) as [st' [t|e]]; cbn [bind]; auto.
      cbn [app]. rewrite sjoin_cons. cbn [append sjoin String.concat]. rewrite !sapp_assoc. reflexivity.
    - rewrite (scanner_Ref p r s Hp HR), stake_app_length, get_app_len. rewrite Ascii.eqb_refl.
      assert (EB : sslice (String.length p + 1) (String.length p + 1 + String.length r)
                     (p ++ String "$" (r ++ s)) = r).
      { rewrite app_cons_shift. apply sslice_app. rewrite length_snoc. reflexivity. }
      rewrite EB.
      assert (ES : sdrop (String.length p + 1 + String.length r) (p ++ String "$" (r ++ s)) = s).
      { rewrite app_cons_shift. rewrite <- (length_snoc p "$"). rewrite sdrop_app_plus.
        apply sdrop_app_length. }
      rewrite slength_app in *. simpl in L. simpl (String.length (String _ _)).
      rewrite slength_app in *.
      cbn [app List.length]. replace (1 <=? 1) with true by reflexivity. rewrite andb_true_r.
      destruct ((String.length p =? 0) &&
                (String.length p + 1 + String.length r =?
                 String.length p + S (String.length r + String.length s))) eqn:C.
      + apply andb_true_iff in C. destruct C as [C1 C2].
        apply Nat.eqb_eq in C1, C2.
        destruct p; [|discriminate C1]. destruct s; [|simpl in *; lia].
        rewrite (Items_nil_text nr its H). cbn [items_value].
        destruct (ev st r) as [st1 [v|e]]; reflexivity.
      + assert (NS : ~ (p = "" /\ s = "")).
        { intros [-> ->]. simpl in C. rewrite Nat.add_0_r, Nat.eqb_refl in C. discriminate. }
        assert (E : items_value ev (value_text dumps) nr st (Lit p :: Ref r :: its)
                = let (st', x) := items_text ev (value_text dumps) nr st (Lit p :: Ref r :: its) in
                  (st', do t <- x; Ok (JStr t))).
        { destruct p; [|reflexivity]. destruct its as [|i its']; [reflexivity|].
          destruct i as [q| | | |]; try reflexivity. destruct q; [|reflexivity].
          destruct its'; [|reflexivity]. exfalso. apply NS. split; auto.
          pose proof (Items_scanner _ _ _ H) as S. simpl in S. symmetry; tauto. }
        rewrite E. cbn [items_text].
        destruct (ev st r) as [st1 [v|e]]; [|reflexivity].
        rewrite leaf_text_ok, ES. rewrite (interp_text nr s its H) by (try lia; discriminate).
        destruct (items_text ev (value_text dumps) nr st1 its) as [st' [t|e]]; cbn [bind]; auto.
        cbn [app]. rewrite sjoin_cons. cbn [append sjoin String.concat]. rewrite !sapp_assoc. reflexivity.
    - rewrite (scanner_unclosed p o c s Hp B NC).
      destruct p; reflexivity.
  Qed.

  Lemma interpolate_items nr (sw : bool) s its st :
    Items nr (if sw then strip s else s) its ->
    interpolate ev dumps loads sw (esc_code nr) st s
    = items_value ev (value_text dumps) nr st its.
  Proof. intros H. unfold interpolate. apply interp_value; auto. lia. Qed.
End Refine.

(** ** Escaping *)
Lemma Items_head nr s its : Items nr s its -> exists p l, its = Lit p :: l.
Proof. intros H; destruct H; eauto. Qed.

Lemma Items_cons_char nr x s p l : Items nr s (Lit p :: l) ->
  x <> c_bs -> ~ (x = "$"%char /\ exists o s', opening o /\ s = String o s') ->
  Items nr (String x s) (Lit (String x p) :: l).
Proof.
  intros H N1 N2.
  assert (P : forall q t, s = (q ++ t)%string -> NoStart q -> NoStart (String x q)).
  { intros q t -> Hq. apply NoStart_cons. split; auto. split; auto.
    intros [-> (o & s' & Ho & ->)]. apply N2. split; auto. cbn [append]. eauto. }
  inversion H as [s0 H0|p0 c0 s0 its0 Hp0 N0 H0|p0 o0 s0 its0 E0 Hp0 Ho0 H0|p0 r0 s0 its0 Hp0 HR0 H0|p0 o0 c0 s0 Hp0 B0 NC0]; subst.
  - constructor. destruct H0 as [H0|(q & Hq & ->)].
    + left. apply (P p ""); auto. rewrite sapp_nil_r; auto.
    + right. exists (String x q). split; [|reflexivity]. eapply P; eauto.
  - apply (It_esc nr (String x p)); auto. eapply P; eauto.
  - apply (It_escref true (String x p)); auto. eapply P; eauto.
  - apply (It_ref nr (String x p)); auto. eapply P; eauto.
  - eapply (It_unclosed nr (String x p)); eauto.
Qed.

Lemma escape_head c s : exists t, escape (String c s) = String c t \/ escape (String c s) = String c_bs t.
Proof.
  cbn [escape]. destruct (Ascii.eqb_spec c c_bs) as [->|N]; [eauto|].
  destruct (Ascii.eqb c "$"); [|eauto]. destruct s; [eauto|]. destruct (_ || _); eauto.
Qed.

Section EscapeText.
  Context {St : Type}.
  Variable ev : St -> string -> St * result json.
  Variable txt : json -> string.

  Lemma escape_items : forall k s, String.length s <= k ->
    exists its, Items true (escape s) its /\
      (forall st, items_text ev txt true st its = (st, Ok s)) /\
      (forall b, ~ In (Ref b) its).
  Proof.
    induction k as [|k IH]; intros s L;
      (destruct s as [|c s];
       [exists [Lit ""]; split; [constructor; left; apply NoStart_nil|split; [reflexivity|intros b [E|[]]; discriminate]]|]);
      simpl in L; [lia|].
    destruct (IH s ltac:(lia)) as (its & H & T & NR).
    cbn [escape]. destruct (Ascii.eqb_spec c c_bs) as [->|N1].
    { exists (Lit "" :: Esc c_bs :: its). split; [|split].
      - apply (It_esc true "" c_bs); auto; [apply NoStart_nil|]. intros (_ & E & _); discriminate.
      - intros st. cbn [items_text]. rewrite T. reflexivity.
      - intros b [E|[E|E]]; try discriminate. eapply NR; eauto. }
    destruct (Items_head _ _ _ H) as (p & l & ->).
    assert (SIMPLE : ~ (c = "$"%char /\ exists o s', opening o /\ escape s = String o s') ->
      exists its, Items true (String c (escape s)) its /\
      (forall st, items_text ev txt true st its = (st, Ok (String c s))) /\
      (forall b, ~ In (Ref b) its)).
    { intros N. exists (Lit (String c p) :: l). split; [|split].
      - apply Items_cons_char; auto.
      - intros st. specialize (T st). cbn [items_text] in *.
        destruct (items_text ev txt true st l) as [st' [t|e]]; cbn [bind] in *; [|discriminate].
        injection T as -> <-. reflexivity.
      - intros b [E|E]; [discriminate|]. apply (NR b). right; auto. }
    destruct (Ascii.eqb_spec c "$") as [->|N2]; [|apply SIMPLE; intros [-> _]; auto].
    destruct s as [|o s].
    { apply SIMPLE. intros [_ (o & s' & _ & E)]. discriminate. }
    destruct (Ascii.eqb o "(" || Ascii.eqb o "{") eqn:EO.
    - assert (Ho : opening o).
      { apply orb_true_iff in EO. destruct EO as [E|E]; apply Ascii.eqb_eq in E; [left|right]; auto. }
      assert (EE : escape (String o s) = String o (escape s)) by (destruct Ho as [-> | ->]; reflexivity).
      rewrite EE. simpl in L. destruct (IH s ltac:(lia)) as (its2 & H2 & T2 & NR2).
      exists (Lit "" :: EscRef o :: its2). split; [|split].
      + apply (It_escref true ""); auto. apply NoStart_nil.
      + intros st. cbn [items_text]. rewrite T2. reflexivity.
      + intros b [E|[E|E]]; try discriminate. eapply NR2; eauto.
    - apply SIMPLE. intros [_ (o' & s' & Ho & E)].
      apply orb_false_iff in EO. destruct EO as [E1 E2]. apply Ascii.eqb_neq in E1, E2.
      destruct (escape_head o s) as [t [E3|E3]]; rewrite E3 in E; injection E as E _;
        destruct Ho; subst; congruence || discriminate.
  Qed.
End EscapeText.
