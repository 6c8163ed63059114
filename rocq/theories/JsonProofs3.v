From Verif Require Import PyBase PyBaseProofs UtilsModel UtilsProofs SchemaModel SchemaSpec SchemaProofs JsonSpec JsonProofs JsonProofs2.

(** ** supported types *)
Lemma letter_iff c : is_upper c || is_lower c = true <-> In c letters.
Proof.
  assert (H : is_upper c || is_lower c = existsb (Ascii.eqb c) letters)
    by (destruct c as [[] [] [] [] [] [] [] []]; reflexivity).
  rewrite H, existsb_exists. split.
  - intros (x & I & E). apply Ascii.eqb_eq in E. subst. auto.
  - intros I. exists c. split; auto. apply Ascii.eqb_refl.
Qed.
Lemma scheme_char_iff c : is_scheme_char c = true <-> In c scheme_chars.
Proof.
  assert (H : is_scheme_char c = existsb (Ascii.eqb c) scheme_chars)
    by (destruct c as [[] [] [] [] [] [] [] []]; reflexivity).
  rewrite H, existsb_exists. split.
  - intros (x & I & E). apply Ascii.eqb_eq in E. subst. auto.
  - intros I. exists c. split; auto. apply Ascii.eqb_refl.
Qed.
Lemma scheme_until_colon_iff s : scheme_until_colon s = true <->
  exists scheme rest, s = (scheme ++ String ":" rest)%string /\
    (forall d, In d (list_ascii_of_string scheme) -> In d scheme_chars).
Proof.
  induction s as [|c s IH]; cbn [scheme_until_colon].
  - split; [discriminate|]. intros ([|] & r & E & _); discriminate.
  - destruct (Ascii.eqb_spec c ":") as [->|N].
    + split; auto. intros _. exists "", s. split; auto. cbn. tauto.
    + rewrite andb_true_iff, scheme_char_iff, IH. split.
      * intros [I (sch & r & -> & A)]. exists (String c sch), r. split; auto. cbn [list_ascii_of_string In]. intros d [<-|J]; auto.
      * intros ([|c' sch] & r & E & A); cbn in E; injection E as -> E; [congruence|].
        split; [apply A; cbn; auto|]. exists sch, r. split; auto. intros; apply A; cbn; auto.
Qed.
Lemma is_uri_iff s : is_uri s = true <-> AbsoluteUri s.
Proof.
  unfold AbsoluteUri. destruct s as [|c s]; cbn [is_uri].
  - split; [discriminate|]. intros (c & a & b & E & _). discriminate.
  - rewrite andb_true_iff, letter_iff, scheme_until_colon_iff. split.
    + intros [I (a & b & -> & A)]. exists c, a, b. auto.
    + intros (c' & a & b & E & I & A). injection E as -> ->. split; eauto.
Qed.

Lemma supported_iff t :
  match generate_type_dict_from_type t with
  | Ok _ => Supported t
  | Err e => e = ValueError /\ ~ Supported t
  end.
Proof.
  induction t as [s|l F|syms|t IH|u|u|t IH|syms|t IH|u|u f F] using texp_ind2; cbn [generate_type_dict_from_type];
    try (constructor; fail); try (split; [reflexivity|intros X; inversion X]; fail).
  - destruct (dget s PRIMITIVE_TYPES_MAPPING) as [p|] eqn:G.
    { apply Su_name. apply dget_In in G. cbn in G |- *.
      repeat (destruct G as [G|G]; [injection G as <- <-; tauto|]). destruct G. }
    destruct (String.eqb_spec s "stdin") as [->|NS]. { apply Su_name. cbn. tauto. }
    destruct (smem s ["File"; "Directory"; "Any"]) eqn:EM. { apply Su_name. apply smem_In in EM. cbn in *. tauto. }
    destruct (is_uri s) eqn:EU. { apply Su_uri, is_uri_iff. auto. }
    split; auto. intros X. inversion X as [? I|? I| | | | | |]; subst.
    + assert (Y : In s (dkeys PRIMITIVE_TYPES_MAPPING) \/ s = "stdin" \/ In s ["File"; "Directory"; "Any"])
          by (cbn in I |- *; intuition).
      destruct Y as [Y|[Y|Y]]; auto.
      * apply dget_None in G. auto.
      * apply smem_In in Y. congruence.
    + apply is_uri_iff in I. congruence.
  - match goal with |- match (do l' <- ?g; _) with _ => _ end => set (go := g) end.
    enough (E : match go with Ok _ => Forall Supported l | Err e => e = ValueError /\ ~ Forall Supported l end).
    { destruct go; cbn [bind]; [constructor; auto|]. destruct E as [-> E]. split; auto.
      intros X. inversion X; subst; auto. }
    subst go. induction F as [|t l Ft Fl IH]; [constructor|].
    destruct (generate_type_dict_from_type t) as [d|e]; cbn [bind].
    + match goal with |- match (do l' <- ?g; _) with _ => _ end => destruct g as [l'|e] end; cbn [bind]; auto.
      destruct IH as [-> IH]. split; auto. intros X. inversion X; auto.
    + destruct Ft as [-> Ft]. split; auto. intros X. inversion X; auto.
  - destruct (generate_type_dict_from_type t); cbn [bind]; [constructor; auto|].
    destruct IH as [-> IH]. split; auto. intros X. inversion X; auto.
  - match goal with |- match (do l' <- ?g; _) with _ => _ end => set (go := g) end.
    enough (E : match go with Ok _ => Forall (fun x => Supported (snd x)) f | Err e => e = ValueError /\ ~ Forall (fun x => Supported (snd x)) f end).
    { destruct go; cbn [bind]; [constructor; auto|]. destruct E as [-> E]. split; auto.
      intros X. inversion X; subst; auto. }
    subst go. generalize (@nil (string * json)). induction F as [|[n t] l Ft Fl IH]; intros acc0; [constructor|].
    cbn [snd] in *. destruct (generate_type_dict_from_type t) as [d|e]; cbn [bind].
    + specialize (IH (dset (get_value_from_uri n) (JDict d) acc0)).
      match goal with |- match ?g with _ => _ end => destruct g as [l'|e] end; auto.
      destruct IH as [-> IH]. split; auto. intros X. inversion X; auto.
    + destruct Ft as [-> Ft]. split; auto. intros X. inversion X; auto.
Qed.

(** ** definitions *)
Lemma dget_dupdate {V} n (e d : list (string * V)) : wf_dict e ->
  dget n (dupdate d e) = match dget n e with Some v => Some v | None => dget n d end.
Proof.
  unfold dupdate. revert d. induction e as [|[k v] e IH]; intros d W; [reflexivity|].
  inversion W as [|? ? NI W']; subst. cbn [fold_left fst snd dget]. rewrite IH by auto.
  destruct (String.eqb_spec n k) as [->|N].
  - replace (dget k e) with (@None V) by (symmetry; apply dget_None; auto). apply dget_dset_same.
  - destruct (dget n e); auto. apply dget_dset_other; auto.
Qed.
Lemma wf_dupdate {V} (e d : list (string * V)) : wf_dict d -> wf_dict (dupdate d e).
Proof. unfold dupdate. revert d. induction e; intros d W; cbn; auto. apply IHe, wf_dset; auto. Qed.

Lemma latest_cons n d g gens : Latest n d (g :: gens) <->
  Latest n d gens \/ (dget n g = Some d /\ Forall (fun g' => dget n g' = None) gens).
Proof.
  split.
  - intros ([|p pre] & g' & post & E & G & F); cbn in E; injection E as -> ->; auto.
    left. exists pre, g', post. auto.
  - intros [(pre & g' & post & -> & G & F)|[G F]].
    + exists (g :: pre), g', post. auto.
    + exists [], g, gens. auto.
Qed.
Lemma latest_exists n (gens : list dict) : (exists g y, In g gens /\ dget n g = Some y) -> exists d, Latest n d gens.
Proof.
  induction gens as [|h l IH]; intros (g & y & I & G); [destruct I|].
  destruct (existsb (fun g' => dmem n g') l) eqn:E.
  - apply existsb_exists in E. destruct E as (g' & I' & E). unfold dmem in E.
    destruct (dget n g') as [z|] eqn:Z; [|discriminate].
    destruct IH as [d L]; [exists g', z; auto|]. exists d. apply latest_cons. auto.
  - assert (A : forall g', In g' l -> dget n g' = None).
    { intros g' I'. destruct (dget n g') eqn:Z; auto. exfalso.
      assert (X : existsb (fun g' => dmem n g') l = true); [|congruence].
      apply existsb_exists. exists g'. split; auto. unfold dmem. rewrite Z. reflexivity. }
    destruct I as [->|I]; [|rewrite A in G by auto; discriminate].
    exists y. apply latest_cons. right. split; auto. apply Forall_forall. auto.
Qed.
Lemma fold_latest gens : Forall wf_dict gens -> forall (base : dict) n d,
  dget n (fold_left dupdate gens base) = Some d <->
  (Latest n d gens \/ (Forall (fun g => dget n g = None) gens /\ dget n base = Some d)).
Proof.
  induction 1 as [|g gens W F IH]; intros base n d; cbn [fold_left].
  - split; [auto|]. intros [(pre & g & post & E & _)|[_ H]]; auto. destruct pre; discriminate.
  - rewrite IH, latest_cons, dget_dupdate by auto. rewrite Forall_cons_iff.
    destruct (dget n g) as [x|] eqn:G; intuition congruence.
Qed.
Lemma fold_wf gens : Forall wf_dict gens -> forall base : dict, wf_dict base -> wf_dict (fold_left dupdate gens base).
Proof. induction 1; intros base W; cbn; auto. apply IHForall, wf_dupdate; auto. Qed.

Lemma generated_wf s g : generate_definition_from_schema s = Ok g -> wf_dict g.
Proof.
  destruct s as [name [fields|]|]; cbn [generate_definition_from_schema]; intros H; try discriminate.
  - match type of H with (do s <- ?g; _) = _ => destruct g as [san|] end; [|discriminate]. cbn [bind] in H.
    destruct (mapM field_property san); [|discriminate]. cbn [bind] in H. injection H as <-.
    constructor; [cbn; auto|constructor].
  - injection H as <-. constructor.
Qed.
Lemma Forall2_Forall_r {A B} (P : A -> B -> Prop) (Q : B -> Prop) xs ys :
  (forall x y, P x y -> Q y) -> Forall2 P xs ys -> Forall Q ys.
Proof. intros H. induction 1; constructor; eauto. Qed.

Lemma jsonschema_definitions template tdefs indexed sd inputs gens ps :
  dget "definitions" template = Some (JDict tdefs) ->
  Forall2 (fun s g => generate_definition_from_schema s = Ok g)
    (indexed ++ match sd with Some l => l | None => [] end) gens ->
  Forall2 (fun i p => generate_json_schema_property_from_input_parameter i = Ok p) inputs ps ->
  exists all, Overlay tdefs gens all /\
    ((exists schema, cwl_to_jsonschema template indexed sd inputs = Ok schema) <->
     (refs_are_texts all (JDict (dupdate [] (map (fun p => (p_name p, written p)) ps))) /\
      forall n, Used all (JDict (dupdate [] (map (fun p => (p_name p, written p)) ps))) n -> dget n all <> None)) /\
    (forall schema, cwl_to_jsonschema template indexed sd inputs = Ok schema ->
       dget "properties" schema = Some (JDict (dupdate [] (map (fun p => (p_name p, written p)) ps))) /\
       exists keep, (forall n, keep n = true <-> Used all (properties_of schema) n) /\
         dget "definitions" schema = Some (JDict (filter (fun kv => keep (fst kv)) all))).
Proof.
  intros TD FG FP. apply Forall2_app_inv_l in FG. destruct FG as (g1 & g2 & F1 & F2 & ->).
  apply mapM_Ok in F1. apply mapM_Ok in F2. pose proof FP as FP'. apply mapM_Ok in FP.
  assert (WG : Forall wf_dict (g1 ++ g2)).
  { apply mapM_Ok in F1. apply mapM_Ok in F2. apply Forall_app. split.
    - eapply Forall2_Forall_r; [|exact F1]. intros x y Hxy; exact (generated_wf _ _ Hxy).
    - eapply Forall2_Forall_r; [|exact F2]. intros x y Hxy; exact (generated_wf _ _ Hxy). }
  set (P := JDict (dupdate [] (map (fun p => (p_name p, written p)) ps))).
  set (sch := dupdate template
      [ ("type", JStr "object"); ("properties", P);
        ("required", JList (map (fun p => JStr (p_name p)) (filter p_required ps))) ]).
  assert (D1 : dget "definitions" sch = Some (JDict tdefs)).
  { subst sch. unfold dupdate at 1. cbn [fold_left fst snd]. rewrite !dget_dset_other by discriminate. auto. }
  set (all := dupdate tdefs (fold_left dupdate (g1 ++ g2) [])).
  set (sch2 := dset "definitions" (JDict all) sch).
  assert (C : cwl_to_jsonschema template indexed sd inputs = slim_definitions sch2).
  { unfold cwl_to_jsonschema. rewrite F1, F2, FP. cbn [bind]. cbv zeta.
    change (dupdate template
      [ ("type", JStr "object");
        ("properties",
          JDict (dupdate [] (map (fun p => (p_name p,
             if p_required p then JDict (p_type_dict p)
             else JDict [("oneOf", JList [JDict [("type", JStr "null")]; JDict (p_type_dict p)])])) ps)));
        ("required", JList (map (fun p => JStr (p_name p)) (filter p_required ps))) ]) with sch.
    unfold get_definitions at 1. rewrite D1. reflexivity. }
  assert (D2 : dget "definitions" sch2 = Some (JDict all)) by apply dget_dset_same.
  assert (P2 : dget "properties" sch2 = Some P).
  { subst sch2 sch. rewrite dget_dset_other by discriminate. unfold dupdate at 1. cbn [fold_left fst snd].
    rewrite dget_dset_other by discriminate. apply dget_dset_same. }
  assert (PO : properties_of sch2 = P) by (unfold properties_of; rewrite P2; reflexivity).
  exists all. split; [|split].
  - intros n d. subst all. rewrite dget_dupdate by (apply fold_wf; auto; constructor).
    pose proof (fold_latest _ WG [] n) as L.
    destruct (dget n (fold_left dupdate (g1 ++ g2) [])) as [x|] eqn:E.
    + assert (Lx := proj1 (L x) eq_refl). destruct Lx as [Lx|[_ Lx]]; [|discriminate]. split.
      * intros X. injection X as <-. auto.
      * intros [X|[X _]].
        -- apply (L d). auto.
        -- exfalso. destruct Lx as (pre & g & post & EQ & G & _).
           assert (I : In g (g1 ++ g2)) by (rewrite EQ; apply in_or_app; right; left; auto).
           rewrite Forall_forall in X. specialize (X _ I). cbn in X. congruence.
    + split.
      * intros X. right. split; auto. apply Forall_forall. intros g I.
        destruct (dget n g) as [y|] eqn:G; auto. exfalso.
        (* some later definition of n is the latest *)
        destruct (latest_exists n (g1 ++ g2)) as [d' Ld]; [exists g, y; auto|].
        assert (Z := proj2 (L d') (or_introl Ld)). discriminate.
      * intros [X|[_ X]]; auto. assert (Z := proj2 (L d) (or_introl X)). discriminate.
  - rewrite C, <- PO. apply slim_succeeds; auto.
  - intros schema H. rewrite C in H. destruct (slim_ok _ _ _ D2 H) as (keep & K & -> & _).
    rewrite dget_dset_other by discriminate. split; auto.
    exists keep. split; [|apply dget_dset_same].
    unfold properties_of at 1. rewrite dget_dset_other by discriminate. exact K.
Qed.

(** ** which references a schema holds *)
Lemma no_ref_str r s : ~ RefIn r (JStr s).
Proof. intros H. inversion H. Qed.
Lemma no_ref_texts r l : Forall (fun x => exists s, x = JStr s) l -> ~ RefIn r (JList l).
Proof.
  intros F H. inversion H; subst. rewrite Forall_forall in F. destruct (F _ H1) as [s ->]. eapply no_ref_str; eauto.
Qed.

Definition ref_to (r : json) (n : string) : Prop := r = JStr ("#/definitions/" ++ n).

Lemma names_definition n : has_char "/" n = false -> Names ("#/definitions/" ++ n) n.
Proof.
  intros H. split; auto. exists ("/definitions/" ++ n)%string. split.
  - left. exists "". auto.
  - right. exists "/definitions". reflexivity.
Qed.

Lemma upper_char_slash c : Ascii.eqb "/" (upper_char c) = Ascii.eqb "/" c.
Proof. destruct c as [[] [] [] [] [] [] [] []]; reflexivity. Qed.
Lemma lower_char_slash c : Ascii.eqb "/" (lower_char c) = Ascii.eqb "/" c.
Proof. destruct c as [[] [] [] [] [] [] [] []]; reflexivity. Qed.
Lemma smap_lower_slash s : has_char "/" (smap lower_char s) = has_char "/" s.
Proof. induction s; cbn [smap has_char]; auto. rewrite lower_char_slash, IHs. reflexivity. Qed.
Lemma capitalize_slash s : has_char "/" (capitalize s) = has_char "/" s.
Proof. destruct s; cbn [capitalize has_char]; auto. rewrite upper_char_slash, smap_lower_slash. reflexivity. Qed.
Lemma pascal_slash n : has_char "/" n = false -> has_char "/" (to_pascal_case n) = false.
Proof.
  intros H. assert (E : has_char "/" (smap lower_char (to_pascal_case n)) = false); [|rewrite smap_lower_slash in E; auto].
  rewrite to_pascal_case_pascal, pascal_letters, smap_lower_slash. clear - H.
  induction n as [|c n IH]; cbn in *; auto. apply orb_false_iff in H. destruct H as [H1 H2].
  destruct (UtilsSpec.is_separator c); cbn; auto. rewrite H1. auto.
Qed.

Lemma needs_mono t t' n : (forall u, Mentions u t -> Mentions u t') -> Needs t n -> Needs t' n.
Proof. intros H X. inversion X; subst; [apply N_builtin; auto|]. eapply N_uri; eauto. Qed.

Lemma refs_in_type t : forall td r, generate_type_dict_from_type t = Ok td -> NoRefField t ->
  RefIn r (JDict td) -> exists n, ref_to r n /\ Needs t n /\ has_char "/" n = false.
Proof.
  induction t as [s|l F|syms|t IH|u|u|t IH|syms|t IH|u|u f F] using texp_ind2;
    intros td r H NR R; cbn [generate_type_dict_from_type] in H; try discriminate.
  - assert (ONE : forall x, RefIn r (JDict [("$ref", JStr x)]) -> r = JStr x).
    { intros x X. inversion X as [d IE|d k v IE N Y|]; subst; destruct IE as [E|[]]; [congruence|].
      injection E as <- <-. congruence. }
    destruct (dget s PRIMITIVE_TYPES_MAPPING) as [p|] eqn:G.
    { injection H as <-. exfalso. inversion R as [d IE|d k v IE N Y|]; subst; destruct IE as [E|[]]; [discriminate|].
      injection E as <- <-. eapply no_ref_str; eauto. }
    destruct (String.eqb s "stdin") eqn:ES.
    { injection H as <-. apply ONE in R. exists "File". split; [exact R|]. split; auto. constructor. cbn; auto. }
    destruct (smem s ["File"; "Directory"; "Any"]) eqn:EM.
    { injection H as <-. apply ONE in R. apply smem_In in EM. exists s. split; [exact R|].
      split; [constructor; auto|]. cbn in EM. destruct EM as [<-|[<-|[<-|[]]]]; reflexivity. }
    destruct (is_uri s) eqn:EU; [|discriminate]. injection H as <-. apply ONE in R.
    assert (NM : Names s (get_value_from_uri s)) by (apply Names_iff; auto).
    exists (to_pascal_case (get_value_from_uri s)). split; [exact R|]. split.
    + econstructor; [|exact NM]. constructor. intros I.
      assert (Y : In s (dkeys PRIMITIVE_TYPES_MAPPING) \/ s = "stdin" \/ In s ["File"; "Directory"; "Any"])
          by (cbn in I |- *; intuition).
      destruct Y as [Y|[Y|Y]].
      * apply dget_None in G. auto.
      * subst s. discriminate.
      * apply smem_In in Y. congruence.
    + apply pascal_slash. apply NM.
  - match type of H with (do l' <- ?g; _) = _ => destruct g as [l1|e] eqn:G end; [|discriminate].
    cbn [bind] in H. injection H as <-. inversion NR as [| | | | | |? NR']; subst.
    inversion R as [d IE|d k v IE N Y|]; subst; destruct IE as [E|[]]; [discriminate|]. injection E as <- <-.
    inversion Y as [| |l2 v I Rv]; subst. clear R Y N.
    revert l1 G I. induction F as [|t l Ft Fl IH]; intros l1 G I.
    + injection G as <-. destruct I.
    + destruct (generate_type_dict_from_type t) as [d|] eqn:Gt; [|discriminate]. cbn [bind] in G.
      match type of G with (do l' <- ?g; _) = _ => destruct g as [l''|e] eqn:G'; [|discriminate] end.
      cbn [bind] in G. injection G as <-. inversion NR'; subst. destruct I as [<-|I].
      * destruct (Ft d r eq_refl) as (n & A & B & C); auto. exists n. split; auto. split; auto.
        eapply needs_mono; [|exact B]. intros u M. eapply M_union; [left; reflexivity|auto].
      * destruct (IH) with (l1 := l'') as (n & A & B & C); auto. { constructor; auto. }
        exists n. split; auto. split; auto.
        eapply needs_mono; [|exact B]. intros u M. inversion M; subst. eapply M_union; [right; eassumption|auto].
  - injection H as <-. inversion R as [d IE|d k v IE N Y|]; subst; destruct IE as [E|[]]; [|injection E as <- <-; congruence].
    injection E as E. assert (NM : Names u (get_value_from_uri u)) by (apply Names_iff; auto).
    exists (to_pascal_case (get_value_from_uri u)). split; [symmetry; exact E|].
    split; [econstructor; [constructor|auto]|]. apply pascal_slash. apply NM.
  - injection H as <-. exfalso. inversion R as [d IE|d k v IE N Y|]; subst; destruct IE as [E|[E|[]]]; try discriminate;
      injection E as <- <-; [eapply no_ref_str; eauto|].
    eapply no_ref_texts; [|exact Y]. apply Forall_forall. intros x I. apply in_map_iff in I.
    destruct I as (z & <- & _). eauto.
  - destruct (generate_type_dict_from_type t) as [d|] eqn:G; [|discriminate]. injection H as <-.
    inversion NR; subst. inversion R as [d' IE|d' k v IE N Y|]; subst; destruct IE as [E|[E|[]]]; try discriminate;
      injection E as <- <-; [exfalso; eapply no_ref_str; eauto|].
    destruct (IH d r eq_refl) as (n & A & B & C); auto. exists n. split; auto. split; auto.
    eapply needs_mono; [|exact B]. intros u M. apply M_array; auto.
  - injection H as <-. exfalso. inversion R as [d IE|d k v IE N Y|]; subst; destruct IE as [E|[]]; [discriminate|].
      injection E as <- <-. eapply no_ref_str; eauto.
  - match type of H with (do l' <- ?g; _) = _ => destruct g as [ps|e] eqn:G end; [|discriminate].
    cbn [bind] in H. injection H as <-. inversion NR as [| | | | |? ? NR'|]; subst.
    inversion R as [d' IE|d' k v IE N Y|]; subst; destruct IE as [E|[E|[]]]; try discriminate;
      injection E as <- <-; [exfalso; eapply no_ref_str; eauto|]. clear R N.
    assert (GEN : forall l acc0 ps, (fix go (l : list (string * texp)) (acc : dict) : result dict :=
                     match l with
                     | [] => Ok acc
                     | (n, t) :: l' =>
                         do d <- generate_type_dict_from_type t;
                         go l' (dset (get_value_from_uri n) (JDict d) acc)
                     end) l acc0 = Ok ps ->
       forall k v, In (k, v) ps -> In (k, v) acc0 \/
         exists x d, In x l /\ k = get_value_from_uri (fst x) /\ v = JDict d /\ generate_type_dict_from_type (snd x) = Ok d).
    { clear. induction l as [|[n t] l IH]; intros acc0 ps G k v I.
      - injection G as <-. auto.
      - destruct (generate_type_dict_from_type t) as [d|] eqn:Gt; [|discriminate]. cbn [bind] in G.
        destruct (IH _ _ G k v I) as [J|(x & d' & J & E1 & E2 & E3)].
        + assert (K : forall acc0 : dict, In (k, v) (dset (get_value_from_uri n) (JDict d) acc0) ->
               In (k, v) acc0 \/ (k, v) = (get_value_from_uri n, JDict d)).
          { clear. induction acc0 as [|[k' v'] a IH]; cbn; [intros [E|[]]; auto|].
            destruct (String.eqb_spec (get_value_from_uri n) k') as [<-|N]; cbn; intros [E|I]; auto.
            destruct (IH I); auto. }
          destruct (K acc0 J) as [?|E]; auto. injection E as -> ->. right. exists (n, t), d. cbn. auto.
        + right. exists x, d'. cbn. auto. }
    rewrite Forall_forall in F, NR'.
    inversion Y as [d' E|d' k v E N Rv|]; subst.
    + exfalso. destruct (GEN _ _ _ G _ _ E) as [[]|(x & d & I & E1 & _)].
      destruct (NR' x I) as [A _]. apply A. apply Names_iff. auto.
    + destruct (GEN _ _ _ G _ _ E) as [[]|(x & d & I & E1 & -> & Gx)].
      destruct (NR' x I) as [_ A]. destruct (F x I d r Gx A Rv) as (n & B & C & D).
      exists n. split; auto. split; auto.
      eapply needs_mono; [|exact C]. intros u' M. eapply M_record; eauto.
Qed.

(** ** when the schema is generated *)
Lemma In_dset {V} k (v : V) k0 v0 : forall d, In (k, v) (dset k0 v0 d) -> In (k, v) d \/ (k, v) = (k0, v0).
Proof.
  induction d as [|[k' v'] a IH]; cbn; [intros [E|[]]; auto|].
  destruct (String.eqb_spec k0 k') as [<-|N]; cbn; intros [E|I]; auto. destruct (IH I); auto.
Qed.
Lemma In_dupdate {V} k (v : V) e : forall d, In (k, v) (dupdate d e) -> In (k, v) d \/ In (k, v) e.
Proof.
  unfold dupdate. induction e as [|[k0 v0] e IH]; intros d I; cbn in I; auto.
  destruct (IH _ I) as [J|J]; [|cbn; auto]. apply In_dset in J. cbn. destruct J as [J|J]; auto.
Qed.
Lemma squeeze_supported l : Supported (XList l) -> Supported (squeeze l).
Proof.
  intros H. inversion H as [| | | | | | |? F]; subst. unfold squeeze.
  assert (G : Forall Supported (filter (fun x => negb (is_null_name x)) l)).
  { apply Forall_forall. intros x I. apply filter_In in I. rewrite Forall_forall in F. apply F. tauto. }
  destruct (filter _ l) as [|t [|t' l']]; try (constructor; auto; fail). inversion G; auto.
Qed.
Lemma squeeze_noref l : NoRefField (XList l) -> NoRefField (squeeze l).
Proof.
  intros H. inversion H as [| | | | | |? F]; subst. unfold squeeze.
  assert (G : Forall NoRefField (filter (fun x => negb (is_null_name x)) l)).
  { apply Forall_forall. intros x I. apply filter_In in I. rewrite Forall_forall in F. apply F. tauto. }
  destruct (filter _ l) as [|t [|t' l']]; try (constructor; auto; fail). inversion G; auto.
Qed.

Lemma input_generated i : Supported (in_type i) -> NoRefField (in_type i) -> plain_doc (in_doc i) ->
  exists p, generate_json_schema_property_from_input_parameter i = Ok p /\ p_name p = in_name i /\
    forall r, RefIn r (written p) -> exists n, ref_to r n /\ Needs (in_type i) n /\ has_char "/" n = false.
Proof.
  intros S NR PD.
  assert (SN : Supported (norm (in_type i)) /\ NoRefField (norm (in_type i)) /\
               forall n, Needs (norm (in_type i)) n -> Needs (in_type i) n).
  { destruct (in_type i) as [|l| | | | | | | |]; cbn [norm]; auto.
    destruct (existsb is_null_name l); auto. split; [apply squeeze_supported; auto|].
    split; [apply squeeze_noref; auto|]. intros n. apply needs_mono. intros u. apply (squeeze_mentions (fun _ _ => true) (fun _ _ => true)). }
  destruct SN as (S' & NR' & NN).
  pose proof (supported_iff (norm (in_type i))) as G.
  destruct (generate_type_dict_from_type (norm (in_type i))) as [td|e] eqn:Gt; [|tauto]. clear G.
  set (doc := match in_doc i with JNull => JStr "" | d => d end).
  set (req := match in_type i with XList l => if existsb is_null_name l then false else get_is_required_from_input_parameter i
              | _ => get_is_required_from_input_parameter i end).
  exists {| p_name := in_name i; p_type_dict := dset "description" doc td; p_required := req |}.
  split.
  { unfold generate_json_schema_property_from_input_parameter, make_property. subst req doc.
    destruct (in_type i) as [s|l| | | | | | | |]; cbn [norm] in Gt; try (rewrite Gt; reflexivity).
    destruct (existsb is_null_name l); rewrite Gt; reflexivity. }
  split; [reflexivity|]. intros r R.
  assert (D : forall r, ~ RefIn r doc).
  { intros r0 X. subst doc. destruct PD as [E|[[s E]|(l & E & F)]]; rewrite E in X.
    - eapply no_ref_str; eauto.
    - eapply no_ref_str; eauto.
    - eapply no_ref_texts; eauto. }
  assert (T : RefIn r (JDict (dset "description" doc td)) -> RefIn r (JDict td)).
  { intros X. inversion X as [d I|d k v I N Y|]; subst; apply In_dset in I; destruct I as [I|I].
    - apply RI_here; auto.
    - discriminate.
    - eapply RI_dict; eauto.
    - injection I as -> ->. destruct (D _ Y). }
  assert (W : RefIn r (JDict (dset "description" doc td))).
  { unfold written in R. cbn [p_required p_type_dict] in R. destruct req; auto.
    inversion R as [d I|d k v I N Y|]; subst; destruct I as [E|[]]; [discriminate|]. injection E as <- <-.
    inversion Y as [| |l v I Z]; subst. destruct I as [<-|[<-|[]]]; auto.
    inversion Z as [d I|d k v I N' Y'|]; subst; destruct I as [E|[]]; [discriminate|]. injection E as <- <-.
    exfalso. eapply no_ref_str; eauto. }
  apply T in W. destruct (refs_in_type _ _ _ Gt NR' W) as (n & A & B & C). exists n. auto.
Qed.

Lemma jsonschema_succeeds template tdefs indexed sd inputs gens all :
  dget "definitions" template = Some (JDict tdefs) ->
  Forall2 (fun s g => generate_definition_from_schema s = Ok g)
    (indexed ++ match sd with Some l => l | None => [] end) gens ->
  Overlay tdefs gens all ->
  Forall (fun i => Supported (in_type i) /\ NoRefField (in_type i) /\ plain_doc (in_doc i) /\
                   in_name i <> "$ref") inputs ->
  (forall n d r, dget n all = Some d -> RefIn r d ->
     exists s, r = JStr s /\ forall m, Names s m -> dget m all <> None) ->
  (forall i n, In i inputs -> Needs (in_type i) n -> dget n all <> None) ->
  exists schema, cwl_to_jsonschema template indexed sd inputs = Ok schema.
Proof.
  intros TD FG OV FI CL ND.
  assert (exists ps, Forall2 (fun i p => generate_json_schema_property_from_input_parameter i = Ok p /\ p_name p = in_name i /\
    forall r, RefIn r (written p) -> exists n, ref_to r n /\ Needs (in_type i) n /\ has_char "/" n = false) inputs ps) as [ps FP].
  { clear - FI. induction FI as [|i is (A & B & C & _) FI IH]; [exists []; constructor|].
    destruct IH as [ps F]. destruct (input_generated i A B C) as (p & P). exists (p :: ps). constructor; auto. }
  destruct (jsonschema_definitions template tdefs indexed sd inputs gens ps) as (all' & OV' & EX & _); auto.
  { clear - FP. induction FP as [|i p is ps (A & _) FP IH]; constructor; auto. }
  assert (EQ : forall n, dget n all' = dget n all).
  { intros n. destruct (dget n all') as [d|] eqn:E.
    - apply OV' in E. apply OV in E. auto.
    - destruct (dget n all) as [d|] eqn:E'; auto. apply OV in E'. apply OV' in E'. congruence. }
  set (P := JDict (dupdate [] (map (fun p => (p_name p, written p)) ps))) in *.
  assert (RP : forall r, RefIn r P -> exists n, ref_to r n /\ dget n all <> None /\ has_char "/" n = false).
  { intros r R. rewrite Forall_forall in FI. subst P.
    assert (INV : forall k v, In (k, v) (dupdate [] (map (fun p => (p_name p, written p)) ps)) ->
       exists i p, In i inputs /\ k = in_name i /\ v = written p /\
        (forall r, RefIn r (written p) -> exists n, ref_to r n /\ Needs (in_type i) n /\ has_char "/" n = false)).
    { intros k v I. apply In_dupdate in I. destruct I as [[]|I]. apply in_map_iff in I.
      destruct I as (p & E & I). injection E as <- <-. clear - FP I.
      induction FP as [|i q is ps (_ & A & B) FP IH]; [destruct I|]. destruct I as [->|I].
      - exists i, p. cbn. auto.
      - destruct (IH I) as (j & p' & X). exists j, p'. cbn. tauto. }
    inversion R as [d I|d k v I N Y|]; subst; destruct (INV _ _ I) as (i & p & Ii & E1 & E2 & E3).
    - exfalso. eapply (FI i Ii). auto.
    - subst v. destruct (E3 r Y) as (n & A & B & C). exists n. split; auto. split; auto. eapply ND; eauto. }
  apply EX. split.
  - intros r j [->|(m & U & G)] R.
    + destruct (RP r R) as (n & -> & _). eauto.
    + rewrite EQ in G. destruct (CL m j r G R) as (s & -> & _). eauto.
  - intros n U. rewrite EQ. destruct U as [r n R NM|m j r n U G R NM].
    + destruct (RP _ R) as (k & E & D & H). assert (Er : r = ("#/definitions/" ++ k)%string) by (injection E; auto). subst r.
      apply names_definition in H. apply Names_iff in H. apply Names_iff in NM. congruence.
    + rewrite EQ in G. destruct (CL m j _ G R) as (s & E & X). injection E as ->. auto.
Qed.
