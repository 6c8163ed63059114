From Verif Require Import PyBase PyBaseProofs UtilsModel UtilsProofs SchemaModel SchemaSpec SchemaProofs JsonSpec JsonProofs.

Section Ref.
  Variable ref : string -> json -> bool.
  Variable named : string -> json -> bool.
  Notation acc := (accepts ref).
  Notation adm := (admitted named).

  (** ** values of a type are admitted *)
  Lemma count_one l v : (exists t, In t l /\ adm t v = true) ->
    (forall i j a b v, nth_error l i = Some a -> nth_error l j = Some b ->
       adm a v = true -> adm b v = true -> i = j) -> count_admitted named l v = 1.
  Proof.
    induction l as [|t l IH]; intros (x & I & A) U; [destruct I|].
    change (count_admitted named (t :: l) v) with ((if adm t v then 1 else 0) + count_admitted named l v).
    destruct (adm t v) eqn:E.
    - enough (Z : count_admitted named l v = 0) by lia.
      assert (N : forall y, In y l -> adm y v = false).
      { intros y Iy. apply In_nth_error in Iy. destruct Iy as [j Hj]. destruct (adm y v) eqn:Ey; auto.
        specialize (U 0 (S j) t y v eq_refl Hj E Ey). discriminate. }
      clear - N. induction l as [|y l IH]; [reflexivity|].
      change (count_admitted named (y :: l) v) with ((if adm y v then 1 else 0) + count_admitted named l v).
      rewrite N by (cbn; auto). apply IH. intros; apply N; cbn; auto.
    - destruct I as [->|I]; [congruence|]. cbn. apply IH; eauto.
      intros i j a b w Hi Hj Aa Ab. specialize (U (S i) (S j) a b w Hi Hj Aa Ab). lia.
  Qed.

  Lemma typed_admitted t : forall v, HasType named t v -> Separate named t -> adm t v = true.
  Proof.
    induction t as [s|l F|syms|t IH|u|u|t IH|syms|t IH|u|u f F] using texp_ind2; intros v H S;
      try (inversion H; fail).
    - inversion H; subst; cbn [admitted]; try reflexivity; try (destruct v; try discriminate; reflexivity);
        try exact H1.
      unfold admitted_name.
      assert (X : forall y, In y ["null"; "boolean"; "string"; "int"; "long"; "float"; "double"; "stdin"] -> String.eqb s y = false).
      { intros y Iy. apply String.eqb_neq. intros ->. auto. }
      rewrite (X "null"), (X "boolean"), (X "string"), (X "int") by (cbn; tauto).
      replace (smem s ["long"; "float"; "double"]) with false
          by (cbn [smem existsb]; rewrite (X "long"), (X "float"), (X "double") by (cbn; tauto); reflexivity).
      rewrite (X "stdin") by (cbn; tauto). auto.
    - inversion H as [| | | | | | | | | | | | | |l0 t v0 I A]; subst. inversion S as [| | | | | |l0 FS U]; subst.
      rewrite admitted_union. rewrite count_one; auto. exists t. split; auto.
      rewrite Forall_forall in F, FS. apply F; auto.
    - inversion H; subst. auto.
    - inversion H; subst. cbn. apply existsb_exists. eexists. split; [eassumption|].
      apply String.eqb_eq. symmetry. apply Names_iff. auto.
    - inversion H as [| | | | | | | | | |t0 l FA| | | |]; subst. inversion S; subst. cbn [admitted].
      apply forallb_forall. intros x I. rewrite Forall_forall in FA. auto.
    - inversion H; subst. reflexivity.
    - inversion H as [| | | | | | | | | | | | |ty fs o FA|]; subst. inversion S; subst.
      rewrite admitted_record. unfold fields_ok. apply forallb_forall. intros [n t] I.
      rewrite Forall_forall in F, FA. specialize (FA _ I). destruct FA as (m & NM & FA).
      apply Names_iff in NM. cbn [fst snd] in *. rewrite NM.
      match goal with X : Forall _ f |- _ => rewrite Forall_forall in X; specialize (X _ I); cbn in X end.
      destruct FA as [(x & E & A)|[E _]]; rewrite E; auto. apply (F _ I); auto.
  Qed.

  (** ** a property *)
  Definition norm (t : texp) : texp :=
    match t with XList l => if existsb is_null_name l then squeeze l else t | _ => t end.
  Lemma squeeze_rest l v : adm (squeeze l) v = adm (XList (filter (fun x => negb (is_null_name x)) l)) v.
  Proof.
    unfold squeeze. destruct (filter _ l) as [|t [|t' l']]; try reflexivity.
    rewrite admitted_union. cbn. destruct (adm t v); reflexivity.
  Qed.
  Lemma squeeze_distinct l : FieldsDistinct (XList l) -> FieldsDistinct (squeeze l).
  Proof.
    intros H. inversion H as [| | | | | |? F]; subst. unfold squeeze.
    assert (G : Forall FieldsDistinct (filter (fun x => negb (is_null_name x)) l)).
    { apply Forall_forall. intros x I. apply filter_In in I. rewrite Forall_forall in F. apply F. tauto. }
    destruct (filter _ l) as [|t [|t' l']]; try (constructor; auto; fail). inversion G; auto.
  Qed.
  Lemma squeeze_mentions u l : Mentions u (squeeze l) -> Mentions u (XList l).
  Proof.
    unfold squeeze. assert (X : forall x, In x (filter (fun x => negb (is_null_name x)) l) -> In x l)
      by (intros x I; apply filter_In in I; tauto).
    destruct (filter _ l) as [|t [|t' l']]; intros M.
    - inversion M; subst. destruct H0.
    - econstructor; [|exact M]. apply X. cbn; auto.
    - inversion M; subst. econstructor; [|eassumption]. apply X; auto.
  Qed.
  Lemma agree_squeeze l : definitions_agree ref named (XList l) -> definitions_agree ref named (squeeze l).
  Proof. intros [A B]. split; auto. intros u n v M. apply B, squeeze_mentions; auto. Qed.

  Lemma make_property_reading name t d req p : make_property name t d req = Ok p ->
    FieldsDistinct t -> definitions_agree ref named t ->
    p_name p = name /\
    p_required p = (match t with XList l => if existsb is_null_name l then false else req | _ => req end) /\
    forall v, acc (JDict (p_type_dict p)) v = adm (norm t) v.
  Proof.
    intros H FD DA. apply make_property_shape in H. destruct H as (td & -> & G). cbn [p_name p_required p_type_dict].
    split; [reflexivity|]. split; [reflexivity|]. intros v. rewrite accepts_description.
    apply type_dict_reading; auto; unfold norm.
    - destruct t; auto. destruct (existsb is_null_name l); auto. apply squeeze_distinct; auto.
    - destruct t; auto. destruct (existsb is_null_name l); auto. apply agree_squeeze; auto.
  Qed.

  Lemma input_reading i p : generate_json_schema_property_from_input_parameter i = Ok p ->
    FieldsDistinct (in_type i) -> definitions_agree ref named (in_type i) ->
    p_name p = in_name i /\ p_required p = required_of i /\
    forall x, acc (written p) x =
      if required_of i then adm (in_type i) x else adm (with_null (in_type i)) x.
  Proof.
    unfold generate_json_schema_property_from_input_parameter. intros H FD DA.
    destruct (make_property_reading _ _ _ _ _ H FD DA) as (A & B & C).
    split; [exact A|]. split; [exact B|]. intros x. unfold written. rewrite B.
    change (match in_type i with
            | XList l => if existsb is_null_name l then false else get_is_required_from_input_parameter i
            | _ => get_is_required_from_input_parameter i end) with (required_of i).
    assert (Z : forall b : bool, Nat.eqb 1 ((if adm (XStr "null") x then 1 else 0) + ((if b then 1 else 0) + 0))
       = Nat.eqb 1 ((if of_type "null" x then 1 else 0) + ((if b then 1 else 0) + 0))) by (intros; destruct x; reflexivity).
    destruct (required_of i) eqn:R.
    - rewrite C. unfold norm. destruct (in_type i) eqn:T; try reflexivity.
      destruct (existsb is_null_name l) eqn:E; [|reflexivity]. unfold required_of in R. rewrite T, E in R. discriminate.
    - rewrite accepts_oneOf.
      change (count_accepted ref [JDict [("type", JStr "null")]; JDict (p_type_dict p)] x) with
        ((if acc (JDict [("type", JStr "null")]) x then 1 else 0) + ((if acc (JDict (p_type_dict p)) x then 1 else 0) + 0)).
      rewrite accepts_type, C, <- Z.
      unfold with_null, norm. destruct (in_type i) eqn:T; try reflexivity.
      destruct (existsb is_null_name l) eqn:E; [|reflexivity]. rewrite squeeze_rest. reflexivity.
  Qed.

  (** ** the whole schema *)
  Lemma forallb_wf (f : string -> json -> bool) d : wf_dict d ->
    (forallb (fun ka => f (fst ka) (snd ka)) d = true <-> forall k a, dget k d = Some a -> f k a = true).
  Proof.
    intros W. rewrite forallb_forall. split.
    - intros H k a G. apply dget_In in G. apply (H (k, a) G).
    - intros H [k a] I. apply H. apply In_dget; auto.
  Qed.

  Lemma slim_wf schema s' : slim_definitions schema = Ok s' -> wf_dict schema -> wf_dict s'.
  Proof.
    intros H W. unfold slim_definitions in H.
    destruct (get_property_dependencies _ _ _ _); [|discriminate]. cbn [bind] in H.
    destruct (get_definitions schema); [|discriminate]. cbn [bind] in H. injection H as <-.
    apply wf_dset; auto.
  Qed.
  Lemma jsonschema_rest template indexed sd inputs schema :
    cwl_to_jsonschema template indexed sd inputs = Ok schema -> wf_dict template ->
    wf_dict schema /\
    forall k, ~ In k ["definitions"; "type"; "properties"; "required"] -> dget k schema = dget k template.
  Proof.
    unfold cwl_to_jsonschema. intros H W.
    destruct (mapM generate_definition_from_schema indexed) as [ds1|]; [|discriminate]. cbn [bind] in H.
    destruct (mapM generate_definition_from_schema _) as [ds2|]; [|discriminate]. cbn [bind] in H.
    destruct (mapM generate_json_schema_property_from_input_parameter inputs) as [ps|]; [|discriminate].
    cbn [bind] in H. cbv zeta in H.
    match type of H with (do defs <- get_definitions ?s; _) = _ => set (sch := s) in * end.
    destruct (get_definitions sch) as [defs|]; [|discriminate]. cbn [bind] in H. split.
    - eapply slim_wf; eauto. apply wf_dset. subst sch. unfold dupdate at 1. cbn [fold_left fst snd].
      repeat apply wf_dset. auto.
    - intros k N. cbn in N. rewrite (slim_keeps _ _ k ltac:(intros ->; tauto) H). rewrite dget_dset_other by (intros ->; tauto).
      subst sch. unfold dupdate at 1. cbn [fold_left fst snd]. rewrite !dget_dset_other by (intros ->; tauto). reflexivity.
  Qed.

  Lemma jsonschema_reading template indexed sd inputs schema :
    cwl_to_jsonschema template indexed sd inputs = Ok schema ->
    NoDup (map in_name inputs) -> plain_template template ->
    Forall (fun i => FieldsDistinct (in_type i) /\ definitions_agree ref named (in_type i)) inputs ->
    forall v, acc (JDict schema) v = true <->
      exists o, v = JDict o /\ forall i, In i inputs ->
        match dget (in_name i) o with
        | Some x => (if required_of i then adm (in_type i) x else adm (with_null (in_type i)) x) = true
        | None => required_of i = false
        end.
  Proof.
    intros H N [W PT] F v.
    destruct (jsonschema_rest _ _ _ _ _ H W) as [WS REST].
    destruct (jsonschema_shape _ _ _ _ _ H) as (ps & M & P & R & T).
    apply mapM_Forall2 in M.
    assert (A : Forall2 (fun i p => p_name p = in_name i /\ p_required p = required_of i /\
        forall x, acc (written p) x = if required_of i then adm (in_type i) x else adm (with_null (in_type i)) x) inputs ps).
    { clear - M F. induction M as [|i p is ps Hp M IH]; constructor; inversion F; subst; auto.
      apply input_reading; tauto. }
    assert (NM : map p_name ps = map in_name inputs).
    { clear - A. induction A as [|i p is ps Hp M IH]; [reflexivity|]. cbn. f_equal; tauto. }
    rewrite dupdate_nil_nodup in P by (rewrite map_map; cbn; change (NoDup (map p_name ps)); rewrite NM; auto).
    rewrite accepts_dict.
    assert (NK : forall k, In k ["$ref"; "enum"; "items"; "oneOf"] -> dget k schema = None).
    { intros k I. rewrite REST; [apply PT; auto|]. cbn in I |- *. intuition congruence. }
    rewrite NK by (cbn; auto). rewrite (forallb_wf (fun k a => keyword ref k a v) schema WS).
    assert (KW : (forall k a, dget k schema = Some a -> keyword ref k a v = true) <->
       (exists o, v = JDict o /\ props_ok ref (map (fun p => (p_name p, written p)) ps) o = true /\
          forallb (fun n => match n with JStr n => dmem n o | _ => false end)
            (map (fun p => JStr (p_name p)) (filter p_required ps)) = true)).
    { split.
      - intros K. pose proof (K _ _ T) as KT. unfold keyword in KT. cbn in KT.
        destruct v as [| | | | | |o]; try discriminate. exists o. split; auto. split.
        + apply (K _ _ P).
        + apply (K _ _ R).
      - intros (o & -> & KP & KR) k a G. unfold keyword.
        destruct (String.eqb_spec k "type") as [->|]; [rewrite T in G; injection G as <-; reflexivity|].
        destruct (String.eqb_spec k "enum") as [->|]; [rewrite NK in G by (cbn; auto); discriminate|].
        destruct (String.eqb_spec k "items") as [->|]; [rewrite NK in G by (cbn; auto); discriminate|].
        destruct (String.eqb_spec k "properties") as [->|]; [rewrite P in G; injection G as <-; exact KP|].
        destruct (String.eqb_spec k "required") as [->|]; [rewrite R in G; injection G as <-; exact KR|].
        destruct (String.eqb_spec k "oneOf") as [->|]; [rewrite NK in G by (cbn; auto); discriminate|].
        reflexivity. }
    rewrite KW. clear - A.
    split; intros (o & -> & X); exists o; split; auto.
    - destruct X as [KP KR]. induction A as [|i p is ps (E1 & E2 & E3) A IH]; [intros i []|].
      unfold props_ok in KP. cbn [map forallb fst snd] in KP. apply andb_true_iff in KP. destruct KP as [KP1 KP2].
      intros j [<-|I].
      + rewrite E1 in KP1. destruct (dget (in_name i) o) eqn:G; [rewrite <- E3; auto|].
        cbn [filter] in KR. rewrite E2 in KR. destruct (required_of i); auto. cbn [map forallb] in KR.
        apply andb_true_iff in KR. destruct KR as [KR _]. rewrite E1 in KR. unfold dmem in KR. rewrite G in KR. discriminate.
      + apply IH; auto. cbn [filter] in KR. destruct (p_required p); auto. cbn [map forallb] in KR.
        apply andb_true_iff in KR. tauto.
    - induction A as [|i p is ps (E1 & E2 & E3) A IH]; [split; reflexivity|].
      destruct IH as [IH1 IH2]; [intros; apply X; cbn; auto|].
      pose proof (X i ltac:(cbn; auto)) as Xi. split.
      + unfold props_ok in *. cbn [map forallb fst snd]. rewrite IH1, andb_true_r, E1.
        destruct (dget (in_name i) o); auto. rewrite E3. auto.
      + cbn [filter]. rewrite E2. destruct (required_of i) eqn:Ri; auto. cbn [map forallb]. rewrite IH2, andb_true_r, E1.
        unfold dmem. destruct (dget (in_name i) o); auto.
  Qed.

  (** ** a definition *)
  Lemma flat_squeeze t l : flat_union t -> t = XList l -> norm (squeeze l) = squeeze l.
  Proof.
    intros FU ->. unfold squeeze. assert (X : forall x, In x (filter (fun x => negb (is_null_name x)) l) -> In x l /\ is_null_name x = false).
    { intros x I. apply filter_In in I. destruct I as [I E]. apply negb_true_iff in E. auto. }
    destruct (filter _ l) as [|t [|t' l']]; [reflexivity| |].
    - destruct t; try reflexivity. exfalso. eapply FU; [reflexivity|]. apply (X (XList l0)). cbn; auto.
    - cbn [norm]. replace (existsb is_null_name (t :: t' :: l')) with false; [reflexivity|].
      symmetry. apply not_true_iff_false. intros E. apply existsb_exists in E. destruct E as (x & I & E).
      apply X in I. destruct I. congruence.
  Qed.

  Lemma field_reading n t p : field_property (n, t) = Ok p -> flat_union t ->
    FieldsDistinct t -> definitions_agree ref named t ->
    p_name p = n /\
    p_required p = (match t with XList l => negb (existsb is_null_name l) | _ => true end) /\
    forall v, acc (JDict (p_type_dict p)) v = adm (given_type t) v.
  Proof.
    intros H FU FD DA. unfold field_property in H.
    destruct t as [s|l| | | | | | | |];
      try (destruct (make_property_reading _ _ _ _ _ H FD DA) as (A & B & C); rewrite A, B; repeat split; auto; fail).
    destruct (make_property_reading _ _ _ _ _ H) as (A & B & C).
    { apply squeeze_distinct; auto. } { apply agree_squeeze; auto. }
    split; auto. split.
    - rewrite B. destruct (squeeze l) as [|l0| | | | | | | |] eqn:E; auto.
      destruct (existsb is_null_name l0) eqn:E0; auto.
      pose proof (flat_squeeze _ l FU eq_refl) as Q. rewrite E in Q. cbn [norm] in Q. rewrite E0 in Q.
      (* the squeezed list has no null alternative *)
      exfalso. unfold squeeze in E.
      assert (X : forall x, In x (filter (fun x => negb (is_null_name x)) l) -> In x l /\ is_null_name x = false).
      { intros x I. apply filter_In in I. destruct I as [I Ex]. apply negb_true_iff in Ex. auto. }
      destruct (filter (fun x => negb (is_null_name x)) l) as [|t [|t' l']].
      + injection E as <-. discriminate.
      + subst t. eapply FU; [reflexivity|]. apply (X (XList l0)). cbn; auto.
      + injection E as <-. apply existsb_exists in E0. destruct E0 as (x & I & Ex). apply X in I. destruct I. congruence.
    - intros v. rewrite C, (flat_squeeze _ l FU eq_refl), squeeze_rest. reflexivity.
  Qed.

  Lemma sanitised_fields fields : forall acc0 d,
    foldM (fun acc f => do t <- sanitise_type (snd f);
                        Ok (dset (get_value_from_uri (fst f)) t acc)) fields acc0 = Ok d ->
    NoDup (dkeys acc0 ++ map (fun f => get_value_from_uri (fst f)) fields) ->
    exists ts, Forall2 (fun f t => sanitise_type (snd f) = Ok t) fields ts /\
      d = acc0 ++ map (fun ft => (get_value_from_uri (fst (fst ft)), snd ft)) (combine fields ts).
  Proof.
    induction fields as [|[n t] fields IH]; intros acc0 d H N; cbn [foldM] in H.
    - injection H as <-. exists []. cbn. rewrite app_nil_r. auto.
    - cbn [fst snd] in H. destruct (sanitise_type t) as [t'|] eqn:E; [|discriminate]. cbn [bind] in H.
      cbn [map fst] in N. rewrite dset_snoc in H.
      2: { apply dget_None. intros I. apply NoDup_remove_2 in N. apply N. apply in_app_iff. auto. }
      apply IH in H; [|unfold dkeys in *; rewrite map_app; cbn [map fst]; rewrite <- app_assoc; exact N].
      destruct H as (ts & F2 & ->). exists (t' :: ts). split; [constructor; auto|].
      cbn [combine map fst snd]. rewrite <- app_assoc. reflexivity.
  Qed.

  Lemma definition_reading name fields ds ts :
    generate_definition_from_schema (RecordSchema name (Some fields)) = Ok ds ->
    NoDup (map (fun f => get_value_from_uri (fst f)) fields) ->
    Forall2 (fun f t => sanitise_type (snd f) = Ok t) fields ts ->
    Forall (fun t => flat_union t /\ FieldsDistinct t /\ definitions_agree ref named t) ts ->
    exists def, ds = [(to_pascal_case (get_value_from_uri name), def)] /\
      forall v, acc def v = true <->
        exists o, v = JDict o /\
          Forall2 (fun f t => match dget (get_value_from_uri (fst f)) o with
                              | Some x => adm (given_type t) x = true
                              | None => null_is_alternative t
                              end) fields ts.
  Proof.
    intros H N F2 F. cbn [generate_definition_from_schema] in H.
    match type of H with (do s <- ?g; _) = _ => destruct g as [san|] eqn:S end; [|discriminate]. cbn [bind] in H.
    destruct (mapM field_property san) as [ps|] eqn:M; [|discriminate]. cbn [bind] in H. injection H as <-.
    eexists. split; [reflexivity|]. apply sanitised_fields in S; [|exact N].
    destruct S as (ts' & F2' & ->). cbn [app] in M.
    assert (ts' = ts).
    { clear - F2 F2'. revert ts' F2'. induction F2; intros ts' F2'; inversion F2'; subst; f_equal; auto. congruence. }
    subst ts'. clear F2'. apply mapM_Forall2 in M.
    assert (A : Forall2 (fun ft p => p_name p = get_value_from_uri (fst (fst ft)) /\
        p_required p = (match snd ft with XList l => negb (existsb is_null_name l) | _ => true end) /\
        forall v, acc (JDict (p_type_dict p)) v = adm (given_type (snd ft)) v) (combine fields ts) ps).
    { clear - M F F2. revert ps M. induction F2 as [|[n t] t' fields ts Hs F2 IH]; intros ps M; cbn in M.
      - inversion M; subst. constructor.
      - inversion M as [|? p ? ps' Hp M']; subst. inversion F; subst. cbn [combine]. constructor; auto.
        cbn [fst snd]. apply field_reading; tauto. }
    assert (NM : map p_name ps = map (fun f => get_value_from_uri (fst f)) fields).
    { clear - A F2. revert ps A. induction F2; intros ps A; cbn in A; inversion A; subst; [reflexivity|].
      cbn. f_equal; [tauto|auto]. }
    rewrite dupdate_nil_nodup by (rewrite map_map; cbn; change (NoDup (map p_name ps)); rewrite NM; auto).
    intros v. rewrite accepts_dict. cbn [dget]. rewrite !(proj2 (String.eqb_neq _ _)) by discriminate.
    cbn [forallb fst snd]. rewrite andb_true_r.
    change (keyword ref "type" (JStr "object") v) with (of_type "object" v).
    destruct v as [| | | | | |o]; try (split; [discriminate|intros (o & X & _); discriminate]).
    change (of_type "object" (JDict o)) with true. cbn [andb].
    set (PS := map (fun p => (p_name p, JDict (p_type_dict p))) ps).
    change (keyword ref "properties" (JDict PS) (JDict o)) with (props_ok ref PS o). subst PS.
    match goal with |- context [keyword ref "required" (JList ?req) (JDict o)] =>
      change (keyword ref "required" (JList req) (JDict o)) with
        (forallb (fun n => match n with JStr n => dmem n o | _ => false end) req) end.
    rewrite andb_true_iff.
    transitivity (Forall2 (fun f t => match dget (get_value_from_uri (fst f)) o with
                              | Some x => adm (given_type t) x = true
                              | None => null_is_alternative t
                              end) fields ts).
    2: { split; [intros X; exists o; auto|]. intros (o' & E & X). injection E as <-. auto. }
    assert (NA : forall t, null_is_alternative t <-> (match t with XList l => negb (existsb is_null_name l) | _ => true end) = false).
    { intros t. unfold null_is_alternative. split.
      - intros (l & -> & I). apply existsb_null in I. rewrite I. reflexivity.
      - destruct t; try discriminate. intros E. apply negb_false_iff, existsb_null in E. eauto. }
    clear - A F2 NA. revert ps A. induction F2 as [|[n t] t' fields ts Hs F2 IH]; intros ps A; cbn [combine] in A.
    - inversion A; subst. split; [constructor|]. intros _. split; reflexivity.
    - inversion A as [|? p ? ps' (E1 & E2 & E3) A']; subst. cbn [fst snd] in *.
      specialize (IH ps' A').
      assert (K : (props_ok ref (map (fun p => (p_name p, JDict (p_type_dict p))) (p :: ps')) o = true /\
                   forallb (fun n => match n with JStr n => dmem n o | _ => false end)
                      (map (fun p => JStr (p_name p)) (filter p_required (p :: ps'))) = true) <->
                  match dget (get_value_from_uri n) o with Some x => adm (given_type t') x = true | None => null_is_alternative t' end /\
                  (props_ok ref (map (fun p => (p_name p, JDict (p_type_dict p))) ps') o = true /\
                   forallb (fun n => match n with JStr n => dmem n o | _ => false end)
                      (map (fun p => JStr (p_name p)) (filter p_required ps')) = true)).
      { unfold props_ok. cbn [map forallb fst snd filter]. rewrite E1.
        destruct (dget (get_value_from_uri n) o) as [x|] eqn:G.
        - rewrite E3, andb_true_iff. destruct (p_required p); cbn [map forallb]; [|tauto].
          rewrite andb_true_iff, E1. unfold dmem. rewrite G. tauto.
        - rewrite NA, <- E2. cbn [andb]. destruct (p_required p); cbn [map forallb]; [|tauto].
          rewrite andb_true_iff, E1. unfold dmem. rewrite G. intuition discriminate. }
      rewrite K, IH. split.
      + intros [X Y]. constructor; auto.
      + intros X. inversion X; subst. auto.
  Qed.
End Ref.
