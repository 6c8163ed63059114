From Verif Require Import PyBase PyBaseProofs UtilsModel UtilsSpec UtilsProofs SchemaModel SchemaSpec.

(** ** URIs *)
Lemma fragment_app b f : has_char "#" b = false -> fragment (b ++ String "#" f) = f.
Proof.
  induction b as [|c b IH]; intros H; [reflexivity|]. cbn [append has_char fragment] in H |- *. apply orb_false_iff in H.
  destruct H as [H1 H2]. rewrite Ascii.eqb_sym, H1. auto.
Qed.
Lemma fragment_none r : has_char "#" r = false -> fragment r = "".
Proof.
  induction r as [|c r IH]; intros H; [reflexivity|]. cbn [append has_char fragment] in H |- *. apply orb_false_iff in H.
  destruct H as [H1 H2]. rewrite Ascii.eqb_sym, H1. auto.
Qed.
Lemma has_char_first c s : has_char c s = true -> exists a b, s = (a ++ String c b)%string /\ has_char c a = false.
Proof.
  induction s as [|d s IH]; cbn; [discriminate|]. destruct (Ascii.eqb_spec c d).
  - subst. intros _. exists "", s. auto.
  - cbn. intros H. destruct (IH H) as (a & b & -> & N). exists (String d a), b. split; auto.
    cbn. apply Ascii.eqb_neq in n. rewrite n. auto.
Qed.
Lemma FragmentOf_iff r f : FragmentOf r f <-> fragment r = f.
Proof.
  split.
  - intros [(b & -> & H)|[H ->]]; [apply fragment_app|apply fragment_none]; auto.
  - intros <-. unfold FragmentOf. destruct (has_char "#" r) eqn:E.
    + left. apply has_char_first in E. destruct E as (a & b & -> & N).
      exists a. rewrite fragment_app by auto. auto.
    + right. rewrite fragment_none; auto.
Qed.

Lemma split_last_app p n : has_char "/" n = false ->
  List.last (split_char "/" (p ++ String "/" n)) "" = n.
Proof.
  intros H. induction p as [|c p IH]; cbn [append split_char].
  - rewrite Ascii.eqb_refl, split_char_none by auto. reflexivity.
  - destruct (Ascii.eqb c "/").
    + destruct (split_char "/" (p ++ String "/" n)) eqn:E; [apply split_char_nonnil in E; destruct E|].
      exact IH.
    + assert (exists h h2 t, split_char "/" (p ++ String "/" n) = h :: h2 :: t) as (h & h2 & t & E).
      { clear. induction p as [|d p IH]; cbn [append split_char].
        - rewrite Ascii.eqb_refl. destruct (split_char "/" n) eqn:E; [apply split_char_nonnil in E; destruct E|]. eauto.
        - destruct IH as (h & h2 & t & ->). destruct (Ascii.eqb d "/"); eauto. }
      rewrite E in *. exact IH.
Qed.
Lemma has_char_last c s : has_char c s = true -> exists a b, s = (a ++ String c b)%string /\ has_char c b = false.
Proof.
  induction s as [|d s IH]; cbn; [discriminate|]. destruct (has_char c s) eqn:E.
  - intros _. destruct (IH eq_refl) as (a & b & -> & N). exists (String d a), b. auto.
  - rewrite orb_false_r. intros H. apply Ascii.eqb_eq in H. subst. exists "", s. auto.
Qed.

Lemma Names_iff r n : Names r n <-> get_value_from_uri r = n.
Proof.
  unfold Names, get_value_from_uri. split.
  - intros (H & f & F & D). apply FragmentOf_iff in F. rewrite F.
    destruct D as [->|(p & ->)]; [rewrite split_char_none by auto; reflexivity|apply split_last_app; auto].
  - intros <-. destruct (has_char "/" (fragment r)) eqn:E.
    + destruct (has_char_last _ _ E) as (a & b & Q & N). rewrite Q, split_last_app by auto. split; auto.
      exists (fragment r). split; [apply FragmentOf_iff; auto|]. rewrite Q. eauto.
    + rewrite split_char_none by auto. cbn. split; auto.
      exists (fragment r). split; [apply FragmentOf_iff|]; auto.
Qed.

(** ** references *)
Lemma recursive_search_In r : forall j, In r (recursive_search "$ref" j) <-> RefIn r j.
Proof.
  induction j as [| | | | |l IH|d IH] using json_ind'; cbn; try (split; [tauto|intros H; inversion H]).
  - transitivity (exists v, In v l /\ RefIn r v).
    2:{ split; [intros (v & I & R); econstructor; eauto|intros H; inversion H; eauto]. }
    induction l as [|x l IHl]; [split; [intros []|intros (v & [] & _)]|].
    apply Forall_cons_iff in IH. destruct IH as [Hx IH]. specialize (IHl IH).
    rewrite in_app_iff, IHl, Hx. split.
    + intros [H|(v & I & H)]; [exists x|exists v]; cbn; auto.
    + intros (v & [->|I] & H); eauto.
  - transitivity (In ("$ref", r) d \/ exists k v, In (k, v) d /\ k <> "$ref" /\ RefIn r v).
    2:{ split; [intros [H|(k & v & I & N & R)]; [apply RI_here|eapply RI_dict]; eauto
               |intros H; inversion H; subst; eauto 8]. }
    induction d as [|[k x] d IHd]; [split; [intros []|intros [[]|(k & v & [] & _)]]|].
    apply Forall_cons_iff in IH. destruct IH as [Hx IH]. specialize (IHd IH). cbn [snd] in Hx.
    destruct (String.eqb_spec k "$ref") as [->|N].
    + cbn [In]. rewrite IHd. split.
      * intros [->|[H|(k & v & I & H)]]; auto. right. exists k, v. cbn; auto.
      * intros [[E|H]|(k & v & [E|I] & Q & R)]; auto.
        -- inversion E; auto.
        -- inversion E; subst. congruence.
        -- right. right. eauto.
    + rewrite in_app_iff, IHd, Hx. split.
      * intros [H|[H|(k' & v & I & H)]]; [right; exists k, x|left|right; exists k', v]; cbn; auto.
      * intros [[E|H]|(k' & v & [E|I] & Q & R)]; auto.
        -- inversion E; congruence.
        -- inversion E; subst. auto.
        -- right. right. eauto.
Qed.

(** ** dependencies *)
Section Deps.
  Variables (schema defs : dict).
  Hypothesis HD : dget "definitions" schema = Some (JDict defs).

  Definition fresh (ex : list string) : nat :=
    List.length (filter (fun k => negb (smem k ex)) (dkeys defs)).

  Lemma smem_incl k a b : incl a b -> smem k a = true -> smem k b = true.
  Proof. intros I H. apply smem_In. apply I. apply smem_In. auto. Qed.

  Lemma fresh_le a b : incl a b -> fresh b <= fresh a.
  Proof.
    intros I. unfold fresh. induction (dkeys defs) as [|k l IH]; cbn [filter List.length]; auto.
    destruct (smem k a) eqn:E.
    - rewrite (smem_incl _ _ _ I E). auto.
    - destruct (smem k b); cbn [negb List.length]; lia.
  Qed.
  Lemma fresh_lt a n : In n (dkeys defs) -> smem n a = false -> fresh (a ++ [n]) < fresh a.
  Proof.
    intros I N. unfold fresh.
    assert (LE : forall l, List.length (filter (fun k => negb (smem k (a ++ [n]))) l)
                           <= List.length (filter (fun k => negb (smem k a)) l)).
    { induction l as [|k l IH]; cbn [filter List.length]; auto.
      destruct (smem k a) eqn:E.
      - rewrite (smem_incl _ a (a ++ [n])); auto. intros x; rewrite in_app_iff; auto.
      - destruct (smem k (a ++ [n])); cbn [negb List.length]; lia. }
    induction (dkeys defs) as [|k l IH]; [destruct I|]. cbn [filter].
    destruct I as [->|I].
    - assert (E : smem n (a ++ [n]) = true) by (apply smem_In; rewrite in_app_iff; cbn; auto).
      rewrite E, N. cbn [negb List.length]. specialize (LE l). lia.
    - specialize (IH I). destruct (smem k a) eqn:E.
      + rewrite (smem_incl _ a (a ++ [n])); auto. intros x; rewrite in_app_iff; auto.
      + destruct (smem k (a ++ [n])); cbn [negb List.length]; lia.
  Qed.

  Lemma Used_trans j n d m : Used defs j n -> dget n defs = Some d -> Used defs d m -> Used defs j m.
  Proof.
    intros U D. induction 1 as [r m R N|m' j' r m U' IH D' R N].
    - eapply U_through; eauto.
    - eapply U_through; [exact IH| | |]; eauto.
  Qed.

  (** what a value names directly is in the list *)
  Definition covered (j : json) (ex : list string) : Prop :=
    forall r n, RefIn (JStr r) j -> Names r n -> In n ex.

  Definition good (j : json) (ex : list string) (r : result (list string)) : Prop :=
    match r with
    | Ok ex' =>
        incl ex ex' /\ covered j ex' /\
        (forall n, In n ex' -> In n ex \/
           (Used defs j n /\ exists d, dget n defs = Some d /\ covered d ex')) /\
        (forall r, RefIn r j -> exists s, r = JStr s) /\
        (forall n d r, In n ex' -> ~ In n ex -> dget n defs = Some d -> RefIn r d -> exists s, r = JStr s)
    | Err KeyError => exists n, Used defs j n /\ dget n defs = None
    | Err AttributeError => ~ refs_are_texts defs j
    | Err _ => False
    end.

  Lemma covered_incl j a b : incl a b -> covered j a -> covered j b.
  Proof. intros I C r n R N. eauto. Qed.

  Lemma deps_spec : forall fuel j ex, fresh ex < fuel ->
    good j ex (get_property_dependencies fuel j schema ex).
  Proof.
    induction fuel as [|fuel IH]; intros j ex M; [lia|]. cbn [get_property_dependencies].
    assert (L : forall rs, (forall r, In r rs -> RefIn r j) ->
      forall ex0, incl ex ex0 ->
      match foldM (fun existing reference_attribute =>
               match reference_attribute with
               | JStr r =>
                   let reference_value := get_value_from_uri r in
                   if smem reference_value existing then Ok existing
                   else
                     let existing := existing ++ [reference_value] in
                     do defs <- get_definitions schema;
                     match dget reference_value defs with
                     | None => Err KeyError
                     | Some d =>
                         do existing <- get_property_dependencies fuel d schema existing;
                         Ok (existing ++ existing)
                     end
               | _ => Err AttributeError
               end) rs ex0 with
      | Ok ex' =>
          incl ex0 ex' /\ (forall r n, In (JStr r) rs -> Names r n -> In n ex') /\
          (forall n, In n ex' -> In n ex0 \/
             (Used defs j n /\ exists d, dget n defs = Some d /\ covered d ex')) /\
          (forall r, In r rs -> exists s, r = JStr s) /\
          (forall n d r, In n ex' -> ~ In n ex0 -> dget n defs = Some d -> RefIn r d -> exists s, r = JStr s)
      | Err KeyError => exists n, Used defs j n /\ dget n defs = None
      | Err AttributeError => ~ refs_are_texts defs j
      | Err _ => False
      end).
    { induction rs as [|r rs IHrs]; intros RS ex0 I0.
      - cbn [foldM]. split; [apply incl_refl|]. split; [intros ? ? []|]. split; auto.
        split; [intros ? []|]. intros. contradiction.
      - cbn [foldM]. destruct r as [| | | |r| |];
          try (cbn [bind]; intros T; destruct (T _ j (or_introl eq_refl) (RS _ (or_introl eq_refl))) as [? Es]; discriminate Es).
        cbv zeta.
        assert (Nr : Names r (get_value_from_uri r)) by (apply Names_iff; auto).
        assert (Rr : RefIn (JStr r) j) by (apply RS; left; auto).
        set (n := get_value_from_uri r) in *.
        assert (RS' : forall r, In r rs -> RefIn r j) by (intros; apply RS; right; auto).
        specialize (IHrs RS'). cbv zeta in IHrs.
        destruct (smem n ex0) eqn:E.
        + cbn [bind]. specialize (IHrs ex0 I0).
          match goal with |- match ?x with _ => _ end => destruct x as [ex'|e] end; auto.
          destruct IHrs as (A & B & C & D & F). split; auto. split.
          { intros r' n' [X|X] N'; [|eauto]. injection X as <-.
            apply Names_iff in N'. fold n in N'. subst n'. apply A. apply smem_In; auto. }
          split; auto. split; auto. intros r' [<-|X]; eauto.
        + assert (GD : get_definitions schema = Ok defs) by (unfold get_definitions; rewrite HD; auto).
          rewrite GD in *. cbn [bind] in *.
          destruct (dget n defs) as [d|] eqn:G.
          2:{ cbn [bind]. exists n. split; auto. eapply U_direct; eauto. }
          assert (Kn : In n (dkeys defs)).
          { unfold dkeys. apply in_map_iff. exists (n, d). split; auto. apply dget_In; auto. }
          pose proof (fresh_lt ex0 n Kn E) as LT. pose proof (fresh_le ex ex0 I0) as LE.
          specialize (IH d (ex0 ++ [n]) ltac:(lia)).
          assert (Un : Used defs j n) by (eapply U_direct; eauto).
          destruct (get_property_dependencies fuel d schema (ex0 ++ [n])) as [ex1|e] eqn:Q; cbn [bind].
          * cbn in IH. destruct IH as (A1 & B1 & C1 & D1 & F1).
            assert (I01 : incl ex0 (ex1 ++ ex1)).
            { intros x Hx. apply in_app_iff. left. apply A1. apply in_app_iff. auto. }
            specialize (IHrs (ex1 ++ ex1) (incl_tran I0 I01)).
            match goal with |- match ?x with _ => _ end => destruct x as [ex'|e'] end; auto.
            destruct IHrs as (A & B & C & D & F).
            assert (I1 : incl ex1 ex') by (intros x Hx; apply A; apply in_app_iff; auto).
            assert (SM : forall m, In m ex1 -> ~ In m ex0 ->
              Used defs j m /\ exists dm, dget m defs = Some dm /\ covered dm ex').
            { intros m Hm Nm. destruct (String.eqb_spec m n) as [->|NE].
              - split; auto. exists d. split; auto. eapply covered_incl; eauto.
              - destruct (C1 m Hm) as [X|(U & dm & Gm & Cm)].
                + apply in_app_iff in X. destruct X as [X|[X|[]]]; [contradiction|congruence].
                + split; [eapply Used_trans; eauto|]. exists dm. split; auto. eapply covered_incl; eauto. }
            split; [eapply incl_tran; eauto|]. split.
            { intros r' n' [X|X] N'; [|eauto]. injection X as <-.
              apply Names_iff in N'. fold n in N'. subst n'. apply I1, A1. apply in_app_iff. cbn. auto. }
            split.
            { intros m Hm. destruct (smem m ex0) eqn:Em; [left; apply smem_In; auto|].
              assert (Nm : ~ In m ex0) by (intros X; apply smem_In in X; congruence).
              right. destruct (C m Hm) as [X|X]; auto.
              apply in_app_iff in X. assert (In m ex1) by tauto. auto. }
            split.
            { intros r' [<-|X]; eauto. }
            intros m dm r' Hm Nm Gm Rm.
            destruct (smem m (ex1 ++ ex1)) eqn:Em.
            -- assert (X : In m ex1). { apply smem_In in Em. apply in_app_iff in Em. tauto. }
               destruct (String.eqb_spec m n) as [->|NE].
               ++ rewrite G in Gm. injection Gm as <-. auto.
               ++ eapply F1; eauto. rewrite in_app_iff. cbn. intros [Y|[Y|[]]]; [contradiction|congruence].
            -- eapply F; eauto. intros X. apply smem_In in X. congruence.
          * cbn in IH. destruct e; auto; try (destruct IH as (m & U & Gm); exists m; split; auto; eapply Used_trans; eauto).
            intros T. apply IH. intros r' j' [->|(m & U & Gm)] R'.
            -- apply (T r' d); auto. right. exists n. auto.
            -- apply (T r' j'); auto. right. exists m. split; [eapply Used_trans; eauto|exact Gm]. }
    specialize (L (recursive_search "$ref" j)).
    lapply L; [clear L; intros L|intros r; apply recursive_search_In].
    specialize (L ex (incl_refl _)). unfold good.
    match goal with |- match ?x with _ => _ end => destruct x as [ex'|e] end; auto.
    destruct L as (A & B & C & D & F). split; auto. split.
    { intros r n R N. eapply B; eauto. apply recursive_search_In; auto. }
    split; auto. split; auto. intros r R. apply D. apply recursive_search_In; auto.
  Qed.

  Lemma deps_top j : match get_property_dependencies (dependencies_fuel schema) j schema [] with
    | Ok ex => (forall n, In n ex <-> Used defs j n) /\ (forall n, Used defs j n -> dget n defs <> None)
               /\ refs_are_texts defs j
    | Err KeyError => exists n, Used defs j n /\ dget n defs = None
    | Err AttributeError => ~ refs_are_texts defs j
    | Err _ => False
    end.
  Proof.
    assert (M : fresh [] < dependencies_fuel schema).
    { unfold dependencies_fuel. rewrite HD. unfold fresh.
      assert (X : forall l : list string, List.length (filter (fun k => negb (smem k [])) l) <= List.length l).
      { induction l as [|x l IHl]; cbn; [auto|]. cbn in IHl. lia. }
      specialize (X (dkeys defs)). unfold dkeys in *. rewrite map_length in X. lia. }
    pose proof (deps_spec _ j [] M) as G.
    destruct (get_property_dependencies (dependencies_fuel schema) j schema []) as [ex|e]; cbn in G; [|destruct e; auto].
    destruct G as (_ & B & C & D & F).
    assert (S : forall n, Used defs j n -> In n ex).
    { induction 1 as [r n R N|m dm r n U IH Gm R N]; [eauto|].
      destruct (C m IH) as [[]|(_ & d & Gd & Cd)]. rewrite Gm in Gd. injection Gd as <-. eauto. }
    split.
    - intros n. split; auto. intros I. destruct (C n I) as [[]|(U & _)]; auto.
    - split.
      + intros n U. destruct (C n (S n U)) as [[]|(_ & d & Gd & _)]. congruence.
      + intros r j' [->|(m & U & Gm)] R; [auto|]. eapply (F m); eauto.
  Qed.
End Deps.

Lemma filter_ext_In' {A} (f g : A -> bool) l : (forall x, In x l -> f x = g x) -> filter f l = filter g l.
Proof. apply filter_ext_in. Qed.

Definition properties_of (schema : dict) : json :=
  match dget "properties" schema with Some p => p | None => JDict [] end.

Lemma slim_ok schema defs s' :
  dget "definitions" schema = Some (JDict defs) -> slim_definitions schema = Ok s' ->
  exists keep, (forall n, keep n = true <-> Used defs (properties_of schema) n) /\
    s' = dset "definitions" (JDict (filter (fun kv => keep (fst kv)) defs)) schema /\
    (forall n, Used defs (properties_of schema) n -> dmem n (filter (fun kv => keep (fst kv)) defs) = true).
Proof.
  intros HD H. unfold slim_definitions in H. pose proof (deps_top schema defs HD (properties_of schema)) as T.
  fold (properties_of schema) in H.
  destruct (get_property_dependencies _ (properties_of schema) schema []) as [ex|e]; cbn [bind] in H; [|discriminate].
  unfold get_definitions in H. rewrite HD in H. cbn [bind] in H. injection H as <-.
  destruct T as (A & B & _). exists (fun n => smem n ex). split; [intros n; rewrite smem_In; apply A|].
  split; auto. intros n U. specialize (B n U). apply A in U. apply smem_In in U.
  unfold dmem. clear - B U. induction defs as [|[k v] l IH]; cbn in *; [congruence|].
  destruct (String.eqb n k) eqn:E.
  - apply String.eqb_eq in E. subst k. rewrite U. cbn. rewrite String.eqb_refl. reflexivity.
  - destruct (smem k ex); cbn; [rewrite E|]; auto.
Qed.

Lemma slim_succeeds schema defs :
  dget "definitions" schema = Some (JDict defs) ->
  (exists s', slim_definitions schema = Ok s') <->
  (refs_are_texts defs (properties_of schema) /\
   forall n, Used defs (properties_of schema) n -> dget n defs <> None).
Proof.
  intros HD. unfold slim_definitions. pose proof (deps_top schema defs HD (properties_of schema)) as T.
  fold (properties_of schema).
  destruct (get_property_dependencies _ (properties_of schema) schema []) as [ex|e]; cbn [bind].
  - unfold get_definitions. rewrite HD. cbn [bind]. destruct T as (_ & A & B). split; eauto.
  - split; [intros [s H]; discriminate|]. intros [A B]. destruct e; try contradiction.
    destruct T as (n & U & G). exfalso. eapply B; eauto.
Qed.

Lemma slim_fails schema defs e :
  dget "definitions" schema = Some (JDict defs) -> slim_definitions schema = Err e ->
  (e = KeyError /\ exists n, Used defs (properties_of schema) n /\ dget n defs = None) \/
  (e = AttributeError /\ ~ refs_are_texts defs (properties_of schema)).
Proof.
  intros HD H. unfold slim_definitions in H. pose proof (deps_top schema defs HD (properties_of schema)) as T.
  fold (properties_of schema) in H.
  destruct (get_property_dependencies _ (properties_of schema) schema []) as [ex|e']; cbn [bind] in H.
  - unfold get_definitions in H. rewrite HD in H. discriminate.
  - injection H as ->. destruct e; try contradiction; auto.
Qed.

(** ** C19 *)
Lemma is_null_name_eq t : is_null_name t = true <-> t = XStr "null".
Proof.
  destruct t; cbn; split; intros H; try discriminate.
  - apply String.eqb_eq in H. congruence.
  - injection H as ->. reflexivity.
Qed.
Lemma existsb_null l : existsb is_null_name l = true <-> In (XStr "null") l.
Proof.
  rewrite existsb_exists. split.
  - intros (x & I & E). apply is_null_name_eq in E. subst. auto.
  - intros I. exists (XStr "null"). auto.
Qed.

Definition required_of (i : input_parameter) : bool :=
  match in_type i with
  | XList l => if existsb is_null_name l then false else get_is_required_from_input_parameter i
  | _ => get_is_required_from_input_parameter i
  end.

Lemma make_property_shape name t d req p : make_property name t d req = Ok p ->
  exists td, p = {| p_name := name; p_type_dict := dset "description" d td;
                    p_required := match t with XList l => if existsb is_null_name l then false else req | _ => req end |} /\
    generate_type_dict_from_type
      (match t with XList l => if existsb is_null_name l then squeeze l else t | _ => t end) = Ok td.
Proof.
  unfold make_property. intros H. destruct t; try (destruct (existsb is_null_name l) eqn:E);
  match type of H with (do d <- ?g; _) = _ => destruct g as [td|] eqn:G end;
  cbn [bind] in H; try discriminate; injection H as <-; exists td; auto.
Qed.

Lemma required_iff i : proper_record (in_type i) -> in_type i <> XStr "null" ->
  (required_of i = true <-> ~ omittable i).
Proof.
  intros PR NN. unfold required_of, get_is_required_from_input_parameter, omittable, nullable.
  assert (D : forall b, (b = true <-> ~ (in_default i <> JNull)) ->
              (match in_default i with JNull => true | _ => false end) = b).
  { intros b Hb. destruct (in_default i); destruct b; auto;
    try (exfalso; apply Hb; [reflexivity|discriminate]).
    all: destruct Hb as [_ Hb]; symmetry; apply Hb; intros X; apply X; reflexivity. }
  assert (D0 : (match in_default i with JNull => true | _ => false end) = true <-> ~ (in_default i <> JNull)).
  { destruct (in_default i); split; intros; try discriminate; auto; exfalso; apply H; discriminate. }
  destruct (in_type i) as [s|l| | | | | | | |ty f] eqn:T;
    try (rewrite D0; split;
         [intros H [[[? X]|[X|(? & X & _)]]|X]; try discriminate; auto|intros H X; apply H; auto]; fail).
  - destruct (endswith "?" s) eqn:E.
    + split; [discriminate|]. intros H. exfalso. apply H. left. left.
      apply endswith_spec in E. destruct E as [r ->]. eauto.
    + rewrite D0. split.
      * intros H [[[r X]|[X|(? & X & _)]]|X]; try discriminate; auto.
        -- injection X as ->. rewrite endswith_app in E. discriminate.
      * intros H X. apply H. auto.
  - destruct (existsb is_null_name l) eqn:E.
    + split; [discriminate|]. intros H. exfalso. apply H. left. right. right.
      exists l. split; auto. apply existsb_null; auto.
    + transitivity ((match in_default i with JNull => true | _ => false end) = true);
        [destruct (in_default i); tauto|].
      rewrite D0. split.
      * intros H [[[r X]|[X|(? & X & I)]]|X]; try discriminate; auto.
        injection X as <-. apply existsb_null in I. congruence.
      * intros H X. apply H. auto.
  - rewrite (PR ty f eq_refl). cbn.
    transitivity ((match in_default i with JNull => true | _ => false end) = true);
        [destruct (in_default i); tauto|].
    rewrite D0. split; [intros H [[[? X]|[X|(? & X & _)]]|X]; try discriminate; auto|intros H X; apply H; auto].
Qed.

Lemma dupdate_nil_nodup {V} (l : list (string * V)) : NoDup (map fst l) -> dupdate [] l = l.
Proof.
  unfold dupdate. intros N.
  assert (G : forall (l acc : list (string * V)), NoDup (map fst (acc ++ l)) ->
     fold_left (fun d kv => dset (fst kv) (snd kv) d) l acc = acc ++ l).
  { clear. induction l as [|[k v] l IH]; intros acc N; cbn; [rewrite app_nil_r; auto|].
    rewrite dset_snoc.
    - rewrite IH; [|rewrite <- app_assoc; auto]. rewrite <- app_assoc. reflexivity.
    - apply dget_None. unfold dkeys. rewrite map_app in N. cbn in N. apply NoDup_remove_2 in N.
      intros I. apply N. apply in_app_iff. auto. }
  apply (G l []). exact N.
Qed.

Lemma admits_null_description d td : admits_null (fun _ => false) (JDict (dset "description" d td))
  = admits_null (fun _ => false) (JDict td).
Proof.
  cbn [admits_null]. rewrite dget_dset_other by discriminate.
  destruct (dget "$ref" td) as [[]|]; auto;
  (induction td as [|[k v] tl IH]; [reflexivity|];
    cbn [dset]; destruct (String.eqb_spec "description" k) as [<-|N]; [reflexivity|];
    destruct (String.eqb k "oneOf"); [reflexivity|]; destruct (String.eqb k "type"); [reflexivity|exact IH]).
Qed.

Definition null_count (l : list json) : nat :=
  (fix count (l : list json) : nat :=
     match l with
     | [] => 0
     | s :: l' => (if admits_null (fun _ => false) s then 1 else 0) + count l'
     end) l.
Lemma admits_null_oneOf l : admits_null (fun _ => false) (JDict [("oneOf", JList l)]) = Nat.eqb 1 (null_count l).
Proof. reflexivity. Qed.
Lemma null_count_cons s l : null_count (s :: l) = (if admits_null (fun _ => false) s then 1 else 0) + null_count l.
Proof. reflexivity. Qed.

Lemma type_dict_null t : forall td, generate_type_dict_from_type t = Ok td -> null_free t ->
  admits_null (fun _ => false) (JDict td) = false.
Proof.
  induction t as [s|l F|syms|t IH|u|u|t IH|syms|t IH|u f] using texp_ind';
    intros td H N; cbn [generate_type_dict_from_type] in H; try discriminate.
  - cbn [null_free] in N.
    destruct (dget s PRIMITIVE_TYPES_MAPPING) as [p|] eqn:G.
    + injection H as <-. cbn. destruct (String.eqb_spec p "null") as [->|]; auto. exfalso. apply N.
      apply dget_In in G. cbn in G. repeat (destruct G as [G|G]; [congruence|]). destruct G.
    + destruct (String.eqb s "stdin"); [injection H as <-; reflexivity|].
      destruct (smem s _); [injection H as <-; reflexivity|].
      destruct (is_uri s); [injection H as <-; reflexivity|discriminate].
  - match type of H with (do l' <- ?g; _) = _ => destruct g as [l'|e] eqn:G end; [|discriminate].
    cbn [bind] in H. injection H as <-. rewrite admits_null_oneOf.
    enough (Z : null_count l' = 0) by (rewrite Z; reflexivity).
    revert l' G. induction F as [|t l Ft Fl IH]; intros l' G.
    + injection G as <-. reflexivity.
    + destruct (generate_type_dict_from_type t) as [d|] eqn:Gt; [|discriminate]. cbn [bind] in G.
      match type of G with (do l' <- ?g; _) = _ => destruct g as [l''|e] eqn:G'; [|discriminate] end.
      cbn [bind] in G. injection G as <-. cbn [null_free] in N. destruct N as [N1 N2].
      rewrite null_count_cons, (Ft d eq_refl N1). apply IH; auto.
  - injection H as <-. reflexivity.
  - injection H as <-. reflexivity.
  - destruct (generate_type_dict_from_type t); [|discriminate]. injection H as <-. reflexivity.
  - destruct f as [f|]; [|injection H as <-; reflexivity].
    match type of H with (do l' <- ?g; _) = _ => destruct g as [l'|e] eqn:G end; [|discriminate].
    injection H as <-. reflexivity.
Qed.

Lemma null_free_list l : (forall t, In t l -> null_free t) -> null_free (XList l).
Proof. intros H. cbn. induction l as [|t l IH]; [exact I|]. split; [apply H; cbn; auto|]. apply IH. intros; apply H; cbn; auto. Qed.

Lemma squeeze_null_free l : rest_null_free (XList l) -> null_free (squeeze l).
Proof.
  cbn [rest_null_free]. intros F. unfold squeeze.
  assert (A : forall t, In t (filter (fun x => negb (is_null_name x)) l) -> null_free t).
  { intros t I. apply filter_In in I. destruct I as [I E]. rewrite Forall_forall in F.
    destruct (F t I) as [->|]; auto. discriminate. }
  destruct (filter _ l) as [|t [|t' l']]; [exact I| |apply null_free_list; auto].
  apply A. cbn. auto.
Qed.

Definition in_name (i : input_parameter) : string := get_value_from_uri (in_id i).

Lemma input_property i p : generate_json_schema_property_from_input_parameter i = Ok p ->
  p_name p = in_name i /\ p_required p = required_of i /\
  (rest_null_free (in_type i) -> admits_null (fun _ => false) (JDict (p_type_dict p)) = false).
Proof.
  unfold generate_json_schema_property_from_input_parameter. intros H.
  apply make_property_shape in H. destruct H as (td & -> & G). cbn [p_name p_required p_type_dict].
  split; [reflexivity|]. split; [reflexivity|]. intros N. rewrite admits_null_description.
  eapply type_dict_null; [exact G|].
  destruct (in_type i) as [s|l| | | | | | | |] eqn:T; try exact N; try exact I.
  destruct (existsb is_null_name l) eqn:E; [apply squeeze_null_free; auto|].
  cbn [rest_null_free] in N. rewrite Forall_forall in N. apply null_free_list. intros t It.
  destruct (N t It) as [->|]; auto. apply existsb_null in It. congruence.
Qed.

Lemma slim_keeps schema s' k : k <> "definitions" -> slim_definitions schema = Ok s' -> dget k s' = dget k schema.
Proof.
  intros N H. unfold slim_definitions in H.
  destruct (get_property_dependencies _ _ _ _); [|discriminate]. cbn [bind] in H.
  destruct (get_definitions schema); [|discriminate]. cbn [bind] in H. injection H as <-.
  apply dget_dset_other; auto.
Qed.

Definition written (p : property) : json :=
  if p_required p then JDict (p_type_dict p)
  else JDict [("oneOf", JList [JDict [("type", JStr "null")]; JDict (p_type_dict p)])].

Lemma jsonschema_shape template indexed sd inputs schema :
  cwl_to_jsonschema template indexed sd inputs = Ok schema ->
  exists ps, mapM generate_json_schema_property_from_input_parameter inputs = Ok ps /\
    dget "properties" schema = Some (JDict (dupdate [] (map (fun p => (p_name p, written p)) ps))) /\
    dget "required" schema = Some (JList (map (fun p => JStr (p_name p)) (filter p_required ps))) /\
    dget "type" schema = Some (JStr "object").
Proof.
  unfold cwl_to_jsonschema. intros H.
  destruct (mapM generate_definition_from_schema indexed) as [ds1|]; [|discriminate]. cbn [bind] in H.
  destruct (mapM generate_definition_from_schema _) as [ds2|]; [|discriminate]. cbn [bind] in H.
  destruct (mapM generate_json_schema_property_from_input_parameter inputs) as [ps|]; [|discriminate].
  cbn [bind] in H. cbv zeta in H.
  match type of H with (do defs <- get_definitions ?s; _) = _ => set (sch := s) in * end.
  destruct (get_definitions sch) as [defs|]; [|discriminate]. cbn [bind] in H.
  exists ps. split; auto.
  assert (K : forall k, k <> "definitions" -> dget k schema = dget k sch).
  { intros k N. rewrite (slim_keeps _ _ k N H). apply dget_dset_other; auto. }
  rewrite !K by discriminate. subst sch.
  split; [|split]; unfold dupdate at 1; cbn [fold_left fst snd].
  - rewrite dget_dset_other by discriminate. apply dget_dset_same.
  - apply dget_dset_same.
  - rewrite !dget_dset_other by discriminate. apply dget_dset_same.
Qed.

Lemma mapM_Forall2 {A B} (f : A -> result B) xs ys :
  mapM f xs = Ok ys -> Forall2 (fun x y => f x = Ok y) xs ys.
Proof.
  revert ys. induction xs as [|x xs IH]; intros ys H; cbn in H.
  - injection H as <-. constructor.
  - destruct (f x) as [y|] eqn:E; [|discriminate]. cbn in H.
    destruct (mapM f xs) as [ys'|]; [|discriminate]. cbn in H. injection H as <-. constructor; auto.
Qed.

Lemma jsonschema_inputs template indexed sd inputs schema :
  cwl_to_jsonschema template indexed sd inputs = Ok schema ->
  NoDup (map in_name inputs) ->
  exists props, dget "properties" schema = Some (JDict props) /\
    dkeys props = map in_name inputs /\
    dget "required" schema = Some (JList (map (fun i => JStr (in_name i)) (filter required_of inputs))) /\
    forall i, In i inputs -> exists p, dget (in_name i) props = Some p /\
      (rest_null_free (in_type i) -> admits_null (fun _ => false) p = negb (required_of i)).
Proof.
  intros H N. apply jsonschema_shape in H. destruct H as (ps & M & P & R & _).
  apply mapM_Forall2 in M.
  assert (NM : map p_name ps = map in_name inputs).
  { clear - M. induction M as [|i p is ps Hp M IH]; [reflexivity|]. cbn. f_equal; auto.
    apply (input_property _ _ Hp). }
  rewrite dupdate_nil_nodup in P by (rewrite map_map; cbn; change (NoDup (map p_name ps)); rewrite NM; auto).
  eexists. split; [exact P|]. split; [|split].
  - unfold dkeys. rewrite map_map. exact NM.
  - rewrite R. do 2 f_equal. clear - M. induction M as [|i p is ps Hp M IH]; [reflexivity|].
    destruct (input_property _ _ Hp) as (A & B & _). cbn. rewrite B. destruct (required_of i); cbn; [|auto].
    rewrite A. f_equal. auto.
  - intros i I. assert (X : exists p, In p ps /\ generate_json_schema_property_from_input_parameter i = Ok p).
    { clear - M I. induction M as [|i' p is ps Hp M IH]; [destruct I|]. destruct I as [->|I].
      - exists p. cbn. auto.
      - destruct (IH I) as (p' & ? & ?). exists p'. cbn. auto. }
    destruct X as (p & Ip & G). exists (written p). destruct (input_property _ _ G) as (A & B & C). split.
    + apply In_dget.
      * unfold wf_dict, dkeys. rewrite map_map. cbn. change (NoDup (map p_name ps)). rewrite NM; auto.
      * apply in_map_iff. exists p. rewrite A. auto.
    + intros RN. specialize (C RN). unfold written. rewrite B.
      destruct (required_of i); cbn [negb]; [exact C|].
      rewrite admits_null_oneOf, !null_count_cons, C. reflexivity.
Qed.
