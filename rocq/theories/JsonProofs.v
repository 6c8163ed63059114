From Verif Require Import PyBase PyBaseProofs UtilsModel UtilsProofs SchemaModel SchemaSpec SchemaProofs JsonSpec.

Section TexpInd2.
  Variable P : texp -> Prop.
  Hypothesis H1 : forall s, P (XStr s).
  Hypothesis H2 : forall l, Forall P l -> P (XList l).
  Hypothesis H3 : forall s, P (XEnum s).
  Hypothesis H4 : forall t, P t -> P (XArray t).
  Hypothesis H5 : forall u, P (XImport u).
  Hypothesis H6 : forall u, P (XRecord u).
  Hypothesis H7 : forall t, P t -> P (XField t).
  Hypothesis H8 : forall s, P (XEnumObj s).
  Hypothesis H9 : forall t, P t -> P (XArrayObj t).
  Hypothesis H10 : forall u, P (XRecordObj u None).
  Hypothesis H11 : forall u f, Forall (fun kv => P (snd kv)) f -> P (XRecordObj u (Some f)).
  Fixpoint texp_ind2 (t : texp) : P t :=
    match t with
    | XStr s => H1 s
    | XList l => H2 l ((fix go l : Forall P l :=
        match l with [] => Forall_nil _ | x :: l' => Forall_cons x (texp_ind2 x) (go l') end) l)
    | XEnum s => H3 s
    | XArray t => H4 t (texp_ind2 t)
    | XImport u => H5 u
    | XRecord u => H6 u
    | XField t => H7 t (texp_ind2 t)
    | XEnumObj s => H8 s
    | XArrayObj t => H9 t (texp_ind2 t)
    | XRecordObj u None => H10 u
    | XRecordObj u (Some f) => H11 u f ((fix go f : Forall (fun kv => P (snd kv)) f :=
        match f with [] => Forall_nil _ | x :: l' => Forall_cons x (texp_ind2 (snd x)) (go l') end) f)
    end.
End TexpInd2.

Section Ref.
  Variable ref : string -> json -> bool.
  Notation acc := (accepts ref).

  Definition count_accepted (l : list json) (v : json) : nat :=
    (fix count (l : list json) : nat :=
       match l with [] => 0 | s :: l' => (if acc s v then 1 else 0) + count l' end) l.
  Definition props_ok (ps o : dict) : bool :=
    forallb (fun p => match dget (fst p) o with Some x => acc (snd p) x | None => true end) ps.
  Definition keyword (k : string) (a v : json) : bool :=
    if String.eqb k "type" then match a with JStr t => of_type t v | _ => false end
    else if String.eqb k "enum" then match a with JList l => existsb (json_eqb v) l | _ => false end
    else if String.eqb k "items" then match v with JList l => forallb (fun x => acc a x) l | _ => true end
    else if String.eqb k "properties" then
      match a, v with JDict ps, JDict o => props_ok ps o | JDict _, _ => true | _, _ => false end
    else if String.eqb k "required" then
      match a, v with
      | JList names, JDict o => forallb (fun n => match n with JStr n => dmem n o | _ => false end) names
      | JList _, _ => true
      | _, _ => false
      end
    else if String.eqb k "oneOf" then
      match a with JList l => Nat.eqb 1 (count_accepted l v) | _ => false end
    else true.

  Lemma accepts_dict d v : acc (JDict d) v =
    match dget "$ref" d with
    | Some (JStr r) => ref r v
    | _ => forallb (fun ka => keyword (fst ka) (snd ka) v) d
    end.
  Proof.
    assert (P : forall ps o, (fix props (ps : dict) : bool :=
        match ps with
        | [] => true
        | (n, s) :: ps' => match dget n o with Some x => acc s x | None => true end && props ps'
        end) ps = props_ok ps o).
    { induction ps as [|[n s] ps IH]; intros o; cbn; [reflexivity|]. rewrite IH. reflexivity. }
    cbn [accepts].
    match goal with |- match _ with Some _ => _ | None => ?a d end = _ => set (all := a) end.
    assert (E : forall d, all d = forallb (fun ka => keyword (fst ka) (snd ka) v) d).
    { induction d0 as [|[k a] d0 IH]; [reflexivity|].
      cbn [forallb fst snd]. rewrite <- IH. cbn [all]. fold all. f_equal.
      unfold keyword. repeat (match goal with |- (if ?b then _ else _) = _ => destruct b; [try reflexivity|] end); try reflexivity.
      destruct a, v; try reflexivity; apply P. }
    rewrite E. reflexivity.
  Qed.

  Lemma accepts_description d td v : acc (JDict (dset "description" d td)) v = acc (JDict td) v.
  Proof.
    rewrite !accepts_dict, dget_dset_other by discriminate.
    assert (E : forallb (fun ka => keyword (fst ka) (snd ka) v) (dset "description" d td)
              = forallb (fun ka => keyword (fst ka) (snd ka) v) td).
    { induction td as [|[k a] td IH]; [reflexivity|]. cbn [dset].
      destruct (String.eqb_spec "description" k) as [<-|N]; cbn [forallb fst snd]; [reflexivity|].
      rewrite IH. reflexivity. }
    rewrite E. reflexivity.
  Qed.

  Lemma accepts_oneOf l v : acc (JDict [("oneOf", JList l)]) v = Nat.eqb 1 (count_accepted l v).
  Proof. rewrite accepts_dict. cbn. apply andb_true_r. Qed.
  Lemma accepts_type t v : acc (JDict [("type", JStr t)]) v = of_type t v.
  Proof. rewrite accepts_dict. cbn. apply andb_true_r. Qed.

  Variable named : string -> json -> bool.

  Definition count_admitted (l : list texp) (v : json) : nat :=
    (fix count (l : list texp) : nat :=
       match l with [] => 0 | t :: l' => (if admitted named t v then 1 else 0) + count l' end) l.
  Lemma admitted_union l v : admitted named (XList l) v = Nat.eqb 1 (count_admitted l v).
  Proof. reflexivity. Qed.
  Definition fields_ok (fields : list (string * texp)) (o : dict) : bool :=
    forallb (fun f => match dget (get_value_from_uri (fst f)) o with
                      | Some x => admitted named (snd f) x | None => true end) fields.
  Lemma admitted_record ty fields v : admitted named (XRecordObj ty (Some fields)) v =
    match v with JDict o => fields_ok fields o | _ => false end.
  Proof.
    destruct v; try reflexivity. cbn [admitted]. unfold fields_ok.
    induction fields as [|[n t] fields IH]; [reflexivity|]. cbn. rewrite IH. reflexivity.
  Qed.

  Lemma agree_array t : definitions_agree ref named (XArrayObj t) -> definitions_agree ref named t.
  Proof. intros [A B]. split; auto. intros u n v M. apply B. constructor; auto. Qed.
  Lemma agree_union l : definitions_agree ref named (XList l) -> Forall (definitions_agree ref named) l.
  Proof. intros [A B]. apply Forall_forall. intros t I. split; auto. intros u n v M. apply B. econstructor; eauto. Qed.
  Lemma agree_record ty l : definitions_agree ref named (XRecordObj ty (Some l)) ->
    Forall (fun f => definitions_agree ref named (snd f)) l.
  Proof. intros [A B]. apply Forall_forall. intros t I. split; auto. intros u n v M. apply B. econstructor; eauto. Qed.

  Lemma type_dict_reading t : forall td, generate_type_dict_from_type t = Ok td ->
    FieldsDistinct t -> definitions_agree ref named t ->
    forall v, acc (JDict td) v = admitted named t v.
  Proof.
    induction t as [s|l F|syms|t IH|u|u|t IH|syms|t IH|u|u f F] using texp_ind2;
      intros td H FD DA v; cbn [generate_type_dict_from_type] in H; try discriminate.
    - (* text *)
      cbn [admitted]. unfold admitted_name.
      assert (PR : forall p, dget s PRIMITIVE_TYPES_MAPPING = Some p -> td = [("type", JStr p)] ->
                acc (JDict td) v = admitted_name named s v).
      { intros p G ->. rewrite accepts_type. apply dget_In in G. cbn in G.
        repeat (destruct G as [G|G]; [injection G as <- <-; destruct v; reflexivity|]). destruct G. }
      destruct (dget s PRIMITIVE_TYPES_MAPPING) as [p|] eqn:G.
      + injection H as <-. apply (PR p); auto.
      + clear PR.
        assert (NP : forall x, In x (dkeys PRIMITIVE_TYPES_MAPPING) -> String.eqb s x = false).
        { intros x I. apply String.eqb_neq. intros ->. apply dget_None in G. auto. }
        rewrite (NP "null"), (NP "boolean"), (NP "string"), (NP "int") by (cbn; tauto).
        replace (smem s ["long"; "float"; "double"]) with false
          by (cbn [smem existsb]; rewrite (NP "long"), (NP "float"), (NP "double") by (cbn; tauto); reflexivity).
        destruct (String.eqb s "stdin") eqn:ES.
        { injection H as <-. rewrite accepts_dict. cbn [dget String.eqb]. cbn. apply DA. cbn. auto. }
        destruct (smem s ["File"; "Directory"; "Any"]) eqn:EM.
        { injection H as <-. rewrite accepts_dict. cbn [dget]. rewrite String.eqb_refl. apply DA. apply smem_In. auto. }
        destruct (is_uri s) eqn:EU; [|discriminate]. injection H as <-.
        rewrite accepts_dict. cbn [dget]. rewrite String.eqb_refl. apply DA; [|apply Names_iff; auto].
        constructor. intros I.
        assert (X : In s (dkeys PRIMITIVE_TYPES_MAPPING) \/ s = "stdin" \/ In s ["File"; "Directory"; "Any"])
          by (cbn in I |- *; intuition).
        destruct X as [X|[X|X]].
        * specialize (NP s X). rewrite String.eqb_refl in NP. discriminate.
        * subst s. discriminate.
        * apply smem_In in X. congruence.
    - (* union *)
      match type of H with (do l' <- ?g; _) = _ => destruct g as [l'|e] eqn:G end; [|discriminate].
      cbn [bind] in H. injection H as <-. rewrite accepts_oneOf, admitted_union. f_equal.
      apply agree_union in DA. inversion FD as [| | | | | |? FD']; subst. clear FD.
      revert l' G. induction F as [|t l Ft Fl IH]; intros l' G.
      + injection G as <-. reflexivity.
      + destruct (generate_type_dict_from_type t) as [d|] eqn:Gt; [|discriminate]. cbn [bind] in G.
        match type of G with (do l' <- ?g; _) = _ => destruct g as [l''|e] eqn:G'; [|discriminate] end.
        cbn [bind] in G. injection G as <-. inversion FD'; inversion DA; subst.
        change (count_accepted (JDict d :: l'') v) with ((if acc (JDict d) v then 1 else 0) + count_accepted l'' v).
        change (count_admitted (t :: l) v) with ((if admitted named t v then 1 else 0) + count_admitted l v).
        rewrite (Ft d eq_refl) by auto. rewrite (IH H6 H2 l'' eq_refl). reflexivity.
    - (* import *) injection H as <-. rewrite accepts_dict. cbn [dget]. rewrite String.eqb_refl.
      apply DA; [constructor|apply Names_iff; auto].
    - (* enum *)
      injection H as <-. rewrite accepts_dict. cbn [dget]. rewrite !(proj2 (String.eqb_neq _ _)) by discriminate.
      cbn [forallb fst snd]. unfold keyword. cbn [String.eqb Ascii.eqb Bool.eqb]. cbn [admitted]. rewrite andb_true_r.
      destruct v; cbn [of_type]; try reflexivity. cbn.
      clear. induction syms as [|y syms IH]; cbn; auto. rewrite IH; auto.
    - (* array *)
      destruct (generate_type_dict_from_type t) as [d|] eqn:G; [|discriminate]. injection H as <-.
      inversion FD; subst. rewrite accepts_dict. cbn [dget]. rewrite !(proj2 (String.eqb_neq _ _)) by discriminate.
      cbn [forallb fst snd]. unfold keyword. rewrite andb_true_r. cbn [admitted].
      destruct v; try reflexivity. cbn [of_type String.eqb Ascii.eqb Bool.eqb andb orb]. clear - IH H0 DA. apply agree_array in DA.
      induction l as [|x l IHl]; [reflexivity|]. cbn [forallb]. rewrite IHl, (IH d eq_refl); auto.
    - (* any record *) injection H as <-. rewrite accepts_type. destruct v; reflexivity.
    - (* record *)
      match type of H with (do l' <- ?g; _) = _ => destruct g as [l'|e] eqn:G end; [|discriminate].
      cbn [bind] in H. injection H as <-. rewrite admitted_record.
      rewrite accepts_dict. cbn [dget]. rewrite !(proj2 (String.eqb_neq _ _)) by discriminate.
      cbn [forallb fst snd]. unfold keyword. rewrite andb_true_r.
      destruct v as [| | | | | |o]; try reflexivity.
      cbn [of_type]. change (String.eqb "object" "object") with true. cbn [String.eqb Ascii.eqb Bool.eqb andb].
      inversion FD as [| | | | |? ? ND FD'|]; subst. clear FD. apply agree_record in DA.
      enough (E : exists ds, props = map (fun fd => (get_value_from_uri (fst (fst fd)), JDict (snd fd))) (combine f ds) /\ Forall2 (fun x d => generate_type_dict_from_type (snd x) = Ok d) f ds).
      { destruct E as (ds & -> & F2). clear G. unfold props_ok, fields_ok.
        clear ND. induction F2 as [|[n t] d f ds Hd F2 IHf]; [reflexivity|].
        inversion F; inversion FD'; inversion DA; subst. cbn [combine map forallb fst snd].
        rewrite IHf by auto. f_equal. destruct (dget (get_value_from_uri n) o); [|reflexivity].
        cbn [fst snd] in *. eauto. }
      assert (GEN : forall f acc0 l', NoDup (dkeys acc0 ++ map (fun f => get_value_from_uri (fst f)) f) ->
        (fix go (l : list (string * texp)) (acc : dict) : result dict :=
                     match l with
                     | [] => Ok acc
                     | (n, t) :: l' =>
                         do d <- generate_type_dict_from_type t;
                         go l' (dset (get_value_from_uri n) (JDict d) acc)
                     end) f acc0 = Ok l' ->
        exists ds, l' = acc0 ++ map (fun fd => (get_value_from_uri (fst (fst fd)), JDict (snd fd))) (combine f ds) /\ Forall2 (fun x d => generate_type_dict_from_type (snd x) = Ok d) f ds).
      { clear. induction f as [|[n t] f IH]; intros acc0 l' N G.
        - injection G as <-. exists []. rewrite app_nil_r. split; auto.
        - destruct (generate_type_dict_from_type t) as [d|] eqn:Gt; [|discriminate]. cbn [bind] in G.
          cbn [map fst] in N. rewrite dset_snoc in G.
          2: { apply dget_None. intros I. apply NoDup_remove_2 in N. apply N. apply in_app_iff. auto. }
          apply IH in G; [|unfold dkeys in *; rewrite map_app; cbn [map fst]; rewrite <- app_assoc; exact N].
          destruct G as (ds & -> & F2).
          exists (d :: ds). cbn [combine map fst snd]. rewrite <- app_assoc. split; auto. }
      apply (GEN f [] props); auto.
  Qed.
End Ref.
