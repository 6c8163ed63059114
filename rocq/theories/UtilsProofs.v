From Verif Require Import PyBase PyBaseProofs UtilsModel UtilsSpec.

(** ** bytes *)
Section BvalInd.
  Variable P : bval -> Prop.
  Hypothesis Hb : forall s, P (BBytes s).
  Hypothesis Ha : forall j, P (BAtom j).
  Hypothesis Hl : forall l, Forall P l -> P (BList l).
  Hypothesis Hd : forall d, Forall (fun kv => P (snd kv)) d -> P (BDict d).
  Fixpoint bval_ind' (v : bval) : P v :=
    match v with
    | BBytes s => Hb s
    | BAtom j => Ha j
    | BList l => Hl l ((fix go l : Forall P l :=
        match l with [] => Forall_nil _ | x :: l' => Forall_cons x (bval_ind' x) (go l') end) l)
    | BDict d => Hd d ((fix go d : Forall (fun kv => P (snd kv)) d :=
        match d with [] => Forall_nil _ | x :: l' => Forall_cons x (bval_ind' (snd x)) (go l') end) d)
    end.
End BvalInd.

Lemma bytes2str_partly utf8 : forall v w, bytes2str_in_dicts utf8 v = Ok w -> PartlyDecoded v w.
Proof.
  induction v as [s|j|l IH|d IH] using bval_ind'; intros w H; cbn in H.
  - destruct (utf8 s); inversion H; constructor.
  - inversion H; constructor.
  - destruct l as [|x l]; [inversion H; constructor|].
    inversion IH; subst.
    destruct (bytes2str_in_dicts utf8 x) as [x'|e] eqn:E; cbn in H; inversion H; subst.
    constructor. constructor; auto. clear. induction l; constructor; auto. apply P_same.
  - match type of H with bind ?r _ = _ => destruct r as [d'|e] eqn:E end; cbn in H; inversion H; subst.
    constructor. clear H. revert d' E. induction IH as [|[k v] d Hv Hd IHd]; intros d' E.
    + inversion E. constructor.
    + destruct (bytes2str_in_dicts utf8 v) as [v'|e] eqn:Ev; cbn in E; [|discriminate].
      match type of E with bind ?r _ = _ => destruct r as [d''|e] eqn:E' end; cbn in E; inversion E; subst.
      constructor; auto.
Qed.

Lemma no_bytes_decoded : forall v, ~ HasBytes v -> Decoded v v.
Proof.
  induction v as [s|j|l IH|d IH] using bval_ind'; intros N.
  - exfalso. apply N. constructor.
  - constructor.
  - constructor. assert (F : Forall (fun v => ~ HasBytes v) l).
    { apply Forall_forall. intros v I H. apply N. econstructor; eauto. }
    clear N. induction IH; inversion F; subst; constructor; auto.
  - constructor. assert (F : Forall (fun kv => ~ HasBytes (snd kv)) d).
    { apply Forall_forall. intros [k v] I H. apply N. eapply HB_dict; eauto. }
    clear N. induction IH; inversion F; subst; constructor; auto.
Qed.

Lemma bytes2str_head_only utf8 : forall v, HeadBytesOnly v -> AllValid utf8 v ->
  exists w, bytes2str_in_dicts utf8 v = Ok w /\ Decoded v w.
Proof.
  induction v as [s|j|l IH|d IH] using bval_ind'; intros HO AV; inversion AV; subst.
  - cbn. rewrite H0. eexists; split; eauto. constructor.
  - eexists; split; [reflexivity|constructor].
  - inversion HO; subst.
    + eexists; split; [reflexivity|]. constructor. constructor.
    + inversion IH; inversion H0; subst.
      destruct (H4 H1) as (w & E & D); auto. cbn. rewrite E. cbn. eexists; split; [reflexivity|].
      constructor. constructor; auto.
      clear - H2. induction H2; constructor; auto using no_bytes_decoded.
  - inversion HO; subst. clear HO AV. cbn.
    match goal with |- exists w, bind (?f d) _ = _ /\ _ => set (go := f) end.
    assert (G : exists d', go d = Ok d' /\
       Forall2 (fun a b => fst a = fst b /\ Decoded (snd a) (snd b)) d d').
    { clear - IH H0 H1. induction IH as [|[k v] d Hv Hd IHd].
      - eexists; split; [reflexivity|constructor].
      - apply Forall_cons_iff in H0. apply Forall_cons_iff in H1.
        destruct H0 as [A0 B0]; destruct H1 as [A1 B1].
        destruct (Hv A1 A0) as (v' & E & D).
        destruct (IHd B0 B1) as (d' & E' & D'). cbn in *. rewrite E. cbn.
        change (exists d'0, bind (go d) (fun d'' => Ok ((k, v') :: d'')) = Ok d'0 /\ 
          Forall2 (fun a b => fst a = fst b /\ Decoded (snd a) (snd b)) ((k, v) :: d) d'0).
        rewrite E'. cbn. eexists; split; [reflexivity|]. constructor; auto. }
    destruct G as (d' & -> & F). eexists; split; [reflexivity|]. constructor; auto.
Qed.

Lemma bytes2str_ok_iff utf8 : forall v, (exists w, bytes2str_in_dicts utf8 v = Ok w) <->
  forall s, FirstBytes s v -> utf8 s = true.
Proof.
  induction v as [s|j|l F|d F] using bval_ind'; cbn [bytes2str_in_dicts].
  - destruct (utf8 s) eqn:E; split; intros H; eauto; try (destruct H; discriminate).
    + intros s' X. inversion X; subst; auto.
    + exfalso. rewrite (H s ltac:(constructor)) in E. discriminate.
  - split; eauto. intros _ s X. inversion X.
  - destruct l as [|x l]; [split; eauto; intros _ s X; inversion X|].
    inversion F as [|? ? Fx _]; subst. split.
    + intros [w H] s X. inversion X; subst. apply Fx; auto.
      destruct (bytes2str_in_dicts utf8 x); [eauto|discriminate].
    + intros H. destruct (proj2 Fx) as [x' E]; [intros s X; apply H; constructor; auto|].
      rewrite E. cbn. eauto.
  - match goal with |- (exists w, (do d' <- ?g; _) = _) <-> _ => set (go := g) end.
    enough (X : (exists d', go = Ok d') <-> (forall k v, In (k, v) d -> forall s, FirstBytes s v -> utf8 s = true)).
    { split.
      - intros [w H] s Y. inversion Y; subst. apply X with (k := k) (v := v); auto.
        destruct go; [eauto|discriminate].
      - intros H. destruct (proj2 X) as [d' E]; [intros k v I s Y; apply H; econstructor; eauto|].
        rewrite E. cbn. eauto. }
    subst go. induction F as [|[k v] d Fv Fd IH]; [split; eauto; intros _ ? ? []|].
    cbn [snd] in Fv. split.
    + intros [d' H]. destruct (bytes2str_in_dicts utf8 v) as [v'|] eqn:E; [|discriminate]. cbn [bind] in H.
      match type of H with (do d'' <- ?g; _) = _ => destruct g as [d1|] eqn:G; [|discriminate] end.
      intros k0 v0 [Ek|I] s Y; [injection Ek as <- <-; apply Fv; eauto|].
      eapply (proj1 IH); eauto.
    + intros H. destruct (proj2 Fv) as [v' E]; [intros; eapply H; [left; reflexivity|auto]|].
      destruct (proj2 IH) as [d1 G]; [intros; eapply H; [right; eassumption|auto]|].
      rewrite E. cbn [bind]. rewrite G. cbn. eauto.
Qed.
Lemma bytes2str_errors utf8 : forall v e, bytes2str_in_dicts utf8 v = Err e -> e = ValueError.
Proof.
  induction v as [s|j|l IH|d IH] using bval_ind'; intros e H; cbn in H.
  - destruct (utf8 s); inversion H; auto.
  - discriminate.
  - destruct l as [|x l]; [discriminate|]. inversion IH; subst.
    destruct (bytes2str_in_dicts utf8 x) eqn:E; cbn in H; inversion H; subst. auto.
  - match type of H with bind ?r _ = _ => destruct r as [d'|e'] eqn:E end; cbn in H; inversion H; subst.
    clear H. induction IH as [|[k v] d Hv Hd IHd]; [discriminate|].
    destruct (bytes2str_in_dicts utf8 v) as [v'|e''] eqn:Ev; cbn in E.
    + match type of E with bind ?r _ = _ => destruct r as [d''|e''] eqn:E' end; cbn in E; inversion E; subst. auto.
    + inversion E; subst. auto.
Qed.

(** ** maps and lists *)
Lemma dpop_absent {V} k (d : list (string * V)) : dget k d = None -> dpop k d = d.
Proof.
  induction d as [|[k' v] d IH]; cbn; auto. destruct (String.eqb k k'); [discriminate|].
  cbn. intros H. unfold dpop in IH. rewrite IH; auto.
Qed.
Lemma dpop_dset {V} k (v : V) d : dpop k (dset k v d) = dpop k d.
Proof.
  induction d as [|[k' v'] d IH]; cbn.
  - rewrite String.eqb_refl. reflexivity.
  - destruct (String.eqb k k') eqn:E; cbn; rewrite E; cbn; auto. f_equal. exact IH.
Qed.

Lemma dset_snoc {V} k (v : V) d : dget k d = None -> dset k v d = d ++ [(k, v)].
Proof.
  induction d as [|[k' v'] d IH]; cbn; auto. destruct (String.eqb k k'); [discriminate|].
  intros H. rewrite IH; auto.
Qed.

Lemma to_list_entry_ok kf vf kv b :
  spelled_out vf (snd kv) = Some b ->
  to_list_entry kf vf kv = Ok (JDict (dset kf (JStr (fst kv)) b)).
Proof.
  destruct kv as [k v]. unfold to_list_entry, spelled_out. cbn.
  destruct v; intros H; destruct vf; inversion H; auto.
Qed.

Lemma to_list_ok kf vf d b : spelled_dict vf d b ->
  exists l, mapM (to_list_entry kf vf) d = Ok l /\
    Forall2 (fun kv e => exists body, snd kv = JDict body /\ e = JDict (dset kf (JStr (fst kv)) body)) b l.
Proof.
  induction 1 as [|kv kv' d b (K & body & S & E) F (l & M & IH)].
  - exists []. split; [reflexivity|constructor].
  - cbn. rewrite (to_list_entry_ok kf vf kv body S), M. cbn.
    eexists; split; [reflexivity|]. constructor; auto. exists body. rewrite K. auto.
Qed.

Lemma to_map_loop_entries kf : forall b l acc,
  Forall2 (fun kv e => exists body, snd kv = JDict body /\ e = JDict (dset kf (JStr (fst kv)) body)) b l ->
  NoDup (dkeys (acc ++ b)) ->
  to_map_loop kf l acc
  = Ok (acc ++ map (fun kv => (fst kv, match snd kv with JDict x => JDict (dpop kf x) | v => v end)) b).
Proof.
  intros b l acc F. revert acc. induction F as [|[k v] e b l (body & E & ->) F IH]; intros acc N; cbn.
  - rewrite app_nil_r. reflexivity.
  - cbn in E. subst v. rewrite dget_dset_same, dpop_dset, dset_snoc.
    + rewrite IH.
      * rewrite <- app_assoc. reflexivity.
      * rewrite <- app_assoc. unfold dkeys in *. rewrite map_app in *. cbn in *. auto.
    + apply dget_None. unfold dkeys in N. rewrite map_app in N. cbn in N.
      apply NoDup_remove_2 in N. intros I. apply N. apply in_app_iff. left. exact I.
Qed.

Lemma spelled_dict_keys vf d b : spelled_dict vf d b -> dkeys d = dkeys b.
Proof. unfold dkeys. induction 1 as [|kv kv' d b (K & _) F IH]; cbn; congruence. Qed.

Lemma map_list_map kf vf d b :
  wf_dict d -> spelled_dict vf d b ->
  Forall (fun kv => forall body, snd kv = JDict body -> dget kf body = None) b ->
  (do l <- normalize_to_list (JDict d) kf vf; normalize_to_map (JList l) kf) = Ok b.
Proof.
  intros W S NK. destruct (to_list_ok kf vf d b S) as (l & M & F). cbn. rewrite M. cbn.
  rewrite (to_map_loop_entries kf b l [] F).
  - cbn. f_equal. clear - NK. induction b as [|[k v] b IH]; cbn; auto. inversion NK; subst.
    rewrite IH; auto. f_equal. f_equal. destruct v; auto. rewrite dpop_absent; auto. 
  - cbn. unfold wf_dict in W. rewrite (spelled_dict_keys _ _ _ S) in W. exact W.
Qed.

Lemma key_of_keyed kf b k : dget kf b = Some (JStr k) -> key_of kf (JDict b) = k.
Proof. intros H. cbn. rewrite H. reflexivity. Qed.

Lemma to_map_loop_list kf : forall l acc,
  Forall (keyed kf) l -> NoDup (dkeys acc ++ map (key_of kf) l) ->
  to_map_loop kf l acc
  = Ok (acc ++ map (fun e => (key_of kf e, match e with JDict b => JDict (dpop kf b) | v => v end)) l).
Proof.
  induction l as [|e l IH]; intros acc F N; cbn.
  - rewrite app_nil_r. reflexivity.
  - inversion F; subst. destruct H1 as (b & k & -> & E). rewrite E.
    rewrite (key_of_keyed _ _ _ E) in *. cbn in N. rewrite E in N.
    rewrite dset_snoc, IH; auto.
    + rewrite <- app_assoc. reflexivity.
    + unfold dkeys in *. rewrite map_app. cbn. rewrite <- app_assoc. exact N.
    + apply dget_None. apply NoDup_remove_2 in N. intros I. apply N. apply in_app_iff. auto.
Qed.

Lemma dget_dset_dpop {V} kf (v : V) b : dget kf b = Some v ->
  forall k, dget k b = dget k (dset kf v (dpop kf b)).
Proof.
  intros H k. destruct (String.eqb_spec k kf) as [->|N].
  - rewrite dget_dset_same. auto.
  - rewrite dget_dset_other by auto. symmetry. apply dget_dpop_other. auto.
Qed.

Lemma list_map_list kf vf l :
  Forall (keyed kf) l -> NoDup (map (key_of kf) l) ->
  exists m l', normalize_to_map (JList l) kf = Ok m /\
    normalize_to_list (JDict m) kf vf = Ok l' /\ same_entries l l'.
Proof.
  intros F N.
  assert (L : exists l', normalize_to_list (JDict (map (fun e => (key_of kf e,
     match e with JDict b => JDict (dpop kf b) | v => v end)) l)) kf vf = Ok l' /\ same_entries l l').
  { clear N. induction l as [|e l IH].
    - eexists; repeat split; constructor.
    - inversion F; subst. destruct (IH H2) as (l' & E' & S). cbn in E'.
      destruct H1 as (b & k & -> & E). cbn [map]. rewrite (key_of_keyed _ _ _ E). cbn.
      rewrite E'. cbn.
      eexists; repeat split. constructor; auto. exists b. eexists. repeat split.
      intros k0. apply dget_dset_dpop. auto. }
  destruct L as (l' & E & S). eexists _, l'. split; [|split; eauto].
  cbn. rewrite (to_map_loop_list kf l [] F N). reflexivity.
Qed.

Lemma to_list_reject kf d k v :
  In (k, v) d -> (forall b, v <> JDict b) -> normalize_to_list (JDict d) kf None = Err RuntimeError.
Proof.
  intros I N. cbn. induction d as [|[k' v'] d IH]; [destruct I|]. cbn.
  destruct (to_list_entry kf None (k', v')) as [x|e] eqn:E.
  - cbn. destruct I as [I|I].
    + inversion I; subst. unfold to_list_entry in E. cbn in E. destruct v; try discriminate.
      exfalso. eapply N; eauto.
    + rewrite IH; auto.
  - cbn. unfold to_list_entry in E. cbn in E. destruct v'; inversion E; auto.
Qed.

Lemma to_map_loop_reject kf : forall pre e post acc,
  Forall (keyed kf) pre ->
  ((forall b, e <> JDict b) -> to_map_loop kf (pre ++ e :: post) acc = Err RuntimeError) /\
  (forall b, e = JDict b -> dget kf b = None \/ dget kf b = Some JNull ->
     to_map_loop kf (pre ++ e :: post) acc = Err MissingKeyField).
Proof.
  induction pre as [|p pre IH]; intros e post acc F; cbn.
  - split.
    + intros N. destruct e; auto. exfalso; eapply N; eauto.
    + intros b -> [H|H]; rewrite H; auto.
  - inversion F; subst. destruct H1 as (b & k & -> & E). rewrite E. apply IH; auto.
Qed.

(** ** names *)
Lemma lower_upper c : lower_char (upper_char c) = lower_char c.
Proof. destruct c as [[] [] [] [] [] [] [] []]; reflexivity. Qed.
Lemma lower_lower c : lower_char (lower_char c) = lower_char c.
Proof. destruct c as [[] [] [] [] [] [] [] []]; reflexivity. Qed.
Lemma sep_upper c : is_separator (upper_char c) = is_separator c.
Proof. destruct c as [[] [] [] [] [] [] [] []]; reflexivity. Qed.
Lemma sep_lower c : is_separator (lower_char c) = is_separator c.
Proof. destruct c as [[] [] [] [] [] [] [] []]; reflexivity. Qed.

Lemma sjoin_nil_cons x l : sjoin "" (x :: l) = (x ++ sjoin "" l)%string.
Proof. destruct l; [cbn; rewrite sapp_nil_r|rewrite sjoin_cons]; auto. Qed.

Fixpoint pascal (start : bool) (s : string) : string :=
  match s with
  | EmptyString => EmptyString
  | String c s' =>
      if is_separator c then pascal true s'
      else String (if start then upper_char c else lower_char c) (pascal false s')
  end.

Lemma replace_sep c s : replace_char "_" "-" (String c s)
  = String (if is_separator c then "-"%char else c) (replace_char "_" "-" s).
Proof.
  unfold is_separator. cbn [replace_char]. destruct (Ascii.eqb_spec c "_").
  - subst. reflexivity.
  - rewrite orb_false_r. destruct (Ascii.eqb_spec c "-"); subst; reflexivity.
Qed.

Lemma pascal_split s : exists h t, split_char "-" (replace_char "_" "-" s) = h :: t /\
  (capitalize h ++ sjoin "" (map capitalize t) = pascal true s)%string /\
  (smap lower_char h ++ sjoin "" (map capitalize t) = pascal false s)%string.
Proof.
  induction s as [|c s (h & t & E & P1 & P2)].
  - exists "", []. auto.
  - rewrite replace_sep. cbn [split_char pascal]. destruct (is_separator c) eqn:S.
    + rewrite Ascii.eqb_refl, E. exists "", (h :: t). split; auto.
      cbn [capitalize smap map]. rewrite sjoin_nil_cons. cbn. auto.
    + destruct (Ascii.eqb_spec c "-"). { subst. discriminate. }
      rewrite E. exists (String c h), t. split; auto.
      split; cbn; f_equal; auto.
Qed.

Lemma to_pascal_case_pascal s : to_pascal_case s = pascal true s.
Proof.
  unfold to_pascal_case. destruct (pascal_split s) as (h & t & -> & <- & _).
  cbn [map]. apply sjoin_nil_cons.
Qed.

Lemma pascal_letters b s : smap lower_char (pascal b s) = smap lower_char (without_separators s).
Proof.
  revert b. induction s as [|c s IH]; intros b; cbn; auto.
  destruct (is_separator c); auto. cbn. rewrite IH. destruct b; rewrite ?lower_upper, ?lower_lower; auto.
Qed.
Lemma pascal_no_sep b s : sforall (fun c => negb (is_separator c)) (pascal b s) = true.
Proof.
  revert b. induction s as [|c s IH]; intros b; cbn; auto.
  destruct (is_separator c) eqn:E; auto. cbn. rewrite IH.
  destruct b; rewrite ?sep_upper, ?sep_lower, E; auto.
Qed.
Lemma without_none s : sforall (fun c => negb (is_separator c)) s = true -> without_separators s = s.
Proof.
  induction s as [|c s IH]; cbn; auto. destruct (is_separator c); cbn; [discriminate|].
  intros H. rewrite IH; auto.
Qed.
Lemma pascal_word b w rest : sforall (fun c => negb (is_separator c)) w = true ->
  pascal b (w ++ rest) = ((match w with
     | "" => "" | String c w' => String (if b then upper_char c else lower_char c) (smap lower_char w') end)
     ++ pascal (match w with "" => b | _ => false end) rest)%string.
Proof.
  revert b. induction w as [|c w IH]; intros b H; cbn; auto.
  cbn in H. destruct (is_separator c); cbn in H; [discriminate|].
  f_equal. rewrite IH; auto. destruct w; cbn; auto.
Qed.

(** ** sanitise *)
Lemma suffix_inj (a b p : string) : (a ++ p = b ++ p)%string -> a = b.
Proof.
  intros H. assert (L := f_equal String.length H). rewrite !slength_app in L.
  apply sapp_inj_length in H; [tauto|lia].
Qed.
Lemma suffix_clash (a b : string) : (a ++ "?" = b ++ "[]")%string -> False.
Proof.
  intros H. replace (b ++ "[]")%string with ((b ++ "[") ++ "]")%string in H by (rewrite sapp_assoc; auto).
  assert (L := f_equal String.length H). rewrite !slength_app in L. cbn in L.
  apply sapp_inj_length in H; [|rewrite slength_app; cbn; lia]. destruct H; discriminate.
Qed.
Lemma suffix_not_null p (a : string) : endswith p "null" = false -> ("null" = a ++ p)%string -> False.
Proof. intros E H. assert (endswith p "null" = true) by (apply endswith_spec; eauto). congruence. Qed.

Section San.
  Variable base : string -> json -> Prop.
  Variable opaque : texp -> json -> Prop.
  Notation TA := (TextAdmits base).
  Notation AD := (Admits base opaque).

  Lemma TA_null_iff v : TA "null" v <-> v = JNull.
  Proof.
    split; [|intros ->; constructor]. intros H. inversion H; subst; auto; try contradiction.
    - symmetry in H0. exfalso. eapply (suffix_not_null "?"); eauto.
    - symmetry in H0. exfalso. eapply (suffix_not_null "[]"); eauto.
  Qed.
  Lemma TA_opt_iff t v : TA (t ++ "?") v <-> v = JNull \/ TA t v.
  Proof.
    split.
    - intros H. inversion H; subst; auto.
      + apply suffix_inj in H0. subst. auto.
      + exfalso. eapply suffix_clash; eauto.
      + exfalso. eapply H1; eauto.
    - intros [->|H]; [apply TA_opt_null|apply TA_opt; auto].
  Qed.
  Lemma TA_list_iff t v : TA (t ++ "[]") v <-> exists l, v = JList l /\ Forall (TA t) l.
  Proof.
    split.
    - intros H. inversion H; subst.
      + exfalso. eapply (suffix_not_null "[]"); eauto.
      + exfalso. eapply suffix_clash; eauto.
      + exfalso. eapply suffix_clash; eauto.
      + apply suffix_inj in H0. subst. eauto.
      + exfalso. eapply H2; eauto.
    - intros (l & -> & F). constructor; auto.
  Qed.

  Lemma AD_text s v : AD (XStr s) v <-> TA s v.
  Proof. split; [intros H; inversion H; auto|constructor; auto]. Qed.
  Lemma AD_union l v : AD (XList l) v <-> exists t, In t l /\ AD t v.
  Proof. split; [intros H; inversion H; eauto|intros (t & I & A); econstructor; eauto]. Qed.
  Lemma AD_array_obj t v : AD (XArrayObj t) v <-> exists l, v = JList l /\ Forall (AD t) l.
  Proof. split; [intros H; inversion H; eauto|intros (l & -> & A); constructor; auto]. Qed.

  Lemma AD_optional t v : AD (make_optional t) v <-> v = JNull \/ AD t v.
  Proof.
    assert (N : AD (XStr "null") v <-> v = JNull) by (rewrite AD_text; apply TA_null_iff).
    assert (K : forall t, AD (XList [XStr "null"; t]) v <-> v = JNull \/ AD t v).
    { intros t'. rewrite AD_union. split.
      - intros (u & [<-|[<-|[]]] & A); [left; apply N|right]; auto.
      - intros [H|H]; [exists (XStr "null"); split; [left; auto|apply N; auto]|].
        exists t'. split; [right; left|]; auto. }
    destruct t; cbn [make_optional]; try apply K.
    rewrite !AD_union. split.
    - intros (t & [<-|I] & A); [left; apply N; auto|right; eauto].
    - intros [H|(t & I & A)].
      + exists (XStr "null"). split; [left; auto|apply N; auto].
      + exists t. split; [right|]; auto.
  Qed.

  Lemma replace_char_none c s : has_char c s = false -> replace_char c "" s = s.
  Proof.
    induction s as [|d s IH]; cbn; auto. rewrite orb_false_iff. intros [H1 H2].
    rewrite Ascii.eqb_sym, H1, IH; auto.
  Qed.
  Lemma replace_char_app c r a b : (replace_char c r (a ++ b) = replace_char c r a ++ replace_char c r b)%string.
  Proof.
    induction a as [|d a IH]; cbn; auto. destruct (Ascii.eqb d c); rewrite IH; auto.
    rewrite sapp_assoc. auto.
  Qed.
  Lemma replace2_snoc n : contains "[]" n = false -> replace2 "[" "]" "" (n ++ "[]") = n.
  Proof.
    induction n as [|c n IH]; intros H; [reflexivity|].
    cbn [contains] in H. apply orb_false_iff in H. destruct H as [H1 H2]. specialize (IH H2).
    destruct n as [|d n].
    - cbn. destruct (Ascii.eqb c "["); reflexivity.
    - cbn [append] in IH |- *. cbn [replace2].
      destruct (Ascii.eqb_spec c "["), (Ascii.eqb_spec d "]"); cbn [andb]; subst; cbn in H1;
        try (destruct n; discriminate H1); f_equal; exact IH.
  Qed.
  Lemma no_opt_suffix n : has_char "?" n = false -> endswith "?" n = false.
  Proof.
    intros H. destruct (endswith "?" n) eqn:E; auto. apply endswith_spec in E. destruct E as [r ->].
    rewrite has_char_app in H. cbn in H. rewrite orb_true_r in H. discriminate.
  Qed.
  Lemma no_list_suffix n : contains "[]" n = false -> endswith "[]" n = false.
  Proof.
    intros H. destruct (endswith "[]" n) eqn:E; auto. apply endswith_spec in E. destruct E as [r ->].
    assert (contains "[]" (r ++ "[]") = true) by (apply contains_spec; exists r, ""; auto). congruence.
  Qed.
  Lemma endswith_app p n : endswith p (n ++ p) = true.
  Proof. apply endswith_spec. eauto. Qed.

  Lemma sanitise_text_ok s v : simple_text s -> (AD (sanitise_text s) v <-> AD (XStr s) v).
  Proof.
    intros (n & Q & B & [->|[->|[->| ->]]]); unfold sanitise_text.
    - rewrite no_opt_suffix by auto. cbn [negb]. cbv zeta. rewrite no_list_suffix by auto. reflexivity.
    - rewrite endswith_app. cbn [negb]. cbv zeta.
      rewrite replace_char_app, replace_char_none by auto. cbn. rewrite sapp_nil_r.
      rewrite no_list_suffix by auto. rewrite AD_optional, !AD_text, TA_opt_iff. reflexivity.
    - rewrite no_opt_suffix by (rewrite has_char_app, Q; auto). cbn [negb]. cbv zeta.
      rewrite endswith_app, replace2_snoc by auto.
      rewrite AD_array_obj, AD_text, TA_list_iff.
      split; intros (l & -> & F); exists l; (split; [reflexivity|]); (eapply Forall_impl; [|exact F]); intros a; apply AD_text.
    - replace (n ++ "[]?")%string with ((n ++ "[]") ++ "?")%string by (rewrite sapp_assoc; auto).
      rewrite endswith_app. cbn [negb]. cbv zeta.
      rewrite replace_char_app, replace_char_none by (rewrite has_char_app, Q; auto).
      cbn [replace_char Ascii.eqb Bool.eqb append]. change (replace_char "?" "" "?") with "".
      rewrite sapp_nil_r, endswith_app, replace2_snoc by auto.
      rewrite AD_optional, AD_array_obj, AD_text, TA_opt_iff, TA_list_iff.
      split; (intros [->|(l & -> & F)]; [auto|right; exists l; (split; [reflexivity|]); (eapply Forall_impl; [|exact F]); intros a; apply AD_text]).
  Qed.

  Section TexpInd.
    Variable P : texp -> Prop.
    Hypothesis H1 : forall s, P (XStr s).
    Hypothesis H2 : forall l, Forall P l -> P (XList l).
    Hypothesis H3 : forall s, P (XEnum s).
    Hypothesis H4 : forall t, P t -> P (XArray t).
    Hypothesis H5 : forall u, P (XImport u).
    Hypothesis H6 : forall u, P (XRecord u).
    Hypothesis H7 : forall t, P t -> P (XField t).
    Hypothesis H8 : forall s, P (XEnumObj s).
    Hypothesis H9 : forall t, P t -> P (XArrayObj t).
    Hypothesis H10 : forall u f, P (XRecordObj u f).
    Fixpoint texp_ind' (t : texp) : P t :=
      match t with
      | XStr s => H1 s
      | XList l => H2 l ((fix go l : Forall P l :=
          match l with [] => Forall_nil _ | x :: l' => Forall_cons x (texp_ind' x) (go l') end) l)
      | XEnum s => H3 s
      | XArray t => H4 t (texp_ind' t)
      | XImport u => H5 u
      | XRecord u => H6 u
      | XField t => H7 t (texp_ind' t)
      | XEnumObj s => H8 s
      | XArrayObj t => H9 t (texp_ind' t)
      | XRecordObj u f => H10 u f
      end.
  End TexpInd.

  Definition keeps (t : texp) : Prop :=
    forall t', sanitise_type t = Ok t' -> simple_type t -> forall v, AD t' v <-> AD t v.

  Lemma null_name_iff x v : is_null_name x = true -> (AD x v <-> v = JNull).
  Proof.
    destruct x; cbn; try discriminate. intros H. apply String.eqb_eq in H. subst.
    rewrite AD_text. apply TA_null_iff.
  Qed.

  Lemma union_null l v :
    AD (XList l) v <->
    (existsb is_null_name l = true /\ v = JNull) \/
    (exists x, In x l /\ is_null_name x = false /\ AD x v).
  Proof.
    rewrite AD_union. split.
    - intros (x & I & A). destruct (is_null_name x) eqn:E.
      + left. split; [apply existsb_exists; eauto|eapply null_name_iff; eauto].
      + right. eauto.
    - intros [[E ->]|(x & I & _ & A)]; [|eauto].
      apply existsb_exists in E. destruct E as (x & I & E). exists x. split; auto.
      apply null_name_iff; auto.
  Qed.

  Lemma sanitise_keeps t : keeps t.
  Proof.
    enough (H : keeps t /\ forall u, t = XField u -> keeps u) by tauto.
    induction t as [s|l IH|syms|t IH|u|u|t IH|syms|t IH|u f] using texp_ind';
      (split; [|intros ? E; try discriminate E]); try (intros t' S ST v; cbn in S; injection S as <-).
    - inversion ST; subst. apply sanitise_text_ok; auto.
    - intros t' S ST v. cbn [sanitise_type] in S. inversion ST; subst.
      match type of S with bind ?r _ = _ => destruct r as [new|e] eqn:R end; cbn [bind] in S; [|discriminate].
      injection S as <-.
      assert (NEW : AD new v <-> exists x, In x l /\ is_null_name x = false /\ AD x v).
      { assert (FI : forall x, In x (filter (fun x => negb (is_null_name x)) l) <-> In x l /\ is_null_name x = false).
        { intros x. rewrite filter_In. destruct (is_null_name x); cbn; intuition congruence. }
        assert (GO : forall l', (fix go (l : list texp) : result (list texp) :=
                        match l with
                        | [] => Ok []
                        | x :: l' =>
                            if is_null_name x then go l' else
                            do x' <- match x with
                                     | XField t => do t' <- sanitise_type t; Ok (XField t')
                                     | _ => Ok x
                                     end;
                            do l'' <- go l';
                            Ok (x' :: l'')
                        end) l = Ok l' ->
           ((exists x, In x l' /\ AD x v) <-> exists x, In x l /\ is_null_name x = false /\ AD x v)).
        { clear R FI ST. induction l as [|x l IHl]; intros l' G.
          - injection G as <-. split; intros (x & [] & _).
          - apply Forall_cons_iff in IH. destruct IH as [[Kx Ku] IH].
            apply Forall_cons_iff in H0. destruct H0 as [Sx H0].
            specialize (IHl IH H0).
            destruct (is_null_name x) eqn:N.
            + rewrite (IHl l' G). split.
              * intros (y & I & A). exists y. split; [right|]; auto.
              * intros (y & [<-|I] & A); [destruct A; congruence|eauto].
            + match type of G with bind ?r _ = _ => destruct r as [x'|e] eqn:R end; cbn [bind] in G; [|discriminate].
              match type of G with bind ?r _ = _ => destruct r as [l''|e] eqn:R2 end; cbn [bind] in G; [|discriminate].
              injection G as <-. specialize (IHl l'' eq_refl).
              assert (X : AD x' v <-> AD x v).
              { destruct x; try (injection R as <-; reflexivity).
                destruct (sanitise_type x) as [tx|e] eqn:R3; cbn [bind] in R; [|discriminate].
                injection R as <-.
                assert (AD tx v <-> AD x v) by (apply (Ku x eq_refl tx R3 (Sx x eq_refl))).
                split; intros A; inversion A; subst; constructor; tauto. }
              split.
              * intros (y & [<-|I] & A).
                -- exists x. split; [left; auto|]. split; auto. apply X; auto.
                -- destruct (proj1 IHl (ex_intro _ y (conj I A))) as (z & I' & N' & A'). exists z.
                   split; [right|]; auto.
              * intros (y & [<-|I] & N' & A).
                -- exists x'. split; [left; auto|apply X; auto].
                -- destruct (proj2 IHl (ex_intro _ y (conj I (conj N' A)))) as (z & I' & A'). exists z.
                   split; [right|]; auto. }
        destruct (filter (fun x => negb (is_null_name x)) l) as [|y [|y2 ys]] eqn:F.
        - match type of R with bind ?r _ = _ => destruct r as [l''|e] eqn:R2 end; cbn [bind] in R; [|discriminate].
          injection R as <-. rewrite AD_union. apply GO; auto.
        - injection R as <-. split.
          + intros A. exists y. destruct (proj1 (FI y) (or_introl eq_refl)). auto.
          + intros (x & I & N & A). assert (In x [y]) by (apply FI; auto). destruct H as [->|[]]. auto.
        - match type of R with bind ?r _ = _ => destruct r as [l''|e] eqn:R2 end; cbn [bind] in R; [|discriminate].
          injection R as <-. rewrite AD_union. apply GO; auto. }
      rewrite union_null. destruct (existsb is_null_name l); cbn [negb].
      + rewrite AD_optional, NEW. intuition.
      + rewrite NEW. intuition congruence.
    - split; intros A; inversion A; subst; constructor; auto.
    - split; intros A; inversion A; subst; constructor; auto.
    - reflexivity.
    - intros t' S; discriminate S.
    - intros t' S; discriminate S.
    - injection E as <-. tauto.
    - reflexivity.
    - reflexivity.
    - reflexivity.
  Qed.
End San.
