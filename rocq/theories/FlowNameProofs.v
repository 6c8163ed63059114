(** * Proofs about the names of steps *)
From Verif Require Import PyBase PyBaseProofs PackModel ExprModel EvalModel RefactorModel RefactorSpec RefactorProofs
  FlowModel FlowSpec FlowProofs FlowProofs2 FlowValueSpec FlowValueProofs FlowReqSpec FlowReqProofs FlowReqProofs2
  FlowToolSpec FlowToolProofs FlowNameSpec.
From Coq Require Import Permutation.

(** ** Part of a list, in order *)
Inductive sub {A} : list A -> list A -> Prop :=
| sub_nil : sub [] []
| sub_skip x l l' : sub l l' -> sub l (x :: l')
| sub_keep x l l' : sub l l' -> sub (x :: l) (x :: l').
Lemma sub_none {A} (l : list A) : sub [] l.
Proof. induction l; constructor; auto. Qed.
Lemma sub_refl {A} (l : list A) : sub l l.
Proof. induction l; [constructor | apply sub_keep; auto]. Qed.
Lemma sub_app {A} (a b c d : list A) : sub a b -> sub c d -> sub (a ++ c) (b ++ d).
Proof. intros S T. induction S; cbn; auto; [apply sub_skip | apply sub_keep]; auto. Qed.
Lemma sub_incl {A} (a b : list A) : sub a b -> incl a b.
Proof. intros S. induction S; intros y I; [destruct I | right; auto | destruct I as [-> | I]; [left; auto | right; auto]]. Qed.
Lemma sub_nodup {A} (a b : list A) : sub a b -> NoDup b -> NoDup a.
Proof.
  intros S. induction S as [|x a b S IH|x a b S IH]; intros N; inversion N; subst; auto. constructor; auto.
  intros I. apply (sub_incl _ _ S) in I. auto.
Qed.
Lemma sub_trans {A} (a b c : list A) : sub a b -> sub b c -> sub a c.
Proof.
  intros S T. revert a S. induction T as [|x b c T IH|x b c T IH]; intros a S; auto.
  - apply sub_skip. auto.
  - inversion S; subst; [apply sub_skip | apply sub_keep]; auto.
Qed.
Lemma sub_map {A B} (f : A -> B) a b : sub a b -> sub (map f a) (map f b).
Proof. intros S. induction S; cbn; [constructor | apply sub_skip | apply sub_keep]; auto. Qed.
Lemma sub_filter {A} (f : A -> bool) l : sub (filter f l) l.
Proof. induction l as [|x l IH]; cbn; [constructor|]. destruct (f x); [apply sub_keep | apply sub_skip]; auto. Qed.
Lemma sub_perm {A} (a b : list A) : sub a b -> exists r, Permutation (a ++ r) b.
Proof.
  intros S. induction S as [|x a b S (r & IH)|x a b S (r & IH)].
  - exists []. constructor.
  - exists (x :: r). symmetry. apply Permutation_cons_app. symmetry. exact IH.
  - exists r. cbn. constructor. exact IH.
Qed.

(** ** Names *)
Lemma fragment_after_hash s : fragment s = after_hash s.
Proof.
  symmetry. apply after_hash_Fragment. induction s as [|c r IH]; [split; [reflexivity | left; reflexivity]|]. cbn [fragment].
  destruct (has_char "#" r) eqn:H.
  - destruct IH as (A & [B | (p & B)]); split; auto.
    + rewrite <- B, H in A. discriminate.
    + right. exists (String c p). cbn. f_equal. exact B.
  - destruct (Ascii.eqb_spec c "#") as [->|N].
    + split; [exact H|]. right. exists "". reflexivity.
    + split; [|left; reflexivity]. cbn [has_char]. rewrite H, orb_false_r. apply Ascii.eqb_neq. congruence.
Qed.
Lemma filled_text o : filled o = if has_text o then o else None.
Proof. destruct o as [[|c s]|]; reflexivity. Qed.

Lemma after_first_none s : has_char "#" s = false -> after_first "#" s = None.
Proof.
  induction s as [|c s IH]; [reflexivity|]. cbn [after_first has_char]. intros H. apply orb_false_iff in H. destruct H as (A & B).
  rewrite Ascii.eqb_sym, A. auto.
Qed.

Definition E (s p : string) : string := ("_expression_" ++ s ++ "_" ++ p)%string.
Definition plain_step (g : wstep) : Prop := startswith "_expression" (ws_id g) = true.

Section Names.
  Variable gx : json -> json -> json -> result (option string).
  Variable ev : string -> json -> result json.
  Variable src_example self_example : list wstep -> wstep -> src -> result json.
  Variable src_params : list wstep -> src -> result nat.
  Variable src_known : list wstep -> wstep -> string -> result unit.
  Variable out_known : list wstep -> src -> result unit.
  Variable load_run : string -> result (tool * bool).
  Variable attrs : list string.
  Variable replace_etool skip1 skip2 : bool.

  (** [new] steps, all with names made from [s] and places in [ps] *)
  Definition news (s : string) (ps : list string) (new : list wstep) : Prop :=
    sub (map ws_id new) (map (E s) ps).
  Lemma news_nil s ps : news s ps [].
  Proof. apply sub_none. Qed.
  Lemma news_app s ps qs a b : news s ps a -> news s qs b -> news s (ps ++ qs) (a ++ b).
  Proof. unfold news. rewrite !map_app. apply sub_app. Qed.
  Lemma news_one s p g : ws_id g = E s p -> news s [p] [g].
  Proof. unfold news. cbn. intros ->. apply sub_refl. Qed.
  Lemma news_cons s p ps g new : ws_id g = E s p -> news s ps new -> news s (p :: ps) (g :: new).
  Proof. intros A B. exact (news_app s [p] ps [g] new (news_one _ _ _ A) B). Qed.
  Lemma news_skip s p ps new : news s ps new -> news s (p :: ps) new.
  Proof. intros B. exact (news_app s [p] ps [] new (news_nil _ _) B). Qed.

  Lemma value_names wreqs pre post mock orig ins todo : forall st done_ gen st' gen',
    value_loop gx self_example src_params src_known replace_etool wreqs pre post st mock orig ins done_ todo gen = Ok (st', gen') ->
    ws_id st' = ws_id st /\ ws_when st' = ws_when st /\ exists new, gen' = gen ++ new /\ news (after_hash (ws_id st)) (value_places todo) new.
  Proof.
    induction todo as [|inp todo IH]; intros st done_ gen st' gen' H; cbn [value_loop] in H.
    { injection H as <- <-. repeat (split; [reflexivity|]). exists []. rewrite app_nil_r. split; [reflexivity | apply news_nil]. }
    unfold value_places. cbn [filter]. rewrite filled_text in H. destruct (has_text (si_valueFrom inp)) eqn:T; [|exact (IH _ _ _ _ _ H)].
    cbn [map]. destruct (si_valueFrom inp) as [text|]; [|discriminate].
    cbn zeta in H. binv H self Es. binv H x Ex. destruct x as [expr|].
    2: { destruct (IH _ _ _ _ _ H) as (A & B & new & C & D). repeat (split; [assumption|]). exists new. split; [exact C|]. apply news_skip. exact D. }
    destruct (negb (has_input orig (si_id inp))); [discriminate|]. binv H k Ek. binv H g Eg.
    destruct (IH _ _ _ _ _ H) as (A & B & new & C & D). repeat (split; [assumption|]). exists (g :: new). split; [rewrite C, <- app_assoc; reflexivity|].
    apply news_cons; [|exact D]. unfold valueFrom_step in Eg. destruct (String.eqb (si_id inp) ""); [discriminate|]. binv Eg ps Ep. injection Eg as <-.
    cbn [gen_step ws_id]. unfold E, name_of. rewrite basename_last_part. reflexivity.
  Qed.

  (** *** Requirements of the tool *)
  Definition pok (sn : string) (ps : list string) (p p' : plr) : Prop :=
    ws_id (p_step p') = ws_id (p_step p) /\ exists new, p_gen p' = p_gen p ++ new /\ news sn ps new.
  Lemma pok_refl sn ps p : pok sn ps p p.
  Proof. split; [reflexivity|]. exists []. rewrite app_nil_r. split; [reflexivity | apply news_nil]. Qed.
  Lemma pok_trans sn ps qs a b c : pok sn ps a b -> pok sn qs b c -> pok sn (ps ++ qs) a c.
  Proof.
    intros (A & n1 & B & C) (D & n2 & F & G). split; [congruence|]. exists (n1 ++ n2). rewrite F, B, app_assoc. split; [reflexivity | apply news_app; auto].
  Qed.
  Lemma set_tool_req_id i r st st' : set_tool_req i r st = Ok st' -> ws_id st' = ws_id st.
  Proof. unfold set_tool_req. destruct (ws_run st); try discriminate. destruct (t_reqs t); [|discriminate]. intros H. binv H l' El. injection H as <-. reflexivity. Qed.
  Lemma set_listing_id i k e st st' : set_listing i k e st = Ok st' -> ws_id st' = ws_id st.
  Proof. unfold set_listing. destruct (nth_req i st) as [?|?|li|?| | |?]; try discriminate. destruct li as [|?|l|?]; try discriminate. intros H. binv H l' El. eapply set_tool_req_id; eauto. Qed.
  Lemma add_tool_input_id n st : ws_id (add_tool_input n st) = ws_id st.
  Proof. unfold add_tool_input. destruct (ws_run st); auto. destruct (is_clt t); reflexivity. Qed.

  Lemma env_names inputs defs sn : forall p p', plr_env gx inputs defs p = Ok p' -> pok sn [] p p'.
  Proof.
    unfold plr_env. induction defs as [|d l IH]; cbn [foldM]; intros p p' H; [injection H as <-; apply pok_refl|].
    binv H p1 H1. assert (p1 = p) as -> by (destruct (String.eqb (snd d) ""); [congruence|]; binv H1 x Ex; destruct x; congruence).
    apply IH. exact H.
  Qed.
  Lemma res_names wreqs sn i inputs values l : forall p p',
    foldM (fun p a =>
      let v := match dget a values with Some v => v | None => JNull end in
      if negb (truthy v) then Ok p
      else do x <- find_expr gx v inputs JNull;
           match x with
           | None => Ok p
           | Some expr =>
               let name := ("_expression_" ++ sn ++ "_ResourceRequirement_" ++ a)%string in
               let g := tool_expr_step replace_etool wreqs (p_step p) name None expr in
               do st <- set_tool_req i
                    (RRes (dset a (JStr ("$(inputs._" ++ a ++ ")"))
                             (match nth_req i (p_step p) with RRes v => v | _ => [] end))) (p_step p);
               Ok {| p_step := st; p_gen := p_gen p ++ [g]; p_env := p_env p;
                     p_res := p_res p ++ [(("_" ++ a)%string, name)]; p_iwd := p_iwd p; p_mod := true |}
           end) l p = Ok p' ->
    pok sn (map (fun a => ("ResourceRequirement_" ++ a)%string) l) p p'.
  Proof.
    induction l as [|a l IH]; cbn [foldM]; intros p p' H; [injection H as <-; apply pok_refl|].
    binv H p1 H1. apply IH in H. cbn [map]. refine (pok_trans _ [_] _ _ _ _ _ H). cbn zeta in H1.
    destruct (negb _); [injection H1 as <-; apply pok_refl|]. binv H1 x Ex. destruct x as [expr|]; [|injection H1 as <-; apply pok_refl].
    binv H1 st Est. injection H1 as <-. split; cbn [p_step p_gen]; [eapply set_tool_req_id; eauto|].
    eexists. split; [reflexivity|]. apply news_one. reflexivity.
  Qed.
  Lemma seq_S {A} (f : nat -> A) k n : map f (seq k (S n)) = f k :: map f (seq (S k) n).
  Proof. reflexivity. Qed.
  Lemma entries_names wreqs preqs sn i inputs l : forall k p p',
    plr_entries gx replace_etool wreqs preqs sn i inputs k l p = Ok p' ->
    pok sn (map (fun k => ("InitialWorkDirRequirement_" ++ str_nat k)%string) (seq k (List.length l))) p p'.
  Proof.
    induction l as [|e l IH]; intros k p p' H; cbn [plr_entries] in H; [injection H as <-; apply pok_refl|].
    cbn zeta in H. binv H p1 H1. apply IH in H. cbn [List.length]. rewrite seq_S. refine (pok_trans _ [_] _ _ _ _ _ H). clear H IH.
    assert (Put : forall p st g a b c d, ws_id st = ws_id (p_step p) -> ws_id g = E sn ("InitialWorkDirRequirement_" ++ str_nat k) ->
      pok sn [("InitialWorkDirRequirement_" ++ str_nat k)%string] p
        {| p_step := st; p_gen := p_gen p ++ [g]; p_env := a; p_res := b; p_iwd := c; p_mod := d |}).
    { intros q st g a b c d A B. split; [exact A|]. exists [g]. split; [reflexivity | apply news_one; exact B]. }
    destruct e as [s|en enm|?].
    - binv H1 x Ex. destruct x as [expr|]; [|injection H1 as <-; apply pok_refl]. binv H1 st Est. injection H1 as <-.
      apply Put; [eapply set_listing_id; eauto | reflexivity].
    - destruct (filled en) as [txt|].
      + binv H1 x Ex. destruct x as [expr|]; [|injection H1 as <-; apply pok_refl]. binv H1 expr' Ee. binv H1 st Est. injection H1 as <-.
        apply Put; [eapply set_listing_id; eauto | reflexivity].
      + destruct (filled enm) as [nm|]; [|injection H1 as <-; apply pok_refl].
        binv H1 x Ex. destruct x as [expr|]; [|injection H1 as <-; apply pok_refl]. binv H1 st Est. injection H1 as <-.
        apply Put; [eapply set_listing_id; eauto | reflexivity].
    - injection H1 as <-. apply pok_refl.
  Qed.
  Lemma reqs_names wreqs preqs sn inputs l : forall i p p',
    plr_reqs gx attrs replace_etool skip2 wreqs preqs sn inputs i l p = Ok p' -> pok sn (flat_map (req_places attrs) l) p p'.
  Proof.
    induction l as [|r l IH]; intros i p p' H; cbn [plr_reqs] in H; [injection H as <-; apply pok_refl|].
    binv H p1 H1. apply IH in H. cbn [flat_map]. refine (pok_trans _ _ _ _ _ _ _ H). clear H IH.
    destruct r as [defs|values|li|?| | |?]; cbn [req_places]; try (injection H1 as <-; apply pok_refl).
    - eapply env_names; eauto.
    - unfold plr_res in H1. eapply res_names; eauto.
    - unfold plr_iwd in H1. destruct skip2; [injection H1 as <-; apply pok_refl|].
      destruct li as [|s|l0|s]; try (injection H1 as <-; apply pok_refl).
      + destruct (String.eqb s ""); [injection H1 as <-; apply pok_refl|]. binv H1 x Ex. destruct x as [expr|]; [|injection H1 as <-; apply pok_refl].
        binv H1 st Est. injection H1 as <-. split; cbn [p_step p_gen].
        * rewrite add_tool_input_id. cbn. eapply set_tool_req_id; eauto.
        * eexists. split; [reflexivity|]. apply news_one. reflexivity.
      + eapply entries_names. exact H1.
  Qed.
  Lemma feed_id l : forall st, ws_id (plr_feed l st) = ws_id st.
  Proof. unfold plr_feed. induction l as [|e l IH]; intros st; cbn [fold_left]; [reflexivity|]. rewrite IH, add_tool_input_id. reflexivity. Qed.
  Lemma level_names wreqs t st gen st' gen' m :
    process_level_reqs gx attrs replace_etool skip2 wreqs (RTool t) (st, gen) = Ok ((st', gen'), m) ->
    ws_id st' = ws_id st /\ exists new, gen' = gen ++ new /\
      news (after_first_hash (ws_id st)) (flat_map (req_places attrs) (match t_reqs t with Some l => l | None => [] end)) new.
  Proof.
    unfold process_level_reqs. cbn [fst snd].
    assert (N : Ok ((st, gen), false) = Ok ((st', gen'), m) -> ws_id st' = ws_id st /\ exists new, gen' = gen ++ new /\
      news (after_first_hash (ws_id st)) (flat_map (req_places attrs) (match t_reqs t with Some l => l | None => [] end)) new).
    { intros H. injection H as <- <- <-. split; [reflexivity|]. exists []. rewrite app_nil_r. split; [reflexivity | apply news_nil]. }
    destruct (t_reqs t) as [[|r0 rs]|]; auto. destruct (String.eqb (ws_id st) ""); auto. clear N. intros H. binv H p Hp. injection H as <- <- <-.
    apply reqs_names in Hp. destruct Hp as (A & new & B & C). cbn [p_gen p_step] in *. rewrite !feed_id. split; [exact A|]. exists new. auto.
  Qed.

  (** *** The tool *)
  Lemma args_names wreqs sn inputs l : forall k st gen st' gen' m,
    arg_loop gx replace_etool wreqs sn inputs k l (st, gen) = Ok ((st', gen'), m) ->
    ws_id st' = ws_id st /\ exists new, gen' = gen ++ new /\ news sn (map (fun k => ("arguments_" ++ str_nat k)%string) (seq k (List.length l))) new.
  Proof.
    induction l as [|a l IH]; intros k st gen st' gen' m H; cbn [arg_loop] in H.
    { injection H as <- <- <-. split; [reflexivity|]. exists []. rewrite app_nil_r. split; [reflexivity | apply news_nil]. }
    cbn [List.length]. rewrite seq_S. cbn zeta in H. binv H x Ex. destruct x as [expr|].
    2: { destruct (IH _ _ _ _ _ _ H) as (A & new & B & C). split; [exact A|]. exists new. split; [exact B | apply news_skip; exact C]. }
    binv H st1 E1. binv H r Er. destruct r as [[st2 gen2] m2]. injection H as <- <- <-. cbn [fst].
    assert (I1 : ws_id st1 = ws_id st).
    { destruct (ws_run st); try discriminate. binv E1 args Ea. injection E1 as <-. reflexivity. }
    destruct (IH _ _ _ _ _ _ Er) as (A & new & B & C). split.
    - rewrite A. rewrite <- I1. destruct (ws_run (add_in _ (append_tool_input _ st1))); reflexivity.
    - eexists (_ :: new). rewrite B, <- app_assoc. split; [reflexivity|]. apply news_cons; [reflexivity | exact C].
  Qed.
  Lemma stream_names wreqs sn inputs err value st gen st' gen' m :
    stream_expr gx replace_etool wreqs sn inputs err value (st, gen) = Ok ((st', gen'), m) ->
    ws_id st' = ws_id st /\ exists new, gen' = gen ++ new /\ news sn (if has_text value then [if err then "stderr" else "stdout"] else []) new.
  Proof.
    unfold stream_expr. rewrite filled_text. destruct (has_text value) eqn:T.
    2: { intros H. injection H as <- <- <-. split; [reflexivity|]. exists []. rewrite app_nil_r. split; [reflexivity | apply news_nil]. }
    destruct value as [v|]; [|discriminate]. intros H. binv H x Ex. destruct x as [expr|].
    2: { injection H as <- <- <-. split; [reflexivity|]. exists []. rewrite app_nil_r. split; [reflexivity | apply news_nil]. }
    injection H as <- <- <-. split; [cbn; destruct (ws_run st); reflexivity|]. eexists. split; [reflexivity|]. apply news_one. destruct err; reflexivity.
  Qed.
  Lemma binding_names wreqs sn inputs l : forall st gen st' gen' m,
    binding_loop gx replace_etool skip1 wreqs sn inputs l (st, gen) = Ok ((st', gen'), m) ->
    ws_id st' = ws_id st /\ exists new, gen' = gen ++ new /\
      news sn (map (fun p => (fragment (ti_id p) ++ "_valueFrom")%string) (filter (fun p => has_text (ti_valueFrom p)) l)) new.
  Proof.
    induction l as [|p l IH]; intros st gen st' gen' m H; cbn [binding_loop] in H.
    { injection H as <- <- <-. split; [reflexivity|]. exists []. rewrite app_nil_r. split; [reflexivity | apply news_nil]. }
    binv H x Ex. cbn [filter]. destruct x as [expr|].
    2: { destruct (IH _ _ _ _ _ H) as (A & new & B & C). split; [exact A|]. exists new. split; [exact B|].
         destruct (has_text (ti_valueFrom p)); [apply news_skip|]; exact C. }
    destruct skip1; [discriminate|]. rewrite filled_text in Ex. destruct (has_text (ti_valueFrom p)); [|discriminate].
    binv H r Er. destruct r as [[st2 gen2] m2]. injection H as <- <- <-. cbn [fst].
    destruct (IH _ _ _ _ _ Er) as (A & new & B & C). split; [exact A|]. eexists (_ :: new). rewrite B, <- app_assoc. split; [reflexivity|].
    cbn [map]. apply news_cons; [|exact C]. unfold E. rewrite fragment_after_hash. reflexivity.
  Qed.
  Lemma output_names wreqs sn inputs clt l : forall st gen st' gen' m s,
    output_loop gx replace_etool skip1 skip2 wreqs sn inputs clt l (st, gen) = Ok ((st', gen'), m, s) ->
    ws_id st' = ws_id st /\ exists new, gen' = gen ++ new /\
      news sn (map (fun o => (fragment (to_id o) ++ "_glob")%string) (filter (fun o => match to_glob o with JNull => false | _ => true end) l)) new.
  Proof.
    induction l as [|o l IH]; intros st gen st' gen' m s H; cbn [output_loop] in H.
    { injection H as <- <- <- <-. split; [reflexivity|]. exists []. rewrite app_nil_r. split; [reflexivity | apply news_nil]. }
    binv H x Ex. cbn zeta in H. binv H y Ey. binv H w2 E2. binv H r Er. destruct r as [[[st3 gen3] m3] s3]. injection H as <- <- _ _.
    destruct w2 as [st2 gen2]. destruct (IH _ _ _ _ _ _ Er) as (A & new & B & C). cbn [fst snd].
    assert (W : ws_id st2 = ws_id st /\ exists n1, gen2 = gen ++ n1 /\
      news sn (map (fun o => (fragment (to_id o) ++ "_glob")%string) (if match to_glob o with JNull => false | _ => true end then [o] else [])) n1).
    { destruct x as [e|].
      - assert (Tg : match to_glob o with JNull => false | _ => true end = true) by (destruct (to_glob o); [discriminate | reflexivity ..]).
        rewrite Tg. destruct y as [e'|].
        + destruct (existsb _ _); [discriminate|]. injection E2 as <- <-. split; [reflexivity|]. eexists. split; [reflexivity|]. apply news_one.
          unfold E. rewrite fragment_after_hash. reflexivity.
        + injection E2 as <- <-. split; [reflexivity|]. eexists. split; [reflexivity|]. apply news_one.
          unfold E. rewrite fragment_after_hash. reflexivity.
      - destruct y as [e'|].
        + destruct (existsb _ _); [discriminate|]. injection E2 as <- <-. split; [reflexivity|]. exists []. rewrite app_nil_r. split; [reflexivity | apply news_nil].
        + injection E2 as <- <-. split; [reflexivity|]. exists []. rewrite app_nil_r. split; [reflexivity | apply news_nil]. }
    destruct W as (W1 & n1 & W2 & W3). split; [congruence|]. exists (n1 ++ new). rewrite B, W2, app_assoc. split; [reflexivity|].
    pose proof (news_app _ _ _ _ _ W3 C) as N. cbn [filter]. destruct (to_glob o); exact N.
  Qed.
  Lemma clt_names wreqs clt st gen st' gen' m s :
    traverse_clt gx replace_etool skip1 skip2 wreqs clt (st, gen) = Ok ((st', gen'), m, s) ->
    ws_id st' = ws_id st /\ exists new, gen' = gen ++ new /\ news (after_hash (ws_id st)) (tool_places clt) new.
  Proof.
    unfold traverse_clt. cbn [fst]. destruct (String.eqb (ws_id st) "").
    { intros H. injection H as <- <- _ _. split; [reflexivity|]. exists []. rewrite app_nil_r. split; [reflexivity | apply news_nil]. }
    intros H. binv H a Ea. binv H b Eb. binv H c Ec. binv H d Ed. binv H e Ee.
    destruct a as [[sa ga] ma], b as [[sb gb] mb], c as [[sc gc] mc], d as [[sd gd] md], e as [[[se ge] me] sube].
    cbn [fst snd] in *. injection H as <- <- _ _.
    assert (Aa : ws_id sa = ws_id st /\ exists na, ga = gen ++ na /\ news (after_hash (ws_id st)) (numbered "arguments_" (List.length (t_args clt))) na).
    { destruct skip1.
      - injection Ea as <- <- _. split; [reflexivity|]. exists []. rewrite app_nil_r. split; [reflexivity | apply news_nil].
      - eapply args_names; eauto. }
    destruct Aa as (Ia & na & Ga & Na).
    destruct (stream_names _ _ _ _ _ _ _ _ _ _ Eb) as (Ib & nb & Gb & Nb).
    destruct (stream_names _ _ _ _ _ _ _ _ _ _ Ec) as (Ic & nc & Gc & Nc).
    destruct (binding_names _ _ _ _ _ _ _ _ _ Ed) as (Id & nd & Gd & Nd).
    destruct (output_names _ _ _ _ _ _ _ _ _ _ _ Ee) as (Ie & ne & Ge & Ne).
    split; [congruence|]. exists (na ++ nb ++ nc ++ nd ++ ne). split; [subst; rewrite <- !app_assoc; reflexivity|].
    unfold tool_places. repeat apply news_app; auto.
  Qed.


  (** *** A step *)
  Definition F (st : wstep) : string := after_hash (ws_id st).
  Definition W (s : string) : string := ("_when_expression_" ++ s)%string.
  Definition reqs_of (t : tool) : list wreq := match t_reqs t with Some l => l | None => [] end.
  Definition loaded_places (t : tool) : list string := flat_map (req_places attrs) (reqs_of t) ++ (if is_clt t then tool_places t else []).
  (** the names of the steps a step leads to *)
  Definition bound (st : wstep) : list string :=
    F st :: (if startswith "_expression" (ws_id st) then [] else
             match ws_run st with
             | RTool t => map (E (F st)) (value_places (ws_in st)) ++
                          (if has_text (ws_when st) then W (F st) :: map (E (W (F st))) (when_places replace_etool st) else []) ++
                          map (E (F st)) (loaded_places t)
             | _ => []
             end).

  Lemma W_no_hash s : has_char "#" s = false -> has_char "#" (W s) = false.
  Proof. intros H. unfold W. rewrite has_char_app, H. reflexivity. Qed.
  Lemma F_no_hash st : has_char "#" (F st) = false.
  Proof. apply (Fragment_after_hash (ws_id st)). Qed.
  Lemma E_no_hash s p : has_char "#" s = false -> has_char "#" p = false -> has_char "#" (E s p) = false.
  Proof. intros A B. unfold E. rewrite !has_char_app, A, B. reflexivity. Qed.

  Lemma when_bound wreqs steps st ins expr st' g : when_step src_params replace_etool wreqs steps st ins expr = Ok (st', g) ->
    ws_id st' = ws_id st /\ ws_id g = W (F st) /\
    sub (bound g) (W (F st) :: map (E (W (F st))) (value_places ins ++ (if replace_etool then made_places else []))).
  Proof.
    unfold when_step. intros H. binv H ps Ep. injection H as <- <-. split; [reflexivity|]. split; [reflexivity|].
    assert (Fg : forall ins t a b, F (gen_step (W (F st)) ins t a b) = W (F st)).
    { intros. apply after_hash_none. cbn [gen_step ws_id]. apply W_no_hash, F_no_hash. }
    unfold bound. rewrite Fg. apply sub_keep. cbn [gen_step ws_id ws_in ws_run ws_when has_text startswith]. cbn [app].
    rewrite map_app. apply sub_app.
    - apply sub_map. unfold value_places.
      assert (G : forall l, sub (map name_of (filter (fun i => has_text (si_valueFrom i)) (filter (fun x => negb (String.eqb (si_id x) "") && negb (startswith "_" (si_id x))) (map when_input l))))
                 (map name_of (filter (fun i => has_text (si_valueFrom i)) l))).
      { clear. induction l as [|i l IH]; [constructor|]. cbn [map filter].
        assert (Q : name_of (when_input i) = name_of i /\ si_valueFrom (when_input i) = si_valueFrom i).
        { unfold when_input. destruct (String.eqb (si_id i) ""); [auto|]. cbn. split; [|reflexivity]. unfold name_of. cbn. rewrite basename_last_part. apply last_part_twice. }
        destruct Q as (Q1 & Q2). destruct (negb _ && negb _) eqn:K; cbn [filter].
        - rewrite Q2. destruct (has_text (si_valueFrom i)); cbn [map]; [rewrite Q1; apply sub_keep|]; exact IH.
        - destruct (has_text (si_valueFrom i)); cbn [map]; [apply sub_skip|]; exact IH. }
      apply G.
    - apply sub_map. destruct replace_etool; [|apply sub_none].
      replace (loaded_places _) with made_places; [apply sub_refl|]. symmetry. unfold loaded_places.
      cbn [etool_to_cltool etool reqs_of t_reqs is_clt t_kind flat_map req_places tool_places t_args t_stdout t_stderr t_inputs t_outputs].
      unfold tool_places. cbn [etool_to_cltool etool t_inputs t_args t_stdout t_stderr t_outputs]. rewrite map_map. cbn [ti_id ti_type].
      assert (N : forall l : list string, filter (fun p => has_text (ti_valueFrom p)) (map (fun x : string => {| ti_id := x; ti_type := JNull; ti_valueFrom := None |}) l) = []).
      { clear. induction l; cbn; auto. }
      rewrite N. reflexivity.
  Qed.

  Lemma expr_bound new s ps : news s ps new -> has_char "#" s = false -> no_hashes ps -> 
    flat_map bound new = map ws_id new /\ map F new = map ws_id new.
  Proof.
    unfold news. intros S Hs. revert new S. induction ps as [|p ps IH]; intros new S N.
    - inversion S as [Q | |]. destruct new; [split; reflexivity | discriminate].
    - inversion N as [|? ? Np Nps]; subst. cbn [map] in S. inversion S as [|x a b S1 Q1 Q2|x a b S1 Q1 Q2].
      + apply IH; auto.
      + destruct new as [|g new]; [discriminate|]. cbn [map] in Q1. injection Q1 as Q1 Q1'. rewrite Q2 in *. subst x.
        destruct (IH new) as (I1 & I2); [rewrite <- Q1'; exact S1 | exact Nps|].
        assert (Fg : F g = ws_id g) by (unfold F; apply after_hash_none; rewrite <- Q1; apply E_no_hash; auto).
        cbn [flat_map map]. rewrite I1, I2, Fg. unfold bound. rewrite Fg.
        assert (St : startswith "_expression" (ws_id g) = true) by (rewrite <- Q1; reflexivity). rewrite St, ?Q1, ?Q1'. split; reflexivity.
  Qed.

  Lemma tstep_names wreqs pre post st st' gen m s :
    traverse_step gx src_example self_example src_params src_known attrs replace_etool skip1 skip2 wreqs pre post st = Ok (st', gen, m, s) ->
    startswith "_expression" (ws_id st) = false -> after_first_hash (ws_id st) = after_hash (ws_id st) -> no_hashes (bound st) ->
    F st' = F st /\ sub (F st :: flat_map bound gen) (bound st) /\
    Forall (fun g => startswith "_expression" (ws_id g) = false -> after_first_hash (ws_id g) = after_hash (ws_id g)) gen.
  Proof.
    unfold traverse_step. intros H Sk One Nh. binv H mock Em. destruct (String.eqb (ws_id st) "").
    { injection H as <- <- _ _. split; [reflexivity|]. split; [|constructor]. cbn [flat_map]. unfold bound. apply sub_keep, sub_none. }
    binv H v Ev. destruct v as [s1 g1]. binv H x Ex. binv H w Ew. binv H p Ep. binv H c Ec.
    destruct w as [s2 g2], p as [[s3 g3] m3], c as [[[s4 g4] m4] sub4]. cbn [fst snd] in *. injection H as <- <- _ _.
    destruct (ws_run st) as [u|t|sb] eqn:R; try discriminate.
    destruct (value_names _ _ _ _ _ _ _ _ _ _ _ _ Ev) as (I1 & W1 & n1 & G1 & N1). cbn [app] in G1. subst g1.
    assert (Two : ws_id s2 = ws_id s1 /\ exists n2, g2 = n1 ++ n2 /\
      sub (flat_map bound n2) (if has_text (ws_when st) then W (F st) :: map (E (W (F st))) (when_places replace_etool st) else []) /\
      Forall (fun g => ws_id g = W (F st)) n2).
    { destruct x as [expr|].
      - binv Ew r Er. destruct r as [s2' gw]. cbn [fst snd] in Ew. injection Ew as <- <-.
        rewrite filled_text in Ex. rewrite W1 in Ex. destruct (has_text (ws_when st)); [|discriminate].
        destruct (when_bound _ _ _ _ _ _ _ Er) as (A & B & C). split; [exact A|]. exists [gw]. split; [reflexivity|].
        unfold F in B, C. rewrite I1 in B, C. split; [|constructor; [exact B | constructor]]. cbn [flat_map]. rewrite app_nil_r. exact C.
      - injection Ew as <- <-. split; [reflexivity|]. exists []. rewrite app_nil_r. split; [reflexivity|]. split; [apply sub_none | constructor]. }
    destruct Two as (I2 & n2 & G2 & N2 & O2). subst g2.
    destruct (level_names _ _ _ _ _ _ _ Ep) as (I3 & n3 & G3 & N3). subst g3. rewrite I2, I1, One in N3.
    assert (Four : ws_id s4 = ws_id s3 /\ exists n4, g4 = ((n1 ++ n2) ++ n3) ++ n4 /\ news (F st) (if is_clt t then tool_places t else []) n4).
    { destruct (is_clt t).
      - destruct (clt_names _ _ _ _ _ _ _ _ Ec) as (A & n4 & B & C). split; [exact A|]. exists n4. split; [exact B|]. unfold F. rewrite <- I1, <- I2, <- I3. exact C.
      - injection Ec as <- <- _ _. split; [reflexivity|]. exists []. rewrite app_nil_r. split; [reflexivity | apply news_nil]. }
    destruct Four as (I4 & n4 & G4 & N4). subst g4.
    assert (Id : ws_id s4 = ws_id st) by congruence. split; [unfold F; rewrite Id; reflexivity|].
    assert (Nb : no_hashes (value_places (ws_in st)) /\ no_hashes (loaded_places t)).
    { assert (Un : forall ps, no_hashes (map (E (F st)) ps) -> no_hashes ps).
      { clear. intros ps H. unfold no_hashes in *. rewrite Forall_map in H. eapply Forall_impl; [|exact H]. intros p. unfold E. cbn beta.
        rewrite !has_char_app. intros Q. apply orb_false_iff in Q. destruct Q as (_ & Q). apply orb_false_iff in Q. destruct Q as (_ & Q).
        apply orb_false_iff in Q. apply Q. }
      unfold bound in Nh. rewrite Sk, R in Nh. inversion Nh as [|? ? _ Nh']; subst. unfold no_hashes in Nh'. rewrite !Forall_app in Nh'.
      destruct Nh' as (X1 & _ & X3). split; apply Un; assumption. }
    destruct Nb as (Nb1 & Nb2).
    pose proof (news_app _ _ _ _ _ N3 N4) as N34. fold (loaded_places t) in N34.
    destruct (expr_bound _ _ _ N1 (F_no_hash st) Nb1) as (B1 & _). destruct (expr_bound _ _ _ N34 (F_no_hash st) Nb2) as (B34 & _).
    split.
    - rewrite <- !app_assoc, (flat_map_app bound n1), (flat_map_app bound n2), B1, B34.
      unfold bound at 2. rewrite Sk, R. apply sub_keep. apply sub_app; [exact N1|]. apply sub_app; [exact N2 | exact N34].
    - assert (Ex1 : forall ps n, news (F st) ps n -> Forall (fun g => startswith "_expression" (ws_id g) = false -> after_first_hash (ws_id g) = after_hash (ws_id g)) n).
      { clear. intros ps n N. unfold news in N. apply sub_incl in N. apply Forall_forall. intros g I Q.
        assert (J : In (ws_id g) (map (E (F st)) ps)) by (apply N, in_map; exact I). apply in_map_iff in J. destruct J as (p & J & _). rewrite <- J in Q. discriminate Q. }
      rewrite !Forall_app. repeat split; try (eapply Ex1; eassumption).
      eapply Forall_impl; [|exact O2]. cbn beta. intros g -> _. pose proof (W_no_hash _ (F_no_hash st)) as Q.
      unfold after_first_hash. rewrite after_first_none by exact Q. symmetry. apply after_hash_none. exact Q.
  Qed.

  Lemma loop_names fuel : forall wreqs done_ todo m wreqs' all m',
    steps_loop gx src_example self_example src_params src_known attrs replace_etool skip1 skip2 fuel wreqs done_ todo m = Ok (wreqs', all, m') ->
    Forall (fun g => startswith "_expression" (ws_id g) = false -> after_first_hash (ws_id g) = after_hash (ws_id g)) todo ->
    no_hashes (flat_map bound todo) -> exists rest, Permutation (map F all ++ rest) (map F done_ ++ flat_map bound todo).
  Proof.
    induction fuel as [|fuel IH]; intros wreqs done_ todo m wreqs' all m' H One Nh; destruct todo as [|st todo]; cbn [steps_loop] in H; try discriminate;
      try (injection H as _ <- _; exists []; reflexivity).
    inversion One as [|? ? O1 Os]; subst. cbn [flat_map] in Nh. unfold no_hashes in Nh. rewrite Forall_app in Nh. destruct Nh as (Nh1 & Nh2).
    destruct (startswith "_expression" (ws_id st)) eqn:Sk.
    - destruct (IH _ _ _ _ _ _ _ H Os Nh2) as (rest & P). exists rest. rewrite P, map_app, <- app_assoc. cbn [flat_map map]. unfold bound at 2. rewrite Sk. reflexivity.
    - binv H r Er. destruct r as [[[st' gen] mm] s].
      destruct (tstep_names _ _ _ _ _ _ _ _ Er Sk (O1 eq_refl) Nh1) as (A & B & C).
      apply sub_perm in B. destruct B as (r1 & B).
      destruct (IH _ _ _ _ _ _ _ H) as (rest & P).
      + apply Forall_app. auto.
      + unfold no_hashes. rewrite flat_map_app. apply Forall_app. split; [exact Nh2|].
        assert (In1 : incl (flat_map bound gen) (bound st)).
        { intros y I. eapply Permutation_in; [exact B|]. cbn. right. apply in_or_app. auto. }
        apply Forall_forall. intros y I. rewrite Forall_forall in Nh1. auto.
      + exists (rest ++ r1). rewrite app_assoc. eapply Permutation_trans; [apply Permutation_app_tail; exact P|].
        rewrite map_app, flat_map_app. cbn [map flat_map]. rewrite A, <- !app_assoc. apply Permutation_app_head.
        eapply Permutation_trans; [|apply Permutation_app_tail; exact B]. cbn [app]. constructor. rewrite <- app_assoc.
        eapply Permutation_trans; [apply Permutation_app_comm|]. rewrite <- app_assoc. apply Permutation_refl.
  Qed.

  (** *** Outputs and requirements of the workflow *)
  Definition PK (o : string) : string := ("_pickValue_workflow_step_" ++ o)%string.
  Lemma pick_names wreqs : forall todo done_ steps m outs all m',
    pick_loop out_known replace_etool wreqs done_ todo steps m = Ok (outs, all, m') ->
    exists new, all = steps ++ new /\ map F new = map (fun o => PK (fragment (wo_id o))) (filter (fun o => has_text (wo_pick o)) todo).
  Proof.
    induction todo as [|o todo IH]; intros done_ steps m outs all m' H; cbn [pick_loop] in H.
    { injection H as _ <- _. exists []. rewrite app_nil_r. split; reflexivity. }
    rewrite filled_text in H. cbn [filter]. destruct (has_text (wo_pick o)) eqn:T; [|eapply IH; exact H].
    destruct (wo_pick o) as [p|]; [|discriminate].
    - binv H expr Ee. cbn zeta in H. binv H sources Es. binv H u Eu. apply IH in H. destruct H as (new & A & B).
      eexists (_ :: new). rewrite A, <- app_assoc. split; [reflexivity|]. cbn [map]. rewrite B. f_equal.
      unfold F. cbn [expr_step gen_step ws_id]. rewrite fragment_after_hash. apply after_hash_none. unfold PK. rewrite has_char_app.
      apply (Fragment_after_hash (wo_id o)).
  Qed.

  Definition qok (ps : list string) (q q' : wrq) : Prop := exists new, q_steps q' = q_steps q ++ new /\ news "workflow" ps new.
  Lemma qok_refl ps q q' : q_steps q' = q_steps q -> qok ps q q'.
  Proof. intros A. exists []. rewrite A, app_nil_r. split; [reflexivity | apply news_nil]. Qed.
  Lemma qok_trans ps qs a b c : qok ps a b -> qok qs b c -> qok (ps ++ qs) a c.
  Proof. intros (n1 & A & B) (n2 & C & D). exists (n1 ++ n2). rewrite C, A, app_assoc. split; [reflexivity | apply news_app; auto]. Qed.
  Lemma wenv_names wl inputs req : forall defs k q q', wrq_env gx replace_etool wl inputs req k defs q = Ok q' ->
    qok (map (fun k => ("EnvVarRequirement_" ++ str_nat k)%string) (seq k (List.length defs))) q q'.
  Proof.
    induction defs as [|[n v] defs IH]; intros k q q' H; cbn [wrq_env] in H; [injection H as <-; apply qok_refl; reflexivity|].
    cbn [List.length]. rewrite seq_S. binv H x Ex. destruct x as [expr|].
    - binv H new En. apply IH in H. refine (qok_trans [_] _ _ _ _ _ H). eexists. split; [reflexivity|]. apply news_one. reflexivity.
    - apply IH in H. refine (qok_trans [_] _ _ _ _ _ H). apply qok_refl. reflexivity.
  Qed.
  Lemma wres_names wl inputs values : forall l q q', wrq_res gx replace_etool wl inputs values l q = Ok q' ->
    qok (map (fun a => ("ResourceRequirement_" ++ a)%string) l) q q'.
  Proof.
    induction l as [|a l IH]; intros q q' H; cbn [wrq_res] in H; [injection H as <-; apply qok_refl; reflexivity|].
    cbn [map]. cbn zeta in H. binv H x Ex. destruct x as [expr|].
    - apply IH in H. refine (qok_trans [_] _ _ _ _ _ H). eexists. split; [reflexivity|]. apply news_one. reflexivity.
    - apply IH in H. refine (qok_trans [_] _ _ _ _ _ H). apply qok_refl. reflexivity.
  Qed.
  Lemma wentries_names wl inputs : forall l k q q', wrq_entries gx ev replace_etool wl inputs k l q = Ok q' ->
    qok (map (fun k => ("InitialWorkDirRequirement_" ++ str_nat k)%string) (seq k (List.length l))) q q'.
  Proof.
    induction l as [|e l IH]; intros k q q' H; cbn [wrq_entries] in H; [injection H as <-; apply qok_refl; reflexivity|].
    cbn [List.length]. rewrite seq_S. cbn zeta in H. binv H q1 H1. apply IH in H. refine (qok_trans [_] _ _ _ _ _ H). clear H IH.
    match type of H1 with context [Ok ?q0] => set (q0' := q0) in H1 end.
    assert (Q0 : q_steps q0' = q_steps q) by reflexivity. clearbody q0'.
    destruct e as [s|en enm|?].
    - binv H1 x Ex. destruct x as [expr|]; [|injection H1 as <-; apply qok_refl; exact Q0]. binv H1 new En. injection H1 as <-.
      eexists. split; [cbn [q_steps]; rewrite ?Q0; reflexivity|]. apply news_one. reflexivity.
    - destruct (filled en) as [txt|].
      + binv H1 x Ex. destruct x as [expr|]; [binv H1 y Ey; discriminate | injection H1 as <-; apply qok_refl; exact Q0].
      + destruct (filled enm) as [nm|]; [|injection H1 as <-; apply qok_refl; exact Q0].
        binv H1 x Ex. destruct x as [expr|]; [|injection H1 as <-; apply qok_refl; exact Q0]. binv H1 new En. injection H1 as <-.
        eexists. split; [cbn [q_steps]; rewrite ?Q0; reflexivity|]. apply news_one. reflexivity.
    - injection H1 as <-. apply qok_refl. exact Q0.
  Qed.
  Lemma wreqs_names wl inputs : forall l q q', wrq_reqs gx ev attrs replace_etool wl inputs l q = Ok q' -> qok (flat_map (wf_req_places attrs) l) q q'.
  Proof.
    induction l as [|r l IH]; intros q q' H; cbn [wrq_reqs] in H; [injection H as <-; apply qok_refl; reflexivity|].
    binv H q1 H1. apply IH in H. cbn [flat_map]. refine (qok_trans _ _ _ _ _ _ H). clear H IH.
    destruct r as [defs|values|li|?| | |?]; cbn [wf_req_places req_places]; try (injection H1 as <-; apply qok_refl; reflexivity).
    - eapply wenv_names; eauto.
    - eapply wres_names; eauto.
    - unfold wrq_iwd in H1. destruct li as [|s|l0|s]; try (injection H1 as <-; apply qok_refl; reflexivity).
      + destruct (String.eqb s ""); [injection H1 as <-; apply qok_refl; reflexivity|]. binv H1 x Ex.
        destruct x as [expr|]; [|injection H1 as <-; apply qok_refl; reflexivity]. injection H1 as <-. eexists. split; [reflexivity|]. apply news_one. reflexivity.
      + destruct l0 as [|e0 l0]; [injection H1 as <-; apply qok_refl; reflexivity|]. binv H1 q2 E2. injection H1 as <-.
        apply wentries_names in E2. destruct E2 as (new & A & B). exists new. split; [exact A | exact B].
  Qed.
  Lemma add_req_F r ins st : F (add_req r ins st) = F st.
  Proof. unfold add_req, F. destruct (own_step st); reflexivity. Qed.
  Lemma map_add_req_F r ins l : map F (map (add_req r ins) l) = map F l.
  Proof. rewrite map_map. apply map_ext. intros. apply add_req_F. Qed.
  Lemma process_names winputs wreqs steps wreqs' all m :
    process_reqs gx ev attrs replace_etool winputs wreqs steps = Ok (wreqs', all, m) ->
    exists new, map F all = map F steps ++ map F new /\ news "workflow" (flat_map (wf_req_places attrs) (match wreqs with Some l => l | None => [] end)) new.
  Proof.
    unfold process_reqs. intros H. binv H q Hq. injection H as _ <- _. apply wreqs_names in Hq. destruct Hq as (new & A & B). cbn [q_steps] in A.
    exists new. split; [|exact B]. rewrite <- map_app, <- A.
    destruct (q_iwd q), (q_res q), (q_env q); rewrite ?map_add_req_F; reflexivity.
  Qed.
End Names.
