(** * Lemmas on the requirements of a workflow *)
From Verif Require Import PyBase PyBaseProofs PackModel ExprModel EvalModel RefactorModel RefactorSpec RefactorProofs
  FlowModel FlowSpec FlowProofs FlowProofs2 FlowTrace FlowValueSpec FlowValueProofs FlowReqSpec.

Definition some_of {A} (l : list A) : bool := match l with [] => false | _ => true end.

Section Reqs.
  Variable gx : json -> json -> json -> result (option string).
  Variable ev : string -> json -> result json.
  Variable attrs : list string.
  Variable replace_etool : bool.

  Lemma find_ValueNotFound v inputs : find_expr gx v inputs JNull = Ok None -> ValueNotFound gx v.
  Proof.
    unfold find_expr. intros E. binv E r Er. right. exists inputs, r. split; auto. destruct r as [s|]; auto. cbn in E.
    destruct (String.eqb_spec s "") as [->|]; [auto | discriminate].
  Qed.
  Lemma find_ValueFound v inputs e : find_expr gx v inputs JNull = Ok (Some e) -> ValueFound gx v e.
  Proof.
    unfold find_expr. intros E. binv E r Er. destruct r as [s|]; [|discriminate]. cbn in E.
    destruct (String.eqb_spec s "") as [->|N]; [discriminate|]. injection E as <-. split; auto. exists inputs. exact Er.
  Qed.
  Lemma find_is_Found v inputs e : find_expr gx (JStr v) inputs JNull = Ok (Some e) -> Found gx v e.
  Proof. intros E. apply find_ValueFound in E. destruct E as (N & i & E). split; auto. exists i, JNull. exact E. Qed.
  Lemma find_is_NotFound v inputs : find_expr gx (JStr v) inputs JNull = Ok None -> NotFound gx v.
  Proof. intros E. apply find_ValueNotFound in E. destruct E as [E | (i & r & E & D)]; [left; cbn in E; destruct (String.eqb_spec v ""); [auto|discriminate]|]. right. exists i, JNull, r. auto. Qed.

  (** ** Environment *)
  Definition env_name (k : nat) : string := ("_expression_workflow_EnvVarRequirement_" ++ str_nat k)%string.
  Definition env_in (k : nat) : string := ("_envDef" ++ str_nat k)%string.
  Inductive env_run : nat -> list (string * string) -> list (string * string) -> list (nat * string) -> Prop :=
  | er_nil k : env_run k [] [] []
  | er_kept k n v l l' mv : NotFound gx v -> env_run (S k) l l' mv -> env_run k ((n, v) :: l) ((n, v) :: l') mv
  | er_moved k n v e l l' mv : v <> "" -> Found gx v e -> env_run (S k) l l' mv ->
      env_run k ((n, v) :: l) ((n, ("$(inputs._envDef" ++ str_nat k ++ ")")%string) :: l') ((k, e) :: mv).

  Lemma env_run_none k l l' : env_run k l l' [] -> l' = l /\ Forall (fun d => NotFound gx (snd d)) l.
  Proof.
    remember [] as mv eqn:M. intros H. induction H as [| |]; auto; [|discriminate].
    destruct (IHenv_run M) as (-> & F). auto.
  Qed.
  Lemma set_nth_app {A} (pre : list A) x y l : set_nth (List.length pre) x (pre ++ y :: l) = Ok (pre ++ x :: l).
  Proof. induction pre as [|a pre IH]; cbn; auto. rewrite IH. reflexivity. Qed.

  Lemma wrq_env_exact wl inputs req : forall defs k pre pre' q q',
    wrq_env gx replace_etool wl inputs req k defs q = Ok q' ->
    req = pre ++ defs -> List.length pre = k -> List.length pre' = k ->
    (q_env q = None /\ pre' = pre \/ q_env q = Some (pre' ++ defs)) ->
    exists defs' mv, env_run k defs defs' mv /\
    q' = {| q_steps := q_steps q ++ map (fun p => expr_step replace_etool [wl] (env_name (fst p)) SNone (snd p)) mv;
            q_mod := q_mod q || some_of mv;
            q_index := match defs with [] => q_index q | _ => k + List.length defs - 1 end;
            q_env := if some_of mv then Some (pre' ++ defs') else q_env q;
            q_genv := q_genv q ++ map (fun p => (env_name (fst p), env_in (fst p))) mv;
            q_res := q_res q; q_gres := q_gres q; q_iwd := q_iwd q; q_giwd := q_giwd q;
            q_penv := q_penv q || some_of mv; q_pres := q_pres q; q_piwd := q_piwd q |}.
  Proof.
    induction defs as [|(n, v) defs IH]; intros k pre pre' q q' E Rq Lp Lp' H; cbn [wrq_env] in E.
    { injection E as <-. exists [], []. split; [constructor|]. destruct q; cbn. rewrite !app_nil_r, !orb_false_r. reflexivity. }
    binv E x Ex. destruct x as [expr|].
    - cbn zeta in E. destruct (String.eqb_spec v "") as [->|Nv]; [discriminate|].
      cbn [q_steps q_mod q_index q_env q_genv q_res q_gres q_iwd q_giwd q_penv q_pres q_piwd] in E.
      assert (Sn : set_nth k (n, ("$(inputs._envDef" ++ str_nat k ++ ")")%string) match q_env q with Some d => d | None => req end
                   = Ok (pre' ++ (n, ("$(inputs._envDef" ++ str_nat k ++ ")")%string) :: defs)).
      { destruct H as [(-> & ->) | ->]; [rewrite Rq|]; subst k; [|rewrite <- Lp']; apply set_nth_app. }
      rewrite Sn in E. cbn [bind] in E.
      destruct (IH (S k) (pre ++ [(n, v)]) (pre' ++ [(n, ("$(inputs._envDef" ++ str_nat k ++ ")")%string)]) _ _ E)
        as (defs' & mv & R & ->).
      + rewrite <- app_assoc. exact Rq.
      + rewrite app_length. cbn. lia.
      + rewrite app_length. cbn. lia.
      + right. cbn [q_env]. rewrite <- app_assoc. reflexivity.
      + eexists _, _. split; [eapply er_moved; eauto using find_is_Found|].
        cbn [q_steps q_mod q_index q_env q_genv q_res q_gres q_iwd q_giwd q_penv q_pres q_piwd some_of map fst snd].
        rewrite <- !app_assoc, orb_true_r. cbn [app orb]. rewrite orb_true_r. f_equal.
        * destruct defs; cbn; lia.
        * destruct mv; cbn [some_of]; auto. apply env_run_none in R. destruct R as (-> & _). rewrite <- ?app_assoc. reflexivity.
    - destruct (IH (S k) (pre ++ [(n, v)]) (pre' ++ [(n, v)]) _ _ E) as (defs' & mv & R & ->).
      + rewrite <- app_assoc. exact Rq.
      + rewrite app_length. cbn. lia.
      + rewrite app_length. cbn. lia.
      + cbn [q_env]. destruct H as [(H & ->) | H]; [left; auto | right]. rewrite <- app_assoc. exact H.
      + eexists _, _. split.
        { eapply er_kept; [|exact R]. destruct (String.eqb_spec v "") as [->|Nv]; [left; auto | eapply find_is_NotFound; eauto]. }
        cbn [q_steps q_mod q_index q_env q_genv q_res q_gres q_iwd q_giwd q_penv q_pres q_piwd]. f_equal.
        * destruct defs; cbn; lia.
        * destruct mv; auto. cbn [some_of]. rewrite <- app_assoc. reflexivity.
  Qed.

  (** ** Resources *)
  Definition res_name (a : string) : string := ("_expression_workflow_ResourceRequirement_" ++ a)%string.
  Definition res_ref (a : string) : json := JStr ("$(inputs._" ++ a ++ ")").
  Definition value_of (values : list (string * json)) (a : string) : json := match dget a values with Some v => v | None => JNull end.
  Inductive res_run (values : list (string * json)) : list string -> list (string * string) -> Prop :=
  | rr_nil : res_run values [] []
  | rr_kept a l mv : ValueNotFound gx (value_of values a) -> res_run values l mv -> res_run values (a :: l) mv
  | rr_moved a e l mv : ValueFound gx (value_of values a) e -> res_run values l mv -> res_run values (a :: l) ((a, e) :: mv).

  Lemma wrq_res_exact wl inputs values : forall l q q',
    wrq_res gx replace_etool wl inputs values l q = Ok q' ->
    exists mv, res_run values l mv /\
    q' = {| q_steps := q_steps q ++ map (fun p => expr_step replace_etool [wl] (res_name (fst p)) SNone (snd p)) mv;
            q_mod := q_mod q || some_of mv; q_index := q_index q;
            q_env := q_env q; q_genv := q_genv q;
            q_res := if some_of mv then Some (fold_left (fun d p => dset (fst p) (res_ref (fst p)) d) mv
                                                (match q_res q with Some d => d | None => [] end)) else q_res q;
            q_gres := q_gres q ++ map (fun p => (res_name (fst p), ("_" ++ fst p)%string)) mv;
            q_iwd := q_iwd q; q_giwd := q_giwd q;
            q_penv := q_penv q; q_pres := q_pres q || some_of mv; q_piwd := q_piwd q |}.
  Proof.
    induction l as [|a l IH]; intros q q' E; cbn [wrq_res] in E.
    { injection E as <-. exists []. split; [constructor|]. destruct q; cbn. rewrite !app_nil_r, !orb_false_r. reflexivity. }
    binv E x Ex. destruct x as [expr|].
    - destruct (IH _ _ E) as (mv & R & ->). exists ((a, expr) :: mv). split.
      { apply rr_moved; auto. unfold value_of. destruct (truthy _); [|discriminate]. eapply find_ValueFound; eauto. }
      cbn [q_steps q_mod q_index q_env q_genv q_res q_gres q_iwd q_giwd q_penv q_pres q_piwd some_of map fst snd fold_left].
      rewrite <- !app_assoc, orb_true_r. cbn [app orb]. rewrite orb_true_r. f_equal.
      destruct mv; reflexivity.
    - destruct (IH _ _ E) as (mv & R & ->). exists mv. split; auto. apply rr_kept; auto.
      unfold value_of. destruct (truthy _) eqn:T; [eapply find_ValueNotFound; eauto | left; exact T].
  Qed.

  (** ** Files *)
  Definition iwd_nth (k : nat) : string := ("_expression_workflow_InitialWorkDirRequirement_" ++ str_nat k)%string.
  Inductive iwd_run : nat -> list entry -> list entry -> list (nat * string) -> Prop :=
  | ir_nil k : iwd_run k [] [] []
  | ir_kept k e l l' mv : (forall s, Plain e s \/ Named e s \/ Texted e s -> NotFound gx s) ->
      iwd_run (S k) l l' mv -> iwd_run k (e :: l) (e :: l') mv
  | ir_moved k e s x l l' mv : Plain e s \/ Named e s -> Found gx s x -> iwd_run (S k) l l' mv ->
      iwd_run k (e :: l) (EText ("$(inputs._iwdr_listing_" ++ str_nat k) :: l') ((k, x) :: mv).

  Lemma iwd_run_none k l l' : iwd_run k l l' [] -> l' = l /\ Forall (fun e => forall s, Plain e s \/ Named e s \/ Texted e s -> NotFound gx s) l.
  Proof.
    remember [] as mv eqn:M. intros H. induction H as [| |]; auto; [|discriminate].
    destruct (IHiwd_run M) as (-> & F). auto.
  Qed.

  Lemma filled_none o : filled o = None -> no_text o.
  Proof. unfold filled, no_text. destruct o as [s|]; auto. destruct (String.eqb_spec s "") as [->|]; [auto|discriminate]. Qed.
  Lemma filled_some o s : filled o = Some s -> o = Some s /\ s <> "".
  Proof. unfold filled. destruct o as [t|]; [|discriminate]. destruct (String.eqb_spec t ""); [discriminate|]. intros E. injection E as <-. auto. Qed.

  (** what is done with one entry *)
  Lemma entry_cases (put : string -> result wrq) q q1 e inputs :
    match e with
    | EText s => do x <- find_expr gx (JStr s) inputs JNull; match x with Some expr => put expr | None => Ok q end
    | EDirent en enm =>
        match filled en with
        | Some txt => do x <- find_expr gx (JStr txt) inputs JNull;
                      match x with None => Ok q | Some _ => do _ <- ev txt inputs; Err NotImplementedError end
        | None => match filled enm with
                  | None => Ok q
                  | Some nm => do x <- find_expr gx (JStr nm) inputs JNull; match x with Some expr => put expr | None => Ok q end
                  end
        end
    | EOther _ => Ok q
    end = Ok q1 ->
    (q1 = q /\ (forall s, Plain e s \/ Named e s \/ Texted e s -> NotFound gx s)) \/
    (exists s x, (Plain e s \/ Named e s) /\ Found gx s x /\ put x = Ok q1).
  Proof.
    destruct e as [s|en enm|j]; intros E.
    - binv E x Ex. destruct x as [x|].
      + right. exists s, x. split; [left; reflexivity|]. split; auto. eapply find_is_Found; eauto.
      + injection E as <-. left. split; auto. intros t [P | [(u & P & _) | (u & P & _)]]; try discriminate. injection P as <-.
        eapply find_is_NotFound; eauto.
    - destruct (filled en) as [txt|] eqn:F.
      + binv E x Ex. apply filled_some in F. destruct F as (-> & F). destruct x as [x|]; [binv E y Ey; discriminate|].
        injection E as <-. left. split; auto. intros t [P | [(u & P & P1 & P2) | (u & P & _)]]; try discriminate.
        * injection P as <- _. destruct P2 as [P2 | P2]; [discriminate|]. congruence.
        * injection P as <- _. eapply find_is_NotFound; eauto.
      + apply filled_none in F. destruct (filled enm) as [nm|] eqn:G.
        * apply filled_some in G. destruct G as (-> & G). binv E x Ex. destruct x as [x|].
          -- right. exists nm, x. split; [right; exists en; auto|]. split; auto. eapply find_is_Found; eauto.
          -- injection E as <-. left. split; auto. intros t [P | [(u & P & _) | (u & P & P1)]]; try discriminate.
             ++ injection P as _ <-. eapply find_is_NotFound; eauto.
             ++ injection P as -> _. destruct F as [F | F]; congruence.
        * injection E as <-. apply filled_none in G. left. split; auto. intros t [P | [(u & P & P1 & _) | (u & P & P1)]]; try discriminate.
          -- injection P as _ ->. destruct G as [G | G]; congruence.
          -- injection P as -> _. destruct F as [F | F]; congruence.
    - injection E as <-. left. split; auto. intros t [P | [(u & P & _) | (u & P & _)]]; discriminate.
  Qed.

  Lemma wrq_entries_exact wl inputs : forall l k pre q q',
    wrq_entries gx ev replace_etool wl inputs k l q = Ok q' ->
    List.length pre = k -> q_iwd q = Some (LList (pre ++ l)) ->
    exists l' mv, iwd_run k l l' mv /\
    q' = {| q_steps := q_steps q ++ map (fun p => expr_step replace_etool [wl] (iwd_nth (fst p)) SNone (snd p)) mv;
            q_mod := q_mod q || some_of mv;
            q_index := match l with [] => q_index q | _ => k + List.length l - 1 end;
            q_env := q_env q; q_genv := q_genv q; q_res := q_res q; q_gres := q_gres q;
            q_iwd := Some (LList (pre ++ l')); q_giwd := q_giwd q ++ map (fun p => iwd_nth (fst p)) mv;
            q_penv := q_penv q; q_pres := q_pres q; q_piwd := q_piwd q |}.
  Proof.
    induction l as [|e l IH]; intros k pre q q' E Lp H; cbn [wrq_entries] in E.
    { injection E as <-. exists [], []. split; [constructor|]. destruct q; cbn in *. rewrite !app_nil_r, !orb_false_r, H, app_nil_r. reflexivity. }
    binv E q1 E1. apply entry_cases in E1. destruct E1 as [(-> & N) | (s & x & P & F & Pt)].
    - destruct (IH (S k) (pre ++ [e]) _ _ E) as (l' & mv & R & ->).
      + rewrite app_length. cbn. lia.
      + cbn [q_iwd]. rewrite <- app_assoc. exact H.
      + exists (e :: l'), mv. split; [apply ir_kept; auto|].
        cbn [q_steps q_mod q_index q_env q_genv q_res q_gres q_iwd q_giwd q_penv q_pres q_piwd]. rewrite <- app_assoc. f_equal.
        destruct l; cbn; lia.
    - cbn beta in Pt. cbn [q_steps q_mod q_index q_env q_genv q_res q_gres q_iwd q_giwd q_penv q_pres q_piwd] in Pt.
      rewrite H in Pt.
      pose proof (set_nth_app pre (EText ("$(inputs._iwdr_listing_" ++ str_nat k)) e l) as Sn. rewrite Lp in Sn.
      rewrite Sn in Pt. cbn [bind] in Pt. injection Pt as <-.
      destruct (IH (S k) (pre ++ [EText ("$(inputs._iwdr_listing_" ++ str_nat k)]) _ _ E) as (l' & mv & R & ->).
      + rewrite app_length. cbn. lia.
      + cbn [q_iwd]. rewrite <- app_assoc. reflexivity.
      + eexists _, _. split; [eapply ir_moved; eauto|].
        cbn [q_steps q_mod q_index q_env q_genv q_res q_gres q_iwd q_giwd q_penv q_pres q_piwd some_of map fst snd].
        rewrite <- !app_assoc, orb_true_r. cbn [app orb]. f_equal. destruct l; cbn; lia.
  Qed.

  (** ** One list or text *)
  Lemma wrq_iwd_exact wl inputs li q q' :
    wrq_iwd gx ev replace_etool wl inputs li q = Ok q' -> q_giwd q = [] ->
    exists nm mv iw idx, q_steps q' = q_steps q ++ map (fun p => expr_step replace_etool [wl] (nm (fst p)) SNone (snd p)) mv /\
      q' = {| q_steps := q_steps q'; q_mod := q_mod q || some_of mv; q_index := idx;
              q_env := q_env q; q_genv := q_genv q; q_res := q_res q; q_gres := q_gres q;
              q_iwd := if some_of mv then Some iw else match li with LList (_ :: _) => None | _ => q_iwd q end;
              q_giwd := match li with LList _ => map (fun p => nm (fst p)) mv | _ => [] end;
              q_penv := q_penv q; q_pres := q_pres q; q_piwd := q_piwd q || some_of mv |} /\
      match li with
      | LText s => (mv = [] /\ NotFound gx s \/
                    exists e, Found gx s e /\ mv = [(0, e)] /\ iw = LText "$(inputs._iwdr_listing)" /\
                      nm = (fun _ => "_expression_workflow_InitialWorkDirRequirement")) /\ idx = q_index q
      | LList l => nm = iwd_nth /\ (l <> [] -> idx = List.length l - 1) /\ exists l', iw = LList l' /\ iwd_run 0 l l' mv
      | _ => mv = [] /\ idx = q_index q
      end.
  Proof.
    intros E G. unfold wrq_iwd in E.
    assert (Same : q' = q -> q_steps q' = q_steps q ++ map (fun p => expr_step replace_etool [wl] (iwd_nth (fst p)) SNone (snd p)) [] /\
      q' = {| q_steps := q_steps q'; q_mod := q_mod q || false; q_index := q_index q;
              q_env := q_env q; q_genv := q_genv q; q_res := q_res q; q_gres := q_gres q;
              q_iwd := q_iwd q; q_giwd := []; q_penv := q_penv q; q_pres := q_pres q; q_piwd := q_piwd q || false |}).
    { intros ->. cbn [map]. rewrite app_nil_r. split; auto. rewrite <- G, !orb_false_r. destruct q; reflexivity. }
    destruct li as [|s|[|e l]|s].
    - injection E as E. destruct (Same (eq_sym E)) as (A & B). exists iwd_nth, [], LNone, (q_index q). auto.
    - destruct (String.eqb_spec s "") as [->|N].
      { injection E as E. destruct (Same (eq_sym E)) as (A & B). exists iwd_nth, [], LNone, (q_index q). split; auto. split; auto. split; auto. left. split; auto. left; auto. }
      binv E x Ex. destruct x as [expr|].
      + injection E as <-. exists (fun _ => "_expression_workflow_InitialWorkDirRequirement"), [(0, expr)], (LText "$(inputs._iwdr_listing)"), (q_index q).
        split; [reflexivity|]. split; [cbn; rewrite !orb_true_r, G; reflexivity|]. split; auto. right. exists expr. split; auto.
        eapply find_is_Found; eauto.
      + injection E as E. destruct (Same (eq_sym E)) as (A & B). exists iwd_nth, [], LNone, (q_index q). split; auto. split; auto. split; auto.
        left. split; auto. eapply find_is_NotFound; eauto.
    - injection E as E. destruct (Same (eq_sym E)) as (A & B). exists iwd_nth, [], (LList []), (q_index q). split; auto. split; auto. split; auto.
      split; [congruence|]. exists []. split; auto. constructor.
    - binv E q1 E1. injection E as <-.
      destruct (wrq_entries_exact wl inputs (e :: l) 0 [] _ _ E1 eq_refl eq_refl) as (l' & mv & R & ->).
      exists iwd_nth, mv, (LList l'), (List.length (e :: l) - 1). split; [reflexivity|]. split.
      + cbn [q_steps q_mod q_index q_env q_genv q_res q_gres q_iwd q_giwd q_penv q_pres q_piwd some_of app]. rewrite G. cbn [app].
        destruct mv; cbn [some_of map]; rewrite ?orb_true_r, ?orb_false_r; reflexivity.
      + split; auto. split; auto. exists l'. auto.
    - injection E as E. destruct (Same (eq_sym E)) as (A & B). exists iwd_nth, [], LNone, (q_index q). auto.
  Qed.

  (** ** What is not concerned stays *)
  Definition env_part (q : wrq) := (q_env q, q_genv q, q_penv q).
  Definition res_part (q : wrq) := (q_res q, q_gres q, q_pres q).
  Definition iwd_part (q : wrq) := (q_iwd q, q_giwd q, q_piwd q).
  Notation reqs_run wl inputs l q := (wrq_reqs gx ev attrs replace_etool wl inputs l q).

  Lemma wrq_iwd_frame wl inputs li q q' :
    wrq_iwd gx ev replace_etool wl inputs li q = Ok q' ->
    (exists new, q_steps q' = q_steps q ++ new) /\ env_part q' = env_part q /\ res_part q' = res_part q.
  Proof.
    intros E. assert (Same : q' = q -> (exists new, q_steps q' = q_steps q ++ new) /\ env_part q' = env_part q /\ res_part q' = res_part q).
    { intros ->. split; auto. exists []. rewrite app_nil_r. reflexivity. }
    unfold wrq_iwd in E. destruct li as [|s|[|e l]|s]; try (injection E as E; auto; fail).
    - destruct (String.eqb s ""); [injection E as E; auto|]. binv E x Ex. destruct x as [expr|]; [|injection E as E; auto].
      injection E as <-. split; [eexists; reflexivity|]. auto.
    - binv E q1 E1. injection E as <-.
      destruct (wrq_entries_exact wl inputs (e :: l) 0 [] _ _ E1 eq_refl eq_refl) as (l' & mv & R & ->).
      split; [eexists; reflexivity|]. auto.
  Qed.

  Lemma wrq_env_frame wl inputs defs q q' : q_env q = None ->
    wrq_env gx replace_etool wl inputs defs 0 defs q = Ok q' ->
    (exists new, q_steps q' = q_steps q ++ new) /\ res_part q' = res_part q /\ iwd_part q' = iwd_part q.
  Proof.
    intros N E. destruct (wrq_env_exact wl inputs defs defs 0 [] [] q q' E eq_refl eq_refl eq_refl (or_introl (conj N eq_refl)))
      as (d' & mv & R & ->). split; [eexists; reflexivity|]. auto.
  Qed.
  (* also when there was a requirement before *)
  Lemma wrq_env_frame2 wl inputs req defs : forall k q q',
    wrq_env gx replace_etool wl inputs req k defs q = Ok q' ->
    (exists new, q_steps q' = q_steps q ++ new) /\ res_part q' = res_part q /\ iwd_part q' = iwd_part q.
  Proof.
    induction defs as [|(n, v) defs IH]; intros k q q' E; cbn [wrq_env] in E.
    { injection E as <-. split; auto. exists []. rewrite app_nil_r. reflexivity. }
    binv E x Ex. destruct x as [expr|].
    - cbn zeta in E. binv E nw En. apply IH in E. destruct E as ((new & A) & B). cbn [q_steps] in A.
      split; [|exact B]. eexists. rewrite A, <- app_assoc. reflexivity.
    - apply IH in E. exact E.
  Qed.

  Lemma wrq_reqs_frame wl inputs : forall l q q', reqs_run wl inputs l q = Ok q' ->
    (exists new, q_steps q' = q_steps q ++ new) /\
    (Forall (fun r => ~ IsEnv r) l -> env_part q' = env_part q) /\
    (Forall (fun r => ~ IsRes r) l -> res_part q' = res_part q) /\
    (Forall (fun r => ~ IsIwd r) l -> iwd_part q' = iwd_part q) /\
    (Forall (fun r => ~ IsEnv r) l -> Forall (fun r => ~ IsIwd r) l -> q_index q' = q_index q).
  Proof.
    induction l as [|r l IH]; intros q q' E; cbn [wrq_reqs] in E.
    { injection E as <-. repeat split; auto. exists []. rewrite app_nil_r. reflexivity. }
    binv E q1 E1. destruct (IH _ _ E) as ((n2 & B1) & B2 & B3 & B4 & B5).
    assert (A : (exists new, q_steps q1 = q_steps q ++ new) /\ (~ IsEnv r -> env_part q1 = env_part q) /\
                (~ IsRes r -> res_part q1 = res_part q) /\ (~ IsIwd r -> iwd_part q1 = iwd_part q) /\
                (~ IsEnv r -> ~ IsIwd r -> q_index q1 = q_index q)).
    { destruct r; try (injection E1 as <-; repeat split; auto; exists []; rewrite app_nil_r; reflexivity).
      - apply wrq_env_frame2 in E1. cbn [IsEnv IsRes IsIwd]. tauto.
      - apply wrq_res_exact in E1. destruct E1 as (mv & R & ->). cbn [IsEnv IsRes IsIwd]. split; [eexists; reflexivity|].
        repeat split; auto. tauto.
      - apply wrq_iwd_frame in E1. cbn [IsEnv IsRes IsIwd]. tauto. }
    destruct A as ((n1 & A1) & A2 & A3 & A4 & A5). split; [exists (n1 ++ n2); rewrite B1, A1, app_assoc; reflexivity|].
    split; [|split; [|split]].
    - intros F. inversion F; subst. rewrite B2; auto.
    - intros F. inversion F; subst. rewrite B3; auto.
    - intros F. inversion F; subst. rewrite B4; auto.
    - intros F G. inversion F; inversion G; subst. rewrite B5; auto.
  Qed.
  Lemma wrq_reqs_app wl inputs a b : forall q q', reqs_run wl inputs (a ++ b) q = Ok q' ->
    exists q1, reqs_run wl inputs a q = Ok q1 /\ reqs_run wl inputs b q1 = Ok q'.
  Proof.
    induction a as [|r a IH]; intros q q' E; cbn [app wrq_reqs] in *; [eauto|].
    binv E q1 E1. destruct (IH _ _ E) as (q2 & E2 & E3). exists q2. split; auto.
    rewrite E1. exact E2.
  Qed.

  (** ** The steps afterwards *)
  Definition extra_reqs (q : wrq) : list wreq :=
    (match q_env q with Some d => [REnv d] | None => [] end) ++
    (match q_res q with Some d => [RRes d] | None => [] end) ++
    (match q_iwd q with Some d => [RIwd d] | None => [] end).
  Definition gen_ins (l : list (string * string)) : list sinput := map (fun e => feed (snd e) (fst e ++ "/result")) l.
  Definition iwd_ins (q : wrq) : list sinput :=
    match q_giwd q with
    | [] => [feed "_iwdr_listing" "_expression_workflow_InitialWorkDirRequirement/result"]
    | g => map (fun n => feed ("_iwdr_listing_" ++ str_nat (q_index q)) (n ++ "/result")) g
    end.
  Definition extra_ins (q : wrq) : list sinput :=
    (match q_env q with Some d => gen_ins (q_genv q) | None => [] end) ++
    (match q_res q with Some d => gen_ins (q_gres q) | None => [] end) ++
    (match q_iwd q with Some d => iwd_ins q | None => [] end).

  (** requirements [rs] and inputs [ins] were added to the step *)
  Record added (rs : list wreq) (ins : list sinput) (s s' : wstep) : Prop := {
    ad_id : ws_id s' = ws_id s;
    ad_not : own_step s = false -> s' = s;
    ad_own : own_step s = true -> ws_in s' = ws_in s ++ ins /\ reqs_of s' = reqs_of s ++ rs }.
  Lemma added_trans r1 i1 r2 i2 a b c : added r1 i1 a b -> added r2 i2 b c -> added (r1 ++ r2) (i1 ++ i2) a c.
  Proof.
    intros [A1 A2 A3] [B1 B2 B3]. assert (O : own_step b = own_step a) by (unfold own_step; rewrite A1; reflexivity).
    split; [congruence | |].
    - intros H. rewrite B2; [auto | congruence].
    - intros H. destruct (A3 H) as (X & Y). rewrite O in B3. destruct (B3 H) as (X' & Y').
      rewrite X', Y', X, Y, !app_assoc. auto.
  Qed.
  Lemma added_refl a : added [] [] a a.
  Proof. split; auto. rewrite !app_nil_r. auto. Qed.
  Lemma added_req r ins s : added [r] ins s (add_req r ins s).
  Proof. unfold add_req. split; destruct (own_step s); auto; discriminate. Qed.
  Lemma added_map r1 i1 r ins a b : Forall2 (added r1 i1) a b -> Forall2 (added (r1 ++ [r]) (i1 ++ ins)) a (map (add_req r ins) b).
  Proof. intros F. induction F; cbn; constructor; auto. eapply added_trans; eauto using added_req. Qed.
  Lemma added_none r1 i1 a b : Forall2 (added r1 i1) a b -> Forall2 (added (r1 ++ []) (i1 ++ [])) a b.
  Proof. rewrite !app_nil_r. auto. Qed.

  Definition start (steps : list wstep) : wrq :=
    {| q_steps := steps; q_mod := false; q_index := 0; q_env := None; q_genv := []; q_res := None; q_gres := [];
       q_iwd := None; q_giwd := []; q_penv := false; q_pres := false; q_piwd := false |}.

  Lemma process_reqs_exact winputs wreqs steps wreqs' all m :
    process_reqs gx ev attrs replace_etool winputs wreqs steps = Ok (wreqs', all, m) ->
    exists q, reqs_run (jsreqs wreqs) (wf_mock winputs) (match wreqs with Some l => l | None => [] end) (start steps) = Ok q /\
      Forall2 (added (extra_reqs q) (extra_ins q)) (q_steps q) all /\
      wreqs' = match wreqs with Some l => Some (filter (kept_req q) l) | None => None end.
  Proof.
    unfold process_reqs. intros E. binv E q Eqq. injection E as <- <- <-. exists q. split; auto. split; auto.
    assert (F0 : Forall2 (added [] []) (q_steps q) (q_steps q)) by (apply Forall2_refl; intros; apply added_refl).
    unfold extra_reqs, extra_ins.
    set (s1 := match q_env q with Some d => _ | None => q_steps q end).
    assert (F1 : Forall2 (added (match q_env q with Some d => [REnv d] | None => [] end)
                                (match q_env q with Some d => gen_ins (q_genv q) | None => [] end)) (q_steps q) s1).
    { subst s1. destruct (q_env q); auto. apply (added_map [] []). exact F0. }
    set (s2 := match q_res q with Some d => _ | None => s1 end). rewrite !app_assoc.
    match type of F1 with Forall2 (added ?r ?i) _ _ =>
      assert (F2 : Forall2 (added (r ++ match q_res q with Some d => [RRes d] | None => [] end)
                             (i ++ match q_res q with Some d => gen_ins (q_gres q) | None => [] end)) (q_steps q) s2) end.
    { subst s2. destruct (q_res q); [apply added_map | apply added_none]; exact F1. }
    unfold iwd_ins. destruct (q_iwd q); [apply added_map | apply added_none]; exact F2.
  Qed.
End Reqs.
