(** * Proofs about the refactoring of the requirements of tools, and of tools in workflows *)
From Verif Require Import PyBase PyBaseProofs PackModel ExprModel EvalModel RefactorModel RefactorSpec RefactorProofs
  FlowModel FlowSpec FlowProofs FlowProofs2 FlowTrace FlowValueSpec FlowValueProofs FlowReqSpec FlowReqProofs FlowReqProofs2 FlowToolSpec FlowToolProofs.

Record Same (t1 t2 : tool) : Prop := { sm_rel : ToolRel0 t1 t2; sm_args : t_args t2 = t_args t1;
  sm_stdout : t_stdout t2 = t_stdout t1; sm_stderr : t_stderr t2 = t_stderr t1 }.
Lemma Same_refl t : Same t t.
Proof. split; auto. apply ToolRel0_refl. Qed.
Lemma Same_trans a b c : Same a b -> Same b c -> Same a c.
Proof. intros [A1 A2 A3 A4] [B1 B2 B3 B4]. split; try congruence. eapply ToolRel0_trans; eauto. Qed.
Lemma Same_reqs t r : Same t (tool_reqs r t).
Proof. destruct (ToolRel0_refl t) as [A H B C]. split; auto. split; auto. Qed.

Definition plain_name (x : string) : Prop := startswith "_" x = true /\ has_char "#" x = false.
Lemma Same_input t x : plain_name x -> Same t (tool_inputs (t_inputs t ++ [{| ti_id := x; ti_type := JNull; ti_valueFrom := None |}]) t).
Proof.
  intros (A & B). split; auto. split; auto; cbn.
  - exists (t_inputs t), [{| ti_id := x; ti_type := JNull; ti_valueFrom := None |}]. repeat split; auto. apply Forall2_refl. apply ParamSame_refl.
  - apply Forall2_refl. apply OutSame_refl.
Qed.
Lemma is_clt_kind t : is_clt t = true <-> t_kind t = KClt.
Proof. unfold is_clt. destruct (t_kind t); split; congruence. Qed.
Lemma listing_plain k : plain_name ("_iwdr_listing_" ++ str_nat k).
Proof. split; [apply (startswith_app "_")|]. rewrite has_char_app, str_nat_no_hash. reflexivity. Qed.

Section Reqs.
  Variable gx : json -> json -> json -> result (option string).
  Variable replace_etool skip2 : bool.
  Variables (st0 : wstep) (t0 : tool).
  Hypothesis one_hash : after_first_hash (ws_id st0) = after_hash (ws_id st0).
  Hypothesis id_given : ws_id st0 <> "".
  Notation sn := (after_first_hash (ws_id st0)).

  Record pst (p0 p : plr) (new : list wstep) (rs rs' : list wreq) : Prop := {
    ps_gen : p_gen p = p_gen p0 ++ new;
    ps_grows : grows (p_step p0) (p_step p);
    ps_now : now st0 t0 (p_step p);
    ps_tool : exists t1 t2, ws_run (p_step p0) = RTool t1 /\ ws_run (p_step p) = RTool t2 /\ Same t1 t2 /\
                t_kind t1 = KClt /\ t_reqs t1 = Some rs /\ t_reqs t2 = Some rs';
    ps_env : p_env p = p_env p0;
    ps_res : exists l, p_res p = p_res p0 ++ l /\ Forall (fun e => plain_name (fst e)) l;
    ps_iwd : exists l, p_iwd p = p_iwd p0 ++ l /\ Forall (fun e => plain_name (fst e)) l }.
  (** a beginning *)
  Record pst0 (p : plr) (rs : list wreq) : Prop := {
    p0_now : now st0 t0 (p_step p);
    p0_tool : exists t1, ws_run (p_step p) = RTool t1 /\ t_kind t1 = KClt /\ t_reqs t1 = Some rs }.
  Lemma pst_refl p rs : pst0 p rs -> pst p p [] rs rs.
  Proof.
    intros [A (t1 & B & C & D)]. split; rewrite ?app_nil_r; auto using grows_refl.
    - exists t1, t1. split; [exact B|]. split; [exact B|]. split; [apply Same_refl|]. auto.
    - exists []. rewrite app_nil_r. auto.
    - exists []. rewrite app_nil_r. auto.
  Qed.
  Lemma pst_end p0 p new rs rs' : pst p0 p new rs rs' -> pst0 p rs'.
  Proof.
    intros [A1 A2 A3 (t1 & t2 & B1 & B2 & B3 & B4 & B5 & B6) A5 A6 A7]. split; auto. exists t2. repeat split; auto.
    destruct B3 as [[K _ _] _ _ _]. congruence.
  Qed.
  Lemma pst_trans p0 p1 p2 n1 n2 r0 r1 r2 : pst p0 p1 n1 r0 r1 -> pst p1 p2 n2 r1 r2 -> pst p0 p2 (n1 ++ n2) r0 r2.
  Proof.
    intros [A1 A2 A3 (t1 & t2 & B1 & B2 & B3 & B4 & B5 & B6) A5 (l1 & A6 & A7) (l2 & A8 & A9)]
           [C1 C2 C3 (t3 & t4 & D1 & D2 & D3 & D4 & D5 & D6) C5 (l3 & C6 & C7) (l4 & C8 & C9)].
    assert (t3 = t2) by congruence. subst t3. split; auto; try congruence.
    - rewrite C1, A1, app_assoc. reflexivity.
    - eapply grows_trans; eauto.
    - exists t1, t4. split; [exact B1|]. split; [exact D2|]. split; [exact (Same_trans _ _ _ B3 D3)|]. auto.
    - exists (l1 ++ l3). rewrite C6, A6, app_assoc, Forall_app. auto.
    - exists (l2 ++ l4). rewrite C8, A8, app_assoc, Forall_app. auto.
  Qed.

  (** the input is fed in the end *)
  Definition fedby (fin : wstep) (tf : tool) (e : string * string) : Prop :=
    Declares tf (fst e) /\ In (feed (fst e) (snd e ++ "/result")) (added st0 fin).
  Definition ending (p : plr) (fin : wstep) (tf : tool) : Prop :=
    grows (p_step p) fin /\ (forall t, ws_run (p_step p) = RTool t -> ToolRel0 t tf) /\
    (forall e, In e (p_res p) \/ In e (p_iwd p) -> fedby fin tf e).
  Lemma ending_back p0 p new rs rs' fin tf : pst p0 p new rs rs' -> ending p fin tf -> ending p0 fin tf.
  Proof.
    intros [A1 A2 A3 (t1 & t2 & B1 & B2 & B3 & B4 & B5 & B6) A5 (l1 & A6 & A7) (l2 & A8 & A9)] (E1 & E2 & E3). split; [|split].
    - eapply grows_trans; eauto.
    - intros t T. assert (t = t1) by congruence. subst t. eapply ToolRel0_trans; [apply B3 | auto].
    - intros e H. apply E3. rewrite A6, A8, !in_app_iff. tauto.
  Qed.

  (** a requirement is replaced and a step made *)
  Lemma put_req p rs done r r' l g lr li m : pst0 p rs -> rs = done ++ r :: l ->
    Forall (fun e => plain_name (fst e)) lr -> Forall (fun e => plain_name (fst e)) li ->
    exists st, set_tool_req (List.length done) r' (p_step p) = Ok st /\
      pst p {| p_step := st; p_gen := p_gen p ++ [g]; p_env := p_env p; p_res := p_res p ++ lr; p_iwd := p_iwd p ++ li; p_mod := m |}
          [g] rs (done ++ r' :: l).
  Proof.
    intros [A (t1 & B & C & D)] -> P Q. unfold set_tool_req. rewrite B, D, set_nth_app. eexists. split; [reflexivity|].
    split; cbn [p_gen p_step p_env p_res p_iwd p_mod]; auto.
    - apply grows_run.
    - apply now_run; auto. rewrite B. apply ids_same. reflexivity.
    - exists t1, (tool_reqs (Some (done ++ r' :: l)) t1). split; [exact B|]. split; [reflexivity|]. split; [apply Same_reqs|]. auto.
    - exists lr. auto.
    - exists li. auto.
  Qed.
  Lemma nth_req_here p rs done r l : pst0 p rs -> rs = done ++ r :: l -> nth_req (List.length done) (p_step p) = r.
  Proof.
    intros [A (t1 & B & C & D)] ->. unfold nth_req. rewrite B. cbn [run_reqs]. rewrite D, app_nth2 by lia. rewrite Nat.sub_diag. reflexivity.
  Qed.

  Lemma made_here wreqs p fin place e rs : pst0 p rs -> grows (p_step p) fin ->
    MadeForTool st0 fin t0 place None e (tool_expr_step replace_etool wreqs (p_step p) ("_expression_" ++ sn ++ place) None e).
  Proof.
    intros [A _] G. rewrite one_hash, <- (nw_id _ _ _ A). apply made_now; auto.
  Qed.
  Lemma alone_here procs place e :
    AloneFor st0 place e (expr_step replace_etool procs ("_expression_" ++ sn ++ place) SNone e).
  Proof.
    exists (after_hash (ws_id st0)). split; [apply after_hash_frag|]. rewrite one_hash.
    split; try reflexivity.
    - cbn. apply etool_runs.
    - eexists. split; [reflexivity|]. destruct replace_etool; reflexivity.
  Qed.
  Lemma fedby_linked fin tf x g : fedby fin tf (x, ws_id g) -> LinkedHere st0 fin tf x g.
  Proof. intros (A & B). split; auto. Qed.

  Lemma find_value v inputs r : (if negb (truthy v) then Ok None else find_expr gx v inputs JNull) = Ok r ->
    match r with Some e => ValueFound gx v e | None => ValueNotFound gx v end.
  Proof.
    destruct (truthy v) eqn:T; cbn.
    - unfold find_expr. intros E. binv E z Ez. injection E as <-. destruct z as [s|]; cbn.
      + destruct (String.eqb_spec s "") as [->|N]; [right; eauto 10|]. split; eauto.
      + right. eauto 10.
    - intros E. injection E as <-. left. exact T.
  Qed.

  (** *** resources *)
  Lemma dget_dset_eq {A} a b (x : A) d : dget a (dset b x d) = if String.eqb a b then Some x else dget a d.
  Proof.
    destruct (String.eqb_spec a b) as [<-|N]; [apply dget_dset_same | apply dget_dset_other; auto].
  Qed.
  Lemma res_phase wreqs inputs values0 done l : forall attrs p p' values rs,
    plr_res gx attrs replace_etool wreqs sn (List.length done) inputs values0 p = Ok p' ->
    Forall (fun a => has_char "#" a = false) attrs ->
    pst0 p rs -> rs = done ++ RRes values :: l ->
    exists new values', pst p p' new rs (done ++ RRes values' :: l) /\
      forall all fin tf, incl new all -> ending p' fin tf -> forall a,
        let v := match dget a values0 with Some v => v | None => JNull end in
        (dget a values' = dget a values /\ (In a attrs -> ValueNotFound gx v)) \/
        (dget a values' = Some (JStr ("$(inputs._" ++ a ++ ")")) /\ In a attrs /\
         exists e g, ValueFound gx v e /\ In g all /\ MadeForTool st0 fin t0 ("_ResourceRequirement_" ++ a) None e g /\
           LinkedHere st0 fin tf ("_" ++ a) g).
  Proof.
    unfold plr_res. induction attrs as [|a attrs IH]; intros p p' values rs E H P R; cbn [foldM] in E.
    { injection E as <-. exists [], values. split; [subst rs; apply pst_refl; auto|].
      intros all fin tf _ _ a. left. split; [reflexivity | intros []]. }
    inversion H as [|? ? Ha H']; subst. binv E p1 E1.
    set (v := match dget a values0 with Some v => v | None => JNull end) in E1.
    assert (X : exists x, (if negb (truthy v) then Ok None else find_expr gx v inputs JNull) = Ok x /\
      match x with
      | None => p1 = p
      | Some expr =>
          exists st, set_tool_req (List.length done) (RRes (dset a (JStr ("$(inputs._" ++ a ++ ")"))
                             (match nth_req (List.length done) (p_step p) with RRes v => v | _ => [] end))) (p_step p) = Ok st /\
          p1 = {| p_step := st; p_gen := p_gen p ++ [tool_expr_step replace_etool wreqs (p_step p) ("_expression_" ++ sn ++ "_ResourceRequirement_" ++ a) None expr];
                  p_env := p_env p; p_res := p_res p ++ [(("_" ++ a)%string, ("_expression_" ++ sn ++ "_ResourceRequirement_" ++ a)%string)];
                  p_iwd := p_iwd p; p_mod := true |}
      end).
    { destruct (negb (truthy v)); [injection E1 as <-; exists None; auto|].
      binv E1 x Ex. exists x. split; auto. destruct x as [expr|]; [|congruence].
      cbn zeta in E1. binv E1 st Est. injection E1 as <-. exists st. split; auto. }
    destruct X as (x & Ex & X). apply find_value in Ex. clear E1. destruct x as [expr|].
    - destruct X as (st & Est & Ep1). rewrite (nth_req_here p _ done (RRes values) l P eq_refl) in Est.
      set (g := tool_expr_step replace_etool wreqs (p_step p) ("_expression_" ++ sn ++ "_ResourceRequirement_" ++ a) None expr) in *.
      set (values1 := dset a (JStr ("$(inputs._" ++ a ++ ")")) values) in *.
      destruct (put_req p _ done (RRes values) (RRes values1) l g [(("_" ++ a)%string, ("_expression_" ++ sn ++ "_ResourceRequirement_" ++ a)%string)] [] true P eq_refl)
        as (st' & Est' & P1).
      { constructor; auto. split; [apply (startswith_app "_")|]. cbn [fst]. rewrite has_char_app, Ha. reflexivity. }
      { constructor. }
      rewrite Est in Est'. injection Est' as <-. rewrite app_nil_r in P1. rewrite <- Ep1 in P1.
      destruct (IH _ _ values1 _ E H' (pst_end _ _ _ _ _ P1) eq_refl) as (new & values' & P2 & M).
      exists (g :: new), values'. split; [exact (pst_trans _ _ _ [g] _ _ _ _ P1 P2)|].
      intros all fin tf I En b. assert (I' : incl new all) by (intros z Z; apply I; right; exact Z).
      destruct (M all fin tf I' En b) as [(M1 & M2) | (M1 & M2 & M3)]; [|right; split; [exact M1|]; split; [right; exact M2 | exact M3]].
      subst values1. rewrite dget_dset_eq in M1. destruct (String.eqb_spec b a) as [->|Nb].
      + right. split; [exact M1|]. split; [left; reflexivity|]. exists expr, g. split; [exact Ex|]. split; [apply I; left; reflexivity|].
        pose proof (ending_back _ _ _ _ _ _ _ P2 En) as En1. pose proof (ending_back _ _ _ _ _ _ _ P1 En1) as En0. split.
        * subst g. eapply (made_here _ _ _ ("_ResourceRequirement_" ++ a)); [exact P | apply En0].
        * apply fedby_linked. apply En1. left. rewrite Ep1. cbn [p_res]. apply in_or_app. right. left. reflexivity.
      + left. split; auto. intros [-> | Ib]; [congruence | apply M2; exact Ib].
    - subst p1. destruct (IH _ _ values _ E H' P eq_refl) as (new & values' & P2 & M). exists new, values'. split; [exact P2|].
      intros all fin tf I En b. destruct (M all fin tf I En b) as [(M1 & M2) | (M1 & M2 & M3)]; [|right; split; [exact M1|]; split; [right; exact M2 | exact M3]].
      left. split; auto. intros [<- | Ib]; [exact Ex | apply M2; exact Ib].
  Qed.

  (** *** listings *)
  Lemma set_listing_here p rs done r l k pre x y post : pst0 p rs -> rs = done ++ RIwd (LList (pre ++ x :: post)) :: l -> k = List.length pre ->
    r = RIwd (LList (pre ++ y :: post)) ->
    set_listing (List.length done) k y (p_step p) = set_tool_req (List.length done) r (p_step p).
  Proof.
    intros P R -> ->. unfold set_listing. rewrite (nth_req_here p rs done _ l P R), set_nth_app. reflexivity.
  Qed.
  Lemma inside_spec txt c1 c2 c3 body : txt = (String c1 (String c2 "") ++ body ++ String c3 "")%string -> sdrop_last 1 (sdrop 2 txt) = body.
  Proof.
    intros ->. cbn [append]. cbn [sdrop]. apply (sdrop_last_app body (String c3 "")). 
  Qed.

  Lemma entry_step wreqs preqs inputs done k pre e post l p p' rs :
    (let name := ("_expression_" ++ sn ++ "_InitialWorkDirRequirement_" ++ str_nat k)%string in
     let input := ("_iwdr_listing_" ++ str_nat k)%string in
     let put p st g := {| p_step := st; p_gen := p_gen p ++ [g]; p_env := p_env p; p_res := p_res p;
                             p_iwd := p_iwd p ++ [(input, name)]; p_mod := true |} in
     match e with
          | EText s =>
              do x <- find_expr gx (JStr s) inputs JNull;
              match x with
              | None => Ok p
              | Some expr =>
                  do st <- set_listing (List.length done) k (EText ("$(inputs." ++ input)) (p_step p);
                  Ok (put p st (expr_step replace_etool [jsreqs wreqs; preqs] name SNone expr))
              end
          | EDirent en enm =>
              match filled en with
              | Some txt =>
                  do x <- find_expr gx (JStr txt) inputs JNull;
                  match x with
                  | None => Ok p
                  | Some expr =>
                      do expr' <-
                        match enm with
                        | None => Ok expr
                        | Some nm =>
                            do y <- find_expr gx (JStr nm) inputs JNull;
                            Ok ("${var result; var entryname = "
                                ++ (match y with Some _ => nm | None => quoted_raw nm end)
                                ++ "; var entry = " ++ sdrop_last 1 (sdrop 2 txt) ++ iwd_text)%string
                        end;
                      let g := tool_expr_step replace_etool wreqs (p_step p) name None expr' in
                      do st <- set_listing (List.length done) k (EDirent (Some ("$(inputs." ++ input ++ ")")%string) enm) (p_step p);
                      Ok (put p st g)
                  end
              | None =>
                  match filled enm with
                  | None => Ok p
                  | Some nm =>
                      do x <- find_expr gx (JStr nm) inputs JNull;
                      match x with
                      | None => Ok p
                      | Some expr =>
                          do st <- set_listing (List.length done) k (EDirent en (Some ("$(inputs." ++ input ++ ")")%string)) (p_step p);
                          Ok (put p st (expr_step replace_etool [jsreqs wreqs; preqs] name SNone expr))
                      end
                  end
              end
          | EOther _ => Ok p
          end) = Ok p' ->
    pst0 p rs -> rs = done ++ RIwd (LList (pre ++ e :: post)) :: l -> k = List.length pre ->
    exists new e', pst p p' new rs (done ++ RIwd (LList (pre ++ e' :: post)) :: l) /\
      forall all fin tf, incl new all -> ending p' fin tf -> ToolEntryMoved gx all st0 fin t0 tf k e e'.
  Proof.
    cbn zeta. intros E P R K.
    assert (Kept : p' = p -> (forall s, Plain e s \/ Named e s \/ Texted e s -> NotFound gx s) ->
      exists new e', pst p p' new rs (done ++ RIwd (LList (pre ++ e' :: post)) :: l) /\
        forall all fin tf, incl new all -> ending p' fin tf -> ToolEntryMoved gx all st0 fin t0 tf k e e').
    { intros -> N. exists [], e. split; [rewrite R in P |- *; apply pst_refl; auto|]. intros. apply TE_kept. exact N. }
    assert (Put : forall e' g st, ws_id g = ("_expression_" ++ sn ++ "_InitialWorkDirRequirement_" ++ str_nat k)%string ->
      set_listing (List.length done) k e' (p_step p) = Ok st ->
      p' = {| p_step := st; p_gen := p_gen p ++ [g]; p_env := p_env p; p_res := p_res p;
              p_iwd := p_iwd p ++ [(("_iwdr_listing_" ++ str_nat k)%string, ("_expression_" ++ sn ++ "_InitialWorkDirRequirement_" ++ str_nat k)%string)]; p_mod := true |} ->
      (forall fin all tf, In g all -> grows (p_step p) fin -> LinkedHere st0 fin tf ("_iwdr_listing_" ++ str_nat k) g ->
         ToolEntryMoved gx all st0 fin t0 tf k e e') ->
      exists new e', pst p p' new rs (done ++ RIwd (LList (pre ++ e' :: post)) :: l) /\
        forall all fin tf, incl new all -> ending p' fin tf -> ToolEntryMoved gx all st0 fin t0 tf k e e').
    { intros e' g st Ng Est -> M. exists [g], e'. rewrite <- Ng.
      rewrite (set_listing_here p rs done _ l k pre e e' post P R K eq_refl) in Est.
      destruct (put_req p rs done (RIwd (LList (pre ++ e :: post))) (RIwd (LList (pre ++ e' :: post))) l g []
        [(("_iwdr_listing_" ++ str_nat k)%string, ws_id g)] true P R) as (st' & Est' & P1).
      { constructor. }
      { constructor; auto. apply listing_plain. }
      rewrite Est in Est'. injection Est' as <-. rewrite app_nil_r in P1. split; [exact P1|].
      intros all fin tf I En. apply M; [apply I; left; reflexivity | apply (ending_back _ _ _ _ _ _ _ P1 En)|].
      apply fedby_linked. apply En. right. cbn [p_iwd]. apply in_or_app. right. left. reflexivity. }
    destruct e as [s|en enm|j].
    - binv E x Ex. apply find_Found in Ex. destruct x as [expr|].
      + binv E st Est. injection E as <-. eapply Put; [|exact Est|reflexivity|]; [reflexivity|].
        intros fin all tf I G L. eapply TE_text; [exact Ex | exact I | apply alone_here | exact L].
      + injection E as <-. apply Kept; auto. intros s' [H | [(t & H & _) | (t & H & _)]]; [|discriminate|discriminate]. injection H as <-. exact Ex.
    - destruct (filled en) as [txt|] eqn:Fe.
      + apply filled_Some in Fe. destruct Fe as (-> & Ne). binv E x Ex. apply find_Found in Ex. destruct x as [expr|].
        * binv E expr' Ee. cbn zeta in E. binv E st Est. injection E as <-.
          eapply Put; [|exact Est|reflexivity|]; [reflexivity|]. intros fin all tf I G L.
          eapply TE_entry; [exact Ne | exact Ex | | exact I | | exact L].
          -- destruct enm as [nm|]; [|injection Ee as <-; left; auto]. binv Ee y Ey. injection Ee as <-. apply find_Found in Ey.
             right. eexists nm, _, _. split; [reflexivity|]. split; [|split; [|reflexivity]].
             ++ destruct y; [left; split; [reflexivity | eauto] | right; auto].
             ++ intros c1 c2 c3 body H. eapply inside_spec. exact H.
          -- eapply (made_here _ _ _ ("_InitialWorkDirRequirement_" ++ str_nat k)); eauto.
        * injection E as <-. apply Kept; auto. intros s' [H | [(t & H & H2 & [-> | ->]) | (t & H & _)]]; try discriminate.
          -- injection H as H H'. congruence.
          -- injection H as <- _. exact Ex.
      + assert (Nt : no_text en). { destruct en as [s|]; [|left; reflexivity]. right. cbn in Fe. destruct (String.eqb_spec s "") as [->|]; [reflexivity | discriminate]. }
        destruct (filled enm) as [nm|] eqn:Fn.
        * apply filled_Some in Fn. destruct Fn as (-> & Nn). binv E x Ex. apply find_Found in Ex. destruct x as [expr|].
          -- binv E st Est. injection E as <-. eapply Put; [|exact Est|reflexivity|]; [reflexivity|].
             intros fin all tf I G L. eapply TE_name; [exact Nt | exact Nn | exact Ex | exact I | apply alone_here | exact L].
          -- injection E as <-. apply Kept; auto. intros s' [H | [(t & H & H2 & _) | (t & H & H2)]]; [discriminate| |].
             ++ injection H as _ <-. exact Ex.
             ++ injection H as H _. destruct Nt as [Nt | Nt]; congruence.
        * injection E as <-. apply Kept; auto. intros s' [H | [(t & H & H2 & _) | (t & H & H2)]]; [discriminate| |].
          -- injection H as _ H. subst enm. cbn in Fn. apply String.eqb_neq in H2. rewrite H2 in Fn. discriminate.
          -- injection H as H _. destruct Nt as [Nt | Nt]; congruence.
    - injection E as <-. apply Kept; auto. intros s' [H | [(t & H & _) | (t & H & _)]]; discriminate.
  Qed.

  Lemma entries_phase wreqs preqs inputs done l todo : forall k pre p p' rs,
    plr_entries gx replace_etool wreqs preqs sn (List.length done) inputs k todo p = Ok p' ->
    pst0 p rs -> rs = done ++ RIwd (LList (pre ++ todo)) :: l -> k = List.length pre ->
    exists new todo', pst p p' new rs (done ++ RIwd (LList (pre ++ todo')) :: l) /\
      forall all fin tf, incl new all -> ending p' fin tf -> ToolEntriesMoved gx all st0 fin t0 tf k todo todo'.
  Proof.
    induction todo as [|e todo IH]; intros k pre p p' rs E P R K; cbn [plr_entries] in E.
    { injection E as <-. exists [], []. split; [rewrite R in P |- *; apply pst_refl; auto | constructor]. }
    binv E p1 E1. destruct (entry_step _ _ _ _ _ _ _ _ _ _ _ _ E1 P R K) as (n1 & e' & P1 & M1).
    destruct (IH (S k) (pre ++ [e']) _ _ _ E (pst_end _ _ _ _ _ P1)) as (n2 & todo' & P2 & M2).
    { rewrite <- app_assoc. reflexivity. }
    { rewrite app_length. cbn. lia. }
    rewrite <- app_assoc in P2. exists (n1 ++ n2), (e' :: todo'). split; [exact (pst_trans _ _ _ _ _ _ _ _ P1 P2)|].
    intros all fin tf I En. constructor.
    - apply M1; [intros z Z; apply I, in_or_app; auto | eapply ending_back; eauto].
    - apply M2; auto. intros z Z; apply I, in_or_app; auto.
  Qed.

  Variable attrs : list string.
  Hypothesis attrs_ok : Forall (fun a => has_char "#" a = false) attrs.

  Lemma Ok_inj {A} (a b : A) : Ok a = Ok b -> a = b.
  Proof. intros H. injection H as H. exact H. Qed.
  Lemma reqs_phase wreqs preqs inputs l : forall done p p' rs,
    plr_reqs gx attrs replace_etool skip2 wreqs preqs sn inputs (List.length done) l p = Ok p' ->
    pst0 p rs -> rs = done ++ l ->
    exists new l', pst p p' new rs (done ++ l') /\
      forall all fin tf, incl new all -> ending p' fin tf -> Forall2 (ToolReqMoved gx all st0 fin t0 tf attrs skip2) l l'.
  Proof.
    induction l as [|r l IH]; intros done p p' rs E P R; cbn [plr_reqs] in E.
    { injection E as <-. exists [], []. split; [rewrite R in P |- *; apply pst_refl; auto | constructor]. }
    binv E p1 E1.
    assert (S1 : exists n1 r', pst p p1 n1 rs (done ++ r' :: l) /\
      forall all fin tf, incl n1 all -> ending p1 fin tf -> ToolReqMoved gx all st0 fin t0 tf attrs skip2 r r').
    { assert (Kept : p1 = p -> (forall all fin tf, ToolReqMoved gx all st0 fin t0 tf attrs skip2 r r) ->
        exists n1 r', pst p p1 n1 rs (done ++ r' :: l) /\
        forall all fin tf, incl n1 all -> ending p1 fin tf -> ToolReqMoved gx all st0 fin t0 tf attrs skip2 r r').
      { intros -> T. exists [], r. split; [rewrite R in P |- *; apply pst_refl; auto | auto]. }
      destruct r as [defs|values|li|lib| | |c]; try (injection E1 as <-; apply Kept; auto; intros; apply TR_other; cbn; auto).
      - apply Kept; [apply plr_env_ok in E1; exact E1|]. intros. apply TR_env. clear - E1. revert p p1 E1. unfold plr_env.
        induction defs as [|d defs IH]; intros p p1 E1; constructor; cbn [foldM] in E1; binv E1 p2 E2; [|eapply IH; exact E1].
        destruct (String.eqb (snd d) "") eqn:Q; [left; apply String.eqb_eq; exact Q|]. binv E2 x Ex. destruct x; [discriminate|].
        apply find_Found in Ex. exact Ex.
      - destruct (res_phase _ _ _ _ _ _ _ _ values rs E1 attrs_ok P R) as (new & values' & P1 & M).
        exists new, (RRes values'). split; auto. intros all fin tf I En. apply TR_res. exact (M all fin tf I En).
      - unfold plr_iwd in E1. destruct skip2; [injection E1 as <-; apply Kept; auto; intros; apply TR_iwd_skip; reflexivity|].
        assert (Kli : (forall z, li <> LList z) -> (forall s, li = LText s -> NotFound gx s) -> p1 = p ->
           exists n1 r', pst p p1 n1 rs (done ++ r' :: l) /\
           forall all fin tf, incl n1 all -> ending p1 fin tf -> ToolReqMoved gx all st0 fin t0 tf attrs false (RIwd li) r').
        { intros A B C. apply Kept; auto. intros. apply TR_iwd_kept; auto. }
        destruct li as [|s|li|s].
        + injection E1 as <-. apply Kli; auto; discriminate.
        + destruct (String.eqb_spec s "") as [->|Ns].
          { injection E1 as <-. apply Kli; [discriminate | | reflexivity]. intros s Q. injection Q as <-. left. reflexivity. }
          binv E1 x Ex. apply find_Found in Ex. destruct x as [expr|].
          2:{ injection E1 as <-. apply Kli; [discriminate | | reflexivity]. intros s' Q. injection Q as <-. exact Ex. }
          clear Kli Kept. cbn zeta in E1. binv E1 st Est. apply Ok_inj in E1.
          set (g := expr_step replace_etool [jsreqs wreqs; preqs] ("_expression_" ++ sn ++ "_InitialWorkDirRequirement") SNone expr) in *.
          destruct (put_req p rs done (RIwd (LText s)) (RIwd (LTuple "$(inputs._iwdr_listing)")) l g [] [] true P R) as (st' & Est' & P1); try constructor.
          rewrite Est in Est'. injection Est' as <-. rewrite !app_nil_r in P1.
          set (pm := {| p_step := st; p_gen := p_gen p ++ [g]; p_env := p_env p; p_res := p_res p; p_iwd := p_iwd p; p_mod := true |}) in *.
          set (fd := feed "_iwdr_listing" (("_expression_" ++ sn ++ "_InitialWorkDirRequirement") ++ "/result")) in *.
          destruct (pst_end _ _ _ _ _ P1) as [Nm (t1 & Rt & Kt & Qt)]. cbn [pm p_step] in Nm, Rt.
          set (rs1 := done ++ RIwd (LTuple "$(inputs._iwdr_listing)") :: l) in *.
          assert (Ad : add_tool_input "_iwdr_listing" (add_in fd st) = add_in fd (append_tool_input "_iwdr_listing" st)).
          { unfold add_tool_input, append_tool_input. cbn [add_in with_in ws_run]. rewrite Rt. rewrite (proj2 (is_clt_kind t1) Kt). reflexivity. }
          rewrite Ad in E1.
          assert (P2 : pst pm p1 [] rs1 rs1).
          { subst p1. split; cbn [p_gen p_step p_env p_res p_iwd p_mod pm]; rewrite ?app_nil_r; auto.
            - split; [reflexivity|]. exists [fd]. reflexivity.
            - apply now_add; auto.
            - exists t1. eexists. split; [exact Rt|]. split.
              { cbn [add_in with_in append_tool_input with_run ws_run]. unfold append_tool_input. cbn [with_run ws_run]. rewrite Rt. reflexivity. }
              split; [apply Same_input; split; reflexivity|]. auto.
            - exists []. rewrite app_nil_r. auto.
            - exists []. rewrite app_nil_r. auto. }
          exists [g], (RIwd (LTuple "$(inputs._iwdr_listing)")). split; [exact (pst_trans _ _ _ [g] [] _ _ _ P1 P2)|].
          intros all fin tf I En. eapply TR_iwd_text; [exact Ns | exact Ex | apply I; left; reflexivity | apply alone_here |]. split.
          * assert (Dc : forall t, ws_run (p_step p1) = RTool t -> Declares t "_iwdr_listing").
            { subst p1. cbn [p_step add_in with_in append_tool_input with_run ws_run]. unfold append_tool_input. cbn [with_run ws_run]. rewrite Rt.
              intros t Q. injection Q as <-. eexists. split; [cbn; apply in_or_app; right; left; reflexivity | reflexivity]. }
            destruct (ps_tool _ _ _ _ _ P2) as (ta & tb & _ & Rb & _). eapply ToolRel0_declares; [reflexivity | apply En; exact Rb | apply Dc; exact Rb].
          * apply (added_new st0 st); [apply Nm|]. subst p1. cbn [p_step] in En. eapply grows_trans; [|apply En]. split; [reflexivity|]. exists [].
            cbn. rewrite app_nil_r. reflexivity.
        + destruct (entries_phase _ _ _ _ l _ 0 [] _ _ rs E1 P R eq_refl) as (new & todo' & P1 & M).
          exists new, (RIwd (LList todo')). split; [exact P1|]. intros all fin tf I En. apply TR_iwd_list. apply M; auto.
        + injection E1 as <-. apply Kli; auto; discriminate. }
    destruct S1 as (n1 & r' & P1 & M1).
    destruct (IH (done ++ [r']) p1 p' (done ++ r' :: l)) as (n2 & l' & P2 & M2).
    { rewrite app_length. cbn. rewrite Nat.add_1_r. exact E. }
    { exact (pst_end _ _ _ _ _ P1). }
    { rewrite <- app_assoc. reflexivity. }
    rewrite <- app_assoc in P2. exists (n1 ++ n2), (r' :: l'). split; [exact (pst_trans _ _ _ _ _ _ _ _ P1 P2)|].
    intros all fin tf I En. constructor.
    - apply M1; [intros z Z; apply I, in_or_app; auto | eapply ending_back; eauto].
    - apply M2; auto. intros z Z; apply I, in_or_app; auto.
  Qed.

  (** *** feeding the inputs *)
  Lemma feed_phase l : forall st t1, Forall (fun e => plain_name (fst e)) l -> now st0 t0 st -> ws_run st = RTool t1 -> t_kind t1 = KClt ->
    exists t2, ws_run (plr_feed l st) = RTool t2 /\ now st0 t0 (plr_feed l st) /\ grows st (plr_feed l st) /\ Same t1 t2 /\ t_reqs t2 = t_reqs t1 /\
      forall fin tf, grows (plr_feed l st) fin -> ToolRel0 t2 tf -> forall e, In e l -> fedby fin tf e.
  Proof.
    induction l as [|e l IH]; intros st t1 Pl N R K.
    { exists t1. cbn. split; [exact R|]. split; [exact N|]. split; [apply grows_refl|]. split; [apply Same_refl|]. split; [reflexivity|]. intros fin tf _ _ e []. }
    inversion Pl as [|? ? P1 P2]; subst.
    set (st1 := add_tool_input (fst e) (add_in (feed (fst e) (snd e ++ "/result")) st)).
    change (plr_feed (e :: l) st) with (plr_feed l st1).
    assert (E1 : st1 = add_in (feed (fst e) (snd e ++ "/result")) (append_tool_input (fst e) st)).
    { subst st1. unfold add_tool_input, append_tool_input. cbn [add_in with_in ws_run]. rewrite R. rewrite (proj2 (is_clt_kind t1) K). reflexivity. }
    set (t2 := tool_inputs (t_inputs t1 ++ [{| ti_id := fst e; ti_type := JNull; ti_valueFrom := None |}]) t1).
    assert (R1 : ws_run st1 = RTool t2). { rewrite E1. cbn [add_in with_in ws_run append_tool_input]. unfold append_tool_input. cbn [with_run ws_run]. rewrite R. reflexivity. }
    assert (N1 : now st0 t0 st1). { rewrite E1. apply now_add; auto. }
    destruct (IH st1 t2 P2 N1 R1 K) as (t3 & A1 & A2 & A3 & A4 & A5 & A6).
    assert (G1 : grows st st1). { rewrite E1. split; [reflexivity|]. eexists [_]. reflexivity. }
    exists t3. split; [exact A1|]. split; [exact A2|]. split; [eapply grows_trans; eauto|].
    split; [eapply Same_trans; [apply Same_input; exact P1 | exact A4]|]. split; [rewrite A5; reflexivity|].
    intros fin tf G T f [<- | If]; [|apply A6; auto]. split.
    - eapply ToolRel0_declares; [apply P1 | | exists {| ti_id := fst e; ti_type := JNull; ti_valueFrom := None |}; split; [|reflexivity]].
      + eapply ToolRel0_trans; [apply A4 | exact T].
      + cbn. apply in_or_app. right. left. reflexivity.
    - apply (added_new st0 st); [apply N|]. eapply grows_trans; [|eapply grows_trans; [exact A3 | exact G]]. rewrite E1. split; [reflexivity|].
      exists []. cbn. rewrite app_nil_r. reflexivity.
  Qed.

  Lemma level_phase wreqs cur gen st' gen' m t1 : t_kind t1 = KClt -> now st0 t0 cur -> ws_run cur = RTool t1 -> t_reqs t1 = t_reqs t0 ->
    process_level_reqs gx attrs replace_etool skip2 wreqs (RTool t0) (cur, gen) = Ok ((st', gen'), m) ->
    exists t2 new, gen' = gen ++ new /\ grows cur st' /\ now st0 t0 st' /\ ws_run st' = RTool t2 /\ Same t1 t2 /\
      forall all fin tf, incl new all -> grows st' fin -> ToolRel t2 tf -> ToolReqsMoved gx all st0 fin t0 tf attrs skip2.
  Proof.
    intros K N R Q E. unfold process_level_reqs in E.
    assert (Kept : (t_reqs t0 = None \/ t_reqs t0 = Some []) -> Ok ((cur, gen), false) = Ok ((st', gen'), m) ->
      exists t2 new, gen' = gen ++ new /\ grows cur st' /\ now st0 t0 st' /\ ws_run st' = RTool t2 /\ Same t1 t2 /\
      forall all fin tf, incl new all -> grows st' fin -> ToolRel t2 tf -> ToolReqsMoved gx all st0 fin t0 tf attrs skip2).
    { intros D X. injection X as <- <- <-. exists t1, []. rewrite app_nil_r. split; auto. split; [apply grows_refl|]. split; auto. split; auto.
      split; [apply Same_refl|]. intros all fin tf _ _ [_ T]. rewrite Q in T. unfold ToolReqsMoved. destruct D as [D | D]; rewrite D in *.
      - destruct T as [T | (T & _)]; [exact T | congruence].
      - exists []. split; [constructor|]. destruct T as [T | (_ & T)]; [left; exact T|]. right. exact T. }
    destruct (t_reqs t0) as [[|r0 rs0]|] eqn:Q0; [apply Kept; auto | | apply Kept; auto]. clear Kept. cbn [fst snd] in E.
    destruct (String.eqb_spec (ws_id cur) "") as [Z|_].
    { injection E as <- <- <-. exists t1, []. rewrite app_nil_r. split; auto. split; [apply grows_refl|]. split; auto. split; auto.
      split; [apply Same_refl|]. intros all fin tf _ _ _. exfalso. revert Z. rewrite (nw_id _ _ _ N). exact id_given. }
    binv E p Ep. injection E as E1 E2 E3. rewrite (nw_id _ _ _ N) in Ep.
    set (rs := r0 :: rs0) in *.
    assert (P0 : pst0 {| p_step := cur; p_gen := gen; p_env := []; p_res := []; p_iwd := []; p_mod := false |} rs).
    { split; auto. exists t1. auto. }
    destruct (reqs_phase _ _ _ _ [] _ _ rs Ep P0 eq_refl) as (new & l' & P & M). cbn [app] in P.
    destruct P as [A1 A2 A3 (ta & tb & B1 & B2 & B3 & B4 & B5 & B6) A5 (lr & A6 & A7) (li & A8 & A9)]. cbn [p_gen p_step p_env p_res p_iwd app] in *.
    assert (ta = t1) by congruence. subst ta. rewrite A5, A6, A8 in E1. cbn [plr_feed fold_left] in E1. change (plr_feed [] ?s) with s in E1.
    assert (Kb : t_kind tb = KClt). { destruct B3 as [[X _ _] _ _ _]. congruence. }
    destruct (feed_phase lr _ _ A7 A3 B2 Kb) as (tc & C1 & C2 & C3 & C4 & C5 & C6).
    assert (Kc : t_kind tc = KClt). { destruct C4 as [[X _ _] _ _ _]. congruence. }
    destruct (feed_phase li _ _ A9 C2 C1 Kc) as (td & D1 & D2 & D3 & D4 & D5 & D6).
    assert (E1' : plr_feed li (plr_feed lr (p_step p)) = st') by exact E1. rewrite E1' in *.
    exists td, new. split; [congruence|]. split; [eapply grows_trans; [exact A2|]; eapply grows_trans; eauto|]. split; [exact D2|]. split; [exact D1|].
    split; [eapply Same_trans; [exact B3|]; eapply Same_trans; eauto|].
    intros all fin tf I G [T T']. unfold ToolReqsMoved. rewrite Q0. exists l'. split.
    - apply M; auto. split; [|split].
      + eapply grows_trans; [exact C3|]. eapply grows_trans; eauto.
      + intros t Rt. assert (t = tb) by congruence. subst t. eapply ToolRel0_trans; [apply C4|]. eapply ToolRel0_trans; [apply D4 | exact T].
      + rewrite A6, A8. intros e [H | H].
        * apply C6; auto. { eapply grows_trans; eauto. } eapply ToolRel0_trans; [apply D4 | exact T].
        * apply D6; auto.
    - rewrite D5, C5, B6 in T'. destruct T' as [T' | (_ & T')]; [left; exact T' | right; exact T'].
  Qed.
End Reqs.
