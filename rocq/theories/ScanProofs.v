(** * Correctness of the scanner (expression.py:50-119) *)
From Verif Require Import PyBase PyBaseProofs ExprModel ExprSpec.

(** ** A structurally recursive form of the loop *)
Fixpoint sfrom (rest : string) (i : nat) (stack : list tok) (start : nat)
  : result (option (nat * nat)) :=
  match rest with
  | EmptyString => scan_end stack
  | String c rest' =>
    let dflt stk :=
      if Ascii.eqb c "$" then sfrom rest' (i + 1) (T_DOLLAR :: stk) start
      else if Ascii.eqb c c_bs then sfrom rest' (i + 1) (T_BACKSLASH :: stk) start
      else sfrom rest' (i + 1) stk start in
    match stack with
    | [] => Err IndexError
    | state :: below =>
      match state with
      | T_DEFAULT => dflt stack
      | T_BACKSLASH =>
          do b <- top_is T_DEFAULT below;
          if b then Ok (Some (i - 1, i + 1)) else sfrom rest' (i + 1) below start
      | T_DOLLAR =>
          if Ascii.eqb c "(" then sfrom rest' (i + 1) (T_PAREN :: stack) (i - 1)
          else if Ascii.eqb c "{" then sfrom rest' (i + 1) (T_BRACE :: stack) (i - 1)
          else dflt below
      | T_PAREN =>
          if Ascii.eqb c "(" then sfrom rest' (i + 1) (T_PAREN :: stack) start
          else if Ascii.eqb c ")" then
            do b <- top_is T_DOLLAR below;
            if b then Ok (Some (start, i + 1)) else sfrom rest' (i + 1) below start
          else if Ascii.eqb c c_sq then sfrom rest' (i + 1) (T_SINGLE_QUOTE :: stack) start
          else if Ascii.eqb c c_dq then sfrom rest' (i + 1) (T_DOUBLE_QUOTE :: stack) start
          else sfrom rest' (i + 1) stack start
      | T_BRACE =>
          if Ascii.eqb c "{" then sfrom rest' (i + 1) (T_BRACE :: stack) start
          else if Ascii.eqb c "}" then
            do b <- top_is T_DOLLAR below;
            if b then Ok (Some (start, i + 1)) else sfrom rest' (i + 1) below start
          else if Ascii.eqb c c_sq then sfrom rest' (i + 1) (T_SINGLE_QUOTE :: stack) start
          else if Ascii.eqb c c_dq then sfrom rest' (i + 1) (T_DOUBLE_QUOTE :: stack) start
          else sfrom rest' (i + 1) stack start
      | T_SINGLE_QUOTE =>
          if Ascii.eqb c c_sq then sfrom rest' (i + 1) below start
          else if Ascii.eqb c c_bs then sfrom rest' (i + 1) (T_BACKSLASH :: stack) start
          else sfrom rest' (i + 1) stack start
      | T_DOUBLE_QUOTE =>
          if Ascii.eqb c c_dq then sfrom rest' (i + 1) below start
          else if Ascii.eqb c c_bs then sfrom rest' (i + 1) (T_BACKSLASH :: stack) start
          else sfrom rest' (i + 1) stack start
      end
    end
  end.

(** A dollar is always directly above a DEFAULT. *)
Fixpoint okstack (stack : list tok) : Prop :=
  match stack with
  | [] => True
  | T_DOLLAR :: below => (exists k, below = T_DEFAULT :: k) /\ okstack below
  | _ :: below => okstack below
  end.

Definition need (rest : string) (stack : list tok) : nat :=
  2 * String.length rest + 1 + match stack with T_DOLLAR :: _ => 1 | _ => 0 end.

Lemma need_le rest stack : need rest stack <= 2 * String.length rest + 2.
Proof. unfold need. destruct stack as [|[] ?]; lia. Qed.

Lemma get_app_length pre c rest :
  String.get (String.length pre) (pre ++ String c rest)%string = Some c.
Proof. induction pre as [|x pre IH]; simpl; auto. Qed.

Lemma get_length_None s : String.get (String.length s) s = None.
Proof. induction s as [|x s IH]; simpl; auto. Qed.

Lemma app_cons_shift pre c rest :
  (pre ++ String c rest = (pre ++ String c "") ++ rest)%string.
Proof. rewrite sapp_assoc. reflexivity. Qed.

Lemma length_snoc pre c : String.length (pre ++ String c "")%string = String.length pre + 1.
Proof. rewrite slength_app. reflexivity. Qed.

Lemma loop_sfrom rest : forall fuel pre stack start,
  okstack stack -> need rest stack <= fuel ->
  scan_loop fuel (pre ++ rest)%string (String.length pre) stack start
  = sfrom rest (String.length pre) stack start.
Proof.
  induction rest as [|c rest IH]; intros fuel pre stack start OK N.
  - destruct fuel as [|fuel]; [unfold need in N; lia|].
    cbn [scan_loop sfrom]. rewrite sapp_nil_r, get_length_None. reflexivity.
  - destruct fuel as [|fuel]; [unfold need in N; lia|].
    assert (NX : forall stk st', okstack stk ->
              scan_loop fuel (pre ++ String c rest)%string (String.length pre + 1) stk st'
              = sfrom rest (String.length pre + 1) stk st').
    { intros stk st' OK'. rewrite app_cons_shift, <- (length_snoc pre c). apply IH; auto.
      pose proof (need_le rest stk). unfold need in N. simpl in N.
      destruct stack as [|[] ?]; lia. }
    cbn [scan_loop sfrom]. rewrite get_app_length.
    destruct stack as [|state below]; [reflexivity|].
    assert (OKb : okstack below) by (destruct state; simpl in OK; tauto).
    destruct state.
    + destruct (Ascii.eqb c "$"); [apply NX; simpl; eauto|].
      destruct (Ascii.eqb c c_bs); apply NX; simpl; auto.
    + destruct (Ascii.eqb c "("); [apply NX; exact OK|].
      destruct (Ascii.eqb c "{"); [apply NX; exact OK|].
      simpl in OK. destruct OK as [[k ->] OK].
      (* the character is read again, now in the DEFAULT state *)
      destruct fuel as [|fuel]; [unfold need in N; simpl in N; lia|].
      cbn [scan_loop]. rewrite get_app_length.
      assert (NX2 : forall stk st', okstack stk ->
              scan_loop fuel (pre ++ String c rest)%string (String.length pre + 1) stk st'
              = sfrom rest (String.length pre + 1) stk st').
      { intros stk st' OK'. rewrite app_cons_shift, <- (length_snoc pre c). apply IH; auto.
        pose proof (need_le rest stk). unfold need in N. simpl in N. lia. }
      destruct (Ascii.eqb c "$"); [apply NX2; simpl; eauto|].
      destruct (Ascii.eqb c c_bs); apply NX2; simpl; auto.
    + destruct (Ascii.eqb c "("); [apply NX; simpl; auto|].
      destruct (Ascii.eqb c ")").
      { destruct (top_is T_DOLLAR below) as [b|e]; [|reflexivity]. simpl.
        destruct b; [reflexivity|apply NX; auto]. }
      destruct (Ascii.eqb c c_sq); [apply NX; simpl; auto|].
      destruct (Ascii.eqb c c_dq); apply NX; simpl; auto.
    + destruct (Ascii.eqb c "{"); [apply NX; simpl; auto|].
      destruct (Ascii.eqb c "}").
      { destruct (top_is T_DOLLAR below) as [b|e]; [|reflexivity]. simpl.
        destruct b; [reflexivity|apply NX; auto]. }
      destruct (Ascii.eqb c c_sq); [apply NX; simpl; auto|].
      destruct (Ascii.eqb c c_dq); apply NX; simpl; auto.
    + destruct (Ascii.eqb c c_sq); [apply NX; auto|].
      destruct (Ascii.eqb c c_bs); apply NX; simpl; auto.
    + destruct (Ascii.eqb c c_dq); [apply NX; auto|].
      destruct (Ascii.eqb c c_bs); apply NX; simpl; auto.
    + destruct (top_is T_DEFAULT below) as [b|e]; [|reflexivity]. simpl.
      destruct b; [reflexivity|apply NX; auto].
Qed.

Lemma scanner_sfrom s : scanner s = sfrom s 0 [T_DEFAULT] 0.
Proof.
  unfold scanner.
  apply (loop_sfrom s (2 * String.length s + 2) "" [T_DEFAULT] 0); simpl; auto.
  unfold need. lia.
Qed.

(** ** Quoted strings and balanced text are skipped *)
Definition qtok (q : ascii) : tok := if Ascii.eqb q c_sq then T_SINGLE_QUOTE else T_DOUBLE_QUOTE.
Definition btok (o : ascii) : tok := if Ascii.eqb o "(" then T_PAREN else T_BRACE.

(** the top of the stack below a quote is a bracket *)
Definition in_bracket (k : list tok) : Prop :=
  exists t k', k = t :: k' /\ (t = T_PAREN \/ t = T_BRACE).

Lemma quoted_run q a : Quoted q a -> q = c_sq \/ q = c_dq ->
  forall rest i k start,
  sfrom (a ++ String q rest)%string i (qtok q :: k) start
  = sfrom rest (i + String.length a + 1) k start.
Proof.
  intros Q Hq. induction Q as [|c s N1 N2 Q IH|c s Q IH]; intros rest i k start.
  - cbn [append sfrom String.length]. destruct Hq as [-> | ->]; cbn [qtok Ascii.eqb];
      simpl; f_equal; lia.
  - cbn [append String.length].
    transitivity (sfrom (s ++ String q rest)%string (i + 1) (qtok q :: k) start).
    + cbn [sfrom]. apply Ascii.eqb_neq in N2.
      destruct Hq as [-> | ->]; apply Ascii.eqb_neq in N1;
        unfold qtok; simpl; rewrite N1, N2; reflexivity.
    + rewrite IH. f_equal. lia.
  - cbn [append String.length].
    transitivity (sfrom (s ++ String q rest)%string (i + 1 + 1) (qtok q :: k) start).
    + destruct Hq as [-> | ->]; simpl; reflexivity.
    + rewrite IH. f_equal. lia.
Qed.

Lemma balanced_run o c a : bracket o c -> Balanced o c a ->
  forall rest i k start,
  sfrom (a ++ rest)%string i (btok o :: k) start
  = sfrom rest (i + String.length a) (btok o :: k) start.
Proof.
  intros B Ba. induction Ba as [|x s N1 N2 N3 N4 Ba IH|a s Ba1 IH1 Ba2 IH2|q a s Hq Q Ba IH];
    intros rest i k start.
  - cbn [append String.length]. f_equal; lia.
  - cbn [append String.length].
    transitivity (sfrom (s ++ rest)%string (i + 1) (btok o :: k) start).
    + cbn [sfrom]. apply Ascii.eqb_neq in N1, N2, N3, N4.
      destruct B as [[-> ->]|[-> ->]]; simpl; rewrite N1, N2, N3, N4; reflexivity.
    + rewrite IH. f_equal; lia.
  - cbn [append String.length]. rewrite sapp_assoc. cbn [append].
    transitivity (sfrom (a ++ String c (s ++ rest))%string (i + 1) (btok o :: btok o :: k) start).
    + cbn [sfrom]. destruct B as [[-> ->]|[-> ->]]; reflexivity.
    + rewrite IH1.
      transitivity (sfrom (s ++ rest)%string (i + 1 + String.length a + 1) (btok o :: k) start).
      * cbn [sfrom]. destruct B as [[-> ->]|[-> ->]]; reflexivity.
      * rewrite IH2. f_equal. rewrite slength_app. simpl. lia.
  - cbn [append String.length]. rewrite sapp_assoc. cbn [append].
    transitivity (sfrom (a ++ String q (s ++ rest))%string (i + 1) (qtok q :: btok o :: k) start).
    + cbn [sfrom].
      destruct B as [[-> ->]|[-> ->]]; destruct Hq as [-> | ->]; reflexivity.
    + rewrite (quoted_run q a Q Hq). rewrite IH. f_equal. rewrite slength_app. simpl. lia.
Qed.

Lemma closed_run o c a : bracket o c -> Balanced o c a ->
  forall post i start,
  sfrom (a ++ String c post)%string i [btok o; T_DOLLAR; T_DEFAULT] start
  = Ok (Some (start, i + String.length a + 1)).
Proof.
  intros B Ba post i start. rewrite (balanced_run o c a B Ba).
  destruct B as [[-> ->]|[-> ->]]; cbn [sfrom btok Ascii.eqb]; simpl; reflexivity.
Qed.

(** ** Soundness: what the scan inside a bracket can find *)

(** [Closes o c n u]: [u] closes [n+1] brackets, ending with the last one. *)
Inductive Closes (o c : ascii) : nat -> string -> Prop :=
| Cl_0 a : Balanced o c a -> Closes o c 0 (a ++ String c "")
| Cl_S n a u : Balanced o c a -> Closes o c n u -> Closes o c (S n) (a ++ String c u).

Lemma Closes_char o c n u x : x <> o -> x <> c -> x <> c_sq -> x <> c_dq ->
  Closes o c n u -> Closes o c n (String x u).
Proof.
  intros N1 N2 N3 N4 H. destruct H as [a Ba|n a u Ba H].
  - apply (Cl_0 o c (String x a)). constructor; auto.
  - apply (Cl_S o c n (String x a)); auto. constructor; auto.
Qed.

Lemma Closes_open o c n u : Closes o c (S n) u -> Closes o c n (String o u).
Proof.
  intros H. inversion H as [|n' a u' Ba H' E1 E2]; subst.
  destruct H' as [b Bb|n b u' Bb H'].
  - change (String o (a ++ String c (b ++ String c "")))%string with
           (String o (a ++ (String c b ++ String c "")))%string.
    rewrite <- sapp_assoc.
    change (String o ((a ++ String c b) ++ String c ""))%string with
           ((String o (a ++ String c b)) ++ String c "")%string.
    apply Cl_0. apply B_nest; auto.
  - change (String o (a ++ String c (b ++ String c u')))%string with
           (String o (a ++ (String c b ++ String c u')))%string.
    rewrite <- sapp_assoc.
    change (String o ((a ++ String c b) ++ String c u'))%string with
           ((String o (a ++ String c b)) ++ String c u')%string.
    apply Cl_S; auto. apply B_nest; auto.
Qed.

Lemma Closes_quote o c n u q a : q = c_sq \/ q = c_dq -> Quoted q a ->
  Closes o c n u -> Closes o c n (String q (a ++ String q u)).
Proof.
  intros Hq Q H. destruct H as [b Bb|n b u Bb H].
  - change (String q (a ++ String q (b ++ String c "")))%string with
           (String q (a ++ (String q b ++ String c "")))%string.
    rewrite <- sapp_assoc.
    change (String q ((a ++ String q b) ++ String c ""))%string with
           ((String q (a ++ String q b)) ++ String c "")%string.
    apply Cl_0. apply B_quote; auto.
  - change (String q (a ++ String q (b ++ String c u)))%string with
           (String q (a ++ (String q b ++ String c u)))%string.
    rewrite <- sapp_assoc.
    change (String q ((a ++ String q b) ++ String c u))%string with
           ((String q (a ++ String q b)) ++ String c u)%string.
    apply Cl_S; auto. apply B_quote; auto.
Qed.

Definition bstack (o : ascii) (n : nat) : list tok :=
  repeat (btok o) (S n) ++ [T_DOLLAR; T_DEFAULT].

(** Inside a quote that opened at bracket depth [n]: either the text ends (error),
    or the quote closes and the scan goes on at depth [n]. *)
Lemma quote_cases q o c : q = c_sq \/ q = c_dq -> bracket o c ->
  forall k rest i n start, String.length rest <= k ->
  (exists a rest', Quoted q a /\ rest = (a ++ String q rest')%string /\
     sfrom rest i (qtok q :: bstack o n) start
     = sfrom rest' (i + String.length a + 1) (bstack o n) start)
  \/ sfrom rest i (qtok q :: bstack o n) start = Err SubstitutionError.
Proof.
  intros Hq B. induction k as [|k IH]; intros rest i n start L;
  (destruct rest as [|x rest];
   [right; destruct Hq as [-> | ->]; destruct B as [[-> ->]|[-> ->]]; destruct n; reflexivity|]);
  simpl in L; [lia|].
  - destruct (Ascii.eqb_spec x q) as [->|Nq].
    + left. exists "", rest. split; [constructor|]. split; [reflexivity|].
      rewrite (quoted_run q "" (Q_nil q) Hq rest i (bstack o n) start : sfrom (String q rest) i _ _ = _).
      reflexivity.
    + destruct (Ascii.eqb_spec x c_bs) as [->|Nb].
      * destruct rest as [|y rest].
        { right. destruct Hq as [-> | ->]; destruct B as [[-> ->]|[-> ->]]; destruct n; reflexivity. }
        assert (E : sfrom (String c_bs (String y rest)) i (qtok q :: bstack o n) start
                    = sfrom rest (i + 1 + 1) (qtok q :: bstack o n) start).
        { destruct Hq as [-> | ->]; reflexivity. }
        destruct (IH rest (i + 1 + 1) n start ltac:(simpl in L; lia)) as [(a & rest' & Q & -> & E2)|E2].
        -- left. exists (String c_bs (String y a)), rest'. split; [apply Q_esc; auto|].
           split; [reflexivity|]. rewrite E, E2. f_equal. simpl. lia.
        -- right. congruence.
      * assert (E : sfrom (String x rest) i (qtok q :: bstack o n) start
                    = sfrom rest (i + 1) (qtok q :: bstack o n) start).
        { cbn [sfrom]. apply Ascii.eqb_neq in Nb.
          destruct Hq as [-> | ->]; apply Ascii.eqb_neq in Nq; unfold qtok; simpl;
            rewrite Nq, Nb; reflexivity. }
        destruct (IH rest (i + 1) n start ltac:(lia)) as [(a & rest' & Q & -> & E2)|E2].
        -- left. exists (String x a), rest'. split; [constructor; auto|].
           split; [reflexivity|]. rewrite E, E2. f_equal. simpl. lia.
        -- right. congruence.
Qed.

Lemma scan_end_bstack o c n : bracket o c -> scan_end (bstack o n) = Err SubstitutionError.
Proof.
  intros B. unfold scan_end, bstack.
  assert (L : 1 < List.length (repeat (btok o) (S n) ++ [T_DOLLAR; T_DEFAULT])).
  { rewrite app_length, repeat_length. simpl. lia. }
  apply Nat.ltb_lt in L. rewrite L.
  destruct B as [[-> ->]|[-> ->]]; cbn [repeat app btok Ascii.eqb]; simpl;
    rewrite andb_false_r; reflexivity.
Qed.

Lemma bracket_cases o c : bracket o c ->
  forall k rest i n start, String.length rest <= k ->
  (exists u post, rest = (u ++ post)%string /\ Closes o c n u /\
     sfrom rest i (bstack o n) start = Ok (Some (start, i + String.length u)))
  \/ sfrom rest i (bstack o n) start = Err SubstitutionError.
Proof.
  intros B. induction k as [|k IH]; intros rest i n start L.
  - destruct rest as [|x rest]; [|simpl in L; lia].
    right. exact (scan_end_bstack o c n B).
  - destruct rest as [|x rest].
    { right. exact (scan_end_bstack o c n B). }
    simpl in L.
    destruct (Ascii.eqb_spec x o) as [->|No].
    { (* nested opening *)
      assert (E : sfrom (String o rest) i (bstack o n) start
                  = sfrom rest (i + 1) (bstack o (S n)) start).
      { destruct B as [[-> ->]|[-> ->]]; reflexivity. }
      destruct (IH rest (i + 1) (S n) start ltac:(lia)) as [(u & post & -> & C & E2)|E2].
      - left. exists (String o u), post. split; [reflexivity|]. split; [apply Closes_open; auto|].
        rewrite E, E2. simpl. do 3 f_equal. lia.
      - right. congruence. }
    destruct (Ascii.eqb_spec x c) as [->|Nc].
    { (* closing *)
      destruct n as [|n].
      - left. exists (String c ""), rest. split; [reflexivity|].
        split; [apply (Cl_0 o c ""); constructor|].
        destruct B as [[-> ->]|[-> ->]]; reflexivity.
      - assert (E : sfrom (String c rest) i (bstack o (S n)) start
                    = sfrom rest (i + 1) (bstack o n) start).
        { destruct B as [[-> ->]|[-> ->]]; reflexivity. }
        destruct (IH rest (i + 1) n start ltac:(lia)) as [(u & post & -> & C & E2)|E2].
        + left. exists (String c u), post. split; [reflexivity|].
          split; [apply (Cl_S o c n ""); [constructor|auto]|].
          rewrite E, E2. simpl. do 3 f_equal. lia.
        + right. congruence. }
    destruct (Ascii.eqb_spec x c_sq) as [->|Ns].
    { assert (E : sfrom (String c_sq rest) i (bstack o n) start
                  = sfrom rest (i + 1) (qtok c_sq :: bstack o n) start).
      { destruct B as [[-> ->]|[-> ->]]; reflexivity. }
      destruct (quote_cases c_sq o c (or_introl eq_refl) B (String.length rest) rest (i + 1) n start (le_n _))
        as [(a & rest' & Q & -> & E2)|E2]; [|right; congruence].
      rewrite slength_app in L. simpl in L.
      destruct (IH rest' (i + 1 + String.length a + 1) n start ltac:(lia))
        as [(u & post & -> & C & E3)|E3]; [|right; congruence].
      left. exists (String c_sq (a ++ String c_sq u)), post.
      split; [simpl; rewrite sapp_assoc; reflexivity|].
      split; [apply Closes_quote; auto|].
      rewrite E, E2, E3. simpl. rewrite slength_app. simpl. do 3 f_equal. lia. }
    destruct (Ascii.eqb_spec x c_dq) as [->|Nd].
    { assert (E : sfrom (String c_dq rest) i (bstack o n) start
                  = sfrom rest (i + 1) (qtok c_dq :: bstack o n) start).
      { destruct B as [[-> ->]|[-> ->]]; reflexivity. }
      destruct (quote_cases c_dq o c (or_intror eq_refl) B (String.length rest) rest (i + 1) n start (le_n _))
        as [(a & rest' & Q & -> & E2)|E2]; [|right; congruence].
      rewrite slength_app in L. simpl in L.
      destruct (IH rest' (i + 1 + String.length a + 1) n start ltac:(lia))
        as [(u & post & -> & C & E3)|E3]; [|right; congruence].
      left. exists (String c_dq (a ++ String c_dq u)), post.
      split; [simpl; rewrite sapp_assoc; reflexivity|].
      split; [apply Closes_quote; auto|].
      rewrite E, E2, E3. simpl. rewrite slength_app. simpl. do 3 f_equal. lia. }
    assert (E : sfrom (String x rest) i (bstack o n) start
                = sfrom rest (i + 1) (bstack o n) start).
    { pose proof No as No'. pose proof Nc as Nc'.
      apply Ascii.eqb_neq in No', Nc'.
      pose proof Ns as Ns'. pose proof Nd as Nd'. apply Ascii.eqb_neq in Ns', Nd'.
      cbn [sfrom]. destruct B as [[-> ->]|[-> ->]]; unfold bstack, btok; simpl;
        rewrite No', Nc', Ns', Nd'; reflexivity. }
    destruct (IH rest (i + 1) n start ltac:(lia)) as [(u & post & -> & C & E2)|E2].
    + left. exists (String x u), post. split; [reflexivity|].
      split; [apply Closes_char; auto|].
      rewrite E, E2. simpl. do 3 f_equal. lia.
    + right. congruence.
Qed.

(** After an opening bracket: closed region found, or never closed. *)
Lemma after_open o c : bracket o c -> forall rest i start,
  (exists a post, rest = (a ++ String c post)%string /\ Balanced o c a /\
     sfrom rest i [btok o; T_DOLLAR; T_DEFAULT] start
     = Ok (Some (start, i + String.length a + 1)))
  \/ (sfrom rest i [btok o; T_DOLLAR; T_DEFAULT] start = Err SubstitutionError /\
      NeverCloses o c rest).
Proof.
  intros B rest i start.
  destruct (bracket_cases o c B (String.length rest) rest i 0 start (le_n _))
    as [(u & post & -> & C & E)|E].
  - left. inversion C as [a Ba|]; subst. exists a, post.
    split; [rewrite sapp_assoc; reflexivity|]. split; auto.
    change [btok o; T_DOLLAR; T_DEFAULT] with (bstack o 0). rewrite E.
    rewrite slength_app. simpl. do 3 f_equal. lia.
  - right. split; [exact E|]. intros (a & post & Ba & ->).
    change (bstack o 0) with [btok o; T_DOLLAR; T_DEFAULT] in E.
    rewrite (closed_run o c a B Ba) in E. discriminate.
Qed.

(** ** The text outside references *)
Lemma NoStart_nil : NoStart "".
Proof. repeat split. Qed.

Lemma NoStart_cons x s :
  NoStart (String x s) <->
  x <> c_bs /\ NoStart s /\ ~ (x = "$"%char /\ exists o s', opening o /\ s = String o s').
Proof.
  unfold NoStart. cbn [has_char contains]. rewrite !orb_false_iff.
  unfold startswith.
  split.
  - intros ((H1 & H2) & (H3 & H4) & (H5 & H6)). split; [|split].
    + intros ->. discriminate.
    + tauto.
    + intros [-> (o & s' & Ho & ->)]. destruct Ho as [-> | ->]; [clear - H3; cbv in H3|clear - H5; cbv in H5]; destruct s'; discriminate.
  - intros (H1 & (H2 & H3 & H4) & H5).
    assert (P : forall o, opening o -> String.prefix (String "$" (String o "")) (String x s) = false).
    { intros o Ho. cbn [String.prefix]. destruct (ascii_dec "$" x) as [<-|N]; [|reflexivity].
      destruct s as [|y s]; [reflexivity|]. cbn [String.prefix].
      destruct (ascii_dec o y) as [<-|N]; [|reflexivity].
      exfalso. apply H5. split; auto. eauto. }
    rewrite H2, H3, H4. rewrite !(P _ (or_introl eq_refl)), (P _ (or_intror eq_refl)).
    split; [split; auto; apply Ascii.eqb_neq; congruence|auto].
Qed.

(** The scan in the DEFAULT state, classified by what comes first. *)
Inductive first_start (s : string) (i : nat) : result (option (nat * nat)) -> Prop :=
| FS_none : NothingStarts s -> first_start s i (Ok None)
| FS_esc p c post : NoStart p -> s = (p ++ String c_bs (String c post))%string ->
    first_start s i (Ok (Some (i + String.length p, i + String.length p + 2)))
| FS_ref p o c a post : NoStart p -> bracket o c -> Balanced o c a ->
    s = (p ++ String "$" (String o (a ++ String c post)))%string ->
    first_start s i (Ok (Some (i + String.length p,
                               i + String.length p + 3 + String.length a)))
| FS_unclosed p o c post : NoStart p -> bracket o c -> NeverCloses o c post ->
    s = (p ++ String "$" (String o post))%string ->
    first_start s i (Err SubstitutionError).

Lemma first_start_cons x s i r :
  x <> c_bs -> ~ (x = "$"%char /\ exists o s', opening o /\ s = String o s') ->
  first_start s (i + 1) r -> first_start (String x s) i r.
Proof.
  intros N1 N2 H.
  assert (P : forall p t, s = (p ++ t)%string -> NoStart p ->
                (p = "" -> forall o t', opening o -> t <> String o t') -> NoStart (String x p)).
  { intros p t -> Hp Ht. apply NoStart_cons. split; auto. split; auto.
    intros [-> (o & s' & Ho & ->)]. apply N2. split; auto. simpl. eauto. }
  destruct H as [[H|(p & H & ->)]|p c post H ->|p o c a post H B Ba ->|p o c post H B NC ->].
  - apply FS_none. left. apply (P s ""); auto; [rewrite sapp_nil_r; auto|discriminate].
  - apply FS_none. right. exists (String x p). split; [|reflexivity].
    eapply P; eauto. intros _ o t' [-> | ->]; discriminate.
  - replace (i + 1 + String.length p) with (i + String.length (String x p)) by (simpl; lia).
    eapply FS_esc; [|reflexivity].
    eapply P; eauto. intros _ o t' [-> | ->]; discriminate.
  - replace (i + 1 + String.length p) with (i + String.length (String x p)) by (simpl; lia).
    eapply FS_ref; [| exact B | exact Ba | reflexivity].
    eapply P; eauto. intros _ o' t' [-> | ->]; discriminate.
  - eapply (FS_unclosed _ _ (String x p)); [| exact B | exact NC | reflexivity].
    eapply P; eauto. intros _ o' t' [-> | ->]; discriminate.
Qed.

Lemma default_cases_aux : forall k s i start, String.length s <= k -> first_start s i (sfrom s i [T_DEFAULT] start).
Proof.
  induction k as [|k IH]; intros s i start L;
  (destruct s as [|x s]; [apply FS_none; left; apply NoStart_nil|]);
  simpl in L; [lia|].
  - destruct (Ascii.eqb_spec x c_bs) as [->|Nb].
    { destruct s as [|y s].
      - apply FS_none. right. exists "". split; [apply NoStart_nil|reflexivity].
      - assert (E : sfrom (String c_bs (String y s)) i [T_DEFAULT] start
                    = Ok (Some (i + String.length "", i + String.length "" + 2))).
        { cbn. do 3 f_equal; lia. }
        rewrite E. eapply FS_esc; [apply NoStart_nil|reflexivity]. }
    destruct (Ascii.eqb_spec x "$") as [->|Nd].
    2:{ assert (E : sfrom (String x s) i [T_DEFAULT] start = sfrom s (i + 1) [T_DEFAULT] start).
        { cbn [sfrom]. apply Ascii.eqb_neq in Nd, Nb. rewrite Nd, Nb. reflexivity. }
        rewrite E. apply first_start_cons; [auto|intros [-> _]; auto|apply IH; lia]. }
    destruct s as [|y s].
    { apply FS_none. left. apply NoStart_cons. split; [discriminate|].
      split; [apply NoStart_nil|]. intros [_ (o & s' & _ & H)]; discriminate. }
    assert (OP : forall o c, bracket o c -> y = o ->
              first_start (String "$" (String y s)) i
                (sfrom (String "$" (String y s)) i [T_DEFAULT] start)).
    { intros o c B ->.
      assert (E : sfrom (String "$" (String o s)) i [T_DEFAULT] start
                  = sfrom s (i + 1 + 1) [btok o; T_DOLLAR; T_DEFAULT] (i + 1 - 1)).
      { destruct B as [[-> ->]|[-> ->]]; reflexivity. }
      rewrite E. replace (i + 1 - 1) with i by lia.
      destruct (after_open o c B s (i + 1 + 1) i) as [(a & post & -> & Ba & E2)|[E2 NC]];
        rewrite E2.
      - pose proof (FS_ref (String "$" (String o (a ++ String c post)))%string i "" o c a post
                      NoStart_nil B Ba eq_refl) as F. simpl in F.
        replace (i + 1 + 1 + String.length a + 1) with (i + 0 + 3 + String.length a) by lia.
        replace i with (i + 0) at 2 by lia. exact F.
      - eapply (FS_unclosed _ _ ""); [apply NoStart_nil|exact B|exact NC|reflexivity]. }
    destruct (Ascii.eqb_spec y "(") as [Ey|N1]; [exact (OP "("%char ")"%char (or_introl (conj eq_refl eq_refl)) Ey)|].
    destruct (Ascii.eqb_spec y "{") as [Ey|N2]; [exact (OP "{"%char "}"%char (or_intror (conj eq_refl eq_refl)) Ey)|].
    assert (E : sfrom (String "$" (String y s)) i [T_DEFAULT] start
                = sfrom (String y s) (i + 1) [T_DEFAULT] start).
    { cbn [sfrom]. apply Ascii.eqb_neq in N1, N2. rewrite N1, N2. reflexivity. }
    rewrite E. apply first_start_cons.
    + discriminate.
    + intros [_ (o & s' & [-> | ->] & H)]; injection H; congruence.
    + apply IH. simpl in *. lia.
Qed.

Lemma default_cases s i start : first_start s i (sfrom s i [T_DEFAULT] start).
Proof. eapply default_cases_aux; eauto. Qed.

(** ** The scanner, classified *)
Lemma scanner_classified s : first_start s 0 (scanner s).
Proof. rewrite scanner_sfrom. apply default_cases. Qed.

(** Exclusivity of the four cases comes from determinism of the scan: each
    decomposition forces the scan's answer. *)
Lemma sfrom_skip_nostart p : NoStart p ->
  forall t i start, (forall x t', t = String x t' -> ~ opening x) ->
  sfrom (p ++ t)%string i [T_DEFAULT] start = sfrom t (i + String.length p) [T_DEFAULT] start.
Proof.
  induction p as [|x p IH]; intros H t i start Ht.
  - simpl. f_equal; lia.
  - apply NoStart_cons in H. destruct H as (N1 & Hp & N2).
    assert (E : sfrom (String x p ++ t)%string i [T_DEFAULT] start
                = sfrom (p ++ t)%string (i + 1) [T_DEFAULT] start).
    { cbn [append sfrom]. apply Ascii.eqb_neq in N1. rewrite N1.
      destruct (Ascii.eqb_spec x "$") as [->|Nd]; [|reflexivity].
      assert (NO : forall y q, (p ++ t)%string = String y q -> ~ opening y).
      { intros y q E. destruct p as [|z p]; simpl in E.
        - eapply Ht; eauto.
        - injection E as -> E. intros O. apply N2. split; eauto. }
      destruct (p ++ t)%string as [|y q]; [reflexivity|].
      specialize (NO y q eq_refl).
      cbn [sfrom].
      destruct (Ascii.eqb_spec y "(") as [->|]; [exfalso; apply NO; left; auto|].
      destruct (Ascii.eqb_spec y "{") as [->|]; [exfalso; apply NO; right; auto|].
      reflexivity. }
    rewrite E, IH; auto. f_equal. simpl. lia.
Qed.

Lemma scanner_esc p c post : NoStart p ->
  scanner (p ++ String c_bs (String c post))%string
  = Ok (Some (String.length p, String.length p + 2)).
Proof.
  intros H. rewrite scanner_sfrom, sfrom_skip_nostart; auto.
  - cbn. do 3 f_equal; lia.
  - intros x t' [= <- _] [E|E]; discriminate E.
Qed.

Lemma scanner_ref p o c a post : NoStart p -> bracket o c -> Balanced o c a ->
  scanner (p ++ String "$" (String o (a ++ String c post)))%string
  = Ok (Some (String.length p, String.length p + 3 + String.length a)).
Proof.
  intros H B Ba. rewrite scanner_sfrom, sfrom_skip_nostart; auto.
  - cbn [sfrom]. simpl (0 + _).
    assert (E : sfrom (String "$" (String o (a ++ String c post))) (String.length p) [T_DEFAULT] 0
                = sfrom (a ++ String c post)%string (String.length p + 1 + 1)
                    [btok o; T_DOLLAR; T_DEFAULT] (String.length p + 1 - 1)).
    { destruct B as [[-> ->]|[-> ->]]; reflexivity. }
    cbn [sfrom] in E. rewrite E, (closed_run o c a B Ba).
    do 3 f_equal; lia.
  - intros x t' [= <- _] [E|E]; discriminate E.
Qed.

Lemma scanner_unclosed p o c post : NoStart p -> bracket o c -> NeverCloses o c post ->
  scanner (p ++ String "$" (String o post))%string = Err SubstitutionError.
Proof.
  intros H B NC. rewrite scanner_sfrom, sfrom_skip_nostart; auto.
  - simpl (0 + _).
    assert (E : sfrom (String "$" (String o post)) (String.length p) [T_DEFAULT] 0
                = sfrom post (String.length p + 1 + 1)
                    [btok o; T_DOLLAR; T_DEFAULT] (String.length p + 1 - 1)).
    { destruct B as [[-> ->]|[-> ->]]; reflexivity. }
    rewrite E.
    destruct (after_open o c B post (String.length p + 1 + 1) (String.length p + 1 - 1))
      as [(a & q & -> & Ba & _)|[E2 _]]; [|exact E2].
    exfalso. apply NC. eauto.
  - intros x t' [= <- _] [E|E]; discriminate E.
Qed.

Lemma scanner_nothing s : NothingStarts s -> scanner s = Ok None.
Proof.
  intros [H|(p & H & ->)]; rewrite scanner_sfrom.
  - rewrite <- (sapp_nil_r s), (sfrom_skip_nostart s H); [reflexivity|discriminate].
  - rewrite (sfrom_skip_nostart p H); [reflexivity|].
    intros x t' [= <- _] [E|E]; discriminate E.
Qed.

(** ** The three characterisations *)
Lemma scanner_some_iff s a b : scanner s = Ok (Some (a, b)) <-> Start_at s a b.
Proof.
  split.
  - intros E. pose proof (scanner_classified s) as F. rewrite E in F.
    inversion F as [|p c post Hp Es E1|p o c x post Hp B Ba Es E1|]; subst.
    + exists p, (String c_bs (String c "")), post. repeat split; auto; try apply Hp.
      left; constructor.
    + exists p, (String "$" (String o (x ++ String c "")))%string, post.
      repeat split; auto; try apply Hp.
      * simpl. rewrite sapp_assoc. reflexivity.
      * right. econstructor; eauto.
      * simpl. rewrite slength_app. simpl. lia.
  - intros (pre & region & post & -> & Hp & HR & -> & ->).
    destruct HR as [H|H].
    + destruct H as [c]. simpl. apply scanner_esc; auto.
    + destruct H as [o c x B Ba].
      change (String "$" (String o (x ++ String c "")) ++ post)%string with
             (String "$" (String o ((x ++ String c "") ++ post)))%string.
      rewrite sapp_assoc. cbn [append]. rewrite (scanner_ref pre o c x post Hp B Ba).
      do 3 f_equal. simpl. rewrite slength_app. simpl. lia.
Qed.

Lemma scanner_none_iff s : scanner s = Ok None <-> NothingStarts s.
Proof.
  split; [|apply scanner_nothing].
  intros E. pose proof (scanner_classified s) as F. rewrite E in F. inversion F; auto.
Qed.

Lemma scanner_err_iff s e : scanner s = Err e <->
  e = SubstitutionError /\
  exists pre o c rest, s = (pre ++ String "$" (String o rest))%string /\
    NoStart pre /\ bracket o c /\ NeverCloses o c rest.
Proof.
  split.
  - intros E. pose proof (scanner_classified s) as F. rewrite E in F.
    inversion F; subst. split; auto. eauto 10.
  - intros (-> & pre & o & c & rest & -> & Hp & B & NC). eapply scanner_unclosed; eauto.
Qed.
