(** * Proofs about the texts, references and files of the refactoring tool *)
From Verif Require Import PyBase PyBaseProofs ExprModel ExprSpec ScanProofs InterpProofs EvalModel EvalSpec EvalProofs
  RefactorModel RefactorSpec.

(** ** Escaping *)
Lemma replace2_skip a b r c s : ~ (c = a /\ exists s', s = String b s') ->
  replace2 a b r (String c s) = String c (replace2 a b r s).
Proof.
  intros N. cbn [replace2]. destruct s as [|d s]; [reflexivity|].
  destruct (Ascii.eqb_spec c a) as [->|]; [|reflexivity].
  destruct (Ascii.eqb_spec d b) as [->|]; [|reflexivity].
  exfalso. apply N. eauto.
Qed.
Lemma replace2_hit a b r s : replace2 a b r (String a (String b s)) = (r ++ replace2 a b r s)%string.
Proof. cbn [replace2]. rewrite !Ascii.eqb_refl. reflexivity. Qed.
Lemma replace2_head d s : exists t, replace2 "$" "{" "$/{" (String d s) = String d t.
Proof.
  cbn [replace2]. destruct s as [|e s]; [eauto|].
  destruct (Ascii.eqb_spec d "$") as [->|]; [|cbn [andb]; eauto].
  destruct (Ascii.eqb_spec e "{") as [->|]; cbn [andb append]; eauto.
Qed.

Lemma escape_slashed : forall k s, String.length s <= k -> escape_expression_field s = slashed s.
Proof.
  induction k as [|k IH]; intros s L; (destruct s as [|c s]; [reflexivity|]); cbn [String.length] in L; [lia|].
  unfold escape_expression_field in *.
  destruct s as [|o s]; [reflexivity|]. cbn [String.length] in L.
  change (slashed (String c (String o s))) with
    (if Ascii.eqb c "$" && (Ascii.eqb o "(" || Ascii.eqb o "{")
     then String c (String "/" (slashed (String o s))) else String c (slashed (String o s))).
  destruct (Ascii.eqb_spec c "$") as [->|N].
  - destruct (Ascii.eqb_spec o "(") as [->|N1]; [|destruct (Ascii.eqb_spec o "{") as [->|N2]]; cbn [orb andb].
    + rewrite (replace2_skip "$" "{" _ "$") by (intros (_ & s' & E); discriminate).
      rewrite (replace2_skip "$" "{" _ "(") by (intros (E & _); discriminate).
      rewrite replace2_hit, (IH s) by lia. cbn [append].
      do 2 f_equal. rewrite <- (IH (String "(" s)) by (cbn [String.length]; lia).
      rewrite (replace2_skip "$" "{" _ "(") by (intros (E & _); discriminate).
      rewrite replace2_skip by (intros (E & _); discriminate). rewrite (IH s) by lia. reflexivity.
    + rewrite replace2_hit. cbn [append].
      rewrite replace2_skip by (intros (_ & s' & E); discriminate).
      rewrite replace2_skip by (intros (E & _); discriminate).
      rewrite replace2_skip by (intros (E & _); discriminate).
      rewrite (IH s) by lia. do 2 f_equal.
      rewrite <- (IH (String "{" s)) by (cbn [String.length]; lia).
      rewrite (replace2_skip "$" "{" _ "{") by (intros (E & _); discriminate).
      rewrite replace2_skip by (intros (E & _); discriminate). rewrite (IH s) by lia. reflexivity.
    + rewrite (replace2_skip "$" "{" _ "$") by (intros (_ & s' & E); injection E; auto).
      destruct (replace2_head o s) as [t Et].
      rewrite replace2_skip by (rewrite Et; intros (_ & s' & E); injection E; auto).
      rewrite <- (IH (String o s)) by (cbn [String.length]; lia). reflexivity.
  - cbn [andb]. rewrite (replace2_skip "$" "{" _ c) by (intros (E & _); auto).
    rewrite replace2_skip by (intros (E & _); auto).
    rewrite <- (IH (String o s)) by (cbn [String.length]; lia). reflexivity.
Qed.

Lemma escape_is_slashed s : escape_expression_field s = slashed s.
Proof. eapply escape_slashed; eauto. Qed.

Lemma contains2_cons a b c s : contains (String a (String b "")) (String c s)
  = (Ascii.eqb a c && match s with String d _ => Ascii.eqb b d | _ => false end) || contains (String a (String b "")) s.
Proof.
  cbn [contains]. f_equal. unfold startswith. cbn [String.prefix].
  destruct (ascii_dec a c) as [->|N].
  - rewrite Ascii.eqb_refl. destruct s as [|d s]; [reflexivity|]. cbn [andb].
    cbn [String.prefix]. destruct (ascii_dec b d) as [->|N]; [rewrite Ascii.eqb_refl; destruct s; reflexivity|].
    apply Ascii.eqb_neq in N. rewrite N. reflexivity.
  - apply Ascii.eqb_neq in N. rewrite N. reflexivity.
Qed.

Lemma slashed_head c s : exists t, slashed (String c s) = String c t.
Proof. cbn [slashed]. destruct s; [eauto|]. destruct (_ && _); eauto. Qed.

Lemma slashed_inert s : Inert (slashed s).
Proof.
  induction s as [|c s [I1 I2]]; [split; reflexivity|].
  cbn [slashed]. destruct s as [|o s]; [split; rewrite contains2_cons; rewrite andb_false_r; reflexivity|].
  destruct (slashed_head o s) as [t Et].
  destruct (Ascii.eqb_spec c "$") as [->|N]; cbn [andb].
  - destruct (Ascii.eqb o "(" || Ascii.eqb o "{") eqn:EO.
    + split; rewrite !contains2_cons, ?I1, ?I2; reflexivity.
    + apply orb_false_iff in EO. destruct EO as [E1 E2].
      split; rewrite contains2_cons, ?I1, ?I2, Et; rewrite Ascii.eqb_sym in E1, E2; rewrite ?E1, ?E2; reflexivity.
  - apply Ascii.eqb_neq in N. rewrite Ascii.eqb_sym in N.
    split; rewrite contains2_cons, ?I1, ?I2, N; reflexivity.
Qed.

Lemma slashed_unchanged s : Inert s -> slashed s = s.
Proof.
  induction s as [|c s IH]; intros [I1 I2]; [reflexivity|].
  rewrite contains2_cons in I1, I2. apply orb_false_iff in I1, I2. destruct I1 as [A1 I1], I2 as [A2 I2].
  cbn [slashed]. destruct s as [|o s]; [reflexivity|].
  rewrite IH by (split; auto).
  rewrite (Ascii.eqb_sym c), (Ascii.eqb_sym o "("), (Ascii.eqb_sym o "{").
  destruct (Ascii.eqb "$" c); [|reflexivity]. cbn [andb] in *. rewrite A1, A2. reflexivity.
Qed.

(** ** Conversion *)
Section Conversion.
  Variable dumps : json -> string.

  (** the operands as the code writes them *)
  Definition raw_operand (i : item) : string :=
    match i with
    | Lit s => quoted_raw s
    | _ => operand (fun s => dumps (JStr s)) i
    end.
  Definition raw_concatenation (its : list item) : string := sjoin " + " (map raw_operand its).

  Lemma raw_cons i j l : raw_concatenation (i :: j :: l) = (raw_operand i ++ " + " ++ raw_concatenation (j :: l))%string.
  Proof. unfold raw_concatenation. cbn [map]. rewrite sjoin_cons. reflexivity. Qed.

  Lemma sslice_ref p r s :
    sslice (String.length p) (String.length p + 1 + String.length r) (p ++ String "$" (r ++ s))
    = String "$" r.
  Proof.
    change (String "$" (r ++ s)) with (String "$" r ++ s)%string.
    replace (String.length p + 1 + String.length r) with (String.length p + String.length (String "$" r)) by (cbn [String.length]; lia).
    apply sslice_app; reflexivity.
  Qed.

  Lemma convert_loop_items s its : Items true s its -> ~ In Unclosed its ->
    forall fuel parts, String.length s < fuel ->
    convert_loop dumps fuel 2 s parts
    = Ok (sjoin "" parts ++ raw_concatenation its ++ ";}")%string.
  Proof.
    intros H. induction H as [s H|p c s its Hp N H IH|p o s its E Hp Ho H IH|p r s its Hp HR H IH|p o c s Hp B NC];
      intros NU fuel parts L; (destruct fuel as [|fuel]; [lia|]); cbn [convert_loop].
    - rewrite (scanner_nothing s H). f_equal.
      change (parts ++ [quoted_raw s; ";}"]) with (parts ++ [quoted_raw s] ++ [";}"]).
      rewrite app_assoc, !sjoin_snoc, sapp_assoc. reflexivity.
    - rewrite (scanner_esc p c s Hp), stake_app_length, get_app_len.
      replace (Ascii.eqb c_bs "$") with false by reflexivity. rewrite Ascii.eqb_refl.
      pose proof (escape_text_esc true p c s N) as EE; cbn [esc_code] in EE; rewrite EE.
      replace (sdrop (String.length p + 2) (p ++ String c_bs (String c s))) with s
        by (rewrite sdrop_app_plus; reflexivity).
      rewrite slength_app in L. simpl in L.
      rewrite IH by (try lia; intros X; apply NU; cbn; auto).
      destruct (Items_head _ _ _ H) as (q & l & ->).
      rewrite !sjoin_snoc, !raw_cons. unfold convert_dumper. cbn [raw_operand operand].
      rewrite !sapp_assoc. reflexivity.
    - rewrite (scanner_esc p "$" (String o s) Hp), stake_app_length, get_app_len.
      replace (Ascii.eqb c_bs "$") with false by reflexivity. rewrite Ascii.eqb_refl.
      rewrite escape_text_ref by auto.
      replace (sdrop (String.length p + 3) (p ++ String c_bs (String "$" (String o s)))) with s
        by (rewrite sdrop_app_plus; reflexivity).
      rewrite slength_app in L. simpl in L.
      rewrite IH by (try lia; intros X; apply NU; cbn; auto).
      destruct (Items_head _ _ _ H) as (q & l & ->).
      rewrite !sjoin_snoc, !raw_cons. unfold convert_dumper. cbn [raw_operand operand].
      rewrite !sapp_assoc. reflexivity.
    - rewrite (scanner_Ref p r s Hp HR), stake_app_length, get_app_len. rewrite Ascii.eqb_refl.
      rewrite sslice_ref.
      assert (ES : sdrop (String.length p + 1 + String.length r) (p ++ String "$" (r ++ s)) = s).
      { rewrite app_cons_shift. rewrite <- (length_snoc p "$"). rewrite sdrop_app_plus.
        apply sdrop_app_length. }
      rewrite ES. rewrite slength_app in L. simpl in L. rewrite slength_app in L.
      rewrite IH by (try lia; intros X; apply NU; cbn; auto).
      destruct (Items_head _ _ _ H) as (q & l & ->).
      rewrite !sjoin_snoc, !raw_cons. unfold convert_ref, quoted_raw, dq, reference_code.
      cbn [raw_operand operand]. unfold reference_code, quoted_raw, dq.
      cbn [sdrop append]. rewrite ?sapp_assoc. cbn [append]. rewrite ?sapp_assoc. reflexivity.
    - exfalso. apply NU. cbn. auto.
  Qed.

  Lemma convert_loop_unclosed s its : Items true s its -> In Unclosed its ->
    forall fuel parts, String.length s < fuel ->
    convert_loop dumps fuel 2 s parts = Err SubstitutionError.
  Proof.
    intros H. induction H as [s H|p c s its Hp N H IH|p o s its E Hp Ho H IH|p r s its Hp HR H IH|p o c s Hp B NC];
      intros NU fuel parts L; (destruct fuel as [|fuel]; [lia|]); cbn [convert_loop].
    - destruct NU as [E|[]]; discriminate.
    - destruct NU as [E|[E|NU]]; try discriminate.
      rewrite (scanner_esc p c s Hp), stake_app_length, get_app_len.
      replace (Ascii.eqb c_bs "$") with false by reflexivity. rewrite Ascii.eqb_refl.
      pose proof (escape_text_esc true p c s N) as EE; cbn [esc_code] in EE; rewrite EE.
      replace (sdrop (String.length p + 2) (p ++ String c_bs (String c s))) with s
        by (rewrite sdrop_app_plus; reflexivity).
      rewrite slength_app in L. simpl in L. apply IH; auto; lia.
    - destruct NU as [E1|[E1|NU]]; try discriminate.
      rewrite (scanner_esc p "$" (String o s) Hp), stake_app_length, get_app_len.
      replace (Ascii.eqb c_bs "$") with false by reflexivity. rewrite Ascii.eqb_refl.
      rewrite escape_text_ref by auto.
      replace (sdrop (String.length p + 3) (p ++ String c_bs (String "$" (String o s)))) with s
        by (rewrite sdrop_app_plus; reflexivity).
      rewrite slength_app in L. simpl in L. apply IH; auto; lia.
    - destruct NU as [E|[E|NU]]; try discriminate.
      rewrite (scanner_Ref p r s Hp HR), stake_app_length, get_app_len. rewrite Ascii.eqb_refl.
      assert (ES : sdrop (String.length p + 1 + String.length r) (p ++ String "$" (r ++ s)) = s).
      { rewrite app_cons_shift. rewrite <- (length_snoc p "$"). rewrite sdrop_app_plus.
        apply sdrop_app_length. }
      rewrite ES. rewrite slength_app in L. simpl in L. rewrite slength_app in L. apply IH; auto; lia.
    - rewrite (scanner_unclosed p o c s Hp B NC). reflexivity.
  Qed.

  Lemma convert_items s its : Items true (strip s) its -> ~ In Unclosed its ->
    convert dumps 2 s = Ok ("${return " ++ raw_concatenation its ++ ";}")%string.
  Proof.
    intros H NU. unfold convert. rewrite (convert_loop_items _ its H NU) by lia. reflexivity.
  Qed.

  Lemma raw_quotable its : dumps_quotes dumps -> (forall p, In (Lit p) its -> Quotable p) ->
    raw_concatenation its = concatenation (fun s => dumps (JStr s)) its.
  Proof.
    intros Q F. unfold raw_concatenation, concatenation. f_equal. apply map_ext_in.
    intros [p| | | |] I; try reflexivity. cbn [raw_operand operand]. rewrite Q by auto. reflexivity.
  Qed.
End Conversion.

(** ** Text that evaluates to itself under the v1.2 rules *)
Definition NoPair (s : string) : Prop := contains (String c_bs (String c_bs "")) s = false.

Lemma inert_cons c s : Inert (String c s) -> Inert s.
Proof. intros [A B]. rewrite contains2_cons in A, B. apply orb_false_iff in A, B. split; tauto. Qed.
Lemma nopair_cons c s : NoPair (String c s) -> NoPair s.
Proof. unfold NoPair. intros A. rewrite contains2_cons in A. apply orb_false_iff in A. tauto. Qed.

Section Itself.
  Context {St : Type}.
  Variable ev : St -> string -> St * result json.
  Variable txt : json -> string.

  Lemma inert_items : forall k s, String.length s <= k -> Inert s -> NoPair s ->
    exists its, Items true s its /\ (forall st, items_text ev txt true st its = (st, Ok s)) /\
      (forall b, ~ In (Ref b) its).
  Proof.
    induction k as [|k IH]; intros s L I NP;
      (destruct s as [|c s];
       [exists [Lit ""]; split; [constructor; left; apply NoStart_nil|split; [reflexivity|intros b [E|[]]; discriminate]]|]);
      simpl in L; [lia|].
    destruct (Ascii.eqb_spec c c_bs) as [->|N1].
    - destruct s as [|d s].
      { exists [Lit (String c_bs "")]. split; [|split].
        - constructor. right. exists "". split; [apply NoStart_nil|reflexivity].
        - reflexivity.
        - intros b [E|[]]; discriminate. }
      assert (ND : d <> c_bs).
      { intros ->. unfold NoPair in NP. rewrite contains2_cons in NP. discriminate NP. }
      simpl in L. destruct (IH s ltac:(lia)) as (its & H & T & NR).
      { apply inert_cons in I. apply inert_cons in I. auto. }
      { apply nopair_cons in NP. apply nopair_cons in NP. auto. }
      exists (Lit "" :: Esc d :: its). split; [|split].
      + apply (It_esc true "" d); auto; [apply NoStart_nil|].
        intros (_ & -> & o & s' & Ho & ->). apply inert_cons in I. destruct I as [A B].
        rewrite contains2_cons in A, B. destruct Ho as [-> | ->]; discriminate.
      + intros st. cbn [items_text]. rewrite T. apply Ascii.eqb_neq in ND. rewrite ND. reflexivity.
      + intros b [E|[E|E]]; try discriminate. eapply NR; eauto.
    - destruct (IH s ltac:(lia)) as (its & H & T & NR); [eapply inert_cons; eauto|eapply nopair_cons; eauto|].
      destruct (Items_head _ _ _ H) as (p & l & ->).
      exists (Lit (String c p) :: l). split; [|split].
      + apply Items_cons_char; auto. intros [-> (o & s' & Ho & ->)]. destruct I as [A B].
        rewrite contains2_cons in A, B. destruct Ho as [-> | ->]; discriminate.
      + intros st. specialize (T st). cbn [items_text] in *.
        destruct (items_text ev txt true st l) as [st' [t|e]]; cbn [bind] in *; [|discriminate].
        injection T as -> <-. reflexivity.
      + intros b [E|E]; [discriminate|]. apply (NR b). right; auto.
  Qed.
End Itself.

Lemma slashed_nopair s : NoPair s -> NoPair (slashed s).
Proof.
  unfold NoPair. induction s as [|c s IH]; intros H; [reflexivity|].
  rewrite contains2_cons in H. apply orb_false_iff in H. destruct H as [A H]. specialize (IH H).
  cbn [slashed]. destruct s as [|o s]; [rewrite contains2_cons, andb_false_r; reflexivity|].
  destruct (slashed_head o s) as [t Et].
  destruct (Ascii.eqb_spec c "$") as [->|N]; cbn [andb].
  - destruct (Ascii.eqb o "(" || Ascii.eqb o "{"); rewrite !contains2_cons, IH; reflexivity.
  - rewrite contains2_cons, IH, Et, A. reflexivity.
Qed.

(** a boundary at which no pair of characters can start or end *)
Lemma contains2_app a b x d y : d <> b ->
  contains (String a (String b "")) (x ++ String d y) = contains (String a (String b "")) x || contains (String a (String b "")) (String d y).
Proof.
  intros N. induction x as [|c x IH]; [reflexivity|]. cbn [append]. rewrite contains2_cons, (contains2_cons a b c x), IH.
  rewrite <- orb_assoc. f_equal. destruct x as [|e x]; [|reflexivity]. cbn [append].
  apply Ascii.eqb_neq in N. rewrite Ascii.eqb_sym in N. rewrite N. reflexivity.
Qed.

Definition Plain (s : string) : Prop := Inert s /\ NoPair s.
Lemma plain_app x d y : Plain x -> Plain (String d y) -> d <> "("%char -> d <> "{"%char -> d <> c_bs -> Plain (x ++ String d y).
Proof.
  intros [[A1 A2] A3] [[B1 B2] B3] N1 N2 N3. unfold NoPair in *.
  split; [split|]; try unfold NoPair; rewrite contains2_app by auto; rewrite ?A1, ?A2, ?A3; auto.
Qed.
Lemma plain_sjoin l : Forall Plain l -> Plain (sjoin nl l).
Proof.
  induction 1 as [|x l H F IH]; [repeat split|]. destruct l as [|y l]; [exact H|].
  rewrite sjoin_cons. apply plain_app; auto; try discriminate.
Qed.
Lemma plain_cons c s : c <> "$"%char -> c <> c_bs -> Plain s -> Plain (String c s).
Proof.
  intros N1 N2 [[I1 I2] I3]. apply Ascii.eqb_neq in N1, N2. rewrite Ascii.eqb_sym in N1, N2.
  unfold NoPair in *. repeat split; unfold NoPair; rewrite contains2_cons, ?I1, ?I2, ?I3, ?N1, ?N2; reflexivity.
Qed.

(** ** The script *)
Definition script_text (inputs runtime : string) (lib : list string) (code : string) : string :=
  (quoted_raw "use strict" ++ ";" ++ nl ++ "var inputs=" ++ inputs ++ ";" ++ nl ++ "var runtime=" ++ runtime ++ ";"
    ++ match lib with [] => "" | _ => nl ++ sjoin nl lib end
    ++ nl ++ "var ret = function(){" ++ code ++ "}();" ++ nl ++ "process.stdout.write(JSON.stringify(ret));")%string.

Lemma plain_tail code : Plain code ->
  Plain (nl ++ "var ret = function(){" ++ code ++ "}();" ++ nl ++ "process.stdout.write(JSON.stringify(ret));").
Proof.
  intros P. cbn [nl append]. repeat (apply plain_cons; [discriminate|discriminate|]).
  apply plain_app; try discriminate; auto. repeat split.
Qed.
Lemma plain_lib lib rest : Forall Plain lib -> Plain (nl ++ rest) ->
  Plain (match lib with [] => "" | _ => nl ++ sjoin nl lib end ++ nl ++ rest).
Proof.
  intros F R. destruct lib as [|x l]; [exact R|]. remember (sjoin nl (x :: l)) as t.
  cbn [nl append]. apply plain_cons; [discriminate|discriminate|].
  cbn [nl append] in R. apply plain_app; auto; try discriminate. subst. apply plain_sjoin; auto.
Qed.

Lemma reference_name n : is_root n -> Reference (String "$" ("(" ++ n ++ ")")).
Proof. intros R. apply (write_ref_Reference n []); auto. Qed.

Lemma last_char_strip c r d : is_space c = false -> is_space d = false ->
  strip (String c r ++ String d "") = (String c r ++ String d "")%string.
Proof.
  intros C D. unfold strip. cbn [append lstrip]. rewrite C.
  change (String c (r ++ String d "")) with (String c r ++ String d "")%string. apply rstrip_snoc; auto.
Qed.

Lemma tail_semicolon L code : exists r,
  (";" ++ L ++ nl ++ "var ret = function(){" ++ code ++ "}();" ++ nl ++ "process.stdout.write(JSON.stringify(ret));")%string
  = (r ++ ";")%string.
Proof.
  exists (";" ++ L ++ nl ++ "var ret = function(){" ++ code ++ "}();" ++ nl ++ "process.stdout.write(JSON.stringify(ret))")%string.
  cbn [append]. f_equal. rewrite !sapp_assoc. f_equal. cbn [append nl]. rewrite !sapp_assoc. reflexivity.
Qed.
Lemma or_None_dir d : or_None d = directory d.
Proof. destruct d as [[|c s]|]; reflexivity. Qed.

Section Script.
  Context {St : Type}.
  Variable js : St -> string -> string -> St * result json.
  Variable dumps dumps4 : json -> string.
  Variable loads : string -> string.
  Hypothesis LIB : json_library_ok dumps loads.

  Lemma script_eval st d reqs out tmp res ctx sw ver lib expression code :
    Forall wf_requirement reqs -> ~ old_rules_version ver ->
    HasCode expression code -> NoPair code -> Forall Plain lib ->
    do_eval js dumps dumps4 loads st (JStr (script lib expression)) (JDict d) reqs out tmp res ctx sw ver
    = (st, Ok (JStr (script_text (dumps (JDict d))
         (dumps (JDict (dset "outdir" (directory out) (dset "tmpdir" (directory tmp) res)))) lib (slashed code)))).
  Proof.
    intros W V HC NP PL.
    destruct (find_js_wf dumps4 (root_vars (JDict d) ctx out tmp res) (rev reqs)) as (b & l & F); [apply Forall_rev; auto|].
    assert (EV : escaping_of_version ver = esc_code true).
    { unfold escaping_of_version. destruct (smem ver OLD_ESCAPE_CWL_VERSIONS) eqn:M; [|reflexivity].
      exfalso. apply V. apply smem_In in M. unfold OLD_ESCAPE_CWL_VERSIONS in M. cbn [In] in M. unfold old_rules_version. intuition auto. }
    set (code' := slashed code).
    set (R := (";" ++ match lib with [] => "" | _ => nl ++ sjoin nl lib end
      ++ nl ++ "var ret = function(){" ++ code' ++ "}();" ++ nl ++ "process.stdout.write(JSON.stringify(ret));")%string).
    assert (ES : script lib expression
      = ((quoted_raw "use strict" ++ ";" ++ nl ++ "var inputs=") ++ String "$" ("(inputs)" ++ ((";" ++ nl ++ "var runtime=") ++ String "$" ("(runtime)" ++ R))))%string).
    { unfold script, R. rewrite HC.
      replace (sdrop_last 1 (sdrop 2 ("${" ++ code ++ "}"))) with code
        by (cbn [append sdrop]; symmetry; exact (sdrop_last_app code "}")).
      rewrite escape_is_slashed. fold code'. cbn [quoted_raw dq nl append]. reflexivity. }
    assert (PR : Plain R).
    { unfold R. cbn [append]. apply plain_cons; [discriminate|discriminate|].
      apply plain_lib; auto. apply plain_tail. split; [apply slashed_inert|apply slashed_nopair; auto]. }
    destruct (inert_items (evaluator js (root_vars (JDict d) ctx out tmp res) l b) (value_text dumps) (String.length R) R (le_n _)
                (proj1 PR) (proj2 PR)) as (its & I & T & _).
    set (H0 := (quoted_raw "use strict" ++ ";" ++ nl ++ "var inputs=")%string) in *.
    set (M0 := (";" ++ nl ++ "var runtime=")%string) in *.
    assert (IT : Items true (script lib expression) (Lit H0 :: Ref "(inputs)" :: Lit M0 :: Ref "(runtime)" :: its)).
    { rewrite ES. apply It_ref; [repeat split|apply (reference_name "inputs"); left; reflexivity|].
      apply It_ref; [repeat split|apply (reference_name "runtime"); right; right; reflexivity|exact I]. }
    assert (SS : strip (script lib expression) = script lib expression).
    { destruct (tail_semicolon (match lib with [] => "" | _ => nl ++ sjoin nl lib end) code') as [r Er].
      fold R in Er. rewrite ES, Er. clearbody R. clear.
      replace (H0 ++ String "$" ("(inputs)" ++ M0 ++ String "$" ("(runtime)" ++ r ++ ";")))%string
        with (String c_dq ("use strict" ++ String c_dq (";" ++ nl ++ "var inputs=$(inputs)" ++ M0 ++ "$(runtime)" ++ r)) ++ String ";" "")%string.
      - apply last_char_strip; reflexivity.
      - subst H0 M0. cbn [quoted_raw dq nl append]. reflexivity. }
    assert (NPS : contains "$(" (script lib expression) || contains "${" (script lib expression) = true).
    { apply orb_true_iff. left. apply contains_spec. rewrite ES.
      exists H0, ("inputs)" ++ M0 ++ String "$" ("(runtime)" ++ R))%string. reflexivity. }
    assert (IT' : Items true (if sw then strip (script lib expression) else script lib expression)
               (Lit H0 :: Ref "(inputs)" :: Lit M0 :: Ref "(runtime)" :: its)) by (destruct sw; [rewrite SS|]; exact IT).
    rewrite (do_eval_meaning js dumps dumps4 loads LIB st (script lib expression) (JDict d) reqs out tmp res ctx sw ver b l true _ NPS F EV IT').
    destruct (items_value_cases (evaluator js (root_vars (JDict d) ctx out tmp res) l b) (value_text dumps) true st
                (Lit H0 :: Ref "(inputs)" :: Lit M0 :: Ref "(runtime)" :: its)) as [(bb & E & _)|(_ & ->)]; [discriminate E|].
    cbn [items_text].
    pose proof (evaluator_walk js (root_vars (JDict d) ctx out tmp res) l b st "inputs" [] (JDict d) (JDict d) (or_introl eq_refl) eq_refl (Forall_nil _) (W_end _)) as E1.
    pose proof (evaluator_walk js (root_vars (JDict d) ctx out tmp res) l b st "runtime" [] _ _ (or_intror (or_intror eq_refl)) eq_refl (Forall_nil _) (W_end _)) as E2.
    change (write_ref "inputs" []) with "(inputs)" in E1. change (write_ref "runtime" []) with "(runtime)" in E2.
    rewrite E1, E2, T. cbn [bind as_workflow_failure value_text]. rewrite !or_None_dir. do 3 f_equal.
  Qed.
End Script.

(** ** Libraries *)
Lemma first_js_none reqs : NoJS reqs -> first_js reqs = None.
Proof.
  induction reqs as [|[lib|cls] r IH]; intros N; [reflexivity| |].
  - exfalso. apply (N lib). left; reflexivity.
  - apply IH. intros l I. apply (N l). right; auto.
Qed.
Lemma first_js_some reqs lib : Declares reqs lib -> first_js reqs = Some lib.
Proof.
  intros (x & y & -> & N). induction x as [|[l|cls] x IH]; [reflexivity| |].
  - exfalso. apply (N l). left; reflexivity.
  - apply IH. intros l I. apply (N l). right; auto.
Qed.
Lemma find_lib_skip a b : Forall NoJS a -> find_lib_rev (a ++ b) = find_lib_rev b.
Proof. induction 1 as [|p a H F IH]; [reflexivity|]. cbn [app find_lib_rev]. rewrite first_js_none; auto. Qed.
Lemma find_lib_hit a p b lib : Forall NoJS b -> Declares p lib -> find_expressionLib (a ++ p :: b) = lib.
Proof.
  intros N D. unfold find_expressionLib. rewrite rev_app_distr. cbn [rev]. rewrite <- app_assoc.
  rewrite find_lib_skip by (apply Forall_rev; auto). cbn [app find_lib_rev]. rewrite (first_js_some _ _ D). reflexivity.
Qed.
Lemma find_lib_none a : Forall NoJS a -> find_expressionLib a = None.
Proof.
  intros N. unfold find_expressionLib. rewrite <- (app_nil_r (rev a)).
  rewrite find_lib_skip by (apply Forall_rev; auto). reflexivity.
Qed.

(** ** Names *)
Lemma split_last_fragment c s : has_char c (last (split_char c s) "") = false /\
  (s = last (split_char c s) "" \/ exists p, s = (p ++ String c (last (split_char c s) ""))%string).
Proof.
  induction s as [|d s [H1 H2]]; [split; [reflexivity|left; reflexivity]|].
  cbn [split_char]. pose proof (split_char_nonnil c s) as NN.
  destruct (split_char c s) as [|x l] eqn:E; [congruence|].
  destruct (Ascii.eqb_spec d c) as [->|N].
  - change (last ("" :: x :: l) "") with (last (x :: l) ""). split; auto. right.
    destruct H2 as [-> | [p ->]].
    + exists "". reflexivity.
    + exists (String c p). reflexivity.
  - destruct l as [|y l].
    + change (last [String d x] "") with (String d x). cbn [last] in H1, H2. split.
      * cbn [has_char]. apply Ascii.eqb_neq in N. rewrite Ascii.eqb_sym in N. rewrite N. auto.
      * left. f_equal. rewrite <- (sjoin_split_char c s), E. reflexivity.
    + change (last (String d x :: y :: l) "") with (last (y :: l) "").
      change (last (x :: y :: l) "") with (last (y :: l) "") in H1, H2. split; auto. right.
      destruct H2 as [E2 | [p E2]].
      * exfalso. pose proof (split_char_none c s) as S. rewrite E2 in S at 1. rewrite E in S. specialize (S H1). discriminate.
      * exists (String d p). rewrite E2 at 1. reflexivity.
Qed.

Lemma last_fragment_unique c s f : has_char c f = false -> (s = f \/ exists p, s = (p ++ String c f)%string) ->
  last (split_char c s) "" = f.
Proof.
  intros H [-> | [p ->]].
  - rewrite split_char_none by auto. reflexivity.
  - induction p as [|d p IH].
    + cbn [append split_char]. rewrite split_char_none by auto. rewrite Ascii.eqb_refl. reflexivity.
    + cbn [append split_char]. pose proof (sjoin_split_char c (p ++ String c f)) as J.
      destruct (split_char c (p ++ String c f)) as [|x l] eqn:E; [exfalso; eapply split_char_nonnil; eauto|].
      destruct (Ascii.eqb_spec d c) as [->|N]; [exact IH|].
      destruct l as [|y l]; [|exact IH].
      cbn [last] in IH. subst x. change (sjoin (String c "") [f]) with f in J. exfalso.
      apply (f_equal String.length) in J. rewrite slength_app in J. cbn [String.length] in J. lia.
Qed.

Lemma after_hash_Fragment x f : after_hash x = f <-> Fragment x f.
Proof.
  unfold after_hash, Fragment. split.
  - intros <-. apply (split_last_fragment "#" x).
  - intros [H E]. apply last_fragment_unique; auto.
Qed.

Lemma after_slash_spec s : (exists a b, s = (a ++ "/" ++ b)%string /\ has_char "/" a = false /\ after_slash s = Ok b)
  \/ (has_char "/" s = false /\ after_slash s = Err IndexError).
Proof.
  induction s as [|c s IH]; [right; split; reflexivity|].
  cbn [after_slash has_char]. destruct (Ascii.eqb_spec c "/") as [->|N].
  - left. exists "", s. repeat split; reflexivity.
  - destruct IH as [(a & b & -> & H & E)|[H E]].
    + left. exists (String c a), b. repeat split; auto. cbn [has_char]. rewrite H.
      apply Ascii.eqb_neq in N. rewrite Ascii.eqb_sym, N. reflexivity.
    + right. split; auto. rewrite H. apply Ascii.eqb_neq in N. rewrite Ascii.eqb_sym, N. reflexivity.
Qed.
Lemma after_slash_app a b : has_char "/" a = false -> after_slash (a ++ "/" ++ b) = Ok b.
Proof.
  induction a as [|c a IH]; intros H; [reflexivity|].
  cbn [has_char] in H. apply orb_false_iff in H. destruct H as [H1 H2].
  cbn [append after_slash]. rewrite Ascii.eqb_sym in H1. rewrite H1. apply IH; auto.
Qed.

(** ** Sources *)
Lemma replace_src_redirected name target s : name <> "" ->
  Redirected (fun x => x = name) target s (replace_src name target s).
Proof.
  intros N. destruct s as [|x|l]; cbn [replace_src]; [constructor| |].
  - destruct (String.eqb_spec x "") as [->|_]; [constructor; right; split; auto|].
    destruct (String.eqb_spec x name); constructor; auto.
  - constructor. induction l as [|x l IH]; cbn [map]; constructor; auto.
    destruct (String.eqb_spec x name); auto.
Qed.
Lemma rename_input_redirected old new s : old <> "" ->
  Redirected (fun x => Fragment x old) new s (rename_input old new s).
Proof.
  intros N.
  assert (H : forall x, Fragment x old <-> after_hash x = old) by (intros x; symmetry; apply after_hash_Fragment).
  destruct s as [|x|l]; cbn [rename_input]; [constructor| |].
  - destruct (String.eqb_spec x "") as [->|_].
    { constructor. right. split; auto. rewrite H. cbn. auto. }
    assert (E : (if has_char "#" x then after_hash x else x) = after_hash x).
    { destruct (has_char "#" x) eqn:HH; [reflexivity|]. unfold after_hash. rewrite split_char_none by auto. reflexivity. }
    cbv zeta. rewrite E. destruct (String.eqb_spec (after_hash x) old); constructor; rewrite H; auto.
  - constructor. induction l as [|x l IH]; cbn [map]; constructor; auto. rewrite H.
    destruct (String.eqb_spec (after_hash x) old); auto.
Qed.

Lemma rename_output_ok old new s t : rename_output old new s = Ok t ->
  Redirected (fun x => FromStep x old) new s t.
Proof.
  destruct s as [|x|[|x l]]; cbn [rename_output].
  - intros [= <-]; constructor.
  - destruct (String.eqb_spec x "") as [->|NE].
    + intros [= <-]. constructor. right. split; auto. intros (st & H & F).
      apply after_hash_Fragment in F. cbn in F. destruct st; discriminate.
    + destruct (after_slash_spec (after_hash x)) as [(a & b & E & H & ->)|[_ ->]]; cbn [bind]; [|discriminate].
      destruct (String.eqb_spec b old) as [->|N]; intros [= <-]; constructor.
      * left. split; auto. exists a. split; auto. apply after_hash_Fragment; auto.
      * right. split; auto. intros (st & H' & F). apply after_hash_Fragment in F.
        rewrite E in F. pose proof (after_slash_app a b H) as S1. rewrite F in S1.
        rewrite (after_slash_app st old H') in S1. congruence.
  - intros [= <-]. constructor. constructor.
  - discriminate.
Qed.
Lemma rename_output_err old new s e : rename_output old new s = Err e <->
  (e = IndexError /\ exists x f, s = SOne x /\ x <> "" /\ Fragment x f /\ has_char "/" f = false) \/
  (e = AttributeError /\ exists x l, s = SMany (x :: l)).
Proof.
  destruct s as [|x|[|x l]]; cbn [rename_output].
  - split; [discriminate|]. intros [(_ & x & f & E & _)|(_ & x & l & E)]; discriminate.
  - destruct (String.eqb_spec x "") as [->|NE].
    + split; [discriminate|]. intros [(_ & x & f & E & N & _)|(_ & x & l & E)]; [|discriminate].
      injection E as <-. congruence.
    + destruct (after_slash_spec (after_hash x)) as [(a & b & E & H & ->)|[H ->]]; cbn [bind].
      * split; [discriminate|]. intros [(_ & x' & f & E' & N & F & NS)|(_ & x' & l & E')]; [|discriminate].
        injection E' as <-. apply after_hash_Fragment in F. rewrite E in F. subst f.
        rewrite has_char_app in NS. cbn in NS. rewrite orb_true_r in NS. discriminate.
      * split.
        -- intros [= <-]. left. split; auto. exists x, (after_hash x).
           split; [reflexivity|]. split; [exact NE|]. split; [apply after_hash_Fragment; reflexivity|exact H].
        -- intros [(-> & _)|(_ & x' & l & E')]; [reflexivity|discriminate].
  - split; [discriminate|]. intros [(_ & x & f & E & _)|(_ & x & l & E)]; discriminate.
  - split.
    + intros [= <-]. right. eauto.
    + intros [(_ & x' & f & E & _)|(-> & _)]; [discriminate|reflexivity].
Qed.

(** ** Files *)
Lemma fget_fset_same p c fs : fget p (fset p c fs) = Some c.
Proof.
  induction fs as [|[q d] r IH]; cbn [fset fget]; [rewrite String.eqb_refl; reflexivity|].
  destruct (String.eqb_spec p q) as [->|N]; cbn [fget]; [rewrite String.eqb_refl; reflexivity|].
  apply String.eqb_neq in N. rewrite N. auto.
Qed.
Lemma fget_fset_other p q c fs : q <> p -> fget q (fset p c fs) = fget q fs.
Proof.
  intros NE. induction fs as [|[r d] l IH]; cbn [fset fget].
  - apply String.eqb_neq in NE. rewrite NE. reflexivity.
  - destruct (String.eqb_spec p r) as [->|N]; cbn [fget].
    + apply String.eqb_neq in NE. rewrite NE. reflexivity.
    + destruct (String.eqb q r); auto.
Qed.
Lemma output_path_Output dir d p : output_path dir d = p <-> Output dir d p.
Proof.
  unfold output_path, Output. split.
  - intros <-. destruct (split_last_fragment "/" d) as [H E]. eauto.
  - intros (n & -> & H & E). rewrite (last_fragment_unique "/" d n); auto.
Qed.

Section Files.
  Context {P : Type}.
  Variable parse : string -> result json.
  Variable traverse : string -> json -> string -> result (P * bool).
  Variable render : P -> result string.
  Notation one := (one_document parse traverse render).
  Notation docs_loop := (documents parse traverse render).

  Lemma supported_yes s : supported_version (JStr s) -> smem s ["v1.0"; "v1.1"; "v1.2"] = true.
  Proof. intros [E|[E|E]]; injection E as ->; reflexivity. Qed.
  Lemma supported_smem s : smem s ["v1.0"; "v1.1"; "v1.2"] = true -> supported_version (JStr s).
  Proof. intros M. apply smem_In in M. unfold supported_version. cbn [In] in M. intuition (subst; auto). Qed.

  Lemma one_refactored dir single d fs text out : fget d fs = Some text -> Refactored parse traverse render d text out ->
    one dir single d fs = (fset (output_path dir d) (header ++ out) fs, Next false).
  Proof.
    intros F [dd v p E1 E2 E3 E4 E5]. unfold one_document. rewrite F, E1, E2. cbv zeta.
    rewrite (supported_yes _ E3), E4. cbn [negb]. rewrite E5. reflexivity.
  Qed.
  Lemma one_unchanged dir single d fs text : fget d fs = Some text -> Unchanged parse traverse d text ->
    one dir single d fs = if single then (fs, Return 7)
      else if String.eqb (output_path dir d) d then (fs, Raise OSErrorE) else (fset (output_path dir d) text fs, Next false).
  Proof.
    intros F [dd v p E1 E2 E3 E4]. unfold one_document. rewrite F, E1, E2. cbv zeta.
    rewrite (supported_yes _ E3), E4. cbn [negb]. reflexivity.
  Qed.
  Lemma one_unsupported dir single d fs text : fget d fs = Some text -> Unsupported parse text ->
    one dir single d fs = (fs, Return (-1)).
  Proof.
    intros F [dd v E1 E2 E3]. unfold one_document. rewrite F, E1, E2. cbv zeta.
    destruct v as [| | | |s| |]; try reflexivity.
    destruct (smem s _) eqn:M; [|reflexivity]. apply supported_smem in M. contradiction.
  Qed.
  Lemma one_failed dir single d fs text : fget d fs = Some text -> Failed parse traverse render d text ->
    one dir single d fs = (fs, Next true).
  Proof.
    intros F [dd v e E1 E2 E3 E4 [-> | ->]|dd v p e E1 E2 E3 E4 E5 [-> | ->]]; unfold one_document; rewrite F, E1, E2; cbv zeta;
    rewrite (supported_yes _ E3), E4; cbn [negb]; rewrite ?E5; reflexivity.
  Qed.

  Lemma one_inv dir single d fs fs' e : one dir single d fs = (fs', e) ->
    (exists x, e = Raise x /\ fs' = fs) \/
    exists text, fget d fs = Some text /\
     ((exists out, Refactored parse traverse render d text out /\ e = Next false /\ fs' = fset (output_path dir d) (header ++ out) fs) \/
      (Unchanged parse traverse d text /\ single = false /\ output_path dir d <> d /\ e = Next false /\ fs' = fset (output_path dir d) text fs) \/
      (Unchanged parse traverse d text /\ single = true /\ e = Return 7 /\ fs' = fs) \/
      (Unsupported parse text /\ e = Return (-1) /\ fs' = fs) \/
      (Failed parse traverse render d text /\ e = Next true /\ fs' = fs)).
  Proof.
    unfold one_document. destruct (fget d fs) as [text|]; [|intros [= <- <-]; left; eauto].
    destruct (parse text) as [r|e0] eqn:E1; [|intros [= <- <-]; left; eauto].
    destruct r as [| | | | | |dd]; try (intros [= <- <-]; left; eauto; fail).
    destruct (dget "cwlVersion" dd) as [v|] eqn:E2; [|intros [= <- <-]; left; eauto]. cbv zeta.
    destruct (match v with JStr s => if smem s ["v1.0"; "v1.1"; "v1.2"] then Some s else None | _ => None end) as [ver|] eqn:EV.
    - assert (v = JStr ver /\ supported_version (JStr ver)) as [-> SV].
      { destruct v as [| | | |s| |]; try discriminate. destruct (smem s _) eqn:M; [|discriminate].
        injection EV as ->. split; auto. apply supported_smem; auto. }
      destruct (traverse ver (JDict dd) d) as [[p m]|x] eqn:E4.
      + destruct m; cbn [negb].
        * destruct (render p) as [out|x] eqn:E5.
          -- intros [= <- <-]. right. exists text. split; auto. left. exists out. split; [econstructor; eauto|auto].
          -- destruct x; intros [= <- <-]; try (left; eauto; fail); right; exists text; (split; [reflexivity|]);
             do 4 right; (split; [eapply Failed_render; eauto; try (left; reflexivity); right; reflexivity|auto]).
        * destruct single.
          -- intros [= <- <-]. right. exists text. split; auto. do 2 right. left. split; [econstructor; eauto|auto].
          -- destruct (String.eqb_spec (output_path dir d) d); intros [= <- <-]; [left; eauto|].
             right. exists text. split; auto. right. left. split; [econstructor; eauto|auto].
      + destruct x; intros [= <- <-]; try (left; eauto; fail); right; exists text; (split; [reflexivity|]);
             do 4 right; (split; [eapply Failed_traverse; eauto; try (left; reflexivity); right; reflexivity|auto]).
    - intros [= <- <-]. right. exists text. split; auto. do 3 right. left. split; auto.
      econstructor; eauto. intros SV. destruct v as [| | | |s| |]; try (destruct SV as [E|[E|E]]; discriminate).
      rewrite (supported_yes _ SV) in EV. discriminate.
  Qed.

  Lemma one_frame dir single d fs q : q <> output_path dir d -> fget q (fst (one dir single d fs)) = fget q fs.
  Proof.
    intros N. destruct (one dir single d fs) as [fs' e] eqn:E. cbn [fst].
    destruct (one_inv _ _ _ _ _ _ E) as [(x & _ & ->)|(t & _ & [(o & _ & _ & ->)|[(_ & _ & _ & _ & ->)|[(_ & _ & _ & ->)|[(_ & _ & ->)|(_ & _ & ->)]]]])];
      auto using fget_fset_other.
  Qed.
  Lemma documents_frame dir single : forall docs code fs q, (forall d, In d docs -> q <> output_path dir d) ->
    fget q (fst (docs_loop dir single docs code fs)) = fget q fs.
  Proof.
    induction docs as [|d ds IH]; intros code fs q N; [reflexivity|]. cbn [documents].
    pose proof (one_frame dir single d fs q (N d (or_introl eq_refl))) as F.
    destruct (one dir single d fs) as [fs' e]. cbn [fst] in F.
    destruct e; cbn [fst]; auto. rewrite IH; auto. intros x I. apply N; right; auto.
  Qed.

  (** The state during the loop: the inputs are still as they were. *)
  Section Loop.
    Variable dir : string.
    Variable fs0 : files.
    Definition Text (d text : string) : Prop := fget d fs0 = Some text.
    Definition Done (single : bool) (d : string) : Prop :=
      exists text, Text d text /\ ((exists out, Refactored parse traverse render d text out) \/ (single = false /\ Unchanged parse traverse d text)).
    Definition Skipped (d : string) : Prop := exists text, Text d text /\ Failed parse traverse render d text.

    Lemma refused_classes d text : Failed parse traverse render d text -> forall out, ~ Refactored parse traverse render d text out.
    Proof.
      intros F out R. pose proof (one_failed dir true d [(d, text)] text) as A.
      pose proof (one_refactored dir true d [(d, text)] text out) as B.
      cbn [fget] in A, B. rewrite String.eqb_refl in A, B. rewrite A in B; auto. specialize (B eq_refl R). discriminate.
    Qed.

    Definition agrees (docs : list string) (fs : files) : Prop := forall d, In d docs -> fget d fs = fget d fs0.

    Lemma agrees_step single d ds fs fs' e : (forall x, In x ds -> output_path dir d <> x) -> agrees (d :: ds) fs ->
      one dir single d fs = (fs', e) -> agrees ds fs'.
    Proof.
      intros N A E x I. pose proof (one_frame dir single d fs x (not_eq_sym (N x I))) as F. rewrite E in F.
      cbn [fst] in F. rewrite F. apply A. right; auto.
    Qed.

    (** the code, judged by the initial files *)
    Inductive Code (single : bool) : list string -> Z -> Z -> Prop :=
    | Code_nil c : Code single [] c c
    | Code_done d ds c r : Done single d -> Code single ds c r -> Code single (d :: ds) c r
    | Code_skip d ds c r : Skipped d -> Code single ds 1%Z r -> Code single (d :: ds) c r
    | Code_unsupported d ds c text : Text d text -> Unsupported parse text -> Code single (d :: ds) c (-1)%Z
    | Code_single d ds c text : single = true -> Text d text -> Unchanged parse traverse d text -> Code single (d :: ds) c 7%Z.

    Lemma documents_code single : forall docs,
      (forall x y, In x docs -> In y docs -> output_path dir x <> y) ->
      forall fs, agrees docs fs -> forall c r,
      snd (docs_loop dir single docs c fs) = Ok r <-> Code single docs c r.
    Proof.
      induction docs as [|d ds IH]; intros N fs A c r.
      - cbn [documents snd]. split; [intros [= <-]; constructor|intros H; inversion H; reflexivity].
      - cbn [documents].
        destruct (one dir single d fs) as [fs' e] eqn:E.
        assert (A' : agrees ds fs').
        { eapply agrees_step; eauto. intros x I. apply N; [left; reflexivity|right; auto]. }
        assert (N' : forall x y, In x ds -> In y ds -> output_path dir x <> y) by (intros; apply N; right; auto).
        pose proof (A d (or_introl eq_refl)) as Ad.
        split.
        + destruct (one_inv _ _ _ _ _ _ E) as [(x & -> & _)|(t & F & H)]; [discriminate|].
          assert (T : Text d t) by (red; congruence).
          destruct H as [(o & R & -> & _)|[(U & -> & _ & -> & _)|[(U & -> & -> & _)|[(U & -> & _)|(U & -> & _)]]]].
          * intros H. apply (IH N' fs' A') in H. apply Code_done; auto. exists t; eauto.
          * intros H. apply (IH N' fs' A') in H. apply Code_done; auto. exists t; eauto.
          * intros [= <-]. eapply Code_single; eauto.
          * intros [= <-]. eapply Code_unsupported; eauto.
          * intros H. apply (IH N' fs' A') in H. apply Code_skip; auto. exists t; auto.
        + intros H. inversion H as [|? ? ? ? D H2|? ? ? ? (t & T & D) H2|? ? ? t T U|? ? ? t S1 T U]; subst.
          * destruct D as (t & T & [(o & R)|(-> & U)]); unfold Text in T; rewrite <- Ad in T.
            -- rewrite (one_refactored dir single d fs t o T R) in E. injection E as <- <-. apply IH; auto.
            -- rewrite (one_unchanged dir false d fs t T U) in E.
               destruct (String.eqb_spec (output_path dir d) d) as [X|_]; [exfalso; revert X; apply N; left; reflexivity|].
               injection E as <- <-. apply IH; auto.
          * unfold Text in T; rewrite <- Ad in T. rewrite (one_failed dir single d fs t T D) in E.
            injection E as <- <-. apply IH; auto.
          * unfold Text in T; rewrite <- Ad in T. rewrite (one_unsupported dir single d fs t T U) in E.
            injection E as <- <-. reflexivity.
          * unfold Text in T; rewrite <- Ad in T. rewrite (one_unchanged dir true d fs t T U) in E.
            injection E as <- <-. reflexivity.
    Qed.

    (** contents *)
    Lemma documents_contents single : forall docs,
      (forall x y, In x docs -> In y docs -> output_path dir x <> y) ->
      forall a d b, docs = a ++ d :: b -> (forall x, In x b -> output_path dir x <> output_path dir d) ->
      forall fs, agrees docs fs -> forall c r, snd (docs_loop dir single docs c fs) = Ok r ->
      Forall (fun x => Done single x \/ Skipped x) a ->
      let fs' := fst (docs_loop dir single docs c fs) in
      (forall text out, Text d text -> Refactored parse traverse render d text out ->
         fget (output_path dir d) fs' = Some (header ++ out)%string) /\
      (forall text, single = false -> Text d text -> Unchanged parse traverse d text -> fget (output_path dir d) fs' = Some text).
    Proof.
      intros docs N a. revert docs N. induction a as [|z a IH]; intros docs N d b -> ND fs A c r HR FA.
      - cbn [app documents] in *.
        pose proof (A d (or_introl eq_refl)) as Ad.
        split.
        + intros t o T R. unfold Text in T; rewrite <- Ad in T. rewrite (one_refactored dir single d fs t o T R).
          rewrite documents_frame; [apply fget_fset_same|]. intros x I. apply not_eq_sym. auto.
        + intros t -> T U. unfold Text in T; rewrite <- Ad in T. rewrite (one_unchanged dir false d fs t T U).
          destruct (String.eqb_spec (output_path dir d) d) as [X|_]; [exfalso; revert X; apply N; left; reflexivity|].
          rewrite documents_frame; [apply fget_fset_same|]. intros x I. apply not_eq_sym. auto.
      - apply Forall_cons_iff in FA. destruct FA as [FZ FA].
        cbn [app documents] in *.
        destruct (one dir single z fs) as [fs' e] eqn:E.
        assert (A' : agrees (a ++ d :: b) fs').
        { eapply agrees_step; eauto. intros x I. apply N; [left; reflexivity|right; auto]. }
        assert (N' : forall x y, In x (a ++ d :: b) -> In y (a ++ d :: b) -> output_path dir x <> y) by (intros; apply N; right; auto).
        pose proof (A z (or_introl eq_refl)) as Az.
        assert (exists s, e = Next s) as [s ->].
        { destruct FZ as [(t & T & [(o & R)|(-> & U)])|(t & T & U)]; unfold Text in T; rewrite <- Az in T.
          - rewrite (one_refactored dir single z fs t o T R) in E. injection E as _ <-. eauto.
          - rewrite (one_unchanged dir false z fs t T U) in E.
            destruct (String.eqb_spec (output_path dir z) z) as [X|_]; [exfalso; revert X; apply N; left; reflexivity|].
            injection E as _ <-. eauto.
          - rewrite (one_failed dir single z fs t T U) in E. injection E as _ <-. eauto. }
        eapply (IH (a ++ d :: b) N' d b eq_refl); eauto.
    Qed.

    (** the output of a skipped document is not written *)
    Lemma documents_skip single : forall docs,
      (forall x y, In x docs -> In y docs -> output_path dir x <> y) ->
      forall p fs, agrees docs fs -> (forall x, In x docs -> output_path dir x = p -> Skipped x) -> forall c,
      fget p (fst (docs_loop dir single docs c fs)) = fget p fs.
    Proof.
      induction docs as [|d ds IH]; intros N p fs A S1 c; [reflexivity|]. cbn [documents].
      destruct (one dir single d fs) as [fs' e] eqn:E.
      assert (A' : agrees ds fs').
      { eapply agrees_step; eauto. intros x I. apply N; [left; reflexivity|right; auto]. }
      assert (N' : forall x y, In x ds -> In y ds -> output_path dir x <> y) by (intros; apply N; right; auto).
      assert (F : fget p fs' = fget p fs).
      { destruct (String.eqb_spec (output_path dir d) p) as [Ep|Np].
        - destruct (S1 d (or_introl eq_refl) Ep) as (t & T & U). unfold Text in T.
          rewrite <- (A d (or_introl eq_refl)) in T. rewrite (one_failed dir single d fs t T U) in E.
          injection E as <- _. reflexivity.
        - pose proof (one_frame dir single d fs p (not_eq_sym Np)) as F. rewrite E in F. exact F. }
      destruct e; cbn [fst]; auto. rewrite (IH N' p fs' A'); auto. intros x I. apply S1. right; auto.
    Qed.
  End Loop.
End Files.

(** ** get_expression *)
Lemma count2_zero a b s : a <> b -> contains (String a (String b "")) s = false -> count2 a b s = 0.
Proof.
  intros NE. enough (H : forall k s, String.length s <= k -> contains (String a (String b "")) s = false -> count2 a b s = 0) by eauto.
  clear s. induction k as [|k IH]; intros s L C; (destruct s as [|c s]; [reflexivity|]); cbn [String.length] in L; [lia|].
  cbn [count2]. destruct s as [|d s]; [reflexivity|].
  rewrite contains2_cons in C. apply orb_false_iff in C. destruct C as [C1 C2].
  rewrite (Ascii.eqb_sym c), (Ascii.eqb_sym d), C1. apply IH; auto. cbn [String.length] in *. lia.
Qed.

Section GetExpr.
  Variable js : unit -> string -> string -> unit * result json.
  Variable dumps dumps4 : json -> string.
  Variable loads : string -> string.
  Hypothesis LIB : json_library_ok dumps loads.
  Notation peval := (plain_eval js dumps dumps4 loads).
  Notation gexpr := (get_expression js dumps dumps4 loads).

  Lemma strip_single a : strip ("$(" ++ a ++ ")") = ("$(" ++ a ++ ")")%string.
  Proof. exact (last_char_strip "$" ("(" ++ a) ")" eq_refl eq_refl). Qed.
  Lemma endswith_close a : endswith ")" ("$(" ++ a ++ ")") = true.
  Proof. apply endswith_spec. exists ("$(" ++ a)%string. reflexivity. Qed.

  Lemma get_single a inputs self : contains "$(" a = false ->
    peval ("$(" ++ a ++ ")") inputs self = Err WorkflowException ->
    gexpr (JStr ("$(" ++ a ++ ")")) inputs self = Ok (Some ("${return " ++ a ++ ";}")%string).
  Proof.
    intros NC E. cbn [get_expression]. rewrite E, strip_single, endswith_close.
    assert (C : count2 "$" "(" ("$(" ++ a ++ ")") = 1).
    { change ("$(" ++ a ++ ")")%string with (String "$" (String "(" (a ++ ")"))). cbn [count2].
      rewrite !Ascii.eqb_refl. cbn [andb]. f_equal. apply count2_zero; [discriminate|].
      rewrite contains2_app by discriminate. rewrite NC. reflexivity. }
    assert (S1 : startswith "${" ("$(" ++ a ++ ")") = false) by reflexivity.
    assert (S2 : contains "$(" ("$(" ++ a ++ ")") = true).
    { apply contains_spec. exists "", (a ++ ")")%string. reflexivity. }
    rewrite S1, S2, C. change (2 <? 2) with false.
    change (String.eqb (stake 2 ("$(" ++ a ++ ")")) "$(") with true. cbn [negb orb].
    change (sdrop 2 ("$(" ++ a ++ ")")) with (a ++ ")")%string.
    replace (sdrop_last 1 (a ++ ")")) with a by (symmetry; exact (sdrop_last_app a ")")). reflexivity.
  Qed.

  Lemma get_other s inputs self its : startswith "${" (strip s) = false -> contains "$(" s = true ->
    peval s inputs self = Err WorkflowException ->
    (startswith "$(" s = false \/ endswith ")" s = false \/ 1 < count2 "$" "(" s) ->
    Items true (strip s) its ->
    (~ In Unclosed its -> gexpr (JStr s) inputs self = Ok (Some ("${return " ++ raw_concatenation dumps its ++ ";}")%string)) /\
    (In Unclosed its -> gexpr (JStr s) inputs self = Err SubstitutionError).
  Proof.
    intros S1 S2 E C I. cbn [get_expression]. rewrite S1, S2, E.
    assert (B : negb (String.eqb (stake 2 s) "$(") || negb (endswith ")" s) || (2 <? S (count2 "$" "(" s)) = true).
    { destruct C as [C|[C|C]].
      - destruct (String.eqb_spec (stake 2 s) "$(") as [X|_]; [|reflexivity]. exfalso.
        destruct s as [|c [|d s]]; [discriminate|discriminate|]. cbn [stake] in X.
        injection X as -> ->. destruct s; discriminate.
      - rewrite C. cbn [negb]. rewrite orb_true_r. reflexivity.
      - replace (2 <? S (count2 "$" "(" s)) with true by (symmetry; apply Nat.ltb_lt; lia). apply orb_true_r. }
    rewrite B. split; intros U.
    - rewrite (convert_items dumps s its I U). reflexivity.
    - unfold convert. rewrite (convert_loop_unclosed dumps _ its I U) by lia. reflexivity.
  Qed.

  (** Without requirements the only failure is a WorkflowException. *)
  Lemma peval_failures s inputs self e : peval s inputs self = Err e -> e = WorkflowException.
  Proof.
    unfold plain_eval.
    rewrite (proj1 (do_eval_no_js js (fun st _ _ => (st, Ok JNull)) dumps dumps4 loads tt (JStr s) inputs [] (Some "") (Some "") []
               self true "" LIB (Forall_nil _) (Forall_nil _))).
    intros E.
    destruct (do_eval (fun st _ _ => (st, Ok JNull)) dumps dumps4 loads tt (JStr s) inputs [] (Some "") (Some "") [] self true "") as [st r] eqn:D.
    cbn [snd] in E. subst r. eapply (do_eval_failures (fun st _ _ => (st, Ok JNull)) dumps dumps4 loads LIB); [apply Forall_nil| |exact D].
    intros ? ? ? ? ? X; discriminate X.
  Qed.
End GetExpr.
