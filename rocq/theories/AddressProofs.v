(** * Proofs for C54, C71 and C72 *)
From Verif Require Import PyBase PyBaseProofs ParserModel ParserProofs LoaderModel LoaderProofs ShorthandProofs LoaderSpec AddressSpec.
From Coq Require Import Lia.

(** ** Addresses *)
Lemma without_safe cs s : without cs s -> sforall (fun c => negb (is_unsafe c)) s = true.
Proof.
  unfold without. induction s as [|c s IH]; cbn [sforall]; auto. rewrite !andb_true_iff. intros [[A _] B]. split; auto.
  apply Nat.ltb_lt in A. unfold is_unsafe.
  destruct (Ascii.eqb_spec c "009"); [subst; cbn in A; lia|]. destruct (Ascii.eqb_spec c "010"); [subst; cbn in A; lia|].
  destruct (Ascii.eqb_spec c "013"); [subst; cbn in A; lia|]. auto.
Qed.
Lemma without_no cs c s : smem (String c "") cs = true -> without cs s -> has_char c s = false.
Proof. intros M W. apply (has_char_sforall _ c s) in W; auto. rewrite M. apply andb_false_r. Qed.
Lemma lower_same c : is_lower c || is_digit c || Ascii.eqb c "+" || Ascii.eqb c "-" || Ascii.eqb c "." = true -> lower_char c = c /\ is_scheme_char c = true /\ Ascii.eqb c ":" = false.
Proof. destruct c as [[] [] [] [] [] [] [] []]; vm_compute; repeat split; congruence. Qed.
Lemma lower_first c : is_lower c = true -> lower_char c = c /\ is_alpha c = true /\ Ascii.eqb c ":" = false /\ (nat_of_ascii c <=? 32) = false /\ is_unsafe c = false /\ Ascii.eqb c "@" = false /\ Ascii.eqb c "$" = false.
Proof. destruct c as [[] [] [] [] [] [] [] []]; vm_compute; repeat split; congruence. Qed.
Lemma lower_all r : sforall (fun c => is_lower c || is_digit c || Ascii.eqb c "+" || Ascii.eqb c "-" || Ascii.eqb c ".") r = true ->
  smap lower_char r = r /\ sforall is_scheme_char r = true /\ has_char ":" r = false /\ sforall (fun c => negb (is_unsafe c)) r = true.
Proof.
  induction r as [|c r IH]; cbn [sforall smap has_char]; auto. intros H. apply andb_true_iff in H. destruct H as [H R].
  destruct (lower_same c H) as (L & S & N). destruct (IH R) as (E1 & E2 & E3 & E4). rewrite L, E1, S, E2, E3, E4, (Ascii.eqb_sym ":"), N. split; [auto|]. split; [auto|]. split; [auto|].
  clear - H. destruct c as [[] [] [] [] [] [] [] []]; vm_compute in *; congruence.
Qed.
Lemma scheme_cut s rest : scheme_name s -> exists c a, s = String c a /\ cut ":" (s ++ String ":" rest) = Some (s, rest) /\
  is_alpha c && sforall is_scheme_char a = true /\ smap lower_char s = s.
Proof.
  intros (c & a & -> & C & A). exists c, a. destruct (lower_first c C) as (L & AL & N & _). destruct (lower_all a A) as (E1 & E2 & E3 & _).
  split; [auto|]. split; [apply cut_app; cbn [has_char]; rewrite E3, Ascii.eqb_sym, N; auto|]. rewrite AL, E2. cbn [smap]. rewrite L, E1. auto.
Qed.
Lemma scheme_safe s : scheme_name s -> sforall (fun c => negb (is_unsafe c)) s = true.
Proof.
  intros (c & a & -> & C & A). cbn [sforall]. destruct (lower_first c C) as (_ & _ & _ & _ & U & _). destruct (lower_all a A) as (_ & _ & _ & E). rewrite U, E. auto.
Qed.
Lemma take_netloc_host h r : has_char "/" h = false -> has_char "?" h = false -> has_char "#" h = false -> ends_host r ->
  take_netloc (h ++ r) = h /\ drop_netloc (h ++ r) = r.
Proof.
  intros A B C E. induction h as [|c h IH]; cbn [append].
  - destruct E as [-> | E]; [auto|]. destruct r as [|x r]; [auto|]. cbn [drop_netloc take_netloc].
    assert (Q : Ascii.eqb x "/" || Ascii.eqb x "?" || Ascii.eqb x "#" = true); [|rewrite Q; auto].
    rewrite !startswith_spec in E. destruct E as [(z & E) | [(z & E) | (z & E)]]; injection E as -> _; reflexivity.
  - cbn [has_char] in A, B, C. apply orb_false_iff in A, B, C. destruct A as [A A'], B as [B B'], C as [C C']. cbn [take_netloc drop_netloc].
    rewrite !(Ascii.eqb_sym c), A, B, C. cbn [orb]. destruct (IH A' B' C') as [-> ->]. auto.
Qed.
Lemma cut_part c s f : has_char c s = false -> before c (s ++ part_of (String c "") f) = s /\ after c (s ++ part_of (String c "") f) = f.
Proof.
  intros H. unfold part_of, before, after. destruct (String.eqb_spec f "") as [->|N].
  - rewrite sapp_nil_r, cut_none by auto. auto.
  - cbn [append]. rewrite cut_app by auto. auto.
Qed.
Lemma part_safe m f : sforall (fun c => negb (is_unsafe c)) m = true -> sforall (fun c => negb (is_unsafe c)) f = true -> sforall (fun c => negb (is_unsafe c)) (part_of m f) = true.
Proof. intros M F. unfold part_of. destruct (String.eqb f ""); auto. rewrite sforall_app, M, F. auto. Qed.
Lemma urlsplit_text a : proper a -> urlsplit (text_of a) = SplitUrl (a_scheme a) (a_host a) (a_path a) (a_query a) (a_fragment a).
Proof.
  destruct a as [sc h p q f]. unfold proper, text_of. cbn [a_scheme a_host a_path a_query a_fragment]. intros (S & H & _ & P & _ & P' & Q & F).
  unfold urlsplit.
  assert (L : forall r, lstrip_control (sc ++ r) = (sc ++ r)%string).
  { intros r. destruct S as (c & a & -> & C & _). destruct (lower_first c C) as (_ & _ & _ & X & _). cbn [append lstrip_control]. rewrite X. auto. }
  rewrite L. rewrite remove_unsafe_none.
  2:{ rewrite !sforall_app, (scheme_safe _ S), (without_safe _ _ H), (without_safe _ _ P'), !part_safe; auto; eapply without_safe; eassumption. }
  cbn [append]. set (rest := (p ++ part_of "?" q ++ part_of "#" f)%string).
  destruct (scheme_cut sc (String "/" (String "/" (h ++ rest))) S) as (c & a & E1 & E2 & E3 & E4). rewrite E2. rewrite E1 at 1. cbv iota. rewrite E3. rewrite <- E1, E4. cbv iota.
  assert (EH : ends_host rest).
  { unfold rest, ends_host. destruct P as [->|P]; [|right; left; apply startswith_spec in P; destruct P as [r ->]; rewrite sapp_assoc; apply startswith_app].
    cbn [append]. unfold part_of. destruct (String.eqb q ""); [|right; right; left; rewrite sapp_assoc; apply startswith_app].
    cbn [append]. destruct (String.eqb f ""); auto. right. right. right. exact (startswith_app "#" f). }
  destruct (take_netloc_host h rest) as [T D]; auto; try (eapply without_no; [|exact H]; reflexivity).
  rewrite T, D. unfold rest.
  assert (HQ : has_char "#" (p ++ part_of "?" q) = false).
  { rewrite has_char_app, (without_no ["?"; "#"] "#" p eq_refl P'). unfold part_of. destruct (String.eqb q ""); auto. rewrite has_char_app, (without_no ["#"] "#" q eq_refl Q). auto. }
  destruct (cut_part "#" (p ++ part_of "?" q) f HQ) as [B A]. rewrite <- sapp_assoc. rewrite A, B.
  destruct (cut_part "?" p q (without_no ["?"; "#"] "?" p eq_refl P')) as [B' A']. rewrite B', A'. auto.
Qed.
Lemma urlunsplit_text a : proper a -> urlunsplit (SplitUrl (a_scheme a) (a_host a) (a_path a) (a_query a) (a_fragment a)) = text_of a.
Proof.
  destruct a as [sc h p q f]. unfold proper, text_of, urlunsplit. cbn [a_scheme a_host a_path a_query a_fragment s_scheme s_netloc s_path s_query s_fragment].
  intros (S & _ & H & P & P2 & _).
  assert (N : String.eqb sc "" = false) by (destruct S as (c & r & -> & _); reflexivity). rewrite N.
  assert (B : negb (String.eqb h "") || negb false && smem sc uses_netloc && negb (startswith "//" p) = true).
  { rewrite P2. destruct (String.eqb_spec h "") as [->|]; [|auto]. destruct H as [H| ->]; [congruence|reflexivity]. }
  rewrite B.
  assert (R : (if negb (String.eqb p "") && negb (startswith "/" p) then "/" ++ p else p)%string = p) by (destruct P as [-> | ->]; [auto|rewrite andb_false_r; auto]).
  rewrite R. unfold part_of. destruct (String.eqb q ""), (String.eqb f ""); rewrite ?sapp_nil_r, ?sapp_assoc; cbn [append]; rewrite ?sapp_assoc; auto.
Qed.
Lemma proper_at f a : proper a -> without [] f -> proper (at_part f a).
Proof. destruct a. unfold proper, at_part. cbn. tauto. Qed.
Lemma proper_rooted a : proper a -> proper (rooted a).
Proof.
  destruct a as [s h p q f]. unfold proper, rooted. cbn [a_scheme a_host a_path a_query a_fragment]. intros (A & B & C & D & E & F & G & H).
  destruct (String.eqb_spec p "") as [->|N]; repeat (split; [auto|]); auto. 
Qed.

Lemma without_clean s : clean s -> without [] s.
Proof.
  unfold clean, without. induction s as [|c s IH]; cbn [sforall]; auto. rewrite !andb_true_iff. unfold clean_char at 1. rewrite andb_true_iff.
  intros [[A _] B]. split; auto.
Qed.
Lemma without_app cs a b : without cs (a ++ b) <-> without cs a /\ without cs b.
Proof. unfold without. rewrite sforall_app, andb_true_iff. tauto. Qed.
Lemma without_join cs ps : without cs "/" -> Forall (without cs) ps -> without cs (sjoin "/" ps).
Proof.
  intros S F. induction F as [|x l X F IH]; [reflexivity|]. destruct l as [|y l]; [exact X|]. rewrite sjoin_cons by discriminate.
  apply without_app. split; auto. apply without_app. auto.
Qed.
(** A name with a fragment *)
Lemma urlsplit_fragment p f : clean p -> startswith "//" p = false -> without [] f -> has_char ":" f = false -> urlsplit (p ++ "#" ++ f) = SplitUrl "" "" p "" f.
Proof.
  intros C S F FC. unfold urlsplit.
  assert (L : lstrip_control (p ++ "#" ++ f) = (p ++ "#" ++ f)%string).
  { pose proof (clean_control p C) as X. destruct p as [|c p]; [reflexivity|]. cbn [append lstrip_control] in *. destruct (nat_of_ascii c <=? 32) eqn:E; auto.
    exfalso. unfold clean in C. cbn [sforall] in C. apply andb_true_iff in C. destruct C as [C _]. unfold clean_char in C. apply andb_true_iff in C.
    destruct C as [C _]. apply Nat.ltb_lt in C. apply Nat.leb_le in E. lia. }
  rewrite L. rewrite remove_unsafe_none by (rewrite !sforall_app, (clean_safe _ C), (without_safe _ _ F); reflexivity).
  rewrite (cut_none ":") by (rewrite !has_char_app, (clean_no ":" p eq_refl C), FC; reflexivity).
  assert (S' : startswith "//" (p ++ "#" ++ f) = false).
  { destruct (startswith "//" (p ++ "#" ++ f)) eqn:E; auto. apply startswith_spec in E. destruct E as [r E].
    destruct p as [|c1 [|c2 p]]; cbn [append] in E; try discriminate. injection E as -> -> _. destruct p; discriminate S. }
  rewrite no_slashes by auto. unfold before, after. cbn [append]. rewrite cut_app by (apply clean_no; auto).
  rewrite (cut_none "?") by (apply clean_no; auto). auto.
Qed.

(** ** Expanding names *)
Section Expand.
Variables (urljoin : string -> string -> result string) (supported : list string).
Let expand_url := expand_url urljoin supported.

(** What follows the replacement of a prefix *)
Definition resolved_url (url base_url : string) (scoped_id : bool) (scoped_ref : option nat) : result string :=
  let split1 := urlsplit url in
  if negb (String.eqb (s_scheme split1) "") && smem (s_scheme split1) supported || startswith "$(" url || startswith "${" url then Ok url
  else if scoped_id && String.eqb (s_fragment split1) "" then
    let sb := urlsplit base_url in
    let frg := if String.eqb (s_fragment sb) "" then s_path split1 else (s_fragment sb ++ "/" ++ s_path split1)%string in
    let pt := if String.eqb (s_path sb) "" then "/" else s_path sb in
    Ok (urlunsplit (SplitUrl (s_scheme sb) (s_netloc sb) pt (s_query sb) frg))
  else match scoped_ref with
       | Some n =>
           if String.eqb (s_fragment split1) "" then
             let sb := urlsplit base_url in
             let sp := pop n (split_char "/" (s_fragment sb)) ++ [url] in
             Ok (urlunsplit (SplitUrl (s_scheme sb) (s_netloc sb) (s_path sb) (s_query sb) (sjoin "/" sp)))
           else urljoin base_url url
       | None => urljoin base_url url
       end.
Definition as_term (o : options) (vt : bool) (r : result string) : result string :=
  do url <- r;
  if vt then if String.eqb (s_scheme (urlsplit url)) "" then Err ValidationException
             else match dget url (rvocab o) with Some t => Ok t | None => Ok url end
  else Ok url.
Lemma expand_plain s base o sid vt sref : s <> "@id" -> s <> "@type" -> (vt = true -> dget s (vocab o) = None) ->
  has_char ":" s = false \/ dget (before ":" s) (vocab o) = None ->
  expand_url s base o sid vt sref = as_term o vt (resolved_url s base sid sref).
Proof.
  intros N1 N2 V P. unfold expand_url, LoaderModel.expand_url. apply String.eqb_neq in N1, N2. rewrite N1, N2. cbn [orb].
  assert (M : vt && dmem s (vocab o) = false) by (destruct vt; [unfold dmem; rewrite V; auto|auto]). rewrite M. cbv zeta.
  assert (E : match vocab o with [] => s | _ => if has_char ":" s then match dget (before ":" s) (vocab o) with Some v => (v ++ sdrop (String.length (before ":" s) + 1) s)%string | None => s end else s end = s).
  { destruct (vocab o) eqn:VO; auto. rewrite <- VO in P |- *. destruct P as [-> | P]; auto. rewrite P. destruct (has_char ":" s); auto. }
  rewrite E. reflexivity.
Qed.
Lemma expand_prefixed pre rest v base o sid vt sref : has_char ":" pre = false -> dget pre (vocab o) = Some v ->
  (vt = true -> dget (pre ++ ":" ++ rest) (vocab o) = None) ->
  expand_url (pre ++ ":" ++ rest) base o sid vt sref = as_term o vt (resolved_url (v ++ rest) base sid sref).
Proof.
  intros H G V. unfold expand_url, LoaderModel.expand_url.
  assert (HC : has_char ":" (pre ++ ":" ++ rest) = true) by (rewrite has_char_app; cbn; apply orb_true_r).
  assert (N1 : String.eqb (pre ++ ":" ++ rest) "@id" = false) by (apply String.eqb_neq; intros E; rewrite E in HC; discriminate).
  assert (N2 : String.eqb (pre ++ ":" ++ rest) "@type" = false) by (apply String.eqb_neq; intros E; rewrite E in HC; discriminate).
  rewrite N1, N2. cbn [orb].
  assert (M : vt && dmem (pre ++ ":" ++ rest) (vocab o) = false) by (destruct vt; [unfold dmem; rewrite V; auto|auto]). rewrite M. cbv zeta.
  assert (B : before ":" (pre ++ ":" ++ rest) = pre) by (unfold before; cbn [append]; rewrite cut_app; auto).
  assert (E : match vocab o with [] => (pre ++ ":" ++ rest)%string | _ => if has_char ":" (pre ++ ":" ++ rest) then match dget (before ":" (pre ++ ":" ++ rest)) (vocab o) with Some v => (v ++ sdrop (String.length (before ":" (pre ++ ":" ++ rest)) + 1) (pre ++ ":" ++ rest))%string | None => (pre ++ ":" ++ rest)%string end else (pre ++ ":" ++ rest)%string end = (v ++ rest)%string).
  { rewrite HC, B, G. rewrite sdrop_app_plus. destruct (vocab o); [discriminate G|reflexivity]. }
  rewrite E. reflexivity.
Qed.

Lemma resolved_absolute a base sid sref : proper a -> smem (a_scheme a) supported = true -> resolved_url (text_of a) base sid sref = Ok (text_of a).
Proof.
  intros P M. unfold resolved_url. cbv zeta. rewrite urlsplit_text by auto. cbn [s_scheme]. rewrite M.
  assert (N : String.eqb (a_scheme a) "" = false) by (destruct P as ((c & r & -> & _) & _); reflexivity). rewrite N. reflexivity.
Qed.
Lemma resolved_scoped a s : proper a -> name s -> forall sref,
  resolved_url s (text_of a) true sref = Ok (text_of (at_part (if String.eqb (a_fragment a) "" then s else (a_fragment a ++ "/" ++ s)%string) (rooted a))).
Proof.
  intros P (N & K & S1 & S2 & S3 & N1 & N2) sref. unfold resolved_url. cbv zeta. rewrite urlsplit_name by auto. cbn [s_scheme s_fragment s_path]. change (String.eqb "" "") with true.
  cbn [negb andb orb]. rewrite S2, S3. cbn [orb]. rewrite urlsplit_text by auto. cbn [s_scheme s_netloc s_path s_query s_fragment].
  rewrite <- urlunsplit_text.
  - destruct a; reflexivity.
  - apply proper_at; [apply proper_rooted; auto|]. destruct P as (_ & _ & _ & _ & _ & _ & _ & F). apply without_clean in K.
    destruct (String.eqb (a_fragment a) ""); auto. apply without_app. split; auto.
Qed.
Lemma resolved_reference a scope dropped s : proper a -> scope ++ dropped <> [] ->
  Forall (fun c => has_char "/" c = false) (scope ++ dropped) -> a_fragment a = sjoin "/" (scope ++ dropped) -> name s ->
  resolved_url s (text_of a) false (Some (List.length dropped)) = Ok (text_of (at_part (sjoin "/" (scope ++ [s])) a)).
Proof.
  intros P NE SL F (N & K & S1 & S2 & S3 & N1 & N2). unfold resolved_url. cbv zeta. rewrite urlsplit_name by auto. cbn [s_scheme s_fragment s_path]. change (String.eqb "" "") with true.
  cbn [negb andb orb]. rewrite S2, S3. cbn [orb]. rewrite urlsplit_text by auto. cbn [s_scheme s_netloc s_path s_query s_fragment]. rewrite F.
  rewrite split_join by auto. rewrite pop_app. rewrite <- urlunsplit_text; [destruct a; reflexivity|]. apply proper_at; auto.
  destruct P as (_ & _ & _ & _ & _ & _ & _ & W). rewrite F in W.
  assert (A : Forall (without []) (scope ++ dropped)).
  { clear - W NE. induction (scope ++ dropped) as [|x l IH]; [constructor|]. destruct l as [|y l].
    - constructor; [exact W|constructor].
    - rewrite sjoin_cons in W by discriminate. apply without_app in W. destruct W as [W1 W2]. apply without_app in W2. destruct W2 as [_ W2].
      constructor; [auto|]. apply IH; [exact W2|discriminate]. }
  apply Forall_app in A. destruct A as [A _]. apply without_join; [reflexivity|]. apply Forall_app. split; auto. constructor; [|constructor]. apply without_clean. auto.
Qed.
End Expand.

(** ** Loading *)
Lemma within_same c n o : with_container c n o = within c n o.
Proof. destruct c, n, o; reflexivity. Qed.
Lemma contents_same d : no_graph_keys d = contents d.
Proof.
  unfold no_graph_keys, dpop, contents. induction d as [|[k v] d IH]; [reflexivity|].
  cbn [filter fst]. cbn [smem existsb]. rewrite !(String.eqb_sym k).
  destruct ("$namespaces" =? k)%string; cbn [negb orb filter fst].
  - rewrite orb_true_r. cbn [negb]. exact IH.
  - destruct ("$schemas" =? k)%string; cbn [negb orb filter fst]; [rewrite orb_true_r; cbn [negb]; exact IH|].
    destruct ("$base" =? k)%string; cbn [negb orb]; [exact IH|]. rewrite IH. reflexivity.
Qed.
Lemma dget_fold {A} (f g : A -> string) (l : list A) : forall d k,
  dget k (fold_left (fun d x => dset (f x) (g x) d) l d) =
  match find (fun x => String.eqb k (f x)) (rev l) with Some x => Some (g x) | None => dget k d end.
Proof.
  induction l as [|x l IH] using rev_ind; intros d k; [reflexivity|]. rewrite fold_left_app, rev_app_distr. cbn [fold_left rev app find].
  destruct (String.eqb_spec k (f x)) as [->|N]; [apply dget_dset_same|]. rewrite dget_dset_other by auto. apply IH.
Qed.
Lemma prefixes d pre v : Prefix d pre v <-> In (pre, v) (namespaces d).
Proof.
  unfold Prefix, namespaces. split.
  - intros (ns & -> & I). apply in_flat_map. exists (pre, JStr v). split; [auto|left; auto].
  - destruct (dget "$namespaces" d) as [[| | | | | |ns]|]; try (intros []). intros I. apply in_flat_map in I. destruct I as ([k j] & I & J). cbn [fst snd] in J.
    destruct j; try (destruct J; fail). destruct J as [J|[]]. injection J as -> ->. exists ns. auto.
Qed.
Lemma named d o : distinct_prefixes d -> Named d o (with_namespaces (namespaces d) o).
Proof.
  intros D. unfold Named, with_namespaces. cbn [container no_link_check fileuri vocab rvocab]. do 3 (split; [reflexivity|]).
  assert (U : forall pre v v', Prefix d pre v -> Prefix d pre v' -> v = v').
  { intros pre v v' (ns & E & I) (ns' & E' & I'). replace ns' with ns in * by congruence. specialize (D ns E). clear - D I I'.
    assert (X : JStr v = JStr v'); [|congruence]. revert D I I'. generalize (JStr v) (JStr v'). intros j j'. unfold dkeys. induction ns as [|[k w] ns IH]; [intros _ []|].
    cbn [map fst]. intros N. inversion N as [|? ? N1 N2]; subst. intros [E|I] [E'|I'].
    - congruence.
    - destruct N1. injection E as -> ->. apply in_map_iff. exists (pre, j'). auto.
    - destruct N1. injection E' as -> ->. apply in_map_iff. exists (pre, j). auto.
    - auto. }
  split; [|split; [|split]].
  - intros pre v P. rewrite (dget_fold fst snd). destruct (find _ _) as [[k w]|] eqn:F.
    + apply find_some in F. destruct F as [I E]. cbn [fst] in E. apply String.eqb_eq in E. subst k. apply in_rev, prefixes in I. cbn [snd]. f_equal. eapply U; eauto.
    + apply prefixes in P. pose proof (find_none _ _ F (pre, v)) as X. cbn [fst] in X. rewrite String.eqb_refl in X. discriminate X. apply in_rev in P. auto.
  - intros pre N. rewrite (dget_fold fst snd). destruct (find _ _) as [[k w]|] eqn:F; [|reflexivity].
    apply find_some in F. destruct F as [I E]. cbn [fst] in E. apply String.eqb_eq in E. subst k. apply in_rev, prefixes in I. destruct (N w I).
  - intros pre v P. rewrite (dget_fold snd fst). destruct (find _ _) as [[k w]|] eqn:F.
    + apply find_some in F. destruct F as [I E]. cbn [snd] in E. apply String.eqb_eq in E. subst w. apply in_rev, prefixes in I. exists k. auto.
    + apply prefixes in P. pose proof (find_none _ _ F (pre, v)) as X. cbn [snd] in X. rewrite String.eqb_refl in X. discriminate X. apply in_rev in P. auto.
  - intros v N. rewrite (dget_fold snd fst). destruct (find _ _) as [[k w]|] eqn:F; [|reflexivity].
    apply find_some in F. destruct F as [I E]. cbn [snd] in E. apply String.eqb_eq in E. subst w. apply in_rev, prefixes in I. destruct (N k I).
Qed.

Section Loads.
Variables (urljoin : string -> string -> result string) (supported_schemes : list string) (check_exists : string -> result bool)
  (fetch_text : string -> result string) (read_yaml : string -> result json) (uuid : json -> string)
  (classes : string -> option class) (proxies : string -> option loader).
Notation Loads := (LoaderSpec.Loads urljoin supported_schemes check_exists fetch_text read_yaml uuid classes proxies).
Notation LoadsField := (LoaderSpec.LoadsField urljoin supported_schemes check_exists fetch_text read_yaml uuid classes proxies).
Notation LoadsDocument := (LoadsDocument urljoin supported_schemes check_exists fetch_text read_yaml uuid classes proxies).
Notation expand_url := (expand_url urljoin supported_schemes).
Notation ld := (load urljoin supported_schemes check_exists fetch_text read_yaml uuid classes proxies).
Notation dl := (document_load urljoin supported_schemes check_exists fetch_text read_yaml uuid classes proxies).

(** A load with the fuel left over *)
Lemma Document_via l d base o l' d' b' o' root r : (forall n, dl (S n) l d base o = ld n l' d' b' o' root) ->
  (LoadsDocument l d base o r <-> Loads l' d' b' o' root r).
Proof.
  intros H. unfold AddressSpec.LoadsDocument, LoaderSpec.Loads. split; intros [N [n E]]; (split; [exact N|]).
  - destruct n as [|n]; [cbn in E; congruence|]. exists n. rewrite <- H. exact E.
  - exists (S n). rewrite H. exact E.
Qed.
Lemma Document_again l d base o l' d' b' o' r : (forall n, dl (S n) l d base o = dl n l' d' b' o') ->
  (LoadsDocument l d base o r <-> LoadsDocument l' d' b' o' r).
Proof.
  intros H. unfold AddressSpec.LoadsDocument. split; intros [N [n E]]; (split; [exact N|]).
  - destruct n as [|n]; [cbn in E; congruence|]. exists n. rewrite <- H. exact E.
  - exists (S n). rewrite H. exact E.
Qed.
Lemma Document_is l d base o e : e <> OutOfFuel -> (forall n, dl (S n) l d base o = Err e) -> forall r, LoadsDocument l d base o r <-> r = Err e.
Proof.
  intros NE H r. unfold AddressSpec.LoadsDocument. split.
  - intros [N [[|n] E]]; [cbn in E; congruence|]. rewrite H in E. auto.
  - intros ->. split; [congruence|]. exists 1. apply H.
Qed.
Lemma document_S n : dl (S n) = document_body urljoin fetch_text read_yaml (ld n) (dl n).
Proof. apply document_load_S. Qed.
Lemma Field_via d l b o l' d' b' o' root r : (forall n, load_field urljoin fetch_text read_yaml (ld n) (dl n) d l b o = ld n l' d' b' o' root) ->
  (LoadsField o d l b r <-> Loads l' d' b' o' root r).
Proof. intros H. unfold LoaderSpec.LoadsField, LoaderSpec.Loads. split; intros [N [n E]]; (split; [exact N|]); exists n; [rewrite <- H|rewrite H]; exact E. Qed.
Lemma Field_document d l b o l' d' b' o' r : (forall n, load_field urljoin fetch_text read_yaml (ld n) (dl n) d l b o = dl n l' d' b' o') ->
  (LoadsField o d l b r <-> LoadsDocument l' d' b' o' r).
Proof. intros H. unfold LoaderSpec.LoadsField, AddressSpec.LoadsDocument. split; intros [N [n E]]; (split; [exact N|]); exists n; [rewrite <- H|rewrite H]; exact E. Qed.
Lemma Field_is d l b o e : e <> OutOfFuel -> (forall n, load_field urljoin fetch_text read_yaml (ld n) (dl n) d l b o = Err e) -> forall r, LoadsField o d l b r <-> r = Err e.
Proof.
  intros NE H r. unfold LoaderSpec.LoadsField. split.
  - intros [N [n E]]. rewrite H in E. auto.
  - intros ->. split; [congruence|]. exists 0. apply H.
Qed.

(** References *)
Definition link (o : options) (s : string) : result unit :=
  if no_link_check o then Ok tt
  else match check_exists s with Ok true => Ok tt | Ok false => Err ValidationException | Err ValidationException => Ok tt | Err e => Err e end.
Lemma uri_via inner sid vt sref n d b o root r :
  let o' := within None n o in
  let expand s := expand_url s b o' sid vt sref in
  Loads (LUri inner sid vt sref n) d b o root r <->
  match (do doc <- (match d with
                    | JList l => do l <- mapM (fun i => match i with JStr s => do u <- expand s; Ok (JStr u) | _ => Ok i end) l; Ok (JList l)
                    | JStr s => do u <- expand s; Ok (JStr u)
                    | _ => Ok d
                    end);
         do _ <- (match doc with JStr s => link o' s | _ => Ok tt end); Ok doc) with
  | Ok d' => Loads inner d' b o' None r
  | Err e => r = Err e /\ e <> OutOfFuel
  end.
Proof.
  cbv zeta. eapply (Loads_via urljoin supported_schemes check_exists fetch_text read_yaml uuid classes proxies (LUri inner sid vt sref n) inner d _ b o root b (within None n o) None r).
  intros k. cbn [load_body]. cbv zeta. rewrite within_same. unfold link.
  match goal with |- bind ?x _ = _ => destruct x as [doc|e] end; cbn [bind]; [|reflexivity].
  match goal with |- bind ?x _ = _ => destruct x as [u|e] end; reflexivity.
Qed.

(** Mappings *)
Lemma load_values_ok f d out : load_values f d = Ok (Some out) <-> Forall2 (fun kv kv' => fst kv' = fst kv /\ f (snd kv) = Ok (snd kv')) d out.
Proof.
  revert out. induction d as [|[k v] d IH]; intros out; cbn [load_values].
  - split; [intros E; injection E as <-; constructor|intros F; inversion F; auto].
  - split.
    + unfold noted. destruct (f v) as [w|e] eqn:E; cbn [bind].
      * destruct (load_values f d) as [[rest|]|] eqn:R; cbn [bind]; try discriminate. intros X. injection X as <-.
        constructor; [cbn [fst snd]; auto|]. apply IH. auto.
      * destruct e; cbn [bind]; try discriminate. destruct (load_values f d) as [[rest|]|]; cbn [bind]; discriminate.
    + intros F. inversion F as [|? [k' w] ? rest [E1 E2] F']; subst. cbn [fst snd] in *. subst k'. rewrite E2. unfold noted. cbn [bind].
      apply IH in F'. rewrite F'. reflexivity.
Qed.
Lemma map_ok values c n d b o root v : Loads (LMap values c n) (JDict d) b o root (Ok v) <->
  exists out, Forall2 (fun kv kv' => fst kv' = fst kv /\ LoadsField (within c n o) (snd kv) values b (Ok (snd kv'))) d out /\ v = VMap out.
Proof.
  rewrite (Loads_body urljoin supported_schemes check_exists fetch_text read_yaml uuid classes proxies). cbn [load_body]. rewrite within_same. split.
  - intros [_ [k E]]. destruct (load_values _ d) as [[out|]|] eqn:L; cbn [bind] in E; try discriminate. injection E as <-.
    exists out. split; [|reflexivity]. apply load_values_ok in L. eapply F2_impl; [|exact L]. intros kv kv' [X Y]. split; [exact X|]. split; [discriminate|]. exists k. exact Y.
  - intros (out & F & ->). split; [discriminate|].
    destruct (fuel_for2 (fun (kv : string * json) (kv' : string * lv) m => fst kv' = fst kv /\
      load_field urljoin fetch_text read_yaml (ld m) (dl m) (snd kv) values b (within c n o) = Ok (snd kv')) d out) as [m G].
    + intros x y i j [X Y] L. split; [exact X|]. eapply (field_ge urljoin supported_schemes check_exists fetch_text read_yaml uuid classes proxies); eauto. discriminate.
    + eapply F2_impl; [|exact F]. intros kv kv' [X [_ [m Y]]]. exists m. auto.
    + exists m. apply (load_values_ok (fun v => load_field urljoin fetch_text read_yaml (ld m) (dl m) v values b (within c n o))) in G. rewrite G. reflexivity.
Qed.
End Loads.
