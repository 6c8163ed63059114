(** * Properties C01-C10: expressions and parameter references.

    Every theorem is closed by a lemma of ScanProofs, InterpProofs or EvalProofs.
    The vocabulary of the statements is that of ExprSpec and EvalSpec. *)
From Verif Require Import PyBase PyBaseProofs ExprModel ExprSpec ScanProofs InterpProofs GrammarProofs
  EvalModel EvalSpec EvalProofs.

(** ** A concrete JSON library for strings, showing that [json_library_ok] can be met *)
Fixpoint demo_quote (s : string) : string :=
  match s with
  | EmptyString => String c_dq ""
  | String c s' =>
      if Ascii.eqb c c_dq || Ascii.eqb c c_bs
      then String c_bs (String c (demo_quote s')) else String c (demo_quote s')
  end.
Fixpoint demo_unquote (s : string) : string :=
  match s with
  | EmptyString => EmptyString
  | String c s' =>
      if Ascii.eqb c c_bs then
        match s' with String d s'' => String d (demo_unquote s'') | "" => "" end
      else if Ascii.eqb c c_dq then EmptyString
      else String c (demo_unquote s')
  end.
Definition demo_loads (s : string) : string := demo_unquote (sdrop 1 s).
Definition demo_dumps (j : json) : string :=
  match j with
  | JStr s => String c_dq (demo_quote s)
  | JNull => "null" | JBool true => "true" | JBool false => "false"
  | JInt Z0 => "0" | JInt (Zpos _) => "1" | JInt _ => "-1"
  | JFloat s => "0.5" | JList _ => "[]" | JDict _ => "{}"
  end.
Lemma demo_unquote_quote s : demo_unquote (demo_quote s) = s.
Proof.
  induction s as [|c s IH]; [reflexivity|]. cbn [demo_quote].
  destruct (Ascii.eqb c c_dq) eqn:E1; cbn [orb].
  - cbn [demo_unquote]. rewrite Ascii.eqb_refl, IH. reflexivity.
  - destruct (Ascii.eqb c c_bs) eqn:E2.
    + cbn [demo_unquote]. rewrite Ascii.eqb_refl, IH. reflexivity.
    + cbn [demo_unquote]. rewrite E2, E1, IH. reflexivity.
Qed.
Lemma demo_library : json_library_ok demo_dumps demo_loads.
Proof.
  split; [|split].
  - intros s. eexists. reflexivity.
  - intros s. apply demo_unquote_quote.
  - intros v H. destruct v as [|[]|[]| | | |]; try (eexists _, _; split; [reflexivity|discriminate]).
    exfalso; eapply H; eauto.
Qed.

(** An evaluator that counts its calls and returns the body as a string. *)
Definition demo_ev (n : nat) (b : string) : nat * result json := (S n, Ok (JStr b)).
Definition demo_int_ev (n : nat) (b : string) : nat * result json := (S n, Ok (JInt 0)).

(** ** C01 *)
Theorem C01_scanner_found : forall s a b,
  scanner s = Ok (Some (a, b)) <->
  exists pre region post,
    s = (pre ++ region ++ post)%string /\ NoStart pre /\
    (Escape region \/ Reference region) /\
    a = String.length pre /\ b = String.length pre + String.length region.
Proof. exact scanner_some_iff. Qed.
Print Assumptions C01_scanner_found.

Theorem C01_scanner_nothing : forall s, scanner s = Ok None <-> NothingStarts s.
Proof. exact scanner_none_iff. Qed.
Print Assumptions C01_scanner_nothing.

Theorem C01_scanner_unclosed : forall s e,
  scanner s = Err e <->
  e = SubstitutionError /\
  exists pre o c rest, s = (pre ++ String "$" (String o rest))%string /\
    NoStart pre /\ bracket o c /\ NeverCloses o c rest.
Proof. exact scanner_err_iff. Qed.
Print Assumptions C01_scanner_unclosed.

Example C01_found_case : scanner "ab $(f(')') + x) y" = Ok (Some (3, 16)).
Proof. vm_compute. reflexivity. Qed.
Example C01_nothing_case : scanner "a $ b $$" = Ok None.
Proof. vm_compute. reflexivity. Qed.
Example C01_unclosed_case : scanner "x ${ { } 'a}" = Err SubstitutionError.
Proof. vm_compute. reflexivity. Qed.

(** ** C02 *)
Theorem C02_plain_text : forall (St : Type) (ev : St -> string -> St * result json) dumps loads
    (sw : bool) (esc : nat) st s,
  has_char c_bs (if sw then strip s else s) = false ->
  contains "$(" (if sw then strip s else s) = false ->
  contains "${" (if sw then strip s else s) = false ->
  interpolate ev dumps loads sw esc st s = (st, Ok (JStr (if sw then strip s else s))).
Proof.
  intros St ev dumps loads sw esc st s H1 H2 H3.
  unfold interpolate. set (t := if sw then strip s else s) in *. clearbody t.
  replace (String.length t + 1) with (S (String.length t)) by lia. cbn [interp_loop].
  rewrite scanner_nothing; [reflexivity|]. left. repeat split; auto.
Qed.
Print Assumptions C02_plain_text.
Example C02_case : interpolate demo_ev demo_dumps demo_loads true 2 0 "  5$ or $x (y) { }  "
  = (0, Ok (JStr "5$ or $x (y) { }")).
Proof. vm_compute. reflexivity. Qed.

(** ** C03 *)
Theorem C03_escape_round_trip : forall (St : Type) (ev : St -> string -> St * result json) dumps loads st s,
  json_library_ok dumps loads ->
  interpolate ev dumps loads false 2 st (escape s) = (st, Ok (JStr s)).
Proof.
  intros St ev dumps loads st s LIB.
  destruct (escape_items ev (value_text dumps) (String.length s) s (le_n _)) as (its & H & T & NR).
  change 2 with (esc_code true).
  rewrite (interpolate_items ev dumps loads LIB true false (escape s) its st H).
  destruct (items_value_cases ev (value_text dumps) true st its) as [(b & -> & _)|(_ & ->)].
  - exfalso. apply (NR b). right; left; reflexivity.
  - rewrite T. reflexivity.
Qed.
Print Assumptions C03_escape_round_trip.
Example C03_case : escape (String c_bs "$$(a) ${") =
  String c_bs (String c_bs (String "$" (String c_bs ("$(a) " ++ String c_bs "${")%string))).
Proof. vm_compute. reflexivity. Qed.

(** ** C04 *)
Theorem C04_one_reading : forall newrules s,
  exists its, Items newrules s its /\ forall its', Items newrules s its' -> its' = its.
Proof.
  intros nr s. destruct (Items_total nr s) as [its H]. exists its. split; auto.
  apply Items_det; auto.
Qed.
Print Assumptions C04_one_reading.

Theorem C04_interpolate_meaning : forall (St : Type) (ev : St -> string -> St * result json) dumps loads
    (newrules sw : bool) st s its,
  json_library_ok dumps loads ->
  Items newrules (if sw then strip s else s) its ->
  interpolate ev dumps loads sw (if newrules then 2 else 1) st s
  = items_value ev (value_text dumps) newrules st its.
Proof. intros St ev dumps loads nr sw st s its LIB. exact (interpolate_items ev dumps loads LIB nr sw s its st). Qed.
Print Assumptions C04_interpolate_meaning.
Example C04_case :
  interpolate demo_ev demo_dumps demo_loads true 2 0
    ("a" ++ String c_bs "n $(x) ${y}" ++ String c_bs "$(z)")
  = (2, Ok (JStr ("a" ++ String c_bs "n (x) {y}$(z)"))).
Proof. vm_compute. reflexivity. Qed.

(** ** C05 *)
Theorem C05_single_reference : forall (St : Type) (ev : St -> string -> St * result json) dumps loads
    (newrules sw : bool) st s body,
  json_library_ok dumps loads ->
  (if sw then strip s else s) = String "$" body -> Reference (String "$" body) ->
  interpolate ev dumps loads sw (if newrules then 2 else 1) st s = ev st body.
Proof.
  intros St ev dumps loads nr sw st s body LIB E R.
  pose proof (Reference_items nr body R) as I. rewrite <- E in I.
  exact (interpolate_items ev dumps loads LIB nr sw s _ st I).
Qed.
Print Assumptions C05_single_reference.

Theorem C05_otherwise_text : forall (St : Type) (ev : St -> string -> St * result json) dumps loads
    (newrules sw : bool) st s st' v,
  json_library_ok dumps loads ->
  ~ Reference (if sw then strip s else s) ->
  interpolate ev dumps loads sw (if newrules then 2 else 1) st s = (st', Ok v) ->
  exists t, v = JStr t.
Proof.
  intros St ev dumps loads nr sw st s st' v LIB N H.
  destruct (Items_total nr (if sw then strip s else s)) as [its I].
  change (if nr then 2 else 1) with (esc_code nr) in H.
  rewrite (interpolate_items ev dumps loads LIB nr sw s its st I) in H.
  destruct (items_value_cases ev (value_text dumps) nr st its) as [(b & -> & _)|(_ & E)].
  - exfalso. apply N. destruct (Items_reference nr _ _ I) as [-> R]. auto.
  - rewrite E in H. destruct (items_text ev (value_text dumps) nr st its) as [st1 [t|e]];
      cbn [bind] in H; inversion H; eauto.
Qed.
Print Assumptions C05_otherwise_text.
Example C05_case : interpolate demo_int_ev demo_dumps demo_loads true 2 0 " $(inputs.n) " = (1, Ok (JInt 0))
  /\ interpolate demo_int_ev demo_dumps demo_loads false 2 0 " $(inputs.n) " = (1, Ok (JStr " 0 ")).
Proof. split; vm_compute; reflexivity. Qed.

(** ** C06 *)
Lemma or_None_directory d : or_None d = directory d.
Proof. destruct d as [[|c d]|]; reflexivity. Qed.
Theorem C06_pass_through : forall (St : Type) (js : St -> string -> string -> St * result json)
    dumps dumps4 loads st ex inp reqs out tmp res ctx sw ver,
  (forall s, ex = JStr s -> contains "$(" s = false /\ contains "${" s = false) ->
  do_eval js dumps dumps4 loads st ex inp reqs out tmp res ctx sw ver = (st, Ok ex).
Proof. intros St js dumps dumps4 loads. exact (do_eval_passthrough js dumps dumps4 loads). Qed.
Print Assumptions C06_pass_through.

Theorem C06_failures : forall (St : Type) (js : St -> string -> string -> St * result json)
    dumps dumps4 loads st ex inp reqs out tmp res ctx sw ver st' e,
  json_library_ok dumps loads ->
  Forall wf_requirement reqs ->
  (forall st x l st' e, js st x l = (st', Err e) -> is_Exception e = true) ->
  do_eval js dumps dumps4 loads st ex inp reqs out tmp res ctx sw ver = (st', Err e) ->
  e = WorkflowException.
Proof. intros. eapply do_eval_failures; eauto. Qed.
Print Assumptions C06_failures.
Definition demo_js (n : nat) (ex lib : string) : nat * result json := (S n, Err JavascriptException).
Definition demo_js_req (lib : list string) : dict :=
  [("class", JStr "InlineJavascriptRequirement"); ("expressionLib", JList (map JStr lib))].
Example C06_case :
  do_eval demo_js demo_dumps demo_dumps demo_loads 0 (JStr "a $(b") JNull [demo_js_req ["x"]] None None []
    JNull true "v1.2" = (0, Err WorkflowException) /\
  do_eval demo_js demo_dumps demo_dumps demo_loads 0 (JStr "a $(b)") JNull [demo_js_req ["x"]] None None []
    JNull true "v1.2" = (1, Err WorkflowException).
Proof. split; vm_compute; reflexivity. Qed.

(** ** C07 *)
Theorem C07_no_javascript : forall (St : Type) (js1 js2 : St -> string -> string -> St * result json)
    dumps dumps4 loads st ex inp reqs out tmp res ctx sw ver,
  json_library_ok dumps loads ->
  Forall wf_requirement reqs -> Forall (fun r => ~ is_js_requirement r) reqs ->
  do_eval js1 dumps dumps4 loads st ex inp reqs out tmp res ctx sw ver
  = do_eval js2 dumps dumps4 loads st ex inp reqs out tmp res ctx sw ver /\
  fst (do_eval js1 dumps dumps4 loads st ex inp reqs out tmp res ctx sw ver) = st.
Proof. intros. apply do_eval_no_js; auto. Qed.
Print Assumptions C07_no_javascript.

Theorem C07_expression_lib : forall (St : Type) (js : St -> string -> string -> St * result json)
    dumps dumps4 loads st inp pre r post out tmp res ctx sw ver body,
  json_library_ok dumps loads ->
  Forall wf_requirement (pre ++ r :: post) -> is_js_requirement r ->
  Forall (fun r => ~ is_js_requirement r) post ->
  Reference (String "$" (String "{" body)) ->
  do_eval js dumps dumps4 loads st (JStr (String "$" (String "{" body)))
    inp (pre ++ r :: post) out tmp res ctx sw ver
  = as_workflow_failure
      (js st (String "{" body)
         (sjoin (String c_nl "")
            (lib_of r ++
             [ ("var inputs = " ++ dumps4 inp ++ ";")%string;
               ("var self = " ++ dumps4 ctx ++ ";")%string;
               ("var runtime = " ++
                dumps4 (JDict (dset "outdir" (directory out) (dset "tmpdir" (directory tmp) res)))
                ++ ";")%string ]))).
Proof. intros. rewrite <- !or_None_directory. apply do_eval_js_lib; auto. Qed.
Print Assumptions C07_expression_lib.
Definition demo_log_js (l : list (string * string)) (ex lib : string)
  : list (string * string) * result json := (l ++ [(ex, lib)], Ok (JInt 7)).
Example C07_case_js :
  do_eval demo_log_js demo_dumps demo_dumps demo_loads [] (JStr "${return 7;}") JNull
    [demo_js_req ["old"]; demo_js_req ["lib"]; [("class", JStr "Other")]] None None [] JNull true "v1.2"
  = ([("{return 7;}",
       sjoin (String c_nl "") ["lib"; "var inputs = null;"; "var self = null;"; "var runtime = {};"])],
     Ok (JInt 7)).
Proof. vm_compute. reflexivity. Qed.
Example C07_case_no_js :
  do_eval demo_log_js demo_dumps demo_dumps demo_loads [] (JStr "${return 7;}") JNull
    [[("class", JStr "Other")]] None None [] JNull true "v1.2" = ([], Err WorkflowException).
Proof. vm_compute. reflexivity. Qed.

(** Any other text than a reference from inputs, self or runtime is left to the engine,
    where it is allowed. *)
Theorem C07_other_text : forall (St : Type) (js : St -> string -> string -> St * result json) obj jslib fullJS st ex,
  (forall root, RefText root ex -> ~ is_root root) -> ex <> "(null)" ->
  evaluator js obj jslib fullJS st ex = if fullJS then js st ex jslib else (st, Err JavascriptException).
Proof. intros. apply evaluator_other; auto. Qed.
Print Assumptions C07_other_text.
Example C07_case_other : forall root, RefText root "(inputs.a)+1)x" -> ~ is_root root.
Proof.
  intros root (t & e & E & _ & _ & _ & EE) _.
  assert (X : endswith (")" ++ e) "(inputs.a)+1)x" = true) by (apply endswith_spec; exists ("(" ++ root ++ t)%string; rewrite E, !sapp_assoc; reflexivity).
  destruct EE as [-> | ->]; vm_compute in X; discriminate.
Qed.

(** ** C08 *)
Theorem C08_old_versions : forall (St : Type) (js : St -> string -> string -> St * result json)
    dumps dumps4 loads st s inp reqs out tmp res ctx (sw : bool) ver its,
  json_library_ok dumps loads -> Forall wf_requirement reqs ->
  contains "$(" s || contains "${" s = true -> old_rules_version ver ->
  Items false (if sw then strip s else s) its ->
  exists jslib fullJS,
    do_eval js dumps dumps4 loads st (JStr s) inp reqs out tmp res ctx sw ver
    = as_workflow_failure
        (items_value (evaluator js (root_vars inp ctx out tmp res) jslib fullJS)
           (value_text dumps) false st its).
Proof.
  intros St js dumps dumps4 loads st s inp reqs out tmp res ctx sw ver its LIB W N V I.
  destruct (find_js_wf dumps4 (root_vars inp ctx out tmp res) (rev reqs)) as (b & l & F).
  { apply Forall_rev; auto. }
  exists l, b. eapply (do_eval_meaning js dumps dumps4 loads LIB); eauto. apply escaping_old; auto.
Qed.
Print Assumptions C08_old_versions.

Theorem C08_new_versions : forall (St : Type) (js : St -> string -> string -> St * result json)
    dumps dumps4 loads st s inp reqs out tmp res ctx (sw : bool) ver its,
  json_library_ok dumps loads -> Forall wf_requirement reqs ->
  contains "$(" s || contains "${" s = true -> ~ old_rules_version ver ->
  Items true (if sw then strip s else s) its ->
  exists jslib fullJS,
    do_eval js dumps dumps4 loads st (JStr s) inp reqs out tmp res ctx sw ver
    = as_workflow_failure
        (items_value (evaluator js (root_vars inp ctx out tmp res) jslib fullJS)
           (value_text dumps) true st its).
Proof.
  intros St js dumps dumps4 loads st s inp reqs out tmp res ctx sw ver its LIB W N V I.
  destruct (find_js_wf dumps4 (root_vars inp ctx out tmp res) (rev reqs)) as (b & l & F).
  { apply Forall_rev; auto. }
  exists l, b. eapply (do_eval_meaning js dumps dumps4 loads LIB); eauto. apply escaping_new; auto.
Qed.
Print Assumptions C08_new_versions.
Example C08_case :
  let s := ("a" ++ String c_bs "n$(null)" ++ String c_bs "$(x)")%string in
  do_eval demo_js demo_dumps demo_dumps demo_loads 0 (JStr s) JNull [] None None [] JNull true "v1.2"
    = (0, Ok (JStr ("a" ++ String c_bs "nnull$(x)"))) /\
  do_eval demo_js demo_dumps demo_dumps demo_loads 0 (JStr s) JNull [] None None [] JNull true "v1.0"
    = (0, Ok (JStr "annull$(x)")).
Proof. split; vm_compute; reflexivity. Qed.

(** ** C09 *)
Theorem C09_reference_is_lookup : forall (St : Type) (js : St -> string -> string -> St * result json)
    obj jslib fullJS st root p v w,
  is_root root -> dget root obj = Some v -> Forall plain_seg p -> Walk v p w ->
  evaluator js obj jslib fullJS st (write_ref root p) = (st, Ok w).
Proof. intros. eapply evaluator_walk; eauto. Qed.
Print Assumptions C09_reference_is_lookup.

Theorem C09_reference_end_to_end : forall (St : Type) (js : St -> string -> string -> St * result json)
    dumps dumps4 loads st inp reqs out tmp res ctx sw ver root p v w,
  json_library_ok dumps loads ->
  Forall wf_requirement reqs -> is_root root ->
  dget root [("inputs", inp); ("self", ctx);
     ("runtime", JDict (dset "outdir" (directory out) (dset "tmpdir" (directory tmp) res)))] = Some v ->
  Forall plain_seg p -> Forall no_bs p -> Walk v p w ->
  do_eval js dumps dumps4 loads st (JStr (String "$" (write_ref root p)))
    inp reqs out tmp res ctx sw ver = (st, Ok w).
Proof. intros St js dumps dumps4 loads st inp reqs out tmp res ctx sw ver root p v w LIB W R V P N WK.
  rewrite <- !or_None_directory in V. eapply do_eval_path; eauto. Qed.
Print Assumptions C09_reference_end_to_end.

(** The fields of runtime *)
Theorem C09_runtime : forall (St : Type) (js : St -> string -> string -> St * result json)
    dumps dumps4 loads st inp reqs out tmp res ctx sw ver,
  json_library_ok dumps loads -> Forall wf_requirement reqs ->
  do_eval js dumps dumps4 loads st (JStr "$(runtime.outdir)") inp reqs out tmp res ctx sw ver = (st, Ok (directory out)) /\
  do_eval js dumps dumps4 loads st (JStr "$(runtime.tmpdir)") inp reqs out tmp res ctx sw ver = (st, Ok (directory tmp)) /\
  forall k v, k <> "" -> sforall is_word k = true -> k <> "outdir" -> k <> "tmpdir" -> dget k res = Some v ->
    do_eval js dumps dumps4 loads st (JStr ("$(runtime." ++ k ++ ")")) inp reqs out tmp res ctx sw ver = (st, Ok v).
Proof.
  intros St js dumps dumps4 loads st inp reqs out tmp res ctx sw ver LIB W.
  assert (G : forall k v, k <> "" -> sforall is_word k = true -> dget k (dset "outdir" (directory out) (dset "tmpdir" (directory tmp) res)) = Some v ->
    do_eval js dumps dumps4 loads st (JStr ("$(runtime." ++ k ++ ")")) inp reqs out tmp res ctx sw ver = (st, Ok v)).
  { intros k v N F D.
    replace (JStr ("$(runtime." ++ k ++ ")")) with (JStr (String "$" (write_ref "runtime" [Dot k]))) by (unfold write_ref; cbn [write_path write_seg append]; rewrite sapp_nil_r; reflexivity).
    eapply C09_reference_end_to_end; eauto; [right; right; auto|reflexivity| | |].
    - repeat constructor; auto.
    - repeat constructor.
    - eapply W_dot; [exact D|constructor]. }
  split; [apply (G "outdir"); [discriminate|reflexivity|apply dget_dset_same]|]. split.
  - apply (G "tmpdir"); [discriminate|reflexivity|]. rewrite dget_dset_other by discriminate. apply dget_dset_same.
  - intros k v N F N1 N2 D. apply G; auto. rewrite !dget_dset_other by auto. exact D.
Qed.
Print Assumptions C09_runtime.
Theorem C09_null : forall (St : Type) (js : St -> string -> string -> St * result json) obj jslib fullJS st,
  evaluator js obj jslib fullJS st "(null)" = (st, Ok JNull).
Proof. intros. apply evaluator_null. Qed.
Print Assumptions C09_null.

(** A field whose name contains a quote followed by a closing bracket cannot be
    read: the segment is cut short and another field is returned. *)
Theorem C09_bracket_in_key_refuted :
  exists (d : dict) k v, dget k d = Some v /\
    param_match (write_ref "inputs" [SQuoted k]) = Some "inputs" /\
    evaluator demo_js [("inputs", JDict d)] "" false 0 (write_ref "inputs" [SQuoted k])
      <> (0, Ok v).
Proof.
  exists [(String "a" (String c_bs ""), JInt 2); ("a']b", JInt 1)], "a']b", (JInt 1).
  vm_compute. repeat split; discriminate.
Qed.
Print Assumptions C09_bracket_in_key_refuted.

Definition demo_inputs : json :=
  JDict [("file", JDict [("class", JStr "File"); ("it's", JList [JInt 5; JDict [("b c", JBool true)]])])].
Example C09_case_walk :
  Walk demo_inputs [Dot "file"; SQuoted "it's"; Index "01"; DQuoted "b c"] (JBool true) /\
  Forall plain_seg [Dot "file"; SQuoted "it's"; Index "01"; DQuoted "b c"].
Proof.
  split.
  - eapply W_dot; [reflexivity|]. eapply W_sq; [reflexivity|].
    eapply W_index with (n := 1); [|reflexivity|].
    + apply (Den_snoc "0" 0 "1"); [|reflexivity]. apply (Den_snoc "" 0 "0"); [constructor|reflexivity].
    + eapply W_dq; [reflexivity|]. constructor.
  - repeat constructor; discriminate.
Qed.
Example C09_case_length :
  Walk demo_inputs [Dot "file"; SQuoted "it's"; Dot "length"] (JInt 2).
Proof. eapply W_dot; [reflexivity|]. eapply W_sq; [reflexivity|]. apply (W_length [_; _]). auto. Qed.

(** ** C10 *)
(** Refuted in full: element 0 of an empty list escapes as IndexError instead of
    failing as a reference error or falling back to JavaScript. *)
Theorem C10_zero_of_empty_refuted : exists obj root p v,
  is_root root /\ dget root obj = Some v /\ Forall plain_seg p /\ ~ (exists w, Walk v p w) /\
  forall (St : Type) (js : St -> string -> string -> St * result json) jslib fullJS st,
    evaluator js obj jslib fullJS st (write_ref root p) = (st, Err IndexError).
Proof.
  exists [("inputs", JDict [("l", JList [])])], "inputs", [Dot "l"; Index "0"], (JDict [("l", JList [])]).
  assert (R : is_root "inputs") by (left; auto).
  assert (P : Forall plain_seg [Dot "l"; Index "0"]) by (repeat constructor; discriminate).
  assert (Z : ZeroOfEmpty (JDict [("l", JList [])]) [Dot "l"; Index "0"]).
  { eapply ZE_dot; [reflexivity|]. constructor. apply (Den_snoc "" 0 "0"); [constructor|reflexivity]. }
  split; [auto|]. split; [reflexivity|]. split; [auto|].
  split.
  - eapply (evaluator_zero_of_empty demo_js [("inputs", JDict [("l", JList [])])] "" false 0 "inputs" _ _ R eq_refl P Z).
  - intros St js jslib fullJS st.
    apply (evaluator_zero_of_empty js [("inputs", JDict [("l", JList [])])] jslib fullJS st "inputs" _ _ R eq_refl P Z).
Qed.
Print Assumptions C10_zero_of_empty_refuted.

Theorem C10_reference_fails_cleanly_partial :
  forall (St : Type) (js : St -> string -> string -> St * result json) obj jslib fullJS st root p v,
  is_root root -> dget root obj = Some v -> Forall plain_seg p ->
  ~ (exists w, Walk v p w) -> ~ ZeroOfEmpty v p ->
  evaluator js obj jslib fullJS st (write_ref root p)
  = if fullJS then js st (write_ref root p) jslib else (st, Err JavascriptException).
Proof. intros. eapply evaluator_nowhere; eauto. Qed.
Print Assumptions C10_reference_fails_cleanly_partial.

(** the exceptional case is exactly the one named *)
Theorem C10_index_error_iff :
  forall (St : Type) (js : St -> string -> string -> St * result json) obj jslib st root p v,
  is_root root -> dget root obj = Some v -> Forall plain_seg p ->
  (snd (evaluator js obj jslib false st (write_ref root p)) = Err IndexError <-> ZeroOfEmpty v p).
Proof.
  intros St js obj jslib st root p v R V P. split.
  - intros H. rewrite (evaluator_ref js _ _ _ _ _ _ _ R V P) in H.
    destruct (regex_outcomes p P (String.length (write_path p) + 1) v ltac:(lia))
      as [(w & W & E)|[(Z & E)|(_ & _ & E)]]; rewrite E in H; auto; discriminate.
  - intros Z. destruct (evaluator_zero_of_empty js obj jslib false st root p v R V P Z) as [_ ->].
    reflexivity.
Qed.
Print Assumptions C10_index_error_iff.

Example C10_case : ~ (exists w, Walk demo_inputs [Dot "file"; Dot "size"] w) /\
  ~ ZeroOfEmpty demo_inputs [Dot "file"; Dot "size"].
Proof.
  split.
  - intros [w W]. inversion W; subst. vm_compute in H2. injection H2 as <-.
    inversion H4; subst. discriminate.
  - intros Z. inversion Z; subst. vm_compute in H2. injection H2 as <-.
    inversion H3; subst. discriminate.
Qed.
