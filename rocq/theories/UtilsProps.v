(** * Properties C20, C46, C47, C50: utils.py *)
From Verif Require Import PyBase PyBaseProofs UtilsModel UtilsSpec UtilsProofs.

(** ** C20 *)
(** a map section, made a list and made a map again, is the map with its
    shorthand bodies spelled out *)
Theorem C20_map_to_list_and_back : forall key_field value_field d spelled,
  wf_dict d -> spelled_dict value_field d spelled ->
  Forall (fun kv => forall body, snd kv = JDict body -> dget key_field body = None) spelled ->
  (do l <- normalize_to_list (JDict d) key_field value_field; normalize_to_map (JList l) key_field)
  = Ok spelled.
Proof. intros. eapply map_list_map; eauto. Qed.
Print Assumptions C20_map_to_list_and_back.

(** a list section with distinct keys, made a map and made a list again, has the
    same entries in the same order with the same fields *)
Theorem C20_list_to_map_and_back : forall key_field value_field l,
  Forall (keyed key_field) l -> NoDup (map (key_of key_field) l) ->
  exists m l', normalize_to_map (JList l) key_field = Ok m /\
    normalize_to_list (JDict m) key_field value_field = Ok l' /\ same_entries l l'.
Proof. intros. apply list_map_list; auto. Qed.
Print Assumptions C20_list_to_map_and_back.

Theorem C20_already_normal : forall key_field value_field l d,
  normalize_to_list (JList l) key_field value_field = Ok l /\
  normalize_to_map (JDict d) key_field = Ok d.
Proof. intros. split; reflexivity. Qed.
Print Assumptions C20_already_normal.

Theorem C20_rejections : forall key_field d l,
  (forall k v, In (k, v) d -> (forall b, v <> JDict b) ->
     normalize_to_list (JDict d) key_field None = Err RuntimeError) /\
  (forall pre e post, l = pre ++ e :: post -> Forall (keyed key_field) pre ->
     ((forall b, e <> JDict b) -> normalize_to_map (JList l) key_field = Err RuntimeError) /\
     (forall b, e = JDict b -> dget key_field b = None \/ dget key_field b = Some JNull ->
        normalize_to_map (JList l) key_field = Err MissingKeyField)).
Proof.
  intros kf d l. split.
  - intros. eapply to_list_reject; eauto.
  - intros pre e post -> F. apply to_map_loop_reject. auto.
Qed.
Print Assumptions C20_rejections.

Example C20_case :
  normalize_to_list (JDict [("a", JStr "File"); ("b", JDict [("type", JStr "int"); ("default", JInt 3)])])
    "id" (Some "type")
  = Ok [JDict [("type", JStr "File"); ("id", JStr "a")];
        JDict [("type", JStr "int"); ("default", JInt 3); ("id", JStr "b")]].
Proof. reflexivity. Qed.
Example C20_case_hyp : spelled_dict (Some "type")
    [("a", JStr "File"); ("b", JDict [("type", JStr "int"); ("default", JInt 3)])]
    [("a", JDict [("type", JStr "File")]); ("b", JDict [("type", JStr "int"); ("default", JInt 3)])].
Proof. repeat constructor; eexists; split; reflexivity. Qed.

(** A finding: entries with the same key silently replace each other. *)
Theorem C20_duplicate_keys_refuted : exists l m, Forall (keyed "id") l /\
  normalize_to_map (JList l) "id" = Ok m /\ List.length m < List.length l.
Proof.
  exists [JDict [("id", JStr "a"); ("type", JStr "int")]; JDict [("id", JStr "a"); ("type", JStr "File")]].
  eexists. split; [|split; [reflexivity|cbn; lia]].
  repeat constructor; do 2 eexists; split; reflexivity.
Qed.
Print Assumptions C20_duplicate_keys_refuted.

(** ** C46 *)
Theorem C46_rest_of_list_refuted : exists v w,
  bytes2str_in_dicts (fun _ => true) v = Ok w /\ HasBytes w.
Proof.
  exists (BDict [("inputs", BList [BBytes "a"; BBytes "b"])]). eexists. split; [reflexivity|].
  eapply HB_dict; [left; reflexivity|]. eapply HB_list; [right; left; reflexivity|]. constructor.
Qed.
Print Assumptions C46_rest_of_list_refuted.

Theorem C46_bytes_decoded_partial : forall utf8 v, HeadBytesOnly v -> AllValid utf8 v ->
  exists w, bytes2str_in_dicts utf8 v = Ok w /\ Decoded v w.
Proof. exact bytes2str_head_only. Qed.
Print Assumptions C46_bytes_decoded_partial.

Theorem C46_nothing_else_changed : forall utf8 v,
  match bytes2str_in_dicts utf8 v with
  | Ok w => PartlyDecoded v w
  | Err e => e = ValueError
  end.
Proof.
  intros. destruct (bytes2str_in_dicts utf8 v) eqn:E.
  - eapply bytes2str_partly; eauto.
  - eapply bytes2str_errors; eauto.
Qed.
Print Assumptions C46_nothing_else_changed.

(** bytes that are not valid UTF-8 are reported, where bytes are decoded at all *)
Theorem C46_invalid_bytes : forall utf8 v,
  bytes2str_in_dicts utf8 v = Err ValueError <-> ~ (forall s, FirstBytes s v -> utf8 s = true).
Proof.
  intros utf8 v. rewrite <- bytes2str_ok_iff. destruct (bytes2str_in_dicts utf8 v) as [w|e] eqn:E.
  - split; [discriminate|]. intros H. exfalso. eauto.
  - apply bytes2str_errors in E. subst. split; auto. intros _ [w H]. discriminate.
Qed.
Print Assumptions C46_invalid_bytes.
Example C46_case_invalid : bytes2str_in_dicts (fun s => negb (has_char "255" s))
  (BDict [("a", BList [BBytes (String "255" "")])]) = Err ValueError.
Proof. reflexivity. Qed.
Example C46_case : bytes2str_in_dicts (fun _ => true)
   (BDict [("a", BList [BDict [("b", BBytes "x")]; BAtom (JInt 1)]); ("c", BBytes "y")])
 = Ok (BDict [("a", BList [BDict [("b", BAtom (JStr "x"))]; BAtom (JInt 1)]); ("c", BAtom (JStr "y"))]).
Proof. reflexivity. Qed.
Example C46_case_hyp : HeadBytesOnly
   (BDict [("a", BList [BDict [("b", BBytes "x")]; BAtom (JInt 1)]); ("c", BBytes "y")]).
Proof. repeat constructor. intros H; inversion H. Qed.

(** ** C47 *)
Theorem C47_nested_arrays_refuted : exists t t' v base opaque,
  sanitise_type t = Ok t' /\ Admits base opaque t v /\ ~ Admits base opaque t' v.
Proof.
  exists (XStr "string[][]"), (XArrayObj (XStr "string")), (JList [JList []]), (fun _ _ => False), (fun _ _ => False).
  split; [vm_compute; reflexivity|]. split.
  - constructor. apply (TA_list _ "string[]"). constructor; auto. apply (TA_list _ "string"). constructor.
  - intros H. apply AD_array_obj in H. destruct H as (l & E & F). injection E as <-.
    inversion F as [|x y A B]; subst. apply AD_text in A.
    inversion A as [| |t v X Y|t l X Y|]; subst; auto.
    + destruct t as [|? [|? [|? [|? [|? [|? [|? ?]]]]]]]; discriminate.
    + destruct t as [|? [|? [|? [|? [|? [|? [|? ?]]]]]]]; discriminate.
Qed.
Print Assumptions C47_nested_arrays_refuted.

Theorem C47_meaning_kept_partial : forall base opaque t t',
  simple_type t -> sanitise_type t = Ok t' ->
  forall v, Admits base opaque t' v <-> Admits base opaque t v.
Proof. intros. apply sanitise_keeps; auto. Qed.
Print Assumptions C47_meaning_kept_partial.
Example C47_case : sanitise_type (XStr "File[]?") = Ok (XList [XStr "null"; XArrayObj (XStr "File")])
  /\ sanitise_type (XList [XStr "string"; XStr "null"; XArray (XStr "int")])
     = Ok (XList [XStr "null"; XStr "string"; XArray (XStr "int")]).
Proof. split; vm_compute; reflexivity. Qed.
Example C47_case_hyp : simple_type (XStr "File[]?") /\
  simple_type (XList [XStr "a[][]"; XField (XStr "File?")]).
Proof.
  split.
  - constructor. exists "File". repeat split; auto.
  - constructor. repeat constructor; intros t E; inversion E; subst. constructor. exists "File". repeat split; auto.
Qed.

(** ** C50 *)
Theorem C50_pascal_case_letters : forall name,
  sforall (fun c => negb (is_separator c)) (to_pascal_case name) = true /\
  smap lower_char (to_pascal_case name) = smap lower_char (without_separators name).
Proof. intros. rewrite to_pascal_case_pascal. split; [apply pascal_no_sep|apply pascal_letters]. Qed.
Print Assumptions C50_pascal_case_letters.

(** word by word *)
Theorem C50_pascal_case_words : forall word sep rest,
  sforall (fun c => negb (is_separator c)) word = true -> is_separator sep = true ->
  to_pascal_case word = capital_word word /\
  to_pascal_case (word ++ String sep rest) = (capital_word word ++ to_pascal_case rest)%string.
Proof.
  intros w sep rest W S. rewrite !to_pascal_case_pascal. split.
  - rewrite <- (sapp_nil_r w) at 1. rewrite (pascal_word true w "" W). destruct w; cbn; [|rewrite sapp_nil_r]; auto.
  - rewrite (pascal_word true w _ W). cbn [pascal]. rewrite S. destruct w; auto.
Qed.
Print Assumptions C50_pascal_case_words.

Theorem C50_pascal_case_stable : forall name,
  smap lower_char (to_pascal_case (to_pascal_case name)) = smap lower_char (to_pascal_case name).
Proof.
  intros. rewrite !to_pascal_case_pascal, pascal_letters, without_none; auto. apply pascal_no_sep.
Qed.
Print Assumptions C50_pascal_case_stable.
Example C50_case : to_pascal_case "fastq-list_row" = "FastqListRow".
Proof. reflexivity. Qed.
