(** * Packing a packed document: property C78 *)
From Verif Require Import PyBase PyBaseProofs UtilsModel PackModel PackSpec PackProofs PackTreeProofs PackStepProofs PackNameProofs PackProps AgainSpec AgainProofs.

Section Again.
  (** two worlds: the one the document is packed in first, and the one it is packed in again *)
  Variable url_scheme url_path url_scheme' url_path' : string -> string.
  Variable urljoin urljoin' : string -> string -> string.
  Variable read_text urlopen read_text' urlopen' : string -> result string.
  Variable parse_yaml parse_yaml' : string -> result json.
  Variable ver : Type.
  Variable parse_version : string -> result ver.
  Variable version_gt : ver -> ver -> bool.

  Notation pack := (pack url_scheme url_path urljoin read_text urlopen parse_yaml ver parse_version version_gt).
  Notation pack' := (PackModel.pack url_scheme' url_path' urljoin' read_text' urlopen' parse_yaml' ver parse_version version_gt).
  Notation packp' := (pack_process url_scheme' url_path' urljoin' read_text' urlopen' parse_yaml' ver parse_version version_gt).
  Notation load' := (load_linked_file url_scheme' url_path' urljoin' read_text' urlopen' parse_yaml').

  (** A packed document with no link left, with no source starting with # and with named
      ports is given back unchanged when it is packed again, from wherever it lies: of all
      the files there are, only the document itself is read. *)
  Theorem C78_packed_again_partial fuel path s d s' :
    classes_are_texts parse_yaml -> ordered ver version_gt ->
    pack fuel path s = Ok (d, s') -> dget "$graph" d = None ->
    LinkFree (JDict d) -> PlainSources d -> NamedPorts d ->
    exists n, forall fuel', n <= fuel' -> forall path' url t,
      load' fuel' path' "" true = Ok (JDict d, url) -> exists t', pack' fuel' path' t = Ok (d, t').
  Proof.
    intros FT O E NG LF PS NP. destruct (pack_inv _ _ _ _ _ _ _ _ _ _ _ _ _ _ E) as (d0 & url0 & L & [(G & -> & _)|(G & v & V & P)]); [contradiction|].
    pose proof (load_TC _ _ _ _ _ _ FT _ _ _ _ _ L) as T.
    pose proof (pack_steady _ _ _ _ _ _ _ _ _ FT O _ _ _ _ _ _ _ _ T (Forall_nil _) P) as S.
    assert (GV : exists e, dget "cwlVersion" d = Some e) by (eapply pack_version_kept; [exact FT|exact O|exact T|constructor|exact P|exact V]).
    destruct GV as [e GV].
    assert (SE : Steady ver parse_version version_gt e d).
    { inversion S as [e0 d1 li lo lr I FI OO FO R NS A W X Y]; subst. eapply Steady_at; eauto. intros WD. destruct (W WD) as (l & LL & F).
      exists l. split; [exact LL|]. unfold get_or in *. rewrite GV in *. exact F. }
    destruct (pack_again url_scheme' url_path' urljoin' read_text' urlopen' parse_yaml' _ _ _ _ _ SE LF PS NP) as [n N].
    exists n. intros fuel' LE path' url t L'. unfold PackModel.pack, mbind at 1, lift at 1. rewrite L'. cbn [bind].
    unfold dmem. rewrite NG. unfold mbind at 1, lift at 1, item. rewrite GV. cbn [bind]. apply N. exact LE.
  Qed.
End Again.
Print Assumptions C78_packed_again_partial.

(** ** the hypotheses are met by a workflow running a workflow running a tool *)
Fixpoint link_free (j : json) : bool :=
  match j with
  | JList l => forallb link_free l
  | JDict d => negb (dmem "$import" d) && negb (dmem "$include" d) && forallb (fun kv => link_free (snd kv)) d
  | _ => true
  end.
Lemma link_free_top d : link_free (JDict d) = true -> dget "$import" d = None /\ dget "$include" d = None.
Proof.
  cbn. unfold dmem. intros H. apply andb_true_iff in H. destruct H as [H _]. apply andb_true_iff in H. destruct H as [A B].
  destruct (dget "$import" d); [discriminate|]. destruct (dget "$include" d); [discriminate|]. auto.
Qed.
Lemma link_free_inside x j : Inside x j -> link_free j = true -> link_free x = true.
Proof.
  induction 1 as [x l J|k x d J|x y z A IA B IB]; cbn; intros H.
  - rewrite forallb_forall in H. auto.
  - apply andb_true_iff in H. destruct H as [_ H]. rewrite forallb_forall in H. apply (H (k, x) J).
  - auto.
Qed.
Lemma link_free_spec j : link_free j = true -> LinkFree j.
Proof. intros H d [->|D]; apply link_free_top; [exact H|]. eapply link_free_inside; eauto. Qed.

Module Twice.
  (** the packed document alone, elsewhere *)
  Definition elsewhere (s : string) : result json := if String.eqb s "elsewhere/packed.cwl" then Ok (JDict demo_packed) else Err FileNotFoundError.
  Definition load := load_linked_file Demo.no_scheme (fun s => s) Demo.join Demo.text Demo.text elsewhere.
  Definition pack := PackModel.pack Demo.no_scheme (fun s => s) Demo.join Demo.text Demo.text elsewhere nat Demo.version (fun a b => Nat.ltb b a).


  (** a test made of every process nested in a document *)
  Definition list_at (k : string) (d : dict) : list json := match dget k d with Some (JList l) => l | _ => [] end.
  Fixpoint everywhere (c : dict -> bool) (n : nat) (d : dict) : bool :=
    match n with
    | O => false
    | S n => c d && forallb (fun st => match st with
                                       | JDict st => match dget "run" st with Some (JDict r) => everywhere c n r | _ => true end
                                       | _ => true
                                       end) (list_at "steps" d)
    end.
  Lemma everywhere_spec c p d : Nested p d -> forall n, everywhere c n d = true -> c p = true.
  Proof.
    induction 1 as [d|d st run p W (l & L & J) R N IH]; intros n H; (destruct n as [|n]; [discriminate|]); cbn in H;
      apply andb_true_iff in H; destruct H as [A B]; [exact A|].
    apply (IH n). unfold list_at in B. rewrite L in B. rewrite forallb_forall in B. specialize (B _ J). cbn in B. unfold runs in R. rewrite R in B. exact B.
  Qed.
  Definition no_hash (s : string) : bool := negb (startswith "#" s).
  Definition plain_entry (key : string) (e : json) : bool :=
    match e with JStr s => no_hash s | JDict d => match dget key d with Some (JStr s) => no_hash s | _ => true end | _ => true end.
  Definition plain_sources (d : dict) : bool :=
    forallb (fun st => match st with JDict st => forallb (plain_entry "source") (list_at "in" st) | _ => true end) (list_at "steps" d) &&
    forallb (plain_entry "outputSource") (list_at "outputs" d).
  Lemma plain_entry_spec key e s : plain_entry key e = true -> EntryRef key e s -> forall r, s <> String "#" r.
  Proof.
    assert (H : forall s, no_hash s = true -> forall r, s <> String "#" r) by (intros s0 H r X; rewrite X in H; unfold no_hash in H; destruct r; discriminate H).
    intros P [->|(d & -> & G)]; cbn in P; [auto|]. rewrite G in P. auto.
  Qed.
  Lemma plain_sources_spec d s : plain_sources d = true -> SourceRef d s -> forall r, s <> String "#" r.
  Proof.
    intros P. apply andb_true_iff in P. destruct P as [A B]. rewrite forallb_forall in A, B.
    intros [(st & l & e & (l0 & L0 & J0) & L & J & R)|(l & e & L & J & R)].
    - unfold list_at in A. rewrite L0 in A. specialize (A _ J0). cbn in A. unfold list_at in A. rewrite L in A. rewrite forallb_forall in A.
      exact (plain_entry_spec _ _ _ (A _ J) R).
    - unfold list_at in B. rewrite L in B. exact (plain_entry_spec _ _ _ (B _ J) R).
  Qed.
  Definition named_ports (d : dict) : bool :=
    forallb (fun k => match list_at k d with
                      | [JDict q] => match dget "id" q with Some id => negb (is_str "$import" id) | None => false end
                      | _ => true
                      end) ["inputs"; "outputs"].
  Lemma named_ports_spec d k q : named_ports d = true -> (k = "inputs" \/ k = "outputs") -> dget k d = Some (JList [JDict q]) ->
    exists id, dget "id" q = Some id /\ id <> JStr "$import".
  Proof.
    intros H K G. unfold named_ports in H. rewrite forallb_forall in H. specialize (H k ltac:(destruct K; subst; cbn; auto)). cbn beta in H.
    unfold list_at in H. rewrite G in H. destruct (dget "id" q) as [id|]; [|discriminate]. exists id. split; [reflexivity|].
    intros ->. discriminate.
  Qed.
End Twice.
Example C78_example :
  classes_are_texts Demo.parse' /\ ordered nat (fun a b => Nat.ltb b a) /\ (exists s, Demo.run "main.cwl" = Ok (demo_packed, s)) /\
  dget "$graph" demo_packed = None /\ LinkFree (JDict demo_packed) /\ PlainSources demo_packed /\ NamedPorts demo_packed /\
  Twice.load 9 "elsewhere/packed.cwl" "" true = Ok (JDict demo_packed, "elsewhere/packed.cwl") /\
  exists t, Twice.pack 40 "elsewhere/packed.cwl" naming0 = Ok (demo_packed, t).
Proof.
  split; [apply Demo.texts|]. split; [apply Demo.order|]. split; [eexists; vm_compute; reflexivity|]. split; [reflexivity|].
  split; [apply link_free_spec; vm_compute; reflexivity|].
  split; [|split; [|split; [reflexivity|eexists; vm_compute; reflexivity]]].
  - intros p s N. apply Twice.plain_sources_spec. apply (Twice.everywhere_spec _ _ _ N 9). vm_compute. reflexivity.
  - intros p k q N. apply Twice.named_ports_spec. apply (Twice.everywhere_spec _ _ _ N 9). vm_compute. reflexivity.
Qed.

(** ** where packing again changes the document *)
Module Changed.
  Definition tool : json := JDict [("class", JStr "CommandLineTool"); ("inputs", JList []); ("outputs", JList [])].
  (** a source with two # *)
  Definition hashes : dict :=
    [("class", JStr "Workflow"); ("cwlVersion", JStr "v1.0"); ("inputs", JList []); ("outputs", JList []); ("requirements", JList []);
     ("steps", JList [JDict [("id", JStr "s"); ("in", JList [JDict [("id", JStr "a"); ("source", JStr "##x")]]); ("out", JList []); ("run", tool)]])].
  (** an imported file that is itself an import *)
  Definition chain : dict :=
    [("class", JStr "CommandLineTool"); ("cwlVersion", JStr "v1.0"); ("inputs", JList []); ("outputs", JList []); ("requirements", JList []);
     ("hints", JDict [("$import", JStr "a.yml")])].
  Definition parse (s : string) : result json :=
    if String.eqb s "a.yml" then Ok (JDict [("$import", JStr "b.yml")]) else if String.eqb s "b.yml" then Ok (JList []) else Err FileNotFoundError.
  Definition pack (d : dict) := pack_process Demo.no_scheme (fun s => s) Demo.join Demo.text Demo.text parse nat Demo.version (fun a b => Nat.ltb b a)
    20 (JDict d) "doc.cwl" (JStr "v1.0") [] naming0.
End Changed.
Theorem C78_hashes_refuted : exists d1 d2 s1 s2, Changed.pack Changed.hashes = Ok (d1, s1) /\ Changed.pack d1 = Ok (d2, s2) /\
  LinkFree (JDict d1) /\ NamedPorts d1 /\ SourceRef d1 "#x" /\ SourceRef d2 "x" /\ d2 <> d1.
Proof.
  eexists _, _, _, _. split; [vm_compute; reflexivity|]. split; [vm_compute; reflexivity|].
  split; [apply link_free_spec; vm_compute; reflexivity|].
  split; [intros p k q N; apply Twice.named_ports_spec; apply (Twice.everywhere_spec _ _ _ N 9); vm_compute; reflexivity|].
  split; [|split; [|discriminate]].
  - left. eexists _, _, _. split; [eexists; split; [reflexivity|left; reflexivity]|]. split; [reflexivity|]. split; [left; reflexivity|].
    right. eexists. split; reflexivity.
  - left. eexists _, _, _. split; [eexists; split; [reflexivity|left; reflexivity]|]. split; [reflexivity|]. split; [left; reflexivity|].
    right. eexists. split; reflexivity.
Qed.
Print Assumptions C78_hashes_refuted.
Theorem C78_links_refuted : exists d1 d2 s1 s2, Changed.pack Changed.chain = Ok (d1, s1) /\ Changed.pack d1 = Ok (d2, s2) /\
  PlainSources d1 /\ NamedPorts d1 /\
  dget "hints" d1 = Some (JDict [("$import", JStr "b.yml")]) /\ dget "hints" d2 = Some (JList []) /\ d2 <> d1.
Proof.
  eexists _, _, _, _. split; [vm_compute; reflexivity|]. split; [vm_compute; reflexivity|].
  split; [intros p s N; apply Twice.plain_sources_spec; apply (Twice.everywhere_spec _ _ _ N 9); vm_compute; reflexivity|].
  split; [intros p k q N; apply Twice.named_ports_spec; apply (Twice.everywhere_spec _ _ _ N 9); vm_compute; reflexivity|].
  split; [reflexivity|]. split; [reflexivity|discriminate].
Qed.
Print Assumptions C78_links_refuted.
