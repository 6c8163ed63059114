(** * What a packed document means: property C64 *)
From Verif Require Import PyBase PyBaseProofs UtilsModel PackModel PackSpec PackProofs PackProps MeaningSpec MeaningProofs MeaningProofs2.

Section Meaning.
  Variable url_scheme url_path : string -> string.
  Variable urljoin : string -> string -> string.
  Variable read_text urlopen : string -> result string.
  Variable parse_yaml : string -> result json.
  Variable ver : Type.
  Variable parse_version : string -> result ver.
  Variable version_gt : ver -> ver -> bool.

  (** urlparse never answers this: a scheme has no slashes *)
  Definition schemes_have_no_slashes : Prop := forall u, url_scheme u <> "file://".

  (** a link is followed to the file it leads to from the file it stands in, and no other *)
  Theorem C64_links_followed base link v u : schemes_have_no_slashes ->
    (exists fuel, load_linked_file url_scheme url_path urljoin read_text urlopen parse_yaml fuel base link true = Ok (v, u)) <->
    Contents url_scheme url_path urljoin read_text urlopen parse_yaml base link v u.
  Proof.
    intros N. split.
    - intros [fuel E]. eapply load_Contents; eauto.
    - intros (t & F & P). eapply (File_load _ _ _ _ _ _ N true); eauto.
  Qed.
  (** the same for texts *)
  Theorem C64_texts_followed base link v u : schemes_have_no_slashes ->
    (exists fuel, load_linked_file url_scheme url_path urljoin read_text urlopen parse_yaml fuel base link false = Ok (v, u)) <->
    exists t, v = JStr t /\ File url_scheme url_path urljoin read_text urlopen base link t u.
  Proof.
    intros N. split.
    - intros [fuel E]. destruct (load_File _ _ _ _ _ _ N false _ _ _ _ _ E) as (t & F & ->). eauto.
    - intros (t & -> & F). eapply (File_load _ _ _ _ _ _ N false); eauto.
  Qed.
  (** a type is written out as what it means *)
  Theorem C64_types_written_out fuel v base udt s t s' : schemes_have_no_slashes ->
    inline_type url_scheme url_path urljoin read_text urlopen parse_yaml fuel v base udt s = Ok (t, s') ->
    Means url_scheme url_path urljoin read_text urlopen parse_yaml (fun p => dget p udt) base v t.
  Proof. intros N. apply inline_means. exact N. Qed.
  (** imports and includes give way to what they name *)
  Theorem C64_imports_replaced fuel j base j' : schemes_have_no_slashes ->
    resolve_imports url_scheme url_path urljoin read_text urlopen parse_yaml fuel j base = Ok j' ->
    Replaced url_scheme url_path urljoin read_text urlopen parse_yaml base j j'.
  Proof. intros N. apply imports_Replaced. exact N. Qed.
  (** the whole *)
  Theorem C64_packed_meaning fuel path s d s' : schemes_have_no_slashes -> classes_are_texts parse_yaml ->
    pack url_scheme url_path urljoin read_text urlopen parse_yaml ver parse_version version_gt fuel path s = Ok (d, s') ->
    exists d0 url, Contents url_scheme url_path urljoin read_text urlopen parse_yaml path "" (JDict d0) url /\
      ((dget "$graph" d0 <> None /\ d = d0) \/
       (dget "$graph" d0 = None /\
        Packs url_scheme url_path urljoin read_text urlopen parse_yaml url (fun _ => None) d0 d)).
  Proof.
    intros N FT E. destruct (pack_inv _ _ _ _ _ _ _ _ _ _ _ _ _ _ E) as (d0 & url & L & H). exists d0, url. split; [eapply load_Contents; eauto|].
    destruct H as [(G & -> & _)|(G & v & V & P)]; [left; auto|right]. split; auto.
    destruct (pack_process_packs _ _ _ _ _ _ _ _ _ N FT _ _ _ _ _ _ _ _ (PackTreeProofs.load_TC _ _ _ _ _ _ FT _ _ _ _ _ L) ltac:(constructor) ltac:(constructor) P) as (d1 & X & PK).
    injection X as <-. exact PK.
  Qed.
End Meaning.
Print Assumptions C64_links_followed.
Print Assumptions C64_texts_followed.
Print Assumptions C64_types_written_out.
Print Assumptions C64_imports_replaced.
Print Assumptions C64_packed_meaning.

(** the hypotheses are met by the small file system of C21 *)
Example C64_example : schemes_have_no_slashes Demo.no_scheme /\ classes_are_texts Demo.parse' /\
  exists s, Demo.run "main.cwl" = Ok (demo_packed, s) /\ dget "$graph" demo_packed = None.
Proof. split; [discriminate|]. split; [apply Demo.texts|]. eexists. split; vm_compute; reflexivity. Qed.

(** ** types of the same name in two files, a link on GitHub, a record of another file's types *)
Module Files.
  Definition text (u : string) : result string :=
    if String.eqb u "http://g/link.yml" then Ok "a.yml" else
    if String.eqb u "http://g/a.yml" then Ok ("a" ++ String c_nl "")%string else Err FileNotFoundError.
  Definition scheme (u : string) : string := if startswith "http:" u then "http" else "".
  Definition join (b l : string) : string := if startswith "http:" b then ("http://g/" ++ l)%string else l.
  Definition parse (t : string) : result json :=
    if String.eqb t ("a" ++ String c_nl "")%string then Ok (JStr "contents") else Err FileNotFoundError.
  Definition table : list (string * json) :=
    [("a.yml#T", JDict [("name", JStr "T"); ("type", JStr "record"); ("fields", JDict [("x", JStr "b.yml#T?"); ("y", JStr "U[]")])]);
     ("a.yml#U", JDict [("name", JStr "U"); ("type", JStr "enum"); ("symbols", JList [JStr "u"])]);
     ("b.yml#T", JDict [("name", JStr "T"); ("type", JStr "enum"); ("symbols", JList [JStr "b"])])].
End Files.
Example C64_link_example : schemes_have_no_slashes Files.scheme /\
  load_linked_file Files.scheme (fun u => u) Files.join Files.text Files.text Files.parse 3 "http://g/main.cwl" "link.yml" true
    = Ok (JStr "contents", "http://g/a.yml").
Proof. split; [|vm_compute; reflexivity]. intros u. unfold Files.scheme. destruct (startswith "http:" u); discriminate. Qed.
Example C64_types_example : exists s, inline_type Demo.no_scheme (fun u => u) Demo.join Demo.text Demo.text Demo.parse 9
    (JStr "a.yml#T") "main.cwl" Files.table naming0 = Ok (JDict [("name", JStr "T"); ("type", JStr "record");
      ("fields", JList [
         JDict [("type", JList [JStr "null"; JDict [("name", JStr "T_5"); ("type", JStr "enum"); ("symbols", JList [JStr "b"])]]); ("name", JStr "x")];
         JDict [("type", JDict [("type", JStr "array"); ("items", JDict [("name", JStr "U"); ("type", JStr "enum"); ("symbols", JList [JStr "u"])])]); ("name", JStr "y")]])], s).
Proof. eexists. vm_compute. reflexivity. Qed.

(** a file of ports may not be a mapping: its keys are taken for types *)
Theorem C64_ports_mapping_refuted : exists us up uj rt uo py ver pv gt fuel path link url,
  schemes_have_no_slashes us /\
  Contents us up uj rt uo py path "" (JDict [("class", JStr "CommandLineTool"); ("cwlVersion", JStr "v1.0");
     ("inputs", JDict [("$import", JStr link)]); ("outputs", JList [])]) path /\
  Contents us up uj rt uo py path link (JDict [("x", JStr "string")]) url /\
  pack us up uj rt uo py ver pv gt fuel path naming0 = Err RuntimeError.
Proof.
  pose (main := JDict [("class", JStr "CommandLineTool"); ("cwlVersion", JStr "v1.0");
     ("inputs", JDict [("$import", JStr "ports.yml")]); ("outputs", JList [])]).
  pose (py := fun t => if String.eqb t "main.cwl" then Ok main else if String.eqb t "ports.yml" then Ok (JDict [("x", JStr "string")]) else Err FileNotFoundError).
  exists Demo.no_scheme, (fun u => u), Demo.join, Demo.text, Demo.text, py, nat, Demo.version, (fun a b => Nat.ltb b a), 30, "main.cwl", "ports.yml", "ports.yml".
  assert (N : schemes_have_no_slashes Demo.no_scheme) by discriminate.
  split; [exact N|].
  split; [apply C64_links_followed; [exact N|]; exists 1; vm_compute; reflexivity|].
  split; [apply C64_links_followed; [exact N|]; exists 1; vm_compute; reflexivity|]. vm_compute. reflexivity.
Qed.
Print Assumptions C64_ports_mapping_refuted.
