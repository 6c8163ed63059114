(** * Specification for C54, C71 and C72: addresses, references and directives *)
From Verif Require Import PyBase ParserModel LoaderModel LoaderSpec.

(** ** Addresses: scheme, host, path, query and fragment *)
Record address := Address { a_scheme : string; a_host : string; a_path : string; a_query : string; a_fragment : string }.
Definition part_of (mark s : string) : string := if String.eqb s "" then "" else (mark ++ s)%string.
Definition text_of (a : address) : string :=
  (a_scheme a ++ "://" ++ a_host a ++ a_path a ++ part_of "?" (a_query a) ++ part_of "#" (a_fragment a))%string.
(** No control characters, no blanks, and none of the given characters *)
Definition without (cs : list string) (s : string) : Prop :=
  sforall (fun c => (32 <? nat_of_ascii c) && negb (smem (String c "") cs)) s = true.
Definition scheme_name (s : string) : Prop :=
  exists c r, s = String c r /\ is_lower c = true /\ sforall (fun c => is_lower c || is_digit c || Ascii.eqb c "+" || Ascii.eqb c "-" || Ascii.eqb c ".") r = true.
Definition proper (a : address) : Prop :=
  scheme_name (a_scheme a) /\ without ["/"; "?"; "#"; "["; "]"] (a_host a) /\ (a_host a <> "" \/ a_scheme a = "file") /\
  (a_path a = "" \/ startswith "/" (a_path a) = true) /\ startswith "//" (a_path a) = false /\ without ["?"; "#"] (a_path a) /\
  without ["#"] (a_query a) /\ without [] (a_fragment a).
(** The address of a part of the same document *)
Definition at_part (f : string) (a : address) : address := Address (a_scheme a) (a_host a) (a_path a) (a_query a) f.
(** The same with "/" for a missing path *)
Definition rooted (a : address) : address :=
  Address (a_scheme a) (a_host a) (if String.eqb (a_path a) "" then "/" else a_path a) (a_query a) (a_fragment a).

(** ** The settings within a record or a mapping that has its own *)
Definition within (c : option string) (n : option bool) (o : options) : options :=
  {| container := match c with Some x => Some x | None => container o end;
     no_link_check := match n with Some x => x | None => no_link_check o end;
     fileuri := fileuri o; vocab := vocab o; rvocab := rvocab o |}.
(** ... and within another file *)
Definition in_file (u : string) (o : options) : options :=
  {| container := container o; no_link_check := no_link_check o; fileuri := Some u; vocab := vocab o; rvocab := rvocab o |}.

(** ** Documents *)
(** The prefixes of a document *)
Definition Prefix (d : list (string * json)) (pre v : string) : Prop :=
  exists ns, dget "$namespaces" d = Some (JDict ns) /\ In (pre, JStr v) ns.
(** [o'] is [o] with the prefixes of the document [d] *)
Definition Named (d : list (string * json)) (o o' : options) : Prop :=
  container o' = container o /\ no_link_check o' = no_link_check o /\ fileuri o' = fileuri o /\
  (forall pre v, Prefix d pre v -> dget pre (vocab o') = Some v) /\
  (forall pre, (forall v, ~ Prefix d pre v) -> dget pre (vocab o') = dget pre (vocab o)) /\
  (forall pre v, Prefix d pre v -> exists pre', Prefix d pre' v /\ dget v (rvocab o') = Some pre') /\
  (forall v, (forall pre, ~ Prefix d pre v) -> dget v (rvocab o') = dget v (rvocab o)).
(** A mapping of prefixes has each of them once *)
Definition distinct_prefixes (d : list (string * json)) : Prop :=
  forall ns, dget "$namespaces" d = Some (JDict ns) -> NoDup (dkeys ns).
Definition Base (d : list (string * json)) (b b' : string) : Prop :=
  dget "$base" d = Some (JStr b') \/ dget "$base" d = None /\ b' = b.
(** What is left without the entries about the document itself *)
Definition contents (d : list (string * json)) : list (string * json) :=
  filter (fun kv => negb (smem (fst kv) ["$base"; "$namespaces"; "$schemas"])) d.

Section Loading.
Variables (urljoin : string -> string -> result string) (supported_schemes : list string) (check_exists : string -> result bool)
  (fetch_text : string -> result string) (read_yaml : string -> result json) (uuid : json -> string)
  (classes : string -> option class) (proxies : string -> option loader).
(** [LoadsDocument l d base o r]: loading a whole document *)
Definition LoadsDocument (l : loader) (d : json) (base : string) (o : options) (r : result lv) : Prop :=
  r <> Err OutOfFuel /\ exists fuel, document_load urljoin supported_schemes check_exists fetch_text read_yaml uuid classes proxies fuel l d base o = r.
(** [File url d]: the file holds the document [d] *)
Definition File (url : string) (d : json) : Prop := exists text, fetch_text url = Ok text /\ read_yaml text = Ok d.
(** What is known about the target of a reference: it is not missing *)
Definition NotMissing (u : string) : Prop := check_exists u = Ok true \/ check_exists u = Err ValidationException.
End Loading.
