(** * Specification for C32-C35 and C53: loading, saving, reading contents, stream shortcuts *)
From Verif Require Import PyBase ParserModel.
From Coq Require Import NArith.

(** ** Loading *)
Definition supported (v : string) : Prop := v = "v1.0" \/ v = "v1.1" \/ v = "v1.2".

(** The document declares this supported version. *)
Definition Declares (d : list (string * json)) (v : string) : Prop :=
  dget "cwlVersion" d = Some (JStr v) /\ supported v.

(** The "id" [s] names the process [i]: any number of "#" may precede the name. *)
Inductive Names : string -> string -> Prop :=
| Names_plain i : (forall r, i <> String "#" r) -> Names i i
| Names_hash s i : Names s i -> Names (String "#" s) i.
Definition has_name (el : json) (i : string) : Prop :=
  exists e s, el = JDict e /\ dget "id" e = Some (JStr s) /\ Names s i.

(** [e] is the first element of the graph that has the name [i]. *)
Definition FirstNamed (els : list json) (i : string) (e : list (string * json)) : Prop :=
  exists pre post, els = pre ++ JDict e :: post /\ has_name (JDict e) i /\
    Forall (fun el => exists j, has_name el j /\ j <> i) pre.

(** ** Versions *)
Fixpoint value (s : string) : N :=
  match s with "" => 0 | String c s' => (N_of_ascii c - 48) * 10 ^ N.of_nat (String.length s') + value s' end%N.
Definition numeral (s : string) : Prop := s <> "" /\ sforall is_digit s = true.
(** "v1.2" is the version [1; 2]. *)
Definition IsVersion (v : json) (ns : list N) : Prop := exists numerals,
  v = JStr ("v" ++ sjoin "." numerals) /\ numerals <> [] /\ Forall numeral numerals /\ ns = map value numerals.
Fixpoint at_least (bound v : list N) : Prop :=
  match bound, v with
  | [], _ => True
  | _ :: _, [] => False
  | b :: bound, n :: v => (b < n)%N \/ b = n /\ at_least bound v
  end.

(** ** Stream shortcuts *)
Definition shortcut (name : string) (p : port) : Prop := po_type p = JStr name.

(** [o'] is the File output that captures the file [f]. *)
Definition Captures (o o' : port) (f : option string) : Prop :=
  exists name, f = Some name /\ o' = Port (po_id o) (JStr "File") (Some (JDict [("glob", JStr name)])).

(** The name of a port is what follows the last "#" and the last "/" of its id. *)
Definition PortName (id name : string) : Prop :=
  has_char "#" name = false /\ has_char "/" name = false /\
  (id = name \/ exists pre c, id = (pre ++ String c name)%string /\ (c = "#"%char \/ c = "/"%char)).

(** What a conversion may do to the outputs and redirections *)
Record OutputsConverted (t t' : tool) : Prop := {
  oc_ports : Forall2 (fun o o' =>
      (shortcut "stdout" o -> po_binding o = None /\ Captures o o' (t_stdout t')) /\
      (shortcut "stderr" o -> po_binding o = None /\ Captures o o' (t_stderr t')) /\
      (~ shortcut "stdout" o -> ~ shortcut "stderr" o -> o' = o)) (t_outputs t) (t_outputs t');
  oc_stdout : t_stdout t' = t_stdout t \/ t_stdout t = None /\ Exists (shortcut "stdout") (t_outputs t);
  oc_stderr : t_stderr t' = t_stderr t \/ t_stderr t = None /\ Exists (shortcut "stderr") (t_outputs t);
  oc_rest : t_rest t' = t_rest t }.

Inductive InputsConverted (t t' : tool) : Prop :=
| Inputs_same : Forall (fun i => ~ shortcut "stdin" i) (t_inputs t) -> t_inputs t' = t_inputs t -> t_stdin t' = t_stdin t ->
    InputsConverted t t'
| Inputs_stdin pre i post name : t_inputs t = pre ++ i :: post -> shortcut "stdin" i -> po_binding i = None -> t_stdin t = None ->
    Forall (fun i => ~ shortcut "stdin" i) (pre ++ post) ->
    t_inputs t' = pre ++ Port (po_id i) (JStr "File") None :: post ->
    PortName (po_id i) name -> t_stdin t' = Some ("$(inputs." ++ name ++ ".path)")%string ->
    InputsConverted t t'.

(** Why a conversion is refused *)
Definition bad_output (t : tool) : Prop :=
  Exists (fun o => (shortcut "stdout" o \/ shortcut "stderr" o) /\ po_binding o <> None) (t_outputs t).
Definition bad_input (t : tool) : Prop :=
  Exists (fun i => shortcut "stdin" i /\ (po_binding i <> None \/ t_stdin t <> None)) (t_inputs t) \/
  exists a i b j c, t_inputs t = a ++ i :: b ++ j :: c /\ shortcut "stdin" i /\ shortcut "stdin" j.

(** ** Paths *)

(** Neither control characters nor characters that mean something in a URI *)
Definition plain_char (c : ascii) : bool :=
  (32 <=? nat_of_ascii c) && negb (smem (String c "") [":"; "?"; "#"; ";"; "%"; "+"]).
Definition plain_path (p : string) : Prop :=
  sforall plain_char p = true /\ startswith "//" p = false /\ startswith " " p = false.

(** Percent-encoding of all but letters, digits and _ . - ~ / (RFC 3986), as [Path.as_uri] does *)
Definition unreserved (c : ascii) : bool :=
  is_upper c || is_lower c || is_digit c || smem (String c "") ["_"; "."; "-"; "~"; "/"].
Definition hex_digit (n : nat) : ascii := ascii_of_nat (if n <? 10 then 48 + n else 55 + n).
Fixpoint quote (s : string) : string :=
  match s with
  | "" => ""
  | String c s' =>
      if unreserved c then String c (quote s')
      else String "%" (String (hex_digit (nat_of_ascii c / 16)) (String (hex_digit (nat_of_ascii c mod 16)) (quote s')))
  end.
