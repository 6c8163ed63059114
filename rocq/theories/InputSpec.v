(** * Specification for C75: what the values of an input file are *)
From Verif Require Import PyBase LoaderModel LoaderSpec AddressSpec.

(** ** The fields of files and directories *)
Inductive kind := KAddress | KText | KNumber | KFiles | KFormat.
Definition file_fields : list (string * kind) :=
  [("location", KAddress); ("path", KAddress); ("basename", KText); ("dirname", KText); ("nameroot", KText); ("nameext", KText);
   ("checksum", KText); ("size", KNumber); ("secondaryFiles", KFiles); ("format", KFormat); ("contents", KText)].
Definition directory_fields : list (string * kind) :=
  [("location", KAddress); ("path", KAddress); ("basename", KText); ("listing", KFiles)].
Definition described : list (string * list (string * kind)) := [("File", file_fields); ("Directory", directory_fields)].

Section Values.
Variable urljoin : string -> string -> result string.
(** The schemes of addresses that are complete *)
Variable schemes : list string.
(** The address of the input file *)
Variable uri : string.

(** An address in full stands for itself *)
Definition Complete (s : string) : Prop := exists a, proper a /\ In (a_scheme a) schemes /\ s = text_of a.
(** ... and a relative one is relative to the input file *)
Definition Located (s t : string) : Prop := Complete s /\ t = s \/ name s /\ urljoin uri s = Ok t.

(** [Value j v]: the value [v] is what [j] says *)
Inductive Value : json -> lv -> Prop :=
| Value_null : Value JNull VNull
| Value_bool b : Value (JBool b) (VBool b)
| Value_int z : Value (JInt z) (VInt z)
| Value_float s : Value (JFloat s) (VFloat s)
| Value_text s : Value (JStr s) (VStr s)
| Value_list ds vs : Forall2 Value ds vs -> NoDup (ids ds) -> Value (JList ds) (VSeq vs)
| Value_record d e : (forall k, In k ["class"; "$import"; "$include"] -> ~ In k (dkeys d)) ->
    Forall2 (fun kv kv' => fst kv' = fst kv /\ Value (snd kv) (snd kv')) d e -> Value (JDict d) (VMap e)
| Value_file c fields d e : In (c, fields) described -> dget "class" d = Some (JStr c) ->
    (forall k, In k (dkeys d) -> k = "class" \/ In k (map fst fields)) ->
    Forall2 (fun f kv => fst kv = fst f /\ Part (snd f) (dget (fst f) d) (snd kv)) fields e ->
    Value (JDict d) (VObj c (("class", VStr c) :: e) [])
with Part : kind -> option json -> lv -> Prop :=
| Part_absent k : Part k None VNull
| Part_null k : Part k (Some JNull) VNull
| Part_address s t : Located s t -> Part KAddress (Some (JStr s)) (VStr t)
| Part_text s : Part KText (Some (JStr s)) (VStr s)
| Part_number z : Part KNumber (Some (JInt z)) (VInt z)
| Part_format s : Complete s -> Part KFormat (Some (JStr s)) (VStr s)
| Part_files ds vs : Forall2 Value ds vs -> Forall (fun v => exists c fs, v = VObj c fs []) vs -> Part KFiles (Some (JList ds)) (VSeq vs).
(** The input file as a whole *)
Definition Inputs (d : list (string * json)) (e : list (string * lv)) : Prop :=
  Forall2 (fun kv kv' => fst kv' = fst kv /\ Value (snd kv) (snd kv')) d e.
End Values.

(** Values without any description of files *)
Inductive Plain : json -> Prop :=
| Plain_null : Plain JNull
| Plain_bool b : Plain (JBool b)
| Plain_int z : Plain (JInt z)
| Plain_float s : Plain (JFloat s)
| Plain_text s : Plain (JStr s)
| Plain_list ds : Forall Plain ds -> NoDup (ids ds) -> Plain (JList ds)
| Plain_record d : (forall k, In k ["class"; "$import"; "$include"] -> ~ In k (dkeys d)) -> Forall (fun kv => Plain (snd kv)) d -> Plain (JDict d).
