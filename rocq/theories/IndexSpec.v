(** * Specification: what is expected of the index of loaded documents

    A loading is a history of events, the newest first: a value written under an address, a file
    opened for an address, the answer to a question for an address. *)
From Verif Require Import PyBase ParserModel LoaderModel IndexModel.

(** [e] happened after all of [earlier] *)
Definition happened (L : log) (e : event) (earlier : log) : Prop := exists later, L = later ++ e :: earlier.

(** Whoever asks for an address after something was written under it, gets that *)
Definition settled (L : log) : Prop :=
  forall url r earlier v, happened L (Asked url r) earlier -> In (Wrote url v) earlier -> r = Ok v.

(** No file is opened for an address under which something is written already *)
Definition opened_for_new (L : log) : Prop :=
  forall url earlier v, happened L (Opened url) earlier -> ~ In (Wrote url v) earlier.

(** [v] is what was written last under an address *)
Definition latest (L : log) (url : string) (v : lv) : Prop :=
  exists newer older, L = newer ++ Wrote url v :: older /\ forall w, ~ In (Wrote url w) newer.
(** Whoever asks and gets something gets what was written last *)
Definition answers_latest (L : log) : Prop :=
  forall url v earlier, happened L (Asked url (Ok v)) earlier -> latest earlier url v.

(** No file is opened, no address asked for *)
Definition alone (L : log) : Prop := forall e, In e L -> exists key v, e = Wrote key v.

(** An object whose first field, its identifier, is the address *)
Definition named (url : string) (v : lv) : Prop := exists cls field fields ext, v = VObj cls ((field, VStr url) :: fields) ext.

(** The addresses of whole documents: that of the first document, those of files and the [$base]s *)
Definition base_of (doc : json) (base : string) : string :=
  match doc with JDict d => match dget "$base" d with Some (JStr b) => b | _ => base end | _ => base end.
Definition document_address (fetch_text : string -> result string) (read_yaml : string -> result json) (doc : json) (base : string) (url : string) : Prop :=
  url = base \/ url = base_of doc base \/
  exists file text d, fetch_text file = Ok text /\ read_yaml text = Ok d /\ (url = file \/ url = base_of d file).
