(** * Specification for C42: which engine is started *)
From Verif Require Import PyBase StartModel.
From Verif Require Import ParserSpec.
From Coq Require Import NArith.

(** A dotted version number, and a text that prints one: white space and letters "v" may surround
    it, as in "v4.2.6" and a line end. *)
Definition Dotted (s : string) (v : list N) : Prop := exists numerals,
  s = sjoin "." numerals /\ numerals <> [] /\ Forall numeral numerals /\ v = map value numerals.
Definition only (ok : ascii -> bool) (s : string) : Prop := sforall ok s = true.
Definition Prints_version (out : string) (v : list N) : Prop := exists w1 a s b w2,
  out = (w1 ++ a ++ s ++ b ++ w2)%string /\ only is_space w1 /\ only (Ascii.eqb "v") a /\ Dotted s v /\
  only (Ascii.eqb "v") b /\ only is_space w2.

(** ** In a world where running a program gives what it gives, whenever it is run *)
Section World.
Variable prints : command -> answer.
Variable starts : command -> start_answer.
(** the files that match a pattern, before and after an image has been pulled *)
Variable files : bool -> string -> list string.
Variable minimum : list N.
Variable js : string.

Definition fails (a : answer) : Prop := a = Exit_status \/ a = Not_found \/ a = Os_error.

(** There is no working Node.js of this name. *)
Definition missing (n : string) : Prop :=
  (exists s, prints [n; "--eval"; "process.stdout.write('t')"] = Printed s /\ s <> "t") \/
  fails (prints [n; "--eval"; "process.stdout.write('t')"]) \/
  prints [n; "--eval"; "process.stdout.write('t')"] = Printed "t" /\
    (starts [n; "--eval"; js] <> Up \/ starts [n; "--eval"; js] = Up /\ fails (prints [n; "-v"])).
(** There is one, and this is what it says its version is. *)
Definition says_version (n : string) (a : answer) : Prop :=
  prints [n; "--eval"; "process.stdout.write('t')"] = Printed "t" /\ starts [n; "--eval"; js] = Up /\
  prints [n; "-v"] = a.
Definition has_version (n : string) (v : list N) : Prop :=
  exists out, says_version n (Printed out) /\ Prints_version out v.
(** What it says cannot be understood. *)
Definition unreadable (n : string) : Prop :=
  prints [n; "--eval"; "process.stdout.write('t')"] = Undecodable \/ says_version n Undecodable \/
  exists out, says_version n (Printed out) /\ forall v, ~ Prints_version out v.

(** The first name of a working Node.js decides. *)
Inductive local := Use (n : string) | Too_old | Unreadable | None_found.
Inductive Local : list string -> local -> Prop :=
| Local_none : Local [] None_found
| Local_missing n ns r : missing n -> Local ns r -> Local (n :: ns) r
| Local_good n ns v : has_version n v -> at_least minimum v -> Local (n :: ns) (Use n)
| Local_old n ns v : has_version n v -> ~ at_least minimum v -> Local (n :: ns) Too_old
| Local_unreadable n ns : unreadable n -> Local (n :: ns) Unreadable.

(** ** Containers *)
Variable cache : option string.
Variable cwd : string.
Variable userns : bool.
Variable force : bool.
Variable engine : string.
(** whether an image is known to be there from an earlier start *)
Variable known : bool.

Definition default_image : string :=
  if String.eqb engine "singularity" then "docker://docker.io/node:alpine"
  else if String.eqb engine "podman" || String.eqb engine "udocker" then "docker.io/library/node:alpine"
  else "node:alpine".
Definition sif : string :=
  ((match cache with Some "" => cwd | Some c => c | None => cwd end) ++ "/node_alpine.sif")%string.
Definition pull (image : string) : command :=
  [engine; "pull"] ++ (if force then ["--force"] else []) ++ [image].

(** The program that lists the images, where there is one *)
Definition listing (c : command) : Prop :=
  (engine = "docker" \/ engine = "podman") /\ c = [engine; "images"; "-q"; default_image] \/
  engine = "udocker" /\ c = [engine; "images"].
(** The engine says that the image is there, or that it is not.  udocker's list is never understood
    to have it. *)
Inductive listed : string -> Prop :=
| listed_docker c s : engine <> "udocker" -> listing c -> prints c = Printed s -> has_char c_nl s = true ->
    listed default_image
| listed_file i more : engine = "singularity" -> files false sif = i :: more -> listed i.
Inductive unlisted : Prop :=
| unlisted_docker c s : engine <> "udocker" -> listing c -> prints c = Printed s -> has_char c_nl s = false -> unlisted
| unlisted_udocker c s : engine = "udocker" -> listing c -> prints c = Printed s -> unlisted
| unlisted_file : engine = "singularity" -> files false sif = [] -> unlisted.
Definition to_pull (i : string) : Prop := listed i /\ force = true \/ unlisted /\ i = default_image.
(** The file is not there before pulling, but it is there afterwards. *)
Definition appears : Prop :=
  engine = "singularity" /\ files false sif = [] /\ files true sif <> [].

(** The image that is used, or the answer of the program that failed *)
Inductive Image : string -> Prop :=
| Image_known : known = true -> Image default_image
| Image_present i : known = false -> listed i -> force = false -> Image i
| Image_pulled i s : known = false -> to_pull i -> prints (pull i) = Printed s -> Image i
| Image_appeared : known = false -> appears -> fails (prints (pull default_image)) -> Image default_image.
Inductive No_image : answer -> Prop :=
| No_image_list c a : known = false -> listing c -> prints c = a -> (forall s, a <> Printed s) -> No_image a
| No_image_pull i a : known = false -> to_pull i -> prints (pull i) = a -> (forall s, a <> Printed s) ->
    ~ (appears /\ fails a) -> No_image a.
Definition known_engine : Prop := engine = "docker" \/ engine = "podman" \/ engine = "singularity" \/ engine = "udocker".

(** The command that runs Node.js in a container with this image *)
Definition in_container (image : string) : command :=
  engine :: (if String.eqb engine "singularity" then ["exec"; "--contain"; "--ipc"; "--cleanenv"; if userns then "--userns" else "--pid"]
             else if String.eqb engine "udocker" then ["run"; "--device=/dev/stdin"; "--device=/dev/stdout"; "--device=/dev/stderr"]
             else ["run"; "--attach=STDIN"; "--attach=STDOUT"; "--attach=STDERR"; "--sig-proxy=true"; "--interactive"; "--rm"])
         ++ [image; "node"; "--eval"; js].

Inductive Container : option (command + error) -> Prop :=
| Container_up i : Image i -> starts (in_container i) = Up -> Container (Some (inl (in_container i)))
| Container_not_found i : Image i -> starts (in_container i) = Start_not_found -> Container None
| Container_os i : Image i -> starts (in_container i) = Start_os_error -> Container (Some (inr Os))
| Container_no_image a : No_image a -> a = Exit_status \/ a = Not_found -> Container None
| Container_no_image_os : No_image Os_error -> Container (Some (inr Os))
| Container_no_image_text : No_image Undecodable -> Container (Some (inr Value))
| Container_unknown : known = false -> ~ known_engine -> Container (Some (inr Unknown)).

(** ** The whole start: a good local Node.js is used, else a container is tried *)
Definition local_names := ["nodejs"; "node"].
Inductive Start : command + error -> Prop :=
| Start_local n : Local local_names (Use n) -> Start (inl [n; "--eval"; js])
| Start_unreadable : Local local_names Unreadable -> Start (inr Value)
| Start_container r : Local local_names Too_old \/ Local local_names None_found -> Container (Some r) -> Start r
| Start_nothing : Local local_names Too_old \/ Local local_names None_found -> Container None -> Start (inr Js).
End World.
