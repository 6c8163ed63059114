(** * Model of src/cwl_utils/parser/__init__.py (loading and saving) and of the reading limit and
      stream shortcuts of parser/cwl_v1_{0,1,2}_utils.py *)
From Verif Require Import PyBase.
From Coq Require Import NArith.

(** ** parser/__init__.py, loading *)

(** [for el in yaml["$graph"]]: the elements of a list; the keys of a mapping; characters of a text *)
Definition graph_items (j : json) : result (list json) :=
  match j with
  | JList l => Ok l
  | JDict d => Ok (map (fun k => JStr k) (dkeys d))
  | JStr s => Ok (map (fun c => JStr (String c "")) (list_ascii_of_string s))
  | _ => Err TypeError
  end.

(** [el["id"].lstrip("#")] (line 298) *)
Definition graph_id (el : json) : result string :=
  match el with
  | JDict d =>
      match dget "id" d with
      | None => Err KeyError
      | Some (JStr s) => Ok (lstrip_char "#" s)
      | Some _ => Err AttributeError
      end
  | _ => Err TypeError
  end.

(** parser/__init__.py:297-299: the loop of _get_id_from_graph *)
Fixpoint find_id (wanted : string) (els : list json) : result json :=
  match els with
  | [] => Err GraphTargetMissingException
  | el :: els => do i <- graph_id el; if String.eqb i wanted then Ok el else find_id wanted els
  end.

(** lines 294-303; building the message of the exception cannot fail *)
Definition get_id_from_graph (yaml : list (string * json)) (id : option string) : result json :=
  match dget "$graph" yaml with
  | None => Err KeyError
  | Some g => do els <- graph_items g; find_id (match id with Some i => i | None => "main" end) els
  end.

(** lines 306-318 *)
Definition cwl_version (yaml : json) : result (option json) :=
  match yaml with
  | JDict d => Ok (dget "cwlVersion" d)
  | _ => Err ValidationException
  end.

Section Load.
(** Loaded objects; the three generated parsers; whether a class has a field "cwlVersion"
    (line 409), and assigning it (line 410) *)
Variable obj : Type.
Inductive loaded := One (o : obj) | Many (l : list obj).
Variable parse : string -> json -> result loaded.
Variable has_version : obj -> bool.
Variable set_version : string -> obj -> obj.

(** lines 380-413.  [uri] and the loading options only go to the parsers. *)
Definition load_document_by_yaml (yaml : json) (id : option string) (load_all : bool) : result loaded :=
  do version <- cwl_version yaml;
  match yaml with
  | JDict d =>
      do y <- (if dmem "$graph" d && negb load_all then
                 do el <- get_id_from_graph d id;
                 match el with
                 | JDict e => Ok (JDict (dset "cwlVersion" (match version with Some v => v | None => JNull end) e))
                 | _ => Err TypeError
                 end
               else Ok yaml);
      do v <- (match version with
               | Some (JStr "v1.0") => Ok "v1.0"
               | Some (JStr "v1.1") => Ok "v1.1"
               | Some (JStr "v1.2") => Ok "v1.2"
               | _ => Err ValidationException
               end);
      do r <- parse v y;
      match r with
      | Many l => Ok (Many (map (fun o => if has_version o then set_version v o else o) l))
      | One o => Ok (One o)
      end
  | _ => Err ValidationException
  end.

(** [yaml_no_ts().load(text)] *)
Variable read_yaml : string -> result json.

(** lines 368-377 *)
Definition load_document_by_string (text : string) (id : option string) (load_all : bool) : result loaded :=
  do y <- read_yaml text; load_document_by_yaml y id load_all.

(** lines 353-365: a text or a YAML value; note the missing [load_all] in line 364 *)
Definition load_document (doc : json) (id : option string) (load_all : bool) : result loaded :=
  match doc with
  | JStr text => load_document_by_string text id false
  | _ => load_document_by_yaml doc id load_all
  end.

(** ** Reading by path or URI *)
Record uri := Uri { u_scheme : string; u_path : string; u_fragment : string }.
Definition is_alpha (c : ascii) : bool := is_upper c || is_lower c.
Definition is_scheme_char (c : ascii) : bool := is_alpha c || is_digit c || Ascii.eqb c "+" || Ascii.eqb c "-" || Ascii.eqb c ".".

(** The text before the first [c] and the text after it *)
Fixpoint cut (c : ascii) (s : string) : option (string * string) :=
  match s with
  | "" => None
  | String d s' => if Ascii.eqb d c then Some ("", s')
                   else match cut c s' with Some (a, b) => Some (String d a, b) | None => None end
  end.
Definition before (c : ascii) (s : string) : string := match cut c s with Some (a, _) => a | None => s end.
Definition after (c : ascii) (s : string) : string := match cut c s with Some (_, b) => b | None => "" end.

(** [urllib.parse._splitnetloc(url, 2)], after the two slashes: up to the first of / ? # *)
Fixpoint drop_netloc (s : string) : string :=
  match s with
  | "" => ""
  | String c s' => if Ascii.eqb c "/" || Ascii.eqb c "?" || Ascii.eqb c "#" then s else drop_netloc s'
  end.

(** [urllib.parse._splitparams(url)[0]]: drops what follows a semicolon in the last segment *)
Fixpoint drop_params (s : string) : string :=
  match s with
  | "" => ""
  | String c s' =>
      if has_char "/" s' then String c (drop_params s')
      else if Ascii.eqb c "/" then String c (before ";" s')
      else before ";" s
  end.

(** The schemes in [urllib.parse.uses_params] *)
Definition uses_params : list string :=
  [""; "ftp"; "hdl"; "prospero"; "http"; "https"; "shttp"; "rtsp"; "rtspu"; "sip"; "sips"; "mms"; "sftp"; "tel"].

(** [url.lstrip(_WHATWG_C0_CONTROL_OR_SPACE)] and the removal of tabs and line ends, the first
    steps of [urllib.parse.urlsplit] *)
Fixpoint lstrip_control (s : string) : string :=
  match s with
  | "" => ""
  | String c s' => if nat_of_ascii c <=? 32 then lstrip_control s' else s
  end.
Definition is_unsafe (c : ascii) : bool := Ascii.eqb c "009" || Ascii.eqb c "010" || Ascii.eqb c "013".
Fixpoint remove_unsafe (s : string) : string :=
  match s with
  | "" => ""
  | String c s' => if is_unsafe c then remove_unsafe s' else String c (remove_unsafe s')
  end.

(** [urllib.parse.urlparse] (line 328); the checks of the host name, which may raise, are left out *)
Definition urlparse (s : string) : uri :=
  let s := remove_unsafe (lstrip_control s) in
  let '(scheme, rest) :=
    match cut ":" s with
    | Some (String c a, b) => if is_alpha c && sforall is_scheme_char a then (smap lower_char (String c a), b) else ("", s)
    | _ => ("", s)
    end in
  let rest := match rest with
              | String "/" (String "/" r) => drop_netloc r
              | _ => rest
              end in
  let fragment := after "#" rest in
  let path := before "?" (before "#" rest) in
  let path := if smem scheme uses_params then drop_params path else path in
  Uri scheme path fragment.

(** [urllib.parse.unquote_plus] (line 331); bytes that are not UTF-8 after decoding are kept *)
Definition hex_value (c : ascii) : option nat :=
  let n := nat_of_ascii c in
  if is_digit c then Some (n - 48)
  else if (65 <=? n) && (n <=? 70) then Some (n - 55)
  else if (97 <=? n) && (n <=? 102) then Some (n - 87)
  else None.
Fixpoint unquote (s : string) : string :=
  match s with
  | "" => ""
  | String c s' =>
      match c, s' with
      | "%"%char, String a (String b r) =>
          match hex_value a, hex_value b with
          | Some x, Some y => String (ascii_of_nat (16 * x + y)) (unquote r)
          | _, _ => String c (unquote s')
          end
      | _, _ => String c (unquote s')
      end
  end.
Definition unquote_plus (s : string) : string := unquote (replace_char "+" " " s).

(** Reading the text of the file at a path, and of a remote URI (line 346) *)
Variable read_file : string -> result string.
Variable fetch : string -> result string.

(** lines 321-350, for a text.  [fetch_text] of [Path(p).resolve().as_uri()] reads the file [p]:
    [as_uri] quotes every special character of the path. *)
Definition load_document_by_uri (path : string) (load_all : bool) : result loaded :=
  let u := urlparse path in
  let id := if String.eqb (u_fragment u) "" then None else Some (u_fragment u) in
  do text <- (if String.eqb (u_scheme u) "" || String.eqb (u_scheme u) "file"
              then read_file (unquote_plus (u_path u)) else fetch path);
  load_document_by_string text id load_all.

(** lines 335-338, for a [Path], given resolved: [as_uri] also quotes "#", so the text read is that
    of the file with the whole name *)
Definition load_document_by_path (path : string) (load_all : bool) : result loaded :=
  let name := List.last (split_char "/" path) "" in
  do text <- read_file path;
  load_document_by_string text (nth_error (split_char "#" name) 1) load_all.
End Load.
Arguments One {obj} o.
Arguments Many {obj} l.

(** ** parser/__init__.py, saving *)

(** [int(v)] (line 457); white space, signs and underscores, which [int] also accepts, do not
    occur in versions *)
Definition digit (c : ascii) : N := (N_of_ascii c - 48)%N.
Fixpoint int_acc (acc : N) (s : string) : N :=
  match s with "" => acc | String c s' => int_acc (10 * acc + digit c)%N s' end.
Definition int_of (s : string) : result N :=
  if String.eqb s "" || negb (sforall is_digit s) then Err ValueError else Ok (int_acc 0 s).

(** lines 455-457 *)
Definition version_split (v : json) : result (list N) :=
  match v with JStr s => mapM int_of (split_char "." (sdrop 1 s)) | _ => Err TypeError end.

(** [a < b] for lists of integers *)
Fixpoint list_lt (a b : list N) : bool :=
  match a, b with
  | [], [] => false
  | [], _ => true
  | _, [] => false
  | x :: a, y :: b => if N.ltb x y then true else if N.ltb y x then false else list_lt a b
  end.

(** [max(..., key=version_split)]: the first of the largest *)
Fixpoint max_from (best : json) (key : list N) (vs : list json) : result json :=
  match vs with
  | [] => Ok best
  | v :: vs => do k <- version_split v; if list_lt key k then max_from v k vs else max_from best key vs
  end.
Definition max_version (vs : list json) : result json :=
  match vs with
  | [] => Err ValueError
  | v :: vs => do k <- version_split v; max_from v k vs
  end.

(** An object to save: a process or another object, with what its [save] method returns *)
Inductive value :=
| Obj (is_process : bool) (saved : json)
| Seq (l : list value)
| Map (d : list (string * value))
| Plain (j : json).

(** [e.get("cwlVersion")] of each saved process (line 434), without the None *)
Fixpoint versions (l : list json) : result (list json) :=
  match l with
  | [] => Ok []
  | JDict e :: l =>
      do vs <- versions l;
      match dget "cwlVersion" e with Some JNull | None => Ok vs | Some v => Ok (v :: vs) end
  | _ :: _ => Err AttributeError
  end.
Definition is_process (v : value) : bool := match v with Obj b _ => b | _ => false end.

(** lines 416-447.  [top] of a mapping's values is off (line 444); a list passes it on. *)
Fixpoint save (top : bool) (v : value) : result json :=
  match v with
  | Obj _ j => Ok j
  | Seq l =>
      do lst <- (fix go (l : list value) : result (list json) :=
                   match l with [] => Ok [] | v :: l => do j <- save top v; do js <- go l; Ok (j :: js) end) l;
      if top && forallb is_process l then
        do vs <- versions lst;
        do latest <- max_version vs;
        Ok (JDict [("cwlVersion", latest); ("$graph", JList lst)])
      else Ok (JList lst)
  | Map d =>
      do nd <- (fix go (d : list (string * value)) : result (list (string * json)) :=
                  match d with [] => Ok [] | (k, v) :: d => do j <- save false v; do js <- go d; Ok ((k, j) :: js) end) d;
      Ok (JDict nd)
  | Plain j => Ok j
  end.

(** ** Reading file contents *)

(** [CONTENT_LIMIT] (cwl_v1_2_utils.py line 23, the same in v1.0 and v1.1) *)
Definition CONTENT_LIMIT : N := (64 * 1024)%N.

(** [f.read(n)] of a file opened in binary mode, with the given bytes left *)
Definition read_bytes (contents : string) (n : N) : string := stake (N.to_nat n) contents.

(** cwl_v1_2_utils.py lines 247-258 *)
Definition content_limit_respected_read_bytes_v1_2 (f : string) : result string :=
  let contents := read_bytes f (CONTENT_LIMIT + 1) in
  if N.ltb CONTENT_LIMIT (N.of_nat (String.length contents)) then Err WorkflowException else Ok contents.

(** cwl_v1_0_utils.py lines 158-164; cwl_v1_1_utils.py lines 224-230 *)
Definition content_limit_respected_read_bytes_v1_0 (f : string) : result string := Ok (read_bytes f CONTENT_LIMIT).

(** [bytes.decode("utf-8")]: the bytes must be well-formed UTF-8 *)
Definition between (a b : nat) (c : ascii) : bool := (a <=? nat_of_ascii c) && (nat_of_ascii c <=? b).
Fixpoint utf8 (s : string) : bool :=
  match s with
  | "" => true
  | String c s1 =>
      if between 0 127 c then utf8 s1 else
      match s1 with
      | "" => false
      | String d s2 =>
          if between 194 223 c && between 128 191 d then utf8 s2 else
          match s2 with
          | "" => false
          | String e s3 =>
              if (between 224 224 c && between 160 191 d || between 225 236 c && between 128 191 d
                  || between 237 237 c && between 128 159 d || between 238 239 c && between 128 191 d) && between 128 191 e
              then utf8 s3 else
              match s3 with
              | "" => false
              | String g s4 =>
                  if (between 240 240 c && between 144 191 d || between 241 243 c && between 128 191 d
                      || between 244 244 c && between 128 143 d) && between 128 191 e && between 128 191 g
                  then utf8 s4 else false
              end
          end
      end
  end.
Definition decode (s : string) : result string := if utf8 s then Ok s else Err ValueError.

(** cwl_v1_2_utils.py lines 261-267; cwl_v1_0_utils.py lines 167-173, the same in v1.1 *)
Definition content_limit_respected_read_v1_2 (f : string) : result string :=
  do b <- content_limit_respected_read_bytes_v1_2 f; decode b.
Definition content_limit_respected_read_v1_0 (f : string) : result string :=
  do b <- content_limit_respected_read_bytes_v1_0 f; decode b.

(** ** Standard streams *)

(** A port of a command line tool: "outputBinding" of outputs, "inputBinding" of inputs *)
Record port := Port { po_id : string; po_type : json; po_binding : option json }.
Record tool := Tool {
  t_inputs : list port; t_outputs : list port;
  t_stdin : option string; t_stdout : option string; t_stderr : option string;
  t_rest : json }.
Definition set_outputs (l : list port) (t : tool) := Tool (t_inputs t) l (t_stdin t) (t_stdout t) (t_stderr t) (t_rest t).
Definition set_inputs (l : list port) (t : tool) := Tool l (t_outputs t) (t_stdin t) (t_stdout t) (t_stderr t) (t_rest t).
Definition set_stdin (s : string) (t : tool) := Tool (t_inputs t) (t_outputs t) (Some s) (t_stdout t) (t_stderr t) (t_rest t).
Definition set_stdout (s : string) (t : tool) := Tool (t_inputs t) (t_outputs t) (t_stdin t) (Some s) (t_stderr t) (t_rest t).
Definition set_stderr (s : string) (t : tool) := Tool (t_inputs t) (t_outputs t) (t_stdin t) (t_stdout t) (Some s) (t_rest t).

(** [cwl.CommandOutputBinding(glob=...)] *)
Definition glob_binding (s : string) : json := JDict [("glob", JStr s)].
Definition is_type (name : string) (p : port) : bool := match po_type p with JStr s => String.eqb s name | _ => false end.

Section Streams.
(** The SHA-1 of the saved tool, in hexadecimal *)
Variable digest : tool -> string.

(** cwl_v1_2_utils.py lines 272-294, the same in v1.0 (lines 178-200) and v1.1 (lines 244-266):
    [seen] are the outputs already passed; the tool is changed in place. *)
Fixpoint convert_outputs (t : tool) (seen todo : list port) : result tool :=
  match todo with
  | [] => Ok t
  | out :: todo =>
      if is_type "stdout" out then
        match po_binding out with
        | Some _ => Err ValidationException
        | None =>
            let t := match t_stdout t with Some _ => t | None => set_stdout (digest t) t end in
            let out' := Port (po_id out) (JStr "File") (option_map glob_binding (t_stdout t)) in
            convert_outputs (set_outputs (seen ++ out' :: todo) t) (seen ++ [out']) todo
        end
      else if is_type "stderr" out then
        match po_binding out with
        | Some _ => Err ValidationException
        | None =>
            let t := match t_stderr t with Some _ => t | None => set_stderr (digest t) t end in
            let out' := Port (po_id out) (JStr "File") (option_map glob_binding (t_stderr t)) in
            convert_outputs (set_outputs (seen ++ out' :: todo) t) (seen ++ [out']) todo
        end
      else convert_outputs t (seen ++ [out]) todo
  end.

(** [s.rpartition("#")[2].split("/")[-1]] (lines 307-309) *)
Definition short (s : string) : string := List.last (split_char "/" (List.last (split_char "#" s) "")) "".

(** cwl_v1_2_utils.py lines 295-310, the same in v1.1 (lines 267-282) *)
Fixpoint convert_inputs (t : tool) (seen todo : list port) : result tool :=
  match todo with
  | [] => Ok t
  | inp :: todo =>
      if is_type "stdin" inp then
        match po_binding inp with
        | Some _ => Err ValidationException
        | None =>
            match t_stdin t with
            | Some _ => Err ValidationException
            | None =>
                let t := set_stdin ("$(inputs." ++ short (po_id inp) ++ ".path)")%string t in
                let inp' := Port (po_id inp) (JStr "File") None in
                convert_inputs (set_inputs (seen ++ inp' :: todo) t) (seen ++ [inp']) todo
            end
        end
      else convert_inputs t (seen ++ [inp]) todo
  end.

(** parser/utils.py lines 146-155: by the class of the tool *)
Definition convert_stdstreams_v1_0 (t : tool) : result tool := convert_outputs t [] (t_outputs t).
Definition convert_stdstreams_v1_1 (t : tool) : result tool :=
  do t <- convert_outputs t [] (t_outputs t); convert_inputs t [] (t_inputs t).
Definition convert_stdstreams_v1_2 (t : tool) : result tool :=
  do t <- convert_outputs t [] (t_outputs t); convert_inputs t [] (t_inputs t).
End Streams.
