(** * Model of the loaders of src/cwl_utils/parser/cwl_v1_2.py (lines 54-853) and of the generated
      [fromDoc] methods.  The same code, line by line, stands in cwl_v1_0.py and cwl_v1_1.py.
      Error messages and source lines are left out: a failed load is [ValidationException]. *)
From Verif Require Import PyBase ParserModel.
From Coq Require Import NArith.

(** ** urllib.parse *)
Record split_url := SplitUrl { s_scheme : string; s_netloc : string; s_path : string; s_query : string; s_fragment : string }.
Fixpoint take_netloc (s : string) : string :=
  match s with
  | "" => ""
  | String c s' => if Ascii.eqb c "/" || Ascii.eqb c "?" || Ascii.eqb c "#" then "" else String c (take_netloc s')
  end.

(** [urllib.parse.urlsplit]; the checks of the host name, which may raise, are left out *)
Definition urlsplit (s : string) : split_url :=
  let s := remove_unsafe (lstrip_control s) in
  let '(scheme, rest) :=
    match cut ":" s with
    | Some (String c a, b) => if is_alpha c && sforall is_scheme_char a then (smap lower_char (String c a), b) else ("", s)
    | _ => ("", s)
    end in
  let '(netloc, rest) := match rest with
                         | String "/" (String "/" r) => (take_netloc r, drop_netloc r)
                         | _ => ("", rest)
                         end in
  let fragment := after "#" rest in
  let rest := before "#" rest in
  SplitUrl scheme netloc (before "?" rest) (after "?" rest) fragment.

(** The schemes in [urllib.parse.uses_netloc] *)
Definition uses_netloc : list string :=
  [""; "ftp"; "http"; "gopher"; "nntp"; "telnet"; "imap"; "wais"; "file"; "mms"; "https"; "shttp"; "snews"; "prospero";
   "rtsp"; "rtsps"; "rtspu"; "rsync"; "svn"; "svn+ssh"; "sftp"; "nfs"; "git"; "git+ssh"; "ws"; "wss"; "itms-services"].

(** [urllib.parse.urlunsplit] *)
Definition urlunsplit (u : split_url) : string :=
  let url := s_path u in
  let url := if negb (String.eqb (s_netloc u) "")
                || negb (String.eqb (s_scheme u) "") && smem (s_scheme u) uses_netloc && negb (startswith "//" url)
             then ("//" ++ s_netloc u ++ (if negb (String.eqb url "") && negb (startswith "/" url) then "/" ++ url else url))%string
             else url in
  let url := if String.eqb (s_scheme u) "" then url else (s_scheme u ++ ":" ++ url)%string in
  let url := if String.eqb (s_query u) "" then url else (url ++ "?" ++ s_query u)%string in
  if String.eqb (s_fragment u) "" then url else (url ++ "#" ++ s_fragment u)%string.

(** ** Loaders and what they yield *)
Inductive prim := PNull | PBool | PInt | PFloat | PStr.
Inductive loader :=
| LAny
| LPrim (tp : prim)
| LEnum (symbols : list string)
| LExpression
| LArray (items : loader)
| LMap (values : loader) (container : option string) (no_link_check : option bool)
| LSecondary (inner : loader)
| LRecord (cls : string) (container : option string) (no_link_check : option bool)
| LUnion (alternates : list loader)
| LUri (inner : loader) (scoped_id vocab_term : bool) (scoped_ref : option nat) (no_link_check : option bool)
| LTypeDSL (inner : loader) (refScope : option nat) (salad_version : string)
| LIdMap (inner : loader) (mapSubject : string) (mapPredicate : option string)
| LProxy (name : string).

(** Loaded values; an object has the values of its fields, by their names in documents, and its
    extension fields *)
Inductive lv :=
| VNull | VBool (b : bool) | VInt (z : Z) | VFloat (s : string) | VStr (s : string)
| VSeq (l : list lv) | VMap (d : list (string * lv))
| VObj (cls : string) (fields : list (string * lv)) (extension_fields : list (string * json)).
Fixpoint of_json (j : json) : lv :=
  match j with
  | JNull => VNull | JBool b => VBool b | JInt z => VInt z | JFloat s => VFloat s | JStr s => VStr s
  | JList l => VSeq (map of_json l)
  | JDict d => VMap (map (fun kv => (fst kv, of_json (snd kv))) d)
  end.
Definition is_none (v : lv) : bool := match v with VNull => true | _ => false end.

(** A field of a generated class; a subscope field ("run") is loaded relative to the identifier
    [_expand_url(name, baseuri, ..., True)] *)
Record field := Field { f_name : string; f_required : bool; f_loader : loader; f_subscope : bool }.
(** A generated class: the name, and whether it is required, and loader of its identifier field;
    the loader of its class field; its other fields *)
Record class := Class { c_name : string; c_id : option (string * bool * loader); c_class : option loader; c_fields : list field }.
Definition attrs (c : class) : list string :=
  (match c_id c with Some (n, _, _) => [n] | None => [] end) ++ (match c_class c with Some _ => ["class"] | None => [] end)
  ++ map f_name (c_fields c).

(** The loading options the loaders read.  [vocab] and [rvocab] stand for the merged tables. *)
Record options := Options {
  container : option string; no_link_check : bool; fileuri : option string;
  vocab : list (string * string); rvocab : list (string * string) }.
(** [LoadingOptions(copyfrom=..., container=..., no_link_check=...)]: a None keeps the old value *)
Definition with_container (c : option string) (n : option bool) (o : options) : options :=
  Options (match c with Some _ => c | None => container o end) (match n with Some b => b | None => no_link_check o end)
    (fileuri o) (vocab o) (rvocab o).
Definition with_fileuri (u : string) (o : options) : options := Options (container o) (no_link_check o) (Some u) (vocab o) (rvocab o).
Definition with_namespaces (ns : list (string * string)) (o : options) : options :=
  Options (container o) (no_link_check o) (fileuri o)
    (fold_left (fun d kv => dset (fst kv) (snd kv) d) ns (vocab o)) (fold_left (fun d kv => dset (snd kv) (fst kv) d) ns (rvocab o)).

Section Loaders.
(** From schema_salad.runtime, not part of /repo: [fetcher.urljoin], [fetcher.supported_schemes],
    [fetcher.check_exists] (an error is a ValidationException), [fetcher.fetch_text] and the YAML reader *)
Variable urljoin : string -> string -> result string.
Variable supported_schemes : list string.
Variable check_exists : string -> result bool.
Variable fetch_text : string -> result string.
Variable read_yaml : string -> result json.
(** [str(uuid4())] for an object without identifier; here a function of the object *)
Variable uuid : json -> string.
(** The generated classes, and the table [_loaders] *)
Variable classes : string -> option class.
Variable proxies : string -> option loader.

(** ** lines 756-821 *)

(** [sp.pop()] n times, lines 802-806 *)
Fixpoint pop (n : nat) (sp : list string) : list string :=
  match n with O => sp | S n => pop n (removelast sp) end.

(** cwl_v1_2.py:756-821 [_expand_url] *)
Definition expand_url (url base_url : string) (o : options) (scoped_id vocab_term : bool) (scoped_ref : option nat) : result string :=
  if String.eqb url "@id" || String.eqb url "@type" then Ok url
  else if vocab_term && dmem url (vocab o) then Ok url
  else
    let url := match vocab o with
               | [] => url
               | _ => if has_char ":" url then
                        let prefix := before ":" url in
                        match dget prefix (vocab o) with
                        | Some v => (v ++ sdrop (String.length prefix + 1) url)%string
                        | None => url
                        end
                      else url
               end in
    let split1 := urlsplit url in
    do url <- (if negb (String.eqb (s_scheme split1) "") && smem (s_scheme split1) supported_schemes
                  || startswith "$(" url || startswith "${" url then Ok url
               else if scoped_id && String.eqb (s_fragment split1) "" then
                 let sb := urlsplit base_url in
                 let frg := if String.eqb (s_fragment sb) "" then s_path split1 else (s_fragment sb ++ "/" ++ s_path split1)%string in
                 let pt := if String.eqb (s_path sb) "" then "/" else s_path sb in
                 Ok (urlunsplit (SplitUrl (s_scheme sb) (s_netloc sb) pt (s_query sb) frg))
               else match scoped_ref with
                    | Some n =>
                        if String.eqb (s_fragment split1) "" then
                          let sb := urlsplit base_url in
                          let sp := pop n (split_char "/" (s_fragment sb)) ++ [url] in
                          Ok (urlunsplit (SplitUrl (s_scheme sb) (s_netloc sb) (s_path sb) (s_query sb) (sjoin "/" sp)))
                        else urljoin base_url url
                    | None => urljoin base_url url
                    end);
    if vocab_term then
      if String.eqb (s_scheme (urlsplit url)) "" then Err ValidationException
      else match dget url (rvocab o) with Some t => Ok t | None => Ok url end
    else Ok url.

(** ** Shorthands *)

(** [[int(v) for v in self.salad_version[1:].split(".")] < [1, 3]], lines 522-525 *)
Definition salad_before_1_3 (v : string) : result bool :=
  do ns <- mapM int_of (split_char "." (sdrop 1 v)); Ok (list_lt ns [1%N; 3%N]).

(** lines 508-563.  [expand] is [_expand_url(..., False, True, self.refScope)].  A text shorter
    than the fuel is resolved. *)
Fixpoint resolve (fuel : nat) (expand : string -> result string) (old : bool) (doc : string) : result json :=
  match fuel with
  | O => Err OutOfFuel
  | S fuel =>
      let optional := endswith "?" doc in
      let doc_ := if optional then sdrop_last 1 doc else doc in
      let finish (expanded : json) := if optional then JList [JStr "null"; expanded] else expanded in
      if endswith "[]" doc_ then
        let rest := sdrop_last 2 doc_ in
        if old then
          if endswith "[]" rest then Ok (JStr doc)
          else do items <- expand rest; Ok (finish (JDict [("type", JStr "array"); ("items", JStr items)]))
        else
          do items <- resolve fuel expand old rest;
          do items <- (match items with JStr s => do s <- expand s; Ok (JStr s) | _ => Ok items end);
          Ok (finish (JDict [("type", JStr "array"); ("items", items)]))
      else do e <- expand doc_; Ok (finish (JStr e))
  end.

(** [a == b]: the order of the keys of a mapping is immaterial; numbers of different types, which
    Python may call equal, differ here *)
Fixpoint py_eqb (a b : json) : bool :=
  match a, b with
  | JList l, JList m =>
      (fix go (l m : list json) : bool :=
         match l, m with [], [] => true | x :: l, y :: m => py_eqb x y && go l m | _, _ => false end) l m
  | JDict d, JDict e =>
      (List.length d =? List.length e) &&
      (fix go (d : list (string * json)) : bool :=
         match d with [] => true | (k, v) :: d => match dget k e with Some w => py_eqb v w | None => false end && go d end) d
  | _, _ => json_eqb a b
  end.
(** [if i not in r: r.append(i)] *)
Definition add_new (r : list json) (i : json) : list json := if existsb (py_eqb i) r then r else r ++ [i].

(** lines 573-588: the list and text cases of [_TypeDSLLoader.load] *)
Fixpoint resolve_list (resolve1 : string -> result json) (r : list json) (doc : list json) : result (list json) :=
  match doc with
  | [] => Ok r
  | JStr d :: doc =>
      do resolved <- resolve1 d;
      resolve_list resolve1 (match resolved with JList l => fold_left add_new l r | _ => add_new r resolved end) doc
  | d :: doc => resolve_list resolve1 (r ++ [d]) doc
  end.
Definition type_dsl (resolve1 : string -> result json) (doc : json) : result json :=
  match doc with
  | JList l => do r <- resolve_list resolve1 [] l; Ok (JList r)
  | JStr s => resolve1 s
  | _ => Ok doc
  end.

(** lines 221-225, 270-274 *)
Definition secondary_text (d : string) : json :=
  if endswith "?" d then JDict [("pattern", JStr (sdrop_last 1 d)); ("required", JBool false)] else JDict [("pattern", JStr d)].
(** lines 226-246, 252-267 *)
Definition secondary_map (d : list (string * json)) : result json :=
  match dget "pattern" d with
  | None => Err ValidationException
  | Some p =>
      let rest := dpop "pattern" d in
      let required := match dget "required" rest with Some r => r | None => JNull end in
      match dpop "required" rest with
      | [] => Ok (JDict [("pattern", p); ("required", required)])
      | _ => Err ValidationException
      end
  end.
Definition secondary_item (d : json) : result json :=
  match d with
  | JStr s => Ok (secondary_text s)
  | JDict d => secondary_map d
  | _ => Err ValidationException
  end.
(** lines 217-278 *)
Definition secondary_dsl (doc : json) : result (list json) :=
  match doc with
  | JList l => mapM secondary_item l
  | JDict d => do r <- secondary_map d; Ok [r]
  | JStr s => Ok [secondary_text s]
  | _ => Err ValidationException
  end.

(** lines 606-628; a mapping has each key once *)
Definition id_map_entry (subject : string) (predicate : option string) (k : string) (val : json) : result json :=
  match val with
  | JDict d => Ok (JDict (dset subject (JStr k) d))
  | _ => match predicate with
         | Some p => if String.eqb p "" then Err ValidationException else Ok (JDict (dset subject (JStr k) [(p, val)]))
         | None => Err ValidationException
         end
  end.
Definition id_map (subject : string) (predicate : option string) (doc : json) : result json :=
  match doc with
  | JDict d => do r <- mapM (fun kv => id_map_entry subject predicate (fst kv) (snd kv)) d; Ok (JList r)
  | _ => Ok doc
  end.

(** ** Loading *)

(** [isinstance(doc, self.tp)], line 79; in Python a bool is an int *)
Definition is_prim (tp : prim) (doc : json) : bool :=
  match tp, doc with
  | PNull, JNull | PBool, JBool _ | PInt, JInt _ | PInt, JBool _ | PFloat, JFloat _ | PStr, JStr _ => true
  | _, _ => false
  end.

(** What collecting errors does: a ValidationException is noted and the loop goes on; any other
    exception leaves it. *)
Definition noted {A} (r : result A) : result (option A) :=
  match r with Ok a => Ok (Some a) | Err ValidationException => Ok None | Err e => Err e end.

(** lines 108-141: the loop over the elements, with the identifiers seen so far ([fields]);
    [None] is a noted error.  Every mapping is a [CommentedMap]; identifiers are compared as texts. *)
Definition element_id (j : json) : option json :=
  match j with JDict d => match dget "id" d with Some JNull => None | i => i end | _ => None end.
Fixpoint load_elements (load1 : json -> result lv) (flatten : bool) (fields : list json) (doc : list json) : result (option (list lv)) :=
  match doc with
  | [] => Ok (Some [])
  | d :: doc =>
      do lf <- noted (load1 d);
      let '(fields', dup) :=
        match lf, element_id d with
        | Some _, Some i => if existsb (json_eqb i) fields then (fields, true) else (fields ++ [i], false)
        | _, _ => (fields, false)
        end in
      do rest <- load_elements load1 flatten fields' doc;
      match lf, rest with
      | Some v, Some r => if dup then Ok None else Ok (Some (match v with VSeq l => if flatten then l ++ r else v :: r | _ => v :: r end))
      | _, _ => Ok None
      end
  end.

(** lines 173-182 *)
Fixpoint load_values (load1 : json -> result lv) (d : list (string * json)) : result (option (list (string * lv))) :=
  match d with
  | [] => Ok (Some [])
  | (k, v) :: d =>
      do lf <- noted (load1 v);
      do rest <- load_values load1 d;
      match lf, rest with
      | Some v, Some r => Ok (Some ((k, v) :: r))
      | _, _ => Ok None
      end
  end.

(** The first alternative that does not raise a ValidationException, lines 358-420 *)
Fixpoint first_of (rs : list (unit -> result lv)) : result lv :=
  match rs with
  | [] => Err ValidationException
  | r :: rs => match r tt with Err ValidationException => first_of rs | x => x end
  end.

(** The generated code for one field: absent and optional, or loaded; [None] is a noted error *)
Definition load_one (load1 : loader -> json -> string -> result lv) (base : string) (o : options) (d : list (string * json)) (f : field)
  : result (option lv) :=
  do base <- (if f_subscope f then expand_url (f_name f) base o true false None else Ok base);
  match dget (f_name f) d with
  | None => if f_required f then Ok None else Ok (Some VNull)
  | Some JNull => if f_required f then Ok None else noted (load1 (f_loader f) JNull base)
  | Some v => noted (load1 (f_loader f) v base)
  end.
Fixpoint load_fields (load1 : loader -> json -> string -> result lv) (base : string) (o : options) (d : list (string * json)) (fs : list field)
  : result (option (list (string * lv))) :=
  match fs with
  | [] => Ok (Some [])
  | f :: fs =>
      do v <- load_one load1 base o d f;
      do rest <- load_fields load1 base o d fs;
      match v, rest with
      | Some v, Some r => Ok (Some ((f_name f, v) :: r))
      | _, _ => Ok None
      end
  end.

(** The loop over the keys that are no fields *)
Fixpoint load_extensions (o : options) (names : list string) (d : list (string * json)) (ext : list (string * json))
  : result (option (list (string * json))) :=
  match d with
  | [] => Ok (Some ext)
  | (k, v) :: d =>
      if smem k names then load_extensions o names d ext
      else if String.eqb k "" || negb (has_char ":" k) then do _ <- load_extensions o names d ext; Ok None
      else do ex <- expand_url k "" o false false None; load_extensions o names d (dset ex v ext)
  end.

(** cwl_v1_2.py:689-695: the document without those three keys *)
Definition no_graph_keys (d : list (string * json)) : list (string * json) := dpop "$base" (dpop "$schemas" (dpop "$namespaces" d)).
(** cwl_v1_2.py:682 [doc.get("$namespaces", None)] *)
Definition namespaces (d : list (string * json)) : list (string * string) :=
  match dget "$namespaces" d with
  | Some (JDict ns) => flat_map (fun kv => match snd kv with JStr v => [(fst kv, v)] | _ => [] end) ns
  | _ => []
  end.

(** What a loader does with a document, a base, options and the root of the document; and what
    loading a whole document with it does *)
Definition loading := loader -> json -> string -> options -> option string -> result lv.
Definition doc_loading := loader -> json -> string -> options -> result lv.

Section Body.
(** The two recursive calls *)
Variable load : loading.
Variable document_load : doc_loading.

(** lines 725-753.  Left out: the table [loadingOptions.idx], by which a file imported twice is
    loaded once and a fragment selects an object (see IndexModel.v); importing with a fragment is
    [NotImplementedError] here.  A file that holds a text is loaded from the address in it, but then
    there is nothing under its own address (line 753). *)
Definition document_load_by_url (l : loader) (url : string) (o : options) : result lv :=
  if has_char "#" url then Err NotImplementedError
  else
    do text <- fetch_text url; do doc <- read_yaml text;
    match doc with
    | JStr _ => do _ <- document_load l doc url (with_fileuri url o); Err KeyError
    | _ => document_load l doc url (with_fileuri url o)
    end.

(** lines 824-849 *)
Definition load_field (val : json) (l : loader) (base : string) (o : options) : result lv :=
  match val with
  | JDict d =>
      match dget "$import" d with
      | Some u =>
          match fileuri o, u with
          | None, _ => Err GenericException
          | Some f, JStr u => do url <- urljoin f u; document_load_by_url l url o
          | Some _, _ => Err TypeError
          end
      | None =>
          match dget "$include" d with
          | Some u =>
              match fileuri o, u with
              | None, _ => Err GenericException
              | Some f, JStr u => do url <- urljoin f u; do text <- fetch_text url; load l (JStr text) base o None
              | Some _, _ => Err TypeError
              end
          | None => load l val base o None
          end
      end
  | _ => load l val base o None
  end.

(** The identifier in [fromDoc]: the field and the base for the other fields; [None] is a noted error *)
Definition load_id (k : class) (d : list (string * json)) (base : string) (o : options) (docRoot : option string)
  : result (option (list (string * lv) * string)) :=
  match c_id k with
  | None => Ok (Some ([], base))
  | Some (name, required, idl) =>
      do id <- (match dget name d with None => Ok (Some VNull) | Some v => noted (load_field v idl base o) end);
      match id with
      | Some (VStr s) => Ok (Some ([(name, VStr s)], s))
      | Some VNull =>
          match docRoot with
          | Some r => Ok (Some ([(name, VStr r)], base))
          | None => if required then Ok None else Ok (Some ([(name, VStr ("_:" ++ uuid (JDict d)))], base))
          end
      | Some _ => Err TypeError
      | None => Ok None
      end
  end.
(** The class field in [fromDoc]: an error leaves the method at once *)
Definition load_class (k : class) (d : list (string * json)) (base : string) (o : options) : result (list (string * lv)) :=
  match c_class k with
  | None => Ok []
  | Some cll =>
      match dget "class" d with
      | None | Some JNull => Err ValidationException
      | Some v =>
          do c <- load_field v cll base o;
          match c with
          | VStr s => if String.eqb s (c_name k) || match dget (c_name k) (vocab o) with Some t => String.eqb s t | None => false end
                      then Ok [("class", VStr (c_name k))] else Err ValidationException
          | _ => Err ValidationException
          end
      end
  end.
(** The generated [fromDoc] methods, for example lines 1625-2211 *)
Definition from_doc (k : class) (d : list (string * json)) (base : string) (o : options) (docRoot : option string) : result lv :=
  do idr <- load_id k d base o docRoot;
  let base := match idr with Some (_, b) => b | None => base end in
  do cl <- load_class k d base o;
  do fs <- load_fields (fun l v b => load_field v l b o) base o d (c_fields k);
  do ext <- load_extensions o (attrs k) d [];
  match idr, fs, ext with
  | Some (i, _), Some fs, Some ext => Ok (VObj (c_name k) (i ++ cl ++ fs) ext)
  | _, _, _ => Err ValidationException
  end.

(** cwl_v1_2.py:113 [loadingOptions.container != "@list"] *)
Definition flattens (o : options) : bool := negb (match container o with Some c => String.eqb c "@list" | None => false end).

(** The [load] methods, lines 54-651 *)
Definition load_body : loading := fun l doc base o docRoot =>
  match l with
  | LAny => match doc with JNull => Err ValidationException | _ => Ok (of_json doc) end
  | LPrim tp => if is_prim tp doc then Ok (of_json doc) else Err ValidationException
  | LEnum symbols => match doc with JStr s => if smem s symbols then Ok (VStr s) else Err ValidationException | _ => Err ValidationException end
  | LExpression => match doc with JStr s => Ok (VStr s) | _ => Err ValidationException end
  | LArray items =>
      match doc with
      | JList ds =>
          do r <- load_elements (fun d => load_field d (LUnion [LArray items; items]) base o) (flattens o) [] ds;
          match r with Some l => Ok (VSeq l) | None => Err ValidationException end
      | _ => Err ValidationException
      end
  | LMap values c n =>
      match doc with
      | JDict d =>
          do r <- load_values (fun v => load_field v values base (with_container c n o)) d;
          match r with Some d => Ok (VMap d) | None => Err ValidationException end
      | _ => Err ValidationException
      end
  | LSecondary inner => do r <- secondary_dsl doc; load inner (JList r) base o docRoot
  | LRecord cls c n =>
      match doc with
      | JDict d => match classes cls with None => Err AttributeError | Some k => from_doc k d base (with_container c n o) docRoot end
      | _ => Err ValidationException
      end
  | LUnion alternates => first_of (map (fun t => fun _ : unit => load t doc base o docRoot) alternates)
  | LUri inner scoped_id vocab_term scoped_ref n =>
      let o := with_container None n o in
      let expand s := expand_url s base o scoped_id vocab_term scoped_ref in
      do doc <- (match doc with
                 | JList l => do l <- mapM (fun i => match i with JStr s => do u <- expand s; Ok (JStr u) | _ => Ok i end) l; Ok (JList l)
                 | JStr s => do u <- expand s; Ok (JStr u)
                 | _ => Ok doc
                 end);
      do _ <- (match doc with
               | JStr s => if no_link_check o then Ok tt
                           else match check_exists s with
                                | Ok true => Ok tt
                                | Ok false => Err ValidationException
                                | Err ValidationException => Ok tt
                                | Err e => Err e
                                end
               | _ => Ok tt
               end);
      load inner doc base o None
  | LTypeDSL inner refScope salad =>
      do doc <- type_dsl (fun s =>
                  do old <- (if endswith "[]" (if endswith "?" s then sdrop_last 1 s else s) then salad_before_1_3 salad else Ok true);
                  resolve (S (String.length s)) (fun u => expand_url u base o false true refScope) old s) doc;
      load inner doc base o None
  | LIdMap inner subject predicate => do doc <- id_map subject predicate doc; load inner doc base o None
  | LProxy name => match proxies name with Some l => load l doc base o None | None => Err ValidationException end
  end.

(** lines 654-722 *)
Definition document_body : doc_loading := fun l doc base o =>
  match doc with
  | JStr u => do url <- urljoin base u; document_load_by_url l url o
  | JDict d =>
      do base <- (match dget "$base" d with None => Ok base | Some (JStr b) => Ok b | Some _ => Err TypeError end);
      let o := with_namespaces (namespaces d) o in
      let doc2 := no_graph_keys d in
      match dget "$graph" doc2 with
      | Some g => load l g base o None
      | None => load l (JDict doc2) base o (Some base)
      end
  | JList _ => load l doc base o None
  | _ => Err ValidationException
  end.
End Body.

(** The recursion, with fuel *)
Fixpoint loads (fuel : nat) : loading * doc_loading :=
  match fuel with
  | O => (fun _ _ _ _ _ => Err OutOfFuel, fun _ _ _ _ => Err OutOfFuel)
  | S fuel => let '(ld, dl) := loads fuel in (load_body ld dl, document_body ld dl)
  end.
Definition load (fuel : nat) : loading := fst (loads fuel).
Definition document_load (fuel : nat) : doc_loading := snd (loads fuel).
End Loaders.
