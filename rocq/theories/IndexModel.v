(** * Model of the index of loaded documents in src/cwl_utils/parser/cwl_v1_2.py: the loaders of
      LoaderModel.v once more, now with [loadingOptions.idx].  The same code, line by line, stands in
      cwl_v1_0.py and cwl_v1_1.py.  [LoadingOptions(copyfrom=...)] of schema_salad.runtime hands the
      same index on, so that there is one index for a document and all it imports. *)
From Verif Require Import PyBase ParserModel LoaderModel.

(** What happens to the index.  The code only keeps what was written last under a key.  [Opened], the
    reading of the file for an address, and [Asked], the result of loading from an address, change
    nothing and are there to speak about it. *)
Inductive event := Wrote (key : string) (v : lv) | Opened (url : string) | Asked (url : string) (r : result lv).
(** the newest event first *)
Definition log := list event.
(** [idx.get(key)] *)
Fixpoint idx_get (key : string) (L : log) : option lv :=
  match L with
  | [] => None
  | Wrote k v :: L => if String.eqb key k then Some v else idx_get key L
  | _ :: L => idx_get key L
  end.

(** Results with an index; what was written stays when an exception is raised *)
Definition SM (A : Type) := log -> result A * log.
Definition lift {A} (r : result A) : SM A := fun L => (r, L).
Definition sbind {A B} (m : SM A) (f : A -> SM B) : SM B :=
  fun L => match m L with (Ok a, L) => f a L | (Err e, L) => (Err e, L) end.
Definition note (e : event) : SM unit := fun L => (Ok tt, e :: L).
Notation "'dos' x <- m ; k" := (sbind m (fun x => k)) (at level 200, x name, m at level 100, k at level 200).
Definition noted_s {A} (m : SM A) : SM (option A) := fun L => let (r, L) := m L in (noted r, L).

(** lines 108-141, see LoaderModel *)
Fixpoint load_elements_s (load1 : json -> SM lv) (flatten : bool) (fields : list json) (doc : list json) : SM (option (list lv)) :=
  match doc with
  | [] => lift (Ok (Some []))
  | d :: doc =>
      dos lf <- noted_s (load1 d);
      let '(fields', dup) :=
        match lf, element_id d with
        | Some _, Some i => if existsb (json_eqb i) fields then (fields, true) else (fields ++ [i], false)
        | _, _ => (fields, false)
        end in
      dos rest <- load_elements_s load1 flatten fields' doc;
      lift (match lf, rest with
            | Some v, Some r => if dup then Ok None else Ok (Some (match v with VSeq l => if flatten then l ++ r else v :: r | _ => v :: r end))
            | _, _ => Ok None
            end)
  end.
(** lines 173-182 *)
Fixpoint load_values_s (load1 : json -> SM lv) (d : list (string * json)) : SM (option (list (string * lv))) :=
  match d with
  | [] => lift (Ok (Some []))
  | (k, v) :: d =>
      dos lf <- noted_s (load1 v);
      dos rest <- load_values_s load1 d;
      lift (match lf, rest with Some v, Some r => Ok (Some ((k, v) :: r)) | _, _ => Ok None end)
  end.
(** lines 358-420 *)
Fixpoint first_of_s (rs : list (unit -> SM lv)) : SM lv :=
  match rs with
  | [] => lift (Err ValidationException)
  | r :: rs => fun L => match r tt L with (Err ValidationException, L) => first_of_s rs L | x => x end
  end.

(** Loading with an index *)
Definition loading_s := loader -> json -> string -> options -> option string -> SM lv.
Definition doc_loading_s := loader -> json -> string -> options -> SM lv.

Section Loaders.
(** as in LoaderModel.v *)
Variable urljoin : string -> string -> result string.
Variable supported_schemes : list string.
Variable check_exists : string -> result bool.
Variable fetch_text : string -> result string.
Variable read_yaml : string -> result json.
Variable uuid : json -> string.
Variable classes : string -> option class.
Variable proxies : string -> option loader.
(** Is an address looked up in the index first (lines 731-732)?  Yes in the code; the other reading
    loads every import anew. *)
Variable cached : bool.
Let expand_url := expand_url urljoin supported_schemes.
Let load_extensions := load_extensions urljoin supported_schemes.

(** the generated code for one field, see LoaderModel *)
Definition load_one_s (load1 : loader -> json -> string -> SM lv) (base : string) (o : options) (d : list (string * json)) (f : field)
  : SM (option lv) :=
  dos base <- lift (if f_subscope f then expand_url (f_name f) base o true false None else Ok base);
  match dget (f_name f) d with
  | None => lift (if f_required f then Ok None else Ok (Some VNull))
  | Some JNull => if f_required f then lift (Ok None) else noted_s (load1 (f_loader f) JNull base)
  | Some v => noted_s (load1 (f_loader f) v base)
  end.
Fixpoint load_fields_s (load1 : loader -> json -> string -> SM lv) (base : string) (o : options) (d : list (string * json)) (fs : list field)
  : SM (option (list (string * lv))) :=
  match fs with
  | [] => lift (Ok (Some []))
  | f :: fs =>
      dos v <- load_one_s load1 base o d f;
      dos rest <- load_fields_s load1 base o d fs;
      lift (match v, rest with Some v, Some r => Ok (Some ((f_name f, v) :: r)) | _, _ => Ok None end)
  end.

Section Body.
Variable load : loading_s.
Variable document_load : doc_loading_s.

(** lines 734-753: [urldefrag], loading the file, and what the index then has for the address *)
Definition load_file_s (l : loader) (url : string) (o : options) : SM lv :=
  let doc_url := before "#" url in
  dos _ <- note (Opened url);
  dos text <- lift (fetch_text doc_url);
  dos doc <- lift (read_yaml text);
  dos _ <- document_load l doc doc_url (with_fileuri doc_url o);
  fun L => (match idx_get url L with Some v => Ok v | None => Err KeyError end, L).
(** lines 725-753 *)
Definition document_load_by_url_s (l : loader) (url : string) (o : options) : SM lv :=
  fun L =>
    let (r, L) := match (if cached then idx_get url L else None) with
                  | Some v => (Ok v, L)
                  | None => load_file_s l url o L
                  end in
    (r, Asked url r :: L).

(** lines 824-849 *)
Definition load_field_s (val : json) (l : loader) (base : string) (o : options) : SM lv :=
  match val with
  | JDict d =>
      match dget "$import" d with
      | Some u =>
          match fileuri o, u with
          | None, _ => lift (Err GenericException)
          | Some f, JStr u => dos url <- lift (urljoin f u); document_load_by_url_s l url o
          | Some _, _ => lift (Err TypeError)
          end
      | None =>
          match dget "$include" d with
          | Some u =>
              match fileuri o, u with
              | None, _ => lift (Err GenericException)
              | Some f, JStr u => dos url <- lift (urljoin f u); dos text <- lift (fetch_text url); load l (JStr text) base o None
              | Some _, _ => lift (Err TypeError)
              end
          | None => load l val base o None
          end
      end
  | _ => load l val base o None
  end.

(** The identifier in [fromDoc] *)
Definition load_id_s (k : class) (d : list (string * json)) (base : string) (o : options) (docRoot : option string)
  : SM (option (list (string * lv) * string)) :=
  match c_id k with
  | None => lift (Ok (Some ([], base)))
  | Some (name, required, idl) =>
      dos id <- (match dget name d with None => lift (Ok (Some VNull)) | Some v => noted_s (load_field_s v idl base o) end);
      lift (match id with
            | Some (VStr s) => Ok (Some ([(name, VStr s)], s))
            | Some VNull =>
                match docRoot with
                | Some r => Ok (Some ([(name, VStr r)], base))
                | None => if required then Ok None else Ok (Some ([(name, VStr ("_:" ++ uuid (JDict d)))], base))
                end
            | Some _ => Err TypeError
            | None => Ok None
            end)
  end.
(** The class field in [fromDoc] *)
Definition load_class_s (k : class) (d : list (string * json)) (base : string) (o : options) : SM (list (string * lv)) :=
  match c_class k with
  | None => lift (Ok [])
  | Some cll =>
      match dget "class" d with
      | None | Some JNull => lift (Err ValidationException)
      | Some v =>
          dos c <- load_field_s v cll base o;
          lift (match c with
                | VStr s => if String.eqb s (c_name k) || match dget (c_name k) (vocab o) with Some t => String.eqb s t | None => false end
                            then Ok [("class", VStr (c_name k))] else Err ValidationException
                | _ => Err ValidationException
                end)
      end
  end.
(** [loadingOptions.idx[id] = (_constructed, loadingOptions)], for example line 1287; classes without
    an identifier are not noted *)
Definition index_object (i : list (string * lv)) (v : lv) : SM unit :=
  match i with
  | (_, VStr s) :: _ => note (Wrote s v)
  | _ => lift (Ok tt)
  end.
(** The generated [fromDoc] methods *)
Definition from_doc_s (k : class) (d : list (string * json)) (base : string) (o : options) (docRoot : option string) : SM lv :=
  dos idr <- load_id_s k d base o docRoot;
  let base := match idr with Some (_, b) => b | None => base end in
  dos cl <- load_class_s k d base o;
  dos fs <- load_fields_s (fun l v b => load_field_s v l b o) base o d (c_fields k);
  dos ext <- lift (load_extensions o (attrs k) d []);
  match idr, fs, ext with
  | Some (i, _), Some fs, Some ext =>
      let v := VObj (c_name k) (i ++ cl ++ fs) ext in
      dos _ <- index_object i v; lift (Ok v)
  | _, _, _ => lift (Err ValidationException)
  end.

(** The [load] methods, lines 54-651 *)
Definition load_body_s : loading_s := fun l doc base o docRoot =>
  match l with
  | LAny => lift (match doc with JNull => Err ValidationException | _ => Ok (of_json doc) end)
  | LPrim tp => lift (if is_prim tp doc then Ok (of_json doc) else Err ValidationException)
  | LEnum symbols => lift (match doc with JStr s => if smem s symbols then Ok (VStr s) else Err ValidationException | _ => Err ValidationException end)
  | LExpression => lift (match doc with JStr s => Ok (VStr s) | _ => Err ValidationException end)
  | LArray items =>
      match doc with
      | JList ds =>
          dos r <- load_elements_s (fun d => load_field_s d (LUnion [LArray items; items]) base o) (flattens o) [] ds;
          lift (match r with Some l => Ok (VSeq l) | None => Err ValidationException end)
      | _ => lift (Err ValidationException)
      end
  | LMap values c n =>
      match doc with
      | JDict d =>
          dos r <- load_values_s (fun v => load_field_s v values base (with_container c n o)) d;
          lift (match r with Some d => Ok (VMap d) | None => Err ValidationException end)
      | _ => lift (Err ValidationException)
      end
  | LSecondary inner => dos r <- lift (secondary_dsl doc); load inner (JList r) base o docRoot
  | LRecord cls c n =>
      match doc with
      | JDict d => match classes cls with None => lift (Err AttributeError) | Some k => from_doc_s k d base (with_container c n o) docRoot end
      | _ => lift (Err ValidationException)
      end
  | LUnion alternates => first_of_s (map (fun t => fun _ : unit => load t doc base o docRoot) alternates)
  | LUri inner scoped_id vocab_term scoped_ref n =>
      let o := with_container None n o in
      let expand s := expand_url s base o scoped_id vocab_term scoped_ref in
      dos doc <- lift (match doc with
                 | JList l => do l <- mapM (fun i => match i with JStr s => do u <- expand s; Ok (JStr u) | _ => Ok i end) l; Ok (JList l)
                 | JStr s => do u <- expand s; Ok (JStr u)
                 | _ => Ok doc
                 end);
      dos _ <- lift (match doc with
               | JStr s => if no_link_check o then Ok tt
                           else match check_exists s with
                                | Ok true => Ok tt
                                | Ok false => Err ValidationException
                                | Err ValidationException => Ok tt
                                | Err e => Err e
                                end
               | _ => Ok tt
               end);
      load inner doc base o None
  | LTypeDSL inner refScope salad =>
      dos doc <- lift (type_dsl (fun s =>
                  do old <- (if endswith "[]" (if endswith "?" s then sdrop_last 1 s else s) then salad_before_1_3 salad else Ok true);
                  resolve (S (String.length s)) (fun u => expand_url u base o false true refScope) old s) doc);
      load inner doc base o None
  | LIdMap inner subject predicate => dos doc <- lift (id_map subject predicate doc); load inner doc base o None
  | LProxy name => match proxies name with Some l => load l doc base o None | None => lift (Err ValidationException) end
  end.

(** lines 654-722 *)
Definition document_body_s : doc_loading_s := fun l doc base o =>
  match doc with
  | JStr u => dos url <- lift (urljoin base u); document_load_by_url_s l url o
  | JDict d =>
      let docuri := base in
      dos base <- lift (match dget "$base" d with None => Ok base | Some (JStr b) => Ok b | Some _ => Err TypeError end);
      let o := with_namespaces (namespaces d) o in
      let doc2 := no_graph_keys d in
      dos v <- (match dget "$graph" doc2 with
                | Some g => load l g base o None
                | None => load l (JDict doc2) base o (Some base)
                end);
      dos _ <- note (Wrote base v);
      dos _ <- (if String.eqb docuri base then lift (Ok tt) else note (Wrote docuri v));
      lift (Ok v)
  | JList _ => dos v <- load l doc base o None; dos _ <- note (Wrote base v); lift (Ok v)
  | _ => lift (Err ValidationException)
  end.
End Body.

(** The recursion, with fuel *)
Fixpoint loads_s (fuel : nat) : loading_s * doc_loading_s :=
  match fuel with
  | O => (fun _ _ _ _ _ => lift (Err OutOfFuel), fun _ _ _ _ => lift (Err OutOfFuel))
  | S fuel => let '(ld, dl) := loads_s fuel in (load_body_s ld dl, document_body_s ld dl)
  end.
Definition load_s (fuel : nat) : loading_s := fst (loads_s fuel).
Definition document_load_s (fuel : nat) : doc_loading_s := snd (loads_s fuel).
End Loaders.
