(** * Model of src/cwl_utils/graph_split.py *)
From Verif Require Import PyBase.

(** [s.split("/", 1)] when the text has a slash *)
Fixpoint cut (c : ascii) (s : string) : option (string * string) :=
  match s with
  | EmptyString => None
  | String d s' =>
      if Ascii.eqb d c then Some (EmptyString, s')
      else match cut c s' with Some (a, b) => Some (String d a, b) | None => None end
  end.

(** [re.sub(".cwl$", "", s)] (lines 147 and 184): the dot is any character but a
    newline (here: one byte), and [$] also matches before a final newline. *)
Definition strip_cwl (s : string) : string :=
  let nl := endswith (String c_nl "") s in
  let body := if nl then sdrop_last 1 s else s in
  match srev body with
  | String l (String w (String c (String x r))) =>
      if Ascii.eqb l "l" && Ascii.eqb w "w" && Ascii.eqb c "c" && negb (Ascii.eqb x c_nl)
      then (srev r ++ (if nl then String c_nl "" else ""))%string else s
  | _ => s
  end.

(** Set union; the order of a Python set is unspecified, here it is insertion order. *)
Definition union (a b : list string) : list string := a ++ filter (fun x => negb (smem x a)) b.

(** An error inside [with SourceLine(..., Exception)] (line 180) leaves it as Exception. *)
Definition within {A} (r : result A) : result A :=
  match r with Ok a => Ok a | Err _ => Err GenericException end.

(** lines 156-166; [this_id] is the value of "id" in the mapping that has "out".  If it is
    not a text, line 185 fails on that same mapping in any case. *)
Definition rewrite_id (this_id : option json) (entry : json) : result json :=
  match entry with
  | JDict e =>
      match dget "id" e with
      | None => Err KeyError
      | Some (JStr s) =>
          match this_id with
          | Some (JStr t) =>
              if startswith t s then Ok (JDict (dset "id" (JStr (sdrop (String.length t + 1) s)) e)) else Ok entry
          | _ => Err TypeError
          end
      | Some _ => Err AttributeError
      end
  | JStr s =>
      match this_id with
      | None => Ok entry
      | Some (JStr t) =>
          if negb (String.eqb t "") && startswith t s then Ok (JStr (sdrop (String.length t + 1) s)) else Ok entry
      | Some _ => Err TypeError
      end
  | _ => Err GenericException
  end.

(** lines 218-221, the new value of "$import" *)
Definition rewrite_import (v : json) : result json :=
  match v with
  | JStr s => Ok (JStr (lstrip_char "#" (nth 0 (split_char "/" s) "")))
  | _ => Err AttributeError
  end.

(** lines 204-211, one element of a list of sources *)
Definition rewrite_source_entry (doc_id : string) (entry : json) : result json :=
  match entry with
  | JStr s => Ok (if startswith ("#" ++ doc_id) s then JStr (sdrop (String.length doc_id + 2) s) else entry)
  | _ => Err AttributeError
  end.

(** lines 181-214 without the last two cases: the new value, or [None] when the general
    case (line 215) applies *)
Definition rewrite_leaf (doc_id : string) (this_id : option json) (key : string) (value : json) : result (option json) :=
  if String.eqb key "run" then
    match value with
    | JStr EmptyString => Err IndexError
    | JStr (String c s) => Ok (if Ascii.eqb c "#" then Some (JStr (strip_cwl s ++ ".cwl")) else None)
    | _ => Ok None
    end
  else if String.eqb key "id" || String.eqb key "outputSource" then
    match value with
    | JStr s => Ok (if startswith ("#" ++ doc_id) s then Some (JStr (sdrop (String.length doc_id + 2) s)) else None)
    | _ => Err AttributeError
    end
  else if String.eqb key "out" then
    match value with
    | JList l => do l' <- mapM (rewrite_id this_id) l; Ok (Some (JList l'))
    | _ => Ok None
    end
  else if smem key ["source"; "scatter"; "items"; "format"] then
    match value with
    | JStr (String c s) =>
        if Ascii.eqb c "#" then
          match cut "/" s with
          | Some (file, sub) => Ok (Some (JStr (if String.eqb file doc_id then sub else file ++ "#" ++ sub)))
          | None => Ok (Some value)
          end
        else Ok (Some value)
    | JList l => do l' <- mapM (rewrite_source_entry doc_id) l; Ok (Some (JList l'))
    | _ => Ok (Some value)
    end
  else if String.eqb key "$import" then do v <- rewrite_import value; Ok (Some v)
  else Ok None.

(** lines 224-245.  The text [entry_file] starts with # when [sameself] is false. *)
Definition rewrite_type_name (entry_file : string) (sameself : bool) (s : string) : result string :=
  if startswith entry_file s then
    if sameself then Ok (sdrop (String.length entry_file + 1) s)
    else match cut "/" (sdrop 1 s) with
         | Some (a, b) => Ok (a ++ "#" ++ b)%string
         | None => Err IndexError
         end
  else Ok s.
Fixpoint rewrite_types (entry_file : string) (sameself : bool) (field : json) {struct field} : result json :=
  match field with
  | JList l =>
      do l' <- (fix go (l : list json) : result (list json) :=
                  match l with
                  | [] => Ok []
                  | x :: l => do y <- rewrite_types entry_file sameself x; do ys <- go l; Ok (y :: ys)
                  end) l;
      Ok (JList l')
  | JDict d =>
      do d' <- (fix go (d : list (string * json)) : result (list (string * json)) :=
                  match d with
                  | [] => Ok []
                  | (k, v) :: d =>
                      do v' <- match v with
                               | JStr s =>
                                   if String.eqb k "type" || String.eqb k "items"
                                   then do s' <- rewrite_type_name entry_file sameself s; Ok (JStr s') else Ok v
                               | _ => rewrite_types entry_file sameself v
                               end;
                      do d' <- go d; Ok ((k, v') :: d')
                  end) d;
      Ok (JDict d')
  | _ => Ok field
  end.

(** lines 258-260, one field of a record type *)
Definition rewrite_field (entry_file : string) (field : json) : result json :=
  match field with
  | JDict f =>
      match dget "name" f with
      | None => Err KeyError
      | Some (JStr n) =>
          match nth_error (split_char "/" n) 2 with
          | Some n' => rewrite_types entry_file true (JDict (dset "name" (JStr n') f))
          | None => Err IndexError
          end
      | Some _ => Err AttributeError
      end
  | _ => Err TypeError
  end.

(** [x in l] for values compared with a text *)
Definition has_text (s : string) (l : list json) : bool :=
  existsb (fun j => match j with JStr x => String.eqb x s | _ => false end) l.

(** lines 253-268, one entry of "types": the entry left behind and what is appended to
    which file.  Names that are not texts are outside the model (TypeError). *)
Definition rewrite_typedef (entry : json) : result (json * list (string * json)) :=
  match entry with
  | JDict e =>
      match dget "$import" e with
      | Some v => do v' <- rewrite_import v; Ok (JDict (dset "$import" v' e), [])
      | None =>
          match dget "name" e with
          | None => Ok (entry, [])
          | Some (JStr n) =>
              if has_char "/" n then
                match split_char "/" (lstrip_char "#" n) with
                | [file; name] =>
                    let e1 := dset "name" (JStr name) e in
                    do e2 <- match dget "fields" e1 with
                             | None => Ok e1
                             | Some (JList l) => do l' <- mapM (rewrite_field file) l; Ok (dset "fields" (JList l') e1)
                             | Some (JDict []) | Some (JStr "") => Ok e1
                             | Some _ => Err TypeError
                             end;
                    if dmem "type" e2
                    then Ok (JDict (dpop "fields" (dpop "type" (dpop "name" (dset "$import" (JStr file) e2)))),
                             [(file, JDict e2)])
                    else Err KeyError
                | _ => Err ValueError
                end
              else Ok (entry, [])
          | Some _ => Err TypeError
          end
      end
  | JStr s => if contains "$import" s || contains "name" s then Err TypeError else Ok (entry, [])
  | JList l => if has_text "$import" l || has_text "name" l then Err TypeError else Ok (entry, [])
  | _ => Err TypeError
  end.

(** lines 270-279: drop entries importing a file already imported *)
Fixpoint dedupe (seen : list string) (types : list json) : result (list json * list string) :=
  match types with
  | [] => Ok ([], seen)
  | entry :: types =>
      match entry with
      | JDict e =>
          match dget "$import" e with
          | Some (JStr f) =>
              if smem f seen then dedupe seen types
              else do ' (l, seen) <- dedupe (seen ++ [f]) types; Ok (entry :: l, seen)
          | Some _ => Err TypeError  (* never: line 220 made it a text *)
          | None => do ' (l, seen) <- dedupe seen types; Ok (entry :: l, seen)
          end
      | _ => do ' (l, seen) <- dedupe seen types; Ok (entry :: l, seen)
      end
  end.

(** lines 248-280: the new document, the imported files, what is appended to files.
    A value of "types" that is not a list fails at line 280 at the latest. *)
Definition rewrite_schemadef (document : dict) : result (json * list string * list (string * json)) :=
  match dget "types" document with
  | Some (JList types) =>
      do r <- mapM rewrite_typedef types;
      do ' (types', seen) <- dedupe [] (map fst r);
      Ok (JDict (dset "types" (JList types') document), seen, flat_map snd r)
  | _ => Err TypeError
  end.

(** lines 169-215: the new document, the imported files, what is appended to files *)
Fixpoint rewrite (doc_id : string) (document : json) {struct document} : result (json * list string * list (string * json)) :=
  match document with
  | JList l =>
      do ' (l', imports, files) <-
        (fix go (l : list json) : result (list json * list string * list (string * json)) :=
           match l with
           | [] => Ok ([], [], [])
           | x :: l =>
               do ' (x', i, f) <- rewrite doc_id x;
               do ' (l', i', f') <- go l;
               Ok (x' :: l', union i i', f ++ f')
           end) l;
      Ok (JList l', imports, files)
  | JDict d =>
      let this_id := dget "id" d in
      (fix go (before : list (string * json)) (imports : list string) (files : list (string * json)) (d : list (string * json))
           : result (json * list string * list (string * json)) :=
         match d with
         | [] => Ok (JDict before, imports, files)
         | (k, v) :: d' =>
             if String.eqb k "class" && match v with JStr c => String.eqb c "SchemaDefRequirement" | _ => false end
             then within (do ' (j, i, f) <- rewrite_schemadef (before ++ (k, v) :: d'); Ok (j, i, files ++ f))
             else
               do ' (v', i, f) <-
                 within match rewrite_leaf doc_id this_id k v with
                        | Err e => Err e
                        | Ok (Some v') => Ok (v', [], [])
                        | Ok None => rewrite doc_id v
                        end;
               go (before ++ [(k, v')]) (union imports i) (files ++ f) d'
         end) [] [] [] d
  | _ => Ok (document, [], [])
  end.

(** files: a schema file is appended to (line 261), a process file overwritten (284, 150) *)
Inductive op := Append (file : string) (j : json) | Overwrite (file : string) (j : json).

(** lines 139-147: the name of the file written for a process *)
Definition file_name (basename : string) (mainfile : option string) (entry_id : string) : string :=
  let name := if String.eqb entry_id "main"
              then match mainfile with None => ("unpacked_" ++ basename)%string | Some m => m end
              else entry_id in
  (strip_cwl name ++ ".cwl")%string.

(** lines 131-152, one entry of $graph *)
Definition split_entry (basename : string) (mainfile : option string) (version : json) (entry : json) : result (list op) :=
  match entry with
  | JDict e =>
      match dget "id" e with
      | Some (JStr id) =>
          let entry_id := lstrip_char "#" id in
          do ' (doc, imports, files) <- rewrite entry_id (JDict (dset "cwlVersion" version (dpop "id" e)));
          do doc <- foldM (fun doc import_name => rewrite_types ("#" ++ import_name) false doc) imports doc;
          Ok (map (fun fj => Append (fst fj) (snd fj)) files ++ [Overwrite (file_name basename mainfile entry_id) doc])
      | Some _ => Err AttributeError
      | None => Err KeyError
      end
  | _ => Err AttributeError
  end.

(** lines 101-152: the operations on files, in order.  [basename] is the name of the
    source file; the output directory exists (or its parent does, otherwise
    NotADirectoryError) and file names are kept as texts relative to it.  Files touched
    before an error are not tracked.  json and yaml output write the same value. *)
Definition graph_split (basename : string) (mainfile : option string) (source : json) : result (list op) :=
  match source with
  | JDict s =>
      match dget "$graph" s with
      | None => Ok []
      | Some graph =>
          match dget "cwlVersion" s with
          | None => Err KeyError
          | Some version =>
              match graph with
              | JList l => do r <- mapM (split_entry basename mainfile version) l; Ok (List.concat r)
              | JDict [] | JStr "" => Ok []
              | _ => Err AttributeError
              end
          end
      end
  | _ => Err AttributeError
  end.

(** the contents of the files afterwards, as lists of documents *)
Definition apply_op (fs : string -> list json) (o : op) : string -> list json :=
  match o with
  | Append f j => fun g => if String.eqb g f then fs g ++ [j] else fs g
  | Overwrite f j => fun g => if String.eqb g f then [j] else fs g
  end.
Definition apply_ops (fs : string -> list json) (l : list op) : string -> list json := fold_left apply_op l fs.
