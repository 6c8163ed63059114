(** * Model of the generated [save] methods of src/cwl_utils/parser/cwl_v1_0.py, cwl_v1_1.py and
      cwl_v1_2.py, called with [relative_uris=True], the default.  Which function writes a field, with
      which scope and relative to which address, is in the tables SaveTables.v, read from the text of
      the methods.  The functions of schema_salad.runtime that are called, [save],
      [save_relative_uri] and [prefix_url], are not part of /repo: [save] and [save_relative_uri] go
      through lists, [save] goes through mappings and leaves texts alone, both call the method of
      objects; what [save_relative_uri] makes of a text and [prefix_url] of the name of a field are
      parameters. *)
From Verif Require Import PyBase ParserModel LoaderModel SaveModel.

(** The arguments [scoped_id] and [ref_scope] *)
Definition scope := (bool * option nat)%type.
(** A save method: the attribute that is given as [base_url], if it is not the argument [base_url],
    and for each field its name, the scope if it is written by [save_relative_uri], and whether it
    is written relative to that attribute *)
Record saving := Saving { sv_own : option string; sv_fields : list (string * option scope * bool) }.

Section Saving.
Variables (vocab rvocab : list (string * string)) (methods : string -> option saving).
(** [save_relative_uri(uri, base_url, scoped_id, ref_scope, True)] for a text *)
Variable short : string -> string -> scope -> string.
(** [prefix_url(name, loadingOptions.vocab)] *)
Variable prefixed : string -> string.

(** how the save method of a class in cwl_v1_2.py (for example 1026-1050) writes the field of
    this name *)
Definition written (m : saving) (n : string) : option (option scope * bool) :=
  match find (fun f => String.eqb (fst (fst f)) n) (sv_fields m) with Some (_, h, own) => Some (h, own) | None => None end.
(** The address the fields of an object are written relative to.  An object made without an
    identifier has None there, and [urlsplit] fails later; it is not modelled: the address of
    the object around it is taken. *)
Definition address (m : saving) (fields : list (string * lv)) (own : bool) (base : string) : string :=
  match sv_own m with
  | Some n => if own then match dget n fields with Some (VStr s) => s | _ => base end else base
  | None => base
  end.
(** [save(ef)] for the extension fields: cwl_v1_2.py lines 2218-2220, for example *)
Definition save_extensions (ext : list (string * json)) : list (string * json) := dupdate [] (map (fun kv => (prefixed (fst kv), snd kv)) ext).

(** [how] is the scope where the value is written by [save_relative_uri], None where by [save].
    cwl_v1_2.py lines 2213-2285, for example.  The order of the fields is that of the table (checked
    in ShortProps.v). *)
Fixpoint save_at (how : option scope) (base : string) (v : lv) : result json :=
  match v with
  | VNull => Ok JNull
  | VBool b => Ok (JBool b)
  | VInt z => Ok (JInt z)
  | VFloat s => Ok (JFloat s)
  | VStr s => Ok (JStr (match how with Some h => short s base h | None => s end))
  | VSeq l =>
      do r <- (fix go (l : list lv) : result (list json) := match l with [] => Ok [] | v :: l => do j <- save_at how base v; do r <- go l; Ok (j :: r) end) l;
      Ok (JList r)
  | VMap d =>
      do r <- (fix go (d : list (string * lv)) : result (list (string * json)) :=
                 match d with [] => Ok [] | (k, v) :: d => do j <- save_at None base v; do r <- go d; Ok ((k, j) :: r) end) d;
      Ok (JDict r)
  | VObj c fields ext =>
      match methods c with
      | None => Err AttributeError
      | Some m =>
          do r <- (fix go (fs : list (string * lv)) (r : list (string * json)) : result (list (string * json)) :=
                     match fs with
                     | [] => Ok r
                     | (k, v) :: fs =>
                         if is_none v then go fs r
                         else
                           match written m k with
                           | None => go fs r
                           | Some (how, own) =>
                               let base := address m fields own base in
                               if String.eqb k "class" then
                                 match v, how with
                                 | VStr c, Some h => do t <- saved_class vocab rvocab c; go fs (dset k (JStr (short t base h)) r)
                                 | _, _ => Err TypeError
                                 end
                               else do j <- save_at how base v; go fs (dset k j r)
                           end
                     end) fields (save_extensions ext);
          Ok (JDict r)
      end
  end.
(** The method [save] of a process, with [top=True] *)
Definition save_top_at (namespaces : list (string * string)) (schemas : list json) (base : string) (v : lv) : result json :=
  do j <- save_at None base v;
  match j with JDict r => Ok (JDict (with_header namespaces schemas r)) | _ => Ok j end.
(** src/cwl_utils/parser/__init__.py lines 416-447 for a loaded document: a process, or a list of
    processes *)
Definition save_document_at (namespaces : list (string * string)) (schemas : list json) (base : string) (v : lv) : result json :=
  match v with
  | VSeq vs => do js <- mapM (save_top_at namespaces schemas base) vs; ParserModel.save true (Seq (map (Obj true) js))
  | _ => save_top_at namespaces schemas base v
  end.
End Saving.
