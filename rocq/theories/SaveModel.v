(** * Model of the generated [save] methods of src/cwl_utils/parser/cwl_v1_0.py, cwl_v1_1.py and
      cwl_v1_2.py, called with [relative_uris=False].  The functions they call on the values of
      fields, [save] and [save_relative_uri] of schema_salad.runtime, are not part of /repo; with
      [relative_uris=False] they leave texts as they are, go through lists and mappings, and call
      the method on objects. *)
From Verif Require Import PyBase ParserModel LoaderModel.

Section Saving.
(** [_vocab | self.loadingOptions.vocab] and [_rvocab | self.loadingOptions.rvocab]; all objects of
    a document have the same *)
Variables (vocab rvocab : list (string * string)).

(** cwl_v1_2.py lines 2226-2233: the class of an object, with the prefix for its namespace if there
    is one *)
Definition saved_class (c : string) : result string :=
  match dget c vocab with
  | None => Err KeyError
  | Some uri =>
      match dget (sdrop_last (String.length c) uri) rvocab with
      | Some p => if String.eqb p "" then Ok c else Ok (p ++ ":" ++ c)%string
      | None => Ok c
      end
  end.

(** cwl_v1_2.py lines 2213-2277, for example: first the extension fields, then the fields that are
    not None in their order.  The order is that of the fields in [fromDoc] in all classes. *)
Fixpoint save (v : lv) : result json :=
  match v with
  | VNull => Ok JNull
  | VBool b => Ok (JBool b)
  | VInt z => Ok (JInt z)
  | VFloat s => Ok (JFloat s)
  | VStr s => Ok (JStr s)
  | VSeq l =>
      do r <- (fix go (l : list lv) : result (list json) := match l with [] => Ok [] | v :: l => do j <- save v; do r <- go l; Ok (j :: r) end) l;
      Ok (JList r)
  | VMap d =>
      do r <- (fix go (d : list (string * lv)) : result (list (string * json)) :=
                 match d with [] => Ok [] | (k, v) :: d => do j <- save v; do r <- go d; Ok ((k, j) :: r) end) d;
      Ok (JDict r)
  | VObj _ fields ext =>
      do r <- (fix go (fs : list (string * lv)) (r : list (string * json)) : result (list (string * json)) :=
                 match fs with
                 | [] => Ok r
                 | (k, v) :: fs =>
                     if is_none v then go fs r
                     else if String.eqb k "class" then
                       match v with VStr c => do c <- saved_class c; go fs (dset k (JStr c) r) | _ => Err TypeError end
                     else do j <- save v; go fs (dset k j r)
                 end) fields (dupdate [] ext);
      Ok (JDict r)
  end.

(** cwl_v1_2.py lines 2279-2285: the namespaces and schemas of the document, if any, where [top] *)
Definition with_header (namespaces : list (string * string)) (schemas : list json) (r : list (string * json)) : list (string * json) :=
  let r := match namespaces with [] => r | ns => dset "$namespaces" (JDict (map (fun kv => (fst kv, JStr (snd kv))) ns)) r end in
  match schemas with [] => r | s => dset "$schemas" (JList s) r end.
Definition save_top (namespaces : list (string * string)) (schemas : list json) (v : lv) : result json :=
  do j <- save v;
  match j with JDict r => Ok (JDict (with_header namespaces schemas r)) | _ => Ok j end.

(** src/cwl_utils/parser/__init__.py lines 416-447 for a loaded document: a process, or a list of
    processes *)
Definition save_document (namespaces : list (string * string)) (schemas : list json) (v : lv) : result json :=
  match v with
  | VSeq vs => do js <- mapM (save_top namespaces schemas) vs; ParserModel.save true (Seq (map (Obj true) js))
  | _ => save_top namespaces schemas v
  end.
End Saving.
