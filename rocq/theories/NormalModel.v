(** * Model of src/cwl_utils/normalizer.py and src/cwl_utils/pack_cli.py *)
From Verif Require Import PyBase UtilsModel PackModel RefactorModel.

(** [Path(document).name], the last part of a path without a final slash *)
Definition base_name (document : string) : string := last (split_char "/" document) "".

(** [open(p).read()] *)
Definition read_file (fs : files) (p : string) : result string :=
  match fget p fs with Some t => Ok t | None => Err FileNotFoundError end.

(** [s in j] for a text [s]: a key of a mapping, an element of a list, a part of a text *)
Definition text_in (s : string) (j : json) : result bool :=
  match j with
  | JDict d => Ok (dmem s d)
  | JList l => Ok (existsb (is_str s) l)
  | JStr t => Ok (contains s t)
  | _ => Err TypeError
  end.

(** normalizer.py:31-64: the flags of the command line *)
Record flags := { etools : bool; skip_some1 : bool; skip_some2 : bool; no_expression_refactoring : bool }.

Section Packing.
  (** as in PackModel.v *)
  Variable url_scheme url_path : string -> string.
  Variable urljoin : string -> string -> string.
  Variable urlopen : string -> result string.
  Variable parse_yaml : string -> result json.
  Variable ver : Type.
  Variable parse_version : string -> result ver.
  Variable version_gt : ver -> ver -> bool.
  (** how deep packing may go *)
  Variable fuel : nat.
  (** can a file of this name be opened for writing? *)
  Variable writable : string -> bool.

  (** pack.py:260-274 with the local files [fs] *)
  Definition pack_file (fs : files) (path : string) : M dict :=
    pack url_scheme url_path urljoin (read_file fs) urlopen parse_yaml ver parse_version version_gt fuel path.

  Section Normalize.
    (** what [load_document_by_yaml] yields for one process; the set [imports] of cwlupgrader *)
    Context {P U : Type}.
    (** ruamel.yaml: load and dump of the YAML object of the tool *)
    Variable parse : string -> result json.
    Variable dump : json -> result string.
    (** [json.dump(..., indent=4)]: the text that is written, and the error it ends with, if any *)
    Variable encode : json -> string * option exn.
    (** [cwlupgrader.upgrade_document(result, args.dir, imports)]; it may write files *)
    Variable upgrade : string -> dict -> U -> files -> files * result (json * U).
    (** [Path(document).resolve().as_uri()] *)
    Variable path_uri : string -> string.
    (** [load_document_by_yaml] of v1.2: one process, or the list of those of a [$graph] *)
    Variable load : json -> string -> result (P + list P).
    (** cwl_v1_2_expression_refactor.traverse on one process; the flag [modified] is not used *)
    Variable traverse : bool -> bool -> bool -> bool -> P -> result P.
    (** [save(..., base_url=loadingOptions.fileuri)] *)
    Variable save : P -> result json.
    (** [tempfile.TemporaryDirectory()]: the name of a new directory *)
    Variable temporary : files -> string.

    (** normalizer.py:100-120.  [traverse] of a list returns it as it is
        (cwl_v1_2_expression_refactor.py:324-325). *)
    Definition refactored (o : flags) (result_ : json) (uri : string) : result json :=
      do loaded <- load result_ uri;
      match loaded with
      | inl p =>
          do p <- traverse (negb (etools o)) false (skip_some1 o) (skip_some2 o) p;
          save p
      | inr ps => do l <- mapM save ps; Ok (JList l)
      end.

    (** normalizer.py:121-128.  The document is packed where nothing but the document is; the
        temporary directory is gone afterwards. *)
    Definition packed_of (document : string) (result_ : json) (fs : files) (names : naming) : result (json * naming) :=
      do graph <- text_in "$graph" result_;
      if graph then Ok (result_, names)
      else
        let path := (temporary fs ++ "/" ++ base_name document)%string in
        do text <- dump result_;
        do ' (d, names) <- pack_file (fset path text fs) path names;
        Ok (JDict d, names).

    (** The state of a run: the files, the names given by packing (module-level, shared by all
        documents) and the imports seen by the upgrader *)
    Record state := State { s_files : files; s_names : naming; s_imports : U }.
    Definition with_files (fs : files) (st : state) : state := State fs (s_names st) (s_imports st).

    (** normalizer.py:83-131: one document *)
    Definition one_document (dir : string) (o : flags) (document : string) (st : state) : state * doc_end :=
      match read_file (s_files st) document with
      | Err e => (st, Raise e)
      | Ok text =>
        match parse text with
        | Err e => (st, Raise e)
        | Ok (JDict d) =>
          let '(st, upgraded) :=
            match dget "cwlVersion" d with
            | Some (JStr v) =>
                if smem v ["draft-3"; "cwl:draft-3"; "v1.0"; "v1.1"] then
                  match upgrade dir d (s_imports st) (s_files st) with
                  | (fs, Ok (j, u)) => (State fs (s_names st) u, Some (Ok j))
                  | (fs, Err e) => (with_files fs st, Some (Err e))
                  end
                else if String.eqb v "v1.2" then (st, Some (Ok (JDict d)))
                else (st, None)
            | _ => (st, None)
            end in
          match upgraded with
          | None => (st, Return (-1))
          | Some (Err e) => (st, Raise e)
          | Some (Ok j) =>
            match (do j <- (if no_expression_refactoring o then Ok j else refactored o j (path_uri document));
                   packed_of document j (s_files st) (s_names st)) with
            | Err e => (st, Raise e)
            | Ok (packed, names) =>
              let st := State (s_files st) names (s_imports st) in
              let output := output_path dir document in
              if writable output then
                let (text, failure) := encode packed in
                (with_files (fset output text (s_files st)) st,
                 match failure with None => Next false | Some e => Raise e end)
              else (st, Raise OSErrorE)
            end
          end
        | Ok _ => (st, Raise AttributeError)
        end
      end.

    (** normalizer.py:82-132 *)
    Fixpoint documents (dir : string) (o : flags) (docs : list string) (st : state) : state * result Z :=
      match docs with
      | [] => (st, Ok 0%Z)
      | d :: ds =>
          match one_document dir o d st with
          | (st, Next _) => documents dir o ds st
          | (st, Return c) => (st, Ok c)
          | (st, Raise e) => (st, Err e)
          end
      end.
    (** normalizer.py:77-132 run, in a process that has just started *)
    Definition normalize (dir : string) (o : flags) (inputs : list string) (no_imports : U) (fs : files) : state * result Z :=
      documents dir o inputs (State fs naming0 no_imports).
  End Normalize.

  (** ** pack_cli.py *)
  (** [json.dumps(packed, indent=...)] *)
  Variable dumps : Z -> json -> result string.
  (** the files, and what was written to the standard output *)
  Record world := World { w_files : files; w_stdout : string }.
  (** pack_cli.py:35-46 run.  A file that was opened is written without an error. *)
  Definition pack_cli (cwlfile : string) (outfile : option string) (indent : Z) (w : world) : world * result Z :=
    match (do ' (packed, _) <- pack_file (w_files w) cwlfile naming0; dumps indent (JDict packed)) with
    | Err e => (w, Err e)
    | Ok serialized =>
      match outfile with
      | None => (World (w_files w) (w_stdout w ++ serialized ++ nl), Ok 0%Z)
      | Some p =>
          if writable p then (World (fset p (serialized ++ nl) (w_files w)) (w_stdout w), Ok 0%Z)
          else (w, Err OSErrorE)
      end
    end.
End Packing.
