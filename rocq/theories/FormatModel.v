(** * Model of src/cwl_utils/file_formats.py *)
From Verif Require Import PyBase.

(** rdflib terms that can occur in an ontology.  rdflib: a URIRef, a BNode and a
    Literal are different even when their texts are the same. *)
Inductive term : Set := Uri (s : string) | Blank (s : string) | Lit (s : string).

(** What formatSubclassOf is called with: a plain Python string (the first call) or
    a term of the ontology (the recursive calls).  A plain string is never equal to
    a term with the same text (rdflib compares types), which matters for the
    [visited] set. *)
Inductive ident : Set := Plain (s : string) | Term (t : term).

(** the text of an rdflib term, which [URIRef(fmt)] takes (file_formats.py:19, 30) *)
Definition term_text (t : term) : string :=
  match t with Uri s | Blank s | Lit s => s end.
(** the text of the argument [fmt] (file_formats.py:19, 30) *)
Definition text (x : ident) : string :=
  match x with Plain s => s | Term t => term_text t end.

(** equality of rdflib terms, used by [in visited] (file_formats.py:25) *)
Definition term_eqb (a b : term) : bool :=
  match a, b with
  | Uri x, Uri y | Blank x, Blank y | Lit x, Lit y => String.eqb x y
  | _, _ => false
  end.
(** equality of two values of [fmt], used by [in visited] (file_formats.py:25) *)
Definition ident_eqb (a b : ident) : bool :=
  match a, b with
  | Plain x, Plain y => String.eqb x y
  | Term x, Term y => term_eqb x y
  | _, _ => false
  end.

(** RDFS.subClassOf, OWL.equivalentClass and all other predicates. *)
Inductive predicate : Set := SubClassOf | EquivalentClass | OtherPredicate (s : string).
Definition pred_eqb (a b : predicate) : bool :=
  match a, b with
  | SubClassOf, SubClassOf | EquivalentClass, EquivalentClass => true
  | OtherPredicate x, OtherPredicate y => String.eqb x y
  | _, _ => false
  end.
Definition triple : Set := (term * predicate * term)%type.
Definition graph := list triple.

(** [ontology.triples((s, p, None))], objects *)
Definition objects (g : graph) (s : term) (p : predicate) : list term :=
  map (fun t => snd t) (filter (fun t => term_eqb (fst (fst t)) s && pred_eqb (snd (fst t)) p) g).
(** [ontology.triples((None, p, o))], subjects *)
Definition subjects (g : graph) (p : predicate) (o : term) : list term :=
  map (fun t => fst (fst t)) (filter (fun t => term_eqb (snd t) o && pred_eqb (snd (fst t)) p) g).

(** [fmt in visited] (file_formats.py:25) *)
Definition visited_mem (x : ident) (l : list ident) : bool := existsb (ident_eqb x) l.

(** A [for] loop of formatSubclassOf: stop at the first recursive call that
    answers true.  [visited] is the shared mutable set. *)
Fixpoint search (rec : ident -> list ident -> result (bool * list ident))
         (l : list term) (visited : list ident) : result (bool * list ident) :=
  match l with
  | [] => Ok (false, visited)
  | o :: l' =>
      do ' (b, visited') <- rec (Term o) visited;
      if b then Ok (true, visited') else search rec l' visited'
  end.

(** file_formats.py:15-47; [cls] and [ontology] are constant through the recursion. *)
Fixpoint subclass (fuel : nat) (cls : string) (ontology : option graph) (fmt : ident)
         (visited : list ident) : result (bool * list ident) :=
  match fuel with
  | O => Err OutOfFuel
  | S fuel =>
    if String.eqb (text fmt) cls then Ok (true, visited)
    else match ontology with
    | None => Ok (false, visited)
    | Some g =>
      if visited_mem fmt visited then Ok (false, visited)
      else
        let visited := fmt :: visited in
        let u := Uri (text fmt) in
        do ' (b, visited) <- search (subclass fuel cls ontology) (objects g u SubClassOf) visited;
        if b then Ok (true, visited) else
        do ' (b, visited) <- search (subclass fuel cls ontology) (objects g u EquivalentClass) visited;
        if b then Ok (true, visited) else
        do ' (b, visited) <- search (subclass fuel cls ontology) (subjects g EquivalentClass u) visited;
        if b then Ok (true, visited) else Ok (false, visited)
    end
  end.

(** enough steps for file_formats.py:15-47: every call but the leaves adds a new term to
    [visited]; FormatProofs.v proves that it is enough *)
Definition subclass_fuel (ontology : option graph) : nat :=
  2 * List.length (match ontology with Some g => g | None => [] end) + 2.

(** the call [formatSubclassOf(fmt, cls, ontology, set())] *)
Definition formatSubclassOf (fmt cls : string) (ontology : option graph) : result bool :=
  do ' (b, _) <- subclass (subclass_fuel ontology) cls ontology (Plain fmt) []; Ok b.

(** [not afile]: only files as mappings, and null, are modelled *)
Definition file_empty (afile : option dict) : bool :=
  match afile with None | Some [] => true | _ => false end.

(** file_formats.py:63-67: the inner loop; true = [return] was reached. *)
Fixpoint any_format (f : string) (input_formats : list string) (ontology : option graph)
  : result bool :=
  match input_formats with
  | [] => Ok false
  | inpf :: l =>
      if String.eqb f inpf then Ok true
      else do b <- formatSubclassOf f inpf ontology;
           if b then Ok true else any_format f l ontology
  end.

(** file_formats.py:50-70.  A file is a mapping or null; a single file or format is
    the one-element list [aslist] makes of it; a "format" that is not a string is
    outside the model (TypeError). *)
Fixpoint check_format (actual_file : list (option dict)) (input_formats : list string)
         (ontology : option graph) : result unit :=
  match actual_file with
  | [] => Ok tt
  | afile :: l =>
      if file_empty afile then check_format l input_formats ontology
      else match afile with
      | None => Ok tt
      | Some d =>
          match dget "format" d with
          | None => Err ValidationException
          | Some (JStr f) =>
              do b <- any_format f input_formats ontology;
              if b then Ok tt else Err ValidationException
          | Some _ => Err TypeError
          end
      end
  end.
