(** * Common vocabulary: Python exceptions, strings, JSON/YAML values and dicts.

    Nothing here models cwl-utils itself; it models the parts of the Python
    language and standard types the modelled functions use. *)
From Coq Require Export List Arith ZArith Lia Bool.
From Coq Require Export Ascii String.
Export ListNotations.
Open Scope string_scope.
Open Scope list_scope.
Open Scope nat_scope.

(** ** Exceptions as values.  One constructor per Python exception class that
    the modelled code can raise (messages are not modelled, except where a model
    says so). *)
Inductive exn : Set :=
| SubstitutionError | WorkflowException | JavascriptException
| ValidationException | GraphTargetMissingException | MissingKeyField
| MissingTypeName | ArrayMissingItems | RecordMissingFields
| RuntimeError | KeyError | IndexError | TypeError | AttributeError
| ValueError | NotImplementedError | FileNotFoundError | OSErrorE
| SystemExitE | GenericException | OutOfFuel.

Inductive result (A : Type) : Type :=
| Ok (a : A)
| Err (e : exn).
Arguments Ok {A} a.
Arguments Err {A} e.

Definition bind {A B} (r : result A) (f : A -> result B) : result B :=
  match r with Ok a => f a | Err e => Err e end.
Notation "'do' x <- r ; k" := (bind r (fun x => k))
  (at level 200, x name, r at level 100, k at level 200).
Notation "'do' ' p <- r ; k" := (bind r (fun x => let p := x in k))
  (at level 200, p pattern, r at level 100, k at level 200).

(** [for x in xs: acc += f x], stopping at the first exception. *)
Fixpoint mapM {A B} (f : A -> result B) (xs : list A) : result (list B) :=
  match xs with
  | [] => Ok []
  | x :: xs' => do y <- f x; do ys <- mapM f xs'; Ok (y :: ys)
  end.

Fixpoint foldM {A S} (f : S -> A -> result S) (xs : list A) (s : S) : result S :=
  match xs with
  | [] => Ok s
  | x :: xs' => do s' <- f s x; foldM f xs' s'
  end.

(** ** Characters *)
Definition ch (n : nat) : ascii := ascii_of_nat n.
Definition c_nl : ascii := "010"%char.
Definition c_dq : ascii := "034"%char.
Definition c_sq : ascii := "039"%char.
Definition c_bs : ascii := "092"%char.

(** ** Strings *)

(** [s[n:]] for n >= 0 *)
Fixpoint sdrop (n : nat) (s : string) : string :=
  match n, s with
  | O, _ => s
  | S n', EmptyString => EmptyString
  | S n', String _ s' => sdrop n' s'
  end.

(** [s[:n]] for n >= 0 *)
Fixpoint stake (n : nat) (s : string) : string :=
  match n, s with
  | O, _ => EmptyString
  | S n', EmptyString => EmptyString
  | S n', String c s' => String c (stake n' s')
  end.

(** [s[a:b]] for 0 <= a <= b *)
Definition sslice (a b : nat) (s : string) : string := sdrop a (stake b s).

(** [s[:-n]] for n >= 1 *)
Definition sdrop_last (n : nat) (s : string) : string :=
  stake (String.length s - n) s.

(** [s.startswith(p)] *)
Definition startswith (p s : string) : bool := String.prefix p s.

Fixpoint srev_app (s acc : string) : string :=
  match s with
  | EmptyString => acc
  | String c s' => srev_app s' (String c acc)
  end.
Definition srev (s : string) : string := srev_app s EmptyString.

(** [s.endswith(p)] *)
Definition endswith (p s : string) : bool :=
  Nat.leb (String.length p) (String.length s)
  && String.eqb (sdrop (String.length s - String.length p) s) p.

(** [p in s] *)
Fixpoint contains (p s : string) : bool :=
  startswith p s ||
  match s with
  | EmptyString => false
  | String _ s' => contains p s'
  end.

(** [c in s] *)
Fixpoint has_char (c : ascii) (s : string) : bool :=
  match s with
  | EmptyString => false
  | String d s' => Ascii.eqb c d || has_char c s'
  end.

(** [s.split(c)] for a one-character separator: always a non-empty list. *)
Fixpoint split_char (c : ascii) (s : string) : list string :=
  match s with
  | EmptyString => [EmptyString]
  | String d s' =>
      if Ascii.eqb d c then EmptyString :: split_char c s'
      else match split_char c s' with
           | [] => [String d EmptyString]
           | h :: t => String d h :: t
           end
  end.

(** [sep.join(l)] *)
Definition sjoin (sep : string) (l : list string) : string := String.concat sep l.

(** [s.replace(c, r)] for a one-character pattern *)
Fixpoint replace_char (c : ascii) (r : string) (s : string) : string :=
  match s with
  | EmptyString => EmptyString
  | String d s' =>
      if Ascii.eqb d c then r ++ replace_char c r s'
      else String d (replace_char c r s')
  end%string.

(** [s.lstrip(c)] *)
Fixpoint lstrip_char (c : ascii) (s : string) : string :=
  match s with
  | String d s' => if Ascii.eqb d c then lstrip_char c s' else s
  | EmptyString => EmptyString
  end.

(** ASCII whitespace as [str.strip()] sees it (Unicode whitespace is not
    modelled): tab, newline, VT, FF, CR, FS, GS, RS, US, space. *)
Definition is_space (c : ascii) : bool :=
  let n := nat_of_ascii c in
  (Nat.leb 9 n && Nat.leb n 13) || (Nat.leb 28 n && Nat.leb n 32).

Fixpoint lstrip (s : string) : string :=
  match s with
  | String d s' => if is_space d then lstrip s' else s
  | EmptyString => EmptyString
  end.
Definition rstrip (s : string) : string := srev (lstrip (srev s)).
(** [s.strip()] *)
Definition strip (s : string) : string := rstrip (lstrip s).

Definition is_digit (c : ascii) : bool :=
  let n := nat_of_ascii c in Nat.leb 48 n && Nat.leb n 57.
Definition is_upper (c : ascii) : bool :=
  let n := nat_of_ascii c in Nat.leb 65 n && Nat.leb n 90.
Definition is_lower (c : ascii) : bool :=
  let n := nat_of_ascii c in Nat.leb 97 n && Nat.leb n 122.
(** regular-expression class [\w], restricted to ASCII *)
Definition is_word (c : ascii) : bool :=
  is_digit c || is_upper c || is_lower c || Ascii.eqb c "_".

Fixpoint sforall (p : ascii -> bool) (s : string) : bool :=
  match s with
  | EmptyString => true
  | String c s' => p c && sforall p s'
  end.

Fixpoint smap (f : ascii -> ascii) (s : string) : string :=
  match s with
  | EmptyString => EmptyString
  | String c s' => String (f c) (smap f s')
  end.

Definition upper_char (c : ascii) : ascii :=
  if is_lower c then ascii_of_nat (nat_of_ascii c - 32) else c.
Definition lower_char (c : ascii) : ascii :=
  if is_upper c then ascii_of_nat (nat_of_ascii c + 32) else c.

(** ** JSON / YAML values.  A float is kept as its printed text. *)
Inductive json : Type :=
| JNull
| JBool (b : bool)
| JInt (z : Z)
| JFloat (s : string)
| JStr (s : string)
| JList (l : list json)
| JDict (d : list (string * json)).

Definition dict := list (string * json).

Section JsonInd.
  Variable P : json -> Prop.
  Hypothesis Hnull : P JNull.
  Hypothesis Hbool : forall b, P (JBool b).
  Hypothesis Hint : forall z, P (JInt z).
  Hypothesis Hfloat : forall s, P (JFloat s).
  Hypothesis Hstr : forall s, P (JStr s).
  Hypothesis Hlist : forall l, Forall P l -> P (JList l).
  Hypothesis Hdict : forall d, Forall (fun kv => P (snd kv)) d -> P (JDict d).
  Fixpoint json_ind' (j : json) : P j :=
    match j with
    | JNull => Hnull
    | JBool b => Hbool b
    | JInt z => Hint z
    | JFloat s => Hfloat s
    | JStr s => Hstr s
    | JList l =>
        Hlist l ((fix go (l : list json) : Forall P l :=
                    match l with
                    | [] => Forall_nil _
                    | x :: l' => Forall_cons x (json_ind' x) (go l')
                    end) l)
    | JDict d =>
        Hdict d ((fix go (d : list (string * json)) : Forall (fun kv => P (snd kv)) d :=
                    match d with
                    | [] => Forall_nil _
                    | kv :: d' => Forall_cons kv (json_ind' (snd kv)) (go d')
                    end) d)
    end.
End JsonInd.

(** Python [==] on values (dict equality in the model is order-sensitive). *)
Fixpoint json_eqb (a b : json) : bool :=
  match a, b with
  | JNull, JNull => true
  | JBool x, JBool y => Bool.eqb x y
  | JInt x, JInt y => Z.eqb x y
  | JFloat x, JFloat y => String.eqb x y
  | JStr x, JStr y => String.eqb x y
  | JList x, JList y =>
      (fix go (x y : list json) : bool :=
         match x, y with
         | [], [] => true
         | a :: x', b :: y' => json_eqb a b && go x' y'
         | _, _ => false
         end) x y
  | JDict x, JDict y =>
      (fix go (x y : list (string * json)) : bool :=
         match x, y with
         | [], [] => true
         | (k, a) :: x', (k', b) :: y' => String.eqb k k' && json_eqb a b && go x' y'
         | _, _ => false
         end) x y
  | _, _ => false
  end.

(** ** Dicts: insertion-ordered association lists *)
Section Dict.
  Context {V : Type}.
  (** [d.get(k)] *)
  Fixpoint dget (k : string) (d : list (string * V)) : option V :=
    match d with
    | [] => None
    | (k', v) :: d' => if String.eqb k k' then Some v else dget k d'
    end.
  (** [k in d] *)
  Definition dmem (k : string) (d : list (string * V)) : bool :=
    match dget k d with Some _ => true | None => false end.
  (** [d[k] = v]: replaces in place or appends *)
  Fixpoint dset (k : string) (v : V) (d : list (string * V)) : list (string * V) :=
    match d with
    | [] => [(k, v)]
    | (k', v') :: d' => if String.eqb k k' then (k', v) :: d' else (k', v') :: dset k v d'
    end.
  (** [d.pop(k, None)] / [del d[k]] *)
  Definition dpop (k : string) (d : list (string * V)) : list (string * V) :=
    filter (fun kv => negb (String.eqb k (fst kv))) d.
  (** [d.update(e)] *)
  Definition dupdate (d e : list (string * V)) : list (string * V) :=
    fold_left (fun acc kv => dset (fst kv) (snd kv) acc) e d.
  Definition dkeys (d : list (string * V)) : list string := map fst d.
  (** what it means for an association list to be a Python dict *)
  Definition wf_dict (d : list (string * V)) : Prop := NoDup (dkeys d).
End Dict.

(** [x in l] for a list of strings *)
Definition smem (x : string) (l : list string) : bool :=
  existsb (String.eqb x) l.

Definition is_ok {A} (r : result A) : bool := match r with Ok _ => true | Err _ => false end.

(** [except Exception]: true for subclasses of Exception; the sbpack errors of
    errors.py:5-28 and SystemExit derive from BaseException directly.  Running out
    of fuel is not an exception of the program and is never caught. *)
Definition is_Exception (e : exn) : bool :=
  match e with
  | SystemExitE | MissingKeyField | MissingTypeName | ArrayMissingItems
  | RecordMissingFields | OutOfFuel => false
  | _ => true
  end.

(** [s.replace(ab, r)] for a two-character pattern: non-overlapping occurrences,
    left to right. *)
Fixpoint replace2 (a b : ascii) (r : string) (s : string) : string :=
  match s with
  | EmptyString => EmptyString
  | String c s' =>
      match s' with
      | String d s'' =>
          if Ascii.eqb c a && Ascii.eqb d b then (r ++ replace2 a b r s'')%string
          else String c (replace2 a b r s')
      | EmptyString => String c EmptyString
      end
  end.
