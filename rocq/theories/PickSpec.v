(** * pickValue, and the part of JavaScript in which the tool writes it down *)
From Verif Require Import PyBase RefactorSpec FlowSpec FlowValueSpec.
From Verif Require Import RefactorModel FlowModel. (* for the types of documents and the texts of C61 *)

(** ** What pickValue means (CWL v1.2, pickValue): [None] is an error *)
Definition AllNull (l : list json) : Prop := Forall (fun v => v = JNull) l.
Inductive Kept : list json -> list json -> Prop :=
| K_nil : Kept [] []
| K_null l l' : Kept l l' -> Kept (JNull :: l) l'
| K_value v l l' : v <> JNull -> Kept l l' -> Kept (v :: l) (v :: l').
Inductive Picked : string -> list json -> option json -> Prop :=
| P_first a v b : AllNull a -> v <> JNull -> Picked "first_non_null" (a ++ v :: b) (Some v)
| P_first_none l : AllNull l -> Picked "first_non_null" l None
| P_only a v b : AllNull a -> v <> JNull -> AllNull b -> Picked "the_only_non_null" (a ++ v :: b) (Some v)
| P_only_none l : AllNull l -> Picked "the_only_non_null" l None
| P_only_two a v b w c : v <> JNull -> w <> JNull -> Picked "the_only_non_null" (a ++ v :: b ++ w :: c) None
| P_all l l' : Kept l l' -> Picked "all_non_null" l (Some (JList l')).


(** ** A part of JavaScript *)
Inductive jexpr :=
| ENum (n : string)                 (* 0 *)
| ENull                             (* null *)
| EEmpty                            (* [] *)
| EText (s : string)                (* 's' *)
| EVar (x : string)
| EDot (x f : string)               (* x.f *)
| EIndex (x i : string)             (* x[i] *)
| EDiffers (a b : jexpr)            (* a !== b *)
| ELess (a b : jexpr)               (* a < b *)
| EPlus (a b : jexpr)               (* a + b *)
| ECall (body : list jstmt)         (* function(){body}() *)
| EResult (e : jexpr)               (* {"result": e} *)
with jstmt :=
| SVar (x : string) (e : jexpr)     (* var x = e; *)
| SSet (x : string) (e : jexpr)     (* x = e; *)
| SPush (x : string) (e : jexpr)    (* x.push(e); *)
| SReturn (e : jexpr)               (* return e; *)
| SThrow (e : jexpr)                (* throw e; *)
| SIf (c : jexpr) (yes : list jstmt) (no : option (list jstmt))
| SFor (i : string) (bound : jexpr) (body : list jstmt)      (* for (let i = 0; i < bound; i++) { body } *)
| SEach (x item : string) (body : list jstmt).               (* x.forEach(function(item) { body }) and a line break *)

(** *** How it is written: words, texts, signs.  A line break counts only after a closing
    parenthesis, where it ends the statement. *)
Inductive token := TWord (s : string) | TText (s : string) | TSign (s : string) | TLine.

Definition is_run (c : ascii) : bool := existsb (Ascii.eqb c) ["!"; "="; "+"; "<"]%char.
Inductive place := Between | InWord (w : string) | InRun (w : string) | InText (q : ascii) (w : string).
Definition close (p : place) : list token :=
  match p with InWord w => [TWord w] | InRun w => [TSign w] | _ => [] end.
Fixpoint tokens (p : place) (after_paren : bool) (s : string) : list token :=
  match s with
  | EmptyString => close p
  | String c s' =>
      match p with
      | InText q w => if Ascii.eqb c q then TText w :: tokens Between false s' else tokens (InText q (w ++ String c "")) false s'
      | _ =>
          if is_word c then
            match p with InWord w => tokens (InWord (w ++ String c "")) false s' | _ => close p ++ tokens (InWord (String c "")) false s' end
          else if is_run c then
            match p with InRun w => tokens (InRun (w ++ String c "")) false s' | _ => close p ++ tokens (InRun (String c "")) false s' end
          else close p ++
            (if Ascii.eqb c c_nl then (if after_paren then [TLine] else []) ++ tokens Between false s'
             else if Ascii.eqb c " " then tokens Between after_paren s'
             else if Ascii.eqb c "'" || Ascii.eqb c c_dq then tokens (InText c "") false s'
             else TSign (String c "") :: tokens Between (Ascii.eqb c ")") s')
      end
  end.

Section Written.
  Local Notation s := TSign.
  Local Notation w := TWord.
  Fixpoint expr_tokens (e : jexpr) : list token :=
    match e with
    | ENum n => [w n] | ENull => [w "null"] | EEmpty => [s "["; s "]"] | EText t => [TText t] | EVar x => [w x]
    | EDot x f => [w x; s "."; w f] | EIndex x i => [w x; s "["; w i; s "]"]
    | EDiffers a b => expr_tokens a ++ s "!==" :: expr_tokens b
    | ELess a b => expr_tokens a ++ s "<" :: expr_tokens b
    | EPlus a b => expr_tokens a ++ s "+" :: expr_tokens b
    | ECall body => [w "function"; s "("; s ")"; s "{"] ++ flat_map stmt_tokens body ++ [s "}"; s "("; s ")"]
    | EResult e => [s "{"; TText "result"; s ":"] ++ expr_tokens e ++ [s "}"]
    end
  with stmt_tokens (x : jstmt) : list token :=
    match x with
    | SVar x e => [w "var"; w x; s "="] ++ expr_tokens e ++ [s ";"]
    | SSet x e => [w x; s "="] ++ expr_tokens e ++ [s ";"]
    | SPush x e => [w x; s "."; w "push"; s "("] ++ expr_tokens e ++ [s ")"; s ";"]
    | SReturn e => w "return" :: expr_tokens e ++ [s ";"]
    | SThrow e => w "throw" :: expr_tokens e ++ [s ";"]
    | SIf c yes no => [w "if"; s "("] ++ expr_tokens c ++ [s ")"; s "{"] ++ flat_map stmt_tokens yes ++ [s "}"] ++
        match no with Some l => [w "else"; s "{"] ++ flat_map stmt_tokens l ++ [s "}"] | None => [] end
    | SFor i bound body => [w "for"; s "("; w "let"; w i; s "="; w "0"; s ";"; w i; s "<"] ++ expr_tokens bound ++
        [s ";"; w i; s "++"; s ")"; s "{"] ++ flat_map stmt_tokens body ++ [s "}"]
    | SEach x item body => [w x; s "."; w "forEach"; s "("; w "function"; s "("; w item; s ")"; s "{"] ++
        flat_map stmt_tokens body ++ [s "}"; s ")"; TLine]
    end.
End Written.

(** the text is the program *)
Definition Writes (text : string) (prog : list jstmt) : Prop := tokens Between false text = flat_map stmt_tokens prog.

(** *** What it does *)
Definition env := string -> option json.
Definition bind (x : string) (v : option json) (r : env) : env := fun y => if String.eqb y x then v else r y.
(** an expression has a value or throws *)
Inductive evaluated := Value (v : json) | Thrown.
(** statements go on with new values of the variables, return or throw *)
Inductive outcome := Goes (r : env) | Returns (v : json) | Throws.
Definition ends (o : outcome) : Prop := match o with Goes _ => False | _ => True end.
(** a variable of a block is gone afterwards *)
Definition leave (x : string) (r : env) (o : outcome) : outcome := match o with Goes r' => Goes (bind x (r x) r') | _ => o end.
Definition is_null (v : json) : bool := match v with JNull => true | _ => false end.

(** Left out: comparing other than with null, numbers other than 0, the value that is thrown,
    returning from a callback, two names for one array. *)
Inductive Eval (r : env) : jexpr -> evaluated -> Prop :=
| E_zero : Eval r (ENum "0") (Value (JInt 0))
| E_null : Eval r ENull (Value JNull)
| E_empty : Eval r EEmpty (Value (JList []))
| E_text s : Eval r (EText s) (Value (JStr s))
| E_var x v : r x = Some v -> Eval r (EVar x) (Value v)
| E_field x f d v : r x = Some (JDict d) -> dget f d = Some v -> Eval r (EDot x f) (Value v)
| E_length x l : r x = Some (JList l) -> Eval r (EDot x "length") (Value (JInt (Z.of_nat (List.length l))))
| E_index x i l n v : r x = Some (JList l) -> r i = Some (JInt (Z.of_nat n)) -> nth_error l n = Some v -> Eval r (EIndex x i) (Value v)
| E_differs a v : Eval r a (Value v) -> Eval r (EDiffers a ENull) (Value (JBool (negb (is_null v))))
| E_less a b x y : Eval r a (Value (JInt x)) -> Eval r b (Value (JInt y)) -> Eval r (ELess a b) (Value (JBool (x <? y)%Z))
| E_call body v : Exec r body (Returns v) -> Eval r (ECall body) (Value v)
| E_call_throws body : Exec r body Throws -> Eval r (ECall body) Thrown
| E_result e v : Eval r e (Value v) -> Eval r (EResult e) (Value (JDict [("result", v)]))
| E_result_throws e : Eval r e Thrown -> Eval r (EResult e) Thrown
with Exec (r : env) : list jstmt -> outcome -> Prop :=
| X_nil : Exec r [] (Goes r)
| X_next s l r' o : Exec1 r s (Goes r') -> Exec r' l o -> Exec r (s :: l) o
| X_ends s l o : Exec1 r s o -> ends o -> Exec r (s :: l) o
with Exec1 (r : env) : jstmt -> outcome -> Prop :=
| X_var x e v : Eval r e (Value v) -> Exec1 r (SVar x e) (Goes (bind x (Some v) r))
| X_var_throws x e : Eval r e Thrown -> Exec1 r (SVar x e) Throws
| X_set x e v : Eval r e (Value v) -> Exec1 r (SSet x e) (Goes (bind x (Some v) r))
| X_set_throws x e : Eval r e Thrown -> Exec1 r (SSet x e) Throws
| X_push x e l v : r x = Some (JList l) -> Eval r e (Value v) -> Exec1 r (SPush x e) (Goes (bind x (Some (JList (l ++ [v]))) r))
| X_push_throws x e : Eval r e Thrown -> Exec1 r (SPush x e) Throws
| X_return e v : Eval r e (Value v) -> Exec1 r (SReturn e) (Returns v)
| X_return_throws e : Eval r e Thrown -> Exec1 r (SReturn e) Throws
| X_throw e : Exec1 r (SThrow e) Throws
| X_yes c yes no o : Eval r c (Value (JBool true)) -> Exec r yes o -> Exec1 r (SIf c yes no) o
| X_no c yes no o : Eval r c (Value (JBool false)) -> Exec r no o -> Exec1 r (SIf c yes (Some no)) o
| X_skip c yes : Eval r c (Value (JBool false)) -> Exec1 r (SIf c yes None) (Goes r)
| X_for i bound body o : Loop (bind i (Some (JInt 0)) r) i bound body o -> Exec1 r (SFor i bound body) (leave i r o)
| X_each x item body l o : r x = Some (JList l) -> Each r item body l o -> Exec1 r (SEach x item body) o
with Loop (r : env) : string -> jexpr -> list jstmt -> outcome -> Prop :=
| L_done i bound body : Eval r (ELess (EVar i) bound) (Value (JBool false)) -> Loop r i bound body (Goes r)
| L_again i bound body r' z o : Eval r (ELess (EVar i) bound) (Value (JBool true)) -> Exec r body (Goes r') ->
    r' i = Some (JInt z) -> Loop (bind i (Some (JInt (z + 1))) r') i bound body o -> Loop r i bound body o
| L_ends i bound body o : Eval r (ELess (EVar i) bound) (Value (JBool true)) -> Exec r body o -> ends o -> Loop r i bound body o
with Each (r : env) : string -> list jstmt -> list json -> outcome -> Prop :=
| A_done item body : Each r item body [] (Goes r)
| A_again item body v l r' o : Exec (bind item (Some v) r) body (Goes r') -> Each (bind item (r item) r') item body l o ->
    Each r item body (v :: l) o
| A_throws item body v l : Exec (bind item (Some v) r) body Throws -> Each r item body (v :: l) Throws.

(** The code of an expression, the text between [${] and [}], is the program [prog]. *)
Definition Code (text : string) (prog : list jstmt) : Prop :=
  exists code, text = ("${" ++ code ++ "}")%string /\ Writes code prog.
(** where it runs, only [inputs] is defined *)
Definition only_inputs (inputs : dict) : env := fun x => if String.eqb x "inputs" then Some (JDict inputs) else None.

(** ** The step for an output with pickValue *)

(** something is linked to the output *)
Definition Linked (o : woutput) : Prop := wo_source o <> SMany [] /\ forall x, wo_source o = SOne x -> ~ Fragment x "".
Record PickMade (o : woutput) (p : string) (g : wstep) : Prop := {
  pm_id : exists n, Fragment (wo_id o) n /\ ws_id g = ("_pickValue_workflow_step_" ++ n)%string;
  (* it is given what the output was given, as [self], and the tool declares that *)
  pm_self : Linked o -> exists i others, ws_in g = i :: others /\ si_id i = "self" /\ SameSource (wo_source o) (si_source i) /\
              si_linkMerge i = None /\ si_valueFrom i = None /\ si_default i = JNull /\ forall j, In j others -> StartsWith "_" (si_id j);
  pm_declares : exists t, ws_run g = RTool t /\ map ti_id (t_inputs t) = ["self"] /\ map to_id (t_outputs t) = ["result"];
  pm_scatter : ws_scatter g = SNone; pm_when : ws_when g = None;
  (* its code picks the value *)
  pm_text : exists text prog, Runs (ws_run g) text /\ Code text prog /\
    forall inputs l out, dget "self" inputs = Some (JList l) ->
      (Exec (only_inputs inputs) prog out <->
       (exists v, Picked p l (Some v) /\ out = Returns (JDict [("result", v)])) \/ (Picked p l None /\ out = Throws)) }.
(** an output afterwards *)
Definition PickAfter (steps : list wstep) (o o' : woutput) : Prop :=
  (wo_pick o = None \/ wo_pick o = Some "") /\ o' = o \/
  exists p g, wo_pick o = Some p /\ In g steps /\ PickMade o p g /\
    o' = {| wo_id := wo_id o; wo_source := SOne (ws_id g ++ "/result"); wo_pick := None |}.
