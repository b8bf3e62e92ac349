(** Specification side of C54: lists of macro arguments as token sequences and
    what the list macros are meant to yield.  Uses the tokens of Preproc.v, not
    its expansion. *)
From Coq Require Import String List Arith PArith.
From Coq Require Import DecimalString FMapPositive.
From Verif Require Import Preproc.
Import ListNotations.

Definition word (s : string) : tok := TId (spell s).

(** The decimal numeral. *)
Definition numeral (n : nat) : tok := TNum (spell (NilZero.string_of_uint (Nat.to_uint n))).

(** (e0)(e1)...(en) *)
Definition seq_of (l : list (list tok)) : list tok := concat (map (fun e => TLp :: e ++ [TRp]) l).

Fixpoint separated (l : list (list tok)) : list tok :=
  match l with
  | [] => []
  | [x] => x
  | x :: r => x ++ TComma :: separated r
  end.

(** NAME(a, b, c) *)
Definition call (name : tok) (args : list (list tok)) : list tok :=
  name :: TLp :: separated args ++ [TRp].

(** f 0 (first element), f 1 (second element), ... one after the other. *)
Fixpoint each_from (i : nat) (f : nat -> list tok -> list tok) (l : list (list tok)) : list tok :=
  match l with
  | [] => []
  | e :: r => f i e ++ each_from (S i) f r
  end.

(** f applied to the numeral, the extra argument and the element as macro arguments. *)
Definition callback (m : tok) (a : list tok) (i : nat) (e : list tok) : list tok :=
  call m [[numeral i]; a; e].

(** ** Admissible arguments *)

(** Parentheses match and commas occur only inside them. *)
Fixpoint bal (l : list tok) (d : nat) : bool :=
  match l with
  | [] => Nat.eqb d 0
  | TLp :: r => bal r (S d)
  | TRp :: r => match d with O => false | S d' => bal r d' end
  | TComma :: r => match d with O => false | S _ => bal r d end
  | _ :: r => bal r d
  end.

Definition balanced (l : list tok) : Prop := bal l 0 = true.

(** Not the name of a macro. *)
Definition plain_tok (tab : table) (t : tok) : Prop :=
  match t with TId p => PositiveMap.find p tab = None | _ => True end.

(** A macro argument in which there is nothing to expand. *)
Definition inert (tab : table) (l : list tok) : Prop :=
  balanced l /\ Forall (plain_tok tab) l.

(** ** Replacement *)

(** The replacement list of a macro with parameters [p1], [p2], [p3] called with
    the three arguments, if nothing in it is a macro and it has no ##. *)
Definition replace3 (p1 p2 p3 : spelling) (body : list tok) (a1 a2 a3 : list tok) : list tok :=
  concat (map (fun t => match t with
    | TId p => if Pos.eqb p p1 then a1 else if Pos.eqb p p2 then a2 else if Pos.eqb p p3 then a3 else [t]
    | _ => [t] end) body).
