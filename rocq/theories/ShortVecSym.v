(** Symbolic runs of the short_vec member functions: lanes are terms.  A
    homomorphism of lane algebras commutes with every call
    (ShortVecNat.v), so what a symbolic run shows holds for all lanes. *)
From Coq Require Import String ZArith Bool List.
From Verif Require Import ShortVecLang ShortVecClass.
Import ListNotations.
Local Open Scope Z_scope.

Inductive term :=
| TVal (i : nat) | TOth (i : nat) | TMsk (i : nat) | TBit (i : nat)
| TPar (i : nat) | TArg
| TData (z : Z) | TOff (z : Z) | TPtr (t : term)
| TUn (u : uop) (t : term) | TBin (b : bop) (t u : term) | TSel (c t u : term)
| TLit (z : Z) | TUndef.

Definition talg : alg term :=
  mkAlg TUn TBin TSel TLit TData TOff TPtr TUndef.

Scheme Equality for ekind.
Scheme Equality for rel.
Scheme Equality for apx.
Scheme Equality for uop.
Scheme Equality for bop.

Fixpoint term_eqb (a b : term) : bool :=
  match a, b with
  | TVal i, TVal j | TOth i, TOth j | TMsk i, TMsk j | TBit i, TBit j
  | TPar i, TPar j => Nat.eqb i j
  | TArg, TArg => true
  | TData x, TData y | TOff x, TOff y | TLit x, TLit y => x =? y
  | TPtr t, TPtr u => term_eqb t u
  | TUn o t, TUn p u => uop_beq o p && term_eqb t u
  | TBin o t1 t2, TBin p u1 u2 => bop_beq o p && term_eqb t1 u1 && term_eqb t2 u2
  | TSel t1 t2 t3, TSel u1 u2 u3 => term_eqb t1 u1 && term_eqb t2 u2 && term_eqb t3 u3
  | TUndef, TUndef => true
  | _, _ => false
  end.

(** n registers of l lanes each, lane i being f i. *)
Definition regs {T : Type} (n l : nat) (f : nat -> T) : list (list T) :=
  map (fun r => map (fun j => f (r * l + j)%nat) (seq 0 l)) (seq 0 n).

(** The call with all lanes symbolic. *)
Definition sym_call (c : cls) (i mis omis : Z) (oal mal : bool) : call term :=
  let r := regs (c_nreg c) (c_lanes c) in
  mkCall (r TVal) (r TOth) (r TMsk) (map (fun i => Some (TBit i)) (seq 0 (c_arity c)))
         (r TPar) TArg i mis omis oal mal.
