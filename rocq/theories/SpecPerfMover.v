(** What the ParticleMover benchmark is expected to do: after a repetition the
    particles below the boundary are on the left, all others on the right, and
    none is lost or doubled.  The order is not said. *)
From Coq Require Import ZArith List Bool Permutation.
Import ListNotations.
Local Open Scope Z_scope.

Definition sorted_by {P : Type} (below : P -> bool) (all lefts rights : list P) : Prop :=
  Permutation lefts (filter below all) /\ Permutation rights (filter (fun p => negb (below p)) all).

(** The boundary of the n-th repetition. *)
Definition boundary_of {T : Type} (flip : T -> T) (n : nat) (b : T) : T := Nat.iter n flip b.
