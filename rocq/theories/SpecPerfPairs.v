(** What the benchmarks on pairs of particles are expected to compute. *)
From Coq Require Import ZArith List Bool.
Import ListNotations.
Local Open Scope Z_scope.

(** ** Velocities collected from the neighbours, in place *)
Section Velocities.
Context {T : Type} (add : T -> T -> T) (near : Z -> Z -> bool).

(** The velocity of i when the neighbours below k have been added: those below i
    have their new velocity, those above i the old one, i itself the present one. *)
Fixpoint collected (v v' : Z -> T) (i : Z) (k : nat) : T :=
  match k with
  | O => v i
  | S k =>
      let j := Z.of_nat k in
      let a := collected v v' i k in
      if near i j then add a (if j <? i then v' j else if j =? i then a else v j) else a
  end.
Definition collects (n : nat) (v v' : Z -> T) : Prop :=
  (forall i, 0 <= i < Z.of_nat n -> v' i = collected v v' i n) /\ (forall i, ~ 0 <= i < Z.of_nat n -> v' i = v i).

(** The velocities when the particles below k have given theirs to their
    neighbours among the n; a particle doubles its own before it gives it to those
    above. *)
Fixpoint given (n : Z) (v : Z -> T) (k : nat) (i : Z) : T :=
  match k with
  | O => v i
  | S k =>
      let j := Z.of_nat k in
      let u := given n v k in
      if (0 <=? i) && (i <? n) && near i j
      then add (u i) (if (j <? i) && near j j then add (u j) (u j) else u j) else u i
  end.
End Velocities.

(** ** Pairs within reach of each other *)
Definition number_of_pairs {P : Type} (near : P -> P -> bool) (all : list P) : Z :=
  Z.of_nat (length (filter (fun '(p, q) => near p q) (list_prod all all))).
