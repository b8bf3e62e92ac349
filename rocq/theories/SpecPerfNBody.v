(** What the NBody benchmark is expected to compute: the motion of n charged
    particles, integrated by the explicit Euler method with a softened
    inverse-square force.  Nothing here refers to vectors, blocks or the order of
    stores. *)
From Coq Require Import ZArith List Bool.
From Verif Require Import Base Sph PerfNBody.
Import ListNotations.
Local Open Scope Z_scope.

Section Motion.
Context {T : Type} (K : arith T).
Local Notation "a +. b" := (r_add K a b) (at level 50, left associativity).
Local Notation "a -. b" := (r_sub K a b) (at level 50, left associativity).
Local Notation "a *. b" := (r_mul K a b) (at level 40, left associativity).
Local Notation "a /. b" := (r_div K a b) (at level 40, left associativity).
Local Notation "# z" := (r_num K z) (at level 5).
Notation particles := (coordinate -> Z -> T).

(** f 0 + ... + f (n - 1), from the left. *)
Fixpoint total (n : nat) (f : Z -> T) : T :=
  match n with O => #0 | S k => total k f +. f (Z.of_nat k) end.

Definition dt : T := #1 /. #1000.

(** The force between i and j divided by their distance vector, times dt. *)
Definition strength (p : particles) (i j : Z) : T :=
  let dx := p PosX i -. p PosX j in
  let dy := p PosY i -. p PosY j in
  let dz := p PosZ i -. p PosZ j in
  let d2 := dx *. dx +. dy *. dy +. dz *. dz +. #1 /. #10 in
  p Charge i *. p Charge j *. dt /. d2 /. r_sqrt K d2.

Definition force (axis : coordinate) (p : particles) (i j : Z) : T :=
  (p axis i -. p axis j) *. strength p i j.

(** One time step for the particles below [upto]; all n act on them. *)
Definition advance (upto : Z) (n : nat) (p : particles) : particles := fun c i =>
  if (0 <=? i) && (i <? upto) then
    match c with
    | PosX => p PosX i +. p VelX i *. dt
    | PosY => p PosY i +. p VelY i *. dt
    | PosZ => p PosZ i +. p VelZ i *. dt
    | VelX => p VelX i +. total n (force PosX p i)
    | VelY => p VelY i +. total n (force PosY p i)
    | VelZ => p VelZ i +. total n (force PosZ p i)
    | Charge => p Charge i
    end
  else p c i.

Fixpoint steps (r : nat) (upto : Z) (n : nat) (p : particles) : particles :=
  match r with O => p | S k => steps k upto n (advance upto n p) end.
End Motion.

(** The same particles, of n. *)
Definition agree {T : Type} (n : Z) (p q : coordinate -> Z -> T) : Prop :=
  forall c i, 0 <= i < n -> p c i = q c i.
