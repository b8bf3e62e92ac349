(** What the kernels of the SPH example are expected to compute.  Nothing here
    refers to vectors, buffers or loop peeling. *)
From Coq Require Import ZArith List Bool Ring_theory.
From Verif Require Import Base Peeler Sph.
Import ListNotations.
Local Open Scope Z_scope.

(** Exact arithmetic: a commutative ring; division multiplies by some kind of
    inverse.  Square roots, order and pi are arbitrary. *)
Record exact {T : Type} (K : arith T) : Prop := {
  ex_ring : ring_theory (r_num K 0) (r_num K 1) (r_add K) (r_mul K) (r_sub K) (r_neg K) eq;
  ex_div : exists inv, forall a b, r_div K a b = r_mul K a (inv b) }.

Section Physics.
Context {T : Type} (K : arith T).
Local Notation "a +. b" := (r_add K a b) (at level 50, left associativity).
Local Notation "a -. b" := (r_sub K a b) (at level 50, left associativity).
Local Notation "a *. b" := (r_mul K a b) (at level 40, left associativity).
Local Notation "a /. b" := (r_div K a b) (at level 40, left associativity).
Local Notation "# z" := (r_num K z) (at level 5).

Definition total (l : list Z) (f : Z -> T) : T := fold_right (fun i s => f i +. s) #0 l.

(** All particles but i. *)
Definition others (n i : Z) : list Z := filter (fun j => negb (j =? i)) (range 0 n).

Definition distance_squared (p : particles T) (i j : Z) : T :=
  (pos_x p i -. pos_x p j) *. (pos_x p i -. pos_x p j) +. (pos_y p i -. pos_y p j) *. (pos_y p i -. pos_y p j).

(** Density: what a particle alone has, and what a neighbour within distance h
    adds, (4 m / pi h^8) (h^2 - d^2)^3. *)
Definition self_density (h mass : T) : T := #4 *. mass /. r_pi K /. (h *. h).

Definition neighbour_density (h mass : T) (p : particles T) (i j : Z) : T :=
  let o := h *. h -. distance_squared p i j in
  if r_lt K #0 o
  then (#4 *. mass /. r_pi K /. (h *. h *. (h *. h) *. (h *. h) *. (h *. h))) *. o *. o *. o
  else #0.

Definition density (n : Z) (h mass : T) (p : particles T) (i : Z) : T :=
  self_density h mass +. total (others n i) (neighbour_density h mass p i).

(** The force of particle j on particle i, along the coordinate [pos] with
    velocities [vel]. *)
Definition force (mass h k rho0 mu : T) (pos vel : particles T -> Z -> T) (p : particles T) (i j : Z) : T :=
  let d2 := distance_squared p i j in
  if r_lt K d2 (h *. h) then
    let q := r_sqrt K d2 /. h in
    let w := mass /. r_pi K /. (h *. h *. (h *. h)) *. (#1 -. q) /. rho p i /. rho p j in
    w *. (#15 *. k) *. (rho p i +. rho p j -. #2 *. rho0) *. (#1 -. q) /. q *. (pos p i -. pos p j) +.
    w *. (#(-40) *. mu) *. (vel p i -. vel p j)
  else #0.

(** Acceleration: [start] (nothing, or gravity) and the forces of the others. *)
Definition acceleration (n : Z) (mass h k rho0 mu start : T) (pos vel : particles T -> Z -> T)
    (p : particles T) (i : Z) : T :=
  start +. total (others n i) (force mass h k rho0 mu pos vel p i).

(** ** Ghosts
    The C density kernel, except that particle i is also compared with all
    particles up to [upto i], beyond the n that exist. *)
Definition density_with_ghosts (upto : Z -> Z) (n : Z) (h mass : T) (p : particles T) : particles T :=
  let r := fold_left (fun r i => put r i (self_density h mass)) (range 0 n) (rho p) in
  mkP (fold_left (fun r i =>
         fold_left (density_pair K (#4 *. mass /. r_pi K /. (h *. h *. (h *. h) *. (h *. h) *. (h *. h))) (h *. h) p i)
                   (range (i + 1) (upto i)) r) (range 0 n) r)
      (pos_x p) (pos_y p) (v_x p) (v_y p) (a_x p) (a_y p).

End Physics.
