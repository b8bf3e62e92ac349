(** What a sweep of the JacobiD3Q7 benchmark is expected to compute: a filter
    with seven weights, on grids given as functions of the coordinates.  Nothing
    here refers to vectors, alignment or the text of the benchmarks. *)
From Coq Require Import ZArith List Bool.
From Verif Require Import Base Sph.
Import ListNotations.
Local Open Scope Z_scope.

Section Filter.
Context {T : Type} (K : arith T).
Notation grid := (Z -> Z -> Z -> T).
Local Notation "a +. b" := (r_add K a b) (at level 50, left associativity).
Local Notation "a *. b" := (r_mul K a b) (at level 40, left associativity).
Local Notation "n %" := (r_div K (r_num K n) (r_num K 100)) (at level 6).

(** The filter: a weighted sum of a cell and its six neighbours. *)
Definition filter7 (g : grid) (x y z : Z) : T :=
  g x y (z - 1) *. 11 % +. g x (y - 1) z *. 12 % +. g (x - 1) y z *. 13 % +. g x y z *. 20 % +.
  g (x + 1) y z *. 15 % +. g x (y + 1) z *. 16 % +. g x y (z + 1) *. 17 %.

(** The same with the weight of the last neighbour also for the second one. *)
Definition filter_top (g : grid) (x y z : Z) : T :=
  g x y (z - 1) *. 11 % +. g x (y - 1) z *. 17 % +. g (x - 1) y z *. 13 % +. g x y z *. 20 % +.
  g (x + 1) y z *. 15 % +. g x (y + 1) z *. 16 % +. g x y (z + 1) *. 17 %.

(** The sum without the cell itself, in two orders of addition. *)
Definition filter6 (g : grid) (x y z : Z) : T :=
  g x y (z - 1) *. 11 % +. g x (y - 1) z *. 12 % +. g (x - 1) y z *. 13 % +.
  g (x + 1) y z *. 15 % +. g x (y + 1) z *. 16 % +. g x y (z + 1) *. 17 %.
Definition filter6' (g : grid) (x y z : Z) : T :=
  g x (y - 1) z *. 12 % +. g x y (z - 1) *. 11 % +. g (x - 1) y z *. 13 % +.
  g (x + 1) y z *. 15 % +. g x (y + 1) z *. 16 % +. g x y (z + 1) *. 17 %.

(** How many cells the blocks of eight cover in a row of length [dx], starting at x = 2. *)
Definition in_blocks (dx x : Z) : bool := (2 <=? x) && (x <? 2 + 8 * ((dx - 3) / 8)).

(** The cell-wise functions of the species. *)
Definition pepper_cell (dx : Z) (g : grid) (x y z : Z) : T :=
  if in_blocks dx x then filter6' g x y z else filter_top g x y z.
Definition silver_cell (dx : Z) (g : grid) (x y z : Z) : T :=
  if in_blocks dx x then filter6' g x y z else filter7 g x y z.

(** Replace the cells with 1 <= x < endX in the interior rows. *)
Definition sweep (endX dy dz : Z) (f : grid -> grid) (g : grid) : grid := fun x y z =>
  if (1 <=? x) && (x <? endX) && (1 <=? y) && (y <? dy - 1) && (1 <=? z) && (z <? dz - 1)
  then f g x y z else g x y z.

Fixpoint iterate (n : nat) (s : grid -> grid) (g : grid) : grid :=
  match n with O => g | S k => iterate k s (s g) end.
End Filter.

(** [m] stores the grid [g] of dimensions dx, dy, dz, with rows [oy] and planes [oz] cells apart. *)
Definition stores_grid {T : Type} (oy oz dx dy dz : Z) (m : Z -> T) (g : Z -> Z -> Z -> T) : Prop :=
  forall x y z, 0 <= x < dx -> 0 <= y < dy -> 0 <= z < dz -> m (8 * (x + y * oy + z * oz)) = g x y z.
