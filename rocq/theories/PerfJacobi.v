(** The JacobiD3Q7 benchmarks, examples/performance_tests/main.cpp:48-873.  Model
    only; proofs are in PerfJacobiProofs.v.

    Simplifications: arithmetic on double is arbitrary; integers are unbounded;
    memory holds one double per address; an access outside an allocation, or an
    aligned access (_mm_load_pd, _mm_stream_pd) at an address that is not a
    multiple of 16, is a failure (None).  Timing and the comparison that keeps
    the compiler from dropping the loops are left out, and so is the alignment of
    the vector accesses of Gold. *)
From Coq Require Import ZArith List Bool.
From Verif Require Import Base Peeler Layout Sizes Sph Lbm.
Import ListNotations.
Local Open Scope Z_scope.

Section Jacobi.
Context {T : Type} (K : arith T).

(** WEIGHT_S ... WEIGHT_N (main.cpp:48-54). *)
Definition hundredths (n : Z) : T := r_div K (r_num K n) (r_num K 100).
Definition WEIGHT_S : T := hundredths 11.
Definition WEIGHT_T : T := hundredths 12.
Definition WEIGHT_W : T := hundredths 13.
Definition WEIGHT_C : T := hundredths 20.
Definition WEIGHT_E : T := hundredths 15.
Definition WEIGHT_B : T := hundredths 16.
Definition WEIGHT_N : T := hundredths 17.

(** An allocation that starts at address [base] and has [size] bytes; [m] gives
    its contents by distance from the start. *)
Section Lines.
Context (base size : Z) (m : Z -> T) (offsetY offsetZ : Z).
Notation value := (option T).
Local Notation "a +. b" := (r_add (lift K) a b) (at level 50, left associativity).
Local Notation "a *. w" := (r_mul (lift K) a (Some w)) (at level 40, left associativity).

(** grid[i]; _mm_load_pd and _mm_loadu_pd: the lane [e] of the vector at grid + i. *)
Definition at_ (i : Z) : value := load m size (8 * i).
Definition aligned (a : Z) : bool := a mod 16 =? 0.
Definition load_pd (i e : Z) : value :=
  if aligned (base + 8 * i) then at_ (i + e) else None.
Definition loadu_pd (i e : Z) : value := at_ (i + e).

(** The seven-point sum at index i; [T] is the weight of the second term
    (main.cpp:140-148, 376-383; with WEIGHT_N for it: main.cpp:220-228 and 315-324). *)
Definition seven (t : T) (i : Z) : value :=
  at_ (i - 1 * offsetZ) *. WEIGHT_S +.
  at_ (i - 1 * offsetY) *. t +.
  at_ (i - 1) *. WEIGHT_W +.
  at_ (i + 0) *. WEIGHT_C +.
  at_ (i + 1) *. WEIGHT_E +.
  at_ (i + 1 * offsetY) *. WEIGHT_B +.
  at_ (i + 1 * offsetZ) *. WEIGHT_N.

(** ** Vanilla: updateLine (main.cpp:134-149) *)
Definition vanilla_line (xStart xEnd y z : Z) : list (Z * value) :=
  map (fun x => (8 * (x + y * offsetY + z * offsetZ), seven WEIGHT_T (x + y * offsetY + z * offsetZ))) (range xStart xEnd).

(** ** Pepper and Silver: eight doubles (main.cpp:231-313, 533-615)

    The four pairs sumA ... sumD; [p] = 0, 2, 4, 6 is the position of the pair.
    The stores are aligned ones, too; the new grid starts at [base']. *)
Definition pair (i p e : Z) : value :=
  let buf := load_pd (i - 1 * offsetZ + p) e *. WEIGHT_S in
  let sum := load_pd (i - 1 * offsetY + p) e *. WEIGHT_T in
  let sum := sum +. buf in
  let sum := sum +. loadu_pd (i - 1 + p) e *. WEIGHT_W in
  let sum := sum +. loadu_pd (i + 1 + p) e *. WEIGHT_E in
  let sum := sum +. load_pd (i + 1 * offsetY + p) e *. WEIGHT_B in
  sum +. load_pd (i + 1 * offsetZ + p) e *. WEIGHT_N.

Definition eight (base' i : Z) : list (Z * value) :=
  flat_map (fun p => map (fun e =>
    (8 * (i + p + e), if aligned (base' + 8 * (i + p)) then pair i p e else None)) [0; 1]) [0; 2; 4; 6].

(** for (; i < stop; i += 8): the blocks, and where the loop ends. *)
Fixpoint eights (fuel : nat) (base' i stop : Z) : list (Z * value) * Z :=
  match fuel with
  | O => ([], i)
  | S f => if i <? stop then let '(l, j) := eights f base' (i + 8) stop in (eight base' i ++ l, j) else ([], i)
  end.

(** Pepper: updateLine (main.cpp:203-326). *)
Definition pepper_line (base' xStart xEnd y z : Z) : list (Z * value) :=
  let row := y * offsetY + z * offsetZ in
  let first := if xStart mod 2 =? 0 then [] else [(8 * (xStart + row), seven WEIGHT_N (xStart + row))] in
  let x := if xStart mod 2 =? 0 then xStart else xStart + 1 in
  let '(l, i) := eights (Z.to_nat (xEnd - x)) base' (x + row) (xEnd - 7 + row) in
  first ++ l ++ map (fun i => (8 * i, seven WEIGHT_N i)) (range i (xEnd + row)).

(** Bronze: the loop over the indices (main.cpp:363-388). *)
Definition bronze_line (indexStart indexEnd : Z) : list (Z * value) :=
  map (fun i => (8 * i, seven WEIGHT_T i)) (range indexStart indexEnd).

(** Silver (main.cpp:502-630). *)
Definition silver_line (base' indexStart indexEnd : Z) : list (Z * value) :=
  let first := [(8 * indexStart, seven WEIGHT_T indexStart)] in
  let '(l, i) := eights (Z.to_nat (indexEnd - indexStart)) base' (indexStart + 1) (indexEnd - 7) in
  first ++ l ++ map (fun i => (8 * i, seven WEIGHT_T i)) (range i (indexEnd - 1)).

(** Gold: the body of update_line's loop for [A] lanes (main.cpp:772-786). *)
Definition gold_lanes (A i : Z) : list (Z * value) :=
  map (fun e => (8 * (i + e),
    at_ (i - offsetZ + e) *. WEIGHT_S +.
    at_ (i - offsetY + e) *. WEIGHT_T +.
    at_ (i - 1 + e) *. WEIGHT_W +.
    at_ (i + 1 + e) *. WEIGHT_E +.
    at_ (i + offsetY + e) *. WEIGHT_B +.
    at_ (i + offsetZ + e) *. WEIGHT_N)) (zseq A).

(** update_line<SHORT_VEC> (main.cpp:749-793): stores, and the value of x behind it. *)
Fixpoint gold_loop (fuel : nat) (A row x end_x : Z) : list (Z * value) * Z :=
  match fuel with
  | O => ([], x)
  | S f => if x <? end_x then
             let '(l, j) := gold_loop f A row (x + A) end_x in (gold_lanes A (x + row) ++ l, j)
           else ([], x)
  end.

(** The line with the macro LIBFLATARRAY_LOOP_PEELER_TEMPLATE around
    (main.cpp:734-744, include/libflatarray/loop_peeler.hpp). *)
Definition gold_line (A dim_x y z : Z) : list (Z * value) :=
  let row := y * offsetY + z * offsetZ in
  let x := 1 in
  let end_x := dim_x - 1 in
  let remainder := x mod A in
  let next_stop := if remainder =? 0 then x else x + A - remainder in
  let last_stop := end_x - end_x mod A in
  let '(l1, x) := gold_loop (Z.to_nat (next_stop - x)) 1 row x next_stop in
  let '(l2, x) := gold_loop (Z.to_nat (last_stop - x)) A row x last_stop in
  let '(l3, x) := gold_loop (Z.to_nat (end_x - x)) 1 row x end_x in
  l1 ++ l2 ++ l3.
End Lines.

(** ** Sweeps

    The loops over z and y (main.cpp:118-124, 359-362, 498-500, 730-732). *)
Definition lines {A : Type} (dim_y dim_z : Z) (line : Z -> Z -> list A) : list A :=
  flat_map (fun z => flat_map (fun y => line y z) (range 1 (dim_y - 1))) (range 1 (dim_z - 1)).

(** Vanilla and Pepper: both grids in one vector, gridNew behind gridOld
    (main.cpp:101-104); the sweeps of the other species work on the extents [e]
    of two soa_grids of one double. *)
Definition vanilla (dim_x dim_y dim_z : Z) (old : Z -> T) : list (Z * option T) :=
  let offsetZ := dim_x * dim_y in
  lines dim_y dim_z (fun y z => vanilla_line (8 * (dim_x * dim_y * dim_z)) old dim_x offsetZ 1 (dim_x - 1) y z).

Definition pepper (base dim_x dim_y dim_z : Z) (old : Z -> T) : list (Z * option T) :=
  let offsetZ := dim_x * dim_y in
  let gridVolume := dim_x * dim_y * dim_z in
  lines dim_y dim_z (fun y z =>
    pepper_line base (8 * gridVolume) old dim_x offsetZ (base + 8 * gridVolume) 1 (dim_x - 1) y z).

Section Grids.
Context (e : extent) (dim_x dim_y dim_z : Z).
Let size := 8 * DIM_PROD e.
Let oy := DIM_X e.
Let oz := DIM_X e * DIM_Y e.

Definition bronze (old : Z -> T) : list (Z * option T) :=
  lines dim_y dim_z (fun y z => bronze_line size old oy oz (gen_index e 1 y z) (gen_index e (dim_x - 1) y z)).

Definition silver (base base' : Z) (old : Z -> T) : list (Z * option T) :=
  lines dim_y dim_z (fun y z => silver_line base size old oy oz base' (gen_index e 1 y z) (gen_index e (dim_x - 1) y z)).

Definition gold (A : Z) (old : Z -> T) : list (Z * option T) :=
  lines dim_y dim_z (fun y z => gold_line size old oy oz A dim_x y z).
End Grids.

(** maxT sweeps.  Vanilla and Pepper do not swap the grids (main.cpp:117-124,
    189-195), the others do (main.cpp:435-439, 675-679, 845-849). *)
Fixpoint again (maxT : nat) (size : Z) (step : (Z -> T) -> list (Z * option T)) (old new : Z -> T)
    : option ((Z -> T) * (Z -> T)) :=
  match maxT with
  | O => Some (old, new)
  | S n => match store_all size (step old) new with Some new' => again n size step old new' | None => None end
  end.

Fixpoint swapping (maxT : nat) (size : Z) (step : (Z -> T) -> list (Z * option T)) (old new : Z -> T)
    : option ((Z -> T) * (Z -> T)) :=
  match maxT with
  | O => Some (old, new)
  | S n => match store_all size (step old) new with Some new' => swapping n size step new' old | None => None end
  end.

(** gridOld[z * offsetZ + y * dim_y + x] = x + y + z (main.cpp:106-113): the
    stores of the initialisation of Vanilla and Pepper. *)
Definition initial_stores (dim_x dim_y dim_z : Z) : list (Z * option T) :=
  flat_map (fun z => flat_map (fun y => map (fun x =>
    (8 * (z * (dim_x * dim_y) + y * dim_y + x), Some (r_num K (x + y + z)))) (range 0 dim_x)) (range 0 dim_y)) (range 0 dim_z).
End Jacobi.

(** maxT (main.cpp:97-99, 169-171, 409-411); [least]: 64 for Pepper, 16 for the others. *)
Definition maxT (least dim_x dim_y dim_z : Z) : Z := Z.max least (200000000 / dim_x / dim_y / dim_z).

(** glups (main.cpp:72-81): numerator and denominator, [time] being an integer. *)
Definition jacobi_glups (dim : list Z) (steps time : Z) : Z * Z :=
  (fold_left (fun updates d => updates * (d - 2)) dim steps, time * 10 ^ 9).

(** The sizes of the runs: for (int d = 32; d <= 544; d += 4) (main.cpp:2486-2493). *)
Definition jacobi_sizes : list Z := map (fun k => 32 + 4 * k) (zseq 129).
