(** The benchmarks on pairs of particles, examples/performance_tests/main.cpp:
    ParticleInteractor (2080-2284) and ConditionalAny (2286-2462).  Model only;
    proofs are in PropsPerfPairs.v.

    Simplifications: arithmetic on float is arbitrary, except that the counts of
    ConditionalAny (sums of 0.0f and 1.0f) are those of IEEE single precision
    (PerfPairsFloat.v has the floats themselves);
    int is unbounded; a container is one array per member (positions, velocities),
    of which the indices below its capacity can be accessed, else None.  Timing is
    left out. *)
From Coq Require Import ZArith List Bool.
From Verif Require Import Base Peeler Sph.
Import ListNotations.
Local Open Scope Z_scope.

Record point (T : Type) := mkPoint { x_of : T; y_of : T; z_of : T }.
Arguments mkPoint {T}. Arguments x_of {T}. Arguments y_of {T}. Arguments z_of {T}.

Section Pairs.
Context {T : Type} (K : arith T).
Local Notation "a +. b" := (r_add K a b) (at level 50, left associativity).
Local Notation "a -. b" := (r_sub K a b) (at level 50, left associativity).
Local Notation "a *. b" := (r_mul K a b) (at level 40, left associativity).

(** main.cpp:2131-2136, 2213-2218, 2334-2338 (and in vectors 2206-2211, 2393-2398). *)
Definition near (radius2 : T) (p q : point T) : bool :=
  let deltaX := x_of p -. x_of q in
  let deltaY := y_of p -. y_of q in
  let deltaZ := z_of p -. z_of q in
  let dist2 := deltaX *. deltaX +. deltaY *. deltaY +. deltaZ *. deltaZ in
  r_lt K dist2 radius2.

(** ** ParticleInteractor *)
Section Interactor.
Context (radius2 : T) (pos : Z -> point T) (n : Z).

(** Vanilla (main.cpp:2127-2142): velX in place, and the lists of neighbours. *)
Definition gather_one (i : Z) (s : (Z -> T) * list Z) (j : Z) : (Z -> T) * list Z :=
  let '(vel, neighbors) := s in
  if near radius2 (pos i) (pos j) then (plus_at K vel i (vel j), neighbors ++ [j]) else s.

Definition gather_x (velX : Z -> T) : (Z -> T) * list (list Z) :=
  fold_left (fun s i => let '(vel, lists) := s in
    let '(vel, neighbors) := fold_left (gather_one i) (range 0 n) (vel, []) in (vel, lists ++ [neighbors]))
    (range 0 n) (velX, []).

(** main.cpp:2146-2151, 2155-2160; [counter] is the index in [lists]. *)
Definition gather_by (lists : list (list Z)) (vel : Z -> T) : Z -> T :=
  fold_left (fun vel i => fold_left (fun vel j => plus_at K vel i (vel j)) (nth (Z.to_nat i) lists []) vel) (range 0 n) vel.

Notation velocities := ((Z -> T) * (Z -> T) * (Z -> T))%type.
Definition vanilla_interact (v : velocities) : velocities :=
  let '(velX, velY, velZ) := v in
  let '(velX, lists) := gather_x velX in (velX, gather_by lists velY, gather_by lists velZ).

(** Gold: storage for 8192 + 16 particles. *)
Definition storage : Z := 8192 + 16.
Definition in_storage (i : Z) : bool := (0 <=? i) && (i <? storage).

(** any(dist2 < radius2) for the eight particles from j on (main.cpp:2206-2211). *)
Definition any_near (i j : Z) : option bool :=
  ofold (fun hit e => if in_storage (j + e) then Some (hit || near radius2 (pos (j + e)) (pos i)) else None) (zseq 8) false.

(** main.cpp:2212-2221 *)
Definition scatter_eight (i j : Z) (vel : Z -> T) : option (Z -> T) :=
  ofold (fun vel e => if in_storage (j + e)
    then Some (if near radius2 (pos (j + e)) (pos i) then plus_at K vel (j + e) (vel i) else vel) else None) (zseq 8) vel.

(** for (j = 0; j != particles.size(); j += 8) (main.cpp:2205-2223).  More rounds
    than the storage has chunks of eight cannot be done, so None for no fuel. *)
Fixpoint scatter_from (fuel : nat) (i j : Z) (vel : Z -> T) : option (Z -> T) :=
  if j =? n then Some vel
  else match fuel with
    | O => None
    | S fuel =>
        obind (any_near i j) (fun hit =>
        obind (if hit then scatter_eight i j vel else Some vel) (scatter_from fuel i (j + 8)))
    end.

(** main.cpp:2200-2224; 2226-2250 and 2252-2276 are the same for velY and velZ. *)
Definition scatter (vel : Z -> T) : option (Z -> T) :=
  ofold (fun vel i => scatter_from (Z.to_nat (storage / 8 + 1)) i 0 vel) (range 0 n) vel.

Definition gold_interact (v : velocities) : option velocities :=
  let '(velX, velY, velZ) := v in
  obind (scatter velX) (fun velX => obind (scatter velY) (fun velY => obind (scatter velZ) (fun velZ =>
  Some (velX, velY, velZ)))).

(** The loops over t (main.cpp:2124, 2199). *)
Definition vanilla_interactions (repeats : nat) (v : velocities) : velocities := Nat.iter repeats vanilla_interact v.
Definition gold_interactions (repeats : nat) (v : velocities) : option velocities :=
  Nat.iter repeats (fun s => obind s gold_interact) (Some v).
End Interactor.

(** ** ConditionalAny *)
Section Conditional.
Context (radius2 : T) (pos : Z -> point T) (n : Z).

(** Vanilla (main.cpp:2331-2343) *)
Definition count_vanilla (repeats : nat) (counter : Z) : Z :=
  Nat.iter repeats (fun counter =>
    fold_left (fun counter i => fold_left (fun counter j =>
      if near radius2 (pos i) (pos j) then counter + 1 else counter) (range 0 n) counter) (range 0 n) counter) counter.

(** s + 1.0f for s = 0.0f, 1.0f, ...: from 2^24 on the sum is rounded to s. *)
Definition plus_one (s : Z) : Z := if s <? 2 ^ 24 then s + 1 else s.

(** update (main.cpp:2387-2409) for Float of arity w, the index of i being
    [index]; the lanes of sum are a list.  Adding 0.0f changes nothing, so the
    test of any lane in main.cpp:2399 does not either. *)
Definition update_lanes (w index j : Z) (sum : list Z) : list Z :=
  let mask := map (fun e => near radius2 (pos (index + e)) (pos j)) (zseq w) in
  if existsb (fun b => b) mask then map (fun '(s, b) => if b : bool then plus_one s else s) (combine sum mask) else sum.

Definition update (w stop index : Z) (counter : Z) : option (Z * Z) :=
  obind (while (Z.to_nat (stop - index)) stop (fun index sum =>
      if (0 <=? index) && (index + w <=? n)
      then Some (index + w, fold_left (fun sum j => update_lanes w index j sum) (range 0 n) sum) else None)
    index (map (fun _ => 0) (zseq w)))
  (fun '(index, sum) => Some (index, fold_left Z.add sum counter)).

(** main.cpp:2373-2380 and LIBFLATARRAY_LOOP_PEELER (loop_peeler.hpp:62-91) *)
Definition count_gold (repeats : nat) (counter : Z) : option Z :=
  Nat.iter repeats (fun counter => obind counter (fun counter =>
    obind (peel 16 update 0 n counter) (fun '(_, counter) => Some counter))) (Some counter).
End Conditional.
End Pairs.

(** The second element of dim in the runs of ConditionalAny (main.cpp:2607-2622);
    gridDim is 20, repeats is 70. *)
Definition conditional_runs : list Z := [4; 16; 64].
