(** The NBody benchmarks, examples/performance_tests/main.cpp:875-1846.  Model
    only; proofs are in PerfNBodyProofs.v.

    Simplifications: one arbitrary arithmetic stands for float and double; a
    container of particles is one array per member, of which only the indices
    below its capacity can be accessed (where the members lie in a std::vector of
    structs, in separate vectors or in a soa_array is the subject of other
    properties); int is unbounded.  The loops that only measure time and the
    comparison behind them are left out.  Within a vector the lanes are computed
    one after another; they only read one set of particles and only write the
    other. *)
From Coq Require Import ZArith List Bool.
From Verif Require Import Base Peeler Sph Lbm.
Import ListNotations.
Local Open Scope Z_scope.

(** Members of Particle (main.cpp:875-902); of ArrayParticle pos[0], pos[1],
    pos[2], vel[0], vel[1], vel[2], charge (main.cpp:925-949). *)
Inductive coordinate := PosX | PosY | PosZ | VelX | VelY | VelZ | Charge.
Definition number_of (c : coordinate) : Z :=
  match c with PosX => 0 | PosY => 1 | PosZ => 2 | VelX => 3 | VelY => 4 | VelZ => 5 | Charge => 6 end.
Definition all_coordinates : list coordinate := [PosX; PosY; PosZ; VelX; VelY; VelZ; Charge].

Section NBody.
Context {T : Type} (K : arith T).
Notation arrays := (coordinate -> Z -> T).
Notation value := (option T).
Local Notation "a +. b" := (r_add (lift K) a b) (at level 50, left associativity).
Local Notation "a -. b" := (r_sub (lift K) a b) (at level 50, left associativity).
Local Notation "a *. b" := (r_mul (lift K) a b) (at level 40, left associativity).
Local Notation "a /. b" := (r_div (lift K) a b) (at level 40, left associativity).

(** DELTA_T and SOFTENING (main.cpp:55-56). *)
Definition DELTA_T : value := Some (r_div K (r_num K 1) (r_num K 1000)).
Definition SOFTENING : value := Some (r_div K (r_num K 1) (r_num K 10)).

(** Element i of a container of capacity [cap]. *)
Definition elt (cap : Z) (a : arrays) (c : coordinate) (i : Z) : value :=
  if (0 <=? i) && (i <? cap) then Some (a c i) else None.

Notation three := (value * value * value)%type.

(** The division by distance2 and by its square root: scalar code and short_vec
    divide (main.cpp:1007, 1172, 1439, 1681, 1811) ... *)
Definition over (factor distance2 : value) : value := factor /. distance2 /. r_sqrt (lift K) distance2.
(** ... the intrinsics multiply with approximations (main.cpp:1144-1145, 1321-1322, 1562-1563). *)
Definition approximately (rcp rsqrt : T -> T) (factor distance2 : value) : value :=
  factor *. option_map rcp distance2 *. option_map rsqrt distance2.

(** deltaX * deltaX + deltaY * deltaY + deltaZ * deltaZ + SOFTENING (main.cpp:1006);
    the order of the intrinsics (main.cpp:1132-1140). *)
Definition distance2 (deltaX deltaY deltaZ : value) : value :=
  deltaX *. deltaX +. deltaY *. deltaY +. deltaZ *. deltaZ +. SOFTENING.
Definition distance2_avx (deltaX deltaY deltaZ : value) : value :=
  SOFTENING +. (deltaZ *. deltaZ +. (deltaX *. deltaX +. deltaY *. deltaY)).

(** The body of the loops over j, particle (lane) i against j, main.cpp:1002-1015
    and the corresponding lines of the other species: the sums of the forces. *)
Definition interact (cap : Z) (dist : value -> value -> value -> value) (div : value -> value -> value)
    (a : arrays) (i : Z) (acceleration : three) (j : Z) : three :=
  let deltaX := elt cap a PosX i -. elt cap a PosX j in
  let deltaY := elt cap a PosY i -. elt cap a PosY j in
  let deltaZ := elt cap a PosZ i -. elt cap a PosZ j in
  let d := dist deltaX deltaY deltaZ in
  let factor := div (elt cap a Charge i *. elt cap a Charge j *. DELTA_T) d in
  let '(accelerationX, accelerationY, accelerationZ) := acceleration in
  (accelerationX +. deltaX *. factor, accelerationY +. deltaY *. factor, accelerationZ +. deltaZ *. factor).

Definition zero : three := (Some (r_num K 0), Some (r_num K 0), Some (r_num K 0)).

(** The new particle (main.cpp:1018-1026). *)
Definition moved (cap : Z) (a : arrays) (i : Z) (acceleration : three) (c : coordinate) : value :=
  let '(accelerationX, accelerationY, accelerationZ) := acceleration in
  match c with
  | PosX => elt cap a PosX i +. elt cap a VelX i *. DELTA_T
  | PosY => elt cap a PosY i +. elt cap a VelY i *. DELTA_T
  | PosZ => elt cap a PosZ i +. elt cap a VelZ i *. DELTA_T
  | VelX => elt cap a VelX i +. accelerationX
  | VelY => elt cap a VelY i +. accelerationY
  | VelZ => elt cap a VelZ i +. accelerationZ
  | Charge => elt cap a Charge i
  end.

Notation store := (coordinate * Z * value)%type.

(** One iteration of the loops over i: a vector of [w] particles (main.cpp:985-1027;
    1254-1347; 1415-1455; 1512-1592; 1661-1700; 1791-1830). *)
Definition lanes (w cap : Z) (dist : value -> value -> value -> value) (div : value -> value -> value)
    (n : Z) (a : arrays) (i : Z) : list store :=
  flat_map (fun c => map (fun e =>
    (c, i + e, moved cap a (i + e) (fold_left (interact cap dist div a (i + e)) (range 0 n) zero) c)) (zseq w)) all_coordinates.

(** for (i = 0; i < stop; i += w) *)
Fixpoint strided (fuel : nat) (w i stop : Z) (body : Z -> list store) : list store :=
  match fuel with
  | O => []
  | S f => if i <? stop then body i ++ strided f w (i + w) stop body else []
  end.

(** Vanilla (main.cpp:982-1027), std::vectors with n elements; Iron
    (main.cpp:1409-1456), soa_array with 8192. *)
Definition scalar_step (cap n : Z) (a : arrays) : list store :=
  strided (Z.to_nat n) 1 0 n (lanes 1 cap distance2 over n a).

(** Curry (main.cpp:1284-1359) and Bronze (main.cpp:1505-1592): eight particles
    at once as long as eight are left. *)
Definition avx_step (rcp rsqrt : T -> T) (cap n : Z) (a : arrays) : list store :=
  strided (Z.to_nat n) 8 0 (n - 7) (lanes 8 cap distance2_avx (approximately rcp rsqrt) n a).

(** Silver (main.cpp:1654-1701) and Gold (main.cpp:1784-1831): short_vec<float, 8>. *)
Definition short_vec_step (cap n : Z) (a : arrays) : list store :=
  strided (Z.to_nat n) 8 0 n (lanes 8 cap distance2 over n a).

(** Pepper (main.cpp:1095-1198).  The sums of the eight lanes over the blocks of j: *)
Fixpoint blocks (fuel : nat) (cap : Z) (div : value -> value -> value) (a : arrays) (i j stop : Z) (acc : list three) : list three * Z :=
  match fuel with
  | O => (acc, j)
  | S f =>
      if j <? stop then
        blocks f cap div a i (j + 8) stop
          (map (fun p => interact cap distance2_avx div a i (snd p) (j + fst p)) (combine (zseq 8) acc))
      else (acc, j)
  end.

Definition plus3 (a b : three) : three :=
  let '(ax, ay, az) := a in let '(bx, by_, bz) := b in (ax +. bx, ay +. by_, az +. bz).

(** buf[0] + ... + buf[7]; _mm256_store_ps needs [buf], a float[8] on the stack,
    at an address that is a multiple of 32 (main.cpp:1156-1162). *)
Definition add_up (buf_aligned : bool) (acc : list three) : three :=
  if buf_aligned then
    match acc with [] => (None, None, None) | b :: r => fold_left plus3 r b end
  else (None, None, None).

Definition pepper_step (buf_aligned : bool) (rcp rsqrt : T -> T) (n : Z) (a : arrays) : list store :=
  strided (Z.to_nat n) 1 0 n (fun i =>
    let '(acc, j) := blocks (Z.to_nat n) n (approximately rcp rsqrt) a i 0 (n - 7) (repeat zero 8) in
    let acceleration := fold_left (interact n distance2 over a i) (range j n) (add_up buf_aligned acc) in
    map (fun c => (c, i, moved n a i acceleration c)) all_coordinates).

(** Perform the stores on the other set of particles. *)
Fixpoint put_all (cap : Z) (s : list store) (b : arrays) : option arrays :=
  match s with
  | [] => Some b
  | (c, i, Some v) :: r =>
      if (0 <=? i) && (i <? cap)
      then put_all cap r (fun c' i' => if (number_of c' =? number_of c) && (i' =? i) then v else b c' i') else None
  | (_, _, None) :: _ => None
  end.

(** The repetitions: each writes particlesB, then swaps (main.cpp:1029-1031). *)
Fixpoint repetitions (repeats : nat) (cap : Z) (step : arrays -> list store) (A B : arrays) : option (arrays * arrays) :=
  match repeats with
  | O => Some (A, B)
  | S r => match put_all cap (step A) B with Some B' => repetitions r cap step B' A | None => None end
  end.

End NBody.

(** The capacities of Bronze, Silver and Gold (main.cpp:1471-1498, 1616-1642,
    1746-1772): the first that suffices, else an exception. *)
Definition capacities : list Z := [128; 256; 512; 1024; 2048; 4096; 8192].
Definition capacity (n : Z) : option Z := find (fun DIM => n <=? DIM) capacities.

(** The runs: n and the number of repetitions (main.cpp:2520-2532). *)
Definition nbody_runs : list (Z * Z) := map (fun n => (n, 40 * 512 * 1024 * 1024 / n / n)) capacities.
