(** ConditionalAny, gold (examples/performance_tests/main.cpp:2370-2410), with the counts
    in IEEE single precision (the standard library's SpecFloat): the lanes of sum are
    floats, blended zeros and ones are added to them, and each is converted to int.
    Simplifications are those of PerfPairs.v otherwise; PropsPerfPairsFloat.v proves that
    this is [count_gold]. Model only. *)
From Coq Require Import ZArith List Bool SpecFloat.
From Verif Require Import Base Peeler Sph PerfPairs ShortVecBits.
Import ListNotations.
Local Open Scope Z_scope.

(** The float nearest to the integer [z]: 0.0f and 1.0f. *)
Definition single (z : Z) : spec_float := binary_normalize 24 128 z 0 false.

Section Floats.
Context {T : Type} (K : arith T) (radius2 : T) (pos : Z -> point T) (n : Z).

(** blend(Float(0.0f), 1.0f, mask) (main.cpp:2400) in one lane. *)
Definition blend_one (b : bool) : spec_float := if b then single 1 else single 0.

(** main.cpp:2393-2401 *)
Definition update_lanes_f (w index j : Z) (sum : list spec_float) : list spec_float :=
  let mask := map (fun e => near K radius2 (pos (index + e)) (pos j)) (zseq w) in
  if existsb (fun b => b) mask then map (fun '(s, b) => SFadd 24 128 s (blend_one b)) (combine sum mask) else sum.

(** int(foo[j]) (main.cpp:2407): the value of the 32 bits. *)
Definition int_of_lane (s : spec_float) : Z := sgn32 (float_to_int trunc_abs s).

(** main.cpp:2387-2409 *)
Definition update_f (w stop index : Z) (counter : Z) : option (Z * Z) :=
  obind (while (Z.to_nat (stop - index)) stop (fun index sum =>
      if (0 <=? index) && (index + w <=? n)
      then Some (index + w, fold_left (fun sum j => update_lanes_f w index j sum) (range 0 n) sum) else None)
    index (map (fun _ => single 0) (zseq w)))
  (fun '(index, sum) => Some (index, fold_left Z.add (map int_of_lane sum) counter)).

(** main.cpp:2373-2380 *)
Definition count_gold_f (repeats : nat) (counter : Z) : option Z :=
  Nat.iter repeats (fun counter => obind counter (fun counter =>
    obind (peel 16 update_f 0 n counter) (fun '(_, counter) => Some counter))) (Some counter).
End Floats.
