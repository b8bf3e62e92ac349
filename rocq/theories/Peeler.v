(** include/libflatarray/loop_peeler.hpp. Model and specification; proofs are in
    PeelerProofs.v. *)
From Coq Require Import ZArith List Bool.
From Verif Require Import Base.
Import ListNotations.
Open Scope Z_scope.

(** An integer type: largest value and signedness. Negative values are not modelled
    (indices; the claim is about 0 <= X). Types narrower than int (promotion) are not
    modelled. *)
Record ity := mkIty { it_max : Z; it_signed : bool }.

(** Result of an addition: signed overflow is undefined ([None]), unsigned wraps. *)
Definition norm (t : ity) (v : Z) : option Z :=
  if v <=? it_max t then Some v
  else if it_signed t then None else Some (v mod (it_max t + 1)).
(** Conversion to [t]; out-of-range values wrap, also for signed types (all compilers). *)
Definition conv (t : ity) (v : Z) : Z := if v <=? it_max t then v else v mod (it_max t + 1).
(** Usual arithmetic conversions of two types: the wider one, unsigned on a tie. *)
Definition common (a b : ity) : ity :=
  if it_max a <? it_max b then b
  else if it_max b <? it_max a then a
  else mkIty (it_max a) (it_signed a && it_signed b).

(** The kernel handed to the peeler, by its documented contract (loop_peeler.hpp:25-27,
    test/loop_peeler_test.cpp:26-30): [for (; i < stop; i += W) { body(i .. i+W-1) }].
    Result: the body invocations (first index, width) in order and the counter
    afterwards. [fuel] bounds the iterations; running out of it counts as a failure. *)
Fixpoint kernel (fuel : nat) (t : ity) (w i stop : Z) : option (list (Z * Z) * Z) :=
  if i <? stop then
    match fuel with
    | O => None
    | S f =>
        match norm t (i + w) with
        | None => None
        | Some i' =>
            match kernel f t w i' stop with
            | None => None
            | Some (l, j) => Some ((i, w) :: l, j)
            end
        end
    end
  else Some ([], i).

Definition run_kernel (t : ity) (w i stop : Z) : option (list (Z * Z) * Z) :=
  kernel (Z.to_nat (stop - i)) t w i stop.

(** The three kernel calls in a row (88-90, 113-115). *)
Definition three (t : ity) (A x next_stop last_stop fin : Z) : option (list (Z * Z) * Z) :=
  match run_kernel t 1 x next_stop with
  | None => None
  | Some (l1, x1) =>
      match run_kernel t A x1 last_stop with
      | None => None
      | Some (l2, x2) =>
          match run_kernel t 1 x2 fin with
          | None => None
          | Some (l3, x3) => Some (l1 ++ l2 ++ l3, x3)
          end
      end
  end.

(** LIBFLATARRAY_LOOP_PEELER_IMPLEMENTATION (loop_peeler.hpp:75-91) with the counter X
    of type COUNTER_TYPE. *)
Definition peeler_macro (t : ity) (A x fin : Z) : option (list (Z * Z) * Z) :=
  let remainder := x mod A in
  match (if negb (remainder =? 0)
         then match norm t (x + A) with Some s => Some (if remainder <=? s then s - remainder else s - remainder + (it_max t + 1)) | None => None end
         else Some x) with
  | None => None
  | Some next_stop =>
      let last_stop := fin - fin mod A in
      three t A x next_stop last_stop fin
  end.

(** loop_peeler (loop_peeler.hpp:99-116): counter of type [t1], end of type [t2]. *)
Definition peeler_fn (t1 t2 : ity) (A x fin : Z) : option (list (Z * Z) * Z) :=
  let c := common t1 t2 in
  let remainder := conv t2 (x mod A) in
  match (if negb (remainder =? 0)
         then match norm c (x + A) with
              | Some s => Some (conv t2 (if remainder <=? s then s - remainder else s - remainder + (it_max c + 1)))
              | None => None end
         else Some (conv t2 x)) with
  | None => None
  | Some next_stop =>
      let last_stop := fin - fin mod A in
      three t1 A x next_stop last_stop fin
  end.

(** ** Specification *)
(** Indices touched by the body invocations, in order. *)
Definition processed (l : list (Z * Z)) : list Z :=
  flat_map (fun '(s, w) => map (fun k => s + k) (zseq w)) l.
(** lo, lo+1, ..., hi-1. *)
Definition range (lo hi : Z) : list Z := map (fun k => lo + k) (zseq (hi - lo)).
(** Smallest multiple of A not below x. *)
Definition is_round_up (A x r : Z) : Prop := (A | r) /\ x <= r < x + A.

(** Each index in [x, fin) once and in order, none outside; vector-width invocations
    start at multiples of A; the counter ends at [fin]. *)
Definition peeled (A x fin : Z) (res : option (list (Z * Z) * Z)) : Prop :=
  exists l, res = Some (l, fin) /\ processed l = range x fin /\
            Forall (fun '(s, w) => w = 1 \/ w = A /\ (A | s)) l.
