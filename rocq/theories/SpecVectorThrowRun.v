(** What programs see of soa_vectors when members or the allocator throw: specification
    for PropsVectorThrowRun.v. *)
From Coq Require Import ZArith List Bool.
From Verif Require Import Base Layout Sizes SizesProofs Accessor AccessorProofs Grid SpecArray Vector SpecVector GridThrow SpecGridThrow VectorThrowRun.
Import ListNotations.
Open Scope Z_scope.

(** Objects that reserve(n) builds: [n] elements first, then, unless [n] is one of the
    sizes, as many as the next size [E]. *)
Definition objects_built (ms : list member) (n E : Z) : nat :=
  (Z.to_nat n * class_elements ms + if (n =? E)%Z then 0 else Z.to_nat E * class_elements ms)%nat.

(** Enlarging to [n] elements does no harm: the first allocation fails, or nothing
    throws before the old elements are copied. *)
Definition harmless_growth (ms : list member) (L : list Z) (s : sched) (n : Z) : Prop :=
  exists E, first_fit n L E /\
    (sc_allocs s = Some 0%nat \/
     (n = E \/ sc_allocs s <> Some 1%nat) /\ forall k, sc_ops s = Some k -> (objects_built ms n E <= k)%nat).

(** The calls that may be interrupted. *)
Definition harmless (ms : list member) (L : list Z) (A : avworld) (s : sched) (op : sop) : Prop :=
  match op with
  | SSet _ _ _ | SPop _ => True
  | SPush id _ => exists a, A id = Some a /\ (len (av_l a) < av_cap a \/ harmless_growth ms L s (6 * len (av_l a) / 5))
  | SResize id n => exists a, A id = Some a /\ (n <= av_cap a \/ harmless_growth ms L s n)
  | SReserve _ n => harmless_growth ms L s n
  | SFill _ n _ => room L n /\ (sc_allocs s = Some 0%nat \/ forall k, sc_ops s = Some k -> (Z.to_nat n * class_elements ms <= k)%nat)
  | _ => False
  end.

(** One of the assignments of the members of one element throws. *)
Definition breaks_element (ms : list member) (s : sched) : Prop := exists k, sc_ops s = Some k /\ (k < class_elements ms)%nat.

(** Enlarging to [n] elements, then doing [more] assignments of members, is interrupted:
    the allocator fails, or a member throws while objects are built, the [old] elements
    are copied, or afterwards. *)
Definition breaks_growth (ms : list member) (L : list Z) (s : sched) (n : Z) (old : list cell) (more : nat) : Prop :=
  sc_allocs s = Some 0%nat \/
  exists E k, first_fit n L E /\ sc_ops s = Some k /\ (k < objects_built ms n E + length old * class_elements ms + more)%nat.

(** When such a call throws. *)
Definition throws_if (ms : list member) (L : list Z) (A : avworld) (s : sched) (op : sop) (thrown : Prop) : Prop :=
  match op with
  | SSet _ _ _ | SPop _ => thrown <-> breaks_element ms s
  | SPush id _ => forall a, A id = Some a ->
      (* all the memory is in use, or not *)
      (first_fit (av_cap a) L (len (av_l a)) -> (thrown <-> breaks_growth ms L s (6 * len (av_l a) / 5) (av_l a) (class_elements ms))) /\
      (~ first_fit (av_cap a) L (len (av_l a)) -> (thrown <-> breaks_element ms s))
  | SResize id n => forall a, A id = Some a ->
      (n <= av_cap a -> ~ thrown) /\ (av_cap a < n -> (thrown <-> breaks_growth ms L s n (av_l a) 0))
  | SReserve id n => forall a, A id = Some a -> (thrown <-> breaks_growth ms L s n (av_l a) 0)
  (* n elements are built, then assigned *)
  | SFill _ n _ => thrown <-> sc_allocs s = Some 0%nat \/ exists k, sc_ops s = Some k /\ (k < 2 * (Z.to_nat n * class_elements ms))%nat
  | _ => True
  end.

(** The vectors after a call in which something threw. *)
Inductive sleft (ms : list member) (A : avworld) : sop -> avworld -> Prop :=
(* the element is a mixture of old and new *)
| sl_set : forall id i c a c0 c', A id = Some a -> nth_error (av_l a) (Z.to_nat i) = Some c0 -> mixed ms c0 c c' ->
    sleft ms A (SSet id i c) (sset A id (Some (mkAV (over (av_l a) (Z.to_nat i) [c']) (av_cap a) (av_full a) (av_ext a))))
(* the element is gone nevertheless *)
| sl_pop : forall id a l x, A id = Some a -> av_l a = l ++ [x] ->
    sleft ms A (SPop id) (sset A id (Some (mkAV l (av_cap a) (av_full a) (av_ext a))))
(* nothing was added; there may be room for more *)
| sl_push : forall id c, sleft ms A (SPush id c) A
| sl_push_grown : forall id c a cap', A id = Some a -> av_cap a <= len (av_l a) -> len (av_l a) < cap' ->
    sleft ms A (SPush id c) (sset A id (Some (mkAV (av_l a) cap' true true)))
(* nothing happened *)
| sl_resize : forall id n, sleft ms A (SResize id n) A
| sl_reserve : forall id n, sleft ms A (SReserve id n) A
| sl_fill : forall id n c, sleft ms A (SFill id n c) A.

(** A call with or without a schedule. *)
Inductive vstep (ms : list member) (L : list Z) (A : avworld) : option sched -> sop -> avworld -> sxobs -> Prop :=
| vs_plain : forall op A' b, spec_step ms L A op A' b -> vstep ms L A None op A' (SDone b)
| vs_done : forall s op A' b, spec_step ms L A op A' b -> throws_if ms L A s op False -> vstep ms L A (Some s) op A' (SDone b)
| vs_caught : forall s op A', sleft ms A op A' -> throws_if ms L A s op True -> vstep ms L A (Some s) op A' SCaught.

(** Every call is within the contract, whatever the earlier ones did. *)
Fixpoint vlegal (ms : list member) (L : list Z) (A : avworld) (ops : list (option sched * sop)) : Prop :=
  match ops with
  | [] => True
  | (o, op) :: r =>
      spre ms A op /\ match o with None => True | Some s => harmless ms L A s op end /\
      forall A' b, vstep ms L A o op A' b -> vlegal ms L A' r
  end.

Inductive vrun (ms : list member) (L : list Z) (A : avworld) : list (option sched * sop) -> avworld -> list sxobs -> Prop :=
| vr_nil : vrun ms L A [] A []
| vr_cons : forall o op ops A1 A2 b bs, vstep ms L A o op A1 b -> vrun ms L A1 ops A2 bs -> vrun ms L A ((o, op) :: ops) A2 (b :: bs).
