(** What soa_vector is supposed to do: named plain lists with a capacity. *)
From Coq Require Import ZArith List Bool.
From Verif Require Import Layout Sizes Accessor AccessorProofs Grid SpecArray Vector.
Import ListNotations.
Open Scope Z_scope.

(** Size policies that give one-dimensional storage, and their list of sizes. *)
Inductive line_policy : sizes_cfg -> list Z -> Prop :=
| lp_default : line_policy Default default_1d_sizes
| lp_1d : forall l, line_policy (Uniform1D l) l
| lp_custom : forall xs ys zs, line_policy (Custom xs (1 :: ys) (1 :: zs)) xs.

(** Sizes for which enlarging by a fifth makes room (and is computed exactly). *)
Definition growing (L : list Z) : Prop := Forall (fun s => 5 <= s < 2 ^ 50) L.
Definition room (L : list Z) (n : Z) : Prop := exists s, In s L /\ n <= s.

(** [av_full]: the storage holds exactly [av_cap] elements (after reserve or growth).
    [av_ext]: the extents are initialised (not so in copy-constructed vectors until an
    assignment changes their capacity). *)
Record avec := mkAV { av_l : list cell; av_cap : Z; av_full : bool; av_ext : bool }.
Definition avworld := nat -> option avec.
Definition no_vectors : avworld := fun _ => None.

Definition default_value (ms : list member) : cell := map (fun m => repeat (m_default m) (m_count m)) ms.

(** Calls within the contract. *)
Definition spre (ms : list member) (A : avworld) (op : sop) : Prop :=
  match op with
  | SNew id n => A id = None /\ 0 <= n
  | SFill id n c => A id = None /\ 0 <= n /\ wf_cell ms c
  | SCopy id src => A id = None /\ exists b, A src = Some b /\ len (av_l b) <= av_cap b
  | SAssign d s => A d <> None /\ exists b, A s = Some b /\ (d = s \/ len (av_l b) <= av_cap b)
  | SSet id i c => (exists a, A id = Some a /\ 0 <= i < len (av_l a)) /\ wf_cell ms c
  | SGet id i => exists a, A id = Some a /\ 0 <= i < len (av_l a)
  | SSize id | SEmpty id | SCap id | SClear id | SDestroy id => A id <> None
  | SResize id n => 0 <= n /\ exists a, A id = Some a /\ (n <= av_cap a \/ av_ext a = true)
  | SReserve id n => exists a, A id = Some a /\ len (av_l a) <= n /\ av_ext a = true
  | SPush id c =>
      wf_cell ms c /\ exists a, A id = Some a /\ av_ext a = true /\
        (* elements of class type exist only below capacity() *)
        (trivial ms \/ av_full a = true \/ len (av_l a) < av_cap a)
  | SPop id => exists a, A id = Some a /\ av_l a <> []
  | SCallback id n => exists a, A id = Some a /\ 0 <= n <= len (av_l a)
  end.

Inductive spec_step (ms : list member) (L : list Z) (A : avworld) : sop -> avworld -> sobs -> Prop :=
| a_new : forall id n, room L n ->
    spec_step ms L A (SNew id n) (sset A id (Some (mkAV (repeat (default_value ms) (Z.to_nat n)) n false true))) SUnit
| a_new_throw : forall id n, ~ room L n -> spec_step ms L A (SNew id n) A (SThrow OutOfRange)
| a_fill : forall id n c, room L n ->
    spec_step ms L A (SFill id n c) (sset A id (Some (mkAV (repeat c (Z.to_nat n)) n false true))) SUnit
| a_fill_throw : forall id n c, ~ room L n -> spec_step ms L A (SFill id n c) A (SThrow OutOfRange)
| a_copy : forall id src b, A src = Some b ->
    spec_step ms L A (SCopy id src) (sset A id (Some (mkAV (av_l b) (av_cap b) (av_full b) false))) SUnit
| a_assign : forall d s a b, A d = Some a -> A s = Some b ->
    spec_step ms L A (SAssign d s) (sset A d (Some (mkAV (av_l b) (av_cap b) (av_full b) (av_ext a || negb (av_cap a =? av_cap b))))) SUnit
| a_set : forall id a i c, A id = Some a ->
    spec_step ms L A (SSet id i c) (sset A id (Some (mkAV (over (av_l a) (Z.to_nat i) [c]) (av_cap a) (av_full a) (av_ext a)))) SUnit
| a_get : forall id a i c, A id = Some a -> nth_error (av_l a) (Z.to_nat i) = Some c ->
    spec_step ms L A (SGet id i) A (SCell c)
| a_size : forall id a, A id = Some a -> spec_step ms L A (SSize id) A (SNum (len (av_l a)))
| a_empty : forall id a, A id = Some a ->
    spec_step ms L A (SEmpty id) A (SBool (match av_l a with [] => true | _ => false end))
| a_cap : forall id a, A id = Some a -> spec_step ms L A (SCap id) A (SNum (av_cap a))
| a_shrink : forall id a n, A id = Some a -> n <= len (av_l a) -> n <= av_cap a ->
    spec_step ms L A (SResize id n) (sset A id (Some (mkAV (firstn (Z.to_nat n) (av_l a)) (av_cap a) (av_full a) (av_ext a)))) SUnit
(* within the capacity, what the additional elements hold is not said *)
| a_extend : forall id a n more, A id = Some a -> len (av_l a) < n <= av_cap a -> len (av_l a ++ more) = n ->
    spec_step ms L A (SResize id n) (sset A id (Some (mkAV (av_l a ++ more) (av_cap a) (av_full a) (av_ext a)))) SUnit
| a_resize : forall id a n cap', A id = Some a -> av_cap a < n -> room L n -> n <= cap' ->
    spec_step ms L A (SResize id n)
      (sset A id (Some (mkAV (firstn (Z.to_nat n) (av_l a) ++ repeat (default_value ms) (Z.to_nat n - length (av_l a))) cap' true true))) SUnit
| a_resize_throw : forall id a n, A id = Some a -> av_cap a < n -> ~ room L n ->
    spec_step ms L A (SResize id n) A (SThrow OutOfRange)
| a_reserve : forall id a n cap', A id = Some a -> room L n -> n <= cap' ->
    spec_step ms L A (SReserve id n) (sset A id (Some (mkAV (av_l a) cap' true true))) SUnit
| a_reserve_throw : forall id a n, A id = Some a -> ~ room L n -> spec_step ms L A (SReserve id n) A (SThrow OutOfRange)
| a_clear : forall id a, A id = Some a ->
    spec_step ms L A (SClear id) (sset A id (Some (mkAV [] (av_cap a) (av_full a) (av_ext a)))) SUnit
| a_push : forall id a c, A id = Some a -> (av_full a = true -> len (av_l a) < av_cap a) ->
    spec_step ms L A (SPush id c) (sset A id (Some (mkAV (av_l a ++ [c]) (av_cap a) (av_full a) (av_ext a)))) SUnit
| a_push_grow : forall id a c cap', A id = Some a -> In (len (av_l a)) L -> av_cap a <= len (av_l a) -> len (av_l a) < cap' -> 6 * len (av_l a) / 5 <= cap' ->
    spec_step ms L A (SPush id c) (sset A id (Some (mkAV (av_l a ++ [c]) cap' true true))) SUnit
| a_push_throw : forall id a c, A id = Some a -> In (len (av_l a)) L -> av_cap a <= len (av_l a) -> ~ room L (6 * len (av_l a) / 5) ->
    spec_step ms L A (SPush id c) A (SThrow OutOfRange)
| a_pop : forall id a l c, A id = Some a -> av_l a = l ++ [c] ->
    spec_step ms L A (SPop id) (sset A id (Some (mkAV l (av_cap a) (av_full a) (av_ext a)))) SUnit
| a_callback : forall id a n, A id = Some a -> spec_step ms L A (SCallback id n) A (SCells (firstn (Z.to_nat n) (av_l a)))
| a_destroy : forall id, spec_step ms L A (SDestroy id) (sset A id None) SUnit.

(** Every call is within the contract, whichever way the specification takes. *)
Fixpoint lawful (ms : list member) (L : list Z) (A : avworld) (ops : list sop) : Prop :=
  match ops with
  | [] => True
  | op :: r => spre ms A op /\ forall A' ob, spec_step ms L A op A' ob -> lawful ms L A' r
  end.

Inductive spec_run (ms : list member) (L : list Z) (A : avworld) : list sop -> avworld -> list sobs -> Prop :=
| sr_nil : spec_run ms L A [] A []
| sr_cons : forall op ops A1 A2 ob obs,
    spec_step ms L A op A1 ob -> spec_run ms L A1 ops A2 obs -> spec_run ms L A (op :: ops) A2 (ob :: obs).
