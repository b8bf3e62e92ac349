(** What exceptions of members may do to soa_array: specification for PropsArrayThrow.v. *)
From Coq Require Import ZArith List Bool.
From Verif Require Import Base Layout Sizes Accessor AccessorProofs Array SpecArray SpecGridThrow GridThrow ArrayThrow.
Import ListNotations.
Open Scope Z_scope.

(** [l'] is [l], except that the elements from [off] on that were to become [xs] may be
    mixtures of old and new. *)
Definition patched (ms : list member) (l : list cell) (off : nat) (xs l' : list cell) : Prop :=
  length l' = length l /\
  forall j old c, nth_error l j = Some old -> nth_error l' j = Some c ->
    if (Nat.leb off j && Nat.ltb j (off + length xs))%bool then mixed ms old (nth (j - off) xs []) c else c = old.

(** The lists after a call that a member left by throwing. *)
Inductive athrow (ms : list member) (A : bworld) : vop -> bworld -> Prop :=
| t_new : forall id cap n c, athrow ms A (VNew id cap n c) A
| t_conv : forall id cap src, athrow ms A (VConv id cap src) A
| t_assign : forall d s a b l', A d = Some a -> A s = Some b -> patched ms (bs_l a) 0 (bs_l b) l' ->
    athrow ms A (VAssign d s) (aset A d (Some (mkBS (bs_cap a) l')))
| t_push : forall id c, athrow ms A (VPush id c) A
| t_write : forall id i c a l', A id = Some a -> patched ms (bs_l a) (Z.to_nat i) [c] l' ->
    athrow ms A (VWrite id i c) (aset A id (Some (mkBS (bs_cap a) l')))
| t_load : forall d off s i n a b l', A d = Some a -> A s = Some b ->
    patched ms (bs_l a) (Z.to_nat off) (firstn (Z.to_nat n) (skipn (Z.to_nat i) (bs_l b))) l' ->
    athrow ms A (VLoad d off s i n) (aset A d (Some (mkBS (bs_cap a) l')))
| t_load_app : forall d s i n, athrow ms A (VLoadApp d s i n) A.

(** The cells a call constructs or assigns. *)
Definition size_of (A : bworld) (id : nat) : Z := match A id with Some b => len (bs_l b) | None => 0 end.
Definition cap_of (A : bworld) (id : nat) : Z := match A id with Some b => bs_cap b | None => 0 end.
Definition cells_touched (A : bworld) (op : vop) : Z :=
  match op with
  | VNew _ cap n _ => cap + n
  | VConv _ cap src => cap + (if size_of A src <=? cap then size_of A src else 0)
  | VAssign d s => if size_of A s <=? cap_of A d then size_of A s else 0
  | VPush id _ => if size_of A id <? cap_of A id then 1 else 0
  | VWrite _ _ _ => 1
  | VLoad d off _ _ n => if off + n <=? cap_of A d then n else 0
  | VLoadApp d _ _ n => if size_of A d + n <=? cap_of A d then n else 0
  | _ => 0
  end.
(** The constructor and assignment calls of members it takes. *)
Definition member_calls (ms : list member) (A : bworld) (op : vop) : nat :=
  (Z.to_nat (cells_touched A op) * class_elements ms)%nat.
(** The member call that is to throw is one of them. *)
Definition throws (ms : list member) (A : bworld) (s : sched) (op : vop) : Prop :=
  exists k, sc_ops s = Some k /\ (k < member_calls ms A op)%nat.

(** A call under the schedule [s]. *)
Inductive xastep (ms : list member) (A : bworld) (s : sched) (op : vop) (A' : bworld) : xvobs -> Prop :=
| xa_done : forall ob, ~ throws ms A s op -> astep A op A' ob -> xastep ms A s op A' (Done ob)
| xa_caught : throws ms A s op -> athrow ms A op A' -> xastep ms A s op A' Caught.

(** Every call is within the contract, whatever the earlier ones did. *)
Fixpoint xlegal (ms : list member) (A : bworld) (ops : list (sched * vop)) : Prop :=
  match ops with
  | [] => True
  | (s, op) :: r => vpre ms A op /\ forall A' ob, xastep ms A s op A' ob -> xlegal ms A' r
  end.

Inductive xarun (ms : list member) (A : bworld) : list (sched * vop) -> bworld -> list xvobs -> Prop :=
| xr_nil : xarun ms A [] A []
| xr_cons : forall s op ops A1 A2 ob obs, xastep ms A s op A1 ob -> xarun ms A1 ops A2 obs ->
    xarun ms A ((s, op) :: ops) A2 (ob :: obs).
