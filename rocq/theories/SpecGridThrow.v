(** Specification used by the theorems about exceptions thrown by user code. *)
From Coq Require Import ZArith List Bool.
From Verif Require Import Base Layout Mem Accessor AccessorProofs Grid SpecGrid.
Import ListNotations.
Open Scope Z_scope.

(** Class-type elements of one cell. *)
Definition class_elements (ms : list member) : nat :=
  fold_right (fun mb n => (if m_class mb then m_count mb else 0) + n)%nat 0%nat ms.

(** Class-type elements of a grid: the constructor calls it takes to build one. *)
Definition grid_elements (ms : list member) (x y z : Z) : nat := (Z.to_nat (x * y * z) * class_elements ms)%nat.

(** Objects alive in a block of [n] bytes. *)
Definition alive (m : mem) (b : nat) (n : Z) : nat := length (filter (fun o => mlive m b o) (zseq n)).

(** Every element of [c] is that of [old] or that of [new]. *)
Definition mixed (ms : list member) (old new c : cell) : Prop :=
  wf_cell ms c /\
  forall t, nth_error (concat c) t = nth_error (concat old) t \/ nth_error (concat c) t = nth_error (concat new) t.

(** Whatever a program does next with the grids, as long as it respects their contract
    (Spec of grids: [astep], [arun]), it observes what [A] predicts, without undefined
    behaviour; and once the grids are gone no storage is left. *)
Definition as_specified (ct : celltype) (W : world) (A : aworld) : Prop :=
  forall ops A' bs, arun ct A ops A' bs ->
    exists W', wrun ct W ops = Val (W', bs) /\ ((forall id, A' id = None) -> forall b, msize (w_mem W') b = None).

(** [(x', y', z')] is one of the [n] cells from [(x, y, z)] on. *)
Definition in_row (x y z n x' y' z' : Z) : bool := (y' =? y) && (z' =? z) && (x <=? x') && (x' <? x + n).

(** [W] is what a program that respects the contract has made, [A] what it expects. *)
Definition history (ct : celltype) (W : world) (A : aworld) : Prop :=
  exists ops bs, arun ct no_grids ops A bs /\ wrun ct start ops = Val (W, bs).

(** [m'] has one block more than [m]: [b], of [n] bytes, with [k] living objects in it. *)
Definition leaves_block (m m' : mem) (b : nat) (n : Z) (k : nat) : Prop :=
  msize m b = None /\ msize m' b = Some n /\ alive m' b n = k /\
  (forall c, c <> b -> msize m' c = msize m c) /\
  (forall c l o, msize m c = Some l -> mval m' c o = mval m c o /\ mlive m' c o = mlive m c o).
