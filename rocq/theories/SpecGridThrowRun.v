(** What programs see of soa_grids when members throw: specification for
    PropsGridThrowRun.v. *)
From Coq Require Import ZArith List Bool.
From Verif Require Import Base Layout Sizes SizesProofs Mem Accessor AccessorProofs Grid SpecGrid GridThrow SpecGridThrow GridThrowRun.
Import ListNotations.
Open Scope Z_scope.

(** Same dimensions, other cells. *)
Definition recelled (S S' : agrid) : Prop :=
  ag_x S' = ag_x S /\ ag_y S' = ag_y S /\ ag_z S' = ag_z S /\ ag_fresh S' = ag_fresh S.

(** The calls that keep all grids usable when a member throws: those that neither
    construct nor release storage. *)
Definition interruptible (A : aworld) (op : gop) : Prop :=
  match op with
  | OSet _ _ _ _ _ | OSetN _ _ _ _ _ | OBroadcast _ _ _ _ _ _ | OLoad _ _ _ | OSave _ _ _ => True
  | OAssign id src => id <> src /\
      match A id, A src with Some d, Some o => ag_x d = ag_x o /\ ag_y d = ag_y o /\ ag_z d = ag_z o | _, _ => False end
  | _ => False
  end.

(** How many cells such a call assigns. *)
Definition cells_assigned (A : aworld) (op : gop) : nat :=
  match op with
  | OSet _ _ _ _ _ => 1%nat
  | OSetN _ _ _ _ cs => length cs
  | OBroadcast _ _ _ _ _ n => Z.to_nat n
  | OLoad _ l _ | OSave _ l _ => length (streak_coords l)
  | OAssign _ src => match A src with Some o => Z.to_nat (ag_x o * ag_y o * ag_z o) | None => 0%nat end
  | _ => 0%nat
  end.

(** The call of a member that is to throw is one of those that assign them. *)
Definition gthrows (ms : list member) (A : aworld) (s : sched) (op : gop) : Prop :=
  exists k, sc_ops s = Some k /\ (k < cells_assigned A op * class_elements ms)%nat.

(** Grids (and the bytes of the buffer) after a call in which a member threw. *)
Inductive gleft (ms : list member) (A : aworld) : gop -> aworld -> list memval -> Prop :=
| gl_row : forall op id x y z n (f : Z -> cell) S S',
    match op with
    | OSet i a b d c => (i, a, b, d, n) = (id, x, y, z, 1) /\ f = (fun _ => c)
    | OSetN i a b d cs => (i, a, b, d, n) = (id, x, y, z, Z.of_nat (length cs)) /\ f = (fun j => nth (Z.to_nat j) cs [])
    | OBroadcast i a b d c n' => (i, a, b, d, n) = (id, x, y, z, n') /\ f = (fun _ => c)
    | _ => False
    end ->
    A id = Some S -> recelled S S' ->
    (forall x' y' z', in_box S x' y' z' ->
      if in_row x y z n x' y' z' then mixed ms (ag_cells S x' y' z') (f (x' - x)) (ag_cells S' x' y' z')
      else ag_cells S' x' y' z' = ag_cells S x' y' z') ->
    gleft ms A op (fset A id (Some S')) []
| gl_assign : forall id src D S D',
    A id = Some D -> A src = Some S -> recelled D D' ->
    (forall x y z, in_box D x y z -> mixed ms (ag_cells D x y z) (ag_cells S x y z) (ag_cells D' x y z)) ->
    gleft ms A (OAssign id src) (fset A id (Some D')) []
| gl_load : forall id l cs S S',
    A id = Some S -> recelled S S' ->
    (forall x y z, in_box S x y z -> ~ In (x, y, z) (streak_coords l) -> ag_cells S' x y z = ag_cells S x y z) ->
    (forall k x y z c, nth_error (streak_coords l) k = Some (x, y, z) -> nth_error cs k = Some c ->
       mixed ms (ag_cells S x y z) c (ag_cells S' x y z)) ->
    gleft ms A (OLoad id l cs) (fset A id (Some S')) (pack ms cs)
| gl_save : forall id l cs S cs',
    A id = Some S -> length cs' = length cs ->
    (forall k old c, nth_error cs k = Some old -> nth_error cs' k = Some c ->
       match nth_error (streak_coords l) k with
       | Some (x, y, z) => mixed ms old (ag_cells S x y z) c
       | None => c = old
       end) ->
    gleft ms A (OSave id l cs) A (pack ms cs').

(** A call under a schedule. *)
Inductive gstep (ct : celltype) (A : aworld) (s : sched) (op : gop) (A' : aworld) : xobs -> Prop :=
| gs_never : forall b, s = never -> astep ct A op A' b -> gstep ct A s op A' (GDone b)
| gs_done : forall b, interruptible A op -> ~ gthrows (ct_ms ct) A s op -> astep ct A op A' b -> gstep ct A s op A' (GDone b)
| gs_caught : forall bs, interruptible A op -> gthrows (ct_ms ct) A s op -> gleft (ct_ms ct) A op A' bs ->
    gstep ct A s op A' (GCaught bs).

(** Every call is within the contract of grids, whatever the earlier ones did, and only
    interruptible ones are interrupted. *)
Fixpoint glegal (ct : celltype) (A : aworld) (ops : list (sched * gop)) : Prop :=
  match ops with
  | [] => True
  | (s, op) :: r =>
      (exists A1 b, astep ct A op A1 b) /\ (s = never \/ interruptible A op) /\
      forall A' b, gstep ct A s op A' b -> glegal ct A' r
  end.

Inductive grun (ct : celltype) (A : aworld) : list (sched * gop) -> aworld -> list xobs -> Prop :=
| gr_nil : grun ct A [] A []
| gr_cons : forall s op ops A1 A2 b bs, gstep ct A s op A1 b -> grun ct A1 ops A2 bs ->
    grun ct A ((s, op) :: ops) A2 (b :: bs).
