(** What the stencil examples are expected to compute.  Nothing here refers to
    accessors, indices, vector classes' member functions or loop peeling. *)
From Coq Require Import String ZArith List Bool Permutation.
From Verif Require Import ShortVecLang ShortVecClass PropsShortVec.
From Verif Require Import Base Layout Mem Accessor Sizes Grid SpecGrid Peeler Stencil.
Import ListNotations.
Local Open Scope Z_scope.

(** ** The filters, pointwise *)
Section Filters.
Context {T : Type} (add mul : T -> T -> T).

(** Seven-point Jacobi: the six neighbours' sum, times [factor]. *)
Definition jacobi_at (factor : T) (f : Z -> Z -> Z -> T) (x y z : Z) : T :=
  mul (add (add (add (add (add (f x y (z - 1)) (f x (y - 1) z)) (f (x - 1) y z)) (f (x + 1) y z))
                (f x (y + 1) z)) (f x y (z + 1))) factor.

(** Sum of a non-empty list from left to right. *)
Definition sum1 (d : T) (l : list T) : T :=
  match l with [] => d | t :: r => fold_left add r t end.

(** Convolution of the yz plane with a 5 x 5 table of weights, row by row. *)
Definition gauss_at (w : Z -> Z -> T) (f : Z -> Z -> Z -> T) (x y z : Z) : T :=
  sum1 (f x y z)
    (flat_map (fun dz => map (fun dy => mul (f x (y + dy) (z + dz)) (w (2 + dz) (2 + dy)))
                             [-2; -1; 0; 1; 2]) [-2; -1; 0; 1; 2]).

(** The table is the same when mirrored or transposed. *)
Definition symmetric (w : Z -> Z -> T) : Prop :=
  forall i j, 0 <= i < 5 -> 0 <= j < 5 -> w i j = w j i /\ w i j = w (4 - i) j.

End Filters.

(** ** The filters on grids of doubles *)
Inductive filter := Jacobi (factor : elem) | Gauss (w : Z -> Z -> elem).

Definition is_double (v : elem) : Prop := length v = 8%nat.

Definition filter_ok (f : filter) : Prop :=
  match f with
  | Jacobi factor => is_double factor
  | Gauss w => symmetric w /\ forall i j, is_double (w i j)
  end.

(** Cells nearer than this to the faces of the box keep their value. *)
Definition yz_margin (f : filter) : Z := match f with Jacobi _ => 1 | Gauss _ => 2 end.
Definition x_margin (f : filter) : Z := match f with Jacobi _ => 1 | Gauss _ => 0 end.

Definition interior (f : filter) (dx dy dz x y z : Z) : bool :=
  (x_margin f <=? x) && (x <? dx - x_margin f) &&
  (yz_margin f <=? y) && (y <? dy - yz_margin f) &&
  (yz_margin f <=? z) && (z <? dz - yz_margin f).

(** The double of a cell. *)
Definition temp (c : cell) : elem := hd [] (concat c).

(** Addition and multiplication of doubles yield doubles. *)
Definition doubles (A : alg elem) : Prop :=
  forall x y, is_double x -> is_double y ->
    is_double (a_bin A (BAdd KF64) x y) /\ is_double (a_bin A (BMul KF64) x y).

Definition filter_at (A : alg elem) (f : filter) : (Z -> Z -> Z -> elem) -> Z -> Z -> Z -> elem :=
  match f with
  | Jacobi factor => jacobi_at (a_bin A (BAdd KF64)) (a_bin A (BMul KF64)) factor
  | Gauss w => gauss_at (a_bin A (BAdd KF64)) (a_bin A (BMul KF64)) w
  end.

(** The target grid D after filtering S into it. *)
Definition filtered (A : alg elem) (f : filter) (S D : agrid) : agrid :=
  mkAG (ag_x D) (ag_y D) (ag_z D) (ag_fresh D)
    (fun x y z => if interior f (ag_x S) (ag_y S) (ag_z S) x y z
                  then [[filter_at A f (fun x y z => temp (ag_cells S x y z)) x y z]]
                  else ag_cells D x y z).

(** ** Histories: grid operations and sweeps, in any order, on any grids
    [order]: any order of the iterations of the parallel loop. *)
Inductive xop :=
| XGrid (o : gop)
| XSweep (f : filter) (c : cls) (order : list Z -> list Z) (old new : nat).

Definition kernel_of (f : filter) : kernel :=
  match f with Jacobi factor => jacobi factor | Gauss w => gauss w end.

(** *** Running the library: grids old and new are objects of the world. *)
Definition xstep (A : alg elem) (base : nat -> Z) (ct : celltype) (w : world) (op : xop)
    : Mem.result (world * obs) :=
  match op with
  | XGrid o => wstep ct w o
  | XSweep f c order old new =>
      match w_grids w old, w_grids w new with
      | Some go, Some gn =>
          match sweep A base (kernel_of f) c order ct (w_mem w, go) gn with
          | Ret (m', _) _ => Val (mkW m' (w_grids w), BUnit)
          | Thr (m', _) e => Val (mkW m' (w_grids w), BThrow e)
          | Flt x => Fault x
          end
      | _, _ => Fault Dangling
      end
  end.

Fixpoint xrun (A : alg elem) (base : nat -> Z) (ct : celltype) (w : world) (ops : list xop)
    : Mem.result (world * list obs) :=
  match ops with
  | [] => Val (w, [])
  | op :: r =>
      match xstep A base ct w op with
      | Fault f => Fault f
      | Val (w', b) =>
          match xrun A base ct w' r with
          | Fault f => Fault f
          | Val (w'', bs) => Val (w'', b :: bs)
          end
      end
  end.

(** *** What the user expects *)

(** The vector classes of double that can be selected (not QPX, C65). *)
Definition double_class (c : cls) : Prop := In c without_qpx /\ c_kind c = KF64.

(** The grid is wide enough for the vector class: the x loop does not end
    before the first multiple of the vector length. *)
Definition wide_enough (f : filter) (n dx : Z) : Prop :=
  exists r, is_round_up n (x_margin f) r /\ r <= dx - x_margin f.

Inductive axstep (A : alg elem) (ct : celltype) (W : aworld) : xop -> aworld -> obs -> Prop :=
| ax_grid : forall o W' b, astep ct W o W' b -> axstep A ct W (XGrid o) W' b
| ax_sweep : forall f c order old new S D,
    old <> new -> W old = Some S -> W new = Some D ->
    ag_fresh S = false -> ag_fresh D = false ->
    (ag_x S, ag_y S, ag_z S) = (ag_x D, ag_y D, ag_z D) ->
    ag_x S < 2 ^ 31 -> yz_margin f <= ag_y S < 2 ^ 31 -> ag_z S < 2 ^ 31 ->
    filter_ok f -> double_class c ->
    wide_enough f (Z.of_nat (c_arity c)) (ag_x S) ->
    (forall l, Permutation (order l) l) ->
    axstep A ct W (XSweep f c order old new) (fset W new (Some (filtered A f S D))) BUnit.

Inductive axrun (A : alg elem) (ct : celltype) : aworld -> list xop -> aworld -> list obs -> Prop :=
| axr_nil : forall W, axrun A ct W [] W []
| axr_cons : forall W op W' b ops W'' bs,
    axstep A ct W op W' b -> axrun A ct W' ops W'' bs -> axrun A ct W (op :: ops) W'' (b :: bs).

(** ** Comparison with the C99 programs *)

(** The C99 function of a filter. *)
Definition c99 (A : alg elem) (f : filter) : (Z -> elem) -> (Z -> elem) -> Z -> Z -> Z -> Z -> elem :=
  match f with
  | Jacobi factor => update_c99 (a_bin A (BAdd KF64)) (a_bin A (BMul KF64)) factor
  | Gauss w => filter_c99 (a_bin A (BAdd KF64)) (a_bin A (BMul KF64)) w
  end.

(** The loop of the C99 benchmarks: update, then swap; arrays (old, new). *)
Fixpoint c99_steps (A : alg elem) (f : filter) (n : nat) (dx dy dz : Z) (old new : Z -> elem)
    : (Z -> elem) * (Z -> elem) :=
  match n with
  | O => (old, new)
  | S n' => c99_steps A f n' dx dy dz (c99 A f new old dx dy dz) old
  end.

(** The loop of the LibFlatArray benchmarks (jacobi/main.cpp:250-254, gauss/main.cpp:297-301). *)
Definition lfa_steps (f : filter) (c : cls) (order : list Z -> list Z) (n : nat) (old new : nat) : list xop :=
  concat (repeat [XSweep f c order old new; XGrid (OSwap old new)] n).

(** Array a holds the values of grid S, x running fastest. *)
Definition holds_grid (a : Z -> elem) (S : agrid) : Prop :=
  forall x y z, in_box S x y z -> ag_cells S x y z = [[a ((z * ag_y S + y) * ag_x S + x)]].

(** ** Histories that differ in how the sweeps are carried out *)

(** The same operation, a sweep possibly with a class of fewer lanes and
    another order of the iterations. *)
Inductive adapted : xop -> xop -> Prop :=
| ad_same : forall o, adapted o o
| ad_sweep : forall f c order c' order' old new,
    double_class c' ->
    (exists q, c_arity c = q * c_arity c')%nat ->
    (forall l, Permutation (order' l) l) ->
    adapted (XSweep f c order old new) (XSweep f c' order' old new).
