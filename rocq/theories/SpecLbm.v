(** What the lattice Boltzmann example is expected to compute: the D3Q19 model
    with single relaxation time, on a grid of cells with 19 components.  Nothing
    here refers to memory, threads or the text of the kernels. *)
From Coq Require Import ZArith List Bool Field_theory.
From Verif Require Import Base Layout Cuda Sph Lbm.
Import ListNotations.
Local Open Scope Z_scope.

(** The velocity of a component. *)
Definition cx (d : dir) : Z :=
  match d with dE | dNE | dSE | dTE | dBE => 1 | dW | dNW | dSW | dTW | dBW => -1 | _ => 0 end.
Definition cy (d : dir) : Z :=
  match d with dN | dNE | dNW | dTN | dBN => 1 | dS | dSE | dSW | dTS | dBS => -1 | _ => 0 end.
Definition cz (d : dir) : Z :=
  match d with dT | dTN | dTS | dTE | dTW => 1 | dB | dBN | dBS | dBE | dBW => -1 | _ => 0 end.

Definition dirs : list dir :=
  [dC; dN; dE; dW; dS; dT; dB; dNW; dSW; dNE; dSE; dTW; dBW; dTE; dBE; dTN; dBN; dTS; dBS].

Section Physics.
Context {T : Type} (K : arith T).
Local Notation "a +. b" := (r_add K a b) (at level 50, left associativity).
Local Notation "a -. b" := (r_sub K a b) (at level 50, left associativity).
Local Notation "a *. b" := (r_mul K a b) (at level 40, left associativity).
Local Notation "a /. b" := (r_div K a b) (at level 40, left associativity).
Local Notation "# z" := (r_num K z) (at level 5).

(** Exact arithmetic: a field containing the integers. *)
Record exact_field : Prop := {
  ef_field : exists inv, field_theory #0 #1 (r_add K) (r_mul K) (r_sub K) (r_neg K) (r_div K) inv eq;
  ef_add : forall a b, #(a + b) = #a +. #b;
  ef_nonzero : forall z, z <> 0 -> #z <> #0 }.

Definition sum19 (f : dir -> T) : T := fold_right (fun d s => f d +. s) #0 dirs.

Definition mass (f : dir -> T) : T := sum19 f.
Definition momentum (c : dir -> Z) (f : dir -> T) : T := sum19 (fun d => #(c d) *. f d).

(** Lattice weights: 1/3, 1/18, 1/36. *)
Definition weight (d : dir) : T :=
  match Z.abs (cx d) + Z.abs (cy d) + Z.abs (cz d) with
  | 0 => #1 /. #3
  | 1 => #1 /. #18
  | _ => #1 /. #36
  end.

(** Equilibrium, w (rho + 3 c.u + 9/2 (c.u)^2 - 3/2 u.u). *)
Definition equilibrium (f : dir -> T) (d : dir) : T :=
  let rho := mass f in
  let ux := momentum cx f in
  let uy := momentum cy f in
  let uz := momentum cz f in
  let cu := #(cx d) *. ux +. #(cy d) *. uy +. #(cz d) *. uz in
  weight d *. (rho +. #3 *. cu +. #9 /. #2 *. (cu *. cu) -. #3 /. #2 *. (ux *. ux +. uy *. uy +. uz *. uz)).

(** Relaxation with omega = 1 / 1.7. *)
Definition relax (f : dir -> T) (d : dir) : T :=
  let omega := #10 /. #17 in
  (#1 -. omega) *. f d +. omega *. equilibrium f d.
End Physics.

(** A grid: components of the cell at x, y, z. *)
Notation grid T := (Z -> Z -> Z -> dir -> T).

Section Grid.
Context {T : Type} (collide : (dir -> T) -> dir -> T).

(** The components arriving at a cell: each comes from where its velocity points from. *)
Definition arriving (f : grid T) (x y z : Z) (d : dir) : T := f (x - cx d) (y - cy d) (z - cz d) d.

(** A sweep over the cells [covered]: g is overwritten there from f. *)
Definition sweep (covered : Z -> Z -> Z -> bool) (f g : grid T) : grid T :=
  fun x y z d => if covered x y z then collide (arriving f x y z) d else g x y z d.

(** n sweeps, the two grids changing roles after each. *)
Fixpoint sweeps (covered : Z -> Z -> Z -> bool) (n : nat) (p : grid T * grid T) : grid T * grid T :=
  match n with
  | O => p
  | S k => sweeps covered k (sweep covered (fst p) (snd p), fst p)
  end.
End Grid.

(** [nx] times [ny] columns from (2, 2) on, without two planes below and above. *)
Definition columns (nx ny dimZ : Z) (x y z : Z) : bool :=
  (2 <=? x) && (x <? 2 + nx) && (2 <=? y) && (y <? 2 + ny) && (2 <=? z) && (z <? dimZ - 2).

(** A memory holds a grid of the given dimensions, component d of cell (x, y, z)
    at [addr x y z d]. *)
Definition holds {T : Type} (addr : Z -> Z -> Z -> dir -> Z) (dimX dimY dimZ : Z) (m : Z -> T) (f : grid T) : Prop :=
  forall x y z d, 0 <= x < dimX -> 0 <= y < dimY -> 0 <= z < dimZ -> m (addr x y z d) = f x y z d.

(** A launch that CUDA accepts, of one layer, whose thread coordinates fit unsigned. *)
Definition plain (g b : dim3) : Prop :=
  launchable (g, b) = true /\ d_z g = 1 /\ d_z b = 1 /\ 0 < d_x b /\ 0 < d_y b /\
  d_x g * d_x b <= 2 ^ 32 /\ d_y g * d_y b <= 2 ^ 32.

(** A kernel, launched on a memory that holds f, rewrites another one that holds
    h so that it holds [step f h]: in every execution, without failing. *)
Definition performs {T : Type} (cfg : dim3 * dim3) (kernel : (Z -> T) -> dim3 -> thread -> list (Z * option T))
    (size : Z) (addr : Z -> Z -> Z -> dir -> Z) (dimX dimY dimZ : Z) (step : grid T -> grid T -> grid T) : Prop :=
  forall f h old new s,
    holds addr dimX dimY dimZ old f -> holds addr dimX dimY dimZ new h ->
    interleave (launch cfg (kernel old)) s ->
    exists new', store_all size s new = Some new' /\ holds addr dimX dimY dimZ new' (step f h).

(** Where accessor.DIR() of the cell at x, y, z is. *)
Definition flat_position (e : extent) (x y z : Z) (d : dir) : Z :=
  match component (mkAcc e (gen_index e x y z) 0) d with Some a => a | None => 0 end.

(** ** Cells by number
    Rows of [dimX], planes of [dimX * dimY] cells; columns that leave the grid
    at the side run on in the next row or plane. *)
Definition number (dimX dimY x y z : Z) : Z := z * dimX * dimY + y * dimX + x.

Definition written (dimX dimY nx ny dimZ i : Z) : Prop :=
  exists x y z, columns nx ny dimZ x y z = true /\ i = number dimX dimY x y z.

(** The same as [performs], with cells by number: [addr i d] is where component
    d of cell i is; there are [cells] cells. *)
Definition performs_by_number {T : Type} (collide : (dir -> T) -> dir -> T) (cfg : dim3 * dim3)
    (kernel : (Z -> T) -> dim3 -> thread -> list (Z * option T))
    (size : Z) (addr : Z -> dir -> Z) (cells dimX dimY nx ny dimZ : Z) : Prop :=
  forall old new s, interleave (launch cfg (kernel old)) s ->
    exists new', store_all size s new = Some new' /\
      forall i d, 0 <= i < cells ->
        (written dimX dimY nx ny dimZ i ->
           new' (addr i d) = collide (fun d' => old (addr (i - number dimX dimY (cx d') (cy d') (cz d')) d')) d) /\
        (~ written dimX dimY nx ny dimZ i -> new' (addr i d) = new (addr i d)).
