(** The lattice Boltzmann example, examples/lbm: the same update of a cell on
    three data layouts, as CUDA kernels, and the benchmark that launches them.
    Model only; proofs are in LbmProofs.v.

    Simplifications: arithmetic on double is arbitrary (decimal literals are
    quotients of integers); integers are unbounded apart from global_id;
    memory holds one double per byte address that is accessed; accesses outside
    an allocation are failures (None). *)
From Coq Require Import ZArith List Bool.
From Verif Require Import Base Peeler Layout Sizes Cuda Sph.
Import ListNotations.
Local Open Scope Z_scope.

(** The components of a cell. *)
Inductive dir := dC | dN | dE | dW | dS | dT | dB | dNW | dSW | dNE | dSE | dTW | dBW | dTE | dBE | dTN | dBN | dTS | dBS.

(** #define C 0 ... BS 18 (update_lbm_classic.h:13-34). *)
Definition code (d : dir) : Z :=
  match d with
  | dC => 0 | dN => 1 | dE => 2 | dW => 3 | dS => 4 | dT => 5 | dB => 6
  | dNW => 7 | dSW => 8 | dNE => 9 | dSE => 10
  | dTW => 11 | dBW => 12 | dTE => 13 | dBE => 14
  | dTN => 15 | dBN => 16 | dTS => 17 | dBS => 18
  end.

(** Position of the member in class CellLBM (cell.h:12-30). *)
Definition field (d : dir) : Z :=
  match d with
  | dC => 0 | dN => 1 | dE => 2 | dW => 3 | dS => 4 | dT => 5 | dB => 6
  | dNW => 7 | dNE => 8 | dSW => 9 | dSE => 10
  | dTW => 11 | dBW => 12 | dTE => 13 | dBE => 14
  | dTN => 15 | dBN => 16 | dTS => 17 | dBS => 18
  end.

(** Position in LIBFLATARRAY_REGISTER_SOA (cell.h:139-158). *)
Definition registered (d : dir) : nat :=
  match d with
  | dC => 0 | dN => 1 | dE => 2 | dW => 3 | dS => 4 | dT => 5 | dB => 6
  | dNW => 7 | dSW => 8 | dNE => 9 | dSE => 10
  | dTW => 11 | dBW => 12 | dTE => 13 | dBE => 14
  | dTN => 15 | dBN => 16 | dTS => 17 | dBS => 18
  end%nat.

Definition cell_members : list member := repeat (mkMember 8 None false (repeat None 8)) 19.

(** Arithmetic on values that a failed load may have supplied. *)
Definition omap2 {A : Type} (f : A -> A -> A) (a b : option A) : option A :=
  match a, b with Some a, Some b => Some (f a b) | _, _ => None end.
Definition lift {T : Type} (K : arith T) : arith (option T) :=
  mkArith (omap2 (r_add K)) (omap2 (r_sub K)) (omap2 (r_mul K)) (omap2 (r_div K))
          (option_map (r_neg K)) (option_map (r_sqrt K))
          (fun a b => match a, b with Some a, Some b => r_lt K a b | _, _ => false end)
          (fun z => Some (r_num K z)) (Some (r_pi K)).

(** The body of the loops over z: cell.h:63-128, update_lbm_classic.h:52-117 and
    update_lbm_object_oriented.h:29-94 are the same text.  [g]: GET_COMP; the
    list: the SET_COMPs in order. *)
Section Text.
Context {T : Type} (K : arith T).
Local Notation "a +. b" := (r_add K a b) (at level 50, left associativity).
Local Notation "a -. b" := (r_sub K a b) (at level 50, left associativity).
Local Notation "a *. b" := (r_mul K a b) (at level 40, left associativity).
Local Notation "a /. b" := (r_div K a b) (at level 40, left associativity).
Local Notation "# z" := (r_num K z) (at level 5).
Definition update_text (g : Z -> Z -> Z -> dir -> T) (x y z : Z) : list (dir * T) :=
  let SQR v := r_mul K v v in
  let omega := #1 /. (#17 /. #10) in
  let omega_trm := #1 -. omega in
  let omega_w0 := #3 *. #1 /. #3 *. omega in
  let omega_w1 := #3 *. #1 /. #18 *. omega in
  let omega_w2 := #3 *. #1 /. #36 *. omega in
  let one_third := #1 /. #3 in
  let velX := g (x - 1) y z dE +. g (x - 1) (y - 1) z dNE +. g (x - 1) (y + 1) z dSE +. g (x - 1) y (z - 1) dTE +. g (x - 1) y (z + 1) dBE in
  let velY := g x (y - 1) z dN +. g (x + 1) (y - 1) z dNW +. g x (y - 1) (z - 1) dTN +. g x (y - 1) (z + 1) dBN in
  let velZ := g x y (z - 1) dT +. g x (y + 1) (z - 1) dTS +. g (x + 1) y (z - 1) dTW in
  let rho := g x y z dC +. g x (y + 1) z dS +. g (x + 1) y z dW +. g x y (z + 1) dB +. g (x + 1) (y + 1) z dSW +. g x (y + 1) (z + 1) dBS +. g (x + 1) y (z + 1) dBW +. velX +. velY +. velZ in
  let velX := velX -. g (x + 1) y z dW -. g (x + 1) (y - 1) z dNW -. g (x + 1) (y + 1) z dSW -. g (x + 1) y (z - 1) dTW -. g (x + 1) y (z + 1) dBW in
  let velY := velY +. g (x - 1) (y - 1) z dNE -. g x (y + 1) z dS -. g (x + 1) (y + 1) z dSW -. g (x - 1) (y + 1) z dSE -. g x (y + 1) (z - 1) dTS -. g x (y + 1) (z + 1) dBS in
  let velZ := velZ +. g x (y - 1) (z - 1) dTN +. g (x - 1) y (z - 1) dTE -. g x y (z + 1) dB -. g x (y - 1) (z + 1) dBN -. g x (y + 1) (z + 1) dBS -. g (x + 1) y (z + 1) dBW -. g (x - 1) y (z + 1) dBE in
  let dir_indep_trm := one_third *. rho -. (#5 /. #10) *. (velX *. velX +. velY *. velY +. velZ *. velZ) in
  [(dC, omega_trm *. g x y z dC +. omega_w0 *. (dir_indep_trm));
   (dNW, omega_trm *. g (x + 1) (y - 1) z dNW +. omega_w2 *. (dir_indep_trm -. (velX -. velY) +. (#15 /. #10) *. SQR (velX -. velY)));
   (dSE, omega_trm *. g (x - 1) (y + 1) z dSE +. omega_w2 *. (dir_indep_trm +. (velX -. velY) +. (#15 /. #10) *. SQR (velX -. velY)));
   (dNE, omega_trm *. g (x - 1) (y - 1) z dNE +. omega_w2 *. (dir_indep_trm +. (velX +. velY) +. (#15 /. #10) *. SQR (velX +. velY)));
   (dSW, omega_trm *. g (x + 1) (y + 1) z dSW +. omega_w2 *. (dir_indep_trm -. (velX +. velY) +. (#15 /. #10) *. SQR (velX +. velY)));
   (dTW, omega_trm *. g (x + 1) y (z - 1) dTW +. omega_w2 *. (dir_indep_trm -. (velX -. velZ) +. (#15 /. #10) *. SQR (velX -. velZ)));
   (dBE, omega_trm *. g (x - 1) y (z + 1) dBE +. omega_w2 *. (dir_indep_trm +. (velX -. velZ) +. (#15 /. #10) *. SQR (velX -. velZ)));
   (dTE, omega_trm *. g (x - 1) y (z - 1) dTE +. omega_w2 *. (dir_indep_trm +. (velX +. velZ) +. (#15 /. #10) *. SQR (velX +. velZ)));
   (dBW, omega_trm *. g (x + 1) y (z + 1) dBW +. omega_w2 *. (dir_indep_trm -. (velX +. velZ) +. (#15 /. #10) *. SQR (velX +. velZ)));
   (dTS, omega_trm *. g x (y + 1) (z - 1) dTS +. omega_w2 *. (dir_indep_trm -. (velY -. velZ) +. (#15 /. #10) *. SQR (velY -. velZ)));
   (dBN, omega_trm *. g x (y - 1) (z + 1) dBN +. omega_w2 *. (dir_indep_trm +. (velY -. velZ) +. (#15 /. #10) *. SQR (velY -. velZ)));
   (dTN, omega_trm *. g x (y - 1) (z - 1) dTN +. omega_w2 *. (dir_indep_trm +. (velY +. velZ) +. (#15 /. #10) *. SQR (velY +. velZ)));
   (dBS, omega_trm *. g x (y + 1) (z + 1) dBS +. omega_w2 *. (dir_indep_trm -. (velY +. velZ) +. (#15 /. #10) *. SQR (velY +. velZ)));
   (dN, omega_trm *. g x (y - 1) z dN +. omega_w1 *. (dir_indep_trm +. velY +. (#15 /. #10) *. SQR (velY)));
   (dS, omega_trm *. g x (y + 1) z dS +. omega_w1 *. (dir_indep_trm -. velY +. (#15 /. #10) *. SQR (velY)));
   (dE, omega_trm *. g (x - 1) y z dE +. omega_w1 *. (dir_indep_trm +. velX +. (#15 /. #10) *. SQR (velX)));
   (dW, omega_trm *. g (x + 1) y z dW +. omega_w1 *. (dir_indep_trm -. velX +. (#15 /. #10) *. SQR (velX)));
   (dT, omega_trm *. g x y (z - 1) dT +. omega_w1 *. (dir_indep_trm +. velZ +. (#15 /. #10) *. SQR (velZ)));
   (dB, omega_trm *. g x y (z + 1) dB +. omega_w1 *. (dir_indep_trm -. velZ +. (#15 /. #10) *. SQR (velZ)))].
End Text.

Section Kernels.
Context {T : Type} (K : arith T).

(** A load from an allocation of [size] bytes. *)
Definition load (m : Z -> T) (size a : Z) : option T :=
  if (0 <=? a) && (a + 8 <=? size) then Some (m a) else None.

(** What a thread does to gridNew: stores of values (None: computed from a
    failed load), in order. *)
Notation stores := (list (Z * option T)).

(** ** update_lbm_classic (update_lbm_classic.h:36-117) *)
Definition classic_index (dimX dimY dimZ x y z : Z) (d : dir) : Z :=
  z * dimX * dimY + y * dimX + x + code d * dimX * dimY * dimZ.

Definition update_lbm_classic (dimX dimY dimZ size : Z) (gridOld : Z -> T) (blockDim : dim3) (t : thread) : stores :=
  let '(px, py, _) := t in
  let x := global_id (d_x blockDim) px + 2 in
  let y := global_id (d_y blockDim) py + 2 in
  flat_map (fun z =>
    map (fun '(d, v) => (8 * classic_index dimX dimY dimZ x y z d, v))
        (update_text (lift K) (fun X Y Z d => load gridOld size (8 * classic_index dimX dimY dimZ X Y Z d)) x y z))
    (range 2 (dimZ - 2)).

(** ** update_lbm_object_oriented (update_lbm_object_oriented.h:13-96) *)
Definition object_address (dimX dimY x y z : Z) (d : dir) : Z :=
  (z * dimX * dimY + y * dimX + x) * (19 * 8) + 8 * field d.

Definition update_lbm_object_oriented (dimX dimY dimZ size : Z) (gridOld : Z -> T) (blockDim : dim3) (t : thread) : stores :=
  let '(px, py, _) := t in
  let x := global_id (d_x blockDim) px + 2 in
  let y := global_id (d_y blockDim) py + 2 in
  flat_map (fun z =>
    map (fun '(d, v) => (object_address dimX dimY x y z d, v))
        (update_text (lift K) (fun X Y Z d => load gridOld size (object_address dimX dimY X Y Z d)) x y z))
    (range 2 (dimZ - 2)).

(** ** CellLBM::updateLine (cell.h:32-134) *)

(** accessor.DIR() *)
Definition component (a : accessor) (d : dir) : option Z := member_addr cell_members a (registered d) 0.

(** The loop; the accessors refer to the indices (&accessorOld.index()). *)
Fixpoint line (iterations : nat) (size : Z) (gridOld : Z -> T) (old new : accessor) (planeSizeOld planeSizeNew : Z) : stores :=
  match iterations with
  | O => []
  | S k =>
      flat_map (fun '(d, v) => match component new d with Some a => [(a, v)] | None => [] end)
        (update_text (lift K) (fun X Y Z d =>
           match component (at_coord old (X, Y, Z)) d with Some a => load gridOld size a | None => None end) 0 0 0)
      ++ line k size gridOld (acc_add old planeSizeOld) (acc_add new planeSizeNew) planeSizeOld planeSizeNew
  end.

Definition updateLine (e1 e2 : extent) (size startZ endZ : Z) (gridOld : Z -> T) (blockDim : dim3) (t : thread) : stores :=
  let '(px, py, _) := t in
  let global_x := global_id (d_x blockDim) px + 2 in
  let global_y := global_id (d_y blockDim) py + 2 in
  let global_z := startZ in
  let indexOld := gen_index e1 global_x global_y global_z in
  let indexNew := gen_index e2 global_x global_y global_z in
  let planeSizeOld := DIM_X e1 * DIM_Y e1 in
  let planeSizeNew := DIM_X e1 * DIM_Y e2 in
  line (Z.to_nat (endZ - global_z)) size gridOld (mkAcc e1 indexOld 0) (mkAcc e2 indexNew 0) planeSizeOld planeSizeNew.

(** The kernel update (cudalineupdatefunctorprototype.h:6-17). *)
Definition update_flat (e1 e2 : extent) (size : Z) (gridOld : Z -> T) (blockDim : dim3) (t : thread) : stores :=
  updateLine e1 e2 size 2 (256 - 2) gridOld blockDim t.

(** Stores one after the other into an allocation of [size] bytes. *)
Fixpoint store_all (size : Z) (s : stores) (m : Z -> T) : option (Z -> T) :=
  match s with
  | [] => Some m
  | (a, v) :: r =>
      match v with
      | Some v => if (0 <=? a) && (a + 8 <=? size) then store_all size r (fun b => if b =? a then v else m b) else None
      | None => None
      end
  end.

(** A launch of [kernel]: the threads interleave freely. *)
Definition launched (cfg : dim3 * dim3) (kernel : dim3 -> thread -> stores) (size : Z) (new new' : Z -> T) : Prop :=
  exists s, interleave (launch cfg kernel) s /\ store_all size s new = Some new'.

(** The time steps (util.h:125-128, update_lbm_cuda_flat_array.h:42-45): launch,
    then std::swap(gridOld, gridNew); [kernel] takes gridOld. *)
Inductive timesteps (cfg : dim3 * dim3) (kernel : (Z -> T) -> dim3 -> thread -> stores) (size : Z)
    : nat -> (Z -> T) * (Z -> T) -> (Z -> T) * (Z -> T) -> Prop :=
| ts_none : forall p, timesteps cfg kernel size 0 p p
| ts_step : forall n gridOld gridNew gridNew' r,
    launched cfg (kernel gridOld) size gridNew gridNew' ->
    timesteps cfg kernel size n (gridNew', gridOld) r ->
    timesteps cfg kernel size (S n) (gridOld, gridNew) r.

End Kernels.

(** ** The benchmark (util.h) *)

(** for (; blockWidth <= dim; blockWidth *= 2) (util.h:88-90) *)
Fixpoint widen (fuel : nat) (dim blockWidth : Z) : Z :=
  match fuel with
  | O => blockWidth
  | S f => if blockWidth <=? dim then widen f dim (blockWidth * 2) else blockWidth
  end.

(** gen_dims (util.h:86-98): (dimGrid, dimBlock). *)
Definition gen_dims (dim : Z) : dim3 * dim3 :=
  let blockWidth := widen (Z.to_nat dim + 1) dim 1 in
  let blockWidth := blockWidth / 2 in
  let blockWidth := Z.min 256 blockWidth in
  let dimBlock := mkDim3 blockWidth 2 1 in
  (mkDim3 (dim / d_x dimBlock) (dim / d_y dimBlock) 1, dimBlock).

(** gridSize (util.h:75-82) *)
Definition gridSize (dim : Z) : Z :=
  let '(g, b) := gen_dims dim in d_x g * d_x b * d_y g * d_y b * (256 - 4).

(** cudaExec: int size, int bytesize (util.h:108-109); the product with
    sizeof(double) is converted back to int.  Overflow of size itself is not
    modelled: it needs dim > 579. *)
Definition to_int (n : Z) : Z := (n + 2 ^ 31) mod 2 ^ 32 - 2 ^ 31.
Definition basic_bytesize (dim : Z) : Z := to_int (dim * dim * (256 + 64) * 20 * 8).

(** for (int dim = 32; dim <= 160; dim += 4) (util.h:34-36). *)
Definition evaluated : list Z := map (fun k => 32 + 4 * k) (zseq 33).
(** repeats (util.h:41-44) *)
Definition repeats_for (dim : Z) : Z := if dim <=? 96 then 10 * 10 else 10.

(** glups = 10e-9 * updates / seconds (util.h:48-49) as a
    quotient (numerator, denominator), seconds being an integer. *)
Definition glups (dim repeats seconds : Z) : Z * Z := (10 * (gridSize dim * repeats), 10 ^ 9 * seconds).

(** The IMPLEMENTATION lines of flatarray_implementation_0..10.cu, as their
    generator (examples/lbm/generator) writes them: pairs of extents. *)
Definition intervals : list Z := [32; 64; 128; 136; 192; 200; 256; 264; 512; 520; 1032].
Definition implementations : list (extent * extent) :=
  flat_map (fun x => flat_map (fun y => map (fun z => (mkExt x y z, mkExt x y z)) intervals) intervals) intervals.
