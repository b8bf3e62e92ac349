(** CUDA launch configuration, kernels and the CUDA versions of the functors of soa_grid
    (USE_CUDA_FUNCTORS = true). Model only; proofs are in CudaProofs.v, statements in
    PropsCuda.v.
    What CUDA itself does is modelled as follows (trusted): a launch runs the kernel once
    per thread of each block; threads interleave arbitrarily at the granularity of element
    operations; kernels launched one after the other (default stream) run one after the
    other; a launch whose configuration the device rejects runs no thread (the library does
    not look at the error code). *)
From Coq Require Import ZArith List Bool.
From Verif Require Import Base Layout Mem Accessor Grid.
Import ListNotations.
Open Scope Z_scope.

(** ** Launch configuration *)

(** dim3: three unsigned ints. *)
Record dim3 := mkDim3 { d_x : Z; d_y : Z; d_z : Z }.

(** Conversion to (32 bit) int and unsigned int. *)
Definition to_int (n : Z) : Z := (n + 2 ^ 31) mod 2 ^ 32 - 2 ^ 31.
Definition to_uint (n : Z) : Z := n mod 2 ^ 32.

(** divide_and_round_up (detail/generate_cuda_launch_config.hpp:43-51); / and % truncate. *)
Definition divide_and_round_up (i dividend : Z) : Z :=
  let ret := Z.quot i dividend in
  if Z.rem i dividend =? 0 then ret else ret + 1.

(** generate_cuda_launch_config::operator() (detail/generate_cuda_launch_config.hpp:29-41):
    grid_dim and block_dim. The arguments are converted to int by the call. *)
Definition launch_config (x y z : Z) : dim3 * dim3 :=
  let block := if 4 <=? to_int y then mkDim3 128 4 1 else mkDim3 512 1 1 in
  (mkDim3 (to_uint (divide_and_round_up (to_int x) (d_x block)))
          (to_uint (divide_and_round_up (to_int y) (d_y block)))
          (to_uint (divide_and_round_up (to_int z) (d_z block))),
   block).

(** Limits of the hardware (compute capability 3.0 and above), CUDA C Programming Guide:
    at most 2^31-1 blocks in x, 65535 in y and z, none of them 0; at most 1024 threads
    per block. *)
Definition launchable (cfg : dim3 * dim3) : bool :=
  let '(g, b) := cfg in
  (1 <=? d_x g) && (d_x g <=? 2147483647) && (1 <=? d_y g) && (d_y g <=? 65535) &&
  (1 <=? d_z g) && (d_z g <=? 65535) && (d_x b * d_y b * d_z b <=? 1024).

(** Threads: (blockIdx, threadIdx) per axis. *)
Definition axis (g b : Z) : list (Z * Z) := flat_map (fun bi => map (fun ti => (bi, ti)) (zseq b)) (zseq g).
Definition thread := ((Z * Z) * (Z * Z) * (Z * Z))%type.
Definition threads (cfg : dim3 * dim3) : list thread :=
  if launchable cfg then
    let '(g, b) := cfg in
    flat_map (fun pz => flat_map (fun py => map (fun px => (px, py, pz)) (axis (d_x g) (d_x b)))
                                 (axis (d_y g) (d_y b))) (axis (d_z g) (d_z b))
  else [].

(** blockDim.x * blockIdx.x + threadIdx.x: unsigned arithmetic, then converted to long. *)
Definition global_id (b : Z) (p : Z * Z) : Z := to_uint (b * fst p + snd p).

(** kernel<<<grid_dim, block_dim>>>(...): what each thread does. *)
Definition launch {A : Type} (cfg : dim3 * dim3) (kernel : dim3 -> thread -> A) : list A :=
  map (kernel (snd cfg)) (threads cfg).
Definition launchR {A : Type} (cfg : dim3 * dim3) (kernel : dim3 -> thread -> result A) : result (list A) :=
  mapR (kernel (snd cfg)) (threads cfg).

(** Executions of a launch: threads keep their program order and interleave freely. *)
Inductive interleave {A : Type} : list (list A) -> list A -> Prop :=
| il_done : forall ths, Forall (fun t => t = []) ths -> interleave ths []
| il_step : forall l1 x t l2 r, interleave (l1 ++ t :: l2) r -> interleave (l1 ++ (x :: t) :: l2) (x :: r).

(** Launches one after the other. *)
Inductive in_turn {A : Type} : list (list (list A)) -> list A -> Prop :=
| it_nil : in_turn [] []
| it_cons : forall ths ls s r, interleave ths s -> in_turn ls r -> in_turn (ths :: ls) (s ++ r).

(** ** Kernels. [a]: the accessor the functor was called with (its type gives the extents
    and INDEX); the kernels build a light accessor of the same extents and INDEX over
    the given data and index. *)

(** construct_kernel (detail/construct_functor.hpp:62-87). *)
Definition construct_kernel (ms : list member) (d : ptr) (dx dy dz : Z) (a : accessor)
                            (b : dim3) (t : thread) : list mop :=
  let '(px, py, pz) := t in
  let x := global_id (d_x b) px in
  let y := global_id (d_y b) py in
  let z := global_id (d_z b) pz in
  if dx <=? x then []
  else if dy <=? y then []
  else if dz <=? z then []
  else construct_members_ops d (with_index a (gen_index (a_ext a) x y z)) ms.

(** construct_functor<CELL, true> (detail/construct_functor.hpp:105-113). *)
Definition construct_functor_cuda (ms : list member) (d : ptr) (dx dy dz : Z) (a : accessor) : list (list mop) :=
  launch (launch_config dx dy dz) (construct_kernel ms d dx dy dz a).

(** destroy_kernel (detail/destroy_functor.hpp:63-88), destroy_functor<CELL, true>
    (106-114). *)
Definition destroy_kernel (ms : list member) (d : ptr) (dx dy dz : Z) (a : accessor)
                          (b : dim3) (t : thread) : list mop :=
  let '(px, py, pz) := t in
  let x := global_id (d_x b) px in
  let y := global_id (d_y b) py in
  let z := global_id (d_z b) pz in
  if dx <=? x then []
  else if dy <=? y then []
  else if dz <=? z then []
  else destroy_members_ops d (with_index a (gen_index (a_ext a) x y z)) ms.
Definition destroy_functor_cuda (ms : list member) (d : ptr) (dx dy dz : Z) (a : accessor) : list (list mop) :=
  launch (launch_config dx dy dz) (destroy_kernel ms d dx dy dz a).

(** set_kernel (detail/set_instance_functor.hpp:78-93): the thread index is multiplied by
    SOURCE_STRIDE before it is used for source, target and the bounds check.
    set_instance_functor<CELL, SOURCE_STRIDE, true> (128-142). [cells]: the device array
    [source] points to. *)
Definition set_kernel (ms : list member) (d : ptr) (cells : list cell) (stride x y z count : Z) (a : accessor)
                      (b : dim3) (t : thread) : result (list mop) :=
  let '(px, _, _) := t in
  let offset := global_id (d_x b) px * stride in
  if count <=? offset then Val []
  else
    match nth_error cells (Z.to_nat offset) with
    | None => Fault OutOfBounds
    | Some c => Val (assign_ops d (with_index a (gen_index (a_ext a) (x + offset) y z)) ms c)
    end.
Definition set_instance_functor_cuda (ms : list member) (d : ptr) (cells : list cell) (stride : Z)
                                     (x y z count : Z) (a : accessor) : result (list (list mop)) :=
  launchR (launch_config count 1 1) (set_kernel ms d cells stride x y z count a).

(** get_kernel (detail/get_instance_functor.hpp:79-94), get_instance_functor<CELL, true>
    (129-143): what each thread stores to which element of [target]; the grid itself is
    only read. *)
Definition get_kernel (ms : list member) (m : mem) (d : ptr) (x y z count : Z) (a : accessor)
                      (b : dim3) (t : thread) : result (list (Z * cell)) :=
  let '(px, _, _) := t in
  let offset := global_id (d_x b) px in
  if count <=? offset then Val []
  else
    match read_cell m d (with_index a (gen_index (a_ext a) (x + offset) y z)) ms with
    | Fault f => Fault f
    | Val c => Val [(offset, c)]
    end.
Definition get_instance_functor_cuda (ms : list member) (m : mem) (d : ptr)
                                     (x y z count : Z) (a : accessor) : result (list (list (Z * cell))) :=
  launchR (launch_config count 1 1) (get_kernel ms m d x y z count a).

(** Stores to an array of cells; a store outside it is out of bounds. *)
Fixpoint put {A : Type} (l : list A) (i : nat) (c : A) : option (list A) :=
  match l, i with
  | [], _ => None
  | _ :: r, O => Some (c :: r)
  | x :: r, S i => match put r i c with Some r' => Some (x :: r') | None => None end
  end.
Fixpoint stores {A : Type} (target : list A) (w : list (Z * A)) : result (list A) :=
  match w with
  | [] => Val target
  | (i, c) :: r => match put target (Z.to_nat i) c with Some t' => stores t' r | None => Fault OutOfBounds end
  end.

(** load_kernel (detail/load_functor.hpp:80-95); load_functor<CELL, ITERATOR, true>
    (115-137): one launch per streak. *)
Definition load_kernel (ms : list member) (d : ptr) (source : ptr) (count stride x y z off : Z) (a : accessor)
                       (b : dim3) (t : thread) : list mop :=
  let '(px, _, _) := t in
  let i := global_id (d_x b) px in
  if count <=? i then []
  else load_ops d (with_index a (gen_index (a_ext a) x y z + i)) ms source 1 (off + i) stride.
Fixpoint load_functor_cuda (ms : list member) (d : ptr) (a : accessor) (source : ptr) (count off : Z)
                           (l : list streak) : list (list (list mop)) :=
  match l with
  | [] => []
  | (x, y, z, n) :: r =>
      launch (launch_config n 1 1) (load_kernel ms d source n count x y z off a)
      :: load_functor_cuda ms d a source count (off + n) r
  end.

(** save_kernel (detail/save_functor.hpp:75-90), save_functor<CELL, ITERATOR, true>
    (110-132). *)
Definition save_kernel (ms : list member) (d : ptr) (target : ptr) (count stride x y z off : Z) (a : accessor)
                       (b : dim3) (t : thread) : list mop :=
  let '(px, _, _) := t in
  let i := global_id (d_x b) px in
  if count <=? i then []
  else save_ops d (with_index a (gen_index (a_ext a) x y z + i)) ms target 1 (off + i) stride.
Fixpoint save_functor_cuda (ms : list member) (d : ptr) (a : accessor) (target : ptr) (count off : Z)
                           (l : list streak) : list (list (list mop)) :=
  match l with
  | [] => []
  | (x, y, z, n) :: r =>
      launch (launch_config n 1 1) (save_kernel ms d target n count x y z off a)
      :: save_functor_cuda ms d a target count (off + n) r
  end.

(** init_kernel (detail/init_kernel.hpp:22-32), launched by cuda_array(size, value)
    (cuda_array.hpp:62-71): stores to target[thread_index]. *)
Definition init_kernel {A : Type} (source : A) (count : Z) (b : dim3) (t : thread) : list (Z * A) :=
  let '(px, _, _) := t in
  let i := global_id (d_x b) px in
  if count <=? i then [] else [(i, source)].
