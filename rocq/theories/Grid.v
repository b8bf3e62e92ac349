(** soa_grid (host version, USE_CUDA_FUNCTORS = false) and the functors it passes to
    callback(). Model only; proofs are in GridProofs.v, statements in PropsGrid.v.
    Exceptions thrown by member constructors/assignments or by the allocator are
    the subject of GridThrow.v. Not modelled: members of CELL that are not registered;
    64-bit wrap-around of byte sizes (see C08 in PropsLayout.v for addresses). *)
From Coq Require Import ZArith List Bool.
From Verif Require Import Base Layout Sizes Mem Accessor.
Import ListNotations.
Open Scope Z_scope.

(** What a call does: returns, throws (leaving the state as it is at that point), or
    undefined behaviour. *)
Inductive outcome (W A : Type) :=
| Ret (w : W) (a : A)
| Thr (w : W) (e : exn)
| Flt (f : fault).
Arguments Ret {W A} w a.
Arguments Thr {W A} w e.
Arguments Flt {W A} f.

Definition obind {W A B : Type} (o : outcome W A) (f : W -> A -> outcome W B) : outcome W B :=
  match o with Ret w a => f w a | Thr w e => Thr w e | Flt x => Flt x end.

(** The CELL type as the library sees it: registered members, size policy, and
    whether api_traits::select_asymmetric_dual_callback is true
    (include/libflatarray/api_traits.hpp:279-305). *)
Record celltype := mkCT { ct_ms : list member; ct_sizes : sizes_cfg; ct_asym : bool }.

(** Data members of soa_grid (include/libflatarray/soa_grid.hpp:399-409). [None]:
    uninitialised. The host staging buffers only forward pointers
    (detail/staging_buffer.hpp:25-60) and carry no state here. *)
Record grid := mkGrid {
  g_x : Z; g_y : Z; g_z : Z;
  g_ex : option Z; g_ey : option Z; g_ez : option Z;
  g_bs : option Z;
  g_data : ptr }.

(** callback(functor), const and non-const (soa_grid.hpp:160-170): both pass my_data
    as [char*] (in the const version [char* const]), so both use the non-const
    overload of select_sizes. The functor receives an accessor at
    index 0 over my_data (here: my_data, and extents and indices). *)
Definition callback {W A : Type} (ct : celltype) (w : W) (g : grid)
                    (functor : ptr -> accessor -> outcome W A) : outcome W A :=
  select_sizes (outcome W A) (fun e => Thr w e) (fun e => functor (g_data g) (mkAcc e 0 0))
               (ct_sizes ct) (g_x g) (g_y g) (g_z g).

(** Run operations on memory. *)
Definition run {W A : Type} (r : result mem) (w : mem -> W) (a : A) : outcome W A :=
  match r with Val m => Ret (w m) a | Fault f => Flt f end.

(** construct_functor (detail/construct_functor.hpp:38-51): nested loops, the index
    is reset per row and incremented per cell. *)
Definition construct_functor (ms : list member) (d : ptr) (dx dy dz : Z) (a : accessor) : list mop :=
  flat_map (fun z =>
    flat_map (fun y =>
      flat_map (fun x =>
        construct_members_ops d (acc_add (with_index a (gen_index (a_ext a) 0 y z)) x) ms)
      (zseq dx)) (zseq dy)) (zseq dz).

(** destroy_functor (detail/destroy_functor.hpp:39-52). *)
Definition destroy_functor (ms : list member) (d : ptr) (dx dy dz : Z) (a : accessor) : list mop :=
  flat_map (fun z =>
    flat_map (fun y =>
      flat_map (fun x =>
        destroy_members_ops d (acc_add (with_index a (gen_index (a_ext a) 0 y z)) x) ms)
      (zseq dx)) (zseq dy)) (zseq dz).

(** set_instance_functor<CELL, SOURCE_STRIDE> (detail/set_instance_functor.hpp:54-65).
    [cells]: the array [source] points to; reading beyond it is out of bounds. *)
Definition set_instance_functor (ms : list member) (d : ptr) (cells : list cell) (stride : Z)
                                (x y z count : Z) (a : accessor) : result (list mop) :=
  match mapR (fun i =>
          match nth_error cells (Z.to_nat (i * stride)) with
          | None => Fault OutOfBounds
          | Some c => Val (assign_ops d (acc_add (with_index a (gen_index (a_ext a) x y z)) i) ms c)
          end) (zseq count) with
  | Val opss => Val (concat opss)
  | Fault f => Fault f
  end.

(** get_instance_functor (detail/get_instance_functor.hpp:54-66). *)
Definition get_instance_functor (ms : list member) (m : mem) (d : ptr)
                                (x y z count : Z) (a : accessor) : result (list cell) :=
  mapR (fun i => read_cell m d (acc_add (with_index a (gen_index (a_ext a) x y z)) i) ms) (zseq count).

(** A streak: origin and length (detail/simple_streak.hpp:24-41). *)
Definition streak := (Z * Z * Z * Z)%type.

(** load_functor (detail/load_functor.hpp:46-64). *)
Fixpoint load_functor (ms : list member) (d : ptr) (a : accessor) (source : ptr) (count off : Z)
                      (l : list streak) : list mop :=
  match l with
  | [] => []
  | (x, y, z, n) :: r =>
      load_ops d (with_index a (gen_index (a_ext a) x y z)) ms source n off count
      ++ load_functor ms d a source count (off + n) r
  end.

(** save_functor (detail/save_functor.hpp:41-59). *)
Fixpoint save_functor (ms : list member) (d : ptr) (a : accessor) (target : ptr) (count off : Z)
                      (l : list streak) : list mop :=
  match l with
  | [] => []
  | (x, y, z, n) :: r =>
      save_ops d (with_index a (gen_index (a_ext a) x y z)) ms target n off count
      ++ save_functor ms d a target count (off + n) r
  end.

(** copy_functor (detail/copy_functor.hpp:36-46): both indices are set to
    ACCESSOR1::gen_index(0, y, z), ACCESSOR1 being the source's type. *)
Definition copy_functor (ms : list member) (d1 : ptr) (a1 : accessor) (d2 : ptr) (a2 : accessor)
                        (dx dy dz : Z) : list mop :=
  flat_map (fun z =>
    flat_map (fun y =>
      copy_members_ops d2 (with_index a2 (gen_index (a_ext a1) 0 y z)) ms
                       d1 (with_index a1 (gen_index (a_ext a1) 0 y z)) dx)
    (zseq dy)) (zseq dz).

(** ** Member functions. State: memory and the grid object. *)
Definition gst := (mem * grid)%type.

(** init() (soa_grid.hpp:453-456). *)
Definition g_init (ct : celltype) (w : gst) : outcome gst unit :=
  let '(m, g) := w in
  callback ct w g (fun d a =>
    run (exec (construct_functor (ct_ms ct) d (g_x g) (g_y g) (g_z g) a) m) (fun m' => (m', g)) tt).

(** byte_size() used as a value: undefined if never initialised (soa_grid.hpp:348-351). *)
Definition use {W A : Type} (v : option Z) (k : Z -> outcome W A) : outcome W A :=
  match v with None => Flt Indeterminate | Some n => k n end.

(** destroy_and_deallocate() (soa_grid.hpp:458-466). my_data keeps its value. *)
Definition destroy_and_deallocate (ct : celltype) (w : gst) : outcome gst unit :=
  let '(m, g) := w in
  if is_null (g_data g) then Ret w tt
  else
    obind (callback ct w g (fun d a =>
             run (exec (destroy_functor (ct_ms ct) d (g_x g) (g_y g) (g_z g) a) m) (fun m' => (m', g)) tt))
          (fun w1 _ => use (g_bs g) (fun n => run (free (fst w1) (g_data g) n) (fun m' => (m', g)) tt)).

(** The body of resize() after the early return (soa_grid.hpp:145-157).
    set_byte_size_functor: detail/set_byte_size_functor.hpp:38-58. *)
Definition resize_to (ct : celltype) (w : gst) (nx ny nz : Z) : outcome gst unit :=
  obind (destroy_and_deallocate ct w) (fun w1 _ =>
    let '(m1, g1) := w1 in
    let g2 := mkGrid nx ny nz (g_ex g1) (g_ey g1) (g_ez g1) (g_bs g1) (g_data g1) in
    obind (callback ct (m1, g2) g2 (fun _ a =>
             let e := a_ext a in
             Ret (m1, mkGrid nx ny nz (Some (DIM_X e)) (Some (DIM_Y e)) (Some (DIM_Z e))
                             (byte_size_of (ct_ms ct) (DIM_X e) (DIM_Y e) (DIM_Z e)) (g_data g1)) tt))
          (fun w3 _ =>
             let '(m3, g3) := w3 in
             use (g_bs g3) (fun n =>
               let '(m4, p) := alloc m3 n in
               g_init ct (m4, mkGrid nx ny nz (g_ex g3) (g_ey g3) (g_ez g3) (g_bs g3) p)))).

(** resize() (soa_grid.hpp:137-158). *)
Definition g_resize (ct : celltype) (w : gst) (nx ny nz : Z) : outcome gst unit :=
  let '(m, g) := w in
  if (g_x g =? nx) && (g_y g =? ny) && (g_z g =? nz) then Ret w tt
  else resize_to ct w nx ny nz.

(** soa_grid(dim_x, dim_y, dim_z) (soa_grid.hpp:87-94). If it throws there is no object. *)
Definition g_new (ct : celltype) (m : mem) (nx ny nz : Z) : outcome gst unit :=
  g_resize ct (m, mkGrid 0 0 0 None None None None null) nx ny nz.

(** callback(other, functor) -> dual_callback (soa_grid.hpp:172-184, 411-451).
    Asymmetric: dual_callback_helper/1/2 (detail/dual_callback_helper.hpp:17-67).
    Symmetric: assert_same_grid_sizes (soa_grid.hpp:473-480), then
    const_dual_callback_helper_symmetric (dual_callback_helper.hpp:98-124), which
    builds the second accessor of the same type at index 0 over the other's data.
    (FUNCTOR is always a const reference here, so dual_callback_helper_symmetric,
    69-89, is never selected.) *)
Definition dual_callback {W A : Type} (ct : celltype) (w : W) (g other : grid)
                         (functor : ptr -> accessor -> ptr -> accessor -> outcome W A) : outcome W A :=
  if ct_asym ct then
    callback ct w g (fun d1 a1 => callback ct w other (fun d2 a2 => functor d1 a1 d2 a2))
  else
    if negb (g_x g =? g_x other) || negb (g_y g =? g_y other) || negb (g_z g =? g_z other)
    then Thr w InvalidArgument
    else callback ct w g (fun d1 a1 => functor d1 a1 (g_data other) (mkAcc (a_ext a1) 0 0)).

(** copy_in(other) (soa_grid.hpp:468-471): accessor 1 is over other's data. *)
Definition copy_in (ct : celltype) (w : gst) (other : grid) : outcome gst unit :=
  let '(m, g) := w in
  dual_callback ct w other g (fun d1 a1 d2 a2 =>
    run (exec (copy_functor (ct_ms ct) d1 a1 d2 a2 (g_x g) (g_y g) (g_z g)) m)
        (fun m' => (m', g)) tt).

(** soa_grid(const soa_grid&) (soa_grid.hpp:96-105): the extents are not initialised. *)
Definition g_copy (ct : celltype) (m : mem) (other : grid) : outcome gst unit :=
  use (g_bs other) (fun n =>
    let '(m1, p) := alloc m n in
    obind (g_init ct (m1, mkGrid (g_x other) (g_y other) (g_z other) None None None (Some n) p))
          (fun w1 _ => copy_in ct w1 other)).

(** operator= with a different object (soa_grid.hpp:112-117). *)
Definition g_assign (ct : celltype) (w : gst) (other : grid) : outcome gst unit :=
  obind (g_resize ct w (g_x other) (g_y other) (g_z other)) (fun w1 _ => copy_in ct w1 other).

(** operator= with [other] being the object itself: after the (empty) resize, [other]
    is the current object. *)
Definition g_assign_self (ct : celltype) (w : gst) : outcome gst unit :=
  obind (g_resize ct w (g_x (snd w)) (g_y (snd w)) (g_z (snd w))) (fun w1 _ => copy_in ct w1 (snd w1)).

(** ~soa_grid() (soa_grid.hpp:107-110). *)
Definition g_destroy (ct : celltype) (w : gst) : outcome gst unit := destroy_and_deallocate ct w.

(** swap(other) (soa_grid.hpp:119-132): three swaps of my_dim_x and three of
    my_extent_x; dim_y, dim_z, extent_y, extent_z are not swapped. *)
Definition swap_x (a b : grid) : grid * grid :=
  (mkGrid (g_x b) (g_y a) (g_z a) (g_ex a) (g_ey a) (g_ez a) (g_bs a) (g_data a),
   mkGrid (g_x a) (g_y b) (g_z b) (g_ex b) (g_ey b) (g_ez b) (g_bs b) (g_data b)).
Definition swap_ex (a b : grid) : grid * grid :=
  (mkGrid (g_x a) (g_y a) (g_z a) (g_ex b) (g_ey a) (g_ez a) (g_bs a) (g_data a),
   mkGrid (g_x b) (g_y b) (g_z b) (g_ex a) (g_ey b) (g_ez b) (g_bs b) (g_data b)).
Definition swap_bs (a b : grid) : grid * grid :=
  (mkGrid (g_x a) (g_y a) (g_z a) (g_ex a) (g_ey a) (g_ez a) (g_bs b) (g_data a),
   mkGrid (g_x b) (g_y b) (g_z b) (g_ex b) (g_ey b) (g_ez b) (g_bs a) (g_data b)).
Definition swap_data (a b : grid) : grid * grid :=
  (mkGrid (g_x a) (g_y a) (g_z a) (g_ex a) (g_ey a) (g_ez a) (g_bs a) (g_data b),
   mkGrid (g_x b) (g_y b) (g_z b) (g_ex b) (g_ey b) (g_ez b) (g_bs b) (g_data a)).
Definition g_swap (a b : grid) : grid * grid :=
  let '(a, b) := swap_x a b in
  let '(a, b) := swap_x a b in
  let '(a, b) := swap_x a b in
  let '(a, b) := swap_ex a b in
  let '(a, b) := swap_ex a b in
  let '(a, b) := swap_ex a b in
  let '(a, b) := swap_bs a b in
  swap_data a b.

(** set(x, y, z, cells, count) (soa_grid.hpp:200-211). *)
Definition g_set_n (ct : celltype) (w : gst) (x y z : Z) (cells : list cell) (count : Z) : outcome gst unit :=
  let '(m, g) := w in
  callback ct w g (fun d a =>
    match set_instance_functor (ct_ms ct) d cells 1 x y z count a with
    | Fault f => Flt f
    | Val ops => run (exec ops m) (fun m' => (m', g)) tt
    end).

(** set(x, y, z, cell) (soa_grid.hpp:186-198). *)
Definition g_set (ct : celltype) (w : gst) (x y z : Z) (c : cell) : outcome gst unit :=
  let '(m, g) := w in
  callback ct w g (fun d a =>
    match set_instance_functor (ct_ms ct) d [c] 1 x y z 1 a with
    | Fault f => Flt f
    | Val ops => run (exec ops m) (fun m' => (m', g)) tt
    end).

(** broadcast(x, y, z, cell, count) (soa_grid.hpp:249-260): SOURCE_STRIDE = 0. *)
Definition g_broadcast (ct : celltype) (w : gst) (x y z : Z) (c : cell) (count : Z) : outcome gst unit :=
  let '(m, g) := w in
  callback ct w g (fun d a =>
    match set_instance_functor (ct_ms ct) d [c] 0 x y z count a with
    | Fault f => Flt f
    | Val ops => run (exec ops m) (fun m' => (m', g)) tt
    end).

(** get(x, y, z, cells, count) (soa_grid.hpp:232-244); the caller's array has room. *)
Definition g_get_n (ct : celltype) (w : gst) (x y z : Z) (count : Z) : outcome gst (list cell) :=
  let '(m, g) := w in
  callback ct w g (fun d a =>
    match get_instance_functor (ct_ms ct) m d x y z count a with
    | Fault f => Flt f
    | Val cs => Ret w cs
    end).

(** get(x, y, z) (soa_grid.hpp:213-230): the one-element array is the local [cell]. *)
Definition g_get (ct : celltype) (w : gst) (x y z : Z) : outcome gst cell :=
  obind (g_get_n ct w x y z 1) (fun w' cs =>
    match cs with c :: _ => Ret w' c | [] => Flt Indeterminate end).

(** load(begin, end, source, count) (soa_grid.hpp:284-299). *)
Definition g_load_streaks (ct : celltype) (w : gst) (l : list streak) (source : ptr) (count : Z) : outcome gst unit :=
  let '(m, g) := w in
  callback ct w g (fun d a =>
    run (exec (load_functor (ct_ms ct) d a source count 0 l) m) (fun m' => (m', g)) tt).

(** load(x, y, z, source, count) (soa_grid.hpp:262-282): one streak. *)
Definition g_load (ct : celltype) (w : gst) (x y z : Z) (source : ptr) (count : Z) : outcome gst unit :=
  g_load_streaks ct w [(x, y, z, count)] source count.

(** save(begin, end, target, count) (soa_grid.hpp:325-346). *)
Definition g_save_streaks (ct : celltype) (w : gst) (l : list streak) (target : ptr) (count : Z) : outcome gst unit :=
  let '(m, g) := w in
  callback ct w g (fun d a =>
    run (exec (save_functor (ct_ms ct) d a target count 0 l) m) (fun m' => (m', g)) tt).

(** save(x, y, z, target, count) (soa_grid.hpp:301-323). *)
Definition g_save (ct : celltype) (w : gst) (x y z : Z) (target : ptr) (count : Z) : outcome gst unit :=
  g_save_streaks ct w [(x, y, z, count)] target count.
