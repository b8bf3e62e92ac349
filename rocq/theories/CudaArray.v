(** cuda_array and cuda_allocator. Model only; proofs are in CudaArrayProofs.v, the
    specification and the statements in PropsCudaArray.v.
    Memory is modelled in elements (every transfer is a multiple of sizeof(ELEMENT_TYPE));
    [None] is an element that was never written. What the CUDA runtime does (trusted):
    cudaMalloc of 0 bytes gives the null pointer, of more a fresh block with
    indeterminate content; cudaFree(null) does nothing; cudaMemcpy of 0 bytes does
    nothing, and source and destination must not overlap. Not modelled: failing
    cudaMalloc (its result is not looked at and the pointer stays uninitialised),
    wrap-around of size * sizeof(ELEMENT_TYPE). *)
From Coq Require Import ZArith List Bool.
From Verif Require Import Base Cuda.
Import ListNotations.

Inductive cfault := COutOfBounds | CDangling | CBadFree | COverlap.
Inductive cres (X : Type) := COk (x : X) | CFault (f : cfault).
Arguments COk {X} x.
Arguments CFault {X} f.
Definition cbind {X Y : Type} (r : cres X) (f : X -> cres Y) : cres Y :=
  match r with COk x => f x | CFault e => CFault e end.

(** Device memory: blocks of elements. *)
Record dev (A : Type) := mkDev { d_next : nat; d_blk : nat -> option (list (option A)) }.
Arguments mkDev {A}.
Arguments d_next {A}.
Arguments d_blk {A}.
Definition dptr := option nat.

Definition set_blk {A : Type} (d : dev A) (b : nat) (l : option (list (option A))) : dev A :=
  mkDev (d_next d) (fun b' => if Nat.eqb b' b then l else d_blk d b').

(** cuda_allocator::allocate (cuda_allocator.hpp:49-54). *)
Definition allocate {A : Type} (d : dev A) (n : nat) : dev A * dptr :=
  if Nat.eqb n 0 then (d, None)
  else (mkDev (S (d_next d)) (fun b => if Nat.eqb b (d_next d) then Some (repeat None n) else d_blk d b), Some (d_next d)).

(** cuda_allocator::deallocate (cuda_allocator.hpp:56-59). *)
Definition deallocate {A : Type} (d : dev A) (p : dptr) : cres (dev A) :=
  match p with
  | None => COk d
  | Some b => match d_blk d b with None => CFault CBadFree | Some _ => COk (set_blk d b None) end
  end.

(** cudaMemcpy(..., cudaMemcpyDeviceToHost) of [n] elements. *)
Definition copy_to_host {A : Type} (d : dev A) (p : dptr) (n : nat) : cres (list (option A)) :=
  if Nat.eqb n 0 then COk []
  else match p with
       | None => CFault CDangling
       | Some b => match d_blk d b with
                   | None => CFault CDangling
                   | Some l => if Nat.leb n (length l) then COk (firstn n l) else CFault COutOfBounds
                   end
       end.

(** cudaMemcpy(p + i, ..., cudaMemcpyHostToDevice) of the elements [xs]. *)
Definition copy_to_device {A : Type} (d : dev A) (p : dptr) (i : nat) (xs : list (option A)) : cres (dev A) :=
  if Nat.eqb (length xs) 0 then COk d
  else match p with
       | None => CFault CDangling
       | Some b => match d_blk d b with
                   | None => CFault CDangling
                   | Some l => if Nat.leb (i + length xs) (length l)
                               then COk (set_blk d b (Some (firstn i l ++ xs ++ skipn (i + length xs) l)))
                               else CFault COutOfBounds
                   end
       end.

(** cudaMemcpy(dst, src, ..., cudaMemcpyDeviceToDevice), both pointing to the start of
    their blocks. *)
Definition copy_device {A : Type} (d : dev A) (dst src : dptr) (n : nat) : cres (dev A) :=
  if Nat.eqb n 0 then COk d
  else match dst, src with
       | Some b, Some b' => if Nat.eqb b b' then CFault COverlap
                            else cbind (copy_to_host d src n) (fun xs => copy_to_device d dst 0 xs)
       | _, _ => CFault CDangling
       end.

(** my_size, my_capacity, data_pointer (cuda_array.hpp:176-179). *)
Record carr := mkCarr { c_size : nat; c_cap : nat; c_ptr : dptr }.

(** cuda_array(size) (cuda_array.hpp:56-60). *)
Definition c_new {A : Type} (d : dev A) (n : nat) : dev A * carr :=
  let '(d1, p) := allocate d n in (d1, mkCarr n n p).

(** cuda_array(size, defaultValue) (cuda_array.hpp:62-71). The kernel's threads store in the
    order [s], one of the interleavings of [fill_threads]. *)
Definition fill_threads {A : Type} (n : nat) (v : A) : list (list (Z * A)) :=
  launch (launch_config (Z.of_nat n) 1 1) (init_kernel v (Z.of_nat n)).
Fixpoint c_stores {A : Type} (d : dev A) (p : dptr) (s : list (Z * A)) : cres (dev A) :=
  match s with
  | [] => COk d
  | (i, v) :: r => cbind (copy_to_device d p (Z.to_nat i) [Some v]) (fun d' => c_stores d' p r)
  end.
Definition c_fill {A : Type} (d : dev A) (n : nat) (s : list (Z * A)) : cres (dev A * carr) :=
  let '(d1, p) := allocate d n in
  cbind (c_stores d1 p s) (fun d2 => COk (d2, mkCarr n n p)).

(** cuda_array(const cuda_array&) (cuda_array.hpp:73-79). *)
Definition c_copy {A : Type} (d : dev A) (a : carr) : cres (dev A * carr) :=
  let '(d1, p) := allocate d (c_size a) in
  cbind (copy_device d1 p (c_ptr a) (c_size a)) (fun d2 => COk (d2, mkCarr (c_size a) (c_size a) p)).

(** cuda_array(hostData, size) and cuda_array(std::vector) (cuda_array.hpp:81-95); [xs]: the
    [size] elements at hostData. (For an empty vector the latter forms &front().) *)
Definition c_from_host {A : Type} (d : dev A) (xs : list A) : cres (dev A * carr) :=
  let '(d1, p) := allocate d (length xs) in
  cbind (copy_to_device d1 p 0 (map Some xs)) (fun d2 => COk (d2, mkCarr (length xs) (length xs) p)).

(** ~cuda_array() (cuda_array.hpp:97-100). *)
Definition c_destroy {A : Type} (d : dev A) (a : carr) : cres (dev A) := deallocate d (c_ptr a).

(** operator= (cuda_array.hpp:102-113); [other] may be the same object. *)
Definition c_assign {A : Type} (d : dev A) (a other : carr) : cres (dev A * carr) :=
  cbind (if Nat.ltb (c_cap a) (c_size other)
         then cbind (deallocate d (c_ptr a)) (fun d1 =>
                let '(d2, p) := allocate d1 (c_size other) in COk (d2, mkCarr (c_size a) (c_size other) p))
         else COk (d, a))
        (fun '(d3, a3) =>
           cbind (copy_device d3 (c_ptr a3) (c_ptr other) (c_size other)) (fun d4 =>
             COk (d4, mkCarr (c_size other) (c_cap a3) (c_ptr a3)))).

(** The loop of resize_implementation: element by element (cuda_array.hpp:184-192, 203-210). *)
Fixpoint fill_from {A : Type} (d : dev A) (p : dptr) (i n : nat) (v : A) : cres (dev A) :=
  match n with
  | O => COk d
  | S n' => cbind (copy_to_device d p i [Some v]) (fun d' => fill_from d' p (S i) n' v)
  end.
Definition fill_opt {A : Type} (d : dev A) (p : dptr) (i n : nat) (v : option A) : cres (dev A) :=
  match v with None => COk d | Some v => fill_from d p i n v end.

(** resize(newSize), resize(newSize, defaultElement) (cuda_array.hpp:125-133, 181-215). *)
Definition c_resize {A : Type} (d : dev A) (a : carr) (n : nat) (v : option A) : cres (dev A * carr) :=
  if Nat.leb n (c_cap a) then
    cbind (fill_opt d (c_ptr a) (c_size a) (n - c_size a) v) (fun d1 => COk (d1, mkCarr n (c_cap a) (c_ptr a)))
  else
    let '(d1, p) := allocate d n in
    cbind (copy_device d1 p (c_ptr a) (c_size a)) (fun d2 =>
    cbind (deallocate d2 (c_ptr a)) (fun d3 =>
    cbind (fill_opt d3 p (c_size a) (n - c_size a) v) (fun d4 => COk (d4, mkCarr n n p)))).

(** reserve(newCapacity) (cuda_array.hpp:135-147). *)
Definition c_reserve {A : Type} (d : dev A) (a : carr) (n : nat) : cres (dev A * carr) :=
  if Nat.leb n (c_cap a) then COk (d, a)
  else
    let '(d1, p) := allocate d n in
    cbind (copy_device d1 p (c_ptr a) (c_size a)) (fun d2 =>
    cbind (deallocate d2 (c_ptr a)) (fun d3 => COk (d3, mkCarr (c_size a) n p))).

(** load(hostData), save(hostData) (cuda_array.hpp:149-157). [xs]: what is at hostData;
    reading beyond it is out of bounds. *)
Definition c_load {A : Type} (d : dev A) (a : carr) (xs : list A) : cres (dev A) :=
  if Nat.leb (c_size a) (length xs) then copy_to_device d (c_ptr a) 0 (map Some (firstn (c_size a) xs))
  else CFault COutOfBounds.
Definition c_save {A : Type} (d : dev A) (a : carr) : cres (list (option A)) := copy_to_host d (c_ptr a) (c_size a).

(** A client's kernel storing to data()[i] (cuda_array.hpp:164-174). *)
Definition c_poke {A : Type} (d : dev A) (a : carr) (i : nat) (v : A) : cres (dev A) :=
  copy_to_device d (c_ptr a) i [Some v].

(** ** Histories over several arrays *)
Inductive cop (A : Type) :=
| CNew (id n : nat)
| CFill (id n : nat) (v : A) (s : list (Z * A))   (* with the order of the kernel's stores *)
| CFromHost (id : nat) (xs : list A)
| CCopy (id src : nat)
| CAssign (id src : nat)
| CResize (id n : nat) (v : option A)
| CReserve (id n : nat)
| CLoad (id : nat) (xs : list A)
| CSave (id : nat)
| CPoke (id i : nat) (v : A)
| CQuery (id : nat)
| CDestroy (id : nat).
Arguments CNew {A}. Arguments CFill {A}. Arguments CFromHost {A}. Arguments CCopy {A}. Arguments CAssign {A}.
Arguments CResize {A}. Arguments CReserve {A}. Arguments CLoad {A}. Arguments CSave {A}. Arguments CPoke {A}.
Arguments CQuery {A}. Arguments CDestroy {A}.

Inductive cobs (A : Type) := OUnit | OElems (l : list (option A)) | OSizes (size cap : nat).
Arguments OUnit {A}. Arguments OElems {A}. Arguments OSizes {A}.

Record cworld (A : Type) := mkCW { cw_dev : dev A; cw_arr : nat -> option carr }.
Arguments mkCW {A}. Arguments cw_dev {A}. Arguments cw_arr {A}.
Definition cw_set {A : Type} (w : cworld A) (d : dev A) (id : nat) (a : option carr) : cworld A :=
  mkCW d (fun i => if Nat.eqb i id then a else cw_arr w i).
Definition cw_start {A : Type} : cworld A := mkCW (mkDev 0 (fun _ => None)) (fun _ => None).

(** An operation on an object that does not exist (or a construction over one that does)
    is a client error, not modelled: it is dangling. *)
Definition on_arr {A X : Type} (w : cworld A) (id : nat) (f : carr -> cres X) : cres X :=
  match cw_arr w id with None => CFault CDangling | Some a => f a end.
Definition new_arr {A X : Type} (w : cworld A) (id : nat) (r : cres X) : cres X :=
  match cw_arr w id with None => r | Some _ => CFault CDangling end.

Definition cstep {A : Type} (w : cworld A) (op : cop A) : cres (cworld A * cobs A) :=
  let d := cw_dev w in
  match op with
  | CNew id n => new_arr w id (let '(d', a) := c_new d n in COk (cw_set w d' id (Some a), OUnit))
  | CFill id n _ s => new_arr w id (cbind (c_fill d n s) (fun '(d', a) => COk (cw_set w d' id (Some a), OUnit)))
  | CFromHost id xs => new_arr w id (cbind (c_from_host d xs) (fun '(d', a) => COk (cw_set w d' id (Some a), OUnit)))
  | CCopy id src => new_arr w id (on_arr w src (fun o =>
      cbind (c_copy d o) (fun '(d', a) => COk (cw_set w d' id (Some a), OUnit))))
  | CAssign id src => on_arr w id (fun a => on_arr w src (fun o =>
      cbind (c_assign d a o) (fun '(d', a') => COk (cw_set w d' id (Some a'), OUnit))))
  | CResize id n v => on_arr w id (fun a => cbind (c_resize d a n v) (fun '(d', a') => COk (cw_set w d' id (Some a'), OUnit)))
  | CReserve id n => on_arr w id (fun a => cbind (c_reserve d a n) (fun '(d', a') => COk (cw_set w d' id (Some a'), OUnit)))
  | CLoad id xs => on_arr w id (fun a => cbind (c_load d a xs) (fun d' => COk (cw_set w d' id (Some a), OUnit)))
  | CSave id => on_arr w id (fun a => cbind (c_save d a) (fun l => COk (w, OElems l)))
  | CPoke id i v => on_arr w id (fun a => cbind (c_poke d a i v) (fun d' => COk (cw_set w d' id (Some a), OUnit)))
  | CQuery id => on_arr w id (fun a => COk (w, OSizes (c_size a) (c_cap a)))
  | CDestroy id => on_arr w id (fun a => cbind (c_destroy d a) (fun d' => COk (cw_set w d' id None, OUnit)))
  end.

Fixpoint crun {A : Type} (w : cworld A) (ops : list (cop A)) : cres (cworld A * list (cobs A)) :=
  match ops with
  | [] => COk (w, [])
  | op :: r => cbind (cstep w op) (fun '(w1, b) => cbind (crun w1 r) (fun '(w2, bs) => COk (w2, b :: bs)))
  end.
