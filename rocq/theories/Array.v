(** soa_array (include/libflatarray/soa_array.hpp), host version (__CUDA_ARCH__ not
    defined). Model only; proofs are in ArrayProofs.v, statements in PropsArray.v.
    my_data is part of the object; here it is a block of its own that exists as long as
    the object does. Exceptions from member constructors/assignments: ArrayThrow.v. *)
From Coq Require Import ZArith List Bool.
From Verif Require Import Base Layout Sizes Mem Accessor Grid.
Import ListNotations.
Open Scope Z_scope.

(** SIZE = MY_SIZE, elements, my_data (soa_array.hpp:55-57, 270-272). *)
Record arr := mkArr { ar_cap : Z; ar_n : Z; ar_data : ptr }.

(** std::size_t arithmetic and conversion to int (two's complement). *)
Definition sz (v : Z) : Z := v mod 2 ^ 64.
Definition to_int (v : Z) : Z := (v + 2 ^ 31) mod 2 ^ 32 - 2 ^ 31.

(** soa_accessor<value_type, SIZE, 1, 1, 0>(my_data, index). *)
Definition ar_acc (a : arr) (i : Z) : accessor := mkAcc (mkExt (ar_cap a) 1 1) i 0.

(** operator[](const int) and at() (soa_array.hpp:118-158); at(size_t) converts to
    ptrdiff_t and then to the int parameter of operator[]. *)
Definition ar_at (a : arr) (i : Z) : accessor := ar_acc a (to_int i).

Definition ast := (mem * arr)%type.

(** construct_all_instances() (soa_array.hpp:274-281). *)
Definition construct_all (ms : list member) (a : arr) : list mop :=
  flat_map (fun i => construct_members_ops (ar_data a) (ar_acc a i) ms) (zseq (ar_cap a)).

(** Storage for a new object; BYTE_SIZE (soa_array.hpp:57). *)
Definition ar_storage (ms : list member) (m : mem) (cap : Z) : outcome mem ptr :=
  match agg_size ms with
  | None => Flt BadType
  | Some t => let '(m1, p) := alloc m (t * cap) in Ret m1 p
  end.

(** soa_array(elements, value) (soa_array.hpp:59-69): the loop runs while
    accessor.index() < int(elements). *)
Definition ar_new (ms : list member) (m : mem) (cap n : Z) (value : cell) : outcome ast unit :=
  match ar_storage ms m cap with
  | Ret m1 p =>
      let a := mkArr cap n p in
      match exec (construct_all ms a) m1 with
      | Fault f => Flt f
      | Val m2 =>
          run (exec (flat_map (fun i => assign_ops p (ar_acc a i) ms value) (zseq (to_int n))) m2)
              (fun m3 => (m3, a)) tt
      end
  | Thr _ e => Thr (m, mkArr cap n null) e
  | Flt f => Flt f
  end.

(** copy_in(other) (soa_array.hpp:283-294). *)
Definition ar_copy_in (ms : list member) (w : ast) (other : arr) : outcome ast unit :=
  let '(m, a) := w in
  if ar_cap a <? ar_n other then Thr w OutOfRange
  else run (exec (copy_members_ops (ar_data a) (ar_at a 0) ms (ar_data other) (ar_at other 0) (ar_n other)) m)
           (fun m' => (m', mkArr (ar_cap a) (ar_n other) (ar_data a))) tt.

(** The converting constructors (soa_array.hpp:71-88). [elements] is indeterminate until
    copy_in sets it; nothing reads it before (0 stands for it). If copy_in throws, the
    object never exists and no destructor runs. *)
Definition ar_conv (ms : list member) (m : mem) (cap : Z) (other : arr) : outcome ast unit :=
  match ar_storage ms m cap with
  | Ret m1 p =>
      let a := mkArr cap 0 p in
      match exec (construct_all ms a) m1 with
      | Fault f => Flt f
      | Val m2 => ar_copy_in ms (m2, a) other
      end
  | Thr _ e => Thr (m, mkArr cap 0 null) e
  | Flt f => Flt f
  end.

(** operator=(other) (soa_array.hpp:100-116). *)
Definition ar_assign (ms : list member) (w : ast) (other : arr) : outcome ast unit := ar_copy_in ms w other.

(** The destructor (soa_array.hpp:90-98), then the storage ends. *)
Definition ar_destroy (ms : list member) (w : ast) : outcome mem unit :=
  let '(m, a) := w in
  match exec (flat_map (fun i => destroy_members_ops (ar_data a) (ar_acc a i) ms) (zseq (ar_cap a))) m with
  | Fault f => Flt f
  | Val m1 =>
      match agg_size ms with
      | None => Flt BadType
      | Some t => run (free m1 (ar_data a) (t * ar_cap a)) (fun m2 => m2) tt
      end
  end.

(** operator<<(cell) and push_back (soa_array.hpp:160-173, 246-251). *)
Definition ar_push (ms : list member) (w : ast) (c : cell) : outcome ast unit :=
  let '(m, a) := w in
  if ar_cap a <=? ar_n a then Thr w OutOfRange
  else run (exec (assign_ops (ar_data a) (ar_at a (ar_n a)) ms c) m)
           (fun m' => (m', mkArr (ar_cap a) (sz (ar_n a + 1)) (ar_data a))) tt.

(** pop_back (soa_array.hpp:233-244), clear (198-203). *)
Definition ar_pop (w : ast) : outcome ast unit :=
  let '(m, a) := w in
  if ar_n a =? 0 then Thr w OutOfRange else Ret (m, mkArr (ar_cap a) (sz (ar_n a - 1)) (ar_data a)) tt.
Definition ar_clear (w : ast) : outcome ast unit :=
  let '(m, a) := w in Ret (m, mkArr (ar_cap a) 0 (ar_data a)) tt.

(** A source accessor: data pointer, OTHER_SIZE and index. *)
Record srcacc := mkSrc { sa_data : ptr; sa_cap : Z; sa_index : Z }.

(** load(accessor, num, offset) (soa_array.hpp:183-196); num + offset in size_t. *)
Definition ar_load (ms : list member) (w : ast) (s : srcacc) (num off : Z) : outcome ast unit :=
  let '(m, a) := w in
  let new_elements := Z.max (ar_n a) (sz (num + off)) in
  if ar_cap a <? new_elements then Thr w OutOfRange
  else run (exec (load_ops (ar_data a) (ar_at a off) ms (sa_data s) num (sa_index s) (sa_cap s)) m)
           (fun m' => (m', mkArr (ar_cap a) new_elements (ar_data a))) tt.

(** load(accessor, num) (soa_array.hpp:175-181). *)
Definition ar_load_app (ms : list member) (w : ast) (s : srcacc) (num : Z) : outcome ast unit :=
  ar_load ms w s num (ar_n (snd w)).

(** array[i] = cell and reading array[i]. *)
Definition ar_write (ms : list member) (w : ast) (i : Z) (c : cell) : outcome ast unit :=
  let '(m, a) := w in run (exec (assign_ops (ar_data a) (ar_at a i) ms c) m) (fun m' => (m', a)) tt.
Definition ar_get (ms : list member) (w : ast) (i : Z) : outcome ast cell :=
  let '(m, a) := w in
  match read_cell m (ar_data a) (ar_at a i) ms with Val c => Ret w c | Fault f => Flt f end.
(** back() (soa_array.hpp:212-217). *)
Definition ar_back (ms : list member) (w : ast) : outcome ast cell := ar_get ms w (sz (ar_n (snd w) - 1)).

(** for (it = begin(); it != end(); ++it) read *it (soa_array.hpp:219-231; operator!=
    and ++: macros.hpp:174-205). Both accessors have my_data, so only the indices are
    compared. [fuel] bounds the iterations. *)
Fixpoint ar_iter_from (ms : list member) (m : mem) (a : arr) (fuel : nat) (i e : Z) : result (list cell) :=
  if i =? e then Val []
  else match fuel with
       | O => Fault OutOfBounds
       | S f =>
           match read_cell m (ar_data a) (ar_acc a i) ms with
           | Fault x => Fault x
           | Val c => match ar_iter_from ms m a f (i + 1) e with Fault x => Fault x | Val r => Val (c :: r) end
           end
       end.
Definition ar_iter (ms : list member) (w : ast) : outcome ast (list cell) :=
  let '(m, a) := w in
  match ar_iter_from ms m a (Z.to_nat (ar_n a)) (a_index (ar_at a 0)) (a_index (ar_at a (ar_n a))) with
  | Val l => Ret w l | Fault f => Flt f end.

(** swap(a, b) (soa_array.hpp:302-308): elements, then my_data byte by byte. Objects of
    class type are moved with their bytes; the model takes their value to be these bytes. *)
Definition swap_bytes (m : mem) (p q : ptr) (n : Z) : mem :=
  mkMem (mnext m) (msize m)
        (fun b o => if inside p n b o then mval m (pb q) (o - po p + po q)
                    else if inside q n b o then mval m (pb p) (o - po q + po p)
                    else mval m b o)
        (mlive m).
Definition ar_swap (ms : list member) (m : mem) (a b : arr) : result (mem * arr * arr) :=
  match agg_size ms with
  | None => Fault BadType
  | Some t =>
      match chk_bounds m (ar_data a) (t * ar_cap a), chk_bounds m (ar_data b) (t * ar_cap b) with
      | None, None => Val (swap_bytes m (ar_data a) (ar_data b) (t * ar_cap a),
                           mkArr (ar_cap a) (ar_n b) (ar_data a), mkArr (ar_cap b) (ar_n a) (ar_data b))
      | _, _ => Fault OutOfBounds
      end
  end.

(** The implicitly declared copy constructor soa_array(const soa_array&): a non-template,
    so it is chosen over the converting templates when the source is const and has the
    same capacity. It copies elements and my_data byte by byte; no element is constructed. *)
Definition copy_bytes (m : mem) (d s : ptr) (n : Z) : mem :=
  mkMem (mnext m) (msize m)
        (fun b o => if inside d n b o then mval m (pb s) (o - po d + po s) else mval m b o)
        (mlive m).
Definition ar_copy_implicit (ms : list member) (m : mem) (other : arr) : outcome ast unit :=
  match ar_storage ms m (ar_cap other), agg_size ms with
  | Ret m1 p, Some t => Ret (copy_bytes m1 p (ar_data other) (t * ar_cap other), mkArr (ar_cap other) (ar_n other) p) tt
  | Thr _ e, _ => Thr (m, other) e
  | _, _ => Flt BadType
  end.
(** The implicitly declared operator=(const soa_array&), likewise. *)
Definition ar_assign_implicit (ms : list member) (w : ast) (other : arr) : outcome ast unit :=
  match agg_size ms with
  | None => Flt BadType
  | Some t => Ret (copy_bytes (fst w) (ar_data (snd w)) (ar_data other) (t * ar_cap other),
                   mkArr (ar_cap (snd w)) (ar_n other) (ar_data (snd w))) tt
  end.

(** ** Histories: programs that own any number of arrays (of any capacities), named by
    numbers; VSize: size() (soa_array.hpp:253-258), VCap: capacity() (205-210). *)
Inductive vop :=
| VNew (id : nat) (cap n : Z) (c : cell)
| VConv (id : nat) (cap : Z) (src : nat)
| VAssign (d s : nat)
| VCopyConst (id src : nat)      (* soa_array b(a) for const a of the same type *)
| VAssignConst (d s : nat)       (* b = a for const a of the same type *)
| VPush (id : nat) (c : cell)
| VPop (id : nat)
| VClear (id : nat)
| VWrite (id : nat) (i : Z) (c : cell)
| VGet (id : nat) (i : Z)
| VBack (id : nat)
| VSize (id : nat)
| VCap (id : nat)
| VIter (id : nat)
| VLoad (d : nat) (off : Z) (s : nat) (i n : Z)
| VLoadApp (d : nat) (s : nat) (i n : Z)
| VSwap (a b : nat)
| VDestroy (id : nat).

Inductive vobs := VUnit | VThrow (e : exn) | VCell (c : cell) | VCells (l : list cell) | VNum (n : Z).

Record vworld := mkVW { vw_mem : mem; vw_arrs : nat -> option arr }.
Definition vstart : vworld := mkVW empty_mem (fun _ => None).

Definition aset {A : Type} (f : nat -> option A) (id : nat) (v : option A) : nat -> option A :=
  fun i => if Nat.eqb i id then v else f i.

Definition on_arr {A : Type} (w : vworld) (id : nat) (f : ast -> outcome ast A) (ob : A -> vobs) : result (vworld * vobs) :=
  match vw_arrs w id with
  | None => Fault Dangling
  | Some a =>
      match f (vw_mem w, a) with
      | Ret (m', a') x => Val (mkVW m' (aset (vw_arrs w) id (Some a')), ob x)
      | Thr (m', a') e => Val (mkVW m' (aset (vw_arrs w) id (Some a')), VThrow e)
      | Flt x => Fault x
      end
  end.
Definition ar_ctor (w : vworld) (id : nat) (o : outcome ast unit) : result (vworld * vobs) :=
  match o with
  | Ret (m', a') _ => Val (mkVW m' (aset (vw_arrs w) id (Some a')), VUnit)
  | Thr (m', _) e => Val (mkVW m' (vw_arrs w), VThrow e)
  | Flt x => Fault x
  end.
(** [f] needs the object [s] as well. *)
Definition with_arr {B : Type} (w : vworld) (s : nat) (f : arr -> result B) : result B :=
  match vw_arrs w s with None => Fault Dangling | Some b => f b end.

Definition vstep (ms : list member) (w : vworld) (op : vop) : result (vworld * vobs) :=
  match op with
  | VNew id cap n c => ar_ctor w id (ar_new ms (vw_mem w) cap n c)
  | VConv id cap src => with_arr w src (fun b => ar_ctor w id (ar_conv ms (vw_mem w) cap b))
  | VAssign d s => with_arr w s (fun b => on_arr w d (fun st => ar_assign ms st b) (fun _ => VUnit))
  | VCopyConst id src => with_arr w src (fun b => ar_ctor w id (ar_copy_implicit ms (vw_mem w) b))
  | VAssignConst d s => with_arr w s (fun b => on_arr w d (fun st => ar_assign_implicit ms st b) (fun _ => VUnit))
  | VPush id c => on_arr w id (fun st => ar_push ms st c) (fun _ => VUnit)
  | VPop id => on_arr w id ar_pop (fun _ => VUnit)
  | VClear id => on_arr w id ar_clear (fun _ => VUnit)
  | VWrite id i c => on_arr w id (fun st => ar_write ms st i c) (fun _ => VUnit)
  | VGet id i => on_arr w id (fun st => ar_get ms st i) VCell
  | VBack id => on_arr w id (ar_back ms) VCell
  | VSize id => on_arr w id (fun st => Ret st (ar_n (snd st))) VNum
  | VCap id => on_arr w id (fun st => Ret st (ar_cap (snd st))) VNum
  | VIter id => on_arr w id (ar_iter ms) VCells
  | VLoad d off s i n =>
      with_arr w s (fun b => on_arr w d (fun st => ar_load ms st (mkSrc (ar_data b) (ar_cap b) (to_int i)) n off) (fun _ => VUnit))
  | VLoadApp d s i n =>
      with_arr w s (fun b => on_arr w d (fun st => ar_load_app ms st (mkSrc (ar_data b) (ar_cap b) (to_int i)) n) (fun _ => VUnit))
  | VSwap a b =>
      with_arr w a (fun x => with_arr w b (fun y =>
        match ar_swap ms (vw_mem w) x y with
        | Fault f => Fault f
        | Val (m', x', y') => Val (mkVW m' (aset (aset (vw_arrs w) a (Some x')) b (Some y')), VUnit)
        end))
  | VDestroy id =>
      with_arr w id (fun a =>
        match ar_destroy ms (vw_mem w, a) with
        | Ret m' _ => Val (mkVW m' (aset (vw_arrs w) id None), VUnit)
        | Thr m' e => Val (mkVW m' (vw_arrs w), VThrow e)
        | Flt f => Fault f
        end)
  end.

Fixpoint vrun (ms : list member) (w : vworld) (ops : list vop) : result (vworld * list vobs) :=
  match ops with
  | [] => Val (w, [])
  | op :: r =>
      match vstep ms w op with
      | Fault f => Fault f
      | Val (w', b) => match vrun ms w' r with Fault f => Fault f | Val (w'', bs) => Val (w'', b :: bs) end
      end
  end.
