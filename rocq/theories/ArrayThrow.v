(** soa_array when user code throws: constructors and assignment operators of class-type
    members. The functions are those of Array.v, run under a schedule as in GridThrow.v
    (same simplifications). Model only; proofs are in ArrayThrowProofs.v, statements in
    PropsArrayThrow.v. An array that is never finished ([x_ar_new], [x_ar_conv]) keeps its
    block in the model: C++ ends the storage of the object, but nothing destroys what
    was constructed in it. *)
From Coq Require Import ZArith List Bool.
From Verif Require Import Base Layout Sizes Mem Accessor Grid Vector Array GridThrow.
Import ListNotations.
Open Scope Z_scope.

(** Run operations on the storage of [before]; if all succeed, the object is [after]. *)
Definition x_ar_ops (s : sched) (ops : list mop) (m : mem) (before after : arr) : xout ast unit :=
  match exec_x s ops m with
  | XRet s' m' _ => XRet s' (m', after) tt
  | XThr m' e => XThr (m', before) e
  | XTerminate => XTerminate
  | XFlt f => XFlt f
  end.

(** soa_array(elements, value) (soa_array.hpp:59-69): construct_all_instances(), then the
    value is assigned. *)
Definition x_ar_new (ms : list member) (s : sched) (m : mem) (cap n : Z) (value : cell) : xout ast unit :=
  match ar_storage ms m cap with
  | Ret m1 p =>
      let a := mkArr cap n p in
      xbind (x_ar_ops s (construct_all ms a) m1 a a) (fun s1 w1 _ =>
        x_ar_ops s1 (flat_map (fun i => assign_ops p (ar_acc a i) ms value) (zseq (to_int n))) (fst w1) a a)
  | Thr _ e => XThr (m, mkArr cap n null) (XLib e)
  | Flt f => XFlt f
  end.

(** copy_in(other) (soa_array.hpp:283-294): elements is set last. *)
Definition x_ar_copy_in (ms : list member) (s : sched) (w : ast) (other : arr) : xout ast unit :=
  let '(m, a) := w in
  if ar_cap a <? ar_n other then XThr w (XLib OutOfRange)
  else x_ar_ops s (copy_members_ops (ar_data a) (ar_at a 0) ms (ar_data other) (ar_at other 0) (ar_n other)) m
                a (mkArr (ar_cap a) (ar_n other) (ar_data a)).

(** The converting constructors (soa_array.hpp:71-88). *)
Definition x_ar_conv (ms : list member) (s : sched) (m : mem) (cap : Z) (other : arr) : xout ast unit :=
  match ar_storage ms m cap with
  | Ret m1 p =>
      let a := mkArr cap 0 p in
      xbind (x_ar_ops s (construct_all ms a) m1 a a) (fun s1 w1 _ => x_ar_copy_in ms s1 w1 other)
  | Thr _ e => XThr (m, mkArr cap 0 null) (XLib e)
  | Flt f => XFlt f
  end.

(** operator=(other) (soa_array.hpp:100-116). *)
Definition x_ar_assign (ms : list member) (s : sched) (w : ast) (other : arr) : xout ast unit := x_ar_copy_in ms s w other.

(** operator<<(cell) and push_back (soa_array.hpp:160-173, 246-251): the element is
    assigned, then elements is incremented. *)
Definition x_ar_push (ms : list member) (s : sched) (w : ast) (c : cell) : xout ast unit :=
  let '(m, a) := w in
  if ar_cap a <=? ar_n a then XThr w (XLib OutOfRange)
  else x_ar_ops s (assign_ops (ar_data a) (ar_at a (ar_n a)) ms c) m a (mkArr (ar_cap a) (sz (ar_n a + 1)) (ar_data a)).

(** load(accessor, num, offset) and load(accessor, num) (soa_array.hpp:175-196): the
    elements are assigned, then elements is set. *)
Definition x_ar_load (ms : list member) (s : sched) (w : ast) (src : srcacc) (num off : Z) : xout ast unit :=
  let '(m, a) := w in
  let new_elements := Z.max (ar_n a) (sz (num + off)) in
  if ar_cap a <? new_elements then XThr w (XLib OutOfRange)
  else x_ar_ops s (load_ops (ar_data a) (ar_at a off) ms (sa_data src) num (sa_index src) (sa_cap src)) m
                a (mkArr (ar_cap a) new_elements (ar_data a)).
Definition x_ar_load_app (ms : list member) (s : sched) (w : ast) (src : srcacc) (num : Z) : xout ast unit :=
  x_ar_load ms s w src num (ar_n (snd w)).

(** array[i] = cell. *)
Definition x_ar_write (ms : list member) (s : sched) (w : ast) (i : Z) (c : cell) : xout ast unit :=
  let '(m, a) := w in x_ar_ops s (assign_ops (ar_data a) (ar_at a i) ms c) m a a.

(** ** Programs that catch what members throw, right after the call *)
(** What such a program sees of a call: [Done] its result, or the library's own exception;
    [Caught] the exception of a member. *)
Inductive xvobs := Done (ob : vobs) | Caught.

Definition x_on_arr (w : vworld) (id : nat) (f : ast -> xout ast unit) : result (vworld * xvobs) :=
  match vw_arrs w id with
  | None => Fault Dangling
  | Some a =>
      match f (vw_mem w, a) with
      | XRet _ (m', a') _ => Val (mkVW m' (aset (vw_arrs w) id (Some a')), Done VUnit)
      | XThr (m', a') (XLib e) => Val (mkVW m' (aset (vw_arrs w) id (Some a')), Done (VThrow e))
      | XThr (m', a') _ => Val (mkVW m' (aset (vw_arrs w) id (Some a')), Caught)
      | XTerminate => Fault BadType   (* does not occur: no destructor runs *)
      | XFlt x => Fault x
      end
  end.
(** A constructor that throws leaves no object. *)
Definition x_ar_ctor (w : vworld) (id : nat) (o : xout ast unit) : result (vworld * xvobs) :=
  match o with
  | XRet _ (m', a') _ => Val (mkVW m' (aset (vw_arrs w) id (Some a')), Done VUnit)
  | XThr (m', _) (XLib e) => Val (mkVW m' (vw_arrs w), Done (VThrow e))
  | XThr (m', _) _ => Val (mkVW m' (vw_arrs w), Caught)
  | XTerminate => Fault BadType
  | XFlt x => Fault x
  end.

(** The calls that construct or assign elements run under the schedule [s]; the others,
    and those that copy bytes, call no user code. *)
Definition x_vstep (ms : list member) (s : sched) (w : vworld) (op : vop) : result (vworld * xvobs) :=
  match op with
  | VNew id cap n c => x_ar_ctor w id (x_ar_new ms s (vw_mem w) cap n c)
  | VConv id cap src => with_arr w src (fun b => x_ar_ctor w id (x_ar_conv ms s (vw_mem w) cap b))
  | VAssign d e => with_arr w e (fun b => x_on_arr w d (fun st => x_ar_assign ms s st b))
  | VPush id c => x_on_arr w id (fun st => x_ar_push ms s st c)
  | VWrite id i c => x_on_arr w id (fun st => x_ar_write ms s st i c)
  | VLoad d off e i n =>
      with_arr w e (fun b => x_on_arr w d (fun st => x_ar_load ms s st (mkSrc (ar_data b) (ar_cap b) (to_int i)) n off))
  | VLoadApp d e i n =>
      with_arr w e (fun b => x_on_arr w d (fun st => x_ar_load_app ms s st (mkSrc (ar_data b) (ar_cap b) (to_int i)) n))
  | VCopyConst _ _ | VAssignConst _ _ | VPop _ | VClear _ | VGet _ _ | VBack _ | VSize _ | VCap _ | VIter _ | VSwap _ _ | VDestroy _ =>
      match vstep ms w op with Val (w', ob) => Val (w', Done ob) | Fault f => Fault f end
  end.

(** A schedule for each call. *)
Fixpoint x_vrun (ms : list member) (w : vworld) (ops : list (sched * vop)) : result (vworld * list xvobs) :=
  match ops with
  | [] => Val (w, [])
  | (s, op) :: r =>
      match x_vstep ms s w op with
      | Fault f => Fault f
      | Val (w', b) => match x_vrun ms w' r with Fault f => Fault f | Val (w'', bs) => Val (w'', b :: bs) end
      end
  end.
