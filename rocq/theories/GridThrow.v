(** soa_grid and soa_vector when user code throws: constructors and assignment
    operators of class-type members, and the allocator. The functions are those of
    Grid.v and Vector.v, run under a schedule that says which of these calls throws.
    Model only; proofs are in GridThrowProofs.v, statements in PropsGridThrow.v.
    Simplified: a member constructor that throws leaves its bytes as they were, a member
    assignment that throws leaves its object as it was; destructors of members do not
    throw; copies of a cell into the caller's object (get) are not scheduled. *)
From Coq Require Import ZArith List Bool.
From Verif Require Import Base Layout Sizes Mem Accessor Grid Vector.
Import ListNotations.
Open Scope Z_scope.

(** [sc_ops = Some k]: [k] more constructor or assignment calls of class-type members
    succeed, the next one throws; [None]: none ever throws. [sc_allocs]: likewise for
    ALLOCATOR().allocate(). *)
Record sched := mkSched { sc_ops : option nat; sc_allocs : option nat }.
Definition never : sched := mkSched None None.

(** What is thrown: by a member, by the allocator, or by the library itself. *)
Inductive xexn := XMember | XBadAlloc | XLib (e : exn).

(** Outcome of a call. [XTerminate]: an exception leaves a destructor while the stack is
    being unwound. *)
Inductive xout (W A : Type) :=
| XRet (s : sched) (w : W) (a : A)
| XThr (w : W) (e : xexn)
| XTerminate
| XFlt (f : fault).
Arguments XRet {W A} s w a.
Arguments XThr {W A} w e.
Arguments XTerminate {W A}.
Arguments XFlt {W A} f.

Definition xbind {W A B : Type} (o : xout W A) (f : sched -> W -> A -> xout W B) : xout W B :=
  match o with
  | XRet s w a => f s w a
  | XThr w e => XThr w e
  | XTerminate => XTerminate
  | XFlt x => XFlt x
  end.

(** Same call, the rest of the state put back around its own. *)
Definition xlift {W V A : Type} (o : xout W A) (f : W -> V) : xout V A :=
  match o with
  | XRet s w a => XRet s (f w) a
  | XThr w e => XThr (f w) e
  | XTerminate => XTerminate
  | XFlt x => XFlt x
  end.

(** Calls that cannot throw on their own account. *)
Definition plain {W A : Type} (s : sched) (o : outcome W A) : xout W A :=
  match o with Ret w a => XRet s w a | Thr w e => XThr w (XLib e) | Flt x => XFlt x end.

(** Which element operations are calls of user code: placement new and assignment of
    class-type members (detail/macros.hpp:139-159, 183-214, 250-293). *)
Definition may_throw (op : mop) : bool :=
  match op with
  | Construct _ _ cls _ => cls
  | Assign _ _ cls _ => cls
  | Copy _ _ _ cls => cls
  | Destroy _ _ _ => false
  end.

Definition due (k : option nat) : bool := match k with Some O => true | _ => false end.
Definition tick (k : option nat) : option nat := match k with Some (S n) => Some n | _ => k end.

Fixpoint exec_x (s : sched) (ops : list mop) (m : mem) : xout mem unit :=
  match ops with
  | [] => XRet s m tt
  | op :: r =>
      if may_throw op && due (sc_ops s) then XThr m XMember
      else match exec1 m op with
           | Fault f => XFlt f
           | Val m' => exec_x (if may_throw op then mkSched (tick (sc_ops s)) (sc_allocs s) else s) r m'
           end
  end.

Definition x_alloc (s : sched) (m : mem) (n : Z) : xout mem ptr :=
  if due (sc_allocs s) then XThr m XBadAlloc
  else let '(m', p) := alloc m n in XRet (mkSched (sc_ops s) (tick (sc_allocs s))) m' p.

(** callback(functor) (soa_grid.hpp:160-170). *)
Definition x_callback {W A : Type} (ct : celltype) (w : W) (g : grid)
                      (functor : ptr -> accessor -> xout W A) : xout W A :=
  select_sizes (xout W A) (fun e => XThr w (XLib e)) (fun e => functor (g_data g) (mkAcc e 0 0))
               (ct_sizes ct) (g_x g) (g_y g) (g_z g).

(** Run operations; the object stays as it is. *)
Definition x_run (s : sched) (ops : list mop) (m : mem) (g : grid) : xout gst unit :=
  xlift (exec_x s ops m) (fun m' => (m', g)).

(** init() (soa_grid.hpp:453-456). *)
Definition x_init (ct : celltype) (s : sched) (w : gst) : xout gst unit :=
  let '(m, g) := w in
  x_callback ct w g (fun d a => x_run s (construct_functor (ct_ms ct) d (g_x g) (g_y g) (g_z g) a) m g).

Definition x_use {W A : Type} (v : option Z) (k : Z -> xout W A) : xout W A :=
  match v with None => XFlt Indeterminate | Some n => k n end.

(** resize() (soa_grid.hpp:137-158): destroy_and_deallocate(), dimensions and byte size
    are set, then my_data = ALLOCATOR().allocate(byte_size()), then init(). If
    allocate() throws, my_data keeps the pointer to the released storage. *)
Definition x_resize_to (ct : celltype) (s : sched) (w : gst) (nx ny nz : Z) : xout gst unit :=
  xbind (plain s (destroy_and_deallocate ct w)) (fun s1 w1 _ =>
    let '(m1, g1) := w1 in
    let g2 := mkGrid nx ny nz (g_ex g1) (g_ey g1) (g_ez g1) (g_bs g1) (g_data g1) in
    xbind (x_callback ct (m1, g2) g2 (fun _ a =>
             let e := a_ext a in
             XRet s1 (m1, mkGrid nx ny nz (Some (DIM_X e)) (Some (DIM_Y e)) (Some (DIM_Z e))
                                 (byte_size_of (ct_ms ct) (DIM_X e) (DIM_Y e) (DIM_Z e)) (g_data g1)) tt))
          (fun s3 w3 _ =>
             let '(m3, g3) := w3 in
             x_use (g_bs g3) (fun n =>
               match x_alloc s3 m3 n with
               | XRet s4 m4 p => x_init ct s4 (m4, mkGrid nx ny nz (g_ex g3) (g_ey g3) (g_ez g3) (g_bs g3) p)
               | XThr m4 e => XThr (m4, g3) e
               | XTerminate => XTerminate
               | XFlt x => XFlt x
               end))).

Definition x_resize (ct : celltype) (s : sched) (w : gst) (nx ny nz : Z) : xout gst unit :=
  let '(m, g) := w in
  if (g_x g =? nx) && (g_y g =? ny) && (g_z g =? nz) then XRet s w tt
  else x_resize_to ct s w nx ny nz.

(** soa_grid(dim_x, dim_y, dim_z) (soa_grid.hpp:87-94). If it throws there is no object
    and its destructor is not called. *)
Definition x_new (ct : celltype) (s : sched) (m : mem) (nx ny nz : Z) : xout gst unit :=
  x_resize ct s (m, mkGrid 0 0 0 None None None None null) nx ny nz.

(** callback(other, functor) (soa_grid.hpp:172-184, 411-451), cf. [dual_callback]. *)
Definition x_dual_callback {W A : Type} (ct : celltype) (w : W) (g other : grid)
                           (functor : ptr -> accessor -> ptr -> accessor -> xout W A) : xout W A :=
  if ct_asym ct then
    x_callback ct w g (fun d1 a1 => x_callback ct w other (fun d2 a2 => functor d1 a1 d2 a2))
  else
    if negb (g_x g =? g_x other) || negb (g_y g =? g_y other) || negb (g_z g =? g_z other)
    then XThr w (XLib InvalidArgument)
    else x_callback ct w g (fun d1 a1 => functor d1 a1 (g_data other) (mkAcc (a_ext a1) 0 0)).

(** copy_in(other) (soa_grid.hpp:468-471). *)
Definition x_copy_in (ct : celltype) (s : sched) (w : gst) (other : grid) : xout gst unit :=
  let '(m, g) := w in
  x_dual_callback ct w other g (fun d1 a1 d2 a2 =>
    x_run s (copy_functor (ct_ms ct) d1 a1 d2 a2 (g_x g) (g_y g) (g_z g)) m g).

(** soa_grid(const soa_grid&) (soa_grid.hpp:96-105). If allocate() throws, my_data was
    never set; there is no object. *)
Definition x_copy (ct : celltype) (s : sched) (m : mem) (other : grid) : xout gst unit :=
  x_use (g_bs other) (fun n =>
    match x_alloc s m n with
    | XRet s1 m1 p =>
        xbind (x_init ct s1 (m1, mkGrid (g_x other) (g_y other) (g_z other) None None None (Some n) p))
              (fun s2 w2 _ => x_copy_in ct s2 w2 other)
    | XThr m1 e => XThr (m1, mkGrid (g_x other) (g_y other) (g_z other) None None None (Some n) null) e
    | XTerminate => XTerminate
    | XFlt x => XFlt x
    end).

(** operator= with a different object (soa_grid.hpp:112-117). *)
Definition x_assign (ct : celltype) (s : sched) (w : gst) (other : grid) : xout gst unit :=
  xbind (x_resize ct s w (g_x other) (g_y other) (g_z other)) (fun s1 w1 _ => x_copy_in ct s1 w1 other).

(** set(x, y, z, cells, count), set(x, y, z, cell), broadcast(...)
    (soa_grid.hpp:186-211, 249-260); [stride] is SOURCE_STRIDE. *)
Definition x_set_row (ct : celltype) (s : sched) (w : gst) (cells : list cell) (stride x y z count : Z) : xout gst unit :=
  let '(m, g) := w in
  x_callback ct w g (fun d a =>
    match set_instance_functor (ct_ms ct) d cells stride x y z count a with
    | Fault f => XFlt f
    | Val ops => x_run s ops m g
    end).
Definition x_set_n (ct : celltype) (s : sched) (w : gst) (x y z : Z) (cells : list cell) (count : Z) : xout gst unit :=
  x_set_row ct s w cells 1 x y z count.
Definition x_set (ct : celltype) (s : sched) (w : gst) (x y z : Z) (c : cell) : xout gst unit :=
  x_set_row ct s w [c] 1 x y z 1.
Definition x_broadcast (ct : celltype) (s : sched) (w : gst) (x y z : Z) (c : cell) (count : Z) : xout gst unit :=
  x_set_row ct s w [c] 0 x y z count.

(** load(begin, end, source, count) (soa_grid.hpp:284-299). *)
Definition x_load_streaks (ct : celltype) (s : sched) (w : gst) (l : list streak) (source : ptr) (count : Z) : xout gst unit :=
  let '(m, g) := w in
  x_callback ct w g (fun d a => x_run s (load_functor (ct_ms ct) d a source count 0 l) m g).

(** ** soa_vector *)
(** An exception leaves the scope of the local grid [h]: its destructor runs. *)
Definition unwind (ct : celltype) (m : mem) (h : grid) (v : vec) (e : xexn) : xout vst unit :=
  match g_destroy ct (m, h) with
  | Ret (m', _) _ => XThr (m', v) e
  | Thr _ _ => XTerminate
  | Flt x => XFlt x
  end.

(** reserve(new_count) (soa_vector.hpp:111-125). *)
Definition x_v_reserve (ct : celltype) (s : sched) (w : vst) (n : Z) : xout vst unit :=
  let '(m, v) := w in
  match x_new ct s m n 1 1 with
  | XFlt x => XFlt x
  | XTerminate => XTerminate
  | XThr (m', _) e => XThr (m', v) e
  | XRet s1 (m1, h) _ =>
      x_use (g_ex h) (fun ex =>
        match x_resize ct s1 (m1, h) ex 1 1 with
        | XFlt x => XFlt x
        | XTerminate => XTerminate
        | XThr (m', h') e => unwind ct m' h' v e
        | XRet s2 (m2, h2) _ =>
            x_use (g_ex (v_grid v)) (fun old =>
              match x_load_streaks ct s2 (m2, h2) [(0, 0, 0, v_count v)] (g_data (v_grid v)) old with
              | XFlt x => XFlt x
              | XTerminate => XTerminate
              | XThr (m', h') e => unwind ct m' h' v e
              | XRet s3 (m3, h3) _ =>
                  let '(h4, g4) := g_swap h3 (v_grid v) in
                  match g_destroy ct (m3, h4) with
                  | Flt x => XFlt x
                  | Thr (m', _) e => XThr (m', v) (XLib e)
                  | Ret (m4, _) _ => XRet s3 (m4, mkVec g4 (v_count v)) tt
                  end
              end)
        end)
  end.

(** push_back(element) (soa_vector.hpp:141-151): count is incremented last. *)
Definition x_v_push (ct : celltype) (s : sched) (w : vst) (c : cell) : xout vst unit :=
  x_use (g_ex (v_grid (snd w))) (fun ex =>
    xbind (if v_count (snd w) =? ex then x_v_reserve ct s w (grow (v_count (snd w))) else XRet s w tt)
          (fun s1 w1 _ =>
             xbind (xlift (x_set ct s1 (fst w1, v_grid (snd w1)) (v_count (snd w1)) 0 0 c)
                          (fun gw => (fst gw, mkVec (snd gw) (v_count (snd w1)))))
                   (fun s2 w2 _ => XRet s2 (fst w2, mkVec (v_grid (snd w2)) (v_count (snd w2) + 1)) tt))).

(** resize(new_count) (soa_vector.hpp:100-109). *)
Definition x_v_resize (ct : celltype) (s : sched) (w : vst) (n : Z) : xout vst unit :=
  if v_capacity (snd w) <? n
  then xbind (x_v_reserve ct s w n) (fun s1 w1 _ => XRet s1 (fst w1, mkVec (v_grid (snd w1)) n) tt)
  else XRet s (fst w, mkVec (v_grid (snd w)) n) tt.

(** set (soa_vector.hpp:67-72). *)
Definition x_v_set (ct : celltype) (s : sched) (w : vst) (i : Z) (c : cell) : xout vst unit :=
  xlift (x_set ct s (fst w, v_grid (snd w)) i 0 0 c) (fun gw => (fst gw, mkVec (snd gw) (v_count (snd w)))).

(** pop_back() (soa_vector.hpp:153-160): count is decremented first. The construction
    of the temporary T() is not scheduled. *)
Definition x_v_pop (ct : celltype) (s : sched) (w : vst) : xout vst unit :=
  let n := v_count (snd w) - 1 in
  x_v_set ct s (fst w, mkVec (v_grid (snd w)) n) n (value_init (ct_ms ct)).

(** soa_vector(count, value) (soa_vector.hpp:53-60): once the member grid is built its
    destructor runs if the rest of the constructor throws. *)
Definition x_v_new_fill (ct : celltype) (s : sched) (m : mem) (n : Z) (c : cell) : xout vst unit :=
  match x_new ct s m n 1 1 with
  | XFlt x => XFlt x
  | XTerminate => XTerminate
  | XThr (m', h) e => XThr (m', mkVec h n) e
  | XRet s1 (m1, h) _ =>
      match x_broadcast ct s1 (m1, h) 0 0 0 c n with
      | XFlt x => XFlt x
      | XTerminate => XTerminate
      | XThr (m', h') e => unwind ct m' h' (mkVec h' n) e
      | XRet s2 (m2, h2) _ => XRet s2 (m2, mkVec h2 n) tt
      end
  end.

(** The implicitly declared assignment: the grids first, then count. *)
Definition x_v_assign (ct : celltype) (s : sched) (w : vst) (other : vec) : xout vst unit :=
  xbind (xlift (x_assign ct s (fst w, v_grid (snd w)) (v_grid other)) (fun gw => (fst gw, mkVec (snd gw) (v_count (snd w)))))
        (fun s1 w1 _ => XRet s1 (fst w1, mkVec (v_grid (snd w1)) (v_count other)) tt).
