(** The stencil functors of the examples: examples/jacobi/main.cpp:114-210 and
    examples/gauss/main.cpp:118-252, with the soa_grid calls around them, and
    their C99 counterparts examples/jacobi/update_c99.c and
    examples/gauss/filter_c99.c.  Model only; proofs are in StencilProofs.v.

    A double is 8 bytes; what the arithmetic instructions do with them is given
    by an interpretation of the operations of short_vec (ShortVecLang.v).
    Not modelled: benchmark timing, output, and interleavings of OpenMP
    iterations (their order is arbitrary). *)
From Coq Require Import String ZArith List Bool.
From Verif Require Import ShortVecLang ShortVecClass ShortVecApi ShortVecScalar.
From Verif Require Import Base Layout Mem Accessor Sizes Grid Peeler Array.
Import ListNotations.
Local Open Scope Z_scope.

Notation vec := (list (list elem)).

(** Cell of both examples (jacobi/main.cpp:114-135, gauss/main.cpp:118-139): one
    double; its default is zero. *)
Definition zero : elem := repeat (Some Byte.x00) 8.
Definition cell_members : list member := [mkMember 8 None false zero].

(** ** The kernels *)

(** Expressions of type SHORT_VEC (or converting to it):
    [Temp X Y Z]: &accessor_old[coord<X, Y, Z>()].temp(), turned into a vector by
    the constructor from const double*;
    [Var s]: a vector initialised with the double s;
    [Times]: operator* of two vectors. *)
Inductive vexp := Temp (X Y Z : Z) | Var (s : string) | Times (a b : vexp).

(** buf = e, buf += e, buf *= e. *)
Inductive vstmt := BufIs (e : vexp) | BufAdd (e : vexp) | BufMul (e : vexp).

(** What the two examples differ in: the first y and z, which is also the distance of
    the end of the loops from the dimension; the first x and the distance of
    end_x; the scalars and the loop body up to the store. *)
Record kernel := mkKernel {
  k_yz : Z; k_x : Z; k_xend : Z; k_vars : list (string * elem); k_body : list vstmt }.

(** update_functor (jacobi/main.cpp:158-175, 187-190).  [factor] is the double
    1.0 / 6.0. *)
Definition jacobi (factor : elem) : kernel :=
  mkKernel 1 1 1 [("factor"%string, factor)]
    [BufIs  (Temp 0 0 (-1));
     BufAdd (Temp 0 (-1) 0);
     BufAdd (Temp (-1) 0 0);
     BufAdd (Temp 1 0 0);
     BufAdd (Temp 0 1 0);
     BufAdd (Temp 0 0 1);
     BufMul (Var "factor")].

(** filter_functor (gauss/main.cpp:165-208, 236-245).  [w y x] is weights[y][x];
    the macro call passes six of them (gauss/main.cpp:241-243). *)
Definition gauss (w : Z -> Z -> elem) : kernel :=
  mkKernel 2 0 0
    [("weight_00"%string, w 2 2); ("weight_01"%string, w 2 1); ("weight_02"%string, w 2 0);
     ("weight_11"%string, w 1 1); ("weight_12"%string, w 1 0); ("weight_22"%string, w 0 0)]
    [BufIs  (Times (Temp 0 (-2) (-2)) (Var "weight_22"));
     BufAdd (Times (Temp 0 (-1) (-2)) (Var "weight_12"));
     BufAdd (Times (Temp 0 0 (-2)) (Var "weight_02"));
     BufAdd (Times (Temp 0 1 (-2)) (Var "weight_12"));
     BufAdd (Times (Temp 0 2 (-2)) (Var "weight_22"));
     BufAdd (Times (Temp 0 (-2) (-1)) (Var "weight_12"));
     BufAdd (Times (Temp 0 (-1) (-1)) (Var "weight_11"));
     BufAdd (Times (Temp 0 0 (-1)) (Var "weight_01"));
     BufAdd (Times (Temp 0 1 (-1)) (Var "weight_11"));
     BufAdd (Times (Temp 0 2 (-1)) (Var "weight_12"));
     BufAdd (Times (Temp 0 (-2) 0) (Var "weight_02"));
     BufAdd (Times (Temp 0 (-1) 0) (Var "weight_01"));
     BufAdd (Times (Temp 0 0 0) (Var "weight_00"));
     BufAdd (Times (Temp 0 1 0) (Var "weight_01"));
     BufAdd (Times (Temp 0 2 0) (Var "weight_02"));
     BufAdd (Times (Temp 0 (-2) 1) (Var "weight_12"));
     BufAdd (Times (Temp 0 (-1) 1) (Var "weight_11"));
     BufAdd (Times (Temp 0 0 1) (Var "weight_01"));
     BufAdd (Times (Temp 0 1 1) (Var "weight_11"));
     BufAdd (Times (Temp 0 2 1) (Var "weight_12"));
     BufAdd (Times (Temp 0 (-2) 2) (Var "weight_22"));
     BufAdd (Times (Temp 0 (-1) 2) (Var "weight_12"));
     BufAdd (Times (Temp 0 0 2) (Var "weight_02"));
     BufAdd (Times (Temp 0 1 2) (Var "weight_12"));
     BufAdd (Times (Temp 0 2 2) (Var "weight_22"))].

(** ** Running them *)
Section Machine.
(** The arithmetic, and the address of byte 0 of every block. *)
Context (A : alg elem) (base : nat -> Z).

(** Distance of an address from the last 64 byte boundary, in doubles. *)
Definition mis_of (p : ptr) : Z := ((base (pb p) + po p) / 8) mod 8.

(** The interpretation with data[i] = f i. *)
Definition with_data (f : Z -> elem) : alg elem :=
  mkAlg (a_un A) (a_bin A) (a_sel A) (a_lit A) f (a_off A) (a_ptr A) (a_undef A).

(** data[i] *)
Definition dptr (p : ptr) (i : Z) : ptr := padd p (8 * i).

Fixpoint first_fault (m : mem) (p : ptr) (l : list (address elem)) : option fault :=
  match l with
  | [] => None
  | AData i :: r =>
      match chk_bounds m (dptr p i) 8 with Some f => Some f | None => first_fault m p r end
  | _ :: _ => Some Indeterminate
  end.

(** SHORT_VEC(const double *data).  A call that goes wrong inside short_vec
    (assertion) counts as BadType. *)
Definition vec_from (c : cls) (m : mem) (p : ptr) : Mem.result vec :=
  match sv_mem (with_data (fun i => read m (dptr p i) 8)) c MCtorPtr (fresh A c) (mis_of p) with
  | None => Fault BadType
  | Some r => match first_fault m p (r_reads r) with Some f => Fault f | None => Val (r_val r) end
  end.

(** The assignments of a store. *)
Definition to_op (p : ptr) (w : address elem * elem) : Mem.result mop :=
  match fst w with
  | AData i => Val (Assign (dptr p i) 8 false (snd w))
  | _ => Fault Indeterminate
  end.

(** data << vec, which is vec.store(data) (for instance
    detail/short_vec_avx_double_4.hpp:247-251), also for streaming_short_vec (C62). *)
Definition vec_to (c : cls) (m : mem) (p : ptr) (v : vec) : Mem.result mem :=
  match sv_mem A c MStore v (mis_of p) with
  | None => Fault BadType
  | Some r => rbind (mapR (to_op p) (r_writes r)) (fun ops => exec ops m)
  end.

Fixpoint lookup (vars : list (string * elem)) (s : string) : option elem :=
  match vars with
  | [] => None
  | (s', v) :: r => if String.eqb s s' then Some v else lookup r s
  end.

(** &accessor.temp() (detail/macros.hpp:92-107). *)
Definition temp_ptr (d : ptr) (a : accessor) : option ptr :=
  match member_addr cell_members a 0 0 with Some o => Some (padd d o) | None => None end.

Fixpoint eval (c : cls) (m : mem) (d : ptr) (a : accessor) (vars : list (string * elem)) (e : vexp)
    : Mem.result vec :=
  match e with
  | Temp X Y Z =>
      match temp_ptr d (at_coord a (X, Y, Z)) with
      | None => Fault BadType
      | Some p => vec_from c m p
      end
  | Var s =>
      match lookup vars s with
      | None => Fault BadType
      | Some t => match sv_scalar A c t with Some r => Val (r_val r) | None => Fault BadType end
      end
  | Times e1 e2 =>
      rbind (eval c m d a vars e1) (fun v => rbind (eval c m d a vars e2) (fun w =>
        match sv_bin A c MMul v w with
        | Some r => match r_ret r with RVec u => Val u | _ => Fault BadType end
        | None => Fault BadType
        end))
  end.

Definition op_assign (c : cls) (o : mid) (buf w : vec) : Mem.result vec :=
  match sv_bin A c o buf w with Some r => Val (r_val r) | None => Fault BadType end.

Definition exec_stmt (c : cls) (m : mem) (d : ptr) (a : accessor) (vars : list (string * elem))
    (buf : vec) (s : vstmt) : Mem.result vec :=
  match s with
  | BufIs e => eval c m d a vars e
  | BufAdd e => rbind (eval c m d a vars e) (op_assign c MAddEq buf)
  | BufMul e => rbind (eval c m d a vars e) (op_assign c MMulEq buf)
  end.

Fixpoint exec_body (c : cls) (m : mem) (d : ptr) (a : accessor) (vars : list (string * elem))
    (buf : vec) (l : list vstmt) : Mem.result vec :=
  match l with
  | [] => Val buf
  | s :: r => rbind (exec_stmt c m d a vars buf s) (fun b => exec_body c m d a vars b r)
  end.

(** The loop of update / filter (jacobi/main.cpp:161-175, gauss/main.cpp:170-206);
    a1 is accessor_old, a2 is accessor_new.  Result: memory and x.  A loop that
    does not end within the fuel counts as Indeterminate. *)
Fixpoint steps (fuel : nat) (k : kernel) (c : cls) (m : mem) (d1 : ptr) (a1 : accessor)
    (d2 : ptr) (a2 : accessor) (buf : vec) (x end_x : Z) : Mem.result (mem * Z) :=
  if x <? end_x then
    match fuel with
    | O => Fault Indeterminate
    | S f =>
        rbind (exec_body c m d1 a1 (k_vars k) buf (k_body k)) (fun b =>
        match temp_ptr d2 a2 with
        | None => Fault BadType
        | Some p =>
            rbind (vec_to c m p b) (fun m' =>
              let n := Z.of_nat (c_arity c) in
              steps f k c m' d1 (acc_add a1 n) d2 (acc_add a2 n) b (sz (x + n)) end_x)
        end)
    end
  else Val (m, x).

(** update (jacobi/main.cpp:146-177), filter (gauss/main.cpp:150-208). *)
Definition update (k : kernel) (c : cls) (m : mem) (d1 : ptr) (a1 : accessor) (d2 : ptr) (a2 : accessor)
    (x end_x y z : Z) : Mem.result (mem * Z) :=
  match sv_scalar A c zero with
  | None => Fault BadType
  | Some r =>
      steps (Z.to_nat (end_x - x)) k c m
            d1 (with_index a1 (gen_index (a_ext a1) x y z))
            d2 (with_index a2 (gen_index (a_ext a2) x y z)) (r_val r) x end_x
  end.

(** One row: LIBFLATARRAY_LOOP_PEELER_TEMPLATE with COUNTER_TYPE std::size_t
    (loop_peeler.hpp:75-91; jacobi/main.cpp:189-201, gauss/main.cpp:238-243).  The
    scalar class is the sibling of arity 1 (detail/sibling_short_vec_switch.hpp). *)
Definition row (k : kernel) (c : cls) (m : mem) (d1 : ptr) (a1 : accessor) (d2 : ptr) (a2 : accessor)
    (dim_x y z : Z) : Mem.result mem :=
  let n := Z.of_nat (c_arity c) in
  let x := k_x k in
  let end_x := sz (dim_x - k_xend k) in
  let remainder := x mod n in
  let next_stop := if remainder =? 0 then x else sz (x + n - remainder) in
  let last_stop := end_x - end_x mod n in
  rbind (update k cls_scalar_double_1 m d1 a1 d2 a2 x next_stop y z) (fun '(m1, x1) =>
  rbind (update k c m1 d1 a1 d2 a2 x1 last_stop y z) (fun '(m2, x2) =>
  rbind (update k cls_scalar_double_1 m2 d1 a1 d2 a2 x2 end_x y z) (fun '(m3, _) => Val m3))).

Fixpoint foldR {B : Type} (f : mem -> B -> Mem.result mem) (l : list B) (m : mem) : Mem.result mem :=
  match l with
  | [] => Val m
  | b :: r => rbind (f m b) (foldR f r)
  end.

(** The iterations of the z loop: int z, std::size_t dimension
    (jacobi/main.cpp:187, gauss/main.cpp:236). *)
Definition z_range (k : kernel) (dim_z : Z) : list Z := range (k_yz k) (to_int (sz (dim_z - k_yz k))).

(** operator() (jacobi/main.cpp:179-204, gauss/main.cpp:210-246).  [order] brings
    the iterations of the parallel z loop into the order in which they run. *)
Definition functor (k : kernel) (c : cls) (order : list Z -> list Z) (dim_x dim_y dim_z : Z)
    (d1 : ptr) (a1 : accessor) (d2 : ptr) (a2 : accessor) (m : mem) : Mem.result mem :=
  foldR (fun m z =>
    foldR (fun m y => row k c m d1 a1 d2 a2 dim_x y z)
          (range (k_yz k) (sz (dim_y - k_yz k))) m) (order (z_range k dim_z)) m.

(** grid_old.callback(&grid_new, functor), the functor having been given the
    dimensions of the grids (jacobi/main.cpp:240-241, gauss/main.cpp:283-284). *)
Definition sweep (k : kernel) (c : cls) (order : list Z -> list Z) (ct : celltype) (w : gst) (other : grid)
    : outcome gst unit :=
  let '(m, g) := w in
  dual_callback ct w g other (fun d1 a1 d2 a2 =>
    Grid.run (functor k c order (g_x g) (g_y g) (g_z g) d1 a1 d2 a2 m) (fun m' => (m', g)) tt).

End Machine.

(** ** The C99 versions

    Arrays of doubles of any kind T, as functions of the index. *)
Section C99.
Context {T : Type} (add mul : T -> T -> T).

(** grid[z][y][x] of a pointer to double[dim_y][dim_x] (update_c99.c:14-15). *)
Definition at3 (dim_x dim_y x y z : Z) : Z := z * (dim_y * dim_x) + y * dim_x + x.

Definition write_at (a : Z -> T) (i : Z) (v : T) : Z -> T := fun j => if j =? i then v else a j.

(** Nested loops over z, y, x (ints) assigning value x y z to grid_new[z][y][x].
    grid_new does not overlap grid_old (restrict). *)
Definition loops (zs ys xs : list Z) (dim_x dim_y : Z) (value : Z -> Z -> Z -> T) (new : Z -> T) : Z -> T :=
  fold_left (fun a z => fold_left (fun a y => fold_left (fun a x =>
    write_at a (at3 dim_x dim_y x y z) (value x y z)) xs a) ys a) zs new.

(** update_c99 (update_c99.c:11-34). *)
Definition update_c99 (factor : T) (new old : Z -> T) (dim_x dim_y dim_z : Z) : Z -> T :=
  let g x y z := old (at3 dim_x dim_y x y z) in
  loops (range 1 (dim_z - 1)) (range 1 (dim_y - 1)) (range 1 (dim_x - 1)) dim_x dim_y
    (fun x y z =>
       mul (add (add (add (add (add (g x y (z - 1)) (g x (y - 1) z)) (g (x - 1) y z)) (g (x + 1) y z))
                     (g x (y + 1) z)) (g x y (z + 1))) factor)
    new.

(** filter_c99 (filter_c99.c:27-97), the weights computed. *)
Definition filter_c99 (w : Z -> Z -> T) (new old : Z -> T) (dim_x dim_y dim_z : Z) : Z -> T :=
  let g x y z := old (at3 dim_x dim_y x y z) in
  let weight_00 := w 2 2 in let weight_01 := w 2 1 in let weight_02 := w 2 0 in
  let weight_11 := w 1 1 in let weight_12 := w 1 0 in let weight_22 := w 0 0 in
  loops (range 2 (dim_z - 2)) (range 2 (dim_y - 2)) (range 0 dim_x) dim_x dim_y
    (fun x y z =>
       let s0 := mul (g x (y - 2) (z - 2)) weight_22 in
       let s1 := add s0 (mul (g x (y - 1) (z - 2)) weight_12) in
       let s2 := add s1 (mul (g x (y + 0) (z - 2)) weight_02) in
       let s3 := add s2 (mul (g x (y + 1) (z - 2)) weight_12) in
       let s4 := add s3 (mul (g x (y + 2) (z - 2)) weight_22) in
       let s5 := add s4 (mul (g x (y - 2) (z - 1)) weight_12) in
       let s6 := add s5 (mul (g x (y - 1) (z - 1)) weight_11) in
       let s7 := add s6 (mul (g x (y + 0) (z - 1)) weight_01) in
       let s8 := add s7 (mul (g x (y + 1) (z - 1)) weight_11) in
       let s9 := add s8 (mul (g x (y + 2) (z - 1)) weight_12) in
       let s10 := add s9 (mul (g x (y - 2) (z + 0)) weight_02) in
       let s11 := add s10 (mul (g x (y - 1) (z + 0)) weight_01) in
       let s12 := add s11 (mul (g x (y + 0) (z + 0)) weight_00) in
       let s13 := add s12 (mul (g x (y + 1) (z + 0)) weight_01) in
       let s14 := add s13 (mul (g x (y + 2) (z + 0)) weight_02) in
       let s15 := add s14 (mul (g x (y - 2) (z + 1)) weight_12) in
       let s16 := add s15 (mul (g x (y - 1) (z + 1)) weight_11) in
       let s17 := add s16 (mul (g x (y + 0) (z + 1)) weight_01) in
       let s18 := add s17 (mul (g x (y + 1) (z + 1)) weight_11) in
       let s19 := add s18 (mul (g x (y + 2) (z + 1)) weight_12) in
       let s20 := add s19 (mul (g x (y - 2) (z + 2)) weight_22) in
       let s21 := add s20 (mul (g x (y - 1) (z + 2)) weight_12) in
       let s22 := add s21 (mul (g x (y + 0) (z + 2)) weight_02) in
       let s23 := add s22 (mul (g x (y + 1) (z + 2)) weight_12) in
       add s23 (mul (g x (y + 2) (z + 2)) weight_22))
    new.

End C99.
