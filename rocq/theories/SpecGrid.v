(** Specification used by the soa_grid theorems: what a user expects of a grid, with
    no reference to accessors, storage indices or layouts. *)
From Coq Require Import ZArith List Bool.
From Verif Require Import Base Layout LayoutProofs Sizes SizesProofs Mem Accessor AccessorProofs Grid.
Import ListNotations.
Open Scope Z_scope.

(** ** A grid is a box of cells *)
Definition cellmap := Z -> Z -> Z -> cell.

(** [ag_fresh]: default-constructed and never given a size. *)
Record agrid := mkAG { ag_x : Z; ag_y : Z; ag_z : Z; ag_fresh : bool; ag_cells : cellmap }.

Definition in_box (A : agrid) (x y z : Z) : Prop :=
  0 <= x < ag_x A /\ 0 <= y < ag_y A /\ 0 <= z < ag_z A.

(** [n] cells starting at (x, y, z) in x direction lie in the grid. *)
Definition row_in (A : agrid) (x y z n : Z) : Prop :=
  0 <= n /\ forall i, 0 <= i < n -> in_box A (x + i) y z.

(** The row replaced by [f 0, f 1, ...]. *)
Definition put_row (A : agrid) (x y z n : Z) (f : Z -> cell) : agrid :=
  mkAG (ag_x A) (ag_y A) (ag_z A) (ag_fresh A)
       (fun x' y' z' => if (y' =? y) && (z' =? z) && (x <=? x') && (x' <? x + n)
                        then f (x' - x) else ag_cells A x' y' z').

Definition get_row (A : agrid) (x y z n : Z) : list cell :=
  map (fun i => ag_cells A (x + i) y z) (zseq n).

(** Cells of a sequence of streaks, one after another. *)
Definition streak_coords (l : list streak) : list (Z * Z * Z) :=
  flat_map (fun '(x, y, z, n) => map (fun i => (x + i, y, z)) (zseq n)) l.

Definition put_coords (A : agrid) (l : list (Z * Z * Z * cell)) : agrid :=
  mkAG (ag_x A) (ag_y A) (ag_z A) (ag_fresh A)
       (fun x y z => match find (fun '(x', y', z', _) => (x =? x') && (y =? y') && (z =? z')) l with
                     | Some (_, _, _, c) => c
                     | None => ag_cells A x y z
                     end).

(** ** The packed format
    All member elements in registration order (array members expanded); for each of
    them the values of all cells, consecutively. *)
Definition flat_meta (ms : list member) : list (Z * bool) :=
  flat_map (fun m => repeat (m_size m, m_class m) (m_count m)) ms.

Definition column (cells : list cell) (t : nat) : list elem := map (fun c => nth t (concat c) []) cells.

Definition pack_elems (ms : list member) (cells : list cell) : list (Z * bool * elem) :=
  flat_map (fun '(t, (s, cls)) => map (fun v => (s, cls, v)) (column cells t))
           (combine (seq 0 (length (flat_meta ms))) (flat_meta ms)).

Definition pack (ms : list member) (cells : list cell) : list memval :=
  concat (map snd (pack_elems ms cells)).

Definition packed_size (ms : list member) (n : Z) : Z :=
  fold_right (fun p a => fst p + a) 0 (flat_meta ms) * n.

(** A client that places these elements one after another in a buffer and later
    destroys them. *)
Fixpoint build_ops (q : ptr) (off : Z) (l : list (Z * bool * elem)) : list mop :=
  match l with
  | [] => []
  | (s, cls, v) :: r => Construct (padd q off) s cls v :: build_ops q (off + s) r
  end.

Fixpoint unbuild_ops (q : ptr) (off : Z) (l : list (Z * bool * elem)) : list mop :=
  match l with
  | [] => []
  | (s, cls, _) :: r => Destroy (padd q off) s cls :: unbuild_ops q (off + s) r
  end.

(** The client allocates a buffer of exactly the packed size holding [cells], runs
    [body] on it, looks at the bytes, and tidies up. *)
Definition with_buffer (ms : list member) (m : mem) (cells : list cell)
                       (body : mem -> ptr -> outcome gst unit) : outcome gst (list memval) :=
  let n := Z.of_nat (length cells) in
  let '(m1, q) := alloc m (packed_size ms n) in
  match exec (build_ops q 0 (pack_elems ms cells)) m1 with
  | Fault f => Flt f
  | Val m2 =>
      match body m2 q with
      | Flt f => Flt f
      | Thr w e => Thr w e
      | Ret (m3, g3) _ =>
          let bytes := read m3 q (packed_size ms n) in
          match exec (unbuild_ops q 0 (pack_elems ms cells)) m3 with
          | Fault f => Flt f
          | Val m4 => run (free m4 q (packed_size ms n)) (fun m5 => (m5, g3)) bytes
          end
      end
  end.

(** ** Histories over any number of grids *)
Inductive gop :=
| ONew (id : nat) (x y z : Z)
| OCopy (id src : nat)
| OAssign (id src : nat)
| OResize (id : nat) (x y z : Z)
| OSwap (a b : nat)
| OSet (id : nat) (x y z : Z) (c : cell)
| OSetN (id : nat) (x y z : Z) (cs : list cell)
| OBroadcast (id : nat) (x y z : Z) (c : cell) (n : Z)
| OGet (id : nat) (x y z : Z)
| OGetN (id : nat) (x y z n : Z)
| OLoad (id : nat) (l : list streak) (cs : list cell)
| OSave (id : nat) (l : list streak) (cs : list cell)
| OQuery (id : nat)
| ODestroy (id : nat).

Inductive obs :=
| BUnit
| BThrow (e : exn)
| BCell (c : cell)
| BCells (cs : list cell)
| BBytes (bs : list memval)
| BDims (x y z : Z).

Definition fset {A : Type} (f : nat -> option A) (id : nat) (v : option A) : nat -> option A :=
  fun i => if Nat.eqb i id then v else f i.

(** *** Running the library *)
Record world := mkW { w_mem : mem; w_grids : nat -> option grid }.

Definition start : world := mkW empty_mem (fun _ => None).

(** An operation on an existing grid object; an exception leaves the object in place. *)
Definition on_grid {A : Type} (w : world) (id : nat) (f : gst -> outcome gst A) (ob : A -> obs)
  : result (world * obs) :=
  match w_grids w id with
  | None => Fault Dangling
  | Some g =>
      match f (w_mem w, g) with
      | Ret (m', g') a => Val (mkW m' (fset (w_grids w) id (Some g')), ob a)
      | Thr (m', g') e => Val (mkW m' (fset (w_grids w) id (Some g')), BThrow e)
      | Flt x => Fault x
      end
  end.

(** A constructor; if it throws there is no object. *)
Definition ctor (w : world) (id : nat) (o : outcome gst unit) : result (world * obs) :=
  match o with
  | Ret (m', g') _ => Val (mkW m' (fset (w_grids w) id (Some g')), BUnit)
  | Thr (m', _) e => Val (mkW m' (w_grids w), BThrow e)
  | Flt x => Fault x
  end.

Definition wstep (ct : celltype) (w : world) (op : gop) : result (world * obs) :=
  match op with
  | ONew id x y z => ctor w id (g_new ct (w_mem w) x y z)
  | OCopy id src =>
      match w_grids w src with
      | None => Fault Dangling
      | Some s => ctor w id (g_copy ct (w_mem w) s)
      end
  | OAssign id src =>
      if Nat.eqb id src then on_grid w id (fun st => g_assign_self ct st) (fun _ => BUnit)
      else match w_grids w src with
           | None => Fault Dangling
           | Some s => on_grid w id (fun st => g_assign ct st s) (fun _ => BUnit)
           end
  | OResize id x y z => on_grid w id (fun st => g_resize ct st x y z) (fun _ => BUnit)
  | OSwap a b =>
      match w_grids w a, w_grids w b with
      | Some ga, Some gb =>
          let '(ga', gb') := g_swap ga gb in
          Val (mkW (w_mem w) (fset (fset (w_grids w) a (Some ga')) b (Some gb')), BUnit)
      | _, _ => Fault Dangling
      end
  | OSet id x y z c => on_grid w id (fun st => g_set ct st x y z c) (fun _ => BUnit)
  | OSetN id x y z cs => on_grid w id (fun st => g_set_n ct st x y z cs (Z.of_nat (length cs))) (fun _ => BUnit)
  | OBroadcast id x y z c n => on_grid w id (fun st => g_broadcast ct st x y z c n) (fun _ => BUnit)
  | OGet id x y z => on_grid w id (fun st => g_get ct st x y z) BCell
  | OGetN id x y z n => on_grid w id (fun st => g_get_n ct st x y z n) BCells
  | OLoad id l cs =>
      on_grid w id (fun st => with_buffer (ct_ms ct) (fst st) cs
                     (fun m q => g_load_streaks ct (m, snd st) l q (Z.of_nat (length cs)))) (fun _ => BUnit)
  | OSave id l cs =>
      on_grid w id (fun st => with_buffer (ct_ms ct) (fst st) cs
                     (fun m q => g_save_streaks ct (m, snd st) l q (Z.of_nat (length cs)))) BBytes
  | OQuery id => on_grid w id (fun st => Ret st (g_x (snd st), g_y (snd st), g_z (snd st))) (fun '(x, y, z) => BDims x y z)
  | ODestroy id =>
      match w_grids w id with
      | None => Fault Dangling
      | Some g =>
          match g_destroy ct (w_mem w, g) with
          | Ret (m', _) _ => Val (mkW m' (fset (w_grids w) id None), BUnit)
          | Thr (m', g') e => Val (mkW m' (fset (w_grids w) id (Some g')), BThrow e)
          | Flt x => Fault x
          end
      end
  end.

Fixpoint wrun (ct : celltype) (w : world) (ops : list gop) : result (world * list obs) :=
  match ops with
  | [] => Val (w, [])
  | op :: r =>
      match wstep ct w op with
      | Fault f => Fault f
      | Val (w', b) =>
          match wrun ct w' r with
          | Fault f => Fault f
          | Val (w'', bs) => Val (w'', b :: bs)
          end
      end
  end.

(** *** What the user expects *)
Definition aworld := nat -> option agrid.

Definition new_grid (ms : list member) (x y z : Z) : agrid :=
  mkAG x y z false (fun _ _ _ => default_cell ms).

Inductive astep (ct : celltype) (A : aworld) : gop -> aworld -> obs -> Prop :=
| a_new_empty : forall id cells,
    A id = None ->
    astep ct A (ONew id 0 0 0) (fset A id (Some (mkAG 0 0 0 true cells))) BUnit
| a_new : forall id x y z,
    A id = None -> 0 <= x -> 0 <= y -> 0 <= z -> (x, y, z) <> (0, 0, 0) ->
    supported (ct_sizes ct) x y z ->
    astep ct A (ONew id x y z) (fset A id (Some (new_grid (ct_ms ct) x y z))) BUnit
| a_new_rejected : forall id x y z,
    A id = None -> 0 <= x -> 0 <= y -> 0 <= z -> (x, y, z) <> (0, 0, 0) ->
    ~ supported (ct_sizes ct) x y z ->
    astep ct A (ONew id x y z) A (BThrow OutOfRange)
| a_copy : forall id src S,
    A id = None -> A src = Some S -> ag_fresh S = false ->
    astep ct A (OCopy id src) (fset A id (Some S)) BUnit
| a_assign : forall id src S D,
    id <> src -> A src = Some S -> A id = Some D ->
    supported (ct_sizes ct) (ag_x S) (ag_y S) (ag_z S) ->
    astep ct A (OAssign id src)
      (fset A id (Some (mkAG (ag_x S) (ag_y S) (ag_z S)
                             (ag_fresh D && (ag_x S =? 0) && (ag_y S =? 0) && (ag_z S =? 0)) (ag_cells S)))) BUnit
| a_assign_self : forall id S,
    A id = Some S -> supported (ct_sizes ct) (ag_x S) (ag_y S) (ag_z S) ->
    astep ct A (OAssign id id) A BUnit
| a_resize_same : forall id S,
    A id = Some S -> astep ct A (OResize id (ag_x S) (ag_y S) (ag_z S)) A BUnit
| a_resize : forall id S x y z,
    A id = Some S -> 0 <= x -> 0 <= y -> 0 <= z -> (x, y, z) <> (ag_x S, ag_y S, ag_z S) ->
    supported (ct_sizes ct) x y z ->
    astep ct A (OResize id x y z) (fset A id (Some (new_grid (ct_ms ct) x y z))) BUnit
| a_swap : forall a b S T,
    a <> b -> A a = Some S -> A b = Some T -> ag_y S = ag_y T -> ag_z S = ag_z T ->
    astep ct A (OSwap a b) (fset (fset A a (Some T)) b (Some S)) BUnit
| a_set : forall id S x y z c,
    A id = Some S -> in_box S x y z -> wf_cell (ct_ms ct) c ->
    astep ct A (OSet id x y z c) (fset A id (Some (put_row S x y z 1 (fun _ => c)))) BUnit
| a_set_n : forall id S x y z cs,
    A id = Some S -> ag_fresh S = false -> row_in S x y z (Z.of_nat (length cs)) -> Forall (wf_cell (ct_ms ct)) cs ->
    astep ct A (OSetN id x y z cs)
      (fset A id (Some (put_row S x y z (Z.of_nat (length cs)) (fun i => nth (Z.to_nat i) cs [])))) BUnit
| a_broadcast : forall id S x y z c n,
    A id = Some S -> ag_fresh S = false -> row_in S x y z n -> wf_cell (ct_ms ct) c ->
    astep ct A (OBroadcast id x y z c n) (fset A id (Some (put_row S x y z n (fun _ => c)))) BUnit
| a_get : forall id S x y z,
    A id = Some S -> in_box S x y z ->
    astep ct A (OGet id x y z) A (BCell (ag_cells S x y z))
| a_get_n : forall id S x y z n,
    A id = Some S -> ag_fresh S = false -> row_in S x y z n ->
    astep ct A (OGetN id x y z n) A (BCells (get_row S x y z n))
| a_load : forall id S l cs,
    A id = Some S -> ag_fresh S = false -> Forall (fun '(x, y, z, n) => row_in S x y z n) l ->
    NoDup (streak_coords l) -> (length (streak_coords l) <= length cs)%nat -> Forall (wf_cell (ct_ms ct)) cs ->
    astep ct A (OLoad id l cs)
      (fset A id (Some (put_coords S (combine (streak_coords l) cs)))) BUnit
| a_save : forall id S l cs,
    A id = Some S -> ag_fresh S = false -> Forall (fun '(x, y, z, n) => row_in S x y z n) l ->
    (length (streak_coords l) <= length cs)%nat -> Forall (wf_cell (ct_ms ct)) cs ->
    astep ct A (OSave id l cs) A
      (BBytes (pack (ct_ms ct) (map (fun '(x, y, z) => ag_cells S x y z) (streak_coords l)
                                ++ skipn (length (streak_coords l)) cs)))
| a_query : forall id S,
    A id = Some S -> astep ct A (OQuery id) A (BDims (ag_x S) (ag_y S) (ag_z S))
| a_destroy : forall id S,
    A id = Some S -> astep ct A (ODestroy id) (fset A id None) BUnit.

Inductive arun (ct : celltype) : aworld -> list gop -> aworld -> list obs -> Prop :=
| ar_nil : forall A, arun ct A [] A []
| ar_cons : forall A op A' b ops A'' bs,
    astep ct A op A' b -> arun ct A' ops A'' bs -> arun ct A (op :: ops) A'' (b :: bs).

(** *** Reachable states and what is visible in them *)
Definition no_grids : aworld := fun _ => None.

(** Worlds some history of in-range operations leads to. *)
Definition reachable (ct : celltype) (W : world) : Prop :=
  exists ops A bs, arun ct no_grids ops A bs /\ wrun ct start ops = Val (W, bs).

(** A registered cell type: positive sizes, defaults of the right size. *)
Definition wf_ct (ct : celltype) : Prop := wf_members (ct_ms ct) /\ wf_defaults (ct_ms ct).

Definition in_grid (g : grid) (x y z : Z) : Prop := 0 <= x < g_x g /\ 0 <= y < g_y g /\ 0 <= z < g_z g.

(** [n] cells from (x, y, z) on are in_grid. *)
Definition row_in_grid (g : grid) (x y z n : Z) : Prop := 0 <= n /\ forall i, 0 <= i < n -> in_grid g (x + i) y z.

(** get(x, y, z) returns [v] and changes nothing. *)
Definition reads (ct : celltype) (m : mem) (g : grid) (x y z : Z) (v : cell) : Prop :=
  g_get ct (m, g) x y z = Ret (m, g) v.

(** A cell reads the same in two states. *)
Definition same_cell (ct : celltype) (m : mem) (g : grid) (m' : mem) (g' : grid) (x y z : Z) : Prop :=
  exists v, reads ct m g x y z v /\ reads ct m' g' x y z v.

(** No grid other than [id] is affected by going to [m']. *)
Definition others_same (ct : celltype) (W : world) (m' : mem) (id : nat) : Prop :=
  forall id' g x y z, id' <> id -> w_grids W id' = Some g -> in_grid g x y z ->
    same_cell ct (w_mem W) g m' g x y z.

(** The object has storage (it is not a default-constructed, never resized one). *)
Definition sized (g : grid) : Prop := is_null (g_data g) = false.
