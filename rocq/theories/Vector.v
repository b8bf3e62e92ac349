(** soa_vector (include/libflatarray/soa_vector.hpp) with the default allocator and
    USE_CUDA_FUNCTORS = false, on top of the model of soa_grid (Grid.v). Model only;
    proofs are in VectorProofs.v, statements in PropsVector.v.
    Exceptions from members or the allocator: GridThrow.v. Not modelled: size_t wrap-around of
    counts (pop_back() on an empty vector is outside the contract and would wrap). *)
From Coq Require Import ZArith List Bool.
From Verif Require Import Base Layout Sizes Mem Accessor Grid.
Import ListNotations.
Open Scope Z_scope.

(** Data members (soa_vector.hpp:189-190). *)
Record vec := mkVec { v_grid : grid; v_count : Z }.
Definition vst := (mem * vec)%type.

(** Lift a grid operation; [count] stays as it is. *)
Definition on_grid {A : Type} (w : vst) (f : gst -> outcome gst A) : outcome vst A :=
  let '(m, v) := w in
  match f (m, v_grid v) with
  | Ret (m', g') a => Ret (m', mkVec g' (v_count v)) a
  | Thr (m', g') e => Thr (m', mkVec g' (v_count v)) e
  | Flt x => Flt x
  end.

(** soa_vector(count) (soa_vector.hpp:46-51). *)
Definition v_new (ct : celltype) (m : mem) (n : Z) : outcome vst unit :=
  match g_new ct m n 1 1 with
  | Ret (m', g) _ => Ret (m', mkVec g n) tt
  | Thr (m', g) e => Thr (m', mkVec g n) e
  | Flt x => Flt x
  end.

(** soa_vector(count, value) (soa_vector.hpp:53-60). *)
Definition v_new_fill (ct : celltype) (m : mem) (n : Z) (c : cell) : outcome vst unit :=
  obind (v_new ct m n) (fun w _ => on_grid w (fun gw => g_broadcast ct gw 0 0 0 c n)).

(** set (soa_vector.hpp:67-72), get (79-84). *)
Definition v_set (ct : celltype) (w : vst) (i : Z) (c : cell) : outcome vst unit :=
  on_grid w (fun gw => g_set ct gw i 0 0 c).
Definition v_get (ct : celltype) (w : vst) (i : Z) : outcome vst cell :=
  on_grid w (fun gw => g_get ct gw i 0 0).

(** size (soa_vector.hpp:86-91), empty (93-98), capacity (127-132). *)
Definition v_size (v : vec) : Z := v_count v.
Definition v_empty (v : vec) : bool := v_count v =? 0.
Definition v_capacity (v : vec) : Z := g_x (v_grid v).

(** reserve(new_count) (soa_vector.hpp:111-125): a second grid, rounded up to its
    extent; one streak of [count] cells is loaded from the old storage, taken as a raw
    buffer of extent_x() cells; the grids are swapped (soa_grid.hpp:489-493 calls
    soa_grid::swap) and the new_grid object, now holding the old storage, is destroyed. *)
Definition v_reserve (ct : celltype) (w : vst) (n : Z) : outcome vst unit :=
  let '(m, v) := w in
  match g_new ct m n 1 1 with
  | Flt x => Flt x
  | Thr (m', _) e => Thr (m', v) e
  | Ret (m1, h) _ =>
      use (g_ex h) (fun ex =>
        match g_resize ct (m1, h) ex 1 1 with
        | Flt x => Flt x
        | Thr (m', _) e => Thr (m', v) e
        | Ret (m2, h2) _ =>
            use (g_ex (v_grid v)) (fun old =>
              match g_load_streaks ct (m2, h2) [(0, 0, 0, v_count v)] (g_data (v_grid v)) old with
              | Flt x => Flt x
              | Thr (m', _) e => Thr (m', v) e
              | Ret (m3, h3) _ =>
                  let '(h4, g4) := g_swap h3 (v_grid v) in
                  match g_destroy ct (m3, h4) with
                  | Flt x => Flt x
                  | Thr (m', _) e => Thr (m', v) e
                  | Ret (m4, _) _ => Ret (m4, mkVec g4 (v_count v)) tt
                  end
              end)
        end)
  end.

(** resize(new_count) (soa_vector.hpp:100-109). *)
Definition v_resize (ct : celltype) (w : vst) (n : Z) : outcome vst unit :=
  if v_capacity (snd w) <? n
  then obind (v_reserve ct w n) (fun w' _ => Ret (fst w', mkVec (v_grid (snd w')) n) tt)
  else Ret (fst w, mkVec (v_grid (snd w)) n) tt.

(** clear() (soa_vector.hpp:134-139). *)
Definition v_clear (w : vst) : outcome vst unit := Ret (fst w, mkVec (v_grid (snd w)) 0) tt.

(** static_cast<std::size_t>(count * 1.2) in binary64, round to nearest even: [count]
    is rounded to 53 bits, multiplied by the double 5404319552844595 / 2^52 nearest to
    1.2, the product is rounded to 53 bits and truncated. (Results of 2^64 and more
    would be undefined behaviour in C++; the model does not bound them.) *)
Definition rnd53 (n : Z) : Z :=
  if n <? 2 ^ 53 then n
  else
    let k := Z.log2 n - 52 in
    let q := n / 2 ^ k in
    let r := n mod 2 ^ k in
    if (2 ^ (k - 1) <? r) || ((r =? 2 ^ (k - 1)) && Z.odd q) then (q + 1) * 2 ^ k else q * 2 ^ k.
Definition one_point_two : Z := 5404319552844595.
Definition grow (count : Z) : Z := rnd53 (rnd53 count * one_point_two) / 2 ^ 52.

(** push_back(element) (soa_vector.hpp:141-151); emplace_back (162-170) builds the
    element and calls it. *)
Definition v_push (ct : celltype) (w : vst) (c : cell) : outcome vst unit :=
  use (g_ex (v_grid (snd w))) (fun ex =>
    obind (if v_count (snd w) =? ex then v_reserve ct w (grow (v_count (snd w))) else Ret w tt)
          (fun w1 _ => obind (v_set ct w1 (v_count (snd w1)) c)
             (fun w2 _ => Ret (fst w2, mkVec (v_grid (snd w2)) (v_count (snd w2) + 1)) tt))).

(** T(): every member element is default-constructed. *)
Definition value_init (ms : list member) : cell := map (fun mb => repeat (m_default mb) (m_count mb)) ms.

(** pop_back() (soa_vector.hpp:153-160). *)
Definition v_pop (ct : celltype) (w : vst) : outcome vst unit :=
  let n := v_count (snd w) - 1 in
  v_set ct (fst w, mkVec (v_grid (snd w)) n) n (value_init (ct_ms ct)).

(** The implicitly declared copy constructor, assignment and destructor. *)
Definition v_copy (ct : celltype) (m : mem) (other : vec) : outcome vst unit :=
  match g_copy ct m (v_grid other) with
  | Ret (m', g) _ => Ret (m', mkVec g (v_count other)) tt
  | Thr (m', g) e => Thr (m', mkVec g (v_count other)) e
  | Flt x => Flt x
  end.
Definition v_assign (ct : celltype) (w : vst) (other : vec) : outcome vst unit :=
  obind (on_grid w (fun gw => g_assign ct gw (v_grid other)))
        (fun w1 _ => Ret (fst w1, mkVec (v_grid (snd w1)) (v_count other)) tt).
Definition v_assign_self (ct : celltype) (w : vst) : outcome vst unit := on_grid w (g_assign_self ct).
Definition v_destroy (ct : celltype) (w : vst) : outcome vst unit := on_grid w (g_destroy ct).

(** callback(functor) (soa_vector.hpp:172-186) with a functor that reads the members
    through its accessor at indices 0 ... n-1. *)
Definition v_callback_read (ct : celltype) (w : vst) (n : Z) : outcome vst (list cell) :=
  on_grid w (fun gw => callback ct gw (snd gw) (fun d a =>
    match mapR (fun i => read_cell (fst gw) d (acc_add a i) (ct_ms ct)) (zseq n) with
    | Val l => Ret gw l
    | Fault f => Flt f
    end)).

(** ** Histories: programs owning any number of vectors, named by numbers. *)
Inductive sop :=
| SNew (id : nat) (n : Z)
| SFill (id : nat) (n : Z) (c : cell)
| SCopy (id src : nat)
| SAssign (d s : nat)
| SSet (id : nat) (i : Z) (c : cell)
| SGet (id : nat) (i : Z)
| SSize (id : nat)
| SEmpty (id : nat)
| SCap (id : nat)
| SResize (id : nat) (n : Z)
| SReserve (id : nat) (n : Z)
| SClear (id : nat)
| SPush (id : nat) (c : cell)
| SPop (id : nat)
| SCallback (id : nat) (n : Z)
| SDestroy (id : nat).

Inductive sobs := SUnit | SThrow (e : exn) | SCell (c : cell) | SCells (l : list cell) | SNum (n : Z) | SBool (b : bool).

Record sworld := mkSW { sw_mem : mem; sw_vecs : nat -> option vec }.
Definition sstart : sworld := mkSW empty_mem (fun _ => None).

Definition sset {A : Type} (f : nat -> option A) (id : nat) (v : option A) : nat -> option A :=
  fun i => if Nat.eqb i id then v else f i.

Definition on_vec {A : Type} (w : sworld) (id : nat) (f : vst -> outcome vst A) (ob : A -> sobs) : result (sworld * sobs) :=
  match sw_vecs w id with
  | None => Fault Dangling
  | Some v =>
      match f (sw_mem w, v) with
      | Ret (m', v') x => Val (mkSW m' (sset (sw_vecs w) id (Some v')), ob x)
      | Thr (m', v') e => Val (mkSW m' (sset (sw_vecs w) id (Some v')), SThrow e)
      | Flt x => Fault x
      end
  end.
Definition vec_ctor (w : sworld) (id : nat) (o : outcome vst unit) : result (sworld * sobs) :=
  match o with
  | Ret (m', v') _ => Val (mkSW m' (sset (sw_vecs w) id (Some v')), SUnit)
  | Thr (m', _) e => Val (mkSW m' (sw_vecs w), SThrow e)
  | Flt x => Fault x
  end.

Definition sstep (ct : celltype) (w : sworld) (op : sop) : result (sworld * sobs) :=
  match op with
  | SNew id n => vec_ctor w id (v_new ct (sw_mem w) n)
  | SFill id n c => vec_ctor w id (v_new_fill ct (sw_mem w) n c)
  | SCopy id src =>
      match sw_vecs w src with
      | None => Fault Dangling
      | Some o => vec_ctor w id (v_copy ct (sw_mem w) o)
      end
  | SAssign d s =>
      match sw_vecs w s with
      | None => Fault Dangling
      | Some o =>
          on_vec w d (fun st => if Nat.eqb d s then v_assign_self ct st else v_assign ct st o) (fun _ => SUnit)
      end
  | SSet id i c => on_vec w id (fun st => v_set ct st i c) (fun _ => SUnit)
  | SGet id i => on_vec w id (fun st => v_get ct st i) SCell
  | SSize id => on_vec w id (fun st => Ret st (v_size (snd st))) SNum
  | SEmpty id => on_vec w id (fun st => Ret st (v_empty (snd st))) SBool
  | SCap id => on_vec w id (fun st => Ret st (v_capacity (snd st))) SNum
  | SResize id n => on_vec w id (fun st => v_resize ct st n) (fun _ => SUnit)
  | SReserve id n => on_vec w id (fun st => v_reserve ct st n) (fun _ => SUnit)
  | SClear id => on_vec w id v_clear (fun _ => SUnit)
  | SPush id c => on_vec w id (fun st => v_push ct st c) (fun _ => SUnit)
  | SPop id => on_vec w id (v_pop ct) (fun _ => SUnit)
  | SCallback id n => on_vec w id (fun st => v_callback_read ct st n) SCells
  | SDestroy id =>
      match sw_vecs w id with
      | None => Fault Dangling
      | Some v =>
          match v_destroy ct (sw_mem w, v) with
          | Ret (m', _) _ => Val (mkSW m' (sset (sw_vecs w) id None), SUnit)
          | Thr _ e => Fault (BadType)
          | Flt x => Fault x
          end
      end
  end.

Fixpoint srun (ct : celltype) (w : sworld) (ops : list sop) : result (sworld * list sobs) :=
  match ops with
  | [] => Val (w, [])
  | op :: r =>
      match sstep ct w op with
      | Fault x => Fault x
      | Val (w1, ob) =>
          match srun ct w1 r with
          | Fault x => Fault x
          | Val (w2, obs) => Val (w2, ob :: obs)
          end
      end
  end.
