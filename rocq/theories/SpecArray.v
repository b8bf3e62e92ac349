(** What soa_array is supposed to do: named plain lists with a capacity. *)
From Coq Require Import ZArith List Bool.
From Verif Require Import Layout Sizes Accessor AccessorProofs Array.
Import ListNotations.
Open Scope Z_scope.

Record bseq := mkBS { bs_cap : Z; bs_l : list cell }.
Definition len (l : list cell) : Z := Z.of_nat (length l).
Definition bworld := nat -> option bseq.
Definition no_arrays : bworld := fun _ => None.

(** [xs] written over [l] from position [k] on. *)
Definition over (l : list cell) (k : nat) (xs : list cell) : list cell :=
  firstn k l ++ xs ++ skipn (k + length xs) l.

(** No member is of class type. *)
Definition trivial (ms : list member) : Prop := Forall (fun m => m_class m = false) ms.

(** Calls within the contract. *)
Definition vpre (ms : list member) (A : bworld) (op : vop) : Prop :=
  match op with
  | VNew id cap n c => A id = None /\ 0 < cap < 2 ^ 31 /\ 0 <= n <= cap /\ wf_cell ms c
  | VConv id cap src => A id = None /\ 0 < cap < 2 ^ 31 /\ A src <> None
  | VAssign d s => A d <> None /\ A s <> None
  (* these two copy bytes: only for cells without members of class type *)
  | VCopyConst id src => A id = None /\ A src <> None /\ trivial ms
  | VAssignConst d s => (exists a b, A d = Some a /\ A s = Some b /\ bs_cap a = bs_cap b) /\ trivial ms
  | VPush id c => A id <> None /\ wf_cell ms c
  | VPop id | VClear id | VSize id | VCap id | VIter id | VDestroy id => A id <> None
  | VWrite id i c => (exists a, A id = Some a /\ 0 <= i < len (bs_l a)) /\ wf_cell ms c
  | VGet id i => exists a, A id = Some a /\ 0 <= i < len (bs_l a)
  | VBack id => exists a, A id = Some a /\ bs_l a <> []
  | VLoad d off s i n =>
      A d <> None /\ (exists b, A s = Some b /\ i + n <= len (bs_l b)) /\ 0 <= i /\ 0 <= n /\ 0 <= off /\ off + n < 2 ^ 64 /\
      (* source and target range of the same array: no overlap, or moving down *)
      (d <> s \/ off <= i \/ i + n <= off)
  | VLoadApp d s i n => A d <> None /\ (exists b, A s = Some b /\ i + n <= len (bs_l b)) /\ 0 <= i /\ 0 <= n
  | VSwap a b => a <> b /\ exists x y, A a = Some x /\ A b = Some y /\ bs_cap x = bs_cap y
  end.

(** [load] past the end exposes the elements in between; what they hold is not said. *)
Inductive load_result (cap : Z) (l : list cell) (off : Z) (xs : list cell) : list cell -> vobs -> Prop :=
| lr_throw : cap < off + len xs -> load_result cap l off xs l (VThrow OutOfRange)
| lr_ok : forall gap, off + len xs <= cap -> length gap = (Z.to_nat off - length l)%nat ->
    load_result cap l off xs (over (l ++ gap) (Z.to_nat off) xs) VUnit.

Inductive astep (A : bworld) : vop -> bworld -> vobs -> Prop :=
| b_new : forall id cap n c, astep A (VNew id cap n c) (aset A id (Some (mkBS cap (repeat c (Z.to_nat n))))) VUnit
| b_conv : forall id cap src b, A src = Some b -> len (bs_l b) <= cap ->
    astep A (VConv id cap src) (aset A id (Some (mkBS cap (bs_l b)))) VUnit
| b_conv_throw : forall id cap src b, A src = Some b -> cap < len (bs_l b) ->
    astep A (VConv id cap src) A (VThrow OutOfRange)
| b_assign : forall d s a b, A d = Some a -> A s = Some b -> len (bs_l b) <= bs_cap a ->
    astep A (VAssign d s) (aset A d (Some (mkBS (bs_cap a) (bs_l b)))) VUnit
| b_assign_throw : forall d s a b, A d = Some a -> A s = Some b -> bs_cap a < len (bs_l b) ->
    astep A (VAssign d s) A (VThrow OutOfRange)
| b_copy_const : forall id src b, A src = Some b -> astep A (VCopyConst id src) (aset A id (Some b)) VUnit
| b_assign_const : forall d s b, A s = Some b -> astep A (VAssignConst d s) (aset A d (Some b)) VUnit
| b_push : forall id a c, A id = Some a -> len (bs_l a) < bs_cap a ->
    astep A (VPush id c) (aset A id (Some (mkBS (bs_cap a) (bs_l a ++ [c])))) VUnit
| b_push_throw : forall id a c, A id = Some a -> len (bs_l a) = bs_cap a ->
    astep A (VPush id c) A (VThrow OutOfRange)
| b_pop : forall id a l c, A id = Some a -> bs_l a = l ++ [c] ->
    astep A (VPop id) (aset A id (Some (mkBS (bs_cap a) l))) VUnit
| b_pop_throw : forall id a, A id = Some a -> bs_l a = [] -> astep A (VPop id) A (VThrow OutOfRange)
| b_clear : forall id a, A id = Some a -> astep A (VClear id) (aset A id (Some (mkBS (bs_cap a) []))) VUnit
| b_write : forall id i c a, A id = Some a ->
    astep A (VWrite id i c) (aset A id (Some (mkBS (bs_cap a) (over (bs_l a) (Z.to_nat i) [c])))) VUnit
| b_get : forall id i a c, A id = Some a -> nth_error (bs_l a) (Z.to_nat i) = Some c -> astep A (VGet id i) A (VCell c)
| b_back : forall id a l c, A id = Some a -> bs_l a = l ++ [c] -> astep A (VBack id) A (VCell c)
| b_size : forall id a, A id = Some a -> astep A (VSize id) A (VNum (len (bs_l a)))
| b_cap : forall id a, A id = Some a -> astep A (VCap id) A (VNum (bs_cap a))
| b_iter : forall id a, A id = Some a -> astep A (VIter id) A (VCells (bs_l a))
| b_load : forall d off s i n a b l' ob, A d = Some a -> A s = Some b ->
    load_result (bs_cap a) (bs_l a) off (firstn (Z.to_nat n) (skipn (Z.to_nat i) (bs_l b))) l' ob ->
    astep A (VLoad d off s i n) (aset A d (Some (mkBS (bs_cap a) l'))) ob
| b_load_app : forall d s i n a b l' ob, A d = Some a -> A s = Some b ->
    load_result (bs_cap a) (bs_l a) (len (bs_l a)) (firstn (Z.to_nat n) (skipn (Z.to_nat i) (bs_l b))) l' ob ->
    astep A (VLoadApp d s i n) (aset A d (Some (mkBS (bs_cap a) l'))) ob
| b_swap : forall a b x y, A a = Some x -> A b = Some y ->
    astep A (VSwap a b) (aset (aset A a (Some (mkBS (bs_cap x) (bs_l y)))) b (Some (mkBS (bs_cap y) (bs_l x)))) VUnit
| b_destroy : forall id, astep A (VDestroy id) (aset A id None) VUnit.

(** A history whose every call is within the contract, whatever the earlier calls did
    within the specification. *)
Fixpoint legal (ms : list member) (A : bworld) (ops : list vop) : Prop :=
  match ops with
  | [] => True
  | op :: r => vpre ms A op /\ forall A' ob, astep A op A' ob -> legal ms A' r
  end.

Inductive arun (A : bworld) : list vop -> bworld -> list vobs -> Prop :=
| br_nil : arun A [] A []
| br_cons : forall op ops A1 A2 ob obs, astep A op A1 ob -> arun A1 ops A2 obs -> arun A (op :: ops) A2 (ob :: obs).
