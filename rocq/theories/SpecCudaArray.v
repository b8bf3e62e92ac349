(** Specification for cuda_array: plain lists. The operations are those of CudaArray.v; the
    only thing taken from the model otherwise is which orders of stores a filling kernel may
    show ([interleave (fill_threads n v)]). *)
From Coq Require Import ZArith List.
From Verif Require Import Base Cuda CudaArray.
Import ListNotations.
Local Open Scope nat_scope.

(** An array is a list and a capacity. An element [None] may have any
    value (never written since it came into existence). *)
Record aarr (A : Type) := mkAA { aa_list : list (option A); aa_cap : nat }.
Arguments mkAA {A}. Arguments aa_list {A}. Arguments aa_cap {A}.

Definition aworld (A : Type) := nat -> option (aarr A).
Definition aset {A : Type} (W : aworld A) (id : nat) (x : option (aarr A)) : aworld A :=
  fun i => if Nat.eqb i id then x else W i.

Definition resized {A : Type} (l : list (option A)) (n : nat) (v : option A) : list (option A) :=
  firstn n l ++ repeat v (n - length l).
Definition replaced {A : Type} (l : list (option A)) (i : nat) (v : A) : list (option A) :=
  firstn i l ++ Some v :: skipn (S i) l.

Inductive alaw {A : Type} (W : aworld A) : cop A -> aworld A -> cobs A -> Prop :=
| al_new : forall id n, W id = None ->
    alaw W (CNew id n) (aset W id (Some (mkAA (repeat None n) n))) OUnit
| al_fill : forall id n v s, W id = None -> (Z.of_nat n < 2 ^ 31)%Z -> interleave (fill_threads n v) s ->
    alaw W (CFill id n v s) (aset W id (Some (mkAA (repeat (Some v) n) n))) OUnit
| al_host : forall id xs, W id = None ->
    alaw W (CFromHost id xs) (aset W id (Some (mkAA (map Some xs) (length xs)))) OUnit
| al_copy : forall id src x, W id = None -> W src = Some x ->
    alaw W (CCopy id src) (aset W id (Some (mkAA (aa_list x) (length (aa_list x))))) OUnit
| al_assign : forall id src x y, id <> src -> W id = Some x -> W src = Some y ->
    alaw W (CAssign id src) (aset W id (Some (mkAA (aa_list y) (Nat.max (aa_cap x) (length (aa_list y)))))) OUnit
| al_resize : forall id n v x, W id = Some x ->
    alaw W (CResize id n v) (aset W id (Some (mkAA (resized (aa_list x) n v) (Nat.max (aa_cap x) n)))) OUnit
| al_reserve : forall id n x, W id = Some x ->
    alaw W (CReserve id n) (aset W id (Some (mkAA (aa_list x) (Nat.max (aa_cap x) n)))) OUnit
| al_load : forall id xs x, W id = Some x -> length (aa_list x) <= length xs ->
    alaw W (CLoad id xs) (aset W id (Some (mkAA (map Some (firstn (length (aa_list x)) xs)) (aa_cap x)))) OUnit
| al_save : forall id x, W id = Some x -> alaw W (CSave id) W (OElems (aa_list x))
| al_poke : forall id i v x, W id = Some x -> i < length (aa_list x) ->
    alaw W (CPoke id i v) (aset W id (Some (mkAA (replaced (aa_list x) i v) (aa_cap x)))) OUnit
| al_query : forall id x, W id = Some x -> alaw W (CQuery id) W (OSizes (length (aa_list x)) (aa_cap x))
| al_destroy : forall id x, W id = Some x -> alaw W (CDestroy id) (aset W id None) OUnit.

Inductive arun {A : Type} (W : aworld A) : list (cop A) -> aworld A -> list (cobs A) -> Prop :=
| ar_nil : arun W [] W []
| ar_cons : forall op W1 b ops W2 bs, alaw W op W1 b -> arun W1 ops W2 bs -> arun W (op :: ops) W2 (b :: bs).
Definition no_arrays {A : Type} : aworld A := fun _ => None.

(** What is seen agrees wherever the specification says something. *)
Definition seen {A : Type} (spec got : option A) : Prop := spec = None \/ got = spec.
Definition obs_agree {A : Type} (spec got : cobs A) : Prop :=
  match spec, got with
  | OUnit, OUnit => True
  | OElems l, OElems l' => Forall2 seen l l'
  | OSizes a b, OSizes a' b' => a' = a /\ b' = b
  | _, _ => False
  end.
