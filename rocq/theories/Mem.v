(** Memory, elementary element operations and their interpreter.
    This is the abstract machine the container models run on; it has no
    counterpart file in /repo. What it stands for is said at each definition.
    Model only; proofs are in MemProofs.v. *)
From Coq Require Import ZArith List Bool.
From Verif Require Import Base Layout.
Import ListNotations.
Open Scope Z_scope.

(** A pointer: block identity and byte offset. *)
Record ptr := mkPtr { pb : nat; po : Z }.

(** Pointer arithmetic in bytes ([char*] + n). *)
Definition padd (p : ptr) (d : Z) : ptr := mkPtr (pb p) (po p + d).

(** [msize b = Some n]: block [b] is allocated with [n] bytes; [None]: never
    allocated or released. [mval b o]: the byte at offset [o]. [mlive b o]: an object
    of class type lives at start offset [o]. [mnext]: first unused block id. *)
Record mem := mkMem {
  mnext : nat;
  msize : nat -> option Z;
  mval : nat -> Z -> memval;
  mlive : nat -> Z -> bool }.

(** Block 0 is never allocated; the null pointer points there, so an access through
    it is a [Dangling] access. *)
Definition null : ptr := mkPtr 0 0.
Definition is_null (p : ptr) : bool := Nat.eqb (pb p) 0 && (po p =? 0).

Definition empty_mem : mem := mkMem 1 (fun _ => None) (fun _ _ => None) (fun _ _ => false).

(** Undefined behaviour the model tells apart. *)
Inductive fault :=
| OutOfBounds      (* access outside a block *)
| Dangling         (* access to a block that is not allocated, or through null *)
| ConstructLive    (* placement new over a live object *)
| AssignDead       (* assignment to an object that was not constructed *)
| ReadDead         (* read of an object that is not alive *)
| DestroyDead      (* destructor call on a dead object *)
| BadFree          (* deallocate with a wrong pointer or size *)
| FreeLive         (* storage released while an object in it is alive *)
| Indeterminate    (* use of an uninitialised variable *)
| BadType.         (* value of the wrong size for its storage *)

Inductive result (A : Type) := Val (a : A) | Fault (f : fault).
Arguments Val {A} a.
Arguments Fault {A} f.

Definition rbind {A B : Type} (r : result A) (f : A -> result B) : result B :=
  match r with Val a => f a | Fault x => Fault x end.

(** Every byte of an access must be inside an allocated block. *)
Definition chk_bounds (m : mem) (p : ptr) (s : Z) : option fault :=
  match msize m (pb p) with
  | None => Some Dangling
  | Some n => if (0 <=? po p) && (po p + s <=? n) then None else Some OutOfBounds
  end.

(** The [s] bytes at [p]. *)
Definition read (m : mem) (p : ptr) (s : Z) : elem :=
  map (fun i => mval m (pb p) (po p + i)) (zseq s).

Definition inside (p : ptr) (s : Z) (b : nat) (o : Z) : bool :=
  Nat.eqb b (pb p) && (po p <=? o) && (o <? po p + s).

Definition write (m : mem) (p : ptr) (v : elem) : mem :=
  mkMem (mnext m) (msize m)
        (fun b o => if inside p (Z.of_nat (length v)) b o
                    then nth (Z.to_nat (o - po p)) v None else mval m b o)
        (mlive m).

Definition is_start (p : ptr) (b : nat) (o : Z) : bool := Nat.eqb b (pb p) && (o =? po p).

Definition set_live (m : mem) (p : ptr) (l : bool) : mem :=
  mkMem (mnext m) (msize m) (mval m)
        (fun b o => if is_start p b o then l else mlive m b o).

Definition live (m : mem) (p : ptr) : bool := mlive m (pb p) (po p).

(** Elementary operations on one member element of [s] bytes, [cls] = class type:
    - [Construct]: [new (p) T()] / [new (p) T(v)], with [v] the resulting value
    - [Destroy]: [p->~T()]; nothing happens for primitive types
      (detail/generic_destruct.hpp:33-63)
    - [Assign]: [*p = v] with [v] a value held outside the modelled memory
    - [Copy]: [*dst = *src]. *)
Inductive mop :=
| Construct (p : ptr) (s : Z) (cls : bool) (v : elem)
| Destroy (p : ptr) (s : Z) (cls : bool)
| Assign (p : ptr) (s : Z) (cls : bool) (v : elem)
| Copy (dst src : ptr) (s : Z) (cls : bool).

Definition val_ok (v : elem) (s : Z) : bool := Z.of_nat (length v) =? s.

Definition exec1 (m : mem) (op : mop) : result mem :=
  match op with
  | Construct p s cls v =>
      match chk_bounds m p s with
      | Some f => Fault f
      | None =>
          if negb (val_ok v s) then Fault BadType
          else if cls && live m p then Fault ConstructLive
          else Val (if cls then set_live (write m p v) p true else write m p v)
      end
  | Destroy p s cls =>
      match chk_bounds m p s with
      | Some f => Fault f
      | None =>
          if cls then
            if live m p then Val (set_live (write m p (repeat None (Z.to_nat s))) p false)
            else Fault DestroyDead
          else Val m
      end
  | Assign p s cls v =>
      match chk_bounds m p s with
      | Some f => Fault f
      | None =>
          if negb (val_ok v s) then Fault BadType
          else if cls && negb (live m p) then Fault AssignDead
          else Val (write m p v)
      end
  | Copy d q s cls =>
      match chk_bounds m q s, chk_bounds m d s with
      | Some f, _ => Fault f
      | _, Some f => Fault f
      | None, None =>
          if cls && negb (live m q) then Fault ReadDead
          else if cls && negb (live m d) then Fault AssignDead
          else Val (write m d (read m q s))
      end
  end.

Fixpoint exec (ops : list mop) (m : mem) : result mem :=
  match ops with
  | [] => Val m
  | op :: r => match exec1 m op with Val m' => exec r m' | Fault f => Fault f end
  end.

(** Reading one element into a value outside the modelled memory ([c.member = *p]). *)
Definition read_elem (m : mem) (p : ptr) (s : Z) (cls : bool) : result elem :=
  match chk_bounds m p s with
  | Some f => Fault f
  | None => if cls && negb (live m p) then Fault ReadDead else Val (read m p s)
  end.

Fixpoint mapR {A B : Type} (f : A -> result B) (l : list A) : result (list B) :=
  match l with
  | [] => Val []
  | a :: r =>
      match f a with
      | Fault x => Fault x
      | Val b => match mapR f r with Fault x => Fault x | Val bs => Val (b :: bs) end
      end
  end.

(** ALLOCATOR().allocate(n): a fresh block of indeterminate bytes; failure is not
    modelled. See Alloc.v for aligned_allocator itself. *)
Definition alloc (m : mem) (n : Z) : mem * ptr :=
  let b := mnext m in
  (mkMem (S b)
         (fun b' => if Nat.eqb b' b then Some n else msize m b')
         (fun b' o => if Nat.eqb b' b then None else mval m b' o)
         (fun b' o => if Nat.eqb b' b then false else mlive m b' o),
   mkPtr b 0).

(** ALLOCATOR().deallocate(p, n): must be what allocate(n) returned, and no object of
    class type may be alive in it. *)
Definition free (m : mem) (p : ptr) (n : Z) : result mem :=
  match msize m (pb p) with
  | None => Fault Dangling
  | Some k =>
      if negb ((po p =? 0) && (n =? k)) then Fault BadFree
      else if existsb (fun o => mlive m (pb p) o) (zseq k) then Fault FreeLive
      else Val (mkMem (mnext m)
                      (fun b => if Nat.eqb b (pb p) then None else msize m b)
                      (mval m) (mlive m))
  end.
