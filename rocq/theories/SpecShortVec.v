(** What the short_vec classes are expected to do.  Stated on lanes; nothing
    here refers to the bodies of the member functions. *)
From Coq Require Import String ZArith Bool List.
From Verif Require Import ShortVecLang ShortVecClass.
Import ListNotations.
Local Open Scope Z_scope.

Section Spec.
Context {T : Type}.

(** v is an object of class c whose lane i is x i. *)
Definition is_vec (c : cls) (v : list (list T)) (x : nat -> T) : Prop :=
  length v = c_nreg c /\ Forall (fun r => length r = c_lanes c) v /\
  concat v = map x (seq 0 (c_arity c)).

(** The call returns an object with lanes y, leaves the lanes x of the object
    it is called on alone and touches no memory. *)
Definition returns_vec (c : cls) (o : option (result T)) (x y : nat -> T) : Prop :=
  exists r v, o = Some r /\ r_ret r = RVec v /\ is_vec c v y /\ is_vec c (r_val r) x /\
    r_reads r = [] /\ r_writes r = [].

(** The call sets the lanes of the object to y and touches no memory. *)
Definition sets_vec (c : cls) (o : option (result T)) (y : nat -> T) : Prop :=
  exists r, o = Some r /\ r_ret r = RVoid /\ is_vec c (r_val r) y /\
    r_reads r = [] /\ r_writes r = [].

(** The call returns the single element t, without any effect. *)
Definition returns_elem (c : cls) (o : option (result T)) (x : nat -> T) (t : T) : Prop :=
  exists r, o = Some r /\ r_ret r = RVal (VReg [t]) /\ is_vec c (r_val r) x /\
    r_reads r = [] /\ r_writes r = [].

(** The element of data, offsets and ptr at index i. *)
Definition data_at (i : nat) : address T := AData (Z.of_nat i).
Definition off_at (i : nat) : address T := AOff (Z.of_nat i).

(** The call sets the lanes of the object to data[0], ..., data[n-1], where n
    is the arity; it reads these elements, each once and in this order, and
    nothing else. *)
Definition loads (c : cls) (o : option (result T)) (data : Z -> T) : Prop :=
  exists r, o = Some r /\ r_ret r = RVoid /\
    is_vec c (r_val r) (fun i => data (Z.of_nat i)) /\
    r_reads r = map data_at (seq 0 (c_arity c)) /\ r_writes r = [].

(** The call writes lane i to data[i] for every i below the arity, each once
    and in this order, writes and reads nothing else, and leaves the object
    alone. *)
Definition stores (c : cls) (o : option (result T)) (x : nat -> T) : Prop :=
  exists r, o = Some r /\ r_ret r = RVoid /\ is_vec c (r_val r) x /\ r_reads r = [] /\
    r_writes r = map (fun i => (data_at i, x i)) (seq 0 (c_arity c)).

(** The call sets lane i to ptr[offsets[i]]; it reads offsets[0], ...,
    offsets[n-1] and ptr at these offsets, nothing else. *)
Definition gathers (c : cls) (o : option (result T)) (offs : Z -> T) (ptr : T -> T) : Prop :=
  exists r, o = Some r /\ r_ret r = RVoid /\ r_writes r = [] /\
    is_vec c (r_val r) (fun i => ptr (offs (Z.of_nat i))) /\
    forall a, In a (r_reads r) ->
      exists i, (i < c_arity c)%nat /\
        (a = off_at i \/ a = APtrAt (offs (Z.of_nat i))).

(** The call writes lane i to ptr[offsets[i]] in lane order (so that the
    highest lane wins), reads nothing but offsets[0], ..., offsets[n-1] and
    leaves the object alone. *)
Definition scatters (c : cls) (o : option (result T)) (offs : Z -> T) (x : nat -> T) : Prop :=
  exists r, o = Some r /\ r_ret r = RVoid /\ is_vec c (r_val r) x /\
    r_writes r = map (fun i => (APtrAt (offs (Z.of_nat i)), x i)) (seq 0 (c_arity c)) /\
    forall a, In a (r_reads r) -> exists i, (i < c_arity c)%nat /\ a = off_at i.

(** Contents of a region of memory after some writes. *)
Fixpoint mem_after (eqb : address T -> address T -> bool) (ws : list (address T * T))
    (a : address T) (old : T) : T :=
  match ws with
  | [] => old
  | (b, t) :: r => mem_after eqb r a (if eqb b a then t else old)
  end.

(** An element address lies mis elements past a 64 byte boundary. *)
Definition mis_ok (c : cls) (mis : Z) : Prop := 0 <= mis < 64 / esize (c_kind c).
(** The same for offsets, a pointer to 32 bit integers. *)
Definition omis_ok (omis : Z) : Prop := 0 <= omis < 16.
(** The address is a multiple of n. *)
Definition aligned_to (c : cls) (n mis : Z) : Prop := (mis * esize (c_kind c)) mod n = 0.

(** A mask of class c says p i for lane i: an integer with bit i equal to p i,
    or a vector with all bits of lane i equal to p i. *)
Definition is_mask (A : alg T) (c : cls) (m : rvalue T) (p : nat -> T) : Prop :=
  match c_mask c with
  | MInt n => (c_arity c <= n)%nat /\
              m = RVal (VBits (map (fun i => Some (p i)) (seq 0 (c_arity c))))
  | MVec => exists v, m = RVec v /\ is_vec c v (fun i => a_un A (UFill (c_kind c)) (p i))
  | MReg => exists l, m = RVal (VReg l) /\ is_vec c [l] (fun i => a_un A (UFill (c_kind c)) (p i))
  | MNone => False
  end.

(** The call returns a mask saying p and has no effect. *)
Definition returns_mask (A : alg T) (c : cls) (o : option (result T)) (x p : nat -> T) : Prop :=
  exists r, o = Some r /\ is_mask A c (r_ret r) p /\ is_vec c (r_val r) x /\
    r_reads r = [] /\ r_writes r = [].

(** Laws of the bitwise operations on registers.  [truth] tells whether a
    condition holds, [full k b] is the lane with all bits equal to b, [word k]
    are the bit patterns of a lane. *)
Record bit_laws (A : alg T) (truth : T -> bool) (full : ekind -> bool -> T)
    (word : ekind -> T -> Prop) : Prop := {
  bl_fill : forall k c, a_un A (UFill k) c = full k (truth c);
  bl_sel : forall c x y, a_sel A c x y = if truth c then x else y;
  bl_or : forall k a b, a_bin A BOr (full k a) (full k b) = full k (a || b);
  bl_and : forall k a b, a_bin A BAnd (full k a) (full k b) = full k (a && b);
  bl_nonzero : forall k b, truth (a_un A UNonZero (full k b)) = b;
  bl_truth : forall k b, truth (a_un A (UTruth k) (full k b)) = b;
  bl_msb : forall k b, truth (a_un A (UMsb k) (full k b)) = b;
  bl_lor : forall a b, truth (a_bin A BLOr a b) = truth a || truth b;
  bl_not : forall a, truth (a_un A UNot a) = negb (truth a);
  bl_and_word : forall k b x, word k x ->
    a_bin A BAnd (full k b) x = if b then x else full k false;
  bl_andnot_word : forall k b x, word k x ->
    a_bin A BAndNot (full k b) x = if b then full k false else x;
  bl_or_left : forall k x, word k x -> a_bin A BOr x (full k false) = x;
  bl_or_right : forall k x, word k x -> a_bin A BOr (full k false) x = x }.

(** A value used as a condition. *)
Definition holds (A : alg T) (truth : T -> bool) (k : ekind) (v : value T) : option bool :=
  match v with
  | VInt z => Some (negb (z =? 0))
  | VBits l => Some (existsb (fun o => match o with Some t => truth t | None => false end) l)
  | VReg [t] => Some (truth (a_un A (UTruth k) t))
  | _ => None
  end.

(** What the call sends to the stream is "[", the lanes in order with ", "
    between them, and "]". *)
Fixpoint listing (l : list T) : list (string + T) :=
  match l with
  | [] => []
  | [t] => [inr t]
  | t :: r => inr t :: inl ", "%string :: listing r
  end.

Definition prints (c : cls) (o : option (list (string + T))) (x : nat -> T) : Prop :=
  o = Some (inl "["%string :: listing (map x (seq 0 (c_arity c))) ++ [inl "]"%string]).

(** Number of lanes of a mask that are set. *)
Definition lanes_set (truth : T -> bool) (p : nat -> T) (n : nat) : Z :=
  Z.of_nat (length (filter (fun i => truth (p i)) (seq 0 n))).

End Spec.
