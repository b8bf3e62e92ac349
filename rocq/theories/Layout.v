(** Struct-of-arrays layout: member offsets, storage indices, element addresses.
    Model only; proofs are in LayoutProofs.v, statements in PropsLayout.v. *)
From Coq Require Import ZArith List Bool.
From Coq Require Import Init.Byte.
Import ListNotations.
Open Scope Z_scope.

(** One byte of storage; [None] is an indeterminate byte. *)
Definition memval := option byte.

(** Object representation of one member element: its [sizeof] bytes.
    Simplification: for class types the bytes are an opaque token of the value. *)
Definition elem := list memval.

(** One entry of the member list given to LIBFLATARRAY_REGISTER_SOA
    (include/libflatarray/macros.hpp:71-101): [((T)(name))] or [((T)(name)(N))].
    [m_size] is sizeof(T); [m_array] is [None] for a scalar member and [Some N]
    for an array member; [m_class] says T is a class type with non-trivial
    construction/destruction; [m_default] are the bytes of [T()]. *)
Record member := mkMember {
  m_size : Z;
  m_array : option nat;
  m_class : bool;
  m_default : elem }.

(** LIBFLATARRAY_ARRAY_CONDITIONAL(MEMBER, 1, LIBFLATARRAY_ARRAY_ARITY(MEMBER)),
    include/libflatarray/detail/macros.hpp:38-42, 54-57. *)
Definition m_count (m : member) : nat :=
  match m_array m with None => 1%nat | Some n => n end.

(** detail::flat_array::offset<CELL, r>::OFFSET,
    include/libflatarray/detail/macros.hpp:47-57 and detail/offset.hpp:39-43.
    [None]: the specialization does not exist (no such member). *)
Fixpoint offset (ms : list member) (r : nat) : option Z :=
  match r with
  | O => Some 0
  | S r' =>
      match offset ms r', nth_error ms r' with
      | Some o, Some m =>
          Some (o + m_size m *
                    match m_array m with None => 1 | Some n => Z.of_nat n end)
      | _, _ => None
      end
  end.

(** aggregated_member_size<CELL>::VALUE = offset<CELL, number_of_members>::OFFSET,
    include/libflatarray/macros.hpp:109-127. *)
Definition agg_size (ms : list member) : option Z := offset ms (length ms).

(** set_byte_size_functor::operator(): *byte_size = aggregated_member_size * DIM_X * DIM_Y * DIM_Z,
    include/libflatarray/detail/set_byte_size_functor.hpp:38-58 (the record [extent]
    is declared below; here the three DIMs are passed separately). *)
Definition byte_size_of (ms : list member) (dx dy dz : Z) : option Z :=
  match agg_size ms with
  | Some t => Some (t * dx * dy * dz)
  | None => None
  end.

(** Template parameters MY_DIM_X/Y/Z of an accessor,
    include/libflatarray/macros.hpp:129-137. *)
Record extent := mkExt { DIM_X : Z; DIM_Y : Z; DIM_Z : Z }.

(** DIM_PROD, include/libflatarray/macros.hpp:138. *)
Definition DIM_PROD (e : extent) : Z := DIM_X e * DIM_Y e * DIM_Z e.

(** gen_index(x, y, z), include/libflatarray/macros.hpp:140-157. *)
Definition gen_index (e : extent) (x y z : Z) : Z :=
  z * DIM_X e * DIM_Y e + y * DIM_X e + x.

(** LIBFLATARRAY_INDEX(X, Y, Z, DIM_X, DIM_Y, DIM_Z, INDEX),
    include/libflatarray/detail/macros.hpp:30-31. *)
Definition LFA_INDEX (X Y Zc : Z) (e : extent) (INDEX : Z) : Z :=
  INDEX + Zc * (DIM_X e * DIM_Y e) + Y * DIM_X e + X.

(** The state of an accessor object relative to its data pointer:
    run-time [my_index] and the template parameter [INDEX]
    (include/libflatarray/macros.hpp:129-164, 385-388). The light accessors
    (537-786) share [my_index] with their origin by pointer; see [with_index]. *)
Record accessor := mkAcc { a_ext : extent; a_index : Z; a_INDEX : Z }.

(** operator[](coord<X, Y, Z>), include/libflatarray/macros.hpp:207-225:
    same data and my_index, INDEX replaced via LIBFLATARRAY_PARAMS. *)
Definition at_coord (a : accessor) (c : Z * Z * Z) : accessor :=
  let '(X, Y, Zc) := c in
  mkAcc (a_ext a) (a_index a) (LFA_INDEX X Y Zc (a_ext a) (a_INDEX a)).

(** operator+= and ++, include/libflatarray/macros.hpp:193-205. *)
Definition acc_add (a : accessor) (d : Z) : accessor :=
  mkAcc (a_ext a) (a_index a + d) (a_INDEX a).

(** The light accessor holds a pointer to its origin's index
    (include/libflatarray/macros.hpp:537-571): reading it after the origin
    moved to [i] uses [i]. *)
Definition with_index (a : accessor) (i : Z) : accessor :=
  mkAcc (a_ext a) i (a_INDEX a).

(** Address of member<ARRAY_INDEX>() / member() relative to my_data,
    include/libflatarray/detail/macros.hpp:92-107. [k] is ARRAY_INDEX for array
    members; for scalar members LIBFLATARRAY_ARRAY_CONDITIONAL puts 0. *)
Definition member_addr (ms : list member) (a : accessor) (j : nat) (k : Z) : option Z :=
  match nth_error ms j, offset ms j with
  | Some m, Some o =>
      Some (DIM_PROD (a_ext a) *
              (m_size m * match m_array m with None => 0 | Some _ => k end + o)
            + a_index a * m_size m
            + a_INDEX a * m_size m)
  | _, _ => None
  end.

(** member()[k] for array members: reference(&member<0>())[k],
    include/libflatarray/detail/macros.hpp:109-125 and
    detail/soa_array_member_copy_helper.hpp:150-170. *)
Definition member_ref_addr (ms : list member) (a : accessor) (j : nat) (k : Z) : option Z :=
  match nth_error ms j, member_addr ms a j 0 with
  | Some m, Some b =>
      match m_array m with
      | None => None
      | Some _ => Some (b + (k * DIM_PROD (a_ext a)) * m_size m)
      end
  | _, _ => None
  end.

(** access_member<MEMBER_TYPE, OFFSET>(), include/libflatarray/macros.hpp:327-338;
    [s] is sizeof(MEMBER_TYPE). *)
Definition access_member_t (ms : list member) (a : accessor) (s : Z) (j : nat) : option Z :=
  match offset ms j with
  | Some o => Some (DIM_PROD (a_ext a) * o + a_index a * s + a_INDEX a * s)
  | None => None
  end.

(** access_member(size_of_member, offset), include/libflatarray/macros.hpp:340-349. *)
Definition access_member_rt (a : accessor) (s o : Z) : Z :=
  DIM_PROD (a_ext a) * o + a_index a * s + a_INDEX a * s.

(** A pointer to a data member of the cell class: its type (size, array arity,
    type tag) and its identity. Simplification: a type is a number. *)
Record member_ptr := mkMP { mp_type : nat; mp_array : option nat; mp_id : nat }.

(** Registered member as the lookup sees it: element type, arity, identity. *)
Record reg_member := mkReg { rm_type : nat; rm_array : option nat; rm_id : nat; rm_size : Z }.

Definition rm_member (r : reg_member) : member :=
  mkMember (rm_size r) (rm_array r) false [].

(** offset<CELL, r>::operator()(member_ptr): overload set of
    include/libflatarray/detail/macros.hpp:59-87 and detail/offset.hpp:45-49.
    [None] stands for the thrown std::invalid_argument. The exact-type overload
    (66-80) is chosen when type and array arity match; the ARITY template
    (82-87) when only the element type matches; else the generic one (59-64);
    the last two just recurse. *)
Definition mp_overload_exact (p : member_ptr) (r : reg_member) : bool :=
  Nat.eqb (mp_type p) (rm_type r) &&
  match mp_array p, rm_array r with
  | None, None => true
  | Some a, Some b => Nat.eqb a b
  | _, _ => false
  end.

Fixpoint mp_lookup (rs : list reg_member) (r : nat) (p : member_ptr) : option Z :=
  match r with
  | O => None
  | S r' =>
      match nth_error rs r' with
      | None => None
      | Some rm =>
          if mp_overload_exact p rm then
            if Nat.eqb (mp_id p) (rm_id rm)
            then offset (map rm_member rs) r'
            else mp_lookup rs r' p
          else mp_lookup rs r' p
      end
  end.

(** member_ptr_to_offset::operator(), include/libflatarray/member_ptr_to_offset.hpp:23-33. *)
Definition member_ptr_to_offset (rs : list reg_member) (p : member_ptr) : option Z :=
  mp_lookup rs (length rs) p.

(** The same address computed in 64-bit arithmetic. [sizeof] is size_t, DIM_PROD
    and the indices are long; mixed products are evaluated in unsigned long, sums
    are modulo 2^64 (include/libflatarray/detail/macros.hpp:99-106). Signed
    overflow of [long] products (my_index * long(sizeof)) is undefined in C++;
    [None] marks it. *)
Definition wrap64 (v : Z) : Z := v mod 2 ^ 64.
Definition in_i64 (v : Z) : bool := (- 2 ^ 63 <=? v) && (v <? 2 ^ 63).
Definition chk64 (v : Z) : option Z := if in_i64 v then Some v else None.

Definition dim_prod64 (e : extent) : option Z :=
  match chk64 (DIM_X e * DIM_Y e) with
  | Some xy => chk64 (xy * DIM_Z e)
  | None => None
  end.

Definition gen_index64 (e : extent) (x y z : Z) : option Z :=
  match chk64 (z * DIM_X e) with
  | Some zx =>
      match chk64 (zx * DIM_Y e), chk64 (y * DIM_X e) with
      | Some zxy, Some yx =>
          match chk64 (zxy + yx) with
          | Some s => chk64 (s + x)
          | None => None
          end
      | _, _ => None
      end
  | None => None
  end.

Definition member_addr64 (ms : list member) (a : accessor) (j : nat) (k : Z) : option Z :=
  match nth_error ms j, offset ms j, dim_prod64 (a_ext a) with
  | Some m, Some o, Some p =>
      let inner := wrap64 (wrap64 (m_size m * match m_array m with None => 0 | Some _ => k end)
                           + wrap64 o) in
      match chk64 (a_index a * m_size m), chk64 (a_INDEX a * m_size m) with
      | Some i1, Some i2 =>
          Some (wrap64 (wrap64 (wrap64 (wrap64 p * inner) + wrap64 i1) + wrap64 i2))
      | _, _ => None
      end
  | _, _, _ => None
  end.
