(** Bulk functions of soa_accessor as lists of element operations in program order.
    The four accessor classes (soa_accessor, const_soa_accessor, soa_accessor_light,
    const_soa_accessor_light) expand the same macros; the light ones read the index
    through a pointer. Model only; proofs are in AccessorProofs.v. *)
From Coq Require Import ZArith List Bool.
From Verif Require Import Base Layout Mem.
Import ListNotations.
Open Scope Z_scope.

(** What LIBFLATARRAY_FOR_EACH hands to the member macros: MEMBER_INDEX, and with it
    offset<CELL, MEMBER_INDEX>::OFFSET, and the member
    (include/libflatarray/macros.hpp:101-104, detail/macros.hpp:47-57). *)
Fixpoint members_from (j : nat) (o : Z) (ms : list member) : list (nat * Z * member) :=
  match ms with
  | [] => []
  | m :: r => (j, o, m) :: members_from (S j) (o + m_size m * Z.of_nat (m_count m)) r
  end.
Definition members_ix (ms : list member) : list (nat * Z * member) := members_from 0 0 ms.

(** A CELL object held by the caller: per member its elements (one for a scalar
    member, N for an array member). *)
Definition cell := list (list elem).

(** &member<k>() / &member(): include/libflatarray/detail/macros.hpp:92-107 (cf.
    [member_addr] in Layout.v). [d] is my_data. *)
Definition eptr (d : ptr) (a : accessor) (o : Z) (m : member) (k : Z) : ptr :=
  padd d (DIM_PROD (a_ext a) *
            (m_size m * match m_array m with None => 0 | Some _ => k end + o)
          + a_index a * m_size m
          + a_INDEX a * m_size m).

(** &member()[k] for an array member (detail/macros.hpp:109-125,
    detail/soa_array_member_copy_helper.hpp:150-170). *)
Definition rptr (d : ptr) (a : accessor) (o : Z) (m : member) (k : Z) : ptr :=
  padd (eptr d a o m 0) (k * DIM_PROD (a_ext a) * m_size m).

(** The values of [for (i = 0; i < ARITY; ++i)]. *)
Definition arity_seq (n : nat) : list Z := map Z.of_nat (seq 0 n).

(** construct_members(): macros.hpp:296-304, detail/macros.hpp:275-293. *)
Definition construct_members_ops (d : ptr) (a : accessor) (ms : list member) : list mop :=
  flat_map (fun e => let '(_, o, m) := e in
    match m_array m with
    | None => [Construct (eptr d a o m 0) (m_size m) (m_class m) (m_default m)]
    | Some n => map (fun k => Construct (rptr d a o m k) (m_size m) (m_class m) (m_default m)) (arity_seq n)
    end) (members_ix ms).

(** destroy_members(): macros.hpp:306-314, detail/macros.hpp:295-314. *)
Definition destroy_members_ops (d : ptr) (a : accessor) (ms : list member) : list mop :=
  flat_map (fun e => let '(_, o, m) := e in
    match m_array m with
    | None => [Destroy (eptr d a o m 0) (m_size m) (m_class m)]
    | Some n => map (fun k => Destroy (rptr d a o m k) (m_size m) (m_class m)) (arity_seq n)
    end) (members_ix ms).

(** operator=(cell) / operator<<(cell): macros.hpp:227-242, detail/macros.hpp:139-159;
    copy_in<ARITY>: detail/soa_array_member_copy_helper.hpp:202-234, the recursion
    handles index INDEX-1 after copy_in<INDEX-1>, i.e. ascending;
    data[SIZE * k] with data = &member<0>(). *)
Definition assign_ops (d : ptr) (a : accessor) (ms : list member) (c : cell) : list mop :=
  flat_map (fun e => let '(j, o, m) := e in
    match m_array m with
    | None => [Assign (eptr d a o m 0) (m_size m) (m_class m) (nth 0 (nth j c []) [])]
    | Some n =>
        map (fun k => Assign (padd (eptr d a o m 0) ((DIM_PROD (a_ext a) * Z.of_nat k) * m_size m))
                             (m_size m) (m_class m) (nth k (nth j c []) [])) (seq 0 n)
    end) (members_ix ms).

(** operator>>(cell): macros.hpp:244-252, detail/macros.hpp:161-181; copy_out:
    detail/soa_array_member_copy_helper.hpp:236-268. *)
Definition read_cell (m0 : mem) (d : ptr) (a : accessor) (ms : list member) : result cell :=
  mapR (fun e => let '(_, o, m) := e in
    match m_array m with
    | None => mapR (fun k => read_elem m0 (eptr d a o m 0) (m_size m) (m_class m)) [0]
    | Some n =>
        mapR (fun k => read_elem m0 (padd (eptr d a o m 0) ((DIM_PROD (a_ext a) * k) * m_size m))
                                 (m_size m) (m_class m)) (arity_seq n)
    end) (members_ix ms).

(** load(source, count, offset, stride): macros.hpp:254-273, detail/macros.hpp:183-214;
    copy_array_in: detail/soa_array_member_copy_helper.hpp:42-89. *)
Definition load_ops (d : ptr) (a : accessor) (ms : list member)
                    (source : ptr) (count off stride : Z) : list mop :=
  flat_map (fun e => let '(_, o, m) := e in
    match m_array m with
    | None =>
        map (fun i => Copy (padd (eptr d a o m 0) (i * m_size m))
                           (padd (padd source (o * stride)) ((off + i) * m_size m))
                           (m_size m) (m_class m)) (zseq count)
    | Some n =>
        flat_map (fun k =>
          map (fun i => Copy (padd (rptr d a o m 0) ((DIM_PROD (a_ext a) * k + i) * m_size m))
                             (padd (padd source (o * stride)) ((stride * k + off + i) * m_size m))
                             (m_size m) (m_class m)) (zseq count)) (arity_seq n)
    end) (members_ix ms).

(** save(target, count, offset, stride): macros.hpp:275-294, detail/macros.hpp:217-248;
    copy_array_out: detail/soa_array_member_copy_helper.hpp:91-138. *)
Definition save_ops (d : ptr) (a : accessor) (ms : list member)
                    (target : ptr) (count off stride : Z) : list mop :=
  flat_map (fun e => let '(_, o, m) := e in
    match m_array m with
    | None =>
        map (fun i => Copy (padd (padd target (o * stride)) ((off + i) * m_size m))
                           (padd (eptr d a o m 0) (i * m_size m))
                           (m_size m) (m_class m)) (zseq count)
    | Some n =>
        flat_map (fun k =>
          map (fun i => Copy (padd (padd target (o * stride)) ((stride * k + off + i) * m_size m))
                             (padd (rptr d a o m 0) ((DIM_PROD (a_ext a) * k + i) * m_size m))
                             (m_size m) (m_class m)) (zseq count)) (arity_seq n)
    end) (members_ix ms).

(** copy_members(other, count): macros.hpp:316-325, detail/macros.hpp:250-272;
    std::copy as ascending element-wise assignment. [other] may have other extents. *)
Definition copy_members_ops (d : ptr) (a : accessor) (ms : list member)
                            (d' : ptr) (a' : accessor) (count : Z) : list mop :=
  flat_map (fun e => let '(_, o, m) := e in
    match m_array m with
    | None =>
        map (fun i => Copy (padd (eptr d a o m 0) (i * m_size m))
                           (padd (eptr d' a' o m 0) (i * m_size m))
                           (m_size m) (m_class m)) (zseq count)
    | Some n =>
        flat_map (fun k =>
          map (fun i => Copy (padd (rptr d a o m k) (i * m_size m))
                             (padd (rptr d' a' o m k) (i * m_size m))
                             (m_size m) (m_class m)) (zseq count)) (arity_seq n)
    end) (members_ix ms).
