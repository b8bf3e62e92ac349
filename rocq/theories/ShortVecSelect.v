(** Which short_vec class a configuration gets: the instruction set chosen by
    the preprocessor, the guards of the headers that define the classes, the
    arity computed by ilp_to_arity and the choice between short_vec and
    streaming_short_vec.

    Only which macros are defined matters.  An identifier that is defined
    twice (a macro redefined with another value, a static member declared
    twice) or not at all makes the program ill-formed: None. *)
From Coq Require Import String ZArith Bool List.
From Verif Require Import ShortVecLang ShortVecClass ShortVecApi.
From Verif Require Import ShortVecScalar ShortVecSse ShortVecAvx ShortVecAvx512
  ShortVecNeon ShortVecMic ShortVecQpx.
Import ListNotations.
Local Open Scope Z_scope.

(** A compiler target: the macros it predefines and the widths of its
    integers. *)
Record target := mkTarget {
  d_cuda_arch : bool;        (* __CUDA_ARCH__ *)
  d_vector4double : bool;    (* __VECTOR4DOUBLE__ *)
  d_arm_neon : bool;         (* __ARM_NEON__ *)
  d_mic : bool;              (* __MIC__ *)
  d_avx512f : bool;          (* __AVX512F__ *)
  d_avx2 : bool;             (* __AVX2__ *)
  d_avx : bool;              (* __AVX__ *)
  d_sse4_1 : bool;           (* __SSE4_1__ *)
  d_sse2 : bool;             (* __SSE2__ *)
  d_sse : bool;              (* __SSE__ *)
  d_gnuc : option Z;         (* __GNUC__ *)
  d_clang : option Z;        (* __clang_major__, defined with __clang__ *)
  size_bits : Z;             (* bits of std::size_t *)
  long_bits : Z              (* bits of long *) }.

(** short_vec.hpp:274-283 *)
Inductive isa := Scalar | Qpx | Neon | Mic | Avx512f | Avx | Avx2 | Sse | Sse2 | Sse41.

Definition isa_eqb (a b : isa) : bool :=
  match a, b with
  | Scalar, Scalar | Qpx, Qpx | Neon, Neon | Mic, Mic | Avx512f, Avx512f
  | Avx, Avx | Avx2, Avx2 | Sse, Sse | Sse2, Sse2 | Sse41, Sse41 => true
  | _, _ => false
  end.

(** An identifier defined exactly once. *)
Definition the_one {B : Type} (l : list B) : option B :=
  match l with [b] => Some b | _ => None end.

(** A compiler whose version is unknown, or recent enough. *)
Definition at_least (n : Z) (v : option Z) : bool :=
  match v with None => true | Some m => n <=? m end.

(** LFA_AVX512_HELPER (short_vec.hpp:300-304); not reached on CUDA devices. *)
Definition avx512_helper (t : target) : bool :=
  negb (d_cuda_arch t) && d_avx512f t && at_least 7 (d_gnuc t) && at_least 4 (d_clang t).

(** The definitions of LIBFLATARRAY_WIDEST_VECTOR_ISA that survive
    preprocessing (short_vec.hpp:285-342). *)
Definition isa_defs (t : target) : list isa :=
  if d_cuda_arch t then [Scalar] else
  let before := (if d_vector4double t then [Qpx] else []) ++
                (if d_arm_neon t then [Neon] else []) in
  match before with
  | [] =>
    [if d_mic t then Mic else
     if avx512_helper t then Avx512f else
     if d_avx2 t then Avx2 else
     if d_avx t then Avx else
     if d_sse4_1 t then Sse41 else
     if d_sse2 t then Sse2 else
     if d_sse t then Sse else Scalar]
  | _ => before
  end.

Definition widest_isa (t : target) : option isa := the_one (isa_defs t).

(** A header of detail/ defining short_vec<kind, arity>: the instruction sets
    its guard lists (None: it has no guard) and the variants of the class,
    which depend on __SSE4_1__, __AVX2__, LIBFLATARRAY_WITH_INCREASED_PRECISION
    and __LP64__. *)
Record header := mkHeader {
  h_kind : ekind;
  h_arity : Z;
  h_guard : option (list isa);
  h_variants : list cls }.

(** The headers short_vec.hpp:344-419 includes; cited are the lines of the
    guard and of the class head. *)
Definition headers : list header :=
  [
   (* short_vec_avx512_double_8.hpp:12, 47 *)
   mkHeader KF64 8 (Some [Avx512f])
     [cls_avx512_double_8];
   (* short_vec_avx512_double_16.hpp:12, 48 *)
   mkHeader KF64 16 (Some [Avx512f])
     [cls_avx512_double_16];
   (* short_vec_avx512_double_32.hpp:12, 47 *)
   mkHeader KF64 32 (Some [Avx512f])
     [cls_avx512_double_32];
   (* short_vec_avx512_float_16.hpp:12, 50 *)
   mkHeader KF32 16 (Some [Avx512f])
     [cls_avx512_float_16];
   (* short_vec_avx512_float_32.hpp:13, 51 *)
   mkHeader KF32 32 (Some [Avx512f])
     [cls_avx512_float_32];
   (* short_vec_avx_double_4.hpp:12-14, 49 *)
   mkHeader KF64 4 (Some [Avx; Avx2; Avx512f])
     [cls_avx_double_4; cls_avx_double_4_2];
   (* short_vec_avx_double_8.hpp:12, 47 *)
   mkHeader KF64 8 (Some [Avx; Avx2])
     [cls_avx_double_8; cls_avx_double_8_2];
   (* short_vec_avx_double_16.hpp:12, 47 *)
   mkHeader KF64 16 (Some [Avx; Avx2])
     [cls_avx_double_16; cls_avx_double_16_2];
   (* short_vec_avx_double_32.hpp:12, 47 *)
   mkHeader KF64 32 (Some [Avx; Avx2])
     [cls_avx_double_32; cls_avx_double_32_2];
   (* short_vec_avx_float_8.hpp:12-14, 52 *)
   mkHeader KF32 8 (Some [Avx; Avx2; Avx512f])
     [cls_avx_float_8; cls_avx_float_8_2];
   (* short_vec_avx_float_16.hpp:12, 50 *)
   mkHeader KF32 16 (Some [Avx; Avx2])
     [cls_avx_float_16; cls_avx_float_16_2];
   (* short_vec_avx_float_32.hpp:12, 50 *)
   mkHeader KF32 32 (Some [Avx; Avx2])
     [cls_avx_float_32; cls_avx_float_32_2];
   (* short_vec_scalar_double_1.hpp:no guard, 51 *)
   mkHeader KF64 1 (None)
     [cls_scalar_double_1];
   (* short_vec_scalar_double_2.hpp:12-15, 54 *)
   mkHeader KF64 2 (Some [Scalar; Neon; Qpx; Mic])
     [cls_scalar_double_2];
   (* short_vec_scalar_double_4.hpp:12-14, 53 *)
   mkHeader KF64 4 (Some [Scalar; Neon; Mic])
     [cls_scalar_double_4];
   (* short_vec_scalar_double_8.hpp:12-13, 52 *)
   mkHeader KF64 8 (Some [Scalar; Neon])
     [cls_scalar_double_8];
   (* short_vec_scalar_double_16.hpp:13-14, 54 *)
   mkHeader KF64 16 (Some [Scalar; Neon])
     [cls_scalar_double_16];
   (* short_vec_scalar_double_32.hpp:12-13, 53 *)
   mkHeader KF64 32 (Some [Scalar; Neon])
     [cls_scalar_double_32];
   (* short_vec_scalar_float_1.hpp:no guard, 51 *)
   mkHeader KF32 1 (None)
     [cls_scalar_float_1];
   (* short_vec_scalar_float_2.hpp:no guard, 49 *)
   mkHeader KF32 2 (None)
     [cls_scalar_float_2];
   (* short_vec_scalar_float_4.hpp:12-14, 53 *)
   mkHeader KF32 4 (Some [Scalar; Qpx; Mic])
     [cls_scalar_float_4];
   (* short_vec_scalar_float_8.hpp:13-15, 55 *)
   mkHeader KF32 8 (Some [Scalar; Qpx; Mic])
     [cls_scalar_float_8];
   (* short_vec_scalar_float_16.hpp:12-13, 53 *)
   mkHeader KF32 16 (Some [Scalar; Qpx])
     [cls_scalar_float_16];
   (* short_vec_scalar_float_32.hpp:12, 52 *)
   mkHeader KF32 32 (Some [Scalar])
     [cls_scalar_float_32];
   (* short_vec_scalar_int_1.hpp:no guard, 51 *)
   mkHeader KI32 1 (None)
     [cls_scalar_int_1];
   (* short_vec_scalar_int_2.hpp:no guard, 49 *)
   mkHeader KI32 2 (None)
     [cls_scalar_int_2];
   (* short_vec_scalar_int_4.hpp:12-15, 54 *)
   mkHeader KI32 4 (Some [Scalar; Neon; Mic; Qpx])
     [cls_scalar_int_4];
   (* short_vec_scalar_int_8.hpp:13-16, 56 *)
   mkHeader KI32 8 (Some [Scalar; Neon; Mic; Qpx])
     [cls_scalar_int_8];
   (* short_vec_scalar_int_16.hpp:13-16, 56 *)
   mkHeader KI32 16 (Some [Scalar; Neon; Mic; Qpx])
     [cls_scalar_int_16];
   (* short_vec_scalar_int_32.hpp:32-35, 56 *)
   mkHeader KI32 32 (Some [Scalar; Neon; Mic; Qpx])
     [cls_scalar_int_32];
   (* short_vec_sse_int_4.hpp:12-17, 59 *)
   mkHeader KI32 4 (Some [Sse; Sse2; Sse41; Avx; Avx2; Avx512f])
     [cls_sse_int_4; cls_sse_int_4_41];
   (* short_vec_sse_int_8.hpp:12-15, 59 *)
   mkHeader KI32 8 (Some [Sse; Sse2; Sse41; Avx])
     [cls_sse_int_8; cls_sse_int_8_41];
   (* short_vec_sse_int_16.hpp:12-15, 59 *)
   mkHeader KI32 16 (Some [Sse; Sse2; Sse41; Avx])
     [cls_sse_int_16; cls_sse_int_16_41];
   (* short_vec_sse_int_32.hpp:12-15, 59 *)
   mkHeader KI32 32 (Some [Sse; Sse2; Sse41; Avx])
     [cls_sse_int_32; cls_sse_int_32_41];
   (* short_vec_avx_int_8.hpp:12-13, 53 *)
   mkHeader KI32 8 (Some [Avx2; Avx512f])
     [cls_avx_int_8_2];
   (* short_vec_avx_int_16.hpp:12, 51 *)
   mkHeader KI32 16 (Some [Avx2])
     [cls_avx_int_16_2];
   (* short_vec_avx_int_32.hpp:12, 51 *)
   mkHeader KI32 32 (Some [Avx2])
     [cls_avx_int_32_2];
   (* short_vec_avx512_int_16.hpp:12, 51 *)
   mkHeader KI32 16 (Some [Avx512f])
     [cls_avx512_int_16];
   (* short_vec_avx512_int_32.hpp:12, 51 *)
   mkHeader KI32 32 (Some [Avx512f])
     [cls_avx512_int_32];
   (* short_vec_sse_double_2.hpp:12-17, 51 *)
   mkHeader KF64 2 (Some [Sse; Sse2; Sse41; Avx; Avx2; Avx512f])
     [cls_sse_double_2; cls_sse_double_2_41];
   (* short_vec_sse_double_4.hpp:12-14, 49 *)
   mkHeader KF64 4 (Some [Sse; Sse2; Sse41])
     [cls_sse_double_4; cls_sse_double_4_41];
   (* short_vec_sse_double_8.hpp:12-14, 48 *)
   mkHeader KF64 8 (Some [Sse; Sse2; Sse41])
     [cls_sse_double_8; cls_sse_double_8_41];
   (* short_vec_sse_double_16.hpp:12-14, 48 *)
   mkHeader KF64 16 (Some [Sse; Sse2; Sse41])
     [cls_sse_double_16; cls_sse_double_16_41];
   (* short_vec_sse_double_32.hpp:12-14, 49 *)
   mkHeader KF64 32 (Some [Sse; Sse2; Sse41])
     [cls_sse_double_32; cls_sse_double_32_41];
   (* short_vec_sse_float_4.hpp:12-17, 59 *)
   mkHeader KF32 4 (Some [Sse; Sse2; Sse41; Avx; Avx2; Avx512f])
     [cls_sse_float_4; cls_sse_float_4_41];
   (* short_vec_sse_float_8.hpp:12-14, 56 *)
   mkHeader KF32 8 (Some [Sse; Sse2; Sse41])
     [cls_sse_float_8; cls_sse_float_8_41];
   (* short_vec_sse_float_16.hpp:12-14, 56 *)
   mkHeader KF32 16 (Some [Sse; Sse2; Sse41])
     [cls_sse_float_16; cls_sse_float_16_41];
   (* short_vec_sse_float_32.hpp:12-14, 56 *)
   mkHeader KF32 32 (Some [Sse; Sse2; Sse41])
     [cls_sse_float_32; cls_sse_float_32_41];
   (* short_vec_qpx_double_4.hpp:12, 47 *)
   mkHeader KF64 4 (Some [Qpx])
     [cls_qpx_double_4];
   (* short_vec_qpx_double_8.hpp:12, 47 *)
   mkHeader KF64 8 (Some [Qpx])
     [cls_qpx_double_8];
   (* short_vec_qpx_double_16.hpp:12, 47 *)
   mkHeader KF64 16 (Some [Qpx])
     [cls_qpx_double_16];
   (* short_vec_qpx_double_32.hpp:12, 47 *)
   mkHeader KF64 32 (Some [Qpx])
     [cls_qpx_double_32];
   (* short_vec_neon_float_4.hpp:12, 38 *)
   mkHeader KF32 4 (Some [Neon])
     [cls_neon_float_4; cls_neon_float_4_ip; cls_neon_float_4_lp64];
   (* short_vec_neon_float_8.hpp:12, 38 *)
   mkHeader KF32 8 (Some [Neon])
     [cls_neon_float_8; cls_neon_float_8_ip];
   (* short_vec_neon_float_16.hpp:12, 37 *)
   mkHeader KF32 16 (Some [Neon])
     [cls_neon_float_16; cls_neon_float_16_ip];
   (* short_vec_neon_float_32.hpp:12, 38 *)
   mkHeader KF32 32 (Some [Neon])
     [cls_neon_float_32; cls_neon_float_32_ip];
   (* short_vec_mic_double_8.hpp:12, 46 *)
   mkHeader KF64 8 (Some [Mic])
     [cls_mic_double_8];
   (* short_vec_mic_double_16.hpp:12, 46 *)
   mkHeader KF64 16 (Some [Mic])
     [cls_mic_double_16];
   (* short_vec_mic_double_32.hpp:12, 46 *)
   mkHeader KF64 32 (Some [Mic])
     [cls_mic_double_32];
   (* short_vec_mic_float_16.hpp:12, 49 *)
   mkHeader KF32 16 (Some [Mic])
     [cls_mic_float_16];
   (* short_vec_mic_float_32.hpp:12, 49 *)
   mkHeader KF32 32 (Some [Mic])
     [cls_mic_float_32]].

Definition guard_holds (i : isa) (h : header) : bool :=
  match h_guard h with None => true | Some l => existsb (isa_eqb i) l end.

Definition ekind_eqb (a b : ekind) : bool :=
  match a, b with KF32, KF32 | KF64, KF64 | KI32, KI32 => true | _, _ => false end.

(** The definitions of short_vec<k, n> that survive preprocessing. *)
Definition short_vec_defs (i : isa) (k : ekind) (n : Z) : list header :=
  filter (fun h => guard_holds i h && ekind_eqb (h_kind h) k && (h_arity h =? n)) headers.

(** short_vec<k, n>, if the class is complete. *)
Definition short_vec_class (t : target) (k : ekind) (n : Z) : option header :=
  match widest_isa t with
  | Some i => the_one (short_vec_defs i k n)
  | None => None
  end.

(** The declarations of BIT_WIDTH in ilp_to_arity<CARGO, ILP>
    (ilp_to_arity.hpp:34-59). *)
Definition bit_width_decls (t : target) (k : ekind) : list Z :=
  (if d_vector4double t then [256] else []) ++
  (if d_arm_neon t then [128] else []) ++
  (if negb (d_cuda_arch t) && negb (d_arm_neon t) && negb (d_mic t) then
     [if avx512_helper t then 512 else
      if d_avx t then 256 else
      if d_sse t then 128 else esize k * 8]
   else []).

(** ilp_to_arity<CARGO, ILP>::ARITY (ilp_to_arity.hpp:29-61), computed in
    std::size_t. *)
Definition ilp_to_arity (t : target) (k : ekind) (ilp : Z) : option Z :=
  if d_cuda_arch t then Some 1 else
  match the_one (bit_width_decls t k) with
  | Some w => Some ((ilp * w) mod 2 ^ size_bits t / esize k / 8)
  | None => None
  end.

(** Conversion to long: modulo 2^bits into the signed range. *)
Definition to_long (t : target) (z : Z) : Z :=
  let m := 2 ^ long_bits t in
  let r := z mod m in if r <? m / 2 then r else r - m.

(** A template argument for a parameter of type int must be representable
    (narrowing is an error in a converted constant expression). *)
Definition int_arg (z : Z) : option Z :=
  if (- 2 ^ 31 <=? z) && (z <? 2 ^ 31) then Some z else None.

(** STREAMING_FLAG (estimate_optimum_short_vec_type.hpp:77-78): DIM_PROD is a
    long, sizeof a size_t, the estimate an int. *)
Definition streaming_flag (t : target) (dim_prod sizeof_cell estimate : Z) : option Z :=
  let S := 2 ^ size_bits t in
  if estimate mod S =? 0 then None
  else Some (to_long t ((dim_prod mod S * sizeof_cell) mod S / (estimate mod S))).

(** A vector type: short_vec (false) or streaming_short_vec (true), cargo and
    arity. *)
Definition vtype := (bool * ekind * Z)%type.

(** estimate_optimum_short_vec_type::VALUE
    (estimate_optimum_short_vec_type.hpp:66-84) and
    detail/streaming_short_vec_switch.hpp:18-30.  The unroll factor, an int, is
    passed on as a std::size_t. *)
Definition optimum_type (t : target) (k : ekind) (dim_prod sizeof_cell unroll estimate : Z)
  : option vtype :=
  if unroll <? 0 then None else
  match ilp_to_arity t k unroll, streaming_flag t dim_prod sizeof_cell estimate with
  | Some n, Some f =>
    match int_arg f with
    | Some 0 => Some (false, k, n)
    | Some _ => Some (true, k, n)
    | None => None
    end
  | _, _ => None
  end.

(** Default arguments (estimate_optimum_short_vec_type.hpp:65). *)
Definition default_unroll : Z := 2.
Definition default_estimate : Z := 2 ^ 25.

(** detail/sibling_short_vec_switch.hpp:18-27 *)
Definition sibling (v : vtype) (n : Z) : vtype :=
  let '(s, k, _) := v in (s, k, n).

(** ** streaming_short_vec (streaming_short_vec.hpp:43-93)

    The class derives from short_vec<CARGO, ARITY>, adds no data and hides
    store and store_aligned. *)
Section Streaming.
Context {T : Type} (A : alg T) (c : cls).

(** store and store_aligned (streaming_short_vec.hpp:71-81): store_nt of the
    base class.  All other members are those of the base class. *)
Definition streaming_mem (m : mid) (v : list (list T)) (mis : Z) : option (result T) :=
  match m with
  | MStore | MStoreAligned => sv_mem A c MStoreNt v mis
  | MCtorList => sv_mem A c MLoad v mis
  | _ => sv_mem A c m v mis
  end.

(** ptr << vec.  The template of streaming_short_vec.hpp:88-93 has a parameter
    "int ARITY", which cannot be deduced from a class template whose parameter
    is a std::size_t; the operator of the base class is called, for instance
    short_vec_avx_float_8.hpp:305-309: vec.store(data), where vec is a
    reference to the base class. *)
Definition streaming_shift (v : list (list T)) (mis : Z) : option (result T) :=
  sv_mem A c MStore v mis.

End Streaming.
