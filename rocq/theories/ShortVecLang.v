(** A small language for the bodies of the short_vec member functions
    (/repo/include/libflatarray/detail/short_vec_*_*_*.hpp).

    Every member function of every short_vec class is transliterated, call by
    call, into a [method] of this language (files ShortVecScalar.v, ShortVecSse.v,
    ...).  This file gives the language its meaning.  A vector register is a
    list of lanes.  The meaning is polymorphic in the type of a lane and in
    the operations on lanes (record [alg]), so that the same function can be
    run on bit patterns, on IEEE numbers and on symbolic terms.

    What is simplified:
    - pointer casts and const casts are dropped, as is the address-of operator
      in front of a register or scalar;
    - integers used to compute indices, shift counts and immediates are
      unbounded (they are small constants in the code);
    - the assembler statement inside SHORTVEC_INSERT_PS
      (short_vec_helpers.hpp:92-97, 111-116) is given as one instruction. *)
From Coq Require Import String ZArith Bool Lia List.
Import ListNotations.
Local Open Scope Z_scope.

(** ** Element types and lane operations *)

(** CARGO types with a short_vec specialisation: float, double, int. *)
Inductive ekind := KF32 | KF64 | KI32.

(** sizeof(CARGO) in bytes. *)
Definition esize (k : ekind) : Z :=
  match k with KF32 => 4 | KF64 => 8 | KI32 => 4 end.

Inductive rel := RLt | RLe | REq | RGt | RGe.

(** Instructions specified by the vendors only up to an error bound. *)
Inductive apx :=
| Arcp | Arcp14 | Arcp23 | Arsqrt | Arsqrt14 | Arsqrt23
| Arecpe | Arsqrte | Aqrsqrte | Aswsqrt.

(** Unary lane operations. *)
Inductive uop :=
| USqrt (k : ekind)          (* correctly rounded square root *)
| UApx (a : apx)             (* approximation *)
| UCvtIF                     (* int -> float *)
| UCvtFI                     (* float -> int, round to nearest *)
| UCvttFI                    (* float -> int, truncate *)
| UIntToD                    (* int -> double *)
| UDToInt                    (* double -> int, static_cast *)
| UTruth (k : ekind)         (* value used as a condition *)
| UFill (k : ekind)          (* all ones if nonzero, else zero *)
| UMsb (k : ekind)           (* most significant bit *)
| UNonZero                   (* bit pattern different from zero *)
| UNot                       (* negation of a condition *)
| UBitNot                    (* bitwise complement, 32 bit *)
| UQext.                     (* an int operand printed as a 64 bit register *)

(** Binary lane operations. *)
Inductive bop :=
| BAdd (k : ekind) | BSub (k : ekind) | BMul (k : ekind) | BDiv (k : ekind)
| BRel (r : rel) (k : ekind) (* comparison, yields a condition *)
| BRelAbs (r : rel)          (* comparison of absolute values (float) *)
| BEqBits                    (* equality of bit patterns, yields a condition *)
| BAnd | BOr | BAndNot       (* bitwise; BAndNot a b = ~a & b *)
| BLOr                       (* disjunction of conditions *)
| BMulHi                     (* high half of the unsigned product *)
| BRecps | BRsqrts           (* Newton steps of NEON *)
| BSwdiv.                    (* vec_swdiv_nochk of QPX *)

(** An algebra of lanes: the operations, literals, the contents of the three
    memory regions a member function can read (data[k], offsets[k], ptr[t]),
    and the content of uninitialised registers. *)
Record alg (T : Type) := mkAlg {
  a_un : uop -> T -> T;
  a_bin : bop -> T -> T -> T;
  a_sel : T -> T -> T -> T;
  a_lit : Z -> T;
  a_data : Z -> T;
  a_off : Z -> T;
  a_ptr : T -> T;
  a_undef : T }.
Arguments mkAlg {T}. Arguments a_un {T}. Arguments a_bin {T}.
Arguments a_sel {T}. Arguments a_lit {T}. Arguments a_data {T}.
Arguments a_off {T}. Arguments a_ptr {T}. Arguments a_undef {T}.

(** ** Syntax *)

(** The intrinsics and macros used by the headers, by their own names. *)
Inductive intr :=
| SHORTVEC_INSERT_PS | SHORTVEC_INSERT_PS_AVX | _MM_EXTRACT_FLOAT | _MM_MK_INSERTPS_NDX
| _MM_SHUFFLE | _mm256_add_epi32 | _mm256_add_pd | _mm256_add_ps | _mm256_blendv_pd
| _mm256_blendv_ps | _mm256_broadcast_sd | _mm256_broadcast_ss | _mm256_castpd_si256
| _mm256_castps_si256 | _mm256_cmp_pd | _mm256_cmp_ps | _mm256_cvtepi32_ps
| _mm256_cvtps_epi32 | _mm256_cvttps_epi32 | _mm256_div_pd | _mm256_div_ps
| _mm256_extract_epi32 | _mm256_extractf128_pd | _mm256_extractf128_ps
| _mm256_i32gather_epi32 | _mm256_i32gather_pd | _mm256_i32gather_ps | _mm256_insertf128_ps
| _mm256_load_pd | _mm256_load_ps | _mm256_load_si256 | _mm256_loadu_pd | _mm256_loadu_ps
| _mm256_loadu_si256 | _mm256_mul_pd | _mm256_mul_ps | _mm256_mullo_epi32 | _mm256_or_pd
| _mm256_or_ps | _mm256_rcp_ps | _mm256_rsqrt_ps | _mm256_set1_epi32 | _mm256_set_pd
| _mm256_sqrt_pd | _mm256_sqrt_ps | _mm256_store_pd | _mm256_store_ps | _mm256_store_si256
| _mm256_storeu_pd | _mm256_storeu_ps | _mm256_storeu_si256 | _mm256_stream_pd
| _mm256_stream_ps | _mm256_stream_si256 | _mm256_sub_epi32 | _mm256_sub_pd | _mm256_sub_ps
| _mm256_testz_si256 | _mm512_add_epi32 | _mm512_add_pd | _mm512_add_ps
| _mm512_castpd_si512 | _mm512_castps_si512 | _mm512_cmp_pd_mask | _mm512_cmp_ps_mask
| _mm512_cvtepi32_ps | _mm512_cvtps_epi32 | _mm512_cvttps_epi32 | _mm512_div_pd
| _mm512_div_ps | _mm512_extractf32x4_ps | _mm512_extractf64x2_pd | _mm512_i32gather_epi32
| _mm512_i32gather_pd | _mm512_i32gather_ps | _mm512_i32logather_pd
| _mm512_i32loscatter_pd | _mm512_i32scatter_epi32 | _mm512_i32scatter_pd
| _mm512_i32scatter_ps | _mm512_load_epi32 | _mm512_load_pd | _mm512_load_ps
| _mm512_loadu_pd | _mm512_loadu_ps | _mm512_loadu_si512 | _mm512_loadunpackhi_pd
| _mm512_loadunpackhi_ps | _mm512_loadunpacklo_epi32 | _mm512_loadunpacklo_pd
| _mm512_loadunpacklo_ps | _mm512_mask_blend_pd | _mm512_mask_blend_ps | _mm512_mul_pd
| _mm512_mul_ps | _mm512_mullo_epi32 | _mm512_or_pd | _mm512_or_ps | _mm512_packstorehi_pd
| _mm512_packstorehi_ps | _mm512_packstorelo_pd | _mm512_packstorelo_ps
| _mm512_permute4f128_epi32 | _mm512_rcp14_ps | _mm512_rcp23_ps | _mm512_rsqrt14_ps
| _mm512_rsqrt23_ps | _mm512_set1_epi32 | _mm512_set1_pd | _mm512_set1_ps | _mm512_sqrt_pd
| _mm512_sqrt_ps | _mm512_store_epi32 | _mm512_store_pd | _mm512_store_ps
| _mm512_storenr_pd | _mm512_storenr_ps | _mm512_storeu_pd | _mm512_storeu_ps
| _mm512_storeu_si512 | _mm512_stream_pd | _mm512_stream_ps | _mm512_stream_si512
| _mm512_sub_epi32 | _mm512_sub_pd | _mm512_sub_ps | _mm512_test_epi64_mask | _mm_add_epi32
| _mm_add_pd | _mm_add_ps | _mm_and_pd | _mm_and_ps | _mm_andnot_pd | _mm_andnot_ps
| _mm_blendv_pd | _mm_blendv_ps | _mm_castpd_si128 | _mm_castps_si128 | _mm_cmpeq_pd
| _mm_cmpeq_ps | _mm_cmpge_pd | _mm_cmpge_ps | _mm_cmpgt_pd | _mm_cmpgt_ps | _mm_cmple_pd
| _mm_cmple_ps | _mm_cmplt_pd | _mm_cmplt_ps | _mm_cvtepi32_ps | _mm_cvtps_epi32
| _mm_cvtsd_f64 | _mm_cvtsi128_si32 | _mm_cvtsi32_si128 | _mm_cvtss_f32 | _mm_cvttps_epi32
| _mm_div_pd | _mm_div_ps | _mm_extract_epi32 | _mm_extract_ps | _mm_insert_epi32
| _mm_load_pd | _mm_load_ps | _mm_load_si128 | _mm_load_ss | _mm_loadh_pd | _mm_loadl_pd
| _mm_loadu_pd | _mm_loadu_ps | _mm_loadu_si128 | _mm_mul_epu32 | _mm_mul_pd | _mm_mul_ps
| _mm_mullo_epi32 | _mm_or_pd | _mm_or_ps | _mm_rsqrt_ps | _mm_set1_epi32 | _mm_set1_pd
| _mm_set1_ps | _mm_shuffle_epi32 | _mm_shuffle_pd | _mm_shuffle_ps | _mm_sqrt_pd
| _mm_sqrt_ps | _mm_srli_si128 | _mm_store_pd | _mm_store_ps | _mm_store_si128
| _mm_store_ss | _mm_storeh_pd | _mm_storel_pd | _mm_storeu_pd | _mm_storeu_ps
| _mm_storeu_si128 | _mm_stream_pd | _mm_stream_ps | _mm_stream_si128 | _mm_sub_epi32
| _mm_sub_pd | _mm_sub_ps | _mm_testz_si128 | _mm_unpacklo_epi32 | _mm_unpacklo_ps
| vaddq_f32 | vandq_u32 | vcaleq_f32 | vceqq_u32 | vcgeq_f32 | vcgtq_f32 | vcltq_f32
| vdupq_n_f32 | vdupq_n_u32 | vec_add | vec_extract | vec_insert | vec_ld | vec_lda
| vec_mul | vec_rsqrte | vec_splats | vec_st | vec_sta | vec_sub | vec_swdiv_nochk
| vec_swsqrt | vld1q_f32 | vmulq_f32 | vmvnq_u32 | vrecpeq_f32 | vrecpsq_f32
| vreinterpretq_f32_u32 | vreinterpretq_u32_f32 | vrsqrteq_f32 | vrsqrtsq_f32 | vst1q_f32
| vsubq_f32.

(** C++ operators that occur in the bodies. *)
Inductive cop :=
| OAdd | OSub | OMul | ODiv | OShl | OShr | OBitAnd | OBitOr | ORel (r : rel) | ONe | OLor.

Inductive exp :=
| EInt (z : Z)               (* integer literal, enumerator *)
| EVal (i : exp)             (* val[i] *)
| EOth (i : exp)             (* other.val[i], other.vec.val[i] *)
| EMsk (i : exp)             (* mask.val[i] *)
| EMaskInt                   (* mask, of integer type *)
| EVar (x : string)          (* local variable, or the parameter i *)
| EArg                       (* parameter "const CARGO data" *)
| EPar (i : nat)             (* i-th register parameter of a constructor *)
| EData | EOff | EPtr        (* pointer parameters data, offsets, ptr *)
| ELoc (x : string)          (* address of a local array *)
| EIdx (e i : exp)           (* e[i] *)
| EDeref (e : exp)           (* *e *)
| ECop (o : cop) (a b : exp) (* a o b *)
| EBool (e : exp)            (* implicit conversion to bool *)
| EToInt (e : exp)           (* static_cast<int>(e) *)
| EStdSqrt (e : exp)         (* std::sqrt(e) *)
| EMaskType (e : exp)        (* mask_type(e): integer conversion *)
| ECall (f : intr) (es : list exp).

Inductive lhs :=
| LVal (i : exp)             (* val[i] *)
| LVar (x : string)
| LLoc (x : string) (i : exp)(* element of a local array *)
| LMem (a : exp).            (* memory *)

Inductive stmt :=
| SDecl (x : string) (n : Z)       (* register or array without initialiser *)
| SSet (l : lhs) (e : exp)
| SUpd (o : cop) (l : lhs) (e : exp)   (* l o= e *)
| SDo (e : exp)                    (* intrinsic called for its effect *)
| SAssertAligned (a : exp) (n : Z) (* SHORTVEC_ASSERT_ALIGNED(a, n) *)
| SIf (c : exp) (s1 s2 : list stmt)
| SFor (n : exp) (s : list stmt)   (* for (i = 0; i < n; ++i) *)
| SAsmStnp (e : exp)               (* asm("stnp ..." : "=m" (data)) *)
| SRet (e : exp)
| SRetVec (es : list exp).         (* return short_vec<T, N>(es) *)

Definition body := list stmt.

(** Abbreviations used by the transliterated bodies: val[k], other.val[k],
    mask.val[k], offsets[k], data + k, ptr + offsets[k]. *)
Notation vv k := (EVal (EInt k)) (only parsing).
Notation oo k := (EOth (EInt k)) (only parsing).
Notation mm k := (EMsk (EInt k)) (only parsing).
Notation off k := (EIdx EOff (EInt k)) (only parsing).
Notation dat k := (ECop OAdd EData (EInt k)) (only parsing).
Notation pto k := (ECop OAdd EPtr (EIdx EOff (EInt k))) (only parsing).

(** Items sent to a stream: a string or a value. *)
Inductive item := PStr (s : string) | PVal (e : exp).

(** ** Values *)

Section Values.
Context {T : Type}.

Inductive address :=
| AData (z : Z)              (* data + z *)
| AOff (z : Z)               (* offsets + z *)
| APtr                       (* ptr *)
| APtrAt (t : T)             (* ptr + t *)
| ALoc (x : string) (z : Z). (* local array x + z *)

(** [VBits] is an integer whose bit k is the condition at position k; None is
    a bit that is zero by construction. *)
Inductive value :=
| VReg (l : list T)
| VBits (l : list (option T))
| VInt (z : Z)
| VAddr (a : address).

End Values.
Arguments address T : clear implicits.
Arguments value T : clear implicits.

(** ** Semantics of the intrinsics *)

(** The shapes of intrinsics.  n: lanes, w: bytes per lane, al: alignment the
    instruction needs, in bytes. *)
Inductive isem :=
| ILane1 (n : nat) (u : uop)
| ILane2 (n : nat) (b : bop)
| ICmp (n : nat) (r : rel) (k : ekind)    (* lanes filled with the result *)
| ICmpAbs (n : nat) (r : rel)
| ICmpBits (n : nat)
| ICmpImm (n : nat) (k : ekind)           (* predicate as third argument *)
| ICmpMask (n : nat) (k : ekind)          (* the same, result is an integer *)
| IId (n : nat)                           (* reinterpretation *)
| ISplat (n : nat)
| ISplatLit (n : nat)
| ISetRev (n : nat)                       (* _mm256_set_pd *)
| ILoad (n : nat) (w al : Z)
| IStore (n : nat) (w al : Z)
| ILoadS (n : nat) (w : Z)                (* lane 0 from memory, others 0 *)
| IMovS (n : nat)                         (* lane 0 from a scalar, others 0 *)
| ILoadLane (n : nat) (w : Z) (i : nat)   (* replace lane i from memory *)
| IStoreLane (n : nat) (w : Z) (i : nat)  (* store lane i *)
| IExtract (n : nat)                      (* lane given by 2nd argument *)
| IExtract0 (n : nat)                     (* lane 0 *)
| IInsert (n : nat)                       (* (reg, scalar, lane) *)
| IInsertQ (n : nat)                      (* (scalar, reg, lane) *)
| IExtractPart (n p : nat)                (* (reg of n, i) -> p lanes *)
| IInsertPart (n p : nat)                 (* (reg of n, reg of p, i) *)
| IShufPs | IShufPd | IShufEpi32 | IUnpackLo | ISrli | IMulEpu32
| IInsertPs                               (* (reg, base, offset, imm) *)
| IBlendv (n : nat) (k : ekind)
| IMaskBlend (n : nat)                    (* (mask, a, b) *)
| ITestz | ITest64
| IGather (n : nat) (w : Z)               (* (base, indices, scale) *)
| IGatherI (n : nat) (w : Z)              (* (indices, base, scale) *)
| IScatter (n : nat) (w : Z)              (* (base, indices, reg, scale) *)
| IPermute128                             (* _mm512_permute4f128_epi32 *)
| ILoadLo (n : nat) (w : Z) | ILoadHi (n : nat) (w : Z)
| IPackLo (n : nat) (w : Z) | IPackHi (n : nat) (w : Z)
| IVecLd | IVecSt                         (* QPX, address truncated *)
| IVecLda | IVecSta                       (* QPX, aligned *)
| IMmShuffle | IInsNdx.                   (* compile-time helpers *)

(** The meaning of each name (Intel Intrinsics Guide, Arm NEON intrinsics
    reference, IBM XL C/C++ for Blue Gene/Q); [_MM_SHUFFLE],
    [_MM_MK_INSERTPS_NDX] and [_MM_EXTRACT_FLOAT] are the macros of
    xmmintrin.h and smmintrin.h. *)
Definition sem_of (f : intr) : isem :=
  match f with
  | SHORTVEC_INSERT_PS | SHORTVEC_INSERT_PS_AVX => IInsertPs
  | _MM_EXTRACT_FLOAT | _mm_extract_epi32 | _mm_extract_ps | vec_extract => IExtract 4
  | _MM_MK_INSERTPS_NDX => IInsNdx
  | _MM_SHUFFLE => IMmShuffle
  | _mm256_add_epi32 => ILane2 8 (BAdd KI32)
  | _mm256_add_pd | vec_add => ILane2 4 (BAdd KF64)
  | _mm256_add_ps => ILane2 8 (BAdd KF32)
  | _mm256_blendv_pd => IBlendv 4 KF64
  | _mm256_blendv_ps => IBlendv 8 KF32
  | _mm256_broadcast_sd | _mm_set1_epi32 | _mm_set1_ps | vdupq_n_f32 | vec_splats => ISplat 4
  | _mm256_broadcast_ss | _mm256_set1_epi32 | _mm512_set1_pd => ISplat 8
  | _mm256_castpd_si256 | _mm_castps_si128 | vreinterpretq_f32_u32 | vreinterpretq_u32_f32 => IId
      4
  | _mm256_castps_si256 | _mm512_castpd_si512 => IId 8
  | _mm256_cmp_pd => ICmpImm 4 KF64
  | _mm256_cmp_ps => ICmpImm 8 KF32
  | _mm256_cvtepi32_ps => ILane1 8 UCvtIF
  | _mm256_cvtps_epi32 => ILane1 8 UCvtFI
  | _mm256_cvttps_epi32 => ILane1 8 UCvttFI
  | _mm256_div_pd => ILane2 4 (BDiv KF64)
  | _mm256_div_ps => ILane2 8 (BDiv KF32)
  | _mm256_extract_epi32 => IExtract 8
  | _mm256_extractf128_pd => IExtractPart 4 2
  | _mm256_extractf128_ps => IExtractPart 8 4
  | _mm256_i32gather_epi32 | _mm256_i32gather_ps => IGather 8 4
  | _mm256_i32gather_pd => IGather 4 8
  | _mm256_insertf128_ps => IInsertPart 8 4
  | _mm256_load_pd => ILoad 4 8 32
  | _mm256_load_ps | _mm256_load_si256 => ILoad 8 4 32
  | _mm256_loadu_pd => ILoad 4 8 1
  | _mm256_loadu_ps | _mm256_loadu_si256 => ILoad 8 4 1
  | _mm256_mul_pd | vec_mul => ILane2 4 (BMul KF64)
  | _mm256_mul_ps => ILane2 8 (BMul KF32)
  | _mm256_mullo_epi32 => ILane2 8 (BMul KI32)
  | _mm256_or_pd | _mm_or_ps => ILane2 4 BOr
  | _mm256_or_ps | _mm512_or_pd => ILane2 8 BOr
  | _mm256_rcp_ps => ILane1 8 (UApx Arcp)
  | _mm256_rsqrt_ps => ILane1 8 (UApx Arsqrt)
  | _mm256_set_pd => ISetRev 4
  | _mm256_sqrt_pd => ILane1 4 (USqrt KF64)
  | _mm256_sqrt_ps => ILane1 8 (USqrt KF32)
  | _mm256_store_pd | _mm256_stream_pd => IStore 4 8 32
  | _mm256_store_ps | _mm256_store_si256 | _mm256_stream_ps | _mm256_stream_si256 => IStore 8 4 32
  | _mm256_storeu_pd => IStore 4 8 1
  | _mm256_storeu_ps | _mm256_storeu_si256 => IStore 8 4 1
  | _mm256_sub_epi32 => ILane2 8 (BSub KI32)
  | _mm256_sub_pd | vec_sub => ILane2 4 (BSub KF64)
  | _mm256_sub_ps => ILane2 8 (BSub KF32)
  | _mm256_testz_si256 | _mm_testz_si128 => ITestz
  | _mm512_add_epi32 => ILane2 16 (BAdd KI32)
  | _mm512_add_pd => ILane2 8 (BAdd KF64)
  | _mm512_add_ps => ILane2 16 (BAdd KF32)
  | _mm512_castps_si512 => IId 16
  | _mm512_cmp_pd_mask => ICmpMask 8 KF64
  | _mm512_cmp_ps_mask => ICmpMask 16 KF32
  | _mm512_cvtepi32_ps => ILane1 16 UCvtIF
  | _mm512_cvtps_epi32 => ILane1 16 UCvtFI
  | _mm512_cvttps_epi32 => ILane1 16 UCvttFI
  | _mm512_div_pd => ILane2 8 (BDiv KF64)
  | _mm512_div_ps => ILane2 16 (BDiv KF32)
  | _mm512_extractf32x4_ps => IExtractPart 16 4
  | _mm512_extractf64x2_pd => IExtractPart 8 2
  | _mm512_i32gather_epi32 | _mm512_i32gather_ps => IGatherI 16 4
  | _mm512_i32gather_pd | _mm512_i32logather_pd => IGatherI 8 8
  | _mm512_i32loscatter_pd | _mm512_i32scatter_pd => IScatter 8 8
  | _mm512_i32scatter_epi32 | _mm512_i32scatter_ps => IScatter 16 4
  | _mm512_load_epi32 | _mm512_load_ps => ILoad 16 4 64
  | _mm512_load_pd => ILoad 8 8 64
  | _mm512_loadu_pd => ILoad 8 8 1
  | _mm512_loadu_ps | _mm512_loadu_si512 => ILoad 16 4 1
  | _mm512_loadunpackhi_pd => ILoadHi 8 8
  | _mm512_loadunpackhi_ps => ILoadHi 16 4
  | _mm512_loadunpacklo_epi32 | _mm512_loadunpacklo_ps => ILoadLo 16 4
  | _mm512_loadunpacklo_pd => ILoadLo 8 8
  | _mm512_mask_blend_pd => IMaskBlend 8
  | _mm512_mask_blend_ps => IMaskBlend 16
  | _mm512_mul_pd => ILane2 8 (BMul KF64)
  | _mm512_mul_ps => ILane2 16 (BMul KF32)
  | _mm512_mullo_epi32 => ILane2 16 (BMul KI32)
  | _mm512_or_ps => ILane2 16 BOr
  | _mm512_packstorehi_pd => IPackHi 8 8
  | _mm512_packstorehi_ps => IPackHi 16 4
  | _mm512_packstorelo_pd => IPackLo 8 8
  | _mm512_packstorelo_ps => IPackLo 16 4
  | _mm512_permute4f128_epi32 => IPermute128
  | _mm512_rcp14_ps => ILane1 16 (UApx Arcp14)
  | _mm512_rcp23_ps => ILane1 16 (UApx Arcp23)
  | _mm512_rsqrt14_ps => ILane1 16 (UApx Arsqrt14)
  | _mm512_rsqrt23_ps => ILane1 16 (UApx Arsqrt23)
  | _mm512_set1_epi32 | _mm512_set1_ps => ISplat 16
  | _mm512_sqrt_pd => ILane1 8 (USqrt KF64)
  | _mm512_sqrt_ps => ILane1 16 (USqrt KF32)
  | _mm512_store_epi32 | _mm512_store_ps | _mm512_storenr_ps | _mm512_stream_ps |
      _mm512_stream_si512 => IStore 16 4 64
  | _mm512_store_pd | _mm512_storenr_pd | _mm512_stream_pd => IStore 8 8 64
  | _mm512_storeu_pd => IStore 8 8 1
  | _mm512_storeu_ps | _mm512_storeu_si512 => IStore 16 4 1
  | _mm512_sub_epi32 => ILane2 16 (BSub KI32)
  | _mm512_sub_pd => ILane2 8 (BSub KF64)
  | _mm512_sub_ps => ILane2 16 (BSub KF32)
  | _mm512_test_epi64_mask => ITest64
  | _mm_add_epi32 => ILane2 4 (BAdd KI32)
  | _mm_add_pd => ILane2 2 (BAdd KF64)
  | _mm_add_ps | vaddq_f32 => ILane2 4 (BAdd KF32)
  | _mm_and_pd => ILane2 2 BAnd
  | _mm_and_ps | vandq_u32 => ILane2 4 BAnd
  | _mm_andnot_pd => ILane2 2 BAndNot
  | _mm_andnot_ps => ILane2 4 BAndNot
  | _mm_blendv_pd => IBlendv 2 KF64
  | _mm_blendv_ps => IBlendv 4 KF32
  | _mm_castpd_si128 => IId 2
  | _mm_cmpeq_pd => ICmp 2 REq KF64
  | _mm_cmpeq_ps => ICmp 4 REq KF32
  | _mm_cmpge_pd => ICmp 2 RGe KF64
  | _mm_cmpge_ps | vcgeq_f32 => ICmp 4 RGe KF32
  | _mm_cmpgt_pd => ICmp 2 RGt KF64
  | _mm_cmpgt_ps | vcgtq_f32 => ICmp 4 RGt KF32
  | _mm_cmple_pd => ICmp 2 RLe KF64
  | _mm_cmple_ps => ICmp 4 RLe KF32
  | _mm_cmplt_pd => ICmp 2 RLt KF64
  | _mm_cmplt_ps | vcltq_f32 => ICmp 4 RLt KF32
  | _mm_cvtepi32_ps => ILane1 4 UCvtIF
  | _mm_cvtps_epi32 => ILane1 4 UCvtFI
  | _mm_cvtsd_f64 => IExtract0 2
  | _mm_cvtsi128_si32 | _mm_cvtss_f32 => IExtract0 4
  | _mm_cvtsi32_si128 => IMovS 4
  | _mm_cvttps_epi32 => ILane1 4 UCvttFI
  | _mm_div_pd => ILane2 2 (BDiv KF64)
  | _mm_div_ps => ILane2 4 (BDiv KF32)
  | _mm_insert_epi32 => IInsert 4
  | _mm_load_pd => ILoad 2 8 16
  | _mm_load_ps | _mm_load_si128 => ILoad 4 4 16
  | _mm_load_ss => ILoadS 4 4
  | _mm_loadh_pd => ILoadLane 2 8 1
  | _mm_loadl_pd => ILoadLane 2 8 0
  | _mm_loadu_pd => ILoad 2 8 1
  | _mm_loadu_ps | _mm_loadu_si128 | vld1q_f32 => ILoad 4 4 1
  | _mm_mul_epu32 => IMulEpu32
  | _mm_mul_pd => ILane2 2 (BMul KF64)
  | _mm_mul_ps | vmulq_f32 => ILane2 4 (BMul KF32)
  | _mm_mullo_epi32 => ILane2 4 (BMul KI32)
  | _mm_or_pd => ILane2 2 BOr
  | _mm_rsqrt_ps => ILane1 4 (UApx Arsqrt)
  | _mm_set1_pd => ISplat 2
  | _mm_shuffle_epi32 => IShufEpi32
  | _mm_shuffle_pd => IShufPd
  | _mm_shuffle_ps => IShufPs
  | _mm_sqrt_pd => ILane1 2 (USqrt KF64)
  | _mm_sqrt_ps => ILane1 4 (USqrt KF32)
  | _mm_srli_si128 => ISrli
  | _mm_store_pd | _mm_stream_pd => IStore 2 8 16
  | _mm_store_ps | _mm_store_si128 | _mm_stream_ps | _mm_stream_si128 => IStore 4 4 16
  | _mm_store_ss => IStoreLane 4 4 0
  | _mm_storeh_pd => IStoreLane 2 8 1
  | _mm_storel_pd => IStoreLane 2 8 0
  | _mm_storeu_pd => IStore 2 8 1
  | _mm_storeu_ps | _mm_storeu_si128 | vst1q_f32 => IStore 4 4 1
  | _mm_sub_epi32 => ILane2 4 (BSub KI32)
  | _mm_sub_pd => ILane2 2 (BSub KF64)
  | _mm_sub_ps | vsubq_f32 => ILane2 4 (BSub KF32)
  | _mm_unpacklo_epi32 | _mm_unpacklo_ps => IUnpackLo
  | vcaleq_f32 => ICmpAbs 4 RLe
  | vceqq_u32 => ICmpBits 4
  | vdupq_n_u32 => ISplatLit 4
  | vec_insert => IInsertQ 4
  | vec_ld => IVecLd
  | vec_lda => IVecLda
  | vec_rsqrte => ILane1 4 (UApx Aqrsqrte)
  | vec_st => IVecSt
  | vec_sta => IVecSta
  | vec_swdiv_nochk => ILane2 4 BSwdiv
  | vec_swsqrt => ILane1 4 (UApx Aswsqrt)
  | vmvnq_u32 => ILane1 4 UBitNot
  | vrecpeq_f32 => ILane1 4 (UApx Arecpe)
  | vrecpsq_f32 => ILane2 4 BRecps
  | vrsqrteq_f32 => ILane1 4 (UApx Arsqrte)
  | vrsqrtsq_f32 => ILane2 4 BRsqrts
  end.

(** Positions of predicates in the 3rd argument of _mm256_cmp_ps and
    friends: _CMP_EQ_OQ 0, _CMP_LT_OS 1, _CMP_LE_OS 2, _CMP_GE_OS 13,
    _CMP_GT_OS 14. *)
Definition cmp_imm (z : Z) : option rel :=
  if z =? 0 then Some REq else
  if z =? 1 then Some RLt else
  if z =? 2 then Some RLe else
  if z =? 13 then Some RGe else
  if z =? 14 then Some RGt else None.

(** Enumerators. *)
Definition _CMP_EQ_OQ : Z := 0.
Definition _CMP_LT_OS : Z := 1.
Definition _CMP_LE_OS : Z := 2.
Definition _CMP_GE_OS : Z := 13.
Definition _CMP_GT_OS : Z := 14.
(** Blocks D, C, B, A of 128 bits, the first being the most significant. *)
Definition _MM_PERM_BADC : Z := 78.

Fixpoint omap {X Y : Type} (f : X -> option Y) (l : list X) : option (list Y) :=
  match l with
  | [] => Some []
  | x :: r =>
      match f x with
      | None => None
      | Some y => match omap f r with None => None | Some ys => Some (y :: ys) end
      end
  end.

Definition map2 {X Y W : Type} (f : X -> Y -> W) (l : list X) (r : list Y) : list W :=
  map (fun p => f (fst p) (snd p)) (combine l r).

Fixpoint replace_nth {X : Type} (k : nat) (x : X) (l : list X) : list X :=
  match l, k with
  | [], _ => []
  | _ :: r, O => x :: r
  | y :: r, S k' => y :: replace_nth k' x r
  end.

(** The integers z, z+1, ..., z+n-1. *)
Definition zseq (z : Z) (n : nat) : list Z := map (fun i => z + Z.of_nat i) (seq 0 n).

Section Sem.
Context {T : Type} (A : alg T).

(** Inputs of a call: element type, register contents of *this, other, the
    mask and the constructor parameters, the scalar parameter, the index
    parameter, how many elements [data] and [offsets] lie behind a 64 byte
    boundary, and whether other and mask are references to *this. *)
Record env := mkEnv {
  en_kind : ekind;
  en_mbits : nat;                     (* bits of an integer mask_type *)
  en_other : list (list T);
  en_mask : list (list T);
  en_maskint : list (option T);
  en_par : list (list T);
  en_arg : T;
  en_mis : Z;
  en_omis : Z;
  en_oalias : bool;
  en_malias : bool }.

(** State: val, the local variables, the addresses read (latest first), the
    writes to memory (latest first). *)
Record st := mkSt {
  st_val : list (list T);
  st_vars : list (string * value T);
  st_reads : list (address T);
  st_writes : list (address T * T) }.

Fixpoint lookup (x : string) (l : list (string * value T)) : option (value T) :=
  match l with
  | [] => None
  | (y, v) :: r => if String.eqb x y then Some v else lookup x r
  end.

Definition znth {X : Type} (l : list X) (z : Z) : option X :=
  if z <? 0 then None else nth_error l (Z.to_nat z).

Definition aadd (a : address T) (z : Z) : option (address T) :=
  match a with
  | AData c => Some (AData (c + z))
  | AOff c => Some (AOff (c + z))
  | ALoc x c => Some (ALoc x (c + z))
  | _ => None
  end.

(** The value stored at an address, and the trace of having read it. *)
Definition rd (s : st) (a : address T) : option (T * list (address T)) :=
  match a with
  | AData c => Some (a_data A c, [a])
  | AOff c => Some (a_off A c, [a])
  | APtrAt t => Some (a_ptr A t, [a])
  | APtr => None
  | ALoc x c =>
      match lookup x (st_vars s) with
      | Some (VReg l) => match znth l c with Some t => Some (t, []) | None => None end
      | _ => None
      end
  end.

Definition rds (s : st) (l : list (address T)) : option (list T * list (address T)) :=
  match omap (rd s) l with
  | Some rs => Some (map fst rs, concat (map snd rs))
  | None => None
  end.

(** Size of the elements at an address and distance from a 64 byte boundary. *)
Definition awidth (e : env) (a : address T) : Z :=
  match a with AOff _ => 4 | _ => esize (en_kind e) end.
Definition amis (e : env) (a : address T) : option Z :=
  match a with
  | AData c => Some (en_mis e + c)
  | AOff c => Some (en_omis e + c)
  | _ => None
  end.
Definition aligned (e : env) (a : address T) (al : Z) : bool :=
  if al <=? 1 then true
  else match amis e a with
       | Some m => (m * awidth e a) mod al =? 0
       | None => false
       end.

(** n consecutive addresses of elements w bytes wide. *)
Definition arange (e : env) (a : address T) (n : nat) (w : Z) : option (list (address T)) :=
  if awidth e a =? w then omap (aadd a) (zseq 0 n) else None.

Definition bit_or (l : list (option T)) : option T :=
  match concat (map (fun o => match o with Some t => [t] | None => [] end) l) with
  | [] => None
  | t :: r => Some (fold_left (a_bin A BLOr) r t)
  end.

(** A value used as a condition: a constant or a condition lane. *)
Definition as_cond (e : env) (v : value T) : option (Z + T) :=
  match v with
  | VInt z => Some (inl z)
  | VBits l => match bit_or l with Some t => Some (inr t) | None => Some (inl 0) end
  | VReg [t] => Some (inr (a_un A (UTruth (en_kind e)) t))
  | _ => None
  end.

Definition lanes (n : nat) (l : list T) : bool := Nat.eqb (length l) n.

Definition part (l : list T) (p : nat) (i : Z) : list T :=
  firstn p (skipn (p * Z.to_nat i) l).

(** Intrinsics that yield a value: value and addresses read. *)
Definition icall (e : env) (s : st) (f : isem) (vs : list (value T))
  : option (value T * list (address T)) :=
  let ret l := Some (VReg l, []) in
  match f, vs with
  | ILane1 n u, [VReg a] => if lanes n a then ret (map (a_un A u) a) else None
  | ILane2 n b, [VReg x; VReg y] =>
      if lanes n x && lanes n y then ret (map2 (a_bin A b) x y) else None
  | ICmp n r k, [VReg x; VReg y] =>
      if lanes n x && lanes n y
      then ret (map2 (fun p q => a_un A (UFill k) (a_bin A (BRel r k) p q)) x y) else None
  | ICmpAbs n r, [VReg x; VReg y] =>
      if lanes n x && lanes n y
      then ret (map2 (fun p q => a_un A (UFill KF32) (a_bin A (BRelAbs r) p q)) x y) else None
  | ICmpBits n, [VReg x; VReg y] =>
      if lanes n x && lanes n y
      then ret (map2 (fun p q => a_un A (UFill KF32) (a_bin A BEqBits p q)) x y) else None
  | ICmpImm n k, [VReg x; VReg y; VInt z] =>
      match cmp_imm z with
      | Some r =>
          if lanes n x && lanes n y
          then ret (map2 (fun p q => a_un A (UFill k) (a_bin A (BRel r k) p q)) x y) else None
      | None => None
      end
  | ICmpMask n k, [VReg x; VReg y; VInt z] =>
      match cmp_imm z with
      | Some r =>
          if lanes n x && lanes n y
          then Some (VBits (map Some (map2 (a_bin A (BRel r k)) x y)), []) else None
      | None => None
      end
  | IId n, [VReg x] => if lanes n x then ret x else None
  | ISplat n, [VReg [t]] => ret (repeat t n)
  | ISplatLit n, [VInt z] => ret (repeat (a_lit A z) n)
  | ISetRev n, _ =>
      match omap (fun v => match v with VReg [t] => Some t | _ => None end) vs with
      | Some l => if lanes n l then ret (rev l) else None
      | None => None
      end
  | ILoad n w al, [VAddr a] =>
      if aligned e a al then
        match arange e a n w with
        | Some l => match rds s l with Some (ts, tr) => Some (VReg ts, tr) | None => None end
        | None => None
        end
      else None
  | ILoadS n w, [VAddr a] =>
      if awidth e a =? w then
        match rd s a with
        | Some (t, tr) => Some (VReg (t :: repeat (a_lit A 0) (n - 1)), tr)
        | None => None
        end
      else None
  | IMovS n, [VReg [t]] => ret (t :: repeat (a_lit A 0) (n - 1))
  | ILoadLane n w i, [VReg x; VAddr a] =>
      if lanes n x && (awidth e a =? w) then
        match rd s a with
        | Some (t, tr) => Some (VReg (replace_nth i t x), tr)
        | None => None
        end
      else None
  | IExtract n, [VReg x; VInt z] =>
      if lanes n x then match znth x z with Some t => ret [t] | None => None end else None
  | IExtract0 n, [VReg x] =>
      if lanes n x then match x with t :: _ => ret [t] | [] => None end else None
  | IInsert n, [VReg x; VReg [t]; VInt z] =>
      if lanes n x && (0 <=? z) && (z <? Z.of_nat n)
      then ret (replace_nth (Z.to_nat z) t x) else None
  | IInsertQ n, [VReg [t]; VReg x; VInt z] =>
      if lanes n x && (0 <=? z) && (z <? Z.of_nat n)
      then ret (replace_nth (Z.to_nat z) t x) else None
  | IExtractPart n p, [VReg x; VInt z] =>
      if lanes n x && (0 <=? z) && (z * Z.of_nat p <? Z.of_nat n)
      then ret (part x p z) else None
  | IInsertPart n p, [VReg x; VReg y; VInt z] =>
      if lanes n x && lanes p y && (0 <=? z) && (z * Z.of_nat p <? Z.of_nat n)
      then ret (firstn (p * Z.to_nat z) x ++ y ++ skipn (p * Z.to_nat z + p) x) else None
  | IShufPs, [VReg x; VReg y; VInt z] =>
      if lanes 4 x && lanes 4 y then
        match znth x (Z.land z 3), znth x (Z.land (z / 4) 3),
              znth y (Z.land (z / 16) 3), znth y (Z.land (z / 64) 3) with
        | Some p, Some q, Some r, Some t => ret [p; q; r; t]
        | _, _, _, _ => None
        end
      else None
  | IShufPd, [VReg x; VReg y; VInt z] =>
      if lanes 2 x && lanes 2 y then
        match znth x (Z.land z 1), znth y (Z.land (z / 2) 1) with
        | Some p, Some q => ret [p; q]
        | _, _ => None
        end
      else None
  | IShufEpi32, [VReg x; VInt z] =>
      if lanes 4 x then
        match znth x (Z.land z 3), znth x (Z.land (z / 4) 3),
              znth x (Z.land (z / 16) 3), znth x (Z.land (z / 64) 3) with
        | Some p, Some q, Some r, Some t => ret [p; q; r; t]
        | _, _, _, _ => None
        end
      else None
  | IUnpackLo, [VReg [x0; x1; _; _]; VReg [y0; y1; _; _]] => ret [x0; y0; x1; y1]
  | ISrli, [VReg x; VInt z] =>
      if lanes 4 x && (z mod 4 =? 0) && (0 <=? z) && (z <=? 16)
      then ret (skipn (Z.to_nat (z / 4)) x ++ repeat (a_lit A 0) (Z.to_nat (z / 4))) else None
  (* The low half of a 32x32 bit product does not depend on signedness. *)
  | IMulEpu32, [VReg [x0; _; x2; _]; VReg [y0; _; y2; _]] =>
      ret [a_bin A (BMul KI32) x0 y0; a_bin A BMulHi x0 y0;
           a_bin A (BMul KI32) x2 y2; a_bin A BMulHi x2 y2]
  | IInsertPs, [VReg x; VAddr APtr; VReg [o]; VInt z] =>
      if lanes 4 x && (esize (en_kind e) =? 4) then
        let t := a_un A UQext o in
        let y := replace_nth (Z.to_nat (Z.land (z / 16) 3)) (a_ptr A t) x in
        Some (VReg (map (fun p => if Z.testbit z (Z.of_nat (fst p)) then a_lit A 0 else snd p)
                        (combine (seq 0 4) y)), [APtrAt t])
      else None
  | IBlendv n k, [VReg x; VReg y; VReg m] =>
      if lanes n x && lanes n y && lanes n m
      then ret (map2 (fun c p => a_sel A (a_un A (UMsb k) c) (fst p) (snd p)) m (combine y x))
      else None
  | IMaskBlend n, [VBits m; VReg x; VReg y] =>
      if lanes n x && lanes n y && (Nat.leb n (length m))
      then ret (map2 (fun c p => match c with
                                 | Some c' => a_sel A c' (fst p) (snd p)
                                 | None => snd p end) (firstn n m) (combine y x))
      else None
  | ITestz, [VReg x; VReg y] =>
      if Nat.eqb (length x) (length y) then
        match bit_or (map (fun t => Some (a_un A UNonZero t)) (map2 (a_bin A BAnd) x y)) with
        | Some t => Some (VBits [Some (a_un A UNot t)], [])
        | None => None
        end
      else None
  | ITest64, [VReg x; VReg y] =>
      let nz := map (a_un A UNonZero) (map2 (a_bin A BAnd) x y) in
      if lanes 8 x && lanes 8 y then Some (VBits (map Some nz), [])
      else if lanes 16 x && lanes 16 y then
        Some (VBits (map (fun i => match nth_error nz (2 * i), nth_error nz (2 * i + 1) with
                                   | Some a, Some b => Some (a_bin A BLOr a b)
                                   | _, _ => None end) (seq 0 8)), [])
      else None
  | IGather n w, [VAddr APtr; VReg ix; VInt sc] =>
      if (sc =? w) && (esize (en_kind e) =? w) && Nat.leb n (length ix) then
        match rds s (map APtrAt (firstn n ix)) with
        | Some (ts, tr) => Some (VReg ts, tr)
        | None => None
        end
      else None
  | IGatherI n w, [VReg ix; VAddr APtr; VInt sc] =>
      if (sc =? w) && (esize (en_kind e) =? w) && Nat.leb n (length ix) then
        match rds s (map APtrAt (firstn n ix)) with
        | Some (ts, tr) => Some (VReg ts, tr)
        | None => None
        end
      else None
  | IPermute128, [VReg x; VInt z] =>
      if lanes 16 x then
        ret (part x 4 (Z.land z 3) ++ part x 4 (Z.land (z / 4) 3)
             ++ part x 4 (Z.land (z / 16) 3) ++ part x 4 (Z.land (z / 64) 3))
      else None
  (* Lanes from an address up to the end of its 64 byte line. *)
  | ILoadLo n w, [VReg x; VAddr a] =>
      match amis e a with
      | Some m =>
          let k := (n - Z.to_nat (m mod Z.of_nat n))%nat in
          if lanes n x then
            match arange e a k w with
            | Some l => match rds s l with
                        | Some (ts, tr) => Some (VReg (ts ++ skipn k x), tr)
                        | None => None end
            | None => None
            end
          else None
      | None => None
      end
  (* Lanes from the start of the 64 byte line of an address to the address. *)
  | ILoadHi n w, [VReg x; VAddr a] =>
      match amis e a with
      | Some m =>
          let k := Z.to_nat (m mod Z.of_nat n) in
          if lanes n x then
            match aadd a (- Z.of_nat k) with
            | Some b =>
                match arange e b k w with
                | Some l => match rds s l with
                            | Some (ts, tr) => Some (VReg (firstn (n - k) x ++ ts), tr)
                            | None => None end
                | None => None
                end
            | None => None
            end
          else None
      | None => None
      end
  (* Address truncated to a multiple of 32 bytes. *)
  | IVecLd, [VInt 0; VAddr a] =>
      match amis e a with
      | Some m =>
          match aadd a (- (m mod 4)) with
          | Some b =>
              match arange e b 4 8 with
              | Some l => match rds s l with Some (ts, tr) => Some (VReg ts, tr) | None => None end
              | None => None
              end
          | None => None
          end
      | None => None
      end
  | IVecLda, [VInt 0; VAddr a] =>
      if aligned e a 32 then
        match arange e a 4 8 with
        | Some l => match rds s l with Some (ts, tr) => Some (VReg ts, tr) | None => None end
        | None => None
        end
      else None
  | IMmShuffle, [VInt z; VInt y; VInt x; VInt w] =>
      Some (VInt (z * 64 + y * 16 + x * 4 + w), [])
  | IInsNdx, [VInt x; VInt d; VInt z] => Some (VInt (x * 64 + d * 16 + z), [])
  | _, _ => None
  end.

Definition cpair (p : option (list (address T))) (ts : list T)
  : option (list (address T * T)) :=
  match p with Some l => Some (combine l ts) | None => None end.

(** Intrinsics called for their effect: the writes, in order.  A scatter
    writes lane after lane, so the last lane wins if two offsets coincide. *)
Definition ieffect (e : env) (f : isem) (vs : list (value T))
  : option (list (address T * T)) :=
  match f, vs with
  | IStore n w al, [VAddr a; VReg x] =>
      if aligned e a al && lanes n x then cpair (arange e a n w) x else None
  | IStoreLane n w i, [VAddr a; VReg x] =>
      if lanes n x && (awidth e a =? w) then
        match nth_error x i with Some t => Some [(a, t)] | None => None end
      else None
  | IScatter n w, [VAddr APtr; VReg ix; VReg x; VInt sc] =>
      if (sc =? w) && (esize (en_kind e) =? w) && Nat.leb n (length ix) && lanes n x
      then Some (combine (map APtrAt (firstn n ix)) x) else None
  | IPackLo n w, [VAddr a; VReg x] =>
      match amis e a with
      | Some m =>
          let k := (n - Z.to_nat (m mod Z.of_nat n))%nat in
          if lanes n x then cpair (arange e a k w) (firstn k x) else None
      | None => None
      end
  | IPackHi n w, [VAddr a; VReg x] =>
      match amis e a with
      | Some m =>
          let k := Z.to_nat (m mod Z.of_nat n) in
          if lanes n x then
            match aadd a (- Z.of_nat k) with
            | Some b => cpair (arange e b k w) (skipn (n - k) x)
            | None => None
            end
          else None
      | None => None
      end
  | IVecSt, [VReg x; VInt 0; VAddr a] =>
      match amis e a with
      | Some m =>
          if lanes 4 x then
            match aadd a (- (m mod 4)) with
            | Some b => cpair (arange e b 4 8) x
            | None => None
            end
          else None
      | None => None
      end
  | IVecSta, [VReg x; VInt 0; VAddr a] =>
      if aligned e a 32 && lanes 4 x then cpair (arange e a 4 8) x else None
  | _, _ => None
  end.

(** ** C++ operators *)

Fixpoint bits_add (a b : list (option T)) : option (list (option T)) :=
  match a, b with
  | [], r => Some r
  | r, [] => Some r
  | x :: a', y :: b' =>
      match bits_add a' b' with
      | None => None
      | Some r =>
          match x, y with
          | None, _ => Some (y :: r)
          | _, None => Some (x :: r)
          | _, _ => None
          end
      end
  end.

Definition bits_and (z : Z) (l : list (option T)) : list (option T) :=
  map (fun p => if Z.testbit z (Z.of_nat (fst p)) then snd p else None)
      (combine (seq 0 (length l)) l).

Definition zrel (r : rel) (a b : Z) : bool :=
  match r with
  | RLt => a <? b | RLe => a <=? b | REq => a =? b | RGt => b <? a | RGe => b <=? a
  end.

Definition b2z (b : bool) : Z := if b then 1 else 0.

Definition cond_or (a b : Z + T) : value T :=
  match a, b with
  | inl x, inl y => VInt (b2z (negb (x =? 0) || negb (y =? 0)))
  | inl x, inr t => if x =? 0 then VBits [Some t] else VInt 1
  | inr t, inl x => if x =? 0 then VBits [Some t] else VInt 1
  | inr t, inr u => VBits [Some (a_bin A BLOr t u)]
  end.

Definition arith (o : cop) (k : ekind) : option bop :=
  match o with
  | OAdd => Some (BAdd k) | OSub => Some (BSub k)
  | OMul => Some (BMul k) | ODiv => Some (BDiv k) | _ => None
  end.

Definition do_cop (e : env) (o : cop) (a b : value T) : option (value T) :=
  match a, b with
  | VInt x, VInt y =>
      match o with
      | OAdd => Some (VInt (x + y)) | OSub => Some (VInt (x - y))
      | OMul => Some (VInt (x * y)) | ODiv => Some (VInt (Z.quot x y))
      | OShl => Some (VInt (Z.shiftl x y)) | OShr => Some (VInt (Z.shiftr x y))
      | OBitAnd => Some (VInt (Z.land x y)) | OBitOr => Some (VInt (Z.lor x y))
      | ORel r => Some (VInt (b2z (zrel r x y))) | ONe => Some (VInt (b2z (negb (x =? y))))
      | OLor => Some (VInt (b2z (negb (x =? 0) || negb (y =? 0))))
      end
  | VAddr p, VInt z =>
      match o with
      | OAdd => match aadd p z with Some q => Some (VAddr q) | None => None end
      | _ => None
      end
  | VAddr APtr, VReg [t] => match o with OAdd => Some (VAddr (APtrAt t)) | _ => None end
  | VReg [t], VReg [u] =>
      match o with
      | ORel r => Some (VBits [Some (a_bin A (BRel r (en_kind e)) t u)])
      | OLor =>
          match as_cond e a, as_cond e b with
          | Some c, Some d => Some (cond_or c d)
          | _, _ => None
          end
      | _ => match arith o (en_kind e) with
             | Some p => Some (VReg [a_bin A p t u])
             | None => None
             end
      end
  | VReg [t], VInt z =>
      match o with
      | ONe => if z =? 0 then Some (VBits [Some (a_un A (UTruth (en_kind e)) t)]) else None
      | _ => None
      end
  | VBits l, VInt z =>
      match o with
      | OShl => if 0 <=? z then Some (VBits (repeat None (Z.to_nat z) ++ l)) else None
      | OShr => if 0 <=? z then Some (VBits (skipn (Z.to_nat z) l)) else None
      | OBitAnd => Some (VBits (bits_and z l))
      | ORel REq => if z =? 0 then
                      match bit_or l with
                      | Some t => Some (VBits [Some (a_un A UNot t)])
                      | None => Some (VInt 1)
                      end
                    else None
      | ONe => if z =? 0 then
                 match bit_or l with Some t => Some (VBits [Some t]) | None => Some (VInt 0) end
               else None
      | _ => None
      end
  | VInt z, VBits l =>
      match o with
      | ORel REq => if z =? 0 then
                      match bit_or l with
                      | Some t => Some (VBits [Some (a_un A UNot t)])
                      | None => Some (VInt 1)
                      end
                    else None
      | ONe => if z =? 0 then
                 match bit_or l with Some t => Some (VBits [Some t]) | None => Some (VInt 0) end
               else None
      | _ => None
      end
  | VBits l, VBits r =>
      match o with
      | OAdd => match bits_add l r with Some x => Some (VBits x) | None => None end
      | OLor =>
          match as_cond e a, as_cond e b with
          | Some c, Some d => Some (cond_or c d)
          | _, _ => None
          end
      | _ => None
      end
  | _, _ =>
      match o with
      | OLor =>
          match as_cond e a, as_cond e b with
          | Some c, Some d => Some (cond_or c d)
          | _, _ => None
          end
      | _ => None
      end
  end.

(** ** Expressions *)

Definition regs_at (l : list (list T)) (v : option (value T * list (address T)))
  : option (value T * list (address T)) :=
  match v with
  | Some (VInt z, tr) =>
      match znth l z with Some r => Some (VReg r, tr) | None => None end
  | _ => None
  end.

Definition do_idx (s : st) (a b : value T) : option (value T * list (address T)) :=
  match a, b with
  | VReg l, VInt z => match znth l z with Some t => Some (VReg [t], []) | None => None end
  | VAddr APtr, VReg [t] =>
      match rd s (APtrAt t) with Some (x, tr) => Some (VReg [x], tr) | None => None end
  | VAddr p, VInt z =>
      match aadd p z with
      | Some q => match rd s q with Some (x, tr) => Some (VReg [x], tr) | None => None end
      | None => None
      end
  | _, _ => None
  end.

Fixpoint eval (e : env) (s : st) (x : exp) : option (value T * list (address T)) :=
  match x with
  | EInt z => Some (VInt z, [])
  | EVal i => regs_at (st_val s) (eval e s i)
  | EOth i => regs_at (if en_oalias e then st_val s else en_other e) (eval e s i)
  | EMsk i => regs_at (if en_malias e then st_val s else en_mask e) (eval e s i)
  | EMaskInt => Some (VBits (en_maskint e), [])
  | EVar y => match lookup y (st_vars s) with Some v => Some (v, []) | None => None end
  | EArg => Some (VReg [en_arg e], [])
  | EPar i => match nth_error (en_par e) i with Some r => Some (VReg r, []) | None => None end
  | EData => Some (VAddr (AData 0), [])
  | EOff => Some (VAddr (AOff 0), [])
  | EPtr => Some (VAddr APtr, [])
  | ELoc y => Some (VAddr (ALoc y 0), [])
  | EIdx a i =>
      match eval e s a, eval e s i with
      | Some (v, t1), Some (w, t2) =>
          match do_idx s v w with Some (r, t3) => Some (r, t1 ++ t2 ++ t3) | None => None end
      | _, _ => None
      end
  | EDeref a =>
      match eval e s a with
      | Some (VAddr p, t1) =>
          match rd s p with Some (r, t2) => Some (VReg [r], t1 ++ t2) | None => None end
      | _ => None
      end
  | ECop o a b =>
      match eval e s a, eval e s b with
      | Some (v, t1), Some (w, t2) =>
          match do_cop e o v w with Some r => Some (r, t1 ++ t2) | None => None end
      | _, _ => None
      end
  | EBool a =>
      match eval e s a with
      | Some (v, t1) =>
          match as_cond e v with
          | Some (inl z) => Some (VInt (b2z (negb (z =? 0))), t1)
          | Some (inr t) => Some (VBits [Some t], t1)
          | None => None
          end
      | None => None
      end
  | EToInt a =>
      match eval e s a with
      | Some (VReg [t], t1) => Some (VReg [a_un A UDToInt t], t1)
      | Some (VBits l, t1) => Some (VBits l, t1)
      | Some (VInt z, t1) => Some (VInt z, t1)
      | _ => None
      end
  | EStdSqrt a =>
      match eval e s a with
      | Some (VReg [t], t1) =>
          Some (VReg [match en_kind e with
                      | KI32 => a_un A (USqrt KF64) (a_un A UIntToD t)
                      | k => a_un A (USqrt k) t
                      end], t1)
      | _ => None
      end
  | EMaskType a =>
      match eval e s a with
      | Some (VBits l, t1) => Some (VBits (firstn (en_mbits e) l), t1)
      | _ => None
      end
  | ECall f args =>
      match (fix go (l : list exp) : option (list (value T) * list (address T)) :=
               match l with
               | [] => Some ([], [])
               | y :: r =>
                   match eval e s y, go r with
                   | Some (v, t1), Some (vs, t2) => Some (v :: vs, t1 ++ t2)
                   | _, _ => None
                   end
               end) args with
      | Some (vs, t1) =>
          match icall e s (sem_of f) vs with
          | Some (r, t2) => Some (r, t1 ++ t2)
          | None => None
          end
      | None => None
      end
  end.

Fixpoint evals (e : env) (s : st) (l : list exp)
  : option (list (value T) * list (address T)) :=
  match l with
  | [] => Some ([], [])
  | y :: r =>
      match eval e s y, evals e s r with
      | Some (v, t1), Some (vs, t2) => Some (v :: vs, t1 ++ t2)
      | _, _ => None
      end
  end.

(** ** Statements *)

Definition add_reads (tr : list (address T)) (s : st) : st :=
  mkSt (st_val s) (st_vars s) (rev tr ++ st_reads s) (st_writes s).
Definition add_writes (ws : list (address T * T)) (s : st) : st :=
  mkSt (st_val s) (st_vars s) (st_reads s) (rev ws ++ st_writes s).
Definition set_val (l : list (list T)) (s : st) : st :=
  mkSt l (st_vars s) (st_reads s) (st_writes s).
Definition set_var (x : string) (v : value T) (s : st) : st :=
  mkSt (st_val s) ((x, v) :: st_vars s) (st_reads s) (st_writes s).

(** Assignment. *)
Definition assign (e : env) (s : st) (l : lhs) (v : value T) : option st :=
  match l with
  | LVal i =>
      match eval e s i, v with
      | Some (VInt z, tr), VReg r =>
          if (0 <=? z) && (z <? Z.of_nat (length (st_val s)))
          then Some (add_reads tr (set_val (replace_nth (Z.to_nat z) r (st_val s)) s))
          else None
      | _, _ => None
      end
  | LVar x => Some (set_var x v s)
  | LLoc x i =>
      match eval e s i, v, lookup x (st_vars s) with
      | Some (VInt z, tr), VReg [t], Some (VReg r) =>
          if (0 <=? z) && (z <? Z.of_nat (length r))
          then Some (add_reads tr (set_var x (VReg (replace_nth (Z.to_nat z) t r)) s))
          else None
      | _, _, _ => None
      end
  | LMem a =>
      match eval e s a, v with
      | Some (VAddr p, tr), VReg [t] => Some (add_writes [(p, t)] (add_reads tr s))
      | _, _ => None
      end
  end.

Definition lhs_exp (l : lhs) : option exp :=
  match l with
  | LVal i => Some (EVal i)
  | LVar x => Some (EVar x)
  | LLoc x i => Some (EIdx (ELoc x) i)
  | LMem _ => None
  end.

(** Result of a statement: still running, or the returned value. *)
Inductive outcome :=
| Running (s : st)
| Returned (s : st) (v : value T)
| ReturnedVec (s : st) (regs : list (list T)).

(** How "return short_vec<T, N>(args)" builds its result. *)
Context (mkvec : list (value T) -> option (list (list T))).

Definition bind_run (o : option outcome) (k : st -> option outcome) : option outcome :=
  match o with
  | Some (Running s) => k s
  | r => r
  end.

Fixpoint iter_run (n : nat) (f : st -> option outcome) (s : st) : option outcome :=
  match n with
  | O => Some (Running s)
  | S n' => bind_run (f s) (iter_run n' f)
  end.

Fixpoint exec (e : env) (s : st) (x : stmt) {struct x} : option outcome :=
  let fix run (l : list stmt) (s : st) : option outcome :=
    match l with
    | [] => Some (Running s)
    | y :: r => bind_run (exec e s y) (run r)
    end in
  match x with
  | SDecl y n => Some (Running (set_var y (VReg (repeat (a_undef A) (Z.to_nat n))) s))
  | SSet l a =>
      match eval e s a with
      | Some (v, tr) =>
          match assign e (add_reads tr s) l v with
          | Some s' => Some (Running s')
          | None => None
          end
      | None => None
      end
  | SUpd o l a =>
      match lhs_exp l with
      | None => None
      | Some le =>
          match eval e s (ECop o le a) with
          | Some (v, tr) =>
              match assign e (add_reads tr s) l v with
              | Some s' => Some (Running s')
              | None => None
              end
          | None => None
          end
      end
  | SDo a =>
      match a with
      | ECall f args =>
          match evals e s args with
          | Some (vs, tr) =>
              match ieffect e (sem_of f) vs with
              | Some ws => Some (Running (add_writes ws (add_reads tr s)))
              | None => None
              end
          | None => None
          end
      | _ => None
      end
  | SAssertAligned a n =>
      match eval e s a with
      | Some (VAddr p, tr) => if aligned e p n then Some (Running s) else None
      | _ => None
      end
  | SIf c s1 s2 =>
      match eval e s c with
      | Some (VInt z, tr) =>
          if z =? 0 then run s2 (add_reads tr s) else run s1 (add_reads tr s)
      | Some (VBits l, tr) =>
          (* a run-time condition guards a single assignment to val *)
          match bit_or l, s1, s2 with
          | Some t, [SSet (LVal i) a], [] =>
              match eval e s i, eval e s a with
              | Some (VInt z, []), Some (VReg r, []) =>
                  match znth (st_val s) z with
                  | Some old =>
                      if Nat.eqb (length r) (length old)
                      then Some (Running (add_reads tr
                             (set_val (replace_nth (Z.to_nat z)
                                         (map2 (a_sel A t) r old) (st_val s)) s)))
                      else None
                  | None => None
                  end
              | _, _ => None
              end
          | _, _, _ => None
          end
      | _ => None
      end
  | SFor n b =>
      match eval e s n with
      | Some (VInt z, tr) => iter_run (Z.to_nat z) (run b) (add_reads tr s)
      | _ => None
      end
  | SAsmStnp a =>
      (* the output operand is the pointer variable itself, not what it
         points to: nothing is written to data *)
      match eval e s a with
      | Some (_, tr) => Some (Running (add_reads tr s))
      | None => None
      end
  | SRet a =>
      match eval e s a with
      | Some (v, tr) => Some (Returned (add_reads tr s) v)
      | None => None
      end
  | SRetVec l =>
      match evals e s l with
      | Some (vs, tr) =>
          match mkvec vs with
          | Some r => Some (ReturnedVec (add_reads tr s) r)
          | None => None
          end
      | None => None
      end
  end.

Fixpoint run (e : env) (l : list stmt) (s : st) : option outcome :=
  match l with
  | [] => Some (Running s)
  | y :: r => bind_run (exec e s y) (run e r)
  end.

End Sem.

Arguments env T : clear implicits.
Arguments st T : clear implicits.
Arguments outcome T : clear implicits.
