(** The member functions of the short_vec classes in
    /repo/include/libflatarray/detail/short_vec_neon_*.hpp, call by call, in the
    language of ShortVecLang.v.  Each definition cites the lines it was
    transliterated from.  Calls of load() and store() are expanded. *)
From Coq Require Import String ZArith List.
From Verif Require Import ShortVecLang ShortVecClass.
Import ListNotations.
Local Open Scope Z_scope.
Local Open Scope string_scope.

(* short_vec_neon_float_4.hpp:50-53 *)
Definition neon_float_4_ctor_scalar : body :=
  [SSet (LVal (EInt 0)) (ECall vdupq_n_f32 [EArg])].

(* short_vec_neon_float_4.hpp:55-58 *)
Definition neon_float_4_ctor_ptr : body :=
  [SSet (LVal (EInt 0)) (ECall vld1q_f32 [dat 0])].

(* short_vec_neon_float_4.hpp:60-63 *)
Definition neon_float_4_ctor_regs : body :=
  [SSet (LVal (EInt 0)) (EPar 0)].

(* short_vec_neon_float_4.hpp:66-71 *)
Definition neon_float_4_ctor_list : body :=
  [SSet (LVal (EInt 0)) (ECall vld1q_f32 [dat 0])].

(* short_vec_neon_float_4.hpp:74-78 *)
Definition neon_float_4_sub_eq : body :=
  [SSet (LVal (EInt 0)) (ECall vsubq_f32 [vv 0; oo 0])].

(* short_vec_neon_float_4.hpp:80-84 *)
Definition neon_float_4_sub : body :=
  [SRetVec [(ECall vsubq_f32 [vv 0; oo 0])]].

(* short_vec_neon_float_4.hpp:86-90 *)
Definition neon_float_4_add_eq : body :=
  [SSet (LVal (EInt 0)) (ECall vaddq_f32 [vv 0; oo 0])].

(* short_vec_neon_float_4.hpp:92-97 *)
Definition neon_float_4_add : body :=
  [SRetVec [(ECall vaddq_f32 [vv 0; oo 0])]].

(* short_vec_neon_float_4.hpp:99-103 *)
Definition neon_float_4_mul_eq : body :=
  [SSet (LVal (EInt 0)) (ECall vmulq_f32 [vv 0; oo 0])].

(* short_vec_neon_float_4.hpp:105-110 *)
Definition neon_float_4_mul : body :=
  [SRetVec [(ECall vmulq_f32 [vv 0; oo 0])]].

(* short_vec_neon_float_4.hpp:118-134 *)
Definition neon_float_4_div_eq : body :=
  [SSet (LVar "reciprocal1") (ECall vrecpeq_f32 [oo 0]);
   SSet (LVar "reciprocal1") (ECall vmulq_f32 [(ECall vrecpsq_f32 [oo 0; (EVar "reciprocal1")]);
    (EVar "reciprocal1")]);
   SSet (LVal (EInt 0)) (ECall vmulq_f32 [vv 0; (EVar "reciprocal1")])].

(* short_vec_neon_float_4.hpp:142-161 *)
Definition neon_float_4_div : body :=
  [SSet (LVar "reciprocal1") (ECall vrecpeq_f32 [oo 0]);
   SSet (LVar "reciprocal1") (ECall vmulq_f32 [(ECall vrecpsq_f32 [oo 0; (EVar "reciprocal1")]);
    (EVar "reciprocal1")]);
   SSet (LVar "result") (ECall vmulq_f32 [vv 0; (EVar "reciprocal1")]);
   SRetVec [(EVar "result")]].

(* short_vec_neon_float_4.hpp:163-167 *)
Definition neon_float_4_lt : body :=
  [SRet (ECall vcltq_f32 [vv 0; oo 0])].

(* short_vec_neon_float_4.hpp:169-173 *)
Definition neon_float_4_le : body :=
  [SRet (ECall vcaleq_f32 [vv 0; oo 0])].

(* short_vec_neon_float_4.hpp:175-179 *)
Definition neon_float_4_eq : body :=
  [SRet (ECall vcltq_f32 [vv 0; oo 0])].

(* short_vec_neon_float_4.hpp:181-185 *)
Definition neon_float_4_gt : body :=
  [SRet (ECall vcgtq_f32 [vv 0; oo 0])].

(* short_vec_neon_float_4.hpp:187-191 *)
Definition neon_float_4_ge : body :=
  [SRet (ECall vcgeq_f32 [vv 0; oo 0])].

(* short_vec_neon_float_4.hpp:194-221 *)
Definition neon_float_4_sqrt : body :=
  [SSet (LVar "x1") (ECall vrsqrteq_f32 [vv 0]);
   SSet (LVar "vec_p_inf") (ECall vdupq_n_u32 [EInt 2139095040]);
   SSet (LVar "div_by_zero") (ECall vceqq_u32 [(EVar "vec_p_inf"); (ECall vreinterpretq_u32_f32
    [(EVar "x1")])]);
   SSet (LVar "x1") (ECall vreinterpretq_f32_u32 [(ECall vandq_u32 [(ECall vmvnq_u32 [(EVar
    "div_by_zero")]); (ECall vreinterpretq_u32_f32 [(EVar "x1")])])]);
   SSet (LVar "x1") (ECall vmulq_f32 [(ECall vrsqrtsq_f32 [(ECall vmulq_f32 [(EVar "x1"); (EVar
    "x1")]); vv 0]); (EVar "x1")]);
   SRetVec [(ECall vmulq_f32 [vv 0; (EVar "x1")])]].

(* short_vec_neon_float_4.hpp:223-227 *)
Definition neon_float_4_load : body :=
  [SSet (LVal (EInt 0)) (ECall vld1q_f32 [dat 0])].

(* short_vec_neon_float_4.hpp:229-234 *)
Definition neon_float_4_load_aligned : body :=
  [SAssertAligned EData 16;
   SSet (LVal (EInt 0)) (ECall vld1q_f32 [dat 0])].

(* short_vec_neon_float_4.hpp:236-240 *)
Definition neon_float_4_store : body :=
  [SDo (ECall vst1q_f32 [EData; vv 0])].

(* short_vec_neon_float_4.hpp:242-247 *)
Definition neon_float_4_store_aligned : body :=
  [SAssertAligned EData 16;
   SDo (ECall vst1q_f32 [EData; vv 0])].

(* short_vec_neon_float_4.hpp:249-268 *)
Definition neon_float_4_store_nt : body :=
  [SDo (ECall vst1q_f32 [EData; vv 0])].

(* short_vec_neon_float_4.hpp:271-280 *)
Definition neon_float_4_gather : body :=
  [SDecl "data" 4;
   SSet (LLoc "data" (EInt 0)) (EIdx EPtr (off 0));
   SSet (LLoc "data" (EInt 1)) (EIdx EPtr (off 1));
   SSet (LLoc "data" (EInt 2)) (EIdx EPtr (off 2));
   SSet (LLoc "data" (EInt 3)) (EIdx EPtr (off 3));
   SSet (LVal (EInt 0)) (ECall vld1q_f32 [(ECop OAdd (ELoc "data") (EInt 0))])].

(* short_vec_neon_float_4.hpp:283-291 *)
Definition neon_float_4_scatter : body :=
  [SSet (LVar "data1") (vv 0);
   SSet (LMem (pto 0)) (EIdx (EVar "data1") (EInt 0));
   SSet (LMem (pto 1)) (EIdx (EVar "data1") (EInt 1));
   SSet (LMem (pto 2)) (EIdx (EVar "data1") (EInt 2));
   SSet (LMem (pto 3)) (EIdx (EVar "data1") (EInt 3))].

(* short_vec_neon_float_4.hpp:313-318 *)
Definition neon_float_4_print : list item :=
  [PStr "["; PVal (EIdx (vv 0) (EInt 0)); PStr ", "; PVal (EIdx (vv 0) (EInt 1)); PStr ", "; PVal
   (EIdx (vv 0) (EInt 2)); PStr ", "; PVal (EIdx (vv 0) (EInt 3)); PStr "]"].

(* short_vec_neon_float_4.hpp *)
Definition cls_neon_float_4 : cls :=
  mkCls "neon_float_4" KF32 4 1 4 16 MReg
    (fun m => match m with
     | MCtorScalar => Some neon_float_4_ctor_scalar
     | MCtorPtr => Some neon_float_4_ctor_ptr
     | MCtorRegs => Some neon_float_4_ctor_regs
     | MCtorList => Some neon_float_4_ctor_list
     | MSubEq => Some neon_float_4_sub_eq
     | MSub => Some neon_float_4_sub
     | MAddEq => Some neon_float_4_add_eq
     | MAdd => Some neon_float_4_add
     | MMulEq => Some neon_float_4_mul_eq
     | MMul => Some neon_float_4_mul
     | MDivEq => Some neon_float_4_div_eq
     | MDiv => Some neon_float_4_div
     | MLt => Some neon_float_4_lt
     | MLe => Some neon_float_4_le
     | MEq => Some neon_float_4_eq
     | MGt => Some neon_float_4_gt
     | MGe => Some neon_float_4_ge
     | MSqrt => Some neon_float_4_sqrt
     | MLoad => Some neon_float_4_load
     | MLoadAligned => Some neon_float_4_load_aligned
     | MStore => Some neon_float_4_store
     | MStoreAligned => Some neon_float_4_store_aligned
     | MStoreNt => Some neon_float_4_store_nt
     | MGather => Some neon_float_4_gather
     | MScatter => Some neon_float_4_scatter
     | _ => None
     end)
    neon_float_4_ctor_regs neon_float_4_print.

(* short_vec_neon_float_4.hpp:118-134 with LIBFLATARRAY_WITH_INCREASED_PRECISION *)
Definition neon_float_4_ip_div_eq : body :=
  [SSet (LVar "reciprocal1") (ECall vrecpeq_f32 [oo 0]);
   SSet (LVar "reciprocal1") (ECall vmulq_f32 [(ECall vrecpsq_f32 [oo 0; (EVar "reciprocal1")]);
    (EVar "reciprocal1")]);
   SSet (LVar "reciprocal1") (ECall vmulq_f32 [(ECall vrecpsq_f32 [oo 0; (EVar "reciprocal1")]);
    (EVar "reciprocal1")]);
   SSet (LVal (EInt 0)) (ECall vmulq_f32 [vv 0; (EVar "reciprocal1")])].

(* short_vec_neon_float_4.hpp:142-161 with LIBFLATARRAY_WITH_INCREASED_PRECISION *)
Definition neon_float_4_ip_div : body :=
  [SSet (LVar "reciprocal1") (ECall vrecpeq_f32 [oo 0]);
   SSet (LVar "reciprocal1") (ECall vmulq_f32 [(ECall vrecpsq_f32 [oo 0; (EVar "reciprocal1")]);
    (EVar "reciprocal1")]);
   SSet (LVar "reciprocal1") (ECall vmulq_f32 [(ECall vrecpsq_f32 [oo 0; (EVar "reciprocal1")]);
    (EVar "reciprocal1")]);
   SSet (LVar "result") (ECall vmulq_f32 [vv 0; (EVar "reciprocal1")]);
   SRetVec [(EVar "result")]].

(* short_vec_neon_float_4.hpp:194-221 with LIBFLATARRAY_WITH_INCREASED_PRECISION *)
Definition neon_float_4_ip_sqrt : body :=
  [SSet (LVar "x1") (ECall vrsqrteq_f32 [vv 0]);
   SSet (LVar "vec_p_inf") (ECall vdupq_n_u32 [EInt 2139095040]);
   SSet (LVar "div_by_zero") (ECall vceqq_u32 [(EVar "vec_p_inf"); (ECall vreinterpretq_u32_f32
    [(EVar "x1")])]);
   SSet (LVar "x1") (ECall vreinterpretq_f32_u32 [(ECall vandq_u32 [(ECall vmvnq_u32 [(EVar
    "div_by_zero")]); (ECall vreinterpretq_u32_f32 [(EVar "x1")])])]);
   SSet (LVar "x1") (ECall vmulq_f32 [(ECall vrsqrtsq_f32 [(ECall vmulq_f32 [(EVar "x1"); (EVar
    "x1")]); vv 0]); (EVar "x1")]);
   SSet (LVar "x1") (ECall vmulq_f32 [(ECall vrsqrtsq_f32 [(ECall vmulq_f32 [(EVar "x1"); (EVar
    "x1")]); vv 0]); (EVar "x1")]);
   SRetVec [(ECall vmulq_f32 [vv 0; (EVar "x1")])]].

(* short_vec_neon_float_4.hpp with LIBFLATARRAY_WITH_INCREASED_PRECISION *)
Definition cls_neon_float_4_ip : cls :=
  mkCls "neon_float_4_ip" KF32 4 1 4 16 MReg
    (fun m => match m with
     | MCtorScalar => Some neon_float_4_ctor_scalar
     | MCtorPtr => Some neon_float_4_ctor_ptr
     | MCtorRegs => Some neon_float_4_ctor_regs
     | MCtorList => Some neon_float_4_ctor_list
     | MSubEq => Some neon_float_4_sub_eq
     | MSub => Some neon_float_4_sub
     | MAddEq => Some neon_float_4_add_eq
     | MAdd => Some neon_float_4_add
     | MMulEq => Some neon_float_4_mul_eq
     | MMul => Some neon_float_4_mul
     | MDivEq => Some neon_float_4_ip_div_eq
     | MDiv => Some neon_float_4_ip_div
     | MLt => Some neon_float_4_lt
     | MLe => Some neon_float_4_le
     | MEq => Some neon_float_4_eq
     | MGt => Some neon_float_4_gt
     | MGe => Some neon_float_4_ge
     | MSqrt => Some neon_float_4_ip_sqrt
     | MLoad => Some neon_float_4_load
     | MLoadAligned => Some neon_float_4_load_aligned
     | MStore => Some neon_float_4_store
     | MStoreAligned => Some neon_float_4_store_aligned
     | MStoreNt => Some neon_float_4_store_nt
     | MGather => Some neon_float_4_gather
     | MScatter => Some neon_float_4_scatter
     | _ => None
     end)
    neon_float_4_ctor_regs neon_float_4_print.

(* short_vec_neon_float_4.hpp:249-268 with __LP64__ *)
Definition neon_float_4_lp64_store_nt : body :=
  [SDecl "val2" 4;
   SSet (LVar "val2") (vv 0);
   SAsmStnp (vv 0)].

(* short_vec_neon_float_4.hpp with __LP64__ *)
Definition cls_neon_float_4_lp64 : cls :=
  mkCls "neon_float_4_lp64" KF32 4 1 4 16 MReg
    (fun m => match m with
     | MCtorScalar => Some neon_float_4_ctor_scalar
     | MCtorPtr => Some neon_float_4_ctor_ptr
     | MCtorRegs => Some neon_float_4_ctor_regs
     | MCtorList => Some neon_float_4_ctor_list
     | MSubEq => Some neon_float_4_sub_eq
     | MSub => Some neon_float_4_sub
     | MAddEq => Some neon_float_4_add_eq
     | MAdd => Some neon_float_4_add
     | MMulEq => Some neon_float_4_mul_eq
     | MMul => Some neon_float_4_mul
     | MDivEq => Some neon_float_4_div_eq
     | MDiv => Some neon_float_4_div
     | MLt => Some neon_float_4_lt
     | MLe => Some neon_float_4_le
     | MEq => Some neon_float_4_eq
     | MGt => Some neon_float_4_gt
     | MGe => Some neon_float_4_ge
     | MSqrt => Some neon_float_4_sqrt
     | MLoad => Some neon_float_4_load
     | MLoadAligned => Some neon_float_4_load_aligned
     | MStore => Some neon_float_4_store
     | MStoreAligned => Some neon_float_4_store_aligned
     | MStoreNt => Some neon_float_4_lp64_store_nt
     | MGather => Some neon_float_4_gather
     | MScatter => Some neon_float_4_scatter
     | _ => None
     end)
    neon_float_4_ctor_regs neon_float_4_print.

(* short_vec_neon_float_8.hpp:50-54 *)
Definition neon_float_8_ctor_scalar : body :=
  [SSet (LVal (EInt 0)) (ECall vdupq_n_f32 [EArg]);
   SSet (LVal (EInt 1)) (ECall vdupq_n_f32 [EArg])].

(* short_vec_neon_float_8.hpp:56-60 *)
Definition neon_float_8_ctor_ptr : body :=
  [SSet (LVal (EInt 0)) (ECall vld1q_f32 [dat 0]);
   SSet (LVal (EInt 1)) (ECall vld1q_f32 [dat 4])].

(* short_vec_neon_float_8.hpp:62-66 *)
Definition neon_float_8_ctor_regs : body :=
  [SSet (LVal (EInt 0)) (EPar 0);
   SSet (LVal (EInt 1)) (EPar 1)].

(* short_vec_neon_float_8.hpp:69-74 *)
Definition neon_float_8_ctor_list : body :=
  [SSet (LVal (EInt 0)) (ECall vld1q_f32 [dat 0]);
   SSet (LVal (EInt 1)) (ECall vld1q_f32 [dat 4])].

(* short_vec_neon_float_8.hpp:77-82 *)
Definition neon_float_8_sub_eq : body :=
  [SSet (LVal (EInt 0)) (ECall vsubq_f32 [vv 0; oo 0]);
   SSet (LVal (EInt 1)) (ECall vsubq_f32 [vv 1; oo 1])].

(* short_vec_neon_float_8.hpp:84-90 *)
Definition neon_float_8_sub : body :=
  [SRetVec [(ECall vsubq_f32 [vv 0; oo 0]); (ECall vsubq_f32 [vv 1; oo 1])]].

(* short_vec_neon_float_8.hpp:92-97 *)
Definition neon_float_8_add_eq : body :=
  [SSet (LVal (EInt 0)) (ECall vaddq_f32 [vv 0; oo 0]);
   SSet (LVal (EInt 1)) (ECall vaddq_f32 [vv 1; oo 1])].

(* short_vec_neon_float_8.hpp:99-106 *)
Definition neon_float_8_add : body :=
  [SRetVec [(ECall vaddq_f32 [vv 0; oo 0]); (ECall vaddq_f32 [vv 1; oo 1])]].

(* short_vec_neon_float_8.hpp:108-113 *)
Definition neon_float_8_mul_eq : body :=
  [SSet (LVal (EInt 0)) (ECall vmulq_f32 [vv 0; oo 0]);
   SSet (LVal (EInt 1)) (ECall vmulq_f32 [vv 1; oo 1])].

(* short_vec_neon_float_8.hpp:115-122 *)
Definition neon_float_8_mul : body :=
  [SRetVec [(ECall vmulq_f32 [vv 0; oo 0]); (ECall vmulq_f32 [vv 1; oo 1])]].

(* short_vec_neon_float_8.hpp:130-150 *)
Definition neon_float_8_div_eq : body :=
  [SSet (LVar "reciprocal1") (ECall vrecpeq_f32 [oo 0]);
   SSet (LVar "reciprocal2") (ECall vrecpeq_f32 [oo 1]);
   SSet (LVar "reciprocal1") (ECall vmulq_f32 [(ECall vrecpsq_f32 [oo 0; (EVar "reciprocal1")]);
    (EVar "reciprocal1")]);
   SSet (LVar "reciprocal2") (ECall vmulq_f32 [(ECall vrecpsq_f32 [oo 1; (EVar "reciprocal2")]);
    (EVar "reciprocal2")]);
   SSet (LVal (EInt 0)) (ECall vmulq_f32 [vv 0; (EVar "reciprocal1")]);
   SSet (LVal (EInt 1)) (ECall vmulq_f32 [vv 1; (EVar "reciprocal2")])].

(* short_vec_neon_float_8.hpp:158-181 *)
Definition neon_float_8_div : body :=
  [SSet (LVar "reciprocal1") (ECall vrecpeq_f32 [oo 0]);
   SSet (LVar "reciprocal2") (ECall vrecpeq_f32 [oo 1]);
   SSet (LVar "reciprocal1") (ECall vmulq_f32 [(ECall vrecpsq_f32 [oo 0; (EVar "reciprocal1")]);
    (EVar "reciprocal1")]);
   SSet (LVar "reciprocal2") (ECall vmulq_f32 [(ECall vrecpsq_f32 [oo 1; (EVar "reciprocal2")]);
    (EVar "reciprocal2")]);
   SSet (LVar "result1") (ECall vmulq_f32 [vv 0; (EVar "reciprocal1")]);
   SSet (LVar "result2") (ECall vmulq_f32 [vv 1; (EVar "reciprocal2")]);
   SRetVec [(EVar "result1"); (EVar "result2")]].

(* short_vec_neon_float_8.hpp:184-220 *)
Definition neon_float_8_sqrt : body :=
  [SSet (LVar "x1") (ECall vrsqrteq_f32 [vv 0]);
   SSet (LVar "x2") (ECall vrsqrteq_f32 [vv 1]);
   SSet (LVar "vec_p_inf") (ECall vdupq_n_u32 [EInt 2139095040]);
   SSet (LVar "div_by_zero1") (ECall vceqq_u32 [(EVar "vec_p_inf"); (ECall vreinterpretq_u32_f32
    [(EVar "x1")])]);
   SSet (LVar "div_by_zero2") (ECall vceqq_u32 [(EVar "vec_p_inf"); (ECall vreinterpretq_u32_f32
    [(EVar "x2")])]);
   SSet (LVar "x1") (ECall vreinterpretq_f32_u32 [(ECall vandq_u32 [(ECall vmvnq_u32 [(EVar
    "div_by_zero1")]); (ECall vreinterpretq_u32_f32 [(EVar "x1")])])]);
   SSet (LVar "x2") (ECall vreinterpretq_f32_u32 [(ECall vandq_u32 [(ECall vmvnq_u32 [(EVar
    "div_by_zero2")]); (ECall vreinterpretq_u32_f32 [(EVar "x2")])])]);
   SSet (LVar "x1") (ECall vmulq_f32 [(ECall vrsqrtsq_f32 [(ECall vmulq_f32 [(EVar "x1"); (EVar
    "x1")]); vv 0]); (EVar "x1")]);
   SSet (LVar "x2") (ECall vmulq_f32 [(ECall vrsqrtsq_f32 [(ECall vmulq_f32 [(EVar "x2"); (EVar
    "x2")]); vv 1]); (EVar "x2")]);
   SSet (LVar "result1") (ECall vmulq_f32 [vv 0; (EVar "x1")]);
   SSet (LVar "result2") (ECall vmulq_f32 [vv 1; (EVar "x2")]);
   SRetVec [(EVar "result1"); (EVar "result2")]].

(* short_vec_neon_float_8.hpp:222-227 *)
Definition neon_float_8_load : body :=
  [SSet (LVal (EInt 0)) (ECall vld1q_f32 [dat 0]);
   SSet (LVal (EInt 1)) (ECall vld1q_f32 [dat 4])].

(* short_vec_neon_float_8.hpp:229-234 *)
Definition neon_float_8_load_aligned : body :=
  [SAssertAligned EData 32;
   SSet (LVal (EInt 0)) (ECall vld1q_f32 [dat 0]);
   SSet (LVal (EInt 1)) (ECall vld1q_f32 [dat 4])].

(* short_vec_neon_float_8.hpp:236-241 *)
Definition neon_float_8_store : body :=
  [SDo (ECall vst1q_f32 [EData; vv 0]);
   SDo (ECall vst1q_f32 [dat 4; vv 1])].

(* short_vec_neon_float_8.hpp:243-248 *)
Definition neon_float_8_store_aligned : body :=
  [SAssertAligned EData 32;
   SDo (ECall vst1q_f32 [EData; vv 0]);
   SDo (ECall vst1q_f32 [dat 4; vv 1])].

(* short_vec_neon_float_8.hpp:250-274 *)
Definition neon_float_8_store_nt : body :=
  [SDo (ECall vst1q_f32 [EData; vv 0]);
   SDo (ECall vst1q_f32 [dat 4; vv 1])].

(* short_vec_neon_float_8.hpp:277-290 *)
Definition neon_float_8_gather : body :=
  [SDecl "data" 8;
   SSet (LLoc "data" (EInt 0)) (EIdx EPtr (off 0));
   SSet (LLoc "data" (EInt 1)) (EIdx EPtr (off 1));
   SSet (LLoc "data" (EInt 2)) (EIdx EPtr (off 2));
   SSet (LLoc "data" (EInt 3)) (EIdx EPtr (off 3));
   SSet (LLoc "data" (EInt 4)) (EIdx EPtr (off 4));
   SSet (LLoc "data" (EInt 5)) (EIdx EPtr (off 5));
   SSet (LLoc "data" (EInt 6)) (EIdx EPtr (off 6));
   SSet (LLoc "data" (EInt 7)) (EIdx EPtr (off 7));
   SSet (LVal (EInt 0)) (ECall vld1q_f32 [(ECop OAdd (ELoc "data") (EInt 0))]);
   SSet (LVal (EInt 1)) (ECall vld1q_f32 [(ECop OAdd (ELoc "data") (EInt 4))])].

(* short_vec_neon_float_8.hpp:293-306 *)
Definition neon_float_8_scatter : body :=
  [SSet (LVar "data1") (vv 0);
   SSet (LVar "data2") (vv 1);
   SSet (LMem (pto 0)) (EIdx (EVar "data1") (EInt 0));
   SSet (LMem (pto 1)) (EIdx (EVar "data1") (EInt 1));
   SSet (LMem (pto 2)) (EIdx (EVar "data1") (EInt 2));
   SSet (LMem (pto 3)) (EIdx (EVar "data1") (EInt 3));
   SSet (LMem (pto 4)) (EIdx (EVar "data2") (EInt 0));
   SSet (LMem (pto 5)) (EIdx (EVar "data2") (EInt 1));
   SSet (LMem (pto 6)) (EIdx (EVar "data2") (EInt 2));
   SSet (LMem (pto 7)) (EIdx (EVar "data2") (EInt 3))].

(* short_vec_neon_float_8.hpp:328-337 *)
Definition neon_float_8_print : list item :=
  [PStr "["; PVal (EIdx (vv 0) (EInt 0)); PStr ", "; PVal (EIdx (vv 0) (EInt 1)); PStr ", "; PVal
   (EIdx (vv 0) (EInt 2)); PStr ", "; PVal (EIdx (vv 0) (EInt 3)); PStr ", "; PVal (EIdx (vv 1)
   (EInt 0)); PStr ", "; PVal (EIdx (vv 1) (EInt 1)); PStr ", "; PVal (EIdx (vv 1) (EInt 2)); PStr
   ", "; PVal (EIdx (vv 1) (EInt 3)); PStr "]"].

(* short_vec_neon_float_8.hpp *)
Definition cls_neon_float_8 : cls :=
  mkCls "neon_float_8" KF32 8 2 4 16 MNone
    (fun m => match m with
     | MCtorScalar => Some neon_float_8_ctor_scalar
     | MCtorPtr => Some neon_float_8_ctor_ptr
     | MCtorRegs => Some neon_float_8_ctor_regs
     | MCtorList => Some neon_float_8_ctor_list
     | MSubEq => Some neon_float_8_sub_eq
     | MSub => Some neon_float_8_sub
     | MAddEq => Some neon_float_8_add_eq
     | MAdd => Some neon_float_8_add
     | MMulEq => Some neon_float_8_mul_eq
     | MMul => Some neon_float_8_mul
     | MDivEq => Some neon_float_8_div_eq
     | MDiv => Some neon_float_8_div
     | MSqrt => Some neon_float_8_sqrt
     | MLoad => Some neon_float_8_load
     | MLoadAligned => Some neon_float_8_load_aligned
     | MStore => Some neon_float_8_store
     | MStoreAligned => Some neon_float_8_store_aligned
     | MStoreNt => Some neon_float_8_store_nt
     | MGather => Some neon_float_8_gather
     | MScatter => Some neon_float_8_scatter
     | _ => None
     end)
    neon_float_8_ctor_regs neon_float_8_print.

(* short_vec_neon_float_8.hpp:130-150 with LIBFLATARRAY_WITH_INCREASED_PRECISION *)
Definition neon_float_8_ip_div_eq : body :=
  [SSet (LVar "reciprocal1") (ECall vrecpeq_f32 [oo 0]);
   SSet (LVar "reciprocal2") (ECall vrecpeq_f32 [oo 1]);
   SSet (LVar "reciprocal1") (ECall vmulq_f32 [(ECall vrecpsq_f32 [oo 0; (EVar "reciprocal1")]);
    (EVar "reciprocal1")]);
   SSet (LVar "reciprocal2") (ECall vmulq_f32 [(ECall vrecpsq_f32 [oo 1; (EVar "reciprocal2")]);
    (EVar "reciprocal2")]);
   SSet (LVar "reciprocal1") (ECall vmulq_f32 [(ECall vrecpsq_f32 [oo 0; (EVar "reciprocal1")]);
    (EVar "reciprocal1")]);
   SSet (LVar "reciprocal2") (ECall vmulq_f32 [(ECall vrecpsq_f32 [oo 1; (EVar "reciprocal2")]);
    (EVar "reciprocal2")]);
   SSet (LVal (EInt 0)) (ECall vmulq_f32 [vv 0; (EVar "reciprocal1")]);
   SSet (LVal (EInt 1)) (ECall vmulq_f32 [vv 1; (EVar "reciprocal2")])].

(* short_vec_neon_float_8.hpp:158-181 with LIBFLATARRAY_WITH_INCREASED_PRECISION *)
Definition neon_float_8_ip_div : body :=
  [SSet (LVar "reciprocal1") (ECall vrecpeq_f32 [oo 0]);
   SSet (LVar "reciprocal2") (ECall vrecpeq_f32 [oo 1]);
   SSet (LVar "reciprocal1") (ECall vmulq_f32 [(ECall vrecpsq_f32 [oo 0; (EVar "reciprocal1")]);
    (EVar "reciprocal1")]);
   SSet (LVar "reciprocal2") (ECall vmulq_f32 [(ECall vrecpsq_f32 [oo 1; (EVar "reciprocal2")]);
    (EVar "reciprocal2")]);
   SSet (LVar "reciprocal1") (ECall vmulq_f32 [(ECall vrecpsq_f32 [oo 0; (EVar "reciprocal1")]);
    (EVar "reciprocal1")]);
   SSet (LVar "reciprocal2") (ECall vmulq_f32 [(ECall vrecpsq_f32 [oo 1; (EVar "reciprocal2")]);
    (EVar "reciprocal2")]);
   SSet (LVar "result1") (ECall vmulq_f32 [vv 0; (EVar "reciprocal1")]);
   SSet (LVar "result2") (ECall vmulq_f32 [vv 1; (EVar "reciprocal2")]);
   SRetVec [(EVar "result1"); (EVar "result2")]].

(* short_vec_neon_float_8.hpp:184-220 with LIBFLATARRAY_WITH_INCREASED_PRECISION *)
Definition neon_float_8_ip_sqrt : body :=
  [SSet (LVar "x1") (ECall vrsqrteq_f32 [vv 0]);
   SSet (LVar "x2") (ECall vrsqrteq_f32 [vv 1]);
   SSet (LVar "vec_p_inf") (ECall vdupq_n_u32 [EInt 2139095040]);
   SSet (LVar "div_by_zero1") (ECall vceqq_u32 [(EVar "vec_p_inf"); (ECall vreinterpretq_u32_f32
    [(EVar "x1")])]);
   SSet (LVar "div_by_zero2") (ECall vceqq_u32 [(EVar "vec_p_inf"); (ECall vreinterpretq_u32_f32
    [(EVar "x2")])]);
   SSet (LVar "x1") (ECall vreinterpretq_f32_u32 [(ECall vandq_u32 [(ECall vmvnq_u32 [(EVar
    "div_by_zero1")]); (ECall vreinterpretq_u32_f32 [(EVar "x1")])])]);
   SSet (LVar "x2") (ECall vreinterpretq_f32_u32 [(ECall vandq_u32 [(ECall vmvnq_u32 [(EVar
    "div_by_zero2")]); (ECall vreinterpretq_u32_f32 [(EVar "x2")])])]);
   SSet (LVar "x1") (ECall vmulq_f32 [(ECall vrsqrtsq_f32 [(ECall vmulq_f32 [(EVar "x1"); (EVar
    "x1")]); vv 0]); (EVar "x1")]);
   SSet (LVar "x2") (ECall vmulq_f32 [(ECall vrsqrtsq_f32 [(ECall vmulq_f32 [(EVar "x2"); (EVar
    "x2")]); vv 1]); (EVar "x2")]);
   SSet (LVar "x1") (ECall vmulq_f32 [(ECall vrsqrtsq_f32 [(ECall vmulq_f32 [(EVar "x1"); (EVar
    "x1")]); vv 0]); (EVar "x1")]);
   SSet (LVar "x2") (ECall vmulq_f32 [(ECall vrsqrtsq_f32 [(ECall vmulq_f32 [(EVar "x2"); (EVar
    "x2")]); vv 1]); (EVar "x2")]);
   SSet (LVar "result1") (ECall vmulq_f32 [vv 0; (EVar "x1")]);
   SSet (LVar "result2") (ECall vmulq_f32 [vv 1; (EVar "x2")]);
   SRetVec [(EVar "result1"); (EVar "result2")]].

(* short_vec_neon_float_8.hpp with LIBFLATARRAY_WITH_INCREASED_PRECISION *)
Definition cls_neon_float_8_ip : cls :=
  mkCls "neon_float_8_ip" KF32 8 2 4 16 MNone
    (fun m => match m with
     | MCtorScalar => Some neon_float_8_ctor_scalar
     | MCtorPtr => Some neon_float_8_ctor_ptr
     | MCtorRegs => Some neon_float_8_ctor_regs
     | MCtorList => Some neon_float_8_ctor_list
     | MSubEq => Some neon_float_8_sub_eq
     | MSub => Some neon_float_8_sub
     | MAddEq => Some neon_float_8_add_eq
     | MAdd => Some neon_float_8_add
     | MMulEq => Some neon_float_8_mul_eq
     | MMul => Some neon_float_8_mul
     | MDivEq => Some neon_float_8_ip_div_eq
     | MDiv => Some neon_float_8_ip_div
     | MSqrt => Some neon_float_8_ip_sqrt
     | MLoad => Some neon_float_8_load
     | MLoadAligned => Some neon_float_8_load_aligned
     | MStore => Some neon_float_8_store
     | MStoreAligned => Some neon_float_8_store_aligned
     | MStoreNt => Some neon_float_8_store_nt
     | MGather => Some neon_float_8_gather
     | MScatter => Some neon_float_8_scatter
     | _ => None
     end)
    neon_float_8_ctor_regs neon_float_8_print.

(* short_vec_neon_float_16.hpp:49-55 *)
Definition neon_float_16_ctor_scalar : body :=
  [SSet (LVal (EInt 0)) (ECall vdupq_n_f32 [EArg]);
   SSet (LVal (EInt 1)) (ECall vdupq_n_f32 [EArg]);
   SSet (LVal (EInt 2)) (ECall vdupq_n_f32 [EArg]);
   SSet (LVal (EInt 3)) (ECall vdupq_n_f32 [EArg])].

(* short_vec_neon_float_16.hpp:57-61 *)
Definition neon_float_16_ctor_ptr : body :=
  [SSet (LVal (EInt 0)) (ECall vld1q_f32 [dat 0]);
   SSet (LVal (EInt 1)) (ECall vld1q_f32 [dat 4]);
   SSet (LVal (EInt 2)) (ECall vld1q_f32 [dat 8]);
   SSet (LVal (EInt 3)) (ECall vld1q_f32 [dat 12])].

(* short_vec_neon_float_16.hpp:63-70 *)
Definition neon_float_16_ctor_regs : body :=
  [SSet (LVal (EInt 0)) (EPar 0);
   SSet (LVal (EInt 1)) (EPar 1);
   SSet (LVal (EInt 2)) (EPar 2);
   SSet (LVal (EInt 3)) (EPar 3)].

(* short_vec_neon_float_16.hpp:73-78 *)
Definition neon_float_16_ctor_list : body :=
  [SSet (LVal (EInt 0)) (ECall vld1q_f32 [dat 0]);
   SSet (LVal (EInt 1)) (ECall vld1q_f32 [dat 4]);
   SSet (LVal (EInt 2)) (ECall vld1q_f32 [dat 8]);
   SSet (LVal (EInt 3)) (ECall vld1q_f32 [dat 12])].

(* short_vec_neon_float_16.hpp:81-88 *)
Definition neon_float_16_sub_eq : body :=
  [SSet (LVal (EInt 0)) (ECall vsubq_f32 [vv 0; oo 0]);
   SSet (LVal (EInt 1)) (ECall vsubq_f32 [vv 1; oo 1]);
   SSet (LVal (EInt 2)) (ECall vsubq_f32 [vv 2; oo 2]);
   SSet (LVal (EInt 3)) (ECall vsubq_f32 [vv 3; oo 3])].

(* short_vec_neon_float_16.hpp:90-97 *)
Definition neon_float_16_sub : body :=
  [SRetVec [(ECall vsubq_f32 [vv 0; oo 0]); (ECall vsubq_f32 [vv 1; oo 1]); (ECall vsubq_f32 [vv 2;
    oo 2]); (ECall vsubq_f32 [vv 3; oo 3])]].

(* short_vec_neon_float_16.hpp:99-106 *)
Definition neon_float_16_add_eq : body :=
  [SSet (LVal (EInt 0)) (ECall vaddq_f32 [vv 0; oo 0]);
   SSet (LVal (EInt 1)) (ECall vaddq_f32 [vv 1; oo 1]);
   SSet (LVal (EInt 2)) (ECall vaddq_f32 [vv 2; oo 2]);
   SSet (LVal (EInt 3)) (ECall vaddq_f32 [vv 3; oo 3])].

(* short_vec_neon_float_16.hpp:108-116 *)
Definition neon_float_16_add : body :=
  [SRetVec [(ECall vaddq_f32 [vv 0; oo 0]); (ECall vaddq_f32 [vv 1; oo 1]); (ECall vaddq_f32 [vv 2;
    oo 2]); (ECall vaddq_f32 [vv 3; oo 3])]].

(* short_vec_neon_float_16.hpp:118-125 *)
Definition neon_float_16_mul_eq : body :=
  [SSet (LVal (EInt 0)) (ECall vmulq_f32 [vv 0; oo 0]);
   SSet (LVal (EInt 1)) (ECall vmulq_f32 [vv 1; oo 1]);
   SSet (LVal (EInt 2)) (ECall vmulq_f32 [vv 2; oo 2]);
   SSet (LVal (EInt 3)) (ECall vmulq_f32 [vv 3; oo 3])].

(* short_vec_neon_float_16.hpp:127-134 *)
Definition neon_float_16_mul : body :=
  [SRetVec [(ECall vmulq_f32 [vv 0; oo 0]); (ECall vmulq_f32 [vv 1; oo 1]); (ECall vmulq_f32 [vv 2;
    oo 2]); (ECall vmulq_f32 [vv 3; oo 3])]].

(* short_vec_neon_float_16.hpp:142-170 *)
Definition neon_float_16_div_eq : body :=
  [SSet (LVar "iterations") (EInt 1);
   SSet (LVar "reciprocal1") (ECall vrecpeq_f32 [oo 0]);
   SSet (LVar "reciprocal2") (ECall vrecpeq_f32 [oo 1]);
   SSet (LVar "reciprocal3") (ECall vrecpeq_f32 [oo 2]);
   SSet (LVar "reciprocal4") (ECall vrecpeq_f32 [oo 3]);
   SFor (EVar "iterations") [SSet (LVar "reciprocal1") (ECall vmulq_f32 [(ECall vrecpsq_f32 [oo 0;
    (EVar "reciprocal1")]); (EVar "reciprocal1")]); SSet (LVar "reciprocal2") (ECall vmulq_f32
    [(ECall vrecpsq_f32 [oo 1; (EVar "reciprocal2")]); (EVar "reciprocal2")]); SSet (LVar
    "reciprocal3") (ECall vmulq_f32 [(ECall vrecpsq_f32 [oo 2; (EVar "reciprocal3")]); (EVar
    "reciprocal3")]); SSet (LVar "reciprocal4") (ECall vmulq_f32 [(ECall vrecpsq_f32 [oo 3; (EVar
    "reciprocal4")]); (EVar "reciprocal4")])];
   SSet (LVal (EInt 0)) (ECall vmulq_f32 [vv 0; (EVar "reciprocal1")]);
   SSet (LVal (EInt 1)) (ECall vmulq_f32 [vv 1; (EVar "reciprocal2")]);
   SSet (LVal (EInt 2)) (ECall vmulq_f32 [vv 2; (EVar "reciprocal3")]);
   SSet (LVal (EInt 3)) (ECall vmulq_f32 [vv 3; (EVar "reciprocal4")])].

(* short_vec_neon_float_16.hpp:178-214 *)
Definition neon_float_16_div : body :=
  [SSet (LVar "iterations") (EInt 1);
   SSet (LVar "reciprocal1") (ECall vrecpeq_f32 [oo 0]);
   SSet (LVar "reciprocal2") (ECall vrecpeq_f32 [oo 1]);
   SSet (LVar "reciprocal3") (ECall vrecpeq_f32 [oo 2]);
   SSet (LVar "reciprocal4") (ECall vrecpeq_f32 [oo 3]);
   SFor (EVar "iterations") [SSet (LVar "reciprocal1") (ECall vmulq_f32 [(ECall vrecpsq_f32 [oo 0;
    (EVar "reciprocal1")]); (EVar "reciprocal1")]); SSet (LVar "reciprocal2") (ECall vmulq_f32
    [(ECall vrecpsq_f32 [oo 1; (EVar "reciprocal2")]); (EVar "reciprocal2")]); SSet (LVar
    "reciprocal3") (ECall vmulq_f32 [(ECall vrecpsq_f32 [oo 2; (EVar "reciprocal3")]); (EVar
    "reciprocal3")]); SSet (LVar "reciprocal4") (ECall vmulq_f32 [(ECall vrecpsq_f32 [oo 3; (EVar
    "reciprocal4")]); (EVar "reciprocal4")])];
   SSet (LVar "result1") (ECall vmulq_f32 [vv 0; (EVar "reciprocal1")]);
   SSet (LVar "result2") (ECall vmulq_f32 [vv 1; (EVar "reciprocal2")]);
   SSet (LVar "result3") (ECall vmulq_f32 [vv 2; (EVar "reciprocal3")]);
   SSet (LVar "result4") (ECall vmulq_f32 [vv 3; (EVar "reciprocal4")]);
   SRetVec [(EVar "result1"); (EVar "result2"); (EVar "result3"); (EVar "result4")]].

(* short_vec_neon_float_16.hpp:217-269 *)
Definition neon_float_16_sqrt : body :=
  [SSet (LVar "iterations") (EInt 1);
   SSet (LVar "x1") (ECall vrsqrteq_f32 [vv 0]);
   SSet (LVar "x2") (ECall vrsqrteq_f32 [vv 1]);
   SSet (LVar "x3") (ECall vrsqrteq_f32 [vv 2]);
   SSet (LVar "x4") (ECall vrsqrteq_f32 [vv 3]);
   SSet (LVar "vec_p_inf") (ECall vdupq_n_u32 [EInt 2139095040]);
   SSet (LVar "div_by_zero1") (ECall vceqq_u32 [(EVar "vec_p_inf"); (ECall vreinterpretq_u32_f32
    [(EVar "x1")])]);
   SSet (LVar "div_by_zero2") (ECall vceqq_u32 [(EVar "vec_p_inf"); (ECall vreinterpretq_u32_f32
    [(EVar "x2")])]);
   SSet (LVar "div_by_zero3") (ECall vceqq_u32 [(EVar "vec_p_inf"); (ECall vreinterpretq_u32_f32
    [(EVar "x3")])]);
   SSet (LVar "div_by_zero4") (ECall vceqq_u32 [(EVar "vec_p_inf"); (ECall vreinterpretq_u32_f32
    [(EVar "x4")])]);
   SSet (LVar "x1") (ECall vreinterpretq_f32_u32 [(ECall vandq_u32 [(ECall vmvnq_u32 [(EVar
    "div_by_zero1")]); (ECall vreinterpretq_u32_f32 [(EVar "x1")])])]);
   SSet (LVar "x2") (ECall vreinterpretq_f32_u32 [(ECall vandq_u32 [(ECall vmvnq_u32 [(EVar
    "div_by_zero2")]); (ECall vreinterpretq_u32_f32 [(EVar "x2")])])]);
   SSet (LVar "x3") (ECall vreinterpretq_f32_u32 [(ECall vandq_u32 [(ECall vmvnq_u32 [(EVar
    "div_by_zero3")]); (ECall vreinterpretq_u32_f32 [(EVar "x3")])])]);
   SSet (LVar "x4") (ECall vreinterpretq_f32_u32 [(ECall vandq_u32 [(ECall vmvnq_u32 [(EVar
    "div_by_zero4")]); (ECall vreinterpretq_u32_f32 [(EVar "x4")])])]);
   SFor (EVar "iterations") [SSet (LVar "x1") (ECall vmulq_f32 [(ECall vrsqrtsq_f32 [(ECall
    vmulq_f32 [(EVar "x1"); (EVar "x1")]); vv 0]); (EVar "x1")]); SSet (LVar "x2") (ECall vmulq_f32
    [(ECall vrsqrtsq_f32 [(ECall vmulq_f32 [(EVar "x2"); (EVar "x2")]); vv 1]); (EVar "x2")]); SSet
    (LVar "x3") (ECall vmulq_f32 [(ECall vrsqrtsq_f32 [(ECall vmulq_f32 [(EVar "x3"); (EVar "x3")]);
    vv 2]); (EVar "x3")]); SSet (LVar "x4") (ECall vmulq_f32 [(ECall vrsqrtsq_f32 [(ECall vmulq_f32
    [(EVar "x4"); (EVar "x4")]); vv 3]); (EVar "x4")])];
   SSet (LVar "result1") (ECall vmulq_f32 [vv 0; (EVar "x1")]);
   SSet (LVar "result2") (ECall vmulq_f32 [vv 1; (EVar "x2")]);
   SSet (LVar "result3") (ECall vmulq_f32 [vv 2; (EVar "x3")]);
   SSet (LVar "result4") (ECall vmulq_f32 [vv 3; (EVar "x4")]);
   SRetVec [(EVar "result1"); (EVar "result2"); (EVar "result3"); (EVar "result4")]].

(* short_vec_neon_float_16.hpp:271-278 *)
Definition neon_float_16_load : body :=
  [SSet (LVal (EInt 0)) (ECall vld1q_f32 [dat 0]);
   SSet (LVal (EInt 1)) (ECall vld1q_f32 [dat 4]);
   SSet (LVal (EInt 2)) (ECall vld1q_f32 [dat 8]);
   SSet (LVal (EInt 3)) (ECall vld1q_f32 [dat 12])].

(* short_vec_neon_float_16.hpp:280-285 *)
Definition neon_float_16_load_aligned : body :=
  [SAssertAligned EData 64;
   SSet (LVal (EInt 0)) (ECall vld1q_f32 [dat 0]);
   SSet (LVal (EInt 1)) (ECall vld1q_f32 [dat 4]);
   SSet (LVal (EInt 2)) (ECall vld1q_f32 [dat 8]);
   SSet (LVal (EInt 3)) (ECall vld1q_f32 [dat 12])].

(* short_vec_neon_float_16.hpp:287-294 *)
Definition neon_float_16_store : body :=
  [SDo (ECall vst1q_f32 [EData; vv 0]);
   SDo (ECall vst1q_f32 [dat 4; vv 1]);
   SDo (ECall vst1q_f32 [dat 8; vv 2]);
   SDo (ECall vst1q_f32 [dat 12; vv 3])].

(* short_vec_neon_float_16.hpp:296-301 *)
Definition neon_float_16_store_aligned : body :=
  [SAssertAligned EData 64;
   SDo (ECall vst1q_f32 [EData; vv 0]);
   SDo (ECall vst1q_f32 [dat 4; vv 1]);
   SDo (ECall vst1q_f32 [dat 8; vv 2]);
   SDo (ECall vst1q_f32 [dat 12; vv 3])].

(* short_vec_neon_float_16.hpp:303-337 *)
Definition neon_float_16_store_nt : body :=
  [SDo (ECall vst1q_f32 [EData; vv 0]);
   SDo (ECall vst1q_f32 [dat 4; vv 1]);
   SDo (ECall vst1q_f32 [dat 8; vv 2]);
   SDo (ECall vst1q_f32 [dat 12; vv 3])].

(* short_vec_neon_float_16.hpp:340-361 *)
Definition neon_float_16_gather : body :=
  [SDecl "data" 16;
   SSet (LLoc "data" (EInt 0)) (EIdx EPtr (off 0));
   SSet (LLoc "data" (EInt 1)) (EIdx EPtr (off 1));
   SSet (LLoc "data" (EInt 2)) (EIdx EPtr (off 2));
   SSet (LLoc "data" (EInt 3)) (EIdx EPtr (off 3));
   SSet (LLoc "data" (EInt 4)) (EIdx EPtr (off 4));
   SSet (LLoc "data" (EInt 5)) (EIdx EPtr (off 5));
   SSet (LLoc "data" (EInt 6)) (EIdx EPtr (off 6));
   SSet (LLoc "data" (EInt 7)) (EIdx EPtr (off 7));
   SSet (LLoc "data" (EInt 8)) (EIdx EPtr (off 8));
   SSet (LLoc "data" (EInt 9)) (EIdx EPtr (off 9));
   SSet (LLoc "data" (EInt 10)) (EIdx EPtr (off 10));
   SSet (LLoc "data" (EInt 11)) (EIdx EPtr (off 11));
   SSet (LLoc "data" (EInt 12)) (EIdx EPtr (off 12));
   SSet (LLoc "data" (EInt 13)) (EIdx EPtr (off 13));
   SSet (LLoc "data" (EInt 14)) (EIdx EPtr (off 14));
   SSet (LLoc "data" (EInt 15)) (EIdx EPtr (off 15));
   SSet (LVal (EInt 0)) (ECall vld1q_f32 [(ECop OAdd (ELoc "data") (EInt 0))]);
   SSet (LVal (EInt 1)) (ECall vld1q_f32 [(ECop OAdd (ELoc "data") (EInt 4))]);
   SSet (LVal (EInt 2)) (ECall vld1q_f32 [(ECop OAdd (ELoc "data") (EInt 8))]);
   SSet (LVal (EInt 3)) (ECall vld1q_f32 [(ECop OAdd (ELoc "data") (EInt 12))])].

(* short_vec_neon_float_16.hpp:364-387 *)
Definition neon_float_16_scatter : body :=
  [SSet (LVar "data1") (vv 0);
   SSet (LVar "data2") (vv 1);
   SSet (LVar "data3") (vv 2);
   SSet (LVar "data4") (vv 3);
   SSet (LMem (pto 0)) (EIdx (EVar "data1") (EInt 0));
   SSet (LMem (pto 1)) (EIdx (EVar "data1") (EInt 1));
   SSet (LMem (pto 2)) (EIdx (EVar "data1") (EInt 2));
   SSet (LMem (pto 3)) (EIdx (EVar "data1") (EInt 3));
   SSet (LMem (pto 4)) (EIdx (EVar "data2") (EInt 0));
   SSet (LMem (pto 5)) (EIdx (EVar "data2") (EInt 1));
   SSet (LMem (pto 6)) (EIdx (EVar "data2") (EInt 2));
   SSet (LMem (pto 7)) (EIdx (EVar "data2") (EInt 3));
   SSet (LMem (pto 8)) (EIdx (EVar "data3") (EInt 0));
   SSet (LMem (pto 9)) (EIdx (EVar "data3") (EInt 1));
   SSet (LMem (pto 10)) (EIdx (EVar "data3") (EInt 2));
   SSet (LMem (pto 11)) (EIdx (EVar "data3") (EInt 3));
   SSet (LMem (pto 12)) (EIdx (EVar "data4") (EInt 0));
   SSet (LMem (pto 13)) (EIdx (EVar "data4") (EInt 1));
   SSet (LMem (pto 14)) (EIdx (EVar "data4") (EInt 2));
   SSet (LMem (pto 15)) (EIdx (EVar "data4") (EInt 3))].

(* short_vec_neon_float_16.hpp:409-420 *)
Definition neon_float_16_print : list item :=
  [PStr "["; PVal (EIdx (vv 0) (EInt 0)); PStr ", "; PVal (EIdx (vv 0) (EInt 1)); PStr ", "; PVal
   (EIdx (vv 0) (EInt 2)); PStr ", "; PVal (EIdx (vv 0) (EInt 3)); PStr ", "; PVal (EIdx (vv 1)
   (EInt 0)); PStr ", "; PVal (EIdx (vv 1) (EInt 1)); PStr ", "; PVal (EIdx (vv 1) (EInt 2)); PStr
   ", "; PVal (EIdx (vv 1) (EInt 3)); PStr ", "; PVal (EIdx (vv 2) (EInt 0)); PStr ", "; PVal (EIdx
   (vv 2) (EInt 1)); PStr ", "; PVal (EIdx (vv 2) (EInt 2)); PStr ", "; PVal (EIdx (vv 2) (EInt
   3)); PStr ", "; PVal (EIdx (vv 3) (EInt 0)); PStr ", "; PVal (EIdx (vv 3) (EInt 1)); PStr ", ";
   PVal (EIdx (vv 3) (EInt 2)); PStr ", "; PVal (EIdx (vv 3) (EInt 3)); PStr "]"].

(* short_vec_neon_float_16.hpp *)
Definition cls_neon_float_16 : cls :=
  mkCls "neon_float_16" KF32 16 4 4 16 MNone
    (fun m => match m with
     | MCtorScalar => Some neon_float_16_ctor_scalar
     | MCtorPtr => Some neon_float_16_ctor_ptr
     | MCtorRegs => Some neon_float_16_ctor_regs
     | MCtorList => Some neon_float_16_ctor_list
     | MSubEq => Some neon_float_16_sub_eq
     | MSub => Some neon_float_16_sub
     | MAddEq => Some neon_float_16_add_eq
     | MAdd => Some neon_float_16_add
     | MMulEq => Some neon_float_16_mul_eq
     | MMul => Some neon_float_16_mul
     | MDivEq => Some neon_float_16_div_eq
     | MDiv => Some neon_float_16_div
     | MSqrt => Some neon_float_16_sqrt
     | MLoad => Some neon_float_16_load
     | MLoadAligned => Some neon_float_16_load_aligned
     | MStore => Some neon_float_16_store
     | MStoreAligned => Some neon_float_16_store_aligned
     | MStoreNt => Some neon_float_16_store_nt
     | MGather => Some neon_float_16_gather
     | MScatter => Some neon_float_16_scatter
     | _ => None
     end)
    neon_float_16_ctor_regs neon_float_16_print.

(* short_vec_neon_float_16.hpp:142-170 with LIBFLATARRAY_WITH_INCREASED_PRECISION *)
Definition neon_float_16_ip_div_eq : body :=
  [SSet (LVar "iterations") (EInt 1);
   SSet (LVar "reciprocal1") (ECall vrecpeq_f32 [oo 0]);
   SSet (LVar "reciprocal2") (ECall vrecpeq_f32 [oo 1]);
   SSet (LVar "reciprocal3") (ECall vrecpeq_f32 [oo 2]);
   SSet (LVar "reciprocal4") (ECall vrecpeq_f32 [oo 3]);
   SSet (LVar "iterations") (EInt 2);
   SFor (EVar "iterations") [SSet (LVar "reciprocal1") (ECall vmulq_f32 [(ECall vrecpsq_f32 [oo 0;
    (EVar "reciprocal1")]); (EVar "reciprocal1")]); SSet (LVar "reciprocal2") (ECall vmulq_f32
    [(ECall vrecpsq_f32 [oo 1; (EVar "reciprocal2")]); (EVar "reciprocal2")]); SSet (LVar
    "reciprocal3") (ECall vmulq_f32 [(ECall vrecpsq_f32 [oo 2; (EVar "reciprocal3")]); (EVar
    "reciprocal3")]); SSet (LVar "reciprocal4") (ECall vmulq_f32 [(ECall vrecpsq_f32 [oo 3; (EVar
    "reciprocal4")]); (EVar "reciprocal4")])];
   SSet (LVal (EInt 0)) (ECall vmulq_f32 [vv 0; (EVar "reciprocal1")]);
   SSet (LVal (EInt 1)) (ECall vmulq_f32 [vv 1; (EVar "reciprocal2")]);
   SSet (LVal (EInt 2)) (ECall vmulq_f32 [vv 2; (EVar "reciprocal3")]);
   SSet (LVal (EInt 3)) (ECall vmulq_f32 [vv 3; (EVar "reciprocal4")])].

(* short_vec_neon_float_16.hpp:178-214 with LIBFLATARRAY_WITH_INCREASED_PRECISION *)
Definition neon_float_16_ip_div : body :=
  [SSet (LVar "iterations") (EInt 1);
   SSet (LVar "reciprocal1") (ECall vrecpeq_f32 [oo 0]);
   SSet (LVar "reciprocal2") (ECall vrecpeq_f32 [oo 1]);
   SSet (LVar "reciprocal3") (ECall vrecpeq_f32 [oo 2]);
   SSet (LVar "reciprocal4") (ECall vrecpeq_f32 [oo 3]);
   SSet (LVar "iterations") (EInt 2);
   SFor (EVar "iterations") [SSet (LVar "reciprocal1") (ECall vmulq_f32 [(ECall vrecpsq_f32 [oo 0;
    (EVar "reciprocal1")]); (EVar "reciprocal1")]); SSet (LVar "reciprocal2") (ECall vmulq_f32
    [(ECall vrecpsq_f32 [oo 1; (EVar "reciprocal2")]); (EVar "reciprocal2")]); SSet (LVar
    "reciprocal3") (ECall vmulq_f32 [(ECall vrecpsq_f32 [oo 2; (EVar "reciprocal3")]); (EVar
    "reciprocal3")]); SSet (LVar "reciprocal4") (ECall vmulq_f32 [(ECall vrecpsq_f32 [oo 3; (EVar
    "reciprocal4")]); (EVar "reciprocal4")])];
   SSet (LVar "result1") (ECall vmulq_f32 [vv 0; (EVar "reciprocal1")]);
   SSet (LVar "result2") (ECall vmulq_f32 [vv 1; (EVar "reciprocal2")]);
   SSet (LVar "result3") (ECall vmulq_f32 [vv 2; (EVar "reciprocal3")]);
   SSet (LVar "result4") (ECall vmulq_f32 [vv 3; (EVar "reciprocal4")]);
   SRetVec [(EVar "result1"); (EVar "result2"); (EVar "result3"); (EVar "result4")]].

(* short_vec_neon_float_16.hpp:217-269 with LIBFLATARRAY_WITH_INCREASED_PRECISION *)
Definition neon_float_16_ip_sqrt : body :=
  [SSet (LVar "iterations") (EInt 1);
   SSet (LVar "x1") (ECall vrsqrteq_f32 [vv 0]);
   SSet (LVar "x2") (ECall vrsqrteq_f32 [vv 1]);
   SSet (LVar "x3") (ECall vrsqrteq_f32 [vv 2]);
   SSet (LVar "x4") (ECall vrsqrteq_f32 [vv 3]);
   SSet (LVar "vec_p_inf") (ECall vdupq_n_u32 [EInt 2139095040]);
   SSet (LVar "div_by_zero1") (ECall vceqq_u32 [(EVar "vec_p_inf"); (ECall vreinterpretq_u32_f32
    [(EVar "x1")])]);
   SSet (LVar "div_by_zero2") (ECall vceqq_u32 [(EVar "vec_p_inf"); (ECall vreinterpretq_u32_f32
    [(EVar "x2")])]);
   SSet (LVar "div_by_zero3") (ECall vceqq_u32 [(EVar "vec_p_inf"); (ECall vreinterpretq_u32_f32
    [(EVar "x3")])]);
   SSet (LVar "div_by_zero4") (ECall vceqq_u32 [(EVar "vec_p_inf"); (ECall vreinterpretq_u32_f32
    [(EVar "x4")])]);
   SSet (LVar "x1") (ECall vreinterpretq_f32_u32 [(ECall vandq_u32 [(ECall vmvnq_u32 [(EVar
    "div_by_zero1")]); (ECall vreinterpretq_u32_f32 [(EVar "x1")])])]);
   SSet (LVar "x2") (ECall vreinterpretq_f32_u32 [(ECall vandq_u32 [(ECall vmvnq_u32 [(EVar
    "div_by_zero2")]); (ECall vreinterpretq_u32_f32 [(EVar "x2")])])]);
   SSet (LVar "x3") (ECall vreinterpretq_f32_u32 [(ECall vandq_u32 [(ECall vmvnq_u32 [(EVar
    "div_by_zero3")]); (ECall vreinterpretq_u32_f32 [(EVar "x3")])])]);
   SSet (LVar "x4") (ECall vreinterpretq_f32_u32 [(ECall vandq_u32 [(ECall vmvnq_u32 [(EVar
    "div_by_zero4")]); (ECall vreinterpretq_u32_f32 [(EVar "x4")])])]);
   SSet (LVar "iterations") (EInt 2);
   SFor (EVar "iterations") [SSet (LVar "x1") (ECall vmulq_f32 [(ECall vrsqrtsq_f32 [(ECall
    vmulq_f32 [(EVar "x1"); (EVar "x1")]); vv 0]); (EVar "x1")]); SSet (LVar "x2") (ECall vmulq_f32
    [(ECall vrsqrtsq_f32 [(ECall vmulq_f32 [(EVar "x2"); (EVar "x2")]); vv 1]); (EVar "x2")]); SSet
    (LVar "x3") (ECall vmulq_f32 [(ECall vrsqrtsq_f32 [(ECall vmulq_f32 [(EVar "x3"); (EVar "x3")]);
    vv 2]); (EVar "x3")]); SSet (LVar "x4") (ECall vmulq_f32 [(ECall vrsqrtsq_f32 [(ECall vmulq_f32
    [(EVar "x4"); (EVar "x4")]); vv 3]); (EVar "x4")])];
   SSet (LVar "result1") (ECall vmulq_f32 [vv 0; (EVar "x1")]);
   SSet (LVar "result2") (ECall vmulq_f32 [vv 1; (EVar "x2")]);
   SSet (LVar "result3") (ECall vmulq_f32 [vv 2; (EVar "x3")]);
   SSet (LVar "result4") (ECall vmulq_f32 [vv 3; (EVar "x4")]);
   SRetVec [(EVar "result1"); (EVar "result2"); (EVar "result3"); (EVar "result4")]].

(* short_vec_neon_float_16.hpp with LIBFLATARRAY_WITH_INCREASED_PRECISION *)
Definition cls_neon_float_16_ip : cls :=
  mkCls "neon_float_16_ip" KF32 16 4 4 16 MNone
    (fun m => match m with
     | MCtorScalar => Some neon_float_16_ctor_scalar
     | MCtorPtr => Some neon_float_16_ctor_ptr
     | MCtorRegs => Some neon_float_16_ctor_regs
     | MCtorList => Some neon_float_16_ctor_list
     | MSubEq => Some neon_float_16_sub_eq
     | MSub => Some neon_float_16_sub
     | MAddEq => Some neon_float_16_add_eq
     | MAdd => Some neon_float_16_add
     | MMulEq => Some neon_float_16_mul_eq
     | MMul => Some neon_float_16_mul
     | MDivEq => Some neon_float_16_ip_div_eq
     | MDiv => Some neon_float_16_ip_div
     | MSqrt => Some neon_float_16_ip_sqrt
     | MLoad => Some neon_float_16_load
     | MLoadAligned => Some neon_float_16_load_aligned
     | MStore => Some neon_float_16_store
     | MStoreAligned => Some neon_float_16_store_aligned
     | MStoreNt => Some neon_float_16_store_nt
     | MGather => Some neon_float_16_gather
     | MScatter => Some neon_float_16_scatter
     | _ => None
     end)
    neon_float_16_ctor_regs neon_float_16_print.

(* short_vec_neon_float_32.hpp:50-60 *)
Definition neon_float_32_ctor_scalar : body :=
  [SSet (LVal (EInt 0)) (ECall vdupq_n_f32 [EArg]);
   SSet (LVal (EInt 1)) (ECall vdupq_n_f32 [EArg]);
   SSet (LVal (EInt 2)) (ECall vdupq_n_f32 [EArg]);
   SSet (LVal (EInt 3)) (ECall vdupq_n_f32 [EArg]);
   SSet (LVal (EInt 4)) (ECall vdupq_n_f32 [EArg]);
   SSet (LVal (EInt 5)) (ECall vdupq_n_f32 [EArg]);
   SSet (LVal (EInt 6)) (ECall vdupq_n_f32 [EArg]);
   SSet (LVal (EInt 7)) (ECall vdupq_n_f32 [EArg])].

(* short_vec_neon_float_32.hpp:62-66 *)
Definition neon_float_32_ctor_ptr : body :=
  [SSet (LVal (EInt 0)) (ECall vld1q_f32 [dat 0]);
   SSet (LVal (EInt 1)) (ECall vld1q_f32 [dat 4]);
   SSet (LVal (EInt 2)) (ECall vld1q_f32 [dat 8]);
   SSet (LVal (EInt 3)) (ECall vld1q_f32 [dat 12]);
   SSet (LVal (EInt 4)) (ECall vld1q_f32 [dat 16]);
   SSet (LVal (EInt 5)) (ECall vld1q_f32 [dat 20]);
   SSet (LVal (EInt 6)) (ECall vld1q_f32 [dat 24]);
   SSet (LVal (EInt 7)) (ECall vld1q_f32 [dat 28])].

(* short_vec_neon_float_32.hpp:68-86 *)
Definition neon_float_32_ctor_regs : body :=
  [SSet (LVal (EInt 0)) (EPar 0);
   SSet (LVal (EInt 1)) (EPar 1);
   SSet (LVal (EInt 2)) (EPar 2);
   SSet (LVal (EInt 3)) (EPar 3);
   SSet (LVal (EInt 4)) (EPar 4);
   SSet (LVal (EInt 5)) (EPar 5);
   SSet (LVal (EInt 6)) (EPar 6);
   SSet (LVal (EInt 7)) (EPar 7)].

(* short_vec_neon_float_32.hpp:89-94 *)
Definition neon_float_32_ctor_list : body :=
  [SSet (LVal (EInt 0)) (ECall vld1q_f32 [dat 0]);
   SSet (LVal (EInt 1)) (ECall vld1q_f32 [dat 4]);
   SSet (LVal (EInt 2)) (ECall vld1q_f32 [dat 8]);
   SSet (LVal (EInt 3)) (ECall vld1q_f32 [dat 12]);
   SSet (LVal (EInt 4)) (ECall vld1q_f32 [dat 16]);
   SSet (LVal (EInt 5)) (ECall vld1q_f32 [dat 20]);
   SSet (LVal (EInt 6)) (ECall vld1q_f32 [dat 24]);
   SSet (LVal (EInt 7)) (ECall vld1q_f32 [dat 28])].

(* short_vec_neon_float_32.hpp:97-108 *)
Definition neon_float_32_sub_eq : body :=
  [SSet (LVal (EInt 0)) (ECall vsubq_f32 [vv 0; oo 0]);
   SSet (LVal (EInt 1)) (ECall vsubq_f32 [vv 1; oo 1]);
   SSet (LVal (EInt 2)) (ECall vsubq_f32 [vv 2; oo 2]);
   SSet (LVal (EInt 3)) (ECall vsubq_f32 [vv 3; oo 3]);
   SSet (LVal (EInt 4)) (ECall vsubq_f32 [vv 4; oo 4]);
   SSet (LVal (EInt 5)) (ECall vsubq_f32 [vv 5; oo 5]);
   SSet (LVal (EInt 6)) (ECall vsubq_f32 [vv 6; oo 6]);
   SSet (LVal (EInt 7)) (ECall vsubq_f32 [vv 7; oo 7])].

(* short_vec_neon_float_32.hpp:110-119 *)
Definition neon_float_32_sub : body :=
  [SRetVec [(ECall vsubq_f32 [vv 0; oo 0]); (ECall vsubq_f32 [vv 1; oo 1]); (ECall vsubq_f32 [vv 2;
    oo 2]); (ECall vsubq_f32 [vv 3; oo 3]); (ECall vsubq_f32 [vv 4; oo 4]); (ECall vsubq_f32 [vv 5;
    oo 5]); (ECall vsubq_f32 [vv 6; oo 6]); (ECall vsubq_f32 [vv 7; oo 7])]].

(* short_vec_neon_float_32.hpp:121-132 *)
Definition neon_float_32_add_eq : body :=
  [SSet (LVal (EInt 0)) (ECall vaddq_f32 [vv 0; oo 0]);
   SSet (LVal (EInt 1)) (ECall vaddq_f32 [vv 1; oo 1]);
   SSet (LVal (EInt 2)) (ECall vaddq_f32 [vv 2; oo 2]);
   SSet (LVal (EInt 3)) (ECall vaddq_f32 [vv 3; oo 3]);
   SSet (LVal (EInt 4)) (ECall vaddq_f32 [vv 4; oo 4]);
   SSet (LVal (EInt 5)) (ECall vaddq_f32 [vv 5; oo 5]);
   SSet (LVal (EInt 6)) (ECall vaddq_f32 [vv 6; oo 6]);
   SSet (LVal (EInt 7)) (ECall vaddq_f32 [vv 7; oo 7])].

(* short_vec_neon_float_32.hpp:134-144 *)
Definition neon_float_32_add : body :=
  [SRetVec [(ECall vaddq_f32 [vv 0; oo 0]); (ECall vaddq_f32 [vv 1; oo 1]); (ECall vaddq_f32 [vv 2;
    oo 2]); (ECall vaddq_f32 [vv 3; oo 3]); (ECall vaddq_f32 [vv 4; oo 4]); (ECall vaddq_f32 [vv 5;
    oo 5]); (ECall vaddq_f32 [vv 6; oo 6]); (ECall vaddq_f32 [vv 7; oo 7])]].

(* short_vec_neon_float_32.hpp:146-157 *)
Definition neon_float_32_mul_eq : body :=
  [SSet (LVal (EInt 0)) (ECall vmulq_f32 [vv 0; oo 0]);
   SSet (LVal (EInt 1)) (ECall vmulq_f32 [vv 1; oo 1]);
   SSet (LVal (EInt 2)) (ECall vmulq_f32 [vv 2; oo 2]);
   SSet (LVal (EInt 3)) (ECall vmulq_f32 [vv 3; oo 3]);
   SSet (LVal (EInt 4)) (ECall vmulq_f32 [vv 4; oo 4]);
   SSet (LVal (EInt 5)) (ECall vmulq_f32 [vv 5; oo 5]);
   SSet (LVal (EInt 6)) (ECall vmulq_f32 [vv 6; oo 6]);
   SSet (LVal (EInt 7)) (ECall vmulq_f32 [vv 7; oo 7])].

(* short_vec_neon_float_32.hpp:159-169 *)
Definition neon_float_32_mul : body :=
  [SRetVec [(ECall vmulq_f32 [vv 0; oo 0]); (ECall vmulq_f32 [vv 1; oo 1]); (ECall vmulq_f32 [vv 2;
    oo 2]); (ECall vmulq_f32 [vv 3; oo 3]); (ECall vmulq_f32 [vv 4; oo 4]); (ECall vmulq_f32 [vv 5;
    oo 5]); (ECall vmulq_f32 [vv 6; oo 6]); (ECall vmulq_f32 [vv 7; oo 7])]].

(* short_vec_neon_float_32.hpp:177-217 *)
Definition neon_float_32_div_eq : body :=
  [SSet (LVar "iterations") (EInt 1);
   SSet (LVar "reciprocal1") (ECall vrecpeq_f32 [oo 0]);
   SSet (LVar "reciprocal2") (ECall vrecpeq_f32 [oo 1]);
   SSet (LVar "reciprocal3") (ECall vrecpeq_f32 [oo 2]);
   SSet (LVar "reciprocal4") (ECall vrecpeq_f32 [oo 3]);
   SSet (LVar "reciprocal5") (ECall vrecpeq_f32 [oo 4]);
   SSet (LVar "reciprocal6") (ECall vrecpeq_f32 [oo 5]);
   SSet (LVar "reciprocal7") (ECall vrecpeq_f32 [oo 6]);
   SSet (LVar "reciprocal8") (ECall vrecpeq_f32 [oo 7]);
   SFor (EVar "iterations") [SSet (LVar "reciprocal1") (ECall vmulq_f32 [(ECall vrecpsq_f32 [oo 0;
    (EVar "reciprocal1")]); (EVar "reciprocal1")]); SSet (LVar "reciprocal2") (ECall vmulq_f32
    [(ECall vrecpsq_f32 [oo 1; (EVar "reciprocal2")]); (EVar "reciprocal2")]); SSet (LVar
    "reciprocal3") (ECall vmulq_f32 [(ECall vrecpsq_f32 [oo 2; (EVar "reciprocal3")]); (EVar
    "reciprocal3")]); SSet (LVar "reciprocal4") (ECall vmulq_f32 [(ECall vrecpsq_f32 [oo 3; (EVar
    "reciprocal4")]); (EVar "reciprocal4")]); SSet (LVar "reciprocal5") (ECall vmulq_f32 [(ECall
    vrecpsq_f32 [oo 4; (EVar "reciprocal5")]); (EVar "reciprocal5")]); SSet (LVar "reciprocal6")
    (ECall vmulq_f32 [(ECall vrecpsq_f32 [oo 5; (EVar "reciprocal6")]); (EVar "reciprocal6")]); SSet
    (LVar "reciprocal7") (ECall vmulq_f32 [(ECall vrecpsq_f32 [oo 6; (EVar "reciprocal7")]); (EVar
    "reciprocal7")]); SSet (LVar "reciprocal8") (ECall vmulq_f32 [(ECall vrecpsq_f32 [oo 7; (EVar
    "reciprocal8")]); (EVar "reciprocal8")])];
   SSet (LVal (EInt 0)) (ECall vmulq_f32 [vv 0; (EVar "reciprocal1")]);
   SSet (LVal (EInt 1)) (ECall vmulq_f32 [vv 1; (EVar "reciprocal2")]);
   SSet (LVal (EInt 2)) (ECall vmulq_f32 [vv 2; (EVar "reciprocal3")]);
   SSet (LVal (EInt 3)) (ECall vmulq_f32 [vv 3; (EVar "reciprocal4")]);
   SSet (LVal (EInt 4)) (ECall vmulq_f32 [vv 4; (EVar "reciprocal5")]);
   SSet (LVal (EInt 5)) (ECall vmulq_f32 [vv 5; (EVar "reciprocal6")]);
   SSet (LVal (EInt 6)) (ECall vmulq_f32 [vv 6; (EVar "reciprocal7")]);
   SSet (LVal (EInt 7)) (ECall vmulq_f32 [vv 7; (EVar "reciprocal8")])].

(* short_vec_neon_float_32.hpp:225-277 *)
Definition neon_float_32_div : body :=
  [SSet (LVar "iterations") (EInt 1);
   SSet (LVar "reciprocal1") (ECall vrecpeq_f32 [oo 0]);
   SSet (LVar "reciprocal2") (ECall vrecpeq_f32 [oo 1]);
   SSet (LVar "reciprocal3") (ECall vrecpeq_f32 [oo 2]);
   SSet (LVar "reciprocal4") (ECall vrecpeq_f32 [oo 3]);
   SSet (LVar "reciprocal5") (ECall vrecpeq_f32 [oo 4]);
   SSet (LVar "reciprocal6") (ECall vrecpeq_f32 [oo 5]);
   SSet (LVar "reciprocal7") (ECall vrecpeq_f32 [oo 6]);
   SSet (LVar "reciprocal8") (ECall vrecpeq_f32 [oo 7]);
   SFor (EVar "iterations") [SSet (LVar "reciprocal1") (ECall vmulq_f32 [(ECall vrecpsq_f32 [oo 0;
    (EVar "reciprocal1")]); (EVar "reciprocal1")]); SSet (LVar "reciprocal2") (ECall vmulq_f32
    [(ECall vrecpsq_f32 [oo 1; (EVar "reciprocal2")]); (EVar "reciprocal2")]); SSet (LVar
    "reciprocal3") (ECall vmulq_f32 [(ECall vrecpsq_f32 [oo 2; (EVar "reciprocal3")]); (EVar
    "reciprocal3")]); SSet (LVar "reciprocal4") (ECall vmulq_f32 [(ECall vrecpsq_f32 [oo 3; (EVar
    "reciprocal4")]); (EVar "reciprocal4")]); SSet (LVar "reciprocal5") (ECall vmulq_f32 [(ECall
    vrecpsq_f32 [oo 4; (EVar "reciprocal5")]); (EVar "reciprocal5")]); SSet (LVar "reciprocal6")
    (ECall vmulq_f32 [(ECall vrecpsq_f32 [oo 5; (EVar "reciprocal6")]); (EVar "reciprocal6")]); SSet
    (LVar "reciprocal7") (ECall vmulq_f32 [(ECall vrecpsq_f32 [oo 6; (EVar "reciprocal7")]); (EVar
    "reciprocal7")]); SSet (LVar "reciprocal8") (ECall vmulq_f32 [(ECall vrecpsq_f32 [oo 7; (EVar
    "reciprocal8")]); (EVar "reciprocal8")])];
   SSet (LVar "result1") (ECall vmulq_f32 [vv 0; (EVar "reciprocal1")]);
   SSet (LVar "result2") (ECall vmulq_f32 [vv 1; (EVar "reciprocal2")]);
   SSet (LVar "result3") (ECall vmulq_f32 [vv 2; (EVar "reciprocal3")]);
   SSet (LVar "result4") (ECall vmulq_f32 [vv 3; (EVar "reciprocal4")]);
   SSet (LVar "result5") (ECall vmulq_f32 [vv 4; (EVar "reciprocal5")]);
   SSet (LVar "result6") (ECall vmulq_f32 [vv 5; (EVar "reciprocal6")]);
   SSet (LVar "result7") (ECall vmulq_f32 [vv 6; (EVar "reciprocal7")]);
   SSet (LVar "result8") (ECall vmulq_f32 [vv 7; (EVar "reciprocal8")]);
   SRetVec [(EVar "result1"); (EVar "result2"); (EVar "result3"); (EVar "result4"); (EVar
    "result5"); (EVar "result6"); (EVar "result7"); (EVar "result8")]].

(* short_vec_neon_float_32.hpp:280-357 *)
Definition neon_float_32_sqrt : body :=
  [SSet (LVar "iterations") (EInt 1);
   SSet (LVar "x1") (ECall vrsqrteq_f32 [vv 0]);
   SSet (LVar "x2") (ECall vrsqrteq_f32 [vv 1]);
   SSet (LVar "x3") (ECall vrsqrteq_f32 [vv 2]);
   SSet (LVar "x4") (ECall vrsqrteq_f32 [vv 3]);
   SSet (LVar "x5") (ECall vrsqrteq_f32 [vv 4]);
   SSet (LVar "x6") (ECall vrsqrteq_f32 [vv 5]);
   SSet (LVar "x7") (ECall vrsqrteq_f32 [vv 6]);
   SSet (LVar "x8") (ECall vrsqrteq_f32 [vv 7]);
   SSet (LVar "vec_p_inf") (ECall vdupq_n_u32 [EInt 2139095040]);
   SSet (LVar "div_by_zero1") (ECall vceqq_u32 [(EVar "vec_p_inf"); (ECall vreinterpretq_u32_f32
    [(EVar "x1")])]);
   SSet (LVar "div_by_zero2") (ECall vceqq_u32 [(EVar "vec_p_inf"); (ECall vreinterpretq_u32_f32
    [(EVar "x2")])]);
   SSet (LVar "div_by_zero3") (ECall vceqq_u32 [(EVar "vec_p_inf"); (ECall vreinterpretq_u32_f32
    [(EVar "x3")])]);
   SSet (LVar "div_by_zero4") (ECall vceqq_u32 [(EVar "vec_p_inf"); (ECall vreinterpretq_u32_f32
    [(EVar "x4")])]);
   SSet (LVar "div_by_zero5") (ECall vceqq_u32 [(EVar "vec_p_inf"); (ECall vreinterpretq_u32_f32
    [(EVar "x5")])]);
   SSet (LVar "div_by_zero6") (ECall vceqq_u32 [(EVar "vec_p_inf"); (ECall vreinterpretq_u32_f32
    [(EVar "x6")])]);
   SSet (LVar "div_by_zero7") (ECall vceqq_u32 [(EVar "vec_p_inf"); (ECall vreinterpretq_u32_f32
    [(EVar "x7")])]);
   SSet (LVar "div_by_zero8") (ECall vceqq_u32 [(EVar "vec_p_inf"); (ECall vreinterpretq_u32_f32
    [(EVar "x8")])]);
   SSet (LVar "x1") (ECall vreinterpretq_f32_u32 [(ECall vandq_u32 [(ECall vmvnq_u32 [(EVar
    "div_by_zero1")]); (ECall vreinterpretq_u32_f32 [(EVar "x1")])])]);
   SSet (LVar "x2") (ECall vreinterpretq_f32_u32 [(ECall vandq_u32 [(ECall vmvnq_u32 [(EVar
    "div_by_zero2")]); (ECall vreinterpretq_u32_f32 [(EVar "x2")])])]);
   SSet (LVar "x3") (ECall vreinterpretq_f32_u32 [(ECall vandq_u32 [(ECall vmvnq_u32 [(EVar
    "div_by_zero3")]); (ECall vreinterpretq_u32_f32 [(EVar "x3")])])]);
   SSet (LVar "x4") (ECall vreinterpretq_f32_u32 [(ECall vandq_u32 [(ECall vmvnq_u32 [(EVar
    "div_by_zero4")]); (ECall vreinterpretq_u32_f32 [(EVar "x4")])])]);
   SSet (LVar "x5") (ECall vreinterpretq_f32_u32 [(ECall vandq_u32 [(ECall vmvnq_u32 [(EVar
    "div_by_zero5")]); (ECall vreinterpretq_u32_f32 [(EVar "x5")])])]);
   SSet (LVar "x6") (ECall vreinterpretq_f32_u32 [(ECall vandq_u32 [(ECall vmvnq_u32 [(EVar
    "div_by_zero6")]); (ECall vreinterpretq_u32_f32 [(EVar "x6")])])]);
   SSet (LVar "x7") (ECall vreinterpretq_f32_u32 [(ECall vandq_u32 [(ECall vmvnq_u32 [(EVar
    "div_by_zero7")]); (ECall vreinterpretq_u32_f32 [(EVar "x7")])])]);
   SSet (LVar "x8") (ECall vreinterpretq_f32_u32 [(ECall vandq_u32 [(ECall vmvnq_u32 [(EVar
    "div_by_zero8")]); (ECall vreinterpretq_u32_f32 [(EVar "x8")])])]);
   SFor (EVar "iterations") [SSet (LVar "x1") (ECall vmulq_f32 [(ECall vrsqrtsq_f32 [(ECall
    vmulq_f32 [(EVar "x1"); (EVar "x1")]); vv 0]); (EVar "x1")]); SSet (LVar "x2") (ECall vmulq_f32
    [(ECall vrsqrtsq_f32 [(ECall vmulq_f32 [(EVar "x2"); (EVar "x2")]); vv 1]); (EVar "x2")]); SSet
    (LVar "x3") (ECall vmulq_f32 [(ECall vrsqrtsq_f32 [(ECall vmulq_f32 [(EVar "x3"); (EVar "x3")]);
    vv 2]); (EVar "x3")]); SSet (LVar "x4") (ECall vmulq_f32 [(ECall vrsqrtsq_f32 [(ECall vmulq_f32
    [(EVar "x4"); (EVar "x4")]); vv 3]); (EVar "x4")]); SSet (LVar "x5") (ECall vmulq_f32 [(ECall
    vrsqrtsq_f32 [(ECall vmulq_f32 [(EVar "x5"); (EVar "x5")]); vv 4]); (EVar "x5")]); SSet (LVar
    "x6") (ECall vmulq_f32 [(ECall vrsqrtsq_f32 [(ECall vmulq_f32 [(EVar "x6"); (EVar "x6")]); vv
    5]); (EVar "x6")]); SSet (LVar "x7") (ECall vmulq_f32 [(ECall vrsqrtsq_f32 [(ECall vmulq_f32
    [(EVar "x7"); (EVar "x7")]); vv 6]); (EVar "x7")]); SSet (LVar "x8") (ECall vmulq_f32 [(ECall
    vrsqrtsq_f32 [(ECall vmulq_f32 [(EVar "x8"); (EVar "x8")]); vv 7]); (EVar "x8")])];
   SSet (LVar "result1") (ECall vmulq_f32 [vv 0; (EVar "x1")]);
   SSet (LVar "result2") (ECall vmulq_f32 [vv 1; (EVar "x2")]);
   SSet (LVar "result3") (ECall vmulq_f32 [vv 2; (EVar "x3")]);
   SSet (LVar "result4") (ECall vmulq_f32 [vv 3; (EVar "x4")]);
   SSet (LVar "result5") (ECall vmulq_f32 [vv 4; (EVar "x5")]);
   SSet (LVar "result6") (ECall vmulq_f32 [vv 5; (EVar "x6")]);
   SSet (LVar "result7") (ECall vmulq_f32 [vv 6; (EVar "x7")]);
   SSet (LVar "result8") (ECall vmulq_f32 [vv 7; (EVar "x8")]);
   SRetVec [(EVar "result1"); (EVar "result2"); (EVar "result3"); (EVar "result4"); (EVar
    "result5"); (EVar "result6"); (EVar "result7"); (EVar "result8")]].

(* short_vec_neon_float_32.hpp:359-370 *)
Definition neon_float_32_load : body :=
  [SSet (LVal (EInt 0)) (ECall vld1q_f32 [dat 0]);
   SSet (LVal (EInt 1)) (ECall vld1q_f32 [dat 4]);
   SSet (LVal (EInt 2)) (ECall vld1q_f32 [dat 8]);
   SSet (LVal (EInt 3)) (ECall vld1q_f32 [dat 12]);
   SSet (LVal (EInt 4)) (ECall vld1q_f32 [dat 16]);
   SSet (LVal (EInt 5)) (ECall vld1q_f32 [dat 20]);
   SSet (LVal (EInt 6)) (ECall vld1q_f32 [dat 24]);
   SSet (LVal (EInt 7)) (ECall vld1q_f32 [dat 28])].

(* short_vec_neon_float_32.hpp:372-377 *)
Definition neon_float_32_load_aligned : body :=
  [SAssertAligned EData 128;
   SSet (LVal (EInt 0)) (ECall vld1q_f32 [dat 0]);
   SSet (LVal (EInt 1)) (ECall vld1q_f32 [dat 4]);
   SSet (LVal (EInt 2)) (ECall vld1q_f32 [dat 8]);
   SSet (LVal (EInt 3)) (ECall vld1q_f32 [dat 12]);
   SSet (LVal (EInt 4)) (ECall vld1q_f32 [dat 16]);
   SSet (LVal (EInt 5)) (ECall vld1q_f32 [dat 20]);
   SSet (LVal (EInt 6)) (ECall vld1q_f32 [dat 24]);
   SSet (LVal (EInt 7)) (ECall vld1q_f32 [dat 28])].

(* short_vec_neon_float_32.hpp:379-390 *)
Definition neon_float_32_store : body :=
  [SDo (ECall vst1q_f32 [dat 0; vv 0]);
   SDo (ECall vst1q_f32 [dat 4; vv 1]);
   SDo (ECall vst1q_f32 [dat 8; vv 2]);
   SDo (ECall vst1q_f32 [dat 12; vv 3]);
   SDo (ECall vst1q_f32 [dat 16; vv 4]);
   SDo (ECall vst1q_f32 [dat 20; vv 5]);
   SDo (ECall vst1q_f32 [dat 24; vv 6]);
   SDo (ECall vst1q_f32 [dat 28; vv 7])].

(* short_vec_neon_float_32.hpp:392-397 *)
Definition neon_float_32_store_aligned : body :=
  [SAssertAligned EData 128;
   SDo (ECall vst1q_f32 [dat 0; vv 0]);
   SDo (ECall vst1q_f32 [dat 4; vv 1]);
   SDo (ECall vst1q_f32 [dat 8; vv 2]);
   SDo (ECall vst1q_f32 [dat 12; vv 3]);
   SDo (ECall vst1q_f32 [dat 16; vv 4]);
   SDo (ECall vst1q_f32 [dat 20; vv 5]);
   SDo (ECall vst1q_f32 [dat 24; vv 6]);
   SDo (ECall vst1q_f32 [dat 28; vv 7])].

(* short_vec_neon_float_32.hpp:399-437 *)
Definition neon_float_32_store_nt : body :=
  [SDo (ECall vst1q_f32 [dat 0; vv 0]);
   SDo (ECall vst1q_f32 [dat 4; vv 1]);
   SDo (ECall vst1q_f32 [dat 8; vv 2]);
   SDo (ECall vst1q_f32 [dat 12; vv 3]);
   SDo (ECall vst1q_f32 [dat 16; vv 4]);
   SDo (ECall vst1q_f32 [dat 20; vv 5]);
   SDo (ECall vst1q_f32 [dat 24; vv 6]);
   SDo (ECall vst1q_f32 [dat 28; vv 7])].

(* short_vec_neon_float_32.hpp:440-477 *)
Definition neon_float_32_gather : body :=
  [SDecl "data" 32;
   SSet (LLoc "data" (EInt 0)) (EIdx EPtr (off 0));
   SSet (LLoc "data" (EInt 1)) (EIdx EPtr (off 1));
   SSet (LLoc "data" (EInt 2)) (EIdx EPtr (off 2));
   SSet (LLoc "data" (EInt 3)) (EIdx EPtr (off 3));
   SSet (LLoc "data" (EInt 4)) (EIdx EPtr (off 4));
   SSet (LLoc "data" (EInt 5)) (EIdx EPtr (off 5));
   SSet (LLoc "data" (EInt 6)) (EIdx EPtr (off 6));
   SSet (LLoc "data" (EInt 7)) (EIdx EPtr (off 7));
   SSet (LLoc "data" (EInt 8)) (EIdx EPtr (off 8));
   SSet (LLoc "data" (EInt 9)) (EIdx EPtr (off 9));
   SSet (LLoc "data" (EInt 10)) (EIdx EPtr (off 10));
   SSet (LLoc "data" (EInt 11)) (EIdx EPtr (off 11));
   SSet (LLoc "data" (EInt 12)) (EIdx EPtr (off 12));
   SSet (LLoc "data" (EInt 13)) (EIdx EPtr (off 13));
   SSet (LLoc "data" (EInt 14)) (EIdx EPtr (off 14));
   SSet (LLoc "data" (EInt 15)) (EIdx EPtr (off 15));
   SSet (LLoc "data" (EInt 16)) (EIdx EPtr (off 16));
   SSet (LLoc "data" (EInt 17)) (EIdx EPtr (off 17));
   SSet (LLoc "data" (EInt 18)) (EIdx EPtr (off 18));
   SSet (LLoc "data" (EInt 19)) (EIdx EPtr (off 19));
   SSet (LLoc "data" (EInt 20)) (EIdx EPtr (off 20));
   SSet (LLoc "data" (EInt 21)) (EIdx EPtr (off 21));
   SSet (LLoc "data" (EInt 22)) (EIdx EPtr (off 22));
   SSet (LLoc "data" (EInt 23)) (EIdx EPtr (off 23));
   SSet (LLoc "data" (EInt 24)) (EIdx EPtr (off 24));
   SSet (LLoc "data" (EInt 25)) (EIdx EPtr (off 25));
   SSet (LLoc "data" (EInt 26)) (EIdx EPtr (off 26));
   SSet (LLoc "data" (EInt 27)) (EIdx EPtr (off 27));
   SSet (LLoc "data" (EInt 28)) (EIdx EPtr (off 28));
   SSet (LLoc "data" (EInt 29)) (EIdx EPtr (off 29));
   SSet (LLoc "data" (EInt 30)) (EIdx EPtr (off 30));
   SSet (LLoc "data" (EInt 31)) (EIdx EPtr (off 31));
   SSet (LVal (EInt 0)) (ECall vld1q_f32 [(ECop OAdd (ELoc "data") (EInt 0))]);
   SSet (LVal (EInt 1)) (ECall vld1q_f32 [(ECop OAdd (ELoc "data") (EInt 4))]);
   SSet (LVal (EInt 2)) (ECall vld1q_f32 [(ECop OAdd (ELoc "data") (EInt 8))]);
   SSet (LVal (EInt 3)) (ECall vld1q_f32 [(ECop OAdd (ELoc "data") (EInt 12))]);
   SSet (LVal (EInt 4)) (ECall vld1q_f32 [(ECop OAdd (ELoc "data") (EInt 16))]);
   SSet (LVal (EInt 5)) (ECall vld1q_f32 [(ECop OAdd (ELoc "data") (EInt 20))]);
   SSet (LVal (EInt 6)) (ECall vld1q_f32 [(ECop OAdd (ELoc "data") (EInt 24))]);
   SSet (LVal (EInt 7)) (ECall vld1q_f32 [(ECop OAdd (ELoc "data") (EInt 28))])].

(* short_vec_neon_float_32.hpp:480-523 *)
Definition neon_float_32_scatter : body :=
  [SSet (LVar "data1") (vv 0);
   SSet (LVar "data2") (vv 1);
   SSet (LVar "data3") (vv 2);
   SSet (LVar "data4") (vv 3);
   SSet (LVar "data5") (vv 4);
   SSet (LVar "data6") (vv 5);
   SSet (LVar "data7") (vv 6);
   SSet (LVar "data8") (vv 7);
   SSet (LMem (pto 0)) (EIdx (EVar "data1") (EInt 0));
   SSet (LMem (pto 1)) (EIdx (EVar "data1") (EInt 1));
   SSet (LMem (pto 2)) (EIdx (EVar "data1") (EInt 2));
   SSet (LMem (pto 3)) (EIdx (EVar "data1") (EInt 3));
   SSet (LMem (pto 4)) (EIdx (EVar "data2") (EInt 0));
   SSet (LMem (pto 5)) (EIdx (EVar "data2") (EInt 1));
   SSet (LMem (pto 6)) (EIdx (EVar "data2") (EInt 2));
   SSet (LMem (pto 7)) (EIdx (EVar "data2") (EInt 3));
   SSet (LMem (pto 8)) (EIdx (EVar "data3") (EInt 0));
   SSet (LMem (pto 9)) (EIdx (EVar "data3") (EInt 1));
   SSet (LMem (pto 10)) (EIdx (EVar "data3") (EInt 2));
   SSet (LMem (pto 11)) (EIdx (EVar "data3") (EInt 3));
   SSet (LMem (pto 12)) (EIdx (EVar "data4") (EInt 0));
   SSet (LMem (pto 13)) (EIdx (EVar "data4") (EInt 1));
   SSet (LMem (pto 14)) (EIdx (EVar "data4") (EInt 2));
   SSet (LMem (pto 15)) (EIdx (EVar "data4") (EInt 3));
   SSet (LMem (pto 16)) (EIdx (EVar "data5") (EInt 0));
   SSet (LMem (pto 17)) (EIdx (EVar "data5") (EInt 1));
   SSet (LMem (pto 18)) (EIdx (EVar "data5") (EInt 2));
   SSet (LMem (pto 19)) (EIdx (EVar "data5") (EInt 3));
   SSet (LMem (pto 20)) (EIdx (EVar "data6") (EInt 0));
   SSet (LMem (pto 21)) (EIdx (EVar "data6") (EInt 1));
   SSet (LMem (pto 22)) (EIdx (EVar "data6") (EInt 2));
   SSet (LMem (pto 23)) (EIdx (EVar "data6") (EInt 3));
   SSet (LMem (pto 24)) (EIdx (EVar "data7") (EInt 0));
   SSet (LMem (pto 25)) (EIdx (EVar "data7") (EInt 1));
   SSet (LMem (pto 26)) (EIdx (EVar "data7") (EInt 2));
   SSet (LMem (pto 27)) (EIdx (EVar "data7") (EInt 3));
   SSet (LMem (pto 28)) (EIdx (EVar "data8") (EInt 0));
   SSet (LMem (pto 29)) (EIdx (EVar "data8") (EInt 1));
   SSet (LMem (pto 30)) (EIdx (EVar "data8") (EInt 2));
   SSet (LMem (pto 31)) (EIdx (EVar "data8") (EInt 3))].

(* short_vec_neon_float_32.hpp:545-572 *)
Definition neon_float_32_print : list item :=
  [PStr "["; PVal (EIdx (vv 0) (EInt 0)); PStr ", "; PVal (EIdx (vv 0) (EInt 1)); PStr ", "; PVal
   (EIdx (vv 0) (EInt 2)); PStr ", "; PVal (EIdx (vv 0) (EInt 3)); PStr ", "; PVal (EIdx (vv 1)
   (EInt 0)); PStr ", "; PVal (EIdx (vv 1) (EInt 1)); PStr ", "; PVal (EIdx (vv 1) (EInt 2)); PStr
   ", "; PVal (EIdx (vv 1) (EInt 3)); PStr ", "; PVal (EIdx (vv 2) (EInt 0)); PStr ", "; PVal (EIdx
   (vv 2) (EInt 1)); PStr ", "; PVal (EIdx (vv 2) (EInt 2)); PStr ", "; PVal (EIdx (vv 2) (EInt
   3)); PStr ", "; PVal (EIdx (vv 3) (EInt 0)); PStr ", "; PVal (EIdx (vv 3) (EInt 1)); PStr ", ";
   PVal (EIdx (vv 3) (EInt 2)); PStr ", "; PVal (EIdx (vv 3) (EInt 3)); PStr ", "; PVal (EIdx (vv
   4) (EInt 0)); PStr ", "; PVal (EIdx (vv 4) (EInt 1)); PStr ", "; PVal (EIdx (vv 4) (EInt 2));
   PStr ", "; PVal (EIdx (vv 4) (EInt 3)); PStr ", "; PVal (EIdx (vv 5) (EInt 0)); PStr ", "; PVal
   (EIdx (vv 5) (EInt 1)); PStr ", "; PVal (EIdx (vv 5) (EInt 2)); PStr ", "; PVal (EIdx (vv 5)
   (EInt 3)); PStr ", "; PVal (EIdx (vv 6) (EInt 0)); PStr ", "; PVal (EIdx (vv 6) (EInt 1)); PStr
   ", "; PVal (EIdx (vv 6) (EInt 2)); PStr ", "; PVal (EIdx (vv 6) (EInt 3)); PStr ", "; PVal (EIdx
   (vv 7) (EInt 0)); PStr ", "; PVal (EIdx (vv 7) (EInt 1)); PStr ", "; PVal (EIdx (vv 7) (EInt
   2)); PStr ", "; PVal (EIdx (vv 7) (EInt 3)); PStr "]"].

(* short_vec_neon_float_32.hpp *)
Definition cls_neon_float_32 : cls :=
  mkCls "neon_float_32" KF32 32 8 4 16 MNone
    (fun m => match m with
     | MCtorScalar => Some neon_float_32_ctor_scalar
     | MCtorPtr => Some neon_float_32_ctor_ptr
     | MCtorRegs => Some neon_float_32_ctor_regs
     | MCtorList => Some neon_float_32_ctor_list
     | MSubEq => Some neon_float_32_sub_eq
     | MSub => Some neon_float_32_sub
     | MAddEq => Some neon_float_32_add_eq
     | MAdd => Some neon_float_32_add
     | MMulEq => Some neon_float_32_mul_eq
     | MMul => Some neon_float_32_mul
     | MDivEq => Some neon_float_32_div_eq
     | MDiv => Some neon_float_32_div
     | MSqrt => Some neon_float_32_sqrt
     | MLoad => Some neon_float_32_load
     | MLoadAligned => Some neon_float_32_load_aligned
     | MStore => Some neon_float_32_store
     | MStoreAligned => Some neon_float_32_store_aligned
     | MStoreNt => Some neon_float_32_store_nt
     | MGather => Some neon_float_32_gather
     | MScatter => Some neon_float_32_scatter
     | _ => None
     end)
    neon_float_32_ctor_regs neon_float_32_print.

(* short_vec_neon_float_32.hpp:177-217 with LIBFLATARRAY_WITH_INCREASED_PRECISION *)
Definition neon_float_32_ip_div_eq : body :=
  [SSet (LVar "iterations") (EInt 1);
   SSet (LVar "reciprocal1") (ECall vrecpeq_f32 [oo 0]);
   SSet (LVar "reciprocal2") (ECall vrecpeq_f32 [oo 1]);
   SSet (LVar "reciprocal3") (ECall vrecpeq_f32 [oo 2]);
   SSet (LVar "reciprocal4") (ECall vrecpeq_f32 [oo 3]);
   SSet (LVar "reciprocal5") (ECall vrecpeq_f32 [oo 4]);
   SSet (LVar "reciprocal6") (ECall vrecpeq_f32 [oo 5]);
   SSet (LVar "reciprocal7") (ECall vrecpeq_f32 [oo 6]);
   SSet (LVar "reciprocal8") (ECall vrecpeq_f32 [oo 7]);
   SSet (LVar "iterations") (EInt 2);
   SFor (EVar "iterations") [SSet (LVar "reciprocal1") (ECall vmulq_f32 [(ECall vrecpsq_f32 [oo 0;
    (EVar "reciprocal1")]); (EVar "reciprocal1")]); SSet (LVar "reciprocal2") (ECall vmulq_f32
    [(ECall vrecpsq_f32 [oo 1; (EVar "reciprocal2")]); (EVar "reciprocal2")]); SSet (LVar
    "reciprocal3") (ECall vmulq_f32 [(ECall vrecpsq_f32 [oo 2; (EVar "reciprocal3")]); (EVar
    "reciprocal3")]); SSet (LVar "reciprocal4") (ECall vmulq_f32 [(ECall vrecpsq_f32 [oo 3; (EVar
    "reciprocal4")]); (EVar "reciprocal4")]); SSet (LVar "reciprocal5") (ECall vmulq_f32 [(ECall
    vrecpsq_f32 [oo 4; (EVar "reciprocal5")]); (EVar "reciprocal5")]); SSet (LVar "reciprocal6")
    (ECall vmulq_f32 [(ECall vrecpsq_f32 [oo 5; (EVar "reciprocal6")]); (EVar "reciprocal6")]); SSet
    (LVar "reciprocal7") (ECall vmulq_f32 [(ECall vrecpsq_f32 [oo 6; (EVar "reciprocal7")]); (EVar
    "reciprocal7")]); SSet (LVar "reciprocal8") (ECall vmulq_f32 [(ECall vrecpsq_f32 [oo 7; (EVar
    "reciprocal8")]); (EVar "reciprocal8")])];
   SSet (LVal (EInt 0)) (ECall vmulq_f32 [vv 0; (EVar "reciprocal1")]);
   SSet (LVal (EInt 1)) (ECall vmulq_f32 [vv 1; (EVar "reciprocal2")]);
   SSet (LVal (EInt 2)) (ECall vmulq_f32 [vv 2; (EVar "reciprocal3")]);
   SSet (LVal (EInt 3)) (ECall vmulq_f32 [vv 3; (EVar "reciprocal4")]);
   SSet (LVal (EInt 4)) (ECall vmulq_f32 [vv 4; (EVar "reciprocal5")]);
   SSet (LVal (EInt 5)) (ECall vmulq_f32 [vv 5; (EVar "reciprocal6")]);
   SSet (LVal (EInt 6)) (ECall vmulq_f32 [vv 6; (EVar "reciprocal7")]);
   SSet (LVal (EInt 7)) (ECall vmulq_f32 [vv 7; (EVar "reciprocal8")])].

(* short_vec_neon_float_32.hpp:225-277 with LIBFLATARRAY_WITH_INCREASED_PRECISION *)
Definition neon_float_32_ip_div : body :=
  [SSet (LVar "iterations") (EInt 1);
   SSet (LVar "reciprocal1") (ECall vrecpeq_f32 [oo 0]);
   SSet (LVar "reciprocal2") (ECall vrecpeq_f32 [oo 1]);
   SSet (LVar "reciprocal3") (ECall vrecpeq_f32 [oo 2]);
   SSet (LVar "reciprocal4") (ECall vrecpeq_f32 [oo 3]);
   SSet (LVar "reciprocal5") (ECall vrecpeq_f32 [oo 4]);
   SSet (LVar "reciprocal6") (ECall vrecpeq_f32 [oo 5]);
   SSet (LVar "reciprocal7") (ECall vrecpeq_f32 [oo 6]);
   SSet (LVar "reciprocal8") (ECall vrecpeq_f32 [oo 7]);
   SSet (LVar "iterations") (EInt 2);
   SFor (EVar "iterations") [SSet (LVar "reciprocal1") (ECall vmulq_f32 [(ECall vrecpsq_f32 [oo 0;
    (EVar "reciprocal1")]); (EVar "reciprocal1")]); SSet (LVar "reciprocal2") (ECall vmulq_f32
    [(ECall vrecpsq_f32 [oo 1; (EVar "reciprocal2")]); (EVar "reciprocal2")]); SSet (LVar
    "reciprocal3") (ECall vmulq_f32 [(ECall vrecpsq_f32 [oo 2; (EVar "reciprocal3")]); (EVar
    "reciprocal3")]); SSet (LVar "reciprocal4") (ECall vmulq_f32 [(ECall vrecpsq_f32 [oo 3; (EVar
    "reciprocal4")]); (EVar "reciprocal4")]); SSet (LVar "reciprocal5") (ECall vmulq_f32 [(ECall
    vrecpsq_f32 [oo 4; (EVar "reciprocal5")]); (EVar "reciprocal5")]); SSet (LVar "reciprocal6")
    (ECall vmulq_f32 [(ECall vrecpsq_f32 [oo 5; (EVar "reciprocal6")]); (EVar "reciprocal6")]); SSet
    (LVar "reciprocal7") (ECall vmulq_f32 [(ECall vrecpsq_f32 [oo 6; (EVar "reciprocal7")]); (EVar
    "reciprocal7")]); SSet (LVar "reciprocal8") (ECall vmulq_f32 [(ECall vrecpsq_f32 [oo 7; (EVar
    "reciprocal8")]); (EVar "reciprocal8")])];
   SSet (LVar "result1") (ECall vmulq_f32 [vv 0; (EVar "reciprocal1")]);
   SSet (LVar "result2") (ECall vmulq_f32 [vv 1; (EVar "reciprocal2")]);
   SSet (LVar "result3") (ECall vmulq_f32 [vv 2; (EVar "reciprocal3")]);
   SSet (LVar "result4") (ECall vmulq_f32 [vv 3; (EVar "reciprocal4")]);
   SSet (LVar "result5") (ECall vmulq_f32 [vv 4; (EVar "reciprocal5")]);
   SSet (LVar "result6") (ECall vmulq_f32 [vv 5; (EVar "reciprocal6")]);
   SSet (LVar "result7") (ECall vmulq_f32 [vv 6; (EVar "reciprocal7")]);
   SSet (LVar "result8") (ECall vmulq_f32 [vv 7; (EVar "reciprocal8")]);
   SRetVec [(EVar "result1"); (EVar "result2"); (EVar "result3"); (EVar "result4"); (EVar
    "result5"); (EVar "result6"); (EVar "result7"); (EVar "result8")]].

(* short_vec_neon_float_32.hpp:280-357 with LIBFLATARRAY_WITH_INCREASED_PRECISION *)
Definition neon_float_32_ip_sqrt : body :=
  [SSet (LVar "iterations") (EInt 1);
   SSet (LVar "x1") (ECall vrsqrteq_f32 [vv 0]);
   SSet (LVar "x2") (ECall vrsqrteq_f32 [vv 1]);
   SSet (LVar "x3") (ECall vrsqrteq_f32 [vv 2]);
   SSet (LVar "x4") (ECall vrsqrteq_f32 [vv 3]);
   SSet (LVar "x5") (ECall vrsqrteq_f32 [vv 4]);
   SSet (LVar "x6") (ECall vrsqrteq_f32 [vv 5]);
   SSet (LVar "x7") (ECall vrsqrteq_f32 [vv 6]);
   SSet (LVar "x8") (ECall vrsqrteq_f32 [vv 7]);
   SSet (LVar "vec_p_inf") (ECall vdupq_n_u32 [EInt 2139095040]);
   SSet (LVar "div_by_zero1") (ECall vceqq_u32 [(EVar "vec_p_inf"); (ECall vreinterpretq_u32_f32
    [(EVar "x1")])]);
   SSet (LVar "div_by_zero2") (ECall vceqq_u32 [(EVar "vec_p_inf"); (ECall vreinterpretq_u32_f32
    [(EVar "x2")])]);
   SSet (LVar "div_by_zero3") (ECall vceqq_u32 [(EVar "vec_p_inf"); (ECall vreinterpretq_u32_f32
    [(EVar "x3")])]);
   SSet (LVar "div_by_zero4") (ECall vceqq_u32 [(EVar "vec_p_inf"); (ECall vreinterpretq_u32_f32
    [(EVar "x4")])]);
   SSet (LVar "div_by_zero5") (ECall vceqq_u32 [(EVar "vec_p_inf"); (ECall vreinterpretq_u32_f32
    [(EVar "x5")])]);
   SSet (LVar "div_by_zero6") (ECall vceqq_u32 [(EVar "vec_p_inf"); (ECall vreinterpretq_u32_f32
    [(EVar "x6")])]);
   SSet (LVar "div_by_zero7") (ECall vceqq_u32 [(EVar "vec_p_inf"); (ECall vreinterpretq_u32_f32
    [(EVar "x7")])]);
   SSet (LVar "div_by_zero8") (ECall vceqq_u32 [(EVar "vec_p_inf"); (ECall vreinterpretq_u32_f32
    [(EVar "x8")])]);
   SSet (LVar "x1") (ECall vreinterpretq_f32_u32 [(ECall vandq_u32 [(ECall vmvnq_u32 [(EVar
    "div_by_zero1")]); (ECall vreinterpretq_u32_f32 [(EVar "x1")])])]);
   SSet (LVar "x2") (ECall vreinterpretq_f32_u32 [(ECall vandq_u32 [(ECall vmvnq_u32 [(EVar
    "div_by_zero2")]); (ECall vreinterpretq_u32_f32 [(EVar "x2")])])]);
   SSet (LVar "x3") (ECall vreinterpretq_f32_u32 [(ECall vandq_u32 [(ECall vmvnq_u32 [(EVar
    "div_by_zero3")]); (ECall vreinterpretq_u32_f32 [(EVar "x3")])])]);
   SSet (LVar "x4") (ECall vreinterpretq_f32_u32 [(ECall vandq_u32 [(ECall vmvnq_u32 [(EVar
    "div_by_zero4")]); (ECall vreinterpretq_u32_f32 [(EVar "x4")])])]);
   SSet (LVar "x5") (ECall vreinterpretq_f32_u32 [(ECall vandq_u32 [(ECall vmvnq_u32 [(EVar
    "div_by_zero5")]); (ECall vreinterpretq_u32_f32 [(EVar "x5")])])]);
   SSet (LVar "x6") (ECall vreinterpretq_f32_u32 [(ECall vandq_u32 [(ECall vmvnq_u32 [(EVar
    "div_by_zero6")]); (ECall vreinterpretq_u32_f32 [(EVar "x6")])])]);
   SSet (LVar "x7") (ECall vreinterpretq_f32_u32 [(ECall vandq_u32 [(ECall vmvnq_u32 [(EVar
    "div_by_zero7")]); (ECall vreinterpretq_u32_f32 [(EVar "x7")])])]);
   SSet (LVar "x8") (ECall vreinterpretq_f32_u32 [(ECall vandq_u32 [(ECall vmvnq_u32 [(EVar
    "div_by_zero8")]); (ECall vreinterpretq_u32_f32 [(EVar "x8")])])]);
   SSet (LVar "iterations") (EInt 2);
   SFor (EVar "iterations") [SSet (LVar "x1") (ECall vmulq_f32 [(ECall vrsqrtsq_f32 [(ECall
    vmulq_f32 [(EVar "x1"); (EVar "x1")]); vv 0]); (EVar "x1")]); SSet (LVar "x2") (ECall vmulq_f32
    [(ECall vrsqrtsq_f32 [(ECall vmulq_f32 [(EVar "x2"); (EVar "x2")]); vv 1]); (EVar "x2")]); SSet
    (LVar "x3") (ECall vmulq_f32 [(ECall vrsqrtsq_f32 [(ECall vmulq_f32 [(EVar "x3"); (EVar "x3")]);
    vv 2]); (EVar "x3")]); SSet (LVar "x4") (ECall vmulq_f32 [(ECall vrsqrtsq_f32 [(ECall vmulq_f32
    [(EVar "x4"); (EVar "x4")]); vv 3]); (EVar "x4")]); SSet (LVar "x5") (ECall vmulq_f32 [(ECall
    vrsqrtsq_f32 [(ECall vmulq_f32 [(EVar "x5"); (EVar "x5")]); vv 4]); (EVar "x5")]); SSet (LVar
    "x6") (ECall vmulq_f32 [(ECall vrsqrtsq_f32 [(ECall vmulq_f32 [(EVar "x6"); (EVar "x6")]); vv
    5]); (EVar "x6")]); SSet (LVar "x7") (ECall vmulq_f32 [(ECall vrsqrtsq_f32 [(ECall vmulq_f32
    [(EVar "x7"); (EVar "x7")]); vv 6]); (EVar "x7")]); SSet (LVar "x8") (ECall vmulq_f32 [(ECall
    vrsqrtsq_f32 [(ECall vmulq_f32 [(EVar "x8"); (EVar "x8")]); vv 7]); (EVar "x8")])];
   SSet (LVar "result1") (ECall vmulq_f32 [vv 0; (EVar "x1")]);
   SSet (LVar "result2") (ECall vmulq_f32 [vv 1; (EVar "x2")]);
   SSet (LVar "result3") (ECall vmulq_f32 [vv 2; (EVar "x3")]);
   SSet (LVar "result4") (ECall vmulq_f32 [vv 3; (EVar "x4")]);
   SSet (LVar "result5") (ECall vmulq_f32 [vv 4; (EVar "x5")]);
   SSet (LVar "result6") (ECall vmulq_f32 [vv 5; (EVar "x6")]);
   SSet (LVar "result7") (ECall vmulq_f32 [vv 6; (EVar "x7")]);
   SSet (LVar "result8") (ECall vmulq_f32 [vv 7; (EVar "x8")]);
   SRetVec [(EVar "result1"); (EVar "result2"); (EVar "result3"); (EVar "result4"); (EVar
    "result5"); (EVar "result6"); (EVar "result7"); (EVar "result8")]].

(* short_vec_neon_float_32.hpp with LIBFLATARRAY_WITH_INCREASED_PRECISION *)
Definition cls_neon_float_32_ip : cls :=
  mkCls "neon_float_32_ip" KF32 32 8 4 16 MNone
    (fun m => match m with
     | MCtorScalar => Some neon_float_32_ctor_scalar
     | MCtorPtr => Some neon_float_32_ctor_ptr
     | MCtorRegs => Some neon_float_32_ctor_regs
     | MCtorList => Some neon_float_32_ctor_list
     | MSubEq => Some neon_float_32_sub_eq
     | MSub => Some neon_float_32_sub
     | MAddEq => Some neon_float_32_add_eq
     | MAdd => Some neon_float_32_add
     | MMulEq => Some neon_float_32_mul_eq
     | MMul => Some neon_float_32_mul
     | MDivEq => Some neon_float_32_ip_div_eq
     | MDiv => Some neon_float_32_ip_div
     | MSqrt => Some neon_float_32_ip_sqrt
     | MLoad => Some neon_float_32_load
     | MLoadAligned => Some neon_float_32_load_aligned
     | MStore => Some neon_float_32_store
     | MStoreAligned => Some neon_float_32_store_aligned
     | MStoreNt => Some neon_float_32_store_nt
     | MGather => Some neon_float_32_gather
     | MScatter => Some neon_float_32_scatter
     | _ => None
     end)
    neon_float_32_ctor_regs neon_float_32_print.

Definition neon_classes : list cls :=
  [cls_neon_float_4; cls_neon_float_4_ip; cls_neon_float_4_lp64; cls_neon_float_8;
   cls_neon_float_8_ip; cls_neon_float_16; cls_neon_float_16_ip; cls_neon_float_32;
   cls_neon_float_32_ip].
