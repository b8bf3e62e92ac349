(** The member functions of the short_vec classes in
    /repo/include/libflatarray/detail/short_vec_sse_*.hpp, call by call, in the
    language of ShortVecLang.v.  Each definition cites the lines it was
    transliterated from.  Calls of load() and store() are expanded. *)
From Coq Require Import String ZArith List.
From Verif Require Import ShortVecLang ShortVecClass.
Import ListNotations.
Local Open Scope Z_scope.
Local Open Scope string_scope.

(* short_vec_sse_double_2.hpp:63-66 *)
Definition sse_double_2_ctor_scalar : body :=
  [SSet (LVal (EInt 0)) (ECall _mm_set1_pd [EArg])].

(* short_vec_sse_double_2.hpp:68-72 *)
Definition sse_double_2_ctor_ptr : body :=
  [SSet (LVal (EInt 0)) (ECall _mm_loadu_pd [EData])].

(* short_vec_sse_double_2.hpp:74-77 *)
Definition sse_double_2_ctor_regs : body :=
  [SSet (LVal (EInt 0)) (EPar 0)].

(* short_vec_sse_double_2.hpp:80-85 *)
Definition sse_double_2_ctor_list : body :=
  [SSet (LVal (EInt 0)) (ECall _mm_loadu_pd [EData])].

(* short_vec_sse_double_2.hpp:88-99 *)
Definition sse_double_2_any : body :=
  [SSet (LVar "buf0") (ECall _mm_shuffle_pd [vv 0; vv 0; EInt 1]);
   SRet (EBool (ECop OLor (ECall _mm_cvtsd_f64 [(EVar "buf0")]) (ECall _mm_cvtsd_f64 [vv 0])))].

(* short_vec_sse_double_2.hpp:101-110 *)
Definition sse_double_2_index : body :=
  [SIf (ECop (ORel REq) (EVar "i") (EInt 0)) [SRet (ECall _mm_cvtsd_f64 [vv 0])] [];
   SSet (LVar "buf") (ECall _mm_shuffle_pd [vv 0; vv 0; EInt 1]);
   SRet (ECall _mm_cvtsd_f64 [(EVar "buf")])].

(* short_vec_sse_double_2.hpp:112-116 *)
Definition sse_double_2_sub_eq : body :=
  [SSet (LVal (EInt 0)) (ECall _mm_sub_pd [vv 0; oo 0])].

(* short_vec_sse_double_2.hpp:118-123 *)
Definition sse_double_2_sub : body :=
  [SRetVec [(ECall _mm_sub_pd [vv 0; oo 0])]].

(* short_vec_sse_double_2.hpp:125-129 *)
Definition sse_double_2_add_eq : body :=
  [SSet (LVal (EInt 0)) (ECall _mm_add_pd [vv 0; oo 0])].

(* short_vec_sse_double_2.hpp:131-136 *)
Definition sse_double_2_add : body :=
  [SRetVec [(ECall _mm_add_pd [vv 0; oo 0])]].

(* short_vec_sse_double_2.hpp:138-142 *)
Definition sse_double_2_mul_eq : body :=
  [SSet (LVal (EInt 0)) (ECall _mm_mul_pd [vv 0; oo 0])].

(* short_vec_sse_double_2.hpp:144-149 *)
Definition sse_double_2_mul : body :=
  [SRetVec [(ECall _mm_mul_pd [vv 0; oo 0])]].

(* short_vec_sse_double_2.hpp:151-155 *)
Definition sse_double_2_div_eq : body :=
  [SSet (LVal (EInt 0)) (ECall _mm_div_pd [vv 0; oo 0])].

(* short_vec_sse_double_2.hpp:157-162 *)
Definition sse_double_2_div : body :=
  [SRetVec [(ECall _mm_div_pd [vv 0; oo 0])]].

(* short_vec_sse_double_2.hpp:164-169 *)
Definition sse_double_2_lt : body :=
  [SRetVec [(ECall _mm_cmplt_pd [vv 0; oo 0])]].

(* short_vec_sse_double_2.hpp:171-176 *)
Definition sse_double_2_le : body :=
  [SRetVec [(ECall _mm_cmple_pd [vv 0; oo 0])]].

(* short_vec_sse_double_2.hpp:178-183 *)
Definition sse_double_2_eq : body :=
  [SRetVec [(ECall _mm_cmpeq_pd [vv 0; oo 0])]].

(* short_vec_sse_double_2.hpp:185-190 *)
Definition sse_double_2_gt : body :=
  [SRetVec [(ECall _mm_cmpgt_pd [vv 0; oo 0])]].

(* short_vec_sse_double_2.hpp:192-197 *)
Definition sse_double_2_ge : body :=
  [SRetVec [(ECall _mm_cmpge_pd [vv 0; oo 0])]].

(* short_vec_sse_double_2.hpp:199-204 *)
Definition sse_double_2_sqrt : body :=
  [SRetVec [(ECall _mm_sqrt_pd [vv 0])]].

(* short_vec_sse_double_2.hpp:206-210 *)
Definition sse_double_2_load : body :=
  [SSet (LVal (EInt 0)) (ECall _mm_loadu_pd [EData])].

(* short_vec_sse_double_2.hpp:212-217 *)
Definition sse_double_2_load_aligned : body :=
  [SAssertAligned EData 16;
   SSet (LVal (EInt 0)) (ECall _mm_load_pd [EData])].

(* short_vec_sse_double_2.hpp:219-223 *)
Definition sse_double_2_store : body :=
  [SDo (ECall _mm_storeu_pd [dat 0; vv 0])].

(* short_vec_sse_double_2.hpp:225-230 *)
Definition sse_double_2_store_aligned : body :=
  [SAssertAligned EData 16;
   SDo (ECall _mm_store_pd [dat 0; vv 0])].

(* short_vec_sse_double_2.hpp:232-237 *)
Definition sse_double_2_store_nt : body :=
  [SAssertAligned EData 16;
   SDo (ECall _mm_stream_pd [dat 0; vv 0])].

(* short_vec_sse_double_2.hpp:239-244 *)
Definition sse_double_2_gather : body :=
  [SSet (LVal (EInt 0)) (ECall _mm_loadl_pd [vv 0; pto 0]);
   SSet (LVal (EInt 0)) (ECall _mm_loadh_pd [vv 0; pto 1])].

(* short_vec_sse_double_2.hpp:246-251 *)
Definition sse_double_2_scatter : body :=
  [SDo (ECall _mm_storel_pd [pto 0; vv 0]);
   SDo (ECall _mm_storeh_pd [pto 1; vv 0])].

(* short_vec_sse_double_2.hpp:253-263 *)
Definition sse_double_2_blend : body :=
  [SSet (LVal (EInt 0)) (ECall _mm_or_pd [(ECall _mm_and_pd [mm 0; oo 0]); (ECall _mm_andnot_pd [mm
    0; vv 0])])].

(* short_vec_sse_double_2.hpp:289-293 *)
Definition sse_double_2_print : list item :=
  [PStr "["; PVal (EIdx (vv 0) (EInt 0)); PStr ", "; PVal (EIdx (vv 0) (EInt 1)); PStr "]"].

(* short_vec_sse_double_2.hpp *)
Definition cls_sse_double_2 : cls :=
  mkCls "sse_double_2" KF64 2 1 2 16 MVec
    (fun m => match m with
     | MCtorScalar => Some sse_double_2_ctor_scalar
     | MCtorPtr => Some sse_double_2_ctor_ptr
     | MCtorRegs => Some sse_double_2_ctor_regs
     | MCtorList => Some sse_double_2_ctor_list
     | MAny => Some sse_double_2_any
     | MIndex => Some sse_double_2_index
     | MSubEq => Some sse_double_2_sub_eq
     | MSub => Some sse_double_2_sub
     | MAddEq => Some sse_double_2_add_eq
     | MAdd => Some sse_double_2_add
     | MMulEq => Some sse_double_2_mul_eq
     | MMul => Some sse_double_2_mul
     | MDivEq => Some sse_double_2_div_eq
     | MDiv => Some sse_double_2_div
     | MLt => Some sse_double_2_lt
     | MLe => Some sse_double_2_le
     | MEq => Some sse_double_2_eq
     | MGt => Some sse_double_2_gt
     | MGe => Some sse_double_2_ge
     | MSqrt => Some sse_double_2_sqrt
     | MLoad => Some sse_double_2_load
     | MLoadAligned => Some sse_double_2_load_aligned
     | MStore => Some sse_double_2_store
     | MStoreAligned => Some sse_double_2_store_aligned
     | MStoreNt => Some sse_double_2_store_nt
     | MGather => Some sse_double_2_gather
     | MScatter => Some sse_double_2_scatter
     | MBlend => Some sse_double_2_blend
     | _ => None
     end)
    sse_double_2_ctor_regs sse_double_2_print.

(* short_vec_sse_double_2.hpp:88-99 with __SSE4_1__ *)
Definition sse_double_2_41_any : body :=
  [SRet (EBool (ECop (ORel REq) (EInt 0) (ECall _mm_testz_si128 [(ECall _mm_castpd_si128 [vv 0]);
    (ECall _mm_castpd_si128 [vv 0])])))].

(* short_vec_sse_double_2.hpp:253-263 with __SSE4_1__ *)
Definition sse_double_2_41_blend : body :=
  [SSet (LVal (EInt 0)) (ECall _mm_blendv_pd [vv 0; oo 0; mm 0])].

(* short_vec_sse_double_2.hpp with __SSE4_1__ *)
Definition cls_sse_double_2_41 : cls :=
  mkCls "sse_double_2_41" KF64 2 1 2 16 MVec
    (fun m => match m with
     | MCtorScalar => Some sse_double_2_ctor_scalar
     | MCtorPtr => Some sse_double_2_ctor_ptr
     | MCtorRegs => Some sse_double_2_ctor_regs
     | MCtorList => Some sse_double_2_ctor_list
     | MAny => Some sse_double_2_41_any
     | MIndex => Some sse_double_2_index
     | MSubEq => Some sse_double_2_sub_eq
     | MSub => Some sse_double_2_sub
     | MAddEq => Some sse_double_2_add_eq
     | MAdd => Some sse_double_2_add
     | MMulEq => Some sse_double_2_mul_eq
     | MMul => Some sse_double_2_mul
     | MDivEq => Some sse_double_2_div_eq
     | MDiv => Some sse_double_2_div
     | MLt => Some sse_double_2_lt
     | MLe => Some sse_double_2_le
     | MEq => Some sse_double_2_eq
     | MGt => Some sse_double_2_gt
     | MGe => Some sse_double_2_ge
     | MSqrt => Some sse_double_2_sqrt
     | MLoad => Some sse_double_2_load
     | MLoadAligned => Some sse_double_2_load_aligned
     | MStore => Some sse_double_2_store
     | MStoreAligned => Some sse_double_2_store_aligned
     | MStoreNt => Some sse_double_2_store_nt
     | MGather => Some sse_double_2_gather
     | MScatter => Some sse_double_2_scatter
     | MBlend => Some sse_double_2_41_blend
     | _ => None
     end)
    sse_double_2_ctor_regs sse_double_2_print.

(* short_vec_sse_double_4.hpp:61-65 *)
Definition sse_double_4_ctor_scalar : body :=
  [SSet (LVal (EInt 0)) (ECall _mm_set1_pd [EArg]);
   SSet (LVal (EInt 1)) (ECall _mm_set1_pd [EArg])].

(* short_vec_sse_double_4.hpp:67-71 *)
Definition sse_double_4_ctor_ptr : body :=
  [SSet (LVal (EInt 0)) (ECall _mm_loadu_pd [dat 0]);
   SSet (LVal (EInt 1)) (ECall _mm_loadu_pd [dat 2])].

(* short_vec_sse_double_4.hpp:73-77 *)
Definition sse_double_4_ctor_regs : body :=
  [SSet (LVal (EInt 0)) (EPar 0);
   SSet (LVal (EInt 1)) (EPar 1)].

(* short_vec_sse_double_4.hpp:80-85 *)
Definition sse_double_4_ctor_list : body :=
  [SSet (LVal (EInt 0)) (ECall _mm_loadu_pd [dat 0]);
   SSet (LVal (EInt 1)) (ECall _mm_loadu_pd [dat 2])].

(* short_vec_sse_double_4.hpp:88-101 *)
Definition sse_double_4_any : body :=
  [SSet (LVar "buf1") (ECall _mm_or_pd [vv 0; vv 1]);
   SSet (LVar "buf2") (ECall _mm_shuffle_pd [(EVar "buf1"); (EVar "buf1"); EInt 1]);
   SRet (EBool (ECop OLor (ECall _mm_cvtsd_f64 [(EVar "buf1")]) (ECall _mm_cvtsd_f64 [(EVar
    "buf2")])))].

(* short_vec_sse_double_4.hpp:103-115 *)
Definition sse_double_4_index : body :=
  [SSet (LVar "buf") (EVal (ECop OShr (EVar "i") (EInt 1)));
   SUpd OBitAnd (LVar "i") (EInt 1);
   SIf (ECop (ORel REq) (EVar "i") (EInt 0)) [SRet (ECall _mm_cvtsd_f64 [(EVar "buf")])] [];
   SSet (LVar "buf") (ECall _mm_shuffle_pd [(EVar "buf"); (EVar "buf"); EInt 1]);
   SRet (ECall _mm_cvtsd_f64 [(EVar "buf")])].

(* short_vec_sse_double_4.hpp:117-122 *)
Definition sse_double_4_sub_eq : body :=
  [SSet (LVal (EInt 0)) (ECall _mm_sub_pd [vv 0; oo 0]);
   SSet (LVal (EInt 1)) (ECall _mm_sub_pd [vv 1; oo 1])].

(* short_vec_sse_double_4.hpp:124-130 *)
Definition sse_double_4_sub : body :=
  [SRetVec [(ECall _mm_sub_pd [vv 0; oo 0]); (ECall _mm_sub_pd [vv 1; oo 1])]].

(* short_vec_sse_double_4.hpp:132-137 *)
Definition sse_double_4_add_eq : body :=
  [SSet (LVal (EInt 0)) (ECall _mm_add_pd [vv 0; oo 0]);
   SSet (LVal (EInt 1)) (ECall _mm_add_pd [vv 1; oo 1])].

(* short_vec_sse_double_4.hpp:139-145 *)
Definition sse_double_4_add : body :=
  [SRetVec [(ECall _mm_add_pd [vv 0; oo 0]); (ECall _mm_add_pd [vv 1; oo 1])]].

(* short_vec_sse_double_4.hpp:147-152 *)
Definition sse_double_4_mul_eq : body :=
  [SSet (LVal (EInt 0)) (ECall _mm_mul_pd [vv 0; oo 0]);
   SSet (LVal (EInt 1)) (ECall _mm_mul_pd [vv 1; oo 1])].

(* short_vec_sse_double_4.hpp:154-160 *)
Definition sse_double_4_mul : body :=
  [SRetVec [(ECall _mm_mul_pd [vv 0; oo 0]); (ECall _mm_mul_pd [vv 1; oo 1])]].

(* short_vec_sse_double_4.hpp:162-167 *)
Definition sse_double_4_div_eq : body :=
  [SSet (LVal (EInt 0)) (ECall _mm_div_pd [vv 0; oo 0]);
   SSet (LVal (EInt 1)) (ECall _mm_div_pd [vv 1; oo 1])].

(* short_vec_sse_double_4.hpp:169-175 *)
Definition sse_double_4_div : body :=
  [SRetVec [(ECall _mm_div_pd [vv 0; oo 0]); (ECall _mm_div_pd [vv 1; oo 1])]].

(* short_vec_sse_double_4.hpp:177-183 *)
Definition sse_double_4_lt : body :=
  [SRetVec [(ECall _mm_cmplt_pd [vv 0; oo 0]); (ECall _mm_cmplt_pd [vv 1; oo 1])]].

(* short_vec_sse_double_4.hpp:185-191 *)
Definition sse_double_4_le : body :=
  [SRetVec [(ECall _mm_cmple_pd [vv 0; oo 0]); (ECall _mm_cmple_pd [vv 1; oo 1])]].

(* short_vec_sse_double_4.hpp:193-199 *)
Definition sse_double_4_eq : body :=
  [SRetVec [(ECall _mm_cmpeq_pd [vv 0; oo 0]); (ECall _mm_cmpeq_pd [vv 1; oo 1])]].

(* short_vec_sse_double_4.hpp:201-207 *)
Definition sse_double_4_gt : body :=
  [SRetVec [(ECall _mm_cmpgt_pd [vv 0; oo 0]); (ECall _mm_cmpgt_pd [vv 1; oo 1])]].

(* short_vec_sse_double_4.hpp:209-215 *)
Definition sse_double_4_ge : body :=
  [SRetVec [(ECall _mm_cmpge_pd [vv 0; oo 0]); (ECall _mm_cmpge_pd [vv 1; oo 1])]].

(* short_vec_sse_double_4.hpp:217-223 *)
Definition sse_double_4_sqrt : body :=
  [SRetVec [(ECall _mm_sqrt_pd [vv 0]); (ECall _mm_sqrt_pd [vv 1])]].

(* short_vec_sse_double_4.hpp:225-230 *)
Definition sse_double_4_load : body :=
  [SSet (LVal (EInt 0)) (ECall _mm_loadu_pd [dat 0]);
   SSet (LVal (EInt 1)) (ECall _mm_loadu_pd [dat 2])].

(* short_vec_sse_double_4.hpp:232-238 *)
Definition sse_double_4_load_aligned : body :=
  [SAssertAligned EData 16;
   SSet (LVal (EInt 0)) (ECall _mm_load_pd [dat 0]);
   SSet (LVal (EInt 1)) (ECall _mm_load_pd [dat 2])].

(* short_vec_sse_double_4.hpp:240-245 *)
Definition sse_double_4_store : body :=
  [SDo (ECall _mm_storeu_pd [dat 0; vv 0]);
   SDo (ECall _mm_storeu_pd [dat 2; vv 1])].

(* short_vec_sse_double_4.hpp:247-253 *)
Definition sse_double_4_store_aligned : body :=
  [SAssertAligned EData 16;
   SDo (ECall _mm_store_pd [dat 0; vv 0]);
   SDo (ECall _mm_store_pd [dat 2; vv 1])].

(* short_vec_sse_double_4.hpp:255-261 *)
Definition sse_double_4_store_nt : body :=
  [SAssertAligned EData 16;
   SDo (ECall _mm_stream_pd [dat 0; vv 0]);
   SDo (ECall _mm_stream_pd [dat 2; vv 1])].

(* short_vec_sse_double_4.hpp:263-270 *)
Definition sse_double_4_gather : body :=
  [SSet (LVal (EInt 0)) (ECall _mm_loadl_pd [vv 0; pto 0]);
   SSet (LVal (EInt 0)) (ECall _mm_loadh_pd [vv 0; pto 1]);
   SSet (LVal (EInt 1)) (ECall _mm_loadl_pd [vv 1; pto 2]);
   SSet (LVal (EInt 1)) (ECall _mm_loadh_pd [vv 1; pto 3])].

(* short_vec_sse_double_4.hpp:272-279 *)
Definition sse_double_4_scatter : body :=
  [SDo (ECall _mm_storel_pd [pto 0; vv 0]);
   SDo (ECall _mm_storeh_pd [pto 1; vv 0]);
   SDo (ECall _mm_storel_pd [pto 2; vv 1]);
   SDo (ECall _mm_storeh_pd [pto 3; vv 1])].

(* short_vec_sse_double_4.hpp:281-295 *)
Definition sse_double_4_blend : body :=
  [SSet (LVal (EInt 0)) (ECall _mm_or_pd [(ECall _mm_and_pd [mm 0; oo 0]); (ECall _mm_andnot_pd [mm
    0; vv 0])]);
   SSet (LVal (EInt 1)) (ECall _mm_or_pd [(ECall _mm_and_pd [mm 1; oo 1]); (ECall _mm_andnot_pd [mm
    1; vv 1])])].

(* short_vec_sse_double_4.hpp:321-326 *)
Definition sse_double_4_print : list item :=
  [PStr "["; PVal (EIdx (vv 0) (EInt 0)); PStr ", "; PVal (EIdx (vv 0) (EInt 1)); PStr ", "; PVal
   (EIdx (vv 1) (EInt 0)); PStr ", "; PVal (EIdx (vv 1) (EInt 1)); PStr "]"].

(* short_vec_sse_double_4.hpp *)
Definition cls_sse_double_4 : cls :=
  mkCls "sse_double_4" KF64 4 2 2 16 MVec
    (fun m => match m with
     | MCtorScalar => Some sse_double_4_ctor_scalar
     | MCtorPtr => Some sse_double_4_ctor_ptr
     | MCtorRegs => Some sse_double_4_ctor_regs
     | MCtorList => Some sse_double_4_ctor_list
     | MAny => Some sse_double_4_any
     | MIndex => Some sse_double_4_index
     | MSubEq => Some sse_double_4_sub_eq
     | MSub => Some sse_double_4_sub
     | MAddEq => Some sse_double_4_add_eq
     | MAdd => Some sse_double_4_add
     | MMulEq => Some sse_double_4_mul_eq
     | MMul => Some sse_double_4_mul
     | MDivEq => Some sse_double_4_div_eq
     | MDiv => Some sse_double_4_div
     | MLt => Some sse_double_4_lt
     | MLe => Some sse_double_4_le
     | MEq => Some sse_double_4_eq
     | MGt => Some sse_double_4_gt
     | MGe => Some sse_double_4_ge
     | MSqrt => Some sse_double_4_sqrt
     | MLoad => Some sse_double_4_load
     | MLoadAligned => Some sse_double_4_load_aligned
     | MStore => Some sse_double_4_store
     | MStoreAligned => Some sse_double_4_store_aligned
     | MStoreNt => Some sse_double_4_store_nt
     | MGather => Some sse_double_4_gather
     | MScatter => Some sse_double_4_scatter
     | MBlend => Some sse_double_4_blend
     | _ => None
     end)
    sse_double_4_ctor_regs sse_double_4_print.

(* short_vec_sse_double_4.hpp:88-101 with __SSE4_1__ *)
Definition sse_double_4_41_any : body :=
  [SSet (LVar "buf1") (ECall _mm_or_pd [vv 0; vv 1]);
   SRet (EBool (ECop (ORel REq) (EInt 0) (ECall _mm_testz_si128 [(ECall _mm_castpd_si128 [(EVar
    "buf1")]); (ECall _mm_castpd_si128 [(EVar "buf1")])])))].

(* short_vec_sse_double_4.hpp:281-295 with __SSE4_1__ *)
Definition sse_double_4_41_blend : body :=
  [SSet (LVal (EInt 0)) (ECall _mm_blendv_pd [vv 0; oo 0; mm 0]);
   SSet (LVal (EInt 1)) (ECall _mm_blendv_pd [vv 1; oo 1; mm 1])].

(* short_vec_sse_double_4.hpp with __SSE4_1__ *)
Definition cls_sse_double_4_41 : cls :=
  mkCls "sse_double_4_41" KF64 4 2 2 16 MVec
    (fun m => match m with
     | MCtorScalar => Some sse_double_4_ctor_scalar
     | MCtorPtr => Some sse_double_4_ctor_ptr
     | MCtorRegs => Some sse_double_4_ctor_regs
     | MCtorList => Some sse_double_4_ctor_list
     | MAny => Some sse_double_4_41_any
     | MIndex => Some sse_double_4_index
     | MSubEq => Some sse_double_4_sub_eq
     | MSub => Some sse_double_4_sub
     | MAddEq => Some sse_double_4_add_eq
     | MAdd => Some sse_double_4_add
     | MMulEq => Some sse_double_4_mul_eq
     | MMul => Some sse_double_4_mul
     | MDivEq => Some sse_double_4_div_eq
     | MDiv => Some sse_double_4_div
     | MLt => Some sse_double_4_lt
     | MLe => Some sse_double_4_le
     | MEq => Some sse_double_4_eq
     | MGt => Some sse_double_4_gt
     | MGe => Some sse_double_4_ge
     | MSqrt => Some sse_double_4_sqrt
     | MLoad => Some sse_double_4_load
     | MLoadAligned => Some sse_double_4_load_aligned
     | MStore => Some sse_double_4_store
     | MStoreAligned => Some sse_double_4_store_aligned
     | MStoreNt => Some sse_double_4_store_nt
     | MGather => Some sse_double_4_gather
     | MScatter => Some sse_double_4_scatter
     | MBlend => Some sse_double_4_41_blend
     | _ => None
     end)
    sse_double_4_ctor_regs sse_double_4_print.

(* short_vec_sse_double_8.hpp:60-66 *)
Definition sse_double_8_ctor_scalar : body :=
  [SSet (LVal (EInt 0)) (ECall _mm_set1_pd [EArg]);
   SSet (LVal (EInt 1)) (ECall _mm_set1_pd [EArg]);
   SSet (LVal (EInt 2)) (ECall _mm_set1_pd [EArg]);
   SSet (LVal (EInt 3)) (ECall _mm_set1_pd [EArg])].

(* short_vec_sse_double_8.hpp:68-72 *)
Definition sse_double_8_ctor_ptr : body :=
  [SSet (LVal (EInt 0)) (ECall _mm_loadu_pd [dat 0]);
   SSet (LVal (EInt 1)) (ECall _mm_loadu_pd [dat 2]);
   SSet (LVal (EInt 2)) (ECall _mm_loadu_pd [dat 4]);
   SSet (LVal (EInt 3)) (ECall _mm_loadu_pd [dat 6])].

(* short_vec_sse_double_8.hpp:74-80 *)
Definition sse_double_8_ctor_regs : body :=
  [SSet (LVal (EInt 0)) (EPar 0);
   SSet (LVal (EInt 1)) (EPar 1);
   SSet (LVal (EInt 2)) (EPar 2);
   SSet (LVal (EInt 3)) (EPar 3)].

(* short_vec_sse_double_8.hpp:83-88 *)
Definition sse_double_8_ctor_list : body :=
  [SSet (LVal (EInt 0)) (ECall _mm_loadu_pd [dat 0]);
   SSet (LVal (EInt 1)) (ECall _mm_loadu_pd [dat 2]);
   SSet (LVal (EInt 2)) (ECall _mm_loadu_pd [dat 4]);
   SSet (LVal (EInt 3)) (ECall _mm_loadu_pd [dat 6])].

(* short_vec_sse_double_8.hpp:91-105 *)
Definition sse_double_8_any : body :=
  [SSet (LVar "buf1") (ECall _mm_or_pd [(ECall _mm_or_pd [vv 0; vv 1]); (ECall _mm_or_pd [vv 2; vv
    3])]);
   SSet (LVar "buf2") (ECall _mm_shuffle_pd [(EVar "buf1"); (EVar "buf1"); EInt 1]);
   SRet (EBool (ECop OLor (ECall _mm_cvtsd_f64 [(EVar "buf1")]) (ECall _mm_cvtsd_f64 [(EVar
    "buf2")])))].

(* short_vec_sse_double_8.hpp:107-119 *)
Definition sse_double_8_index : body :=
  [SSet (LVar "buf") (EVal (ECop OShr (EVar "i") (EInt 1)));
   SUpd OBitAnd (LVar "i") (EInt 1);
   SIf (ECop (ORel REq) (EVar "i") (EInt 0)) [SRet (ECall _mm_cvtsd_f64 [(EVar "buf")])] [];
   SSet (LVar "buf") (ECall _mm_shuffle_pd [(EVar "buf"); (EVar "buf"); EInt 1]);
   SRet (ECall _mm_cvtsd_f64 [(EVar "buf")])].

(* short_vec_sse_double_8.hpp:121-128 *)
Definition sse_double_8_sub_eq : body :=
  [SSet (LVal (EInt 0)) (ECall _mm_sub_pd [vv 0; oo 0]);
   SSet (LVal (EInt 1)) (ECall _mm_sub_pd [vv 1; oo 1]);
   SSet (LVal (EInt 2)) (ECall _mm_sub_pd [vv 2; oo 2]);
   SSet (LVal (EInt 3)) (ECall _mm_sub_pd [vv 3; oo 3])].

(* short_vec_sse_double_8.hpp:130-138 *)
Definition sse_double_8_sub : body :=
  [SRetVec [(ECall _mm_sub_pd [vv 0; oo 0]); (ECall _mm_sub_pd [vv 1; oo 1]); (ECall _mm_sub_pd [vv
    2; oo 2]); (ECall _mm_sub_pd [vv 3; oo 3])]].

(* short_vec_sse_double_8.hpp:140-147 *)
Definition sse_double_8_add_eq : body :=
  [SSet (LVal (EInt 0)) (ECall _mm_add_pd [vv 0; oo 0]);
   SSet (LVal (EInt 1)) (ECall _mm_add_pd [vv 1; oo 1]);
   SSet (LVal (EInt 2)) (ECall _mm_add_pd [vv 2; oo 2]);
   SSet (LVal (EInt 3)) (ECall _mm_add_pd [vv 3; oo 3])].

(* short_vec_sse_double_8.hpp:149-157 *)
Definition sse_double_8_add : body :=
  [SRetVec [(ECall _mm_add_pd [vv 0; oo 0]); (ECall _mm_add_pd [vv 1; oo 1]); (ECall _mm_add_pd [vv
    2; oo 2]); (ECall _mm_add_pd [vv 3; oo 3])]].

(* short_vec_sse_double_8.hpp:159-166 *)
Definition sse_double_8_mul_eq : body :=
  [SSet (LVal (EInt 0)) (ECall _mm_mul_pd [vv 0; oo 0]);
   SSet (LVal (EInt 1)) (ECall _mm_mul_pd [vv 1; oo 1]);
   SSet (LVal (EInt 2)) (ECall _mm_mul_pd [vv 2; oo 2]);
   SSet (LVal (EInt 3)) (ECall _mm_mul_pd [vv 3; oo 3])].

(* short_vec_sse_double_8.hpp:168-176 *)
Definition sse_double_8_mul : body :=
  [SRetVec [(ECall _mm_mul_pd [vv 0; oo 0]); (ECall _mm_mul_pd [vv 1; oo 1]); (ECall _mm_mul_pd [vv
    2; oo 2]); (ECall _mm_mul_pd [vv 3; oo 3])]].

(* short_vec_sse_double_8.hpp:178-185 *)
Definition sse_double_8_div_eq : body :=
  [SSet (LVal (EInt 0)) (ECall _mm_div_pd [vv 0; oo 0]);
   SSet (LVal (EInt 1)) (ECall _mm_div_pd [vv 1; oo 1]);
   SSet (LVal (EInt 2)) (ECall _mm_div_pd [vv 2; oo 2]);
   SSet (LVal (EInt 3)) (ECall _mm_div_pd [vv 3; oo 3])].

(* short_vec_sse_double_8.hpp:187-195 *)
Definition sse_double_8_div : body :=
  [SRetVec [(ECall _mm_div_pd [vv 0; oo 0]); (ECall _mm_div_pd [vv 1; oo 1]); (ECall _mm_div_pd [vv
    2; oo 2]); (ECall _mm_div_pd [vv 3; oo 3])]].

(* short_vec_sse_double_8.hpp:200-208 *)
Definition sse_double_8_lt : body :=
  [SRetVec [(ECall _mm_cmplt_pd [vv 0; oo 0]); (ECall _mm_cmplt_pd [vv 1; oo 1]); (ECall
    _mm_cmplt_pd [vv 2; oo 2]); (ECall _mm_cmplt_pd [vv 3; oo 3])]].

(* short_vec_sse_double_8.hpp:210-218 *)
Definition sse_double_8_le : body :=
  [SRetVec [(ECall _mm_cmple_pd [vv 0; oo 0]); (ECall _mm_cmple_pd [vv 1; oo 1]); (ECall
    _mm_cmple_pd [vv 2; oo 2]); (ECall _mm_cmple_pd [vv 3; oo 3])]].

(* short_vec_sse_double_8.hpp:220-228 *)
Definition sse_double_8_eq : body :=
  [SRetVec [(ECall _mm_cmpeq_pd [vv 0; oo 0]); (ECall _mm_cmpeq_pd [vv 1; oo 1]); (ECall
    _mm_cmpeq_pd [vv 2; oo 2]); (ECall _mm_cmpeq_pd [vv 3; oo 3])]].

(* short_vec_sse_double_8.hpp:230-238 *)
Definition sse_double_8_gt : body :=
  [SRetVec [(ECall _mm_cmpgt_pd [vv 0; oo 0]); (ECall _mm_cmpgt_pd [vv 1; oo 1]); (ECall
    _mm_cmpgt_pd [vv 2; oo 2]); (ECall _mm_cmpgt_pd [vv 3; oo 3])]].

(* short_vec_sse_double_8.hpp:240-248 *)
Definition sse_double_8_ge : body :=
  [SRetVec [(ECall _mm_cmpge_pd [vv 0; oo 0]); (ECall _mm_cmpge_pd [vv 1; oo 1]); (ECall
    _mm_cmpge_pd [vv 2; oo 2]); (ECall _mm_cmpge_pd [vv 3; oo 3])]].

(* short_vec_sse_double_8.hpp:250-258 *)
Definition sse_double_8_sqrt : body :=
  [SRetVec [(ECall _mm_sqrt_pd [vv 0]); (ECall _mm_sqrt_pd [vv 1]); (ECall _mm_sqrt_pd [vv 2]);
    (ECall _mm_sqrt_pd [vv 3])]].

(* short_vec_sse_double_8.hpp:260-267 *)
Definition sse_double_8_load : body :=
  [SSet (LVal (EInt 0)) (ECall _mm_loadu_pd [dat 0]);
   SSet (LVal (EInt 1)) (ECall _mm_loadu_pd [dat 2]);
   SSet (LVal (EInt 2)) (ECall _mm_loadu_pd [dat 4]);
   SSet (LVal (EInt 3)) (ECall _mm_loadu_pd [dat 6])].

(* short_vec_sse_double_8.hpp:269-277 *)
Definition sse_double_8_load_aligned : body :=
  [SAssertAligned EData 16;
   SSet (LVal (EInt 0)) (ECall _mm_load_pd [dat 0]);
   SSet (LVal (EInt 1)) (ECall _mm_load_pd [dat 2]);
   SSet (LVal (EInt 2)) (ECall _mm_load_pd [dat 4]);
   SSet (LVal (EInt 3)) (ECall _mm_load_pd [dat 6])].

(* short_vec_sse_double_8.hpp:279-286 *)
Definition sse_double_8_store : body :=
  [SDo (ECall _mm_storeu_pd [dat 0; vv 0]);
   SDo (ECall _mm_storeu_pd [dat 2; vv 1]);
   SDo (ECall _mm_storeu_pd [dat 4; vv 2]);
   SDo (ECall _mm_storeu_pd [dat 6; vv 3])].

(* short_vec_sse_double_8.hpp:288-296 *)
Definition sse_double_8_store_aligned : body :=
  [SAssertAligned EData 16;
   SDo (ECall _mm_store_pd [dat 0; vv 0]);
   SDo (ECall _mm_store_pd [dat 2; vv 1]);
   SDo (ECall _mm_store_pd [dat 4; vv 2]);
   SDo (ECall _mm_store_pd [dat 6; vv 3])].

(* short_vec_sse_double_8.hpp:298-306 *)
Definition sse_double_8_store_nt : body :=
  [SAssertAligned EData 16;
   SDo (ECall _mm_stream_pd [dat 0; vv 0]);
   SDo (ECall _mm_stream_pd [dat 2; vv 1]);
   SDo (ECall _mm_stream_pd [dat 4; vv 2]);
   SDo (ECall _mm_stream_pd [dat 6; vv 3])].

(* short_vec_sse_double_8.hpp:308-319 *)
Definition sse_double_8_gather : body :=
  [SSet (LVal (EInt 0)) (ECall _mm_loadl_pd [vv 0; pto 0]);
   SSet (LVal (EInt 0)) (ECall _mm_loadh_pd [vv 0; pto 1]);
   SSet (LVal (EInt 1)) (ECall _mm_loadl_pd [vv 1; pto 2]);
   SSet (LVal (EInt 1)) (ECall _mm_loadh_pd [vv 1; pto 3]);
   SSet (LVal (EInt 2)) (ECall _mm_loadl_pd [vv 2; pto 4]);
   SSet (LVal (EInt 2)) (ECall _mm_loadh_pd [vv 2; pto 5]);
   SSet (LVal (EInt 3)) (ECall _mm_loadl_pd [vv 3; pto 6]);
   SSet (LVal (EInt 3)) (ECall _mm_loadh_pd [vv 3; pto 7])].

(* short_vec_sse_double_8.hpp:321-332 *)
Definition sse_double_8_scatter : body :=
  [SDo (ECall _mm_storel_pd [pto 0; vv 0]);
   SDo (ECall _mm_storeh_pd [pto 1; vv 0]);
   SDo (ECall _mm_storel_pd [pto 2; vv 1]);
   SDo (ECall _mm_storeh_pd [pto 3; vv 1]);
   SDo (ECall _mm_storel_pd [pto 4; vv 2]);
   SDo (ECall _mm_storeh_pd [pto 5; vv 2]);
   SDo (ECall _mm_storel_pd [pto 6; vv 3]);
   SDo (ECall _mm_storeh_pd [pto 7; vv 3])].

(* short_vec_sse_double_8.hpp:334-356 *)
Definition sse_double_8_blend : body :=
  [SSet (LVal (EInt 0)) (ECall _mm_or_pd [(ECall _mm_and_pd [mm 0; oo 0]); (ECall _mm_andnot_pd [mm
    0; vv 0])]);
   SSet (LVal (EInt 1)) (ECall _mm_or_pd [(ECall _mm_and_pd [mm 1; oo 1]); (ECall _mm_andnot_pd [mm
    1; vv 1])]);
   SSet (LVal (EInt 2)) (ECall _mm_or_pd [(ECall _mm_and_pd [mm 2; oo 2]); (ECall _mm_andnot_pd [mm
    2; vv 2])]);
   SSet (LVal (EInt 3)) (ECall _mm_or_pd [(ECall _mm_and_pd [mm 3; oo 3]); (ECall _mm_andnot_pd [mm
    3; vv 3])])].

(* short_vec_sse_double_8.hpp:382-393 *)
Definition sse_double_8_print : list item :=
  [PStr "["; PVal (EIdx (vv 0) (EInt 0)); PStr ", "; PVal (EIdx (vv 0) (EInt 1)); PStr ", "; PVal
   (EIdx (vv 1) (EInt 0)); PStr ", "; PVal (EIdx (vv 1) (EInt 1)); PStr ", "; PVal (EIdx (vv 2)
   (EInt 0)); PStr ", "; PVal (EIdx (vv 2) (EInt 1)); PStr ", "; PVal (EIdx (vv 3) (EInt 0)); PStr
   ", "; PVal (EIdx (vv 3) (EInt 1)); PStr "]"].

(* short_vec_sse_double_8.hpp *)
Definition cls_sse_double_8 : cls :=
  mkCls "sse_double_8" KF64 8 4 2 16 MVec
    (fun m => match m with
     | MCtorScalar => Some sse_double_8_ctor_scalar
     | MCtorPtr => Some sse_double_8_ctor_ptr
     | MCtorRegs => Some sse_double_8_ctor_regs
     | MCtorList => Some sse_double_8_ctor_list
     | MAny => Some sse_double_8_any
     | MIndex => Some sse_double_8_index
     | MSubEq => Some sse_double_8_sub_eq
     | MSub => Some sse_double_8_sub
     | MAddEq => Some sse_double_8_add_eq
     | MAdd => Some sse_double_8_add
     | MMulEq => Some sse_double_8_mul_eq
     | MMul => Some sse_double_8_mul
     | MDivEq => Some sse_double_8_div_eq
     | MDiv => Some sse_double_8_div
     | MLt => Some sse_double_8_lt
     | MLe => Some sse_double_8_le
     | MEq => Some sse_double_8_eq
     | MGt => Some sse_double_8_gt
     | MGe => Some sse_double_8_ge
     | MSqrt => Some sse_double_8_sqrt
     | MLoad => Some sse_double_8_load
     | MLoadAligned => Some sse_double_8_load_aligned
     | MStore => Some sse_double_8_store
     | MStoreAligned => Some sse_double_8_store_aligned
     | MStoreNt => Some sse_double_8_store_nt
     | MGather => Some sse_double_8_gather
     | MScatter => Some sse_double_8_scatter
     | MBlend => Some sse_double_8_blend
     | _ => None
     end)
    sse_double_8_ctor_regs sse_double_8_print.

(* short_vec_sse_double_8.hpp:91-105 with __SSE4_1__ *)
Definition sse_double_8_41_any : body :=
  [SSet (LVar "buf1") (ECall _mm_or_pd [(ECall _mm_or_pd [vv 0; vv 1]); (ECall _mm_or_pd [vv 2; vv
    3])]);
   SRet (EBool (ECop (ORel REq) (EInt 0) (ECall _mm_testz_si128 [(ECall _mm_castpd_si128 [(EVar
    "buf1")]); (ECall _mm_castpd_si128 [(EVar "buf1")])])))].

(* short_vec_sse_double_8.hpp:334-356 with __SSE4_1__ *)
Definition sse_double_8_41_blend : body :=
  [SSet (LVal (EInt 0)) (ECall _mm_blendv_pd [vv 0; oo 0; mm 0]);
   SSet (LVal (EInt 1)) (ECall _mm_blendv_pd [vv 1; oo 1; mm 1]);
   SSet (LVal (EInt 2)) (ECall _mm_blendv_pd [vv 2; oo 2; mm 2]);
   SSet (LVal (EInt 3)) (ECall _mm_blendv_pd [vv 3; oo 3; mm 3])].

(* short_vec_sse_double_8.hpp with __SSE4_1__ *)
Definition cls_sse_double_8_41 : cls :=
  mkCls "sse_double_8_41" KF64 8 4 2 16 MVec
    (fun m => match m with
     | MCtorScalar => Some sse_double_8_ctor_scalar
     | MCtorPtr => Some sse_double_8_ctor_ptr
     | MCtorRegs => Some sse_double_8_ctor_regs
     | MCtorList => Some sse_double_8_ctor_list
     | MAny => Some sse_double_8_41_any
     | MIndex => Some sse_double_8_index
     | MSubEq => Some sse_double_8_sub_eq
     | MSub => Some sse_double_8_sub
     | MAddEq => Some sse_double_8_add_eq
     | MAdd => Some sse_double_8_add
     | MMulEq => Some sse_double_8_mul_eq
     | MMul => Some sse_double_8_mul
     | MDivEq => Some sse_double_8_div_eq
     | MDiv => Some sse_double_8_div
     | MLt => Some sse_double_8_lt
     | MLe => Some sse_double_8_le
     | MEq => Some sse_double_8_eq
     | MGt => Some sse_double_8_gt
     | MGe => Some sse_double_8_ge
     | MSqrt => Some sse_double_8_sqrt
     | MLoad => Some sse_double_8_load
     | MLoadAligned => Some sse_double_8_load_aligned
     | MStore => Some sse_double_8_store
     | MStoreAligned => Some sse_double_8_store_aligned
     | MStoreNt => Some sse_double_8_store_nt
     | MGather => Some sse_double_8_gather
     | MScatter => Some sse_double_8_scatter
     | MBlend => Some sse_double_8_41_blend
     | _ => None
     end)
    sse_double_8_ctor_regs sse_double_8_print.

(* short_vec_sse_double_16.hpp:60-70 *)
Definition sse_double_16_ctor_scalar : body :=
  [SSet (LVal (EInt 0)) (ECall _mm_set1_pd [EArg]);
   SSet (LVal (EInt 1)) (ECall _mm_set1_pd [EArg]);
   SSet (LVal (EInt 2)) (ECall _mm_set1_pd [EArg]);
   SSet (LVal (EInt 3)) (ECall _mm_set1_pd [EArg]);
   SSet (LVal (EInt 4)) (ECall _mm_set1_pd [EArg]);
   SSet (LVal (EInt 5)) (ECall _mm_set1_pd [EArg]);
   SSet (LVal (EInt 6)) (ECall _mm_set1_pd [EArg]);
   SSet (LVal (EInt 7)) (ECall _mm_set1_pd [EArg])].

(* short_vec_sse_double_16.hpp:72-76 *)
Definition sse_double_16_ctor_ptr : body :=
  [SSet (LVal (EInt 0)) (ECall _mm_loadu_pd [dat 0]);
   SSet (LVal (EInt 1)) (ECall _mm_loadu_pd [dat 2]);
   SSet (LVal (EInt 2)) (ECall _mm_loadu_pd [dat 4]);
   SSet (LVal (EInt 3)) (ECall _mm_loadu_pd [dat 6]);
   SSet (LVal (EInt 4)) (ECall _mm_loadu_pd [dat 8]);
   SSet (LVal (EInt 5)) (ECall _mm_loadu_pd [dat 10]);
   SSet (LVal (EInt 6)) (ECall _mm_loadu_pd [dat 12]);
   SSet (LVal (EInt 7)) (ECall _mm_loadu_pd [dat 14])].

(* short_vec_sse_double_16.hpp:78-96 *)
Definition sse_double_16_ctor_regs : body :=
  [SSet (LVal (EInt 0)) (EPar 0);
   SSet (LVal (EInt 1)) (EPar 1);
   SSet (LVal (EInt 2)) (EPar 2);
   SSet (LVal (EInt 3)) (EPar 3);
   SSet (LVal (EInt 4)) (EPar 4);
   SSet (LVal (EInt 5)) (EPar 5);
   SSet (LVal (EInt 6)) (EPar 6);
   SSet (LVal (EInt 7)) (EPar 7)].

(* short_vec_sse_double_16.hpp:99-104 *)
Definition sse_double_16_ctor_list : body :=
  [SSet (LVal (EInt 0)) (ECall _mm_loadu_pd [dat 0]);
   SSet (LVal (EInt 1)) (ECall _mm_loadu_pd [dat 2]);
   SSet (LVal (EInt 2)) (ECall _mm_loadu_pd [dat 4]);
   SSet (LVal (EInt 3)) (ECall _mm_loadu_pd [dat 6]);
   SSet (LVal (EInt 4)) (ECall _mm_loadu_pd [dat 8]);
   SSet (LVal (EInt 5)) (ECall _mm_loadu_pd [dat 10]);
   SSet (LVal (EInt 6)) (ECall _mm_loadu_pd [dat 12]);
   SSet (LVal (EInt 7)) (ECall _mm_loadu_pd [dat 14])].

(* short_vec_sse_double_16.hpp:107-126 *)
Definition sse_double_16_any : body :=
  [SSet (LVar "buf1") (ECall _mm_or_pd [(ECall _mm_or_pd [(ECall _mm_or_pd [vv 0; vv 1]); (ECall
    _mm_or_pd [vv 2; vv 3])]); (ECall _mm_or_pd [(ECall _mm_or_pd [vv 4; vv 5]); (ECall _mm_or_pd
    [vv 6; vv 7])])]);
   SSet (LVar "buf2") (ECall _mm_shuffle_pd [(EVar "buf1"); (EVar "buf1"); EInt 1]);
   SRet (EBool (ECop OLor (ECall _mm_cvtsd_f64 [(EVar "buf1")]) (ECall _mm_cvtsd_f64 [(EVar
    "buf2")])))].

(* short_vec_sse_double_16.hpp:128-140 *)
Definition sse_double_16_index : body :=
  [SSet (LVar "buf") (EVal (ECop OShr (EVar "i") (EInt 1)));
   SUpd OBitAnd (LVar "i") (EInt 1);
   SIf (ECop (ORel REq) (EVar "i") (EInt 0)) [SRet (ECall _mm_cvtsd_f64 [(EVar "buf")])] [];
   SSet (LVar "buf") (ECall _mm_shuffle_pd [(EVar "buf"); (EVar "buf"); EInt 1]);
   SRet (ECall _mm_cvtsd_f64 [(EVar "buf")])].

(* short_vec_sse_double_16.hpp:142-153 *)
Definition sse_double_16_sub_eq : body :=
  [SSet (LVal (EInt 0)) (ECall _mm_sub_pd [vv 0; oo 0]);
   SSet (LVal (EInt 1)) (ECall _mm_sub_pd [vv 1; oo 1]);
   SSet (LVal (EInt 2)) (ECall _mm_sub_pd [vv 2; oo 2]);
   SSet (LVal (EInt 3)) (ECall _mm_sub_pd [vv 3; oo 3]);
   SSet (LVal (EInt 4)) (ECall _mm_sub_pd [vv 4; oo 4]);
   SSet (LVal (EInt 5)) (ECall _mm_sub_pd [vv 5; oo 5]);
   SSet (LVal (EInt 6)) (ECall _mm_sub_pd [vv 6; oo 6]);
   SSet (LVal (EInt 7)) (ECall _mm_sub_pd [vv 7; oo 7])].

(* short_vec_sse_double_16.hpp:155-167 *)
Definition sse_double_16_sub : body :=
  [SRetVec [(ECall _mm_sub_pd [vv 0; oo 0]); (ECall _mm_sub_pd [vv 1; oo 1]); (ECall _mm_sub_pd [vv
    2; oo 2]); (ECall _mm_sub_pd [vv 3; oo 3]); (ECall _mm_sub_pd [vv 4; oo 4]); (ECall _mm_sub_pd
    [vv 5; oo 5]); (ECall _mm_sub_pd [vv 6; oo 6]); (ECall _mm_sub_pd [vv 7; oo 7])]].

(* short_vec_sse_double_16.hpp:169-180 *)
Definition sse_double_16_add_eq : body :=
  [SSet (LVal (EInt 0)) (ECall _mm_add_pd [vv 0; oo 0]);
   SSet (LVal (EInt 1)) (ECall _mm_add_pd [vv 1; oo 1]);
   SSet (LVal (EInt 2)) (ECall _mm_add_pd [vv 2; oo 2]);
   SSet (LVal (EInt 3)) (ECall _mm_add_pd [vv 3; oo 3]);
   SSet (LVal (EInt 4)) (ECall _mm_add_pd [vv 4; oo 4]);
   SSet (LVal (EInt 5)) (ECall _mm_add_pd [vv 5; oo 5]);
   SSet (LVal (EInt 6)) (ECall _mm_add_pd [vv 6; oo 6]);
   SSet (LVal (EInt 7)) (ECall _mm_add_pd [vv 7; oo 7])].

(* short_vec_sse_double_16.hpp:182-194 *)
Definition sse_double_16_add : body :=
  [SRetVec [(ECall _mm_add_pd [vv 0; oo 0]); (ECall _mm_add_pd [vv 1; oo 1]); (ECall _mm_add_pd [vv
    2; oo 2]); (ECall _mm_add_pd [vv 3; oo 3]); (ECall _mm_add_pd [vv 4; oo 4]); (ECall _mm_add_pd
    [vv 5; oo 5]); (ECall _mm_add_pd [vv 6; oo 6]); (ECall _mm_add_pd [vv 7; oo 7])]].

(* short_vec_sse_double_16.hpp:196-207 *)
Definition sse_double_16_mul_eq : body :=
  [SSet (LVal (EInt 0)) (ECall _mm_mul_pd [vv 0; oo 0]);
   SSet (LVal (EInt 1)) (ECall _mm_mul_pd [vv 1; oo 1]);
   SSet (LVal (EInt 2)) (ECall _mm_mul_pd [vv 2; oo 2]);
   SSet (LVal (EInt 3)) (ECall _mm_mul_pd [vv 3; oo 3]);
   SSet (LVal (EInt 4)) (ECall _mm_mul_pd [vv 4; oo 4]);
   SSet (LVal (EInt 5)) (ECall _mm_mul_pd [vv 5; oo 5]);
   SSet (LVal (EInt 6)) (ECall _mm_mul_pd [vv 6; oo 6]);
   SSet (LVal (EInt 7)) (ECall _mm_mul_pd [vv 7; oo 7])].

(* short_vec_sse_double_16.hpp:209-221 *)
Definition sse_double_16_mul : body :=
  [SRetVec [(ECall _mm_mul_pd [vv 0; oo 0]); (ECall _mm_mul_pd [vv 1; oo 1]); (ECall _mm_mul_pd [vv
    2; oo 2]); (ECall _mm_mul_pd [vv 3; oo 3]); (ECall _mm_mul_pd [vv 4; oo 4]); (ECall _mm_mul_pd
    [vv 5; oo 5]); (ECall _mm_mul_pd [vv 6; oo 6]); (ECall _mm_mul_pd [vv 7; oo 7])]].

(* short_vec_sse_double_16.hpp:223-234 *)
Definition sse_double_16_div_eq : body :=
  [SSet (LVal (EInt 0)) (ECall _mm_div_pd [vv 0; oo 0]);
   SSet (LVal (EInt 1)) (ECall _mm_div_pd [vv 1; oo 1]);
   SSet (LVal (EInt 2)) (ECall _mm_div_pd [vv 2; oo 2]);
   SSet (LVal (EInt 3)) (ECall _mm_div_pd [vv 3; oo 3]);
   SSet (LVal (EInt 4)) (ECall _mm_div_pd [vv 4; oo 4]);
   SSet (LVal (EInt 5)) (ECall _mm_div_pd [vv 5; oo 5]);
   SSet (LVal (EInt 6)) (ECall _mm_div_pd [vv 6; oo 6]);
   SSet (LVal (EInt 7)) (ECall _mm_div_pd [vv 7; oo 7])].

(* short_vec_sse_double_16.hpp:236-248 *)
Definition sse_double_16_div : body :=
  [SRetVec [(ECall _mm_div_pd [vv 0; oo 0]); (ECall _mm_div_pd [vv 1; oo 1]); (ECall _mm_div_pd [vv
    2; oo 2]); (ECall _mm_div_pd [vv 3; oo 3]); (ECall _mm_div_pd [vv 4; oo 4]); (ECall _mm_div_pd
    [vv 5; oo 5]); (ECall _mm_div_pd [vv 6; oo 6]); (ECall _mm_div_pd [vv 7; oo 7])]].

(* short_vec_sse_double_16.hpp:253-265 *)
Definition sse_double_16_lt : body :=
  [SRetVec [(ECall _mm_cmplt_pd [vv 0; oo 0]); (ECall _mm_cmplt_pd [vv 1; oo 1]); (ECall
    _mm_cmplt_pd [vv 2; oo 2]); (ECall _mm_cmplt_pd [vv 3; oo 3]); (ECall _mm_cmplt_pd [vv 4; oo
    4]); (ECall _mm_cmplt_pd [vv 5; oo 5]); (ECall _mm_cmplt_pd [vv 6; oo 6]); (ECall _mm_cmplt_pd
    [vv 7; oo 7])]].

(* short_vec_sse_double_16.hpp:267-279 *)
Definition sse_double_16_le : body :=
  [SRetVec [(ECall _mm_cmple_pd [vv 0; oo 0]); (ECall _mm_cmple_pd [vv 1; oo 1]); (ECall
    _mm_cmple_pd [vv 2; oo 2]); (ECall _mm_cmple_pd [vv 3; oo 3]); (ECall _mm_cmple_pd [vv 4; oo
    4]); (ECall _mm_cmple_pd [vv 5; oo 5]); (ECall _mm_cmple_pd [vv 6; oo 6]); (ECall _mm_cmple_pd
    [vv 7; oo 7])]].

(* short_vec_sse_double_16.hpp:281-293 *)
Definition sse_double_16_eq : body :=
  [SRetVec [(ECall _mm_cmpeq_pd [vv 0; oo 0]); (ECall _mm_cmpeq_pd [vv 1; oo 1]); (ECall
    _mm_cmpeq_pd [vv 2; oo 2]); (ECall _mm_cmpeq_pd [vv 3; oo 3]); (ECall _mm_cmpeq_pd [vv 4; oo
    4]); (ECall _mm_cmpeq_pd [vv 5; oo 5]); (ECall _mm_cmpeq_pd [vv 6; oo 6]); (ECall _mm_cmpeq_pd
    [vv 7; oo 7])]].

(* short_vec_sse_double_16.hpp:295-307 *)
Definition sse_double_16_gt : body :=
  [SRetVec [(ECall _mm_cmpgt_pd [vv 0; oo 0]); (ECall _mm_cmpgt_pd [vv 1; oo 1]); (ECall
    _mm_cmpgt_pd [vv 2; oo 2]); (ECall _mm_cmpgt_pd [vv 3; oo 3]); (ECall _mm_cmpgt_pd [vv 4; oo
    4]); (ECall _mm_cmpgt_pd [vv 5; oo 5]); (ECall _mm_cmpgt_pd [vv 6; oo 6]); (ECall _mm_cmpgt_pd
    [vv 7; oo 7])]].

(* short_vec_sse_double_16.hpp:309-321 *)
Definition sse_double_16_ge : body :=
  [SRetVec [(ECall _mm_cmpge_pd [vv 0; oo 0]); (ECall _mm_cmpge_pd [vv 1; oo 1]); (ECall
    _mm_cmpge_pd [vv 2; oo 2]); (ECall _mm_cmpge_pd [vv 3; oo 3]); (ECall _mm_cmpge_pd [vv 4; oo
    4]); (ECall _mm_cmpge_pd [vv 5; oo 5]); (ECall _mm_cmpge_pd [vv 6; oo 6]); (ECall _mm_cmpge_pd
    [vv 7; oo 7])]].

(* short_vec_sse_double_16.hpp:323-335 *)
Definition sse_double_16_sqrt : body :=
  [SRetVec [(ECall _mm_sqrt_pd [vv 0]); (ECall _mm_sqrt_pd [vv 1]); (ECall _mm_sqrt_pd [vv 2]);
    (ECall _mm_sqrt_pd [vv 3]); (ECall _mm_sqrt_pd [vv 4]); (ECall _mm_sqrt_pd [vv 5]); (ECall
    _mm_sqrt_pd [vv 6]); (ECall _mm_sqrt_pd [vv 7])]].

(* short_vec_sse_double_16.hpp:337-348 *)
Definition sse_double_16_load : body :=
  [SSet (LVal (EInt 0)) (ECall _mm_loadu_pd [dat 0]);
   SSet (LVal (EInt 1)) (ECall _mm_loadu_pd [dat 2]);
   SSet (LVal (EInt 2)) (ECall _mm_loadu_pd [dat 4]);
   SSet (LVal (EInt 3)) (ECall _mm_loadu_pd [dat 6]);
   SSet (LVal (EInt 4)) (ECall _mm_loadu_pd [dat 8]);
   SSet (LVal (EInt 5)) (ECall _mm_loadu_pd [dat 10]);
   SSet (LVal (EInt 6)) (ECall _mm_loadu_pd [dat 12]);
   SSet (LVal (EInt 7)) (ECall _mm_loadu_pd [dat 14])].

(* short_vec_sse_double_16.hpp:350-362 *)
Definition sse_double_16_load_aligned : body :=
  [SAssertAligned EData 16;
   SSet (LVal (EInt 0)) (ECall _mm_load_pd [dat 0]);
   SSet (LVal (EInt 1)) (ECall _mm_load_pd [dat 2]);
   SSet (LVal (EInt 2)) (ECall _mm_load_pd [dat 4]);
   SSet (LVal (EInt 3)) (ECall _mm_load_pd [dat 6]);
   SSet (LVal (EInt 4)) (ECall _mm_load_pd [dat 8]);
   SSet (LVal (EInt 5)) (ECall _mm_load_pd [dat 10]);
   SSet (LVal (EInt 6)) (ECall _mm_load_pd [dat 12]);
   SSet (LVal (EInt 7)) (ECall _mm_load_pd [dat 14])].

(* short_vec_sse_double_16.hpp:364-375 *)
Definition sse_double_16_store : body :=
  [SDo (ECall _mm_storeu_pd [dat 0; vv 0]);
   SDo (ECall _mm_storeu_pd [dat 2; vv 1]);
   SDo (ECall _mm_storeu_pd [dat 4; vv 2]);
   SDo (ECall _mm_storeu_pd [dat 6; vv 3]);
   SDo (ECall _mm_storeu_pd [dat 8; vv 4]);
   SDo (ECall _mm_storeu_pd [dat 10; vv 5]);
   SDo (ECall _mm_storeu_pd [dat 12; vv 6]);
   SDo (ECall _mm_storeu_pd [dat 14; vv 7])].

(* short_vec_sse_double_16.hpp:377-389 *)
Definition sse_double_16_store_aligned : body :=
  [SAssertAligned EData 16;
   SDo (ECall _mm_store_pd [dat 0; vv 0]);
   SDo (ECall _mm_store_pd [dat 2; vv 1]);
   SDo (ECall _mm_store_pd [dat 4; vv 2]);
   SDo (ECall _mm_store_pd [dat 6; vv 3]);
   SDo (ECall _mm_store_pd [dat 8; vv 4]);
   SDo (ECall _mm_store_pd [dat 10; vv 5]);
   SDo (ECall _mm_store_pd [dat 12; vv 6]);
   SDo (ECall _mm_store_pd [dat 14; vv 7])].

(* short_vec_sse_double_16.hpp:391-403 *)
Definition sse_double_16_store_nt : body :=
  [SAssertAligned EData 16;
   SDo (ECall _mm_stream_pd [dat 0; vv 0]);
   SDo (ECall _mm_stream_pd [dat 2; vv 1]);
   SDo (ECall _mm_stream_pd [dat 4; vv 2]);
   SDo (ECall _mm_stream_pd [dat 6; vv 3]);
   SDo (ECall _mm_stream_pd [dat 8; vv 4]);
   SDo (ECall _mm_stream_pd [dat 10; vv 5]);
   SDo (ECall _mm_stream_pd [dat 12; vv 6]);
   SDo (ECall _mm_stream_pd [dat 14; vv 7])].

(* short_vec_sse_double_16.hpp:405-424 *)
Definition sse_double_16_gather : body :=
  [SSet (LVal (EInt 0)) (ECall _mm_loadl_pd [vv 0; pto 0]);
   SSet (LVal (EInt 0)) (ECall _mm_loadh_pd [vv 0; pto 1]);
   SSet (LVal (EInt 1)) (ECall _mm_loadl_pd [vv 1; pto 2]);
   SSet (LVal (EInt 1)) (ECall _mm_loadh_pd [vv 1; pto 3]);
   SSet (LVal (EInt 2)) (ECall _mm_loadl_pd [vv 2; pto 4]);
   SSet (LVal (EInt 2)) (ECall _mm_loadh_pd [vv 2; pto 5]);
   SSet (LVal (EInt 3)) (ECall _mm_loadl_pd [vv 3; pto 6]);
   SSet (LVal (EInt 3)) (ECall _mm_loadh_pd [vv 3; pto 7]);
   SSet (LVal (EInt 4)) (ECall _mm_loadl_pd [vv 4; pto 8]);
   SSet (LVal (EInt 4)) (ECall _mm_loadh_pd [vv 4; pto 9]);
   SSet (LVal (EInt 5)) (ECall _mm_loadl_pd [vv 5; pto 10]);
   SSet (LVal (EInt 5)) (ECall _mm_loadh_pd [vv 5; pto 11]);
   SSet (LVal (EInt 6)) (ECall _mm_loadl_pd [vv 6; pto 12]);
   SSet (LVal (EInt 6)) (ECall _mm_loadh_pd [vv 6; pto 13]);
   SSet (LVal (EInt 7)) (ECall _mm_loadl_pd [vv 7; pto 14]);
   SSet (LVal (EInt 7)) (ECall _mm_loadh_pd [vv 7; pto 15])].

(* short_vec_sse_double_16.hpp:426-445 *)
Definition sse_double_16_scatter : body :=
  [SDo (ECall _mm_storel_pd [pto 0; vv 0]);
   SDo (ECall _mm_storeh_pd [pto 1; vv 0]);
   SDo (ECall _mm_storel_pd [pto 2; vv 1]);
   SDo (ECall _mm_storeh_pd [pto 3; vv 1]);
   SDo (ECall _mm_storel_pd [pto 4; vv 2]);
   SDo (ECall _mm_storeh_pd [pto 5; vv 2]);
   SDo (ECall _mm_storel_pd [pto 6; vv 3]);
   SDo (ECall _mm_storeh_pd [pto 7; vv 3]);
   SDo (ECall _mm_storel_pd [pto 8; vv 4]);
   SDo (ECall _mm_storeh_pd [pto 9; vv 4]);
   SDo (ECall _mm_storel_pd [pto 10; vv 5]);
   SDo (ECall _mm_storeh_pd [pto 11; vv 5]);
   SDo (ECall _mm_storel_pd [pto 12; vv 6]);
   SDo (ECall _mm_storeh_pd [pto 13; vv 6]);
   SDo (ECall _mm_storel_pd [pto 14; vv 7]);
   SDo (ECall _mm_storeh_pd [pto 15; vv 7])].

(* short_vec_sse_double_16.hpp:447-485 *)
Definition sse_double_16_blend : body :=
  [SSet (LVal (EInt 0)) (ECall _mm_or_pd [(ECall _mm_and_pd [mm 0; oo 0]); (ECall _mm_andnot_pd [mm
    0; vv 0])]);
   SSet (LVal (EInt 1)) (ECall _mm_or_pd [(ECall _mm_and_pd [mm 1; oo 1]); (ECall _mm_andnot_pd [mm
    1; vv 1])]);
   SSet (LVal (EInt 2)) (ECall _mm_or_pd [(ECall _mm_and_pd [mm 2; oo 2]); (ECall _mm_andnot_pd [mm
    2; vv 2])]);
   SSet (LVal (EInt 3)) (ECall _mm_or_pd [(ECall _mm_and_pd [mm 3; oo 3]); (ECall _mm_andnot_pd [mm
    3; vv 3])]);
   SSet (LVal (EInt 4)) (ECall _mm_or_pd [(ECall _mm_and_pd [mm 4; oo 4]); (ECall _mm_andnot_pd [mm
    4; vv 4])]);
   SSet (LVal (EInt 5)) (ECall _mm_or_pd [(ECall _mm_and_pd [mm 5; oo 5]); (ECall _mm_andnot_pd [mm
    5; vv 5])]);
   SSet (LVal (EInt 6)) (ECall _mm_or_pd [(ECall _mm_and_pd [mm 6; oo 6]); (ECall _mm_andnot_pd [mm
    6; vv 6])]);
   SSet (LVal (EInt 7)) (ECall _mm_or_pd [(ECall _mm_and_pd [mm 7; oo 7]); (ECall _mm_andnot_pd [mm
    7; vv 7])])].

(* short_vec_sse_double_16.hpp:511-530 *)
Definition sse_double_16_print : list item :=
  [PStr "["; PVal (EIdx (vv 0) (EInt 0)); PStr ", "; PVal (EIdx (vv 0) (EInt 1)); PStr ", "; PVal
   (EIdx (vv 1) (EInt 0)); PStr ", "; PVal (EIdx (vv 1) (EInt 1)); PStr ", "; PVal (EIdx (vv 2)
   (EInt 0)); PStr ", "; PVal (EIdx (vv 2) (EInt 1)); PStr ", "; PVal (EIdx (vv 3) (EInt 0)); PStr
   ", "; PVal (EIdx (vv 3) (EInt 1)); PStr ", "; PVal (EIdx (vv 4) (EInt 0)); PStr ", "; PVal (EIdx
   (vv 4) (EInt 1)); PStr ", "; PVal (EIdx (vv 5) (EInt 0)); PStr ", "; PVal (EIdx (vv 5) (EInt
   1)); PStr ", "; PVal (EIdx (vv 6) (EInt 0)); PStr ", "; PVal (EIdx (vv 6) (EInt 1)); PStr ", ";
   PVal (EIdx (vv 7) (EInt 0)); PStr ", "; PVal (EIdx (vv 7) (EInt 1)); PStr "]"].

(* short_vec_sse_double_16.hpp *)
Definition cls_sse_double_16 : cls :=
  mkCls "sse_double_16" KF64 16 8 2 16 MVec
    (fun m => match m with
     | MCtorScalar => Some sse_double_16_ctor_scalar
     | MCtorPtr => Some sse_double_16_ctor_ptr
     | MCtorRegs => Some sse_double_16_ctor_regs
     | MCtorList => Some sse_double_16_ctor_list
     | MAny => Some sse_double_16_any
     | MIndex => Some sse_double_16_index
     | MSubEq => Some sse_double_16_sub_eq
     | MSub => Some sse_double_16_sub
     | MAddEq => Some sse_double_16_add_eq
     | MAdd => Some sse_double_16_add
     | MMulEq => Some sse_double_16_mul_eq
     | MMul => Some sse_double_16_mul
     | MDivEq => Some sse_double_16_div_eq
     | MDiv => Some sse_double_16_div
     | MLt => Some sse_double_16_lt
     | MLe => Some sse_double_16_le
     | MEq => Some sse_double_16_eq
     | MGt => Some sse_double_16_gt
     | MGe => Some sse_double_16_ge
     | MSqrt => Some sse_double_16_sqrt
     | MLoad => Some sse_double_16_load
     | MLoadAligned => Some sse_double_16_load_aligned
     | MStore => Some sse_double_16_store
     | MStoreAligned => Some sse_double_16_store_aligned
     | MStoreNt => Some sse_double_16_store_nt
     | MGather => Some sse_double_16_gather
     | MScatter => Some sse_double_16_scatter
     | MBlend => Some sse_double_16_blend
     | _ => None
     end)
    sse_double_16_ctor_regs sse_double_16_print.

(* short_vec_sse_double_16.hpp:107-126 with __SSE4_1__ *)
Definition sse_double_16_41_any : body :=
  [SSet (LVar "buf1") (ECall _mm_or_pd [(ECall _mm_or_pd [(ECall _mm_or_pd [vv 0; vv 1]); (ECall
    _mm_or_pd [vv 2; vv 3])]); (ECall _mm_or_pd [(ECall _mm_or_pd [vv 4; vv 5]); (ECall _mm_or_pd
    [vv 6; vv 7])])]);
   SRet (EBool (ECop (ORel REq) (EInt 0) (ECall _mm_testz_si128 [(ECall _mm_castpd_si128 [(EVar
    "buf1")]); (ECall _mm_castpd_si128 [(EVar "buf1")])])))].

(* short_vec_sse_double_16.hpp:447-485 with __SSE4_1__ *)
Definition sse_double_16_41_blend : body :=
  [SSet (LVal (EInt 0)) (ECall _mm_blendv_pd [vv 0; oo 0; mm 0]);
   SSet (LVal (EInt 1)) (ECall _mm_blendv_pd [vv 1; oo 1; mm 1]);
   SSet (LVal (EInt 2)) (ECall _mm_blendv_pd [vv 2; oo 2; mm 2]);
   SSet (LVal (EInt 3)) (ECall _mm_blendv_pd [vv 3; oo 3; mm 3]);
   SSet (LVal (EInt 4)) (ECall _mm_blendv_pd [vv 4; oo 4; mm 4]);
   SSet (LVal (EInt 5)) (ECall _mm_blendv_pd [vv 5; oo 5; mm 5]);
   SSet (LVal (EInt 6)) (ECall _mm_blendv_pd [vv 6; oo 6; mm 6]);
   SSet (LVal (EInt 7)) (ECall _mm_blendv_pd [vv 7; oo 7; mm 7])].

(* short_vec_sse_double_16.hpp with __SSE4_1__ *)
Definition cls_sse_double_16_41 : cls :=
  mkCls "sse_double_16_41" KF64 16 8 2 16 MVec
    (fun m => match m with
     | MCtorScalar => Some sse_double_16_ctor_scalar
     | MCtorPtr => Some sse_double_16_ctor_ptr
     | MCtorRegs => Some sse_double_16_ctor_regs
     | MCtorList => Some sse_double_16_ctor_list
     | MAny => Some sse_double_16_41_any
     | MIndex => Some sse_double_16_index
     | MSubEq => Some sse_double_16_sub_eq
     | MSub => Some sse_double_16_sub
     | MAddEq => Some sse_double_16_add_eq
     | MAdd => Some sse_double_16_add
     | MMulEq => Some sse_double_16_mul_eq
     | MMul => Some sse_double_16_mul
     | MDivEq => Some sse_double_16_div_eq
     | MDiv => Some sse_double_16_div
     | MLt => Some sse_double_16_lt
     | MLe => Some sse_double_16_le
     | MEq => Some sse_double_16_eq
     | MGt => Some sse_double_16_gt
     | MGe => Some sse_double_16_ge
     | MSqrt => Some sse_double_16_sqrt
     | MLoad => Some sse_double_16_load
     | MLoadAligned => Some sse_double_16_load_aligned
     | MStore => Some sse_double_16_store
     | MStoreAligned => Some sse_double_16_store_aligned
     | MStoreNt => Some sse_double_16_store_nt
     | MGather => Some sse_double_16_gather
     | MScatter => Some sse_double_16_scatter
     | MBlend => Some sse_double_16_41_blend
     | _ => None
     end)
    sse_double_16_ctor_regs sse_double_16_print.

(* short_vec_sse_double_32.hpp:61-79 *)
Definition sse_double_32_ctor_scalar : body :=
  [SSet (LVal (EInt 0)) (ECall _mm_set1_pd [EArg]);
   SSet (LVal (EInt 1)) (ECall _mm_set1_pd [EArg]);
   SSet (LVal (EInt 2)) (ECall _mm_set1_pd [EArg]);
   SSet (LVal (EInt 3)) (ECall _mm_set1_pd [EArg]);
   SSet (LVal (EInt 4)) (ECall _mm_set1_pd [EArg]);
   SSet (LVal (EInt 5)) (ECall _mm_set1_pd [EArg]);
   SSet (LVal (EInt 6)) (ECall _mm_set1_pd [EArg]);
   SSet (LVal (EInt 7)) (ECall _mm_set1_pd [EArg]);
   SSet (LVal (EInt 8)) (ECall _mm_set1_pd [EArg]);
   SSet (LVal (EInt 9)) (ECall _mm_set1_pd [EArg]);
   SSet (LVal (EInt 10)) (ECall _mm_set1_pd [EArg]);
   SSet (LVal (EInt 11)) (ECall _mm_set1_pd [EArg]);
   SSet (LVal (EInt 12)) (ECall _mm_set1_pd [EArg]);
   SSet (LVal (EInt 13)) (ECall _mm_set1_pd [EArg]);
   SSet (LVal (EInt 14)) (ECall _mm_set1_pd [EArg]);
   SSet (LVal (EInt 15)) (ECall _mm_set1_pd [EArg])].

(* short_vec_sse_double_32.hpp:81-85 *)
Definition sse_double_32_ctor_ptr : body :=
  [SSet (LVal (EInt 0)) (ECall _mm_loadu_pd [dat 0]);
   SSet (LVal (EInt 1)) (ECall _mm_loadu_pd [dat 2]);
   SSet (LVal (EInt 2)) (ECall _mm_loadu_pd [dat 4]);
   SSet (LVal (EInt 3)) (ECall _mm_loadu_pd [dat 6]);
   SSet (LVal (EInt 4)) (ECall _mm_loadu_pd [dat 8]);
   SSet (LVal (EInt 5)) (ECall _mm_loadu_pd [dat 10]);
   SSet (LVal (EInt 6)) (ECall _mm_loadu_pd [dat 12]);
   SSet (LVal (EInt 7)) (ECall _mm_loadu_pd [dat 14]);
   SSet (LVal (EInt 8)) (ECall _mm_loadu_pd [dat 16]);
   SSet (LVal (EInt 9)) (ECall _mm_loadu_pd [dat 18]);
   SSet (LVal (EInt 10)) (ECall _mm_loadu_pd [dat 20]);
   SSet (LVal (EInt 11)) (ECall _mm_loadu_pd [dat 22]);
   SSet (LVal (EInt 12)) (ECall _mm_loadu_pd [dat 24]);
   SSet (LVal (EInt 13)) (ECall _mm_loadu_pd [dat 26]);
   SSet (LVal (EInt 14)) (ECall _mm_loadu_pd [dat 28]);
   SSet (LVal (EInt 15)) (ECall _mm_loadu_pd [dat 30])].

(* short_vec_sse_double_32.hpp:87-121 *)
Definition sse_double_32_ctor_regs : body :=
  [SSet (LVal (EInt 0)) (EPar 0);
   SSet (LVal (EInt 1)) (EPar 1);
   SSet (LVal (EInt 2)) (EPar 2);
   SSet (LVal (EInt 3)) (EPar 3);
   SSet (LVal (EInt 4)) (EPar 4);
   SSet (LVal (EInt 5)) (EPar 5);
   SSet (LVal (EInt 6)) (EPar 6);
   SSet (LVal (EInt 7)) (EPar 7);
   SSet (LVal (EInt 8)) (EPar 8);
   SSet (LVal (EInt 9)) (EPar 9);
   SSet (LVal (EInt 10)) (EPar 10);
   SSet (LVal (EInt 11)) (EPar 11);
   SSet (LVal (EInt 12)) (EPar 12);
   SSet (LVal (EInt 13)) (EPar 13);
   SSet (LVal (EInt 14)) (EPar 14);
   SSet (LVal (EInt 15)) (EPar 15)].

(* short_vec_sse_double_32.hpp:124-129 *)
Definition sse_double_32_ctor_list : body :=
  [SSet (LVal (EInt 0)) (ECall _mm_loadu_pd [dat 0]);
   SSet (LVal (EInt 1)) (ECall _mm_loadu_pd [dat 2]);
   SSet (LVal (EInt 2)) (ECall _mm_loadu_pd [dat 4]);
   SSet (LVal (EInt 3)) (ECall _mm_loadu_pd [dat 6]);
   SSet (LVal (EInt 4)) (ECall _mm_loadu_pd [dat 8]);
   SSet (LVal (EInt 5)) (ECall _mm_loadu_pd [dat 10]);
   SSet (LVal (EInt 6)) (ECall _mm_loadu_pd [dat 12]);
   SSet (LVal (EInt 7)) (ECall _mm_loadu_pd [dat 14]);
   SSet (LVal (EInt 8)) (ECall _mm_loadu_pd [dat 16]);
   SSet (LVal (EInt 9)) (ECall _mm_loadu_pd [dat 18]);
   SSet (LVal (EInt 10)) (ECall _mm_loadu_pd [dat 20]);
   SSet (LVal (EInt 11)) (ECall _mm_loadu_pd [dat 22]);
   SSet (LVal (EInt 12)) (ECall _mm_loadu_pd [dat 24]);
   SSet (LVal (EInt 13)) (ECall _mm_loadu_pd [dat 26]);
   SSet (LVal (EInt 14)) (ECall _mm_loadu_pd [dat 28]);
   SSet (LVal (EInt 15)) (ECall _mm_loadu_pd [dat 30])].

(* short_vec_sse_double_32.hpp:132-159 *)
Definition sse_double_32_any : body :=
  [SSet (LVar "buf0") (ECall _mm_or_pd [(ECall _mm_or_pd [(ECall _mm_or_pd [(ECall _mm_or_pd [vv 0;
    vv 1]); (ECall _mm_or_pd [vv 2; vv 3])]); (ECall _mm_or_pd [(ECall _mm_or_pd [vv 4; vv 5]);
    (ECall _mm_or_pd [vv 6; vv 7])])]); (ECall _mm_or_pd [(ECall _mm_or_pd [(ECall _mm_or_pd [vv 8;
    vv 9]); (ECall _mm_or_pd [vv 10; vv 11])]); (ECall _mm_or_pd [(ECall _mm_or_pd [vv 12; vv 13]);
    (ECall _mm_or_pd [vv 14; vv 15])])])]);
   SSet (LVar "buf1") (ECall _mm_shuffle_pd [(EVar "buf0"); (EVar "buf0"); EInt 1]);
   SRet (EBool (ECop OLor (ECall _mm_cvtsd_f64 [(EVar "buf0")]) (ECall _mm_cvtsd_f64 [(EVar
    "buf1")])))].

(* short_vec_sse_double_32.hpp:161-173 *)
Definition sse_double_32_index : body :=
  [SSet (LVar "buf") (EVal (ECop OShr (EVar "i") (EInt 1)));
   SUpd OBitAnd (LVar "i") (EInt 1);
   SIf (ECop (ORel REq) (EVar "i") (EInt 0)) [SRet (ECall _mm_cvtsd_f64 [(EVar "buf")])] [];
   SSet (LVar "buf") (ECall _mm_shuffle_pd [(EVar "buf"); (EVar "buf"); EInt 1]);
   SRet (ECall _mm_cvtsd_f64 [(EVar "buf")])].

(* short_vec_sse_double_32.hpp:175-194 *)
Definition sse_double_32_sub_eq : body :=
  [SSet (LVal (EInt 0)) (ECall _mm_sub_pd [vv 0; oo 0]);
   SSet (LVal (EInt 1)) (ECall _mm_sub_pd [vv 1; oo 1]);
   SSet (LVal (EInt 2)) (ECall _mm_sub_pd [vv 2; oo 2]);
   SSet (LVal (EInt 3)) (ECall _mm_sub_pd [vv 3; oo 3]);
   SSet (LVal (EInt 4)) (ECall _mm_sub_pd [vv 4; oo 4]);
   SSet (LVal (EInt 5)) (ECall _mm_sub_pd [vv 5; oo 5]);
   SSet (LVal (EInt 6)) (ECall _mm_sub_pd [vv 6; oo 6]);
   SSet (LVal (EInt 7)) (ECall _mm_sub_pd [vv 7; oo 7]);
   SSet (LVal (EInt 8)) (ECall _mm_sub_pd [vv 8; oo 8]);
   SSet (LVal (EInt 9)) (ECall _mm_sub_pd [vv 9; oo 9]);
   SSet (LVal (EInt 10)) (ECall _mm_sub_pd [vv 10; oo 10]);
   SSet (LVal (EInt 11)) (ECall _mm_sub_pd [vv 11; oo 11]);
   SSet (LVal (EInt 12)) (ECall _mm_sub_pd [vv 12; oo 12]);
   SSet (LVal (EInt 13)) (ECall _mm_sub_pd [vv 13; oo 13]);
   SSet (LVal (EInt 14)) (ECall _mm_sub_pd [vv 14; oo 14]);
   SSet (LVal (EInt 15)) (ECall _mm_sub_pd [vv 15; oo 15])].

(* short_vec_sse_double_32.hpp:196-216 *)
Definition sse_double_32_sub : body :=
  [SRetVec [(ECall _mm_sub_pd [vv 0; oo 0]); (ECall _mm_sub_pd [vv 1; oo 1]); (ECall _mm_sub_pd [vv
    2; oo 2]); (ECall _mm_sub_pd [vv 3; oo 3]); (ECall _mm_sub_pd [vv 4; oo 4]); (ECall _mm_sub_pd
    [vv 5; oo 5]); (ECall _mm_sub_pd [vv 6; oo 6]); (ECall _mm_sub_pd [vv 7; oo 7]); (ECall
    _mm_sub_pd [vv 8; oo 8]); (ECall _mm_sub_pd [vv 9; oo 9]); (ECall _mm_sub_pd [vv 10; oo 10]);
    (ECall _mm_sub_pd [vv 11; oo 11]); (ECall _mm_sub_pd [vv 12; oo 12]); (ECall _mm_sub_pd [vv 13;
    oo 13]); (ECall _mm_sub_pd [vv 14; oo 14]); (ECall _mm_sub_pd [vv 15; oo 15])]].

(* short_vec_sse_double_32.hpp:218-237 *)
Definition sse_double_32_add_eq : body :=
  [SSet (LVal (EInt 0)) (ECall _mm_add_pd [vv 0; oo 0]);
   SSet (LVal (EInt 1)) (ECall _mm_add_pd [vv 1; oo 1]);
   SSet (LVal (EInt 2)) (ECall _mm_add_pd [vv 2; oo 2]);
   SSet (LVal (EInt 3)) (ECall _mm_add_pd [vv 3; oo 3]);
   SSet (LVal (EInt 4)) (ECall _mm_add_pd [vv 4; oo 4]);
   SSet (LVal (EInt 5)) (ECall _mm_add_pd [vv 5; oo 5]);
   SSet (LVal (EInt 6)) (ECall _mm_add_pd [vv 6; oo 6]);
   SSet (LVal (EInt 7)) (ECall _mm_add_pd [vv 7; oo 7]);
   SSet (LVal (EInt 8)) (ECall _mm_add_pd [vv 8; oo 8]);
   SSet (LVal (EInt 9)) (ECall _mm_add_pd [vv 9; oo 9]);
   SSet (LVal (EInt 10)) (ECall _mm_add_pd [vv 10; oo 10]);
   SSet (LVal (EInt 11)) (ECall _mm_add_pd [vv 11; oo 11]);
   SSet (LVal (EInt 12)) (ECall _mm_add_pd [vv 12; oo 12]);
   SSet (LVal (EInt 13)) (ECall _mm_add_pd [vv 13; oo 13]);
   SSet (LVal (EInt 14)) (ECall _mm_add_pd [vv 14; oo 14]);
   SSet (LVal (EInt 15)) (ECall _mm_add_pd [vv 15; oo 15])].

(* short_vec_sse_double_32.hpp:239-259 *)
Definition sse_double_32_add : body :=
  [SRetVec [(ECall _mm_add_pd [vv 0; oo 0]); (ECall _mm_add_pd [vv 1; oo 1]); (ECall _mm_add_pd [vv
    2; oo 2]); (ECall _mm_add_pd [vv 3; oo 3]); (ECall _mm_add_pd [vv 4; oo 4]); (ECall _mm_add_pd
    [vv 5; oo 5]); (ECall _mm_add_pd [vv 6; oo 6]); (ECall _mm_add_pd [vv 7; oo 7]); (ECall
    _mm_add_pd [vv 8; oo 8]); (ECall _mm_add_pd [vv 9; oo 9]); (ECall _mm_add_pd [vv 10; oo 10]);
    (ECall _mm_add_pd [vv 11; oo 11]); (ECall _mm_add_pd [vv 12; oo 12]); (ECall _mm_add_pd [vv 13;
    oo 13]); (ECall _mm_add_pd [vv 14; oo 14]); (ECall _mm_add_pd [vv 15; oo 15])]].

(* short_vec_sse_double_32.hpp:261-280 *)
Definition sse_double_32_mul_eq : body :=
  [SSet (LVal (EInt 0)) (ECall _mm_mul_pd [vv 0; oo 0]);
   SSet (LVal (EInt 1)) (ECall _mm_mul_pd [vv 1; oo 1]);
   SSet (LVal (EInt 2)) (ECall _mm_mul_pd [vv 2; oo 2]);
   SSet (LVal (EInt 3)) (ECall _mm_mul_pd [vv 3; oo 3]);
   SSet (LVal (EInt 4)) (ECall _mm_mul_pd [vv 4; oo 4]);
   SSet (LVal (EInt 5)) (ECall _mm_mul_pd [vv 5; oo 5]);
   SSet (LVal (EInt 6)) (ECall _mm_mul_pd [vv 6; oo 6]);
   SSet (LVal (EInt 7)) (ECall _mm_mul_pd [vv 7; oo 7]);
   SSet (LVal (EInt 8)) (ECall _mm_mul_pd [vv 8; oo 8]);
   SSet (LVal (EInt 9)) (ECall _mm_mul_pd [vv 9; oo 9]);
   SSet (LVal (EInt 10)) (ECall _mm_mul_pd [vv 10; oo 10]);
   SSet (LVal (EInt 11)) (ECall _mm_mul_pd [vv 11; oo 11]);
   SSet (LVal (EInt 12)) (ECall _mm_mul_pd [vv 12; oo 12]);
   SSet (LVal (EInt 13)) (ECall _mm_mul_pd [vv 13; oo 13]);
   SSet (LVal (EInt 14)) (ECall _mm_mul_pd [vv 14; oo 14]);
   SSet (LVal (EInt 15)) (ECall _mm_mul_pd [vv 15; oo 15])].

(* short_vec_sse_double_32.hpp:282-302 *)
Definition sse_double_32_mul : body :=
  [SRetVec [(ECall _mm_mul_pd [vv 0; oo 0]); (ECall _mm_mul_pd [vv 1; oo 1]); (ECall _mm_mul_pd [vv
    2; oo 2]); (ECall _mm_mul_pd [vv 3; oo 3]); (ECall _mm_mul_pd [vv 4; oo 4]); (ECall _mm_mul_pd
    [vv 5; oo 5]); (ECall _mm_mul_pd [vv 6; oo 6]); (ECall _mm_mul_pd [vv 7; oo 7]); (ECall
    _mm_mul_pd [vv 8; oo 8]); (ECall _mm_mul_pd [vv 9; oo 9]); (ECall _mm_mul_pd [vv 10; oo 10]);
    (ECall _mm_mul_pd [vv 11; oo 11]); (ECall _mm_mul_pd [vv 12; oo 12]); (ECall _mm_mul_pd [vv 13;
    oo 13]); (ECall _mm_mul_pd [vv 14; oo 14]); (ECall _mm_mul_pd [vv 15; oo 15])]].

(* short_vec_sse_double_32.hpp:304-323 *)
Definition sse_double_32_div_eq : body :=
  [SSet (LVal (EInt 0)) (ECall _mm_div_pd [vv 0; oo 0]);
   SSet (LVal (EInt 1)) (ECall _mm_div_pd [vv 1; oo 1]);
   SSet (LVal (EInt 2)) (ECall _mm_div_pd [vv 2; oo 2]);
   SSet (LVal (EInt 3)) (ECall _mm_div_pd [vv 3; oo 3]);
   SSet (LVal (EInt 4)) (ECall _mm_div_pd [vv 4; oo 4]);
   SSet (LVal (EInt 5)) (ECall _mm_div_pd [vv 5; oo 5]);
   SSet (LVal (EInt 6)) (ECall _mm_div_pd [vv 6; oo 6]);
   SSet (LVal (EInt 7)) (ECall _mm_div_pd [vv 7; oo 7]);
   SSet (LVal (EInt 8)) (ECall _mm_div_pd [vv 8; oo 8]);
   SSet (LVal (EInt 9)) (ECall _mm_div_pd [vv 9; oo 9]);
   SSet (LVal (EInt 10)) (ECall _mm_div_pd [vv 10; oo 10]);
   SSet (LVal (EInt 11)) (ECall _mm_div_pd [vv 11; oo 11]);
   SSet (LVal (EInt 12)) (ECall _mm_div_pd [vv 12; oo 12]);
   SSet (LVal (EInt 13)) (ECall _mm_div_pd [vv 13; oo 13]);
   SSet (LVal (EInt 14)) (ECall _mm_div_pd [vv 14; oo 14]);
   SSet (LVal (EInt 15)) (ECall _mm_div_pd [vv 15; oo 15])].

(* short_vec_sse_double_32.hpp:325-345 *)
Definition sse_double_32_div : body :=
  [SRetVec [(ECall _mm_div_pd [vv 0; oo 0]); (ECall _mm_div_pd [vv 1; oo 1]); (ECall _mm_div_pd [vv
    2; oo 2]); (ECall _mm_div_pd [vv 3; oo 3]); (ECall _mm_div_pd [vv 4; oo 4]); (ECall _mm_div_pd
    [vv 5; oo 5]); (ECall _mm_div_pd [vv 6; oo 6]); (ECall _mm_div_pd [vv 7; oo 7]); (ECall
    _mm_div_pd [vv 8; oo 8]); (ECall _mm_div_pd [vv 9; oo 9]); (ECall _mm_div_pd [vv 10; oo 10]);
    (ECall _mm_div_pd [vv 11; oo 11]); (ECall _mm_div_pd [vv 12; oo 12]); (ECall _mm_div_pd [vv 13;
    oo 13]); (ECall _mm_div_pd [vv 14; oo 14]); (ECall _mm_div_pd [vv 15; oo 15])]].

(* short_vec_sse_double_32.hpp:350-370 *)
Definition sse_double_32_lt : body :=
  [SRetVec [(ECall _mm_cmplt_pd [vv 0; oo 0]); (ECall _mm_cmplt_pd [vv 1; oo 1]); (ECall
    _mm_cmplt_pd [vv 2; oo 2]); (ECall _mm_cmplt_pd [vv 3; oo 3]); (ECall _mm_cmplt_pd [vv 4; oo
    4]); (ECall _mm_cmplt_pd [vv 5; oo 5]); (ECall _mm_cmplt_pd [vv 6; oo 6]); (ECall _mm_cmplt_pd
    [vv 7; oo 7]); (ECall _mm_cmplt_pd [vv 8; oo 8]); (ECall _mm_cmplt_pd [vv 9; oo 9]); (ECall
    _mm_cmplt_pd [vv 10; oo 10]); (ECall _mm_cmplt_pd [vv 11; oo 11]); (ECall _mm_cmplt_pd [vv 12;
    oo 12]); (ECall _mm_cmplt_pd [vv 13; oo 13]); (ECall _mm_cmplt_pd [vv 14; oo 14]); (ECall
    _mm_cmplt_pd [vv 15; oo 15])]].

(* short_vec_sse_double_32.hpp:372-392 *)
Definition sse_double_32_le : body :=
  [SRetVec [(ECall _mm_cmple_pd [vv 0; oo 0]); (ECall _mm_cmple_pd [vv 1; oo 1]); (ECall
    _mm_cmple_pd [vv 2; oo 2]); (ECall _mm_cmple_pd [vv 3; oo 3]); (ECall _mm_cmple_pd [vv 4; oo
    4]); (ECall _mm_cmple_pd [vv 5; oo 5]); (ECall _mm_cmple_pd [vv 6; oo 6]); (ECall _mm_cmple_pd
    [vv 7; oo 7]); (ECall _mm_cmple_pd [vv 8; oo 8]); (ECall _mm_cmple_pd [vv 9; oo 9]); (ECall
    _mm_cmple_pd [vv 10; oo 10]); (ECall _mm_cmple_pd [vv 11; oo 11]); (ECall _mm_cmple_pd [vv 12;
    oo 12]); (ECall _mm_cmple_pd [vv 13; oo 13]); (ECall _mm_cmple_pd [vv 14; oo 14]); (ECall
    _mm_cmple_pd [vv 15; oo 15])]].

(* short_vec_sse_double_32.hpp:394-414 *)
Definition sse_double_32_eq : body :=
  [SRetVec [(ECall _mm_cmpeq_pd [vv 0; oo 0]); (ECall _mm_cmpeq_pd [vv 1; oo 1]); (ECall
    _mm_cmpeq_pd [vv 2; oo 2]); (ECall _mm_cmpeq_pd [vv 3; oo 3]); (ECall _mm_cmpeq_pd [vv 4; oo
    4]); (ECall _mm_cmpeq_pd [vv 5; oo 5]); (ECall _mm_cmpeq_pd [vv 6; oo 6]); (ECall _mm_cmpeq_pd
    [vv 7; oo 7]); (ECall _mm_cmpeq_pd [vv 8; oo 8]); (ECall _mm_cmpeq_pd [vv 9; oo 9]); (ECall
    _mm_cmpeq_pd [vv 10; oo 10]); (ECall _mm_cmpeq_pd [vv 11; oo 11]); (ECall _mm_cmpeq_pd [vv 12;
    oo 12]); (ECall _mm_cmpeq_pd [vv 13; oo 13]); (ECall _mm_cmpeq_pd [vv 14; oo 14]); (ECall
    _mm_cmpeq_pd [vv 15; oo 15])]].

(* short_vec_sse_double_32.hpp:416-436 *)
Definition sse_double_32_gt : body :=
  [SRetVec [(ECall _mm_cmpgt_pd [vv 0; oo 0]); (ECall _mm_cmpgt_pd [vv 1; oo 1]); (ECall
    _mm_cmpgt_pd [vv 2; oo 2]); (ECall _mm_cmpgt_pd [vv 3; oo 3]); (ECall _mm_cmpgt_pd [vv 4; oo
    4]); (ECall _mm_cmpgt_pd [vv 5; oo 5]); (ECall _mm_cmpgt_pd [vv 6; oo 6]); (ECall _mm_cmpgt_pd
    [vv 7; oo 7]); (ECall _mm_cmpgt_pd [vv 8; oo 8]); (ECall _mm_cmpgt_pd [vv 9; oo 9]); (ECall
    _mm_cmpgt_pd [vv 10; oo 10]); (ECall _mm_cmpgt_pd [vv 11; oo 11]); (ECall _mm_cmpgt_pd [vv 12;
    oo 12]); (ECall _mm_cmpgt_pd [vv 13; oo 13]); (ECall _mm_cmpgt_pd [vv 14; oo 14]); (ECall
    _mm_cmpgt_pd [vv 15; oo 15])]].

(* short_vec_sse_double_32.hpp:438-458 *)
Definition sse_double_32_ge : body :=
  [SRetVec [(ECall _mm_cmpge_pd [vv 0; oo 0]); (ECall _mm_cmpge_pd [vv 1; oo 1]); (ECall
    _mm_cmpge_pd [vv 2; oo 2]); (ECall _mm_cmpge_pd [vv 3; oo 3]); (ECall _mm_cmpge_pd [vv 4; oo
    4]); (ECall _mm_cmpge_pd [vv 5; oo 5]); (ECall _mm_cmpge_pd [vv 6; oo 6]); (ECall _mm_cmpge_pd
    [vv 7; oo 7]); (ECall _mm_cmpge_pd [vv 8; oo 8]); (ECall _mm_cmpge_pd [vv 9; oo 9]); (ECall
    _mm_cmpge_pd [vv 10; oo 10]); (ECall _mm_cmpge_pd [vv 11; oo 11]); (ECall _mm_cmpge_pd [vv 12;
    oo 12]); (ECall _mm_cmpge_pd [vv 13; oo 13]); (ECall _mm_cmpge_pd [vv 14; oo 14]); (ECall
    _mm_cmpge_pd [vv 15; oo 15])]].

(* short_vec_sse_double_32.hpp:460-480 *)
Definition sse_double_32_sqrt : body :=
  [SRetVec [(ECall _mm_sqrt_pd [vv 0]); (ECall _mm_sqrt_pd [vv 1]); (ECall _mm_sqrt_pd [vv 2]);
    (ECall _mm_sqrt_pd [vv 3]); (ECall _mm_sqrt_pd [vv 4]); (ECall _mm_sqrt_pd [vv 5]); (ECall
    _mm_sqrt_pd [vv 6]); (ECall _mm_sqrt_pd [vv 7]); (ECall _mm_sqrt_pd [vv 8]); (ECall _mm_sqrt_pd
    [vv 9]); (ECall _mm_sqrt_pd [vv 10]); (ECall _mm_sqrt_pd [vv 11]); (ECall _mm_sqrt_pd [vv 12]);
    (ECall _mm_sqrt_pd [vv 13]); (ECall _mm_sqrt_pd [vv 14]); (ECall _mm_sqrt_pd [vv 15])]].

(* short_vec_sse_double_32.hpp:482-501 *)
Definition sse_double_32_load : body :=
  [SSet (LVal (EInt 0)) (ECall _mm_loadu_pd [dat 0]);
   SSet (LVal (EInt 1)) (ECall _mm_loadu_pd [dat 2]);
   SSet (LVal (EInt 2)) (ECall _mm_loadu_pd [dat 4]);
   SSet (LVal (EInt 3)) (ECall _mm_loadu_pd [dat 6]);
   SSet (LVal (EInt 4)) (ECall _mm_loadu_pd [dat 8]);
   SSet (LVal (EInt 5)) (ECall _mm_loadu_pd [dat 10]);
   SSet (LVal (EInt 6)) (ECall _mm_loadu_pd [dat 12]);
   SSet (LVal (EInt 7)) (ECall _mm_loadu_pd [dat 14]);
   SSet (LVal (EInt 8)) (ECall _mm_loadu_pd [dat 16]);
   SSet (LVal (EInt 9)) (ECall _mm_loadu_pd [dat 18]);
   SSet (LVal (EInt 10)) (ECall _mm_loadu_pd [dat 20]);
   SSet (LVal (EInt 11)) (ECall _mm_loadu_pd [dat 22]);
   SSet (LVal (EInt 12)) (ECall _mm_loadu_pd [dat 24]);
   SSet (LVal (EInt 13)) (ECall _mm_loadu_pd [dat 26]);
   SSet (LVal (EInt 14)) (ECall _mm_loadu_pd [dat 28]);
   SSet (LVal (EInt 15)) (ECall _mm_loadu_pd [dat 30])].

(* short_vec_sse_double_32.hpp:503-523 *)
Definition sse_double_32_load_aligned : body :=
  [SAssertAligned EData 16;
   SSet (LVal (EInt 0)) (ECall _mm_load_pd [dat 0]);
   SSet (LVal (EInt 1)) (ECall _mm_load_pd [dat 2]);
   SSet (LVal (EInt 2)) (ECall _mm_load_pd [dat 4]);
   SSet (LVal (EInt 3)) (ECall _mm_load_pd [dat 6]);
   SSet (LVal (EInt 4)) (ECall _mm_load_pd [dat 8]);
   SSet (LVal (EInt 5)) (ECall _mm_load_pd [dat 10]);
   SSet (LVal (EInt 6)) (ECall _mm_load_pd [dat 12]);
   SSet (LVal (EInt 7)) (ECall _mm_load_pd [dat 14]);
   SSet (LVal (EInt 8)) (ECall _mm_load_pd [dat 16]);
   SSet (LVal (EInt 9)) (ECall _mm_load_pd [dat 18]);
   SSet (LVal (EInt 10)) (ECall _mm_load_pd [dat 20]);
   SSet (LVal (EInt 11)) (ECall _mm_load_pd [dat 22]);
   SSet (LVal (EInt 12)) (ECall _mm_load_pd [dat 24]);
   SSet (LVal (EInt 13)) (ECall _mm_load_pd [dat 26]);
   SSet (LVal (EInt 14)) (ECall _mm_load_pd [dat 28]);
   SSet (LVal (EInt 15)) (ECall _mm_load_pd [dat 30])].

(* short_vec_sse_double_32.hpp:525-544 *)
Definition sse_double_32_store : body :=
  [SDo (ECall _mm_storeu_pd [dat 0; vv 0]);
   SDo (ECall _mm_storeu_pd [dat 2; vv 1]);
   SDo (ECall _mm_storeu_pd [dat 4; vv 2]);
   SDo (ECall _mm_storeu_pd [dat 6; vv 3]);
   SDo (ECall _mm_storeu_pd [dat 8; vv 4]);
   SDo (ECall _mm_storeu_pd [dat 10; vv 5]);
   SDo (ECall _mm_storeu_pd [dat 12; vv 6]);
   SDo (ECall _mm_storeu_pd [dat 14; vv 7]);
   SDo (ECall _mm_storeu_pd [dat 16; vv 8]);
   SDo (ECall _mm_storeu_pd [dat 18; vv 9]);
   SDo (ECall _mm_storeu_pd [dat 20; vv 10]);
   SDo (ECall _mm_storeu_pd [dat 22; vv 11]);
   SDo (ECall _mm_storeu_pd [dat 24; vv 12]);
   SDo (ECall _mm_storeu_pd [dat 26; vv 13]);
   SDo (ECall _mm_storeu_pd [dat 28; vv 14]);
   SDo (ECall _mm_storeu_pd [dat 30; vv 15])].

(* short_vec_sse_double_32.hpp:546-566 *)
Definition sse_double_32_store_aligned : body :=
  [SAssertAligned EData 16;
   SDo (ECall _mm_store_pd [dat 0; vv 0]);
   SDo (ECall _mm_store_pd [dat 2; vv 1]);
   SDo (ECall _mm_store_pd [dat 4; vv 2]);
   SDo (ECall _mm_store_pd [dat 6; vv 3]);
   SDo (ECall _mm_store_pd [dat 8; vv 4]);
   SDo (ECall _mm_store_pd [dat 10; vv 5]);
   SDo (ECall _mm_store_pd [dat 12; vv 6]);
   SDo (ECall _mm_store_pd [dat 14; vv 7]);
   SDo (ECall _mm_store_pd [dat 16; vv 8]);
   SDo (ECall _mm_store_pd [dat 18; vv 9]);
   SDo (ECall _mm_store_pd [dat 20; vv 10]);
   SDo (ECall _mm_store_pd [dat 22; vv 11]);
   SDo (ECall _mm_store_pd [dat 24; vv 12]);
   SDo (ECall _mm_store_pd [dat 26; vv 13]);
   SDo (ECall _mm_store_pd [dat 28; vv 14]);
   SDo (ECall _mm_store_pd [dat 30; vv 15])].

(* short_vec_sse_double_32.hpp:568-588 *)
Definition sse_double_32_store_nt : body :=
  [SAssertAligned EData 16;
   SDo (ECall _mm_stream_pd [dat 0; vv 0]);
   SDo (ECall _mm_stream_pd [dat 2; vv 1]);
   SDo (ECall _mm_stream_pd [dat 4; vv 2]);
   SDo (ECall _mm_stream_pd [dat 6; vv 3]);
   SDo (ECall _mm_stream_pd [dat 8; vv 4]);
   SDo (ECall _mm_stream_pd [dat 10; vv 5]);
   SDo (ECall _mm_stream_pd [dat 12; vv 6]);
   SDo (ECall _mm_stream_pd [dat 14; vv 7]);
   SDo (ECall _mm_stream_pd [dat 16; vv 8]);
   SDo (ECall _mm_stream_pd [dat 18; vv 9]);
   SDo (ECall _mm_stream_pd [dat 20; vv 10]);
   SDo (ECall _mm_stream_pd [dat 22; vv 11]);
   SDo (ECall _mm_stream_pd [dat 24; vv 12]);
   SDo (ECall _mm_stream_pd [dat 26; vv 13]);
   SDo (ECall _mm_stream_pd [dat 28; vv 14]);
   SDo (ECall _mm_stream_pd [dat 30; vv 15])].

(* short_vec_sse_double_32.hpp:590-625 *)
Definition sse_double_32_gather : body :=
  [SSet (LVal (EInt 0)) (ECall _mm_loadl_pd [vv 0; pto 0]);
   SSet (LVal (EInt 0)) (ECall _mm_loadh_pd [vv 0; pto 1]);
   SSet (LVal (EInt 1)) (ECall _mm_loadl_pd [vv 1; pto 2]);
   SSet (LVal (EInt 1)) (ECall _mm_loadh_pd [vv 1; pto 3]);
   SSet (LVal (EInt 2)) (ECall _mm_loadl_pd [vv 2; pto 4]);
   SSet (LVal (EInt 2)) (ECall _mm_loadh_pd [vv 2; pto 5]);
   SSet (LVal (EInt 3)) (ECall _mm_loadl_pd [vv 3; pto 6]);
   SSet (LVal (EInt 3)) (ECall _mm_loadh_pd [vv 3; pto 7]);
   SSet (LVal (EInt 4)) (ECall _mm_loadl_pd [vv 4; pto 8]);
   SSet (LVal (EInt 4)) (ECall _mm_loadh_pd [vv 4; pto 9]);
   SSet (LVal (EInt 5)) (ECall _mm_loadl_pd [vv 5; pto 10]);
   SSet (LVal (EInt 5)) (ECall _mm_loadh_pd [vv 5; pto 11]);
   SSet (LVal (EInt 6)) (ECall _mm_loadl_pd [vv 6; pto 12]);
   SSet (LVal (EInt 6)) (ECall _mm_loadh_pd [vv 6; pto 13]);
   SSet (LVal (EInt 7)) (ECall _mm_loadl_pd [vv 7; pto 14]);
   SSet (LVal (EInt 7)) (ECall _mm_loadh_pd [vv 7; pto 15]);
   SSet (LVal (EInt 8)) (ECall _mm_loadl_pd [vv 8; pto 16]);
   SSet (LVal (EInt 8)) (ECall _mm_loadh_pd [vv 8; pto 17]);
   SSet (LVal (EInt 9)) (ECall _mm_loadl_pd [vv 9; pto 18]);
   SSet (LVal (EInt 9)) (ECall _mm_loadh_pd [vv 9; pto 19]);
   SSet (LVal (EInt 10)) (ECall _mm_loadl_pd [vv 10; pto 20]);
   SSet (LVal (EInt 10)) (ECall _mm_loadh_pd [vv 10; pto 21]);
   SSet (LVal (EInt 11)) (ECall _mm_loadl_pd [vv 11; pto 22]);
   SSet (LVal (EInt 11)) (ECall _mm_loadh_pd [vv 11; pto 23]);
   SSet (LVal (EInt 12)) (ECall _mm_loadl_pd [vv 12; pto 24]);
   SSet (LVal (EInt 12)) (ECall _mm_loadh_pd [vv 12; pto 25]);
   SSet (LVal (EInt 13)) (ECall _mm_loadl_pd [vv 13; pto 26]);
   SSet (LVal (EInt 13)) (ECall _mm_loadh_pd [vv 13; pto 27]);
   SSet (LVal (EInt 14)) (ECall _mm_loadl_pd [vv 14; pto 28]);
   SSet (LVal (EInt 14)) (ECall _mm_loadh_pd [vv 14; pto 29]);
   SSet (LVal (EInt 15)) (ECall _mm_loadl_pd [vv 15; pto 30]);
   SSet (LVal (EInt 15)) (ECall _mm_loadh_pd [vv 15; pto 31])].

(* short_vec_sse_double_32.hpp:627-662 *)
Definition sse_double_32_scatter : body :=
  [SDo (ECall _mm_storel_pd [pto 0; vv 0]);
   SDo (ECall _mm_storeh_pd [pto 1; vv 0]);
   SDo (ECall _mm_storel_pd [pto 2; vv 1]);
   SDo (ECall _mm_storeh_pd [pto 3; vv 1]);
   SDo (ECall _mm_storel_pd [pto 4; vv 2]);
   SDo (ECall _mm_storeh_pd [pto 5; vv 2]);
   SDo (ECall _mm_storel_pd [pto 6; vv 3]);
   SDo (ECall _mm_storeh_pd [pto 7; vv 3]);
   SDo (ECall _mm_storel_pd [pto 8; vv 4]);
   SDo (ECall _mm_storeh_pd [pto 9; vv 4]);
   SDo (ECall _mm_storel_pd [pto 10; vv 5]);
   SDo (ECall _mm_storeh_pd [pto 11; vv 5]);
   SDo (ECall _mm_storel_pd [pto 12; vv 6]);
   SDo (ECall _mm_storeh_pd [pto 13; vv 6]);
   SDo (ECall _mm_storel_pd [pto 14; vv 7]);
   SDo (ECall _mm_storeh_pd [pto 15; vv 7]);
   SDo (ECall _mm_storel_pd [pto 16; vv 8]);
   SDo (ECall _mm_storeh_pd [pto 17; vv 8]);
   SDo (ECall _mm_storel_pd [pto 18; vv 9]);
   SDo (ECall _mm_storeh_pd [pto 19; vv 9]);
   SDo (ECall _mm_storel_pd [pto 20; vv 10]);
   SDo (ECall _mm_storeh_pd [pto 21; vv 10]);
   SDo (ECall _mm_storel_pd [pto 22; vv 11]);
   SDo (ECall _mm_storeh_pd [pto 23; vv 11]);
   SDo (ECall _mm_storel_pd [pto 24; vv 12]);
   SDo (ECall _mm_storeh_pd [pto 25; vv 12]);
   SDo (ECall _mm_storel_pd [pto 26; vv 13]);
   SDo (ECall _mm_storeh_pd [pto 27; vv 13]);
   SDo (ECall _mm_storel_pd [pto 28; vv 14]);
   SDo (ECall _mm_storeh_pd [pto 29; vv 14]);
   SDo (ECall _mm_storel_pd [pto 30; vv 15]);
   SDo (ECall _mm_storeh_pd [pto 31; vv 15])].

(* short_vec_sse_double_32.hpp:664-734 *)
Definition sse_double_32_blend : body :=
  [SSet (LVal (EInt 0)) (ECall _mm_or_pd [(ECall _mm_and_pd [mm 0; oo 0]); (ECall _mm_andnot_pd [mm
    0; vv 0])]);
   SSet (LVal (EInt 1)) (ECall _mm_or_pd [(ECall _mm_and_pd [mm 1; oo 1]); (ECall _mm_andnot_pd [mm
    1; vv 1])]);
   SSet (LVal (EInt 2)) (ECall _mm_or_pd [(ECall _mm_and_pd [mm 2; oo 2]); (ECall _mm_andnot_pd [mm
    2; vv 2])]);
   SSet (LVal (EInt 3)) (ECall _mm_or_pd [(ECall _mm_and_pd [mm 3; oo 3]); (ECall _mm_andnot_pd [mm
    3; vv 3])]);
   SSet (LVal (EInt 4)) (ECall _mm_or_pd [(ECall _mm_and_pd [mm 4; oo 4]); (ECall _mm_andnot_pd [mm
    4; vv 4])]);
   SSet (LVal (EInt 5)) (ECall _mm_or_pd [(ECall _mm_and_pd [mm 5; oo 5]); (ECall _mm_andnot_pd [mm
    5; vv 5])]);
   SSet (LVal (EInt 6)) (ECall _mm_or_pd [(ECall _mm_and_pd [mm 6; oo 6]); (ECall _mm_andnot_pd [mm
    6; vv 6])]);
   SSet (LVal (EInt 7)) (ECall _mm_or_pd [(ECall _mm_and_pd [mm 7; oo 7]); (ECall _mm_andnot_pd [mm
    7; vv 7])]);
   SSet (LVal (EInt 8)) (ECall _mm_or_pd [(ECall _mm_and_pd [mm 8; oo 8]); (ECall _mm_andnot_pd [mm
    8; vv 8])]);
   SSet (LVal (EInt 9)) (ECall _mm_or_pd [(ECall _mm_and_pd [mm 9; oo 9]); (ECall _mm_andnot_pd [mm
    9; vv 9])]);
   SSet (LVal (EInt 10)) (ECall _mm_or_pd [(ECall _mm_and_pd [mm 10; oo 10]); (ECall _mm_andnot_pd
    [mm 10; vv 10])]);
   SSet (LVal (EInt 11)) (ECall _mm_or_pd [(ECall _mm_and_pd [mm 11; oo 11]); (ECall _mm_andnot_pd
    [mm 11; vv 11])]);
   SSet (LVal (EInt 12)) (ECall _mm_or_pd [(ECall _mm_and_pd [mm 12; oo 12]); (ECall _mm_andnot_pd
    [mm 12; vv 12])]);
   SSet (LVal (EInt 13)) (ECall _mm_or_pd [(ECall _mm_and_pd [mm 13; oo 13]); (ECall _mm_andnot_pd
    [mm 13; vv 13])]);
   SSet (LVal (EInt 14)) (ECall _mm_or_pd [(ECall _mm_and_pd [mm 14; oo 14]); (ECall _mm_andnot_pd
    [mm 14; vv 14])]);
   SSet (LVal (EInt 15)) (ECall _mm_or_pd [(ECall _mm_and_pd [mm 15; oo 15]); (ECall _mm_andnot_pd
    [mm 15; vv 15])])].

(* short_vec_sse_double_32.hpp:760-795 *)
Definition sse_double_32_print : list item :=
  [PStr "["; PVal (EIdx (vv 0) (EInt 0)); PStr ", "; PVal (EIdx (vv 0) (EInt 1)); PStr ", "; PVal
   (EIdx (vv 1) (EInt 0)); PStr ", "; PVal (EIdx (vv 1) (EInt 1)); PStr ", "; PVal (EIdx (vv 2)
   (EInt 0)); PStr ", "; PVal (EIdx (vv 2) (EInt 1)); PStr ", "; PVal (EIdx (vv 3) (EInt 0)); PStr
   ", "; PVal (EIdx (vv 3) (EInt 1)); PStr ", "; PVal (EIdx (vv 4) (EInt 0)); PStr ", "; PVal (EIdx
   (vv 4) (EInt 1)); PStr ", "; PVal (EIdx (vv 5) (EInt 0)); PStr ", "; PVal (EIdx (vv 5) (EInt
   1)); PStr ", "; PVal (EIdx (vv 6) (EInt 0)); PStr ", "; PVal (EIdx (vv 6) (EInt 1)); PStr ", ";
   PVal (EIdx (vv 7) (EInt 0)); PStr ", "; PVal (EIdx (vv 7) (EInt 1)); PStr ", "; PVal (EIdx (vv
   8) (EInt 0)); PStr ", "; PVal (EIdx (vv 8) (EInt 1)); PStr ", "; PVal (EIdx (vv 9) (EInt 0));
   PStr ", "; PVal (EIdx (vv 9) (EInt 1)); PStr ", "; PVal (EIdx (vv 10) (EInt 0)); PStr ", "; PVal
   (EIdx (vv 10) (EInt 1)); PStr ", "; PVal (EIdx (vv 11) (EInt 0)); PStr ", "; PVal (EIdx (vv 11)
   (EInt 1)); PStr ", "; PVal (EIdx (vv 12) (EInt 0)); PStr ", "; PVal (EIdx (vv 12) (EInt 1));
   PStr ", "; PVal (EIdx (vv 13) (EInt 0)); PStr ", "; PVal (EIdx (vv 13) (EInt 1)); PStr ", ";
   PVal (EIdx (vv 14) (EInt 0)); PStr ", "; PVal (EIdx (vv 14) (EInt 1)); PStr ", "; PVal (EIdx (vv
   15) (EInt 0)); PStr ", "; PVal (EIdx (vv 15) (EInt 1)); PStr "]"].

(* short_vec_sse_double_32.hpp *)
Definition cls_sse_double_32 : cls :=
  mkCls "sse_double_32" KF64 32 16 2 16 MVec
    (fun m => match m with
     | MCtorScalar => Some sse_double_32_ctor_scalar
     | MCtorPtr => Some sse_double_32_ctor_ptr
     | MCtorRegs => Some sse_double_32_ctor_regs
     | MCtorList => Some sse_double_32_ctor_list
     | MAny => Some sse_double_32_any
     | MIndex => Some sse_double_32_index
     | MSubEq => Some sse_double_32_sub_eq
     | MSub => Some sse_double_32_sub
     | MAddEq => Some sse_double_32_add_eq
     | MAdd => Some sse_double_32_add
     | MMulEq => Some sse_double_32_mul_eq
     | MMul => Some sse_double_32_mul
     | MDivEq => Some sse_double_32_div_eq
     | MDiv => Some sse_double_32_div
     | MLt => Some sse_double_32_lt
     | MLe => Some sse_double_32_le
     | MEq => Some sse_double_32_eq
     | MGt => Some sse_double_32_gt
     | MGe => Some sse_double_32_ge
     | MSqrt => Some sse_double_32_sqrt
     | MLoad => Some sse_double_32_load
     | MLoadAligned => Some sse_double_32_load_aligned
     | MStore => Some sse_double_32_store
     | MStoreAligned => Some sse_double_32_store_aligned
     | MStoreNt => Some sse_double_32_store_nt
     | MGather => Some sse_double_32_gather
     | MScatter => Some sse_double_32_scatter
     | MBlend => Some sse_double_32_blend
     | _ => None
     end)
    sse_double_32_ctor_regs sse_double_32_print.

(* short_vec_sse_double_32.hpp:132-159 with __SSE4_1__ *)
Definition sse_double_32_41_any : body :=
  [SSet (LVar "buf0") (ECall _mm_or_pd [(ECall _mm_or_pd [(ECall _mm_or_pd [(ECall _mm_or_pd [vv 0;
    vv 1]); (ECall _mm_or_pd [vv 2; vv 3])]); (ECall _mm_or_pd [(ECall _mm_or_pd [vv 4; vv 5]);
    (ECall _mm_or_pd [vv 6; vv 7])])]); (ECall _mm_or_pd [(ECall _mm_or_pd [(ECall _mm_or_pd [vv 8;
    vv 9]); (ECall _mm_or_pd [vv 10; vv 11])]); (ECall _mm_or_pd [(ECall _mm_or_pd [vv 12; vv 13]);
    (ECall _mm_or_pd [vv 14; vv 15])])])]);
   SRet (EBool (ECop (ORel REq) (EInt 0) (ECall _mm_testz_si128 [(ECall _mm_castpd_si128 [(EVar
    "buf0")]); (ECall _mm_castpd_si128 [(EVar "buf0")])])))].

(* short_vec_sse_double_32.hpp:664-734 with __SSE4_1__ *)
Definition sse_double_32_41_blend : body :=
  [SSet (LVal (EInt 0)) (ECall _mm_blendv_pd [vv 0; oo 0; mm 0]);
   SSet (LVal (EInt 1)) (ECall _mm_blendv_pd [vv 1; oo 1; mm 1]);
   SSet (LVal (EInt 2)) (ECall _mm_blendv_pd [vv 2; oo 2; mm 2]);
   SSet (LVal (EInt 3)) (ECall _mm_blendv_pd [vv 3; oo 3; mm 3]);
   SSet (LVal (EInt 4)) (ECall _mm_blendv_pd [vv 4; oo 4; mm 4]);
   SSet (LVal (EInt 5)) (ECall _mm_blendv_pd [vv 5; oo 5; mm 5]);
   SSet (LVal (EInt 6)) (ECall _mm_blendv_pd [vv 6; oo 6; mm 6]);
   SSet (LVal (EInt 7)) (ECall _mm_blendv_pd [vv 7; oo 7; mm 7]);
   SSet (LVal (EInt 8)) (ECall _mm_blendv_pd [vv 8; oo 8; mm 8]);
   SSet (LVal (EInt 9)) (ECall _mm_blendv_pd [vv 9; oo 9; mm 9]);
   SSet (LVal (EInt 10)) (ECall _mm_blendv_pd [vv 10; oo 10; mm 10]);
   SSet (LVal (EInt 11)) (ECall _mm_blendv_pd [vv 11; oo 11; mm 11]);
   SSet (LVal (EInt 12)) (ECall _mm_blendv_pd [vv 12; oo 12; mm 12]);
   SSet (LVal (EInt 13)) (ECall _mm_blendv_pd [vv 13; oo 13; mm 13]);
   SSet (LVal (EInt 14)) (ECall _mm_blendv_pd [vv 14; oo 14; mm 14]);
   SSet (LVal (EInt 15)) (ECall _mm_blendv_pd [vv 15; oo 15; mm 15])].

(* short_vec_sse_double_32.hpp with __SSE4_1__ *)
Definition cls_sse_double_32_41 : cls :=
  mkCls "sse_double_32_41" KF64 32 16 2 16 MVec
    (fun m => match m with
     | MCtorScalar => Some sse_double_32_ctor_scalar
     | MCtorPtr => Some sse_double_32_ctor_ptr
     | MCtorRegs => Some sse_double_32_ctor_regs
     | MCtorList => Some sse_double_32_ctor_list
     | MAny => Some sse_double_32_41_any
     | MIndex => Some sse_double_32_index
     | MSubEq => Some sse_double_32_sub_eq
     | MSub => Some sse_double_32_sub
     | MAddEq => Some sse_double_32_add_eq
     | MAdd => Some sse_double_32_add
     | MMulEq => Some sse_double_32_mul_eq
     | MMul => Some sse_double_32_mul
     | MDivEq => Some sse_double_32_div_eq
     | MDiv => Some sse_double_32_div
     | MLt => Some sse_double_32_lt
     | MLe => Some sse_double_32_le
     | MEq => Some sse_double_32_eq
     | MGt => Some sse_double_32_gt
     | MGe => Some sse_double_32_ge
     | MSqrt => Some sse_double_32_sqrt
     | MLoad => Some sse_double_32_load
     | MLoadAligned => Some sse_double_32_load_aligned
     | MStore => Some sse_double_32_store
     | MStoreAligned => Some sse_double_32_store_aligned
     | MStoreNt => Some sse_double_32_store_nt
     | MGather => Some sse_double_32_gather
     | MScatter => Some sse_double_32_scatter
     | MBlend => Some sse_double_32_41_blend
     | _ => None
     end)
    sse_double_32_ctor_regs sse_double_32_print.

(* short_vec_sse_float_4.hpp:71-74 *)
Definition sse_float_4_ctor_scalar : body :=
  [SSet (LVal (EInt 0)) (ECall _mm_set1_ps [EArg])].

(* short_vec_sse_float_4.hpp:76-80 *)
Definition sse_float_4_ctor_ptr : body :=
  [SSet (LVal (EInt 0)) (ECall _mm_loadu_ps [EData])].

(* short_vec_sse_float_4.hpp:82-85 *)
Definition sse_float_4_ctor_regs : body :=
  [SSet (LVal (EInt 0)) (EPar 0)].

(* short_vec_sse_float_4.hpp:88-93 *)
Definition sse_float_4_ctor_list : body :=
  [SSet (LVal (EInt 0)) (ECall _mm_loadu_ps [EData])].

(* short_vec_sse_float_4.hpp:99-112 *)
Definition sse_float_4_any : body :=
  [SSet (LVar "buf1") (ECall _mm_shuffle_ps [vv 0; vv 0; (ECop OBitOr (ECop OShl (EInt 3) (EInt 2))
    (ECop OShl (EInt 2) (EInt 0)))]);
   SSet (LVar "buf1") (ECall _mm_or_ps [vv 0; (EVar "buf1")]);
   SSet (LVar "buf2") (ECall _mm_shuffle_ps [(EVar "buf1"); (EVar "buf1"); (ECop OShl (EInt 1)
    (EInt 0))]);
   SRet (EBool (ECop OLor (ECall _mm_cvtss_f32 [(EVar "buf1")]) (ECall _mm_cvtss_f32 [(EVar
    "buf2")])))].

(* short_vec_sse_float_4.hpp:114-128 *)
Definition sse_float_4_index : body :=
  [SIf (ECop (ORel REq) (EVar "i") (EInt 3)) [SRet (ECall _mm_cvtss_f32 [(ECall _mm_shuffle_ps [vv
    0; vv 0; EInt 3])])] [];
   SIf (ECop (ORel REq) (EVar "i") (EInt 2)) [SRet (ECall _mm_cvtss_f32 [(ECall _mm_shuffle_ps [vv
    0; vv 0; EInt 2])])] [];
   SIf (ECop (ORel REq) (EVar "i") (EInt 1)) [SRet (ECall _mm_cvtss_f32 [(ECall _mm_shuffle_ps [vv
    0; vv 0; EInt 1])])] [];
   SRet (ECall _mm_cvtss_f32 [vv 0])].

(* short_vec_sse_float_4.hpp:130-134 *)
Definition sse_float_4_sub_eq : body :=
  [SSet (LVal (EInt 0)) (ECall _mm_sub_ps [vv 0; oo 0])].

(* short_vec_sse_float_4.hpp:136-141 *)
Definition sse_float_4_sub : body :=
  [SRetVec [(ECall _mm_sub_ps [vv 0; oo 0])]].

(* short_vec_sse_float_4.hpp:143-147 *)
Definition sse_float_4_add_eq : body :=
  [SSet (LVal (EInt 0)) (ECall _mm_add_ps [vv 0; oo 0])].

(* short_vec_sse_float_4.hpp:149-154 *)
Definition sse_float_4_add : body :=
  [SRetVec [(ECall _mm_add_ps [vv 0; oo 0])]].

(* short_vec_sse_float_4.hpp:156-160 *)
Definition sse_float_4_mul_eq : body :=
  [SSet (LVal (EInt 0)) (ECall _mm_mul_ps [vv 0; oo 0])].

(* short_vec_sse_float_4.hpp:162-167 *)
Definition sse_float_4_mul : body :=
  [SRetVec [(ECall _mm_mul_ps [vv 0; oo 0])]].

(* short_vec_sse_float_4.hpp:169-173 *)
Definition sse_float_4_div_eq : body :=
  [SSet (LVal (EInt 0)) (ECall _mm_div_ps [vv 0; oo 0])].

(* short_vec_sse_float_4.hpp:178-183 *)
Definition sse_float_4_div : body :=
  [SRetVec [(ECall _mm_div_ps [vv 0; oo 0])]].

(* short_vec_sse_float_4.hpp:188-193 *)
Definition sse_float_4_lt : body :=
  [SRetVec [(ECall _mm_cmplt_ps [vv 0; oo 0])]].

(* short_vec_sse_float_4.hpp:195-200 *)
Definition sse_float_4_le : body :=
  [SRetVec [(ECall _mm_cmple_ps [vv 0; oo 0])]].

(* short_vec_sse_float_4.hpp:202-207 *)
Definition sse_float_4_eq : body :=
  [SRetVec [(ECall _mm_cmpeq_ps [vv 0; oo 0])]].

(* short_vec_sse_float_4.hpp:209-214 *)
Definition sse_float_4_gt : body :=
  [SRetVec [(ECall _mm_cmpgt_ps [vv 0; oo 0])]].

(* short_vec_sse_float_4.hpp:216-221 *)
Definition sse_float_4_ge : body :=
  [SRetVec [(ECall _mm_cmpge_ps [vv 0; oo 0])]].

(* short_vec_sse_float_4.hpp:223-228 *)
Definition sse_float_4_sqrt : body :=
  [SRetVec [(ECall _mm_sqrt_ps [vv 0])]].

(* short_vec_sse_float_4.hpp:230-234 *)
Definition sse_float_4_load : body :=
  [SSet (LVal (EInt 0)) (ECall _mm_loadu_ps [EData])].

(* short_vec_sse_float_4.hpp:236-241 *)
Definition sse_float_4_load_aligned : body :=
  [SAssertAligned EData 16;
   SSet (LVal (EInt 0)) (ECall _mm_load_ps [EData])].

(* short_vec_sse_float_4.hpp:243-247 *)
Definition sse_float_4_store : body :=
  [SDo (ECall _mm_storeu_ps [dat 0; vv 0])].

(* short_vec_sse_float_4.hpp:249-254 *)
Definition sse_float_4_store_aligned : body :=
  [SAssertAligned EData 16;
   SDo (ECall _mm_store_ps [dat 0; vv 0])].

(* short_vec_sse_float_4.hpp:256-261 *)
Definition sse_float_4_store_nt : body :=
  [SAssertAligned EData 16;
   SDo (ECall _mm_stream_ps [dat 0; vv 0])].

(* short_vec_sse_float_4.hpp:287-298 *)
Definition sse_float_4_gather : body :=
  [SDecl "f1" 4;
   SDecl "f2" 4;
   SDecl "f3" 4;
   SDecl "f4" 4;
   SSet (LVar "f1") (ECall _mm_load_ss [pto 0]);
   SSet (LVar "f2") (ECall _mm_load_ss [pto 2]);
   SSet (LVar "f1") (ECall _mm_unpacklo_ps [(EVar "f1"); (EVar "f2")]);
   SSet (LVar "f3") (ECall _mm_load_ss [pto 1]);
   SSet (LVar "f4") (ECall _mm_load_ss [pto 3]);
   SSet (LVar "f3") (ECall _mm_unpacklo_ps [(EVar "f3"); (EVar "f4")]);
   SSet (LVal (EInt 0)) (ECall _mm_unpacklo_ps [(EVar "f1"); (EVar "f3")])].

(* short_vec_sse_float_4.hpp:300-311 *)
Definition sse_float_4_scatter : body :=
  [SSet (LVar "tmp") (vv 0);
   SDo (ECall _mm_store_ss [pto 0; (EVar "tmp")]);
   SSet (LVar "tmp") (ECall _mm_shuffle_ps [(EVar "tmp"); (EVar "tmp"); (ECall _MM_SHUFFLE [EInt 0;
    EInt 3; EInt 2; EInt 1])]);
   SDo (ECall _mm_store_ss [pto 1; (EVar "tmp")]);
   SSet (LVar "tmp") (ECall _mm_shuffle_ps [(EVar "tmp"); (EVar "tmp"); (ECall _MM_SHUFFLE [EInt 0;
    EInt 3; EInt 2; EInt 1])]);
   SDo (ECall _mm_store_ss [pto 2; (EVar "tmp")]);
   SSet (LVar "tmp") (ECall _mm_shuffle_ps [(EVar "tmp"); (EVar "tmp"); (ECall _MM_SHUFFLE [EInt 0;
    EInt 3; EInt 2; EInt 1])]);
   SDo (ECall _mm_store_ss [pto 3; (EVar "tmp")])].

(* short_vec_sse_float_4.hpp:314-324 *)
Definition sse_float_4_blend : body :=
  [SSet (LVal (EInt 0)) (ECall _mm_or_ps [(ECall _mm_and_ps [mm 0; oo 0]); (ECall _mm_andnot_ps [mm
    0; vv 0])])].

(* short_vec_sse_float_4.hpp:356-358 *)
Definition sse_float_4_ctor_sqrt : body :=
  [SSet (LVal (EInt 0)) (ECall _mm_sqrt_ps [oo 0])].

(* short_vec_sse_float_4.hpp:361-364 *)
Definition sse_float_4_div_eq_sqrt : body :=
  [SSet (LVal (EInt 0)) (ECall _mm_mul_ps [vv 0; (ECall _mm_rsqrt_ps [oo 0])])].

(* short_vec_sse_float_4.hpp:367-371 *)
Definition sse_float_4_div_sqrt : body :=
  [SRetVec [(ECall _mm_mul_ps [vv 0; (ECall _mm_rsqrt_ps [oo 0])])]].

(* short_vec_sse_float_4.hpp:383-387 *)
Definition sse_float_4_print : list item :=
  [PStr "["; PVal (EIdx (vv 0) (EInt 0)); PStr ", "; PVal (EIdx (vv 0) (EInt 1)); PStr ", "; PVal
   (EIdx (vv 0) (EInt 2)); PStr ", "; PVal (EIdx (vv 0) (EInt 3)); PStr "]"].

(* short_vec_sse_float_4.hpp *)
Definition cls_sse_float_4 : cls :=
  mkCls "sse_float_4" KF32 4 1 4 16 MVec
    (fun m => match m with
     | MCtorScalar => Some sse_float_4_ctor_scalar
     | MCtorPtr => Some sse_float_4_ctor_ptr
     | MCtorRegs => Some sse_float_4_ctor_regs
     | MCtorSqrt => Some sse_float_4_ctor_sqrt
     | MCtorList => Some sse_float_4_ctor_list
     | MAny => Some sse_float_4_any
     | MIndex => Some sse_float_4_index
     | MSubEq => Some sse_float_4_sub_eq
     | MSub => Some sse_float_4_sub
     | MAddEq => Some sse_float_4_add_eq
     | MAdd => Some sse_float_4_add
     | MMulEq => Some sse_float_4_mul_eq
     | MMul => Some sse_float_4_mul
     | MDivEq => Some sse_float_4_div_eq
     | MDiv => Some sse_float_4_div
     | MDivEqSqrt => Some sse_float_4_div_eq_sqrt
     | MDivSqrt => Some sse_float_4_div_sqrt
     | MLt => Some sse_float_4_lt
     | MLe => Some sse_float_4_le
     | MEq => Some sse_float_4_eq
     | MGt => Some sse_float_4_gt
     | MGe => Some sse_float_4_ge
     | MSqrt => Some sse_float_4_sqrt
     | MLoad => Some sse_float_4_load
     | MLoadAligned => Some sse_float_4_load_aligned
     | MStore => Some sse_float_4_store
     | MStoreAligned => Some sse_float_4_store_aligned
     | MStoreNt => Some sse_float_4_store_nt
     | MGather => Some sse_float_4_gather
     | MScatter => Some sse_float_4_scatter
     | MBlend => Some sse_float_4_blend
     end)
    sse_float_4_ctor_regs sse_float_4_print.

(* short_vec_sse_float_4.hpp:99-112 with __SSE4_1__ *)
Definition sse_float_4_41_any : body :=
  [SRet (EBool (ECop (ORel REq) (EInt 0) (ECall _mm_testz_si128 [(ECall _mm_castps_si128 [vv 0]);
    (ECall _mm_castps_si128 [vv 0])])))].

(* short_vec_sse_float_4.hpp:264-271 with __SSE4_1__ *)
Definition sse_float_4_41_gather : body :=
  [SSet (LVal (EInt 0)) (ECall _mm_load_ss [pto 0]);
   SSet (LVal (EInt 0)) (ECall SHORTVEC_INSERT_PS [vv 0; EPtr; off 1; (ECall _MM_MK_INSERTPS_NDX
    [EInt 0; EInt 1; EInt 0])]);
   SSet (LVal (EInt 0)) (ECall SHORTVEC_INSERT_PS [vv 0; EPtr; off 2; (ECall _MM_MK_INSERTPS_NDX
    [EInt 0; EInt 2; EInt 0])]);
   SSet (LVal (EInt 0)) (ECall SHORTVEC_INSERT_PS [vv 0; EPtr; off 3; (ECall _MM_MK_INSERTPS_NDX
    [EInt 0; EInt 3; EInt 0])])].

(* short_vec_sse_float_4.hpp:273-285 with __SSE4_1__ *)
Definition sse_float_4_41_scatter : body :=
  [SSet (LVar "r1") (ECall _mm_extract_ps [vv 0; EInt 0]);
   SSet (LVar "r2") (ECall _mm_extract_ps [vv 0; EInt 1]);
   SSet (LVar "r3") (ECall _mm_extract_ps [vv 0; EInt 2]);
   SSet (LVar "r4") (ECall _mm_extract_ps [vv 0; EInt 3]);
   SSet (LMem (pto 0)) (EVar "r1");
   SSet (LMem (pto 1)) (EVar "r2");
   SSet (LMem (pto 2)) (EVar "r3");
   SSet (LMem (pto 3)) (EVar "r4")].

(* short_vec_sse_float_4.hpp:314-324 with __SSE4_1__ *)
Definition sse_float_4_41_blend : body :=
  [SSet (LVal (EInt 0)) (ECall _mm_blendv_ps [vv 0; oo 0; mm 0])].

(* short_vec_sse_float_4.hpp with __SSE4_1__ *)
Definition cls_sse_float_4_41 : cls :=
  mkCls "sse_float_4_41" KF32 4 1 4 16 MVec
    (fun m => match m with
     | MCtorScalar => Some sse_float_4_ctor_scalar
     | MCtorPtr => Some sse_float_4_ctor_ptr
     | MCtorRegs => Some sse_float_4_ctor_regs
     | MCtorSqrt => Some sse_float_4_ctor_sqrt
     | MCtorList => Some sse_float_4_ctor_list
     | MAny => Some sse_float_4_41_any
     | MIndex => Some sse_float_4_index
     | MSubEq => Some sse_float_4_sub_eq
     | MSub => Some sse_float_4_sub
     | MAddEq => Some sse_float_4_add_eq
     | MAdd => Some sse_float_4_add
     | MMulEq => Some sse_float_4_mul_eq
     | MMul => Some sse_float_4_mul
     | MDivEq => Some sse_float_4_div_eq
     | MDiv => Some sse_float_4_div
     | MDivEqSqrt => Some sse_float_4_div_eq_sqrt
     | MDivSqrt => Some sse_float_4_div_sqrt
     | MLt => Some sse_float_4_lt
     | MLe => Some sse_float_4_le
     | MEq => Some sse_float_4_eq
     | MGt => Some sse_float_4_gt
     | MGe => Some sse_float_4_ge
     | MSqrt => Some sse_float_4_sqrt
     | MLoad => Some sse_float_4_load
     | MLoadAligned => Some sse_float_4_load_aligned
     | MStore => Some sse_float_4_store
     | MStoreAligned => Some sse_float_4_store_aligned
     | MStoreNt => Some sse_float_4_store_nt
     | MGather => Some sse_float_4_41_gather
     | MScatter => Some sse_float_4_41_scatter
     | MBlend => Some sse_float_4_41_blend
     end)
    sse_float_4_ctor_regs sse_float_4_print.

(* short_vec_sse_float_8.hpp:68-72 *)
Definition sse_float_8_ctor_scalar : body :=
  [SSet (LVal (EInt 0)) (ECall _mm_set1_ps [EArg]);
   SSet (LVal (EInt 1)) (ECall _mm_set1_ps [EArg])].

(* short_vec_sse_float_8.hpp:74-78 *)
Definition sse_float_8_ctor_ptr : body :=
  [SSet (LVal (EInt 0)) (ECall _mm_loadu_ps [dat 0]);
   SSet (LVal (EInt 1)) (ECall _mm_loadu_ps [dat 4])].

(* short_vec_sse_float_8.hpp:80-84 *)
Definition sse_float_8_ctor_regs : body :=
  [SSet (LVal (EInt 0)) (EPar 0);
   SSet (LVal (EInt 1)) (EPar 1)].

(* short_vec_sse_float_8.hpp:87-92 *)
Definition sse_float_8_ctor_list : body :=
  [SSet (LVal (EInt 0)) (ECall _mm_loadu_ps [dat 0]);
   SSet (LVal (EInt 1)) (ECall _mm_loadu_ps [dat 4])].

(* short_vec_sse_float_8.hpp:98-113 *)
Definition sse_float_8_any : body :=
  [SSet (LVar "buf1") (ECall _mm_or_ps [vv 0; vv 1]);
   SSet (LVar "buf2") (ECall _mm_shuffle_ps [(EVar "buf1"); (EVar "buf1"); (ECop OBitOr (ECop OShl
    (EInt 3) (EInt 2)) (ECop OShl (EInt 2) (EInt 0)))]);
   SSet (LVar "buf1") (ECall _mm_or_ps [(EVar "buf1"); (EVar "buf2")]);
   SSet (LVar "buf2") (ECall _mm_shuffle_ps [(EVar "buf1"); (EVar "buf1"); (ECop OShl (EInt 1)
    (EInt 0))]);
   SRet (EBool (ECop OLor (ECall _mm_cvtss_f32 [(EVar "buf1")]) (ECall _mm_cvtss_f32 [(EVar
    "buf2")])))].

(* short_vec_sse_float_8.hpp:115-132 *)
Definition sse_float_8_index : body :=
  [SSet (LVar "buf") (EVal (ECop OShr (EVar "i") (EInt 2)));
   SUpd OBitAnd (LVar "i") (EInt 3);
   SIf (ECop (ORel REq) (EVar "i") (EInt 3)) [SRet (ECall _mm_cvtss_f32 [(ECall _mm_shuffle_ps
    [(EVar "buf"); (EVar "buf"); EInt 3])])] [];
   SIf (ECop (ORel REq) (EVar "i") (EInt 2)) [SRet (ECall _mm_cvtss_f32 [(ECall _mm_shuffle_ps
    [(EVar "buf"); (EVar "buf"); EInt 2])])] [];
   SIf (ECop (ORel REq) (EVar "i") (EInt 1)) [SRet (ECall _mm_cvtss_f32 [(ECall _mm_shuffle_ps
    [(EVar "buf"); (EVar "buf"); EInt 1])])] [];
   SRet (ECall _mm_cvtss_f32 [(EVar "buf")])].

(* short_vec_sse_float_8.hpp:134-139 *)
Definition sse_float_8_sub_eq : body :=
  [SSet (LVal (EInt 0)) (ECall _mm_sub_ps [vv 0; oo 0]);
   SSet (LVal (EInt 1)) (ECall _mm_sub_ps [vv 1; oo 1])].

(* short_vec_sse_float_8.hpp:141-147 *)
Definition sse_float_8_sub : body :=
  [SRetVec [(ECall _mm_sub_ps [vv 0; oo 0]); (ECall _mm_sub_ps [vv 1; oo 1])]].

(* short_vec_sse_float_8.hpp:149-154 *)
Definition sse_float_8_add_eq : body :=
  [SSet (LVal (EInt 0)) (ECall _mm_add_ps [vv 0; oo 0]);
   SSet (LVal (EInt 1)) (ECall _mm_add_ps [vv 1; oo 1])].

(* short_vec_sse_float_8.hpp:156-162 *)
Definition sse_float_8_add : body :=
  [SRetVec [(ECall _mm_add_ps [vv 0; oo 0]); (ECall _mm_add_ps [vv 1; oo 1])]].

(* short_vec_sse_float_8.hpp:164-169 *)
Definition sse_float_8_mul_eq : body :=
  [SSet (LVal (EInt 0)) (ECall _mm_mul_ps [vv 0; oo 0]);
   SSet (LVal (EInt 1)) (ECall _mm_mul_ps [vv 1; oo 1])].

(* short_vec_sse_float_8.hpp:171-177 *)
Definition sse_float_8_mul : body :=
  [SRetVec [(ECall _mm_mul_ps [vv 0; oo 0]); (ECall _mm_mul_ps [vv 1; oo 1])]].

(* short_vec_sse_float_8.hpp:179-184 *)
Definition sse_float_8_div_eq : body :=
  [SSet (LVal (EInt 0)) (ECall _mm_div_ps [vv 0; oo 0]);
   SSet (LVal (EInt 1)) (ECall _mm_div_ps [vv 1; oo 1])].

(* short_vec_sse_float_8.hpp:189-195 *)
Definition sse_float_8_div : body :=
  [SRetVec [(ECall _mm_div_ps [vv 0; oo 0]); (ECall _mm_div_ps [vv 1; oo 1])]].

(* short_vec_sse_float_8.hpp:200-206 *)
Definition sse_float_8_lt : body :=
  [SRetVec [(ECall _mm_cmplt_ps [vv 0; oo 0]); (ECall _mm_cmplt_ps [vv 1; oo 1])]].

(* short_vec_sse_float_8.hpp:208-214 *)
Definition sse_float_8_le : body :=
  [SRetVec [(ECall _mm_cmple_ps [vv 0; oo 0]); (ECall _mm_cmple_ps [vv 1; oo 1])]].

(* short_vec_sse_float_8.hpp:216-222 *)
Definition sse_float_8_eq : body :=
  [SRetVec [(ECall _mm_cmpeq_ps [vv 0; oo 0]); (ECall _mm_cmpeq_ps [vv 1; oo 1])]].

(* short_vec_sse_float_8.hpp:224-230 *)
Definition sse_float_8_gt : body :=
  [SRetVec [(ECall _mm_cmpgt_ps [vv 0; oo 0]); (ECall _mm_cmpgt_ps [vv 1; oo 1])]].

(* short_vec_sse_float_8.hpp:232-238 *)
Definition sse_float_8_ge : body :=
  [SRetVec [(ECall _mm_cmpge_ps [vv 0; oo 0]); (ECall _mm_cmpge_ps [vv 1; oo 1])]].

(* short_vec_sse_float_8.hpp:240-246 *)
Definition sse_float_8_sqrt : body :=
  [SRetVec [(ECall _mm_sqrt_ps [vv 0]); (ECall _mm_sqrt_ps [vv 1])]].

(* short_vec_sse_float_8.hpp:248-253 *)
Definition sse_float_8_load : body :=
  [SSet (LVal (EInt 0)) (ECall _mm_loadu_ps [dat 0]);
   SSet (LVal (EInt 1)) (ECall _mm_loadu_ps [dat 4])].

(* short_vec_sse_float_8.hpp:255-261 *)
Definition sse_float_8_load_aligned : body :=
  [SAssertAligned EData 16;
   SSet (LVal (EInt 0)) (ECall _mm_load_ps [dat 0]);
   SSet (LVal (EInt 1)) (ECall _mm_load_ps [dat 4])].

(* short_vec_sse_float_8.hpp:263-268 *)
Definition sse_float_8_store : body :=
  [SDo (ECall _mm_storeu_ps [dat 0; vv 0]);
   SDo (ECall _mm_storeu_ps [dat 4; vv 1])].

(* short_vec_sse_float_8.hpp:270-276 *)
Definition sse_float_8_store_aligned : body :=
  [SAssertAligned EData 16;
   SDo (ECall _mm_store_ps [dat 0; vv 0]);
   SDo (ECall _mm_store_ps [dat 4; vv 1])].

(* short_vec_sse_float_8.hpp:278-284 *)
Definition sse_float_8_store_nt : body :=
  [SAssertAligned EData 16;
   SDo (ECall _mm_stream_ps [dat 0; vv 0]);
   SDo (ECall _mm_stream_ps [dat 4; vv 1])].

(* short_vec_sse_float_8.hpp:322-340 *)
Definition sse_float_8_gather : body :=
  [SDecl "f1" 4;
   SDecl "f2" 4;
   SDecl "f3" 4;
   SDecl "f4" 4;
   SSet (LVar "f1") (ECall _mm_load_ss [pto 0]);
   SSet (LVar "f2") (ECall _mm_load_ss [pto 2]);
   SSet (LVar "f1") (ECall _mm_unpacklo_ps [(EVar "f1"); (EVar "f2")]);
   SSet (LVar "f3") (ECall _mm_load_ss [pto 1]);
   SSet (LVar "f4") (ECall _mm_load_ss [pto 3]);
   SSet (LVar "f3") (ECall _mm_unpacklo_ps [(EVar "f3"); (EVar "f4")]);
   SSet (LVal (EInt 0)) (ECall _mm_unpacklo_ps [(EVar "f1"); (EVar "f3")]);
   SSet (LVar "f1") (ECall _mm_load_ss [pto 4]);
   SSet (LVar "f2") (ECall _mm_load_ss [pto 6]);
   SSet (LVar "f1") (ECall _mm_unpacklo_ps [(EVar "f1"); (EVar "f2")]);
   SSet (LVar "f3") (ECall _mm_load_ss [pto 5]);
   SSet (LVar "f4") (ECall _mm_load_ss [pto 7]);
   SSet (LVar "f3") (ECall _mm_unpacklo_ps [(EVar "f3"); (EVar "f4")]);
   SSet (LVal (EInt 1)) (ECall _mm_unpacklo_ps [(EVar "f1"); (EVar "f3")])].

(* short_vec_sse_float_8.hpp:342-361 *)
Definition sse_float_8_scatter : body :=
  [SSet (LVar "tmp") (vv 0);
   SDo (ECall _mm_store_ss [pto 0; (EVar "tmp")]);
   SSet (LVar "tmp") (ECall _mm_shuffle_ps [(EVar "tmp"); (EVar "tmp"); (ECall _MM_SHUFFLE [EInt 0;
    EInt 3; EInt 2; EInt 1])]);
   SDo (ECall _mm_store_ss [pto 1; (EVar "tmp")]);
   SSet (LVar "tmp") (ECall _mm_shuffle_ps [(EVar "tmp"); (EVar "tmp"); (ECall _MM_SHUFFLE [EInt 0;
    EInt 3; EInt 2; EInt 1])]);
   SDo (ECall _mm_store_ss [pto 2; (EVar "tmp")]);
   SSet (LVar "tmp") (ECall _mm_shuffle_ps [(EVar "tmp"); (EVar "tmp"); (ECall _MM_SHUFFLE [EInt 0;
    EInt 3; EInt 2; EInt 1])]);
   SDo (ECall _mm_store_ss [pto 3; (EVar "tmp")]);
   SSet (LVar "tmp") (vv 1);
   SDo (ECall _mm_store_ss [pto 4; (EVar "tmp")]);
   SSet (LVar "tmp") (ECall _mm_shuffle_ps [(EVar "tmp"); (EVar "tmp"); (ECall _MM_SHUFFLE [EInt 0;
    EInt 3; EInt 2; EInt 1])]);
   SDo (ECall _mm_store_ss [pto 5; (EVar "tmp")]);
   SSet (LVar "tmp") (ECall _mm_shuffle_ps [(EVar "tmp"); (EVar "tmp"); (ECall _MM_SHUFFLE [EInt 0;
    EInt 3; EInt 2; EInt 1])]);
   SDo (ECall _mm_store_ss [pto 6; (EVar "tmp")]);
   SSet (LVar "tmp") (ECall _mm_shuffle_ps [(EVar "tmp"); (EVar "tmp"); (ECall _MM_SHUFFLE [EInt 0;
    EInt 3; EInt 2; EInt 1])]);
   SDo (ECall _mm_store_ss [pto 7; (EVar "tmp")])].

(* short_vec_sse_float_8.hpp:364-378 *)
Definition sse_float_8_blend : body :=
  [SSet (LVal (EInt 0)) (ECall _mm_or_ps [(ECall _mm_and_ps [mm 0; oo 0]); (ECall _mm_andnot_ps [mm
    0; vv 0])]);
   SSet (LVal (EInt 1)) (ECall _mm_or_ps [(ECall _mm_and_ps [mm 1; oo 1]); (ECall _mm_andnot_ps [mm
    1; vv 1])])].

(* short_vec_sse_float_8.hpp:410-413 *)
Definition sse_float_8_ctor_sqrt : body :=
  [SSet (LVal (EInt 0)) (ECall _mm_sqrt_ps [oo 0]);
   SSet (LVal (EInt 1)) (ECall _mm_sqrt_ps [oo 1])].

(* short_vec_sse_float_8.hpp:416-420 *)
Definition sse_float_8_div_eq_sqrt : body :=
  [SSet (LVal (EInt 0)) (ECall _mm_mul_ps [vv 0; (ECall _mm_rsqrt_ps [oo 0])]);
   SSet (LVal (EInt 1)) (ECall _mm_mul_ps [vv 1; (ECall _mm_rsqrt_ps [oo 1])])].

(* short_vec_sse_float_8.hpp:423-428 *)
Definition sse_float_8_div_sqrt : body :=
  [SRetVec [(ECall _mm_mul_ps [vv 0; (ECall _mm_rsqrt_ps [oo 0])]); (ECall _mm_mul_ps [vv 1; (ECall
    _mm_rsqrt_ps [oo 1])])]].

(* short_vec_sse_float_8.hpp:440-447 *)
Definition sse_float_8_print : list item :=
  [PStr "["; PVal (EIdx (vv 0) (EInt 0)); PStr ", "; PVal (EIdx (vv 0) (EInt 1)); PStr ", "; PVal
   (EIdx (vv 0) (EInt 2)); PStr ", "; PVal (EIdx (vv 0) (EInt 3)); PStr ", "; PVal (EIdx (vv 1)
   (EInt 0)); PStr ", "; PVal (EIdx (vv 1) (EInt 1)); PStr ", "; PVal (EIdx (vv 1) (EInt 2)); PStr
   ", "; PVal (EIdx (vv 1) (EInt 3)); PStr "]"].

(* short_vec_sse_float_8.hpp *)
Definition cls_sse_float_8 : cls :=
  mkCls "sse_float_8" KF32 8 2 4 16 MVec
    (fun m => match m with
     | MCtorScalar => Some sse_float_8_ctor_scalar
     | MCtorPtr => Some sse_float_8_ctor_ptr
     | MCtorRegs => Some sse_float_8_ctor_regs
     | MCtorSqrt => Some sse_float_8_ctor_sqrt
     | MCtorList => Some sse_float_8_ctor_list
     | MAny => Some sse_float_8_any
     | MIndex => Some sse_float_8_index
     | MSubEq => Some sse_float_8_sub_eq
     | MSub => Some sse_float_8_sub
     | MAddEq => Some sse_float_8_add_eq
     | MAdd => Some sse_float_8_add
     | MMulEq => Some sse_float_8_mul_eq
     | MMul => Some sse_float_8_mul
     | MDivEq => Some sse_float_8_div_eq
     | MDiv => Some sse_float_8_div
     | MDivEqSqrt => Some sse_float_8_div_eq_sqrt
     | MDivSqrt => Some sse_float_8_div_sqrt
     | MLt => Some sse_float_8_lt
     | MLe => Some sse_float_8_le
     | MEq => Some sse_float_8_eq
     | MGt => Some sse_float_8_gt
     | MGe => Some sse_float_8_ge
     | MSqrt => Some sse_float_8_sqrt
     | MLoad => Some sse_float_8_load
     | MLoadAligned => Some sse_float_8_load_aligned
     | MStore => Some sse_float_8_store
     | MStoreAligned => Some sse_float_8_store_aligned
     | MStoreNt => Some sse_float_8_store_nt
     | MGather => Some sse_float_8_gather
     | MScatter => Some sse_float_8_scatter
     | MBlend => Some sse_float_8_blend
     end)
    sse_float_8_ctor_regs sse_float_8_print.

(* short_vec_sse_float_8.hpp:98-113 with __SSE4_1__ *)
Definition sse_float_8_41_any : body :=
  [SSet (LVar "buf1") (ECall _mm_or_ps [vv 0; vv 1]);
   SRet (EBool (ECop (ORel REq) (EInt 0) (ECall _mm_testz_si128 [(ECall _mm_castps_si128 [(EVar
    "buf1")]); (ECall _mm_castps_si128 [(EVar "buf1")])])))].

(* short_vec_sse_float_8.hpp:287-298 with __SSE4_1__ *)
Definition sse_float_8_41_gather : body :=
  [SSet (LVal (EInt 0)) (ECall _mm_load_ss [pto 0]);
   SSet (LVal (EInt 0)) (ECall SHORTVEC_INSERT_PS [vv 0; EPtr; off 1; (ECall _MM_MK_INSERTPS_NDX
    [EInt 0; EInt 1; EInt 0])]);
   SSet (LVal (EInt 0)) (ECall SHORTVEC_INSERT_PS [vv 0; EPtr; off 2; (ECall _MM_MK_INSERTPS_NDX
    [EInt 0; EInt 2; EInt 0])]);
   SSet (LVal (EInt 0)) (ECall SHORTVEC_INSERT_PS [vv 0; EPtr; off 3; (ECall _MM_MK_INSERTPS_NDX
    [EInt 0; EInt 3; EInt 0])]);
   SSet (LVal (EInt 1)) (ECall _mm_load_ss [pto 4]);
   SSet (LVal (EInt 1)) (ECall SHORTVEC_INSERT_PS [vv 1; EPtr; off 5; (ECall _MM_MK_INSERTPS_NDX
    [EInt 0; EInt 1; EInt 0])]);
   SSet (LVal (EInt 1)) (ECall SHORTVEC_INSERT_PS [vv 1; EPtr; off 6; (ECall _MM_MK_INSERTPS_NDX
    [EInt 0; EInt 2; EInt 0])]);
   SSet (LVal (EInt 1)) (ECall SHORTVEC_INSERT_PS [vv 1; EPtr; off 7; (ECall _MM_MK_INSERTPS_NDX
    [EInt 0; EInt 3; EInt 0])])].

(* short_vec_sse_float_8.hpp:300-320 with __SSE4_1__ *)
Definition sse_float_8_41_scatter : body :=
  [SSet (LVar "r1") (ECall _mm_extract_ps [vv 0; EInt 0]);
   SSet (LVar "r2") (ECall _mm_extract_ps [vv 0; EInt 1]);
   SSet (LVar "r3") (ECall _mm_extract_ps [vv 0; EInt 2]);
   SSet (LVar "r4") (ECall _mm_extract_ps [vv 0; EInt 3]);
   SSet (LMem (pto 0)) (EVar "r1");
   SSet (LMem (pto 1)) (EVar "r2");
   SSet (LMem (pto 2)) (EVar "r3");
   SSet (LMem (pto 3)) (EVar "r4");
   SSet (LVar "r1") (ECall _mm_extract_ps [vv 1; EInt 0]);
   SSet (LVar "r2") (ECall _mm_extract_ps [vv 1; EInt 1]);
   SSet (LVar "r3") (ECall _mm_extract_ps [vv 1; EInt 2]);
   SSet (LVar "r4") (ECall _mm_extract_ps [vv 1; EInt 3]);
   SSet (LMem (pto 4)) (EVar "r1");
   SSet (LMem (pto 5)) (EVar "r2");
   SSet (LMem (pto 6)) (EVar "r3");
   SSet (LMem (pto 7)) (EVar "r4")].

(* short_vec_sse_float_8.hpp:364-378 with __SSE4_1__ *)
Definition sse_float_8_41_blend : body :=
  [SSet (LVal (EInt 0)) (ECall _mm_blendv_ps [vv 0; oo 0; mm 0]);
   SSet (LVal (EInt 1)) (ECall _mm_blendv_ps [vv 1; oo 1; mm 1])].

(* short_vec_sse_float_8.hpp with __SSE4_1__ *)
Definition cls_sse_float_8_41 : cls :=
  mkCls "sse_float_8_41" KF32 8 2 4 16 MVec
    (fun m => match m with
     | MCtorScalar => Some sse_float_8_ctor_scalar
     | MCtorPtr => Some sse_float_8_ctor_ptr
     | MCtorRegs => Some sse_float_8_ctor_regs
     | MCtorSqrt => Some sse_float_8_ctor_sqrt
     | MCtorList => Some sse_float_8_ctor_list
     | MAny => Some sse_float_8_41_any
     | MIndex => Some sse_float_8_index
     | MSubEq => Some sse_float_8_sub_eq
     | MSub => Some sse_float_8_sub
     | MAddEq => Some sse_float_8_add_eq
     | MAdd => Some sse_float_8_add
     | MMulEq => Some sse_float_8_mul_eq
     | MMul => Some sse_float_8_mul
     | MDivEq => Some sse_float_8_div_eq
     | MDiv => Some sse_float_8_div
     | MDivEqSqrt => Some sse_float_8_div_eq_sqrt
     | MDivSqrt => Some sse_float_8_div_sqrt
     | MLt => Some sse_float_8_lt
     | MLe => Some sse_float_8_le
     | MEq => Some sse_float_8_eq
     | MGt => Some sse_float_8_gt
     | MGe => Some sse_float_8_ge
     | MSqrt => Some sse_float_8_sqrt
     | MLoad => Some sse_float_8_load
     | MLoadAligned => Some sse_float_8_load_aligned
     | MStore => Some sse_float_8_store
     | MStoreAligned => Some sse_float_8_store_aligned
     | MStoreNt => Some sse_float_8_store_nt
     | MGather => Some sse_float_8_41_gather
     | MScatter => Some sse_float_8_41_scatter
     | MBlend => Some sse_float_8_41_blend
     end)
    sse_float_8_ctor_regs sse_float_8_print.

(* short_vec_sse_float_16.hpp:68-74 *)
Definition sse_float_16_ctor_scalar : body :=
  [SSet (LVal (EInt 0)) (ECall _mm_set1_ps [EArg]);
   SSet (LVal (EInt 1)) (ECall _mm_set1_ps [EArg]);
   SSet (LVal (EInt 2)) (ECall _mm_set1_ps [EArg]);
   SSet (LVal (EInt 3)) (ECall _mm_set1_ps [EArg])].

(* short_vec_sse_float_16.hpp:76-80 *)
Definition sse_float_16_ctor_ptr : body :=
  [SSet (LVal (EInt 0)) (ECall _mm_loadu_ps [dat 0]);
   SSet (LVal (EInt 1)) (ECall _mm_loadu_ps [dat 4]);
   SSet (LVal (EInt 2)) (ECall _mm_loadu_ps [dat 8]);
   SSet (LVal (EInt 3)) (ECall _mm_loadu_ps [dat 12])].

(* short_vec_sse_float_16.hpp:82-92 *)
Definition sse_float_16_ctor_regs : body :=
  [SSet (LVal (EInt 0)) (EPar 0);
   SSet (LVal (EInt 1)) (EPar 1);
   SSet (LVal (EInt 2)) (EPar 2);
   SSet (LVal (EInt 3)) (EPar 3)].

(* short_vec_sse_float_16.hpp:95-100 *)
Definition sse_float_16_ctor_list : body :=
  [SSet (LVal (EInt 0)) (ECall _mm_loadu_ps [dat 0]);
   SSet (LVal (EInt 1)) (ECall _mm_loadu_ps [dat 4]);
   SSet (LVal (EInt 2)) (ECall _mm_loadu_ps [dat 8]);
   SSet (LVal (EInt 3)) (ECall _mm_loadu_ps [dat 12])].

(* short_vec_sse_float_16.hpp:106-123 *)
Definition sse_float_16_any : body :=
  [SSet (LVar "buf1") (ECall _mm_or_ps [(ECall _mm_or_ps [vv 0; vv 1]); (ECall _mm_or_ps [vv 2; vv
    3])]);
   SSet (LVar "buf2") (ECall _mm_shuffle_ps [(EVar "buf1"); (EVar "buf1"); (ECop OBitOr (ECop OShl
    (EInt 3) (EInt 2)) (ECop OShl (EInt 2) (EInt 0)))]);
   SSet (LVar "buf1") (ECall _mm_or_ps [(EVar "buf1"); (EVar "buf2")]);
   SSet (LVar "buf2") (ECall _mm_shuffle_ps [(EVar "buf1"); (EVar "buf1"); (ECop OShl (EInt 1)
    (EInt 0))]);
   SRet (EBool (ECop OLor (ECall _mm_cvtss_f32 [(EVar "buf1")]) (ECall _mm_cvtss_f32 [(EVar
    "buf2")])))].

(* short_vec_sse_float_16.hpp:125-142 *)
Definition sse_float_16_index : body :=
  [SSet (LVar "buf") (EVal (ECop OShr (EVar "i") (EInt 2)));
   SUpd OBitAnd (LVar "i") (EInt 3);
   SIf (ECop (ORel REq) (EVar "i") (EInt 3)) [SRet (ECall _mm_cvtss_f32 [(ECall _mm_shuffle_ps
    [(EVar "buf"); (EVar "buf"); EInt 3])])] [];
   SIf (ECop (ORel REq) (EVar "i") (EInt 2)) [SRet (ECall _mm_cvtss_f32 [(ECall _mm_shuffle_ps
    [(EVar "buf"); (EVar "buf"); EInt 2])])] [];
   SIf (ECop (ORel REq) (EVar "i") (EInt 1)) [SRet (ECall _mm_cvtss_f32 [(ECall _mm_shuffle_ps
    [(EVar "buf"); (EVar "buf"); EInt 1])])] [];
   SRet (ECall _mm_cvtss_f32 [(EVar "buf")])].

(* short_vec_sse_float_16.hpp:144-151 *)
Definition sse_float_16_sub_eq : body :=
  [SSet (LVal (EInt 0)) (ECall _mm_sub_ps [vv 0; oo 0]);
   SSet (LVal (EInt 1)) (ECall _mm_sub_ps [vv 1; oo 1]);
   SSet (LVal (EInt 2)) (ECall _mm_sub_ps [vv 2; oo 2]);
   SSet (LVal (EInt 3)) (ECall _mm_sub_ps [vv 3; oo 3])].

(* short_vec_sse_float_16.hpp:153-161 *)
Definition sse_float_16_sub : body :=
  [SRetVec [(ECall _mm_sub_ps [vv 0; oo 0]); (ECall _mm_sub_ps [vv 1; oo 1]); (ECall _mm_sub_ps [vv
    2; oo 2]); (ECall _mm_sub_ps [vv 3; oo 3])]].

(* short_vec_sse_float_16.hpp:163-170 *)
Definition sse_float_16_add_eq : body :=
  [SSet (LVal (EInt 0)) (ECall _mm_add_ps [vv 0; oo 0]);
   SSet (LVal (EInt 1)) (ECall _mm_add_ps [vv 1; oo 1]);
   SSet (LVal (EInt 2)) (ECall _mm_add_ps [vv 2; oo 2]);
   SSet (LVal (EInt 3)) (ECall _mm_add_ps [vv 3; oo 3])].

(* short_vec_sse_float_16.hpp:172-180 *)
Definition sse_float_16_add : body :=
  [SRetVec [(ECall _mm_add_ps [vv 0; oo 0]); (ECall _mm_add_ps [vv 1; oo 1]); (ECall _mm_add_ps [vv
    2; oo 2]); (ECall _mm_add_ps [vv 3; oo 3])]].

(* short_vec_sse_float_16.hpp:182-189 *)
Definition sse_float_16_mul_eq : body :=
  [SSet (LVal (EInt 0)) (ECall _mm_mul_ps [vv 0; oo 0]);
   SSet (LVal (EInt 1)) (ECall _mm_mul_ps [vv 1; oo 1]);
   SSet (LVal (EInt 2)) (ECall _mm_mul_ps [vv 2; oo 2]);
   SSet (LVal (EInt 3)) (ECall _mm_mul_ps [vv 3; oo 3])].

(* short_vec_sse_float_16.hpp:191-199 *)
Definition sse_float_16_mul : body :=
  [SRetVec [(ECall _mm_mul_ps [vv 0; oo 0]); (ECall _mm_mul_ps [vv 1; oo 1]); (ECall _mm_mul_ps [vv
    2; oo 2]); (ECall _mm_mul_ps [vv 3; oo 3])]].

(* short_vec_sse_float_16.hpp:201-208 *)
Definition sse_float_16_div_eq : body :=
  [SSet (LVal (EInt 0)) (ECall _mm_div_ps [vv 0; oo 0]);
   SSet (LVal (EInt 1)) (ECall _mm_div_ps [vv 1; oo 1]);
   SSet (LVal (EInt 2)) (ECall _mm_div_ps [vv 2; oo 2]);
   SSet (LVal (EInt 3)) (ECall _mm_div_ps [vv 3; oo 3])].

(* short_vec_sse_float_16.hpp:213-221 *)
Definition sse_float_16_div : body :=
  [SRetVec [(ECall _mm_div_ps [vv 0; oo 0]); (ECall _mm_div_ps [vv 1; oo 1]); (ECall _mm_div_ps [vv
    2; oo 2]); (ECall _mm_div_ps [vv 3; oo 3])]].

(* short_vec_sse_float_16.hpp:226-234 *)
Definition sse_float_16_lt : body :=
  [SRetVec [(ECall _mm_cmplt_ps [vv 0; oo 0]); (ECall _mm_cmplt_ps [vv 1; oo 1]); (ECall
    _mm_cmplt_ps [vv 2; oo 2]); (ECall _mm_cmplt_ps [vv 3; oo 3])]].

(* short_vec_sse_float_16.hpp:236-244 *)
Definition sse_float_16_le : body :=
  [SRetVec [(ECall _mm_cmple_ps [vv 0; oo 0]); (ECall _mm_cmple_ps [vv 1; oo 1]); (ECall
    _mm_cmple_ps [vv 2; oo 2]); (ECall _mm_cmple_ps [vv 3; oo 3])]].

(* short_vec_sse_float_16.hpp:246-254 *)
Definition sse_float_16_eq : body :=
  [SRetVec [(ECall _mm_cmpeq_ps [vv 0; oo 0]); (ECall _mm_cmpeq_ps [vv 1; oo 1]); (ECall
    _mm_cmpeq_ps [vv 2; oo 2]); (ECall _mm_cmpeq_ps [vv 3; oo 3])]].

(* short_vec_sse_float_16.hpp:256-264 *)
Definition sse_float_16_gt : body :=
  [SRetVec [(ECall _mm_cmpgt_ps [vv 0; oo 0]); (ECall _mm_cmpgt_ps [vv 1; oo 1]); (ECall
    _mm_cmpgt_ps [vv 2; oo 2]); (ECall _mm_cmpgt_ps [vv 3; oo 3])]].

(* short_vec_sse_float_16.hpp:266-274 *)
Definition sse_float_16_ge : body :=
  [SRetVec [(ECall _mm_cmpge_ps [vv 0; oo 0]); (ECall _mm_cmpge_ps [vv 1; oo 1]); (ECall
    _mm_cmpge_ps [vv 2; oo 2]); (ECall _mm_cmpge_ps [vv 3; oo 3])]].

(* short_vec_sse_float_16.hpp:276-284 *)
Definition sse_float_16_sqrt : body :=
  [SRetVec [(ECall _mm_sqrt_ps [vv 0]); (ECall _mm_sqrt_ps [vv 1]); (ECall _mm_sqrt_ps [vv 2]);
    (ECall _mm_sqrt_ps [vv 3])]].

(* short_vec_sse_float_16.hpp:286-293 *)
Definition sse_float_16_load : body :=
  [SSet (LVal (EInt 0)) (ECall _mm_loadu_ps [dat 0]);
   SSet (LVal (EInt 1)) (ECall _mm_loadu_ps [dat 4]);
   SSet (LVal (EInt 2)) (ECall _mm_loadu_ps [dat 8]);
   SSet (LVal (EInt 3)) (ECall _mm_loadu_ps [dat 12])].

(* short_vec_sse_float_16.hpp:295-303 *)
Definition sse_float_16_load_aligned : body :=
  [SAssertAligned EData 16;
   SSet (LVal (EInt 0)) (ECall _mm_load_ps [dat 0]);
   SSet (LVal (EInt 1)) (ECall _mm_load_ps [dat 4]);
   SSet (LVal (EInt 2)) (ECall _mm_load_ps [dat 8]);
   SSet (LVal (EInt 3)) (ECall _mm_load_ps [dat 12])].

(* short_vec_sse_float_16.hpp:305-312 *)
Definition sse_float_16_store : body :=
  [SDo (ECall _mm_storeu_ps [dat 0; vv 0]);
   SDo (ECall _mm_storeu_ps [dat 4; vv 1]);
   SDo (ECall _mm_storeu_ps [dat 8; vv 2]);
   SDo (ECall _mm_storeu_ps [dat 12; vv 3])].

(* short_vec_sse_float_16.hpp:314-322 *)
Definition sse_float_16_store_aligned : body :=
  [SAssertAligned EData 16;
   SDo (ECall _mm_store_ps [dat 0; vv 0]);
   SDo (ECall _mm_store_ps [dat 4; vv 1]);
   SDo (ECall _mm_store_ps [dat 8; vv 2]);
   SDo (ECall _mm_store_ps [dat 12; vv 3])].

(* short_vec_sse_float_16.hpp:324-332 *)
Definition sse_float_16_store_nt : body :=
  [SAssertAligned EData 16;
   SDo (ECall _mm_stream_ps [dat 0; vv 0]);
   SDo (ECall _mm_stream_ps [dat 4; vv 1]);
   SDo (ECall _mm_stream_ps [dat 8; vv 2]);
   SDo (ECall _mm_stream_ps [dat 12; vv 3])].

(* short_vec_sse_float_16.hpp:394-426 *)
Definition sse_float_16_gather : body :=
  [SDecl "f1" 4;
   SDecl "f2" 4;
   SDecl "f3" 4;
   SDecl "f4" 4;
   SSet (LVar "f1") (ECall _mm_load_ss [pto 0]);
   SSet (LVar "f2") (ECall _mm_load_ss [pto 2]);
   SSet (LVar "f1") (ECall _mm_unpacklo_ps [(EVar "f1"); (EVar "f2")]);
   SSet (LVar "f3") (ECall _mm_load_ss [pto 1]);
   SSet (LVar "f4") (ECall _mm_load_ss [pto 3]);
   SSet (LVar "f3") (ECall _mm_unpacklo_ps [(EVar "f3"); (EVar "f4")]);
   SSet (LVal (EInt 0)) (ECall _mm_unpacklo_ps [(EVar "f1"); (EVar "f3")]);
   SSet (LVar "f1") (ECall _mm_load_ss [pto 4]);
   SSet (LVar "f2") (ECall _mm_load_ss [pto 6]);
   SSet (LVar "f1") (ECall _mm_unpacklo_ps [(EVar "f1"); (EVar "f2")]);
   SSet (LVar "f3") (ECall _mm_load_ss [pto 5]);
   SSet (LVar "f4") (ECall _mm_load_ss [pto 7]);
   SSet (LVar "f3") (ECall _mm_unpacklo_ps [(EVar "f3"); (EVar "f4")]);
   SSet (LVal (EInt 1)) (ECall _mm_unpacklo_ps [(EVar "f1"); (EVar "f3")]);
   SSet (LVar "f1") (ECall _mm_load_ss [pto 8]);
   SSet (LVar "f2") (ECall _mm_load_ss [pto 10]);
   SSet (LVar "f1") (ECall _mm_unpacklo_ps [(EVar "f1"); (EVar "f2")]);
   SSet (LVar "f3") (ECall _mm_load_ss [pto 9]);
   SSet (LVar "f4") (ECall _mm_load_ss [pto 11]);
   SSet (LVar "f3") (ECall _mm_unpacklo_ps [(EVar "f3"); (EVar "f4")]);
   SSet (LVal (EInt 2)) (ECall _mm_unpacklo_ps [(EVar "f1"); (EVar "f3")]);
   SSet (LVar "f1") (ECall _mm_load_ss [pto 12]);
   SSet (LVar "f2") (ECall _mm_load_ss [pto 14]);
   SSet (LVar "f1") (ECall _mm_unpacklo_ps [(EVar "f1"); (EVar "f2")]);
   SSet (LVar "f3") (ECall _mm_load_ss [pto 13]);
   SSet (LVar "f4") (ECall _mm_load_ss [pto 15]);
   SSet (LVar "f3") (ECall _mm_unpacklo_ps [(EVar "f3"); (EVar "f4")]);
   SSet (LVal (EInt 3)) (ECall _mm_unpacklo_ps [(EVar "f1"); (EVar "f3")])].

(* short_vec_sse_float_16.hpp:428-463 *)
Definition sse_float_16_scatter : body :=
  [SSet (LVar "tmp") (vv 0);
   SDo (ECall _mm_store_ss [pto 0; (EVar "tmp")]);
   SSet (LVar "tmp") (ECall _mm_shuffle_ps [(EVar "tmp"); (EVar "tmp"); (ECall _MM_SHUFFLE [EInt 0;
    EInt 3; EInt 2; EInt 1])]);
   SDo (ECall _mm_store_ss [pto 1; (EVar "tmp")]);
   SSet (LVar "tmp") (ECall _mm_shuffle_ps [(EVar "tmp"); (EVar "tmp"); (ECall _MM_SHUFFLE [EInt 0;
    EInt 3; EInt 2; EInt 1])]);
   SDo (ECall _mm_store_ss [pto 2; (EVar "tmp")]);
   SSet (LVar "tmp") (ECall _mm_shuffle_ps [(EVar "tmp"); (EVar "tmp"); (ECall _MM_SHUFFLE [EInt 0;
    EInt 3; EInt 2; EInt 1])]);
   SDo (ECall _mm_store_ss [pto 3; (EVar "tmp")]);
   SSet (LVar "tmp") (vv 1);
   SDo (ECall _mm_store_ss [pto 4; (EVar "tmp")]);
   SSet (LVar "tmp") (ECall _mm_shuffle_ps [(EVar "tmp"); (EVar "tmp"); (ECall _MM_SHUFFLE [EInt 0;
    EInt 3; EInt 2; EInt 1])]);
   SDo (ECall _mm_store_ss [pto 5; (EVar "tmp")]);
   SSet (LVar "tmp") (ECall _mm_shuffle_ps [(EVar "tmp"); (EVar "tmp"); (ECall _MM_SHUFFLE [EInt 0;
    EInt 3; EInt 2; EInt 1])]);
   SDo (ECall _mm_store_ss [pto 6; (EVar "tmp")]);
   SSet (LVar "tmp") (ECall _mm_shuffle_ps [(EVar "tmp"); (EVar "tmp"); (ECall _MM_SHUFFLE [EInt 0;
    EInt 3; EInt 2; EInt 1])]);
   SDo (ECall _mm_store_ss [pto 7; (EVar "tmp")]);
   SSet (LVar "tmp") (vv 2);
   SDo (ECall _mm_store_ss [pto 8; (EVar "tmp")]);
   SSet (LVar "tmp") (ECall _mm_shuffle_ps [(EVar "tmp"); (EVar "tmp"); (ECall _MM_SHUFFLE [EInt 0;
    EInt 3; EInt 2; EInt 1])]);
   SDo (ECall _mm_store_ss [pto 9; (EVar "tmp")]);
   SSet (LVar "tmp") (ECall _mm_shuffle_ps [(EVar "tmp"); (EVar "tmp"); (ECall _MM_SHUFFLE [EInt 0;
    EInt 3; EInt 2; EInt 1])]);
   SDo (ECall _mm_store_ss [pto 10; (EVar "tmp")]);
   SSet (LVar "tmp") (ECall _mm_shuffle_ps [(EVar "tmp"); (EVar "tmp"); (ECall _MM_SHUFFLE [EInt 0;
    EInt 3; EInt 2; EInt 1])]);
   SDo (ECall _mm_store_ss [pto 11; (EVar "tmp")]);
   SSet (LVar "tmp") (vv 3);
   SDo (ECall _mm_store_ss [pto 12; (EVar "tmp")]);
   SSet (LVar "tmp") (ECall _mm_shuffle_ps [(EVar "tmp"); (EVar "tmp"); (ECall _MM_SHUFFLE [EInt 0;
    EInt 3; EInt 2; EInt 1])]);
   SDo (ECall _mm_store_ss [pto 13; (EVar "tmp")]);
   SSet (LVar "tmp") (ECall _mm_shuffle_ps [(EVar "tmp"); (EVar "tmp"); (ECall _MM_SHUFFLE [EInt 0;
    EInt 3; EInt 2; EInt 1])]);
   SDo (ECall _mm_store_ss [pto 14; (EVar "tmp")]);
   SSet (LVar "tmp") (ECall _mm_shuffle_ps [(EVar "tmp"); (EVar "tmp"); (ECall _MM_SHUFFLE [EInt 0;
    EInt 3; EInt 2; EInt 1])]);
   SDo (ECall _mm_store_ss [pto 15; (EVar "tmp")])].

(* short_vec_sse_float_16.hpp:466-488 *)
Definition sse_float_16_blend : body :=
  [SSet (LVal (EInt 0)) (ECall _mm_or_ps [(ECall _mm_and_ps [mm 0; oo 0]); (ECall _mm_andnot_ps [mm
    0; vv 0])]);
   SSet (LVal (EInt 1)) (ECall _mm_or_ps [(ECall _mm_and_ps [mm 1; oo 1]); (ECall _mm_andnot_ps [mm
    1; vv 1])]);
   SSet (LVal (EInt 2)) (ECall _mm_or_ps [(ECall _mm_and_ps [mm 2; oo 2]); (ECall _mm_andnot_ps [mm
    2; vv 2])]);
   SSet (LVal (EInt 3)) (ECall _mm_or_ps [(ECall _mm_and_ps [mm 3; oo 3]); (ECall _mm_andnot_ps [mm
    3; vv 3])])].

(* short_vec_sse_float_16.hpp:520-525 *)
Definition sse_float_16_ctor_sqrt : body :=
  [SSet (LVal (EInt 0)) (ECall _mm_sqrt_ps [oo 0]);
   SSet (LVal (EInt 1)) (ECall _mm_sqrt_ps [oo 1]);
   SSet (LVal (EInt 2)) (ECall _mm_sqrt_ps [oo 2]);
   SSet (LVal (EInt 3)) (ECall _mm_sqrt_ps [oo 3])].

(* short_vec_sse_float_16.hpp:528-534 *)
Definition sse_float_16_div_eq_sqrt : body :=
  [SSet (LVal (EInt 0)) (ECall _mm_mul_ps [vv 0; (ECall _mm_rsqrt_ps [oo 0])]);
   SSet (LVal (EInt 1)) (ECall _mm_mul_ps [vv 1; (ECall _mm_rsqrt_ps [oo 1])]);
   SSet (LVal (EInt 2)) (ECall _mm_mul_ps [vv 2; (ECall _mm_rsqrt_ps [oo 2])]);
   SSet (LVal (EInt 3)) (ECall _mm_mul_ps [vv 3; (ECall _mm_rsqrt_ps [oo 3])])].

(* short_vec_sse_float_16.hpp:537-544 *)
Definition sse_float_16_div_sqrt : body :=
  [SRetVec [(ECall _mm_mul_ps [vv 0; (ECall _mm_rsqrt_ps [oo 0])]); (ECall _mm_mul_ps [vv 1; (ECall
    _mm_rsqrt_ps [oo 1])]); (ECall _mm_mul_ps [vv 2; (ECall _mm_rsqrt_ps [oo 2])]); (ECall
    _mm_mul_ps [vv 3; (ECall _mm_rsqrt_ps [oo 3])])]].

(* short_vec_sse_float_16.hpp:556-567 *)
Definition sse_float_16_print : list item :=
  [PStr "["; PVal (EIdx (vv 0) (EInt 0)); PStr ", "; PVal (EIdx (vv 0) (EInt 1)); PStr ", "; PVal
   (EIdx (vv 0) (EInt 2)); PStr ", "; PVal (EIdx (vv 0) (EInt 3)); PStr ", "; PVal (EIdx (vv 1)
   (EInt 0)); PStr ", "; PVal (EIdx (vv 1) (EInt 1)); PStr ", "; PVal (EIdx (vv 1) (EInt 2)); PStr
   ", "; PVal (EIdx (vv 1) (EInt 3)); PStr ", "; PVal (EIdx (vv 2) (EInt 0)); PStr ", "; PVal (EIdx
   (vv 2) (EInt 1)); PStr ", "; PVal (EIdx (vv 2) (EInt 2)); PStr ", "; PVal (EIdx (vv 2) (EInt
   3)); PStr ", "; PVal (EIdx (vv 3) (EInt 0)); PStr ", "; PVal (EIdx (vv 3) (EInt 1)); PStr ", ";
   PVal (EIdx (vv 3) (EInt 2)); PStr ", "; PVal (EIdx (vv 3) (EInt 3)); PStr "]"].

(* short_vec_sse_float_16.hpp *)
Definition cls_sse_float_16 : cls :=
  mkCls "sse_float_16" KF32 16 4 4 16 MVec
    (fun m => match m with
     | MCtorScalar => Some sse_float_16_ctor_scalar
     | MCtorPtr => Some sse_float_16_ctor_ptr
     | MCtorRegs => Some sse_float_16_ctor_regs
     | MCtorSqrt => Some sse_float_16_ctor_sqrt
     | MCtorList => Some sse_float_16_ctor_list
     | MAny => Some sse_float_16_any
     | MIndex => Some sse_float_16_index
     | MSubEq => Some sse_float_16_sub_eq
     | MSub => Some sse_float_16_sub
     | MAddEq => Some sse_float_16_add_eq
     | MAdd => Some sse_float_16_add
     | MMulEq => Some sse_float_16_mul_eq
     | MMul => Some sse_float_16_mul
     | MDivEq => Some sse_float_16_div_eq
     | MDiv => Some sse_float_16_div
     | MDivEqSqrt => Some sse_float_16_div_eq_sqrt
     | MDivSqrt => Some sse_float_16_div_sqrt
     | MLt => Some sse_float_16_lt
     | MLe => Some sse_float_16_le
     | MEq => Some sse_float_16_eq
     | MGt => Some sse_float_16_gt
     | MGe => Some sse_float_16_ge
     | MSqrt => Some sse_float_16_sqrt
     | MLoad => Some sse_float_16_load
     | MLoadAligned => Some sse_float_16_load_aligned
     | MStore => Some sse_float_16_store
     | MStoreAligned => Some sse_float_16_store_aligned
     | MStoreNt => Some sse_float_16_store_nt
     | MGather => Some sse_float_16_gather
     | MScatter => Some sse_float_16_scatter
     | MBlend => Some sse_float_16_blend
     end)
    sse_float_16_ctor_regs sse_float_16_print.

(* short_vec_sse_float_16.hpp:106-123 with __SSE4_1__ *)
Definition sse_float_16_41_any : body :=
  [SSet (LVar "buf1") (ECall _mm_or_ps [(ECall _mm_or_ps [vv 0; vv 1]); (ECall _mm_or_ps [vv 2; vv
    3])]);
   SRet (EBool (ECop (ORel REq) (EInt 0) (ECall _mm_testz_si128 [(ECall _mm_castps_si128 [(EVar
    "buf1")]); (ECall _mm_castps_si128 [(EVar "buf1")])])))].

(* short_vec_sse_float_16.hpp:335-354 with __SSE4_1__ *)
Definition sse_float_16_41_gather : body :=
  [SSet (LVal (EInt 0)) (ECall _mm_load_ss [pto 0]);
   SSet (LVal (EInt 0)) (ECall SHORTVEC_INSERT_PS [vv 0; EPtr; off 1; (ECall _MM_MK_INSERTPS_NDX
    [EInt 0; EInt 1; EInt 0])]);
   SSet (LVal (EInt 0)) (ECall SHORTVEC_INSERT_PS [vv 0; EPtr; off 2; (ECall _MM_MK_INSERTPS_NDX
    [EInt 0; EInt 2; EInt 0])]);
   SSet (LVal (EInt 0)) (ECall SHORTVEC_INSERT_PS [vv 0; EPtr; off 3; (ECall _MM_MK_INSERTPS_NDX
    [EInt 0; EInt 3; EInt 0])]);
   SSet (LVal (EInt 1)) (ECall _mm_load_ss [pto 4]);
   SSet (LVal (EInt 1)) (ECall SHORTVEC_INSERT_PS [vv 1; EPtr; off 5; (ECall _MM_MK_INSERTPS_NDX
    [EInt 0; EInt 1; EInt 0])]);
   SSet (LVal (EInt 1)) (ECall SHORTVEC_INSERT_PS [vv 1; EPtr; off 6; (ECall _MM_MK_INSERTPS_NDX
    [EInt 0; EInt 2; EInt 0])]);
   SSet (LVal (EInt 1)) (ECall SHORTVEC_INSERT_PS [vv 1; EPtr; off 7; (ECall _MM_MK_INSERTPS_NDX
    [EInt 0; EInt 3; EInt 0])]);
   SSet (LVal (EInt 2)) (ECall _mm_load_ss [pto 8]);
   SSet (LVal (EInt 2)) (ECall SHORTVEC_INSERT_PS [vv 2; EPtr; off 9; (ECall _MM_MK_INSERTPS_NDX
    [EInt 0; EInt 1; EInt 0])]);
   SSet (LVal (EInt 2)) (ECall SHORTVEC_INSERT_PS [vv 2; EPtr; off 10; (ECall _MM_MK_INSERTPS_NDX
    [EInt 0; EInt 2; EInt 0])]);
   SSet (LVal (EInt 2)) (ECall SHORTVEC_INSERT_PS [vv 2; EPtr; off 11; (ECall _MM_MK_INSERTPS_NDX
    [EInt 0; EInt 3; EInt 0])]);
   SSet (LVal (EInt 3)) (ECall _mm_load_ss [pto 12]);
   SSet (LVal (EInt 3)) (ECall SHORTVEC_INSERT_PS [vv 3; EPtr; off 13; (ECall _MM_MK_INSERTPS_NDX
    [EInt 0; EInt 1; EInt 0])]);
   SSet (LVal (EInt 3)) (ECall SHORTVEC_INSERT_PS [vv 3; EPtr; off 14; (ECall _MM_MK_INSERTPS_NDX
    [EInt 0; EInt 2; EInt 0])]);
   SSet (LVal (EInt 3)) (ECall SHORTVEC_INSERT_PS [vv 3; EPtr; off 15; (ECall _MM_MK_INSERTPS_NDX
    [EInt 0; EInt 3; EInt 0])])].

(* short_vec_sse_float_16.hpp:356-392 with __SSE4_1__ *)
Definition sse_float_16_41_scatter : body :=
  [SSet (LVar "r1") (ECall _mm_extract_ps [vv 0; EInt 0]);
   SSet (LVar "r2") (ECall _mm_extract_ps [vv 0; EInt 1]);
   SSet (LVar "r3") (ECall _mm_extract_ps [vv 0; EInt 2]);
   SSet (LVar "r4") (ECall _mm_extract_ps [vv 0; EInt 3]);
   SSet (LMem (pto 0)) (EVar "r1");
   SSet (LMem (pto 1)) (EVar "r2");
   SSet (LMem (pto 2)) (EVar "r3");
   SSet (LMem (pto 3)) (EVar "r4");
   SSet (LVar "r1") (ECall _mm_extract_ps [vv 1; EInt 0]);
   SSet (LVar "r2") (ECall _mm_extract_ps [vv 1; EInt 1]);
   SSet (LVar "r3") (ECall _mm_extract_ps [vv 1; EInt 2]);
   SSet (LVar "r4") (ECall _mm_extract_ps [vv 1; EInt 3]);
   SSet (LMem (pto 4)) (EVar "r1");
   SSet (LMem (pto 5)) (EVar "r2");
   SSet (LMem (pto 6)) (EVar "r3");
   SSet (LMem (pto 7)) (EVar "r4");
   SSet (LVar "r1") (ECall _mm_extract_ps [vv 2; EInt 0]);
   SSet (LVar "r2") (ECall _mm_extract_ps [vv 2; EInt 1]);
   SSet (LVar "r3") (ECall _mm_extract_ps [vv 2; EInt 2]);
   SSet (LVar "r4") (ECall _mm_extract_ps [vv 2; EInt 3]);
   SSet (LMem (pto 8)) (EVar "r1");
   SSet (LMem (pto 9)) (EVar "r2");
   SSet (LMem (pto 10)) (EVar "r3");
   SSet (LMem (pto 11)) (EVar "r4");
   SSet (LVar "r1") (ECall _mm_extract_ps [vv 3; EInt 0]);
   SSet (LVar "r2") (ECall _mm_extract_ps [vv 3; EInt 1]);
   SSet (LVar "r3") (ECall _mm_extract_ps [vv 3; EInt 2]);
   SSet (LVar "r4") (ECall _mm_extract_ps [vv 3; EInt 3]);
   SSet (LMem (pto 12)) (EVar "r1");
   SSet (LMem (pto 13)) (EVar "r2");
   SSet (LMem (pto 14)) (EVar "r3");
   SSet (LMem (pto 15)) (EVar "r4")].

(* short_vec_sse_float_16.hpp:466-488 with __SSE4_1__ *)
Definition sse_float_16_41_blend : body :=
  [SSet (LVal (EInt 0)) (ECall _mm_blendv_ps [vv 0; oo 0; mm 0]);
   SSet (LVal (EInt 1)) (ECall _mm_blendv_ps [vv 1; oo 1; mm 1]);
   SSet (LVal (EInt 2)) (ECall _mm_blendv_ps [vv 2; oo 2; mm 2]);
   SSet (LVal (EInt 3)) (ECall _mm_blendv_ps [vv 3; oo 3; mm 3])].

(* short_vec_sse_float_16.hpp with __SSE4_1__ *)
Definition cls_sse_float_16_41 : cls :=
  mkCls "sse_float_16_41" KF32 16 4 4 16 MVec
    (fun m => match m with
     | MCtorScalar => Some sse_float_16_ctor_scalar
     | MCtorPtr => Some sse_float_16_ctor_ptr
     | MCtorRegs => Some sse_float_16_ctor_regs
     | MCtorSqrt => Some sse_float_16_ctor_sqrt
     | MCtorList => Some sse_float_16_ctor_list
     | MAny => Some sse_float_16_41_any
     | MIndex => Some sse_float_16_index
     | MSubEq => Some sse_float_16_sub_eq
     | MSub => Some sse_float_16_sub
     | MAddEq => Some sse_float_16_add_eq
     | MAdd => Some sse_float_16_add
     | MMulEq => Some sse_float_16_mul_eq
     | MMul => Some sse_float_16_mul
     | MDivEq => Some sse_float_16_div_eq
     | MDiv => Some sse_float_16_div
     | MDivEqSqrt => Some sse_float_16_div_eq_sqrt
     | MDivSqrt => Some sse_float_16_div_sqrt
     | MLt => Some sse_float_16_lt
     | MLe => Some sse_float_16_le
     | MEq => Some sse_float_16_eq
     | MGt => Some sse_float_16_gt
     | MGe => Some sse_float_16_ge
     | MSqrt => Some sse_float_16_sqrt
     | MLoad => Some sse_float_16_load
     | MLoadAligned => Some sse_float_16_load_aligned
     | MStore => Some sse_float_16_store
     | MStoreAligned => Some sse_float_16_store_aligned
     | MStoreNt => Some sse_float_16_store_nt
     | MGather => Some sse_float_16_41_gather
     | MScatter => Some sse_float_16_41_scatter
     | MBlend => Some sse_float_16_41_blend
     end)
    sse_float_16_ctor_regs sse_float_16_print.

(* short_vec_sse_float_32.hpp:68-78 *)
Definition sse_float_32_ctor_scalar : body :=
  [SSet (LVal (EInt 0)) (ECall _mm_set1_ps [EArg]);
   SSet (LVal (EInt 1)) (ECall _mm_set1_ps [EArg]);
   SSet (LVal (EInt 2)) (ECall _mm_set1_ps [EArg]);
   SSet (LVal (EInt 3)) (ECall _mm_set1_ps [EArg]);
   SSet (LVal (EInt 4)) (ECall _mm_set1_ps [EArg]);
   SSet (LVal (EInt 5)) (ECall _mm_set1_ps [EArg]);
   SSet (LVal (EInt 6)) (ECall _mm_set1_ps [EArg]);
   SSet (LVal (EInt 7)) (ECall _mm_set1_ps [EArg])].

(* short_vec_sse_float_32.hpp:80-84 *)
Definition sse_float_32_ctor_ptr : body :=
  [SSet (LVal (EInt 0)) (ECall _mm_loadu_ps [dat 0]);
   SSet (LVal (EInt 1)) (ECall _mm_loadu_ps [dat 4]);
   SSet (LVal (EInt 2)) (ECall _mm_loadu_ps [dat 8]);
   SSet (LVal (EInt 3)) (ECall _mm_loadu_ps [dat 12]);
   SSet (LVal (EInt 4)) (ECall _mm_loadu_ps [dat 16]);
   SSet (LVal (EInt 5)) (ECall _mm_loadu_ps [dat 20]);
   SSet (LVal (EInt 6)) (ECall _mm_loadu_ps [dat 24]);
   SSet (LVal (EInt 7)) (ECall _mm_loadu_ps [dat 28])].

(* short_vec_sse_float_32.hpp:86-104 *)
Definition sse_float_32_ctor_regs : body :=
  [SSet (LVal (EInt 0)) (EPar 0);
   SSet (LVal (EInt 1)) (EPar 1);
   SSet (LVal (EInt 2)) (EPar 2);
   SSet (LVal (EInt 3)) (EPar 3);
   SSet (LVal (EInt 4)) (EPar 4);
   SSet (LVal (EInt 5)) (EPar 5);
   SSet (LVal (EInt 6)) (EPar 6);
   SSet (LVal (EInt 7)) (EPar 7)].

(* short_vec_sse_float_32.hpp:107-112 *)
Definition sse_float_32_ctor_list : body :=
  [SSet (LVal (EInt 0)) (ECall _mm_loadu_ps [dat 0]);
   SSet (LVal (EInt 1)) (ECall _mm_loadu_ps [dat 4]);
   SSet (LVal (EInt 2)) (ECall _mm_loadu_ps [dat 8]);
   SSet (LVal (EInt 3)) (ECall _mm_loadu_ps [dat 12]);
   SSet (LVal (EInt 4)) (ECall _mm_loadu_ps [dat 16]);
   SSet (LVal (EInt 5)) (ECall _mm_loadu_ps [dat 20]);
   SSet (LVal (EInt 6)) (ECall _mm_loadu_ps [dat 24]);
   SSet (LVal (EInt 7)) (ECall _mm_loadu_ps [dat 28])].

(* short_vec_sse_float_32.hpp:118-137 *)
Definition sse_float_32_any : body :=
  [SSet (LVar "buf1") (ECall _mm_or_ps [(ECall _mm_or_ps [(ECall _mm_or_ps [vv 0; vv 1]); (ECall
    _mm_or_ps [vv 2; vv 3])]); (ECall _mm_or_ps [(ECall _mm_or_ps [vv 4; vv 5]); (ECall _mm_or_ps
    [vv 6; vv 7])])]);
   SSet (LVar "buf2") (ECall _mm_shuffle_ps [(EVar "buf1"); (EVar "buf1"); (ECop OBitOr (ECop OShl
    (EInt 3) (EInt 2)) (ECop OShl (EInt 2) (EInt 0)))]);
   SSet (LVar "buf1") (ECall _mm_or_ps [(EVar "buf1"); (EVar "buf2")]);
   SSet (LVar "buf2") (ECall _mm_shuffle_ps [(EVar "buf1"); (EVar "buf1"); (ECop OShl (EInt 1)
    (EInt 0))]);
   SRet (EBool (ECop OLor (ECall _mm_cvtss_f32 [(EVar "buf1")]) (ECall _mm_cvtss_f32 [(EVar
    "buf2")])))].

(* short_vec_sse_float_32.hpp:139-156 *)
Definition sse_float_32_index : body :=
  [SSet (LVar "buf") (EVal (ECop OShr (EVar "i") (EInt 2)));
   SUpd OBitAnd (LVar "i") (EInt 3);
   SIf (ECop (ORel REq) (EVar "i") (EInt 3)) [SRet (ECall _mm_cvtss_f32 [(ECall _mm_shuffle_ps
    [(EVar "buf"); (EVar "buf"); EInt 3])])] [];
   SIf (ECop (ORel REq) (EVar "i") (EInt 2)) [SRet (ECall _mm_cvtss_f32 [(ECall _mm_shuffle_ps
    [(EVar "buf"); (EVar "buf"); EInt 2])])] [];
   SIf (ECop (ORel REq) (EVar "i") (EInt 1)) [SRet (ECall _mm_cvtss_f32 [(ECall _mm_shuffle_ps
    [(EVar "buf"); (EVar "buf"); EInt 1])])] [];
   SRet (ECall _mm_cvtss_f32 [(EVar "buf")])].

(* short_vec_sse_float_32.hpp:158-169 *)
Definition sse_float_32_sub_eq : body :=
  [SSet (LVal (EInt 0)) (ECall _mm_sub_ps [vv 0; oo 0]);
   SSet (LVal (EInt 1)) (ECall _mm_sub_ps [vv 1; oo 1]);
   SSet (LVal (EInt 2)) (ECall _mm_sub_ps [vv 2; oo 2]);
   SSet (LVal (EInt 3)) (ECall _mm_sub_ps [vv 3; oo 3]);
   SSet (LVal (EInt 4)) (ECall _mm_sub_ps [vv 4; oo 4]);
   SSet (LVal (EInt 5)) (ECall _mm_sub_ps [vv 5; oo 5]);
   SSet (LVal (EInt 6)) (ECall _mm_sub_ps [vv 6; oo 6]);
   SSet (LVal (EInt 7)) (ECall _mm_sub_ps [vv 7; oo 7])].

(* short_vec_sse_float_32.hpp:171-183 *)
Definition sse_float_32_sub : body :=
  [SRetVec [(ECall _mm_sub_ps [vv 0; oo 0]); (ECall _mm_sub_ps [vv 1; oo 1]); (ECall _mm_sub_ps [vv
    2; oo 2]); (ECall _mm_sub_ps [vv 3; oo 3]); (ECall _mm_sub_ps [vv 4; oo 4]); (ECall _mm_sub_ps
    [vv 5; oo 5]); (ECall _mm_sub_ps [vv 6; oo 6]); (ECall _mm_sub_ps [vv 7; oo 7])]].

(* short_vec_sse_float_32.hpp:185-196 *)
Definition sse_float_32_add_eq : body :=
  [SSet (LVal (EInt 0)) (ECall _mm_add_ps [vv 0; oo 0]);
   SSet (LVal (EInt 1)) (ECall _mm_add_ps [vv 1; oo 1]);
   SSet (LVal (EInt 2)) (ECall _mm_add_ps [vv 2; oo 2]);
   SSet (LVal (EInt 3)) (ECall _mm_add_ps [vv 3; oo 3]);
   SSet (LVal (EInt 4)) (ECall _mm_add_ps [vv 4; oo 4]);
   SSet (LVal (EInt 5)) (ECall _mm_add_ps [vv 5; oo 5]);
   SSet (LVal (EInt 6)) (ECall _mm_add_ps [vv 6; oo 6]);
   SSet (LVal (EInt 7)) (ECall _mm_add_ps [vv 7; oo 7])].

(* short_vec_sse_float_32.hpp:198-210 *)
Definition sse_float_32_add : body :=
  [SRetVec [(ECall _mm_add_ps [vv 0; oo 0]); (ECall _mm_add_ps [vv 1; oo 1]); (ECall _mm_add_ps [vv
    2; oo 2]); (ECall _mm_add_ps [vv 3; oo 3]); (ECall _mm_add_ps [vv 4; oo 4]); (ECall _mm_add_ps
    [vv 5; oo 5]); (ECall _mm_add_ps [vv 6; oo 6]); (ECall _mm_add_ps [vv 7; oo 7])]].

(* short_vec_sse_float_32.hpp:212-223 *)
Definition sse_float_32_mul_eq : body :=
  [SSet (LVal (EInt 0)) (ECall _mm_mul_ps [vv 0; oo 0]);
   SSet (LVal (EInt 1)) (ECall _mm_mul_ps [vv 1; oo 1]);
   SSet (LVal (EInt 2)) (ECall _mm_mul_ps [vv 2; oo 2]);
   SSet (LVal (EInt 3)) (ECall _mm_mul_ps [vv 3; oo 3]);
   SSet (LVal (EInt 4)) (ECall _mm_mul_ps [vv 4; oo 4]);
   SSet (LVal (EInt 5)) (ECall _mm_mul_ps [vv 5; oo 5]);
   SSet (LVal (EInt 6)) (ECall _mm_mul_ps [vv 6; oo 6]);
   SSet (LVal (EInt 7)) (ECall _mm_mul_ps [vv 7; oo 7])].

(* short_vec_sse_float_32.hpp:225-237 *)
Definition sse_float_32_mul : body :=
  [SRetVec [(ECall _mm_mul_ps [vv 0; oo 0]); (ECall _mm_mul_ps [vv 1; oo 1]); (ECall _mm_mul_ps [vv
    2; oo 2]); (ECall _mm_mul_ps [vv 3; oo 3]); (ECall _mm_mul_ps [vv 4; oo 4]); (ECall _mm_mul_ps
    [vv 5; oo 5]); (ECall _mm_mul_ps [vv 6; oo 6]); (ECall _mm_mul_ps [vv 7; oo 7])]].

(* short_vec_sse_float_32.hpp:239-250 *)
Definition sse_float_32_div_eq : body :=
  [SSet (LVal (EInt 0)) (ECall _mm_div_ps [vv 0; oo 0]);
   SSet (LVal (EInt 1)) (ECall _mm_div_ps [vv 1; oo 1]);
   SSet (LVal (EInt 2)) (ECall _mm_div_ps [vv 2; oo 2]);
   SSet (LVal (EInt 3)) (ECall _mm_div_ps [vv 3; oo 3]);
   SSet (LVal (EInt 4)) (ECall _mm_div_ps [vv 4; oo 4]);
   SSet (LVal (EInt 5)) (ECall _mm_div_ps [vv 5; oo 5]);
   SSet (LVal (EInt 6)) (ECall _mm_div_ps [vv 6; oo 6]);
   SSet (LVal (EInt 7)) (ECall _mm_div_ps [vv 7; oo 7])].

(* short_vec_sse_float_32.hpp:255-267 *)
Definition sse_float_32_div : body :=
  [SRetVec [(ECall _mm_div_ps [vv 0; oo 0]); (ECall _mm_div_ps [vv 1; oo 1]); (ECall _mm_div_ps [vv
    2; oo 2]); (ECall _mm_div_ps [vv 3; oo 3]); (ECall _mm_div_ps [vv 4; oo 4]); (ECall _mm_div_ps
    [vv 5; oo 5]); (ECall _mm_div_ps [vv 6; oo 6]); (ECall _mm_div_ps [vv 7; oo 7])]].

(* short_vec_sse_float_32.hpp:272-284 *)
Definition sse_float_32_lt : body :=
  [SRetVec [(ECall _mm_cmplt_ps [vv 0; oo 0]); (ECall _mm_cmplt_ps [vv 1; oo 1]); (ECall
    _mm_cmplt_ps [vv 2; oo 2]); (ECall _mm_cmplt_ps [vv 3; oo 3]); (ECall _mm_cmplt_ps [vv 4; oo
    4]); (ECall _mm_cmplt_ps [vv 5; oo 5]); (ECall _mm_cmplt_ps [vv 6; oo 6]); (ECall _mm_cmplt_ps
    [vv 7; oo 7])]].

(* short_vec_sse_float_32.hpp:286-298 *)
Definition sse_float_32_le : body :=
  [SRetVec [(ECall _mm_cmple_ps [vv 0; oo 0]); (ECall _mm_cmple_ps [vv 1; oo 1]); (ECall
    _mm_cmple_ps [vv 2; oo 2]); (ECall _mm_cmple_ps [vv 3; oo 3]); (ECall _mm_cmple_ps [vv 4; oo
    4]); (ECall _mm_cmple_ps [vv 5; oo 5]); (ECall _mm_cmple_ps [vv 6; oo 6]); (ECall _mm_cmple_ps
    [vv 7; oo 7])]].

(* short_vec_sse_float_32.hpp:300-312 *)
Definition sse_float_32_eq : body :=
  [SRetVec [(ECall _mm_cmpeq_ps [vv 0; oo 0]); (ECall _mm_cmpeq_ps [vv 1; oo 1]); (ECall
    _mm_cmpeq_ps [vv 2; oo 2]); (ECall _mm_cmpeq_ps [vv 3; oo 3]); (ECall _mm_cmpeq_ps [vv 4; oo
    4]); (ECall _mm_cmpeq_ps [vv 5; oo 5]); (ECall _mm_cmpeq_ps [vv 6; oo 6]); (ECall _mm_cmpeq_ps
    [vv 7; oo 7])]].

(* short_vec_sse_float_32.hpp:314-326 *)
Definition sse_float_32_gt : body :=
  [SRetVec [(ECall _mm_cmpgt_ps [vv 0; oo 0]); (ECall _mm_cmpgt_ps [vv 1; oo 1]); (ECall
    _mm_cmpgt_ps [vv 2; oo 2]); (ECall _mm_cmpgt_ps [vv 3; oo 3]); (ECall _mm_cmpgt_ps [vv 4; oo
    4]); (ECall _mm_cmpgt_ps [vv 5; oo 5]); (ECall _mm_cmpgt_ps [vv 6; oo 6]); (ECall _mm_cmpgt_ps
    [vv 7; oo 7])]].

(* short_vec_sse_float_32.hpp:328-340 *)
Definition sse_float_32_ge : body :=
  [SRetVec [(ECall _mm_cmpge_ps [vv 0; oo 0]); (ECall _mm_cmpge_ps [vv 1; oo 1]); (ECall
    _mm_cmpge_ps [vv 2; oo 2]); (ECall _mm_cmpge_ps [vv 3; oo 3]); (ECall _mm_cmpge_ps [vv 4; oo
    4]); (ECall _mm_cmpge_ps [vv 5; oo 5]); (ECall _mm_cmpge_ps [vv 6; oo 6]); (ECall _mm_cmpge_ps
    [vv 7; oo 7])]].

(* short_vec_sse_float_32.hpp:342-354 *)
Definition sse_float_32_sqrt : body :=
  [SRetVec [(ECall _mm_sqrt_ps [vv 0]); (ECall _mm_sqrt_ps [vv 1]); (ECall _mm_sqrt_ps [vv 2]);
    (ECall _mm_sqrt_ps [vv 3]); (ECall _mm_sqrt_ps [vv 4]); (ECall _mm_sqrt_ps [vv 5]); (ECall
    _mm_sqrt_ps [vv 6]); (ECall _mm_sqrt_ps [vv 7])]].

(* short_vec_sse_float_32.hpp:356-367 *)
Definition sse_float_32_load : body :=
  [SSet (LVal (EInt 0)) (ECall _mm_loadu_ps [dat 0]);
   SSet (LVal (EInt 1)) (ECall _mm_loadu_ps [dat 4]);
   SSet (LVal (EInt 2)) (ECall _mm_loadu_ps [dat 8]);
   SSet (LVal (EInt 3)) (ECall _mm_loadu_ps [dat 12]);
   SSet (LVal (EInt 4)) (ECall _mm_loadu_ps [dat 16]);
   SSet (LVal (EInt 5)) (ECall _mm_loadu_ps [dat 20]);
   SSet (LVal (EInt 6)) (ECall _mm_loadu_ps [dat 24]);
   SSet (LVal (EInt 7)) (ECall _mm_loadu_ps [dat 28])].

(* short_vec_sse_float_32.hpp:369-381 *)
Definition sse_float_32_load_aligned : body :=
  [SAssertAligned EData 16;
   SSet (LVal (EInt 0)) (ECall _mm_load_ps [dat 0]);
   SSet (LVal (EInt 1)) (ECall _mm_load_ps [dat 4]);
   SSet (LVal (EInt 2)) (ECall _mm_load_ps [dat 8]);
   SSet (LVal (EInt 3)) (ECall _mm_load_ps [dat 12]);
   SSet (LVal (EInt 4)) (ECall _mm_load_ps [dat 16]);
   SSet (LVal (EInt 5)) (ECall _mm_load_ps [dat 20]);
   SSet (LVal (EInt 6)) (ECall _mm_load_ps [dat 24]);
   SSet (LVal (EInt 7)) (ECall _mm_load_ps [dat 28])].

(* short_vec_sse_float_32.hpp:383-394 *)
Definition sse_float_32_store : body :=
  [SDo (ECall _mm_storeu_ps [dat 0; vv 0]);
   SDo (ECall _mm_storeu_ps [dat 4; vv 1]);
   SDo (ECall _mm_storeu_ps [dat 8; vv 2]);
   SDo (ECall _mm_storeu_ps [dat 12; vv 3]);
   SDo (ECall _mm_storeu_ps [dat 16; vv 4]);
   SDo (ECall _mm_storeu_ps [dat 20; vv 5]);
   SDo (ECall _mm_storeu_ps [dat 24; vv 6]);
   SDo (ECall _mm_storeu_ps [dat 28; vv 7])].

(* short_vec_sse_float_32.hpp:396-408 *)
Definition sse_float_32_store_aligned : body :=
  [SAssertAligned EData 16;
   SDo (ECall _mm_store_ps [dat 0; vv 0]);
   SDo (ECall _mm_store_ps [dat 4; vv 1]);
   SDo (ECall _mm_store_ps [dat 8; vv 2]);
   SDo (ECall _mm_store_ps [dat 12; vv 3]);
   SDo (ECall _mm_store_ps [dat 16; vv 4]);
   SDo (ECall _mm_store_ps [dat 20; vv 5]);
   SDo (ECall _mm_store_ps [dat 24; vv 6]);
   SDo (ECall _mm_store_ps [dat 28; vv 7])].

(* short_vec_sse_float_32.hpp:410-422 *)
Definition sse_float_32_store_nt : body :=
  [SAssertAligned EData 16;
   SDo (ECall _mm_stream_ps [dat 0; vv 0]);
   SDo (ECall _mm_stream_ps [dat 4; vv 1]);
   SDo (ECall _mm_stream_ps [dat 8; vv 2]);
   SDo (ECall _mm_stream_ps [dat 12; vv 3]);
   SDo (ECall _mm_stream_ps [dat 16; vv 4]);
   SDo (ECall _mm_stream_ps [dat 20; vv 5]);
   SDo (ECall _mm_stream_ps [dat 24; vv 6]);
   SDo (ECall _mm_stream_ps [dat 28; vv 7])].

(* short_vec_sse_float_32.hpp:546-614 *)
Definition sse_float_32_gather : body :=
  [SDecl "f1" 4;
   SDecl "f2" 4;
   SDecl "f3" 4;
   SDecl "f4" 4;
   SSet (LVar "f1") (ECall _mm_load_ss [pto 0]);
   SSet (LVar "f2") (ECall _mm_load_ss [pto 2]);
   SSet (LVar "f1") (ECall _mm_unpacklo_ps [(EVar "f1"); (EVar "f2")]);
   SSet (LVar "f3") (ECall _mm_load_ss [pto 1]);
   SSet (LVar "f4") (ECall _mm_load_ss [pto 3]);
   SSet (LVar "f3") (ECall _mm_unpacklo_ps [(EVar "f3"); (EVar "f4")]);
   SSet (LVal (EInt 0)) (ECall _mm_unpacklo_ps [(EVar "f1"); (EVar "f3")]);
   SSet (LVar "f1") (ECall _mm_load_ss [pto 4]);
   SSet (LVar "f2") (ECall _mm_load_ss [pto 6]);
   SSet (LVar "f1") (ECall _mm_unpacklo_ps [(EVar "f1"); (EVar "f2")]);
   SSet (LVar "f3") (ECall _mm_load_ss [pto 5]);
   SSet (LVar "f4") (ECall _mm_load_ss [pto 7]);
   SSet (LVar "f3") (ECall _mm_unpacklo_ps [(EVar "f3"); (EVar "f4")]);
   SSet (LVal (EInt 1)) (ECall _mm_unpacklo_ps [(EVar "f1"); (EVar "f3")]);
   SSet (LVar "f1") (ECall _mm_load_ss [pto 8]);
   SSet (LVar "f2") (ECall _mm_load_ss [pto 10]);
   SSet (LVar "f1") (ECall _mm_unpacklo_ps [(EVar "f1"); (EVar "f2")]);
   SSet (LVar "f3") (ECall _mm_load_ss [pto 9]);
   SSet (LVar "f4") (ECall _mm_load_ss [pto 11]);
   SSet (LVar "f3") (ECall _mm_unpacklo_ps [(EVar "f3"); (EVar "f4")]);
   SSet (LVal (EInt 2)) (ECall _mm_unpacklo_ps [(EVar "f1"); (EVar "f3")]);
   SSet (LVar "f1") (ECall _mm_load_ss [pto 12]);
   SSet (LVar "f2") (ECall _mm_load_ss [pto 14]);
   SSet (LVar "f1") (ECall _mm_unpacklo_ps [(EVar "f1"); (EVar "f2")]);
   SSet (LVar "f3") (ECall _mm_load_ss [pto 13]);
   SSet (LVar "f4") (ECall _mm_load_ss [pto 15]);
   SSet (LVar "f3") (ECall _mm_unpacklo_ps [(EVar "f3"); (EVar "f4")]);
   SSet (LVal (EInt 3)) (ECall _mm_unpacklo_ps [(EVar "f1"); (EVar "f3")]);
   SSet (LVar "f1") (ECall _mm_load_ss [pto 16]);
   SSet (LVar "f2") (ECall _mm_load_ss [pto 18]);
   SSet (LVar "f1") (ECall _mm_unpacklo_ps [(EVar "f1"); (EVar "f2")]);
   SSet (LVar "f3") (ECall _mm_load_ss [pto 17]);
   SSet (LVar "f4") (ECall _mm_load_ss [pto 19]);
   SSet (LVar "f3") (ECall _mm_unpacklo_ps [(EVar "f3"); (EVar "f4")]);
   SSet (LVal (EInt 4)) (ECall _mm_unpacklo_ps [(EVar "f1"); (EVar "f3")]);
   SSet (LVar "f1") (ECall _mm_load_ss [pto 20]);
   SSet (LVar "f2") (ECall _mm_load_ss [pto 22]);
   SSet (LVar "f1") (ECall _mm_unpacklo_ps [(EVar "f1"); (EVar "f2")]);
   SSet (LVar "f3") (ECall _mm_load_ss [pto 21]);
   SSet (LVar "f4") (ECall _mm_load_ss [pto 23]);
   SSet (LVar "f3") (ECall _mm_unpacklo_ps [(EVar "f3"); (EVar "f4")]);
   SSet (LVal (EInt 5)) (ECall _mm_unpacklo_ps [(EVar "f1"); (EVar "f3")]);
   SSet (LVar "f1") (ECall _mm_load_ss [pto 24]);
   SSet (LVar "f2") (ECall _mm_load_ss [pto 26]);
   SSet (LVar "f1") (ECall _mm_unpacklo_ps [(EVar "f1"); (EVar "f2")]);
   SSet (LVar "f3") (ECall _mm_load_ss [pto 25]);
   SSet (LVar "f4") (ECall _mm_load_ss [pto 27]);
   SSet (LVar "f3") (ECall _mm_unpacklo_ps [(EVar "f3"); (EVar "f4")]);
   SSet (LVal (EInt 6)) (ECall _mm_unpacklo_ps [(EVar "f1"); (EVar "f3")]);
   SSet (LVar "f1") (ECall _mm_load_ss [pto 28]);
   SSet (LVar "f2") (ECall _mm_load_ss [pto 30]);
   SSet (LVar "f1") (ECall _mm_unpacklo_ps [(EVar "f1"); (EVar "f2")]);
   SSet (LVar "f3") (ECall _mm_load_ss [pto 29]);
   SSet (LVar "f4") (ECall _mm_load_ss [pto 31]);
   SSet (LVar "f3") (ECall _mm_unpacklo_ps [(EVar "f3"); (EVar "f4")]);
   SSet (LVal (EInt 7)) (ECall _mm_unpacklo_ps [(EVar "f1"); (EVar "f3")])].

(* short_vec_sse_float_32.hpp:616-690 *)
Definition sse_float_32_scatter : body :=
  [SSet (LVar "tmp") (vv 0);
   SDo (ECall _mm_store_ss [pto 0; (EVar "tmp")]);
   SSet (LVar "tmp") (ECall _mm_shuffle_ps [(EVar "tmp"); (EVar "tmp"); (ECall _MM_SHUFFLE [EInt 0;
    EInt 3; EInt 2; EInt 1])]);
   SDo (ECall _mm_store_ss [pto 1; (EVar "tmp")]);
   SSet (LVar "tmp") (ECall _mm_shuffle_ps [(EVar "tmp"); (EVar "tmp"); (ECall _MM_SHUFFLE [EInt 0;
    EInt 3; EInt 2; EInt 1])]);
   SDo (ECall _mm_store_ss [pto 2; (EVar "tmp")]);
   SSet (LVar "tmp") (ECall _mm_shuffle_ps [(EVar "tmp"); (EVar "tmp"); (ECall _MM_SHUFFLE [EInt 0;
    EInt 3; EInt 2; EInt 1])]);
   SDo (ECall _mm_store_ss [pto 3; (EVar "tmp")]);
   SSet (LVar "tmp") (vv 1);
   SDo (ECall _mm_store_ss [pto 4; (EVar "tmp")]);
   SSet (LVar "tmp") (ECall _mm_shuffle_ps [(EVar "tmp"); (EVar "tmp"); (ECall _MM_SHUFFLE [EInt 0;
    EInt 3; EInt 2; EInt 1])]);
   SDo (ECall _mm_store_ss [pto 5; (EVar "tmp")]);
   SSet (LVar "tmp") (ECall _mm_shuffle_ps [(EVar "tmp"); (EVar "tmp"); (ECall _MM_SHUFFLE [EInt 0;
    EInt 3; EInt 2; EInt 1])]);
   SDo (ECall _mm_store_ss [pto 6; (EVar "tmp")]);
   SSet (LVar "tmp") (ECall _mm_shuffle_ps [(EVar "tmp"); (EVar "tmp"); (ECall _MM_SHUFFLE [EInt 0;
    EInt 3; EInt 2; EInt 1])]);
   SDo (ECall _mm_store_ss [pto 7; (EVar "tmp")]);
   SSet (LVar "tmp") (vv 2);
   SDo (ECall _mm_store_ss [pto 8; (EVar "tmp")]);
   SSet (LVar "tmp") (ECall _mm_shuffle_ps [(EVar "tmp"); (EVar "tmp"); (ECall _MM_SHUFFLE [EInt 0;
    EInt 3; EInt 2; EInt 1])]);
   SDo (ECall _mm_store_ss [pto 9; (EVar "tmp")]);
   SSet (LVar "tmp") (ECall _mm_shuffle_ps [(EVar "tmp"); (EVar "tmp"); (ECall _MM_SHUFFLE [EInt 0;
    EInt 3; EInt 2; EInt 1])]);
   SDo (ECall _mm_store_ss [pto 10; (EVar "tmp")]);
   SSet (LVar "tmp") (ECall _mm_shuffle_ps [(EVar "tmp"); (EVar "tmp"); (ECall _MM_SHUFFLE [EInt 0;
    EInt 3; EInt 2; EInt 1])]);
   SDo (ECall _mm_store_ss [pto 11; (EVar "tmp")]);
   SSet (LVar "tmp") (vv 3);
   SDo (ECall _mm_store_ss [pto 12; (EVar "tmp")]);
   SSet (LVar "tmp") (ECall _mm_shuffle_ps [(EVar "tmp"); (EVar "tmp"); (ECall _MM_SHUFFLE [EInt 0;
    EInt 3; EInt 2; EInt 1])]);
   SDo (ECall _mm_store_ss [pto 13; (EVar "tmp")]);
   SSet (LVar "tmp") (ECall _mm_shuffle_ps [(EVar "tmp"); (EVar "tmp"); (ECall _MM_SHUFFLE [EInt 0;
    EInt 3; EInt 2; EInt 1])]);
   SDo (ECall _mm_store_ss [pto 14; (EVar "tmp")]);
   SSet (LVar "tmp") (ECall _mm_shuffle_ps [(EVar "tmp"); (EVar "tmp"); (ECall _MM_SHUFFLE [EInt 0;
    EInt 3; EInt 2; EInt 1])]);
   SDo (ECall _mm_store_ss [pto 15; (EVar "tmp")]);
   SSet (LVar "tmp") (vv 4);
   SDo (ECall _mm_store_ss [pto 16; (EVar "tmp")]);
   SSet (LVar "tmp") (ECall _mm_shuffle_ps [(EVar "tmp"); (EVar "tmp"); (ECall _MM_SHUFFLE [EInt 0;
    EInt 3; EInt 2; EInt 1])]);
   SDo (ECall _mm_store_ss [pto 17; (EVar "tmp")]);
   SSet (LVar "tmp") (ECall _mm_shuffle_ps [(EVar "tmp"); (EVar "tmp"); (ECall _MM_SHUFFLE [EInt 0;
    EInt 3; EInt 2; EInt 1])]);
   SDo (ECall _mm_store_ss [pto 18; (EVar "tmp")]);
   SSet (LVar "tmp") (ECall _mm_shuffle_ps [(EVar "tmp"); (EVar "tmp"); (ECall _MM_SHUFFLE [EInt 0;
    EInt 3; EInt 2; EInt 1])]);
   SDo (ECall _mm_store_ss [pto 19; (EVar "tmp")]);
   SSet (LVar "tmp") (vv 5);
   SDo (ECall _mm_store_ss [pto 20; (EVar "tmp")]);
   SSet (LVar "tmp") (ECall _mm_shuffle_ps [(EVar "tmp"); (EVar "tmp"); (ECall _MM_SHUFFLE [EInt 0;
    EInt 3; EInt 2; EInt 1])]);
   SDo (ECall _mm_store_ss [pto 21; (EVar "tmp")]);
   SSet (LVar "tmp") (ECall _mm_shuffle_ps [(EVar "tmp"); (EVar "tmp"); (ECall _MM_SHUFFLE [EInt 0;
    EInt 3; EInt 2; EInt 1])]);
   SDo (ECall _mm_store_ss [pto 22; (EVar "tmp")]);
   SSet (LVar "tmp") (ECall _mm_shuffle_ps [(EVar "tmp"); (EVar "tmp"); (ECall _MM_SHUFFLE [EInt 0;
    EInt 3; EInt 2; EInt 1])]);
   SDo (ECall _mm_store_ss [pto 23; (EVar "tmp")]);
   SSet (LVar "tmp") (vv 6);
   SDo (ECall _mm_store_ss [pto 24; (EVar "tmp")]);
   SSet (LVar "tmp") (ECall _mm_shuffle_ps [(EVar "tmp"); (EVar "tmp"); (ECall _MM_SHUFFLE [EInt 0;
    EInt 3; EInt 2; EInt 1])]);
   SDo (ECall _mm_store_ss [pto 25; (EVar "tmp")]);
   SSet (LVar "tmp") (ECall _mm_shuffle_ps [(EVar "tmp"); (EVar "tmp"); (ECall _MM_SHUFFLE [EInt 0;
    EInt 3; EInt 2; EInt 1])]);
   SDo (ECall _mm_store_ss [pto 26; (EVar "tmp")]);
   SSet (LVar "tmp") (ECall _mm_shuffle_ps [(EVar "tmp"); (EVar "tmp"); (ECall _MM_SHUFFLE [EInt 0;
    EInt 3; EInt 2; EInt 1])]);
   SDo (ECall _mm_store_ss [pto 27; (EVar "tmp")]);
   SSet (LVar "tmp") (vv 7);
   SDo (ECall _mm_store_ss [pto 28; (EVar "tmp")]);
   SSet (LVar "tmp") (ECall _mm_shuffle_ps [(EVar "tmp"); (EVar "tmp"); (ECall _MM_SHUFFLE [EInt 0;
    EInt 3; EInt 2; EInt 1])]);
   SDo (ECall _mm_store_ss [pto 29; (EVar "tmp")]);
   SSet (LVar "tmp") (ECall _mm_shuffle_ps [(EVar "tmp"); (EVar "tmp"); (ECall _MM_SHUFFLE [EInt 0;
    EInt 3; EInt 2; EInt 1])]);
   SDo (ECall _mm_store_ss [pto 30; (EVar "tmp")]);
   SSet (LVar "tmp") (ECall _mm_shuffle_ps [(EVar "tmp"); (EVar "tmp"); (ECall _MM_SHUFFLE [EInt 0;
    EInt 3; EInt 2; EInt 1])]);
   SDo (ECall _mm_store_ss [pto 31; (EVar "tmp")])].

(* short_vec_sse_float_32.hpp:693-731 *)
Definition sse_float_32_blend : body :=
  [SSet (LVal (EInt 0)) (ECall _mm_or_ps [(ECall _mm_and_ps [mm 0; oo 0]); (ECall _mm_andnot_ps [mm
    0; vv 0])]);
   SSet (LVal (EInt 1)) (ECall _mm_or_ps [(ECall _mm_and_ps [mm 1; oo 1]); (ECall _mm_andnot_ps [mm
    1; vv 1])]);
   SSet (LVal (EInt 2)) (ECall _mm_or_ps [(ECall _mm_and_ps [mm 2; oo 2]); (ECall _mm_andnot_ps [mm
    2; vv 2])]);
   SSet (LVal (EInt 3)) (ECall _mm_or_ps [(ECall _mm_and_ps [mm 3; oo 3]); (ECall _mm_andnot_ps [mm
    3; vv 3])]);
   SSet (LVal (EInt 4)) (ECall _mm_or_ps [(ECall _mm_and_ps [mm 4; oo 4]); (ECall _mm_andnot_ps [mm
    4; vv 4])]);
   SSet (LVal (EInt 5)) (ECall _mm_or_ps [(ECall _mm_and_ps [mm 5; oo 5]); (ECall _mm_andnot_ps [mm
    5; vv 5])]);
   SSet (LVal (EInt 6)) (ECall _mm_or_ps [(ECall _mm_and_ps [mm 6; oo 6]); (ECall _mm_andnot_ps [mm
    6; vv 6])]);
   SSet (LVal (EInt 7)) (ECall _mm_or_ps [(ECall _mm_and_ps [mm 7; oo 7]); (ECall _mm_andnot_ps [mm
    7; vv 7])])].

(* short_vec_sse_float_32.hpp:763-772 *)
Definition sse_float_32_ctor_sqrt : body :=
  [SSet (LVal (EInt 0)) (ECall _mm_sqrt_ps [oo 0]);
   SSet (LVal (EInt 1)) (ECall _mm_sqrt_ps [oo 1]);
   SSet (LVal (EInt 2)) (ECall _mm_sqrt_ps [oo 2]);
   SSet (LVal (EInt 3)) (ECall _mm_sqrt_ps [oo 3]);
   SSet (LVal (EInt 4)) (ECall _mm_sqrt_ps [oo 4]);
   SSet (LVal (EInt 5)) (ECall _mm_sqrt_ps [oo 5]);
   SSet (LVal (EInt 6)) (ECall _mm_sqrt_ps [oo 6]);
   SSet (LVal (EInt 7)) (ECall _mm_sqrt_ps [oo 7])].

(* short_vec_sse_float_32.hpp:775-785 *)
Definition sse_float_32_div_eq_sqrt : body :=
  [SSet (LVal (EInt 0)) (ECall _mm_mul_ps [vv 0; (ECall _mm_rsqrt_ps [oo 0])]);
   SSet (LVal (EInt 1)) (ECall _mm_mul_ps [vv 1; (ECall _mm_rsqrt_ps [oo 1])]);
   SSet (LVal (EInt 2)) (ECall _mm_mul_ps [vv 2; (ECall _mm_rsqrt_ps [oo 2])]);
   SSet (LVal (EInt 3)) (ECall _mm_mul_ps [vv 3; (ECall _mm_rsqrt_ps [oo 3])]);
   SSet (LVal (EInt 4)) (ECall _mm_mul_ps [vv 4; (ECall _mm_rsqrt_ps [oo 4])]);
   SSet (LVal (EInt 5)) (ECall _mm_mul_ps [vv 5; (ECall _mm_rsqrt_ps [oo 5])]);
   SSet (LVal (EInt 6)) (ECall _mm_mul_ps [vv 6; (ECall _mm_rsqrt_ps [oo 6])]);
   SSet (LVal (EInt 7)) (ECall _mm_mul_ps [vv 7; (ECall _mm_rsqrt_ps [oo 7])])].

(* short_vec_sse_float_32.hpp:788-799 *)
Definition sse_float_32_div_sqrt : body :=
  [SRetVec [(ECall _mm_mul_ps [vv 0; (ECall _mm_rsqrt_ps [oo 0])]); (ECall _mm_mul_ps [vv 1; (ECall
    _mm_rsqrt_ps [oo 1])]); (ECall _mm_mul_ps [vv 2; (ECall _mm_rsqrt_ps [oo 2])]); (ECall
    _mm_mul_ps [vv 3; (ECall _mm_rsqrt_ps [oo 3])]); (ECall _mm_mul_ps [vv 4; (ECall _mm_rsqrt_ps
    [oo 4])]); (ECall _mm_mul_ps [vv 5; (ECall _mm_rsqrt_ps [oo 5])]); (ECall _mm_mul_ps [vv 6;
    (ECall _mm_rsqrt_ps [oo 6])]); (ECall _mm_mul_ps [vv 7; (ECall _mm_rsqrt_ps [oo 7])])]].

(* short_vec_sse_float_32.hpp:811-830 *)
Definition sse_float_32_print : list item :=
  [PStr "["; PVal (EIdx (vv 0) (EInt 0)); PStr ", "; PVal (EIdx (vv 0) (EInt 1)); PStr ", "; PVal
   (EIdx (vv 0) (EInt 2)); PStr ", "; PVal (EIdx (vv 0) (EInt 3)); PStr ", "; PVal (EIdx (vv 1)
   (EInt 0)); PStr ", "; PVal (EIdx (vv 1) (EInt 1)); PStr ", "; PVal (EIdx (vv 1) (EInt 2)); PStr
   ", "; PVal (EIdx (vv 1) (EInt 3)); PStr ", "; PVal (EIdx (vv 2) (EInt 0)); PStr ", "; PVal (EIdx
   (vv 2) (EInt 1)); PStr ", "; PVal (EIdx (vv 2) (EInt 2)); PStr ", "; PVal (EIdx (vv 2) (EInt
   3)); PStr ", "; PVal (EIdx (vv 3) (EInt 0)); PStr ", "; PVal (EIdx (vv 3) (EInt 1)); PStr ", ";
   PVal (EIdx (vv 3) (EInt 2)); PStr ", "; PVal (EIdx (vv 3) (EInt 3)); PStr ", "; PVal (EIdx (vv
   4) (EInt 0)); PStr ", "; PVal (EIdx (vv 4) (EInt 1)); PStr ", "; PVal (EIdx (vv 4) (EInt 2));
   PStr ", "; PVal (EIdx (vv 4) (EInt 3)); PStr ", "; PVal (EIdx (vv 5) (EInt 0)); PStr ", "; PVal
   (EIdx (vv 5) (EInt 1)); PStr ", "; PVal (EIdx (vv 5) (EInt 2)); PStr ", "; PVal (EIdx (vv 5)
   (EInt 3)); PStr ", "; PVal (EIdx (vv 6) (EInt 0)); PStr ", "; PVal (EIdx (vv 6) (EInt 1)); PStr
   ", "; PVal (EIdx (vv 6) (EInt 2)); PStr ", "; PVal (EIdx (vv 6) (EInt 3)); PStr ", "; PVal (EIdx
   (vv 7) (EInt 0)); PStr ", "; PVal (EIdx (vv 7) (EInt 1)); PStr ", "; PVal (EIdx (vv 7) (EInt
   2)); PStr ", "; PVal (EIdx (vv 7) (EInt 3)); PStr "]"].

(* short_vec_sse_float_32.hpp *)
Definition cls_sse_float_32 : cls :=
  mkCls "sse_float_32" KF32 32 8 4 16 MVec
    (fun m => match m with
     | MCtorScalar => Some sse_float_32_ctor_scalar
     | MCtorPtr => Some sse_float_32_ctor_ptr
     | MCtorRegs => Some sse_float_32_ctor_regs
     | MCtorSqrt => Some sse_float_32_ctor_sqrt
     | MCtorList => Some sse_float_32_ctor_list
     | MAny => Some sse_float_32_any
     | MIndex => Some sse_float_32_index
     | MSubEq => Some sse_float_32_sub_eq
     | MSub => Some sse_float_32_sub
     | MAddEq => Some sse_float_32_add_eq
     | MAdd => Some sse_float_32_add
     | MMulEq => Some sse_float_32_mul_eq
     | MMul => Some sse_float_32_mul
     | MDivEq => Some sse_float_32_div_eq
     | MDiv => Some sse_float_32_div
     | MDivEqSqrt => Some sse_float_32_div_eq_sqrt
     | MDivSqrt => Some sse_float_32_div_sqrt
     | MLt => Some sse_float_32_lt
     | MLe => Some sse_float_32_le
     | MEq => Some sse_float_32_eq
     | MGt => Some sse_float_32_gt
     | MGe => Some sse_float_32_ge
     | MSqrt => Some sse_float_32_sqrt
     | MLoad => Some sse_float_32_load
     | MLoadAligned => Some sse_float_32_load_aligned
     | MStore => Some sse_float_32_store
     | MStoreAligned => Some sse_float_32_store_aligned
     | MStoreNt => Some sse_float_32_store_nt
     | MGather => Some sse_float_32_gather
     | MScatter => Some sse_float_32_scatter
     | MBlend => Some sse_float_32_blend
     end)
    sse_float_32_ctor_regs sse_float_32_print.

(* short_vec_sse_float_32.hpp:118-137 with __SSE4_1__ *)
Definition sse_float_32_41_any : body :=
  [SSet (LVar "buf1") (ECall _mm_or_ps [(ECall _mm_or_ps [(ECall _mm_or_ps [vv 0; vv 1]); (ECall
    _mm_or_ps [vv 2; vv 3])]); (ECall _mm_or_ps [(ECall _mm_or_ps [vv 4; vv 5]); (ECall _mm_or_ps
    [vv 6; vv 7])])]);
   SRet (EBool (ECop (ORel REq) (EInt 0) (ECall _mm_testz_si128 [(ECall _mm_castps_si128 [(EVar
    "buf1")]); (ECall _mm_castps_si128 [(EVar "buf1")])])))].

(* short_vec_sse_float_32.hpp:425-467 with __SSE4_1__ *)
Definition sse_float_32_41_gather : body :=
  [SSet (LVal (EInt 0)) (ECall _mm_load_ss [pto 0]);
   SSet (LVal (EInt 0)) (ECall SHORTVEC_INSERT_PS [vv 0; EPtr; off 1; (ECall _MM_MK_INSERTPS_NDX
    [EInt 0; EInt 1; EInt 0])]);
   SSet (LVal (EInt 0)) (ECall SHORTVEC_INSERT_PS [vv 0; EPtr; off 2; (ECall _MM_MK_INSERTPS_NDX
    [EInt 0; EInt 2; EInt 0])]);
   SSet (LVal (EInt 0)) (ECall SHORTVEC_INSERT_PS [vv 0; EPtr; off 3; (ECall _MM_MK_INSERTPS_NDX
    [EInt 0; EInt 3; EInt 0])]);
   SSet (LVal (EInt 1)) (ECall _mm_load_ss [pto 4]);
   SSet (LVal (EInt 1)) (ECall SHORTVEC_INSERT_PS [vv 1; EPtr; off 5; (ECall _MM_MK_INSERTPS_NDX
    [EInt 0; EInt 1; EInt 0])]);
   SSet (LVal (EInt 1)) (ECall SHORTVEC_INSERT_PS [vv 1; EPtr; off 6; (ECall _MM_MK_INSERTPS_NDX
    [EInt 0; EInt 2; EInt 0])]);
   SSet (LVal (EInt 1)) (ECall SHORTVEC_INSERT_PS [vv 1; EPtr; off 7; (ECall _MM_MK_INSERTPS_NDX
    [EInt 0; EInt 3; EInt 0])]);
   SSet (LVal (EInt 2)) (ECall _mm_load_ss [pto 8]);
   SSet (LVal (EInt 2)) (ECall SHORTVEC_INSERT_PS [vv 2; EPtr; off 9; (ECall _MM_MK_INSERTPS_NDX
    [EInt 0; EInt 1; EInt 0])]);
   SSet (LVal (EInt 2)) (ECall SHORTVEC_INSERT_PS [vv 2; EPtr; off 10; (ECall _MM_MK_INSERTPS_NDX
    [EInt 0; EInt 2; EInt 0])]);
   SSet (LVal (EInt 2)) (ECall SHORTVEC_INSERT_PS [vv 2; EPtr; off 11; (ECall _MM_MK_INSERTPS_NDX
    [EInt 0; EInt 3; EInt 0])]);
   SSet (LVal (EInt 3)) (ECall _mm_load_ss [pto 12]);
   SSet (LVal (EInt 3)) (ECall SHORTVEC_INSERT_PS [vv 3; EPtr; off 13; (ECall _MM_MK_INSERTPS_NDX
    [EInt 0; EInt 1; EInt 0])]);
   SSet (LVal (EInt 3)) (ECall SHORTVEC_INSERT_PS [vv 3; EPtr; off 14; (ECall _MM_MK_INSERTPS_NDX
    [EInt 0; EInt 2; EInt 0])]);
   SSet (LVal (EInt 3)) (ECall SHORTVEC_INSERT_PS [vv 3; EPtr; off 15; (ECall _MM_MK_INSERTPS_NDX
    [EInt 0; EInt 3; EInt 0])]);
   SSet (LVal (EInt 4)) (ECall _mm_load_ss [pto 16]);
   SSet (LVal (EInt 4)) (ECall SHORTVEC_INSERT_PS [vv 4; EPtr; off 17; (ECall _MM_MK_INSERTPS_NDX
    [EInt 0; EInt 1; EInt 0])]);
   SSet (LVal (EInt 4)) (ECall SHORTVEC_INSERT_PS [vv 4; EPtr; off 18; (ECall _MM_MK_INSERTPS_NDX
    [EInt 0; EInt 2; EInt 0])]);
   SSet (LVal (EInt 4)) (ECall SHORTVEC_INSERT_PS [vv 4; EPtr; off 19; (ECall _MM_MK_INSERTPS_NDX
    [EInt 0; EInt 3; EInt 0])]);
   SSet (LVal (EInt 5)) (ECall _mm_load_ss [pto 20]);
   SSet (LVal (EInt 5)) (ECall SHORTVEC_INSERT_PS [vv 5; EPtr; off 21; (ECall _MM_MK_INSERTPS_NDX
    [EInt 0; EInt 1; EInt 0])]);
   SSet (LVal (EInt 5)) (ECall SHORTVEC_INSERT_PS [vv 5; EPtr; off 22; (ECall _MM_MK_INSERTPS_NDX
    [EInt 0; EInt 2; EInt 0])]);
   SSet (LVal (EInt 5)) (ECall SHORTVEC_INSERT_PS [vv 5; EPtr; off 23; (ECall _MM_MK_INSERTPS_NDX
    [EInt 0; EInt 3; EInt 0])]);
   SSet (LVal (EInt 6)) (ECall _mm_load_ss [pto 24]);
   SSet (LVal (EInt 6)) (ECall SHORTVEC_INSERT_PS [vv 6; EPtr; off 25; (ECall _MM_MK_INSERTPS_NDX
    [EInt 0; EInt 1; EInt 0])]);
   SSet (LVal (EInt 6)) (ECall SHORTVEC_INSERT_PS [vv 6; EPtr; off 26; (ECall _MM_MK_INSERTPS_NDX
    [EInt 0; EInt 2; EInt 0])]);
   SSet (LVal (EInt 6)) (ECall SHORTVEC_INSERT_PS [vv 6; EPtr; off 27; (ECall _MM_MK_INSERTPS_NDX
    [EInt 0; EInt 3; EInt 0])]);
   SSet (LVal (EInt 7)) (ECall _mm_load_ss [pto 28]);
   SSet (LVal (EInt 7)) (ECall SHORTVEC_INSERT_PS [vv 7; EPtr; off 29; (ECall _MM_MK_INSERTPS_NDX
    [EInt 0; EInt 1; EInt 0])]);
   SSet (LVal (EInt 7)) (ECall SHORTVEC_INSERT_PS [vv 7; EPtr; off 30; (ECall _MM_MK_INSERTPS_NDX
    [EInt 0; EInt 2; EInt 0])]);
   SSet (LVal (EInt 7)) (ECall SHORTVEC_INSERT_PS [vv 7; EPtr; off 31; (ECall _MM_MK_INSERTPS_NDX
    [EInt 0; EInt 3; EInt 0])])].

(* short_vec_sse_float_32.hpp:469-544 with __SSE4_1__ *)
Definition sse_float_32_41_scatter : body :=
  [SSet (LVar "r1") (ECall _mm_extract_ps [vv 0; EInt 0]);
   SSet (LVar "r2") (ECall _mm_extract_ps [vv 0; EInt 1]);
   SSet (LVar "r3") (ECall _mm_extract_ps [vv 0; EInt 2]);
   SSet (LVar "r4") (ECall _mm_extract_ps [vv 0; EInt 3]);
   SSet (LMem (pto 0)) (EVar "r1");
   SSet (LMem (pto 1)) (EVar "r2");
   SSet (LMem (pto 2)) (EVar "r3");
   SSet (LMem (pto 3)) (EVar "r4");
   SSet (LVar "r1") (ECall _mm_extract_ps [vv 1; EInt 0]);
   SSet (LVar "r2") (ECall _mm_extract_ps [vv 1; EInt 1]);
   SSet (LVar "r3") (ECall _mm_extract_ps [vv 1; EInt 2]);
   SSet (LVar "r4") (ECall _mm_extract_ps [vv 1; EInt 3]);
   SSet (LMem (pto 4)) (EVar "r1");
   SSet (LMem (pto 5)) (EVar "r2");
   SSet (LMem (pto 6)) (EVar "r3");
   SSet (LMem (pto 7)) (EVar "r4");
   SSet (LVar "r1") (ECall _mm_extract_ps [vv 2; EInt 0]);
   SSet (LVar "r2") (ECall _mm_extract_ps [vv 2; EInt 1]);
   SSet (LVar "r3") (ECall _mm_extract_ps [vv 2; EInt 2]);
   SSet (LVar "r4") (ECall _mm_extract_ps [vv 2; EInt 3]);
   SSet (LMem (pto 8)) (EVar "r1");
   SSet (LMem (pto 9)) (EVar "r2");
   SSet (LMem (pto 10)) (EVar "r3");
   SSet (LMem (pto 11)) (EVar "r4");
   SSet (LVar "r1") (ECall _mm_extract_ps [vv 3; EInt 0]);
   SSet (LVar "r2") (ECall _mm_extract_ps [vv 3; EInt 1]);
   SSet (LVar "r3") (ECall _mm_extract_ps [vv 3; EInt 2]);
   SSet (LVar "r4") (ECall _mm_extract_ps [vv 3; EInt 3]);
   SSet (LMem (pto 12)) (EVar "r1");
   SSet (LMem (pto 13)) (EVar "r2");
   SSet (LMem (pto 14)) (EVar "r3");
   SSet (LMem (pto 15)) (EVar "r4");
   SSet (LVar "r1") (ECall _mm_extract_ps [vv 4; EInt 0]);
   SSet (LVar "r2") (ECall _mm_extract_ps [vv 4; EInt 1]);
   SSet (LVar "r3") (ECall _mm_extract_ps [vv 4; EInt 2]);
   SSet (LVar "r4") (ECall _mm_extract_ps [vv 4; EInt 3]);
   SSet (LMem (pto 16)) (EVar "r1");
   SSet (LMem (pto 17)) (EVar "r2");
   SSet (LMem (pto 18)) (EVar "r3");
   SSet (LMem (pto 19)) (EVar "r4");
   SSet (LVar "r1") (ECall _mm_extract_ps [vv 5; EInt 0]);
   SSet (LVar "r2") (ECall _mm_extract_ps [vv 5; EInt 1]);
   SSet (LVar "r3") (ECall _mm_extract_ps [vv 5; EInt 2]);
   SSet (LVar "r4") (ECall _mm_extract_ps [vv 5; EInt 3]);
   SSet (LMem (pto 20)) (EVar "r1");
   SSet (LMem (pto 21)) (EVar "r2");
   SSet (LMem (pto 22)) (EVar "r3");
   SSet (LMem (pto 23)) (EVar "r4");
   SSet (LVar "r1") (ECall _mm_extract_ps [vv 6; EInt 0]);
   SSet (LVar "r2") (ECall _mm_extract_ps [vv 6; EInt 1]);
   SSet (LVar "r3") (ECall _mm_extract_ps [vv 6; EInt 2]);
   SSet (LVar "r4") (ECall _mm_extract_ps [vv 6; EInt 3]);
   SSet (LMem (pto 24)) (EVar "r1");
   SSet (LMem (pto 25)) (EVar "r2");
   SSet (LMem (pto 26)) (EVar "r3");
   SSet (LMem (pto 27)) (EVar "r4");
   SSet (LVar "r1") (ECall _mm_extract_ps [vv 7; EInt 0]);
   SSet (LVar "r2") (ECall _mm_extract_ps [vv 7; EInt 1]);
   SSet (LVar "r3") (ECall _mm_extract_ps [vv 7; EInt 2]);
   SSet (LVar "r4") (ECall _mm_extract_ps [vv 7; EInt 3]);
   SSet (LMem (pto 28)) (EVar "r1");
   SSet (LMem (pto 29)) (EVar "r2");
   SSet (LMem (pto 30)) (EVar "r3");
   SSet (LMem (pto 31)) (EVar "r4")].

(* short_vec_sse_float_32.hpp:693-731 with __SSE4_1__ *)
Definition sse_float_32_41_blend : body :=
  [SSet (LVal (EInt 0)) (ECall _mm_blendv_ps [vv 0; oo 0; mm 0]);
   SSet (LVal (EInt 1)) (ECall _mm_blendv_ps [vv 1; oo 1; mm 1]);
   SSet (LVal (EInt 2)) (ECall _mm_blendv_ps [vv 2; oo 2; mm 2]);
   SSet (LVal (EInt 3)) (ECall _mm_blendv_ps [vv 3; oo 3; mm 3]);
   SSet (LVal (EInt 4)) (ECall _mm_blendv_ps [vv 4; oo 4; mm 4]);
   SSet (LVal (EInt 5)) (ECall _mm_blendv_ps [vv 5; oo 5; mm 5]);
   SSet (LVal (EInt 6)) (ECall _mm_blendv_ps [vv 6; oo 6; mm 6]);
   SSet (LVal (EInt 7)) (ECall _mm_blendv_ps [vv 7; oo 7; mm 7])].

(* short_vec_sse_float_32.hpp with __SSE4_1__ *)
Definition cls_sse_float_32_41 : cls :=
  mkCls "sse_float_32_41" KF32 32 8 4 16 MVec
    (fun m => match m with
     | MCtorScalar => Some sse_float_32_ctor_scalar
     | MCtorPtr => Some sse_float_32_ctor_ptr
     | MCtorRegs => Some sse_float_32_ctor_regs
     | MCtorSqrt => Some sse_float_32_ctor_sqrt
     | MCtorList => Some sse_float_32_ctor_list
     | MAny => Some sse_float_32_41_any
     | MIndex => Some sse_float_32_index
     | MSubEq => Some sse_float_32_sub_eq
     | MSub => Some sse_float_32_sub
     | MAddEq => Some sse_float_32_add_eq
     | MAdd => Some sse_float_32_add
     | MMulEq => Some sse_float_32_mul_eq
     | MMul => Some sse_float_32_mul
     | MDivEq => Some sse_float_32_div_eq
     | MDiv => Some sse_float_32_div
     | MDivEqSqrt => Some sse_float_32_div_eq_sqrt
     | MDivSqrt => Some sse_float_32_div_sqrt
     | MLt => Some sse_float_32_lt
     | MLe => Some sse_float_32_le
     | MEq => Some sse_float_32_eq
     | MGt => Some sse_float_32_gt
     | MGe => Some sse_float_32_ge
     | MSqrt => Some sse_float_32_sqrt
     | MLoad => Some sse_float_32_load
     | MLoadAligned => Some sse_float_32_load_aligned
     | MStore => Some sse_float_32_store
     | MStoreAligned => Some sse_float_32_store_aligned
     | MStoreNt => Some sse_float_32_store_nt
     | MGather => Some sse_float_32_41_gather
     | MScatter => Some sse_float_32_41_scatter
     | MBlend => Some sse_float_32_41_blend
     end)
    sse_float_32_ctor_regs sse_float_32_print.

(* short_vec_sse_int_4.hpp:71-74 *)
Definition sse_int_4_ctor_scalar : body :=
  [SSet (LVal (EInt 0)) (ECall _mm_set1_epi32 [EArg])].

(* short_vec_sse_int_4.hpp:76-80 *)
Definition sse_int_4_ctor_ptr : body :=
  [SSet (LVal (EInt 0)) (ECall _mm_loadu_si128 [EData])].

(* short_vec_sse_int_4.hpp:82-85 *)
Definition sse_int_4_ctor_regs : body :=
  [SSet (LVal (EInt 0)) (EPar 0)].

(* short_vec_sse_int_4.hpp:88-93 *)
Definition sse_int_4_ctor_list : body :=
  [SSet (LVal (EInt 0)) (ECall _mm_loadu_si128 [EData])].

(* short_vec_sse_int_4.hpp:99-103 *)
Definition sse_int_4_sub_eq : body :=
  [SSet (LVal (EInt 0)) (ECall _mm_sub_epi32 [vv 0; oo 0])].

(* short_vec_sse_int_4.hpp:105-110 *)
Definition sse_int_4_sub : body :=
  [SRetVec [(ECall _mm_sub_epi32 [vv 0; oo 0])]].

(* short_vec_sse_int_4.hpp:112-116 *)
Definition sse_int_4_add_eq : body :=
  [SSet (LVal (EInt 0)) (ECall _mm_add_epi32 [vv 0; oo 0])].

(* short_vec_sse_int_4.hpp:118-123 *)
Definition sse_int_4_add : body :=
  [SRetVec [(ECall _mm_add_epi32 [vv 0; oo 0])]].

(* short_vec_sse_int_4.hpp:139-149 *)
Definition sse_int_4_mul_eq : body :=
  [SSet (LVar "tmp1") (ECall _mm_mul_epu32 [vv 0; oo 0]);
   SSet (LVar "tmp2") (ECall _mm_mul_epu32 [(ECall _mm_srli_si128 [vv 0; EInt 4]); (ECall
    _mm_srli_si128 [oo 0; EInt 4])]);
   SSet (LVal (EInt 0)) (ECall _mm_unpacklo_epi32 [(ECall _mm_shuffle_epi32 [(EVar "tmp1"); (ECall
    _MM_SHUFFLE [EInt 0; EInt 0; EInt 2; EInt 0])]); (ECall _mm_shuffle_epi32 [(EVar "tmp2"); (ECall
    _MM_SHUFFLE [EInt 0; EInt 0; EInt 2; EInt 0])])])].

(* short_vec_sse_int_4.hpp:151-162 *)
Definition sse_int_4_mul : body :=
  [SSet (LVar "tmp1") (ECall _mm_mul_epu32 [vv 0; oo 0]);
   SSet (LVar "tmp2") (ECall _mm_mul_epu32 [(ECall _mm_srli_si128 [vv 0; EInt 4]); (ECall
    _mm_srli_si128 [oo 0; EInt 4])]);
   SRetVec [(ECall _mm_unpacklo_epi32 [(ECall _mm_shuffle_epi32 [(EVar "tmp1"); (ECall _MM_SHUFFLE
    [EInt 0; EInt 0; EInt 2; EInt 0])]); (ECall _mm_shuffle_epi32 [(EVar "tmp2"); (ECall _MM_SHUFFLE
    [EInt 0; EInt 0; EInt 2; EInt 0])])])]].

(* short_vec_sse_int_4.hpp:165-170 *)
Definition sse_int_4_div_eq : body :=
  [SSet (LVal (EInt 0)) (ECall _mm_cvtps_epi32 [(ECall _mm_div_ps [(ECall _mm_cvtepi32_ps [vv 0]);
    (ECall _mm_cvtepi32_ps [oo 0])])])].

(* short_vec_sse_int_4.hpp:175-182 *)
Definition sse_int_4_div : body :=
  [SRetVec [(ECall _mm_cvttps_epi32 [(ECall _mm_div_ps [(ECall _mm_cvtepi32_ps [vv 0]); (ECall
    _mm_cvtepi32_ps [oo 0])])])]].

(* short_vec_sse_int_4.hpp:187-193 *)
Definition sse_int_4_sqrt : body :=
  [SRetVec [(ECall _mm_cvtps_epi32 [(ECall _mm_sqrt_ps [(ECall _mm_cvtepi32_ps [vv 0])])])]].

(* short_vec_sse_int_4.hpp:195-199 *)
Definition sse_int_4_load : body :=
  [SSet (LVal (EInt 0)) (ECall _mm_loadu_si128 [EData])].

(* short_vec_sse_int_4.hpp:201-206 *)
Definition sse_int_4_load_aligned : body :=
  [SAssertAligned EData 16;
   SSet (LVal (EInt 0)) (ECall _mm_load_si128 [EData])].

(* short_vec_sse_int_4.hpp:208-212 *)
Definition sse_int_4_store : body :=
  [SDo (ECall _mm_storeu_si128 [EData; vv 0])].

(* short_vec_sse_int_4.hpp:214-219 *)
Definition sse_int_4_store_aligned : body :=
  [SAssertAligned EData 16;
   SDo (ECall _mm_store_si128 [EData; vv 0])].

(* short_vec_sse_int_4.hpp:221-226 *)
Definition sse_int_4_store_nt : body :=
  [SAssertAligned EData 16;
   SDo (ECall _mm_stream_si128 [EData; vv 0])].

(* short_vec_sse_int_4.hpp:247-258 *)
Definition sse_int_4_gather : body :=
  [SDecl "i2" 4;
   SDecl "i3" 4;
   SDecl "i4" 4;
   SSet (LVal (EInt 0)) (ECall _mm_cvtsi32_si128 [(EIdx EPtr (off 0))]);
   SSet (LVar "i2") (ECall _mm_cvtsi32_si128 [(EIdx EPtr (off 1))]);
   SSet (LVar "i3") (ECall _mm_cvtsi32_si128 [(EIdx EPtr (off 2))]);
   SSet (LVar "i4") (ECall _mm_cvtsi32_si128 [(EIdx EPtr (off 3))]);
   SSet (LVal (EInt 0)) (ECall _mm_unpacklo_epi32 [vv 0; (EVar "i3")]);
   SSet (LVar "i3") (ECall _mm_unpacklo_epi32 [(EVar "i2"); (EVar "i4")]);
   SSet (LVal (EInt 0)) (ECall _mm_unpacklo_epi32 [vv 0; (EVar "i3")])].

(* short_vec_sse_int_4.hpp:260-267 *)
Definition sse_int_4_scatter : body :=
  [SSet (LMem (pto 0)) (ECall _mm_cvtsi128_si32 [vv 0]);
   SSet (LMem (pto 1)) (ECall _mm_cvtsi128_si32 [(ECall _mm_shuffle_epi32 [vv 0; (ECall _MM_SHUFFLE
    [EInt 0; EInt 3; EInt 2; EInt 1])])]);
   SSet (LMem (pto 2)) (ECall _mm_cvtsi128_si32 [(ECall _mm_shuffle_epi32 [vv 0; (ECall _MM_SHUFFLE
    [EInt 1; EInt 0; EInt 3; EInt 2])])]);
   SSet (LMem (pto 3)) (ECall _mm_cvtsi128_si32 [(ECall _mm_shuffle_epi32 [vv 0; (ECall _MM_SHUFFLE
    [EInt 2; EInt 1; EInt 0; EInt 3])])])].

(* short_vec_sse_int_4.hpp:300-304 *)
Definition sse_int_4_ctor_sqrt : body :=
  [SSet (LVal (EInt 0)) (ECall _mm_cvtps_epi32 [(ECall _mm_sqrt_ps [(ECall _mm_cvtepi32_ps [oo
    0])])])].

(* short_vec_sse_int_4.hpp:307-312 *)
Definition sse_int_4_div_eq_sqrt : body :=
  [SSet (LVal (EInt 0)) (ECall _mm_cvtps_epi32 [(ECall _mm_mul_ps [(ECall _mm_cvtepi32_ps [vv 0]);
    (ECall _mm_rsqrt_ps [(ECall _mm_cvtepi32_ps [oo 0])])])])].

(* short_vec_sse_int_4.hpp:315-321 *)
Definition sse_int_4_div_sqrt : body :=
  [SRetVec [(ECall _mm_cvtps_epi32 [(ECall _mm_mul_ps [(ECall _mm_cvtepi32_ps [vv 0]); (ECall
    _mm_rsqrt_ps [(ECall _mm_cvtepi32_ps [oo 0])])])])]].

(* short_vec_sse_int_4.hpp:333-337 *)
Definition sse_int_4_print : list item :=
  [PStr "["; PVal (EIdx (vv 0) (EInt 0)); PStr ", "; PVal (EIdx (vv 0) (EInt 1)); PStr ", "; PVal
   (EIdx (vv 0) (EInt 2)); PStr ", "; PVal (EIdx (vv 0) (EInt 3)); PStr "]"].

(* short_vec_sse_int_4.hpp *)
Definition cls_sse_int_4 : cls :=
  mkCls "sse_int_4" KI32 4 1 4 16 MNone
    (fun m => match m with
     | MCtorScalar => Some sse_int_4_ctor_scalar
     | MCtorPtr => Some sse_int_4_ctor_ptr
     | MCtorRegs => Some sse_int_4_ctor_regs
     | MCtorSqrt => Some sse_int_4_ctor_sqrt
     | MCtorList => Some sse_int_4_ctor_list
     | MSubEq => Some sse_int_4_sub_eq
     | MSub => Some sse_int_4_sub
     | MAddEq => Some sse_int_4_add_eq
     | MAdd => Some sse_int_4_add
     | MMulEq => Some sse_int_4_mul_eq
     | MMul => Some sse_int_4_mul
     | MDivEq => Some sse_int_4_div_eq
     | MDiv => Some sse_int_4_div
     | MDivEqSqrt => Some sse_int_4_div_eq_sqrt
     | MDivSqrt => Some sse_int_4_div_sqrt
     | MSqrt => Some sse_int_4_sqrt
     | MLoad => Some sse_int_4_load
     | MLoadAligned => Some sse_int_4_load_aligned
     | MStore => Some sse_int_4_store
     | MStoreAligned => Some sse_int_4_store_aligned
     | MStoreNt => Some sse_int_4_store_nt
     | MGather => Some sse_int_4_gather
     | MScatter => Some sse_int_4_scatter
     | _ => None
     end)
    sse_int_4_ctor_regs sse_int_4_print.

(* short_vec_sse_int_4.hpp:126-130 with __SSE4_1__ *)
Definition sse_int_4_41_mul_eq : body :=
  [SSet (LVal (EInt 0)) (ECall _mm_mullo_epi32 [vv 0; oo 0])].

(* short_vec_sse_int_4.hpp:132-137 with __SSE4_1__ *)
Definition sse_int_4_41_mul : body :=
  [SRetVec [(ECall _mm_mullo_epi32 [vv 0; oo 0])]].

(* short_vec_sse_int_4.hpp:229-236 with __SSE4_1__ *)
Definition sse_int_4_41_gather : body :=
  [SSet (LVal (EInt 0)) (ECall _mm_insert_epi32 [vv 0; (EIdx EPtr (off 0)); EInt 0]);
   SSet (LVal (EInt 0)) (ECall _mm_insert_epi32 [vv 0; (EIdx EPtr (off 1)); EInt 1]);
   SSet (LVal (EInt 0)) (ECall _mm_insert_epi32 [vv 0; (EIdx EPtr (off 2)); EInt 2]);
   SSet (LVal (EInt 0)) (ECall _mm_insert_epi32 [vv 0; (EIdx EPtr (off 3)); EInt 3])].

(* short_vec_sse_int_4.hpp:238-245 with __SSE4_1__ *)
Definition sse_int_4_41_scatter : body :=
  [SSet (LMem (pto 0)) (ECall _mm_extract_epi32 [vv 0; EInt 0]);
   SSet (LMem (pto 1)) (ECall _mm_extract_epi32 [vv 0; EInt 1]);
   SSet (LMem (pto 2)) (ECall _mm_extract_epi32 [vv 0; EInt 2]);
   SSet (LMem (pto 3)) (ECall _mm_extract_epi32 [vv 0; EInt 3])].

(* short_vec_sse_int_4.hpp with __SSE4_1__ *)
Definition cls_sse_int_4_41 : cls :=
  mkCls "sse_int_4_41" KI32 4 1 4 16 MNone
    (fun m => match m with
     | MCtorScalar => Some sse_int_4_ctor_scalar
     | MCtorPtr => Some sse_int_4_ctor_ptr
     | MCtorRegs => Some sse_int_4_ctor_regs
     | MCtorSqrt => Some sse_int_4_ctor_sqrt
     | MCtorList => Some sse_int_4_ctor_list
     | MSubEq => Some sse_int_4_sub_eq
     | MSub => Some sse_int_4_sub
     | MAddEq => Some sse_int_4_add_eq
     | MAdd => Some sse_int_4_add
     | MMulEq => Some sse_int_4_41_mul_eq
     | MMul => Some sse_int_4_41_mul
     | MDivEq => Some sse_int_4_div_eq
     | MDiv => Some sse_int_4_div
     | MDivEqSqrt => Some sse_int_4_div_eq_sqrt
     | MDivSqrt => Some sse_int_4_div_sqrt
     | MSqrt => Some sse_int_4_sqrt
     | MLoad => Some sse_int_4_load
     | MLoadAligned => Some sse_int_4_load_aligned
     | MStore => Some sse_int_4_store
     | MStoreAligned => Some sse_int_4_store_aligned
     | MStoreNt => Some sse_int_4_store_nt
     | MGather => Some sse_int_4_41_gather
     | MScatter => Some sse_int_4_41_scatter
     | _ => None
     end)
    sse_int_4_ctor_regs sse_int_4_print.

(* short_vec_sse_int_8.hpp:71-75 *)
Definition sse_int_8_ctor_scalar : body :=
  [SSet (LVal (EInt 0)) (ECall _mm_set1_epi32 [EArg]);
   SSet (LVal (EInt 1)) (ECall _mm_set1_epi32 [EArg])].

(* short_vec_sse_int_8.hpp:77-81 *)
Definition sse_int_8_ctor_ptr : body :=
  [SSet (LVal (EInt 0)) (ECall _mm_loadu_si128 [dat 0]);
   SSet (LVal (EInt 1)) (ECall _mm_loadu_si128 [dat 4])].

(* short_vec_sse_int_8.hpp:83-87 *)
Definition sse_int_8_ctor_regs : body :=
  [SSet (LVal (EInt 0)) (EPar 0);
   SSet (LVal (EInt 1)) (EPar 1)].

(* short_vec_sse_int_8.hpp:90-95 *)
Definition sse_int_8_ctor_list : body :=
  [SSet (LVal (EInt 0)) (ECall _mm_loadu_si128 [dat 0]);
   SSet (LVal (EInt 1)) (ECall _mm_loadu_si128 [dat 4])].

(* short_vec_sse_int_8.hpp:101-106 *)
Definition sse_int_8_sub_eq : body :=
  [SSet (LVal (EInt 0)) (ECall _mm_sub_epi32 [vv 0; oo 0]);
   SSet (LVal (EInt 1)) (ECall _mm_sub_epi32 [vv 1; oo 1])].

(* short_vec_sse_int_8.hpp:108-114 *)
Definition sse_int_8_sub : body :=
  [SRetVec [(ECall _mm_sub_epi32 [vv 0; oo 0]); (ECall _mm_sub_epi32 [vv 1; oo 1])]].

(* short_vec_sse_int_8.hpp:116-121 *)
Definition sse_int_8_add_eq : body :=
  [SSet (LVal (EInt 0)) (ECall _mm_add_epi32 [vv 0; oo 0]);
   SSet (LVal (EInt 1)) (ECall _mm_add_epi32 [vv 1; oo 1])].

(* short_vec_sse_int_8.hpp:123-129 *)
Definition sse_int_8_add : body :=
  [SRetVec [(ECall _mm_add_epi32 [vv 0; oo 0]); (ECall _mm_add_epi32 [vv 1; oo 1])]].

(* short_vec_sse_int_8.hpp:147-164 *)
Definition sse_int_8_mul_eq : body :=
  [SSet (LVar "tmp1") (ECall _mm_mul_epu32 [vv 0; oo 0]);
   SSet (LVar "tmp2") (ECall _mm_mul_epu32 [(ECall _mm_srli_si128 [vv 0; EInt 4]); (ECall
    _mm_srli_si128 [oo 0; EInt 4])]);
   SSet (LVal (EInt 0)) (ECall _mm_unpacklo_epi32 [(ECall _mm_shuffle_epi32 [(EVar "tmp1"); (ECall
    _MM_SHUFFLE [EInt 0; EInt 0; EInt 2; EInt 0])]); (ECall _mm_shuffle_epi32 [(EVar "tmp2"); (ECall
    _MM_SHUFFLE [EInt 0; EInt 0; EInt 2; EInt 0])])]);
   SSet (LVar "tmp1") (ECall _mm_mul_epu32 [vv 1; oo 1]);
   SSet (LVar "tmp2") (ECall _mm_mul_epu32 [(ECall _mm_srli_si128 [vv 1; EInt 4]); (ECall
    _mm_srli_si128 [oo 1; EInt 4])]);
   SSet (LVal (EInt 1)) (ECall _mm_unpacklo_epi32 [(ECall _mm_shuffle_epi32 [(EVar "tmp1"); (ECall
    _MM_SHUFFLE [EInt 0; EInt 0; EInt 2; EInt 0])]); (ECall _mm_shuffle_epi32 [(EVar "tmp2"); (ECall
    _MM_SHUFFLE [EInt 0; EInt 0; EInt 2; EInt 0])])])].

(* short_vec_sse_int_8.hpp:166-185 *)
Definition sse_int_8_mul : body :=
  [SSet (LVar "tmp1") (ECall _mm_mul_epu32 [vv 0; oo 0]);
   SSet (LVar "tmp2") (ECall _mm_mul_epu32 [(ECall _mm_srli_si128 [vv 0; EInt 4]); (ECall
    _mm_srli_si128 [oo 0; EInt 4])]);
   SSet (LVar "result1") (ECall _mm_unpacklo_epi32 [(ECall _mm_shuffle_epi32 [(EVar "tmp1"); (ECall
    _MM_SHUFFLE [EInt 0; EInt 0; EInt 2; EInt 0])]); (ECall _mm_shuffle_epi32 [(EVar "tmp2"); (ECall
    _MM_SHUFFLE [EInt 0; EInt 0; EInt 2; EInt 0])])]);
   SSet (LVar "tmp1") (ECall _mm_mul_epu32 [vv 1; oo 1]);
   SSet (LVar "tmp2") (ECall _mm_mul_epu32 [(ECall _mm_srli_si128 [vv 1; EInt 4]); (ECall
    _mm_srli_si128 [oo 1; EInt 4])]);
   SSet (LVar "result2") (ECall _mm_unpacklo_epi32 [(ECall _mm_shuffle_epi32 [(EVar "tmp1"); (ECall
    _MM_SHUFFLE [EInt 0; EInt 0; EInt 2; EInt 0])]); (ECall _mm_shuffle_epi32 [(EVar "tmp2"); (ECall
    _MM_SHUFFLE [EInt 0; EInt 0; EInt 2; EInt 0])])]);
   SRetVec [(EVar "result1"); (EVar "result2")]].

(* short_vec_sse_int_8.hpp:188-195 *)
Definition sse_int_8_div_eq : body :=
  [SSet (LVal (EInt 0)) (ECall _mm_cvttps_epi32 [(ECall _mm_div_ps [(ECall _mm_cvtepi32_ps [vv 0]);
    (ECall _mm_cvtepi32_ps [oo 0])])]);
   SSet (LVal (EInt 1)) (ECall _mm_cvttps_epi32 [(ECall _mm_div_ps [(ECall _mm_cvtepi32_ps [vv 1]);
    (ECall _mm_cvtepi32_ps [oo 1])])])].

(* short_vec_sse_int_8.hpp:200-210 *)
Definition sse_int_8_div : body :=
  [SRetVec [(ECall _mm_cvttps_epi32 [(ECall _mm_div_ps [(ECall _mm_cvtepi32_ps [vv 0]); (ECall
    _mm_cvtepi32_ps [oo 0])])]); (ECall _mm_cvttps_epi32 [(ECall _mm_div_ps [(ECall _mm_cvtepi32_ps
    [vv 1]); (ECall _mm_cvtepi32_ps [oo 1])])])]].

(* short_vec_sse_int_8.hpp:215-223 *)
Definition sse_int_8_sqrt : body :=
  [SRetVec [(ECall _mm_cvtps_epi32 [(ECall _mm_sqrt_ps [(ECall _mm_cvtepi32_ps [vv 0])])]); (ECall
    _mm_cvtps_epi32 [(ECall _mm_sqrt_ps [(ECall _mm_cvtepi32_ps [vv 1])])])]].

(* short_vec_sse_int_8.hpp:225-230 *)
Definition sse_int_8_load : body :=
  [SSet (LVal (EInt 0)) (ECall _mm_loadu_si128 [dat 0]);
   SSet (LVal (EInt 1)) (ECall _mm_loadu_si128 [dat 4])].

(* short_vec_sse_int_8.hpp:232-238 *)
Definition sse_int_8_load_aligned : body :=
  [SAssertAligned EData 16;
   SSet (LVal (EInt 0)) (ECall _mm_load_si128 [dat 0]);
   SSet (LVal (EInt 1)) (ECall _mm_load_si128 [dat 4])].

(* short_vec_sse_int_8.hpp:240-245 *)
Definition sse_int_8_store : body :=
  [SDo (ECall _mm_storeu_si128 [dat 0; vv 0]);
   SDo (ECall _mm_storeu_si128 [dat 4; vv 1])].

(* short_vec_sse_int_8.hpp:247-253 *)
Definition sse_int_8_store_aligned : body :=
  [SAssertAligned EData 16;
   SDo (ECall _mm_store_si128 [dat 0; vv 0]);
   SDo (ECall _mm_store_si128 [dat 4; vv 1])].

(* short_vec_sse_int_8.hpp:255-261 *)
Definition sse_int_8_store_nt : body :=
  [SAssertAligned EData 16;
   SDo (ECall _mm_stream_si128 [dat 0; vv 0]);
   SDo (ECall _mm_stream_si128 [dat 4; vv 1])].

(* short_vec_sse_int_8.hpp:292-311 *)
Definition sse_int_8_gather : body :=
  [SDecl "i2" 4;
   SDecl "i3" 4;
   SDecl "i4" 4;
   SSet (LVal (EInt 0)) (ECall _mm_cvtsi32_si128 [(EIdx EPtr (off 0))]);
   SSet (LVar "i2") (ECall _mm_cvtsi32_si128 [(EIdx EPtr (off 1))]);
   SSet (LVar "i3") (ECall _mm_cvtsi32_si128 [(EIdx EPtr (off 2))]);
   SSet (LVar "i4") (ECall _mm_cvtsi32_si128 [(EIdx EPtr (off 3))]);
   SSet (LVal (EInt 0)) (ECall _mm_unpacklo_epi32 [vv 0; (EVar "i3")]);
   SSet (LVar "i3") (ECall _mm_unpacklo_epi32 [(EVar "i2"); (EVar "i4")]);
   SSet (LVal (EInt 0)) (ECall _mm_unpacklo_epi32 [vv 0; (EVar "i3")]);
   SSet (LVal (EInt 1)) (ECall _mm_cvtsi32_si128 [(EIdx EPtr (off 4))]);
   SSet (LVar "i2") (ECall _mm_cvtsi32_si128 [(EIdx EPtr (off 5))]);
   SSet (LVar "i3") (ECall _mm_cvtsi32_si128 [(EIdx EPtr (off 6))]);
   SSet (LVar "i4") (ECall _mm_cvtsi32_si128 [(EIdx EPtr (off 7))]);
   SSet (LVal (EInt 1)) (ECall _mm_unpacklo_epi32 [vv 1; (EVar "i3")]);
   SSet (LVar "i3") (ECall _mm_unpacklo_epi32 [(EVar "i2"); (EVar "i4")]);
   SSet (LVal (EInt 1)) (ECall _mm_unpacklo_epi32 [vv 1; (EVar "i3")])].

(* short_vec_sse_int_8.hpp:313-325 *)
Definition sse_int_8_scatter : body :=
  [SSet (LMem (pto 0)) (ECall _mm_cvtsi128_si32 [vv 0]);
   SSet (LMem (pto 1)) (ECall _mm_cvtsi128_si32 [(ECall _mm_shuffle_epi32 [vv 0; (ECall _MM_SHUFFLE
    [EInt 0; EInt 3; EInt 2; EInt 1])])]);
   SSet (LMem (pto 2)) (ECall _mm_cvtsi128_si32 [(ECall _mm_shuffle_epi32 [vv 0; (ECall _MM_SHUFFLE
    [EInt 1; EInt 0; EInt 3; EInt 2])])]);
   SSet (LMem (pto 3)) (ECall _mm_cvtsi128_si32 [(ECall _mm_shuffle_epi32 [vv 0; (ECall _MM_SHUFFLE
    [EInt 2; EInt 1; EInt 0; EInt 3])])]);
   SSet (LMem (pto 4)) (ECall _mm_cvtsi128_si32 [vv 1]);
   SSet (LMem (pto 5)) (ECall _mm_cvtsi128_si32 [(ECall _mm_shuffle_epi32 [vv 1; (ECall _MM_SHUFFLE
    [EInt 0; EInt 3; EInt 2; EInt 1])])]);
   SSet (LMem (pto 6)) (ECall _mm_cvtsi128_si32 [(ECall _mm_shuffle_epi32 [vv 1; (ECall _MM_SHUFFLE
    [EInt 1; EInt 0; EInt 3; EInt 2])])]);
   SSet (LMem (pto 7)) (ECall _mm_cvtsi128_si32 [(ECall _mm_shuffle_epi32 [vv 1; (ECall _MM_SHUFFLE
    [EInt 2; EInt 1; EInt 0; EInt 3])])])].

(* short_vec_sse_int_8.hpp:358-363 *)
Definition sse_int_8_ctor_sqrt : body :=
  [SSet (LVal (EInt 0)) (ECall _mm_cvtps_epi32 [(ECall _mm_sqrt_ps [(ECall _mm_cvtepi32_ps [oo
    0])])]);
   SSet (LVal (EInt 1)) (ECall _mm_cvtps_epi32 [(ECall _mm_sqrt_ps [(ECall _mm_cvtepi32_ps [oo
    1])])])].

(* short_vec_sse_int_8.hpp:366-374 *)
Definition sse_int_8_div_eq_sqrt : body :=
  [SSet (LVal (EInt 0)) (ECall _mm_cvtps_epi32 [(ECall _mm_mul_ps [(ECall _mm_cvtepi32_ps [vv 0]);
    (ECall _mm_rsqrt_ps [(ECall _mm_cvtepi32_ps [oo 0])])])]);
   SSet (LVal (EInt 1)) (ECall _mm_cvtps_epi32 [(ECall _mm_mul_ps [(ECall _mm_cvtepi32_ps [vv 1]);
    (ECall _mm_rsqrt_ps [(ECall _mm_cvtepi32_ps [oo 1])])])])].

(* short_vec_sse_int_8.hpp:377-386 *)
Definition sse_int_8_div_sqrt : body :=
  [SRetVec [(ECall _mm_cvtps_epi32 [(ECall _mm_mul_ps [(ECall _mm_cvtepi32_ps [vv 0]); (ECall
    _mm_rsqrt_ps [(ECall _mm_cvtepi32_ps [oo 0])])])]); (ECall _mm_cvtps_epi32 [(ECall _mm_mul_ps
    [(ECall _mm_cvtepi32_ps [vv 1]); (ECall _mm_rsqrt_ps [(ECall _mm_cvtepi32_ps [oo 1])])])])]].

(* short_vec_sse_int_8.hpp:398-406 *)
Definition sse_int_8_print : list item :=
  [PStr "["; PVal (EIdx (vv 0) (EInt 0)); PStr ", "; PVal (EIdx (vv 0) (EInt 1)); PStr ", "; PVal
   (EIdx (vv 0) (EInt 2)); PStr ", "; PVal (EIdx (vv 0) (EInt 3)); PStr ", "; PVal (EIdx (vv 1)
   (EInt 0)); PStr ", "; PVal (EIdx (vv 1) (EInt 1)); PStr ", "; PVal (EIdx (vv 1) (EInt 2)); PStr
   ", "; PVal (EIdx (vv 1) (EInt 3)); PStr "]"].

(* short_vec_sse_int_8.hpp *)
Definition cls_sse_int_8 : cls :=
  mkCls "sse_int_8" KI32 8 2 4 16 MNone
    (fun m => match m with
     | MCtorScalar => Some sse_int_8_ctor_scalar
     | MCtorPtr => Some sse_int_8_ctor_ptr
     | MCtorRegs => Some sse_int_8_ctor_regs
     | MCtorSqrt => Some sse_int_8_ctor_sqrt
     | MCtorList => Some sse_int_8_ctor_list
     | MSubEq => Some sse_int_8_sub_eq
     | MSub => Some sse_int_8_sub
     | MAddEq => Some sse_int_8_add_eq
     | MAdd => Some sse_int_8_add
     | MMulEq => Some sse_int_8_mul_eq
     | MMul => Some sse_int_8_mul
     | MDivEq => Some sse_int_8_div_eq
     | MDiv => Some sse_int_8_div
     | MDivEqSqrt => Some sse_int_8_div_eq_sqrt
     | MDivSqrt => Some sse_int_8_div_sqrt
     | MSqrt => Some sse_int_8_sqrt
     | MLoad => Some sse_int_8_load
     | MLoadAligned => Some sse_int_8_load_aligned
     | MStore => Some sse_int_8_store
     | MStoreAligned => Some sse_int_8_store_aligned
     | MStoreNt => Some sse_int_8_store_nt
     | MGather => Some sse_int_8_gather
     | MScatter => Some sse_int_8_scatter
     | _ => None
     end)
    sse_int_8_ctor_regs sse_int_8_print.

(* short_vec_sse_int_8.hpp:132-137 with __SSE4_1__ *)
Definition sse_int_8_41_mul_eq : body :=
  [SSet (LVal (EInt 0)) (ECall _mm_mullo_epi32 [vv 0; oo 0]);
   SSet (LVal (EInt 1)) (ECall _mm_mullo_epi32 [vv 1; oo 1])].

(* short_vec_sse_int_8.hpp:139-145 with __SSE4_1__ *)
Definition sse_int_8_41_mul : body :=
  [SRetVec [(ECall _mm_mullo_epi32 [vv 0; oo 0]); (ECall _mm_mullo_epi32 [vv 1; oo 1])]].

(* short_vec_sse_int_8.hpp:264-276 with __SSE4_1__ *)
Definition sse_int_8_41_gather : body :=
  [SSet (LVal (EInt 0)) (ECall _mm_insert_epi32 [vv 0; (EIdx EPtr (off 0)); EInt 0]);
   SSet (LVal (EInt 0)) (ECall _mm_insert_epi32 [vv 0; (EIdx EPtr (off 1)); EInt 1]);
   SSet (LVal (EInt 0)) (ECall _mm_insert_epi32 [vv 0; (EIdx EPtr (off 2)); EInt 2]);
   SSet (LVal (EInt 0)) (ECall _mm_insert_epi32 [vv 0; (EIdx EPtr (off 3)); EInt 3]);
   SSet (LVal (EInt 1)) (ECall _mm_insert_epi32 [vv 1; (EIdx EPtr (off 4)); EInt 0]);
   SSet (LVal (EInt 1)) (ECall _mm_insert_epi32 [vv 1; (EIdx EPtr (off 5)); EInt 1]);
   SSet (LVal (EInt 1)) (ECall _mm_insert_epi32 [vv 1; (EIdx EPtr (off 6)); EInt 2]);
   SSet (LVal (EInt 1)) (ECall _mm_insert_epi32 [vv 1; (EIdx EPtr (off 7)); EInt 3])].

(* short_vec_sse_int_8.hpp:278-290 with __SSE4_1__ *)
Definition sse_int_8_41_scatter : body :=
  [SSet (LMem (pto 0)) (ECall _mm_extract_epi32 [vv 0; EInt 0]);
   SSet (LMem (pto 1)) (ECall _mm_extract_epi32 [vv 0; EInt 1]);
   SSet (LMem (pto 2)) (ECall _mm_extract_epi32 [vv 0; EInt 2]);
   SSet (LMem (pto 3)) (ECall _mm_extract_epi32 [vv 0; EInt 3]);
   SSet (LMem (pto 4)) (ECall _mm_extract_epi32 [vv 1; EInt 0]);
   SSet (LMem (pto 5)) (ECall _mm_extract_epi32 [vv 1; EInt 1]);
   SSet (LMem (pto 6)) (ECall _mm_extract_epi32 [vv 1; EInt 2]);
   SSet (LMem (pto 7)) (ECall _mm_extract_epi32 [vv 1; EInt 3])].

(* short_vec_sse_int_8.hpp with __SSE4_1__ *)
Definition cls_sse_int_8_41 : cls :=
  mkCls "sse_int_8_41" KI32 8 2 4 16 MNone
    (fun m => match m with
     | MCtorScalar => Some sse_int_8_ctor_scalar
     | MCtorPtr => Some sse_int_8_ctor_ptr
     | MCtorRegs => Some sse_int_8_ctor_regs
     | MCtorSqrt => Some sse_int_8_ctor_sqrt
     | MCtorList => Some sse_int_8_ctor_list
     | MSubEq => Some sse_int_8_sub_eq
     | MSub => Some sse_int_8_sub
     | MAddEq => Some sse_int_8_add_eq
     | MAdd => Some sse_int_8_add
     | MMulEq => Some sse_int_8_41_mul_eq
     | MMul => Some sse_int_8_41_mul
     | MDivEq => Some sse_int_8_div_eq
     | MDiv => Some sse_int_8_div
     | MDivEqSqrt => Some sse_int_8_div_eq_sqrt
     | MDivSqrt => Some sse_int_8_div_sqrt
     | MSqrt => Some sse_int_8_sqrt
     | MLoad => Some sse_int_8_load
     | MLoadAligned => Some sse_int_8_load_aligned
     | MStore => Some sse_int_8_store
     | MStoreAligned => Some sse_int_8_store_aligned
     | MStoreNt => Some sse_int_8_store_nt
     | MGather => Some sse_int_8_41_gather
     | MScatter => Some sse_int_8_41_scatter
     | _ => None
     end)
    sse_int_8_ctor_regs sse_int_8_print.

(* short_vec_sse_int_16.hpp:71-77 *)
Definition sse_int_16_ctor_scalar : body :=
  [SSet (LVal (EInt 0)) (ECall _mm_set1_epi32 [EArg]);
   SSet (LVal (EInt 1)) (ECall _mm_set1_epi32 [EArg]);
   SSet (LVal (EInt 2)) (ECall _mm_set1_epi32 [EArg]);
   SSet (LVal (EInt 3)) (ECall _mm_set1_epi32 [EArg])].

(* short_vec_sse_int_16.hpp:79-83 *)
Definition sse_int_16_ctor_ptr : body :=
  [SSet (LVal (EInt 0)) (ECall _mm_loadu_si128 [dat 0]);
   SSet (LVal (EInt 1)) (ECall _mm_loadu_si128 [dat 4]);
   SSet (LVal (EInt 2)) (ECall _mm_loadu_si128 [dat 8]);
   SSet (LVal (EInt 3)) (ECall _mm_loadu_si128 [dat 12])].

(* short_vec_sse_int_16.hpp:85-95 *)
Definition sse_int_16_ctor_regs : body :=
  [SSet (LVal (EInt 0)) (EPar 0);
   SSet (LVal (EInt 1)) (EPar 1);
   SSet (LVal (EInt 2)) (EPar 2);
   SSet (LVal (EInt 3)) (EPar 3)].

(* short_vec_sse_int_16.hpp:98-103 *)
Definition sse_int_16_ctor_list : body :=
  [SSet (LVal (EInt 0)) (ECall _mm_loadu_si128 [dat 0]);
   SSet (LVal (EInt 1)) (ECall _mm_loadu_si128 [dat 4]);
   SSet (LVal (EInt 2)) (ECall _mm_loadu_si128 [dat 8]);
   SSet (LVal (EInt 3)) (ECall _mm_loadu_si128 [dat 12])].

(* short_vec_sse_int_16.hpp:109-116 *)
Definition sse_int_16_sub_eq : body :=
  [SSet (LVal (EInt 0)) (ECall _mm_sub_epi32 [vv 0; oo 0]);
   SSet (LVal (EInt 1)) (ECall _mm_sub_epi32 [vv 1; oo 1]);
   SSet (LVal (EInt 2)) (ECall _mm_sub_epi32 [vv 2; oo 2]);
   SSet (LVal (EInt 3)) (ECall _mm_sub_epi32 [vv 3; oo 3])].

(* short_vec_sse_int_16.hpp:118-126 *)
Definition sse_int_16_sub : body :=
  [SRetVec [(ECall _mm_sub_epi32 [vv 0; oo 0]); (ECall _mm_sub_epi32 [vv 1; oo 1]); (ECall
    _mm_sub_epi32 [vv 2; oo 2]); (ECall _mm_sub_epi32 [vv 3; oo 3])]].

(* short_vec_sse_int_16.hpp:128-135 *)
Definition sse_int_16_add_eq : body :=
  [SSet (LVal (EInt 0)) (ECall _mm_add_epi32 [vv 0; oo 0]);
   SSet (LVal (EInt 1)) (ECall _mm_add_epi32 [vv 1; oo 1]);
   SSet (LVal (EInt 2)) (ECall _mm_add_epi32 [vv 2; oo 2]);
   SSet (LVal (EInt 3)) (ECall _mm_add_epi32 [vv 3; oo 3])].

(* short_vec_sse_int_16.hpp:137-145 *)
Definition sse_int_16_add : body :=
  [SRetVec [(ECall _mm_add_epi32 [vv 0; oo 0]); (ECall _mm_add_epi32 [vv 1; oo 1]); (ECall
    _mm_add_epi32 [vv 2; oo 2]); (ECall _mm_add_epi32 [vv 3; oo 3])]].

(* short_vec_sse_int_16.hpp:167-198 *)
Definition sse_int_16_mul_eq : body :=
  [SSet (LVar "tmp1") (ECall _mm_mul_epu32 [vv 0; oo 0]);
   SSet (LVar "tmp2") (ECall _mm_mul_epu32 [(ECall _mm_srli_si128 [vv 0; EInt 4]); (ECall
    _mm_srli_si128 [oo 0; EInt 4])]);
   SSet (LVal (EInt 0)) (ECall _mm_unpacklo_epi32 [(ECall _mm_shuffle_epi32 [(EVar "tmp1"); (ECall
    _MM_SHUFFLE [EInt 0; EInt 0; EInt 2; EInt 0])]); (ECall _mm_shuffle_epi32 [(EVar "tmp2"); (ECall
    _MM_SHUFFLE [EInt 0; EInt 0; EInt 2; EInt 0])])]);
   SSet (LVar "tmp1") (ECall _mm_mul_epu32 [vv 1; oo 1]);
   SSet (LVar "tmp2") (ECall _mm_mul_epu32 [(ECall _mm_srli_si128 [vv 1; EInt 4]); (ECall
    _mm_srli_si128 [oo 1; EInt 4])]);
   SSet (LVal (EInt 1)) (ECall _mm_unpacklo_epi32 [(ECall _mm_shuffle_epi32 [(EVar "tmp1"); (ECall
    _MM_SHUFFLE [EInt 0; EInt 0; EInt 2; EInt 0])]); (ECall _mm_shuffle_epi32 [(EVar "tmp2"); (ECall
    _MM_SHUFFLE [EInt 0; EInt 0; EInt 2; EInt 0])])]);
   SSet (LVar "tmp1") (ECall _mm_mul_epu32 [vv 2; oo 2]);
   SSet (LVar "tmp2") (ECall _mm_mul_epu32 [(ECall _mm_srli_si128 [vv 2; EInt 4]); (ECall
    _mm_srli_si128 [oo 2; EInt 4])]);
   SSet (LVal (EInt 2)) (ECall _mm_unpacklo_epi32 [(ECall _mm_shuffle_epi32 [(EVar "tmp1"); (ECall
    _MM_SHUFFLE [EInt 0; EInt 0; EInt 2; EInt 0])]); (ECall _mm_shuffle_epi32 [(EVar "tmp2"); (ECall
    _MM_SHUFFLE [EInt 0; EInt 0; EInt 2; EInt 0])])]);
   SSet (LVar "tmp1") (ECall _mm_mul_epu32 [vv 3; oo 3]);
   SSet (LVar "tmp2") (ECall _mm_mul_epu32 [(ECall _mm_srli_si128 [vv 3; EInt 4]); (ECall
    _mm_srli_si128 [oo 3; EInt 4])]);
   SSet (LVal (EInt 3)) (ECall _mm_unpacklo_epi32 [(ECall _mm_shuffle_epi32 [(EVar "tmp1"); (ECall
    _MM_SHUFFLE [EInt 0; EInt 0; EInt 2; EInt 0])]); (ECall _mm_shuffle_epi32 [(EVar "tmp2"); (ECall
    _MM_SHUFFLE [EInt 0; EInt 0; EInt 2; EInt 0])])])].

(* short_vec_sse_int_16.hpp:200-233 *)
Definition sse_int_16_mul : body :=
  [SSet (LVar "tmp1") (ECall _mm_mul_epu32 [vv 0; oo 0]);
   SSet (LVar "tmp2") (ECall _mm_mul_epu32 [(ECall _mm_srli_si128 [vv 0; EInt 4]); (ECall
    _mm_srli_si128 [oo 0; EInt 4])]);
   SSet (LVar "result1") (ECall _mm_unpacklo_epi32 [(ECall _mm_shuffle_epi32 [(EVar "tmp1"); (ECall
    _MM_SHUFFLE [EInt 0; EInt 0; EInt 2; EInt 0])]); (ECall _mm_shuffle_epi32 [(EVar "tmp2"); (ECall
    _MM_SHUFFLE [EInt 0; EInt 0; EInt 2; EInt 0])])]);
   SSet (LVar "tmp1") (ECall _mm_mul_epu32 [vv 1; oo 1]);
   SSet (LVar "tmp2") (ECall _mm_mul_epu32 [(ECall _mm_srli_si128 [vv 1; EInt 4]); (ECall
    _mm_srli_si128 [oo 1; EInt 4])]);
   SSet (LVar "result2") (ECall _mm_unpacklo_epi32 [(ECall _mm_shuffle_epi32 [(EVar "tmp1"); (ECall
    _MM_SHUFFLE [EInt 0; EInt 0; EInt 2; EInt 0])]); (ECall _mm_shuffle_epi32 [(EVar "tmp2"); (ECall
    _MM_SHUFFLE [EInt 0; EInt 0; EInt 2; EInt 0])])]);
   SSet (LVar "tmp1") (ECall _mm_mul_epu32 [vv 2; oo 2]);
   SSet (LVar "tmp2") (ECall _mm_mul_epu32 [(ECall _mm_srli_si128 [vv 2; EInt 4]); (ECall
    _mm_srli_si128 [oo 2; EInt 4])]);
   SSet (LVar "result3") (ECall _mm_unpacklo_epi32 [(ECall _mm_shuffle_epi32 [(EVar "tmp1"); (ECall
    _MM_SHUFFLE [EInt 0; EInt 0; EInt 2; EInt 0])]); (ECall _mm_shuffle_epi32 [(EVar "tmp2"); (ECall
    _MM_SHUFFLE [EInt 0; EInt 0; EInt 2; EInt 0])])]);
   SSet (LVar "tmp1") (ECall _mm_mul_epu32 [vv 3; oo 3]);
   SSet (LVar "tmp2") (ECall _mm_mul_epu32 [(ECall _mm_srli_si128 [vv 3; EInt 4]); (ECall
    _mm_srli_si128 [oo 3; EInt 4])]);
   SSet (LVar "result4") (ECall _mm_unpacklo_epi32 [(ECall _mm_shuffle_epi32 [(EVar "tmp1"); (ECall
    _MM_SHUFFLE [EInt 0; EInt 0; EInt 2; EInt 0])]); (ECall _mm_shuffle_epi32 [(EVar "tmp2"); (ECall
    _MM_SHUFFLE [EInt 0; EInt 0; EInt 2; EInt 0])])]);
   SRetVec [(EVar "result1"); (EVar "result2"); (EVar "result3"); (EVar "result4")]].

(* short_vec_sse_int_16.hpp:236-247 *)
Definition sse_int_16_div_eq : body :=
  [SSet (LVal (EInt 0)) (ECall _mm_cvtps_epi32 [(ECall _mm_div_ps [(ECall _mm_cvtepi32_ps [vv 0]);
    (ECall _mm_cvtepi32_ps [oo 0])])]);
   SSet (LVal (EInt 1)) (ECall _mm_cvtps_epi32 [(ECall _mm_div_ps [(ECall _mm_cvtepi32_ps [vv 1]);
    (ECall _mm_cvtepi32_ps [oo 1])])]);
   SSet (LVal (EInt 2)) (ECall _mm_cvtps_epi32 [(ECall _mm_div_ps [(ECall _mm_cvtepi32_ps [vv 2]);
    (ECall _mm_cvtepi32_ps [oo 2])])]);
   SSet (LVal (EInt 3)) (ECall _mm_cvtps_epi32 [(ECall _mm_div_ps [(ECall _mm_cvtepi32_ps [vv 3]);
    (ECall _mm_cvtepi32_ps [oo 3])])])].

(* short_vec_sse_int_16.hpp:252-268 *)
Definition sse_int_16_div : body :=
  [SRetVec [(ECall _mm_cvttps_epi32 [(ECall _mm_div_ps [(ECall _mm_cvtepi32_ps [vv 0]); (ECall
    _mm_cvtepi32_ps [oo 0])])]); (ECall _mm_cvttps_epi32 [(ECall _mm_div_ps [(ECall _mm_cvtepi32_ps
    [vv 1]); (ECall _mm_cvtepi32_ps [oo 1])])]); (ECall _mm_cvttps_epi32 [(ECall _mm_div_ps [(ECall
    _mm_cvtepi32_ps [vv 2]); (ECall _mm_cvtepi32_ps [oo 2])])]); (ECall _mm_cvttps_epi32 [(ECall
    _mm_div_ps [(ECall _mm_cvtepi32_ps [vv 3]); (ECall _mm_cvtepi32_ps [oo 3])])])]].

(* short_vec_sse_int_16.hpp:273-285 *)
Definition sse_int_16_sqrt : body :=
  [SRetVec [(ECall _mm_cvtps_epi32 [(ECall _mm_sqrt_ps [(ECall _mm_cvtepi32_ps [vv 0])])]); (ECall
    _mm_cvtps_epi32 [(ECall _mm_sqrt_ps [(ECall _mm_cvtepi32_ps [vv 1])])]); (ECall _mm_cvtps_epi32
    [(ECall _mm_sqrt_ps [(ECall _mm_cvtepi32_ps [vv 2])])]); (ECall _mm_cvtps_epi32 [(ECall
    _mm_sqrt_ps [(ECall _mm_cvtepi32_ps [vv 3])])])]].

(* short_vec_sse_int_16.hpp:287-294 *)
Definition sse_int_16_load : body :=
  [SSet (LVal (EInt 0)) (ECall _mm_loadu_si128 [dat 0]);
   SSet (LVal (EInt 1)) (ECall _mm_loadu_si128 [dat 4]);
   SSet (LVal (EInt 2)) (ECall _mm_loadu_si128 [dat 8]);
   SSet (LVal (EInt 3)) (ECall _mm_loadu_si128 [dat 12])].

(* short_vec_sse_int_16.hpp:296-304 *)
Definition sse_int_16_load_aligned : body :=
  [SAssertAligned EData 16;
   SSet (LVal (EInt 0)) (ECall _mm_load_si128 [dat 0]);
   SSet (LVal (EInt 1)) (ECall _mm_load_si128 [dat 4]);
   SSet (LVal (EInt 2)) (ECall _mm_load_si128 [dat 8]);
   SSet (LVal (EInt 3)) (ECall _mm_load_si128 [dat 12])].

(* short_vec_sse_int_16.hpp:306-313 *)
Definition sse_int_16_store : body :=
  [SDo (ECall _mm_storeu_si128 [dat 0; vv 0]);
   SDo (ECall _mm_storeu_si128 [dat 4; vv 1]);
   SDo (ECall _mm_storeu_si128 [dat 8; vv 2]);
   SDo (ECall _mm_storeu_si128 [dat 12; vv 3])].

(* short_vec_sse_int_16.hpp:315-323 *)
Definition sse_int_16_store_aligned : body :=
  [SAssertAligned EData 16;
   SDo (ECall _mm_store_si128 [dat 0; vv 0]);
   SDo (ECall _mm_store_si128 [dat 4; vv 1]);
   SDo (ECall _mm_store_si128 [dat 8; vv 2]);
   SDo (ECall _mm_store_si128 [dat 12; vv 3])].

(* short_vec_sse_int_16.hpp:325-333 *)
Definition sse_int_16_store_nt : body :=
  [SAssertAligned EData 16;
   SDo (ECall _mm_stream_si128 [dat 0; vv 0]);
   SDo (ECall _mm_stream_si128 [dat 4; vv 1]);
   SDo (ECall _mm_stream_si128 [dat 8; vv 2]);
   SDo (ECall _mm_stream_si128 [dat 12; vv 3])].

(* short_vec_sse_int_16.hpp:384-419 *)
Definition sse_int_16_gather : body :=
  [SDecl "i2" 4;
   SDecl "i3" 4;
   SDecl "i4" 4;
   SSet (LVal (EInt 0)) (ECall _mm_cvtsi32_si128 [(EIdx EPtr (off 0))]);
   SSet (LVar "i2") (ECall _mm_cvtsi32_si128 [(EIdx EPtr (off 1))]);
   SSet (LVar "i3") (ECall _mm_cvtsi32_si128 [(EIdx EPtr (off 2))]);
   SSet (LVar "i4") (ECall _mm_cvtsi32_si128 [(EIdx EPtr (off 3))]);
   SSet (LVal (EInt 0)) (ECall _mm_unpacklo_epi32 [vv 0; (EVar "i3")]);
   SSet (LVar "i3") (ECall _mm_unpacklo_epi32 [(EVar "i2"); (EVar "i4")]);
   SSet (LVal (EInt 0)) (ECall _mm_unpacklo_epi32 [vv 0; (EVar "i3")]);
   SSet (LVal (EInt 1)) (ECall _mm_cvtsi32_si128 [(EIdx EPtr (off 4))]);
   SSet (LVar "i2") (ECall _mm_cvtsi32_si128 [(EIdx EPtr (off 5))]);
   SSet (LVar "i3") (ECall _mm_cvtsi32_si128 [(EIdx EPtr (off 6))]);
   SSet (LVar "i4") (ECall _mm_cvtsi32_si128 [(EIdx EPtr (off 7))]);
   SSet (LVal (EInt 1)) (ECall _mm_unpacklo_epi32 [vv 1; (EVar "i3")]);
   SSet (LVar "i3") (ECall _mm_unpacklo_epi32 [(EVar "i2"); (EVar "i4")]);
   SSet (LVal (EInt 1)) (ECall _mm_unpacklo_epi32 [vv 1; (EVar "i3")]);
   SSet (LVal (EInt 2)) (ECall _mm_cvtsi32_si128 [(EIdx EPtr (off 8))]);
   SSet (LVar "i2") (ECall _mm_cvtsi32_si128 [(EIdx EPtr (off 9))]);
   SSet (LVar "i3") (ECall _mm_cvtsi32_si128 [(EIdx EPtr (off 10))]);
   SSet (LVar "i4") (ECall _mm_cvtsi32_si128 [(EIdx EPtr (off 11))]);
   SSet (LVal (EInt 2)) (ECall _mm_unpacklo_epi32 [vv 2; (EVar "i3")]);
   SSet (LVar "i3") (ECall _mm_unpacklo_epi32 [(EVar "i2"); (EVar "i4")]);
   SSet (LVal (EInt 2)) (ECall _mm_unpacklo_epi32 [vv 2; (EVar "i3")]);
   SSet (LVal (EInt 3)) (ECall _mm_cvtsi32_si128 [(EIdx EPtr (off 12))]);
   SSet (LVar "i2") (ECall _mm_cvtsi32_si128 [(EIdx EPtr (off 13))]);
   SSet (LVar "i3") (ECall _mm_cvtsi32_si128 [(EIdx EPtr (off 14))]);
   SSet (LVar "i4") (ECall _mm_cvtsi32_si128 [(EIdx EPtr (off 15))]);
   SSet (LVal (EInt 3)) (ECall _mm_unpacklo_epi32 [vv 3; (EVar "i3")]);
   SSet (LVar "i3") (ECall _mm_unpacklo_epi32 [(EVar "i2"); (EVar "i4")]);
   SSet (LVal (EInt 3)) (ECall _mm_unpacklo_epi32 [vv 3; (EVar "i3")])].

(* short_vec_sse_int_16.hpp:421-443 *)
Definition sse_int_16_scatter : body :=
  [SSet (LMem (pto 0)) (ECall _mm_cvtsi128_si32 [vv 0]);
   SSet (LMem (pto 1)) (ECall _mm_cvtsi128_si32 [(ECall _mm_shuffle_epi32 [vv 0; (ECall _MM_SHUFFLE
    [EInt 0; EInt 3; EInt 2; EInt 1])])]);
   SSet (LMem (pto 2)) (ECall _mm_cvtsi128_si32 [(ECall _mm_shuffle_epi32 [vv 0; (ECall _MM_SHUFFLE
    [EInt 1; EInt 0; EInt 3; EInt 2])])]);
   SSet (LMem (pto 3)) (ECall _mm_cvtsi128_si32 [(ECall _mm_shuffle_epi32 [vv 0; (ECall _MM_SHUFFLE
    [EInt 2; EInt 1; EInt 0; EInt 3])])]);
   SSet (LMem (pto 4)) (ECall _mm_cvtsi128_si32 [vv 1]);
   SSet (LMem (pto 5)) (ECall _mm_cvtsi128_si32 [(ECall _mm_shuffle_epi32 [vv 1; (ECall _MM_SHUFFLE
    [EInt 0; EInt 3; EInt 2; EInt 1])])]);
   SSet (LMem (pto 6)) (ECall _mm_cvtsi128_si32 [(ECall _mm_shuffle_epi32 [vv 1; (ECall _MM_SHUFFLE
    [EInt 1; EInt 0; EInt 3; EInt 2])])]);
   SSet (LMem (pto 7)) (ECall _mm_cvtsi128_si32 [(ECall _mm_shuffle_epi32 [vv 1; (ECall _MM_SHUFFLE
    [EInt 2; EInt 1; EInt 0; EInt 3])])]);
   SSet (LMem (pto 8)) (ECall _mm_cvtsi128_si32 [vv 2]);
   SSet (LMem (pto 9)) (ECall _mm_cvtsi128_si32 [(ECall _mm_shuffle_epi32 [vv 2; (ECall _MM_SHUFFLE
    [EInt 0; EInt 3; EInt 2; EInt 1])])]);
   SSet (LMem (pto 10)) (ECall _mm_cvtsi128_si32 [(ECall _mm_shuffle_epi32 [vv 2; (ECall
    _MM_SHUFFLE [EInt 1; EInt 0; EInt 3; EInt 2])])]);
   SSet (LMem (pto 11)) (ECall _mm_cvtsi128_si32 [(ECall _mm_shuffle_epi32 [vv 2; (ECall
    _MM_SHUFFLE [EInt 2; EInt 1; EInt 0; EInt 3])])]);
   SSet (LMem (pto 12)) (ECall _mm_cvtsi128_si32 [vv 3]);
   SSet (LMem (pto 13)) (ECall _mm_cvtsi128_si32 [(ECall _mm_shuffle_epi32 [vv 3; (ECall
    _MM_SHUFFLE [EInt 0; EInt 3; EInt 2; EInt 1])])]);
   SSet (LMem (pto 14)) (ECall _mm_cvtsi128_si32 [(ECall _mm_shuffle_epi32 [vv 3; (ECall
    _MM_SHUFFLE [EInt 1; EInt 0; EInt 3; EInt 2])])]);
   SSet (LMem (pto 15)) (ECall _mm_cvtsi128_si32 [(ECall _mm_shuffle_epi32 [vv 3; (ECall
    _MM_SHUFFLE [EInt 2; EInt 1; EInt 0; EInt 3])])])].

(* short_vec_sse_int_16.hpp:476-486 *)
Definition sse_int_16_ctor_sqrt : body :=
  [SSet (LVal (EInt 0)) (ECall _mm_cvtps_epi32 [(ECall _mm_sqrt_ps [(ECall _mm_cvtepi32_ps [oo
    0])])]);
   SSet (LVal (EInt 1)) (ECall _mm_cvtps_epi32 [(ECall _mm_sqrt_ps [(ECall _mm_cvtepi32_ps [oo
    1])])]);
   SSet (LVal (EInt 2)) (ECall _mm_cvtps_epi32 [(ECall _mm_sqrt_ps [(ECall _mm_cvtepi32_ps [oo
    2])])]);
   SSet (LVal (EInt 3)) (ECall _mm_cvtps_epi32 [(ECall _mm_sqrt_ps [(ECall _mm_cvtepi32_ps [oo
    3])])])].

(* short_vec_sse_int_16.hpp:489-503 *)
Definition sse_int_16_div_eq_sqrt : body :=
  [SSet (LVal (EInt 0)) (ECall _mm_cvtps_epi32 [(ECall _mm_mul_ps [(ECall _mm_cvtepi32_ps [vv 0]);
    (ECall _mm_rsqrt_ps [(ECall _mm_cvtepi32_ps [oo 0])])])]);
   SSet (LVal (EInt 1)) (ECall _mm_cvtps_epi32 [(ECall _mm_mul_ps [(ECall _mm_cvtepi32_ps [vv 1]);
    (ECall _mm_rsqrt_ps [(ECall _mm_cvtepi32_ps [oo 1])])])]);
   SSet (LVal (EInt 2)) (ECall _mm_cvtps_epi32 [(ECall _mm_mul_ps [(ECall _mm_cvtepi32_ps [vv 2]);
    (ECall _mm_rsqrt_ps [(ECall _mm_cvtepi32_ps [oo 2])])])]);
   SSet (LVal (EInt 3)) (ECall _mm_cvtps_epi32 [(ECall _mm_mul_ps [(ECall _mm_cvtepi32_ps [vv 3]);
    (ECall _mm_rsqrt_ps [(ECall _mm_cvtepi32_ps [oo 3])])])])].

(* short_vec_sse_int_16.hpp:506-521 *)
Definition sse_int_16_div_sqrt : body :=
  [SRetVec [(ECall _mm_cvtps_epi32 [(ECall _mm_mul_ps [(ECall _mm_cvtepi32_ps [vv 0]); (ECall
    _mm_rsqrt_ps [(ECall _mm_cvtepi32_ps [oo 0])])])]); (ECall _mm_cvtps_epi32 [(ECall _mm_mul_ps
    [(ECall _mm_cvtepi32_ps [vv 1]); (ECall _mm_rsqrt_ps [(ECall _mm_cvtepi32_ps [oo 1])])])]);
    (ECall _mm_cvtps_epi32 [(ECall _mm_mul_ps [(ECall _mm_cvtepi32_ps [vv 2]); (ECall _mm_rsqrt_ps
    [(ECall _mm_cvtepi32_ps [oo 2])])])]); (ECall _mm_cvtps_epi32 [(ECall _mm_mul_ps [(ECall
    _mm_cvtepi32_ps [vv 3]); (ECall _mm_rsqrt_ps [(ECall _mm_cvtepi32_ps [oo 3])])])])]].

(* short_vec_sse_int_16.hpp:533-545 *)
Definition sse_int_16_print : list item :=
  [PStr "["; PVal (EIdx (vv 0) (EInt 0)); PStr ", "; PVal (EIdx (vv 0) (EInt 1)); PStr ", "; PVal
   (EIdx (vv 0) (EInt 2)); PStr ", "; PVal (EIdx (vv 0) (EInt 3)); PStr ", "; PVal (EIdx (vv 1)
   (EInt 0)); PStr ", "; PVal (EIdx (vv 1) (EInt 1)); PStr ", "; PVal (EIdx (vv 1) (EInt 2)); PStr
   ", "; PVal (EIdx (vv 1) (EInt 3)); PStr ", "; PVal (EIdx (vv 2) (EInt 0)); PStr ", "; PVal (EIdx
   (vv 2) (EInt 1)); PStr ", "; PVal (EIdx (vv 2) (EInt 2)); PStr ", "; PVal (EIdx (vv 2) (EInt
   3)); PStr ", "; PVal (EIdx (vv 3) (EInt 0)); PStr ", "; PVal (EIdx (vv 3) (EInt 1)); PStr ", ";
   PVal (EIdx (vv 3) (EInt 2)); PStr ", "; PVal (EIdx (vv 3) (EInt 3)); PStr "]"].

(* short_vec_sse_int_16.hpp *)
Definition cls_sse_int_16 : cls :=
  mkCls "sse_int_16" KI32 16 4 4 16 MNone
    (fun m => match m with
     | MCtorScalar => Some sse_int_16_ctor_scalar
     | MCtorPtr => Some sse_int_16_ctor_ptr
     | MCtorRegs => Some sse_int_16_ctor_regs
     | MCtorSqrt => Some sse_int_16_ctor_sqrt
     | MCtorList => Some sse_int_16_ctor_list
     | MSubEq => Some sse_int_16_sub_eq
     | MSub => Some sse_int_16_sub
     | MAddEq => Some sse_int_16_add_eq
     | MAdd => Some sse_int_16_add
     | MMulEq => Some sse_int_16_mul_eq
     | MMul => Some sse_int_16_mul
     | MDivEq => Some sse_int_16_div_eq
     | MDiv => Some sse_int_16_div
     | MDivEqSqrt => Some sse_int_16_div_eq_sqrt
     | MDivSqrt => Some sse_int_16_div_sqrt
     | MSqrt => Some sse_int_16_sqrt
     | MLoad => Some sse_int_16_load
     | MLoadAligned => Some sse_int_16_load_aligned
     | MStore => Some sse_int_16_store
     | MStoreAligned => Some sse_int_16_store_aligned
     | MStoreNt => Some sse_int_16_store_nt
     | MGather => Some sse_int_16_gather
     | MScatter => Some sse_int_16_scatter
     | _ => None
     end)
    sse_int_16_ctor_regs sse_int_16_print.

(* short_vec_sse_int_16.hpp:148-155 with __SSE4_1__ *)
Definition sse_int_16_41_mul_eq : body :=
  [SSet (LVal (EInt 0)) (ECall _mm_mullo_epi32 [vv 0; oo 0]);
   SSet (LVal (EInt 1)) (ECall _mm_mullo_epi32 [vv 1; oo 1]);
   SSet (LVal (EInt 2)) (ECall _mm_mullo_epi32 [vv 2; oo 2]);
   SSet (LVal (EInt 3)) (ECall _mm_mullo_epi32 [vv 3; oo 3])].

(* short_vec_sse_int_16.hpp:157-165 with __SSE4_1__ *)
Definition sse_int_16_41_mul : body :=
  [SRetVec [(ECall _mm_mullo_epi32 [vv 0; oo 0]); (ECall _mm_mullo_epi32 [vv 1; oo 1]); (ECall
    _mm_mullo_epi32 [vv 2; oo 2]); (ECall _mm_mullo_epi32 [vv 3; oo 3])]].

(* short_vec_sse_int_16.hpp:336-358 with __SSE4_1__ *)
Definition sse_int_16_41_gather : body :=
  [SSet (LVal (EInt 0)) (ECall _mm_insert_epi32 [vv 0; (EIdx EPtr (off 0)); EInt 0]);
   SSet (LVal (EInt 0)) (ECall _mm_insert_epi32 [vv 0; (EIdx EPtr (off 1)); EInt 1]);
   SSet (LVal (EInt 0)) (ECall _mm_insert_epi32 [vv 0; (EIdx EPtr (off 2)); EInt 2]);
   SSet (LVal (EInt 0)) (ECall _mm_insert_epi32 [vv 0; (EIdx EPtr (off 3)); EInt 3]);
   SSet (LVal (EInt 1)) (ECall _mm_insert_epi32 [vv 1; (EIdx EPtr (off 4)); EInt 0]);
   SSet (LVal (EInt 1)) (ECall _mm_insert_epi32 [vv 1; (EIdx EPtr (off 5)); EInt 1]);
   SSet (LVal (EInt 1)) (ECall _mm_insert_epi32 [vv 1; (EIdx EPtr (off 6)); EInt 2]);
   SSet (LVal (EInt 1)) (ECall _mm_insert_epi32 [vv 1; (EIdx EPtr (off 7)); EInt 3]);
   SSet (LVal (EInt 2)) (ECall _mm_insert_epi32 [vv 2; (EIdx EPtr (off 8)); EInt 0]);
   SSet (LVal (EInt 2)) (ECall _mm_insert_epi32 [vv 2; (EIdx EPtr (off 9)); EInt 1]);
   SSet (LVal (EInt 2)) (ECall _mm_insert_epi32 [vv 2; (EIdx EPtr (off 10)); EInt 2]);
   SSet (LVal (EInt 2)) (ECall _mm_insert_epi32 [vv 2; (EIdx EPtr (off 11)); EInt 3]);
   SSet (LVal (EInt 3)) (ECall _mm_insert_epi32 [vv 3; (EIdx EPtr (off 12)); EInt 0]);
   SSet (LVal (EInt 3)) (ECall _mm_insert_epi32 [vv 3; (EIdx EPtr (off 13)); EInt 1]);
   SSet (LVal (EInt 3)) (ECall _mm_insert_epi32 [vv 3; (EIdx EPtr (off 14)); EInt 2]);
   SSet (LVal (EInt 3)) (ECall _mm_insert_epi32 [vv 3; (EIdx EPtr (off 15)); EInt 3])].

(* short_vec_sse_int_16.hpp:360-382 with __SSE4_1__ *)
Definition sse_int_16_41_scatter : body :=
  [SSet (LMem (pto 0)) (ECall _mm_extract_epi32 [vv 0; EInt 0]);
   SSet (LMem (pto 1)) (ECall _mm_extract_epi32 [vv 0; EInt 1]);
   SSet (LMem (pto 2)) (ECall _mm_extract_epi32 [vv 0; EInt 2]);
   SSet (LMem (pto 3)) (ECall _mm_extract_epi32 [vv 0; EInt 3]);
   SSet (LMem (pto 4)) (ECall _mm_extract_epi32 [vv 1; EInt 0]);
   SSet (LMem (pto 5)) (ECall _mm_extract_epi32 [vv 1; EInt 1]);
   SSet (LMem (pto 6)) (ECall _mm_extract_epi32 [vv 1; EInt 2]);
   SSet (LMem (pto 7)) (ECall _mm_extract_epi32 [vv 1; EInt 3]);
   SSet (LMem (pto 8)) (ECall _mm_extract_epi32 [vv 2; EInt 0]);
   SSet (LMem (pto 9)) (ECall _mm_extract_epi32 [vv 2; EInt 1]);
   SSet (LMem (pto 10)) (ECall _mm_extract_epi32 [vv 2; EInt 2]);
   SSet (LMem (pto 11)) (ECall _mm_extract_epi32 [vv 2; EInt 3]);
   SSet (LMem (pto 12)) (ECall _mm_extract_epi32 [vv 3; EInt 0]);
   SSet (LMem (pto 13)) (ECall _mm_extract_epi32 [vv 3; EInt 1]);
   SSet (LMem (pto 14)) (ECall _mm_extract_epi32 [vv 3; EInt 2]);
   SSet (LMem (pto 15)) (ECall _mm_extract_epi32 [vv 3; EInt 3])].

(* short_vec_sse_int_16.hpp with __SSE4_1__ *)
Definition cls_sse_int_16_41 : cls :=
  mkCls "sse_int_16_41" KI32 16 4 4 16 MNone
    (fun m => match m with
     | MCtorScalar => Some sse_int_16_ctor_scalar
     | MCtorPtr => Some sse_int_16_ctor_ptr
     | MCtorRegs => Some sse_int_16_ctor_regs
     | MCtorSqrt => Some sse_int_16_ctor_sqrt
     | MCtorList => Some sse_int_16_ctor_list
     | MSubEq => Some sse_int_16_sub_eq
     | MSub => Some sse_int_16_sub
     | MAddEq => Some sse_int_16_add_eq
     | MAdd => Some sse_int_16_add
     | MMulEq => Some sse_int_16_41_mul_eq
     | MMul => Some sse_int_16_41_mul
     | MDivEq => Some sse_int_16_div_eq
     | MDiv => Some sse_int_16_div
     | MDivEqSqrt => Some sse_int_16_div_eq_sqrt
     | MDivSqrt => Some sse_int_16_div_sqrt
     | MSqrt => Some sse_int_16_sqrt
     | MLoad => Some sse_int_16_load
     | MLoadAligned => Some sse_int_16_load_aligned
     | MStore => Some sse_int_16_store
     | MStoreAligned => Some sse_int_16_store_aligned
     | MStoreNt => Some sse_int_16_store_nt
     | MGather => Some sse_int_16_41_gather
     | MScatter => Some sse_int_16_41_scatter
     | _ => None
     end)
    sse_int_16_ctor_regs sse_int_16_print.

(* short_vec_sse_int_32.hpp:71-81 *)
Definition sse_int_32_ctor_scalar : body :=
  [SSet (LVal (EInt 0)) (ECall _mm_set1_epi32 [EArg]);
   SSet (LVal (EInt 1)) (ECall _mm_set1_epi32 [EArg]);
   SSet (LVal (EInt 2)) (ECall _mm_set1_epi32 [EArg]);
   SSet (LVal (EInt 3)) (ECall _mm_set1_epi32 [EArg]);
   SSet (LVal (EInt 4)) (ECall _mm_set1_epi32 [EArg]);
   SSet (LVal (EInt 5)) (ECall _mm_set1_epi32 [EArg]);
   SSet (LVal (EInt 6)) (ECall _mm_set1_epi32 [EArg]);
   SSet (LVal (EInt 7)) (ECall _mm_set1_epi32 [EArg])].

(* short_vec_sse_int_32.hpp:83-87 *)
Definition sse_int_32_ctor_ptr : body :=
  [SSet (LVal (EInt 0)) (ECall _mm_loadu_si128 [dat 0]);
   SSet (LVal (EInt 1)) (ECall _mm_loadu_si128 [dat 4]);
   SSet (LVal (EInt 2)) (ECall _mm_loadu_si128 [dat 8]);
   SSet (LVal (EInt 3)) (ECall _mm_loadu_si128 [dat 12]);
   SSet (LVal (EInt 4)) (ECall _mm_loadu_si128 [dat 16]);
   SSet (LVal (EInt 5)) (ECall _mm_loadu_si128 [dat 20]);
   SSet (LVal (EInt 6)) (ECall _mm_loadu_si128 [dat 24]);
   SSet (LVal (EInt 7)) (ECall _mm_loadu_si128 [dat 28])].

(* short_vec_sse_int_32.hpp:89-107 *)
Definition sse_int_32_ctor_regs : body :=
  [SSet (LVal (EInt 0)) (EPar 0);
   SSet (LVal (EInt 1)) (EPar 1);
   SSet (LVal (EInt 2)) (EPar 2);
   SSet (LVal (EInt 3)) (EPar 3);
   SSet (LVal (EInt 4)) (EPar 4);
   SSet (LVal (EInt 5)) (EPar 5);
   SSet (LVal (EInt 6)) (EPar 6);
   SSet (LVal (EInt 7)) (EPar 7)].

(* short_vec_sse_int_32.hpp:110-115 *)
Definition sse_int_32_ctor_list : body :=
  [SSet (LVal (EInt 0)) (ECall _mm_loadu_si128 [dat 0]);
   SSet (LVal (EInt 1)) (ECall _mm_loadu_si128 [dat 4]);
   SSet (LVal (EInt 2)) (ECall _mm_loadu_si128 [dat 8]);
   SSet (LVal (EInt 3)) (ECall _mm_loadu_si128 [dat 12]);
   SSet (LVal (EInt 4)) (ECall _mm_loadu_si128 [dat 16]);
   SSet (LVal (EInt 5)) (ECall _mm_loadu_si128 [dat 20]);
   SSet (LVal (EInt 6)) (ECall _mm_loadu_si128 [dat 24]);
   SSet (LVal (EInt 7)) (ECall _mm_loadu_si128 [dat 28])].

(* short_vec_sse_int_32.hpp:121-132 *)
Definition sse_int_32_sub_eq : body :=
  [SSet (LVal (EInt 0)) (ECall _mm_sub_epi32 [vv 0; oo 0]);
   SSet (LVal (EInt 1)) (ECall _mm_sub_epi32 [vv 1; oo 1]);
   SSet (LVal (EInt 2)) (ECall _mm_sub_epi32 [vv 2; oo 2]);
   SSet (LVal (EInt 3)) (ECall _mm_sub_epi32 [vv 3; oo 3]);
   SSet (LVal (EInt 4)) (ECall _mm_sub_epi32 [vv 4; oo 4]);
   SSet (LVal (EInt 5)) (ECall _mm_sub_epi32 [vv 5; oo 5]);
   SSet (LVal (EInt 6)) (ECall _mm_sub_epi32 [vv 6; oo 6]);
   SSet (LVal (EInt 7)) (ECall _mm_sub_epi32 [vv 7; oo 7])].

(* short_vec_sse_int_32.hpp:134-146 *)
Definition sse_int_32_sub : body :=
  [SRetVec [(ECall _mm_sub_epi32 [vv 0; oo 0]); (ECall _mm_sub_epi32 [vv 1; oo 1]); (ECall
    _mm_sub_epi32 [vv 2; oo 2]); (ECall _mm_sub_epi32 [vv 3; oo 3]); (ECall _mm_sub_epi32 [vv 4; oo
    4]); (ECall _mm_sub_epi32 [vv 5; oo 5]); (ECall _mm_sub_epi32 [vv 6; oo 6]); (ECall
    _mm_sub_epi32 [vv 7; oo 7])]].

(* short_vec_sse_int_32.hpp:148-159 *)
Definition sse_int_32_add_eq : body :=
  [SSet (LVal (EInt 0)) (ECall _mm_add_epi32 [vv 0; oo 0]);
   SSet (LVal (EInt 1)) (ECall _mm_add_epi32 [vv 1; oo 1]);
   SSet (LVal (EInt 2)) (ECall _mm_add_epi32 [vv 2; oo 2]);
   SSet (LVal (EInt 3)) (ECall _mm_add_epi32 [vv 3; oo 3]);
   SSet (LVal (EInt 4)) (ECall _mm_add_epi32 [vv 4; oo 4]);
   SSet (LVal (EInt 5)) (ECall _mm_add_epi32 [vv 5; oo 5]);
   SSet (LVal (EInt 6)) (ECall _mm_add_epi32 [vv 6; oo 6]);
   SSet (LVal (EInt 7)) (ECall _mm_add_epi32 [vv 7; oo 7])].

(* short_vec_sse_int_32.hpp:161-173 *)
Definition sse_int_32_add : body :=
  [SRetVec [(ECall _mm_add_epi32 [vv 0; oo 0]); (ECall _mm_add_epi32 [vv 1; oo 1]); (ECall
    _mm_add_epi32 [vv 2; oo 2]); (ECall _mm_add_epi32 [vv 3; oo 3]); (ECall _mm_add_epi32 [vv 4; oo
    4]); (ECall _mm_add_epi32 [vv 5; oo 5]); (ECall _mm_add_epi32 [vv 6; oo 6]); (ECall
    _mm_add_epi32 [vv 7; oo 7])]].

(* short_vec_sse_int_32.hpp:203-262 *)
Definition sse_int_32_mul_eq : body :=
  [SSet (LVar "tmp1") (ECall _mm_mul_epu32 [vv 0; oo 0]);
   SSet (LVar "tmp2") (ECall _mm_mul_epu32 [(ECall _mm_srli_si128 [vv 0; EInt 4]); (ECall
    _mm_srli_si128 [oo 0; EInt 4])]);
   SSet (LVal (EInt 0)) (ECall _mm_unpacklo_epi32 [(ECall _mm_shuffle_epi32 [(EVar "tmp1"); (ECall
    _MM_SHUFFLE [EInt 0; EInt 0; EInt 2; EInt 0])]); (ECall _mm_shuffle_epi32 [(EVar "tmp2"); (ECall
    _MM_SHUFFLE [EInt 0; EInt 0; EInt 2; EInt 0])])]);
   SSet (LVar "tmp1") (ECall _mm_mul_epu32 [vv 1; oo 1]);
   SSet (LVar "tmp2") (ECall _mm_mul_epu32 [(ECall _mm_srli_si128 [vv 1; EInt 4]); (ECall
    _mm_srli_si128 [oo 1; EInt 4])]);
   SSet (LVal (EInt 1)) (ECall _mm_unpacklo_epi32 [(ECall _mm_shuffle_epi32 [(EVar "tmp1"); (ECall
    _MM_SHUFFLE [EInt 0; EInt 0; EInt 2; EInt 0])]); (ECall _mm_shuffle_epi32 [(EVar "tmp2"); (ECall
    _MM_SHUFFLE [EInt 0; EInt 0; EInt 2; EInt 0])])]);
   SSet (LVar "tmp1") (ECall _mm_mul_epu32 [vv 2; oo 2]);
   SSet (LVar "tmp2") (ECall _mm_mul_epu32 [(ECall _mm_srli_si128 [vv 2; EInt 4]); (ECall
    _mm_srli_si128 [oo 2; EInt 4])]);
   SSet (LVal (EInt 2)) (ECall _mm_unpacklo_epi32 [(ECall _mm_shuffle_epi32 [(EVar "tmp1"); (ECall
    _MM_SHUFFLE [EInt 0; EInt 0; EInt 2; EInt 0])]); (ECall _mm_shuffle_epi32 [(EVar "tmp2"); (ECall
    _MM_SHUFFLE [EInt 0; EInt 0; EInt 2; EInt 0])])]);
   SSet (LVar "tmp1") (ECall _mm_mul_epu32 [vv 3; oo 3]);
   SSet (LVar "tmp2") (ECall _mm_mul_epu32 [(ECall _mm_srli_si128 [vv 3; EInt 4]); (ECall
    _mm_srli_si128 [oo 3; EInt 4])]);
   SSet (LVal (EInt 3)) (ECall _mm_unpacklo_epi32 [(ECall _mm_shuffle_epi32 [(EVar "tmp1"); (ECall
    _MM_SHUFFLE [EInt 0; EInt 0; EInt 2; EInt 0])]); (ECall _mm_shuffle_epi32 [(EVar "tmp2"); (ECall
    _MM_SHUFFLE [EInt 0; EInt 0; EInt 2; EInt 0])])]);
   SSet (LVar "tmp1") (ECall _mm_mul_epu32 [vv 4; oo 4]);
   SSet (LVar "tmp2") (ECall _mm_mul_epu32 [(ECall _mm_srli_si128 [vv 4; EInt 4]); (ECall
    _mm_srli_si128 [oo 4; EInt 4])]);
   SSet (LVal (EInt 4)) (ECall _mm_unpacklo_epi32 [(ECall _mm_shuffle_epi32 [(EVar "tmp1"); (ECall
    _MM_SHUFFLE [EInt 0; EInt 0; EInt 2; EInt 0])]); (ECall _mm_shuffle_epi32 [(EVar "tmp2"); (ECall
    _MM_SHUFFLE [EInt 0; EInt 0; EInt 2; EInt 0])])]);
   SSet (LVar "tmp1") (ECall _mm_mul_epu32 [vv 5; oo 5]);
   SSet (LVar "tmp2") (ECall _mm_mul_epu32 [(ECall _mm_srli_si128 [vv 5; EInt 4]); (ECall
    _mm_srli_si128 [oo 5; EInt 4])]);
   SSet (LVal (EInt 5)) (ECall _mm_unpacklo_epi32 [(ECall _mm_shuffle_epi32 [(EVar "tmp1"); (ECall
    _MM_SHUFFLE [EInt 0; EInt 0; EInt 2; EInt 0])]); (ECall _mm_shuffle_epi32 [(EVar "tmp2"); (ECall
    _MM_SHUFFLE [EInt 0; EInt 0; EInt 2; EInt 0])])]);
   SSet (LVar "tmp1") (ECall _mm_mul_epu32 [vv 6; oo 6]);
   SSet (LVar "tmp2") (ECall _mm_mul_epu32 [(ECall _mm_srli_si128 [vv 6; EInt 4]); (ECall
    _mm_srli_si128 [oo 6; EInt 4])]);
   SSet (LVal (EInt 6)) (ECall _mm_unpacklo_epi32 [(ECall _mm_shuffle_epi32 [(EVar "tmp1"); (ECall
    _MM_SHUFFLE [EInt 0; EInt 0; EInt 2; EInt 0])]); (ECall _mm_shuffle_epi32 [(EVar "tmp2"); (ECall
    _MM_SHUFFLE [EInt 0; EInt 0; EInt 2; EInt 0])])]);
   SSet (LVar "tmp1") (ECall _mm_mul_epu32 [vv 7; oo 7]);
   SSet (LVar "tmp2") (ECall _mm_mul_epu32 [(ECall _mm_srli_si128 [vv 7; EInt 4]); (ECall
    _mm_srli_si128 [oo 7; EInt 4])]);
   SSet (LVal (EInt 7)) (ECall _mm_unpacklo_epi32 [(ECall _mm_shuffle_epi32 [(EVar "tmp1"); (ECall
    _MM_SHUFFLE [EInt 0; EInt 0; EInt 2; EInt 0])]); (ECall _mm_shuffle_epi32 [(EVar "tmp2"); (ECall
    _MM_SHUFFLE [EInt 0; EInt 0; EInt 2; EInt 0])])])].

(* short_vec_sse_int_32.hpp:264-333 *)
Definition sse_int_32_mul : body :=
  [SSet (LVar "tmp1") (ECall _mm_mul_epu32 [vv 0; oo 0]);
   SSet (LVar "tmp2") (ECall _mm_mul_epu32 [(ECall _mm_srli_si128 [vv 0; EInt 4]); (ECall
    _mm_srli_si128 [oo 0; EInt 4])]);
   SSet (LVar "result1") (ECall _mm_unpacklo_epi32 [(ECall _mm_shuffle_epi32 [(EVar "tmp1"); (ECall
    _MM_SHUFFLE [EInt 0; EInt 0; EInt 2; EInt 0])]); (ECall _mm_shuffle_epi32 [(EVar "tmp2"); (ECall
    _MM_SHUFFLE [EInt 0; EInt 0; EInt 2; EInt 0])])]);
   SSet (LVar "tmp1") (ECall _mm_mul_epu32 [vv 1; oo 1]);
   SSet (LVar "tmp2") (ECall _mm_mul_epu32 [(ECall _mm_srli_si128 [vv 1; EInt 4]); (ECall
    _mm_srli_si128 [oo 1; EInt 4])]);
   SSet (LVar "result2") (ECall _mm_unpacklo_epi32 [(ECall _mm_shuffle_epi32 [(EVar "tmp1"); (ECall
    _MM_SHUFFLE [EInt 0; EInt 0; EInt 2; EInt 0])]); (ECall _mm_shuffle_epi32 [(EVar "tmp2"); (ECall
    _MM_SHUFFLE [EInt 0; EInt 0; EInt 2; EInt 0])])]);
   SSet (LVar "tmp1") (ECall _mm_mul_epu32 [vv 2; oo 2]);
   SSet (LVar "tmp2") (ECall _mm_mul_epu32 [(ECall _mm_srli_si128 [vv 2; EInt 4]); (ECall
    _mm_srli_si128 [oo 2; EInt 4])]);
   SSet (LVar "result3") (ECall _mm_unpacklo_epi32 [(ECall _mm_shuffle_epi32 [(EVar "tmp1"); (ECall
    _MM_SHUFFLE [EInt 0; EInt 0; EInt 2; EInt 0])]); (ECall _mm_shuffle_epi32 [(EVar "tmp2"); (ECall
    _MM_SHUFFLE [EInt 0; EInt 0; EInt 2; EInt 0])])]);
   SSet (LVar "tmp1") (ECall _mm_mul_epu32 [vv 3; oo 3]);
   SSet (LVar "tmp2") (ECall _mm_mul_epu32 [(ECall _mm_srli_si128 [vv 3; EInt 4]); (ECall
    _mm_srli_si128 [oo 3; EInt 4])]);
   SSet (LVar "result4") (ECall _mm_unpacklo_epi32 [(ECall _mm_shuffle_epi32 [(EVar "tmp1"); (ECall
    _MM_SHUFFLE [EInt 0; EInt 0; EInt 2; EInt 0])]); (ECall _mm_shuffle_epi32 [(EVar "tmp2"); (ECall
    _MM_SHUFFLE [EInt 0; EInt 0; EInt 2; EInt 0])])]);
   SSet (LVar "tmp1") (ECall _mm_mul_epu32 [vv 4; oo 4]);
   SSet (LVar "tmp2") (ECall _mm_mul_epu32 [(ECall _mm_srli_si128 [vv 4; EInt 4]); (ECall
    _mm_srli_si128 [oo 4; EInt 4])]);
   SSet (LVar "result5") (ECall _mm_unpacklo_epi32 [(ECall _mm_shuffle_epi32 [(EVar "tmp1"); (ECall
    _MM_SHUFFLE [EInt 0; EInt 0; EInt 2; EInt 0])]); (ECall _mm_shuffle_epi32 [(EVar "tmp2"); (ECall
    _MM_SHUFFLE [EInt 0; EInt 0; EInt 2; EInt 0])])]);
   SSet (LVar "tmp1") (ECall _mm_mul_epu32 [vv 5; oo 5]);
   SSet (LVar "tmp2") (ECall _mm_mul_epu32 [(ECall _mm_srli_si128 [vv 5; EInt 4]); (ECall
    _mm_srli_si128 [oo 5; EInt 4])]);
   SSet (LVar "result6") (ECall _mm_unpacklo_epi32 [(ECall _mm_shuffle_epi32 [(EVar "tmp1"); (ECall
    _MM_SHUFFLE [EInt 0; EInt 0; EInt 2; EInt 0])]); (ECall _mm_shuffle_epi32 [(EVar "tmp2"); (ECall
    _MM_SHUFFLE [EInt 0; EInt 0; EInt 2; EInt 0])])]);
   SSet (LVar "tmp1") (ECall _mm_mul_epu32 [vv 6; oo 6]);
   SSet (LVar "tmp2") (ECall _mm_mul_epu32 [(ECall _mm_srli_si128 [vv 6; EInt 4]); (ECall
    _mm_srli_si128 [oo 6; EInt 4])]);
   SSet (LVar "result7") (ECall _mm_unpacklo_epi32 [(ECall _mm_shuffle_epi32 [(EVar "tmp1"); (ECall
    _MM_SHUFFLE [EInt 0; EInt 0; EInt 2; EInt 0])]); (ECall _mm_shuffle_epi32 [(EVar "tmp2"); (ECall
    _MM_SHUFFLE [EInt 0; EInt 0; EInt 2; EInt 0])])]);
   SSet (LVar "tmp1") (ECall _mm_mul_epu32 [vv 7; oo 7]);
   SSet (LVar "tmp2") (ECall _mm_mul_epu32 [(ECall _mm_srli_si128 [vv 7; EInt 4]); (ECall
    _mm_srli_si128 [oo 7; EInt 4])]);
   SSet (LVar "result8") (ECall _mm_unpacklo_epi32 [(ECall _mm_shuffle_epi32 [(EVar "tmp1"); (ECall
    _MM_SHUFFLE [EInt 0; EInt 0; EInt 2; EInt 0])]); (ECall _mm_shuffle_epi32 [(EVar "tmp2"); (ECall
    _MM_SHUFFLE [EInt 0; EInt 0; EInt 2; EInt 0])])]);
   SRetVec [(EVar "result1"); (EVar "result2"); (EVar "result3"); (EVar "result4"); (EVar
    "result5"); (EVar "result6"); (EVar "result7"); (EVar "result8")]].

(* short_vec_sse_int_32.hpp:336-355 *)
Definition sse_int_32_div_eq : body :=
  [SSet (LVal (EInt 0)) (ECall _mm_cvtps_epi32 [(ECall _mm_div_ps [(ECall _mm_cvtepi32_ps [vv 0]);
    (ECall _mm_cvtepi32_ps [oo 0])])]);
   SSet (LVal (EInt 1)) (ECall _mm_cvtps_epi32 [(ECall _mm_div_ps [(ECall _mm_cvtepi32_ps [vv 1]);
    (ECall _mm_cvtepi32_ps [oo 1])])]);
   SSet (LVal (EInt 2)) (ECall _mm_cvtps_epi32 [(ECall _mm_div_ps [(ECall _mm_cvtepi32_ps [vv 2]);
    (ECall _mm_cvtepi32_ps [oo 2])])]);
   SSet (LVal (EInt 3)) (ECall _mm_cvtps_epi32 [(ECall _mm_div_ps [(ECall _mm_cvtepi32_ps [vv 3]);
    (ECall _mm_cvtepi32_ps [oo 3])])]);
   SSet (LVal (EInt 4)) (ECall _mm_cvtps_epi32 [(ECall _mm_div_ps [(ECall _mm_cvtepi32_ps [vv 4]);
    (ECall _mm_cvtepi32_ps [oo 4])])]);
   SSet (LVal (EInt 5)) (ECall _mm_cvtps_epi32 [(ECall _mm_div_ps [(ECall _mm_cvtepi32_ps [vv 5]);
    (ECall _mm_cvtepi32_ps [oo 5])])]);
   SSet (LVal (EInt 6)) (ECall _mm_cvtps_epi32 [(ECall _mm_div_ps [(ECall _mm_cvtepi32_ps [vv 6]);
    (ECall _mm_cvtepi32_ps [oo 6])])]);
   SSet (LVal (EInt 7)) (ECall _mm_cvtps_epi32 [(ECall _mm_div_ps [(ECall _mm_cvtepi32_ps [vv 7]);
    (ECall _mm_cvtepi32_ps [oo 7])])])].

(* short_vec_sse_int_32.hpp:360-388 *)
Definition sse_int_32_div : body :=
  [SRetVec [(ECall _mm_cvttps_epi32 [(ECall _mm_div_ps [(ECall _mm_cvtepi32_ps [vv 0]); (ECall
    _mm_cvtepi32_ps [oo 0])])]); (ECall _mm_cvttps_epi32 [(ECall _mm_div_ps [(ECall _mm_cvtepi32_ps
    [vv 1]); (ECall _mm_cvtepi32_ps [oo 1])])]); (ECall _mm_cvttps_epi32 [(ECall _mm_div_ps [(ECall
    _mm_cvtepi32_ps [vv 2]); (ECall _mm_cvtepi32_ps [oo 2])])]); (ECall _mm_cvttps_epi32 [(ECall
    _mm_div_ps [(ECall _mm_cvtepi32_ps [vv 3]); (ECall _mm_cvtepi32_ps [oo 3])])]); (ECall
    _mm_cvttps_epi32 [(ECall _mm_div_ps [(ECall _mm_cvtepi32_ps [vv 4]); (ECall _mm_cvtepi32_ps [oo
    4])])]); (ECall _mm_cvttps_epi32 [(ECall _mm_div_ps [(ECall _mm_cvtepi32_ps [vv 5]); (ECall
    _mm_cvtepi32_ps [oo 5])])]); (ECall _mm_cvttps_epi32 [(ECall _mm_div_ps [(ECall _mm_cvtepi32_ps
    [vv 6]); (ECall _mm_cvtepi32_ps [oo 6])])]); (ECall _mm_cvttps_epi32 [(ECall _mm_div_ps [(ECall
    _mm_cvtepi32_ps [vv 7]); (ECall _mm_cvtepi32_ps [oo 7])])])]].

(* short_vec_sse_int_32.hpp:393-413 *)
Definition sse_int_32_sqrt : body :=
  [SRetVec [(ECall _mm_cvtps_epi32 [(ECall _mm_sqrt_ps [(ECall _mm_cvtepi32_ps [vv 0])])]); (ECall
    _mm_cvtps_epi32 [(ECall _mm_sqrt_ps [(ECall _mm_cvtepi32_ps [vv 1])])]); (ECall _mm_cvtps_epi32
    [(ECall _mm_sqrt_ps [(ECall _mm_cvtepi32_ps [vv 2])])]); (ECall _mm_cvtps_epi32 [(ECall
    _mm_sqrt_ps [(ECall _mm_cvtepi32_ps [vv 3])])]); (ECall _mm_cvtps_epi32 [(ECall _mm_sqrt_ps
    [(ECall _mm_cvtepi32_ps [vv 4])])]); (ECall _mm_cvtps_epi32 [(ECall _mm_sqrt_ps [(ECall
    _mm_cvtepi32_ps [vv 5])])]); (ECall _mm_cvtps_epi32 [(ECall _mm_sqrt_ps [(ECall _mm_cvtepi32_ps
    [vv 6])])]); (ECall _mm_cvtps_epi32 [(ECall _mm_sqrt_ps [(ECall _mm_cvtepi32_ps [vv 7])])])]].

(* short_vec_sse_int_32.hpp:415-426 *)
Definition sse_int_32_load : body :=
  [SSet (LVal (EInt 0)) (ECall _mm_loadu_si128 [dat 0]);
   SSet (LVal (EInt 1)) (ECall _mm_loadu_si128 [dat 4]);
   SSet (LVal (EInt 2)) (ECall _mm_loadu_si128 [dat 8]);
   SSet (LVal (EInt 3)) (ECall _mm_loadu_si128 [dat 12]);
   SSet (LVal (EInt 4)) (ECall _mm_loadu_si128 [dat 16]);
   SSet (LVal (EInt 5)) (ECall _mm_loadu_si128 [dat 20]);
   SSet (LVal (EInt 6)) (ECall _mm_loadu_si128 [dat 24]);
   SSet (LVal (EInt 7)) (ECall _mm_loadu_si128 [dat 28])].

(* short_vec_sse_int_32.hpp:428-440 *)
Definition sse_int_32_load_aligned : body :=
  [SAssertAligned EData 16;
   SSet (LVal (EInt 0)) (ECall _mm_load_si128 [dat 0]);
   SSet (LVal (EInt 1)) (ECall _mm_load_si128 [dat 4]);
   SSet (LVal (EInt 2)) (ECall _mm_load_si128 [dat 8]);
   SSet (LVal (EInt 3)) (ECall _mm_load_si128 [dat 12]);
   SSet (LVal (EInt 4)) (ECall _mm_load_si128 [dat 16]);
   SSet (LVal (EInt 5)) (ECall _mm_load_si128 [dat 20]);
   SSet (LVal (EInt 6)) (ECall _mm_load_si128 [dat 24]);
   SSet (LVal (EInt 7)) (ECall _mm_load_si128 [dat 28])].

(* short_vec_sse_int_32.hpp:442-453 *)
Definition sse_int_32_store : body :=
  [SDo (ECall _mm_storeu_si128 [dat 0; vv 0]);
   SDo (ECall _mm_storeu_si128 [dat 4; vv 1]);
   SDo (ECall _mm_storeu_si128 [dat 8; vv 2]);
   SDo (ECall _mm_storeu_si128 [dat 12; vv 3]);
   SDo (ECall _mm_storeu_si128 [dat 16; vv 4]);
   SDo (ECall _mm_storeu_si128 [dat 20; vv 5]);
   SDo (ECall _mm_storeu_si128 [dat 24; vv 6]);
   SDo (ECall _mm_storeu_si128 [dat 28; vv 7])].

(* short_vec_sse_int_32.hpp:455-467 *)
Definition sse_int_32_store_aligned : body :=
  [SAssertAligned EData 16;
   SDo (ECall _mm_store_si128 [dat 0; vv 0]);
   SDo (ECall _mm_store_si128 [dat 4; vv 1]);
   SDo (ECall _mm_store_si128 [dat 8; vv 2]);
   SDo (ECall _mm_store_si128 [dat 12; vv 3]);
   SDo (ECall _mm_store_si128 [dat 16; vv 4]);
   SDo (ECall _mm_store_si128 [dat 20; vv 5]);
   SDo (ECall _mm_store_si128 [dat 24; vv 6]);
   SDo (ECall _mm_store_si128 [dat 28; vv 7])].

(* short_vec_sse_int_32.hpp:469-481 *)
Definition sse_int_32_store_nt : body :=
  [SAssertAligned EData 16;
   SDo (ECall _mm_stream_si128 [dat 0; vv 0]);
   SDo (ECall _mm_stream_si128 [dat 4; vv 1]);
   SDo (ECall _mm_stream_si128 [dat 8; vv 2]);
   SDo (ECall _mm_stream_si128 [dat 12; vv 3]);
   SDo (ECall _mm_stream_si128 [dat 16; vv 4]);
   SDo (ECall _mm_stream_si128 [dat 20; vv 5]);
   SDo (ECall _mm_stream_si128 [dat 24; vv 6]);
   SDo (ECall _mm_stream_si128 [dat 28; vv 7])].

(* short_vec_sse_int_32.hpp:572-639 *)
Definition sse_int_32_gather : body :=
  [SDecl "i2" 4;
   SDecl "i3" 4;
   SDecl "i4" 4;
   SSet (LVal (EInt 0)) (ECall _mm_cvtsi32_si128 [(EIdx EPtr (off 0))]);
   SSet (LVar "i2") (ECall _mm_cvtsi32_si128 [(EIdx EPtr (off 1))]);
   SSet (LVar "i3") (ECall _mm_cvtsi32_si128 [(EIdx EPtr (off 2))]);
   SSet (LVar "i4") (ECall _mm_cvtsi32_si128 [(EIdx EPtr (off 3))]);
   SSet (LVal (EInt 0)) (ECall _mm_unpacklo_epi32 [vv 0; (EVar "i3")]);
   SSet (LVar "i3") (ECall _mm_unpacklo_epi32 [(EVar "i2"); (EVar "i4")]);
   SSet (LVal (EInt 0)) (ECall _mm_unpacklo_epi32 [vv 0; (EVar "i3")]);
   SSet (LVal (EInt 1)) (ECall _mm_cvtsi32_si128 [(EIdx EPtr (off 4))]);
   SSet (LVar "i2") (ECall _mm_cvtsi32_si128 [(EIdx EPtr (off 5))]);
   SSet (LVar "i3") (ECall _mm_cvtsi32_si128 [(EIdx EPtr (off 6))]);
   SSet (LVar "i4") (ECall _mm_cvtsi32_si128 [(EIdx EPtr (off 7))]);
   SSet (LVal (EInt 1)) (ECall _mm_unpacklo_epi32 [vv 1; (EVar "i3")]);
   SSet (LVar "i3") (ECall _mm_unpacklo_epi32 [(EVar "i2"); (EVar "i4")]);
   SSet (LVal (EInt 1)) (ECall _mm_unpacklo_epi32 [vv 1; (EVar "i3")]);
   SSet (LVal (EInt 2)) (ECall _mm_cvtsi32_si128 [(EIdx EPtr (off 8))]);
   SSet (LVar "i2") (ECall _mm_cvtsi32_si128 [(EIdx EPtr (off 9))]);
   SSet (LVar "i3") (ECall _mm_cvtsi32_si128 [(EIdx EPtr (off 10))]);
   SSet (LVar "i4") (ECall _mm_cvtsi32_si128 [(EIdx EPtr (off 11))]);
   SSet (LVal (EInt 2)) (ECall _mm_unpacklo_epi32 [vv 2; (EVar "i3")]);
   SSet (LVar "i3") (ECall _mm_unpacklo_epi32 [(EVar "i2"); (EVar "i4")]);
   SSet (LVal (EInt 2)) (ECall _mm_unpacklo_epi32 [vv 2; (EVar "i3")]);
   SSet (LVal (EInt 3)) (ECall _mm_cvtsi32_si128 [(EIdx EPtr (off 12))]);
   SSet (LVar "i2") (ECall _mm_cvtsi32_si128 [(EIdx EPtr (off 13))]);
   SSet (LVar "i3") (ECall _mm_cvtsi32_si128 [(EIdx EPtr (off 14))]);
   SSet (LVar "i4") (ECall _mm_cvtsi32_si128 [(EIdx EPtr (off 15))]);
   SSet (LVal (EInt 3)) (ECall _mm_unpacklo_epi32 [vv 3; (EVar "i3")]);
   SSet (LVar "i3") (ECall _mm_unpacklo_epi32 [(EVar "i2"); (EVar "i4")]);
   SSet (LVal (EInt 3)) (ECall _mm_unpacklo_epi32 [vv 3; (EVar "i3")]);
   SSet (LVal (EInt 4)) (ECall _mm_cvtsi32_si128 [(EIdx EPtr (off 16))]);
   SSet (LVar "i2") (ECall _mm_cvtsi32_si128 [(EIdx EPtr (off 17))]);
   SSet (LVar "i3") (ECall _mm_cvtsi32_si128 [(EIdx EPtr (off 18))]);
   SSet (LVar "i4") (ECall _mm_cvtsi32_si128 [(EIdx EPtr (off 19))]);
   SSet (LVal (EInt 4)) (ECall _mm_unpacklo_epi32 [vv 4; (EVar "i3")]);
   SSet (LVar "i3") (ECall _mm_unpacklo_epi32 [(EVar "i2"); (EVar "i4")]);
   SSet (LVal (EInt 4)) (ECall _mm_unpacklo_epi32 [vv 4; (EVar "i3")]);
   SSet (LVal (EInt 5)) (ECall _mm_cvtsi32_si128 [(EIdx EPtr (off 20))]);
   SSet (LVar "i2") (ECall _mm_cvtsi32_si128 [(EIdx EPtr (off 21))]);
   SSet (LVar "i3") (ECall _mm_cvtsi32_si128 [(EIdx EPtr (off 22))]);
   SSet (LVar "i4") (ECall _mm_cvtsi32_si128 [(EIdx EPtr (off 23))]);
   SSet (LVal (EInt 5)) (ECall _mm_unpacklo_epi32 [vv 5; (EVar "i3")]);
   SSet (LVar "i3") (ECall _mm_unpacklo_epi32 [(EVar "i2"); (EVar "i4")]);
   SSet (LVal (EInt 5)) (ECall _mm_unpacklo_epi32 [vv 5; (EVar "i3")]);
   SSet (LVal (EInt 6)) (ECall _mm_cvtsi32_si128 [(EIdx EPtr (off 24))]);
   SSet (LVar "i2") (ECall _mm_cvtsi32_si128 [(EIdx EPtr (off 25))]);
   SSet (LVar "i3") (ECall _mm_cvtsi32_si128 [(EIdx EPtr (off 26))]);
   SSet (LVar "i4") (ECall _mm_cvtsi32_si128 [(EIdx EPtr (off 27))]);
   SSet (LVal (EInt 6)) (ECall _mm_unpacklo_epi32 [vv 6; (EVar "i3")]);
   SSet (LVar "i3") (ECall _mm_unpacklo_epi32 [(EVar "i2"); (EVar "i4")]);
   SSet (LVal (EInt 6)) (ECall _mm_unpacklo_epi32 [vv 6; (EVar "i3")]);
   SSet (LVal (EInt 7)) (ECall _mm_cvtsi32_si128 [(EIdx EPtr (off 28))]);
   SSet (LVar "i2") (ECall _mm_cvtsi32_si128 [(EIdx EPtr (off 29))]);
   SSet (LVar "i3") (ECall _mm_cvtsi32_si128 [(EIdx EPtr (off 30))]);
   SSet (LVar "i4") (ECall _mm_cvtsi32_si128 [(EIdx EPtr (off 31))]);
   SSet (LVal (EInt 7)) (ECall _mm_unpacklo_epi32 [vv 7; (EVar "i3")]);
   SSet (LVar "i3") (ECall _mm_unpacklo_epi32 [(EVar "i2"); (EVar "i4")]);
   SSet (LVal (EInt 7)) (ECall _mm_unpacklo_epi32 [vv 7; (EVar "i3")])].

(* short_vec_sse_int_32.hpp:641-683 *)
Definition sse_int_32_scatter : body :=
  [SSet (LMem (pto 0)) (ECall _mm_cvtsi128_si32 [vv 0]);
   SSet (LMem (pto 1)) (ECall _mm_cvtsi128_si32 [(ECall _mm_shuffle_epi32 [vv 0; (ECall _MM_SHUFFLE
    [EInt 0; EInt 3; EInt 2; EInt 1])])]);
   SSet (LMem (pto 2)) (ECall _mm_cvtsi128_si32 [(ECall _mm_shuffle_epi32 [vv 0; (ECall _MM_SHUFFLE
    [EInt 1; EInt 0; EInt 3; EInt 2])])]);
   SSet (LMem (pto 3)) (ECall _mm_cvtsi128_si32 [(ECall _mm_shuffle_epi32 [vv 0; (ECall _MM_SHUFFLE
    [EInt 2; EInt 1; EInt 0; EInt 3])])]);
   SSet (LMem (pto 4)) (ECall _mm_cvtsi128_si32 [vv 1]);
   SSet (LMem (pto 5)) (ECall _mm_cvtsi128_si32 [(ECall _mm_shuffle_epi32 [vv 1; (ECall _MM_SHUFFLE
    [EInt 0; EInt 3; EInt 2; EInt 1])])]);
   SSet (LMem (pto 6)) (ECall _mm_cvtsi128_si32 [(ECall _mm_shuffle_epi32 [vv 1; (ECall _MM_SHUFFLE
    [EInt 1; EInt 0; EInt 3; EInt 2])])]);
   SSet (LMem (pto 7)) (ECall _mm_cvtsi128_si32 [(ECall _mm_shuffle_epi32 [vv 1; (ECall _MM_SHUFFLE
    [EInt 2; EInt 1; EInt 0; EInt 3])])]);
   SSet (LMem (pto 8)) (ECall _mm_cvtsi128_si32 [vv 2]);
   SSet (LMem (pto 9)) (ECall _mm_cvtsi128_si32 [(ECall _mm_shuffle_epi32 [vv 2; (ECall _MM_SHUFFLE
    [EInt 0; EInt 3; EInt 2; EInt 1])])]);
   SSet (LMem (pto 10)) (ECall _mm_cvtsi128_si32 [(ECall _mm_shuffle_epi32 [vv 2; (ECall
    _MM_SHUFFLE [EInt 1; EInt 0; EInt 3; EInt 2])])]);
   SSet (LMem (pto 11)) (ECall _mm_cvtsi128_si32 [(ECall _mm_shuffle_epi32 [vv 2; (ECall
    _MM_SHUFFLE [EInt 2; EInt 1; EInt 0; EInt 3])])]);
   SSet (LMem (pto 12)) (ECall _mm_cvtsi128_si32 [vv 3]);
   SSet (LMem (pto 13)) (ECall _mm_cvtsi128_si32 [(ECall _mm_shuffle_epi32 [vv 3; (ECall
    _MM_SHUFFLE [EInt 0; EInt 3; EInt 2; EInt 1])])]);
   SSet (LMem (pto 14)) (ECall _mm_cvtsi128_si32 [(ECall _mm_shuffle_epi32 [vv 3; (ECall
    _MM_SHUFFLE [EInt 1; EInt 0; EInt 3; EInt 2])])]);
   SSet (LMem (pto 15)) (ECall _mm_cvtsi128_si32 [(ECall _mm_shuffle_epi32 [vv 3; (ECall
    _MM_SHUFFLE [EInt 2; EInt 1; EInt 0; EInt 3])])]);
   SSet (LMem (pto 16)) (ECall _mm_cvtsi128_si32 [vv 4]);
   SSet (LMem (pto 17)) (ECall _mm_cvtsi128_si32 [(ECall _mm_shuffle_epi32 [vv 4; (ECall
    _MM_SHUFFLE [EInt 0; EInt 3; EInt 2; EInt 1])])]);
   SSet (LMem (pto 18)) (ECall _mm_cvtsi128_si32 [(ECall _mm_shuffle_epi32 [vv 4; (ECall
    _MM_SHUFFLE [EInt 1; EInt 0; EInt 3; EInt 2])])]);
   SSet (LMem (pto 19)) (ECall _mm_cvtsi128_si32 [(ECall _mm_shuffle_epi32 [vv 4; (ECall
    _MM_SHUFFLE [EInt 2; EInt 1; EInt 0; EInt 3])])]);
   SSet (LMem (pto 20)) (ECall _mm_cvtsi128_si32 [vv 5]);
   SSet (LMem (pto 21)) (ECall _mm_cvtsi128_si32 [(ECall _mm_shuffle_epi32 [vv 5; (ECall
    _MM_SHUFFLE [EInt 0; EInt 3; EInt 2; EInt 1])])]);
   SSet (LMem (pto 22)) (ECall _mm_cvtsi128_si32 [(ECall _mm_shuffle_epi32 [vv 5; (ECall
    _MM_SHUFFLE [EInt 1; EInt 0; EInt 3; EInt 2])])]);
   SSet (LMem (pto 23)) (ECall _mm_cvtsi128_si32 [(ECall _mm_shuffle_epi32 [vv 5; (ECall
    _MM_SHUFFLE [EInt 2; EInt 1; EInt 0; EInt 3])])]);
   SSet (LMem (pto 24)) (ECall _mm_cvtsi128_si32 [vv 6]);
   SSet (LMem (pto 25)) (ECall _mm_cvtsi128_si32 [(ECall _mm_shuffle_epi32 [vv 6; (ECall
    _MM_SHUFFLE [EInt 0; EInt 3; EInt 2; EInt 1])])]);
   SSet (LMem (pto 26)) (ECall _mm_cvtsi128_si32 [(ECall _mm_shuffle_epi32 [vv 6; (ECall
    _MM_SHUFFLE [EInt 1; EInt 0; EInt 3; EInt 2])])]);
   SSet (LMem (pto 27)) (ECall _mm_cvtsi128_si32 [(ECall _mm_shuffle_epi32 [vv 6; (ECall
    _MM_SHUFFLE [EInt 2; EInt 1; EInt 0; EInt 3])])]);
   SSet (LMem (pto 28)) (ECall _mm_cvtsi128_si32 [vv 7]);
   SSet (LMem (pto 29)) (ECall _mm_cvtsi128_si32 [(ECall _mm_shuffle_epi32 [vv 7; (ECall
    _MM_SHUFFLE [EInt 0; EInt 3; EInt 2; EInt 1])])]);
   SSet (LMem (pto 30)) (ECall _mm_cvtsi128_si32 [(ECall _mm_shuffle_epi32 [vv 7; (ECall
    _MM_SHUFFLE [EInt 1; EInt 0; EInt 3; EInt 2])])]);
   SSet (LMem (pto 31)) (ECall _mm_cvtsi128_si32 [(ECall _mm_shuffle_epi32 [vv 7; (ECall
    _MM_SHUFFLE [EInt 2; EInt 1; EInt 0; EInt 3])])])].

(* short_vec_sse_int_32.hpp:716-735 *)
Definition sse_int_32_ctor_sqrt : body :=
  [SSet (LVal (EInt 0)) (ECall _mm_cvtps_epi32 [(ECall _mm_sqrt_ps [(ECall _mm_cvtepi32_ps [oo
    0])])]);
   SSet (LVal (EInt 1)) (ECall _mm_cvtps_epi32 [(ECall _mm_sqrt_ps [(ECall _mm_cvtepi32_ps [oo
    1])])]);
   SSet (LVal (EInt 2)) (ECall _mm_cvtps_epi32 [(ECall _mm_sqrt_ps [(ECall _mm_cvtepi32_ps [oo
    2])])]);
   SSet (LVal (EInt 3)) (ECall _mm_cvtps_epi32 [(ECall _mm_sqrt_ps [(ECall _mm_cvtepi32_ps [oo
    3])])]);
   SSet (LVal (EInt 4)) (ECall _mm_cvtps_epi32 [(ECall _mm_sqrt_ps [(ECall _mm_cvtepi32_ps [oo
    4])])]);
   SSet (LVal (EInt 5)) (ECall _mm_cvtps_epi32 [(ECall _mm_sqrt_ps [(ECall _mm_cvtepi32_ps [oo
    5])])]);
   SSet (LVal (EInt 6)) (ECall _mm_cvtps_epi32 [(ECall _mm_sqrt_ps [(ECall _mm_cvtepi32_ps [oo
    6])])]);
   SSet (LVal (EInt 7)) (ECall _mm_cvtps_epi32 [(ECall _mm_sqrt_ps [(ECall _mm_cvtepi32_ps [oo
    7])])])].

(* short_vec_sse_int_32.hpp:738-764 *)
Definition sse_int_32_div_eq_sqrt : body :=
  [SSet (LVal (EInt 0)) (ECall _mm_cvtps_epi32 [(ECall _mm_mul_ps [(ECall _mm_cvtepi32_ps [vv 0]);
    (ECall _mm_rsqrt_ps [(ECall _mm_cvtepi32_ps [oo 0])])])]);
   SSet (LVal (EInt 1)) (ECall _mm_cvtps_epi32 [(ECall _mm_mul_ps [(ECall _mm_cvtepi32_ps [vv 1]);
    (ECall _mm_rsqrt_ps [(ECall _mm_cvtepi32_ps [oo 1])])])]);
   SSet (LVal (EInt 2)) (ECall _mm_cvtps_epi32 [(ECall _mm_mul_ps [(ECall _mm_cvtepi32_ps [vv 2]);
    (ECall _mm_rsqrt_ps [(ECall _mm_cvtepi32_ps [oo 2])])])]);
   SSet (LVal (EInt 3)) (ECall _mm_cvtps_epi32 [(ECall _mm_mul_ps [(ECall _mm_cvtepi32_ps [vv 3]);
    (ECall _mm_rsqrt_ps [(ECall _mm_cvtepi32_ps [oo 3])])])]);
   SSet (LVal (EInt 4)) (ECall _mm_cvtps_epi32 [(ECall _mm_mul_ps [(ECall _mm_cvtepi32_ps [vv 4]);
    (ECall _mm_rsqrt_ps [(ECall _mm_cvtepi32_ps [oo 4])])])]);
   SSet (LVal (EInt 5)) (ECall _mm_cvtps_epi32 [(ECall _mm_mul_ps [(ECall _mm_cvtepi32_ps [vv 5]);
    (ECall _mm_rsqrt_ps [(ECall _mm_cvtepi32_ps [oo 5])])])]);
   SSet (LVal (EInt 6)) (ECall _mm_cvtps_epi32 [(ECall _mm_mul_ps [(ECall _mm_cvtepi32_ps [vv 6]);
    (ECall _mm_rsqrt_ps [(ECall _mm_cvtepi32_ps [oo 6])])])]);
   SSet (LVal (EInt 7)) (ECall _mm_cvtps_epi32 [(ECall _mm_mul_ps [(ECall _mm_cvtepi32_ps [vv 7]);
    (ECall _mm_rsqrt_ps [(ECall _mm_cvtepi32_ps [oo 7])])])])].

(* short_vec_sse_int_32.hpp:767-794 *)
Definition sse_int_32_div_sqrt : body :=
  [SRetVec [(ECall _mm_cvtps_epi32 [(ECall _mm_mul_ps [(ECall _mm_cvtepi32_ps [vv 0]); (ECall
    _mm_rsqrt_ps [(ECall _mm_cvtepi32_ps [oo 0])])])]); (ECall _mm_cvtps_epi32 [(ECall _mm_mul_ps
    [(ECall _mm_cvtepi32_ps [vv 1]); (ECall _mm_rsqrt_ps [(ECall _mm_cvtepi32_ps [oo 1])])])]);
    (ECall _mm_cvtps_epi32 [(ECall _mm_mul_ps [(ECall _mm_cvtepi32_ps [vv 2]); (ECall _mm_rsqrt_ps
    [(ECall _mm_cvtepi32_ps [oo 2])])])]); (ECall _mm_cvtps_epi32 [(ECall _mm_mul_ps [(ECall
    _mm_cvtepi32_ps [vv 3]); (ECall _mm_rsqrt_ps [(ECall _mm_cvtepi32_ps [oo 3])])])]); (ECall
    _mm_cvtps_epi32 [(ECall _mm_mul_ps [(ECall _mm_cvtepi32_ps [vv 4]); (ECall _mm_rsqrt_ps [(ECall
    _mm_cvtepi32_ps [oo 4])])])]); (ECall _mm_cvtps_epi32 [(ECall _mm_mul_ps [(ECall _mm_cvtepi32_ps
    [vv 5]); (ECall _mm_rsqrt_ps [(ECall _mm_cvtepi32_ps [oo 5])])])]); (ECall _mm_cvtps_epi32
    [(ECall _mm_mul_ps [(ECall _mm_cvtepi32_ps [vv 6]); (ECall _mm_rsqrt_ps [(ECall _mm_cvtepi32_ps
    [oo 6])])])]); (ECall _mm_cvtps_epi32 [(ECall _mm_mul_ps [(ECall _mm_cvtepi32_ps [vv 7]); (ECall
    _mm_rsqrt_ps [(ECall _mm_cvtepi32_ps [oo 7])])])])]].

(* short_vec_sse_int_32.hpp:806-826 *)
Definition sse_int_32_print : list item :=
  [PStr "["; PVal (EIdx (vv 0) (EInt 0)); PStr ", "; PVal (EIdx (vv 0) (EInt 1)); PStr ", "; PVal
   (EIdx (vv 0) (EInt 2)); PStr ", "; PVal (EIdx (vv 0) (EInt 3)); PStr ", "; PVal (EIdx (vv 1)
   (EInt 0)); PStr ", "; PVal (EIdx (vv 1) (EInt 1)); PStr ", "; PVal (EIdx (vv 1) (EInt 2)); PStr
   ", "; PVal (EIdx (vv 1) (EInt 3)); PStr ", "; PVal (EIdx (vv 2) (EInt 0)); PStr ", "; PVal (EIdx
   (vv 2) (EInt 1)); PStr ", "; PVal (EIdx (vv 2) (EInt 2)); PStr ", "; PVal (EIdx (vv 2) (EInt
   3)); PStr ", "; PVal (EIdx (vv 3) (EInt 0)); PStr ", "; PVal (EIdx (vv 3) (EInt 1)); PStr ", ";
   PVal (EIdx (vv 3) (EInt 2)); PStr ", "; PVal (EIdx (vv 3) (EInt 3)); PStr ", "; PVal (EIdx (vv
   4) (EInt 0)); PStr ", "; PVal (EIdx (vv 4) (EInt 1)); PStr ", "; PVal (EIdx (vv 4) (EInt 2));
   PStr ", "; PVal (EIdx (vv 4) (EInt 3)); PStr ", "; PVal (EIdx (vv 5) (EInt 0)); PStr ", "; PVal
   (EIdx (vv 5) (EInt 1)); PStr ", "; PVal (EIdx (vv 5) (EInt 2)); PStr ", "; PVal (EIdx (vv 5)
   (EInt 3)); PStr ", "; PVal (EIdx (vv 6) (EInt 0)); PStr ", "; PVal (EIdx (vv 6) (EInt 1)); PStr
   ", "; PVal (EIdx (vv 6) (EInt 2)); PStr ", "; PVal (EIdx (vv 6) (EInt 3)); PStr ", "; PVal (EIdx
   (vv 7) (EInt 0)); PStr ", "; PVal (EIdx (vv 7) (EInt 1)); PStr ", "; PVal (EIdx (vv 7) (EInt
   2)); PStr ", "; PVal (EIdx (vv 7) (EInt 3)); PStr "]"].

(* short_vec_sse_int_32.hpp *)
Definition cls_sse_int_32 : cls :=
  mkCls "sse_int_32" KI32 32 8 4 16 MNone
    (fun m => match m with
     | MCtorScalar => Some sse_int_32_ctor_scalar
     | MCtorPtr => Some sse_int_32_ctor_ptr
     | MCtorRegs => Some sse_int_32_ctor_regs
     | MCtorSqrt => Some sse_int_32_ctor_sqrt
     | MCtorList => Some sse_int_32_ctor_list
     | MSubEq => Some sse_int_32_sub_eq
     | MSub => Some sse_int_32_sub
     | MAddEq => Some sse_int_32_add_eq
     | MAdd => Some sse_int_32_add
     | MMulEq => Some sse_int_32_mul_eq
     | MMul => Some sse_int_32_mul
     | MDivEq => Some sse_int_32_div_eq
     | MDiv => Some sse_int_32_div
     | MDivEqSqrt => Some sse_int_32_div_eq_sqrt
     | MDivSqrt => Some sse_int_32_div_sqrt
     | MSqrt => Some sse_int_32_sqrt
     | MLoad => Some sse_int_32_load
     | MLoadAligned => Some sse_int_32_load_aligned
     | MStore => Some sse_int_32_store
     | MStoreAligned => Some sse_int_32_store_aligned
     | MStoreNt => Some sse_int_32_store_nt
     | MGather => Some sse_int_32_gather
     | MScatter => Some sse_int_32_scatter
     | _ => None
     end)
    sse_int_32_ctor_regs sse_int_32_print.

(* short_vec_sse_int_32.hpp:176-187 with __SSE4_1__ *)
Definition sse_int_32_41_mul_eq : body :=
  [SSet (LVal (EInt 0)) (ECall _mm_mullo_epi32 [vv 0; oo 0]);
   SSet (LVal (EInt 1)) (ECall _mm_mullo_epi32 [vv 1; oo 1]);
   SSet (LVal (EInt 2)) (ECall _mm_mullo_epi32 [vv 2; oo 2]);
   SSet (LVal (EInt 3)) (ECall _mm_mullo_epi32 [vv 3; oo 3]);
   SSet (LVal (EInt 4)) (ECall _mm_mullo_epi32 [vv 4; oo 4]);
   SSet (LVal (EInt 5)) (ECall _mm_mullo_epi32 [vv 5; oo 5]);
   SSet (LVal (EInt 6)) (ECall _mm_mullo_epi32 [vv 6; oo 6]);
   SSet (LVal (EInt 7)) (ECall _mm_mullo_epi32 [vv 7; oo 7])].

(* short_vec_sse_int_32.hpp:189-201 with __SSE4_1__ *)
Definition sse_int_32_41_mul : body :=
  [SRetVec [(ECall _mm_mullo_epi32 [vv 0; oo 0]); (ECall _mm_mullo_epi32 [vv 1; oo 1]); (ECall
    _mm_mullo_epi32 [vv 2; oo 2]); (ECall _mm_mullo_epi32 [vv 3; oo 3]); (ECall _mm_mullo_epi32 [vv
    4; oo 4]); (ECall _mm_mullo_epi32 [vv 5; oo 5]); (ECall _mm_mullo_epi32 [vv 6; oo 6]); (ECall
    _mm_mullo_epi32 [vv 7; oo 7])]].

(* short_vec_sse_int_32.hpp:484-526 with __SSE4_1__ *)
Definition sse_int_32_41_gather : body :=
  [SSet (LVal (EInt 0)) (ECall _mm_insert_epi32 [vv 0; (EIdx EPtr (off 0)); EInt 0]);
   SSet (LVal (EInt 0)) (ECall _mm_insert_epi32 [vv 0; (EIdx EPtr (off 1)); EInt 1]);
   SSet (LVal (EInt 0)) (ECall _mm_insert_epi32 [vv 0; (EIdx EPtr (off 2)); EInt 2]);
   SSet (LVal (EInt 0)) (ECall _mm_insert_epi32 [vv 0; (EIdx EPtr (off 3)); EInt 3]);
   SSet (LVal (EInt 1)) (ECall _mm_insert_epi32 [vv 1; (EIdx EPtr (off 4)); EInt 0]);
   SSet (LVal (EInt 1)) (ECall _mm_insert_epi32 [vv 1; (EIdx EPtr (off 5)); EInt 1]);
   SSet (LVal (EInt 1)) (ECall _mm_insert_epi32 [vv 1; (EIdx EPtr (off 6)); EInt 2]);
   SSet (LVal (EInt 1)) (ECall _mm_insert_epi32 [vv 1; (EIdx EPtr (off 7)); EInt 3]);
   SSet (LVal (EInt 2)) (ECall _mm_insert_epi32 [vv 2; (EIdx EPtr (off 8)); EInt 0]);
   SSet (LVal (EInt 2)) (ECall _mm_insert_epi32 [vv 2; (EIdx EPtr (off 9)); EInt 1]);
   SSet (LVal (EInt 2)) (ECall _mm_insert_epi32 [vv 2; (EIdx EPtr (off 10)); EInt 2]);
   SSet (LVal (EInt 2)) (ECall _mm_insert_epi32 [vv 2; (EIdx EPtr (off 11)); EInt 3]);
   SSet (LVal (EInt 3)) (ECall _mm_insert_epi32 [vv 3; (EIdx EPtr (off 12)); EInt 0]);
   SSet (LVal (EInt 3)) (ECall _mm_insert_epi32 [vv 3; (EIdx EPtr (off 13)); EInt 1]);
   SSet (LVal (EInt 3)) (ECall _mm_insert_epi32 [vv 3; (EIdx EPtr (off 14)); EInt 2]);
   SSet (LVal (EInt 3)) (ECall _mm_insert_epi32 [vv 3; (EIdx EPtr (off 15)); EInt 3]);
   SSet (LVal (EInt 4)) (ECall _mm_insert_epi32 [vv 4; (EIdx EPtr (off 16)); EInt 0]);
   SSet (LVal (EInt 4)) (ECall _mm_insert_epi32 [vv 4; (EIdx EPtr (off 17)); EInt 1]);
   SSet (LVal (EInt 4)) (ECall _mm_insert_epi32 [vv 4; (EIdx EPtr (off 18)); EInt 2]);
   SSet (LVal (EInt 4)) (ECall _mm_insert_epi32 [vv 4; (EIdx EPtr (off 19)); EInt 3]);
   SSet (LVal (EInt 5)) (ECall _mm_insert_epi32 [vv 5; (EIdx EPtr (off 20)); EInt 0]);
   SSet (LVal (EInt 5)) (ECall _mm_insert_epi32 [vv 5; (EIdx EPtr (off 21)); EInt 1]);
   SSet (LVal (EInt 5)) (ECall _mm_insert_epi32 [vv 5; (EIdx EPtr (off 22)); EInt 2]);
   SSet (LVal (EInt 5)) (ECall _mm_insert_epi32 [vv 5; (EIdx EPtr (off 23)); EInt 3]);
   SSet (LVal (EInt 6)) (ECall _mm_insert_epi32 [vv 6; (EIdx EPtr (off 24)); EInt 0]);
   SSet (LVal (EInt 6)) (ECall _mm_insert_epi32 [vv 6; (EIdx EPtr (off 25)); EInt 1]);
   SSet (LVal (EInt 6)) (ECall _mm_insert_epi32 [vv 6; (EIdx EPtr (off 26)); EInt 2]);
   SSet (LVal (EInt 6)) (ECall _mm_insert_epi32 [vv 6; (EIdx EPtr (off 27)); EInt 3]);
   SSet (LVal (EInt 7)) (ECall _mm_insert_epi32 [vv 7; (EIdx EPtr (off 28)); EInt 0]);
   SSet (LVal (EInt 7)) (ECall _mm_insert_epi32 [vv 7; (EIdx EPtr (off 29)); EInt 1]);
   SSet (LVal (EInt 7)) (ECall _mm_insert_epi32 [vv 7; (EIdx EPtr (off 30)); EInt 2]);
   SSet (LVal (EInt 7)) (ECall _mm_insert_epi32 [vv 7; (EIdx EPtr (off 31)); EInt 3])].

(* short_vec_sse_int_32.hpp:528-570 with __SSE4_1__ *)
Definition sse_int_32_41_scatter : body :=
  [SSet (LMem (pto 0)) (ECall _mm_extract_epi32 [vv 0; EInt 0]);
   SSet (LMem (pto 1)) (ECall _mm_extract_epi32 [vv 0; EInt 1]);
   SSet (LMem (pto 2)) (ECall _mm_extract_epi32 [vv 0; EInt 2]);
   SSet (LMem (pto 3)) (ECall _mm_extract_epi32 [vv 0; EInt 3]);
   SSet (LMem (pto 4)) (ECall _mm_extract_epi32 [vv 1; EInt 0]);
   SSet (LMem (pto 5)) (ECall _mm_extract_epi32 [vv 1; EInt 1]);
   SSet (LMem (pto 6)) (ECall _mm_extract_epi32 [vv 1; EInt 2]);
   SSet (LMem (pto 7)) (ECall _mm_extract_epi32 [vv 1; EInt 3]);
   SSet (LMem (pto 8)) (ECall _mm_extract_epi32 [vv 2; EInt 0]);
   SSet (LMem (pto 9)) (ECall _mm_extract_epi32 [vv 2; EInt 1]);
   SSet (LMem (pto 10)) (ECall _mm_extract_epi32 [vv 2; EInt 2]);
   SSet (LMem (pto 11)) (ECall _mm_extract_epi32 [vv 2; EInt 3]);
   SSet (LMem (pto 12)) (ECall _mm_extract_epi32 [vv 3; EInt 0]);
   SSet (LMem (pto 13)) (ECall _mm_extract_epi32 [vv 3; EInt 1]);
   SSet (LMem (pto 14)) (ECall _mm_extract_epi32 [vv 3; EInt 2]);
   SSet (LMem (pto 15)) (ECall _mm_extract_epi32 [vv 3; EInt 3]);
   SSet (LMem (pto 16)) (ECall _mm_extract_epi32 [vv 4; EInt 0]);
   SSet (LMem (pto 17)) (ECall _mm_extract_epi32 [vv 4; EInt 1]);
   SSet (LMem (pto 18)) (ECall _mm_extract_epi32 [vv 4; EInt 2]);
   SSet (LMem (pto 19)) (ECall _mm_extract_epi32 [vv 4; EInt 3]);
   SSet (LMem (pto 20)) (ECall _mm_extract_epi32 [vv 5; EInt 0]);
   SSet (LMem (pto 21)) (ECall _mm_extract_epi32 [vv 5; EInt 1]);
   SSet (LMem (pto 22)) (ECall _mm_extract_epi32 [vv 5; EInt 2]);
   SSet (LMem (pto 23)) (ECall _mm_extract_epi32 [vv 5; EInt 3]);
   SSet (LMem (pto 24)) (ECall _mm_extract_epi32 [vv 6; EInt 0]);
   SSet (LMem (pto 25)) (ECall _mm_extract_epi32 [vv 6; EInt 1]);
   SSet (LMem (pto 26)) (ECall _mm_extract_epi32 [vv 6; EInt 2]);
   SSet (LMem (pto 27)) (ECall _mm_extract_epi32 [vv 6; EInt 3]);
   SSet (LMem (pto 28)) (ECall _mm_extract_epi32 [vv 7; EInt 0]);
   SSet (LMem (pto 29)) (ECall _mm_extract_epi32 [vv 7; EInt 1]);
   SSet (LMem (pto 30)) (ECall _mm_extract_epi32 [vv 7; EInt 2]);
   SSet (LMem (pto 31)) (ECall _mm_extract_epi32 [vv 7; EInt 3])].

(* short_vec_sse_int_32.hpp with __SSE4_1__ *)
Definition cls_sse_int_32_41 : cls :=
  mkCls "sse_int_32_41" KI32 32 8 4 16 MNone
    (fun m => match m with
     | MCtorScalar => Some sse_int_32_ctor_scalar
     | MCtorPtr => Some sse_int_32_ctor_ptr
     | MCtorRegs => Some sse_int_32_ctor_regs
     | MCtorSqrt => Some sse_int_32_ctor_sqrt
     | MCtorList => Some sse_int_32_ctor_list
     | MSubEq => Some sse_int_32_sub_eq
     | MSub => Some sse_int_32_sub
     | MAddEq => Some sse_int_32_add_eq
     | MAdd => Some sse_int_32_add
     | MMulEq => Some sse_int_32_41_mul_eq
     | MMul => Some sse_int_32_41_mul
     | MDivEq => Some sse_int_32_div_eq
     | MDiv => Some sse_int_32_div
     | MDivEqSqrt => Some sse_int_32_div_eq_sqrt
     | MDivSqrt => Some sse_int_32_div_sqrt
     | MSqrt => Some sse_int_32_sqrt
     | MLoad => Some sse_int_32_load
     | MLoadAligned => Some sse_int_32_load_aligned
     | MStore => Some sse_int_32_store
     | MStoreAligned => Some sse_int_32_store_aligned
     | MStoreNt => Some sse_int_32_store_nt
     | MGather => Some sse_int_32_41_gather
     | MScatter => Some sse_int_32_41_scatter
     | _ => None
     end)
    sse_int_32_ctor_regs sse_int_32_print.

Definition sse_classes : list cls :=
  [cls_sse_double_2; cls_sse_double_2_41; cls_sse_double_4; cls_sse_double_4_41; cls_sse_double_8;
   cls_sse_double_8_41; cls_sse_double_16; cls_sse_double_16_41; cls_sse_double_32;
   cls_sse_double_32_41; cls_sse_float_4; cls_sse_float_4_41; cls_sse_float_8; cls_sse_float_8_41;
   cls_sse_float_16; cls_sse_float_16_41; cls_sse_float_32; cls_sse_float_32_41; cls_sse_int_4;
   cls_sse_int_4_41; cls_sse_int_8; cls_sse_int_8_41; cls_sse_int_16; cls_sse_int_16_41;
   cls_sse_int_32; cls_sse_int_32_41].
