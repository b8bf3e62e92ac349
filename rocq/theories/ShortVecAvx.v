(** The member functions of the short_vec classes in
    /repo/include/libflatarray/detail/short_vec_avx_*.hpp, call by call, in the
    language of ShortVecLang.v.  Each definition cites the lines it was
    transliterated from.  Calls of load() and store() are expanded. *)
From Coq Require Import String ZArith List.
From Verif Require Import ShortVecLang ShortVecClass.
Import ListNotations.
Local Open Scope Z_scope.
Local Open Scope string_scope.

(* short_vec_avx_double_4.hpp:61-64 *)
Definition avx_double_4_ctor_scalar : body :=
  [SSet (LVal (EInt 0)) (ECall _mm256_broadcast_sd [EArg])].

(* short_vec_avx_double_4.hpp:66-70 *)
Definition avx_double_4_ctor_ptr : body :=
  [SSet (LVal (EInt 0)) (ECall _mm256_loadu_pd [EData])].

(* short_vec_avx_double_4.hpp:72-75 *)
Definition avx_double_4_ctor_regs : body :=
  [SSet (LVal (EInt 0)) (EPar 0)].

(* short_vec_avx_double_4.hpp:78-83 *)
Definition avx_double_4_ctor_list : body :=
  [SSet (LVal (EInt 0)) (ECall _mm256_loadu_pd [EData])].

(* short_vec_avx_double_4.hpp:86-92 *)
Definition avx_double_4_any : body :=
  [SRet (EBool (ECop (ORel REq) (EInt 0) (ECall _mm256_testz_si256 [(ECall _mm256_castpd_si256 [vv
    0]); (ECall _mm256_castpd_si256 [vv 0])])))].

(* short_vec_avx_double_4.hpp:94-112 *)
Definition avx_double_4_index : body :=
  [SDecl "buf" 2;
   SIf (ECop (ORel RLt) (EVar "i") (EInt 2)) [SSet (LVar "buf") (ECall _mm256_extractf128_pd [vv 0;
    EInt 0])] [SSet (LVar "buf") (ECall _mm256_extractf128_pd [vv 0; EInt 1])];
   SUpd OBitAnd (LVar "i") (EInt 1);
   SIf (ECop (ORel REq) (EVar "i") (EInt 0)) [SRet (ECall _mm_cvtsd_f64 [(EVar "buf")])] [];
   SSet (LVar "buf") (ECall _mm_shuffle_pd [(EVar "buf"); (EVar "buf"); EInt 1]);
   SRet (ECall _mm_cvtsd_f64 [(EVar "buf")])].

(* short_vec_avx_double_4.hpp:114-118 *)
Definition avx_double_4_sub_eq : body :=
  [SSet (LVal (EInt 0)) (ECall _mm256_sub_pd [vv 0; oo 0])].

(* short_vec_avx_double_4.hpp:120-125 *)
Definition avx_double_4_sub : body :=
  [SRetVec [(ECall _mm256_sub_pd [vv 0; oo 0])]].

(* short_vec_avx_double_4.hpp:127-131 *)
Definition avx_double_4_add_eq : body :=
  [SSet (LVal (EInt 0)) (ECall _mm256_add_pd [vv 0; oo 0])].

(* short_vec_avx_double_4.hpp:133-137 *)
Definition avx_double_4_add : body :=
  [SRetVec [(ECall _mm256_add_pd [vv 0; oo 0])]].

(* short_vec_avx_double_4.hpp:139-143 *)
Definition avx_double_4_mul_eq : body :=
  [SSet (LVal (EInt 0)) (ECall _mm256_mul_pd [vv 0; oo 0])].

(* short_vec_avx_double_4.hpp:145-150 *)
Definition avx_double_4_mul : body :=
  [SRetVec [(ECall _mm256_mul_pd [vv 0; oo 0])]].

(* short_vec_avx_double_4.hpp:152-156 *)
Definition avx_double_4_div_eq : body :=
  [SSet (LVal (EInt 0)) (ECall _mm256_div_pd [vv 0; oo 0])].

(* short_vec_avx_double_4.hpp:158-163 *)
Definition avx_double_4_div : body :=
  [SRetVec [(ECall _mm256_div_pd [vv 0; oo 0])]].

(* short_vec_avx_double_4.hpp:165-170 *)
Definition avx_double_4_lt : body :=
  [SRetVec [(ECall _mm256_cmp_pd [vv 0; oo 0; (EInt _CMP_LT_OS)])]].

(* short_vec_avx_double_4.hpp:172-177 *)
Definition avx_double_4_le : body :=
  [SRetVec [(ECall _mm256_cmp_pd [vv 0; oo 0; (EInt _CMP_LE_OS)])]].

(* short_vec_avx_double_4.hpp:179-184 *)
Definition avx_double_4_eq : body :=
  [SRetVec [(ECall _mm256_cmp_pd [vv 0; oo 0; (EInt _CMP_EQ_OQ)])]].

(* short_vec_avx_double_4.hpp:186-191 *)
Definition avx_double_4_gt : body :=
  [SRetVec [(ECall _mm256_cmp_pd [vv 0; oo 0; (EInt _CMP_GT_OS)])]].

(* short_vec_avx_double_4.hpp:193-198 *)
Definition avx_double_4_ge : body :=
  [SRetVec [(ECall _mm256_cmp_pd [vv 0; oo 0; (EInt _CMP_GE_OS)])]].

(* short_vec_avx_double_4.hpp:200-205 *)
Definition avx_double_4_sqrt : body :=
  [SRetVec [(ECall _mm256_sqrt_pd [vv 0])]].

(* short_vec_avx_double_4.hpp:207-211 *)
Definition avx_double_4_load : body :=
  [SSet (LVal (EInt 0)) (ECall _mm256_loadu_pd [EData])].

(* short_vec_avx_double_4.hpp:213-218 *)
Definition avx_double_4_load_aligned : body :=
  [SAssertAligned EData 32;
   SSet (LVal (EInt 0)) (ECall _mm256_load_pd [EData])].

(* short_vec_avx_double_4.hpp:220-224 *)
Definition avx_double_4_store : body :=
  [SDo (ECall _mm256_storeu_pd [dat 0; vv 0])].

(* short_vec_avx_double_4.hpp:226-231 *)
Definition avx_double_4_store_aligned : body :=
  [SAssertAligned EData 32;
   SDo (ECall _mm256_store_pd [EData; vv 0])].

(* short_vec_avx_double_4.hpp:233-238 *)
Definition avx_double_4_store_nt : body :=
  [SAssertAligned EData 32;
   SDo (ECall _mm256_stream_pd [EData; vv 0])].

(* short_vec_avx_double_4.hpp:249-257 *)
Definition avx_double_4_gather : body :=
  [SSet (LVal (EInt 0)) (ECall _mm256_set_pd [(EDeref (pto 3)); (EDeref (pto 2)); (EDeref (pto 1));
    (EDeref (pto 0))])].

(* short_vec_avx_double_4.hpp:260-270 *)
Definition avx_double_4_scatter : body :=
  [SDecl "tmp" 2;
   SSet (LVar "tmp") (ECall _mm256_extractf128_pd [vv 0; EInt 0]);
   SDo (ECall _mm_storel_pd [pto 0; (EVar "tmp")]);
   SDo (ECall _mm_storeh_pd [pto 1; (EVar "tmp")]);
   SSet (LVar "tmp") (ECall _mm256_extractf128_pd [vv 0; EInt 1]);
   SDo (ECall _mm_storel_pd [pto 2; (EVar "tmp")]);
   SDo (ECall _mm_storeh_pd [pto 3; (EVar "tmp")])].

(* short_vec_avx_double_4.hpp:272-276 *)
Definition avx_double_4_blend : body :=
  [SSet (LVal (EInt 0)) (ECall _mm256_blendv_pd [vv 0; oo 0; mm 0])].

(* short_vec_avx_double_4.hpp:302-308 *)
Definition avx_double_4_print : list item :=
  [PStr "["; PVal (EIdx (vv 0) (EInt 0)); PStr ", "; PVal (EIdx (vv 0) (EInt 1)); PStr ", "; PVal
   (EIdx (vv 0) (EInt 2)); PStr ", "; PVal (EIdx (vv 0) (EInt 3)); PStr "]"].

(* short_vec_avx_double_4.hpp *)
Definition cls_avx_double_4 : cls :=
  mkCls "avx_double_4" KF64 4 1 4 32 MVec
    (fun m => match m with
     | MCtorScalar => Some avx_double_4_ctor_scalar
     | MCtorPtr => Some avx_double_4_ctor_ptr
     | MCtorRegs => Some avx_double_4_ctor_regs
     | MCtorList => Some avx_double_4_ctor_list
     | MAny => Some avx_double_4_any
     | MIndex => Some avx_double_4_index
     | MSubEq => Some avx_double_4_sub_eq
     | MSub => Some avx_double_4_sub
     | MAddEq => Some avx_double_4_add_eq
     | MAdd => Some avx_double_4_add
     | MMulEq => Some avx_double_4_mul_eq
     | MMul => Some avx_double_4_mul
     | MDivEq => Some avx_double_4_div_eq
     | MDiv => Some avx_double_4_div
     | MLt => Some avx_double_4_lt
     | MLe => Some avx_double_4_le
     | MEq => Some avx_double_4_eq
     | MGt => Some avx_double_4_gt
     | MGe => Some avx_double_4_ge
     | MSqrt => Some avx_double_4_sqrt
     | MLoad => Some avx_double_4_load
     | MLoadAligned => Some avx_double_4_load_aligned
     | MStore => Some avx_double_4_store
     | MStoreAligned => Some avx_double_4_store_aligned
     | MStoreNt => Some avx_double_4_store_nt
     | MGather => Some avx_double_4_gather
     | MScatter => Some avx_double_4_scatter
     | MBlend => Some avx_double_4_blend
     | _ => None
     end)
    avx_double_4_ctor_regs avx_double_4_print.

(* short_vec_avx_double_4.hpp:241-247 with __AVX2__ *)
Definition avx_double_4_2_gather : body :=
  [SDecl "indices" 4;
   SSet (LVar "indices") (ECall _mm_loadu_si128 [EOff]);
   SSet (LVal (EInt 0)) (ECall _mm256_i32gather_pd [EPtr; (EVar "indices"); EInt 8])].

(* short_vec_avx_double_4.hpp with __AVX2__ *)
Definition cls_avx_double_4_2 : cls :=
  mkCls "avx_double_4_2" KF64 4 1 4 32 MVec
    (fun m => match m with
     | MCtorScalar => Some avx_double_4_ctor_scalar
     | MCtorPtr => Some avx_double_4_ctor_ptr
     | MCtorRegs => Some avx_double_4_ctor_regs
     | MCtorList => Some avx_double_4_ctor_list
     | MAny => Some avx_double_4_any
     | MIndex => Some avx_double_4_index
     | MSubEq => Some avx_double_4_sub_eq
     | MSub => Some avx_double_4_sub
     | MAddEq => Some avx_double_4_add_eq
     | MAdd => Some avx_double_4_add
     | MMulEq => Some avx_double_4_mul_eq
     | MMul => Some avx_double_4_mul
     | MDivEq => Some avx_double_4_div_eq
     | MDiv => Some avx_double_4_div
     | MLt => Some avx_double_4_lt
     | MLe => Some avx_double_4_le
     | MEq => Some avx_double_4_eq
     | MGt => Some avx_double_4_gt
     | MGe => Some avx_double_4_ge
     | MSqrt => Some avx_double_4_sqrt
     | MLoad => Some avx_double_4_load
     | MLoadAligned => Some avx_double_4_load_aligned
     | MStore => Some avx_double_4_store
     | MStoreAligned => Some avx_double_4_store_aligned
     | MStoreNt => Some avx_double_4_store_nt
     | MGather => Some avx_double_4_2_gather
     | MScatter => Some avx_double_4_scatter
     | MBlend => Some avx_double_4_blend
     | _ => None
     end)
    avx_double_4_ctor_regs avx_double_4_print.

(* short_vec_avx_double_8.hpp:59-63 *)
Definition avx_double_8_ctor_scalar : body :=
  [SSet (LVal (EInt 0)) (ECall _mm256_broadcast_sd [EArg]);
   SSet (LVal (EInt 1)) (ECall _mm256_broadcast_sd [EArg])].

(* short_vec_avx_double_8.hpp:65-69 *)
Definition avx_double_8_ctor_ptr : body :=
  [SSet (LVal (EInt 0)) (ECall _mm256_loadu_pd [dat 0]);
   SSet (LVal (EInt 1)) (ECall _mm256_loadu_pd [dat 4])].

(* short_vec_avx_double_8.hpp:71-77 *)
Definition avx_double_8_ctor_regs : body :=
  [SSet (LVal (EInt 0)) (EPar 0);
   SSet (LVal (EInt 1)) (EPar 1)].

(* short_vec_avx_double_8.hpp:80-85 *)
Definition avx_double_8_ctor_list : body :=
  [SSet (LVal (EInt 0)) (ECall _mm256_loadu_pd [dat 0]);
   SSet (LVal (EInt 1)) (ECall _mm256_loadu_pd [dat 4])].

(* short_vec_avx_double_8.hpp:88-95 *)
Definition avx_double_8_any : body :=
  [SSet (LVar "buf0") (ECall _mm256_or_pd [vv 0; vv 1]);
   SRet (EBool (ECop (ORel REq) (EInt 0) (ECall _mm256_testz_si256 [(ECall _mm256_castpd_si256
    [(EVar "buf0")]); (ECall _mm256_castpd_si256 [(EVar "buf0")])])))].

(* short_vec_avx_double_8.hpp:97-118 *)
Definition avx_double_8_index : body :=
  [SSet (LVar "buf0") (EVal (ECop OShr (EVar "i") (EInt 2)));
   SUpd OBitAnd (LVar "i") (EInt 3);
   SDecl "buf1" 2;
   SIf (ECop (ORel RLt) (EVar "i") (EInt 2)) [SSet (LVar "buf1") (ECall _mm256_extractf128_pd
    [(EVar "buf0"); EInt 0])] [SSet (LVar "buf1") (ECall _mm256_extractf128_pd [(EVar "buf0"); EInt
    1])];
   SUpd OBitAnd (LVar "i") (EInt 1);
   SIf (ECop (ORel REq) (EVar "i") (EInt 0)) [SRet (ECall _mm_cvtsd_f64 [(EVar "buf1")])] [];
   SSet (LVar "buf1") (ECall _mm_shuffle_pd [(EVar "buf1"); (EVar "buf1"); EInt 1]);
   SRet (ECall _mm_cvtsd_f64 [(EVar "buf1")])].

(* short_vec_avx_double_8.hpp:120-125 *)
Definition avx_double_8_sub_eq : body :=
  [SSet (LVal (EInt 0)) (ECall _mm256_sub_pd [vv 0; oo 0]);
   SSet (LVal (EInt 1)) (ECall _mm256_sub_pd [vv 1; oo 1])].

(* short_vec_avx_double_8.hpp:127-133 *)
Definition avx_double_8_sub : body :=
  [SRetVec [(ECall _mm256_sub_pd [vv 0; oo 0]); (ECall _mm256_sub_pd [vv 1; oo 1])]].

(* short_vec_avx_double_8.hpp:135-140 *)
Definition avx_double_8_add_eq : body :=
  [SSet (LVal (EInt 0)) (ECall _mm256_add_pd [vv 0; oo 0]);
   SSet (LVal (EInt 1)) (ECall _mm256_add_pd [vv 1; oo 1])].

(* short_vec_avx_double_8.hpp:142-148 *)
Definition avx_double_8_add : body :=
  [SRetVec [(ECall _mm256_add_pd [vv 0; oo 0]); (ECall _mm256_add_pd [vv 1; oo 1])]].

(* short_vec_avx_double_8.hpp:150-155 *)
Definition avx_double_8_mul_eq : body :=
  [SSet (LVal (EInt 0)) (ECall _mm256_mul_pd [vv 0; oo 0]);
   SSet (LVal (EInt 1)) (ECall _mm256_mul_pd [vv 1; oo 1])].

(* short_vec_avx_double_8.hpp:157-163 *)
Definition avx_double_8_mul : body :=
  [SRetVec [(ECall _mm256_mul_pd [vv 0; oo 0]); (ECall _mm256_mul_pd [vv 1; oo 1])]].

(* short_vec_avx_double_8.hpp:165-170 *)
Definition avx_double_8_div_eq : body :=
  [SSet (LVal (EInt 0)) (ECall _mm256_div_pd [vv 0; oo 0]);
   SSet (LVal (EInt 1)) (ECall _mm256_div_pd [vv 1; oo 1])].

(* short_vec_avx_double_8.hpp:172-178 *)
Definition avx_double_8_div : body :=
  [SRetVec [(ECall _mm256_div_pd [vv 0; oo 0]); (ECall _mm256_div_pd [vv 1; oo 1])]].

(* short_vec_avx_double_8.hpp:180-186 *)
Definition avx_double_8_lt : body :=
  [SRetVec [(ECall _mm256_cmp_pd [vv 0; oo 0; (EInt _CMP_LT_OS)]); (ECall _mm256_cmp_pd [vv 1; oo
    1; (EInt _CMP_LT_OS)])]].

(* short_vec_avx_double_8.hpp:188-194 *)
Definition avx_double_8_le : body :=
  [SRetVec [(ECall _mm256_cmp_pd [vv 0; oo 0; (EInt _CMP_LE_OS)]); (ECall _mm256_cmp_pd [vv 1; oo
    1; (EInt _CMP_LE_OS)])]].

(* short_vec_avx_double_8.hpp:196-202 *)
Definition avx_double_8_eq : body :=
  [SRetVec [(ECall _mm256_cmp_pd [vv 0; oo 0; (EInt _CMP_EQ_OQ)]); (ECall _mm256_cmp_pd [vv 1; oo
    1; (EInt _CMP_EQ_OQ)])]].

(* short_vec_avx_double_8.hpp:204-210 *)
Definition avx_double_8_gt : body :=
  [SRetVec [(ECall _mm256_cmp_pd [vv 0; oo 0; (EInt _CMP_GT_OS)]); (ECall _mm256_cmp_pd [vv 1; oo
    1; (EInt _CMP_GT_OS)])]].

(* short_vec_avx_double_8.hpp:212-218 *)
Definition avx_double_8_ge : body :=
  [SRetVec [(ECall _mm256_cmp_pd [vv 0; oo 0; (EInt _CMP_GE_OS)]); (ECall _mm256_cmp_pd [vv 1; oo
    1; (EInt _CMP_GE_OS)])]].

(* short_vec_avx_double_8.hpp:220-226 *)
Definition avx_double_8_sqrt : body :=
  [SRetVec [(ECall _mm256_sqrt_pd [vv 0]); (ECall _mm256_sqrt_pd [vv 1])]].

(* short_vec_avx_double_8.hpp:228-233 *)
Definition avx_double_8_load : body :=
  [SSet (LVal (EInt 0)) (ECall _mm256_loadu_pd [dat 0]);
   SSet (LVal (EInt 1)) (ECall _mm256_loadu_pd [dat 4])].

(* short_vec_avx_double_8.hpp:235-241 *)
Definition avx_double_8_load_aligned : body :=
  [SAssertAligned EData 32;
   SSet (LVal (EInt 0)) (ECall _mm256_load_pd [dat 0]);
   SSet (LVal (EInt 1)) (ECall _mm256_load_pd [dat 4])].

(* short_vec_avx_double_8.hpp:243-248 *)
Definition avx_double_8_store : body :=
  [SDo (ECall _mm256_storeu_pd [dat 0; vv 0]);
   SDo (ECall _mm256_storeu_pd [dat 4; vv 1])].

(* short_vec_avx_double_8.hpp:250-256 *)
Definition avx_double_8_store_aligned : body :=
  [SAssertAligned EData 32;
   SDo (ECall _mm256_store_pd [dat 0; vv 0]);
   SDo (ECall _mm256_store_pd [dat 4; vv 1])].

(* short_vec_avx_double_8.hpp:258-264 *)
Definition avx_double_8_store_nt : body :=
  [SAssertAligned EData 32;
   SDo (ECall _mm256_stream_pd [dat 0; vv 0]);
   SDo (ECall _mm256_stream_pd [dat 4; vv 1])].

(* short_vec_avx_double_8.hpp:277-291 *)
Definition avx_double_8_gather : body :=
  [SSet (LVal (EInt 0)) (ECall _mm256_set_pd [(EDeref (pto 3)); (EDeref (pto 2)); (EDeref (pto 1));
    (EDeref (pto 0))]);
   SSet (LVal (EInt 1)) (ECall _mm256_set_pd [(EDeref (pto 7)); (EDeref (pto 6)); (EDeref (pto 5));
    (EDeref (pto 4))])].

(* short_vec_avx_double_8.hpp:294-310 *)
Definition avx_double_8_scatter : body :=
  [SDecl "tmp" 2;
   SSet (LVar "tmp") (ECall _mm256_extractf128_pd [vv 0; EInt 0]);
   SDo (ECall _mm_storel_pd [pto 0; (EVar "tmp")]);
   SDo (ECall _mm_storeh_pd [pto 1; (EVar "tmp")]);
   SSet (LVar "tmp") (ECall _mm256_extractf128_pd [vv 0; EInt 1]);
   SDo (ECall _mm_storel_pd [pto 2; (EVar "tmp")]);
   SDo (ECall _mm_storeh_pd [pto 3; (EVar "tmp")]);
   SSet (LVar "tmp") (ECall _mm256_extractf128_pd [vv 1; EInt 0]);
   SDo (ECall _mm_storel_pd [pto 4; (EVar "tmp")]);
   SDo (ECall _mm_storeh_pd [pto 5; (EVar "tmp")]);
   SSet (LVar "tmp") (ECall _mm256_extractf128_pd [vv 1; EInt 1]);
   SDo (ECall _mm_storel_pd [pto 6; (EVar "tmp")]);
   SDo (ECall _mm_storeh_pd [pto 7; (EVar "tmp")])].

(* short_vec_avx_double_8.hpp:312-317 *)
Definition avx_double_8_blend : body :=
  [SSet (LVal (EInt 0)) (ECall _mm256_blendv_pd [vv 0; oo 0; mm 0]);
   SSet (LVal (EInt 1)) (ECall _mm256_blendv_pd [vv 1; oo 1; mm 1])].

(* short_vec_avx_double_8.hpp:343-351 *)
Definition avx_double_8_print : list item :=
  [PStr "["; PVal (EIdx (vv 0) (EInt 0)); PStr ", "; PVal (EIdx (vv 0) (EInt 1)); PStr ", "; PVal
   (EIdx (vv 0) (EInt 2)); PStr ", "; PVal (EIdx (vv 0) (EInt 3)); PStr ", "; PVal (EIdx (vv 1)
   (EInt 0)); PStr ", "; PVal (EIdx (vv 1) (EInt 1)); PStr ", "; PVal (EIdx (vv 1) (EInt 2)); PStr
   ", "; PVal (EIdx (vv 1) (EInt 3)); PStr "]"].

(* short_vec_avx_double_8.hpp *)
Definition cls_avx_double_8 : cls :=
  mkCls "avx_double_8" KF64 8 2 4 32 MVec
    (fun m => match m with
     | MCtorScalar => Some avx_double_8_ctor_scalar
     | MCtorPtr => Some avx_double_8_ctor_ptr
     | MCtorRegs => Some avx_double_8_ctor_regs
     | MCtorList => Some avx_double_8_ctor_list
     | MAny => Some avx_double_8_any
     | MIndex => Some avx_double_8_index
     | MSubEq => Some avx_double_8_sub_eq
     | MSub => Some avx_double_8_sub
     | MAddEq => Some avx_double_8_add_eq
     | MAdd => Some avx_double_8_add
     | MMulEq => Some avx_double_8_mul_eq
     | MMul => Some avx_double_8_mul
     | MDivEq => Some avx_double_8_div_eq
     | MDiv => Some avx_double_8_div
     | MLt => Some avx_double_8_lt
     | MLe => Some avx_double_8_le
     | MEq => Some avx_double_8_eq
     | MGt => Some avx_double_8_gt
     | MGe => Some avx_double_8_ge
     | MSqrt => Some avx_double_8_sqrt
     | MLoad => Some avx_double_8_load
     | MLoadAligned => Some avx_double_8_load_aligned
     | MStore => Some avx_double_8_store
     | MStoreAligned => Some avx_double_8_store_aligned
     | MStoreNt => Some avx_double_8_store_nt
     | MGather => Some avx_double_8_gather
     | MScatter => Some avx_double_8_scatter
     | MBlend => Some avx_double_8_blend
     | _ => None
     end)
    avx_double_8_ctor_regs avx_double_8_print.

(* short_vec_avx_double_8.hpp:267-275 with __AVX2__ *)
Definition avx_double_8_2_gather : body :=
  [SDecl "indices" 4;
   SSet (LVar "indices") (ECall _mm_loadu_si128 [EOff]);
   SSet (LVal (EInt 0)) (ECall _mm256_i32gather_pd [EPtr; (EVar "indices"); EInt 8]);
   SSet (LVar "indices") (ECall _mm_loadu_si128 [(ECop OAdd EOff (EInt 4))]);
   SSet (LVal (EInt 1)) (ECall _mm256_i32gather_pd [EPtr; (EVar "indices"); EInt 8])].

(* short_vec_avx_double_8.hpp with __AVX2__ *)
Definition cls_avx_double_8_2 : cls :=
  mkCls "avx_double_8_2" KF64 8 2 4 32 MVec
    (fun m => match m with
     | MCtorScalar => Some avx_double_8_ctor_scalar
     | MCtorPtr => Some avx_double_8_ctor_ptr
     | MCtorRegs => Some avx_double_8_ctor_regs
     | MCtorList => Some avx_double_8_ctor_list
     | MAny => Some avx_double_8_any
     | MIndex => Some avx_double_8_index
     | MSubEq => Some avx_double_8_sub_eq
     | MSub => Some avx_double_8_sub
     | MAddEq => Some avx_double_8_add_eq
     | MAdd => Some avx_double_8_add
     | MMulEq => Some avx_double_8_mul_eq
     | MMul => Some avx_double_8_mul
     | MDivEq => Some avx_double_8_div_eq
     | MDiv => Some avx_double_8_div
     | MLt => Some avx_double_8_lt
     | MLe => Some avx_double_8_le
     | MEq => Some avx_double_8_eq
     | MGt => Some avx_double_8_gt
     | MGe => Some avx_double_8_ge
     | MSqrt => Some avx_double_8_sqrt
     | MLoad => Some avx_double_8_load
     | MLoadAligned => Some avx_double_8_load_aligned
     | MStore => Some avx_double_8_store
     | MStoreAligned => Some avx_double_8_store_aligned
     | MStoreNt => Some avx_double_8_store_nt
     | MGather => Some avx_double_8_2_gather
     | MScatter => Some avx_double_8_scatter
     | MBlend => Some avx_double_8_blend
     | _ => None
     end)
    avx_double_8_ctor_regs avx_double_8_print.

(* short_vec_avx_double_16.hpp:59-65 *)
Definition avx_double_16_ctor_scalar : body :=
  [SSet (LVal (EInt 0)) (ECall _mm256_broadcast_sd [EArg]);
   SSet (LVal (EInt 1)) (ECall _mm256_broadcast_sd [EArg]);
   SSet (LVal (EInt 2)) (ECall _mm256_broadcast_sd [EArg]);
   SSet (LVal (EInt 3)) (ECall _mm256_broadcast_sd [EArg])].

(* short_vec_avx_double_16.hpp:67-71 *)
Definition avx_double_16_ctor_ptr : body :=
  [SSet (LVal (EInt 0)) (ECall _mm256_loadu_pd [dat 0]);
   SSet (LVal (EInt 1)) (ECall _mm256_loadu_pd [dat 4]);
   SSet (LVal (EInt 2)) (ECall _mm256_loadu_pd [dat 8]);
   SSet (LVal (EInt 3)) (ECall _mm256_loadu_pd [dat 12])].

(* short_vec_avx_double_16.hpp:73-83 *)
Definition avx_double_16_ctor_regs : body :=
  [SSet (LVal (EInt 0)) (EPar 0);
   SSet (LVal (EInt 1)) (EPar 1);
   SSet (LVal (EInt 2)) (EPar 2);
   SSet (LVal (EInt 3)) (EPar 3)].

(* short_vec_avx_double_16.hpp:86-91 *)
Definition avx_double_16_ctor_list : body :=
  [SSet (LVal (EInt 0)) (ECall _mm256_loadu_pd [dat 0]);
   SSet (LVal (EInt 1)) (ECall _mm256_loadu_pd [dat 4]);
   SSet (LVal (EInt 2)) (ECall _mm256_loadu_pd [dat 8]);
   SSet (LVal (EInt 3)) (ECall _mm256_loadu_pd [dat 12])].

(* short_vec_avx_double_16.hpp:94-103 *)
Definition avx_double_16_any : body :=
  [SSet (LVar "buf0") (ECall _mm256_or_pd [(ECall _mm256_or_pd [vv 0; vv 1]); (ECall _mm256_or_pd
    [vv 2; vv 3])]);
   SRet (EBool (ECop (ORel REq) (EInt 0) (ECall _mm256_testz_si256 [(ECall _mm256_castpd_si256
    [(EVar "buf0")]); (ECall _mm256_castpd_si256 [(EVar "buf0")])])))].

(* short_vec_avx_double_16.hpp:105-126 *)
Definition avx_double_16_index : body :=
  [SSet (LVar "buf0") (EVal (ECop OShr (EVar "i") (EInt 2)));
   SUpd OBitAnd (LVar "i") (EInt 3);
   SDecl "buf1" 2;
   SIf (ECop (ORel RLt) (EVar "i") (EInt 2)) [SSet (LVar "buf1") (ECall _mm256_extractf128_pd
    [(EVar "buf0"); EInt 0])] [SSet (LVar "buf1") (ECall _mm256_extractf128_pd [(EVar "buf0"); EInt
    1])];
   SUpd OBitAnd (LVar "i") (EInt 1);
   SIf (ECop (ORel REq) (EVar "i") (EInt 0)) [SRet (ECall _mm_cvtsd_f64 [(EVar "buf1")])] [];
   SSet (LVar "buf1") (ECall _mm_shuffle_pd [(EVar "buf1"); (EVar "buf1"); EInt 1]);
   SRet (ECall _mm_cvtsd_f64 [(EVar "buf1")])].

(* short_vec_avx_double_16.hpp:128-135 *)
Definition avx_double_16_sub_eq : body :=
  [SSet (LVal (EInt 0)) (ECall _mm256_sub_pd [vv 0; oo 0]);
   SSet (LVal (EInt 1)) (ECall _mm256_sub_pd [vv 1; oo 1]);
   SSet (LVal (EInt 2)) (ECall _mm256_sub_pd [vv 2; oo 2]);
   SSet (LVal (EInt 3)) (ECall _mm256_sub_pd [vv 3; oo 3])].

(* short_vec_avx_double_16.hpp:137-145 *)
Definition avx_double_16_sub : body :=
  [SRetVec [(ECall _mm256_sub_pd [vv 0; oo 0]); (ECall _mm256_sub_pd [vv 1; oo 1]); (ECall
    _mm256_sub_pd [vv 2; oo 2]); (ECall _mm256_sub_pd [vv 3; oo 3])]].

(* short_vec_avx_double_16.hpp:147-154 *)
Definition avx_double_16_add_eq : body :=
  [SSet (LVal (EInt 0)) (ECall _mm256_add_pd [vv 0; oo 0]);
   SSet (LVal (EInt 1)) (ECall _mm256_add_pd [vv 1; oo 1]);
   SSet (LVal (EInt 2)) (ECall _mm256_add_pd [vv 2; oo 2]);
   SSet (LVal (EInt 3)) (ECall _mm256_add_pd [vv 3; oo 3])].

(* short_vec_avx_double_16.hpp:156-164 *)
Definition avx_double_16_add : body :=
  [SRetVec [(ECall _mm256_add_pd [vv 0; oo 0]); (ECall _mm256_add_pd [vv 1; oo 1]); (ECall
    _mm256_add_pd [vv 2; oo 2]); (ECall _mm256_add_pd [vv 3; oo 3])]].

(* short_vec_avx_double_16.hpp:166-173 *)
Definition avx_double_16_mul_eq : body :=
  [SSet (LVal (EInt 0)) (ECall _mm256_mul_pd [vv 0; oo 0]);
   SSet (LVal (EInt 1)) (ECall _mm256_mul_pd [vv 1; oo 1]);
   SSet (LVal (EInt 2)) (ECall _mm256_mul_pd [vv 2; oo 2]);
   SSet (LVal (EInt 3)) (ECall _mm256_mul_pd [vv 3; oo 3])].

(* short_vec_avx_double_16.hpp:175-183 *)
Definition avx_double_16_mul : body :=
  [SRetVec [(ECall _mm256_mul_pd [vv 0; oo 0]); (ECall _mm256_mul_pd [vv 1; oo 1]); (ECall
    _mm256_mul_pd [vv 2; oo 2]); (ECall _mm256_mul_pd [vv 3; oo 3])]].

(* short_vec_avx_double_16.hpp:185-192 *)
Definition avx_double_16_div_eq : body :=
  [SSet (LVal (EInt 0)) (ECall _mm256_div_pd [vv 0; oo 0]);
   SSet (LVal (EInt 1)) (ECall _mm256_div_pd [vv 1; oo 1]);
   SSet (LVal (EInt 2)) (ECall _mm256_div_pd [vv 2; oo 2]);
   SSet (LVal (EInt 3)) (ECall _mm256_div_pd [vv 3; oo 3])].

(* short_vec_avx_double_16.hpp:194-202 *)
Definition avx_double_16_div : body :=
  [SRetVec [(ECall _mm256_div_pd [vv 0; oo 0]); (ECall _mm256_div_pd [vv 1; oo 1]); (ECall
    _mm256_div_pd [vv 2; oo 2]); (ECall _mm256_div_pd [vv 3; oo 3])]].

(* short_vec_avx_double_16.hpp:204-212 *)
Definition avx_double_16_lt : body :=
  [SRetVec [(ECall _mm256_cmp_pd [vv 0; oo 0; (EInt _CMP_LT_OS)]); (ECall _mm256_cmp_pd [vv 1; oo
    1; (EInt _CMP_LT_OS)]); (ECall _mm256_cmp_pd [vv 2; oo 2; (EInt _CMP_LT_OS)]); (ECall
    _mm256_cmp_pd [vv 3; oo 3; (EInt _CMP_LT_OS)])]].

(* short_vec_avx_double_16.hpp:214-222 *)
Definition avx_double_16_le : body :=
  [SRetVec [(ECall _mm256_cmp_pd [vv 0; oo 0; (EInt _CMP_LE_OS)]); (ECall _mm256_cmp_pd [vv 1; oo
    1; (EInt _CMP_LE_OS)]); (ECall _mm256_cmp_pd [vv 2; oo 2; (EInt _CMP_LE_OS)]); (ECall
    _mm256_cmp_pd [vv 3; oo 3; (EInt _CMP_LE_OS)])]].

(* short_vec_avx_double_16.hpp:224-232 *)
Definition avx_double_16_eq : body :=
  [SRetVec [(ECall _mm256_cmp_pd [vv 0; oo 0; (EInt _CMP_EQ_OQ)]); (ECall _mm256_cmp_pd [vv 1; oo
    1; (EInt _CMP_EQ_OQ)]); (ECall _mm256_cmp_pd [vv 2; oo 2; (EInt _CMP_EQ_OQ)]); (ECall
    _mm256_cmp_pd [vv 3; oo 3; (EInt _CMP_EQ_OQ)])]].

(* short_vec_avx_double_16.hpp:234-242 *)
Definition avx_double_16_gt : body :=
  [SRetVec [(ECall _mm256_cmp_pd [vv 0; oo 0; (EInt _CMP_GT_OS)]); (ECall _mm256_cmp_pd [vv 1; oo
    1; (EInt _CMP_GT_OS)]); (ECall _mm256_cmp_pd [vv 2; oo 2; (EInt _CMP_GT_OS)]); (ECall
    _mm256_cmp_pd [vv 3; oo 3; (EInt _CMP_GT_OS)])]].

(* short_vec_avx_double_16.hpp:244-252 *)
Definition avx_double_16_ge : body :=
  [SRetVec [(ECall _mm256_cmp_pd [vv 0; oo 0; (EInt _CMP_GE_OS)]); (ECall _mm256_cmp_pd [vv 1; oo
    1; (EInt _CMP_GE_OS)]); (ECall _mm256_cmp_pd [vv 2; oo 2; (EInt _CMP_GE_OS)]); (ECall
    _mm256_cmp_pd [vv 3; oo 3; (EInt _CMP_GE_OS)])]].

(* short_vec_avx_double_16.hpp:254-262 *)
Definition avx_double_16_sqrt : body :=
  [SRetVec [(ECall _mm256_sqrt_pd [vv 0]); (ECall _mm256_sqrt_pd [vv 1]); (ECall _mm256_sqrt_pd [vv
    2]); (ECall _mm256_sqrt_pd [vv 3])]].

(* short_vec_avx_double_16.hpp:264-271 *)
Definition avx_double_16_load : body :=
  [SSet (LVal (EInt 0)) (ECall _mm256_loadu_pd [dat 0]);
   SSet (LVal (EInt 1)) (ECall _mm256_loadu_pd [dat 4]);
   SSet (LVal (EInt 2)) (ECall _mm256_loadu_pd [dat 8]);
   SSet (LVal (EInt 3)) (ECall _mm256_loadu_pd [dat 12])].

(* short_vec_avx_double_16.hpp:273-281 *)
Definition avx_double_16_load_aligned : body :=
  [SAssertAligned EData 32;
   SSet (LVal (EInt 0)) (ECall _mm256_load_pd [dat 0]);
   SSet (LVal (EInt 1)) (ECall _mm256_load_pd [dat 4]);
   SSet (LVal (EInt 2)) (ECall _mm256_load_pd [dat 8]);
   SSet (LVal (EInt 3)) (ECall _mm256_load_pd [dat 12])].

(* short_vec_avx_double_16.hpp:283-290 *)
Definition avx_double_16_store : body :=
  [SDo (ECall _mm256_storeu_pd [dat 0; vv 0]);
   SDo (ECall _mm256_storeu_pd [dat 4; vv 1]);
   SDo (ECall _mm256_storeu_pd [dat 8; vv 2]);
   SDo (ECall _mm256_storeu_pd [dat 12; vv 3])].

(* short_vec_avx_double_16.hpp:292-300 *)
Definition avx_double_16_store_aligned : body :=
  [SAssertAligned EData 32;
   SDo (ECall _mm256_store_pd [dat 0; vv 0]);
   SDo (ECall _mm256_store_pd [dat 4; vv 1]);
   SDo (ECall _mm256_store_pd [dat 8; vv 2]);
   SDo (ECall _mm256_store_pd [dat 12; vv 3])].

(* short_vec_avx_double_16.hpp:302-310 *)
Definition avx_double_16_store_nt : body :=
  [SAssertAligned EData 32;
   SDo (ECall _mm256_stream_pd [dat 0; vv 0]);
   SDo (ECall _mm256_stream_pd [dat 4; vv 1]);
   SDo (ECall _mm256_stream_pd [dat 8; vv 2]);
   SDo (ECall _mm256_stream_pd [dat 12; vv 3])].

(* short_vec_avx_double_16.hpp:327-353 *)
Definition avx_double_16_gather : body :=
  [SSet (LVal (EInt 0)) (ECall _mm256_set_pd [(EDeref (pto 3)); (EDeref (pto 2)); (EDeref (pto 1));
    (EDeref (pto 0))]);
   SSet (LVal (EInt 1)) (ECall _mm256_set_pd [(EDeref (pto 7)); (EDeref (pto 6)); (EDeref (pto 5));
    (EDeref (pto 4))]);
   SSet (LVal (EInt 2)) (ECall _mm256_set_pd [(EDeref (pto 11)); (EDeref (pto 10)); (EDeref (pto
    9)); (EDeref (pto 8))]);
   SSet (LVal (EInt 3)) (ECall _mm256_set_pd [(EDeref (pto 15)); (EDeref (pto 14)); (EDeref (pto
    13)); (EDeref (pto 12))])].

(* short_vec_avx_double_16.hpp:356-384 *)
Definition avx_double_16_scatter : body :=
  [SDecl "tmp" 2;
   SSet (LVar "tmp") (ECall _mm256_extractf128_pd [vv 0; EInt 0]);
   SDo (ECall _mm_storel_pd [pto 0; (EVar "tmp")]);
   SDo (ECall _mm_storeh_pd [pto 1; (EVar "tmp")]);
   SSet (LVar "tmp") (ECall _mm256_extractf128_pd [vv 0; EInt 1]);
   SDo (ECall _mm_storel_pd [pto 2; (EVar "tmp")]);
   SDo (ECall _mm_storeh_pd [pto 3; (EVar "tmp")]);
   SSet (LVar "tmp") (ECall _mm256_extractf128_pd [vv 1; EInt 0]);
   SDo (ECall _mm_storel_pd [pto 4; (EVar "tmp")]);
   SDo (ECall _mm_storeh_pd [pto 5; (EVar "tmp")]);
   SSet (LVar "tmp") (ECall _mm256_extractf128_pd [vv 1; EInt 1]);
   SDo (ECall _mm_storel_pd [pto 6; (EVar "tmp")]);
   SDo (ECall _mm_storeh_pd [pto 7; (EVar "tmp")]);
   SSet (LVar "tmp") (ECall _mm256_extractf128_pd [vv 2; EInt 0]);
   SDo (ECall _mm_storel_pd [pto 8; (EVar "tmp")]);
   SDo (ECall _mm_storeh_pd [pto 9; (EVar "tmp")]);
   SSet (LVar "tmp") (ECall _mm256_extractf128_pd [vv 2; EInt 1]);
   SDo (ECall _mm_storel_pd [pto 10; (EVar "tmp")]);
   SDo (ECall _mm_storeh_pd [pto 11; (EVar "tmp")]);
   SSet (LVar "tmp") (ECall _mm256_extractf128_pd [vv 3; EInt 0]);
   SDo (ECall _mm_storel_pd [pto 12; (EVar "tmp")]);
   SDo (ECall _mm_storeh_pd [pto 13; (EVar "tmp")]);
   SSet (LVar "tmp") (ECall _mm256_extractf128_pd [vv 3; EInt 1]);
   SDo (ECall _mm_storel_pd [pto 14; (EVar "tmp")]);
   SDo (ECall _mm_storeh_pd [pto 15; (EVar "tmp")])].

(* short_vec_avx_double_16.hpp:386-393 *)
Definition avx_double_16_blend : body :=
  [SSet (LVal (EInt 0)) (ECall _mm256_blendv_pd [vv 0; oo 0; mm 0]);
   SSet (LVal (EInt 1)) (ECall _mm256_blendv_pd [vv 1; oo 1; mm 1]);
   SSet (LVal (EInt 2)) (ECall _mm256_blendv_pd [vv 2; oo 2; mm 2]);
   SSet (LVal (EInt 3)) (ECall _mm256_blendv_pd [vv 3; oo 3; mm 3])].

(* short_vec_avx_double_16.hpp:419-431 *)
Definition avx_double_16_print : list item :=
  [PStr "["; PVal (EIdx (vv 0) (EInt 0)); PStr ", "; PVal (EIdx (vv 0) (EInt 1)); PStr ", "; PVal
   (EIdx (vv 0) (EInt 2)); PStr ", "; PVal (EIdx (vv 0) (EInt 3)); PStr ", "; PVal (EIdx (vv 1)
   (EInt 0)); PStr ", "; PVal (EIdx (vv 1) (EInt 1)); PStr ", "; PVal (EIdx (vv 1) (EInt 2)); PStr
   ", "; PVal (EIdx (vv 1) (EInt 3)); PStr ", "; PVal (EIdx (vv 2) (EInt 0)); PStr ", "; PVal (EIdx
   (vv 2) (EInt 1)); PStr ", "; PVal (EIdx (vv 2) (EInt 2)); PStr ", "; PVal (EIdx (vv 2) (EInt
   3)); PStr ", "; PVal (EIdx (vv 3) (EInt 0)); PStr ", "; PVal (EIdx (vv 3) (EInt 1)); PStr ", ";
   PVal (EIdx (vv 3) (EInt 2)); PStr ", "; PVal (EIdx (vv 3) (EInt 3)); PStr "]"].

(* short_vec_avx_double_16.hpp *)
Definition cls_avx_double_16 : cls :=
  mkCls "avx_double_16" KF64 16 4 4 32 MVec
    (fun m => match m with
     | MCtorScalar => Some avx_double_16_ctor_scalar
     | MCtorPtr => Some avx_double_16_ctor_ptr
     | MCtorRegs => Some avx_double_16_ctor_regs
     | MCtorList => Some avx_double_16_ctor_list
     | MAny => Some avx_double_16_any
     | MIndex => Some avx_double_16_index
     | MSubEq => Some avx_double_16_sub_eq
     | MSub => Some avx_double_16_sub
     | MAddEq => Some avx_double_16_add_eq
     | MAdd => Some avx_double_16_add
     | MMulEq => Some avx_double_16_mul_eq
     | MMul => Some avx_double_16_mul
     | MDivEq => Some avx_double_16_div_eq
     | MDiv => Some avx_double_16_div
     | MLt => Some avx_double_16_lt
     | MLe => Some avx_double_16_le
     | MEq => Some avx_double_16_eq
     | MGt => Some avx_double_16_gt
     | MGe => Some avx_double_16_ge
     | MSqrt => Some avx_double_16_sqrt
     | MLoad => Some avx_double_16_load
     | MLoadAligned => Some avx_double_16_load_aligned
     | MStore => Some avx_double_16_store
     | MStoreAligned => Some avx_double_16_store_aligned
     | MStoreNt => Some avx_double_16_store_nt
     | MGather => Some avx_double_16_gather
     | MScatter => Some avx_double_16_scatter
     | MBlend => Some avx_double_16_blend
     | _ => None
     end)
    avx_double_16_ctor_regs avx_double_16_print.

(* short_vec_avx_double_16.hpp:313-325 with __AVX2__ *)
Definition avx_double_16_2_gather : body :=
  [SDecl "indices" 4;
   SSet (LVar "indices") (ECall _mm_loadu_si128 [EOff]);
   SSet (LVal (EInt 0)) (ECall _mm256_i32gather_pd [EPtr; (EVar "indices"); EInt 8]);
   SSet (LVar "indices") (ECall _mm_loadu_si128 [(ECop OAdd EOff (EInt 4))]);
   SSet (LVal (EInt 1)) (ECall _mm256_i32gather_pd [EPtr; (EVar "indices"); EInt 8]);
   SSet (LVar "indices") (ECall _mm_loadu_si128 [(ECop OAdd EOff (EInt 8))]);
   SSet (LVal (EInt 2)) (ECall _mm256_i32gather_pd [EPtr; (EVar "indices"); EInt 8]);
   SSet (LVar "indices") (ECall _mm_loadu_si128 [(ECop OAdd EOff (EInt 12))]);
   SSet (LVal (EInt 3)) (ECall _mm256_i32gather_pd [EPtr; (EVar "indices"); EInt 8])].

(* short_vec_avx_double_16.hpp with __AVX2__ *)
Definition cls_avx_double_16_2 : cls :=
  mkCls "avx_double_16_2" KF64 16 4 4 32 MVec
    (fun m => match m with
     | MCtorScalar => Some avx_double_16_ctor_scalar
     | MCtorPtr => Some avx_double_16_ctor_ptr
     | MCtorRegs => Some avx_double_16_ctor_regs
     | MCtorList => Some avx_double_16_ctor_list
     | MAny => Some avx_double_16_any
     | MIndex => Some avx_double_16_index
     | MSubEq => Some avx_double_16_sub_eq
     | MSub => Some avx_double_16_sub
     | MAddEq => Some avx_double_16_add_eq
     | MAdd => Some avx_double_16_add
     | MMulEq => Some avx_double_16_mul_eq
     | MMul => Some avx_double_16_mul
     | MDivEq => Some avx_double_16_div_eq
     | MDiv => Some avx_double_16_div
     | MLt => Some avx_double_16_lt
     | MLe => Some avx_double_16_le
     | MEq => Some avx_double_16_eq
     | MGt => Some avx_double_16_gt
     | MGe => Some avx_double_16_ge
     | MSqrt => Some avx_double_16_sqrt
     | MLoad => Some avx_double_16_load
     | MLoadAligned => Some avx_double_16_load_aligned
     | MStore => Some avx_double_16_store
     | MStoreAligned => Some avx_double_16_store_aligned
     | MStoreNt => Some avx_double_16_store_nt
     | MGather => Some avx_double_16_2_gather
     | MScatter => Some avx_double_16_scatter
     | MBlend => Some avx_double_16_blend
     | _ => None
     end)
    avx_double_16_ctor_regs avx_double_16_print.

(* short_vec_avx_double_32.hpp:59-69 *)
Definition avx_double_32_ctor_scalar : body :=
  [SSet (LVal (EInt 0)) (ECall _mm256_broadcast_sd [EArg]);
   SSet (LVal (EInt 1)) (ECall _mm256_broadcast_sd [EArg]);
   SSet (LVal (EInt 2)) (ECall _mm256_broadcast_sd [EArg]);
   SSet (LVal (EInt 3)) (ECall _mm256_broadcast_sd [EArg]);
   SSet (LVal (EInt 4)) (ECall _mm256_broadcast_sd [EArg]);
   SSet (LVal (EInt 5)) (ECall _mm256_broadcast_sd [EArg]);
   SSet (LVal (EInt 6)) (ECall _mm256_broadcast_sd [EArg]);
   SSet (LVal (EInt 7)) (ECall _mm256_broadcast_sd [EArg])].

(* short_vec_avx_double_32.hpp:71-75 *)
Definition avx_double_32_ctor_ptr : body :=
  [SSet (LVal (EInt 0)) (ECall _mm256_loadu_pd [dat 0]);
   SSet (LVal (EInt 1)) (ECall _mm256_loadu_pd [dat 4]);
   SSet (LVal (EInt 2)) (ECall _mm256_loadu_pd [dat 8]);
   SSet (LVal (EInt 3)) (ECall _mm256_loadu_pd [dat 12]);
   SSet (LVal (EInt 4)) (ECall _mm256_loadu_pd [dat 16]);
   SSet (LVal (EInt 5)) (ECall _mm256_loadu_pd [dat 20]);
   SSet (LVal (EInt 6)) (ECall _mm256_loadu_pd [dat 24]);
   SSet (LVal (EInt 7)) (ECall _mm256_loadu_pd [dat 28])].

(* short_vec_avx_double_32.hpp:77-95 *)
Definition avx_double_32_ctor_regs : body :=
  [SSet (LVal (EInt 0)) (EPar 0);
   SSet (LVal (EInt 1)) (EPar 1);
   SSet (LVal (EInt 2)) (EPar 2);
   SSet (LVal (EInt 3)) (EPar 3);
   SSet (LVal (EInt 4)) (EPar 4);
   SSet (LVal (EInt 5)) (EPar 5);
   SSet (LVal (EInt 6)) (EPar 6);
   SSet (LVal (EInt 7)) (EPar 7)].

(* short_vec_avx_double_32.hpp:98-103 *)
Definition avx_double_32_ctor_list : body :=
  [SSet (LVal (EInt 0)) (ECall _mm256_loadu_pd [dat 0]);
   SSet (LVal (EInt 1)) (ECall _mm256_loadu_pd [dat 4]);
   SSet (LVal (EInt 2)) (ECall _mm256_loadu_pd [dat 8]);
   SSet (LVal (EInt 3)) (ECall _mm256_loadu_pd [dat 12]);
   SSet (LVal (EInt 4)) (ECall _mm256_loadu_pd [dat 16]);
   SSet (LVal (EInt 5)) (ECall _mm256_loadu_pd [dat 20]);
   SSet (LVal (EInt 6)) (ECall _mm256_loadu_pd [dat 24]);
   SSet (LVal (EInt 7)) (ECall _mm256_loadu_pd [dat 28])].

(* short_vec_avx_double_32.hpp:106-119 *)
Definition avx_double_32_any : body :=
  [SSet (LVar "buf0") (ECall _mm256_or_pd [(ECall _mm256_or_pd [(ECall _mm256_or_pd [vv 0; vv 1]);
    (ECall _mm256_or_pd [vv 2; vv 3])]); (ECall _mm256_or_pd [(ECall _mm256_or_pd [vv 4; vv 5]);
    (ECall _mm256_or_pd [vv 6; vv 7])])]);
   SRet (EBool (ECop (ORel REq) (EInt 0) (ECall _mm256_testz_si256 [(ECall _mm256_castpd_si256
    [(EVar "buf0")]); (ECall _mm256_castpd_si256 [(EVar "buf0")])])))].

(* short_vec_avx_double_32.hpp:121-142 *)
Definition avx_double_32_index : body :=
  [SSet (LVar "buf0") (EVal (ECop OShr (EVar "i") (EInt 2)));
   SUpd OBitAnd (LVar "i") (EInt 3);
   SDecl "buf1" 2;
   SIf (ECop (ORel RLt) (EVar "i") (EInt 2)) [SSet (LVar "buf1") (ECall _mm256_extractf128_pd
    [(EVar "buf0"); EInt 0])] [SSet (LVar "buf1") (ECall _mm256_extractf128_pd [(EVar "buf0"); EInt
    1])];
   SUpd OBitAnd (LVar "i") (EInt 1);
   SIf (ECop (ORel REq) (EVar "i") (EInt 0)) [SRet (ECall _mm_cvtsd_f64 [(EVar "buf1")])] [];
   SSet (LVar "buf1") (ECall _mm_shuffle_pd [(EVar "buf1"); (EVar "buf1"); EInt 1]);
   SRet (ECall _mm_cvtsd_f64 [(EVar "buf1")])].

(* short_vec_avx_double_32.hpp:144-155 *)
Definition avx_double_32_sub_eq : body :=
  [SSet (LVal (EInt 0)) (ECall _mm256_sub_pd [vv 0; oo 0]);
   SSet (LVal (EInt 1)) (ECall _mm256_sub_pd [vv 1; oo 1]);
   SSet (LVal (EInt 2)) (ECall _mm256_sub_pd [vv 2; oo 2]);
   SSet (LVal (EInt 3)) (ECall _mm256_sub_pd [vv 3; oo 3]);
   SSet (LVal (EInt 4)) (ECall _mm256_sub_pd [vv 4; oo 4]);
   SSet (LVal (EInt 5)) (ECall _mm256_sub_pd [vv 5; oo 5]);
   SSet (LVal (EInt 6)) (ECall _mm256_sub_pd [vv 6; oo 6]);
   SSet (LVal (EInt 7)) (ECall _mm256_sub_pd [vv 7; oo 7])].

(* short_vec_avx_double_32.hpp:157-169 *)
Definition avx_double_32_sub : body :=
  [SRetVec [(ECall _mm256_sub_pd [vv 0; oo 0]); (ECall _mm256_sub_pd [vv 1; oo 1]); (ECall
    _mm256_sub_pd [vv 2; oo 2]); (ECall _mm256_sub_pd [vv 3; oo 3]); (ECall _mm256_sub_pd [vv 4; oo
    4]); (ECall _mm256_sub_pd [vv 5; oo 5]); (ECall _mm256_sub_pd [vv 6; oo 6]); (ECall
    _mm256_sub_pd [vv 7; oo 7])]].

(* short_vec_avx_double_32.hpp:171-182 *)
Definition avx_double_32_add_eq : body :=
  [SSet (LVal (EInt 0)) (ECall _mm256_add_pd [vv 0; oo 0]);
   SSet (LVal (EInt 1)) (ECall _mm256_add_pd [vv 1; oo 1]);
   SSet (LVal (EInt 2)) (ECall _mm256_add_pd [vv 2; oo 2]);
   SSet (LVal (EInt 3)) (ECall _mm256_add_pd [vv 3; oo 3]);
   SSet (LVal (EInt 4)) (ECall _mm256_add_pd [vv 4; oo 4]);
   SSet (LVal (EInt 5)) (ECall _mm256_add_pd [vv 5; oo 5]);
   SSet (LVal (EInt 6)) (ECall _mm256_add_pd [vv 6; oo 6]);
   SSet (LVal (EInt 7)) (ECall _mm256_add_pd [vv 7; oo 7])].

(* short_vec_avx_double_32.hpp:184-196 *)
Definition avx_double_32_add : body :=
  [SRetVec [(ECall _mm256_add_pd [vv 0; oo 0]); (ECall _mm256_add_pd [vv 1; oo 1]); (ECall
    _mm256_add_pd [vv 2; oo 2]); (ECall _mm256_add_pd [vv 3; oo 3]); (ECall _mm256_add_pd [vv 4; oo
    4]); (ECall _mm256_add_pd [vv 5; oo 5]); (ECall _mm256_add_pd [vv 6; oo 6]); (ECall
    _mm256_add_pd [vv 7; oo 7])]].

(* short_vec_avx_double_32.hpp:198-209 *)
Definition avx_double_32_mul_eq : body :=
  [SSet (LVal (EInt 0)) (ECall _mm256_mul_pd [vv 0; oo 0]);
   SSet (LVal (EInt 1)) (ECall _mm256_mul_pd [vv 1; oo 1]);
   SSet (LVal (EInt 2)) (ECall _mm256_mul_pd [vv 2; oo 2]);
   SSet (LVal (EInt 3)) (ECall _mm256_mul_pd [vv 3; oo 3]);
   SSet (LVal (EInt 4)) (ECall _mm256_mul_pd [vv 4; oo 4]);
   SSet (LVal (EInt 5)) (ECall _mm256_mul_pd [vv 5; oo 5]);
   SSet (LVal (EInt 6)) (ECall _mm256_mul_pd [vv 6; oo 6]);
   SSet (LVal (EInt 7)) (ECall _mm256_mul_pd [vv 7; oo 7])].

(* short_vec_avx_double_32.hpp:211-223 *)
Definition avx_double_32_mul : body :=
  [SRetVec [(ECall _mm256_mul_pd [vv 0; oo 0]); (ECall _mm256_mul_pd [vv 1; oo 1]); (ECall
    _mm256_mul_pd [vv 2; oo 2]); (ECall _mm256_mul_pd [vv 3; oo 3]); (ECall _mm256_mul_pd [vv 4; oo
    4]); (ECall _mm256_mul_pd [vv 5; oo 5]); (ECall _mm256_mul_pd [vv 6; oo 6]); (ECall
    _mm256_mul_pd [vv 7; oo 7])]].

(* short_vec_avx_double_32.hpp:225-236 *)
Definition avx_double_32_div_eq : body :=
  [SSet (LVal (EInt 0)) (ECall _mm256_div_pd [vv 0; oo 0]);
   SSet (LVal (EInt 1)) (ECall _mm256_div_pd [vv 1; oo 1]);
   SSet (LVal (EInt 2)) (ECall _mm256_div_pd [vv 2; oo 2]);
   SSet (LVal (EInt 3)) (ECall _mm256_div_pd [vv 3; oo 3]);
   SSet (LVal (EInt 4)) (ECall _mm256_div_pd [vv 4; oo 4]);
   SSet (LVal (EInt 5)) (ECall _mm256_div_pd [vv 5; oo 5]);
   SSet (LVal (EInt 6)) (ECall _mm256_div_pd [vv 6; oo 6]);
   SSet (LVal (EInt 7)) (ECall _mm256_div_pd [vv 7; oo 7])].

(* short_vec_avx_double_32.hpp:238-250 *)
Definition avx_double_32_div : body :=
  [SRetVec [(ECall _mm256_div_pd [vv 0; oo 0]); (ECall _mm256_div_pd [vv 1; oo 1]); (ECall
    _mm256_div_pd [vv 2; oo 2]); (ECall _mm256_div_pd [vv 3; oo 3]); (ECall _mm256_div_pd [vv 4; oo
    4]); (ECall _mm256_div_pd [vv 5; oo 5]); (ECall _mm256_div_pd [vv 6; oo 6]); (ECall
    _mm256_div_pd [vv 7; oo 7])]].

(* short_vec_avx_double_32.hpp:252-264 *)
Definition avx_double_32_lt : body :=
  [SRetVec [(ECall _mm256_cmp_pd [vv 0; oo 0; (EInt _CMP_LT_OS)]); (ECall _mm256_cmp_pd [vv 1; oo
    1; (EInt _CMP_LT_OS)]); (ECall _mm256_cmp_pd [vv 2; oo 2; (EInt _CMP_LT_OS)]); (ECall
    _mm256_cmp_pd [vv 3; oo 3; (EInt _CMP_LT_OS)]); (ECall _mm256_cmp_pd [vv 4; oo 4; (EInt
    _CMP_LT_OS)]); (ECall _mm256_cmp_pd [vv 5; oo 5; (EInt _CMP_LT_OS)]); (ECall _mm256_cmp_pd [vv
    6; oo 6; (EInt _CMP_LT_OS)]); (ECall _mm256_cmp_pd [vv 7; oo 7; (EInt _CMP_LT_OS)])]].

(* short_vec_avx_double_32.hpp:266-278 *)
Definition avx_double_32_le : body :=
  [SRetVec [(ECall _mm256_cmp_pd [vv 0; oo 0; (EInt _CMP_LE_OS)]); (ECall _mm256_cmp_pd [vv 1; oo
    1; (EInt _CMP_LE_OS)]); (ECall _mm256_cmp_pd [vv 2; oo 2; (EInt _CMP_LE_OS)]); (ECall
    _mm256_cmp_pd [vv 3; oo 3; (EInt _CMP_LE_OS)]); (ECall _mm256_cmp_pd [vv 4; oo 4; (EInt
    _CMP_LE_OS)]); (ECall _mm256_cmp_pd [vv 5; oo 5; (EInt _CMP_LE_OS)]); (ECall _mm256_cmp_pd [vv
    6; oo 6; (EInt _CMP_LE_OS)]); (ECall _mm256_cmp_pd [vv 7; oo 7; (EInt _CMP_LE_OS)])]].

(* short_vec_avx_double_32.hpp:280-292 *)
Definition avx_double_32_eq : body :=
  [SRetVec [(ECall _mm256_cmp_pd [vv 0; oo 0; (EInt _CMP_EQ_OQ)]); (ECall _mm256_cmp_pd [vv 1; oo
    1; (EInt _CMP_EQ_OQ)]); (ECall _mm256_cmp_pd [vv 2; oo 2; (EInt _CMP_EQ_OQ)]); (ECall
    _mm256_cmp_pd [vv 3; oo 3; (EInt _CMP_EQ_OQ)]); (ECall _mm256_cmp_pd [vv 4; oo 4; (EInt
    _CMP_EQ_OQ)]); (ECall _mm256_cmp_pd [vv 5; oo 5; (EInt _CMP_EQ_OQ)]); (ECall _mm256_cmp_pd [vv
    6; oo 6; (EInt _CMP_EQ_OQ)]); (ECall _mm256_cmp_pd [vv 7; oo 7; (EInt _CMP_EQ_OQ)])]].

(* short_vec_avx_double_32.hpp:294-306 *)
Definition avx_double_32_gt : body :=
  [SRetVec [(ECall _mm256_cmp_pd [vv 0; oo 0; (EInt _CMP_GT_OS)]); (ECall _mm256_cmp_pd [vv 1; oo
    1; (EInt _CMP_GT_OS)]); (ECall _mm256_cmp_pd [vv 2; oo 2; (EInt _CMP_GT_OS)]); (ECall
    _mm256_cmp_pd [vv 3; oo 3; (EInt _CMP_GT_OS)]); (ECall _mm256_cmp_pd [vv 4; oo 4; (EInt
    _CMP_GT_OS)]); (ECall _mm256_cmp_pd [vv 5; oo 5; (EInt _CMP_GT_OS)]); (ECall _mm256_cmp_pd [vv
    6; oo 6; (EInt _CMP_GT_OS)]); (ECall _mm256_cmp_pd [vv 7; oo 7; (EInt _CMP_GT_OS)])]].

(* short_vec_avx_double_32.hpp:308-320 *)
Definition avx_double_32_ge : body :=
  [SRetVec [(ECall _mm256_cmp_pd [vv 0; oo 0; (EInt _CMP_GE_OS)]); (ECall _mm256_cmp_pd [vv 1; oo
    1; (EInt _CMP_GE_OS)]); (ECall _mm256_cmp_pd [vv 2; oo 2; (EInt _CMP_GE_OS)]); (ECall
    _mm256_cmp_pd [vv 3; oo 3; (EInt _CMP_GE_OS)]); (ECall _mm256_cmp_pd [vv 4; oo 4; (EInt
    _CMP_GE_OS)]); (ECall _mm256_cmp_pd [vv 5; oo 5; (EInt _CMP_GE_OS)]); (ECall _mm256_cmp_pd [vv
    6; oo 6; (EInt _CMP_GE_OS)]); (ECall _mm256_cmp_pd [vv 7; oo 7; (EInt _CMP_GE_OS)])]].

(* short_vec_avx_double_32.hpp:322-334 *)
Definition avx_double_32_sqrt : body :=
  [SRetVec [(ECall _mm256_sqrt_pd [vv 0]); (ECall _mm256_sqrt_pd [vv 1]); (ECall _mm256_sqrt_pd [vv
    2]); (ECall _mm256_sqrt_pd [vv 3]); (ECall _mm256_sqrt_pd [vv 4]); (ECall _mm256_sqrt_pd [vv
    5]); (ECall _mm256_sqrt_pd [vv 6]); (ECall _mm256_sqrt_pd [vv 7])]].

(* short_vec_avx_double_32.hpp:336-347 *)
Definition avx_double_32_load : body :=
  [SSet (LVal (EInt 0)) (ECall _mm256_loadu_pd [dat 0]);
   SSet (LVal (EInt 1)) (ECall _mm256_loadu_pd [dat 4]);
   SSet (LVal (EInt 2)) (ECall _mm256_loadu_pd [dat 8]);
   SSet (LVal (EInt 3)) (ECall _mm256_loadu_pd [dat 12]);
   SSet (LVal (EInt 4)) (ECall _mm256_loadu_pd [dat 16]);
   SSet (LVal (EInt 5)) (ECall _mm256_loadu_pd [dat 20]);
   SSet (LVal (EInt 6)) (ECall _mm256_loadu_pd [dat 24]);
   SSet (LVal (EInt 7)) (ECall _mm256_loadu_pd [dat 28])].

(* short_vec_avx_double_32.hpp:349-361 *)
Definition avx_double_32_load_aligned : body :=
  [SAssertAligned EData 32;
   SSet (LVal (EInt 0)) (ECall _mm256_load_pd [dat 0]);
   SSet (LVal (EInt 1)) (ECall _mm256_load_pd [dat 4]);
   SSet (LVal (EInt 2)) (ECall _mm256_load_pd [dat 8]);
   SSet (LVal (EInt 3)) (ECall _mm256_load_pd [dat 12]);
   SSet (LVal (EInt 4)) (ECall _mm256_load_pd [dat 16]);
   SSet (LVal (EInt 5)) (ECall _mm256_load_pd [dat 20]);
   SSet (LVal (EInt 6)) (ECall _mm256_load_pd [dat 24]);
   SSet (LVal (EInt 7)) (ECall _mm256_load_pd [dat 28])].

(* short_vec_avx_double_32.hpp:363-374 *)
Definition avx_double_32_store : body :=
  [SDo (ECall _mm256_storeu_pd [dat 0; vv 0]);
   SDo (ECall _mm256_storeu_pd [dat 4; vv 1]);
   SDo (ECall _mm256_storeu_pd [dat 8; vv 2]);
   SDo (ECall _mm256_storeu_pd [dat 12; vv 3]);
   SDo (ECall _mm256_storeu_pd [dat 16; vv 4]);
   SDo (ECall _mm256_storeu_pd [dat 20; vv 5]);
   SDo (ECall _mm256_storeu_pd [dat 24; vv 6]);
   SDo (ECall _mm256_storeu_pd [dat 28; vv 7])].

(* short_vec_avx_double_32.hpp:376-388 *)
Definition avx_double_32_store_aligned : body :=
  [SAssertAligned EData 32;
   SDo (ECall _mm256_store_pd [dat 0; vv 0]);
   SDo (ECall _mm256_store_pd [dat 4; vv 1]);
   SDo (ECall _mm256_store_pd [dat 8; vv 2]);
   SDo (ECall _mm256_store_pd [dat 12; vv 3]);
   SDo (ECall _mm256_store_pd [dat 16; vv 4]);
   SDo (ECall _mm256_store_pd [dat 20; vv 5]);
   SDo (ECall _mm256_store_pd [dat 24; vv 6]);
   SDo (ECall _mm256_store_pd [dat 28; vv 7])].

(* short_vec_avx_double_32.hpp:390-402 *)
Definition avx_double_32_store_nt : body :=
  [SAssertAligned EData 32;
   SDo (ECall _mm256_stream_pd [dat 0; vv 0]);
   SDo (ECall _mm256_stream_pd [dat 4; vv 1]);
   SDo (ECall _mm256_stream_pd [dat 8; vv 2]);
   SDo (ECall _mm256_stream_pd [dat 12; vv 3]);
   SDo (ECall _mm256_stream_pd [dat 16; vv 4]);
   SDo (ECall _mm256_stream_pd [dat 20; vv 5]);
   SDo (ECall _mm256_stream_pd [dat 24; vv 6]);
   SDo (ECall _mm256_stream_pd [dat 28; vv 7])].

(* short_vec_avx_double_32.hpp:427-477 *)
Definition avx_double_32_gather : body :=
  [SSet (LVal (EInt 0)) (ECall _mm256_set_pd [(EDeref (pto 3)); (EDeref (pto 2)); (EDeref (pto 1));
    (EDeref (pto 0))]);
   SSet (LVal (EInt 1)) (ECall _mm256_set_pd [(EDeref (pto 7)); (EDeref (pto 6)); (EDeref (pto 5));
    (EDeref (pto 4))]);
   SSet (LVal (EInt 2)) (ECall _mm256_set_pd [(EDeref (pto 11)); (EDeref (pto 10)); (EDeref (pto
    9)); (EDeref (pto 8))]);
   SSet (LVal (EInt 3)) (ECall _mm256_set_pd [(EDeref (pto 15)); (EDeref (pto 14)); (EDeref (pto
    13)); (EDeref (pto 12))]);
   SSet (LVal (EInt 4)) (ECall _mm256_set_pd [(EDeref (pto 19)); (EDeref (pto 18)); (EDeref (pto
    17)); (EDeref (pto 16))]);
   SSet (LVal (EInt 5)) (ECall _mm256_set_pd [(EDeref (pto 23)); (EDeref (pto 22)); (EDeref (pto
    21)); (EDeref (pto 20))]);
   SSet (LVal (EInt 6)) (ECall _mm256_set_pd [(EDeref (pto 27)); (EDeref (pto 26)); (EDeref (pto
    25)); (EDeref (pto 24))]);
   SSet (LVal (EInt 7)) (ECall _mm256_set_pd [(EDeref (pto 31)); (EDeref (pto 30)); (EDeref (pto
    29)); (EDeref (pto 28))])].

(* short_vec_avx_double_32.hpp:480-547 *)
Definition avx_double_32_scatter : body :=
  [SDecl "tmp" 2;
   SSet (LVar "tmp") (ECall _mm256_extractf128_pd [vv 0; EInt 0]);
   SDo (ECall _mm_storel_pd [pto 0; (EVar "tmp")]);
   SDo (ECall _mm_storeh_pd [pto 1; (EVar "tmp")]);
   SSet (LVar "tmp") (ECall _mm256_extractf128_pd [vv 0; EInt 1]);
   SDo (ECall _mm_storel_pd [pto 2; (EVar "tmp")]);
   SDo (ECall _mm_storeh_pd [pto 3; (EVar "tmp")]);
   SSet (LVar "tmp") (ECall _mm256_extractf128_pd [vv 1; EInt 0]);
   SDo (ECall _mm_storel_pd [pto 4; (EVar "tmp")]);
   SDo (ECall _mm_storeh_pd [pto 5; (EVar "tmp")]);
   SSet (LVar "tmp") (ECall _mm256_extractf128_pd [vv 1; EInt 1]);
   SDo (ECall _mm_storel_pd [pto 6; (EVar "tmp")]);
   SDo (ECall _mm_storeh_pd [pto 7; (EVar "tmp")]);
   SSet (LVar "tmp") (ECall _mm256_extractf128_pd [vv 2; EInt 0]);
   SDo (ECall _mm_storel_pd [pto 8; (EVar "tmp")]);
   SDo (ECall _mm_storeh_pd [pto 9; (EVar "tmp")]);
   SSet (LVar "tmp") (ECall _mm256_extractf128_pd [vv 2; EInt 1]);
   SDo (ECall _mm_storel_pd [pto 10; (EVar "tmp")]);
   SDo (ECall _mm_storeh_pd [pto 11; (EVar "tmp")]);
   SSet (LVar "tmp") (ECall _mm256_extractf128_pd [vv 3; EInt 0]);
   SDo (ECall _mm_storel_pd [pto 12; (EVar "tmp")]);
   SDo (ECall _mm_storeh_pd [pto 13; (EVar "tmp")]);
   SSet (LVar "tmp") (ECall _mm256_extractf128_pd [vv 3; EInt 1]);
   SDo (ECall _mm_storel_pd [pto 14; (EVar "tmp")]);
   SDo (ECall _mm_storeh_pd [pto 15; (EVar "tmp")]);
   SSet (LVar "tmp") (ECall _mm256_extractf128_pd [vv 4; EInt 0]);
   SDo (ECall _mm_storel_pd [pto 16; (EVar "tmp")]);
   SDo (ECall _mm_storeh_pd [pto 17; (EVar "tmp")]);
   SSet (LVar "tmp") (ECall _mm256_extractf128_pd [vv 4; EInt 1]);
   SDo (ECall _mm_storel_pd [pto 18; (EVar "tmp")]);
   SDo (ECall _mm_storeh_pd [pto 19; (EVar "tmp")]);
   SSet (LVar "tmp") (ECall _mm256_extractf128_pd [vv 5; EInt 0]);
   SDo (ECall _mm_storel_pd [pto 20; (EVar "tmp")]);
   SDo (ECall _mm_storeh_pd [pto 21; (EVar "tmp")]);
   SSet (LVar "tmp") (ECall _mm256_extractf128_pd [vv 5; EInt 1]);
   SDo (ECall _mm_storel_pd [pto 22; (EVar "tmp")]);
   SDo (ECall _mm_storeh_pd [pto 23; (EVar "tmp")]);
   SSet (LVar "tmp") (ECall _mm256_extractf128_pd [vv 6; EInt 0]);
   SDo (ECall _mm_storel_pd [pto 24; (EVar "tmp")]);
   SDo (ECall _mm_storeh_pd [pto 25; (EVar "tmp")]);
   SSet (LVar "tmp") (ECall _mm256_extractf128_pd [vv 6; EInt 1]);
   SDo (ECall _mm_storel_pd [pto 26; (EVar "tmp")]);
   SDo (ECall _mm_storeh_pd [pto 27; (EVar "tmp")]);
   SSet (LVar "tmp") (ECall _mm256_extractf128_pd [vv 7; EInt 0]);
   SDo (ECall _mm_storel_pd [pto 28; (EVar "tmp")]);
   SDo (ECall _mm_storeh_pd [pto 29; (EVar "tmp")]);
   SSet (LVar "tmp") (ECall _mm256_extractf128_pd [vv 7; EInt 1]);
   SDo (ECall _mm_storel_pd [pto 30; (EVar "tmp")]);
   SDo (ECall _mm_storeh_pd [pto 31; (EVar "tmp")])].

(* short_vec_avx_double_32.hpp:549-560 *)
Definition avx_double_32_blend : body :=
  [SSet (LVal (EInt 0)) (ECall _mm256_blendv_pd [vv 0; oo 0; mm 0]);
   SSet (LVal (EInt 1)) (ECall _mm256_blendv_pd [vv 1; oo 1; mm 1]);
   SSet (LVal (EInt 2)) (ECall _mm256_blendv_pd [vv 2; oo 2; mm 2]);
   SSet (LVal (EInt 3)) (ECall _mm256_blendv_pd [vv 3; oo 3; mm 3]);
   SSet (LVal (EInt 4)) (ECall _mm256_blendv_pd [vv 4; oo 4; mm 4]);
   SSet (LVal (EInt 5)) (ECall _mm256_blendv_pd [vv 5; oo 5; mm 5]);
   SSet (LVal (EInt 6)) (ECall _mm256_blendv_pd [vv 6; oo 6; mm 6]);
   SSet (LVal (EInt 7)) (ECall _mm256_blendv_pd [vv 7; oo 7; mm 7])].

(* short_vec_avx_double_32.hpp:586-606 *)
Definition avx_double_32_print : list item :=
  [PStr "["; PVal (EIdx (vv 0) (EInt 0)); PStr ", "; PVal (EIdx (vv 0) (EInt 1)); PStr ", "; PVal
   (EIdx (vv 0) (EInt 2)); PStr ", "; PVal (EIdx (vv 0) (EInt 3)); PStr ", "; PVal (EIdx (vv 1)
   (EInt 0)); PStr ", "; PVal (EIdx (vv 1) (EInt 1)); PStr ", "; PVal (EIdx (vv 1) (EInt 2)); PStr
   ", "; PVal (EIdx (vv 1) (EInt 3)); PStr ", "; PVal (EIdx (vv 2) (EInt 0)); PStr ", "; PVal (EIdx
   (vv 2) (EInt 1)); PStr ", "; PVal (EIdx (vv 2) (EInt 2)); PStr ", "; PVal (EIdx (vv 2) (EInt
   3)); PStr ", "; PVal (EIdx (vv 3) (EInt 0)); PStr ", "; PVal (EIdx (vv 3) (EInt 1)); PStr ", ";
   PVal (EIdx (vv 3) (EInt 2)); PStr ", "; PVal (EIdx (vv 3) (EInt 3)); PStr ", "; PVal (EIdx (vv
   4) (EInt 0)); PStr ", "; PVal (EIdx (vv 4) (EInt 1)); PStr ", "; PVal (EIdx (vv 4) (EInt 2));
   PStr ", "; PVal (EIdx (vv 4) (EInt 3)); PStr ", "; PVal (EIdx (vv 5) (EInt 0)); PStr ", "; PVal
   (EIdx (vv 5) (EInt 1)); PStr ", "; PVal (EIdx (vv 5) (EInt 2)); PStr ", "; PVal (EIdx (vv 5)
   (EInt 3)); PStr ", "; PVal (EIdx (vv 6) (EInt 0)); PStr ", "; PVal (EIdx (vv 6) (EInt 1)); PStr
   ", "; PVal (EIdx (vv 6) (EInt 2)); PStr ", "; PVal (EIdx (vv 6) (EInt 3)); PStr ", "; PVal (EIdx
   (vv 7) (EInt 0)); PStr ", "; PVal (EIdx (vv 7) (EInt 1)); PStr ", "; PVal (EIdx (vv 7) (EInt
   2)); PStr ", "; PVal (EIdx (vv 7) (EInt 3)); PStr "]"].

(* short_vec_avx_double_32.hpp *)
Definition cls_avx_double_32 : cls :=
  mkCls "avx_double_32" KF64 32 8 4 32 MVec
    (fun m => match m with
     | MCtorScalar => Some avx_double_32_ctor_scalar
     | MCtorPtr => Some avx_double_32_ctor_ptr
     | MCtorRegs => Some avx_double_32_ctor_regs
     | MCtorList => Some avx_double_32_ctor_list
     | MAny => Some avx_double_32_any
     | MIndex => Some avx_double_32_index
     | MSubEq => Some avx_double_32_sub_eq
     | MSub => Some avx_double_32_sub
     | MAddEq => Some avx_double_32_add_eq
     | MAdd => Some avx_double_32_add
     | MMulEq => Some avx_double_32_mul_eq
     | MMul => Some avx_double_32_mul
     | MDivEq => Some avx_double_32_div_eq
     | MDiv => Some avx_double_32_div
     | MLt => Some avx_double_32_lt
     | MLe => Some avx_double_32_le
     | MEq => Some avx_double_32_eq
     | MGt => Some avx_double_32_gt
     | MGe => Some avx_double_32_ge
     | MSqrt => Some avx_double_32_sqrt
     | MLoad => Some avx_double_32_load
     | MLoadAligned => Some avx_double_32_load_aligned
     | MStore => Some avx_double_32_store
     | MStoreAligned => Some avx_double_32_store_aligned
     | MStoreNt => Some avx_double_32_store_nt
     | MGather => Some avx_double_32_gather
     | MScatter => Some avx_double_32_scatter
     | MBlend => Some avx_double_32_blend
     | _ => None
     end)
    avx_double_32_ctor_regs avx_double_32_print.

(* short_vec_avx_double_32.hpp:405-425 with __AVX2__ *)
Definition avx_double_32_2_gather : body :=
  [SDecl "indices" 4;
   SSet (LVar "indices") (ECall _mm_loadu_si128 [EOff]);
   SSet (LVal (EInt 0)) (ECall _mm256_i32gather_pd [EPtr; (EVar "indices"); EInt 8]);
   SSet (LVar "indices") (ECall _mm_loadu_si128 [(ECop OAdd EOff (EInt 4))]);
   SSet (LVal (EInt 1)) (ECall _mm256_i32gather_pd [EPtr; (EVar "indices"); EInt 8]);
   SSet (LVar "indices") (ECall _mm_loadu_si128 [(ECop OAdd EOff (EInt 8))]);
   SSet (LVal (EInt 2)) (ECall _mm256_i32gather_pd [EPtr; (EVar "indices"); EInt 8]);
   SSet (LVar "indices") (ECall _mm_loadu_si128 [(ECop OAdd EOff (EInt 12))]);
   SSet (LVal (EInt 3)) (ECall _mm256_i32gather_pd [EPtr; (EVar "indices"); EInt 8]);
   SSet (LVar "indices") (ECall _mm_loadu_si128 [(ECop OAdd EOff (EInt 16))]);
   SSet (LVal (EInt 4)) (ECall _mm256_i32gather_pd [EPtr; (EVar "indices"); EInt 8]);
   SSet (LVar "indices") (ECall _mm_loadu_si128 [(ECop OAdd EOff (EInt 20))]);
   SSet (LVal (EInt 5)) (ECall _mm256_i32gather_pd [EPtr; (EVar "indices"); EInt 8]);
   SSet (LVar "indices") (ECall _mm_loadu_si128 [(ECop OAdd EOff (EInt 24))]);
   SSet (LVal (EInt 6)) (ECall _mm256_i32gather_pd [EPtr; (EVar "indices"); EInt 8]);
   SSet (LVar "indices") (ECall _mm_loadu_si128 [(ECop OAdd EOff (EInt 28))]);
   SSet (LVal (EInt 7)) (ECall _mm256_i32gather_pd [EPtr; (EVar "indices"); EInt 8])].

(* short_vec_avx_double_32.hpp with __AVX2__ *)
Definition cls_avx_double_32_2 : cls :=
  mkCls "avx_double_32_2" KF64 32 8 4 32 MVec
    (fun m => match m with
     | MCtorScalar => Some avx_double_32_ctor_scalar
     | MCtorPtr => Some avx_double_32_ctor_ptr
     | MCtorRegs => Some avx_double_32_ctor_regs
     | MCtorList => Some avx_double_32_ctor_list
     | MAny => Some avx_double_32_any
     | MIndex => Some avx_double_32_index
     | MSubEq => Some avx_double_32_sub_eq
     | MSub => Some avx_double_32_sub
     | MAddEq => Some avx_double_32_add_eq
     | MAdd => Some avx_double_32_add
     | MMulEq => Some avx_double_32_mul_eq
     | MMul => Some avx_double_32_mul
     | MDivEq => Some avx_double_32_div_eq
     | MDiv => Some avx_double_32_div
     | MLt => Some avx_double_32_lt
     | MLe => Some avx_double_32_le
     | MEq => Some avx_double_32_eq
     | MGt => Some avx_double_32_gt
     | MGe => Some avx_double_32_ge
     | MSqrt => Some avx_double_32_sqrt
     | MLoad => Some avx_double_32_load
     | MLoadAligned => Some avx_double_32_load_aligned
     | MStore => Some avx_double_32_store
     | MStoreAligned => Some avx_double_32_store_aligned
     | MStoreNt => Some avx_double_32_store_nt
     | MGather => Some avx_double_32_2_gather
     | MScatter => Some avx_double_32_scatter
     | MBlend => Some avx_double_32_blend
     | _ => None
     end)
    avx_double_32_ctor_regs avx_double_32_print.

(* short_vec_avx_float_8.hpp:64-67 *)
Definition avx_float_8_ctor_scalar : body :=
  [SSet (LVal (EInt 0)) (ECall _mm256_broadcast_ss [EArg])].

(* short_vec_avx_float_8.hpp:69-73 *)
Definition avx_float_8_ctor_ptr : body :=
  [SSet (LVal (EInt 0)) (ECall _mm256_loadu_ps [EData])].

(* short_vec_avx_float_8.hpp:75-78 *)
Definition avx_float_8_ctor_regs : body :=
  [SSet (LVal (EInt 0)) (EPar 0)].

(* short_vec_avx_float_8.hpp:81-86 *)
Definition avx_float_8_ctor_list : body :=
  [SSet (LVal (EInt 0)) (ECall _mm256_loadu_ps [EData])].

(* short_vec_avx_float_8.hpp:92-98 *)
Definition avx_float_8_any : body :=
  [SRet (EBool (ECop (ORel REq) (EInt 0) (ECall _mm256_testz_si256 [(ECall _mm256_castps_si256 [vv
    0]); (ECall _mm256_castps_si256 [vv 0])])))].

(* short_vec_avx_float_8.hpp:100-123 *)
Definition avx_float_8_index : body :=
  [SDecl "buf" 4;
   SIf (ECop (ORel RLt) (EVar "i") (EInt 4)) [SSet (LVar "buf") (ECall _mm256_extractf128_ps [vv 0;
    EInt 0])] [SSet (LVar "buf") (ECall _mm256_extractf128_ps [vv 0; EInt 1])];
   SUpd OBitAnd (LVar "i") (EInt 3);
   SIf (ECop (ORel REq) (EVar "i") (EInt 3)) [SRet (ECall _mm_cvtss_f32 [(ECall _mm_shuffle_ps
    [(EVar "buf"); (EVar "buf"); EInt 3])])] [];
   SIf (ECop (ORel REq) (EVar "i") (EInt 2)) [SRet (ECall _mm_cvtss_f32 [(ECall _mm_shuffle_ps
    [(EVar "buf"); (EVar "buf"); EInt 2])])] [];
   SIf (ECop (ORel REq) (EVar "i") (EInt 1)) [SRet (ECall _mm_cvtss_f32 [(ECall _mm_shuffle_ps
    [(EVar "buf"); (EVar "buf"); EInt 1])])] [];
   SRet (ECall _mm_cvtss_f32 [(EVar "buf")])].

(* short_vec_avx_float_8.hpp:125-129 *)
Definition avx_float_8_sub_eq : body :=
  [SSet (LVal (EInt 0)) (ECall _mm256_sub_ps [vv 0; oo 0])].

(* short_vec_avx_float_8.hpp:131-135 *)
Definition avx_float_8_sub : body :=
  [SRetVec [(ECall _mm256_sub_ps [vv 0; oo 0])]].

(* short_vec_avx_float_8.hpp:137-141 *)
Definition avx_float_8_add_eq : body :=
  [SSet (LVal (EInt 0)) (ECall _mm256_add_ps [vv 0; oo 0])].

(* short_vec_avx_float_8.hpp:143-147 *)
Definition avx_float_8_add : body :=
  [SRetVec [(ECall _mm256_add_ps [vv 0; oo 0])]].

(* short_vec_avx_float_8.hpp:149-153 *)
Definition avx_float_8_mul_eq : body :=
  [SSet (LVal (EInt 0)) (ECall _mm256_mul_ps [vv 0; oo 0])].

(* short_vec_avx_float_8.hpp:155-159 *)
Definition avx_float_8_mul : body :=
  [SRetVec [(ECall _mm256_mul_ps [vv 0; oo 0])]].

(* short_vec_avx_float_8.hpp:161-165 *)
Definition avx_float_8_div_eq : body :=
  [SSet (LVal (EInt 0)) (ECall _mm256_mul_ps [vv 0; (ECall _mm256_rcp_ps [oo 0])])].

(* short_vec_avx_float_8.hpp:170-174 *)
Definition avx_float_8_div : body :=
  [SRetVec [(ECall _mm256_mul_ps [vv 0; (ECall _mm256_rcp_ps [oo 0])])]].

(* short_vec_avx_float_8.hpp:179-184 *)
Definition avx_float_8_lt : body :=
  [SRetVec [(ECall _mm256_cmp_ps [vv 0; oo 0; (EInt _CMP_LT_OS)])]].

(* short_vec_avx_float_8.hpp:186-191 *)
Definition avx_float_8_le : body :=
  [SRetVec [(ECall _mm256_cmp_ps [vv 0; oo 0; (EInt _CMP_LE_OS)])]].

(* short_vec_avx_float_8.hpp:193-198 *)
Definition avx_float_8_eq : body :=
  [SRetVec [(ECall _mm256_cmp_ps [vv 0; oo 0; (EInt _CMP_EQ_OQ)])]].

(* short_vec_avx_float_8.hpp:200-205 *)
Definition avx_float_8_gt : body :=
  [SRetVec [(ECall _mm256_cmp_ps [vv 0; oo 0; (EInt _CMP_GT_OS)])]].

(* short_vec_avx_float_8.hpp:207-212 *)
Definition avx_float_8_ge : body :=
  [SRetVec [(ECall _mm256_cmp_ps [vv 0; oo 0; (EInt _CMP_GE_OS)])]].

(* short_vec_avx_float_8.hpp:214-218 *)
Definition avx_float_8_sqrt : body :=
  [SRetVec [(ECall _mm256_sqrt_ps [vv 0])]].

(* short_vec_avx_float_8.hpp:220-224 *)
Definition avx_float_8_load : body :=
  [SSet (LVal (EInt 0)) (ECall _mm256_loadu_ps [EData])].

(* short_vec_avx_float_8.hpp:226-231 *)
Definition avx_float_8_load_aligned : body :=
  [SAssertAligned EData 32;
   SSet (LVal (EInt 0)) (ECall _mm256_load_ps [EData])].

(* short_vec_avx_float_8.hpp:233-237 *)
Definition avx_float_8_store : body :=
  [SDo (ECall _mm256_storeu_ps [EData; vv 0])].

(* short_vec_avx_float_8.hpp:239-244 *)
Definition avx_float_8_store_aligned : body :=
  [SAssertAligned EData 32;
   SDo (ECall _mm256_store_ps [EData; vv 0])].

(* short_vec_avx_float_8.hpp:246-251 *)
Definition avx_float_8_store_nt : body :=
  [SAssertAligned EData 32;
   SDo (ECall _mm256_stream_ps [EData; vv 0])].

(* short_vec_avx_float_8.hpp:262-276 *)
Definition avx_float_8_gather : body :=
  [SDecl "tmp" 4;
   SSet (LVar "tmp") (ECall _mm_load_ss [pto 0]);
   SSet (LVar "tmp") (ECall SHORTVEC_INSERT_PS_AVX [(EVar "tmp"); EPtr; off 1; (ECall
    _MM_MK_INSERTPS_NDX [EInt 0; EInt 1; EInt 0])]);
   SSet (LVar "tmp") (ECall SHORTVEC_INSERT_PS_AVX [(EVar "tmp"); EPtr; off 2; (ECall
    _MM_MK_INSERTPS_NDX [EInt 0; EInt 2; EInt 0])]);
   SSet (LVar "tmp") (ECall SHORTVEC_INSERT_PS_AVX [(EVar "tmp"); EPtr; off 3; (ECall
    _MM_MK_INSERTPS_NDX [EInt 0; EInt 3; EInt 0])]);
   SSet (LVal (EInt 0)) (ECall _mm256_insertf128_ps [vv 0; (EVar "tmp"); EInt 0]);
   SSet (LVar "tmp") (ECall _mm_load_ss [pto 4]);
   SSet (LVar "tmp") (ECall SHORTVEC_INSERT_PS_AVX [(EVar "tmp"); EPtr; off 5; (ECall
    _MM_MK_INSERTPS_NDX [EInt 0; EInt 1; EInt 0])]);
   SSet (LVar "tmp") (ECall SHORTVEC_INSERT_PS_AVX [(EVar "tmp"); EPtr; off 6; (ECall
    _MM_MK_INSERTPS_NDX [EInt 0; EInt 2; EInt 0])]);
   SSet (LVar "tmp") (ECall SHORTVEC_INSERT_PS_AVX [(EVar "tmp"); EPtr; off 7; (ECall
    _MM_MK_INSERTPS_NDX [EInt 0; EInt 3; EInt 0])]);
   SSet (LVal (EInt 0)) (ECall _mm256_insertf128_ps [vv 0; (EVar "tmp"); EInt 1])].

(* short_vec_avx_float_8.hpp:279-293 *)
Definition avx_float_8_scatter : body :=
  [SDecl "tmp" 4;
   SSet (LVar "tmp") (ECall _mm256_extractf128_ps [vv 0; EInt 0]);
   SSet (LMem (pto 0)) (ECall _MM_EXTRACT_FLOAT [(EVar "tmp"); EInt 0]);
   SSet (LMem (pto 1)) (ECall _MM_EXTRACT_FLOAT [(EVar "tmp"); EInt 1]);
   SSet (LMem (pto 2)) (ECall _MM_EXTRACT_FLOAT [(EVar "tmp"); EInt 2]);
   SSet (LMem (pto 3)) (ECall _MM_EXTRACT_FLOAT [(EVar "tmp"); EInt 3]);
   SSet (LVar "tmp") (ECall _mm256_extractf128_ps [vv 0; EInt 1]);
   SSet (LMem (pto 4)) (ECall _MM_EXTRACT_FLOAT [(EVar "tmp"); EInt 0]);
   SSet (LMem (pto 5)) (ECall _MM_EXTRACT_FLOAT [(EVar "tmp"); EInt 1]);
   SSet (LMem (pto 6)) (ECall _MM_EXTRACT_FLOAT [(EVar "tmp"); EInt 2]);
   SSet (LMem (pto 7)) (ECall _MM_EXTRACT_FLOAT [(EVar "tmp"); EInt 3])].

(* short_vec_avx_float_8.hpp:295-299 *)
Definition avx_float_8_blend : body :=
  [SSet (LVal (EInt 0)) (ECall _mm256_blendv_ps [vv 0; oo 0; mm 0])].

(* short_vec_avx_float_8.hpp:331-333 *)
Definition avx_float_8_ctor_sqrt : body :=
  [SSet (LVal (EInt 0)) (ECall _mm256_sqrt_ps [oo 0])].

(* short_vec_avx_float_8.hpp:336-339 *)
Definition avx_float_8_div_eq_sqrt : body :=
  [SSet (LVal (EInt 0)) (ECall _mm256_mul_ps [vv 0; (ECall _mm256_rsqrt_ps [oo 0])])].

(* short_vec_avx_float_8.hpp:342-345 *)
Definition avx_float_8_div_sqrt : body :=
  [SRetVec [(ECall _mm256_mul_ps [vv 0; (ECall _mm256_rsqrt_ps [oo 0])])]].

(* short_vec_avx_float_8.hpp:357-369 *)
Definition avx_float_8_print : list item :=
  [PStr "["; PVal (EIdx (vv 0) (EInt 0)); PStr ", "; PVal (EIdx (vv 0) (EInt 1)); PStr ", "; PVal
   (EIdx (vv 0) (EInt 2)); PStr ", "; PVal (EIdx (vv 0) (EInt 3)); PStr ", "; PVal (EIdx (vv 0)
   (EInt 4)); PStr ", "; PVal (EIdx (vv 0) (EInt 5)); PStr ", "; PVal (EIdx (vv 0) (EInt 6)); PStr
   ", "; PVal (EIdx (vv 0) (EInt 7)); PStr "]"].

(* short_vec_avx_float_8.hpp *)
Definition cls_avx_float_8 : cls :=
  mkCls "avx_float_8" KF32 8 1 8 32 MVec
    (fun m => match m with
     | MCtorScalar => Some avx_float_8_ctor_scalar
     | MCtorPtr => Some avx_float_8_ctor_ptr
     | MCtorRegs => Some avx_float_8_ctor_regs
     | MCtorSqrt => Some avx_float_8_ctor_sqrt
     | MCtorList => Some avx_float_8_ctor_list
     | MAny => Some avx_float_8_any
     | MIndex => Some avx_float_8_index
     | MSubEq => Some avx_float_8_sub_eq
     | MSub => Some avx_float_8_sub
     | MAddEq => Some avx_float_8_add_eq
     | MAdd => Some avx_float_8_add
     | MMulEq => Some avx_float_8_mul_eq
     | MMul => Some avx_float_8_mul
     | MDivEq => Some avx_float_8_div_eq
     | MDiv => Some avx_float_8_div
     | MDivEqSqrt => Some avx_float_8_div_eq_sqrt
     | MDivSqrt => Some avx_float_8_div_sqrt
     | MLt => Some avx_float_8_lt
     | MLe => Some avx_float_8_le
     | MEq => Some avx_float_8_eq
     | MGt => Some avx_float_8_gt
     | MGe => Some avx_float_8_ge
     | MSqrt => Some avx_float_8_sqrt
     | MLoad => Some avx_float_8_load
     | MLoadAligned => Some avx_float_8_load_aligned
     | MStore => Some avx_float_8_store
     | MStoreAligned => Some avx_float_8_store_aligned
     | MStoreNt => Some avx_float_8_store_nt
     | MGather => Some avx_float_8_gather
     | MScatter => Some avx_float_8_scatter
     | MBlend => Some avx_float_8_blend
     end)
    avx_float_8_ctor_regs avx_float_8_print.

(* short_vec_avx_float_8.hpp:254-260 with __AVX2__ *)
Definition avx_float_8_2_gather : body :=
  [SDecl "indices" 8;
   SSet (LVar "indices") (ECall _mm256_loadu_si256 [EOff]);
   SSet (LVal (EInt 0)) (ECall _mm256_i32gather_ps [EPtr; (EVar "indices"); EInt 4])].

(* short_vec_avx_float_8.hpp with __AVX2__ *)
Definition cls_avx_float_8_2 : cls :=
  mkCls "avx_float_8_2" KF32 8 1 8 32 MVec
    (fun m => match m with
     | MCtorScalar => Some avx_float_8_ctor_scalar
     | MCtorPtr => Some avx_float_8_ctor_ptr
     | MCtorRegs => Some avx_float_8_ctor_regs
     | MCtorSqrt => Some avx_float_8_ctor_sqrt
     | MCtorList => Some avx_float_8_ctor_list
     | MAny => Some avx_float_8_any
     | MIndex => Some avx_float_8_index
     | MSubEq => Some avx_float_8_sub_eq
     | MSub => Some avx_float_8_sub
     | MAddEq => Some avx_float_8_add_eq
     | MAdd => Some avx_float_8_add
     | MMulEq => Some avx_float_8_mul_eq
     | MMul => Some avx_float_8_mul
     | MDivEq => Some avx_float_8_div_eq
     | MDiv => Some avx_float_8_div
     | MDivEqSqrt => Some avx_float_8_div_eq_sqrt
     | MDivSqrt => Some avx_float_8_div_sqrt
     | MLt => Some avx_float_8_lt
     | MLe => Some avx_float_8_le
     | MEq => Some avx_float_8_eq
     | MGt => Some avx_float_8_gt
     | MGe => Some avx_float_8_ge
     | MSqrt => Some avx_float_8_sqrt
     | MLoad => Some avx_float_8_load
     | MLoadAligned => Some avx_float_8_load_aligned
     | MStore => Some avx_float_8_store
     | MStoreAligned => Some avx_float_8_store_aligned
     | MStoreNt => Some avx_float_8_store_nt
     | MGather => Some avx_float_8_2_gather
     | MScatter => Some avx_float_8_scatter
     | MBlend => Some avx_float_8_blend
     end)
    avx_float_8_ctor_regs avx_float_8_print.

(* short_vec_avx_float_16.hpp:62-66 *)
Definition avx_float_16_ctor_scalar : body :=
  [SSet (LVal (EInt 0)) (ECall _mm256_broadcast_ss [EArg]);
   SSet (LVal (EInt 1)) (ECall _mm256_broadcast_ss [EArg])].

(* short_vec_avx_float_16.hpp:68-72 *)
Definition avx_float_16_ctor_ptr : body :=
  [SSet (LVal (EInt 0)) (ECall _mm256_loadu_ps [dat 0]);
   SSet (LVal (EInt 1)) (ECall _mm256_loadu_ps [dat 8])].

(* short_vec_avx_float_16.hpp:74-78 *)
Definition avx_float_16_ctor_regs : body :=
  [SSet (LVal (EInt 0)) (EPar 0);
   SSet (LVal (EInt 1)) (EPar 1)].

(* short_vec_avx_float_16.hpp:81-86 *)
Definition avx_float_16_ctor_list : body :=
  [SSet (LVal (EInt 0)) (ECall _mm256_loadu_ps [dat 0]);
   SSet (LVal (EInt 1)) (ECall _mm256_loadu_ps [dat 8])].

(* short_vec_avx_float_16.hpp:92-99 *)
Definition avx_float_16_any : body :=
  [SSet (LVar "buf0") (ECall _mm256_or_ps [vv 0; vv 1]);
   SRet (EBool (ECop (ORel REq) (EInt 0) (ECall _mm256_testz_si256 [(ECall _mm256_castps_si256
    [(EVar "buf0")]); (ECall _mm256_castps_si256 [(EVar "buf0")])])))].

(* short_vec_avx_float_16.hpp:101-127 *)
Definition avx_float_16_index : body :=
  [SSet (LVar "buf0") (EVal (ECop OShr (EVar "i") (EInt 3)));
   SUpd OBitAnd (LVar "i") (EInt 7);
   SDecl "buf1" 4;
   SIf (ECop (ORel RLt) (EVar "i") (EInt 4)) [SSet (LVar "buf1") (ECall _mm256_extractf128_ps
    [(EVar "buf0"); EInt 0])] [SSet (LVar "buf1") (ECall _mm256_extractf128_ps [(EVar "buf0"); EInt
    1])];
   SUpd OBitAnd (LVar "i") (EInt 3);
   SIf (ECop (ORel REq) (EVar "i") (EInt 3)) [SRet (ECall _mm_cvtss_f32 [(ECall _mm_shuffle_ps
    [(EVar "buf1"); (EVar "buf1"); EInt 3])])] [];
   SIf (ECop (ORel REq) (EVar "i") (EInt 2)) [SRet (ECall _mm_cvtss_f32 [(ECall _mm_shuffle_ps
    [(EVar "buf1"); (EVar "buf1"); EInt 2])])] [];
   SIf (ECop (ORel REq) (EVar "i") (EInt 1)) [SRet (ECall _mm_cvtss_f32 [(ECall _mm_shuffle_ps
    [(EVar "buf1"); (EVar "buf1"); EInt 1])])] [];
   SRet (ECall _mm_cvtss_f32 [(EVar "buf1")])].

(* short_vec_avx_float_16.hpp:129-134 *)
Definition avx_float_16_sub_eq : body :=
  [SSet (LVal (EInt 0)) (ECall _mm256_sub_ps [vv 0; oo 0]);
   SSet (LVal (EInt 1)) (ECall _mm256_sub_ps [vv 1; oo 1])].

(* short_vec_avx_float_16.hpp:136-142 *)
Definition avx_float_16_sub : body :=
  [SRetVec [(ECall _mm256_sub_ps [vv 0; oo 0]); (ECall _mm256_sub_ps [vv 1; oo 1])]].

(* short_vec_avx_float_16.hpp:144-149 *)
Definition avx_float_16_add_eq : body :=
  [SSet (LVal (EInt 0)) (ECall _mm256_add_ps [vv 0; oo 0]);
   SSet (LVal (EInt 1)) (ECall _mm256_add_ps [vv 1; oo 1])].

(* short_vec_avx_float_16.hpp:151-157 *)
Definition avx_float_16_add : body :=
  [SRetVec [(ECall _mm256_add_ps [vv 0; oo 0]); (ECall _mm256_add_ps [vv 1; oo 1])]].

(* short_vec_avx_float_16.hpp:159-164 *)
Definition avx_float_16_mul_eq : body :=
  [SSet (LVal (EInt 0)) (ECall _mm256_mul_ps [vv 0; oo 0]);
   SSet (LVal (EInt 1)) (ECall _mm256_mul_ps [vv 1; oo 1])].

(* short_vec_avx_float_16.hpp:166-172 *)
Definition avx_float_16_mul : body :=
  [SRetVec [(ECall _mm256_mul_ps [vv 0; oo 0]); (ECall _mm256_mul_ps [vv 1; oo 1])]].

(* short_vec_avx_float_16.hpp:174-179 *)
Definition avx_float_16_div_eq : body :=
  [SSet (LVal (EInt 0)) (ECall _mm256_mul_ps [vv 0; (ECall _mm256_rcp_ps [oo 0])]);
   SSet (LVal (EInt 1)) (ECall _mm256_mul_ps [vv 1; (ECall _mm256_rcp_ps [oo 1])])].

(* short_vec_avx_float_16.hpp:184-190 *)
Definition avx_float_16_div : body :=
  [SRetVec [(ECall _mm256_mul_ps [vv 0; (ECall _mm256_rcp_ps [oo 0])]); (ECall _mm256_mul_ps [vv 1;
    (ECall _mm256_rcp_ps [oo 1])])]].

(* short_vec_avx_float_16.hpp:195-201 *)
Definition avx_float_16_lt : body :=
  [SRetVec [(ECall _mm256_cmp_ps [vv 0; oo 0; (EInt _CMP_LT_OS)]); (ECall _mm256_cmp_ps [vv 1; oo
    1; (EInt _CMP_LT_OS)])]].

(* short_vec_avx_float_16.hpp:203-209 *)
Definition avx_float_16_le : body :=
  [SRetVec [(ECall _mm256_cmp_ps [vv 0; oo 0; (EInt _CMP_LE_OS)]); (ECall _mm256_cmp_ps [vv 1; oo
    1; (EInt _CMP_LE_OS)])]].

(* short_vec_avx_float_16.hpp:211-217 *)
Definition avx_float_16_eq : body :=
  [SRetVec [(ECall _mm256_cmp_ps [vv 0; oo 0; (EInt _CMP_EQ_OQ)]); (ECall _mm256_cmp_ps [vv 1; oo
    1; (EInt _CMP_EQ_OQ)])]].

(* short_vec_avx_float_16.hpp:219-225 *)
Definition avx_float_16_gt : body :=
  [SRetVec [(ECall _mm256_cmp_ps [vv 0; oo 0; (EInt _CMP_GT_OS)]); (ECall _mm256_cmp_ps [vv 1; oo
    1; (EInt _CMP_GT_OS)])]].

(* short_vec_avx_float_16.hpp:227-233 *)
Definition avx_float_16_ge : body :=
  [SRetVec [(ECall _mm256_cmp_ps [vv 0; oo 0; (EInt _CMP_GE_OS)]); (ECall _mm256_cmp_ps [vv 1; oo
    1; (EInt _CMP_GE_OS)])]].

(* short_vec_avx_float_16.hpp:235-241 *)
Definition avx_float_16_sqrt : body :=
  [SRetVec [(ECall _mm256_sqrt_ps [vv 0]); (ECall _mm256_sqrt_ps [vv 1])]].

(* short_vec_avx_float_16.hpp:243-248 *)
Definition avx_float_16_load : body :=
  [SSet (LVal (EInt 0)) (ECall _mm256_loadu_ps [dat 0]);
   SSet (LVal (EInt 1)) (ECall _mm256_loadu_ps [dat 8])].

(* short_vec_avx_float_16.hpp:250-256 *)
Definition avx_float_16_load_aligned : body :=
  [SAssertAligned EData 32;
   SSet (LVal (EInt 0)) (ECall _mm256_load_ps [dat 0]);
   SSet (LVal (EInt 1)) (ECall _mm256_load_ps [dat 8])].

(* short_vec_avx_float_16.hpp:258-263 *)
Definition avx_float_16_store : body :=
  [SDo (ECall _mm256_storeu_ps [dat 0; vv 0]);
   SDo (ECall _mm256_storeu_ps [dat 8; vv 1])].

(* short_vec_avx_float_16.hpp:265-271 *)
Definition avx_float_16_store_aligned : body :=
  [SAssertAligned EData 32;
   SDo (ECall _mm256_store_ps [dat 0; vv 0]);
   SDo (ECall _mm256_store_ps [dat 8; vv 1])].

(* short_vec_avx_float_16.hpp:273-279 *)
Definition avx_float_16_store_nt : body :=
  [SAssertAligned EData 32;
   SDo (ECall _mm256_stream_ps [dat 0; vv 0]);
   SDo (ECall _mm256_stream_ps [dat 8; vv 1])].

(* short_vec_avx_float_16.hpp:292-316 *)
Definition avx_float_16_gather : body :=
  [SDecl "tmp" 4;
   SSet (LVar "tmp") (ECall _mm_load_ss [pto 0]);
   SSet (LVar "tmp") (ECall SHORTVEC_INSERT_PS_AVX [(EVar "tmp"); EPtr; off 1; (ECall
    _MM_MK_INSERTPS_NDX [EInt 0; EInt 1; EInt 0])]);
   SSet (LVar "tmp") (ECall SHORTVEC_INSERT_PS_AVX [(EVar "tmp"); EPtr; off 2; (ECall
    _MM_MK_INSERTPS_NDX [EInt 0; EInt 2; EInt 0])]);
   SSet (LVar "tmp") (ECall SHORTVEC_INSERT_PS_AVX [(EVar "tmp"); EPtr; off 3; (ECall
    _MM_MK_INSERTPS_NDX [EInt 0; EInt 3; EInt 0])]);
   SSet (LVal (EInt 0)) (ECall _mm256_insertf128_ps [vv 0; (EVar "tmp"); EInt 0]);
   SSet (LVar "tmp") (ECall _mm_load_ss [pto 4]);
   SSet (LVar "tmp") (ECall SHORTVEC_INSERT_PS_AVX [(EVar "tmp"); EPtr; off 5; (ECall
    _MM_MK_INSERTPS_NDX [EInt 0; EInt 1; EInt 0])]);
   SSet (LVar "tmp") (ECall SHORTVEC_INSERT_PS_AVX [(EVar "tmp"); EPtr; off 6; (ECall
    _MM_MK_INSERTPS_NDX [EInt 0; EInt 2; EInt 0])]);
   SSet (LVar "tmp") (ECall SHORTVEC_INSERT_PS_AVX [(EVar "tmp"); EPtr; off 7; (ECall
    _MM_MK_INSERTPS_NDX [EInt 0; EInt 3; EInt 0])]);
   SSet (LVal (EInt 0)) (ECall _mm256_insertf128_ps [vv 0; (EVar "tmp"); EInt 1]);
   SSet (LVar "tmp") (ECall _mm_load_ss [pto 8]);
   SSet (LVar "tmp") (ECall SHORTVEC_INSERT_PS_AVX [(EVar "tmp"); EPtr; off 9; (ECall
    _MM_MK_INSERTPS_NDX [EInt 0; EInt 1; EInt 0])]);
   SSet (LVar "tmp") (ECall SHORTVEC_INSERT_PS_AVX [(EVar "tmp"); EPtr; off 10; (ECall
    _MM_MK_INSERTPS_NDX [EInt 0; EInt 2; EInt 0])]);
   SSet (LVar "tmp") (ECall SHORTVEC_INSERT_PS_AVX [(EVar "tmp"); EPtr; off 11; (ECall
    _MM_MK_INSERTPS_NDX [EInt 0; EInt 3; EInt 0])]);
   SSet (LVal (EInt 1)) (ECall _mm256_insertf128_ps [vv 1; (EVar "tmp"); EInt 0]);
   SSet (LVar "tmp") (ECall _mm_load_ss [pto 12]);
   SSet (LVar "tmp") (ECall SHORTVEC_INSERT_PS_AVX [(EVar "tmp"); EPtr; off 13; (ECall
    _MM_MK_INSERTPS_NDX [EInt 0; EInt 1; EInt 0])]);
   SSet (LVar "tmp") (ECall SHORTVEC_INSERT_PS_AVX [(EVar "tmp"); EPtr; off 14; (ECall
    _MM_MK_INSERTPS_NDX [EInt 0; EInt 2; EInt 0])]);
   SSet (LVar "tmp") (ECall SHORTVEC_INSERT_PS_AVX [(EVar "tmp"); EPtr; off 15; (ECall
    _MM_MK_INSERTPS_NDX [EInt 0; EInt 3; EInt 0])]);
   SSet (LVal (EInt 1)) (ECall _mm256_insertf128_ps [vv 1; (EVar "tmp"); EInt 1])].

(* short_vec_avx_float_16.hpp:319-343 *)
Definition avx_float_16_scatter : body :=
  [SDecl "tmp" 4;
   SSet (LVar "tmp") (ECall _mm256_extractf128_ps [vv 0; EInt 0]);
   SSet (LMem (pto 0)) (ECall _MM_EXTRACT_FLOAT [(EVar "tmp"); EInt 0]);
   SSet (LMem (pto 1)) (ECall _MM_EXTRACT_FLOAT [(EVar "tmp"); EInt 1]);
   SSet (LMem (pto 2)) (ECall _MM_EXTRACT_FLOAT [(EVar "tmp"); EInt 2]);
   SSet (LMem (pto 3)) (ECall _MM_EXTRACT_FLOAT [(EVar "tmp"); EInt 3]);
   SSet (LVar "tmp") (ECall _mm256_extractf128_ps [vv 0; EInt 1]);
   SSet (LMem (pto 4)) (ECall _MM_EXTRACT_FLOAT [(EVar "tmp"); EInt 0]);
   SSet (LMem (pto 5)) (ECall _MM_EXTRACT_FLOAT [(EVar "tmp"); EInt 1]);
   SSet (LMem (pto 6)) (ECall _MM_EXTRACT_FLOAT [(EVar "tmp"); EInt 2]);
   SSet (LMem (pto 7)) (ECall _MM_EXTRACT_FLOAT [(EVar "tmp"); EInt 3]);
   SSet (LVar "tmp") (ECall _mm256_extractf128_ps [vv 1; EInt 0]);
   SSet (LMem (pto 8)) (ECall _MM_EXTRACT_FLOAT [(EVar "tmp"); EInt 0]);
   SSet (LMem (pto 9)) (ECall _MM_EXTRACT_FLOAT [(EVar "tmp"); EInt 1]);
   SSet (LMem (pto 10)) (ECall _MM_EXTRACT_FLOAT [(EVar "tmp"); EInt 2]);
   SSet (LMem (pto 11)) (ECall _MM_EXTRACT_FLOAT [(EVar "tmp"); EInt 3]);
   SSet (LVar "tmp") (ECall _mm256_extractf128_ps [vv 1; EInt 1]);
   SSet (LMem (pto 12)) (ECall _MM_EXTRACT_FLOAT [(EVar "tmp"); EInt 0]);
   SSet (LMem (pto 13)) (ECall _MM_EXTRACT_FLOAT [(EVar "tmp"); EInt 1]);
   SSet (LMem (pto 14)) (ECall _MM_EXTRACT_FLOAT [(EVar "tmp"); EInt 2]);
   SSet (LMem (pto 15)) (ECall _MM_EXTRACT_FLOAT [(EVar "tmp"); EInt 3])].

(* short_vec_avx_float_16.hpp:345-350 *)
Definition avx_float_16_blend : body :=
  [SSet (LVal (EInt 0)) (ECall _mm256_blendv_ps [vv 0; oo 0; mm 0]);
   SSet (LVal (EInt 1)) (ECall _mm256_blendv_ps [vv 1; oo 1; mm 1])].

(* short_vec_avx_float_16.hpp:382-385 *)
Definition avx_float_16_ctor_sqrt : body :=
  [SSet (LVal (EInt 0)) (ECall _mm256_sqrt_ps [oo 0]);
   SSet (LVal (EInt 1)) (ECall _mm256_sqrt_ps [oo 1])].

(* short_vec_avx_float_16.hpp:388-392 *)
Definition avx_float_16_div_eq_sqrt : body :=
  [SSet (LVal (EInt 0)) (ECall _mm256_mul_ps [vv 0; (ECall _mm256_rsqrt_ps [oo 0])]);
   SSet (LVal (EInt 1)) (ECall _mm256_mul_ps [vv 1; (ECall _mm256_rsqrt_ps [oo 1])])].

(* short_vec_avx_float_16.hpp:395-400 *)
Definition avx_float_16_div_sqrt : body :=
  [SRetVec [(ECall _mm256_mul_ps [vv 0; (ECall _mm256_rsqrt_ps [oo 0])]); (ECall _mm256_mul_ps [vv
    1; (ECall _mm256_rsqrt_ps [oo 1])])]].

(* short_vec_avx_float_16.hpp:412-421 *)
Definition avx_float_16_print : list item :=
  [PStr "["; PVal (EIdx (vv 0) (EInt 0)); PStr ", "; PVal (EIdx (vv 0) (EInt 1)); PStr ", "; PVal
   (EIdx (vv 0) (EInt 2)); PStr ", "; PVal (EIdx (vv 0) (EInt 3)); PStr ", "; PVal (EIdx (vv 0)
   (EInt 4)); PStr ", "; PVal (EIdx (vv 0) (EInt 5)); PStr ", "; PVal (EIdx (vv 0) (EInt 6)); PStr
   ", "; PVal (EIdx (vv 0) (EInt 7)); PStr ", "; PVal (EIdx (vv 1) (EInt 0)); PStr ", "; PVal (EIdx
   (vv 1) (EInt 1)); PStr ", "; PVal (EIdx (vv 1) (EInt 2)); PStr ", "; PVal (EIdx (vv 1) (EInt
   3)); PStr ", "; PVal (EIdx (vv 1) (EInt 4)); PStr ", "; PVal (EIdx (vv 1) (EInt 5)); PStr ", ";
   PVal (EIdx (vv 1) (EInt 6)); PStr ", "; PVal (EIdx (vv 1) (EInt 7)); PStr "]"].

(* short_vec_avx_float_16.hpp *)
Definition cls_avx_float_16 : cls :=
  mkCls "avx_float_16" KF32 16 2 8 32 MVec
    (fun m => match m with
     | MCtorScalar => Some avx_float_16_ctor_scalar
     | MCtorPtr => Some avx_float_16_ctor_ptr
     | MCtorRegs => Some avx_float_16_ctor_regs
     | MCtorSqrt => Some avx_float_16_ctor_sqrt
     | MCtorList => Some avx_float_16_ctor_list
     | MAny => Some avx_float_16_any
     | MIndex => Some avx_float_16_index
     | MSubEq => Some avx_float_16_sub_eq
     | MSub => Some avx_float_16_sub
     | MAddEq => Some avx_float_16_add_eq
     | MAdd => Some avx_float_16_add
     | MMulEq => Some avx_float_16_mul_eq
     | MMul => Some avx_float_16_mul
     | MDivEq => Some avx_float_16_div_eq
     | MDiv => Some avx_float_16_div
     | MDivEqSqrt => Some avx_float_16_div_eq_sqrt
     | MDivSqrt => Some avx_float_16_div_sqrt
     | MLt => Some avx_float_16_lt
     | MLe => Some avx_float_16_le
     | MEq => Some avx_float_16_eq
     | MGt => Some avx_float_16_gt
     | MGe => Some avx_float_16_ge
     | MSqrt => Some avx_float_16_sqrt
     | MLoad => Some avx_float_16_load
     | MLoadAligned => Some avx_float_16_load_aligned
     | MStore => Some avx_float_16_store
     | MStoreAligned => Some avx_float_16_store_aligned
     | MStoreNt => Some avx_float_16_store_nt
     | MGather => Some avx_float_16_gather
     | MScatter => Some avx_float_16_scatter
     | MBlend => Some avx_float_16_blend
     end)
    avx_float_16_ctor_regs avx_float_16_print.

(* short_vec_avx_float_16.hpp:282-290 with __AVX2__ *)
Definition avx_float_16_2_gather : body :=
  [SDecl "indices" 8;
   SSet (LVar "indices") (ECall _mm256_loadu_si256 [EOff]);
   SSet (LVal (EInt 0)) (ECall _mm256_i32gather_ps [EPtr; (EVar "indices"); EInt 4]);
   SSet (LVar "indices") (ECall _mm256_loadu_si256 [(ECop OAdd EOff (EInt 8))]);
   SSet (LVal (EInt 1)) (ECall _mm256_i32gather_ps [EPtr; (EVar "indices"); EInt 4])].

(* short_vec_avx_float_16.hpp with __AVX2__ *)
Definition cls_avx_float_16_2 : cls :=
  mkCls "avx_float_16_2" KF32 16 2 8 32 MVec
    (fun m => match m with
     | MCtorScalar => Some avx_float_16_ctor_scalar
     | MCtorPtr => Some avx_float_16_ctor_ptr
     | MCtorRegs => Some avx_float_16_ctor_regs
     | MCtorSqrt => Some avx_float_16_ctor_sqrt
     | MCtorList => Some avx_float_16_ctor_list
     | MAny => Some avx_float_16_any
     | MIndex => Some avx_float_16_index
     | MSubEq => Some avx_float_16_sub_eq
     | MSub => Some avx_float_16_sub
     | MAddEq => Some avx_float_16_add_eq
     | MAdd => Some avx_float_16_add
     | MMulEq => Some avx_float_16_mul_eq
     | MMul => Some avx_float_16_mul
     | MDivEq => Some avx_float_16_div_eq
     | MDiv => Some avx_float_16_div
     | MDivEqSqrt => Some avx_float_16_div_eq_sqrt
     | MDivSqrt => Some avx_float_16_div_sqrt
     | MLt => Some avx_float_16_lt
     | MLe => Some avx_float_16_le
     | MEq => Some avx_float_16_eq
     | MGt => Some avx_float_16_gt
     | MGe => Some avx_float_16_ge
     | MSqrt => Some avx_float_16_sqrt
     | MLoad => Some avx_float_16_load
     | MLoadAligned => Some avx_float_16_load_aligned
     | MStore => Some avx_float_16_store
     | MStoreAligned => Some avx_float_16_store_aligned
     | MStoreNt => Some avx_float_16_store_nt
     | MGather => Some avx_float_16_2_gather
     | MScatter => Some avx_float_16_scatter
     | MBlend => Some avx_float_16_blend
     end)
    avx_float_16_ctor_regs avx_float_16_print.

(* short_vec_avx_float_32.hpp:62-68 *)
Definition avx_float_32_ctor_scalar : body :=
  [SSet (LVal (EInt 0)) (ECall _mm256_broadcast_ss [EArg]);
   SSet (LVal (EInt 1)) (ECall _mm256_broadcast_ss [EArg]);
   SSet (LVal (EInt 2)) (ECall _mm256_broadcast_ss [EArg]);
   SSet (LVal (EInt 3)) (ECall _mm256_broadcast_ss [EArg])].

(* short_vec_avx_float_32.hpp:70-74 *)
Definition avx_float_32_ctor_ptr : body :=
  [SSet (LVal (EInt 0)) (ECall _mm256_loadu_ps [dat 0]);
   SSet (LVal (EInt 1)) (ECall _mm256_loadu_ps [dat 8]);
   SSet (LVal (EInt 2)) (ECall _mm256_loadu_ps [dat 16]);
   SSet (LVal (EInt 3)) (ECall _mm256_loadu_ps [dat 24])].

(* short_vec_avx_float_32.hpp:76-86 *)
Definition avx_float_32_ctor_regs : body :=
  [SSet (LVal (EInt 0)) (EPar 0);
   SSet (LVal (EInt 1)) (EPar 1);
   SSet (LVal (EInt 2)) (EPar 2);
   SSet (LVal (EInt 3)) (EPar 3)].

(* short_vec_avx_float_32.hpp:89-94 *)
Definition avx_float_32_ctor_list : body :=
  [SSet (LVal (EInt 0)) (ECall _mm256_loadu_ps [dat 0]);
   SSet (LVal (EInt 1)) (ECall _mm256_loadu_ps [dat 8]);
   SSet (LVal (EInt 2)) (ECall _mm256_loadu_ps [dat 16]);
   SSet (LVal (EInt 3)) (ECall _mm256_loadu_ps [dat 24])].

(* short_vec_avx_float_32.hpp:100-109 *)
Definition avx_float_32_any : body :=
  [SSet (LVar "buf0") (ECall _mm256_or_ps [(ECall _mm256_or_ps [vv 0; vv 1]); (ECall _mm256_or_ps
    [vv 2; vv 3])]);
   SRet (EBool (ECop (ORel REq) (EInt 0) (ECall _mm256_testz_si256 [(ECall _mm256_castps_si256
    [(EVar "buf0")]); (ECall _mm256_castps_si256 [(EVar "buf0")])])))].

(* short_vec_avx_float_32.hpp:111-137 *)
Definition avx_float_32_index : body :=
  [SSet (LVar "buf0") (EVal (ECop OShr (EVar "i") (EInt 3)));
   SUpd OBitAnd (LVar "i") (EInt 7);
   SDecl "buf1" 4;
   SIf (ECop (ORel RLt) (EVar "i") (EInt 4)) [SSet (LVar "buf1") (ECall _mm256_extractf128_ps
    [(EVar "buf0"); EInt 0])] [SSet (LVar "buf1") (ECall _mm256_extractf128_ps [(EVar "buf0"); EInt
    1])];
   SUpd OBitAnd (LVar "i") (EInt 3);
   SIf (ECop (ORel REq) (EVar "i") (EInt 3)) [SRet (ECall _mm_cvtss_f32 [(ECall _mm_shuffle_ps
    [(EVar "buf1"); (EVar "buf1"); EInt 3])])] [];
   SIf (ECop (ORel REq) (EVar "i") (EInt 2)) [SRet (ECall _mm_cvtss_f32 [(ECall _mm_shuffle_ps
    [(EVar "buf1"); (EVar "buf1"); EInt 2])])] [];
   SIf (ECop (ORel REq) (EVar "i") (EInt 1)) [SRet (ECall _mm_cvtss_f32 [(ECall _mm_shuffle_ps
    [(EVar "buf1"); (EVar "buf1"); EInt 1])])] [];
   SRet (ECall _mm_cvtss_f32 [(EVar "buf1")])].

(* short_vec_avx_float_32.hpp:139-146 *)
Definition avx_float_32_sub_eq : body :=
  [SSet (LVal (EInt 0)) (ECall _mm256_sub_ps [vv 0; oo 0]);
   SSet (LVal (EInt 1)) (ECall _mm256_sub_ps [vv 1; oo 1]);
   SSet (LVal (EInt 2)) (ECall _mm256_sub_ps [vv 2; oo 2]);
   SSet (LVal (EInt 3)) (ECall _mm256_sub_ps [vv 3; oo 3])].

(* short_vec_avx_float_32.hpp:148-156 *)
Definition avx_float_32_sub : body :=
  [SRetVec [(ECall _mm256_sub_ps [vv 0; oo 0]); (ECall _mm256_sub_ps [vv 1; oo 1]); (ECall
    _mm256_sub_ps [vv 2; oo 2]); (ECall _mm256_sub_ps [vv 3; oo 3])]].

(* short_vec_avx_float_32.hpp:158-165 *)
Definition avx_float_32_add_eq : body :=
  [SSet (LVal (EInt 0)) (ECall _mm256_add_ps [vv 0; oo 0]);
   SSet (LVal (EInt 1)) (ECall _mm256_add_ps [vv 1; oo 1]);
   SSet (LVal (EInt 2)) (ECall _mm256_add_ps [vv 2; oo 2]);
   SSet (LVal (EInt 3)) (ECall _mm256_add_ps [vv 3; oo 3])].

(* short_vec_avx_float_32.hpp:167-175 *)
Definition avx_float_32_add : body :=
  [SRetVec [(ECall _mm256_add_ps [vv 0; oo 0]); (ECall _mm256_add_ps [vv 1; oo 1]); (ECall
    _mm256_add_ps [vv 2; oo 2]); (ECall _mm256_add_ps [vv 3; oo 3])]].

(* short_vec_avx_float_32.hpp:177-184 *)
Definition avx_float_32_mul_eq : body :=
  [SSet (LVal (EInt 0)) (ECall _mm256_mul_ps [vv 0; oo 0]);
   SSet (LVal (EInt 1)) (ECall _mm256_mul_ps [vv 1; oo 1]);
   SSet (LVal (EInt 2)) (ECall _mm256_mul_ps [vv 2; oo 2]);
   SSet (LVal (EInt 3)) (ECall _mm256_mul_ps [vv 3; oo 3])].

(* short_vec_avx_float_32.hpp:186-194 *)
Definition avx_float_32_mul : body :=
  [SRetVec [(ECall _mm256_mul_ps [vv 0; oo 0]); (ECall _mm256_mul_ps [vv 1; oo 1]); (ECall
    _mm256_mul_ps [vv 2; oo 2]); (ECall _mm256_mul_ps [vv 3; oo 3])]].

(* short_vec_avx_float_32.hpp:196-203 *)
Definition avx_float_32_div_eq : body :=
  [SSet (LVal (EInt 0)) (ECall _mm256_mul_ps [vv 0; (ECall _mm256_rcp_ps [oo 0])]);
   SSet (LVal (EInt 1)) (ECall _mm256_mul_ps [vv 1; (ECall _mm256_rcp_ps [oo 1])]);
   SSet (LVal (EInt 2)) (ECall _mm256_mul_ps [vv 2; (ECall _mm256_rcp_ps [oo 2])]);
   SSet (LVal (EInt 3)) (ECall _mm256_mul_ps [vv 3; (ECall _mm256_rcp_ps [oo 3])])].

(* short_vec_avx_float_32.hpp:208-216 *)
Definition avx_float_32_div : body :=
  [SRetVec [(ECall _mm256_mul_ps [vv 0; (ECall _mm256_rcp_ps [oo 0])]); (ECall _mm256_mul_ps [vv 1;
    (ECall _mm256_rcp_ps [oo 1])]); (ECall _mm256_mul_ps [vv 2; (ECall _mm256_rcp_ps [oo 2])]);
    (ECall _mm256_mul_ps [vv 3; (ECall _mm256_rcp_ps [oo 3])])]].

(* short_vec_avx_float_32.hpp:221-229 *)
Definition avx_float_32_lt : body :=
  [SRetVec [(ECall _mm256_cmp_ps [vv 0; oo 0; (EInt _CMP_LT_OS)]); (ECall _mm256_cmp_ps [vv 1; oo
    1; (EInt _CMP_LT_OS)]); (ECall _mm256_cmp_ps [vv 2; oo 2; (EInt _CMP_LT_OS)]); (ECall
    _mm256_cmp_ps [vv 3; oo 3; (EInt _CMP_LT_OS)])]].

(* short_vec_avx_float_32.hpp:231-239 *)
Definition avx_float_32_le : body :=
  [SRetVec [(ECall _mm256_cmp_ps [vv 0; oo 0; (EInt _CMP_LE_OS)]); (ECall _mm256_cmp_ps [vv 1; oo
    1; (EInt _CMP_LE_OS)]); (ECall _mm256_cmp_ps [vv 2; oo 2; (EInt _CMP_LE_OS)]); (ECall
    _mm256_cmp_ps [vv 3; oo 3; (EInt _CMP_LE_OS)])]].

(* short_vec_avx_float_32.hpp:241-249 *)
Definition avx_float_32_eq : body :=
  [SRetVec [(ECall _mm256_cmp_ps [vv 0; oo 0; (EInt _CMP_EQ_OQ)]); (ECall _mm256_cmp_ps [vv 1; oo
    1; (EInt _CMP_EQ_OQ)]); (ECall _mm256_cmp_ps [vv 2; oo 2; (EInt _CMP_EQ_OQ)]); (ECall
    _mm256_cmp_ps [vv 3; oo 3; (EInt _CMP_EQ_OQ)])]].

(* short_vec_avx_float_32.hpp:251-259 *)
Definition avx_float_32_gt : body :=
  [SRetVec [(ECall _mm256_cmp_ps [vv 0; oo 0; (EInt _CMP_GT_OS)]); (ECall _mm256_cmp_ps [vv 1; oo
    1; (EInt _CMP_GT_OS)]); (ECall _mm256_cmp_ps [vv 2; oo 2; (EInt _CMP_GT_OS)]); (ECall
    _mm256_cmp_ps [vv 3; oo 3; (EInt _CMP_GT_OS)])]].

(* short_vec_avx_float_32.hpp:261-269 *)
Definition avx_float_32_ge : body :=
  [SRetVec [(ECall _mm256_cmp_ps [vv 0; oo 0; (EInt _CMP_GE_OS)]); (ECall _mm256_cmp_ps [vv 1; oo
    1; (EInt _CMP_GE_OS)]); (ECall _mm256_cmp_ps [vv 2; oo 2; (EInt _CMP_GE_OS)]); (ECall
    _mm256_cmp_ps [vv 3; oo 3; (EInt _CMP_GE_OS)])]].

(* short_vec_avx_float_32.hpp:271-279 *)
Definition avx_float_32_sqrt : body :=
  [SRetVec [(ECall _mm256_sqrt_ps [vv 0]); (ECall _mm256_sqrt_ps [vv 1]); (ECall _mm256_sqrt_ps [vv
    2]); (ECall _mm256_sqrt_ps [vv 3])]].

(* short_vec_avx_float_32.hpp:281-288 *)
Definition avx_float_32_load : body :=
  [SSet (LVal (EInt 0)) (ECall _mm256_loadu_ps [dat 0]);
   SSet (LVal (EInt 1)) (ECall _mm256_loadu_ps [dat 8]);
   SSet (LVal (EInt 2)) (ECall _mm256_loadu_ps [dat 16]);
   SSet (LVal (EInt 3)) (ECall _mm256_loadu_ps [dat 24])].

(* short_vec_avx_float_32.hpp:290-298 *)
Definition avx_float_32_load_aligned : body :=
  [SAssertAligned EData 32;
   SSet (LVal (EInt 0)) (ECall _mm256_load_ps [dat 0]);
   SSet (LVal (EInt 1)) (ECall _mm256_load_ps [dat 8]);
   SSet (LVal (EInt 2)) (ECall _mm256_load_ps [dat 16]);
   SSet (LVal (EInt 3)) (ECall _mm256_load_ps [dat 24])].

(* short_vec_avx_float_32.hpp:300-307 *)
Definition avx_float_32_store : body :=
  [SDo (ECall _mm256_storeu_ps [dat 0; vv 0]);
   SDo (ECall _mm256_storeu_ps [dat 8; vv 1]);
   SDo (ECall _mm256_storeu_ps [dat 16; vv 2]);
   SDo (ECall _mm256_storeu_ps [dat 24; vv 3])].

(* short_vec_avx_float_32.hpp:309-317 *)
Definition avx_float_32_store_aligned : body :=
  [SAssertAligned EData 32;
   SDo (ECall _mm256_store_ps [dat 0; vv 0]);
   SDo (ECall _mm256_store_ps [dat 8; vv 1]);
   SDo (ECall _mm256_store_ps [dat 16; vv 2]);
   SDo (ECall _mm256_store_ps [dat 24; vv 3])].

(* short_vec_avx_float_32.hpp:319-327 *)
Definition avx_float_32_store_nt : body :=
  [SAssertAligned EData 32;
   SDo (ECall _mm256_stream_ps [dat 0; vv 0]);
   SDo (ECall _mm256_stream_ps [dat 8; vv 1]);
   SDo (ECall _mm256_stream_ps [dat 16; vv 2]);
   SDo (ECall _mm256_stream_ps [dat 24; vv 3])].

(* short_vec_avx_float_32.hpp:344-388 *)
Definition avx_float_32_gather : body :=
  [SDecl "tmp" 4;
   SSet (LVar "tmp") (ECall _mm_load_ss [pto 0]);
   SSet (LVar "tmp") (ECall SHORTVEC_INSERT_PS_AVX [(EVar "tmp"); EPtr; off 1; (ECall
    _MM_MK_INSERTPS_NDX [EInt 0; EInt 1; EInt 0])]);
   SSet (LVar "tmp") (ECall SHORTVEC_INSERT_PS_AVX [(EVar "tmp"); EPtr; off 2; (ECall
    _MM_MK_INSERTPS_NDX [EInt 0; EInt 2; EInt 0])]);
   SSet (LVar "tmp") (ECall SHORTVEC_INSERT_PS_AVX [(EVar "tmp"); EPtr; off 3; (ECall
    _MM_MK_INSERTPS_NDX [EInt 0; EInt 3; EInt 0])]);
   SSet (LVal (EInt 0)) (ECall _mm256_insertf128_ps [vv 0; (EVar "tmp"); EInt 0]);
   SSet (LVar "tmp") (ECall _mm_load_ss [pto 4]);
   SSet (LVar "tmp") (ECall SHORTVEC_INSERT_PS_AVX [(EVar "tmp"); EPtr; off 5; (ECall
    _MM_MK_INSERTPS_NDX [EInt 0; EInt 1; EInt 0])]);
   SSet (LVar "tmp") (ECall SHORTVEC_INSERT_PS_AVX [(EVar "tmp"); EPtr; off 6; (ECall
    _MM_MK_INSERTPS_NDX [EInt 0; EInt 2; EInt 0])]);
   SSet (LVar "tmp") (ECall SHORTVEC_INSERT_PS_AVX [(EVar "tmp"); EPtr; off 7; (ECall
    _MM_MK_INSERTPS_NDX [EInt 0; EInt 3; EInt 0])]);
   SSet (LVal (EInt 0)) (ECall _mm256_insertf128_ps [vv 0; (EVar "tmp"); EInt 1]);
   SSet (LVar "tmp") (ECall _mm_load_ss [pto 8]);
   SSet (LVar "tmp") (ECall SHORTVEC_INSERT_PS_AVX [(EVar "tmp"); EPtr; off 9; (ECall
    _MM_MK_INSERTPS_NDX [EInt 0; EInt 1; EInt 0])]);
   SSet (LVar "tmp") (ECall SHORTVEC_INSERT_PS_AVX [(EVar "tmp"); EPtr; off 10; (ECall
    _MM_MK_INSERTPS_NDX [EInt 0; EInt 2; EInt 0])]);
   SSet (LVar "tmp") (ECall SHORTVEC_INSERT_PS_AVX [(EVar "tmp"); EPtr; off 11; (ECall
    _MM_MK_INSERTPS_NDX [EInt 0; EInt 3; EInt 0])]);
   SSet (LVal (EInt 1)) (ECall _mm256_insertf128_ps [vv 1; (EVar "tmp"); EInt 0]);
   SSet (LVar "tmp") (ECall _mm_load_ss [pto 12]);
   SSet (LVar "tmp") (ECall SHORTVEC_INSERT_PS_AVX [(EVar "tmp"); EPtr; off 13; (ECall
    _MM_MK_INSERTPS_NDX [EInt 0; EInt 1; EInt 0])]);
   SSet (LVar "tmp") (ECall SHORTVEC_INSERT_PS_AVX [(EVar "tmp"); EPtr; off 14; (ECall
    _MM_MK_INSERTPS_NDX [EInt 0; EInt 2; EInt 0])]);
   SSet (LVar "tmp") (ECall SHORTVEC_INSERT_PS_AVX [(EVar "tmp"); EPtr; off 15; (ECall
    _MM_MK_INSERTPS_NDX [EInt 0; EInt 3; EInt 0])]);
   SSet (LVal (EInt 1)) (ECall _mm256_insertf128_ps [vv 1; (EVar "tmp"); EInt 1]);
   SSet (LVar "tmp") (ECall _mm_load_ss [pto 16]);
   SSet (LVar "tmp") (ECall SHORTVEC_INSERT_PS_AVX [(EVar "tmp"); EPtr; off 17; (ECall
    _MM_MK_INSERTPS_NDX [EInt 0; EInt 1; EInt 0])]);
   SSet (LVar "tmp") (ECall SHORTVEC_INSERT_PS_AVX [(EVar "tmp"); EPtr; off 18; (ECall
    _MM_MK_INSERTPS_NDX [EInt 0; EInt 2; EInt 0])]);
   SSet (LVar "tmp") (ECall SHORTVEC_INSERT_PS_AVX [(EVar "tmp"); EPtr; off 19; (ECall
    _MM_MK_INSERTPS_NDX [EInt 0; EInt 3; EInt 0])]);
   SSet (LVal (EInt 2)) (ECall _mm256_insertf128_ps [vv 2; (EVar "tmp"); EInt 0]);
   SSet (LVar "tmp") (ECall _mm_load_ss [pto 20]);
   SSet (LVar "tmp") (ECall SHORTVEC_INSERT_PS_AVX [(EVar "tmp"); EPtr; off 21; (ECall
    _MM_MK_INSERTPS_NDX [EInt 0; EInt 1; EInt 0])]);
   SSet (LVar "tmp") (ECall SHORTVEC_INSERT_PS_AVX [(EVar "tmp"); EPtr; off 22; (ECall
    _MM_MK_INSERTPS_NDX [EInt 0; EInt 2; EInt 0])]);
   SSet (LVar "tmp") (ECall SHORTVEC_INSERT_PS_AVX [(EVar "tmp"); EPtr; off 23; (ECall
    _MM_MK_INSERTPS_NDX [EInt 0; EInt 3; EInt 0])]);
   SSet (LVal (EInt 2)) (ECall _mm256_insertf128_ps [vv 2; (EVar "tmp"); EInt 1]);
   SSet (LVar "tmp") (ECall _mm_load_ss [pto 24]);
   SSet (LVar "tmp") (ECall SHORTVEC_INSERT_PS_AVX [(EVar "tmp"); EPtr; off 25; (ECall
    _MM_MK_INSERTPS_NDX [EInt 0; EInt 1; EInt 0])]);
   SSet (LVar "tmp") (ECall SHORTVEC_INSERT_PS_AVX [(EVar "tmp"); EPtr; off 26; (ECall
    _MM_MK_INSERTPS_NDX [EInt 0; EInt 2; EInt 0])]);
   SSet (LVar "tmp") (ECall SHORTVEC_INSERT_PS_AVX [(EVar "tmp"); EPtr; off 27; (ECall
    _MM_MK_INSERTPS_NDX [EInt 0; EInt 3; EInt 0])]);
   SSet (LVal (EInt 3)) (ECall _mm256_insertf128_ps [vv 3; (EVar "tmp"); EInt 0]);
   SSet (LVar "tmp") (ECall _mm_load_ss [pto 28]);
   SSet (LVar "tmp") (ECall SHORTVEC_INSERT_PS_AVX [(EVar "tmp"); EPtr; off 29; (ECall
    _MM_MK_INSERTPS_NDX [EInt 0; EInt 1; EInt 0])]);
   SSet (LVar "tmp") (ECall SHORTVEC_INSERT_PS_AVX [(EVar "tmp"); EPtr; off 30; (ECall
    _MM_MK_INSERTPS_NDX [EInt 0; EInt 2; EInt 0])]);
   SSet (LVar "tmp") (ECall SHORTVEC_INSERT_PS_AVX [(EVar "tmp"); EPtr; off 31; (ECall
    _MM_MK_INSERTPS_NDX [EInt 0; EInt 3; EInt 0])]);
   SSet (LVal (EInt 3)) (ECall _mm256_insertf128_ps [vv 3; (EVar "tmp"); EInt 1])].

(* short_vec_avx_float_32.hpp:391-435 *)
Definition avx_float_32_scatter : body :=
  [SDecl "tmp" 4;
   SSet (LVar "tmp") (ECall _mm256_extractf128_ps [vv 0; EInt 0]);
   SSet (LMem (pto 0)) (ECall _MM_EXTRACT_FLOAT [(EVar "tmp"); EInt 0]);
   SSet (LMem (pto 1)) (ECall _MM_EXTRACT_FLOAT [(EVar "tmp"); EInt 1]);
   SSet (LMem (pto 2)) (ECall _MM_EXTRACT_FLOAT [(EVar "tmp"); EInt 2]);
   SSet (LMem (pto 3)) (ECall _MM_EXTRACT_FLOAT [(EVar "tmp"); EInt 3]);
   SSet (LVar "tmp") (ECall _mm256_extractf128_ps [vv 0; EInt 1]);
   SSet (LMem (pto 4)) (ECall _MM_EXTRACT_FLOAT [(EVar "tmp"); EInt 0]);
   SSet (LMem (pto 5)) (ECall _MM_EXTRACT_FLOAT [(EVar "tmp"); EInt 1]);
   SSet (LMem (pto 6)) (ECall _MM_EXTRACT_FLOAT [(EVar "tmp"); EInt 2]);
   SSet (LMem (pto 7)) (ECall _MM_EXTRACT_FLOAT [(EVar "tmp"); EInt 3]);
   SSet (LVar "tmp") (ECall _mm256_extractf128_ps [vv 1; EInt 0]);
   SSet (LMem (pto 8)) (ECall _MM_EXTRACT_FLOAT [(EVar "tmp"); EInt 0]);
   SSet (LMem (pto 9)) (ECall _MM_EXTRACT_FLOAT [(EVar "tmp"); EInt 1]);
   SSet (LMem (pto 10)) (ECall _MM_EXTRACT_FLOAT [(EVar "tmp"); EInt 2]);
   SSet (LMem (pto 11)) (ECall _MM_EXTRACT_FLOAT [(EVar "tmp"); EInt 3]);
   SSet (LVar "tmp") (ECall _mm256_extractf128_ps [vv 1; EInt 1]);
   SSet (LMem (pto 12)) (ECall _MM_EXTRACT_FLOAT [(EVar "tmp"); EInt 0]);
   SSet (LMem (pto 13)) (ECall _MM_EXTRACT_FLOAT [(EVar "tmp"); EInt 1]);
   SSet (LMem (pto 14)) (ECall _MM_EXTRACT_FLOAT [(EVar "tmp"); EInt 2]);
   SSet (LMem (pto 15)) (ECall _MM_EXTRACT_FLOAT [(EVar "tmp"); EInt 3]);
   SSet (LVar "tmp") (ECall _mm256_extractf128_ps [vv 2; EInt 0]);
   SSet (LMem (pto 16)) (ECall _MM_EXTRACT_FLOAT [(EVar "tmp"); EInt 0]);
   SSet (LMem (pto 17)) (ECall _MM_EXTRACT_FLOAT [(EVar "tmp"); EInt 1]);
   SSet (LMem (pto 18)) (ECall _MM_EXTRACT_FLOAT [(EVar "tmp"); EInt 2]);
   SSet (LMem (pto 19)) (ECall _MM_EXTRACT_FLOAT [(EVar "tmp"); EInt 3]);
   SSet (LVar "tmp") (ECall _mm256_extractf128_ps [vv 2; EInt 1]);
   SSet (LMem (pto 20)) (ECall _MM_EXTRACT_FLOAT [(EVar "tmp"); EInt 0]);
   SSet (LMem (pto 21)) (ECall _MM_EXTRACT_FLOAT [(EVar "tmp"); EInt 1]);
   SSet (LMem (pto 22)) (ECall _MM_EXTRACT_FLOAT [(EVar "tmp"); EInt 2]);
   SSet (LMem (pto 23)) (ECall _MM_EXTRACT_FLOAT [(EVar "tmp"); EInt 3]);
   SSet (LVar "tmp") (ECall _mm256_extractf128_ps [vv 3; EInt 0]);
   SSet (LMem (pto 24)) (ECall _MM_EXTRACT_FLOAT [(EVar "tmp"); EInt 0]);
   SSet (LMem (pto 25)) (ECall _MM_EXTRACT_FLOAT [(EVar "tmp"); EInt 1]);
   SSet (LMem (pto 26)) (ECall _MM_EXTRACT_FLOAT [(EVar "tmp"); EInt 2]);
   SSet (LMem (pto 27)) (ECall _MM_EXTRACT_FLOAT [(EVar "tmp"); EInt 3]);
   SSet (LVar "tmp") (ECall _mm256_extractf128_ps [vv 3; EInt 1]);
   SSet (LMem (pto 28)) (ECall _MM_EXTRACT_FLOAT [(EVar "tmp"); EInt 0]);
   SSet (LMem (pto 29)) (ECall _MM_EXTRACT_FLOAT [(EVar "tmp"); EInt 1]);
   SSet (LMem (pto 30)) (ECall _MM_EXTRACT_FLOAT [(EVar "tmp"); EInt 2]);
   SSet (LMem (pto 31)) (ECall _MM_EXTRACT_FLOAT [(EVar "tmp"); EInt 3])].

(* short_vec_avx_float_32.hpp:437-444 *)
Definition avx_float_32_blend : body :=
  [SSet (LVal (EInt 0)) (ECall _mm256_blendv_ps [vv 0; oo 0; mm 0]);
   SSet (LVal (EInt 1)) (ECall _mm256_blendv_ps [vv 1; oo 1; mm 1]);
   SSet (LVal (EInt 2)) (ECall _mm256_blendv_ps [vv 2; oo 2; mm 2]);
   SSet (LVal (EInt 3)) (ECall _mm256_blendv_ps [vv 3; oo 3; mm 3])].

(* short_vec_avx_float_32.hpp:476-481 *)
Definition avx_float_32_ctor_sqrt : body :=
  [SSet (LVal (EInt 0)) (ECall _mm256_sqrt_ps [oo 0]);
   SSet (LVal (EInt 1)) (ECall _mm256_sqrt_ps [oo 1]);
   SSet (LVal (EInt 2)) (ECall _mm256_sqrt_ps [oo 2]);
   SSet (LVal (EInt 3)) (ECall _mm256_sqrt_ps [oo 3])].

(* short_vec_avx_float_32.hpp:484-490 *)
Definition avx_float_32_div_eq_sqrt : body :=
  [SSet (LVal (EInt 0)) (ECall _mm256_mul_ps [vv 0; (ECall _mm256_rsqrt_ps [oo 0])]);
   SSet (LVal (EInt 1)) (ECall _mm256_mul_ps [vv 1; (ECall _mm256_rsqrt_ps [oo 1])]);
   SSet (LVal (EInt 2)) (ECall _mm256_mul_ps [vv 2; (ECall _mm256_rsqrt_ps [oo 2])]);
   SSet (LVal (EInt 3)) (ECall _mm256_mul_ps [vv 3; (ECall _mm256_rsqrt_ps [oo 3])])].

(* short_vec_avx_float_32.hpp:493-500 *)
Definition avx_float_32_div_sqrt : body :=
  [SRetVec [(ECall _mm256_mul_ps [vv 0; (ECall _mm256_rsqrt_ps [oo 0])]); (ECall _mm256_mul_ps [vv
    1; (ECall _mm256_rsqrt_ps [oo 1])]); (ECall _mm256_mul_ps [vv 2; (ECall _mm256_rsqrt_ps [oo
    2])]); (ECall _mm256_mul_ps [vv 3; (ECall _mm256_rsqrt_ps [oo 3])])]].

(* short_vec_avx_float_32.hpp:512-528 *)
Definition avx_float_32_print : list item :=
  [PStr "["; PVal (EIdx (vv 0) (EInt 0)); PStr ", "; PVal (EIdx (vv 0) (EInt 1)); PStr ", "; PVal
   (EIdx (vv 0) (EInt 2)); PStr ", "; PVal (EIdx (vv 0) (EInt 3)); PStr ", "; PVal (EIdx (vv 0)
   (EInt 4)); PStr ", "; PVal (EIdx (vv 0) (EInt 5)); PStr ", "; PVal (EIdx (vv 0) (EInt 6)); PStr
   ", "; PVal (EIdx (vv 0) (EInt 7)); PStr ", "; PVal (EIdx (vv 1) (EInt 0)); PStr ", "; PVal (EIdx
   (vv 1) (EInt 1)); PStr ", "; PVal (EIdx (vv 1) (EInt 2)); PStr ", "; PVal (EIdx (vv 1) (EInt
   3)); PStr ", "; PVal (EIdx (vv 1) (EInt 4)); PStr ", "; PVal (EIdx (vv 1) (EInt 5)); PStr ", ";
   PVal (EIdx (vv 1) (EInt 6)); PStr ", "; PVal (EIdx (vv 1) (EInt 7)); PStr ", "; PVal (EIdx (vv
   2) (EInt 0)); PStr ", "; PVal (EIdx (vv 2) (EInt 1)); PStr ", "; PVal (EIdx (vv 2) (EInt 2));
   PStr ", "; PVal (EIdx (vv 2) (EInt 3)); PStr ", "; PVal (EIdx (vv 2) (EInt 4)); PStr ", "; PVal
   (EIdx (vv 2) (EInt 5)); PStr ", "; PVal (EIdx (vv 2) (EInt 6)); PStr ", "; PVal (EIdx (vv 2)
   (EInt 7)); PStr ", "; PVal (EIdx (vv 3) (EInt 0)); PStr ", "; PVal (EIdx (vv 3) (EInt 1)); PStr
   ", "; PVal (EIdx (vv 3) (EInt 2)); PStr ", "; PVal (EIdx (vv 3) (EInt 3)); PStr ", "; PVal (EIdx
   (vv 3) (EInt 4)); PStr ", "; PVal (EIdx (vv 3) (EInt 5)); PStr ", "; PVal (EIdx (vv 3) (EInt
   6)); PStr ", "; PVal (EIdx (vv 3) (EInt 7)); PStr "]"].

(* short_vec_avx_float_32.hpp *)
Definition cls_avx_float_32 : cls :=
  mkCls "avx_float_32" KF32 32 4 8 32 MVec
    (fun m => match m with
     | MCtorScalar => Some avx_float_32_ctor_scalar
     | MCtorPtr => Some avx_float_32_ctor_ptr
     | MCtorRegs => Some avx_float_32_ctor_regs
     | MCtorSqrt => Some avx_float_32_ctor_sqrt
     | MCtorList => Some avx_float_32_ctor_list
     | MAny => Some avx_float_32_any
     | MIndex => Some avx_float_32_index
     | MSubEq => Some avx_float_32_sub_eq
     | MSub => Some avx_float_32_sub
     | MAddEq => Some avx_float_32_add_eq
     | MAdd => Some avx_float_32_add
     | MMulEq => Some avx_float_32_mul_eq
     | MMul => Some avx_float_32_mul
     | MDivEq => Some avx_float_32_div_eq
     | MDiv => Some avx_float_32_div
     | MDivEqSqrt => Some avx_float_32_div_eq_sqrt
     | MDivSqrt => Some avx_float_32_div_sqrt
     | MLt => Some avx_float_32_lt
     | MLe => Some avx_float_32_le
     | MEq => Some avx_float_32_eq
     | MGt => Some avx_float_32_gt
     | MGe => Some avx_float_32_ge
     | MSqrt => Some avx_float_32_sqrt
     | MLoad => Some avx_float_32_load
     | MLoadAligned => Some avx_float_32_load_aligned
     | MStore => Some avx_float_32_store
     | MStoreAligned => Some avx_float_32_store_aligned
     | MStoreNt => Some avx_float_32_store_nt
     | MGather => Some avx_float_32_gather
     | MScatter => Some avx_float_32_scatter
     | MBlend => Some avx_float_32_blend
     end)
    avx_float_32_ctor_regs avx_float_32_print.

(* short_vec_avx_float_32.hpp:330-342 with __AVX2__ *)
Definition avx_float_32_2_gather : body :=
  [SDecl "indices" 8;
   SSet (LVar "indices") (ECall _mm256_loadu_si256 [EOff]);
   SSet (LVal (EInt 0)) (ECall _mm256_i32gather_ps [EPtr; (EVar "indices"); EInt 4]);
   SSet (LVar "indices") (ECall _mm256_loadu_si256 [(ECop OAdd EOff (EInt 8))]);
   SSet (LVal (EInt 1)) (ECall _mm256_i32gather_ps [EPtr; (EVar "indices"); EInt 4]);
   SSet (LVar "indices") (ECall _mm256_loadu_si256 [(ECop OAdd EOff (EInt 16))]);
   SSet (LVal (EInt 2)) (ECall _mm256_i32gather_ps [EPtr; (EVar "indices"); EInt 4]);
   SSet (LVar "indices") (ECall _mm256_loadu_si256 [(ECop OAdd EOff (EInt 24))]);
   SSet (LVal (EInt 3)) (ECall _mm256_i32gather_ps [EPtr; (EVar "indices"); EInt 4])].

(* short_vec_avx_float_32.hpp with __AVX2__ *)
Definition cls_avx_float_32_2 : cls :=
  mkCls "avx_float_32_2" KF32 32 4 8 32 MVec
    (fun m => match m with
     | MCtorScalar => Some avx_float_32_ctor_scalar
     | MCtorPtr => Some avx_float_32_ctor_ptr
     | MCtorRegs => Some avx_float_32_ctor_regs
     | MCtorSqrt => Some avx_float_32_ctor_sqrt
     | MCtorList => Some avx_float_32_ctor_list
     | MAny => Some avx_float_32_any
     | MIndex => Some avx_float_32_index
     | MSubEq => Some avx_float_32_sub_eq
     | MSub => Some avx_float_32_sub
     | MAddEq => Some avx_float_32_add_eq
     | MAdd => Some avx_float_32_add
     | MMulEq => Some avx_float_32_mul_eq
     | MMul => Some avx_float_32_mul
     | MDivEq => Some avx_float_32_div_eq
     | MDiv => Some avx_float_32_div
     | MDivEqSqrt => Some avx_float_32_div_eq_sqrt
     | MDivSqrt => Some avx_float_32_div_sqrt
     | MLt => Some avx_float_32_lt
     | MLe => Some avx_float_32_le
     | MEq => Some avx_float_32_eq
     | MGt => Some avx_float_32_gt
     | MGe => Some avx_float_32_ge
     | MSqrt => Some avx_float_32_sqrt
     | MLoad => Some avx_float_32_load
     | MLoadAligned => Some avx_float_32_load_aligned
     | MStore => Some avx_float_32_store
     | MStoreAligned => Some avx_float_32_store_aligned
     | MStoreNt => Some avx_float_32_store_nt
     | MGather => Some avx_float_32_2_gather
     | MScatter => Some avx_float_32_scatter
     | MBlend => Some avx_float_32_blend
     end)
    avx_float_32_ctor_regs avx_float_32_print.

(* short_vec_avx_int_8.hpp:65-68 with __AVX2__ *)
Definition avx_int_8_2_ctor_scalar : body :=
  [SSet (LVal (EInt 0)) (ECall _mm256_set1_epi32 [EArg])].

(* short_vec_avx_int_8.hpp:70-74 with __AVX2__ *)
Definition avx_int_8_2_ctor_ptr : body :=
  [SSet (LVal (EInt 0)) (ECall _mm256_loadu_si256 [EData])].

(* short_vec_avx_int_8.hpp:76-79 with __AVX2__ *)
Definition avx_int_8_2_ctor_regs : body :=
  [SSet (LVal (EInt 0)) (EPar 0)].

(* short_vec_avx_int_8.hpp:82-87 with __AVX2__ *)
Definition avx_int_8_2_ctor_list : body :=
  [SSet (LVal (EInt 0)) (ECall _mm256_loadu_si256 [EData])].

(* short_vec_avx_int_8.hpp:93-97 with __AVX2__ *)
Definition avx_int_8_2_sub_eq : body :=
  [SSet (LVal (EInt 0)) (ECall _mm256_sub_epi32 [vv 0; oo 0])].

(* short_vec_avx_int_8.hpp:99-104 with __AVX2__ *)
Definition avx_int_8_2_sub : body :=
  [SRetVec [(ECall _mm256_sub_epi32 [vv 0; oo 0])]].

(* short_vec_avx_int_8.hpp:106-110 with __AVX2__ *)
Definition avx_int_8_2_add_eq : body :=
  [SSet (LVal (EInt 0)) (ECall _mm256_add_epi32 [vv 0; oo 0])].

(* short_vec_avx_int_8.hpp:112-117 with __AVX2__ *)
Definition avx_int_8_2_add : body :=
  [SRetVec [(ECall _mm256_add_epi32 [vv 0; oo 0])]].

(* short_vec_avx_int_8.hpp:119-123 with __AVX2__ *)
Definition avx_int_8_2_mul_eq : body :=
  [SSet (LVal (EInt 0)) (ECall _mm256_mullo_epi32 [vv 0; oo 0])].

(* short_vec_avx_int_8.hpp:125-130 with __AVX2__ *)
Definition avx_int_8_2_mul : body :=
  [SRetVec [(ECall _mm256_mullo_epi32 [vv 0; oo 0])]].

(* short_vec_avx_int_8.hpp:132-137 with __AVX2__ *)
Definition avx_int_8_2_div_eq : body :=
  [SSet (LVal (EInt 0)) (ECall _mm256_cvtps_epi32 [(ECall _mm256_div_ps [(ECall _mm256_cvtepi32_ps
    [vv 0]); (ECall _mm256_cvtepi32_ps [oo 0])])])].

(* short_vec_avx_int_8.hpp:142-149 with __AVX2__ *)
Definition avx_int_8_2_div : body :=
  [SRetVec [(ECall _mm256_cvttps_epi32 [(ECall _mm256_div_ps [(ECall _mm256_cvtepi32_ps [vv 0]);
    (ECall _mm256_cvtepi32_ps [oo 0])])])]].

(* short_vec_avx_int_8.hpp:154-160 with __AVX2__ *)
Definition avx_int_8_2_sqrt : body :=
  [SRetVec [(ECall _mm256_cvtps_epi32 [(ECall _mm256_sqrt_ps [(ECall _mm256_cvtepi32_ps [vv
    0])])])]].

(* short_vec_avx_int_8.hpp:162-166 with __AVX2__ *)
Definition avx_int_8_2_load : body :=
  [SSet (LVal (EInt 0)) (ECall _mm256_loadu_si256 [EData])].

(* short_vec_avx_int_8.hpp:168-173 with __AVX2__ *)
Definition avx_int_8_2_load_aligned : body :=
  [SAssertAligned EData 32;
   SSet (LVal (EInt 0)) (ECall _mm256_load_si256 [EData])].

(* short_vec_avx_int_8.hpp:175-179 with __AVX2__ *)
Definition avx_int_8_2_store : body :=
  [SDo (ECall _mm256_storeu_si256 [EData; vv 0])].

(* short_vec_avx_int_8.hpp:181-186 with __AVX2__ *)
Definition avx_int_8_2_store_aligned : body :=
  [SAssertAligned EData 32;
   SDo (ECall _mm256_store_si256 [EData; vv 0])].

(* short_vec_avx_int_8.hpp:188-193 with __AVX2__ *)
Definition avx_int_8_2_store_nt : body :=
  [SAssertAligned EData 32;
   SDo (ECall _mm256_stream_si256 [EData; vv 0])].

(* short_vec_avx_int_8.hpp:195-200 with __AVX2__ *)
Definition avx_int_8_2_gather : body :=
  [SSet (LVar "indices") (ECall _mm256_loadu_si256 [EOff]);
   SSet (LVal (EInt 0)) (ECall _mm256_i32gather_epi32 [EPtr; (EVar "indices"); EInt 4])].

(* short_vec_avx_int_8.hpp:202-213 with __AVX2__ *)
Definition avx_int_8_2_scatter : body :=
  [SSet (LMem (pto 0)) (ECall _mm256_extract_epi32 [vv 0; EInt 0]);
   SSet (LMem (pto 1)) (ECall _mm256_extract_epi32 [vv 0; EInt 1]);
   SSet (LMem (pto 2)) (ECall _mm256_extract_epi32 [vv 0; EInt 2]);
   SSet (LMem (pto 3)) (ECall _mm256_extract_epi32 [vv 0; EInt 3]);
   SSet (LMem (pto 4)) (ECall _mm256_extract_epi32 [vv 0; EInt 4]);
   SSet (LMem (pto 5)) (ECall _mm256_extract_epi32 [vv 0; EInt 5]);
   SSet (LMem (pto 6)) (ECall _mm256_extract_epi32 [vv 0; EInt 6]);
   SSet (LMem (pto 7)) (ECall _mm256_extract_epi32 [vv 0; EInt 7])].

(* short_vec_avx_int_8.hpp:245-249 with __AVX2__ *)
Definition avx_int_8_2_ctor_sqrt : body :=
  [SSet (LVal (EInt 0)) (ECall _mm256_cvtps_epi32 [(ECall _mm256_sqrt_ps [(ECall _mm256_cvtepi32_ps
    [oo 0])])])].

(* short_vec_avx_int_8.hpp:252-257 with __AVX2__ *)
Definition avx_int_8_2_div_eq_sqrt : body :=
  [SSet (LVal (EInt 0)) (ECall _mm256_cvtps_epi32 [(ECall _mm256_mul_ps [(ECall _mm256_cvtepi32_ps
    [vv 0]); (ECall _mm256_rsqrt_ps [(ECall _mm256_cvtepi32_ps [oo 0])])])])].

(* short_vec_avx_int_8.hpp:260-266 with __AVX2__ *)
Definition avx_int_8_2_div_sqrt : body :=
  [SRetVec [(ECall _mm256_cvtps_epi32 [(ECall _mm256_mul_ps [(ECall _mm256_cvtepi32_ps [vv 0]);
    (ECall _mm256_rsqrt_ps [(ECall _mm256_cvtepi32_ps [oo 0])])])])]].

(* short_vec_avx_int_8.hpp:278-285 with __AVX2__ *)
Definition avx_int_8_2_print : list item :=
  [PStr "["; PVal (EIdx (vv 0) (EInt 0)); PStr ", "; PVal (EIdx (vv 0) (EInt 1)); PStr ", "; PVal
   (EIdx (vv 0) (EInt 2)); PStr ", "; PVal (EIdx (vv 0) (EInt 3)); PStr ", "; PVal (EIdx (vv 0)
   (EInt 4)); PStr ", "; PVal (EIdx (vv 0) (EInt 5)); PStr ", "; PVal (EIdx (vv 0) (EInt 6)); PStr
   ", "; PVal (EIdx (vv 0) (EInt 7)); PStr "]"].

(* short_vec_avx_int_8.hpp with __AVX2__ *)
Definition cls_avx_int_8_2 : cls :=
  mkCls "avx_int_8_2" KI32 8 1 8 32 MNone
    (fun m => match m with
     | MCtorScalar => Some avx_int_8_2_ctor_scalar
     | MCtorPtr => Some avx_int_8_2_ctor_ptr
     | MCtorRegs => Some avx_int_8_2_ctor_regs
     | MCtorSqrt => Some avx_int_8_2_ctor_sqrt
     | MCtorList => Some avx_int_8_2_ctor_list
     | MSubEq => Some avx_int_8_2_sub_eq
     | MSub => Some avx_int_8_2_sub
     | MAddEq => Some avx_int_8_2_add_eq
     | MAdd => Some avx_int_8_2_add
     | MMulEq => Some avx_int_8_2_mul_eq
     | MMul => Some avx_int_8_2_mul
     | MDivEq => Some avx_int_8_2_div_eq
     | MDiv => Some avx_int_8_2_div
     | MDivEqSqrt => Some avx_int_8_2_div_eq_sqrt
     | MDivSqrt => Some avx_int_8_2_div_sqrt
     | MSqrt => Some avx_int_8_2_sqrt
     | MLoad => Some avx_int_8_2_load
     | MLoadAligned => Some avx_int_8_2_load_aligned
     | MStore => Some avx_int_8_2_store
     | MStoreAligned => Some avx_int_8_2_store_aligned
     | MStoreNt => Some avx_int_8_2_store_nt
     | MGather => Some avx_int_8_2_gather
     | MScatter => Some avx_int_8_2_scatter
     | _ => None
     end)
    avx_int_8_2_ctor_regs avx_int_8_2_print.

(* short_vec_avx_int_16.hpp:63-67 with __AVX2__ *)
Definition avx_int_16_2_ctor_scalar : body :=
  [SSet (LVal (EInt 0)) (ECall _mm256_set1_epi32 [EArg]);
   SSet (LVal (EInt 1)) (ECall _mm256_set1_epi32 [EArg])].

(* short_vec_avx_int_16.hpp:69-73 with __AVX2__ *)
Definition avx_int_16_2_ctor_ptr : body :=
  [SSet (LVal (EInt 0)) (ECall _mm256_loadu_si256 [dat 0]);
   SSet (LVal (EInt 1)) (ECall _mm256_loadu_si256 [dat 8])].

(* short_vec_avx_int_16.hpp:75-81 with __AVX2__ *)
Definition avx_int_16_2_ctor_regs : body :=
  [SSet (LVal (EInt 0)) (EPar 0);
   SSet (LVal (EInt 1)) (EPar 1)].

(* short_vec_avx_int_16.hpp:84-89 with __AVX2__ *)
Definition avx_int_16_2_ctor_list : body :=
  [SSet (LVal (EInt 0)) (ECall _mm256_loadu_si256 [dat 0]);
   SSet (LVal (EInt 1)) (ECall _mm256_loadu_si256 [dat 8])].

(* short_vec_avx_int_16.hpp:95-100 with __AVX2__ *)
Definition avx_int_16_2_sub_eq : body :=
  [SSet (LVal (EInt 0)) (ECall _mm256_sub_epi32 [vv 0; oo 0]);
   SSet (LVal (EInt 1)) (ECall _mm256_sub_epi32 [vv 1; oo 1])].

(* short_vec_avx_int_16.hpp:102-108 with __AVX2__ *)
Definition avx_int_16_2_sub : body :=
  [SRetVec [(ECall _mm256_sub_epi32 [vv 0; oo 0]); (ECall _mm256_sub_epi32 [vv 1; oo 1])]].

(* short_vec_avx_int_16.hpp:110-115 with __AVX2__ *)
Definition avx_int_16_2_add_eq : body :=
  [SSet (LVal (EInt 0)) (ECall _mm256_add_epi32 [vv 0; oo 0]);
   SSet (LVal (EInt 1)) (ECall _mm256_add_epi32 [vv 1; oo 1])].

(* short_vec_avx_int_16.hpp:117-123 with __AVX2__ *)
Definition avx_int_16_2_add : body :=
  [SRetVec [(ECall _mm256_add_epi32 [vv 0; oo 0]); (ECall _mm256_add_epi32 [vv 1; oo 1])]].

(* short_vec_avx_int_16.hpp:125-130 with __AVX2__ *)
Definition avx_int_16_2_mul_eq : body :=
  [SSet (LVal (EInt 0)) (ECall _mm256_mullo_epi32 [vv 0; oo 0]);
   SSet (LVal (EInt 1)) (ECall _mm256_mullo_epi32 [vv 1; oo 1])].

(* short_vec_avx_int_16.hpp:132-138 with __AVX2__ *)
Definition avx_int_16_2_mul : body :=
  [SRetVec [(ECall _mm256_mullo_epi32 [vv 0; oo 0]); (ECall _mm256_mullo_epi32 [vv 1; oo 1])]].

(* short_vec_avx_int_16.hpp:140-147 with __AVX2__ *)
Definition avx_int_16_2_div_eq : body :=
  [SSet (LVal (EInt 0)) (ECall _mm256_cvtps_epi32 [(ECall _mm256_div_ps [(ECall _mm256_cvtepi32_ps
    [vv 0]); (ECall _mm256_cvtepi32_ps [oo 0])])]);
   SSet (LVal (EInt 1)) (ECall _mm256_cvtps_epi32 [(ECall _mm256_div_ps [(ECall _mm256_cvtepi32_ps
    [vv 1]); (ECall _mm256_cvtepi32_ps [oo 1])])])].

(* short_vec_avx_int_16.hpp:152-162 with __AVX2__ *)
Definition avx_int_16_2_div : body :=
  [SRetVec [(ECall _mm256_cvttps_epi32 [(ECall _mm256_div_ps [(ECall _mm256_cvtepi32_ps [vv 0]);
    (ECall _mm256_cvtepi32_ps [oo 0])])]); (ECall _mm256_cvttps_epi32 [(ECall _mm256_div_ps [(ECall
    _mm256_cvtepi32_ps [vv 1]); (ECall _mm256_cvtepi32_ps [oo 1])])])]].

(* short_vec_avx_int_16.hpp:167-175 with __AVX2__ *)
Definition avx_int_16_2_sqrt : body :=
  [SRetVec [(ECall _mm256_cvtps_epi32 [(ECall _mm256_sqrt_ps [(ECall _mm256_cvtepi32_ps [vv
    0])])]); (ECall _mm256_cvtps_epi32 [(ECall _mm256_sqrt_ps [(ECall _mm256_cvtepi32_ps [vv
    1])])])]].

(* short_vec_avx_int_16.hpp:177-182 with __AVX2__ *)
Definition avx_int_16_2_load : body :=
  [SSet (LVal (EInt 0)) (ECall _mm256_loadu_si256 [dat 0]);
   SSet (LVal (EInt 1)) (ECall _mm256_loadu_si256 [dat 8])].

(* short_vec_avx_int_16.hpp:184-190 with __AVX2__ *)
Definition avx_int_16_2_load_aligned : body :=
  [SAssertAligned EData 32;
   SSet (LVal (EInt 0)) (ECall _mm256_load_si256 [dat 0]);
   SSet (LVal (EInt 1)) (ECall _mm256_load_si256 [dat 8])].

(* short_vec_avx_int_16.hpp:192-197 with __AVX2__ *)
Definition avx_int_16_2_store : body :=
  [SDo (ECall _mm256_storeu_si256 [dat 0; vv 0]);
   SDo (ECall _mm256_storeu_si256 [dat 8; vv 1])].

(* short_vec_avx_int_16.hpp:199-205 with __AVX2__ *)
Definition avx_int_16_2_store_aligned : body :=
  [SAssertAligned EData 32;
   SDo (ECall _mm256_store_si256 [dat 0; vv 0]);
   SDo (ECall _mm256_store_si256 [dat 8; vv 1])].

(* short_vec_avx_int_16.hpp:207-213 with __AVX2__ *)
Definition avx_int_16_2_store_nt : body :=
  [SAssertAligned EData 32;
   SDo (ECall _mm256_stream_si256 [dat 0; vv 0]);
   SDo (ECall _mm256_stream_si256 [dat 8; vv 1])].

(* short_vec_avx_int_16.hpp:215-222 with __AVX2__ *)
Definition avx_int_16_2_gather : body :=
  [SSet (LVar "indices1") (ECall _mm256_loadu_si256 [(ECop OAdd EOff (EInt 0))]);
   SSet (LVar "indices2") (ECall _mm256_loadu_si256 [(ECop OAdd EOff (EInt 8))]);
   SSet (LVal (EInt 0)) (ECall _mm256_i32gather_epi32 [EPtr; (EVar "indices1"); EInt 4]);
   SSet (LVal (EInt 1)) (ECall _mm256_i32gather_epi32 [EPtr; (EVar "indices2"); EInt 4])].

(* short_vec_avx_int_16.hpp:224-243 with __AVX2__ *)
Definition avx_int_16_2_scatter : body :=
  [SSet (LMem (pto 0)) (ECall _mm256_extract_epi32 [vv 0; EInt 0]);
   SSet (LMem (pto 1)) (ECall _mm256_extract_epi32 [vv 0; EInt 1]);
   SSet (LMem (pto 2)) (ECall _mm256_extract_epi32 [vv 0; EInt 2]);
   SSet (LMem (pto 3)) (ECall _mm256_extract_epi32 [vv 0; EInt 3]);
   SSet (LMem (pto 4)) (ECall _mm256_extract_epi32 [vv 0; EInt 4]);
   SSet (LMem (pto 5)) (ECall _mm256_extract_epi32 [vv 0; EInt 5]);
   SSet (LMem (pto 6)) (ECall _mm256_extract_epi32 [vv 0; EInt 6]);
   SSet (LMem (pto 7)) (ECall _mm256_extract_epi32 [vv 0; EInt 7]);
   SSet (LMem (pto 8)) (ECall _mm256_extract_epi32 [vv 1; EInt 0]);
   SSet (LMem (pto 9)) (ECall _mm256_extract_epi32 [vv 1; EInt 1]);
   SSet (LMem (pto 10)) (ECall _mm256_extract_epi32 [vv 1; EInt 2]);
   SSet (LMem (pto 11)) (ECall _mm256_extract_epi32 [vv 1; EInt 3]);
   SSet (LMem (pto 12)) (ECall _mm256_extract_epi32 [vv 1; EInt 4]);
   SSet (LMem (pto 13)) (ECall _mm256_extract_epi32 [vv 1; EInt 5]);
   SSet (LMem (pto 14)) (ECall _mm256_extract_epi32 [vv 1; EInt 6]);
   SSet (LMem (pto 15)) (ECall _mm256_extract_epi32 [vv 1; EInt 7])].

(* short_vec_avx_int_16.hpp:275-280 with __AVX2__ *)
Definition avx_int_16_2_ctor_sqrt : body :=
  [SSet (LVal (EInt 0)) (ECall _mm256_cvtps_epi32 [(ECall _mm256_sqrt_ps [(ECall _mm256_cvtepi32_ps
    [oo 0])])]);
   SSet (LVal (EInt 1)) (ECall _mm256_cvtps_epi32 [(ECall _mm256_sqrt_ps [(ECall _mm256_cvtepi32_ps
    [oo 1])])])].

(* short_vec_avx_int_16.hpp:283-291 with __AVX2__ *)
Definition avx_int_16_2_div_eq_sqrt : body :=
  [SSet (LVal (EInt 0)) (ECall _mm256_cvtps_epi32 [(ECall _mm256_mul_ps [(ECall _mm256_cvtepi32_ps
    [vv 0]); (ECall _mm256_rsqrt_ps [(ECall _mm256_cvtepi32_ps [oo 0])])])]);
   SSet (LVal (EInt 1)) (ECall _mm256_cvtps_epi32 [(ECall _mm256_mul_ps [(ECall _mm256_cvtepi32_ps
    [vv 1]); (ECall _mm256_rsqrt_ps [(ECall _mm256_cvtepi32_ps [oo 1])])])])].

(* short_vec_avx_int_16.hpp:294-303 with __AVX2__ *)
Definition avx_int_16_2_div_sqrt : body :=
  [SRetVec [(ECall _mm256_cvtps_epi32 [(ECall _mm256_mul_ps [(ECall _mm256_cvtepi32_ps [vv 0]);
    (ECall _mm256_rsqrt_ps [(ECall _mm256_cvtepi32_ps [oo 0])])])]); (ECall _mm256_cvtps_epi32
    [(ECall _mm256_mul_ps [(ECall _mm256_cvtepi32_ps [vv 1]); (ECall _mm256_rsqrt_ps [(ECall
    _mm256_cvtepi32_ps [oo 1])])])])]].

(* short_vec_avx_int_16.hpp:315-325 with __AVX2__ *)
Definition avx_int_16_2_print : list item :=
  [PStr "["; PVal (EIdx (vv 0) (EInt 0)); PStr ", "; PVal (EIdx (vv 0) (EInt 1)); PStr ", "; PVal
   (EIdx (vv 0) (EInt 2)); PStr ", "; PVal (EIdx (vv 0) (EInt 3)); PStr ", "; PVal (EIdx (vv 0)
   (EInt 4)); PStr ", "; PVal (EIdx (vv 0) (EInt 5)); PStr ", "; PVal (EIdx (vv 0) (EInt 6)); PStr
   ", "; PVal (EIdx (vv 0) (EInt 7)); PStr ", "; PVal (EIdx (vv 1) (EInt 0)); PStr ", "; PVal (EIdx
   (vv 1) (EInt 1)); PStr ", "; PVal (EIdx (vv 1) (EInt 2)); PStr ", "; PVal (EIdx (vv 1) (EInt
   3)); PStr ", "; PVal (EIdx (vv 1) (EInt 4)); PStr ", "; PVal (EIdx (vv 1) (EInt 5)); PStr ", ";
   PVal (EIdx (vv 1) (EInt 6)); PStr ", "; PVal (EIdx (vv 1) (EInt 7)); PStr "]"].

(* short_vec_avx_int_16.hpp with __AVX2__ *)
Definition cls_avx_int_16_2 : cls :=
  mkCls "avx_int_16_2" KI32 16 2 8 32 MNone
    (fun m => match m with
     | MCtorScalar => Some avx_int_16_2_ctor_scalar
     | MCtorPtr => Some avx_int_16_2_ctor_ptr
     | MCtorRegs => Some avx_int_16_2_ctor_regs
     | MCtorSqrt => Some avx_int_16_2_ctor_sqrt
     | MCtorList => Some avx_int_16_2_ctor_list
     | MSubEq => Some avx_int_16_2_sub_eq
     | MSub => Some avx_int_16_2_sub
     | MAddEq => Some avx_int_16_2_add_eq
     | MAdd => Some avx_int_16_2_add
     | MMulEq => Some avx_int_16_2_mul_eq
     | MMul => Some avx_int_16_2_mul
     | MDivEq => Some avx_int_16_2_div_eq
     | MDiv => Some avx_int_16_2_div
     | MDivEqSqrt => Some avx_int_16_2_div_eq_sqrt
     | MDivSqrt => Some avx_int_16_2_div_sqrt
     | MSqrt => Some avx_int_16_2_sqrt
     | MLoad => Some avx_int_16_2_load
     | MLoadAligned => Some avx_int_16_2_load_aligned
     | MStore => Some avx_int_16_2_store
     | MStoreAligned => Some avx_int_16_2_store_aligned
     | MStoreNt => Some avx_int_16_2_store_nt
     | MGather => Some avx_int_16_2_gather
     | MScatter => Some avx_int_16_2_scatter
     | _ => None
     end)
    avx_int_16_2_ctor_regs avx_int_16_2_print.

(* short_vec_avx_int_32.hpp:63-69 with __AVX2__ *)
Definition avx_int_32_2_ctor_scalar : body :=
  [SSet (LVal (EInt 0)) (ECall _mm256_set1_epi32 [EArg]);
   SSet (LVal (EInt 1)) (ECall _mm256_set1_epi32 [EArg]);
   SSet (LVal (EInt 2)) (ECall _mm256_set1_epi32 [EArg]);
   SSet (LVal (EInt 3)) (ECall _mm256_set1_epi32 [EArg])].

(* short_vec_avx_int_32.hpp:71-75 with __AVX2__ *)
Definition avx_int_32_2_ctor_ptr : body :=
  [SSet (LVal (EInt 0)) (ECall _mm256_loadu_si256 [dat 0]);
   SSet (LVal (EInt 1)) (ECall _mm256_loadu_si256 [dat 8]);
   SSet (LVal (EInt 2)) (ECall _mm256_loadu_si256 [dat 16]);
   SSet (LVal (EInt 3)) (ECall _mm256_loadu_si256 [dat 24])].

(* short_vec_avx_int_32.hpp:77-87 with __AVX2__ *)
Definition avx_int_32_2_ctor_regs : body :=
  [SSet (LVal (EInt 0)) (EPar 0);
   SSet (LVal (EInt 1)) (EPar 1);
   SSet (LVal (EInt 2)) (EPar 2);
   SSet (LVal (EInt 3)) (EPar 3)].

(* short_vec_avx_int_32.hpp:90-95 with __AVX2__ *)
Definition avx_int_32_2_ctor_list : body :=
  [SSet (LVal (EInt 0)) (ECall _mm256_loadu_si256 [dat 0]);
   SSet (LVal (EInt 1)) (ECall _mm256_loadu_si256 [dat 8]);
   SSet (LVal (EInt 2)) (ECall _mm256_loadu_si256 [dat 16]);
   SSet (LVal (EInt 3)) (ECall _mm256_loadu_si256 [dat 24])].

(* short_vec_avx_int_32.hpp:101-108 with __AVX2__ *)
Definition avx_int_32_2_sub_eq : body :=
  [SSet (LVal (EInt 0)) (ECall _mm256_sub_epi32 [vv 0; oo 0]);
   SSet (LVal (EInt 1)) (ECall _mm256_sub_epi32 [vv 1; oo 1]);
   SSet (LVal (EInt 2)) (ECall _mm256_sub_epi32 [vv 2; oo 2]);
   SSet (LVal (EInt 3)) (ECall _mm256_sub_epi32 [vv 3; oo 3])].

(* short_vec_avx_int_32.hpp:110-118 with __AVX2__ *)
Definition avx_int_32_2_sub : body :=
  [SRetVec [(ECall _mm256_sub_epi32 [vv 0; oo 0]); (ECall _mm256_sub_epi32 [vv 1; oo 1]); (ECall
    _mm256_sub_epi32 [vv 2; oo 2]); (ECall _mm256_sub_epi32 [vv 3; oo 3])]].

(* short_vec_avx_int_32.hpp:120-127 with __AVX2__ *)
Definition avx_int_32_2_add_eq : body :=
  [SSet (LVal (EInt 0)) (ECall _mm256_add_epi32 [vv 0; oo 0]);
   SSet (LVal (EInt 1)) (ECall _mm256_add_epi32 [vv 1; oo 1]);
   SSet (LVal (EInt 2)) (ECall _mm256_add_epi32 [vv 2; oo 2]);
   SSet (LVal (EInt 3)) (ECall _mm256_add_epi32 [vv 3; oo 3])].

(* short_vec_avx_int_32.hpp:129-137 with __AVX2__ *)
Definition avx_int_32_2_add : body :=
  [SRetVec [(ECall _mm256_add_epi32 [vv 0; oo 0]); (ECall _mm256_add_epi32 [vv 1; oo 1]); (ECall
    _mm256_add_epi32 [vv 2; oo 2]); (ECall _mm256_add_epi32 [vv 3; oo 3])]].

(* short_vec_avx_int_32.hpp:139-146 with __AVX2__ *)
Definition avx_int_32_2_mul_eq : body :=
  [SSet (LVal (EInt 0)) (ECall _mm256_mullo_epi32 [vv 0; oo 0]);
   SSet (LVal (EInt 1)) (ECall _mm256_mullo_epi32 [vv 1; oo 1]);
   SSet (LVal (EInt 2)) (ECall _mm256_mullo_epi32 [vv 2; oo 2]);
   SSet (LVal (EInt 3)) (ECall _mm256_mullo_epi32 [vv 3; oo 3])].

(* short_vec_avx_int_32.hpp:148-156 with __AVX2__ *)
Definition avx_int_32_2_mul : body :=
  [SRetVec [(ECall _mm256_mullo_epi32 [vv 0; oo 0]); (ECall _mm256_mullo_epi32 [vv 1; oo 1]);
    (ECall _mm256_mullo_epi32 [vv 2; oo 2]); (ECall _mm256_mullo_epi32 [vv 3; oo 3])]].

(* short_vec_avx_int_32.hpp:158-169 with __AVX2__ *)
Definition avx_int_32_2_div_eq : body :=
  [SSet (LVal (EInt 0)) (ECall _mm256_cvtps_epi32 [(ECall _mm256_div_ps [(ECall _mm256_cvtepi32_ps
    [vv 0]); (ECall _mm256_cvtepi32_ps [oo 0])])]);
   SSet (LVal (EInt 1)) (ECall _mm256_cvtps_epi32 [(ECall _mm256_div_ps [(ECall _mm256_cvtepi32_ps
    [vv 1]); (ECall _mm256_cvtepi32_ps [oo 1])])]);
   SSet (LVal (EInt 2)) (ECall _mm256_cvtps_epi32 [(ECall _mm256_div_ps [(ECall _mm256_cvtepi32_ps
    [vv 2]); (ECall _mm256_cvtepi32_ps [oo 2])])]);
   SSet (LVal (EInt 3)) (ECall _mm256_cvtps_epi32 [(ECall _mm256_div_ps [(ECall _mm256_cvtepi32_ps
    [vv 3]); (ECall _mm256_cvtepi32_ps [oo 3])])])].

(* short_vec_avx_int_32.hpp:174-190 with __AVX2__ *)
Definition avx_int_32_2_div : body :=
  [SRetVec [(ECall _mm256_cvttps_epi32 [(ECall _mm256_div_ps [(ECall _mm256_cvtepi32_ps [vv 0]);
    (ECall _mm256_cvtepi32_ps [oo 0])])]); (ECall _mm256_cvttps_epi32 [(ECall _mm256_div_ps [(ECall
    _mm256_cvtepi32_ps [vv 1]); (ECall _mm256_cvtepi32_ps [oo 1])])]); (ECall _mm256_cvttps_epi32
    [(ECall _mm256_div_ps [(ECall _mm256_cvtepi32_ps [vv 2]); (ECall _mm256_cvtepi32_ps [oo 2])])]);
    (ECall _mm256_cvttps_epi32 [(ECall _mm256_div_ps [(ECall _mm256_cvtepi32_ps [vv 3]); (ECall
    _mm256_cvtepi32_ps [oo 3])])])]].

(* short_vec_avx_int_32.hpp:195-207 with __AVX2__ *)
Definition avx_int_32_2_sqrt : body :=
  [SRetVec [(ECall _mm256_cvtps_epi32 [(ECall _mm256_sqrt_ps [(ECall _mm256_cvtepi32_ps [vv
    0])])]); (ECall _mm256_cvtps_epi32 [(ECall _mm256_sqrt_ps [(ECall _mm256_cvtepi32_ps [vv
    1])])]); (ECall _mm256_cvtps_epi32 [(ECall _mm256_sqrt_ps [(ECall _mm256_cvtepi32_ps [vv
    2])])]); (ECall _mm256_cvtps_epi32 [(ECall _mm256_sqrt_ps [(ECall _mm256_cvtepi32_ps [vv
    3])])])]].

(* short_vec_avx_int_32.hpp:209-216 with __AVX2__ *)
Definition avx_int_32_2_load : body :=
  [SSet (LVal (EInt 0)) (ECall _mm256_loadu_si256 [dat 0]);
   SSet (LVal (EInt 1)) (ECall _mm256_loadu_si256 [dat 8]);
   SSet (LVal (EInt 2)) (ECall _mm256_loadu_si256 [dat 16]);
   SSet (LVal (EInt 3)) (ECall _mm256_loadu_si256 [dat 24])].

(* short_vec_avx_int_32.hpp:218-226 with __AVX2__ *)
Definition avx_int_32_2_load_aligned : body :=
  [SAssertAligned EData 32;
   SSet (LVal (EInt 0)) (ECall _mm256_load_si256 [dat 0]);
   SSet (LVal (EInt 1)) (ECall _mm256_load_si256 [dat 8]);
   SSet (LVal (EInt 2)) (ECall _mm256_load_si256 [dat 16]);
   SSet (LVal (EInt 3)) (ECall _mm256_load_si256 [dat 24])].

(* short_vec_avx_int_32.hpp:228-235 with __AVX2__ *)
Definition avx_int_32_2_store : body :=
  [SDo (ECall _mm256_storeu_si256 [dat 0; vv 0]);
   SDo (ECall _mm256_storeu_si256 [dat 8; vv 1]);
   SDo (ECall _mm256_storeu_si256 [dat 16; vv 2]);
   SDo (ECall _mm256_storeu_si256 [dat 24; vv 3])].

(* short_vec_avx_int_32.hpp:237-245 with __AVX2__ *)
Definition avx_int_32_2_store_aligned : body :=
  [SAssertAligned EData 32;
   SDo (ECall _mm256_store_si256 [dat 0; vv 0]);
   SDo (ECall _mm256_store_si256 [dat 8; vv 1]);
   SDo (ECall _mm256_store_si256 [dat 16; vv 2]);
   SDo (ECall _mm256_store_si256 [dat 24; vv 3])].

(* short_vec_avx_int_32.hpp:247-255 with __AVX2__ *)
Definition avx_int_32_2_store_nt : body :=
  [SAssertAligned EData 32;
   SDo (ECall _mm256_stream_si256 [dat 0; vv 0]);
   SDo (ECall _mm256_stream_si256 [dat 8; vv 1]);
   SDo (ECall _mm256_stream_si256 [dat 16; vv 2]);
   SDo (ECall _mm256_stream_si256 [dat 24; vv 3])].

(* short_vec_avx_int_32.hpp:257-268 with __AVX2__ *)
Definition avx_int_32_2_gather : body :=
  [SSet (LVar "indices1") (ECall _mm256_loadu_si256 [(ECop OAdd EOff (EInt 0))]);
   SSet (LVar "indices2") (ECall _mm256_loadu_si256 [(ECop OAdd EOff (EInt 8))]);
   SSet (LVar "indices3") (ECall _mm256_loadu_si256 [(ECop OAdd EOff (EInt 16))]);
   SSet (LVar "indices4") (ECall _mm256_loadu_si256 [(ECop OAdd EOff (EInt 24))]);
   SSet (LVal (EInt 0)) (ECall _mm256_i32gather_epi32 [EPtr; (EVar "indices1"); EInt 4]);
   SSet (LVal (EInt 1)) (ECall _mm256_i32gather_epi32 [EPtr; (EVar "indices2"); EInt 4]);
   SSet (LVal (EInt 2)) (ECall _mm256_i32gather_epi32 [EPtr; (EVar "indices3"); EInt 4]);
   SSet (LVal (EInt 3)) (ECall _mm256_i32gather_epi32 [EPtr; (EVar "indices4"); EInt 4])].

(* short_vec_avx_int_32.hpp:270-305 with __AVX2__ *)
Definition avx_int_32_2_scatter : body :=
  [SSet (LMem (pto 0)) (ECall _mm256_extract_epi32 [vv 0; EInt 0]);
   SSet (LMem (pto 1)) (ECall _mm256_extract_epi32 [vv 0; EInt 1]);
   SSet (LMem (pto 2)) (ECall _mm256_extract_epi32 [vv 0; EInt 2]);
   SSet (LMem (pto 3)) (ECall _mm256_extract_epi32 [vv 0; EInt 3]);
   SSet (LMem (pto 4)) (ECall _mm256_extract_epi32 [vv 0; EInt 4]);
   SSet (LMem (pto 5)) (ECall _mm256_extract_epi32 [vv 0; EInt 5]);
   SSet (LMem (pto 6)) (ECall _mm256_extract_epi32 [vv 0; EInt 6]);
   SSet (LMem (pto 7)) (ECall _mm256_extract_epi32 [vv 0; EInt 7]);
   SSet (LMem (pto 8)) (ECall _mm256_extract_epi32 [vv 1; EInt 0]);
   SSet (LMem (pto 9)) (ECall _mm256_extract_epi32 [vv 1; EInt 1]);
   SSet (LMem (pto 10)) (ECall _mm256_extract_epi32 [vv 1; EInt 2]);
   SSet (LMem (pto 11)) (ECall _mm256_extract_epi32 [vv 1; EInt 3]);
   SSet (LMem (pto 12)) (ECall _mm256_extract_epi32 [vv 1; EInt 4]);
   SSet (LMem (pto 13)) (ECall _mm256_extract_epi32 [vv 1; EInt 5]);
   SSet (LMem (pto 14)) (ECall _mm256_extract_epi32 [vv 1; EInt 6]);
   SSet (LMem (pto 15)) (ECall _mm256_extract_epi32 [vv 1; EInt 7]);
   SSet (LMem (pto 16)) (ECall _mm256_extract_epi32 [vv 2; EInt 0]);
   SSet (LMem (pto 17)) (ECall _mm256_extract_epi32 [vv 2; EInt 1]);
   SSet (LMem (pto 18)) (ECall _mm256_extract_epi32 [vv 2; EInt 2]);
   SSet (LMem (pto 19)) (ECall _mm256_extract_epi32 [vv 2; EInt 3]);
   SSet (LMem (pto 20)) (ECall _mm256_extract_epi32 [vv 2; EInt 4]);
   SSet (LMem (pto 21)) (ECall _mm256_extract_epi32 [vv 2; EInt 5]);
   SSet (LMem (pto 22)) (ECall _mm256_extract_epi32 [vv 2; EInt 6]);
   SSet (LMem (pto 23)) (ECall _mm256_extract_epi32 [vv 2; EInt 7]);
   SSet (LMem (pto 24)) (ECall _mm256_extract_epi32 [vv 3; EInt 0]);
   SSet (LMem (pto 25)) (ECall _mm256_extract_epi32 [vv 3; EInt 1]);
   SSet (LMem (pto 26)) (ECall _mm256_extract_epi32 [vv 3; EInt 2]);
   SSet (LMem (pto 27)) (ECall _mm256_extract_epi32 [vv 3; EInt 3]);
   SSet (LMem (pto 28)) (ECall _mm256_extract_epi32 [vv 3; EInt 4]);
   SSet (LMem (pto 29)) (ECall _mm256_extract_epi32 [vv 3; EInt 5]);
   SSet (LMem (pto 30)) (ECall _mm256_extract_epi32 [vv 3; EInt 6]);
   SSet (LMem (pto 31)) (ECall _mm256_extract_epi32 [vv 3; EInt 7])].

(* short_vec_avx_int_32.hpp:337-347 with __AVX2__ *)
Definition avx_int_32_2_ctor_sqrt : body :=
  [SSet (LVal (EInt 0)) (ECall _mm256_cvtps_epi32 [(ECall _mm256_sqrt_ps [(ECall _mm256_cvtepi32_ps
    [oo 0])])]);
   SSet (LVal (EInt 1)) (ECall _mm256_cvtps_epi32 [(ECall _mm256_sqrt_ps [(ECall _mm256_cvtepi32_ps
    [oo 1])])]);
   SSet (LVal (EInt 2)) (ECall _mm256_cvtps_epi32 [(ECall _mm256_sqrt_ps [(ECall _mm256_cvtepi32_ps
    [oo 2])])]);
   SSet (LVal (EInt 3)) (ECall _mm256_cvtps_epi32 [(ECall _mm256_sqrt_ps [(ECall _mm256_cvtepi32_ps
    [oo 3])])])].

(* short_vec_avx_int_32.hpp:350-364 with __AVX2__ *)
Definition avx_int_32_2_div_eq_sqrt : body :=
  [SSet (LVal (EInt 0)) (ECall _mm256_cvtps_epi32 [(ECall _mm256_mul_ps [(ECall _mm256_cvtepi32_ps
    [vv 0]); (ECall _mm256_rsqrt_ps [(ECall _mm256_cvtepi32_ps [oo 0])])])]);
   SSet (LVal (EInt 1)) (ECall _mm256_cvtps_epi32 [(ECall _mm256_mul_ps [(ECall _mm256_cvtepi32_ps
    [vv 1]); (ECall _mm256_rsqrt_ps [(ECall _mm256_cvtepi32_ps [oo 1])])])]);
   SSet (LVal (EInt 2)) (ECall _mm256_cvtps_epi32 [(ECall _mm256_mul_ps [(ECall _mm256_cvtepi32_ps
    [vv 2]); (ECall _mm256_rsqrt_ps [(ECall _mm256_cvtepi32_ps [oo 2])])])]);
   SSet (LVal (EInt 3)) (ECall _mm256_cvtps_epi32 [(ECall _mm256_mul_ps [(ECall _mm256_cvtepi32_ps
    [vv 3]); (ECall _mm256_rsqrt_ps [(ECall _mm256_cvtepi32_ps [oo 3])])])])].

(* short_vec_avx_int_32.hpp:367-382 with __AVX2__ *)
Definition avx_int_32_2_div_sqrt : body :=
  [SRetVec [(ECall _mm256_cvtps_epi32 [(ECall _mm256_mul_ps [(ECall _mm256_cvtepi32_ps [vv 0]);
    (ECall _mm256_rsqrt_ps [(ECall _mm256_cvtepi32_ps [oo 0])])])]); (ECall _mm256_cvtps_epi32
    [(ECall _mm256_mul_ps [(ECall _mm256_cvtepi32_ps [vv 1]); (ECall _mm256_rsqrt_ps [(ECall
    _mm256_cvtepi32_ps [oo 1])])])]); (ECall _mm256_cvtps_epi32 [(ECall _mm256_mul_ps [(ECall
    _mm256_cvtepi32_ps [vv 2]); (ECall _mm256_rsqrt_ps [(ECall _mm256_cvtepi32_ps [oo 2])])])]);
    (ECall _mm256_cvtps_epi32 [(ECall _mm256_mul_ps [(ECall _mm256_cvtepi32_ps [vv 3]); (ECall
    _mm256_rsqrt_ps [(ECall _mm256_cvtepi32_ps [oo 3])])])])]].

(* short_vec_avx_int_32.hpp:394-409 with __AVX2__ *)
Definition avx_int_32_2_print : list item :=
  [PStr "["; PVal (EIdx (vv 0) (EInt 0)); PStr ", "; PVal (EIdx (vv 0) (EInt 1)); PStr ", "; PVal
   (EIdx (vv 0) (EInt 2)); PStr ", "; PVal (EIdx (vv 0) (EInt 3)); PStr ", "; PVal (EIdx (vv 0)
   (EInt 4)); PStr ", "; PVal (EIdx (vv 0) (EInt 5)); PStr ", "; PVal (EIdx (vv 0) (EInt 6)); PStr
   ", "; PVal (EIdx (vv 0) (EInt 7)); PStr ", "; PVal (EIdx (vv 1) (EInt 0)); PStr ", "; PVal (EIdx
   (vv 1) (EInt 1)); PStr ", "; PVal (EIdx (vv 1) (EInt 2)); PStr ", "; PVal (EIdx (vv 1) (EInt
   3)); PStr ", "; PVal (EIdx (vv 1) (EInt 4)); PStr ", "; PVal (EIdx (vv 1) (EInt 5)); PStr ", ";
   PVal (EIdx (vv 1) (EInt 6)); PStr ", "; PVal (EIdx (vv 1) (EInt 7)); PStr ", "; PVal (EIdx (vv
   2) (EInt 0)); PStr ", "; PVal (EIdx (vv 2) (EInt 1)); PStr ", "; PVal (EIdx (vv 2) (EInt 2));
   PStr ", "; PVal (EIdx (vv 2) (EInt 3)); PStr ", "; PVal (EIdx (vv 2) (EInt 4)); PStr ", "; PVal
   (EIdx (vv 2) (EInt 5)); PStr ", "; PVal (EIdx (vv 2) (EInt 6)); PStr ", "; PVal (EIdx (vv 2)
   (EInt 7)); PStr ", "; PVal (EIdx (vv 3) (EInt 0)); PStr ", "; PVal (EIdx (vv 3) (EInt 1)); PStr
   ", "; PVal (EIdx (vv 3) (EInt 2)); PStr ", "; PVal (EIdx (vv 3) (EInt 3)); PStr ", "; PVal (EIdx
   (vv 3) (EInt 4)); PStr ", "; PVal (EIdx (vv 3) (EInt 5)); PStr ", "; PVal (EIdx (vv 3) (EInt
   6)); PStr ", "; PVal (EIdx (vv 3) (EInt 7)); PStr "]"].

(* short_vec_avx_int_32.hpp with __AVX2__ *)
Definition cls_avx_int_32_2 : cls :=
  mkCls "avx_int_32_2" KI32 32 4 8 32 MNone
    (fun m => match m with
     | MCtorScalar => Some avx_int_32_2_ctor_scalar
     | MCtorPtr => Some avx_int_32_2_ctor_ptr
     | MCtorRegs => Some avx_int_32_2_ctor_regs
     | MCtorSqrt => Some avx_int_32_2_ctor_sqrt
     | MCtorList => Some avx_int_32_2_ctor_list
     | MSubEq => Some avx_int_32_2_sub_eq
     | MSub => Some avx_int_32_2_sub
     | MAddEq => Some avx_int_32_2_add_eq
     | MAdd => Some avx_int_32_2_add
     | MMulEq => Some avx_int_32_2_mul_eq
     | MMul => Some avx_int_32_2_mul
     | MDivEq => Some avx_int_32_2_div_eq
     | MDiv => Some avx_int_32_2_div
     | MDivEqSqrt => Some avx_int_32_2_div_eq_sqrt
     | MDivSqrt => Some avx_int_32_2_div_sqrt
     | MSqrt => Some avx_int_32_2_sqrt
     | MLoad => Some avx_int_32_2_load
     | MLoadAligned => Some avx_int_32_2_load_aligned
     | MStore => Some avx_int_32_2_store
     | MStoreAligned => Some avx_int_32_2_store_aligned
     | MStoreNt => Some avx_int_32_2_store_nt
     | MGather => Some avx_int_32_2_gather
     | MScatter => Some avx_int_32_2_scatter
     | _ => None
     end)
    avx_int_32_2_ctor_regs avx_int_32_2_print.

Definition avx_classes : list cls :=
  [cls_avx_double_4; cls_avx_double_4_2; cls_avx_double_8; cls_avx_double_8_2; cls_avx_double_16;
   cls_avx_double_16_2; cls_avx_double_32; cls_avx_double_32_2; cls_avx_float_8; cls_avx_float_8_2;
   cls_avx_float_16; cls_avx_float_16_2; cls_avx_float_32; cls_avx_float_32_2; cls_avx_int_8_2;
   cls_avx_int_16_2; cls_avx_int_32_2].
