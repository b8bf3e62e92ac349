(** The member functions of the short_vec classes in
    /repo/include/libflatarray/detail/short_vec_avx512_*.hpp, call by call, in the
    language of ShortVecLang.v.  Each definition cites the lines it was
    transliterated from.  Calls of load() and store() are expanded. *)
From Coq Require Import String ZArith List.
From Verif Require Import ShortVecLang ShortVecClass.
Import ListNotations.
Local Open Scope Z_scope.
Local Open Scope string_scope.

(* short_vec_avx512_double_8.hpp:59-62 *)
Definition avx512_double_8_ctor_scalar : body :=
  [SSet (LVal (EInt 0)) (ECall _mm512_set1_pd [EArg])].

(* short_vec_avx512_double_8.hpp:64-68 *)
Definition avx512_double_8_ctor_ptr : body :=
  [SSet (LVal (EInt 0)) (ECall _mm512_loadu_pd [EData])].

(* short_vec_avx512_double_8.hpp:70-73 *)
Definition avx512_double_8_ctor_regs : body :=
  [SSet (LVal (EInt 0)) (EPar 0)].

(* short_vec_avx512_double_8.hpp:76-81 *)
Definition avx512_double_8_ctor_list : body :=
  [SSet (LVal (EInt 0)) (ECall _mm512_loadu_pd [EData])].

(* short_vec_avx512_double_8.hpp:84-90 *)
Definition avx512_double_8_any : body :=
  [SRet (EBool (ECall _mm512_test_epi64_mask [(ECall _mm512_castpd_si512 [vv 0]); (ECall
    _mm512_castpd_si512 [vv 0])]))].

(* short_vec_avx512_double_8.hpp:92-118 *)
Definition avx512_double_8_index : body :=
  [SDecl "buf0" 2;
   SIf (ECop (ORel RLt) (EVar "i") (EInt 4)) [SIf (ECop (ORel RLt) (EVar "i") (EInt 2)) [SSet (LVar
    "buf0") (ECall _mm512_extractf64x2_pd [vv 0; EInt 0])] [SSet (LVar "buf0") (ECall
    _mm512_extractf64x2_pd [vv 0; EInt 1])]] [SIf (ECop (ORel RLt) (EVar "i") (EInt 6)) [SSet (LVar
    "buf0") (ECall _mm512_extractf64x2_pd [vv 0; EInt 2])] [SSet (LVar "buf0") (ECall
    _mm512_extractf64x2_pd [vv 0; EInt 3])]];
   SUpd OBitAnd (LVar "i") (EInt 1);
   SIf (ECop (ORel REq) (EVar "i") (EInt 0)) [SRet (ECall _mm_cvtsd_f64 [(EVar "buf0")])] [];
   SSet (LVar "buf0") (ECall _mm_shuffle_pd [(EVar "buf0"); (EVar "buf0"); EInt 1]);
   SRet (ECall _mm_cvtsd_f64 [(EVar "buf0")])].

(* short_vec_avx512_double_8.hpp:120-124 *)
Definition avx512_double_8_sub_eq : body :=
  [SSet (LVal (EInt 0)) (ECall _mm512_sub_pd [vv 0; oo 0])].

(* short_vec_avx512_double_8.hpp:126-131 *)
Definition avx512_double_8_sub : body :=
  [SRetVec [(ECall _mm512_sub_pd [vv 0; oo 0])]].

(* short_vec_avx512_double_8.hpp:133-137 *)
Definition avx512_double_8_add_eq : body :=
  [SSet (LVal (EInt 0)) (ECall _mm512_add_pd [vv 0; oo 0])].

(* short_vec_avx512_double_8.hpp:139-144 *)
Definition avx512_double_8_add : body :=
  [SRetVec [(ECall _mm512_add_pd [vv 0; oo 0])]].

(* short_vec_avx512_double_8.hpp:146-150 *)
Definition avx512_double_8_mul_eq : body :=
  [SSet (LVal (EInt 0)) (ECall _mm512_mul_pd [vv 0; oo 0])].

(* short_vec_avx512_double_8.hpp:152-157 *)
Definition avx512_double_8_mul : body :=
  [SRetVec [(ECall _mm512_mul_pd [vv 0; oo 0])]].

(* short_vec_avx512_double_8.hpp:159-163 *)
Definition avx512_double_8_div_eq : body :=
  [SSet (LVal (EInt 0)) (ECall _mm512_div_pd [vv 0; oo 0])].

(* short_vec_avx512_double_8.hpp:165-170 *)
Definition avx512_double_8_div : body :=
  [SRetVec [(ECall _mm512_div_pd [vv 0; oo 0])]].

(* short_vec_avx512_double_8.hpp:172-177 *)
Definition avx512_double_8_lt : body :=
  [SRet (ECop OShl (ECall _mm512_cmp_pd_mask [vv 0; oo 0; (EInt _CMP_LT_OS)]) (EInt 0))].

(* short_vec_avx512_double_8.hpp:179-184 *)
Definition avx512_double_8_le : body :=
  [SRet (ECop OShl (ECall _mm512_cmp_pd_mask [vv 0; oo 0; (EInt _CMP_LE_OS)]) (EInt 0))].

(* short_vec_avx512_double_8.hpp:186-191 *)
Definition avx512_double_8_eq : body :=
  [SRet (ECop OShl (ECall _mm512_cmp_pd_mask [vv 0; oo 0; (EInt _CMP_EQ_OQ)]) (EInt 0))].

(* short_vec_avx512_double_8.hpp:193-198 *)
Definition avx512_double_8_gt : body :=
  [SRet (ECop OShl (ECall _mm512_cmp_pd_mask [vv 0; oo 0; (EInt _CMP_GT_OS)]) (EInt 0))].

(* short_vec_avx512_double_8.hpp:200-205 *)
Definition avx512_double_8_ge : body :=
  [SRet (ECop OShl (ECall _mm512_cmp_pd_mask [vv 0; oo 0; (EInt _CMP_GE_OS)]) (EInt 0))].

(* short_vec_avx512_double_8.hpp:207-212 *)
Definition avx512_double_8_sqrt : body :=
  [SRetVec [(ECall _mm512_sqrt_pd [vv 0])]].

(* short_vec_avx512_double_8.hpp:214-218 *)
Definition avx512_double_8_load : body :=
  [SSet (LVal (EInt 0)) (ECall _mm512_loadu_pd [EData])].

(* short_vec_avx512_double_8.hpp:220-225 *)
Definition avx512_double_8_load_aligned : body :=
  [SAssertAligned EData 64;
   SSet (LVal (EInt 0)) (ECall _mm512_load_pd [EData])].

(* short_vec_avx512_double_8.hpp:227-231 *)
Definition avx512_double_8_store : body :=
  [SDo (ECall _mm512_storeu_pd [EData; vv 0])].

(* short_vec_avx512_double_8.hpp:233-238 *)
Definition avx512_double_8_store_aligned : body :=
  [SAssertAligned EData 64;
   SDo (ECall _mm512_store_pd [EData; vv 0])].

(* short_vec_avx512_double_8.hpp:240-245 *)
Definition avx512_double_8_store_nt : body :=
  [SAssertAligned EData 64;
   SDo (ECall _mm512_stream_pd [EData; vv 0])].

(* short_vec_avx512_double_8.hpp:247-253 *)
Definition avx512_double_8_gather : body :=
  [SDecl "indices" 8;
   SSet (LVar "indices") (ECall _mm256_loadu_si256 [EOff]);
   SSet (LVal (EInt 0)) (ECall _mm512_i32gather_pd [(EVar "indices"); EPtr; EInt 8])].

(* short_vec_avx512_double_8.hpp:255-261 *)
Definition avx512_double_8_scatter : body :=
  [SDecl "indices" 8;
   SSet (LVar "indices") (ECall _mm256_loadu_si256 [EOff]);
   SDo (ECall _mm512_i32scatter_pd [EPtr; (EVar "indices"); vv 0; EInt 8])].

(* short_vec_avx512_double_8.hpp:263-267 *)
Definition avx512_double_8_blend : body :=
  [SSet (LVal (EInt 0)) (ECall _mm512_mask_blend_pd [(ECop OShr EMaskInt (EInt 0)); vv 0; oo 0])].

(* short_vec_avx512_double_8.hpp:293-300 *)
Definition avx512_double_8_print : list item :=
  [PStr "["; PVal (EIdx (vv 0) (EInt 0)); PStr ", "; PVal (EIdx (vv 0) (EInt 1)); PStr ", "; PVal
   (EIdx (vv 0) (EInt 2)); PStr ", "; PVal (EIdx (vv 0) (EInt 3)); PStr ", "; PVal (EIdx (vv 0)
   (EInt 4)); PStr ", "; PVal (EIdx (vv 0) (EInt 5)); PStr ", "; PVal (EIdx (vv 0) (EInt 6)); PStr
   ", "; PVal (EIdx (vv 0) (EInt 7)); PStr "]"].

(* short_vec_avx512_double_8.hpp *)
Definition cls_avx512_double_8 : cls :=
  mkCls "avx512_double_8" KF64 8 1 8 64 (MInt 8)
    (fun m => match m with
     | MCtorScalar => Some avx512_double_8_ctor_scalar
     | MCtorPtr => Some avx512_double_8_ctor_ptr
     | MCtorRegs => Some avx512_double_8_ctor_regs
     | MCtorList => Some avx512_double_8_ctor_list
     | MAny => Some avx512_double_8_any
     | MIndex => Some avx512_double_8_index
     | MSubEq => Some avx512_double_8_sub_eq
     | MSub => Some avx512_double_8_sub
     | MAddEq => Some avx512_double_8_add_eq
     | MAdd => Some avx512_double_8_add
     | MMulEq => Some avx512_double_8_mul_eq
     | MMul => Some avx512_double_8_mul
     | MDivEq => Some avx512_double_8_div_eq
     | MDiv => Some avx512_double_8_div
     | MLt => Some avx512_double_8_lt
     | MLe => Some avx512_double_8_le
     | MEq => Some avx512_double_8_eq
     | MGt => Some avx512_double_8_gt
     | MGe => Some avx512_double_8_ge
     | MSqrt => Some avx512_double_8_sqrt
     | MLoad => Some avx512_double_8_load
     | MLoadAligned => Some avx512_double_8_load_aligned
     | MStore => Some avx512_double_8_store
     | MStoreAligned => Some avx512_double_8_store_aligned
     | MStoreNt => Some avx512_double_8_store_nt
     | MGather => Some avx512_double_8_gather
     | MScatter => Some avx512_double_8_scatter
     | MBlend => Some avx512_double_8_blend
     | _ => None
     end)
    avx512_double_8_ctor_regs avx512_double_8_print.

(* short_vec_avx512_double_16.hpp:61-65 *)
Definition avx512_double_16_ctor_scalar : body :=
  [SSet (LVal (EInt 0)) (ECall _mm512_set1_pd [EArg]);
   SSet (LVal (EInt 1)) (ECall _mm512_set1_pd [EArg])].

(* short_vec_avx512_double_16.hpp:67-71 *)
Definition avx512_double_16_ctor_ptr : body :=
  [SSet (LVal (EInt 0)) (ECall _mm512_loadu_pd [dat 0]);
   SSet (LVal (EInt 1)) (ECall _mm512_loadu_pd [dat 8])].

(* short_vec_avx512_double_16.hpp:73-77 *)
Definition avx512_double_16_ctor_regs : body :=
  [SSet (LVal (EInt 0)) (EPar 0);
   SSet (LVal (EInt 1)) (EPar 1)].

(* short_vec_avx512_double_16.hpp:80-85 *)
Definition avx512_double_16_ctor_list : body :=
  [SSet (LVal (EInt 0)) (ECall _mm512_loadu_pd [dat 0]);
   SSet (LVal (EInt 1)) (ECall _mm512_loadu_pd [dat 8])].

(* short_vec_avx512_double_16.hpp:88-95 *)
Definition avx512_double_16_any : body :=
  [SSet (LVar "buf0") (ECall _mm512_or_pd [vv 0; vv 1]);
   SRet (EBool (ECall _mm512_test_epi64_mask [(ECall _mm512_castpd_si512 [(EVar "buf0")]); (ECall
    _mm512_castpd_si512 [(EVar "buf0")])]))].

(* short_vec_avx512_double_16.hpp:97-126 *)
Definition avx512_double_16_index : body :=
  [SSet (LVar "buf0") (EVal (ECop OShr (EVar "i") (EInt 3)));
   SUpd OBitAnd (LVar "i") (EInt 7);
   SDecl "buf1" 2;
   SIf (ECop (ORel RLt) (EVar "i") (EInt 4)) [SIf (ECop (ORel RLt) (EVar "i") (EInt 2)) [SSet (LVar
    "buf1") (ECall _mm512_extractf64x2_pd [(EVar "buf0"); EInt 0])] [SSet (LVar "buf1") (ECall
    _mm512_extractf64x2_pd [(EVar "buf0"); EInt 1])]] [SIf (ECop (ORel RLt) (EVar "i") (EInt 6))
    [SSet (LVar "buf1") (ECall _mm512_extractf64x2_pd [(EVar "buf0"); EInt 2])] [SSet (LVar "buf1")
    (ECall _mm512_extractf64x2_pd [(EVar "buf0"); EInt 3])]];
   SUpd OBitAnd (LVar "i") (EInt 1);
   SIf (ECop (ORel REq) (EVar "i") (EInt 0)) [SRet (ECall _mm_cvtsd_f64 [(EVar "buf1")])] [];
   SSet (LVar "buf1") (ECall _mm_shuffle_pd [(EVar "buf1"); (EVar "buf1"); EInt 1]);
   SRet (ECall _mm_cvtsd_f64 [(EVar "buf1")])].

(* short_vec_avx512_double_16.hpp:128-133 *)
Definition avx512_double_16_sub_eq : body :=
  [SSet (LVal (EInt 0)) (ECall _mm512_sub_pd [vv 0; oo 0]);
   SSet (LVal (EInt 1)) (ECall _mm512_sub_pd [vv 1; oo 1])].

(* short_vec_avx512_double_16.hpp:135-141 *)
Definition avx512_double_16_sub : body :=
  [SRetVec [(ECall _mm512_sub_pd [vv 0; oo 0]); (ECall _mm512_sub_pd [vv 1; oo 1])]].

(* short_vec_avx512_double_16.hpp:143-148 *)
Definition avx512_double_16_add_eq : body :=
  [SSet (LVal (EInt 0)) (ECall _mm512_add_pd [vv 0; oo 0]);
   SSet (LVal (EInt 1)) (ECall _mm512_add_pd [vv 1; oo 1])].

(* short_vec_avx512_double_16.hpp:150-156 *)
Definition avx512_double_16_add : body :=
  [SRetVec [(ECall _mm512_add_pd [vv 0; oo 0]); (ECall _mm512_add_pd [vv 1; oo 1])]].

(* short_vec_avx512_double_16.hpp:158-163 *)
Definition avx512_double_16_mul_eq : body :=
  [SSet (LVal (EInt 0)) (ECall _mm512_mul_pd [vv 0; oo 0]);
   SSet (LVal (EInt 1)) (ECall _mm512_mul_pd [vv 1; oo 1])].

(* short_vec_avx512_double_16.hpp:165-171 *)
Definition avx512_double_16_mul : body :=
  [SRetVec [(ECall _mm512_mul_pd [vv 0; oo 0]); (ECall _mm512_mul_pd [vv 1; oo 1])]].

(* short_vec_avx512_double_16.hpp:173-178 *)
Definition avx512_double_16_div_eq : body :=
  [SSet (LVal (EInt 0)) (ECall _mm512_div_pd [vv 0; oo 0]);
   SSet (LVal (EInt 1)) (ECall _mm512_div_pd [vv 1; oo 1])].

(* short_vec_avx512_double_16.hpp:180-186 *)
Definition avx512_double_16_div : body :=
  [SRetVec [(ECall _mm512_div_pd [vv 0; oo 0]); (ECall _mm512_div_pd [vv 1; oo 1])]].

(* short_vec_avx512_double_16.hpp:188-194 *)
Definition avx512_double_16_lt : body :=
  [SRet (ECop OAdd (ECop OShl (ECall _mm512_cmp_pd_mask [vv 0; oo 0; (EInt _CMP_LT_OS)]) (EInt 0))
    (ECop OShl (ECall _mm512_cmp_pd_mask [vv 1; oo 1; (EInt _CMP_LT_OS)]) (EInt 8)))].

(* short_vec_avx512_double_16.hpp:196-202 *)
Definition avx512_double_16_le : body :=
  [SRet (ECop OAdd (ECop OShl (ECall _mm512_cmp_pd_mask [vv 0; oo 0; (EInt _CMP_LE_OS)]) (EInt 0))
    (ECop OShl (ECall _mm512_cmp_pd_mask [vv 1; oo 1; (EInt _CMP_LE_OS)]) (EInt 8)))].

(* short_vec_avx512_double_16.hpp:204-210 *)
Definition avx512_double_16_eq : body :=
  [SRet (ECop OAdd (ECop OShl (ECall _mm512_cmp_pd_mask [vv 0; oo 0; (EInt _CMP_EQ_OQ)]) (EInt 0))
    (ECop OShl (ECall _mm512_cmp_pd_mask [vv 1; oo 1; (EInt _CMP_EQ_OQ)]) (EInt 8)))].

(* short_vec_avx512_double_16.hpp:212-218 *)
Definition avx512_double_16_gt : body :=
  [SRet (ECop OAdd (ECop OShl (ECall _mm512_cmp_pd_mask [vv 0; oo 0; (EInt _CMP_GT_OS)]) (EInt 0))
    (ECop OShl (ECall _mm512_cmp_pd_mask [vv 1; oo 1; (EInt _CMP_GT_OS)]) (EInt 8)))].

(* short_vec_avx512_double_16.hpp:220-226 *)
Definition avx512_double_16_ge : body :=
  [SRet (ECop OAdd (ECop OShl (ECall _mm512_cmp_pd_mask [vv 0; oo 0; (EInt _CMP_GE_OS)]) (EInt 0))
    (ECop OShl (ECall _mm512_cmp_pd_mask [vv 1; oo 1; (EInt _CMP_GE_OS)]) (EInt 8)))].

(* short_vec_avx512_double_16.hpp:228-234 *)
Definition avx512_double_16_sqrt : body :=
  [SRetVec [(ECall _mm512_sqrt_pd [vv 0]); (ECall _mm512_sqrt_pd [vv 1])]].

(* short_vec_avx512_double_16.hpp:236-241 *)
Definition avx512_double_16_load : body :=
  [SSet (LVal (EInt 0)) (ECall _mm512_loadu_pd [dat 0]);
   SSet (LVal (EInt 1)) (ECall _mm512_loadu_pd [dat 8])].

(* short_vec_avx512_double_16.hpp:243-249 *)
Definition avx512_double_16_load_aligned : body :=
  [SAssertAligned EData 64;
   SSet (LVal (EInt 0)) (ECall _mm512_load_pd [dat 0]);
   SSet (LVal (EInt 1)) (ECall _mm512_load_pd [dat 8])].

(* short_vec_avx512_double_16.hpp:251-256 *)
Definition avx512_double_16_store : body :=
  [SDo (ECall _mm512_storeu_pd [dat 0; vv 0]);
   SDo (ECall _mm512_storeu_pd [dat 8; vv 1])].

(* short_vec_avx512_double_16.hpp:258-264 *)
Definition avx512_double_16_store_aligned : body :=
  [SAssertAligned EData 64;
   SDo (ECall _mm512_store_pd [dat 0; vv 0]);
   SDo (ECall _mm512_store_pd [dat 8; vv 1])].

(* short_vec_avx512_double_16.hpp:266-272 *)
Definition avx512_double_16_store_nt : body :=
  [SAssertAligned EData 64;
   SDo (ECall _mm512_stream_pd [dat 0; vv 0]);
   SDo (ECall _mm512_stream_pd [dat 8; vv 1])].

(* short_vec_avx512_double_16.hpp:274-282 *)
Definition avx512_double_16_gather : body :=
  [SDecl "indices" 8;
   SSet (LVar "indices") (ECall _mm256_loadu_si256 [EOff]);
   SSet (LVal (EInt 0)) (ECall _mm512_i32gather_pd [(EVar "indices"); EPtr; EInt 8]);
   SSet (LVar "indices") (ECall _mm256_loadu_si256 [(ECop OAdd EOff (EInt 8))]);
   SSet (LVal (EInt 1)) (ECall _mm512_i32gather_pd [(EVar "indices"); EPtr; EInt 8])].

(* short_vec_avx512_double_16.hpp:284-292 *)
Definition avx512_double_16_scatter : body :=
  [SDecl "indices" 8;
   SSet (LVar "indices") (ECall _mm256_loadu_si256 [EOff]);
   SDo (ECall _mm512_i32scatter_pd [EPtr; (EVar "indices"); vv 0; EInt 8]);
   SSet (LVar "indices") (ECall _mm256_loadu_si256 [(ECop OAdd EOff (EInt 8))]);
   SDo (ECall _mm512_i32scatter_pd [EPtr; (EVar "indices"); vv 1; EInt 8])].

(* short_vec_avx512_double_16.hpp:294-299 *)
Definition avx512_double_16_blend : body :=
  [SSet (LVal (EInt 0)) (ECall _mm512_mask_blend_pd [(ECop OShr EMaskInt (EInt 0)); vv 0; oo 0]);
   SSet (LVal (EInt 1)) (ECall _mm512_mask_blend_pd [(ECop OBitAnd (ECop OShr EMaskInt (EInt 8))
    (EInt 255)); vv 1; oo 1])].

(* short_vec_avx512_double_16.hpp:325-335 *)
Definition avx512_double_16_print : list item :=
  [PStr "["; PVal (EIdx (vv 0) (EInt 0)); PStr ", "; PVal (EIdx (vv 0) (EInt 1)); PStr ", "; PVal
   (EIdx (vv 0) (EInt 2)); PStr ", "; PVal (EIdx (vv 0) (EInt 3)); PStr ", "; PVal (EIdx (vv 0)
   (EInt 4)); PStr ", "; PVal (EIdx (vv 0) (EInt 5)); PStr ", "; PVal (EIdx (vv 0) (EInt 6)); PStr
   ", "; PVal (EIdx (vv 0) (EInt 7)); PStr ", "; PVal (EIdx (vv 1) (EInt 0)); PStr ", "; PVal (EIdx
   (vv 1) (EInt 1)); PStr ", "; PVal (EIdx (vv 1) (EInt 2)); PStr ", "; PVal (EIdx (vv 1) (EInt
   3)); PStr ", "; PVal (EIdx (vv 1) (EInt 4)); PStr ", "; PVal (EIdx (vv 1) (EInt 5)); PStr ", ";
   PVal (EIdx (vv 1) (EInt 6)); PStr ", "; PVal (EIdx (vv 1) (EInt 7)); PStr "]"].

(* short_vec_avx512_double_16.hpp *)
Definition cls_avx512_double_16 : cls :=
  mkCls "avx512_double_16" KF64 16 2 8 64 (MInt 16)
    (fun m => match m with
     | MCtorScalar => Some avx512_double_16_ctor_scalar
     | MCtorPtr => Some avx512_double_16_ctor_ptr
     | MCtorRegs => Some avx512_double_16_ctor_regs
     | MCtorList => Some avx512_double_16_ctor_list
     | MAny => Some avx512_double_16_any
     | MIndex => Some avx512_double_16_index
     | MSubEq => Some avx512_double_16_sub_eq
     | MSub => Some avx512_double_16_sub
     | MAddEq => Some avx512_double_16_add_eq
     | MAdd => Some avx512_double_16_add
     | MMulEq => Some avx512_double_16_mul_eq
     | MMul => Some avx512_double_16_mul
     | MDivEq => Some avx512_double_16_div_eq
     | MDiv => Some avx512_double_16_div
     | MLt => Some avx512_double_16_lt
     | MLe => Some avx512_double_16_le
     | MEq => Some avx512_double_16_eq
     | MGt => Some avx512_double_16_gt
     | MGe => Some avx512_double_16_ge
     | MSqrt => Some avx512_double_16_sqrt
     | MLoad => Some avx512_double_16_load
     | MLoadAligned => Some avx512_double_16_load_aligned
     | MStore => Some avx512_double_16_store
     | MStoreAligned => Some avx512_double_16_store_aligned
     | MStoreNt => Some avx512_double_16_store_nt
     | MGather => Some avx512_double_16_gather
     | MScatter => Some avx512_double_16_scatter
     | MBlend => Some avx512_double_16_blend
     | _ => None
     end)
    avx512_double_16_ctor_regs avx512_double_16_print.

(* short_vec_avx512_double_32.hpp:60-66 *)
Definition avx512_double_32_ctor_scalar : body :=
  [SSet (LVal (EInt 0)) (ECall _mm512_set1_pd [EArg]);
   SSet (LVal (EInt 1)) (ECall _mm512_set1_pd [EArg]);
   SSet (LVal (EInt 2)) (ECall _mm512_set1_pd [EArg]);
   SSet (LVal (EInt 3)) (ECall _mm512_set1_pd [EArg])].

(* short_vec_avx512_double_32.hpp:68-72 *)
Definition avx512_double_32_ctor_ptr : body :=
  [SSet (LVal (EInt 0)) (ECall _mm512_loadu_pd [dat 0]);
   SSet (LVal (EInt 1)) (ECall _mm512_loadu_pd [dat 8]);
   SSet (LVal (EInt 2)) (ECall _mm512_loadu_pd [dat 16]);
   SSet (LVal (EInt 3)) (ECall _mm512_loadu_pd [dat 24])].

(* short_vec_avx512_double_32.hpp:74-80 *)
Definition avx512_double_32_ctor_regs : body :=
  [SSet (LVal (EInt 0)) (EPar 0);
   SSet (LVal (EInt 1)) (EPar 1);
   SSet (LVal (EInt 2)) (EPar 2);
   SSet (LVal (EInt 3)) (EPar 3)].

(* short_vec_avx512_double_32.hpp:83-88 *)
Definition avx512_double_32_ctor_list : body :=
  [SSet (LVal (EInt 0)) (ECall _mm512_loadu_pd [dat 0]);
   SSet (LVal (EInt 1)) (ECall _mm512_loadu_pd [dat 8]);
   SSet (LVal (EInt 2)) (ECall _mm512_loadu_pd [dat 16]);
   SSet (LVal (EInt 3)) (ECall _mm512_loadu_pd [dat 24])].

(* short_vec_avx512_double_32.hpp:91-100 *)
Definition avx512_double_32_any : body :=
  [SSet (LVar "buf0") (ECall _mm512_or_pd [(ECall _mm512_or_pd [vv 0; vv 1]); (ECall _mm512_or_pd
    [vv 2; vv 3])]);
   SRet (EBool (ECall _mm512_test_epi64_mask [(ECall _mm512_castpd_si512 [(EVar "buf0")]); (ECall
    _mm512_castpd_si512 [(EVar "buf0")])]))].

(* short_vec_avx512_double_32.hpp:102-131 *)
Definition avx512_double_32_index : body :=
  [SSet (LVar "buf0") (EVal (ECop OShr (EVar "i") (EInt 3)));
   SUpd OBitAnd (LVar "i") (EInt 7);
   SDecl "buf1" 2;
   SIf (ECop (ORel RLt) (EVar "i") (EInt 4)) [SIf (ECop (ORel RLt) (EVar "i") (EInt 2)) [SSet (LVar
    "buf1") (ECall _mm512_extractf64x2_pd [(EVar "buf0"); EInt 0])] [SSet (LVar "buf1") (ECall
    _mm512_extractf64x2_pd [(EVar "buf0"); EInt 1])]] [SIf (ECop (ORel RLt) (EVar "i") (EInt 6))
    [SSet (LVar "buf1") (ECall _mm512_extractf64x2_pd [(EVar "buf0"); EInt 2])] [SSet (LVar "buf1")
    (ECall _mm512_extractf64x2_pd [(EVar "buf0"); EInt 3])]];
   SUpd OBitAnd (LVar "i") (EInt 1);
   SIf (ECop (ORel REq) (EVar "i") (EInt 0)) [SRet (ECall _mm_cvtsd_f64 [(EVar "buf1")])] [];
   SSet (LVar "buf1") (ECall _mm_shuffle_pd [(EVar "buf1"); (EVar "buf1"); EInt 1]);
   SRet (ECall _mm_cvtsd_f64 [(EVar "buf1")])].

(* short_vec_avx512_double_32.hpp:133-140 *)
Definition avx512_double_32_sub_eq : body :=
  [SSet (LVal (EInt 0)) (ECall _mm512_sub_pd [vv 0; oo 0]);
   SSet (LVal (EInt 1)) (ECall _mm512_sub_pd [vv 1; oo 1]);
   SSet (LVal (EInt 2)) (ECall _mm512_sub_pd [vv 2; oo 2]);
   SSet (LVal (EInt 3)) (ECall _mm512_sub_pd [vv 3; oo 3])].

(* short_vec_avx512_double_32.hpp:142-150 *)
Definition avx512_double_32_sub : body :=
  [SRetVec [(ECall _mm512_sub_pd [vv 0; oo 0]); (ECall _mm512_sub_pd [vv 1; oo 1]); (ECall
    _mm512_sub_pd [vv 2; oo 2]); (ECall _mm512_sub_pd [vv 3; oo 3])]].

(* short_vec_avx512_double_32.hpp:152-159 *)
Definition avx512_double_32_add_eq : body :=
  [SSet (LVal (EInt 0)) (ECall _mm512_add_pd [vv 0; oo 0]);
   SSet (LVal (EInt 1)) (ECall _mm512_add_pd [vv 1; oo 1]);
   SSet (LVal (EInt 2)) (ECall _mm512_add_pd [vv 2; oo 2]);
   SSet (LVal (EInt 3)) (ECall _mm512_add_pd [vv 3; oo 3])].

(* short_vec_avx512_double_32.hpp:161-169 *)
Definition avx512_double_32_add : body :=
  [SRetVec [(ECall _mm512_add_pd [vv 0; oo 0]); (ECall _mm512_add_pd [vv 1; oo 1]); (ECall
    _mm512_add_pd [vv 2; oo 2]); (ECall _mm512_add_pd [vv 3; oo 3])]].

(* short_vec_avx512_double_32.hpp:171-178 *)
Definition avx512_double_32_mul_eq : body :=
  [SSet (LVal (EInt 0)) (ECall _mm512_mul_pd [vv 0; oo 0]);
   SSet (LVal (EInt 1)) (ECall _mm512_mul_pd [vv 1; oo 1]);
   SSet (LVal (EInt 2)) (ECall _mm512_mul_pd [vv 2; oo 2]);
   SSet (LVal (EInt 3)) (ECall _mm512_mul_pd [vv 3; oo 3])].

(* short_vec_avx512_double_32.hpp:180-188 *)
Definition avx512_double_32_mul : body :=
  [SRetVec [(ECall _mm512_mul_pd [vv 0; oo 0]); (ECall _mm512_mul_pd [vv 1; oo 1]); (ECall
    _mm512_mul_pd [vv 2; oo 2]); (ECall _mm512_mul_pd [vv 3; oo 3])]].

(* short_vec_avx512_double_32.hpp:190-197 *)
Definition avx512_double_32_div_eq : body :=
  [SSet (LVal (EInt 0)) (ECall _mm512_div_pd [vv 0; oo 0]);
   SSet (LVal (EInt 1)) (ECall _mm512_div_pd [vv 1; oo 1]);
   SSet (LVal (EInt 2)) (ECall _mm512_div_pd [vv 2; oo 2]);
   SSet (LVal (EInt 3)) (ECall _mm512_div_pd [vv 3; oo 3])].

(* short_vec_avx512_double_32.hpp:199-207 *)
Definition avx512_double_32_div : body :=
  [SRetVec [(ECall _mm512_div_pd [vv 0; oo 0]); (ECall _mm512_div_pd [vv 1; oo 1]); (ECall
    _mm512_div_pd [vv 2; oo 2]); (ECall _mm512_div_pd [vv 3; oo 3])]].

(* short_vec_avx512_double_32.hpp:209-217 *)
Definition avx512_double_32_lt : body :=
  [SRet (ECop OAdd (ECop OAdd (ECop OAdd (ECop OShl (ECall _mm512_cmp_pd_mask [vv 0; oo 0; (EInt
    _CMP_LT_OS)]) (EInt 0)) (ECop OShl (ECall _mm512_cmp_pd_mask [vv 1; oo 1; (EInt _CMP_LT_OS)])
    (EInt 8))) (ECop OShl (ECall _mm512_cmp_pd_mask [vv 2; oo 2; (EInt _CMP_LT_OS)]) (EInt 16)))
    (ECop OShl (ECall _mm512_cmp_pd_mask [vv 3; oo 3; (EInt _CMP_LT_OS)]) (EInt 24)))].

(* short_vec_avx512_double_32.hpp:219-227 *)
Definition avx512_double_32_le : body :=
  [SRet (ECop OAdd (ECop OAdd (ECop OAdd (ECop OShl (ECall _mm512_cmp_pd_mask [vv 0; oo 0; (EInt
    _CMP_LE_OS)]) (EInt 0)) (ECop OShl (ECall _mm512_cmp_pd_mask [vv 1; oo 1; (EInt _CMP_LE_OS)])
    (EInt 8))) (ECop OShl (ECall _mm512_cmp_pd_mask [vv 2; oo 2; (EInt _CMP_LE_OS)]) (EInt 16)))
    (ECop OShl (ECall _mm512_cmp_pd_mask [vv 3; oo 3; (EInt _CMP_LE_OS)]) (EInt 24)))].

(* short_vec_avx512_double_32.hpp:229-237 *)
Definition avx512_double_32_eq : body :=
  [SRet (ECop OAdd (ECop OAdd (ECop OAdd (ECop OShl (ECall _mm512_cmp_pd_mask [vv 0; oo 0; (EInt
    _CMP_EQ_OQ)]) (EInt 0)) (ECop OShl (ECall _mm512_cmp_pd_mask [vv 1; oo 1; (EInt _CMP_EQ_OQ)])
    (EInt 8))) (ECop OShl (ECall _mm512_cmp_pd_mask [vv 2; oo 2; (EInt _CMP_EQ_OQ)]) (EInt 16)))
    (ECop OShl (ECall _mm512_cmp_pd_mask [vv 3; oo 3; (EInt _CMP_EQ_OQ)]) (EInt 24)))].

(* short_vec_avx512_double_32.hpp:239-247 *)
Definition avx512_double_32_gt : body :=
  [SRet (ECop OAdd (ECop OAdd (ECop OAdd (ECop OShl (ECall _mm512_cmp_pd_mask [vv 0; oo 0; (EInt
    _CMP_GT_OS)]) (EInt 0)) (ECop OShl (ECall _mm512_cmp_pd_mask [vv 1; oo 1; (EInt _CMP_GT_OS)])
    (EInt 8))) (ECop OShl (ECall _mm512_cmp_pd_mask [vv 2; oo 2; (EInt _CMP_GT_OS)]) (EInt 16)))
    (ECop OShl (ECall _mm512_cmp_pd_mask [vv 3; oo 3; (EInt _CMP_GT_OS)]) (EInt 24)))].

(* short_vec_avx512_double_32.hpp:249-257 *)
Definition avx512_double_32_ge : body :=
  [SRet (ECop OAdd (ECop OAdd (ECop OAdd (ECop OShl (ECall _mm512_cmp_pd_mask [vv 0; oo 0; (EInt
    _CMP_GE_OS)]) (EInt 0)) (ECop OShl (ECall _mm512_cmp_pd_mask [vv 1; oo 1; (EInt _CMP_GE_OS)])
    (EInt 8))) (ECop OShl (ECall _mm512_cmp_pd_mask [vv 2; oo 2; (EInt _CMP_GE_OS)]) (EInt 16)))
    (ECop OShl (ECall _mm512_cmp_pd_mask [vv 3; oo 3; (EInt _CMP_GE_OS)]) (EInt 24)))].

(* short_vec_avx512_double_32.hpp:259-267 *)
Definition avx512_double_32_sqrt : body :=
  [SRetVec [(ECall _mm512_sqrt_pd [vv 0]); (ECall _mm512_sqrt_pd [vv 1]); (ECall _mm512_sqrt_pd [vv
    2]); (ECall _mm512_sqrt_pd [vv 3])]].

(* short_vec_avx512_double_32.hpp:269-276 *)
Definition avx512_double_32_load : body :=
  [SSet (LVal (EInt 0)) (ECall _mm512_loadu_pd [dat 0]);
   SSet (LVal (EInt 1)) (ECall _mm512_loadu_pd [dat 8]);
   SSet (LVal (EInt 2)) (ECall _mm512_loadu_pd [dat 16]);
   SSet (LVal (EInt 3)) (ECall _mm512_loadu_pd [dat 24])].

(* short_vec_avx512_double_32.hpp:278-286 *)
Definition avx512_double_32_load_aligned : body :=
  [SAssertAligned EData 64;
   SSet (LVal (EInt 0)) (ECall _mm512_load_pd [dat 0]);
   SSet (LVal (EInt 1)) (ECall _mm512_load_pd [dat 8]);
   SSet (LVal (EInt 2)) (ECall _mm512_load_pd [dat 16]);
   SSet (LVal (EInt 3)) (ECall _mm512_load_pd [dat 24])].

(* short_vec_avx512_double_32.hpp:288-295 *)
Definition avx512_double_32_store : body :=
  [SDo (ECall _mm512_storeu_pd [dat 0; vv 0]);
   SDo (ECall _mm512_storeu_pd [dat 8; vv 1]);
   SDo (ECall _mm512_storeu_pd [dat 16; vv 2]);
   SDo (ECall _mm512_storeu_pd [dat 24; vv 3])].

(* short_vec_avx512_double_32.hpp:297-305 *)
Definition avx512_double_32_store_aligned : body :=
  [SAssertAligned EData 64;
   SDo (ECall _mm512_store_pd [dat 0; vv 0]);
   SDo (ECall _mm512_store_pd [dat 8; vv 1]);
   SDo (ECall _mm512_store_pd [dat 16; vv 2]);
   SDo (ECall _mm512_store_pd [dat 24; vv 3])].

(* short_vec_avx512_double_32.hpp:307-315 *)
Definition avx512_double_32_store_nt : body :=
  [SAssertAligned EData 64;
   SDo (ECall _mm512_stream_pd [dat 0; vv 0]);
   SDo (ECall _mm512_stream_pd [dat 8; vv 1]);
   SDo (ECall _mm512_stream_pd [dat 16; vv 2]);
   SDo (ECall _mm512_stream_pd [dat 24; vv 3])].

(* short_vec_avx512_double_32.hpp:317-329 *)
Definition avx512_double_32_gather : body :=
  [SDecl "indices" 8;
   SSet (LVar "indices") (ECall _mm256_loadu_si256 [EOff]);
   SSet (LVal (EInt 0)) (ECall _mm512_i32gather_pd [(EVar "indices"); EPtr; EInt 8]);
   SSet (LVar "indices") (ECall _mm256_loadu_si256 [(ECop OAdd EOff (EInt 8))]);
   SSet (LVal (EInt 1)) (ECall _mm512_i32gather_pd [(EVar "indices"); EPtr; EInt 8]);
   SSet (LVar "indices") (ECall _mm256_loadu_si256 [(ECop OAdd EOff (EInt 16))]);
   SSet (LVal (EInt 2)) (ECall _mm512_i32gather_pd [(EVar "indices"); EPtr; EInt 8]);
   SSet (LVar "indices") (ECall _mm256_loadu_si256 [(ECop OAdd EOff (EInt 24))]);
   SSet (LVal (EInt 3)) (ECall _mm512_i32gather_pd [(EVar "indices"); EPtr; EInt 8])].

(* short_vec_avx512_double_32.hpp:331-343 *)
Definition avx512_double_32_scatter : body :=
  [SDecl "indices" 8;
   SSet (LVar "indices") (ECall _mm256_loadu_si256 [EOff]);
   SDo (ECall _mm512_i32scatter_pd [EPtr; (EVar "indices"); vv 0; EInt 8]);
   SSet (LVar "indices") (ECall _mm256_loadu_si256 [(ECop OAdd EOff (EInt 8))]);
   SDo (ECall _mm512_i32scatter_pd [EPtr; (EVar "indices"); vv 1; EInt 8]);
   SSet (LVar "indices") (ECall _mm256_loadu_si256 [(ECop OAdd EOff (EInt 16))]);
   SDo (ECall _mm512_i32scatter_pd [EPtr; (EVar "indices"); vv 2; EInt 8]);
   SSet (LVar "indices") (ECall _mm256_loadu_si256 [(ECop OAdd EOff (EInt 24))]);
   SDo (ECall _mm512_i32scatter_pd [EPtr; (EVar "indices"); vv 3; EInt 8])].

(* short_vec_avx512_double_32.hpp:345-352 *)
Definition avx512_double_32_blend : body :=
  [SSet (LVal (EInt 0)) (ECall _mm512_mask_blend_pd [(ECop OShr EMaskInt (EInt 0)); vv 0; oo 0]);
   SSet (LVal (EInt 1)) (ECall _mm512_mask_blend_pd [(ECop OBitAnd (ECop OShr EMaskInt (EInt 8))
    (EInt 255)); vv 1; oo 1]);
   SSet (LVal (EInt 2)) (ECall _mm512_mask_blend_pd [(ECop OBitAnd (ECop OShr EMaskInt (EInt 16))
    (EInt 255)); vv 2; oo 2]);
   SSet (LVal (EInt 3)) (ECall _mm512_mask_blend_pd [(ECop OBitAnd (ECop OShr EMaskInt (EInt 24))
    (EInt 255)); vv 3; oo 3])].

(* short_vec_avx512_double_32.hpp:378-394 *)
Definition avx512_double_32_print : list item :=
  [PStr "["; PVal (EIdx (vv 0) (EInt 0)); PStr ", "; PVal (EIdx (vv 0) (EInt 1)); PStr ", "; PVal
   (EIdx (vv 0) (EInt 2)); PStr ", "; PVal (EIdx (vv 0) (EInt 3)); PStr ", "; PVal (EIdx (vv 0)
   (EInt 4)); PStr ", "; PVal (EIdx (vv 0) (EInt 5)); PStr ", "; PVal (EIdx (vv 0) (EInt 6)); PStr
   ", "; PVal (EIdx (vv 0) (EInt 7)); PStr ", "; PVal (EIdx (vv 1) (EInt 0)); PStr ", "; PVal (EIdx
   (vv 1) (EInt 1)); PStr ", "; PVal (EIdx (vv 1) (EInt 2)); PStr ", "; PVal (EIdx (vv 1) (EInt
   3)); PStr ", "; PVal (EIdx (vv 1) (EInt 4)); PStr ", "; PVal (EIdx (vv 1) (EInt 5)); PStr ", ";
   PVal (EIdx (vv 1) (EInt 6)); PStr ", "; PVal (EIdx (vv 1) (EInt 7)); PStr ", "; PVal (EIdx (vv
   2) (EInt 0)); PStr ", "; PVal (EIdx (vv 2) (EInt 1)); PStr ", "; PVal (EIdx (vv 2) (EInt 2));
   PStr ", "; PVal (EIdx (vv 2) (EInt 3)); PStr ", "; PVal (EIdx (vv 2) (EInt 4)); PStr ", "; PVal
   (EIdx (vv 2) (EInt 5)); PStr ", "; PVal (EIdx (vv 2) (EInt 6)); PStr ", "; PVal (EIdx (vv 2)
   (EInt 7)); PStr ", "; PVal (EIdx (vv 3) (EInt 0)); PStr ", "; PVal (EIdx (vv 3) (EInt 1)); PStr
   ", "; PVal (EIdx (vv 3) (EInt 2)); PStr ", "; PVal (EIdx (vv 3) (EInt 3)); PStr ", "; PVal (EIdx
   (vv 3) (EInt 4)); PStr ", "; PVal (EIdx (vv 3) (EInt 5)); PStr ", "; PVal (EIdx (vv 3) (EInt
   6)); PStr ", "; PVal (EIdx (vv 3) (EInt 7)); PStr "]"].

(* short_vec_avx512_double_32.hpp *)
Definition cls_avx512_double_32 : cls :=
  mkCls "avx512_double_32" KF64 32 4 8 64 (MInt 32)
    (fun m => match m with
     | MCtorScalar => Some avx512_double_32_ctor_scalar
     | MCtorPtr => Some avx512_double_32_ctor_ptr
     | MCtorRegs => Some avx512_double_32_ctor_regs
     | MCtorList => Some avx512_double_32_ctor_list
     | MAny => Some avx512_double_32_any
     | MIndex => Some avx512_double_32_index
     | MSubEq => Some avx512_double_32_sub_eq
     | MSub => Some avx512_double_32_sub
     | MAddEq => Some avx512_double_32_add_eq
     | MAdd => Some avx512_double_32_add
     | MMulEq => Some avx512_double_32_mul_eq
     | MMul => Some avx512_double_32_mul
     | MDivEq => Some avx512_double_32_div_eq
     | MDiv => Some avx512_double_32_div
     | MLt => Some avx512_double_32_lt
     | MLe => Some avx512_double_32_le
     | MEq => Some avx512_double_32_eq
     | MGt => Some avx512_double_32_gt
     | MGe => Some avx512_double_32_ge
     | MSqrt => Some avx512_double_32_sqrt
     | MLoad => Some avx512_double_32_load
     | MLoadAligned => Some avx512_double_32_load_aligned
     | MStore => Some avx512_double_32_store
     | MStoreAligned => Some avx512_double_32_store_aligned
     | MStoreNt => Some avx512_double_32_store_nt
     | MGather => Some avx512_double_32_gather
     | MScatter => Some avx512_double_32_scatter
     | MBlend => Some avx512_double_32_blend
     | _ => None
     end)
    avx512_double_32_ctor_regs avx512_double_32_print.

(* short_vec_avx512_float_16.hpp:62-65 *)
Definition avx512_float_16_ctor_scalar : body :=
  [SSet (LVal (EInt 0)) (ECall _mm512_set1_ps [EArg])].

(* short_vec_avx512_float_16.hpp:67-71 *)
Definition avx512_float_16_ctor_ptr : body :=
  [SSet (LVal (EInt 0)) (ECall _mm512_loadu_ps [EData])].

(* short_vec_avx512_float_16.hpp:73-76 *)
Definition avx512_float_16_ctor_regs : body :=
  [SSet (LVal (EInt 0)) (EPar 0)].

(* short_vec_avx512_float_16.hpp:79-84 *)
Definition avx512_float_16_ctor_list : body :=
  [SSet (LVal (EInt 0)) (ECall _mm512_loadu_ps [EData])].

(* short_vec_avx512_float_16.hpp:90-96 *)
Definition avx512_float_16_any : body :=
  [SRet (EBool (ECall _mm512_test_epi64_mask [(ECall _mm512_castps_si512 [vv 0]); (ECall
    _mm512_castps_si512 [vv 0])]))].

(* short_vec_avx512_float_16.hpp:98-129 *)
Definition avx512_float_16_index : body :=
  [SDecl "buf0" 4;
   SIf (ECop (ORel RLt) (EVar "i") (EInt 8)) [SIf (ECop (ORel RLt) (EVar "i") (EInt 4)) [SSet (LVar
    "buf0") (ECall _mm512_extractf32x4_ps [vv 0; EInt 0])] [SSet (LVar "buf0") (ECall
    _mm512_extractf32x4_ps [vv 0; EInt 1])]] [SIf (ECop (ORel RLt) (EVar "i") (EInt 12)) [SSet (LVar
    "buf0") (ECall _mm512_extractf32x4_ps [vv 0; EInt 2])] [SSet (LVar "buf0") (ECall
    _mm512_extractf32x4_ps [vv 0; EInt 3])]];
   SUpd OBitAnd (LVar "i") (EInt 3);
   SIf (ECop (ORel REq) (EVar "i") (EInt 3)) [SRet (ECall _mm_cvtss_f32 [(ECall _mm_shuffle_ps
    [(EVar "buf0"); (EVar "buf0"); EInt 3])])] [];
   SIf (ECop (ORel REq) (EVar "i") (EInt 2)) [SRet (ECall _mm_cvtss_f32 [(ECall _mm_shuffle_ps
    [(EVar "buf0"); (EVar "buf0"); EInt 2])])] [];
   SIf (ECop (ORel REq) (EVar "i") (EInt 1)) [SRet (ECall _mm_cvtss_f32 [(ECall _mm_shuffle_ps
    [(EVar "buf0"); (EVar "buf0"); EInt 1])])] [];
   SRet (ECall _mm_cvtss_f32 [(EVar "buf0")])].

(* short_vec_avx512_float_16.hpp:131-135 *)
Definition avx512_float_16_sub_eq : body :=
  [SSet (LVal (EInt 0)) (ECall _mm512_sub_ps [vv 0; oo 0])].

(* short_vec_avx512_float_16.hpp:137-142 *)
Definition avx512_float_16_sub : body :=
  [SRetVec [(ECall _mm512_sub_ps [vv 0; oo 0])]].

(* short_vec_avx512_float_16.hpp:144-148 *)
Definition avx512_float_16_add_eq : body :=
  [SSet (LVal (EInt 0)) (ECall _mm512_add_ps [vv 0; oo 0])].

(* short_vec_avx512_float_16.hpp:150-155 *)
Definition avx512_float_16_add : body :=
  [SRetVec [(ECall _mm512_add_ps [vv 0; oo 0])]].

(* short_vec_avx512_float_16.hpp:157-161 *)
Definition avx512_float_16_mul_eq : body :=
  [SSet (LVal (EInt 0)) (ECall _mm512_mul_ps [vv 0; oo 0])].

(* short_vec_avx512_float_16.hpp:163-168 *)
Definition avx512_float_16_mul : body :=
  [SRetVec [(ECall _mm512_mul_ps [vv 0; oo 0])]].

(* short_vec_avx512_float_16.hpp:170-174 *)
Definition avx512_float_16_div_eq : body :=
  [SSet (LVal (EInt 0)) (ECall _mm512_mul_ps [vv 0; (ECall _mm512_rcp14_ps [oo 0])])].

(* short_vec_avx512_float_16.hpp:179-184 *)
Definition avx512_float_16_div : body :=
  [SRetVec [(ECall _mm512_mul_ps [vv 0; (ECall _mm512_rcp14_ps [oo 0])])]].

(* short_vec_avx512_float_16.hpp:189-194 *)
Definition avx512_float_16_lt : body :=
  [SRet (ECop OShl (ECall _mm512_cmp_ps_mask [vv 0; oo 0; (EInt _CMP_LT_OS)]) (EInt 0))].

(* short_vec_avx512_float_16.hpp:196-201 *)
Definition avx512_float_16_le : body :=
  [SRet (ECop OShl (ECall _mm512_cmp_ps_mask [vv 0; oo 0; (EInt _CMP_LE_OS)]) (EInt 0))].

(* short_vec_avx512_float_16.hpp:203-208 *)
Definition avx512_float_16_eq : body :=
  [SRet (ECop OShl (ECall _mm512_cmp_ps_mask [vv 0; oo 0; (EInt _CMP_EQ_OQ)]) (EInt 0))].

(* short_vec_avx512_float_16.hpp:210-215 *)
Definition avx512_float_16_gt : body :=
  [SRet (ECop OShl (ECall _mm512_cmp_ps_mask [vv 0; oo 0; (EInt _CMP_GT_OS)]) (EInt 0))].

(* short_vec_avx512_float_16.hpp:217-222 *)
Definition avx512_float_16_ge : body :=
  [SRet (ECop OShl (ECall _mm512_cmp_ps_mask [vv 0; oo 0; (EInt _CMP_GE_OS)]) (EInt 0))].

(* short_vec_avx512_float_16.hpp:224-229 *)
Definition avx512_float_16_sqrt : body :=
  [SRetVec [(ECall _mm512_sqrt_ps [vv 0])]].

(* short_vec_avx512_float_16.hpp:231-235 *)
Definition avx512_float_16_load : body :=
  [SSet (LVal (EInt 0)) (ECall _mm512_loadu_ps [EData])].

(* short_vec_avx512_float_16.hpp:237-242 *)
Definition avx512_float_16_load_aligned : body :=
  [SAssertAligned EData 64;
   SSet (LVal (EInt 0)) (ECall _mm512_load_ps [EData])].

(* short_vec_avx512_float_16.hpp:244-248 *)
Definition avx512_float_16_store : body :=
  [SDo (ECall _mm512_storeu_ps [EData; vv 0])].

(* short_vec_avx512_float_16.hpp:250-255 *)
Definition avx512_float_16_store_aligned : body :=
  [SAssertAligned EData 64;
   SDo (ECall _mm512_store_ps [EData; vv 0])].

(* short_vec_avx512_float_16.hpp:257-262 *)
Definition avx512_float_16_store_nt : body :=
  [SAssertAligned EData 64;
   SDo (ECall _mm512_stream_ps [EData; vv 0])].

(* short_vec_avx512_float_16.hpp:264-271 *)
Definition avx512_float_16_gather : body :=
  [SDecl "indices" 16;
   SAssertAligned EOff 64;
   SSet (LVar "indices") (ECall _mm512_load_epi32 [EOff]);
   SSet (LVal (EInt 0)) (ECall _mm512_i32gather_ps [(EVar "indices"); EPtr; EInt 4])].

(* short_vec_avx512_float_16.hpp:273-280 *)
Definition avx512_float_16_scatter : body :=
  [SDecl "indices" 16;
   SAssertAligned EOff 64;
   SSet (LVar "indices") (ECall _mm512_load_epi32 [EOff]);
   SDo (ECall _mm512_i32scatter_ps [EPtr; (EVar "indices"); vv 0; EInt 4])].

(* short_vec_avx512_float_16.hpp:282-286 *)
Definition avx512_float_16_blend : body :=
  [SSet (LVal (EInt 0)) (ECall _mm512_mask_blend_ps [(ECop OShr EMaskInt (EInt 0)); vv 0; oo 0])].

(* short_vec_avx512_float_16.hpp:318-320 *)
Definition avx512_float_16_ctor_sqrt : body :=
  [SSet (LVal (EInt 0)) (ECall _mm512_sqrt_ps [oo 0])].

(* short_vec_avx512_float_16.hpp:323-326 *)
Definition avx512_float_16_div_eq_sqrt : body :=
  [SSet (LVal (EInt 0)) (ECall _mm512_mul_ps [vv 0; (ECall _mm512_rsqrt14_ps [oo 0])])].

(* short_vec_avx512_float_16.hpp:329-333 *)
Definition avx512_float_16_div_sqrt : body :=
  [SRetVec [(ECall _mm512_mul_ps [vv 0; (ECall _mm512_rsqrt14_ps [oo 0])])]].

(* short_vec_avx512_float_16.hpp:345-353 *)
Definition avx512_float_16_print : list item :=
  [PStr "["; PVal (EIdx (vv 0) (EInt 0)); PStr ", "; PVal (EIdx (vv 0) (EInt 1)); PStr ", "; PVal
   (EIdx (vv 0) (EInt 2)); PStr ", "; PVal (EIdx (vv 0) (EInt 3)); PStr ", "; PVal (EIdx (vv 0)
   (EInt 4)); PStr ", "; PVal (EIdx (vv 0) (EInt 5)); PStr ", "; PVal (EIdx (vv 0) (EInt 6)); PStr
   ", "; PVal (EIdx (vv 0) (EInt 7)); PStr ", "; PVal (EIdx (vv 0) (EInt 8)); PStr ", "; PVal (EIdx
   (vv 0) (EInt 9)); PStr ", "; PVal (EIdx (vv 0) (EInt 10)); PStr ", "; PVal (EIdx (vv 0) (EInt
   11)); PStr ", "; PVal (EIdx (vv 0) (EInt 12)); PStr ", "; PVal (EIdx (vv 0) (EInt 13)); PStr
   ", "; PVal (EIdx (vv 0) (EInt 14)); PStr ", "; PVal (EIdx (vv 0) (EInt 15)); PStr "]"].

(* short_vec_avx512_float_16.hpp *)
Definition cls_avx512_float_16 : cls :=
  mkCls "avx512_float_16" KF32 16 1 16 64 (MInt 16)
    (fun m => match m with
     | MCtorScalar => Some avx512_float_16_ctor_scalar
     | MCtorPtr => Some avx512_float_16_ctor_ptr
     | MCtorRegs => Some avx512_float_16_ctor_regs
     | MCtorSqrt => Some avx512_float_16_ctor_sqrt
     | MCtorList => Some avx512_float_16_ctor_list
     | MAny => Some avx512_float_16_any
     | MIndex => Some avx512_float_16_index
     | MSubEq => Some avx512_float_16_sub_eq
     | MSub => Some avx512_float_16_sub
     | MAddEq => Some avx512_float_16_add_eq
     | MAdd => Some avx512_float_16_add
     | MMulEq => Some avx512_float_16_mul_eq
     | MMul => Some avx512_float_16_mul
     | MDivEq => Some avx512_float_16_div_eq
     | MDiv => Some avx512_float_16_div
     | MDivEqSqrt => Some avx512_float_16_div_eq_sqrt
     | MDivSqrt => Some avx512_float_16_div_sqrt
     | MLt => Some avx512_float_16_lt
     | MLe => Some avx512_float_16_le
     | MEq => Some avx512_float_16_eq
     | MGt => Some avx512_float_16_gt
     | MGe => Some avx512_float_16_ge
     | MSqrt => Some avx512_float_16_sqrt
     | MLoad => Some avx512_float_16_load
     | MLoadAligned => Some avx512_float_16_load_aligned
     | MStore => Some avx512_float_16_store
     | MStoreAligned => Some avx512_float_16_store_aligned
     | MStoreNt => Some avx512_float_16_store_nt
     | MGather => Some avx512_float_16_gather
     | MScatter => Some avx512_float_16_scatter
     | MBlend => Some avx512_float_16_blend
     end)
    avx512_float_16_ctor_regs avx512_float_16_print.

(* short_vec_avx512_float_32.hpp:63-67 *)
Definition avx512_float_32_ctor_scalar : body :=
  [SSet (LVal (EInt 0)) (ECall _mm512_set1_ps [EArg]);
   SSet (LVal (EInt 1)) (ECall _mm512_set1_ps [EArg])].

(* short_vec_avx512_float_32.hpp:69-73 *)
Definition avx512_float_32_ctor_ptr : body :=
  [SSet (LVal (EInt 0)) (ECall _mm512_loadu_ps [dat 0]);
   SSet (LVal (EInt 1)) (ECall _mm512_loadu_ps [dat 16])].

(* short_vec_avx512_float_32.hpp:75-79 *)
Definition avx512_float_32_ctor_regs : body :=
  [SSet (LVal (EInt 0)) (EPar 0);
   SSet (LVal (EInt 1)) (EPar 1)].

(* short_vec_avx512_float_32.hpp:82-87 *)
Definition avx512_float_32_ctor_list : body :=
  [SSet (LVal (EInt 0)) (ECall _mm512_loadu_ps [dat 0]);
   SSet (LVal (EInt 1)) (ECall _mm512_loadu_ps [dat 16])].

(* short_vec_avx512_float_32.hpp:93-100 *)
Definition avx512_float_32_any : body :=
  [SSet (LVar "buf0") (ECall _mm512_or_ps [vv 0; vv 1]);
   SRet (EBool (ECall _mm512_test_epi64_mask [(ECall _mm512_castps_si512 [(EVar "buf0")]); (ECall
    _mm512_castps_si512 [(EVar "buf0")])]))].

(* short_vec_avx512_float_32.hpp:102-136 *)
Definition avx512_float_32_index : body :=
  [SSet (LVar "buf0") (EVal (ECop OShr (EVar "i") (EInt 4)));
   SUpd OBitAnd (LVar "i") (EInt 15);
   SDecl "buf1" 4;
   SIf (ECop (ORel RLt) (EVar "i") (EInt 8)) [SIf (ECop (ORel RLt) (EVar "i") (EInt 4)) [SSet (LVar
    "buf1") (ECall _mm512_extractf32x4_ps [(EVar "buf0"); EInt 0])] [SSet (LVar "buf1") (ECall
    _mm512_extractf32x4_ps [(EVar "buf0"); EInt 1])]] [SIf (ECop (ORel RLt) (EVar "i") (EInt 12))
    [SSet (LVar "buf1") (ECall _mm512_extractf32x4_ps [(EVar "buf0"); EInt 2])] [SSet (LVar "buf1")
    (ECall _mm512_extractf32x4_ps [(EVar "buf0"); EInt 3])]];
   SUpd OBitAnd (LVar "i") (EInt 3);
   SIf (ECop (ORel REq) (EVar "i") (EInt 3)) [SRet (ECall _mm_cvtss_f32 [(ECall _mm_shuffle_ps
    [(EVar "buf1"); (EVar "buf1"); EInt 3])])] [];
   SIf (ECop (ORel REq) (EVar "i") (EInt 2)) [SRet (ECall _mm_cvtss_f32 [(ECall _mm_shuffle_ps
    [(EVar "buf1"); (EVar "buf1"); EInt 2])])] [];
   SIf (ECop (ORel REq) (EVar "i") (EInt 1)) [SRet (ECall _mm_cvtss_f32 [(ECall _mm_shuffle_ps
    [(EVar "buf1"); (EVar "buf1"); EInt 1])])] [];
   SRet (ECall _mm_cvtss_f32 [(EVar "buf1")])].

(* short_vec_avx512_float_32.hpp:138-143 *)
Definition avx512_float_32_sub_eq : body :=
  [SSet (LVal (EInt 0)) (ECall _mm512_sub_ps [vv 0; oo 0]);
   SSet (LVal (EInt 1)) (ECall _mm512_sub_ps [vv 1; oo 1])].

(* short_vec_avx512_float_32.hpp:145-151 *)
Definition avx512_float_32_sub : body :=
  [SRetVec [(ECall _mm512_sub_ps [vv 0; oo 0]); (ECall _mm512_sub_ps [vv 1; oo 1])]].

(* short_vec_avx512_float_32.hpp:153-158 *)
Definition avx512_float_32_add_eq : body :=
  [SSet (LVal (EInt 0)) (ECall _mm512_add_ps [vv 0; oo 0]);
   SSet (LVal (EInt 1)) (ECall _mm512_add_ps [vv 1; oo 1])].

(* short_vec_avx512_float_32.hpp:160-166 *)
Definition avx512_float_32_add : body :=
  [SRetVec [(ECall _mm512_add_ps [vv 0; oo 0]); (ECall _mm512_add_ps [vv 1; oo 1])]].

(* short_vec_avx512_float_32.hpp:168-173 *)
Definition avx512_float_32_mul_eq : body :=
  [SSet (LVal (EInt 0)) (ECall _mm512_mul_ps [vv 0; oo 0]);
   SSet (LVal (EInt 1)) (ECall _mm512_mul_ps [vv 1; oo 1])].

(* short_vec_avx512_float_32.hpp:175-181 *)
Definition avx512_float_32_mul : body :=
  [SRetVec [(ECall _mm512_mul_ps [vv 0; oo 0]); (ECall _mm512_mul_ps [vv 1; oo 1])]].

(* short_vec_avx512_float_32.hpp:183-188 *)
Definition avx512_float_32_div_eq : body :=
  [SSet (LVal (EInt 0)) (ECall _mm512_mul_ps [vv 0; (ECall _mm512_rcp14_ps [oo 0])]);
   SSet (LVal (EInt 1)) (ECall _mm512_mul_ps [vv 1; (ECall _mm512_rcp14_ps [oo 1])])].

(* short_vec_avx512_float_32.hpp:193-199 *)
Definition avx512_float_32_div : body :=
  [SRetVec [(ECall _mm512_mul_ps [vv 0; (ECall _mm512_rcp14_ps [oo 0])]); (ECall _mm512_mul_ps [vv
    1; (ECall _mm512_rcp14_ps [oo 1])])]].

(* short_vec_avx512_float_32.hpp:204-210 *)
Definition avx512_float_32_lt : body :=
  [SRet (ECop OAdd (ECop OShl (ECall _mm512_cmp_ps_mask [vv 0; oo 0; (EInt _CMP_LT_OS)]) (EInt 0))
    (ECop OShl (ECall _mm512_cmp_ps_mask [vv 1; oo 1; (EInt _CMP_LT_OS)]) (EInt 16)))].

(* short_vec_avx512_float_32.hpp:212-218 *)
Definition avx512_float_32_le : body :=
  [SRet (ECop OAdd (ECop OShl (ECall _mm512_cmp_ps_mask [vv 0; oo 0; (EInt _CMP_LE_OS)]) (EInt 0))
    (ECop OShl (ECall _mm512_cmp_ps_mask [vv 1; oo 1; (EInt _CMP_LE_OS)]) (EInt 16)))].

(* short_vec_avx512_float_32.hpp:220-226 *)
Definition avx512_float_32_eq : body :=
  [SRet (ECop OAdd (ECop OShl (ECall _mm512_cmp_ps_mask [vv 0; oo 0; (EInt _CMP_EQ_OQ)]) (EInt 0))
    (ECop OShl (ECall _mm512_cmp_ps_mask [vv 1; oo 1; (EInt _CMP_EQ_OQ)]) (EInt 16)))].

(* short_vec_avx512_float_32.hpp:228-234 *)
Definition avx512_float_32_gt : body :=
  [SRet (ECop OAdd (ECop OShl (ECall _mm512_cmp_ps_mask [vv 0; oo 0; (EInt _CMP_GT_OS)]) (EInt 0))
    (ECop OShl (ECall _mm512_cmp_ps_mask [vv 1; oo 1; (EInt _CMP_GT_OS)]) (EInt 16)))].

(* short_vec_avx512_float_32.hpp:236-242 *)
Definition avx512_float_32_ge : body :=
  [SRet (ECop OAdd (ECop OShl (ECall _mm512_cmp_ps_mask [vv 0; oo 0; (EInt _CMP_GE_OS)]) (EInt 0))
    (ECop OShl (ECall _mm512_cmp_ps_mask [vv 1; oo 1; (EInt _CMP_GE_OS)]) (EInt 16)))].

(* short_vec_avx512_float_32.hpp:244-250 *)
Definition avx512_float_32_sqrt : body :=
  [SRetVec [(ECall _mm512_sqrt_ps [vv 0]); (ECall _mm512_sqrt_ps [vv 1])]].

(* short_vec_avx512_float_32.hpp:252-257 *)
Definition avx512_float_32_load : body :=
  [SSet (LVal (EInt 0)) (ECall _mm512_loadu_ps [dat 0]);
   SSet (LVal (EInt 1)) (ECall _mm512_loadu_ps [dat 16])].

(* short_vec_avx512_float_32.hpp:259-265 *)
Definition avx512_float_32_load_aligned : body :=
  [SAssertAligned EData 64;
   SSet (LVal (EInt 0)) (ECall _mm512_load_ps [dat 0]);
   SSet (LVal (EInt 1)) (ECall _mm512_load_ps [dat 16])].

(* short_vec_avx512_float_32.hpp:267-272 *)
Definition avx512_float_32_store : body :=
  [SDo (ECall _mm512_storeu_ps [dat 0; vv 0]);
   SDo (ECall _mm512_storeu_ps [dat 16; vv 1])].

(* short_vec_avx512_float_32.hpp:274-280 *)
Definition avx512_float_32_store_aligned : body :=
  [SAssertAligned EData 64;
   SDo (ECall _mm512_store_ps [dat 0; vv 0]);
   SDo (ECall _mm512_store_ps [dat 16; vv 1])].

(* short_vec_avx512_float_32.hpp:282-288 *)
Definition avx512_float_32_store_nt : body :=
  [SAssertAligned EData 64;
   SDo (ECall _mm512_stream_ps [dat 0; vv 0]);
   SDo (ECall _mm512_stream_ps [dat 16; vv 1])].

(* short_vec_avx512_float_32.hpp:290-299 *)
Definition avx512_float_32_gather : body :=
  [SDecl "indices" 16;
   SAssertAligned EOff 64;
   SSet (LVar "indices") (ECall _mm512_load_epi32 [EOff]);
   SSet (LVal (EInt 0)) (ECall _mm512_i32gather_ps [(EVar "indices"); EPtr; EInt 4]);
   SSet (LVar "indices") (ECall _mm512_load_epi32 [(ECop OAdd EOff (EInt 16))]);
   SSet (LVal (EInt 1)) (ECall _mm512_i32gather_ps [(EVar "indices"); EPtr; EInt 4])].

(* short_vec_avx512_float_32.hpp:301-310 *)
Definition avx512_float_32_scatter : body :=
  [SDecl "indices" 16;
   SAssertAligned EOff 64;
   SSet (LVar "indices") (ECall _mm512_load_epi32 [EOff]);
   SDo (ECall _mm512_i32scatter_ps [EPtr; (EVar "indices"); vv 0; EInt 4]);
   SSet (LVar "indices") (ECall _mm512_load_epi32 [(ECop OAdd EOff (EInt 16))]);
   SDo (ECall _mm512_i32scatter_ps [EPtr; (EVar "indices"); vv 1; EInt 4])].

(* short_vec_avx512_float_32.hpp:312-317 *)
Definition avx512_float_32_blend : body :=
  [SSet (LVal (EInt 0)) (ECall _mm512_mask_blend_ps [(ECop OShr EMaskInt (EInt 0)); vv 0; oo 0]);
   SSet (LVal (EInt 1)) (ECall _mm512_mask_blend_ps [(ECop OBitAnd (ECop OShr EMaskInt (EInt 16))
    (EInt 65535)); vv 1; oo 1])].

(* short_vec_avx512_float_32.hpp:349-352 *)
Definition avx512_float_32_ctor_sqrt : body :=
  [SSet (LVal (EInt 0)) (ECall _mm512_sqrt_ps [oo 0]);
   SSet (LVal (EInt 1)) (ECall _mm512_sqrt_ps [oo 1])].

(* short_vec_avx512_float_32.hpp:355-359 *)
Definition avx512_float_32_div_eq_sqrt : body :=
  [SSet (LVal (EInt 0)) (ECall _mm512_mul_ps [vv 0; (ECall _mm512_rsqrt14_ps [oo 0])]);
   SSet (LVal (EInt 1)) (ECall _mm512_mul_ps [vv 1; (ECall _mm512_rsqrt14_ps [oo 1])])].

(* short_vec_avx512_float_32.hpp:362-367 *)
Definition avx512_float_32_div_sqrt : body :=
  [SRetVec [(ECall _mm512_mul_ps [vv 0; (ECall _mm512_rsqrt14_ps [oo 0])]); (ECall _mm512_mul_ps
    [vv 1; (ECall _mm512_rsqrt14_ps [oo 1])])]].

(* short_vec_avx512_float_32.hpp:379-392 *)
Definition avx512_float_32_print : list item :=
  [PStr "["; PVal (EIdx (vv 0) (EInt 0)); PStr ", "; PVal (EIdx (vv 0) (EInt 1)); PStr ", "; PVal
   (EIdx (vv 0) (EInt 2)); PStr ", "; PVal (EIdx (vv 0) (EInt 3)); PStr ", "; PVal (EIdx (vv 0)
   (EInt 4)); PStr ", "; PVal (EIdx (vv 0) (EInt 5)); PStr ", "; PVal (EIdx (vv 0) (EInt 6)); PStr
   ", "; PVal (EIdx (vv 0) (EInt 7)); PStr ", "; PVal (EIdx (vv 0) (EInt 8)); PStr ", "; PVal (EIdx
   (vv 0) (EInt 9)); PStr ", "; PVal (EIdx (vv 0) (EInt 10)); PStr ", "; PVal (EIdx (vv 0) (EInt
   11)); PStr ", "; PVal (EIdx (vv 0) (EInt 12)); PStr ", "; PVal (EIdx (vv 0) (EInt 13)); PStr
   ", "; PVal (EIdx (vv 0) (EInt 14)); PStr ", "; PVal (EIdx (vv 0) (EInt 15)); PStr ", "; PVal
   (EIdx (vv 1) (EInt 0)); PStr ", "; PVal (EIdx (vv 1) (EInt 1)); PStr ", "; PVal (EIdx (vv 1)
   (EInt 2)); PStr ", "; PVal (EIdx (vv 1) (EInt 3)); PStr ", "; PVal (EIdx (vv 1) (EInt 4)); PStr
   ", "; PVal (EIdx (vv 1) (EInt 5)); PStr ", "; PVal (EIdx (vv 1) (EInt 6)); PStr ", "; PVal (EIdx
   (vv 1) (EInt 7)); PStr ", "; PVal (EIdx (vv 1) (EInt 8)); PStr ", "; PVal (EIdx (vv 1) (EInt
   9)); PStr ", "; PVal (EIdx (vv 1) (EInt 10)); PStr ", "; PVal (EIdx (vv 1) (EInt 11)); PStr
   ", "; PVal (EIdx (vv 1) (EInt 12)); PStr ", "; PVal (EIdx (vv 1) (EInt 13)); PStr ", "; PVal
   (EIdx (vv 1) (EInt 14)); PStr ", "; PVal (EIdx (vv 1) (EInt 15)); PStr "]"].

(* short_vec_avx512_float_32.hpp *)
Definition cls_avx512_float_32 : cls :=
  mkCls "avx512_float_32" KF32 32 2 16 64 (MInt 32)
    (fun m => match m with
     | MCtorScalar => Some avx512_float_32_ctor_scalar
     | MCtorPtr => Some avx512_float_32_ctor_ptr
     | MCtorRegs => Some avx512_float_32_ctor_regs
     | MCtorSqrt => Some avx512_float_32_ctor_sqrt
     | MCtorList => Some avx512_float_32_ctor_list
     | MAny => Some avx512_float_32_any
     | MIndex => Some avx512_float_32_index
     | MSubEq => Some avx512_float_32_sub_eq
     | MSub => Some avx512_float_32_sub
     | MAddEq => Some avx512_float_32_add_eq
     | MAdd => Some avx512_float_32_add
     | MMulEq => Some avx512_float_32_mul_eq
     | MMul => Some avx512_float_32_mul
     | MDivEq => Some avx512_float_32_div_eq
     | MDiv => Some avx512_float_32_div
     | MDivEqSqrt => Some avx512_float_32_div_eq_sqrt
     | MDivSqrt => Some avx512_float_32_div_sqrt
     | MLt => Some avx512_float_32_lt
     | MLe => Some avx512_float_32_le
     | MEq => Some avx512_float_32_eq
     | MGt => Some avx512_float_32_gt
     | MGe => Some avx512_float_32_ge
     | MSqrt => Some avx512_float_32_sqrt
     | MLoad => Some avx512_float_32_load
     | MLoadAligned => Some avx512_float_32_load_aligned
     | MStore => Some avx512_float_32_store
     | MStoreAligned => Some avx512_float_32_store_aligned
     | MStoreNt => Some avx512_float_32_store_nt
     | MGather => Some avx512_float_32_gather
     | MScatter => Some avx512_float_32_scatter
     | MBlend => Some avx512_float_32_blend
     end)
    avx512_float_32_ctor_regs avx512_float_32_print.

(* short_vec_avx512_int_16.hpp:63-66 *)
Definition avx512_int_16_ctor_scalar : body :=
  [SSet (LVal (EInt 0)) (ECall _mm512_set1_epi32 [EArg])].

(* short_vec_avx512_int_16.hpp:68-72 *)
Definition avx512_int_16_ctor_ptr : body :=
  [SSet (LVal (EInt 0)) (ECall _mm512_loadu_si512 [EData])].

(* short_vec_avx512_int_16.hpp:74-77 *)
Definition avx512_int_16_ctor_regs : body :=
  [SSet (LVal (EInt 0)) (EPar 0)].

(* short_vec_avx512_int_16.hpp:80-85 *)
Definition avx512_int_16_ctor_list : body :=
  [SSet (LVal (EInt 0)) (ECall _mm512_loadu_si512 [EData])].

(* short_vec_avx512_int_16.hpp:91-95 *)
Definition avx512_int_16_sub_eq : body :=
  [SSet (LVal (EInt 0)) (ECall _mm512_sub_epi32 [vv 0; oo 0])].

(* short_vec_avx512_int_16.hpp:97-102 *)
Definition avx512_int_16_sub : body :=
  [SRetVec [(ECall _mm512_sub_epi32 [vv 0; oo 0])]].

(* short_vec_avx512_int_16.hpp:104-108 *)
Definition avx512_int_16_add_eq : body :=
  [SSet (LVal (EInt 0)) (ECall _mm512_add_epi32 [vv 0; oo 0])].

(* short_vec_avx512_int_16.hpp:110-115 *)
Definition avx512_int_16_add : body :=
  [SRetVec [(ECall _mm512_add_epi32 [vv 0; oo 0])]].

(* short_vec_avx512_int_16.hpp:117-121 *)
Definition avx512_int_16_mul_eq : body :=
  [SSet (LVal (EInt 0)) (ECall _mm512_mullo_epi32 [vv 0; oo 0])].

(* short_vec_avx512_int_16.hpp:123-128 *)
Definition avx512_int_16_mul : body :=
  [SRetVec [(ECall _mm512_mullo_epi32 [vv 0; oo 0])]].

(* short_vec_avx512_int_16.hpp:130-135 *)
Definition avx512_int_16_div_eq : body :=
  [SSet (LVal (EInt 0)) (ECall _mm512_cvtps_epi32 [(ECall _mm512_div_ps [(ECall _mm512_cvtepi32_ps
    [vv 0]); (ECall _mm512_cvtepi32_ps [oo 0])])])].

(* short_vec_avx512_int_16.hpp:140-146 *)
Definition avx512_int_16_div : body :=
  [SRetVec [(ECall _mm512_cvttps_epi32 [(ECall _mm512_div_ps [(ECall _mm512_cvtepi32_ps [vv 0]);
    (ECall _mm512_cvtepi32_ps [oo 0])])])]].

(* short_vec_avx512_int_16.hpp:151-157 *)
Definition avx512_int_16_sqrt : body :=
  [SRetVec [(ECall _mm512_cvtps_epi32 [(ECall _mm512_sqrt_ps [(ECall _mm512_cvtepi32_ps [vv
    0])])])]].

(* short_vec_avx512_int_16.hpp:159-163 *)
Definition avx512_int_16_load : body :=
  [SSet (LVal (EInt 0)) (ECall _mm512_loadu_si512 [EData])].

(* short_vec_avx512_int_16.hpp:165-170 *)
Definition avx512_int_16_load_aligned : body :=
  [SAssertAligned EData 64;
   SSet (LVal (EInt 0)) (ECall _mm512_load_epi32 [EData])].

(* short_vec_avx512_int_16.hpp:172-176 *)
Definition avx512_int_16_store : body :=
  [SDo (ECall _mm512_storeu_si512 [EData; vv 0])].

(* short_vec_avx512_int_16.hpp:178-183 *)
Definition avx512_int_16_store_aligned : body :=
  [SAssertAligned EData 64;
   SDo (ECall _mm512_store_epi32 [EData; vv 0])].

(* short_vec_avx512_int_16.hpp:185-190 *)
Definition avx512_int_16_store_nt : body :=
  [SAssertAligned EData 64;
   SDo (ECall _mm512_stream_si512 [EData; vv 0])].

(* short_vec_avx512_int_16.hpp:192-197 *)
Definition avx512_int_16_gather : body :=
  [SSet (LVar "indices") (ECall _mm512_loadu_si512 [EOff]);
   SSet (LVal (EInt 0)) (ECall _mm512_i32gather_epi32 [(EVar "indices"); EPtr; EInt 4])].

(* short_vec_avx512_int_16.hpp:199-204 *)
Definition avx512_int_16_scatter : body :=
  [SSet (LVar "indices") (ECall _mm512_loadu_si512 [EOff]);
   SDo (ECall _mm512_i32scatter_epi32 [EPtr; (EVar "indices"); vv 0; EInt 4])].

(* short_vec_avx512_int_16.hpp:236-240 *)
Definition avx512_int_16_ctor_sqrt : body :=
  [SSet (LVal (EInt 0)) (ECall _mm512_cvtps_epi32 [(ECall _mm512_sqrt_ps [(ECall _mm512_cvtepi32_ps
    [oo 0])])])].

(* short_vec_avx512_int_16.hpp:243-248 *)
Definition avx512_int_16_div_eq_sqrt : body :=
  [SSet (LVal (EInt 0)) (ECall _mm512_cvtps_epi32 [(ECall _mm512_mul_ps [(ECall _mm512_cvtepi32_ps
    [vv 0]); (ECall _mm512_rsqrt14_ps [(ECall _mm512_cvtepi32_ps [oo 0])])])])].

(* short_vec_avx512_int_16.hpp:251-257 *)
Definition avx512_int_16_div_sqrt : body :=
  [SRetVec [(ECall _mm512_cvtps_epi32 [(ECall _mm512_mul_ps [(ECall _mm512_cvtepi32_ps [vv 0]);
    (ECall _mm512_rsqrt14_ps [(ECall _mm512_cvtepi32_ps [oo 0])])])])]].

(* short_vec_avx512_int_16.hpp:269-278 *)
Definition avx512_int_16_print : list item :=
  [PStr "["; PVal (EIdx (vv 0) (EInt 0)); PStr ", "; PVal (EIdx (vv 0) (EInt 1)); PStr ", "; PVal
   (EIdx (vv 0) (EInt 2)); PStr ", "; PVal (EIdx (vv 0) (EInt 3)); PStr ", "; PVal (EIdx (vv 0)
   (EInt 4)); PStr ", "; PVal (EIdx (vv 0) (EInt 5)); PStr ", "; PVal (EIdx (vv 0) (EInt 6)); PStr
   ", "; PVal (EIdx (vv 0) (EInt 7)); PStr ", "; PVal (EIdx (vv 0) (EInt 8)); PStr ", "; PVal (EIdx
   (vv 0) (EInt 9)); PStr ", "; PVal (EIdx (vv 0) (EInt 10)); PStr ", "; PVal (EIdx (vv 0) (EInt
   11)); PStr ", "; PVal (EIdx (vv 0) (EInt 12)); PStr ", "; PVal (EIdx (vv 0) (EInt 13)); PStr
   ", "; PVal (EIdx (vv 0) (EInt 14)); PStr ", "; PVal (EIdx (vv 0) (EInt 15)); PStr "]"].

(* short_vec_avx512_int_16.hpp *)
Definition cls_avx512_int_16 : cls :=
  mkCls "avx512_int_16" KI32 16 1 16 64 MNone
    (fun m => match m with
     | MCtorScalar => Some avx512_int_16_ctor_scalar
     | MCtorPtr => Some avx512_int_16_ctor_ptr
     | MCtorRegs => Some avx512_int_16_ctor_regs
     | MCtorSqrt => Some avx512_int_16_ctor_sqrt
     | MCtorList => Some avx512_int_16_ctor_list
     | MSubEq => Some avx512_int_16_sub_eq
     | MSub => Some avx512_int_16_sub
     | MAddEq => Some avx512_int_16_add_eq
     | MAdd => Some avx512_int_16_add
     | MMulEq => Some avx512_int_16_mul_eq
     | MMul => Some avx512_int_16_mul
     | MDivEq => Some avx512_int_16_div_eq
     | MDiv => Some avx512_int_16_div
     | MDivEqSqrt => Some avx512_int_16_div_eq_sqrt
     | MDivSqrt => Some avx512_int_16_div_sqrt
     | MSqrt => Some avx512_int_16_sqrt
     | MLoad => Some avx512_int_16_load
     | MLoadAligned => Some avx512_int_16_load_aligned
     | MStore => Some avx512_int_16_store
     | MStoreAligned => Some avx512_int_16_store_aligned
     | MStoreNt => Some avx512_int_16_store_nt
     | MGather => Some avx512_int_16_gather
     | MScatter => Some avx512_int_16_scatter
     | _ => None
     end)
    avx512_int_16_ctor_regs avx512_int_16_print.

(* short_vec_avx512_int_32.hpp:63-67 *)
Definition avx512_int_32_ctor_scalar : body :=
  [SSet (LVal (EInt 0)) (ECall _mm512_set1_epi32 [EArg]);
   SSet (LVal (EInt 1)) (ECall _mm512_set1_epi32 [EArg])].

(* short_vec_avx512_int_32.hpp:69-73 *)
Definition avx512_int_32_ctor_ptr : body :=
  [SSet (LVal (EInt 0)) (ECall _mm512_loadu_si512 [dat 0]);
   SSet (LVal (EInt 1)) (ECall _mm512_loadu_si512 [dat 16])].

(* short_vec_avx512_int_32.hpp:75-79 *)
Definition avx512_int_32_ctor_regs : body :=
  [SSet (LVal (EInt 0)) (EPar 0);
   SSet (LVal (EInt 1)) (EPar 1)].

(* short_vec_avx512_int_32.hpp:82-87 *)
Definition avx512_int_32_ctor_list : body :=
  [SSet (LVal (EInt 0)) (ECall _mm512_loadu_si512 [dat 0]);
   SSet (LVal (EInt 1)) (ECall _mm512_loadu_si512 [dat 16])].

(* short_vec_avx512_int_32.hpp:93-98 *)
Definition avx512_int_32_sub_eq : body :=
  [SSet (LVal (EInt 0)) (ECall _mm512_sub_epi32 [vv 0; oo 0]);
   SSet (LVal (EInt 1)) (ECall _mm512_sub_epi32 [vv 1; oo 1])].

(* short_vec_avx512_int_32.hpp:100-106 *)
Definition avx512_int_32_sub : body :=
  [SRetVec [(ECall _mm512_sub_epi32 [vv 0; oo 0]); (ECall _mm512_sub_epi32 [vv 1; oo 1])]].

(* short_vec_avx512_int_32.hpp:108-113 *)
Definition avx512_int_32_add_eq : body :=
  [SSet (LVal (EInt 0)) (ECall _mm512_add_epi32 [vv 0; oo 0]);
   SSet (LVal (EInt 1)) (ECall _mm512_add_epi32 [vv 1; oo 1])].

(* short_vec_avx512_int_32.hpp:115-121 *)
Definition avx512_int_32_add : body :=
  [SRetVec [(ECall _mm512_add_epi32 [vv 0; oo 0]); (ECall _mm512_add_epi32 [vv 1; oo 1])]].

(* short_vec_avx512_int_32.hpp:123-128 *)
Definition avx512_int_32_mul_eq : body :=
  [SSet (LVal (EInt 0)) (ECall _mm512_mullo_epi32 [vv 0; oo 0]);
   SSet (LVal (EInt 1)) (ECall _mm512_mullo_epi32 [vv 1; oo 1])].

(* short_vec_avx512_int_32.hpp:130-136 *)
Definition avx512_int_32_mul : body :=
  [SRetVec [(ECall _mm512_mullo_epi32 [vv 0; oo 0]); (ECall _mm512_mullo_epi32 [vv 1; oo 1])]].

(* short_vec_avx512_int_32.hpp:138-145 *)
Definition avx512_int_32_div_eq : body :=
  [SSet (LVal (EInt 0)) (ECall _mm512_cvtps_epi32 [(ECall _mm512_div_ps [(ECall _mm512_cvtepi32_ps
    [vv 0]); (ECall _mm512_cvtepi32_ps [oo 0])])]);
   SSet (LVal (EInt 1)) (ECall _mm512_cvtps_epi32 [(ECall _mm512_div_ps [(ECall _mm512_cvtepi32_ps
    [vv 1]); (ECall _mm512_cvtepi32_ps [oo 1])])])].

(* short_vec_avx512_int_32.hpp:150-158 *)
Definition avx512_int_32_div : body :=
  [SRetVec [(ECall _mm512_cvttps_epi32 [(ECall _mm512_div_ps [(ECall _mm512_cvtepi32_ps [vv 0]);
    (ECall _mm512_cvtepi32_ps [oo 0])])]); (ECall _mm512_cvttps_epi32 [(ECall _mm512_div_ps [(ECall
    _mm512_cvtepi32_ps [vv 1]); (ECall _mm512_cvtepi32_ps [oo 1])])])]].

(* short_vec_avx512_int_32.hpp:163-171 *)
Definition avx512_int_32_sqrt : body :=
  [SRetVec [(ECall _mm512_cvtps_epi32 [(ECall _mm512_sqrt_ps [(ECall _mm512_cvtepi32_ps [vv
    0])])]); (ECall _mm512_cvtps_epi32 [(ECall _mm512_sqrt_ps [(ECall _mm512_cvtepi32_ps [vv
    1])])])]].

(* short_vec_avx512_int_32.hpp:173-178 *)
Definition avx512_int_32_load : body :=
  [SSet (LVal (EInt 0)) (ECall _mm512_loadu_si512 [dat 0]);
   SSet (LVal (EInt 1)) (ECall _mm512_loadu_si512 [dat 16])].

(* short_vec_avx512_int_32.hpp:180-186 *)
Definition avx512_int_32_load_aligned : body :=
  [SAssertAligned EData 64;
   SSet (LVal (EInt 0)) (ECall _mm512_load_epi32 [dat 0]);
   SSet (LVal (EInt 1)) (ECall _mm512_load_epi32 [dat 16])].

(* short_vec_avx512_int_32.hpp:188-193 *)
Definition avx512_int_32_store : body :=
  [SDo (ECall _mm512_storeu_si512 [dat 0; vv 0]);
   SDo (ECall _mm512_storeu_si512 [dat 16; vv 1])].

(* short_vec_avx512_int_32.hpp:195-201 *)
Definition avx512_int_32_store_aligned : body :=
  [SAssertAligned EData 64;
   SDo (ECall _mm512_store_epi32 [dat 0; vv 0]);
   SDo (ECall _mm512_store_epi32 [dat 16; vv 1])].

(* short_vec_avx512_int_32.hpp:203-209 *)
Definition avx512_int_32_store_nt : body :=
  [SAssertAligned EData 64;
   SDo (ECall _mm512_stream_si512 [dat 0; vv 0]);
   SDo (ECall _mm512_stream_si512 [dat 16; vv 1])].

(* short_vec_avx512_int_32.hpp:211-218 *)
Definition avx512_int_32_gather : body :=
  [SSet (LVar "indices1") (ECall _mm512_loadu_si512 [(ECop OAdd EOff (EInt 0))]);
   SSet (LVar "indices2") (ECall _mm512_loadu_si512 [(ECop OAdd EOff (EInt 16))]);
   SSet (LVal (EInt 0)) (ECall _mm512_i32gather_epi32 [(EVar "indices1"); EPtr; EInt 4]);
   SSet (LVal (EInt 1)) (ECall _mm512_i32gather_epi32 [(EVar "indices2"); EPtr; EInt 4])].

(* short_vec_avx512_int_32.hpp:220-227 *)
Definition avx512_int_32_scatter : body :=
  [SSet (LVar "indices1") (ECall _mm512_loadu_si512 [(ECop OAdd EOff (EInt 0))]);
   SSet (LVar "indices2") (ECall _mm512_loadu_si512 [(ECop OAdd EOff (EInt 16))]);
   SDo (ECall _mm512_i32scatter_epi32 [EPtr; (EVar "indices1"); vv 0; EInt 4]);
   SDo (ECall _mm512_i32scatter_epi32 [EPtr; (EVar "indices2"); vv 1; EInt 4])].

(* short_vec_avx512_int_32.hpp:259-266 *)
Definition avx512_int_32_ctor_sqrt : body :=
  [SSet (LVal (EInt 0)) (ECall _mm512_cvtps_epi32 [(ECall _mm512_sqrt_ps [(ECall _mm512_cvtepi32_ps
    [oo 0])])]);
   SSet (LVal (EInt 1)) (ECall _mm512_cvtps_epi32 [(ECall _mm512_sqrt_ps [(ECall _mm512_cvtepi32_ps
    [oo 1])])])].

(* short_vec_avx512_int_32.hpp:269-277 *)
Definition avx512_int_32_div_eq_sqrt : body :=
  [SSet (LVal (EInt 0)) (ECall _mm512_cvtps_epi32 [(ECall _mm512_mul_ps [(ECall _mm512_cvtepi32_ps
    [vv 0]); (ECall _mm512_rsqrt14_ps [(ECall _mm512_cvtepi32_ps [oo 0])])])]);
   SSet (LVal (EInt 1)) (ECall _mm512_cvtps_epi32 [(ECall _mm512_mul_ps [(ECall _mm512_cvtepi32_ps
    [vv 1]); (ECall _mm512_rsqrt14_ps [(ECall _mm512_cvtepi32_ps [oo 1])])])])].

(* short_vec_avx512_int_32.hpp:280-289 *)
Definition avx512_int_32_div_sqrt : body :=
  [SRetVec [(ECall _mm512_cvtps_epi32 [(ECall _mm512_mul_ps [(ECall _mm512_cvtepi32_ps [vv 0]);
    (ECall _mm512_rsqrt14_ps [(ECall _mm512_cvtepi32_ps [oo 0])])])]); (ECall _mm512_cvtps_epi32
    [(ECall _mm512_mul_ps [(ECall _mm512_cvtepi32_ps [vv 1]); (ECall _mm512_rsqrt14_ps [(ECall
    _mm512_cvtepi32_ps [oo 1])])])])]].

(* short_vec_avx512_int_32.hpp:301-315 *)
Definition avx512_int_32_print : list item :=
  [PStr "["; PVal (EIdx (vv 0) (EInt 0)); PStr ", "; PVal (EIdx (vv 0) (EInt 1)); PStr ", "; PVal
   (EIdx (vv 0) (EInt 2)); PStr ", "; PVal (EIdx (vv 0) (EInt 3)); PStr ", "; PVal (EIdx (vv 0)
   (EInt 4)); PStr ", "; PVal (EIdx (vv 0) (EInt 5)); PStr ", "; PVal (EIdx (vv 0) (EInt 6)); PStr
   ", "; PVal (EIdx (vv 0) (EInt 7)); PStr ", "; PVal (EIdx (vv 0) (EInt 8)); PStr ", "; PVal (EIdx
   (vv 0) (EInt 9)); PStr ", "; PVal (EIdx (vv 0) (EInt 10)); PStr ", "; PVal (EIdx (vv 0) (EInt
   11)); PStr ", "; PVal (EIdx (vv 0) (EInt 12)); PStr ", "; PVal (EIdx (vv 0) (EInt 13)); PStr
   ", "; PVal (EIdx (vv 0) (EInt 14)); PStr ", "; PVal (EIdx (vv 0) (EInt 15)); PStr ", "; PVal
   (EIdx (vv 1) (EInt 0)); PStr ", "; PVal (EIdx (vv 1) (EInt 1)); PStr ", "; PVal (EIdx (vv 1)
   (EInt 2)); PStr ", "; PVal (EIdx (vv 1) (EInt 3)); PStr ", "; PVal (EIdx (vv 1) (EInt 4)); PStr
   ", "; PVal (EIdx (vv 1) (EInt 5)); PStr ", "; PVal (EIdx (vv 1) (EInt 6)); PStr ", "; PVal (EIdx
   (vv 1) (EInt 7)); PStr ", "; PVal (EIdx (vv 1) (EInt 8)); PStr ", "; PVal (EIdx (vv 1) (EInt
   9)); PStr ", "; PVal (EIdx (vv 1) (EInt 10)); PStr ", "; PVal (EIdx (vv 1) (EInt 11)); PStr
   ", "; PVal (EIdx (vv 1) (EInt 12)); PStr ", "; PVal (EIdx (vv 1) (EInt 13)); PStr ", "; PVal
   (EIdx (vv 1) (EInt 14)); PStr ", "; PVal (EIdx (vv 1) (EInt 15)); PStr "]"].

(* short_vec_avx512_int_32.hpp *)
Definition cls_avx512_int_32 : cls :=
  mkCls "avx512_int_32" KI32 32 2 16 64 MNone
    (fun m => match m with
     | MCtorScalar => Some avx512_int_32_ctor_scalar
     | MCtorPtr => Some avx512_int_32_ctor_ptr
     | MCtorRegs => Some avx512_int_32_ctor_regs
     | MCtorSqrt => Some avx512_int_32_ctor_sqrt
     | MCtorList => Some avx512_int_32_ctor_list
     | MSubEq => Some avx512_int_32_sub_eq
     | MSub => Some avx512_int_32_sub
     | MAddEq => Some avx512_int_32_add_eq
     | MAdd => Some avx512_int_32_add
     | MMulEq => Some avx512_int_32_mul_eq
     | MMul => Some avx512_int_32_mul
     | MDivEq => Some avx512_int_32_div_eq
     | MDiv => Some avx512_int_32_div
     | MDivEqSqrt => Some avx512_int_32_div_eq_sqrt
     | MDivSqrt => Some avx512_int_32_div_sqrt
     | MSqrt => Some avx512_int_32_sqrt
     | MLoad => Some avx512_int_32_load
     | MLoadAligned => Some avx512_int_32_load_aligned
     | MStore => Some avx512_int_32_store
     | MStoreAligned => Some avx512_int_32_store_aligned
     | MStoreNt => Some avx512_int_32_store_nt
     | MGather => Some avx512_int_32_gather
     | MScatter => Some avx512_int_32_scatter
     | _ => None
     end)
    avx512_int_32_ctor_regs avx512_int_32_print.

Definition avx512_classes : list cls :=
  [cls_avx512_double_8; cls_avx512_double_16; cls_avx512_double_32; cls_avx512_float_16;
   cls_avx512_float_32; cls_avx512_int_16; cls_avx512_int_32].
