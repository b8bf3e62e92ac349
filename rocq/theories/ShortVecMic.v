(** The member functions of the short_vec classes in
    /repo/include/libflatarray/detail/short_vec_mic_*.hpp, call by call, in the
    language of ShortVecLang.v.  Each definition cites the lines it was
    transliterated from.  Calls of load() and store() are expanded. *)
From Coq Require Import String ZArith List.
From Verif Require Import ShortVecLang ShortVecClass.
Import ListNotations.
Local Open Scope Z_scope.
Local Open Scope string_scope.

(* short_vec_mic_double_8.hpp:58-61 *)
Definition mic_double_8_ctor_scalar : body :=
  [SSet (LVal (EInt 0)) (ECall _mm512_set1_pd [EArg])].

(* short_vec_mic_double_8.hpp:63-67 *)
Definition mic_double_8_ctor_ptr : body :=
  [SSet (LVal (EInt 0)) (ECall _mm512_loadunpacklo_pd [vv 0; dat 0]);
   SSet (LVal (EInt 0)) (ECall _mm512_loadunpackhi_pd [vv 0; dat 8])].

(* short_vec_mic_double_8.hpp:69-72 *)
Definition mic_double_8_ctor_regs : body :=
  [SSet (LVal (EInt 0)) (EPar 0)].

(* short_vec_mic_double_8.hpp:75-80 *)
Definition mic_double_8_ctor_list : body :=
  [SSet (LVal (EInt 0)) (ECall _mm512_loadunpacklo_pd [vv 0; dat 0]);
   SSet (LVal (EInt 0)) (ECall _mm512_loadunpackhi_pd [vv 0; dat 8])].

(* short_vec_mic_double_8.hpp:83-87 *)
Definition mic_double_8_sub_eq : body :=
  [SSet (LVal (EInt 0)) (ECall _mm512_sub_pd [vv 0; oo 0])].

(* short_vec_mic_double_8.hpp:89-94 *)
Definition mic_double_8_sub : body :=
  [SRetVec [(ECall _mm512_sub_pd [vv 0; oo 0])]].

(* short_vec_mic_double_8.hpp:96-100 *)
Definition mic_double_8_add_eq : body :=
  [SSet (LVal (EInt 0)) (ECall _mm512_add_pd [vv 0; oo 0])].

(* short_vec_mic_double_8.hpp:102-107 *)
Definition mic_double_8_add : body :=
  [SRetVec [(ECall _mm512_add_pd [vv 0; oo 0])]].

(* short_vec_mic_double_8.hpp:109-113 *)
Definition mic_double_8_mul_eq : body :=
  [SSet (LVal (EInt 0)) (ECall _mm512_mul_pd [vv 0; oo 0])].

(* short_vec_mic_double_8.hpp:115-120 *)
Definition mic_double_8_mul : body :=
  [SRetVec [(ECall _mm512_mul_pd [vv 0; oo 0])]].

(* short_vec_mic_double_8.hpp:122-126 *)
Definition mic_double_8_div_eq : body :=
  [SSet (LVal (EInt 0)) (ECall _mm512_div_pd [vv 0; oo 0])].

(* short_vec_mic_double_8.hpp:128-133 *)
Definition mic_double_8_div : body :=
  [SRetVec [(ECall _mm512_div_pd [vv 0; oo 0])]].

(* short_vec_mic_double_8.hpp:135-140 *)
Definition mic_double_8_sqrt : body :=
  [SRetVec [(ECall _mm512_sqrt_pd [vv 0])]].

(* short_vec_mic_double_8.hpp:142-147 *)
Definition mic_double_8_load : body :=
  [SSet (LVal (EInt 0)) (ECall _mm512_loadunpacklo_pd [vv 0; dat 0]);
   SSet (LVal (EInt 0)) (ECall _mm512_loadunpackhi_pd [vv 0; dat 8])].

(* short_vec_mic_double_8.hpp:149-154 *)
Definition mic_double_8_load_aligned : body :=
  [SAssertAligned EData 64;
   SSet (LVal (EInt 0)) (ECall _mm512_load_pd [EData])].

(* short_vec_mic_double_8.hpp:156-161 *)
Definition mic_double_8_store : body :=
  [SDo (ECall _mm512_packstorelo_pd [dat 0; vv 0]);
   SDo (ECall _mm512_packstorehi_pd [dat 8; vv 0])].

(* short_vec_mic_double_8.hpp:163-168 *)
Definition mic_double_8_store_aligned : body :=
  [SAssertAligned EData 64;
   SDo (ECall _mm512_store_pd [EData; vv 0])].

(* short_vec_mic_double_8.hpp:170-175 *)
Definition mic_double_8_store_nt : body :=
  [SAssertAligned EData 64;
   SDo (ECall _mm512_storenr_pd [EData; vv 0])].

(* short_vec_mic_double_8.hpp:177-183 *)
Definition mic_double_8_gather : body :=
  [SDecl "indices" 16;
   SSet (LVar "indices") (ECall _mm512_loadunpacklo_epi32 [(EVar "indices"); EOff]);
   SSet (LVal (EInt 0)) (ECall _mm512_i32logather_pd [(EVar "indices"); EPtr; EInt 8])].

(* short_vec_mic_double_8.hpp:185-191 *)
Definition mic_double_8_scatter : body :=
  [SDecl "indices" 16;
   SSet (LVar "indices") (ECall _mm512_loadunpacklo_epi32 [(EVar "indices"); EOff]);
   SDo (ECall _mm512_i32loscatter_pd [EPtr; (EVar "indices"); vv 0; EInt 8])].

(* short_vec_mic_double_8.hpp:217-224 *)
Definition mic_double_8_print : list item :=
  [PStr "["; PVal (EIdx (vv 0) (EInt 0)); PStr ", "; PVal (EIdx (vv 0) (EInt 1)); PStr ", "; PVal
   (EIdx (vv 0) (EInt 2)); PStr ", "; PVal (EIdx (vv 0) (EInt 3)); PStr ", "; PVal (EIdx (vv 0)
   (EInt 4)); PStr ", "; PVal (EIdx (vv 0) (EInt 5)); PStr ", "; PVal (EIdx (vv 0) (EInt 6)); PStr
   ", "; PVal (EIdx (vv 0) (EInt 7)); PStr "]"].

(* short_vec_mic_double_8.hpp *)
Definition cls_mic_double_8 : cls :=
  mkCls "mic_double_8" KF64 8 1 8 32 MNone
    (fun m => match m with
     | MCtorScalar => Some mic_double_8_ctor_scalar
     | MCtorPtr => Some mic_double_8_ctor_ptr
     | MCtorRegs => Some mic_double_8_ctor_regs
     | MCtorList => Some mic_double_8_ctor_list
     | MSubEq => Some mic_double_8_sub_eq
     | MSub => Some mic_double_8_sub
     | MAddEq => Some mic_double_8_add_eq
     | MAdd => Some mic_double_8_add
     | MMulEq => Some mic_double_8_mul_eq
     | MMul => Some mic_double_8_mul
     | MDivEq => Some mic_double_8_div_eq
     | MDiv => Some mic_double_8_div
     | MSqrt => Some mic_double_8_sqrt
     | MLoad => Some mic_double_8_load
     | MLoadAligned => Some mic_double_8_load_aligned
     | MStore => Some mic_double_8_store
     | MStoreAligned => Some mic_double_8_store_aligned
     | MStoreNt => Some mic_double_8_store_nt
     | MGather => Some mic_double_8_gather
     | MScatter => Some mic_double_8_scatter
     | _ => None
     end)
    mic_double_8_ctor_regs mic_double_8_print.

(* short_vec_mic_double_16.hpp:58-62 *)
Definition mic_double_16_ctor_scalar : body :=
  [SSet (LVal (EInt 0)) (ECall _mm512_set1_pd [EArg]);
   SSet (LVal (EInt 1)) (ECall _mm512_set1_pd [EArg])].

(* short_vec_mic_double_16.hpp:64-68 *)
Definition mic_double_16_ctor_ptr : body :=
  [SSet (LVal (EInt 0)) (ECall _mm512_loadunpacklo_pd [vv 0; dat 0]);
   SSet (LVal (EInt 0)) (ECall _mm512_loadunpackhi_pd [vv 0; dat 8]);
   SSet (LVal (EInt 1)) (ECall _mm512_loadunpacklo_pd [vv 1; dat 8]);
   SSet (LVal (EInt 1)) (ECall _mm512_loadunpackhi_pd [vv 1; dat 16])].

(* short_vec_mic_double_16.hpp:70-74 *)
Definition mic_double_16_ctor_regs : body :=
  [SSet (LVal (EInt 0)) (EPar 0);
   SSet (LVal (EInt 1)) (EPar 1)].

(* short_vec_mic_double_16.hpp:77-82 *)
Definition mic_double_16_ctor_list : body :=
  [SSet (LVal (EInt 0)) (ECall _mm512_loadunpacklo_pd [vv 0; dat 0]);
   SSet (LVal (EInt 0)) (ECall _mm512_loadunpackhi_pd [vv 0; dat 8]);
   SSet (LVal (EInt 1)) (ECall _mm512_loadunpacklo_pd [vv 1; dat 8]);
   SSet (LVal (EInt 1)) (ECall _mm512_loadunpackhi_pd [vv 1; dat 16])].

(* short_vec_mic_double_16.hpp:85-90 *)
Definition mic_double_16_sub_eq : body :=
  [SSet (LVal (EInt 0)) (ECall _mm512_sub_pd [vv 0; oo 0]);
   SSet (LVal (EInt 1)) (ECall _mm512_sub_pd [vv 1; oo 1])].

(* short_vec_mic_double_16.hpp:92-98 *)
Definition mic_double_16_sub : body :=
  [SRetVec [(ECall _mm512_sub_pd [vv 0; oo 0]); (ECall _mm512_sub_pd [vv 1; oo 1])]].

(* short_vec_mic_double_16.hpp:100-105 *)
Definition mic_double_16_add_eq : body :=
  [SSet (LVal (EInt 0)) (ECall _mm512_add_pd [vv 0; oo 0]);
   SSet (LVal (EInt 1)) (ECall _mm512_add_pd [vv 1; oo 1])].

(* short_vec_mic_double_16.hpp:107-113 *)
Definition mic_double_16_add : body :=
  [SRetVec [(ECall _mm512_add_pd [vv 0; oo 0]); (ECall _mm512_add_pd [vv 1; oo 1])]].

(* short_vec_mic_double_16.hpp:115-120 *)
Definition mic_double_16_mul_eq : body :=
  [SSet (LVal (EInt 0)) (ECall _mm512_mul_pd [vv 0; oo 0]);
   SSet (LVal (EInt 1)) (ECall _mm512_mul_pd [vv 1; oo 1])].

(* short_vec_mic_double_16.hpp:122-128 *)
Definition mic_double_16_mul : body :=
  [SRetVec [(ECall _mm512_mul_pd [vv 0; oo 0]); (ECall _mm512_mul_pd [vv 1; oo 1])]].

(* short_vec_mic_double_16.hpp:130-135 *)
Definition mic_double_16_div_eq : body :=
  [SSet (LVal (EInt 0)) (ECall _mm512_div_pd [vv 0; oo 0]);
   SSet (LVal (EInt 1)) (ECall _mm512_div_pd [vv 1; oo 1])].

(* short_vec_mic_double_16.hpp:137-143 *)
Definition mic_double_16_div : body :=
  [SRetVec [(ECall _mm512_div_pd [vv 0; oo 0]); (ECall _mm512_div_pd [vv 1; oo 1])]].

(* short_vec_mic_double_16.hpp:145-151 *)
Definition mic_double_16_sqrt : body :=
  [SRetVec [(ECall _mm512_sqrt_pd [vv 0]); (ECall _mm512_sqrt_pd [vv 1])]].

(* short_vec_mic_double_16.hpp:153-160 *)
Definition mic_double_16_load : body :=
  [SSet (LVal (EInt 0)) (ECall _mm512_loadunpacklo_pd [vv 0; dat 0]);
   SSet (LVal (EInt 0)) (ECall _mm512_loadunpackhi_pd [vv 0; dat 8]);
   SSet (LVal (EInt 1)) (ECall _mm512_loadunpacklo_pd [vv 1; dat 8]);
   SSet (LVal (EInt 1)) (ECall _mm512_loadunpackhi_pd [vv 1; dat 16])].

(* short_vec_mic_double_16.hpp:162-168 *)
Definition mic_double_16_load_aligned : body :=
  [SAssertAligned EData 64;
   SSet (LVal (EInt 0)) (ECall _mm512_load_pd [dat 0]);
   SSet (LVal (EInt 1)) (ECall _mm512_load_pd [dat 8])].

(* short_vec_mic_double_16.hpp:170-177 *)
Definition mic_double_16_store : body :=
  [SDo (ECall _mm512_packstorelo_pd [dat 0; vv 0]);
   SDo (ECall _mm512_packstorehi_pd [dat 8; vv 0]);
   SDo (ECall _mm512_packstorelo_pd [dat 8; vv 1]);
   SDo (ECall _mm512_packstorehi_pd [dat 16; vv 1])].

(* short_vec_mic_double_16.hpp:179-185 *)
Definition mic_double_16_store_aligned : body :=
  [SAssertAligned EData 64;
   SDo (ECall _mm512_store_pd [dat 0; vv 0]);
   SDo (ECall _mm512_store_pd [dat 8; vv 1])].

(* short_vec_mic_double_16.hpp:187-193 *)
Definition mic_double_16_store_nt : body :=
  [SAssertAligned EData 64;
   SDo (ECall _mm512_storenr_pd [dat 0; vv 0]);
   SDo (ECall _mm512_storenr_pd [dat 8; vv 1])].

(* short_vec_mic_double_16.hpp:195-204 *)
Definition mic_double_16_gather : body :=
  [SAssertAligned EOff 64;
   SDecl "indices" 16;
   SSet (LVar "indices") (ECall _mm512_load_epi32 [EOff]);
   SSet (LVal (EInt 0)) (ECall _mm512_i32logather_pd [(EVar "indices"); EPtr; EInt 8]);
   SSet (LVar "indices") (ECall _mm512_permute4f128_epi32 [(EVar "indices"); (EInt _MM_PERM_BADC)]);
   SSet (LVal (EInt 1)) (ECall _mm512_i32logather_pd [(EVar "indices"); EPtr; EInt 8])].

(* short_vec_mic_double_16.hpp:206-215 *)
Definition mic_double_16_scatter : body :=
  [SAssertAligned EOff 64;
   SDecl "indices" 16;
   SSet (LVar "indices") (ECall _mm512_load_epi32 [EOff]);
   SDo (ECall _mm512_i32loscatter_pd [EPtr; (EVar "indices"); vv 0; EInt 8]);
   SSet (LVar "indices") (ECall _mm512_permute4f128_epi32 [(EVar "indices"); (EInt _MM_PERM_BADC)]);
   SDo (ECall _mm512_i32loscatter_pd [EPtr; (EVar "indices"); vv 1; EInt 8])].

(* short_vec_mic_double_16.hpp:241-251 *)
Definition mic_double_16_print : list item :=
  [PStr "["; PVal (EIdx (vv 0) (EInt 0)); PStr ", "; PVal (EIdx (vv 0) (EInt 1)); PStr ", "; PVal
   (EIdx (vv 0) (EInt 2)); PStr ", "; PVal (EIdx (vv 0) (EInt 3)); PStr ", "; PVal (EIdx (vv 0)
   (EInt 4)); PStr ", "; PVal (EIdx (vv 0) (EInt 5)); PStr ", "; PVal (EIdx (vv 0) (EInt 6)); PStr
   ", "; PVal (EIdx (vv 0) (EInt 7)); PStr ", "; PVal (EIdx (vv 1) (EInt 0)); PStr ", "; PVal (EIdx
   (vv 1) (EInt 1)); PStr ", "; PVal (EIdx (vv 1) (EInt 2)); PStr ", "; PVal (EIdx (vv 1) (EInt
   3)); PStr ", "; PVal (EIdx (vv 1) (EInt 4)); PStr ", "; PVal (EIdx (vv 1) (EInt 5)); PStr ", ";
   PVal (EIdx (vv 1) (EInt 6)); PStr ", "; PVal (EIdx (vv 1) (EInt 7)); PStr "]"].

(* short_vec_mic_double_16.hpp *)
Definition cls_mic_double_16 : cls :=
  mkCls "mic_double_16" KF64 16 2 8 32 MNone
    (fun m => match m with
     | MCtorScalar => Some mic_double_16_ctor_scalar
     | MCtorPtr => Some mic_double_16_ctor_ptr
     | MCtorRegs => Some mic_double_16_ctor_regs
     | MCtorList => Some mic_double_16_ctor_list
     | MSubEq => Some mic_double_16_sub_eq
     | MSub => Some mic_double_16_sub
     | MAddEq => Some mic_double_16_add_eq
     | MAdd => Some mic_double_16_add
     | MMulEq => Some mic_double_16_mul_eq
     | MMul => Some mic_double_16_mul
     | MDivEq => Some mic_double_16_div_eq
     | MDiv => Some mic_double_16_div
     | MSqrt => Some mic_double_16_sqrt
     | MLoad => Some mic_double_16_load
     | MLoadAligned => Some mic_double_16_load_aligned
     | MStore => Some mic_double_16_store
     | MStoreAligned => Some mic_double_16_store_aligned
     | MStoreNt => Some mic_double_16_store_nt
     | MGather => Some mic_double_16_gather
     | MScatter => Some mic_double_16_scatter
     | _ => None
     end)
    mic_double_16_ctor_regs mic_double_16_print.

(* short_vec_mic_double_32.hpp:58-64 *)
Definition mic_double_32_ctor_scalar : body :=
  [SSet (LVal (EInt 0)) (ECall _mm512_set1_pd [EArg]);
   SSet (LVal (EInt 1)) (ECall _mm512_set1_pd [EArg]);
   SSet (LVal (EInt 2)) (ECall _mm512_set1_pd [EArg]);
   SSet (LVal (EInt 3)) (ECall _mm512_set1_pd [EArg])].

(* short_vec_mic_double_32.hpp:66-70 *)
Definition mic_double_32_ctor_ptr : body :=
  [SSet (LVal (EInt 0)) (ECall _mm512_loadunpacklo_pd [vv 0; dat 0]);
   SSet (LVal (EInt 0)) (ECall _mm512_loadunpackhi_pd [vv 0; dat 8]);
   SSet (LVal (EInt 1)) (ECall _mm512_loadunpacklo_pd [vv 1; dat 8]);
   SSet (LVal (EInt 1)) (ECall _mm512_loadunpackhi_pd [vv 1; dat 16]);
   SSet (LVal (EInt 2)) (ECall _mm512_loadunpacklo_pd [vv 2; dat 16]);
   SSet (LVal (EInt 2)) (ECall _mm512_loadunpackhi_pd [vv 2; dat 24]);
   SSet (LVal (EInt 3)) (ECall _mm512_loadunpacklo_pd [vv 3; dat 24]);
   SSet (LVal (EInt 3)) (ECall _mm512_loadunpackhi_pd [vv 3; dat 32])].

(* short_vec_mic_double_32.hpp:72-82 *)
Definition mic_double_32_ctor_regs : body :=
  [SSet (LVal (EInt 0)) (EPar 0);
   SSet (LVal (EInt 1)) (EPar 1);
   SSet (LVal (EInt 2)) (EPar 2);
   SSet (LVal (EInt 3)) (EPar 3)].

(* short_vec_mic_double_32.hpp:85-90 *)
Definition mic_double_32_ctor_list : body :=
  [SSet (LVal (EInt 0)) (ECall _mm512_loadunpacklo_pd [vv 0; dat 0]);
   SSet (LVal (EInt 0)) (ECall _mm512_loadunpackhi_pd [vv 0; dat 8]);
   SSet (LVal (EInt 1)) (ECall _mm512_loadunpacklo_pd [vv 1; dat 8]);
   SSet (LVal (EInt 1)) (ECall _mm512_loadunpackhi_pd [vv 1; dat 16]);
   SSet (LVal (EInt 2)) (ECall _mm512_loadunpacklo_pd [vv 2; dat 16]);
   SSet (LVal (EInt 2)) (ECall _mm512_loadunpackhi_pd [vv 2; dat 24]);
   SSet (LVal (EInt 3)) (ECall _mm512_loadunpacklo_pd [vv 3; dat 24]);
   SSet (LVal (EInt 3)) (ECall _mm512_loadunpackhi_pd [vv 3; dat 32])].

(* short_vec_mic_double_32.hpp:93-100 *)
Definition mic_double_32_sub_eq : body :=
  [SSet (LVal (EInt 0)) (ECall _mm512_sub_pd [vv 0; oo 0]);
   SSet (LVal (EInt 1)) (ECall _mm512_sub_pd [vv 1; oo 1]);
   SSet (LVal (EInt 2)) (ECall _mm512_sub_pd [vv 2; oo 2]);
   SSet (LVal (EInt 3)) (ECall _mm512_sub_pd [vv 3; oo 3])].

(* short_vec_mic_double_32.hpp:102-110 *)
Definition mic_double_32_sub : body :=
  [SRetVec [(ECall _mm512_sub_pd [vv 0; oo 0]); (ECall _mm512_sub_pd [vv 1; oo 1]); (ECall
    _mm512_sub_pd [vv 2; oo 2]); (ECall _mm512_sub_pd [vv 3; oo 3])]].

(* short_vec_mic_double_32.hpp:112-119 *)
Definition mic_double_32_add_eq : body :=
  [SSet (LVal (EInt 0)) (ECall _mm512_add_pd [vv 0; oo 0]);
   SSet (LVal (EInt 1)) (ECall _mm512_add_pd [vv 1; oo 1]);
   SSet (LVal (EInt 2)) (ECall _mm512_add_pd [vv 2; oo 2]);
   SSet (LVal (EInt 3)) (ECall _mm512_add_pd [vv 3; oo 3])].

(* short_vec_mic_double_32.hpp:121-129 *)
Definition mic_double_32_add : body :=
  [SRetVec [(ECall _mm512_add_pd [vv 0; oo 0]); (ECall _mm512_add_pd [vv 1; oo 1]); (ECall
    _mm512_add_pd [vv 2; oo 2]); (ECall _mm512_add_pd [vv 3; oo 3])]].

(* short_vec_mic_double_32.hpp:131-138 *)
Definition mic_double_32_mul_eq : body :=
  [SSet (LVal (EInt 0)) (ECall _mm512_mul_pd [vv 0; oo 0]);
   SSet (LVal (EInt 1)) (ECall _mm512_mul_pd [vv 1; oo 1]);
   SSet (LVal (EInt 2)) (ECall _mm512_mul_pd [vv 2; oo 2]);
   SSet (LVal (EInt 3)) (ECall _mm512_mul_pd [vv 3; oo 3])].

(* short_vec_mic_double_32.hpp:140-148 *)
Definition mic_double_32_mul : body :=
  [SRetVec [(ECall _mm512_mul_pd [vv 0; oo 0]); (ECall _mm512_mul_pd [vv 1; oo 1]); (ECall
    _mm512_mul_pd [vv 2; oo 2]); (ECall _mm512_mul_pd [vv 3; oo 3])]].

(* short_vec_mic_double_32.hpp:150-157 *)
Definition mic_double_32_div_eq : body :=
  [SSet (LVal (EInt 0)) (ECall _mm512_div_pd [vv 0; oo 0]);
   SSet (LVal (EInt 1)) (ECall _mm512_div_pd [vv 1; oo 1]);
   SSet (LVal (EInt 2)) (ECall _mm512_div_pd [vv 2; oo 2]);
   SSet (LVal (EInt 3)) (ECall _mm512_div_pd [vv 3; oo 3])].

(* short_vec_mic_double_32.hpp:159-167 *)
Definition mic_double_32_div : body :=
  [SRetVec [(ECall _mm512_div_pd [vv 0; oo 0]); (ECall _mm512_div_pd [vv 1; oo 1]); (ECall
    _mm512_div_pd [vv 2; oo 2]); (ECall _mm512_div_pd [vv 3; oo 3])]].

(* short_vec_mic_double_32.hpp:169-177 *)
Definition mic_double_32_sqrt : body :=
  [SRetVec [(ECall _mm512_sqrt_pd [vv 0]); (ECall _mm512_sqrt_pd [vv 1]); (ECall _mm512_sqrt_pd [vv
    2]); (ECall _mm512_sqrt_pd [vv 3])]].

(* short_vec_mic_double_32.hpp:179-190 *)
Definition mic_double_32_load : body :=
  [SSet (LVal (EInt 0)) (ECall _mm512_loadunpacklo_pd [vv 0; dat 0]);
   SSet (LVal (EInt 0)) (ECall _mm512_loadunpackhi_pd [vv 0; dat 8]);
   SSet (LVal (EInt 1)) (ECall _mm512_loadunpacklo_pd [vv 1; dat 8]);
   SSet (LVal (EInt 1)) (ECall _mm512_loadunpackhi_pd [vv 1; dat 16]);
   SSet (LVal (EInt 2)) (ECall _mm512_loadunpacklo_pd [vv 2; dat 16]);
   SSet (LVal (EInt 2)) (ECall _mm512_loadunpackhi_pd [vv 2; dat 24]);
   SSet (LVal (EInt 3)) (ECall _mm512_loadunpacklo_pd [vv 3; dat 24]);
   SSet (LVal (EInt 3)) (ECall _mm512_loadunpackhi_pd [vv 3; dat 32])].

(* short_vec_mic_double_32.hpp:192-200 *)
Definition mic_double_32_load_aligned : body :=
  [SAssertAligned EData 64;
   SSet (LVal (EInt 0)) (ECall _mm512_load_pd [dat 0]);
   SSet (LVal (EInt 1)) (ECall _mm512_load_pd [dat 8]);
   SSet (LVal (EInt 2)) (ECall _mm512_load_pd [dat 16]);
   SSet (LVal (EInt 3)) (ECall _mm512_load_pd [dat 24])].

(* short_vec_mic_double_32.hpp:202-213 *)
Definition mic_double_32_store : body :=
  [SDo (ECall _mm512_packstorelo_pd [dat 0; vv 0]);
   SDo (ECall _mm512_packstorehi_pd [dat 8; vv 0]);
   SDo (ECall _mm512_packstorelo_pd [dat 8; vv 1]);
   SDo (ECall _mm512_packstorehi_pd [dat 16; vv 1]);
   SDo (ECall _mm512_packstorelo_pd [dat 16; vv 2]);
   SDo (ECall _mm512_packstorehi_pd [dat 24; vv 2]);
   SDo (ECall _mm512_packstorelo_pd [dat 24; vv 3]);
   SDo (ECall _mm512_packstorehi_pd [dat 32; vv 3])].

(* short_vec_mic_double_32.hpp:215-223 *)
Definition mic_double_32_store_aligned : body :=
  [SAssertAligned EData 64;
   SDo (ECall _mm512_store_pd [dat 0; vv 0]);
   SDo (ECall _mm512_store_pd [dat 8; vv 1]);
   SDo (ECall _mm512_store_pd [dat 16; vv 2]);
   SDo (ECall _mm512_store_pd [dat 24; vv 3])].

(* short_vec_mic_double_32.hpp:225-233 *)
Definition mic_double_32_store_nt : body :=
  [SAssertAligned EData 64;
   SDo (ECall _mm512_storenr_pd [dat 0; vv 0]);
   SDo (ECall _mm512_storenr_pd [dat 8; vv 1]);
   SDo (ECall _mm512_storenr_pd [dat 16; vv 2]);
   SDo (ECall _mm512_storenr_pd [dat 24; vv 3])].

(* short_vec_mic_double_32.hpp:235-248 *)
Definition mic_double_32_gather : body :=
  [SAssertAligned EOff 64;
   SDecl "indices" 16;
   SSet (LVar "indices") (ECall _mm512_load_epi32 [(ECop OAdd EOff (EInt 0))]);
   SSet (LVal (EInt 0)) (ECall _mm512_i32logather_pd [(EVar "indices"); EPtr; EInt 8]);
   SSet (LVar "indices") (ECall _mm512_permute4f128_epi32 [(EVar "indices"); (EInt _MM_PERM_BADC)]);
   SSet (LVal (EInt 1)) (ECall _mm512_i32logather_pd [(EVar "indices"); EPtr; EInt 8]);
   SSet (LVar "indices") (ECall _mm512_load_epi32 [(ECop OAdd EOff (EInt 16))]);
   SSet (LVal (EInt 2)) (ECall _mm512_i32logather_pd [(EVar "indices"); EPtr; EInt 8]);
   SSet (LVar "indices") (ECall _mm512_permute4f128_epi32 [(EVar "indices"); (EInt _MM_PERM_BADC)]);
   SSet (LVal (EInt 3)) (ECall _mm512_i32logather_pd [(EVar "indices"); EPtr; EInt 8])].

(* short_vec_mic_double_32.hpp:250-263 *)
Definition mic_double_32_scatter : body :=
  [SAssertAligned EOff 64;
   SDecl "indices" 16;
   SSet (LVar "indices") (ECall _mm512_load_epi32 [(ECop OAdd EOff (EInt 0))]);
   SDo (ECall _mm512_i32loscatter_pd [EPtr; (EVar "indices"); vv 0; EInt 8]);
   SSet (LVar "indices") (ECall _mm512_permute4f128_epi32 [(EVar "indices"); (EInt _MM_PERM_BADC)]);
   SDo (ECall _mm512_i32loscatter_pd [EPtr; (EVar "indices"); vv 1; EInt 8]);
   SSet (LVar "indices") (ECall _mm512_load_epi32 [(ECop OAdd EOff (EInt 16))]);
   SDo (ECall _mm512_i32loscatter_pd [EPtr; (EVar "indices"); vv 2; EInt 8]);
   SSet (LVar "indices") (ECall _mm512_permute4f128_epi32 [(EVar "indices"); (EInt _MM_PERM_BADC)]);
   SDo (ECall _mm512_i32loscatter_pd [EPtr; (EVar "indices"); vv 3; EInt 8])].

(* short_vec_mic_double_32.hpp:289-305 *)
Definition mic_double_32_print : list item :=
  [PStr "["; PVal (EIdx (vv 0) (EInt 0)); PStr ", "; PVal (EIdx (vv 0) (EInt 1)); PStr ", "; PVal
   (EIdx (vv 0) (EInt 2)); PStr ", "; PVal (EIdx (vv 0) (EInt 3)); PStr ", "; PVal (EIdx (vv 0)
   (EInt 4)); PStr ", "; PVal (EIdx (vv 0) (EInt 5)); PStr ", "; PVal (EIdx (vv 0) (EInt 6)); PStr
   ", "; PVal (EIdx (vv 0) (EInt 7)); PStr ", "; PVal (EIdx (vv 1) (EInt 0)); PStr ", "; PVal (EIdx
   (vv 1) (EInt 1)); PStr ", "; PVal (EIdx (vv 1) (EInt 2)); PStr ", "; PVal (EIdx (vv 1) (EInt
   3)); PStr ", "; PVal (EIdx (vv 1) (EInt 4)); PStr ", "; PVal (EIdx (vv 1) (EInt 5)); PStr ", ";
   PVal (EIdx (vv 1) (EInt 6)); PStr ", "; PVal (EIdx (vv 1) (EInt 7)); PStr ", "; PVal (EIdx (vv
   2) (EInt 0)); PStr ", "; PVal (EIdx (vv 2) (EInt 1)); PStr ", "; PVal (EIdx (vv 2) (EInt 2));
   PStr ", "; PVal (EIdx (vv 2) (EInt 3)); PStr ", "; PVal (EIdx (vv 2) (EInt 4)); PStr ", "; PVal
   (EIdx (vv 2) (EInt 5)); PStr ", "; PVal (EIdx (vv 2) (EInt 6)); PStr ", "; PVal (EIdx (vv 2)
   (EInt 7)); PStr ", "; PVal (EIdx (vv 3) (EInt 0)); PStr ", "; PVal (EIdx (vv 3) (EInt 1)); PStr
   ", "; PVal (EIdx (vv 3) (EInt 2)); PStr ", "; PVal (EIdx (vv 3) (EInt 3)); PStr ", "; PVal (EIdx
   (vv 3) (EInt 4)); PStr ", "; PVal (EIdx (vv 3) (EInt 5)); PStr ", "; PVal (EIdx (vv 3) (EInt
   6)); PStr ", "; PVal (EIdx (vv 3) (EInt 7)); PStr "]"].

(* short_vec_mic_double_32.hpp *)
Definition cls_mic_double_32 : cls :=
  mkCls "mic_double_32" KF64 32 4 8 32 MNone
    (fun m => match m with
     | MCtorScalar => Some mic_double_32_ctor_scalar
     | MCtorPtr => Some mic_double_32_ctor_ptr
     | MCtorRegs => Some mic_double_32_ctor_regs
     | MCtorList => Some mic_double_32_ctor_list
     | MSubEq => Some mic_double_32_sub_eq
     | MSub => Some mic_double_32_sub
     | MAddEq => Some mic_double_32_add_eq
     | MAdd => Some mic_double_32_add
     | MMulEq => Some mic_double_32_mul_eq
     | MMul => Some mic_double_32_mul
     | MDivEq => Some mic_double_32_div_eq
     | MDiv => Some mic_double_32_div
     | MSqrt => Some mic_double_32_sqrt
     | MLoad => Some mic_double_32_load
     | MLoadAligned => Some mic_double_32_load_aligned
     | MStore => Some mic_double_32_store
     | MStoreAligned => Some mic_double_32_store_aligned
     | MStoreNt => Some mic_double_32_store_nt
     | MGather => Some mic_double_32_gather
     | MScatter => Some mic_double_32_scatter
     | _ => None
     end)
    mic_double_32_ctor_regs mic_double_32_print.

(* short_vec_mic_float_16.hpp:61-64 *)
Definition mic_float_16_ctor_scalar : body :=
  [SSet (LVal (EInt 0)) (ECall _mm512_set1_ps [EArg])].

(* short_vec_mic_float_16.hpp:66-70 *)
Definition mic_float_16_ctor_ptr : body :=
  [SSet (LVal (EInt 0)) (ECall _mm512_loadunpacklo_ps [vv 0; dat 0]);
   SSet (LVal (EInt 0)) (ECall _mm512_loadunpackhi_ps [vv 0; dat 16])].

(* short_vec_mic_float_16.hpp:72-75 *)
Definition mic_float_16_ctor_regs : body :=
  [SSet (LVal (EInt 0)) (EPar 0)].

(* short_vec_mic_float_16.hpp:78-83 *)
Definition mic_float_16_ctor_list : body :=
  [SSet (LVal (EInt 0)) (ECall _mm512_loadunpacklo_ps [vv 0; dat 0]);
   SSet (LVal (EInt 0)) (ECall _mm512_loadunpackhi_ps [vv 0; dat 16])].

(* short_vec_mic_float_16.hpp:89-93 *)
Definition mic_float_16_sub_eq : body :=
  [SSet (LVal (EInt 0)) (ECall _mm512_sub_ps [vv 0; oo 0])].

(* short_vec_mic_float_16.hpp:95-100 *)
Definition mic_float_16_sub : body :=
  [SRetVec [(ECall _mm512_sub_ps [vv 0; oo 0])]].

(* short_vec_mic_float_16.hpp:102-106 *)
Definition mic_float_16_add_eq : body :=
  [SSet (LVal (EInt 0)) (ECall _mm512_add_ps [vv 0; oo 0])].

(* short_vec_mic_float_16.hpp:108-113 *)
Definition mic_float_16_add : body :=
  [SRetVec [(ECall _mm512_add_ps [vv 0; oo 0])]].

(* short_vec_mic_float_16.hpp:115-119 *)
Definition mic_float_16_mul_eq : body :=
  [SSet (LVal (EInt 0)) (ECall _mm512_mul_ps [vv 0; oo 0])].

(* short_vec_mic_float_16.hpp:121-126 *)
Definition mic_float_16_mul : body :=
  [SRetVec [(ECall _mm512_mul_ps [vv 0; oo 0])]].

(* short_vec_mic_float_16.hpp:128-132 *)
Definition mic_float_16_div_eq : body :=
  [SSet (LVal (EInt 0)) (ECall _mm512_mul_ps [vv 0; (ECall _mm512_rcp23_ps [oo 0])])].

(* short_vec_mic_float_16.hpp:137-142 *)
Definition mic_float_16_div : body :=
  [SRetVec [(ECall _mm512_mul_ps [vv 0; (ECall _mm512_rcp23_ps [oo 0])])]].

(* short_vec_mic_float_16.hpp:147-152 *)
Definition mic_float_16_sqrt : body :=
  [SRetVec [(ECall _mm512_sqrt_ps [vv 0])]].

(* short_vec_mic_float_16.hpp:154-159 *)
Definition mic_float_16_load : body :=
  [SSet (LVal (EInt 0)) (ECall _mm512_loadunpacklo_ps [vv 0; dat 0]);
   SSet (LVal (EInt 0)) (ECall _mm512_loadunpackhi_ps [vv 0; dat 16])].

(* short_vec_mic_float_16.hpp:161-166 *)
Definition mic_float_16_load_aligned : body :=
  [SAssertAligned EData 64;
   SSet (LVal (EInt 0)) (ECall _mm512_load_ps [EData])].

(* short_vec_mic_float_16.hpp:168-173 *)
Definition mic_float_16_store : body :=
  [SDo (ECall _mm512_packstorelo_ps [dat 0; vv 0]);
   SDo (ECall _mm512_packstorehi_ps [dat 16; vv 0])].

(* short_vec_mic_float_16.hpp:175-180 *)
Definition mic_float_16_store_aligned : body :=
  [SAssertAligned EData 64;
   SDo (ECall _mm512_store_ps [EData; vv 0])].

(* short_vec_mic_float_16.hpp:182-187 *)
Definition mic_float_16_store_nt : body :=
  [SAssertAligned EData 64;
   SDo (ECall _mm512_storenr_ps [EData; vv 0])].

(* short_vec_mic_float_16.hpp:189-196 *)
Definition mic_float_16_gather : body :=
  [SDecl "indices" 16;
   SAssertAligned EOff 64;
   SSet (LVar "indices") (ECall _mm512_load_epi32 [EOff]);
   SSet (LVal (EInt 0)) (ECall _mm512_i32gather_ps [(EVar "indices"); EPtr; EInt 4])].

(* short_vec_mic_float_16.hpp:198-205 *)
Definition mic_float_16_scatter : body :=
  [SDecl "indices" 16;
   SAssertAligned EOff 64;
   SSet (LVar "indices") (ECall _mm512_load_epi32 [EOff]);
   SDo (ECall _mm512_i32scatter_ps [EPtr; (EVar "indices"); vv 0; EInt 4])].

(* short_vec_mic_float_16.hpp:237-239 *)
Definition mic_float_16_ctor_sqrt : body :=
  [SSet (LVal (EInt 0)) (ECall _mm512_sqrt_ps [oo 0])].

(* short_vec_mic_float_16.hpp:242-245 *)
Definition mic_float_16_div_eq_sqrt : body :=
  [SSet (LVal (EInt 0)) (ECall _mm512_mul_ps [vv 0; (ECall _mm512_rsqrt23_ps [oo 0])])].

(* short_vec_mic_float_16.hpp:248-252 *)
Definition mic_float_16_div_sqrt : body :=
  [SRetVec [(ECall _mm512_mul_ps [vv 0; (ECall _mm512_rsqrt23_ps [oo 0])])]].

(* short_vec_mic_float_16.hpp:264-272 *)
Definition mic_float_16_print : list item :=
  [PStr "["; PVal (EIdx (vv 0) (EInt 0)); PStr ", "; PVal (EIdx (vv 0) (EInt 1)); PStr ", "; PVal
   (EIdx (vv 0) (EInt 2)); PStr ", "; PVal (EIdx (vv 0) (EInt 3)); PStr ", "; PVal (EIdx (vv 0)
   (EInt 4)); PStr ", "; PVal (EIdx (vv 0) (EInt 5)); PStr ", "; PVal (EIdx (vv 0) (EInt 6)); PStr
   ", "; PVal (EIdx (vv 0) (EInt 7)); PStr ", "; PVal (EIdx (vv 0) (EInt 8)); PStr ", "; PVal (EIdx
   (vv 0) (EInt 9)); PStr ", "; PVal (EIdx (vv 0) (EInt 10)); PStr ", "; PVal (EIdx (vv 0) (EInt
   11)); PStr ", "; PVal (EIdx (vv 0) (EInt 12)); PStr ", "; PVal (EIdx (vv 0) (EInt 13)); PStr
   ", "; PVal (EIdx (vv 0) (EInt 14)); PStr ", "; PVal (EIdx (vv 0) (EInt 15)); PStr "]"].

(* short_vec_mic_float_16.hpp *)
Definition cls_mic_float_16 : cls :=
  mkCls "mic_float_16" KF32 16 1 16 32 MNone
    (fun m => match m with
     | MCtorScalar => Some mic_float_16_ctor_scalar
     | MCtorPtr => Some mic_float_16_ctor_ptr
     | MCtorRegs => Some mic_float_16_ctor_regs
     | MCtorSqrt => Some mic_float_16_ctor_sqrt
     | MCtorList => Some mic_float_16_ctor_list
     | MSubEq => Some mic_float_16_sub_eq
     | MSub => Some mic_float_16_sub
     | MAddEq => Some mic_float_16_add_eq
     | MAdd => Some mic_float_16_add
     | MMulEq => Some mic_float_16_mul_eq
     | MMul => Some mic_float_16_mul
     | MDivEq => Some mic_float_16_div_eq
     | MDiv => Some mic_float_16_div
     | MDivEqSqrt => Some mic_float_16_div_eq_sqrt
     | MDivSqrt => Some mic_float_16_div_sqrt
     | MSqrt => Some mic_float_16_sqrt
     | MLoad => Some mic_float_16_load
     | MLoadAligned => Some mic_float_16_load_aligned
     | MStore => Some mic_float_16_store
     | MStoreAligned => Some mic_float_16_store_aligned
     | MStoreNt => Some mic_float_16_store_nt
     | MGather => Some mic_float_16_gather
     | MScatter => Some mic_float_16_scatter
     | _ => None
     end)
    mic_float_16_ctor_regs mic_float_16_print.

(* short_vec_mic_float_32.hpp:61-65 *)
Definition mic_float_32_ctor_scalar : body :=
  [SSet (LVal (EInt 0)) (ECall _mm512_set1_ps [EArg]);
   SSet (LVal (EInt 1)) (ECall _mm512_set1_ps [EArg])].

(* short_vec_mic_float_32.hpp:67-71 *)
Definition mic_float_32_ctor_ptr : body :=
  [SSet (LVal (EInt 0)) (ECall _mm512_loadunpacklo_ps [vv 0; dat 0]);
   SSet (LVal (EInt 0)) (ECall _mm512_loadunpackhi_ps [vv 0; dat 16]);
   SSet (LVal (EInt 1)) (ECall _mm512_loadunpacklo_ps [vv 1; dat 16]);
   SSet (LVal (EInt 1)) (ECall _mm512_loadunpackhi_ps [vv 1; dat 32])].

(* short_vec_mic_float_32.hpp:73-77 *)
Definition mic_float_32_ctor_regs : body :=
  [SSet (LVal (EInt 0)) (EPar 0);
   SSet (LVal (EInt 1)) (EPar 1)].

(* short_vec_mic_float_32.hpp:80-85 *)
Definition mic_float_32_ctor_list : body :=
  [SSet (LVal (EInt 0)) (ECall _mm512_loadunpacklo_ps [vv 0; dat 0]);
   SSet (LVal (EInt 0)) (ECall _mm512_loadunpackhi_ps [vv 0; dat 16]);
   SSet (LVal (EInt 1)) (ECall _mm512_loadunpacklo_ps [vv 1; dat 16]);
   SSet (LVal (EInt 1)) (ECall _mm512_loadunpackhi_ps [vv 1; dat 32])].

(* short_vec_mic_float_32.hpp:91-96 *)
Definition mic_float_32_sub_eq : body :=
  [SSet (LVal (EInt 0)) (ECall _mm512_sub_ps [vv 0; oo 0]);
   SSet (LVal (EInt 1)) (ECall _mm512_sub_ps [vv 1; oo 1])].

(* short_vec_mic_float_32.hpp:98-104 *)
Definition mic_float_32_sub : body :=
  [SRetVec [(ECall _mm512_sub_ps [vv 0; oo 0]); (ECall _mm512_sub_ps [vv 1; oo 1])]].

(* short_vec_mic_float_32.hpp:106-111 *)
Definition mic_float_32_add_eq : body :=
  [SSet (LVal (EInt 0)) (ECall _mm512_add_ps [vv 0; oo 0]);
   SSet (LVal (EInt 1)) (ECall _mm512_add_ps [vv 1; oo 1])].

(* short_vec_mic_float_32.hpp:113-119 *)
Definition mic_float_32_add : body :=
  [SRetVec [(ECall _mm512_add_ps [vv 0; oo 0]); (ECall _mm512_add_ps [vv 1; oo 1])]].

(* short_vec_mic_float_32.hpp:121-126 *)
Definition mic_float_32_mul_eq : body :=
  [SSet (LVal (EInt 0)) (ECall _mm512_mul_ps [vv 0; oo 0]);
   SSet (LVal (EInt 1)) (ECall _mm512_mul_ps [vv 1; oo 1])].

(* short_vec_mic_float_32.hpp:128-134 *)
Definition mic_float_32_mul : body :=
  [SRetVec [(ECall _mm512_mul_ps [vv 0; oo 0]); (ECall _mm512_mul_ps [vv 1; oo 1])]].

(* short_vec_mic_float_32.hpp:136-141 *)
Definition mic_float_32_div_eq : body :=
  [SSet (LVal (EInt 0)) (ECall _mm512_mul_ps [vv 0; (ECall _mm512_rcp23_ps [oo 0])]);
   SSet (LVal (EInt 1)) (ECall _mm512_mul_ps [vv 1; (ECall _mm512_rcp23_ps [oo 1])])].

(* short_vec_mic_float_32.hpp:146-152 *)
Definition mic_float_32_div : body :=
  [SRetVec [(ECall _mm512_mul_ps [vv 0; (ECall _mm512_rcp23_ps [oo 0])]); (ECall _mm512_mul_ps [vv
    1; (ECall _mm512_rcp23_ps [oo 1])])]].

(* short_vec_mic_float_32.hpp:157-163 *)
Definition mic_float_32_sqrt : body :=
  [SRetVec [(ECall _mm512_sqrt_ps [vv 0]); (ECall _mm512_sqrt_ps [vv 1])]].

(* short_vec_mic_float_32.hpp:165-172 *)
Definition mic_float_32_load : body :=
  [SSet (LVal (EInt 0)) (ECall _mm512_loadunpacklo_ps [vv 0; dat 0]);
   SSet (LVal (EInt 0)) (ECall _mm512_loadunpackhi_ps [vv 0; dat 16]);
   SSet (LVal (EInt 1)) (ECall _mm512_loadunpacklo_ps [vv 1; dat 16]);
   SSet (LVal (EInt 1)) (ECall _mm512_loadunpackhi_ps [vv 1; dat 32])].

(* short_vec_mic_float_32.hpp:174-180 *)
Definition mic_float_32_load_aligned : body :=
  [SAssertAligned EData 64;
   SSet (LVal (EInt 0)) (ECall _mm512_load_ps [dat 0]);
   SSet (LVal (EInt 1)) (ECall _mm512_load_ps [dat 16])].

(* short_vec_mic_float_32.hpp:182-189 *)
Definition mic_float_32_store : body :=
  [SDo (ECall _mm512_packstorelo_ps [dat 0; vv 0]);
   SDo (ECall _mm512_packstorehi_ps [dat 16; vv 0]);
   SDo (ECall _mm512_packstorelo_ps [dat 16; vv 1]);
   SDo (ECall _mm512_packstorehi_ps [dat 32; vv 1])].

(* short_vec_mic_float_32.hpp:191-197 *)
Definition mic_float_32_store_aligned : body :=
  [SAssertAligned EData 64;
   SDo (ECall _mm512_store_ps [dat 0; vv 0]);
   SDo (ECall _mm512_store_ps [dat 16; vv 1])].

(* short_vec_mic_float_32.hpp:199-205 *)
Definition mic_float_32_store_nt : body :=
  [SAssertAligned EData 64;
   SDo (ECall _mm512_storenr_ps [dat 0; vv 0]);
   SDo (ECall _mm512_storenr_ps [dat 16; vv 1])].

(* short_vec_mic_float_32.hpp:207-216 *)
Definition mic_float_32_gather : body :=
  [SDecl "indices" 16;
   SAssertAligned EOff 64;
   SSet (LVar "indices") (ECall _mm512_load_epi32 [(ECop OAdd EOff (EInt 0))]);
   SSet (LVal (EInt 0)) (ECall _mm512_i32gather_ps [(EVar "indices"); EPtr; EInt 4]);
   SSet (LVar "indices") (ECall _mm512_load_epi32 [(ECop OAdd EOff (EInt 16))]);
   SSet (LVal (EInt 1)) (ECall _mm512_i32gather_ps [(EVar "indices"); EPtr; EInt 4])].

(* short_vec_mic_float_32.hpp:218-227 *)
Definition mic_float_32_scatter : body :=
  [SDecl "indices" 16;
   SAssertAligned EOff 64;
   SSet (LVar "indices") (ECall _mm512_load_epi32 [(ECop OAdd EOff (EInt 0))]);
   SDo (ECall _mm512_i32scatter_ps [EPtr; (EVar "indices"); vv 0; EInt 4]);
   SSet (LVar "indices") (ECall _mm512_load_epi32 [(ECop OAdd EOff (EInt 16))]);
   SDo (ECall _mm512_i32scatter_ps [EPtr; (EVar "indices"); vv 1; EInt 4])].

(* short_vec_mic_float_32.hpp:259-262 *)
Definition mic_float_32_ctor_sqrt : body :=
  [SSet (LVal (EInt 0)) (ECall _mm512_sqrt_ps [oo 0]);
   SSet (LVal (EInt 1)) (ECall _mm512_sqrt_ps [oo 1])].

(* short_vec_mic_float_32.hpp:265-269 *)
Definition mic_float_32_div_eq_sqrt : body :=
  [SSet (LVal (EInt 0)) (ECall _mm512_mul_ps [vv 0; (ECall _mm512_rsqrt23_ps [oo 0])]);
   SSet (LVal (EInt 1)) (ECall _mm512_mul_ps [vv 1; (ECall _mm512_rsqrt23_ps [oo 1])])].

(* short_vec_mic_float_32.hpp:272-277 *)
Definition mic_float_32_div_sqrt : body :=
  [SRetVec [(ECall _mm512_mul_ps [vv 0; (ECall _mm512_rsqrt23_ps [oo 0])]); (ECall _mm512_mul_ps
    [vv 1; (ECall _mm512_rsqrt23_ps [oo 1])])]].

(* short_vec_mic_float_32.hpp:289-302 *)
Definition mic_float_32_print : list item :=
  [PStr "["; PVal (EIdx (vv 0) (EInt 0)); PStr ", "; PVal (EIdx (vv 0) (EInt 1)); PStr ", "; PVal
   (EIdx (vv 0) (EInt 2)); PStr ", "; PVal (EIdx (vv 0) (EInt 3)); PStr ", "; PVal (EIdx (vv 0)
   (EInt 4)); PStr ", "; PVal (EIdx (vv 0) (EInt 5)); PStr ", "; PVal (EIdx (vv 0) (EInt 6)); PStr
   ", "; PVal (EIdx (vv 0) (EInt 7)); PStr ", "; PVal (EIdx (vv 0) (EInt 8)); PStr ", "; PVal (EIdx
   (vv 0) (EInt 9)); PStr ", "; PVal (EIdx (vv 0) (EInt 10)); PStr ", "; PVal (EIdx (vv 0) (EInt
   11)); PStr ", "; PVal (EIdx (vv 0) (EInt 12)); PStr ", "; PVal (EIdx (vv 0) (EInt 13)); PStr
   ", "; PVal (EIdx (vv 0) (EInt 14)); PStr ", "; PVal (EIdx (vv 0) (EInt 15)); PStr ", "; PVal
   (EIdx (vv 1) (EInt 0)); PStr ", "; PVal (EIdx (vv 1) (EInt 1)); PStr ", "; PVal (EIdx (vv 1)
   (EInt 2)); PStr ", "; PVal (EIdx (vv 1) (EInt 3)); PStr ", "; PVal (EIdx (vv 1) (EInt 4)); PStr
   ", "; PVal (EIdx (vv 1) (EInt 5)); PStr ", "; PVal (EIdx (vv 1) (EInt 6)); PStr ", "; PVal (EIdx
   (vv 1) (EInt 7)); PStr ", "; PVal (EIdx (vv 1) (EInt 8)); PStr ", "; PVal (EIdx (vv 1) (EInt
   9)); PStr ", "; PVal (EIdx (vv 1) (EInt 10)); PStr ", "; PVal (EIdx (vv 1) (EInt 11)); PStr
   ", "; PVal (EIdx (vv 1) (EInt 12)); PStr ", "; PVal (EIdx (vv 1) (EInt 13)); PStr ", "; PVal
   (EIdx (vv 1) (EInt 14)); PStr ", "; PVal (EIdx (vv 1) (EInt 15)); PStr "]"].

(* short_vec_mic_float_32.hpp *)
Definition cls_mic_float_32 : cls :=
  mkCls "mic_float_32" KF32 32 2 16 32 MNone
    (fun m => match m with
     | MCtorScalar => Some mic_float_32_ctor_scalar
     | MCtorPtr => Some mic_float_32_ctor_ptr
     | MCtorRegs => Some mic_float_32_ctor_regs
     | MCtorSqrt => Some mic_float_32_ctor_sqrt
     | MCtorList => Some mic_float_32_ctor_list
     | MSubEq => Some mic_float_32_sub_eq
     | MSub => Some mic_float_32_sub
     | MAddEq => Some mic_float_32_add_eq
     | MAdd => Some mic_float_32_add
     | MMulEq => Some mic_float_32_mul_eq
     | MMul => Some mic_float_32_mul
     | MDivEq => Some mic_float_32_div_eq
     | MDiv => Some mic_float_32_div
     | MDivEqSqrt => Some mic_float_32_div_eq_sqrt
     | MDivSqrt => Some mic_float_32_div_sqrt
     | MSqrt => Some mic_float_32_sqrt
     | MLoad => Some mic_float_32_load
     | MLoadAligned => Some mic_float_32_load_aligned
     | MStore => Some mic_float_32_store
     | MStoreAligned => Some mic_float_32_store_aligned
     | MStoreNt => Some mic_float_32_store_nt
     | MGather => Some mic_float_32_gather
     | MScatter => Some mic_float_32_scatter
     | _ => None
     end)
    mic_float_32_ctor_regs mic_float_32_print.

Definition mic_classes : list cls :=
  [cls_mic_double_8; cls_mic_double_16; cls_mic_double_32; cls_mic_float_16; cls_mic_float_32].
