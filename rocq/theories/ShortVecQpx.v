(** The member functions of the short_vec classes in
    /repo/include/libflatarray/detail/short_vec_qpx_*.hpp, call by call, in the
    language of ShortVecLang.v.  Each definition cites the lines it was
    transliterated from.  Calls of load() and store() are expanded. *)
From Coq Require Import String ZArith List.
From Verif Require Import ShortVecLang ShortVecClass.
Import ListNotations.
Local Open Scope Z_scope.
Local Open Scope string_scope.

(* short_vec_qpx_double_4.hpp:52-55 *)
Definition qpx_double_4_ctor_scalar : body :=
  [SSet (LVal (EInt 0)) (ECall vec_splats [EArg])].

(* short_vec_qpx_double_4.hpp:57-60 *)
Definition qpx_double_4_ctor_ptr : body :=
  [SSet (LVal (EInt 0)) (ECall vec_ld [EInt 0; EData])].

(* short_vec_qpx_double_4.hpp:62-65 *)
Definition qpx_double_4_ctor_regs : body :=
  [SSet (LVal (EInt 0)) (EPar 0)].

(* short_vec_qpx_double_4.hpp:68-73 *)
Definition qpx_double_4_ctor_list : body :=
  [SSet (LVal (EInt 0)) (ECall vec_ld [EInt 0; EData])].

(* short_vec_qpx_double_4.hpp:79-83 *)
Definition qpx_double_4_sub_eq : body :=
  [SSet (LVal (EInt 0)) (ECall vec_sub [vv 0; oo 0])].

(* short_vec_qpx_double_4.hpp:85-90 *)
Definition qpx_double_4_sub : body :=
  [SRetVec [(ECall vec_sub [vv 0; oo 0])]].

(* short_vec_qpx_double_4.hpp:92-96 *)
Definition qpx_double_4_add_eq : body :=
  [SSet (LVal (EInt 0)) (ECall vec_add [vv 0; oo 0])].

(* short_vec_qpx_double_4.hpp:98-103 *)
Definition qpx_double_4_add : body :=
  [SRetVec [(ECall vec_add [vv 0; oo 0])]].

(* short_vec_qpx_double_4.hpp:105-109 *)
Definition qpx_double_4_mul_eq : body :=
  [SSet (LVal (EInt 0)) (ECall vec_add [vv 0; oo 0])].

(* short_vec_qpx_double_4.hpp:111-116 *)
Definition qpx_double_4_mul : body :=
  [SRetVec [(ECall vec_mul [vv 0; oo 0])]].

(* short_vec_qpx_double_4.hpp:121-125 *)
Definition qpx_double_4_div_eq : body :=
  [SSet (LVal (EInt 0)) (ECall vec_swdiv_nochk [vv 0; oo 0])].

(* short_vec_qpx_double_4.hpp:127-132 *)
Definition qpx_double_4_div : body :=
  [SRetVec [(ECall vec_swdiv_nochk [vv 0; oo 0])]].

(* short_vec_qpx_double_4.hpp:137-142 *)
Definition qpx_double_4_sqrt : body :=
  [SRetVec [(ECall vec_swsqrt [vv 0])]].

(* short_vec_qpx_double_4.hpp:144-148 *)
Definition qpx_double_4_load : body :=
  [SSet (LVal (EInt 0)) (ECall vec_ld [EInt 0; EData])].

(* short_vec_qpx_double_4.hpp:150-155 *)
Definition qpx_double_4_load_aligned : body :=
  [SAssertAligned EData 32;
   SSet (LVal (EInt 0)) (ECall vec_lda [EInt 0; EData])].

(* short_vec_qpx_double_4.hpp:157-161 *)
Definition qpx_double_4_store : body :=
  [SDo (ECall vec_st [vv 0; EInt 0; EData])].

(* short_vec_qpx_double_4.hpp:163-168 *)
Definition qpx_double_4_store_aligned : body :=
  [SAssertAligned EData 32;
   SDo (ECall vec_sta [vv 0; EInt 0; EData])].

(* short_vec_qpx_double_4.hpp:170-174 *)
Definition qpx_double_4_store_nt : body :=
  [SDo (ECall vec_st [vv 0; EInt 0; EData])].

(* short_vec_qpx_double_4.hpp:176-184 *)
Definition qpx_double_4_gather : body :=
  [SSet (LVal (EInt 0)) (ECall vec_insert [(EIdx EPtr (off 0)); vv 0; EInt 0]);
   SSet (LVal (EInt 0)) (ECall vec_insert [(EIdx EPtr (off 1)); vv 0; EInt 1]);
   SSet (LVal (EInt 0)) (ECall vec_insert [(EIdx EPtr (off 2)); vv 0; EInt 2]);
   SSet (LVal (EInt 0)) (ECall vec_insert [(EIdx EPtr (off 3)); vv 0; EInt 3])].

(* short_vec_qpx_double_4.hpp:186-193 *)
Definition qpx_double_4_scatter : body :=
  [SSet (LMem (pto 0)) (ECall vec_extract [vv 0; EInt 0]);
   SSet (LMem (pto 1)) (ECall vec_extract [vv 0; EInt 1]);
   SSet (LMem (pto 2)) (ECall vec_extract [vv 0; EInt 2]);
   SSet (LMem (pto 3)) (ECall vec_extract [vv 0; EInt 3])].

(* short_vec_qpx_double_4.hpp:225-227 *)
Definition qpx_double_4_ctor_sqrt : body :=
  [SSet (LVal (EInt 0)) (ECall vec_swsqrt [oo 0])].

(* short_vec_qpx_double_4.hpp:230-233 *)
Definition qpx_double_4_div_eq_sqrt : body :=
  [SSet (LVal (EInt 0)) (ECall vec_mul [vv 0; (ECall vec_rsqrte [oo 0])])].

(* short_vec_qpx_double_4.hpp:236-239 *)
Definition qpx_double_4_div_sqrt : body :=
  [SRetVec [(ECall vec_mul [vv 0; (ECall vec_rsqrte [oo 0])])]].

(* short_vec_qpx_double_4.hpp:251-259 *)
Definition qpx_double_4_print : list item :=
  [PStr "["; PVal (EIdx (vv 0) (EInt 0)); PStr ", "; PVal (EIdx (vv 0) (EInt 1)); PStr ", "; PVal
   (EIdx (vv 0) (EInt 2)); PStr ", "; PVal (EIdx (vv 0) (EInt 3)); PStr "]"].

(* short_vec_qpx_double_4.hpp *)
Definition cls_qpx_double_4 : cls :=
  mkCls "qpx_double_4" KF64 4 1 4 32 MNone
    (fun m => match m with
     | MCtorScalar => Some qpx_double_4_ctor_scalar
     | MCtorPtr => Some qpx_double_4_ctor_ptr
     | MCtorRegs => Some qpx_double_4_ctor_regs
     | MCtorSqrt => Some qpx_double_4_ctor_sqrt
     | MCtorList => Some qpx_double_4_ctor_list
     | MSubEq => Some qpx_double_4_sub_eq
     | MSub => Some qpx_double_4_sub
     | MAddEq => Some qpx_double_4_add_eq
     | MAdd => Some qpx_double_4_add
     | MMulEq => Some qpx_double_4_mul_eq
     | MMul => Some qpx_double_4_mul
     | MDivEq => Some qpx_double_4_div_eq
     | MDiv => Some qpx_double_4_div
     | MDivEqSqrt => Some qpx_double_4_div_eq_sqrt
     | MDivSqrt => Some qpx_double_4_div_sqrt
     | MSqrt => Some qpx_double_4_sqrt
     | MLoad => Some qpx_double_4_load
     | MLoadAligned => Some qpx_double_4_load_aligned
     | MStore => Some qpx_double_4_store
     | MStoreAligned => Some qpx_double_4_store_aligned
     | MStoreNt => Some qpx_double_4_store_nt
     | MGather => Some qpx_double_4_gather
     | MScatter => Some qpx_double_4_scatter
     | _ => None
     end)
    qpx_double_4_ctor_regs qpx_double_4_print.

(* short_vec_qpx_double_8.hpp:52-56 *)
Definition qpx_double_8_ctor_scalar : body :=
  [SSet (LVal (EInt 0)) (ECall vec_splats [EArg]);
   SSet (LVal (EInt 1)) (ECall vec_splats [EArg])].

(* short_vec_qpx_double_8.hpp:58-62 *)
Definition qpx_double_8_ctor_ptr : body :=
  [SSet (LVal (EInt 0)) (ECall vec_ld [EInt 0; dat 0]);
   SSet (LVal (EInt 1)) (ECall vec_ld [EInt 0; dat 4])].

(* short_vec_qpx_double_8.hpp:64-68 *)
Definition qpx_double_8_ctor_regs : body :=
  [SSet (LVal (EInt 0)) (EPar 0);
   SSet (LVal (EInt 1)) (EPar 1)].

(* short_vec_qpx_double_8.hpp:71-76 *)
Definition qpx_double_8_ctor_list : body :=
  [SSet (LVal (EInt 0)) (ECall vec_ld [EInt 0; dat 0]);
   SSet (LVal (EInt 1)) (ECall vec_ld [EInt 0; dat 4])].

(* short_vec_qpx_double_8.hpp:82-87 *)
Definition qpx_double_8_sub_eq : body :=
  [SSet (LVal (EInt 0)) (ECall vec_sub [vv 0; oo 0]);
   SSet (LVal (EInt 1)) (ECall vec_sub [vv 1; oo 1])].

(* short_vec_qpx_double_8.hpp:89-95 *)
Definition qpx_double_8_sub : body :=
  [SRetVec [(ECall vec_sub [vv 0; oo 0]); (ECall vec_sub [vv 1; oo 1])]].

(* short_vec_qpx_double_8.hpp:97-102 *)
Definition qpx_double_8_add_eq : body :=
  [SSet (LVal (EInt 0)) (ECall vec_add [vv 0; oo 0]);
   SSet (LVal (EInt 1)) (ECall vec_add [vv 1; oo 1])].

(* short_vec_qpx_double_8.hpp:104-110 *)
Definition qpx_double_8_add : body :=
  [SRetVec [(ECall vec_add [vv 0; oo 0]); (ECall vec_add [vv 1; oo 1])]].

(* short_vec_qpx_double_8.hpp:112-117 *)
Definition qpx_double_8_mul_eq : body :=
  [SSet (LVal (EInt 0)) (ECall vec_add [vv 0; oo 0]);
   SSet (LVal (EInt 1)) (ECall vec_add [vv 1; oo 1])].

(* short_vec_qpx_double_8.hpp:119-125 *)
Definition qpx_double_8_mul : body :=
  [SRetVec [(ECall vec_mul [vv 0; oo 0]); (ECall vec_mul [vv 1; oo 1])]].

(* short_vec_qpx_double_8.hpp:130-135 *)
Definition qpx_double_8_div_eq : body :=
  [SSet (LVal (EInt 0)) (ECall vec_swdiv_nochk [vv 0; oo 0]);
   SSet (LVal (EInt 1)) (ECall vec_swdiv_nochk [vv 1; oo 1])].

(* short_vec_qpx_double_8.hpp:137-143 *)
Definition qpx_double_8_div : body :=
  [SRetVec [(ECall vec_swdiv_nochk [vv 0; oo 0]); (ECall vec_swdiv_nochk [vv 1; oo 1])]].

(* short_vec_qpx_double_8.hpp:148-154 *)
Definition qpx_double_8_sqrt : body :=
  [SRetVec [(ECall vec_swsqrt [vv 0]); (ECall vec_swsqrt [vv 1])]].

(* short_vec_qpx_double_8.hpp:156-161 *)
Definition qpx_double_8_load : body :=
  [SSet (LVal (EInt 0)) (ECall vec_ld [EInt 0; dat 0]);
   SSet (LVal (EInt 1)) (ECall vec_ld [EInt 0; dat 4])].

(* short_vec_qpx_double_8.hpp:163-169 *)
Definition qpx_double_8_load_aligned : body :=
  [SAssertAligned EData 32;
   SSet (LVal (EInt 0)) (ECall vec_lda [EInt 0; dat 0]);
   SSet (LVal (EInt 1)) (ECall vec_lda [EInt 0; dat 4])].

(* short_vec_qpx_double_8.hpp:171-176 *)
Definition qpx_double_8_store : body :=
  [SDo (ECall vec_st [vv 0; EInt 0; dat 0]);
   SDo (ECall vec_st [vv 1; EInt 0; dat 4])].

(* short_vec_qpx_double_8.hpp:178-184 *)
Definition qpx_double_8_store_aligned : body :=
  [SAssertAligned EData 32;
   SDo (ECall vec_sta [vv 0; EInt 0; dat 0]);
   SDo (ECall vec_sta [vv 1; EInt 0; dat 4])].

(* short_vec_qpx_double_8.hpp:186-190 *)
Definition qpx_double_8_store_nt : body :=
  [SDo (ECall vec_st [vv 0; EInt 0; dat 0]);
   SDo (ECall vec_st [vv 1; EInt 0; dat 4])].

(* short_vec_qpx_double_8.hpp:192-205 *)
Definition qpx_double_8_gather : body :=
  [SSet (LVal (EInt 0)) (ECall vec_insert [(EIdx EPtr (off 0)); vv 0; EInt 0]);
   SSet (LVal (EInt 0)) (ECall vec_insert [(EIdx EPtr (off 1)); vv 0; EInt 1]);
   SSet (LVal (EInt 0)) (ECall vec_insert [(EIdx EPtr (off 2)); vv 0; EInt 2]);
   SSet (LVal (EInt 0)) (ECall vec_insert [(EIdx EPtr (off 3)); vv 0; EInt 3]);
   SSet (LVal (EInt 1)) (ECall vec_insert [(EIdx EPtr (off 4)); vv 1; EInt 0]);
   SSet (LVal (EInt 1)) (ECall vec_insert [(EIdx EPtr (off 5)); vv 1; EInt 1]);
   SSet (LVal (EInt 1)) (ECall vec_insert [(EIdx EPtr (off 6)); vv 1; EInt 2]);
   SSet (LVal (EInt 1)) (ECall vec_insert [(EIdx EPtr (off 7)); vv 1; EInt 3])].

(* short_vec_qpx_double_8.hpp:207-219 *)
Definition qpx_double_8_scatter : body :=
  [SSet (LMem (pto 0)) (ECall vec_extract [vv 0; EInt 0]);
   SSet (LMem (pto 1)) (ECall vec_extract [vv 0; EInt 1]);
   SSet (LMem (pto 2)) (ECall vec_extract [vv 0; EInt 2]);
   SSet (LMem (pto 3)) (ECall vec_extract [vv 0; EInt 3]);
   SSet (LMem (pto 4)) (ECall vec_extract [vv 1; EInt 0]);
   SSet (LMem (pto 5)) (ECall vec_extract [vv 1; EInt 1]);
   SSet (LMem (pto 6)) (ECall vec_extract [vv 1; EInt 2]);
   SSet (LMem (pto 7)) (ECall vec_extract [vv 1; EInt 3])].

(* short_vec_qpx_double_8.hpp:251-254 *)
Definition qpx_double_8_ctor_sqrt : body :=
  [SSet (LVal (EInt 0)) (ECall vec_swsqrt [oo 0]);
   SSet (LVal (EInt 1)) (ECall vec_swsqrt [oo 1])].

(* short_vec_qpx_double_8.hpp:257-261 *)
Definition qpx_double_8_div_eq_sqrt : body :=
  [SSet (LVal (EInt 0)) (ECall vec_mul [vv 0; (ECall vec_rsqrte [oo 0])]);
   SSet (LVal (EInt 1)) (ECall vec_mul [vv 1; (ECall vec_rsqrte [oo 1])])].

(* short_vec_qpx_double_8.hpp:264-269 *)
Definition qpx_double_8_div_sqrt : body :=
  [SRetVec [(ECall vec_mul [vv 0; (ECall vec_rsqrte [oo 0])]); (ECall vec_mul [vv 1; (ECall
    vec_rsqrte [oo 1])])]].

(* short_vec_qpx_double_8.hpp:281-288 *)
Definition qpx_double_8_print : list item :=
  [PStr "["; PVal (EIdx (vv 0) (EInt 0)); PStr ", "; PVal (EIdx (vv 0) (EInt 1)); PStr ", "; PVal
   (EIdx (vv 0) (EInt 2)); PStr ", "; PVal (EIdx (vv 0) (EInt 3)); PStr ", "; PVal (EIdx (vv 1)
   (EInt 0)); PStr ", "; PVal (EIdx (vv 1) (EInt 1)); PStr ", "; PVal (EIdx (vv 1) (EInt 2)); PStr
   ", "; PVal (EIdx (vv 1) (EInt 3)); PStr "]"].

(* short_vec_qpx_double_8.hpp *)
Definition cls_qpx_double_8 : cls :=
  mkCls "qpx_double_8" KF64 8 2 4 32 MNone
    (fun m => match m with
     | MCtorScalar => Some qpx_double_8_ctor_scalar
     | MCtorPtr => Some qpx_double_8_ctor_ptr
     | MCtorRegs => Some qpx_double_8_ctor_regs
     | MCtorSqrt => Some qpx_double_8_ctor_sqrt
     | MCtorList => Some qpx_double_8_ctor_list
     | MSubEq => Some qpx_double_8_sub_eq
     | MSub => Some qpx_double_8_sub
     | MAddEq => Some qpx_double_8_add_eq
     | MAdd => Some qpx_double_8_add
     | MMulEq => Some qpx_double_8_mul_eq
     | MMul => Some qpx_double_8_mul
     | MDivEq => Some qpx_double_8_div_eq
     | MDiv => Some qpx_double_8_div
     | MDivEqSqrt => Some qpx_double_8_div_eq_sqrt
     | MDivSqrt => Some qpx_double_8_div_sqrt
     | MSqrt => Some qpx_double_8_sqrt
     | MLoad => Some qpx_double_8_load
     | MLoadAligned => Some qpx_double_8_load_aligned
     | MStore => Some qpx_double_8_store
     | MStoreAligned => Some qpx_double_8_store_aligned
     | MStoreNt => Some qpx_double_8_store_nt
     | MGather => Some qpx_double_8_gather
     | MScatter => Some qpx_double_8_scatter
     | _ => None
     end)
    qpx_double_8_ctor_regs qpx_double_8_print.

(* short_vec_qpx_double_16.hpp:52-58 *)
Definition qpx_double_16_ctor_scalar : body :=
  [SSet (LVal (EInt 0)) (ECall vec_splats [EArg]);
   SSet (LVal (EInt 1)) (ECall vec_splats [EArg]);
   SSet (LVal (EInt 2)) (ECall vec_splats [EArg]);
   SSet (LVal (EInt 3)) (ECall vec_splats [EArg])].

(* short_vec_qpx_double_16.hpp:60-64 *)
Definition qpx_double_16_ctor_ptr : body :=
  [SSet (LVal (EInt 0)) (ECall vec_ld [EInt 0; dat 0]);
   SSet (LVal (EInt 1)) (ECall vec_ld [EInt 0; dat 4]);
   SSet (LVal (EInt 2)) (ECall vec_ld [EInt 0; dat 8]);
   SSet (LVal (EInt 3)) (ECall vec_ld [EInt 0; dat 12])].

(* short_vec_qpx_double_16.hpp:66-76 *)
Definition qpx_double_16_ctor_regs : body :=
  [SSet (LVal (EInt 0)) (EPar 0);
   SSet (LVal (EInt 1)) (EPar 1);
   SSet (LVal (EInt 2)) (EPar 2);
   SSet (LVal (EInt 3)) (EPar 3)].

(* short_vec_qpx_double_16.hpp:79-84 *)
Definition qpx_double_16_ctor_list : body :=
  [SSet (LVal (EInt 0)) (ECall vec_ld [EInt 0; dat 0]);
   SSet (LVal (EInt 1)) (ECall vec_ld [EInt 0; dat 4]);
   SSet (LVal (EInt 2)) (ECall vec_ld [EInt 0; dat 8]);
   SSet (LVal (EInt 3)) (ECall vec_ld [EInt 0; dat 12])].

(* short_vec_qpx_double_16.hpp:90-97 *)
Definition qpx_double_16_sub_eq : body :=
  [SSet (LVal (EInt 0)) (ECall vec_sub [vv 0; oo 0]);
   SSet (LVal (EInt 1)) (ECall vec_sub [vv 1; oo 1]);
   SSet (LVal (EInt 2)) (ECall vec_sub [vv 2; oo 2]);
   SSet (LVal (EInt 3)) (ECall vec_sub [vv 3; oo 3])].

(* short_vec_qpx_double_16.hpp:99-107 *)
Definition qpx_double_16_sub : body :=
  [SRetVec [(ECall vec_sub [vv 0; oo 0]); (ECall vec_sub [vv 1; oo 1]); (ECall vec_sub [vv 2; oo
    2]); (ECall vec_sub [vv 3; oo 3])]].

(* short_vec_qpx_double_16.hpp:109-116 *)
Definition qpx_double_16_add_eq : body :=
  [SSet (LVal (EInt 0)) (ECall vec_add [vv 0; oo 0]);
   SSet (LVal (EInt 1)) (ECall vec_add [vv 1; oo 1]);
   SSet (LVal (EInt 2)) (ECall vec_add [vv 2; oo 2]);
   SSet (LVal (EInt 3)) (ECall vec_add [vv 3; oo 3])].

(* short_vec_qpx_double_16.hpp:118-126 *)
Definition qpx_double_16_add : body :=
  [SRetVec [(ECall vec_add [vv 0; oo 0]); (ECall vec_add [vv 1; oo 1]); (ECall vec_add [vv 2; oo
    2]); (ECall vec_add [vv 3; oo 3])]].

(* short_vec_qpx_double_16.hpp:128-135 *)
Definition qpx_double_16_mul_eq : body :=
  [SSet (LVal (EInt 0)) (ECall vec_add [vv 0; oo 0]);
   SSet (LVal (EInt 1)) (ECall vec_add [vv 1; oo 1]);
   SSet (LVal (EInt 2)) (ECall vec_add [vv 2; oo 2]);
   SSet (LVal (EInt 3)) (ECall vec_add [vv 3; oo 3])].

(* short_vec_qpx_double_16.hpp:137-145 *)
Definition qpx_double_16_mul : body :=
  [SRetVec [(ECall vec_mul [vv 0; oo 0]); (ECall vec_mul [vv 1; oo 1]); (ECall vec_mul [vv 2; oo
    2]); (ECall vec_mul [vv 3; oo 3])]].

(* short_vec_qpx_double_16.hpp:150-157 *)
Definition qpx_double_16_div_eq : body :=
  [SSet (LVal (EInt 0)) (ECall vec_swdiv_nochk [vv 0; oo 0]);
   SSet (LVal (EInt 1)) (ECall vec_swdiv_nochk [vv 1; oo 1]);
   SSet (LVal (EInt 2)) (ECall vec_swdiv_nochk [vv 2; oo 2]);
   SSet (LVal (EInt 3)) (ECall vec_swdiv_nochk [vv 3; oo 3])].

(* short_vec_qpx_double_16.hpp:159-167 *)
Definition qpx_double_16_div : body :=
  [SRetVec [(ECall vec_swdiv_nochk [vv 0; oo 0]); (ECall vec_swdiv_nochk [vv 1; oo 1]); (ECall
    vec_swdiv_nochk [vv 2; oo 2]); (ECall vec_swdiv_nochk [vv 3; oo 3])]].

(* short_vec_qpx_double_16.hpp:172-180 *)
Definition qpx_double_16_sqrt : body :=
  [SRetVec [(ECall vec_swsqrt [vv 0]); (ECall vec_swsqrt [vv 1]); (ECall vec_swsqrt [vv 2]); (ECall
    vec_swsqrt [vv 3])]].

(* short_vec_qpx_double_16.hpp:182-189 *)
Definition qpx_double_16_load : body :=
  [SSet (LVal (EInt 0)) (ECall vec_ld [EInt 0; dat 0]);
   SSet (LVal (EInt 1)) (ECall vec_ld [EInt 0; dat 4]);
   SSet (LVal (EInt 2)) (ECall vec_ld [EInt 0; dat 8]);
   SSet (LVal (EInt 3)) (ECall vec_ld [EInt 0; dat 12])].

(* short_vec_qpx_double_16.hpp:191-199 *)
Definition qpx_double_16_load_aligned : body :=
  [SAssertAligned EData 32;
   SSet (LVal (EInt 0)) (ECall vec_lda [EInt 0; dat 0]);
   SSet (LVal (EInt 1)) (ECall vec_lda [EInt 0; dat 4]);
   SSet (LVal (EInt 2)) (ECall vec_lda [EInt 0; dat 8]);
   SSet (LVal (EInt 3)) (ECall vec_lda [EInt 0; dat 12])].

(* short_vec_qpx_double_16.hpp:201-208 *)
Definition qpx_double_16_store : body :=
  [SDo (ECall vec_st [vv 0; EInt 0; dat 0]);
   SDo (ECall vec_st [vv 1; EInt 0; dat 4]);
   SDo (ECall vec_st [vv 2; EInt 0; dat 8]);
   SDo (ECall vec_st [vv 3; EInt 0; dat 12])].

(* short_vec_qpx_double_16.hpp:210-218 *)
Definition qpx_double_16_store_aligned : body :=
  [SAssertAligned EData 32;
   SDo (ECall vec_sta [vv 0; EInt 0; dat 0]);
   SDo (ECall vec_sta [vv 1; EInt 0; dat 4]);
   SDo (ECall vec_sta [vv 2; EInt 0; dat 8]);
   SDo (ECall vec_sta [vv 3; EInt 0; dat 12])].

(* short_vec_qpx_double_16.hpp:220-224 *)
Definition qpx_double_16_store_nt : body :=
  [SDo (ECall vec_st [vv 0; EInt 0; dat 0]);
   SDo (ECall vec_st [vv 1; EInt 0; dat 4]);
   SDo (ECall vec_st [vv 2; EInt 0; dat 8]);
   SDo (ECall vec_st [vv 3; EInt 0; dat 12])].

(* short_vec_qpx_double_16.hpp:226-249 *)
Definition qpx_double_16_gather : body :=
  [SSet (LVal (EInt 0)) (ECall vec_insert [(EIdx EPtr (off 0)); vv 0; EInt 0]);
   SSet (LVal (EInt 0)) (ECall vec_insert [(EIdx EPtr (off 1)); vv 0; EInt 1]);
   SSet (LVal (EInt 0)) (ECall vec_insert [(EIdx EPtr (off 2)); vv 0; EInt 2]);
   SSet (LVal (EInt 0)) (ECall vec_insert [(EIdx EPtr (off 3)); vv 0; EInt 3]);
   SSet (LVal (EInt 1)) (ECall vec_insert [(EIdx EPtr (off 4)); vv 1; EInt 0]);
   SSet (LVal (EInt 1)) (ECall vec_insert [(EIdx EPtr (off 5)); vv 1; EInt 1]);
   SSet (LVal (EInt 1)) (ECall vec_insert [(EIdx EPtr (off 6)); vv 1; EInt 2]);
   SSet (LVal (EInt 1)) (ECall vec_insert [(EIdx EPtr (off 7)); vv 1; EInt 3]);
   SSet (LVal (EInt 2)) (ECall vec_insert [(EIdx EPtr (off 8)); vv 2; EInt 0]);
   SSet (LVal (EInt 2)) (ECall vec_insert [(EIdx EPtr (off 9)); vv 2; EInt 1]);
   SSet (LVal (EInt 2)) (ECall vec_insert [(EIdx EPtr (off 10)); vv 2; EInt 2]);
   SSet (LVal (EInt 2)) (ECall vec_insert [(EIdx EPtr (off 11)); vv 2; EInt 3]);
   SSet (LVal (EInt 3)) (ECall vec_insert [(EIdx EPtr (off 12)); vv 3; EInt 0]);
   SSet (LVal (EInt 3)) (ECall vec_insert [(EIdx EPtr (off 13)); vv 3; EInt 1]);
   SSet (LVal (EInt 3)) (ECall vec_insert [(EIdx EPtr (off 14)); vv 3; EInt 2]);
   SSet (LVal (EInt 3)) (ECall vec_insert [(EIdx EPtr (off 15)); vv 3; EInt 3])].

(* short_vec_qpx_double_16.hpp:251-273 *)
Definition qpx_double_16_scatter : body :=
  [SSet (LMem (pto 0)) (ECall vec_extract [vv 0; EInt 0]);
   SSet (LMem (pto 1)) (ECall vec_extract [vv 0; EInt 1]);
   SSet (LMem (pto 2)) (ECall vec_extract [vv 0; EInt 2]);
   SSet (LMem (pto 3)) (ECall vec_extract [vv 0; EInt 3]);
   SSet (LMem (pto 4)) (ECall vec_extract [vv 1; EInt 0]);
   SSet (LMem (pto 5)) (ECall vec_extract [vv 1; EInt 1]);
   SSet (LMem (pto 6)) (ECall vec_extract [vv 1; EInt 2]);
   SSet (LMem (pto 7)) (ECall vec_extract [vv 1; EInt 3]);
   SSet (LMem (pto 8)) (ECall vec_extract [vv 2; EInt 0]);
   SSet (LMem (pto 9)) (ECall vec_extract [vv 2; EInt 1]);
   SSet (LMem (pto 10)) (ECall vec_extract [vv 2; EInt 2]);
   SSet (LMem (pto 11)) (ECall vec_extract [vv 2; EInt 3]);
   SSet (LMem (pto 12)) (ECall vec_extract [vv 3; EInt 0]);
   SSet (LMem (pto 13)) (ECall vec_extract [vv 3; EInt 1]);
   SSet (LMem (pto 14)) (ECall vec_extract [vv 3; EInt 2]);
   SSet (LMem (pto 15)) (ECall vec_extract [vv 3; EInt 3])].

(* short_vec_qpx_double_16.hpp:305-310 *)
Definition qpx_double_16_ctor_sqrt : body :=
  [SSet (LVal (EInt 0)) (ECall vec_swsqrt [oo 0]);
   SSet (LVal (EInt 1)) (ECall vec_swsqrt [oo 1]);
   SSet (LVal (EInt 2)) (ECall vec_swsqrt [oo 2]);
   SSet (LVal (EInt 3)) (ECall vec_swsqrt [oo 3])].

(* short_vec_qpx_double_16.hpp:313-319 *)
Definition qpx_double_16_div_eq_sqrt : body :=
  [SSet (LVal (EInt 0)) (ECall vec_mul [vv 0; (ECall vec_rsqrte [oo 0])]);
   SSet (LVal (EInt 1)) (ECall vec_mul [vv 1; (ECall vec_rsqrte [oo 1])]);
   SSet (LVal (EInt 2)) (ECall vec_mul [vv 2; (ECall vec_rsqrte [oo 2])]);
   SSet (LVal (EInt 3)) (ECall vec_mul [vv 3; (ECall vec_rsqrte [oo 3])])].

(* short_vec_qpx_double_16.hpp:322-329 *)
Definition qpx_double_16_div_sqrt : body :=
  [SRetVec [(ECall vec_mul [vv 0; (ECall vec_rsqrte [oo 0])]); (ECall vec_mul [vv 1; (ECall
    vec_rsqrte [oo 1])]); (ECall vec_mul [vv 2; (ECall vec_rsqrte [oo 2])]); (ECall vec_mul [vv 3;
    (ECall vec_rsqrte [oo 3])])]].

(* short_vec_qpx_double_16.hpp:341-352 *)
Definition qpx_double_16_print : list item :=
  [PStr "["; PVal (EIdx (vv 0) (EInt 0)); PStr ", "; PVal (EIdx (vv 0) (EInt 1)); PStr ", "; PVal
   (EIdx (vv 0) (EInt 2)); PStr ", "; PVal (EIdx (vv 0) (EInt 3)); PStr ", "; PVal (EIdx (vv 1)
   (EInt 0)); PStr ", "; PVal (EIdx (vv 1) (EInt 1)); PStr ", "; PVal (EIdx (vv 1) (EInt 2)); PStr
   ", "; PVal (EIdx (vv 1) (EInt 3)); PStr ", "; PVal (EIdx (vv 2) (EInt 0)); PStr ", "; PVal (EIdx
   (vv 2) (EInt 1)); PStr ", "; PVal (EIdx (vv 2) (EInt 2)); PStr ", "; PVal (EIdx (vv 2) (EInt
   3)); PStr ", "; PVal (EIdx (vv 3) (EInt 0)); PStr ", "; PVal (EIdx (vv 3) (EInt 1)); PStr ", ";
   PVal (EIdx (vv 3) (EInt 2)); PStr ", "; PVal (EIdx (vv 3) (EInt 3)); PStr "]"].

(* short_vec_qpx_double_16.hpp *)
Definition cls_qpx_double_16 : cls :=
  mkCls "qpx_double_16" KF64 16 4 4 32 MNone
    (fun m => match m with
     | MCtorScalar => Some qpx_double_16_ctor_scalar
     | MCtorPtr => Some qpx_double_16_ctor_ptr
     | MCtorRegs => Some qpx_double_16_ctor_regs
     | MCtorSqrt => Some qpx_double_16_ctor_sqrt
     | MCtorList => Some qpx_double_16_ctor_list
     | MSubEq => Some qpx_double_16_sub_eq
     | MSub => Some qpx_double_16_sub
     | MAddEq => Some qpx_double_16_add_eq
     | MAdd => Some qpx_double_16_add
     | MMulEq => Some qpx_double_16_mul_eq
     | MMul => Some qpx_double_16_mul
     | MDivEq => Some qpx_double_16_div_eq
     | MDiv => Some qpx_double_16_div
     | MDivEqSqrt => Some qpx_double_16_div_eq_sqrt
     | MDivSqrt => Some qpx_double_16_div_sqrt
     | MSqrt => Some qpx_double_16_sqrt
     | MLoad => Some qpx_double_16_load
     | MLoadAligned => Some qpx_double_16_load_aligned
     | MStore => Some qpx_double_16_store
     | MStoreAligned => Some qpx_double_16_store_aligned
     | MStoreNt => Some qpx_double_16_store_nt
     | MGather => Some qpx_double_16_gather
     | MScatter => Some qpx_double_16_scatter
     | _ => None
     end)
    qpx_double_16_ctor_regs qpx_double_16_print.

(* short_vec_qpx_double_32.hpp:52-62 *)
Definition qpx_double_32_ctor_scalar : body :=
  [SSet (LVal (EInt 0)) (ECall vec_splats [EArg]);
   SSet (LVal (EInt 1)) (ECall vec_splats [EArg]);
   SSet (LVal (EInt 2)) (ECall vec_splats [EArg]);
   SSet (LVal (EInt 3)) (ECall vec_splats [EArg]);
   SSet (LVal (EInt 4)) (ECall vec_splats [EArg]);
   SSet (LVal (EInt 5)) (ECall vec_splats [EArg]);
   SSet (LVal (EInt 6)) (ECall vec_splats [EArg]);
   SSet (LVal (EInt 7)) (ECall vec_splats [EArg])].

(* short_vec_qpx_double_32.hpp:64-68 *)
Definition qpx_double_32_ctor_ptr : body :=
  [SSet (LVal (EInt 0)) (ECall vec_ld [EInt 0; dat 0]);
   SSet (LVal (EInt 1)) (ECall vec_ld [EInt 0; dat 4]);
   SSet (LVal (EInt 2)) (ECall vec_ld [EInt 0; dat 8]);
   SSet (LVal (EInt 3)) (ECall vec_ld [EInt 0; dat 12]);
   SSet (LVal (EInt 4)) (ECall vec_ld [EInt 0; dat 16]);
   SSet (LVal (EInt 5)) (ECall vec_ld [EInt 0; dat 20]);
   SSet (LVal (EInt 6)) (ECall vec_ld [EInt 0; dat 24]);
   SSet (LVal (EInt 7)) (ECall vec_ld [EInt 0; dat 28])].

(* short_vec_qpx_double_32.hpp:70-88 *)
Definition qpx_double_32_ctor_regs : body :=
  [SSet (LVal (EInt 0)) (EPar 0);
   SSet (LVal (EInt 1)) (EPar 1);
   SSet (LVal (EInt 2)) (EPar 2);
   SSet (LVal (EInt 3)) (EPar 3);
   SSet (LVal (EInt 4)) (EPar 4);
   SSet (LVal (EInt 5)) (EPar 5);
   SSet (LVal (EInt 6)) (EPar 6);
   SSet (LVal (EInt 7)) (EPar 7)].

(* short_vec_qpx_double_32.hpp:91-96 *)
Definition qpx_double_32_ctor_list : body :=
  [SSet (LVal (EInt 0)) (ECall vec_ld [EInt 0; dat 0]);
   SSet (LVal (EInt 1)) (ECall vec_ld [EInt 0; dat 4]);
   SSet (LVal (EInt 2)) (ECall vec_ld [EInt 0; dat 8]);
   SSet (LVal (EInt 3)) (ECall vec_ld [EInt 0; dat 12]);
   SSet (LVal (EInt 4)) (ECall vec_ld [EInt 0; dat 16]);
   SSet (LVal (EInt 5)) (ECall vec_ld [EInt 0; dat 20]);
   SSet (LVal (EInt 6)) (ECall vec_ld [EInt 0; dat 24]);
   SSet (LVal (EInt 7)) (ECall vec_ld [EInt 0; dat 28])].

(* short_vec_qpx_double_32.hpp:102-113 *)
Definition qpx_double_32_sub_eq : body :=
  [SSet (LVal (EInt 0)) (ECall vec_sub [vv 0; oo 0]);
   SSet (LVal (EInt 1)) (ECall vec_sub [vv 1; oo 1]);
   SSet (LVal (EInt 2)) (ECall vec_sub [vv 2; oo 2]);
   SSet (LVal (EInt 3)) (ECall vec_sub [vv 3; oo 3]);
   SSet (LVal (EInt 4)) (ECall vec_sub [vv 4; oo 4]);
   SSet (LVal (EInt 5)) (ECall vec_sub [vv 5; oo 5]);
   SSet (LVal (EInt 6)) (ECall vec_sub [vv 6; oo 6]);
   SSet (LVal (EInt 7)) (ECall vec_sub [vv 7; oo 7])].

(* short_vec_qpx_double_32.hpp:115-127 *)
Definition qpx_double_32_sub : body :=
  [SRetVec [(ECall vec_sub [vv 0; oo 0]); (ECall vec_sub [vv 1; oo 1]); (ECall vec_sub [vv 2; oo
    2]); (ECall vec_sub [vv 3; oo 3]); (ECall vec_sub [vv 4; oo 4]); (ECall vec_sub [vv 5; oo 5]);
    (ECall vec_sub [vv 6; oo 6]); (ECall vec_sub [vv 7; oo 7])]].

(* short_vec_qpx_double_32.hpp:129-140 *)
Definition qpx_double_32_add_eq : body :=
  [SSet (LVal (EInt 0)) (ECall vec_add [vv 0; oo 0]);
   SSet (LVal (EInt 1)) (ECall vec_add [vv 1; oo 1]);
   SSet (LVal (EInt 2)) (ECall vec_add [vv 2; oo 2]);
   SSet (LVal (EInt 3)) (ECall vec_add [vv 3; oo 3]);
   SSet (LVal (EInt 4)) (ECall vec_add [vv 4; oo 4]);
   SSet (LVal (EInt 5)) (ECall vec_add [vv 5; oo 5]);
   SSet (LVal (EInt 6)) (ECall vec_add [vv 6; oo 6]);
   SSet (LVal (EInt 7)) (ECall vec_add [vv 7; oo 7])].

(* short_vec_qpx_double_32.hpp:142-154 *)
Definition qpx_double_32_add : body :=
  [SRetVec [(ECall vec_add [vv 0; oo 0]); (ECall vec_add [vv 1; oo 1]); (ECall vec_add [vv 2; oo
    2]); (ECall vec_add [vv 3; oo 3]); (ECall vec_add [vv 4; oo 4]); (ECall vec_add [vv 5; oo 5]);
    (ECall vec_add [vv 6; oo 6]); (ECall vec_add [vv 7; oo 7])]].

(* short_vec_qpx_double_32.hpp:156-167 *)
Definition qpx_double_32_mul_eq : body :=
  [SSet (LVal (EInt 0)) (ECall vec_add [vv 0; oo 0]);
   SSet (LVal (EInt 1)) (ECall vec_add [vv 1; oo 1]);
   SSet (LVal (EInt 2)) (ECall vec_add [vv 2; oo 2]);
   SSet (LVal (EInt 3)) (ECall vec_add [vv 3; oo 3]);
   SSet (LVal (EInt 4)) (ECall vec_add [vv 4; oo 4]);
   SSet (LVal (EInt 5)) (ECall vec_add [vv 5; oo 5]);
   SSet (LVal (EInt 6)) (ECall vec_add [vv 6; oo 6]);
   SSet (LVal (EInt 7)) (ECall vec_add [vv 7; oo 7])].

(* short_vec_qpx_double_32.hpp:169-181 *)
Definition qpx_double_32_mul : body :=
  [SRetVec [(ECall vec_mul [vv 0; oo 0]); (ECall vec_mul [vv 1; oo 1]); (ECall vec_mul [vv 2; oo
    2]); (ECall vec_mul [vv 3; oo 3]); (ECall vec_mul [vv 4; oo 4]); (ECall vec_mul [vv 5; oo 5]);
    (ECall vec_mul [vv 6; oo 6]); (ECall vec_mul [vv 7; oo 7])]].

(* short_vec_qpx_double_32.hpp:186-197 *)
Definition qpx_double_32_div_eq : body :=
  [SSet (LVal (EInt 0)) (ECall vec_swdiv_nochk [vv 0; oo 0]);
   SSet (LVal (EInt 1)) (ECall vec_swdiv_nochk [vv 1; oo 1]);
   SSet (LVal (EInt 2)) (ECall vec_swdiv_nochk [vv 2; oo 2]);
   SSet (LVal (EInt 3)) (ECall vec_swdiv_nochk [vv 3; oo 3]);
   SSet (LVal (EInt 4)) (ECall vec_swdiv_nochk [vv 4; oo 4]);
   SSet (LVal (EInt 5)) (ECall vec_swdiv_nochk [vv 5; oo 5]);
   SSet (LVal (EInt 6)) (ECall vec_swdiv_nochk [vv 6; oo 6]);
   SSet (LVal (EInt 7)) (ECall vec_swdiv_nochk [vv 7; oo 7])].

(* short_vec_qpx_double_32.hpp:199-211 *)
Definition qpx_double_32_div : body :=
  [SRetVec [(ECall vec_swdiv_nochk [vv 0; oo 0]); (ECall vec_swdiv_nochk [vv 1; oo 1]); (ECall
    vec_swdiv_nochk [vv 2; oo 2]); (ECall vec_swdiv_nochk [vv 3; oo 3]); (ECall vec_swdiv_nochk [vv
    4; oo 4]); (ECall vec_swdiv_nochk [vv 5; oo 5]); (ECall vec_swdiv_nochk [vv 6; oo 6]); (ECall
    vec_swdiv_nochk [vv 7; oo 7])]].

(* short_vec_qpx_double_32.hpp:216-228 *)
Definition qpx_double_32_sqrt : body :=
  [SRetVec [(ECall vec_swsqrt [vv 0]); (ECall vec_swsqrt [vv 1]); (ECall vec_swsqrt [vv 2]); (ECall
    vec_swsqrt [vv 3]); (ECall vec_swsqrt [vv 4]); (ECall vec_swsqrt [vv 5]); (ECall vec_swsqrt [vv
    6]); (ECall vec_swsqrt [vv 7])]].

(* short_vec_qpx_double_32.hpp:230-241 *)
Definition qpx_double_32_load : body :=
  [SSet (LVal (EInt 0)) (ECall vec_ld [EInt 0; dat 0]);
   SSet (LVal (EInt 1)) (ECall vec_ld [EInt 0; dat 4]);
   SSet (LVal (EInt 2)) (ECall vec_ld [EInt 0; dat 8]);
   SSet (LVal (EInt 3)) (ECall vec_ld [EInt 0; dat 12]);
   SSet (LVal (EInt 4)) (ECall vec_ld [EInt 0; dat 16]);
   SSet (LVal (EInt 5)) (ECall vec_ld [EInt 0; dat 20]);
   SSet (LVal (EInt 6)) (ECall vec_ld [EInt 0; dat 24]);
   SSet (LVal (EInt 7)) (ECall vec_ld [EInt 0; dat 28])].

(* short_vec_qpx_double_32.hpp:243-255 *)
Definition qpx_double_32_load_aligned : body :=
  [SAssertAligned EData 32;
   SSet (LVal (EInt 0)) (ECall vec_lda [EInt 0; dat 0]);
   SSet (LVal (EInt 1)) (ECall vec_lda [EInt 0; dat 4]);
   SSet (LVal (EInt 2)) (ECall vec_lda [EInt 0; dat 8]);
   SSet (LVal (EInt 3)) (ECall vec_lda [EInt 0; dat 12]);
   SSet (LVal (EInt 4)) (ECall vec_lda [EInt 0; dat 16]);
   SSet (LVal (EInt 5)) (ECall vec_lda [EInt 0; dat 20]);
   SSet (LVal (EInt 6)) (ECall vec_lda [EInt 0; dat 24]);
   SSet (LVal (EInt 7)) (ECall vec_lda [EInt 0; dat 28])].

(* short_vec_qpx_double_32.hpp:257-268 *)
Definition qpx_double_32_store : body :=
  [SDo (ECall vec_st [vv 0; EInt 0; dat 0]);
   SDo (ECall vec_st [vv 1; EInt 0; dat 4]);
   SDo (ECall vec_st [vv 2; EInt 0; dat 8]);
   SDo (ECall vec_st [vv 3; EInt 0; dat 12]);
   SDo (ECall vec_st [vv 4; EInt 0; dat 16]);
   SDo (ECall vec_st [vv 5; EInt 0; dat 20]);
   SDo (ECall vec_st [vv 6; EInt 0; dat 24]);
   SDo (ECall vec_st [vv 7; EInt 0; dat 28])].

(* short_vec_qpx_double_32.hpp:270-282 *)
Definition qpx_double_32_store_aligned : body :=
  [SAssertAligned EData 32;
   SDo (ECall vec_sta [vv 0; EInt 0; dat 0]);
   SDo (ECall vec_sta [vv 1; EInt 0; dat 4]);
   SDo (ECall vec_sta [vv 2; EInt 0; dat 8]);
   SDo (ECall vec_sta [vv 3; EInt 0; dat 12]);
   SDo (ECall vec_sta [vv 4; EInt 0; dat 16]);
   SDo (ECall vec_sta [vv 5; EInt 0; dat 20]);
   SDo (ECall vec_sta [vv 6; EInt 0; dat 24]);
   SDo (ECall vec_sta [vv 7; EInt 0; dat 28])].

(* short_vec_qpx_double_32.hpp:284-288 *)
Definition qpx_double_32_store_nt : body :=
  [SDo (ECall vec_st [vv 0; EInt 0; dat 0]);
   SDo (ECall vec_st [vv 1; EInt 0; dat 4]);
   SDo (ECall vec_st [vv 2; EInt 0; dat 8]);
   SDo (ECall vec_st [vv 3; EInt 0; dat 12]);
   SDo (ECall vec_st [vv 4; EInt 0; dat 16]);
   SDo (ECall vec_st [vv 5; EInt 0; dat 20]);
   SDo (ECall vec_st [vv 6; EInt 0; dat 24]);
   SDo (ECall vec_st [vv 7; EInt 0; dat 28])].

(* short_vec_qpx_double_32.hpp:290-333 *)
Definition qpx_double_32_gather : body :=
  [SSet (LVal (EInt 0)) (ECall vec_insert [(EIdx EPtr (off 0)); vv 0; EInt 0]);
   SSet (LVal (EInt 0)) (ECall vec_insert [(EIdx EPtr (off 1)); vv 0; EInt 1]);
   SSet (LVal (EInt 0)) (ECall vec_insert [(EIdx EPtr (off 2)); vv 0; EInt 2]);
   SSet (LVal (EInt 0)) (ECall vec_insert [(EIdx EPtr (off 3)); vv 0; EInt 3]);
   SSet (LVal (EInt 1)) (ECall vec_insert [(EIdx EPtr (off 4)); vv 1; EInt 0]);
   SSet (LVal (EInt 1)) (ECall vec_insert [(EIdx EPtr (off 5)); vv 1; EInt 1]);
   SSet (LVal (EInt 1)) (ECall vec_insert [(EIdx EPtr (off 6)); vv 1; EInt 2]);
   SSet (LVal (EInt 1)) (ECall vec_insert [(EIdx EPtr (off 7)); vv 1; EInt 3]);
   SSet (LVal (EInt 2)) (ECall vec_insert [(EIdx EPtr (off 8)); vv 2; EInt 0]);
   SSet (LVal (EInt 2)) (ECall vec_insert [(EIdx EPtr (off 9)); vv 2; EInt 1]);
   SSet (LVal (EInt 2)) (ECall vec_insert [(EIdx EPtr (off 10)); vv 2; EInt 2]);
   SSet (LVal (EInt 2)) (ECall vec_insert [(EIdx EPtr (off 11)); vv 2; EInt 3]);
   SSet (LVal (EInt 3)) (ECall vec_insert [(EIdx EPtr (off 12)); vv 3; EInt 0]);
   SSet (LVal (EInt 3)) (ECall vec_insert [(EIdx EPtr (off 13)); vv 3; EInt 1]);
   SSet (LVal (EInt 3)) (ECall vec_insert [(EIdx EPtr (off 14)); vv 3; EInt 2]);
   SSet (LVal (EInt 3)) (ECall vec_insert [(EIdx EPtr (off 15)); vv 3; EInt 3]);
   SSet (LVal (EInt 4)) (ECall vec_insert [(EIdx EPtr (off 16)); vv 4; EInt 0]);
   SSet (LVal (EInt 4)) (ECall vec_insert [(EIdx EPtr (off 17)); vv 4; EInt 1]);
   SSet (LVal (EInt 4)) (ECall vec_insert [(EIdx EPtr (off 18)); vv 4; EInt 2]);
   SSet (LVal (EInt 4)) (ECall vec_insert [(EIdx EPtr (off 19)); vv 4; EInt 3]);
   SSet (LVal (EInt 5)) (ECall vec_insert [(EIdx EPtr (off 20)); vv 5; EInt 0]);
   SSet (LVal (EInt 5)) (ECall vec_insert [(EIdx EPtr (off 21)); vv 5; EInt 1]);
   SSet (LVal (EInt 5)) (ECall vec_insert [(EIdx EPtr (off 22)); vv 5; EInt 2]);
   SSet (LVal (EInt 5)) (ECall vec_insert [(EIdx EPtr (off 23)); vv 5; EInt 3]);
   SSet (LVal (EInt 6)) (ECall vec_insert [(EIdx EPtr (off 24)); vv 6; EInt 0]);
   SSet (LVal (EInt 6)) (ECall vec_insert [(EIdx EPtr (off 25)); vv 6; EInt 1]);
   SSet (LVal (EInt 6)) (ECall vec_insert [(EIdx EPtr (off 26)); vv 6; EInt 2]);
   SSet (LVal (EInt 6)) (ECall vec_insert [(EIdx EPtr (off 27)); vv 6; EInt 3]);
   SSet (LVal (EInt 7)) (ECall vec_insert [(EIdx EPtr (off 28)); vv 7; EInt 0]);
   SSet (LVal (EInt 7)) (ECall vec_insert [(EIdx EPtr (off 29)); vv 7; EInt 1]);
   SSet (LVal (EInt 7)) (ECall vec_insert [(EIdx EPtr (off 30)); vv 7; EInt 2]);
   SSet (LVal (EInt 7)) (ECall vec_insert [(EIdx EPtr (off 31)); vv 7; EInt 3])].

(* short_vec_qpx_double_32.hpp:335-377 *)
Definition qpx_double_32_scatter : body :=
  [SSet (LMem (pto 0)) (ECall vec_extract [vv 0; EInt 0]);
   SSet (LMem (pto 1)) (ECall vec_extract [vv 0; EInt 1]);
   SSet (LMem (pto 2)) (ECall vec_extract [vv 0; EInt 2]);
   SSet (LMem (pto 3)) (ECall vec_extract [vv 0; EInt 3]);
   SSet (LMem (pto 4)) (ECall vec_extract [vv 1; EInt 0]);
   SSet (LMem (pto 5)) (ECall vec_extract [vv 1; EInt 1]);
   SSet (LMem (pto 6)) (ECall vec_extract [vv 1; EInt 2]);
   SSet (LMem (pto 7)) (ECall vec_extract [vv 1; EInt 3]);
   SSet (LMem (pto 8)) (ECall vec_extract [vv 2; EInt 0]);
   SSet (LMem (pto 9)) (ECall vec_extract [vv 2; EInt 1]);
   SSet (LMem (pto 10)) (ECall vec_extract [vv 2; EInt 2]);
   SSet (LMem (pto 11)) (ECall vec_extract [vv 2; EInt 3]);
   SSet (LMem (pto 12)) (ECall vec_extract [vv 3; EInt 0]);
   SSet (LMem (pto 13)) (ECall vec_extract [vv 3; EInt 1]);
   SSet (LMem (pto 14)) (ECall vec_extract [vv 3; EInt 2]);
   SSet (LMem (pto 15)) (ECall vec_extract [vv 3; EInt 3]);
   SSet (LMem (pto 16)) (ECall vec_extract [vv 4; EInt 0]);
   SSet (LMem (pto 17)) (ECall vec_extract [vv 4; EInt 1]);
   SSet (LMem (pto 18)) (ECall vec_extract [vv 4; EInt 2]);
   SSet (LMem (pto 19)) (ECall vec_extract [vv 4; EInt 3]);
   SSet (LMem (pto 20)) (ECall vec_extract [vv 5; EInt 0]);
   SSet (LMem (pto 21)) (ECall vec_extract [vv 5; EInt 1]);
   SSet (LMem (pto 22)) (ECall vec_extract [vv 5; EInt 2]);
   SSet (LMem (pto 23)) (ECall vec_extract [vv 5; EInt 3]);
   SSet (LMem (pto 24)) (ECall vec_extract [vv 6; EInt 0]);
   SSet (LMem (pto 25)) (ECall vec_extract [vv 6; EInt 1]);
   SSet (LMem (pto 26)) (ECall vec_extract [vv 6; EInt 2]);
   SSet (LMem (pto 27)) (ECall vec_extract [vv 6; EInt 3]);
   SSet (LMem (pto 28)) (ECall vec_extract [vv 7; EInt 0]);
   SSet (LMem (pto 29)) (ECall vec_extract [vv 7; EInt 1]);
   SSet (LMem (pto 30)) (ECall vec_extract [vv 7; EInt 2]);
   SSet (LMem (pto 31)) (ECall vec_extract [vv 7; EInt 3])].

(* short_vec_qpx_double_32.hpp:416-425 *)
Definition qpx_double_32_ctor_sqrt : body :=
  [SSet (LVal (EInt 0)) (ECall vec_swsqrt [oo 0]);
   SSet (LVal (EInt 1)) (ECall vec_swsqrt [oo 1]);
   SSet (LVal (EInt 2)) (ECall vec_swsqrt [oo 2]);
   SSet (LVal (EInt 3)) (ECall vec_swsqrt [oo 3]);
   SSet (LVal (EInt 4)) (ECall vec_swsqrt [oo 4]);
   SSet (LVal (EInt 5)) (ECall vec_swsqrt [oo 5]);
   SSet (LVal (EInt 6)) (ECall vec_swsqrt [oo 6]);
   SSet (LVal (EInt 7)) (ECall vec_swsqrt [oo 7])].

(* short_vec_qpx_double_32.hpp:428-438 *)
Definition qpx_double_32_div_eq_sqrt : body :=
  [SSet (LVal (EInt 0)) (ECall vec_mul [vv 0; (ECall vec_rsqrte [oo 0])]);
   SSet (LVal (EInt 1)) (ECall vec_mul [vv 1; (ECall vec_rsqrte [oo 1])]);
   SSet (LVal (EInt 2)) (ECall vec_mul [vv 2; (ECall vec_rsqrte [oo 2])]);
   SSet (LVal (EInt 3)) (ECall vec_mul [vv 3; (ECall vec_rsqrte [oo 3])]);
   SSet (LVal (EInt 4)) (ECall vec_mul [vv 4; (ECall vec_rsqrte [oo 4])]);
   SSet (LVal (EInt 5)) (ECall vec_mul [vv 5; (ECall vec_rsqrte [oo 5])]);
   SSet (LVal (EInt 6)) (ECall vec_mul [vv 6; (ECall vec_rsqrte [oo 6])]);
   SSet (LVal (EInt 7)) (ECall vec_mul [vv 7; (ECall vec_rsqrte [oo 7])])].

(* short_vec_qpx_double_32.hpp:441-452 *)
Definition qpx_double_32_div_sqrt : body :=
  [SRetVec [(ECall vec_mul [vv 0; (ECall vec_rsqrte [oo 0])]); (ECall vec_mul [vv 1; (ECall
    vec_rsqrte [oo 1])]); (ECall vec_mul [vv 2; (ECall vec_rsqrte [oo 2])]); (ECall vec_mul [vv 3;
    (ECall vec_rsqrte [oo 3])]); (ECall vec_mul [vv 4; (ECall vec_rsqrte [oo 4])]); (ECall vec_mul
    [vv 5; (ECall vec_rsqrte [oo 5])]); (ECall vec_mul [vv 6; (ECall vec_rsqrte [oo 6])]); (ECall
    vec_mul [vv 7; (ECall vec_rsqrte [oo 7])])]].

(* short_vec_qpx_double_32.hpp:464-483 *)
Definition qpx_double_32_print : list item :=
  [PStr "["; PVal (EIdx (vv 0) (EInt 0)); PStr ", "; PVal (EIdx (vv 0) (EInt 1)); PStr ", "; PVal
   (EIdx (vv 0) (EInt 2)); PStr ", "; PVal (EIdx (vv 0) (EInt 3)); PStr ", "; PVal (EIdx (vv 1)
   (EInt 0)); PStr ", "; PVal (EIdx (vv 1) (EInt 1)); PStr ", "; PVal (EIdx (vv 1) (EInt 2)); PStr
   ", "; PVal (EIdx (vv 1) (EInt 3)); PStr ", "; PVal (EIdx (vv 2) (EInt 0)); PStr ", "; PVal (EIdx
   (vv 2) (EInt 1)); PStr ", "; PVal (EIdx (vv 2) (EInt 2)); PStr ", "; PVal (EIdx (vv 2) (EInt
   3)); PStr ", "; PVal (EIdx (vv 3) (EInt 0)); PStr ", "; PVal (EIdx (vv 3) (EInt 1)); PStr ", ";
   PVal (EIdx (vv 3) (EInt 2)); PStr ", "; PVal (EIdx (vv 3) (EInt 3)); PStr "["; PVal (EIdx (vv 4)
   (EInt 0)); PStr ", "; PVal (EIdx (vv 4) (EInt 1)); PStr ", "; PVal (EIdx (vv 4) (EInt 2)); PStr
   ", "; PVal (EIdx (vv 4) (EInt 3)); PStr ", "; PVal (EIdx (vv 5) (EInt 0)); PStr ", "; PVal (EIdx
   (vv 5) (EInt 1)); PStr ", "; PVal (EIdx (vv 5) (EInt 2)); PStr ", "; PVal (EIdx (vv 5) (EInt
   3)); PStr ", "; PVal (EIdx (vv 6) (EInt 0)); PStr ", "; PVal (EIdx (vv 6) (EInt 1)); PStr ", ";
   PVal (EIdx (vv 6) (EInt 2)); PStr ", "; PVal (EIdx (vv 6) (EInt 3)); PStr ", "; PVal (EIdx (vv
   7) (EInt 0)); PStr ", "; PVal (EIdx (vv 7) (EInt 1)); PStr ", "; PVal (EIdx (vv 7) (EInt 2));
   PStr ", "; PVal (EIdx (vv 7) (EInt 3)); PStr "]"].

(* short_vec_qpx_double_32.hpp *)
Definition cls_qpx_double_32 : cls :=
  mkCls "qpx_double_32" KF64 32 8 4 32 MNone
    (fun m => match m with
     | MCtorScalar => Some qpx_double_32_ctor_scalar
     | MCtorPtr => Some qpx_double_32_ctor_ptr
     | MCtorRegs => Some qpx_double_32_ctor_regs
     | MCtorSqrt => Some qpx_double_32_ctor_sqrt
     | MCtorList => Some qpx_double_32_ctor_list
     | MSubEq => Some qpx_double_32_sub_eq
     | MSub => Some qpx_double_32_sub
     | MAddEq => Some qpx_double_32_add_eq
     | MAdd => Some qpx_double_32_add
     | MMulEq => Some qpx_double_32_mul_eq
     | MMul => Some qpx_double_32_mul
     | MDivEq => Some qpx_double_32_div_eq
     | MDiv => Some qpx_double_32_div
     | MDivEqSqrt => Some qpx_double_32_div_eq_sqrt
     | MDivSqrt => Some qpx_double_32_div_sqrt
     | MSqrt => Some qpx_double_32_sqrt
     | MLoad => Some qpx_double_32_load
     | MLoadAligned => Some qpx_double_32_load_aligned
     | MStore => Some qpx_double_32_store
     | MStoreAligned => Some qpx_double_32_store_aligned
     | MStoreNt => Some qpx_double_32_store_nt
     | MGather => Some qpx_double_32_gather
     | MScatter => Some qpx_double_32_scatter
     | _ => None
     end)
    qpx_double_32_ctor_regs qpx_double_32_print.

Definition qpx_classes : list cls :=
  [cls_qpx_double_4; cls_qpx_double_8; cls_qpx_double_16; cls_qpx_double_32].
