(** The member functions of the short_vec classes in
    /repo/include/libflatarray/detail/short_vec_scalar_*.hpp, call by call, in the
    language of ShortVecLang.v.  Each definition cites the lines it was
    transliterated from.  Calls of load() and store() are expanded. *)
From Coq Require Import String ZArith List.
From Verif Require Import ShortVecLang ShortVecClass.
Import ListNotations.
Local Open Scope Z_scope.
Local Open Scope string_scope.

(* short_vec_scalar_double_1.hpp:63-66 *)
Definition scalar_double_1_ctor_scalar : body :=
  [SSet (LVal (EInt 0)) EArg].

(* short_vec_scalar_double_1.hpp:68-72 *)
Definition scalar_double_1_ctor_ptr : body :=
  [SSet (LVal (EInt 0)) (EIdx EData (EInt 0))].

(* short_vec_scalar_double_1.hpp:75-80 *)
Definition scalar_double_1_ctor_list : body :=
  [SSet (LVal (EInt 0)) (EIdx EData (EInt 0))].

(* short_vec_scalar_double_1.hpp:83-87 *)
Definition scalar_double_1_any : body :=
  [SRet (EBool (ECop ONe (vv 0) (EInt 0)))].

(* short_vec_scalar_double_1.hpp:89-93 *)
Definition scalar_double_1_index : body :=
  [SRet (vv 0)].

(* short_vec_scalar_double_1.hpp:95-99 *)
Definition scalar_double_1_sub_eq : body :=
  [SUpd OSub (LVal (EInt 0)) (oo 0)].

(* short_vec_scalar_double_1.hpp:101-106 *)
Definition scalar_double_1_sub : body :=
  [SRetVec [(ECop OSub (vv 0) (oo 0))]].

(* short_vec_scalar_double_1.hpp:108-112 *)
Definition scalar_double_1_add_eq : body :=
  [SUpd OAdd (LVal (EInt 0)) (oo 0)].

(* short_vec_scalar_double_1.hpp:114-119 *)
Definition scalar_double_1_add : body :=
  [SRetVec [(ECop OAdd (vv 0) (oo 0))]].

(* short_vec_scalar_double_1.hpp:121-125 *)
Definition scalar_double_1_mul_eq : body :=
  [SUpd OMul (LVal (EInt 0)) (oo 0)].

(* short_vec_scalar_double_1.hpp:127-132 *)
Definition scalar_double_1_mul : body :=
  [SRetVec [(ECop OMul (vv 0) (oo 0))]].

(* short_vec_scalar_double_1.hpp:134-138 *)
Definition scalar_double_1_div_eq : body :=
  [SUpd ODiv (LVal (EInt 0)) (oo 0)].

(* short_vec_scalar_double_1.hpp:140-145 *)
Definition scalar_double_1_div : body :=
  [SRetVec [(ECop ODiv (vv 0) (oo 0))]].

(* short_vec_scalar_double_1.hpp:148-152 *)
Definition scalar_double_1_lt : body :=
  [SRet (EMaskType (ECop (ORel RLt) (vv 0) (oo 0)))].

(* short_vec_scalar_double_1.hpp:154-158 *)
Definition scalar_double_1_le : body :=
  [SRet (EMaskType (ECop (ORel RLe) (vv 0) (oo 0)))].

(* short_vec_scalar_double_1.hpp:160-164 *)
Definition scalar_double_1_eq : body :=
  [SRet (EMaskType (ECop (ORel REq) (vv 0) (oo 0)))].

(* short_vec_scalar_double_1.hpp:166-170 *)
Definition scalar_double_1_gt : body :=
  [SRet (EMaskType (ECop (ORel RGt) (vv 0) (oo 0)))].

(* short_vec_scalar_double_1.hpp:172-176 *)
Definition scalar_double_1_ge : body :=
  [SRet (EMaskType (ECop (ORel RGe) (vv 0) (oo 0)))].

(* short_vec_scalar_double_1.hpp:179-183 *)
Definition scalar_double_1_sqrt : body :=
  [SRetVec [(EStdSqrt (vv 0))]].

(* short_vec_scalar_double_1.hpp:185-189 *)
Definition scalar_double_1_load : body :=
  [SSet (LVal (EInt 0)) (EIdx EData (EInt 0))].

(* short_vec_scalar_double_1.hpp:191-195 *)
Definition scalar_double_1_load_aligned : body :=
  [SSet (LVal (EInt 0)) (EIdx EData (EInt 0))].

(* short_vec_scalar_double_1.hpp:197-201 *)
Definition scalar_double_1_store : body :=
  [SSet (LMem (dat 0)) (vv 0)].

(* short_vec_scalar_double_1.hpp:203-207 *)
Definition scalar_double_1_store_aligned : body :=
  [SSet (LMem (dat 0)) (vv 0)].

(* short_vec_scalar_double_1.hpp:209-213 *)
Definition scalar_double_1_store_nt : body :=
  [SSet (LMem (dat 0)) (vv 0)].

(* short_vec_scalar_double_1.hpp:215-219 *)
Definition scalar_double_1_gather : body :=
  [SSet (LVal (EInt 0)) (EIdx EPtr (off 0))].

(* short_vec_scalar_double_1.hpp:221-225 *)
Definition scalar_double_1_scatter : body :=
  [SSet (LMem (pto 0)) (vv 0)].

(* short_vec_scalar_double_1.hpp:227-233 *)
Definition scalar_double_1_blend : body :=
  [SIf (ECop OBitAnd EMaskInt (EInt 1)) [SSet (LVal (EInt 0)) (oo 0)] []].

(* short_vec_scalar_double_1.hpp:266-269 *)
Definition scalar_double_1_print : list item :=
  [PStr "["; PVal (vv 0); PStr "]"].

(* short_vec_scalar_double_1.hpp *)
Definition cls_scalar_double_1 : cls :=
  mkCls "scalar_double_1" KF64 1 1 1 8 (MInt 8)
    (fun m => match m with
     | MCtorScalar => Some scalar_double_1_ctor_scalar
     | MCtorPtr => Some scalar_double_1_ctor_ptr
     | MCtorList => Some scalar_double_1_ctor_list
     | MAny => Some scalar_double_1_any
     | MIndex => Some scalar_double_1_index
     | MSubEq => Some scalar_double_1_sub_eq
     | MSub => Some scalar_double_1_sub
     | MAddEq => Some scalar_double_1_add_eq
     | MAdd => Some scalar_double_1_add
     | MMulEq => Some scalar_double_1_mul_eq
     | MMul => Some scalar_double_1_mul
     | MDivEq => Some scalar_double_1_div_eq
     | MDiv => Some scalar_double_1_div
     | MLt => Some scalar_double_1_lt
     | MLe => Some scalar_double_1_le
     | MEq => Some scalar_double_1_eq
     | MGt => Some scalar_double_1_gt
     | MGe => Some scalar_double_1_ge
     | MSqrt => Some scalar_double_1_sqrt
     | MLoad => Some scalar_double_1_load
     | MLoadAligned => Some scalar_double_1_load_aligned
     | MStore => Some scalar_double_1_store
     | MStoreAligned => Some scalar_double_1_store_aligned
     | MStoreNt => Some scalar_double_1_store_nt
     | MGather => Some scalar_double_1_gather
     | MScatter => Some scalar_double_1_scatter
     | MBlend => Some scalar_double_1_blend
     | _ => None
     end)
    scalar_double_1_ctor_scalar scalar_double_1_print.

(* short_vec_scalar_double_2.hpp:66-70 *)
Definition scalar_double_2_ctor_scalar : body :=
  [SSet (LVal (EInt 0)) EArg;
   SSet (LVal (EInt 1)) EArg].

(* short_vec_scalar_double_2.hpp:72-76 *)
Definition scalar_double_2_ctor_ptr : body :=
  [SSet (LVal (EInt 0)) (EIdx EData (EInt 0));
   SSet (LVal (EInt 1)) (EIdx EData (EInt 1))].

(* short_vec_scalar_double_2.hpp:78-84 *)
Definition scalar_double_2_ctor_regs : body :=
  [SSet (LVal (EInt 0)) (EPar 0);
   SSet (LVal (EInt 1)) (EPar 1)].

(* short_vec_scalar_double_2.hpp:87-92 *)
Definition scalar_double_2_ctor_list : body :=
  [SSet (LVal (EInt 0)) (EIdx EData (EInt 0));
   SSet (LVal (EInt 1)) (EIdx EData (EInt 1))].

(* short_vec_scalar_double_2.hpp:95-101 *)
Definition scalar_double_2_any : body :=
  [SRet (EBool (ECop OLor (vv 0) (vv 1)))].

(* short_vec_scalar_double_2.hpp:103-107 *)
Definition scalar_double_2_index : body :=
  [SRet (EVal (EVar "i"))].

(* short_vec_scalar_double_2.hpp:109-114 *)
Definition scalar_double_2_sub_eq : body :=
  [SUpd OSub (LVal (EInt 0)) (oo 0);
   SUpd OSub (LVal (EInt 1)) (oo 1)].

(* short_vec_scalar_double_2.hpp:116-122 *)
Definition scalar_double_2_sub : body :=
  [SRetVec [(ECop OSub (vv 0) (oo 0)); (ECop OSub (vv 1) (oo 1))]].

(* short_vec_scalar_double_2.hpp:124-129 *)
Definition scalar_double_2_add_eq : body :=
  [SUpd OAdd (LVal (EInt 0)) (oo 0);
   SUpd OAdd (LVal (EInt 1)) (oo 1)].

(* short_vec_scalar_double_2.hpp:131-137 *)
Definition scalar_double_2_add : body :=
  [SRetVec [(ECop OAdd (vv 0) (oo 0)); (ECop OAdd (vv 1) (oo 1))]].

(* short_vec_scalar_double_2.hpp:139-144 *)
Definition scalar_double_2_mul_eq : body :=
  [SUpd OMul (LVal (EInt 0)) (oo 0);
   SUpd OMul (LVal (EInt 1)) (oo 1)].

(* short_vec_scalar_double_2.hpp:146-152 *)
Definition scalar_double_2_mul : body :=
  [SRetVec [(ECop OMul (vv 0) (oo 0)); (ECop OMul (vv 1) (oo 1))]].

(* short_vec_scalar_double_2.hpp:154-159 *)
Definition scalar_double_2_div_eq : body :=
  [SUpd ODiv (LVal (EInt 0)) (oo 0);
   SUpd ODiv (LVal (EInt 1)) (oo 1)].

(* short_vec_scalar_double_2.hpp:161-167 *)
Definition scalar_double_2_div : body :=
  [SRetVec [(ECop ODiv (vv 0) (oo 0)); (ECop ODiv (vv 1) (oo 1))]].

(* short_vec_scalar_double_2.hpp:170-176 *)
Definition scalar_double_2_lt : body :=
  [SRet (EMaskType (ECop OAdd (ECop OShl (ECop (ORel RLt) (vv 0) (oo 0)) (EInt 0)) (ECop OShl (ECop
    (ORel RLt) (vv 1) (oo 1)) (EInt 1))))].

(* short_vec_scalar_double_2.hpp:178-184 *)
Definition scalar_double_2_le : body :=
  [SRet (EMaskType (ECop OAdd (ECop OShl (ECop (ORel RLe) (vv 0) (oo 0)) (EInt 0)) (ECop OShl (ECop
    (ORel RLe) (vv 1) (oo 1)) (EInt 1))))].

(* short_vec_scalar_double_2.hpp:186-192 *)
Definition scalar_double_2_eq : body :=
  [SRet (EMaskType (ECop OAdd (ECop OShl (ECop (ORel REq) (vv 0) (oo 0)) (EInt 0)) (ECop OShl (ECop
    (ORel REq) (vv 1) (oo 1)) (EInt 1))))].

(* short_vec_scalar_double_2.hpp:194-200 *)
Definition scalar_double_2_gt : body :=
  [SRet (EMaskType (ECop OAdd (ECop OShl (ECop (ORel RGt) (vv 0) (oo 0)) (EInt 0)) (ECop OShl (ECop
    (ORel RGt) (vv 1) (oo 1)) (EInt 1))))].

(* short_vec_scalar_double_2.hpp:202-208 *)
Definition scalar_double_2_ge : body :=
  [SRet (EMaskType (ECop OAdd (ECop OShl (ECop (ORel RGe) (vv 0) (oo 0)) (EInt 0)) (ECop OShl (ECop
    (ORel RGe) (vv 1) (oo 1)) (EInt 1))))].

(* short_vec_scalar_double_2.hpp:211-217 *)
Definition scalar_double_2_sqrt : body :=
  [SRetVec [(EStdSqrt (vv 0)); (EStdSqrt (vv 1))]].

(* short_vec_scalar_double_2.hpp:219-224 *)
Definition scalar_double_2_load : body :=
  [SSet (LVal (EInt 0)) (EIdx EData (EInt 0));
   SSet (LVal (EInt 1)) (EIdx EData (EInt 1))].

(* short_vec_scalar_double_2.hpp:226-230 *)
Definition scalar_double_2_load_aligned : body :=
  [SSet (LVal (EInt 0)) (EIdx EData (EInt 0));
   SSet (LVal (EInt 1)) (EIdx EData (EInt 1))].

(* short_vec_scalar_double_2.hpp:232-237 *)
Definition scalar_double_2_store : body :=
  [SSet (LMem (dat 0)) (vv 0);
   SSet (LMem (dat 1)) (vv 1)].

(* short_vec_scalar_double_2.hpp:239-243 *)
Definition scalar_double_2_store_aligned : body :=
  [SSet (LMem (dat 0)) (vv 0);
   SSet (LMem (dat 1)) (vv 1)].

(* short_vec_scalar_double_2.hpp:245-249 *)
Definition scalar_double_2_store_nt : body :=
  [SSet (LMem (dat 0)) (vv 0);
   SSet (LMem (dat 1)) (vv 1)].

(* short_vec_scalar_double_2.hpp:251-256 *)
Definition scalar_double_2_gather : body :=
  [SSet (LVal (EInt 0)) (EIdx EPtr (off 0));
   SSet (LVal (EInt 1)) (EIdx EPtr (off 1))].

(* short_vec_scalar_double_2.hpp:258-263 *)
Definition scalar_double_2_scatter : body :=
  [SSet (LMem (pto 0)) (vv 0);
   SSet (LMem (pto 1)) (vv 1)].

(* short_vec_scalar_double_2.hpp:265-274 *)
Definition scalar_double_2_blend : body :=
  [SIf (ECop OBitAnd EMaskInt (ECop OShl (EInt 1) (EInt 0))) [SSet (LVal (EInt 0)) (oo 0)] [];
   SIf (ECop OBitAnd EMaskInt (ECop OShl (EInt 1) (EInt 1))) [SSet (LVal (EInt 1)) (oo 1)] []].

(* short_vec_scalar_double_2.hpp:307-311 *)
Definition scalar_double_2_print : list item :=
  [PStr "["; PVal (vv 0); PStr ", "; PVal (vv 1); PStr "]"].

(* short_vec_scalar_double_2.hpp *)
Definition cls_scalar_double_2 : cls :=
  mkCls "scalar_double_2" KF64 2 2 1 8 (MInt 8)
    (fun m => match m with
     | MCtorScalar => Some scalar_double_2_ctor_scalar
     | MCtorPtr => Some scalar_double_2_ctor_ptr
     | MCtorRegs => Some scalar_double_2_ctor_regs
     | MCtorList => Some scalar_double_2_ctor_list
     | MAny => Some scalar_double_2_any
     | MIndex => Some scalar_double_2_index
     | MSubEq => Some scalar_double_2_sub_eq
     | MSub => Some scalar_double_2_sub
     | MAddEq => Some scalar_double_2_add_eq
     | MAdd => Some scalar_double_2_add
     | MMulEq => Some scalar_double_2_mul_eq
     | MMul => Some scalar_double_2_mul
     | MDivEq => Some scalar_double_2_div_eq
     | MDiv => Some scalar_double_2_div
     | MLt => Some scalar_double_2_lt
     | MLe => Some scalar_double_2_le
     | MEq => Some scalar_double_2_eq
     | MGt => Some scalar_double_2_gt
     | MGe => Some scalar_double_2_ge
     | MSqrt => Some scalar_double_2_sqrt
     | MLoad => Some scalar_double_2_load
     | MLoadAligned => Some scalar_double_2_load_aligned
     | MStore => Some scalar_double_2_store
     | MStoreAligned => Some scalar_double_2_store_aligned
     | MStoreNt => Some scalar_double_2_store_nt
     | MGather => Some scalar_double_2_gather
     | MScatter => Some scalar_double_2_scatter
     | MBlend => Some scalar_double_2_blend
     | _ => None
     end)
    scalar_double_2_ctor_regs scalar_double_2_print.

(* short_vec_scalar_double_4.hpp:65-71 *)
Definition scalar_double_4_ctor_scalar : body :=
  [SSet (LVal (EInt 0)) EArg;
   SSet (LVal (EInt 1)) EArg;
   SSet (LVal (EInt 2)) EArg;
   SSet (LVal (EInt 3)) EArg].

(* short_vec_scalar_double_4.hpp:73-77 *)
Definition scalar_double_4_ctor_ptr : body :=
  [SSet (LVal (EInt 0)) (EIdx EData (EInt 0));
   SSet (LVal (EInt 1)) (EIdx EData (EInt 1));
   SSet (LVal (EInt 2)) (EIdx EData (EInt 2));
   SSet (LVal (EInt 3)) (EIdx EData (EInt 3))].

(* short_vec_scalar_double_4.hpp:79-89 *)
Definition scalar_double_4_ctor_regs : body :=
  [SSet (LVal (EInt 0)) (EPar 0);
   SSet (LVal (EInt 1)) (EPar 1);
   SSet (LVal (EInt 2)) (EPar 2);
   SSet (LVal (EInt 3)) (EPar 3)].

(* short_vec_scalar_double_4.hpp:92-97 *)
Definition scalar_double_4_ctor_list : body :=
  [SSet (LVal (EInt 0)) (EIdx EData (EInt 0));
   SSet (LVal (EInt 1)) (EIdx EData (EInt 1));
   SSet (LVal (EInt 2)) (EIdx EData (EInt 2));
   SSet (LVal (EInt 3)) (EIdx EData (EInt 3))].

(* short_vec_scalar_double_4.hpp:100-108 *)
Definition scalar_double_4_any : body :=
  [SRet (EBool (ECop OLor (ECop OLor (ECop OLor (vv 0) (vv 1)) (vv 2)) (vv 3)))].

(* short_vec_scalar_double_4.hpp:110-114 *)
Definition scalar_double_4_index : body :=
  [SRet (EVal (EVar "i"))].

(* short_vec_scalar_double_4.hpp:116-123 *)
Definition scalar_double_4_sub_eq : body :=
  [SUpd OSub (LVal (EInt 0)) (oo 0);
   SUpd OSub (LVal (EInt 1)) (oo 1);
   SUpd OSub (LVal (EInt 2)) (oo 2);
   SUpd OSub (LVal (EInt 3)) (oo 3)].

(* short_vec_scalar_double_4.hpp:125-133 *)
Definition scalar_double_4_sub : body :=
  [SRetVec [(ECop OSub (vv 0) (oo 0)); (ECop OSub (vv 1) (oo 1)); (ECop OSub (vv 2) (oo 2)); (ECop
    OSub (vv 3) (oo 3))]].

(* short_vec_scalar_double_4.hpp:135-142 *)
Definition scalar_double_4_add_eq : body :=
  [SUpd OAdd (LVal (EInt 0)) (oo 0);
   SUpd OAdd (LVal (EInt 1)) (oo 1);
   SUpd OAdd (LVal (EInt 2)) (oo 2);
   SUpd OAdd (LVal (EInt 3)) (oo 3)].

(* short_vec_scalar_double_4.hpp:144-152 *)
Definition scalar_double_4_add : body :=
  [SRetVec [(ECop OAdd (vv 0) (oo 0)); (ECop OAdd (vv 1) (oo 1)); (ECop OAdd (vv 2) (oo 2)); (ECop
    OAdd (vv 3) (oo 3))]].

(* short_vec_scalar_double_4.hpp:154-161 *)
Definition scalar_double_4_mul_eq : body :=
  [SUpd OMul (LVal (EInt 0)) (oo 0);
   SUpd OMul (LVal (EInt 1)) (oo 1);
   SUpd OMul (LVal (EInt 2)) (oo 2);
   SUpd OMul (LVal (EInt 3)) (oo 3)].

(* short_vec_scalar_double_4.hpp:163-171 *)
Definition scalar_double_4_mul : body :=
  [SRetVec [(ECop OMul (vv 0) (oo 0)); (ECop OMul (vv 1) (oo 1)); (ECop OMul (vv 2) (oo 2)); (ECop
    OMul (vv 3) (oo 3))]].

(* short_vec_scalar_double_4.hpp:173-180 *)
Definition scalar_double_4_div_eq : body :=
  [SUpd ODiv (LVal (EInt 0)) (oo 0);
   SUpd ODiv (LVal (EInt 1)) (oo 1);
   SUpd ODiv (LVal (EInt 2)) (oo 2);
   SUpd ODiv (LVal (EInt 3)) (oo 3)].

(* short_vec_scalar_double_4.hpp:182-190 *)
Definition scalar_double_4_div : body :=
  [SRetVec [(ECop ODiv (vv 0) (oo 0)); (ECop ODiv (vv 1) (oo 1)); (ECop ODiv (vv 2) (oo 2)); (ECop
    ODiv (vv 3) (oo 3))]].

(* short_vec_scalar_double_4.hpp:193-201 *)
Definition scalar_double_4_lt : body :=
  [SRet (EMaskType (ECop OAdd (ECop OAdd (ECop OAdd (ECop OShl (ECop (ORel RLt) (vv 0) (oo 0))
    (EInt 0)) (ECop OShl (ECop (ORel RLt) (vv 1) (oo 1)) (EInt 1))) (ECop OShl (ECop (ORel RLt) (vv
    2) (oo 2)) (EInt 2))) (ECop OShl (ECop (ORel RLt) (vv 3) (oo 3)) (EInt 3))))].

(* short_vec_scalar_double_4.hpp:203-211 *)
Definition scalar_double_4_le : body :=
  [SRet (EMaskType (ECop OAdd (ECop OAdd (ECop OAdd (ECop OShl (ECop (ORel RLe) (vv 0) (oo 0))
    (EInt 0)) (ECop OShl (ECop (ORel RLe) (vv 1) (oo 1)) (EInt 1))) (ECop OShl (ECop (ORel RLe) (vv
    2) (oo 2)) (EInt 2))) (ECop OShl (ECop (ORel RLe) (vv 3) (oo 3)) (EInt 3))))].

(* short_vec_scalar_double_4.hpp:213-221 *)
Definition scalar_double_4_eq : body :=
  [SRet (EMaskType (ECop OAdd (ECop OAdd (ECop OAdd (ECop OShl (ECop (ORel REq) (vv 0) (oo 0))
    (EInt 0)) (ECop OShl (ECop (ORel REq) (vv 1) (oo 1)) (EInt 1))) (ECop OShl (ECop (ORel REq) (vv
    2) (oo 2)) (EInt 2))) (ECop OShl (ECop (ORel REq) (vv 3) (oo 3)) (EInt 3))))].

(* short_vec_scalar_double_4.hpp:223-231 *)
Definition scalar_double_4_gt : body :=
  [SRet (EMaskType (ECop OAdd (ECop OAdd (ECop OAdd (ECop OShl (ECop (ORel RGt) (vv 0) (oo 0))
    (EInt 0)) (ECop OShl (ECop (ORel RGt) (vv 1) (oo 1)) (EInt 1))) (ECop OShl (ECop (ORel RGt) (vv
    2) (oo 2)) (EInt 2))) (ECop OShl (ECop (ORel RGt) (vv 3) (oo 3)) (EInt 3))))].

(* short_vec_scalar_double_4.hpp:233-241 *)
Definition scalar_double_4_ge : body :=
  [SRet (EMaskType (ECop OAdd (ECop OAdd (ECop OAdd (ECop OShl (ECop (ORel RGe) (vv 0) (oo 0))
    (EInt 0)) (ECop OShl (ECop (ORel RGe) (vv 1) (oo 1)) (EInt 1))) (ECop OShl (ECop (ORel RGe) (vv
    2) (oo 2)) (EInt 2))) (ECop OShl (ECop (ORel RGe) (vv 3) (oo 3)) (EInt 3))))].

(* short_vec_scalar_double_4.hpp:244-252 *)
Definition scalar_double_4_sqrt : body :=
  [SRetVec [(EStdSqrt (vv 0)); (EStdSqrt (vv 1)); (EStdSqrt (vv 2)); (EStdSqrt (vv 3))]].

(* short_vec_scalar_double_4.hpp:254-261 *)
Definition scalar_double_4_load : body :=
  [SSet (LVal (EInt 0)) (EIdx EData (EInt 0));
   SSet (LVal (EInt 1)) (EIdx EData (EInt 1));
   SSet (LVal (EInt 2)) (EIdx EData (EInt 2));
   SSet (LVal (EInt 3)) (EIdx EData (EInt 3))].

(* short_vec_scalar_double_4.hpp:263-267 *)
Definition scalar_double_4_load_aligned : body :=
  [SSet (LVal (EInt 0)) (EIdx EData (EInt 0));
   SSet (LVal (EInt 1)) (EIdx EData (EInt 1));
   SSet (LVal (EInt 2)) (EIdx EData (EInt 2));
   SSet (LVal (EInt 3)) (EIdx EData (EInt 3))].

(* short_vec_scalar_double_4.hpp:269-276 *)
Definition scalar_double_4_store : body :=
  [SSet (LMem (dat 0)) (vv 0);
   SSet (LMem (dat 1)) (vv 1);
   SSet (LMem (dat 2)) (vv 2);
   SSet (LMem (dat 3)) (vv 3)].

(* short_vec_scalar_double_4.hpp:278-282 *)
Definition scalar_double_4_store_aligned : body :=
  [SSet (LMem (dat 0)) (vv 0);
   SSet (LMem (dat 1)) (vv 1);
   SSet (LMem (dat 2)) (vv 2);
   SSet (LMem (dat 3)) (vv 3)].

(* short_vec_scalar_double_4.hpp:284-288 *)
Definition scalar_double_4_store_nt : body :=
  [SSet (LMem (dat 0)) (vv 0);
   SSet (LMem (dat 1)) (vv 1);
   SSet (LMem (dat 2)) (vv 2);
   SSet (LMem (dat 3)) (vv 3)].

(* short_vec_scalar_double_4.hpp:290-297 *)
Definition scalar_double_4_gather : body :=
  [SSet (LVal (EInt 0)) (EIdx EPtr (off 0));
   SSet (LVal (EInt 1)) (EIdx EPtr (off 1));
   SSet (LVal (EInt 2)) (EIdx EPtr (off 2));
   SSet (LVal (EInt 3)) (EIdx EPtr (off 3))].

(* short_vec_scalar_double_4.hpp:299-306 *)
Definition scalar_double_4_scatter : body :=
  [SSet (LMem (pto 0)) (vv 0);
   SSet (LMem (pto 1)) (vv 1);
   SSet (LMem (pto 2)) (vv 2);
   SSet (LMem (pto 3)) (vv 3)].

(* short_vec_scalar_double_4.hpp:308-323 *)
Definition scalar_double_4_blend : body :=
  [SIf (ECop OBitAnd EMaskInt (ECop OShl (EInt 1) (EInt 0))) [SSet (LVal (EInt 0)) (oo 0)] [];
   SIf (ECop OBitAnd EMaskInt (ECop OShl (EInt 1) (EInt 1))) [SSet (LVal (EInt 1)) (oo 1)] [];
   SIf (ECop OBitAnd EMaskInt (ECop OShl (EInt 1) (EInt 2))) [SSet (LVal (EInt 2)) (oo 2)] [];
   SIf (ECop OBitAnd EMaskInt (ECop OShl (EInt 1) (EInt 3))) [SSet (LVal (EInt 3)) (oo 3)] []].

(* short_vec_scalar_double_4.hpp:355-362 *)
Definition scalar_double_4_print : list item :=
  [PStr "["; PVal (vv 0); PStr ", "; PVal (vv 1); PStr ", "; PVal (vv 2); PStr ", "; PVal (vv 3);
   PStr "]"].

(* short_vec_scalar_double_4.hpp *)
Definition cls_scalar_double_4 : cls :=
  mkCls "scalar_double_4" KF64 4 4 1 8 (MInt 8)
    (fun m => match m with
     | MCtorScalar => Some scalar_double_4_ctor_scalar
     | MCtorPtr => Some scalar_double_4_ctor_ptr
     | MCtorRegs => Some scalar_double_4_ctor_regs
     | MCtorList => Some scalar_double_4_ctor_list
     | MAny => Some scalar_double_4_any
     | MIndex => Some scalar_double_4_index
     | MSubEq => Some scalar_double_4_sub_eq
     | MSub => Some scalar_double_4_sub
     | MAddEq => Some scalar_double_4_add_eq
     | MAdd => Some scalar_double_4_add
     | MMulEq => Some scalar_double_4_mul_eq
     | MMul => Some scalar_double_4_mul
     | MDivEq => Some scalar_double_4_div_eq
     | MDiv => Some scalar_double_4_div
     | MLt => Some scalar_double_4_lt
     | MLe => Some scalar_double_4_le
     | MEq => Some scalar_double_4_eq
     | MGt => Some scalar_double_4_gt
     | MGe => Some scalar_double_4_ge
     | MSqrt => Some scalar_double_4_sqrt
     | MLoad => Some scalar_double_4_load
     | MLoadAligned => Some scalar_double_4_load_aligned
     | MStore => Some scalar_double_4_store
     | MStoreAligned => Some scalar_double_4_store_aligned
     | MStoreNt => Some scalar_double_4_store_nt
     | MGather => Some scalar_double_4_gather
     | MScatter => Some scalar_double_4_scatter
     | MBlend => Some scalar_double_4_blend
     | _ => None
     end)
    scalar_double_4_ctor_regs scalar_double_4_print.

(* short_vec_scalar_double_8.hpp:64-74 *)
Definition scalar_double_8_ctor_scalar : body :=
  [SSet (LVal (EInt 0)) EArg;
   SSet (LVal (EInt 1)) EArg;
   SSet (LVal (EInt 2)) EArg;
   SSet (LVal (EInt 3)) EArg;
   SSet (LVal (EInt 4)) EArg;
   SSet (LVal (EInt 5)) EArg;
   SSet (LVal (EInt 6)) EArg;
   SSet (LVal (EInt 7)) EArg].

(* short_vec_scalar_double_8.hpp:76-80 *)
Definition scalar_double_8_ctor_ptr : body :=
  [SSet (LVal (EInt 0)) (EIdx EData (EInt 0));
   SSet (LVal (EInt 1)) (EIdx EData (EInt 1));
   SSet (LVal (EInt 2)) (EIdx EData (EInt 2));
   SSet (LVal (EInt 3)) (EIdx EData (EInt 3));
   SSet (LVal (EInt 4)) (EIdx EData (EInt 4));
   SSet (LVal (EInt 5)) (EIdx EData (EInt 5));
   SSet (LVal (EInt 6)) (EIdx EData (EInt 6));
   SSet (LVal (EInt 7)) (EIdx EData (EInt 7))].

(* short_vec_scalar_double_8.hpp:82-100 *)
Definition scalar_double_8_ctor_regs : body :=
  [SSet (LVal (EInt 0)) (EPar 0);
   SSet (LVal (EInt 1)) (EPar 1);
   SSet (LVal (EInt 2)) (EPar 2);
   SSet (LVal (EInt 3)) (EPar 3);
   SSet (LVal (EInt 4)) (EPar 4);
   SSet (LVal (EInt 5)) (EPar 5);
   SSet (LVal (EInt 6)) (EPar 6);
   SSet (LVal (EInt 7)) (EPar 7)].

(* short_vec_scalar_double_8.hpp:103-108 *)
Definition scalar_double_8_ctor_list : body :=
  [SSet (LVal (EInt 0)) (EIdx EData (EInt 0));
   SSet (LVal (EInt 1)) (EIdx EData (EInt 1));
   SSet (LVal (EInt 2)) (EIdx EData (EInt 2));
   SSet (LVal (EInt 3)) (EIdx EData (EInt 3));
   SSet (LVal (EInt 4)) (EIdx EData (EInt 4));
   SSet (LVal (EInt 5)) (EIdx EData (EInt 5));
   SSet (LVal (EInt 6)) (EIdx EData (EInt 6));
   SSet (LVal (EInt 7)) (EIdx EData (EInt 7))].

(* short_vec_scalar_double_8.hpp:111-123 *)
Definition scalar_double_8_any : body :=
  [SRet (EBool (ECop OLor (ECop OLor (ECop OLor (ECop OLor (ECop OLor (ECop OLor (ECop OLor (vv 0)
    (vv 1)) (vv 2)) (vv 3)) (vv 4)) (vv 5)) (vv 6)) (vv 7)))].

(* short_vec_scalar_double_8.hpp:125-129 *)
Definition scalar_double_8_index : body :=
  [SRet (EVal (EVar "i"))].

(* short_vec_scalar_double_8.hpp:131-142 *)
Definition scalar_double_8_sub_eq : body :=
  [SUpd OSub (LVal (EInt 0)) (oo 0);
   SUpd OSub (LVal (EInt 1)) (oo 1);
   SUpd OSub (LVal (EInt 2)) (oo 2);
   SUpd OSub (LVal (EInt 3)) (oo 3);
   SUpd OSub (LVal (EInt 4)) (oo 4);
   SUpd OSub (LVal (EInt 5)) (oo 5);
   SUpd OSub (LVal (EInt 6)) (oo 6);
   SUpd OSub (LVal (EInt 7)) (oo 7)].

(* short_vec_scalar_double_8.hpp:144-156 *)
Definition scalar_double_8_sub : body :=
  [SRetVec [(ECop OSub (vv 0) (oo 0)); (ECop OSub (vv 1) (oo 1)); (ECop OSub (vv 2) (oo 2)); (ECop
    OSub (vv 3) (oo 3)); (ECop OSub (vv 4) (oo 4)); (ECop OSub (vv 5) (oo 5)); (ECop OSub (vv 6) (oo
    6)); (ECop OSub (vv 7) (oo 7))]].

(* short_vec_scalar_double_8.hpp:158-169 *)
Definition scalar_double_8_add_eq : body :=
  [SUpd OAdd (LVal (EInt 0)) (oo 0);
   SUpd OAdd (LVal (EInt 1)) (oo 1);
   SUpd OAdd (LVal (EInt 2)) (oo 2);
   SUpd OAdd (LVal (EInt 3)) (oo 3);
   SUpd OAdd (LVal (EInt 4)) (oo 4);
   SUpd OAdd (LVal (EInt 5)) (oo 5);
   SUpd OAdd (LVal (EInt 6)) (oo 6);
   SUpd OAdd (LVal (EInt 7)) (oo 7)].

(* short_vec_scalar_double_8.hpp:171-183 *)
Definition scalar_double_8_add : body :=
  [SRetVec [(ECop OAdd (vv 0) (oo 0)); (ECop OAdd (vv 1) (oo 1)); (ECop OAdd (vv 2) (oo 2)); (ECop
    OAdd (vv 3) (oo 3)); (ECop OAdd (vv 4) (oo 4)); (ECop OAdd (vv 5) (oo 5)); (ECop OAdd (vv 6) (oo
    6)); (ECop OAdd (vv 7) (oo 7))]].

(* short_vec_scalar_double_8.hpp:185-196 *)
Definition scalar_double_8_mul_eq : body :=
  [SUpd OMul (LVal (EInt 0)) (oo 0);
   SUpd OMul (LVal (EInt 1)) (oo 1);
   SUpd OMul (LVal (EInt 2)) (oo 2);
   SUpd OMul (LVal (EInt 3)) (oo 3);
   SUpd OMul (LVal (EInt 4)) (oo 4);
   SUpd OMul (LVal (EInt 5)) (oo 5);
   SUpd OMul (LVal (EInt 6)) (oo 6);
   SUpd OMul (LVal (EInt 7)) (oo 7)].

(* short_vec_scalar_double_8.hpp:198-210 *)
Definition scalar_double_8_mul : body :=
  [SRetVec [(ECop OMul (vv 0) (oo 0)); (ECop OMul (vv 1) (oo 1)); (ECop OMul (vv 2) (oo 2)); (ECop
    OMul (vv 3) (oo 3)); (ECop OMul (vv 4) (oo 4)); (ECop OMul (vv 5) (oo 5)); (ECop OMul (vv 6) (oo
    6)); (ECop OMul (vv 7) (oo 7))]].

(* short_vec_scalar_double_8.hpp:212-223 *)
Definition scalar_double_8_div_eq : body :=
  [SUpd ODiv (LVal (EInt 0)) (oo 0);
   SUpd ODiv (LVal (EInt 1)) (oo 1);
   SUpd ODiv (LVal (EInt 2)) (oo 2);
   SUpd ODiv (LVal (EInt 3)) (oo 3);
   SUpd ODiv (LVal (EInt 4)) (oo 4);
   SUpd ODiv (LVal (EInt 5)) (oo 5);
   SUpd ODiv (LVal (EInt 6)) (oo 6);
   SUpd ODiv (LVal (EInt 7)) (oo 7)].

(* short_vec_scalar_double_8.hpp:225-237 *)
Definition scalar_double_8_div : body :=
  [SRetVec [(ECop ODiv (vv 0) (oo 0)); (ECop ODiv (vv 1) (oo 1)); (ECop ODiv (vv 2) (oo 2)); (ECop
    ODiv (vv 3) (oo 3)); (ECop ODiv (vv 4) (oo 4)); (ECop ODiv (vv 5) (oo 5)); (ECop ODiv (vv 6) (oo
    6)); (ECop ODiv (vv 7) (oo 7))]].

(* short_vec_scalar_double_8.hpp:240-252 *)
Definition scalar_double_8_lt : body :=
  [SRet (EMaskType (ECop OAdd (ECop OAdd (ECop OAdd (ECop OAdd (ECop OAdd (ECop OAdd (ECop OAdd
    (ECop OShl (ECop (ORel RLt) (vv 0) (oo 0)) (EInt 0)) (ECop OShl (ECop (ORel RLt) (vv 1) (oo 1))
    (EInt 1))) (ECop OShl (ECop (ORel RLt) (vv 2) (oo 2)) (EInt 2))) (ECop OShl (ECop (ORel RLt) (vv
    3) (oo 3)) (EInt 3))) (ECop OShl (ECop (ORel RLt) (vv 4) (oo 4)) (EInt 4))) (ECop OShl (ECop
    (ORel RLt) (vv 5) (oo 5)) (EInt 5))) (ECop OShl (ECop (ORel RLt) (vv 6) (oo 6)) (EInt 6))) (ECop
    OShl (ECop (ORel RLt) (vv 7) (oo 7)) (EInt 7))))].

(* short_vec_scalar_double_8.hpp:254-266 *)
Definition scalar_double_8_le : body :=
  [SRet (EMaskType (ECop OAdd (ECop OAdd (ECop OAdd (ECop OAdd (ECop OAdd (ECop OAdd (ECop OAdd
    (ECop OShl (ECop (ORel RLe) (vv 0) (oo 0)) (EInt 0)) (ECop OShl (ECop (ORel RLe) (vv 1) (oo 1))
    (EInt 1))) (ECop OShl (ECop (ORel RLe) (vv 2) (oo 2)) (EInt 2))) (ECop OShl (ECop (ORel RLe) (vv
    3) (oo 3)) (EInt 3))) (ECop OShl (ECop (ORel RLe) (vv 4) (oo 4)) (EInt 4))) (ECop OShl (ECop
    (ORel RLe) (vv 5) (oo 5)) (EInt 5))) (ECop OShl (ECop (ORel RLe) (vv 6) (oo 6)) (EInt 6))) (ECop
    OShl (ECop (ORel RLe) (vv 7) (oo 7)) (EInt 7))))].

(* short_vec_scalar_double_8.hpp:268-280 *)
Definition scalar_double_8_eq : body :=
  [SRet (EMaskType (ECop OAdd (ECop OAdd (ECop OAdd (ECop OAdd (ECop OAdd (ECop OAdd (ECop OAdd
    (ECop OShl (ECop (ORel REq) (vv 0) (oo 0)) (EInt 0)) (ECop OShl (ECop (ORel REq) (vv 1) (oo 1))
    (EInt 1))) (ECop OShl (ECop (ORel REq) (vv 2) (oo 2)) (EInt 2))) (ECop OShl (ECop (ORel REq) (vv
    3) (oo 3)) (EInt 3))) (ECop OShl (ECop (ORel REq) (vv 4) (oo 4)) (EInt 4))) (ECop OShl (ECop
    (ORel REq) (vv 5) (oo 5)) (EInt 5))) (ECop OShl (ECop (ORel REq) (vv 6) (oo 6)) (EInt 6))) (ECop
    OShl (ECop (ORel REq) (vv 7) (oo 7)) (EInt 7))))].

(* short_vec_scalar_double_8.hpp:282-294 *)
Definition scalar_double_8_gt : body :=
  [SRet (EMaskType (ECop OAdd (ECop OAdd (ECop OAdd (ECop OAdd (ECop OAdd (ECop OAdd (ECop OAdd
    (ECop OShl (ECop (ORel RGt) (vv 0) (oo 0)) (EInt 0)) (ECop OShl (ECop (ORel RGt) (vv 1) (oo 1))
    (EInt 1))) (ECop OShl (ECop (ORel RGt) (vv 2) (oo 2)) (EInt 2))) (ECop OShl (ECop (ORel RGt) (vv
    3) (oo 3)) (EInt 3))) (ECop OShl (ECop (ORel RGt) (vv 4) (oo 4)) (EInt 4))) (ECop OShl (ECop
    (ORel RGt) (vv 5) (oo 5)) (EInt 5))) (ECop OShl (ECop (ORel RGt) (vv 6) (oo 6)) (EInt 6))) (ECop
    OShl (ECop (ORel RGt) (vv 7) (oo 7)) (EInt 7))))].

(* short_vec_scalar_double_8.hpp:296-308 *)
Definition scalar_double_8_ge : body :=
  [SRet (EMaskType (ECop OAdd (ECop OAdd (ECop OAdd (ECop OAdd (ECop OAdd (ECop OAdd (ECop OAdd
    (ECop OShl (ECop (ORel RGe) (vv 0) (oo 0)) (EInt 0)) (ECop OShl (ECop (ORel RGe) (vv 1) (oo 1))
    (EInt 1))) (ECop OShl (ECop (ORel RGe) (vv 2) (oo 2)) (EInt 2))) (ECop OShl (ECop (ORel RGe) (vv
    3) (oo 3)) (EInt 3))) (ECop OShl (ECop (ORel RGe) (vv 4) (oo 4)) (EInt 4))) (ECop OShl (ECop
    (ORel RGe) (vv 5) (oo 5)) (EInt 5))) (ECop OShl (ECop (ORel RGe) (vv 6) (oo 6)) (EInt 6))) (ECop
    OShl (ECop (ORel RGe) (vv 7) (oo 7)) (EInt 7))))].

(* short_vec_scalar_double_8.hpp:311-323 *)
Definition scalar_double_8_sqrt : body :=
  [SRetVec [(EStdSqrt (vv 0)); (EStdSqrt (vv 1)); (EStdSqrt (vv 2)); (EStdSqrt (vv 3)); (EStdSqrt
    (vv 4)); (EStdSqrt (vv 5)); (EStdSqrt (vv 6)); (EStdSqrt (vv 7))]].

(* short_vec_scalar_double_8.hpp:325-336 *)
Definition scalar_double_8_load : body :=
  [SSet (LVal (EInt 0)) (EIdx EData (EInt 0));
   SSet (LVal (EInt 1)) (EIdx EData (EInt 1));
   SSet (LVal (EInt 2)) (EIdx EData (EInt 2));
   SSet (LVal (EInt 3)) (EIdx EData (EInt 3));
   SSet (LVal (EInt 4)) (EIdx EData (EInt 4));
   SSet (LVal (EInt 5)) (EIdx EData (EInt 5));
   SSet (LVal (EInt 6)) (EIdx EData (EInt 6));
   SSet (LVal (EInt 7)) (EIdx EData (EInt 7))].

(* short_vec_scalar_double_8.hpp:338-342 *)
Definition scalar_double_8_load_aligned : body :=
  [SSet (LVal (EInt 0)) (EIdx EData (EInt 0));
   SSet (LVal (EInt 1)) (EIdx EData (EInt 1));
   SSet (LVal (EInt 2)) (EIdx EData (EInt 2));
   SSet (LVal (EInt 3)) (EIdx EData (EInt 3));
   SSet (LVal (EInt 4)) (EIdx EData (EInt 4));
   SSet (LVal (EInt 5)) (EIdx EData (EInt 5));
   SSet (LVal (EInt 6)) (EIdx EData (EInt 6));
   SSet (LVal (EInt 7)) (EIdx EData (EInt 7))].

(* short_vec_scalar_double_8.hpp:344-355 *)
Definition scalar_double_8_store : body :=
  [SSet (LMem (dat 0)) (vv 0);
   SSet (LMem (dat 1)) (vv 1);
   SSet (LMem (dat 2)) (vv 2);
   SSet (LMem (dat 3)) (vv 3);
   SSet (LMem (dat 4)) (vv 4);
   SSet (LMem (dat 5)) (vv 5);
   SSet (LMem (dat 6)) (vv 6);
   SSet (LMem (dat 7)) (vv 7)].

(* short_vec_scalar_double_8.hpp:357-361 *)
Definition scalar_double_8_store_aligned : body :=
  [SSet (LMem (dat 0)) (vv 0);
   SSet (LMem (dat 1)) (vv 1);
   SSet (LMem (dat 2)) (vv 2);
   SSet (LMem (dat 3)) (vv 3);
   SSet (LMem (dat 4)) (vv 4);
   SSet (LMem (dat 5)) (vv 5);
   SSet (LMem (dat 6)) (vv 6);
   SSet (LMem (dat 7)) (vv 7)].

(* short_vec_scalar_double_8.hpp:363-367 *)
Definition scalar_double_8_store_nt : body :=
  [SSet (LMem (dat 0)) (vv 0);
   SSet (LMem (dat 1)) (vv 1);
   SSet (LMem (dat 2)) (vv 2);
   SSet (LMem (dat 3)) (vv 3);
   SSet (LMem (dat 4)) (vv 4);
   SSet (LMem (dat 5)) (vv 5);
   SSet (LMem (dat 6)) (vv 6);
   SSet (LMem (dat 7)) (vv 7)].

(* short_vec_scalar_double_8.hpp:369-380 *)
Definition scalar_double_8_gather : body :=
  [SSet (LVal (EInt 0)) (EIdx EPtr (off 0));
   SSet (LVal (EInt 1)) (EIdx EPtr (off 1));
   SSet (LVal (EInt 2)) (EIdx EPtr (off 2));
   SSet (LVal (EInt 3)) (EIdx EPtr (off 3));
   SSet (LVal (EInt 4)) (EIdx EPtr (off 4));
   SSet (LVal (EInt 5)) (EIdx EPtr (off 5));
   SSet (LVal (EInt 6)) (EIdx EPtr (off 6));
   SSet (LVal (EInt 7)) (EIdx EPtr (off 7))].

(* short_vec_scalar_double_8.hpp:382-393 *)
Definition scalar_double_8_scatter : body :=
  [SSet (LMem (pto 0)) (vv 0);
   SSet (LMem (pto 1)) (vv 1);
   SSet (LMem (pto 2)) (vv 2);
   SSet (LMem (pto 3)) (vv 3);
   SSet (LMem (pto 4)) (vv 4);
   SSet (LMem (pto 5)) (vv 5);
   SSet (LMem (pto 6)) (vv 6);
   SSet (LMem (pto 7)) (vv 7)].

(* short_vec_scalar_double_8.hpp:395-422 *)
Definition scalar_double_8_blend : body :=
  [SIf (ECop OBitAnd EMaskInt (ECop OShl (EInt 1) (EInt 0))) [SSet (LVal (EInt 0)) (oo 0)] [];
   SIf (ECop OBitAnd EMaskInt (ECop OShl (EInt 1) (EInt 1))) [SSet (LVal (EInt 1)) (oo 1)] [];
   SIf (ECop OBitAnd EMaskInt (ECop OShl (EInt 1) (EInt 2))) [SSet (LVal (EInt 2)) (oo 2)] [];
   SIf (ECop OBitAnd EMaskInt (ECop OShl (EInt 1) (EInt 3))) [SSet (LVal (EInt 3)) (oo 3)] [];
   SIf (ECop OBitAnd EMaskInt (ECop OShl (EInt 1) (EInt 4))) [SSet (LVal (EInt 4)) (oo 4)] [];
   SIf (ECop OBitAnd EMaskInt (ECop OShl (EInt 1) (EInt 5))) [SSet (LVal (EInt 5)) (oo 5)] [];
   SIf (ECop OBitAnd EMaskInt (ECop OShl (EInt 1) (EInt 6))) [SSet (LVal (EInt 6)) (oo 6)] [];
   SIf (ECop OBitAnd EMaskInt (ECop OShl (EInt 1) (EInt 7))) [SSet (LVal (EInt 7)) (oo 7)] []].

(* short_vec_scalar_double_8.hpp:454-459 *)
Definition scalar_double_8_print : list item :=
  [PStr "["; PVal (vv 0); PStr ", "; PVal (vv 1); PStr ", "; PVal (vv 2); PStr ", "; PVal (vv 3);
   PStr ", "; PVal (vv 4); PStr ", "; PVal (vv 5); PStr ", "; PVal (vv 6); PStr ", "; PVal (vv 7);
   PStr "]"].

(* short_vec_scalar_double_8.hpp *)
Definition cls_scalar_double_8 : cls :=
  mkCls "scalar_double_8" KF64 8 8 1 8 (MInt 8)
    (fun m => match m with
     | MCtorScalar => Some scalar_double_8_ctor_scalar
     | MCtorPtr => Some scalar_double_8_ctor_ptr
     | MCtorRegs => Some scalar_double_8_ctor_regs
     | MCtorList => Some scalar_double_8_ctor_list
     | MAny => Some scalar_double_8_any
     | MIndex => Some scalar_double_8_index
     | MSubEq => Some scalar_double_8_sub_eq
     | MSub => Some scalar_double_8_sub
     | MAddEq => Some scalar_double_8_add_eq
     | MAdd => Some scalar_double_8_add
     | MMulEq => Some scalar_double_8_mul_eq
     | MMul => Some scalar_double_8_mul
     | MDivEq => Some scalar_double_8_div_eq
     | MDiv => Some scalar_double_8_div
     | MLt => Some scalar_double_8_lt
     | MLe => Some scalar_double_8_le
     | MEq => Some scalar_double_8_eq
     | MGt => Some scalar_double_8_gt
     | MGe => Some scalar_double_8_ge
     | MSqrt => Some scalar_double_8_sqrt
     | MLoad => Some scalar_double_8_load
     | MLoadAligned => Some scalar_double_8_load_aligned
     | MStore => Some scalar_double_8_store
     | MStoreAligned => Some scalar_double_8_store_aligned
     | MStoreNt => Some scalar_double_8_store_nt
     | MGather => Some scalar_double_8_gather
     | MScatter => Some scalar_double_8_scatter
     | MBlend => Some scalar_double_8_blend
     | _ => None
     end)
    scalar_double_8_ctor_regs scalar_double_8_print.

(* short_vec_scalar_double_16.hpp:66-84 *)
Definition scalar_double_16_ctor_scalar : body :=
  [SSet (LVal (EInt 0)) EArg;
   SSet (LVal (EInt 1)) EArg;
   SSet (LVal (EInt 2)) EArg;
   SSet (LVal (EInt 3)) EArg;
   SSet (LVal (EInt 4)) EArg;
   SSet (LVal (EInt 5)) EArg;
   SSet (LVal (EInt 6)) EArg;
   SSet (LVal (EInt 7)) EArg;
   SSet (LVal (EInt 8)) EArg;
   SSet (LVal (EInt 9)) EArg;
   SSet (LVal (EInt 10)) EArg;
   SSet (LVal (EInt 11)) EArg;
   SSet (LVal (EInt 12)) EArg;
   SSet (LVal (EInt 13)) EArg;
   SSet (LVal (EInt 14)) EArg;
   SSet (LVal (EInt 15)) EArg].

(* short_vec_scalar_double_16.hpp:86-90 *)
Definition scalar_double_16_ctor_ptr : body :=
  [SSet (LVal (EInt 0)) (EIdx EData (EInt 0));
   SSet (LVal (EInt 1)) (EIdx EData (EInt 1));
   SSet (LVal (EInt 2)) (EIdx EData (EInt 2));
   SSet (LVal (EInt 3)) (EIdx EData (EInt 3));
   SSet (LVal (EInt 4)) (EIdx EData (EInt 4));
   SSet (LVal (EInt 5)) (EIdx EData (EInt 5));
   SSet (LVal (EInt 6)) (EIdx EData (EInt 6));
   SSet (LVal (EInt 7)) (EIdx EData (EInt 7));
   SSet (LVal (EInt 8)) (EIdx EData (EInt 8));
   SSet (LVal (EInt 9)) (EIdx EData (EInt 9));
   SSet (LVal (EInt 10)) (EIdx EData (EInt 10));
   SSet (LVal (EInt 11)) (EIdx EData (EInt 11));
   SSet (LVal (EInt 12)) (EIdx EData (EInt 12));
   SSet (LVal (EInt 13)) (EIdx EData (EInt 13));
   SSet (LVal (EInt 14)) (EIdx EData (EInt 14));
   SSet (LVal (EInt 15)) (EIdx EData (EInt 15))].

(* short_vec_scalar_double_16.hpp:92-126 *)
Definition scalar_double_16_ctor_regs : body :=
  [SSet (LVal (EInt 0)) (EPar 0);
   SSet (LVal (EInt 1)) (EPar 1);
   SSet (LVal (EInt 2)) (EPar 2);
   SSet (LVal (EInt 3)) (EPar 3);
   SSet (LVal (EInt 4)) (EPar 4);
   SSet (LVal (EInt 5)) (EPar 5);
   SSet (LVal (EInt 6)) (EPar 6);
   SSet (LVal (EInt 7)) (EPar 7);
   SSet (LVal (EInt 8)) (EPar 8);
   SSet (LVal (EInt 9)) (EPar 9);
   SSet (LVal (EInt 10)) (EPar 10);
   SSet (LVal (EInt 11)) (EPar 11);
   SSet (LVal (EInt 12)) (EPar 12);
   SSet (LVal (EInt 13)) (EPar 13);
   SSet (LVal (EInt 14)) (EPar 14);
   SSet (LVal (EInt 15)) (EPar 15)].

(* short_vec_scalar_double_16.hpp:129-134 *)
Definition scalar_double_16_ctor_list : body :=
  [SSet (LVal (EInt 0)) (EIdx EData (EInt 0));
   SSet (LVal (EInt 1)) (EIdx EData (EInt 1));
   SSet (LVal (EInt 2)) (EIdx EData (EInt 2));
   SSet (LVal (EInt 3)) (EIdx EData (EInt 3));
   SSet (LVal (EInt 4)) (EIdx EData (EInt 4));
   SSet (LVal (EInt 5)) (EIdx EData (EInt 5));
   SSet (LVal (EInt 6)) (EIdx EData (EInt 6));
   SSet (LVal (EInt 7)) (EIdx EData (EInt 7));
   SSet (LVal (EInt 8)) (EIdx EData (EInt 8));
   SSet (LVal (EInt 9)) (EIdx EData (EInt 9));
   SSet (LVal (EInt 10)) (EIdx EData (EInt 10));
   SSet (LVal (EInt 11)) (EIdx EData (EInt 11));
   SSet (LVal (EInt 12)) (EIdx EData (EInt 12));
   SSet (LVal (EInt 13)) (EIdx EData (EInt 13));
   SSet (LVal (EInt 14)) (EIdx EData (EInt 14));
   SSet (LVal (EInt 15)) (EIdx EData (EInt 15))].

(* short_vec_scalar_double_16.hpp:137-157 *)
Definition scalar_double_16_any : body :=
  [SRet (EBool (ECop OLor (ECop OLor (ECop OLor (ECop OLor (ECop OLor (ECop OLor (ECop OLor (ECop
    OLor (ECop OLor (ECop OLor (ECop OLor (ECop OLor (ECop OLor (ECop OLor (ECop OLor (vv 0) (vv 1))
    (vv 2)) (vv 3)) (vv 4)) (vv 5)) (vv 6)) (vv 7)) (vv 8)) (vv 9)) (vv 10)) (vv 11)) (vv 12)) (vv
    13)) (vv 14)) (vv 15)))].

(* short_vec_scalar_double_16.hpp:159-163 *)
Definition scalar_double_16_index : body :=
  [SRet (EVal (EVar "i"))].

(* short_vec_scalar_double_16.hpp:165-184 *)
Definition scalar_double_16_sub_eq : body :=
  [SUpd OSub (LVal (EInt 0)) (oo 0);
   SUpd OSub (LVal (EInt 1)) (oo 1);
   SUpd OSub (LVal (EInt 2)) (oo 2);
   SUpd OSub (LVal (EInt 3)) (oo 3);
   SUpd OSub (LVal (EInt 4)) (oo 4);
   SUpd OSub (LVal (EInt 5)) (oo 5);
   SUpd OSub (LVal (EInt 6)) (oo 6);
   SUpd OSub (LVal (EInt 7)) (oo 7);
   SUpd OSub (LVal (EInt 8)) (oo 8);
   SUpd OSub (LVal (EInt 9)) (oo 9);
   SUpd OSub (LVal (EInt 10)) (oo 10);
   SUpd OSub (LVal (EInt 11)) (oo 11);
   SUpd OSub (LVal (EInt 12)) (oo 12);
   SUpd OSub (LVal (EInt 13)) (oo 13);
   SUpd OSub (LVal (EInt 14)) (oo 14);
   SUpd OSub (LVal (EInt 15)) (oo 15)].

(* short_vec_scalar_double_16.hpp:186-206 *)
Definition scalar_double_16_sub : body :=
  [SRetVec [(ECop OSub (vv 0) (oo 0)); (ECop OSub (vv 1) (oo 1)); (ECop OSub (vv 2) (oo 2)); (ECop
    OSub (vv 3) (oo 3)); (ECop OSub (vv 4) (oo 4)); (ECop OSub (vv 5) (oo 5)); (ECop OSub (vv 6) (oo
    6)); (ECop OSub (vv 7) (oo 7)); (ECop OSub (vv 8) (oo 8)); (ECop OSub (vv 9) (oo 9)); (ECop OSub
    (vv 10) (oo 10)); (ECop OSub (vv 11) (oo 11)); (ECop OSub (vv 12) (oo 12)); (ECop OSub (vv 13)
    (oo 13)); (ECop OSub (vv 14) (oo 14)); (ECop OSub (vv 15) (oo 15))]].

(* short_vec_scalar_double_16.hpp:208-227 *)
Definition scalar_double_16_add_eq : body :=
  [SUpd OAdd (LVal (EInt 0)) (oo 0);
   SUpd OAdd (LVal (EInt 1)) (oo 1);
   SUpd OAdd (LVal (EInt 2)) (oo 2);
   SUpd OAdd (LVal (EInt 3)) (oo 3);
   SUpd OAdd (LVal (EInt 4)) (oo 4);
   SUpd OAdd (LVal (EInt 5)) (oo 5);
   SUpd OAdd (LVal (EInt 6)) (oo 6);
   SUpd OAdd (LVal (EInt 7)) (oo 7);
   SUpd OAdd (LVal (EInt 8)) (oo 8);
   SUpd OAdd (LVal (EInt 9)) (oo 9);
   SUpd OAdd (LVal (EInt 10)) (oo 10);
   SUpd OAdd (LVal (EInt 11)) (oo 11);
   SUpd OAdd (LVal (EInt 12)) (oo 12);
   SUpd OAdd (LVal (EInt 13)) (oo 13);
   SUpd OAdd (LVal (EInt 14)) (oo 14);
   SUpd OAdd (LVal (EInt 15)) (oo 15)].

(* short_vec_scalar_double_16.hpp:229-249 *)
Definition scalar_double_16_add : body :=
  [SRetVec [(ECop OAdd (vv 0) (oo 0)); (ECop OAdd (vv 1) (oo 1)); (ECop OAdd (vv 2) (oo 2)); (ECop
    OAdd (vv 3) (oo 3)); (ECop OAdd (vv 4) (oo 4)); (ECop OAdd (vv 5) (oo 5)); (ECop OAdd (vv 6) (oo
    6)); (ECop OAdd (vv 7) (oo 7)); (ECop OAdd (vv 8) (oo 8)); (ECop OAdd (vv 9) (oo 9)); (ECop OAdd
    (vv 10) (oo 10)); (ECop OAdd (vv 11) (oo 11)); (ECop OAdd (vv 12) (oo 12)); (ECop OAdd (vv 13)
    (oo 13)); (ECop OAdd (vv 14) (oo 14)); (ECop OAdd (vv 15) (oo 15))]].

(* short_vec_scalar_double_16.hpp:251-270 *)
Definition scalar_double_16_mul_eq : body :=
  [SUpd OMul (LVal (EInt 0)) (oo 0);
   SUpd OMul (LVal (EInt 1)) (oo 1);
   SUpd OMul (LVal (EInt 2)) (oo 2);
   SUpd OMul (LVal (EInt 3)) (oo 3);
   SUpd OMul (LVal (EInt 4)) (oo 4);
   SUpd OMul (LVal (EInt 5)) (oo 5);
   SUpd OMul (LVal (EInt 6)) (oo 6);
   SUpd OMul (LVal (EInt 7)) (oo 7);
   SUpd OMul (LVal (EInt 8)) (oo 8);
   SUpd OMul (LVal (EInt 9)) (oo 9);
   SUpd OMul (LVal (EInt 10)) (oo 10);
   SUpd OMul (LVal (EInt 11)) (oo 11);
   SUpd OMul (LVal (EInt 12)) (oo 12);
   SUpd OMul (LVal (EInt 13)) (oo 13);
   SUpd OMul (LVal (EInt 14)) (oo 14);
   SUpd OMul (LVal (EInt 15)) (oo 15)].

(* short_vec_scalar_double_16.hpp:272-292 *)
Definition scalar_double_16_mul : body :=
  [SRetVec [(ECop OMul (vv 0) (oo 0)); (ECop OMul (vv 1) (oo 1)); (ECop OMul (vv 2) (oo 2)); (ECop
    OMul (vv 3) (oo 3)); (ECop OMul (vv 4) (oo 4)); (ECop OMul (vv 5) (oo 5)); (ECop OMul (vv 6) (oo
    6)); (ECop OMul (vv 7) (oo 7)); (ECop OMul (vv 8) (oo 8)); (ECop OMul (vv 9) (oo 9)); (ECop OMul
    (vv 10) (oo 10)); (ECop OMul (vv 11) (oo 11)); (ECop OMul (vv 12) (oo 12)); (ECop OMul (vv 13)
    (oo 13)); (ECop OMul (vv 14) (oo 14)); (ECop OMul (vv 15) (oo 15))]].

(* short_vec_scalar_double_16.hpp:294-313 *)
Definition scalar_double_16_div_eq : body :=
  [SUpd ODiv (LVal (EInt 0)) (oo 0);
   SUpd ODiv (LVal (EInt 1)) (oo 1);
   SUpd ODiv (LVal (EInt 2)) (oo 2);
   SUpd ODiv (LVal (EInt 3)) (oo 3);
   SUpd ODiv (LVal (EInt 4)) (oo 4);
   SUpd ODiv (LVal (EInt 5)) (oo 5);
   SUpd ODiv (LVal (EInt 6)) (oo 6);
   SUpd ODiv (LVal (EInt 7)) (oo 7);
   SUpd ODiv (LVal (EInt 8)) (oo 8);
   SUpd ODiv (LVal (EInt 9)) (oo 9);
   SUpd ODiv (LVal (EInt 10)) (oo 10);
   SUpd ODiv (LVal (EInt 11)) (oo 11);
   SUpd ODiv (LVal (EInt 12)) (oo 12);
   SUpd ODiv (LVal (EInt 13)) (oo 13);
   SUpd ODiv (LVal (EInt 14)) (oo 14);
   SUpd ODiv (LVal (EInt 15)) (oo 15)].

(* short_vec_scalar_double_16.hpp:315-335 *)
Definition scalar_double_16_div : body :=
  [SRetVec [(ECop ODiv (vv 0) (oo 0)); (ECop ODiv (vv 1) (oo 1)); (ECop ODiv (vv 2) (oo 2)); (ECop
    ODiv (vv 3) (oo 3)); (ECop ODiv (vv 4) (oo 4)); (ECop ODiv (vv 5) (oo 5)); (ECop ODiv (vv 6) (oo
    6)); (ECop ODiv (vv 7) (oo 7)); (ECop ODiv (vv 8) (oo 8)); (ECop ODiv (vv 9) (oo 9)); (ECop ODiv
    (vv 10) (oo 10)); (ECop ODiv (vv 11) (oo 11)); (ECop ODiv (vv 12) (oo 12)); (ECop ODiv (vv 13)
    (oo 13)); (ECop ODiv (vv 14) (oo 14)); (ECop ODiv (vv 15) (oo 15))]].

(* short_vec_scalar_double_16.hpp:338-358 *)
Definition scalar_double_16_lt : body :=
  [SRet (EMaskType (ECop OAdd (ECop OAdd (ECop OAdd (ECop OAdd (ECop OAdd (ECop OAdd (ECop OAdd
    (ECop OAdd (ECop OAdd (ECop OAdd (ECop OAdd (ECop OAdd (ECop OAdd (ECop OAdd (ECop OAdd (ECop
    OShl (ECop (ORel RLt) (vv 0) (oo 0)) (EInt 0)) (ECop OShl (ECop (ORel RLt) (vv 1) (oo 1)) (EInt
    1))) (ECop OShl (ECop (ORel RLt) (vv 2) (oo 2)) (EInt 2))) (ECop OShl (ECop (ORel RLt) (vv 3)
    (oo 3)) (EInt 3))) (ECop OShl (ECop (ORel RLt) (vv 4) (oo 4)) (EInt 4))) (ECop OShl (ECop (ORel
    RLt) (vv 5) (oo 5)) (EInt 5))) (ECop OShl (ECop (ORel RLt) (vv 6) (oo 6)) (EInt 6))) (ECop OShl
    (ECop (ORel RLt) (vv 7) (oo 7)) (EInt 7))) (ECop OShl (ECop (ORel RLt) (vv 8) (oo 8)) (EInt 8)))
    (ECop OShl (ECop (ORel RLt) (vv 9) (oo 9)) (EInt 9))) (ECop OShl (ECop (ORel RLt) (vv 10) (oo
    10)) (EInt 10))) (ECop OShl (ECop (ORel RLt) (vv 11) (oo 11)) (EInt 11))) (ECop OShl (ECop (ORel
    RLt) (vv 12) (oo 12)) (EInt 12))) (ECop OShl (ECop (ORel RLt) (vv 13) (oo 13)) (EInt 13))) (ECop
    OShl (ECop (ORel RLt) (vv 14) (oo 14)) (EInt 14))) (ECop OShl (ECop (ORel RLt) (vv 15) (oo 15))
    (EInt 15))))].

(* short_vec_scalar_double_16.hpp:360-380 *)
Definition scalar_double_16_le : body :=
  [SRet (EMaskType (ECop OAdd (ECop OAdd (ECop OAdd (ECop OAdd (ECop OAdd (ECop OAdd (ECop OAdd
    (ECop OAdd (ECop OAdd (ECop OAdd (ECop OAdd (ECop OAdd (ECop OAdd (ECop OAdd (ECop OAdd (ECop
    OShl (ECop (ORel RLe) (vv 0) (oo 0)) (EInt 0)) (ECop OShl (ECop (ORel RLe) (vv 1) (oo 1)) (EInt
    1))) (ECop OShl (ECop (ORel RLe) (vv 2) (oo 2)) (EInt 2))) (ECop OShl (ECop (ORel RLe) (vv 3)
    (oo 3)) (EInt 3))) (ECop OShl (ECop (ORel RLe) (vv 4) (oo 4)) (EInt 4))) (ECop OShl (ECop (ORel
    RLe) (vv 5) (oo 5)) (EInt 5))) (ECop OShl (ECop (ORel RLe) (vv 6) (oo 6)) (EInt 6))) (ECop OShl
    (ECop (ORel RLe) (vv 7) (oo 7)) (EInt 7))) (ECop OShl (ECop (ORel RLe) (vv 8) (oo 8)) (EInt 8)))
    (ECop OShl (ECop (ORel RLe) (vv 9) (oo 9)) (EInt 9))) (ECop OShl (ECop (ORel RLe) (vv 10) (oo
    10)) (EInt 10))) (ECop OShl (ECop (ORel RLe) (vv 11) (oo 11)) (EInt 11))) (ECop OShl (ECop (ORel
    RLe) (vv 12) (oo 12)) (EInt 12))) (ECop OShl (ECop (ORel RLe) (vv 13) (oo 13)) (EInt 13))) (ECop
    OShl (ECop (ORel RLe) (vv 14) (oo 14)) (EInt 14))) (ECop OShl (ECop (ORel RLe) (vv 15) (oo 15))
    (EInt 15))))].

(* short_vec_scalar_double_16.hpp:382-402 *)
Definition scalar_double_16_eq : body :=
  [SRet (EMaskType (ECop OAdd (ECop OAdd (ECop OAdd (ECop OAdd (ECop OAdd (ECop OAdd (ECop OAdd
    (ECop OAdd (ECop OAdd (ECop OAdd (ECop OAdd (ECop OAdd (ECop OAdd (ECop OAdd (ECop OAdd (ECop
    OShl (ECop (ORel REq) (vv 0) (oo 0)) (EInt 0)) (ECop OShl (ECop (ORel REq) (vv 1) (oo 1)) (EInt
    1))) (ECop OShl (ECop (ORel REq) (vv 2) (oo 2)) (EInt 2))) (ECop OShl (ECop (ORel REq) (vv 3)
    (oo 3)) (EInt 3))) (ECop OShl (ECop (ORel REq) (vv 4) (oo 4)) (EInt 4))) (ECop OShl (ECop (ORel
    REq) (vv 5) (oo 5)) (EInt 5))) (ECop OShl (ECop (ORel REq) (vv 6) (oo 6)) (EInt 6))) (ECop OShl
    (ECop (ORel REq) (vv 7) (oo 7)) (EInt 7))) (ECop OShl (ECop (ORel REq) (vv 8) (oo 8)) (EInt 8)))
    (ECop OShl (ECop (ORel REq) (vv 9) (oo 9)) (EInt 9))) (ECop OShl (ECop (ORel REq) (vv 10) (oo
    10)) (EInt 10))) (ECop OShl (ECop (ORel REq) (vv 11) (oo 11)) (EInt 11))) (ECop OShl (ECop (ORel
    REq) (vv 12) (oo 12)) (EInt 12))) (ECop OShl (ECop (ORel REq) (vv 13) (oo 13)) (EInt 13))) (ECop
    OShl (ECop (ORel REq) (vv 14) (oo 14)) (EInt 14))) (ECop OShl (ECop (ORel REq) (vv 15) (oo 15))
    (EInt 15))))].

(* short_vec_scalar_double_16.hpp:404-424 *)
Definition scalar_double_16_gt : body :=
  [SRet (EMaskType (ECop OAdd (ECop OAdd (ECop OAdd (ECop OAdd (ECop OAdd (ECop OAdd (ECop OAdd
    (ECop OAdd (ECop OAdd (ECop OAdd (ECop OAdd (ECop OAdd (ECop OAdd (ECop OAdd (ECop OAdd (ECop
    OShl (ECop (ORel RGt) (vv 0) (oo 0)) (EInt 0)) (ECop OShl (ECop (ORel RGt) (vv 1) (oo 1)) (EInt
    1))) (ECop OShl (ECop (ORel RGt) (vv 2) (oo 2)) (EInt 2))) (ECop OShl (ECop (ORel RGt) (vv 3)
    (oo 3)) (EInt 3))) (ECop OShl (ECop (ORel RGt) (vv 4) (oo 4)) (EInt 4))) (ECop OShl (ECop (ORel
    RGt) (vv 5) (oo 5)) (EInt 5))) (ECop OShl (ECop (ORel RGt) (vv 6) (oo 6)) (EInt 6))) (ECop OShl
    (ECop (ORel RGt) (vv 7) (oo 7)) (EInt 7))) (ECop OShl (ECop (ORel RGt) (vv 8) (oo 8)) (EInt 8)))
    (ECop OShl (ECop (ORel RGt) (vv 9) (oo 9)) (EInt 9))) (ECop OShl (ECop (ORel RGt) (vv 10) (oo
    10)) (EInt 10))) (ECop OShl (ECop (ORel RGt) (vv 11) (oo 11)) (EInt 11))) (ECop OShl (ECop (ORel
    RGt) (vv 12) (oo 12)) (EInt 12))) (ECop OShl (ECop (ORel RGt) (vv 13) (oo 13)) (EInt 13))) (ECop
    OShl (ECop (ORel RGt) (vv 14) (oo 14)) (EInt 14))) (ECop OShl (ECop (ORel RGt) (vv 15) (oo 15))
    (EInt 15))))].

(* short_vec_scalar_double_16.hpp:426-446 *)
Definition scalar_double_16_ge : body :=
  [SRet (EMaskType (ECop OAdd (ECop OAdd (ECop OAdd (ECop OAdd (ECop OAdd (ECop OAdd (ECop OAdd
    (ECop OAdd (ECop OAdd (ECop OAdd (ECop OAdd (ECop OAdd (ECop OAdd (ECop OAdd (ECop OAdd (ECop
    OShl (ECop (ORel RGe) (vv 0) (oo 0)) (EInt 0)) (ECop OShl (ECop (ORel RGe) (vv 1) (oo 1)) (EInt
    1))) (ECop OShl (ECop (ORel RGe) (vv 2) (oo 2)) (EInt 2))) (ECop OShl (ECop (ORel RGe) (vv 3)
    (oo 3)) (EInt 3))) (ECop OShl (ECop (ORel RGe) (vv 4) (oo 4)) (EInt 4))) (ECop OShl (ECop (ORel
    RGe) (vv 5) (oo 5)) (EInt 5))) (ECop OShl (ECop (ORel RGe) (vv 6) (oo 6)) (EInt 6))) (ECop OShl
    (ECop (ORel RGe) (vv 7) (oo 7)) (EInt 7))) (ECop OShl (ECop (ORel RGe) (vv 8) (oo 8)) (EInt 8)))
    (ECop OShl (ECop (ORel RGe) (vv 9) (oo 9)) (EInt 9))) (ECop OShl (ECop (ORel RGe) (vv 10) (oo
    10)) (EInt 10))) (ECop OShl (ECop (ORel RGe) (vv 11) (oo 11)) (EInt 11))) (ECop OShl (ECop (ORel
    RGe) (vv 12) (oo 12)) (EInt 12))) (ECop OShl (ECop (ORel RGe) (vv 13) (oo 13)) (EInt 13))) (ECop
    OShl (ECop (ORel RGe) (vv 14) (oo 14)) (EInt 14))) (ECop OShl (ECop (ORel RGe) (vv 15) (oo 15))
    (EInt 15))))].

(* short_vec_scalar_double_16.hpp:454-474 *)
Definition scalar_double_16_sqrt : body :=
  [SRetVec [(EStdSqrt (vv 0)); (EStdSqrt (vv 1)); (EStdSqrt (vv 2)); (EStdSqrt (vv 3)); (EStdSqrt
    (vv 4)); (EStdSqrt (vv 5)); (EStdSqrt (vv 6)); (EStdSqrt (vv 7)); (EStdSqrt (vv 8)); (EStdSqrt
    (vv 9)); (EStdSqrt (vv 10)); (EStdSqrt (vv 11)); (EStdSqrt (vv 12)); (EStdSqrt (vv 13));
    (EStdSqrt (vv 14)); (EStdSqrt (vv 15))]].

(* short_vec_scalar_double_16.hpp:479-498 *)
Definition scalar_double_16_load : body :=
  [SSet (LVal (EInt 0)) (EIdx EData (EInt 0));
   SSet (LVal (EInt 1)) (EIdx EData (EInt 1));
   SSet (LVal (EInt 2)) (EIdx EData (EInt 2));
   SSet (LVal (EInt 3)) (EIdx EData (EInt 3));
   SSet (LVal (EInt 4)) (EIdx EData (EInt 4));
   SSet (LVal (EInt 5)) (EIdx EData (EInt 5));
   SSet (LVal (EInt 6)) (EIdx EData (EInt 6));
   SSet (LVal (EInt 7)) (EIdx EData (EInt 7));
   SSet (LVal (EInt 8)) (EIdx EData (EInt 8));
   SSet (LVal (EInt 9)) (EIdx EData (EInt 9));
   SSet (LVal (EInt 10)) (EIdx EData (EInt 10));
   SSet (LVal (EInt 11)) (EIdx EData (EInt 11));
   SSet (LVal (EInt 12)) (EIdx EData (EInt 12));
   SSet (LVal (EInt 13)) (EIdx EData (EInt 13));
   SSet (LVal (EInt 14)) (EIdx EData (EInt 14));
   SSet (LVal (EInt 15)) (EIdx EData (EInt 15))].

(* short_vec_scalar_double_16.hpp:500-504 *)
Definition scalar_double_16_load_aligned : body :=
  [SSet (LVal (EInt 0)) (EIdx EData (EInt 0));
   SSet (LVal (EInt 1)) (EIdx EData (EInt 1));
   SSet (LVal (EInt 2)) (EIdx EData (EInt 2));
   SSet (LVal (EInt 3)) (EIdx EData (EInt 3));
   SSet (LVal (EInt 4)) (EIdx EData (EInt 4));
   SSet (LVal (EInt 5)) (EIdx EData (EInt 5));
   SSet (LVal (EInt 6)) (EIdx EData (EInt 6));
   SSet (LVal (EInt 7)) (EIdx EData (EInt 7));
   SSet (LVal (EInt 8)) (EIdx EData (EInt 8));
   SSet (LVal (EInt 9)) (EIdx EData (EInt 9));
   SSet (LVal (EInt 10)) (EIdx EData (EInt 10));
   SSet (LVal (EInt 11)) (EIdx EData (EInt 11));
   SSet (LVal (EInt 12)) (EIdx EData (EInt 12));
   SSet (LVal (EInt 13)) (EIdx EData (EInt 13));
   SSet (LVal (EInt 14)) (EIdx EData (EInt 14));
   SSet (LVal (EInt 15)) (EIdx EData (EInt 15))].

(* short_vec_scalar_double_16.hpp:506-525 *)
Definition scalar_double_16_store : body :=
  [SSet (LMem (dat 0)) (vv 0);
   SSet (LMem (dat 1)) (vv 1);
   SSet (LMem (dat 2)) (vv 2);
   SSet (LMem (dat 3)) (vv 3);
   SSet (LMem (dat 4)) (vv 4);
   SSet (LMem (dat 5)) (vv 5);
   SSet (LMem (dat 6)) (vv 6);
   SSet (LMem (dat 7)) (vv 7);
   SSet (LMem (dat 8)) (vv 8);
   SSet (LMem (dat 9)) (vv 9);
   SSet (LMem (dat 10)) (vv 10);
   SSet (LMem (dat 11)) (vv 11);
   SSet (LMem (dat 12)) (vv 12);
   SSet (LMem (dat 13)) (vv 13);
   SSet (LMem (dat 14)) (vv 14);
   SSet (LMem (dat 15)) (vv 15)].

(* short_vec_scalar_double_16.hpp:527-531 *)
Definition scalar_double_16_store_aligned : body :=
  [SSet (LMem (dat 0)) (vv 0);
   SSet (LMem (dat 1)) (vv 1);
   SSet (LMem (dat 2)) (vv 2);
   SSet (LMem (dat 3)) (vv 3);
   SSet (LMem (dat 4)) (vv 4);
   SSet (LMem (dat 5)) (vv 5);
   SSet (LMem (dat 6)) (vv 6);
   SSet (LMem (dat 7)) (vv 7);
   SSet (LMem (dat 8)) (vv 8);
   SSet (LMem (dat 9)) (vv 9);
   SSet (LMem (dat 10)) (vv 10);
   SSet (LMem (dat 11)) (vv 11);
   SSet (LMem (dat 12)) (vv 12);
   SSet (LMem (dat 13)) (vv 13);
   SSet (LMem (dat 14)) (vv 14);
   SSet (LMem (dat 15)) (vv 15)].

(* short_vec_scalar_double_16.hpp:533-537 *)
Definition scalar_double_16_store_nt : body :=
  [SSet (LMem (dat 0)) (vv 0);
   SSet (LMem (dat 1)) (vv 1);
   SSet (LMem (dat 2)) (vv 2);
   SSet (LMem (dat 3)) (vv 3);
   SSet (LMem (dat 4)) (vv 4);
   SSet (LMem (dat 5)) (vv 5);
   SSet (LMem (dat 6)) (vv 6);
   SSet (LMem (dat 7)) (vv 7);
   SSet (LMem (dat 8)) (vv 8);
   SSet (LMem (dat 9)) (vv 9);
   SSet (LMem (dat 10)) (vv 10);
   SSet (LMem (dat 11)) (vv 11);
   SSet (LMem (dat 12)) (vv 12);
   SSet (LMem (dat 13)) (vv 13);
   SSet (LMem (dat 14)) (vv 14);
   SSet (LMem (dat 15)) (vv 15)].

(* short_vec_scalar_double_16.hpp:539-558 *)
Definition scalar_double_16_gather : body :=
  [SSet (LVal (EInt 0)) (EIdx EPtr (off 0));
   SSet (LVal (EInt 1)) (EIdx EPtr (off 1));
   SSet (LVal (EInt 2)) (EIdx EPtr (off 2));
   SSet (LVal (EInt 3)) (EIdx EPtr (off 3));
   SSet (LVal (EInt 4)) (EIdx EPtr (off 4));
   SSet (LVal (EInt 5)) (EIdx EPtr (off 5));
   SSet (LVal (EInt 6)) (EIdx EPtr (off 6));
   SSet (LVal (EInt 7)) (EIdx EPtr (off 7));
   SSet (LVal (EInt 8)) (EIdx EPtr (off 8));
   SSet (LVal (EInt 9)) (EIdx EPtr (off 9));
   SSet (LVal (EInt 10)) (EIdx EPtr (off 10));
   SSet (LVal (EInt 11)) (EIdx EPtr (off 11));
   SSet (LVal (EInt 12)) (EIdx EPtr (off 12));
   SSet (LVal (EInt 13)) (EIdx EPtr (off 13));
   SSet (LVal (EInt 14)) (EIdx EPtr (off 14));
   SSet (LVal (EInt 15)) (EIdx EPtr (off 15))].

(* short_vec_scalar_double_16.hpp:560-579 *)
Definition scalar_double_16_scatter : body :=
  [SSet (LMem (pto 0)) (vv 0);
   SSet (LMem (pto 1)) (vv 1);
   SSet (LMem (pto 2)) (vv 2);
   SSet (LMem (pto 3)) (vv 3);
   SSet (LMem (pto 4)) (vv 4);
   SSet (LMem (pto 5)) (vv 5);
   SSet (LMem (pto 6)) (vv 6);
   SSet (LMem (pto 7)) (vv 7);
   SSet (LMem (pto 8)) (vv 8);
   SSet (LMem (pto 9)) (vv 9);
   SSet (LMem (pto 10)) (vv 10);
   SSet (LMem (pto 11)) (vv 11);
   SSet (LMem (pto 12)) (vv 12);
   SSet (LMem (pto 13)) (vv 13);
   SSet (LMem (pto 14)) (vv 14);
   SSet (LMem (pto 15)) (vv 15)].

(* short_vec_scalar_double_16.hpp:581-632 *)
Definition scalar_double_16_blend : body :=
  [SIf (ECop OBitAnd EMaskInt (ECop OShl (EInt 1) (EInt 0))) [SSet (LVal (EInt 0)) (oo 0)] [];
   SIf (ECop OBitAnd EMaskInt (ECop OShl (EInt 1) (EInt 1))) [SSet (LVal (EInt 1)) (oo 1)] [];
   SIf (ECop OBitAnd EMaskInt (ECop OShl (EInt 1) (EInt 2))) [SSet (LVal (EInt 2)) (oo 2)] [];
   SIf (ECop OBitAnd EMaskInt (ECop OShl (EInt 1) (EInt 3))) [SSet (LVal (EInt 3)) (oo 3)] [];
   SIf (ECop OBitAnd EMaskInt (ECop OShl (EInt 1) (EInt 4))) [SSet (LVal (EInt 4)) (oo 4)] [];
   SIf (ECop OBitAnd EMaskInt (ECop OShl (EInt 1) (EInt 5))) [SSet (LVal (EInt 5)) (oo 5)] [];
   SIf (ECop OBitAnd EMaskInt (ECop OShl (EInt 1) (EInt 6))) [SSet (LVal (EInt 6)) (oo 6)] [];
   SIf (ECop OBitAnd EMaskInt (ECop OShl (EInt 1) (EInt 7))) [SSet (LVal (EInt 7)) (oo 7)] [];
   SIf (ECop OBitAnd EMaskInt (ECop OShl (EInt 1) (EInt 8))) [SSet (LVal (EInt 8)) (oo 8)] [];
   SIf (ECop OBitAnd EMaskInt (ECop OShl (EInt 1) (EInt 9))) [SSet (LVal (EInt 9)) (oo 9)] [];
   SIf (ECop OBitAnd EMaskInt (ECop OShl (EInt 1) (EInt 10))) [SSet (LVal (EInt 10)) (oo 10)] [];
   SIf (ECop OBitAnd EMaskInt (ECop OShl (EInt 1) (EInt 11))) [SSet (LVal (EInt 11)) (oo 11)] [];
   SIf (ECop OBitAnd EMaskInt (ECop OShl (EInt 1) (EInt 12))) [SSet (LVal (EInt 12)) (oo 12)] [];
   SIf (ECop OBitAnd EMaskInt (ECop OShl (EInt 1) (EInt 13))) [SSet (LVal (EInt 13)) (oo 13)] [];
   SIf (ECop OBitAnd EMaskInt (ECop OShl (EInt 1) (EInt 14))) [SSet (LVal (EInt 14)) (oo 14)] [];
   SIf (ECop OBitAnd EMaskInt (ECop OShl (EInt 1) (EInt 15))) [SSet (LVal (EInt 15)) (oo 15)] []].

(* short_vec_scalar_double_16.hpp:664-671 *)
Definition scalar_double_16_print : list item :=
  [PStr "["; PVal (vv 0); PStr ", "; PVal (vv 1); PStr ", "; PVal (vv 2); PStr ", "; PVal (vv 3);
   PStr ", "; PVal (vv 4); PStr ", "; PVal (vv 5); PStr ", "; PVal (vv 6); PStr ", "; PVal (vv 7);
   PStr ", "; PVal (vv 8); PStr ", "; PVal (vv 9); PStr ", "; PVal (vv 10); PStr ", "; PVal (vv
   11); PStr ", "; PVal (vv 12); PStr ", "; PVal (vv 13); PStr ", "; PVal (vv 14); PStr ", "; PVal
   (vv 15); PStr "]"].

(* short_vec_scalar_double_16.hpp *)
Definition cls_scalar_double_16 : cls :=
  mkCls "scalar_double_16" KF64 16 16 1 8 (MInt 16)
    (fun m => match m with
     | MCtorScalar => Some scalar_double_16_ctor_scalar
     | MCtorPtr => Some scalar_double_16_ctor_ptr
     | MCtorRegs => Some scalar_double_16_ctor_regs
     | MCtorList => Some scalar_double_16_ctor_list
     | MAny => Some scalar_double_16_any
     | MIndex => Some scalar_double_16_index
     | MSubEq => Some scalar_double_16_sub_eq
     | MSub => Some scalar_double_16_sub
     | MAddEq => Some scalar_double_16_add_eq
     | MAdd => Some scalar_double_16_add
     | MMulEq => Some scalar_double_16_mul_eq
     | MMul => Some scalar_double_16_mul
     | MDivEq => Some scalar_double_16_div_eq
     | MDiv => Some scalar_double_16_div
     | MLt => Some scalar_double_16_lt
     | MLe => Some scalar_double_16_le
     | MEq => Some scalar_double_16_eq
     | MGt => Some scalar_double_16_gt
     | MGe => Some scalar_double_16_ge
     | MSqrt => Some scalar_double_16_sqrt
     | MLoad => Some scalar_double_16_load
     | MLoadAligned => Some scalar_double_16_load_aligned
     | MStore => Some scalar_double_16_store
     | MStoreAligned => Some scalar_double_16_store_aligned
     | MStoreNt => Some scalar_double_16_store_nt
     | MGather => Some scalar_double_16_gather
     | MScatter => Some scalar_double_16_scatter
     | MBlend => Some scalar_double_16_blend
     | _ => None
     end)
    scalar_double_16_ctor_regs scalar_double_16_print.

(* short_vec_scalar_double_32.hpp:65-99 *)
Definition scalar_double_32_ctor_scalar : body :=
  [SSet (LVal (EInt 0)) EArg;
   SSet (LVal (EInt 1)) EArg;
   SSet (LVal (EInt 2)) EArg;
   SSet (LVal (EInt 3)) EArg;
   SSet (LVal (EInt 4)) EArg;
   SSet (LVal (EInt 5)) EArg;
   SSet (LVal (EInt 6)) EArg;
   SSet (LVal (EInt 7)) EArg;
   SSet (LVal (EInt 8)) EArg;
   SSet (LVal (EInt 9)) EArg;
   SSet (LVal (EInt 10)) EArg;
   SSet (LVal (EInt 11)) EArg;
   SSet (LVal (EInt 12)) EArg;
   SSet (LVal (EInt 13)) EArg;
   SSet (LVal (EInt 14)) EArg;
   SSet (LVal (EInt 15)) EArg;
   SSet (LVal (EInt 16)) EArg;
   SSet (LVal (EInt 17)) EArg;
   SSet (LVal (EInt 18)) EArg;
   SSet (LVal (EInt 19)) EArg;
   SSet (LVal (EInt 20)) EArg;
   SSet (LVal (EInt 21)) EArg;
   SSet (LVal (EInt 22)) EArg;
   SSet (LVal (EInt 23)) EArg;
   SSet (LVal (EInt 24)) EArg;
   SSet (LVal (EInt 25)) EArg;
   SSet (LVal (EInt 26)) EArg;
   SSet (LVal (EInt 27)) EArg;
   SSet (LVal (EInt 28)) EArg;
   SSet (LVal (EInt 29)) EArg;
   SSet (LVal (EInt 30)) EArg;
   SSet (LVal (EInt 31)) EArg].

(* short_vec_scalar_double_32.hpp:101-105 *)
Definition scalar_double_32_ctor_ptr : body :=
  [SSet (LVal (EInt 0)) (EIdx EData (EInt 0));
   SSet (LVal (EInt 1)) (EIdx EData (EInt 1));
   SSet (LVal (EInt 2)) (EIdx EData (EInt 2));
   SSet (LVal (EInt 3)) (EIdx EData (EInt 3));
   SSet (LVal (EInt 4)) (EIdx EData (EInt 4));
   SSet (LVal (EInt 5)) (EIdx EData (EInt 5));
   SSet (LVal (EInt 6)) (EIdx EData (EInt 6));
   SSet (LVal (EInt 7)) (EIdx EData (EInt 7));
   SSet (LVal (EInt 8)) (EIdx EData (EInt 8));
   SSet (LVal (EInt 9)) (EIdx EData (EInt 9));
   SSet (LVal (EInt 10)) (EIdx EData (EInt 10));
   SSet (LVal (EInt 11)) (EIdx EData (EInt 11));
   SSet (LVal (EInt 12)) (EIdx EData (EInt 12));
   SSet (LVal (EInt 13)) (EIdx EData (EInt 13));
   SSet (LVal (EInt 14)) (EIdx EData (EInt 14));
   SSet (LVal (EInt 15)) (EIdx EData (EInt 15));
   SSet (LVal (EInt 16)) (EIdx EData (EInt 16));
   SSet (LVal (EInt 17)) (EIdx EData (EInt 17));
   SSet (LVal (EInt 18)) (EIdx EData (EInt 18));
   SSet (LVal (EInt 19)) (EIdx EData (EInt 19));
   SSet (LVal (EInt 20)) (EIdx EData (EInt 20));
   SSet (LVal (EInt 21)) (EIdx EData (EInt 21));
   SSet (LVal (EInt 22)) (EIdx EData (EInt 22));
   SSet (LVal (EInt 23)) (EIdx EData (EInt 23));
   SSet (LVal (EInt 24)) (EIdx EData (EInt 24));
   SSet (LVal (EInt 25)) (EIdx EData (EInt 25));
   SSet (LVal (EInt 26)) (EIdx EData (EInt 26));
   SSet (LVal (EInt 27)) (EIdx EData (EInt 27));
   SSet (LVal (EInt 28)) (EIdx EData (EInt 28));
   SSet (LVal (EInt 29)) (EIdx EData (EInt 29));
   SSet (LVal (EInt 30)) (EIdx EData (EInt 30));
   SSet (LVal (EInt 31)) (EIdx EData (EInt 31))].

(* short_vec_scalar_double_32.hpp:107-173 *)
Definition scalar_double_32_ctor_regs : body :=
  [SSet (LVal (EInt 0)) (EPar 0);
   SSet (LVal (EInt 1)) (EPar 1);
   SSet (LVal (EInt 2)) (EPar 2);
   SSet (LVal (EInt 3)) (EPar 3);
   SSet (LVal (EInt 4)) (EPar 4);
   SSet (LVal (EInt 5)) (EPar 5);
   SSet (LVal (EInt 6)) (EPar 6);
   SSet (LVal (EInt 7)) (EPar 7);
   SSet (LVal (EInt 8)) (EPar 8);
   SSet (LVal (EInt 9)) (EPar 9);
   SSet (LVal (EInt 10)) (EPar 10);
   SSet (LVal (EInt 11)) (EPar 11);
   SSet (LVal (EInt 12)) (EPar 12);
   SSet (LVal (EInt 13)) (EPar 13);
   SSet (LVal (EInt 14)) (EPar 14);
   SSet (LVal (EInt 15)) (EPar 15);
   SSet (LVal (EInt 16)) (EPar 16);
   SSet (LVal (EInt 17)) (EPar 17);
   SSet (LVal (EInt 18)) (EPar 18);
   SSet (LVal (EInt 19)) (EPar 19);
   SSet (LVal (EInt 20)) (EPar 20);
   SSet (LVal (EInt 21)) (EPar 21);
   SSet (LVal (EInt 22)) (EPar 22);
   SSet (LVal (EInt 23)) (EPar 23);
   SSet (LVal (EInt 24)) (EPar 24);
   SSet (LVal (EInt 25)) (EPar 25);
   SSet (LVal (EInt 26)) (EPar 26);
   SSet (LVal (EInt 27)) (EPar 27);
   SSet (LVal (EInt 28)) (EPar 28);
   SSet (LVal (EInt 29)) (EPar 29);
   SSet (LVal (EInt 30)) (EPar 30);
   SSet (LVal (EInt 31)) (EPar 31)].

(* short_vec_scalar_double_32.hpp:176-181 *)
Definition scalar_double_32_ctor_list : body :=
  [SSet (LVal (EInt 0)) (EIdx EData (EInt 0));
   SSet (LVal (EInt 1)) (EIdx EData (EInt 1));
   SSet (LVal (EInt 2)) (EIdx EData (EInt 2));
   SSet (LVal (EInt 3)) (EIdx EData (EInt 3));
   SSet (LVal (EInt 4)) (EIdx EData (EInt 4));
   SSet (LVal (EInt 5)) (EIdx EData (EInt 5));
   SSet (LVal (EInt 6)) (EIdx EData (EInt 6));
   SSet (LVal (EInt 7)) (EIdx EData (EInt 7));
   SSet (LVal (EInt 8)) (EIdx EData (EInt 8));
   SSet (LVal (EInt 9)) (EIdx EData (EInt 9));
   SSet (LVal (EInt 10)) (EIdx EData (EInt 10));
   SSet (LVal (EInt 11)) (EIdx EData (EInt 11));
   SSet (LVal (EInt 12)) (EIdx EData (EInt 12));
   SSet (LVal (EInt 13)) (EIdx EData (EInt 13));
   SSet (LVal (EInt 14)) (EIdx EData (EInt 14));
   SSet (LVal (EInt 15)) (EIdx EData (EInt 15));
   SSet (LVal (EInt 16)) (EIdx EData (EInt 16));
   SSet (LVal (EInt 17)) (EIdx EData (EInt 17));
   SSet (LVal (EInt 18)) (EIdx EData (EInt 18));
   SSet (LVal (EInt 19)) (EIdx EData (EInt 19));
   SSet (LVal (EInt 20)) (EIdx EData (EInt 20));
   SSet (LVal (EInt 21)) (EIdx EData (EInt 21));
   SSet (LVal (EInt 22)) (EIdx EData (EInt 22));
   SSet (LVal (EInt 23)) (EIdx EData (EInt 23));
   SSet (LVal (EInt 24)) (EIdx EData (EInt 24));
   SSet (LVal (EInt 25)) (EIdx EData (EInt 25));
   SSet (LVal (EInt 26)) (EIdx EData (EInt 26));
   SSet (LVal (EInt 27)) (EIdx EData (EInt 27));
   SSet (LVal (EInt 28)) (EIdx EData (EInt 28));
   SSet (LVal (EInt 29)) (EIdx EData (EInt 29));
   SSet (LVal (EInt 30)) (EIdx EData (EInt 30));
   SSet (LVal (EInt 31)) (EIdx EData (EInt 31))].

(* short_vec_scalar_double_32.hpp:184-220 *)
Definition scalar_double_32_any : body :=
  [SRet (EBool (ECop OLor (ECop OLor (ECop OLor (ECop OLor (ECop OLor (ECop OLor (ECop OLor (ECop
    OLor (ECop OLor (ECop OLor (ECop OLor (ECop OLor (ECop OLor (ECop OLor (ECop OLor (ECop OLor
    (ECop OLor (ECop OLor (ECop OLor (ECop OLor (ECop OLor (ECop OLor (ECop OLor (ECop OLor (ECop
    OLor (ECop OLor (ECop OLor (ECop OLor (ECop OLor (ECop OLor (ECop OLor (vv 0) (vv 1)) (vv 2))
    (vv 3)) (vv 4)) (vv 5)) (vv 6)) (vv 7)) (vv 8)) (vv 9)) (vv 10)) (vv 11)) (vv 12)) (vv 13)) (vv
    14)) (vv 15)) (vv 16)) (vv 17)) (vv 18)) (vv 19)) (vv 20)) (vv 21)) (vv 22)) (vv 23)) (vv 24))
    (vv 25)) (vv 26)) (vv 27)) (vv 28)) (vv 29)) (vv 30)) (vv 31)))].

(* short_vec_scalar_double_32.hpp:222-226 *)
Definition scalar_double_32_index : body :=
  [SRet (EVal (EVar "i"))].

(* short_vec_scalar_double_32.hpp:228-263 *)
Definition scalar_double_32_sub_eq : body :=
  [SUpd OSub (LVal (EInt 0)) (oo 0);
   SUpd OSub (LVal (EInt 1)) (oo 1);
   SUpd OSub (LVal (EInt 2)) (oo 2);
   SUpd OSub (LVal (EInt 3)) (oo 3);
   SUpd OSub (LVal (EInt 4)) (oo 4);
   SUpd OSub (LVal (EInt 5)) (oo 5);
   SUpd OSub (LVal (EInt 6)) (oo 6);
   SUpd OSub (LVal (EInt 7)) (oo 7);
   SUpd OSub (LVal (EInt 8)) (oo 8);
   SUpd OSub (LVal (EInt 9)) (oo 9);
   SUpd OSub (LVal (EInt 10)) (oo 10);
   SUpd OSub (LVal (EInt 11)) (oo 11);
   SUpd OSub (LVal (EInt 12)) (oo 12);
   SUpd OSub (LVal (EInt 13)) (oo 13);
   SUpd OSub (LVal (EInt 14)) (oo 14);
   SUpd OSub (LVal (EInt 15)) (oo 15);
   SUpd OSub (LVal (EInt 16)) (oo 16);
   SUpd OSub (LVal (EInt 17)) (oo 17);
   SUpd OSub (LVal (EInt 18)) (oo 18);
   SUpd OSub (LVal (EInt 19)) (oo 19);
   SUpd OSub (LVal (EInt 20)) (oo 20);
   SUpd OSub (LVal (EInt 21)) (oo 21);
   SUpd OSub (LVal (EInt 22)) (oo 22);
   SUpd OSub (LVal (EInt 23)) (oo 23);
   SUpd OSub (LVal (EInt 24)) (oo 24);
   SUpd OSub (LVal (EInt 25)) (oo 25);
   SUpd OSub (LVal (EInt 26)) (oo 26);
   SUpd OSub (LVal (EInt 27)) (oo 27);
   SUpd OSub (LVal (EInt 28)) (oo 28);
   SUpd OSub (LVal (EInt 29)) (oo 29);
   SUpd OSub (LVal (EInt 30)) (oo 30);
   SUpd OSub (LVal (EInt 31)) (oo 31)].

(* short_vec_scalar_double_32.hpp:265-301 *)
Definition scalar_double_32_sub : body :=
  [SRetVec [(ECop OSub (vv 0) (oo 0)); (ECop OSub (vv 1) (oo 1)); (ECop OSub (vv 2) (oo 2)); (ECop
    OSub (vv 3) (oo 3)); (ECop OSub (vv 4) (oo 4)); (ECop OSub (vv 5) (oo 5)); (ECop OSub (vv 6) (oo
    6)); (ECop OSub (vv 7) (oo 7)); (ECop OSub (vv 8) (oo 8)); (ECop OSub (vv 9) (oo 9)); (ECop OSub
    (vv 10) (oo 10)); (ECop OSub (vv 11) (oo 11)); (ECop OSub (vv 12) (oo 12)); (ECop OSub (vv 13)
    (oo 13)); (ECop OSub (vv 14) (oo 14)); (ECop OSub (vv 15) (oo 15)); (ECop OSub (vv 16) (oo 16));
    (ECop OSub (vv 17) (oo 17)); (ECop OSub (vv 18) (oo 18)); (ECop OSub (vv 19) (oo 19)); (ECop
    OSub (vv 20) (oo 20)); (ECop OSub (vv 21) (oo 21)); (ECop OSub (vv 22) (oo 22)); (ECop OSub (vv
    23) (oo 23)); (ECop OSub (vv 24) (oo 24)); (ECop OSub (vv 25) (oo 25)); (ECop OSub (vv 26) (oo
    26)); (ECop OSub (vv 27) (oo 27)); (ECop OSub (vv 28) (oo 28)); (ECop OSub (vv 29) (oo 29));
    (ECop OSub (vv 30) (oo 30)); (ECop OSub (vv 31) (oo 31))]].

(* short_vec_scalar_double_32.hpp:303-338 *)
Definition scalar_double_32_add_eq : body :=
  [SUpd OAdd (LVal (EInt 0)) (oo 0);
   SUpd OAdd (LVal (EInt 1)) (oo 1);
   SUpd OAdd (LVal (EInt 2)) (oo 2);
   SUpd OAdd (LVal (EInt 3)) (oo 3);
   SUpd OAdd (LVal (EInt 4)) (oo 4);
   SUpd OAdd (LVal (EInt 5)) (oo 5);
   SUpd OAdd (LVal (EInt 6)) (oo 6);
   SUpd OAdd (LVal (EInt 7)) (oo 7);
   SUpd OAdd (LVal (EInt 8)) (oo 8);
   SUpd OAdd (LVal (EInt 9)) (oo 9);
   SUpd OAdd (LVal (EInt 10)) (oo 10);
   SUpd OAdd (LVal (EInt 11)) (oo 11);
   SUpd OAdd (LVal (EInt 12)) (oo 12);
   SUpd OAdd (LVal (EInt 13)) (oo 13);
   SUpd OAdd (LVal (EInt 14)) (oo 14);
   SUpd OAdd (LVal (EInt 15)) (oo 15);
   SUpd OAdd (LVal (EInt 16)) (oo 16);
   SUpd OAdd (LVal (EInt 17)) (oo 17);
   SUpd OAdd (LVal (EInt 18)) (oo 18);
   SUpd OAdd (LVal (EInt 19)) (oo 19);
   SUpd OAdd (LVal (EInt 20)) (oo 20);
   SUpd OAdd (LVal (EInt 21)) (oo 21);
   SUpd OAdd (LVal (EInt 22)) (oo 22);
   SUpd OAdd (LVal (EInt 23)) (oo 23);
   SUpd OAdd (LVal (EInt 24)) (oo 24);
   SUpd OAdd (LVal (EInt 25)) (oo 25);
   SUpd OAdd (LVal (EInt 26)) (oo 26);
   SUpd OAdd (LVal (EInt 27)) (oo 27);
   SUpd OAdd (LVal (EInt 28)) (oo 28);
   SUpd OAdd (LVal (EInt 29)) (oo 29);
   SUpd OAdd (LVal (EInt 30)) (oo 30);
   SUpd OAdd (LVal (EInt 31)) (oo 31)].

(* short_vec_scalar_double_32.hpp:340-376 *)
Definition scalar_double_32_add : body :=
  [SRetVec [(ECop OAdd (vv 0) (oo 0)); (ECop OAdd (vv 1) (oo 1)); (ECop OAdd (vv 2) (oo 2)); (ECop
    OAdd (vv 3) (oo 3)); (ECop OAdd (vv 4) (oo 4)); (ECop OAdd (vv 5) (oo 5)); (ECop OAdd (vv 6) (oo
    6)); (ECop OAdd (vv 7) (oo 7)); (ECop OAdd (vv 8) (oo 8)); (ECop OAdd (vv 9) (oo 9)); (ECop OAdd
    (vv 10) (oo 10)); (ECop OAdd (vv 11) (oo 11)); (ECop OAdd (vv 12) (oo 12)); (ECop OAdd (vv 13)
    (oo 13)); (ECop OAdd (vv 14) (oo 14)); (ECop OAdd (vv 15) (oo 15)); (ECop OAdd (vv 16) (oo 16));
    (ECop OAdd (vv 17) (oo 17)); (ECop OAdd (vv 18) (oo 18)); (ECop OAdd (vv 19) (oo 19)); (ECop
    OAdd (vv 20) (oo 20)); (ECop OAdd (vv 21) (oo 21)); (ECop OAdd (vv 22) (oo 22)); (ECop OAdd (vv
    23) (oo 23)); (ECop OAdd (vv 24) (oo 24)); (ECop OAdd (vv 25) (oo 25)); (ECop OAdd (vv 26) (oo
    26)); (ECop OAdd (vv 27) (oo 27)); (ECop OAdd (vv 28) (oo 28)); (ECop OAdd (vv 29) (oo 29));
    (ECop OAdd (vv 30) (oo 30)); (ECop OAdd (vv 31) (oo 31))]].

(* short_vec_scalar_double_32.hpp:378-413 *)
Definition scalar_double_32_mul_eq : body :=
  [SUpd OMul (LVal (EInt 0)) (oo 0);
   SUpd OMul (LVal (EInt 1)) (oo 1);
   SUpd OMul (LVal (EInt 2)) (oo 2);
   SUpd OMul (LVal (EInt 3)) (oo 3);
   SUpd OMul (LVal (EInt 4)) (oo 4);
   SUpd OMul (LVal (EInt 5)) (oo 5);
   SUpd OMul (LVal (EInt 6)) (oo 6);
   SUpd OMul (LVal (EInt 7)) (oo 7);
   SUpd OMul (LVal (EInt 8)) (oo 8);
   SUpd OMul (LVal (EInt 9)) (oo 9);
   SUpd OMul (LVal (EInt 10)) (oo 10);
   SUpd OMul (LVal (EInt 11)) (oo 11);
   SUpd OMul (LVal (EInt 12)) (oo 12);
   SUpd OMul (LVal (EInt 13)) (oo 13);
   SUpd OMul (LVal (EInt 14)) (oo 14);
   SUpd OMul (LVal (EInt 15)) (oo 15);
   SUpd OMul (LVal (EInt 16)) (oo 16);
   SUpd OMul (LVal (EInt 17)) (oo 17);
   SUpd OMul (LVal (EInt 18)) (oo 18);
   SUpd OMul (LVal (EInt 19)) (oo 19);
   SUpd OMul (LVal (EInt 20)) (oo 20);
   SUpd OMul (LVal (EInt 21)) (oo 21);
   SUpd OMul (LVal (EInt 22)) (oo 22);
   SUpd OMul (LVal (EInt 23)) (oo 23);
   SUpd OMul (LVal (EInt 24)) (oo 24);
   SUpd OMul (LVal (EInt 25)) (oo 25);
   SUpd OMul (LVal (EInt 26)) (oo 26);
   SUpd OMul (LVal (EInt 27)) (oo 27);
   SUpd OMul (LVal (EInt 28)) (oo 28);
   SUpd OMul (LVal (EInt 29)) (oo 29);
   SUpd OMul (LVal (EInt 30)) (oo 30);
   SUpd OMul (LVal (EInt 31)) (oo 31)].

(* short_vec_scalar_double_32.hpp:415-451 *)
Definition scalar_double_32_mul : body :=
  [SRetVec [(ECop OMul (vv 0) (oo 0)); (ECop OMul (vv 1) (oo 1)); (ECop OMul (vv 2) (oo 2)); (ECop
    OMul (vv 3) (oo 3)); (ECop OMul (vv 4) (oo 4)); (ECop OMul (vv 5) (oo 5)); (ECop OMul (vv 6) (oo
    6)); (ECop OMul (vv 7) (oo 7)); (ECop OMul (vv 8) (oo 8)); (ECop OMul (vv 9) (oo 9)); (ECop OMul
    (vv 10) (oo 10)); (ECop OMul (vv 11) (oo 11)); (ECop OMul (vv 12) (oo 12)); (ECop OMul (vv 13)
    (oo 13)); (ECop OMul (vv 14) (oo 14)); (ECop OMul (vv 15) (oo 15)); (ECop OMul (vv 16) (oo 16));
    (ECop OMul (vv 17) (oo 17)); (ECop OMul (vv 18) (oo 18)); (ECop OMul (vv 19) (oo 19)); (ECop
    OMul (vv 20) (oo 20)); (ECop OMul (vv 21) (oo 21)); (ECop OMul (vv 22) (oo 22)); (ECop OMul (vv
    23) (oo 23)); (ECop OMul (vv 24) (oo 24)); (ECop OMul (vv 25) (oo 25)); (ECop OMul (vv 26) (oo
    26)); (ECop OMul (vv 27) (oo 27)); (ECop OMul (vv 28) (oo 28)); (ECop OMul (vv 29) (oo 29));
    (ECop OMul (vv 30) (oo 30)); (ECop OMul (vv 31) (oo 31))]].

(* short_vec_scalar_double_32.hpp:453-488 *)
Definition scalar_double_32_div_eq : body :=
  [SUpd ODiv (LVal (EInt 0)) (oo 0);
   SUpd ODiv (LVal (EInt 1)) (oo 1);
   SUpd ODiv (LVal (EInt 2)) (oo 2);
   SUpd ODiv (LVal (EInt 3)) (oo 3);
   SUpd ODiv (LVal (EInt 4)) (oo 4);
   SUpd ODiv (LVal (EInt 5)) (oo 5);
   SUpd ODiv (LVal (EInt 6)) (oo 6);
   SUpd ODiv (LVal (EInt 7)) (oo 7);
   SUpd ODiv (LVal (EInt 8)) (oo 8);
   SUpd ODiv (LVal (EInt 9)) (oo 9);
   SUpd ODiv (LVal (EInt 10)) (oo 10);
   SUpd ODiv (LVal (EInt 11)) (oo 11);
   SUpd ODiv (LVal (EInt 12)) (oo 12);
   SUpd ODiv (LVal (EInt 13)) (oo 13);
   SUpd ODiv (LVal (EInt 14)) (oo 14);
   SUpd ODiv (LVal (EInt 15)) (oo 15);
   SUpd ODiv (LVal (EInt 16)) (oo 16);
   SUpd ODiv (LVal (EInt 17)) (oo 17);
   SUpd ODiv (LVal (EInt 18)) (oo 18);
   SUpd ODiv (LVal (EInt 19)) (oo 19);
   SUpd ODiv (LVal (EInt 20)) (oo 20);
   SUpd ODiv (LVal (EInt 21)) (oo 21);
   SUpd ODiv (LVal (EInt 22)) (oo 22);
   SUpd ODiv (LVal (EInt 23)) (oo 23);
   SUpd ODiv (LVal (EInt 24)) (oo 24);
   SUpd ODiv (LVal (EInt 25)) (oo 25);
   SUpd ODiv (LVal (EInt 26)) (oo 26);
   SUpd ODiv (LVal (EInt 27)) (oo 27);
   SUpd ODiv (LVal (EInt 28)) (oo 28);
   SUpd ODiv (LVal (EInt 29)) (oo 29);
   SUpd ODiv (LVal (EInt 30)) (oo 30);
   SUpd ODiv (LVal (EInt 31)) (oo 31)].

(* short_vec_scalar_double_32.hpp:490-526 *)
Definition scalar_double_32_div : body :=
  [SRetVec [(ECop ODiv (vv 0) (oo 0)); (ECop ODiv (vv 1) (oo 1)); (ECop ODiv (vv 2) (oo 2)); (ECop
    ODiv (vv 3) (oo 3)); (ECop ODiv (vv 4) (oo 4)); (ECop ODiv (vv 5) (oo 5)); (ECop ODiv (vv 6) (oo
    6)); (ECop ODiv (vv 7) (oo 7)); (ECop ODiv (vv 8) (oo 8)); (ECop ODiv (vv 9) (oo 9)); (ECop ODiv
    (vv 10) (oo 10)); (ECop ODiv (vv 11) (oo 11)); (ECop ODiv (vv 12) (oo 12)); (ECop ODiv (vv 13)
    (oo 13)); (ECop ODiv (vv 14) (oo 14)); (ECop ODiv (vv 15) (oo 15)); (ECop ODiv (vv 16) (oo 16));
    (ECop ODiv (vv 17) (oo 17)); (ECop ODiv (vv 18) (oo 18)); (ECop ODiv (vv 19) (oo 19)); (ECop
    ODiv (vv 20) (oo 20)); (ECop ODiv (vv 21) (oo 21)); (ECop ODiv (vv 22) (oo 22)); (ECop ODiv (vv
    23) (oo 23)); (ECop ODiv (vv 24) (oo 24)); (ECop ODiv (vv 25) (oo 25)); (ECop ODiv (vv 26) (oo
    26)); (ECop ODiv (vv 27) (oo 27)); (ECop ODiv (vv 28) (oo 28)); (ECop ODiv (vv 29) (oo 29));
    (ECop ODiv (vv 30) (oo 30)); (ECop ODiv (vv 31) (oo 31))]].

(* short_vec_scalar_double_32.hpp:529-565 *)
Definition scalar_double_32_lt : body :=
  [SRet (EMaskType (ECop OAdd (ECop OAdd (ECop OAdd (ECop OAdd (ECop OAdd (ECop OAdd (ECop OAdd
    (ECop OAdd (ECop OAdd (ECop OAdd (ECop OAdd (ECop OAdd (ECop OAdd (ECop OAdd (ECop OAdd (ECop
    OAdd (ECop OAdd (ECop OAdd (ECop OAdd (ECop OAdd (ECop OAdd (ECop OAdd (ECop OAdd (ECop OAdd
    (ECop OAdd (ECop OAdd (ECop OAdd (ECop OAdd (ECop OAdd (ECop OAdd (ECop OAdd (ECop OShl (ECop
    (ORel RLt) (vv 0) (oo 0)) (EInt 0)) (ECop OShl (ECop (ORel RLt) (vv 1) (oo 1)) (EInt 1))) (ECop
    OShl (ECop (ORel RLt) (vv 2) (oo 2)) (EInt 2))) (ECop OShl (ECop (ORel RLt) (vv 3) (oo 3)) (EInt
    3))) (ECop OShl (ECop (ORel RLt) (vv 4) (oo 4)) (EInt 4))) (ECop OShl (ECop (ORel RLt) (vv 5)
    (oo 5)) (EInt 5))) (ECop OShl (ECop (ORel RLt) (vv 6) (oo 6)) (EInt 6))) (ECop OShl (ECop (ORel
    RLt) (vv 7) (oo 7)) (EInt 7))) (ECop OShl (ECop (ORel RLt) (vv 8) (oo 8)) (EInt 8))) (ECop OShl
    (ECop (ORel RLt) (vv 9) (oo 9)) (EInt 9))) (ECop OShl (ECop (ORel RLt) (vv 10) (oo 10)) (EInt
    10))) (ECop OShl (ECop (ORel RLt) (vv 11) (oo 11)) (EInt 11))) (ECop OShl (ECop (ORel RLt) (vv
    12) (oo 12)) (EInt 12))) (ECop OShl (ECop (ORel RLt) (vv 13) (oo 13)) (EInt 13))) (ECop OShl
    (ECop (ORel RLt) (vv 14) (oo 14)) (EInt 14))) (ECop OShl (ECop (ORel RLt) (vv 15) (oo 15)) (EInt
    15))) (ECop OShl (ECop (ORel RLt) (vv 16) (oo 16)) (EInt 16))) (ECop OShl (ECop (ORel RLt) (vv
    17) (oo 17)) (EInt 17))) (ECop OShl (ECop (ORel RLt) (vv 18) (oo 18)) (EInt 18))) (ECop OShl
    (ECop (ORel RLt) (vv 19) (oo 19)) (EInt 19))) (ECop OShl (ECop (ORel RLt) (vv 20) (oo 20)) (EInt
    20))) (ECop OShl (ECop (ORel RLt) (vv 21) (oo 21)) (EInt 21))) (ECop OShl (ECop (ORel RLt) (vv
    22) (oo 22)) (EInt 22))) (ECop OShl (ECop (ORel RLt) (vv 23) (oo 23)) (EInt 23))) (ECop OShl
    (ECop (ORel RLt) (vv 24) (oo 24)) (EInt 24))) (ECop OShl (ECop (ORel RLt) (vv 25) (oo 25)) (EInt
    25))) (ECop OShl (ECop (ORel RLt) (vv 26) (oo 26)) (EInt 26))) (ECop OShl (ECop (ORel RLt) (vv
    27) (oo 27)) (EInt 27))) (ECop OShl (ECop (ORel RLt) (vv 28) (oo 28)) (EInt 28))) (ECop OShl
    (ECop (ORel RLt) (vv 29) (oo 29)) (EInt 29))) (ECop OShl (ECop (ORel RLt) (vv 30) (oo 30)) (EInt
    30))) (ECop OShl (ECop (ORel RLt) (vv 31) (oo 31)) (EInt 31))))].

(* short_vec_scalar_double_32.hpp:567-603 *)
Definition scalar_double_32_le : body :=
  [SRet (EMaskType (ECop OAdd (ECop OAdd (ECop OAdd (ECop OAdd (ECop OAdd (ECop OAdd (ECop OAdd
    (ECop OAdd (ECop OAdd (ECop OAdd (ECop OAdd (ECop OAdd (ECop OAdd (ECop OAdd (ECop OAdd (ECop
    OAdd (ECop OAdd (ECop OAdd (ECop OAdd (ECop OAdd (ECop OAdd (ECop OAdd (ECop OAdd (ECop OAdd
    (ECop OAdd (ECop OAdd (ECop OAdd (ECop OAdd (ECop OAdd (ECop OAdd (ECop OAdd (ECop OShl (ECop
    (ORel RLe) (vv 0) (oo 0)) (EInt 0)) (ECop OShl (ECop (ORel RLe) (vv 1) (oo 1)) (EInt 1))) (ECop
    OShl (ECop (ORel RLe) (vv 2) (oo 2)) (EInt 2))) (ECop OShl (ECop (ORel RLe) (vv 3) (oo 3)) (EInt
    3))) (ECop OShl (ECop (ORel RLe) (vv 4) (oo 4)) (EInt 4))) (ECop OShl (ECop (ORel RLe) (vv 5)
    (oo 5)) (EInt 5))) (ECop OShl (ECop (ORel RLe) (vv 6) (oo 6)) (EInt 6))) (ECop OShl (ECop (ORel
    RLe) (vv 7) (oo 7)) (EInt 7))) (ECop OShl (ECop (ORel RLe) (vv 8) (oo 8)) (EInt 8))) (ECop OShl
    (ECop (ORel RLe) (vv 9) (oo 9)) (EInt 9))) (ECop OShl (ECop (ORel RLe) (vv 10) (oo 10)) (EInt
    10))) (ECop OShl (ECop (ORel RLe) (vv 11) (oo 11)) (EInt 11))) (ECop OShl (ECop (ORel RLe) (vv
    12) (oo 12)) (EInt 12))) (ECop OShl (ECop (ORel RLe) (vv 13) (oo 13)) (EInt 13))) (ECop OShl
    (ECop (ORel RLe) (vv 14) (oo 14)) (EInt 14))) (ECop OShl (ECop (ORel RLe) (vv 15) (oo 15)) (EInt
    15))) (ECop OShl (ECop (ORel RLe) (vv 16) (oo 16)) (EInt 16))) (ECop OShl (ECop (ORel RLe) (vv
    17) (oo 17)) (EInt 17))) (ECop OShl (ECop (ORel RLe) (vv 18) (oo 18)) (EInt 18))) (ECop OShl
    (ECop (ORel RLe) (vv 19) (oo 19)) (EInt 19))) (ECop OShl (ECop (ORel RLe) (vv 20) (oo 20)) (EInt
    20))) (ECop OShl (ECop (ORel RLe) (vv 21) (oo 21)) (EInt 21))) (ECop OShl (ECop (ORel RLe) (vv
    22) (oo 22)) (EInt 22))) (ECop OShl (ECop (ORel RLe) (vv 23) (oo 23)) (EInt 23))) (ECop OShl
    (ECop (ORel RLe) (vv 24) (oo 24)) (EInt 24))) (ECop OShl (ECop (ORel RLe) (vv 25) (oo 25)) (EInt
    25))) (ECop OShl (ECop (ORel RLe) (vv 26) (oo 26)) (EInt 26))) (ECop OShl (ECop (ORel RLe) (vv
    27) (oo 27)) (EInt 27))) (ECop OShl (ECop (ORel RLe) (vv 28) (oo 28)) (EInt 28))) (ECop OShl
    (ECop (ORel RLe) (vv 29) (oo 29)) (EInt 29))) (ECop OShl (ECop (ORel RLe) (vv 30) (oo 30)) (EInt
    30))) (ECop OShl (ECop (ORel RLe) (vv 31) (oo 31)) (EInt 31))))].

(* short_vec_scalar_double_32.hpp:605-641 *)
Definition scalar_double_32_eq : body :=
  [SRet (EMaskType (ECop OAdd (ECop OAdd (ECop OAdd (ECop OAdd (ECop OAdd (ECop OAdd (ECop OAdd
    (ECop OAdd (ECop OAdd (ECop OAdd (ECop OAdd (ECop OAdd (ECop OAdd (ECop OAdd (ECop OAdd (ECop
    OAdd (ECop OAdd (ECop OAdd (ECop OAdd (ECop OAdd (ECop OAdd (ECop OAdd (ECop OAdd (ECop OAdd
    (ECop OAdd (ECop OAdd (ECop OAdd (ECop OAdd (ECop OAdd (ECop OAdd (ECop OAdd (ECop OShl (ECop
    (ORel REq) (vv 0) (oo 0)) (EInt 0)) (ECop OShl (ECop (ORel REq) (vv 1) (oo 1)) (EInt 1))) (ECop
    OShl (ECop (ORel REq) (vv 2) (oo 2)) (EInt 2))) (ECop OShl (ECop (ORel REq) (vv 3) (oo 3)) (EInt
    3))) (ECop OShl (ECop (ORel REq) (vv 4) (oo 4)) (EInt 4))) (ECop OShl (ECop (ORel REq) (vv 5)
    (oo 5)) (EInt 5))) (ECop OShl (ECop (ORel REq) (vv 6) (oo 6)) (EInt 6))) (ECop OShl (ECop (ORel
    REq) (vv 7) (oo 7)) (EInt 7))) (ECop OShl (ECop (ORel REq) (vv 8) (oo 8)) (EInt 8))) (ECop OShl
    (ECop (ORel REq) (vv 9) (oo 9)) (EInt 9))) (ECop OShl (ECop (ORel REq) (vv 10) (oo 10)) (EInt
    10))) (ECop OShl (ECop (ORel REq) (vv 11) (oo 11)) (EInt 11))) (ECop OShl (ECop (ORel REq) (vv
    12) (oo 12)) (EInt 12))) (ECop OShl (ECop (ORel REq) (vv 13) (oo 13)) (EInt 13))) (ECop OShl
    (ECop (ORel REq) (vv 14) (oo 14)) (EInt 14))) (ECop OShl (ECop (ORel REq) (vv 15) (oo 15)) (EInt
    15))) (ECop OShl (ECop (ORel REq) (vv 16) (oo 16)) (EInt 16))) (ECop OShl (ECop (ORel REq) (vv
    17) (oo 17)) (EInt 17))) (ECop OShl (ECop (ORel REq) (vv 18) (oo 18)) (EInt 18))) (ECop OShl
    (ECop (ORel REq) (vv 19) (oo 19)) (EInt 19))) (ECop OShl (ECop (ORel REq) (vv 20) (oo 20)) (EInt
    20))) (ECop OShl (ECop (ORel REq) (vv 21) (oo 21)) (EInt 21))) (ECop OShl (ECop (ORel REq) (vv
    22) (oo 22)) (EInt 22))) (ECop OShl (ECop (ORel REq) (vv 23) (oo 23)) (EInt 23))) (ECop OShl
    (ECop (ORel REq) (vv 24) (oo 24)) (EInt 24))) (ECop OShl (ECop (ORel REq) (vv 25) (oo 25)) (EInt
    25))) (ECop OShl (ECop (ORel REq) (vv 26) (oo 26)) (EInt 26))) (ECop OShl (ECop (ORel REq) (vv
    27) (oo 27)) (EInt 27))) (ECop OShl (ECop (ORel REq) (vv 28) (oo 28)) (EInt 28))) (ECop OShl
    (ECop (ORel REq) (vv 29) (oo 29)) (EInt 29))) (ECop OShl (ECop (ORel REq) (vv 30) (oo 30)) (EInt
    30))) (ECop OShl (ECop (ORel REq) (vv 31) (oo 31)) (EInt 31))))].

(* short_vec_scalar_double_32.hpp:643-679 *)
Definition scalar_double_32_gt : body :=
  [SRet (EMaskType (ECop OAdd (ECop OAdd (ECop OAdd (ECop OAdd (ECop OAdd (ECop OAdd (ECop OAdd
    (ECop OAdd (ECop OAdd (ECop OAdd (ECop OAdd (ECop OAdd (ECop OAdd (ECop OAdd (ECop OAdd (ECop
    OAdd (ECop OAdd (ECop OAdd (ECop OAdd (ECop OAdd (ECop OAdd (ECop OAdd (ECop OAdd (ECop OAdd
    (ECop OAdd (ECop OAdd (ECop OAdd (ECop OAdd (ECop OAdd (ECop OAdd (ECop OAdd (ECop OShl (ECop
    (ORel RGt) (vv 0) (oo 0)) (EInt 0)) (ECop OShl (ECop (ORel RGt) (vv 1) (oo 1)) (EInt 1))) (ECop
    OShl (ECop (ORel RGt) (vv 2) (oo 2)) (EInt 2))) (ECop OShl (ECop (ORel RGt) (vv 3) (oo 3)) (EInt
    3))) (ECop OShl (ECop (ORel RGt) (vv 4) (oo 4)) (EInt 4))) (ECop OShl (ECop (ORel RGt) (vv 5)
    (oo 5)) (EInt 5))) (ECop OShl (ECop (ORel RGt) (vv 6) (oo 6)) (EInt 6))) (ECop OShl (ECop (ORel
    RGt) (vv 7) (oo 7)) (EInt 7))) (ECop OShl (ECop (ORel RGt) (vv 8) (oo 8)) (EInt 8))) (ECop OShl
    (ECop (ORel RGt) (vv 9) (oo 9)) (EInt 9))) (ECop OShl (ECop (ORel RGt) (vv 10) (oo 10)) (EInt
    10))) (ECop OShl (ECop (ORel RGt) (vv 11) (oo 11)) (EInt 11))) (ECop OShl (ECop (ORel RGt) (vv
    12) (oo 12)) (EInt 12))) (ECop OShl (ECop (ORel RGt) (vv 13) (oo 13)) (EInt 13))) (ECop OShl
    (ECop (ORel RGt) (vv 14) (oo 14)) (EInt 14))) (ECop OShl (ECop (ORel RGt) (vv 15) (oo 15)) (EInt
    15))) (ECop OShl (ECop (ORel RGt) (vv 16) (oo 16)) (EInt 16))) (ECop OShl (ECop (ORel RGt) (vv
    17) (oo 17)) (EInt 17))) (ECop OShl (ECop (ORel RGt) (vv 18) (oo 18)) (EInt 18))) (ECop OShl
    (ECop (ORel RGt) (vv 19) (oo 19)) (EInt 19))) (ECop OShl (ECop (ORel RGt) (vv 20) (oo 20)) (EInt
    20))) (ECop OShl (ECop (ORel RGt) (vv 21) (oo 21)) (EInt 21))) (ECop OShl (ECop (ORel RGt) (vv
    22) (oo 22)) (EInt 22))) (ECop OShl (ECop (ORel RGt) (vv 23) (oo 23)) (EInt 23))) (ECop OShl
    (ECop (ORel RGt) (vv 24) (oo 24)) (EInt 24))) (ECop OShl (ECop (ORel RGt) (vv 25) (oo 25)) (EInt
    25))) (ECop OShl (ECop (ORel RGt) (vv 26) (oo 26)) (EInt 26))) (ECop OShl (ECop (ORel RGt) (vv
    27) (oo 27)) (EInt 27))) (ECop OShl (ECop (ORel RGt) (vv 28) (oo 28)) (EInt 28))) (ECop OShl
    (ECop (ORel RGt) (vv 29) (oo 29)) (EInt 29))) (ECop OShl (ECop (ORel RGt) (vv 30) (oo 30)) (EInt
    30))) (ECop OShl (ECop (ORel RGt) (vv 31) (oo 31)) (EInt 31))))].

(* short_vec_scalar_double_32.hpp:681-717 *)
Definition scalar_double_32_ge : body :=
  [SRet (EMaskType (ECop OAdd (ECop OAdd (ECop OAdd (ECop OAdd (ECop OAdd (ECop OAdd (ECop OAdd
    (ECop OAdd (ECop OAdd (ECop OAdd (ECop OAdd (ECop OAdd (ECop OAdd (ECop OAdd (ECop OAdd (ECop
    OAdd (ECop OAdd (ECop OAdd (ECop OAdd (ECop OAdd (ECop OAdd (ECop OAdd (ECop OAdd (ECop OAdd
    (ECop OAdd (ECop OAdd (ECop OAdd (ECop OAdd (ECop OAdd (ECop OAdd (ECop OAdd (ECop OShl (ECop
    (ORel RGe) (vv 0) (oo 0)) (EInt 0)) (ECop OShl (ECop (ORel RGe) (vv 1) (oo 1)) (EInt 1))) (ECop
    OShl (ECop (ORel RGe) (vv 2) (oo 2)) (EInt 2))) (ECop OShl (ECop (ORel RGe) (vv 3) (oo 3)) (EInt
    3))) (ECop OShl (ECop (ORel RGe) (vv 4) (oo 4)) (EInt 4))) (ECop OShl (ECop (ORel RGe) (vv 5)
    (oo 5)) (EInt 5))) (ECop OShl (ECop (ORel RGe) (vv 6) (oo 6)) (EInt 6))) (ECop OShl (ECop (ORel
    RGe) (vv 7) (oo 7)) (EInt 7))) (ECop OShl (ECop (ORel RGe) (vv 8) (oo 8)) (EInt 8))) (ECop OShl
    (ECop (ORel RGe) (vv 9) (oo 9)) (EInt 9))) (ECop OShl (ECop (ORel RGe) (vv 10) (oo 10)) (EInt
    10))) (ECop OShl (ECop (ORel RGe) (vv 11) (oo 11)) (EInt 11))) (ECop OShl (ECop (ORel RGe) (vv
    12) (oo 12)) (EInt 12))) (ECop OShl (ECop (ORel RGe) (vv 13) (oo 13)) (EInt 13))) (ECop OShl
    (ECop (ORel RGe) (vv 14) (oo 14)) (EInt 14))) (ECop OShl (ECop (ORel RGe) (vv 15) (oo 15)) (EInt
    15))) (ECop OShl (ECop (ORel RGe) (vv 16) (oo 16)) (EInt 16))) (ECop OShl (ECop (ORel RGe) (vv
    17) (oo 17)) (EInt 17))) (ECop OShl (ECop (ORel RGe) (vv 18) (oo 18)) (EInt 18))) (ECop OShl
    (ECop (ORel RGe) (vv 19) (oo 19)) (EInt 19))) (ECop OShl (ECop (ORel RGe) (vv 20) (oo 20)) (EInt
    20))) (ECop OShl (ECop (ORel RGe) (vv 21) (oo 21)) (EInt 21))) (ECop OShl (ECop (ORel RGe) (vv
    22) (oo 22)) (EInt 22))) (ECop OShl (ECop (ORel RGe) (vv 23) (oo 23)) (EInt 23))) (ECop OShl
    (ECop (ORel RGe) (vv 24) (oo 24)) (EInt 24))) (ECop OShl (ECop (ORel RGe) (vv 25) (oo 25)) (EInt
    25))) (ECop OShl (ECop (ORel RGe) (vv 26) (oo 26)) (EInt 26))) (ECop OShl (ECop (ORel RGe) (vv
    27) (oo 27)) (EInt 27))) (ECop OShl (ECop (ORel RGe) (vv 28) (oo 28)) (EInt 28))) (ECop OShl
    (ECop (ORel RGe) (vv 29) (oo 29)) (EInt 29))) (ECop OShl (ECop (ORel RGe) (vv 30) (oo 30)) (EInt
    30))) (ECop OShl (ECop (ORel RGe) (vv 31) (oo 31)) (EInt 31))))].

(* short_vec_scalar_double_32.hpp:725-761 *)
Definition scalar_double_32_sqrt : body :=
  [SRetVec [(EStdSqrt (vv 0)); (EStdSqrt (vv 1)); (EStdSqrt (vv 2)); (EStdSqrt (vv 3)); (EStdSqrt
    (vv 4)); (EStdSqrt (vv 5)); (EStdSqrt (vv 6)); (EStdSqrt (vv 7)); (EStdSqrt (vv 8)); (EStdSqrt
    (vv 9)); (EStdSqrt (vv 10)); (EStdSqrt (vv 11)); (EStdSqrt (vv 12)); (EStdSqrt (vv 13));
    (EStdSqrt (vv 14)); (EStdSqrt (vv 15)); (EStdSqrt (vv 16)); (EStdSqrt (vv 17)); (EStdSqrt (vv
    18)); (EStdSqrt (vv 19)); (EStdSqrt (vv 20)); (EStdSqrt (vv 21)); (EStdSqrt (vv 22)); (EStdSqrt
    (vv 23)); (EStdSqrt (vv 24)); (EStdSqrt (vv 25)); (EStdSqrt (vv 26)); (EStdSqrt (vv 27));
    (EStdSqrt (vv 28)); (EStdSqrt (vv 29)); (EStdSqrt (vv 30)); (EStdSqrt (vv 31))]].

(* short_vec_scalar_double_32.hpp:766-801 *)
Definition scalar_double_32_load : body :=
  [SSet (LVal (EInt 0)) (EIdx EData (EInt 0));
   SSet (LVal (EInt 1)) (EIdx EData (EInt 1));
   SSet (LVal (EInt 2)) (EIdx EData (EInt 2));
   SSet (LVal (EInt 3)) (EIdx EData (EInt 3));
   SSet (LVal (EInt 4)) (EIdx EData (EInt 4));
   SSet (LVal (EInt 5)) (EIdx EData (EInt 5));
   SSet (LVal (EInt 6)) (EIdx EData (EInt 6));
   SSet (LVal (EInt 7)) (EIdx EData (EInt 7));
   SSet (LVal (EInt 8)) (EIdx EData (EInt 8));
   SSet (LVal (EInt 9)) (EIdx EData (EInt 9));
   SSet (LVal (EInt 10)) (EIdx EData (EInt 10));
   SSet (LVal (EInt 11)) (EIdx EData (EInt 11));
   SSet (LVal (EInt 12)) (EIdx EData (EInt 12));
   SSet (LVal (EInt 13)) (EIdx EData (EInt 13));
   SSet (LVal (EInt 14)) (EIdx EData (EInt 14));
   SSet (LVal (EInt 15)) (EIdx EData (EInt 15));
   SSet (LVal (EInt 16)) (EIdx EData (EInt 16));
   SSet (LVal (EInt 17)) (EIdx EData (EInt 17));
   SSet (LVal (EInt 18)) (EIdx EData (EInt 18));
   SSet (LVal (EInt 19)) (EIdx EData (EInt 19));
   SSet (LVal (EInt 20)) (EIdx EData (EInt 20));
   SSet (LVal (EInt 21)) (EIdx EData (EInt 21));
   SSet (LVal (EInt 22)) (EIdx EData (EInt 22));
   SSet (LVal (EInt 23)) (EIdx EData (EInt 23));
   SSet (LVal (EInt 24)) (EIdx EData (EInt 24));
   SSet (LVal (EInt 25)) (EIdx EData (EInt 25));
   SSet (LVal (EInt 26)) (EIdx EData (EInt 26));
   SSet (LVal (EInt 27)) (EIdx EData (EInt 27));
   SSet (LVal (EInt 28)) (EIdx EData (EInt 28));
   SSet (LVal (EInt 29)) (EIdx EData (EInt 29));
   SSet (LVal (EInt 30)) (EIdx EData (EInt 30));
   SSet (LVal (EInt 31)) (EIdx EData (EInt 31))].

(* short_vec_scalar_double_32.hpp:803-807 *)
Definition scalar_double_32_load_aligned : body :=
  [SSet (LVal (EInt 0)) (EIdx EData (EInt 0));
   SSet (LVal (EInt 1)) (EIdx EData (EInt 1));
   SSet (LVal (EInt 2)) (EIdx EData (EInt 2));
   SSet (LVal (EInt 3)) (EIdx EData (EInt 3));
   SSet (LVal (EInt 4)) (EIdx EData (EInt 4));
   SSet (LVal (EInt 5)) (EIdx EData (EInt 5));
   SSet (LVal (EInt 6)) (EIdx EData (EInt 6));
   SSet (LVal (EInt 7)) (EIdx EData (EInt 7));
   SSet (LVal (EInt 8)) (EIdx EData (EInt 8));
   SSet (LVal (EInt 9)) (EIdx EData (EInt 9));
   SSet (LVal (EInt 10)) (EIdx EData (EInt 10));
   SSet (LVal (EInt 11)) (EIdx EData (EInt 11));
   SSet (LVal (EInt 12)) (EIdx EData (EInt 12));
   SSet (LVal (EInt 13)) (EIdx EData (EInt 13));
   SSet (LVal (EInt 14)) (EIdx EData (EInt 14));
   SSet (LVal (EInt 15)) (EIdx EData (EInt 15));
   SSet (LVal (EInt 16)) (EIdx EData (EInt 16));
   SSet (LVal (EInt 17)) (EIdx EData (EInt 17));
   SSet (LVal (EInt 18)) (EIdx EData (EInt 18));
   SSet (LVal (EInt 19)) (EIdx EData (EInt 19));
   SSet (LVal (EInt 20)) (EIdx EData (EInt 20));
   SSet (LVal (EInt 21)) (EIdx EData (EInt 21));
   SSet (LVal (EInt 22)) (EIdx EData (EInt 22));
   SSet (LVal (EInt 23)) (EIdx EData (EInt 23));
   SSet (LVal (EInt 24)) (EIdx EData (EInt 24));
   SSet (LVal (EInt 25)) (EIdx EData (EInt 25));
   SSet (LVal (EInt 26)) (EIdx EData (EInt 26));
   SSet (LVal (EInt 27)) (EIdx EData (EInt 27));
   SSet (LVal (EInt 28)) (EIdx EData (EInt 28));
   SSet (LVal (EInt 29)) (EIdx EData (EInt 29));
   SSet (LVal (EInt 30)) (EIdx EData (EInt 30));
   SSet (LVal (EInt 31)) (EIdx EData (EInt 31))].

(* short_vec_scalar_double_32.hpp:809-844 *)
Definition scalar_double_32_store : body :=
  [SSet (LMem (dat 0)) (vv 0);
   SSet (LMem (dat 1)) (vv 1);
   SSet (LMem (dat 2)) (vv 2);
   SSet (LMem (dat 3)) (vv 3);
   SSet (LMem (dat 4)) (vv 4);
   SSet (LMem (dat 5)) (vv 5);
   SSet (LMem (dat 6)) (vv 6);
   SSet (LMem (dat 7)) (vv 7);
   SSet (LMem (dat 8)) (vv 8);
   SSet (LMem (dat 9)) (vv 9);
   SSet (LMem (dat 10)) (vv 10);
   SSet (LMem (dat 11)) (vv 11);
   SSet (LMem (dat 12)) (vv 12);
   SSet (LMem (dat 13)) (vv 13);
   SSet (LMem (dat 14)) (vv 14);
   SSet (LMem (dat 15)) (vv 15);
   SSet (LMem (dat 16)) (vv 16);
   SSet (LMem (dat 17)) (vv 17);
   SSet (LMem (dat 18)) (vv 18);
   SSet (LMem (dat 19)) (vv 19);
   SSet (LMem (dat 20)) (vv 20);
   SSet (LMem (dat 21)) (vv 21);
   SSet (LMem (dat 22)) (vv 22);
   SSet (LMem (dat 23)) (vv 23);
   SSet (LMem (dat 24)) (vv 24);
   SSet (LMem (dat 25)) (vv 25);
   SSet (LMem (dat 26)) (vv 26);
   SSet (LMem (dat 27)) (vv 27);
   SSet (LMem (dat 28)) (vv 28);
   SSet (LMem (dat 29)) (vv 29);
   SSet (LMem (dat 30)) (vv 30);
   SSet (LMem (dat 31)) (vv 31)].

(* short_vec_scalar_double_32.hpp:846-850 *)
Definition scalar_double_32_store_aligned : body :=
  [SSet (LMem (dat 0)) (vv 0);
   SSet (LMem (dat 1)) (vv 1);
   SSet (LMem (dat 2)) (vv 2);
   SSet (LMem (dat 3)) (vv 3);
   SSet (LMem (dat 4)) (vv 4);
   SSet (LMem (dat 5)) (vv 5);
   SSet (LMem (dat 6)) (vv 6);
   SSet (LMem (dat 7)) (vv 7);
   SSet (LMem (dat 8)) (vv 8);
   SSet (LMem (dat 9)) (vv 9);
   SSet (LMem (dat 10)) (vv 10);
   SSet (LMem (dat 11)) (vv 11);
   SSet (LMem (dat 12)) (vv 12);
   SSet (LMem (dat 13)) (vv 13);
   SSet (LMem (dat 14)) (vv 14);
   SSet (LMem (dat 15)) (vv 15);
   SSet (LMem (dat 16)) (vv 16);
   SSet (LMem (dat 17)) (vv 17);
   SSet (LMem (dat 18)) (vv 18);
   SSet (LMem (dat 19)) (vv 19);
   SSet (LMem (dat 20)) (vv 20);
   SSet (LMem (dat 21)) (vv 21);
   SSet (LMem (dat 22)) (vv 22);
   SSet (LMem (dat 23)) (vv 23);
   SSet (LMem (dat 24)) (vv 24);
   SSet (LMem (dat 25)) (vv 25);
   SSet (LMem (dat 26)) (vv 26);
   SSet (LMem (dat 27)) (vv 27);
   SSet (LMem (dat 28)) (vv 28);
   SSet (LMem (dat 29)) (vv 29);
   SSet (LMem (dat 30)) (vv 30);
   SSet (LMem (dat 31)) (vv 31)].

(* short_vec_scalar_double_32.hpp:852-856 *)
Definition scalar_double_32_store_nt : body :=
  [SSet (LMem (dat 0)) (vv 0);
   SSet (LMem (dat 1)) (vv 1);
   SSet (LMem (dat 2)) (vv 2);
   SSet (LMem (dat 3)) (vv 3);
   SSet (LMem (dat 4)) (vv 4);
   SSet (LMem (dat 5)) (vv 5);
   SSet (LMem (dat 6)) (vv 6);
   SSet (LMem (dat 7)) (vv 7);
   SSet (LMem (dat 8)) (vv 8);
   SSet (LMem (dat 9)) (vv 9);
   SSet (LMem (dat 10)) (vv 10);
   SSet (LMem (dat 11)) (vv 11);
   SSet (LMem (dat 12)) (vv 12);
   SSet (LMem (dat 13)) (vv 13);
   SSet (LMem (dat 14)) (vv 14);
   SSet (LMem (dat 15)) (vv 15);
   SSet (LMem (dat 16)) (vv 16);
   SSet (LMem (dat 17)) (vv 17);
   SSet (LMem (dat 18)) (vv 18);
   SSet (LMem (dat 19)) (vv 19);
   SSet (LMem (dat 20)) (vv 20);
   SSet (LMem (dat 21)) (vv 21);
   SSet (LMem (dat 22)) (vv 22);
   SSet (LMem (dat 23)) (vv 23);
   SSet (LMem (dat 24)) (vv 24);
   SSet (LMem (dat 25)) (vv 25);
   SSet (LMem (dat 26)) (vv 26);
   SSet (LMem (dat 27)) (vv 27);
   SSet (LMem (dat 28)) (vv 28);
   SSet (LMem (dat 29)) (vv 29);
   SSet (LMem (dat 30)) (vv 30);
   SSet (LMem (dat 31)) (vv 31)].

(* short_vec_scalar_double_32.hpp:858-893 *)
Definition scalar_double_32_gather : body :=
  [SSet (LVal (EInt 0)) (EIdx EPtr (off 0));
   SSet (LVal (EInt 1)) (EIdx EPtr (off 1));
   SSet (LVal (EInt 2)) (EIdx EPtr (off 2));
   SSet (LVal (EInt 3)) (EIdx EPtr (off 3));
   SSet (LVal (EInt 4)) (EIdx EPtr (off 4));
   SSet (LVal (EInt 5)) (EIdx EPtr (off 5));
   SSet (LVal (EInt 6)) (EIdx EPtr (off 6));
   SSet (LVal (EInt 7)) (EIdx EPtr (off 7));
   SSet (LVal (EInt 8)) (EIdx EPtr (off 8));
   SSet (LVal (EInt 9)) (EIdx EPtr (off 9));
   SSet (LVal (EInt 10)) (EIdx EPtr (off 10));
   SSet (LVal (EInt 11)) (EIdx EPtr (off 11));
   SSet (LVal (EInt 12)) (EIdx EPtr (off 12));
   SSet (LVal (EInt 13)) (EIdx EPtr (off 13));
   SSet (LVal (EInt 14)) (EIdx EPtr (off 14));
   SSet (LVal (EInt 15)) (EIdx EPtr (off 15));
   SSet (LVal (EInt 16)) (EIdx EPtr (off 16));
   SSet (LVal (EInt 17)) (EIdx EPtr (off 17));
   SSet (LVal (EInt 18)) (EIdx EPtr (off 18));
   SSet (LVal (EInt 19)) (EIdx EPtr (off 19));
   SSet (LVal (EInt 20)) (EIdx EPtr (off 20));
   SSet (LVal (EInt 21)) (EIdx EPtr (off 21));
   SSet (LVal (EInt 22)) (EIdx EPtr (off 22));
   SSet (LVal (EInt 23)) (EIdx EPtr (off 23));
   SSet (LVal (EInt 24)) (EIdx EPtr (off 24));
   SSet (LVal (EInt 25)) (EIdx EPtr (off 25));
   SSet (LVal (EInt 26)) (EIdx EPtr (off 26));
   SSet (LVal (EInt 27)) (EIdx EPtr (off 27));
   SSet (LVal (EInt 28)) (EIdx EPtr (off 28));
   SSet (LVal (EInt 29)) (EIdx EPtr (off 29));
   SSet (LVal (EInt 30)) (EIdx EPtr (off 30));
   SSet (LVal (EInt 31)) (EIdx EPtr (off 31))].

(* short_vec_scalar_double_32.hpp:895-930 *)
Definition scalar_double_32_scatter : body :=
  [SSet (LMem (pto 0)) (vv 0);
   SSet (LMem (pto 1)) (vv 1);
   SSet (LMem (pto 2)) (vv 2);
   SSet (LMem (pto 3)) (vv 3);
   SSet (LMem (pto 4)) (vv 4);
   SSet (LMem (pto 5)) (vv 5);
   SSet (LMem (pto 6)) (vv 6);
   SSet (LMem (pto 7)) (vv 7);
   SSet (LMem (pto 8)) (vv 8);
   SSet (LMem (pto 9)) (vv 9);
   SSet (LMem (pto 10)) (vv 10);
   SSet (LMem (pto 11)) (vv 11);
   SSet (LMem (pto 12)) (vv 12);
   SSet (LMem (pto 13)) (vv 13);
   SSet (LMem (pto 14)) (vv 14);
   SSet (LMem (pto 15)) (vv 15);
   SSet (LMem (pto 16)) (vv 16);
   SSet (LMem (pto 17)) (vv 17);
   SSet (LMem (pto 18)) (vv 18);
   SSet (LMem (pto 19)) (vv 19);
   SSet (LMem (pto 20)) (vv 20);
   SSet (LMem (pto 21)) (vv 21);
   SSet (LMem (pto 22)) (vv 22);
   SSet (LMem (pto 23)) (vv 23);
   SSet (LMem (pto 24)) (vv 24);
   SSet (LMem (pto 25)) (vv 25);
   SSet (LMem (pto 26)) (vv 26);
   SSet (LMem (pto 27)) (vv 27);
   SSet (LMem (pto 28)) (vv 28);
   SSet (LMem (pto 29)) (vv 29);
   SSet (LMem (pto 30)) (vv 30);
   SSet (LMem (pto 31)) (vv 31)].

(* short_vec_scalar_double_32.hpp:932-1031 *)
Definition scalar_double_32_blend : body :=
  [SIf (ECop OBitAnd EMaskInt (ECop OShl (EInt 1) (EInt 0))) [SSet (LVal (EInt 0)) (oo 0)] [];
   SIf (ECop OBitAnd EMaskInt (ECop OShl (EInt 1) (EInt 1))) [SSet (LVal (EInt 1)) (oo 1)] [];
   SIf (ECop OBitAnd EMaskInt (ECop OShl (EInt 1) (EInt 2))) [SSet (LVal (EInt 2)) (oo 2)] [];
   SIf (ECop OBitAnd EMaskInt (ECop OShl (EInt 1) (EInt 3))) [SSet (LVal (EInt 3)) (oo 3)] [];
   SIf (ECop OBitAnd EMaskInt (ECop OShl (EInt 1) (EInt 4))) [SSet (LVal (EInt 4)) (oo 4)] [];
   SIf (ECop OBitAnd EMaskInt (ECop OShl (EInt 1) (EInt 5))) [SSet (LVal (EInt 5)) (oo 5)] [];
   SIf (ECop OBitAnd EMaskInt (ECop OShl (EInt 1) (EInt 6))) [SSet (LVal (EInt 6)) (oo 6)] [];
   SIf (ECop OBitAnd EMaskInt (ECop OShl (EInt 1) (EInt 7))) [SSet (LVal (EInt 7)) (oo 7)] [];
   SIf (ECop OBitAnd EMaskInt (ECop OShl (EInt 1) (EInt 8))) [SSet (LVal (EInt 8)) (oo 8)] [];
   SIf (ECop OBitAnd EMaskInt (ECop OShl (EInt 1) (EInt 9))) [SSet (LVal (EInt 9)) (oo 9)] [];
   SIf (ECop OBitAnd EMaskInt (ECop OShl (EInt 1) (EInt 10))) [SSet (LVal (EInt 10)) (oo 10)] [];
   SIf (ECop OBitAnd EMaskInt (ECop OShl (EInt 1) (EInt 11))) [SSet (LVal (EInt 11)) (oo 11)] [];
   SIf (ECop OBitAnd EMaskInt (ECop OShl (EInt 1) (EInt 12))) [SSet (LVal (EInt 12)) (oo 12)] [];
   SIf (ECop OBitAnd EMaskInt (ECop OShl (EInt 1) (EInt 13))) [SSet (LVal (EInt 13)) (oo 13)] [];
   SIf (ECop OBitAnd EMaskInt (ECop OShl (EInt 1) (EInt 14))) [SSet (LVal (EInt 14)) (oo 14)] [];
   SIf (ECop OBitAnd EMaskInt (ECop OShl (EInt 1) (EInt 15))) [SSet (LVal (EInt 15)) (oo 15)] [];
   SIf (ECop OBitAnd EMaskInt (ECop OShl (EInt 1) (EInt 16))) [SSet (LVal (EInt 16)) (oo 16)] [];
   SIf (ECop OBitAnd EMaskInt (ECop OShl (EInt 1) (EInt 17))) [SSet (LVal (EInt 17)) (oo 17)] [];
   SIf (ECop OBitAnd EMaskInt (ECop OShl (EInt 1) (EInt 18))) [SSet (LVal (EInt 18)) (oo 18)] [];
   SIf (ECop OBitAnd EMaskInt (ECop OShl (EInt 1) (EInt 19))) [SSet (LVal (EInt 19)) (oo 19)] [];
   SIf (ECop OBitAnd EMaskInt (ECop OShl (EInt 1) (EInt 20))) [SSet (LVal (EInt 20)) (oo 20)] [];
   SIf (ECop OBitAnd EMaskInt (ECop OShl (EInt 1) (EInt 21))) [SSet (LVal (EInt 21)) (oo 21)] [];
   SIf (ECop OBitAnd EMaskInt (ECop OShl (EInt 1) (EInt 22))) [SSet (LVal (EInt 22)) (oo 22)] [];
   SIf (ECop OBitAnd EMaskInt (ECop OShl (EInt 1) (EInt 23))) [SSet (LVal (EInt 23)) (oo 23)] [];
   SIf (ECop OBitAnd EMaskInt (ECop OShl (EInt 1) (EInt 24))) [SSet (LVal (EInt 24)) (oo 24)] [];
   SIf (ECop OBitAnd EMaskInt (ECop OShl (EInt 1) (EInt 25))) [SSet (LVal (EInt 25)) (oo 25)] [];
   SIf (ECop OBitAnd EMaskInt (ECop OShl (EInt 1) (EInt 26))) [SSet (LVal (EInt 26)) (oo 26)] [];
   SIf (ECop OBitAnd EMaskInt (ECop OShl (EInt 1) (EInt 27))) [SSet (LVal (EInt 27)) (oo 27)] [];
   SIf (ECop OBitAnd EMaskInt (ECop OShl (EInt 1) (EInt 28))) [SSet (LVal (EInt 28)) (oo 28)] [];
   SIf (ECop OBitAnd EMaskInt (ECop OShl (EInt 1) (EInt 29))) [SSet (LVal (EInt 29)) (oo 29)] [];
   SIf (ECop OBitAnd EMaskInt (ECop OShl (EInt 1) (EInt 30))) [SSet (LVal (EInt 30)) (oo 30)] [];
   SIf (ECop OBitAnd EMaskInt (EInt 2147483648)) [SSet (LVal (EInt 31)) (oo 31)] []].

(* short_vec_scalar_double_32.hpp:1063-1074 *)
Definition scalar_double_32_print : list item :=
  [PStr "["; PVal (vv 0); PStr ", "; PVal (vv 1); PStr ", "; PVal (vv 2); PStr ", "; PVal (vv 3);
   PStr ", "; PVal (vv 4); PStr ", "; PVal (vv 5); PStr ", "; PVal (vv 6); PStr ", "; PVal (vv 7);
   PStr ", "; PVal (vv 8); PStr ", "; PVal (vv 9); PStr ", "; PVal (vv 10); PStr ", "; PVal (vv
   11); PStr ", "; PVal (vv 12); PStr ", "; PVal (vv 13); PStr ", "; PVal (vv 14); PStr ", "; PVal
   (vv 15); PStr ", "; PVal (vv 16); PStr ", "; PVal (vv 17); PStr ", "; PVal (vv 18); PStr ", ";
   PVal (vv 19); PStr ", "; PVal (vv 20); PStr ", "; PVal (vv 21); PStr ", "; PVal (vv 22); PStr
   ", "; PVal (vv 23); PStr ", "; PVal (vv 24); PStr ", "; PVal (vv 25); PStr ", "; PVal (vv 26);
   PStr ", "; PVal (vv 27); PStr ", "; PVal (vv 28); PStr ", "; PVal (vv 29); PStr ", "; PVal (vv
   30); PStr ", "; PVal (vv 31); PStr "]"].

(* short_vec_scalar_double_32.hpp *)
Definition cls_scalar_double_32 : cls :=
  mkCls "scalar_double_32" KF64 32 32 1 8 (MInt 32)
    (fun m => match m with
     | MCtorScalar => Some scalar_double_32_ctor_scalar
     | MCtorPtr => Some scalar_double_32_ctor_ptr
     | MCtorRegs => Some scalar_double_32_ctor_regs
     | MCtorList => Some scalar_double_32_ctor_list
     | MAny => Some scalar_double_32_any
     | MIndex => Some scalar_double_32_index
     | MSubEq => Some scalar_double_32_sub_eq
     | MSub => Some scalar_double_32_sub
     | MAddEq => Some scalar_double_32_add_eq
     | MAdd => Some scalar_double_32_add
     | MMulEq => Some scalar_double_32_mul_eq
     | MMul => Some scalar_double_32_mul
     | MDivEq => Some scalar_double_32_div_eq
     | MDiv => Some scalar_double_32_div
     | MLt => Some scalar_double_32_lt
     | MLe => Some scalar_double_32_le
     | MEq => Some scalar_double_32_eq
     | MGt => Some scalar_double_32_gt
     | MGe => Some scalar_double_32_ge
     | MSqrt => Some scalar_double_32_sqrt
     | MLoad => Some scalar_double_32_load
     | MLoadAligned => Some scalar_double_32_load_aligned
     | MStore => Some scalar_double_32_store
     | MStoreAligned => Some scalar_double_32_store_aligned
     | MStoreNt => Some scalar_double_32_store_nt
     | MGather => Some scalar_double_32_gather
     | MScatter => Some scalar_double_32_scatter
     | MBlend => Some scalar_double_32_blend
     | _ => None
     end)
    scalar_double_32_ctor_regs scalar_double_32_print.

(* short_vec_scalar_float_1.hpp:63-66 *)
Definition scalar_float_1_ctor_scalar : body :=
  [SSet (LVal (EInt 0)) EArg].

(* short_vec_scalar_float_1.hpp:68-72 *)
Definition scalar_float_1_ctor_ptr : body :=
  [SSet (LVal (EInt 0)) (EIdx EData (EInt 0))].

(* short_vec_scalar_float_1.hpp:75-80 *)
Definition scalar_float_1_ctor_list : body :=
  [SSet (LVal (EInt 0)) (EIdx EData (EInt 0))].

(* short_vec_scalar_float_1.hpp:83-87 *)
Definition scalar_float_1_any : body :=
  [SRet (EBool (ECop ONe (vv 0) (EInt 0)))].

(* short_vec_scalar_float_1.hpp:89-93 *)
Definition scalar_float_1_index : body :=
  [SRet (vv 0)].

(* short_vec_scalar_float_1.hpp:95-99 *)
Definition scalar_float_1_sub_eq : body :=
  [SUpd OSub (LVal (EInt 0)) (oo 0)].

(* short_vec_scalar_float_1.hpp:101-106 *)
Definition scalar_float_1_sub : body :=
  [SRetVec [(ECop OSub (vv 0) (oo 0))]].

(* short_vec_scalar_float_1.hpp:108-112 *)
Definition scalar_float_1_add_eq : body :=
  [SUpd OAdd (LVal (EInt 0)) (oo 0)].

(* short_vec_scalar_float_1.hpp:114-119 *)
Definition scalar_float_1_add : body :=
  [SRetVec [(ECop OAdd (vv 0) (oo 0))]].

(* short_vec_scalar_float_1.hpp:121-125 *)
Definition scalar_float_1_mul_eq : body :=
  [SUpd OMul (LVal (EInt 0)) (oo 0)].

(* short_vec_scalar_float_1.hpp:127-132 *)
Definition scalar_float_1_mul : body :=
  [SRetVec [(ECop OMul (vv 0) (oo 0))]].

(* short_vec_scalar_float_1.hpp:134-138 *)
Definition scalar_float_1_div_eq : body :=
  [SUpd ODiv (LVal (EInt 0)) (oo 0)].

(* short_vec_scalar_float_1.hpp:140-145 *)
Definition scalar_float_1_div : body :=
  [SRetVec [(ECop ODiv (vv 0) (oo 0))]].

(* short_vec_scalar_float_1.hpp:148-152 *)
Definition scalar_float_1_lt : body :=
  [SRet (EMaskType (ECop (ORel RLt) (vv 0) (oo 0)))].

(* short_vec_scalar_float_1.hpp:154-158 *)
Definition scalar_float_1_le : body :=
  [SRet (EMaskType (ECop (ORel RLe) (vv 0) (oo 0)))].

(* short_vec_scalar_float_1.hpp:160-164 *)
Definition scalar_float_1_eq : body :=
  [SRet (EMaskType (ECop (ORel REq) (vv 0) (oo 0)))].

(* short_vec_scalar_float_1.hpp:166-170 *)
Definition scalar_float_1_gt : body :=
  [SRet (EMaskType (ECop (ORel RGt) (vv 0) (oo 0)))].

(* short_vec_scalar_float_1.hpp:172-176 *)
Definition scalar_float_1_ge : body :=
  [SRet (EMaskType (ECop (ORel RGe) (vv 0) (oo 0)))].

(* short_vec_scalar_float_1.hpp:179-183 *)
Definition scalar_float_1_sqrt : body :=
  [SRetVec [(EStdSqrt (vv 0))]].

(* short_vec_scalar_float_1.hpp:185-189 *)
Definition scalar_float_1_load : body :=
  [SSet (LVal (EInt 0)) (EIdx EData (EInt 0))].

(* short_vec_scalar_float_1.hpp:191-195 *)
Definition scalar_float_1_load_aligned : body :=
  [SSet (LVal (EInt 0)) (EIdx EData (EInt 0))].

(* short_vec_scalar_float_1.hpp:197-201 *)
Definition scalar_float_1_store : body :=
  [SSet (LMem (dat 0)) (vv 0)].

(* short_vec_scalar_float_1.hpp:203-207 *)
Definition scalar_float_1_store_aligned : body :=
  [SSet (LMem (dat 0)) (vv 0)].

(* short_vec_scalar_float_1.hpp:209-213 *)
Definition scalar_float_1_store_nt : body :=
  [SSet (LMem (dat 0)) (vv 0)].

(* short_vec_scalar_float_1.hpp:215-219 *)
Definition scalar_float_1_gather : body :=
  [SSet (LVal (EInt 0)) (EIdx EPtr (off 0))].

(* short_vec_scalar_float_1.hpp:221-225 *)
Definition scalar_float_1_scatter : body :=
  [SSet (LMem (pto 0)) (vv 0)].

(* short_vec_scalar_float_1.hpp:227-233 *)
Definition scalar_float_1_blend : body :=
  [SIf (ECop OBitAnd EMaskInt (EInt 1)) [SSet (LVal (EInt 0)) (oo 0)] []].

(* short_vec_scalar_float_1.hpp:266-269 *)
Definition scalar_float_1_print : list item :=
  [PStr "["; PVal (vv 0); PStr "]"].

(* short_vec_scalar_float_1.hpp *)
Definition cls_scalar_float_1 : cls :=
  mkCls "scalar_float_1" KF32 1 1 1 4 (MInt 8)
    (fun m => match m with
     | MCtorScalar => Some scalar_float_1_ctor_scalar
     | MCtorPtr => Some scalar_float_1_ctor_ptr
     | MCtorList => Some scalar_float_1_ctor_list
     | MAny => Some scalar_float_1_any
     | MIndex => Some scalar_float_1_index
     | MSubEq => Some scalar_float_1_sub_eq
     | MSub => Some scalar_float_1_sub
     | MAddEq => Some scalar_float_1_add_eq
     | MAdd => Some scalar_float_1_add
     | MMulEq => Some scalar_float_1_mul_eq
     | MMul => Some scalar_float_1_mul
     | MDivEq => Some scalar_float_1_div_eq
     | MDiv => Some scalar_float_1_div
     | MLt => Some scalar_float_1_lt
     | MLe => Some scalar_float_1_le
     | MEq => Some scalar_float_1_eq
     | MGt => Some scalar_float_1_gt
     | MGe => Some scalar_float_1_ge
     | MSqrt => Some scalar_float_1_sqrt
     | MLoad => Some scalar_float_1_load
     | MLoadAligned => Some scalar_float_1_load_aligned
     | MStore => Some scalar_float_1_store
     | MStoreAligned => Some scalar_float_1_store_aligned
     | MStoreNt => Some scalar_float_1_store_nt
     | MGather => Some scalar_float_1_gather
     | MScatter => Some scalar_float_1_scatter
     | MBlend => Some scalar_float_1_blend
     | _ => None
     end)
    scalar_float_1_ctor_scalar scalar_float_1_print.

(* short_vec_scalar_float_2.hpp:61-65 *)
Definition scalar_float_2_ctor_scalar : body :=
  [SSet (LVal (EInt 0)) EArg;
   SSet (LVal (EInt 1)) EArg].

(* short_vec_scalar_float_2.hpp:67-71 *)
Definition scalar_float_2_ctor_ptr : body :=
  [SSet (LVal (EInt 0)) (EIdx EData (EInt 0));
   SSet (LVal (EInt 1)) (EIdx EData (EInt 1))].

(* short_vec_scalar_float_2.hpp:73-79 *)
Definition scalar_float_2_ctor_regs : body :=
  [SSet (LVal (EInt 0)) (EPar 0);
   SSet (LVal (EInt 1)) (EPar 1)].

(* short_vec_scalar_float_2.hpp:82-87 *)
Definition scalar_float_2_ctor_list : body :=
  [SSet (LVal (EInt 0)) (EIdx EData (EInt 0));
   SSet (LVal (EInt 1)) (EIdx EData (EInt 1))].

(* short_vec_scalar_float_2.hpp:90-96 *)
Definition scalar_float_2_any : body :=
  [SRet (EBool (ECop OLor (vv 0) (vv 1)))].

(* short_vec_scalar_float_2.hpp:98-102 *)
Definition scalar_float_2_index : body :=
  [SRet (EVal (EVar "i"))].

(* short_vec_scalar_float_2.hpp:104-109 *)
Definition scalar_float_2_sub_eq : body :=
  [SUpd OSub (LVal (EInt 0)) (oo 0);
   SUpd OSub (LVal (EInt 1)) (oo 1)].

(* short_vec_scalar_float_2.hpp:111-117 *)
Definition scalar_float_2_sub : body :=
  [SRetVec [(ECop OSub (vv 0) (oo 0)); (ECop OSub (vv 1) (oo 1))]].

(* short_vec_scalar_float_2.hpp:119-124 *)
Definition scalar_float_2_add_eq : body :=
  [SUpd OAdd (LVal (EInt 0)) (oo 0);
   SUpd OAdd (LVal (EInt 1)) (oo 1)].

(* short_vec_scalar_float_2.hpp:126-132 *)
Definition scalar_float_2_add : body :=
  [SRetVec [(ECop OAdd (vv 0) (oo 0)); (ECop OAdd (vv 1) (oo 1))]].

(* short_vec_scalar_float_2.hpp:134-139 *)
Definition scalar_float_2_mul_eq : body :=
  [SUpd OMul (LVal (EInt 0)) (oo 0);
   SUpd OMul (LVal (EInt 1)) (oo 1)].

(* short_vec_scalar_float_2.hpp:141-147 *)
Definition scalar_float_2_mul : body :=
  [SRetVec [(ECop OMul (vv 0) (oo 0)); (ECop OMul (vv 1) (oo 1))]].

(* short_vec_scalar_float_2.hpp:149-154 *)
Definition scalar_float_2_div_eq : body :=
  [SUpd ODiv (LVal (EInt 0)) (oo 0);
   SUpd ODiv (LVal (EInt 1)) (oo 1)].

(* short_vec_scalar_float_2.hpp:156-162 *)
Definition scalar_float_2_div : body :=
  [SRetVec [(ECop ODiv (vv 0) (oo 0)); (ECop ODiv (vv 1) (oo 1))]].

(* short_vec_scalar_float_2.hpp:165-171 *)
Definition scalar_float_2_lt : body :=
  [SRet (EMaskType (ECop OAdd (ECop OShl (ECop (ORel RLt) (vv 0) (oo 0)) (EInt 0)) (ECop OShl (ECop
    (ORel RLt) (vv 1) (oo 1)) (EInt 1))))].

(* short_vec_scalar_float_2.hpp:173-179 *)
Definition scalar_float_2_le : body :=
  [SRet (EMaskType (ECop OAdd (ECop OShl (ECop (ORel RLe) (vv 0) (oo 0)) (EInt 0)) (ECop OShl (ECop
    (ORel RLe) (vv 1) (oo 1)) (EInt 1))))].

(* short_vec_scalar_float_2.hpp:181-187 *)
Definition scalar_float_2_eq : body :=
  [SRet (EMaskType (ECop OAdd (ECop OShl (ECop (ORel REq) (vv 0) (oo 0)) (EInt 0)) (ECop OShl (ECop
    (ORel REq) (vv 1) (oo 1)) (EInt 1))))].

(* short_vec_scalar_float_2.hpp:189-195 *)
Definition scalar_float_2_gt : body :=
  [SRet (EMaskType (ECop OAdd (ECop OShl (ECop (ORel RGt) (vv 0) (oo 0)) (EInt 0)) (ECop OShl (ECop
    (ORel RGt) (vv 1) (oo 1)) (EInt 1))))].

(* short_vec_scalar_float_2.hpp:197-203 *)
Definition scalar_float_2_ge : body :=
  [SRet (EMaskType (ECop OAdd (ECop OShl (ECop (ORel RGe) (vv 0) (oo 0)) (EInt 0)) (ECop OShl (ECop
    (ORel RGe) (vv 1) (oo 1)) (EInt 1))))].

(* short_vec_scalar_float_2.hpp:206-212 *)
Definition scalar_float_2_sqrt : body :=
  [SRetVec [(EStdSqrt (vv 0)); (EStdSqrt (vv 1))]].

(* short_vec_scalar_float_2.hpp:214-219 *)
Definition scalar_float_2_load : body :=
  [SSet (LVal (EInt 0)) (EIdx EData (EInt 0));
   SSet (LVal (EInt 1)) (EIdx EData (EInt 1))].

(* short_vec_scalar_float_2.hpp:221-225 *)
Definition scalar_float_2_load_aligned : body :=
  [SSet (LVal (EInt 0)) (EIdx EData (EInt 0));
   SSet (LVal (EInt 1)) (EIdx EData (EInt 1))].

(* short_vec_scalar_float_2.hpp:227-232 *)
Definition scalar_float_2_store : body :=
  [SSet (LMem (dat 0)) (vv 0);
   SSet (LMem (dat 1)) (vv 1)].

(* short_vec_scalar_float_2.hpp:234-238 *)
Definition scalar_float_2_store_aligned : body :=
  [SSet (LMem (dat 0)) (vv 0);
   SSet (LMem (dat 1)) (vv 1)].

(* short_vec_scalar_float_2.hpp:240-244 *)
Definition scalar_float_2_store_nt : body :=
  [SSet (LMem (dat 0)) (vv 0);
   SSet (LMem (dat 1)) (vv 1)].

(* short_vec_scalar_float_2.hpp:246-251 *)
Definition scalar_float_2_gather : body :=
  [SSet (LVal (EInt 0)) (EIdx EPtr (off 0));
   SSet (LVal (EInt 1)) (EIdx EPtr (off 1))].

(* short_vec_scalar_float_2.hpp:253-258 *)
Definition scalar_float_2_scatter : body :=
  [SSet (LMem (pto 0)) (vv 0);
   SSet (LMem (pto 1)) (vv 1)].

(* short_vec_scalar_float_2.hpp:260-269 *)
Definition scalar_float_2_blend : body :=
  [SIf (ECop OBitAnd EMaskInt (ECop OShl (EInt 1) (EInt 0))) [SSet (LVal (EInt 0)) (oo 0)] [];
   SIf (ECop OBitAnd EMaskInt (ECop OShl (EInt 1) (EInt 1))) [SSet (LVal (EInt 1)) (oo 1)] []].

(* short_vec_scalar_float_2.hpp:302-306 *)
Definition scalar_float_2_print : list item :=
  [PStr "["; PVal (vv 0); PStr ", "; PVal (vv 1); PStr "]"].

(* short_vec_scalar_float_2.hpp *)
Definition cls_scalar_float_2 : cls :=
  mkCls "scalar_float_2" KF32 2 2 1 4 (MInt 8)
    (fun m => match m with
     | MCtorScalar => Some scalar_float_2_ctor_scalar
     | MCtorPtr => Some scalar_float_2_ctor_ptr
     | MCtorRegs => Some scalar_float_2_ctor_regs
     | MCtorList => Some scalar_float_2_ctor_list
     | MAny => Some scalar_float_2_any
     | MIndex => Some scalar_float_2_index
     | MSubEq => Some scalar_float_2_sub_eq
     | MSub => Some scalar_float_2_sub
     | MAddEq => Some scalar_float_2_add_eq
     | MAdd => Some scalar_float_2_add
     | MMulEq => Some scalar_float_2_mul_eq
     | MMul => Some scalar_float_2_mul
     | MDivEq => Some scalar_float_2_div_eq
     | MDiv => Some scalar_float_2_div
     | MLt => Some scalar_float_2_lt
     | MLe => Some scalar_float_2_le
     | MEq => Some scalar_float_2_eq
     | MGt => Some scalar_float_2_gt
     | MGe => Some scalar_float_2_ge
     | MSqrt => Some scalar_float_2_sqrt
     | MLoad => Some scalar_float_2_load
     | MLoadAligned => Some scalar_float_2_load_aligned
     | MStore => Some scalar_float_2_store
     | MStoreAligned => Some scalar_float_2_store_aligned
     | MStoreNt => Some scalar_float_2_store_nt
     | MGather => Some scalar_float_2_gather
     | MScatter => Some scalar_float_2_scatter
     | MBlend => Some scalar_float_2_blend
     | _ => None
     end)
    scalar_float_2_ctor_regs scalar_float_2_print.

(* short_vec_scalar_float_4.hpp:65-71 *)
Definition scalar_float_4_ctor_scalar : body :=
  [SSet (LVal (EInt 0)) EArg;
   SSet (LVal (EInt 1)) EArg;
   SSet (LVal (EInt 2)) EArg;
   SSet (LVal (EInt 3)) EArg].

(* short_vec_scalar_float_4.hpp:73-77 *)
Definition scalar_float_4_ctor_ptr : body :=
  [SSet (LVal (EInt 0)) (EIdx EData (EInt 0));
   SSet (LVal (EInt 1)) (EIdx EData (EInt 1));
   SSet (LVal (EInt 2)) (EIdx EData (EInt 2));
   SSet (LVal (EInt 3)) (EIdx EData (EInt 3))].

(* short_vec_scalar_float_4.hpp:79-89 *)
Definition scalar_float_4_ctor_regs : body :=
  [SSet (LVal (EInt 0)) (EPar 0);
   SSet (LVal (EInt 1)) (EPar 1);
   SSet (LVal (EInt 2)) (EPar 2);
   SSet (LVal (EInt 3)) (EPar 3)].

(* short_vec_scalar_float_4.hpp:92-97 *)
Definition scalar_float_4_ctor_list : body :=
  [SSet (LVal (EInt 0)) (EIdx EData (EInt 0));
   SSet (LVal (EInt 1)) (EIdx EData (EInt 1));
   SSet (LVal (EInt 2)) (EIdx EData (EInt 2));
   SSet (LVal (EInt 3)) (EIdx EData (EInt 3))].

(* short_vec_scalar_float_4.hpp:100-108 *)
Definition scalar_float_4_any : body :=
  [SRet (EBool (ECop OLor (ECop OLor (ECop OLor (vv 0) (vv 1)) (vv 2)) (vv 3)))].

(* short_vec_scalar_float_4.hpp:110-114 *)
Definition scalar_float_4_index : body :=
  [SRet (EVal (EVar "i"))].

(* short_vec_scalar_float_4.hpp:116-123 *)
Definition scalar_float_4_sub_eq : body :=
  [SUpd OSub (LVal (EInt 0)) (oo 0);
   SUpd OSub (LVal (EInt 1)) (oo 1);
   SUpd OSub (LVal (EInt 2)) (oo 2);
   SUpd OSub (LVal (EInt 3)) (oo 3)].

(* short_vec_scalar_float_4.hpp:125-133 *)
Definition scalar_float_4_sub : body :=
  [SRetVec [(ECop OSub (vv 0) (oo 0)); (ECop OSub (vv 1) (oo 1)); (ECop OSub (vv 2) (oo 2)); (ECop
    OSub (vv 3) (oo 3))]].

(* short_vec_scalar_float_4.hpp:135-142 *)
Definition scalar_float_4_add_eq : body :=
  [SUpd OAdd (LVal (EInt 0)) (oo 0);
   SUpd OAdd (LVal (EInt 1)) (oo 1);
   SUpd OAdd (LVal (EInt 2)) (oo 2);
   SUpd OAdd (LVal (EInt 3)) (oo 3)].

(* short_vec_scalar_float_4.hpp:144-152 *)
Definition scalar_float_4_add : body :=
  [SRetVec [(ECop OAdd (vv 0) (oo 0)); (ECop OAdd (vv 1) (oo 1)); (ECop OAdd (vv 2) (oo 2)); (ECop
    OAdd (vv 3) (oo 3))]].

(* short_vec_scalar_float_4.hpp:154-161 *)
Definition scalar_float_4_mul_eq : body :=
  [SUpd OMul (LVal (EInt 0)) (oo 0);
   SUpd OMul (LVal (EInt 1)) (oo 1);
   SUpd OMul (LVal (EInt 2)) (oo 2);
   SUpd OMul (LVal (EInt 3)) (oo 3)].

(* short_vec_scalar_float_4.hpp:163-171 *)
Definition scalar_float_4_mul : body :=
  [SRetVec [(ECop OMul (vv 0) (oo 0)); (ECop OMul (vv 1) (oo 1)); (ECop OMul (vv 2) (oo 2)); (ECop
    OMul (vv 3) (oo 3))]].

(* short_vec_scalar_float_4.hpp:173-180 *)
Definition scalar_float_4_div_eq : body :=
  [SUpd ODiv (LVal (EInt 0)) (oo 0);
   SUpd ODiv (LVal (EInt 1)) (oo 1);
   SUpd ODiv (LVal (EInt 2)) (oo 2);
   SUpd ODiv (LVal (EInt 3)) (oo 3)].

(* short_vec_scalar_float_4.hpp:182-190 *)
Definition scalar_float_4_div : body :=
  [SRetVec [(ECop ODiv (vv 0) (oo 0)); (ECop ODiv (vv 1) (oo 1)); (ECop ODiv (vv 2) (oo 2)); (ECop
    ODiv (vv 3) (oo 3))]].

(* short_vec_scalar_float_4.hpp:193-201 *)
Definition scalar_float_4_lt : body :=
  [SRet (EMaskType (ECop OAdd (ECop OAdd (ECop OAdd (ECop OShl (ECop (ORel RLt) (vv 0) (oo 0))
    (EInt 0)) (ECop OShl (ECop (ORel RLt) (vv 1) (oo 1)) (EInt 1))) (ECop OShl (ECop (ORel RLt) (vv
    2) (oo 2)) (EInt 2))) (ECop OShl (ECop (ORel RLt) (vv 3) (oo 3)) (EInt 3))))].

(* short_vec_scalar_float_4.hpp:203-211 *)
Definition scalar_float_4_le : body :=
  [SRet (EMaskType (ECop OAdd (ECop OAdd (ECop OAdd (ECop OShl (ECop (ORel RLe) (vv 0) (oo 0))
    (EInt 0)) (ECop OShl (ECop (ORel RLe) (vv 1) (oo 1)) (EInt 1))) (ECop OShl (ECop (ORel RLe) (vv
    2) (oo 2)) (EInt 2))) (ECop OShl (ECop (ORel RLe) (vv 3) (oo 3)) (EInt 3))))].

(* short_vec_scalar_float_4.hpp:213-221 *)
Definition scalar_float_4_eq : body :=
  [SRet (EMaskType (ECop OAdd (ECop OAdd (ECop OAdd (ECop OShl (ECop (ORel REq) (vv 0) (oo 0))
    (EInt 0)) (ECop OShl (ECop (ORel REq) (vv 1) (oo 1)) (EInt 1))) (ECop OShl (ECop (ORel REq) (vv
    2) (oo 2)) (EInt 2))) (ECop OShl (ECop (ORel REq) (vv 3) (oo 3)) (EInt 3))))].

(* short_vec_scalar_float_4.hpp:223-231 *)
Definition scalar_float_4_gt : body :=
  [SRet (EMaskType (ECop OAdd (ECop OAdd (ECop OAdd (ECop OShl (ECop (ORel RGt) (vv 0) (oo 0))
    (EInt 0)) (ECop OShl (ECop (ORel RGt) (vv 1) (oo 1)) (EInt 1))) (ECop OShl (ECop (ORel RGt) (vv
    2) (oo 2)) (EInt 2))) (ECop OShl (ECop (ORel RGt) (vv 3) (oo 3)) (EInt 3))))].

(* short_vec_scalar_float_4.hpp:233-241 *)
Definition scalar_float_4_ge : body :=
  [SRet (EMaskType (ECop OAdd (ECop OAdd (ECop OAdd (ECop OShl (ECop (ORel RGe) (vv 0) (oo 0))
    (EInt 0)) (ECop OShl (ECop (ORel RGe) (vv 1) (oo 1)) (EInt 1))) (ECop OShl (ECop (ORel RGe) (vv
    2) (oo 2)) (EInt 2))) (ECop OShl (ECop (ORel RGe) (vv 3) (oo 3)) (EInt 3))))].

(* short_vec_scalar_float_4.hpp:244-252 *)
Definition scalar_float_4_sqrt : body :=
  [SRetVec [(EStdSqrt (vv 0)); (EStdSqrt (vv 1)); (EStdSqrt (vv 2)); (EStdSqrt (vv 3))]].

(* short_vec_scalar_float_4.hpp:254-261 *)
Definition scalar_float_4_load : body :=
  [SSet (LVal (EInt 0)) (EIdx EData (EInt 0));
   SSet (LVal (EInt 1)) (EIdx EData (EInt 1));
   SSet (LVal (EInt 2)) (EIdx EData (EInt 2));
   SSet (LVal (EInt 3)) (EIdx EData (EInt 3))].

(* short_vec_scalar_float_4.hpp:263-267 *)
Definition scalar_float_4_load_aligned : body :=
  [SSet (LVal (EInt 0)) (EIdx EData (EInt 0));
   SSet (LVal (EInt 1)) (EIdx EData (EInt 1));
   SSet (LVal (EInt 2)) (EIdx EData (EInt 2));
   SSet (LVal (EInt 3)) (EIdx EData (EInt 3))].

(* short_vec_scalar_float_4.hpp:269-276 *)
Definition scalar_float_4_store : body :=
  [SSet (LMem (dat 0)) (vv 0);
   SSet (LMem (dat 1)) (vv 1);
   SSet (LMem (dat 2)) (vv 2);
   SSet (LMem (dat 3)) (vv 3)].

(* short_vec_scalar_float_4.hpp:278-282 *)
Definition scalar_float_4_store_aligned : body :=
  [SSet (LMem (dat 0)) (vv 0);
   SSet (LMem (dat 1)) (vv 1);
   SSet (LMem (dat 2)) (vv 2);
   SSet (LMem (dat 3)) (vv 3)].

(* short_vec_scalar_float_4.hpp:284-288 *)
Definition scalar_float_4_store_nt : body :=
  [SSet (LMem (dat 0)) (vv 0);
   SSet (LMem (dat 1)) (vv 1);
   SSet (LMem (dat 2)) (vv 2);
   SSet (LMem (dat 3)) (vv 3)].

(* short_vec_scalar_float_4.hpp:290-297 *)
Definition scalar_float_4_gather : body :=
  [SSet (LVal (EInt 0)) (EIdx EPtr (off 0));
   SSet (LVal (EInt 1)) (EIdx EPtr (off 1));
   SSet (LVal (EInt 2)) (EIdx EPtr (off 2));
   SSet (LVal (EInt 3)) (EIdx EPtr (off 3))].

(* short_vec_scalar_float_4.hpp:299-306 *)
Definition scalar_float_4_scatter : body :=
  [SSet (LMem (pto 0)) (vv 0);
   SSet (LMem (pto 1)) (vv 1);
   SSet (LMem (pto 2)) (vv 2);
   SSet (LMem (pto 3)) (vv 3)].

(* short_vec_scalar_float_4.hpp:308-323 *)
Definition scalar_float_4_blend : body :=
  [SIf (ECop OBitAnd EMaskInt (ECop OShl (EInt 1) (EInt 0))) [SSet (LVal (EInt 0)) (oo 0)] [];
   SIf (ECop OBitAnd EMaskInt (ECop OShl (EInt 1) (EInt 1))) [SSet (LVal (EInt 1)) (oo 1)] [];
   SIf (ECop OBitAnd EMaskInt (ECop OShl (EInt 1) (EInt 2))) [SSet (LVal (EInt 2)) (oo 2)] [];
   SIf (ECop OBitAnd EMaskInt (ECop OShl (EInt 1) (EInt 3))) [SSet (LVal (EInt 3)) (oo 3)] []].

(* short_vec_scalar_float_4.hpp:355-362 *)
Definition scalar_float_4_print : list item :=
  [PStr "["; PVal (vv 0); PStr ", "; PVal (vv 1); PStr ", "; PVal (vv 2); PStr ", "; PVal (vv 3);
   PStr "]"].

(* short_vec_scalar_float_4.hpp *)
Definition cls_scalar_float_4 : cls :=
  mkCls "scalar_float_4" KF32 4 4 1 4 (MInt 8)
    (fun m => match m with
     | MCtorScalar => Some scalar_float_4_ctor_scalar
     | MCtorPtr => Some scalar_float_4_ctor_ptr
     | MCtorRegs => Some scalar_float_4_ctor_regs
     | MCtorList => Some scalar_float_4_ctor_list
     | MAny => Some scalar_float_4_any
     | MIndex => Some scalar_float_4_index
     | MSubEq => Some scalar_float_4_sub_eq
     | MSub => Some scalar_float_4_sub
     | MAddEq => Some scalar_float_4_add_eq
     | MAdd => Some scalar_float_4_add
     | MMulEq => Some scalar_float_4_mul_eq
     | MMul => Some scalar_float_4_mul
     | MDivEq => Some scalar_float_4_div_eq
     | MDiv => Some scalar_float_4_div
     | MLt => Some scalar_float_4_lt
     | MLe => Some scalar_float_4_le
     | MEq => Some scalar_float_4_eq
     | MGt => Some scalar_float_4_gt
     | MGe => Some scalar_float_4_ge
     | MSqrt => Some scalar_float_4_sqrt
     | MLoad => Some scalar_float_4_load
     | MLoadAligned => Some scalar_float_4_load_aligned
     | MStore => Some scalar_float_4_store
     | MStoreAligned => Some scalar_float_4_store_aligned
     | MStoreNt => Some scalar_float_4_store_nt
     | MGather => Some scalar_float_4_gather
     | MScatter => Some scalar_float_4_scatter
     | MBlend => Some scalar_float_4_blend
     | _ => None
     end)
    scalar_float_4_ctor_regs scalar_float_4_print.

(* short_vec_scalar_float_8.hpp:67-77 *)
Definition scalar_float_8_ctor_scalar : body :=
  [SSet (LVal (EInt 0)) EArg;
   SSet (LVal (EInt 1)) EArg;
   SSet (LVal (EInt 2)) EArg;
   SSet (LVal (EInt 3)) EArg;
   SSet (LVal (EInt 4)) EArg;
   SSet (LVal (EInt 5)) EArg;
   SSet (LVal (EInt 6)) EArg;
   SSet (LVal (EInt 7)) EArg].

(* short_vec_scalar_float_8.hpp:79-83 *)
Definition scalar_float_8_ctor_ptr : body :=
  [SSet (LVal (EInt 0)) (EIdx EData (EInt 0));
   SSet (LVal (EInt 1)) (EIdx EData (EInt 1));
   SSet (LVal (EInt 2)) (EIdx EData (EInt 2));
   SSet (LVal (EInt 3)) (EIdx EData (EInt 3));
   SSet (LVal (EInt 4)) (EIdx EData (EInt 4));
   SSet (LVal (EInt 5)) (EIdx EData (EInt 5));
   SSet (LVal (EInt 6)) (EIdx EData (EInt 6));
   SSet (LVal (EInt 7)) (EIdx EData (EInt 7))].

(* short_vec_scalar_float_8.hpp:85-103 *)
Definition scalar_float_8_ctor_regs : body :=
  [SSet (LVal (EInt 0)) (EPar 0);
   SSet (LVal (EInt 1)) (EPar 1);
   SSet (LVal (EInt 2)) (EPar 2);
   SSet (LVal (EInt 3)) (EPar 3);
   SSet (LVal (EInt 4)) (EPar 4);
   SSet (LVal (EInt 5)) (EPar 5);
   SSet (LVal (EInt 6)) (EPar 6);
   SSet (LVal (EInt 7)) (EPar 7)].

(* short_vec_scalar_float_8.hpp:106-111 *)
Definition scalar_float_8_ctor_list : body :=
  [SSet (LVal (EInt 0)) (EIdx EData (EInt 0));
   SSet (LVal (EInt 1)) (EIdx EData (EInt 1));
   SSet (LVal (EInt 2)) (EIdx EData (EInt 2));
   SSet (LVal (EInt 3)) (EIdx EData (EInt 3));
   SSet (LVal (EInt 4)) (EIdx EData (EInt 4));
   SSet (LVal (EInt 5)) (EIdx EData (EInt 5));
   SSet (LVal (EInt 6)) (EIdx EData (EInt 6));
   SSet (LVal (EInt 7)) (EIdx EData (EInt 7))].

(* short_vec_scalar_float_8.hpp:114-126 *)
Definition scalar_float_8_any : body :=
  [SRet (EBool (ECop OLor (ECop OLor (ECop OLor (ECop OLor (ECop OLor (ECop OLor (ECop OLor (vv 0)
    (vv 1)) (vv 2)) (vv 3)) (vv 4)) (vv 5)) (vv 6)) (vv 7)))].

(* short_vec_scalar_float_8.hpp:128-132 *)
Definition scalar_float_8_index : body :=
  [SRet (EVal (EVar "i"))].

(* short_vec_scalar_float_8.hpp:134-145 *)
Definition scalar_float_8_sub_eq : body :=
  [SUpd OSub (LVal (EInt 0)) (oo 0);
   SUpd OSub (LVal (EInt 1)) (oo 1);
   SUpd OSub (LVal (EInt 2)) (oo 2);
   SUpd OSub (LVal (EInt 3)) (oo 3);
   SUpd OSub (LVal (EInt 4)) (oo 4);
   SUpd OSub (LVal (EInt 5)) (oo 5);
   SUpd OSub (LVal (EInt 6)) (oo 6);
   SUpd OSub (LVal (EInt 7)) (oo 7)].

(* short_vec_scalar_float_8.hpp:147-159 *)
Definition scalar_float_8_sub : body :=
  [SRetVec [(ECop OSub (vv 0) (oo 0)); (ECop OSub (vv 1) (oo 1)); (ECop OSub (vv 2) (oo 2)); (ECop
    OSub (vv 3) (oo 3)); (ECop OSub (vv 4) (oo 4)); (ECop OSub (vv 5) (oo 5)); (ECop OSub (vv 6) (oo
    6)); (ECop OSub (vv 7) (oo 7))]].

(* short_vec_scalar_float_8.hpp:161-172 *)
Definition scalar_float_8_add_eq : body :=
  [SUpd OAdd (LVal (EInt 0)) (oo 0);
   SUpd OAdd (LVal (EInt 1)) (oo 1);
   SUpd OAdd (LVal (EInt 2)) (oo 2);
   SUpd OAdd (LVal (EInt 3)) (oo 3);
   SUpd OAdd (LVal (EInt 4)) (oo 4);
   SUpd OAdd (LVal (EInt 5)) (oo 5);
   SUpd OAdd (LVal (EInt 6)) (oo 6);
   SUpd OAdd (LVal (EInt 7)) (oo 7)].

(* short_vec_scalar_float_8.hpp:174-186 *)
Definition scalar_float_8_add : body :=
  [SRetVec [(ECop OAdd (vv 0) (oo 0)); (ECop OAdd (vv 1) (oo 1)); (ECop OAdd (vv 2) (oo 2)); (ECop
    OAdd (vv 3) (oo 3)); (ECop OAdd (vv 4) (oo 4)); (ECop OAdd (vv 5) (oo 5)); (ECop OAdd (vv 6) (oo
    6)); (ECop OAdd (vv 7) (oo 7))]].

(* short_vec_scalar_float_8.hpp:188-199 *)
Definition scalar_float_8_mul_eq : body :=
  [SUpd OMul (LVal (EInt 0)) (oo 0);
   SUpd OMul (LVal (EInt 1)) (oo 1);
   SUpd OMul (LVal (EInt 2)) (oo 2);
   SUpd OMul (LVal (EInt 3)) (oo 3);
   SUpd OMul (LVal (EInt 4)) (oo 4);
   SUpd OMul (LVal (EInt 5)) (oo 5);
   SUpd OMul (LVal (EInt 6)) (oo 6);
   SUpd OMul (LVal (EInt 7)) (oo 7)].

(* short_vec_scalar_float_8.hpp:201-213 *)
Definition scalar_float_8_mul : body :=
  [SRetVec [(ECop OMul (vv 0) (oo 0)); (ECop OMul (vv 1) (oo 1)); (ECop OMul (vv 2) (oo 2)); (ECop
    OMul (vv 3) (oo 3)); (ECop OMul (vv 4) (oo 4)); (ECop OMul (vv 5) (oo 5)); (ECop OMul (vv 6) (oo
    6)); (ECop OMul (vv 7) (oo 7))]].

(* short_vec_scalar_float_8.hpp:215-226 *)
Definition scalar_float_8_div_eq : body :=
  [SUpd ODiv (LVal (EInt 0)) (oo 0);
   SUpd ODiv (LVal (EInt 1)) (oo 1);
   SUpd ODiv (LVal (EInt 2)) (oo 2);
   SUpd ODiv (LVal (EInt 3)) (oo 3);
   SUpd ODiv (LVal (EInt 4)) (oo 4);
   SUpd ODiv (LVal (EInt 5)) (oo 5);
   SUpd ODiv (LVal (EInt 6)) (oo 6);
   SUpd ODiv (LVal (EInt 7)) (oo 7)].

(* short_vec_scalar_float_8.hpp:228-240 *)
Definition scalar_float_8_div : body :=
  [SRetVec [(ECop ODiv (vv 0) (oo 0)); (ECop ODiv (vv 1) (oo 1)); (ECop ODiv (vv 2) (oo 2)); (ECop
    ODiv (vv 3) (oo 3)); (ECop ODiv (vv 4) (oo 4)); (ECop ODiv (vv 5) (oo 5)); (ECop ODiv (vv 6) (oo
    6)); (ECop ODiv (vv 7) (oo 7))]].

(* short_vec_scalar_float_8.hpp:243-255 *)
Definition scalar_float_8_lt : body :=
  [SRet (EMaskType (ECop OAdd (ECop OAdd (ECop OAdd (ECop OAdd (ECop OAdd (ECop OAdd (ECop OAdd
    (ECop OShl (ECop (ORel RLt) (vv 0) (oo 0)) (EInt 0)) (ECop OShl (ECop (ORel RLt) (vv 1) (oo 1))
    (EInt 1))) (ECop OShl (ECop (ORel RLt) (vv 2) (oo 2)) (EInt 2))) (ECop OShl (ECop (ORel RLt) (vv
    3) (oo 3)) (EInt 3))) (ECop OShl (ECop (ORel RLt) (vv 4) (oo 4)) (EInt 4))) (ECop OShl (ECop
    (ORel RLt) (vv 5) (oo 5)) (EInt 5))) (ECop OShl (ECop (ORel RLt) (vv 6) (oo 6)) (EInt 6))) (ECop
    OShl (ECop (ORel RLt) (vv 7) (oo 7)) (EInt 7))))].

(* short_vec_scalar_float_8.hpp:257-269 *)
Definition scalar_float_8_le : body :=
  [SRet (EMaskType (ECop OAdd (ECop OAdd (ECop OAdd (ECop OAdd (ECop OAdd (ECop OAdd (ECop OAdd
    (ECop OShl (ECop (ORel RLe) (vv 0) (oo 0)) (EInt 0)) (ECop OShl (ECop (ORel RLe) (vv 1) (oo 1))
    (EInt 1))) (ECop OShl (ECop (ORel RLe) (vv 2) (oo 2)) (EInt 2))) (ECop OShl (ECop (ORel RLe) (vv
    3) (oo 3)) (EInt 3))) (ECop OShl (ECop (ORel RLe) (vv 4) (oo 4)) (EInt 4))) (ECop OShl (ECop
    (ORel RLe) (vv 5) (oo 5)) (EInt 5))) (ECop OShl (ECop (ORel RLe) (vv 6) (oo 6)) (EInt 6))) (ECop
    OShl (ECop (ORel RLe) (vv 7) (oo 7)) (EInt 7))))].

(* short_vec_scalar_float_8.hpp:271-283 *)
Definition scalar_float_8_eq : body :=
  [SRet (EMaskType (ECop OAdd (ECop OAdd (ECop OAdd (ECop OAdd (ECop OAdd (ECop OAdd (ECop OAdd
    (ECop OShl (ECop (ORel REq) (vv 0) (oo 0)) (EInt 0)) (ECop OShl (ECop (ORel REq) (vv 1) (oo 1))
    (EInt 1))) (ECop OShl (ECop (ORel REq) (vv 2) (oo 2)) (EInt 2))) (ECop OShl (ECop (ORel REq) (vv
    3) (oo 3)) (EInt 3))) (ECop OShl (ECop (ORel REq) (vv 4) (oo 4)) (EInt 4))) (ECop OShl (ECop
    (ORel REq) (vv 5) (oo 5)) (EInt 5))) (ECop OShl (ECop (ORel REq) (vv 6) (oo 6)) (EInt 6))) (ECop
    OShl (ECop (ORel REq) (vv 7) (oo 7)) (EInt 7))))].

(* short_vec_scalar_float_8.hpp:285-297 *)
Definition scalar_float_8_gt : body :=
  [SRet (EMaskType (ECop OAdd (ECop OAdd (ECop OAdd (ECop OAdd (ECop OAdd (ECop OAdd (ECop OAdd
    (ECop OShl (ECop (ORel RGt) (vv 0) (oo 0)) (EInt 0)) (ECop OShl (ECop (ORel RGt) (vv 1) (oo 1))
    (EInt 1))) (ECop OShl (ECop (ORel RGt) (vv 2) (oo 2)) (EInt 2))) (ECop OShl (ECop (ORel RGt) (vv
    3) (oo 3)) (EInt 3))) (ECop OShl (ECop (ORel RGt) (vv 4) (oo 4)) (EInt 4))) (ECop OShl (ECop
    (ORel RGt) (vv 5) (oo 5)) (EInt 5))) (ECop OShl (ECop (ORel RGt) (vv 6) (oo 6)) (EInt 6))) (ECop
    OShl (ECop (ORel RGt) (vv 7) (oo 7)) (EInt 7))))].

(* short_vec_scalar_float_8.hpp:299-311 *)
Definition scalar_float_8_ge : body :=
  [SRet (EMaskType (ECop OAdd (ECop OAdd (ECop OAdd (ECop OAdd (ECop OAdd (ECop OAdd (ECop OAdd
    (ECop OShl (ECop (ORel RGe) (vv 0) (oo 0)) (EInt 0)) (ECop OShl (ECop (ORel RGe) (vv 1) (oo 1))
    (EInt 1))) (ECop OShl (ECop (ORel RGe) (vv 2) (oo 2)) (EInt 2))) (ECop OShl (ECop (ORel RGe) (vv
    3) (oo 3)) (EInt 3))) (ECop OShl (ECop (ORel RGe) (vv 4) (oo 4)) (EInt 4))) (ECop OShl (ECop
    (ORel RGe) (vv 5) (oo 5)) (EInt 5))) (ECop OShl (ECop (ORel RGe) (vv 6) (oo 6)) (EInt 6))) (ECop
    OShl (ECop (ORel RGe) (vv 7) (oo 7)) (EInt 7))))].

(* short_vec_scalar_float_8.hpp:314-326 *)
Definition scalar_float_8_sqrt : body :=
  [SRetVec [(EStdSqrt (vv 0)); (EStdSqrt (vv 1)); (EStdSqrt (vv 2)); (EStdSqrt (vv 3)); (EStdSqrt
    (vv 4)); (EStdSqrt (vv 5)); (EStdSqrt (vv 6)); (EStdSqrt (vv 7))]].

(* short_vec_scalar_float_8.hpp:328-339 *)
Definition scalar_float_8_load : body :=
  [SSet (LVal (EInt 0)) (EIdx EData (EInt 0));
   SSet (LVal (EInt 1)) (EIdx EData (EInt 1));
   SSet (LVal (EInt 2)) (EIdx EData (EInt 2));
   SSet (LVal (EInt 3)) (EIdx EData (EInt 3));
   SSet (LVal (EInt 4)) (EIdx EData (EInt 4));
   SSet (LVal (EInt 5)) (EIdx EData (EInt 5));
   SSet (LVal (EInt 6)) (EIdx EData (EInt 6));
   SSet (LVal (EInt 7)) (EIdx EData (EInt 7))].

(* short_vec_scalar_float_8.hpp:341-345 *)
Definition scalar_float_8_load_aligned : body :=
  [SSet (LVal (EInt 0)) (EIdx EData (EInt 0));
   SSet (LVal (EInt 1)) (EIdx EData (EInt 1));
   SSet (LVal (EInt 2)) (EIdx EData (EInt 2));
   SSet (LVal (EInt 3)) (EIdx EData (EInt 3));
   SSet (LVal (EInt 4)) (EIdx EData (EInt 4));
   SSet (LVal (EInt 5)) (EIdx EData (EInt 5));
   SSet (LVal (EInt 6)) (EIdx EData (EInt 6));
   SSet (LVal (EInt 7)) (EIdx EData (EInt 7))].

(* short_vec_scalar_float_8.hpp:347-358 *)
Definition scalar_float_8_store : body :=
  [SSet (LMem (dat 0)) (vv 0);
   SSet (LMem (dat 1)) (vv 1);
   SSet (LMem (dat 2)) (vv 2);
   SSet (LMem (dat 3)) (vv 3);
   SSet (LMem (dat 4)) (vv 4);
   SSet (LMem (dat 5)) (vv 5);
   SSet (LMem (dat 6)) (vv 6);
   SSet (LMem (dat 7)) (vv 7)].

(* short_vec_scalar_float_8.hpp:360-364 *)
Definition scalar_float_8_store_aligned : body :=
  [SSet (LMem (dat 0)) (vv 0);
   SSet (LMem (dat 1)) (vv 1);
   SSet (LMem (dat 2)) (vv 2);
   SSet (LMem (dat 3)) (vv 3);
   SSet (LMem (dat 4)) (vv 4);
   SSet (LMem (dat 5)) (vv 5);
   SSet (LMem (dat 6)) (vv 6);
   SSet (LMem (dat 7)) (vv 7)].

(* short_vec_scalar_float_8.hpp:366-370 *)
Definition scalar_float_8_store_nt : body :=
  [SSet (LMem (dat 0)) (vv 0);
   SSet (LMem (dat 1)) (vv 1);
   SSet (LMem (dat 2)) (vv 2);
   SSet (LMem (dat 3)) (vv 3);
   SSet (LMem (dat 4)) (vv 4);
   SSet (LMem (dat 5)) (vv 5);
   SSet (LMem (dat 6)) (vv 6);
   SSet (LMem (dat 7)) (vv 7)].

(* short_vec_scalar_float_8.hpp:372-383 *)
Definition scalar_float_8_gather : body :=
  [SSet (LVal (EInt 0)) (EIdx EPtr (off 0));
   SSet (LVal (EInt 1)) (EIdx EPtr (off 1));
   SSet (LVal (EInt 2)) (EIdx EPtr (off 2));
   SSet (LVal (EInt 3)) (EIdx EPtr (off 3));
   SSet (LVal (EInt 4)) (EIdx EPtr (off 4));
   SSet (LVal (EInt 5)) (EIdx EPtr (off 5));
   SSet (LVal (EInt 6)) (EIdx EPtr (off 6));
   SSet (LVal (EInt 7)) (EIdx EPtr (off 7))].

(* short_vec_scalar_float_8.hpp:385-396 *)
Definition scalar_float_8_scatter : body :=
  [SSet (LMem (pto 0)) (vv 0);
   SSet (LMem (pto 1)) (vv 1);
   SSet (LMem (pto 2)) (vv 2);
   SSet (LMem (pto 3)) (vv 3);
   SSet (LMem (pto 4)) (vv 4);
   SSet (LMem (pto 5)) (vv 5);
   SSet (LMem (pto 6)) (vv 6);
   SSet (LMem (pto 7)) (vv 7)].

(* short_vec_scalar_float_8.hpp:398-425 *)
Definition scalar_float_8_blend : body :=
  [SIf (ECop OBitAnd EMaskInt (ECop OShl (EInt 1) (EInt 0))) [SSet (LVal (EInt 0)) (oo 0)] [];
   SIf (ECop OBitAnd EMaskInt (ECop OShl (EInt 1) (EInt 1))) [SSet (LVal (EInt 1)) (oo 1)] [];
   SIf (ECop OBitAnd EMaskInt (ECop OShl (EInt 1) (EInt 2))) [SSet (LVal (EInt 2)) (oo 2)] [];
   SIf (ECop OBitAnd EMaskInt (ECop OShl (EInt 1) (EInt 3))) [SSet (LVal (EInt 3)) (oo 3)] [];
   SIf (ECop OBitAnd EMaskInt (ECop OShl (EInt 1) (EInt 4))) [SSet (LVal (EInt 4)) (oo 4)] [];
   SIf (ECop OBitAnd EMaskInt (ECop OShl (EInt 1) (EInt 5))) [SSet (LVal (EInt 5)) (oo 5)] [];
   SIf (ECop OBitAnd EMaskInt (ECop OShl (EInt 1) (EInt 6))) [SSet (LVal (EInt 6)) (oo 6)] [];
   SIf (ECop OBitAnd EMaskInt (ECop OShl (EInt 1) (EInt 7))) [SSet (LVal (EInt 7)) (oo 7)] []].

(* short_vec_scalar_float_8.hpp:457-462 *)
Definition scalar_float_8_print : list item :=
  [PStr "["; PVal (vv 0); PStr ", "; PVal (vv 1); PStr ", "; PVal (vv 2); PStr ", "; PVal (vv 3);
   PStr ", "; PVal (vv 4); PStr ", "; PVal (vv 5); PStr ", "; PVal (vv 6); PStr ", "; PVal (vv 7);
   PStr "]"].

(* short_vec_scalar_float_8.hpp *)
Definition cls_scalar_float_8 : cls :=
  mkCls "scalar_float_8" KF32 8 8 1 4 (MInt 8)
    (fun m => match m with
     | MCtorScalar => Some scalar_float_8_ctor_scalar
     | MCtorPtr => Some scalar_float_8_ctor_ptr
     | MCtorRegs => Some scalar_float_8_ctor_regs
     | MCtorList => Some scalar_float_8_ctor_list
     | MAny => Some scalar_float_8_any
     | MIndex => Some scalar_float_8_index
     | MSubEq => Some scalar_float_8_sub_eq
     | MSub => Some scalar_float_8_sub
     | MAddEq => Some scalar_float_8_add_eq
     | MAdd => Some scalar_float_8_add
     | MMulEq => Some scalar_float_8_mul_eq
     | MMul => Some scalar_float_8_mul
     | MDivEq => Some scalar_float_8_div_eq
     | MDiv => Some scalar_float_8_div
     | MLt => Some scalar_float_8_lt
     | MLe => Some scalar_float_8_le
     | MEq => Some scalar_float_8_eq
     | MGt => Some scalar_float_8_gt
     | MGe => Some scalar_float_8_ge
     | MSqrt => Some scalar_float_8_sqrt
     | MLoad => Some scalar_float_8_load
     | MLoadAligned => Some scalar_float_8_load_aligned
     | MStore => Some scalar_float_8_store
     | MStoreAligned => Some scalar_float_8_store_aligned
     | MStoreNt => Some scalar_float_8_store_nt
     | MGather => Some scalar_float_8_gather
     | MScatter => Some scalar_float_8_scatter
     | MBlend => Some scalar_float_8_blend
     | _ => None
     end)
    scalar_float_8_ctor_regs scalar_float_8_print.

(* short_vec_scalar_float_16.hpp:65-83 *)
Definition scalar_float_16_ctor_scalar : body :=
  [SSet (LVal (EInt 0)) EArg;
   SSet (LVal (EInt 1)) EArg;
   SSet (LVal (EInt 2)) EArg;
   SSet (LVal (EInt 3)) EArg;
   SSet (LVal (EInt 4)) EArg;
   SSet (LVal (EInt 5)) EArg;
   SSet (LVal (EInt 6)) EArg;
   SSet (LVal (EInt 7)) EArg;
   SSet (LVal (EInt 8)) EArg;
   SSet (LVal (EInt 9)) EArg;
   SSet (LVal (EInt 10)) EArg;
   SSet (LVal (EInt 11)) EArg;
   SSet (LVal (EInt 12)) EArg;
   SSet (LVal (EInt 13)) EArg;
   SSet (LVal (EInt 14)) EArg;
   SSet (LVal (EInt 15)) EArg].

(* short_vec_scalar_float_16.hpp:85-89 *)
Definition scalar_float_16_ctor_ptr : body :=
  [SSet (LVal (EInt 0)) (EIdx EData (EInt 0));
   SSet (LVal (EInt 1)) (EIdx EData (EInt 1));
   SSet (LVal (EInt 2)) (EIdx EData (EInt 2));
   SSet (LVal (EInt 3)) (EIdx EData (EInt 3));
   SSet (LVal (EInt 4)) (EIdx EData (EInt 4));
   SSet (LVal (EInt 5)) (EIdx EData (EInt 5));
   SSet (LVal (EInt 6)) (EIdx EData (EInt 6));
   SSet (LVal (EInt 7)) (EIdx EData (EInt 7));
   SSet (LVal (EInt 8)) (EIdx EData (EInt 8));
   SSet (LVal (EInt 9)) (EIdx EData (EInt 9));
   SSet (LVal (EInt 10)) (EIdx EData (EInt 10));
   SSet (LVal (EInt 11)) (EIdx EData (EInt 11));
   SSet (LVal (EInt 12)) (EIdx EData (EInt 12));
   SSet (LVal (EInt 13)) (EIdx EData (EInt 13));
   SSet (LVal (EInt 14)) (EIdx EData (EInt 14));
   SSet (LVal (EInt 15)) (EIdx EData (EInt 15))].

(* short_vec_scalar_float_16.hpp:91-125 *)
Definition scalar_float_16_ctor_regs : body :=
  [SSet (LVal (EInt 0)) (EPar 0);
   SSet (LVal (EInt 1)) (EPar 1);
   SSet (LVal (EInt 2)) (EPar 2);
   SSet (LVal (EInt 3)) (EPar 3);
   SSet (LVal (EInt 4)) (EPar 4);
   SSet (LVal (EInt 5)) (EPar 5);
   SSet (LVal (EInt 6)) (EPar 6);
   SSet (LVal (EInt 7)) (EPar 7);
   SSet (LVal (EInt 8)) (EPar 8);
   SSet (LVal (EInt 9)) (EPar 9);
   SSet (LVal (EInt 10)) (EPar 10);
   SSet (LVal (EInt 11)) (EPar 11);
   SSet (LVal (EInt 12)) (EPar 12);
   SSet (LVal (EInt 13)) (EPar 13);
   SSet (LVal (EInt 14)) (EPar 14);
   SSet (LVal (EInt 15)) (EPar 15)].

(* short_vec_scalar_float_16.hpp:128-133 *)
Definition scalar_float_16_ctor_list : body :=
  [SSet (LVal (EInt 0)) (EIdx EData (EInt 0));
   SSet (LVal (EInt 1)) (EIdx EData (EInt 1));
   SSet (LVal (EInt 2)) (EIdx EData (EInt 2));
   SSet (LVal (EInt 3)) (EIdx EData (EInt 3));
   SSet (LVal (EInt 4)) (EIdx EData (EInt 4));
   SSet (LVal (EInt 5)) (EIdx EData (EInt 5));
   SSet (LVal (EInt 6)) (EIdx EData (EInt 6));
   SSet (LVal (EInt 7)) (EIdx EData (EInt 7));
   SSet (LVal (EInt 8)) (EIdx EData (EInt 8));
   SSet (LVal (EInt 9)) (EIdx EData (EInt 9));
   SSet (LVal (EInt 10)) (EIdx EData (EInt 10));
   SSet (LVal (EInt 11)) (EIdx EData (EInt 11));
   SSet (LVal (EInt 12)) (EIdx EData (EInt 12));
   SSet (LVal (EInt 13)) (EIdx EData (EInt 13));
   SSet (LVal (EInt 14)) (EIdx EData (EInt 14));
   SSet (LVal (EInt 15)) (EIdx EData (EInt 15))].

(* short_vec_scalar_float_16.hpp:136-156 *)
Definition scalar_float_16_any : body :=
  [SRet (EBool (ECop OLor (ECop OLor (ECop OLor (ECop OLor (ECop OLor (ECop OLor (ECop OLor (ECop
    OLor (ECop OLor (ECop OLor (ECop OLor (ECop OLor (ECop OLor (ECop OLor (ECop OLor (vv 0) (vv 1))
    (vv 2)) (vv 3)) (vv 4)) (vv 5)) (vv 6)) (vv 7)) (vv 8)) (vv 9)) (vv 10)) (vv 11)) (vv 12)) (vv
    13)) (vv 14)) (vv 15)))].

(* short_vec_scalar_float_16.hpp:158-162 *)
Definition scalar_float_16_index : body :=
  [SRet (EVal (EVar "i"))].

(* short_vec_scalar_float_16.hpp:164-183 *)
Definition scalar_float_16_sub_eq : body :=
  [SUpd OSub (LVal (EInt 0)) (oo 0);
   SUpd OSub (LVal (EInt 1)) (oo 1);
   SUpd OSub (LVal (EInt 2)) (oo 2);
   SUpd OSub (LVal (EInt 3)) (oo 3);
   SUpd OSub (LVal (EInt 4)) (oo 4);
   SUpd OSub (LVal (EInt 5)) (oo 5);
   SUpd OSub (LVal (EInt 6)) (oo 6);
   SUpd OSub (LVal (EInt 7)) (oo 7);
   SUpd OSub (LVal (EInt 8)) (oo 8);
   SUpd OSub (LVal (EInt 9)) (oo 9);
   SUpd OSub (LVal (EInt 10)) (oo 10);
   SUpd OSub (LVal (EInt 11)) (oo 11);
   SUpd OSub (LVal (EInt 12)) (oo 12);
   SUpd OSub (LVal (EInt 13)) (oo 13);
   SUpd OSub (LVal (EInt 14)) (oo 14);
   SUpd OSub (LVal (EInt 15)) (oo 15)].

(* short_vec_scalar_float_16.hpp:185-205 *)
Definition scalar_float_16_sub : body :=
  [SRetVec [(ECop OSub (vv 0) (oo 0)); (ECop OSub (vv 1) (oo 1)); (ECop OSub (vv 2) (oo 2)); (ECop
    OSub (vv 3) (oo 3)); (ECop OSub (vv 4) (oo 4)); (ECop OSub (vv 5) (oo 5)); (ECop OSub (vv 6) (oo
    6)); (ECop OSub (vv 7) (oo 7)); (ECop OSub (vv 8) (oo 8)); (ECop OSub (vv 9) (oo 9)); (ECop OSub
    (vv 10) (oo 10)); (ECop OSub (vv 11) (oo 11)); (ECop OSub (vv 12) (oo 12)); (ECop OSub (vv 13)
    (oo 13)); (ECop OSub (vv 14) (oo 14)); (ECop OSub (vv 15) (oo 15))]].

(* short_vec_scalar_float_16.hpp:207-226 *)
Definition scalar_float_16_add_eq : body :=
  [SUpd OAdd (LVal (EInt 0)) (oo 0);
   SUpd OAdd (LVal (EInt 1)) (oo 1);
   SUpd OAdd (LVal (EInt 2)) (oo 2);
   SUpd OAdd (LVal (EInt 3)) (oo 3);
   SUpd OAdd (LVal (EInt 4)) (oo 4);
   SUpd OAdd (LVal (EInt 5)) (oo 5);
   SUpd OAdd (LVal (EInt 6)) (oo 6);
   SUpd OAdd (LVal (EInt 7)) (oo 7);
   SUpd OAdd (LVal (EInt 8)) (oo 8);
   SUpd OAdd (LVal (EInt 9)) (oo 9);
   SUpd OAdd (LVal (EInt 10)) (oo 10);
   SUpd OAdd (LVal (EInt 11)) (oo 11);
   SUpd OAdd (LVal (EInt 12)) (oo 12);
   SUpd OAdd (LVal (EInt 13)) (oo 13);
   SUpd OAdd (LVal (EInt 14)) (oo 14);
   SUpd OAdd (LVal (EInt 15)) (oo 15)].

(* short_vec_scalar_float_16.hpp:228-248 *)
Definition scalar_float_16_add : body :=
  [SRetVec [(ECop OAdd (vv 0) (oo 0)); (ECop OAdd (vv 1) (oo 1)); (ECop OAdd (vv 2) (oo 2)); (ECop
    OAdd (vv 3) (oo 3)); (ECop OAdd (vv 4) (oo 4)); (ECop OAdd (vv 5) (oo 5)); (ECop OAdd (vv 6) (oo
    6)); (ECop OAdd (vv 7) (oo 7)); (ECop OAdd (vv 8) (oo 8)); (ECop OAdd (vv 9) (oo 9)); (ECop OAdd
    (vv 10) (oo 10)); (ECop OAdd (vv 11) (oo 11)); (ECop OAdd (vv 12) (oo 12)); (ECop OAdd (vv 13)
    (oo 13)); (ECop OAdd (vv 14) (oo 14)); (ECop OAdd (vv 15) (oo 15))]].

(* short_vec_scalar_float_16.hpp:250-269 *)
Definition scalar_float_16_mul_eq : body :=
  [SUpd OMul (LVal (EInt 0)) (oo 0);
   SUpd OMul (LVal (EInt 1)) (oo 1);
   SUpd OMul (LVal (EInt 2)) (oo 2);
   SUpd OMul (LVal (EInt 3)) (oo 3);
   SUpd OMul (LVal (EInt 4)) (oo 4);
   SUpd OMul (LVal (EInt 5)) (oo 5);
   SUpd OMul (LVal (EInt 6)) (oo 6);
   SUpd OMul (LVal (EInt 7)) (oo 7);
   SUpd OMul (LVal (EInt 8)) (oo 8);
   SUpd OMul (LVal (EInt 9)) (oo 9);
   SUpd OMul (LVal (EInt 10)) (oo 10);
   SUpd OMul (LVal (EInt 11)) (oo 11);
   SUpd OMul (LVal (EInt 12)) (oo 12);
   SUpd OMul (LVal (EInt 13)) (oo 13);
   SUpd OMul (LVal (EInt 14)) (oo 14);
   SUpd OMul (LVal (EInt 15)) (oo 15)].

(* short_vec_scalar_float_16.hpp:271-291 *)
Definition scalar_float_16_mul : body :=
  [SRetVec [(ECop OMul (vv 0) (oo 0)); (ECop OMul (vv 1) (oo 1)); (ECop OMul (vv 2) (oo 2)); (ECop
    OMul (vv 3) (oo 3)); (ECop OMul (vv 4) (oo 4)); (ECop OMul (vv 5) (oo 5)); (ECop OMul (vv 6) (oo
    6)); (ECop OMul (vv 7) (oo 7)); (ECop OMul (vv 8) (oo 8)); (ECop OMul (vv 9) (oo 9)); (ECop OMul
    (vv 10) (oo 10)); (ECop OMul (vv 11) (oo 11)); (ECop OMul (vv 12) (oo 12)); (ECop OMul (vv 13)
    (oo 13)); (ECop OMul (vv 14) (oo 14)); (ECop OMul (vv 15) (oo 15))]].

(* short_vec_scalar_float_16.hpp:293-312 *)
Definition scalar_float_16_div_eq : body :=
  [SUpd ODiv (LVal (EInt 0)) (oo 0);
   SUpd ODiv (LVal (EInt 1)) (oo 1);
   SUpd ODiv (LVal (EInt 2)) (oo 2);
   SUpd ODiv (LVal (EInt 3)) (oo 3);
   SUpd ODiv (LVal (EInt 4)) (oo 4);
   SUpd ODiv (LVal (EInt 5)) (oo 5);
   SUpd ODiv (LVal (EInt 6)) (oo 6);
   SUpd ODiv (LVal (EInt 7)) (oo 7);
   SUpd ODiv (LVal (EInt 8)) (oo 8);
   SUpd ODiv (LVal (EInt 9)) (oo 9);
   SUpd ODiv (LVal (EInt 10)) (oo 10);
   SUpd ODiv (LVal (EInt 11)) (oo 11);
   SUpd ODiv (LVal (EInt 12)) (oo 12);
   SUpd ODiv (LVal (EInt 13)) (oo 13);
   SUpd ODiv (LVal (EInt 14)) (oo 14);
   SUpd ODiv (LVal (EInt 15)) (oo 15)].

(* short_vec_scalar_float_16.hpp:314-334 *)
Definition scalar_float_16_div : body :=
  [SRetVec [(ECop ODiv (vv 0) (oo 0)); (ECop ODiv (vv 1) (oo 1)); (ECop ODiv (vv 2) (oo 2)); (ECop
    ODiv (vv 3) (oo 3)); (ECop ODiv (vv 4) (oo 4)); (ECop ODiv (vv 5) (oo 5)); (ECop ODiv (vv 6) (oo
    6)); (ECop ODiv (vv 7) (oo 7)); (ECop ODiv (vv 8) (oo 8)); (ECop ODiv (vv 9) (oo 9)); (ECop ODiv
    (vv 10) (oo 10)); (ECop ODiv (vv 11) (oo 11)); (ECop ODiv (vv 12) (oo 12)); (ECop ODiv (vv 13)
    (oo 13)); (ECop ODiv (vv 14) (oo 14)); (ECop ODiv (vv 15) (oo 15))]].

(* short_vec_scalar_float_16.hpp:337-357 *)
Definition scalar_float_16_lt : body :=
  [SRet (EMaskType (ECop OAdd (ECop OAdd (ECop OAdd (ECop OAdd (ECop OAdd (ECop OAdd (ECop OAdd
    (ECop OAdd (ECop OAdd (ECop OAdd (ECop OAdd (ECop OAdd (ECop OAdd (ECop OAdd (ECop OAdd (ECop
    OShl (ECop (ORel RLt) (vv 0) (oo 0)) (EInt 0)) (ECop OShl (ECop (ORel RLt) (vv 1) (oo 1)) (EInt
    1))) (ECop OShl (ECop (ORel RLt) (vv 2) (oo 2)) (EInt 2))) (ECop OShl (ECop (ORel RLt) (vv 3)
    (oo 3)) (EInt 3))) (ECop OShl (ECop (ORel RLt) (vv 4) (oo 4)) (EInt 4))) (ECop OShl (ECop (ORel
    RLt) (vv 5) (oo 5)) (EInt 5))) (ECop OShl (ECop (ORel RLt) (vv 6) (oo 6)) (EInt 6))) (ECop OShl
    (ECop (ORel RLt) (vv 7) (oo 7)) (EInt 7))) (ECop OShl (ECop (ORel RLt) (vv 8) (oo 8)) (EInt 8)))
    (ECop OShl (ECop (ORel RLt) (vv 9) (oo 9)) (EInt 9))) (ECop OShl (ECop (ORel RLt) (vv 10) (oo
    10)) (EInt 10))) (ECop OShl (ECop (ORel RLt) (vv 11) (oo 11)) (EInt 11))) (ECop OShl (ECop (ORel
    RLt) (vv 12) (oo 12)) (EInt 12))) (ECop OShl (ECop (ORel RLt) (vv 13) (oo 13)) (EInt 13))) (ECop
    OShl (ECop (ORel RLt) (vv 14) (oo 14)) (EInt 14))) (ECop OShl (ECop (ORel RLt) (vv 15) (oo 15))
    (EInt 15))))].

(* short_vec_scalar_float_16.hpp:359-379 *)
Definition scalar_float_16_le : body :=
  [SRet (EMaskType (ECop OAdd (ECop OAdd (ECop OAdd (ECop OAdd (ECop OAdd (ECop OAdd (ECop OAdd
    (ECop OAdd (ECop OAdd (ECop OAdd (ECop OAdd (ECop OAdd (ECop OAdd (ECop OAdd (ECop OAdd (ECop
    OShl (ECop (ORel RLe) (vv 0) (oo 0)) (EInt 0)) (ECop OShl (ECop (ORel RLe) (vv 1) (oo 1)) (EInt
    1))) (ECop OShl (ECop (ORel RLe) (vv 2) (oo 2)) (EInt 2))) (ECop OShl (ECop (ORel RLe) (vv 3)
    (oo 3)) (EInt 3))) (ECop OShl (ECop (ORel RLe) (vv 4) (oo 4)) (EInt 4))) (ECop OShl (ECop (ORel
    RLe) (vv 5) (oo 5)) (EInt 5))) (ECop OShl (ECop (ORel RLe) (vv 6) (oo 6)) (EInt 6))) (ECop OShl
    (ECop (ORel RLe) (vv 7) (oo 7)) (EInt 7))) (ECop OShl (ECop (ORel RLe) (vv 8) (oo 8)) (EInt 8)))
    (ECop OShl (ECop (ORel RLe) (vv 9) (oo 9)) (EInt 9))) (ECop OShl (ECop (ORel RLe) (vv 10) (oo
    10)) (EInt 10))) (ECop OShl (ECop (ORel RLe) (vv 11) (oo 11)) (EInt 11))) (ECop OShl (ECop (ORel
    RLe) (vv 12) (oo 12)) (EInt 12))) (ECop OShl (ECop (ORel RLe) (vv 13) (oo 13)) (EInt 13))) (ECop
    OShl (ECop (ORel RLe) (vv 14) (oo 14)) (EInt 14))) (ECop OShl (ECop (ORel RLe) (vv 15) (oo 15))
    (EInt 15))))].

(* short_vec_scalar_float_16.hpp:381-401 *)
Definition scalar_float_16_eq : body :=
  [SRet (EMaskType (ECop OAdd (ECop OAdd (ECop OAdd (ECop OAdd (ECop OAdd (ECop OAdd (ECop OAdd
    (ECop OAdd (ECop OAdd (ECop OAdd (ECop OAdd (ECop OAdd (ECop OAdd (ECop OAdd (ECop OAdd (ECop
    OShl (ECop (ORel REq) (vv 0) (oo 0)) (EInt 0)) (ECop OShl (ECop (ORel REq) (vv 1) (oo 1)) (EInt
    1))) (ECop OShl (ECop (ORel REq) (vv 2) (oo 2)) (EInt 2))) (ECop OShl (ECop (ORel REq) (vv 3)
    (oo 3)) (EInt 3))) (ECop OShl (ECop (ORel REq) (vv 4) (oo 4)) (EInt 4))) (ECop OShl (ECop (ORel
    REq) (vv 5) (oo 5)) (EInt 5))) (ECop OShl (ECop (ORel REq) (vv 6) (oo 6)) (EInt 6))) (ECop OShl
    (ECop (ORel REq) (vv 7) (oo 7)) (EInt 7))) (ECop OShl (ECop (ORel REq) (vv 8) (oo 8)) (EInt 8)))
    (ECop OShl (ECop (ORel REq) (vv 9) (oo 9)) (EInt 9))) (ECop OShl (ECop (ORel REq) (vv 10) (oo
    10)) (EInt 10))) (ECop OShl (ECop (ORel REq) (vv 11) (oo 11)) (EInt 11))) (ECop OShl (ECop (ORel
    REq) (vv 12) (oo 12)) (EInt 12))) (ECop OShl (ECop (ORel REq) (vv 13) (oo 13)) (EInt 13))) (ECop
    OShl (ECop (ORel REq) (vv 14) (oo 14)) (EInt 14))) (ECop OShl (ECop (ORel REq) (vv 15) (oo 15))
    (EInt 15))))].

(* short_vec_scalar_float_16.hpp:403-423 *)
Definition scalar_float_16_gt : body :=
  [SRet (EMaskType (ECop OAdd (ECop OAdd (ECop OAdd (ECop OAdd (ECop OAdd (ECop OAdd (ECop OAdd
    (ECop OAdd (ECop OAdd (ECop OAdd (ECop OAdd (ECop OAdd (ECop OAdd (ECop OAdd (ECop OAdd (ECop
    OShl (ECop (ORel RGt) (vv 0) (oo 0)) (EInt 0)) (ECop OShl (ECop (ORel RGt) (vv 1) (oo 1)) (EInt
    1))) (ECop OShl (ECop (ORel RGt) (vv 2) (oo 2)) (EInt 2))) (ECop OShl (ECop (ORel RGt) (vv 3)
    (oo 3)) (EInt 3))) (ECop OShl (ECop (ORel RGt) (vv 4) (oo 4)) (EInt 4))) (ECop OShl (ECop (ORel
    RGt) (vv 5) (oo 5)) (EInt 5))) (ECop OShl (ECop (ORel RGt) (vv 6) (oo 6)) (EInt 6))) (ECop OShl
    (ECop (ORel RGt) (vv 7) (oo 7)) (EInt 7))) (ECop OShl (ECop (ORel RGt) (vv 8) (oo 8)) (EInt 8)))
    (ECop OShl (ECop (ORel RGt) (vv 9) (oo 9)) (EInt 9))) (ECop OShl (ECop (ORel RGt) (vv 10) (oo
    10)) (EInt 10))) (ECop OShl (ECop (ORel RGt) (vv 11) (oo 11)) (EInt 11))) (ECop OShl (ECop (ORel
    RGt) (vv 12) (oo 12)) (EInt 12))) (ECop OShl (ECop (ORel RGt) (vv 13) (oo 13)) (EInt 13))) (ECop
    OShl (ECop (ORel RGt) (vv 14) (oo 14)) (EInt 14))) (ECop OShl (ECop (ORel RGt) (vv 15) (oo 15))
    (EInt 15))))].

(* short_vec_scalar_float_16.hpp:425-445 *)
Definition scalar_float_16_ge : body :=
  [SRet (EMaskType (ECop OAdd (ECop OAdd (ECop OAdd (ECop OAdd (ECop OAdd (ECop OAdd (ECop OAdd
    (ECop OAdd (ECop OAdd (ECop OAdd (ECop OAdd (ECop OAdd (ECop OAdd (ECop OAdd (ECop OAdd (ECop
    OShl (ECop (ORel RGe) (vv 0) (oo 0)) (EInt 0)) (ECop OShl (ECop (ORel RGe) (vv 1) (oo 1)) (EInt
    1))) (ECop OShl (ECop (ORel RGe) (vv 2) (oo 2)) (EInt 2))) (ECop OShl (ECop (ORel RGe) (vv 3)
    (oo 3)) (EInt 3))) (ECop OShl (ECop (ORel RGe) (vv 4) (oo 4)) (EInt 4))) (ECop OShl (ECop (ORel
    RGe) (vv 5) (oo 5)) (EInt 5))) (ECop OShl (ECop (ORel RGe) (vv 6) (oo 6)) (EInt 6))) (ECop OShl
    (ECop (ORel RGe) (vv 7) (oo 7)) (EInt 7))) (ECop OShl (ECop (ORel RGe) (vv 8) (oo 8)) (EInt 8)))
    (ECop OShl (ECop (ORel RGe) (vv 9) (oo 9)) (EInt 9))) (ECop OShl (ECop (ORel RGe) (vv 10) (oo
    10)) (EInt 10))) (ECop OShl (ECop (ORel RGe) (vv 11) (oo 11)) (EInt 11))) (ECop OShl (ECop (ORel
    RGe) (vv 12) (oo 12)) (EInt 12))) (ECop OShl (ECop (ORel RGe) (vv 13) (oo 13)) (EInt 13))) (ECop
    OShl (ECop (ORel RGe) (vv 14) (oo 14)) (EInt 14))) (ECop OShl (ECop (ORel RGe) (vv 15) (oo 15))
    (EInt 15))))].

(* short_vec_scalar_float_16.hpp:453-473 *)
Definition scalar_float_16_sqrt : body :=
  [SRetVec [(EStdSqrt (vv 0)); (EStdSqrt (vv 1)); (EStdSqrt (vv 2)); (EStdSqrt (vv 3)); (EStdSqrt
    (vv 4)); (EStdSqrt (vv 5)); (EStdSqrt (vv 6)); (EStdSqrt (vv 7)); (EStdSqrt (vv 8)); (EStdSqrt
    (vv 9)); (EStdSqrt (vv 10)); (EStdSqrt (vv 11)); (EStdSqrt (vv 12)); (EStdSqrt (vv 13));
    (EStdSqrt (vv 14)); (EStdSqrt (vv 15))]].

(* short_vec_scalar_float_16.hpp:478-497 *)
Definition scalar_float_16_load : body :=
  [SSet (LVal (EInt 0)) (EIdx EData (EInt 0));
   SSet (LVal (EInt 1)) (EIdx EData (EInt 1));
   SSet (LVal (EInt 2)) (EIdx EData (EInt 2));
   SSet (LVal (EInt 3)) (EIdx EData (EInt 3));
   SSet (LVal (EInt 4)) (EIdx EData (EInt 4));
   SSet (LVal (EInt 5)) (EIdx EData (EInt 5));
   SSet (LVal (EInt 6)) (EIdx EData (EInt 6));
   SSet (LVal (EInt 7)) (EIdx EData (EInt 7));
   SSet (LVal (EInt 8)) (EIdx EData (EInt 8));
   SSet (LVal (EInt 9)) (EIdx EData (EInt 9));
   SSet (LVal (EInt 10)) (EIdx EData (EInt 10));
   SSet (LVal (EInt 11)) (EIdx EData (EInt 11));
   SSet (LVal (EInt 12)) (EIdx EData (EInt 12));
   SSet (LVal (EInt 13)) (EIdx EData (EInt 13));
   SSet (LVal (EInt 14)) (EIdx EData (EInt 14));
   SSet (LVal (EInt 15)) (EIdx EData (EInt 15))].

(* short_vec_scalar_float_16.hpp:499-503 *)
Definition scalar_float_16_load_aligned : body :=
  [SSet (LVal (EInt 0)) (EIdx EData (EInt 0));
   SSet (LVal (EInt 1)) (EIdx EData (EInt 1));
   SSet (LVal (EInt 2)) (EIdx EData (EInt 2));
   SSet (LVal (EInt 3)) (EIdx EData (EInt 3));
   SSet (LVal (EInt 4)) (EIdx EData (EInt 4));
   SSet (LVal (EInt 5)) (EIdx EData (EInt 5));
   SSet (LVal (EInt 6)) (EIdx EData (EInt 6));
   SSet (LVal (EInt 7)) (EIdx EData (EInt 7));
   SSet (LVal (EInt 8)) (EIdx EData (EInt 8));
   SSet (LVal (EInt 9)) (EIdx EData (EInt 9));
   SSet (LVal (EInt 10)) (EIdx EData (EInt 10));
   SSet (LVal (EInt 11)) (EIdx EData (EInt 11));
   SSet (LVal (EInt 12)) (EIdx EData (EInt 12));
   SSet (LVal (EInt 13)) (EIdx EData (EInt 13));
   SSet (LVal (EInt 14)) (EIdx EData (EInt 14));
   SSet (LVal (EInt 15)) (EIdx EData (EInt 15))].

(* short_vec_scalar_float_16.hpp:505-524 *)
Definition scalar_float_16_store : body :=
  [SSet (LMem (dat 0)) (vv 0);
   SSet (LMem (dat 1)) (vv 1);
   SSet (LMem (dat 2)) (vv 2);
   SSet (LMem (dat 3)) (vv 3);
   SSet (LMem (dat 4)) (vv 4);
   SSet (LMem (dat 5)) (vv 5);
   SSet (LMem (dat 6)) (vv 6);
   SSet (LMem (dat 7)) (vv 7);
   SSet (LMem (dat 8)) (vv 8);
   SSet (LMem (dat 9)) (vv 9);
   SSet (LMem (dat 10)) (vv 10);
   SSet (LMem (dat 11)) (vv 11);
   SSet (LMem (dat 12)) (vv 12);
   SSet (LMem (dat 13)) (vv 13);
   SSet (LMem (dat 14)) (vv 14);
   SSet (LMem (dat 15)) (vv 15)].

(* short_vec_scalar_float_16.hpp:526-530 *)
Definition scalar_float_16_store_aligned : body :=
  [SSet (LMem (dat 0)) (vv 0);
   SSet (LMem (dat 1)) (vv 1);
   SSet (LMem (dat 2)) (vv 2);
   SSet (LMem (dat 3)) (vv 3);
   SSet (LMem (dat 4)) (vv 4);
   SSet (LMem (dat 5)) (vv 5);
   SSet (LMem (dat 6)) (vv 6);
   SSet (LMem (dat 7)) (vv 7);
   SSet (LMem (dat 8)) (vv 8);
   SSet (LMem (dat 9)) (vv 9);
   SSet (LMem (dat 10)) (vv 10);
   SSet (LMem (dat 11)) (vv 11);
   SSet (LMem (dat 12)) (vv 12);
   SSet (LMem (dat 13)) (vv 13);
   SSet (LMem (dat 14)) (vv 14);
   SSet (LMem (dat 15)) (vv 15)].

(* short_vec_scalar_float_16.hpp:532-536 *)
Definition scalar_float_16_store_nt : body :=
  [SSet (LMem (dat 0)) (vv 0);
   SSet (LMem (dat 1)) (vv 1);
   SSet (LMem (dat 2)) (vv 2);
   SSet (LMem (dat 3)) (vv 3);
   SSet (LMem (dat 4)) (vv 4);
   SSet (LMem (dat 5)) (vv 5);
   SSet (LMem (dat 6)) (vv 6);
   SSet (LMem (dat 7)) (vv 7);
   SSet (LMem (dat 8)) (vv 8);
   SSet (LMem (dat 9)) (vv 9);
   SSet (LMem (dat 10)) (vv 10);
   SSet (LMem (dat 11)) (vv 11);
   SSet (LMem (dat 12)) (vv 12);
   SSet (LMem (dat 13)) (vv 13);
   SSet (LMem (dat 14)) (vv 14);
   SSet (LMem (dat 15)) (vv 15)].

(* short_vec_scalar_float_16.hpp:538-557 *)
Definition scalar_float_16_gather : body :=
  [SSet (LVal (EInt 0)) (EIdx EPtr (off 0));
   SSet (LVal (EInt 1)) (EIdx EPtr (off 1));
   SSet (LVal (EInt 2)) (EIdx EPtr (off 2));
   SSet (LVal (EInt 3)) (EIdx EPtr (off 3));
   SSet (LVal (EInt 4)) (EIdx EPtr (off 4));
   SSet (LVal (EInt 5)) (EIdx EPtr (off 5));
   SSet (LVal (EInt 6)) (EIdx EPtr (off 6));
   SSet (LVal (EInt 7)) (EIdx EPtr (off 7));
   SSet (LVal (EInt 8)) (EIdx EPtr (off 8));
   SSet (LVal (EInt 9)) (EIdx EPtr (off 9));
   SSet (LVal (EInt 10)) (EIdx EPtr (off 10));
   SSet (LVal (EInt 11)) (EIdx EPtr (off 11));
   SSet (LVal (EInt 12)) (EIdx EPtr (off 12));
   SSet (LVal (EInt 13)) (EIdx EPtr (off 13));
   SSet (LVal (EInt 14)) (EIdx EPtr (off 14));
   SSet (LVal (EInt 15)) (EIdx EPtr (off 15))].

(* short_vec_scalar_float_16.hpp:559-578 *)
Definition scalar_float_16_scatter : body :=
  [SSet (LMem (pto 0)) (vv 0);
   SSet (LMem (pto 1)) (vv 1);
   SSet (LMem (pto 2)) (vv 2);
   SSet (LMem (pto 3)) (vv 3);
   SSet (LMem (pto 4)) (vv 4);
   SSet (LMem (pto 5)) (vv 5);
   SSet (LMem (pto 6)) (vv 6);
   SSet (LMem (pto 7)) (vv 7);
   SSet (LMem (pto 8)) (vv 8);
   SSet (LMem (pto 9)) (vv 9);
   SSet (LMem (pto 10)) (vv 10);
   SSet (LMem (pto 11)) (vv 11);
   SSet (LMem (pto 12)) (vv 12);
   SSet (LMem (pto 13)) (vv 13);
   SSet (LMem (pto 14)) (vv 14);
   SSet (LMem (pto 15)) (vv 15)].

(* short_vec_scalar_float_16.hpp:580-631 *)
Definition scalar_float_16_blend : body :=
  [SIf (ECop OBitAnd EMaskInt (ECop OShl (EInt 1) (EInt 0))) [SSet (LVal (EInt 0)) (oo 0)] [];
   SIf (ECop OBitAnd EMaskInt (ECop OShl (EInt 1) (EInt 1))) [SSet (LVal (EInt 1)) (oo 1)] [];
   SIf (ECop OBitAnd EMaskInt (ECop OShl (EInt 1) (EInt 2))) [SSet (LVal (EInt 2)) (oo 2)] [];
   SIf (ECop OBitAnd EMaskInt (ECop OShl (EInt 1) (EInt 3))) [SSet (LVal (EInt 3)) (oo 3)] [];
   SIf (ECop OBitAnd EMaskInt (ECop OShl (EInt 1) (EInt 4))) [SSet (LVal (EInt 4)) (oo 4)] [];
   SIf (ECop OBitAnd EMaskInt (ECop OShl (EInt 1) (EInt 5))) [SSet (LVal (EInt 5)) (oo 5)] [];
   SIf (ECop OBitAnd EMaskInt (ECop OShl (EInt 1) (EInt 6))) [SSet (LVal (EInt 6)) (oo 6)] [];
   SIf (ECop OBitAnd EMaskInt (ECop OShl (EInt 1) (EInt 7))) [SSet (LVal (EInt 7)) (oo 7)] [];
   SIf (ECop OBitAnd EMaskInt (ECop OShl (EInt 1) (EInt 8))) [SSet (LVal (EInt 8)) (oo 8)] [];
   SIf (ECop OBitAnd EMaskInt (ECop OShl (EInt 1) (EInt 9))) [SSet (LVal (EInt 9)) (oo 9)] [];
   SIf (ECop OBitAnd EMaskInt (ECop OShl (EInt 1) (EInt 10))) [SSet (LVal (EInt 10)) (oo 10)] [];
   SIf (ECop OBitAnd EMaskInt (ECop OShl (EInt 1) (EInt 11))) [SSet (LVal (EInt 11)) (oo 11)] [];
   SIf (ECop OBitAnd EMaskInt (ECop OShl (EInt 1) (EInt 12))) [SSet (LVal (EInt 12)) (oo 12)] [];
   SIf (ECop OBitAnd EMaskInt (ECop OShl (EInt 1) (EInt 13))) [SSet (LVal (EInt 13)) (oo 13)] [];
   SIf (ECop OBitAnd EMaskInt (ECop OShl (EInt 1) (EInt 14))) [SSet (LVal (EInt 14)) (oo 14)] [];
   SIf (ECop OBitAnd EMaskInt (ECop OShl (EInt 1) (EInt 15))) [SSet (LVal (EInt 15)) (oo 15)] []].

(* short_vec_scalar_float_16.hpp:663-670 *)
Definition scalar_float_16_print : list item :=
  [PStr "["; PVal (vv 0); PStr ", "; PVal (vv 1); PStr ", "; PVal (vv 2); PStr ", "; PVal (vv 3);
   PStr ", "; PVal (vv 4); PStr ", "; PVal (vv 5); PStr ", "; PVal (vv 6); PStr ", "; PVal (vv 7);
   PStr ", "; PVal (vv 8); PStr ", "; PVal (vv 9); PStr ", "; PVal (vv 10); PStr ", "; PVal (vv
   11); PStr ", "; PVal (vv 12); PStr ", "; PVal (vv 13); PStr ", "; PVal (vv 14); PStr ", "; PVal
   (vv 15); PStr "]"].

(* short_vec_scalar_float_16.hpp *)
Definition cls_scalar_float_16 : cls :=
  mkCls "scalar_float_16" KF32 16 16 1 4 (MInt 16)
    (fun m => match m with
     | MCtorScalar => Some scalar_float_16_ctor_scalar
     | MCtorPtr => Some scalar_float_16_ctor_ptr
     | MCtorRegs => Some scalar_float_16_ctor_regs
     | MCtorList => Some scalar_float_16_ctor_list
     | MAny => Some scalar_float_16_any
     | MIndex => Some scalar_float_16_index
     | MSubEq => Some scalar_float_16_sub_eq
     | MSub => Some scalar_float_16_sub
     | MAddEq => Some scalar_float_16_add_eq
     | MAdd => Some scalar_float_16_add
     | MMulEq => Some scalar_float_16_mul_eq
     | MMul => Some scalar_float_16_mul
     | MDivEq => Some scalar_float_16_div_eq
     | MDiv => Some scalar_float_16_div
     | MLt => Some scalar_float_16_lt
     | MLe => Some scalar_float_16_le
     | MEq => Some scalar_float_16_eq
     | MGt => Some scalar_float_16_gt
     | MGe => Some scalar_float_16_ge
     | MSqrt => Some scalar_float_16_sqrt
     | MLoad => Some scalar_float_16_load
     | MLoadAligned => Some scalar_float_16_load_aligned
     | MStore => Some scalar_float_16_store
     | MStoreAligned => Some scalar_float_16_store_aligned
     | MStoreNt => Some scalar_float_16_store_nt
     | MGather => Some scalar_float_16_gather
     | MScatter => Some scalar_float_16_scatter
     | MBlend => Some scalar_float_16_blend
     | _ => None
     end)
    scalar_float_16_ctor_regs scalar_float_16_print.

(* short_vec_scalar_float_32.hpp:64-98 *)
Definition scalar_float_32_ctor_scalar : body :=
  [SSet (LVal (EInt 0)) EArg;
   SSet (LVal (EInt 1)) EArg;
   SSet (LVal (EInt 2)) EArg;
   SSet (LVal (EInt 3)) EArg;
   SSet (LVal (EInt 4)) EArg;
   SSet (LVal (EInt 5)) EArg;
   SSet (LVal (EInt 6)) EArg;
   SSet (LVal (EInt 7)) EArg;
   SSet (LVal (EInt 8)) EArg;
   SSet (LVal (EInt 9)) EArg;
   SSet (LVal (EInt 10)) EArg;
   SSet (LVal (EInt 11)) EArg;
   SSet (LVal (EInt 12)) EArg;
   SSet (LVal (EInt 13)) EArg;
   SSet (LVal (EInt 14)) EArg;
   SSet (LVal (EInt 15)) EArg;
   SSet (LVal (EInt 16)) EArg;
   SSet (LVal (EInt 17)) EArg;
   SSet (LVal (EInt 18)) EArg;
   SSet (LVal (EInt 19)) EArg;
   SSet (LVal (EInt 20)) EArg;
   SSet (LVal (EInt 21)) EArg;
   SSet (LVal (EInt 22)) EArg;
   SSet (LVal (EInt 23)) EArg;
   SSet (LVal (EInt 24)) EArg;
   SSet (LVal (EInt 25)) EArg;
   SSet (LVal (EInt 26)) EArg;
   SSet (LVal (EInt 27)) EArg;
   SSet (LVal (EInt 28)) EArg;
   SSet (LVal (EInt 29)) EArg;
   SSet (LVal (EInt 30)) EArg;
   SSet (LVal (EInt 31)) EArg].

(* short_vec_scalar_float_32.hpp:100-104 *)
Definition scalar_float_32_ctor_ptr : body :=
  [SSet (LVal (EInt 0)) (EIdx EData (EInt 0));
   SSet (LVal (EInt 1)) (EIdx EData (EInt 1));
   SSet (LVal (EInt 2)) (EIdx EData (EInt 2));
   SSet (LVal (EInt 3)) (EIdx EData (EInt 3));
   SSet (LVal (EInt 4)) (EIdx EData (EInt 4));
   SSet (LVal (EInt 5)) (EIdx EData (EInt 5));
   SSet (LVal (EInt 6)) (EIdx EData (EInt 6));
   SSet (LVal (EInt 7)) (EIdx EData (EInt 7));
   SSet (LVal (EInt 8)) (EIdx EData (EInt 8));
   SSet (LVal (EInt 9)) (EIdx EData (EInt 9));
   SSet (LVal (EInt 10)) (EIdx EData (EInt 10));
   SSet (LVal (EInt 11)) (EIdx EData (EInt 11));
   SSet (LVal (EInt 12)) (EIdx EData (EInt 12));
   SSet (LVal (EInt 13)) (EIdx EData (EInt 13));
   SSet (LVal (EInt 14)) (EIdx EData (EInt 14));
   SSet (LVal (EInt 15)) (EIdx EData (EInt 15));
   SSet (LVal (EInt 16)) (EIdx EData (EInt 16));
   SSet (LVal (EInt 17)) (EIdx EData (EInt 17));
   SSet (LVal (EInt 18)) (EIdx EData (EInt 18));
   SSet (LVal (EInt 19)) (EIdx EData (EInt 19));
   SSet (LVal (EInt 20)) (EIdx EData (EInt 20));
   SSet (LVal (EInt 21)) (EIdx EData (EInt 21));
   SSet (LVal (EInt 22)) (EIdx EData (EInt 22));
   SSet (LVal (EInt 23)) (EIdx EData (EInt 23));
   SSet (LVal (EInt 24)) (EIdx EData (EInt 24));
   SSet (LVal (EInt 25)) (EIdx EData (EInt 25));
   SSet (LVal (EInt 26)) (EIdx EData (EInt 26));
   SSet (LVal (EInt 27)) (EIdx EData (EInt 27));
   SSet (LVal (EInt 28)) (EIdx EData (EInt 28));
   SSet (LVal (EInt 29)) (EIdx EData (EInt 29));
   SSet (LVal (EInt 30)) (EIdx EData (EInt 30));
   SSet (LVal (EInt 31)) (EIdx EData (EInt 31))].

(* short_vec_scalar_float_32.hpp:106-172 *)
Definition scalar_float_32_ctor_regs : body :=
  [SSet (LVal (EInt 0)) (EPar 0);
   SSet (LVal (EInt 1)) (EPar 1);
   SSet (LVal (EInt 2)) (EPar 2);
   SSet (LVal (EInt 3)) (EPar 3);
   SSet (LVal (EInt 4)) (EPar 4);
   SSet (LVal (EInt 5)) (EPar 5);
   SSet (LVal (EInt 6)) (EPar 6);
   SSet (LVal (EInt 7)) (EPar 7);
   SSet (LVal (EInt 8)) (EPar 8);
   SSet (LVal (EInt 9)) (EPar 9);
   SSet (LVal (EInt 10)) (EPar 10);
   SSet (LVal (EInt 11)) (EPar 11);
   SSet (LVal (EInt 12)) (EPar 12);
   SSet (LVal (EInt 13)) (EPar 13);
   SSet (LVal (EInt 14)) (EPar 14);
   SSet (LVal (EInt 15)) (EPar 15);
   SSet (LVal (EInt 16)) (EPar 16);
   SSet (LVal (EInt 17)) (EPar 17);
   SSet (LVal (EInt 18)) (EPar 18);
   SSet (LVal (EInt 19)) (EPar 19);
   SSet (LVal (EInt 20)) (EPar 20);
   SSet (LVal (EInt 21)) (EPar 21);
   SSet (LVal (EInt 22)) (EPar 22);
   SSet (LVal (EInt 23)) (EPar 23);
   SSet (LVal (EInt 24)) (EPar 24);
   SSet (LVal (EInt 25)) (EPar 25);
   SSet (LVal (EInt 26)) (EPar 26);
   SSet (LVal (EInt 27)) (EPar 27);
   SSet (LVal (EInt 28)) (EPar 28);
   SSet (LVal (EInt 29)) (EPar 29);
   SSet (LVal (EInt 30)) (EPar 30);
   SSet (LVal (EInt 31)) (EPar 31)].

(* short_vec_scalar_float_32.hpp:175-180 *)
Definition scalar_float_32_ctor_list : body :=
  [SSet (LVal (EInt 0)) (EIdx EData (EInt 0));
   SSet (LVal (EInt 1)) (EIdx EData (EInt 1));
   SSet (LVal (EInt 2)) (EIdx EData (EInt 2));
   SSet (LVal (EInt 3)) (EIdx EData (EInt 3));
   SSet (LVal (EInt 4)) (EIdx EData (EInt 4));
   SSet (LVal (EInt 5)) (EIdx EData (EInt 5));
   SSet (LVal (EInt 6)) (EIdx EData (EInt 6));
   SSet (LVal (EInt 7)) (EIdx EData (EInt 7));
   SSet (LVal (EInt 8)) (EIdx EData (EInt 8));
   SSet (LVal (EInt 9)) (EIdx EData (EInt 9));
   SSet (LVal (EInt 10)) (EIdx EData (EInt 10));
   SSet (LVal (EInt 11)) (EIdx EData (EInt 11));
   SSet (LVal (EInt 12)) (EIdx EData (EInt 12));
   SSet (LVal (EInt 13)) (EIdx EData (EInt 13));
   SSet (LVal (EInt 14)) (EIdx EData (EInt 14));
   SSet (LVal (EInt 15)) (EIdx EData (EInt 15));
   SSet (LVal (EInt 16)) (EIdx EData (EInt 16));
   SSet (LVal (EInt 17)) (EIdx EData (EInt 17));
   SSet (LVal (EInt 18)) (EIdx EData (EInt 18));
   SSet (LVal (EInt 19)) (EIdx EData (EInt 19));
   SSet (LVal (EInt 20)) (EIdx EData (EInt 20));
   SSet (LVal (EInt 21)) (EIdx EData (EInt 21));
   SSet (LVal (EInt 22)) (EIdx EData (EInt 22));
   SSet (LVal (EInt 23)) (EIdx EData (EInt 23));
   SSet (LVal (EInt 24)) (EIdx EData (EInt 24));
   SSet (LVal (EInt 25)) (EIdx EData (EInt 25));
   SSet (LVal (EInt 26)) (EIdx EData (EInt 26));
   SSet (LVal (EInt 27)) (EIdx EData (EInt 27));
   SSet (LVal (EInt 28)) (EIdx EData (EInt 28));
   SSet (LVal (EInt 29)) (EIdx EData (EInt 29));
   SSet (LVal (EInt 30)) (EIdx EData (EInt 30));
   SSet (LVal (EInt 31)) (EIdx EData (EInt 31))].

(* short_vec_scalar_float_32.hpp:183-219 *)
Definition scalar_float_32_any : body :=
  [SRet (EBool (ECop OLor (ECop OLor (ECop OLor (ECop OLor (ECop OLor (ECop OLor (ECop OLor (ECop
    OLor (ECop OLor (ECop OLor (ECop OLor (ECop OLor (ECop OLor (ECop OLor (ECop OLor (ECop OLor
    (ECop OLor (ECop OLor (ECop OLor (ECop OLor (ECop OLor (ECop OLor (ECop OLor (ECop OLor (ECop
    OLor (ECop OLor (ECop OLor (ECop OLor (ECop OLor (ECop OLor (ECop OLor (vv 0) (vv 1)) (vv 2))
    (vv 3)) (vv 4)) (vv 5)) (vv 6)) (vv 7)) (vv 8)) (vv 9)) (vv 10)) (vv 11)) (vv 12)) (vv 13)) (vv
    14)) (vv 15)) (vv 16)) (vv 17)) (vv 18)) (vv 19)) (vv 20)) (vv 21)) (vv 22)) (vv 23)) (vv 24))
    (vv 25)) (vv 26)) (vv 27)) (vv 28)) (vv 29)) (vv 30)) (vv 31)))].

(* short_vec_scalar_float_32.hpp:221-225 *)
Definition scalar_float_32_index : body :=
  [SRet (EVal (EVar "i"))].

(* short_vec_scalar_float_32.hpp:227-262 *)
Definition scalar_float_32_sub_eq : body :=
  [SUpd OSub (LVal (EInt 0)) (oo 0);
   SUpd OSub (LVal (EInt 1)) (oo 1);
   SUpd OSub (LVal (EInt 2)) (oo 2);
   SUpd OSub (LVal (EInt 3)) (oo 3);
   SUpd OSub (LVal (EInt 4)) (oo 4);
   SUpd OSub (LVal (EInt 5)) (oo 5);
   SUpd OSub (LVal (EInt 6)) (oo 6);
   SUpd OSub (LVal (EInt 7)) (oo 7);
   SUpd OSub (LVal (EInt 8)) (oo 8);
   SUpd OSub (LVal (EInt 9)) (oo 9);
   SUpd OSub (LVal (EInt 10)) (oo 10);
   SUpd OSub (LVal (EInt 11)) (oo 11);
   SUpd OSub (LVal (EInt 12)) (oo 12);
   SUpd OSub (LVal (EInt 13)) (oo 13);
   SUpd OSub (LVal (EInt 14)) (oo 14);
   SUpd OSub (LVal (EInt 15)) (oo 15);
   SUpd OSub (LVal (EInt 16)) (oo 16);
   SUpd OSub (LVal (EInt 17)) (oo 17);
   SUpd OSub (LVal (EInt 18)) (oo 18);
   SUpd OSub (LVal (EInt 19)) (oo 19);
   SUpd OSub (LVal (EInt 20)) (oo 20);
   SUpd OSub (LVal (EInt 21)) (oo 21);
   SUpd OSub (LVal (EInt 22)) (oo 22);
   SUpd OSub (LVal (EInt 23)) (oo 23);
   SUpd OSub (LVal (EInt 24)) (oo 24);
   SUpd OSub (LVal (EInt 25)) (oo 25);
   SUpd OSub (LVal (EInt 26)) (oo 26);
   SUpd OSub (LVal (EInt 27)) (oo 27);
   SUpd OSub (LVal (EInt 28)) (oo 28);
   SUpd OSub (LVal (EInt 29)) (oo 29);
   SUpd OSub (LVal (EInt 30)) (oo 30);
   SUpd OSub (LVal (EInt 31)) (oo 31)].

(* short_vec_scalar_float_32.hpp:264-300 *)
Definition scalar_float_32_sub : body :=
  [SRetVec [(ECop OSub (vv 0) (oo 0)); (ECop OSub (vv 1) (oo 1)); (ECop OSub (vv 2) (oo 2)); (ECop
    OSub (vv 3) (oo 3)); (ECop OSub (vv 4) (oo 4)); (ECop OSub (vv 5) (oo 5)); (ECop OSub (vv 6) (oo
    6)); (ECop OSub (vv 7) (oo 7)); (ECop OSub (vv 8) (oo 8)); (ECop OSub (vv 9) (oo 9)); (ECop OSub
    (vv 10) (oo 10)); (ECop OSub (vv 11) (oo 11)); (ECop OSub (vv 12) (oo 12)); (ECop OSub (vv 13)
    (oo 13)); (ECop OSub (vv 14) (oo 14)); (ECop OSub (vv 15) (oo 15)); (ECop OSub (vv 16) (oo 16));
    (ECop OSub (vv 17) (oo 17)); (ECop OSub (vv 18) (oo 18)); (ECop OSub (vv 19) (oo 19)); (ECop
    OSub (vv 20) (oo 20)); (ECop OSub (vv 21) (oo 21)); (ECop OSub (vv 22) (oo 22)); (ECop OSub (vv
    23) (oo 23)); (ECop OSub (vv 24) (oo 24)); (ECop OSub (vv 25) (oo 25)); (ECop OSub (vv 26) (oo
    26)); (ECop OSub (vv 27) (oo 27)); (ECop OSub (vv 28) (oo 28)); (ECop OSub (vv 29) (oo 29));
    (ECop OSub (vv 30) (oo 30)); (ECop OSub (vv 31) (oo 31))]].

(* short_vec_scalar_float_32.hpp:302-337 *)
Definition scalar_float_32_add_eq : body :=
  [SUpd OAdd (LVal (EInt 0)) (oo 0);
   SUpd OAdd (LVal (EInt 1)) (oo 1);
   SUpd OAdd (LVal (EInt 2)) (oo 2);
   SUpd OAdd (LVal (EInt 3)) (oo 3);
   SUpd OAdd (LVal (EInt 4)) (oo 4);
   SUpd OAdd (LVal (EInt 5)) (oo 5);
   SUpd OAdd (LVal (EInt 6)) (oo 6);
   SUpd OAdd (LVal (EInt 7)) (oo 7);
   SUpd OAdd (LVal (EInt 8)) (oo 8);
   SUpd OAdd (LVal (EInt 9)) (oo 9);
   SUpd OAdd (LVal (EInt 10)) (oo 10);
   SUpd OAdd (LVal (EInt 11)) (oo 11);
   SUpd OAdd (LVal (EInt 12)) (oo 12);
   SUpd OAdd (LVal (EInt 13)) (oo 13);
   SUpd OAdd (LVal (EInt 14)) (oo 14);
   SUpd OAdd (LVal (EInt 15)) (oo 15);
   SUpd OAdd (LVal (EInt 16)) (oo 16);
   SUpd OAdd (LVal (EInt 17)) (oo 17);
   SUpd OAdd (LVal (EInt 18)) (oo 18);
   SUpd OAdd (LVal (EInt 19)) (oo 19);
   SUpd OAdd (LVal (EInt 20)) (oo 20);
   SUpd OAdd (LVal (EInt 21)) (oo 21);
   SUpd OAdd (LVal (EInt 22)) (oo 22);
   SUpd OAdd (LVal (EInt 23)) (oo 23);
   SUpd OAdd (LVal (EInt 24)) (oo 24);
   SUpd OAdd (LVal (EInt 25)) (oo 25);
   SUpd OAdd (LVal (EInt 26)) (oo 26);
   SUpd OAdd (LVal (EInt 27)) (oo 27);
   SUpd OAdd (LVal (EInt 28)) (oo 28);
   SUpd OAdd (LVal (EInt 29)) (oo 29);
   SUpd OAdd (LVal (EInt 30)) (oo 30);
   SUpd OAdd (LVal (EInt 31)) (oo 31)].

(* short_vec_scalar_float_32.hpp:339-375 *)
Definition scalar_float_32_add : body :=
  [SRetVec [(ECop OAdd (vv 0) (oo 0)); (ECop OAdd (vv 1) (oo 1)); (ECop OAdd (vv 2) (oo 2)); (ECop
    OAdd (vv 3) (oo 3)); (ECop OAdd (vv 4) (oo 4)); (ECop OAdd (vv 5) (oo 5)); (ECop OAdd (vv 6) (oo
    6)); (ECop OAdd (vv 7) (oo 7)); (ECop OAdd (vv 8) (oo 8)); (ECop OAdd (vv 9) (oo 9)); (ECop OAdd
    (vv 10) (oo 10)); (ECop OAdd (vv 11) (oo 11)); (ECop OAdd (vv 12) (oo 12)); (ECop OAdd (vv 13)
    (oo 13)); (ECop OAdd (vv 14) (oo 14)); (ECop OAdd (vv 15) (oo 15)); (ECop OAdd (vv 16) (oo 16));
    (ECop OAdd (vv 17) (oo 17)); (ECop OAdd (vv 18) (oo 18)); (ECop OAdd (vv 19) (oo 19)); (ECop
    OAdd (vv 20) (oo 20)); (ECop OAdd (vv 21) (oo 21)); (ECop OAdd (vv 22) (oo 22)); (ECop OAdd (vv
    23) (oo 23)); (ECop OAdd (vv 24) (oo 24)); (ECop OAdd (vv 25) (oo 25)); (ECop OAdd (vv 26) (oo
    26)); (ECop OAdd (vv 27) (oo 27)); (ECop OAdd (vv 28) (oo 28)); (ECop OAdd (vv 29) (oo 29));
    (ECop OAdd (vv 30) (oo 30)); (ECop OAdd (vv 31) (oo 31))]].

(* short_vec_scalar_float_32.hpp:377-412 *)
Definition scalar_float_32_mul_eq : body :=
  [SUpd OMul (LVal (EInt 0)) (oo 0);
   SUpd OMul (LVal (EInt 1)) (oo 1);
   SUpd OMul (LVal (EInt 2)) (oo 2);
   SUpd OMul (LVal (EInt 3)) (oo 3);
   SUpd OMul (LVal (EInt 4)) (oo 4);
   SUpd OMul (LVal (EInt 5)) (oo 5);
   SUpd OMul (LVal (EInt 6)) (oo 6);
   SUpd OMul (LVal (EInt 7)) (oo 7);
   SUpd OMul (LVal (EInt 8)) (oo 8);
   SUpd OMul (LVal (EInt 9)) (oo 9);
   SUpd OMul (LVal (EInt 10)) (oo 10);
   SUpd OMul (LVal (EInt 11)) (oo 11);
   SUpd OMul (LVal (EInt 12)) (oo 12);
   SUpd OMul (LVal (EInt 13)) (oo 13);
   SUpd OMul (LVal (EInt 14)) (oo 14);
   SUpd OMul (LVal (EInt 15)) (oo 15);
   SUpd OMul (LVal (EInt 16)) (oo 16);
   SUpd OMul (LVal (EInt 17)) (oo 17);
   SUpd OMul (LVal (EInt 18)) (oo 18);
   SUpd OMul (LVal (EInt 19)) (oo 19);
   SUpd OMul (LVal (EInt 20)) (oo 20);
   SUpd OMul (LVal (EInt 21)) (oo 21);
   SUpd OMul (LVal (EInt 22)) (oo 22);
   SUpd OMul (LVal (EInt 23)) (oo 23);
   SUpd OMul (LVal (EInt 24)) (oo 24);
   SUpd OMul (LVal (EInt 25)) (oo 25);
   SUpd OMul (LVal (EInt 26)) (oo 26);
   SUpd OMul (LVal (EInt 27)) (oo 27);
   SUpd OMul (LVal (EInt 28)) (oo 28);
   SUpd OMul (LVal (EInt 29)) (oo 29);
   SUpd OMul (LVal (EInt 30)) (oo 30);
   SUpd OMul (LVal (EInt 31)) (oo 31)].

(* short_vec_scalar_float_32.hpp:414-450 *)
Definition scalar_float_32_mul : body :=
  [SRetVec [(ECop OMul (vv 0) (oo 0)); (ECop OMul (vv 1) (oo 1)); (ECop OMul (vv 2) (oo 2)); (ECop
    OMul (vv 3) (oo 3)); (ECop OMul (vv 4) (oo 4)); (ECop OMul (vv 5) (oo 5)); (ECop OMul (vv 6) (oo
    6)); (ECop OMul (vv 7) (oo 7)); (ECop OMul (vv 8) (oo 8)); (ECop OMul (vv 9) (oo 9)); (ECop OMul
    (vv 10) (oo 10)); (ECop OMul (vv 11) (oo 11)); (ECop OMul (vv 12) (oo 12)); (ECop OMul (vv 13)
    (oo 13)); (ECop OMul (vv 14) (oo 14)); (ECop OMul (vv 15) (oo 15)); (ECop OMul (vv 16) (oo 16));
    (ECop OMul (vv 17) (oo 17)); (ECop OMul (vv 18) (oo 18)); (ECop OMul (vv 19) (oo 19)); (ECop
    OMul (vv 20) (oo 20)); (ECop OMul (vv 21) (oo 21)); (ECop OMul (vv 22) (oo 22)); (ECop OMul (vv
    23) (oo 23)); (ECop OMul (vv 24) (oo 24)); (ECop OMul (vv 25) (oo 25)); (ECop OMul (vv 26) (oo
    26)); (ECop OMul (vv 27) (oo 27)); (ECop OMul (vv 28) (oo 28)); (ECop OMul (vv 29) (oo 29));
    (ECop OMul (vv 30) (oo 30)); (ECop OMul (vv 31) (oo 31))]].

(* short_vec_scalar_float_32.hpp:452-487 *)
Definition scalar_float_32_div_eq : body :=
  [SUpd ODiv (LVal (EInt 0)) (oo 0);
   SUpd ODiv (LVal (EInt 1)) (oo 1);
   SUpd ODiv (LVal (EInt 2)) (oo 2);
   SUpd ODiv (LVal (EInt 3)) (oo 3);
   SUpd ODiv (LVal (EInt 4)) (oo 4);
   SUpd ODiv (LVal (EInt 5)) (oo 5);
   SUpd ODiv (LVal (EInt 6)) (oo 6);
   SUpd ODiv (LVal (EInt 7)) (oo 7);
   SUpd ODiv (LVal (EInt 8)) (oo 8);
   SUpd ODiv (LVal (EInt 9)) (oo 9);
   SUpd ODiv (LVal (EInt 10)) (oo 10);
   SUpd ODiv (LVal (EInt 11)) (oo 11);
   SUpd ODiv (LVal (EInt 12)) (oo 12);
   SUpd ODiv (LVal (EInt 13)) (oo 13);
   SUpd ODiv (LVal (EInt 14)) (oo 14);
   SUpd ODiv (LVal (EInt 15)) (oo 15);
   SUpd ODiv (LVal (EInt 16)) (oo 16);
   SUpd ODiv (LVal (EInt 17)) (oo 17);
   SUpd ODiv (LVal (EInt 18)) (oo 18);
   SUpd ODiv (LVal (EInt 19)) (oo 19);
   SUpd ODiv (LVal (EInt 20)) (oo 20);
   SUpd ODiv (LVal (EInt 21)) (oo 21);
   SUpd ODiv (LVal (EInt 22)) (oo 22);
   SUpd ODiv (LVal (EInt 23)) (oo 23);
   SUpd ODiv (LVal (EInt 24)) (oo 24);
   SUpd ODiv (LVal (EInt 25)) (oo 25);
   SUpd ODiv (LVal (EInt 26)) (oo 26);
   SUpd ODiv (LVal (EInt 27)) (oo 27);
   SUpd ODiv (LVal (EInt 28)) (oo 28);
   SUpd ODiv (LVal (EInt 29)) (oo 29);
   SUpd ODiv (LVal (EInt 30)) (oo 30);
   SUpd ODiv (LVal (EInt 31)) (oo 31)].

(* short_vec_scalar_float_32.hpp:489-525 *)
Definition scalar_float_32_div : body :=
  [SRetVec [(ECop ODiv (vv 0) (oo 0)); (ECop ODiv (vv 1) (oo 1)); (ECop ODiv (vv 2) (oo 2)); (ECop
    ODiv (vv 3) (oo 3)); (ECop ODiv (vv 4) (oo 4)); (ECop ODiv (vv 5) (oo 5)); (ECop ODiv (vv 6) (oo
    6)); (ECop ODiv (vv 7) (oo 7)); (ECop ODiv (vv 8) (oo 8)); (ECop ODiv (vv 9) (oo 9)); (ECop ODiv
    (vv 10) (oo 10)); (ECop ODiv (vv 11) (oo 11)); (ECop ODiv (vv 12) (oo 12)); (ECop ODiv (vv 13)
    (oo 13)); (ECop ODiv (vv 14) (oo 14)); (ECop ODiv (vv 15) (oo 15)); (ECop ODiv (vv 16) (oo 16));
    (ECop ODiv (vv 17) (oo 17)); (ECop ODiv (vv 18) (oo 18)); (ECop ODiv (vv 19) (oo 19)); (ECop
    ODiv (vv 20) (oo 20)); (ECop ODiv (vv 21) (oo 21)); (ECop ODiv (vv 22) (oo 22)); (ECop ODiv (vv
    23) (oo 23)); (ECop ODiv (vv 24) (oo 24)); (ECop ODiv (vv 25) (oo 25)); (ECop ODiv (vv 26) (oo
    26)); (ECop ODiv (vv 27) (oo 27)); (ECop ODiv (vv 28) (oo 28)); (ECop ODiv (vv 29) (oo 29));
    (ECop ODiv (vv 30) (oo 30)); (ECop ODiv (vv 31) (oo 31))]].

(* short_vec_scalar_float_32.hpp:528-564 *)
Definition scalar_float_32_lt : body :=
  [SRet (EMaskType (ECop OAdd (ECop OAdd (ECop OAdd (ECop OAdd (ECop OAdd (ECop OAdd (ECop OAdd
    (ECop OAdd (ECop OAdd (ECop OAdd (ECop OAdd (ECop OAdd (ECop OAdd (ECop OAdd (ECop OAdd (ECop
    OAdd (ECop OAdd (ECop OAdd (ECop OAdd (ECop OAdd (ECop OAdd (ECop OAdd (ECop OAdd (ECop OAdd
    (ECop OAdd (ECop OAdd (ECop OAdd (ECop OAdd (ECop OAdd (ECop OAdd (ECop OAdd (ECop OShl (ECop
    (ORel RLt) (vv 0) (oo 0)) (EInt 0)) (ECop OShl (ECop (ORel RLt) (vv 1) (oo 1)) (EInt 1))) (ECop
    OShl (ECop (ORel RLt) (vv 2) (oo 2)) (EInt 2))) (ECop OShl (ECop (ORel RLt) (vv 3) (oo 3)) (EInt
    3))) (ECop OShl (ECop (ORel RLt) (vv 4) (oo 4)) (EInt 4))) (ECop OShl (ECop (ORel RLt) (vv 5)
    (oo 5)) (EInt 5))) (ECop OShl (ECop (ORel RLt) (vv 6) (oo 6)) (EInt 6))) (ECop OShl (ECop (ORel
    RLt) (vv 7) (oo 7)) (EInt 7))) (ECop OShl (ECop (ORel RLt) (vv 8) (oo 8)) (EInt 8))) (ECop OShl
    (ECop (ORel RLt) (vv 9) (oo 9)) (EInt 9))) (ECop OShl (ECop (ORel RLt) (vv 10) (oo 10)) (EInt
    10))) (ECop OShl (ECop (ORel RLt) (vv 11) (oo 11)) (EInt 11))) (ECop OShl (ECop (ORel RLt) (vv
    12) (oo 12)) (EInt 12))) (ECop OShl (ECop (ORel RLt) (vv 13) (oo 13)) (EInt 13))) (ECop OShl
    (ECop (ORel RLt) (vv 14) (oo 14)) (EInt 14))) (ECop OShl (ECop (ORel RLt) (vv 15) (oo 15)) (EInt
    15))) (ECop OShl (ECop (ORel RLt) (vv 16) (oo 16)) (EInt 16))) (ECop OShl (ECop (ORel RLt) (vv
    17) (oo 17)) (EInt 17))) (ECop OShl (ECop (ORel RLt) (vv 18) (oo 18)) (EInt 18))) (ECop OShl
    (ECop (ORel RLt) (vv 19) (oo 19)) (EInt 19))) (ECop OShl (ECop (ORel RLt) (vv 20) (oo 20)) (EInt
    20))) (ECop OShl (ECop (ORel RLt) (vv 21) (oo 21)) (EInt 21))) (ECop OShl (ECop (ORel RLt) (vv
    22) (oo 22)) (EInt 22))) (ECop OShl (ECop (ORel RLt) (vv 23) (oo 23)) (EInt 23))) (ECop OShl
    (ECop (ORel RLt) (vv 24) (oo 24)) (EInt 24))) (ECop OShl (ECop (ORel RLt) (vv 25) (oo 25)) (EInt
    25))) (ECop OShl (ECop (ORel RLt) (vv 26) (oo 26)) (EInt 26))) (ECop OShl (ECop (ORel RLt) (vv
    27) (oo 27)) (EInt 27))) (ECop OShl (ECop (ORel RLt) (vv 28) (oo 28)) (EInt 28))) (ECop OShl
    (ECop (ORel RLt) (vv 29) (oo 29)) (EInt 29))) (ECop OShl (ECop (ORel RLt) (vv 30) (oo 30)) (EInt
    30))) (ECop OShl (ECop (ORel RLt) (vv 31) (oo 31)) (EInt 31))))].

(* short_vec_scalar_float_32.hpp:566-602 *)
Definition scalar_float_32_le : body :=
  [SRet (EMaskType (ECop OAdd (ECop OAdd (ECop OAdd (ECop OAdd (ECop OAdd (ECop OAdd (ECop OAdd
    (ECop OAdd (ECop OAdd (ECop OAdd (ECop OAdd (ECop OAdd (ECop OAdd (ECop OAdd (ECop OAdd (ECop
    OAdd (ECop OAdd (ECop OAdd (ECop OAdd (ECop OAdd (ECop OAdd (ECop OAdd (ECop OAdd (ECop OAdd
    (ECop OAdd (ECop OAdd (ECop OAdd (ECop OAdd (ECop OAdd (ECop OAdd (ECop OAdd (ECop OShl (ECop
    (ORel RLe) (vv 0) (oo 0)) (EInt 0)) (ECop OShl (ECop (ORel RLe) (vv 1) (oo 1)) (EInt 1))) (ECop
    OShl (ECop (ORel RLe) (vv 2) (oo 2)) (EInt 2))) (ECop OShl (ECop (ORel RLe) (vv 3) (oo 3)) (EInt
    3))) (ECop OShl (ECop (ORel RLe) (vv 4) (oo 4)) (EInt 4))) (ECop OShl (ECop (ORel RLe) (vv 5)
    (oo 5)) (EInt 5))) (ECop OShl (ECop (ORel RLe) (vv 6) (oo 6)) (EInt 6))) (ECop OShl (ECop (ORel
    RLe) (vv 7) (oo 7)) (EInt 7))) (ECop OShl (ECop (ORel RLe) (vv 8) (oo 8)) (EInt 8))) (ECop OShl
    (ECop (ORel RLe) (vv 9) (oo 9)) (EInt 9))) (ECop OShl (ECop (ORel RLe) (vv 10) (oo 10)) (EInt
    10))) (ECop OShl (ECop (ORel RLe) (vv 11) (oo 11)) (EInt 11))) (ECop OShl (ECop (ORel RLe) (vv
    12) (oo 12)) (EInt 12))) (ECop OShl (ECop (ORel RLe) (vv 13) (oo 13)) (EInt 13))) (ECop OShl
    (ECop (ORel RLe) (vv 14) (oo 14)) (EInt 14))) (ECop OShl (ECop (ORel RLe) (vv 15) (oo 15)) (EInt
    15))) (ECop OShl (ECop (ORel RLe) (vv 16) (oo 16)) (EInt 16))) (ECop OShl (ECop (ORel RLe) (vv
    17) (oo 17)) (EInt 17))) (ECop OShl (ECop (ORel RLe) (vv 18) (oo 18)) (EInt 18))) (ECop OShl
    (ECop (ORel RLe) (vv 19) (oo 19)) (EInt 19))) (ECop OShl (ECop (ORel RLe) (vv 20) (oo 20)) (EInt
    20))) (ECop OShl (ECop (ORel RLe) (vv 21) (oo 21)) (EInt 21))) (ECop OShl (ECop (ORel RLe) (vv
    22) (oo 22)) (EInt 22))) (ECop OShl (ECop (ORel RLe) (vv 23) (oo 23)) (EInt 23))) (ECop OShl
    (ECop (ORel RLe) (vv 24) (oo 24)) (EInt 24))) (ECop OShl (ECop (ORel RLe) (vv 25) (oo 25)) (EInt
    25))) (ECop OShl (ECop (ORel RLe) (vv 26) (oo 26)) (EInt 26))) (ECop OShl (ECop (ORel RLe) (vv
    27) (oo 27)) (EInt 27))) (ECop OShl (ECop (ORel RLe) (vv 28) (oo 28)) (EInt 28))) (ECop OShl
    (ECop (ORel RLe) (vv 29) (oo 29)) (EInt 29))) (ECop OShl (ECop (ORel RLe) (vv 30) (oo 30)) (EInt
    30))) (ECop OShl (ECop (ORel RLe) (vv 31) (oo 31)) (EInt 31))))].

(* short_vec_scalar_float_32.hpp:604-640 *)
Definition scalar_float_32_eq : body :=
  [SRet (EMaskType (ECop OAdd (ECop OAdd (ECop OAdd (ECop OAdd (ECop OAdd (ECop OAdd (ECop OAdd
    (ECop OAdd (ECop OAdd (ECop OAdd (ECop OAdd (ECop OAdd (ECop OAdd (ECop OAdd (ECop OAdd (ECop
    OAdd (ECop OAdd (ECop OAdd (ECop OAdd (ECop OAdd (ECop OAdd (ECop OAdd (ECop OAdd (ECop OAdd
    (ECop OAdd (ECop OAdd (ECop OAdd (ECop OAdd (ECop OAdd (ECop OAdd (ECop OAdd (ECop OShl (ECop
    (ORel REq) (vv 0) (oo 0)) (EInt 0)) (ECop OShl (ECop (ORel REq) (vv 1) (oo 1)) (EInt 1))) (ECop
    OShl (ECop (ORel REq) (vv 2) (oo 2)) (EInt 2))) (ECop OShl (ECop (ORel REq) (vv 3) (oo 3)) (EInt
    3))) (ECop OShl (ECop (ORel REq) (vv 4) (oo 4)) (EInt 4))) (ECop OShl (ECop (ORel REq) (vv 5)
    (oo 5)) (EInt 5))) (ECop OShl (ECop (ORel REq) (vv 6) (oo 6)) (EInt 6))) (ECop OShl (ECop (ORel
    REq) (vv 7) (oo 7)) (EInt 7))) (ECop OShl (ECop (ORel REq) (vv 8) (oo 8)) (EInt 8))) (ECop OShl
    (ECop (ORel REq) (vv 9) (oo 9)) (EInt 9))) (ECop OShl (ECop (ORel REq) (vv 10) (oo 10)) (EInt
    10))) (ECop OShl (ECop (ORel REq) (vv 11) (oo 11)) (EInt 11))) (ECop OShl (ECop (ORel REq) (vv
    12) (oo 12)) (EInt 12))) (ECop OShl (ECop (ORel REq) (vv 13) (oo 13)) (EInt 13))) (ECop OShl
    (ECop (ORel REq) (vv 14) (oo 14)) (EInt 14))) (ECop OShl (ECop (ORel REq) (vv 15) (oo 15)) (EInt
    15))) (ECop OShl (ECop (ORel REq) (vv 16) (oo 16)) (EInt 16))) (ECop OShl (ECop (ORel REq) (vv
    17) (oo 17)) (EInt 17))) (ECop OShl (ECop (ORel REq) (vv 18) (oo 18)) (EInt 18))) (ECop OShl
    (ECop (ORel REq) (vv 19) (oo 19)) (EInt 19))) (ECop OShl (ECop (ORel REq) (vv 20) (oo 20)) (EInt
    20))) (ECop OShl (ECop (ORel REq) (vv 21) (oo 21)) (EInt 21))) (ECop OShl (ECop (ORel REq) (vv
    22) (oo 22)) (EInt 22))) (ECop OShl (ECop (ORel REq) (vv 23) (oo 23)) (EInt 23))) (ECop OShl
    (ECop (ORel REq) (vv 24) (oo 24)) (EInt 24))) (ECop OShl (ECop (ORel REq) (vv 25) (oo 25)) (EInt
    25))) (ECop OShl (ECop (ORel REq) (vv 26) (oo 26)) (EInt 26))) (ECop OShl (ECop (ORel REq) (vv
    27) (oo 27)) (EInt 27))) (ECop OShl (ECop (ORel REq) (vv 28) (oo 28)) (EInt 28))) (ECop OShl
    (ECop (ORel REq) (vv 29) (oo 29)) (EInt 29))) (ECop OShl (ECop (ORel REq) (vv 30) (oo 30)) (EInt
    30))) (ECop OShl (ECop (ORel REq) (vv 31) (oo 31)) (EInt 31))))].

(* short_vec_scalar_float_32.hpp:642-678 *)
Definition scalar_float_32_gt : body :=
  [SRet (EMaskType (ECop OAdd (ECop OAdd (ECop OAdd (ECop OAdd (ECop OAdd (ECop OAdd (ECop OAdd
    (ECop OAdd (ECop OAdd (ECop OAdd (ECop OAdd (ECop OAdd (ECop OAdd (ECop OAdd (ECop OAdd (ECop
    OAdd (ECop OAdd (ECop OAdd (ECop OAdd (ECop OAdd (ECop OAdd (ECop OAdd (ECop OAdd (ECop OAdd
    (ECop OAdd (ECop OAdd (ECop OAdd (ECop OAdd (ECop OAdd (ECop OAdd (ECop OAdd (ECop OShl (ECop
    (ORel RGt) (vv 0) (oo 0)) (EInt 0)) (ECop OShl (ECop (ORel RGt) (vv 1) (oo 1)) (EInt 1))) (ECop
    OShl (ECop (ORel RGt) (vv 2) (oo 2)) (EInt 2))) (ECop OShl (ECop (ORel RGt) (vv 3) (oo 3)) (EInt
    3))) (ECop OShl (ECop (ORel RGt) (vv 4) (oo 4)) (EInt 4))) (ECop OShl (ECop (ORel RGt) (vv 5)
    (oo 5)) (EInt 5))) (ECop OShl (ECop (ORel RGt) (vv 6) (oo 6)) (EInt 6))) (ECop OShl (ECop (ORel
    RGt) (vv 7) (oo 7)) (EInt 7))) (ECop OShl (ECop (ORel RGt) (vv 8) (oo 8)) (EInt 8))) (ECop OShl
    (ECop (ORel RGt) (vv 9) (oo 9)) (EInt 9))) (ECop OShl (ECop (ORel RGt) (vv 10) (oo 10)) (EInt
    10))) (ECop OShl (ECop (ORel RGt) (vv 11) (oo 11)) (EInt 11))) (ECop OShl (ECop (ORel RGt) (vv
    12) (oo 12)) (EInt 12))) (ECop OShl (ECop (ORel RGt) (vv 13) (oo 13)) (EInt 13))) (ECop OShl
    (ECop (ORel RGt) (vv 14) (oo 14)) (EInt 14))) (ECop OShl (ECop (ORel RGt) (vv 15) (oo 15)) (EInt
    15))) (ECop OShl (ECop (ORel RGt) (vv 16) (oo 16)) (EInt 16))) (ECop OShl (ECop (ORel RGt) (vv
    17) (oo 17)) (EInt 17))) (ECop OShl (ECop (ORel RGt) (vv 18) (oo 18)) (EInt 18))) (ECop OShl
    (ECop (ORel RGt) (vv 19) (oo 19)) (EInt 19))) (ECop OShl (ECop (ORel RGt) (vv 20) (oo 20)) (EInt
    20))) (ECop OShl (ECop (ORel RGt) (vv 21) (oo 21)) (EInt 21))) (ECop OShl (ECop (ORel RGt) (vv
    22) (oo 22)) (EInt 22))) (ECop OShl (ECop (ORel RGt) (vv 23) (oo 23)) (EInt 23))) (ECop OShl
    (ECop (ORel RGt) (vv 24) (oo 24)) (EInt 24))) (ECop OShl (ECop (ORel RGt) (vv 25) (oo 25)) (EInt
    25))) (ECop OShl (ECop (ORel RGt) (vv 26) (oo 26)) (EInt 26))) (ECop OShl (ECop (ORel RGt) (vv
    27) (oo 27)) (EInt 27))) (ECop OShl (ECop (ORel RGt) (vv 28) (oo 28)) (EInt 28))) (ECop OShl
    (ECop (ORel RGt) (vv 29) (oo 29)) (EInt 29))) (ECop OShl (ECop (ORel RGt) (vv 30) (oo 30)) (EInt
    30))) (ECop OShl (ECop (ORel RGt) (vv 31) (oo 31)) (EInt 31))))].

(* short_vec_scalar_float_32.hpp:680-716 *)
Definition scalar_float_32_ge : body :=
  [SRet (EMaskType (ECop OAdd (ECop OAdd (ECop OAdd (ECop OAdd (ECop OAdd (ECop OAdd (ECop OAdd
    (ECop OAdd (ECop OAdd (ECop OAdd (ECop OAdd (ECop OAdd (ECop OAdd (ECop OAdd (ECop OAdd (ECop
    OAdd (ECop OAdd (ECop OAdd (ECop OAdd (ECop OAdd (ECop OAdd (ECop OAdd (ECop OAdd (ECop OAdd
    (ECop OAdd (ECop OAdd (ECop OAdd (ECop OAdd (ECop OAdd (ECop OAdd (ECop OAdd (ECop OShl (ECop
    (ORel RGe) (vv 0) (oo 0)) (EInt 0)) (ECop OShl (ECop (ORel RGe) (vv 1) (oo 1)) (EInt 1))) (ECop
    OShl (ECop (ORel RGe) (vv 2) (oo 2)) (EInt 2))) (ECop OShl (ECop (ORel RGe) (vv 3) (oo 3)) (EInt
    3))) (ECop OShl (ECop (ORel RGe) (vv 4) (oo 4)) (EInt 4))) (ECop OShl (ECop (ORel RGe) (vv 5)
    (oo 5)) (EInt 5))) (ECop OShl (ECop (ORel RGe) (vv 6) (oo 6)) (EInt 6))) (ECop OShl (ECop (ORel
    RGe) (vv 7) (oo 7)) (EInt 7))) (ECop OShl (ECop (ORel RGe) (vv 8) (oo 8)) (EInt 8))) (ECop OShl
    (ECop (ORel RGe) (vv 9) (oo 9)) (EInt 9))) (ECop OShl (ECop (ORel RGe) (vv 10) (oo 10)) (EInt
    10))) (ECop OShl (ECop (ORel RGe) (vv 11) (oo 11)) (EInt 11))) (ECop OShl (ECop (ORel RGe) (vv
    12) (oo 12)) (EInt 12))) (ECop OShl (ECop (ORel RGe) (vv 13) (oo 13)) (EInt 13))) (ECop OShl
    (ECop (ORel RGe) (vv 14) (oo 14)) (EInt 14))) (ECop OShl (ECop (ORel RGe) (vv 15) (oo 15)) (EInt
    15))) (ECop OShl (ECop (ORel RGe) (vv 16) (oo 16)) (EInt 16))) (ECop OShl (ECop (ORel RGe) (vv
    17) (oo 17)) (EInt 17))) (ECop OShl (ECop (ORel RGe) (vv 18) (oo 18)) (EInt 18))) (ECop OShl
    (ECop (ORel RGe) (vv 19) (oo 19)) (EInt 19))) (ECop OShl (ECop (ORel RGe) (vv 20) (oo 20)) (EInt
    20))) (ECop OShl (ECop (ORel RGe) (vv 21) (oo 21)) (EInt 21))) (ECop OShl (ECop (ORel RGe) (vv
    22) (oo 22)) (EInt 22))) (ECop OShl (ECop (ORel RGe) (vv 23) (oo 23)) (EInt 23))) (ECop OShl
    (ECop (ORel RGe) (vv 24) (oo 24)) (EInt 24))) (ECop OShl (ECop (ORel RGe) (vv 25) (oo 25)) (EInt
    25))) (ECop OShl (ECop (ORel RGe) (vv 26) (oo 26)) (EInt 26))) (ECop OShl (ECop (ORel RGe) (vv
    27) (oo 27)) (EInt 27))) (ECop OShl (ECop (ORel RGe) (vv 28) (oo 28)) (EInt 28))) (ECop OShl
    (ECop (ORel RGe) (vv 29) (oo 29)) (EInt 29))) (ECop OShl (ECop (ORel RGe) (vv 30) (oo 30)) (EInt
    30))) (ECop OShl (ECop (ORel RGe) (vv 31) (oo 31)) (EInt 31))))].

(* short_vec_scalar_float_32.hpp:724-760 *)
Definition scalar_float_32_sqrt : body :=
  [SRetVec [(EStdSqrt (vv 0)); (EStdSqrt (vv 1)); (EStdSqrt (vv 2)); (EStdSqrt (vv 3)); (EStdSqrt
    (vv 4)); (EStdSqrt (vv 5)); (EStdSqrt (vv 6)); (EStdSqrt (vv 7)); (EStdSqrt (vv 8)); (EStdSqrt
    (vv 9)); (EStdSqrt (vv 10)); (EStdSqrt (vv 11)); (EStdSqrt (vv 12)); (EStdSqrt (vv 13));
    (EStdSqrt (vv 14)); (EStdSqrt (vv 15)); (EStdSqrt (vv 16)); (EStdSqrt (vv 17)); (EStdSqrt (vv
    18)); (EStdSqrt (vv 19)); (EStdSqrt (vv 20)); (EStdSqrt (vv 21)); (EStdSqrt (vv 22)); (EStdSqrt
    (vv 23)); (EStdSqrt (vv 24)); (EStdSqrt (vv 25)); (EStdSqrt (vv 26)); (EStdSqrt (vv 27));
    (EStdSqrt (vv 28)); (EStdSqrt (vv 29)); (EStdSqrt (vv 30)); (EStdSqrt (vv 31))]].

(* short_vec_scalar_float_32.hpp:765-800 *)
Definition scalar_float_32_load : body :=
  [SSet (LVal (EInt 0)) (EIdx EData (EInt 0));
   SSet (LVal (EInt 1)) (EIdx EData (EInt 1));
   SSet (LVal (EInt 2)) (EIdx EData (EInt 2));
   SSet (LVal (EInt 3)) (EIdx EData (EInt 3));
   SSet (LVal (EInt 4)) (EIdx EData (EInt 4));
   SSet (LVal (EInt 5)) (EIdx EData (EInt 5));
   SSet (LVal (EInt 6)) (EIdx EData (EInt 6));
   SSet (LVal (EInt 7)) (EIdx EData (EInt 7));
   SSet (LVal (EInt 8)) (EIdx EData (EInt 8));
   SSet (LVal (EInt 9)) (EIdx EData (EInt 9));
   SSet (LVal (EInt 10)) (EIdx EData (EInt 10));
   SSet (LVal (EInt 11)) (EIdx EData (EInt 11));
   SSet (LVal (EInt 12)) (EIdx EData (EInt 12));
   SSet (LVal (EInt 13)) (EIdx EData (EInt 13));
   SSet (LVal (EInt 14)) (EIdx EData (EInt 14));
   SSet (LVal (EInt 15)) (EIdx EData (EInt 15));
   SSet (LVal (EInt 16)) (EIdx EData (EInt 16));
   SSet (LVal (EInt 17)) (EIdx EData (EInt 17));
   SSet (LVal (EInt 18)) (EIdx EData (EInt 18));
   SSet (LVal (EInt 19)) (EIdx EData (EInt 19));
   SSet (LVal (EInt 20)) (EIdx EData (EInt 20));
   SSet (LVal (EInt 21)) (EIdx EData (EInt 21));
   SSet (LVal (EInt 22)) (EIdx EData (EInt 22));
   SSet (LVal (EInt 23)) (EIdx EData (EInt 23));
   SSet (LVal (EInt 24)) (EIdx EData (EInt 24));
   SSet (LVal (EInt 25)) (EIdx EData (EInt 25));
   SSet (LVal (EInt 26)) (EIdx EData (EInt 26));
   SSet (LVal (EInt 27)) (EIdx EData (EInt 27));
   SSet (LVal (EInt 28)) (EIdx EData (EInt 28));
   SSet (LVal (EInt 29)) (EIdx EData (EInt 29));
   SSet (LVal (EInt 30)) (EIdx EData (EInt 30));
   SSet (LVal (EInt 31)) (EIdx EData (EInt 31))].

(* short_vec_scalar_float_32.hpp:802-806 *)
Definition scalar_float_32_load_aligned : body :=
  [SSet (LVal (EInt 0)) (EIdx EData (EInt 0));
   SSet (LVal (EInt 1)) (EIdx EData (EInt 1));
   SSet (LVal (EInt 2)) (EIdx EData (EInt 2));
   SSet (LVal (EInt 3)) (EIdx EData (EInt 3));
   SSet (LVal (EInt 4)) (EIdx EData (EInt 4));
   SSet (LVal (EInt 5)) (EIdx EData (EInt 5));
   SSet (LVal (EInt 6)) (EIdx EData (EInt 6));
   SSet (LVal (EInt 7)) (EIdx EData (EInt 7));
   SSet (LVal (EInt 8)) (EIdx EData (EInt 8));
   SSet (LVal (EInt 9)) (EIdx EData (EInt 9));
   SSet (LVal (EInt 10)) (EIdx EData (EInt 10));
   SSet (LVal (EInt 11)) (EIdx EData (EInt 11));
   SSet (LVal (EInt 12)) (EIdx EData (EInt 12));
   SSet (LVal (EInt 13)) (EIdx EData (EInt 13));
   SSet (LVal (EInt 14)) (EIdx EData (EInt 14));
   SSet (LVal (EInt 15)) (EIdx EData (EInt 15));
   SSet (LVal (EInt 16)) (EIdx EData (EInt 16));
   SSet (LVal (EInt 17)) (EIdx EData (EInt 17));
   SSet (LVal (EInt 18)) (EIdx EData (EInt 18));
   SSet (LVal (EInt 19)) (EIdx EData (EInt 19));
   SSet (LVal (EInt 20)) (EIdx EData (EInt 20));
   SSet (LVal (EInt 21)) (EIdx EData (EInt 21));
   SSet (LVal (EInt 22)) (EIdx EData (EInt 22));
   SSet (LVal (EInt 23)) (EIdx EData (EInt 23));
   SSet (LVal (EInt 24)) (EIdx EData (EInt 24));
   SSet (LVal (EInt 25)) (EIdx EData (EInt 25));
   SSet (LVal (EInt 26)) (EIdx EData (EInt 26));
   SSet (LVal (EInt 27)) (EIdx EData (EInt 27));
   SSet (LVal (EInt 28)) (EIdx EData (EInt 28));
   SSet (LVal (EInt 29)) (EIdx EData (EInt 29));
   SSet (LVal (EInt 30)) (EIdx EData (EInt 30));
   SSet (LVal (EInt 31)) (EIdx EData (EInt 31))].

(* short_vec_scalar_float_32.hpp:808-843 *)
Definition scalar_float_32_store : body :=
  [SSet (LMem (dat 0)) (vv 0);
   SSet (LMem (dat 1)) (vv 1);
   SSet (LMem (dat 2)) (vv 2);
   SSet (LMem (dat 3)) (vv 3);
   SSet (LMem (dat 4)) (vv 4);
   SSet (LMem (dat 5)) (vv 5);
   SSet (LMem (dat 6)) (vv 6);
   SSet (LMem (dat 7)) (vv 7);
   SSet (LMem (dat 8)) (vv 8);
   SSet (LMem (dat 9)) (vv 9);
   SSet (LMem (dat 10)) (vv 10);
   SSet (LMem (dat 11)) (vv 11);
   SSet (LMem (dat 12)) (vv 12);
   SSet (LMem (dat 13)) (vv 13);
   SSet (LMem (dat 14)) (vv 14);
   SSet (LMem (dat 15)) (vv 15);
   SSet (LMem (dat 16)) (vv 16);
   SSet (LMem (dat 17)) (vv 17);
   SSet (LMem (dat 18)) (vv 18);
   SSet (LMem (dat 19)) (vv 19);
   SSet (LMem (dat 20)) (vv 20);
   SSet (LMem (dat 21)) (vv 21);
   SSet (LMem (dat 22)) (vv 22);
   SSet (LMem (dat 23)) (vv 23);
   SSet (LMem (dat 24)) (vv 24);
   SSet (LMem (dat 25)) (vv 25);
   SSet (LMem (dat 26)) (vv 26);
   SSet (LMem (dat 27)) (vv 27);
   SSet (LMem (dat 28)) (vv 28);
   SSet (LMem (dat 29)) (vv 29);
   SSet (LMem (dat 30)) (vv 30);
   SSet (LMem (dat 31)) (vv 31)].

(* short_vec_scalar_float_32.hpp:845-849 *)
Definition scalar_float_32_store_aligned : body :=
  [SSet (LMem (dat 0)) (vv 0);
   SSet (LMem (dat 1)) (vv 1);
   SSet (LMem (dat 2)) (vv 2);
   SSet (LMem (dat 3)) (vv 3);
   SSet (LMem (dat 4)) (vv 4);
   SSet (LMem (dat 5)) (vv 5);
   SSet (LMem (dat 6)) (vv 6);
   SSet (LMem (dat 7)) (vv 7);
   SSet (LMem (dat 8)) (vv 8);
   SSet (LMem (dat 9)) (vv 9);
   SSet (LMem (dat 10)) (vv 10);
   SSet (LMem (dat 11)) (vv 11);
   SSet (LMem (dat 12)) (vv 12);
   SSet (LMem (dat 13)) (vv 13);
   SSet (LMem (dat 14)) (vv 14);
   SSet (LMem (dat 15)) (vv 15);
   SSet (LMem (dat 16)) (vv 16);
   SSet (LMem (dat 17)) (vv 17);
   SSet (LMem (dat 18)) (vv 18);
   SSet (LMem (dat 19)) (vv 19);
   SSet (LMem (dat 20)) (vv 20);
   SSet (LMem (dat 21)) (vv 21);
   SSet (LMem (dat 22)) (vv 22);
   SSet (LMem (dat 23)) (vv 23);
   SSet (LMem (dat 24)) (vv 24);
   SSet (LMem (dat 25)) (vv 25);
   SSet (LMem (dat 26)) (vv 26);
   SSet (LMem (dat 27)) (vv 27);
   SSet (LMem (dat 28)) (vv 28);
   SSet (LMem (dat 29)) (vv 29);
   SSet (LMem (dat 30)) (vv 30);
   SSet (LMem (dat 31)) (vv 31)].

(* short_vec_scalar_float_32.hpp:851-855 *)
Definition scalar_float_32_store_nt : body :=
  [SSet (LMem (dat 0)) (vv 0);
   SSet (LMem (dat 1)) (vv 1);
   SSet (LMem (dat 2)) (vv 2);
   SSet (LMem (dat 3)) (vv 3);
   SSet (LMem (dat 4)) (vv 4);
   SSet (LMem (dat 5)) (vv 5);
   SSet (LMem (dat 6)) (vv 6);
   SSet (LMem (dat 7)) (vv 7);
   SSet (LMem (dat 8)) (vv 8);
   SSet (LMem (dat 9)) (vv 9);
   SSet (LMem (dat 10)) (vv 10);
   SSet (LMem (dat 11)) (vv 11);
   SSet (LMem (dat 12)) (vv 12);
   SSet (LMem (dat 13)) (vv 13);
   SSet (LMem (dat 14)) (vv 14);
   SSet (LMem (dat 15)) (vv 15);
   SSet (LMem (dat 16)) (vv 16);
   SSet (LMem (dat 17)) (vv 17);
   SSet (LMem (dat 18)) (vv 18);
   SSet (LMem (dat 19)) (vv 19);
   SSet (LMem (dat 20)) (vv 20);
   SSet (LMem (dat 21)) (vv 21);
   SSet (LMem (dat 22)) (vv 22);
   SSet (LMem (dat 23)) (vv 23);
   SSet (LMem (dat 24)) (vv 24);
   SSet (LMem (dat 25)) (vv 25);
   SSet (LMem (dat 26)) (vv 26);
   SSet (LMem (dat 27)) (vv 27);
   SSet (LMem (dat 28)) (vv 28);
   SSet (LMem (dat 29)) (vv 29);
   SSet (LMem (dat 30)) (vv 30);
   SSet (LMem (dat 31)) (vv 31)].

(* short_vec_scalar_float_32.hpp:857-892 *)
Definition scalar_float_32_gather : body :=
  [SSet (LVal (EInt 0)) (EIdx EPtr (off 0));
   SSet (LVal (EInt 1)) (EIdx EPtr (off 1));
   SSet (LVal (EInt 2)) (EIdx EPtr (off 2));
   SSet (LVal (EInt 3)) (EIdx EPtr (off 3));
   SSet (LVal (EInt 4)) (EIdx EPtr (off 4));
   SSet (LVal (EInt 5)) (EIdx EPtr (off 5));
   SSet (LVal (EInt 6)) (EIdx EPtr (off 6));
   SSet (LVal (EInt 7)) (EIdx EPtr (off 7));
   SSet (LVal (EInt 8)) (EIdx EPtr (off 8));
   SSet (LVal (EInt 9)) (EIdx EPtr (off 9));
   SSet (LVal (EInt 10)) (EIdx EPtr (off 10));
   SSet (LVal (EInt 11)) (EIdx EPtr (off 11));
   SSet (LVal (EInt 12)) (EIdx EPtr (off 12));
   SSet (LVal (EInt 13)) (EIdx EPtr (off 13));
   SSet (LVal (EInt 14)) (EIdx EPtr (off 14));
   SSet (LVal (EInt 15)) (EIdx EPtr (off 15));
   SSet (LVal (EInt 16)) (EIdx EPtr (off 16));
   SSet (LVal (EInt 17)) (EIdx EPtr (off 17));
   SSet (LVal (EInt 18)) (EIdx EPtr (off 18));
   SSet (LVal (EInt 19)) (EIdx EPtr (off 19));
   SSet (LVal (EInt 20)) (EIdx EPtr (off 20));
   SSet (LVal (EInt 21)) (EIdx EPtr (off 21));
   SSet (LVal (EInt 22)) (EIdx EPtr (off 22));
   SSet (LVal (EInt 23)) (EIdx EPtr (off 23));
   SSet (LVal (EInt 24)) (EIdx EPtr (off 24));
   SSet (LVal (EInt 25)) (EIdx EPtr (off 25));
   SSet (LVal (EInt 26)) (EIdx EPtr (off 26));
   SSet (LVal (EInt 27)) (EIdx EPtr (off 27));
   SSet (LVal (EInt 28)) (EIdx EPtr (off 28));
   SSet (LVal (EInt 29)) (EIdx EPtr (off 29));
   SSet (LVal (EInt 30)) (EIdx EPtr (off 30));
   SSet (LVal (EInt 31)) (EIdx EPtr (off 31))].

(* short_vec_scalar_float_32.hpp:894-929 *)
Definition scalar_float_32_scatter : body :=
  [SSet (LMem (pto 0)) (vv 0);
   SSet (LMem (pto 1)) (vv 1);
   SSet (LMem (pto 2)) (vv 2);
   SSet (LMem (pto 3)) (vv 3);
   SSet (LMem (pto 4)) (vv 4);
   SSet (LMem (pto 5)) (vv 5);
   SSet (LMem (pto 6)) (vv 6);
   SSet (LMem (pto 7)) (vv 7);
   SSet (LMem (pto 8)) (vv 8);
   SSet (LMem (pto 9)) (vv 9);
   SSet (LMem (pto 10)) (vv 10);
   SSet (LMem (pto 11)) (vv 11);
   SSet (LMem (pto 12)) (vv 12);
   SSet (LMem (pto 13)) (vv 13);
   SSet (LMem (pto 14)) (vv 14);
   SSet (LMem (pto 15)) (vv 15);
   SSet (LMem (pto 16)) (vv 16);
   SSet (LMem (pto 17)) (vv 17);
   SSet (LMem (pto 18)) (vv 18);
   SSet (LMem (pto 19)) (vv 19);
   SSet (LMem (pto 20)) (vv 20);
   SSet (LMem (pto 21)) (vv 21);
   SSet (LMem (pto 22)) (vv 22);
   SSet (LMem (pto 23)) (vv 23);
   SSet (LMem (pto 24)) (vv 24);
   SSet (LMem (pto 25)) (vv 25);
   SSet (LMem (pto 26)) (vv 26);
   SSet (LMem (pto 27)) (vv 27);
   SSet (LMem (pto 28)) (vv 28);
   SSet (LMem (pto 29)) (vv 29);
   SSet (LMem (pto 30)) (vv 30);
   SSet (LMem (pto 31)) (vv 31)].

(* short_vec_scalar_float_32.hpp:931-1030 *)
Definition scalar_float_32_blend : body :=
  [SIf (ECop OBitAnd EMaskInt (ECop OShl (EInt 1) (EInt 0))) [SSet (LVal (EInt 0)) (oo 0)] [];
   SIf (ECop OBitAnd EMaskInt (ECop OShl (EInt 1) (EInt 1))) [SSet (LVal (EInt 1)) (oo 1)] [];
   SIf (ECop OBitAnd EMaskInt (ECop OShl (EInt 1) (EInt 2))) [SSet (LVal (EInt 2)) (oo 2)] [];
   SIf (ECop OBitAnd EMaskInt (ECop OShl (EInt 1) (EInt 3))) [SSet (LVal (EInt 3)) (oo 3)] [];
   SIf (ECop OBitAnd EMaskInt (ECop OShl (EInt 1) (EInt 4))) [SSet (LVal (EInt 4)) (oo 4)] [];
   SIf (ECop OBitAnd EMaskInt (ECop OShl (EInt 1) (EInt 5))) [SSet (LVal (EInt 5)) (oo 5)] [];
   SIf (ECop OBitAnd EMaskInt (ECop OShl (EInt 1) (EInt 6))) [SSet (LVal (EInt 6)) (oo 6)] [];
   SIf (ECop OBitAnd EMaskInt (ECop OShl (EInt 1) (EInt 7))) [SSet (LVal (EInt 7)) (oo 7)] [];
   SIf (ECop OBitAnd EMaskInt (ECop OShl (EInt 1) (EInt 8))) [SSet (LVal (EInt 8)) (oo 8)] [];
   SIf (ECop OBitAnd EMaskInt (ECop OShl (EInt 1) (EInt 9))) [SSet (LVal (EInt 9)) (oo 9)] [];
   SIf (ECop OBitAnd EMaskInt (ECop OShl (EInt 1) (EInt 10))) [SSet (LVal (EInt 10)) (oo 10)] [];
   SIf (ECop OBitAnd EMaskInt (ECop OShl (EInt 1) (EInt 11))) [SSet (LVal (EInt 11)) (oo 11)] [];
   SIf (ECop OBitAnd EMaskInt (ECop OShl (EInt 1) (EInt 12))) [SSet (LVal (EInt 12)) (oo 12)] [];
   SIf (ECop OBitAnd EMaskInt (ECop OShl (EInt 1) (EInt 13))) [SSet (LVal (EInt 13)) (oo 13)] [];
   SIf (ECop OBitAnd EMaskInt (ECop OShl (EInt 1) (EInt 14))) [SSet (LVal (EInt 14)) (oo 14)] [];
   SIf (ECop OBitAnd EMaskInt (ECop OShl (EInt 1) (EInt 15))) [SSet (LVal (EInt 15)) (oo 15)] [];
   SIf (ECop OBitAnd EMaskInt (ECop OShl (EInt 1) (EInt 16))) [SSet (LVal (EInt 16)) (oo 16)] [];
   SIf (ECop OBitAnd EMaskInt (ECop OShl (EInt 1) (EInt 17))) [SSet (LVal (EInt 17)) (oo 17)] [];
   SIf (ECop OBitAnd EMaskInt (ECop OShl (EInt 1) (EInt 18))) [SSet (LVal (EInt 18)) (oo 18)] [];
   SIf (ECop OBitAnd EMaskInt (ECop OShl (EInt 1) (EInt 19))) [SSet (LVal (EInt 19)) (oo 19)] [];
   SIf (ECop OBitAnd EMaskInt (ECop OShl (EInt 1) (EInt 20))) [SSet (LVal (EInt 20)) (oo 20)] [];
   SIf (ECop OBitAnd EMaskInt (ECop OShl (EInt 1) (EInt 21))) [SSet (LVal (EInt 21)) (oo 21)] [];
   SIf (ECop OBitAnd EMaskInt (ECop OShl (EInt 1) (EInt 22))) [SSet (LVal (EInt 22)) (oo 22)] [];
   SIf (ECop OBitAnd EMaskInt (ECop OShl (EInt 1) (EInt 23))) [SSet (LVal (EInt 23)) (oo 23)] [];
   SIf (ECop OBitAnd EMaskInt (ECop OShl (EInt 1) (EInt 24))) [SSet (LVal (EInt 24)) (oo 24)] [];
   SIf (ECop OBitAnd EMaskInt (ECop OShl (EInt 1) (EInt 25))) [SSet (LVal (EInt 25)) (oo 25)] [];
   SIf (ECop OBitAnd EMaskInt (ECop OShl (EInt 1) (EInt 26))) [SSet (LVal (EInt 26)) (oo 26)] [];
   SIf (ECop OBitAnd EMaskInt (ECop OShl (EInt 1) (EInt 27))) [SSet (LVal (EInt 27)) (oo 27)] [];
   SIf (ECop OBitAnd EMaskInt (ECop OShl (EInt 1) (EInt 28))) [SSet (LVal (EInt 28)) (oo 28)] [];
   SIf (ECop OBitAnd EMaskInt (ECop OShl (EInt 1) (EInt 29))) [SSet (LVal (EInt 29)) (oo 29)] [];
   SIf (ECop OBitAnd EMaskInt (ECop OShl (EInt 1) (EInt 30))) [SSet (LVal (EInt 30)) (oo 30)] [];
   SIf (ECop OBitAnd EMaskInt (EInt 2147483648)) [SSet (LVal (EInt 31)) (oo 31)] []].

(* short_vec_scalar_float_32.hpp:1062-1073 *)
Definition scalar_float_32_print : list item :=
  [PStr "["; PVal (vv 0); PStr ", "; PVal (vv 1); PStr ", "; PVal (vv 2); PStr ", "; PVal (vv 3);
   PStr ", "; PVal (vv 4); PStr ", "; PVal (vv 5); PStr ", "; PVal (vv 6); PStr ", "; PVal (vv 7);
   PStr ", "; PVal (vv 8); PStr ", "; PVal (vv 9); PStr ", "; PVal (vv 10); PStr ", "; PVal (vv
   11); PStr ", "; PVal (vv 12); PStr ", "; PVal (vv 13); PStr ", "; PVal (vv 14); PStr ", "; PVal
   (vv 15); PStr ", "; PVal (vv 16); PStr ", "; PVal (vv 17); PStr ", "; PVal (vv 18); PStr ", ";
   PVal (vv 19); PStr ", "; PVal (vv 20); PStr ", "; PVal (vv 21); PStr ", "; PVal (vv 22); PStr
   ", "; PVal (vv 23); PStr ", "; PVal (vv 24); PStr ", "; PVal (vv 25); PStr ", "; PVal (vv 26);
   PStr ", "; PVal (vv 27); PStr ", "; PVal (vv 28); PStr ", "; PVal (vv 29); PStr ", "; PVal (vv
   30); PStr ", "; PVal (vv 31); PStr "]"].

(* short_vec_scalar_float_32.hpp *)
Definition cls_scalar_float_32 : cls :=
  mkCls "scalar_float_32" KF32 32 32 1 4 (MInt 32)
    (fun m => match m with
     | MCtorScalar => Some scalar_float_32_ctor_scalar
     | MCtorPtr => Some scalar_float_32_ctor_ptr
     | MCtorRegs => Some scalar_float_32_ctor_regs
     | MCtorList => Some scalar_float_32_ctor_list
     | MAny => Some scalar_float_32_any
     | MIndex => Some scalar_float_32_index
     | MSubEq => Some scalar_float_32_sub_eq
     | MSub => Some scalar_float_32_sub
     | MAddEq => Some scalar_float_32_add_eq
     | MAdd => Some scalar_float_32_add
     | MMulEq => Some scalar_float_32_mul_eq
     | MMul => Some scalar_float_32_mul
     | MDivEq => Some scalar_float_32_div_eq
     | MDiv => Some scalar_float_32_div
     | MLt => Some scalar_float_32_lt
     | MLe => Some scalar_float_32_le
     | MEq => Some scalar_float_32_eq
     | MGt => Some scalar_float_32_gt
     | MGe => Some scalar_float_32_ge
     | MSqrt => Some scalar_float_32_sqrt
     | MLoad => Some scalar_float_32_load
     | MLoadAligned => Some scalar_float_32_load_aligned
     | MStore => Some scalar_float_32_store
     | MStoreAligned => Some scalar_float_32_store_aligned
     | MStoreNt => Some scalar_float_32_store_nt
     | MGather => Some scalar_float_32_gather
     | MScatter => Some scalar_float_32_scatter
     | MBlend => Some scalar_float_32_blend
     | _ => None
     end)
    scalar_float_32_ctor_regs scalar_float_32_print.

(* short_vec_scalar_int_1.hpp:63-66 *)
Definition scalar_int_1_ctor_scalar : body :=
  [SSet (LVal (EInt 0)) EArg].

(* short_vec_scalar_int_1.hpp:68-72 *)
Definition scalar_int_1_ctor_ptr : body :=
  [SSet (LVal (EInt 0)) (EIdx EData (EInt 0))].

(* short_vec_scalar_int_1.hpp:75-80 *)
Definition scalar_int_1_ctor_list : body :=
  [SSet (LVal (EInt 0)) (EIdx EData (EInt 0))].

(* short_vec_scalar_int_1.hpp:83-87 *)
Definition scalar_int_1_any : body :=
  [SRet (EBool (ECop ONe (vv 0) (EInt 0)))].

(* short_vec_scalar_int_1.hpp:89-93 *)
Definition scalar_int_1_index : body :=
  [SRet (vv 0)].

(* short_vec_scalar_int_1.hpp:95-99 *)
Definition scalar_int_1_sub_eq : body :=
  [SUpd OSub (LVal (EInt 0)) (oo 0)].

(* short_vec_scalar_int_1.hpp:101-106 *)
Definition scalar_int_1_sub : body :=
  [SRetVec [(ECop OSub (vv 0) (oo 0))]].

(* short_vec_scalar_int_1.hpp:108-112 *)
Definition scalar_int_1_add_eq : body :=
  [SUpd OAdd (LVal (EInt 0)) (oo 0)].

(* short_vec_scalar_int_1.hpp:114-119 *)
Definition scalar_int_1_add : body :=
  [SRetVec [(ECop OAdd (vv 0) (oo 0))]].

(* short_vec_scalar_int_1.hpp:121-125 *)
Definition scalar_int_1_mul_eq : body :=
  [SUpd OMul (LVal (EInt 0)) (oo 0)].

(* short_vec_scalar_int_1.hpp:127-132 *)
Definition scalar_int_1_mul : body :=
  [SRetVec [(ECop OMul (vv 0) (oo 0))]].

(* short_vec_scalar_int_1.hpp:134-138 *)
Definition scalar_int_1_div_eq : body :=
  [SUpd ODiv (LVal (EInt 0)) (oo 0)].

(* short_vec_scalar_int_1.hpp:140-145 *)
Definition scalar_int_1_div : body :=
  [SRetVec [(ECop ODiv (vv 0) (oo 0))]].

(* short_vec_scalar_int_1.hpp:148-152 *)
Definition scalar_int_1_lt : body :=
  [SRet (EMaskType (ECop (ORel RLt) (vv 0) (oo 0)))].

(* short_vec_scalar_int_1.hpp:154-158 *)
Definition scalar_int_1_le : body :=
  [SRet (EMaskType (ECop (ORel RLe) (vv 0) (oo 0)))].

(* short_vec_scalar_int_1.hpp:160-164 *)
Definition scalar_int_1_eq : body :=
  [SRet (EMaskType (ECop (ORel REq) (vv 0) (oo 0)))].

(* short_vec_scalar_int_1.hpp:173-177 *)
Definition scalar_int_1_gt : body :=
  [SRet (EMaskType (ECop (ORel RGt) (vv 0) (oo 0)))].

(* short_vec_scalar_int_1.hpp:179-183 *)
Definition scalar_int_1_ge : body :=
  [SRet (EMaskType (ECop (ORel RGe) (vv 0) (oo 0)))].

(* short_vec_scalar_int_1.hpp:186-191 *)
Definition scalar_int_1_sqrt : body :=
  [SRetVec [(EToInt (EStdSqrt (vv 0)))]].

(* short_vec_scalar_int_1.hpp:193-197 *)
Definition scalar_int_1_load : body :=
  [SSet (LVal (EInt 0)) (EIdx EData (EInt 0))].

(* short_vec_scalar_int_1.hpp:199-203 *)
Definition scalar_int_1_load_aligned : body :=
  [SSet (LVal (EInt 0)) (EIdx EData (EInt 0))].

(* short_vec_scalar_int_1.hpp:205-209 *)
Definition scalar_int_1_store : body :=
  [SSet (LMem (dat 0)) (vv 0)].

(* short_vec_scalar_int_1.hpp:211-215 *)
Definition scalar_int_1_store_aligned : body :=
  [SSet (LMem (dat 0)) (vv 0)].

(* short_vec_scalar_int_1.hpp:217-221 *)
Definition scalar_int_1_store_nt : body :=
  [SSet (LMem (dat 0)) (vv 0)].

(* short_vec_scalar_int_1.hpp:223-227 *)
Definition scalar_int_1_gather : body :=
  [SSet (LVal (EInt 0)) (EIdx EPtr (off 0))].

(* short_vec_scalar_int_1.hpp:229-233 *)
Definition scalar_int_1_scatter : body :=
  [SSet (LMem (pto 0)) (vv 0)].

(* short_vec_scalar_int_1.hpp:266-269 *)
Definition scalar_int_1_print : list item :=
  [PStr "["; PVal (vv 0); PStr "]"].

(* short_vec_scalar_int_1.hpp *)
Definition cls_scalar_int_1 : cls :=
  mkCls "scalar_int_1" KI32 1 1 1 4 (MInt 8)
    (fun m => match m with
     | MCtorScalar => Some scalar_int_1_ctor_scalar
     | MCtorPtr => Some scalar_int_1_ctor_ptr
     | MCtorList => Some scalar_int_1_ctor_list
     | MAny => Some scalar_int_1_any
     | MIndex => Some scalar_int_1_index
     | MSubEq => Some scalar_int_1_sub_eq
     | MSub => Some scalar_int_1_sub
     | MAddEq => Some scalar_int_1_add_eq
     | MAdd => Some scalar_int_1_add
     | MMulEq => Some scalar_int_1_mul_eq
     | MMul => Some scalar_int_1_mul
     | MDivEq => Some scalar_int_1_div_eq
     | MDiv => Some scalar_int_1_div
     | MLt => Some scalar_int_1_lt
     | MLe => Some scalar_int_1_le
     | MEq => Some scalar_int_1_eq
     | MGt => Some scalar_int_1_gt
     | MGe => Some scalar_int_1_ge
     | MSqrt => Some scalar_int_1_sqrt
     | MLoad => Some scalar_int_1_load
     | MLoadAligned => Some scalar_int_1_load_aligned
     | MStore => Some scalar_int_1_store
     | MStoreAligned => Some scalar_int_1_store_aligned
     | MStoreNt => Some scalar_int_1_store_nt
     | MGather => Some scalar_int_1_gather
     | MScatter => Some scalar_int_1_scatter
     | _ => None
     end)
    scalar_int_1_ctor_scalar scalar_int_1_print.

(* short_vec_scalar_int_2.hpp:61-64 *)
Definition scalar_int_2_ctor_scalar : body :=
  [SSet (LVal (EInt 0)) EArg;
   SSet (LVal (EInt 1)) EArg].

(* short_vec_scalar_int_2.hpp:66-70 *)
Definition scalar_int_2_ctor_ptr : body :=
  [SSet (LVal (EInt 0)) (EIdx EData (EInt 0));
   SSet (LVal (EInt 1)) (EIdx EData (EInt 1))].

(* short_vec_scalar_int_2.hpp:72-76 *)
Definition scalar_int_2_ctor_regs : body :=
  [SSet (LVal (EInt 0)) (EPar 0);
   SSet (LVal (EInt 1)) (EPar 1)].

(* short_vec_scalar_int_2.hpp:79-84 *)
Definition scalar_int_2_ctor_list : body :=
  [SSet (LVal (EInt 0)) (EIdx EData (EInt 0));
   SSet (LVal (EInt 1)) (EIdx EData (EInt 1))].

(* short_vec_scalar_int_2.hpp:87-92 *)
Definition scalar_int_2_sub_eq : body :=
  [SUpd OSub (LVal (EInt 0)) (oo 0);
   SUpd OSub (LVal (EInt 1)) (oo 1)].

(* short_vec_scalar_int_2.hpp:94-100 *)
Definition scalar_int_2_sub : body :=
  [SRetVec [(ECop OSub (vv 0) (oo 0)); (ECop OSub (vv 1) (oo 1))]].

(* short_vec_scalar_int_2.hpp:102-107 *)
Definition scalar_int_2_add_eq : body :=
  [SUpd OAdd (LVal (EInt 0)) (oo 0);
   SUpd OAdd (LVal (EInt 1)) (oo 1)].

(* short_vec_scalar_int_2.hpp:109-115 *)
Definition scalar_int_2_add : body :=
  [SRetVec [(ECop OAdd (vv 0) (oo 0)); (ECop OAdd (vv 1) (oo 1))]].

(* short_vec_scalar_int_2.hpp:117-122 *)
Definition scalar_int_2_mul_eq : body :=
  [SUpd OMul (LVal (EInt 0)) (oo 0);
   SUpd OMul (LVal (EInt 1)) (oo 1)].

(* short_vec_scalar_int_2.hpp:124-130 *)
Definition scalar_int_2_mul : body :=
  [SRetVec [(ECop OMul (vv 0) (oo 0)); (ECop OMul (vv 1) (oo 1))]].

(* short_vec_scalar_int_2.hpp:132-137 *)
Definition scalar_int_2_div_eq : body :=
  [SUpd ODiv (LVal (EInt 0)) (oo 0);
   SUpd ODiv (LVal (EInt 1)) (oo 1)].

(* short_vec_scalar_int_2.hpp:139-145 *)
Definition scalar_int_2_div : body :=
  [SRetVec [(ECop ODiv (vv 0) (oo 0)); (ECop ODiv (vv 1) (oo 1))]].

(* short_vec_scalar_int_2.hpp:147-153 *)
Definition scalar_int_2_sqrt : body :=
  [SRetVec [(EToInt (EStdSqrt (vv 0))); (EToInt (EStdSqrt (vv 1)))]].

(* short_vec_scalar_int_2.hpp:155-160 *)
Definition scalar_int_2_load : body :=
  [SSet (LVal (EInt 0)) (EIdx EData (EInt 0));
   SSet (LVal (EInt 1)) (EIdx EData (EInt 1))].

(* short_vec_scalar_int_2.hpp:162-166 *)
Definition scalar_int_2_load_aligned : body :=
  [SSet (LVal (EInt 0)) (EIdx EData (EInt 0));
   SSet (LVal (EInt 1)) (EIdx EData (EInt 1))].

(* short_vec_scalar_int_2.hpp:168-173 *)
Definition scalar_int_2_store : body :=
  [SSet (LMem (dat 0)) (vv 0);
   SSet (LMem (dat 1)) (vv 1)].

(* short_vec_scalar_int_2.hpp:175-179 *)
Definition scalar_int_2_store_aligned : body :=
  [SSet (LMem (dat 0)) (vv 0);
   SSet (LMem (dat 1)) (vv 1)].

(* short_vec_scalar_int_2.hpp:181-185 *)
Definition scalar_int_2_store_nt : body :=
  [SSet (LMem (dat 0)) (vv 0);
   SSet (LMem (dat 1)) (vv 1)].

(* short_vec_scalar_int_2.hpp:187-192 *)
Definition scalar_int_2_gather : body :=
  [SSet (LVal (EInt 0)) (EIdx EPtr (off 0));
   SSet (LVal (EInt 1)) (EIdx EPtr (off 1))].

(* short_vec_scalar_int_2.hpp:194-199 *)
Definition scalar_int_2_scatter : body :=
  [SSet (LMem (pto 0)) (vv 0);
   SSet (LMem (pto 1)) (vv 1)].

(* short_vec_scalar_int_2.hpp:232-236 *)
Definition scalar_int_2_print : list item :=
  [PStr "["; PVal (vv 0); PStr ", "; PVal (vv 1); PStr "]"].

(* short_vec_scalar_int_2.hpp *)
Definition cls_scalar_int_2 : cls :=
  mkCls "scalar_int_2" KI32 2 2 1 4 MNone
    (fun m => match m with
     | MCtorScalar => Some scalar_int_2_ctor_scalar
     | MCtorPtr => Some scalar_int_2_ctor_ptr
     | MCtorRegs => Some scalar_int_2_ctor_regs
     | MCtorList => Some scalar_int_2_ctor_list
     | MSubEq => Some scalar_int_2_sub_eq
     | MSub => Some scalar_int_2_sub
     | MAddEq => Some scalar_int_2_add_eq
     | MAdd => Some scalar_int_2_add
     | MMulEq => Some scalar_int_2_mul_eq
     | MMul => Some scalar_int_2_mul
     | MDivEq => Some scalar_int_2_div_eq
     | MDiv => Some scalar_int_2_div
     | MSqrt => Some scalar_int_2_sqrt
     | MLoad => Some scalar_int_2_load
     | MLoadAligned => Some scalar_int_2_load_aligned
     | MStore => Some scalar_int_2_store
     | MStoreAligned => Some scalar_int_2_store_aligned
     | MStoreNt => Some scalar_int_2_store_nt
     | MGather => Some scalar_int_2_gather
     | MScatter => Some scalar_int_2_scatter
     | _ => None
     end)
    scalar_int_2_ctor_regs scalar_int_2_print.

(* short_vec_scalar_int_4.hpp:66-72 *)
Definition scalar_int_4_ctor_scalar : body :=
  [SSet (LVal (EInt 0)) EArg;
   SSet (LVal (EInt 1)) EArg;
   SSet (LVal (EInt 2)) EArg;
   SSet (LVal (EInt 3)) EArg].

(* short_vec_scalar_int_4.hpp:74-78 *)
Definition scalar_int_4_ctor_ptr : body :=
  [SSet (LVal (EInt 0)) (EIdx EData (EInt 0));
   SSet (LVal (EInt 1)) (EIdx EData (EInt 1));
   SSet (LVal (EInt 2)) (EIdx EData (EInt 2));
   SSet (LVal (EInt 3)) (EIdx EData (EInt 3))].

(* short_vec_scalar_int_4.hpp:80-90 *)
Definition scalar_int_4_ctor_regs : body :=
  [SSet (LVal (EInt 0)) (EPar 0);
   SSet (LVal (EInt 1)) (EPar 1);
   SSet (LVal (EInt 2)) (EPar 2);
   SSet (LVal (EInt 3)) (EPar 3)].

(* short_vec_scalar_int_4.hpp:93-98 *)
Definition scalar_int_4_ctor_list : body :=
  [SSet (LVal (EInt 0)) (EIdx EData (EInt 0));
   SSet (LVal (EInt 1)) (EIdx EData (EInt 1));
   SSet (LVal (EInt 2)) (EIdx EData (EInt 2));
   SSet (LVal (EInt 3)) (EIdx EData (EInt 3))].

(* short_vec_scalar_int_4.hpp:101-108 *)
Definition scalar_int_4_sub_eq : body :=
  [SUpd OSub (LVal (EInt 0)) (oo 0);
   SUpd OSub (LVal (EInt 1)) (oo 1);
   SUpd OSub (LVal (EInt 2)) (oo 2);
   SUpd OSub (LVal (EInt 3)) (oo 3)].

(* short_vec_scalar_int_4.hpp:110-118 *)
Definition scalar_int_4_sub : body :=
  [SRetVec [(ECop OSub (vv 0) (oo 0)); (ECop OSub (vv 1) (oo 1)); (ECop OSub (vv 2) (oo 2)); (ECop
    OSub (vv 3) (oo 3))]].

(* short_vec_scalar_int_4.hpp:120-127 *)
Definition scalar_int_4_add_eq : body :=
  [SUpd OAdd (LVal (EInt 0)) (oo 0);
   SUpd OAdd (LVal (EInt 1)) (oo 1);
   SUpd OAdd (LVal (EInt 2)) (oo 2);
   SUpd OAdd (LVal (EInt 3)) (oo 3)].

(* short_vec_scalar_int_4.hpp:129-137 *)
Definition scalar_int_4_add : body :=
  [SRetVec [(ECop OAdd (vv 0) (oo 0)); (ECop OAdd (vv 1) (oo 1)); (ECop OAdd (vv 2) (oo 2)); (ECop
    OAdd (vv 3) (oo 3))]].

(* short_vec_scalar_int_4.hpp:139-146 *)
Definition scalar_int_4_mul_eq : body :=
  [SUpd OMul (LVal (EInt 0)) (oo 0);
   SUpd OMul (LVal (EInt 1)) (oo 1);
   SUpd OMul (LVal (EInt 2)) (oo 2);
   SUpd OMul (LVal (EInt 3)) (oo 3)].

(* short_vec_scalar_int_4.hpp:148-156 *)
Definition scalar_int_4_mul : body :=
  [SRetVec [(ECop OMul (vv 0) (oo 0)); (ECop OMul (vv 1) (oo 1)); (ECop OMul (vv 2) (oo 2)); (ECop
    OMul (vv 3) (oo 3))]].

(* short_vec_scalar_int_4.hpp:158-165 *)
Definition scalar_int_4_div_eq : body :=
  [SUpd ODiv (LVal (EInt 0)) (oo 0);
   SUpd ODiv (LVal (EInt 1)) (oo 1);
   SUpd ODiv (LVal (EInt 2)) (oo 2);
   SUpd ODiv (LVal (EInt 3)) (oo 3)].

(* short_vec_scalar_int_4.hpp:167-175 *)
Definition scalar_int_4_div : body :=
  [SRetVec [(ECop ODiv (vv 0) (oo 0)); (ECop ODiv (vv 1) (oo 1)); (ECop ODiv (vv 2) (oo 2)); (ECop
    ODiv (vv 3) (oo 3))]].

(* short_vec_scalar_int_4.hpp:177-185 *)
Definition scalar_int_4_sqrt : body :=
  [SRetVec [(EToInt (EStdSqrt (vv 0))); (EToInt (EStdSqrt (vv 1))); (EToInt (EStdSqrt (vv 2)));
    (EToInt (EStdSqrt (vv 3)))]].

(* short_vec_scalar_int_4.hpp:187-194 *)
Definition scalar_int_4_load : body :=
  [SSet (LVal (EInt 0)) (EIdx EData (EInt 0));
   SSet (LVal (EInt 1)) (EIdx EData (EInt 1));
   SSet (LVal (EInt 2)) (EIdx EData (EInt 2));
   SSet (LVal (EInt 3)) (EIdx EData (EInt 3))].

(* short_vec_scalar_int_4.hpp:196-200 *)
Definition scalar_int_4_load_aligned : body :=
  [SSet (LVal (EInt 0)) (EIdx EData (EInt 0));
   SSet (LVal (EInt 1)) (EIdx EData (EInt 1));
   SSet (LVal (EInt 2)) (EIdx EData (EInt 2));
   SSet (LVal (EInt 3)) (EIdx EData (EInt 3))].

(* short_vec_scalar_int_4.hpp:202-209 *)
Definition scalar_int_4_store : body :=
  [SSet (LMem (dat 0)) (vv 0);
   SSet (LMem (dat 1)) (vv 1);
   SSet (LMem (dat 2)) (vv 2);
   SSet (LMem (dat 3)) (vv 3)].

(* short_vec_scalar_int_4.hpp:211-215 *)
Definition scalar_int_4_store_aligned : body :=
  [SSet (LMem (dat 0)) (vv 0);
   SSet (LMem (dat 1)) (vv 1);
   SSet (LMem (dat 2)) (vv 2);
   SSet (LMem (dat 3)) (vv 3)].

(* short_vec_scalar_int_4.hpp:217-221 *)
Definition scalar_int_4_store_nt : body :=
  [SSet (LMem (dat 0)) (vv 0);
   SSet (LMem (dat 1)) (vv 1);
   SSet (LMem (dat 2)) (vv 2);
   SSet (LMem (dat 3)) (vv 3)].

(* short_vec_scalar_int_4.hpp:223-230 *)
Definition scalar_int_4_gather : body :=
  [SSet (LVal (EInt 0)) (EIdx EPtr (off 0));
   SSet (LVal (EInt 1)) (EIdx EPtr (off 1));
   SSet (LVal (EInt 2)) (EIdx EPtr (off 2));
   SSet (LVal (EInt 3)) (EIdx EPtr (off 3))].

(* short_vec_scalar_int_4.hpp:232-239 *)
Definition scalar_int_4_scatter : body :=
  [SSet (LMem (pto 0)) (vv 0);
   SSet (LMem (pto 1)) (vv 1);
   SSet (LMem (pto 2)) (vv 2);
   SSet (LMem (pto 3)) (vv 3)].

(* short_vec_scalar_int_4.hpp:271-278 *)
Definition scalar_int_4_print : list item :=
  [PStr "["; PVal (vv 0); PStr ", "; PVal (vv 1); PStr ", "; PVal (vv 2); PStr ", "; PVal (vv 3);
   PStr "]"].

(* short_vec_scalar_int_4.hpp *)
Definition cls_scalar_int_4 : cls :=
  mkCls "scalar_int_4" KI32 4 4 1 4 MNone
    (fun m => match m with
     | MCtorScalar => Some scalar_int_4_ctor_scalar
     | MCtorPtr => Some scalar_int_4_ctor_ptr
     | MCtorRegs => Some scalar_int_4_ctor_regs
     | MCtorList => Some scalar_int_4_ctor_list
     | MSubEq => Some scalar_int_4_sub_eq
     | MSub => Some scalar_int_4_sub
     | MAddEq => Some scalar_int_4_add_eq
     | MAdd => Some scalar_int_4_add
     | MMulEq => Some scalar_int_4_mul_eq
     | MMul => Some scalar_int_4_mul
     | MDivEq => Some scalar_int_4_div_eq
     | MDiv => Some scalar_int_4_div
     | MSqrt => Some scalar_int_4_sqrt
     | MLoad => Some scalar_int_4_load
     | MLoadAligned => Some scalar_int_4_load_aligned
     | MStore => Some scalar_int_4_store
     | MStoreAligned => Some scalar_int_4_store_aligned
     | MStoreNt => Some scalar_int_4_store_nt
     | MGather => Some scalar_int_4_gather
     | MScatter => Some scalar_int_4_scatter
     | _ => None
     end)
    scalar_int_4_ctor_regs scalar_int_4_print.

(* short_vec_scalar_int_8.hpp:68-78 *)
Definition scalar_int_8_ctor_scalar : body :=
  [SSet (LVal (EInt 0)) EArg;
   SSet (LVal (EInt 1)) EArg;
   SSet (LVal (EInt 2)) EArg;
   SSet (LVal (EInt 3)) EArg;
   SSet (LVal (EInt 4)) EArg;
   SSet (LVal (EInt 5)) EArg;
   SSet (LVal (EInt 6)) EArg;
   SSet (LVal (EInt 7)) EArg].

(* short_vec_scalar_int_8.hpp:80-84 *)
Definition scalar_int_8_ctor_ptr : body :=
  [SSet (LVal (EInt 0)) (EIdx EData (EInt 0));
   SSet (LVal (EInt 1)) (EIdx EData (EInt 1));
   SSet (LVal (EInt 2)) (EIdx EData (EInt 2));
   SSet (LVal (EInt 3)) (EIdx EData (EInt 3));
   SSet (LVal (EInt 4)) (EIdx EData (EInt 4));
   SSet (LVal (EInt 5)) (EIdx EData (EInt 5));
   SSet (LVal (EInt 6)) (EIdx EData (EInt 6));
   SSet (LVal (EInt 7)) (EIdx EData (EInt 7))].

(* short_vec_scalar_int_8.hpp:86-104 *)
Definition scalar_int_8_ctor_regs : body :=
  [SSet (LVal (EInt 0)) (EPar 0);
   SSet (LVal (EInt 1)) (EPar 1);
   SSet (LVal (EInt 2)) (EPar 2);
   SSet (LVal (EInt 3)) (EPar 3);
   SSet (LVal (EInt 4)) (EPar 4);
   SSet (LVal (EInt 5)) (EPar 5);
   SSet (LVal (EInt 6)) (EPar 6);
   SSet (LVal (EInt 7)) (EPar 7)].

(* short_vec_scalar_int_8.hpp:107-112 *)
Definition scalar_int_8_ctor_list : body :=
  [SSet (LVal (EInt 0)) (EIdx EData (EInt 0));
   SSet (LVal (EInt 1)) (EIdx EData (EInt 1));
   SSet (LVal (EInt 2)) (EIdx EData (EInt 2));
   SSet (LVal (EInt 3)) (EIdx EData (EInt 3));
   SSet (LVal (EInt 4)) (EIdx EData (EInt 4));
   SSet (LVal (EInt 5)) (EIdx EData (EInt 5));
   SSet (LVal (EInt 6)) (EIdx EData (EInt 6));
   SSet (LVal (EInt 7)) (EIdx EData (EInt 7))].

(* short_vec_scalar_int_8.hpp:115-126 *)
Definition scalar_int_8_sub_eq : body :=
  [SUpd OSub (LVal (EInt 0)) (oo 0);
   SUpd OSub (LVal (EInt 1)) (oo 1);
   SUpd OSub (LVal (EInt 2)) (oo 2);
   SUpd OSub (LVal (EInt 3)) (oo 3);
   SUpd OSub (LVal (EInt 4)) (oo 4);
   SUpd OSub (LVal (EInt 5)) (oo 5);
   SUpd OSub (LVal (EInt 6)) (oo 6);
   SUpd OSub (LVal (EInt 7)) (oo 7)].

(* short_vec_scalar_int_8.hpp:128-140 *)
Definition scalar_int_8_sub : body :=
  [SRetVec [(ECop OSub (vv 0) (oo 0)); (ECop OSub (vv 1) (oo 1)); (ECop OSub (vv 2) (oo 2)); (ECop
    OSub (vv 3) (oo 3)); (ECop OSub (vv 4) (oo 4)); (ECop OSub (vv 5) (oo 5)); (ECop OSub (vv 6) (oo
    6)); (ECop OSub (vv 7) (oo 7))]].

(* short_vec_scalar_int_8.hpp:142-153 *)
Definition scalar_int_8_add_eq : body :=
  [SUpd OAdd (LVal (EInt 0)) (oo 0);
   SUpd OAdd (LVal (EInt 1)) (oo 1);
   SUpd OAdd (LVal (EInt 2)) (oo 2);
   SUpd OAdd (LVal (EInt 3)) (oo 3);
   SUpd OAdd (LVal (EInt 4)) (oo 4);
   SUpd OAdd (LVal (EInt 5)) (oo 5);
   SUpd OAdd (LVal (EInt 6)) (oo 6);
   SUpd OAdd (LVal (EInt 7)) (oo 7)].

(* short_vec_scalar_int_8.hpp:155-167 *)
Definition scalar_int_8_add : body :=
  [SRetVec [(ECop OAdd (vv 0) (oo 0)); (ECop OAdd (vv 1) (oo 1)); (ECop OAdd (vv 2) (oo 2)); (ECop
    OAdd (vv 3) (oo 3)); (ECop OAdd (vv 4) (oo 4)); (ECop OAdd (vv 5) (oo 5)); (ECop OAdd (vv 6) (oo
    6)); (ECop OAdd (vv 7) (oo 7))]].

(* short_vec_scalar_int_8.hpp:169-180 *)
Definition scalar_int_8_mul_eq : body :=
  [SUpd OMul (LVal (EInt 0)) (oo 0);
   SUpd OMul (LVal (EInt 1)) (oo 1);
   SUpd OMul (LVal (EInt 2)) (oo 2);
   SUpd OMul (LVal (EInt 3)) (oo 3);
   SUpd OMul (LVal (EInt 4)) (oo 4);
   SUpd OMul (LVal (EInt 5)) (oo 5);
   SUpd OMul (LVal (EInt 6)) (oo 6);
   SUpd OMul (LVal (EInt 7)) (oo 7)].

(* short_vec_scalar_int_8.hpp:182-194 *)
Definition scalar_int_8_mul : body :=
  [SRetVec [(ECop OMul (vv 0) (oo 0)); (ECop OMul (vv 1) (oo 1)); (ECop OMul (vv 2) (oo 2)); (ECop
    OMul (vv 3) (oo 3)); (ECop OMul (vv 4) (oo 4)); (ECop OMul (vv 5) (oo 5)); (ECop OMul (vv 6) (oo
    6)); (ECop OMul (vv 7) (oo 7))]].

(* short_vec_scalar_int_8.hpp:196-207 *)
Definition scalar_int_8_div_eq : body :=
  [SUpd ODiv (LVal (EInt 0)) (oo 0);
   SUpd ODiv (LVal (EInt 1)) (oo 1);
   SUpd ODiv (LVal (EInt 2)) (oo 2);
   SUpd ODiv (LVal (EInt 3)) (oo 3);
   SUpd ODiv (LVal (EInt 4)) (oo 4);
   SUpd ODiv (LVal (EInt 5)) (oo 5);
   SUpd ODiv (LVal (EInt 6)) (oo 6);
   SUpd ODiv (LVal (EInt 7)) (oo 7)].

(* short_vec_scalar_int_8.hpp:209-221 *)
Definition scalar_int_8_div : body :=
  [SRetVec [(ECop ODiv (vv 0) (oo 0)); (ECop ODiv (vv 1) (oo 1)); (ECop ODiv (vv 2) (oo 2)); (ECop
    ODiv (vv 3) (oo 3)); (ECop ODiv (vv 4) (oo 4)); (ECop ODiv (vv 5) (oo 5)); (ECop ODiv (vv 6) (oo
    6)); (ECop ODiv (vv 7) (oo 7))]].

(* short_vec_scalar_int_8.hpp:228-240 *)
Definition scalar_int_8_sqrt : body :=
  [SRetVec [(EToInt (EStdSqrt (vv 0))); (EToInt (EStdSqrt (vv 1))); (EToInt (EStdSqrt (vv 2)));
    (EToInt (EStdSqrt (vv 3))); (EToInt (EStdSqrt (vv 4))); (EToInt (EStdSqrt (vv 5))); (EToInt
    (EStdSqrt (vv 6))); (EToInt (EStdSqrt (vv 7)))]].

(* short_vec_scalar_int_8.hpp:245-256 *)
Definition scalar_int_8_load : body :=
  [SSet (LVal (EInt 0)) (EIdx EData (EInt 0));
   SSet (LVal (EInt 1)) (EIdx EData (EInt 1));
   SSet (LVal (EInt 2)) (EIdx EData (EInt 2));
   SSet (LVal (EInt 3)) (EIdx EData (EInt 3));
   SSet (LVal (EInt 4)) (EIdx EData (EInt 4));
   SSet (LVal (EInt 5)) (EIdx EData (EInt 5));
   SSet (LVal (EInt 6)) (EIdx EData (EInt 6));
   SSet (LVal (EInt 7)) (EIdx EData (EInt 7))].

(* short_vec_scalar_int_8.hpp:258-262 *)
Definition scalar_int_8_load_aligned : body :=
  [SSet (LVal (EInt 0)) (EIdx EData (EInt 0));
   SSet (LVal (EInt 1)) (EIdx EData (EInt 1));
   SSet (LVal (EInt 2)) (EIdx EData (EInt 2));
   SSet (LVal (EInt 3)) (EIdx EData (EInt 3));
   SSet (LVal (EInt 4)) (EIdx EData (EInt 4));
   SSet (LVal (EInt 5)) (EIdx EData (EInt 5));
   SSet (LVal (EInt 6)) (EIdx EData (EInt 6));
   SSet (LVal (EInt 7)) (EIdx EData (EInt 7))].

(* short_vec_scalar_int_8.hpp:264-275 *)
Definition scalar_int_8_store : body :=
  [SSet (LMem (dat 0)) (vv 0);
   SSet (LMem (dat 1)) (vv 1);
   SSet (LMem (dat 2)) (vv 2);
   SSet (LMem (dat 3)) (vv 3);
   SSet (LMem (dat 4)) (vv 4);
   SSet (LMem (dat 5)) (vv 5);
   SSet (LMem (dat 6)) (vv 6);
   SSet (LMem (dat 7)) (vv 7)].

(* short_vec_scalar_int_8.hpp:277-281 *)
Definition scalar_int_8_store_aligned : body :=
  [SSet (LMem (dat 0)) (vv 0);
   SSet (LMem (dat 1)) (vv 1);
   SSet (LMem (dat 2)) (vv 2);
   SSet (LMem (dat 3)) (vv 3);
   SSet (LMem (dat 4)) (vv 4);
   SSet (LMem (dat 5)) (vv 5);
   SSet (LMem (dat 6)) (vv 6);
   SSet (LMem (dat 7)) (vv 7)].

(* short_vec_scalar_int_8.hpp:283-287 *)
Definition scalar_int_8_store_nt : body :=
  [SSet (LMem (dat 0)) (vv 0);
   SSet (LMem (dat 1)) (vv 1);
   SSet (LMem (dat 2)) (vv 2);
   SSet (LMem (dat 3)) (vv 3);
   SSet (LMem (dat 4)) (vv 4);
   SSet (LMem (dat 5)) (vv 5);
   SSet (LMem (dat 6)) (vv 6);
   SSet (LMem (dat 7)) (vv 7)].

(* short_vec_scalar_int_8.hpp:289-300 *)
Definition scalar_int_8_gather : body :=
  [SSet (LVal (EInt 0)) (EIdx EPtr (off 0));
   SSet (LVal (EInt 1)) (EIdx EPtr (off 1));
   SSet (LVal (EInt 2)) (EIdx EPtr (off 2));
   SSet (LVal (EInt 3)) (EIdx EPtr (off 3));
   SSet (LVal (EInt 4)) (EIdx EPtr (off 4));
   SSet (LVal (EInt 5)) (EIdx EPtr (off 5));
   SSet (LVal (EInt 6)) (EIdx EPtr (off 6));
   SSet (LVal (EInt 7)) (EIdx EPtr (off 7))].

(* short_vec_scalar_int_8.hpp:302-313 *)
Definition scalar_int_8_scatter : body :=
  [SSet (LMem (pto 0)) (vv 0);
   SSet (LMem (pto 1)) (vv 1);
   SSet (LMem (pto 2)) (vv 2);
   SSet (LMem (pto 3)) (vv 3);
   SSet (LMem (pto 4)) (vv 4);
   SSet (LMem (pto 5)) (vv 5);
   SSet (LMem (pto 6)) (vv 6);
   SSet (LMem (pto 7)) (vv 7)].

(* short_vec_scalar_int_8.hpp:345-350 *)
Definition scalar_int_8_print : list item :=
  [PStr "["; PVal (vv 0); PStr ", "; PVal (vv 1); PStr ", "; PVal (vv 2); PStr ", "; PVal (vv 3);
   PStr ", "; PVal (vv 4); PStr ", "; PVal (vv 5); PStr ", "; PVal (vv 6); PStr ", "; PVal (vv 7);
   PStr "]"].

(* short_vec_scalar_int_8.hpp *)
Definition cls_scalar_int_8 : cls :=
  mkCls "scalar_int_8" KI32 8 8 1 4 MNone
    (fun m => match m with
     | MCtorScalar => Some scalar_int_8_ctor_scalar
     | MCtorPtr => Some scalar_int_8_ctor_ptr
     | MCtorRegs => Some scalar_int_8_ctor_regs
     | MCtorList => Some scalar_int_8_ctor_list
     | MSubEq => Some scalar_int_8_sub_eq
     | MSub => Some scalar_int_8_sub
     | MAddEq => Some scalar_int_8_add_eq
     | MAdd => Some scalar_int_8_add
     | MMulEq => Some scalar_int_8_mul_eq
     | MMul => Some scalar_int_8_mul
     | MDivEq => Some scalar_int_8_div_eq
     | MDiv => Some scalar_int_8_div
     | MSqrt => Some scalar_int_8_sqrt
     | MLoad => Some scalar_int_8_load
     | MLoadAligned => Some scalar_int_8_load_aligned
     | MStore => Some scalar_int_8_store
     | MStoreAligned => Some scalar_int_8_store_aligned
     | MStoreNt => Some scalar_int_8_store_nt
     | MGather => Some scalar_int_8_gather
     | MScatter => Some scalar_int_8_scatter
     | _ => None
     end)
    scalar_int_8_ctor_regs scalar_int_8_print.

(* short_vec_scalar_int_16.hpp:68-86 *)
Definition scalar_int_16_ctor_scalar : body :=
  [SSet (LVal (EInt 0)) EArg;
   SSet (LVal (EInt 1)) EArg;
   SSet (LVal (EInt 2)) EArg;
   SSet (LVal (EInt 3)) EArg;
   SSet (LVal (EInt 4)) EArg;
   SSet (LVal (EInt 5)) EArg;
   SSet (LVal (EInt 6)) EArg;
   SSet (LVal (EInt 7)) EArg;
   SSet (LVal (EInt 8)) EArg;
   SSet (LVal (EInt 9)) EArg;
   SSet (LVal (EInt 10)) EArg;
   SSet (LVal (EInt 11)) EArg;
   SSet (LVal (EInt 12)) EArg;
   SSet (LVal (EInt 13)) EArg;
   SSet (LVal (EInt 14)) EArg;
   SSet (LVal (EInt 15)) EArg].

(* short_vec_scalar_int_16.hpp:88-92 *)
Definition scalar_int_16_ctor_ptr : body :=
  [SSet (LVal (EInt 0)) (EIdx EData (EInt 0));
   SSet (LVal (EInt 1)) (EIdx EData (EInt 1));
   SSet (LVal (EInt 2)) (EIdx EData (EInt 2));
   SSet (LVal (EInt 3)) (EIdx EData (EInt 3));
   SSet (LVal (EInt 4)) (EIdx EData (EInt 4));
   SSet (LVal (EInt 5)) (EIdx EData (EInt 5));
   SSet (LVal (EInt 6)) (EIdx EData (EInt 6));
   SSet (LVal (EInt 7)) (EIdx EData (EInt 7));
   SSet (LVal (EInt 8)) (EIdx EData (EInt 8));
   SSet (LVal (EInt 9)) (EIdx EData (EInt 9));
   SSet (LVal (EInt 10)) (EIdx EData (EInt 10));
   SSet (LVal (EInt 11)) (EIdx EData (EInt 11));
   SSet (LVal (EInt 12)) (EIdx EData (EInt 12));
   SSet (LVal (EInt 13)) (EIdx EData (EInt 13));
   SSet (LVal (EInt 14)) (EIdx EData (EInt 14));
   SSet (LVal (EInt 15)) (EIdx EData (EInt 15))].

(* short_vec_scalar_int_16.hpp:94-128 *)
Definition scalar_int_16_ctor_regs : body :=
  [SSet (LVal (EInt 0)) (EPar 0);
   SSet (LVal (EInt 1)) (EPar 1);
   SSet (LVal (EInt 2)) (EPar 2);
   SSet (LVal (EInt 3)) (EPar 3);
   SSet (LVal (EInt 4)) (EPar 4);
   SSet (LVal (EInt 5)) (EPar 5);
   SSet (LVal (EInt 6)) (EPar 6);
   SSet (LVal (EInt 7)) (EPar 7);
   SSet (LVal (EInt 8)) (EPar 8);
   SSet (LVal (EInt 9)) (EPar 9);
   SSet (LVal (EInt 10)) (EPar 10);
   SSet (LVal (EInt 11)) (EPar 11);
   SSet (LVal (EInt 12)) (EPar 12);
   SSet (LVal (EInt 13)) (EPar 13);
   SSet (LVal (EInt 14)) (EPar 14);
   SSet (LVal (EInt 15)) (EPar 15)].

(* short_vec_scalar_int_16.hpp:131-136 *)
Definition scalar_int_16_ctor_list : body :=
  [SSet (LVal (EInt 0)) (EIdx EData (EInt 0));
   SSet (LVal (EInt 1)) (EIdx EData (EInt 1));
   SSet (LVal (EInt 2)) (EIdx EData (EInt 2));
   SSet (LVal (EInt 3)) (EIdx EData (EInt 3));
   SSet (LVal (EInt 4)) (EIdx EData (EInt 4));
   SSet (LVal (EInt 5)) (EIdx EData (EInt 5));
   SSet (LVal (EInt 6)) (EIdx EData (EInt 6));
   SSet (LVal (EInt 7)) (EIdx EData (EInt 7));
   SSet (LVal (EInt 8)) (EIdx EData (EInt 8));
   SSet (LVal (EInt 9)) (EIdx EData (EInt 9));
   SSet (LVal (EInt 10)) (EIdx EData (EInt 10));
   SSet (LVal (EInt 11)) (EIdx EData (EInt 11));
   SSet (LVal (EInt 12)) (EIdx EData (EInt 12));
   SSet (LVal (EInt 13)) (EIdx EData (EInt 13));
   SSet (LVal (EInt 14)) (EIdx EData (EInt 14));
   SSet (LVal (EInt 15)) (EIdx EData (EInt 15))].

(* short_vec_scalar_int_16.hpp:139-158 *)
Definition scalar_int_16_sub_eq : body :=
  [SUpd OSub (LVal (EInt 0)) (oo 0);
   SUpd OSub (LVal (EInt 1)) (oo 1);
   SUpd OSub (LVal (EInt 2)) (oo 2);
   SUpd OSub (LVal (EInt 3)) (oo 3);
   SUpd OSub (LVal (EInt 4)) (oo 4);
   SUpd OSub (LVal (EInt 5)) (oo 5);
   SUpd OSub (LVal (EInt 6)) (oo 6);
   SUpd OSub (LVal (EInt 7)) (oo 7);
   SUpd OSub (LVal (EInt 8)) (oo 8);
   SUpd OSub (LVal (EInt 9)) (oo 9);
   SUpd OSub (LVal (EInt 10)) (oo 10);
   SUpd OSub (LVal (EInt 11)) (oo 11);
   SUpd OSub (LVal (EInt 12)) (oo 12);
   SUpd OSub (LVal (EInt 13)) (oo 13);
   SUpd OSub (LVal (EInt 14)) (oo 14);
   SUpd OSub (LVal (EInt 15)) (oo 15)].

(* short_vec_scalar_int_16.hpp:160-180 *)
Definition scalar_int_16_sub : body :=
  [SRetVec [(ECop OSub (vv 0) (oo 0)); (ECop OSub (vv 1) (oo 1)); (ECop OSub (vv 2) (oo 2)); (ECop
    OSub (vv 3) (oo 3)); (ECop OSub (vv 4) (oo 4)); (ECop OSub (vv 5) (oo 5)); (ECop OSub (vv 6) (oo
    6)); (ECop OSub (vv 7) (oo 7)); (ECop OSub (vv 8) (oo 8)); (ECop OSub (vv 9) (oo 9)); (ECop OSub
    (vv 10) (oo 10)); (ECop OSub (vv 11) (oo 11)); (ECop OSub (vv 12) (oo 12)); (ECop OSub (vv 13)
    (oo 13)); (ECop OSub (vv 14) (oo 14)); (ECop OSub (vv 15) (oo 15))]].

(* short_vec_scalar_int_16.hpp:182-201 *)
Definition scalar_int_16_add_eq : body :=
  [SUpd OAdd (LVal (EInt 0)) (oo 0);
   SUpd OAdd (LVal (EInt 1)) (oo 1);
   SUpd OAdd (LVal (EInt 2)) (oo 2);
   SUpd OAdd (LVal (EInt 3)) (oo 3);
   SUpd OAdd (LVal (EInt 4)) (oo 4);
   SUpd OAdd (LVal (EInt 5)) (oo 5);
   SUpd OAdd (LVal (EInt 6)) (oo 6);
   SUpd OAdd (LVal (EInt 7)) (oo 7);
   SUpd OAdd (LVal (EInt 8)) (oo 8);
   SUpd OAdd (LVal (EInt 9)) (oo 9);
   SUpd OAdd (LVal (EInt 10)) (oo 10);
   SUpd OAdd (LVal (EInt 11)) (oo 11);
   SUpd OAdd (LVal (EInt 12)) (oo 12);
   SUpd OAdd (LVal (EInt 13)) (oo 13);
   SUpd OAdd (LVal (EInt 14)) (oo 14);
   SUpd OAdd (LVal (EInt 15)) (oo 15)].

(* short_vec_scalar_int_16.hpp:203-223 *)
Definition scalar_int_16_add : body :=
  [SRetVec [(ECop OAdd (vv 0) (oo 0)); (ECop OAdd (vv 1) (oo 1)); (ECop OAdd (vv 2) (oo 2)); (ECop
    OAdd (vv 3) (oo 3)); (ECop OAdd (vv 4) (oo 4)); (ECop OAdd (vv 5) (oo 5)); (ECop OAdd (vv 6) (oo
    6)); (ECop OAdd (vv 7) (oo 7)); (ECop OAdd (vv 8) (oo 8)); (ECop OAdd (vv 9) (oo 9)); (ECop OAdd
    (vv 10) (oo 10)); (ECop OAdd (vv 11) (oo 11)); (ECop OAdd (vv 12) (oo 12)); (ECop OAdd (vv 13)
    (oo 13)); (ECop OAdd (vv 14) (oo 14)); (ECop OAdd (vv 15) (oo 15))]].

(* short_vec_scalar_int_16.hpp:225-244 *)
Definition scalar_int_16_mul_eq : body :=
  [SUpd OMul (LVal (EInt 0)) (oo 0);
   SUpd OMul (LVal (EInt 1)) (oo 1);
   SUpd OMul (LVal (EInt 2)) (oo 2);
   SUpd OMul (LVal (EInt 3)) (oo 3);
   SUpd OMul (LVal (EInt 4)) (oo 4);
   SUpd OMul (LVal (EInt 5)) (oo 5);
   SUpd OMul (LVal (EInt 6)) (oo 6);
   SUpd OMul (LVal (EInt 7)) (oo 7);
   SUpd OMul (LVal (EInt 8)) (oo 8);
   SUpd OMul (LVal (EInt 9)) (oo 9);
   SUpd OMul (LVal (EInt 10)) (oo 10);
   SUpd OMul (LVal (EInt 11)) (oo 11);
   SUpd OMul (LVal (EInt 12)) (oo 12);
   SUpd OMul (LVal (EInt 13)) (oo 13);
   SUpd OMul (LVal (EInt 14)) (oo 14);
   SUpd OMul (LVal (EInt 15)) (oo 15)].

(* short_vec_scalar_int_16.hpp:246-266 *)
Definition scalar_int_16_mul : body :=
  [SRetVec [(ECop OMul (vv 0) (oo 0)); (ECop OMul (vv 1) (oo 1)); (ECop OMul (vv 2) (oo 2)); (ECop
    OMul (vv 3) (oo 3)); (ECop OMul (vv 4) (oo 4)); (ECop OMul (vv 5) (oo 5)); (ECop OMul (vv 6) (oo
    6)); (ECop OMul (vv 7) (oo 7)); (ECop OMul (vv 8) (oo 8)); (ECop OMul (vv 9) (oo 9)); (ECop OMul
    (vv 10) (oo 10)); (ECop OMul (vv 11) (oo 11)); (ECop OMul (vv 12) (oo 12)); (ECop OMul (vv 13)
    (oo 13)); (ECop OMul (vv 14) (oo 14)); (ECop OMul (vv 15) (oo 15))]].

(* short_vec_scalar_int_16.hpp:268-287 *)
Definition scalar_int_16_div_eq : body :=
  [SUpd ODiv (LVal (EInt 0)) (oo 0);
   SUpd ODiv (LVal (EInt 1)) (oo 1);
   SUpd ODiv (LVal (EInt 2)) (oo 2);
   SUpd ODiv (LVal (EInt 3)) (oo 3);
   SUpd ODiv (LVal (EInt 4)) (oo 4);
   SUpd ODiv (LVal (EInt 5)) (oo 5);
   SUpd ODiv (LVal (EInt 6)) (oo 6);
   SUpd ODiv (LVal (EInt 7)) (oo 7);
   SUpd ODiv (LVal (EInt 8)) (oo 8);
   SUpd ODiv (LVal (EInt 9)) (oo 9);
   SUpd ODiv (LVal (EInt 10)) (oo 10);
   SUpd ODiv (LVal (EInt 11)) (oo 11);
   SUpd ODiv (LVal (EInt 12)) (oo 12);
   SUpd ODiv (LVal (EInt 13)) (oo 13);
   SUpd ODiv (LVal (EInt 14)) (oo 14);
   SUpd ODiv (LVal (EInt 15)) (oo 15)].

(* short_vec_scalar_int_16.hpp:289-309 *)
Definition scalar_int_16_div : body :=
  [SRetVec [(ECop ODiv (vv 0) (oo 0)); (ECop ODiv (vv 1) (oo 1)); (ECop ODiv (vv 2) (oo 2)); (ECop
    ODiv (vv 3) (oo 3)); (ECop ODiv (vv 4) (oo 4)); (ECop ODiv (vv 5) (oo 5)); (ECop ODiv (vv 6) (oo
    6)); (ECop ODiv (vv 7) (oo 7)); (ECop ODiv (vv 8) (oo 8)); (ECop ODiv (vv 9) (oo 9)); (ECop ODiv
    (vv 10) (oo 10)); (ECop ODiv (vv 11) (oo 11)); (ECop ODiv (vv 12) (oo 12)); (ECop ODiv (vv 13)
    (oo 13)); (ECop ODiv (vv 14) (oo 14)); (ECop ODiv (vv 15) (oo 15))]].

(* short_vec_scalar_int_16.hpp:311-331 *)
Definition scalar_int_16_sqrt : body :=
  [SRetVec [(EToInt (EStdSqrt (vv 0))); (EToInt (EStdSqrt (vv 1))); (EToInt (EStdSqrt (vv 2)));
    (EToInt (EStdSqrt (vv 3))); (EToInt (EStdSqrt (vv 4))); (EToInt (EStdSqrt (vv 5))); (EToInt
    (EStdSqrt (vv 6))); (EToInt (EStdSqrt (vv 7))); (EToInt (EStdSqrt (vv 8))); (EToInt (EStdSqrt
    (vv 9))); (EToInt (EStdSqrt (vv 10))); (EToInt (EStdSqrt (vv 11))); (EToInt (EStdSqrt (vv 12)));
    (EToInt (EStdSqrt (vv 13))); (EToInt (EStdSqrt (vv 14))); (EToInt (EStdSqrt (vv 15)))]].

(* short_vec_scalar_int_16.hpp:333-352 *)
Definition scalar_int_16_load : body :=
  [SSet (LVal (EInt 0)) (EIdx EData (EInt 0));
   SSet (LVal (EInt 1)) (EIdx EData (EInt 1));
   SSet (LVal (EInt 2)) (EIdx EData (EInt 2));
   SSet (LVal (EInt 3)) (EIdx EData (EInt 3));
   SSet (LVal (EInt 4)) (EIdx EData (EInt 4));
   SSet (LVal (EInt 5)) (EIdx EData (EInt 5));
   SSet (LVal (EInt 6)) (EIdx EData (EInt 6));
   SSet (LVal (EInt 7)) (EIdx EData (EInt 7));
   SSet (LVal (EInt 8)) (EIdx EData (EInt 8));
   SSet (LVal (EInt 9)) (EIdx EData (EInt 9));
   SSet (LVal (EInt 10)) (EIdx EData (EInt 10));
   SSet (LVal (EInt 11)) (EIdx EData (EInt 11));
   SSet (LVal (EInt 12)) (EIdx EData (EInt 12));
   SSet (LVal (EInt 13)) (EIdx EData (EInt 13));
   SSet (LVal (EInt 14)) (EIdx EData (EInt 14));
   SSet (LVal (EInt 15)) (EIdx EData (EInt 15))].

(* short_vec_scalar_int_16.hpp:354-358 *)
Definition scalar_int_16_load_aligned : body :=
  [SSet (LVal (EInt 0)) (EIdx EData (EInt 0));
   SSet (LVal (EInt 1)) (EIdx EData (EInt 1));
   SSet (LVal (EInt 2)) (EIdx EData (EInt 2));
   SSet (LVal (EInt 3)) (EIdx EData (EInt 3));
   SSet (LVal (EInt 4)) (EIdx EData (EInt 4));
   SSet (LVal (EInt 5)) (EIdx EData (EInt 5));
   SSet (LVal (EInt 6)) (EIdx EData (EInt 6));
   SSet (LVal (EInt 7)) (EIdx EData (EInt 7));
   SSet (LVal (EInt 8)) (EIdx EData (EInt 8));
   SSet (LVal (EInt 9)) (EIdx EData (EInt 9));
   SSet (LVal (EInt 10)) (EIdx EData (EInt 10));
   SSet (LVal (EInt 11)) (EIdx EData (EInt 11));
   SSet (LVal (EInt 12)) (EIdx EData (EInt 12));
   SSet (LVal (EInt 13)) (EIdx EData (EInt 13));
   SSet (LVal (EInt 14)) (EIdx EData (EInt 14));
   SSet (LVal (EInt 15)) (EIdx EData (EInt 15))].

(* short_vec_scalar_int_16.hpp:360-379 *)
Definition scalar_int_16_store : body :=
  [SSet (LMem (dat 0)) (vv 0);
   SSet (LMem (dat 1)) (vv 1);
   SSet (LMem (dat 2)) (vv 2);
   SSet (LMem (dat 3)) (vv 3);
   SSet (LMem (dat 4)) (vv 4);
   SSet (LMem (dat 5)) (vv 5);
   SSet (LMem (dat 6)) (vv 6);
   SSet (LMem (dat 7)) (vv 7);
   SSet (LMem (dat 8)) (vv 8);
   SSet (LMem (dat 9)) (vv 9);
   SSet (LMem (dat 10)) (vv 10);
   SSet (LMem (dat 11)) (vv 11);
   SSet (LMem (dat 12)) (vv 12);
   SSet (LMem (dat 13)) (vv 13);
   SSet (LMem (dat 14)) (vv 14);
   SSet (LMem (dat 15)) (vv 15)].

(* short_vec_scalar_int_16.hpp:381-385 *)
Definition scalar_int_16_store_aligned : body :=
  [SSet (LMem (dat 0)) (vv 0);
   SSet (LMem (dat 1)) (vv 1);
   SSet (LMem (dat 2)) (vv 2);
   SSet (LMem (dat 3)) (vv 3);
   SSet (LMem (dat 4)) (vv 4);
   SSet (LMem (dat 5)) (vv 5);
   SSet (LMem (dat 6)) (vv 6);
   SSet (LMem (dat 7)) (vv 7);
   SSet (LMem (dat 8)) (vv 8);
   SSet (LMem (dat 9)) (vv 9);
   SSet (LMem (dat 10)) (vv 10);
   SSet (LMem (dat 11)) (vv 11);
   SSet (LMem (dat 12)) (vv 12);
   SSet (LMem (dat 13)) (vv 13);
   SSet (LMem (dat 14)) (vv 14);
   SSet (LMem (dat 15)) (vv 15)].

(* short_vec_scalar_int_16.hpp:387-391 *)
Definition scalar_int_16_store_nt : body :=
  [SSet (LMem (dat 0)) (vv 0);
   SSet (LMem (dat 1)) (vv 1);
   SSet (LMem (dat 2)) (vv 2);
   SSet (LMem (dat 3)) (vv 3);
   SSet (LMem (dat 4)) (vv 4);
   SSet (LMem (dat 5)) (vv 5);
   SSet (LMem (dat 6)) (vv 6);
   SSet (LMem (dat 7)) (vv 7);
   SSet (LMem (dat 8)) (vv 8);
   SSet (LMem (dat 9)) (vv 9);
   SSet (LMem (dat 10)) (vv 10);
   SSet (LMem (dat 11)) (vv 11);
   SSet (LMem (dat 12)) (vv 12);
   SSet (LMem (dat 13)) (vv 13);
   SSet (LMem (dat 14)) (vv 14);
   SSet (LMem (dat 15)) (vv 15)].

(* short_vec_scalar_int_16.hpp:393-412 *)
Definition scalar_int_16_gather : body :=
  [SSet (LVal (EInt 0)) (EIdx EPtr (off 0));
   SSet (LVal (EInt 1)) (EIdx EPtr (off 1));
   SSet (LVal (EInt 2)) (EIdx EPtr (off 2));
   SSet (LVal (EInt 3)) (EIdx EPtr (off 3));
   SSet (LVal (EInt 4)) (EIdx EPtr (off 4));
   SSet (LVal (EInt 5)) (EIdx EPtr (off 5));
   SSet (LVal (EInt 6)) (EIdx EPtr (off 6));
   SSet (LVal (EInt 7)) (EIdx EPtr (off 7));
   SSet (LVal (EInt 8)) (EIdx EPtr (off 8));
   SSet (LVal (EInt 9)) (EIdx EPtr (off 9));
   SSet (LVal (EInt 10)) (EIdx EPtr (off 10));
   SSet (LVal (EInt 11)) (EIdx EPtr (off 11));
   SSet (LVal (EInt 12)) (EIdx EPtr (off 12));
   SSet (LVal (EInt 13)) (EIdx EPtr (off 13));
   SSet (LVal (EInt 14)) (EIdx EPtr (off 14));
   SSet (LVal (EInt 15)) (EIdx EPtr (off 15))].

(* short_vec_scalar_int_16.hpp:414-433 *)
Definition scalar_int_16_scatter : body :=
  [SSet (LMem (pto 0)) (vv 0);
   SSet (LMem (pto 1)) (vv 1);
   SSet (LMem (pto 2)) (vv 2);
   SSet (LMem (pto 3)) (vv 3);
   SSet (LMem (pto 4)) (vv 4);
   SSet (LMem (pto 5)) (vv 5);
   SSet (LMem (pto 6)) (vv 6);
   SSet (LMem (pto 7)) (vv 7);
   SSet (LMem (pto 8)) (vv 8);
   SSet (LMem (pto 9)) (vv 9);
   SSet (LMem (pto 10)) (vv 10);
   SSet (LMem (pto 11)) (vv 11);
   SSet (LMem (pto 12)) (vv 12);
   SSet (LMem (pto 13)) (vv 13);
   SSet (LMem (pto 14)) (vv 14);
   SSet (LMem (pto 15)) (vv 15)].

(* short_vec_scalar_int_16.hpp:465-472 *)
Definition scalar_int_16_print : list item :=
  [PStr "["; PVal (vv 0); PStr ", "; PVal (vv 1); PStr ", "; PVal (vv 2); PStr ", "; PVal (vv 3);
   PStr ", "; PVal (vv 4); PStr ", "; PVal (vv 5); PStr ", "; PVal (vv 6); PStr ", "; PVal (vv 7);
   PStr ", "; PVal (vv 8); PStr ", "; PVal (vv 9); PStr ", "; PVal (vv 10); PStr ", "; PVal (vv
   11); PStr ", "; PVal (vv 12); PStr ", "; PVal (vv 13); PStr ", "; PVal (vv 14); PStr ", "; PVal
   (vv 15); PStr "]"].

(* short_vec_scalar_int_16.hpp *)
Definition cls_scalar_int_16 : cls :=
  mkCls "scalar_int_16" KI32 16 16 1 4 MNone
    (fun m => match m with
     | MCtorScalar => Some scalar_int_16_ctor_scalar
     | MCtorPtr => Some scalar_int_16_ctor_ptr
     | MCtorRegs => Some scalar_int_16_ctor_regs
     | MCtorList => Some scalar_int_16_ctor_list
     | MSubEq => Some scalar_int_16_sub_eq
     | MSub => Some scalar_int_16_sub
     | MAddEq => Some scalar_int_16_add_eq
     | MAdd => Some scalar_int_16_add
     | MMulEq => Some scalar_int_16_mul_eq
     | MMul => Some scalar_int_16_mul
     | MDivEq => Some scalar_int_16_div_eq
     | MDiv => Some scalar_int_16_div
     | MSqrt => Some scalar_int_16_sqrt
     | MLoad => Some scalar_int_16_load
     | MLoadAligned => Some scalar_int_16_load_aligned
     | MStore => Some scalar_int_16_store
     | MStoreAligned => Some scalar_int_16_store_aligned
     | MStoreNt => Some scalar_int_16_store_nt
     | MGather => Some scalar_int_16_gather
     | MScatter => Some scalar_int_16_scatter
     | _ => None
     end)
    scalar_int_16_ctor_regs scalar_int_16_print.

(* short_vec_scalar_int_32.hpp:68-102 *)
Definition scalar_int_32_ctor_scalar : body :=
  [SSet (LVal (EInt 0)) EArg;
   SSet (LVal (EInt 1)) EArg;
   SSet (LVal (EInt 2)) EArg;
   SSet (LVal (EInt 3)) EArg;
   SSet (LVal (EInt 4)) EArg;
   SSet (LVal (EInt 5)) EArg;
   SSet (LVal (EInt 6)) EArg;
   SSet (LVal (EInt 7)) EArg;
   SSet (LVal (EInt 8)) EArg;
   SSet (LVal (EInt 9)) EArg;
   SSet (LVal (EInt 10)) EArg;
   SSet (LVal (EInt 11)) EArg;
   SSet (LVal (EInt 12)) EArg;
   SSet (LVal (EInt 13)) EArg;
   SSet (LVal (EInt 14)) EArg;
   SSet (LVal (EInt 15)) EArg;
   SSet (LVal (EInt 16)) EArg;
   SSet (LVal (EInt 17)) EArg;
   SSet (LVal (EInt 18)) EArg;
   SSet (LVal (EInt 19)) EArg;
   SSet (LVal (EInt 20)) EArg;
   SSet (LVal (EInt 21)) EArg;
   SSet (LVal (EInt 22)) EArg;
   SSet (LVal (EInt 23)) EArg;
   SSet (LVal (EInt 24)) EArg;
   SSet (LVal (EInt 25)) EArg;
   SSet (LVal (EInt 26)) EArg;
   SSet (LVal (EInt 27)) EArg;
   SSet (LVal (EInt 28)) EArg;
   SSet (LVal (EInt 29)) EArg;
   SSet (LVal (EInt 30)) EArg;
   SSet (LVal (EInt 31)) EArg].

(* short_vec_scalar_int_32.hpp:104-108 *)
Definition scalar_int_32_ctor_ptr : body :=
  [SSet (LVal (EInt 0)) (EIdx EData (EInt 0));
   SSet (LVal (EInt 1)) (EIdx EData (EInt 1));
   SSet (LVal (EInt 2)) (EIdx EData (EInt 2));
   SSet (LVal (EInt 3)) (EIdx EData (EInt 3));
   SSet (LVal (EInt 4)) (EIdx EData (EInt 4));
   SSet (LVal (EInt 5)) (EIdx EData (EInt 5));
   SSet (LVal (EInt 6)) (EIdx EData (EInt 6));
   SSet (LVal (EInt 7)) (EIdx EData (EInt 7));
   SSet (LVal (EInt 8)) (EIdx EData (EInt 8));
   SSet (LVal (EInt 9)) (EIdx EData (EInt 9));
   SSet (LVal (EInt 10)) (EIdx EData (EInt 10));
   SSet (LVal (EInt 11)) (EIdx EData (EInt 11));
   SSet (LVal (EInt 12)) (EIdx EData (EInt 12));
   SSet (LVal (EInt 13)) (EIdx EData (EInt 13));
   SSet (LVal (EInt 14)) (EIdx EData (EInt 14));
   SSet (LVal (EInt 15)) (EIdx EData (EInt 15));
   SSet (LVal (EInt 16)) (EIdx EData (EInt 16));
   SSet (LVal (EInt 17)) (EIdx EData (EInt 17));
   SSet (LVal (EInt 18)) (EIdx EData (EInt 18));
   SSet (LVal (EInt 19)) (EIdx EData (EInt 19));
   SSet (LVal (EInt 20)) (EIdx EData (EInt 20));
   SSet (LVal (EInt 21)) (EIdx EData (EInt 21));
   SSet (LVal (EInt 22)) (EIdx EData (EInt 22));
   SSet (LVal (EInt 23)) (EIdx EData (EInt 23));
   SSet (LVal (EInt 24)) (EIdx EData (EInt 24));
   SSet (LVal (EInt 25)) (EIdx EData (EInt 25));
   SSet (LVal (EInt 26)) (EIdx EData (EInt 26));
   SSet (LVal (EInt 27)) (EIdx EData (EInt 27));
   SSet (LVal (EInt 28)) (EIdx EData (EInt 28));
   SSet (LVal (EInt 29)) (EIdx EData (EInt 29));
   SSet (LVal (EInt 30)) (EIdx EData (EInt 30));
   SSet (LVal (EInt 31)) (EIdx EData (EInt 31))].

(* short_vec_scalar_int_32.hpp:110-176 *)
Definition scalar_int_32_ctor_regs : body :=
  [SSet (LVal (EInt 0)) (EPar 0);
   SSet (LVal (EInt 1)) (EPar 1);
   SSet (LVal (EInt 2)) (EPar 2);
   SSet (LVal (EInt 3)) (EPar 3);
   SSet (LVal (EInt 4)) (EPar 4);
   SSet (LVal (EInt 5)) (EPar 5);
   SSet (LVal (EInt 6)) (EPar 6);
   SSet (LVal (EInt 7)) (EPar 7);
   SSet (LVal (EInt 8)) (EPar 8);
   SSet (LVal (EInt 9)) (EPar 9);
   SSet (LVal (EInt 10)) (EPar 10);
   SSet (LVal (EInt 11)) (EPar 11);
   SSet (LVal (EInt 12)) (EPar 12);
   SSet (LVal (EInt 13)) (EPar 13);
   SSet (LVal (EInt 14)) (EPar 14);
   SSet (LVal (EInt 15)) (EPar 15);
   SSet (LVal (EInt 16)) (EPar 16);
   SSet (LVal (EInt 17)) (EPar 17);
   SSet (LVal (EInt 18)) (EPar 18);
   SSet (LVal (EInt 19)) (EPar 19);
   SSet (LVal (EInt 20)) (EPar 20);
   SSet (LVal (EInt 21)) (EPar 21);
   SSet (LVal (EInt 22)) (EPar 22);
   SSet (LVal (EInt 23)) (EPar 23);
   SSet (LVal (EInt 24)) (EPar 24);
   SSet (LVal (EInt 25)) (EPar 25);
   SSet (LVal (EInt 26)) (EPar 26);
   SSet (LVal (EInt 27)) (EPar 27);
   SSet (LVal (EInt 28)) (EPar 28);
   SSet (LVal (EInt 29)) (EPar 29);
   SSet (LVal (EInt 30)) (EPar 30);
   SSet (LVal (EInt 31)) (EPar 31)].

(* short_vec_scalar_int_32.hpp:179-184 *)
Definition scalar_int_32_ctor_list : body :=
  [SSet (LVal (EInt 0)) (EIdx EData (EInt 0));
   SSet (LVal (EInt 1)) (EIdx EData (EInt 1));
   SSet (LVal (EInt 2)) (EIdx EData (EInt 2));
   SSet (LVal (EInt 3)) (EIdx EData (EInt 3));
   SSet (LVal (EInt 4)) (EIdx EData (EInt 4));
   SSet (LVal (EInt 5)) (EIdx EData (EInt 5));
   SSet (LVal (EInt 6)) (EIdx EData (EInt 6));
   SSet (LVal (EInt 7)) (EIdx EData (EInt 7));
   SSet (LVal (EInt 8)) (EIdx EData (EInt 8));
   SSet (LVal (EInt 9)) (EIdx EData (EInt 9));
   SSet (LVal (EInt 10)) (EIdx EData (EInt 10));
   SSet (LVal (EInt 11)) (EIdx EData (EInt 11));
   SSet (LVal (EInt 12)) (EIdx EData (EInt 12));
   SSet (LVal (EInt 13)) (EIdx EData (EInt 13));
   SSet (LVal (EInt 14)) (EIdx EData (EInt 14));
   SSet (LVal (EInt 15)) (EIdx EData (EInt 15));
   SSet (LVal (EInt 16)) (EIdx EData (EInt 16));
   SSet (LVal (EInt 17)) (EIdx EData (EInt 17));
   SSet (LVal (EInt 18)) (EIdx EData (EInt 18));
   SSet (LVal (EInt 19)) (EIdx EData (EInt 19));
   SSet (LVal (EInt 20)) (EIdx EData (EInt 20));
   SSet (LVal (EInt 21)) (EIdx EData (EInt 21));
   SSet (LVal (EInt 22)) (EIdx EData (EInt 22));
   SSet (LVal (EInt 23)) (EIdx EData (EInt 23));
   SSet (LVal (EInt 24)) (EIdx EData (EInt 24));
   SSet (LVal (EInt 25)) (EIdx EData (EInt 25));
   SSet (LVal (EInt 26)) (EIdx EData (EInt 26));
   SSet (LVal (EInt 27)) (EIdx EData (EInt 27));
   SSet (LVal (EInt 28)) (EIdx EData (EInt 28));
   SSet (LVal (EInt 29)) (EIdx EData (EInt 29));
   SSet (LVal (EInt 30)) (EIdx EData (EInt 30));
   SSet (LVal (EInt 31)) (EIdx EData (EInt 31))].

(* short_vec_scalar_int_32.hpp:187-222 *)
Definition scalar_int_32_sub_eq : body :=
  [SUpd OSub (LVal (EInt 0)) (oo 0);
   SUpd OSub (LVal (EInt 1)) (oo 1);
   SUpd OSub (LVal (EInt 2)) (oo 2);
   SUpd OSub (LVal (EInt 3)) (oo 3);
   SUpd OSub (LVal (EInt 4)) (oo 4);
   SUpd OSub (LVal (EInt 5)) (oo 5);
   SUpd OSub (LVal (EInt 6)) (oo 6);
   SUpd OSub (LVal (EInt 7)) (oo 7);
   SUpd OSub (LVal (EInt 8)) (oo 8);
   SUpd OSub (LVal (EInt 9)) (oo 9);
   SUpd OSub (LVal (EInt 10)) (oo 10);
   SUpd OSub (LVal (EInt 11)) (oo 11);
   SUpd OSub (LVal (EInt 12)) (oo 12);
   SUpd OSub (LVal (EInt 13)) (oo 13);
   SUpd OSub (LVal (EInt 14)) (oo 14);
   SUpd OSub (LVal (EInt 15)) (oo 15);
   SUpd OSub (LVal (EInt 16)) (oo 16);
   SUpd OSub (LVal (EInt 17)) (oo 17);
   SUpd OSub (LVal (EInt 18)) (oo 18);
   SUpd OSub (LVal (EInt 19)) (oo 19);
   SUpd OSub (LVal (EInt 20)) (oo 20);
   SUpd OSub (LVal (EInt 21)) (oo 21);
   SUpd OSub (LVal (EInt 22)) (oo 22);
   SUpd OSub (LVal (EInt 23)) (oo 23);
   SUpd OSub (LVal (EInt 24)) (oo 24);
   SUpd OSub (LVal (EInt 25)) (oo 25);
   SUpd OSub (LVal (EInt 26)) (oo 26);
   SUpd OSub (LVal (EInt 27)) (oo 27);
   SUpd OSub (LVal (EInt 28)) (oo 28);
   SUpd OSub (LVal (EInt 29)) (oo 29);
   SUpd OSub (LVal (EInt 30)) (oo 30);
   SUpd OSub (LVal (EInt 31)) (oo 31)].

(* short_vec_scalar_int_32.hpp:224-260 *)
Definition scalar_int_32_sub : body :=
  [SRetVec [(ECop OSub (vv 0) (oo 0)); (ECop OSub (vv 1) (oo 1)); (ECop OSub (vv 2) (oo 2)); (ECop
    OSub (vv 3) (oo 3)); (ECop OSub (vv 4) (oo 4)); (ECop OSub (vv 5) (oo 5)); (ECop OSub (vv 6) (oo
    6)); (ECop OSub (vv 7) (oo 7)); (ECop OSub (vv 8) (oo 8)); (ECop OSub (vv 9) (oo 9)); (ECop OSub
    (vv 10) (oo 10)); (ECop OSub (vv 11) (oo 11)); (ECop OSub (vv 12) (oo 12)); (ECop OSub (vv 13)
    (oo 13)); (ECop OSub (vv 14) (oo 14)); (ECop OSub (vv 15) (oo 15)); (ECop OSub (vv 16) (oo 16));
    (ECop OSub (vv 17) (oo 17)); (ECop OSub (vv 18) (oo 18)); (ECop OSub (vv 19) (oo 19)); (ECop
    OSub (vv 20) (oo 20)); (ECop OSub (vv 21) (oo 21)); (ECop OSub (vv 22) (oo 22)); (ECop OSub (vv
    23) (oo 23)); (ECop OSub (vv 24) (oo 24)); (ECop OSub (vv 25) (oo 25)); (ECop OSub (vv 26) (oo
    26)); (ECop OSub (vv 27) (oo 27)); (ECop OSub (vv 28) (oo 28)); (ECop OSub (vv 29) (oo 29));
    (ECop OSub (vv 30) (oo 30)); (ECop OSub (vv 31) (oo 31))]].

(* short_vec_scalar_int_32.hpp:262-297 *)
Definition scalar_int_32_add_eq : body :=
  [SUpd OAdd (LVal (EInt 0)) (oo 0);
   SUpd OAdd (LVal (EInt 1)) (oo 1);
   SUpd OAdd (LVal (EInt 2)) (oo 2);
   SUpd OAdd (LVal (EInt 3)) (oo 3);
   SUpd OAdd (LVal (EInt 4)) (oo 4);
   SUpd OAdd (LVal (EInt 5)) (oo 5);
   SUpd OAdd (LVal (EInt 6)) (oo 6);
   SUpd OAdd (LVal (EInt 7)) (oo 7);
   SUpd OAdd (LVal (EInt 8)) (oo 8);
   SUpd OAdd (LVal (EInt 9)) (oo 9);
   SUpd OAdd (LVal (EInt 10)) (oo 10);
   SUpd OAdd (LVal (EInt 11)) (oo 11);
   SUpd OAdd (LVal (EInt 12)) (oo 12);
   SUpd OAdd (LVal (EInt 13)) (oo 13);
   SUpd OAdd (LVal (EInt 14)) (oo 14);
   SUpd OAdd (LVal (EInt 15)) (oo 15);
   SUpd OAdd (LVal (EInt 16)) (oo 16);
   SUpd OAdd (LVal (EInt 17)) (oo 17);
   SUpd OAdd (LVal (EInt 18)) (oo 18);
   SUpd OAdd (LVal (EInt 19)) (oo 19);
   SUpd OAdd (LVal (EInt 20)) (oo 20);
   SUpd OAdd (LVal (EInt 21)) (oo 21);
   SUpd OAdd (LVal (EInt 22)) (oo 22);
   SUpd OAdd (LVal (EInt 23)) (oo 23);
   SUpd OAdd (LVal (EInt 24)) (oo 24);
   SUpd OAdd (LVal (EInt 25)) (oo 25);
   SUpd OAdd (LVal (EInt 26)) (oo 26);
   SUpd OAdd (LVal (EInt 27)) (oo 27);
   SUpd OAdd (LVal (EInt 28)) (oo 28);
   SUpd OAdd (LVal (EInt 29)) (oo 29);
   SUpd OAdd (LVal (EInt 30)) (oo 30);
   SUpd OAdd (LVal (EInt 31)) (oo 31)].

(* short_vec_scalar_int_32.hpp:299-335 *)
Definition scalar_int_32_add : body :=
  [SRetVec [(ECop OAdd (vv 0) (oo 0)); (ECop OAdd (vv 1) (oo 1)); (ECop OAdd (vv 2) (oo 2)); (ECop
    OAdd (vv 3) (oo 3)); (ECop OAdd (vv 4) (oo 4)); (ECop OAdd (vv 5) (oo 5)); (ECop OAdd (vv 6) (oo
    6)); (ECop OAdd (vv 7) (oo 7)); (ECop OAdd (vv 8) (oo 8)); (ECop OAdd (vv 9) (oo 9)); (ECop OAdd
    (vv 10) (oo 10)); (ECop OAdd (vv 11) (oo 11)); (ECop OAdd (vv 12) (oo 12)); (ECop OAdd (vv 13)
    (oo 13)); (ECop OAdd (vv 14) (oo 14)); (ECop OAdd (vv 15) (oo 15)); (ECop OAdd (vv 16) (oo 16));
    (ECop OAdd (vv 17) (oo 17)); (ECop OAdd (vv 18) (oo 18)); (ECop OAdd (vv 19) (oo 19)); (ECop
    OAdd (vv 20) (oo 20)); (ECop OAdd (vv 21) (oo 21)); (ECop OAdd (vv 22) (oo 22)); (ECop OAdd (vv
    23) (oo 23)); (ECop OAdd (vv 24) (oo 24)); (ECop OAdd (vv 25) (oo 25)); (ECop OAdd (vv 26) (oo
    26)); (ECop OAdd (vv 27) (oo 27)); (ECop OAdd (vv 28) (oo 28)); (ECop OAdd (vv 29) (oo 29));
    (ECop OAdd (vv 30) (oo 30)); (ECop OAdd (vv 31) (oo 31))]].

(* short_vec_scalar_int_32.hpp:337-372 *)
Definition scalar_int_32_mul_eq : body :=
  [SUpd OMul (LVal (EInt 0)) (oo 0);
   SUpd OMul (LVal (EInt 1)) (oo 1);
   SUpd OMul (LVal (EInt 2)) (oo 2);
   SUpd OMul (LVal (EInt 3)) (oo 3);
   SUpd OMul (LVal (EInt 4)) (oo 4);
   SUpd OMul (LVal (EInt 5)) (oo 5);
   SUpd OMul (LVal (EInt 6)) (oo 6);
   SUpd OMul (LVal (EInt 7)) (oo 7);
   SUpd OMul (LVal (EInt 8)) (oo 8);
   SUpd OMul (LVal (EInt 9)) (oo 9);
   SUpd OMul (LVal (EInt 10)) (oo 10);
   SUpd OMul (LVal (EInt 11)) (oo 11);
   SUpd OMul (LVal (EInt 12)) (oo 12);
   SUpd OMul (LVal (EInt 13)) (oo 13);
   SUpd OMul (LVal (EInt 14)) (oo 14);
   SUpd OMul (LVal (EInt 15)) (oo 15);
   SUpd OMul (LVal (EInt 16)) (oo 16);
   SUpd OMul (LVal (EInt 17)) (oo 17);
   SUpd OMul (LVal (EInt 18)) (oo 18);
   SUpd OMul (LVal (EInt 19)) (oo 19);
   SUpd OMul (LVal (EInt 20)) (oo 20);
   SUpd OMul (LVal (EInt 21)) (oo 21);
   SUpd OMul (LVal (EInt 22)) (oo 22);
   SUpd OMul (LVal (EInt 23)) (oo 23);
   SUpd OMul (LVal (EInt 24)) (oo 24);
   SUpd OMul (LVal (EInt 25)) (oo 25);
   SUpd OMul (LVal (EInt 26)) (oo 26);
   SUpd OMul (LVal (EInt 27)) (oo 27);
   SUpd OMul (LVal (EInt 28)) (oo 28);
   SUpd OMul (LVal (EInt 29)) (oo 29);
   SUpd OMul (LVal (EInt 30)) (oo 30);
   SUpd OMul (LVal (EInt 31)) (oo 31)].

(* short_vec_scalar_int_32.hpp:374-410 *)
Definition scalar_int_32_mul : body :=
  [SRetVec [(ECop OMul (vv 0) (oo 0)); (ECop OMul (vv 1) (oo 1)); (ECop OMul (vv 2) (oo 2)); (ECop
    OMul (vv 3) (oo 3)); (ECop OMul (vv 4) (oo 4)); (ECop OMul (vv 5) (oo 5)); (ECop OMul (vv 6) (oo
    6)); (ECop OMul (vv 7) (oo 7)); (ECop OMul (vv 8) (oo 8)); (ECop OMul (vv 9) (oo 9)); (ECop OMul
    (vv 10) (oo 10)); (ECop OMul (vv 11) (oo 11)); (ECop OMul (vv 12) (oo 12)); (ECop OMul (vv 13)
    (oo 13)); (ECop OMul (vv 14) (oo 14)); (ECop OMul (vv 15) (oo 15)); (ECop OMul (vv 16) (oo 16));
    (ECop OMul (vv 17) (oo 17)); (ECop OMul (vv 18) (oo 18)); (ECop OMul (vv 19) (oo 19)); (ECop
    OMul (vv 20) (oo 20)); (ECop OMul (vv 21) (oo 21)); (ECop OMul (vv 22) (oo 22)); (ECop OMul (vv
    23) (oo 23)); (ECop OMul (vv 24) (oo 24)); (ECop OMul (vv 25) (oo 25)); (ECop OMul (vv 26) (oo
    26)); (ECop OMul (vv 27) (oo 27)); (ECop OMul (vv 28) (oo 28)); (ECop OMul (vv 29) (oo 29));
    (ECop OMul (vv 30) (oo 30)); (ECop OMul (vv 31) (oo 31))]].

(* short_vec_scalar_int_32.hpp:412-447 *)
Definition scalar_int_32_div_eq : body :=
  [SUpd ODiv (LVal (EInt 0)) (oo 0);
   SUpd ODiv (LVal (EInt 1)) (oo 1);
   SUpd ODiv (LVal (EInt 2)) (oo 2);
   SUpd ODiv (LVal (EInt 3)) (oo 3);
   SUpd ODiv (LVal (EInt 4)) (oo 4);
   SUpd ODiv (LVal (EInt 5)) (oo 5);
   SUpd ODiv (LVal (EInt 6)) (oo 6);
   SUpd ODiv (LVal (EInt 7)) (oo 7);
   SUpd ODiv (LVal (EInt 8)) (oo 8);
   SUpd ODiv (LVal (EInt 9)) (oo 9);
   SUpd ODiv (LVal (EInt 10)) (oo 10);
   SUpd ODiv (LVal (EInt 11)) (oo 11);
   SUpd ODiv (LVal (EInt 12)) (oo 12);
   SUpd ODiv (LVal (EInt 13)) (oo 13);
   SUpd ODiv (LVal (EInt 14)) (oo 14);
   SUpd ODiv (LVal (EInt 15)) (oo 15);
   SUpd ODiv (LVal (EInt 16)) (oo 16);
   SUpd ODiv (LVal (EInt 17)) (oo 17);
   SUpd ODiv (LVal (EInt 18)) (oo 18);
   SUpd ODiv (LVal (EInt 19)) (oo 19);
   SUpd ODiv (LVal (EInt 20)) (oo 20);
   SUpd ODiv (LVal (EInt 21)) (oo 21);
   SUpd ODiv (LVal (EInt 22)) (oo 22);
   SUpd ODiv (LVal (EInt 23)) (oo 23);
   SUpd ODiv (LVal (EInt 24)) (oo 24);
   SUpd ODiv (LVal (EInt 25)) (oo 25);
   SUpd ODiv (LVal (EInt 26)) (oo 26);
   SUpd ODiv (LVal (EInt 27)) (oo 27);
   SUpd ODiv (LVal (EInt 28)) (oo 28);
   SUpd ODiv (LVal (EInt 29)) (oo 29);
   SUpd ODiv (LVal (EInt 30)) (oo 30);
   SUpd ODiv (LVal (EInt 31)) (oo 31)].

(* short_vec_scalar_int_32.hpp:449-485 *)
Definition scalar_int_32_div : body :=
  [SRetVec [(ECop ODiv (vv 0) (oo 0)); (ECop ODiv (vv 1) (oo 1)); (ECop ODiv (vv 2) (oo 2)); (ECop
    ODiv (vv 3) (oo 3)); (ECop ODiv (vv 4) (oo 4)); (ECop ODiv (vv 5) (oo 5)); (ECop ODiv (vv 6) (oo
    6)); (ECop ODiv (vv 7) (oo 7)); (ECop ODiv (vv 8) (oo 8)); (ECop ODiv (vv 9) (oo 9)); (ECop ODiv
    (vv 10) (oo 10)); (ECop ODiv (vv 11) (oo 11)); (ECop ODiv (vv 12) (oo 12)); (ECop ODiv (vv 13)
    (oo 13)); (ECop ODiv (vv 14) (oo 14)); (ECop ODiv (vv 15) (oo 15)); (ECop ODiv (vv 16) (oo 16));
    (ECop ODiv (vv 17) (oo 17)); (ECop ODiv (vv 18) (oo 18)); (ECop ODiv (vv 19) (oo 19)); (ECop
    ODiv (vv 20) (oo 20)); (ECop ODiv (vv 21) (oo 21)); (ECop ODiv (vv 22) (oo 22)); (ECop ODiv (vv
    23) (oo 23)); (ECop ODiv (vv 24) (oo 24)); (ECop ODiv (vv 25) (oo 25)); (ECop ODiv (vv 26) (oo
    26)); (ECop ODiv (vv 27) (oo 27)); (ECop ODiv (vv 28) (oo 28)); (ECop ODiv (vv 29) (oo 29));
    (ECop ODiv (vv 30) (oo 30)); (ECop ODiv (vv 31) (oo 31))]].

(* short_vec_scalar_int_32.hpp:492-528 *)
Definition scalar_int_32_sqrt : body :=
  [SRetVec [(EToInt (EStdSqrt (vv 0))); (EToInt (EStdSqrt (vv 1))); (EToInt (EStdSqrt (vv 2)));
    (EToInt (EStdSqrt (vv 3))); (EToInt (EStdSqrt (vv 4))); (EToInt (EStdSqrt (vv 5))); (EToInt
    (EStdSqrt (vv 6))); (EToInt (EStdSqrt (vv 7))); (EToInt (EStdSqrt (vv 8))); (EToInt (EStdSqrt
    (vv 9))); (EToInt (EStdSqrt (vv 10))); (EToInt (EStdSqrt (vv 11))); (EToInt (EStdSqrt (vv 12)));
    (EToInt (EStdSqrt (vv 13))); (EToInt (EStdSqrt (vv 14))); (EToInt (EStdSqrt (vv 15))); (EToInt
    (EStdSqrt (vv 16))); (EToInt (EStdSqrt (vv 17))); (EToInt (EStdSqrt (vv 18))); (EToInt (EStdSqrt
    (vv 19))); (EToInt (EStdSqrt (vv 20))); (EToInt (EStdSqrt (vv 21))); (EToInt (EStdSqrt (vv
    22))); (EToInt (EStdSqrt (vv 23))); (EToInt (EStdSqrt (vv 24))); (EToInt (EStdSqrt (vv 25)));
    (EToInt (EStdSqrt (vv 26))); (EToInt (EStdSqrt (vv 27))); (EToInt (EStdSqrt (vv 28))); (EToInt
    (EStdSqrt (vv 29))); (EToInt (EStdSqrt (vv 30))); (EToInt (EStdSqrt (vv 31)))]].

(* short_vec_scalar_int_32.hpp:533-568 *)
Definition scalar_int_32_load : body :=
  [SSet (LVal (EInt 0)) (EIdx EData (EInt 0));
   SSet (LVal (EInt 1)) (EIdx EData (EInt 1));
   SSet (LVal (EInt 2)) (EIdx EData (EInt 2));
   SSet (LVal (EInt 3)) (EIdx EData (EInt 3));
   SSet (LVal (EInt 4)) (EIdx EData (EInt 4));
   SSet (LVal (EInt 5)) (EIdx EData (EInt 5));
   SSet (LVal (EInt 6)) (EIdx EData (EInt 6));
   SSet (LVal (EInt 7)) (EIdx EData (EInt 7));
   SSet (LVal (EInt 8)) (EIdx EData (EInt 8));
   SSet (LVal (EInt 9)) (EIdx EData (EInt 9));
   SSet (LVal (EInt 10)) (EIdx EData (EInt 10));
   SSet (LVal (EInt 11)) (EIdx EData (EInt 11));
   SSet (LVal (EInt 12)) (EIdx EData (EInt 12));
   SSet (LVal (EInt 13)) (EIdx EData (EInt 13));
   SSet (LVal (EInt 14)) (EIdx EData (EInt 14));
   SSet (LVal (EInt 15)) (EIdx EData (EInt 15));
   SSet (LVal (EInt 16)) (EIdx EData (EInt 16));
   SSet (LVal (EInt 17)) (EIdx EData (EInt 17));
   SSet (LVal (EInt 18)) (EIdx EData (EInt 18));
   SSet (LVal (EInt 19)) (EIdx EData (EInt 19));
   SSet (LVal (EInt 20)) (EIdx EData (EInt 20));
   SSet (LVal (EInt 21)) (EIdx EData (EInt 21));
   SSet (LVal (EInt 22)) (EIdx EData (EInt 22));
   SSet (LVal (EInt 23)) (EIdx EData (EInt 23));
   SSet (LVal (EInt 24)) (EIdx EData (EInt 24));
   SSet (LVal (EInt 25)) (EIdx EData (EInt 25));
   SSet (LVal (EInt 26)) (EIdx EData (EInt 26));
   SSet (LVal (EInt 27)) (EIdx EData (EInt 27));
   SSet (LVal (EInt 28)) (EIdx EData (EInt 28));
   SSet (LVal (EInt 29)) (EIdx EData (EInt 29));
   SSet (LVal (EInt 30)) (EIdx EData (EInt 30));
   SSet (LVal (EInt 31)) (EIdx EData (EInt 31))].

(* short_vec_scalar_int_32.hpp:570-574 *)
Definition scalar_int_32_load_aligned : body :=
  [SSet (LVal (EInt 0)) (EIdx EData (EInt 0));
   SSet (LVal (EInt 1)) (EIdx EData (EInt 1));
   SSet (LVal (EInt 2)) (EIdx EData (EInt 2));
   SSet (LVal (EInt 3)) (EIdx EData (EInt 3));
   SSet (LVal (EInt 4)) (EIdx EData (EInt 4));
   SSet (LVal (EInt 5)) (EIdx EData (EInt 5));
   SSet (LVal (EInt 6)) (EIdx EData (EInt 6));
   SSet (LVal (EInt 7)) (EIdx EData (EInt 7));
   SSet (LVal (EInt 8)) (EIdx EData (EInt 8));
   SSet (LVal (EInt 9)) (EIdx EData (EInt 9));
   SSet (LVal (EInt 10)) (EIdx EData (EInt 10));
   SSet (LVal (EInt 11)) (EIdx EData (EInt 11));
   SSet (LVal (EInt 12)) (EIdx EData (EInt 12));
   SSet (LVal (EInt 13)) (EIdx EData (EInt 13));
   SSet (LVal (EInt 14)) (EIdx EData (EInt 14));
   SSet (LVal (EInt 15)) (EIdx EData (EInt 15));
   SSet (LVal (EInt 16)) (EIdx EData (EInt 16));
   SSet (LVal (EInt 17)) (EIdx EData (EInt 17));
   SSet (LVal (EInt 18)) (EIdx EData (EInt 18));
   SSet (LVal (EInt 19)) (EIdx EData (EInt 19));
   SSet (LVal (EInt 20)) (EIdx EData (EInt 20));
   SSet (LVal (EInt 21)) (EIdx EData (EInt 21));
   SSet (LVal (EInt 22)) (EIdx EData (EInt 22));
   SSet (LVal (EInt 23)) (EIdx EData (EInt 23));
   SSet (LVal (EInt 24)) (EIdx EData (EInt 24));
   SSet (LVal (EInt 25)) (EIdx EData (EInt 25));
   SSet (LVal (EInt 26)) (EIdx EData (EInt 26));
   SSet (LVal (EInt 27)) (EIdx EData (EInt 27));
   SSet (LVal (EInt 28)) (EIdx EData (EInt 28));
   SSet (LVal (EInt 29)) (EIdx EData (EInt 29));
   SSet (LVal (EInt 30)) (EIdx EData (EInt 30));
   SSet (LVal (EInt 31)) (EIdx EData (EInt 31))].

(* short_vec_scalar_int_32.hpp:576-611 *)
Definition scalar_int_32_store : body :=
  [SSet (LMem (dat 0)) (vv 0);
   SSet (LMem (dat 1)) (vv 1);
   SSet (LMem (dat 2)) (vv 2);
   SSet (LMem (dat 3)) (vv 3);
   SSet (LMem (dat 4)) (vv 4);
   SSet (LMem (dat 5)) (vv 5);
   SSet (LMem (dat 6)) (vv 6);
   SSet (LMem (dat 7)) (vv 7);
   SSet (LMem (dat 8)) (vv 8);
   SSet (LMem (dat 9)) (vv 9);
   SSet (LMem (dat 10)) (vv 10);
   SSet (LMem (dat 11)) (vv 11);
   SSet (LMem (dat 12)) (vv 12);
   SSet (LMem (dat 13)) (vv 13);
   SSet (LMem (dat 14)) (vv 14);
   SSet (LMem (dat 15)) (vv 15);
   SSet (LMem (dat 16)) (vv 16);
   SSet (LMem (dat 17)) (vv 17);
   SSet (LMem (dat 18)) (vv 18);
   SSet (LMem (dat 19)) (vv 19);
   SSet (LMem (dat 20)) (vv 20);
   SSet (LMem (dat 21)) (vv 21);
   SSet (LMem (dat 22)) (vv 22);
   SSet (LMem (dat 23)) (vv 23);
   SSet (LMem (dat 24)) (vv 24);
   SSet (LMem (dat 25)) (vv 25);
   SSet (LMem (dat 26)) (vv 26);
   SSet (LMem (dat 27)) (vv 27);
   SSet (LMem (dat 28)) (vv 28);
   SSet (LMem (dat 29)) (vv 29);
   SSet (LMem (dat 30)) (vv 30);
   SSet (LMem (dat 31)) (vv 31)].

(* short_vec_scalar_int_32.hpp:613-617 *)
Definition scalar_int_32_store_aligned : body :=
  [SSet (LMem (dat 0)) (vv 0);
   SSet (LMem (dat 1)) (vv 1);
   SSet (LMem (dat 2)) (vv 2);
   SSet (LMem (dat 3)) (vv 3);
   SSet (LMem (dat 4)) (vv 4);
   SSet (LMem (dat 5)) (vv 5);
   SSet (LMem (dat 6)) (vv 6);
   SSet (LMem (dat 7)) (vv 7);
   SSet (LMem (dat 8)) (vv 8);
   SSet (LMem (dat 9)) (vv 9);
   SSet (LMem (dat 10)) (vv 10);
   SSet (LMem (dat 11)) (vv 11);
   SSet (LMem (dat 12)) (vv 12);
   SSet (LMem (dat 13)) (vv 13);
   SSet (LMem (dat 14)) (vv 14);
   SSet (LMem (dat 15)) (vv 15);
   SSet (LMem (dat 16)) (vv 16);
   SSet (LMem (dat 17)) (vv 17);
   SSet (LMem (dat 18)) (vv 18);
   SSet (LMem (dat 19)) (vv 19);
   SSet (LMem (dat 20)) (vv 20);
   SSet (LMem (dat 21)) (vv 21);
   SSet (LMem (dat 22)) (vv 22);
   SSet (LMem (dat 23)) (vv 23);
   SSet (LMem (dat 24)) (vv 24);
   SSet (LMem (dat 25)) (vv 25);
   SSet (LMem (dat 26)) (vv 26);
   SSet (LMem (dat 27)) (vv 27);
   SSet (LMem (dat 28)) (vv 28);
   SSet (LMem (dat 29)) (vv 29);
   SSet (LMem (dat 30)) (vv 30);
   SSet (LMem (dat 31)) (vv 31)].

(* short_vec_scalar_int_32.hpp:619-623 *)
Definition scalar_int_32_store_nt : body :=
  [SSet (LMem (dat 0)) (vv 0);
   SSet (LMem (dat 1)) (vv 1);
   SSet (LMem (dat 2)) (vv 2);
   SSet (LMem (dat 3)) (vv 3);
   SSet (LMem (dat 4)) (vv 4);
   SSet (LMem (dat 5)) (vv 5);
   SSet (LMem (dat 6)) (vv 6);
   SSet (LMem (dat 7)) (vv 7);
   SSet (LMem (dat 8)) (vv 8);
   SSet (LMem (dat 9)) (vv 9);
   SSet (LMem (dat 10)) (vv 10);
   SSet (LMem (dat 11)) (vv 11);
   SSet (LMem (dat 12)) (vv 12);
   SSet (LMem (dat 13)) (vv 13);
   SSet (LMem (dat 14)) (vv 14);
   SSet (LMem (dat 15)) (vv 15);
   SSet (LMem (dat 16)) (vv 16);
   SSet (LMem (dat 17)) (vv 17);
   SSet (LMem (dat 18)) (vv 18);
   SSet (LMem (dat 19)) (vv 19);
   SSet (LMem (dat 20)) (vv 20);
   SSet (LMem (dat 21)) (vv 21);
   SSet (LMem (dat 22)) (vv 22);
   SSet (LMem (dat 23)) (vv 23);
   SSet (LMem (dat 24)) (vv 24);
   SSet (LMem (dat 25)) (vv 25);
   SSet (LMem (dat 26)) (vv 26);
   SSet (LMem (dat 27)) (vv 27);
   SSet (LMem (dat 28)) (vv 28);
   SSet (LMem (dat 29)) (vv 29);
   SSet (LMem (dat 30)) (vv 30);
   SSet (LMem (dat 31)) (vv 31)].

(* short_vec_scalar_int_32.hpp:625-660 *)
Definition scalar_int_32_gather : body :=
  [SSet (LVal (EInt 0)) (EIdx EPtr (off 0));
   SSet (LVal (EInt 1)) (EIdx EPtr (off 1));
   SSet (LVal (EInt 2)) (EIdx EPtr (off 2));
   SSet (LVal (EInt 3)) (EIdx EPtr (off 3));
   SSet (LVal (EInt 4)) (EIdx EPtr (off 4));
   SSet (LVal (EInt 5)) (EIdx EPtr (off 5));
   SSet (LVal (EInt 6)) (EIdx EPtr (off 6));
   SSet (LVal (EInt 7)) (EIdx EPtr (off 7));
   SSet (LVal (EInt 8)) (EIdx EPtr (off 8));
   SSet (LVal (EInt 9)) (EIdx EPtr (off 9));
   SSet (LVal (EInt 10)) (EIdx EPtr (off 10));
   SSet (LVal (EInt 11)) (EIdx EPtr (off 11));
   SSet (LVal (EInt 12)) (EIdx EPtr (off 12));
   SSet (LVal (EInt 13)) (EIdx EPtr (off 13));
   SSet (LVal (EInt 14)) (EIdx EPtr (off 14));
   SSet (LVal (EInt 15)) (EIdx EPtr (off 15));
   SSet (LVal (EInt 16)) (EIdx EPtr (off 16));
   SSet (LVal (EInt 17)) (EIdx EPtr (off 17));
   SSet (LVal (EInt 18)) (EIdx EPtr (off 18));
   SSet (LVal (EInt 19)) (EIdx EPtr (off 19));
   SSet (LVal (EInt 20)) (EIdx EPtr (off 20));
   SSet (LVal (EInt 21)) (EIdx EPtr (off 21));
   SSet (LVal (EInt 22)) (EIdx EPtr (off 22));
   SSet (LVal (EInt 23)) (EIdx EPtr (off 23));
   SSet (LVal (EInt 24)) (EIdx EPtr (off 24));
   SSet (LVal (EInt 25)) (EIdx EPtr (off 25));
   SSet (LVal (EInt 26)) (EIdx EPtr (off 26));
   SSet (LVal (EInt 27)) (EIdx EPtr (off 27));
   SSet (LVal (EInt 28)) (EIdx EPtr (off 28));
   SSet (LVal (EInt 29)) (EIdx EPtr (off 29));
   SSet (LVal (EInt 30)) (EIdx EPtr (off 30));
   SSet (LVal (EInt 31)) (EIdx EPtr (off 31))].

(* short_vec_scalar_int_32.hpp:662-697 *)
Definition scalar_int_32_scatter : body :=
  [SSet (LMem (pto 0)) (vv 0);
   SSet (LMem (pto 1)) (vv 1);
   SSet (LMem (pto 2)) (vv 2);
   SSet (LMem (pto 3)) (vv 3);
   SSet (LMem (pto 4)) (vv 4);
   SSet (LMem (pto 5)) (vv 5);
   SSet (LMem (pto 6)) (vv 6);
   SSet (LMem (pto 7)) (vv 7);
   SSet (LMem (pto 8)) (vv 8);
   SSet (LMem (pto 9)) (vv 9);
   SSet (LMem (pto 10)) (vv 10);
   SSet (LMem (pto 11)) (vv 11);
   SSet (LMem (pto 12)) (vv 12);
   SSet (LMem (pto 13)) (vv 13);
   SSet (LMem (pto 14)) (vv 14);
   SSet (LMem (pto 15)) (vv 15);
   SSet (LMem (pto 16)) (vv 16);
   SSet (LMem (pto 17)) (vv 17);
   SSet (LMem (pto 18)) (vv 18);
   SSet (LMem (pto 19)) (vv 19);
   SSet (LMem (pto 20)) (vv 20);
   SSet (LMem (pto 21)) (vv 21);
   SSet (LMem (pto 22)) (vv 22);
   SSet (LMem (pto 23)) (vv 23);
   SSet (LMem (pto 24)) (vv 24);
   SSet (LMem (pto 25)) (vv 25);
   SSet (LMem (pto 26)) (vv 26);
   SSet (LMem (pto 27)) (vv 27);
   SSet (LMem (pto 28)) (vv 28);
   SSet (LMem (pto 29)) (vv 29);
   SSet (LMem (pto 30)) (vv 30);
   SSet (LMem (pto 31)) (vv 31)].

(* short_vec_scalar_int_32.hpp:729-740 *)
Definition scalar_int_32_print : list item :=
  [PStr "["; PVal (vv 0); PStr ", "; PVal (vv 1); PStr ", "; PVal (vv 2); PStr ", "; PVal (vv 3);
   PStr ", "; PVal (vv 4); PStr ", "; PVal (vv 5); PStr ", "; PVal (vv 6); PStr ", "; PVal (vv 7);
   PStr ", "; PVal (vv 8); PStr ", "; PVal (vv 9); PStr ", "; PVal (vv 10); PStr ", "; PVal (vv
   11); PStr ", "; PVal (vv 12); PStr ", "; PVal (vv 13); PStr ", "; PVal (vv 14); PStr ", "; PVal
   (vv 15); PStr ", "; PVal (vv 16); PStr ", "; PVal (vv 17); PStr ", "; PVal (vv 18); PStr ", ";
   PVal (vv 19); PStr ", "; PVal (vv 20); PStr ", "; PVal (vv 21); PStr ", "; PVal (vv 22); PStr
   ", "; PVal (vv 23); PStr ", "; PVal (vv 24); PStr ", "; PVal (vv 25); PStr ", "; PVal (vv 26);
   PStr ", "; PVal (vv 27); PStr ", "; PVal (vv 28); PStr ", "; PVal (vv 29); PStr ", "; PVal (vv
   30); PStr ", "; PVal (vv 31); PStr "]"].

(* short_vec_scalar_int_32.hpp *)
Definition cls_scalar_int_32 : cls :=
  mkCls "scalar_int_32" KI32 32 32 1 4 MNone
    (fun m => match m with
     | MCtorScalar => Some scalar_int_32_ctor_scalar
     | MCtorPtr => Some scalar_int_32_ctor_ptr
     | MCtorRegs => Some scalar_int_32_ctor_regs
     | MCtorList => Some scalar_int_32_ctor_list
     | MSubEq => Some scalar_int_32_sub_eq
     | MSub => Some scalar_int_32_sub
     | MAddEq => Some scalar_int_32_add_eq
     | MAdd => Some scalar_int_32_add
     | MMulEq => Some scalar_int_32_mul_eq
     | MMul => Some scalar_int_32_mul
     | MDivEq => Some scalar_int_32_div_eq
     | MDiv => Some scalar_int_32_div
     | MSqrt => Some scalar_int_32_sqrt
     | MLoad => Some scalar_int_32_load
     | MLoadAligned => Some scalar_int_32_load_aligned
     | MStore => Some scalar_int_32_store
     | MStoreAligned => Some scalar_int_32_store_aligned
     | MStoreNt => Some scalar_int_32_store_nt
     | MGather => Some scalar_int_32_gather
     | MScatter => Some scalar_int_32_scatter
     | _ => None
     end)
    scalar_int_32_ctor_regs scalar_int_32_print.

Definition scalar_classes : list cls :=
  [cls_scalar_double_1; cls_scalar_double_2; cls_scalar_double_4; cls_scalar_double_8;
   cls_scalar_double_16; cls_scalar_double_32; cls_scalar_float_1; cls_scalar_float_2;
   cls_scalar_float_4; cls_scalar_float_8; cls_scalar_float_16; cls_scalar_float_32;
   cls_scalar_int_1; cls_scalar_int_2; cls_scalar_int_4; cls_scalar_int_8; cls_scalar_int_16;
   cls_scalar_int_32].
