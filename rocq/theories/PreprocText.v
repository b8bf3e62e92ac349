(** The macros of /repo/include/libflatarray/preprocessor.hpp,
    detail/preprocessor.hpp, detail/macros.hpp and macros.hpp: their #define
    lines, copied literally (continuation lines joined, blanks normalised;
    include guards, comments and the branches for _MSC_BUILD and __CUDACC__ left
    out: the branches taken are those of a host compiler with __GNUC__). *)
From Coq Require Import String List.
Import ListNotations.
Local Open Scope string_scope.

(** detail/preprocessor.hpp:19-21 (not _MSC_BUILD), 24-446 *)
Definition detail_preprocessor : list string :=
  ["#define LIBFLATARRAY_ELEM_I(INDEX, LIST) LIBFLATARRAY_ELEM_II(LIBFLATARRAY_ELEM_ ## INDEX LIST)";
   "#define LIBFLATARRAY_ELEM_II(ELEMENT) LIBFLATARRAY_ELEM_III(ELEMENT)";
   "#define LIBFLATARRAY_ELEM_III(ELEMENT, _) ELEMENT";
   "#define LIBFLATARRAY_ELEM_0(ELEMENT) ELEMENT, LIBFLATARRAY_NIL";
   "#define LIBFLATARRAY_ELEM_1(_) LIBFLATARRAY_ELEM_0";
   "#define LIBFLATARRAY_ELEM_2(_) LIBFLATARRAY_ELEM_1";
   "#define LIBFLATARRAY_ELEM_3(_) LIBFLATARRAY_ELEM_2";
   "#define LIBFLATARRAY_ELEM_4(_) LIBFLATARRAY_ELEM_3";
   "#define LIBFLATARRAY_ELEM_5(_) LIBFLATARRAY_ELEM_4";
   "#define LIBFLATARRAY_ELEM_6(_) LIBFLATARRAY_ELEM_5";
   "#define LIBFLATARRAY_ELEM_7(_) LIBFLATARRAY_ELEM_6";
   "#define LIBFLATARRAY_ELEM_8(_) LIBFLATARRAY_ELEM_7";
   "#define LIBFLATARRAY_ELEM_9(_) LIBFLATARRAY_ELEM_8";
   "#define LIBFLATARRAY_ELEM_10(_) LIBFLATARRAY_ELEM_9";
   "#define LIBFLATARRAY_ELEM_11(_) LIBFLATARRAY_ELEM_10";
   "#define LIBFLATARRAY_ELEM_12(_) LIBFLATARRAY_ELEM_11";
   "#define LIBFLATARRAY_ELEM_13(_) LIBFLATARRAY_ELEM_12";
   "#define LIBFLATARRAY_ELEM_14(_) LIBFLATARRAY_ELEM_13";
   "#define LIBFLATARRAY_ELEM_15(_) LIBFLATARRAY_ELEM_14";
   "#define LIBFLATARRAY_ELEM_16(_) LIBFLATARRAY_ELEM_15";
   "#define LIBFLATARRAY_ELEM_17(_) LIBFLATARRAY_ELEM_16";
   "#define LIBFLATARRAY_ELEM_18(_) LIBFLATARRAY_ELEM_17";
   "#define LIBFLATARRAY_ELEM_19(_) LIBFLATARRAY_ELEM_18";
   "#define LIBFLATARRAY_ELEM_20(_) LIBFLATARRAY_ELEM_19";
   "#define LIBFLATARRAY_ELEM_21(_) LIBFLATARRAY_ELEM_20";
   "#define LIBFLATARRAY_ELEM_22(_) LIBFLATARRAY_ELEM_21";
   "#define LIBFLATARRAY_ELEM_23(_) LIBFLATARRAY_ELEM_22";
   "#define LIBFLATARRAY_ELEM_24(_) LIBFLATARRAY_ELEM_23";
   "#define LIBFLATARRAY_ELEM_25(_) LIBFLATARRAY_ELEM_24";
   "#define LIBFLATARRAY_ELEM_26(_) LIBFLATARRAY_ELEM_25";
   "#define LIBFLATARRAY_ELEM_27(_) LIBFLATARRAY_ELEM_26";
   "#define LIBFLATARRAY_ELEM_28(_) LIBFLATARRAY_ELEM_27";
   "#define LIBFLATARRAY_ELEM_29(_) LIBFLATARRAY_ELEM_28";
   "#define LIBFLATARRAY_ELEM_30(_) LIBFLATARRAY_ELEM_29";
   "#define LIBFLATARRAY_ELEM_31(_) LIBFLATARRAY_ELEM_30";
   "#define LIBFLATARRAY_ELEM_32(_) LIBFLATARRAY_ELEM_31";
   "#define LIBFLATARRAY_ELEM_33(_) LIBFLATARRAY_ELEM_32";
   "#define LIBFLATARRAY_ELEM_34(_) LIBFLATARRAY_ELEM_33";
   "#define LIBFLATARRAY_ELEM_35(_) LIBFLATARRAY_ELEM_34";
   "#define LIBFLATARRAY_ELEM_36(_) LIBFLATARRAY_ELEM_35";
   "#define LIBFLATARRAY_ELEM_37(_) LIBFLATARRAY_ELEM_36";
   "#define LIBFLATARRAY_ELEM_38(_) LIBFLATARRAY_ELEM_37";
   "#define LIBFLATARRAY_ELEM_39(_) LIBFLATARRAY_ELEM_38";
   "#define LIBFLATARRAY_ELEM_40(_) LIBFLATARRAY_ELEM_39";
   "#define LIBFLATARRAY_ELEM_41(_) LIBFLATARRAY_ELEM_40";
   "#define LIBFLATARRAY_ELEM_42(_) LIBFLATARRAY_ELEM_41";
   "#define LIBFLATARRAY_ELEM_43(_) LIBFLATARRAY_ELEM_42";
   "#define LIBFLATARRAY_ELEM_44(_) LIBFLATARRAY_ELEM_43";
   "#define LIBFLATARRAY_ELEM_45(_) LIBFLATARRAY_ELEM_44";
   "#define LIBFLATARRAY_ELEM_46(_) LIBFLATARRAY_ELEM_45";
   "#define LIBFLATARRAY_ELEM_47(_) LIBFLATARRAY_ELEM_46";
   "#define LIBFLATARRAY_ELEM_48(_) LIBFLATARRAY_ELEM_47";
   "#define LIBFLATARRAY_ELEM_49(_) LIBFLATARRAY_ELEM_48";
   "#define LIBFLATARRAY_ELEM_50(_) LIBFLATARRAY_ELEM_49";
   "#define LIBFLATARRAY_SIZE_I(X) LIBFLATARRAY_SIZE_II(X)";
   "#define LIBFLATARRAY_SIZE_II(X) LIBFLATARRAY_DEREF_ ## X";
   "#define LIBFLATARRAY_SIZE_0(_) LIBFLATARRAY_SIZE_1";
   "#define LIBFLATARRAY_SIZE_1(_) LIBFLATARRAY_SIZE_2";
   "#define LIBFLATARRAY_SIZE_2(_) LIBFLATARRAY_SIZE_3";
   "#define LIBFLATARRAY_SIZE_3(_) LIBFLATARRAY_SIZE_4";
   "#define LIBFLATARRAY_SIZE_4(_) LIBFLATARRAY_SIZE_5";
   "#define LIBFLATARRAY_SIZE_5(_) LIBFLATARRAY_SIZE_6";
   "#define LIBFLATARRAY_SIZE_6(_) LIBFLATARRAY_SIZE_7";
   "#define LIBFLATARRAY_SIZE_7(_) LIBFLATARRAY_SIZE_8";
   "#define LIBFLATARRAY_SIZE_8(_) LIBFLATARRAY_SIZE_9";
   "#define LIBFLATARRAY_SIZE_9(_) LIBFLATARRAY_SIZE_10";
   "#define LIBFLATARRAY_SIZE_10(_) LIBFLATARRAY_SIZE_11";
   "#define LIBFLATARRAY_SIZE_11(_) LIBFLATARRAY_SIZE_12";
   "#define LIBFLATARRAY_SIZE_12(_) LIBFLATARRAY_SIZE_13";
   "#define LIBFLATARRAY_SIZE_13(_) LIBFLATARRAY_SIZE_14";
   "#define LIBFLATARRAY_SIZE_14(_) LIBFLATARRAY_SIZE_15";
   "#define LIBFLATARRAY_SIZE_15(_) LIBFLATARRAY_SIZE_16";
   "#define LIBFLATARRAY_SIZE_16(_) LIBFLATARRAY_SIZE_17";
   "#define LIBFLATARRAY_SIZE_17(_) LIBFLATARRAY_SIZE_18";
   "#define LIBFLATARRAY_SIZE_18(_) LIBFLATARRAY_SIZE_19";
   "#define LIBFLATARRAY_SIZE_19(_) LIBFLATARRAY_SIZE_20";
   "#define LIBFLATARRAY_SIZE_20(_) LIBFLATARRAY_SIZE_21";
   "#define LIBFLATARRAY_SIZE_21(_) LIBFLATARRAY_SIZE_22";
   "#define LIBFLATARRAY_SIZE_22(_) LIBFLATARRAY_SIZE_23";
   "#define LIBFLATARRAY_SIZE_23(_) LIBFLATARRAY_SIZE_24";
   "#define LIBFLATARRAY_SIZE_24(_) LIBFLATARRAY_SIZE_25";
   "#define LIBFLATARRAY_SIZE_25(_) LIBFLATARRAY_SIZE_26";
   "#define LIBFLATARRAY_SIZE_26(_) LIBFLATARRAY_SIZE_27";
   "#define LIBFLATARRAY_SIZE_27(_) LIBFLATARRAY_SIZE_28";
   "#define LIBFLATARRAY_SIZE_28(_) LIBFLATARRAY_SIZE_29";
   "#define LIBFLATARRAY_SIZE_29(_) LIBFLATARRAY_SIZE_30";
   "#define LIBFLATARRAY_SIZE_30(_) LIBFLATARRAY_SIZE_31";
   "#define LIBFLATARRAY_SIZE_31(_) LIBFLATARRAY_SIZE_32";
   "#define LIBFLATARRAY_SIZE_32(_) LIBFLATARRAY_SIZE_33";
   "#define LIBFLATARRAY_SIZE_33(_) LIBFLATARRAY_SIZE_34";
   "#define LIBFLATARRAY_SIZE_34(_) LIBFLATARRAY_SIZE_35";
   "#define LIBFLATARRAY_SIZE_35(_) LIBFLATARRAY_SIZE_36";
   "#define LIBFLATARRAY_SIZE_36(_) LIBFLATARRAY_SIZE_37";
   "#define LIBFLATARRAY_SIZE_37(_) LIBFLATARRAY_SIZE_38";
   "#define LIBFLATARRAY_SIZE_38(_) LIBFLATARRAY_SIZE_39";
   "#define LIBFLATARRAY_SIZE_39(_) LIBFLATARRAY_SIZE_40";
   "#define LIBFLATARRAY_SIZE_40(_) LIBFLATARRAY_SIZE_41";
   "#define LIBFLATARRAY_SIZE_41(_) LIBFLATARRAY_SIZE_42";
   "#define LIBFLATARRAY_SIZE_42(_) LIBFLATARRAY_SIZE_43";
   "#define LIBFLATARRAY_SIZE_43(_) LIBFLATARRAY_SIZE_44";
   "#define LIBFLATARRAY_SIZE_44(_) LIBFLATARRAY_SIZE_45";
   "#define LIBFLATARRAY_SIZE_45(_) LIBFLATARRAY_SIZE_46";
   "#define LIBFLATARRAY_SIZE_46(_) LIBFLATARRAY_SIZE_47";
   "#define LIBFLATARRAY_SIZE_47(_) LIBFLATARRAY_SIZE_48";
   "#define LIBFLATARRAY_SIZE_48(_) LIBFLATARRAY_SIZE_49";
   "#define LIBFLATARRAY_SIZE_49(_) LIBFLATARRAY_SIZE_50";
   "#define LIBFLATARRAY_SIZE_50(_) LIBFLATARRAY_SIZE_51";
   "#define LIBFLATARRAY_DEREF_LIBFLATARRAY_SIZE_0 0";
   "#define LIBFLATARRAY_DEREF_LIBFLATARRAY_SIZE_1 1";
   "#define LIBFLATARRAY_DEREF_LIBFLATARRAY_SIZE_2 2";
   "#define LIBFLATARRAY_DEREF_LIBFLATARRAY_SIZE_3 3";
   "#define LIBFLATARRAY_DEREF_LIBFLATARRAY_SIZE_4 4";
   "#define LIBFLATARRAY_DEREF_LIBFLATARRAY_SIZE_5 5";
   "#define LIBFLATARRAY_DEREF_LIBFLATARRAY_SIZE_6 6";
   "#define LIBFLATARRAY_DEREF_LIBFLATARRAY_SIZE_7 7";
   "#define LIBFLATARRAY_DEREF_LIBFLATARRAY_SIZE_8 8";
   "#define LIBFLATARRAY_DEREF_LIBFLATARRAY_SIZE_9 9";
   "#define LIBFLATARRAY_DEREF_LIBFLATARRAY_SIZE_10 10";
   "#define LIBFLATARRAY_DEREF_LIBFLATARRAY_SIZE_11 11";
   "#define LIBFLATARRAY_DEREF_LIBFLATARRAY_SIZE_12 12";
   "#define LIBFLATARRAY_DEREF_LIBFLATARRAY_SIZE_13 13";
   "#define LIBFLATARRAY_DEREF_LIBFLATARRAY_SIZE_14 14";
   "#define LIBFLATARRAY_DEREF_LIBFLATARRAY_SIZE_15 15";
   "#define LIBFLATARRAY_DEREF_LIBFLATARRAY_SIZE_16 16";
   "#define LIBFLATARRAY_DEREF_LIBFLATARRAY_SIZE_17 17";
   "#define LIBFLATARRAY_DEREF_LIBFLATARRAY_SIZE_18 18";
   "#define LIBFLATARRAY_DEREF_LIBFLATARRAY_SIZE_19 19";
   "#define LIBFLATARRAY_DEREF_LIBFLATARRAY_SIZE_20 20";
   "#define LIBFLATARRAY_DEREF_LIBFLATARRAY_SIZE_21 21";
   "#define LIBFLATARRAY_DEREF_LIBFLATARRAY_SIZE_22 22";
   "#define LIBFLATARRAY_DEREF_LIBFLATARRAY_SIZE_23 23";
   "#define LIBFLATARRAY_DEREF_LIBFLATARRAY_SIZE_24 24";
   "#define LIBFLATARRAY_DEREF_LIBFLATARRAY_SIZE_25 25";
   "#define LIBFLATARRAY_DEREF_LIBFLATARRAY_SIZE_26 26";
   "#define LIBFLATARRAY_DEREF_LIBFLATARRAY_SIZE_27 27";
   "#define LIBFLATARRAY_DEREF_LIBFLATARRAY_SIZE_28 28";
   "#define LIBFLATARRAY_DEREF_LIBFLATARRAY_SIZE_29 29";
   "#define LIBFLATARRAY_DEREF_LIBFLATARRAY_SIZE_30 30";
   "#define LIBFLATARRAY_DEREF_LIBFLATARRAY_SIZE_31 31";
   "#define LIBFLATARRAY_DEREF_LIBFLATARRAY_SIZE_32 32";
   "#define LIBFLATARRAY_DEREF_LIBFLATARRAY_SIZE_33 33";
   "#define LIBFLATARRAY_DEREF_LIBFLATARRAY_SIZE_34 34";
   "#define LIBFLATARRAY_DEREF_LIBFLATARRAY_SIZE_35 35";
   "#define LIBFLATARRAY_DEREF_LIBFLATARRAY_SIZE_36 36";
   "#define LIBFLATARRAY_DEREF_LIBFLATARRAY_SIZE_37 37";
   "#define LIBFLATARRAY_DEREF_LIBFLATARRAY_SIZE_38 38";
   "#define LIBFLATARRAY_DEREF_LIBFLATARRAY_SIZE_39 39";
   "#define LIBFLATARRAY_DEREF_LIBFLATARRAY_SIZE_40 40";
   "#define LIBFLATARRAY_DEREF_LIBFLATARRAY_SIZE_41 41";
   "#define LIBFLATARRAY_DEREF_LIBFLATARRAY_SIZE_42 42";
   "#define LIBFLATARRAY_DEREF_LIBFLATARRAY_SIZE_43 43";
   "#define LIBFLATARRAY_DEREF_LIBFLATARRAY_SIZE_44 44";
   "#define LIBFLATARRAY_DEREF_LIBFLATARRAY_SIZE_45 45";
   "#define LIBFLATARRAY_DEREF_LIBFLATARRAY_SIZE_46 46";
   "#define LIBFLATARRAY_DEREF_LIBFLATARRAY_SIZE_47 47";
   "#define LIBFLATARRAY_DEREF_LIBFLATARRAY_SIZE_48 48";
   "#define LIBFLATARRAY_DEREF_LIBFLATARRAY_SIZE_49 49";
   "#define LIBFLATARRAY_DEREF_LIBFLATARRAY_SIZE_50 50";
   "#define LIBFLATARRAY_DEREF_LIBFLATARRAY_SIZE_51 51";
   "#define LIBFLATARRAY_FOR_EACH_I(MACRO, DEFAULT_ARG, LIST_SHORT, LIST)
     LIBFLATARRAY_FOR_EACH_II(MACRO, DEFAULT_ARG, LIBFLATARRAY_SIZE(LIST_SHORT), LIST)";
   "#define LIBFLATARRAY_FOR_EACH_II(MACRO, DEFAULT_ARG, SIZE, LIST)
     LIBFLATARRAY_FOR_EACH_III(MACRO, DEFAULT_ARG, SIZE, LIST)";
   "#define LIBFLATARRAY_FOR_EACH_III(MACRO, DEFAULT_ARG, SIZE, LIST) LIBFLATARRAY_FOR_EACH_ ## SIZE
     (MACRO, DEFAULT_ARG, LIST)";
   "#define LIBFLATARRAY_FOR_EACH_EVAL(MACRO, ARG1, ARG2, ARG3) MACRO(ARG1, ARG2, ARG3)";
   "#define LIBFLATARRAY_FOR_EACH_0( MACRO, DEFAULT_ARG, LIST) LIBFLATARRAY_FOR_EACH_EVAL(MACRO, 0,
     DEFAULT_ARG, LIBFLATARRAY_ELEM( 0, LIST))";
   "#define LIBFLATARRAY_FOR_EACH_1( MACRO, DEFAULT_ARG, LIST) LIBFLATARRAY_FOR_EACH_0( MACRO,
     DEFAULT_ARG, LIST) LIBFLATARRAY_FOR_EACH_EVAL(MACRO, 1, DEFAULT_ARG, LIBFLATARRAY_ELEM( 1,
     LIST))";
   "#define LIBFLATARRAY_FOR_EACH_2( MACRO, DEFAULT_ARG, LIST) LIBFLATARRAY_FOR_EACH_1( MACRO,
     DEFAULT_ARG, LIST) LIBFLATARRAY_FOR_EACH_EVAL(MACRO, 2, DEFAULT_ARG, LIBFLATARRAY_ELEM( 2,
     LIST))";
   "#define LIBFLATARRAY_FOR_EACH_3( MACRO, DEFAULT_ARG, LIST) LIBFLATARRAY_FOR_EACH_2( MACRO,
     DEFAULT_ARG, LIST) LIBFLATARRAY_FOR_EACH_EVAL(MACRO, 3, DEFAULT_ARG, LIBFLATARRAY_ELEM( 3,
     LIST))";
   "#define LIBFLATARRAY_FOR_EACH_4( MACRO, DEFAULT_ARG, LIST) LIBFLATARRAY_FOR_EACH_3( MACRO,
     DEFAULT_ARG, LIST) LIBFLATARRAY_FOR_EACH_EVAL(MACRO, 4, DEFAULT_ARG, LIBFLATARRAY_ELEM( 4,
     LIST))";
   "#define LIBFLATARRAY_FOR_EACH_5( MACRO, DEFAULT_ARG, LIST) LIBFLATARRAY_FOR_EACH_4( MACRO,
     DEFAULT_ARG, LIST) LIBFLATARRAY_FOR_EACH_EVAL(MACRO, 5, DEFAULT_ARG, LIBFLATARRAY_ELEM( 5,
     LIST))";
   "#define LIBFLATARRAY_FOR_EACH_6( MACRO, DEFAULT_ARG, LIST) LIBFLATARRAY_FOR_EACH_5( MACRO,
     DEFAULT_ARG, LIST) LIBFLATARRAY_FOR_EACH_EVAL(MACRO, 6, DEFAULT_ARG, LIBFLATARRAY_ELEM( 6,
     LIST))";
   "#define LIBFLATARRAY_FOR_EACH_7( MACRO, DEFAULT_ARG, LIST) LIBFLATARRAY_FOR_EACH_6( MACRO,
     DEFAULT_ARG, LIST) LIBFLATARRAY_FOR_EACH_EVAL(MACRO, 7, DEFAULT_ARG, LIBFLATARRAY_ELEM( 7,
     LIST))";
   "#define LIBFLATARRAY_FOR_EACH_8( MACRO, DEFAULT_ARG, LIST) LIBFLATARRAY_FOR_EACH_7( MACRO,
     DEFAULT_ARG, LIST) LIBFLATARRAY_FOR_EACH_EVAL(MACRO, 8, DEFAULT_ARG, LIBFLATARRAY_ELEM( 8,
     LIST))";
   "#define LIBFLATARRAY_FOR_EACH_9( MACRO, DEFAULT_ARG, LIST) LIBFLATARRAY_FOR_EACH_8( MACRO,
     DEFAULT_ARG, LIST) LIBFLATARRAY_FOR_EACH_EVAL(MACRO, 9, DEFAULT_ARG, LIBFLATARRAY_ELEM( 9,
     LIST))";
   "#define LIBFLATARRAY_FOR_EACH_10(MACRO, DEFAULT_ARG, LIST) LIBFLATARRAY_FOR_EACH_9( MACRO,
     DEFAULT_ARG, LIST) LIBFLATARRAY_FOR_EACH_EVAL(MACRO, 10, DEFAULT_ARG, LIBFLATARRAY_ELEM(10,
     LIST))";
   "#define LIBFLATARRAY_FOR_EACH_11(MACRO, DEFAULT_ARG, LIST) LIBFLATARRAY_FOR_EACH_10(MACRO,
     DEFAULT_ARG, LIST) LIBFLATARRAY_FOR_EACH_EVAL(MACRO, 11, DEFAULT_ARG, LIBFLATARRAY_ELEM(11,
     LIST))";
   "#define LIBFLATARRAY_FOR_EACH_12(MACRO, DEFAULT_ARG, LIST) LIBFLATARRAY_FOR_EACH_11(MACRO,
     DEFAULT_ARG, LIST) LIBFLATARRAY_FOR_EACH_EVAL(MACRO, 12, DEFAULT_ARG, LIBFLATARRAY_ELEM(12,
     LIST))";
   "#define LIBFLATARRAY_FOR_EACH_13(MACRO, DEFAULT_ARG, LIST) LIBFLATARRAY_FOR_EACH_12(MACRO,
     DEFAULT_ARG, LIST) LIBFLATARRAY_FOR_EACH_EVAL(MACRO, 13, DEFAULT_ARG, LIBFLATARRAY_ELEM(13,
     LIST))";
   "#define LIBFLATARRAY_FOR_EACH_14(MACRO, DEFAULT_ARG, LIST) LIBFLATARRAY_FOR_EACH_13(MACRO,
     DEFAULT_ARG, LIST) LIBFLATARRAY_FOR_EACH_EVAL(MACRO, 14, DEFAULT_ARG, LIBFLATARRAY_ELEM(14,
     LIST))";
   "#define LIBFLATARRAY_FOR_EACH_15(MACRO, DEFAULT_ARG, LIST) LIBFLATARRAY_FOR_EACH_14(MACRO,
     DEFAULT_ARG, LIST) LIBFLATARRAY_FOR_EACH_EVAL(MACRO, 15, DEFAULT_ARG, LIBFLATARRAY_ELEM(15,
     LIST))";
   "#define LIBFLATARRAY_FOR_EACH_16(MACRO, DEFAULT_ARG, LIST) LIBFLATARRAY_FOR_EACH_15(MACRO,
     DEFAULT_ARG, LIST) LIBFLATARRAY_FOR_EACH_EVAL(MACRO, 16, DEFAULT_ARG, LIBFLATARRAY_ELEM(16,
     LIST))";
   "#define LIBFLATARRAY_FOR_EACH_17(MACRO, DEFAULT_ARG, LIST) LIBFLATARRAY_FOR_EACH_16(MACRO,
     DEFAULT_ARG, LIST) LIBFLATARRAY_FOR_EACH_EVAL(MACRO, 17, DEFAULT_ARG, LIBFLATARRAY_ELEM(17,
     LIST))";
   "#define LIBFLATARRAY_FOR_EACH_18(MACRO, DEFAULT_ARG, LIST) LIBFLATARRAY_FOR_EACH_17(MACRO,
     DEFAULT_ARG, LIST) LIBFLATARRAY_FOR_EACH_EVAL(MACRO, 18, DEFAULT_ARG, LIBFLATARRAY_ELEM(18,
     LIST))";
   "#define LIBFLATARRAY_FOR_EACH_19(MACRO, DEFAULT_ARG, LIST) LIBFLATARRAY_FOR_EACH_18(MACRO,
     DEFAULT_ARG, LIST) LIBFLATARRAY_FOR_EACH_EVAL(MACRO, 19, DEFAULT_ARG, LIBFLATARRAY_ELEM(19,
     LIST))";
   "#define LIBFLATARRAY_FOR_EACH_20(MACRO, DEFAULT_ARG, LIST) LIBFLATARRAY_FOR_EACH_19(MACRO,
     DEFAULT_ARG, LIST) LIBFLATARRAY_FOR_EACH_EVAL(MACRO, 20, DEFAULT_ARG, LIBFLATARRAY_ELEM(20,
     LIST))";
   "#define LIBFLATARRAY_FOR_EACH_21(MACRO, DEFAULT_ARG, LIST) LIBFLATARRAY_FOR_EACH_20(MACRO,
     DEFAULT_ARG, LIST) LIBFLATARRAY_FOR_EACH_EVAL(MACRO, 21, DEFAULT_ARG, LIBFLATARRAY_ELEM(21,
     LIST))";
   "#define LIBFLATARRAY_FOR_EACH_22(MACRO, DEFAULT_ARG, LIST) LIBFLATARRAY_FOR_EACH_21(MACRO,
     DEFAULT_ARG, LIST) LIBFLATARRAY_FOR_EACH_EVAL(MACRO, 22, DEFAULT_ARG, LIBFLATARRAY_ELEM(22,
     LIST))";
   "#define LIBFLATARRAY_FOR_EACH_23(MACRO, DEFAULT_ARG, LIST) LIBFLATARRAY_FOR_EACH_22(MACRO,
     DEFAULT_ARG, LIST) LIBFLATARRAY_FOR_EACH_EVAL(MACRO, 23, DEFAULT_ARG, LIBFLATARRAY_ELEM(23,
     LIST))";
   "#define LIBFLATARRAY_FOR_EACH_24(MACRO, DEFAULT_ARG, LIST) LIBFLATARRAY_FOR_EACH_23(MACRO,
     DEFAULT_ARG, LIST) LIBFLATARRAY_FOR_EACH_EVAL(MACRO, 24, DEFAULT_ARG, LIBFLATARRAY_ELEM(24,
     LIST))";
   "#define LIBFLATARRAY_FOR_EACH_25(MACRO, DEFAULT_ARG, LIST) LIBFLATARRAY_FOR_EACH_24(MACRO,
     DEFAULT_ARG, LIST) LIBFLATARRAY_FOR_EACH_EVAL(MACRO, 25, DEFAULT_ARG, LIBFLATARRAY_ELEM(25,
     LIST))";
   "#define LIBFLATARRAY_FOR_EACH_26(MACRO, DEFAULT_ARG, LIST) LIBFLATARRAY_FOR_EACH_25(MACRO,
     DEFAULT_ARG, LIST) LIBFLATARRAY_FOR_EACH_EVAL(MACRO, 26, DEFAULT_ARG, LIBFLATARRAY_ELEM(26,
     LIST))";
   "#define LIBFLATARRAY_FOR_EACH_27(MACRO, DEFAULT_ARG, LIST) LIBFLATARRAY_FOR_EACH_26(MACRO,
     DEFAULT_ARG, LIST) LIBFLATARRAY_FOR_EACH_EVAL(MACRO, 27, DEFAULT_ARG, LIBFLATARRAY_ELEM(27,
     LIST))";
   "#define LIBFLATARRAY_FOR_EACH_28(MACRO, DEFAULT_ARG, LIST) LIBFLATARRAY_FOR_EACH_27(MACRO,
     DEFAULT_ARG, LIST) LIBFLATARRAY_FOR_EACH_EVAL(MACRO, 28, DEFAULT_ARG, LIBFLATARRAY_ELEM(28,
     LIST))";
   "#define LIBFLATARRAY_FOR_EACH_29(MACRO, DEFAULT_ARG, LIST) LIBFLATARRAY_FOR_EACH_28(MACRO,
     DEFAULT_ARG, LIST) LIBFLATARRAY_FOR_EACH_EVAL(MACRO, 29, DEFAULT_ARG, LIBFLATARRAY_ELEM(29,
     LIST))";
   "#define LIBFLATARRAY_FOR_EACH_30(MACRO, DEFAULT_ARG, LIST) LIBFLATARRAY_FOR_EACH_29(MACRO,
     DEFAULT_ARG, LIST) LIBFLATARRAY_FOR_EACH_EVAL(MACRO, 30, DEFAULT_ARG, LIBFLATARRAY_ELEM(30,
     LIST))";
   "#define LIBFLATARRAY_FOR_EACH_31(MACRO, DEFAULT_ARG, LIST) LIBFLATARRAY_FOR_EACH_30(MACRO,
     DEFAULT_ARG, LIST) LIBFLATARRAY_FOR_EACH_EVAL(MACRO, 31, DEFAULT_ARG, LIBFLATARRAY_ELEM(31,
     LIST))";
   "#define LIBFLATARRAY_FOR_EACH_32(MACRO, DEFAULT_ARG, LIST) LIBFLATARRAY_FOR_EACH_31(MACRO,
     DEFAULT_ARG, LIST) LIBFLATARRAY_FOR_EACH_EVAL(MACRO, 32, DEFAULT_ARG, LIBFLATARRAY_ELEM(32,
     LIST))";
   "#define LIBFLATARRAY_FOR_EACH_33(MACRO, DEFAULT_ARG, LIST) LIBFLATARRAY_FOR_EACH_32(MACRO,
     DEFAULT_ARG, LIST) LIBFLATARRAY_FOR_EACH_EVAL(MACRO, 33, DEFAULT_ARG, LIBFLATARRAY_ELEM(33,
     LIST))";
   "#define LIBFLATARRAY_FOR_EACH_34(MACRO, DEFAULT_ARG, LIST) LIBFLATARRAY_FOR_EACH_33(MACRO,
     DEFAULT_ARG, LIST) LIBFLATARRAY_FOR_EACH_EVAL(MACRO, 34, DEFAULT_ARG, LIBFLATARRAY_ELEM(34,
     LIST))";
   "#define LIBFLATARRAY_FOR_EACH_35(MACRO, DEFAULT_ARG, LIST) LIBFLATARRAY_FOR_EACH_34(MACRO,
     DEFAULT_ARG, LIST) LIBFLATARRAY_FOR_EACH_EVAL(MACRO, 35, DEFAULT_ARG, LIBFLATARRAY_ELEM(35,
     LIST))";
   "#define LIBFLATARRAY_FOR_EACH_36(MACRO, DEFAULT_ARG, LIST) LIBFLATARRAY_FOR_EACH_35(MACRO,
     DEFAULT_ARG, LIST) LIBFLATARRAY_FOR_EACH_EVAL(MACRO, 36, DEFAULT_ARG, LIBFLATARRAY_ELEM(36,
     LIST))";
   "#define LIBFLATARRAY_FOR_EACH_37(MACRO, DEFAULT_ARG, LIST) LIBFLATARRAY_FOR_EACH_36(MACRO,
     DEFAULT_ARG, LIST) LIBFLATARRAY_FOR_EACH_EVAL(MACRO, 37, DEFAULT_ARG, LIBFLATARRAY_ELEM(37,
     LIST))";
   "#define LIBFLATARRAY_FOR_EACH_38(MACRO, DEFAULT_ARG, LIST) LIBFLATARRAY_FOR_EACH_37(MACRO,
     DEFAULT_ARG, LIST) LIBFLATARRAY_FOR_EACH_EVAL(MACRO, 38, DEFAULT_ARG, LIBFLATARRAY_ELEM(38,
     LIST))";
   "#define LIBFLATARRAY_FOR_EACH_39(MACRO, DEFAULT_ARG, LIST) LIBFLATARRAY_FOR_EACH_38(MACRO,
     DEFAULT_ARG, LIST) LIBFLATARRAY_FOR_EACH_EVAL(MACRO, 39, DEFAULT_ARG, LIBFLATARRAY_ELEM(39,
     LIST))";
   "#define LIBFLATARRAY_FOR_EACH_40(MACRO, DEFAULT_ARG, LIST) LIBFLATARRAY_FOR_EACH_39(MACRO,
     DEFAULT_ARG, LIST) LIBFLATARRAY_FOR_EACH_EVAL(MACRO, 40, DEFAULT_ARG, LIBFLATARRAY_ELEM(40,
     LIST))";
   "#define LIBFLATARRAY_FOR_EACH_41(MACRO, DEFAULT_ARG, LIST) LIBFLATARRAY_FOR_EACH_40(MACRO,
     DEFAULT_ARG, LIST) LIBFLATARRAY_FOR_EACH_EVAL(MACRO, 41, DEFAULT_ARG, LIBFLATARRAY_ELEM(41,
     LIST))";
   "#define LIBFLATARRAY_FOR_EACH_42(MACRO, DEFAULT_ARG, LIST) LIBFLATARRAY_FOR_EACH_41(MACRO,
     DEFAULT_ARG, LIST) LIBFLATARRAY_FOR_EACH_EVAL(MACRO, 42, DEFAULT_ARG, LIBFLATARRAY_ELEM(42,
     LIST))";
   "#define LIBFLATARRAY_FOR_EACH_43(MACRO, DEFAULT_ARG, LIST) LIBFLATARRAY_FOR_EACH_42(MACRO,
     DEFAULT_ARG, LIST) LIBFLATARRAY_FOR_EACH_EVAL(MACRO, 43, DEFAULT_ARG, LIBFLATARRAY_ELEM(43,
     LIST))";
   "#define LIBFLATARRAY_FOR_EACH_44(MACRO, DEFAULT_ARG, LIST) LIBFLATARRAY_FOR_EACH_43(MACRO,
     DEFAULT_ARG, LIST) LIBFLATARRAY_FOR_EACH_EVAL(MACRO, 44, DEFAULT_ARG, LIBFLATARRAY_ELEM(44,
     LIST))";
   "#define LIBFLATARRAY_FOR_EACH_45(MACRO, DEFAULT_ARG, LIST) LIBFLATARRAY_FOR_EACH_44(MACRO,
     DEFAULT_ARG, LIST) LIBFLATARRAY_FOR_EACH_EVAL(MACRO, 45, DEFAULT_ARG, LIBFLATARRAY_ELEM(45,
     LIST))";
   "#define LIBFLATARRAY_FOR_EACH_46(MACRO, DEFAULT_ARG, LIST) LIBFLATARRAY_FOR_EACH_45(MACRO,
     DEFAULT_ARG, LIST) LIBFLATARRAY_FOR_EACH_EVAL(MACRO, 46, DEFAULT_ARG, LIBFLATARRAY_ELEM(46,
     LIST))";
   "#define LIBFLATARRAY_FOR_EACH_47(MACRO, DEFAULT_ARG, LIST) LIBFLATARRAY_FOR_EACH_46(MACRO,
     DEFAULT_ARG, LIST) LIBFLATARRAY_FOR_EACH_EVAL(MACRO, 47, DEFAULT_ARG, LIBFLATARRAY_ELEM(47,
     LIST))";
   "#define LIBFLATARRAY_FOR_EACH_48(MACRO, DEFAULT_ARG, LIST) LIBFLATARRAY_FOR_EACH_47(MACRO,
     DEFAULT_ARG, LIST) LIBFLATARRAY_FOR_EACH_EVAL(MACRO, 48, DEFAULT_ARG, LIBFLATARRAY_ELEM(48,
     LIST))";
   "#define LIBFLATARRAY_FOR_EACH_49(MACRO, DEFAULT_ARG, LIST) LIBFLATARRAY_FOR_EACH_48(MACRO,
     DEFAULT_ARG, LIST) LIBFLATARRAY_FOR_EACH_EVAL(MACRO, 49, DEFAULT_ARG, LIBFLATARRAY_ELEM(49,
     LIST))";
   "#define LIBFLATARRAY_FOR_EACH_50(MACRO, DEFAULT_ARG, LIST) LIBFLATARRAY_FOR_EACH_49(MACRO,
     DEFAULT_ARG, LIST) LIBFLATARRAY_FOR_EACH_EVAL(MACRO, 50, DEFAULT_ARG, LIBFLATARRAY_ELEM(50,
     LIST))";
   "#define LIBFLATARRAY_IF_SHORTER_I(MACRO, LIST, A, B) LIBFLATARRAY_IF_SHORTER_II(MACRO LIST, A,
     B)";
   "#define LIBFLATARRAY_IF_SHORTER_II(POSTFIX, A, B) LIBFLATARRAY_IF_SHORTER_III(POSTFIX, A, B)";
   "#define LIBFLATARRAY_IF_SHORTER_III(POSTFIX, A, B) LIBFLATARRAY_IF_SHORTER_DEREF_ ## POSTFIX (A,
     B)";
   "#define LIBFLATARRAY_IF_SHORTER_DEREF_LIBFLATARRAY_IF_SHORTER_M50(A, B) B";
   "#define LIBFLATARRAY_IF_SHORTER_DEREF_LIBFLATARRAY_IF_SHORTER_M49(A, B) B";
   "#define LIBFLATARRAY_IF_SHORTER_DEREF_LIBFLATARRAY_IF_SHORTER_M48(A, B) B";
   "#define LIBFLATARRAY_IF_SHORTER_DEREF_LIBFLATARRAY_IF_SHORTER_M47(A, B) B";
   "#define LIBFLATARRAY_IF_SHORTER_DEREF_LIBFLATARRAY_IF_SHORTER_M46(A, B) B";
   "#define LIBFLATARRAY_IF_SHORTER_DEREF_LIBFLATARRAY_IF_SHORTER_M45(A, B) B";
   "#define LIBFLATARRAY_IF_SHORTER_DEREF_LIBFLATARRAY_IF_SHORTER_M44(A, B) B";
   "#define LIBFLATARRAY_IF_SHORTER_DEREF_LIBFLATARRAY_IF_SHORTER_M43(A, B) B";
   "#define LIBFLATARRAY_IF_SHORTER_DEREF_LIBFLATARRAY_IF_SHORTER_M42(A, B) B";
   "#define LIBFLATARRAY_IF_SHORTER_DEREF_LIBFLATARRAY_IF_SHORTER_M41(A, B) B";
   "#define LIBFLATARRAY_IF_SHORTER_DEREF_LIBFLATARRAY_IF_SHORTER_M40(A, B) B";
   "#define LIBFLATARRAY_IF_SHORTER_DEREF_LIBFLATARRAY_IF_SHORTER_M39(A, B) B";
   "#define LIBFLATARRAY_IF_SHORTER_DEREF_LIBFLATARRAY_IF_SHORTER_M38(A, B) B";
   "#define LIBFLATARRAY_IF_SHORTER_DEREF_LIBFLATARRAY_IF_SHORTER_M37(A, B) B";
   "#define LIBFLATARRAY_IF_SHORTER_DEREF_LIBFLATARRAY_IF_SHORTER_M36(A, B) B";
   "#define LIBFLATARRAY_IF_SHORTER_DEREF_LIBFLATARRAY_IF_SHORTER_M35(A, B) B";
   "#define LIBFLATARRAY_IF_SHORTER_DEREF_LIBFLATARRAY_IF_SHORTER_M34(A, B) B";
   "#define LIBFLATARRAY_IF_SHORTER_DEREF_LIBFLATARRAY_IF_SHORTER_M33(A, B) B";
   "#define LIBFLATARRAY_IF_SHORTER_DEREF_LIBFLATARRAY_IF_SHORTER_M32(A, B) B";
   "#define LIBFLATARRAY_IF_SHORTER_DEREF_LIBFLATARRAY_IF_SHORTER_M31(A, B) B";
   "#define LIBFLATARRAY_IF_SHORTER_DEREF_LIBFLATARRAY_IF_SHORTER_M30(A, B) B";
   "#define LIBFLATARRAY_IF_SHORTER_DEREF_LIBFLATARRAY_IF_SHORTER_M29(A, B) B";
   "#define LIBFLATARRAY_IF_SHORTER_DEREF_LIBFLATARRAY_IF_SHORTER_M28(A, B) B";
   "#define LIBFLATARRAY_IF_SHORTER_DEREF_LIBFLATARRAY_IF_SHORTER_M27(A, B) B";
   "#define LIBFLATARRAY_IF_SHORTER_DEREF_LIBFLATARRAY_IF_SHORTER_M26(A, B) B";
   "#define LIBFLATARRAY_IF_SHORTER_DEREF_LIBFLATARRAY_IF_SHORTER_M25(A, B) B";
   "#define LIBFLATARRAY_IF_SHORTER_DEREF_LIBFLATARRAY_IF_SHORTER_M24(A, B) B";
   "#define LIBFLATARRAY_IF_SHORTER_DEREF_LIBFLATARRAY_IF_SHORTER_M23(A, B) B";
   "#define LIBFLATARRAY_IF_SHORTER_DEREF_LIBFLATARRAY_IF_SHORTER_M22(A, B) B";
   "#define LIBFLATARRAY_IF_SHORTER_DEREF_LIBFLATARRAY_IF_SHORTER_M21(A, B) B";
   "#define LIBFLATARRAY_IF_SHORTER_DEREF_LIBFLATARRAY_IF_SHORTER_M20(A, B) B";
   "#define LIBFLATARRAY_IF_SHORTER_DEREF_LIBFLATARRAY_IF_SHORTER_M19(A, B) B";
   "#define LIBFLATARRAY_IF_SHORTER_DEREF_LIBFLATARRAY_IF_SHORTER_M18(A, B) B";
   "#define LIBFLATARRAY_IF_SHORTER_DEREF_LIBFLATARRAY_IF_SHORTER_M17(A, B) B";
   "#define LIBFLATARRAY_IF_SHORTER_DEREF_LIBFLATARRAY_IF_SHORTER_M16(A, B) B";
   "#define LIBFLATARRAY_IF_SHORTER_DEREF_LIBFLATARRAY_IF_SHORTER_M15(A, B) B";
   "#define LIBFLATARRAY_IF_SHORTER_DEREF_LIBFLATARRAY_IF_SHORTER_M14(A, B) B";
   "#define LIBFLATARRAY_IF_SHORTER_DEREF_LIBFLATARRAY_IF_SHORTER_M13(A, B) B";
   "#define LIBFLATARRAY_IF_SHORTER_DEREF_LIBFLATARRAY_IF_SHORTER_M12(A, B) B";
   "#define LIBFLATARRAY_IF_SHORTER_DEREF_LIBFLATARRAY_IF_SHORTER_M11(A, B) B";
   "#define LIBFLATARRAY_IF_SHORTER_DEREF_LIBFLATARRAY_IF_SHORTER_M10(A, B) B";
   "#define LIBFLATARRAY_IF_SHORTER_DEREF_LIBFLATARRAY_IF_SHORTER_M9(A, B) B";
   "#define LIBFLATARRAY_IF_SHORTER_DEREF_LIBFLATARRAY_IF_SHORTER_M8(A, B) B";
   "#define LIBFLATARRAY_IF_SHORTER_DEREF_LIBFLATARRAY_IF_SHORTER_M7(A, B) B";
   "#define LIBFLATARRAY_IF_SHORTER_DEREF_LIBFLATARRAY_IF_SHORTER_M6(A, B) B";
   "#define LIBFLATARRAY_IF_SHORTER_DEREF_LIBFLATARRAY_IF_SHORTER_M5(A, B) B";
   "#define LIBFLATARRAY_IF_SHORTER_DEREF_LIBFLATARRAY_IF_SHORTER_M4(A, B) B";
   "#define LIBFLATARRAY_IF_SHORTER_DEREF_LIBFLATARRAY_IF_SHORTER_M3(A, B) B";
   "#define LIBFLATARRAY_IF_SHORTER_DEREF_LIBFLATARRAY_IF_SHORTER_M2(A, B) B";
   "#define LIBFLATARRAY_IF_SHORTER_DEREF_LIBFLATARRAY_IF_SHORTER_M1(A, B) B";
   "#define LIBFLATARRAY_IF_SHORTER_DEREF_LIBFLATARRAY_IF_SHORTER_0(A, B) B";
   "#define LIBFLATARRAY_IF_SHORTER_DEREF_LIBFLATARRAY_IF_SHORTER_1(A, B) A";
   "#define LIBFLATARRAY_IF_SHORTER_DEREF_LIBFLATARRAY_IF_SHORTER_2(A, B) A";
   "#define LIBFLATARRAY_IF_SHORTER_DEREF_LIBFLATARRAY_IF_SHORTER_3(A, B) A";
   "#define LIBFLATARRAY_IF_SHORTER_DEREF_LIBFLATARRAY_IF_SHORTER_4(A, B) A";
   "#define LIBFLATARRAY_IF_SHORTER_DEREF_LIBFLATARRAY_IF_SHORTER_5(A, B) A";
   "#define LIBFLATARRAY_IF_SHORTER_DEREF_LIBFLATARRAY_IF_SHORTER_6(A, B) A";
   "#define LIBFLATARRAY_IF_SHORTER_DEREF_LIBFLATARRAY_IF_SHORTER_7(A, B) A";
   "#define LIBFLATARRAY_IF_SHORTER_DEREF_LIBFLATARRAY_IF_SHORTER_8(A, B) A";
   "#define LIBFLATARRAY_IF_SHORTER_DEREF_LIBFLATARRAY_IF_SHORTER_9(A, B) A";
   "#define LIBFLATARRAY_IF_SHORTER_DEREF_LIBFLATARRAY_IF_SHORTER_10(A, B) A";
   "#define LIBFLATARRAY_IF_SHORTER_DEREF_LIBFLATARRAY_IF_SHORTER_11(A, B) A";
   "#define LIBFLATARRAY_IF_SHORTER_DEREF_LIBFLATARRAY_IF_SHORTER_12(A, B) A";
   "#define LIBFLATARRAY_IF_SHORTER_DEREF_LIBFLATARRAY_IF_SHORTER_13(A, B) A";
   "#define LIBFLATARRAY_IF_SHORTER_DEREF_LIBFLATARRAY_IF_SHORTER_14(A, B) A";
   "#define LIBFLATARRAY_IF_SHORTER_DEREF_LIBFLATARRAY_IF_SHORTER_15(A, B) A";
   "#define LIBFLATARRAY_IF_SHORTER_DEREF_LIBFLATARRAY_IF_SHORTER_16(A, B) A";
   "#define LIBFLATARRAY_IF_SHORTER_DEREF_LIBFLATARRAY_IF_SHORTER_17(A, B) A";
   "#define LIBFLATARRAY_IF_SHORTER_DEREF_LIBFLATARRAY_IF_SHORTER_18(A, B) A";
   "#define LIBFLATARRAY_IF_SHORTER_DEREF_LIBFLATARRAY_IF_SHORTER_19(A, B) A";
   "#define LIBFLATARRAY_IF_SHORTER_DEREF_LIBFLATARRAY_IF_SHORTER_20(A, B) A";
   "#define LIBFLATARRAY_IF_SHORTER_DEREF_LIBFLATARRAY_IF_SHORTER_21(A, B) A";
   "#define LIBFLATARRAY_IF_SHORTER_DEREF_LIBFLATARRAY_IF_SHORTER_22(A, B) A";
   "#define LIBFLATARRAY_IF_SHORTER_DEREF_LIBFLATARRAY_IF_SHORTER_23(A, B) A";
   "#define LIBFLATARRAY_IF_SHORTER_DEREF_LIBFLATARRAY_IF_SHORTER_24(A, B) A";
   "#define LIBFLATARRAY_IF_SHORTER_DEREF_LIBFLATARRAY_IF_SHORTER_25(A, B) A";
   "#define LIBFLATARRAY_IF_SHORTER_DEREF_LIBFLATARRAY_IF_SHORTER_26(A, B) A";
   "#define LIBFLATARRAY_IF_SHORTER_DEREF_LIBFLATARRAY_IF_SHORTER_27(A, B) A";
   "#define LIBFLATARRAY_IF_SHORTER_DEREF_LIBFLATARRAY_IF_SHORTER_28(A, B) A";
   "#define LIBFLATARRAY_IF_SHORTER_DEREF_LIBFLATARRAY_IF_SHORTER_29(A, B) A";
   "#define LIBFLATARRAY_IF_SHORTER_DEREF_LIBFLATARRAY_IF_SHORTER_30(A, B) A";
   "#define LIBFLATARRAY_IF_SHORTER_DEREF_LIBFLATARRAY_IF_SHORTER_31(A, B) A";
   "#define LIBFLATARRAY_IF_SHORTER_DEREF_LIBFLATARRAY_IF_SHORTER_32(A, B) A";
   "#define LIBFLATARRAY_IF_SHORTER_DEREF_LIBFLATARRAY_IF_SHORTER_33(A, B) A";
   "#define LIBFLATARRAY_IF_SHORTER_DEREF_LIBFLATARRAY_IF_SHORTER_34(A, B) A";
   "#define LIBFLATARRAY_IF_SHORTER_DEREF_LIBFLATARRAY_IF_SHORTER_35(A, B) A";
   "#define LIBFLATARRAY_IF_SHORTER_DEREF_LIBFLATARRAY_IF_SHORTER_36(A, B) A";
   "#define LIBFLATARRAY_IF_SHORTER_DEREF_LIBFLATARRAY_IF_SHORTER_37(A, B) A";
   "#define LIBFLATARRAY_IF_SHORTER_DEREF_LIBFLATARRAY_IF_SHORTER_38(A, B) A";
   "#define LIBFLATARRAY_IF_SHORTER_DEREF_LIBFLATARRAY_IF_SHORTER_39(A, B) A";
   "#define LIBFLATARRAY_IF_SHORTER_DEREF_LIBFLATARRAY_IF_SHORTER_40(A, B) A";
   "#define LIBFLATARRAY_IF_SHORTER_DEREF_LIBFLATARRAY_IF_SHORTER_41(A, B) A";
   "#define LIBFLATARRAY_IF_SHORTER_DEREF_LIBFLATARRAY_IF_SHORTER_42(A, B) A";
   "#define LIBFLATARRAY_IF_SHORTER_DEREF_LIBFLATARRAY_IF_SHORTER_43(A, B) A";
   "#define LIBFLATARRAY_IF_SHORTER_DEREF_LIBFLATARRAY_IF_SHORTER_44(A, B) A";
   "#define LIBFLATARRAY_IF_SHORTER_DEREF_LIBFLATARRAY_IF_SHORTER_45(A, B) A";
   "#define LIBFLATARRAY_IF_SHORTER_DEREF_LIBFLATARRAY_IF_SHORTER_46(A, B) A";
   "#define LIBFLATARRAY_IF_SHORTER_DEREF_LIBFLATARRAY_IF_SHORTER_47(A, B) A";
   "#define LIBFLATARRAY_IF_SHORTER_DEREF_LIBFLATARRAY_IF_SHORTER_48(A, B) A";
   "#define LIBFLATARRAY_IF_SHORTER_DEREF_LIBFLATARRAY_IF_SHORTER_49(A, B) A";
   "#define LIBFLATARRAY_IF_SHORTER_DEREF_LIBFLATARRAY_IF_SHORTER_50(A, B) A";
   "#define LIBFLATARRAY_IF_SHORTER_M50(_) LIBFLATARRAY_IF_SHORTER_M50";
   "#define LIBFLATARRAY_IF_SHORTER_M49(_) LIBFLATARRAY_IF_SHORTER_M50";
   "#define LIBFLATARRAY_IF_SHORTER_M48(_) LIBFLATARRAY_IF_SHORTER_M49";
   "#define LIBFLATARRAY_IF_SHORTER_M47(_) LIBFLATARRAY_IF_SHORTER_M48";
   "#define LIBFLATARRAY_IF_SHORTER_M46(_) LIBFLATARRAY_IF_SHORTER_M47";
   "#define LIBFLATARRAY_IF_SHORTER_M45(_) LIBFLATARRAY_IF_SHORTER_M46";
   "#define LIBFLATARRAY_IF_SHORTER_M44(_) LIBFLATARRAY_IF_SHORTER_M45";
   "#define LIBFLATARRAY_IF_SHORTER_M43(_) LIBFLATARRAY_IF_SHORTER_M44";
   "#define LIBFLATARRAY_IF_SHORTER_M42(_) LIBFLATARRAY_IF_SHORTER_M43";
   "#define LIBFLATARRAY_IF_SHORTER_M41(_) LIBFLATARRAY_IF_SHORTER_M42";
   "#define LIBFLATARRAY_IF_SHORTER_M40(_) LIBFLATARRAY_IF_SHORTER_M41";
   "#define LIBFLATARRAY_IF_SHORTER_M39(_) LIBFLATARRAY_IF_SHORTER_M40";
   "#define LIBFLATARRAY_IF_SHORTER_M38(_) LIBFLATARRAY_IF_SHORTER_M39";
   "#define LIBFLATARRAY_IF_SHORTER_M37(_) LIBFLATARRAY_IF_SHORTER_M38";
   "#define LIBFLATARRAY_IF_SHORTER_M36(_) LIBFLATARRAY_IF_SHORTER_M37";
   "#define LIBFLATARRAY_IF_SHORTER_M35(_) LIBFLATARRAY_IF_SHORTER_M36";
   "#define LIBFLATARRAY_IF_SHORTER_M34(_) LIBFLATARRAY_IF_SHORTER_M35";
   "#define LIBFLATARRAY_IF_SHORTER_M33(_) LIBFLATARRAY_IF_SHORTER_M34";
   "#define LIBFLATARRAY_IF_SHORTER_M32(_) LIBFLATARRAY_IF_SHORTER_M33";
   "#define LIBFLATARRAY_IF_SHORTER_M31(_) LIBFLATARRAY_IF_SHORTER_M32";
   "#define LIBFLATARRAY_IF_SHORTER_M30(_) LIBFLATARRAY_IF_SHORTER_M31";
   "#define LIBFLATARRAY_IF_SHORTER_M29(_) LIBFLATARRAY_IF_SHORTER_M30";
   "#define LIBFLATARRAY_IF_SHORTER_M28(_) LIBFLATARRAY_IF_SHORTER_M29";
   "#define LIBFLATARRAY_IF_SHORTER_M27(_) LIBFLATARRAY_IF_SHORTER_M28";
   "#define LIBFLATARRAY_IF_SHORTER_M26(_) LIBFLATARRAY_IF_SHORTER_M27";
   "#define LIBFLATARRAY_IF_SHORTER_M25(_) LIBFLATARRAY_IF_SHORTER_M26";
   "#define LIBFLATARRAY_IF_SHORTER_M24(_) LIBFLATARRAY_IF_SHORTER_M25";
   "#define LIBFLATARRAY_IF_SHORTER_M23(_) LIBFLATARRAY_IF_SHORTER_M24";
   "#define LIBFLATARRAY_IF_SHORTER_M22(_) LIBFLATARRAY_IF_SHORTER_M23";
   "#define LIBFLATARRAY_IF_SHORTER_M21(_) LIBFLATARRAY_IF_SHORTER_M22";
   "#define LIBFLATARRAY_IF_SHORTER_M20(_) LIBFLATARRAY_IF_SHORTER_M21";
   "#define LIBFLATARRAY_IF_SHORTER_M19(_) LIBFLATARRAY_IF_SHORTER_M20";
   "#define LIBFLATARRAY_IF_SHORTER_M18(_) LIBFLATARRAY_IF_SHORTER_M19";
   "#define LIBFLATARRAY_IF_SHORTER_M17(_) LIBFLATARRAY_IF_SHORTER_M18";
   "#define LIBFLATARRAY_IF_SHORTER_M16(_) LIBFLATARRAY_IF_SHORTER_M17";
   "#define LIBFLATARRAY_IF_SHORTER_M15(_) LIBFLATARRAY_IF_SHORTER_M16";
   "#define LIBFLATARRAY_IF_SHORTER_M14(_) LIBFLATARRAY_IF_SHORTER_M15";
   "#define LIBFLATARRAY_IF_SHORTER_M13(_) LIBFLATARRAY_IF_SHORTER_M14";
   "#define LIBFLATARRAY_IF_SHORTER_M12(_) LIBFLATARRAY_IF_SHORTER_M13";
   "#define LIBFLATARRAY_IF_SHORTER_M11(_) LIBFLATARRAY_IF_SHORTER_M12";
   "#define LIBFLATARRAY_IF_SHORTER_M10(_) LIBFLATARRAY_IF_SHORTER_M11";
   "#define LIBFLATARRAY_IF_SHORTER_M9(_) LIBFLATARRAY_IF_SHORTER_M10";
   "#define LIBFLATARRAY_IF_SHORTER_M8(_) LIBFLATARRAY_IF_SHORTER_M9";
   "#define LIBFLATARRAY_IF_SHORTER_M7(_) LIBFLATARRAY_IF_SHORTER_M8";
   "#define LIBFLATARRAY_IF_SHORTER_M6(_) LIBFLATARRAY_IF_SHORTER_M7";
   "#define LIBFLATARRAY_IF_SHORTER_M5(_) LIBFLATARRAY_IF_SHORTER_M6";
   "#define LIBFLATARRAY_IF_SHORTER_M4(_) LIBFLATARRAY_IF_SHORTER_M5";
   "#define LIBFLATARRAY_IF_SHORTER_M3(_) LIBFLATARRAY_IF_SHORTER_M4";
   "#define LIBFLATARRAY_IF_SHORTER_M2(_) LIBFLATARRAY_IF_SHORTER_M3";
   "#define LIBFLATARRAY_IF_SHORTER_M1(_) LIBFLATARRAY_IF_SHORTER_M2";
   "#define LIBFLATARRAY_IF_SHORTER_0(_) LIBFLATARRAY_IF_SHORTER_M1";
   "#define LIBFLATARRAY_IF_SHORTER_1(_) LIBFLATARRAY_IF_SHORTER_0";
   "#define LIBFLATARRAY_IF_SHORTER_2(_) LIBFLATARRAY_IF_SHORTER_1";
   "#define LIBFLATARRAY_IF_SHORTER_3(_) LIBFLATARRAY_IF_SHORTER_2";
   "#define LIBFLATARRAY_IF_SHORTER_4(_) LIBFLATARRAY_IF_SHORTER_3";
   "#define LIBFLATARRAY_IF_SHORTER_5(_) LIBFLATARRAY_IF_SHORTER_4";
   "#define LIBFLATARRAY_IF_SHORTER_6(_) LIBFLATARRAY_IF_SHORTER_5";
   "#define LIBFLATARRAY_IF_SHORTER_7(_) LIBFLATARRAY_IF_SHORTER_6";
   "#define LIBFLATARRAY_IF_SHORTER_8(_) LIBFLATARRAY_IF_SHORTER_7";
   "#define LIBFLATARRAY_IF_SHORTER_9(_) LIBFLATARRAY_IF_SHORTER_8";
   "#define LIBFLATARRAY_IF_SHORTER_10(_) LIBFLATARRAY_IF_SHORTER_9";
   "#define LIBFLATARRAY_IF_SHORTER_11(_) LIBFLATARRAY_IF_SHORTER_10";
   "#define LIBFLATARRAY_IF_SHORTER_12(_) LIBFLATARRAY_IF_SHORTER_11";
   "#define LIBFLATARRAY_IF_SHORTER_13(_) LIBFLATARRAY_IF_SHORTER_12";
   "#define LIBFLATARRAY_IF_SHORTER_14(_) LIBFLATARRAY_IF_SHORTER_13";
   "#define LIBFLATARRAY_IF_SHORTER_15(_) LIBFLATARRAY_IF_SHORTER_14";
   "#define LIBFLATARRAY_IF_SHORTER_16(_) LIBFLATARRAY_IF_SHORTER_15";
   "#define LIBFLATARRAY_IF_SHORTER_17(_) LIBFLATARRAY_IF_SHORTER_16";
   "#define LIBFLATARRAY_IF_SHORTER_18(_) LIBFLATARRAY_IF_SHORTER_17";
   "#define LIBFLATARRAY_IF_SHORTER_19(_) LIBFLATARRAY_IF_SHORTER_18";
   "#define LIBFLATARRAY_IF_SHORTER_20(_) LIBFLATARRAY_IF_SHORTER_19";
   "#define LIBFLATARRAY_IF_SHORTER_21(_) LIBFLATARRAY_IF_SHORTER_20";
   "#define LIBFLATARRAY_IF_SHORTER_22(_) LIBFLATARRAY_IF_SHORTER_21";
   "#define LIBFLATARRAY_IF_SHORTER_23(_) LIBFLATARRAY_IF_SHORTER_22";
   "#define LIBFLATARRAY_IF_SHORTER_24(_) LIBFLATARRAY_IF_SHORTER_23";
   "#define LIBFLATARRAY_IF_SHORTER_25(_) LIBFLATARRAY_IF_SHORTER_24";
   "#define LIBFLATARRAY_IF_SHORTER_26(_) LIBFLATARRAY_IF_SHORTER_25";
   "#define LIBFLATARRAY_IF_SHORTER_27(_) LIBFLATARRAY_IF_SHORTER_26";
   "#define LIBFLATARRAY_IF_SHORTER_28(_) LIBFLATARRAY_IF_SHORTER_27";
   "#define LIBFLATARRAY_IF_SHORTER_29(_) LIBFLATARRAY_IF_SHORTER_28";
   "#define LIBFLATARRAY_IF_SHORTER_30(_) LIBFLATARRAY_IF_SHORTER_29";
   "#define LIBFLATARRAY_IF_SHORTER_31(_) LIBFLATARRAY_IF_SHORTER_30";
   "#define LIBFLATARRAY_IF_SHORTER_32(_) LIBFLATARRAY_IF_SHORTER_31";
   "#define LIBFLATARRAY_IF_SHORTER_33(_) LIBFLATARRAY_IF_SHORTER_32";
   "#define LIBFLATARRAY_IF_SHORTER_34(_) LIBFLATARRAY_IF_SHORTER_33";
   "#define LIBFLATARRAY_IF_SHORTER_35(_) LIBFLATARRAY_IF_SHORTER_34";
   "#define LIBFLATARRAY_IF_SHORTER_36(_) LIBFLATARRAY_IF_SHORTER_35";
   "#define LIBFLATARRAY_IF_SHORTER_37(_) LIBFLATARRAY_IF_SHORTER_36";
   "#define LIBFLATARRAY_IF_SHORTER_38(_) LIBFLATARRAY_IF_SHORTER_37";
   "#define LIBFLATARRAY_IF_SHORTER_39(_) LIBFLATARRAY_IF_SHORTER_38";
   "#define LIBFLATARRAY_IF_SHORTER_40(_) LIBFLATARRAY_IF_SHORTER_39";
   "#define LIBFLATARRAY_IF_SHORTER_41(_) LIBFLATARRAY_IF_SHORTER_40";
   "#define LIBFLATARRAY_IF_SHORTER_42(_) LIBFLATARRAY_IF_SHORTER_41";
   "#define LIBFLATARRAY_IF_SHORTER_43(_) LIBFLATARRAY_IF_SHORTER_42";
   "#define LIBFLATARRAY_IF_SHORTER_44(_) LIBFLATARRAY_IF_SHORTER_43";
   "#define LIBFLATARRAY_IF_SHORTER_45(_) LIBFLATARRAY_IF_SHORTER_44";
   "#define LIBFLATARRAY_IF_SHORTER_46(_) LIBFLATARRAY_IF_SHORTER_45";
   "#define LIBFLATARRAY_IF_SHORTER_47(_) LIBFLATARRAY_IF_SHORTER_46";
   "#define LIBFLATARRAY_IF_SHORTER_48(_) LIBFLATARRAY_IF_SHORTER_47";
   "#define LIBFLATARRAY_IF_SHORTER_49(_) LIBFLATARRAY_IF_SHORTER_48";
   "#define LIBFLATARRAY_IF_SHORTER_50(_) LIBFLATARRAY_IF_SHORTER_49"].

(** preprocessor.hpp *)
Definition preprocessor : list string :=
  [(* preprocessor.hpp:18 *)
   "#define LIBFLATARRAY_ELEM(INDEX, LIST) LIBFLATARRAY_ELEM_I(INDEX, LIST)";
   (* preprocessor.hpp:27 *)
   "#define LIBFLATARRAY_SIZE(LIST) LIBFLATARRAY_SIZE_I(LIBFLATARRAY_SIZE_0 LIST)";
   (* preprocessor.hpp:31 *)
   "#define LIBFLATARRAY_NULL(_)";
   (* preprocessor.hpp:35 *)
   "#define LIBFLATARRAY_DEQUEUE(LIST) LIBFLATARRAY_NULL LIST";
   (* preprocessor.hpp:43 *)
   "#define LIBFLATARRAY_FOR_EACH(MACRO, DEFAULT_ARG, LIST) LIBFLATARRAY_FOR_EACH_I(MACRO,
     DEFAULT_ARG, LIBFLATARRAY_DEQUEUE(LIST), LIST)";
   (* preprocessor.hpp:50 *)
   "#define LIBFLATARRAY_IF_SHORTER(LIST, LENGTH, A, B)
     LIBFLATARRAY_IF_SHORTER_I(LIBFLATARRAY_IF_SHORTER_ ## LENGTH, LIST, A, B)"].

(** detail/macros.hpp, with LIBFLATARRAY_INLINE of line 23 *)
Definition detail_macros : list string :=
  [(* detail/macros.hpp:23 *)
   "#define LIBFLATARRAY_INLINE inline __attribute__ ((__always_inline__))";
   (* detail/macros.hpp:30-31 *)
   "#define LIBFLATARRAY_INDEX(X, Y, Z, DIM_X, DIM_Y, DIM_Z, INDEX) (INDEX + Z * (DIM_X * DIM_Y) + Y
     * DIM_X + X)";
   (* detail/macros.hpp:33-34 *)
   "#define LIBFLATARRAY_PARAMS_FULL(X, Y, Z, DIM_X, DIM_Y, DIM_Z, INDEX) DIM_X, DIM_Y, DIM_Z,
     LIBFLATARRAY_INDEX(X, Y, Z, DIM_X, DIM_Y, DIM_Z, INDEX)";
   (* detail/macros.hpp:38-39 *)
   "#define LIBFLATARRAY_ARRAY_CONDITIONAL(MEMBER, A, B) LIBFLATARRAY_IF_SHORTER(MEMBER, 3, A, B)";
   (* detail/macros.hpp:41-42 *)
   "#define LIBFLATARRAY_ARRAY_ARITY(MEMBER) LIBFLATARRAY_ELEM(2, MEMBER (1) )";
   (* detail/macros.hpp:44-90 *)
   "#define LIBFLATARRAY_DEFINE_FIELD_OFFSET(r, CELL_TYPE, MEMBER) namespace detail { namespace
     flat_array { template<> class offset<CELL_TYPE, r + 1> { public: static const std::size_t OFFSET
     = offset<CELL_TYPE, r + 0>::OFFSET + sizeof(LIBFLATARRAY_ELEM(0, MEMBER)) *
     LIBFLATARRAY_ARRAY_CONDITIONAL( MEMBER, 1, LIBFLATARRAY_ARRAY_ARITY(MEMBER)); template<typename
     MEMBER_TYPE> inline int operator()(MEMBER_TYPE CELL_TYPE:: *member_ptr) { return
     offset<CELL_TYPE, r + 0>()(member_ptr); } inline int operator()( LIBFLATARRAY_ELEM(0, MEMBER)
     (CELL_TYPE:: *member_ptr) LIBFLATARRAY_ARRAY_CONDITIONAL( MEMBER, ,
     [LIBFLATARRAY_ARRAY_ARITY(MEMBER)])) { if (member_ptr == &CELL_TYPE::LIBFLATARRAY_ELEM(1,
     MEMBER)) { return offset<CELL_TYPE, r + 0>::OFFSET; } else { return offset<CELL_TYPE, r +
     0>()(member_ptr); } } template<std::size_t ARITY> inline int operator()(LIBFLATARRAY_ELEM(0,
     MEMBER) (CELL_TYPE:: *member_ptr)[ARITY]) { return offset<CELL_TYPE, r + 0>()(member_ptr); } };
     } }";
   (* detail/macros.hpp:92-125 *)
   "#define LIBFLATARRAY_DECLARE_SOA_MEMBER(MEMBER_INDEX, CELL, MEMBER, CONST, INDEX_VAR)
     LIBFLATARRAY_ARRAY_CONDITIONAL(MEMBER, , template<int ARRAY_INDEX >) inline __host__ __device__
     CONST LIBFLATARRAY_ELEM(0, MEMBER)& LIBFLATARRAY_ELEM(1, MEMBER)() CONST { return
     *(LIBFLATARRAY_ELEM(0, MEMBER)*)( my_data + (DIM_PROD) * ( (sizeof(LIBFLATARRAY_ELEM(0, MEMBER))
     * LIBFLATARRAY_ARRAY_CONDITIONAL(MEMBER, 0, ARRAY_INDEX)) + detail::flat_array::offset<CELL,
     MEMBER_INDEX>:: OFFSET) + INDEX_VAR * long(sizeof(LIBFLATARRAY_ELEM(0, MEMBER))) + INDEX *
     long(sizeof(LIBFLATARRAY_ELEM(0, MEMBER)))); } LIBFLATARRAY_ARRAY_CONDITIONAL( MEMBER, , inline
     __host__ __device__ typename LibFlatArray::detail:: soa_array_member_copy_helper<DIM_PROD>::
     template inner1<CELL>:: template inner2<LIBFLATARRAY_ELEM(0, MEMBER)>:: reference
     LIBFLATARRAY_ELEM(1, MEMBER)() CONST { return typename LibFlatArray::detail::
     soa_array_member_copy_helper<DIM_PROD>:: template inner1<CELL>:: template
     inner2<LIBFLATARRAY_ELEM(0, MEMBER)>:: reference((char*)&LIBFLATARRAY_ELEM(1, MEMBER)<0>()); } )";
   (* detail/macros.hpp:128-129 *)
   "#define LIBFLATARRAY_DECLARE_SOA_MEMBER_CONST(MEMBER_INDEX, CELL, MEMBER)
     LIBFLATARRAY_DECLARE_SOA_MEMBER(MEMBER_INDEX, CELL, MEMBER, const, my_index)";
   (* detail/macros.hpp:131-132 *)
   "#define LIBFLATARRAY_DECLARE_SOA_MEMBER_NORMAL(MEMBER_INDEX, CELL, MEMBER)
     LIBFLATARRAY_DECLARE_SOA_MEMBER(MEMBER_INDEX, CELL, MEMBER, , my_index)";
   (* detail/macros.hpp:134-135 *)
   "#define LIBFLATARRAY_DECLARE_SOA_MEMBER_LIGHT_CONST(MEMBER_INDEX, CELL, MEMBER)
     LIBFLATARRAY_DECLARE_SOA_MEMBER(MEMBER_INDEX, CELL, MEMBER, const, *my_index)";
   (* detail/macros.hpp:137-138 *)
   "#define LIBFLATARRAY_DECLARE_SOA_MEMBER_LIGHT_NORMAL(MEMBER_INDEX, CELL, MEMBER)
     LIBFLATARRAY_DECLARE_SOA_MEMBER(MEMBER_INDEX, CELL, MEMBER, , *my_index)";
   (* detail/macros.hpp:140-141 *)
   "#define LIBFLATARRAY_COPY_SOA_MEMBER_IN(MEMBER_INDEX, CELL, MEMBER) LIBFLATARRAY_ELEM(1,
     MEMBER)() = cell.LIBFLATARRAY_ELEM(1, MEMBER);";
   (* detail/macros.hpp:143-153 *)
   "#define LIBFLATARRAY_COPY_SOA_ARRAY_MEMBER_IN(MEMBER_INDEX, CELL, MEMBER) { typename
     LibFlatArray::detail::soa_array_member_copy_helper<DIM_PROD>:: template inner1<CELL>:: template
     inner2<LIBFLATARRAY_ELEM(0, MEMBER)>:: template inner3<LIBFLATARRAY_ARRAY_ARITY(MEMBER)>::
     template inner4<&CELL::LIBFLATARRAY_ELEM(1, MEMBER)>:: template
     copy_in<LIBFLATARRAY_ARRAY_ARITY(MEMBER)>()( cell, &LIBFLATARRAY_ELEM(1, MEMBER)<0>()); }";
   (* detail/macros.hpp:155-159 *)
   "#define LIBFLATARRAY_COPY_SOA_GENERIC_MEMBER_IN(MEMBER_INDEX, CELL, MEMBER)
     LIBFLATARRAY_ARRAY_CONDITIONAL( MEMBER, LIBFLATARRAY_COPY_SOA_MEMBER_IN( MEMBER_INDEX, CELL,
     MEMBER), LIBFLATARRAY_COPY_SOA_ARRAY_MEMBER_IN(MEMBER_INDEX, CELL, MEMBER))";
   (* detail/macros.hpp:161-162 *)
   "#define LIBFLATARRAY_COPY_SOA_MEMBER_OUT(MEMBER_INDEX, CELL, MEMBER) cell.LIBFLATARRAY_ELEM(1,
     MEMBER) = this->LIBFLATARRAY_ELEM(1, MEMBER)();";
   (* detail/macros.hpp:164-175 *)
   "#define LIBFLATARRAY_COPY_SOA_ARRAY_MEMBER_OUT(MEMBER_INDEX, CELL, MEMBER) { typename
     LibFlatArray::detail:: soa_array_member_copy_helper<DIM_PROD>:: template inner1<CELL>:: template
     inner2<LIBFLATARRAY_ELEM(0, MEMBER)>:: template inner3<LIBFLATARRAY_ARRAY_ARITY(MEMBER)>::
     template inner4<&CELL::LIBFLATARRAY_ELEM(1, MEMBER)>:: template
     copy_out<LIBFLATARRAY_ARRAY_ARITY(MEMBER)>()( cell, &LIBFLATARRAY_ELEM(1, MEMBER)<0>()); }";
   (* detail/macros.hpp:177-181 *)
   "#define LIBFLATARRAY_COPY_SOA_GENERIC_MEMBER_OUT(MEMBER_INDEX, CELL, MEMBER)
     LIBFLATARRAY_ARRAY_CONDITIONAL( MEMBER, LIBFLATARRAY_COPY_SOA_MEMBER_OUT( MEMBER_INDEX, CELL,
     MEMBER), LIBFLATARRAY_COPY_SOA_ARRAY_MEMBER_OUT(MEMBER_INDEX, CELL, MEMBER))";
   (* detail/macros.hpp:183-192 *)
   "#define LIBFLATARRAY_COPY_SOA_MEMBER_ARRAY_IN(MEMBER_INDEX, CELL, MEMBER) { for (std::size_t i =
     0; i < count; ++i) { (&this->LIBFLATARRAY_ELEM(1, MEMBER)())[i] = ((const LIBFLATARRAY_ELEM(0,
     MEMBER)*)( source + detail::flat_array::offset<CELL, MEMBER_INDEX>::OFFSET * stride))[offset +
     i]; } }";
   (* detail/macros.hpp:194-208 *)
   "#define LIBFLATARRAY_COPY_SOA_ARRAY_MEMBER_ARRAY_IN(MEMBER_INDEX, CELL, MEMBER) { typename
     LibFlatArray::detail:: soa_array_member_copy_helper<DIM_PROD>:: template
     inner_a<LIBFLATARRAY_ELEM(0, MEMBER)>:: template
     copy_array_in<LIBFLATARRAY_ARRAY_ARITY(MEMBER)>()( (const LIBFLATARRAY_ELEM(0, MEMBER)*)( source
     + detail::flat_array::offset<CELL, MEMBER_INDEX>::OFFSET * stride), &(this->LIBFLATARRAY_ELEM(1,
     MEMBER)()[0]), count, offset, stride); }";
   (* detail/macros.hpp:210-214 *)
   "#define LIBFLATARRAY_COPY_SOA_GENERIC_MEMBER_ARRAY_IN(MEMBER_INDEX, CELL, MEMBER)
     LIBFLATARRAY_ARRAY_CONDITIONAL( MEMBER, LIBFLATARRAY_COPY_SOA_MEMBER_ARRAY_IN( MEMBER_INDEX,
     CELL, MEMBER), LIBFLATARRAY_COPY_SOA_ARRAY_MEMBER_ARRAY_IN(MEMBER_INDEX, CELL, MEMBER))";
   (* detail/macros.hpp:217-226 *)
   "#define LIBFLATARRAY_COPY_SOA_MEMBER_ARRAY_OUT(MEMBER_INDEX, CELL, MEMBER) { for (std::size_t i
     = 0; i < count; ++i) { ((LIBFLATARRAY_ELEM(0, MEMBER)*)( target +
     detail::flat_array::offset<CELL, MEMBER_INDEX>::OFFSET * stride))[offset + i] =
     (&this->LIBFLATARRAY_ELEM(1, MEMBER)())[i]; } }";
   (* detail/macros.hpp:228-242 *)
   "#define LIBFLATARRAY_COPY_SOA_ARRAY_MEMBER_ARRAY_OUT(MEMBER_INDEX, CELL, MEMBER) { typename
     LibFlatArray::detail:: soa_array_member_copy_helper<DIM_PROD>:: template
     inner_a<LIBFLATARRAY_ELEM(0, MEMBER)>:: template
     copy_array_out<LIBFLATARRAY_ARRAY_ARITY(MEMBER)>()( (LIBFLATARRAY_ELEM(0, MEMBER)*)( target +
     detail::flat_array::offset<CELL, MEMBER_INDEX>::OFFSET * stride), &(this->LIBFLATARRAY_ELEM(1,
     MEMBER)()[0]), count, offset, stride); }";
   (* detail/macros.hpp:244-248 *)
   "#define LIBFLATARRAY_COPY_SOA_GENERIC_MEMBER_ARRAY_OUT(MEMBER_INDEX, CELL, MEMBER)
     LIBFLATARRAY_ARRAY_CONDITIONAL( MEMBER, LIBFLATARRAY_COPY_SOA_MEMBER_ARRAY_OUT( MEMBER_INDEX,
     CELL, MEMBER), LIBFLATARRAY_COPY_SOA_ARRAY_MEMBER_ARRAY_OUT(MEMBER_INDEX, CELL, MEMBER))";
   (* detail/macros.hpp:250-256 *)
   "#define LIBFLATARRAY_COPY_SOA_MEMBER(MEMBER_INDEX, CELL, MEMBER) { std::copy(
     &(other.LIBFLATARRAY_ELEM(1, MEMBER)()), &(other.LIBFLATARRAY_ELEM(1, MEMBER)()) + count,
     &(this->LIBFLATARRAY_ELEM(1, MEMBER)())); }";
   (* detail/macros.hpp:258-266 *)
   "#define LIBFLATARRAY_COPY_SOA_ARRAY_MEMBER(MEMBER_INDEX, CELL, MEMBER) { for (std::size_t i = 0;
     i < LIBFLATARRAY_ARRAY_ARITY(MEMBER); ++i) { std::copy( &(other.LIBFLATARRAY_ELEM(1,
     MEMBER)()[i]), &(other.LIBFLATARRAY_ELEM(1, MEMBER)()[i]) + count, &(this->LIBFLATARRAY_ELEM(1,
     MEMBER)()[i])); } }";
   (* detail/macros.hpp:268-272 *)
   "#define LIBFLATARRAY_COPY_SOA_GENERIC_MEMBER(MEMBER_INDEX, CELL, MEMBER)
     LIBFLATARRAY_ARRAY_CONDITIONAL( MEMBER, LIBFLATARRAY_COPY_SOA_MEMBER( MEMBER_INDEX, CELL,
     MEMBER), LIBFLATARRAY_COPY_SOA_ARRAY_MEMBER(MEMBER_INDEX, CELL, MEMBER))";
   (* detail/macros.hpp:275-280 *)
   "#define LIBFLATARRAY_INIT_SOA_MEMBER(MEMBER_INDEX, CELL, MEMBER) { LIBFLATARRAY_ELEM(0, MEMBER)
     *instance = &(this->LIBFLATARRAY_ELEM(1, MEMBER)()); new (instance) LIBFLATARRAY_ELEM(0,
     MEMBER)(); }";
   (* detail/macros.hpp:282-287 *)
   "#define LIBFLATARRAY_INIT_SOA_ARRAY_MEMBER(MEMBER_INDEX, CELL, MEMBER) { for (int i = 0; i <
     LIBFLATARRAY_ARRAY_ARITY(MEMBER); ++i) { new (&(this->LIBFLATARRAY_ELEM(1, MEMBER)()[i]))
     LIBFLATARRAY_ELEM(0, MEMBER)(); } }";
   (* detail/macros.hpp:289-293 *)
   "#define LIBFLATARRAY_INIT_SOA_GENERIC_MEMBER(MEMBER_INDEX, CELL, MEMBER)
     LIBFLATARRAY_ARRAY_CONDITIONAL( MEMBER, LIBFLATARRAY_INIT_SOA_MEMBER( MEMBER_INDEX, CELL,
     MEMBER), LIBFLATARRAY_INIT_SOA_ARRAY_MEMBER(MEMBER_INDEX, CELL, MEMBER))";
   (* detail/macros.hpp:295-300 *)
   "#define LIBFLATARRAY_DESTROY_SOA_MEMBER_ARRAY(MEMBER_INDEX, CELL, MEMBER) { LIBFLATARRAY_ELEM(0,
     MEMBER) *instance = &(this->LIBFLATARRAY_ELEM(1, MEMBER)());
     detail::flat_array::generic_destruct(instance); }";
   (* detail/macros.hpp:302-308 *)
   "#define LIBFLATARRAY_DESTROY_SOA_ARRAY_MEMBER_ARRAY(MEMBER_INDEX, CELL, MEMBER) { for (int i =
     0; i < LIBFLATARRAY_ARRAY_ARITY(MEMBER); ++i) { detail::flat_array::generic_destruct(
     &(this->LIBFLATARRAY_ELEM(1, MEMBER)()[i])); } }";
   (* detail/macros.hpp:310-314 *)
   "#define LIBFLATARRAY_DESTROY_SOA_GENERIC_MEMBER(MEMBER_INDEX, CELL, MEMBER)
     LIBFLATARRAY_ARRAY_CONDITIONAL( MEMBER, LIBFLATARRAY_DESTROY_SOA_MEMBER_ARRAY( MEMBER_INDEX,
     CELL, MEMBER), LIBFLATARRAY_DESTROY_SOA_ARRAY_MEMBER_ARRAY(MEMBER_INDEX, CELL, MEMBER))";
   (* detail/macros.hpp:316-321 *)
   "#define LIBFLATARRAY_CASE_DIM_X(SIZE_INDEX, UNUSED, SIZE) if (dim_x <= SIZE) { bind_size_y<CELL,
     SIZE>( dim_y, dim_z, data, functor); return; }";
   (* detail/macros.hpp:323-328 *)
   "#define LIBFLATARRAY_CASE_DIM_Y(SIZE_INDEX, UNUSED, SIZE) if (dim_y <= SIZE) { bind_size_z<CELL,
     DIM_X, SIZE>( dim_z, data, functor); return; }";
   (* detail/macros.hpp:330-336 *)
   "#define LIBFLATARRAY_CASE_DIM_Z(SIZE_INDEX, UNUSED, SIZE) if (dim_z <= SIZE) {
     LibFlatArray::soa_accessor<CELL, DIM_X, DIM_Y, SIZE, 0> accessor( data, 0); functor(accessor);
     return; }";
   (* detail/macros.hpp:338-344 *)
   "#define LIBFLATARRAY_CASE_DIM_MAX_3D(SIZE_INDEX, UNUSED, SIZE) if (maxDim <= SIZE) {
     LibFlatArray::soa_accessor<CELL, SIZE, SIZE, SIZE, 0> accessor( data, 0); functor(accessor);
     return; }";
   (* detail/macros.hpp:346-352 *)
   "#define LIBFLATARRAY_CASE_DIM_MAX_2D(SIZE_INDEX, UNUSED, SIZE) if (maxDim <= SIZE) {
     LibFlatArray::soa_accessor<CELL, SIZE, SIZE, 1, 0> accessor( data, 0); functor(accessor);
     return; }";
   (* detail/macros.hpp:354-360 *)
   "#define LIBFLATARRAY_CASE_DIM_MAX_1D(SIZE_INDEX, UNUSED, SIZE) if (maxDim <= SIZE) {
     LibFlatArray::soa_accessor<CELL, SIZE, 1, 1, 0> accessor( data, 0); functor(accessor); return; }"].

(** macros.hpp *)
Definition macros : list string :=
  [(* macros.hpp:44-45 *)
   "#define LIBFLATARRAY_PARAMS LIBFLATARRAY_PARAMS_FULL(X, Y, Z, DIM_X, DIM_Y, DIM_Z, INDEX)";
   (* macros.hpp:51-69 *)
   "#define LIBFLATARRAY_ACCESS template<typename CELL_TYPE, long MY_DIM_X, long MY_DIM_Y, long
     MY_DIM_Z, long INDEX> friend class LibFlatArray::soa_accessor; template<typename CELL_TYPE, long
     MY_DIM_X, long MY_DIM_Y, long MY_DIM_Z, long INDEX> friend class
     LibFlatArray::const_soa_accessor; template<typename CELL_TYPE, long MY_DIM_X, long MY_DIM_Y,
     long MY_DIM_Z, long INDEX> friend class LibFlatArray::soa_accessor_light; template<typename
     CELL_TYPE, long MY_DIM_X, long MY_DIM_Y, long MY_DIM_Z, long INDEX> friend class
     LibFlatArray::const_soa_accessor_light; template<typename CELL_TYPE, long R> friend class
     LibFlatArray::detail::flat_array::offset;";
   (* macros.hpp:96-98 *)
   "#define LIBFLATARRAY_REGISTER_SOA(CELL_TYPE, CELL_MEMBERS)
     LIBFLATARRAY_REGISTER_SOA_MAIN(CELL_TYPE, CELL_MEMBERS)";
   (* macros.hpp:101-946 *)
   "#define LIBFLATARRAY_REGISTER_SOA_MAIN(CELL_TYPE, CELL_MEMBERS) namespace LibFlatArray {
     LIBFLATARRAY_FOR_EACH( LIBFLATARRAY_DEFINE_FIELD_OFFSET, CELL_TYPE, CELL_MEMBERS) template<>
     class number_of_members<CELL_TYPE> { public: static const std::size_t VALUE =
     LIBFLATARRAY_SIZE(CELL_MEMBERS); }; template<> class aggregated_member_size<CELL_TYPE> {
     private: static const std::size_t INDEX = number_of_members<CELL_TYPE>::VALUE; public: static
     const std::size_t VALUE = detail::flat_array::offset<CELL_TYPE, INDEX>::OFFSET; }; template<long
     MY_DIM_X, long MY_DIM_Y, long MY_DIM_Z, long INDEX> class soa_accessor<CELL_TYPE, MY_DIM_X,
     MY_DIM_Y, MY_DIM_Z, INDEX> { public: typedef CELL_TYPE element_type; static const long DIM_X =
     MY_DIM_X; static const long DIM_Y = MY_DIM_Y; static const long DIM_Z = MY_DIM_Z; static const
     long DIM_PROD = DIM_X * DIM_Y * DIM_Z; inline __host__ __device__ static long gen_index(const
     long x, const long y, const long z) { return z * DIM_X * DIM_Y + y * DIM_X + x; } inline
     __host__ __device__ static long gen_index(const std::size_t x, const std::size_t y, const
     std::size_t z) { return static_cast<long>(z) * DIM_X * DIM_Y + static_cast<long>(y) * DIM_X +
     static_cast<long>(x); } inline __host__ __device__ soa_accessor(char *my_data, const long
     my_index) : my_data(my_data), my_index(my_index) {} inline __host__ __device__ operator
     CELL_TYPE() const { CELL_TYPE ret; *this >> ret; return ret; } template<typename SOA_ACCESSOR>
     inline __host__ __device__ bool operator==(const SOA_ACCESSOR& other) const { return (my_data ==
     other.my_data) && (my_index == other.my_index); } template<typename SOA_ACCESSOR> inline
     __host__ __device__ bool operator!=(const SOA_ACCESSOR& other) const { return !(*this == other);
     } inline __host__ __device__ void operator+=(const long offset) { my_index += offset; } inline
     __host__ __device__ void operator++() { ++my_index; } template<long X, long Y, long Z> inline
     __host__ __device__ soa_accessor_light<CELL_TYPE, LIBFLATARRAY_PARAMS> operator[]( coord<X, Y,
     Z>) { return soa_accessor_light<CELL_TYPE, LIBFLATARRAY_PARAMS>( my_data, my_index); }
     template<long X, long Y, long Z> inline __host__ __device__ const_soa_accessor_light<CELL_TYPE,
     LIBFLATARRAY_PARAMS> operator[]( coord<X, Y, Z>) const { return
     const_soa_accessor_light<CELL_TYPE, LIBFLATARRAY_PARAMS>( my_data, my_index); } __host__
     __device__ inline void operator=(const CELL_TYPE& cell) { LIBFLATARRAY_FOR_EACH(
     LIBFLATARRAY_COPY_SOA_GENERIC_MEMBER_IN, CELL_TYPE, CELL_MEMBERS); } __host__ __device__ inline
     void operator<<(const CELL_TYPE& cell) { (*this) = cell; } __host__ __device__ inline void
     operator>>(CELL_TYPE& cell) const { LIBFLATARRAY_FOR_EACH(
     LIBFLATARRAY_COPY_SOA_GENERIC_MEMBER_OUT, CELL_TYPE, CELL_MEMBERS); } __host__ __device__ inline
     void load(const char *source, std::size_t count) { load(source, count, 0, count); } __host__
     __device__ inline void load( const char *source, std::size_t count, std::size_t offset,
     std::size_t stride) { LIBFLATARRAY_FOR_EACH( LIBFLATARRAY_COPY_SOA_GENERIC_MEMBER_ARRAY_IN,
     CELL_TYPE, CELL_MEMBERS); } __host__ __device__ inline void save(char *target, std::size_t
     count) const { save(target, count, 0, count); } __host__ __device__ inline void save( char
     *target, std::size_t count, std::size_t offset, std::size_t stride) const {
     LIBFLATARRAY_FOR_EACH( LIBFLATARRAY_COPY_SOA_GENERIC_MEMBER_ARRAY_OUT, CELL_TYPE, CELL_MEMBERS);
     } __host__ __device__ inline void construct_members() { LIBFLATARRAY_FOR_EACH(
     LIBFLATARRAY_INIT_SOA_GENERIC_MEMBER, CELL_TYPE, CELL_MEMBERS); } __host__ __device__
     LIBFLATARRAY_INLINE void destroy_members() { LIBFLATARRAY_FOR_EACH(
     LIBFLATARRAY_DESTROY_SOA_GENERIC_MEMBER, CELL_TYPE, CELL_MEMBERS); } template<typename
     OTHER_ACCESSOR> __host__ __device__ inline void copy_members(const OTHER_ACCESSOR& other,
     std::size_t count) { LIBFLATARRAY_FOR_EACH( LIBFLATARRAY_COPY_SOA_GENERIC_MEMBER, CELL_TYPE,
     CELL_MEMBERS); } template<typename MEMBER_TYPE, long OFFSET> inline __host__ __device__
     MEMBER_TYPE& access_member() { return *(MEMBER_TYPE*)( my_data + DIM_PROD *
     detail::flat_array::offset<CELL_TYPE, OFFSET>::OFFSET + my_index * sizeof(MEMBER_TYPE) + INDEX *
     sizeof(MEMBER_TYPE)); } inline __host__ __device__ char *access_member(const long
     size_of_member, const long offset) { return my_data + DIM_PROD * offset + my_index *
     size_of_member + INDEX * size_of_member; } LIBFLATARRAY_FOR_EACH(
     LIBFLATARRAY_DECLARE_SOA_MEMBER_NORMAL, CELL_TYPE, CELL_MEMBERS); LIBFLATARRAY_FOR_EACH(
     LIBFLATARRAY_DECLARE_SOA_MEMBER_CONST, CELL_TYPE, CELL_MEMBERS); __host__ __device__ const char
     *data() const { return my_data; } __host__ __device__ char *data() { return my_data; } __host__
     __device__ long& index() { return my_index; } __host__ __device__ const long& index() const {
     return my_index; } private: char *my_data; long my_index; }; template<long MY_DIM_X, long
     MY_DIM_Y, long MY_DIM_Z, long INDEX> class const_soa_accessor< CELL_TYPE, MY_DIM_X, MY_DIM_Y,
     MY_DIM_Z, INDEX> { public: typedef CELL_TYPE element_type; static const long DIM_X = MY_DIM_X;
     static const long DIM_Y = MY_DIM_Y; static const long DIM_Z = MY_DIM_Z; static const long
     DIM_PROD = DIM_X * DIM_Y * DIM_Z; inline __host__ __device__ static long gen_index(const long x,
     const long y, const long z) { return z * DIM_X * DIM_Y + y * DIM_X + x; } inline __host__
     __device__ static long gen_index(const std::size_t x, const std::size_t y, const std::size_t z)
     { return static_cast<long>(z) * DIM_X * DIM_Y + static_cast<long>(y) * DIM_X +
     static_cast<long>(x); } __host__ __device__ const_soa_accessor(const char *my_data, long
     my_index) : my_data(my_data), my_index(my_index) {} inline __host__ __device__ operator
     CELL_TYPE() const { CELL_TYPE ret; *this >> ret; return ret; } template<typename SOA_ACCESSOR>
     inline __host__ __device__ bool operator==(const SOA_ACCESSOR& other) const { return (my_data ==
     other.my_data) && (my_index == other.my_index); } template<typename SOA_ACCESSOR> inline
     __host__ __device__ bool operator!=(const SOA_ACCESSOR& other) const { return !(*this == other);
     } inline __host__ __device__ void operator+=(const long offset) { my_index += offset; } inline
     __host__ __device__ void operator++() { ++my_index; } template<long X, long Y, long Z> inline
     __host__ __device__ const_soa_accessor<CELL_TYPE, LIBFLATARRAY_PARAMS> operator[]( coord<X, Y,
     Z>) const { return const_soa_accessor<CELL_TYPE, LIBFLATARRAY_PARAMS>( my_data, my_index); }
     __host__ __device__ inline void operator>>(CELL_TYPE& cell) const { LIBFLATARRAY_FOR_EACH(
     LIBFLATARRAY_COPY_SOA_GENERIC_MEMBER_OUT, CELL_TYPE, CELL_MEMBERS); } __host__ __device__ inline
     void save(char *target, std::size_t count) const { save(target, count, 0, count); } __host__
     __device__ inline void save( char *target, std::size_t count, std::size_t offset, std::size_t
     stride) const { LIBFLATARRAY_FOR_EACH( LIBFLATARRAY_COPY_SOA_GENERIC_MEMBER_ARRAY_OUT,
     CELL_TYPE, CELL_MEMBERS); } LIBFLATARRAY_FOR_EACH( LIBFLATARRAY_DECLARE_SOA_MEMBER_CONST,
     CELL_TYPE, CELL_MEMBERS); __host__ __device__ const char *data() const { return my_data; }
     __host__ __device__ long& index() { return my_index; } __host__ __device__ const long& index()
     const { return my_index; } private: const char *my_data; long my_index; }; template<long
     MY_DIM_X, long MY_DIM_Y, long MY_DIM_Z, long INDEX> class soa_accessor_light<CELL_TYPE,
     MY_DIM_X, MY_DIM_Y, MY_DIM_Z, INDEX> { public: typedef CELL_TYPE element_type; static const long
     DIM_X = MY_DIM_X; static const long DIM_Y = MY_DIM_Y; static const long DIM_Z = MY_DIM_Z; static
     const long DIM_PROD = DIM_X * DIM_Y * DIM_Z; inline __host__ __device__ static long
     gen_index(const long x, const long y, const long z) { return z * DIM_X * DIM_Y + y * DIM_X + x;
     } inline __host__ __device__ static long gen_index(const std::size_t x, const std::size_t y,
     const std::size_t z) { return static_cast<long>(z) * DIM_X * DIM_Y + static_cast<long>(y) *
     DIM_X + static_cast<long>(x); } inline __host__ __device__ soa_accessor_light(char *my_data,
     long& my_index) : my_data(my_data), my_index(&my_index) {} inline __host__ __device__ operator
     CELL_TYPE() const { CELL_TYPE ret; *this >> ret; return ret; } template<typename SOA_ACCESSOR>
     inline __host__ __device__ bool operator==(const SOA_ACCESSOR& other) const { return (my_data ==
     other.my_data) && (my_index == other.my_index); } template<typename SOA_ACCESSOR> inline
     __host__ __device__ bool operator!=(const SOA_ACCESSOR& other) const { return !(*this == other);
     } inline __host__ __device__ void operator+=(const long offset) { *my_index += offset; } inline
     __host__ __device__ void operator++() { ++*my_index; } template<long X, long Y, long Z> inline
     __host__ __device__ soa_accessor_light<CELL_TYPE, LIBFLATARRAY_PARAMS> operator[]( coord<X, Y,
     Z>) const { return soa_accessor_light<CELL_TYPE, LIBFLATARRAY_PARAMS>( my_data, *my_index); }
     __host__ __device__ inline void operator=(const CELL_TYPE& cell) { LIBFLATARRAY_FOR_EACH(
     LIBFLATARRAY_COPY_SOA_GENERIC_MEMBER_IN, CELL_TYPE, CELL_MEMBERS); } __host__ __device__ inline
     void operator<<(const CELL_TYPE& cell) { (*this) = cell; } __host__ __device__ inline void
     operator>>(CELL_TYPE& cell) const { LIBFLATARRAY_FOR_EACH(
     LIBFLATARRAY_COPY_SOA_GENERIC_MEMBER_OUT, CELL_TYPE, CELL_MEMBERS); } __host__ __device__ inline
     void load(const char *source, std::size_t count) { load(source, count, 0, count); } __host__
     __device__ inline void load( const char *source, std::size_t count, std::size_t offset,
     std::size_t stride) { LIBFLATARRAY_FOR_EACH( LIBFLATARRAY_COPY_SOA_GENERIC_MEMBER_ARRAY_IN,
     CELL_TYPE, CELL_MEMBERS); } __host__ __device__ inline void save(char *target, std::size_t
     count) const { save(target, count, 0, count); } __host__ __device__ inline void save( char
     *target, std::size_t count, std::size_t offset, std::size_t stride) const {
     LIBFLATARRAY_FOR_EACH( LIBFLATARRAY_COPY_SOA_GENERIC_MEMBER_ARRAY_OUT, CELL_TYPE, CELL_MEMBERS);
     } __host__ __device__ inline void construct_members() { LIBFLATARRAY_FOR_EACH(
     LIBFLATARRAY_INIT_SOA_GENERIC_MEMBER, CELL_TYPE, CELL_MEMBERS); } __host__ __device__ inline
     void destroy_members() { LIBFLATARRAY_FOR_EACH( LIBFLATARRAY_DESTROY_SOA_GENERIC_MEMBER,
     CELL_TYPE, CELL_MEMBERS); } template<typename OTHER_ACCESSOR> __host__ __device__ inline void
     copy_members(const OTHER_ACCESSOR& other, std::size_t count) { LIBFLATARRAY_FOR_EACH(
     LIBFLATARRAY_COPY_SOA_GENERIC_MEMBER, CELL_TYPE, CELL_MEMBERS); } template<typename MEMBER_TYPE,
     long OFFSET> inline __host__ __device__ MEMBER_TYPE& access_member() { return *(MEMBER_TYPE*)(
     my_data + DIM_PROD * detail::flat_array::offset<CELL_TYPE, OFFSET>::OFFSET + *my_index *
     sizeof(MEMBER_TYPE) + INDEX * sizeof(MEMBER_TYPE)); } inline __host__ __device__ char
     *access_member(const long size_of_member, const long offset) { return my_data + DIM_PROD *
     offset + *my_index * size_of_member + INDEX * size_of_member; } LIBFLATARRAY_FOR_EACH(
     LIBFLATARRAY_DECLARE_SOA_MEMBER_LIGHT_NORMAL, CELL_TYPE, CELL_MEMBERS); LIBFLATARRAY_FOR_EACH(
     LIBFLATARRAY_DECLARE_SOA_MEMBER_LIGHT_CONST, CELL_TYPE, CELL_MEMBERS); __host__ __device__ const
     char *data() const { return my_data; } __host__ __device__ char *data() { return my_data; }
     __host__ __device__ long& index() { return *my_index; } __host__ __device__ const long& index()
     const { return *my_index; } private: char *my_data; long *my_index; }; template<long MY_DIM_X,
     long MY_DIM_Y, long MY_DIM_Z, long INDEX> class const_soa_accessor_light<CELL_TYPE, MY_DIM_X,
     MY_DIM_Y, MY_DIM_Z, INDEX> { public: typedef CELL_TYPE element_type; static const long DIM_X =
     MY_DIM_X; static const long DIM_Y = MY_DIM_Y; static const long DIM_Z = MY_DIM_Z; static const
     long DIM_PROD = DIM_X * DIM_Y * DIM_Z; inline __host__ __device__ static long gen_index(const
     long x, const long y, const long z) { return z * DIM_X * DIM_Y + y * DIM_X + x; } inline
     __host__ __device__ static long gen_index(const std::size_t x, const std::size_t y, const
     std::size_t z) { return static_cast<long>(z) * DIM_X * DIM_Y + static_cast<long>(y) * DIM_X +
     static_cast<long>(x); } inline __host__ __device__ const_soa_accessor_light(const char *my_data,
     long& my_index) : my_data(my_data), my_index(&my_index) {} inline __host__ __device__ operator
     CELL_TYPE() const { CELL_TYPE ret; *this >> ret; return ret; } template<typename SOA_ACCESSOR>
     inline __host__ __device__ bool operator==(const SOA_ACCESSOR& other) const { return (my_data ==
     other.my_data) && (my_index == other.my_index); } template<typename SOA_ACCESSOR> inline
     __host__ __device__ bool operator!=(const SOA_ACCESSOR& other) const { return !(*this == other);
     } inline __host__ __device__ void operator+=(const long offset) { *my_index += offset; } inline
     __host__ __device__ void operator++() { ++*my_index; } template<long X, long Y, long Z> inline
     __host__ __device__ const_soa_accessor_light<CELL_TYPE, LIBFLATARRAY_PARAMS> operator[](
     coord<X, Y, Z>) const { return const_soa_accessor_light<CELL_TYPE, LIBFLATARRAY_PARAMS>(
     my_data, *my_index); } __host__ __device__ inline void operator>>(CELL_TYPE& cell) const {
     LIBFLATARRAY_FOR_EACH( LIBFLATARRAY_COPY_SOA_GENERIC_MEMBER_OUT, CELL_TYPE, CELL_MEMBERS); }
     __host__ __device__ inline void save(char *target, std::size_t count) const { save(target,
     count, 0, count); } __host__ __device__ inline void save( char *target, std::size_t count,
     std::size_t offset, std::size_t stride) const { LIBFLATARRAY_FOR_EACH(
     LIBFLATARRAY_COPY_SOA_GENERIC_MEMBER_ARRAY_OUT, CELL_TYPE, CELL_MEMBERS); }
     LIBFLATARRAY_FOR_EACH( LIBFLATARRAY_DECLARE_SOA_MEMBER_LIGHT_CONST, CELL_TYPE, CELL_MEMBERS);
     __host__ __device__ const char *data() const { return my_data; } __host__ __device__ long&
     index() { return *my_index; } __host__ __device__ const long& index() const { return *my_index;
     } private: const char *my_data; long *my_index; }; } template<long DIM_X, long DIM_Y, long
     DIM_Z, long INDEX> __host__ __device__ inline void operator<<( CELL_TYPE& cell, const
     LibFlatArray::soa_accessor< CELL_TYPE, DIM_X, DIM_Y, DIM_Z, INDEX> soa) { soa >> cell; }";
   (* macros.hpp:948-1061 *)
   "#define LIBFLATARRAY_CUSTOM_SIZES(X_SIZES, Y_SIZES, Z_SIZES) typedef void has_sizes;
     template<typename CELL, typename FUNCTOR> void select_size( char *data, FUNCTOR& functor, const
     std::size_t dim_x = 1, const std::size_t dim_y = 1, const std::size_t dim_z = 1) {
     bind_size_x<CELL>(dim_x, dim_y, dim_z, data, functor); } template<typename CELL, typename
     FUNCTOR> void select_size( const char *data, FUNCTOR& functor, const std::size_t dim_x = 1,
     const std::size_t dim_y = 1, const std::size_t dim_z = 1) { bind_size_x<CELL>(dim_x, dim_y,
     dim_z, data, functor); } template<typename CELL, typename FUNCTOR> void bind_size_x( const
     std::size_t dim_x, const std::size_t dim_y, const std::size_t dim_z, char *data, FUNCTOR&
     functor) const { LIBFLATARRAY_FOR_EACH( LIBFLATARRAY_CASE_DIM_X, unused, X_SIZES); throw
     std::out_of_range(""grid dimension X too large""); } template<typename CELL, typename FUNCTOR>
     void bind_size_x( const std::size_t dim_x, const std::size_t dim_y, const std::size_t dim_z,
     const char *data, FUNCTOR& functor) const { LIBFLATARRAY_FOR_EACH( LIBFLATARRAY_CASE_DIM_X,
     unused, X_SIZES); throw std::out_of_range(""grid dimension X too large""); } template<typename
     CELL, long DIM_X, typename FUNCTOR> void bind_size_y( const std::size_t dim_y, const std::size_t
     dim_z, char *data, FUNCTOR& functor) const { LIBFLATARRAY_FOR_EACH( LIBFLATARRAY_CASE_DIM_Y,
     unused, Y_SIZES); throw std::out_of_range(""grid dimension Y too large""); } template<typename
     CELL, long DIM_X, typename FUNCTOR> void bind_size_y( const std::size_t dim_y, const std::size_t
     dim_z, const char *data, FUNCTOR& functor) const { LIBFLATARRAY_FOR_EACH(
     LIBFLATARRAY_CASE_DIM_Y, unused, Y_SIZES); throw
     std::out_of_range(""grid dimension Y too large""); } template<typename CELL, long DIM_X, long
     DIM_Y, typename FUNCTOR> void bind_size_z( const std::size_t dim_z, char *data, FUNCTOR&
     functor) const { LIBFLATARRAY_FOR_EACH( LIBFLATARRAY_CASE_DIM_Z, unused, Z_SIZES); throw
     std::out_of_range(""grid dimension Z too large""); } template<typename CELL, long DIM_X, long
     DIM_Y, typename FUNCTOR> void bind_size_z( const std::size_t dim_z, const char *data, FUNCTOR&
     functor) const { LIBFLATARRAY_FOR_EACH( LIBFLATARRAY_CASE_DIM_Z, unused, Z_SIZES); throw
     std::out_of_range(""grid dimension Z too large""); }";
   (* macros.hpp:1063-1113 *)
   "#define LIBFLATARRAY_CUSTOM_SIZES_1D_UNIFORM(SIZES) typedef void has_sizes; template<typename
     CELL, typename FUNCTOR> void select_size( char *data, FUNCTOR& functor, const std::size_t dim_x
     = 1, const std::size_t dim_y = 1, const std::size_t dim_z = 1) { if (dim_y != 1) { throw
     std::out_of_range(""expected 1D grid, but y != 1""); } if (dim_z != 1) { throw
     std::out_of_range(""expected 1D grid, but z != 1""); } std::size_t maxDim = dim_x;
     LIBFLATARRAY_FOR_EACH( LIBFLATARRAY_CASE_DIM_MAX_1D, unused, SIZES); throw
     std::out_of_range(""max grid dimension too large""); } template<typename CELL, typename FUNCTOR>
     void select_size( const char *data, FUNCTOR& functor, const std::size_t dim_x = 1, const
     std::size_t dim_y = 1, const std::size_t dim_z = 1) { if (dim_y != 1) { throw
     std::out_of_range(""expected 1D grid, but y != 1""); } if (dim_z != 1) { throw
     std::out_of_range(""expected 1D grid, but z != 1""); } using std::max; std::size_t maxDim =
     max(dim_x, dim_z); LIBFLATARRAY_FOR_EACH( LIBFLATARRAY_CASE_DIM_MAX_1D, unused, SIZES); throw
     std::out_of_range(""max grid dimension too large""); }";
   (* macros.hpp:1115-1160 *)
   "#define LIBFLATARRAY_CUSTOM_SIZES_2D_UNIFORM(SIZES) typedef void has_sizes; template<typename
     CELL, typename FUNCTOR> void select_size( char *data, FUNCTOR& functor, const std::size_t dim_x
     = 1, const std::size_t dim_y = 1, const std::size_t dim_z = 1) { if (dim_z != 1) { throw
     std::out_of_range(""expected 2D grid, but z != 1""); } using std::max; std::size_t maxDim =
     max(dim_x, dim_y); LIBFLATARRAY_FOR_EACH( LIBFLATARRAY_CASE_DIM_MAX_2D, unused, SIZES); throw
     std::out_of_range(""max grid dimension too large""); } template<typename CELL, typename FUNCTOR>
     void select_size( const char *data, FUNCTOR& functor, const std::size_t dim_x = 1, const
     std::size_t dim_y = 1, const std::size_t dim_z = 1) { if (dim_z != 1) { throw
     std::out_of_range(""expected 2D grid, but z != 1""); } using std::max; std::size_t maxDim =
     max(dim_x, dim_y); LIBFLATARRAY_FOR_EACH( LIBFLATARRAY_CASE_DIM_MAX_2D, unused, SIZES); throw
     std::out_of_range(""max grid dimension too large""); }";
   (* macros.hpp:1162-1201 *)
   "#define LIBFLATARRAY_CUSTOM_SIZES_3D_UNIFORM(SIZES) typedef void has_sizes; template<typename
     CELL, typename FUNCTOR> void select_size( char *data, FUNCTOR& functor, const std::size_t dim_x
     = 1, const std::size_t dim_y = 1, const std::size_t dim_z = 1) { using std::max; std::size_t
     maxDim = max(dim_x, max(dim_y, dim_z)); LIBFLATARRAY_FOR_EACH( LIBFLATARRAY_CASE_DIM_MAX_3D,
     unused, SIZES); throw std::out_of_range(""max grid dimension too large""); } template<typename
     CELL, typename FUNCTOR> void select_size( const char *data, FUNCTOR& functor, const std::size_t
     dim_x = 1, const std::size_t dim_y = 1, const std::size_t dim_z = 1) { using std::max;
     std::size_t maxDim = max(dim_x, max(dim_y, dim_z)); LIBFLATARRAY_FOR_EACH(
     LIBFLATARRAY_CASE_DIM_MAX_3D, unused, SIZES); throw
     std::out_of_range(""max grid dimension too large""); }"].

