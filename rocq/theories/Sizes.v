(** Size policies and the dispatch from run-time dimensions to compile-time extents.
    Model only; proofs are in SizesProofs.v, statements in PropsSizes.v. *)
From Coq Require Import ZArith List Bool.
From Verif Require Import Layout.
Import ListNotations.
Open Scope Z_scope.

(** Exceptions the library throws (std::out_of_range, std::invalid_argument,
    std::logic_error); messages are not modelled. *)
Inductive exn := OutOfRange | InvalidArgument | LogicError.

(** What CELL::API selects:
    - [Default]: no has_sizes typedef (include/libflatarray/api_traits.hpp:137-218)
    - [Custom xs ys zs]: LIBFLATARRAY_CUSTOM_SIZES (macros.hpp:948-1061)
    - [Uniform1D/2D/3D l]: LIBFLATARRAY_CUSTOM_SIZES_{1D,2D,3D}_UNIFORM
      (macros.hpp:1063-1201). *)
Inductive sizes_cfg :=
| Default
| Custom (xs ys zs : list Z)
| Uniform1D (l : list Z)
| Uniform2D (l : list Z)
| Uniform3D (l : list Z).

(** The chain of [if (dim <= SIZE) { ...; return; }] that
    LIBFLATARRAY_FOR_EACH(LIBFLATARRAY_CASE_DIM_*, unused, SIZES) expands to
    (include/libflatarray/detail/macros.hpp:316-360), followed by the throw.
    [k] is the body of a case, [fall] what follows the chain. *)
Fixpoint case_chain {R : Type} (dim : Z) (sizes : list Z) (k : Z -> R) (fall : R) : R :=
  match sizes with
  | [] => fall
  | s :: r => if dim <=? s then k s else case_chain dim r k fall
  end.

Section Select.
  (** [R] is whatever running the functor yields; [thr] is what throwing yields;
      [functor e] runs the user's functor on an accessor of extents [e] at
      index 0 (the only thing select_size does with it). *)
  Variable R : Type.
  Variable thr : exn -> R.
  Variable functor : extent -> R.

  (** bind_size_x / y / z, include/libflatarray/macros.hpp:973-1061 with cases
      detail/macros.hpp:316-336. The const and non-const overloads have the same text. *)
  Definition bind_size_z (zs : list Z) (sx sy dim_z : Z) : R :=
    case_chain dim_z zs (fun sz => functor (mkExt sx sy sz)) (thr OutOfRange).
  Definition bind_size_y (ys zs : list Z) (sx dim_y dim_z : Z) : R :=
    case_chain dim_y ys (fun sy => bind_size_z zs sx sy dim_z) (thr OutOfRange).
  Definition bind_size_x (xs ys zs : list Z) (dim_x dim_y dim_z : Z) : R :=
    case_chain dim_x xs (fun sx => bind_size_y ys zs sx dim_y dim_z) (thr OutOfRange).

  (** select_size of CUSTOM_SIZES_1D_UNIFORM, non-const data
      (include/libflatarray/macros.hpp:1063-1088). *)
  Definition select_1d (l : list Z) (dim_x dim_y dim_z : Z) : R :=
    if negb (dim_y =? 1) then thr OutOfRange
    else if negb (dim_z =? 1) then thr OutOfRange
    else let maxDim := dim_x in
         case_chain maxDim l (fun s => functor (mkExt s 1 1)) (thr OutOfRange).

  (** The same for const data: maxDim = max(dim_x, dim_z)
      (include/libflatarray/macros.hpp:1090-1113). *)
  Definition select_1d_const (l : list Z) (dim_x dim_y dim_z : Z) : R :=
    if negb (dim_y =? 1) then thr OutOfRange
    else if negb (dim_z =? 1) then thr OutOfRange
    else let maxDim := Z.max dim_x dim_z in
         case_chain maxDim l (fun s => functor (mkExt s 1 1)) (thr OutOfRange).

  (** select_size of CUSTOM_SIZES_2D_UNIFORM (include/libflatarray/macros.hpp:1115-1160). *)
  Definition select_2d (l : list Z) (dim_x dim_y dim_z : Z) : R :=
    if negb (dim_z =? 1) then thr OutOfRange
    else let maxDim := Z.max dim_x dim_y in
         case_chain maxDim l (fun s => functor (mkExt s s 1)) (thr OutOfRange).

  (** select_size of CUSTOM_SIZES_3D_UNIFORM (include/libflatarray/macros.hpp:1162-1201). *)
  Definition select_3d (l : list Z) (dim_x dim_y dim_z : Z) : R :=
    let maxDim := Z.max dim_x (Z.max dim_y dim_z) in
    case_chain maxDim l (fun s => functor (mkExt s s s)) (thr OutOfRange).

  (** Default lists, include/libflatarray/api_traits.hpp:67-72, 91-96, 120-125. *)
  Definition default_1d_sizes : list Z :=
    [32;64;128;192;256;512;544;1056;2080;4128;8224;16416;32800;65568;131104;262176;
     524320;1048608;2097184;4194336;8388640;16777248;33554464;67108896;134217760;
     268435488;536870944;1073741856].
  Definition default_2d_sizes : list Z :=
    [32;64;128;192;256;512;544;1056;2080;4128;8224;16416;32800].
  Definition default_3d_sizes : list Z :=
    [32;64;128;136;192;200;256;264;512;520;1032].

  (** api_traits::select_sizes<CELL>::operator(), non-const data
      (include/libflatarray/api_traits.hpp:141-178 and 224-239). *)
  Definition select_sizes (cfg : sizes_cfg) (dim_x dim_y dim_z : Z) : R :=
    match cfg with
    | Default =>
        if (1 <? dim_y) && (1 <? dim_z) then select_3d default_3d_sizes dim_x dim_y dim_z
        else if 1 <? dim_y then select_2d default_2d_sizes dim_x dim_y dim_z
        else select_1d default_1d_sizes dim_x dim_y dim_z
    | Custom xs ys zs => bind_size_x xs ys zs dim_x dim_y dim_z
    | Uniform1D l => select_1d l dim_x dim_y dim_z
    | Uniform2D l => select_2d l dim_x dim_y dim_z
    | Uniform3D l => select_3d l dim_x dim_y dim_z
    end.

  (** The overload for [const char *data] (api_traits.hpp:180-217 and 241-256). *)
  Definition select_sizes_const (cfg : sizes_cfg) (dim_x dim_y dim_z : Z) : R :=
    match cfg with
    | Default =>
        if (1 <? dim_y) && (1 <? dim_z) then select_3d default_3d_sizes dim_x dim_y dim_z
        else if 1 <? dim_y then select_2d default_2d_sizes dim_x dim_y dim_z
        else select_1d_const default_1d_sizes dim_x dim_y dim_z
    | Custom xs ys zs => bind_size_x xs ys zs dim_x dim_y dim_z
    | Uniform1D l => select_1d_const l dim_x dim_y dim_z
    | Uniform2D l => select_2d l dim_x dim_y dim_z
    | Uniform3D l => select_3d l dim_x dim_y dim_z
    end.
End Select.

(** has_default_1d_sizes, has_default_2d_sizes, has_default_2d_sizes_uniform,
    has_default_3d_sizes, has_default_3d_sizes_uniform
    (include/libflatarray/api_traits.hpp:67-125). *)
Definition has_default_1d_sizes : sizes_cfg := Uniform1D default_1d_sizes.
Definition has_default_2d_sizes : sizes_cfg := Custom default_2d_sizes default_2d_sizes [1].
Definition has_default_2d_sizes_uniform : sizes_cfg := Uniform2D default_2d_sizes.
Definition has_default_3d_sizes : sizes_cfg := Custom default_3d_sizes default_3d_sizes default_3d_sizes.
Definition has_default_3d_sizes_uniform : sizes_cfg := Uniform3D default_3d_sizes.

(** The extents a callback would use, or the exception it throws: select_sizes
    with a functor that just reports its extents. *)
Definition choose (cfg : sizes_cfg) (x y z : Z) : exn + extent :=
  select_sizes (exn + extent) inl inr cfg x y z.
Definition choose_const (cfg : sizes_cfg) (x y z : Z) : exn + extent :=
  select_sizes_const (exn + extent) inl inr cfg x y z.
