(** The interface of short_vec: calls of its member functions, with the
    arguments a caller supplies, and the free functions of
    /repo/include/libflatarray/short_vec.hpp and detail/sqrt_reference.hpp. *)
From Coq Require Import String ZArith Bool List.
From Verif Require Import ShortVecLang ShortVecClass.
From Verif Require Import ShortVecScalar ShortVecSse ShortVecAvx ShortVecAvx512
  ShortVecNeon ShortVecMic ShortVecQpx.
Import ListNotations.
Local Open Scope Z_scope.

(** All classes that some configuration of the library provides
    (/repo/include/libflatarray/short_vec.hpp:344-419 includes them). *)
Definition all_classes : list cls :=
  scalar_classes ++ sse_classes ++ avx_classes ++ avx512_classes ++
  neon_classes ++ mic_classes ++ qpx_classes.

Section Api.
Context {T : Type} (A : alg T) (c : cls).

(** A short_vec object: its registers. *)
Notation vec := (list (list T)).

(** An object whose constructor has not run yet. *)
Definition fresh : vec := repeat (repeat (a_undef A) (c_lanes c)) (c_nreg c).

(** a op b, a op= b, a < b, a / sqrt(b), a /= sqrt(b) for distinct objects *)
Definition sv_bin (m : mid) (v w : vec) : option (result T) :=
  call_meth A c m (mkCall v w [] [] [] (a_undef A) 0 0 0 false false).

(** a op a, a op= a: other is the object itself *)
Definition sv_self (m : mid) (v : vec) : option (result T) :=
  call_meth A c m (mkCall v v [] [] [] (a_undef A) 0 0 0 true false).

(** a.sqrt(), a.any() *)
Definition sv_un (m : mid) (v : vec) : option (result T) :=
  call_meth A c m (mkCall v [] [] [] [] (a_undef A) 0 0 0 false false).

(** short_vec(const CARGO data) *)
Definition sv_scalar (t : T) : option (result T) :=
  call_meth A c MCtorScalar (mkCall fresh [] [] [] [] t 0 0 0 false false).

(** short_vec(val1, val2, ...) *)
Definition sv_regs (p : vec) : option (result T) :=
  call_meth A c MCtorRegs (mkCall fresh [] [] [] p (a_undef A) 0 0 0 false false).

(** short_vec(sqrt(b)) *)
Definition sv_of_sqrt (w : vec) : option (result T) :=
  call_meth A c MCtorSqrt (mkCall fresh w [] [] [] (a_undef A) 0 0 0 false false).

(** a[i] *)
Definition sv_index (v : vec) (i : Z) : option (result T) :=
  call_meth A c MIndex (mkCall v [] [] [] [] (a_undef A) i 0 0 false false).

(** Functions taking a pointer to elements, mis elements past a 64 byte
    boundary: load, load_aligned, store, ..., short_vec(const CARGO *data),
    short_vec(std::initializer_list) *)
Definition sv_mem (m : mid) (v : vec) (mis : Z) : option (result T) :=
  call_meth A c m (mkCall v [] [] [] [] (a_undef A) 0 mis 0 false false).

(** gather(ptr, offsets), scatter(ptr, offsets); offsets lies omis ints past
    a 64 byte boundary *)
Definition sv_idx (m : mid) (v : vec) (omis : Z) : option (result T) :=
  call_meth A c m (mkCall v [] [] [] [] (a_undef A) 0 0 omis false false).

(** a.blend(mask, b): the mask is an integer or a vector *)
Definition sv_blend (v : vec) (mask : rvalue T) (w : vec) : option (result T) :=
  match mask with
  | RVal (VBits l) =>
      call_meth A c MBlend (mkCall v w [] l [] (a_undef A) 0 0 0 false false)
  | RVec m =>
      call_meth A c MBlend (mkCall v w m [] [] (a_undef A) 0 0 0 false false)
  | _ => None
  end.

(** ** Free functions *)

(** operator+(CARGO a, const short_vec& b) and -, *, / (short_vec.hpp:31-53):
    short_vec(a) op b *)
Definition sv_left (m : mid) (t : T) (w : vec) : option (result T) :=
  match sv_scalar t with
  | Some r => sv_bin m (r_val r) w
  | None => None
  end.

(** operator/(sqrt_reference a, short_vec b) (detail/sqrt_reference.hpp:16-20):
    short_vec(a) / b *)
Definition sv_sqrt_div (w d : vec) : option (result T) :=
  match sv_of_sqrt w with
  | Some r => sv_bin MDiv (r_val r) d
  | None => None
  end.

(** any(mask) (short_vec.hpp:62-81): the integer itself, or the member any() *)
Definition sv_any (mask : rvalue T) : option (value T) :=
  match mask with
  | RVal (VBits l) => Some (VBits l)
  | RVec v =>
      match sv_un MAny v with
      | Some r => match r_ret r with RVal x => Some x | _ => None end
      | None => None
      end
  | _ => None
  end.

(** get(mask, i) (short_vec.hpp:83-102): (mask >> i) & 1, or vec[i] *)
Definition sv_get (mask : rvalue T) (i : Z) : option (value T) :=
  match mask with
  | RVal (VBits l) =>
      if 0 <=? i then Some (VBits (bits_and 1 (skipn (Z.to_nat i) l))) else None
  | RVec v =>
      match sv_index v i with
      | Some r => match r_ret r with RVal x => Some x | _ => None end
      | None => None
      end
  | _ => None
  end.

(** blend(v1, v2, mask) (short_vec.hpp:114-121): ret = v1; ret.blend(mask, v2) *)
Definition sv_blend3 (v1 v2 : vec) (mask : rvalue T) : option vec :=
  match sv_blend v1 mask v2 with
  | Some r => Some (r_val r)
  | None => None
  end.

(** count_mask (short_vec.hpp:127-144).  [truth] is the conversion of a value
    to bool, [size] the static_cast<std::size_t>, zero and one are T(0) and
    T(1). *)
Fixpoint sum_lanes (size : T -> Z) (v : vec) (n : nat) : option Z :=
  match n with
  | O => Some 0
  | S n' =>
      match sum_lanes size v n', sv_index v (Z.of_nat n') with
      | Some s, Some r =>
          match r_ret r with RVal (VReg [t]) => Some (s + size t) | _ => None end
      | _, _ => None
      end
  end.

Definition count_mask (truth : value T -> option bool) (size : T -> Z) (zero one : T)
    (mask : rvalue T) : option Z :=
  match sv_any mask with
  | None => None
  | Some a =>
      match truth a with
      | None => None
      | Some false => Some 0
      | Some true =>
          match sv_scalar zero, sv_scalar one with
          | Some z, Some o =>
              match sv_blend (r_val z) mask (r_val o) with
              | Some r => sum_lanes size (r_val r) (c_arity c)
              | None => None
              end
          | _, _ => None
          end
      end
  end.

End Api.

(** operator<<(std::ostream&, short_vec) *)
Definition sv_print {T : Type} (A : alg T) (c : cls) (v : list (list T)) : option (list (string + T)) :=
  call_print A c (mkCall v [] [] [] [] (a_undef A) 0 0 0 false false).
