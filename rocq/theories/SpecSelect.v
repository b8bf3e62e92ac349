(** What the selection of short_vec classes is expected to do. *)
From Coq Require Import ZArith Bool List.
From Verif Require Import ShortVecLang ShortVecClass ShortVecSelect.
Import ListNotations.
Local Open Scope Z_scope.

(** A target as compilers describe it: the x86 extensions include each other,
    and the four architectures exclude each other. *)
Record coherent (t : target) : Prop := {
  co_avx512 : d_avx512f t = true -> d_avx2 t = true;
  co_avx2 : d_avx2 t = true -> d_avx t = true;
  co_avx : d_avx t = true -> d_sse4_1 t = true;
  co_sse41 : d_sse4_1 t = true -> d_sse2 t = true;
  co_sse2 : d_sse2 t = true -> d_sse t = true;
  co_qpx : d_vector4double t = true -> d_arm_neon t = false /\ d_mic t = false /\ d_sse t = false;
  co_neon : d_arm_neon t = true -> d_mic t = false /\ d_sse t = false;
  co_mic : d_mic t = true -> d_sse t = false }.

(** Bits of a register of the instruction set holding elements of kind k. *)
Definition register_bits (i : isa) (k : ekind) : Z :=
  match i with
  | Scalar => 8 * esize k
  | Sse | Sse2 | Sse41 | Neon => 128
  | Avx | Avx2 | Qpx => 256
  | Avx512f | Mic => 512
  end.

(** The instruction sets code for target t may use.  AVX-512 intrinsics need
    GCC 7 or Clang 4. *)
Definition supports (t : target) (i : isa) : Prop :=
  match i with
  | Scalar => True
  | Qpx => d_vector4double t = true
  | Neon => d_arm_neon t = true
  | Mic => d_mic t = true
  | Avx512f => d_avx512f t = true /\
      match d_clang t, d_gnuc t with
      | Some v, _ => 4 <= v
      | None, Some v => 7 <= v
      | None, None => True
      end
  | Avx => d_avx t = true
  | Avx2 => d_avx2 t = true
  | Sse => d_sse t = true
  | Sse2 => d_sse2 t = true
  | Sse41 => d_sse4_1 t = true
  end.

(** n lanes of kind k fill r registers of w bits. *)
Definition fills (k : ekind) (n r w : Z) : Prop := n * (8 * esize k) = r * w.

(** An object of class c consists of r registers of w bits, all of whose lanes
    it uses. *)
Definition consists_of (c : cls) (r w : Z) : Prop :=
  Z.of_nat (c_nreg c) = r /\ Z.of_nat (c_lanes c) * (8 * esize (c_kind c)) = w /\
  (c_arity c = c_nreg c * c_lanes c)%nat.
