(** A concrete algebra of lanes for the language of ShortVecLang.v: a lane is
    the bit pattern of its element, a number below 2^32 or 2^64.  Floating
    point operations are IEEE 754 (round to nearest, ties to even) by way of
    the standard library's SpecFloat.  It shows that the laws assumed by the
    theorems hold for real registers and runs the counterexamples.

    Simplified: every NaN result is the quiet NaN; approximate instructions
    and the high half of a register whose low half holds an int are
    parameters. *)
From Coq Require Import ZArith Bool List Lia SpecFloat.
From Verif Require Import ShortVecLang ShortVecClass SpecShortVec.
Import ListNotations.
Local Open Scope Z_scope.

(** ** IEEE 754 interchange formats *)

(** mw: bits of the trailing significand, ew: bits of the exponent. *)
Record fmt := mkFmt { f_mw : Z; f_ew : Z }.
Definition f32 : fmt := mkFmt 23 8.
Definition f64 : fmt := mkFmt 52 11.

Definition f_prec (f : fmt) : Z := f_mw f + 1.
Definition f_emax (f : fmt) : Z := 2 ^ (f_ew f - 1).
Definition f_emin (f : fmt) : Z := 3 - f_emax f - f_prec f.

Definition decode (f : fmt) (b : Z) : spec_float :=
  let s := Z.testbit b (f_mw f + f_ew f) in
  let e := (b / 2 ^ f_mw f) mod 2 ^ f_ew f in
  let m := b mod 2 ^ f_mw f in
  if e =? 2 ^ f_ew f - 1 then if m =? 0 then S754_infinity s else S754_nan
  else if e =? 0 then
    match m with Zpos p => S754_finite s p (f_emin f) | _ => S754_zero s end
  else
    match m + 2 ^ f_mw f with
    | Zpos p => S754_finite s p (e + f_emin f - 1)
    | _ => S754_nan
    end.

Definition encode (f : fmt) (x : spec_float) : Z :=
  let top (s : bool) := if s then 2 ^ (f_mw f + f_ew f) else 0 in
  match x with
  | S754_zero s => top s
  | S754_infinity s => top s + (2 ^ f_ew f - 1) * 2 ^ f_mw f
  | S754_nan => (2 ^ f_ew f - 1) * 2 ^ f_mw f + 2 ^ (f_mw f - 1)
  | S754_finite s m e =>
      if Zpos m <? 2 ^ f_mw f then top s + Zpos m
      else top s + (e - f_emin f + 1) * 2 ^ f_mw f + (Zpos m - 2 ^ f_mw f)
  end.

Definition f_op2 (f : fmt) (g : Z -> Z -> spec_float -> spec_float -> spec_float) (a b : Z) : Z :=
  encode f (g (f_prec f) (f_emax f) (decode f a) (decode f b)).

(** ** Integers *)

Definition wrap32 (z : Z) : Z := z mod 2 ^ 32.
Definition sgn32 (b : Z) : Z := if b <? 2 ^ 31 then b else b - 2 ^ 32.

(** An int from an integral value; the hardware's answer when it does not fit. *)
Definition to_int (z : Z) : Z :=
  if (- 2 ^ 31 <=? z) && (z <? 2 ^ 31) then wrap32 z else 2 ^ 31.

(** Round |m * 2^e| to an integer: truncate, or to nearest even. *)
Definition trunc_abs (m e : Z) : Z := if 0 <=? e then m * 2 ^ e else m / 2 ^ (- e).
Definition near_abs (m e : Z) : Z :=
  if 0 <=? e then m * 2 ^ e
  else
    let q := m / 2 ^ (- e) in
    let r := 2 * (m mod 2 ^ (- e)) in
    match r ?= 2 ^ (- e) with
    | Lt => q
    | Gt => q + 1
    | Eq => if Z.even q then q else q + 1
    end.

Definition float_to_int (rnd : Z -> Z -> Z) (x : spec_float) : Z :=
  match x with
  | S754_zero _ => 0
  | S754_finite s m e => to_int (if s then - rnd (Zpos m) e else rnd (Zpos m) e)
  | _ => 2 ^ 31
  end.

Definition int_to_float (f : fmt) (b : Z) : Z :=
  encode f (binary_normalize (f_prec f) (f_emax f) (sgn32 b) 0 false).

(** ** The algebra *)

Definition bits (k : ekind) : Z := 8 * esize k.
Definition kfmt (k : ekind) : fmt := match k with KF64 => f64 | _ => f32 end.

(** Conditions are 0 and 1. *)
Definition cond (b : bool) : Z := if b then 1 else 0.
Definition ztruth (t : Z) : bool := negb (t =? 0).
Definition zfull (k : ekind) (b : bool) : Z := if b then Z.ones (bits k) else 0.
Definition zword (k : ekind) (x : Z) : Prop := 0 <= x < 2 ^ bits k.

Definition rel_ok (r : rel) (o : option comparison) : bool :=
  match r, o with
  | RLt, Some Lt => true
  | RLe, Some Lt => true
  | RLe, Some Eq => true
  | REq, Some Eq => true
  | RGt, Some Gt => true
  | RGe, Some Gt => true
  | RGe, Some Eq => true
  | _, _ => false
  end.

Definition compare_k (k : ekind) (a b : Z) : option comparison :=
  match k with
  | KI32 => Some (sgn32 a ?= sgn32 b)
  | _ => SFcompare (decode (kfmt k) a) (decode (kfmt k) b)
  end.

Definition arith_k (k : ekind) (i : Z -> Z -> Z)
    (g : Z -> Z -> spec_float -> spec_float -> spec_float) (a b : Z) : Z :=
  match k with
  | KI32 => i a b
  | _ => f_op2 (kfmt k) g a b
  end.

(** Signed division; the machine traps when b = 0 or on the overflow
    INT_MIN / -1, both give 0 here. *)
Definition div32 (a b : Z) : Z :=
  if (sgn32 b =? 0) || ((sgn32 a =? - 2 ^ 31) && (sgn32 b =? - 1)) then 0
  else wrap32 (Z.quot (sgn32 a) (sgn32 b)).

(** The literals 2.0, 3.0 and 0.5 in single precision (Newton steps). *)
Definition lit2 : Z := 0x40000000.
Definition lit3 : Z := 0x40400000.
Definition lit_half : Z := 0x3f000000.

Section Algebra.
Context (apx_of : apx -> Z -> Z)   (* results of the approximate instructions *)
        (swdiv : Z -> Z -> Z)
        (high : Z -> Z)            (* high half of the register holding an int *)
        (data : Z -> Z) (offs : Z -> Z) (ptr : Z -> Z) (junk : Z).

Definition z_un (u : uop) (a : Z) : Z :=
  match u with
  | USqrt k => encode (kfmt k) (SFsqrt (f_prec (kfmt k)) (f_emax (kfmt k)) (decode (kfmt k) a))
  | UApx p => apx_of p a
  | UCvtIF => int_to_float f32 a
  | UCvtFI => float_to_int near_abs (decode f32 a)
  | UCvttFI => float_to_int trunc_abs (decode f32 a)
  | UIntToD => int_to_float f64 a
  | UDToInt => float_to_int trunc_abs (decode f64 a)
  | UTruth KI32 => cond (negb (a =? 0))
  | UTruth k => cond (match decode (kfmt k) a with S754_zero _ => false | _ => true end)
  | UFill k => zfull k (ztruth a)
  | UMsb k => cond (Z.testbit a (bits k - 1))
  | UNonZero => cond (negb (a =? 0))
  | UNot => cond (negb (ztruth a))
  | UBitNot => wrap32 (Z.lnot a)
  | UQext => a + 2 ^ 32 * high a
  end.

Definition z_bin (o : bop) (a b : Z) : Z :=
  match o with
  | BAdd k => arith_k k (fun a b => wrap32 (a + b)) SFadd a b
  | BSub k => arith_k k (fun a b => wrap32 (a - b)) SFsub a b
  | BMul k => arith_k k (fun a b => wrap32 (a * b)) SFmul a b
  | BDiv k => arith_k k div32 SFdiv a b
  | BRel r k => cond (rel_ok r (compare_k k a b))
  | BRelAbs r => cond (rel_ok r (SFcompare (SFabs (decode f32 a)) (SFabs (decode f32 b))))
  | BEqBits => cond (a =? b)
  | BAnd => Z.land a b
  | BOr => Z.lor a b
  | BAndNot => Z.ldiff b a
  | BLOr => cond (ztruth a || ztruth b)
  | BMulHi => a * b / 2 ^ 32
  | BRecps => f_op2 f32 SFsub lit2 (f_op2 f32 SFmul a b)
  | BRsqrts => f_op2 f32 SFmul (f_op2 f32 SFsub lit3 (f_op2 f32 SFmul a b)) lit_half
  | BSwdiv => swdiv a b
  end.

Definition zalg : alg Z :=
  mkAlg z_un z_bin (fun c x y => if ztruth c then x else y)
        (fun z => z) data offs ptr junk.

Lemma bits_pos : forall k, 0 < bits k.
Proof. intros []; reflexivity. Qed.

Lemma zfull_land : forall k b x, zword k x -> Z.land (zfull k b) x = if b then x else 0.
Proof.
  intros k b x [H0 H1]. unfold zfull. destruct b; [|reflexivity].
  rewrite Z.land_comm, Z.land_ones by (assert (P := bits_pos k); lia).
  now apply Z.mod_small.
Qed.

Lemma zfull_ldiff : forall k b x, zword k x -> Z.ldiff x (zfull k b) = if b then 0 else x.
Proof.
  intros k b x [H0 H1]. unfold zfull. destruct b; [|apply Z.ldiff_0_r].
  rewrite Z.ldiff_ones_r by (assert (P := bits_pos k); lia).
  rewrite Z.shiftr_div_pow2 by (assert (P := bits_pos k); lia).
  rewrite Z.div_small by lia. apply Z.shiftl_0_l.
Qed.

(** The laws assumed of bitwise operations hold for bit patterns. *)
Theorem zalg_laws : bit_laws zalg ztruth zfull zword.
Proof.
  constructor; cbn [zalg a_un a_bin a_sel]; intros; unfold z_un, z_bin.
  - reflexivity.
  - reflexivity.
  - destruct k, a, b; reflexivity.
  - destruct k, a, b; reflexivity.
  - destruct k, b; reflexivity.
  - destruct k, b; vm_compute; reflexivity.
  - destruct k, b; vm_compute; reflexivity.
  - destruct (ztruth a), (ztruth b); reflexivity.
  - destruct (ztruth a); reflexivity.
  - now apply zfull_land.
  - now apply zfull_ldiff.
  - apply Z.lor_0_r.
  - apply Z.lor_0_l.
Qed.

End Algebra.
