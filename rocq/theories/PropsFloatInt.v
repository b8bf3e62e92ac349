(** C60 and C52: what division and square roots of short_vec<int> compute, for
    ints as numbers.  The lanes are bit patterns, the float operations IEEE 754
    (ShortVecBits.v); [a i] is the int in lane i, so that its bits are
    [a i mod 2^32]. *)
From Coq Require Import ZArith Bool List Lia SpecFloat.
From Verif Require Import ShortVecLang ShortVecClass ShortVecApi SpecShortVec ShortVecLift ShortVecBits
  ShortVecScalar ShortVecSse ShortVecProofs FloatInt PropsShortVec PropsShortVec2.
Import ListNotations.
Local Open Scope Z_scope.

Section Machine.
(** Whatever the approximate instructions and the memory do. *)
Context (apx_of : apx -> Z -> Z) (swdiv : Z -> Z -> Z) (high : Z -> Z) (data offs ptr : Z -> Z) (junk : Z).
Notation M := (zalg apx_of swdiv high data offs ptr junk).

Definition an_int (z : Z) : Prop := - 2 ^ 31 <= z < 2 ^ 31.
Definition int_bits (z : Z) : Z := z mod 2 ^ 32.

(** On SSE, AVX2 and AVX512 a / b is the quotient of C++ while both operands are
    at most 2^24 (16777217 / 1 is wrong, sv_div_int_simd_refuted). *)
Theorem sv_div_int_exact : forall c, In c simd_int -> forall v w (a b : nat -> Z),
  is_vec c v (fun i => int_bits (a i)) -> is_vec c w (fun i => int_bits (b i)) ->
  (forall i, (i < c_arity c)%nat -> Z.abs (a i) <= 2 ^ 24 /\ Z.abs (b i) <= 2 ^ 24 /\ b i <> 0) ->
  returns_vec c (sv_bin M c MDiv v w) (fun i => int_bits (a i)) (fun i => int_bits (Z.quot (a i) (b i))).
Proof.
  intros c I v w a b Hv Hw H.
  destruct (sv_div_int_simd c I Z M v w _ _ Hv Hw) as [r [u [E1 [E2 [E3 E4]]]]].
  exists r, u. split; [exact E1|]. split; [exact E2|]. split; [|exact E4].
  eapply is_vec_ext; [|exact E3]. intros i Hi. cbv beta. destruct (H i Hi) as [Ha [Hb H0]].
  assert (A := sgn32_wrap (a i) ltac:(lia)). assert (B := sgn32_wrap (b i) ltac:(lia)).
  assert (K := div32_trunc (wrap32 (a i)) (wrap32 (b i))). rewrite A, B in K. exact (K H0 Ha Hb).
Qed.

(** On the portable classes always, but for INT_MIN / -1, which has no quotient. *)
Theorem sv_div_int_portable : forall c, In c (of_kind KI32 scalar_classes) -> forall v w (a b : nat -> Z),
  is_vec c v (fun i => int_bits (a i)) -> is_vec c w (fun i => int_bits (b i)) ->
  (forall i, (i < c_arity c)%nat -> an_int (a i) /\ an_int (b i) /\ b i <> 0 /\ ~ (a i = - 2 ^ 31 /\ b i = - 1)) ->
  returns_vec c (sv_bin M c MDiv v w) (fun i => int_bits (a i)) (fun i => int_bits (Z.quot (a i) (b i))) /\
  sets_vec c (sv_bin M c MDivEq v w) (fun i => int_bits (Z.quot (a i) (b i))).
Proof.
  intros c I v w a b Hv Hw H.
  apply filter_In in I as [I K].
  assert (I' : In c exact_div) by (apply in_or_app; left; exact I).
  assert (K' : c_kind c = KI32) by (destruct (c_kind c); try discriminate; reflexivity).
  assert (L : forall i, (i < c_arity c)%nat -> a_bin M (BDiv (c_kind c)) (int_bits (a i)) (int_bits (b i)) = int_bits (Z.quot (a i) (b i))).
  2:{ destruct (sv_div_lanewise c I' Z M v w _ _ Hv Hw) as [[r [u [E1 [E2 [E3 E4]]]]] E5]. split.
      - exists r, u. split; [exact E1|]. split; [exact E2|]. split; [|exact E4].
        eapply is_vec_ext; [|exact E3]. exact L.
      - eapply sets_vec_ext; [|exact E5]. exact L. }
  intros i Hi. destruct (H i Hi) as [Ha [Hb [H0 Hm]]].
  rewrite K'. cbn [zalg a_bin z_bin arith_k]. unfold div32.
  change (int_bits (a i)) with (wrap32 (a i)). change (int_bits (b i)) with (wrap32 (b i)).
  rewrite !sgn32_wrap by assumption.
  destruct (Z.eqb_spec (b i) 0); [lia|]. destruct (Z.eqb_spec (a i) (- 2 ^ 31)), (Z.eqb_spec (b i) (- 1)); try reflexivity. lia.
Qed.

(** a /= b of the eleven classes that round: the integer nearest to the
    quotient, of two the even one, for |a| below 2^23. *)
Theorem sv_div_assign_nearest : forall c, In c rounding_assign -> forall v w (a b : nat -> Z),
  is_vec c v (fun i => int_bits (a i)) -> is_vec c w (fun i => int_bits (b i)) ->
  (forall i, (i < c_arity c)%nat -> Z.abs (a i) < 2 ^ 23 /\ Z.abs (b i) <= 2 ^ 24 /\ b i <> 0) ->
  exists k : nat -> Z, sets_vec c (sv_bin M c MDivEq v w) (fun i => int_bits (k i)) /\
  forall i, (i < c_arity c)%nat ->
    2 * Z.abs (k i * b i - a i) <= Z.abs (b i) /\ (2 * Z.abs (k i * b i - a i) = Z.abs (b i) -> Z.even (k i) = true).
Proof.
  intros c I v w a b Hv Hw H.
  assert (G : forall i, (i < c_arity c)%nat -> exists k,
    via_float M UCvtFI (int_bits (a i)) (int_bits (b i)) = int_bits k /\ an_int k /\
    2 * Z.abs (k * b i - a i) <= Z.abs (b i) /\ (2 * Z.abs (k * b i - a i) = Z.abs (b i) -> Z.even k = true)).
  { intros i Hi. destruct (H i Hi) as [Ha [Hb H0]].
    assert (A := sgn32_wrap (a i) ltac:(lia)). assert (B := sgn32_wrap (b i) ltac:(lia)).
    destruct (div32_near (wrap32 (a i)) (wrap32 (b i))) as [k [E N]]; rewrite ?A, ?B; try assumption.
    rewrite A, B in N. exists k. split; [exact E|]. unfold nearest in N.
    assert (S : Z.sgn (b i) * k * Z.abs (b i) = k * b i).
    { destruct (Z.lt_total (b i) 0) as [L|[L|L]]; [rewrite Z.sgn_neg, Z.abs_neq by lia|lia|rewrite Z.sgn_pos, Z.abs_eq by lia]; ring. }
    assert (V : Z.even (Z.sgn (b i) * k) = Z.even k).
    { destruct (Z.lt_total (b i) 0) as [L|[L|L]]; [rewrite Z.sgn_neg by lia|lia|rewrite Z.sgn_pos by lia].
      - replace (-1 * k) with (- k) by lia. apply Z.even_opp.
      - f_equal. lia. }
    rewrite S, V in N. split; [|exact N]. destruct N as [N _]. unfold an_int. nia. }
  exists (fun i => sgn32 (via_float M UCvtFI (int_bits (a i)) (int_bits (b i)))). split.
  - eapply sets_vec_ext; [|exact (sv_div_assign_rounds c I Z M v w _ _ Hv Hw)]. intros i Hi. cbv beta.
    destruct (G i Hi) as [k [E [K _]]]. rewrite E. unfold int_bits. fold (wrap32 k). rewrite (sgn32_wrap k K). reflexivity.
  - intros i Hi. destruct (G i Hi) as [k [E [K N]]]. rewrite E. unfold int_bits. fold (wrap32 k). rewrite (sgn32_wrap k K). exact N.
Qed.

(** sqrt of the portable int classes is the truncated root of every int that
    has one. *)
Theorem sv_sqrt_int_portable : forall c, In c (of_kind KI32 scalar_classes) -> forall v (a : nat -> Z),
  is_vec c v (fun i => int_bits (a i)) ->
  (forall i, (i < c_arity c)%nat -> 0 <= a i < 2 ^ 31) ->
  returns_vec c (sv_un M c MSqrt v) (fun i => int_bits (a i)) (fun i => int_bits (Z.sqrt (a i))).
Proof.
  intros c I v a Hv H.
  destruct (proj1 (sv_sqrt_int c Z M v _ Hv) I) as [r [u [E1 [E2 [E3 E4]]]]].
  exists r, u. split; [exact E1|]. split; [exact E2|]. split; [|exact E4].
  eapply is_vec_ext; [|exact E3]. intros i Hi. cbv beta. specialize (H i Hi).
  assert (A := sgn32_wrap (a i) ltac:(lia)).
  assert (K := sqrt64_trunc (wrap32 (a i))). rewrite A in K. exact (K H).
Qed.

(** On SSE, AVX2 and AVX512 it is the nearest integer, for a below 2^22: k with
    k - 1/2 < sqrt(a) < k + 1/2. *)
Theorem sv_sqrt_int_nearest : forall c, In c simd_int -> forall v (a : nat -> Z),
  is_vec c v (fun i => int_bits (a i)) ->
  (forall i, (i < c_arity c)%nat -> 0 <= a i < 2 ^ 22) ->
  exists k : nat -> Z, returns_vec c (sv_un M c MSqrt v) (fun i => int_bits (a i)) (fun i => int_bits (k i)) /\
  forall i, (i < c_arity c)%nat -> 0 <= k i /\ (k i = 0 \/ (2 * k i - 1) ^ 2 < 4 * a i) /\ 4 * a i < (2 * k i + 1) ^ 2.
Proof.
  intros c I v a Hv H.
  assert (G : forall i, (i < c_arity c)%nat -> exists k,
    a_un M UCvtFI (a_un M (USqrt KF32) (a_un M UCvtIF (int_bits (a i)))) = int_bits k /\ an_int k /\
    0 <= k /\ (k = 0 \/ (2 * k - 1) ^ 2 < 4 * a i) /\ 4 * a i < (2 * k + 1) ^ 2).
  { intros i Hi. specialize (H i Hi). assert (A := sgn32_wrap (a i) ltac:(lia)).
    destruct (sqrt32_near (wrap32 (a i))) as [k [E [K0 [K1 K2]]]]; rewrite ?A; try assumption. rewrite A in K1, K2.
    exists k. split; [exact E|]. unfold an_int.
    replace ((2 * k - 1) ^ 2) with (4 * (k * k - k) + 1) by ring. replace ((2 * k + 1) ^ 2) with (4 * (k * k + k) + 1) by ring.
    split; [|lia]. split; [lia|]. destruct K1 as [->|K1]; [lia|]. nia. }
  destruct (proj2 (sv_sqrt_int c Z M v _ Hv) I) as [r [u [E1 [E2 [E3 E4]]]]].
  exists (fun i => sgn32 (a_un M UCvtFI (a_un M (USqrt KF32) (a_un M UCvtIF (int_bits (a i)))))). split.
  - exists r, u. split; [exact E1|]. split; [exact E2|]. split; [|exact E4].
    eapply is_vec_ext; [|exact E3]. intros i Hi. cbv beta. destruct (G i Hi) as [k [E [K _]]].
    rewrite E. unfold int_bits. fold (wrap32 k). rewrite (sgn32_wrap k K). reflexivity.
  - intros i Hi. destruct (G i Hi) as [k [E [K N]]]. rewrite E. unfold int_bits. fold (wrap32 k). rewrite (sgn32_wrap k K). exact N.
Qed.
End Machine.

(** Cases.  Negative operands, a rounded quotient just below an integer
    (16777215 / 4194304), the largest operands allowed. *)
Definition dividends (i : nat) : Z := nth i [16777215; -16777216; 7; -7] 0.
Definition divisors (i : nat) : Z := nth i [4194304; -16777215; -4; 2] 1.

Example sv_div_int_case :
  let v := [map (fun i => int_bits (dividends i)) [0; 1; 2; 3]%nat] in
  let w := [map (fun i => int_bits (divisors i)) [0; 1; 2; 3]%nat] in
  In cls_sse_int_4 simd_int /\ is_vec cls_sse_int_4 v (fun i => int_bits (dividends i)) /\
  is_vec cls_sse_int_4 w (fun i => int_bits (divisors i)) /\
  (forall i, (i < c_arity cls_sse_int_4)%nat ->
    Z.abs (dividends i) <= 2 ^ 24 /\ Z.abs (divisors i) <= 2 ^ 24 /\ divisors i <> 0) /\
  option_map (@r_ret Z) (sv_bin Z_machine cls_sse_int_4 MDiv v w) = Some (RVec [[3; 1; int_bits (-1); int_bits (-3)]]) /\
  option_map (@r_val Z) (sv_bin Z_machine cls_sse_int_4 MDivEq [map int_bits [-7; 7; 6; 10]] [map int_bits [4; 4; 4; 4]])
    = Some [[int_bits (-2); 2; 2; 2]].
Proof.
  cbv zeta. split; [vm_compute; tauto|]. split; [vm_compute; repeat split; repeat constructor|].
  split; [vm_compute; repeat split; repeat constructor|]. split; [|vm_compute; split; reflexivity].
  intros i Hi. change (c_arity cls_sse_int_4) with 4%nat in Hi.
  destruct i as [|[|[|[|i]]]]; try lia; cbn; lia.
Qed.

Example sv_sqrt_int_case :
  option_map (@r_ret Z) (sv_un Z_machine cls_scalar_int_4 MSqrt [[0]; [8]; [2147395599]; [2147483647]])
    = Some (RVec [[0]; [2]; [46339]; [46340]]) /\
  option_map (@r_ret Z) (sv_un Z_machine cls_sse_int_4 MSqrt [[0; 6; 7; 4194303]]) = Some (RVec [[0; 2; 3; 2048]]).
Proof. vm_compute. split; reflexivity. Qed.

Print Assumptions sv_div_int_exact.
Print Assumptions sv_div_int_portable.
Print Assumptions sv_div_assign_nearest.
Print Assumptions sv_sqrt_int_portable.
Print Assumptions sv_sqrt_int_nearest.
