(** Counting in single precision (C85): adding 1.0f to floats that are integers, in the
    standard library's SpecFloat (IEEE 754 arithmetic by integers). *)
From Coq Require Import ZArith Bool List Lia SpecFloat.
From Verif Require Import ShortVecBits FloatInt PerfPairsFloat.
Local Open Scope Z_scope.

(** Shifting zeros out is exact. *)
Lemma shr_exact : forall p a, 0 < a ->
  iter_pos shr_1 p (Build_shr_record (a * 2 ^ Zpos p) false false) = Build_shr_record a false false.
Proof.
  assert (One : forall a, 0 < a -> shr_1 (Build_shr_record (a * 2) false false) = Build_shr_record a false false).
  { intros [|q|q] H; try lia. rewrite Z.mul_comm. reflexivity. }
  induction p as [p IH|p IH|]; intros a H; cbn [iter_pos].
  - replace (a * 2 ^ Zpos p~1) with (a * 2 ^ Zpos p * 2 ^ Zpos p * 2)
      by (replace (Zpos p~1) with (Zpos p + Zpos p + 1) by lia; rewrite !Z.pow_add_r, Z.pow_1_r by lia; ring).
    assert (0 < 2 ^ Zpos p) by (apply Z.pow_pos_nonneg; lia).
    rewrite One by nia. rewrite IH by nia. apply IH, H.
  - replace (a * 2 ^ Zpos p~0) with (a * 2 ^ Zpos p * 2 ^ Zpos p)
      by (replace (Zpos p~0) with (Zpos p + Zpos p) by lia; rewrite !Z.pow_add_r by lia; ring).
    assert (0 < 2 ^ Zpos p) by (apply Z.pow_pos_nonneg; lia). rewrite IH by nia. apply IH, H.
  - rewrite Z.pow_1_r. apply One, H.
Qed.

(** An integer below 2^24 with 23 zeros behind the point. *)
Lemma round_scaled : forall c p, 0 < c < 2 ^ 24 -> Zpos p = c * 2 ^ 23 ->
  binary_round 24 128 false p (-23) = single c.
Proof.
  intros c p H Hp. destruct c as [|q|q]; try lia.
  destruct (of_int_ex 24 128 ltac:(lia) ltac:(lia) false q ltac:(lia)) as [j [Hj [Hq [Hd E]]]].
  unfold single. cbn [binary_normalize]. rewrite E. clear E.
  assert (D := digits_pos q). rewrite Hd in D.
  assert (Dp : Zpos (digits2_pos p) = 24 - j + 23).
  { change (Zdigits2 (Zpos p) = 24 - j + 23). apply digits_unique; [lia|]. rewrite Hp.
    replace (24 - j + 23 - 1) with (24 - j - 1 + 23) by lia. rewrite !Z.pow_add_r by lia. nia. }
  unfold binary_round. rewrite Dp. replace (24 - j + 23 + -23) with (24 + - j) by lia.
  rewrite fexp_normal by (unfold emin; lia).
  replace (shl_align p (-23) (- j)) with (p, -23).
  2:{ unfold shl_align. destruct (- j - -23) eqn:X; try reflexivity. lia. }
  unfold binary_round_aux, shr_fexp. change (Zdigits2 (Zpos p)) with (Zpos (digits2_pos p)). rewrite Dp.
  replace (24 - j + 23 + -23) with (24 + - j) by lia. rewrite fexp_normal by (unfold emin; lia).
  cbn [shr_record_of_loc].
  assert (S : shr (Build_shr_record (Zpos p) false false) (-23) (- j - -23) = (Build_shr_record (Zpos q * 2 ^ j) false false, - j)).
  { assert (J : 0 < 2 ^ j) by (apply Z.pow_pos_nonneg; lia).
    unfold shr. destruct (- j - -23) as [|r|r] eqn:X; [|f_equal|]; try lia.
    - rewrite Hp. assert (j = 23) by lia. subst j. f_equal. 
    - rewrite Hp. replace (Zpos q * 2 ^ 23) with (Zpos q * 2 ^ j * 2 ^ Zpos r) by (rewrite <- Z.mul_assoc, <- Z.pow_add_r by lia; replace (j + Zpos r) with 23 by lia; reflexivity).
      apply shr_exact. nia. }
  rewrite S. cbn [shr_m loc_of_shr_record round_nearest_even].
  rewrite (digits_unique (Zpos q * 2 ^ j) 24) by lia. rewrite fexp_normal by (unfold emin; lia).
  rewrite Z.sub_diag. cbn [shr shr_m].
  destruct (Zpos q * 2 ^ j) as [|r|r] eqn:X; try lia. cbn [Z.to_pos]. rewrite Zle_imp_le_bool by lia. reflexivity.
Qed.

Lemma single_one : single 1 = S754_finite false (2 ^ 23) (-23).
Proof. reflexivity. Qed.

(** Below 2^24 adding one is exact, from there on it does nothing. *)
Lemma add_one : forall k, 0 <= k < 2 ^ 24 -> SFadd 24 128 (single k) (single 1) = single (k + 1).
Proof.
  intros k H. destruct (Z.eq_dec k 0) as [->|N0]; [reflexivity|].
  destruct (Z.eq_dec k (2 ^ 24 - 1)) as [->|N1]; [vm_compute; reflexivity|].
  destruct k as [|q|q]; try lia.
  destruct (of_int_ex 24 128 ltac:(lia) ltac:(lia) false q ltac:(lia)) as [j [Hj [Hq [_ E]]]].
  rewrite single_one. unfold single at 1. cbn [binary_normalize]. rewrite E.
  cbn [SFadd cond_Zopp]. rewrite Z.min_r by lia.
  replace (fst (shl_align (2 ^ 23) (-23) (-23))) with (2 ^ 23)%positive by reflexivity.
  assert (J : 0 < 2 ^ j) by (apply Z.pow_pos_nonneg; lia).
  assert (A : Zpos (fst (shl_align (Z.to_pos (Zpos q * 2 ^ j)) (- j) (-23))) = Zpos q * 2 ^ 23).
  { unfold shl_align. destruct (-23 - - j) as [|r|r] eqn:X; [| lia |]; cbn [fst].
    - rewrite Z2Pos.id by lia. assert (j = 23) by lia. subst j. reflexivity.
    - rewrite shift_pos_correct, Z2Pos.id by lia. rewrite Z.pow_pos_fold.
      replace (2 ^ 23) with (2 ^ Zpos r * 2 ^ j) by (rewrite <- Z.pow_add_r by lia; f_equal; lia). ring. }
  rewrite A. change (Zpos (2 ^ 23)) with (2 ^ 23).
  destruct (Zpos q * 2 ^ 23 + 2 ^ 23) as [|r|r] eqn:X; try lia. cbn [binary_normalize].
  apply round_scaled; lia.
Qed.

Lemma add_one_full : SFadd 24 128 (single (2 ^ 24)) (single 1) = single (2 ^ 24).
Proof. vm_compute. reflexivity. Qed.

Lemma add_zero : forall k, 0 <= k -> SFadd 24 128 (single k) (single 0) = single k.
Proof.
  intros k H. change (single 0) with (S754_zero false). unfold single. destruct k as [|q|q]; try lia; [reflexivity|].
  cbn [binary_normalize]. unfold binary_round. destruct (shl_align q 0 _) as [mz ez].
  unfold binary_round_aux. destruct (shr_fexp 24 128 (Zpos mz) ez loc_Exact) as [r e].
  destruct (shr_fexp 24 128 _ e loc_Exact) as [r' e'].
  destruct (shr_m r') as [|m|m]; [reflexivity| |reflexivity]. destruct (e' <=? 128 - 24); reflexivity.
Qed.

(** Conversion to int. *)
Lemma single_to_int : forall k, 0 <= k <= 2 ^ 24 -> float_to_int trunc_abs (single k) = to_int k.
Proof.
  intros k H. destruct (Z.eq_dec k (2 ^ 24)) as [->|N1]; [vm_compute; reflexivity|].
  destruct k as [|q|q]; try lia; [vm_compute; reflexivity|].
  destruct (of_int_ex 24 128 ltac:(lia) ltac:(lia) false q ltac:(lia)) as [j [Hj [Hq [_ E]]]].
  unfold single. cbn [binary_normalize]. rewrite E. cbn [float_to_int]. f_equal.
  assert (J : 0 < 2 ^ j) by (apply Z.pow_pos_nonneg; lia). rewrite Z2Pos.id by lia. unfold trunc_abs.
  destruct (Z.leb_spec 0 (- j)).
  - replace (- j) with 0 by lia. replace j with 0 by lia. cbn. lia.
  - rewrite Z.opp_involutive. apply Z.div_mul. lia.
Qed.
