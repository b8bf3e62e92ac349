(** Lemmas about the standard library's SpecFloat (IEEE 754 arithmetic by
    integers) for C60: division and square roots of floats that are integers.
    Everything is stated by inequalities between integers, so that no real
    numbers are needed. *)
From Coq Require Import ZArith Bool List Lia SpecFloat.
From Verif Require Import ShortVecLang ShortVecClass SpecShortVec ShortVecBits.
Import ListNotations.
Local Open Scope Z_scope.

(** ** Digits *)

Lemma digits_pos : forall p, 2 ^ (Zpos (digits2_pos p) - 1) <= Zpos p < 2 ^ Zpos (digits2_pos p).
Proof.
  induction p as [p H|p H|]; [| |cbn; lia];
    cbn [digits2_pos]; rewrite Pos2Z.inj_succ;
    replace (Z.succ (Z.pos (digits2_pos p)) - 1) with (Z.succ (Z.pos (digits2_pos p) - 1)) by lia;
    rewrite !Z.pow_succ_r by lia; lia.
Qed.

Lemma digits_unique : forall m d, 0 < d -> 2 ^ (d - 1) <= m < 2 ^ d -> Zdigits2 m = d.
Proof.
  intros m d D H. assert (0 < 2 ^ (d - 1)) by (apply Z.pow_pos_nonneg; lia).
  destruct m as [|p|p]; try lia. cbn [Zdigits2]. assert (A := digits_pos p).
  assert (Zpos (digits2_pos p) - 1 < d) by (apply (Z.pow_lt_mono_r_iff 2); lia).
  assert (d - 1 < Zpos (digits2_pos p)) by (apply (Z.pow_lt_mono_r_iff 2); lia). lia.
Qed.

(** ** Rounding *)

(** [l] tells where X / D lies above the integer m. *)
Definition located (m : Z) (l : location) (X D : Z) : Prop :=
  0 < D /\ m * D <= X < (m + 1) * D /\
  match l with
  | loc_Exact => X = m * D
  | loc_Inexact c => m * D < X /\ (2 * (X - m * D) ?= D) = c
  end.

(** N is the integer nearest to X / D; of two the even one. *)
Definition nearest (N X D : Z) : Prop :=
  2 * Z.abs (N * D - X) <= D /\ (2 * Z.abs (N * D - X) = D -> Z.even N = true).

Lemma nearest_of_loc : forall m l X D, located m l X D -> nearest (round_nearest_even m l) X D.
Proof.
  intros m l X D [HD [H1 H2]]. unfold nearest, round_nearest_even.
  destruct l as [|[]].
  - subst X. split; [lia|]. intros. lia.
  - destruct H2 as [H2 H3]. apply Z.compare_eq in H3. destruct (Z.even m) eqn:E.
    + split; [lia|]. intros _. exact E.
    + split; [lia|]. intros _. rewrite Z.even_add, E. reflexivity.
  - destruct H2 as [H2 H3]. rewrite Z.compare_lt_iff in H3. split; lia.
  - destruct H2 as [H2 H3]. rewrite Z.compare_gt_iff in H3. split; lia.
Qed.

Lemma round_between : forall m l, m <= round_nearest_even m l <= m + 1.
Proof. intros m [|[]]; cbn [round_nearest_even]; try destruct (Z.even m); lia. Qed.

Lemma loc_record : forall m l, loc_of_shr_record (shr_record_of_loc m l) = l.
Proof. intros m [|[]]; reflexivity. Qed.
Lemma m_record : forall m l, shr_m (shr_record_of_loc m l) = m.
Proof. intros m [|[]]; reflexivity. Qed.

(** A shift by one keeps the place. *)
Lemma shift_one : forall m l X D, 0 < m -> located m l X D ->
  let r := shr_1 (shr_record_of_loc m l) in
  shr_m r = m / 2 /\ located (shr_m r) (loc_of_shr_record r) X (2 * D).
Proof.
  intros m l X D Hm [HD [H1 H2]] r.
  assert (C : forall a b, (a ?= b) = Lt <-> a < b) by (intros; apply Z.compare_lt_iff).
  assert (G : forall a b, (a ?= b) = Gt <-> b < a) by (intros; apply Z.compare_gt_iff).
  assert (Q : shr_m r = m / 2).
  { subst r. destruct m as [|p|p]; try lia. destruct p as [p|p|], l as [|[]]; cbn [shr_record_of_loc shr_1 shr_m orb];
      try reflexivity; first [apply (Z.div_unique_pos _ _ _ 1); lia|apply (Z.div_unique_pos _ _ _ 0); lia]. }
  split; [exact Q|].
  assert (E := Z.div_mod m 2 ltac:(lia)). assert (Z.odd m = true -> m mod 2 = 1) as O1.
  { intros o. rewrite Zmod_odd, o. reflexivity. }
  assert (Z.odd m = false -> m mod 2 = 0) as O0.
  { intros o. rewrite Zmod_odd, o. reflexivity. }
  unfold located. rewrite Q. set (h := m / 2) in *.
  assert (B := Z.mod_pos_bound m 2 ltac:(lia)).
  assert (K : loc_of_shr_record r = if Z.odd m then match l with loc_Exact => loc_Inexact Eq | _ => loc_Inexact Gt end
                                   else match l with loc_Exact => loc_Exact | _ => loc_Inexact Lt end).
  { subst r. destruct m as [|p|p]; try lia. destruct p as [p|p|], l as [|[]]; reflexivity. }
  rewrite K. split; [lia|].
  destruct (Z.odd m) eqn:o; [specialize (O1 eq_refl)|specialize (O0 eq_refl)];
    (split; [nia|]); destruct l as [|c].
  - split; [nia|]. apply Z.compare_eq_iff. nia.
  - destruct H2 as [H2 H3]. split; [nia|]. apply G. nia.
  - nia.
  - destruct H2 as [H2 H3]. split; [nia|]. apply C. nia.
Qed.

Section Format.
Context (prec emax : Z) (Hp : 2 <= prec) (He : prec < emax).

Lemma fexp_normal : forall e, emin prec emax <= e -> fexp prec emax (prec + e) = e.
Proof. intros e H. unfold fexp. unfold emin in *. lia. Qed.

(** A result with prec digits or one more. *)
Lemma round_aux_ok : forall s m e l X D n, located m l X D ->
  n = 0 \/ n = 1 -> 2 ^ (prec + n - 1) <= m < 2 ^ (prec + n) ->
  emin prec emax <= e -> e + n + 1 <= emax - prec ->
  exists N, nearest N X (2 ^ n * D) /\ 2 ^ (prec - 1) <= N <= 2 ^ prec /\
    binary_round_aux prec emax s m e l =
      if N =? 2 ^ prec then S754_finite s (Z.to_pos (2 ^ (prec - 1))) (e + n + 1)
      else S754_finite s (Z.to_pos N) (e + n).
Proof.
  intros s m e l X D n L Hn Hm Hlo Hhi.
  assert (Pp : 2 ^ prec = 2 * 2 ^ (prec - 1)).
  { rewrite <- Z.pow_succ_r by lia. f_equal. lia. }
  assert (P0 : 0 < 2 ^ (prec - 1)) by (apply Z.pow_pos_nonneg; lia).
  assert (P2 : 2 <= 2 ^ (prec - 1)).
  { change 2 with (2 ^ 1) at 1. apply Z.pow_le_mono_r; lia. }
  assert (Dm : Zdigits2 m = prec + n) by (apply digits_unique; lia).
  (* the first shift *)
  assert (F : exists r, shr_fexp prec emax m e l = (r, e + n) /\
            located (shr_m r) (loc_of_shr_record r) X (2 ^ n * D) /\ 2 ^ (prec - 1) <= shr_m r < 2 ^ prec).
  { unfold shr_fexp. rewrite Dm. replace (prec + n + e) with (prec + (e + n)) by lia.
    rewrite fexp_normal by lia. replace (e + n - e) with n by lia.
    destruct Hn as [-> | ->].
    - cbn [shr]. exists (shr_record_of_loc m l). rewrite Z.add_0_r, loc_record, m_record, Z.pow_0_r, Z.mul_1_l.
      split; [reflexivity|]. split; [exact L|]. replace (prec + 0) with prec in Hm by lia. exact Hm.
    - cbn [shr iter_pos]. replace (prec + 1 - 1) with prec in Hm by lia.
      rewrite Z.pow_add_r in Hm by lia. rewrite Z.pow_1_r in *.
      destruct (shift_one m l X D ltac:(lia) L) as [Q R].
      eexists. split; [reflexivity|]. split; [exact R|]. rewrite Q.
      split; [apply Z.div_le_lower_bound; lia|apply Z.div_lt_upper_bound; lia]. }
  destruct F as [r [F [Lr Br]]].
  set (N := round_nearest_even (shr_m r) (loc_of_shr_record r)).
  exists N. split; [apply nearest_of_loc; exact Lr|].
  assert (BN := round_between (shr_m r) (loc_of_shr_record r)). fold N in BN.
  split; [lia|].
  unfold binary_round_aux. rewrite F. fold N. unfold shr_fexp.
  destruct (Z.eqb_spec N (2 ^ prec)) as [EN|EN].
  - rewrite EN. rewrite (digits_unique (2 ^ prec) (prec + 1)).
    2: lia. 2:{ replace (prec + 1 - 1) with prec by lia. rewrite Z.pow_add_r by lia. rewrite Z.pow_1_r. lia. }
    replace (prec + 1 + (e + n)) with (prec + (e + n + 1)) by lia. rewrite fexp_normal by lia.
    replace (e + n + 1 - (e + n)) with 1 by lia. cbn [shr iter_pos shr_record_of_loc].
    assert (Q := shift_one (2 ^ prec) loc_Exact (2 ^ prec) 1 ltac:(lia) ltac:(unfold located; lia)).
    cbn [shr_record_of_loc] in Q. destruct Q as [Q _]. rewrite Q.
    replace (2 ^ prec / 2) with (2 ^ (prec - 1)) by (rewrite Pp, Z.mul_comm, Z.div_mul; lia).
    destruct (2 ^ (prec - 1)) as [|p|p] eqn:EP; try lia. cbn [Z.to_pos].
    rewrite Zle_imp_le_bool by lia. reflexivity.
  - rewrite (digits_unique N prec) by lia. rewrite fexp_normal by lia.
    rewrite Z.sub_diag. cbn [shr shr_record_of_loc shr_m].
    destruct N as [|p|p]; try lia. cbn [Z.to_pos]. rewrite Zle_imp_le_bool by lia. reflexivity.
Qed.

(** An integer of at most prec digits is converted exactly. *)
Lemma of_int : forall s p j, 0 <= j -> 2 ^ (prec - 1) <= Zpos p * 2 ^ j < 2 ^ prec ->
  binary_round prec emax s p 0 = S754_finite s (Z.to_pos (Zpos p * 2 ^ j)) (- j).
Proof.
  intros s p j Hj H.
  assert (J : 0 < 2 ^ j) by (apply Z.pow_pos_nonneg; lia).
  assert (0 < 2 ^ (prec - 1)) by (apply Z.pow_pos_nonneg; lia).
  assert (Jp : j < prec).
  { apply (Z.pow_lt_mono_r_iff 2); [lia|lia|]. nia. }
  assert (D : Zpos (digits2_pos p) = prec - j).
  { change (Zpos (digits2_pos p)) with (Zdigits2 (Zpos p)). apply digits_unique; [lia|].
    replace prec with (prec - j + j) in H at 2 by lia. replace (prec - 1) with (prec - j - 1 + j) in H by lia.
    rewrite !Z.pow_add_r in H by lia. nia. }
  unfold binary_round. rewrite D. rewrite Z.add_0_r. replace (prec - j) with (prec + - j) by lia.
  rewrite fexp_normal by (unfold emin; lia).
  assert (A : shl_align p 0 (- j) = (Z.to_pos (Zpos p * 2 ^ j), - j)).
  { unfold shl_align. rewrite Z.sub_0_r. destruct j as [|j|j]; [|cbn [Z.opp]|lia].
    - cbn [Z.opp]. rewrite Z.pow_0_r, Z.mul_1_r. reflexivity.
    - f_equal. apply Pos2Z.inj. rewrite shift_pos_correct, Z2Pos.id by lia.
      rewrite Z.pow_pos_fold. lia. }
  rewrite A.
  assert (M : Z.pos (Z.to_pos (Zpos p * 2 ^ j)) = Zpos p * 2 ^ j) by (apply Z2Pos.id; lia).
  set (m := Z.to_pos (Zpos p * 2 ^ j)) in *.
  destruct (round_aux_ok s (Zpos m) (- j) loc_Exact (Zpos m) 1 0) as [N [HN [_ E]]].
  - unfold located. lia.
  - lia.
  - rewrite Z.add_0_r. lia.
  - unfold emin. lia.
  - lia.
  - rewrite E. destruct HN as [HN _]. rewrite Z.pow_0_r in HN.
    assert (N = Zpos m) by lia. subst N. destruct (Z.eqb_spec (Zpos m) (2 ^ prec)); [lia|].
    rewrite Z.add_0_r. reflexivity.
Qed.

Lemma of_int_ex : forall s p, Zpos p < 2 ^ prec ->
  exists j, 0 <= j < prec /\ 2 ^ (prec - 1) <= Zpos p * 2 ^ j < 2 ^ prec /\ Zpos (digits2_pos p) = prec - j /\
  binary_round prec emax s p 0 = S754_finite s (Z.to_pos (Zpos p * 2 ^ j)) (- j).
Proof.
  intros s p H. assert (A := digits_pos p).
  set (d := Zpos (digits2_pos p)) in *. assert (1 <= d) by (unfold d; lia).
  assert (d - 1 < prec) by (apply (Z.pow_lt_mono_r_iff 2); lia).
  exists (prec - d). assert (P : 0 < 2 ^ (prec - d)) by (apply Z.pow_pos_nonneg; lia).
  assert (B : 2 ^ (prec - 1) <= Z.pos p * 2 ^ (prec - d) < 2 ^ prec).
  { replace (prec - 1) with (d - 1 + (prec - d)) by lia. replace prec with (d + (prec - d)) at 4 by lia.
    rewrite !Z.pow_add_r by lia. nia. }
  split; [lia|]. split; [exact B|]. split; [lia|]. apply of_int; [lia|exact B].
Qed.

(** The location of the quotient's rest. *)
Lemma new_location_ok : forall X D, 0 < D -> 0 <= X ->
  let '(q, r) := Z.div_eucl X D in located q (new_location D r) X D.
Proof.
  intros X D HD HX. assert (E := Z_div_mod X D ltac:(lia)).
  destruct (Z.div_eucl X D) as [q r]. destruct E as [E R].
  unfold located. split; [lia|]. split; [nia|].
  unfold new_location, new_location_even, new_location_odd.
  replace (X - q * D) with r by lia.
  destruct (Z.eq_dec r 0) as [Z0|Z0].
  - rewrite Z0. destruct (Z.even D); cbn [Zeq_bool Z.compare]; nia.
  - assert (B : Zeq_bool r 0 = false) by (destruct (Zeq_bool r 0) eqn:Q; [apply Zeq_bool_eq in Q; lia|reflexivity]).
    destruct (Z.even D) eqn:V; cbv beta; rewrite B.
    + split; [nia|reflexivity].
    + split; [nia|]. assert (O : Z.odd D = true) by (rewrite <- Z.negb_even, V; reflexivity).
      apply Z.odd_spec in O as [h O].
      destruct (Z.compare_spec (2 * r + 1) D); [apply Z.compare_lt_iff|apply Z.compare_lt_iff|apply Z.compare_gt_iff]; lia.
Qed.

(** ** Division *)

(** Of two floats with mantissas of prec digits. *)
Lemma div_ok : forall sx mx ex sy my ey,
  2 ^ (prec - 1) <= Zpos mx < 2 ^ prec -> 2 ^ (prec - 1) <= Zpos my < 2 ^ prec ->
  emin prec emax <= ex - ey - prec -> ex - ey + 2 <= emax - prec ->
  exists N n, (n = 0 \/ n = 1) /\ 2 ^ (prec - 1) * (2 ^ n * Zpos my) <= Zpos mx * 2 ^ prec /\
    nearest N (Zpos mx * 2 ^ prec) (2 ^ n * Zpos my) /\ 2 ^ (prec - 1) <= N <= 2 ^ prec /\
    SFdiv prec emax (S754_finite sx mx ex) (S754_finite sy my ey) =
      let e := ex - ey - prec + n in
      if N =? 2 ^ prec then S754_finite (xorb sx sy) (Z.to_pos (2 ^ (prec - 1))) (e + 1)
      else S754_finite (xorb sx sy) (Z.to_pos N) e.
Proof.
  intros sx mx ex sy my ey Hx Hy Hlo Hhi.
  assert (Pp : 2 ^ prec = 2 * 2 ^ (prec - 1)).
  { rewrite <- Z.pow_succ_r by lia. f_equal. lia. }
  assert (P0 : 0 < 2 ^ (prec - 1)) by (apply Z.pow_pos_nonneg; lia).
  unfold SFdiv, SFdiv_core_binary.
  rewrite (digits_unique (Zpos mx) prec), (digits_unique (Zpos my) prec) by lia.
  replace (prec + ex - (prec + ey)) with (prec + (ex - ey - prec)) by lia.
  rewrite fexp_normal by lia. rewrite Z.min_l by lia.
  replace (ex - ey - (ex - ey - prec)) with prec by lia.
  assert (S : match prec with Zpos _ => Z.shiftl (Zpos mx) prec | Z0 => Zpos mx | Zneg _ => Z0 end = Zpos mx * 2 ^ prec).
  { rewrite <- Z.shiftl_mul_pow2 by lia. destruct prec; [lia|reflexivity|lia]. }
  rewrite S. set (X := Zpos mx * 2 ^ prec) in *.
  assert (L := new_location_ok X (Zpos my) ltac:(lia) ltac:(unfold X; lia)).
  destruct (Z.div_eucl X (Zpos my)) as [q r]. set (l := new_location (Zpos my) r) in *. clearbody l.
  assert (Q1 : 2 ^ (prec - 1) <= q).
  { destruct L as [_ [L _]]. unfold X in L. nia. }
  assert (Q2 : q < 2 * 2 ^ prec).
  { destruct L as [_ [L _]]. unfold X in L. nia. }
  destruct (Z_lt_le_dec q (2 ^ prec)) as [C|C].
  - destruct (round_aux_ok (xorb sx sy) q (ex - ey - prec) l X (Zpos my) 0 L) as [N [HN [BN E]]]; try lia.
    { rewrite Z.add_0_r. lia. }
    exists N, 0. split; [lia|]. split; [|split; [exact HN|split; [exact BN|exact E]]].
    destruct L as [_ [L _]]. rewrite Z.pow_0_r. nia.
  - destruct (round_aux_ok (xorb sx sy) q (ex - ey - prec) l X (Zpos my) 1 L) as [N [HN [BN E]]]; try lia.
    { replace (prec + 1 - 1) with prec by lia. rewrite (Z.pow_add_r 2 prec 1), Z.pow_1_r by lia. lia. }
    exists N, 1. split; [lia|]. split; [|split; [exact HN|split; [exact BN|exact E]]].
    destruct L as [_ [L _]]. rewrite Z.pow_1_r. nia.
Qed.

(** ** Square roots *)

(** A result with prec digits, whatever the location says. *)
Lemma round_aux_any : forall s m e l, 2 ^ (prec - 1) <= m < 2 ^ prec ->
  emin prec emax <= e -> e + 1 <= emax - prec ->
  binary_round_aux prec emax s m e l =
    let N := round_nearest_even m l in
    if N =? 2 ^ prec then S754_finite s (Z.to_pos (2 ^ (prec - 1))) (e + 1) else S754_finite s (Z.to_pos N) e.
Proof.
  intros s m e l Hm Hlo Hhi.
  assert (0 < 2 ^ (prec - 1)) by (apply Z.pow_pos_nonneg; lia).
  assert (L : forall N, m <= N <= m + 1 ->
    (let '(mrs, e') := shr_fexp prec emax N e loc_Exact in
     match shr_m mrs with
     | Z0 => S754_zero s
     | Zpos m => if Zle_bool e' (emax - prec) then S754_finite s m e' else S754_infinity s
     | _ => S754_nan
     end) = if N =? 2 ^ prec then S754_finite s (Z.to_pos (2 ^ (prec - 1))) (e + 1) else S754_finite s (Z.to_pos N) e).
  { intros N BN. destruct (Z_lt_le_dec N (2 ^ prec)) as [C|C].
    - destruct (round_aux_ok s N e loc_Exact N 1 0) as [N' [HN [_ E]]]; try lia.
      { unfold located. lia. }
      { rewrite Z.add_0_r. lia. }
      destruct HN as [HN _]. rewrite Z.pow_0_r in HN. assert (N' = N) by lia. subst N'.
      rewrite Z.add_0_r in E. rewrite <- E. unfold binary_round_aux.
      assert (F : shr_fexp prec emax N e loc_Exact = ({| shr_m := N; shr_r := false; shr_s := false |}, e)).
      { unfold shr_fexp. rewrite (digits_unique N prec) by lia. rewrite fexp_normal by lia. rewrite Z.sub_diag. reflexivity. }
      rewrite F. cbn [shr_m loc_of_shr_record round_nearest_even]. rewrite F. reflexivity.
    - assert (N = 2 ^ prec) by lia. subst N.
      assert (Pp : 2 ^ prec = 2 * 2 ^ (prec - 1)).
      { rewrite <- Z.pow_succ_r by lia. f_equal. lia. }
      rewrite Z.eqb_refl. unfold shr_fexp.
      rewrite (digits_unique (2 ^ prec) (prec + 1)).
      2: lia. 2:{ replace (prec + 1 - 1) with prec by lia. rewrite Z.pow_add_r by lia. rewrite Z.pow_1_r. lia. }
      replace (prec + 1 + e) with (prec + (e + 1)) by lia. rewrite fexp_normal by lia.
      replace (e + 1 - e) with 1 by lia. cbn [shr iter_pos shr_record_of_loc].
      assert (Q := shift_one (2 ^ prec) loc_Exact (2 ^ prec) 1 ltac:(lia) ltac:(unfold located; lia)).
      cbn [shr_record_of_loc] in Q. destruct Q as [Q _]. rewrite Q.
      replace (2 ^ prec / 2) with (2 ^ (prec - 1)) by (rewrite Pp, Z.mul_comm, Z.div_mul; lia).
      destruct (2 ^ (prec - 1)) as [|p|p] eqn:EP; try lia. cbn [Z.to_pos].
      rewrite Zle_imp_le_bool by lia. reflexivity. }
  unfold binary_round_aux.
  assert (F : shr_fexp prec emax m e l = (shr_record_of_loc m l, e)).
  { unfold shr_fexp. rewrite (digits_unique m prec) by lia. rewrite fexp_normal by lia. rewrite Z.sub_diag. reflexivity. }
  rewrite F, m_record, loc_record. cbn zeta. apply L. apply round_between.
Qed.

(** N is the integer nearest to the square root of m (there are no ties). *)
Lemma sqrt_ok : forall m e, 2 ^ (prec - 1) <= Zpos m < 2 ^ prec ->
  1 - prec <= e <= 0 -> 2 * prec < emax ->
  exists N t M, 0 <= t /\ t = prec - (prec + e + 1) / 2 /\ M = Zpos m * 2 ^ (2 * t + e) /\ 0 <= 2 * t + e /\
    N * N - N < M <= N * N + N /\ 2 ^ (prec - 1) <= N <= 2 ^ prec /\
    SFsqrt prec emax (S754_finite false m e) =
      if N =? 2 ^ prec then S754_finite false (Z.to_pos (2 ^ (prec - 1))) (- t + 1)
      else S754_finite false (Z.to_pos N) (- t).
Proof.
  intros m e Hm Hle Hbig.
  assert (Pp : 2 ^ prec = 2 * 2 ^ (prec - 1)).
  { rewrite <- Z.pow_succ_r by lia. f_equal. lia. }
  assert (P0 : 0 < 2 ^ (prec - 1)) by (apply Z.pow_pos_nonneg; lia).
  unfold SFsqrt, SFsqrt_core_binary. rewrite (digits_unique (Zpos m) prec) by lia.
  rewrite !Z.div2_div. set (h := (prec + e + 1) / 2) in *.
  assert (Hh : 2 * h <= prec + e + 1 <= 2 * h + 1).
  { unfold h. assert (A := Z.div_mod (prec + e + 1) 2 ltac:(lia)). assert (B := Z.mod_pos_bound (prec + e + 1) 2 ltac:(lia)). lia. }
  replace (fexp prec emax h) with (h - prec) by (unfold fexp, emin; lia).
  assert (E2 := Z.div_mod e 2 ltac:(lia)). assert (B2 := Z.mod_pos_bound e 2 ltac:(lia)).
  rewrite Z.min_l by lia. set (t := prec - h). replace (h - prec) with (- t) by (unfold t; lia).
  replace (e - 2 * - t) with (2 * t + e) by lia. set (s := 2 * t + e).
  assert (Hs : s = prec - 1 \/ s = prec) by (unfold s, t; lia).
  assert (S : match s with Zpos _ => Z.shiftl (Zpos m) s | Z0 => Zpos m | Zneg _ => Z0 end = Zpos m * 2 ^ s).
  { rewrite <- Z.shiftl_mul_pow2 by lia. destruct s; [reflexivity|reflexivity|lia]. }
  rewrite S. set (M := Zpos m * 2 ^ s).
  assert (MB : 2 ^ (prec - 1) * 2 ^ (prec - 1) <= M < 2 ^ prec * 2 ^ prec).
  { unfold M. destruct Hs as [-> | ->]; nia. }
  assert (R := Z.sqrtrem_spec M ltac:(lia)). destruct (Z.sqrtrem M) as [q r]. destruct R as [R1 R2].
  assert (2 ^ (prec - 1) <= q < 2 ^ prec) by nia.
  set (l := if Zeq_bool r 0 then loc_Exact else loc_Inexact (if Zle_bool r q then Lt else Gt)).
  assert (T : - t >= 1 - prec) by (unfold t; lia).
  rewrite round_aux_any by (unfold emin; lia). cbn zeta.
  exists (round_nearest_even q l), t, M. split; [unfold t; lia|]. split; [reflexivity|]. split; [reflexivity|].
  split; [lia|]. split; [|split; [|reflexivity]].
  2:{ assert (B := round_between q l). lia. }
  unfold l. destruct (Zeq_bool r 0) eqn:Z0.
  - apply Zeq_bool_eq in Z0. cbn [round_nearest_even]. nia.
  - apply Zeq_bool_neq in Z0. assert (C := Zle_cases r q). destruct (Zle_bool r q); cbn [round_nearest_even]; nia.
Qed.
End Format.

(** ** Bit patterns *)

Lemma decode_encode : forall f s m e, 0 < f_mw f -> 0 < f_ew f ->
  2 ^ f_mw f <= Zpos m < 2 ^ (f_mw f + 1) -> f_emin f <= e -> e - f_emin f + 1 < 2 ^ f_ew f - 1 ->
  decode f (encode f (S754_finite s m e)) = S754_finite s m e.
Proof.
  intros f s m e Hw He Hm Hlo Hhi. unfold encode, decode.
  destruct (Z.ltb_spec (Zpos m) (2 ^ f_mw f)); [lia|].
  rewrite Z.pow_add_r, Z.pow_1_r in Hm by lia. rewrite (Z.pow_add_r 2 (f_mw f) (f_ew f)) by lia.
  set (W := 2 ^ f_mw f) in *. set (V := 2 ^ f_ew f) in *. set (c := e - f_emin f + 1) in *.
  assert (0 < W) by (apply Z.pow_pos_nonneg; lia).
  set (b := (if s then W * V else 0) + c * W + (Zpos m - W)).
  assert (B : b = (c + (if s then 1 else 0) * V) * W + (Zpos m - W)) by (unfold b; destruct s; lia).
  assert (Q : b / W = c + (if s then 1 else 0) * V).
  { rewrite B, Z.div_add_l, Z.div_small by lia. lia. }
  assert (R : b mod W = Zpos m - W).
  { rewrite B, Z.add_comm, Z.mod_add, Z.mod_small by lia. reflexivity. }
  assert (T : Z.testbit b (f_mw f + f_ew f) = s).
  { apply eq_true_iff_eq. rewrite Z.testbit_true by lia. rewrite Z.pow_add_r by lia. fold W V.
    rewrite <- Z.div_div by lia. rewrite Q. rewrite Z.div_add by lia. rewrite Z.div_small by lia.
    destruct s; cbn; split; intros; try reflexivity; discriminate. }
  rewrite T, Q, R. rewrite Z.mod_add, Z.mod_small by lia.
  destruct (Z.eqb_spec c (V - 1)); [lia|]. destruct (Z.eqb_spec c 0); [lia|].
  replace (Zpos m - W + W) with (Zpos m) by lia. f_equal. unfold c. lia.
Qed.

Lemma decode_zero : forall s, decode f32 (encode f32 (S754_zero s)) = S754_zero s /\
  decode f64 (encode f64 (S754_zero s)) = S754_zero s.
Proof. intros []; split; vm_compute; reflexivity. Qed.

(** ** Rounding to integers *)

Lemma trunc_half : forall m e, 0 < m -> trunc_abs m (e + 1) = trunc_abs (2 * m) e.
Proof.
  intros m e H. unfold trunc_abs. destruct (Z.leb_spec 0 e).
  - destruct (Z.leb_spec 0 (e + 1)); [|lia]. rewrite Z.pow_add_r by lia. lia.
  - destruct (Z.leb_spec 0 (e + 1)).
    + replace e with (- 1) by lia. cbn [Z.add Z.pos_sub Z.opp]. rewrite (Z.mul_comm 2 m), Z.div_mul by lia. lia.
    + replace (- e) with (1 + - (e + 1)) by lia. rewrite (Z.pow_add_r 2 1) by lia. rewrite Z.pow_1_r.
      assert (0 < 2 ^ (- (e + 1))) by (apply Z.pow_pos_nonneg; lia). rewrite Z.div_mul_cancel_l by lia. reflexivity.
Qed.

(** near_abs m e is the integer nearest to m * 2^e. *)
Lemma near_abs_nearest : forall m t, 0 <= t -> nearest (near_abs m (- t)) m (2 ^ t).
Proof.
  intros m t Ht. unfold near_abs. destruct (Z.leb_spec 0 (- t)).
  - assert (t = 0) by lia. subst t. cbn. unfold nearest. split; lia.
  - rewrite Z.opp_involutive. set (W := 2 ^ t). assert (0 < W) by (apply Z.pow_pos_nonneg; lia).
    assert (D := Z.div_mod m W ltac:(lia)). assert (B := Z.mod_pos_bound m W ltac:(lia)).
    set (q := m / W) in *. set (r := m mod W) in *. unfold nearest.
    destruct (Z.compare_spec (2 * r) W); [destruct (Z.even q) eqn:V| |].
    + split; [nia|]. intros _. exact V.
    + split; [nia|]. intros _. rewrite Z.even_add, V. reflexivity.
    + split; nia.
    + split; nia.
Qed.

Lemma nearest_unique : forall N N' X D, 0 < D -> nearest N X D -> nearest N' X D -> N = N'.
Proof.
  intros N N' X D HD [A1 A2] [B1 B2].
  destruct (Z.eq_dec N N') as [E|E]; [exact E|exfalso].
  assert (V : forall k, Z.even k = true -> exists h, k = 2 * h) by (intros k; apply Z.even_spec).
  assert (2 * Z.abs (N * D - X) = D) by nia. assert (2 * Z.abs (N' * D - X) = D) by nia.
  destruct (V _ (A2 H)) as [h ->]. destruct (V _ (B2 H0)) as [h' ->]. nia.
Qed.

Lemma nearest_scale : forall N X D k, 0 < k -> nearest N (k * X) (k * D) <-> nearest N X D.
Proof.
  intros N X D k Hk. unfold nearest. replace (N * (k * D) - k * X) with (k * (N * D - X)) by ring.
  rewrite Z.abs_mul, (Z.abs_eq k) by lia. split; intros [A B]; split; try nia; intros C; apply B; nia.
Qed.

Lemma near_half : forall m t, 0 < m -> 0 < t -> near_abs m (- t + 1) = near_abs (2 * m) (- t).
Proof.
  intros m t Hm Ht. assert (A := near_abs_nearest m (t - 1) ltac:(lia)). assert (B := near_abs_nearest (2 * m) t ltac:(lia)).
  replace (- (t - 1)) with (- t + 1) in A by lia.
  replace (2 ^ t) with (2 * 2 ^ (t - 1)) in B by (rewrite <- Z.pow_succ_r by lia; f_equal; lia).
  apply nearest_scale in B; [|lia]. eapply nearest_unique; [|exact A|exact B]. apply Z.pow_pos_nonneg; lia.
Qed.

(** ** Quotients of integers *)

Section Quotient.
Context (A B ja jb n N mx my : Z).
Context (HA : 0 < A) (HB : 0 < B) (Ja : 0 <= ja) (Jb : 0 <= jb) (Hn : 0 <= n)
  (Hx : 2 * mx = A * 2 ^ ja) (Hy : 2 * my = B * 2 ^ jb)
  (Hlow : 2 ^ 23 * (2 ^ n * my) <= mx * 2 ^ 24) (HN : nearest N (mx * 2 ^ 24) (2 ^ n * my)).

(** The weight of the result's last place is 2^-w. *)
Let w := ja - jb + 24 - n.

Lemma quotient_scaled : A <= 2 ^ 24 -> A < 2 ^ 24 \/ 1 < B -> 0 <= w /\ nearest N (A * 2 ^ w) B /\ 2 ^ 23 * B <= A * 2 ^ w.
Proof.
  intros H H'.
  assert (U : 2 * (2 ^ n * my) = 2 ^ (jb + n) * B) by (rewrite Z.pow_add_r by lia; nia).
  assert (V : 2 * (mx * 2 ^ 24) = A * 2 ^ (ja + 24)) by (rewrite Z.pow_add_r by lia; nia).
  assert (0 < 2 ^ (jb + n)) by (apply Z.pow_pos_nonneg; lia).
  assert (L : 2 ^ 23 * (2 ^ (jb + n) * B) <= A * 2 ^ (ja + 24)) by lia.
  assert (W : 0 <= w).
  { assert (0 < 2 ^ (ja + 24)) by (apply Z.pow_pos_nonneg; lia).
    assert (2 ^ (23 + (jb + n)) < 2 ^ (24 + (ja + 24))).
    { rewrite !(Z.pow_add_r 2 23), !(Z.pow_add_r 2 24 (ja + 24)) by lia. nia. }
    apply Z.pow_lt_mono_r_iff in H2; unfold w; lia. }
  split; [exact W|].
  assert (S : 2 ^ (ja + 24) = 2 ^ (jb + n) * 2 ^ w).
  { rewrite <- Z.pow_add_r by lia. f_equal. unfold w. lia. }
  rewrite S in *. split; [|nia].
  apply (nearest_scale _ _ _ 2) in HN; [|lia]. rewrite U, V in HN.
  replace (A * (2 ^ (jb + n) * 2 ^ w)) with (2 ^ (jb + n) * (A * 2 ^ w)) in HN by ring.
  apply nearest_scale in HN; [exact HN|lia].
Qed.

Lemma quotient_trunc : A <= 2 ^ 24 -> A < 2 ^ 24 \/ 1 < B -> 0 <= w /\ N / 2 ^ w = A / B.
Proof.
  intros H H'. destruct (quotient_scaled H H') as [W [[R _] L]]. split; [exact W|].
  set (P := 2 ^ w) in *. assert (0 < P) by (apply Z.pow_pos_nonneg; lia).
  assert (B <= 2 * P) by nia. assert (S : A < 2 ^ 24 -> B < 2 * P) by (intros; nia). assert (D := Z.div_mod A B ltac:(lia)). assert (M := Z.mod_pos_bound A B ltac:(lia)).
  set (k := A / B) in *. assert (k * P <= N) by nia. assert (N < (k + 1) * P).
  { destruct (Z_lt_le_dec N ((k + 1) * P)); [assumption|exfalso].
    assert (T : (A + 1) * P <= N * B) by nia.
    assert (B = 2 * P) by nia. assert (A = 2 ^ 24) by lia. assert (N * B = (A + 1) * P) by nia.
    assert (T2 : (2 * N) * P = (A + 1) * P) by nia. apply Z.mul_reg_r in T2; lia. }
  symmetry. apply (Z.div_unique_pos _ _ _ (N - P * k)); lia.
Qed.

Lemma quotient_near : A < 2 ^ 23 -> 0 <= w /\ nearest (near_abs N (- w)) A B.
Proof.
  intros H. assert (H24 : A < 2 ^ 24) by lia. destruct (quotient_scaled ltac:(lia) ltac:(lia)) as [W [[R1 R2] L]]. split; [exact W|].
  destruct (Z.eq_dec w 0) as [Zw|Zw].
  { rewrite Zw in *. cbn in R1, R2. rewrite Z.mul_1_r in *. unfold near_abs. cbn. rewrite Z.mul_1_r. split; assumption. }
  assert (K := near_abs_nearest N w W). set (Q := near_abs N (- w)) in *. destruct K as [K1 K2].
  assert (P2 : 2 ^ w = 2 * 2 ^ (w - 1)) by (rewrite <- Z.pow_succ_r by lia; f_equal; lia).
  set (P := 2 ^ w) in *. set (h := 2 ^ (w - 1)) in *. assert (0 < h) by (apply Z.pow_pos_nonneg; lia).
  assert (B < P) by nia.
  split.
  - destruct (Z_le_gt_dec (2 * Z.abs (Q * B - A)) B) as [C|C]; [exact C|exfalso].
    destruct (Z.abs_spec (Q * B - A)) as [[S1 S2]|[S1 S2]]; rewrite S2 in C.
    + assert (2 * (Q * B - A) * P >= (B + 1) * P) by nia. assert (2 * (Q * P - N) * B <= P * B) by nia. nia.
    + assert (2 * (A - Q * B) * P >= (B + 1) * P) by nia. assert (2 * (N - Q * P) * B <= P * B) by nia. nia.
  - intros T. apply K2.
    destruct (Z.abs_spec (Q * B - A)) as [[S1 S2]|[S1 S2]]; rewrite S2 in T.
    + assert (2 * (Q * B - A) * P = B * P) by nia.
      assert (B * (P - 1) <= B * (2 * (Q * P - N))) by nia.
      assert (P - 1 <= 2 * (Q * P - N)) by nia. lia.
    + assert (2 * (A - Q * B) * P = B * P) by nia.
      assert (B * (P - 1) <= B * (2 * (N - Q * P))) by nia.
      assert (P - 1 <= 2 * (N - Q * P)) by nia. lia.
Qed.
End Quotient.

(** ** The int classes *)

Lemma sgn32_wrap : forall z, - 2 ^ 31 <= z < 2 ^ 31 -> sgn32 (wrap32 z) = z.
Proof.
  intros z H. unfold sgn32, wrap32. destruct (Z_lt_le_dec z 0).
  - rewrite <- (Z.mod_add z 1), Z.mod_small by lia. destruct (Z.ltb_spec (z + 1 * 2 ^ 32) (2 ^ 31)); lia.
  - rewrite Z.mod_small by lia. destruct (Z.ltb_spec z (2 ^ 31)); lia.
Qed.

(** _mm_cvtepi32_ps is exact up to 2^24. *)
Lemma cvt32 : forall a, sgn32 a <> 0 -> Z.abs (sgn32 a) <= 2 ^ 24 ->
  exists m j, decode f32 (int_to_float f32 a) = S754_finite (sgn32 a <? 0) m (1 - j) /\
    2 ^ 23 <= Zpos m < 2 ^ 24 /\ 0 <= j <= 24 /\ 2 * Zpos m = Z.abs (sgn32 a) * 2 ^ j.
Proof.
  intros a H0 H. unfold int_to_float. change (f_prec f32) with 24. change (f_emax f32) with 128.
  set (v := sgn32 a) in *. clearbody v.
  assert (G : forall s p, Zpos p <= 2 ^ 24 ->
    exists m j, decode f32 (encode f32 (binary_round 24 128 s p 0)) = S754_finite s m (1 - j) /\
      2 ^ 23 <= Zpos m < 2 ^ 24 /\ 0 <= j <= 24 /\ 2 * Zpos m = Zpos p * 2 ^ j).
  { intros s p Hp. destruct (Z.eq_dec (Zpos p) (2 ^ 24)) as [E|E].
    - injection E as ->. exists 8388608%positive, 0. split; [|lia]. destruct s; vm_compute; reflexivity.
    - destruct (of_int_ex 24 128 ltac:(lia) ltac:(lia) s p ltac:(lia)) as [j [Hj [B [_ R]]]].
      rewrite R. assert (M : Zpos (Z.to_pos (Zpos p * 2 ^ j)) = Zpos p * 2 ^ j) by (apply Z2Pos.id; lia).
      rewrite decode_encode.
      + exists (Z.to_pos (Zpos p * 2 ^ j)), (j + 1). rewrite M. split; [f_equal; lia|]. split; [lia|]. split; [lia|].
        rewrite Z.pow_add_r by lia. lia.
      + reflexivity.
      + reflexivity.
      + rewrite M. change (f_mw f32) with 23. lia.
      + change (f_emin f32) with (- 149). lia.
      + change (f_emin f32) with (- 149). change (2 ^ f_ew f32) with 256. lia. }
  destruct v as [|p|p]; [lia| |]; cbn [binary_normalize].
  - apply (G false p). lia.
  - apply (G true p). lia.
Qed.

Lemma cvt32_zero : forall a, sgn32 a = 0 -> decode f32 (int_to_float f32 a) = S754_zero false.
Proof. intros a H. unfold int_to_float. rewrite H. vm_compute. reflexivity. Qed.

Lemma to_int_small : forall z, - 2 ^ 31 <= z < 2 ^ 31 -> to_int z = wrap32 z.
Proof.
  intros z H. unfold to_int. destruct (Z.leb_spec (- 2 ^ 31) z); [|lia].
  destruct (Z.ltb_spec z (2 ^ 31)); [|lia]. reflexivity.
Qed.

Lemma quot_abs : forall x y, y <> 0 ->
  Z.quot x y = if xorb (x <? 0) (y <? 0) then - (Z.abs x / Z.abs y) else Z.abs x / Z.abs y.
Proof.
  intros x y H. destruct (Z.ltb_spec x 0), (Z.ltb_spec y 0); cbn [xorb];
    rewrite ?(Z.abs_eq x), ?(Z.abs_neq x), ?(Z.abs_eq y), ?(Z.abs_neq y) by lia;
    rewrite <- Z.quot_div_nonneg by lia.
  - rewrite Z.quot_opp_opp by lia. reflexivity.
  - rewrite Z.quot_opp_l by lia. lia.
  - rewrite Z.quot_opp_r by lia. lia.
  - reflexivity.
Qed.

(** The quotient of two converted ints. *)
Lemma div32_shape : forall a b, let x := sgn32 a in let y := sgn32 b in
  x <> 0 -> y <> 0 -> Z.abs x <= 2 ^ 24 -> Z.abs y <= 2 ^ 24 ->
  exists N ja jb n mx my, 0 <= ja /\ 0 <= jb /\ (n = 0 \/ n = 1) /\
    2 * mx = Z.abs x * 2 ^ ja /\ 2 * my = Z.abs y * 2 ^ jb /\
    2 ^ 23 * (2 ^ n * my) <= mx * 2 ^ 24 /\ nearest N (mx * 2 ^ 24) (2 ^ n * my) /\ 2 ^ 23 <= N <= 2 ^ 24 /\
    decode f32 (z_bin (fun a _ => a) (BDiv KF32) (int_to_float f32 a) (int_to_float f32 b)) =
      let w := ja - jb + 24 - n in
      if N =? 2 ^ 24 then S754_finite (xorb (x <? 0) (y <? 0)) (Z.to_pos (2 ^ 23)) (- w + 1)
      else S754_finite (xorb (x <? 0) (y <? 0)) (Z.to_pos N) (- w).
Proof.
  intros a b x y Hx0 Hy0 Hx Hy.
  destruct (cvt32 a Hx0 ltac:(fold x; lia)) as [mx [ja [Da [Bx [Ja Ex]]]]].
  destruct (cvt32 b Hy0 Hy) as [my [jb [Db [By [Jb Ey]]]]]. fold x in Da, Ex. fold y in Db, Ey.
  destruct (div_ok 24 128 ltac:(lia) ltac:(lia) (x <? 0) mx (1 - ja) (y <? 0) my (1 - jb) Bx By) as [N [n [Hn [L [HN [BN E]]]]]].
  { unfold emin. lia. } { lia. }
  exists N, ja, jb, n, (Zpos mx), (Zpos my).
  do 8 (split; [first [assumption|lia]|]).
  cbn [z_bin arith_k]. unfold f_op2. change (kfmt KF32) with f32. rewrite Da, Db.
  change (f_prec f32) with 24. change (f_emax f32) with 128. rewrite E. cbn zeta.
  replace (1 - ja - (1 - jb) - 24 + n) with (- (ja - jb + 24 - n)) by lia.
  destruct (Z.eqb_spec N (2 ^ 24)).
  - apply decode_encode; try reflexivity.
    + change (f_mw f32) with 23. change (Z.pos (Z.to_pos (2 ^ 23))) with (2 ^ 23). lia.
    + change (f_emin f32) with (- 149). lia.
    + change (f_emin f32) with (- 149). change (2 ^ f_ew f32) with 256. lia.
  - apply decode_encode; try reflexivity.
    + rewrite Z2Pos.id by lia. change (f_mw f32) with 23. lia.
    + change (f_emin f32) with (- 149). lia.
    + change (f_emin f32) with (- 149). change (2 ^ f_ew f32) with 256. lia.
Qed.

(** Division by way of float and truncation. *)
Lemma div32_trunc : forall a b, sgn32 b <> 0 -> Z.abs (sgn32 a) <= 2 ^ 24 -> Z.abs (sgn32 b) <= 2 ^ 24 ->
  float_to_int trunc_abs (decode f32 (z_bin (fun a _ => a) (BDiv KF32) (int_to_float f32 a) (int_to_float f32 b)))
  = wrap32 (Z.quot (sgn32 a) (sgn32 b)).
Proof.
  intros a b Hy0 Hx Hy. destruct (Z.eq_dec (sgn32 a) 0) as [Z0|Hx0].
  { rewrite Z0, Z.quot_0_l by lia. cbn [z_bin arith_k]. unfold f_op2. change (kfmt KF32) with f32.
    rewrite (cvt32_zero a Z0). destruct (cvt32 b Hy0 Hy) as [my [jb [-> _]]]. cbn [SFdiv].
    rewrite (proj1 (decode_zero _)). reflexivity. }
  assert (Big : Z.abs (sgn32 a) < 2 ^ 24 \/ 1 < Z.abs (sgn32 b) \/ (Z.abs (sgn32 a) = 2 ^ 24 /\ Z.abs (sgn32 b) = 1)) by lia.
  assert (Big' : Z.abs (sgn32 a) = 2 ^ 24 /\ Z.abs (sgn32 b) = 1 \/ (Z.abs (sgn32 a) < 2 ^ 24 \/ 1 < Z.abs (sgn32 b))) by tauto.
  clear Big. destruct Big' as [[Ba Bb]|Big].
  { unfold int_to_float. assert (Ca : sgn32 a = 2 ^ 24 \/ sgn32 a = - 2 ^ 24) by lia. assert (Cb : sgn32 b = 1 \/ sgn32 b = - 1) by lia.
    destruct Ca as [-> | ->], Cb as [-> | ->]; vm_compute; reflexivity. }
  destruct (div32_shape a b Hx0 Hy0 Hx Hy) as [N [ja [jb [n [mx [my [Ja [Jb [Hn [Ex [Ey [L [HN [BN E]]]]]]]]]]]]]].
  rewrite E. cbn zeta. set (x := sgn32 a) in *. set (y := sgn32 b) in *.
  destruct (quotient_trunc (Z.abs x) (Z.abs y) ja jb n N mx my) as [W Q]; try lia; try assumption.
  rewrite quot_abs by lia. set (w := ja - jb + 24 - n) in *.
  assert (T : forall m e, (m = Z.to_pos N /\ e = - w) \/ (N = 2 ^ 24 /\ m = Z.to_pos (2 ^ 23) /\ e = - w + 1) ->
            trunc_abs (Zpos m) e = Z.abs x / Z.abs y).
  { intros m e [[-> ->]|[EN [-> ->]]].
    - rewrite Z2Pos.id by lia. rewrite <- Q. unfold trunc_abs. destruct (Z.leb_spec 0 (- w)).
      + replace w with 0 by lia. cbn. rewrite Z.div_1_r. lia.
      + rewrite Z.opp_involutive. reflexivity.
    - rewrite trunc_half by lia. change (2 * Z.pos (Z.to_pos (2 ^ 23))) with (2 ^ 24). rewrite <- EN, <- Q.
      unfold trunc_abs. destruct (Z.leb_spec 0 (- w)).
      + replace w with 0 by lia. cbn. rewrite Z.div_1_r. lia.
      + rewrite Z.opp_involutive. reflexivity. }
  assert (B : 0 <= Z.abs x / Z.abs y <= Z.abs x).
  { split; [apply Z.div_pos; lia|]. apply Z.div_le_upper_bound; nia. }
  destruct (Z.eqb_spec N (2 ^ 24)) as [EN|EN]; unfold float_to_int; rewrite T by auto;
    rewrite to_int_small; try reflexivity; destruct (xorb _ _); lia.
Qed.

(** ... and with rounding to nearest. *)
Lemma div32_near : forall a b, sgn32 b <> 0 -> Z.abs (sgn32 a) < 2 ^ 23 -> Z.abs (sgn32 b) <= 2 ^ 24 ->
  exists k, float_to_int near_abs (decode f32 (z_bin (fun a _ => a) (BDiv KF32) (int_to_float f32 a) (int_to_float f32 b)))
  = wrap32 k /\ nearest (Z.sgn (sgn32 b) * k) (sgn32 a) (Z.abs (sgn32 b)).
Proof.
  intros a b Hy0 Hx Hy. destruct (Z.eq_dec (sgn32 a) 0) as [Z0|Hx0].
  { exists 0. cbn [z_bin arith_k]. unfold f_op2. change (kfmt KF32) with f32.
    rewrite (cvt32_zero a Z0), Z0. destruct (cvt32 b Hy0 Hy) as [my [jb [-> _]]]. cbn [SFdiv].
    rewrite (proj1 (decode_zero _)). split; [reflexivity|]. unfold nearest. rewrite Z.mul_0_r. split; lia. }
  destruct (div32_shape a b Hx0 Hy0 ltac:(lia) Hy) as [N [ja [jb [n [mx [my [Ja [Jb [Hn [Ex [Ey [L [HN [BN E]]]]]]]]]]]]]].
  rewrite E. cbn zeta. set (x := sgn32 a) in *. set (y := sgn32 b) in *.
  destruct (quotient_near (Z.abs x) (Z.abs y) ja jb n N mx my) as [W Q]; try lia; try assumption.
  destruct (quotient_scaled (Z.abs x) (Z.abs y) ja jb n N mx my) as [_ [_ Lw]]; try lia; try assumption.
  set (w := ja - jb + 24 - n) in *.
  assert (W0 : 0 < w).
  { destruct (Z.eq_dec w 0) as [E0|E0]; [|lia]. rewrite E0 in Lw. rewrite Z.pow_0_r in Lw. lia. }
  set (k := near_abs N (- w)) in *.
  assert (T : forall m e, (m = Z.to_pos N /\ e = - w) \/ (N = 2 ^ 24 /\ m = Z.to_pos (2 ^ 23) /\ e = - w + 1) ->
            near_abs (Zpos m) e = k).
  { intros m e [[-> ->]|[EN [-> ->]]].
    - rewrite Z2Pos.id by lia. reflexivity.
    - rewrite near_half by lia. change (2 * Z.pos (Z.to_pos (2 ^ 23))) with (2 ^ 24). rewrite <- EN. reflexivity. }
  assert (B : 0 <= k <= Z.abs x) by (destruct Q as [Q _]; split; nia).
  exists (if xorb (x <? 0) (y <? 0) then - k else k). split.
  - destruct (Z.eqb_spec N (2 ^ 24)) as [EN|EN]; unfold float_to_int; rewrite T by auto;
      rewrite to_int_small; try reflexivity; destruct (xorb _ _); lia.
  - assert (S : nearest (- k) (- Z.abs x) (Z.abs y)).
    { destruct Q as [Q1 Q2]. unfold nearest. replace (- k * Z.abs y - - Z.abs x) with (- (k * Z.abs y - Z.abs x)) by ring.
      rewrite Z.abs_opp, Z.even_opp. split; assumption. }
    destruct (Z.ltb_spec x 0), (Z.ltb_spec y 0); cbn [xorb];
      rewrite ?(Z.sgn_pos y), ?(Z.sgn_neg y) by lia;
      [replace (-1 * k) with (- k) by lia|replace (1 * - k) with (- k) by lia
      |replace (-1 * - k) with k by lia|replace (1 * k) with k by lia].
    + replace x with (- Z.abs x) at 1 by lia. exact S.
    + replace x with (- Z.abs x) at 1 by lia. exact S.
    + replace x with (Z.abs x) at 1 by lia. exact Q.
    + replace x with (Z.abs x) at 1 by lia. exact Q.
Qed.

(** ** Square roots of ints *)

Section Root.
Context (n N W : Z) (Hn : 0 < n) (HW : 4 <= W) (HN : N * N - N < n * (W * W) <= N * N + N) (H0 : 0 < N).

Lemma root_trunc : Z.sqrt n < W -> N / W = Z.sqrt n.
Proof.
  intros H. assert (S := Z.sqrt_spec n ltac:(lia)). assert (S0 := Z.sqrt_nonneg n). set (k := Z.sqrt n) in *.
  unfold Z.succ in S. assert (1 <= k) by (destruct (Z.eq_dec k 0) as [E|E]; [rewrite E in S; lia|lia]).
  assert (L : k * W <= N).
  { destruct (Z_le_gt_dec (k * W) N); [assumption|exfalso].
    assert (N * N + N <= (k * W - 1) * (k * W)) by nia.
    assert (k * k * (W * W) <= n * (W * W)) by nia. nia. }
  assert (U : N < (k + 1) * W).
  { destruct (Z_lt_le_dec N ((k + 1) * W)) as [|C]; [assumption|exfalso].
    assert (((k + 1) * W) * ((k + 1) * W) - (k + 1) * W <= N * N - N) by nia.
    assert ((n + 1) * (W * W) <= (k + 1) * (k + 1) * (W * W)) by nia. nia. }
  symmetry. apply (Z.div_unique_pos _ _ _ (N - W * k)); lia.
Qed.

Lemma root_near : forall Q, nearest Q N W -> 4 * Q - 2 <= W -> Q * Q - Q < n <= Q * Q + Q.
Proof.
  intros Q [A _] H. assert (Q0 : 0 <= Q) by nia. split.
  - destruct (Z_lt_le_dec (Q * Q - Q) n) as [|C]; [assumption|exfalso].
    assert (1 <= Q) by nia. set (y := (2 * Q - 1) * W).
    assert (Y1 : y <= 2 * N) by (unfold y; nia). assert (Y2 : 1 <= y) by (unfold y; nia).
    assert (0 <= (2 * N - y) * (2 * N + y - 2)) by (apply Z.mul_nonneg_nonneg; lia).
    assert (n * (W * W) <= (Q * Q - Q) * (W * W)) by (apply Z.mul_le_mono_nonneg_r; nia).
    assert (y * y = 4 * ((Q * Q - Q) * (W * W)) + W * W) by (unfold y; ring).
    assert (W * W < 2 * y) by lia. assert ((4 * Q - 2) * W <= W * W) by (apply Z.mul_le_mono_nonneg_r; lia).
    assert (2 * y = (4 * Q - 2) * W) by (unfold y; ring). lia.
  - destruct (Z_le_gt_dec n (Q * Q + Q)) as [|C]; [assumption|exfalso]. set (y := (2 * Q + 1) * W).
    assert (Y1 : 2 * N <= y) by (unfold y; nia).
    assert (0 <= (y - 2 * N) * (y + 2 * N + 2)) by (apply Z.mul_nonneg_nonneg; lia).
    assert ((Q * Q + Q + 1) * (W * W) <= n * (W * W)) by (apply Z.mul_le_mono_nonneg_r; nia).
    assert (y * y = 4 * ((Q * Q + Q) * (W * W)) + W * W) by (unfold y; ring).
    assert (3 * (W * W) <= 2 * y) by lia. assert ((4 * Q - 2) * W <= W * W) by (apply Z.mul_le_mono_nonneg_r; lia).
    assert (2 * y = (4 * Q - 2) * W + 4 * W) by (unfold y; ring). assert (2 * (W * W) <= 4 * W) by lia.
    assert (4 * W <= W * W) by (apply Z.mul_le_mono_nonneg_r; lia). lia.
Qed.
End Root.

Lemma sqrt_lt : forall n k, 0 <= n -> 0 < k -> n < k * k -> Z.sqrt n < k.
Proof. intros n k H K L. apply Z.sqrt_lt_square; lia. Qed.

(** The portable classes: double precision and truncation. *)
Lemma sqrt64_trunc : forall a, 0 <= sgn32 a < 2 ^ 31 ->
  float_to_int trunc_abs (decode f64 (encode f64 (SFsqrt 53 1024 (decode f64 (int_to_float f64 a)))))
  = wrap32 (Z.sqrt (sgn32 a)).
Proof.
  intros a H. unfold int_to_float. change (f_prec f64) with 53. change (f_emax f64) with 1024.
  set (v := sgn32 a) in *. clearbody v. destruct v as [|p|p]; [vm_compute; reflexivity| |lia].
  cbn [binary_normalize].
  destruct (of_int_ex 53 1024 ltac:(lia) ltac:(lia) false p ltac:(lia)) as [j [Hj [B [Dg R]]]].
  rewrite R. assert (M : Zpos (Z.to_pos (Zpos p * 2 ^ j)) = Zpos p * 2 ^ j) by (apply Z2Pos.id; lia).
  set (m := Z.to_pos (Zpos p * 2 ^ j)) in *.
  assert (Hd : 53 - j <= 31).
  { assert (A := digits_pos p). rewrite Dg in A. assert (53 - j - 1 < 31) by (apply (Z.pow_lt_mono_r_iff 2); lia). lia. }
  rewrite decode_encode; try reflexivity.
  2: change (f_mw f64) with 52; lia. 2: change (f_emin f64) with (- 1074); lia.
  2: change (f_emin f64) with (- 1074); change (2 ^ f_ew f64) with 2048; lia.
  destruct (sqrt_ok 53 1024 ltac:(lia) ltac:(lia) m (- j)) as [N [t [MM [Ht [Et [EM [Hs [HN [BN E]]]]]]]]]; [lia|lia|lia|].
  rewrite E. clear E R.
  assert (T : 37 <= t <= 53).
  { rewrite Et. assert (0 <= (53 + - j + 1) / 2 <= 16); [|lia].
    split; [apply Z.div_pos; lia|apply Z.div_le_upper_bound; lia]. }
  set (W := 2 ^ t).
  assert (EW : MM = Zpos p * (W * W)).
  { rewrite EM, M. rewrite <- Z.mul_assoc, <- Z.pow_add_r by lia. unfold W. rewrite <- Z.pow_add_r by lia. f_equal. f_equal. lia. }
  rewrite EW in HN. assert (W2 : 2 ^ 37 <= W) by (apply Z.pow_le_mono_r; lia).
  assert (K := root_trunc (Zpos p) N W ltac:(lia) ltac:(lia) HN).
  assert (KS : Z.sqrt (Zpos p) < 2 ^ 16) by (apply sqrt_lt; lia).
  specialize (K ltac:(lia)). assert (KS0 := Z.sqrt_nonneg (Zpos p)).
  assert (TA : trunc_abs N (- t) = Z.sqrt (Zpos p)).
  { unfold trunc_abs. destruct (Z.leb_spec 0 (- t)); [lia|]. rewrite Z.opp_involutive. exact K. }
  destruct (Z.eqb_spec N (2 ^ 53)) as [EN|EN].
  - rewrite decode_encode; try reflexivity.
    2: change (f_mw f64) with 52; change (Z.pos (Z.to_pos (2 ^ (53 - 1)))) with (2 ^ 52); lia.
    2: change (f_emin f64) with (- 1074); lia.
    2: change (f_emin f64) with (- 1074); change (2 ^ f_ew f64) with 2048; lia.
    cbn [float_to_int]. rewrite trunc_half by lia.
    change (2 * Z.pos (Z.to_pos (2 ^ (53 - 1)))) with (2 ^ 53). rewrite <- EN, TA.
    apply to_int_small. lia.
  - rewrite decode_encode; try reflexivity.
    2: change (f_mw f64) with 52; rewrite Z2Pos.id by lia; lia.
    2: change (f_emin f64) with (- 1074); lia.
    2: change (f_emin f64) with (- 1074); change (2 ^ f_ew f64) with 2048; lia.
    cbn [float_to_int]. rewrite Z2Pos.id by lia. rewrite TA. apply to_int_small. lia.
Qed.

(** The SIMD classes: single precision and rounding to nearest. *)
Lemma sqrt32_near : forall a, 0 <= sgn32 a < 2 ^ 22 ->
  exists k, float_to_int near_abs (decode f32 (encode f32 (SFsqrt 24 128 (decode f32 (int_to_float f32 a)))))
  = wrap32 k /\ 0 <= k /\ (k = 0 \/ k * k - k < sgn32 a) /\ sgn32 a <= k * k + k.
Proof.
  intros a H. unfold int_to_float. change (f_prec f32) with 24. change (f_emax f32) with 128.
  set (v := sgn32 a) in *. clearbody v. destruct v as [|p|p]; [| |lia].
  { exists 0. split; [vm_compute; reflexivity|lia]. }
  cbn [binary_normalize].
  destruct (of_int_ex 24 128 ltac:(lia) ltac:(lia) false p ltac:(lia)) as [j [Hj [B [Dg R]]]].
  rewrite R. assert (M : Zpos (Z.to_pos (Zpos p * 2 ^ j)) = Zpos p * 2 ^ j) by (apply Z2Pos.id; lia).
  set (m := Z.to_pos (Zpos p * 2 ^ j)) in *.
  assert (Hd : 24 - j <= 22).
  { assert (A := digits_pos p). rewrite Dg in A. assert (24 - j - 1 < 22) by (apply (Z.pow_lt_mono_r_iff 2); lia). lia. }
  rewrite decode_encode; try reflexivity.
  2: change (f_mw f32) with 23; lia. 2: change (f_emin f32) with (- 149); lia.
  2: change (f_emin f32) with (- 149); change (2 ^ f_ew f32) with 256; lia.
  destruct (sqrt_ok 24 128 ltac:(lia) ltac:(lia) m (- j)) as [N [t [MM [Ht [Et [EM [Hs [HN [BN E]]]]]]]]]; [lia|lia|lia|].
  rewrite E. clear E R.
  assert (T : 13 <= t <= 24).
  { rewrite Et. assert (0 <= (24 + - j + 1) / 2 < 12); [|lia].
    split; [apply Z.div_pos; lia|apply Z.div_lt_upper_bound; lia]. }
  set (W := 2 ^ t).
  assert (EW : MM = Zpos p * (W * W)).
  { rewrite EM, M. rewrite <- Z.mul_assoc, <- Z.pow_add_r by lia. unfold W. rewrite <- Z.pow_add_r by lia. f_equal. f_equal. lia. }
  rewrite EW in HN. assert (W2 : 2 ^ 13 <= W) by (apply Z.pow_le_mono_r; lia).
  set (k := near_abs N (- t)). assert (KN := near_abs_nearest N t Ht). fold k W in KN.
  assert (K0 : 0 <= k) by (destruct KN as [KN _]; clear - KN BN W2; nia).
  assert (K1 : k <= 2048).
  { destruct (Z_le_gt_dec k 2048) as [|C]; [assumption|exfalso]. destruct KN as [KN _].
    assert (Y : 4097 * W <= 2 * N) by (clear - C KN W2; nia).
    assert (0 <= (2 * N - 4097 * W) * (2 * N + 4097 * W - 2)) by (apply Z.mul_nonneg_nonneg; lia).
    assert (Zpos p * (W * W) <= 2 ^ 22 * (W * W)) by (apply Z.mul_le_mono_nonneg_r; [apply Z.square_nonneg|lia]).
    assert (W <= W * W) by (clear - W2; nia). lia. }
  exists k. split; [|split; [exact K0|]].
  2:{ assert (R := root_near (Zpos p) N W ltac:(lia) ltac:(lia) HN ltac:(lia) k KN ltac:(lia)). lia. }
  destruct (Z.eqb_spec N (2 ^ 24)) as [EN|EN].
  - rewrite decode_encode; try reflexivity.
    2: change (f_mw f32) with 23; change (Z.pos (Z.to_pos (2 ^ (24 - 1)))) with (2 ^ 23); lia.
    2: change (f_emin f32) with (- 149); lia.
    2: change (f_emin f32) with (- 149); change (2 ^ f_ew f32) with 256; lia.
    cbn [float_to_int]. rewrite near_half by lia.
    change (2 * Z.pos (Z.to_pos (2 ^ (24 - 1)))) with (2 ^ 24). rewrite <- EN.
    apply to_int_small. fold k. lia.
  - rewrite decode_encode; try reflexivity.
    2: change (f_mw f32) with 23; rewrite Z2Pos.id by lia; lia.
    2: change (f_emin f32) with (- 149); lia.
    2: change (f_emin f32) with (- 149); change (2 ^ f_ew f32) with 256; lia.
    cbn [float_to_int]. rewrite Z2Pos.id by lia. apply to_int_small. fold k. lia.
Qed.
