(** Properties of the JacobiD3Q7 benchmarks. *)
From Coq Require Import QArith Qcanon ZArith List Bool Field_theory Lia ZifyBool ZifyNat.
From Verif Require Import Base Peeler Layout Sizes SizesProofs Sph Lbm SpecLbm LbmExact PropsLbm PerfJacobi SpecPerfJacobi PerfJacobiProofs.
Import ListNotations.
Local Open Scope Z_scope.

(** ** C81: what the species compute *)

(** Vanilla: any number of sweeps >= 1 leaves one application of the filter in
    the new grid and the old grid as it was. *)
Theorem C81_vanilla : forall (T : Type) (K : arith T) dx dy dz n old new g,
  0 <= dx -> 0 <= dy -> 0 <= dz ->
  stores_grid dx (dx * dy) dx dy dz old g -> stores_grid dx (dx * dy) dx dy dz new g ->
  exists new', again (S n) (8 * (dx * dy * dz)) (vanilla K dx dy dz) old new = Some (old, new') /\
    stores_grid dx (dx * dy) dx dy dz new' (sweep (dx - 1) dy dz (filter7 K) g).
Proof.
  intros T K dx dy dz n old new g Hx Hy Hz Ho Hn.
  apply again_sweeps; auto; try lia. apply vanilla_sweeps; lia.
Qed.

(** Pepper: another weight in the scalar cells, no centre in the vector ones. *)
Theorem C81_pepper : forall (T : Type) (K : arith T) base dx dy dz n old new g,
  3 <= dx -> 0 <= dy -> 0 <= dz -> base mod 16 = 0 -> Z.even dx = true ->
  stores_grid dx (dx * dy) dx dy dz old g -> stores_grid dx (dx * dy) dx dy dz new g ->
  exists new', again (S n) (8 * (dx * dy * dz)) (pepper K base dx dy dz) old new = Some (old, new') /\
    stores_grid dx (dx * dy) dx dy dz new' (sweep (dx - 1) dy dz (pepper_cell K dx) g).
Proof.
  intros T K base dx dy dz n old new g Hx Hy Hz Hb He Ho Hn.
  apply again_sweeps; auto; try lia. apply pepper_sweeps; auto; try lia.
  - pose proof He as He'. apply Z.even_spec in He' as [k Ek]. replace (base + 8 * (dx * dy * dz)) with (base + k * dy * dz * 16) by (rewrite Ek; ring).
    now rewrite Z.mod_add.
  - now rewrite Z.even_mul, He.
Qed.

(** Rows of odd length: the first aligned load of a block fails. *)
Theorem C81_pepper_odd : forall (T : Type) (K : arith T) base dx dy dz n old new,
  11 <= dx -> 3 <= dy -> 3 <= dz -> base mod 16 = 0 -> Z.odd dx = true ->
  again (S n) (8 * (dx * dy * dz)) (pepper K base dx dy dz) old new = None.
Proof.
  intros T K base dx dy dz n old new Hx Hy Hz Hb Ho. cbn [again].
  rewrite (store_all_none _ (8 * (2 + (1 * dx + 1 * (dx * dy))))); [reflexivity|].
  unfold pepper, lines. cbv zeta. apply in_flat_map. exists 1. split; [apply in_range; lia|].
  apply in_flat_map. exists 1. split; [apply in_range; lia|].
  unfold pepper_line. cbv zeta. change (1 mod 2 =? 0) with false. cbv iota. change (1 + 1) with 2.
  destruct (eights _ _ _ _ _ _ _ _ _ _) as [l i] eqn:E. apply in_or_app. right. apply in_or_app. left.
  replace (Z.to_nat (dx - 1 - 2)) with (S (Z.to_nat (dx - 4))) in E by lia. cbn [eights] in E.
  replace (_ <? _) with true in E by lia. destruct (eights _ _ _ _ _ _ _ _ _ _) as [l' i'] in E. apply pair_equal_spec in E as [<- <-].
  apply in_or_app. left. unfold eight. cbn [flat_map map app]. left. rewrite !Z.add_0_r. f_equal.
  destruct (aligned (base + 8 * (dx * dy * dz) + 8 * (2 + (1 * dx + 1 * (dx * dy))))); [|reflexivity].
  unfold pair. cbv zeta. unfold load_pd at 2.
  replace (aligned (base + 8 * (2 + (1 * dx + 1 * (dx * dy)) - 1 * (dx * dy) + 0))) with false; [cbn; destruct (load_pd _ _ _ _ _); reflexivity|].
  symmetry. unfold aligned. apply Z.odd_spec in Ho as [k Ek]. apply Z.eqb_neq.
  replace (base + 8 * (2 + (1 * dx + 1 * (dx * dy)) - 1 * (dx * dy) + 0)) with (base + 8 + (k + 1) * 16) by lia.
  rewrite Z.mod_add by lia. rewrite <- Z.add_mod_idemp_l, Hb by lia. discriminate.
Qed.

Section Grids.
Context {T : Type} (K : arith T) (e : extent) (dx dy dz : Z).
Hypothesis Hx : 0 <= dx <= DIM_X e.
Hypothesis Hy : 0 <= dy <= DIM_Y e.
Hypothesis Hz : 0 <= dz <= DIM_Z e.
Local Notation oy := (DIM_X e).
Local Notation oz := (DIM_X e * DIM_Y e).
Local Notation size := (8 * DIM_PROD e).

Lemma gen_index_row : forall x y z, gen_index e x y z = x + (y * oy + z * oz).
Proof. intros. unfold gen_index. ring. Qed.

Lemma fits : (0 <= dy /\ dy * oy <= oz) /\ (0 <= dz /\ 8 * (oz * dz) <= size).
Proof.
  unfold DIM_PROD. assert (0 <= oz) by (apply Z.mul_nonneg_nonneg; lia). split; split; try lia.
  - rewrite Z.mul_comm. apply Z.mul_le_mono_nonneg_l; lia.
  - apply Z.mul_le_mono_nonneg_l; [lia|]. apply Z.mul_le_mono_nonneg_l; lia.
Qed.

Lemma bronze_sweeps : sweeps oy oz dx dy dz size (bronze K e dx dy dz) (dx - 1) (filter7 K).
Proof.
  destruct fits. apply (lines_sweep oy oz dx dy dz size Hx H H0
    (fun old y z => bronze_line K size old oy oz (gen_index e 1 y z) (gen_index e (dx - 1) y z))); [lia|].
  intros old g y z Hg Y Z. rewrite !gen_index_row. apply (bronze_line_ok K oy oz dx dy dz size); auto; lia.
Qed.

Lemma silver_sweeps : forall base base', base mod 16 = 0 -> base' mod 16 = 0 -> Z.even oy = true -> 3 <= dx ->
  sweeps oy oz dx dy dz size (silver K e dx dy dz base base') (silver_end dx) (silver_cell K dx).
Proof.
  intros base base' Hb Hb' He H3. destruct fits. apply (lines_sweep oy oz dx dy dz size Hx H H0
    (fun old y z => silver_line K base size old oy oz base' (gen_index e 1 y z) (gen_index e (dx - 1) y z))).
  - unfold silver_end. destruct (_ =? _); lia.
  - intros old g y z Hg Y Z. rewrite !gen_index_row. apply (silver_line_ok K oy oz dx dy dz size); auto; try lia.
    now rewrite Z.even_mul, He.
Qed.

Lemma gold_sweeps : forall A, 1 <= A <= dx - 1 ->
  sweeps oy oz dx dy dz size (gold K e dx dy dz A) (dx - 1) (filter6 K).
Proof.
  intros A HA. destruct fits. apply (lines_sweep oy oz dx dy dz size Hx H H0
    (fun old y z => gold_line K size old oy oz A dx y z)); [lia|].
  intros old g y z Hg Y Z. apply (gold_line_ok K oy oz dx dy dz size); auto.
Qed.
End Grids.

(** Bronze: n sweeps of the filter.  The claim is that all species do so; this
    is the only one of which it is true. *)
Theorem C81_bronze_partial : forall (T : Type) (K : arith T) e dx dy dz n old new g,
  0 <= dx <= DIM_X e -> 0 <= dy <= DIM_Y e -> 0 <= dz <= DIM_Z e ->
  stores_grid (DIM_X e) (DIM_X e * DIM_Y e) dx dy dz old g -> stores_grid (DIM_X e) (DIM_X e * DIM_Y e) dx dy dz new g ->
  exists old' new', swapping n (8 * DIM_PROD e) (bronze K e dx dy dz) old new = Some (old', new') /\
    stores_grid (DIM_X e) (DIM_X e * DIM_Y e) dx dy dz old' (iterate n (sweep (dx - 1) dy dz (filter7 K)) g).
Proof.
  intros T K e dx dy dz n old new g Hx Hy Hz Ho Hn. destruct (fits e dx dy dz ltac:(lia) Hy Hz) as [F1 F2].
  apply swapping_sweeps; auto; try lia. apply bronze_sweeps; auto.
Qed.

(** Silver: no centre in the vector cells; unless dx - 3 is a multiple of eight
    the last interior cell of every row keeps its value for ever. *)
Theorem C81_silver : forall (T : Type) (K : arith T) e base base' dx dy dz n old new g,
  3 <= dx <= DIM_X e -> 0 <= dy <= DIM_Y e -> 0 <= dz <= DIM_Z e ->
  base mod 16 = 0 -> base' mod 16 = 0 -> Z.even (DIM_X e) = true ->
  stores_grid (DIM_X e) (DIM_X e * DIM_Y e) dx dy dz old g -> stores_grid (DIM_X e) (DIM_X e * DIM_Y e) dx dy dz new g ->
  exists old' new', swapping n (8 * DIM_PROD e) (silver K e dx dy dz base base') old new = Some (old', new') /\
    stores_grid (DIM_X e) (DIM_X e * DIM_Y e) dx dy dz old'
      (iterate n (sweep (if (dx - 3) mod 8 =? 0 then dx - 1 else dx - 2) dy dz (silver_cell K dx)) g).
Proof.
  intros T K e base base' dx dy dz n old new g Hx Hy Hz Hb Hb' He Ho Hn. destruct (fits e dx dy dz ltac:(lia) Hy Hz) as [F1 F2].
  apply swapping_sweeps; auto; try lia; [apply silver_sweeps; auto; lia|]. destruct (_ =? _); lia.
Qed.

(** Gold: no centre at all; any vector width below dx. *)
Theorem C81_gold : forall (T : Type) (K : arith T) e A dx dy dz n old new g,
  1 <= A <= dx - 1 -> dx <= DIM_X e -> 0 <= dy <= DIM_Y e -> 0 <= dz <= DIM_Z e ->
  stores_grid (DIM_X e) (DIM_X e * DIM_Y e) dx dy dz old g -> stores_grid (DIM_X e) (DIM_X e * DIM_Y e) dx dy dz new g ->
  exists old' new', swapping n (8 * DIM_PROD e) (gold K e dx dy dz A) old new = Some (old', new') /\
    stores_grid (DIM_X e) (DIM_X e * DIM_Y e) dx dy dz old' (iterate n (sweep (dx - 1) dy dz (filter6 K)) g).
Proof.
  intros T K e A dx dy dz n old new g HA Hx Hy Hz Ho Hn. destruct (fits e dx dy dz ltac:(lia) Hy Hz) as [F1 F2].
  apply swapping_sweeps; auto; try lia. apply gold_sweeps; auto; lia.
Qed.

(** The sizes of the runs meet the hypotheses; no row fits the blocks of Silver. *)
Theorem C81_sizes : forall d, In d jacobi_sizes -> exists e,
  choose Default d d d = inr e /\ 32 <= d <= 544 /\ d <= DIM_X e /\ d <= DIM_Y e /\ d <= DIM_Z e /\
  Z.even (DIM_X e) = true /\ Z.even d = true /\ (d - 3) mod 8 <> 0.
Proof.
  intros d Hd. unfold jacobi_sizes in Hd. apply in_map_iff in Hd as [k [<- Hk]]. apply in_zseq in Hk.
  assert (E : exists s, first_fit (32 + 4 * k) default_3d_sizes s /\ Z.even s = true).
  { unfold default_3d_sizes.
    destruct (Z_le_gt_dec (32 + 4 * k) 32); [exists 32; split; [apply ff_here; lia|reflexivity]|].
    destruct (Z_le_gt_dec (32 + 4 * k) 64); [exists 64; split; [repeat (apply ff_next; [lia|]); apply ff_here; lia|reflexivity]|].
    destruct (Z_le_gt_dec (32 + 4 * k) 128); [exists 128; split; [do 2 (apply ff_next; [lia|]); apply ff_here; lia|reflexivity]|].
    destruct (Z_le_gt_dec (32 + 4 * k) 136); [exists 136; split; [do 3 (apply ff_next; [lia|]); apply ff_here; lia|reflexivity]|].
    destruct (Z_le_gt_dec (32 + 4 * k) 192); [exists 192; split; [do 4 (apply ff_next; [lia|]); apply ff_here; lia|reflexivity]|].
    destruct (Z_le_gt_dec (32 + 4 * k) 200); [exists 200; split; [do 5 (apply ff_next; [lia|]); apply ff_here; lia|reflexivity]|].
    destruct (Z_le_gt_dec (32 + 4 * k) 256); [exists 256; split; [do 6 (apply ff_next; [lia|]); apply ff_here; lia|reflexivity]|].
    destruct (Z_le_gt_dec (32 + 4 * k) 264); [exists 264; split; [do 7 (apply ff_next; [lia|]); apply ff_here; lia|reflexivity]|].
    destruct (Z_le_gt_dec (32 + 4 * k) 512); [exists 512; split; [do 8 (apply ff_next; [lia|]); apply ff_here; lia|reflexivity]|].
    destruct (Z_le_gt_dec (32 + 4 * k) 520); [exists 520; split; [do 9 (apply ff_next; [lia|]); apply ff_here; lia|reflexivity]|].
    exists 1032. split; [do 10 (apply ff_next; [lia|]); apply ff_here; lia|reflexivity]. }
  destruct E as [s [F Es]]. exists (mkExt s s s). pose proof (first_fit_In _ _ _ F) as [_ L].
  assert (C : choose Default (32 + 4 * k) (32 + 4 * k) (32 + 4 * k) = inr (mkExt s s s)).
  { destruct (choose_default_cases (32 + 4 * k) (32 + 4 * k) (32 + 4 * k)) as [[_ [_ ->]]|[[? [? _]]|[? _]]]; try lia.
    unfold select_3d. cbv zeta. rewrite !Z.max_id. now rewrite (case_chain_fit _ _ _ _ _ _ F). }
  split; [exact C|]. cbn [DIM_X DIM_Y DIM_Z]. split; [lia|]. repeat split; try exact L; try exact Es.
  - replace (32 + 4 * k) with (2 * (16 + 2 * k)) by lia. now rewrite Z.even_mul.
  - intros M. Z.to_euclidean_division_equations. lia.
Qed.

(** On a constant grid, in exact arithmetic. *)
Theorem C81_constant : forall (T : Type) (K : arith T), exact_field K -> forall c x y z,
  let g := fun _ _ _ : Z => c in
  filter7 K g x y z = r_mul K c (r_div K (r_num K 104) (r_num K 100)) /\
  filter_top K g x y z = r_mul K c (r_div K (r_num K 109) (r_num K 100)) /\
  filter6 K g x y z = r_mul K c (r_div K (r_num K 84) (r_num K 100)) /\
  filter6' K g x y z = r_mul K c (r_div K (r_num K 84) (r_num K 100)).
Proof.
  intros T K HK c x y z g. destruct (ef_field K HK) as [inv Hf].
  assert (D : forall a b, r_add K (r_mul K c (r_div K (r_num K a) (r_num K 100))) (r_mul K c (r_div K (r_num K b) (r_num K 100))) =
     r_mul K c (r_div K (r_num K (a + b)) (r_num K 100))).
  { intros a b. rewrite (ef_add K HK). rewrite !(Fdiv_def Hf). pose proof (F_R Hf) as R.
    rewrite (Rdistr_l R). rewrite (Rmul_comm R c (r_add K _ _)), (Rdistr_l R).
    rewrite !(Rmul_comm R _ c). reflexivity. }
  unfold g, filter7, filter_top, filter6, filter6'. rewrite !D. repeat split; reflexivity.
Qed.

(** Five species, one family: the claim that they compute the same grid fails
    for every size of the runs, already for one sweep over a constant grid. *)
Theorem C81_same_grid_refuted : forall d, In d jacobi_sizes ->
  let g := fun _ _ _ : Z => Q2Qc 1 in
  let bronze := sweep (d - 1) d d (filter7 rationals) g in
  sweep (d - 1) d d (pepper_cell rationals d) g 1 1 1 <> bronze 1 1 1 /\
  sweep (d - 1) d d (pepper_cell rationals d) g 2 1 1 <> bronze 2 1 1 /\
  sweep (d - 2) d d (silver_cell rationals d) g 2 1 1 <> bronze 2 1 1 /\
  sweep (d - 2) d d (silver_cell rationals d) g (d - 2) 1 1 <> bronze (d - 2) 1 1 /\
  sweep (d - 1) d d (filter6 rationals) g 1 1 1 <> bronze 1 1 1.
Proof.
  intros d Hd g bronze. destruct (C81_sizes d Hd) as [_ [_ [B _]]].
  destruct (C81_constant Qc rationals rationals_exact (Q2Qc 1) 0 0 0) as [E7 [Et [E6 E6']]].
  assert (C : forall f x y z, f = filter7 rationals \/ f = filter_top rationals \/ f = filter6 rationals \/ f = filter6' rationals ->
    f g x y z = f g 0 0 0) by (intros f x y z [-> |[-> |[-> | ->]]]; reflexivity).
  unfold bronze, sweep.
  replace ((1 <=? 1) && (1 <? d - 1) && (1 <=? 1) && (1 <? d - 1) && (1 <=? 1) && (1 <? d - 1)) with true by lia.
  replace ((1 <=? 2) && (2 <? d - 1) && (1 <=? 1) && (1 <? d - 1) && (1 <=? 1) && (1 <? d - 1)) with true by lia.
  replace ((1 <=? 2) && (2 <? d - 2) && (1 <=? 1) && (1 <? d - 1) && (1 <=? 1) && (1 <? d - 1)) with true by lia.
  replace ((1 <=? d - 2) && (d - 2 <? d - 2) && (1 <=? 1) && (1 <? d - 1) && (1 <=? 1) && (1 <? d - 1)) with false by lia.
  replace ((1 <=? d - 2) && (d - 2 <? d - 1) && (1 <=? 1) && (1 <? d - 1) && (1 <=? 1) && (1 <? d - 1)) with true by lia.
  unfold pepper_cell, silver_cell.
  replace (in_blocks d 1) with false by reflexivity.
  replace (in_blocks d 2) with true by (unfold in_blocks; Z.to_euclidean_division_equations; lia).
  rewrite !(C (filter7 rationals)), !(C (filter_top rationals)), !(C (filter6 rationals)), !(C (filter6' rationals)) by auto.
  cbv zeta in E7, Et, E6, E6'. unfold g. rewrite E7, Et, E6, E6'.
  repeat split; intros X; apply (f_equal this) in X; vm_compute in X; discriminate X.
Qed.

(** Two sweeps of Vanilla are not two applications of the filter. *)
Theorem C81_steps_refuted : forall d, In d jacobi_sizes ->
  let g := fun _ _ _ : Z => Q2Qc 1 in
  sweep (d - 1) d d (filter7 rationals) g 2 2 2 <> iterate 2 (sweep (d - 1) d d (filter7 rationals)) g 2 2 2.
Proof.
  intros d Hd g. destruct (C81_sizes d Hd) as [_ [_ [B _]]]. cbn [iterate].
  set (h := sweep (d - 1) d d (filter7 rationals) g).
  assert (H : forall x y z, 1 <= x < d - 1 -> 1 <= y < d - 1 -> 1 <= z < d - 1 ->
    h x y z = filter7 rationals g 0 0 0).
  { intros x y z X Y Z. unfold h, sweep. replace (_ && _) with true by lia. reflexivity. }
  rewrite H by lia.
  replace (sweep (d - 1) d d (filter7 rationals) h 2 2 2) with (filter7 rationals h 2 2 2)
    by (unfold sweep; replace (_ && _) with true by lia; reflexivity).
  unfold filter7 at 2. rewrite !H by lia.
  intros X. apply (f_equal this) in X. vm_compute in X. discriminate X.
Qed.

(** The start values of Vanilla and Pepper are right for cubes, and leave the
    grid if there are more rows than cells in a row. *)
Theorem C81_initial : forall (T : Type) (K : arith T) d m, 0 <= d ->
  exists m', store_all (8 * (d * d * d)) (initial_stores K d d d) m = Some m' /\
    stores_grid d (d * d) d d d m' (fun x y z => r_num K (x + y + z)).
Proof.
  intros T K d m Hd.
  assert (In_iff : forall a v, In (a, v) (initial_stores K d d d) <->
    exists x y z, 0 <= x < d /\ 0 <= y < d /\ 0 <= z < d /\ a = 8 * (x + y * d + z * (d * d)) /\ v = Some (r_num K (x + y + z))).
  { intros a v. unfold initial_stores. rewrite in_flat_map. split.
    - intros [z [Hz H]]. apply in_flat_map in H as [y [Hy H]]. apply in_map_iff in H as [x [E Hx]].
      apply in_range in Hx, Hy, Hz. apply pair_equal_spec in E as [<- <-]. exists x, y, z. repeat split; try lia.
    - intros [x [y [z [Hx [Hy [Hz [-> ->]]]]]]]. exists z. rewrite in_range. split; [exact Hz|].
      apply in_flat_map. exists y. rewrite in_range. split; [exact Hy|]. apply in_map_iff. exists x. rewrite in_range.
      split; [f_equal; lia|exact Hx]. }
  destruct (store_all_fun (8 * (d * d * d)) (initial_stores K d d d) m) as [m' [E [I1 I2]]].
  - intros a v H. apply In_iff in H as [x [y [z [Hx [Hy [Hz [-> ->]]]]]]].
    destruct (addr_in d (d * d) d d d (8 * (d * d * d)) ltac:(lia) ltac:(lia) ltac:(lia) x y z) as [A B]; auto. eauto.
  - intros a v v' H H'. apply In_iff in H as [x [y [z [Hx [Hy [Hz [-> ->]]]]]]].
    apply In_iff in H' as [x' [y' [z' [Hx' [Hy' [Hz' [Ea ->]]]]]]].
    apply (addr_inj d (d * d) d d ltac:(lia) ltac:(lia)) in Ea as [-> [-> ->]]; auto.
  - exists m'. split; [exact E|]. intros x y z Hx Hy Hz. apply I1. apply In_iff. exists x, y, z. auto 6.
Qed.

Theorem C81_initial_refuted : forall (T : Type) (K : arith T) m, store_all (8 * (2 * 3 * 1)) (initial_stores K 2 3 1) m = None.
Proof. intros. reflexivity. Qed.

(** The updates counted by glups: those performed, except for Silver. *)
Lemma lines_length : forall (A : Type) dy dz (line : Z -> Z -> list A) n, 2 <= dy -> 2 <= dz -> 0 <= n ->
  (forall y z, 1 <= y < dy - 1 -> 1 <= z < dz - 1 -> Z.of_nat (length (line y z)) = n) ->
  Z.of_nat (length (lines dy dz line)) = n * (dy - 2) * (dz - 2).
Proof.
  intros A dy dz line n Hy Hz Hn H.
  assert (P : forall (B : Type) (f : Z -> list B) lo k n, 0 <= n -> (forall x, lo <= x < lo + Z.of_nat k -> Z.of_nat (length (f x)) = n) ->
    Z.of_nat (length (flat_map f (range lo (lo + Z.of_nat k)))) = n * Z.of_nat k).
  { clear. intros B f lo k n Hn H. induction k as [|k IH].
    - rewrite range_empty by lia. cbn. lia.
    - rewrite (range_split lo (lo + Z.of_nat k)) by lia. rewrite flat_map_app, app_length, Nat2Z.inj_add, IH by (intros; apply H; lia).
      replace (lo + Z.of_nat (S k)) with (lo + Z.of_nat k + 1) by lia. rewrite range_one. cbn [flat_map]. rewrite app_nil_r, H by lia. lia. }
  unfold lines. replace (range 1 (dz - 1)) with (range 1 (1 + Z.of_nat (Z.to_nat (dz - 2)))) by (f_equal; lia).
  rewrite (P _ _ _ _ (n * (dy - 2))); [rewrite Z2Nat.id by lia; ring|nia|].
  intros z Z. replace (range 1 (dy - 1)) with (range 1 (1 + Z.of_nat (Z.to_nat (dy - 2)))) by (f_equal; lia).
  rewrite (P _ _ _ _ n); [rewrite Z2Nat.id by lia; ring|lia|]. intros y Y. apply H; lia.
Qed.

Lemma length_range : forall a b, a <= b -> Z.of_nat (length (range a b)) = b - a.
Proof. intros a b H. unfold range. rewrite map_length, length_zseq. lia. Qed.

Theorem C81_updates : forall (T : Type) (K : arith T) e dx dy dz old old' steps time,
  2 <= dx -> 2 <= dy -> 2 <= dz ->
  jacobi_glups [dx; dy; dz] steps time = (steps * Z.of_nat (length (vanilla K dx dy dz old)), time * 10 ^ 9) /\
  jacobi_glups [dx; dy; dz] steps time = (steps * Z.of_nat (length (bronze K e dx dy dz old')), time * 10 ^ 9).
Proof.
  intros T K e dx dy dz old old' steps time Hx Hy Hz. unfold jacobi_glups. cbn [fold_left]. split; f_equal.
  - unfold vanilla. cbv zeta. rewrite (lines_length _ _ _ _ (dx - 2)); try lia.
    intros y z Y Z. unfold vanilla_line. rewrite map_length, length_range; lia.
  - unfold bronze. rewrite (lines_length _ _ _ _ (dx - 2)); try lia.
    intros y z Y Z. unfold bronze_line. rewrite map_length, length_range; rewrite !gen_index_row; lia.
Qed.

(** ** Concrete cases *)
Definition counting (x y z : Z) : Qc := Q2Qc (inject_Z (x + y + z)).
Definition plain_grid (dx dy : Z) (a : Z) : Qc :=
  counting ((a / 8) mod dx) ((a / 8 / dx) mod dy) (a / 8 / dx / dy).

Example plain_grid_stores : stores_grid 12 (12 * 3) 12 3 3 (plain_grid 12 3) counting.
Proof.
  intros x y z Hx Hy Hz. unfold plain_grid. rewrite (Z.mul_comm 8), Z.div_mul by lia.
  replace (x + y * 12 + z * (12 * 3)) with (x + (y + z * 3) * 12) by lia.
  rewrite Z.mod_add, Z.div_add, Z.mod_small, (Z.div_small x) by lia. rewrite Z.add_0_l.
  rewrite Z.mod_add, Z.div_add, Z.mod_small, (Z.div_small y) by lia. reflexivity.
Qed.

(** A grid of 12 x 3 x 3 cells: the row in the middle after one sweep of each
    species (in hundredths; the values at the start are 2 ... 13). *)
Example C81_case :
  let g := plain_grid 12 3 in
  let row (r : option ((Z -> Qc) * (Z -> Qc))) (pick : (Z -> Qc) * (Z -> Qc) -> Z -> Qc) :=
    match r with Some p => map (fun x => Qnum (Qred (this (pick p (8 * (x + 12 + 36))) * 100))) [0; 1; 2; 9; 10; 11] | None => [] end in
  row (again 2 (8 * (12 * 3 * 3)) (vanilla rationals 12 3 3) g g) snd = [200; 324; 428; 1156; 1260; 1300] /\
  row (again 2 (8 * (12 * 3 * 3)) (pepper rationals 4096 12 3 3) g g) snd = [200; 334; 348; 936; 1315; 1300] /\
  row (swapping 1 (8 * (12 * 3 * 3)) (bronze rationals (mkExt 12 3 3) 12 3 3) g g) fst = [200; 324; 428; 1156; 1260; 1300] /\
  row (swapping 1 (8 * (12 * 3 * 3)) (silver rationals (mkExt 12 3 3) 12 3 3 4096 8192) g g) fst = [200; 324; 348; 936; 1200; 1300] /\
  row (swapping 1 (8 * (12 * 3 * 3)) (gold rationals (mkExt 12 3 3) 12 3 3 4) g g) fst = [200; 264; 348; 936; 1020; 1300].
Proof. vm_compute. repeat split; reflexivity. Qed.

Example C81_pepper_odd_case : again 1 (8 * (11 * 3 * 3)) (pepper rationals 4096 11 3 3) (plain_grid 11 3) (plain_grid 11 3) = None.
Proof. apply C81_pepper_odd; reflexivity || lia. Qed.

Example C81_sizes_case : In 508 jacobi_sizes /\ choose Default 508 508 508 = inr (mkExt 512 512 512) /\ maxT 16 508 508 508 = 16 /\
  maxT 64 32 32 32 = 6103.
Proof. split; [|repeat split]. unfold jacobi_sizes. apply in_map_iff. exists 119. split; [reflexivity|apply in_zseq; lia]. Qed.

Print Assumptions C81_vanilla.
Print Assumptions C81_pepper.
Print Assumptions C81_pepper_odd.
Print Assumptions C81_bronze_partial.
Print Assumptions C81_silver.
Print Assumptions C81_gold.
Print Assumptions C81_sizes.
Print Assumptions C81_constant.
Print Assumptions C81_same_grid_refuted.
Print Assumptions C81_steps_refuted.
Print Assumptions C81_initial.
Print Assumptions C81_initial_refuted.
Print Assumptions C81_updates.
