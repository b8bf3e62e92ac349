(** Properties of the lattice Boltzmann example. *)
From Coq Require Import QArith Qcanon ZArith List Bool Field_theory Lia ZifyBool ZifyNat.
From Verif Require Import Base Layout Sizes Cuda Sph Lbm SpecLbm SizesProofs RegionProofs AccessorProofs GridProofs CudaProofs LbmProofs LbmExact.
Import ListNotations.
Local Open Scope Z_scope.

(** Exact arithmetic exists: the rationals. *)
Definition rationals : arith Qc :=
  mkArith Qcplus Qcminus Qcmult Qcdiv Qcopp (fun x => x) (fun a b => if Qclt_le_dec a b then true else false)
          (fun z => Q2Qc (inject_Z z)) (Q2Qc 0).

Example rationals_exact : exact_field rationals.
Proof.
  split.
  - exists Qcinv. exact Qcft.
  - intros a b. cbn [rationals r_num r_add]. apply Qc_is_canon. unfold Qcplus. cbn [this Q2Qc].
    rewrite !Qred_correct, inject_Z_plus. reflexivity.
  - intros z Hz E. cbn [rationals r_num] in E. apply (f_equal this) in E. cbn [this Q2Qc] in E.
    assert (E' : Qeq (inject_Z z) (inject_Z 0)).
    { rewrite <- (Qred_correct (inject_Z z)), E. apply Qred_correct. }
    unfold Qeq, inject_Z in E'. cbn in E'. lia.
Qed.

(** The components of a cell in the examples: rest 1, the others 1 / (number of the component). *)
Definition sample (d : dir) : Qc := Qcdiv (Q2Qc 1) (Q2Qc (inject_Z (code d + 1))).

(** ** C77 *)
Theorem C77_kernels : forall (T : Type) (K : arith T), exists collide : (dir -> T) -> dir -> T,
  (exact_field K -> forall f d, collide f d = relax K f d) /\
  forall g b dimX dimY dimZ,
    plain g b -> d_x g * d_x b + 3 <= dimX -> d_y g * d_y b + 3 <= dimY -> 2 <= dimZ ->
    let step := sweep collide (columns (d_x g * d_x b) (d_y g * d_y b) dimZ) in
    (forall size, 8 * 19 * (dimX * dimY * dimZ) <= size ->
       performs (g, b) (update_lbm_classic K dimX dimY dimZ size) size
         (fun x y z d => 8 * classic_index dimX dimY dimZ x y z d) dimX dimY dimZ step /\
       performs (g, b) (update_lbm_object_oriented K dimX dimY dimZ size) size
         (object_address dimX dimY) dimX dimY dimZ step) /\
    (forall e size, dimX <= DIM_X e -> dimY <= DIM_Y e -> dimZ <= DIM_Z e -> 8 * 19 * DIM_PROD e <= size ->
       performs (g, b) (updateLine K e e size 2 (dimZ - 2)) size (flat_position e) dimX dimY dimZ step).
Proof.
  intros T K. exists (collide K). split.
  - intros HK f d. destruct (ef_field K HK) as [inv Hf]. apply (collide_relax K HK inv Hf).
  - intros g b dimX dimY dimZ HL NX NY Z2 step. split.
    + intros size Hs. split; [apply classic_performs|apply object_performs]; auto.
    + intros e size X Y Z Hs. apply flat_performs; auto.
Qed.

(** Any number of time steps; in particular the three programs end with the same grids. *)
Theorem C77_timesteps : forall (T : Type) (K : arith T), exists collide : (dir -> T) -> dir -> T,
  (exact_field K -> forall f d, collide f d = relax K f d) /\
  forall g b dimX dimY dimZ n f h,
    plain g b -> d_x g * d_x b + 3 <= dimX -> d_y g * d_y b + 3 <= dimY -> 2 <= dimZ ->
    let result := sweeps collide (columns (d_x g * d_x b) (d_y g * d_y b) dimZ) n (f, h) in
    let runs kernel size addr :=
      forall old new, holds addr dimX dimY dimZ old f -> holds addr dimX dimY dimZ new h ->
      (exists r, timesteps (g, b) kernel size n (old, new) r) /\
      forall r, timesteps (g, b) kernel size n (old, new) r ->
        holds addr dimX dimY dimZ (fst r) (fst result) /\ holds addr dimX dimY dimZ (snd r) (snd result) in
    (forall size, 8 * 19 * (dimX * dimY * dimZ) <= size ->
       runs (update_lbm_classic K dimX dimY dimZ size) size (fun x y z d => 8 * classic_index dimX dimY dimZ x y z d) /\
       runs (update_lbm_object_oriented K dimX dimY dimZ size) size (object_address dimX dimY)) /\
    (forall e size, dimX <= DIM_X e -> dimY <= DIM_Y e -> dimZ <= DIM_Z e -> 8 * 19 * DIM_PROD e <= size ->
       runs (updateLine K e e size 2 (dimZ - 2)) size (flat_position e)).
Proof.
  intros T K. destruct (C77_kernels T K) as [collide [H1 H2]]. exists collide. split; [exact H1|].
  intros g b dimX dimY dimZ n f h HL NX NY Z2 result runs.
  destruct (H2 g b dimX dimY dimZ HL NX NY Z2) as [H3 H4]. split.
  - intros size Hs. destruct (H3 size Hs) as [A B].
    split; intros old new Ho Hn; (eapply timesteps_sweeps; [|exact Ho|exact Hn]); [exact A|exact B].
  - intros e size X Y Z Hs old new Ho Hn. eapply timesteps_sweeps; [|exact Ho|exact Hn]. apply H4; auto.
Qed.

(** Four columns of a 5 by 5 by 6 grid; the flat layout has room to spare. *)
Example C77_case :
  let g := mkDim3 1 2 1 in let b := mkDim3 2 1 1 in
  plain g b /\ d_x g * d_x b + 3 <= 5 /\ d_y g * d_y b + 3 <= 5 /\
  (exists collide, (forall f d, collide f d = relax rationals f d) /\
     forall old new s f h, holds (object_address 5 5) 5 5 6 old f -> holds (object_address 5 5) 5 5 6 new h ->
     interleave (launch (g, b) (update_lbm_object_oriented rationals 5 5 6 22800 old)) s ->
     exists new', store_all 22800 s new = Some new' /\
       new' (object_address 5 5 3 2 2 dNE) = relax rationals (arriving f 3 2 2) dNE /\
       new' (object_address 5 5 4 2 2 dNE) = h 4 2 2 dNE) /\
  relax rationals sample dNE <> sample dNE.
Proof.
  cbv zeta. split; [unfold plain; cbn; lia|]. split; [cbn; lia|]. split; [cbn; lia|]. split.
  - destruct (C77_kernels Qc rationals) as [collide [H1 H2]]. exists collide. split; [exact (H1 rationals_exact)|].
    intros old new s f h Ho Hn Hs.
    destruct (H2 (mkDim3 1 2 1) (mkDim3 2 1 1) 5 5 6) as [H3 _]; try (cbn; lia); [unfold plain; cbn; lia|].
    destruct (H3 22800) as [_ B]; [cbn; lia|]. destruct (B f h old new s Ho Hn Hs) as [new' [E H']].
    exists new'. split; [exact E|]. split; rewrite H' by lia; unfold sweep.
    + replace (columns _ _ _ 3 2 2) with true by reflexivity. apply (H1 rationals_exact).
    + replace (columns _ _ _ 4 2 2) with false by reflexivity. reflexivity.
  - intros E. apply (f_equal this) in E. vm_compute in E. discriminate.
Qed.

(** ** C78 *)
Theorem C78_conservation : forall (T : Type) (K : arith T) (f : dir -> T), exact_field K ->
  mass K (relax K f) = mass K f /\
  momentum K cx (relax K f) = momentum K cx f /\
  momentum K cy (relax K f) = momentum K cy f /\
  momentum K cz (relax K f) = momentum K cz f.
Proof.
  intros T K f HK. destruct (ef_field K HK) as [inv Hf].
  split; [apply (relax_mass K HK inv Hf)|]. repeat split; apply (relax_momentum K HK inv Hf); auto.
Qed.

(** A cell in equilibrium stays as it is. *)
Theorem C78_equilibrium : forall (T : Type) (K : arith T) (f : dir -> T), exact_field K ->
  (forall d, f d = equilibrium K f d) -> forall d, relax K f d = f d.
Proof.
  intros T K f HK He d. destruct (ef_field K HK) as [inv Hf]. apply (relax_equilibrium K HK inv Hf); auto.
Qed.

Example C78_case :
  this (mass rationals (relax rationals sample)) = this (mass rationals sample) /\
  (exists q, this (momentum rationals cx (relax rationals sample)) = q /\ q <> this (Q2Qc 0)) /\
  relax rationals sample dC <> sample dC.
Proof.
  split; [vm_compute; reflexivity|]. split.
  - eexists. split; [vm_compute; reflexivity|]. vm_compute. discriminate.
  - intros E. apply (f_equal this) in E. vm_compute in E. discriminate.
Qed.

(** ** C79 *)
Theorem C79_dimensions : forall dim, 1 <= dim ->
  exists k w, 0 <= k /\ w = 2 ^ k /\ w <= dim /\ w <= 256 /\ (w = 256 \/ dim < 2 * w) /\
  gen_dims dim = (mkDim3 (dim / w) (dim / 2) 1, mkDim3 w 2 1).
Proof. exact gen_dims_ok. Qed.

(** What the launches of the benchmark do.  Missing from the claim that they
    update the interior: C79_interior_refuted. *)
Theorem C79_benchmark_partial : forall (T : Type) (K : arith T), exists collide : (dir -> T) -> dir -> T,
  (exact_field K -> forall f d, collide f d = relax K f d) /\
  forall dim, 4 <= dim ->
    let '(g, b) := gen_dims dim in
    let nx := d_x g * d_x b in let ny := d_y g * d_y b in
    (dim <= 204 ->
     let size := basic_bytesize dim in
     performs_by_number collide (g, b) (update_lbm_classic K dim dim 256 size) size
       (fun i d => 8 * (i + code d * (dim * dim * 256))) (dim * dim * 256) dim dim nx ny 256 /\
     performs_by_number collide (g, b) (update_lbm_object_oriented K dim dim 256 size) size
       (fun i d => i * (19 * 8) + 8 * field d) (dim * dim * 256) dim dim nx ny 256) /\
    (dim <= 1032 ->
     exists e size, choose has_default_3d_sizes dim dim 256 = inr e /\
       byte_size_of cell_members (DIM_X e) (DIM_Y e) (DIM_Z e) = Some size /\
       performs_by_number collide (g, b) (update_flat K e e size) size
         (fun i d => DIM_PROD e * (8 * Z.of_nat (registered d)) + 8 * i) (DIM_PROD e) (DIM_X e) (DIM_Y e) nx ny 256).
Proof.
  intros T K. exists (collide K). split.
  - intros HK f d. destruct (ef_field K HK) as [inv Hf]. apply (collide_relax K HK inv Hf).
  - intros dim Hd. destruct (gen_dims dim) as [g b] eqn:EG. cbv zeta. split; intros Hu.
    + destruct (gen_dims_plain dim) as [HP [X Y]]; [lia|]. rewrite EG in HP, X, Y. cbn [fst snd] in HP, X, Y.
      rewrite bytesize_small by lia. assert (0 <= dim * dim) by nia.
      split; [apply classic_by_number|apply object_by_number]; auto; lia.
    + destruct (gen_dims_plain dim) as [HP [X Y]]; [lia|]. rewrite EG in HP, X, Y. cbn [fst snd] in HP, X, Y.
      destruct (proj2 (choose_supported has_default_3d_sizes dim dim 256)) as [e He].
      { assert (In 1032 default_3d_sizes) by (cbn; auto 20). repeat split; exists 1032; (split; [assumption|lia]). }
      exists e, (152 * DIM_X e * DIM_Y e * DIM_Z e). split; [exact He|]. split; [reflexivity|].
      apply choose_covers in He as [DX [DY DZ]].
      apply (flat_by_number K g b HP e 256); unfold DIM_PROD; lia.
Qed.

(** gridSize counts the cells that a launch writes; both grids of the basic
    kernels and of the flat one. *)
Theorem C79_grid_size : forall dim dimX dimY, 4 <= dim <= 131071 -> dim <= dimX -> dim <= dimY ->
  let '(g, b) := gen_dims dim in
  exists L, NoDup L /\ (forall i, In i L <-> written dimX dimY (d_x g * d_x b) (d_y g * d_y b) 256 i) /\
    Z.of_nat (length L) = gridSize dim.
Proof.
  intros dim dimX dimY Hd HX HY. destruct (gen_dims_plain dim) as [HP [X Y]]; [lia|]. unfold gridSize.
  destruct (gen_dims dim) as [g b]. cbn [fst snd] in HP, X, Y. destruct HP as [L [_ [_ [? [? _]]]]].
  assert (1 <= d_x g /\ 1 <= d_y g) by (unfold launchable in L; lia).
  destruct (written_count (d_x g * d_x b) (d_y g * d_y b) dimX dimY 256) as [l [A [B C]]]; [nia|nia|lia|].
  exists l. split; [exact A|]. split; [exact B|]. lia.
Qed.

(** The launch is meant to update the cells of the interior, two cells from the
    faces.  It writes cells of the boundary, for every dim; and it skips cells of
    the interior unless dim is a multiple of the block width. *)
Definition interior (dim x y z : Z) : Prop := 2 <= x < dim - 2 /\ 2 <= y < dim - 2 /\ 2 <= z < 254.

Theorem C79_interior_refuted :
  (forall dim, 4 <= dim <= 131071 ->
     let '(g, b) := gen_dims dim in
     0 <= 2 < dim /\ ~ interior dim 2 0 3 /\
     written dim dim (d_x g * d_x b) (d_y g * d_y b) 256 (number dim dim 2 0 3)) /\
  (let '(g, b) := gen_dims 100 in
     interior 100 70 10 10 /\ ~ written 100 100 (d_x g * d_x b) (d_y g * d_y b) 256 (number 100 100 70 10 10)).
Proof.
  split.
  - intros dim Hd. destruct (gen_dims_ok dim) as [k [w [Hk [Ew [W1 [W2 [_ ->]]]]]]]; [lia|]. cbn [d_x d_y].
    split; [lia|]. split; [unfold interior; lia|]. exists 2, dim, 2.
    assert (0 < w) by (rewrite Ew; apply Z.pow_pos_nonneg; lia).
    assert (1 <= dim / w) by (apply Z.div_le_lower_bound; lia).
    pose proof (Z.div_mod dim 2). pose proof (Z.mod_pos_bound dim 2).
    split; [apply columns_iff; nia|]. unfold number. lia.
  - replace (gen_dims 100) with (mkDim3 1 50 1, mkDim3 64 2 1) by reflexivity. cbn [d_x d_y].
    split; [unfold interior; lia|]. intros [x [y [z [C E]]]]. apply columns_iff in C. unfold number in E. lia.
Qed.

(** The sizes the benchmark runs are within the bounds of C79_benchmark_partial;
    beyond them the number of bytes of the basic kernels is no longer right. *)
Theorem C79_bytes :
  (forall dim, In dim evaluated -> 4 <= dim <= 204 /\ basic_bytesize dim = 8 * (20 * (dim * dim * 320))) /\
  basic_bytesize 205 < 0.
Proof.
  split; [|reflexivity]. intros dim H. unfold evaluated in H. apply in_map_iff in H as [k [<- Hk]].
  assert (0 <= k < 33) by (clear - Hk; apply in_zseq in Hk; exact Hk). rewrite bytesize_small by lia. lia.
Qed.

(** The performance printed is to be in units of 10^9 updates per second; it is
    ten times as much. *)
Theorem C79_glups_refuted : forall dim repeats seconds, 4 <= dim <= 131071 -> 0 < repeats -> 0 < seconds ->
  let '(num, den) := glups dim repeats seconds in
  let '(g, b) := gen_dims dim in
  forall L, NoDup L -> (forall i, In i L <-> written dim dim (d_x g * d_x b) (d_y g * d_y b) 256 i) ->
    let updates := Z.of_nat (length L) * repeats in
    num * (10 ^ 9 * seconds) = 10 * (updates * den) /\ num * (10 ^ 9 * seconds) <> updates * den.
Proof.
  intros dim repeats seconds Hd Hr Hs. pose proof (C79_grid_size dim dim dim Hd (Z.le_refl _) (Z.le_refl _)) as HG.
  pose proof (gen_dims_plain dim ltac:(lia)) as [HP _]. unfold glups.
  assert (HS : 0 < gridSize dim).
  { unfold gridSize. destruct (gen_dims dim) as [g b]. cbn [fst snd] in HP. destruct HP as [L [_ [_ [? [? _]]]]].
    assert (1 <= d_x g /\ 1 <= d_y g) by (unfold launchable in L; lia).
    apply Z.mul_pos_pos; [|lia]. apply Z.mul_pos_pos; [|lia]. apply Z.mul_pos_pos; [|lia]. nia. }
  destruct (gen_dims dim) as [g b]. destruct HG as [L' [A [B C]]]. intros L N HL.
  assert (E : length L = length L').
  { apply Nat.le_antisymm; apply NoDup_incl_length; auto; intros i Hi.
    - apply B, HL, Hi.
    - apply HL, B, Hi. }
  cbv zeta. rewrite E, C. assert (0 < gridSize dim * repeats * (10 ^ 9 * seconds)).
  { apply Z.mul_pos_pos; apply Z.mul_pos_pos; lia. }
  lia.
Qed.

Example C79_case :
  gen_dims 100 = (mkDim3 1 50 1, mkDim3 64 2 1) /\ gen_dims 32 = (mkDim3 1 16 1, mkDim3 32 2 1) /\
  gridSize 32 = 258048 /\ choose has_default_3d_sizes 100 100 256 = inr (mkExt 128 128 256) /\
  In 100 evaluated /\ basic_bytesize 100 = 512000000 /\
  glups 32 100 1 = (258048000, 1000000000).
Proof. repeat split. unfold evaluated. apply in_map_iff. exists 17. split; [reflexivity|]. apply in_zseq. lia. Qed.

(** ** C80 *)
Theorem C80_implementations : forall dimX dimY dimZ e,
  choose has_default_3d_sizes dimX dimY dimZ = inr e -> In (e, e) implementations.
Proof.
  intros dimX dimY dimZ e H. unfold has_default_3d_sizes in H. apply choose_custom_inv in H as [x [y [z [-> [X [Y Z]]]]]].
  unfold implementations. apply in_flat_map. exists x. split; [exact (proj1 (first_fit_In _ _ _ X))|].
  apply in_flat_map. exists y. split; [exact (proj1 (first_fit_In _ _ _ Y))|].
  apply in_map_iff. exists z. split; [reflexivity|exact (proj1 (first_fit_In _ _ _ Z))].
Qed.

(** None twice, none that no grid selects. *)
Theorem C80_all_needed : NoDup implementations /\
  forall e1 e2, In (e1, e2) implementations ->
    e1 = e2 /\ choose has_default_3d_sizes (DIM_X e1) (DIM_Y e1) (DIM_Z e1) = inr e1.
Proof.
  split.
  - unfold implementations. assert (N : NoDup intervals) by (unfold intervals; repeat constructor; cbn; lia).
    apply NoDup_flat_map; [exact N| |].
    + intros x _. apply NoDup_flat_map; [exact N| |].
      * intros y _. apply NoDup_map_inj; [|exact N]. intros z z' _ _ E. injection E as E. auto.
      * intros y y' p _ _ H1 H2. apply in_map_iff in H1 as [z [<- _]]. apply in_map_iff in H2 as [z' [E _]].
        injection E. auto.
    + intros x x' p _ _ H1 H2. apply in_flat_map in H1 as [y [_ H1]]. apply in_flat_map in H2 as [y' [_ H2]].
      apply in_map_iff in H1 as [z [<- _]]. apply in_map_iff in H2 as [z' [E _]]. injection E. auto.
  - intros e1 e2 H. unfold implementations in H. apply in_flat_map in H as [x [X H]]. apply in_flat_map in H as [y [Y H]].
    apply in_map_iff in H as [z [E Z]]. injection E as <- <-. split; [reflexivity|]. cbn [DIM_X DIM_Y DIM_Z].
    apply choose_custom_inv. exists x, y, z. split; [reflexivity|].
    assert (F : forall s, In s intervals -> first_fit s default_3d_sizes s).
    { intros s Hs. unfold intervals in Hs. cbn [In] in Hs. unfold default_3d_sizes.
      repeat (destruct Hs as [<-|Hs]; [repeat (first [apply ff_here; lia|apply ff_next; [lia|]])|]). contradiction. }
    auto.
Qed.

Example C80_case : choose has_default_3d_sizes 160 160 256 = inr (mkExt 192 192 256) /\ length implementations = 1331%nat.
Proof. split; reflexivity. Qed.

Print Assumptions C77_kernels.
Print Assumptions C77_timesteps.
Print Assumptions C78_conservation.
Print Assumptions C78_equilibrium.
Print Assumptions C79_dimensions.
Print Assumptions C79_benchmark_partial.
Print Assumptions C79_grid_size.
Print Assumptions C79_interior_refuted.
Print Assumptions C79_bytes.
Print Assumptions C79_glups_refuted.
Print Assumptions C80_implementations.
Print Assumptions C80_all_needed.
