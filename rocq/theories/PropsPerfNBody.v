(** Properties of the NBody benchmarks. *)
From Coq Require Import QArith Qcanon ZArith List Bool Field_theory Lia ZifyBool ZifyNat.
From Verif Require Import Base Peeler Sph Lbm SpecLbm LbmExact PropsLbm PerfNBody SpecPerfNBody PerfJacobiProofs PerfNBodyProofs.
Import ListNotations.
Local Open Scope Z_scope.

(** ** C82: the species compute the same trajectories *)

(** Vanilla (capacity n) and Iron (capacity 8192), in any arithmetic. *)
Theorem C82_scalar : forall (T : Type) (K : arith T) cap n r A B p,
  Z.of_nat n <= cap -> agree (Z.of_nat n) A p -> agree (Z.of_nat n) B p ->
  exists A' B', repetitions r cap (scalar_step K cap (Z.of_nat n)) A B = Some (A', B') /\
    agree (Z.of_nat n) A' (steps K r (Z.of_nat n) n p).
Proof.
  intros T K cap n r A B p HC HA HB. apply repetitions_steps; auto.
  apply (lanes_advances K cap (Z.of_nat n) (Z.of_nat n) 1 (Z.of_nat n) n (distance2 K) (over K)); auto; try lia.
Qed.

Lemma capacity_ok : forall n cap, capacity n = Some cap -> n <= cap /\ cap mod 8 = 0.
Proof.
  intros n cap H. unfold capacity in H. apply find_some in H as [Hin Hn]. split; [lia|].
  unfold capacities in Hin. cbn [In] in Hin. repeat (destruct Hin as [<-|Hin]; [reflexivity|]). contradiction.
Qed.

(** Silver and Gold: eight lanes, of which the last may lie behind the particles
    but not behind the capacity.  Also in any arithmetic. *)
Theorem C82_short_vec : forall (T : Type) (K : arith T) cap n r A B p,
  capacity (Z.of_nat n) = Some cap -> agree (Z.of_nat n) A p -> agree (Z.of_nat n) B p ->
  exists A' B', repetitions r cap (short_vec_step K cap (Z.of_nat n)) A B = Some (A', B') /\
    agree (Z.of_nat n) A' (steps K r (Z.of_nat n) n p).
Proof.
  intros T K cap n r A B p HC HA HB. apply capacity_ok in HC as [H1 H2]. apply repetitions_steps; auto.
  assert (D : 8 * Z.max 0 ((Z.of_nat n + 8 - 1) / 8) <= cap /\ Z.of_nat n <= 8 * Z.max 0 ((Z.of_nat n + 8 - 1) / 8))
    by (Z.to_euclidean_division_equations; lia).
  apply (lanes_advances K cap (Z.of_nat n) (8 * Z.max 0 ((Z.of_nat n + 8 - 1) / 8)) 8 (Z.of_nat n) n (distance2 K) (over K)); auto; try lia.
Qed.

(** More than 8192 particles: an exception. *)
Theorem C82_capacity : forall n, capacity n = None <-> 8192 < n.
Proof.
  intros n. unfold capacity. split.
  - intros H. pose proof (find_none _ _ H 8192 ltac:(cbn; auto 10)). lia.
  - intros H. cbn [find capacities]. repeat (replace (n <=? _) with false by lia). reflexivity.
Qed.

(** Pepper: eight sums per particle; in exact arithmetic, if the buffer on the
    stack happens to be aligned. *)
Theorem C82_pepper_partial : forall (T : Type) (K : arith T) rcp rsqrt n r A B p,
  exact_field K -> (forall d, rcp d = r_div K (r_num K 1) d) -> (forall d, rsqrt d = r_div K (r_num K 1) (r_sqrt K d)) ->
  agree (Z.of_nat n) A p -> agree (Z.of_nat n) B p ->
  exists A' B', repetitions r (Z.of_nat n) (pepper_step K true rcp rsqrt (Z.of_nat n)) A B = Some (A', B') /\
    agree (Z.of_nat n) A' (steps K r (Z.of_nat n) n p).
Proof.
  intros T K rcp rsqrt n r A B p HK H1 H2 HA HB. destruct (ef_field K HK) as [inv Hf].
  apply repetitions_steps; auto. exact (pepper_advances K inv Hf rcp rsqrt H1 H2 n).
Qed.

Theorem C82_pepper_buffer_refuted : forall (T : Type) (K : arith T) rcp rsqrt n r A B, (1 <= n)%nat ->
  repetitions (S r) (Z.of_nat n) (pepper_step K false rcp rsqrt (Z.of_nat n)) A B = None.
Proof.
  intros T K rcp rsqrt n r A B Hn. cbn [repetitions].
  assert (N : forall cap s b c i, In (c, i, None) s -> put_all cap s b = (None : option (coordinate -> Z -> T))).
  { intros cap s. induction s as [|[[c i] v] s IH]; intros b c' i' Hin; [destruct Hin|]. cbn [put_all].
    destruct Hin as [E|Hin].
    - apply pair_equal_spec in E as [_ ->]. reflexivity.
    - destruct v; [|reflexivity]. destruct (_ && _); [eapply IH; exact Hin|reflexivity]. }
  rewrite (N _ _ _ VelX 0); [reflexivity|]. unfold pepper_step.
  destruct n as [|n]; [lia|]. rewrite Nat2Z.id. cbn [strided]. replace (0 <? Z.of_nat (S n)) with true by lia.
  apply in_or_app. left. destruct (blocks _ _ _ _ _ _ _ _ _) as [acc j] eqn:E.
  cbv zeta. apply in_map_iff. exists VelX. split; [|apply all_coordinates_in]. f_equal.
  unfold add_up.
  assert (P : forall l, exists y z, fold_left (interact K (Z.of_nat (S n)) (distance2 K) (over K) A 0) l (None, None, None) = (None, y, z)).
  { assert (Q : forall l y z, exists y' z', fold_left (interact K (Z.of_nat (S n)) (distance2 K) (over K) A 0) l (None, y, z) = (None, y', z')).
    { induction l as [|j' l IH]; intros y z; [exists y, z; reflexivity|]. cbn [fold_left].
      unfold interact at 2. cbv zeta. cbn [lift r_add omap2]. apply IH. }
    intros l. apply Q. }
  destruct (P (range j (Z.of_nat (S n)))) as [y [z ->]]. unfold moved. unfold elt. destruct (_ && _); reflexivity.
Qed.

(** Curry (capacity n) and Bronze: the particles from 8 * (n / 8) on are never
    moved, but act on the others. *)
Theorem C82_avx : forall (T : Type) (K : arith T) rcp rsqrt cap n r A B p,
  exact_field K -> (forall d, rcp d = r_div K (r_num K 1) d) -> (forall d, rsqrt d = r_div K (r_num K 1) (r_sqrt K d)) ->
  Z.of_nat n <= cap -> agree (Z.of_nat n) A p -> agree (Z.of_nat n) B p ->
  exists A' B', repetitions r cap (avx_step K rcp rsqrt cap (Z.of_nat n)) A B = Some (A', B') /\
    agree (Z.of_nat n) A' (steps K r (8 * (Z.of_nat n / 8)) n p).
Proof.
  intros T K rcp rsqrt cap n r A B p HK H1 H2 HC HA HB. destruct (ef_field K HK) as [inv Hf].
  apply repetitions_steps; auto.
  assert (D : 8 * Z.max 0 ((Z.of_nat n - 7 + 8 - 1) / 8) = 8 * (Z.of_nat n / 8)) by (Z.to_euclidean_division_equations; lia).
  assert (8 * (Z.of_nat n / 8) <= Z.of_nat n) by (Z.to_euclidean_division_equations; lia).
  apply (lanes_advances K cap (8 * (Z.of_nat n / 8)) (8 * (Z.of_nat n / 8)) 8 (Z.of_nat n - 7) n (distance2_avx K) (approximately K rcp rsqrt)); auto; try lia.
  - intros. apply (interact_avx K inv Hf rcp rsqrt H1 H2); auto.
Qed.

(** So for multiples of eight, among them all sizes of the runs, all species agree
    in exact arithmetic. *)
Theorem C82_species_partial : forall (T : Type) (K : arith T) rcp rsqrt cap n r A B,
  exact_field K -> (forall d, rcp d = r_div K (r_num K 1) d) -> (forall d, rsqrt d = r_div K (r_num K 1) (r_sqrt K d)) ->
  Z.of_nat n mod 8 = 0 -> capacity (Z.of_nat n) = Some cap -> agree (Z.of_nat n) A B ->
  exists result, let ends_with o := exists A' B', o = Some (A', B') /\ agree (Z.of_nat n) A' result in
    ends_with (repetitions r (Z.of_nat n) (scalar_step K (Z.of_nat n) (Z.of_nat n)) A B) /\
    ends_with (repetitions r (Z.of_nat n) (pepper_step K true rcp rsqrt (Z.of_nat n)) A B) /\
    ends_with (repetitions r (Z.of_nat n) (avx_step K rcp rsqrt (Z.of_nat n) (Z.of_nat n)) A B) /\
    ends_with (repetitions r 8192 (scalar_step K 8192 (Z.of_nat n)) A B) /\
    ends_with (repetitions r cap (avx_step K rcp rsqrt cap (Z.of_nat n)) A B) /\
    ends_with (repetitions r cap (short_vec_step K cap (Z.of_nat n)) A B).
Proof.
  intros T K rcp rsqrt cap n r A B HK H1 H2 HM HC HAB. exists (steps K r (Z.of_nat n) n A). intros ends_with.
  assert (HA : agree (Z.of_nat n) A A) by (intros c i Hi; reflexivity).
  assert (HB : agree (Z.of_nat n) B A) by (intros c i Hi; symmetry; apply HAB; exact Hi).
  assert (E : 8 * (Z.of_nat n / 8) = Z.of_nat n) by (Z.to_euclidean_division_equations; lia).
  pose proof (capacity_ok _ _ HC) as [HC1 _].
  assert (N : Z.of_nat n <= 8192).
  { destruct (Z_le_gt_dec (Z.of_nat n) 8192) as [L|G]; [exact L|]. assert (capacity (Z.of_nat n) = None) by (apply C82_capacity; lia). congruence. }
  repeat split; unfold ends_with.
  - apply C82_scalar; auto; lia.
  - apply C82_pepper_partial; auto.
  - pose proof (C82_avx T K rcp rsqrt (Z.of_nat n) n r A B A HK H1 H2 ltac:(lia) HA HB) as X. rewrite E in X. exact X.
  - apply C82_scalar; auto; lia.
  - pose proof (C82_avx T K rcp rsqrt cap n r A B A HK H1 H2 HC1 HA HB) as X. rewrite E in X. exact X.
  - apply C82_short_vec; auto.
Qed.

Theorem C82_runs : forall n repeats, In (n, repeats) nbody_runs -> n mod 8 = 0 /\ capacity n = Some n /\ 128 <= n <= 8192 /\ 0 < repeats < 2 ^ 31 /\
  n * n * repeats = 20 * 2 ^ 30.
Proof.
  intros n repeats H. unfold nbody_runs, capacities in H. cbn [map In] in H.
  repeat (destruct H as [E|H]; [apply pair_equal_spec in E as [<- <-]; vm_compute; repeat split; congruence|]). contradiction.
Qed.

(** For every other number of particles they do not. *)
Theorem C82_rest_refuted : forall n, Z.of_nat n mod 8 <> 0 -> exists p,
  steps rationals 1 (8 * (Z.of_nat n / 8)) n p PosX (Z.of_nat n - 1) <> steps rationals 1 (Z.of_nat n) n p PosX (Z.of_nat n - 1).
Proof.
  intros n Hn. exists (fun c _ => match c with VelX => Q2Qc 1 | _ => Q2Qc 0 end). cbn [steps]. unfold advance.
  assert (8 * (Z.of_nat n / 8) <= Z.of_nat n - 1) by (Z.to_euclidean_division_equations; lia).
  replace ((0 <=? Z.of_nat n - 1) && (Z.of_nat n - 1 <? 8 * (Z.of_nat n / 8))) with false by lia.
  replace ((0 <=? Z.of_nat n - 1) && (Z.of_nat n - 1 <? Z.of_nat n)) with true
    by (destruct n; [exfalso; apply Hn; reflexivity|lia]).
  intros X. apply (f_equal this) in X. vm_compute in X. discriminate X.
Qed.

(** The forces cancel: the sum of the velocities does not change. *)
Theorem C82_momentum : forall (T : Type) (K : arith T) cap n r A B A' B' c,
  exact_field K -> Z.of_nat n <= cap -> agree (Z.of_nat n) A B -> In c [VelX; VelY; VelZ] ->
  repetitions r cap (scalar_step K cap (Z.of_nat n)) A B = Some (A', B') ->
  total K n (A' c) = total K n (A c).
Proof.
  intros T K cap n r A B A' B' c HK HC HAB Hc E. destruct (ef_field K HK) as [inv Hf].
  assert (HA : agree (Z.of_nat n) A A) by (intros d i Hi; reflexivity).
  assert (HB : agree (Z.of_nat n) B A) by (intros d i Hi; symmetry; apply HAB; exact Hi).
  destruct (C82_scalar T K cap n r A B A HC HA HB) as [A2 [B2 [E2 G]]]. rewrite E in E2. injection E2 as <- <-.
  rewrite (total_ext K n _ (steps K r (Z.of_nat n) n A c)) by (intros i Hi; apply G; exact Hi).
  apply (steps_momentum K inv Hf); exact Hc.
Qed.

(** ** A concrete case: nine particles, with the start values of the benchmark
    (0 and 10 for sine and 10 plus cosine) and rationals, where the square root is
    replaced by the identity. *)
Definition start (c : coordinate) (i : Z) : Qc :=
  Q2Qc (inject_Z match c with PosX => i | PosY => i * i | PosZ => 0 | VelX => i mod 11 | VelY => i mod 13 | VelZ => i mod 19 | Charge => 10 end).

Definition inverse (d : Qc) : Qc := Qcdiv (Q2Qc 1) d.

Example C82_case :
  let pick (o : option ((coordinate -> Z -> Qc) * (coordinate -> Z -> Qc))) (i : Z) :=
    match o with Some (a, _) => [this (a PosX i); this (a VelX i)] | None => [] end in
  let a := pick (repetitions 1 9 (scalar_step rationals 9 9) start start) in
  let b := pick (repetitions 1 128 (short_vec_step rationals 128 9) start start) in
  let c := pick (repetitions 1 9 (avx_step rationals inverse inverse 9 9) start start) in
  let d := pick (repetitions 1 9 (pepper_step rationals true inverse inverse 9) start start) in
  a 7 = b 7 /\ a 7 = c 7 /\ a 7 = d 7 /\ a 8 = b 8 /\ a 8 = d 8 /\
  c 8 = [this (start PosX 8); this (start VelX 8)] /\ hd (0 # 1)%Q (a 8) = (1001 # 125)%Q.
Proof. vm_compute. repeat split; reflexivity. Qed.

Print Assumptions C82_scalar.
Print Assumptions C82_short_vec.
Print Assumptions C82_capacity.
Print Assumptions C82_pepper_partial.
Print Assumptions C82_pepper_buffer_refuted.
Print Assumptions C82_avx.
Print Assumptions C82_species_partial.
Print Assumptions C82_runs.
Print Assumptions C82_rest_refuted.
Print Assumptions C82_momentum.
