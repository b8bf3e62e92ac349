From Coq Require Import ZArith List Bool Lia Permutation Ring_theory Field_theory Ring Field ZifyBool.
From Verif Require Import Base Peeler Layout LayoutProofs Sizes SizesProofs Mem MemProofs Accessor AccessorProofs RegionProofs Grid GridProofs GridOps Cuda CudaProofs Sph SphProofs Lbm SpecLbm.
Import ListNotations.
Local Open Scope Z_scope.

(** ** The text of the update *)
Section Text.
Context {T : Type} (K : arith T).

(** The update as a function of the components arriving. *)
Definition text_at (f : dir -> T) : list (dir * T) := update_text K (fun _ _ _ d => f d) 0 0 0.

Lemma text_pulls : forall g x y z, update_text K g x y z = text_at (fun d => g (x - cx d) (y - cy d) (z - cz d) d).
Proof.
  intros g x y z. unfold text_at, update_text. cbv beta zeta. cbn [cx cy cz].
  rewrite !Z.sub_0_r. change (x - -1) with (x + 1). change (y - -1) with (y + 1). change (z - -1) with (z + 1).
  reflexivity.
Qed.

Definition collide (f : dir -> T) (d : dir) : T :=
  match find (fun p => code (fst p) =? code d) (text_at f) with
  | Some p => snd p
  | None => f d
  end.

Lemma text_collide : forall f, text_at f = map (fun d => (d, collide f d)) (map fst (text_at f)).
Proof. intros f. reflexivity. Qed.
End Text.

Lemma text_lift : forall {T : Type} (K : arith T) f,
  text_at (lift K) (fun d => Some (f d)) = map (fun p => (fst p, Some (snd p))) (text_at K f).
Proof. intros. reflexivity. Qed.


(** ** Memory *)
Section Memory.
Context {T : Type} (K : arith T).

Lemma text_ext : forall (f g : dir -> option T), (forall d, f d = g d) -> text_at (lift K) f = text_at (lift K) g.
Proof. intros f g H. unfold text_at, update_text. cbv zeta. rewrite !H. reflexivity. Qed.

Definition order : list dir := map fst (text_at K (fun _ => r_pi K)).

Lemma order_all : forall d, In d order.
Proof. intros d. destruct d; cbv [order text_at update_text map fst]; repeat (first [left; reflexivity|right]). Qed.
Lemma order_NoDup : NoDup order.
Proof. repeat constructor; cbn; intuition discriminate. Qed.

Lemma store_all_ok : forall size s (m : Z -> T), NoDup (map fst s) ->
  Forall (fun p => (exists v, snd p = Some v) /\ 0 <= fst p /\ fst p + 8 <= size) s ->
  exists m', store_all size s m = Some m' /\
    (forall a v, In (a, Some v) s -> m' a = v) /\ (forall b, ~ In b (map fst s) -> m' b = m b).
Proof.
  intros size s. induction s as [|[a o] s IH]; intros m HN HF.
  { exists m. split; [reflexivity|]. split; [intros a v []|reflexivity]. }
  inversion HN as [|? ? Ha HN']; subst. inversion HF as [|? ? [[v Ev] B] HF']; subst. cbn [fst snd] in Ev, B. subst o.
  cbn [store_all]. replace ((0 <=? a) && (a + 8 <=? size)) with true by lia.
  destruct (IH (fun b => if b =? a then v else m b) HN' HF') as [m' [E [I1 I2]]].
  exists m'. split; [exact E|]. split.
  - intros a' v' [Eq|Hin]; [|auto]. injection Eq as -> ->. rewrite I2 by exact Ha. now rewrite Z.eqb_refl.
  - intros b Hb. cbn [map fst] in Hb. rewrite I2 by (intros C; apply Hb; right; exact C).
    destruct (Z.eqb_spec b a) as [->|]; [exfalso; apply Hb; left; reflexivity|reflexivity].
Qed.

Section Linear.
(** [addr i d]: component d of cell number i; [delta d]: how many cells further
    the velocity of d leads. *)
Context (N size : Z) (addr : Z -> dir -> Z) (delta : dir -> Z).
Hypothesis Hin : forall i d, 0 <= i < N -> 0 <= addr i d /\ addr i d + 8 <= size.
Hypothesis Hinj : forall i j d d', 0 <= i < N -> 0 <= j < N -> addr i d = addr j d' -> i = j /\ d = d'.

Definition cell_stores (old : Z -> T) (i : Z) : list (Z * option T) :=
  map (fun p => (addr i (fst p), snd p)) (text_at (lift K) (fun d => load old size (addr (i - delta d) d))).

Definition good (i : Z) : Prop := 0 <= i < N /\ forall d, 0 <= i - delta d < N.

Definition came (old : Z -> T) (i : Z) (d : dir) : T := old (addr (i - delta d) d).

Lemma cell_stores_ok : forall old i, good i ->
  cell_stores old i = map (fun d => (addr i d, Some (collide K (came old i) d))) order.
Proof.
  intros old i [Hi Hd]. unfold cell_stores.
  rewrite (text_ext _ (fun d => Some (came old i d))).
  - rewrite text_lift. reflexivity.
  - intros d. unfold load. destruct (Hin _ d (Hd d)). replace (_ && _) with true by lia. reflexivity.
Qed.

Lemma stores_result : forall old new L s, NoDup L -> (forall i, In i L -> good i) ->
  Permutation (flat_map (cell_stores old) L) s ->
  exists new', store_all size s new = Some new' /\
    (forall i d, In i L -> new' (addr i d) = collide K (came old i) d) /\
    (forall b, (forall i d, In i L -> b <> addr i d) -> new' b = new b).
Proof.
  intros old new L s HN HG HP.
  assert (E : flat_map (cell_stores old) L =
              flat_map (fun i => map (fun d => (addr i d, Some (collide K (came old i) d))) order) L)
    by (apply flat_map_ext_in; intros i Hi; apply cell_stores_ok; auto).
  rewrite E in HP. clear E.
  set (P := flat_map (fun i => map (fun d => (addr i d, Some (collide K (came old i) d))) order) L) in *.
  assert (Pin : forall a o, In (a, o) P <-> exists i d, In i L /\ a = addr i d /\ o = Some (collide K (came old i) d)).
  { intros a o. unfold P. rewrite in_flat_map. split.
    - intros [i [Hi Hm]]. apply in_map_iff in Hm as [d [Eq _]]. injection Eq as <- <-. eauto.
    - intros [i [d [Hi [-> ->]]]]. exists i. split; auto. apply in_map_iff. exists d. split; auto. apply order_all. }
  destruct (store_all_ok size s new) as [m' [E [I1 I2]]].
  - rewrite <- HP. unfold P. rewrite flat_map_concat_map, concat_map, map_map, <- flat_map_concat_map.
    apply NoDup_flat_map; auto.
    + intros i Hi. rewrite map_map. cbn [fst]. apply NoDup_map_inj; [|apply order_NoDup].
      intros d d' _ _ Eq. apply Hinj in Eq as [_ Eq]; auto; apply HG; auto.
    + intros i j a Hi Hj Ha Hb. rewrite map_map in Ha, Hb. cbn [fst] in Ha, Hb.
      apply in_map_iff in Ha as [d [Ea _]]. apply in_map_iff in Hb as [d' [Eb _]]. rewrite <- Eb in Ea.
      apply Hinj in Ea as [Eq _]; auto; apply HG; auto.
  - rewrite <- HP. apply Forall_forall. intros [a o] Hp. apply Pin in Hp as [i [d [Hi [-> ->]]]]. cbn [fst snd].
    split; [eauto|]. apply Hin. apply HG; auto.
  - exists m'. split; [exact E|]. split.
    + intros i d Hi. apply I1. rewrite <- HP. apply Pin. exists i, d. auto.
    + intros b Hb. apply I2. rewrite <- HP. intros C. apply in_map_iff in C as [[a o] [Eq Hp]]. cbn [fst] in Eq. subst a.
      apply Pin in Hp as [i [d [Hi [Ea _]]]]. exact (Hb i d Hi Ea).
Qed.
End Linear.

(** ** Threads *)
Lemma launch_columns : forall (B : Type) (F : Z -> Z -> list B) g b, launchable (g, b) = true ->
  d_z g = 1 -> d_z b = 1 -> 0 < d_x b -> 0 < d_y b -> d_x g * d_x b <= 2 ^ 32 -> d_y g * d_y b <= 2 ^ 32 ->
  concat (launch (g, b) (fun bd t => let '(px, py, _) := t in F (global_id (d_x bd) px + 2) (global_id (d_y bd) py + 2))) =
  flat_map (fun y => flat_map (fun x => F (x + 2) (y + 2)) (zseq (d_x g * d_x b))) (zseq (d_y g * d_y b)).
Proof.
  intros B F g b HL Zg Zb Xb Yb X32 Y32. unfold launch, threads. rewrite HL. cbn [snd].
  assert (G : 1 <= d_x g /\ 1 <= d_y g) by (unfold launchable in HL; lia).
  rewrite Zg, Zb. change (axis 1 1) with [(0, 0)]. cbn [flat_map]. rewrite app_nil_r.
  rewrite <- flat_map_concat_map, flat_map_flat_map.
  rewrite <- (global_ids (d_y g) (d_y b)) by lia. rewrite flat_map_map. apply flat_map_ext_in. intros py _.
  rewrite flat_map_map. rewrite <- (global_ids (d_x g) (d_x b)) by lia. rewrite flat_map_map. reflexivity.
Qed.

Section Box.
Context (nx ny dimX dimY dimZ : Z).
Hypothesis Hx : nx <= dimX.
Hypothesis Hy : ny <= dimY.

Definition lin (x y z : Z) : Z := z * dimX * dimY + y * dimX + x.

Definition box : list Z :=
  flat_map (fun y => flat_map (fun x => map (lin (x + 2) (y + 2)) (range 2 (dimZ - 2))) (zseq nx)) (zseq ny).

Lemma in_box : forall i, In i box <->
  exists x y z, 2 <= x < 2 + nx /\ 2 <= y < 2 + ny /\ 2 <= z < dimZ - 2 /\ i = lin x y z.
Proof.
  intros i. unfold box. rewrite in_flat_map. split.
  - intros [y [Hy' H]]. apply in_flat_map in H as [x [Hx' H]]. apply in_map_iff in H as [z [<- Hz]].
    apply in_zseq in Hy', Hx'. apply in_range_iff in Hz. exists (x + 2), (y + 2), z. lia.
  - intros [x [y [z [A [B [C ->]]]]]]. exists (y - 2). split; [apply in_zseq; lia|].
    apply in_flat_map. exists (x - 2). split; [apply in_zseq; lia|]. apply in_map_iff. exists z.
    split; [f_equal; lia|apply in_range_iff; lia].
Qed.

Lemma lin_inj : forall x y z x' y' z',
  2 <= x < 2 + nx -> 2 <= y < 2 + ny -> 2 <= x' < 2 + nx -> 2 <= y' < 2 + ny ->
  lin x y z = lin x' y' z' -> x = x' /\ y = y' /\ z = z'.
Proof.
  intros x y z x' y' z' A B A' B' E. unfold lin in E.
  assert (Ez : z * dimY + (y - 2) = z' * dimY + (y' - 2)).
  { assert (E2 : (z * dimY + (y - 2)) * dimX + (x - 2) = (z' * dimY + (y' - 2)) * dimX + (x' - 2)) by lia.
    assert (D : forall q r, 0 <= r < dimX -> (q * dimX + r) / dimX = q)
      by (intros q r Hr; rewrite Z.div_add_l, Z.div_small; lia).
    rewrite <- (D (z * dimY + (y - 2)) (x - 2)), <- (D (z' * dimY + (y' - 2)) (x' - 2)) by lia. now rewrite E2. }
  assert (z = z').
  { assert (D : forall q r, 0 <= r < dimY -> (q * dimY + r) / dimY = q)
      by (intros q r Hr; rewrite Z.div_add_l, Z.div_small; lia).
    rewrite <- (D z (y - 2)), <- (D z' (y' - 2)) by lia. now rewrite Ez. }
  subst z'. assert (y = y') by lia. subst y'. lia.
Qed.

Lemma box_NoDup : NoDup box.
Proof.
  unfold box. apply NoDup_flat_map; [apply NoDup_zseq| |].
  - intros y Hy'. apply in_zseq in Hy'. apply NoDup_flat_map; [apply NoDup_zseq| |].
    + intros x Hx'. apply in_zseq in Hx'. apply NoDup_map_inj.
      * intros z z' _ _ E. apply lin_inj in E; lia.
      * unfold range. apply NoDup_map_inj; [intros; lia|apply NoDup_zseq].
    + intros x x' i Hx1 Hx2 H1 H2. apply in_zseq in Hx1, Hx2. apply in_map_iff in H1 as [z [<- _]].
      apply in_map_iff in H2 as [z' [E _]]. apply lin_inj in E; lia.
  - intros y y' i Hy1 Hy2 H1 H2. apply in_zseq in Hy1, Hy2.
    apply in_flat_map in H1 as [x [Hx1 H1]]. apply in_flat_map in H2 as [x' [Hx2 H2]]. apply in_zseq in Hx1, Hx2.
    apply in_map_iff in H1 as [z [<- _]]. apply in_map_iff in H2 as [z' [E _]]. apply lin_inj in E; lia.
Qed.
End Box.

(** ** The three layouts *)
Definition delta (dimX dimY : Z) (d : dir) : Z := cx d + cy d * dimX + cz d * dimX * dimY.

Lemma lin_delta : forall dimX dimY x y z d,
  lin dimX dimY (x - cx d) (y - cy d) (z - cz d) = lin dimX dimY x y z - delta dimX dimY d.
Proof. intros. unfold lin, delta. lia. Qed.

Lemma velocity : forall d, -1 <= cx d <= 1 /\ -1 <= cy d <= 1 /\ -1 <= cz d <= 1.
Proof. intros []; cbn; lia. Qed.

Definition flat_addr (P i : Z) (d : dir) : Z := P * (8 * Z.of_nat (registered d)) + 8 * i.

Lemma component_addr : forall e i I d, component (mkAcc e i I) d = Some (flat_addr (DIM_PROD e) (i + I) d).
Proof. intros e i I d. unfold flat_addr. destruct d; unfold component, member_addr; cbn -[Z.mul Z.add DIM_PROD]; f_equal; lia. Qed.

Section Kernels.
Context (g b : dim3).
Let nx := d_x g * d_x b.
Let ny := d_y g * d_y b.
Hypothesis HL : plain g b.

Lemma box_stores : forall dimX dimY dimZ size addr (old : Z -> T) F,
  (forall x y, F x y = flat_map (fun z => cell_stores size addr (delta dimX dimY) old (lin dimX dimY x y z)) (range 2 (dimZ - 2))) ->
  concat (launch (g, b) (fun bd t => let '(px, py, _) := t in F (global_id (d_x bd) px + 2) (global_id (d_y bd) py + 2))) =
  flat_map (cell_stores size addr (delta dimX dimY) old) (box nx ny dimX dimY dimZ).
Proof.
  intros dimX dimY dimZ size addr old F HF. destruct HL as [? [? [? [? [? [? ?]]]]]].
  rewrite launch_columns by auto. unfold box. rewrite flat_map_flat_map. apply flat_map_ext_in. intros y _.
  rewrite flat_map_flat_map. apply flat_map_ext_in. intros x _. rewrite HF, flat_map_map. reflexivity.
Qed.

Definition classic_addr (N i : Z) (d : dir) : Z := 8 * (i + code d * N).

Lemma classic_stores : forall dimX dimY dimZ size old,
  concat (launch (g, b) (update_lbm_classic K dimX dimY dimZ size old)) =
  flat_map (cell_stores size (classic_addr (dimX * dimY * dimZ)) (delta dimX dimY) old) (box nx ny dimX dimY dimZ).
Proof.
  intros dimX dimY dimZ size old.
  rewrite <- (box_stores dimX dimY dimZ size (classic_addr (dimX * dimY * dimZ)) old (fun x y =>
    flat_map (fun z => map (fun '(d, v) => (8 * classic_index dimX dimY dimZ x y z d, v))
        (update_text (lift K) (fun X Y Z d => load old size (8 * classic_index dimX dimY dimZ X Y Z d)) x y z))
    (range 2 (dimZ - 2)))); [reflexivity|].
  intros x y. apply flat_map_ext_in. intros z _. unfold cell_stores. rewrite text_pulls.
  rewrite (text_ext _ (fun d => load old size (classic_addr (dimX * dimY * dimZ) (lin dimX dimY x y z - delta dimX dimY d) d))).
  - apply map_ext. intros [d v]. cbn [fst snd]. unfold classic_index, classic_addr, lin. f_equal. lia.
  - intros d. rewrite <- lin_delta. unfold classic_index, classic_addr, lin. f_equal. lia.
Qed.

Definition object_addr (i : Z) (d : dir) : Z := i * (19 * 8) + 8 * field d.

Lemma object_stores : forall dimX dimY dimZ size old,
  concat (launch (g, b) (update_lbm_object_oriented K dimX dimY dimZ size old)) =
  flat_map (cell_stores size object_addr (delta dimX dimY) old) (box nx ny dimX dimY dimZ).
Proof.
  intros dimX dimY dimZ size old.
  rewrite <- (box_stores dimX dimY dimZ size object_addr old (fun x y =>
    flat_map (fun z => map (fun '(d, v) => (object_address dimX dimY x y z d, v))
        (update_text (lift K) (fun X Y Z d => load old size (object_address dimX dimY X Y Z d)) x y z))
    (range 2 (dimZ - 2)))); [reflexivity|].
  intros x y. apply flat_map_ext_in. intros z _. unfold cell_stores. rewrite text_pulls.
  rewrite (text_ext _ (fun d => load old size (object_addr (lin dimX dimY x y z - delta dimX dimY d) d))).
  - apply map_ext. intros [d v]. reflexivity.
  - intros d. rewrite <- lin_delta. reflexivity.
Qed.

Lemma line_stores : forall k e size old i,
  line K k size old (mkAcc e i 0) (mkAcc e i 0) (DIM_X e * DIM_Y e) (DIM_X e * DIM_Y e) =
  flat_map (fun n => cell_stores size (flat_addr (DIM_PROD e)) (delta (DIM_X e) (DIM_Y e)) old (i + n * (DIM_X e * DIM_Y e)))
           (zseq (Z.of_nat k)).
Proof.
  induction k as [|k IH]; intros e size old i; [reflexivity|].
  cbn [line]. unfold acc_add. cbn [a_ext a_index a_INDEX]. rewrite IH.
  rewrite Nat2Z.inj_succ. replace (Z.succ (Z.of_nat k)) with (1 + Z.of_nat k) by lia.
  rewrite zseq_app by lia. change (zseq 1) with [0]. cbn [app flat_map]. f_equal.
  - replace (i + 0 * (DIM_X e * DIM_Y e)) with i by lia. unfold cell_stores. rewrite text_pulls.
    rewrite (text_ext _ (fun d => load old size (flat_addr (DIM_PROD e) (i - delta (DIM_X e) (DIM_Y e) d) d))).
    + rewrite flat_map_concat_map. rewrite (map_ext _ (fun p => [(flat_addr (DIM_PROD e) i (fst p), snd p)])).
      * rewrite <- flat_map_concat_map. induction (text_at _ _) as [|p l IHl]; [reflexivity|]. cbn [flat_map map app]. now rewrite IHl.
      * intros [d v]. rewrite component_addr, Z.add_0_r. reflexivity.
    + intros d. unfold at_coord. cbn [a_ext a_index a_INDEX]. rewrite component_addr. do 2 f_equal. unfold LFA_INDEX, delta. lia.
  - rewrite flat_map_map. apply flat_map_ext_in. intros n _. f_equal. lia.
Qed.

Lemma flat_stores : forall e size startZ endZ old, startZ = 2 -> 0 <= endZ ->
  concat (launch (g, b) (updateLine K e e size startZ endZ old)) =
  flat_map (cell_stores size (flat_addr (DIM_PROD e)) (delta (DIM_X e) (DIM_Y e)) old) (box nx ny (DIM_X e) (DIM_Y e) (endZ + 2)).
Proof.
  intros e size startZ endZ old -> He.
  rewrite <- (box_stores (DIM_X e) (DIM_Y e) (endZ + 2) size (flat_addr (DIM_PROD e)) old (fun x y =>
     line K (Z.to_nat (endZ - 2)) size old (mkAcc e (gen_index e x y 2) 0) (mkAcc e (gen_index e x y 2) 0)
       (DIM_X e * DIM_Y e) (DIM_X e * DIM_Y e))); [reflexivity|].
  intros x y. rewrite line_stores. unfold range. replace (endZ + 2 - 2 - 2) with (endZ - 2) by lia. rewrite flat_map_map.
  replace (zseq (Z.of_nat (Z.to_nat (endZ - 2)))) with (zseq (endZ - 2)) by (unfold zseq; do 2 f_equal; lia).
  apply flat_map_ext_in. intros n _. f_equal. unfold gen_index, lin. lia.
Qed.
End Kernels.

Lemma classic_in : forall N size i d, 8 * 19 * N <= size -> 0 <= i < N -> 0 <= classic_addr N i d /\ classic_addr N i d + 8 <= size.
Proof. intros N size i d Hs Hi. unfold classic_addr. destruct d; cbn [code]; lia. Qed.
Lemma classic_inj : forall N i j d d', 0 <= i < N -> 0 <= j < N -> classic_addr N i d = classic_addr N j d' -> i = j /\ d = d'.
Proof.
  intros N i j d d' Hi Hj E. unfold classic_addr in E.
  assert (C : code d = code d').
  { assert (D : forall k c, 0 <= k < N -> (c * N + k) / N = c) by (intros k c Hk; rewrite Z.div_add_l, Z.div_small; lia).
    rewrite <- (D i (code d)), <- (D j (code d')) by lia. f_equal. lia. }
  split; [rewrite C in E; lia|]. destruct d, d'; cbn in C; congruence || discriminate.
Qed.
Lemma object_in : forall N size i d, 8 * 19 * N <= size -> 0 <= i < N -> 0 <= object_addr i d /\ object_addr i d + 8 <= size.
Proof. intros N size i d Hs Hi. unfold object_addr. destruct d; cbn [field]; lia. Qed.
Lemma object_inj : forall i j d d', object_addr i d = object_addr j d' -> i = j /\ d = d'.
Proof.
  intros i j d d' E. unfold object_addr in E.
  assert (Fd : forall d, 0 <= field d < 19) by (intros []; cbn; lia). pose proof (Fd d). pose proof (Fd d').
  assert (i = j) by lia. split; [auto|]. assert (C : field d = field d') by lia. destruct d, d'; cbn in C; congruence || discriminate.
Qed.
Lemma flat_in : forall N size i d, 8 * 19 * N <= size -> 0 <= i < N -> 0 <= flat_addr N i d /\ flat_addr N i d + 8 <= size.
Proof. intros N size i d Hs Hi. unfold flat_addr. destruct d; cbn [registered]; lia. Qed.
Lemma flat_inj : forall N i j d d', 0 <= i < N -> 0 <= j < N -> flat_addr N i d = flat_addr N j d' -> i = j /\ d = d'.
Proof.
  intros N i j d d' Hi Hj E. unfold flat_addr in E.
  assert (C : Z.of_nat (registered d) = Z.of_nat (registered d')).
  { assert (D : forall k c, 0 <= k < N -> (c * N + k) / N = c) by (intros k c Hk; rewrite Z.div_add_l, Z.div_small; lia).
    rewrite <- (D i (Z.of_nat (registered d))), <- (D j (Z.of_nat (registered d'))) by lia. f_equal. lia. }
  split; [rewrite C in E; lia|]. destruct d, d'; cbn in C; congruence || discriminate.
Qed.

(** ** Grids *)
Lemma collide_ext : forall (f h : dir -> T), (forall d, f d = h d) -> forall d, collide K f d = collide K h d.
Proof.
  intros f h H d. unfold collide. rewrite H.
  replace (text_at K f) with (text_at K h); [reflexivity|].
  unfold text_at, update_text. cbv zeta. rewrite !H. reflexivity.
Qed.

Lemma lin_range : forall DX DY DZ x y z, 0 <= x < DX -> 0 <= y < DY -> 0 <= z < DZ -> 0 <= lin DX DY x y z < DX * DY * DZ.
Proof.
  intros DX DY DZ x y z A B C. unfold lin.
  assert (P : 0 <= DX * DY) by nia. assert (0 <= y * DX) by nia. assert (y * DX <= (DY - 1) * DX) by nia.
  assert (0 <= z * (DX * DY)) by (apply Z.mul_nonneg_nonneg; lia).
  assert (z * (DX * DY) <= (DZ - 1) * (DX * DY)) by (apply Z.mul_le_mono_nonneg_r; lia). lia.
Qed.

Lemma lin_unique : forall DX DY x y z x' y' z', 0 <= x < DX -> 0 <= y < DY -> 0 <= x' < DX -> 0 <= y' < DY ->
  lin DX DY x y z = lin DX DY x' y' z' -> x = x' /\ y = y' /\ z = z'.
Proof.
  intros DX DY x y z x' y' z' A B A' B' E.
  destruct (lin_inj DX DY DX DY (Z.le_refl _) (Z.le_refl _) (x + 2) (y + 2) z (x' + 2) (y' + 2) z'); try lia.
  unfold lin in *. lia.
Qed.

Lemma columns_iff : forall nx ny dimZ x y z, columns nx ny dimZ x y z = true <->
  2 <= x < 2 + nx /\ 2 <= y < 2 + ny /\ 2 <= z < dimZ - 2.
Proof. intros. unfold columns. lia. Qed.

Section Coordinates.
Context (DX DY DZ size dimX dimY dimZ nx ny : Z) (addr : Z -> dir -> Z).
Let N := DX * DY * DZ.
Hypothesis Hin : forall i d, 0 <= i < N -> 0 <= addr i d /\ addr i d + 8 <= size.
Hypothesis Hinj : forall i j d d', 0 <= i < N -> 0 <= j < N -> addr i d = addr j d' -> i = j /\ d = d'.
Hypothesis Hdx : dimX <= DX.
Hypothesis Hdy : dimY <= DY.
Hypothesis Hdz : dimZ <= DZ.
Hypothesis Hnx : nx + 3 <= dimX.
Hypothesis Hny : ny + 3 <= dimY.

Lemma sweep_result : forall old new f h s,
  holds (fun x y z => addr (lin DX DY x y z)) dimX dimY dimZ old f ->
  holds (fun x y z => addr (lin DX DY x y z)) dimX dimY dimZ new h ->
  Permutation (flat_map (cell_stores size addr (delta DX DY) old) (box nx ny DX DY dimZ)) s ->
  exists new', store_all size s new = Some new' /\
    holds (fun x y z => addr (lin DX DY x y z)) dimX dimY dimZ new' (sweep (collide K) (columns nx ny dimZ) f h).
Proof.
  intros old new f h s Ho Hn HP.
  destruct (stores_result N size addr (delta DX DY) Hin Hinj old new (box nx ny DX DY dimZ) s) as [new' [E [I1 I2]]].
  - apply box_NoDup; lia.
  - intros i Hi. apply in_box in Hi as [x [y [z [A [B [C ->]]]]]]. split; [apply lin_range; lia|].
    intros d. rewrite <- lin_delta. destruct (velocity d) as [? [? ?]]. apply lin_range; lia.
  - exact HP.
  - exists new'. split; [exact E|]. intros x y z d A B C. cbv beta. unfold sweep.
    destruct (columns nx ny dimZ x y z) eqn:EC.
    + apply columns_iff in EC. rewrite I1 by (apply in_box; exists x, y, z; lia).
      apply collide_ext. intros d'. unfold came, arriving. rewrite <- lin_delta. destruct (velocity d') as [? [? ?]].
      apply Ho; lia.
    + rewrite I2; [apply Hn; auto|]. intros i d' Hi Ea. apply in_box in Hi as [x' [y' [z' [A' [B' [C' ->]]]]]].
      apply Hinj in Ea as [Ei _]; [|apply lin_range; lia|apply lin_range; lia].
      apply lin_unique in Ei as [-> [-> ->]]; try lia.
      assert (columns nx ny dimZ x' y' z' = true) by (apply columns_iff; lia). congruence.
Qed.
End Coordinates.
End Memory.

(** ** By number *)
Section Numbers.
Context {T : Type} (K : arith T).
Context (g b : dim3).
Hypothesis HL : plain g b.

Lemma by_number : forall DX DY DZ dimZ size addr kernel,
  (forall i d, 0 <= i < DX * DY * DZ -> 0 <= addr i d /\ addr i d + 8 <= size) ->
  (forall i j d d', 0 <= i < DX * DY * DZ -> 0 <= j < DX * DY * DZ -> addr i d = addr j d' -> i = j /\ d = d') ->
  d_x g * d_x b <= DX -> d_y g * d_y b <= DY -> 4 <= DX -> 4 <= DY -> dimZ <= DZ ->
  (forall old, concat (launch (g, b) (kernel old)) =
     flat_map (cell_stores K size addr (delta DX DY) old) (box (d_x g * d_x b) (d_y g * d_y b) DX DY dimZ)) ->
  performs_by_number (collide K) (g, b) kernel size addr (DX * DY * DZ) DX DY (d_x g * d_x b) (d_y g * d_y b) dimZ.
Proof.
  intros DX DY DZ dimZ size addr kernel Hin Hinj Hx Hy DX4 DY4 HZ HK old new s Hs.
  set (nx := d_x g * d_x b) in *. set (ny := d_y g * d_y b) in *.
  assert (HW : forall i, In i (box nx ny DX DY dimZ) <-> written DX DY nx ny dimZ i).
  { intros i. rewrite in_box. unfold written. split; intros [x [y [z H]]]; exists x, y, z.
    - destruct H as [A [B [C E]]]. split; [apply columns_iff; auto|exact E].
    - destruct H as [A E]. apply columns_iff in A as [A [B C]]. auto. }
  destruct (stores_result K (DX * DY * DZ) size addr (delta DX DY) Hin Hinj old new (box nx ny DX DY dimZ) s)
    as [new' [E [I1 I2]]].
  - apply box_NoDup; lia.
  - intros i Hi. apply in_box in Hi as [x [y [z [A [B [C ->]]]]]].
    assert (G : forall x y z, 1 <= x <= nx + 2 -> 1 <= y <= ny + 2 -> 1 <= z <= dimZ - 2 ->
                0 <= lin DX DY x y z < DX * DY * DZ).
    { intros x' y' z' A' B' C'. unfold lin.
      assert (P : 0 < DX * DY) by nia. assert (0 <= y' * DX) by nia. assert (y' * DX <= (DY + 2) * DX) by nia.
      assert (0 <= z' * (DX * DY)) by (apply Z.mul_nonneg_nonneg; lia).
      assert (z' * (DX * DY) <= (DZ - 2) * (DX * DY)) by (apply Z.mul_le_mono_nonneg_r; lia).
      assert (3 * DX + 2 < DX * DY) by nia. lia. }
    split; [apply G; lia|]. intros d. rewrite <- lin_delta. destruct (velocity d) as [? [? ?]]. apply G; lia.
  - rewrite <- HK. apply interleave_perm. exact Hs.
  - exists new'. split; [exact E|]. intros i d Hi. split; intros W.
    + rewrite I1 by (apply HW; exact W). apply collide_ext. intros d'. unfold came. do 2 f_equal.
      unfold delta, number. lia.
    + apply I2. intros j d' Hj Ea. apply HW in Hj as Wj. apply Hinj in Ea as [-> _]; auto.
      apply in_box in Hj as [x [y [z [A [B [C ->]]]]]]. unfold lin.
      assert (P : 0 < DX * DY) by nia. assert (0 <= y * DX) by nia. assert (y * DX <= (DY + 1) * DX) by nia.
      assert (0 <= z * (DX * DY)) by (apply Z.mul_nonneg_nonneg; lia).
      assert (z * (DX * DY) <= (DZ - 3) * (DX * DY)) by (apply Z.mul_le_mono_nonneg_r; lia).
      assert (3 * DX + 2 < DX * DY) by nia. lia.
Qed.
End Numbers.

(** ** The launch of the benchmark *)
Lemma widen_ok : forall f dim w, 1 <= w <= 2 * dim -> dim < w * 2 ^ Z.of_nat f ->
  dim < widen f dim w <= 2 * dim.
Proof.
  induction f as [|f IH]; intros dim w H F.
  - cbn [widen]. change (2 ^ Z.of_nat 0) with 1 in F. lia.
  - cbn [widen]. destruct (Z.leb_spec w dim); [|lia].
    apply IH; [lia|]. rewrite Nat2Z.inj_succ, Z.pow_succ_r in F by lia. lia.
Qed.

Lemma widen_power : forall f dim k, 0 <= k -> exists k', 0 <= k' /\ widen f dim (2 ^ k) = 2 ^ k'.
Proof.
  induction f as [|f IH]; intros dim k Hk; cbn [widen]; [eauto|].
  destruct (2 ^ k <=? dim); [|eauto]. replace (2 ^ k * 2) with (2 ^ (k + 1)) by (rewrite Z.pow_add_r; lia).
  apply IH. lia.
Qed.

Lemma pow_gt : forall n, Z.of_nat n < 2 ^ Z.of_nat n.
Proof.
  induction n; [reflexivity|]. rewrite Nat2Z.inj_succ, Z.pow_succ_r by lia. lia.
Qed.

Lemma gen_dims_ok : forall dim, 1 <= dim ->
  exists k w, 0 <= k /\ w = 2 ^ k /\ w <= dim /\ w <= 256 /\ (w = 256 \/ dim < 2 * w) /\
  gen_dims dim = (mkDim3 (dim / w) (dim / 2) 1, mkDim3 w 2 1).
Proof.
  intros dim Hd. unfold gen_dims. cbn [d_x d_y].
  destruct (widen_ok (Z.to_nat dim + 1) dim 1) as [L U]; [lia| |].
  { pose proof (pow_gt (Z.to_nat dim + 1)). lia. }
  destruct (widen_power (Z.to_nat dim + 1) dim 0) as [k [Hk E]]; [lia|]. change (2 ^ 0) with 1 in E.
  rewrite E in L, U |- *.
  assert (1 <= k) by (destruct (Z.eq_dec k 0) as [->|]; [change (2 ^ 0) with 1 in *; lia|lia]).
  assert (E2 : 2 ^ k = 2 * 2 ^ (k - 1)) by (rewrite <- Z.pow_succ_r by lia; f_equal; lia).
  rewrite E2 in L, U |- *. rewrite Z.mul_comm, Z.div_mul by lia.
  destruct (Z.le_ge_cases 256 (2 ^ (k - 1))).
  - exists 8, 256. rewrite Z.min_l by lia. repeat split; lia.
  - exists (k - 1), (2 ^ (k - 1)). rewrite Z.min_r by lia. repeat split; lia.
Qed.

Lemma gen_dims_plain : forall dim, 2 <= dim <= 131071 ->
  plain (fst (gen_dims dim)) (snd (gen_dims dim)) /\
  d_x (fst (gen_dims dim)) * d_x (snd (gen_dims dim)) <= dim /\
  d_y (fst (gen_dims dim)) * d_y (snd (gen_dims dim)) <= dim.
Proof.
  intros dim Hd. destruct (gen_dims_ok dim) as [k [w [Hk [Ew [W1 [W2 [_ ->]]]]]]]; [lia|]. cbn [fst snd d_x d_y d_z].
  assert (0 < w) by (rewrite Ew; apply Z.pow_pos_nonneg; lia).
  pose proof (Z.mul_div_le dim w). pose proof (Z.mul_div_le dim 2).
  assert (1 <= dim / w) by (apply Z.div_le_lower_bound; lia).
  assert (1 <= dim / 2) by (apply Z.div_le_lower_bound; lia).
  assert (dim / 2 < 65536) by (apply Z.div_lt_upper_bound; lia).
  assert (dim / w <= dim) by (apply Z.div_le_upper_bound; nia).
  split; [|lia]. unfold plain, launchable. cbn [d_x d_y d_z]. lia.
Qed.

(** ** Time steps *)
Lemma interleave_nil : forall (A : Type) (l : list (list A)) s, interleave l s -> interleave ([] :: l) s.
Proof.
  intros A l s H. induction H as [ths H|l1 x t l2 r H IH]; [apply il_done; auto|].
  exact (il_step ([] :: l1) x t l2 r IH).
Qed.

Lemma interleave_in_order : forall (A : Type) (l : list (list A)), interleave l (concat l).
Proof.
  intros A. induction l as [|t l IH]; [apply il_done; auto|]. cbn [concat].
  induction t as [|x t IHt]; cbn [app]; [apply interleave_nil; auto|]. exact (il_step [] x t l _ IHt).
Qed.

Lemma timesteps_sweeps : forall (T : Type) (collide : (dir -> T) -> dir -> T) cfg kernel size addr dimX dimY dimZ covered,
  performs cfg kernel size addr dimX dimY dimZ (sweep collide covered) ->
  forall n f h old new, holds addr dimX dimY dimZ old f -> holds addr dimX dimY dimZ new h ->
  (exists r, timesteps cfg kernel size n (old, new) r) /\
  forall r, timesteps cfg kernel size n (old, new) r ->
    holds addr dimX dimY dimZ (fst r) (fst (sweeps collide covered n (f, h))) /\
    holds addr dimX dimY dimZ (snd r) (snd (sweeps collide covered n (f, h))).
Proof.
  intros T collide cfg kernel size addr dimX dimY dimZ covered HP.
  induction n as [|n IH]; intros f h old new Ho Hn.
  - split; [eexists; constructor|]. intros r Hr. inversion Hr; subst. cbn [sweeps fst snd]. auto.
  - cbn [sweeps fst snd]. split.
    + destruct (HP f h old new _ Ho Hn (interleave_in_order _ _)) as [new' [E H']].
      destruct (IH (sweep collide covered f h) f new' old H' Ho) as [[r Hr] _].
      exists r. econstructor; [|exact Hr]. exists (concat (launch cfg (kernel old))). split; [apply interleave_in_order|exact E].
    + intros r Hr. inversion Hr as [|? ? ? ? ? [s [I E]] Hrest]; subst.
      destruct (HP f h old new s Ho Hn I) as [new'' [E' H']]. rewrite E in E'. injection E' as <-.
      exact (proj2 (IH _ _ _ _ H' Ho) r Hrest).
Qed.

(** ** The kernels *)
Lemma holds_ext : forall (T : Type) addr addr' dimX dimY dimZ (m : Z -> T) f,
  (forall x y z d, addr x y z d = addr' x y z d) ->
  holds addr dimX dimY dimZ m f -> holds addr' dimX dimY dimZ m f.
Proof. intros T addr addr' dimX dimY dimZ m f E H x y z d A B C. rewrite <- E. apply H; auto. Qed.

Section Performs.
Context {T : Type} (K : arith T) (g b : dim3).
Hypothesis HL : plain g b.

Lemma performs_boxes : forall DX DY DZ size dimX dimY dimZ lay addr kernel,
  (forall i d, 0 <= i < DX * DY * DZ -> 0 <= lay i d /\ lay i d + 8 <= size) ->
  (forall i j d d', 0 <= i < DX * DY * DZ -> 0 <= j < DX * DY * DZ -> lay i d = lay j d' -> i = j /\ d = d') ->
  dimX <= DX -> dimY <= DY -> dimZ <= DZ -> d_x g * d_x b + 3 <= dimX -> d_y g * d_y b + 3 <= dimY ->
  (forall x y z d, addr x y z d = lay (lin DX DY x y z) d) ->
  (forall old, concat (launch (g, b) (kernel old)) =
     flat_map (cell_stores K size lay (delta DX DY) old) (box (d_x g * d_x b) (d_y g * d_y b) DX DY dimZ)) ->
  performs (g, b) kernel size addr dimX dimY dimZ (sweep (collide K) (columns (d_x g * d_x b) (d_y g * d_y b) dimZ)).
Proof.
  intros DX DY DZ size dimX dimY dimZ lay addr kernel Hin Hinj X Y Z NX NY EA HK f h old new s Ho Hn Hs.
  apply interleave_perm in Hs. rewrite HK in Hs.
  destruct (sweep_result K DX DY DZ size dimX dimY dimZ (d_x g * d_x b) (d_y g * d_y b) lay Hin Hinj X Y Z NX NY
              old new f h s) as [new' [E H']]; auto.
  - eapply holds_ext; [|exact Ho]. intros. apply EA.
  - eapply holds_ext; [|exact Hn]. intros. apply EA.
  - exists new'. split; [exact E|]. eapply holds_ext; [|exact H']. intros. symmetry. apply EA.
Qed.

Lemma classic_performs : forall dimX dimY dimZ size,
  8 * 19 * (dimX * dimY * dimZ) <= size -> d_x g * d_x b + 3 <= dimX -> d_y g * d_y b + 3 <= dimY ->
  performs (g, b) (update_lbm_classic K dimX dimY dimZ size) size
    (fun x y z d => 8 * classic_index dimX dimY dimZ x y z d) dimX dimY dimZ
    (sweep (collide K) (columns (d_x g * d_x b) (d_y g * d_y b) dimZ)).
Proof.
  intros dimX dimY dimZ size Hs NX NY.
  apply (performs_boxes dimX dimY dimZ size dimX dimY dimZ (classic_addr (dimX * dimY * dimZ))); try lia.
  - intros i d Hi. apply classic_in; auto.
  - intros i j d d' Hi Hj. apply classic_inj; auto.
  - intros. unfold classic_index, classic_addr, lin. lia.
  - intros old. apply classic_stores. exact HL.
Qed.

Lemma object_performs : forall dimX dimY dimZ size,
  8 * 19 * (dimX * dimY * dimZ) <= size -> d_x g * d_x b + 3 <= dimX -> d_y g * d_y b + 3 <= dimY ->
  performs (g, b) (update_lbm_object_oriented K dimX dimY dimZ size) size
    (object_address dimX dimY) dimX dimY dimZ
    (sweep (collide K) (columns (d_x g * d_x b) (d_y g * d_y b) dimZ)).
Proof.
  intros dimX dimY dimZ size Hs NX NY.
  apply (performs_boxes dimX dimY dimZ size dimX dimY dimZ object_addr); try lia.
  - intros i d Hi. apply (object_in (dimX * dimY * dimZ)); auto.
  - intros i j d d' _ _. apply object_inj; auto.
  - intros. reflexivity.
  - intros old. apply object_stores. exact HL.
Qed.

Lemma flat_performs : forall e dimX dimY dimZ size,
  8 * 19 * DIM_PROD e <= size -> dimX <= DIM_X e -> dimY <= DIM_Y e -> dimZ <= DIM_Z e -> 2 <= dimZ ->
  d_x g * d_x b + 3 <= dimX -> d_y g * d_y b + 3 <= dimY ->
  performs (g, b) (updateLine K e e size 2 (dimZ - 2)) size
    (flat_position e) dimX dimY dimZ
    (sweep (collide K) (columns (d_x g * d_x b) (d_y g * d_y b) dimZ)).
Proof.
  intros e dimX dimY dimZ size Hs HX HY HZ Z2 NX NY.
  apply (performs_boxes (DIM_X e) (DIM_Y e) (DIM_Z e) size dimX dimY dimZ (flat_addr (DIM_PROD e))); try lia.
  - intros i d Hi. exact (flat_in _ _ _ _ Hs Hi).
  - intros i j d d' Hi Hj. exact (flat_inj _ _ _ _ _ Hi Hj).
  - intros x y z d. unfold flat_position. rewrite component_addr. f_equal. unfold gen_index, lin. lia.
  - intros old. rewrite flat_stores by (auto; lia). repeat f_equal. lia.
Qed.

Lemma classic_by_number : forall dimX dimY dimZ size,
  8 * 19 * (dimX * dimY * dimZ) <= size -> d_x g * d_x b <= dimX -> d_y g * d_y b <= dimY -> 4 <= dimX -> 4 <= dimY ->
  performs_by_number (collide K) (g, b) (update_lbm_classic K dimX dimY dimZ size) size
    (fun i d => 8 * (i + code d * (dimX * dimY * dimZ))) (dimX * dimY * dimZ) dimX dimY (d_x g * d_x b) (d_y g * d_y b) dimZ.
Proof.
  intros dimX dimY dimZ size Hs NX NY X4 Y4.
  apply (by_number K g b dimX dimY dimZ dimZ size (classic_addr (dimX * dimY * dimZ))); auto; try lia.
  - intros i d Hi. apply classic_in; auto.
  - intros i j d d' Hi Hj. apply classic_inj; auto.
  - intros old. apply classic_stores. exact HL.
Qed.

Lemma object_by_number : forall dimX dimY dimZ size,
  8 * 19 * (dimX * dimY * dimZ) <= size -> d_x g * d_x b <= dimX -> d_y g * d_y b <= dimY -> 4 <= dimX -> 4 <= dimY ->
  performs_by_number (collide K) (g, b) (update_lbm_object_oriented K dimX dimY dimZ size) size
    (fun i d => i * (19 * 8) + 8 * field d) (dimX * dimY * dimZ) dimX dimY (d_x g * d_x b) (d_y g * d_y b) dimZ.
Proof.
  intros dimX dimY dimZ size Hs NX NY X4 Y4.
  apply (by_number K g b dimX dimY dimZ dimZ size object_addr); auto; try lia.
  - intros i d Hi. apply (object_in (dimX * dimY * dimZ)); auto.
  - intros i j d d' _ _. apply object_inj; auto.
  - intros old. apply object_stores. exact HL.
Qed.

Lemma flat_by_number : forall e dimZ size,
  8 * 19 * DIM_PROD e <= size -> d_x g * d_x b <= DIM_X e -> d_y g * d_y b <= DIM_Y e -> 4 <= DIM_X e -> 4 <= DIM_Y e ->
  2 <= dimZ <= DIM_Z e ->
  performs_by_number (collide K) (g, b) (updateLine K e e size 2 (dimZ - 2)) size
    (fun i d => DIM_PROD e * (8 * Z.of_nat (registered d)) + 8 * i) (DIM_PROD e) (DIM_X e) (DIM_Y e)
    (d_x g * d_x b) (d_y g * d_y b) dimZ.
Proof.
  intros e dimZ size Hs NX NY X4 Y4 HZ.
  apply (by_number K g b (DIM_X e) (DIM_Y e) (DIM_Z e) dimZ size (flat_addr (DIM_PROD e))); auto; try lia.
  - intros i d Hi. exact (flat_in _ _ _ _ Hs Hi).
  - intros i j d d' Hi Hj. exact (flat_inj _ _ _ _ _ Hi Hj).
  - intros old. rewrite flat_stores by (auto; lia). repeat f_equal. lia.
Qed.
End Performs.

Lemma box_length : forall nx ny dimX dimY dimZ, 0 <= nx -> 0 <= ny -> 4 <= dimZ ->
  Z.of_nat (length (box nx ny dimX dimY dimZ)) = nx * ny * (dimZ - 4).
Proof.
  intros nx ny dimX dimY dimZ Hx Hy Hz.
  assert (C : forall (A B : Type) (f : A -> list B) k l, (forall a, length (f a) = k) -> length (flat_map f l) = (length l * k)%nat).
  { intros A B f k l Hf. induction l as [|a l IH]; [reflexivity|]. cbn [flat_map length]. rewrite app_length, IH, Hf. lia. }
  assert (S : forall n, 0 <= n -> Z.of_nat (length (zseq n)) = n).
  { intros n Hn. unfold zseq. rewrite map_length, seq_length. lia. }
  assert (R : Z.of_nat (length (range 2 (dimZ - 2))) = dimZ - 4).
  { unfold range. rewrite map_length, S; lia. }
  unfold box. rewrite (C _ _ _ (length (zseq nx) * length (range 2 (dimZ - 2)))%nat).
  - rewrite !Nat2Z.inj_mul, R, !S by lia. lia.
  - intros y. rewrite (C _ _ _ (length (range 2 (dimZ - 2)))); [reflexivity|]. intros x. apply map_length.
Qed.

Lemma written_iff : forall nx ny dimX dimY dimZ i, In i (box nx ny dimX dimY dimZ) <-> written dimX dimY nx ny dimZ i.
Proof.
  intros nx ny dimX dimY dimZ i. rewrite in_box. unfold written. split; intros [x [y [z H]]]; exists x, y, z.
  - destruct H as [A [B [C E]]]. split; [apply columns_iff; auto|exact E].
  - destruct H as [A E]. apply columns_iff in A as [A [B C]]. auto.
Qed.

Lemma written_count : forall nx ny dimX dimY dimZ, 0 <= nx <= dimX -> 0 <= ny <= dimY -> 4 <= dimZ ->
  exists L, NoDup L /\ (forall i, In i L <-> written dimX dimY nx ny dimZ i) /\ Z.of_nat (length L) = nx * ny * (dimZ - 4).
Proof.
  intros nx ny dimX dimY dimZ Hx Hy Hz. exists (box nx ny dimX dimY dimZ).
  split; [apply box_NoDup; lia|]. split; [intros i; apply written_iff|]. apply box_length; lia.
Qed.

Lemma bytesize_small : forall dim, 1 <= dim <= 204 -> basic_bytesize dim = dim * dim * 51200.
Proof. intros dim H. unfold basic_bytesize, to_int. assert (dim * dim <= 204 * 204) by nia. assert (0 <= dim * dim) by nia.
  change (2 ^ 32) with 4294967296. change (2 ^ 31) with 2147483648. rewrite Z.mod_small; lia. Qed.
