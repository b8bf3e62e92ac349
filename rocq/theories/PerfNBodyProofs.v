From Coq Require Import ZArith List Bool Lia ZifyBool ZifyNat Ring_theory Field_theory Ring Field.
From Verif Require Import Base Peeler Sph Lbm SpecLbm PerfNBody SpecPerfNBody PerfJacobiProofs.
Import ListNotations.
Local Open Scope Z_scope.

Lemma number_of_inj : forall c c', number_of c = number_of c' -> c = c'.
Proof. intros [] []; cbn; intros; discriminate || reflexivity. Qed.

Lemma all_coordinates_in : forall c, In c all_coordinates.
Proof. intros []; cbn; auto 10. Qed.

Section Any.
Context {T : Type} (K : arith T).
Notation arrays := (coordinate -> Z -> T).

Lemma put_all_fun : forall cap s (b : arrays) limit (V : coordinate -> Z -> T), limit <= cap ->
  (forall c i v, In (c, i, v) s <-> 0 <= i < limit /\ v = Some (V c i)) ->
  exists b', put_all cap s b = Some b' /\ forall c i, b' c i = if (0 <=? i) && (i <? limit) then V c i else b c i.
Proof.
  intros cap s b limit V HL.
  assert (P : forall s b, (forall c i v, In (c, i, v) s -> 0 <= i < limit /\ v = Some (V c i)) ->
    exists b', put_all cap s b = Some b' /\
      forall c i, (In (c, i, Some (V c i)) s -> b' c i = V c i) /\ (~ In (c, i, Some (V c i)) s -> b' c i = b c i)).
  { clear s b. intros s. induction s as [|[[c i] v] s IH]; intros b H.
    - exists b. split; [reflexivity|]. intros c i. split; [intros []|reflexivity].
    - destruct (H c i v (or_introl eq_refl)) as [B ->]. cbn [put_all]. replace (_ && _) with true by lia.
      destruct (IH (fun c' i' => if (number_of c' =? number_of c) && (i' =? i) then V c i else b c' i')) as [b' [E I]].
      { intros c' i' v' Hin. apply H. right. exact Hin. }
      exists b'. split; [exact E|]. intros c' i'. destruct (I c' i') as [I1 I2].
      assert (D : In (c', i', Some (V c' i')) s \/ ~ In (c', i', Some (V c' i')) s).
      { destruct (in_dec (fun p q : Z * Z => ltac:(decide equality; apply Z.eq_dec)) (number_of c', i') (map (fun x => (number_of (fst (fst x)), snd (fst x))) s)) as [Hs|Hs].
        - left. apply in_map_iff in Hs as [[[c2 i2] v2] [E2 Hin]]. cbn [fst snd] in E2. injection E2 as E3 ->.
          apply number_of_inj in E3. subst c2. destruct (H c' i' v2 (or_intror Hin)) as [_ ->]. exact Hin.
        - right. intros Hin. apply Hs. apply in_map_iff. exists (c', i', Some (V c' i')). auto. }
      destruct D as [D|D].
      + split; [auto|]. intros N. exfalso. apply N. right. exact D.
      + destruct ((number_of c' =? number_of c) && (i' =? i)) eqn:Q.
        * assert (number_of c' = number_of c) as Ec by lia. apply number_of_inj in Ec. assert (i' = i) by lia. subst c' i'.
          split; [intros _; exact (I2 D)|]. intros N. exfalso. apply N. left. reflexivity.
        * split.
          -- intros [Eq|Hin]; [|contradiction]. injection Eq as -> -> _. rewrite !Z.eqb_refl in Q. discriminate.
          -- intros _. exact (I2 D). }
  intros H. destruct (P s b) as [b' [E I]]; [intros c i v; apply H|].
  exists b'. split; [exact E|]. intros c i. destruct (I c i) as [I1 I2].
  destruct (Z.leb_spec 0 i); destruct (Z.ltb_spec i limit); cbn [andb].
  - apply I1, H. auto.
  - apply I2. rewrite H. lia.
  - apply I2. rewrite H. lia.
  - apply I2. rewrite H. lia.
Qed.

(** Which stores a strided loop performs. *)
Lemma strided_in : forall w (body : Z -> list (coordinate * Z * option T)) (V : coordinate -> Z -> option T),
  1 <= w ->
  forall fuel lo stop, stop - lo <= Z.of_nat fuel ->
  (forall i, lo <= i < stop -> forall c k v, In (c, k, v) (body i) <-> i <= k < i + w /\ v = V c k) ->
  forall c k v, In (c, k, v) (strided fuel w lo stop body) <-> lo <= k < lo + w * Z.max 0 ((stop - lo + w - 1) / w) /\ v = V c k.
Proof.
  intros w body V Hw fuel. induction fuel as [|fuel IH]; intros lo stop Hf HB c k v.
  - cbn [strided]. replace (Z.max 0 ((stop - lo + w - 1) / w)) with 0.
    + split; [intros []|lia].
    + assert ((stop - lo + w - 1) / w < 1) by (apply Z.div_lt_upper_bound; lia). lia.
  - cbn [strided]. destruct (Z.ltb_spec lo stop) as [H|H].
    + rewrite in_app_iff, HB by lia. rewrite IH; [|lia|intros i Hi; apply HB; lia].
      replace (stop - lo + w - 1) with (stop - (lo + w) + w - 1 + 1 * w) by lia. rewrite Z.div_add by lia.
      set (q := (stop - (lo + w) + w - 1) / w).
      assert (0 <= q) by (apply Z.div_pos; lia). rewrite !Z.max_r by lia.
      rewrite Z.mul_add_distr_l, Z.mul_1_r. assert (0 <= w * q) by (apply Z.mul_nonneg_nonneg; lia). split.
      * intros [[Hk ->]|[Hk ->]]; (split; [lia|reflexivity]).
      * intros [Hk ->]. destruct (Z_lt_ge_dec k (lo + w)); [left|right]; (split; [lia|reflexivity]).
    + split; [intros []|]. assert ((stop - lo + w - 1) / w < 1) by (apply Z.div_lt_upper_bound; lia). lia.
Qed.

Lemma lanes_in : forall w cap dist div n (a : arrays) i c k v,
  In (c, k, v) (lanes K w cap dist div n a i) <->
  i <= k < i + w /\ v = moved K cap a k (fold_left (interact K cap dist div a k) (range 0 n) (zero K)) c.
Proof.
  intros w cap dist div n a i c k v. unfold lanes. rewrite in_flat_map. split.
  - intros [c' [_ H]]. apply in_map_iff in H as [e [E He]]. apply in_zseq in He.
    apply pair_equal_spec in E as [E <-]. apply pair_equal_spec in E as [-> <-]. split; [lia|reflexivity].
  - intros [B ->]. exists c. split; [apply all_coordinates_in|]. apply in_map_iff. exists (k - i).
    rewrite in_zseq. split; [|lia]. replace (i + (k - i)) with k by lia. reflexivity.
Qed.

(** The sums of the forces. *)
Lemma elt_ok : forall cap (a : arrays) c i, 0 <= i < cap -> elt cap a c i = Some (a c i).
Proof. intros cap a c i H. unfold elt. replace (_ && _) with true by lia. reflexivity. Qed.

Lemma interact_ok : forall cap (a : arrays) i j x y z, 0 <= i < cap -> 0 <= j < cap ->
  interact K cap (distance2 K) (over K) a i (Some x, Some y, Some z) j =
  (Some (r_add K x (force K PosX a i j)), Some (r_add K y (force K PosY a i j)), Some (r_add K z (force K PosZ a i j))).
Proof. intros cap a i j x y z Hi Hj. unfold interact. rewrite !elt_ok by assumption. reflexivity. Qed.

Lemma fold_interact : forall cap (a : arrays) i k m, 0 <= i < cap -> Z.of_nat (m + k) <= cap ->
  fold_left (interact K cap (distance2 K) (over K) a i) (range (Z.of_nat m) (Z.of_nat (m + k)))
    (Some (total K m (force K PosX a i)), Some (total K m (force K PosY a i)), Some (total K m (force K PosZ a i))) =
  (Some (total K (m + k) (force K PosX a i)), Some (total K (m + k) (force K PosY a i)), Some (total K (m + k) (force K PosZ a i))).
Proof.
  intros cap a i k. induction k as [|k IH]; intros m Hi Hk.
  - rewrite Nat.add_0_r, range_empty by lia. reflexivity.
  - rewrite (range_split _ (Z.of_nat (m + k))) by lia. rewrite fold_left_app, IH by lia.
    replace (Z.of_nat (m + S k)) with (Z.of_nat (m + k) + 1) by lia. rewrite range_one. cbn [fold_left].
    rewrite interact_ok by lia. replace (m + S k)%nat with (S (m + k)) by lia. reflexivity.
Qed.

Lemma sums : forall cap (a : arrays) i n, 0 <= i < cap -> Z.of_nat n <= cap ->
  fold_left (interact K cap (distance2 K) (over K) a i) (range 0 (Z.of_nat n)) (zero K) =
  (Some (total K n (force K PosX a i)), Some (total K n (force K PosY a i)), Some (total K n (force K PosZ a i))).
Proof. intros cap a i n Hi Hn. exact (fold_interact cap a i n 0 Hi Hn). Qed.

(** The particle behind a step, inside of the capacity. *)
Definition after (n : nat) (a : arrays) (c : coordinate) (i : Z) : T := advance K (i + 1) n a c i.

Lemma moved_ok : forall cap (a : arrays) i n c, 0 <= i < cap ->
  moved K cap a i (Some (total K n (force K PosX a i)), Some (total K n (force K PosY a i)), Some (total K n (force K PosZ a i))) c =
  Some (after n a c i).
Proof.
  intros cap a i n c Hi. unfold moved, after, advance. rewrite !elt_ok by assumption.
  replace ((0 <=? i) && (i <? i + 1)) with true by lia. destruct c; reflexivity.
Qed.

Lemma after_advance : forall upto n (a : arrays) c i, 0 <= i < upto -> after n a c i = advance K upto n a c i.
Proof.
  intros upto n a c i H. unfold after, advance. replace ((0 <=? i) && (i <? i + 1)) with true by lia.
  replace ((0 <=? i) && (i <? upto)) with true by lia. reflexivity.
Qed.

(** A step whose effect on the first n particles is [advance upto]. *)
Definition advances (cap upto : Z) (n : nat) (step : arrays -> list (coordinate * Z * option T)) : Prop :=
  forall a b, exists b', put_all cap (step a) b = Some b' /\
    forall c i, 0 <= i < Z.of_nat n -> b' c i = if i <? upto then after n a c i else b c i.

Lemma strided_advances : forall cap upto limit w stop n (step : arrays -> list (coordinate * Z * option T))
    (body : arrays -> Z -> list (coordinate * Z * option T)) (V : arrays -> coordinate -> Z -> option T),
  1 <= w -> limit <= cap -> stop <= Z.of_nat n -> limit = w * Z.max 0 ((stop + w - 1) / w) ->
  (forall i, 0 <= i < Z.of_nat n -> (i <? upto) = (i <? limit)) ->
  (forall a, step a = strided (Z.to_nat (Z.of_nat n)) w 0 stop (body a)) ->
  (forall a i c k v, In (c, k, v) (body a i) <-> i <= k < i + w /\ v = V a c k) ->
  (forall a c k, 0 <= k < limit -> V a c k = Some (after n a c k)) ->
  advances cap upto n step.
Proof.
  intros cap upto limit w stop n step body V Hw HL HS EL HU Hst HB HV a b. rewrite Hst.
  destruct (put_all_fun cap (strided (Z.to_nat (Z.of_nat n)) w 0 stop (body a)) b limit (after n a) HL) as [b' [E I]].
  - intros c i v. rewrite (strided_in w (body a) (V a)); try lia; [|intros; apply HB].
    rewrite Z.sub_0_r, Z.add_0_l, <- EL. split; intros [B ->]; split; auto; rewrite HV by exact B; reflexivity.
  - exists b'. split; [exact E|]. intros c i Hi. rewrite I. replace (0 <=? i) with true by lia. cbn [andb]. now rewrite HU.
Qed.

Lemma lanes_advances : forall cap upto limit w stop n dist div (step : arrays -> list (coordinate * Z * option T)),
  1 <= w -> limit <= cap -> Z.of_nat n <= cap -> stop <= Z.of_nat n -> limit = w * Z.max 0 ((stop + w - 1) / w) ->
  (forall i, 0 <= i < Z.of_nat n -> (i <? upto) = (i <? limit)) ->
  (forall a i j x y z, 0 <= i < cap -> 0 <= j < cap ->
     interact K cap dist div a i (Some x, Some y, Some z) j = interact K cap (distance2 K) (over K) a i (Some x, Some y, Some z) j) ->
  (forall a, step a = strided (Z.to_nat (Z.of_nat n)) w 0 stop (lanes K w cap dist div (Z.of_nat n) a)) ->
  advances cap upto n step.
Proof.
  intros cap upto limit w stop n dist div step Hw HL HC HS EL HU HI Hst.
  apply (strided_advances cap upto limit w stop n step (lanes K w cap dist div (Z.of_nat n))
    (fun a c k => moved K cap a k (fold_left (interact K cap dist div a k) (range 0 (Z.of_nat n)) (zero K)) c)); auto.
  - intros a i c k v. apply lanes_in.
  - intros a c k Hk. rewrite <- (moved_ok cap) by lia. f_equal. rewrite <- (sums cap a k n) by lia.
    assert (P : forall l, (forall j, In j l -> 0 <= j < cap) -> forall x y z,
      fold_left (interact K cap dist div a k) l (Some x, Some y, Some z) =
      fold_left (interact K cap (distance2 K) (over K) a k) l (Some x, Some y, Some z)).
    { induction l as [|j l IH]; intros Hl x y z; [reflexivity|]. cbn [fold_left].
      assert (0 <= j < cap) by (apply Hl; left; reflexivity).
      rewrite HI by lia. rewrite interact_ok by lia. apply IH. intros j' Hj'. apply Hl. right. exact Hj'. }
    apply P. intros j Hj. apply in_range in Hj. lia.
Qed.

(** The value of a step only depends on the first n particles. *)
Lemma total_ext : forall n (f g : Z -> T), (forall j, 0 <= j < Z.of_nat n -> f j = g j) -> total K n f = total K n g.
Proof.
  intros n f g. induction n as [|n IH]; intros H; [reflexivity|]. cbn [total].
  rewrite IH by (intros; apply H; lia). rewrite H by lia. reflexivity.
Qed.

Lemma force_ext : forall axis (p q : arrays) i j, (forall c, p c i = q c i) -> (forall c, p c j = q c j) ->
  force K axis p i j = force K axis q i j.
Proof. intros axis p q i j Hi Hj. unfold force, strength. now rewrite !Hi, !Hj. Qed.

Lemma advance_ext : forall upto n (p q : arrays), agree (Z.of_nat n) p q -> agree (Z.of_nat n) (advance K upto n p) (advance K upto n q).
Proof.
  intros upto n p q H c i Hi. unfold advance.
  assert (F : forall axis, total K n (force K axis p i) = total K n (force K axis q i)).
  { intros axis. apply total_ext. intros j Hj. apply force_ext; intros c'; apply H; auto. }
  rewrite !F, !(H _ i Hi). destruct (_ && _); [|auto]. destruct c; rewrite ?(H _ i Hi); reflexivity.
Qed.

Lemma repetitions_steps : forall cap upto n step, advances cap upto n step ->
  forall r A B p, agree (Z.of_nat n) A p -> agree (Z.of_nat n) B p ->
  exists A' B', repetitions r cap step A B = Some (A', B') /\ agree (Z.of_nat n) A' (steps K r upto n p).
Proof.
  intros cap upto n step HS.
  assert (P : forall r A B p, agree (Z.of_nat n) A p -> (forall c i, upto <= i < Z.of_nat n -> 0 <= i -> B c i = p c i) ->
    exists A' B', repetitions r cap step A B = Some (A', B') /\ agree (Z.of_nat n) A' (steps K r upto n p)).
  { induction r as [|r IH]; intros A B p HA HB.
    - exists A, B. auto.
    - destruct (HS A B) as [B' [E Q]]. cbn [repetitions]. rewrite E. cbn [steps]. apply IH.
      + intros c i Hi. rewrite Q by exact Hi. rewrite <- (advance_ext upto n A p HA c i Hi).
        destruct (Z.ltb_spec i upto).
        * apply after_advance. lia.
        * rewrite HB by lia. unfold advance. replace ((0 <=? i) && (i <? upto)) with false by lia. symmetry. apply HA. lia.
      + intros c i Hi H0. unfold advance. replace ((0 <=? i) && (i <? upto)) with false by lia. apply HA. lia. }
  intros r A B p HA HB. apply P; auto. intros c i Hi H0. apply HB. lia.
Qed.
End Any.

(** ** Exact arithmetic *)
Section Exact.
Context {T : Type} (K : arith T).
Hypothesis HK : exact_field K.
Notation arrays := (coordinate -> Z -> T).
Local Notation "# z" := (r_num K z) (at level 5).
Context (inv : T -> T).
Hypothesis Hf : field_theory #0 #1 (r_add K) (r_mul K) (r_sub K) (r_neg K) (r_div K) inv eq.
Add Field Kf : Hf.
Local Notation "a +. b" := (r_add K a b) (at level 50, left associativity).
Local Notation "a -. b" := (r_sub K a b) (at level 50, left associativity).
Local Notation "a *. b" := (r_mul K a b) (at level 40, left associativity).
Local Notation "a /. b" := (r_div K a b) (at level 40, left associativity).

Context (rcp rsqrt : T -> T).
Hypothesis Hrcp : forall d, rcp d = #1 /. d.
Hypothesis Hrsqrt : forall d, rsqrt d = #1 /. r_sqrt K d.

Lemma approximately_over : forall f d, approximately K rcp rsqrt (Some f) (Some d) = over K (Some f) (Some d).
Proof.
  intros f d. unfold approximately, over. cbn [option_map lift r_mul r_div r_sqrt omap2]. f_equal.
  rewrite Hrcp, Hrsqrt. rewrite !(Fdiv_def Hf). ring.
Qed.

Lemma distance2_same : forall x y z, distance2_avx K (Some x) (Some y) (Some z) = distance2 K (Some x) (Some y) (Some z).
Proof.
  intros x y z. unfold distance2_avx, distance2, SOFTENING. cbn [lift r_mul r_add omap2]. f_equal.
  generalize (#1 /. #10). intros s. ring.
Qed.

Lemma interact_avx : forall cap (a : arrays) i j x y z, 0 <= i < cap -> 0 <= j < cap ->
  interact K cap (distance2_avx K) (approximately K rcp rsqrt) a i (Some x, Some y, Some z) j =
  interact K cap (distance2 K) (over K) a i (Some x, Some y, Some z) j.
Proof.
  intros cap a i j x y z Hi Hj. unfold interact. rewrite !elt_ok by assumption.
  cbn [lift r_sub omap2]. rewrite distance2_same.
  cbn [distance2 DELTA_T SOFTENING]. unfold distance2, DELTA_T, SOFTENING. cbn [lift r_sub r_mul r_add omap2].
  rewrite approximately_over. reflexivity.
Qed.

(** Pepper: the eight sums. *)
Definition lane_sums (X Y W : Z -> T) : list (option T * option T * option T) :=
  map (fun e => (Some (X e), Some (Y e), Some (W e))) (zseq 8).
Definition eight_of (X : Z -> T) : T := X 0 +. X 1 +. X 2 +. X 3 +. X 4 +. X 5 +. X 6 +. X 7.

Lemma total_8 : forall n f, total K (n + 8) f = total K n f +. eight_of (fun e => f (Z.of_nat n + e)).
Proof.
  intros n f. replace (n + 8)%nat with (S (S (S (S (S (S (S (S n)))))))) by lia. cbn [total]. unfold eight_of.
  replace (Z.of_nat (S (S (S (S (S (S (S n)))))))) with (Z.of_nat n + 7) by lia.
  replace (Z.of_nat (S (S (S (S (S (S n))))))) with (Z.of_nat n + 6) by lia.
  replace (Z.of_nat (S (S (S (S (S n)))))) with (Z.of_nat n + 5) by lia.
  replace (Z.of_nat (S (S (S (S n))))) with (Z.of_nat n + 4) by lia.
  replace (Z.of_nat (S (S (S n)))) with (Z.of_nat n + 3) by lia.
  replace (Z.of_nat (S (S n))) with (Z.of_nat n + 2) by lia.
  replace (Z.of_nat (S n)) with (Z.of_nat n + 1) by lia.
  rewrite Z.add_0_r. ring.
Qed.

Lemma blocks_ok : forall (a : arrays) i n, 0 <= i < Z.of_nat n ->
  forall fuel m X Y W, Z.of_nat n - 7 - Z.of_nat m <= Z.of_nat fuel -> (m <= n)%nat ->
  eight_of X = total K m (force K PosX a i) -> eight_of Y = total K m (force K PosY a i) -> eight_of W = total K m (force K PosZ a i) ->
  exists m' X' Y' W',
    blocks K fuel (Z.of_nat n) (approximately K rcp rsqrt) a i (Z.of_nat m) (Z.of_nat n - 7) (lane_sums X Y W) =
      (lane_sums X' Y' W', Z.of_nat m') /\ (m' <= n)%nat /\
    eight_of X' = total K m' (force K PosX a i) /\ eight_of Y' = total K m' (force K PosY a i) /\ eight_of W' = total K m' (force K PosZ a i).
Proof.
  intros a i n Hi fuel. induction fuel as [|fuel IH]; intros m X Y W Hf' Hm EX EY EW.
  - exists m, X, Y, W. cbn [blocks]. auto 6.
  - cbn [blocks]. destruct (Z.ltb_spec (Z.of_nat m) (Z.of_nat n - 7)) as [H|H]; [|exists m, X, Y, W; auto 6].
    replace (Z.of_nat m + 8) with (Z.of_nat (m + 8)) by lia.
    assert (E : map (fun p => interact K (Z.of_nat n) (distance2_avx K) (approximately K rcp rsqrt) a i (snd p) (Z.of_nat m + fst p))
        (combine (zseq 8) (lane_sums X Y W)) =
      lane_sums (fun e => X e +. force K PosX a i (Z.of_nat m + e)) (fun e => Y e +. force K PosY a i (Z.of_nat m + e))
                (fun e => W e +. force K PosZ a i (Z.of_nat m + e))).
    { unfold lane_sums. change (zseq 8) with [0; 1; 2; 3; 4; 5; 6; 7]. cbn [map combine fst snd].
      rewrite !interact_avx by lia. rewrite !interact_ok by lia. reflexivity. }
    rewrite E. apply IH; try lia; rewrite total_8; rewrite <- ?EX, <- ?EY, <- ?EW; unfold eight_of; ring.
Qed.

Lemma add_up_ok : forall X Y W, add_up K true (lane_sums X Y W) = (Some (eight_of X), Some (eight_of Y), Some (eight_of W)).
Proof. intros. reflexivity. Qed.

Lemma eight_zero : eight_of (fun _ => #0) = #0.
Proof. unfold eight_of. ring. Qed.

Lemma pepper_advances : forall n, advances K (Z.of_nat n) (Z.of_nat n) n (pepper_step K true rcp rsqrt (Z.of_nat n)).
Proof.
  intros n.
  set (body := fun (a : arrays) i =>
    let '(acc, j) := blocks K (Z.to_nat (Z.of_nat n)) (Z.of_nat n) (approximately K rcp rsqrt) a i 0 (Z.of_nat n - 7) (repeat (zero K) 8) in
    let acceleration := fold_left (interact K (Z.of_nat n) (distance2 K) (over K) a i) (range j (Z.of_nat n)) (add_up K true acc) in
    map (fun c => (c, i, moved K (Z.of_nat n) a i acceleration c)) all_coordinates).
  set (V := fun (a : arrays) c i =>
    let '(acc, j) := blocks K (Z.to_nat (Z.of_nat n)) (Z.of_nat n) (approximately K rcp rsqrt) a i 0 (Z.of_nat n - 7) (repeat (zero K) 8) in
    let acceleration := fold_left (interact K (Z.of_nat n) (distance2 K) (over K) a i) (range j (Z.of_nat n)) (add_up K true acc) in
    moved K (Z.of_nat n) a i acceleration c).
  apply (strided_advances K (Z.of_nat n) (Z.of_nat n) (Z.of_nat n) 1 (Z.of_nat n) n (pepper_step K true rcp rsqrt (Z.of_nat n)) body V); try lia; auto.
  - intros a i c k v. unfold body, V. destruct (blocks _ _ _ _ _ i _ _ _) as [acc j] eqn:E. cbv zeta. rewrite in_map_iff. split.
    + intros [c' [Eq _]]. apply pair_equal_spec in Eq as [Eq <-]. apply pair_equal_spec in Eq as [-> <-].
      split; [lia|]. now rewrite E.
    + intros [Hk ->]. assert (k = i) by lia. subst k. exists c. split; [|apply all_coordinates_in]. now rewrite E.
  - intros a c k Hk. unfold V.
    destruct (blocks_ok a k n Hk (Z.to_nat (Z.of_nat n)) 0 (fun _ => #0) (fun _ => #0) (fun _ => #0)) as [m' [X [Y [W [E [Hm [EX [EY EW]]]]]]]];
      try apply eight_zero; try lia.
    change (repeat (zero K) 8) with (lane_sums (fun _ => #0) (fun _ => #0) (fun _ => #0)).
    change (Z.of_nat 0) with 0 in E. rewrite E. cbv zeta. rewrite add_up_ok, EX, EY, EW.
    pose proof (fold_interact K (Z.of_nat n) a k (n - m') m' Hk ltac:(lia)) as FI.
    replace (m' + (n - m'))%nat with n in FI by lia. rewrite FI. apply moved_ok. exact Hk.
Qed.

(** ** Momentum *)
Lemma total_add : forall n f g, total K n (fun i => f i +. g i) = total K n f +. total K n g.
Proof. induction n as [|n IH]; intros f g; cbn [total]; [ring|]. rewrite IH. ring. Qed.

Lemma total_zero : forall n, total K n (fun _ => #0) = #0.
Proof. induction n as [|n IH]; cbn [total]; [reflexivity|]. rewrite IH. ring. Qed.

Lemma pairs_cancel : forall (F : Z -> Z -> T) n, (forall i j, F i j +. F j i = #0) -> (forall i, F i i = #0) ->
  total K n (fun i => total K n (F i)) = #0.
Proof.
  intros F n H H0. induction n as [|n IH]; [reflexivity|]. cbn [total]. rewrite total_add, IH, H0.
  assert (E : total K n (fun i => F i (Z.of_nat n)) +. total K n (F (Z.of_nat n)) = #0).
  { rewrite <- total_add. rewrite <- (total_zero n). apply total_ext. intros j Hj. apply H. }
  transitivity (total K n (fun i => F i (Z.of_nat n)) +. total K n (F (Z.of_nat n))); [ring|exact E].
Qed.

Lemma strength_sym : forall p i j, strength K p i j = strength K p j i.
Proof.
  intros p i j. unfold strength. cbv zeta. generalize (#1 /. #10). intros s.
  replace ((p PosX j -. p PosX i) *. (p PosX j -. p PosX i) +. (p PosY j -. p PosY i) *. (p PosY j -. p PosY i) +.
     (p PosZ j -. p PosZ i) *. (p PosZ j -. p PosZ i) +. s)
   with ((p PosX i -. p PosX j) *. (p PosX i -. p PosX j) +. (p PosY i -. p PosY j) *. (p PosY i -. p PosY j) +.
     (p PosZ i -. p PosZ j) *. (p PosZ i -. p PosZ j) +. s) by ring.
  rewrite !(Fdiv_def Hf). ring.
Qed.

Lemma forces_cancel : forall axis p n, total K n (fun i => total K n (force K axis p i)) = #0.
Proof.
  intros axis p n. apply pairs_cancel.
  - intros i j. unfold force. rewrite (strength_sym p j i). ring.
  - intros i. unfold force. ring.
Qed.

Lemma step_momentum : forall n p c, In c [VelX; VelY; VelZ] ->
  total K n (advance K (Z.of_nat n) n p c) = total K n (p c).
Proof.
  intros n p c Hc.
  assert (E : exists axis, forall i, 0 <= i < Z.of_nat n -> advance K (Z.of_nat n) n p c i = p c i +. total K n (force K axis p i)).
  { destruct Hc as [<-|[<-|[<-|[]]]]; [exists PosX|exists PosY|exists PosZ]; intros i Hi; unfold advance;
      replace ((0 <=? i) && (i <? Z.of_nat n)) with true by lia; reflexivity. }
  destruct E as [axis E]. rewrite (total_ext K n _ _ E), total_add, forces_cancel. ring.
Qed.

Lemma steps_momentum : forall r n p c, In c [VelX; VelY; VelZ] ->
  total K n (steps K r (Z.of_nat n) n p c) = total K n (p c).
Proof.
  induction r as [|r IH]; intros n p c Hc; cbn [steps]; [reflexivity|]. rewrite IH by exact Hc. apply step_momentum. exact Hc.
Qed.
End Exact.
