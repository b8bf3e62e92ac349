(** Properties of the benchmarks on pairs of particles. *)
From Coq Require Import ZArith List Bool Lia ZifyBool ZifyNat.
From Verif Require Import Base Peeler Sph PerfMover PerfPairs SpecPerfPairs PerfJacobiProofs.
Import ListNotations.
Local Open Scope Z_scope.

Lemma nth_range : forall n i d, 0 <= i < n -> nth (Z.to_nat i) (range 0 n) d = i.
Proof.
  intros n i d H. unfold range, zseq. rewrite map_map. rewrite (nth_indep _ d (0 + Z.of_nat 0)) by (rewrite map_length, seq_length; lia).
  rewrite (map_nth (fun k => 0 + Z.of_nat k)), seq_nth by lia. lia.
Qed.

Section Interactor.
Context {T : Type} (K : arith T) (radius2 : T) (pos : Z -> point T).
Local Notation nb i j := (near K radius2 (pos i) (pos j)).

(** ** Vanilla *)

(** The neighbours do not depend on the velocities. *)
Lemma gather_one_lists : forall i l v ns,
  snd (fold_left (gather_one K radius2 pos i) l (v, ns)) = ns ++ filter (fun j => nb i j) l.
Proof.
  intros i l. induction l as [|j l IH]; intros v ns; cbn [fold_left filter]; [now rewrite app_nil_r|].
  unfold gather_one at 2. destruct (nb i j); rewrite IH; [now rewrite <- app_assoc|reflexivity].
Qed.

Lemma gather_one_vel : forall i l v ns,
  fst (fold_left (gather_one K radius2 pos i) l (v, ns)) = fold_left (fun vel j => plus_at K vel i (vel j)) (filter (fun j => nb i j) l) v.
Proof.
  intros i l. induction l as [|j l IH]; intros v ns; cbn [fold_left filter]; [reflexivity|].
  unfold gather_one at 2. destruct (nb i j); rewrite IH; reflexivity.
Qed.

Definition gather_all (n : Z) (v : Z -> T) : Z -> T :=
  fold_left (fun vel i => fold_left (fun vel j => plus_at K vel i (vel j)) (filter (fun j => nb i j) (range 0 n)) vel) (range 0 n) v.

Lemma gather_x_ok : forall n v, gather_x K radius2 pos n v =
  (gather_all n v, map (fun i => filter (fun j => nb i j) (range 0 n)) (range 0 n)).
Proof.
  intros n v. unfold gather_x, gather_all.
  enough (G : forall l v ls, fold_left (fun s i => let '(vel, lists) := s in
    let '(vel0, neighbors) := fold_left (gather_one K radius2 pos i) (range 0 n) (vel, []) in (vel0, lists ++ [neighbors])) l (v, ls) =
   (fold_left (fun vel i => fold_left (fun vel j => plus_at K vel i (vel j)) (filter (fun j => nb i j) (range 0 n)) vel) l v,
    ls ++ map (fun i => filter (fun j => nb i j) (range 0 n)) l)) by exact (G _ v []).
  induction l as [|i l IH]; intros w ls; cbn [fold_left map]; [now rewrite app_nil_r|].
  destruct (fold_left (gather_one K radius2 pos i) (range 0 n) (w, [])) as [w' ns] eqn:E.
  rewrite IH. rewrite <- app_assoc. cbn [app].
  pose proof (gather_one_lists i (range 0 n) w []) as A. pose proof (gather_one_vel i (range 0 n) w []) as B. rewrite E in A, B. cbn [fst snd app] in A, B.
  now rewrite A, B.
Qed.

Lemma fold_ext_in : forall (A B : Type) (f g : A -> B -> A) l a, (forall a b, In b l -> f a b = g a b) -> fold_left f l a = fold_left g l a.
Proof.
  induction l as [|b l IH]; intros a H; cbn [fold_left]; [reflexivity|]. rewrite H by (left; reflexivity). apply IH. intros; apply H; now right.
Qed.

Lemma gather_by_ok : forall n v, gather_by K n (map (fun i => filter (fun j => nb i j) (range 0 n)) (range 0 n)) v = gather_all n v.
Proof.
  intros n v. unfold gather_by, gather_all. apply fold_ext_in. intros w i Hi. f_equal.
  apply in_range in Hi. rewrite (nth_indep _ [] (filter (fun j => nb 0 j) (range 0 n))) by (rewrite map_length; unfold range; rewrite map_length, length_zseq; lia).
  rewrite (map_nth (fun i => filter (fun j => nb i j) (range 0 n))). rewrite nth_range by lia. reflexivity.
Qed.

Lemma filter_range_S : forall f m, filter f (range 0 (Z.of_nat (S m))) = filter f (range 0 (Z.of_nat m)) ++ (if f (Z.of_nat m) then [Z.of_nat m] else []).
Proof.
  intros f m. rewrite (range_split 0 (Z.of_nat m) (Z.of_nat (S m))) by lia. rewrite filter_app. replace (Z.of_nat (S m)) with (Z.of_nat m + 1) by lia.
  rewrite range_one. cbn [filter]. reflexivity.
Qed.

Lemma put_same : forall (a : Z -> T) i v, put a i v i = v. Proof. intros. unfold put. now rewrite Z.eqb_refl. Qed.
Lemma put_other : forall (a : Z -> T) i v k, k <> i -> put a i v k = a k.
Proof. intros. unfold put. now replace (k =? i) with false by lia. Qed.

(** One particle: the others keep theirs. *)
Lemma row_ok : forall i m (w v v' : Z -> T), 0 <= i -> (forall j, 0 <= j < i -> w j = v' j) -> (forall j, i <= j -> w j = v j) ->
  let u := fold_left (fun vel j => plus_at K vel i (vel j)) (filter (fun j => nb i j) (range 0 (Z.of_nat m))) w in
  u i = collected (r_add K) (fun i j => nb i j) v v' i m /\ (forall k, k <> i -> u k = w k).
Proof.
  intros i m w v v' Hi H1 H2. cbv zeta. induction m as [|m [IH1 IH2]].
  - cbn. split; [apply H2; lia|auto].
  - rewrite filter_range_S, fold_left_app. cbn [collected]. destruct (nb i (Z.of_nat m)); cbn [fold_left]; [|auto].
    set (u := fold_left _ _ w) in *. unfold plus_at. split.
    + rewrite put_same, IH1. f_equal. destruct (Z.of_nat m <? i) eqn:E1.
      * rewrite IH2 by lia. apply H1. lia.
      * destruct (Z.of_nat m =? i) eqn:E2; [replace (Z.of_nat m) with i by lia; exact IH1|]. rewrite IH2 by lia. apply H2. lia.
    + intros k Hk. rewrite put_other by exact Hk. auto.
Qed.

Lemma collected_ext : forall near v v' w' i, (forall j, 0 <= j < i -> v' j = w' j) -> forall k,
  collected (r_add K) near v v' i k = collected (r_add K) near v w' i k.
Proof.
  intros near v v' w' i H k. induction k as [|k IH]; [reflexivity|]. cbn [collected]. rewrite IH.
  destruct (near i (Z.of_nat k)); [|reflexivity]. f_equal. destruct (Z.of_nat k <? i) eqn:E; [apply H; lia|reflexivity].
Qed.

Lemma gather_all_ok : forall n v, collects (r_add K) (fun i j => nb i j) n v (gather_all (Z.of_nat n) v).
Proof.
  intros n v. unfold gather_all.
  enough (G : forall m, (m <= n)%nat ->
    let u := fold_left (fun vel i => fold_left (fun vel j => plus_at K vel i (vel j)) (filter (fun j => nb i j) (range 0 (Z.of_nat n))) vel) (range 0 (Z.of_nat m)) v in
    (forall i, 0 <= i < Z.of_nat m -> u i = collected (r_add K) (fun i j => nb i j) v u i n) /\ (forall i, ~ 0 <= i < Z.of_nat m -> u i = v i))
    by exact (G n (le_n n)).
  cbv zeta. induction m as [|m IH]; intros Hm.
  - cbn. split; [lia|auto].
  - destruct (IH ltac:(lia)) as [A B]. rewrite (range_split 0 (Z.of_nat m) (Z.of_nat (S m))) by lia. rewrite fold_left_app.
    replace (Z.of_nat (S m)) with (Z.of_nat m + 1) by lia. rewrite range_one. cbn [fold_left].
    set (u := fold_left (fun vel i => fold_left _ _ vel) (range 0 (Z.of_nat m)) v) in *.
    destruct (row_ok (Z.of_nat m) n u v u) as [R1 R2]; [lia|auto|intros j Hj; apply B; lia|].
    set (u' := fold_left (fun vel j => plus_at K vel (Z.of_nat m) (vel j)) _ u) in *. split.
    + intros i Hi. rewrite (collected_ext _ v u' u) by (intros j Hj; apply R2; lia).
      destruct (Z.eq_dec i (Z.of_nat m)) as [->|N]; [exact R1|]. rewrite R2 by exact N. apply A. lia.
    + intros i Hi. rewrite R2 by lia. apply B. lia.
Qed.

(** ** Gold *)
Lemma any_near_ok : forall i j, 0 <= j -> j + 8 <= storage ->
  any_near K radius2 pos i j = Some (existsb (fun e => nb (j + e) i) (zseq 8)).
Proof.
  intros i j H1 H2. unfold any_near.
  assert (G : forall l h, (forall e, In e l -> 0 <= e < 8) ->
    ofold (fun hit e => if in_storage (j + e) then Some (hit || nb (j + e) i) else None) l h = Some (h || existsb (fun e => nb (j + e) i) l)).
  { induction l as [|e l IH]; intros h H; cbn [ofold existsb]; [now rewrite orb_false_r|].
    pose proof (H e (or_introl eq_refl)). unfold in_storage at 1. replace ((0 <=? j + e) && (j + e <? storage)) with true by lia. cbn [obind].
    rewrite IH by (intros; apply H; now right). now rewrite orb_assoc. }
  rewrite G by (intros e He; apply in_zseq in He; lia). reflexivity.
Qed.

Definition give (i : Z) (vel : Z -> T) (k : Z) : Z -> T := if nb k i then plus_at K vel k (vel i) else vel.

Lemma scatter_eight_ok : forall i j v, 0 <= j -> j + 8 <= storage ->
  scatter_eight K radius2 pos i j v = Some (fold_left (give i) (range j (j + 8)) v).
Proof.
  intros i j v H1 H2. unfold scatter_eight. replace (range j (j + 8)) with (map (fun e => j + e) (zseq 8)) by (unfold range; do 2 f_equal; lia).
  assert (G : forall l v, (forall e, In e l -> 0 <= e < 8) ->
    ofold (fun vel e => if in_storage (j + e) then Some (if nb (j + e) i then plus_at K vel (j + e) (vel i) else vel) else None) l v =
    Some (fold_left (give i) (map (fun e => j + e) l) v)).
  { induction l as [|e l IH]; intros w H; cbn [ofold map fold_left]; [reflexivity|].
    pose proof (H e (or_introl eq_refl)). unfold in_storage at 1. replace ((0 <=? j + e) && (j + e <? storage)) with true by lia. cbn [obind].
    rewrite IH by (intros; apply H; now right). reflexivity. }
  apply G. intros e He; apply in_zseq in He; lia.
Qed.

Lemma give_none : forall i l v, existsb (fun k => nb k i) l = false -> fold_left (give i) l v = v.
Proof.
  intros i l. induction l as [|k l IH]; intros v H; [reflexivity|]. cbn [existsb] in H. apply orb_false_iff in H as [A B].
  cbn [fold_left]. unfold give at 2. rewrite A. now apply IH.
Qed.

Lemma scatter_from_ok : forall n i m j v fuel, j + 8 * Z.of_nat m = n -> 0 <= j -> n <= storage -> (m <= fuel)%nat ->
  scatter_from K radius2 pos n fuel i j v = Some (fold_left (give i) (range j n) v).
Proof.
  intros n i m. induction m as [|m IH]; intros j v fuel Hj J0 Hn Hf.
  - rewrite range_empty by lia. destruct fuel; cbn [scatter_from]; now replace (j =? n) with true by lia.
  - destruct fuel as [|fuel]; [lia|]. cbn [scatter_from]. replace (j =? n) with false by lia.
    rewrite any_near_ok by lia. cbn [obind].
    assert (E : (if existsb (fun e => nb (j + e) i) (zseq 8) then scatter_eight K radius2 pos i j v else Some v) = Some (fold_left (give i) (range j (j + 8)) v)).
    { destruct (existsb _ (zseq 8)) eqn:Q; [apply scatter_eight_ok; lia|]. rewrite give_none; [reflexivity|].
      rewrite <- Q. replace (range j (j + 8)) with (map (fun e => j + e) (zseq 8)) by (unfold range; do 2 f_equal; lia).
      generalize (zseq 8). induction l as [|e l IHl]; [reflexivity|]. cbn [map existsb]. now rewrite IHl. }
    rewrite E. cbn [obind]. rewrite (IH (j + 8)) by lia. rewrite <- fold_left_app, <- range_split by lia. reflexivity.
Qed.

(** One source: those up to it get its old velocity, those above the doubled one. *)
Lemma give_ok : forall i v m, 0 <= i ->
  let u := fold_left (give i) (range 0 (Z.of_nat m)) v in
  forall k, u k = if (0 <=? k) && (k <? Z.of_nat m) && nb k i
    then r_add K (v k) (if (i <? k) && nb i i then r_add K (v i) (v i) else v i) else v k.
Proof.
  intros i v m Hi. cbv zeta. induction m as [|m IH]; intros k.
  - cbn [Z.of_nat]. rewrite range_empty by lia. cbn [fold_left]. now replace ((0 <=? k) && (k <? 0)) with false by lia.
  - rewrite (range_split 0 (Z.of_nat m) (Z.of_nat (S m))) by lia. rewrite fold_left_app. replace (Z.of_nat (S m)) with (Z.of_nat m + 1) by lia.
    rewrite range_one. cbn [fold_left]. set (u := fold_left (give i) (range 0 (Z.of_nat m)) v) in *.
    assert (Uk := IH k). assert (Ui := IH i). assert (Um := IH (Z.of_nat m)). clear IH.
    unfold give. destruct (nb (Z.of_nat m) i) eqn:Q.
    + unfold plus_at. destruct (Z.eq_dec k (Z.of_nat m)) as [->|N].
      * rewrite put_same, Q. replace ((0 <=? Z.of_nat m) && (Z.of_nat m <? Z.of_nat m + 1)) with true by lia. cbn [andb].
        rewrite Um, Ui. replace ((0 <=? Z.of_nat m) && (Z.of_nat m <? Z.of_nat m)) with false by lia. cbn [andb]. f_equal.
        replace (i <? i) with false by lia. cbn [andb]. replace (0 <=? i) with true by lia. cbn [andb].
        destruct (i <? Z.of_nat m); cbn [andb]; destruct (nb i i); reflexivity.
      * rewrite put_other by exact N. rewrite Uk. now replace (k <? Z.of_nat m + 1) with (k <? Z.of_nat m) by lia.
    + rewrite Uk. destruct (Z.eq_dec k (Z.of_nat m)) as [->|N].
      * rewrite Q, !andb_false_r. reflexivity.
      * now replace (k <? Z.of_nat m + 1) with (k <? Z.of_nat m) by lia.
Qed.

Lemma scatter_ok : forall n v, Z.of_nat n mod 8 = 0 -> Z.of_nat n <= storage ->
  exists v', scatter K radius2 pos (Z.of_nat n) v = Some v' /\
    forall k, v' k = given (r_add K) (fun i j => nb i j) (Z.of_nat n) v n k.
Proof.
  intros n v M8 Hn. unfold scatter.
  enough (G : forall m, exists v',
    ofold (fun vel i => scatter_from K radius2 pos (Z.of_nat n) (Z.to_nat (storage / 8 + 1)) i 0 vel) (range 0 (Z.of_nat m)) v = Some v' /\
    forall k, v' k = given (r_add K) (fun i j => nb i j) (Z.of_nat n) v m k) by exact (G n).
  assert (OF : forall (A B : Type) (f : A -> B -> option A) l1 l2 a, ofold f (l1 ++ l2) a = obind (ofold f l1 a) (ofold f l2)).
  { clear. induction l1 as [|b l1 IH]; intros l2 a; [reflexivity|]. cbn [app ofold]. destruct (f a b); cbn [obind]; [apply IH|reflexivity]. }
  induction m as [|m [v' [E H]]].
  - exists v. split; reflexivity.
  - rewrite (range_split 0 (Z.of_nat m) (Z.of_nat (S m))) by lia. rewrite OF, E. cbn [obind]. replace (Z.of_nat (S m)) with (Z.of_nat m + 1) by lia.
    rewrite range_one. cbn [ofold].
    assert (Q : storage = 8208) by reflexivity. change (storage / 8 + 1) with 1027.
    rewrite (scatter_from_ok (Z.of_nat n) (Z.of_nat m) (Z.to_nat (Z.of_nat n / 8))) by (Z.to_euclidean_division_equations; lia).
    cbn [obind]. eexists. split; [reflexivity|]. intros k. rewrite give_ok by lia. cbn [given]. now rewrite !H.
Qed.

(** A number of particles that is no multiple of eight. *)
Lemma scatter_from_none : forall n i fuel j v, (n - j) mod 8 <> 0 -> 0 <= n <= storage -> j mod 8 = 0 -> 0 <= j ->
  scatter_from K radius2 pos n fuel i j v = None.
Proof.
  intros n i fuel. induction fuel as [|fuel IH]; intros j v M H J J0; cbn [scatter_from];
    replace (j =? n) with false by (Z.to_euclidean_division_equations; lia); [reflexivity|].
  assert (N : forall w, scatter_from K radius2 pos n fuel i (j + 8) w = None).
  { intros w. apply IH; try lia; Z.to_euclidean_division_equations; lia. }
  destruct (any_near K radius2 pos i j) as [hit|]; [|reflexivity]. cbn [obind].
  destruct (if hit then _ else _) as [w|]; [apply N|reflexivity].
Qed.
End Interactor.

(** ** C84: the velocities of ParticleInteractor *)

(** Vanilla: each of the three components is collected from the neighbours; the
    lists of neighbours serve velY and velZ as the test served velX. *)
Theorem C84_vanilla : forall (T : Type) (K : arith T) radius2 pos n velX velY velZ,
  let is_near i j := near K radius2 (pos i) (pos j) in
  exists velX' velY' velZ',
    vanilla_interact K radius2 pos (Z.of_nat n) (velX, velY, velZ) = (velX', velY', velZ') /\
    collects (r_add K) is_near n velX velX' /\ collects (r_add K) is_near n velY velY' /\ collects (r_add K) is_near n velZ velZ'.
Proof.
  intros T K radius2 pos n velX velY velZ is_near. unfold vanilla_interact. rewrite gather_x_ok, !gather_by_ok.
  do 3 eexists. split; [reflexivity|]. repeat split; apply gather_all_ok; auto.
Qed.

(** Gold: each component is given to the neighbours; for multiples of eight. *)
Theorem C84_gold_partial : forall (T : Type) (K : arith T) radius2 pos n velX velY velZ,
  Z.of_nat n mod 8 = 0 -> Z.of_nat n <= storage ->
  let after := given (r_add K) (fun i j => near K radius2 (pos i) (pos j)) (Z.of_nat n) in
  exists velX' velY' velZ',
    gold_interact K radius2 pos (Z.of_nat n) (velX, velY, velZ) = Some (velX', velY', velZ') /\
    (forall i, velX' i = after velX n i) /\ (forall i, velY' i = after velY n i) /\ (forall i, velZ' i = after velZ n i).
Proof.
  intros T K radius2 pos n velX velY velZ M8 Hn after. unfold gold_interact.
  destruct (scatter_ok K radius2 pos n velX M8 Hn) as [x [-> Hx]].
  destruct (scatter_ok K radius2 pos n velY M8 Hn) as [y [-> Hy]].
  destruct (scatter_ok K radius2 pos n velZ M8 Hn) as [z [-> Hz]]. cbn [obind]. exists x, y, z. auto.
Qed.

(** For all other numbers the loop misses its end and leaves the storage. *)
Theorem C84_gold_endless_refuted : forall (T : Type) (K : arith T) radius2 pos n repeats v,
  n mod 8 <> 0 -> 0 < n <= storage -> gold_interactions K radius2 pos n (S repeats) v = None.
Proof.
  intros T K radius2 pos n repeats v M8 Hn. unfold gold_interactions.
  assert (N : forall w, gold_interact K radius2 pos n w = None).
  { intros [[x y] z]. unfold gold_interact, scatter. replace (range 0 n) with (0 :: range 1 n).
    - cbn [ofold]. rewrite scatter_from_none; [reflexivity|now rewrite Z.sub_0_r|lia|reflexivity|lia].
    - rewrite (range_split 0 1 n) by lia. reflexivity. }
  change (obind (Nat.iter repeats (fun s => obind s (gold_interact K radius2 pos n)) (Some v)) (gold_interact K radius2 pos n) = None).
  destruct (Nat.iter repeats _ _); [apply N|reflexivity].
Qed.

(** Particles at rest, as in the runs, stay at rest in both: there the claim is true. *)
Theorem C84_same_partial : forall (T : Type) (K : arith T) radius2 pos n repeats,
  Z.of_nat n mod 8 = 0 -> Z.of_nat n <= storage -> r_add K (r_num K 0) (r_num K 0) = r_num K 0 ->
  let at_rest (v : (Z -> T) * (Z -> T) * (Z -> T)) := forall i, fst (fst v) i = r_num K 0 /\ snd (fst v) i = r_num K 0 /\ snd v i = r_num K 0 in
  let rest := fun _ : Z => r_num K 0 in
  at_rest (vanilla_interactions K radius2 pos (Z.of_nat n) repeats (rest, rest, rest)) /\
  exists v, gold_interactions K radius2 pos (Z.of_nat n) repeats (rest, rest, rest) = Some v /\ at_rest v.
Proof.
  intros T K radius2 pos n repeats M8 Hn H0 at_rest rest.
  assert (C : forall v v', (forall i, v i = r_num K 0) -> collects (r_add K) (fun i j => near K radius2 (pos i) (pos j)) n v v' -> forall i, v' i = r_num K 0).
  { intros v v' Hv [A B].
    assert (P : forall m i, i < Z.of_nat m -> v' i = r_num K 0).
    { induction m as [|m IH]; intros i Hi.
      - rewrite B by lia. apply Hv.
      - destruct (Z_lt_ge_dec i 0) as [L|G]; [rewrite B by lia; apply Hv|].
        destruct (Z_lt_ge_dec i (Z.of_nat n)) as [L|G']; [|rewrite B by lia; apply Hv]. rewrite A by lia.
        generalize n. intros k. induction k as [|k IHk]; [apply Hv|]. cbn [collected]. rewrite IHk.
        destruct (near _ _ _ _); [|reflexivity]. destruct (Z.of_nat k <? i) eqn:Q; [rewrite IH by lia; exact H0|].
        destruct (Z.of_nat k =? i); [exact H0|]. rewrite Hv. exact H0. }
    intros i. apply (P (S (Z.to_nat i))). lia. }
  assert (G : forall v, (forall i, v i = r_num K 0) -> forall k i, given (r_add K) (fun i j => near K radius2 (pos i) (pos j)) (Z.of_nat n) v k i = r_num K 0).
  { intros v Hv k. induction k as [|k IH]; intros i; [apply Hv|]. cbn [given]. rewrite !IH, H0.
    destruct (_ && _ && _); [|reflexivity]. destruct (_ && _); exact H0. }
  split.
  - unfold vanilla_interactions. induction repeats as [|r IH]; [intros i; auto|].
    change (at_rest (vanilla_interact K radius2 pos (Z.of_nat n) (Nat.iter r (vanilla_interact K radius2 pos (Z.of_nat n)) (rest, rest, rest)))).
    destruct (Nat.iter r _ _) as [[x y] z]. unfold at_rest in IH. cbn [fst snd] in IH.
    destruct (C84_vanilla T K radius2 pos n x y z) as [x' [y' [z' [-> [X [Y Z]]]]]]. intros i. cbn [fst snd].
    repeat split; [apply (C x)|apply (C y)|apply (C z)]; auto; intros j; apply IH.
  - unfold gold_interactions. induction repeats as [|r [v [E IH]]]; [exists (rest, rest, rest); split; [reflexivity|intros i; auto]|].
    change (exists v, obind (Nat.iter r (fun s => obind s (gold_interact K radius2 pos (Z.of_nat n))) (Some (rest, rest, rest))) (gold_interact K radius2 pos (Z.of_nat n)) = Some v /\ at_rest v).
    rewrite E. cbn [obind]. destruct v as [[x y] z]. unfold at_rest in IH. cbn [fst snd] in IH.
    destruct (C84_gold_partial T K radius2 pos n x y z M8 Hn) as [x' [y' [z' [-> [X [Y Z]]]]]]. exists (x', y', z'). split; [reflexivity|].
    intros i. cbn [fst snd]. rewrite X, Y, Z. repeat split; apply G; intros j; apply IH.
Qed.

(** Moving particles: the two differ. *)
Definition integers : arith Z := mkArith Z.add Z.sub Z.mul Z.div Z.opp Z.sqrt Z.ltb (fun z => z) 3.
Definition row_of_eight (i : Z) : point Z := mkPoint i 0 0.
Definition one_moves (i : Z) : Z := if i =? 0 then 1 else 0.

Theorem C84_same_refuted :
  map (fst (fst (vanilla_interactions integers 2 row_of_eight 8 1 (one_moves, one_moves, one_moves)))) (range 0 8) = [2; 4; 8; 16; 32; 64; 128; 256] /\
  match gold_interactions integers 2 row_of_eight 8 1 (one_moves, one_moves, one_moves) with
  | Some (velX, _, _) => map velX (range 0 8) = [4; 8; 16; 32; 64; 128; 256; 256]
  | None => False end.
Proof. vm_compute. split; reflexivity. Qed.

(** ** C85: the number of pairs counted by ConditionalAny *)
Definition saturate (c : Z) : Z := Z.min c (2 ^ 24).

(** Sums over lists. *)
Fixpoint sum {A : Type} (l : list A) (f : A -> Z) : Z :=
  match l with [] => 0 | a :: l => f a + sum l f end.

Lemma sum_app : forall (A : Type) (l l' : list A) f, sum (l ++ l') f = sum l f + sum l' f.
Proof. induction l as [|a l IH]; intros; cbn [app sum]; [lia|]. rewrite IH. lia. Qed.
Lemma sum_ext : forall (A : Type) (l : list A) f g, (forall a, In a l -> f a = g a) -> sum l f = sum l g.
Proof. induction l as [|a l IH]; intros f g H; cbn [sum]; [reflexivity|]. rewrite (H a) by (left; reflexivity). rewrite (IH f g); [reflexivity|]. intros; apply H; now right. Qed.
Lemma sum_plus : forall (A : Type) (l : list A) f g, sum l (fun a => f a + g a) = sum l f + sum l g.
Proof. induction l as [|a l IH]; intros; cbn [sum]; [reflexivity|]. rewrite IH. lia. Qed.
Lemma sum_map : forall (A B : Type) (g : B -> A) l f, sum (map g l) f = sum l (fun b => f (g b)).
Proof. induction l as [|a l IH]; intros; cbn [map sum]; [reflexivity|]. now rewrite IH. Qed.
Lemma sum_flat_map : forall (A B : Type) (g : B -> list A) l f, sum (flat_map g l) f = sum l (fun b => sum (g b) f).
Proof. induction l as [|a l IH]; intros; cbn [flat_map sum]; [reflexivity|]. now rewrite sum_app, IH. Qed.
Lemma sum_swap : forall (A B : Type) (l : list A) (l' : list B) f, sum l (fun a => sum l' (fun b => f a b)) = sum l' (fun b => sum l (fun a => f a b)).
Proof.
  induction l as [|a l IH]; intros l' f; cbn [sum].
  - induction l' as [|b l' IH]; cbn [sum]; lia.
  - rewrite IH, sum_plus. reflexivity.
Qed.
Lemma sum_const : forall (A : Type) (l : list A) c, sum l (fun _ => c) = Z.of_nat (length l) * c.
Proof. induction l as [|a l IH]; intros; cbn [sum length]; [lia|]. rewrite IH. lia. Qed.
Lemma sum_le : forall (A : Type) (l : list A) f c, (forall a, In a l -> f a <= c) -> sum l f <= Z.of_nat (length l) * c.
Proof.
  induction l as [|a l IH]; intros f c H; cbn [sum length]; [lia|]. pose proof (H a (or_introl eq_refl)).
  assert (sum l f <= Z.of_nat (length l) * c) by (apply IH; intros; apply H; now right). lia.
Qed.
Lemma length_filter_sum : forall (A : Type) (f : A -> bool) l, Z.of_nat (length (filter f l)) = sum l (fun a => if f a then 1 else 0).
Proof. induction l as [|a l IH]; cbn [filter sum]; [reflexivity|]. destruct (f a); cbn [length]; lia. Qed.

Section Counting.
Context {T : Type} (K : arith T) (radius2 : T) (pos : Z -> point T) (n : Z).
Hypothesis Hn : 0 <= n.
Local Notation nb i j := (near K radius2 (pos i) (pos j)).

(** Neighbours of particle i. *)
Definition neighbours (i : Z) : Z := sum (range 0 n) (fun j => if nb i j then 1 else 0).

Lemma pairs_sum : number_of_pairs (near K radius2) (map pos (range 0 n)) = sum (range 0 n) neighbours.
Proof.
  unfold number_of_pairs. rewrite length_filter_sum. generalize (range 0 n) at 1 3. intros l.
  assert (P : forall (A B : Type) (l : list A) (l' : list B) (f : A * B -> Z), sum (list_prod l l') f = sum l (fun a => sum l' (fun b => f (a, b)))).
  { clear. induction l as [|a l IH]; intros l' f; cbn [list_prod sum]; [reflexivity|]. now rewrite sum_app, IH, sum_map. }
  rewrite P, sum_map. apply sum_ext. intros i _. rewrite sum_map. reflexivity.
Qed.

Lemma count_row : forall i l c, fold_left (fun counter j => if nb i j then counter + 1 else counter) l c = c + sum l (fun j => if nb i j then 1 else 0).
Proof. intros i l. induction l as [|j l IH]; intros c; cbn [fold_left sum]; [lia|]. rewrite IH. destruct (nb i j); lia. Qed.

Lemma count_vanilla_ok : forall repeats c, count_vanilla K radius2 pos n repeats c = c + Z.of_nat repeats * sum (range 0 n) neighbours.
Proof.
  intros repeats c. unfold count_vanilla. induction repeats as [|r IH]; [cbn; lia|].
  change (fold_left (fun counter i => fold_left (fun counter j => if nb i j then counter + 1 else counter) (range 0 n) counter) (range 0 n)
    (Nat.iter r (fun counter => fold_left (fun counter i => fold_left (fun counter j => if nb i j then counter + 1 else counter) (range 0 n) counter) (range 0 n) counter) c)
    = c + Z.of_nat (S r) * sum (range 0 n) neighbours).
  rewrite IH.
  assert (G : forall l c, fold_left (fun counter i => fold_left (fun counter j => if nb i j then counter + 1 else counter) (range 0 n) counter) l c = c + sum l neighbours).
  { induction l as [|i l IHl]; intros c'; cbn [fold_left sum]; [lia|]. rewrite count_row, IHl. unfold neighbours at 2. lia. }
  rewrite G. lia.
Qed.

Lemma neighbours_bound : forall i, 0 <= neighbours i <= n.
Proof.
  intros i. unfold neighbours.
  assert (G : forall l, 0 <= sum l (fun j => if nb i j then 1 else 0) <= Z.of_nat (length l)).
  { induction l as [|j l IH]; cbn [sum length]; [lia|]. destruct (nb i j); lia. }
  specialize (G (range 0 n)). unfold range in G at 3. rewrite map_length, length_zseq in G. lia.
Qed.

(** One row of the vector loop. *)
Lemma combine_map : forall (A B C : Type) (f : A -> B) (g : A -> C) l, combine (map f l) (map g l) = map (fun a => (f a, g a)) l.
Proof. induction l as [|a l IH]; cbn [map combine]; [reflexivity|]. now rewrite IH. Qed.

Lemma lanes_row : forall w index l (t : Z -> Z), (forall e, 0 <= t e) ->
  fold_left (fun s j => update_lanes K radius2 pos w index j s) l (map (fun e => saturate (t e)) (zseq w)) =
  map (fun e => saturate (t e + sum l (fun j => if nb (index + e) j then 1 else 0))) (zseq w).
Proof.
  intros w index l. induction l as [|j l IH]; intros t Ht; cbn [fold_left sum].
  - apply map_ext. intros e. f_equal. lia.
  - replace (update_lanes K radius2 pos w index j (map (fun e => saturate (t e)) (zseq w)))
      with (map (fun e => saturate (t e + if nb (index + e) j then 1 else 0)) (zseq w)).
    + rewrite IH by (intros e; specialize (Ht e); destruct (nb (index + e) j); lia). apply map_ext. intros e. f_equal. lia.
    + unfold update_lanes. destruct (existsb (fun b => b) (map _ (zseq w))) eqn:E.
      * rewrite combine_map, map_map. apply map_ext. intros e. specialize (Ht e). unfold plus_one, saturate.
        destruct (nb (index + e) j); [|f_equal; lia]. destruct (Z.min (t e) (2 ^ 24) <? 2 ^ 24) eqn:Q; lia.
      * apply map_ext_in. intros e He. destruct (nb (index + e) j) eqn:Q; [|f_equal; lia]. exfalso.
        assert (existsb (fun b => b) (map (fun e => nb (index + e) j) (zseq w)) = true); [|congruence].
        apply existsb_exists. exists true. split; [|reflexivity]. apply in_map_iff. exists e. auto.
Qed.

(** The neighbours of the m particles start, start + w, ... *)
Fixpoint strided_sum (w start : Z) (m : nat) : Z :=
  match m with O => 0 | S m => neighbours start + strided_sum w (start + w) m end.

Lemma update_ok : forall w m index c, 1 <= w -> 0 <= index -> index + w * Z.of_nat m <= n ->
  update K radius2 pos n w (index + w * Z.of_nat m) index c =
  Some (index + w * Z.of_nat m, c + sum (zseq w) (fun e => saturate (strided_sum w (index + e) m))).
Proof.
  intros w m index c Hw Hi Hm. unfold update.
  assert (G : forall m index (t : Z -> Z) fuel, 0 <= index -> index + w * Z.of_nat m <= n -> (forall e, 0 <= t e) -> (m <= fuel)%nat ->
    while fuel (index + w * Z.of_nat m) (fun index s =>
      if (0 <=? index) && (index + w <=? n) then Some (index + w, fold_left (fun s j => update_lanes K radius2 pos w index j s) (range 0 n) s) else None)
      index (map (fun e => saturate (t e)) (zseq w)) =
    Some (index + w * Z.of_nat m, map (fun e => saturate (t e + strided_sum w (index + e) m)) (zseq w))).
  { clear m index c Hi Hm. induction m as [|m IH]; intros index t fuel Hi Hm Ht Hf.
    - replace (index + w * Z.of_nat 0) with index by lia. cbn [strided_sum].
      replace (map (fun e => saturate (t e + 0)) (zseq w)) with (map (fun e => saturate (t e)) (zseq w)) by (apply map_ext; intros e; f_equal; lia).
      destruct fuel; cbn [while]; now rewrite Z.ltb_irrefl.
    - destruct fuel as [|fuel]; [lia|]. cbn [while].
      assert (B : index + w * Z.of_nat (S m) = index + w + w * Z.of_nat m) by lia. rewrite B.
      assert (0 <= w * Z.of_nat m) by nia.
      replace (index <? index + w + w * Z.of_nat m) with true by lia.
      replace ((0 <=? index) && (index + w <=? n)) with true by lia. cbn [obind].
      rewrite lanes_row by exact Ht. fold (neighbours index).
      rewrite (map_ext _ (fun e => saturate (t e + neighbours (index + e)))) by reflexivity.
      rewrite (IH (index + w) (fun e => t e + neighbours (index + e))); try lia.
      + do 2 f_equal. apply map_ext. intros e. cbn [strided_sum]. replace (index + w + e) with (index + e + w) by lia. f_equal. lia.
      + intros e. specialize (Ht e). pose proof (neighbours_bound (index + e)). lia. }
  specialize (G m index (fun _ => 0) (Z.to_nat (index + w * Z.of_nat m - index)) Hi Hm).
  rewrite (map_ext (fun _ => 0) (fun _ => saturate 0)) by reflexivity. rewrite G; [|lia|nia]. cbn [obind]. f_equal. f_equal.
  assert (F : forall l c, fold_left Z.add l c = c + sum l (fun x => x)) by (induction l as [|x l IHl]; intros c'; cbn [fold_left sum]; [lia|rewrite IHl; lia]).
  rewrite F, sum_map. reflexivity.
Qed.

Definition gold_round : Z :=
  sum (zseq 16) (fun e => saturate (strided_sum 16 e (Z.to_nat (n / 16)))) +
  saturate (strided_sum 1 (n - n mod 16) (Z.to_nat (n mod 16))).

Lemma count_gold_ok : forall repeats c, count_gold K radius2 pos n repeats c = Some (c + Z.of_nat repeats * gold_round).
Proof.
  intros repeats c. unfold count_gold. induction repeats as [|r IH]; [cbn; do 2 f_equal; lia|].
  change (obind (Nat.iter r (fun counter => obind counter (fun counter =>
    obind (peel 16 (update K radius2 pos n) 0 n counter) (fun '(_, counter) => Some counter))) (Some c))
    (fun counter => obind (peel 16 (update K radius2 pos n) 0 n counter) (fun '(_, counter) => Some counter)) = Some (c + Z.of_nat (S r) * gold_round)).
  rewrite IH. cbn [obind]. unfold peel. cbv zeta. change (0 mod 16 =? 0) with true. cbv iota.
  set (c' := c + Z.of_nat r * gold_round).
  pose proof (update_ok 1 0 0 c' ltac:(lia) ltac:(lia) ltac:(lia)) as U1. change (0 + 1 * Z.of_nat 0) with 0 in U1. rewrite U1. cbn [obind].
  assert (D : n - n mod 16 = 0 + 16 * Z.of_nat (Z.to_nat (n / 16)) /\ 0 <= n mod 16 < 16) by (Z.to_euclidean_division_equations; lia).
  destruct D as [D1 D2].
  rewrite D1 at 1. rewrite update_ok by lia. cbn [obind]. rewrite <- D1.
  replace (update K radius2 pos n 1 n (n - n mod 16)) with (update K radius2 pos n 1 (n - n mod 16 + 1 * Z.of_nat (Z.to_nat (n mod 16))) (n - n mod 16)) by (f_equal; lia).
  rewrite update_ok by lia. cbn [obind]. f_equal. change (zseq 1) with [0]. cbn [sum].
  rewrite !Z.add_0_r. change (saturate (strided_sum 1 0 0)) with 0.
  change (fun e : Z => saturate (strided_sum 16 (0 + e) (Z.to_nat (n / 16)))) with (fun e : Z => saturate (strided_sum 16 e (Z.to_nat (n / 16)))).
  rewrite <- Z.add_assoc. fold gold_round. unfold c'. lia.
Qed.

Lemma strided_bound : forall w m start, 0 <= strided_sum w start m <= Z.of_nat m * n.
Proof.
  intros w m. induction m as [|m IH]; intros start; cbn [strided_sum]; [lia|]. specialize (IH (start + w)). pose proof (neighbours_bound start). lia.
Qed.

Lemma strided_one : forall m start, strided_sum 1 start m = sum (range start (start + Z.of_nat m)) neighbours.
Proof.
  induction m as [|m IH]; intros start; cbn [strided_sum].
  - now rewrite range_empty by lia.
  - rewrite (range_split start (start + 1)) by lia. rewrite sum_app, range_one. cbn [sum]. rewrite IH.
    replace (start + 1 + Z.of_nat m) with (start + Z.of_nat (S m)) by lia. lia.
Qed.

Lemma strided_all : forall m start, sum (zseq 16) (fun e => strided_sum 16 (start + e) m) = sum (range start (start + 16 * Z.of_nat m)) neighbours.
Proof.
  induction m as [|m IH]; intros start; cbn [strided_sum].
  - rewrite sum_const, range_empty by lia. reflexivity.
  - rewrite sum_plus. rewrite (range_split start (start + 16)) by lia. rewrite sum_app. f_equal.
    + unfold range. replace (start + 16 - start) with 16 by lia. now rewrite sum_map.
    + rewrite (sum_ext _ _ (fun e => strided_sum 16 (start + e + 16) m) (fun e => strided_sum 16 (start + 16 + e) m)) by (intros; f_equal; lia).
      rewrite IH. do 2 f_equal. lia.
Qed.

Lemma gold_round_exact : n <= 2 ^ 14 -> gold_round = sum (range 0 n) neighbours.
Proof.
  intros H. unfold gold_round.
  assert (S24 : forall c, c <= 2 ^ 24 -> saturate c = c) by (intros; unfold saturate; lia).
  assert (D : 0 <= n / 16 <= 2 ^ 10 /\ 0 <= n mod 16 < 16 /\ n = 16 * (n / 16) + n mod 16) by (Z.to_euclidean_division_equations; lia).
  rewrite (sum_ext _ _ _ (fun e => strided_sum 16 (0 + e) (Z.to_nat (n / 16)))).
  2:{ intros e _. rewrite Z.add_0_l. apply S24. pose proof (strided_bound 16 (Z.to_nat (n / 16)) e). rewrite Z2Nat.id in H0 by lia. nia. }
  rewrite S24. 2:{ pose proof (strided_bound 1 (Z.to_nat (n mod 16)) (n - n mod 16)). rewrite Z2Nat.id in H0 by lia. nia. }
  rewrite strided_all, strided_one, <- sum_app. rewrite !Z2Nat.id by lia.
  replace (n - n mod 16 + n mod 16) with n by lia. replace (0 + 16 * (n / 16)) with (n - n mod 16) by lia.
  rewrite <- range_split by lia. reflexivity.
Qed.
End Counting.

(** Vanilla counts every pair in every repetition, ... *)
Theorem C85_vanilla : forall (T : Type) (K : arith T) radius2 pos n repeats, 0 <= n ->
  count_vanilla K radius2 pos n repeats 0 = Z.of_nat repeats * number_of_pairs (near K radius2) (map pos (range 0 n)).
Proof. intros T K radius2 pos n repeats Hn. rewrite count_vanilla_ok, pairs_sum. lia. Qed.

(** ... Gold as well, for up to 16384 particles. *)
Theorem C85_gold_partial : forall (T : Type) (K : arith T) radius2 pos n repeats, 0 <= n <= 2 ^ 14 ->
  count_gold K radius2 pos n repeats 0 = Some (Z.of_nat repeats * number_of_pairs (near K radius2) (map pos (range 0 n))).
Proof. intros T K radius2 pos n repeats Hn. rewrite count_gold_ok, pairs_sum, gold_round_exact by lia. reflexivity. Qed.

(** Beyond that a sum of floats may stick at 2^24. *)
Theorem C85_gold_refuted : forall (T : Type) (K : arith T) radius2 pos m repeats, 2 ^ 10 < Z.of_nat m -> (1 <= repeats)%nat ->
  (forall i j, near K radius2 (pos i) (pos j) = true) ->
  let n := 16 * Z.of_nat m in
  count_gold K radius2 pos n repeats 0 = Some (Z.of_nat repeats * 2 ^ 28) /\
  count_vanilla K radius2 pos n repeats 0 = Z.of_nat repeats * (n * n) /\ Z.of_nat repeats * 2 ^ 28 < Z.of_nat repeats * (n * n).
Proof.
  intros T K radius2 pos m repeats Hm Hr Hnear n.
  assert (N : forall i, neighbours K radius2 pos n i = n).
  { intros i. unfold neighbours. rewrite (sum_ext _ _ _ (fun _ => 1)) by (intros; now rewrite Hnear). rewrite sum_const. unfold range. rewrite map_length, length_zseq. lia. }
  assert (ST : forall w k s, strided_sum K radius2 pos n w s k = Z.of_nat k * n).
  { intros w k. induction k as [|k IH]; intros s; cbn [strided_sum]; [lia|]. rewrite IH, N. lia. }
  split; [|split].
  - rewrite count_gold_ok by lia. f_equal. unfold gold_round.
    replace (n mod 16) with 0 by (unfold n; rewrite Z.mul_comm, Z.mod_mul by lia; reflexivity).
    replace (n / 16) with (Z.of_nat m) by (unfold n; rewrite Z.mul_comm, Z.div_mul by lia; reflexivity).
    rewrite (sum_ext _ _ _ (fun _ => 2 ^ 24)).
    + rewrite sum_const, length_zseq, ST. change (saturate (Z.of_nat (Z.to_nat 0) * n)) with 0. change (Z.of_nat (Z.to_nat 16)) with 16. lia.
    + intros e _. rewrite ST, Nat2Z.id. unfold saturate. unfold n. nia.
  - rewrite count_vanilla_ok. rewrite (sum_ext _ _ _ (fun _ => n)) by (intros; apply N). rewrite sum_const. unfold range. rewrite map_length, length_zseq. lia.
  - apply Z.mul_lt_mono_pos_l; [lia|]. assert (2 ^ 14 < n) by lia. change (2 ^ 28) with (2 ^ 14 * 2 ^ 14). apply Z.mul_lt_mono_nonneg; lia.
Qed.

(** The runs: 20 * 20 * 20 particles, distances in hundredths.  The counters, with
    70 repetitions; the largest stays just below 2^31. *)
Definition grid_point (x y z : Z) : point Z := mkPoint (5 * x) (5 * y) (5 * z).
Definition grid_particle (i : Z) : point Z := nth (Z.to_nat i) (start_particles grid_point 20) (mkPoint 0 0 0).

Lemma sum_histogram : forall h : Z -> Z,
  sum (range 0 20) (fun a => sum (range 0 20) (fun b => h ((a - b) * (a - b)))) =
  sum (range 0 20) (fun k => (if k =? 0 then 20 else 2 * (20 - k)) * h (k * k)).
Proof.
  intros h.
  assert (E : sum (range 0 20) (fun a => sum (range 0 20) (fun b => h ((a - b) * (a - b)))) =
    sum (flat_map (fun a => map (fun b => (a - b) * (a - b)) (range 0 20)) (range 0 20)) h).
  { rewrite sum_flat_map. apply sum_ext. intros a _. now rewrite sum_map. }
  rewrite E. clear E.
  assert (F : sum (range 0 20) (fun k => (if k =? 0 then 20 else 2 * (20 - k)) * h (k * k)) =
    sum (map (fun k => (if k =? 0 then 20 else 2 * (20 - k), k * k)) (range 0 20)) (fun '(m, k) => m * h k)) by now rewrite sum_map.
  rewrite F. clear F.
  set (l := flat_map _ _). vm_compute in l. set (l' := map _ _). vm_compute in l'. unfold l, l'. clear. cbn [sum]. lia.
Qed.

Definition hist (k : Z) : Z := if k =? 0 then 20 else 2 * (20 - k).

Lemma grid_pairs : forall r2, number_of_pairs (near integers r2) (start_particles grid_point 20) =
  sum (range 0 20) (fun a => hist a * sum (range 0 20) (fun b => hist b * sum (range 0 20) (fun c =>
    hist c * (if 25 * (c * c + b * b + a * a) <? r2 then 1 else 0)))).
Proof.
  intros r2. unfold number_of_pairs. rewrite length_filter_sum.
  assert (P : forall (A B : Type) (l : list A) (l' : list B) (f : A * B -> Z), sum (list_prod l l') f = sum l (fun a => sum l' (fun b => f (a, b)))).
  { clear. induction l as [|a l IH]; intros l' f; cbn [list_prod sum]; [reflexivity|]. now rewrite sum_app, IH, sum_map. }
  rewrite P. set (R := range 0 20).
  assert (S3 : forall f : point Z -> Z, sum (start_particles grid_point 20) f = sum R (fun z => sum R (fun y => sum R (fun x => f (grid_point x y z))))).
  { intros f. unfold start_particles. fold R. rewrite sum_flat_map. apply sum_ext. intros z _. rewrite sum_flat_map. apply sum_ext. intros y _. now rewrite sum_map. }
  rewrite S3.
  set (g := fun d : Z => if 25 * d <? r2 then 1 else 0).
  transitivity (sum R (fun z => sum R (fun z' => sum R (fun y => sum R (fun y' => sum R (fun x => sum R (fun x' =>
    g ((x - x') * (x - x') + (y - y') * (y - y') + (z - z') * (z - z'))))))))).
  - apply sum_ext. intros z _.
    transitivity (sum R (fun y => sum R (fun x => sum R (fun z' => sum R (fun y' => sum R (fun x' =>
      g ((x - x') * (x - x') + (y - y') * (y - y') + (z - z') * (z - z')))))))).
    { apply sum_ext. intros y _. apply sum_ext. intros x _. rewrite S3. apply sum_ext. intros z' _. apply sum_ext. intros y' _. apply sum_ext. intros x' _.
      unfold near, g, integers, grid_point. cbn [r_lt r_add r_sub r_mul x_of y_of z_of].
      replace ((5 * x - 5 * x') * (5 * x - 5 * x') + (5 * y - 5 * y') * (5 * y - 5 * y') + (5 * z - 5 * z') * (5 * z - 5 * z'))
        with (25 * ((x - x') * (x - x') + (y - y') * (y - y') + (z - z') * (z - z'))) by ring. reflexivity. }
    transitivity (sum R (fun y => sum R (fun z' => sum R (fun x => sum R (fun y' => sum R (fun x' =>
      g ((x - x') * (x - x') + (y - y') * (y - y') + (z - z') * (z - z')))))))).
    { apply sum_ext. intros y _. apply sum_swap. }
    rewrite sum_swap. apply sum_ext. intros z' _. apply sum_ext. intros y _. apply sum_swap.
  - assert (H1 : forall h, sum R (fun a => sum R (fun b => h ((a - b) * (a - b)))) = sum R (fun k => hist k * h (k * k))) by exact sum_histogram.
    rewrite (H1 (fun a => sum R (fun y => sum R (fun y' => sum R (fun x => sum R (fun x' => g ((x - x') * (x - x') + (y - y') * (y - y') + a))))))).
    apply sum_ext. intros a _. f_equal.
    rewrite (H1 (fun b => sum R (fun x => sum R (fun x' => g ((x - x') * (x - x') + b + a * a))))).
    apply sum_ext. intros b _. f_equal.
    rewrite (H1 (fun c => g (c + b * b + a * a))). apply sum_ext. intros c _. reflexivity.
Qed.

Theorem C85_runs : map fst [(4, 560000); (16, 68583760); (64, 2091241600)] = conditional_runs /\
  forall radius counter, In (radius, counter) [(4, 560000); (16, 68583760); (64, 2091241600)] ->
  count_vanilla integers (radius * radius) grid_particle 8000 70 0 = counter /\
  count_gold integers (radius * radius) grid_particle 8000 70 0 = Some counter /\ counter < 2 ^ 31.
Proof.
  split; [reflexivity|]. intros radius counter H.
  rewrite C85_vanilla, C85_gold_partial by lia.
  assert (E : map grid_particle (range 0 8000) = start_particles grid_point 20).
  { assert (L : Z.of_nat (length (start_particles grid_point 20)) = 8000) by (vm_compute; reflexivity).
    unfold grid_particle. revert L. generalize (start_particles grid_point 20) as l. intros l L.
    apply (nth_ext _ _ (mkPoint 0 0 0) (mkPoint 0 0 0)).
    - rewrite map_length. unfold range. rewrite map_length, length_zseq. lia.
    - intros k Hk. rewrite map_length in Hk.
      rewrite (nth_indep _ _ ((fun i => nth (Z.to_nat i) l (mkPoint 0 0 0)) 0)) by (rewrite map_length; exact Hk).
      rewrite (map_nth (fun i => nth (Z.to_nat i) l (mkPoint 0 0 0))).
      unfold range in Hk. rewrite map_length, length_zseq in Hk.
      replace (nth k (range 0 8000) 0) with (Z.of_nat k); [now rewrite Nat2Z.id|].
      rewrite <- (nth_range 8000 (Z.of_nat k) 0) at 1 by lia. now rewrite Nat2Z.id. }
  rewrite E, grid_pairs.
  cbn [In] in H. repeat (destruct H as [H|H]; [apply pair_equal_spec in H as [<- <-]; vm_compute; repeat split; reflexivity|]). contradiction.
Qed.

(** ** Concrete cases *)
Example C84_case :
  let v := fun i : Z => i in
  map (fst (fst (vanilla_interactions integers 2 row_of_eight 3 1 (v, v, v)))) (range 0 4) = [1; 6; 16; 3] /\
  gold_interactions integers 2 row_of_eight 3 1 (v, v, v) = None.
Proof. vm_compute. split; reflexivity. Qed.

Example C85_case : count_vanilla integers 5 row_of_eight 40 3 0 = 3 * 194 /\ count_gold integers 5 row_of_eight 40 3 0 = Some (3 * 194).
Proof. vm_compute. split; reflexivity. Qed.

Print Assumptions C84_vanilla.
Print Assumptions C84_gold_partial.
Print Assumptions C84_gold_endless_refuted.
Print Assumptions C84_same_partial.
Print Assumptions C84_same_refuted.
Print Assumptions C85_vanilla.
Print Assumptions C85_gold_partial.
Print Assumptions C85_gold_refuted.
Print Assumptions C85_runs.
