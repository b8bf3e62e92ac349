(** Proofs about Sph.v. *)
From Coq Require Import ZArith List Bool Lia Ring_theory Ring.
From Verif Require Import Base Peeler PeelerProofs Sph SpecSph.
Import ListNotations.
Local Open Scope Z_scope.

Section Lfa.
Context {T : Type} (K : arith T) (ext A : Z).
Hypothesis HA : 0 < A.

Lemma inside_true : forall j w, inside ext j w = true <-> 0 <= j /\ j + w <= ext.
Proof. intros. unfold inside. lia. Qed.

(** A body that carries out [step] on w particles, up to an abstraction R. *)
Definition carries {S B : Type} (R : S -> B -> Prop) (step : B -> Z -> B) (w : Z)
    (body : Z -> S -> option (Z * S)) : Prop :=
  forall j s b, R s b -> inside ext j w = true ->
    exists s', body j s = Some (j + w, s') /\ R s' (fold_left step (map (fun e => j + e) (zseq w)) b).

Lemma while_ok : forall {S B : Type} (R : S -> B -> Prop) step w body stop, 0 < w -> carries R step w body ->
  forall fuel j s b, R s b -> 0 <= j -> (w | stop - j) -> stop - j <= Z.of_nat fuel -> Z.max j stop <= ext ->
  exists s', while fuel stop body j s = Some (Z.max j stop, s') /\
             R s' (fold_left step (range j (Z.max j stop)) b).
Proof.
  intros S B R step w body stop Hw Hb fuel. induction fuel as [|f IH]; intros j s b HR Hj Hd Hf He; cbn [while].
  - destruct (j <? stop) eqn:E; [lia|]. exists s. rewrite Z.max_l by lia.
    rewrite range_empty by lia. auto.
  - destruct (j <? stop) eqn:E.
    + destruct Hd as [q Hq]. assert (1 <= q) by nia. assert (j + w <= stop) by nia.
      destruct (Hb j s b HR) as [s1 [E1 R1]]. { apply inside_true. lia. }
      rewrite E1. cbn [obind].
      destruct (IH (j + w) s1 _ R1) as [s2 [E2 R2]]; try lia. { exists (q - 1). lia. }
      exists s2. rewrite E2. split.
      * f_equal. f_equal. lia.
      * replace (Z.max j stop) with (Z.max (j + w) stop) by lia.
        rewrite (range_cons j w) by lia. rewrite fold_left_app. exact R2.
    + exists s. rewrite Z.max_l by lia. rewrite range_empty by lia. auto.
Qed.

Lemma peel_ok : forall {S B : Type} (R : S -> B -> Prop) step (lambda : Z -> Z -> Z -> S -> option (Z * S)),
  (forall w, 0 < w -> forall stop j s b, R s b -> 0 <= j -> (w | stop - j) -> Z.max j stop <= ext ->
     exists s', lambda w stop j s = Some (Z.max j stop, s') /\ R s' (fold_left step (range j (Z.max j stop)) b)) ->
  forall j n r s b, R s b -> 0 <= j -> is_round_up A j r -> 0 <= n -> Z.max n r <= ext ->
  exists s', peel A lambda j n s = Some (Z.max n r, s') /\ R s' (fold_left step (range j (Z.max n r)) b).
Proof.
  intros S B R step lambda Hl j n r s b HR Hj Hr Hn He. unfold peel.
  assert (En : (if j mod A =? 0 then j else j + A - j mod A) = r).
  { apply (round_up_unique A j); [|exact Hr].
    destruct (Z.eqb_spec (j mod A) 0) as [E|E].
    - split; [apply Z.mod_divide; lia|lia].
    - pose proof (Z.mod_pos_bound j A HA). split; [|lia].
      exists (j / A + 1). rewrite (Z.div_mod j A) at 1 by lia. ring. }
  rewrite En. destruct Hr as [[q Hq] Hr]. pose proof (Z.mod_pos_bound n A HA) as Hm.
  pose proof (Z.div_mod n A ltac:(lia)) as Hdm.
  destruct (Hl 1 ltac:(lia) r j s b HR Hj) as [s1 [E1 R1]]. { exists (r - j). lia. } { lia. }
  rewrite E1. cbn [obind]. rewrite (Z.max_r j r) in * by lia.
  destruct (Hl A HA (n - n mod A) r s1 _ R1) as [s2 [E2 R2]]. { lia. } { exists (n / A - q). nia. } { lia. }
  rewrite E2. cbn [obind].
  destruct (Hl 1 ltac:(lia) n (Z.max r (n - n mod A)) s2 _ R2) as [s3 [E3 R3]]. { lia. } { exists (n - Z.max r (n - n mod A)). lia. } { lia. }
  exists s3. rewrite E3. rewrite <- !fold_left_app in R3.
  replace (Z.max (Z.max r (n - n mod A)) n) with (Z.max n r) in * by lia. split; [reflexivity|].
  rewrite !range_app in R3 by lia. exact R3.
Qed.

Lemma ofold_some : forall {S B : Type} (f : S -> B -> option S) (g : S -> B -> S) l s,
  (forall x s, In x l -> f s x = Some (g s x)) -> ofold f l s = Some (fold_left g l s).
Proof.
  intros S B f g l. induction l as [|x l IH]; intros s H; [reflexivity|].
  cbn [ofold fold_left]. rewrite H by (left; auto). cbn [obind]. apply IH. intros y s' Hy. apply H. right; auto.
Qed.

Lemma range_cons1 : forall a b, a < b -> range a b = a :: range (a + 1) b.
Proof. intros a b H. rewrite (range_cons a 1) by lia. change (zseq 1) with [0]. cbn [map app]. f_equal. lia. Qed.

Lemma in_range_iff : forall lo hi v, In v (range lo hi) <-> lo <= v < hi.
Proof.
  intros. unfold range. rewrite in_map_iff. split.
  - intros [k [<- H]]. apply in_zseq in H. lia.
  - intros H. exists (v - lo). rewrite in_zseq. lia.
Qed.

Lemma fold_map : forall {B C D : Type} (f : B -> D -> B) (g : C -> D) l b,
  fold_left f (map g l) b = fold_left (fun b c => f b (g c)) l b.
Proof. intros B C D f g l. induction l as [|x l IH]; intros b; [reflexivity|]. cbn. apply IH. Qed.

Lemma fold_ext : forall {B C : Type} (f g : B -> C -> B) l b,
  (forall b c, In c l -> f b c = g b c) -> fold_left f l b = fold_left g l b.
Proof.
  intros B C f g l. induction l as [|x l IH]; intros b H; [reflexivity|].
  cbn. rewrite H by (left; auto). apply IH. intros. apply H. right; auto.
Qed.

Lemma range_zseq : forall j w, map (fun e => j + e) (zseq w) = range j (j + w).
Proof. intros j w. unfold range. do 2 f_equal. lia. Qed.

Lemma lanes_range : forall {B : Type} (f : Z -> B) j w, map (fun e => f (j + e)) (zseq w) = map f (range j (j + w)).
Proof. intros B f j w. rewrite <- range_zseq, map_map. reflexivity. Qed.

(** *** Density *)
Lemma store_ok : forall (a : Z -> T) j w v, inside ext j w = true ->
  store ext a j w v = Some (fold_left (fun a i => put a i v) (map (fun e => j + e) (zseq w)) a).
Proof. intros a j w v H. unfold store. rewrite H. f_equal. now rewrite fold_map. Qed.

Lemma init_rho_ok : forall h mass w, 0 < w -> forall stop j s b, s = b -> 0 <= j -> (w | stop - j) -> Z.max j stop <= ext ->
  exists s', init_rho K ext h mass w stop j s = Some (Z.max j stop, s') /\
    s' = fold_left (fun r i => put r i (self_density K h mass)) (range j (Z.max j stop)) b.
Proof.
  intros h mass w Hw stop j s b HR Hj Hd He. unfold init_rho.
  apply (while_ok eq (fun r i => put r i (self_density K h mass)) w); auto; [|lia].
  intros j' s' b' <- Hi. rewrite store_ok by exact Hi. cbn [obind]. eauto.
Qed.

Section Pair.
Context (C h : T) (p : particles T) (i : Z).
Hypothesis Hi : inside ext i 1 = true.

Definition overlap_of (j : Z) : T := r_sub K (r_mul K h h) (distance_squared K p i j).

Lemma density_pair_eq : forall r j, density_pair K C (r_mul K h h) p i r j =
  if r_lt K (r_num K 0) (overlap_of j) then
    let v := r_mul K (r_mul K (r_mul K C (overlap_of j)) (overlap_of j)) (overlap_of j) in
    plus_at K (plus_at K r i v) j v
  else r.
Proof. reflexivity. Qed.

Lemma density_pair_skip : forall r j, r_lt K (r_num K 0) (overlap_of j) = false ->
  density_pair K C (r_mul K h h) p i r j = r.
Proof. intros r j H. unfold density_pair. cbv zeta. unfold overlap_of, distance_squared in H. rewrite H. reflexivity. Qed.

Lemma density_lanes_ok : forall m j r, 0 <= j -> j + Z.of_nat m <= ext ->
  density_lanes K ext C i j r (map overlap_of (range j (j + Z.of_nat m))) =
  Some (j + Z.of_nat m, fold_left (density_pair K C (r_mul K h h) p i) (range j (j + Z.of_nat m)) r).
Proof.
  intros m. induction m as [|m IH]; intros j r Hj He.
  - rewrite range_empty by lia. cbn [map density_lanes fold_left]. do 2 f_equal. lia.
  - rewrite range_cons1 by lia. cbn [map density_lanes fold_left].
    replace (j + Z.of_nat (S m)) with (j + 1 + Z.of_nat m) by lia.
    rewrite (density_pair_eq r j).
    destruct (r_lt K (r_num K 0) (overlap_of j)).
    + rewrite Hi. replace (inside ext j 1) with true by (symmetry; apply inside_true; lia).
      cbn [andb]. rewrite IH by lia. reflexivity.
    + rewrite IH by lia. reflexivity.
Qed.

Lemma fold_skip : forall {B C : Type} (f : B -> C -> B) l b, (forall b c, In c l -> f b c = b) -> fold_left f l b = b.
Proof.
  intros B C0 f l. induction l as [|x l IH]; intros b H; [reflexivity|].
  cbn. rewrite H by (left; auto). apply IH. intros. apply H. right; auto.
Qed.

Lemma density_lambda_ok : forall w, 0 < w -> forall stop j s b, s = b -> 0 <= j -> (w | stop - j) -> Z.max j stop <= ext ->
  exists s', density_lambda K ext C h p i (pos_x p i) (pos_y p i) w stop j s = Some (Z.max j stop, s') /\
    s' = fold_left (density_pair K C (r_mul K h h) p i) (range j (Z.max j stop)) b.
Proof.
  intros w Hw stop j s b HR Hj Hd He. unfold density_lambda.
  apply (while_ok eq (density_pair K C (r_mul K h h) p i) w); auto; [|lia].
  intros j' s' b' <- Hin. cbv zeta. rewrite Hin.
  change (fun e => r_sub K (r_mul K h h) _) with (fun e => overlap_of (j' + e)).
  rewrite lanes_range, range_zseq. apply inside_true in Hin.
  destruct (existsb _ _) eqn:E.
  - replace w with (Z.of_nat (Z.to_nat w)) by lia. rewrite density_lanes_ok by lia. eauto.
  - exists s'. split; [reflexivity|]. symmetry. apply fold_skip. intros r c Hc. apply density_pair_skip.
    destruct (r_lt K (r_num K 0) (overlap_of c)) eqn:L; [|reflexivity].
    rewrite <- E. symmetry. apply existsb_exists. exists (overlap_of c). split; [|exact L].
    apply in_map. exact Hc.
Qed.
End Pair.

(** The vector kernel is the C kernel with ghosts. *)
Lemma density_lfa_ghosts : forall n h mass p up,
  0 <= n -> (forall i, 0 <= i < n -> exists r, is_round_up A (i + 1) r /\ up i = Z.max n r) ->
  n <= ext -> (forall i, 0 <= i < n -> up i <= ext) ->
  compute_density_lfa K ext A n h mass p = Some (density_with_ghosts K up n h mass p).
Proof.
  intros n h mass p up Hn Hup He Hue. unfold compute_density_lfa.
  destruct (peel_ok eq (fun r i => put r i (self_density K h mass)) (init_rho K ext h mass)
              (init_rho_ok h mass) 0 n 0 (rho p) (rho p)) as [r1 [E1 R1]]; auto; try lia.
  { split; [exists 0; lia|lia]. }
  rewrite E1. cbn [obind]. rewrite Z.max_l in R1 by lia.
  rewrite (ofold_some _ (fun r i => fold_left (density_pair K (r_div K (r_div K (r_mul K (r_num K 4) mass) (r_pi K))
      (r_mul K (r_mul K (r_mul K (r_mul K h h) (r_mul K h h)) (r_mul K h h)) (r_mul K h h))) (r_mul K h h) p i) (range (i + 1) (up i)) r)).
  - cbn [obind]. rewrite R1. reflexivity.
  - intros i r Hin. apply in_range_iff in Hin.
    assert (Hi : inside ext i 1 = true) by (apply inside_true; lia). rewrite Hi.
    destruct (Hup i Hin) as [q [Hq Eu]].
    destruct (peel_ok eq _ _ (density_lambda_ok (r_div K (r_div K (r_mul K (r_num K 4) mass) (r_pi K))
      (r_mul K (r_mul K (r_mul K (r_mul K h h) (r_mul K h h)) (r_mul K h h)) (r_mul K h h))) h p i Hi) (i + 1) n q r r)
      as [r2 [E2 R2]]; auto; try lia.
    { rewrite <- Eu. apply Hue. lia. }
    rewrite E2. cbn [obind]. rewrite R2, Eu. reflexivity.
Qed.

Lemma ghostless : forall up n h mass p, (forall i, 0 <= i < n -> up i = n) ->
  density_with_ghosts K up n h mass p = compute_density K n h mass p.
Proof.
  intros up n h mass p H. unfold density_with_ghosts, compute_density. cbv zeta. f_equal.
  apply fold_ext. intros r i Hi. apply in_range_iff in Hi. rewrite H by lia. reflexivity.
Qed.

(** *** Acceleration *)
Lemma ofold_app : forall {S B : Type} (f : S -> B -> option S) l l' s,
  ofold f (l ++ l') s = obind (ofold f l s) (ofold f l').
Proof.
  intros S B f l l'. induction l as [|x l IH]; intros s; [reflexivity|].
  cbn [app ofold]. destruct (f s x); cbn [obind]; auto.
Qed.

Section Forces.
Context (h rho0 C_0 C_p C_v : T) (p : particles T).
Hypothesis Hcomm : forall a b, r_mul K a b = r_mul K b a.

Notation handle := (handle_lane K ext h rho0 C_0 C_p C_v).
Notation pair i := (accel_pair K h rho0 (r_mul K h h) C_0 C_p C_v p i).

Lemma handle_ok : forall w, (0 < w)%nat -> forall fuel buf a, (length buf <= fuel)%nat ->
  (exists q, length buf = q * w)%nat ->
  handle_interactions K ext fuel w h rho0 C_0 C_p C_v a buf = ofold handle buf a.
Proof.
  intros w Hw fuel. induction fuel as [|f IH]; intros buf a Hf [q Hq].
  - destruct buf; [reflexivity|cbn in Hf; lia].
  - destruct buf as [|x buf]; [reflexivity|]. cbn [handle_interactions].
    assert (q <> 0)%nat by (intros ->; cbn in Hq; lia).
    destruct (Nat.ltb_spec (length (x :: buf)) w); [nia|].
    replace (ofold handle (x :: buf) a) with (ofold handle (firstn w (x :: buf) ++ skipn w (x :: buf)) a) by now rewrite firstn_skipn.
    rewrite ofold_app.
    destruct (ofold handle (firstn w (x :: buf)) a) as [a'|]; cbn [obind]; [|reflexivity].
    apply IH; [rewrite skipn_length; cbn [length] in *; lia|].
    exists (q - 1)%nat. rewrite skipn_length, Hq. nia.
Qed.

Definition entry (i j : Z) : interaction T :=
  mkI (rho p i) (v_x p i) (v_y p i) (rho p j) (v_x p j) (v_y p j)
      (r_sub K (pos_x p i) (pos_x p j)) (r_sub K (pos_y p i) (pos_y p j)) (distance_squared K p i j) i j.

Lemma accel_pair_entry : forall i j a, inside ext i 1 = true -> inside ext j 1 = true ->
  Some (pair i a j) = if r_lt K (distance_squared K p i j) (r_mul K h h) then handle a (entry i j) else Some a.
Proof.
  intros i j a Hi Hj. unfold accel_pair, handle_lane, entry. cbv zeta.
  cbn [i_rho_i i_v_x_i i_v_y_i i_rho_j i_v_x_j i_v_y_j i_delta_x i_delta_y i_dist_squared i_i i_j].
  rewrite Hi, Hj. cbn [andb]. fold (distance_squared K p i j).
  destruct (r_lt K (distance_squared K p i j) (r_mul K h h)); [|reflexivity].
  rewrite (Hcomm C_0). reflexivity.
Qed.

(** The buffer as pending work. *)
Definition pending (s : ((Z -> T) * (Z -> T)) * list (interaction T)) (a : (Z -> T) * (Z -> T)) : Prop :=
  ofold handle (snd s) (fst s) = Some a /\ Z.of_nat (length (snd s)) < A.

Definition lane_of (i j : Z) : T * T * T :=
  (r_sub K (pos_x p i) (pos_x p j), r_sub K (pos_y p i) (pos_y p j), distance_squared K p i j).

Section One.
Context (i : Z).
Hypothesis Hi : inside ext i 1 = true.

Lemma accel_lanes_ok : forall m j s a, pending s a -> 0 <= j -> j + Z.of_nat m <= ext ->
  exists s', accel_lanes K ext A h rho0 (r_mul K h h) C_0 C_p C_v p i j s (map (lane_of i) (range j (j + Z.of_nat m))) =
      Some (j + Z.of_nat m, s') /\
    pending s' (fold_left (pair i) (range j (j + Z.of_nat m)) a).
Proof.
  intros m. induction m as [|m IH]; intros j s a HR Hj He.
  - rewrite range_empty by lia. cbn [map accel_lanes fold_left]. exists s. split; auto. do 2 f_equal. lia.
  - rewrite range_cons1 by lia. unfold lane_of at 1. cbn [map accel_lanes fold_left].
    fold lane_of.
    replace (j + Z.of_nat (S m)) with (j + 1 + Z.of_nat m) by lia.
    assert (Hj1 : inside ext j 1 = true) by (apply inside_true; lia).
    pose proof (accel_pair_entry i j a Hi Hj1) as P. destruct HR as [R L]. rewrite Hi, Hj1. cbn [andb].
    destruct (r_lt K (distance_squared K p i j) (r_mul K h h)).
    + destruct (Z.ltb_spec (Z.of_nat (length (snd s))) A); [|lia]. cbn [obind fst snd]. fold (entry i j).
      assert (Q : ofold handle (snd s ++ [entry i j]) (fst s) = Some (pair i a j)).
      { rewrite ofold_app, R. cbn [obind ofold]. rewrite <- P. reflexivity. }
      destruct (Z.eqb_spec (Z.of_nat (length (snd s ++ [entry i j]))) A) as [E|E].
      * rewrite (handle_ok (Z.to_nat A)); [|lia|lia|exists 1%nat; lia]. rewrite Q. cbn [obind].
        apply IH; [|lia|lia]. split; [reflexivity|cbn; lia].
      * cbn [obind]. apply IH; [|lia|lia]. split; [exact Q|]. cbn [snd]. rewrite app_length in *. cbn in *. lia.
    + cbn [obind]. destruct (Z.eqb_spec (Z.of_nat (length (snd s))) A); [lia|]. cbn [obind].
      injection P as P. rewrite P. apply IH; [split; auto|lia|lia].
Qed.

Lemma accel_lambda_ok : forall w, 0 < w -> forall stop j s a, pending s a -> 0 <= j -> (w | stop - j) -> Z.max j stop <= ext ->
  exists s', accel_lambda K ext A h rho0 (r_mul K h h) C_0 C_p C_v p i w stop j s = Some (Z.max j stop, s') /\
    pending s' (fold_left (pair i) (range j (Z.max j stop)) a).
Proof.
  intros w Hw stop j s a HR Hj Hd He. unfold accel_lambda. rewrite Hi. cbv zeta.
  apply (while_ok pending (pair i) w); auto; [|lia].
  intros j' s' b' HR' Hin. rewrite Hin.
  change (fun e => (r_sub K (pos_x p i) (pos_x p (j' + e)), _, _)) with (fun e => lane_of i (j' + e)).
  rewrite lanes_range, range_zseq. apply inside_true in Hin.
  destruct (existsb _ _) eqn:E.
  - destruct (accel_lanes_ok (Z.to_nat w) j' s' b' HR') as [s2 [E2 R2]]; try lia.
    rewrite Z2Nat.id in * by lia. rewrite E2. cbn [obind]. exists s2. split; [|exact R2]. do 2 f_equal. lia.
  - exists s'. split; [reflexivity|].
    rewrite fold_skip; [exact HR'|]. intros a' c Hc.
    assert (L : r_lt K (distance_squared K p i c) (r_mul K h h) = false).
    { destruct (r_lt K (distance_squared K p i c) (r_mul K h h)) eqn:L; [|reflexivity].
      rewrite <- E. symmetry. apply existsb_exists. exists (lane_of i c). split; [|exact L].
      apply in_map. exact Hc. }
    apply in_range_iff in Hc.
    pose proof (accel_pair_entry i c a' Hi) as P. rewrite L in P. specialize (P ltac:(apply inside_true; lia)).
    now injection P.
Qed.
End One.
End Forces.

Lemma init_accel_ok : forall g w, 0 < w -> forall stop j s b, s = b -> 0 <= j -> (w | stop - j) -> Z.max j stop <= ext ->
  exists s', init_accel K ext g w stop j s = Some (Z.max j stop, s') /\
    s' = fold_left (fun a i => (put (fst a) i (r_num K 0), put (snd a) i (r_neg K g))) (range j (Z.max j stop)) b.
Proof.
  intros g w Hw stop j s b HR Hj Hd He. unfold init_accel.
  apply (while_ok eq (fun a i => (put (fst a) i (r_num K 0), put (snd a) i (r_neg K g))) w); auto; [|lia].
  intros j' s' b' <- Hi. rewrite !store_ok by exact Hi. cbn [obind]. eexists. split; [reflexivity|].
  generalize (map (fun e => j' + e) (zseq w)) as l. intros l. revert s'.
  induction l as [|x l IH]; intros s'; cbn [fold_left]; [now destruct s'|]. rewrite <- IH. reflexivity.
Qed.

Lemma fold_pair : forall {B C D : Type} (f : B -> D -> B) (g : C -> D -> C) l b c,
  fold_left (fun a i => (f (fst a) i, g (snd a) i)) l (b, c) = (fold_left f l b, fold_left g l c).
Proof. intros B C D f g l. induction l as [|x l IH]; intros b c; [reflexivity|]. cbn. apply IH. Qed.

(** The force kernel, when every particle's first multiple of A is within n. *)
Lemma accel_lfa_ok : forall n mass g h k rho0 mu p,
  (forall a b, r_mul K a b = r_mul K b a) -> 0 <= n <= ext -> (A | n) ->
  compute_accel_lfa K ext A n mass g h k rho0 mu p = Some (compute_accel K n mass g h k rho0 mu p).
Proof.
  intros n mass g h k rho0 mu p Hc Hn Hd. unfold compute_accel_lfa. cbv zeta.
  destruct (peel_ok eq _ (init_accel K ext g) (init_accel_ok g) 0 n 0 (a_x p, a_y p) (a_x p, a_y p))
    as [a1 [E1 R1]]; auto; try lia.
  { split; [exists 0; lia|lia]. }
  rewrite E1. cbn [obind]. rewrite Z.max_l in R1 by lia.
  pose proof (fold_pair (fun a i => put a i (r_num K 0)) (fun a i => put a i (r_neg K g)) (range 0 n) (a_x p) (a_y p)) as FP.
  cbn beta in FP. rewrite FP in R1.
  set (C_0 := r_div K (r_div K mass (r_pi K)) _). set (C_p := r_mul K (r_num K 15) k). set (C_v := r_mul K (r_num K (-40)) mu).
  assert (L : forall l s a, (forall i, In i l -> 0 <= i < n) -> pending h rho0 C_0 C_p C_v s a ->
    exists s', ofold (fun s i => obind (peel A (accel_lambda K ext A h rho0 (r_mul K h h) C_0 C_p C_v p i) (i + 1) n s)
                        (fun '(_, s) => Some s)) l s = Some s' /\
      pending h rho0 C_0 C_p C_v s' (fold_left (fun a i =>
        fold_left (accel_pair K h rho0 (r_mul K h h) C_0 C_p C_v p i) (range (i + 1) n) a) l a)).
  { intros l. induction l as [|i l IH]; intros s a Hl HR; [exists s; auto|]. cbn [ofold fold_left].
    pose proof (Hl i (or_introl eq_refl)) as Hi.
    assert (Hr : exists r, is_round_up A (i + 1) r /\ r <= n).
    { destruct Hd as [q Hq]. exists ((i + A) / A * A).
      pose proof (Z.div_mod (i + A) A ltac:(lia)). pose proof (Z.mod_pos_bound (i + A) A HA).
      split; [split; [exists ((i + A) / A); lia|lia]|].
      assert ((i + A) / A <= q) by (apply Z.lt_succ_r; apply Z.div_lt_upper_bound; nia). nia. }
    destruct Hr as [r [Hr Hrn]].
    destruct (peel_ok (pending h rho0 C_0 C_p C_v) _ _
      (accel_lambda_ok h rho0 C_0 C_p C_v p Hc i ltac:(apply inside_true; lia)) (i + 1) n r s a HR) as [s1 [E2 R2]]; try lia; auto.
    rewrite E2. cbn [obind]. rewrite Z.max_l in R2 by lia.
    apply IH; [intros; apply Hl; right; auto|exact R2]. }
  destruct (L (range 0 n) (a1, []) a1) as [s' [E3 [R3 R4]]].
  { intros i. apply in_range_iff. }
  { split; [reflexivity|cbn; lia]. }
  rewrite E3. cbn [obind]. rewrite handle_ok; [|auto|lia|lia|exists (length (snd s')); lia].
  rewrite R3. cbn [obind]. rewrite R1. reflexivity.
Qed.
End Lfa.

(** ** Pointwise *)
Section Exact.
Context {T : Type} (K : arith T).
Hypothesis HK : exact K.
Let Rg := ex_ring K HK.
Add Ring Kring : Rg.

Notation "a +. b" := (r_add K a b) (at level 50, left associativity).
Notation "a -. b" := (r_sub K a b) (at level 50, left associativity).
Notation "a *. b" := (r_mul K a b) (at level 40, left associativity).
Notation "# z" := (r_num K z) (at level 5).
Notation sum := (total K).

Lemma total_ext : forall l f g, (forall i, In i l -> f i = g i) -> sum l f = sum l g.
Proof.
  intros l f g. unfold total. induction l as [|x l IH]; intros H; [reflexivity|].
  cbn [fold_right]. rewrite H by (left; auto). f_equal. apply IH. intros. apply H. right; auto.
Qed.

Lemma total_app : forall l l' f, sum (l ++ l') f = sum l f +. sum l' f.
Proof. intros l l' f. unfold total. induction l as [|x l IH]; cbn [app fold_right]; [ring|]. rewrite IH. ring. Qed.

Lemma total_add : forall l f g, sum l (fun i => f i +. g i) = sum l f +. sum l g.
Proof. intros l f g. unfold total. induction l as [|x l IH]; cbn [app fold_right]; [ring|]. rewrite IH. ring. Qed.

Lemma total_zero : forall l, sum l (fun _ => #0) = #0.
Proof. intros l. unfold total. induction l as [|x l IH]; cbn [fold_right]; [reflexivity|]. rewrite IH. ring. Qed.

Definition only (c : bool) (v : T) : T := if c then v else #0.

Lemma total_only : forall f k lo hi, sum (range lo hi) (fun j => only (k =? j) (f j)) = only ((lo <=? k) && (k <? hi)) (f k).
Proof.
  intros f k lo hi. destruct (Z.le_gt_cases hi lo) as [H|H].
  { rewrite range_empty by lia. cbn. unfold only. destruct ((lo <=? k) && (k <? hi)) eqn:E; [lia|reflexivity]. }
  remember (Z.to_nat (hi - lo)) as m eqn:Em. revert lo H Em.
  induction m as [|m IH]; intros lo H Em; [lia|].
  rewrite range_cons1 by lia. cbn [total fold_right]. change (fold_right _ #0 (range (lo + 1) hi)) with (sum (range (lo + 1) hi) (fun j => only (k =? j) (f j))).
  destruct (Z.eq_dec (lo + 1) hi) as [E|E].
  - rewrite range_empty by lia. unfold only, total. cbn [fold_right]. destruct (Z.eqb_spec k lo) as [->|N].
    + replace ((lo <=? lo) && (lo <? hi)) with true by lia. ring.
    + replace ((lo <=? k) && (k <? hi)) with false by lia. ring.
  - rewrite IH by lia. unfold only. destruct (Z.eqb_spec k lo) as [->|N].
    + replace ((lo + 1 <=? lo) && (lo <? hi)) with false by lia. replace ((lo <=? lo) && (lo <? hi)) with true by lia. ring.
    + replace ((lo <=? k) && (k <? hi)) with ((lo + 1 <=? k) && (k <? hi)) by lia. ring.
Qed.

(** A step on the pair (i, j) that adds P i j to i and Q i j to j. *)
Definition adds (step : Z -> (Z -> T) -> Z -> Z -> T) (P Q : Z -> Z -> T) : Prop :=
  forall i r j k, i <> j -> step i r j k = r k +. (only (k =? i) (P i j) +. only (k =? j) (Q i j)).

Section Pairs.
Context (step : Z -> (Z -> T) -> Z -> Z -> T) (P Q : Z -> Z -> T).
Hypothesis Hs : adds step P Q.

Lemma row_sum : forall i l r k, (forall j, In j l -> i <> j) ->
  fold_left (step i) l r k = r k +. sum l (fun j => only (k =? i) (P i j) +. only (k =? j) (Q i j)).
Proof.
  intros i l. induction l as [|j l IH]; intros r k H; [cbn; ring|].
  cbn [fold_left total fold_right]. rewrite IH by (intros; apply H; right; auto).
  rewrite Hs by (apply H; left; auto). unfold total. ring.
Qed.

Lemma pairs_sum : forall (n : Z) l r k,
  fold_left (fun r i => fold_left (step i) (range (i + 1) n) r) l r k =
  r k +. sum l (fun i => sum (range (i + 1) n) (fun j => only (k =? i) (P i j) +. only (k =? j) (Q i j))).
Proof.
  intros n l. induction l as [|i l IH]; intros r k; [cbn; ring|].
  cbn [fold_left total fold_right]. rewrite IH.
  rewrite row_sum by (intros j Hj; apply in_range_iff in Hj; lia). unfold total. ring.
Qed.

Lemma others_split : forall n k, 0 <= k < n -> others n k = range 0 k ++ range (k + 1) n.
Proof.
  intros n k H. unfold others. rewrite <- (range_app 0 k n) by lia. rewrite (range_cons1 k n) by lia.
  rewrite filter_app. cbn [filter]. rewrite Z.eqb_refl. cbn [negb].
  assert (F : forall l, (forall j, In j l -> j <> k) -> filter (fun j => negb (j =? k)) l = l).
  { intros l. induction l as [|x l IH]; intros Hl; [reflexivity|]. cbn [filter].
    destruct (Z.eqb_spec x k); [exfalso; apply (Hl x); [left|]; auto|]. cbn [negb]. f_equal. apply IH.
    intros j Hj. apply Hl. right; auto. }
  rewrite !F; [reflexivity| |]; intros j Hj; apply in_range_iff in Hj; lia.
Qed.

Lemma pairs_pointwise : forall n r k, (forall i j, Q i j = P j i) -> 0 <= k < n ->
  fold_left (fun r i => fold_left (step i) (range (i + 1) n) r) (range 0 n) r k = r k +. sum (others n k) (P k).
Proof.
  intros n r k HQ Hk. rewrite pairs_sum. f_equal.
  rewrite others_split by lia. rewrite <- (range_app 0 k n) by lia. rewrite (range_cons1 k n) by lia.
  rewrite !total_app. cbn [total fold_right].
  assert (E1 : sum (range 0 k) (fun i => sum (range (i + 1) n) (fun j => only (k =? i) (P i j) +. only (k =? j) (Q i j))) =
               sum (range 0 k) (P k)).
  { apply total_ext. intros i Hi. apply in_range_iff in Hi. rewrite total_add, (total_only (Q i)).
    replace ((i + 1 <=? k) && (k <? n)) with true by lia. replace (k =? i) with false by lia.
    unfold only. rewrite total_zero, HQ. ring. }
  assert (E2 : sum (range (k + 1) n) (P k) =
    sum (range (k + 1) n) (fun j => only (k =? k) (P k j) +. only (k =? j) (Q k j))).
  { rewrite total_add, (total_only (Q k)). replace ((k + 1 <=? k) && (k <? n)) with false by lia.
    rewrite Z.eqb_refl. unfold only. change (fun j => P k j) with (P k). ring. }
  assert (E3 : sum (range (k + 1) n) (fun i => sum (range (i + 1) n) (fun j => only (k =? i) (P i j) +. only (k =? j) (Q i j))) = #0).
  { rewrite <- (total_zero (range (k + 1) n)). apply total_ext. intros i Hi. apply in_range_iff in Hi.
    rewrite total_add, (total_only (Q i)). replace ((i + 1 <=? k) && (k <? n)) with false by lia.
    replace (k =? i) with false by lia. unfold only. rewrite total_zero. ring. }
  unfold total in * . rewrite E1, E2, E3. ring.
Qed.

Lemma pairs_frame : forall n r k, ~ (0 <= k < n) ->
  fold_left (fun r i => fold_left (step i) (range (i + 1) n) r) (range 0 n) r k = r k.
Proof.
  intros n r k Hk. rewrite pairs_sum.
  rewrite (total_ext _ _ (fun _ => #0)); [rewrite total_zero; ring|].
  intros i Hi. apply in_range_iff in Hi. rewrite (total_ext _ _ (fun _ => #0)); [apply total_zero|].
  intros j Hj. apply in_range_iff in Hj. replace (k =? i) with false by lia. replace (k =? j) with false by lia.
  unfold only. ring.
Qed.

Lemma pairs_total : forall n r, (forall i j, P i j +. Q i j = #0) ->
  sum (range 0 n) (fold_left (fun r i => fold_left (step i) (range (i + 1) n) r) (range 0 n) r) = sum (range 0 n) r.
Proof.
  intros n r HZ.
  assert (L1 : forall i l r, 0 <= i < n -> (forall j, In j l -> i < j < n) ->
     sum (range 0 n) (fold_left (step i) l r) = sum (range 0 n) r).
  { intros i l. induction l as [|j l IH]; intros r' Hi H; [reflexivity|]. cbn [fold_left].
    rewrite IH; [|auto|intros; apply H; right; auto]. pose proof (H j (or_introl eq_refl)) as Hj.
    rewrite (total_ext _ _ (fun k => r' k +. (only (k =? i) (P i j) +. only (k =? j) (Q i j))))
      by (intros; apply Hs; lia).
    rewrite !total_add.
    rewrite (total_ext _ (fun k => only (k =? i) (P i j)) (fun k => only (i =? k) (P i j))) by (intros; f_equal; lia).
    rewrite (total_ext _ (fun k => only (k =? j) (Q i j)) (fun k => only (j =? k) (Q i j))) by (intros; f_equal; lia).
    rewrite (total_only (fun _ => P i j)), (total_only (fun _ => Q i j)).
    replace ((0 <=? i) && (i <? n)) with true by lia. replace ((0 <=? j) && (j <? n)) with true by lia.
    unfold only. rewrite HZ. ring. }
  assert (L2 : forall l r, (forall i, In i l -> 0 <= i < n) ->
    sum (range 0 n) (fold_left (fun r i => fold_left (step i) (range (i + 1) n) r) l r) = sum (range 0 n) r).
  { intros l. induction l as [|i l IH]; intros r' H; [reflexivity|]. cbn [fold_left].
    rewrite IH by (intros; apply H; right; auto). pose proof (H i (or_introl eq_refl)) as Hi.
    apply L1; auto. intros j Hj. apply in_range_iff in Hj. lia. }
  apply L2. intros i. apply in_range_iff.
Qed.
End Pairs.

Lemma put_all : forall v n (r : Z -> T) k, fold_left (fun r i => put r i v) (range 0 n) r k =
  if (0 <=? k) && (k <? n) then v else r k.
Proof.
  intros v n r k.
  assert (L : forall l (r : Z -> T), fold_left (fun r i => put r i v) l r k = if existsb (Z.eqb k) l then v else r k).
  { intros l. induction l as [|x l IH]; intros r'; [reflexivity|]. cbn [fold_left existsb]. rewrite IH.
    unfold put. destruct (k =? x), (existsb (Z.eqb k) l); reflexivity. }
  rewrite L. destruct (existsb (Z.eqb k) (range 0 n)) eqn:E.
  - apply existsb_exists in E as [x [Hx E]]. apply in_range_iff in Hx. replace ((0 <=? k) && (k <? n)) with true by lia. reflexivity.
  - destruct ((0 <=? k) && (k <? n)) eqn:F; [|reflexivity].
    assert (existsb (Z.eqb k) (range 0 n) = true); [|congruence].
    apply existsb_exists. exists k. rewrite in_range_iff. lia.
Qed.

Lemma distance_symmetric : forall p i j, distance_squared K p i j = distance_squared K p j i.
Proof. intros. unfold distance_squared. ring. Qed.

Lemma density_adds : forall h mass p,
  adds (density_pair K (r_div K (r_div K (r_mul K (r_num K 4) mass) (r_pi K))
      (r_mul K (r_mul K (r_mul K (r_mul K h h) (r_mul K h h)) (r_mul K h h)) (r_mul K h h))) (r_mul K h h) p)
    (neighbour_density K h mass p) (neighbour_density K h mass p).
Proof.
  intros h mass p i r j k Hij. unfold density_pair, neighbour_density. cbv zeta. fold (distance_squared K p i j).
  destruct (r_lt K #0 _); unfold only.
  - unfold plus_at, put. destruct (Z.eqb_spec k j) as [->|Nj].
    + destruct (Z.eqb_spec j i); [congruence|]. ring.
    + destruct (Z.eqb_spec k i) as [->|Ni]; ring.
  - destruct (k =? i), (k =? j); ring.
Qed.

Lemma neighbour_symmetric : forall h mass p i j, neighbour_density K h mass p i j = neighbour_density K h mass p j i.
Proof. intros. unfold neighbour_density. cbv zeta. rewrite (distance_symmetric p i j). reflexivity. Qed.

Lemma force_antisymmetric : forall mass h k rho0 mu pos vel p i j,
  force K mass h k rho0 mu pos vel p i j +. force K mass h k rho0 mu pos vel p j i = #0.
Proof.
  intros. unfold force. cbv zeta. rewrite (distance_symmetric p j i).
  destruct (r_lt K _ _); [|ring]. destruct (ex_div K HK) as [inv Hd]. rewrite !Hd. ring.
Qed.

Lemma density_pointwise : forall n h mass p i,
  rho (compute_density K n h mass p) i = if (0 <=? i) && (i <? n) then density K n h mass p i else rho p i.
Proof.
  intros n h mass p i. unfold compute_density. cbv zeta. cbn [rho].
  destruct ((0 <=? i) && (i <? n)) eqn:E.
  - rewrite (pairs_pointwise _ _ _ (density_adds h mass p)) by (solve [intros; apply neighbour_symmetric] || lia).
    rewrite put_all, E. reflexivity.
  - rewrite (pairs_frame _ _ _ (density_adds h mass p)) by lia. rewrite put_all, E. reflexivity.
Qed.

Section Accel.
Context (mass g h k rho0 mu : T) (p : particles T).
Let h2 := h *. h.
Let C0 := r_div K (r_div K mass (r_pi K)) (h2 *. h2).
Let Cp := #15 *. k.
Let Cv := #(-40) *. mu.

Definition along (pos vel : particles T -> Z -> T) (i : Z) (r : Z -> T) (j : Z) : Z -> T :=
  let dist_squared := distance_squared K p i j in
  if r_lt K dist_squared h2 then
    let q := r_div K (r_sqrt K dist_squared) h in
    let u := #1 -. q in
    let w_0 := r_div K (r_div K (C0 *. u) (rho p i)) (rho p j) in
    let w_p := r_div K (w_0 *. Cp *. (rho p i +. rho p j -. #2 *. rho0) *. u) q in
    let w_v := w_0 *. Cv in
    minus_at K (plus_at K r i (w_p *. (pos p i -. pos p j) +. w_v *. (vel p i -. vel p j))) j
      (w_p *. (pos p i -. pos p j) +. w_v *. (vel p i -. vel p j))
  else r.

Lemma accel_pair_along : forall i a j, accel_pair K h rho0 h2 C0 Cp Cv p i a j =
  (along pos_x v_x i (fst a) j, along pos_y v_y i (snd a) j).
Proof.
  intros i [ax ay] j. unfold accel_pair, along. cbv zeta. cbn [fst snd]. fold (distance_squared K p i j).
  destruct (r_lt K _ _); reflexivity.
Qed.

Lemma accel_row_along : forall i l a, fold_left (accel_pair K h rho0 h2 C0 Cp Cv p i) l a =
  (fold_left (along pos_x v_x i) l (fst a), fold_left (along pos_y v_y i) l (snd a)).
Proof.
  intros i l. induction l as [|j l IH]; intros [ax ay]; [reflexivity|]. cbn [fold_left].
  rewrite IH, accel_pair_along. reflexivity.
Qed.

Lemma accel_all_along : forall m l a,
  fold_left (fun a i => fold_left (accel_pair K h rho0 h2 C0 Cp Cv p i) (range (i + 1) m) a) l a =
  (fold_left (fun r i => fold_left (along pos_x v_x i) (range (i + 1) m) r) l (fst a),
   fold_left (fun r i => fold_left (along pos_y v_y i) (range (i + 1) m) r) l (snd a)).
Proof.
  intros m l. induction l as [|j l IH]; intros [ax ay]; [reflexivity|]. cbn [fold_left].
  rewrite IH, accel_row_along. reflexivity.
Qed.

Lemma along_adds : forall pos vel,
  adds (along pos vel) (force K mass h k rho0 mu pos vel p) (fun i j => force K mass h k rho0 mu pos vel p j i).
Proof.
  intros pos vel i r j m Hij.
  pose proof (force_antisymmetric mass h k rho0 mu pos vel p i j) as FA.
  assert (FB : force K mass h k rho0 mu pos vel p j i = r_neg K (force K mass h k rho0 mu pos vel p i j)).
  { transitivity ((force K mass h k rho0 mu pos vel p i j +. force K mass h k rho0 mu pos vel p j i) -.
       force K mass h k rho0 mu pos vel p i j); [ring|]. rewrite FA. ring. }
  rewrite FB. clear FA FB. unfold along, force. cbv zeta. fold h2. fold C0. fold Cp. fold Cv.
  destruct (r_lt K (distance_squared K p i j) h2); unfold only.
  - unfold minus_at, plus_at, put. destruct (Z.eqb_spec m j) as [->|Nj].
    + destruct (Z.eqb_spec j i); [congruence|]. ring.
    + destruct (Z.eqb_spec m i) as [->|Ni]; ring.
  - destruct (m =? i), (m =? j); ring.
Qed.

Lemma accel_x : forall m,
  a_x (compute_accel K m mass g h k rho0 mu p) =
  fold_left (fun r i => fold_left (along pos_x v_x i) (range (i + 1) m) r) (range 0 m)
    (fold_left (fun a i => put a i #0) (range 0 m) (a_x p)).
Proof. intros. unfold compute_accel. cbv zeta. cbn [a_x]. fold h2. fold C0. fold Cp. fold Cv. rewrite accel_all_along. reflexivity. Qed.

Lemma accel_y : forall m,
  a_y (compute_accel K m mass g h k rho0 mu p) =
  fold_left (fun r i => fold_left (along pos_y v_y i) (range (i + 1) m) r) (range 0 m)
    (fold_left (fun a i => put a i (r_neg K g)) (range 0 m) (a_y p)).
Proof. intros. unfold compute_accel. cbv zeta. cbn [a_y]. fold h2. fold C0. fold Cp. fold Cv. rewrite accel_all_along. reflexivity. Qed.

Lemma accel_pointwise : forall m i,
  a_x (compute_accel K m mass g h k rho0 mu p) i =
    (if (0 <=? i) && (i <? m) then acceleration K m mass h k rho0 mu #0 pos_x v_x p i else a_x p i) /\
  a_y (compute_accel K m mass g h k rho0 mu p) i =
    (if (0 <=? i) && (i <? m) then acceleration K m mass h k rho0 mu (r_neg K g) pos_y v_y p i else a_y p i).
Proof.
  intros m i. rewrite accel_x, accel_y. destruct ((0 <=? i) && (i <? m)) eqn:E.
  - rewrite (pairs_pointwise _ _ _ (along_adds pos_x v_x)) by (solve [intros; reflexivity] || lia).
    rewrite (pairs_pointwise _ _ _ (along_adds pos_y v_y)) by (solve [intros; reflexivity] || lia).
    rewrite !put_all, E. split; reflexivity.
  - rewrite (pairs_frame _ _ _ (along_adds pos_x v_x)) by lia.
    rewrite (pairs_frame _ _ _ (along_adds pos_y v_y)) by lia.
    rewrite !put_all, E. split; reflexivity.
Qed.

Lemma accel_total : forall m,
  sum (range 0 m) (a_x (compute_accel K m mass g h k rho0 mu p)) = #0 /\
  sum (range 0 m) (a_y (compute_accel K m mass g h k rho0 mu p)) = sum (range 0 m) (fun _ => r_neg K g).
Proof.
  intros m. rewrite accel_x, accel_y.
  rewrite (pairs_total _ _ _ (along_adds pos_x v_x)) by (intros; apply force_antisymmetric).
  rewrite (pairs_total _ _ _ (along_adds pos_y v_y)) by (intros; apply force_antisymmetric).
  split; [transitivity (sum (range 0 m) (fun _ => #0)); [|apply total_zero]|];
    apply total_ext; intros i Hi; apply in_range_iff in Hi; rewrite put_all;
    replace ((0 <=? i) && (i <? m)) with true by lia; reflexivity.
Qed.
End Accel.
End Exact.

Section Simulate.
Context {T : Type} (K : arith T) (ext A : Z).
Hypothesis HA : 0 < A.

Lemma density_lfa_ok : forall n h mass p, 0 <= n <= ext -> (A | n) ->
  compute_density_lfa K ext A n h mass p = Some (compute_density K n h mass p).
Proof.
  intros n h mass p Hn Hd.
  rewrite (density_lfa_ghosts K ext A HA n h mass p (fun _ => n)); try lia.
  - rewrite ghostless by reflexivity. reflexivity.
  - intros i Hi. exists ((i + 1 + A - 1) / A * A).
    assert (R : is_round_up A (i + 1) ((i + 1 + A - 1) / A * A)).
    { split; [exists ((i + 1 + A - 1) / A); reflexivity|]. pose proof (Z.mul_div_le (i + 1 + A - 1) A HA).
      pose proof (Z.mul_succ_div_gt (i + 1 + A - 1) A HA). lia. }
    split; [exact R|]. destruct R as [_ R]. set (a := (i + 1 + A - 1) / A) in *. clearbody a. destruct Hd as [b Eb].
    assert (a < b + 1) by nia. assert (a * A <= b * A) by nia. lia.
Qed.

Lemma simulate_lfa_ok : forall steps n mass g h k rho0 mu rest p,
  (forall a b, r_mul K a b = r_mul K b a) -> 0 <= n <= ext -> (A | n) ->
  simulate_lfa K ext A steps n mass g h k rho0 mu rest p = Some (simulate K steps n mass g h k rho0 mu rest p).
Proof.
  induction steps as [|s IH]; intros n mass g h k rho0 mu rest p Hc Hn Hd; [reflexivity|].
  cbn [simulate_lfa simulate]. rewrite density_lfa_ok by auto. cbn [obind]. rewrite accel_lfa_ok by auto.
  cbn [obind]. apply IH; auto.
Qed.
End Simulate.

(** With storage for the n particles only, the last particle's loop leaves it. *)
Section Overrun.
Context {T : Type} (K : arith T) (A n : Z).
Hypothesis HA : 0 < A.
Hypothesis Hn : 0 < n.
Hypothesis Hd : ~ (A | n).

Lemma not_aligned : n mod A <> 0.
Proof. intros E. apply Hd. apply Z.mod_divide; lia. Qed.

Lemma while_first : forall {S : Type} stop (body : Z -> S -> option (Z * S)) j s,
  j < stop -> body j s = None -> while (Z.to_nat (stop - j)) stop body j s = None.
Proof.
  intros S stop body j s Hj Hb. destruct (Z.to_nat (stop - j)) eqn:E; cbn [while];
    replace (j <? stop) with true by lia; [lia|]. now rewrite Hb.
Qed.

Lemma outside : inside n n 1 = false.
Proof. unfold inside. lia. Qed.

Lemma last_none : forall {S : Type} (f : S -> Z -> option S) s,
  (forall s, f s (n - 1) = None) -> ofold f (range 0 n) s = None.
Proof.
  intros S f s H. rewrite <- (range_app 0 (n - 1) n) by lia.
  rewrite (range_cons1 (n - 1) n) by lia. replace (n - 1 + 1) with n by lia. rewrite (range_empty n n) by lia.
  rewrite ofold_app. destruct (ofold f (range 0 (n - 1)) s) as [s'|]; [|reflexivity].
  cbn [obind ofold]. now rewrite H.
Qed.

Lemma density_overrun : forall h mass p, compute_density_lfa K n A n h mass p = None.
Proof.
  intros h mass p. unfold compute_density_lfa. cbv zeta.
  destruct (peel A (init_rho K n h mass) 0 n (rho p)) as [[j r]|]; [|reflexivity]. cbn [obind].
  rewrite last_none; [reflexivity|]. intros s.
  destruct (inside n (n - 1) 1); [|reflexivity]. replace (n - 1 + 1) with n by lia. unfold peel.
  pose proof not_aligned. replace (n mod A =? 0) with false by lia. cbv zeta.
  unfold density_lambda at 1. cbv zeta. rewrite while_first; [reflexivity| |].
  - pose proof (Z.mod_pos_bound n A HA). lia.
  - now rewrite outside.
Qed.

Lemma accel_overrun : forall mass g h k rho0 mu p, compute_accel_lfa K n A n mass g h k rho0 mu p = None.
Proof.
  intros mass g h k rho0 mu p. unfold compute_accel_lfa. cbv zeta.
  destruct (peel A (init_accel K n g) 0 n (a_x p, a_y p)) as [[j r]|]; [|reflexivity]. cbn [obind].
  rewrite last_none; [reflexivity|]. intros s. replace (n - 1 + 1) with n by lia. unfold peel.
  pose proof not_aligned. replace (n mod A =? 0) with false by lia. cbv zeta.
  unfold accel_lambda at 1. cbv zeta.
  destruct (inside n (n - 1) 1); [|reflexivity].
  rewrite while_first; [reflexivity| |].
  - pose proof (Z.mod_pos_bound n A HA). lia.
  - now rewrite outside.
Qed.
End Overrun.
