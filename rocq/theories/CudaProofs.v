(** Proofs about Cuda.v: launches enumerate the requested box, and schedules do not matter
    for independent element operations. *)
From Coq Require Import ZArith List Bool Lia Permutation.
From Verif Require Import Base Layout LayoutProofs Mem MemProofs Accessor AccessorProofs RegionProofs Grid GridProofs GridOps Cuda.
Import ListNotations.
Open Scope Z_scope.

(** ** Thread ids *)
Lemma zseq_nonpos : forall n, n <= 0 -> zseq n = [].
Proof. intros n H. unfold zseq. replace (Z.to_nat n) with 0%nat by lia. reflexivity. Qed.
Lemma zseq_app : forall a b, 0 <= a -> 0 <= b -> zseq (a + b) = zseq a ++ map (fun i => a + i) (zseq b).
Proof.
  intros a b Ha Hb. unfold zseq. rewrite Z2Nat.inj_add by lia. rewrite seq_app, map_app. f_equal.
  rewrite Nat.add_0_l, map_map. rewrite <- (Nat.add_0_r (Z.to_nat a)) at 1.
  assert (G : forall k s, map Z.of_nat (seq (Z.to_nat a + s) k) = map (fun x => a + Z.of_nat x) (seq s k)).
  { induction k as [|k IH]; intros s; cbn [seq map]; auto. f_equal; [lia|]. rewrite <- Nat.add_succ_r. apply IH. }
  apply G.
Qed.
Lemma zseq_succ : forall g, 0 <= g -> zseq (g + 1) = zseq g ++ [g].
Proof. intros g H. rewrite zseq_app by lia. f_equal. change (zseq 1) with [0]. cbn. f_equal. lia. Qed.

Lemma global_ids : forall g b, 0 <= g -> 0 < b -> g * b <= 2 ^ 32 -> map (global_id b) (axis g b) = zseq (g * b).
Proof.
  intros g b Hg Hb Hlim.
  assert (G : forall k, 0 <= k <= g -> map (global_id b) (axis k b) = zseq (k * b)).
  { intros k Hk. assert (K0 : 0 <= k) by lia. revert k K0 Hk.
    apply (natlike_ind (fun k => 0 <= k <= g -> map (global_id b) (axis k b) = zseq (k * b))).
    - intros _. reflexivity.
    - intros x Hx IH Hk. unfold axis in *. unfold Z.succ in *. rewrite zseq_succ, flat_map_app, map_app by lia. rewrite IH by lia.
      cbn [flat_map]. rewrite app_nil_r, map_map. replace ((x + 1) * b) with (x * b + b) by lia. rewrite (zseq_app (x * b) b) by lia.
      f_equal. apply map_ext_in. intros i Hi. apply in_zseq in Hi. unfold global_id, to_uint. cbn [fst snd].
      rewrite Z.mod_small; nia. }
  apply G. lia.
Qed.

Lemma flat_map_nil : forall (A B : Type) (f : A -> list B) l, (forall x, In x l -> f x = []) -> flat_map f l = [].
Proof. intros A B f l. induction l as [|a l IH]; intros H; cbn [flat_map]; auto. rewrite H, IH; auto; intros; [apply H|]; simpl; auto. Qed.
Lemma flat_map_cut : forall (B : Type) (f : Z -> list B) n d,
  0 <= d <= n -> (forall x, d <= x -> f x = []) -> flat_map f (zseq n) = flat_map f (zseq d).
Proof.
  intros B f n d H Hf. replace n with (d + (n - d)) by lia. rewrite zseq_app, flat_map_app by lia.
  rewrite (flat_map_nil _ _ f (map _ _)); [apply app_nil_r|]. intros x Hx. apply in_map_iff in Hx. destruct Hx as [i [<- Hi]].
  apply in_zseq in Hi. apply Hf. lia.
Qed.
Lemma flat_map_axis : forall (B : Type) (f : Z -> list B) g b d,
  0 <= g -> 0 < b -> g * b <= 2 ^ 32 -> 0 <= d <= g * b -> (forall x, d <= x -> f x = []) ->
  flat_map (fun p => f (global_id b p)) (axis g b) = flat_map f (zseq d).
Proof.
  intros B f g b d Hg Hb Hl Hd Hf. rewrite <- (flat_map_cut B f (g * b) d Hd Hf), <- global_ids by auto.
  rewrite flat_map_map. reflexivity.
Qed.

(** ** The configuration *)
Lemma to_int_small : forall n, 0 <= n < 2 ^ 31 -> to_int n = n.
Proof. intros n H. unfold to_int. rewrite Z.mod_small; lia. Qed.
Lemma to_uint_small : forall n, 0 <= n < 2 ^ 32 -> to_uint n = n.
Proof. intros n H. unfold to_uint. apply Z.mod_small. auto. Qed.
Lemma round_up : forall i d, 0 <= i -> 0 < d -> 0 <= divide_and_round_up i d /\ i <= divide_and_round_up i d * d < i + d.
Proof.
  intros i d Hi Hd. unfold divide_and_round_up. rewrite Z.quot_div_nonneg, Z.rem_mod_nonneg by lia.
  pose proof (Z.div_mod i d ltac:(lia)) as E. pose proof (Z.mod_pos_bound i d Hd) as M. pose proof (Z.div_pos i d Hi Hd).
  destruct (i mod d =? 0) eqn:Z0; nia.
Qed.
Lemma round_up_1 : forall i, divide_and_round_up i 1 = i.
Proof. intros i. unfold divide_and_round_up. rewrite Z.quot_1_r, Z.rem_1_r. reflexivity. Qed.

(** What a box must satisfy to be launchable: within the limits (or empty). *)
Definition fits_device (x y z : Z) : Prop :=
  0 <= x < 2 ^ 31 /\ 0 <= y <= 262140 /\ 0 <= z <= 65535.

Lemma config_ok : forall x y z, fits_device x y z -> 1 <= x -> 1 <= y -> 1 <= z ->
  exists g b, launch_config x y z = (g, b) /\ launchable (g, b) = true /\
    0 <= d_x g /\ 0 <= d_y g /\ 0 <= d_z g /\ 0 < d_x b /\ 0 < d_y b /\ 0 < d_z b /\
    d_x g * d_x b <= 2 ^ 32 /\ d_y g * d_y b <= 2 ^ 32 /\ d_z g * d_z b <= 2 ^ 32 /\
    x <= d_x g * d_x b /\ y <= d_y g * d_y b /\ z <= d_z g * d_z b.
Proof.
  intros x y z [Hx [Hy Hz]] ? ? ?. unfold launch_config. rewrite !to_int_small by lia.
  destruct (4 <=? y) eqn:E4; (do 2 eexists; split; [reflexivity|]); cbn [d_x d_y d_z]; unfold launchable; cbn [d_x d_y d_z];
    rewrite ?round_up_1.
  - pose proof (round_up x 128 ltac:(lia) ltac:(lia)) as A. pose proof (round_up y 4 ltac:(lia) ltac:(lia)) as B.
    rewrite !to_uint_small by lia. lia.
  - pose proof (round_up x 512 ltac:(lia) ltac:(lia)) as A.
    rewrite !to_uint_small by lia. lia.
Qed.

(** ** Launches over a box *)
Lemma empty_launch : forall (A : Type) (k : dim3 -> thread -> A) x y z,
  fits_device x y z -> x = 0 \/ y = 0 \/ z = 0 -> launch (launch_config x y z) k = [].
Proof.
  intros A k x y z [Hx [Hy Hz]] H0. unfold launch, threads.
  assert (launchable (launch_config x y z) = false) as ->; auto.
  unfold launch_config. rewrite !to_int_small by lia. unfold launchable.
  destruct H0 as [-> | [-> | ->]].
  - destruct (4 <=? y); reflexivity.
  - cbn. rewrite !andb_false_r. reflexivity.
  - destruct (4 <=? y); cbn [d_x d_y d_z]; change (to_uint (divide_and_round_up 0 1)) with 0; change (1 <=? 0) with false;
      rewrite andb_false_r; reflexivity.
Qed.

Lemma launch_box : forall (B : Type) (k : Z -> Z -> Z -> list B) x y z,
  fits_device x y z -> (forall i j l, x <= i \/ y <= j \/ z <= l -> k i j l = []) ->
  concat (launch (launch_config x y z) (fun b t => let '(px, py, pz) := t in
            k (global_id (d_x b) px) (global_id (d_y b) py) (global_id (d_z b) pz))) =
  flat_map (fun l => flat_map (fun j => flat_map (fun i => k i j l) (zseq x)) (zseq y)) (zseq z).
Proof.
  intros B k x y z Hf Hk.
  destruct (Z.eq_dec x 0) as [X0|NX]; [|destruct (Z.eq_dec y 0) as [Y0|NY]; [|destruct (Z.eq_dec z 0) as [Z0|NZ]]];
    [rewrite empty_launch by auto; symmetry; apply flat_map_nil; intros l _; apply flat_map_nil; intros j _; subst; reflexivity
    |rewrite empty_launch by auto; symmetry; apply flat_map_nil; intros l _; subst; reflexivity
    |rewrite empty_launch by auto; subst; reflexivity|].
  assert (P : 1 <= x /\ 1 <= y /\ 1 <= z) by (destruct Hf as [? [? ?]]; lia). destruct P as [Px [Py Pz]].
  destruct (config_ok x y z Hf Px Py Pz) as [g [b [-> [HL [X0 [Y0 [Z0 [X1 [Y1 [Z1 [X2 [Y2 [Z2 [X3 [Y3 Z3]]]]]]]]]]]]]]].
  destruct Hf as [? [? ?]].
  unfold launch, threads. rewrite HL. cbn [snd].
  rewrite <- flat_map_concat_map, flat_map_flat_map.
  rewrite <- (flat_map_axis _ (fun l => flat_map (fun j => flat_map (fun i => k i j l) (zseq x)) (zseq y)) (d_z g) (d_z b) z); auto; try lia.
  - apply flat_map_ext_in. intros pz _. rewrite flat_map_flat_map.
    rewrite <- (flat_map_axis _ (fun j => flat_map (fun i => k i j (global_id (d_z b) pz)) (zseq x)) (d_y g) (d_y b) y); auto; try lia.
    + apply flat_map_ext_in. intros py _. rewrite flat_map_map.
      rewrite <- (flat_map_axis _ (fun i => k i (global_id (d_y b) py) (global_id (d_z b) pz)) (d_x g) (d_x b) x); auto; lia.
    + intros j Hj. apply flat_map_nil. intros i Hi. apply Hk. lia.
  - intros l Hl. apply flat_map_nil. intros j Hj. apply flat_map_nil. intros i Hi. apply Hk. lia.
Qed.

Lemma construct_cuda_ops : forall ms d dx dy dz a, fits_device dx dy dz ->
  concat (construct_functor_cuda ms d dx dy dz a) = construct_functor ms d dx dy dz a.
Proof.
  intros ms d dx dy dz a Hf. unfold construct_functor_cuda, construct_kernel.
  pose proof (launch_box _ (fun x y z => if dx <=? x then [] else if dy <=? y then [] else if dz <=? z then []
     else construct_members_ops d (with_index a (gen_index (a_ext a) x y z)) ms) dx dy dz Hf) as E.
  cbv beta in E. rewrite E by (intros i j l Hi; destruct (dx <=? i) eqn:?, (dy <=? j) eqn:?, (dz <=? l) eqn:?; auto; lia).
  unfold construct_functor. apply flat_map_ext_in. intros l Hl. apply flat_map_ext_in. intros j Hj. apply flat_map_ext_in. intros i Hi.
  apply in_zseq in Hl, Hj, Hi. assert ((dx <=? i) = false) as -> by lia. assert ((dy <=? j) = false) as -> by lia.
  assert ((dz <=? l) = false) as -> by lia. f_equal. unfold acc_add, with_index. cbn [a_ext a_index a_INDEX]. f_equal.
  rewrite gen_index_row. reflexivity.
Qed.
Lemma destroy_cuda_ops : forall ms d dx dy dz a, fits_device dx dy dz ->
  concat (destroy_functor_cuda ms d dx dy dz a) = destroy_functor ms d dx dy dz a.
Proof.
  intros ms d dx dy dz a Hf. unfold destroy_functor_cuda, destroy_kernel.
  pose proof (launch_box _ (fun x y z => if dx <=? x then [] else if dy <=? y then [] else if dz <=? z then []
     else destroy_members_ops d (with_index a (gen_index (a_ext a) x y z)) ms) dx dy dz Hf) as E.
  cbv beta in E. rewrite E by (intros i j l Hi; destruct (dx <=? i) eqn:?, (dy <=? j) eqn:?, (dz <=? l) eqn:?; auto; lia).
  unfold destroy_functor. apply flat_map_ext_in. intros l Hl. apply flat_map_ext_in. intros j Hj. apply flat_map_ext_in. intros i Hi.
  apply in_zseq in Hl, Hj, Hi. assert ((dx <=? i) = false) as -> by lia. assert ((dy <=? j) = false) as -> by lia.
  assert ((dz <=? l) = false) as -> by lia. f_equal. unfold acc_add, with_index. cbn [a_ext a_index a_INDEX]. f_equal.
  rewrite gen_index_row. reflexivity.
Qed.

(** ** Launches over a row *)
Lemma row_threads : forall n, 1 <= n < 2 ^ 31 ->
  exists g, 0 <= g /\ g * 512 <= 2 ^ 32 /\ n <= g * 512 /\
    snd (launch_config n 1 1) = mkDim3 512 1 1 /\
    threads (launch_config n 1 1) = map (fun px => (px, (0, 0), (0, 0))) (axis g 512).
Proof.
  intros n Hn. pose proof (round_up n 512 ltac:(lia) ltac:(lia)) as A.
  exists (divide_and_round_up n 512). split; [lia|]. split; [lia|]. split; [lia|]. split; [reflexivity|].
  unfold launch_config. rewrite (to_int_small n) by lia. change (to_int 1) with 1. cbn [Z.leb Z.compare Pos.compare Pos.compare_cont d_x d_y d_z].
  rewrite (to_uint_small (divide_and_round_up n 512)) by lia. change (to_uint (divide_and_round_up 1 1)) with 1.
  unfold threads. assert (launchable (mkDim3 (divide_and_round_up n 512) 1 1, mkDim3 512 1 1) = true) as ->.
  { unfold launchable. cbn [d_x d_y d_z]. lia. }
  cbn [d_x d_y d_z]. change (axis 1 1) with [(0, 0)]. cbn [flat_map]. rewrite !app_nil_r. reflexivity.
Qed.
Lemma row_threads_0 : threads (launch_config 0 1 1) = [].
Proof. reflexivity. Qed.

Lemma launch_row : forall (B : Type) (k : Z -> list B) n,
  0 <= n < 2 ^ 31 -> (forall i, n <= i -> k i = []) ->
  concat (launch (launch_config n 1 1) (fun b t => let '(px, _, _) := t in k (global_id (d_x b) px))) = flat_map k (zseq n).
Proof.
  intros B k n Hn Hk. destruct (Z.eq_dec n 0) as [->|N]; [reflexivity|].
  destruct (row_threads n ltac:(lia)) as [g [G0 [G1 [G2 [E1 E2]]]]]. unfold launch. rewrite E2, E1, map_map. cbn [d_x].
  rewrite <- flat_map_concat_map. apply flat_map_axis; auto; lia.
Qed.

Lemma mapR_map : forall (A B C : Type) (f : A -> B) (g : B -> result C) l, mapR g (map f l) = mapR (fun a => g (f a)) l.
Proof. intros A B C f g l. induction l as [|a l IH]; cbn [map mapR]; auto. destruct (g (f a)); auto. rewrite IH. reflexivity. Qed.
Lemma mapR_app : forall (A B : Type) (f : A -> result B) l1 l2,
  mapR f (l1 ++ l2) = match mapR f l1 with Fault x => Fault x | Val a => match mapR f l2 with Fault x => Fault x | Val b => Val (a ++ b) end end.
Proof.
  intros A B f l1 l2. induction l1 as [|a l1 IH]; cbn [app mapR]; [destruct (mapR f l2); auto|].
  destruct (f a); auto. rewrite IH. destruct (mapR f l1); auto. destruct (mapR f l2); auto.
Qed.
Lemma launchR_row : forall (B : Type) (k : Z -> result (list B)) n,
  0 <= n < 2 ^ 31 -> (forall i, n <= i -> k i = Val []) ->
  match mapR k (zseq n) with
  | Val l => exists l', launchR (launch_config n 1 1) (fun b t => let '(px, _, _) := t in k (global_id (d_x b) px)) = Val l' /\ concat l' = concat l
  | Fault f => launchR (launch_config n 1 1) (fun b t => let '(px, _, _) := t in k (global_id (d_x b) px)) = Fault f
  end.
Proof.
  intros B k n Hn Hk. destruct (Z.eq_dec n 0) as [->|N]; [exists []; split; reflexivity|].
  destruct (row_threads n ltac:(lia)) as [g [G0 [G1 [G2 [E1 E2]]]]]. unfold launchR. rewrite E2, E1, mapR_map. cbn [d_x].
  rewrite <- (mapR_map _ _ _ (global_id 512) k), global_ids by lia.
  replace (g * 512) with (n + (g * 512 - n)) by lia. rewrite zseq_app, mapR_app by lia.
  rewrite (mapR_Val _ _ k (fun _ => []) (map _ _)).
  - destruct (mapR k (zseq n)) as [l|f]; auto. eexists. split; [reflexivity|]. rewrite concat_app.
    rewrite (proj2 (concat_nil_Forall (map (fun _ => @nil B) (map (fun i => n + i) (zseq (g * 512 - n)))))); [apply app_nil_r|].
    apply Forall_forall. intros x Hx. apply in_map_iff in Hx. destruct Hx as [? [<- _]]. reflexivity.
  - intros a Ha. apply in_map_iff in Ha. destruct Ha as [i [<- Hi]]. apply in_zseq in Hi. apply Hk. lia.
Qed.

(** ** Schedules *)
Lemma interleave_perm : forall (A : Type) ths (s : list A), interleave ths s -> Permutation (concat ths) s.
Proof.
  intros A ths s H. induction H as [ths H|l1 x t l2 r H IH].
  - rewrite (proj2 (concat_nil_Forall ths)); auto.
  - rewrite concat_app in *. cbn [concat app] in *. apply Permutation_sym, Permutation_cons_app, Permutation_sym. exact IH.
Qed.
Lemma interleave_in_order : forall (A : Type) (ths : list (list A)), interleave ths (concat ths).
Proof.
  intros A ths.
  assert (G : forall l1 l2 : list (list A), Forall (fun t => t = []) l1 -> interleave (l1 ++ l2) (concat l2)).
  { intros l1 l2. revert l1. induction l2 as [|t l2 IH]; intros l1 H1; [rewrite app_nil_r; constructor; auto|].
    cbn [concat]. induction t as [|x t IHt].
    - cbn [app]. change ([] :: l2) with ([[]] ++ l2). rewrite app_assoc. apply IH. apply Forall_app. auto.
    - cbn [app]. constructor. exact IHt. }
  apply (G []). constructor.
Qed.

Definition agree (r1 r2 : result mem) : Prop :=
  match r1, r2 with Val a, Val b => mem_eq a b | Fault _, Fault _ => True | _, _ => False end.

Lemma mem_eq_refl : forall m, mem_eq m m.
Proof. intros m. repeat split. Qed.
Lemma mem_eq_sym : forall a b, mem_eq a b -> mem_eq b a.
Proof. intros a b [H1 [H2 [H3 H4]]]. repeat split; intros; symmetry; auto. Qed.
Lemma mem_eq_trans : forall a b c, mem_eq a b -> mem_eq b c -> mem_eq a c.
Proof. intros a b c [H1 [H2 [H3 H4]]] [G1 [G2 [G3 G4]]]. repeat split; intros; etransitivity; eauto. Qed.
Lemma agree_refl : forall r, agree r r.
Proof. intros [m|f]; cbn; auto. apply mem_eq_refl. Qed.
Lemma agree_sym : forall a b, agree a b -> agree b a.
Proof. intros [m|f] [n|g]; cbn; auto. apply mem_eq_sym. Qed.
Lemma agree_trans : forall a b c, agree a b -> agree b c -> agree a c.
Proof. intros [m|f] [n|g] [k|h]; cbn; auto; try tauto. apply mem_eq_trans. Qed.

Lemma write_eq : forall m m' p v, mem_eq m m' -> mem_eq (write m p v) (write m' p v).
Proof. intros m m' p v [H1 [H2 [H3 H4]]]. repeat split; cbn; auto. intros b o. rewrite H3. reflexivity. Qed.
Lemma set_live_eq : forall m m' p l, mem_eq m m' -> mem_eq (set_live m p l) (set_live m' p l).
Proof. intros m m' p v [H1 [H2 [H3 H4]]]. repeat split; cbn; auto. intros b o. rewrite H4. reflexivity. Qed.
Lemma exec1_eq : forall m m' op, mem_eq m m' -> agree (exec1 m op) (exec1 m' op).
Proof.
  intros m m' op H. pose proof H as [H1 [H2 [H3 H4]]].
  assert (CB : forall p s, chk_bounds m p s = chk_bounds m' p s) by (intros; unfold chk_bounds; rewrite H2; auto).
  assert (LV : forall p, live m p = live m' p) by (intros; apply H4).
  assert (RD : forall p s, read m p s = read m' p s) by (intros; apply read_ext; auto).
  destruct op; cbn [exec1]; rewrite ?CB, ?LV, ?RD.
  - destruct (chk_bounds m' p s); cbn; auto. destruct (negb (val_ok v s)); cbn; auto. destruct (cls && live m' p); cbn; auto.
    destruct cls; auto using write_eq, set_live_eq.
  - destruct (chk_bounds m' p s); cbn; auto. destruct cls; cbn; auto. destruct (live m' p); cbn; auto using write_eq, set_live_eq.
  - destruct (chk_bounds m' p s); cbn; auto. destruct (negb (val_ok v s)); cbn; auto. destruct (cls && negb (live m' p)); cbn; auto using write_eq.
  - destruct (chk_bounds m' src s); cbn; auto. destruct (chk_bounds m' dst s); cbn; auto. destruct (cls && negb (live m' src)); cbn; auto.
    destruct (cls && negb (live m' dst)); cbn; auto using write_eq.
Qed.
Lemma exec_eq : forall ops m m', mem_eq m m' -> agree (exec ops m) (exec ops m').
Proof.
  induction ops as [|op ops IH]; intros m m' H; cbn [exec]; auto. pose proof (exec1_eq m m' op H) as A.
  destruct (exec1 m op), (exec1 m' op); cbn [agree] in A; try contradiction; auto.
Qed.

Lemma exec_val_pre : forall ops m m', (forall op, In op ops -> 0 < op_size op) -> ForallOrdPairs indep2 ops -> exec ops m = Val m' -> Forall (op_pre m) ops.
Proof.
  induction ops as [|a ops IH]; intros m m' Hs HI E; [constructor|]. cbn [exec] in E.
  destruct (exec1 m a) as [m1|f] eqn:E1; [|discriminate]. inversion HI as [|? ? Ha HI']; subst.
  assert (Sa : 0 < op_size a) by (apply Hs; simpl; auto).
  constructor; [split; eauto|]. specialize (IH m1 m' (fun op H => Hs op (or_intror H)) HI' E).
  rewrite Forall_forall in *. intros b Hb. destruct (Ha b Hb) as [[Hd Hsrc] _]. specialize (IH b Hb).
  assert (Sb : 0 < op_size b) by (apply Hs; simpl; auto).
  destruct (exec1_spec _ _ _ Sa E1) as [_ [Hsz [_ [_ [Hfr Hfl]]]]].
  assert (FR : forall q t, 0 < t -> sep (op_dst a) (op_size a) q t -> live m q = live m1 q /\ read m q t = read m1 q t).
  { intros q t Ht Hsep. split.
    - unfold live. symmetry. apply Hfl. destruct (is_start (op_dst a) (pb q) (po q)) eqn:X; auto.
      apply is_start_spec in X. unfold sep in Hsep. lia.
    - apply read_ext. intros i Hi. symmetry. apply Hfr. destruct (inside _ _ _ _) eqn:X; auto.
      apply inside_spec in X. unfold sep in Hsep. lia. }
  apply (exec1_pre_ext m1 m b); auto.
  - apply FR with (t := op_size b); auto.
  - apply FR; auto.
  - destruct (op_src b) as [q|]; auto.
Qed.

(** Independent operations: every order agrees, faults included. *)
Lemma exec_sched : forall ops s m,
  (forall op, In op ops -> 0 < op_size op) -> ForallOrdPairs indep2 ops -> Permutation ops s -> agree (exec s m) (exec ops m).
Proof.
  intros ops s m Hs HI HP.
  assert (Hs' : forall op, In op s -> 0 < op_size op) by (intros op H; apply Hs; eapply Permutation_in; [apply Permutation_sym; eauto|auto]).
  assert (HI' : ForallOrdPairs indep2 s) by (eapply FOP_perm; eauto; unfold indep2; tauto).
  destruct (exec ops m) as [m1|f] eqn:E.
  - destruct (exec_perm ops s m (exec_val_pre _ _ _ Hs HI E) HI HP) as [m1' [m2 [E1 [E2 [Q _]]]]].
    rewrite E2. rewrite E in E1. inversion E1; subst. cbn. apply mem_eq_sym. auto.
  - destruct (exec s m) as [m2|g] eqn:E2; cbn; auto.
    destruct (exec_perm s ops m (exec_val_pre _ _ _ Hs' HI' E2) HI' (Permutation_sym HP)) as [? [? [_ [E3 _]]]]. congruence.
Qed.

(** ** Independence from the layout *)
Lemma keyed_indep : forall (K : Type) ms p P (mk : K -> mop) (ksl : K -> slot) (kix : K -> Z) (keys : list K),
  wf_members ms ->
  (forall k, In k keys -> op_dst (mk k) = sptr p P (ksl k) (kix k) /\ op_size (mk k) = s_size (ksl k) /\ In (ksl k) (slots ms) /\ 0 <= kix k < P /\
     match op_src (mk k) with None => True | Some q => pb q <> pb p end) ->
  NoDup (map (fun k => (ksl k, kix k)) keys) ->
  ForallOrdPairs indep2 (map mk keys) /\ forall op, In op (map mk keys) -> 0 < op_size op.
Proof.
  intros K ms p P mk ksl kix keys Hw Hk Hn. split.
  - apply FOP_map. apply (FOP_impl _ (fun a b => (ksl a, kix a) <> (ksl b, kix b))).
    + intros a b Ha Hb Hne. destruct (Hk a Ha) as [D1 [S1 [I1 [X1 Q1]]]]. destruct (Hk b Hb) as [D2 [S2 [I2 [X2 Q2]]]].
      unfold indep2, indep. rewrite D1, D2, S1, S2. pose proof (keys_sep ms P p _ _ _ _ Hw I1 I2 X1 X2 Hne) as SP.
      split; split; auto using sep_sym.
      * destruct (op_src (mk b)) as [q|]; auto. left. cbn. auto.
      * destruct (op_src (mk a)) as [q|]; auto. left. cbn. auto.
    + clear Hk. induction keys as [|k keys IH]; [constructor|]. cbn [map] in Hn. inversion Hn as [|? ? Hni Hn']; subst. constructor; auto.
      apply Forall_forall. intros b Hb E. apply Hni. rewrite E. apply in_map_iff. exists b; auto.
  - intros op Hop. apply in_map_iff in Hop. destruct Hop as [k [<- Hin]]. destruct (Hk k Hin) as [_ [-> [I1 _]]]. apply (slot_range ms); auto.
Qed.

(** construct and destroy *)
Definition box_keys (ms : list member) (is : list Z) : list (slot * Z) := flat_map (fun i => map (fun sl => (sl, i)) (slots ms)) is.
Lemma in_box_keys : forall ms is sl i, In (sl, i) (box_keys ms is) <-> In sl (slots ms) /\ In i is.
Proof.
  intros ms is sl i. unfold box_keys. rewrite in_flat_map. split.
  - intros [j [Hj H]]. apply in_map_iff in H. destruct H as [s [E Hs]]. inversion E; subst. auto.
  - intros [Hs Hi]. exists i. split; auto. apply in_map_iff. exists sl; auto.
Qed.
Lemma NoDup_box_keys : forall ms is, wf_members ms -> NoDup is -> NoDup (box_keys ms is).
Proof.
  intros ms is Hw Hn. unfold box_keys. apply NoDup_flat_map; auto.
  - intros i _. apply NoDup_map_inj; [|apply slots_NoDup; auto]. intros a b _ _ E. congruence.
  - intros a b x _ _ H1 H2. apply in_map_iff in H1, H2. destruct H1 as [? [<- _]], H2 as [? [E _]]. congruence.
Qed.
Lemma flat_map_keys : forall (B : Type) ms is (f : slot -> Z -> B),
  flat_map (fun i => map (fun sl => f sl i) (slots ms)) is = map (fun k => f (fst k) (snd k)) (box_keys ms is).
Proof.
  intros B ms is f. unfold box_keys. rewrite flat_map_concat_map, (flat_map_concat_map _ is), concat_map, map_map.
  f_equal. apply map_ext. intros i. rewrite map_map. reflexivity.
Qed.

Lemma construct_indep : forall ms d e dx dy dz, wf_members ms -> fits e dx dy dz ->
  ForallOrdPairs indep2 (construct_functor ms d dx dy dz (mkAcc e 0 0)) /\
  forall op, In op (construct_functor ms d dx dy dz (mkAcc e 0 0)) -> 0 < op_size op.
Proof.
  intros ms d e dx dy dz Hw F. rewrite construct_functor_canon by reflexivity. cbn [a_ext].
  rewrite (flat_map_keys _ ms _ (fun sl i => Construct (sptr d (DIM_PROD e) sl i) (s_size sl) (s_class sl) (s_default sl))).
  apply (keyed_indep _ ms d (DIM_PROD e) _ fst snd); auto.
  - intros [sl i] Hk. apply in_box_keys in Hk. destruct Hk as [Hs Hi]. cbn. repeat split; auto; apply in_all_idx in Hi;
      destruct Hi as [x [y [z [Hd ->]]]]; apply (gen_index_range e dx dy dz x y z F Hd).
  - rewrite map_ext with (g := fun k => k) by (intros []; reflexivity). rewrite map_id. apply NoDup_box_keys; auto. apply NoDup_all_idx; auto.
Qed.
Lemma destroy_indep : forall ms d e dx dy dz, wf_members ms -> fits e dx dy dz ->
  ForallOrdPairs indep2 (destroy_functor ms d dx dy dz (mkAcc e 0 0)) /\
  forall op, In op (destroy_functor ms d dx dy dz (mkAcc e 0 0)) -> 0 < op_size op.
Proof.
  intros ms d e dx dy dz Hw F. rewrite destroy_functor_canon by reflexivity. cbn [a_ext].
  rewrite (flat_map_keys _ ms _ (fun sl i => Destroy (sptr d (DIM_PROD e) sl i) (s_size sl) (s_class sl))).
  apply (keyed_indep _ ms d (DIM_PROD e) _ fst snd); auto.
  - intros [sl i] Hk. apply in_box_keys in Hk. destruct Hk as [Hs Hi]. cbn. repeat split; auto; apply in_all_idx in Hi;
      destruct Hi as [x [y [z [Hd ->]]]]; apply (gen_index_range e dx dy dz x y z F Hd).
  - rewrite map_ext with (g := fun k => k) by (intros []; reflexivity). rewrite map_id. apply NoDup_box_keys; auto. apply NoDup_all_idx; auto.
Qed.

(** set with SOURCE_STRIDE = 1 *)
Lemma mapR_ext_in : forall (A B : Type) (f g : A -> result B) l, (forall a, In a l -> f a = g a) -> mapR f l = mapR g l.
Proof.
  intros A B f g l. induction l as [|a l IH]; intros H; cbn [mapR]; auto. rewrite (H a) by (simpl; auto).
  destruct (g a); auto. rewrite IH; auto. intros; apply H; simpl; auto.
Qed.

Definition set_ops (ms : list member) (d : ptr) (e : extent) (cells : list cell) (i0 count : Z) : list mop :=
  flat_map (fun i => assign_ops d (mkAcc e (i0 + i) 0) ms (nth (Z.to_nat i) cells [])) (zseq count).

Lemma set_host : forall ms d e cells x y z count, count <= Z.of_nat (length cells) ->
  mapR (fun i => match nth_error cells (Z.to_nat (i * 1)) with
                 | None => Fault OutOfBounds
                 | Some c => Val (assign_ops d (acc_add (with_index (mkAcc e 0 0) (gen_index e x y z)) i) ms c)
                 end) (zseq count) =
  Val (map (fun i => assign_ops d (mkAcc e (gen_index e x y z + i) 0) ms (nth (Z.to_nat i) cells [])) (zseq count)).
Proof.
  intros ms d e cells x y z count Hl. apply mapR_Val. intros i Hi. apply in_zseq in Hi. rewrite Z.mul_1_r.
  rewrite (nth_error_nth' cells []) by lia. reflexivity.
Qed.

Lemma set_cuda : forall ms d e cells x y z count, 0 <= count < 2 ^ 31 ->
  match set_instance_functor ms d cells 1 x y z count (mkAcc e 0 0) with
  | Val ops => exists ths, set_instance_functor_cuda ms d cells 1 x y z count (mkAcc e 0 0) = Val ths /\ concat ths = ops
  | Fault f => set_instance_functor_cuda ms d cells 1 x y z count (mkAcc e 0 0) = Fault f
  end.
Proof.
  intros ms d e cells x y z count Hc. unfold set_instance_functor, set_instance_functor_cuda, set_kernel. cbn [a_ext].
  pose proof (launchR_row _ (fun i => if count <=? i * 1 then Val [] else
      match nth_error cells (Z.to_nat (i * 1)) with
      | None => Fault OutOfBounds
      | Some c => Val (assign_ops d (with_index (mkAcc e 0 0) (gen_index e (x + i * 1) y z)) ms c)
      end) count Hc) as L. cbv beta in L.
  match type of L with ?P -> _ => assert (HP : P); [|specialize (L HP)] end.
  { intros i Hi. assert ((count <=? i * 1) = true) as -> by lia. reflexivity. }
  match goal with |- match (match mapR ?f ?l with _ => _ end) with _ => _ end => match type of L with match mapR ?g l with _ => _ end =>
    assert (EQ : mapR f l = mapR g l) end end.
  { apply mapR_ext_in. intros i Hi. apply in_zseq in Hi. assert ((count <=? i * 1) = false) as -> by lia.
    destruct (nth_error cells (Z.to_nat (i * 1))); auto. do 2 f_equal. unfold acc_add, with_index. cbn [a_ext a_index a_INDEX]. f_equal.
    rewrite gen_index_row. f_equal. lia. }
  rewrite EQ. destruct (mapR _ (zseq count)) as [l|f].
  - destruct L as [l' [E1 E2]]. exists l'. split; auto.
  - exact L.
Qed.

Lemma set_indep : forall ms d e cells i0 count, wf_members ms -> Forall (wf_cell ms) cells -> count <= Z.of_nat (length cells) ->
  0 <= i0 -> i0 + count <= DIM_PROD e ->
  ForallOrdPairs indep2 (set_ops ms d e cells i0 count) /\ forall op, In op (set_ops ms d e cells i0 count) -> 0 < op_size op.
Proof.
  intros ms d e cells i0 count Hw Hc Hl H0 H1.
  assert (E : set_ops ms d e cells i0 count =
    map (fun k : slot * elem * Z => Assign (sptr d (DIM_PROD e) (fst (fst k)) (snd k)) (s_size (fst (fst k))) (s_class (fst (fst k))) (snd (fst k)))
        (flat_map (fun i => map (fun sv => (sv, i0 + i)) (combine (slots ms) (concat (nth (Z.to_nat i) cells [])))) (zseq count))).
  { unfold set_ops. rewrite (flat_map_concat_map (fun i => map _ _)), concat_map, map_map, flat_map_concat_map. f_equal. apply map_ext_in. intros i Hi.
    apply in_zseq in Hi. rewrite assign_canon.
    - cbn [a_ext]. rewrite map_map. apply map_ext. intros [sl v]. cbn [fst snd]. unfold idx. cbn [a_index a_INDEX]. rewrite Z.add_0_r. reflexivity.
    - rewrite Forall_forall in Hc. apply Hc. apply nth_In. lia. }
  rewrite E. apply (keyed_indep _ ms d (DIM_PROD e) _ (fun k => fst (fst k)) snd); auto.
  - intros [[sl v] i] Hk. apply in_flat_map in Hk. destruct Hk as [j [Hj Hk]]. apply in_map_iff in Hk. destruct Hk as [[s w] [X Hin]].
    inversion X; subst. apply in_zseq in Hj. cbn. repeat split; auto; try lia. apply in_combine_l in Hin. auto.
  - rewrite flat_map_concat_map, concat_map, map_map, <- flat_map_concat_map. apply NoDup_flat_map; [apply NoDup_zseq| |].
    + intros i Hi. rewrite map_map. cbn [fst snd]. apply in_zseq in Hi.
      assert (G : forall (l : list slot) (r : list elem), NoDup l -> NoDup (map (fun x : slot * elem => (fst x, i0 + i)) (combine l r))).
      { clear. induction l as [|s l IH]; intros [|v r] Hn; cbn; try constructor; inversion Hn; subst; auto.
        intros C. apply in_map_iff in C. destruct C as [[s' v'] [X Hin]]. cbn in X. inversion X; subst. apply in_combine_l in Hin. contradiction. }
      apply G. apply slots_NoDup; auto.
    + intros i j x Hi Hj H2 H3. apply in_map_iff in H2, H3. destruct H2 as [[? ?] [X2 H2]], H3 as [[? ?] [X3 H3]].
      apply in_map_iff in H2, H3. destruct H2 as [? [Y2 _]], H3 as [? [Y3 _]]. cbn in *. inversion Y2; inversion Y3; subst. inversion X3. lia.
Qed.

(** load and save: one streak *)
Lemma flat_map_cons_perm : forall (A B : Type) (h : A -> B) (g : A -> list B) l,
  Permutation (flat_map (fun b => h b :: g b) l) (map h l ++ flat_map g l).
Proof.
  intros A B h g l. induction l as [|a l IH]; cbn [flat_map map app]; auto. apply perm_skip. rewrite IH.
  rewrite !app_assoc. apply Permutation_app_tail. apply Permutation_app_comm.
Qed.
Lemma flat_map_swap : forall (A B C : Type) (f : A -> B -> C) la lb,
  Permutation (flat_map (fun a => map (f a) lb) la) (flat_map (fun b => map (fun a => f a b) la) lb).
Proof.
  intros A B C f la lb. induction la as [|a la IH]; cbn [flat_map map].
  - rewrite flat_map_nil; auto.
  - rewrite flat_map_cons_perm. apply Permutation_app_head. exact IH.
Qed.

Lemma load_launch_perm : forall ms d source n count x y z off e, 0 <= n < 2 ^ 31 ->
  Permutation (load_ops d (mkAcc e (gen_index e x y z) 0) ms source n off count)
              (concat (launch (launch_config n 1 1) (load_kernel ms d source n count x y z off (mkAcc e 0 0)))).
Proof.
  intros ms d source n count x y z off e Hn. unfold load_kernel. cbn [a_ext].
  rewrite (launch_row _ (fun i => if n <=? i then [] else load_ops d (with_index (mkAcc e 0 0) (gen_index e x y z + i)) ms source 1 (off + i) count) n Hn)
    by (intros i Hi; assert ((n <=? i) = true) as -> by lia; auto).
  rewrite load_canon. unfold slot_copy_ops. rewrite flat_map_swap.
  match goal with |- Permutation ?a ?b => assert (a = b) as ->; [|reflexivity] end. apply flat_map_ext_in. intros i Hi. apply in_zseq in Hi. assert ((n <=? i) = false) as -> by lia.
  rewrite load_canon. unfold slot_copy_ops. cbn [a_ext with_index idx a_index a_INDEX]. unfold idx. cbn [a_index a_INDEX].
  rewrite <- flat_map_single. apply flat_map_ext_in. intros sl _. change (zseq 1) with [0]. cbn [map]. do 3 f_equal.
  all: unfold with_index; cbn [a_index a_INDEX]; lia.
Qed.
Lemma save_launch_perm : forall ms d target n count x y z off e, 0 <= n < 2 ^ 31 ->
  Permutation (save_ops d (mkAcc e (gen_index e x y z) 0) ms target n off count)
              (concat (launch (launch_config n 1 1) (save_kernel ms d target n count x y z off (mkAcc e 0 0)))).
Proof.
  intros ms d target n count x y z off e Hn. unfold save_kernel. cbn [a_ext].
  rewrite (launch_row _ (fun i => if n <=? i then [] else save_ops d (with_index (mkAcc e 0 0) (gen_index e x y z + i)) ms target 1 (off + i) count) n Hn)
    by (intros i Hi; assert ((n <=? i) = true) as -> by lia; auto).
  rewrite save_canon. unfold slot_copy_ops. rewrite flat_map_swap.
  match goal with |- Permutation ?a ?b => assert (a = b) as ->; [|reflexivity] end. apply flat_map_ext_in. intros i Hi. apply in_zseq in Hi. assert ((n <=? i) = false) as -> by lia.
  rewrite save_canon. unfold slot_copy_ops. cbn [a_ext with_index idx a_index a_INDEX]. unfold idx. cbn [a_index a_INDEX].
  rewrite <- flat_map_single. apply flat_map_ext_in. intros sl _. change (zseq 1) with [0]. cbn [map]. do 3 f_equal.
  all: unfold with_index; cbn [a_index a_INDEX]; lia.
Qed.

Lemma row_indep : forall ms d P i d' P' i' n, wf_members ms -> pb d' <> pb d -> 0 <= i -> i + n <= P ->
  ForallOrdPairs indep2 (slot_copy_ops ms d P i d' P' i' n) /\ forall op, In op (slot_copy_ops ms d P i d' P' i' n) -> 0 < op_size op.
Proof.
  intros ms d P i d' P' i' n Hw Hb H0 H1. rewrite slot_copy_ops_keys.
  apply (keyed_indep _ ms d P _ (fun k => fst (fst k)) (fun k => snd (fst k))); auto.
  - intros [[sl j] k] Hk. apply in_row_keys in Hk. destruct Hk as [Hs Hk]. unfold row_pairs in Hk. cbn [flat_map fst snd] in Hk.
    rewrite app_nil_r in Hk. apply in_map_iff in Hk. destruct Hk as [q [X Hq]]. inversion X; subst. apply in_zseq in Hq.
    cbn. repeat split; auto; lia.
  - rewrite map_ext with (g := fst) by (intros [[? ?] ?]; reflexivity). apply NoDup_row_keys; auto.
    unfold row_pairs. cbn [flat_map fst snd]. rewrite app_nil_r, map_map. cbn [fst]. apply NoDup_map_inj; [|apply NoDup_zseq]. intros; lia.
Qed.

(** Launches in turn: each may be reordered on its own. *)
Lemma in_turn_agree : forall launches hosts s m,
  Forall2 (fun ths ops => Permutation ops (concat ths) /\ ForallOrdPairs indep2 ops /\ forall op, In op ops -> 0 < op_size op) launches hosts ->
  in_turn launches s -> agree (exec s m) (exec (concat hosts) m).
Proof.
  intros launches hosts s m H. revert s m. induction H as [|ths ops launches hosts [HP [HI HS]] H IH]; intros s m T; inversion T; subst; [apply agree_refl|].
  cbn [concat]. rewrite !exec_app.
  match goal with X : interleave ths ?s0 |- _ => assert (A : agree (exec s0 m) (exec ops m)) end.
  { apply exec_sched; auto. etransitivity; [exact HP|]. apply interleave_perm. auto. }
  match goal with |- agree (match ?a with _ => _ end) (match ?b with _ => _ end) => destruct a as [m1|f1], b as [m2|f2] end; cbn [agree] in A; try contradiction; auto.
  eapply agree_trans; [apply exec_eq; eauto|]. apply IH; auto.
Qed.

(** Repeated assignments of the same values. *)
Definition is_assign (op : mop) : Prop := match op with Assign _ _ _ _ => True | _ => False end.
Lemma exec_repeat : forall l m,
  (forall op, In op l -> is_assign op /\ op_pre m op) -> (forall a b, In a l -> In b l -> a = b \/ indep2 a b) ->
  exists m', exec l m = Val m' /\ exec_post m l m'.
Proof.
  induction l as [|a l IH]; intros m Hp Hi; [exists m; split; [reflexivity|]; constructor; auto; intros op []|].
  destruct (Hp a (or_introl eq_refl)) as [Aa Pa]. pose proof Pa as [Sa [m1 E1]].
  assert (HB : forall b, In b l -> is_assign b /\ op_pre m1 b /\ op_val m1 b = op_val m b /\ op_live m1 b = op_live m b).
  { intros b Hb. destruct (Hp b (or_intror Hb)) as [Ab Pb]. split; auto. destruct (Hi a b (or_introl eq_refl) (or_intror Hb)) as [<-|[I1 _]].
    - destruct a as [| |p s cls v|]; try contradiction. cbn [exec1] in E1. cbn [op_val op_live].
      destruct (chk_bounds m p s) eqn:B; [discriminate|]. destruct (negb (val_ok v s)) eqn:V; [discriminate|].
      destruct (cls && negb (live m p)) eqn:L; [discriminate|]. inversion E1; subst. split; auto. split; auto.
      exists (write (write m p v) p v). cbn [exec1]. change (chk_bounds (write m p v) p s) with (chk_bounds m p s).
      change (live (write m p v) p) with (live m p). rewrite B, V, L. reflexivity.
    - apply (indep_preserves m a b m1); auto. }
  destruct (IH m1) as [m2 [E2 P2]].
  { intros op Hop. destruct (HB op Hop) as [? [? _]]. auto. }
  { intros; apply Hi; simpl; auto. }
  exists m2. split; [cbn [exec]; rewrite E1; exact E2|].
  destruct (exec1_spec _ _ _ Sa E1) as [N1 [Z1 [V1 [L1 [F1 G1]]]]].
  constructor.
  - rewrite (ep_next _ _ _ P2). auto.
  - intros b. rewrite (ep_size _ _ _ P2). auto.
  - intros op [<-|Hin].
    + destruct (decide_inside l (pb (op_dst a)) (po (op_dst a))) as [O|[b [Hb HI]]].
      * rewrite <- V1. apply read_ext. intros i Hii. apply (ep_frame _ _ _ P2). intros b Hb.
        destruct (inside _ _ _ _) eqn:X; auto. apply inside_spec in X. exfalso.
        destruct (Hi a b (or_introl eq_refl) (or_intror Hb)) as [<-|[[S1 _] _]].
        -- specialize (O a Hb). assert (inside (op_dst a) (op_size a) (pb (op_dst a)) (po (op_dst a)) = true) by (apply inside_spec; lia). congruence.
        -- unfold sep in S1. lia.
      * apply inside_spec in HI. destruct (Hi a b (or_introl eq_refl) (or_intror Hb)) as [<-|[[S1 _] _]]; [|unfold sep in S1; lia].
        rewrite (ep_val _ _ _ P2 a Hb). apply HB; auto.
    + rewrite (ep_val _ _ _ P2 op Hin). apply HB; auto.
  - intros op [<-|Hin].
    + rewrite <- L1. destruct (decide_start l (pb (op_dst a)) (po (op_dst a))) as [O|[b [Hb HI]]].
      * unfold live. apply (ep_frame_live _ _ _ P2). auto.
      * apply is_start_spec in HI. destruct HI as [HI1 HI2].
        assert (op_dst b = op_dst a) as HD by (destruct (op_dst a), (op_dst b); cbn in *; congruence).
        rewrite <- HD at 1. rewrite (ep_live _ _ _ P2 b Hb). destruct (HB b Hb) as [Ab _]. destruct b; try contradiction. cbn [op_live op_dst] in *. congruence.
    + rewrite (ep_live _ _ _ P2 op Hin). apply HB; auto.
  - intros b o Ho. rewrite (ep_frame _ _ _ P2); [apply F1; apply Ho; simpl; auto|]. intros op Hin. apply Ho. simpl; auto.
  - intros b o Ho. rewrite (ep_frame_live _ _ _ P2); [apply G1; apply Ho; simpl; auto|]. intros op Hin. apply Ho. simpl; auto.
Qed.

(** read_cell only looks at the slots of its cell. *)
Lemma read_cell_ext : forall ms m m' d a,
  (forall sl, In sl (slots ms) ->
     read_elem m' (sptr d (DIM_PROD (a_ext a)) sl (idx a)) (s_size sl) (s_class sl) = read_elem m (sptr d (DIM_PROD (a_ext a)) sl (idx a)) (s_size sl) (s_class sl)) ->
  read_cell m' d a ms = read_cell m d a ms.
Proof.
  intros ms m m' d a H. unfold read_cell, members_ix, slots in *. revert H.
  generalize 0%nat as j. pose (zz := 0). change (slots_from 0 ms) with (slots_from zz ms).
  intros j. change (members_from j 0 ms) with (members_from j zz ms). revert j. generalize zz as o. clear zz.
  induction ms as [|mb ms IH]; intros o j H; [reflexivity|]. cbn [members_from mapR slots_from] in *.
  assert (H1 : forall k, (k < m_count mb)%nat ->
     read_elem m' (sptr d (DIM_PROD (a_ext a)) (mkSlot (o + m_size mb * Z.of_nat k) (m_size mb) (m_class mb) (m_default mb)) (idx a)) (m_size mb) (m_class mb) =
     read_elem m (sptr d (DIM_PROD (a_ext a)) (mkSlot (o + m_size mb * Z.of_nat k) (m_size mb) (m_class mb) (m_default mb)) (idx a)) (m_size mb) (m_class mb)).
  { intros k Hk. apply (H (mkSlot (o + m_size mb * Z.of_nat k) (m_size mb) (m_class mb) (m_default mb))). apply in_or_app. left.
    unfold member_slots. apply in_map_iff. exists k. split; auto. apply in_seq. lia. }
  rewrite (IH (o + m_size mb * Z.of_nat (m_count mb)) (S j)) by (intros sl Hs; apply H; apply in_or_app; right; exact Hs).
  unfold m_count in H1. destruct (m_array mb) as [n|] eqn:EA.
  - match goal with |- match ?x with _ => _ end = match ?y with _ => _ end => assert (x = y) as ->; [|reflexivity] end.
    apply mapR_ext_in. intros k Hk. unfold arity_seq in Hk. apply in_map_iff in Hk. destruct Hk as [k' [<- Hk]]. apply in_seq in Hk.
    assert (padd (eptr d a o mb 0) (DIM_PROD (a_ext a) * Z.of_nat k' * m_size mb) =
      sptr d (DIM_PROD (a_ext a)) (mkSlot (o + m_size mb * Z.of_nat k') (m_size mb) (m_class mb) (m_default mb)) (idx a)) as ->
      by (unfold eptr; rewrite EA; ptr_ring).
    apply H1. lia.
  - match goal with |- match ?x with _ => _ end = match ?y with _ => _ end => assert (x = y) as ->; [|reflexivity] end.
    specialize (H1 0%nat ltac:(lia)).
    rewrite (eptr_sptr d a o mb 0 (m_size mb) (m_class mb) (m_default mb)) by (auto; rewrite EA; auto). change (Z.of_nat 0) with 0 in H1. rewrite H1. reflexivity.
Qed.

(** stores in any order *)
Lemma put_some : forall (A : Type) (l : list A) i c, (i < length l)%nat -> exists l', put l i c = Some l' /\ length l' = length l /\
  forall k, nth_error l' k = if Nat.eqb k i then Some c else nth_error l k.
Proof.
  intros A l. induction l as [|a l IH]; intros [|i] c Hi; cbn [put length] in *; try lia.
  - eexists. split; [reflexivity|]. split; auto. intros [|k]; reflexivity.
  - destruct (IH i c) as [l' [-> [El Hl]]]; [lia|]. eexists. split; [reflexivity|]. split; [cbn; lia|]. intros [|k]; cbn; auto.
Qed.
Lemma stores_ok : forall (A : Type) (w : list (Z * A)) t,
  NoDup (map fst w) -> (forall i c, In (i, c) w -> 0 <= i < Z.of_nat (length t)) ->
  exists t', stores t w = Val t' /\ length t' = length t /\
    (forall i c, In (i, c) w -> nth_error t' (Z.to_nat i) = Some c) /\
    (forall k, ~ In (Z.of_nat k) (map fst w) -> nth_error t' k = nth_error t k).
Proof.
  intros A w. induction w as [|[i c] w IH]; intros t Hn Hr.
  - exists t. split; [reflexivity|]. split; auto. split; [intros ? ? []|auto].
  - cbn [map fst] in Hn. inversion Hn as [|? ? Hni Hn']; subst. cbn [stores].
    pose proof (Hr i c (or_introl eq_refl)) as Hi.
    destruct (put_some A t (Z.to_nat i) c) as [t1 [-> [L1 N1]]]; [lia|].
    destruct (IH t1 Hn') as [t2 [E2 [L2 [V2 F2]]]]; [intros j d Hd; rewrite L1; apply (Hr j d); simpl; auto|].
    exists t2. split; auto. split; [congruence|]. split.
    + intros j d [E|Hd]; [inversion E; subst|auto]. rewrite F2, N1, Nat.eqb_refl; auto. rewrite Z2Nat.id by lia. auto.
    + intros k Hk. cbn [map fst] in Hk. rewrite F2 by (intros C; apply Hk; simpl; auto). rewrite N1.
      destruct (Nat.eqb_spec k (Z.to_nat i)); auto. exfalso. apply Hk. left. lia.
Qed.

Lemma list_ext : forall (A : Type) (l l' : list A), (forall n, nth_error l n = nth_error l' n) -> l = l'.
Proof.
  intros A l. induction l as [|a l IH]; intros [|b l'] H; auto.
  - specialize (H 0%nat). discriminate.
  - specialize (H 0%nat). discriminate.
  - pose proof (H 0%nat) as H0. cbn in H0. inversion H0. f_equal. apply IH. intros n. exact (H (S n)).
Qed.
Lemma nth_error_skip : forall (A : Type) k (l : list A) n, nth_error (skipn k l) n = nth_error l (k + n).
Proof. intros A k. induction k as [|k IH]; intros l n; auto. destruct l; cbn [skipn Nat.add]; [destruct n; auto|]. apply IH. Qed.
Lemma nth_error_combine : forall (A B : Type) (l : list A) (r : list B) n a b,
  nth_error l n = Some a -> nth_error r n = Some b -> nth_error (combine l r) n = Some (a, b).
Proof.
  intros A B l. induction l as [|x l IH]; intros [|y r] [|n] a b H1 H2; cbn in *; try discriminate; auto. congruence.
Qed.

(** The operations of different threads do not touch each other's bytes. *)
Lemma FOP_app_l : forall (A : Type) (R : A -> A -> Prop) l1 l2, ForallOrdPairs R (l1 ++ l2) ->
  ForallOrdPairs R l2 /\ forall a b, In a l1 -> In b l2 -> R a b.
Proof.
  intros A R l1. induction l1 as [|x l1 IH]; intros l2 H; cbn [app] in H; [split; auto; intros ? ? []|].
  inversion H as [|? ? Hx H']; subst. destruct (IH l2 H') as [I1 I2]. split; auto. intros a b [<-|Ha] Hb; auto.
  rewrite Forall_forall in Hx. apply Hx. apply in_or_app; auto.
Qed.
Lemma FOP_threads : forall (A : Type) (R : A -> A -> Prop) (ths : list (list A)), (forall a b, R a b -> R b a) -> ForallOrdPairs R (concat ths) ->
  forall i j ti tj a b, nth_error ths i = Some ti -> nth_error ths j = Some tj -> i <> j -> In a ti -> In b tj -> R a b.
Proof.
  intros A R ths Hs. induction ths as [|t ths IH]; intros H i j ti tj a b Hi Hj Hij Ha Hb; [destruct i; discriminate|].
  cbn [concat] in H. destruct (FOP_app_l _ _ _ _ H) as [H1 H2].
  destruct i as [|i], j as [|j]; cbn [nth_error] in *; try lia.
  - inversion Hi; subst. apply H2; auto. apply in_concat. exists tj. split; auto. eapply nth_error_In; eauto.
  - inversion Hj; subst. apply Hs. apply H2; auto. apply in_concat. exists ti. split; auto. eapply nth_error_In; eauto.
  - apply (IH H1 i j ti tj); auto.
Qed.

(** Threads may be taken in any order. *)
Lemma interleave_threads : forall (A : Type) (ths ths' : list (list A)) s, Permutation ths ths' -> interleave ths s -> interleave ths' s.
Proof.
  intros A ths ths' s HP I. revert ths' HP. induction I as [ths H|l1 x t l2 r I IH]; intros ths' HP.
  - constructor. eapply Permutation_Forall; eauto.
  - assert (Hin : In (x :: t) ths') by (eapply Permutation_in; [exact HP|]; apply in_or_app; simpl; auto).
    apply in_split in Hin. destruct Hin as [r1 [r2 ->]]. constructor. apply IH.
    apply Permutation_app_inv in HP.
    transitivity (t :: l1 ++ l2); [symmetry; apply Permutation_middle|].
    transitivity (t :: r1 ++ r2); [apply perm_skip; auto|apply Permutation_middle].
Qed.
Lemma interleave_rev : forall (A : Type) (ths : list (list A)), interleave ths (concat (rev ths)).
Proof. intros A ths. apply (interleave_threads _ (rev ths)); [symmetry; apply Permutation_rev|]. apply interleave_in_order. Qed.

(** Racing assignments of the same values by several threads end as if made once. *)
Lemma exec_copies : forall ops s m m1,
  (forall op, In op ops -> is_assign op /\ 0 < op_size op) -> ForallOrdPairs indep2 ops ->
  (forall op, In op s <-> In op ops) -> exec ops m = Val m1 ->
  exists m2, exec s m = Val m2 /\ mem_eq m2 m1.
Proof.
  intros ops s m m1 Ha HI HS E.
  assert (HP : Forall (op_pre m) ops) by (eapply exec_val_pre; eauto; intros op Hop; apply Ha; auto).
  rewrite Forall_forall in HP.
  assert (Hp : forall l, (forall op, In op l <-> In op ops) -> exists m', exec l m = Val m' /\ exec_post m l m').
  { intros l Hl. apply exec_repeat.
    - intros op Hop. apply Hl in Hop. split; [apply Ha|]; auto.
    - intros a b Hai Hbi. apply Hl in Hai, Hbi. clear -HI Hai Hbi. induction HI as [|x l Hx HI IH]; [destruct Hai|]. rewrite Forall_forall in Hx.
      destruct Hai as [<-|Hai], Hbi as [<-|Hbi]; auto. right. destruct (Hx a Hai). split; auto. }
  destruct (Hp ops) as [m1' [E1 P1]]; [tauto|]. rewrite E in E1. inversion E1; subst m1'.
  destruct (Hp s HS) as [m2 [E2 P2]]. exists m2. split; auto.
  assert (Read : forall mm p k o, 0 <= o - po p < k -> mval mm (pb p) o = nth (Z.to_nat (o - po p)) (read mm p k) None).
  { intros mm p k o Ho. unfold read. erewrite nth_indep with (d' := mval mm (pb p) (po p + 0)) by (rewrite map_length, length_zseq; lia).
    rewrite (map_nth (fun i => mval mm (pb p) (po p + i))). f_equal.
    assert (X : nth_error (zseq k) (Z.to_nat (o - po p)) = Some (o - po p)) by (rewrite nth_error_zseq; assert (Nat.ltb (Z.to_nat (o - po p)) (Z.to_nat k) = true) as -> by (apply Nat.ltb_lt; lia); f_equal; lia).
    rewrite (nth_error_nth _ _ 0 X). lia. }
  split; [rewrite (ep_next _ _ _ P1), (ep_next _ _ _ P2); auto|]. split; [intros b; rewrite (ep_size _ _ _ P1), (ep_size _ _ _ P2); auto|].
  split.
  - intros b o. destruct (decide_inside ops b o) as [O|[op [Hop HIn]]].
    + rewrite (ep_frame _ _ _ P1) by auto. apply (ep_frame _ _ _ P2). intros op Hop. apply O. apply HS. auto.
    + apply inside_spec in HIn. destruct HIn as [-> Ho].
      rewrite (Read m2 (op_dst op) (op_size op)), (Read m1 (op_dst op) (op_size op)) by lia.
      rewrite (ep_val _ _ _ P1 op Hop), (ep_val _ _ _ P2 op) by (apply HS; auto). reflexivity.
  - intros b o. destruct (decide_start ops b o) as [O|[op [Hop HIn]]].
    + rewrite (ep_frame_live _ _ _ P1) by auto. apply (ep_frame_live _ _ _ P2). intros op Hop. apply O. apply HS. auto.
    + apply is_start_spec in HIn. destruct HIn as [-> ->].
      pose proof (ep_live _ _ _ P1 op Hop) as L1. pose proof (ep_live _ _ _ P2 op (proj2 (HS op) Hop)) as L2. unfold live in *. congruence.
Qed.
