(** Statements C45-C47: CUDA launch configuration and kernels. *)
From Coq Require Import ZArith List Lia Bool Permutation Init.Byte.
From Verif Require Import Base Layout LayoutProofs Sizes SizesProofs Mem MemProofs
  Accessor AccessorProofs RegionProofs Grid SpecGrid GridProofs GridInv BufferProofs PropsSizes PropsGrid Cuda CudaProofs.
Import ListNotations.
Open Scope Z_scope.

(** ** C45 *)
(** The cell a thread works on, by the kernels' own bounds checks: the coordinates are
    blockDim * blockIdx + threadIdx in unsigned (32 bit) arithmetic. *)
Definition coord (b : Z) (p : Z * Z) : Z := (b * fst p + snd p) mod 2 ^ 32.
Definition visit (x y z : Z) (b : dim3) (t : thread) : list (Z * Z * Z) :=
  let '(px, py, pz) := t in
  let c := (coord (d_x b) px, coord (d_y b) py, coord (d_z b) pz) in
  if (coord (d_x b) px <? x) && (coord (d_y b) py <? y) && (coord (d_z b) pz <? z) then [c] else [].

(** One list per thread; NoDup of their concatenation: no cell is handled twice, by
    whichever threads. *)
Theorem C45_each_cell_once_partial : forall x y z,
  0 <= x < 2 ^ 31 -> 0 <= y <= 262140 -> 0 <= z <= 65535 ->
  let handled := concat (launch (launch_config x y z) (visit x y z)) in
  NoDup handled /\
  forall i j k, In (i, j, k) handled <-> 0 <= i < x /\ 0 <= j < y /\ 0 <= k < z.
Proof.
  intros x y z Hx Hy Hz handled.
  assert (E : handled = flat_map (fun k => flat_map (fun j => flat_map (fun i => if (i <? x) && (j <? y) && (k <? z) then [(i, j, k)] else [])
     (zseq x)) (zseq y)) (zseq z)).
  { apply (launch_box _ (fun i j k => if (i <? x) && (j <? y) && (k <? z) then [(i, j, k)] else []) x y z); [unfold fits_device; lia|].
    intros i j k H. destruct ((i <? x) && (j <? y) && (k <? z)) eqn:C; auto. lia. }
  assert (E2 : handled = flat_map (fun k => flat_map (fun j => map (fun i => (i, j, k)) (zseq x)) (zseq y)) (zseq z)).
  { rewrite E. apply flat_map_ext_in. intros k Hk. apply in_zseq in Hk. apply flat_map_ext_in. intros j Hj. apply in_zseq in Hj.
    rewrite <- flat_map_single. apply flat_map_ext_in. intros i Hi. apply in_zseq in Hi.
    assert (((i <? x) && (j <? y) && (k <? z)) = true) as -> by lia. reflexivity. }
  rewrite E2. clear E E2 handled. split.
  - apply NoDup_flat_map; [apply NoDup_zseq| |].
    + intros k _. apply NoDup_flat_map; [apply NoDup_zseq| |].
      * intros j _. apply NoDup_map_inj; [|apply NoDup_zseq]. intros; congruence.
      * intros j j' c _ _ H1 H2. apply in_map_iff in H1, H2. destruct H1 as [? [<- _]], H2 as [? [X _]]. congruence.
    + intros k k' c _ _ H1 H2. apply in_flat_map in H1, H2. destruct H1 as [? [_ H1]], H2 as [? [_ H2]].
      apply in_map_iff in H1, H2. destruct H1 as [? [<- _]], H2 as [? [X _]]. congruence.
  - intros i j k. rewrite in_flat_map. split.
    + intros [k' [Hk H]]. apply in_flat_map in H. destruct H as [j' [Hj H]]. apply in_map_iff in H. destruct H as [i' [X Hi]].
      inversion X; subst. apply in_zseq in Hi, Hj, Hk. lia.
    + intros [Hi [Hj Hk]]. exists k. split; [apply in_zseq; auto|]. apply in_flat_map. exists j. split; [apply in_zseq; auto|].
      apply in_map_iff. exists i. split; auto. apply in_zseq; auto.
Qed.

(** The kernels do their work for exactly the cell [visit] gives. *)
Theorem C45_kernels_visit : forall ms d a x y z b t,
  construct_kernel ms d x y z a b t =
    flat_map (fun '(i, j, k) => construct_members_ops d (with_index a (gen_index (a_ext a) i j k)) ms) (visit x y z b t) /\
  destroy_kernel ms d x y z a b t =
    flat_map (fun '(i, j, k) => destroy_members_ops d (with_index a (gen_index (a_ext a) i j k)) ms) (visit x y z b t).
Proof.
  intros ms d a x y z b [[px py] pz]. unfold construct_kernel, destroy_kernel, visit, global_id, to_uint, coord.
  set (i := (d_x b * fst px + snd px) mod 2 ^ 32). set (j := (d_y b * fst py + snd py) mod 2 ^ 32). set (k := (d_z b * fst pz + snd pz) mod 2 ^ 32).
  destruct (x <=? i) eqn:X; [assert (((i <? x) && (j <? y) && (k <? z)) = false) as -> by lia; auto|].
  destruct (y <=? j) eqn:Y; [assert (((i <? x) && (j <? y) && (k <? z)) = false) as -> by lia; auto|].
  destruct (z <=? k) eqn:Z0; [assert (((i <? x) && (j <? y) && (k <? z)) = false) as -> by lia; auto|].
  assert (((i <? x) && (j <? y) && (k <? z)) = true) as -> by lia. cbn [flat_map]. rewrite !app_nil_r. auto.
Qed.

(** Beyond those sizes nothing is handled at all: the device rejects the launch. *)
Theorem C45_too_large : forall x y z,
  0 <= x < 2 ^ 31 -> 0 <= y < 2 ^ 31 -> 0 <= z < 2 ^ 31 -> 262140 < y \/ 65535 < z ->
  launch (launch_config x y z) (visit x y z) = [].
Proof.
  intros x y z Hx Hy Hz H. unfold launch, threads.
  assert (launchable (launch_config x y z) = false) as ->; auto.
  unfold launch_config. rewrite !to_int_small by lia. unfold launchable.
  destruct H as [H|H].
  - assert ((4 <=? y) = true) as -> by lia. cbn [d_x d_y d_z]. pose proof (round_up y 4 ltac:(lia) ltac:(lia)).
    rewrite (to_uint_small (divide_and_round_up y 4)) by lia. lia.
  - assert (D : d_z (if 4 <=? y then mkDim3 128 4 1 else mkDim3 512 1 1) = 1) by (destruct (4 <=? y); reflexivity).
    cbn [d_x d_y d_z]. rewrite D, round_up_1, (to_uint_small z) by lia. lia.
Qed.
Theorem C45_refuted : exists x y z,
  0 <= x < 2 ^ 31 /\ 0 <= y < 2 ^ 31 /\ 0 <= z < 2 ^ 31 /\ 0 <= 0 < x /\ 0 <= 0 < y /\ 0 <= 0 < z /\
  ~ In (0, 0, 0) (concat (launch (launch_config x y z) (visit x y z))).
Proof. exists 1, 1, 65536. rewrite C45_too_large by lia. repeat split; try lia. intros []. Qed.

(** All boxes the Default size policy accepts are within the limits. *)
Theorem C45_default_grids : forall x y z e,
  0 <= x -> 0 <= y -> 0 <= z -> choose Default x y z = inr e ->
  0 <= x < 2 ^ 31 /\ 0 <= y <= 262140 /\ 0 <= z <= 65535.
Proof.
  intros x y z e Hx Hy Hz H. assert (S : supported Default x y z) by (apply choose_supported; eauto). simpl in S. lia.
Qed.

(** Both block shapes, partially filled blocks. *)
Example C45_case :
  let h := concat (launch (launch_config 130 5 2) (visit 130 5 2)) in
  length h = 1300%nat /\ length (launch (launch_config 130 5 2) (visit 130 5 2)) = 4096%nat /\
  existsb (fun '(i, j, k) => (i =? 129) && (j =? 4) && (k =? 1)) h = true /\
  length (concat (launch (launch_config 600 3 2) (visit 600 3 2))) = 3600%nat.
Proof. vm_compute. repeat split; reflexivity. Qed.

(** ** C46 *)
(** [agree]: both fault, or both end in memories equal everywhere (blocks, bytes, live
    objects). *)
Definition in_extent (e : extent) (x y z : Z) : Prop := 0 <= x < DIM_X e /\ 0 <= y < DIM_Y e /\ 0 <= z < DIM_Z e.
Definition row_in_extent (e : extent) (x y z n : Z) : Prop := 0 <= n /\ forall i, 0 <= i < n -> in_extent e (x + i) y z.

Lemma row_in_extent_range : forall e x y z n, row_in_extent e x y z n -> 1 <= n ->
  0 <= gen_index e x y z /\ gen_index e x y z + n <= DIM_PROD e.
Proof.
  intros e x y z n [H0 H] Hn.
  pose proof (H 0 ltac:(lia)) as [[A1 A2] [A3 A4]]. pose proof (H (n - 1) ltac:(lia)) as [[B1 B2] _].
  assert (F : fits e (DIM_X e) (DIM_Y e) (DIM_Z e)) by (unfold fits; lia).
  pose proof (gen_index_range e _ _ _ x y z F ltac:(unfold in_dims; lia)).
  pose proof (gen_index_range e _ _ _ (x + (n - 1)) y z F ltac:(unfold in_dims; lia)).
  assert (gen_index e (x + (n - 1)) y z = gen_index e x y z + (n - 1)) by (unfold gen_index; ring). lia.
Qed.

Theorem C46_construct : forall ms d e dx dy dz s m,
  wf_members ms -> fits e dx dy dz -> fits_device dx dy dz ->
  interleave (construct_functor_cuda ms d dx dy dz (mkAcc e 0 0)) s ->
  agree (exec s m) (exec (construct_functor ms d dx dy dz (mkAcc e 0 0)) m).
Proof.
  intros ms d e dx dy dz s m Hw F D I. destruct (construct_indep ms d e dx dy dz Hw F) as [HI HS].
  apply exec_sched; auto. rewrite <- construct_cuda_ops by auto. apply interleave_perm. auto.
Qed.
Theorem C46_destroy : forall ms d e dx dy dz s m,
  wf_members ms -> fits e dx dy dz -> fits_device dx dy dz ->
  interleave (destroy_functor_cuda ms d dx dy dz (mkAcc e 0 0)) s ->
  agree (exec s m) (exec (destroy_functor ms d dx dy dz (mkAcc e 0 0)) m).
Proof.
  intros ms d e dx dy dz s m Hw F D I. destruct (destroy_indep ms d e dx dy dz Hw F) as [HI HS].
  apply exec_sched; auto. rewrite <- destroy_cuda_ops by auto. apply interleave_perm. auto.
Qed.

Lemma set_functor_ops : forall ms d e cells x y z count, count <= Z.of_nat (length cells) ->
  set_instance_functor ms d cells 1 x y z count (mkAcc e 0 0) = Val (set_ops ms d e cells (gen_index e x y z) count).
Proof.
  intros ms d e cells x y z count H. unfold set_instance_functor. cbn [a_ext]. rewrite set_host by auto.
  unfold set_ops. rewrite <- flat_map_concat_map. reflexivity.
Qed.

Lemma mapR_val : forall (A B : Type) (f : A -> result B) l r a, mapR f l = Val r -> In a l -> exists b, f a = Val b.
Proof.
  intros A B f l. induction l as [|a l IH]; intros r a' H Hin; [destruct Hin|]. cbn [mapR] in H.
  destruct (f a) as [b|] eqn:E; [|discriminate]. destruct Hin as [<-|Hin]; [eauto|]. destruct (mapR f l) eqn:E2; [|discriminate]. eauto.
Qed.
Lemma set_functor_short : forall ms d e cells x y z count, Z.of_nat (length cells) < count ->
  exists f, set_instance_functor ms d cells 1 x y z count (mkAcc e 0 0) = Fault f.
Proof.
  intros ms d e cells x y z count H. unfold set_instance_functor.
  match goal with |- context[mapR ?g ?l] => destruct (mapR g l) as [r|f] eqn:E; [|eauto] end. exfalso.
  destruct (mapR_val _ _ _ _ _ (Z.of_nat (length cells)) E) as [b Hb]; [apply in_zseq; lia|]. cbv beta in Hb.
  rewrite Z.mul_1_r, Nat2Z.id in Hb. rewrite (proj2 (nth_error_None cells (length cells)) ltac:(lia)) in Hb. discriminate.
Qed.

(** [cells]: the staged source array. *)
Theorem C46_set : forall ms d e cells x y z count,
  wf_members ms -> Forall (wf_cell ms) cells -> row_in_extent e x y z count -> count < 2 ^ 31 ->
  match set_instance_functor ms d cells 1 x y z count (mkAcc e 0 0) with
  | Fault f => set_instance_functor_cuda ms d cells 1 x y z count (mkAcc e 0 0) = Fault f
  | Val ops => exists ths, set_instance_functor_cuda ms d cells 1 x y z count (mkAcc e 0 0) = Val ths /\
      forall s m, interleave ths s -> agree (exec s m) (exec ops m)
  end.
Proof.
  intros ms d e cells x y z count Hw Hc R Hn. pose proof R as [H0 _].
  pose proof (set_cuda ms d e cells x y z count ltac:(lia)) as C.
  destruct (Z_le_dec count (Z.of_nat (length cells))) as [L|L].
  - rewrite set_functor_ops in * by auto. destruct C as [ths [E C]]. exists ths. split; auto. intros s m I.
    apply interleave_perm in I. rewrite C in I. destruct (Z.eq_dec count 0) as [->|NZ].
    + assert (s = []) as ->; [|apply agree_refl]. apply Permutation_nil. exact I.
    + destruct (row_in_extent_range _ _ _ _ _ R ltac:(lia)) as [R1 R2].
      destruct (set_indep ms d e cells (gen_index e x y z) count) as [HI HS]; auto. apply exec_sched; auto.
  - destruct (set_functor_short ms d e cells x y z count ltac:(lia)) as [f E]. rewrite E in *. exact C.
Qed.

(** The caller's array [target] may be larger than needed; what is beyond is left alone. *)
Theorem C46_get : forall ms m d e x y z count,
  0 <= count < 2 ^ 31 ->
  match get_instance_functor ms m d x y z count (mkAcc e 0 0) with
  | Fault f => get_instance_functor_cuda ms m d x y z count (mkAcc e 0 0) = Fault f
  | Val cs => exists ths, get_instance_functor_cuda ms m d x y z count (mkAcc e 0 0) = Val ths /\
      forall s target, interleave ths s -> count <= Z.of_nat (length target) ->
        stores target s = Val (cs ++ skipn (Z.to_nat count) target)
  end.
Proof.
  intros ms m d e x y z count Hn. unfold get_instance_functor, get_instance_functor_cuda, get_kernel. cbn [a_ext].
  set (k := fun i => if count <=? i then Val [] else
    match read_cell m d (with_index (mkAcc e 0 0) (gen_index e (x + i) y z)) ms with Fault f => Fault f | Val c => Val [(i, c)] end).
  pose proof (launchR_row _ k count ltac:(lia) ltac:(intros i Hi; unfold k; assert ((count <=? i) = true) as -> by lia; auto)) as H.
  unfold k in H at 2 3. set (h := fun i => read_cell m d (acc_add (with_index (mkAcc e 0 0) (gen_index e x y z)) i) ms).
  assert (G : forall l, (forall i, In i l -> 0 <= i < count) ->
     mapR k l = match mapR h l with Fault f => Fault f | Val cs => Val (map (fun p => [p]) (combine l cs)) end).
  { induction l as [|i l IH]; intros Hl; [reflexivity|]. cbn [mapR]. rewrite IH by (intros; apply Hl; simpl; auto).
    assert (k i = match h i with Fault f => Fault f | Val c => Val [(i, c)] end) as ->.
    { unfold k, h. pose proof (Hl i (or_introl eq_refl)). assert ((count <=? i) = false) as -> by lia.
      assert (with_index (mkAcc e 0 0) (gen_index e (x + i) y z) = acc_add (with_index (mkAcc e 0 0) (gen_index e x y z)) i) as -> by
        (unfold with_index, acc_add; cbn [a_ext a_index a_INDEX]; f_equal; unfold gen_index; ring). reflexivity. }
    destruct (h i); auto. destruct (mapR h l); auto. }
  rewrite (G (zseq count)) in H by (intros i Hi; apply in_zseq in Hi; lia).
  destruct (mapR h (zseq count)) as [cs|f] eqn:E; [|exact H].
  destruct H as [ths [E1 E2]]. exists ths. split; [exact E1|]. intros s target I L.
  apply interleave_perm in I. rewrite E2 in I.
  assert (LC : length cs = Z.to_nat count).
  { rewrite <- (length_zseq count). clear -E. revert cs E. induction (zseq count) as [|a l IH]; intros cs E; cbn [mapR] in E; [inversion E; auto|].
    destruct (h a); [|discriminate]. destruct (mapR h l); [|discriminate]. inversion E; subst. cbn. f_equal. auto. }
  rewrite <- flat_map_concat_map, flat_map_single, map_id in I.
  assert (FS : map fst (combine (zseq count) cs) = zseq count).
  { assert (LL : length (zseq count) = length cs) by (rewrite length_zseq; auto). clear -LL. revert cs LL. induction (zseq count) as [|a l IH]; intros [|c cs] LL; cbn in *; try lia; auto. f_equal. apply IH. lia. }
  destruct (stores_ok _ s target) as [t' [S1 [S2 [S3 S4]]]].
  - eapply Permutation_NoDup; [apply Permutation_map; exact I|]. rewrite FS. apply NoDup_zseq.
  - intros i c Hin. apply (Permutation_in _ (Permutation_sym I)) in Hin. apply in_combine_l in Hin. apply in_zseq in Hin. lia.
  - rewrite S1. f_equal. apply list_ext. intros n. destruct (lt_dec n (length cs)) as [Hl|Hl].
    + rewrite nth_error_app1 by lia. destruct (nth_error cs n) as [c|] eqn:Ec; [|apply nth_error_None in Ec; lia].
      rewrite <- (Nat2Z.id n). apply S3. apply (Permutation_in _ I).
      assert (nth_error (combine (zseq count) cs) n = Some (Z.of_nat n, c)) as Hc; [|eapply nth_error_In; eauto].
      apply nth_error_combine; auto. rewrite nth_error_zseq. assert (Nat.ltb n (Z.to_nat count) = true) as -> by (apply Nat.ltb_lt; lia). auto.
    + rewrite nth_error_app2 by lia. rewrite S4.
      * rewrite LC in *. rewrite nth_error_skip. f_equal. lia.
      * intros C. apply (Permutation_in _ (Permutation_sym (Permutation_map fst I))) in C. rewrite FS in C. apply in_zseq in C. lia.
Qed.

(** Streaks of load and save. [source]/[target]: the device copy of the caller's buffer. *)
Definition streaks_ok (e : extent) (l : list streak) : Prop :=
  Forall (fun '(x, y, z, n) => row_in_extent e x y z n /\ n < 2 ^ 31) l.
Definition streaks_length (l : list streak) : Z := fold_right (fun '(_, _, _, n) a => n + a) 0 l.

Lemma row_copy_indep : forall ms d P i d' P' i' n, wf_members ms -> pb d' <> pb d -> n = 0 \/ 0 <= i /\ i + n <= P ->
  ForallOrdPairs indep2 (slot_copy_ops ms d P i d' P' i' n) /\ forall op, In op (slot_copy_ops ms d P i d' P' i' n) -> 0 < op_size op.
Proof.
  intros ms d P i d' P' i' n Hw Hb [->|[H0 H1]]; [|apply row_indep; auto].
  assert (slot_copy_ops ms d P i d' P' i' 0 = []) as ->; [|split; [constructor|intros ? []]].
  unfold slot_copy_ops. change (zseq 0) with (@nil Z). cbn [map]. apply flat_map_nil. auto.
Qed.

Lemma load_launches : forall ms d e source count l off,
  wf_members ms -> pb source <> pb d -> streaks_ok e l ->
  exists hosts, concat hosts = load_functor ms d (mkAcc e 0 0) source count off l /\
    Forall2 (fun ths ops => Permutation ops (concat ths) /\ ForallOrdPairs indep2 ops /\ forall op, In op ops -> 0 < op_size op)
            (load_functor_cuda ms d (mkAcc e 0 0) source count off l) hosts.
Proof.
  intros ms d e source count l off Hw Hb Hs. revert off. induction Hs as [|[[[x y] z] n] l [R Hn] Hs IH]; intros off; [exists []; split; [reflexivity|constructor]|].
  destruct (IH (off + n)) as [hosts [E F]]. exists (load_ops d (mkAcc e (gen_index e x y z) 0) ms source n off count :: hosts).
  split; [cbn [concat load_functor]; rewrite E; reflexivity|]. cbn [load_functor_cuda]. constructor; auto.
  pose proof R as [H0 _]. split; [apply load_launch_perm; lia|]. rewrite load_canon. apply row_copy_indep; auto.
  cbn [a_ext]. unfold idx. cbn [a_index a_INDEX]. destruct (Z.eq_dec n 0); [auto|right].
  destruct (row_in_extent_range _ _ _ _ _ R); lia.
Qed.
Lemma save_launches : forall ms d e target count l off,
  wf_members ms -> pb target <> pb d -> streaks_ok e l -> 0 <= off -> off + streaks_length l <= count ->
  exists hosts, concat hosts = save_functor ms d (mkAcc e 0 0) target count off l /\
    Forall2 (fun ths ops => Permutation ops (concat ths) /\ ForallOrdPairs indep2 ops /\ forall op, In op ops -> 0 < op_size op)
            (save_functor_cuda ms d (mkAcc e 0 0) target count off l) hosts.
Proof.
  intros ms d e target count l off Hw Hb Hs. revert off. induction Hs as [|[[[x y] z] n] l [R Hn] Hs IH]; intros off Ho Hl; [exists []; split; [reflexivity|constructor]|].
  cbn [streaks_length fold_right] in Hl. fold (streaks_length l) in Hl. pose proof R as [H0 _].
  assert (HL : 0 <= streaks_length l).
  { clear -Hs. induction Hs as [|[[[x y] z] n] l [[R _] _] Hs IH]; cbn [streaks_length fold_right]; [lia|]. unfold streaks_length in IH. lia. }
  destruct (IH (off + n)) as [hosts [E F]]; [lia|lia|]. exists (save_ops d (mkAcc e (gen_index e x y z) 0) ms target n off count :: hosts).
  split; [cbn [concat save_functor]; rewrite E; reflexivity|]. cbn [save_functor_cuda]. constructor; auto.
  split; [apply save_launch_perm; lia|]. rewrite save_canon. apply row_copy_indep; auto. lia.
Qed.

Theorem C46_load : forall ms d e source count l s m,
  wf_members ms -> pb source <> pb d -> streaks_ok e l ->
  in_turn (load_functor_cuda ms d (mkAcc e 0 0) source count 0 l) s ->
  agree (exec s m) (exec (load_functor ms d (mkAcc e 0 0) source count 0 l) m).
Proof.
  intros ms d e source count l s m Hw Hb Hs T. destruct (load_launches ms d e source count l 0 Hw Hb Hs) as [hosts [<- F]].
  apply (in_turn_agree _ _ _ _ F T).
Qed.
Theorem C46_save : forall ms d e target count l s m,
  wf_members ms -> pb target <> pb d -> streaks_ok e l -> streaks_length l <= count ->
  in_turn (save_functor_cuda ms d (mkAcc e 0 0) target count 0 l) s ->
  agree (exec s m) (exec (save_functor ms d (mkAcc e 0 0) target count 0 l) m).
Proof.
  intros ms d e target count l s m Hw Hb Hs Hl T. destruct (save_launches ms d e target count l 0 Hw Hb Hs ltac:(lia) ltac:(lia)) as [hosts [<- F]].
  apply (in_turn_agree _ _ _ _ F T).
Qed.

(** No data races: no thread writes bytes another thread of the same launch reads or
    writes. *)
Definition race_free (ths : list (list mop)) : Prop :=
  forall i j ti tj a b, nth_error ths i = Some ti -> nth_error ths j = Some tj -> i <> j -> In a ti -> In b tj ->
    sep (op_dst a) (op_size a) (op_dst b) (op_size b) /\
    match op_src b with None => True | Some q => sep (op_dst a) (op_size a) q (op_size b) end.

Lemma race_free_perm : forall ops ths, Permutation ops (concat ths) -> ForallOrdPairs indep2 ops -> race_free ths.
Proof.
  intros ops ths HP HI i j ti tj a b Hi Hj Hij Ha Hb.
  assert (HI' : ForallOrdPairs indep2 (concat ths)) by (eapply FOP_perm; eauto; unfold indep2; tauto).
  destruct (FOP_threads _ indep2 ths ltac:(unfold indep2; tauto) HI' i j ti tj a b Hi Hj Hij Ha Hb) as [H _]. exact H.
Qed.

Theorem C46_no_races : forall ms d e dx dy dz cells x y z n p count l,
  wf_members ms -> fits e dx dy dz -> fits_device dx dy dz ->
  Forall (wf_cell ms) cells -> n <= Z.of_nat (length cells) -> row_in_extent e x y z n -> n < 2 ^ 31 ->
  pb p <> pb d -> streaks_ok e l -> streaks_length l <= count ->
  race_free (construct_functor_cuda ms d dx dy dz (mkAcc e 0 0)) /\
  race_free (destroy_functor_cuda ms d dx dy dz (mkAcc e 0 0)) /\
  (exists ths, set_instance_functor_cuda ms d cells 1 x y z n (mkAcc e 0 0) = Val ths /\ race_free ths) /\
  Forall race_free (load_functor_cuda ms d (mkAcc e 0 0) p count 0 l) /\
  Forall race_free (save_functor_cuda ms d (mkAcc e 0 0) p count 0 l).
Proof.
  intros ms d e dx dy dz cells x y z n p count l Hw F D Hc Hn R Hn2 Hp Hs Hl.
  split; [|split; [|split; [|split]]].
  - destruct (construct_indep ms d e dx dy dz Hw F) as [HI _]. eapply race_free_perm; [|exact HI]. rewrite construct_cuda_ops; auto.
  - destruct (destroy_indep ms d e dx dy dz Hw F) as [HI _]. eapply race_free_perm; [|exact HI]. rewrite destroy_cuda_ops; auto.
  - pose proof R as [H0 _]. pose proof (set_cuda ms d e cells x y z n ltac:(lia)) as C. rewrite set_functor_ops in C by auto.
    destruct C as [ths [E C]]. exists ths. split; auto. eapply race_free_perm; [rewrite C; reflexivity|].
    destruct (Z.eq_dec n 0) as [->|NZ]; [constructor|]. destruct (row_in_extent_range _ _ _ _ _ R ltac:(lia)). apply set_indep; auto.
  - destruct (load_launches ms d e p count l 0 Hw Hp Hs) as [hosts [_ FF]]. clear -FF. induction FF as [|ths ops ? ? [? [? ?]]]; constructor; auto.
    eapply race_free_perm; eauto.
  - destruct (save_launches ms d e p count l 0 Hw Hp Hs ltac:(lia) ltac:(lia)) as [hosts [_ FF]]. clear -FF. induction FF as [|ths ops ? ? [? [? ?]]]; constructor; auto.
    eapply race_free_perm; eauto.
Qed.

(** Schedules exist, among them running the threads backwards. *)
Theorem C46_schedules : forall (ths : list (list mop)), interleave ths (concat ths) /\ interleave ths (concat (rev ths)).
Proof. intros ths. split; [apply interleave_in_order|apply interleave_rev]. Qed.

(** Grid number 0 of the example world (3x2x2 cells, extents 4x2x2): the threads of set
    and load run backwards. *)
Definition ex_ext : extent := mkExt 4 2 2.
Definition ex_schedule (r : result (list (list mop))) : list mop := match r with Val ths => concat (rev ths) | Fault _ => [] end.
Example C46_case :
  let ms := ct_ms ex_ct in let m := w_mem ex_world in let d := g_data (ex_grid 0) in let a := mkAcc ex_ext 0 0 in
  let cells := [ex_cell x20 x21 x22 x23; ex_cell x30 x31 x32 x33] in
  let s := ex_schedule (set_instance_functor_cuda ms d cells 1 1 1 0 2 a) in
  choose (ct_sizes ex_ct) 3 2 2 = inr ex_ext /\ wf_members ms /\ Forall (wf_cell ms) cells /\ row_in_extent ex_ext 1 1 0 2 /\
  length s = 6%nat /\
  match exec s m with Val m' => get_instance_functor ms m' d 0 1 0 3 a = Val (ex_cell x00 x01 x02 x02 :: cells) | Fault _ => False end /\
  streaks_ok ex_ext ex_streaks /\ streaks_length ex_streaks <= 4 /\
  fits ex_ext 3 2 2 /\ fits_device 3 2 2 /\
  match exec (concat (rev (destroy_functor_cuda ms d 3 2 2 a))) m with
  | Val m' => match exec (concat (rev (construct_functor_cuda ms d 3 2 2 a))) m' with
              | Val m'' => get_instance_functor ms m'' d 1 1 0 1 a = Val [ex_cell x00 x01 x02 x02]
              | Fault _ => False end
  | Fault _ => False end.
Proof.
  cbv zeta. split; [reflexivity|]. split; [repeat constructor|]. split; [repeat constructor|].
  split; [split; [lia|]; intros i Hi; unfold in_extent, ex_ext; cbn [DIM_X DIM_Y DIM_Z]; lia|].
  split; [vm_compute; reflexivity|]. split; [vm_compute; reflexivity|].
  split.
  { unfold streaks_ok, ex_streaks. repeat (constructor; [split; [split; [lia|]; intros i Hi; unfold in_extent, ex_ext; cbn [DIM_X DIM_Y DIM_Z]; lia|lia]|]). constructor. }
  split; [vm_compute; discriminate|]. split; [unfold fits, ex_ext; cbn; lia|]. split; [unfold fits_device; lia|].
  vm_compute. reflexivity.
Qed.

(** ** C47 *)
(** On a CUDA grid, broadcast(x, y, z, c, n) with n >= 1 does what set(x, y, z, c) does,
    in every schedule: all threads work on the first cell. *)
Lemma broadcast_threads : forall ms d e c x y z n, 1 <= n < 2 ^ 31 ->
  exists ths, set_instance_functor_cuda ms d [c] 0 x y z n (mkAcc e 0 0) = Val ths /\ ths <> [] /\
    forall t, In t ths -> t = assign_ops d (mkAcc e (gen_index e x y z) 0) ms c.
Proof.
  intros ms d e c x y z n Hn. unfold set_instance_functor_cuda, launchR.
  set (A := assign_ops d (mkAcc e (gen_index e x y z) 0) ms c).
  destruct (row_threads n Hn) as [g [G0 [G1 [G2 [E1 E2]]]]].
  exists (map (fun _ => A) (threads (launch_config n 1 1))). split; [|split].
  - rewrite E1, E2. clear E1 E2. set (ax := axis g 512). clearbody ax. rewrite map_map.
    induction ax as [|px l IH]; [reflexivity|]. cbn [map mapR]. rewrite IH.
    unfold set_kernel at 1. rewrite Z.mul_0_r. assert ((n <=? 0) = false) as -> by lia. cbn [Z.to_nat nth_error].
    unfold with_index. cbn [a_ext a_INDEX]. rewrite Z.add_0_r. reflexivity.
  - rewrite E2, map_map. intros H. apply map_eq_nil in H.
    assert (L : map (global_id 512) (axis g 512) = zseq (g * 512)) by (apply global_ids; lia). rewrite H in L.
    assert (X : In 0 (zseq (g * 512))) by (apply in_zseq; lia). rewrite <- L in X. destruct X.
  - intros t Ht. apply in_map_iff in Ht. destruct Ht as [? [<- _]]. reflexivity.
Qed.

Lemma one_cell_indep : forall ms d e c x y z, wf_members ms -> wf_cell ms c -> in_extent e x y z ->
  ForallOrdPairs indep2 (assign_ops d (mkAcc e (gen_index e x y z) 0) ms c) /\
  forall op, In op (assign_ops d (mkAcc e (gen_index e x y z) 0) ms c) -> is_assign op /\ 0 < op_size op.
Proof.
  intros ms d e c x y z Hw Hc Hi.
  assert (R : row_in_extent e x y z 1) by (split; [lia|]; intros i H; replace (x + i) with x by lia; auto).
  destruct (row_in_extent_range _ _ _ _ _ R ltac:(lia)) as [R1 R2].
  destruct (set_indep ms d e [c] (gen_index e x y z) 1 Hw ltac:(auto) ltac:(simpl; lia) R1 R2) as [I S].
  assert (E : set_ops ms d e [c] (gen_index e x y z) 1 = assign_ops d (mkAcc e (gen_index e x y z) 0) ms c).
  { unfold set_ops. change (zseq 1) with [0]. cbn [flat_map Z.to_nat nth]. rewrite Z.add_0_r, app_nil_r. reflexivity. }
  rewrite E in *. split; auto. intros op Hop. split; auto. rewrite assign_canon in Hop by auto.
  apply in_map_iff in Hop. destruct Hop as [[sl v] [<- _]]. exact Logic.I.
Qed.

Theorem C47_is_set : forall ms d e c x y z n,
  wf_members ms -> wf_cell ms c -> in_extent e x y z -> 1 <= n < 2 ^ 31 ->
  exists ths set_one,
    set_instance_functor_cuda ms d [c] 0 x y z n (mkAcc e 0 0) = Val ths /\
    set_instance_functor ms d [c] 1 x y z 1 (mkAcc e 0 0) = Val set_one /\
    forall s m m1, interleave ths s -> exec set_one m = Val m1 ->
      exists m2, exec s m = Val m2 /\ mem_eq m2 m1.
Proof.
  intros ms d e c x y z n Hw Hc Hi Hn. destruct (broadcast_threads ms d e c x y z n Hn) as [ths [E [NE T]]].
  exists ths, (assign_ops d (mkAcc e (gen_index e x y z) 0) ms c). split; auto. split.
  { rewrite set_functor_ops by (simpl; lia). unfold set_ops. change (zseq 1) with [0]. cbn [flat_map Z.to_nat nth].
    rewrite Z.add_0_r, app_nil_r. reflexivity. }
  intros s m m1 I X. destruct (one_cell_indep ms d e c x y z Hw Hc Hi) as [HI HA].
  apply (exec_copies (assign_ops d (mkAcc e (gen_index e x y z) 0) ms c)); auto.
  intros op. apply interleave_perm in I. split; intros H.
  - apply (Permutation_in _ (Permutation_sym I)) in H. apply in_concat in H. destruct H as [t [Ht H]]. rewrite (T t Ht) in H. auto.
  - apply (Permutation_in _ I). destruct ths as [|t ths]; [contradiction|]. apply in_concat. exists t. split; [simpl; auto|].
    rewrite (T t (or_introl eq_refl)). auto.
Qed.

(** Hence: the first cell gets the value and every other cell keeps its value,
    whenever the host version would succeed. Full claim: all n cells get the value;
    it is false for every n >= 2 (C47_refuted). *)
Theorem C47_first_cell_partial : forall ms d e c x y z n ops m m1,
  wf_members ms -> wf_cell ms c -> row_in_extent e x y z n -> 1 <= n < 2 ^ 31 ->
  set_instance_functor ms d [c] 0 x y z n (mkAcc e 0 0) = Val ops -> exec ops m = Val m1 ->
  exists ths, set_instance_functor_cuda ms d [c] 0 x y z n (mkAcc e 0 0) = Val ths /\
    forall s, interleave ths s -> exists m2, exec s m = Val m2 /\
      get_instance_functor ms m2 d x y z 1 (mkAcc e 0 0) = Val [c] /\
      (forall x' y' z', in_extent e x' y' z' -> (x', y', z') <> (x, y, z) ->
         get_instance_functor ms m2 d x' y' z' 1 (mkAcc e 0 0) = get_instance_functor ms m d x' y' z' 1 (mkAcc e 0 0)).
Proof.
  intros ms d e c x y z n ops m m1 Hw Hc R Hn Eo Ex.
  assert (Hi : in_extent e x y z) by (destruct R as [_ R]; specialize (R 0 ltac:(lia)); rewrite Z.add_0_r in R; auto).
  destruct (C47_is_set ms d e c x y z n Hw Hc Hi Hn) as [ths [one [E1 [E2 H]]]]. exists ths. split; auto. intros s I.
  set (A := assign_ops d (mkAcc e (gen_index e x y z) 0) ms c).
  assert (one = A) as ->.
  { rewrite set_functor_ops in E2 by (simpl; lia). unfold set_ops in E2. change (zseq 1) with [0] in E2. cbn [flat_map Z.to_nat nth] in E2.
    rewrite Z.add_0_r, app_nil_r in E2. inversion E2. reflexivity. }
  assert (P : exists m0, exec A m = Val m0).
  { assert (exists r, ops = A ++ r) as [r ->].
    { unfold set_instance_functor in Eo. replace n with (1 + (n - 1)) in Eo by lia. rewrite zseq_app in Eo by lia. change (zseq 1) with [0] in Eo.
      cbn [app mapR Z.mul Z.to_nat nth_error] in Eo. match type of Eo with match match mapR ?f ?l with _ => _ end with _ => _ end = _ => destruct (mapR f l) as [r|] end; [|discriminate].
      inversion Eo. cbn [concat]. exists (concat r). unfold A, acc_add, with_index. cbn [a_ext a_index a_INDEX]. rewrite Z.add_0_r. reflexivity. }
    rewrite exec_app in Ex. destruct (exec A m) as [m0|]; [eauto|discriminate]. }
  destruct P as [m0 P]. destruct (H s m m0 I P) as [m2 [X2 [Q1 [Q2 [Q3 Q4]]]]]. exists m2. split; auto.
  destruct (one_cell_indep ms d e c x y z Hw Hc Hi) as [HI HA]. fold A in HI, HA.
  assert (HP : Forall (op_pre m) A) by (eapply exec_val_pre; eauto; intros; apply HA; auto).
  destruct (exec_indep A m HP) as [m0' [P' EP]]. { eapply FOP_impl; [|exact HI]. unfold indep2; tauto. }
  rewrite P in P'. inversion P'; subst m0'. clear P'.
  assert (RE : forall p k cl, read_elem m2 p k cl = read_elem m0 p k cl).
  { intros p k cl. unfold read_elem, chk_bounds, live, read. rewrite Q2, Q4. erewrite (map_ext _ _ (fun i => Q3 (pb p) (po p + i))). reflexivity. }
  assert (GET : forall mm x' y' z', get_instance_functor ms mm d x' y' z' 1 (mkAcc e 0 0) =
     match read_cell mm d (mkAcc e (gen_index e x' y' z') 0) ms with Fault f => Fault f | Val v => Val [v] end).
  { intros mm x' y' z'. unfold get_instance_functor. change (zseq 1) with [0]. cbn [mapR]. unfold acc_add, with_index. cbn [a_ext a_index a_INDEX].
    rewrite Z.add_0_r. destruct (read_cell _ _ _ _); reflexivity. }
  assert (EF : fits e (DIM_X e) (DIM_Y e) (DIM_Z e)) by (destruct Hi as [? [? ?]]; unfold fits; lia).
  split.
  - rewrite GET. rewrite (read_cell_ok m2 d (mkAcc e (gen_index e x y z) 0) ms c); auto. intros sl v Hin. rewrite RE.
    cbn [a_ext]. unfold idx. cbn [a_index a_INDEX]. rewrite Z.add_0_r.
    assert (Hop : In (Assign (sptr d (DIM_PROD e) sl (gen_index e x y z)) (s_size sl) (s_class sl) v) A).
    { unfold A. rewrite assign_canon by auto. apply in_map_iff. exists (sl, v). split; auto. cbn [a_ext]. unfold idx. cbn [a_index a_INDEX]. rewrite Z.add_0_r. reflexivity. }
    rewrite Forall_forall in HP. destruct (HP _ Hop) as [_ [mm Em]]. cbn [exec1] in Em.
    pose proof (ep_val _ _ _ EP _ Hop) as V. pose proof (ep_live _ _ _ EP _ Hop) as L. cbn [op_dst op_size op_val op_live] in V, L.
    unfold read_elem. rewrite L, V.
    assert (CB : forall p k, chk_bounds m0 p k = chk_bounds m p k) by (intros p k; unfold chk_bounds; rewrite (ep_size _ _ _ EP); reflexivity).
    rewrite CB. destruct (chk_bounds m _ _); [discriminate Em|]. destruct (negb (val_ok v (s_size sl))); [discriminate Em|].
    destruct (s_class sl && negb (live m _)); [discriminate Em|]. reflexivity.
  - intros x' y' z' Hi' Hne. rewrite !GET. rewrite (read_cell_ext ms m m2 d (mkAcc e (gen_index e x' y' z') 0)); auto.
    intros sl Hsl. rewrite RE. cbn [a_ext]. unfold idx. cbn [a_index a_INDEX]. rewrite Z.add_0_r.
    assert (NI : gen_index e x y z <> gen_index e x' y' z').
    { intros C. apply Hne. unfold in_extent in *. apply gen_index_inj' in C; try lia. destruct C as [-> [-> ->]]. reflexivity. }
    assert (SEP : forall op, In op A -> sep (op_dst op) (op_size op) (sptr d (DIM_PROD e) sl (gen_index e x' y' z')) (s_size sl)).
    { intros op Hop. unfold A in Hop. rewrite assign_canon in Hop by auto. apply in_map_iff in Hop. destruct Hop as [[sl' v'] [<- Hin]].
      cbn [op_dst op_size a_ext]. unfold idx. cbn [a_index a_INDEX]. rewrite Z.add_0_r. apply (keys_sep ms); auto.
      - apply in_combine_l in Hin. auto.
      - apply (gen_index_range e _ _ _ _ _ _ EF). unfold in_extent, in_dims in *; lia.
      - apply (gen_index_range e _ _ _ _ _ _ EF). unfold in_extent, in_dims in *; lia.
      - congruence. }
    pose proof (slot_range ms sl Hw Hsl) as SZ.
    unfold read_elem, chk_bounds. rewrite (ep_size _ _ _ EP).
    assert (read m0 (sptr d (DIM_PROD e) sl (gen_index e x' y' z')) (s_size sl) = read m (sptr d (DIM_PROD e) sl (gen_index e x' y' z')) (s_size sl)) as ->.
    { apply read_ext. intros i Hii. apply (ep_frame _ _ _ EP). intros op Hop. destruct (inside _ _ _ _) eqn:X; auto. apply inside_spec in X.
      specialize (SEP op Hop). unfold sep in SEP. lia. }
    assert (live m0 (sptr d (DIM_PROD e) sl (gen_index e x' y' z')) = live m (sptr d (DIM_PROD e) sl (gen_index e x' y' z'))) as ->; auto.
    unfold live. apply (ep_frame_live _ _ _ EP). intros op Hop. destruct (is_start _ _ _) eqn:X; auto. apply is_start_spec in X.
    specialize (SEP op Hop). pose proof (proj2 (HA op Hop)). unfold sep in SEP. lia.
Qed.

(** The claim, for one schedule and any cell of the row, is false already for two cells:
    in the example world broadcast to cells 0 and 1 of a row leaves cell 1 as it was. *)
Theorem C47_refuted :
  let ms := ct_ms ex_ct in let d := g_data (ex_grid 0) in let m := w_mem ex_world in let c := ex_cell x40 x41 x42 x43 in
  let a := mkAcc ex_ext 0 0 in
  reachable ex_ct ex_world /\ w_grids ex_world 0 = Some (ex_grid 0) /\ row_in_grid (ex_grid 0) 0 1 0 2 /\
  match g_broadcast ex_ct (m, ex_grid 0) 0 1 0 c 2 with
  | Ret (m1, _) _ => get_instance_functor ms m1 d 0 1 0 2 a = Val [c; c] | _ => False end /\
  exists ths, set_instance_functor_cuda ms d [c] 0 0 1 0 2 a = Val ths /\
    forall s, interleave ths s -> exists m2, exec s m = Val m2 /\
      get_instance_functor ms m2 d 1 1 0 1 a = Val [ex_cell x10 x11 x12 x13].
Proof.
  cbv zeta. split; [exact ex_reachable|]. split; [exact (proj1 ex_world_content)|].
  split; [unfold row_in_grid, in_grid; destruct ex_dims as [-> [-> ->]]; split; [lia|intros i Hi; lia]|].
  split; [vm_compute; reflexivity|].
  assert (X : match set_instance_functor (ct_ms ex_ct) (g_data (ex_grid 0)) [ex_cell x40 x41 x42 x43] 0 0 1 0 2 (mkAcc ex_ext 0 0) with
    | Val ops => match exec ops (w_mem ex_world) with Val _ => true | Fault _ => false end | Fault _ => false end = true) by (vm_compute; reflexivity).
  assert (G : get_instance_functor (ct_ms ex_ct) (w_mem ex_world) (g_data (ex_grid 0)) 1 1 0 1 (mkAcc ex_ext 0 0) = Val [ex_cell x10 x11 x12 x13]) by (vm_compute; reflexivity).
  assert (W1 : wf_members (ct_ms ex_ct)) by repeat constructor.
  assert (W2 : wf_cell (ct_ms ex_ct) (ex_cell x40 x41 x42 x43)) by repeat constructor.
  revert X G W1 W2. generalize (w_mem ex_world) as m. generalize (g_data (ex_grid 0)) as d. generalize (ct_ms ex_ct) as ms. generalize (ex_cell x40 x41 x42 x43) as c.
  intros c ms d m X G W1 W2.
  destruct (set_instance_functor ms d [c] 0 0 1 0 2 (mkAcc ex_ext 0 0)) as [ops|] eqn:E; [|discriminate X].
  destruct (exec ops m) as [m1|] eqn:E1; [|discriminate X].
  assert (R : row_in_extent ex_ext 0 1 0 2) by (split; [lia|]; intros i Hi; unfold in_extent, ex_ext; cbn [DIM_X DIM_Y DIM_Z]; lia).
  destruct (C47_first_cell_partial ms d ex_ext c 0 1 0 2 ops m m1 W1 W2 R ltac:(lia) E E1) as [ths [T H]].
  exists ths. split; [exact T|]. intros s I. destruct (H s I) as [m2 [X2 [_ F]]]. exists m2. split; [exact X2|].
  rewrite F; [exact G| |intros C; discriminate C]. unfold in_extent, ex_ext. cbn [DIM_X DIM_Y DIM_Z]. lia.
Qed.

Print Assumptions C45_each_cell_once_partial.
Print Assumptions C45_kernels_visit.
Print Assumptions C45_too_large.
Print Assumptions C45_refuted.
Print Assumptions C45_default_grids.
Print Assumptions C46_construct.
Print Assumptions C46_destroy.
Print Assumptions C46_set.
Print Assumptions C46_get.
Print Assumptions C46_load.
Print Assumptions C46_save.
Print Assumptions C46_no_races.
Print Assumptions C46_schedules.
Print Assumptions C47_is_set.
Print Assumptions C47_first_cell_partial.
Print Assumptions C47_refuted.
