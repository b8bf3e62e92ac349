(** Statements C14-C27: soa_grid. *)
From Coq Require Import ZArith List Lia Bool Init.Byte.
From Verif Require Import Base Layout LayoutProofs Sizes SizesProofs Mem MemProofs
  Accessor AccessorProofs RegionProofs Grid SpecGrid GridProofs GridInv BufferProofs GridOps GridSim GridView.
Import ListNotations.
Open Scope Z_scope.

(** A cell type used in the examples: a 2-byte scalar, an array of two elements of a
    1-byte class type; sizes 2 and 4 in x, 2 in y, 1 and 2 in z. *)
Definition ex_ct : celltype :=
  mkCT [mkMember 2 None false [Some x00; Some x01]; mkMember 1 (Some 2%nat) true [Some x02]]
       (Custom [2; 4] [2] [1; 2]) false.
Definition ex_cell (a b c d : byte) : cell := [[[Some a; Some b]]; [[Some c]; [Some d]]].

Lemma ex_ct_wf : wf_ct ex_ct.
Proof. split; repeat constructor. Qed.

(** The world after building a 3x2x2 grid number 0 and a 1x1x1 grid number 1. *)
Definition ex_ops : list gop :=
  [ONew 0 3 2 2; ONew 1 1 1 1; OSet 0 1 1 0 (ex_cell x10 x11 x12 x13)].
Definition ex_world : world := match wrun ex_ct start ex_ops with Val (w, _) => w | Fault _ => start end.

Lemma ex_in_box : forall ms x y z a b c, 0 <= x < a -> 0 <= y < b -> 0 <= z < c -> in_box (new_grid ms a b c) x y z.
Proof. intros. unfold in_box; simpl; auto. Qed.

Lemma ex_history : exists A bs, arun ex_ct no_grids ex_ops A bs.
Proof.
  do 2 eexists.
  eapply ar_cons. { apply a_new; try lia; try congruence; try reflexivity. simpl. repeat split; [exists 4|exists 2|exists 2]; simpl; lia. }
  eapply ar_cons. { apply a_new; try lia; try congruence; try reflexivity. simpl. repeat split; [exists 2|exists 2|exists 1]; simpl; lia. }
  eapply ar_cons. { eapply a_set; [reflexivity|apply ex_in_box; lia|]. repeat constructor. }
  constructor.
Qed.

Lemma ex_reachable : reachable ex_ct ex_world.
Proof.
  destruct ex_history as [A [bs H]]. exists ex_ops, A, bs. split; auto.
  destruct (run_sim ex_ct ex_ops start no_grids A bs ex_ct_wf (winv_start ex_ct) H) as [W [E _]].
  unfold ex_world. rewrite E. reflexivity.
Qed.

Definition ex_grid (id : nat) : grid :=
  match w_grids ex_world id with Some g => g | None => mkGrid 0 0 0 None None None None null end.

Lemma ex_dims : g_x (ex_grid 0) = 3 /\ g_y (ex_grid 0) = 2 /\ g_z (ex_grid 0) = 2.
Proof. vm_compute. auto. Qed.

Example ex_world_content :
  w_grids ex_world 0 = Some (ex_grid 0) /\ w_grids ex_world 1 = Some (ex_grid 1) /\
  in_grid (ex_grid 0) 2 1 1 /\ sized (ex_grid 0) /\
  match g_get ex_ct (w_mem ex_world, ex_grid 0) 1 1 0 with Ret _ v => v = ex_cell x10 x11 x12 x13 | _ => False end.
Proof.
  assert (D : forall id, match w_grids ex_world id with Some _ => true | None => false end = true -> w_grids ex_world id = Some (ex_grid id)).
  { intros id. unfold ex_grid. destruct (w_grids ex_world id); [auto|discriminate]. }
  split; [apply D; vm_compute; reflexivity|]. split; [apply D; vm_compute; reflexivity|].
  destruct ex_dims as [Ex [Ey Ez]]. unfold in_grid. rewrite Ex, Ey, Ez. split; [lia|].
  split; [vm_compute; reflexivity|].
  vm_compute. reflexivity.
Qed.

(** ** C14 *)
Theorem C14_set_get : forall ct W id g x y z c,
  wf_ct ct -> reachable ct W -> w_grids W id = Some g -> in_grid g x y z -> wf_cell (ct_ms ct) c ->
  exists m', g_set ct (w_mem W, g) x y z c = Ret (m', g) tt /\
    reads ct m' g x y z c /\
    (forall x' y' z', in_grid g x' y' z' -> (x', y', z') <> (x, y, z) -> same_cell ct (w_mem W) g m' g x' y' z') /\
    others_same ct W m' id.
Proof.
  intros ct W id g x y z c Hct HR Hg Hin Hc.
  destruct (reachable_inv _ _ Hct HR) as [A I]. destruct (winv_rep _ _ _ _ _ I Hg) as [a [HA G]].
  pose proof (wi_ok _ _ _ I) as M. pose proof Hin as Hb. apply (in_grid_box _ _ _ _ _ _ _ G) in Hb.
  destruct (set_row_ok ct (w_mem W) g a [c] 1 (fun _ => c) x y z 1) as [m' [E [F G']]]; auto.
  { eapply nonfresh; eauto. }
  { split; [lia|]. intros i Hi. replace (x + i) with x by lia. auto. }
  { intros i Hi. replace i with 0 by lia. auto. }
  exists m'. split; [exact E|]. split; [|split].
  - pose proof (grep_reads ct m' g _ x y z Hct G' Hin) as R. cbn [put_row ag_cells] in R.
    rewrite !Z.eqb_refl in R. destruct (Z.leb_spec x x); [|lia]. destruct (Z.ltb_spec x (x + 1)); [|lia]. exact R.
  - intros x' y' z' Hin' Hne. exists (ag_cells a x' y' z'). split; [apply grep_reads; auto|].
    pose proof (grep_reads ct m' g _ x' y' z' Hct G' Hin') as R. cbn [put_row ag_cells] in R.
    destruct ((y' =? y) && (z' =? z) && (x <=? x') && (x' <? x + 1)) eqn:Eb; auto.
    exfalso. apply Hne. f_equal; [f_equal|]; lia.
  - eapply frame_others; eauto. rewrite Hg. exact F.
Qed.

Example C14_case :
  in_grid (ex_grid 0) 2 0 1 /\ wf_cell (ct_ms ex_ct) (ex_cell x20 x21 x22 x23) /\ in_grid (ex_grid 0) 1 1 0.
Proof. unfold in_grid. destruct ex_dims as [-> [-> ->]]. repeat split; try lia; repeat constructor. Qed.

(** ** C15 *)
(** [written m' f]: the [n] cells from (x, y, z) on read [f 0, f 1, ...], all others
    of this grid and all other grids are as before. *)
Definition row_written (ct : celltype) (W : world) (id : nat) (g : grid) (m' : mem) (x y z n : Z) (f : Z -> cell) : Prop :=
  (forall i, 0 <= i < n -> reads ct m' g (x + i) y z (f i)) /\
  (forall x' y' z', in_grid g x' y' z' -> ~ (y' = y /\ z' = z /\ x <= x' < x + n) -> same_cell ct (w_mem W) g m' g x' y' z') /\
  others_same ct W m' id.

Lemma row_written_intro : forall ct W A id g a m' x y z n f,
  wf_ct ct -> winv ct W A -> w_grids W id = Some g -> grep ct (w_mem W) g a ->
  gframe (w_mem W) (blk g) m' (blk g) -> grep ct m' g (put_row a x y z n f) -> row_in_grid g x y z n ->
  row_written ct W id g m' x y z n f.
Proof.
  intros ct W A id g a m' x y z n f Hct I Hg G F G' [Hn Hrow]. split; [|split].
  - intros i Hi. pose proof (grep_reads ct m' g _ (x + i) y z Hct G' (Hrow i Hi)) as R. cbn [put_row ag_cells] in R.
    rewrite !Z.eqb_refl in R. destruct (Z.leb_spec x (x + i)); [|lia]. destruct (Z.ltb_spec (x + i) (x + n)); [|lia].
    simpl in R. replace (x + i - x) with i in R by lia. exact R.
  - intros x' y' z' Hin' Hne. exists (ag_cells a x' y' z'). split; [apply grep_reads; auto|].
    pose proof (grep_reads ct m' g _ x' y' z' Hct G' Hin') as R. cbn [put_row ag_cells] in R.
    destruct ((y' =? y) && (z' =? z) && (x <=? x') && (x' <? x + n)) eqn:Eb; auto.
    exfalso. apply Hne. lia.
  - eapply frame_others; eauto. rewrite Hg. exact F.
Qed.

Theorem C15_set_row : forall ct W id g x y z cs n,
  wf_ct ct -> reachable ct W -> w_grids W id = Some g -> sized g ->
  row_in_grid g x y z n -> Forall (wf_cell (ct_ms ct)) cs -> n <= Z.of_nat (length cs) ->
  exists m', g_set_n ct (w_mem W, g) x y z cs n = Ret (m', g) tt /\
    row_written ct W id g m' x y z n (fun i => nth (Z.to_nat i) cs []).
Proof.
  intros ct W id g x y z cs n Hct HR Hg Hs Hrow Hc Hn.
  destruct (reachable_inv _ _ Hct HR) as [A I]. destruct (winv_rep _ _ _ _ _ I Hg) as [a [HA G]].
  pose proof (wi_ok _ _ _ I) as M.
  destruct (set_row_ok ct (w_mem W) g a cs 1 (fun i => nth (Z.to_nat i) cs []) x y z n) as [m' [E [F G']]]; auto.
  { eapply sized_fresh; eauto. }
  { eapply row_in_grid_in; eauto. }
  { intros i Hi. rewrite Z.mul_1_r. split.
    - apply nth_error_nth'. lia.
    - rewrite Forall_forall in Hc. apply Hc. apply nth_In. lia. }
  exists m'. split; [exact E|]. eapply row_written_intro; eauto.
Qed.

Theorem C15_broadcast : forall ct W id g x y z c n,
  wf_ct ct -> reachable ct W -> w_grids W id = Some g -> sized g ->
  row_in_grid g x y z n -> wf_cell (ct_ms ct) c ->
  exists m', g_broadcast ct (w_mem W, g) x y z c n = Ret (m', g) tt /\
    row_written ct W id g m' x y z n (fun _ => c).
Proof.
  intros ct W id g x y z c n Hct HR Hg Hs Hrow Hc.
  destruct (reachable_inv _ _ Hct HR) as [A I]. destruct (winv_rep _ _ _ _ _ I Hg) as [a [HA G]].
  pose proof (wi_ok _ _ _ I) as M.
  destruct (set_row_ok ct (w_mem W) g a [c] 0 (fun i => c) x y z n) as [m' [E [F G']]]; auto.
  { eapply sized_fresh; eauto. }
  { eapply row_in_grid_in; eauto. }
  { intros i Hi. rewrite Z.mul_0_r. auto. }
  exists m'. split; [exact E|]. eapply row_written_intro; eauto.
Qed.

Theorem C15_get_row : forall ct W id g x y z n,
  wf_ct ct -> reachable ct W -> w_grids W id = Some g -> sized g -> row_in_grid g x y z n ->
  exists vs, g_get_n ct (w_mem W, g) x y z n = Ret (w_mem W, g) vs /\ Z.of_nat (length vs) = n /\
    forall i, 0 <= i < n -> reads ct (w_mem W) g (x + i) y z (nth (Z.to_nat i) vs []).
Proof.
  intros ct W id g x y z n Hct HR Hg Hs [Hn Hrow].
  destruct (reachable_inv _ _ Hct HR) as [A I]. destruct (winv_rep _ _ _ _ _ I Hg) as [a [HA G]].
  destruct (grep_alloc _ _ _ _ G (sized_fresh _ _ _ _ G Hs)) as [e GA].
  exists (map (fun i => ag_cells a (x + i) y z) (zseq n)). split; [|split].
  - apply (get_ok ct (w_mem W) g e (ag_cells a)); auto.
  - rewrite map_length, length_zseq. lia.
  - intros i Hi. assert (Hnth : nth_error (map (fun i => ag_cells a (x + i) y z) (zseq n)) (Z.to_nat i) = Some (ag_cells a (x + i) y z)).
    { rewrite nth_error_map, nth_error_zseq. destruct (Nat.ltb_spec (Z.to_nat i) (Z.to_nat n)); [|lia]. simpl. rewrite Z2Nat.id by lia. reflexivity. }
    apply (@nth_error_nth _ _ _ _ []) in Hnth. refine (eq_ind_r (fun v => reads ct (w_mem W) g (x + i) y z v) _ Hnth). apply grep_reads; auto.
Qed.

Example C15_case : row_in_grid (ex_grid 0) 1 1 1 2 /\ row_in_grid (ex_grid 0) 0 0 0 0.
Proof. unfold row_in_grid, in_grid. destruct ex_dims as [-> [-> ->]]. repeat split; try lia. Qed.

(** ** C16 *)
Theorem C16_new_default : forall ct W id x y z,
  wf_ct ct -> reachable ct W -> w_grids W id = None ->
  0 <= x -> 0 <= y -> 0 <= z -> (x, y, z) <> (0, 0, 0) -> supported (ct_sizes ct) x y z ->
  exists m' g, g_new ct (w_mem W) x y z = Ret (m', g) tt /\ g_x g = x /\ g_y g = y /\ g_z g = z /\
    (forall x' y' z', in_grid g x' y' z' -> reads ct m' g x' y' z' (default_cell (ct_ms ct))) /\
    others_same ct W m' id.
Proof.
  intros ct W id x y z Hct HR Hid X Y Zz Hne Hs.
  destruct (reachable_inv _ _ Hct HR) as [A I]. pose proof (wi_ok _ _ _ I) as M.
  destruct (new_ok ct (w_mem W) x y z) as [m' [g [E [F G]]]]; auto.
  pose proof G as [GX [GY [GZ _]]]. exists m', g. repeat (split; [auto|]).
  - intros x' y' z' Hin. apply (grep_reads ct m' g _ x' y' z' Hct G Hin).
  - eapply frame_others; eauto. rewrite Hid. exact F.
Qed.

(** The operations init() performs (cf. [g_init]): one construction for every member
    element of every cell inside the dimensions, none twice, nothing else. [e] are the
    chosen extents. *)
Theorem C16_constructed_once : forall ct e d dx dy dz,
  wf_members (ct_ms ct) -> 0 <= dx -> 0 <= dy -> 0 <= dz -> choose (ct_sizes ct) dx dy dz = inr e ->
  let ops := construct_functor (ct_ms ct) d dx dy dz (mkAcc e 0 0) in
  NoDup (map op_dst ops) /\
  (forall p s cls v, In (Construct p s cls v) ops <->
     exists x y z j mb k o, 0 <= x < dx /\ 0 <= y < dy /\ 0 <= z < dz /\
       nth_error (ct_ms ct) j = Some mb /\ 0 <= k < Z.of_nat (m_count mb) /\
       member_addr (ct_ms ct) (mkAcc e (gen_index e x y z) 0) j k = Some o /\
       p = padd d o /\ s = m_size mb /\ cls = m_class mb /\ v = m_default mb) /\
  (forall op, In op ops -> exists p s cls v, op = Construct p s cls v).
Proof.
  intros ct e d dx dy dz Hw X Y Zz C ops.
  assert (F : fits e dx dy dz) by (eapply choose_fits; eauto).
  assert (Hops : ops = map (fun k : slot * Z => Construct (sptr d (DIM_PROD e) (fst k) (snd k)) (s_size (fst k)) (s_class (fst k)) (s_default (fst k)))
        (flat_map (fun i => map (fun sl : slot => (sl, i)) (slots (ct_ms ct))) (all_idx e dx dy dz))).
  { unfold ops. rewrite construct_functor_canon by reflexivity. cbn [a_ext].
    rewrite !flat_map_concat_map, concat_map, map_map. f_equal. apply map_ext. intros i. rewrite map_map. reflexivity. }
  assert (Hk : forall sl i, In (sl, i) (flat_map (fun i => map (fun sl : slot => (sl, i)) (slots (ct_ms ct))) (all_idx e dx dy dz)) ->
     In sl (slots (ct_ms ct)) /\ In i (all_idx e dx dy dz) /\ 0 <= i < DIM_PROD e).
  { intros sl i H. apply in_prod_idx in H. destruct H as [H1 H2]. split; auto. split; auto.
    apply in_all_idx in H2. destruct H2 as [x [y [z [Hi ->]]]]. eapply gen_index_range; eauto. }
  split; [|split].
  - rewrite Hops, map_map. apply NoDup_map_inj; [|apply NoDup_prod_idx; auto; apply NoDup_all_idx; auto].
    intros [sl i] [sl' i'] H1 H2 E. apply Hk in H1, H2. simpl in E. unfold sptr, padd in E. inversion E as [E'].
    apply (key_addr_inj (ct_ms ct) (DIM_PROD e)); try tauto. lia.
  - intros p s cls v. rewrite Hops, in_map_iff. split.
    + intros [[sl i] [E H]]. simpl in E. inversion E; subst. clear E. apply in_prod_idx in H. destruct H as [H1 H2].
      apply in_slots_the_slot in H1. destruct H1 as [j [mb [k [H3 [H4 ->]]]]].
      apply in_all_idx in H2. destruct H2 as [x [y [z [[I1 [I2 I3]] ->]]]].
      exists x, y, z, j, mb, k, (slot_addr (DIM_PROD e) (the_slot (ct_ms ct) j mb k) (gen_index e x y z)).
      repeat (split; [auto; try lia|]); auto.
      rewrite (member_addr_slot _ _ _ _ _ H3 H4). cbn [a_ext a_index a_INDEX]. rewrite Z.add_0_r. reflexivity.
    + intros [x [y [z [j [mb [k [o [I1 [I2 [I3 [H3 [H4 [H5 [-> [-> [-> ->]]]]]]]]]]]]]]]].
      exists (the_slot (ct_ms ct) j mb k, gen_index e x y z). cbn [fst snd]. split.
      * rewrite (member_addr_slot _ _ _ _ _ H3 H4) in H5. cbn [a_ext a_index a_INDEX] in H5. rewrite Z.add_0_r in H5.
        inversion H5; subst. reflexivity.
      * apply in_prod_idx. split.
        -- apply in_slots_the_slot. eauto 8.
        -- apply in_all_idx. unfold in_dims. exists x, y, z. auto.
  - intros op H. rewrite Hops in H. apply in_map_iff in H. destruct H as [k [<- _]]. eauto 6.
Qed.

Example C16_case :
  supported (ct_sizes ex_ct) 3 1 2 /\ w_grids ex_world 2 = None /\
  length (construct_functor (ct_ms ex_ct) null 3 1 2 (mkAcc (mkExt 4 2 2) 0 0)) = 18%nat.
Proof. split; [|split; reflexivity]. repeat split; [exists 4|exists 2|exists 2]; simpl; lia. Qed.

(** ** C17 *)
(** The packed format byte by byte: element [k] of member [j] of cell number [i]
    of [n] starts at byte [n * (offset_j + k * size_j) + i * size_j]. *)
Lemma read_sub : forall m q o s N, 0 <= o -> 0 <= s -> o + s <= N ->
  read m (padd q o) s = firstn (Z.to_nat s) (skipn (Z.to_nat o) (read m q N)).
Proof.
  intros m q o s N Ho Hs HN. replace N with (o + (s + (N - o - s))) by lia.
  rewrite read_app, (read_app m (padd q o)) by lia.
  rewrite skipn_app, length_read, Nat.sub_diag, skipn_all2 by (rewrite length_read; lia). simpl.
  rewrite firstn_app, length_read, Nat.sub_diag. simpl. rewrite app_nil_r.
  rewrite firstn_all2; auto. rewrite length_read; lia.
Qed.

Theorem C17_format_positions : forall ms cells i c j mb k o,
  wf_members ms -> Forall (wf_cell ms) cells ->
  nth_error cells i = Some c -> nth_error ms j = Some mb -> offset ms j = Some o -> (k < m_count mb)%nat ->
  let n := Z.of_nat (length cells) in
  length (pack ms cells) = Z.to_nat (packed_size ms n) /\
  firstn (Z.to_nat (m_size mb))
    (skipn (Z.to_nat (n * (o + Z.of_nat k * m_size mb) + Z.of_nat i * m_size mb)) (pack ms cells))
  = nth k (nth j c []) [].
Proof.
  intros ms cells i c j mb k o Hw Hc Hi Hj Ho Hk n.
  assert (Hil : (i < length cells)%nat) by (apply nth_error_Some; congruence).
  assert (Hwc : wf_cell ms c) by (rewrite Forall_forall in Hc; apply Hc; eapply nth_error_In; eauto).
  destruct (alloc empty_mem (total ms * n)) as [m1 q] eqn:Ea.
  assert (R1 : region ms m1 q n (fun _ => None)) by (eapply alloc_region; eauto; unfold n; lia).
  destruct (build_region ms m1 q cells Hw Hc R1) as [m2 [_ [_ R2]]]. fold n in R2.
  pose proof (region_bytes ms m2 q cells Hw R2) as HB. fold n in HB.
  split. { rewrite <- HB, length_read. reflexivity. }
  set (sl := the_slot ms j mb (Z.of_nat k)).
  assert (Hs : In sl (slots ms)) by (apply in_slots_the_slot; exists j, mb, (Z.of_nat k); repeat split; auto; lia).
  assert (Hci : ci_list cells (Z.of_nat i) = Some c).
  { unfold ci_list. destruct (Z.ltb_spec (Z.of_nat i) 0); [lia|]. rewrite Nat2Z.id. auto. }
  assert (Hoff : o = total (firstn j ms)).
  { rewrite offset_firstn in Ho; [congruence|]. assert (j < length ms)%nat by (apply nth_error_Some; congruence). lia. }
  pose proof (slot_value_in ms c j mb k Hwc Hj Hk) as Hv. fold sl in Hv.
  destruct (rg_val _ _ _ _ _ R2 _ _ sl _ Hci Hv) as [V _]. rewrite <- V.
  destruct (slot_range ms sl Hw Hs) as [S1 [S2 S3]].
  pose proof (slot_addr_bounds n sl (Z.of_nat i) (total ms) S1 S2 S3 ltac:(unfold n; lia)) as [B1 B2].
  unfold sptr. rewrite (read_sub m2 q _ _ (packed_size ms n)); try lia.
  - rewrite HB. f_equal. f_equal. f_equal. unfold slot_addr, sl, the_slot. cbn [s_off s_size]. rewrite Hoff. lia.
  - rewrite packed_size_total. lia.
Qed.

(** save() into a buffer of exactly the packed size: the whole buffer then holds the
    packed cells that get() shows; no cell of any grid changes. An access outside the
    buffer or the grid's storage would be a fault. *)
Theorem C17_save : forall ct W id g x y z cs n,
  wf_ct ct -> reachable ct W -> w_grids W id = Some g -> sized g ->
  row_in_grid g x y z n -> Z.of_nat (length cs) = n -> Forall (wf_cell (ct_ms ct)) cs ->
  exists m' vs,
    with_buffer (ct_ms ct) (w_mem W) cs (fun m q => g_save ct (m, g) x y z q n) = Ret (m', g) (pack (ct_ms ct) vs) /\
    g_get_n ct (w_mem W, g) x y z n = Ret (w_mem W, g) vs /\
    (forall x' y' z', in_grid g x' y' z' -> same_cell ct (w_mem W) g m' g x' y' z') /\ others_same ct W m' id.
Proof.
  intros ct W id g x y z cs n Hct HR Hg Hs Hrow Hlen Hcs.
  destruct (reachable_inv _ _ Hct HR) as [A I]. destruct (winv_rep _ _ _ _ _ I Hg) as [a [HA G]].
  pose proof (wi_ok _ _ _ I) as M. destruct (grep_alloc _ _ _ _ G (sized_fresh _ _ _ _ G Hs)) as [e GA].
  assert (Hco : streak_coords [(x, y, z, n)] = map (fun i => (x + i, y, z)) (zseq n)) by (unfold streak_coords; simpl; apply app_nil_r).
  assert (Hlc : length (streak_coords [(x, y, z, n)]) = length cs) by (rewrite Hco, map_length, length_zseq; lia).
  set (vs := map (fun i => ag_cells a (x + i) y z) (zseq n)).
  assert (Hvs : map (fun '(x, y, z) => ag_cells a x y z) (streak_coords [(x, y, z, n)]) ++ skipn (length (streak_coords [(x, y, z, n)])) cs = vs).
  { rewrite Hlc, skipn_all, app_nil_r, Hco, map_map. reflexivity. }
  destruct (with_buffer_ok ct (w_mem W) g e (ag_cells a) (ag_cells a) cs vs
       (fun m q => g_save ct (m, g) x y z q n)) as [m' [E [F G']]]; auto.
  { unfold vs. rewrite map_length, length_zseq. lia. }
  { intros m2 q M2 G2 Hq R2.
    destruct (save_ok ct m2 g e (ag_cells a) q cs [(x, y, z, n)]) as [m3 [E3 [SO3 R3]]]; auto.
    - intros x' y' z' Hin. rewrite Hco in Hin. apply in_map_iff in Hin. destruct Hin as [i [Ei Hi]]. inversion Ei; subst.
      apply in_zseq in Hi. apply Hrow; auto.
    - constructor; auto. apply Hrow.
    - lia.
    - exists m3, (pb q). rewrite Hlen in E3. split; [exact E3|]. split; auto. split; auto. rewrite <- Hvs. split; auto.
      apply (galloc_frame ct m2 m3 g e (ag_cells a) (pb q) (pb q)); auto. apply same_other_frame; auto. }
  exists m', vs. split; auto. split; [|split].
  - apply (get_ok ct (w_mem W) g e (ag_cells a)); auto. apply Hrow.
  - intros x' y' z' Hin. exists (ag_cells a x' y' z'). split; [apply grep_reads; auto|].
    apply grep_reads; auto. destruct G as [GX [GY [GZ HG]]]. repeat split; auto.
    destruct (ag_fresh a) eqn:Ef; [exfalso; eapply (sized_fresh ct (w_mem W) g a) in Hs; [congruence|repeat split; auto; rewrite Ef; auto]|eauto].
  - eapply frame_others; eauto. rewrite Hg. exact F.
Qed.

(** load() from such a buffer: the row reads the packed cells afterwards, nothing else
    changes, and the buffer is not modified. *)
Theorem C17_load : forall ct W id g x y z cs n,
  wf_ct ct -> reachable ct W -> w_grids W id = Some g -> sized g ->
  row_in_grid g x y z n -> Z.of_nat (length cs) = n -> Forall (wf_cell (ct_ms ct)) cs ->
  exists m',
    with_buffer (ct_ms ct) (w_mem W) cs (fun m q => g_load ct (m, g) x y z q n) = Ret (m', g) (pack (ct_ms ct) cs) /\
    row_written ct W id g m' x y z n (fun i => nth (Z.to_nat i) cs []).
Proof.
  intros ct W id g x y z cs n Hct HR Hg Hs Hrow Hlen Hcs.
  destruct (reachable_inv _ _ Hct HR) as [A I]. destruct (winv_rep _ _ _ _ _ I Hg) as [a [HA G]].
  pose proof (wi_ok _ _ _ I) as M. destruct (grep_alloc _ _ _ _ G (sized_fresh _ _ _ _ G Hs)) as [e GA].
  assert (Hco : streak_coords [(x, y, z, n)] = map (fun i => (x + i, y, z)) (zseq n)) by (unfold streak_coords; simpl; apply app_nil_r).
  destruct (with_buffer_ok ct (w_mem W) g e (ag_cells a) (cupd (ag_cells a) (combine (streak_coords [(x, y, z, n)]) cs)) cs cs
       (fun m q => g_load ct (m, g) x y z q n)) as [m' [E [F G']]]; auto.
  { intros m2 q M2 G2 Hq R2.
    destruct (load_ok ct m2 g e (ag_cells a) q cs [(x, y, z, n)]) as [m3 [E3 [SO3 G3]]]; auto.
    - intros x' y' z' Hin. rewrite Hco in Hin. apply in_map_iff in Hin. destruct Hin as [i [Ei Hi]]. inversion Ei; subst.
      apply in_zseq in Hi. apply Hrow; auto.
    - constructor; auto. apply Hrow.
    - rewrite Hco. apply NoDup_map_inj; [|apply NoDup_zseq]. intros p q' _ _ Epq. inversion Epq. lia.
    - rewrite Hco, map_length, length_zseq. lia.
    - exists m3, (blk g). rewrite Hlen in E3. split; [exact E3|]. split; auto. split; auto. split; auto.
      eapply region_frame; eauto; [destruct SO3 as [_ [SO3 _]]; apply SO3| |]; destruct SO3 as [_ [_ [SV SL]]]; intros; [apply SV|apply SL]; auto. }
  exists m'. split; auto. eapply row_written_intro; eauto.
  destruct G as [GX [GY [GZ HG]]]. repeat split; auto. cbn [put_row ag_fresh ag_cells].
  rewrite (sized_fresh ct (w_mem W) g a); auto; [|repeat split; auto]. exists e.
  eapply galloc_ext; [|exact G']. intros x' y' z' _. cbn beta. rewrite cupd_find, Hco.
  set (pred := fun '(x'0, y'0, z'0, _) => (x' =? x'0) && (y' =? y'0) && (z' =? z'0)).
  assert (Hf : forall k cs', Z.of_nat (length cs') = n - k -> 0 <= k -> skipn (Z.to_nat k) cs = cs' ->
     match find pred (combine (map (fun i => (x + i, y, z)) (map (fun i => k + i) (zseq (n - k)))) cs') with
     | Some (_, _, _, c) => c | None => ag_cells a x' y' z' end =
     if (y' =? y) && (z' =? z) && (x + k <=? x') && (x' <? x + n) then nth (Z.to_nat (x' - x)) cs [] else ag_cells a x' y' z').
  { intros k cs'. revert k. induction cs' as [|c cs' IH]; intros k Hl Hk Hsk.
    - replace (n - k) with 0 by (simpl in Hl; lia). simpl.
      destruct ((y' =? y) && (z' =? z) && (x + k <=? x') && (x' <? x + n)) eqn:Eb; auto. simpl in Hl. lia.
    - assert (Hz : zseq (n - k) = 0 :: map (fun i => 1 + i) (zseq (n - (k + 1)))).
      { replace (n - k) with (1 + (n - (k + 1))) by lia. rewrite zseq_app by (simpl in Hl; lia). reflexivity. }
      rewrite Hz. cbn [map combine find]. unfold pred at 1. rewrite Z.add_0_r.
      assert (Hnc : nth_error cs (Z.to_nat k) = Some c).
      { rewrite <- (firstn_skipn (Z.to_nat k) cs), nth_error_app2; rewrite firstn_length; [|lia]. rewrite Hsk.
        assert (length (skipn (Z.to_nat k) cs) = S (length cs')) as Hll by (rewrite Hsk; auto). rewrite skipn_length in Hll.
        replace (Z.to_nat k - Nat.min (Z.to_nat k) (length cs))%nat with 0%nat by lia. reflexivity. }
      destruct ((x' =? x + k) && (y' =? y) && (z' =? z)) eqn:Eb.
      + assert ((y' =? y) && (z' =? z) && (x + k <=? x') && (x' <? x + n) = true) as -> by (simpl in Hl; lia).
        symmetry. replace (x' - x) with k by lia. apply nth_error_nth. auto.
      + specialize (IH (k + 1)). rewrite map_map. rewrite map_map in IH. 
        assert (Hmm : map (fun i => (x + (k + (1 + i)), y, z)) (zseq (n - (k + 1))) = map (fun i => (x + (k + 1 + i), y, z)) (zseq (n - (k + 1)))).
        { apply map_ext. intros i. f_equal. f_equal. lia. }
        rewrite map_map. rewrite Hmm. rewrite IH; try lia.
        * assert (Hif : (y' =? y) && (z' =? z) && (x + (k + 1) <=? x') && (x' <? x + n) = (y' =? y) && (z' =? z) && (x + k <=? x') && (x' <? x + n)) by lia.
          rewrite Hif. reflexivity.
        * simpl in Hl. lia.
        * replace (Z.to_nat (k + 1)) with (S (Z.to_nat k)) by lia. eapply skipn_S; eauto. }
  specialize (Hf 0 cs). rewrite Z.sub_0_r, Z.add_0_r in Hf.
  rewrite (map_ext (fun i => 0 + i) (fun i => i)) in Hf by (intros; lia). rewrite map_id in Hf. apply Hf; auto. lia.
Qed.

Example C17_case :
  pack (ct_ms ex_ct) [ex_cell x10 x11 x12 x13; ex_cell x20 x21 x22 x23] =
    map Some [x10; x11; x20; x21; x12; x22; x13; x23] /\
  match with_buffer (ct_ms ex_ct) (w_mem ex_world) [ex_cell x00 x00 x00 x00; ex_cell x00 x00 x00 x00]
          (fun m q => g_save ex_ct (m, ex_grid 0) 0 1 0 q 2) with
  | Ret _ b => b = map Some [x00; x01; x10; x11; x02; x12; x02; x13]
  | _ => False end.
Proof. split; vm_compute; reflexivity. Qed.

(** The packed bytes determine the cells, so load() after save() restores them. *)
Theorem C17_packed_determines : forall ms cs cs',
  wf_members ms -> Forall (wf_cell ms) cs -> Forall (wf_cell ms) cs' -> length cs = length cs' ->
  pack ms cs = pack ms cs' -> cs = cs'.
Proof.
  intros ms cs cs' Hw H H' Hl E. apply nth_ext with (d := []) (d' := []); auto. intros i Hi.
  assert (N1 : nth_error cs i = Some (nth i cs [])) by (apply nth_error_nth'; auto).
  assert (N2 : nth_error cs' i = Some (nth i cs' [])) by (apply nth_error_nth'; lia).
  assert (W1 : wf_cell ms (nth i cs [])) by (rewrite Forall_forall in H; apply H; eapply nth_error_In; eauto).
  assert (W2 : wf_cell ms (nth i cs' [])) by (rewrite Forall_forall in H'; apply H'; eapply nth_error_In; eauto).
  assert (P : forall j mb o k, nth_error ms j = Some mb -> offset ms j = Some o -> (k < m_count mb)%nat ->
     nth k (nth j (nth i cs []) []) [] = nth k (nth j (nth i cs' []) []) []).
  { intros j mb o k Hj Ho Hk.
    destruct (C17_format_positions ms cs i _ j mb k o Hw H N1 Hj Ho Hk) as [_ E1].
    destruct (C17_format_positions ms cs' i _ j mb k o Hw H' N2 Hj Ho Hk) as [_ E2].
    rewrite <- E1, <- E2, E, Hl. reflexivity. }
  assert (L : forall c, wf_cell ms c -> length c = length ms) by (intros c Hc; clear -Hc; induction Hc; simpl; congruence).
  pose proof (L _ W1) as L1. pose proof (L _ W2) as L2.
  apply nth_ext with (d := []) (d' := []); [congruence|]. intros j Hj. rewrite L1 in Hj.
  destruct (nth_error ms j) as [mb|] eqn:Em; [|apply nth_error_None in Em; lia].
  assert (LL : forall c, wf_cell ms c -> length (nth j c []) = m_count mb).
  { intros c Hc. clear -Hc Em. revert j Em. induction Hc as [|m vs ms c [Hl _] Hc IH]; intros j Em; [destruct j; discriminate|].
    destruct j; simpl in *; [inversion Em; subst; auto|eauto]. }
  apply nth_ext with (d := []) (d' := []); [rewrite !LL; auto|]. intros k Hk. rewrite LL in Hk by auto.
  eapply (P j mb _ k); eauto. apply offset_firstn. lia.
Qed.

(** ** C18 *)
Lemma streak_in_grid : forall g l x y z,
  Forall (fun '(x, y, z, n) => row_in_grid g x y z n) l -> In (x, y, z) (streak_coords l) -> in_grid g x y z.
Proof.
  intros g l x y z H Hin. unfold streak_coords in Hin. apply in_flat_map in Hin. destruct Hin as [[[[a b] c] n] [H1 H2]].
  rewrite Forall_forall in H. specialize (H _ H1). simpl in H. destruct H as [H3 H4].
  apply in_map_iff in H2. destruct H2 as [i [E Hi]]. inversion E; subst. apply in_zseq in Hi. auto.
Qed.

Lemma streaks_nonneg : forall g l,
  Forall (fun '(x, y, z, n) => row_in_grid g x y z n) l -> Forall (fun '(x, y, z, n) => 0 <= n) l.
Proof. intros g l H. eapply Forall_impl; [|exact H]. intros [[[x y] z] n] [H1 _]. auto. Qed.

(** The buffer has room for [length cs] cells per member element (the [count] argument,
    which may exceed the number of cells in the streaks); the cells of the streaks, in
    order, go to the front of each column, the rest of the buffer keeps its content. *)
Theorem C18_save_streaks : forall ct W id g l cs,
  wf_ct ct -> reachable ct W -> w_grids W id = Some g -> sized g ->
  Forall (fun '(x, y, z, n) => row_in_grid g x y z n) l ->
  (length (streak_coords l) <= length cs)%nat -> Forall (wf_cell (ct_ms ct)) cs ->
  exists m' vs,
    with_buffer (ct_ms ct) (w_mem W) cs (fun m q => g_save_streaks ct (m, g) l q (Z.of_nat (length cs)))
      = Ret (m', g) (pack (ct_ms ct) (vs ++ skipn (length vs) cs)) /\
    Forall2 (fun '(x, y, z) v => reads ct (w_mem W) g x y z v) (streak_coords l) vs /\
    (forall x y z, in_grid g x y z -> same_cell ct (w_mem W) g m' g x y z) /\ others_same ct W m' id.
Proof.
  intros ct W id g l cs Hct HR Hg Hs Hl Hlen Hcs.
  destruct (reachable_inv _ _ Hct HR) as [A I]. destruct (winv_rep _ _ _ _ _ I Hg) as [a [HA G]].
  pose proof (wi_ok _ _ _ I) as M. pose proof (sized_fresh _ _ _ _ G Hs) as Hfr.
  destruct (grep_alloc _ _ _ _ G Hfr) as [e GA].
  set (vs := map (fun '(x, y, z) => ag_cells a x y z) (streak_coords l)).
  assert (Hvl : length vs = length (streak_coords l)) by (unfold vs; apply map_length).
  destruct (with_buffer_ok ct (w_mem W) g e (ag_cells a) (ag_cells a) cs (vs ++ skipn (length (streak_coords l)) cs)
       (fun m q => g_save_streaks ct (m, g) l q (Z.of_nat (length cs)))) as [m' [E [F G']]]; auto.
  { rewrite app_length, skipn_length. lia. }
  { intros m2 q M2 G2 Hq R2.
    destruct (save_ok ct m2 g e (ag_cells a) q cs l) as [m3 [E3 [SO3 R3]]]; auto.
    - intros. eapply streak_in_grid; eauto.
    - eapply streaks_nonneg; eauto.
    - exists m3, (pb q). split; [exact E3|]. split; auto. split; auto. split; auto.
      apply (galloc_frame ct m2 m3 g e (ag_cells a) (pb q) (pb q)); auto. apply same_other_frame; auto. }
  exists m', vs. rewrite Hvl. split; auto. split; [|split].
  - assert (Hall : forall x y z, In (x, y, z) (streak_coords l) -> in_grid g x y z) by (intros; eapply streak_in_grid; eauto).
    unfold vs. revert Hall. generalize (streak_coords l) as co. induction co as [|[[x y] z] co IH]; intros Hall; cbn [map]; constructor.
    + apply grep_reads; auto. apply Hall. simpl; auto.
    + apply IH. intros. apply Hall. simpl; auto.
  - intros x' y' z' Hin. exists (ag_cells a x' y' z'). split; [apply grep_reads; auto|].
    apply grep_reads; auto. destruct G as [GX [GY [GZ _]]]. repeat split; auto. rewrite Hfr. eauto.
  - eapply frame_others; eauto. rewrite Hg. exact F.
Qed.

Theorem C18_load_streaks : forall ct W id g l cs,
  wf_ct ct -> reachable ct W -> w_grids W id = Some g -> sized g ->
  Forall (fun '(x, y, z, n) => row_in_grid g x y z n) l -> NoDup (streak_coords l) ->
  (length (streak_coords l) <= length cs)%nat -> Forall (wf_cell (ct_ms ct)) cs ->
  exists m',
    with_buffer (ct_ms ct) (w_mem W) cs (fun m q => g_load_streaks ct (m, g) l q (Z.of_nat (length cs)))
      = Ret (m', g) (pack (ct_ms ct) cs) /\
    (forall k x y z, nth_error (streak_coords l) k = Some (x, y, z) -> reads ct m' g x y z (nth k cs [])) /\
    (forall x y z, in_grid g x y z -> ~ In (x, y, z) (streak_coords l) -> same_cell ct (w_mem W) g m' g x y z) /\
    others_same ct W m' id.
Proof.
  intros ct W id g l cs Hct HR Hg Hs Hl Hnd Hlen Hcs.
  destruct (reachable_inv _ _ Hct HR) as [A I]. destruct (winv_rep _ _ _ _ _ I Hg) as [a [HA G]].
  pose proof (wi_ok _ _ _ I) as M. pose proof (sized_fresh _ _ _ _ G Hs) as Hfr.
  destruct (grep_alloc _ _ _ _ G Hfr) as [e GA].
  set (cells' := cupd (ag_cells a) (combine (streak_coords l) cs)).
  destruct (with_buffer_ok ct (w_mem W) g e (ag_cells a) cells' cs cs
       (fun m q => g_load_streaks ct (m, g) l q (Z.of_nat (length cs)))) as [m' [E [F G']]]; auto.
  { intros m2 q M2 G2 Hq R2.
    destruct (load_ok ct m2 g e (ag_cells a) q cs l) as [m3 [E3 [SO3 G3]]]; auto.
    - intros. eapply streak_in_grid; eauto.
    - eapply streaks_nonneg; eauto.
    - exists m3, (blk g). split; [exact E3|]. split; auto. split; auto. split; auto.
      eapply region_frame; eauto; [destruct SO3 as [_ [SO3 _]]; apply SO3| |]; destruct SO3 as [_ [_ [SV SL]]]; intros; [apply SV|apply SL]; auto. }
  assert (G2 : grep ct m' g (mkAG (ag_x a) (ag_y a) (ag_z a) false cells')).
  { destruct G as [GX [GY [GZ _]]]. repeat split; auto. simpl. eauto. }
  exists m'. split; auto. split; [|split].
  - intros k x y z Hk. assert (Hin : in_grid g x y z) by (eapply streak_in_grid; eauto; eapply nth_error_In; eauto).
    assert (Hc : cells' x y z = nth k cs []).
    { unfold cells'. rewrite cupd_find. clear -Hk Hnd Hlen. revert k cs Hk Hlen Hnd.
      induction (streak_coords l) as [|[[x' y'] z'] co IH]; intros k cs Hk Hlen Hnd; [destruct k; discriminate|].
      destruct cs as [|c cs]; [simpl in Hlen; lia|]. cbn [combine find]. inversion Hnd as [|? ? Hni Hnd']; subst.
      destruct ((x =? x') && (y =? y') && (z =? z')) eqn:Eb.
      - destruct k as [|k]; [reflexivity|]. exfalso. apply Hni. simpl in Hk. apply nth_error_In in Hk.
        replace (x', y', z') with (x, y, z) by (f_equal; [f_equal|]; lia). auto.
      - destruct k as [|k].
        + simpl in Hk. inversion Hk; subst. lia.
        + simpl in Hk. cbn [nth]. apply IH; auto. simpl in Hlen. lia. }
    rewrite <- Hc. apply (grep_reads ct m' g _ x y z Hct G2 Hin).
  - intros x y z Hin Hni. exists (ag_cells a x y z). split; [apply grep_reads; auto|].
    assert (Hc : cells' x y z = ag_cells a x y z).
    { unfold cells'. rewrite cupd_find. clear -Hni. revert cs.
      induction (streak_coords l) as [|[[x' y'] z'] co IH]; intros cs; [reflexivity|].
      destruct cs as [|c cs]; [reflexivity|]. cbn [combine find].
      destruct ((x =? x') && (y =? y') && (z =? z')) eqn:Eb.
      - exfalso. apply Hni. left. f_equal; [f_equal|]; lia.
      - apply IH. intros H. apply Hni. right. auto. }
    rewrite <- Hc. apply (grep_reads ct m' g _ x y z Hct G2 Hin).
  - eapply frame_others; eauto. rewrite Hg. exact F.
Qed.

(** Streaks of different lengths, one of them empty, and a buffer with room to spare. *)
Definition ex_streaks : list streak := [(1, 0, 0, 2); (0, 1, 1, 0); (1, 1, 0, 1)].
Example C18_case :
  Forall (fun '(x, y, z, n) => row_in_grid (ex_grid 0) x y z n) ex_streaks /\ NoDup (streak_coords ex_streaks) /\
  streak_coords ex_streaks = [(1, 0, 0); (2, 0, 0); (1, 1, 0)] /\
  match with_buffer (ct_ms ex_ct) (w_mem ex_world) (repeat (ex_cell xff xff xff xff) 4)
          (fun m q => g_save_streaks ex_ct (m, ex_grid 0) ex_streaks q 4) with
  | Ret _ b => b = map Some [x00; x01; x00; x01; x10; x11; xff; xff;  x02; x02; x12; xff;  x02; x02; x13; xff]
  | _ => False end.
Proof.
  split; [|split; [|split]].
  - unfold ex_streaks, row_in_grid, in_grid. destruct ex_dims as [-> [-> ->]]. repeat constructor; lia.
  - vm_compute. repeat constructor; simpl; intuition congruence.
  - reflexivity.
  - vm_compute. reflexivity.
Qed.

Print Assumptions C14_set_get.
Print Assumptions C15_set_row.
Print Assumptions C15_broadcast.
Print Assumptions C15_get_row.
Print Assumptions C16_new_default.
Print Assumptions C16_constructed_once.
Print Assumptions C17_format_positions.
Print Assumptions C17_save.
Print Assumptions C17_load.
Print Assumptions C17_packed_determines.
Print Assumptions C18_save_streaks.
Print Assumptions C18_load_streaks.
