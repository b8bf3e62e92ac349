(** Proofs for PropsGridThrowRun.v. *)
From Coq Require Import ZArith List Lia Bool.
From Verif Require Import Base Layout LayoutProofs Sizes SizesProofs Mem MemProofs
  Accessor AccessorProofs RegionProofs Grid Vector SpecGrid GridProofs GridInv BufferProofs GridOps GridSim GridView
  GridThrow SpecGridThrow GridThrowProofs SpecArrayThrow ArrayThrowProofs BufferThrow BufferThrowProofs GridThrowRun SpecGridThrowRun.
Import ListNotations.
Open Scope Z_scope.

(** *** Without exceptions *)
Definition lift_obs (r : result (world * obs)) : result (world * xobs) :=
  match r with Val (w', b) => Val (w', GDone b) | Fault f => Fault f end.

Lemma on_grid_never : forall w id f h, (forall st, f st = plain never (h st)) ->
  x_on_grid w id f = lift_obs (on_grid w id h (fun _ => BUnit)).
Proof.
  intros w id f h H. unfold x_on_grid, on_grid. destruct (w_grids w id) as [g|]; [|reflexivity]. rewrite H.
  destruct (h (w_mem w, g)) as [[m' g'] u|[m' g'] e|x]; reflexivity.
Qed.

Lemma ctor_never : forall w id o, x_ctor w id (plain never o) = lift_obs (ctor w id o).
Proof. intros w id o. destruct o as [[m' g'] u|[m' g'] e|x]; reflexivity. Qed.

Lemma on_buffer_never : forall ct w id cs f h ob, (forall st q, f st q = plain never (h st q)) ->
  x_on_buffer ct w id cs f ob =
  lift_obs (on_grid w id (fun st => with_buffer (ct_ms ct) (fst st) cs (fun m q => h (m, snd st) q)) ob).
Proof.
  intros ct w id cs f h ob H. unfold x_on_buffer, on_grid. destruct (w_grids w id) as [g|]; [|reflexivity].
  cbn [fst snd]. unfold x_with_buffer, with_buffer. destruct (alloc _ _) as [m1 q]. destruct (exec _ m1) as [m2|x]; [|reflexivity].
  rewrite H. destruct (h (m2, g) q) as [[m3 g3] u|[m3 g3] e|x]; cbn [plain]; [|reflexivity|reflexivity].
  destruct (exec _ m3) as [m4|x]; [|reflexivity]. unfold run. destruct (free _ _ _); reflexivity.
Qed.

Lemma x_save_never : forall ct w l q n, x_save_streaks ct never w l q n = plain never (g_save_streaks ct w l q n).
Proof.
  intros ct [m g] l q n. unfold x_save_streaks, g_save_streaks. rewrite x_callback_choose, callback_choose.
  destruct (choose _ _ _ _); [reflexivity|]. apply x_run_never.
Qed.

Lemma save_agrees : forall ct s w l p n, agrees (x_save_streaks ct s w l p n) (g_save_streaks ct w l p n).
Proof. intros ct s [m g] l p n. apply callback_agrees. intros. apply run_agrees. Qed.

Lemma never_step : forall ct w op, x_wstep ct w never op = lift_obs (wstep ct w op).
Proof.
  intros ct w op. destruct op; cbn [x_wstep]; try reflexivity.
  - unfold x_new. rewrite x_resize_never. apply ctor_never.
  - cbn [wstep]. destruct (w_grids w src); [|reflexivity]. rewrite x_copy_never. apply ctor_never.
  - cbn [wstep]. unfold plain_step. cbn [wstep]. destruct (Nat.eqb id src); [reflexivity|].
    destruct (w_grids w src); [|reflexivity]. apply on_grid_never. intros. apply x_assign_never.
  - apply on_grid_never. intros. apply x_resize_never.
  - apply on_grid_never. intros. apply x_set_never.
  - apply on_grid_never. intros. apply x_set_n_never.
  - apply on_grid_never. intros. apply x_broadcast_never.
  - apply (on_buffer_never ct w id cs _ (fun st q => g_load_streaks ct st l q (Z.of_nat (length cs))) (fun _ => BUnit)). intros. apply x_load_never.
  - apply (on_buffer_never ct w id cs _ (fun st q => g_save_streaks ct st l q (Z.of_nat (length cs))) BBytes). intros. apply x_save_never.
Qed.

(** *** Calls that return *)
Lemma on_grid_done : forall w id g f h s' w' W' b, w_grids w id = Some g -> f (w_mem w, g) = XRet s' w' tt -> h (w_mem w, g) = Ret w' tt ->
  on_grid w id h (fun _ => BUnit) = Val (W', b) -> x_on_grid w id f = Val (W', GDone b).
Proof.
  intros w id g f h s' [m' g'] W' b Hg Hf Hh H. unfold x_on_grid. unfold on_grid in H. rewrite Hg, Hh in H. rewrite Hg, Hf.
  inversion H; subst. reflexivity.
Qed.

Lemma buffer_done : forall ms m cs (f : mem -> ptr -> xout gst unit) h w bytes, (forall m q, agrees (f m q) (h m q)) ->
  x_with_buffer ms m cs f = Ret w (false, bytes) -> with_buffer ms m cs h = Ret w bytes.
Proof.
  intros ms m cs f h w bytes Ha H. unfold x_with_buffer in H. unfold with_buffer. destruct (alloc _ _) as [m1 q].
  destruct (exec _ m1) as [m2|x]; [|discriminate]. specialize (Ha m2 q).
  destruct (f m2 q) as [s' [m3 g3] u|[m3 g3] e| |x] eqn:E; try discriminate.
  - rewrite (Ha _ _ _ eq_refl). destruct (exec _ m3) as [m4|x]; [|discriminate]. unfold run in *. destruct (free _ _ _); [|discriminate].
    inversion H; subst. reflexivity.
  - destruct e; try discriminate. destruct (exec _ m3) as [m4|x]; [|discriminate]. unfold run in H. destruct (free _ _ _); discriminate.
Qed.

(** *** When an assigning call throws *)
Lemma run_total : forall s ops m g w, run (exec ops m) (fun m' => (m', g)) tt = Ret w tt ->
  (exists s', x_run s ops m g = XRet s' w tt /\ ~ exists k, sc_ops s = Some k /\ (k < calls ops)%nat) \/
  (exists m1, x_run s ops m g = XThr (m1, g) XMember /\ exists k, sc_ops s = Some k /\ (k < calls ops)%nat).
Proof.
  intros s ops m g w H. unfold run in H. destruct (exec ops m) as [m'|f] eqn:E; [|discriminate]. inversion H; subst. unfold x_run.
  destruct (exec_x_ok _ s _ _ E) as [[s' [E1 [_ Hk]]]|[m1 [k [E1 [K1 K2]]]]]; rewrite E1; cbn [xlift].
  - left. exists s'. split; auto. intros [k [K1 K2]]. rewrite K1 in Hk. lia.
  - right. exists m1. split; auto. exists k. auto.
Qed.

Lemma calls_concat : forall k l, (forall ops, In ops l -> calls ops = k) -> calls (concat l) = (length l * k)%nat.
Proof.
  intros k. induction l as [|a l IH]; intros H; [reflexivity|]. cbn [concat length]. rewrite calls_app, IH by (intros; apply H; right; auto).
  rewrite (H a) by (left; auto). lia.
Qed.

Lemma mapR_len : forall (A B : Type) (f : A -> result B) l r, mapR f l = Val r -> length r = length l.
Proof.
  intros A B f. induction l as [|a l IH]; intros r H; cbn [mapR] in H; [inversion H; reflexivity|].
  destruct (f a); [|discriminate]. destruct (mapR f l) as [r'|] eqn:E; [|discriminate]. inversion H; subst. cbn. rewrite (IH r'); auto.
Qed.

Lemma calls_set : forall ms d cs stride x y z n a ops,
  set_instance_functor ms d cs stride x y z n a = Val ops ->
  (forall i c, 0 <= i < n -> nth_error cs (Z.to_nat (i * stride)) = Some c -> wf_cell ms c) ->
  calls ops = (Z.to_nat n * class_elements ms)%nat.
Proof.
  intros ms d cs stride x y z n a ops H Hc. unfold set_instance_functor in H.
  destruct (mapR _ (zseq n)) as [opss|] eqn:E; [|discriminate]. inversion H; subst.
  rewrite (calls_concat (class_elements ms)).
  - rewrite (mapR_len _ _ _ _ _ E), length_zseq. reflexivity.
  - intros l Hl. destruct (mapR_In _ _ _ _ _ _ E Hl) as [i [Hi F]]. apply in_zseq in Hi.
    destruct (nth_error cs (Z.to_nat (i * stride))) as [c|] eqn:En; [|discriminate]. inversion F; subst. apply calls_assign. eauto.
Qed.

Lemma x_set_row_total : forall ct s m g S cs stride f x y z n,
  wf_ct ct -> mem_ok m -> grep ct m g S -> ag_fresh S = false -> row_in S x y z n ->
  (forall i, 0 <= i < n -> nth_error cs (Z.to_nat (i * stride)) = Some (f i) /\ wf_cell (ct_ms ct) (f i)) ->
  let thr := exists k, sc_ops s = Some k /\ (k < Z.to_nat n * class_elements (ct_ms ct))%nat in
  (exists s' w', x_set_row ct s (m, g) cs stride x y z n = XRet s' w' tt /\ ~ thr) \/
  (exists w', x_set_row ct s (m, g) cs stride x y z n = XThr w' XMember /\ thr).
Proof.
  intros ct s m g S cs stride f x y z n Hct M G HF Hrow Hcs thr.
  destruct (set_row_ok ct m g S cs stride f x y z n Hct M G HF Hrow Hcs) as [m' [E _]].
  unfold x_set_row. rewrite x_callback_choose. rewrite callback_choose in E.
  destruct (choose _ _ _ _) as [e|e]; [discriminate|].
  destruct (set_instance_functor _ _ _ _ _ _ _ _ _) as [ops|] eqn:Es; [|discriminate].
  assert (HC : calls ops = (Z.to_nat n * class_elements (ct_ms ct))%nat).
  { eapply calls_set; eauto. intros i c Hi Hc. destruct (Hcs i Hi) as [A1 A2]. congruence. }
  destruct (run_total s ops m g (m', g) E) as [[s' [E1 K]]|[m1 [E1 K]]]; rewrite HC in K; [left|right]; eauto.
Qed.

Lemma calls_copy_functor : forall ms d1 a1 d2 a2 dx dy dz, 0 <= dx -> 0 <= dy -> 0 <= dz ->
  calls (copy_functor ms d1 a1 d2 a2 dx dy dz) = (Z.to_nat (dx * dy * dz) * class_elements ms)%nat.
Proof.
  intros. unfold copy_functor.
  rewrite (calls_flat _ (Z.to_nat dy * (Z.to_nat dx * class_elements ms))%nat).
  - rewrite length_zseq, !Z2Nat.inj_mul by lia. lia.
  - intros z _. rewrite (calls_flat _ (Z.to_nat dx * class_elements ms)%nat); [rewrite length_zseq; reflexivity|].
    intros y _. rewrite copy_members_canon. apply calls_copy.
Qed.

Lemma x_assign_total : forall ct s m g D o S,
  wf_ct ct -> mem_ok m -> grep ct m g D -> grep ct m o S -> (blk o <> blk g \/ blk o = 0%nat) ->
  supported (ct_sizes ct) (ag_x S) (ag_y S) (ag_z S) -> ag_x D = ag_x S -> ag_y D = ag_y S -> ag_z D = ag_z S ->
  let thr := exists k, sc_ops s = Some k /\ (k < Z.to_nat (ag_x S * ag_y S * ag_z S) * class_elements (ct_ms ct))%nat in
  (exists s' w', x_assign ct s (m, g) o = XRet s' w' tt /\ ~ thr) \/
  (exists w', x_assign ct s (m, g) o = XThr w' XMember /\ thr).
Proof.
  intros ct s m g D o S Hct M GD GS Hb Hs X Y Zz thr.
  destruct (assign_ok ct m g D o S Hct M GD GS Hb Hs) as [m' [g' [E _]]].
  pose proof GD as [DX [DY [DZ HD]]]. pose proof GS as [SX [SY [SZ HS]]].
  assert (Hnn : 0 <= ag_x S /\ 0 <= ag_y S /\ 0 <= ag_z S).
  { destruct (ag_fresh S); [lia|]. destruct HS as [e2 HSg]. destruct HSg. lia. }
  destruct (supported_choose _ _ _ _ Hs) as [e He].
  unfold g_assign, g_resize in E. unfold x_assign, x_resize.
  rewrite DX, DY, DZ, SX, SY, SZ, X, Y, Zz, !Z.eqb_refl in *. cbn [andb obind xbind] in *.
  unfold x_copy_in. rewrite (dual_choose _ ct m g o e) by (congruence || (rewrite SX, SY, SZ; auto)).
  assert (E2 : run (exec (copy_functor (ct_ms ct) (g_data o) (mkAcc e 0 0) (g_data g) (mkAcc e 0 0) (g_x g) (g_y g) (g_z g)) m)
                   (fun m' => (m', g)) tt = Ret (m', g') tt).
  { pose proof (x_copy_in_never ct (m, g) o) as N. rewrite E in N. cbn [plain] in N. unfold x_copy_in in N.
    rewrite (dual_choose _ ct m g o e) in N by (congruence || (rewrite SX, SY, SZ; auto)). rewrite x_run_never in N.
    destruct (run _ _ _) as [w u|w x|x]; cbn [plain] in N; inversion N. destruct u. reflexivity. }
  assert (HC : calls (copy_functor (ct_ms ct) (g_data o) (mkAcc e 0 0) (g_data g) (mkAcc e 0 0) (g_x g) (g_y g) (g_z g)) =
               (Z.to_nat (ag_x S * ag_y S * ag_z S) * class_elements (ct_ms ct))%nat).
  { rewrite calls_copy_functor by (rewrite ?DX, ?DY, ?DZ; lia). rewrite ?DX, ?DY, ?DZ, ?X, ?Y, ?Zz. reflexivity. }
  destruct (run_total s _ m g _ E2) as [[s' [E1 K]]|[m1 [E1 K]]]; rewrite HC in K; [left|right]; eauto.
Qed.

(** *** One call *)
Lemma row_fresh : forall S x y z n, row_in S x y z n -> 0 < n -> in_box S x y z.
Proof. intros S x y z n [_ H] Hn. specialize (H 0 ltac:(lia)). rewrite Z.add_0_r in H. exact H. Qed.

Lemma row_left : forall ct s W A op id g S cs stride f x y z n (h : sched -> gst -> xout gst unit) (p : gst -> outcome gst unit) A1,
  wf_ct ct -> winv ct W A -> w_grids W id = Some g -> A id = Some S -> ag_fresh S = false -> row_in S x y z n ->
  (forall i, 0 <= i < n -> nth_error cs (Z.to_nat (i * stride)) = Some (f i) /\ wf_cell (ct_ms ct) (f i)) ->
  (forall st, h s st = x_set_row ct s st cs stride x y z n) -> (forall s w, agrees (h s w) (p w)) ->
  x_wstep ct W s op = x_on_grid W id (h s) -> wstep ct W op = on_grid W id p (fun _ => BUnit) ->
  astep ct A op A1 BUnit -> interruptible A op -> cells_assigned A op = Z.to_nat n ->
  (forall S', recelled S S' ->
    (forall x' y' z', in_box S x' y' z' ->
      if in_row x y z n x' y' z' then mixed (ct_ms ct) (ag_cells S x' y' z') (f (x' - x)) (ag_cells S' x' y' z')
      else ag_cells S' x' y' z' = ag_cells S x' y' z') -> gleft (ct_ms ct) A op (fset A id (Some S')) []) ->
  exists W' A' b, x_wstep ct W s op = Val (W', b) /\ gstep ct A s op A' b /\ winv ct W' A'.
Proof.
  intros ct s W A op id g S cs stride f x y z n h p A1 Hct I Hg HA HF Hrow Hcs Hh Hag E1 E2 Hst Hint Hca Hleft.
  pose proof (wi_ok _ _ _ I) as M. destruct (winv_rep _ _ _ _ _ I Hg) as [S0 [HA0 G]]. assert (S0 = S) by congruence. subst S0.
  destruct (x_set_row_total ct s (w_mem W) g S cs stride f x y z n Hct M G HF Hrow Hcs) as [[s' [w' [E K]]]|[w' [E K]]].
  - destruct (step_sim ct W A op A1 BUnit Hct I Hst) as [W' [Ew I']].
    exists W', A1, (GDone BUnit). split; [|split; auto].
    + rewrite E1. rewrite E2 in Ew. rewrite <- Hh in E. eapply on_grid_done; eauto. exact (Hag _ _ _ _ _ E).
    + apply gs_done; auto. unfold gthrows. rewrite Hca. exact K.
  - destruct (set_row_throws ct s W A id g S cs stride f x y z n w' XMember) as [_ [Hs [S' [I' [HX [HY [HZ HM]]]]]]]; auto.
    destruct w' as [m' g']. cbn [fst snd] in *. subst g'.
    assert (I2 : winv ct (mkW m' (fset (w_grids W) id (Some g))) (fset A id (Some S'))).
    { pose proof (wi_rep _ _ _ I' id) as R. rewrite fset_same in R. cbn [w_grids w_mem] in R. rewrite Hg in R.
      constructor; cbn [w_mem w_grids]; [exact (wi_ok _ _ _ I')| | |].
      - intros j. rewrite (fset_id _ (w_grids W) id (Some g) Hg). apply (wi_rep _ _ _ I' j).
      - intros i j ga gb Hij. rewrite !(fset_id _ (w_grids W) id (Some g) Hg). apply (wi_sep _ _ _ I' i j ga gb Hij).
      - intros b k Hb. destruct (wi_leak _ _ _ I' b k Hb) as [i [g0 [H1 H2]]]. exists i, g0. rewrite (fset_id _ (w_grids W) id (Some g) Hg). auto. }
    exists (mkW m' (fset (w_grids W) id (Some g))), (fset A id (Some S')), (GCaught []). split; [|split; auto].
    + rewrite E1. unfold x_on_grid. rewrite Hg, Hh, E. reflexivity.
    + apply gs_caught; auto; [unfold gthrows; rewrite Hca; exact K|]. apply Hleft; auto.
      assert (Hn : 0 < n) by (destruct K as [k [_ K]]; destruct (Z.ltb_spec 0 n); auto; replace (Z.to_nat n) with 0%nat in K by lia; lia).
      pose proof (row_fresh _ _ _ _ _ Hrow Hn) as Hb.
      destruct (winv_grid _ _ _ id S' I2) as [g2 [_ G2]]; [apply fset_same|].
      split; [auto|]. split; [auto|]. split; [auto|]. rewrite HF. apply (nonfresh _ _ _ _ x y z G2).
      unfold in_box in *. rewrite HX, HY, HZ. exact Hb.
Qed.

Lemma x_step_ok : forall ct s W A op A1 b1,
  wf_ct ct -> winv ct W A -> astep ct A op A1 b1 -> (s = never \/ interruptible A op) ->
  exists W' A' b, x_wstep ct W s op = Val (W', b) /\ gstep ct A s op A' b /\ winv ct W' A'.
Proof.
  intros ct s W A op A1 b1 Hct I Hst [->|Hint].
  { destruct (step_sim ct W A op A1 b1 Hct I Hst) as [W' [E I']]. exists W', A1, (GDone b1). rewrite never_step, E.
    split; [reflexivity|]. split; auto. apply gs_never; auto. }
  pose proof (wi_ok _ _ _ I) as M.
  destruct op; cbn [interruptible] in Hint; try contradiction.
  - (* assign *)
    destruct Hint as [Hne Hdim]. inversion Hst; subst; [|contradiction].
    match goal with H1 : A src = Some _, H2 : A id = Some _, H3 : supported _ _ _ _ |- _ => rename H1 into HS, H2 into HD, H3 into Hsup end. rewrite HD, HS in Hdim. destruct Hdim as [X [Y Zz]].
    destruct (winv_grid _ _ _ _ _ I HD) as [g [Hg GD]]. destruct (winv_grid _ _ _ _ _ I HS) as [o [Ho GS]].
    assert (Hint' : interruptible A (OAssign id src)) by (cbn [interruptible]; rewrite HD, HS; auto).
    assert (Hca : forall k, (k < cells_assigned A (OAssign id src) * class_elements (ct_ms ct))%nat <-> (k < Z.to_nat (ag_x S * ag_y S * ag_z S) * class_elements (ct_ms ct))%nat)
      by (intros k; cbn [cells_assigned]; rewrite HS; tauto).
    assert (Hnb : Nat.eqb id src = false) by (apply Nat.eqb_neq; auto).
    destruct (x_assign_total ct s (w_mem W) g D o S Hct M GD GS) as [[s' [w' [E K]]]|[w' [E K]]]; auto.
    { eapply (wi_sep _ _ _ I src id); eauto. }
    + destruct (step_sim ct W A _ _ _ Hct I Hst) as [W' [Ew I']]. eexists W', _, (GDone BUnit). split; [|split; [|exact I']].
      * cbn [x_wstep]. cbn [wstep] in Ew. rewrite Hnb, Ho in *. eapply on_grid_done; eauto.
        exact (assign_agrees _ _ _ _ _ _ _ E).
      * apply gs_done; auto. intros [k [K1 K2]]. apply K. exists k. split; auto. apply Hca; auto.
    + destruct (assign_copy_throws ct s W A id g D src o S s (w_mem W, g) w' XMember) as [_ [S' [I' [HX [HY [HZ HM]]]]]]; auto.
      { unfold x_resize. pose proof GD as [DX [DY [DZ _]]]. pose proof GS as [SX [SY [SZ _]]].
        rewrite DX, DY, DZ, SX, SY, SZ, X, Y, Zz, !Z.eqb_refl. reflexivity. }
      { unfold x_assign, x_resize in E. pose proof GD as [DX [DY [DZ _]]]. pose proof GS as [SX [SY [SZ _]]].
        rewrite DX, DY, DZ, SX, SY, SZ, X, Y, Zz, !Z.eqb_refl in E. exact E. }
      destruct w' as [m' g']. cbn [fst snd] in *.
      eexists _, (fset A id (Some S')), (GCaught []). split; [|split; [|exact I']].
      * cbn [x_wstep]. rewrite Hnb, Ho. unfold x_on_grid. rewrite Hg, E. reflexivity.
      * apply gs_caught; auto.
        { destruct K as [k [K1 K2]]. exists k. split; auto. apply Hca; auto. }
        assert (Hpos : 0 < ag_x S * ag_y S * ag_z S) by (destruct K as [k [_ K]]; destruct (Z.ltb_spec 0 (ag_x S * ag_y S * ag_z S)); auto;
          replace (Z.to_nat (ag_x S * ag_y S * ag_z S)) with 0%nat in K by lia; lia).
        assert (Hnn : 0 <= ag_x S /\ 0 <= ag_y S /\ 0 <= ag_z S).
        { pose proof GS as [SX [SY [SZ HSg]]]. destruct (ag_fresh S); [lia|]. destruct HSg as [e2 HSg]. destruct HSg. lia. }
        assert (Hb : 0 < ag_x S /\ 0 < ag_y S /\ 0 < ag_z S) by nia.
        destruct (winv_grid _ _ _ id S' I') as [g2 [_ G2]]; [apply fset_same|].
        apply (gl_assign _ _ id src D S S'); auto.
        { split; [congruence|]. split; [congruence|]. split; [congruence|].
          rewrite (nonfresh _ _ _ _ 0 0 0 G2), (nonfresh _ _ _ _ 0 0 0 GD); auto; unfold in_box; lia. }
        intros x y z Hin. rewrite X, Y, Zz, !Z.eqb_refl in HM. apply HM. unfold in_box in *. rewrite <- X, <- Y, <- Zz. exact Hin.
  - (* set *)
    inversion Hst; subst. match goal with H : A id = Some _ |- _ => rename H into HA end. destruct (winv_grid _ _ _ _ _ I HA) as [g [Hg G]].
    eapply (row_left ct s W A (OSet id x y z c) id g S [c] 1 (fun _ => c) x y z 1 (fun s st => x_set ct s st x y z c) (fun st => g_set ct st x y z c)); eauto.
    + eapply nonfresh; eauto.
    + split; [lia|]. intros i Hi. replace (x + i) with x by lia. assumption.
    + intros i Hi. replace i with 0 by lia. auto.
    + intros s0 [m0 g0]. apply (set_row_agrees ct s0 m0 g0 [c] 1 x y z 1).
    + intros S' R HM. apply (gl_row _ _ _ id x y z 1 (fun _ => c) S S'); auto.
  - (* set, array *)
    inversion Hst; subst. match goal with H : A id = Some _, H' : Forall _ cs |- _ => rename H into HA, H' into Hcs end. destruct (winv_grid _ _ _ _ _ I HA) as [g [Hg G]].
    eapply (row_left ct s W A (OSetN id x y z cs) id g S cs 1 (fun i => nth (Z.to_nat i) cs []) x y z (Z.of_nat (length cs))
      (fun s st => x_set_n ct s st x y z cs (Z.of_nat (length cs))) (fun st => g_set_n ct st x y z cs (Z.of_nat (length cs)))); eauto.
    + intros i Hi. rewrite Z.mul_1_r. split; [apply nth_error_nth'; lia|]. rewrite Forall_forall in Hcs. apply Hcs. apply nth_In. lia.
    + intros s0 [m0 g0]. apply (set_row_agrees ct s0 m0 g0 cs 1 x y z).
    + cbn [cells_assigned]. lia.
    + intros S' R HM. apply (gl_row _ _ _ id x y z (Z.of_nat (length cs)) (fun i => nth (Z.to_nat i) cs []) S S'); auto.
  - (* broadcast *)
    inversion Hst; subst. match goal with H : A id = Some _ |- _ => rename H into HA end. destruct (winv_grid _ _ _ _ _ I HA) as [g [Hg G]].
    eapply (row_left ct s W A (OBroadcast id x y z c n) id g S [c] 0 (fun _ => c) x y z n (fun s st => x_broadcast ct s st x y z c n) (fun st => g_broadcast ct st x y z c n)); eauto.
    + intros i Hi. rewrite Z.mul_0_r. auto.
    + intros s0 [m0 g0]. apply (set_row_agrees ct s0 m0 g0 [c] 0 x y z).
    + intros S' R HM. apply (gl_row _ _ _ id x y z n (fun _ => c) S S'); auto.
  - (* load *)
    inversion Hst; subst. match goal with H : A id = Some _, H1 : ag_fresh _ = false, H2 : Forall _ l, H3 : NoDup _, H4 : (_ <= _)%nat, H5 : Forall _ cs |- _ =>
      rename H into HA, H1 into HF, H2 into Hl, H3 into Hnd, H4 into Hlen, H5 into Hcs end.
    destruct (winv_grid _ _ _ _ _ I HA) as [g [Hg G]]. destruct (grep_alloc _ _ _ _ G HF) as [e GA].
    assert (HD : forall x y z, In (x, y, z) (streak_coords l) -> in_dims (g_x g) (g_y g) (g_z g) x y z).
    { intros x y z Hin. eapply dims_box; eauto. eapply streak_in; eauto. }
    destruct (x_with_buffer_ok ct (w_mem W) g e (ag_cells S) cs
       (fun m q => x_load_streaks ct s (m, g) l q (Z.of_nat (length cs)))
       (fun b cells' cs' => cs' = cs /\ (b = true <-> exists k, sc_ops s = Some k /\ (k < length (streak_coords l) * class_elements (ct_ms ct))%nat) /\
          forall x y z, in_dims (g_x g) (g_y g) (g_z g) x y z ->
            match the_new (streak_coords l) cs x y z with
            | None => cells' x y z = ag_cells S x y z
            | Some c => if b then mixed (ct_ms ct) (ag_cells S x y z) c (cells' x y z) else cells' x y z = c
            end)) as [m' [b [cells' [cs' [E [F [G' [-> [HB HC]]]]]]]]]; auto.
    { intros m2 q M2 G2 Hq R2.
      destruct (x_load_cases ct s m2 g e (ag_cells S) q cs l) as [m3 [cells' [b [E3 [SO3 [G3 [HB HC]]]]]]]; auto.
      - eapply row_nonneg; eauto.
      - exists m3, (blk g), b, cells', cs. split; auto. split; auto. split; auto. split; [split; auto|]. split; auto. split; auto.
        eapply region_frame; eauto; [destruct SO3 as [_ [SO3 _]]; apply SO3| |]; destruct SO3 as [_ [_ [SV SL]]]; intros; [apply SV|apply SL]; auto. }
    destruct b.
    + set (S' := mkAG (ag_x S) (ag_y S) (ag_z S) false cells').
      exists (mkW m' (fset (w_grids W) id (Some g))), (fset A id (Some S')), (GCaught (pack (ct_ms ct) cs)). split; [|split].
      * cbn [x_wstep]. unfold x_on_buffer. rewrite Hg, E. reflexivity.
      * apply gs_caught; [exact Logic.I|apply HB; reflexivity|]. apply (gl_load _ _ id l cs S S'); auto.
        -- split; [auto|]. split; [auto|]. split; [auto|]. cbn. auto.
        -- intros x y z Hb Hni. specialize (HC x y z (proj1 (dims_box _ _ _ _ _ _ _ G) Hb)).
           destruct (the_new (streak_coords l) cs x y z) eqn:En; auto. apply the_new_some in En. tauto.
        -- intros k x y z c K1 K2. specialize (HC x y z (HD x y z (nth_error_In _ _ K1))).
           rewrite (the_new_nth _ _ _ _ _ _ _ Hnd K1 K2) in HC. exact HC.
      * eapply winv_update; eauto; [rewrite Hg; exact F|].
        destruct G as [X [Y [Zz _]]]. split; [exact X|]. split; [exact Y|]. split; [exact Zz|]. cbn [S' ag_fresh ag_cells]. eauto.
    + destruct (step_sim ct W A _ _ _ Hct I Hst) as [W' [Ew I']]. eexists W', _, (GDone BUnit). split; [|split; [|exact I']].
      * cbn [x_wstep]. unfold x_on_buffer. rewrite Hg, E. cbn [wstep] in Ew. unfold on_grid in Ew. rewrite Hg in Ew. cbn [fst snd] in Ew.
        rewrite (buffer_done _ _ _ _ (fun m q => g_load_streaks ct (m, g) l q (Z.of_nat (length cs))) _ _ (fun m q => load_agrees ct s (m, g) l q _) E) in Ew.
        inversion Ew; subst. reflexivity.
      * apply gs_done; [exact Logic.I| |exact Hst]. intros K. apply HB in K. discriminate.
  - (* save *)
    inversion Hst; subst. match goal with H : _ id = Some _, H1 : ag_fresh _ = false, H2 : Forall _ l, H4 : (_ <= _)%nat, H5 : Forall _ cs |- _ =>
      rename H into HA, H1 into HF, H2 into Hl, H4 into Hlen, H5 into Hcs end.
    match goal with H : ?B id = Some _ |- _ => rename B into A0 end.
    destruct (winv_grid _ _ _ _ _ I HA) as [g [Hg G]]. destruct (grep_alloc _ _ _ _ G HF) as [e GA].
    set (vs := map (fun '(x, y, z) => ag_cells S x y z) (streak_coords l)).
    assert (Hvl : length vs = length (streak_coords l)) by apply map_length.
    destruct (x_with_buffer_ok ct (w_mem W) g e (ag_cells S) cs
       (fun m q => x_save_streaks ct s (m, g) l q (Z.of_nat (length cs)))
       (fun b cells' cs' => cells' = ag_cells S /\ (b = true <-> exists k, sc_ops s = Some k /\ (k < length (streak_coords l) * class_elements (ct_ms ct))%nat) /\
          length cs' = length cs /\ (if b : bool then patched (ct_ms ct) cs 0 vs cs' else True)))
       as [m' [b [cells' [cs' [E [F [G' [-> [HB [HL HC]]]]]]]]]]; auto.
    { intros m2 q M2 G2 Hq R2.
      destruct (x_save_cases ct s m2 g e (ag_cells S) q cs l) as [m3 [cs' [b [E3 [SO3 [R3 [HB HC]]]]]]]; auto.
      - intros x y z Hin. eapply dims_box; eauto. eapply streak_in; eauto.
      - eapply row_nonneg; eauto.
      - assert (HL : length cs' = length cs).
        { destruct b; [apply HC|]. fold vs in HC. rewrite HC, app_length, skipn_length. lia. }
        exists m3, (pb q), b, (ag_cells S), cs'. split; auto. split; auto. split; auto. split; [|split; [|split]]; auto.
        + split; auto. split; auto. split; auto. destruct b; auto.
        + apply (galloc_frame ct m2 m3 g e (ag_cells S) (pb q) (pb q)); auto. apply same_other_frame; auto. }
    destruct b.
    + exists (mkW m' (fset (w_grids W) id (Some g))), A0, (GCaught (pack (ct_ms ct) cs')). split; [|split].
      * cbn [x_wstep]. unfold x_on_buffer. rewrite Hg, E. reflexivity.
      * apply gs_caught; [exact Logic.I|apply HB; reflexivity|]. apply (gl_save _ _ id l cs S cs'); auto.
        intros k old c K1 K2. destruct HC as [_ HC]. specialize (HC k old c K1 K2). cbn [Nat.leb andb] in HC. rewrite Nat.sub_0_r in HC. cbn [plus] in HC.
        destruct (nth_error (streak_coords l) k) as [[[x y] z]|] eqn:Ek.
        -- assert (Hk : (k < length vs)%nat) by (rewrite Hvl; apply nth_error_Some; congruence).
           replace (Nat.ltb k (length vs)) with true in HC by (symmetry; apply Nat.ltb_lt; exact Hk).
           rewrite (nth_error_nth vs k [] (x := ag_cells S x y z)) in HC by (unfold vs; rewrite nth_error_map, Ek; reflexivity). exact HC.
        -- apply nth_error_None in Ek. replace (Nat.ltb k (length vs)) with false in HC by (symmetry; apply Nat.ltb_ge; lia). exact HC.
      * eapply winv_ext; [apply (fset_id _ A0 id (Some S) HA)|]. eapply winv_update; eauto; [rewrite Hg; exact F|].
        destruct G as [X [Y [Zz _]]]. split; [exact X|]. split; [exact Y|]. split; [exact Zz|]. rewrite HF. eauto.
    + destruct (step_sim ct W A0 _ _ _ Hct I Hst) as [W' [Ew I']]. eexists W', _, (GDone _). split; [|split; [|exact I']].
      * cbn [x_wstep]. unfold x_on_buffer. rewrite Hg, E. cbn [wstep] in Ew. unfold on_grid in Ew. rewrite Hg in Ew. cbn [fst snd] in Ew.
        rewrite (buffer_done _ _ _ _ (fun m q => g_save_streaks ct (m, g) l q (Z.of_nat (length cs))) _ _ (fun m q => save_agrees ct s (m, g) l q _) E) in Ew.
        inversion Ew; subst. reflexivity.
      * assert (Eb : pack (ct_ms ct) cs' = pack (ct_ms ct) (map (fun '(x, y, z) => ag_cells S x y z) (streak_coords l) ++ skipn (length (streak_coords l)) cs)).
        { cbn [wstep] in Ew. unfold on_grid in Ew. rewrite Hg in Ew. cbn [fst snd] in Ew.
          rewrite (buffer_done _ _ _ _ (fun m q => g_save_streaks ct (m, g) l q (Z.of_nat (length cs))) _ _ (fun m q => save_agrees ct s (m, g) l q _) E) in Ew.
          inversion Ew. auto. }
        rewrite Eb. apply gs_done; [exact Logic.I| |exact Hst]. intros K. apply HB in K. discriminate.
Qed.

(** *** Programs *)
Lemma x_wrun_ok : forall ct ops W A, wf_ct ct -> winv ct W A -> glegal ct A ops ->
  exists W' A' bs, x_wrun ct W ops = Val (W', bs) /\ grun ct A ops A' bs /\ winv ct W' A'.
Proof.
  intros ct. induction ops as [|[s op] ops IH]; intros W A Hct I L.
  - exists W, A, []. split; [reflexivity|]. split; [constructor|auto].
  - destruct L as [[A1 [b1 Hst]] [Hs HL]]. destruct (x_step_ok ct s W A op A1 b1 Hct I Hst Hs) as [W1 [A2 [b [E [Hg I1]]]]].
    destruct (IH W1 A2 Hct I1 (HL _ _ Hg)) as [W2 [A3 [bs [E2 [R I2]]]]].
    exists W2, A3, (b :: bs). cbn [x_wrun]. rewrite E, E2. split; [reflexivity|]. split; auto. econstructor; eauto.
Qed.
