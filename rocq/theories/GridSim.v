(** Constructors, assignment, and the simulation of whole histories. *)
From Coq Require Import ZArith List Lia Bool.
From Verif Require Import Base Layout LayoutProofs Sizes SizesProofs Mem MemProofs
  Accessor AccessorProofs RegionProofs Grid SpecGrid GridProofs GridInv BufferProofs GridOps.
Import ListNotations.
Open Scope Z_scope.

Lemma grep_lt : forall ct m g A, mem_ok m -> grep ct m g A -> (blk g < mnext m)%nat.
Proof.
  intros ct m g A M [_ [_ [_ H]]]. destruct (ag_fresh A).
  - destruct H as [_ [_ [_ H]]]. unfold blk. rewrite H. simpl. destruct M; lia.
  - destruct H as [e H]. eapply galloc_lt; eauto.
Qed.

Lemma grep_fresh_blk : forall ct m g A, grep ct m g A -> (ag_fresh A = true <-> blk g = 0%nat).
Proof.
  intros ct m g A [_ [_ [_ H]]]. destruct (ag_fresh A).
  - destruct H as [_ [_ [_ H]]]. unfold blk. rewrite H. simpl. tauto.
  - destruct H as [e H]. destruct H. split; [discriminate|congruence].
Qed.

Lemma grep_alloc : forall ct m g A, grep ct m g A -> ag_fresh A = false -> exists e, galloc ct m g e (ag_cells A).
Proof. intros ct m g A [_ [_ [_ H]]] E. rewrite E in H. auto. Qed.

(** *** soa_grid(x, y, z) *)
Lemma new_ok : forall ct m x y z,
  wf_ct ct -> mem_ok m -> 0 <= x -> 0 <= y -> 0 <= z -> (x, y, z) <> (0, 0, 0) -> supported (ct_sizes ct) x y z ->
  exists m' g, g_new ct m x y z = Ret (m', g) tt /\ gframe m 0 m' (blk g) /\ grep ct m' g (new_grid (ct_ms ct) x y z).
Proof.
  intros ct m x y z Hct M X Y Zz Hne Hs. unfold g_new, g_resize. cbn [g_x g_y g_z].
  assert ((0 =? x) && (0 =? y) && (0 =? z) = false) as ->.
  { destruct (Z.eqb_spec 0 x); destruct (Z.eqb_spec 0 y); destruct (Z.eqb_spec 0 z); auto. subst. congruence. }
  destruct (resize_to_ok ct m (mkGrid 0 0 0 None None None None null) (mkAG 0 0 0 true (fun _ _ _ => []))
     x y z) as [m' [g' [E [F [G _]]]]]; auto.
  { apply fresh_rep. }
  exists m', g'. split; auto.
Qed.

Lemma new_rejected : forall ct m x y z,
  (x, y, z) <> (0, 0, 0) -> ~ supported (ct_sizes ct) x y z ->
  exists g, g_new ct m x y z = Thr (m, g) OutOfRange.
Proof.
  intros ct m x y z Hne Hs. unfold g_new, g_resize. cbn [g_x g_y g_z].
  assert ((0 =? x) && (0 =? y) && (0 =? z) = false) as ->.
  { destruct (Z.eqb_spec 0 x); destruct (Z.eqb_spec 0 y); destruct (Z.eqb_spec 0 z); auto. subst. congruence. }
  unfold resize_to, destroy_and_deallocate. cbn [g_data is_null null pb po Nat.eqb Z.eqb andb obind].
  destruct (choose (ct_sizes ct) x y z) as [er|e] eqn:E.
  - rewrite (callback_thr _ _ _ _ _ _ er) by exact E. pose proof (choose_error _ _ _ _ _ E). subst er.
    simpl. eauto.
  - exfalso. apply Hs. apply choose_supported. eauto.
Qed.

(** *** soa_grid(const soa_grid&) *)
Lemma copy_ok : forall ct m o e cells,
  wf_ct ct -> mem_ok m -> galloc ct m o e cells ->
  exists m' g, g_copy ct m o = Ret (m', g) tt /\ gframe m 0 m' (blk g) /\
    g_x g = g_x o /\ g_y g = g_y o /\ g_z g = g_z o /\ galloc ct m' g e cells /\ g_ex g = None.
Proof.
  intros ct m o e cells Hct M G. pose proof (galloc_fits _ _ _ _ _ G) as F.
  unfold g_copy. rewrite (ga_bs _ _ _ _ _ G). cbn [use].
  destruct (alloc m (total (ct_ms ct) * DIM_PROD e)) as [m1 p] eqn:Ea.
  destruct (alloc_frame _ _ _ _ M Ea) as [F1 [Hp1 [Hp2 Hp3]]]. pose proof (gf_ok _ _ _ _ F1) as M1.
  set (g := mkGrid (g_x o) (g_y o) (g_z o) None None None (Some (total (ct_ms ct) * DIM_PROD e)) p).
  assert (R1 : region (ct_ms ct) m1 p (DIM_PROD e) (fun _ => None)).
  { eapply alloc_region; eauto. eapply DIM_PROD_nonneg; eauto. }
  destruct (g_init_ok ct m1 g e) as [m2 [E2 [SO2 G2]]]; auto; try (destruct G; auto; fail).
  rewrite E2. cbn [obind].
  assert (Hlt : (blk o < mnext m)%nat) by (eapply galloc_lt; eauto).
  assert (Hb0 : blk o <> 0%nat) by (destruct G; auto).
  assert (Hne : blk o <> blk g) by (unfold blk at 2; cbn [g g_data]; lia).
  pose proof (galloc_frame ct m m1 o e cells 0 (pb p) M G F1 Hb0) as O1.
  pose proof (galloc_frame ct m1 m2 o e cells (blk g) (blk g) M1 O1 (same_other_frame _ _ _ M1 SO2) Hne) as O2.
  assert (M2 : mem_ok m2) by (eapply same_other_ok; eauto).
  destruct (copy_in_ok ct m2 g e _ o cells Hct M2 G2 O2 eq_refl eq_refl eq_refl (or_introl Hne)) as [m3 [E3 [SO3 G3]]].
  exists m3, g. split; [exact E3|]. split; [|split; [auto|split; [auto|split; [auto|split; [exact G3|reflexivity]]]]].
  eapply gframe_trans; [exact F1|]. eapply gframe_trans; [apply same_other_frame; [exact M1|exact SO2]|].
  apply same_other_frame; auto.
Qed.

(** *** operator= *)
Lemma resize_same : forall ct m g, g_resize ct (m, g) (g_x g) (g_y g) (g_z g) = Ret (m, g) tt.
Proof. intros. unfold g_resize. rewrite !Z.eqb_refl. reflexivity. Qed.

Lemma assign_ok : forall ct m g D o S,
  wf_ct ct -> mem_ok m -> grep ct m g D -> grep ct m o S -> (blk o <> blk g \/ blk o = 0%nat) ->
  supported (ct_sizes ct) (ag_x S) (ag_y S) (ag_z S) ->
  exists m' g', g_assign ct (m, g) o = Ret (m', g') tt /\ gframe m (blk g) m' (blk g') /\
    grep ct m' g' (mkAG (ag_x S) (ag_y S) (ag_z S)
                     (ag_fresh D && (ag_x S =? 0) && (ag_y S =? 0) && (ag_z S =? 0)) (ag_cells S)).
Proof.
  intros ct m g D o S Hct M GD GS Hb Hs.
  destruct (supported_choose _ _ _ _ Hs) as [e He].
  pose proof GS as [SX [SY [SZ HS]]]. pose proof GD as [DX [DY [DZ HD]]].
  unfold g_assign, g_resize. rewrite SX, SY, SZ.
  destruct ((g_x g =? ag_x S) && (g_y g =? ag_y S) && (g_z g =? ag_z S)) eqn:Ed.
  - assert (Hd : g_x g = ag_x S /\ g_y g = ag_y S /\ g_z g = ag_z S) by lia. destruct Hd as [Hdx [Hdy Hdz]].
    cbn [obind]. destruct (ag_fresh D) eqn:FD.
    + destruct HD as [HX [HY [HZ HN]]]. rewrite (copy_in_empty ct m g o e) by (congruence || lia).
      exists m, g. split; auto. split; [apply gframe_refl; auto|]. rewrite <- Hdx, <- Hdy, <- Hdz, HX, HY, HZ. simpl.
      repeat split; auto; simpl; auto.
    + cbn [andb]. destruct HD as [e1 HD].
      assert (e1 = e).
      { pose proof (ga_choose _ _ _ _ _ HD) as C. rewrite Hdx, Hdy, Hdz in C. congruence. } subst e1.
      destruct (ag_fresh S) eqn:FS.
      * destruct HS as [HX [HY [HZ HN]]].
        rewrite (copy_in_empty ct m g o e) by (congruence || lia).
        exists m, g. split; auto. split; [apply gframe_refl; auto|]. repeat split; auto. simpl. exists e.
        eapply galloc_ext; [|exact HD]. intros x y z [I _]. lia.
      * destruct HS as [e2 HS]. assert (e2 = e) by (pose proof (ga_choose _ _ _ _ _ HS) as C; rewrite SX, SY, SZ in C; congruence). subst e2.
        assert (blk o <> 0%nat) by (destruct HS; auto).
        destruct (copy_in_ok ct m g e (ag_cells D) o (ag_cells S)) as [m' [E [SO G]]]; auto; try congruence; [tauto|].
        exists m', g. split; auto. split; [apply same_other_frame; auto|]. repeat split; auto. simpl. eauto.
  - assert (Hnn : 0 <= ag_x S /\ 0 <= ag_y S /\ 0 <= ag_z S).
    { destruct (ag_fresh S). lia. destruct HS as [e2 HS]. destruct HS. lia. }
    destruct (resize_to_ok ct m g D (ag_x S) (ag_y S) (ag_z S)) as [m1 [g1 [E1 [F1 [G1 _]]]]]; auto; try lia.
    rewrite E1. cbn [obind]. pose proof (gf_ok _ _ _ _ F1) as M1.
    pose proof G1 as [X1 [Y1 [Z1 [e1 H1]]]]. cbn [new_grid ag_x ag_y ag_z ag_cells] in *.
    assert (e1 = e) by (pose proof (ga_choose _ _ _ _ _ H1) as C; rewrite X1, Y1, Z1 in C; congruence). subst e1.
    assert (Hfl : ag_fresh D && (ag_x S =? 0) && (ag_y S =? 0) && (ag_z S =? 0) = false).
    { destruct (ag_fresh D); auto. lia. }
    rewrite Hfl.
    destruct (ag_fresh S) eqn:FS.
    + destruct HS as [HX [HY [HZ HN]]]. rewrite (copy_in_empty ct m1 g1 o e) by (congruence || lia).
      exists m1, g1. split; auto. split; auto. repeat split; auto. simpl. exists e.
      eapply galloc_ext; [|exact H1]. intros x y z [I _]. lia.
    + destruct HS as [e2 HS]. assert (e2 = e) by (pose proof (ga_choose _ _ _ _ _ HS) as C; rewrite SX, SY, SZ in C; congruence). subst e2.
      assert (Hb0 : blk o <> 0%nat) by (destruct HS; auto). assert (Hob : blk o <> blk g) by tauto.
      pose proof (galloc_frame ct m m1 o e (ag_cells S) (blk g) (blk g1) M HS F1 Hob) as O1.
      assert (Hne : blk o <> blk g1).
      { pose proof (galloc_lt _ _ _ _ _ M HS). assert (blk g1 <> 0%nat) by (destruct H1; auto). destruct (gf_new _ _ _ _ F1) as [->|[Hz|Hz]]; auto; lia. }
      destruct (copy_in_ok ct m1 g1 e _ o (ag_cells S) Hct M1 H1 O1) as [m' [E [SO G]]]; auto; try congruence.
      exists m', g1. split; auto. split; [|repeat split; auto; simpl; eauto].
      eapply gframe_trans; [exact F1|]. apply same_other_frame; auto.
Qed.

Lemma assign_self_ok : forall ct m g D,
  wf_ct ct -> mem_ok m -> grep ct m g D -> supported (ct_sizes ct) (ag_x D) (ag_y D) (ag_z D) ->
  exists m', g_assign_self ct (m, g) = Ret (m', g) tt /\ gframe m (blk g) m' (blk g) /\ grep ct m' g D.
Proof.
  intros ct m g D Hct M G Hs. destruct (supported_choose _ _ _ _ Hs) as [e He].
  unfold g_assign_self. cbn [snd]. rewrite resize_same. cbn [obind snd].
  pose proof G as [X [Y [Zz H]]]. destruct (ag_fresh D) eqn:FD.
  - destruct H as [HX [HY [HZ HN]]]. rewrite (copy_in_empty ct m g g e) by (congruence || lia).
    exists m. split; auto. split; auto. apply gframe_refl; auto.
  - destruct H as [e' H]. destruct (copy_in_ok ct m g e' (ag_cells D) g (ag_cells D)) as [m' [E [SO G']]]; auto.
    exists m'. split; auto. split; [apply same_other_frame; auto|]. repeat split; auto. rewrite FD. eauto.
Qed.

(** *** set / broadcast, as members *)
Lemma dims_box : forall ct m g A x y z, grep ct m g A ->
  (in_box A x y z <-> in_dims (g_x g) (g_y g) (g_z g) x y z).
Proof. intros ct m g A x y z [X [Y [Zz _]]]. unfold in_box, in_dims. rewrite X, Y, Zz. tauto. Qed.

Lemma nonfresh : forall ct m g A x y z, grep ct m g A -> in_box A x y z -> ag_fresh A = false.
Proof.
  intros ct m g A x y z [X [Y [Zz H]]] [I _]. destruct (ag_fresh A); auto. lia.
Qed.

Lemma set_row_ok : forall ct m g A (cs : list cell) stride f x y z n,
  wf_ct ct -> mem_ok m -> grep ct m g A -> ag_fresh A = false -> row_in A x y z n ->
  (forall i, 0 <= i < n -> nth_error cs (Z.to_nat (i * stride)) = Some (f i) /\ wf_cell (ct_ms ct) (f i)) ->
  exists m',
    callback ct (m, g) g (fun d a =>
      match set_instance_functor (ct_ms ct) d cs stride x y z n a with
      | Fault f => Flt f
      | Val ops => run (exec ops m) (fun m' => (m', g)) tt
      end) = Ret (m', g) tt /\ gframe m (blk g) m' (blk g) /\ grep ct m' g (put_row A x y z n f).
Proof.
  intros ct m g A cs stride f x y z n Hct M G HF [Hn Hrow] Hcs.
  destruct (grep_alloc _ _ _ _ G HF) as [e GA]. rewrite (callback_ok _ _ _ _ _ _ e) by (destruct GA; auto).
  destruct (set_ok ct m g e (ag_cells A) cs stride x y z n Hct M GA) as [ops [m' [E1 [E2 [SO GA']]]]].
  { intros i Hi. eapply dims_box; eauto. }
  { intros i Hi. exists (f i). auto. }
  rewrite E1, E2. cbn [run]. exists m'. split; auto. split; [apply same_other_frame; auto|].
  destruct G as [X [Y [Zz _]]]. repeat split; auto. cbn [put_row ag_fresh ag_cells]. rewrite HF. exists e.
  eapply galloc_ext; [|exact GA']. intros x' y' z' _. cbn beta.
  destruct ((y' =? y) && (z' =? z) && (x <=? x') && (x' <? x + n)) eqn:Eb; auto.
  apply nth_error_nth. apply Hcs. lia.
Qed.

(** *** Worlds *)
Record winv (ct : celltype) (W : world) (A : aworld) : Prop := {
  wi_ok : mem_ok (w_mem W);
  wi_rep : forall id, match w_grids W id, A id with
                      | Some g, Some a => grep ct (w_mem W) g a
                      | None, None => True
                      | _, _ => False end;
  wi_sep : forall i j ga gb, i <> j -> w_grids W i = Some ga -> w_grids W j = Some gb ->
             blk ga <> blk gb \/ blk ga = 0%nat;
  wi_leak : forall b n, msize (w_mem W) b = Some n -> exists i g, w_grids W i = Some g /\ blk g = b }.

Lemma fset_same : forall (A : Type) (f : nat -> option A) i v, fset f i v i = v.
Proof. intros. unfold fset. rewrite Nat.eqb_refl. reflexivity. Qed.
Lemma fset_other : forall (A : Type) (f : nat -> option A) i v j, j <> i -> fset f i v j = f j.
Proof. intros. unfold fset. destruct (Nat.eqb_spec j i); [contradiction|auto]. Qed.

Lemma winv_grid : forall ct W A id a, winv ct W A -> A id = Some a ->
  exists g, w_grids W id = Some g /\ grep ct (w_mem W) g a.
Proof.
  intros ct W A id a I H. pose proof (wi_rep _ _ _ I id) as R. rewrite H in R.
  destruct (w_grids W id) as [g|]; [|contradiction]. eauto.
Qed.

Lemma winv_none : forall ct W A id, winv ct W A -> A id = None -> w_grids W id = None.
Proof.
  intros ct W A id I H. pose proof (wi_rep _ _ _ I id) as R. rewrite H in R. destruct (w_grids W id); [contradiction|auto].
Qed.

Definition oblk (og : option grid) : nat := match og with Some g => blk g | None => 0%nat end.

Lemma winv_update : forall ct W A id m' og' oa',
  winv ct W A -> gframe (w_mem W) (oblk (w_grids W id)) m' (oblk og') ->
  match og', oa' with Some g, Some a => grep ct m' g a | None, None => True | _, _ => False end ->
  winv ct (mkW m' (fset (w_grids W) id og')) (fset A id oa').
Proof.
  intros ct W A id m' og' oa' I F H. destruct I as [I1 I2 I3 I4].
  assert (Hoth : forall j g a, j <> id -> w_grids W j = Some g -> A j = Some a -> blk g <> oblk (w_grids W id) \/ blk g = 0%nat).
  { intros j g a Hj Hg Ha. destruct (w_grids W id) as [g0|] eqn:E0; simpl.
    - eapply I3; eauto.
    - destruct (blk g); auto. }
  constructor; cbn [w_mem w_grids].
  - apply (gf_ok _ _ _ _ F).
  - intros j. destruct (Nat.eq_dec j id) as [->|Hj]; [rewrite !fset_same; auto|]. rewrite !fset_other by auto.
    specialize (I2 j). destruct (w_grids W j) as [g|] eqn:Eg; destruct (A j) as [a|] eqn:Ea; auto.
    eapply grep_frame; eauto.
  - intros i j ga gb Hij Hi Hj.
    assert (Hlt : forall k g, w_grids W k = Some g -> (blk g < mnext (w_mem W))%nat).
    { intros k g Hk. specialize (I2 k). rewrite Hk in I2. destruct (A k); [|contradiction]. eapply grep_lt; eauto. }
    destruct (Nat.eq_dec i id) as [->|Hi']; destruct (Nat.eq_dec j id) as [->|Hj']; try congruence.
    + rewrite fset_same in Hi. rewrite fset_other in Hj by auto. subst og'. simpl in F.
      pose proof (Hlt _ _ Hj). destruct (gf_new _ _ _ _ F) as [E|[E|E]]; auto; [|left; lia].
      rewrite E. destruct (w_grids W id) as [g0|] eqn:E0; simpl; auto. apply (I3 id j); auto.
    + rewrite fset_same in Hj. rewrite fset_other in Hi by auto. subst og'. simpl in F.
      pose proof (Hlt _ _ Hi). destruct (gf_new _ _ _ _ F) as [E|[E|E]]; [| |left; lia].
      * rewrite E. pose proof (I2 i) as R. rewrite Hi in R. destruct (A i) eqn:EA; [|contradiction]. eapply Hoth; eauto.
      * rewrite E. destruct (blk ga); auto.
    + rewrite fset_other in Hi, Hj by auto. apply (I3 i j); auto.
  - intros b n Hb. destruct (gf_leak _ _ _ _ F b n Hb) as [->|[Hne Hs]].
    + destruct og' as [g|]; simpl in *.
      * exists id, g. rewrite fset_same. auto.
      * destruct (gf_ok _ _ _ _ F) as [_ [Z0' _]]. congruence.
    + destruct (I4 b n Hs) as [i [g [Hi Hg]]]. exists i, g. split; auto. rewrite fset_other; auto.
      intros ->. rewrite Hi in Hne. simpl in Hne. congruence.
Qed.

Lemma winv_ext : forall ct W A A', (forall i, A i = A' i) -> winv ct W A -> winv ct W A'.
Proof.
  intros ct W A A' H I. destruct I as [I1 I2 I3 I4]. constructor; auto. intros id. rewrite <- H. apply I2.
Qed.

Lemma fset_id : forall (A : Type) (f : nat -> option A) i v, f i = v -> forall j, fset f i v j = f j.
Proof. intros A f i v H j. unfold fset. destruct (Nat.eqb_spec j i); congruence. Qed.

Lemma on_grid_ok : forall (B : Type) ct W A id g g' a' m' (f : gst -> outcome gst B) (x : B) ob,
  winv ct W A -> w_grids W id = Some g -> f (w_mem W, g) = Ret (m', g') x ->
  gframe (w_mem W) (blk g) m' (blk g') -> grep ct m' g' a' ->
  exists W', on_grid W id f ob = Val (W', ob x) /\ winv ct W' (fset A id (Some a')).
Proof.
  intros B ct W A id g g' a' m' f x ob I Hg Hf F G. unfold on_grid. rewrite Hg, Hf.
  eexists. split; [reflexivity|]. eapply winv_update; eauto. rewrite Hg. exact F.
Qed.

Lemma on_grid_same : forall (B : Type) ct W A id g a m' (f : gst -> outcome gst B) (x : B) ob,
  winv ct W A -> A id = Some a -> w_grids W id = Some g -> f (w_mem W, g) = Ret (m', g) x ->
  gframe (w_mem W) (blk g) m' (blk g) -> grep ct m' g a ->
  exists W', on_grid W id f ob = Val (W', ob x) /\ winv ct W' A.
Proof.
  intros B ct W A id g a m' f x ob I Ha Hg Hf F G.
  destruct (on_grid_ok B ct W A id g g a m' f x ob I Hg Hf F G) as [W' [E I']].
  exists W'. split; auto. eapply winv_ext; [|exact I']. apply fset_id; auto.
Qed.

Lemma g_swap_eq : forall a b, g_swap a b =
  (mkGrid (g_x b) (g_y a) (g_z a) (g_ex b) (g_ey a) (g_ez a) (g_bs b) (g_data b),
   mkGrid (g_x a) (g_y b) (g_z b) (g_ex a) (g_ey b) (g_ez b) (g_bs a) (g_data a)).
Proof. intros [] []. vm_compute. reflexivity. Qed.

Lemma winv_swap : forall ct W A a b ga gb S T,
  winv ct W A -> a <> b -> w_grids W a = Some ga -> w_grids W b = Some gb -> A a = Some S -> A b = Some T ->
  grep ct (w_mem W) ga S -> grep ct (w_mem W) gb T -> ag_y S = ag_y T -> ag_z S = ag_z T ->
  let '(ga', gb') := g_swap ga gb in
  winv ct (mkW (w_mem W) (fset (fset (w_grids W) a (Some ga')) b (Some gb'))) (fset (fset A a (Some T)) b (Some S)).
Proof.
  intros ct W A a b ga gb S T I Hab Ha Hb HA HB GS GT Hy Hz. rewrite g_swap_eq.
  set (ga' := mkGrid (g_x gb) (g_y ga) (g_z ga) (g_ex gb) (g_ey ga) (g_ez ga) (g_bs gb) (g_data gb)).
  set (gb' := mkGrid (g_x ga) (g_y gb) (g_z gb) (g_ex ga) (g_ey gb) (g_ez gb) (g_bs ga) (g_data ga)).
  pose proof GS as [SX [SY [SZ HS]]]. pose proof GT as [TX [TY [TZ HT]]].
  assert (EY : g_y ga = g_y gb) by congruence. assert (EZ : g_z ga = g_z gb) by congruence.
  assert (Ga' : grep ct (w_mem W) ga' T).
  { unfold grep, ga'. cbn [g_x g_y g_z g_data]. rewrite EY, EZ. repeat split; auto.
    destruct (ag_fresh T); auto. destruct HT as [e HT]. exists e. destruct HT as [h1 h2 h3 h4 h5 h6 h7]. constructor; cbn [g_x g_y g_z g_data g_bs blk]; auto. }
  assert (Gb' : grep ct (w_mem W) gb' S).
  { unfold grep, gb'. cbn [g_x g_y g_z g_data]. rewrite <- EY, <- EZ. repeat split; auto.
    destruct (ag_fresh S); auto. destruct HS as [e HS]. exists e. destruct HS as [h1 h2 h3 h4 h5 h6 h7]. constructor; cbn [g_x g_y g_z g_data g_bs blk]; auto. }
  assert (Ba : blk ga' = blk gb) by reflexivity. assert (Bb : blk gb' = blk ga) by reflexivity.
  clearbody ga' gb'. destruct I as [I1 I2 I3 I4].
  assert (Hw : forall i, fset (fset (w_grids W) a (Some ga')) b (Some gb') i =
             if Nat.eqb i b then Some gb' else if Nat.eqb i a then Some ga' else w_grids W i) by reflexivity.
  constructor; cbn [w_mem w_grids]; auto.
  - intros i. unfold fset. destruct (Nat.eqb_spec i b); auto. destruct (Nat.eqb_spec i a); auto. apply I2.
  - intros i j g1 g2 Hij. rewrite !Hw. intros H1 H2.
    assert (Hsrc : forall k g, (if Nat.eqb k b then Some gb' else if Nat.eqb k a then Some ga' else w_grids W k) = Some g ->
       exists k' g0, w_grids W k' = Some g0 /\ blk g = blk g0 /\ k' = (if Nat.eqb k b then a else if Nat.eqb k a then b else k)).
    { intros k g Hk. destruct (Nat.eqb_spec k b). { inversion Hk; subst. exists a, ga. auto. }
      destruct (Nat.eqb_spec k a). { inversion Hk; subst. exists b, gb. auto. } exists k, g. auto. }
    destruct (Hsrc _ _ H1) as [i' [h1 [P1 [P2 P3]]]]. destruct (Hsrc _ _ H2) as [j' [h2 [Q1 [Q2 Q3]]]].
    rewrite P2, Q2. apply (I3 i' j'); auto. rewrite P3, Q3.
    destruct (Nat.eqb_spec i b); destruct (Nat.eqb_spec j b); try congruence;
    destruct (Nat.eqb_spec i a); destruct (Nat.eqb_spec j a); congruence.
  - intros bb n H. destruct (I4 bb n H) as [i [g [Hi Hg]]].
    destruct (Nat.eq_dec i a) as [->|Na].
    { exists b, gb'. rewrite Hw, Nat.eqb_refl. split; auto. congruence. }
    destruct (Nat.eq_dec i b) as [->|Nb].
    { exists a, ga'. rewrite Hw. destruct (Nat.eqb_spec a b); [congruence|]. rewrite Nat.eqb_refl. split; auto. congruence. }
    exists i, g. rewrite Hw. destruct (Nat.eqb_spec i b); [congruence|]. destruct (Nat.eqb_spec i a); [congruence|]. auto.
Qed.

(** *** One step *)
Lemma row_nonneg : forall A l, Forall (fun '(x, y, z, n) => row_in A x y z n) l -> Forall (fun '(x, y, z, n) => 0 <= n) l.
Proof. intros A l H. eapply Forall_impl; [|exact H]. intros [[[x y] z] n] [H1 _]. auto. Qed.

Lemma step_sim : forall ct W A op A' b,
  wf_ct ct -> winv ct W A -> astep ct A op A' b ->
  exists W', wstep ct W op = Val (W', b) /\ winv ct W' A'.
Proof.
  intros ct W A op A' b Hct I H. pose proof (wi_ok _ _ _ I) as M. pose proof Hct as [Hwf Hdef].
  inversion H; subst; clear H; cbn [wstep].
  - (* new, empty *)
    match goal with H : A id = None |- _ => pose proof (winv_none _ _ _ _ I H) as Hn end.
    unfold g_new, g_resize. cbn [g_x g_y g_z]. rewrite !Z.eqb_refl. cbn [andb ctor].
    eexists. split; [reflexivity|]. apply winv_update with (W := W); auto.
    + rewrite Hn. simpl. apply gframe_refl; auto.
    + apply fresh_rep.
  - (* new *)
    pose proof (winv_none _ _ _ _ I H0) as Hn.
    destruct (new_ok ct (w_mem W) x y z) as [m' [g [E [F G]]]]; auto. rewrite E. cbn [ctor].
    eexists. split; [reflexivity|]. apply winv_update with (W := W); auto. rewrite Hn. exact F.
  - (* new, rejected *)
    destruct (new_rejected ct (w_mem W) x y z) as [g E]; auto. rewrite E. cbn [ctor].
    eexists. split; [reflexivity|]. destruct W; auto.
  - (* copy *)
    pose proof (winv_none _ _ _ _ I H0) as Hn. destruct (winv_grid _ _ _ _ _ I H1) as [o [Ho GO]]. rewrite Ho.
    destruct (grep_alloc _ _ _ _ GO H2) as [e GA].
    destruct (copy_ok ct (w_mem W) o e (ag_cells S)) as [m' [g [E [F [X [Y [Zz [G _]]]]]]]]; auto. rewrite E. cbn [ctor].
    eexists. split; [reflexivity|]. apply winv_update with (W := W); auto.
    + rewrite Hn. exact F.
    + destruct GO as [OX [OY [OZ _]]]. repeat split; try congruence. rewrite H2. eauto.
  - (* assign *)
    destruct (Nat.eqb_spec id src); [contradiction|].
    destruct (winv_grid _ _ _ _ _ I H1) as [o [Ho GO]]. destruct (winv_grid _ _ _ _ _ I H2) as [g [Hg GD]]. rewrite Ho.
    destruct (assign_ok ct (w_mem W) g D o S) as [m' [g' [E [F G]]]]; auto.
    { eapply (wi_sep _ _ _ I src id); eauto. }
    eapply on_grid_ok with (ob := fun _ => BUnit); eauto.
  - (* self-assign *)
    rewrite Nat.eqb_refl. destruct (winv_grid _ _ _ _ _ I H0) as [g [Hg GD]].
    destruct (assign_self_ok ct (w_mem W) g S) as [m' [E [F G]]]; auto.
    eapply on_grid_same with (ob := fun _ => BUnit); eauto.
  - (* resize, same *)
    destruct (winv_grid _ _ _ _ _ I H0) as [g [Hg GD]]. pose proof GD as [X [Y [Zz _]]]. rewrite <- X, <- Y, <- Zz.
    eapply on_grid_same with (ob := fun _ => BUnit); eauto.
    + apply resize_same.
    + apply gframe_refl; auto.
  - (* resize *)
    destruct (winv_grid _ _ _ _ _ I H0) as [g [Hg GD]]. pose proof GD as [X [Y [Zz _]]].
    destruct (resize_to_ok ct (w_mem W) g S x y z) as [m' [g' [E [F [G _]]]]]; auto.
    eapply on_grid_ok with (ob := fun _ => BUnit); eauto.
    unfold g_resize. rewrite X, Y, Zz.
    destruct ((ag_x S =? x) && (ag_y S =? y) && (ag_z S =? z)) eqn:Ed; [|exact E].
    exfalso. apply H4. f_equal; [f_equal|]; lia.
  - (* swap *)
    destruct (winv_grid _ _ _ _ _ I H1) as [ga [Ha GA]]. destruct (winv_grid _ _ _ _ _ I H2) as [gb [Hb GB]].
    rewrite Ha, Hb. pose proof (winv_swap ct W A a b0 ga gb S T I H0 Ha Hb H1 H2 GA GB H3 H4) as R.
    destruct (g_swap ga gb) as [ga' gb']. eexists. split; [reflexivity|]. exact R.
  - (* set *)
    destruct (winv_grid _ _ _ _ _ I H0) as [g [Hg G]].
    destruct (set_row_ok ct (w_mem W) g S [c] 1 (fun _ => c) x y z 1) as [m' [E [F G']]]; auto.
    { eapply nonfresh; eauto. }
    { split; [lia|]. intros i Hi. replace (x + i) with x by lia. auto. }
    { intros i Hi. replace i with 0 by lia. auto. }
    eapply on_grid_ok with (ob := fun _ => BUnit); eauto.
  - (* set, array *)
    destruct (winv_grid _ _ _ _ _ I H0) as [g [Hg G]].
    destruct (set_row_ok ct (w_mem W) g S cs 1 (fun i => nth (Z.to_nat i) cs []) x y z (Z.of_nat (length cs))) as [m' [E [F G']]]; auto.
    { intros i Hi. rewrite Z.mul_1_r. split.
      - apply nth_error_nth'. lia.
      - rewrite Forall_forall in H3. apply H3. apply nth_In. lia. }
    eapply on_grid_ok with (ob := fun _ => BUnit); eauto.
  - (* broadcast *)
    destruct (winv_grid _ _ _ _ _ I H0) as [g [Hg G]].
    destruct (set_row_ok ct (w_mem W) g S [c] 0 (fun _ => c) x y z n) as [m' [E [F G']]]; auto.
    { intros i Hi. rewrite Z.mul_0_r. auto. }
    eapply on_grid_ok with (ob := fun _ => BUnit); eauto.
  - (* get *)
    destruct (winv_grid _ _ _ _ _ I H0) as [g [Hg G]].
    destruct (grep_alloc _ _ _ _ G (nonfresh _ _ _ _ _ _ _ G H1)) as [e GA].
    eapply on_grid_same with (ob := BCell); eauto; [|apply gframe_refl; auto].
    unfold g_get. rewrite (get_ok ct (w_mem W) g e (ag_cells S) x y z 1); auto.
    + simpl. rewrite Z.add_0_r. reflexivity.
    + intros i Hi. replace (x + i) with x by lia. eapply dims_box; eauto.
  - (* get, array *)
    destruct (winv_grid _ _ _ _ _ I H0) as [g [Hg G]].
    destruct (grep_alloc _ _ _ _ G H1) as [e GA].
    eapply on_grid_same with (ob := BCells); eauto; [|apply gframe_refl; auto].
    apply (get_ok ct (w_mem W) g e (ag_cells S) x y z n); auto.
    intros i Hi. eapply dims_box; eauto. apply H2; auto.
  - (* load *)
    destruct (winv_grid _ _ _ _ _ I H0) as [g [Hg G]]. destruct (grep_alloc _ _ _ _ G H1) as [e GA].
    destruct (with_buffer_ok ct (w_mem W) g e (ag_cells S) (cupd (ag_cells S) (combine (streak_coords l) cs)) cs cs
       (fun m q => g_load_streaks ct (m, g) l q (Z.of_nat (length cs)))) as [m' [E [F G']]]; auto.
    { intros m2 q M2 G2 Hq R2.
      destruct (load_ok ct m2 g e (ag_cells S) q cs l) as [m3 [E3 [SO3 G3]]]; auto.
      - intros x y z Hin. eapply dims_box; eauto. eapply streak_in; eauto.
      - eapply row_nonneg; eauto.
      - exists m3, (blk g). split; auto. split; auto. split; auto. split; auto.
        eapply region_frame; eauto; [destruct SO3 as [_ [SO3 _]]; apply SO3| |]; destruct SO3 as [_ [_ [SV SL]]]; intros; [apply SV|apply SL]; auto. }
    eapply on_grid_ok with (ob := fun _ => BUnit); eauto.
    destruct G as [X [Y [Zz _]]]. repeat split; auto. cbn [put_coords ag_fresh ag_cells]. rewrite H1. exists e.
    eapply galloc_ext; [|exact G']. intros x y z _. apply cupd_find.
  - (* save *)
    destruct (winv_grid _ _ _ _ _ I H0) as [g [Hg G]]. destruct (grep_alloc _ _ _ _ G H1) as [e GA].
    destruct (with_buffer_ok ct (w_mem W) g e (ag_cells S) (ag_cells S) cs
       (map (fun '(x, y, z) => ag_cells S x y z) (streak_coords l) ++ skipn (length (streak_coords l)) cs)
       (fun m q => g_save_streaks ct (m, g) l q (Z.of_nat (length cs)))) as [m' [E [F G']]]; auto.
    { rewrite app_length, map_length, skipn_length. lia. }
    { intros m2 q M2 G2 Hq R2.
      destruct (save_ok ct m2 g e (ag_cells S) q cs l) as [m3 [E3 [SO3 R3]]]; auto.
      - intros x y z Hin. eapply dims_box; eauto. eapply streak_in; eauto.
      - eapply row_nonneg; eauto.
      - exists m3, (pb q). split; auto. split; auto. split; auto. split; auto.
        apply (galloc_frame ct m2 m3 g e (ag_cells S) (pb q) (pb q)); auto. apply same_other_frame; auto. }
    eapply on_grid_same with (ob := BBytes); eauto.
    destruct G as [X [Y [Zz _]]]. repeat split; auto. rewrite H1. eauto.
  - (* query *)
    destruct (winv_grid _ _ _ _ _ I H0) as [g [Hg G]]. pose proof G as [X [Y [Zz _]]].
    rewrite <- X, <- Y, <- Zz.
    destruct (on_grid_same (Z * Z * Z) ct W A' id g S (w_mem W)
       (fun st => Ret st (g_x (snd st), g_y (snd st), g_z (snd st))) (g_x g, g_y g, g_z g) (fun '(x, y, z) => BDims x y z)) as [W' [E I']]; auto.
    { apply gframe_refl; auto. }
    eauto.
  - (* destroy *)
    destruct (winv_grid _ _ _ _ _ I H0) as [g [Hg G]]. rewrite Hg. unfold g_destroy.
    destruct (destroy_ok ct (w_mem W) g S) as [m' [E F]]; auto. rewrite E.
    eexists. split; [reflexivity|]. apply winv_update with (W := W); auto. rewrite Hg. exact F.
Qed.

Lemma run_sim : forall ct ops W A A' bs,
  wf_ct ct -> winv ct W A -> arun ct A ops A' bs ->
  exists W', wrun ct W ops = Val (W', bs) /\ winv ct W' A'.
Proof.
  intros ct ops. induction ops as [|op ops IH]; intros W A A' bs Hct I H; inversion H; subst; simpl.
  - eauto.
  - destruct (step_sim _ _ _ _ _ _ Hct I H3) as [W1 [E1 I1]]. rewrite E1.
    destruct (IH _ _ _ _ Hct I1 H6) as [W2 [E2 I2]]. rewrite E2. eauto.
Qed.

Lemma winv_start : forall ct, winv ct start (fun _ => None).
Proof.
  intros ct. constructor; simpl; auto; try discriminate.
  split; [simpl; lia|]. split; auto.
Qed.
