(** Statements C19-C27: soa_grid as a value, resize, swap, histories, lifetimes. *)
From Coq Require Import ZArith List Lia Bool Init.Byte.
From Verif Require Import Base Layout LayoutProofs Sizes SizesProofs Mem MemProofs
  Accessor AccessorProofs RegionProofs Grid SpecGrid GridProofs GridInv BufferProofs GridOps GridSim GridView PropsGrid.
Import ListNotations.
Open Scope Z_scope.

(** ** C24 *)
(** Every history of in-range operations runs without a fault (no access outside live
    storage, no use of a dead object, ...) and shows exactly what the maps show. *)
Theorem C24_refinement : forall ct ops A bs,
  wf_ct ct -> arun ct no_grids ops A bs ->
  exists W, wrun ct start ops = Val (W, bs) /\
    (forall id, w_grids W id = None <-> A id = None) /\
    (forall id g a, w_grids W id = Some g -> A id = Some a ->
       g_x g = ag_x a /\ g_y g = ag_y a /\ g_z g = ag_z a /\
       forall x y z, in_box a x y z -> reads ct (w_mem W) g x y z (ag_cells a x y z)).
Proof.
  intros ct ops A bs Hct H. destruct (run_sim ct ops start no_grids A bs Hct (winv_start ct) H) as [W [E I]].
  exists W. split; auto. split.
  - intros id. pose proof (wi_rep _ _ _ I id) as R. destruct (w_grids W id), (A id); try contradiction; split; congruence.
  - intros id g a Hg Ha. pose proof (wi_rep _ _ _ I id) as R. rewrite Hg, Ha in R.
    pose proof R as [X [Y [Zz _]]]. repeat (split; auto). intros x y z Hb. apply grep_reads; auto.
    eapply in_grid_box; eauto.
Qed.

(** A history with a copy, writes to both, a resize, save, load and destruction. *)
Definition ex_history_ops : list gop :=
  [ONew 0 2 1 1; OSet 0 1 0 0 (ex_cell x10 x11 x12 x13); OCopy 1 0; OBroadcast 0 0 0 0 (ex_cell x20 x21 x22 x23) 2;
   OGet 1 1 0 0; OGet 0 1 0 0; OResize 0 4 2 2; OGet 0 1 0 0;
   OLoad 0 [(1, 0, 0, 1); (0, 1, 1, 1)] [ex_cell x30 x31 x32 x33; ex_cell x40 x41 x42 x43];
   OGetN 0 0 1 1 2; OQuery 0; ONew 2 5 1 1; ODestroy 1; ODestroy 0].
Example C24_case :
  match wrun ex_ct start ex_history_ops with
  | Val (_, bs) => bs = [BUnit; BUnit; BUnit; BUnit; BCell (ex_cell x10 x11 x12 x13); BCell (ex_cell x20 x21 x22 x23);
                         BUnit; BCell (ex_cell x00 x01 x02 x02); BUnit;
                         BCells [ex_cell x40 x41 x42 x43; ex_cell x00 x01 x02 x02]; BDims 4 2 2; BThrow OutOfRange; BUnit; BUnit]
  | Fault _ => False end.
Proof. vm_compute. reflexivity. Qed.

(** ** C19 *)
(** C19_assign excludes one case: assigning a grid that was resized to 0x0x0 to a
    default-constructed one is an empty resize, which leaves byte_size unset
    (C19_assign_empty_refuted). *)
(** Which grids an operation names as its target. *)
Definition targets (op : gop) (id : nat) : bool :=
  match op with
  | ONew i _ _ _ | OCopy i _ | OAssign i _ | OResize i _ _ _ | OSet i _ _ _ _ | OSetN i _ _ _ _
  | OBroadcast i _ _ _ _ _ | OLoad i _ _ | ODestroy i => Nat.eqb i id
  | OSwap a b => Nat.eqb a id || Nat.eqb b id
  | OGet _ _ _ _ | OGetN _ _ _ _ _ | OSave _ _ _ | OQuery _ => false
  end.

Lemma astep_untouched : forall ct A op A' b id, astep ct A op A' b -> targets op id = false -> A' id = A id.
Proof.
  intros ct A op A' b id H T. inversion H; subst; cbn [targets] in T; auto;
    try (rewrite fset_other; auto; intros ->; rewrite Nat.eqb_refl in T; discriminate).
  apply orb_false_iff in T. destruct T as [T1 T2]. apply Nat.eqb_neq in T1, T2. rewrite !fset_other; auto.
Qed.

(** Object [id] shows the same in two worlds. *)
Definition same_grid (ct : celltype) (W W' : world) (id : nat) : Prop :=
  match w_grids W id, w_grids W' id with
  | None, None => True
  | Some g, Some g' =>
      g_x g' = g_x g /\ g_y g' = g_y g /\ g_z g' = g_z g /\
      forall x y z, in_grid g x y z -> same_cell ct (w_mem W) g (w_mem W') g' x y z
  | _, _ => False
  end.

Lemma winv_same_grid : forall ct W W' A A' id,
  wf_ct ct -> winv ct W A -> winv ct W' A' -> A' id = A id -> same_grid ct W W' id.
Proof.
  intros ct W W' A A' id Hct I I' E. unfold same_grid.
  pose proof (wi_rep _ _ _ I id) as R. pose proof (wi_rep _ _ _ I' id) as R'. rewrite E in R'.
  destruct (w_grids W id) as [g|], (w_grids W' id) as [g'|], (A id) as [a|]; try contradiction; auto.
  pose proof R as [X [Y [Zz _]]]. pose proof R' as [X' [Y' [Zz' _]]]. repeat (split; [congruence|]).
  intros x y z Hin. exists (ag_cells a x y z). split; [apply grep_reads; auto|].
  apply grep_reads; auto. unfold in_grid in *. rewrite X', Y', Zz', <- X, <- Y, <- Zz. auto.
Qed.

(** Whatever legal operations follow a history: a grid none of them targets keeps its
    dimensions and all its cells. *)
Theorem C19_isolation : forall ct ops0 A bs0 W ops A' bs id,
  wf_ct ct -> arun ct no_grids ops0 A bs0 -> wrun ct start ops0 = Val (W, bs0) ->
  arun ct A ops A' bs -> (forall op, In op ops -> targets op id = false) ->
  exists W', wrun ct W ops = Val (W', bs) /\ same_grid ct W W' id.
Proof.
  intros ct ops0 A bs0 W ops A' bs id Hct H0 HW H HT.
  destruct (run_sim ct ops0 start no_grids A bs0 Hct (winv_start ct) H0) as [W1 [E I]].
  assert (W1 = W) by congruence. subst W1.
  destruct (run_sim ct ops W A A' bs Hct I H) as [W' [E' I']]. exists W'. split; auto.
  eapply winv_same_grid; eauto. clear -H HT. induction H as [|A op A1 b ops A2 bs Hs Hr IH]; auto.
  rewrite IH by (intros; apply HT; simpl; auto). eapply astep_untouched; eauto. apply HT. simpl; auto.
Qed.

Theorem C19_copy : forall ct W src g id,
  wf_ct ct -> reachable ct W -> w_grids W src = Some g -> sized g -> w_grids W id = None ->
  exists m' g',
    g_copy ct (w_mem W) g = Ret (m', g') tt /\
    g_x g' = g_x g /\ g_y g' = g_y g /\ g_z g' = g_z g /\ g_bs g' = g_bs g /\ g_data g' <> g_data g /\
    (forall x y z, in_grid g x y z -> same_cell ct (w_mem W) g m' g' x y z) /\
    others_same ct W m' id /\
    (* the copy is an ordinary grid from now on *)
    reachable ct (mkW m' (fset (w_grids W) id (Some g'))).
Proof.
  intros ct W src g id Hct HR Hg Hs Hid.
  destruct (reachable_inv _ _ Hct HR) as [A I]. destruct (winv_rep _ _ _ _ _ I Hg) as [a [HA G]].
  pose proof (wi_ok _ _ _ I) as M. pose proof (sized_fresh _ _ _ _ G Hs) as Hfr.
  destruct (grep_alloc _ _ _ _ G Hfr) as [e GA].
  destruct (copy_ok ct (w_mem W) g e (ag_cells a) Hct M GA) as [m' [g' [E [F [X [Y [Zz [G' _]]]]]]]].
  exists m', g'. repeat (split; [auto|]).
  - rewrite (ga_bs _ _ _ _ _ GA), (ga_bs _ _ _ _ _ G'). reflexivity.
  - intros Ed. pose proof (galloc_lt _ _ _ _ _ M GA) as Hlt. pose proof (ga_blk _ _ _ _ _ GA) as Hb. pose proof (ga_blk _ _ _ _ _ G') as Hb'.
    destruct (gf_new _ _ _ _ F) as [?|[?|?]]; try congruence. unfold blk in *. rewrite Ed in *. lia.
  - intros x y z Hin. exists (ag_cells a x y z). split; [apply grep_reads; auto|].
    assert (GR : grep ct m' g' (mkAG (g_x g') (g_y g') (g_z g') false (ag_cells a))) by (repeat split; simpl; eauto).
    apply (grep_reads ct m' g' _ x y z Hct GR). unfold in_grid in *. rewrite X, Y, Zz. auto.
  - eapply frame_others; eauto. rewrite Hid. exact F.
  - destruct (reachable_step ct W (OCopy id src) Hct HR) as [W' [b [S R]]].
    { intros A1 I1. destruct (winv_rep _ _ _ _ _ I1 Hg) as [a1 [HA1 G1]]. do 2 eexists. eapply a_copy; eauto.
      - pose proof (wi_rep _ _ _ I1 id) as R1. rewrite Hid in R1. destruct (A1 id); [contradiction|auto].
      - eapply sized_fresh; eauto. }
    cbn [wstep] in S. rewrite Hg, E in S. cbn [ctor] in S. inversion S; subst. auto.
Qed.

Theorem C19_assign : forall ct W src id s d,
  wf_ct ct -> reachable ct W -> src <> id -> w_grids W src = Some s -> sized s -> w_grids W id = Some d ->
  sized d \/ (g_x s, g_y s, g_z s) <> (0, 0, 0) ->
  exists m' d',
    g_assign ct (w_mem W, d) s = Ret (m', d') tt /\
    g_x d' = g_x s /\ g_y d' = g_y s /\ g_z d' = g_z s /\ g_bs d' = g_bs s /\ g_data d' <> g_data s /\
    (forall x y z, in_grid s x y z -> same_cell ct (w_mem W) s m' d' x y z) /\
    others_same ct W m' id /\
    reachable ct (mkW m' (fset (w_grids W) id (Some d'))).
Proof.
  intros ct W src id s d Hct HR Hne Hs Hsz Hd Hemp.
  destruct (reachable_inv _ _ Hct HR) as [A I].
  destruct (winv_rep _ _ _ _ _ I Hs) as [a [HA G]]. destruct (winv_rep _ _ _ _ _ I Hd) as [ad [HAd Gd]].
  pose proof (wi_ok _ _ _ I) as M. pose proof (sized_fresh _ _ _ _ G Hsz) as Hfr.
  destruct (grep_alloc _ _ _ _ G Hfr) as [e GA]. pose proof G as [GX [GY [GZ _]]].
  assert (Hsup : supported (ct_sizes ct) (ag_x a) (ag_y a) (ag_z a)).
  { apply choose_supported. exists e. rewrite <- GX, <- GY, <- GZ. apply (ga_choose _ _ _ _ _ GA). }
  pose proof (wi_sep _ _ _ I src id s d Hne Hs Hd) as Hsep.
  destruct (assign_ok ct (w_mem W) d ad s a Hct M Gd G Hsep Hsup) as [m' [d' [E [F G']]]].
  exists m', d'. pose proof G' as [X [Y [Zz HG']]]. cbn [ag_x ag_y ag_z] in X, Y, Zz.
  split; auto. split; [congruence|]. split; [congruence|]. split; [congruence|].
  assert (R' : reachable ct (mkW m' (fset (w_grids W) id (Some d')))).
  { destruct (reachable_step ct W (OAssign id src) Hct HR) as [W' [b [S R]]].
    { intros A1 I1. destruct (winv_rep _ _ _ _ _ I1 Hs) as [a1 [HA1 G1]]. destruct (winv_rep _ _ _ _ _ I1 Hd) as [ad1 [HAd1 _]].
      do 2 eexists. eapply a_assign; eauto. destruct G1 as [X1 [Y1 [Z1 _]]]. rewrite <- X1, <- Y1, <- Z1, GX, GY, GZ. auto. }
    cbn [wstep] in S. destruct (Nat.eqb_spec id src); [congruence|]. rewrite Hs in S. unfold on_grid in S. rewrite Hd, E in S.
    inversion S; subst. auto. }
  assert (Hbs : is_null (g_data d') = false -> g_bs d' = g_bs s /\ g_data d' <> g_data s).
  { intros Hn. pose proof (sized_fresh _ _ _ _ G' Hn) as Hf'. destruct (grep_alloc _ _ _ _ G' Hf') as [e' GA'].
    split.
    - rewrite (ga_bs _ _ _ _ _ GA), (ga_bs _ _ _ _ _ GA').
      pose proof (ga_choose _ _ _ _ _ GA) as C1. pose proof (ga_choose _ _ _ _ _ GA') as C2.
      rewrite X, Y, Zz, <- GX, <- GY, <- GZ, C1 in C2. inversion C2; subst. reflexivity.
    - intros Ed. pose proof (galloc_lt _ _ _ _ _ M GA) as Hlt. pose proof (ga_blk _ _ _ _ _ GA) as Hb. pose proof (ga_blk _ _ _ _ _ GA') as Hb'.
      destruct (gf_new _ _ _ _ F) as [Hx|[Hx|Hx]]; unfold blk in *; rewrite Ed in *; try congruence; try lia. }
  destruct (is_null (g_data d')) eqn:En.
  - exfalso. assert (Hf' : ag_fresh ad && (ag_x a =? 0) && (ag_y a =? 0) && (ag_z a =? 0) = true).
    { destruct (_ && _) eqn:Eb; auto. cbn [ag_fresh] in HG'. destruct HG' as [e' GA'].
      rewrite (galloc_null _ _ _ _ _ GA') in En. discriminate. }
    destruct Hemp as [Hemp|Hemp].
    + apply (sized_fresh _ _ _ _ Gd) in Hemp. rewrite Hemp in Hf'. discriminate.
    + apply Hemp. rewrite GX, GY, GZ. f_equal; [f_equal|]; lia.
  - destruct (Hbs eq_refl) as [B1 B2]. split; auto. split; auto. split; [|split; auto].
    + intros x y z Hin. exists (ag_cells a x y z). split; [apply grep_reads; auto|].
      apply (grep_reads ct m' d' _ x y z Hct G'). unfold in_grid in *. rewrite X, Y, Zz, <- GX, <- GY, <- GZ. auto.
    + eapply frame_others; eauto. rewrite Hd. exact F.
Qed.

Theorem C19_self_assign : forall ct W id g,
  wf_ct ct -> reachable ct W -> w_grids W id = Some g -> sized g ->
  exists m', g_assign_self ct (w_mem W, g) = Ret (m', g) tt /\
    (forall x y z, in_grid g x y z -> same_cell ct (w_mem W) g m' g x y z) /\ others_same ct W m' id.
Proof.
  intros ct W id g Hct HR Hg Hs.
  destruct (reachable_inv _ _ Hct HR) as [A I]. destruct (winv_rep _ _ _ _ _ I Hg) as [a [HA G]].
  pose proof (wi_ok _ _ _ I) as M. pose proof (sized_fresh _ _ _ _ G Hs) as Hfr.
  destruct (grep_alloc _ _ _ _ G Hfr) as [e GA]. pose proof G as [GX [GY [GZ _]]].
  destruct (assign_self_ok ct (w_mem W) g a Hct M G) as [m' [E [F G']]].
  { apply choose_supported. exists e. rewrite <- GX, <- GY, <- GZ. apply (ga_choose _ _ _ _ _ GA). }
  exists m'. split; auto. split.
  - intros x y z Hin. exists (ag_cells a x y z). split; apply grep_reads; auto.
  - eapply frame_others; eauto. rewrite Hg. exact F.
Qed.

Example C19_case :
  w_grids ex_world 0 = Some (ex_grid 0) /\ sized (ex_grid 0) /\ w_grids ex_world 2 = None /\
  w_grids ex_world 1 = Some (ex_grid 1) /\ sized (ex_grid 1) /\
  match g_assign ex_ct (w_mem ex_world, ex_grid 1) (ex_grid 0) with
  | Ret (m', d') _ =>
      match g_get ex_ct (m', d') 1 1 0 with Ret _ v => v = ex_cell x10 x11 x12 x13 | _ => False end
  | _ => False end.
Proof.
  destruct ex_world_content as [H0 [H1 [_ [H2 _]]]]. split; auto. split; auto. split; [vm_compute; reflexivity|]. split; auto.
  split; vm_compute; reflexivity.
Qed.

(** The world after a concrete history. *)
Definition after (ct : celltype) (ops : list gop) : world :=
  match wrun ct start ops with Val (w, _) => w | Fault _ => start end.
Definition obj (W : world) (id : nat) : grid :=
  match w_grids W id with Some g => g | None => mkGrid 0 0 0 None None None None null end.

Lemma after_reachable : forall ct ops, wf_ct ct -> (exists A bs, arun ct no_grids ops A bs) -> reachable ct (after ct ops).
Proof.
  intros ct ops Hct [A [bs H]]. exists ops, A, bs. split; auto.
  destruct (run_sim ct ops start no_grids A bs Hct (winv_start ct) H) as [W [E _]].
  unfold after. rewrite E. reflexivity.
Qed.

Lemma obj_some : forall W id, (if w_grids W id then true else false) = true -> w_grids W id = Some (obj W id).
Proof. intros W id. unfold obj. destruct (w_grids W id); [auto|discriminate]. Qed.

Lemma ex_supported : forall x y z, 0 <= x <= 4 -> 0 <= y <= 2 -> 0 <= z <= 2 -> supported (ct_sizes ex_ct) x y z.
Proof. intros. repeat split; [exists 4|exists 2|exists 2]; simpl; lia. Qed.

(** A 0x0x0 grid with storage assigned to a default-constructed one. *)
Theorem C19_assign_empty_refuted : exists W s d,
  reachable ex_ct W /\ w_grids W 0 = Some s /\ sized s /\ w_grids W 1 = Some d /\
  match g_assign ex_ct (w_mem W, d) s with
  | Ret (_, d') _ => g_bs d' = None /\ g_bs s = Some 16
  | _ => False end.
Proof.
  set (W := after ex_ct [ONew 0 1 1 1; OResize 0 0 0 0; ONew 1 0 0 0]).
  exists W, (obj W 0), (obj W 1). split.
  - apply after_reachable; [apply ex_ct_wf|]. do 2 eexists.
    eapply ar_cons. { apply a_new; try lia; try congruence; try reflexivity. apply ex_supported; lia. }
    eapply ar_cons. { eapply a_resize; try reflexivity; try lia; simpl; try congruence. apply ex_supported; lia. }
    eapply ar_cons. { apply a_new_empty with (cells := fun _ _ _ => []). reflexivity. }
    constructor.
  - split; [apply obj_some; vm_compute; reflexivity|]. split; [vm_compute; reflexivity|].
    split; [apply obj_some; vm_compute; reflexivity|]. vm_compute. auto.
Qed.

(** ** C20 *)
(** Every copy has indeterminate extents ([None]), whatever the source's are. *)
Theorem C20_copy_extents_unset : forall ct W src g,
  wf_ct ct -> reachable ct W -> w_grids W src = Some g -> sized g ->
  exists m' g', g_copy ct (w_mem W) g = Ret (m', g') tt /\ g_ex g' = None /\ g_ey g' = None /\ g_ez g' = None.
Proof.
  intros ct W src g Hct HR Hg Hs.
  destruct (reachable_inv _ _ Hct HR) as [A I]. destruct (winv_rep _ _ _ _ _ I Hg) as [a [HA G]].
  destruct (grep_alloc _ _ _ _ G (sized_fresh _ _ _ _ G Hs)) as [e GA].
  destruct (copy_ok ct (w_mem W) g e (ag_cells a) Hct (wi_ok _ _ _ I) GA) as [m' [g' [E _]]].
  exists m', g'. split; auto. clear -E. revert E. unfold g_copy, use. destruct (g_bs g) as [n|]; [|discriminate].
  destruct (alloc (w_mem W) n) as [m1 p]. unfold g_init, copy_in.
  set (g0 := mkGrid (g_x g) (g_y g) (g_z g) None None None (Some n) p).
  assert (Hcb : forall (B : Type) (w : gst) gg (f : ptr -> accessor -> outcome gst B) r x,
     callback ct w gg f = Ret r x -> exists d a, f d a = Ret r x).
  { intros B w gg f r x H. unfold callback in H. rewrite select_sizes_choose in H.
    destruct (choose (ct_sizes ct) (g_x gg) (g_y gg) (g_z gg)); [discriminate|eauto]. }
  intros E. unfold obind in E. match type of E with match ?t with _ => _ end = _ => destruct t as [w1 u|w1 u|] eqn:E1; try discriminate end.
  apply Hcb in E1. destruct E1 as [d [ac E1]]. unfold run in E1. destruct (exec _ m1); [|discriminate]. inversion E1; subst.
  unfold dual_callback in E.
  assert (Hr : forall r (mm : mem), run r (fun m' => (m', g0)) tt = Ret (m', g') tt -> g' = g0).
  { intros r mm H. unfold run in H. destruct r; [|discriminate]. inversion H; auto. }
  assert (g' = g0).
  { destruct (ct_asym ct).
    - apply Hcb in E. destruct E as [d1 [a1 E]]. apply Hcb in E. destruct E as [d2 [a2 E]]. eauto.
    - destruct (_ || _); [discriminate|]. apply Hcb in E. destruct E as [d1 [a1 E]]. eauto. }
  subst g'. auto.
Qed.

(** The source's extents are determinate in the example. *)
Theorem C20_refuted : ~ (forall ct W src g m' g',
  wf_ct ct -> reachable ct W -> w_grids W src = Some g -> sized g ->
  g_copy ct (w_mem W) g = Ret (m', g') tt -> g_ex g' = g_ex g /\ g_ey g' = g_ey g /\ g_ez g' = g_ez g).
Proof.
  intros H. destruct ex_world_content as [H0 [_ [_ [H2 _]]]].
  destruct (C20_copy_extents_unset ex_ct ex_world 0 (ex_grid 0) ex_ct_wf ex_reachable H0 H2) as [m' [g' [E [Ex _]]]].
  destruct (H _ _ _ _ _ _ ex_ct_wf ex_reachable H0 H2 E) as [Ex' _]. rewrite Ex in Ex'.
  assert (D : g_ex (ex_grid 0) = Some 4) by (vm_compute; reflexivity). rewrite D in Ex'. discriminate Ex'.
Qed.

(** ** C21 *)
Theorem C21_resize_same : forall ct m g, g_resize ct (m, g) (g_x g) (g_y g) (g_z g) = Ret (m, g) tt.
Proof. exact resize_same. Qed.

Theorem C21_resize : forall ct W id g x y z,
  wf_ct ct -> reachable ct W -> w_grids W id = Some g ->
  0 <= x -> 0 <= y -> 0 <= z -> (x, y, z) <> (g_x g, g_y g, g_z g) -> supported (ct_sizes ct) x y z ->
  exists m' g' e, g_resize ct (w_mem W, g) x y z = Ret (m', g') tt /\
    g_x g' = x /\ g_y g' = y /\ g_z g' = z /\
    choose (ct_sizes ct) x y z = inr e /\
    g_ex g' = Some (DIM_X e) /\ g_ey g' = Some (DIM_Y e) /\ g_ez g' = Some (DIM_Z e) /\
    (forall x' y' z', in_grid g' x' y' z' -> reads ct m' g' x' y' z' (default_cell (ct_ms ct))) /\
    (* the old block is gone, the new one is a new block *)
    (sized g -> msize m' (pb (g_data g)) = None) /\
    pb (g_data g') <> pb (g_data g) /\
    others_same ct W m' id.
Proof.
  intros ct W id g x y z Hct HR Hg X Y Zz Hne Hs.
  destruct (reachable_inv _ _ Hct HR) as [A I]. destruct (winv_rep _ _ _ _ _ I Hg) as [a [HA G]].
  pose proof (wi_ok _ _ _ I) as M.
  destruct (resize_to_ok ct (w_mem W) g a x y z Hct M G X Y Zz Hs) as [m' [g' [E [F [G' [[e [C [E1 [E2 [E3 E4]]]]] Hn]]]]]].
  exists m', g', e. pose proof G' as [GX [GY [GZ _]]]. cbn [new_grid ag_x ag_y ag_z] in GX, GY, GZ.
  pose proof (grep_lt _ _ _ _ M G) as Hlt.
  split.
  { unfold g_resize. destruct ((g_x g =? x) && (g_y g =? y) && (g_z g =? z)) eqn:Eb; auto.
    exfalso. apply Hne. f_equal; [f_equal|]; lia. }
  do 7 (split; [auto|]). split; [|split; [|split]].
  - intros x' y' z' Hin. apply (grep_reads ct m' g' _ x' y' z' Hct G' Hin).
  - intros Hsz. destruct (msize m' (pb (g_data g))) as [n|] eqn:Em; auto. exfalso.
    destruct (gf_leak _ _ _ _ F _ _ Em) as [Hc|[Hc _]]; unfold blk in *; [lia|auto].
  - unfold blk in *. lia.
  - eapply frame_others; eauto. rewrite Hg. exact F.
Qed.

Example C21_case :
  supported (ct_sizes ex_ct) 1 2 2 /\
  (1, 2, 2) <> (g_x (ex_grid 0), g_y (ex_grid 0), g_z (ex_grid 0)).
Proof. split; [apply ex_supported; lia|]. destruct ex_dims as [-> [-> ->]]. congruence. Qed.

(** ** C22 *)
(** After a resize() that throws, a grid that had storage has a dangling pointer and
    dimensions no dispatch accepts: the destructor throws, and so does every further
    resize(). *)
Theorem C22_failed_resize : forall ct W id g x y z,
  wf_ct ct -> reachable ct W -> w_grids W id = Some g -> sized g ->
  ~ supported (ct_sizes ct) x y z ->
  exists m' g', g_resize ct (w_mem W, g) x y z = Thr (m', g') OutOfRange /\
    sized g' /\ msize m' (pb (g_data g')) = None /\
    g_destroy ct (m', g') = Thr (m', g') OutOfRange /\
    (forall x2 y2 z2, (x2, y2, z2) <> (x, y, z) -> g_resize ct (m', g') x2 y2 z2 = Thr (m', g') OutOfRange) /\
    (forall x2 y2 z2, g_get ct (m', g') x2 y2 z2 = Thr (m', g') OutOfRange).
Proof.
  intros ct W id g x y z Hct HR Hg Hs Hns.
  destruct (reachable_inv _ _ Hct HR) as [A I]. destruct (winv_rep _ _ _ _ _ I Hg) as [a [HA G]].
  pose proof (wi_ok _ _ _ I) as M.
  assert (Hc : choose (ct_sizes ct) x y z = inl OutOfRange).
  { destruct (choose (ct_sizes ct) x y z) as [er|e] eqn:E; [|exfalso; apply Hns, choose_supported; eauto].
    f_equal. eapply choose_error; eauto. }
  destruct (destroy_ok ct (w_mem W) g a Hct M G) as [m1 [E1 F1]].
  set (g' := mkGrid x y z (g_ex g) (g_ey g) (g_ez g) (g_bs g) (g_data g)).
  assert (Hdiff : (x, y, z) <> (g_x g, g_y g, g_z g)).
  { intros E. inversion E; subst. destruct (grep_alloc _ _ _ _ G (sized_fresh _ _ _ _ G Hs)) as [e GA].
    rewrite (ga_choose _ _ _ _ _ GA) in Hc. discriminate. }
  exists m1, g'. split; [|split; [|split; [|split; [|split]]]].
  - unfold g_resize. destruct ((g_x g =? x) && (g_y g =? y) && (g_z g =? z)) eqn:Eb.
    + exfalso. apply Hdiff. f_equal; [f_equal|]; lia.
    + unfold resize_to. rewrite E1. cbn [obind]. rewrite (callback_thr _ _ _ _ _ _ OutOfRange) by exact Hc. reflexivity.
  - exact Hs.
  - destruct (msize m1 (pb (g_data g'))) as [n|] eqn:Em; auto. exfalso.
    assert (Hb : blk g <> 0%nat).
    { destruct (grep_alloc _ _ _ _ G (sized_fresh _ _ _ _ G Hs)) as [e GA]. apply (ga_blk _ _ _ _ _ GA). }
    destruct (gf_leak _ _ _ _ F1 _ _ Em) as [Hx|[Hx _]]; [apply Hb; exact Hx|apply Hx; reflexivity].
  - unfold g_destroy, destroy_and_deallocate. unfold sized in Hs. cbn [g_data g']. rewrite Hs.
    rewrite (callback_thr _ _ _ _ _ _ OutOfRange) by exact Hc. reflexivity.
  - intros x2 y2 z2 Hne. unfold g_resize. cbn [g_x g_y g_z g'].
    destruct ((x =? x2) && (y =? y2) && (z =? z2)) eqn:Eb.
    + exfalso. apply Hne. f_equal; [f_equal|]; lia.
    + unfold resize_to, destroy_and_deallocate. unfold sized in Hs. cbn [g_data g']. rewrite Hs.
      rewrite (callback_thr _ _ _ _ _ _ OutOfRange) by exact Hc. reflexivity.
  - intros x2 y2 z2. unfold g_get, g_get_n. rewrite (callback_thr _ _ _ _ _ _ OutOfRange) by exact Hc. reflexivity.
Qed.

Theorem C22_refuted : ~ (forall ct W id g x y z m' g' e,
  wf_ct ct -> reachable ct W -> w_grids W id = Some g ->
  g_resize ct (w_mem W, g) x y z = Thr (m', g') e ->
  exists m'', g_destroy ct (m', g') = Ret (m'', g') tt).
Proof.
  intros H. destruct ex_world_content as [H0 [_ [_ [H2 _]]]].
  destruct (C22_failed_resize ex_ct ex_world 0 (ex_grid 0) 5 1 1 ex_ct_wf ex_reachable H0 H2) as [m' [g' [E [_ [_ [D _]]]]]].
  { intros [[t [Ht Hle]] _]. simpl in Ht. lia. }
  destruct (H _ _ _ _ _ _ _ _ _ _ ex_ct_wf ex_reachable H0 E) as [m'' D']. congruence.
Qed.

(** What holds: a grid without storage can still be resized and destroyed. *)
Theorem C22_unsized_partial : forall ct W id g x y z,
  wf_ct ct -> reachable ct W -> w_grids W id = Some g -> ~ sized g ->
  ~ supported (ct_sizes ct) x y z -> (x, y, z) <> (0, 0, 0) ->
  exists g', g_resize ct (w_mem W, g) x y z = Thr (w_mem W, g') OutOfRange /\
    g_destroy ct (w_mem W, g') = Ret (w_mem W, g') tt /\
    (forall x2 y2 z2, 0 <= x2 -> 0 <= y2 -> 0 <= z2 -> supported (ct_sizes ct) x2 y2 z2 ->
       exists m2 g2, g_resize ct (w_mem W, g') x2 y2 z2 = Ret (m2, g2) tt /\
         g_x g2 = x2 /\ g_y g2 = y2 /\ g_z g2 = z2 /\
         forall x' y' z', in_grid g2 x' y' z' -> reads ct m2 g2 x' y' z' (default_cell (ct_ms ct))).
Proof.
  intros ct W id g x y z Hct HR Hg Hs Hns Hne0.
  destruct (reachable_inv _ _ Hct HR) as [A I]. destruct (winv_rep _ _ _ _ _ I Hg) as [a [HA G]].
  pose proof (wi_ok _ _ _ I) as M.
  assert (Hc : choose (ct_sizes ct) x y z = inl OutOfRange).
  { destruct (choose (ct_sizes ct) x y z) as [er|e] eqn:E; [|exfalso; apply Hns, choose_supported; eauto].
    f_equal. eapply choose_error; eauto. }
  assert (Hf : ag_fresh a = true).
  { destruct (ag_fresh a) eqn:E; auto. destruct (grep_alloc _ _ _ _ G E) as [e GA]. exfalso. apply Hs. eapply galloc_null; eauto. }
  pose proof G as [_ [_ [_ G0]]]. rewrite Hf in G0. destruct G0 as [X0 [Y0 [Z0' Hnull]]].
  exists (mkGrid x y z (g_ex g) (g_ey g) (g_ez g) (g_bs g) (g_data g)). split; [|split].
  - unfold g_resize. rewrite X0, Y0, Z0'. destruct ((0 =? x) && (0 =? y) && (0 =? z)) eqn:Eb.
    + exfalso. apply Hne0. f_equal; [f_equal|]; lia.
    + assert (Hd : destroy_and_deallocate ct (w_mem W, g) = Ret (w_mem W, g) tt)
        by (unfold destroy_and_deallocate; rewrite Hnull; reflexivity).
      unfold resize_to. rewrite Hd. cbn [obind].
      rewrite (callback_thr _ _ _ _ _ _ OutOfRange) by exact Hc. reflexivity.
  - unfold g_destroy, destroy_and_deallocate. cbn [g_data]. rewrite Hnull. reflexivity.
  - intros x2 y2 z2 X Y Zz Hs2.
    destruct (resize_to_ok ct (w_mem W) g a x2 y2 z2 Hct M G X Y Zz Hs2) as [m2 [g2 [E [F [G2 _]]]]].
    exists m2, g2. pose proof G2 as [GX [GY [GZ _]]]. split.
    + unfold g_resize. cbn [g_x g_y g_z]. destruct ((x =? x2) && (y =? y2) && (z =? z2)) eqn:Eb.
      * exfalso. apply Hns. replace x with x2 by lia. replace y with y2 by lia. replace z with z2 by lia. auto.
      * rewrite <- E. set (g' := mkGrid x y z (g_ex g) (g_ey g) (g_ez g) (g_bs g) (g_data g)).
        assert (Hd : destroy_and_deallocate ct (w_mem W, g) = Ret (w_mem W, g) tt)
          by (unfold destroy_and_deallocate; rewrite Hnull; reflexivity).
        assert (Hd' : destroy_and_deallocate ct (w_mem W, g') = Ret (w_mem W, g') tt)
          by (unfold destroy_and_deallocate, g'; cbn [g_data]; rewrite Hnull; reflexivity).
        unfold resize_to. rewrite Hd, Hd'. reflexivity.
    + repeat (split; [auto|]). intros x' y' z' Hin. apply (grep_reads ct m2 g2 _ x' y' z' Hct G2 Hin).
Qed.

(** The hypotheses hold for a default-constructed grid and 5x1x1. *)
Example C22_case : exists W,
  reachable ex_ct W /\ w_grids W 0 = Some (obj W 0) /\ ~ sized (obj W 0) /\ ~ supported (ct_sizes ex_ct) 5 1 1.
Proof.
  exists (after ex_ct [ONew 0 0 0 0]). split; [|split; [|split]].
  - apply after_reachable; [apply ex_ct_wf|]. do 2 eexists.
    eapply ar_cons. { apply a_new_empty with (cells := fun _ _ _ => []). reflexivity. } constructor.
  - apply obj_some. vm_compute. reflexivity.
  - vm_compute. discriminate.
  - intros [[t [Ht Hle]] _]. simpl in Ht. lia.
Qed.

(** ** C23 *)
(** swap() of a 3x2x2 and a 1x1x1 grid: the y dimension is not exchanged, and reading
    cell (0, 0, 0) of the first one afterwards leaves its storage. *)
Theorem C23_refuted : exists W ga gb,
  reachable ex_ct W /\ w_grids W 0 = Some ga /\ w_grids W 1 = Some gb /\
  let '(ga', gb') := g_swap ga gb in
  in_grid gb 0 0 0 /\ g_y gb = 1 /\ g_y ga' = 2 /\
  match g_get ex_ct (w_mem W, gb) 0 0 0 with Ret _ _ => True | _ => False end /\
  g_get ex_ct (w_mem W, ga') 0 0 0 = Flt OutOfBounds.
Proof.
  destruct ex_world_content as [H0 [H1 _]]. exists ex_world, (ex_grid 0), (ex_grid 1).
  split; [apply ex_reachable|]. split; [exact H0|]. split; [exact H1|].
  rewrite g_swap_eq. unfold in_grid. split; [vm_compute; repeat split; congruence|].
  split; [vm_compute; reflexivity|]. split; [vm_compute; reflexivity|]. split; [vm_compute; auto|vm_compute; reflexivity].
Qed.

(** If the y and z dimensions agree, swap() exchanges everything but the y and z
    extents (which keep their values). Missing for C23: grids of different y/z
    dimensions, and extent_y/extent_z. *)
Theorem C23_swap_partial : forall ct W a b ga gb,
  wf_ct ct -> reachable ct W -> a <> b -> w_grids W a = Some ga -> w_grids W b = Some gb ->
  g_y ga = g_y gb -> g_z ga = g_z gb ->
  let '(ga', gb') := g_swap ga gb in
  (g_x ga' = g_x gb /\ g_y ga' = g_y gb /\ g_z ga' = g_z gb /\ g_ex ga' = g_ex gb /\ g_bs ga' = g_bs gb) /\
  (g_x gb' = g_x ga /\ g_y gb' = g_y ga /\ g_z gb' = g_z ga /\ g_ex gb' = g_ex ga /\ g_bs gb' = g_bs ga) /\
  (forall x y z, in_grid gb x y z -> same_cell ct (w_mem W) gb (w_mem W) ga' x y z) /\
  (forall x y z, in_grid ga x y z -> same_cell ct (w_mem W) ga (w_mem W) gb' x y z) /\
  g_ey ga' = g_ey ga /\ g_ez ga' = g_ez ga /\
  reachable ct (mkW (w_mem W) (fset (fset (w_grids W) a (Some ga')) b (Some gb'))).
Proof.
  intros ct W a b ga gb Hct HR Hab Ha Hb Hy Hz.
  assert (R : reachable ct (mkW (w_mem W) (let '(ga', gb') := g_swap ga gb in fset (fset (w_grids W) a (Some ga')) b (Some gb')))).
  { destruct (reachable_step ct W (OSwap a b) Hct HR) as [W' [ob [S R]]].
    { intros A1 I1. destruct (winv_rep _ _ _ _ _ I1 Ha) as [a1 [HA1 G1]]. destruct (winv_rep _ _ _ _ _ I1 Hb) as [b1 [HB1 G2]].
      do 2 eexists. eapply a_swap; eauto; destruct G1 as [_ [Y1 [Z1 _]]], G2 as [_ [Y2 [Z2 _]]]; congruence. }
    cbn [wstep] in S. rewrite Ha, Hb in S. destruct (g_swap ga gb) as [ga' gb']. inversion S; subst. auto. }
  destruct (reachable_inv _ _ Hct HR) as [A I].
  destruct (winv_rep _ _ _ _ _ I Ha) as [aa [HA GA]]. destruct (winv_rep _ _ _ _ _ I Hb) as [ab [HB GB]].
  assert (Sw : winv ct (mkW (w_mem W) (let '(ga', gb') := g_swap ga gb in fset (fset (w_grids W) a (Some ga')) b (Some gb')))
                 (fset (fset A a (Some ab)) b (Some aa))).
  { pose proof (winv_swap ct W A a b ga gb aa ab I Hab Ha Hb HA HB GA GB) as H.
    destruct (g_swap ga gb). apply H; destruct GA as [_ [Y1 [Z1 _]]], GB as [_ [Y2 [Z2 _]]]; congruence. }
  destruct (g_swap ga gb) as [ga' gb'] eqn:E. rewrite g_swap_eq in E.
  inversion E; subst ga' gb'. clear E. cbn [g_x g_y g_z g_ex g_ey g_ez g_bs g_data].
  repeat (split; [repeat split; auto; fail|]).
  split; [|split; [|auto]].
  - intros x y z Hin. exists (ag_cells ab x y z). split; [apply grep_reads; auto|].
    pose proof (wi_rep _ _ _ Sw a) as Ra. cbn [w_grids w_mem] in Ra. unfold fset in Ra. rewrite !Nat.eqb_refl in Ra. destruct (Nat.eqb_spec a b); [contradiction|].
    apply (grep_reads ct (w_mem W) _ ab x y z Hct Ra). unfold in_grid in *. cbn [g_x g_y g_z]. rewrite Hy, Hz. auto.
  - intros x y z Hin. exists (ag_cells aa x y z). split; [apply grep_reads; auto|].
    pose proof (wi_rep _ _ _ Sw b) as Rb. cbn [w_grids w_mem] in Rb. unfold fset in Rb. rewrite !Nat.eqb_refl in Rb.
    apply (grep_reads ct (w_mem W) _ aa x y z Hct Rb). unfold in_grid in *. cbn [g_x g_y g_z]. rewrite <- Hy, <- Hz. auto.
Qed.

(** Two grids with equal y and z dimensions but different x dimensions and contents. *)
Definition ex_swap_ops : list gop := [ONew 0 2 1 1; ONew 1 1 1 1; OSet 0 1 0 0 (ex_cell x10 x11 x12 x13); OSwap 0 1; OGet 1 1 0 0; OQuery 0].
Example C23_case :
  (exists A bs, arun ex_ct no_grids ex_swap_ops A bs) /\
  match wrun ex_ct start ex_swap_ops with
  | Val (_, bs) => bs = [BUnit; BUnit; BUnit; BUnit; BCell (ex_cell x10 x11 x12 x13); BDims 1 1 1]
  | _ => False end.
Proof.
  split; [|vm_compute; reflexivity]. do 2 eexists.
  eapply ar_cons. { apply a_new; try lia; try congruence; try reflexivity. apply ex_supported; lia. }
  eapply ar_cons. { apply a_new; try lia; try congruence; try reflexivity. apply ex_supported; lia. }
  eapply ar_cons. { eapply a_set; [reflexivity|apply ex_in_box; lia|]. repeat constructor. }
  eapply ar_cons. { eapply a_swap; try reflexivity; auto. }
  eapply ar_cons. { eapply a_get; [reflexivity|]. unfold in_box; simpl; lia. }
  eapply ar_cons. { eapply a_query. reflexivity. }
  constructor.
Qed.

(** ** C25 *)
(** That no history faults (C24) already says no element is constructed twice, assigned
    or destroyed while dead, or alive when its storage is released: [step] and [free]
    fault on these. What is alive in between: exactly the class-type elements of the
    cells inside the dimensions of the existing grids. *)
Theorem C25_live_elements : forall ct W b o,
  wf_ct ct -> reachable ct W -> msize (w_mem W) b <> None ->
  (mlive (w_mem W) b o = true <->
   exists id g e x y z j mb k,
     w_grids W id = Some g /\ sized g /\ pb (g_data g) = b /\ po (g_data g) = 0 /\
     choose (ct_sizes ct) (g_x g) (g_y g) (g_z g) = inr e /\ in_grid g x y z /\
     nth_error (ct_ms ct) j = Some mb /\ m_class mb = true /\ 0 <= k < Z.of_nat (m_count mb) /\
     member_addr (ct_ms ct) (mkAcc e (gen_index e x y z) 0) j k = Some o).
Proof.
  intros ct W b o Hct HR Hb. pose proof Hct as [Hw _].
  destruct (reachable_inv _ _ Hct HR) as [A I].
  destruct (msize (w_mem W) b) as [n|] eqn:Em; [|congruence]. clear Hb.
  split.
  - intros Hl. destruct (wi_leak _ _ _ I b n Em) as [id [g [Hg Hbk]]].
    destruct (winv_rep _ _ _ _ _ I Hg) as [a [HA G]].
    assert (Hf : ag_fresh a = false).
    { destruct (ag_fresh a) eqn:E; auto. exfalso. pose proof (grep_null _ _ _ _ G E) as Hn. unfold blk in Hbk. rewrite Hn in Hbk.
      simpl in Hbk. subst b. destruct (wi_ok _ _ _ I) as [_ [H0 _]]. congruence. }
    destruct (grep_alloc _ _ _ _ G Hf) as [e GA]. pose proof (ga_region _ _ _ _ _ GA) as R.
    unfold blk in Hbk. rewrite <- Hbk in Hl. destruct (rg_live _ _ _ _ _ R _ Hl) as [i [c [sl [Hc [Hs [Hcl ->]]]]]].
    apply ci_of_inv in Hc; [|eapply galloc_fits; eauto]. destruct Hc as [x [y [z [Hd [-> _]]]]].
    apply in_slots_the_slot in Hs. destruct Hs as [j [mb [k [Hj [Hk ->]]]]].
    exists id, g, e, x, y, z, j, mb, k. split; auto. split; [eapply galloc_null; eauto|]. split; auto.
    split; [apply (rg_off _ _ _ _ _ R)|]. split; [apply (ga_choose _ _ _ _ _ GA)|]. split; [exact Hd|]. split; auto. split; auto. split; auto.
    rewrite (member_addr_slot _ _ _ _ _ Hj Hk). cbn [a_ext a_index a_INDEX]. rewrite Z.add_0_r. reflexivity.
  - intros [id [g [e [x [y [z [j [mb [k [Hg [Hs [Hbk [Hpo [Hc [Hin [Hj [Hcl [Hk Ha]]]]]]]]]]]]]]]]]].
    destruct (winv_rep _ _ _ _ _ I Hg) as [a [HA G]].
    destruct (grep_alloc _ _ _ _ G (sized_fresh _ _ _ _ G Hs)) as [e' GA].
    pose proof (ga_choose _ _ _ _ _ GA) as Hc'. rewrite Hc in Hc'. inversion Hc'; subst e'.
    pose proof (ga_region _ _ _ _ _ GA) as R.
    rewrite (member_addr_slot _ _ _ _ _ Hj Hk) in Ha. cbn [a_ext a_index a_INDEX] in Ha. rewrite Z.add_0_r in Ha. inversion Ha; subst o.
    assert (Hci : ci_of e (g_x g) (g_y g) (g_z g) (ag_cells a) (gen_index e x y z) = Some (ag_cells a x y z)).
    { apply ci_of_gen; [eapply galloc_fits; eauto|exact Hin]. }
    assert (Hsl : In (the_slot (ct_ms ct) j mb k) (slots (ct_ms ct))) by (apply in_slots_the_slot; eauto 8).
    destruct (rg_cell _ _ _ _ _ R _ _ Hci) as [_ Hwc].
    pose proof (slot_value_in (ct_ms ct) _ j mb (Z.to_nat k) Hwc Hj ltac:(lia)) as Hv. rewrite Z2Nat.id in Hv by lia.
    destruct (rg_val _ _ _ _ _ R _ _ _ _ Hci Hv) as [_ Hlive].
    specialize (Hlive Hcl). unfold live, sptr, padd in Hlive. cbn [pb po] in Hlive. rewrite Hpo, Z.add_0_l, Hbk in Hlive. auto.
Qed.

(** No storage outlives the grids. *)
Theorem C25_nothing_left : forall ct W,
  wf_ct ct -> reachable ct W -> (forall id, w_grids W id = None) -> forall b, msize (w_mem W) b = None.
Proof.
  intros ct W Hct HR Hn b. destruct (reachable_inv _ _ Hct HR) as [A I].
  destruct (msize (w_mem W) b) as [n|] eqn:E; auto. destruct (wi_leak _ _ _ I b n E) as [id [g [Hg _]]]. congruence.
Qed.

(** The example world holds live class-type elements. *)
Example C25_case :
  msize (w_mem ex_world) (pb (g_data (ex_grid 0))) = Some 64 /\
  filter (fun o => mlive (w_mem ex_world) (pb (g_data (ex_grid 1))) o) (map Z.of_nat (seq 0 64)) = [8; 12].
Proof. split; vm_compute; reflexivity. Qed.

(** ** C26 *)
Theorem C26_symmetric : forall (R A : Type) ct (w : R) g other (f : ptr -> accessor -> ptr -> accessor -> outcome R A),
  ct_asym ct = false ->
  (* refused iff some dimension differs *)
  ((g_x g, g_y g, g_z g) <> (g_x other, g_y other, g_z other) -> dual_callback ct w g other f = Thr w InvalidArgument) /\
  (* otherwise dispatched once, for both, by the common dimensions *)
  ((g_x g, g_y g, g_z g) = (g_x other, g_y other, g_z other) ->
     match choose (ct_sizes ct) (g_x g) (g_y g) (g_z g) with
     | inr e => dual_callback ct w g other f = f (g_data g) (mkAcc e 0 0) (g_data other) (mkAcc e 0 0)
     | inl er => er = OutOfRange /\ dual_callback ct w g other f = Thr w OutOfRange
     end).
Proof.
  intros R A ct w g other f Hs. unfold dual_callback. rewrite Hs. split; intros H.
  - destruct (negb (g_x g =? g_x other) || negb (g_y g =? g_y other) || negb (g_z g =? g_z other)) eqn:Eb; auto.
    exfalso. apply H. f_equal; [f_equal|]; lia.
  - assert (Eb : negb (g_x g =? g_x other) || negb (g_y g =? g_y other) || negb (g_z g =? g_z other) = false).
    { injection H as H1 H2 H3. lia. }
    rewrite Eb.
    destruct (choose (ct_sizes ct) (g_x g) (g_y g) (g_z g)) as [er|e] eqn:E.
    + pose proof (choose_error _ _ _ _ _ E). subst er. split; auto. apply callback_thr. auto.
    + rewrite (callback_ok _ _ _ _ _ _ e E). reflexivity.
Qed.

(** Asymmetric policy: each grid gets the extents of its own dimensions. *)
Theorem C26_asymmetric : forall (R A : Type) ct (w : R) g other (f : ptr -> accessor -> ptr -> accessor -> outcome R A) e1 e2,
  ct_asym ct = true ->
  choose (ct_sizes ct) (g_x g) (g_y g) (g_z g) = inr e1 ->
  choose (ct_sizes ct) (g_x other) (g_y other) (g_z other) = inr e2 ->
  dual_callback ct w g other f = f (g_data g) (mkAcc e1 0 0) (g_data other) (mkAcc e2 0 0).
Proof.
  intros R A ct w g other f e1 e2 Hs E1 E2. unfold dual_callback. rewrite Hs.
  rewrite (callback_ok _ _ _ _ _ _ e1 E1), (callback_ok _ _ _ _ _ _ e2 E2). reflexivity.
Qed.

(** The extents the functor sees index each grid's own cells: what get() shows at a
    coordinate is stored at the address the functor computes for it. *)
Theorem C26_sees_data : forall ct W id g x y z e j mb k o v,
  wf_ct ct -> reachable ct W -> w_grids W id = Some g -> in_grid g x y z ->
  choose (ct_sizes ct) (g_x g) (g_y g) (g_z g) = inr e -> reads ct (w_mem W) g x y z v ->
  nth_error (ct_ms ct) j = Some mb -> (k < m_count mb)%nat ->
  member_addr (ct_ms ct) (mkAcc e (gen_index e x y z) 0) j (Z.of_nat k) = Some o ->
  read (w_mem W) (padd (g_data g) o) (m_size mb) = nth k (nth j v []) [].
Proof.
  intros ct W id g x y z e j mb k o v Hct HR Hg Hin Hc Hv Hj Hk Ha. pose proof Hct as [Hw _].
  destruct (reachable_inv _ _ Hct HR) as [A I]. destruct (winv_rep _ _ _ _ _ I Hg) as [a [HA G]].
  pose proof Hin as Hb. apply (in_grid_box _ _ _ _ _ _ _ G) in Hb.
  destruct (grep_alloc _ _ _ _ G (nonfresh _ _ _ _ _ _ _ G Hb)) as [e' GA].
  pose proof (ga_choose _ _ _ _ _ GA) as Hc'. rewrite Hc in Hc'. inversion Hc'; subst e'.
  pose proof (grep_reads _ _ _ _ x y z Hct G Hin) as Hv'. unfold reads in *. rewrite Hv in Hv'. inversion Hv'; subst v.
  assert (Hk' : 0 <= Z.of_nat k < Z.of_nat (m_count mb)) by lia.
  rewrite (member_addr_slot _ _ _ _ _ Hj Hk') in Ha. cbn [a_ext a_index a_INDEX] in Ha. rewrite Z.add_0_r in Ha. inversion Ha; subst o.
  pose proof (ga_region _ _ _ _ _ GA) as R.
  assert (Hci : ci_of e (g_x g) (g_y g) (g_z g) (ag_cells a) (gen_index e x y z) = Some (ag_cells a x y z)).
  { apply ci_of_gen; [eapply galloc_fits; eauto|exact Hin]. }
  destruct (rg_cell _ _ _ _ _ R _ _ Hci) as [_ Hwc].
  destruct (rg_val _ _ _ _ _ R _ _ (the_slot (ct_ms ct) j mb (Z.of_nat k)) (nth k (nth j (ag_cells a x y z) []) []) Hci) as [Hr _].
  { apply slot_value_in; auto. }
  exact Hr.
Qed.

Example C26_case : exists e,
  choose (ct_sizes ex_ct) (g_x (ex_grid 0)) (g_y (ex_grid 0)) (g_z (ex_grid 0)) = inr e /\ e = mkExt 4 2 2 /\
  (g_x (ex_grid 0), g_y (ex_grid 0), g_z (ex_grid 0)) <> (g_x (ex_grid 1), g_y (ex_grid 1), g_z (ex_grid 1)) /\
  member_addr (ct_ms ex_ct) (mkAcc e (gen_index e 1 1 0) 0) 1 1 = Some 53 /\
  read (w_mem ex_world) (padd (g_data (ex_grid 0)) 53) 1 = [Some x13].
Proof. exists (mkExt 4 2 2). repeat split; vm_compute; congruence. Qed.

(** ** C27 *)
(** Copying a default-constructed grid reads the uninitialised byte_size; assigning
    from one throws unless 0x0x0 is a supported size; under the default policy it never is. *)
Definition fresh_grid : grid := mkGrid 0 0 0 None None None None null.

Theorem C27_default_ctor : forall ct m, g_new ct m 0 0 0 = Ret (m, fresh_grid) tt.
Proof. reflexivity. Qed.

Theorem C27_copy_refuted : forall ct m, g_copy ct m fresh_grid = Flt Indeterminate.
Proof. reflexivity. Qed.

Theorem C27_assign_refuted : forall ct W id d,
  wf_ct ct -> reachable ct W -> w_grids W id = Some d -> ct_asym ct = false ->
  ~ supported (ct_sizes ct) 0 0 0 ->
  exists w', g_assign ct (w_mem W, d) fresh_grid = Thr w' OutOfRange.
Proof.
  intros ct W id d Hct HR Hd Has Hns.
  destruct (reachable_inv _ _ Hct HR) as [A I]. destruct (winv_rep _ _ _ _ _ I Hd) as [a [HA G]].
  assert (Hc : choose (ct_sizes ct) 0 0 0 = inl OutOfRange).
  { destruct (choose (ct_sizes ct) 0 0 0) as [er|e] eqn:E; [|exfalso; apply Hns, choose_supported; eauto].
    f_equal. eapply choose_error; eauto. }
  unfold g_assign. cbn [g_x g_y g_z fresh_grid]. unfold g_resize.
  destruct ((g_x d =? 0) && (g_y d =? 0) && (g_z d =? 0)) eqn:Eb.
  - cbn [obind]. unfold copy_in, dual_callback. rewrite Has. cbn [g_x g_y g_z fresh_grid].
    assert (g_x d = 0 /\ g_y d = 0 /\ g_z d = 0) as [-> [-> ->]] by lia. cbn [Z.eqb negb orb].
    rewrite (callback_thr _ _ _ _ _ _ OutOfRange) by exact Hc. eauto.
  - unfold resize_to. destruct (destroy_ok ct (w_mem W) d a Hct (wi_ok _ _ _ I) G) as [m1 [E1 F1]]. rewrite E1. cbn [obind].
    rewrite (callback_thr _ _ _ _ _ _ OutOfRange) by exact Hc. cbn [obind]. eauto.
Qed.

Example C27_default_policy : ~ supported Default 0 0 0.
Proof. simpl. lia. Qed.

(** What holds: destruction, and assignment when 0x0x0 is supported. *)
Theorem C27_destroy_partial : forall ct m, g_destroy ct (m, fresh_grid) = Ret (m, fresh_grid) tt.
Proof. reflexivity. Qed.

Theorem C27_assign_partial : forall ct W src id s d,
  wf_ct ct -> reachable ct W -> src <> id -> w_grids W src = Some s -> ~ sized s -> w_grids W id = Some d ->
  supported (ct_sizes ct) 0 0 0 ->
  exists m' d', g_assign ct (w_mem W, d) s = Ret (m', d') tt /\ g_x d' = 0 /\ g_y d' = 0 /\ g_z d' = 0 /\ others_same ct W m' id.
Proof.
  intros ct W src id s d Hct HR Hne Hs Hns Hd Hsup.
  destruct (reachable_inv _ _ Hct HR) as [A I].
  destruct (winv_rep _ _ _ _ _ I Hs) as [a [HA G]]. destruct (winv_rep _ _ _ _ _ I Hd) as [ad [HAd Gd]].
  assert (Hf : ag_fresh a = true).
  { destruct (ag_fresh a) eqn:E; auto. destruct (grep_alloc _ _ _ _ G E) as [e GA]. exfalso. apply Hns. eapply galloc_null; eauto. }
  pose proof G as [X [Y [Zz G0]]]. rewrite Hf in G0. destruct G0 as [X0 [Y0 [Z0' _]]].
  pose proof (wi_sep _ _ _ I src id s d Hne Hs Hd) as Hsep.
  destruct (assign_ok ct (w_mem W) d ad s a Hct (wi_ok _ _ _ I) Gd G Hsep) as [m' [d' [E [F [X' [Y' [Z' _]]]]]]].
  { rewrite <- X, <- Y, <- Zz, X0, Y0, Z0'. auto. }
  exists m', d'. cbn [ag_x ag_y ag_z] in *. repeat (split; [congruence|]).
  eapply frame_others; eauto. rewrite Hd. exact F.
Qed.

Print Assumptions C19_isolation.
Print Assumptions C19_copy.
Print Assumptions C19_assign.
Print Assumptions C19_self_assign.
Print Assumptions C19_assign_empty_refuted.
Print Assumptions C20_copy_extents_unset.
Print Assumptions C20_refuted.
Print Assumptions C21_resize_same.
Print Assumptions C21_resize.
Print Assumptions C22_failed_resize.
Print Assumptions C22_refuted.
Print Assumptions C22_unsized_partial.
Print Assumptions C23_refuted.
Print Assumptions C23_swap_partial.
Print Assumptions C24_refinement.
Print Assumptions C25_live_elements.
Print Assumptions C25_nothing_left.
Print Assumptions C26_symmetric.
Print Assumptions C26_asymmetric.
Print Assumptions C26_sees_data.
Print Assumptions C27_default_ctor.
Print Assumptions C27_copy_refuted.
Print Assumptions C27_assign_refuted.
Print Assumptions C27_destroy_partial.
Print Assumptions C27_assign_partial.
