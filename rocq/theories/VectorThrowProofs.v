(** Lemmas about soa_vector in GridThrow.v. *)
From Coq Require Import ZArith List Lia Bool.
From Verif Require Import Base Layout LayoutProofs Sizes SizesProofs Mem MemProofs
  Accessor AccessorProofs RegionProofs Grid SpecGrid GridProofs GridInv BufferProofs GridOps GridSim GridView
  Array SpecArray ArrayProofs Vector SpecVector VectorProofs GridThrow SpecGridThrow GridThrowProofs
  ArrayThrow SpecArrayThrow ArrayThrowProofs BufferThrow BufferThrowProofs.
From Verif Require GridThrowRunProofs.
Import ListNotations.
Open Scope Z_scope.

(** *** What is left of the schedule *)
Lemma resize_to_sched : forall ct s m g A nx ny nz s' w' u,
  wf_ct ct -> mem_ok m -> grep ct m g A -> 0 <= nx -> 0 <= ny -> 0 <= nz -> supported (ct_sizes ct) nx ny nz ->
  x_resize_to ct s (m, g) nx ny nz = XRet s' w' u ->
  sc_allocs s <> Some 0%nat /\ sc_allocs s' = tick (sc_allocs s) /\
  match sc_ops s with
  | Some k => (grid_elements (ct_ms ct) nx ny nz <= k)%nat /\ sc_ops s' = Some (k - grid_elements (ct_ms ct) nx ny nz)%nat
  | None => sc_ops s' = None
  end.
Proof.
  intros ct s m g A nx ny nz s' w' u Hct M G X Y Zz Hs H. unfold x_resize_to in H.
  destruct (destroy_ok ct m g A Hct M G) as [m1 [E1 F1]]. rewrite E1 in H. cbn [plain xbind] in H.
  destruct (supported_choose _ _ _ _ Hs) as [e He].
  rewrite x_callback_choose in H. cbn [g_x g_y g_z] in H. rewrite He in H. cbn [xbind a_ext g_bs x_use] in H.
  rewrite byte_size_of_prod in H. cbn [x_use] in H. unfold x_alloc in H.
  pose proof (gf_ok _ _ _ _ F1) as M1.
  destruct (due (sc_allocs s)) eqn:Ed; [discriminate|].
  assert (Hd : sc_allocs s <> Some 0%nat) by (intros Q; rewrite Q in Ed; discriminate).
  destruct (alloc m1 (total (ct_ms ct) * DIM_PROD e)) as [m2 p] eqn:Ea. cbn [g_ex g_ey g_ez g_bs] in H.
  destruct (alloc_frame _ _ _ _ M1 Ea) as [F2 [Hp1 [Hp2 Hp3]]].
  assert (F : fits e nx ny nz) by (eapply choose_fits; eauto).
  assert (R2 : region (ct_ms ct) m2 p (DIM_PROD e) (fun _ => None)).
  { eapply alloc_region; eauto. eapply DIM_PROD_nonneg; eauto. }
  set (g' := mkGrid nx ny nz (Some (DIM_X e)) (Some (DIM_Y e)) (Some (DIM_Z e)) (Some (total (ct_ms ct) * DIM_PROD e)) p) in *.
  destruct (init_cases ct (mkSched (sc_ops s) (tick (sc_allocs s))) m2 g' e) as [[s1 [m3 [E3 [_ [Ha [_ Hk]]]]]]|[m3 [k [E3 _]]]]; auto.
  { apply (gf_ok _ _ _ _ F2). }
  - rewrite E3 in H. inversion H; subst. split; auto.
  - rewrite E3 in H. discriminate.
Qed.

(** *** load *)
Lemma load_line_cases : forall ct s m h E cells q Q cj n,
  wf_ct ct -> galloc ct m h (line E) cells -> g_x h = E -> g_y h = 1 -> g_z h = 1 ->
  region (ct_ms ct) m q Q cj -> pb q <> blk h -> 0 <= n <= E -> (forall i, 0 <= i < n -> cj i <> None) ->
  match x_load_streaks ct s (m, h) [(0, 0, 0, n)] q Q with
  | XRet s' w' _ => g_load_streaks ct (m, h) [(0, 0, 0, n)] q Q = Ret w' tt /\
      (forall k, sc_ops s = Some k -> (Z.to_nat n * class_elements (ct_ms ct) <= k)%nat /\
         sc_ops s' = Some (k - Z.to_nat n * class_elements (ct_ms ct))%nat)
  | XThr (m', h') ex => ex = XMember /\ h' = h /\ (exists k, sc_ops s = Some k /\ (k < Z.to_nat n * class_elements (ct_ms ct))%nat) /\ same_other m m' (blk h) /\
      exists cells', galloc ct m' h (line E) cells'
  | _ => False
  end.
Proof.
  intros ct s m h E cells q Q cj n Hct G X Y Zz RQ Hq Hn Hcj.
  pose proof (load_line_ok ct m h E cells q Q cj n Hct G X Y Zz RQ Hq Hn Hcj) as [mr [Er _]].
  pose proof (load_agrees ct s (m, h) [(0, 0, 0, n)] q Q) as Ag.
  pose proof Er as Er'. unfold g_load_streaks in Er. unfold x_load_streaks in *. rewrite x_callback_choose in *. rewrite callback_choose in Er.
  rewrite (ga_choose _ _ _ _ _ G) in *. unfold x_run in *.
  pose proof (calls_load (ct_ms ct) (g_data h) (mkAcc (line E) 0 0) q Q [(0, 0, 0, n)] 0) as HC. rewrite length_coords in HC. cbn [streak_coords flat_map length] in HC.
  rewrite load_functor_canon in *.
  pose proof (exec_x_inv (map (copy_key_op (g_data h) (DIM_PROD (a_ext (mkAcc (line E) 0 0))) q Q) (row_keys (ct_ms ct) (rows_of (line E) 0 [(0, 0, 0, n)]))) s m) as V.
  destruct (exec_x s _ m) as [s1 m1 []|m1 ex| |f] eqn:Ex; cbn [xlift] in *.
  - split; [eapply Ag; reflexivity|]. intros k Hk. destruct V as [_ [_ [V _]]]. specialize (V _ Hk). cbn [a_ext] in V, HC. rewrite HC, Nat.add_0_r in V. exact V.
  - destruct V as [-> [pre [op [post [Eo [Hm [Ep Hk]]]]]]]. split; auto. split; auto. split.
    { exists (calls pre). split; auto. cbn [a_ext] in Eo, HC. rewrite Eo, calls_app in HC. unfold calls in HC at 2. cbn [filter] in HC. rewrite Hm in HC. cbn [length] in HC. lia. }
    destruct (partial_assign ct m m1 h (line E) cells pre
       (fun x y z => if (0 <=? x) && (x <? n) && (y =? 0) && (z =? 0) then cj x else None)) as [c2 [GA' [SO _]]]; auto.
    + intros x y z c Hc. destruct (_ && _) in Hc; [|discriminate]. apply (rg_cell _ _ _ _ _ RQ x). exact Hc.
    + intros o Ho. assert (Hin : In o (map (copy_key_op (g_data h) (DIM_PROD (line E)) q Q) (row_keys (ct_ms ct) (rows_of (line E) 0 [(0, 0, 0, n)])))).
      { cbn [a_ext] in Eo. rewrite Eo. apply in_or_app; auto. }
      apply in_map_iff in Hin. destruct Hin as [k [<- Hk']]. apply in_row_keys_pairs in Hk'. destruct Hk' as [Hs Hp].
      cbn [rows_of] in Hp. rewrite gen_line in Hp. unfold row_pairs in Hp. cbn [flat_map fst snd] in Hp. rewrite app_nil_r in Hp.
      apply in_map_iff in Hp. destruct Hp as [i [Ei Hi]]. apply in_zseq in Hi.
      assert (E1 : snd (fst k) = i) by (apply (f_equal fst) in Ei; cbn [fst] in Ei; lia).
      assert (E2 : snd k = i) by (apply (f_equal snd) in Ei; cbn [snd] in Ei; lia).
      unfold copy_key_op. cbn [assigning op_src op_dst op_size op_val]. split; auto. split; [exact Hq|].
      destruct (cj i) as [c|] eqn:Ec; [|exfalso; apply (Hcj i Hi); auto].
      exists (fst (fst k)), i, 0, 0, c. rewrite E1, E2, gen_line.
      split; auto. split; [unfold in_dims; lia|]. split; auto. split; auto. split.
      { assert ((0 <=? i) && (i <? n) && (0 =? 0) && (0 =? 0) = true) as -> by lia. exact Ec. }
      destruct (rg_cell _ _ _ _ _ RQ _ _ Ec) as [_ Hwf].
      destruct (cell_value (ct_ms ct) _ (fst (fst k)) Hwf Hs) as [w Hv].
      destruct (rg_val _ _ _ _ _ RQ _ _ _ _ Ec Hv) as [-> _]. exact Hv.
    + split; eauto.
  - contradiction.
  - cbn [a_ext] in *. rewrite V in Er. cbn [run] in Er. discriminate.
Qed.

Lemma line_elements : forall ms n, grid_elements ms n 1 1 = (Z.to_nat n * class_elements ms)%nat.
Proof. intros. unfold grid_elements. rewrite !Z.mul_1_r. reflexivity. Qed.

(** *** reserve *)
Lemma reserve_agrees : forall ct s w n, agrees (x_v_reserve ct s w n) (v_reserve ct w n).
Proof.
  intros ct s [m v] n s' w' a H. unfold x_v_reserve in H. unfold v_reserve.
  destruct (x_new ct s m n 1 1) as [s1 [m1 h] []|[] ?| |] eqn:E1; try discriminate.
  unfold x_new in E1. apply resize_agrees in E1. fold (g_new ct m n 1 1) in E1. rewrite E1.
  destruct (g_ex h) as [ex|]; cbn [x_use use] in *; [|discriminate].
  destruct (x_resize ct s1 (m1, h) ex 1 1) as [s2 [m2 h2] []|[m2 h2] e2| |] eqn:E2; try discriminate.
  2: { unfold unwind in H. destruct (g_destroy ct (m2, h2)) as [[] ?| |]; discriminate. }
  apply resize_agrees in E2. rewrite E2.
  destruct (g_ex (v_grid v)) as [old|]; cbn [x_use use] in *; [|discriminate].
  destruct (x_load_streaks ct s2 (m2, h2) _ _ _) as [s3 [m3 h3] []|[m3 h3] e3| |] eqn:E3; try discriminate.
  2: { unfold unwind in H. destruct (g_destroy ct (m3, h3)) as [[] ?| |]; discriminate. }
  apply load_agrees in E3. rewrite E3.
  destruct (g_swap h3 (v_grid v)) as [h4 g4]. destruct (g_destroy ct (m3, h4)) as [[m4 h5] []|[m4 h5] e|f]; try discriminate.
  inversion H; subst. reflexivity.
Qed.

Lemma x_new_line : forall ct s m n, x_new ct s m n 1 1 = x_resize_to ct s (m, mkGrid 0 0 0 None None None None null) n 1 1.
Proof. intros. unfold x_new, x_resize. cbn [g_x g_y g_z]. rewrite andb_false_r. reflexivity. Qed.

Definition second (ms : list member) (n E : Z) : nat := if n =? E then 0%nat else grid_elements ms E 1 1.

Lemma x_reserve_cases : forall ct L s m v a n E',
  wf_ct ct -> line_policy (ct_sizes ct) L -> mem_ok m -> vrep ct L m v a -> av_ext a = true ->
  0 <= n -> first_fit n L E' -> len (av_l a) <= E' ->
  let N1 := grid_elements (ct_ms ct) n 1 1 in
  let N2 := second (ct_ms ct) n E' in
  let N3 := (Z.to_nat (len (av_l a)) * class_elements (ct_ms ct))%nat in
  match x_v_reserve ct s (m, v) n with
  | XRet s' w' _ => v_reserve ct (m, v) n = Ret w' tt /\ sc_allocs s <> Some 0%nat /\
      (n = E' \/ sc_allocs s <> Some 1%nat) /\
      (forall k, sc_ops s = Some k -> (N1 + N2 + N3 <= k)%nat /\ sc_ops s' = Some (k - (N1 + N2 + N3))%nat)
  | XThr (m', v') XBadAlloc => v' = v /\ m' = m /\ sc_allocs s = Some 0%nat
  | XThr (m', v') XMember => v' = v /\ sc_allocs s <> Some 0%nat /\ exists k, sc_ops s = Some k /\
      ((k < N1)%nat /\ (exists b N, leaves_block m m' b N k) \/
       (N1 + N2 <= k < N1 + N2 + N3)%nat /\ (n = E' \/ sc_allocs s <> Some 1%nat) /\ gframe m 0 m' 0)
  | XFlt Dangling => n <> E' /\ sc_allocs s = Some 1%nat /\ (forall k, sc_ops s = Some k -> (N1 <= k)%nat)
  | XFlt DestroyDead => n <> E' /\ sc_allocs s <> Some 0%nat /\ sc_allocs s <> Some 1%nat /\
      exists k, sc_ops s = Some k /\ (N1 <= k < N1 + N2)%nat
  | _ => False
  end.
Proof.
  intros ct L s m v a n E' W P M V He Hn FF HE N1 N2 N3.
  destruct (first_fit_in _ _ _ FF) as [_ HnE].
  assert (Hs1 : supported (ct_sizes ct) n 1 1) by (eapply supported_line; eauto).
  assert (Hs2 : supported (ct_sizes ct) E' 1 1) by (eapply supported_line; [eauto|eapply first_fit_self; eauto]).
  pose proof (fresh_rep ct m (fun _ _ _ => [])) as G0.
  set (g0 := mkGrid 0 0 0 None None None None null) in *.
  pose proof (reserve_agrees ct s (m, v) n) as Ag.
  pose proof (vrep_lt _ _ _ _ _ M V) as Hlt.
  unfold x_v_reserve in *. rewrite x_new_line in *. fold g0 in Ag |- *.
  destruct (grid_new_ok ct L m n E' W P M Hn FF) as [m1 [h [En [F1 GI]]]]. rewrite g_new_line in En. fold g0 in En.
  assert (H1 : 0 <= 1) by lia.
  destruct (resize_to_total ct s m g0 _ n 1 1 W M G0 Hn H1 H1 Hs1) as [[s1 [w1 [E1 [Ha1 _]]]]|[[m1' g1'] [ex [E1 Q1]]]].
  2: { (* the first grid is not finished *)
    pose proof (resize_to_cases ct s m g0 _ n 1 1 (m1', g1') ex W M G0 Hn H1 H1 Hs1 E1) as [_ [_ [_ [_ C]]]]. rewrite E1 in Ag |- *.
    destruct C as [[-> [Ha [_ [_ Ed]]]]|[-> [k [N [Hk [Hl [Hb0 [Hb [F [HN [Hal _]]]]]]]]]]].
    - split; auto. split; auto. cbn in Ed. congruence.
    - split; auto. split. { destruct Q1 as [[Q _]|[_ [Q _]]]; [discriminate|exact Q]. }
      exists k. split; auto. left. split; auto. exists (blk g1'), N. apply frame_leaves; auto. }
  pose proof (resize_to_sched ct s m g0 _ n 1 1 s1 w1 tt W M G0 Hn H1 H1 Hs1 E1) as [_ [Hal1 Hop1]].
  assert (w1 = (m1, h)).
  { assert (E1' : x_resize ct s (m, g0) n 1 1 = XRet s1 w1 tt).
    { unfold x_resize. cbn [g0 g_x g_y g_z]. rewrite andb_false_r. exact E1. }
    apply resize_agrees in E1'. unfold g_resize in E1'. cbn [g0 g_x g_y g_z] in E1'. rewrite andb_false_r in E1'. fold g0 in E1'. congruence. }
  subst w1. rewrite E1 in Ag |- *. destruct GI as [G1 [X1 [Y1 [Z1 X1']]]]. rewrite X1' in Ag |- *. cbn [x_use] in Ag |- *.
  pose proof (gf_ok _ _ _ _ F1) as M1.
  set (A1 := mkAG (g_x h) (g_y h) (g_z h) false (fun _ _ _ => default_cell (ct_ms ct))).
  assert (GR1 : grep ct m1 h A1) by (repeat split; exists (line E'); exact G1).
  assert (HE0 : 0 <= E') by lia.
  (* the second grid *)
  assert (RS : (exists s2 m2 h2, x_resize ct s1 (m1, h) E' 1 1 = XRet s2 (m2, h2) tt /\ gframe m 0 m2 (blk h2) /\
       grid_is ct m2 h2 E' E' (fun _ _ _ => default_cell (ct_ms ct)) /\ (n = E' \/ sc_allocs s1 <> Some 0%nat) /\
       match sc_ops s1 with Some k => (N2 <= k)%nat /\ sc_ops s2 = Some (k - N2)%nat | None => sc_ops s2 = None end) \/
     (n <> E' /\ exists m2 h2 ex, x_resize ct s1 (m1, h) E' 1 1 = XThr (m2, h2) ex /\
       ((ex = XBadAlloc /\ sc_allocs s1 = Some 0%nat /\ g_destroy ct (m2, h2) = Flt Dangling) \/
        (ex = XMember /\ sc_allocs s1 <> Some 0%nat /\ (exists k, sc_ops s1 = Some k /\ (k < N2)%nat) /\ g_destroy ct (m2, h2) = Flt DestroyDead)))).
  { unfold x_resize, N2, second. rewrite X1, Y1, Z1, !Z.eqb_refl, !andb_true_r. destruct (Z.eqb_spec n E') as [EQn|NE].
    - left. exists s1, m1, h. split; auto. split; auto. split; [rewrite <- EQn at 1; exact (conj G1 (conj X1 (conj Y1 (conj Z1 X1'))))|].
      split; auto. destruct (sc_ops s1) as [k|]; auto. rewrite Nat.sub_0_r. split; auto. lia.
    - destruct (resize_to_total ct s1 m1 h A1 E' 1 1 W M1 GR1 HE0 H1 H1 Hs2) as [[s2 [[m2 h2] [E2 [Ha2 _]]]]|[[m2 h2] [ex [E2 Q2]]]].
      + left. exists s2, m2, h2. split; auto.
        assert (E2' : x_resize ct s1 (m1, h) E' 1 1 = XRet s2 (m2, h2) tt).
        { unfold x_resize. rewrite X1. assert ((n =? E') = false) as -> by lia. exact E2. }
        apply resize_agrees in E2'. unfold g_resize in E2'. rewrite X1 in E2'. assert ((n =? E') = false) as Hq by lia. rewrite Hq in E2'. cbn [andb] in E2'.
        destruct (grid_resized ct L m1 h A1 E' E' W P M1 GR1 HE0 (first_fit_self _ _ _ FF)) as [m2' [h2' [Er [F2 [G2 _]]]]].
        rewrite E2' in Er. inversion Er; subst m2' h2'. split; [eapply gframe_trans; eauto|]. split; auto. split; auto.
        apply (resize_to_sched ct s1 m1 h A1 E' 1 1 s2 (m2, h2) tt W M1 GR1 HE0 H1 H1 Hs2 E2).
      + right. split; auto. exists m2, h2, ex. split; auto.
        pose proof (resize_to_cases ct s1 m1 h A1 E' 1 1 (m2, h2) ex W M1 GR1 HE0 H1 H1 Hs2 E2) as [HX [HY [HZ [[e [Ce Hbs]] C]]]].
        destruct C as [[-> [Ha [Hp [F _]]]]|[-> [k [N [Hk [Hl [Hb0 [Hb [F [HN [Hal Hd]]]]]]]]]]].
        * left. split; auto. split; auto. unfold g_destroy. eapply destroy_gone; eauto; [rewrite HX, HY, HZ; exact Ce| |].
          -- unfold blk. rewrite Hp. apply (ga_blk _ _ _ _ _ G1).
          -- unfold blk. rewrite Hp. destruct (msize m2 (pb (g_data h))) as [N|] eqn:EN; auto.
             destruct (gf_leak _ _ _ _ F _ _ EN) as [Q|[Q _]]; [|exfalso; apply Q; reflexivity]. exfalso. apply (ga_blk _ _ _ _ _ G1). exact Q.
        * right. split; auto. split. { destruct Q2 as [[Q _]|[_ [Q _]]]; [discriminate|exact Q]. } split; eauto. }
  assert (Hops : forall k1, sc_ops s1 = Some k1 -> exists k, sc_ops s = Some k /\ (N1 <= k)%nat /\ (k1 = k - N1)%nat).
  { intros k1 Q. destruct (sc_ops s) as [k|]; [|congruence]. exists k. destruct Hop1 as [H2 H3]. split; auto. split; auto. rewrite Q in H3. injection H3 as ->. reflexivity. }
  assert (Hall : sc_allocs s1 = Some 0%nat <-> sc_allocs s = Some 1%nat).
  { rewrite Hal1. clear - Ha1. destruct (sc_allocs s) as [[|[|q]]|]; cbn [tick]; split; intros Q; congruence. }
  destruct RS as [[s2 [m2 [h2 [E2 [F2 [[G2 [X2 [Y2 [Z2 X2']]]] [Ha2 Hop2]]]]]]]|[NE [m2 [h2 [ex [E2 C]]]]]].
  2: { rewrite E2 in Ag |- *. unfold unwind in Ag |- *. destruct C as [[-> [Ha Hd]]|[-> [Ha [[k1 [Hk1 Hl]] Hd]]]]; rewrite Hd in Ag |- *.
    - split; auto. split; [apply Hall; auto|]. intros k Q. rewrite Q in Hop1. apply Hop1.
    - split; auto. split; auto. split; [intros Q; apply Hall in Q; auto|]. destruct (Hops _ Hk1) as [k [Q1 [Q2 Q3]]]. exists k. split; auto. lia. }
  rewrite E2 in Ag |- *.
  assert (V2 : vrep ct L m2 v a).
  { eapply vrep_frame; [exact M|exact V|exact F2|]. apply (vrep_blk _ _ _ _ _ V). }
  assert (Hb : (mnext m <= blk h2)%nat).
  { destruct (gf_new _ _ _ _ F2) as [C|[C|C]]; auto; pose proof (ga_blk _ _ _ _ _ G2); congruence. }
  destruct V2 as [E [ci R2]]. rewrite (vr_ext _ _ _ _ _ _ _ R2), He in Ag |- *. cbn [x_use] in Ag |- *.
  pose proof (vr_count _ _ _ _ _ _ _ R2) as HN. assert (H0 : 0 <= len (av_l a)) by (unfold len; lia).
  assert (Hbl : pb (g_data (v_grid v)) <> blk h2) by (unfold blk in *; lia).
  assert (Hc : 0 <= v_count v <= E') by lia.
  assert (Hci : forall i, 0 <= i < v_count v -> ci i <> None).
  { intros i Hi. rewrite (vr_l _ _ _ _ _ _ _ R2) by lia. apply nth_error_Some. unfold len in *. lia. }
  pose proof (load_line_cases ct s2 m2 h2 E' _ (g_data (v_grid v)) E ci (v_count v) W G2 X2 Y2 Z2 (vr_region _ _ _ _ _ _ _ R2) Hbl Hc Hci) as LC.
  destruct (load_line_ok ct m2 h2 E' _ (g_data (v_grid v)) E ci (v_count v) W G2 X2 Y2 Z2 (vr_region _ _ _ _ _ _ _ R2) Hbl Hc Hci) as [m3 [El [SO G3]]].
  destruct (x_load_streaks ct s2 (m2, h2) _ _ _) as [s3 [m3' h3] u3|[m3' h3] e3| |f3]; try contradiction.
  - destruct LC as [LC HL]. rewrite El in LC. inversion LC; subst m3' h3.
    assert (F3 : gframe m 0 m3 (blk h2)) by (unfold blk in *; eapply same_other_frame0; eauto).
    rewrite g_swap_eq in Ag |- *.
    assert (V3 : vrep ct L m3 v a).
    { eapply vrep_frame; [exact M|exact V|exact F3|]. apply (vr_blk _ _ _ _ _ _ _ R2). }
    destruct (destroy_old ct L m3 v a h2 W P (gf_ok _ _ _ _ F3) V3 Y2 Z2) as [m4 [Ed F4]]. rewrite Ed in Ag |- *.
    split; [eapply Ag; reflexivity|]. split; auto. split.
    + destruct Ha2 as [Ha2|Ha2]; auto. right. intros Q. apply Hall in Q. auto.
    + intros k Q. rewrite Q in Hop1. destruct Hop1 as [K1 K2]. rewrite K2 in Hop2. destruct Hop2 as [K3 K4]. specialize (HL _ K4). rewrite HN in HL. fold N3 in HL. destruct HL as [L1 L2].
      split; [lia|]. rewrite L2. f_equal. lia.
  - destruct LC as [-> [-> [[k3 [Hk3 Hl3]] [SO3 [c3 G4]]]]]. unfold unwind.
    assert (F3 : gframe m 0 m3' (blk h2)) by (unfold blk in *; eapply same_other_frame0; eauto).
    destruct (destroy_ok ct m3' h2 (mkAG (g_x h2) (g_y h2) (g_z h2) false c3) W (gf_ok _ _ _ _ F3)) as [m4 [Ed F4]].
    { repeat split. exists (line E'). exact G4. }
    unfold g_destroy. rewrite Ed. split; auto. split; auto.
    destruct (sc_ops s1) as [k1|] eqn:Es1; [|congruence]. destruct Hop2 as [Hop2 Hop3]. rewrite HN in Hl3. fold N3 in Hl3.
    destruct (Hops _ eq_refl) as [k [Q1 [Q2 Q3]]]. exists k. split; auto. right. split; [split; [lia|]; rewrite Hk3 in Hop3; injection Hop3 as ->; lia|]. split.
    + destruct Ha2 as [Ha2|Ha2]; auto. right. intros Q. apply Hall in Q. auto.
    + eapply gframe_trans; eauto.
Qed.

(** *** set *)
Lemma slots_class_member : forall ms o sl, In sl (slots_from o ms) -> exists mb, In mb ms /\ s_class sl = m_class mb.
Proof.
  induction ms as [|mb ms IH]; intros o sl H; cbn [slots_from] in H; [contradiction|]. apply in_app_or in H. destruct H as [H|H].
  - exists mb. split; [left; reflexivity|]. unfold member_slots in H. apply in_map_iff in H. destruct H as [k [<- _]]. reflexivity.
  - destruct (IH _ _ H) as [mb' [H1 H2]]. exists mb'. split; [right; auto|auto].
Qed.

(** What a throwing set leaves: the element is a mixture, the others are as before. *)
Lemma x_write_cases : forall ct L s m v a E ci i c,
  wf_ct ct -> line_policy (ct_sizes ct) L -> vrep_at ct L m v a E ci -> 0 <= i < E ->
  (trivial (ct_ms ct) \/ i < av_cap a) -> wf_cell (ct_ms ct) c ->
  match x_set ct s (m, v_grid v) i 0 0 c with
  | XRet _ w' _ => g_set ct (m, v_grid v) i 0 0 c = Ret w' tt
  | XThr (m', g') ex => ex = XMember /\ g' = v_grid v /\ ~ trivial (ct_ms ct) /\ same_other m m' (blk (v_grid v)) /\
      exists c0 c', ci i = Some c0 /\ mixed (ct_ms ct) c0 c c' /\ region (ct_ms ct) m' (g_data (v_grid v)) E (upd ci [(i, Some c')])
  | _ => False
  end.
Proof.
  intros ct L s m v a E ci i c Hct P R Hi HT Hc. pose proof Hct as [Hw _].
  pose proof (vrep_galloc _ _ _ _ _ _ _ P R) as G. pose proof (ga_choose _ _ _ _ _ G) as C.
  destruct (v_write_ok ct L m v a E ci i c Hct P R Hi HT Hc) as [mr [Er _]].
  pose proof (set_row_agrees ct s m (v_grid v) [c] 1 i 0 0 1) as Ag. unfold x_set.
  assert (Er' : g_set ct (m, v_grid v) i 0 0 c = Ret (mr, v_grid v) tt).
  { unfold v_set, on_grid in Er. destruct (g_set ct (m, v_grid v) i 0 0 c) as [[m1 g1] []|[m1 g1] e|f] eqn:Eg; try discriminate.
    destruct v as [g n]. cbn [v_grid v_count] in *. inversion Er; subst. reflexivity. }
  unfold g_set in Er'. rewrite callback_choose in Er'. unfold x_set_row in *. rewrite x_callback_choose in *. rewrite C in *.
  destruct (set_instance_functor _ _ _ _ _ _ _ _ _) as [ops|] eqn:E0; [|discriminate].
  unfold x_run in *. pose proof (exec_x_inv ops s m) as V.
  destruct (exec_x s ops m) as [s1 m1 []|m1 ex| |f] eqn:Ex; cbn [xlift] in *.
  - eapply Ag. reflexivity.
  - destruct V as [-> [pre [op [post [-> [Hm [Ep Hk]]]]]]]. split; auto. split; auto.
    assert (Hops : forall o, In o (pre ++ op :: post) -> exists sl w,
      o = Assign (sptr (g_data (v_grid v)) (DIM_PROD (line E)) sl (gen_index (line E) i 0 0)) (s_size sl) (s_class sl) w /\
      In (sl, w) (combine (slots (ct_ms ct)) (concat c))).
    { intros o Ho. destruct (set_ops_in _ _ _ _ _ _ _ _ _ _ E0) with (op := o) as [j [c1 [sl [w [Hj [Hc1 [-> Hv]]]]]]]; auto.
      - intros j c1 Hj Hc1. assert (j = 0) by lia. subst j. cbn in Hc1. congruence.
      - assert (j = 0) by lia. subst j. cbn in Hc1. inversion Hc1; subst c1. rewrite Z.add_0_r. eauto. }
    assert (HnT : ~ trivial (ct_ms ct)).
    { intros T. destruct (Hops op) as [sl [w [-> Hv]]]; [apply in_or_app; right; left; reflexivity|].
      cbn [may_throw] in Hm. apply in_combine_l in Hv. destruct (slots_class_member (ct_ms ct) 0 sl Hv) as [mb [Hmb Hcl]].
      unfold trivial in T. rewrite Forall_forall in T. rewrite (T _ Hmb) in Hcl. congruence. }
    split; auto.
    assert (Hcap : i < av_cap a) by (destruct HT; [contradiction|auto]).
    destruct (first_fit_in _ _ _ (vr_fit _ _ _ _ _ _ _ R)) as [_ HcE].
    assert (Hd : forall j, 0 <= j < av_cap a -> in_dims (g_x (v_grid v)) (g_y (v_grid v)) (g_z (v_grid v)) j 0 0).
    { intros j Hj. unfold in_dims. rewrite (vr_cap _ _ _ _ _ _ _ R), (vr_y _ _ _ _ _ _ _ R), (vr_z _ _ _ _ _ _ _ R). lia. }
    set (cells := fun x (_ _ : Z) => match ci x with Some c1 => c1 | None => [] end) in *.
    destruct (partial_assign ct m m1 (v_grid v) (line E) cells pre
       (fun x y z => if (x =? i) && (y =? 0) && (z =? 0) then Some c else None)) as [c2 [GA' [SO [HL HC]]]]; auto.
    { intros x y z c1 Q. destruct (_ && _) in Q; [|discriminate]. inversion Q; subst; auto. }
    { intros o Ho. destruct (Hops o) as [sl [w [-> Hv]]]; [apply in_or_app; auto|]. cbn [assigning op_src op_dst op_size op_val].
      split; auto. split; auto. exists sl, i, 0, 0, c. split; [apply in_combine_l in Hv; auto|].
      split; [apply Hd; lia|]. split; auto. split; auto. split; auto. rewrite Z.eqb_refl. reflexivity. }
    split; auto.
    assert (Hci : exists c0, ci i = Some c0) by (destruct (ci i) eqn:Q; [eauto|exfalso; apply (vr_in _ _ _ _ _ _ _ R i); [lia|auto]]).
    destruct Hci as [c0 Hc0].
    exists c0, (c2 i 0 0). split; auto. split.
    { specialize (HC i 0 0 (Hd i ltac:(lia))). cbv beta in HC. rewrite Z.eqb_refl in HC. cbn [andb Z.eqb] in HC. unfold cells in HC. rewrite Hc0 in HC. exact HC. }
    pose proof (ga_region _ _ _ _ _ GA') as RG. rewrite line_prod in RG. eapply region_ext; [|exact RG]. intros j.
    rewrite (vr_cap _ _ _ _ _ _ _ R), (vr_y _ _ _ _ _ _ _ R), (vr_z _ _ _ _ _ _ _ R), upd1.
    rewrite ci_line by (pose proof (vr_cap0 _ _ _ _ _ _ _ R); lia).
    destruct (Z.leb_spec 0 j); destruct (Z.ltb_spec j (av_cap a)); cbn [andb].
    + destruct (Z.eqb_spec j i) as [->|Nj]; auto.
      specialize (HC j 0 0 (Hd j ltac:(lia))). cbv beta in HC. assert ((j =? i) = false) as Q by lia. rewrite Q in HC. cbn [andb] in HC. rewrite HC.
      unfold cells. destruct (ci j) eqn:Qj; auto. exfalso. apply (vr_in _ _ _ _ _ _ _ R j); [lia|auto].
    + destruct (Z.eqb_spec j i); [lia|]. destruct (vr_out _ _ _ _ _ _ _ R) as [T|O]; [contradiction|]. rewrite O by lia. reflexivity.
    + destruct (Z.eqb_spec j i); [lia|]. destruct (ci j) eqn:Qj; auto. apply (rg_cell _ _ _ _ _ (vr_region _ _ _ _ _ _ _ R)) in Qj. lia.
    + destruct (Z.eqb_spec j i); [lia|]. destruct (ci j) eqn:Qj; auto. apply (rg_cell _ _ _ _ _ (vr_region _ _ _ _ _ _ _ R)) in Qj. lia.
  - contradiction.
  - rewrite V in Er'. cbn [run] in Er'. discriminate.
Qed.

(** The written element belongs to the list. *)
Lemma x_set_list : forall ct L s m v a i c,
  wf_ct ct -> line_policy (ct_sizes ct) L -> vrep ct L m v a -> 0 <= i < len (av_l a) -> wf_cell (ct_ms ct) c ->
  match x_v_set ct s (m, v) i c with
  | XRet _ w' _ => v_set ct (m, v) i c = Ret w' tt
  | XThr (m', v') ex => ex = XMember /\ v' = v /\ same_other m m' (blk (v_grid v)) /\
      exists c0 c', nth_error (av_l a) (Z.to_nat i) = Some c0 /\ mixed (ct_ms ct) c0 c c' /\
        vrep ct L m' v (mkAV (over (av_l a) (Z.to_nat i) [c']) (av_cap a) (av_full a) (av_ext a))
  | _ => False
  end.
Proof.
  intros ct L s m v a i c W P [E [ci R]] Hi Hc. pose proof (vr_le _ _ _ _ _ _ _ R) as Hle.
  assert (HiE : 0 <= i < E) by lia.
  assert (HT : trivial (ct_ms ct) \/ i < av_cap a) by (destruct (vr_small _ _ _ _ _ _ _ R); [auto|right; lia]).
  pose proof (x_write_cases ct L s m v a E ci i c W P R HiE HT Hc) as X. unfold x_v_set. cbn [fst snd].
  destruct (x_set ct s (m, v_grid v) i 0 0 c) as [s1 [m1 g1] []|[m1 g1] ex| |f]; cbn [xlift fst snd]; auto.
  - unfold v_set, on_grid. rewrite X. reflexivity.
  - destruct X as [-> [-> [HnT [SO [c0 [c' [Hc0 [Hm R']]]]]]]]. split; auto. split; [destruct v; reflexivity|]. split; auto.
    exists c0, c'. rewrite <- (vr_l _ _ _ _ _ _ _ R) by auto. split; auto. split; auto. exists E, (upd ci [(i, Some c')]).
    assert (HL : len (over (av_l a) (Z.to_nat i) [c']) = len (av_l a)) by (unfold len in *; rewrite length_over; cbn [length]; lia).
    destruct R. constructor; cbn [av_l av_cap av_full av_ext]; rewrite ?HL; auto.
    + intros j Hj. rewrite upd1. destruct (j =? i); [discriminate|auto].
    + destruct vr_out as [T|O]; auto. destruct vr_small as [T|S]; auto. right. intros j Hj. rewrite upd1. destruct (Z.eqb_spec j i); [lia|auto].
    + intros j Hj. rewrite upd1. unfold len in *. rewrite nth_error_over by lia. cbn [length].
      destruct (Z.eqb_spec j i) as [->|N].
      * destruct (Nat.ltb_spec (Z.to_nat i) (Z.to_nat i)); [lia|]. destruct (Nat.ltb_spec (Z.to_nat i) (Z.to_nat i + 1)); [|lia].
        rewrite Nat.sub_diag. reflexivity.
      * destruct (Nat.ltb_spec (Z.to_nat j) (Z.to_nat i)); [auto|]. destruct (Nat.ltb_spec (Z.to_nat j) (Z.to_nat i + 1)); [lia|auto].
Qed.

(** The written element is beyond the list (push_back and pop_back). *)
Lemma x_put_list : forall ct L s m v a E ci c,
  wf_ct ct -> line_policy (ct_sizes ct) L -> vrep_at ct L m v a E ci -> len (av_l a) < E ->
  (trivial (ct_ms ct) \/ len (av_l a) < av_cap a) -> wf_cell (ct_ms ct) c ->
  match x_v_set ct s (m, v) (v_count v) c with
  | XRet _ w' _ => v_set ct (m, v) (v_count v) c = Ret w' tt
  | XThr (m', v') ex => ex = XMember /\ v' = v /\ same_other m m' (blk (v_grid v)) /\ vrep ct L m' v a
  | _ => False
  end.
Proof.
  intros ct L s m v a E ci c W P R HE HT Hc. pose proof (vr_count _ _ _ _ _ _ _ R) as HN.
  assert (HiE : 0 <= v_count v < E) by (rewrite HN; unfold len in *; lia).
  assert (HT' : trivial (ct_ms ct) \/ v_count v < av_cap a) by (rewrite HN; auto).
  pose proof (x_write_cases ct L s m v a E ci (v_count v) c W P R HiE HT' Hc) as X. unfold x_v_set. cbn [fst snd].
  destruct (x_set ct s (m, v_grid v) (v_count v) 0 0 c) as [s1 [m1 g1] []|[m1 g1] ex| |f]; cbn [xlift fst snd]; auto.
  - unfold v_set, on_grid. rewrite X. reflexivity.
  - destruct X as [-> [-> [HnT [SO [c0 [c' [Hc0 [Hm R']]]]]]]]. split; auto. split; [destruct v; reflexivity|]. split; auto.
    exists E, (upd ci [(v_count v, Some c')]). destruct R. constructor; auto.
    + intros j Hj. rewrite upd1. destruct (j =? v_count v); [discriminate|auto].
    + destruct vr_out as [T|O]; auto. destruct HT' as [T|S]; auto. right. intros j Hj. rewrite upd1. destruct (Z.eqb_spec j (v_count v)); [lia|auto].
    + intros j Hj. rewrite upd1. destruct (Z.eqb_spec j (v_count v)); [lia|auto].
Qed.

Lemma value_init_default : forall ms, value_init ms = default_cell ms.
Proof. reflexivity. Qed.

Lemma x_pop_list : forall ct L s m v a l x,
  wf_ct ct -> line_policy (ct_sizes ct) L -> vrep ct L m v a -> av_l a = l ++ [x] ->
  match x_v_pop ct s (m, v) with
  | XRet _ w' _ => v_pop ct (m, v) = Ret w' tt
  | XThr (m', v') ex => ex = XMember /\ v' = mkVec (v_grid v) (v_count v - 1) /\ same_other m m' (blk (v_grid v)) /\
      vrep ct L m' v' (mkAV l (av_cap a) (av_full a) (av_ext a))
  | _ => False
  end.
Proof.
  intros ct L s m v a l x W P [E [ci R]] HL. pose proof (vr_count _ _ _ _ _ _ _ R) as HN.
  assert (Hlen : len (av_l a) = len l + 1) by (rewrite HL; unfold len; rewrite app_length; cbn; lia).
  assert (H0 : 0 <= len l) by (unfold len; lia).
  set (v1 := mkVec (v_grid v) (v_count v - 1)). set (a1 := mkAV l (av_cap a) (av_full a) (av_ext a)).
  assert (R1 : vrep_at ct L m v1 a1 E ci).
  { destruct R. constructor; cbn [v1 a1 v_grid v_count av_l av_cap av_full av_ext]; auto; try lia.
    - destruct vr_small; [auto|right; lia].
    - intros i Hi. rewrite vr_l by lia. rewrite HL. rewrite nth_error_app1; auto. unfold len in *. lia. }
  unfold x_v_pop, v_pop. cbn [fst snd]. fold v1.
  assert (HT : trivial (ct_ms ct) \/ len (av_l a1) < av_cap a1).
  { cbn [a1 av_l av_cap]. destruct (vr_small _ _ _ _ _ _ _ R); [auto|right; lia]. }
  assert (Hle : len (av_l a1) < E) by (cbn [a1 av_l]; pose proof (vr_le _ _ _ _ _ _ _ R); lia).
  pose proof (x_put_list ct L s m v1 a1 E ci (value_init (ct_ms ct)) W P R1 Hle HT) as X. cbn [v1 v_count] in X.
  specialize (X ltac:(rewrite value_init_default; apply default_cell_wf; apply W)). fold v1 in X.
  destruct (x_v_set ct s (m, v1) _ _) as [s1 w1 []|[m1 g1] ex| |f]; auto.
  destruct X as [-> [-> [SO V]]]. auto.
Qed.

(** *** push_back *)
Lemma x_push_eq : forall ct s m v c, x_v_push ct s (m, v) c =
  x_use (g_ex (v_grid v)) (fun ex =>
    xbind (if v_count v =? ex then x_v_reserve ct s (m, v) (grow (v_count v)) else XRet s (m, v) tt)
          (fun s1 w1 _ => xbind (x_v_set ct s1 w1 (v_count (snd w1)) c)
             (fun s2 w2 _ => XRet s2 (fst w2, mkVec (v_grid (snd w2)) (v_count (snd w2) + 1)) tt))).
Proof. reflexivity. Qed.

(** Without growth. *)
Lemma x_push_room : forall ct L s m v a c,
  wf_ct ct -> line_policy (ct_sizes ct) L -> vrep ct L m v a -> av_ext a = true -> wf_cell (ct_ms ct) c ->
  g_ex (v_grid v) <> Some (v_count v) -> (trivial (ct_ms ct) \/ av_full a = true \/ len (av_l a) < av_cap a) ->
  match x_v_push ct s (m, v) c with
  | XRet _ w' _ => v_push ct (m, v) c = Ret w' tt
  | XThr (m', v') ex => ex = XMember /\ v' = v /\ same_other m m' (blk (v_grid v)) /\ vrep ct L m' v a
  | _ => False
  end.
Proof.
  intros ct L s m v a c W P [E [ci R]] He Hc Hx HT. rewrite x_push_eq. unfold v_push. cbn [snd].
  pose proof (vr_ext _ _ _ _ _ _ _ R) as HX. rewrite He in HX. rewrite HX in *. cbn [x_use use].
  pose proof (vr_count _ _ _ _ _ _ _ R) as HN. pose proof (vr_le _ _ _ _ _ _ _ R) as Hle. pose proof (vr_full _ _ _ _ _ _ _ R) as HF.
  assert (HNE : v_count v <> E) by congruence. assert ((v_count v =? E) = false) as -> by lia. cbn [xbind obind snd].
  assert (HlE : len (av_l a) < E) by lia.
  assert (HT' : trivial (ct_ms ct) \/ len (av_l a) < av_cap a).
  { destruct HT as [T|[T|T]]; auto. specialize (HF T). right. lia. }
  pose proof (x_put_list ct L s m v a E ci c W P R HlE HT' Hc) as X.
  destruct (x_v_set ct s (m, v) (v_count v) c) as [s1 w1 []|[m1 v1] ex| |f]; cbn [xbind]; auto.
  rewrite X. reflexivity.
Qed.

(** With growth: the reservation, then the element. *)
Lemma x_push_grow : forall ct L s m v a c,
  wf_ct ct -> line_policy (ct_sizes ct) L -> growing L -> mem_ok m -> vrep ct L m v a -> av_ext a = true -> wf_cell (ct_ms ct) c ->
  g_ex (v_grid v) = Some (v_count v) -> room L (6 * len (av_l a) / 5) ->
  match x_v_push ct s (m, v) c with
  | XRet _ w' _ => v_push ct (m, v) c = Ret w' tt
  | XThr (m', v') ex => x_v_reserve ct s (m, v) (6 * len (av_l a) / 5) = XThr (m', v') ex \/
      exists s1 w1 cap', x_v_reserve ct s (m, v) (6 * len (av_l a) / 5) = XRet s1 w1 tt /\ ex = XMember /\ v_count v' = v_count v /\
        len (av_l a) < cap' /\ gframe m (blk (v_grid v)) m' (blk (v_grid v')) /\ vrep ct L m' v' (mkAV (av_l a) cap' true true)
  | XTerminate => False
  | XFlt f => x_v_reserve ct s (m, v) (6 * len (av_l a) / 5) = XFlt f
  end.
Proof.
  intros ct L s m v a c W P GR M V He Hc Hx Hr. rewrite x_push_eq. unfold v_push. cbn [snd]. rewrite Hx. cbn [x_use use]. rewrite Z.eqb_refl.
  pose proof V as [E [ci R]]. pose proof (vr_count _ _ _ _ _ _ _ R) as HN.
  pose proof (vr_ext _ _ _ _ _ _ _ R) as HX. rewrite He, Hx in HX. inversion HX as [HE].
  destruct (first_fit_in _ _ _ (vr_fit _ _ _ _ _ _ _ R)) as [HIn HcE].
  unfold growing in GR. rewrite Forall_forall in GR. specialize (GR E HIn).
  assert (HlE : len (av_l a) = E) by lia. rewrite HE, grow_floor by lia. rewrite HlE in *.
  assert (HG : E < 6 * E / 5) by (apply Z.lt_le_trans with (E + 1); [lia|]; apply Z.div_le_lower_bound; lia).
  destruct (first_fit_room _ _ Hr) as [E' FF]. destruct (first_fit_in _ _ _ FF) as [_ HE'].
  assert (Hnn : 0 <= 6 * E / 5) by lia. assert (HlE' : len (av_l a) <= E') by lia.
  pose proof (x_reserve_cases ct L s m v a (6 * E / 5) E' W P M V He Hnn FF HlE') as XC.
  destruct (x_v_reserve ct s (m, v) (6 * E / 5)) as [s1 w1 []|[m1 v1] ex| |f]; cbn [xbind].
  - destruct XC as [XC _].
    destruct (v_reserve_list_ok ct L m v a (6 * E / 5) W P M V He) as [m1 [v1 [cap' [Er [F1 [Hcap V1]]]]]]; auto; [lia|].
    rewrite Er in XC. inversion XC; subst w1. rewrite Er. cbn [obind snd].
    pose proof V1 as [E1 [ci1 R1]]. pose proof (vr_full _ _ _ _ _ _ _ R1 eq_refl) as HF1. cbn [av_cap] in HF1.
    assert (Hl1 : len (av_l (mkAV (av_l a) cap' true true)) < E1) by (cbn [av_l]; lia).
    assert (HT1 : trivial (ct_ms ct) \/ len (av_l (mkAV (av_l a) cap' true true)) < av_cap (mkAV (av_l a) cap' true true)) by (right; cbn [av_l av_cap]; lia).
    pose proof (x_put_list ct L s1 m1 v1 _ E1 ci1 c W P R1 Hl1 HT1 Hc) as X.
    destruct (x_v_set ct s1 (m1, v1) (v_count v1) c) as [s2 w2 []|[m2 v2] ex| |f]; cbn [xbind]; try contradiction.
    + rewrite X. reflexivity.
    + destruct X as [-> [-> [SO V2]]]. right. exists s1, (m1, v1), cap'. split; auto. split; auto. split.
      { rewrite (vr_count _ _ _ _ _ _ _ R1). cbn [av_l]. lia. }
      split; [lia|]. split; [|exact V2]. eapply gframe_trans; [exact F1|]. apply same_other_frame; auto. apply (gf_ok _ _ _ _ F1).
  - left. reflexivity.
  - exact XC.
  - reflexivity.
Qed.

(** *** soa_vector(count, value) *)
Lemma x_fill_cases : forall ct L s m n c E,
  wf_ct ct -> line_policy (ct_sizes ct) L -> mem_ok m -> 0 <= n -> first_fit n L E -> wf_cell (ct_ms ct) c ->
  match x_v_new_fill ct s m n c with
  | XRet _ w' _ => v_new_fill ct m n c = Ret w' tt /\ sc_allocs s <> Some 0%nat /\
      (forall k, sc_ops s = Some k -> (grid_elements (ct_ms ct) n 1 1 + grid_elements (ct_ms ct) n 1 1 <= k)%nat)
  | XThr (m', _) XBadAlloc => m' = m /\ sc_allocs s = Some 0%nat
  | XThr (m', _) XMember => sc_allocs s <> Some 0%nat /\ exists k, sc_ops s = Some k /\
      ((k < grid_elements (ct_ms ct) n 1 1)%nat /\ (exists b N, leaves_block m m' b N k) \/
       (grid_elements (ct_ms ct) n 1 1 <= k < grid_elements (ct_ms ct) n 1 1 + grid_elements (ct_ms ct) n 1 1)%nat /\ gframe m 0 m' 0)
  | _ => False
  end.
Proof.
  intros ct L s m n c E W P M Hn FF Hc. destruct (first_fit_in _ _ _ FF) as [_ HnE].
  assert (Hs1 : supported (ct_sizes ct) n 1 1) by (eapply supported_line; eauto).
  pose proof (fresh_rep ct m (fun _ _ _ => [])) as G0.
  set (g0 := mkGrid 0 0 0 None None None None null) in *.
  unfold x_v_new_fill. rewrite x_new_line. fold g0.
  destruct (grid_new_ok ct L m n E W P M Hn FF) as [m1 [h [En [F1 GI]]]]. unfold v_new_fill, v_new. rewrite En. rewrite g_new_line in En. fold g0 in En.
  assert (H1 : 0 <= 1) by lia.
  destruct (resize_to_total ct s m g0 _ n 1 1 W M G0 Hn H1 H1 Hs1) as [[s1 [w1 [E1 [Ha1 _]]]]|[[m1' g1'] [ex [E1 Q1]]]].
  2: { pose proof (resize_to_cases ct s m g0 _ n 1 1 (m1', g1') ex W M G0 Hn H1 H1 Hs1 E1) as [_ [_ [_ [_ C]]]]. rewrite E1.
    destruct C as [[-> [Ha [_ [_ Ed]]]]|[-> [k [N [Hk [Hl [Hb0 [Hb [F [HN [Hal _]]]]]]]]]]].
    - split; auto. cbn in Ed. congruence.
    - split. { destruct Q1 as [[Q _]|[_ [Q _]]]; [discriminate|exact Q]. }
      exists k. split; auto. left. split; auto. exists (blk g1'), N. apply frame_leaves; auto. }
  pose proof (resize_to_sched ct s m g0 _ n 1 1 s1 w1 tt W M G0 Hn H1 H1 Hs1 E1) as [_ [Hal1 Hop1]].
  assert (w1 = (m1, h)).
  { assert (E1' : x_resize ct s (m, g0) n 1 1 = XRet s1 w1 tt).
    { unfold x_resize. cbn [g0 g_x g_y g_z]. rewrite andb_false_r. exact E1. }
    apply resize_agrees in E1'. unfold g_resize in E1'. cbn [g0 g_x g_y g_z] in E1'. rewrite andb_false_r in E1'. fold g0 in E1'. congruence. }
  subst w1. rewrite E1. destruct GI as [G1 [X1 [Y1 [Z1 X1']]]].
  pose proof (gf_ok _ _ _ _ F1) as M1.
  destruct (v_new_fill_ok ct L m n c W P M Hn) as [m9 [g9 [E9 _]]]; auto. { exists E. split; auto. apply (first_fit_in _ _ _ FF). }
  unfold v_new_fill, v_new in E9. rewrite g_new_line in E9. fold g0 in E9. rewrite En in E9. cbn [obind on_grid v_grid v_count] in E9 |- *.
  pose proof (set_row_agrees ct s1 m1 h [c] 0 0 0 0 n) as Ag. fold (x_broadcast ct s1 (m1, h) 0 0 0 c n) in Ag.
  destruct (g_broadcast ct (m1, h) 0 0 0 c n) as [[m8 g8] []|[m8 g8] e8|f8] eqn:E8; try discriminate.
  unfold x_broadcast, x_set_row in *. rewrite x_callback_choose in *. unfold g_broadcast in E8. rewrite callback_choose in E8.
  rewrite (ga_choose _ _ _ _ _ G1) in *.
  destruct (set_instance_functor _ _ _ _ _ _ _ _ _) as [ops|] eqn:E0; [|discriminate].
  assert (HC : calls ops = grid_elements (ct_ms ct) n 1 1).
  { pose proof (GridThrowRunProofs.calls_set _ _ _ _ _ _ _ _ _ _ E0) as Q. rewrite line_elements. apply Q. intros j d Hj Hd.
    rewrite Z.mul_0_r in Hd. cbn in Hd. inversion Hd; subst; auto. }
  unfold x_run in *. pose proof (exec_x_inv ops s1 m1) as V.
  destruct (exec_x s1 ops m1) as [s2 m2 []|m2 ex| |f] eqn:Ex; cbn [xlift] in *.
  - destruct V as [V [_ [VK _]]]. rewrite V in E8. cbn [run] in E8. inversion E8; subst. split; [reflexivity|]. split; [exact Ha1|].
    intros k Q. rewrite Q in Hop1. destruct Hop1 as [Hop1 Hop2]. destruct (VK _ Hop2). lia.
  - destruct V as [-> [pre [op [post [-> [Hm [Ep Hk]]]]]]].
    assert (Hops : forall o, In o (pre ++ op :: post) -> exists j sl w, 0 <= j < n /\
      o = Assign (sptr (g_data h) (DIM_PROD (line E)) sl (gen_index (line E) (0 + j) 0 0)) (s_size sl) (s_class sl) w /\
      In (sl, w) (combine (slots (ct_ms ct)) (concat c))).
    { intros o Ho. destruct (set_ops_in _ _ _ _ _ _ _ _ _ _ E0) with (op := o) as [j [c1 [sl [w [Hj [Hc1 [-> Hv]]]]]]]; auto.
      - intros j c1 Hj Hc1. rewrite Z.mul_0_r in Hc1. cbn in Hc1. congruence.
      - rewrite Z.mul_0_r in Hc1. cbn in Hc1. inversion Hc1; subst c1. eauto 7. }
    destruct (partial_assign ct m1 m2 h (line E) (fun _ _ _ => default_cell (ct_ms ct)) pre (fun x y z => Some c)) as [c2 [GA' [SO _]]]; auto.
    { intros x y z c1 Q. inversion Q; subst; auto. }
    { intros o Ho. destruct (Hops o) as [j [sl [w [Hj [-> Hv]]]]]; [apply in_or_app; auto|]. cbn [assigning op_src op_dst op_size op_val].
      split; auto. split; auto. exists sl, (0 + j), 0, 0, c. split; [apply in_combine_l in Hv; auto|].
      split; [unfold in_dims; rewrite X1, Y1, Z1; lia|]. split; auto. }
    unfold unwind.
    assert (F3 : gframe m 0 m2 (blk h)) by (eapply gframe_trans; [exact F1|apply same_other_frame; auto]).
    destruct (destroy_ok ct m2 h (mkAG (g_x h) (g_y h) (g_z h) false c2) W (gf_ok _ _ _ _ F3)) as [m4 [Ed F4]].
    { repeat split. exists (line E). exact GA'. }
    unfold g_destroy. rewrite Ed. split; auto. destruct (sc_ops s) as [k|] eqn:Es; [|congruence].
    exists k. split; auto. right. destruct Hop1 as [Hop1 Hop2]. split; [|eapply gframe_trans; eauto]. split; auto.
    rewrite Hk in Hop2. injection Hop2 as Hop2. rewrite calls_app in HC. unfold calls in HC at 2. cbn [filter] in HC. rewrite Hm in HC. cbn [length] in HC. lia.
  - contradiction.
  - rewrite V in E8. discriminate.
Qed.

(** *** Worlds *)
Lemma sv_keep : forall ct L W A m', svinv ct L W A -> gframe (sw_mem W) 0 m' 0 -> svinv ct L (mkSW m' (sw_vecs W)) A.
Proof.
  intros ct L W A m' I F. constructor; cbn [sw_mem sw_vecs].
  - apply (gf_ok _ _ _ _ F).
  - intros i. pose proof (sv_rep _ _ _ _ I i) as R. destruct (sw_vecs W i) as [v|]; destruct (A i) as [a|]; auto.
    eapply vrep_frame; [apply (sv_mem _ _ _ _ I)|exact R|exact F|]. eapply vrep_blk; eauto.
  - apply (sv_sep _ _ _ _ I).
  - intros c n Hc. destruct (gf_leak _ _ _ _ F c n Hc) as [E|[_ E]].
    + exfalso. subst c. destruct (gf_ok _ _ _ _ F) as [_ [Q _]]. congruence.
    + apply (sv_leak _ _ _ _ I c n E).
Qed.
