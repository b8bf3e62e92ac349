(** Proofs about load() and save() of soa_grid with members that throw. *)
From Coq Require Import ZArith List Lia Bool Init.Byte.
From Verif Require Import Base Layout LayoutProofs Sizes SizesProofs Mem MemProofs
  Accessor AccessorProofs RegionProofs Grid SpecGrid GridProofs GridInv BufferProofs GridOps GridSim GridView
  Vector Array SpecArray ArrayProofs GridThrow SpecGridThrow GridThrowProofs ArrayThrow SpecArrayThrow ArrayThrowProofs BufferThrow.
Import ListNotations.
Open Scope Z_scope.

Lemma in_combine_nth : forall (A B : Type) (l : list A) (r : list B) a b, In (a, b) (combine l r) ->
  exists k, nth_error l k = Some a /\ nth_error r k = Some b.
Proof.
  intros A B l. induction l as [|x l IH]; intros [|y r] a b H; cbn in H; try contradiction.
  destruct H as [E|H]; [inversion E; subst; exists 0%nat; auto|]. destruct (IH r a b H) as [k Hk]. exists (S k). exact Hk.
Qed.

(** *** The client's buffer *)
Lemma x_with_buffer_ok : forall ct m g e cells cs body (Q : bool -> (Z -> Z -> Z -> cell) -> list cell -> Prop),
  wf_ct ct -> mem_ok m -> galloc ct m g e cells -> Forall (wf_cell (ct_ms ct)) cs ->
  (forall m2 q, mem_ok m2 -> galloc ct m2 g e cells -> pb q <> blk g ->
     region (ct_ms ct) m2 q (Z.of_nat (length cs)) (ci_list cs) ->
     exists m3 x b cells' cs', (if b : bool then body m2 q = XThr (m3, g) XMember else exists s', body m2 q = XRet s' (m3, g) tt) /\
       (x = blk g \/ x = pb q) /\ same_other m2 m3 x /\ Q b cells' cs' /\ length cs' = length cs /\
       galloc ct m3 g e cells' /\ region (ct_ms ct) m3 q (Z.of_nat (length cs)) (ci_list cs')) ->
  exists m' b cells' cs', x_with_buffer (ct_ms ct) m cs body = Ret (m', g) (b, pack (ct_ms ct) cs') /\
    gframe m (blk g) m' (blk g) /\ galloc ct m' g e cells' /\ Q b cells' cs'.
Proof.
  intros ct m g e cells cs body Q Hct M G Hcs Hbody. pose proof Hct as [Hw Hd].
  pose proof (galloc_lt _ _ _ _ _ M G) as Hlt. assert (Hb0 : blk g <> 0%nat) by (destruct G; auto).
  unfold x_with_buffer. rewrite packed_size_total.
  destruct (alloc m (total (ct_ms ct) * Z.of_nat (length cs))) as [m1 q] eqn:Ea.
  destruct (alloc_frame _ _ _ _ M Ea) as [F1 [Hq1 [Hq2 Hq3]]].
  assert (R1 : region (ct_ms ct) m1 q (Z.of_nat (length cs)) (fun _ => None)) by (eapply alloc_region; eauto; lia).
  destruct (build_region (ct_ms ct) m1 q cs Hw Hcs R1) as [m2 [E2 [SO2 R2]]]. rewrite E2.
  assert (M1 : mem_ok m1) by (eapply gf_ok; eauto).
  assert (M2 : mem_ok m2) by (eapply same_other_ok; [exact M1|exact SO2]).
  assert (G2 : galloc ct m2 g e cells).
  { apply (galloc_frame ct m1 m2 g e cells (pb q) (pb q)); auto.
    - exact (galloc_frame ct m m1 g e cells 0 (pb q) M G F1 Hb0).
    - apply same_other_frame; auto.
    - lia. }
  destruct (Hbody m2 q M2 G2) as [m3 [x [b [cells' [cs' [E3 [Hx [SO3 [HQ [Hlen [G3 R3]]]]]]]]]]]; auto; [lia|].
  assert (M3 : mem_ok m3) by (eapply same_other_ok; eauto).
  destruct (unbuild_region (ct_ms ct) m3 q cs (ci_list cs') Hw R3) as [m4 [E4 [SO4 R4]]].
  { intros i Hi. apply ci_list_in. lia. }
  rewrite <- Hlen in R3.
  assert (M4 : mem_ok m4) by (eapply same_other_ok; eauto).
  destruct (free_frame (ct_ms ct) m4 q (Z.of_nat (length cs)) (fun _ => None)) as [m5 [E5 F5]]; auto.
  exists m5, b, cells', cs'. split; [|split; [|split; [|exact HQ]]].
  - destruct b; [rewrite E3|destruct E3 as [s' E3]; rewrite E3]; rewrite E4, E5; cbn [run]; f_equal; f_equal;
      rewrite <- Hlen, <- packed_size_total; apply region_bytes; auto.
  - eapply buffer_frame; eauto.
  - apply (galloc_frame ct m4 m5 g e cells' (pb q) 0); auto; [|lia].
    apply (galloc_frame ct m3 m4 g e cells' (pb q) (pb q)); auto; [|lia].
    apply same_other_frame; auto.
Qed.

(** *** How many calls of members *)
Lemma length_coords : forall x y z n l, length (streak_coords ((x, y, z, n) :: l)) = (Z.to_nat n + length (streak_coords l))%nat.
Proof. intros. unfold streak_coords. cbn [flat_map]. rewrite app_length, map_length, length_zseq. reflexivity. Qed.

Lemma calls_load : forall ms d a q count l off, calls (load_functor ms d a q count off l) = (length (streak_coords l) * class_elements ms)%nat.
Proof.
  intros ms d a q count. induction l as [|[[[x y] z] n] l IH]; intros off; [reflexivity|]. cbn [load_functor].
  rewrite calls_app, IH, load_canon, calls_copy, length_coords. lia.
Qed.

Lemma calls_save : forall ms d a q count l off, calls (save_functor ms d a q count off l) = (length (streak_coords l) * class_elements ms)%nat.
Proof.
  intros ms d a q count. induction l as [|[[[x y] z] n] l IH]; intros off; [reflexivity|]. cbn [save_functor].
  rewrite calls_app, IH, save_canon, calls_copy, length_coords. lia.
Qed.

(** *** Which cell goes where *)
Definition the_new (co : list (Z * Z * Z)) (cs : list cell) (x y z : Z) : option cell :=
  match find (fun '(x', y', z', _) => (x =? x') && (y =? y') && (z =? z')) (combine co cs) with Some (_, _, _, c) => Some c | None => None end.

Lemma the_new_nth : forall co cs k x y z c, NoDup co -> nth_error co k = Some (x, y, z) -> nth_error cs k = Some c ->
  the_new co cs x y z = Some c.
Proof.
  unfold the_new. induction co as [|[[x' y'] z'] co IH]; intros cs k x y z c Hn H1 H2; [destruct k; discriminate|].
  destruct cs as [|c' cs]; [destruct k; discriminate|]. inversion Hn as [|? ? Hni Hn']; subst. cbn [combine find].
  destruct k as [|k]; cbn [nth_error] in H1, H2.
  - inversion H1; inversion H2; subst. rewrite !Z.eqb_refl. reflexivity.
  - destruct ((x =? x') && (y =? y') && (z =? z')) eqn:E; [|eauto]. exfalso. apply Hni.
    replace (x', y', z') with (x, y, z) by (f_equal; [f_equal|]; lia). eapply nth_error_In; eauto.
Qed.

Lemma the_new_some : forall co cs x y z c, the_new co cs x y z = Some c -> In (x, y, z) co /\ In c cs.
Proof.
  unfold the_new. induction co as [|[[x' y'] z'] co IH]; intros cs x y z c H; [discriminate|].
  destruct cs as [|c' cs]; [discriminate|]. cbn [combine find] in H.
  destruct ((x =? x') && (y =? y') && (z =? z')) eqn:E.
  - inversion H; subst. split; [left; f_equal; [f_equal|]; lia|left; auto].
  - destruct (IH cs x y z c H). split; right; auto.
Qed.

(** *** load *)
Lemma x_load_cases : forall ct s m g e cells q cs l,
  wf_ct ct -> mem_ok m -> galloc ct m g e cells ->
  region (ct_ms ct) m q (Z.of_nat (length cs)) (ci_list cs) -> pb q <> blk g ->
  (forall x y z, In (x, y, z) (streak_coords l) -> in_dims (g_x g) (g_y g) (g_z g) x y z) ->
  Forall (fun '(x, y, z, n) => 0 <= n) l ->
  NoDup (streak_coords l) -> (length (streak_coords l) <= length cs)%nat ->
  exists m' cells' (b : bool),
    (if b then x_load_streaks ct s (m, g) l q (Z.of_nat (length cs)) = XThr (m', g) XMember
     else exists s', x_load_streaks ct s (m, g) l q (Z.of_nat (length cs)) = XRet s' (m', g) tt) /\
    same_other m m' (blk g) /\ galloc ct m' g e cells' /\
    (b = true <-> exists k, sc_ops s = Some k /\ (k < length (streak_coords l) * class_elements (ct_ms ct))%nat) /\
    forall x y z, in_dims (g_x g) (g_y g) (g_z g) x y z ->
      match the_new (streak_coords l) cs x y z with
      | None => cells' x y z = cells x y z
      | Some c => if b then mixed (ct_ms ct) (cells x y z) c (cells' x y z) else cells' x y z = c
      end.
Proof.
  intros ct s m g e cells q cs l Hct M G RQ Hq Hin Hn0 Hnd Hlen.
  destruct (load_ok ct m g e cells q cs l Hct M G RQ Hq Hin Hn0 Hnd Hlen) as [mr [Er [SOr Gr]]].
  unfold g_load_streaks in Er. unfold x_load_streaks. rewrite x_callback_choose. rewrite callback_choose in Er.
  rewrite (ga_choose _ _ _ _ _ G) in *. unfold x_run.
  assert (Ex : exec (load_functor (ct_ms ct) (g_data g) (mkAcc e 0 0) q (Z.of_nat (length cs)) 0 l) m = Val mr).
  { unfold run in Er. destruct (exec _ m); [inversion Er; subst; reflexivity|discriminate]. }
  pose proof (exec_x_ok _ s _ _ Ex) as [[s' [E1 [_ Hk]]]|[m1 [k [E1 [Hk1 Hk2]]]]]; rewrite E1; cbn [xlift].
  - exists mr, (cupd cells (combine (streak_coords l) cs)), false. split; [eauto|]. split; auto. split; auto. split.
    + split; [discriminate|]. intros [k [K1 K2]]. rewrite K1, calls_load in Hk. lia.
    + intros x y z _. rewrite cupd_find. unfold the_new. destruct (find _ _) as [[[[x' y'] z'] c]|]; auto.
  - apply exec_x_thr in E1. destruct E1 as [_ [pre [op [post [Eo [_ [Ep _]]]]]]].
    destruct (partial_assign ct m m1 g e cells pre (the_new (streak_coords l) cs)) as [cells' [G' [SO [_ HC]]]]; auto.
    + intros x y z c Hc. apply the_new_some in Hc. destruct Hc as [_ Hc]. apply In_nth_error in Hc. destruct Hc as [j Hj].
      apply (rg_cell _ _ _ _ _ RQ (Z.of_nat j)). rewrite ci_list_cells by lia. rewrite Nat2Z.id. exact Hj.
    + intros o Ho.
      assert (Ho' : In o (load_functor (ct_ms ct) (g_data g) (mkAcc e 0 0) q (Z.of_nat (length cs)) 0 l)) by (rewrite Eo; apply in_or_app; auto).
      rewrite load_functor_canon in Ho'. apply in_map_iff in Ho'. destruct Ho' as [key [<- Hkey]].
      apply in_row_keys_pairs in Hkey. destruct Hkey as [Hs Hp]. rewrite row_pairs_rows in Hp by auto.
      apply in_combine_nth in Hp. destruct Hp as [j [P1 P2]]. rewrite nth_error_map in P1.
      destruct (nth_error (streak_coords l) j) as [[[x y] z]|] eqn:Ej; [|discriminate]. cbn [option_map gi] in P1.
      assert (Hj : (j < length (streak_coords l))%nat) by (apply nth_error_Some; congruence).
      assert (P3 : snd key = Z.of_nat j).
      { unfold offs in P2. rewrite nth_error_map in P2. rewrite (nth_error_nth' _ 0%nat) in P2 by (rewrite seq_length; lia).
        rewrite seq_nth in P2 by lia. cbn [option_map] in P2. inversion P2. lia. }
      assert (P4 : gen_index e x y z = snd (fst key)) by congruence.
      destruct (nth_error cs j) as [c|] eqn:Ec; [|apply nth_error_None in Ec; lia].
      unfold copy_key_op. cbn [assigning op_src op_dst op_size op_val]. split; auto. split; [exact Hq|].
      exists (fst (fst key)), x, y, z, c. split; auto. split; [apply Hin; eapply nth_error_In; eauto|].
      split; [rewrite P4; reflexivity|]. split; auto. split; [eapply the_new_nth; eauto|].
      assert (Hci : ci_list cs (snd key) = Some c) by (rewrite P3, ci_list_cells by lia; rewrite Nat2Z.id; exact Ec).
      destruct (rg_cell _ _ _ _ _ RQ _ _ Hci) as [_ Hwf].
      destruct (cell_value (ct_ms ct) c (fst (fst key)) Hwf Hs) as [w Hv].
      destruct (rg_val _ _ _ _ _ RQ _ _ _ _ Hci Hv) as [-> _]. exact Hv.
    + exists m1, cells', true. split; auto. split; auto. split; auto. split.
      * split; auto. intros _. exists k. rewrite calls_load in Hk2. auto.
      * intros x y z Hd. apply HC. exact Hd.
Qed.

(** *** save *)
Lemma x_save_cases : forall ct s m g e cells q cs l,
  wf_ct ct -> mem_ok m -> galloc ct m g e cells ->
  region (ct_ms ct) m q (Z.of_nat (length cs)) (ci_list cs) -> pb q <> blk g ->
  (forall x y z, In (x, y, z) (streak_coords l) -> in_dims (g_x g) (g_y g) (g_z g) x y z) ->
  Forall (fun '(x, y, z, n) => 0 <= n) l ->
  (length (streak_coords l) <= length cs)%nat ->
  let vs := map (fun '(x, y, z) => cells x y z) (streak_coords l) in
  exists m' cs' (b : bool),
    (if b then x_save_streaks ct s (m, g) l q (Z.of_nat (length cs)) = XThr (m', g) XMember
     else exists s', x_save_streaks ct s (m, g) l q (Z.of_nat (length cs)) = XRet s' (m', g) tt) /\
    same_other m m' (pb q) /\ region (ct_ms ct) m' q (Z.of_nat (length cs)) (ci_list cs') /\
    (b = true <-> exists k, sc_ops s = Some k /\ (k < length (streak_coords l) * class_elements (ct_ms ct))%nat) /\
    (if b then patched (ct_ms ct) cs 0 vs cs' else cs' = vs ++ skipn (length vs) cs).
Proof.
  intros ct s m g e cells q cs l Hct M G RQ Hq Hin Hn0 Hlen vs. pose proof Hct as [Hw Hd].
  destruct (save_ok ct m g e cells q cs l Hct M G RQ Hq Hin Hn0 Hlen) as [mr [Er [SOr Rr]]].
  unfold g_save_streaks in Er. unfold x_save_streaks. rewrite x_callback_choose. rewrite callback_choose in Er.
  rewrite (ga_choose _ _ _ _ _ G) in *. unfold x_run.
  assert (Ex : exec (save_functor (ct_ms ct) (g_data g) (mkAcc e 0 0) q (Z.of_nat (length cs)) 0 l) m = Val mr).
  { unfold run in Er. destruct (exec _ m); [inversion Er; subst; reflexivity|discriminate]. }
  assert (Hvl : length vs = length (streak_coords l)) by apply map_length.
  pose proof (exec_x_ok _ s _ _ Ex) as [[s' [E1 [_ Hk]]]|[m1 [k [E1 [Hk1 Hk2]]]]]; rewrite E1; cbn [xlift].
  - exists mr, (vs ++ skipn (length vs) cs), false. split; [eauto|]. split; auto. rewrite Hvl. split; auto. split; auto.
    split; [discriminate|]. intros [k [K1 K2]]. rewrite K1, calls_save in Hk. lia.
  - apply exec_x_thr in E1. destruct E1 as [_ [pre [op [post [Eo [_ [Ep _]]]]]]].
    assert (HK : forall o, In o pre -> exists key j x y z, o = copy_key_op q (Z.of_nat (length cs)) (g_data g) (DIM_PROD e) key /\
       In (fst (fst key)) (slots (ct_ms ct)) /\ snd (fst key) = Z.of_nat j /\ nth_error (streak_coords l) j = Some (x, y, z) /\ snd key = gen_index e x y z).
    { intros o Ho.
      assert (Ho' : In o (save_functor (ct_ms ct) (g_data g) (mkAcc e 0 0) q (Z.of_nat (length cs)) 0 l)) by (rewrite Eo; apply in_or_app; auto).
      rewrite save_functor_canon in Ho'. apply in_map_iff in Ho'. destruct Ho' as [key [<- Hkey]].
      apply in_row_keys_pairs in Hkey. destruct Hkey as [Hs Hp]. rewrite row_pairs_flip, row_pairs_rows in Hp by auto.
      apply in_map_iff in Hp. destruct Hp as [[i0 j0] [Hp0 Hp]]. cbn [fst snd] in Hp0.
      apply in_combine_nth in Hp. destruct Hp as [j [P1 P2]]. rewrite nth_error_map in P1.
      destruct (nth_error (streak_coords l) j) as [[[x y] z]|] eqn:Ej; [|discriminate]. cbn [option_map gi] in P1.
      assert (Hj : (j < length (streak_coords l))%nat) by (apply nth_error_Some; congruence).
      assert (P3 : j0 = Z.of_nat j).
      { unfold offs in P2. rewrite nth_error_map in P2. rewrite (nth_error_nth' _ 0%nat) in P2 by (rewrite seq_length; lia).
        rewrite seq_nth in P2 by lia. cbn [option_map] in P2. inversion P2. lia. }
      exists key, j, x, y, z. split; auto. split; auto. split; [congruence|]. split; auto. congruence. }
    destruct (region_partial (ct_ms ct) m q (Z.of_nat (length cs)) cs 0 vs pre m1) as [cs' [SO [HP HR]]]; auto; try lia.
    + unfold len. lia.
    + apply Forall_forall. intros c Hc. unfold vs in Hc. apply in_map_iff in Hc. destruct Hc as [[[x y] z] [<- Hc]].
      pose proof (ga_region _ _ _ _ _ G) as RG. apply (rg_cell _ _ _ _ _ RG (gen_index e x y z)). apply ci_of_gen; [eapply galloc_fits; eauto|auto].
    + intros o Ho. destruct (HK o Ho) as [key [j [x [y [z [-> [Hs [P1 [P2 P3]]]]]]]]].
      unfold copy_key_op. cbn [assigning op_dst op_size op_val]. split; auto.
      assert (Hd3 : in_dims (g_x g) (g_y g) (g_z g) x y z) by (apply Hin; eapply nth_error_In; eauto).
      exists (fst (fst key)), j, (cells x y z). split; auto. split; [unfold vs; rewrite nth_error_map, P2; reflexivity|].
      split; [rewrite P1; reflexivity|]. split; auto. pose proof (ga_region _ _ _ _ _ G) as RG.
      assert (Hci : ci_of e (g_x g) (g_y g) (g_z g) cells (snd key) = Some (cells x y z)).
      { rewrite P3. apply ci_of_gen; [eapply galloc_fits; eauto|auto]. }
      destruct (rg_cell _ _ _ _ _ RG _ _ Hci) as [_ Hwf].
      destruct (cell_value (ct_ms ct) _ (fst (fst key)) Hwf Hs) as [w Hv].
      destruct (rg_val _ _ _ _ _ RG _ _ _ _ Hci Hv) as [-> _]. exact Hv.
    + intros r o r' m2 Er2 E2.
      assert (Ho : In o pre) by (rewrite Er2; apply in_or_app; right; left; auto).
      destruct (HK o Ho) as [key [j [x [y [z [-> _]]]]]]. unfold copy_key_op. cbn [op_val].
      destruct (assigns_same r m m2 (pb q)) as [[_ [_ [V _]]] _]; auto.
      { intros o' Ho'. assert (Ho2 : In o' pre) by (rewrite Er2; apply in_or_app; auto).
        destruct (HK o' Ho2) as [key' [j' [x' [y' [z' [-> _]]]]]]. split; reflexivity. }
      apply read_ext. intros i Hi. apply V. intros Eq. apply Hq. symmetry. exact Eq.
    + exists m1, cs', true. split; auto. split; auto. split; auto. split; auto.
      split; auto. intros _. exists k. rewrite calls_save in Hk2. auto.
Qed.
