(** Reachable states satisfy the invariant; consequences in terms of get(). *)
From Coq Require Import ZArith List Lia Bool.
From Verif Require Import Base Layout LayoutProofs Sizes SizesProofs Mem MemProofs
  Accessor AccessorProofs RegionProofs Grid SpecGrid GridProofs GridInv BufferProofs GridOps GridSim.
Import ListNotations.
Open Scope Z_scope.

Lemma reachable_inv : forall ct W, wf_ct ct -> reachable ct W -> exists A, winv ct W A.
Proof.
  intros ct W Hct [ops [A [bs [HA HW]]]].
  destruct (run_sim ct ops start no_grids A bs Hct (winv_start ct) HA) as [W' [E I]].
  exists A. congruence.
Qed.

Lemma arun_snoc : forall ct ops A B C bs op b,
  arun ct A ops B bs -> astep ct B op C b -> arun ct A (ops ++ [op]) C (bs ++ [b]).
Proof.
  intros ct ops A B C bs op b H. induction H as [A|A op' A' b' ops A'' bs Hs Hr IH]; intros S; simpl.
  - econstructor; eauto. constructor.
  - econstructor; eauto.
Qed.

Lemma wrun_snoc : forall ct ops W W' bs op W'' b,
  wrun ct W ops = Val (W', bs) -> wstep ct W' op = Val (W'', b) -> wrun ct W (ops ++ [op]) = Val (W'', bs ++ [b]).
Proof.
  intros ct ops. induction ops as [|o ops IH]; intros W W' bs op W'' b H S; simpl in *.
  - inversion H; subst. rewrite S. reflexivity.
  - destruct (wstep ct W o) as [[W1 b1]|]; [|discriminate].
    destruct (wrun ct W1 ops) as [[W2 bs2]|] eqn:E; [|discriminate]. inversion H; subst.
    rewrite (IH _ _ _ _ _ _ E S). reflexivity.
Qed.

(** One more legal operation. *)
Lemma reachable_step : forall ct W op,
  wf_ct ct -> reachable ct W ->
  (forall A, winv ct W A -> exists A' b, astep ct A op A' b) ->
  exists W' b, wstep ct W op = Val (W', b) /\ reachable ct W'.
Proof.
  intros ct W op Hct [ops [A [bs [HA HW]]]] H.
  destruct (run_sim ct ops start no_grids A bs Hct (winv_start ct) HA) as [W1 [E I]].
  assert (W1 = W) by congruence. subst W1. destruct (H A I) as [A' [b S]].
  destruct (step_sim ct W A op A' b Hct I S) as [W' [E' I']]. exists W', b. split; auto.
  exists (ops ++ [op]), A', (bs ++ [b]). split; [eapply arun_snoc; eauto|eapply wrun_snoc; eauto].
Qed.

Lemma reachable_start : forall ct, reachable ct start.
Proof. intros ct. exists [], no_grids, []. split; [constructor|reflexivity]. Qed.

Lemma winv_rep : forall ct W A id g, winv ct W A -> w_grids W id = Some g ->
  exists a, A id = Some a /\ grep ct (w_mem W) g a.
Proof.
  intros ct W A id g I H. pose proof (wi_rep _ _ _ I id) as R. rewrite H in R. destruct (A id); [eauto|contradiction].
Qed.

Lemma in_grid_box : forall ct m g a x y z, grep ct m g a -> (in_grid g x y z <-> in_box a x y z).
Proof. intros ct m g a x y z [X [Y [Zz _]]]. unfold in_grid, in_box. rewrite X, Y, Zz. tauto. Qed.

Lemma row_in_grid_in : forall ct m g a x y z n, grep ct m g a -> row_in_grid g x y z n -> row_in a x y z n.
Proof. intros ct m g a x y z n G [H1 H2]. split; auto. intros i Hi. eapply in_grid_box; eauto. Qed.

Lemma grep_reads : forall ct m g a x y z, wf_ct ct -> grep ct m g a -> in_grid g x y z -> reads ct m g x y z (ag_cells a x y z).
Proof.
  intros ct m g a x y z Hct G H. pose proof H as H'. apply (in_grid_box _ _ _ _ _ _ _ G) in H'.
  destruct (grep_alloc _ _ _ _ G (nonfresh _ _ _ _ _ _ _ G H')) as [e GA]. unfold reads, g_get.
  rewrite (get_ok ct m g e (ag_cells a) x y z 1); auto.
  - simpl. rewrite Z.add_0_r. reflexivity.
  - intros i Hi. replace (x + i) with x by lia. exact H.
Qed.

Lemma sized_fresh : forall ct m g a, grep ct m g a -> sized g -> ag_fresh a = false.
Proof.
  intros ct m g a [_ [_ [_ H]]] S. destruct (ag_fresh a); auto. destruct H as [_ [_ [_ H]]]. unfold sized in S. rewrite H in S. discriminate.
Qed.

Lemma grep_null : forall ct m g a, grep ct m g a -> ag_fresh a = true -> g_data g = null.
Proof. intros ct m g a [_ [_ [_ H]]] S. rewrite S in H. tauto. Qed.

Lemma frame_others : forall ct W A id m' b',
  wf_ct ct -> winv ct W A -> gframe (w_mem W) (oblk (w_grids W id)) m' b' -> others_same ct W m' id.
Proof.
  intros ct W A id m' b' Hct I F id' g x y z Hid Hg Hin.
  destruct (winv_rep _ _ _ _ _ I Hg) as [a [HA G]]. exists (ag_cells a x y z). split.
  - apply grep_reads; auto.
  - apply grep_reads; auto. eapply grep_frame; eauto using wi_ok.
    destruct (w_grids W id) as [g0|] eqn:E; simpl in *.
    + eapply (wi_sep _ _ _ I id' id); eauto.
    + destruct (blk g); auto.
Qed.

(** Slots and (member, array index) pairs. *)
Lemma in_slots_from : forall ms o sl,
  In sl (slots_from o ms) <->
  exists j mb k, nth_error ms j = Some mb /\ (k < m_count mb)%nat /\
    sl = mkSlot (o + total (firstn j ms) + m_size mb * Z.of_nat k) (m_size mb) (m_class mb) (m_default mb).
Proof.
  induction ms as [|mb ms IH]; intros o sl; simpl.
  - split; [intros []|]. intros [[|j] [mb [k [H _]]]]; discriminate.
  - rewrite in_app_iff, in_member_slots, IH. split.
    + intros [[k [Hk ->]]|[j [m' [k [H1 [H2 ->]]]]]].
      * exists 0%nat, mb, k. simpl. repeat split; auto. f_equal; lia.
      * exists (S j), m', k. simpl. repeat split; auto. f_equal; lia.
    + intros [[|j] [m' [k [H1 [H2 ->]]]]]; simpl in *.
      * inversion H1; subst. left. exists k. split; auto. f_equal; lia.
      * right. exists j, m', k. repeat split; auto. f_equal; lia.
Qed.

Lemma in_slots_the_slot : forall ms sl,
  In sl (slots ms) <-> exists j mb k, nth_error ms j = Some mb /\ 0 <= k < Z.of_nat (m_count mb) /\ sl = the_slot ms j mb k.
Proof.
  intros ms sl. unfold slots. rewrite in_slots_from. unfold the_slot. split.
  - intros [j [mb [k [H1 [H2 ->]]]]]. exists j, mb, (Z.of_nat k). repeat split; auto; try lia.
  - intros [j [mb [k [H1 [H2 ->]]]]]. exists j, mb, (Z.to_nat k). repeat split; auto; try lia.
    rewrite Z2Nat.id by lia. f_equal; lia.
Qed.

Lemma slot_value_from : forall ms o c j mb k, wf_cell ms c -> nth_error ms j = Some mb -> (k < m_count mb)%nat ->
  In (mkSlot (o + total (firstn j ms) + m_size mb * Z.of_nat k) (m_size mb) (m_class mb) (m_default mb), nth k (nth j c []) [])
     (combine (slots_from o ms) (concat c)).
Proof.
  intros ms. induction ms as [|m ms IH]; intros o c j mb k Hc Hj Hk; [destruct j; discriminate|].
  inversion Hc as [|? vs ? c2 [Hl Hf] Hc']; subst. cbn [slots_from concat].
  rewrite combine_app_eq by (rewrite length_member_slots; auto). apply in_or_app.
  destruct j as [|j]; simpl in Hj.
  - left. inversion Hj; subst. cbn [firstn total nth]. apply combine_nth_in; [rewrite length_member_slots; auto|].
    unfold member_slots. rewrite nth_error_map. rewrite (nth_error_nth' _ 0%nat) by (rewrite seq_length; auto). rewrite seq_nth by auto.
    simpl. f_equal. f_equal. lia.
  - right. cbn [firstn total nth]. rewrite Z.add_assoc. apply IH; auto.
Qed.

(** The value of element [k] of member [j] belongs to its slot. *)
Lemma slot_value_in : forall ms c j mb k, wf_cell ms c -> nth_error ms j = Some mb -> (k < m_count mb)%nat ->
  In (the_slot ms j mb (Z.of_nat k), nth k (nth j c []) []) (combine (slots ms) (concat c)).
Proof. intros. apply (slot_value_from ms 0); auto. Qed.
