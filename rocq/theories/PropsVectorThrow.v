(** Statements C87: soa_vector when constructors or assignment operators of members, or
    the allocator, throw. *)
From Coq Require Import ZArith List Lia Bool Init.Byte.
From Verif Require Import Base Layout LayoutProofs Sizes SizesProofs Mem MemProofs
  Accessor AccessorProofs RegionProofs Grid SpecGrid GridProofs GridInv BufferProofs GridOps GridSim GridView
  Array SpecArray ArrayProofs Vector SpecVector VectorProofs PropsVector GridThrow SpecGridThrow GridThrowProofs VectorThrowProofs.
Import ListNotations.
Open Scope Z_scope.

(** Whatever a program does next with its vectors within their contract, it observes
    what the lists [A] allow, without undefined behaviour; and once the vectors are gone
    no storage is left. *)
Definition v_as_specified (ct : celltype) (L : list Z) (W : sworld) (A : avworld) : Prop :=
  forall ops, lawful (ct_ms ct) L A ops ->
    exists W' A' obs, srun ct W ops = Val (W', obs) /\ spec_run (ct_ms ct) L A ops A' obs /\
      ((forall id, A' id = None) -> forall b, msize (sw_mem W') b = None).

(** [A]: what size(), callbacks and capacity() of the vectors say. *)
Definition describes (ct : celltype) (W : sworld) (A : avworld) : Prop :=
  forall i, (unused W i <-> A i = None) /\
    (forall l, contents ct W i l <-> exists a, A i = Some a /\ av_l a = l) /\
    (forall c, has_cap ct W i c <-> exists a, A i = Some a /\ av_cap a = c) /\
    (forall a, A i = Some a -> (sized W i <-> av_ext a = true)).

Lemma inv_describes : forall ct L W A, wf_ct ct -> policy ct L -> svinv ct L W A -> describes ct W A.
Proof.
  intros ct L W A Hct P I i. split; [eapply unused_iff; eauto|]. split; [intros; eapply contents_iff; eauto|].
  split; [intros; eapply has_cap_iff; eauto|]. intros a Ha. eapply sized_iff; eauto.
Qed.

Lemma inv_specified : forall ct L W A, wf_ct ct -> policy ct L -> svinv ct L W A -> v_as_specified ct L W A.
Proof.
  intros ct L W A Hct [P GR] I ops Hl. destruct (srun_ok ct L ops W A Hct P GR I Hl) as [W' [A' [obs [E [S I']]]]].
  exists W', A', obs. split; auto. split; auto. intros Hn b. destruct (msize (sw_mem W') b) as [n|] eqn:Em; auto.
  destruct (sv_leak _ _ _ _ I' b n Em) as [id [v [Hv _]]]. pose proof (sv_rep _ _ _ _ I' id) as R. rewrite Hv, Hn in R. contradiction.
Qed.

(** Where the vector [id] of a reachable state stands. *)
Lemma located : forall ct L W id v l, wf_ct ct -> policy ct L -> reachable ct L W -> sw_vecs W id = Some v -> contents ct W id l ->
  exists A a, svinv ct L W A /\ A id = Some a /\ av_l a = l /\ vrep ct L (sw_mem W) v a.
Proof.
  intros ct L W id v l Hct P HR Hv Hc. destruct (reach_inv _ _ _ Hct P HR) as [A I].
  rewrite (contents_iff _ _ _ _ _ _ Hct P I) in Hc. destruct Hc as [a [Ha Hl]]. exists A, a. split; auto. split; auto. split; auto.
  pose proof (sv_rep _ _ _ _ I id) as R. rewrite Hv, Ha in R. exact R.
Qed.

(** ** Calls in which nothing throws do what they do otherwise *)
Theorem C87_returns : forall ct s w n i c s' w',
  (x_v_reserve ct s w n = XRet s' w' tt -> v_reserve ct w n = Ret w' tt) /\
  (x_v_resize ct s w n = XRet s' w' tt -> v_resize ct w n = Ret w' tt) /\
  (x_v_set ct s w i c = XRet s' w' tt -> v_set ct w i c = Ret w' tt) /\
  (x_v_pop ct s w = XRet s' w' tt -> v_pop ct w = Ret w' tt) /\
  (x_v_push ct s w c = XRet s' w' tt -> v_push ct w c = Ret w' tt).
Proof.
  intros ct s [m v] n i c s' w'.
  assert (HS : forall s m v i c s' w', x_v_set ct s (m, v) i c = XRet s' w' tt -> v_set ct (m, v) i c = Ret w' tt).
  { clear. intros s m v i c s' w' H. unfold x_v_set in H. unfold v_set, on_grid. cbn [fst snd] in H.
    destruct (x_set ct s (m, v_grid v) i 0 0 c) as [s1 [m1 g1] []|[m1 g1] e| |f] eqn:E; cbn [xlift fst snd] in H; try discriminate.
    pose proof (set_row_agrees ct s m (v_grid v) [c] 1 i 0 0 1 _ _ _ E) as Q.
    assert (Q' : g_set ct (m, v_grid v) i 0 0 c = Ret (m1, g1) tt) by exact Q. rewrite Q'. injection H as _ <-. reflexivity. }
  split; [intros H; eapply reserve_agrees; eauto|]. split; [|split; [apply HS|split; [apply HS|]]].
  - unfold x_v_resize, v_resize. cbn [snd]. destruct (v_capacity v <? n); [|intros H; injection H as _ <-; reflexivity].
    destruct (x_v_reserve ct s (m, v) n) as [s1 w1 []| | |] eqn:E; cbn [xbind]; try discriminate.
    apply reserve_agrees in E. rewrite E. cbn [obind]. intros H. injection H as _ <-. reflexivity.
  - rewrite x_push_eq. unfold v_push. cbn [snd]. destruct (g_ex (v_grid v)) as [ex|]; cbn [x_use use]; [|discriminate].
    assert (G : forall s1 m1 v1 s2 w2,
      xbind (x_v_set ct s1 (m1, v1) (v_count v1) c) (fun s2 w2 _ => XRet s2 (fst w2, mkVec (v_grid (snd w2)) (v_count (snd w2) + 1)) tt) = XRet s2 w2 tt ->
      obind (v_set ct (m1, v1) (v_count v1) c) (fun w2 _ => Ret (fst w2, mkVec (v_grid (snd w2)) (v_count (snd w2) + 1)) tt) = Ret w2 tt).
    { intros s1 m1 v1 s2 w2 H. destruct (x_v_set ct s1 (m1, v1) (v_count v1) c) as [s3 w3 []| | |] eqn:E; cbn [xbind] in H; try discriminate.
      apply HS in E. rewrite E. cbn [obind]. injection H as _ <-. reflexivity. }
    destruct (v_count v =? ex).
    + destruct (x_v_reserve ct s (m, v) (grow (v_count v))) as [s1 [m1 v1] []| | |] eqn:E; cbn [xbind]; try discriminate.
      apply reserve_agrees in E. rewrite E. cbn [obind snd]. intros H. eapply G; eauto.
    + cbn [xbind obind snd]. intros H. eapply G; eauto.
Qed.

(** ** set, pop_back, push_back with room *)
(** set: the element is a mixture of old and new, everything else is as before. *)
Theorem C87_set : forall ct L s W id v l i c m' v' ex,
  wf_ct ct -> policy ct L -> reachable ct L W -> sw_vecs W id = Some v -> contents ct W id l -> 0 <= i < len l -> wf_cell (ct_ms ct) c ->
  x_v_set ct s (sw_mem W, v) i c = XThr (m', v') ex ->
  ex = XMember /\ v' = v /\ exists A a c0 c', describes ct W A /\ A id = Some a /\
    nth_error l (Z.to_nat i) = Some c0 /\ mixed (ct_ms ct) c0 c c' /\
    v_as_specified ct L (mkSW m' (sw_vecs W)) (sset A id (Some (mkAV (over l (Z.to_nat i) [c']) (av_cap a) (av_full a) (av_ext a)))).
Proof.
  intros ct L s W id v l i c m' v' ex Hct HP HR Hv Hc Hi Hwc H. pose proof HP as [P GR].
  destruct (located _ _ _ _ _ _ Hct HP HR Hv Hc) as [A [a [I [Ha [<- V]]]]].
  pose proof (x_set_list ct L s (sw_mem W) v a i c Hct P V Hi Hwc) as X. rewrite H in X.
  destruct X as [-> [-> [SO [c0 [c' [Hc0 [Hm V']]]]]]]. split; auto. split; auto. exists A, a, c0, c'.
  split; [eapply inv_describes; eauto|]. split; auto. split; auto. split; auto.
  apply inv_specified; auto. pose proof (same_other_frame _ _ _ (sv_mem _ _ _ _ I) SO) as F.
  eapply sv_eq; [| |eapply (sv_set ct L W A id m' (blk (v_grid v)) (Some v))]; eauto.
  - intros j. apply sset_self; auto.
  - unfold sblk. rewrite Hv. exact F.
  - cbn beta. split; [exact V'|reflexivity].
Qed.

(** pop_back: the last element is gone nevertheless. *)
Theorem C87_pop : forall ct L s W id v l x m' v' ex,
  wf_ct ct -> policy ct L -> reachable ct L W -> sw_vecs W id = Some v -> contents ct W id (l ++ [x]) ->
  x_v_pop ct s (sw_mem W, v) = XThr (m', v') ex ->
  ex = XMember /\ v_size v' = len l /\ exists A a, describes ct W A /\ A id = Some a /\
    v_as_specified ct L (mkSW m' (sset (sw_vecs W) id (Some v'))) (sset A id (Some (mkAV l (av_cap a) (av_full a) (av_ext a)))).
Proof.
  intros ct L s W id v l x m' v' ex Hct HP HR Hv Hc H. pose proof HP as [P GR].
  destruct (located _ _ _ _ _ _ Hct HP HR Hv Hc) as [A [a [I [Ha [Hl V]]]]].
  pose proof (x_pop_list ct L s (sw_mem W) v a l x Hct P V Hl) as X. rewrite H in X.
  destruct X as [-> [-> [SO V']]]. split; auto. split.
  { destruct V' as [E' [ci' R']]. apply (vr_count _ _ _ _ _ _ _ R'). }
  exists A, a. split; [eapply inv_describes; eauto|]. split; auto.
  apply inv_specified; auto. pose proof (same_other_frame _ _ _ (sv_mem _ _ _ _ I) SO) as F.
  eapply (sv_set ct L W A id m' (blk (v_grid v))); eauto. unfold sblk. rewrite Hv. exact F.
Qed.

(** push_back that need not grow: as if it had not been called. *)
Theorem C87_push_room : forall ct L s W id v l cap c m' v' ex,
  wf_ct ct -> policy ct L -> reachable ct L W -> sw_vecs W id = Some v -> contents ct W id l -> has_cap ct W id cap -> sized W id ->
  len l < cap -> wf_cell (ct_ms ct) c ->
  x_v_push ct s (sw_mem W, v) c = XThr (m', v') ex ->
  ex = XMember /\ v' = v /\ exists A, describes ct W A /\ v_as_specified ct L (mkSW m' (sw_vecs W)) A.
Proof.
  intros ct L s W id v l cap c m' v' ex Hct HP HR Hv Hc Hcap Hsz Hlt Hwc H. pose proof HP as [P GR].
  destruct (located _ _ _ _ _ _ Hct HP HR Hv Hc) as [A [a [I [Ha [<- V]]]]].
  rewrite (has_cap_iff _ _ _ _ _ _ I) in Hcap. destruct Hcap as [a' [Ha' <-]]. assert (a' = a) by congruence. subst a'.
  rewrite (sized_iff _ _ _ _ _ _ I Ha) in Hsz. pose proof V as [E [ci R]].
  destruct (first_fit_in _ _ _ (vr_fit _ _ _ _ _ _ _ R)) as [_ HcE].
  assert (Hx : g_ex (v_grid v) <> Some (v_count v)).
  { rewrite (vr_ext _ _ _ _ _ _ _ R), Hsz, (vr_count _ _ _ _ _ _ _ R). intros Q. inversion Q. lia. }
  pose proof (x_push_room ct L s (sw_mem W) v a c Hct P V Hsz Hwc Hx ltac:(auto)) as X. rewrite H in X.
  destruct X as [-> [-> [SO V']]]. split; auto. split; auto. exists A. split; [eapply inv_describes; eauto|].
  apply inv_specified; auto. pose proof (same_other_frame _ _ _ (sv_mem _ _ _ _ I) SO) as F.
  eapply sv_eq; [| |eapply (sv_set ct L W A id m' (blk (v_grid v)) (Some v) (Some a))]; eauto.
  - intros j. apply sset_self; auto.
  - intros j. apply sset_self; auto.
  - unfold sblk. rewrite Hv. exact F.
Qed.

(** ** reserve *)
(** The class-type elements that reserve(n) constructs when the next size is [E]: [n]
    of them first, then, unless [n] is that size, all [E] anew. *)
Definition reserve_first (ms : list member) (n : Z) : nat := (Z.to_nat n * class_elements ms)%nat.
Definition reserve_second (ms : list member) (n E : Z) : nat := if n =? E then 0%nat else (Z.to_nat E * class_elements ms)%nat.

Lemma second_eq : forall ms n E, second ms n E = reserve_second ms n E.
Proof. intros. unfold second, reserve_second. destruct (n =? E); auto. apply line_elements. Qed.

(** Every outcome of reserve within the contract, by the moment of the exception:
    - the allocator throws at first: nothing happened;
    - a constructor throws while the first grid is built: the vector is as before, but a
      block with the objects built so far is lost;
    - an assignment throws while the elements are copied: nothing happened;
    - the allocator or a constructor throws while the first grid is replaced by one that
      is rounded up: undefined behaviour, as the destructor of the half-built grid runs. *)
Theorem C87_reserve : forall ct L s W id v l n E,
  wf_ct ct -> policy ct L -> reachable ct L W -> sw_vecs W id = Some v -> contents ct W id l -> sized W id ->
  len l <= n -> first_fit n L E ->
  match x_v_reserve ct s (sw_mem W, v) n with
  | XRet _ w' _ => v_reserve ct (sw_mem W, v) n = Ret w' tt /\ sc_allocs s <> Some 0%nat /\
      (n = E \/ sc_allocs s <> Some 1%nat) /\
      (forall k, sc_ops s = Some k ->
         (reserve_first (ct_ms ct) n + reserve_second (ct_ms ct) n E + Z.to_nat (len l) * class_elements (ct_ms ct) <= k)%nat)
  | XThr (m', v') XBadAlloc => v' = v /\ m' = sw_mem W /\ sc_allocs s = Some 0%nat
  | XThr (m', v') XMember => v' = v /\ sc_allocs s <> Some 0%nat /\ exists k, sc_ops s = Some k /\
      ((k < reserve_first (ct_ms ct) n)%nat /\ (exists b N, leaves_block (sw_mem W) m' b N k) \/
       (reserve_first (ct_ms ct) n + reserve_second (ct_ms ct) n E <= k <
        reserve_first (ct_ms ct) n + reserve_second (ct_ms ct) n E + Z.to_nat (len l) * class_elements (ct_ms ct))%nat /\ (n = E \/ sc_allocs s <> Some 1%nat) /\
       exists A, describes ct W A /\ v_as_specified ct L (mkSW m' (sw_vecs W)) A)
  | XFlt Dangling => n <> E /\ sc_allocs s = Some 1%nat /\ (forall k, sc_ops s = Some k -> (reserve_first (ct_ms ct) n <= k)%nat)
  | XFlt DestroyDead => n <> E /\ sc_allocs s <> Some 0%nat /\ sc_allocs s <> Some 1%nat /\
      exists k, sc_ops s = Some k /\ (reserve_first (ct_ms ct) n <= k < reserve_first (ct_ms ct) n + reserve_second (ct_ms ct) n E)%nat
  | _ => False
  end.
Proof.
  intros ct L s W id v l n E Hct HP HR Hv Hc Hsz Hn FF. pose proof HP as [P GR].
  destruct (located _ _ _ _ _ _ Hct HP HR Hv Hc) as [A [a [I [Ha [<- V]]]]].
  rewrite (sized_iff _ _ _ _ _ _ I Ha) in Hsz. assert (H0 : 0 <= len (av_l a)) by (unfold len; lia).
  destruct (first_fit_in _ _ _ FF) as [_ HnE]. assert (Hnn : 0 <= n) by lia. assert (HlE : len (av_l a) <= E) by lia.
  pose proof (x_reserve_cases ct L s (sw_mem W) v a n E Hct P (sv_mem _ _ _ _ I) V Hsz Hnn FF HlE) as X. cbv zeta in X.
  rewrite line_elements, second_eq in X. fold (reserve_first (ct_ms ct) n) in X.
  destruct (x_v_reserve ct s (sw_mem W, v) n) as [s1 w1 []|[m1 v1] [| |er]| |f]; auto.
  { destruct X as [X1 [X2 [X3 X4]]]. split; auto. split; auto. split; auto. intros k Hk. apply (X4 k Hk). }
  destruct X as [-> [Hna [k [Hk [X|[X1 [X2 F]]]]]]].
  - split; auto. split; auto. exists k. split; auto.
  - split; auto. split; auto. exists k. split; auto. right. split; auto. split; auto. exists A. split; [eapply inv_describes; eauto|].
    apply inv_specified; auto. apply sv_keep; auto.
Qed.

(** The claim that a throwing reserve leaves the vectors usable and loses nothing is
    false: with each of the two bad moments in reach, there is a schedule that ends in
    undefined behaviour. *)
Theorem C87_reserve_refuted : forall ct L W id v l n E,
  wf_ct ct -> policy ct L -> reachable ct L W -> sw_vecs W id = Some v -> contents ct W id l -> sized W id ->
  len l <= n -> first_fit n L E -> n <> E ->
  x_v_reserve ct (mkSched None (Some 1%nat)) (sw_mem W, v) n = XFlt Dangling /\
  (class_elements (ct_ms ct) <> 0%nat -> 0 < E ->
   x_v_reserve ct (mkSched (Some (reserve_first (ct_ms ct) n)) None) (sw_mem W, v) n = XFlt DestroyDead).
Proof.
  intros ct L W id v l n E Hct HP HR Hv Hc Hsz Hn FF Hne. split.
  - pose proof (C87_reserve ct L (mkSched None (Some 1%nat)) W id v l n E Hct HP HR Hv Hc Hsz Hn FF) as X. cbn [sc_allocs sc_ops] in X.
    destruct (x_v_reserve ct (mkSched None (Some 1%nat)) (sw_mem W, v) n) as [s1 w1 []|[m1 v1] [| |er]| |f]; try contradiction.
    + destruct X as [_ [_ [[X|X] _]]]; contradiction.
    + destruct X as [_ [_ [k [Q _]]]]. discriminate.
    + destruct X as [_ [_ X]]. discriminate.
    + destruct f; try contradiction; auto. destruct X as [_ [_ [X _]]]. contradiction.
  - intros Hce HE.
    assert (HN2 : (0 < reserve_second (ct_ms ct) n E)%nat).
    { unfold reserve_second. destruct (Z.eqb_spec n E) as [Q|_]; [contradiction|]. nia. }
    pose proof (C87_reserve ct L (mkSched (Some (reserve_first (ct_ms ct) n)) None) W id v l n E Hct HP HR Hv Hc Hsz Hn FF) as X. cbn [sc_allocs sc_ops] in X.
    destruct (x_v_reserve ct (mkSched (Some (reserve_first (ct_ms ct) n)) None) (sw_mem W, v) n) as [s1 w1 []|[m1 v1] [| |er]| |f]; try contradiction.
    + destruct X as [_ [_ [_ X]]]. specialize (X _ eq_refl). lia.
    + destruct X as [_ [_ [k [Q X]]]]. injection Q as <-. destruct X as [[X _]|[X _]]; lia.
    + destruct X as [_ [_ X]]. discriminate.
    + destruct f; try contradiction; auto. destruct X as [_ [X _]]. discriminate.
Qed.

(** ** push_back of a full vector *)
(** Either reserve failed, with the outcomes above, or the new element could not be
    written: the vector then has its old elements, and room for more. *)
Theorem C87_push_grow : forall ct L s W id v l c,
  wf_ct ct -> policy ct L -> reachable ct L W -> sw_vecs W id = Some v -> contents ct W id l -> sized W id ->
  g_ex (v_grid v) = Some (v_size v) -> room L (6 * len l / 5) -> wf_cell (ct_ms ct) c ->
  match x_v_push ct s (sw_mem W, v) c with
  | XRet _ w' _ => v_push ct (sw_mem W, v) c = Ret w' tt
  | XThr (m', v') ex => x_v_reserve ct s (sw_mem W, v) (6 * len l / 5) = XThr (m', v') ex \/
      ex = XMember /\ v_size v' = len l /\ exists A cap', describes ct W A /\ len l < cap' /\
        v_as_specified ct L (mkSW m' (sset (sw_vecs W) id (Some v'))) (sset A id (Some (mkAV l cap' true true)))
  | XTerminate => False
  | XFlt f => x_v_reserve ct s (sw_mem W, v) (6 * len l / 5) = XFlt f
  end.
Proof.
  intros ct L s W id v l c Hct HP HR Hv Hc Hsz Hx Hr Hwc. pose proof HP as [P GR].
  destruct (located _ _ _ _ _ _ Hct HP HR Hv Hc) as [A [a [I [Ha [<- V]]]]].
  rewrite (sized_iff _ _ _ _ _ _ I Ha) in Hsz.
  pose proof (x_push_grow ct L s (sw_mem W) v a c Hct P GR (sv_mem _ _ _ _ I) V Hsz Hwc Hx Hr) as X.
  destruct (x_v_push ct s (sw_mem W, v) c) as [s1 w1 []|[m1 v1] ex| |f]; auto.
  destruct X as [X|[s1 [w1 [cap' [_ [-> [HN [Hl [F V']]]]]]]]]; [left; auto|right]. split; auto. split.
  { unfold v_size. rewrite HN. destruct V as [E [ci R]]. apply (vr_count _ _ _ _ _ _ _ R). }
  exists A, cap'. split; [eapply inv_describes; eauto|]. split; auto. apply inv_specified; auto.
  eapply (sv_set ct L W A id m1 (blk (v_grid v1))); eauto. unfold sblk. rewrite Hv. exact F.
Qed.

(** ** soa_vector(count, value) *)
(** A throwing copy of the value loses nothing; a throwing constructor loses the block. *)
Theorem C87_fill : forall ct L s W n c E,
  wf_ct ct -> policy ct L -> reachable ct L W -> 0 <= n -> first_fit n L E -> wf_cell (ct_ms ct) c ->
  match x_v_new_fill ct s (sw_mem W) n c with
  | XRet _ w' _ => v_new_fill ct (sw_mem W) n c = Ret w' tt /\ sc_allocs s <> Some 0%nat /\
      (forall k, sc_ops s = Some k -> (reserve_first (ct_ms ct) n + reserve_first (ct_ms ct) n <= k)%nat)
  | XThr (m', _) XBadAlloc => m' = sw_mem W /\ sc_allocs s = Some 0%nat
  | XThr (m', _) XMember => sc_allocs s <> Some 0%nat /\ exists k, sc_ops s = Some k /\
      ((k < reserve_first (ct_ms ct) n)%nat /\ (exists b N, leaves_block (sw_mem W) m' b N k) \/
       (reserve_first (ct_ms ct) n <= k < reserve_first (ct_ms ct) n + reserve_first (ct_ms ct) n)%nat /\ exists A, describes ct W A /\ v_as_specified ct L (mkSW m' (sw_vecs W)) A)
  | _ => False
  end.
Proof.
  intros ct L s W n c E Hct HP HR Hn FF Hwc. pose proof HP as [P GR]. destruct (reach_inv _ _ _ Hct HP HR) as [A I].
  pose proof (x_fill_cases ct L s (sw_mem W) n c E Hct P (sv_mem _ _ _ _ I) Hn FF Hwc) as X.
  rewrite line_elements in X. fold (reserve_first (ct_ms ct) n) in X.
  destruct (x_v_new_fill ct s (sw_mem W) n c) as [s1 w1 []|[m1 v1] [| |er]| |f]; auto.
  destruct X as [Hna [k [Hk [X|[X1 F]]]]]; split; auto; exists k; split; auto. right. split; auto.
  exists A. split; [eapply inv_describes; eauto|]. apply inv_specified; auto. apply sv_keep; auto.
Qed.

(** ** operator= *)
Lemma copy_in_same : forall ct s m g o w ex, x_copy_in ct s (m, g) o = XThr w ex -> snd w = g.
Proof.
  assert (R : forall s ops m g w ex, x_run s ops m g = XThr w ex -> snd w = g).
  { intros s ops m g w ex H. unfold x_run in H. destruct (exec_x s ops m); cbn [xlift] in H; inversion H; reflexivity. }
  intros ct s m g o w ex H. unfold x_copy_in, x_dual_callback in H. destruct (ct_asym ct).
  - rewrite x_callback_choose in H. destruct (choose _ _ _ _); [inversion H; reflexivity|].
    rewrite x_callback_choose in H. destruct (choose _ _ _ _); [inversion H; reflexivity|]. eapply R; eauto.
  - destruct (_ || _ || _); [inversion H; reflexivity|].
    rewrite x_callback_choose in H. destruct (choose _ _ _ _); [inversion H; reflexivity|]. eapply R; eauto.
Qed.

(** Whenever the assignment throws, at any moment, size() is the old one, capacity()
    that of the vector assigned from. *)
Theorem C87_assign_sizes : forall ct L s W id v l id2 o l2 m' v' ex,
  wf_ct ct -> policy ct L -> reachable ct L W -> sw_vecs W id = Some v -> contents ct W id l ->
  sw_vecs W id2 = Some o -> contents ct W id2 l2 ->
  x_v_assign ct s (sw_mem W, v) o = XThr (m', v') ex ->
  v_size v' = v_size v /\ v_capacity v' = v_capacity o.
Proof.
  intros ct L s W id v l id2 o l2 m' v' ex Hct HP HR Hv Hc Ho Hc2 H. pose proof HP as [P GR].
  destruct (located _ _ _ _ _ _ Hct HP HR Hv Hc) as [A [a [I [Ha [<- V]]]]].
  destruct (located _ _ _ _ _ _ Hct HP HR Ho Hc2) as [B [b [_ [_ [_ [E2 [ci2 R2]]]]]]].
  unfold x_v_assign, x_assign in H. cbn [fst snd] in H. unfold v_size, v_capacity.
  pose proof V as [E [ci R]].
  assert (GR1 : exists A1, grep ct (sw_mem W) (v_grid v) A1).
  { eexists (mkAG (g_x (v_grid v)) (g_y (v_grid v)) (g_z (v_grid v)) false _). repeat split. exists (line E). eapply vrep_galloc; eauto. }
  destruct GR1 as [A1 GR1]. pose proof (sv_mem _ _ _ _ I) as M.
  assert (K : forall s1 w1 e, x_resize ct s (sw_mem W, v_grid v) (g_x (v_grid o)) (g_y (v_grid o)) (g_z (v_grid o)) = XThr w1 e \/
     x_resize ct s (sw_mem W, v_grid v) (g_x (v_grid o)) (g_y (v_grid o)) (g_z (v_grid o)) = XRet s1 w1 tt -> g_x (snd w1) = g_x (v_grid o)).
  { intros s1 [m1 g1] e Q. cbn [snd]. rewrite (vr_y _ _ _ _ _ _ _ R2), (vr_z _ _ _ _ _ _ _ R2), (vr_cap _ _ _ _ _ _ _ R2) in *.
    pose proof (vr_cap0 _ _ _ _ _ _ _ R2) as H0. pose proof (vr_fit _ _ _ _ _ _ _ R2) as FF. assert (H1 : 0 <= 1) by lia.
    unfold x_resize in Q. destruct (Z.eqb_spec (g_x (v_grid v)) (av_cap b)) as [Q0|Q0]; cbn [andb] in Q.
    - rewrite (vr_y _ _ _ _ _ _ _ R), (vr_z _ _ _ _ _ _ _ R) in Q. cbn in Q. destruct Q as [Q|Q]; inversion Q; subst; auto.
    - destruct Q as [Q|Q].
      + pose proof (resize_to_cases ct s (sw_mem W) (v_grid v) A1 _ 1 1 (m1, g1) e Hct M GR1 H0 H1 H1 ltac:(eapply supported_line; eauto) Q) as [HX _]. exact HX.
      + assert (Q' : x_resize ct s (sw_mem W, v_grid v) (av_cap b) 1 1 = XRet s1 (m1, g1) tt).
        { unfold x_resize. destruct (Z.eqb_spec (g_x (v_grid v)) (av_cap b)); [contradiction|]. exact Q. }
        apply resize_agrees in Q'. unfold g_resize in Q'. destruct (Z.eqb_spec (g_x (v_grid v)) (av_cap b)) as [Q1|_]; [contradiction|]. cbn [andb] in Q'.
        destruct (grid_resized ct L (sw_mem W) (v_grid v) A1 _ _ Hct P M GR1 H0 FF) as [m2 [h2 [Er [_ [[_ [X _]] _]]]]]. rewrite Er in Q'. inversion Q'; subst. exact X. }
  destruct (x_resize ct s (sw_mem W, v_grid v) _ _ _) as [s1 [m1 g1] []|[m1 g1] e1| |f] eqn:E1; cbn [xbind xlift] in H; try discriminate.
  - specialize (K s1 (m1, g1) XMember (or_intror eq_refl)). cbn [snd] in K.
    destruct (x_copy_in ct s1 (m1, g1) (v_grid o)) as [s3 [m3 g3] []|[m3 g3] e3| |f] eqn:E3; cbn [xbind xlift] in H; try discriminate.
    apply copy_in_same in E3. cbn [snd] in E3. subst g3. inversion H; subst. split; auto.
  - specialize (K s (m1, g1) e1 (or_introl eq_refl)). cbn [snd] in K. inversion H; subst. split; auto.
Qed.

(** So it is not the case that the vectors can be used afterwards: the size may exceed
    the capacity, and reading the last element is then undefined. *)
Definition vx (W : sworld) (id : nat) : vec :=
  match sw_vecs W id with Some v => v | None => mkVec (mkGrid 0 0 0 None None None None null) 0 end.
Definition xstate {A : Type} (o : xout vst A) : option (vst * xexn) := match o with XThr w e => Some (w, e) | _ => None end.
Definition xfault {A : Type} (o : xout vst A) : option fault := match o with XFlt f => Some f | _ => None end.
Definition obs_at {A : Type} (ct : celltype) (o : xout vst A) (i : Z) : option (xexn * Z * Z * option cell) :=
  match xstate o with
  | Some (w, e) => Some (e, v_size (snd w), v_capacity (snd w), match v_get ct w i with Ret _ c => Some c | _ => None end)
  | None => None
  end.

Definition ax (k : nat) : xout vst unit := x_v_assign sx_ct (mkSched (Some k) None) (sw_mem sx_world, vx sx_world 0) (vx sx_world 1).
Definition unusable (o : xout vst unit) : bool :=
  match o with
  | XThr w XMember => (v_capacity (snd w) <? v_size (snd w)) && match v_get sx_ct w (v_size (snd w) - 1) with Flt ReadDead => true | _ => false end
  | _ => false
  end.
Theorem C87_assign_refuted : exists ct L W l l2 s w e,
  wf_ct ct /\ policy ct L /\ reachable ct L W /\ contents ct W 0 l /\ contents ct W 1 l2 /\ sized W 0 /\ sized W 1 /\
  x_v_assign ct s (sw_mem W, vx W 0) (vx W 1) = XThr w e /\
  v_capacity (snd w) < v_size (snd w) /\ v_get ct w (v_size (snd w) - 1) = Flt ReadDead.
Proof.
  assert (G : forall o, unusable o = true -> exists w, o = XThr w XMember /\ v_capacity (snd w) < v_size (snd w) /\ v_get sx_ct w (v_size (snd w) - 1) = Flt ReadDead).
  { intros o H. unfold unusable in H. destruct o as [| w [| |]| |]; try discriminate. exists w. split; auto.
    apply andb_prop in H. destruct H as [Q1 Q2]. split; [lia|]. destruct (v_get sx_ct w _) as [| |f]; try discriminate. destruct f; try discriminate. reflexivity. }
  assert (Q : unusable (x_v_assign sx_ct (mkSched (Some 5%nat) None) (sw_mem sx_world, vx sx_world 0) (vx sx_world 1)) = true) by (vm_compute; reflexivity).
  destruct (G _ Q) as [w [E H]].
  destruct sx_reachable as [HR [C0 [S0 [C1 [_ [_ [S1 _]]]]]]].
  exists sx_ct, [5; 8; 16], sx_world, [dx; sx2; dx; sx1; sx2], [sx1; sx1], (mkSched (Some 5%nat) None), w, XMember.
  split; [apply sx_wf|]. split; [apply sx_policy|]. split; [exact HR|]. split; [exact C0|]. split; [exact C1|]. split; [exact S0|]. split; [exact S1|]. split; [exact E|exact H].
Qed.

(** ** Witnesses *)
(** Vector 0 of [sx_world] holds five of 16 elements, vector 1 two, with the sizes 5, 8
    and 16; one member of the cells is an array of two class-type objects. *)
Example C87_example_set :
  obs_at sx_ct (x_v_set sx_ct (mkSched (Some 1%nat) None) (sw_mem sx_world, vx sx_world 0) 3 sx2) 3 <> None /\
  (exists c, obs_at sx_ct (x_v_set sx_ct (mkSched (Some 1%nat) None) (sw_mem sx_world, vx sx_world 0) 3 sx2) 3 = Some (XMember, 5, 16, Some c) /\
     c <> sx1 /\ c <> sx2) /\
  obs_at sx_ct (x_v_pop sx_ct (mkSched (Some 1%nat) None) (sw_mem sx_world, vx sx_world 0)) 3 = Some (XMember, 4, 16, Some sx1) /\
  obs_at sx_ct (x_v_push sx_ct (mkSched (Some 1%nat) None) (sw_mem sx_world, vx sx_world 0) sx1) 4 = Some (XMember, 5, 16, Some sx2) /\
  obs_at sx_ct (x_v_push sx_ct (mkSched (Some 2%nat) None) (sw_mem sx_world, vx sx_world 0) sx1) 4 = None.
Proof.
  split; [vm_compute; discriminate|]. split; [eexists; split; [vm_compute; reflexivity|split; discriminate]|].
  vm_compute. repeat split.
Qed.

(** reserve(6) of vector 1, whose next size is 8: 12 objects first, then 16, then four
    assignments. *)
Definition rx (k : option nat) (a : option nat) : xout vst unit := x_v_reserve sx_ct (mkSched k a) (sw_mem sx_world, vx sx_world 1) 6.
Example C87_example_reserve :
  reserve_first sx_ms 6 = 12%nat /\ reserve_second sx_ms 6 8 = 16%nat /\ first_fit 6 [5; 8; 16] 8 /\
  obs_at sx_ct (rx (Some 11%nat) None) 1 = Some (XMember, 2, 2, Some sx1) /\
  xfault (rx (Some 12%nat) None) = Some DestroyDead /\ xfault (rx (Some 27%nat) None) = Some DestroyDead /\
  obs_at sx_ct (rx (Some 28%nat) None) 1 = Some (XMember, 2, 2, Some sx1) /\
  obs_at sx_ct (rx (Some 31%nat) None) 1 = Some (XMember, 2, 2, Some sx1) /\
  obs_at sx_ct (rx (Some 32%nat) None) 1 = None /\ xfault (rx (Some 32%nat) None) = None /\
  obs_at sx_ct (rx None (Some 0%nat)) 1 = Some (XBadAlloc, 2, 2, Some sx1) /\
  xfault (rx None (Some 1%nat)) = Some Dangling /\
  (* without rounding up nothing is undefined *)
  xfault (x_v_reserve sx_ct (mkSched None (Some 1%nat)) (sw_mem sx_world, vx sx_world 1) 8) = None /\
  obs_at sx_ct (x_v_reserve sx_ct (mkSched (Some 17%nat) None) (sw_mem sx_world, vx sx_world 1) 8) 1 = Some (XMember, 2, 2, Some sx1).
Proof. split; [reflexivity|]. split; [reflexivity|]. split; [repeat constructor; lia|]. vm_compute. repeat split. Qed.

(** A full vector of five elements: push_back reserves 6, gets 8. *)
Definition fx_world : sworld := match srun sx_ct sstart [SNew 0 5] with Val (w, _) => w | Fault _ => sstart end.
Definition px (k : option nat) (a : option nat) : xout vst unit := x_v_push sx_ct (mkSched k a) (sw_mem fx_world, vx fx_world 0) sx1.
Example C87_example_push_grow :
  reachable sx_ct [5; 8; 16] fx_world /\ sized fx_world 0 /\ contents sx_ct fx_world 0 [dx; dx; dx; dx; dx] /\
  g_ex (v_grid (vx fx_world 0)) = Some (v_size (vx fx_world 0)) /\ room [5; 8; 16] (6 * len [dx; dx; dx; dx; dx] / 5) /\ wf_cell sx_ms sx1 /\
  obs_at sx_ct (px (Some 3%nat) None) 4 = Some (XMember, 5, 5, Some dx) /\ xfault (px (Some 12%nat) None) = Some DestroyDead /\
  obs_at sx_ct (px (Some 28%nat) None) 4 = Some (XMember, 5, 5, Some dx) /\
  obs_at sx_ct (px (Some 39%nat) None) 4 = Some (XMember, 5, 8, Some dx) /\ obs_at sx_ct (px (Some 40%nat) None) 4 = None.
Proof.
  destruct sx_wf as [Hw _]. destruct sx_policy as [P _].
  assert (LAW : lawful (ct_ms sx_ct) [5; 8; 16] no_vectors [SNew 0 5]).
  { cbn [lawful]. split; [split; [reflexivity|lia]|]. intros A1 o1 S1. exact Logic.I. }
  destruct (srun_ok sx_ct [5; 8; 16] [SNew 0 5] sstart no_vectors Hw (proj1 P) (proj2 P) (sv_start _ _) LAW) as [W [A [obs [E [S I]]]]].
  assert (EW : fx_world = W) by (unfold fx_world; rewrite E; reflexivity).
  split; [exists [SNew 0 5]; exists obs; split; [exact LAW|rewrite EW; exact E]|].
  split; [unfold sized; eexists; eexists; split; vm_compute; reflexivity|].
  split.
  { assert (G : forall ops o, obs_of (srun sx_ct fx_world ops) = Some o -> exists W', srun sx_ct fx_world ops = Val (W', o)).
    { intros ops o. destruct (srun sx_ct fx_world ops) as [[w os]|]; cbn [obs_of]; intros H; inversion H; eauto. }
    apply G. vm_compute. reflexivity. }
  split; [vm_compute; reflexivity|]. split; [apply sx_room; vm_compute; discriminate|]. split; [apply sx_w1|].
  vm_compute. repeat split.
Qed.

(** Vectors of three elements that are filled with a value. *)
Definition outcome_of {A : Type} (o : xout vst A) : option (option xexn) :=
  match o with XRet _ _ _ => Some None | XThr _ e => Some (Some e) | _ => None end.
Definition nx (k : option nat) (a : option nat) : option (option xexn) := outcome_of (x_v_new_fill sx_ct (mkSched k a) (sw_mem sx_world) 3 sx1).
Example C87_example_fill :
  reserve_first sx_ms 3 = 6%nat /\ first_fit 3 [5; 8; 16] 5 /\
  nx (Some 5%nat) None = Some (Some XMember) /\ nx (Some 11%nat) None = Some (Some XMember) /\
  nx (Some 12%nat) None = Some None /\ nx None (Some 0%nat) = Some (Some XBadAlloc).
Proof. split; [reflexivity|]. split; [repeat constructor; lia|]. split; [vm_compute; reflexivity|]. split; [vm_compute; reflexivity|]. split; vm_compute; reflexivity. Qed.

(** The assignment of vector 1 to vector 0: four constructors, four assignments. *)
Example C87_example_assign :
  map (fun k => unusable (ax k)) (seq 0 8) = repeat true 8 /\ map (fun k => unusable (ax k)) [8; 9]%nat = [false; false].
Proof. split; vm_compute; reflexivity. Qed.

Print Assumptions C87_returns.
Print Assumptions C87_set.
Print Assumptions C87_pop.
Print Assumptions C87_push_room.
Print Assumptions C87_reserve.
Print Assumptions C87_reserve_refuted.
Print Assumptions C87_push_grow.
Print Assumptions C87_fill.
Print Assumptions C87_assign_sizes.
Print Assumptions C87_assign_refuted.
