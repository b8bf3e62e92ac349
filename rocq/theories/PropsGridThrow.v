(** Statements C86: soa_grid when constructors or assignment operators of members, or
    the allocator, throw. *)
From Coq Require Import ZArith List Lia Bool Init.Byte.
From Verif Require Import Base Layout LayoutProofs Sizes SizesProofs Mem MemProofs
  Accessor AccessorProofs RegionProofs Grid SpecGrid GridProofs GridInv BufferProofs GridOps GridSim GridView PropsGrid PropsGrid2
  Vector GridThrow SpecGridThrow GridThrowProofs.
Import ListNotations.
Open Scope Z_scope.

(** ** Calls in which nothing throws *)
(** With nothing scheduled to throw, each function is that of Grid.v. *)
Theorem C86_never : forall ct m g o x y z c cs n,
  x_resize ct never (m, g) x y z = plain never (g_resize ct (m, g) x y z) /\
  x_new ct never m x y z = plain never (g_new ct m x y z) /\
  x_copy ct never m o = plain never (g_copy ct m o) /\
  x_assign ct never (m, g) o = plain never (g_assign ct (m, g) o) /\
  x_set ct never (m, g) x y z c = plain never (g_set ct (m, g) x y z c) /\
  x_set_n ct never (m, g) x y z cs n = plain never (g_set_n ct (m, g) x y z cs n) /\
  x_broadcast ct never (m, g) x y z c n = plain never (g_broadcast ct (m, g) x y z c n).
Proof.
  intros. split; [apply x_resize_never|]. split; [apply x_resize_never|]. split; [apply x_copy_never|].
  split; [apply x_assign_never|]. split; [apply x_set_never|]. split; [apply x_set_n_never|apply x_broadcast_never].
Qed.

(** Under any schedule, a call that returns has done what it does without exceptions. *)
Theorem C86_returns : forall ct s m g o x y z c cs n s' w',
  (x_resize ct s (m, g) x y z = XRet s' w' tt -> g_resize ct (m, g) x y z = Ret w' tt) /\
  (x_new ct s m x y z = XRet s' w' tt -> g_new ct m x y z = Ret w' tt) /\
  (x_copy ct s m o = XRet s' w' tt -> g_copy ct m o = Ret w' tt) /\
  (x_assign ct s (m, g) o = XRet s' w' tt -> g_assign ct (m, g) o = Ret w' tt) /\
  (x_set ct s (m, g) x y z c = XRet s' w' tt -> g_set ct (m, g) x y z c = Ret w' tt) /\
  (x_set_n ct s (m, g) x y z cs n = XRet s' w' tt -> g_set_n ct (m, g) x y z cs n = Ret w' tt) /\
  (x_broadcast ct s (m, g) x y z c n = XRet s' w' tt -> g_broadcast ct (m, g) x y z c n = Ret w' tt).
Proof.
  intros. split; [intros H; exact (resize_agrees _ _ _ _ _ _ _ _ _ H)|]. split; [intros H; exact (resize_agrees _ _ _ _ _ _ _ _ _ H)|].
  split; [intros H; exact (copy_agrees _ _ _ _ _ _ _ H)|]. split; [intros H; exact (assign_agrees _ _ _ _ _ _ _ H)|].
  split; [intros H; exact (set_row_agrees ct s m g [c] 1 x y z 1 _ _ _ H)|].
  split; [intros H; exact (set_row_agrees ct s m g cs 1 x y z n _ _ _ H)|intros H; exact (set_row_agrees ct s m g [c] 0 x y z n _ _ _ H)].
Qed.

(** ** set and broadcast: the basic guarantee *)
(** What [n] cells from (x, y, z) on hold after an interrupted write of [f 0, f 1, ...];
    the grid object is unchanged and the program may go on with all its grids. *)
Definition half_written (ct : celltype) (W : world) (A : aworld) (id : nat) (g : grid) (S : agrid) (x y z n : Z) (f : Z -> cell)
                        (w' : gst) : Prop :=
  snd w' = g /\ exists S', as_specified ct (mkW (fst w') (w_grids W)) (fset A id (Some S')) /\
    ag_x S' = ag_x S /\ ag_y S' = ag_y S /\ ag_z S' = ag_z S /\
    forall x' y' z', in_box S x' y' z' ->
      if in_row x y z n x' y' z' then mixed (ct_ms ct) (ag_cells S x' y' z') (f (x' - x)) (ag_cells S' x' y' z')
      else ag_cells S' x' y' z' = ag_cells S x' y' z'.

Lemma set_row_half : forall ct s W A id g S cs stride f x y z n w' ex,
  wf_ct ct -> history ct W A -> w_grids W id = Some g -> A id = Some S -> row_in S x y z n ->
  (forall i, 0 <= i < n -> nth_error cs (Z.to_nat (i * stride)) = Some (f i) /\ wf_cell (ct_ms ct) (f i)) ->
  x_set_row ct s (w_mem W, g) cs stride x y z n = XThr w' ex ->
  match ex with XMember => half_written ct W A id g S x y z n f w' | XBadAlloc => False | XLib _ => n = 0 end.
Proof.
  intros ct s W A id g S cs stride f x y z n w' ex Hct HH Hg HA Hrow Hcs H. pose proof (history_inv _ _ _ Hct HH) as I.
  destruct (winv_rep _ _ _ _ _ I Hg) as [S0 [HA0 G]]. assert (S0 = S) by congruence. subst S0.
  destruct (ag_fresh S) eqn:FS.
  - assert (n = 0).
    { destruct Hrow as [Hn Hr]. destruct (Z.eq_dec n 0); auto. exfalso. assert (Hb : in_box S (x + 0) y z) by (apply Hr; lia).
      rewrite (nonfresh _ _ _ _ _ _ _ G Hb) in FS. discriminate. }
    subst n. unfold x_set_row in H. rewrite x_callback_choose in H. destruct (choose _ _ _ _); [inversion H; subst; auto|].
    cbn in H. discriminate.
  - destruct (set_row_throws ct s W A id g S cs stride f x y z n w' ex) as [-> [Hs [S' [I' [HX [HY [HZ HM]]]]]]]; auto.
    split; auto. exists S'. split; [apply winv_as_specified; auto|]. auto.
Qed.

Theorem C86_set_throws : forall ct s W A id g S x y z c w' ex,
  wf_ct ct -> history ct W A -> w_grids W id = Some g -> A id = Some S -> in_box S x y z -> wf_cell (ct_ms ct) c ->
  x_set ct s (w_mem W, g) x y z c = XThr w' ex ->
  ex = XMember /\ half_written ct W A id g S x y z 1 (fun _ => c) w'.
Proof.
  intros ct s W A id g S x y z c w' ex Hct HH Hg HA Hin Hc H.
  assert (Q : match ex with XMember => half_written ct W A id g S x y z 1 (fun _ => c) w' | XBadAlloc => False | XLib _ => 1 = 0 end).
  { eapply (set_row_half ct s W A id g S [c] 1); eauto.
    - split; [lia|]. intros i Hi. replace (x + i) with x by lia. exact Hin.
    - intros i Hi. replace i with 0 by lia. auto. }
  destruct ex; [auto|contradiction|discriminate].
Qed.

Theorem C86_set_n_throws : forall ct s W A id g S x y z cs w' ex,
  wf_ct ct -> history ct W A -> w_grids W id = Some g -> A id = Some S ->
  row_in S x y z (Z.of_nat (length cs)) -> Forall (wf_cell (ct_ms ct)) cs -> cs <> [] ->
  x_set_n ct s (w_mem W, g) x y z cs (Z.of_nat (length cs)) = XThr w' ex ->
  ex = XMember /\ half_written ct W A id g S x y z (Z.of_nat (length cs)) (fun i => nth (Z.to_nat i) cs []) w'.
Proof.
  intros ct s W A id g S x y z cs w' ex Hct HH Hg HA Hrow Hc Hne H.
  assert (Q : match ex with XMember => half_written ct W A id g S x y z (Z.of_nat (length cs)) (fun i => nth (Z.to_nat i) cs []) w'
              | XBadAlloc => False | XLib _ => Z.of_nat (length cs) = 0 end).
  { eapply (set_row_half ct s W A id g S cs 1); eauto. intros i Hi. rewrite Z.mul_1_r.
    assert (Hl : (Z.to_nat i < length cs)%nat) by lia. split; [apply nth_error_nth'; auto|].
    rewrite Forall_forall in Hc. apply Hc. apply nth_In; auto. }
  destruct ex; [auto|contradiction|]. destruct cs; [congruence|cbn [length] in Q; lia].
Qed.

Theorem C86_broadcast_throws : forall ct s W A id g S x y z c n w' ex,
  wf_ct ct -> history ct W A -> w_grids W id = Some g -> A id = Some S -> row_in S x y z n -> 0 < n -> wf_cell (ct_ms ct) c ->
  x_broadcast ct s (w_mem W, g) x y z c n = XThr w' ex ->
  ex = XMember /\ half_written ct W A id g S x y z n (fun _ => c) w'.
Proof.
  intros ct s W A id g S x y z c n w' ex Hct HH Hg HA Hin Hn Hc H.
  assert (Q : match ex with XMember => half_written ct W A id g S x y z n (fun _ => c) w' | XBadAlloc => False | XLib _ => n = 0 end).
  { eapply (set_row_half ct s W A id g S [c] 0); eauto. intros i Hi. rewrite Z.mul_0_r. auto. }
  destruct ex; [auto|contradiction|lia].
Qed.

(** ** operator= *)
(** An exception during the copying leaves a grid of the new dimensions whose elements
    are old (default, if the dimensions changed) or those of the source. Incomplete: an
    exception inside resize() is another matter, C86_resize_member and
    C86_resize_bad_alloc. *)
Theorem C86_assign_throws_partial : forall ct s W A id g D jd o S s1 w1 w' ex,
  wf_ct ct -> history ct W A -> w_grids W id = Some g -> A id = Some D -> w_grids W jd = Some o -> A jd = Some S -> id <> jd ->
  supported (ct_sizes ct) (ag_x S) (ag_y S) (ag_z S) ->
  x_resize ct s (w_mem W, g) (g_x o) (g_y o) (g_z o) = XRet s1 w1 tt ->
  x_assign ct s (w_mem W, g) o = XThr w' ex ->
  ex = XMember /\ exists S',
    as_specified ct (mkW (fst w') (fset (w_grids W) id (Some (snd w')))) (fset A id (Some S')) /\
    ag_x S' = ag_x S /\ ag_y S' = ag_y S /\ ag_z S' = ag_z S /\
    forall x y z, in_box S x y z ->
      mixed (ct_ms ct) (if (ag_x D =? ag_x S) && (ag_y D =? ag_y S) && (ag_z D =? ag_z S) then ag_cells D x y z else default_cell (ct_ms ct))
            (ag_cells S x y z) (ag_cells S' x y z).
Proof.
  intros ct s W A id g D jd o S s1 w1 w' ex Hct HH Hg HA Ho HS Hne Hsup E H. pose proof (history_inv _ _ _ Hct HH) as I.
  unfold x_assign in H. rewrite E in H. cbn [xbind] in H.
  destruct (assign_copy_throws ct s W A id g D jd o S s1 w1 w' ex) as [-> [S' [I' Q]]]; auto.
  split; auto. exists S'. split; auto. apply winv_as_specified; auto.
Qed.

(** In particular nothing bad happens between grids of the same dimensions. *)
Theorem C86_assign_same_dims : forall ct s W A id g D jd o S w' ex,
  wf_ct ct -> history ct W A -> w_grids W id = Some g -> A id = Some D -> w_grids W jd = Some o -> A jd = Some S -> id <> jd ->
  supported (ct_sizes ct) (ag_x S) (ag_y S) (ag_z S) ->
  ag_x D = ag_x S -> ag_y D = ag_y S -> ag_z D = ag_z S ->
  x_assign ct s (w_mem W, g) o = XThr w' ex ->
  ex = XMember /\ exists S',
    as_specified ct (mkW (fst w') (fset (w_grids W) id (Some (snd w')))) (fset A id (Some S')) /\
    ag_x S' = ag_x S /\ ag_y S' = ag_y S /\ ag_z S' = ag_z S /\
    forall x y z, in_box S x y z -> mixed (ct_ms ct) (ag_cells D x y z) (ag_cells S x y z) (ag_cells S' x y z).
Proof.
  intros ct s W A id g D jd o S w' ex Hct HH Hg HA Ho HS Hne Hsup X Y Zz H. pose proof (history_inv _ _ _ Hct HH) as I.
  destruct (winv_rep _ _ _ _ _ I Hg) as [D0 [HD0 [GX [GY [GZ _]]]]]. assert (D0 = D) by congruence. subst D0.
  destruct (winv_rep _ _ _ _ _ I Ho) as [S0 [HS0 [SX [SY [SZ _]]]]]. assert (S0 = S) by congruence. subst S0.
  destruct (C86_assign_throws_partial ct s W A id g D jd o S s (w_mem W, g) w' ex) as [-> [S' [Q1 [Q2 [Q3 [Q4 Q5]]]]]]; auto.
  { unfold x_resize. rewrite GX, GY, GZ, SX, SY, SZ, X, Y, Zz, !Z.eqb_refl. reflexivity. }
  split; auto. exists S'. split; [auto|]. split; [auto|]. split; [auto|]. split; [auto|].
  intros x y z Hin. specialize (Q5 x y z Hin). rewrite X, Y, Zz, !Z.eqb_refl in Q5. exact Q5.
Qed.

(** ** Constructors: storage is lost *)
(** soa_grid(x, y, z): a throwing allocator leaves everything as it was; a throwing
    member constructor leaves the new storage allocated, with the objects built so far
    alive in it and no grid that refers to it. *)
Theorem C86_new : forall ct s W A x y z,
  wf_ct ct -> history ct W A -> 0 <= x -> 0 <= y -> 0 <= z -> (x, y, z) <> (0, 0, 0) -> supported (ct_sizes ct) x y z ->
  match x_new ct s (w_mem W) x y z with
  | XRet _ _ _ => sc_allocs s <> Some 0%nat /\ forall k, sc_ops s = Some k -> (grid_elements (ct_ms ct) x y z <= k)%nat
  | XThr (m', _) XBadAlloc => sc_allocs s = Some 0%nat /\ m' = w_mem W
  | XThr (m', _) XMember => sc_allocs s <> Some 0%nat /\ exists k b n, sc_ops s = Some k /\ (k < grid_elements (ct_ms ct) x y z)%nat /\
      leaves_block (w_mem W) m' b n k
  | _ => False
  end.
Proof.
  intros ct s W A x y z Hct HH X Y Zz Hne Hs. pose proof (history_inv _ _ _ Hct HH) as I. pose proof (wi_ok _ _ _ I) as M.
  unfold x_new, x_resize. cbn [g_x g_y g_z].
  assert ((0 =? x) && (0 =? y) && (0 =? z) = false) as ->.
  { destruct (Z.eqb_spec 0 x); destruct (Z.eqb_spec 0 y); destruct (Z.eqb_spec 0 z); auto. subst. congruence. }
  set (g0 := mkGrid 0 0 0 None None None None null).
  assert (G0 : grep ct (w_mem W) g0 (mkAG 0 0 0 true (fun _ _ _ => []))) by apply fresh_rep.
  destruct (resize_to_total ct s (w_mem W) g0 _ x y z Hct M G0 X Y Zz Hs) as [[s' [w' [E [Ha Hk]]]]|[[m' g'] [ex [E Q]]]].
  - rewrite E. auto.
  - pose proof (resize_to_cases ct s (w_mem W) g0 _ x y z (m', g') ex Hct M G0 X Y Zz Hs E) as [_ [_ [_ [_ C]]]]. rewrite E.
    destruct C as [[-> [Ha [_ [_ Ed]]]]|[-> [k [N [Hk [Hlt [Hb0 [Hb [F [HN [Hal _]]]]]]]]]]].
    + split; auto. cbn in Ed. congruence.
    + split. { destruct Q as [[Q _]|[_ [Q _]]]; [discriminate|exact Q]. }
      exists k, (blk g'), N. split; auto. split; auto. apply frame_leaves; auto.
Qed.

(** The copy constructor: the same; copying starts once all elements are built. *)
Theorem C86_copy_throws : forall ct s W A id o S w' ex,
  wf_ct ct -> history ct W A -> w_grids W id = Some o -> A id = Some S -> ag_fresh S = false ->
  x_copy ct s (w_mem W) o = XThr w' ex ->
  (ex = XBadAlloc /\ sc_allocs s = Some 0%nat /\ fst w' = w_mem W) \/
  (ex = XMember /\ exists k b n, sc_ops s = Some k /\
     leaves_block (w_mem W) (fst w') b n (Nat.min k (grid_elements (ct_ms ct) (ag_x S) (ag_y S) (ag_z S)))).
Proof.
  intros ct s W A id o S w' ex Hct HH Ho HA FS H. pose proof (history_inv _ _ _ Hct HH) as I. pose proof (wi_ok _ _ _ I) as M.
  destruct (winv_rep _ _ _ _ _ I Ho) as [S0 [HS0 G]]. assert (S0 = S) by congruence. subst S0.
  destruct (grep_alloc _ _ _ _ G FS) as [e GA]. destruct G as [SX [SY [SZ _]]].
  destruct (copy_cases ct s (w_mem W) o e (ag_cells S) w' ex Hct M GA H) as [Q|[-> [k [N [Hk [Hb0 [Hb [F [HN Hal]]]]]]]]]; auto.
  right. split; auto. exists k, (blk (snd w')), N. split; auto. rewrite SX, SY, SZ in Hal. apply frame_leaves; auto.
Qed.

(** ** resize: the grid is left unusable *)
(** A member constructor throws: the grid has the new dimensions and new storage in
    which [k] of the objects live; its destructor destroys objects that were never
    built, and so does every further resize. *)
Theorem C86_resize_member : forall ct s W A id g S x y z m' g',
  wf_ct ct -> history ct W A -> w_grids W id = Some g -> A id = Some S ->
  0 <= x -> 0 <= y -> 0 <= z -> supported (ct_sizes ct) x y z ->
  x_resize ct s (w_mem W, g) x y z = XThr (m', g') XMember ->
  g_x g' = x /\ g_y g' = y /\ g_z g' = z /\
  (exists k n, sc_ops s = Some k /\ (k < grid_elements (ct_ms ct) x y z)%nat /\
     msize m' (pb (g_data g')) = Some n /\ alive m' (pb (g_data g')) n = k) /\
  g_destroy ct (m', g') = Flt DestroyDead /\
  forall x' y' z', (x', y', z') <> (x, y, z) -> g_resize ct (m', g') x' y' z' = Flt DestroyDead.
Proof.
  intros ct s W A id g S x y z m' g' Hct HH Hg HA X Y Zz Hs H. pose proof (history_inv _ _ _ Hct HH) as I. pose proof (wi_ok _ _ _ I) as M.
  destruct (winv_rep _ _ _ _ _ I Hg) as [S0 [HS0 G]]. assert (S0 = S) by congruence. subst S0.
  unfold x_resize in H. destruct (_ && _); [discriminate|].
  pose proof (resize_to_cases ct s (w_mem W) g S x y z (m', g') XMember Hct M G X Y Zz Hs H) as [HX [HY [HZ [_ C]]]].
  destruct C as [[C _]|[_ [k [N [Hk [Hlt [Hb0 [Hb [F [HN [Hal Hd]]]]]]]]]]]; [discriminate|].
  split; auto. split; auto. split; auto. split; [exists k, N; auto|]. split; auto.
  intros x' y' z' Hne. apply resize_fault; auto. congruence.
Qed.

(** The allocator throws in a grid that had storage: its pointer dangles. *)
Theorem C86_resize_bad_alloc : forall ct s W A id g S x y z m' g',
  wf_ct ct -> history ct W A -> w_grids W id = Some g -> A id = Some S -> ag_fresh S = false ->
  0 <= x -> 0 <= y -> 0 <= z -> supported (ct_sizes ct) x y z ->
  x_resize ct s (w_mem W, g) x y z = XThr (m', g') XBadAlloc ->
  g_x g' = x /\ g_y g' = y /\ g_z g' = z /\ msize m' (pb (g_data g')) = None /\
  g_destroy ct (m', g') = Flt Dangling /\
  forall x' y' z', (x', y', z') <> (x, y, z) -> g_resize ct (m', g') x' y' z' = Flt Dangling.
Proof.
  intros ct s W A id g S x y z m' g' Hct HH Hg HA FS X Y Zz Hs H. pose proof (history_inv _ _ _ Hct HH) as I. pose proof (wi_ok _ _ _ I) as M.
  destruct (winv_rep _ _ _ _ _ I Hg) as [S0 [HS0 G]]. assert (S0 = S) by congruence. subst S0.
  unfold x_resize in H. destruct (_ && _); [discriminate|].
  pose proof (resize_to_cases ct s (w_mem W) g S x y z (m', g') XBadAlloc Hct M G X Y Zz Hs H) as [HX [HY [HZ [[e [He Hbs]] C]]]].
  destruct C as [[_ [Ha [Hp [F Ed]]]]|[C _]]; [|discriminate].
  destruct (grep_alloc _ _ _ _ G FS) as [e0 GA].
  assert (Hgone : msize m' (blk g') = None).
  { unfold blk. rewrite Hp. destruct (msize m' (pb (g_data g))) as [n|] eqn:En; auto.
    destruct (gf_leak _ _ _ _ F _ _ En) as [Q|[Q _]]; [|exfalso; apply Q; reflexivity]. exfalso. apply (ga_blk _ _ _ _ _ GA). exact Q. }
  assert (Hd : destroy_and_deallocate ct (m', g') = Flt Dangling).
  { eapply destroy_gone; eauto; [rewrite HX, HY, HZ; exact He|]. unfold blk. rewrite Hp. apply (ga_blk _ _ _ _ _ GA). }
  split; auto. split; auto. split; auto. split; auto. split; [exact Hd|].
  intros x' y' z' Hne. apply resize_fault; auto. congruence.
Qed.

(** The allocator throws in a default-constructed grid: it can be destroyed, but it now
    has dimensions and no storage. Trying again with the same dimensions returns at
    once, without storage; the first cell written is written through a null pointer. *)
Theorem C86_resize_bad_alloc_fresh : forall ct s W A id g S x y z m' g' c x' y' z',
  wf_ct ct -> history ct W A -> w_grids W id = Some g -> A id = Some S -> ag_fresh S = true ->
  0 <= x -> 0 <= y -> 0 <= z -> supported (ct_sizes ct) x y z ->
  x_resize ct s (w_mem W, g) x y z = XThr (m', g') XBadAlloc ->
  m' = w_mem W /\ g_x g' = x /\ g_y g' = y /\ g_z g' = z /\
  g_destroy ct (m', g') = Ret (m', g') tt /\
  g_resize ct (m', g') x y z = Ret (m', g') tt /\
  (ct_ms ct <> [] -> (forall mb, In mb (ct_ms ct) -> m_count mb <> 0%nat) -> wf_cell (ct_ms ct) c ->
   g_set ct (m', g') x' y' z' c = Flt Dangling).
Proof.
  intros ct s W A id g S x y z m' g' c x' y' z' Hct HH Hg HA FS X Y Zz Hs H. pose proof (history_inv _ _ _ Hct HH) as I. pose proof (wi_ok _ _ _ I) as M.
  destruct (winv_rep _ _ _ _ _ I Hg) as [S0 [HS0 G]]. assert (S0 = S) by congruence. subst S0.
  unfold x_resize in H. destruct (_ && _); [discriminate|].
  pose proof (resize_to_cases ct s (w_mem W) g S x y z (m', g') XBadAlloc Hct M G X Y Zz Hs H) as [HX [HY [HZ [[e [He Hbs]] C]]]].
  destruct C as [[_ [Ha [Hp [F Ed]]]]|[C _]]; [|discriminate].
  assert (Hnull : g_data g = null) by (eapply grep_null; eauto).
  assert (Hm : m' = w_mem W).
  { unfold destroy_and_deallocate in Ed. rewrite Hnull in Ed. cbn in Ed. congruence. }
  split; auto. split; auto. split; auto. split; auto. split; [|split].
  - unfold g_destroy, destroy_and_deallocate. rewrite Hp, Hnull. reflexivity.
  - unfold g_resize. rewrite HX, HY, HZ, !Z.eqb_refl. reflexivity.
  - intros Hne Hcnt Hc. unfold g_set. rewrite callback_choose, HX, HY, HZ, He.
    unfold set_instance_functor. change (zseq 1) with [0]. cbn [mapR]. change (Z.to_nat (0 * 1)) with 0%nat. cbn [nth_error].
    rewrite assign_canon by auto. cbn [concat]. rewrite app_nil_r, Hp, Hnull.
    pose proof (length_slots_from (ct_ms ct) 0 c Hc) as HL.
    assert (Hsl : slots (ct_ms ct) <> []).
    { destruct (ct_ms ct) as [|mb ms]; [congruence|]. unfold slots. cbn [slots_from]. specialize (Hcnt mb (or_introl eq_refl)).
      unfold member_slots. destruct (m_count mb); [congruence|]. cbn. discriminate. }
    fold (slots (ct_ms ct)) in HL. destruct (slots (ct_ms ct)) as [|sl sls]; [congruence|].
    destruct (concat c) as [|v vs]; [discriminate|]. cbn [combine map exec exec1].
    destruct M as [_ [M0 _]]. unfold chk_bounds, sptr, padd, null. cbn [pb]. rewrite Hm, M0. reflexivity.
Qed.

(** So there is no state of the grids that the program could rely on afterwards. *)
Theorem C86_resize_refuted : forall ct s W A id g S x y z m' g' ex,
  wf_ct ct -> history ct W A -> w_grids W id = Some g -> A id = Some S -> ag_fresh S = false ->
  0 <= x -> 0 <= y -> 0 <= z -> supported (ct_sizes ct) x y z ->
  x_resize ct s (w_mem W, g) x y z = XThr (m', g') ex ->
  forall A', A' id <> None -> ~ as_specified ct (mkW m' (fset (w_grids W) id (Some g'))) A'.
Proof.
  intros ct s W A id g S x y z m' g' ex Hct HH Hg HA FS X Y Zz Hs H A' HA' Q.
  assert (Hd : exists f, g_destroy ct (m', g') = Flt f).
  { destruct ex as [| |er].
    - exists DestroyDead. eapply C86_resize_member in H; eauto. tauto.
    - exists Dangling. eapply C86_resize_bad_alloc in H; eauto. tauto.
    - exfalso. pose proof (history_inv _ _ _ Hct HH) as I. pose proof (wi_ok _ _ _ I) as M.
      destruct (winv_rep _ _ _ _ _ I Hg) as [S0 [HS0 G]]. assert (S0 = S) by congruence. subst S0.
      unfold x_resize in H. destruct (_ && _); [discriminate|].
      pose proof (resize_to_cases ct s (w_mem W) g S x y z (m', g') _ Hct M G X Y Zz Hs H) as [_ [_ [_ [_ C]]]].
      destruct C as [[C _]|[C _]]; discriminate. }
  destruct Hd as [f Hd]. destruct (A' id) as [S'|] eqn:EA; [|congruence].
  destruct (Q [ODestroy id] (fset A' id None) [BUnit]) as [W' [E _]].
  { eapply ar_cons; [eapply a_destroy; eauto|constructor]. }
  cbn [wrun wstep w_grids w_mem] in E. rewrite fset_same in E. cbn [w_mem] in E. rewrite Hd in E. discriminate.
Qed.

(** ** Cases *)
Lemma ex_hist : exists A, history ex_ct ex_world A /\ exists S0 S1, A 0%nat = Some S0 /\ A 1%nat = Some S1 /\
  ag_fresh S0 = false /\ ag_fresh S1 = false.
Proof.
  destruct ex_reachable as [ops [A [bs [H E]]]]. exists A. assert (HH : history ex_ct ex_world A) by (exists ops, bs; auto). split; auto.
  pose proof (history_inv _ _ _ ex_ct_wf HH) as I. destruct ex_world_content as [E0 [E1 [_ [Hs _]]]].
  destruct (winv_rep _ _ _ _ _ I E0) as [S0 [A0 G0]]. destruct (winv_rep _ _ _ _ _ I E1) as [S1 [A1 G1]].
  exists S0, S1. split; auto. split; auto. split; [eapply sized_fresh; eauto|]. eapply sized_fresh; eauto.
Qed.

(** The second of the two class-type elements of a cell cannot be assigned. *)
Example C86_set_case :
  match x_set ex_ct (mkSched (Some 1%nat) None) (w_mem ex_world, ex_grid 0) 1 1 0 (ex_cell x20 x21 x22 x23) with
  | XThr (m', g') XMember =>
      match g_get ex_ct (m', g') 1 1 0 with Ret _ c => c = ex_cell x20 x21 x22 x13 | _ => False end
  | _ => False
  end.
Proof. vm_compute. reflexivity. Qed.

(** Broadcast over three cells, six assignments; the fourth throws. *)
Example C86_broadcast_case :
  match x_broadcast ex_ct (mkSched (Some 3%nat) None) (w_mem ex_world, ex_grid 0) 0 1 0 (ex_cell x20 x21 x22 x23) 3 with
  | XThr (m', g') XMember =>
      match g_get_n ex_ct (m', g') 0 1 0 3 with
      | Ret _ cs => cs = [ex_cell x20 x21 x22 x23; ex_cell x20 x21 x22 x13; ex_cell x00 x01 x02 x02]
      | _ => False end
  | _ => False
  end.
Proof. vm_compute. reflexivity. Qed.

(** Grid 0 has 24 class-type elements: building a second one fails at the sixth, and
    five objects in a block nobody owns are left. *)
Example C86_new_case :
  grid_elements (ct_ms ex_ct) 3 2 2 = 24%nat /\
  match x_new ex_ct (mkSched (Some 5%nat) None) (w_mem ex_world) 3 2 2 with
  | XThr (m', g') XMember =>
      msize (w_mem ex_world) (pb (g_data g')) = None /\ msize m' (pb (g_data g')) = Some 64 /\ alive m' (pb (g_data g')) 64 = 5%nat
  | _ => False
  end /\
  match x_new ex_ct (mkSched (Some 24%nat) None) (w_mem ex_world) 3 2 2 with XRet _ _ _ => True | _ => False end /\
  match x_new ex_ct (mkSched None (Some 0%nat)) (w_mem ex_world) 3 2 2 with XThr _ XBadAlloc => True | _ => False end.
Proof. vm_compute. repeat split. Qed.

Example C86_copy_case :
  match x_copy ex_ct (mkSched (Some 30%nat) None) (w_mem ex_world) (ex_grid 0) with
  | XThr (m', g') XMember => msize m' (pb (g_data g')) = Some 64 /\ alive m' (pb (g_data g')) 64 = 24%nat
  | _ => False
  end.
Proof. vm_compute. repeat split. Qed.

Example C86_resize_case :
  match x_resize ex_ct (mkSched (Some 3%nat) None) (w_mem ex_world, ex_grid 0) 2 1 1 with XThr _ XMember => True | _ => False end /\
  match x_resize ex_ct (mkSched (Some 4%nat) None) (w_mem ex_world, ex_grid 0) 2 1 1 with XRet _ _ _ => True | _ => False end /\
  match x_resize ex_ct (mkSched None (Some 0%nat)) (w_mem ex_world, ex_grid 0) 2 1 1 with XThr _ XBadAlloc => True | _ => False end /\
  supported (ct_sizes ex_ct) 2 1 1.
Proof. split; [vm_compute; exact Logic.I|]. split; [vm_compute; exact Logic.I|]. split; [vm_compute; exact Logic.I|]. apply ex_supported; lia. Qed.

Example C86_resize_fresh_case :
  let W := after ex_ct [ONew 0 0 0 0] in
  match x_resize ex_ct (mkSched None (Some 0%nat)) (w_mem W, obj W 0) 2 1 1 with
  | XThr (m', g') XBadAlloc =>
      match g_resize ex_ct (m', g') 2 1 1 with
      | Ret (m2, g2) _ => match g_set ex_ct (m2, g2) 0 0 0 (ex_cell x20 x21 x22 x23) with Flt Dangling => True | _ => False end
      | _ => False end
  | _ => False
  end.
Proof. vm_compute. exact Logic.I. Qed.

(** Assignment from the 1x1x1 grid: two constructions, then two assignments, of which
    the second throws. *)
Example C86_assign_case :
  match x_assign ex_ct (mkSched (Some 3%nat) None) (w_mem ex_world, ex_grid 0) (ex_grid 1) with
  | XThr (m', g') XMember => g_x g' = 1 /\ match g_get ex_ct (m', g') 0 0 0 with Ret _ c => c = ex_cell x00 x01 x02 x02 | _ => False end
  | _ => False
  end /\
  match x_resize ex_ct (mkSched (Some 3%nat) None) (w_mem ex_world, ex_grid 0) 1 1 1 with XRet _ _ _ => True | _ => False end.
Proof. vm_compute. repeat split. Qed.

Print Assumptions C86_never.
Print Assumptions C86_returns.
Print Assumptions C86_set_throws.
Print Assumptions C86_set_n_throws.
Print Assumptions C86_broadcast_throws.
Print Assumptions C86_assign_throws_partial.
Print Assumptions C86_assign_same_dims.
Print Assumptions C86_new.
Print Assumptions C86_copy_throws.
Print Assumptions C86_resize_member.
Print Assumptions C86_resize_bad_alloc.
Print Assumptions C86_resize_bad_alloc_fresh.
Print Assumptions C86_resize_refuted.
