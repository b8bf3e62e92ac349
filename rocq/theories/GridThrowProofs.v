(** Lemmas about GridThrow.v. *)
From Coq Require Import ZArith List Lia Bool Permutation.
From Verif Require Import Base Layout LayoutProofs Sizes SizesProofs Mem MemProofs
  Accessor AccessorProofs RegionProofs Grid SpecGrid GridProofs GridInv BufferProofs GridOps GridSim GridView
  Vector GridThrow SpecGridThrow.
Import ListNotations.
Open Scope Z_scope.

(** *** Running under a schedule *)
Definition calls (ops : list mop) : nat := length (filter may_throw ops).

Lemma exec_x_never : forall a ops m, exec_x (mkSched None a) ops m = match exec ops m with Val m' => XRet (mkSched None a) m' tt | Fault f => XFlt f end.
Proof.
  intros a. induction ops as [|op r IH]; intros m; cbn [exec_x exec]; auto.
  cbn [due sc_ops sc_allocs tick]. rewrite andb_false_r. destruct (exec1 m op); auto.
  destruct (may_throw op); apply IH.
Qed.

(** It goes as in [exec] until the call that is due. *)
Lemma exec_x_inv : forall ops s m,
  match exec_x s ops m with
  | XRet s' m' _ => exec ops m = Val m' /\ sc_allocs s' = sc_allocs s /\
      (forall k, sc_ops s = Some k -> (calls ops <= k)%nat /\ sc_ops s' = Some (k - calls ops)%nat) /\
      (sc_ops s = None -> sc_ops s' = None)
  | XThr m' e => e = XMember /\ exists pre op post, ops = pre ++ op :: post /\ may_throw op = true /\
      exec pre m = Val m' /\ sc_ops s = Some (calls pre)
  | XTerminate => False
  | XFlt f => exec ops m = Fault f
  end.
Proof.
  induction ops as [|op r IH]; intros s m; cbn [exec_x exec].
  - split; auto. split; auto. split; [|tauto]. intros k Hk. unfold calls. cbn [filter length]. split; [lia|]. rewrite Nat.sub_0_r. auto.
  - destruct (may_throw op && due (sc_ops s)) eqn:Ed.
    + apply andb_prop in Ed. destruct Ed as [Em Ed]. split; auto. exists [], op, r. cbn [app exec]. repeat split; auto.
      unfold due in Ed. destruct (sc_ops s) as [[|k]|]; try discriminate. reflexivity.
    + destruct (exec1 m op) as [m1|f] eqn:E1; auto.
      specialize (IH (if may_throw op then mkSched (tick (sc_ops s)) (sc_allocs s) else s) m1).
      destruct (exec_x _ r m1) as [s' m' []|m' e| |f].
      * destruct IH as [H1 [H2 [H3 H4]]]. split; auto. split.
        { rewrite H2. destruct (may_throw op); auto. }
        unfold calls in *. cbn [filter]. destruct (may_throw op); cbn [sc_ops length] in *; split; auto.
        -- intros k Hk. rewrite Hk in *. cbn [andb due] in Ed. destruct k as [|k]; [discriminate|]. cbn [tick] in H3.
           destruct (H3 k eq_refl) as [A B]. split; [lia|]. rewrite B. f_equal.
        -- intros Hn. apply H4. rewrite Hn. reflexivity.
      * destruct IH as [-> [pre [o [post [-> [Hm [He Hk]]]]]]]. split; auto. exists (op :: pre), o, post.
        cbn [app exec]. rewrite E1. split; auto. split; auto. split; auto.
        unfold calls in *. cbn [filter]. destruct (may_throw op); cbn [sc_ops length] in *; auto.
        destruct (sc_ops s) as [[|k]|]; cbn [tick andb due] in *; try discriminate. congruence.
      * exact IH.
      * exact IH.
Qed.

Lemma exec_x_ret : forall ops s m s' m' u, exec_x s ops m = XRet s' m' u ->
  exec ops m = Val m' /\ sc_allocs s' = sc_allocs s.
Proof. intros ops s m s' m' u H. pose proof (exec_x_inv ops s m) as I. rewrite H in I. tauto. Qed.

Lemma exec_x_thr : forall ops s m m' e, exec_x s ops m = XThr m' e ->
  e = XMember /\ exists pre op post, ops = pre ++ op :: post /\ may_throw op = true /\
    exec pre m = Val m' /\ sc_ops s = Some (calls pre).
Proof. intros ops s m m' e H. pose proof (exec_x_inv ops s m) as I. rewrite H in I. auto. Qed.

(** If nothing would go wrong, it returns or a member throws: the latter exactly if the
    schedule says so. *)
Lemma exec_x_ok : forall ops s m m', exec ops m = Val m' ->
  (exists s', exec_x s ops m = XRet s' m' tt /\ sc_allocs s' = sc_allocs s /\
     match sc_ops s with Some k => (calls ops <= k)%nat | None => True end) \/
  (exists m1 k, exec_x s ops m = XThr m1 XMember /\ sc_ops s = Some k /\ (k < calls ops)%nat).
Proof.
  intros ops s m m' H. pose proof (exec_x_inv ops s m) as I. destruct (exec_x s ops m) as [s' m1 []|m1 e| |f].
  - destruct I as [E [A [B _]]]. rewrite H in E. inversion E; subst. left. exists s'. split; auto. split; auto.
    destruct (sc_ops s) as [k|]; auto. destruct (B k eq_refl). auto.
  - destruct I as [-> [pre [op [post [-> [Hm [_ Hk]]]]]]]. right. exists m1, (calls pre). split; auto. split; auto.
    unfold calls. rewrite filter_app, app_length. cbn [filter]. rewrite Hm. cbn [length]. lia.
  - contradiction.
  - rewrite H in I. discriminate.
Qed.

(** *** Without exceptions the functions are those of Grid.v and Vector.v *)
Lemma x_callback_choose : forall (W A : Type) ct (w : W) g (f : ptr -> accessor -> xout W A),
  x_callback ct w g f = match choose (ct_sizes ct) (g_x g) (g_y g) (g_z g) with
                        | inl er => XThr w (XLib er) | inr e => f (g_data g) (mkAcc e 0 0) end.
Proof. intros. unfold x_callback. rewrite select_sizes_choose. reflexivity. Qed.

Lemma callback_choose : forall (W A : Type) ct (w : W) g (f : ptr -> accessor -> outcome W A),
  callback ct w g f = match choose (ct_sizes ct) (g_x g) (g_y g) (g_z g) with
                        | inl er => Thr w er | inr e => f (g_data g) (mkAcc e 0 0) end.
Proof. intros. unfold callback. rewrite select_sizes_choose. reflexivity. Qed.

Lemma x_run_never : forall ops m g, x_run never ops m g = plain never (run (exec ops m) (fun m' => (m', g)) tt).
Proof. intros. unfold x_run, never. rewrite exec_x_never. destruct (exec ops m); reflexivity. Qed.

Lemma x_init_never : forall ct w, x_init ct never w = plain never (g_init ct w).
Proof.
  intros ct [m g]. unfold x_init, g_init. rewrite x_callback_choose, callback_choose.
  destruct (choose _ _ _ _); [reflexivity|]. apply x_run_never.
Qed.

Lemma x_resize_never : forall ct w x y z, x_resize ct never w x y z = plain never (g_resize ct w x y z).
Proof.
  intros ct [m g] x y z. unfold x_resize, g_resize. destruct (_ && _); [reflexivity|].
  unfold x_resize_to, resize_to. destruct (destroy_and_deallocate ct (m, g)) as [[m1 g1] []|[m1 g1] e|f]; cbn [plain xbind obind]; try reflexivity.
  rewrite x_callback_choose, callback_choose. cbn [g_x g_y g_z].
  destruct (choose _ _ _ _) as [er|e]; cbn [xbind obind plain]; [reflexivity|].
  cbn [a_ext g_bs]. destruct (byte_size_of _ _ _ _) as [n|]; cbn [x_use use]; [|reflexivity].
  unfold x_alloc. cbn [never sc_allocs due]. destruct (alloc m1 n) as [m4 p]. cbn [sc_ops tick]. apply x_init_never.
Qed.

Lemma x_copy_in_never : forall ct w o, x_copy_in ct never w o = plain never (copy_in ct w o).
Proof.
  intros ct [m g] o. unfold x_copy_in, copy_in, x_dual_callback, dual_callback. destruct (ct_asym ct).
  - rewrite x_callback_choose, callback_choose. destruct (choose _ _ _ _); [reflexivity|].
    rewrite x_callback_choose, callback_choose. destruct (choose _ _ _ _); [reflexivity|]. apply x_run_never.
  - destruct (_ || _ || _); [reflexivity|].
    rewrite x_callback_choose, callback_choose. destruct (choose _ _ _ _); [reflexivity|]. apply x_run_never.
Qed.

Lemma x_copy_never : forall ct m o, x_copy ct never m o = plain never (g_copy ct m o).
Proof.
  intros ct m o. unfold x_copy, g_copy. destruct (g_bs o) as [n|]; cbn [x_use use]; [|reflexivity].
  unfold x_alloc. cbn [never sc_allocs due]. destruct (alloc m n) as [m1 p]. cbn [sc_ops tick].
  fold never. rewrite x_init_never. destruct (g_init _ _) as [w u|w e|f]; cbn [plain xbind obind]; try reflexivity.
  apply x_copy_in_never.
Qed.

Lemma x_assign_never : forall ct w o, x_assign ct never w o = plain never (g_assign ct w o).
Proof.
  intros ct w o. unfold x_assign, g_assign. rewrite x_resize_never.
  destruct (g_resize _ _ _ _ _) as [w1 u|w1 e|f]; cbn [plain xbind obind]; try reflexivity. apply x_copy_in_never.
Qed.

Lemma x_set_n_never : forall ct w x y z cs n, x_set_n ct never w x y z cs n = plain never (g_set_n ct w x y z cs n).
Proof.
  intros ct [m g] x y z cs n. unfold x_set_n, x_set_row, g_set_n. rewrite x_callback_choose, callback_choose.
  destruct (choose _ _ _ _); [reflexivity|]. destruct (set_instance_functor _ _ _ _ _ _ _ _ _); [|reflexivity]. apply x_run_never.
Qed.
Lemma x_set_never : forall ct w x y z c, x_set ct never w x y z c = plain never (g_set ct w x y z c).
Proof.
  intros ct [m g] x y z c. unfold x_set, x_set_row, g_set. rewrite x_callback_choose, callback_choose.
  destruct (choose _ _ _ _); [reflexivity|]. destruct (set_instance_functor _ _ _ _ _ _ _ _ _); [|reflexivity]. apply x_run_never.
Qed.
Lemma x_broadcast_never : forall ct w x y z c n, x_broadcast ct never w x y z c n = plain never (g_broadcast ct w x y z c n).
Proof.
  intros ct [m g] x y z c n. unfold x_broadcast, x_set_row, g_broadcast. rewrite x_callback_choose, callback_choose.
  destruct (choose _ _ _ _); [reflexivity|]. destruct (set_instance_functor _ _ _ _ _ _ _ _ _); [|reflexivity]. apply x_run_never.
Qed.
Lemma x_load_never : forall ct w l q n, x_load_streaks ct never w l q n = plain never (g_load_streaks ct w l q n).
Proof.
  intros ct [m g] l q n. unfold x_load_streaks, g_load_streaks. rewrite x_callback_choose, callback_choose.
  destruct (choose _ _ _ _); [reflexivity|]. apply x_run_never.
Qed.

Lemma x_reserve_never : forall ct w n w' u, v_reserve ct w n = Ret w' u -> x_v_reserve ct never w n = XRet never w' u.
Proof.
  intros ct [m v] n w' u. unfold x_v_reserve, v_reserve, x_new, g_new. rewrite x_resize_never.
  destruct (g_resize ct (m, _) n 1 1) as [[m1 h] []|[m1 h] e|f]; cbn [plain]; try discriminate.
  destruct (g_ex h) as [ex|]; cbn [x_use use]; [|discriminate]. rewrite x_resize_never.
  destruct (g_resize ct (m1, h) ex 1 1) as [[m2 h2] []|[m2 h2] e|f]; cbn [plain]; try discriminate.
  destruct (g_ex (v_grid v)) as [old|]; cbn [x_use use]; [|discriminate]. rewrite x_load_never.
  destruct (g_load_streaks _ _ _ _ _) as [[m3 h3] []|[m3 h3] e|f]; cbn [plain]; try discriminate.
  destruct (g_swap h3 (v_grid v)) as [h4 g4].
  destruct (g_destroy ct (m3, h4)) as [[m4 h5] []|[m4 h5] e|f]; try discriminate. intros H. inversion H; subst. reflexivity.
Qed.

Lemma x_push_never : forall ct w c w' u, v_push ct w c = Ret w' u -> x_v_push ct never w c = XRet never w' u.
Proof.
  intros ct [m v] c w' u. unfold x_v_push, v_push. cbn [fst snd].
  destruct (g_ex (v_grid v)) as [ex|]; cbn [x_use use]; [|discriminate].
  assert (G : forall m1 v1, obind (v_set ct (m1, v1) (v_count v1) c) (fun w2 _ => Ret (fst w2, mkVec (v_grid (snd w2)) (v_count (snd w2) + 1)) tt) = Ret w' u ->
     xbind (xlift (x_set ct never (m1, v_grid v1) (v_count v1) 0 0 c) (fun gw => (fst gw, mkVec (snd gw) (v_count v1))))
           (fun s2 w2 _ => XRet s2 (fst w2, mkVec (v_grid (snd w2)) (v_count (snd w2) + 1)) tt) = XRet never w' u).
  { intros m1 v1. unfold v_set, Vector.on_grid. rewrite x_set_never.
    destruct (g_set _ _ _ _ _ _) as [[m2 g2] []|[m2 g2] e|f]; cbn [plain xlift xbind obind]; try discriminate.
    intros H. inversion H; subst. reflexivity. }
  destruct (v_count v =? ex).
  - destruct (v_reserve ct (m, v) (grow (v_count v))) as [[m1 v1] []|[m1 v1] e|f] eqn:E; cbn [obind]; try discriminate.
    rewrite (x_reserve_never _ _ _ _ _ E). cbn [xbind fst snd]. apply G.
  - cbn [obind xbind fst snd]. apply G.
Qed.

(** *** Prefixes of assignments *)
Definition assigning (op : mop) : bool := match op with Assign _ _ _ _ | Copy _ _ _ _ => true | _ => false end.

(** Assignments leave lifetimes and blocks alone and write only into their targets. *)
Lemma assign1_spec : forall m op m', assigning op = true -> exec1 m op = Val m' ->
  mnext m' = mnext m /\ (forall b, msize m' b = msize m b) /\ (forall b o, mlive m' b o = mlive m b o) /\
  m' = write m (op_dst op) (op_val m op).
Proof.
  intros m op m' Ha H. destruct op as [p s c v|p s c|p s c v|d q s c]; try discriminate; cbn [exec1 op_dst op_val] in *.
  - destruct (chk_bounds m p s); [discriminate|]. destruct (negb (val_ok v s)); [discriminate|].
    destruct (c && negb (live m p)); [discriminate|]. inversion H; subst. repeat split; reflexivity.
  - destruct (chk_bounds m q s); [discriminate|]. destruct (chk_bounds m d s); [discriminate|].
    destruct (c && negb (live m q)); [discriminate|]. destruct (c && negb (live m d)); [discriminate|].
    inversion H; subst. repeat split; reflexivity.
Qed.

Lemma assign1_len : forall m op m', assigning op = true -> exec1 m op = Val m' -> 0 < op_size op -> Z.of_nat (length (op_val m op)) = op_size op.
Proof.
  intros m op m' Ha H Hs. destruct op as [p s c v|p s c|p s c v|d q s c]; try discriminate; cbn [exec1 op_size op_val] in *.
  - destruct (chk_bounds m p s); [discriminate|]. destruct (val_ok v s) eqn:E; [|discriminate]. unfold val_ok in E. lia.
  - rewrite length_read. lia.
Qed.

Lemma assigns_same : forall ops m m' b, (forall op, In op ops -> assigning op = true /\ pb (op_dst op) = b) ->
  exec ops m = Val m' -> same_other m m' b /\ (forall b o, mlive m' b o = mlive m b o).
Proof.
  induction ops as [|op r IH]; intros m m' b Ha H; cbn [exec] in H.
  - inversion H; subst. split; [apply same_other_refl|auto].
  - destruct (exec1 m op) as [m1|f] eqn:E; [|discriminate].
    destruct (Ha op (or_introl eq_refl)) as [A B]. destruct (assign1_spec _ _ _ A E) as [N [S [L W]]].
    destruct (IH m1 m' b) as [S2 L2]; auto. { intros o Ho. apply Ha. right; auto. }
    split; [|intros; rewrite L2; auto].
    eapply same_other_trans; [|exact S2]. split; auto. split; auto. split; [|intros; auto].
    intros b' o Hb. subst m1. cbn [write mval]. unfold inside. destruct (Nat.eqb_spec b' (pb (op_dst op))); [congruence|]. reflexivity.
Qed.

(** An element that each assignment targets or leaves alone holds its old value or one
    that was assigned to it. Sources lie in other blocks. *)
Lemma assigns_value : forall ops m m' b q s,
  (forall op, In op ops -> assigning op = true /\ pb (op_dst op) = b /\ 0 < op_size op /\
     match op_src op with Some p => pb p <> b | None => True end /\
     ((op_dst op = q /\ op_size op = s) \/ sep (op_dst op) (op_size op) q s)) ->
  exec ops m = Val m' ->
  read m' q s = read m q s \/
  exists op, In op ops /\ op_dst op = q /\ op_size op = s /\ read m' q s = op_val m op.
Proof.
  intros ops. induction ops as [|op r IH] using rev_ind; intros m m' b q s Ha H.
  - cbn [exec] in H. inversion H; subst. auto.
  - rewrite exec_app in H. destruct (exec r m) as [m1|f] eqn:E; [|discriminate]. cbn [exec] in H.
    destruct (exec1 m1 op) as [m2|f] eqn:E2; [|discriminate]. inversion H; subst m2. clear H.
    destruct (Ha op) as [A [B [S0 [Sr D]]]]. { apply in_or_app. right. left. reflexivity. }
    destruct (assign1_spec _ _ _ A E2) as [_ [_ [_ W]]].
    assert (Hval : op_val m1 op = op_val m op).
    { destruct (assigns_same r m m1 b) as [[_ [_ [V _]]] _]; auto.
      { intros o Ho. destruct (Ha o) as [? [? _]]; [apply in_or_app; auto|auto]. }
      destruct op as [p sz c v|p sz c|p sz c v|d p sz c]; try discriminate; cbn [op_val op_src] in *; auto.
      apply read_ext. intros i Hi. apply V. exact Sr. }
    destruct D as [[Dq Ds]|D].
    + right. exists op. split; [apply in_or_app; right; left; reflexivity|]. split; auto. split; auto.
      rewrite W, <- Hval, Dq. apply read_write_same. rewrite <- Ds. eapply assign1_len; eauto.
    + destruct (IH m m1 b q s) as [Hr|[o [Ho [O1 [O2 O3]]]]]; auto.
      { intros o Ho. apply Ha. apply in_or_app; auto. }
      * left. rewrite <- Hr, W. apply read_write_sep. 
        rewrite (assign1_len _ _ _ A E2 S0). exact D.
      * right. exists o. split; [apply in_or_app; auto|]. split; auto. split; auto. rewrite <- O3, W.
        apply read_write_sep. rewrite (assign1_len _ _ _ A E2 S0). exact D.
Qed.

(** *** The cell held by memory *)
Fixpoint cell_from (f : slot -> elem) (o : Z) (ms : list member) : cell :=
  match ms with
  | [] => []
  | mb :: r => map f (member_slots o mb) :: cell_from f (o + m_bytes mb) r
  end.

Lemma concat_cell_from : forall f ms o, concat (cell_from f o ms) = map f (slots_from o ms).
Proof. intros f. induction ms as [|mb r IH]; intros o; cbn [cell_from concat slots_from]; auto. rewrite map_app, IH. reflexivity. Qed.

Lemma cell_from_wf : forall f ms o, (forall sl, In sl (slots_from o ms) -> Z.of_nat (length (f sl)) = s_size sl) -> wf_cell ms (cell_from f o ms).
Proof.
  intros f. induction ms as [|mb r IH]; intros o H; cbn [cell_from]; constructor.
  - split; [rewrite map_length, length_member_slots; auto|]. apply Forall_map, Forall_forall. intros sl Hs.
    rewrite H by (cbn [slots_from]; apply in_or_app; auto). unfold member_slots in Hs. apply in_map_iff in Hs.
    destruct Hs as [k [<- _]]. reflexivity.
  - apply IH. intros sl Hs. apply H. cbn [slots_from]. apply in_or_app; auto.
Qed.

Lemma concat_inj : forall ms c c', wf_cell ms c -> wf_cell ms c' -> concat c = concat c' -> c = c'.
Proof.
  induction ms as [|mb r IH]; intros c c' H H' E; inversion H as [|? vs ? c2 [L _] H2]; inversion H' as [|? vs' ? c2' [L' _] H2']; subst; auto.
  cbn [concat] in E. assert (vs = vs' /\ concat c2 = concat c2') as [-> E2].
  { rewrite <- L' in L. clear - L E. revert vs' L E. induction vs as [|a vs IHv]; intros [|a' vs'] L E; cbn in *; try discriminate; auto.
    inversion E. destruct (IHv vs') as [-> ->]; auto. }
  f_equal. apply IH; auto.
Qed.

Definition held (ms : list member) (m : mem) (p : ptr) (P i : Z) : cell :=
  cell_from (fun sl => read m (sptr p P sl i) (s_size sl)) 0 ms.

Lemma held_wf : forall ms m p P i, wf_members ms -> wf_cell ms (held ms m p P i).
Proof.
  intros ms m p P i Hw. apply cell_from_wf. intros sl Hs. rewrite length_read.
  destruct (slot_range ms sl Hw Hs) as [_ [_ H]]. lia.
Qed.

Lemma held_concat : forall ms m p P i, concat (held ms m p P i) = map (fun sl => read m (sptr p P sl i) (s_size sl)) (slots ms).
Proof. intros. apply concat_cell_from. Qed.

Lemma combine_nth_error : forall (A B : Type) (l : list A) (r : list B) t a, length l = length r ->
  nth_error l t = Some a -> exists b, nth_error r t = Some b /\ In (a, b) (combine l r).
Proof.
  intros A B. induction l as [|x l IH]; intros [|y r] [|t] a Hl H; cbn in *; try discriminate.
  - inversion H; subst. eauto.
  - destruct (IH r t a) as [b [H1 H2]]; auto. eauto.
Qed.

Lemma in_combine_map : forall (A B : Type) (f : A -> B) l a b, In (a, b) (combine l (map f l)) -> b = f a /\ In a l.
Proof.
  intros A B f. induction l as [|x l IH]; intros a b H; cbn in H; [contradiction|].
  destruct H as [H|H]; [inversion H; subst; cbn; auto|]. destruct (IH _ _ H). cbn; auto.
Qed.

(** The cell of a region is what memory holds. *)
Lemma region_held : forall ms m p P ci i c, wf_members ms -> region ms m p P ci -> ci i = Some c -> c = held ms m p P i.
Proof.
  intros ms m p P ci i c Hw R Hc. destruct (rg_cell _ _ _ _ _ R _ _ Hc) as [Hi Hwf].
  apply (concat_inj ms); auto using held_wf. rewrite held_concat.
  pose proof (length_slots_from ms 0 c Hwf) as Hl. fold (slots ms) in Hl.
  assert (G : forall sl v, In (sl, v) (combine (slots ms) (concat c)) -> read m (sptr p P sl i) (s_size sl) = v).
  { intros sl v H. apply (rg_val _ _ _ _ _ R i c sl v Hc H). }
  revert Hl G. generalize (slots ms) (concat c). clear. induction l as [|sl l IH]; intros [|v r] Hl G; cbn in *; try discriminate; auto.
  f_equal; auto. symmetry. auto.
Qed.

(** With the same lifetimes, memory still holds cells, whatever was assigned. *)
Lemma region_any : forall ms m m' p P ci,
  wf_members ms -> region ms m p P ci -> msize m' (pb p) = msize m (pb p) ->
  (forall o, mlive m' (pb p) o = mlive m (pb p) o) ->
  region ms m' p P (fun i => match ci i with Some _ => Some (held ms m' p P i) | None => None end).
Proof.
  intros ms m m' p P ci Hw R Hs Hl. constructor.
  - apply (rg_off _ _ _ _ _ R).
  - apply (rg_P _ _ _ _ _ R).
  - rewrite Hs. apply (rg_size _ _ _ _ _ R).
  - intros i c H. destruct (ci i) as [c0|] eqn:E; [|discriminate]. inversion H; subst. split; [|apply held_wf; auto].
    apply (rg_cell _ _ _ _ _ R _ _ E).
  - intros i c sl v H Hin. destruct (ci i) as [c0|] eqn:E; [|discriminate]. inversion H; subst.
    rewrite held_concat in Hin. apply in_combine_map in Hin. destruct Hin as [-> Hsl]. split; auto.
    intros Hc. unfold live. change (pb (sptr p P sl i)) with (pb p). rewrite Hl. apply (region_live ms m p P ci i c0 sl R E Hsl Hc).
  - intros o H. rewrite Hl in H. destruct (rg_live _ _ _ _ _ R o H) as [i [c [sl [H1 H2]]]].
    exists i, (held ms m' p P i), sl. rewrite H1. auto.
Qed.

Lemma galloc_any : forall ct m m' g e cells,
  wf_ct ct -> galloc ct m g e cells -> msize m' (blk g) = msize m (blk g) ->
  (forall o, mlive m' (blk g) o = mlive m (blk g) o) ->
  galloc ct m' g e (fun x y z => held (ct_ms ct) m' (g_data g) (DIM_PROD e) (gen_index e x y z)).
Proof.
  intros ct m m' g e cells [Hw _] G Hs Hl. pose proof (galloc_fits _ _ _ _ _ G) as F.
  destruct G as [X Y Zz C B S R]. constructor; auto.
  eapply region_ext; [|exact (region_any _ _ _ _ _ _ Hw R Hs Hl)].
  intros i. cbn beta. destruct (ci_of e (g_x g) (g_y g) (g_z g) cells i) as [c|] eqn:E.
  - destruct (ci_of_inv _ _ _ _ _ _ _ F E) as [x [y [z [D [-> _]]]]]. rewrite ci_of_gen by auto. reflexivity.
  - match goal with |- None = ?x => destruct x as [c|] eqn:E'; auto end.
    destruct (ci_of_inv _ _ _ _ _ _ _ F E') as [x [y [z [D [Ei _]]]]]. rewrite Ei, ci_of_gen in E by auto. discriminate.
Qed.

(** The grid after some of the assignments of one call. [new x y z]: the cell to be
    assigned to (x, y, z), if any. *)
Lemma partial_assign : forall ct m m' g e cells pre (new : Z -> Z -> Z -> option cell),
  wf_ct ct -> galloc ct m g e cells ->
  (forall x y z c, new x y z = Some c -> wf_cell (ct_ms ct) c) ->
  (forall op, In op pre -> assigning op = true /\
     match op_src op with Some p => pb p <> blk g | None => True end /\
     exists sl x y z c, In sl (slots (ct_ms ct)) /\ in_dims (g_x g) (g_y g) (g_z g) x y z /\
       op_dst op = sptr (g_data g) (DIM_PROD e) sl (gen_index e x y z) /\ op_size op = s_size sl /\
       new x y z = Some c /\ In (sl, op_val m op) (combine (slots (ct_ms ct)) (concat c))) ->
  exec pre m = Val m' ->
  exists cells', galloc ct m' g e cells' /\ same_other m m' (blk g) /\
    (forall b o, mlive m' b o = mlive m b o) /\
    forall x y z, in_dims (g_x g) (g_y g) (g_z g) x y z ->
      match new x y z with
      | None => cells' x y z = cells x y z
      | Some c => mixed (ct_ms ct) (cells x y z) c (cells' x y z)
      end.
Proof.
  intros ct m m' g e cells pre new Hct G Hnew Hpre E. pose proof Hct as [Hw _].
  pose proof (galloc_fits _ _ _ _ _ G) as F.
  destruct (assigns_same pre m m' (blk g)) as [SO HL]; auto.
  { intros op Ho. destruct (Hpre op Ho) as [A [_ [sl [x [y [z [c [_ [_ [D _]]]]]]]]]]. rewrite D. auto. }
  eexists. split; [|split; [exact SO|split; [exact HL|]]].
  { eapply galloc_any; eauto. destruct SO as [_ [S _]]. apply S. }
  intros x y z Hd. pose proof (ga_region _ _ _ _ _ G) as R.
  assert (Hold : cells x y z = held (ct_ms ct) m (g_data g) (DIM_PROD e) (gen_index e x y z)).
  { eapply region_held; eauto. apply ci_of_gen; auto. }
  assert (Hi : 0 <= gen_index e x y z < DIM_PROD e) by (eapply gen_index_range; eauto).
  assert (V : forall sl, In sl (slots (ct_ms ct)) ->
     read m' (sptr (g_data g) (DIM_PROD e) sl (gen_index e x y z)) (s_size sl) = read m (sptr (g_data g) (DIM_PROD e) sl (gen_index e x y z)) (s_size sl) \/
     exists c, new x y z = Some c /\ In (sl, read m' (sptr (g_data g) (DIM_PROD e) sl (gen_index e x y z)) (s_size sl)) (combine (slots (ct_ms ct)) (concat c))).
  { intros sl Hs.
    destruct (assigns_value pre m m' (blk g) (sptr (g_data g) (DIM_PROD e) sl (gen_index e x y z)) (s_size sl)) as [H|[op [Ho [O1 [O2 O3]]]]]; auto.
    - intros op Ho. destruct (Hpre op Ho) as [A [Sr [sl' [x' [y' [z' [c [Hs' [Hd' [D [Sz _]]]]]]]]]]].
      split; auto. split; [rewrite D; reflexivity|]. destruct (slot_range _ sl' Hw Hs') as [_ [_ Hp]]. split; [lia|]. split; auto.
      assert (Hi' : 0 <= gen_index e x' y' z' < DIM_PROD e) by (eapply gen_index_range; eauto).
      destruct (Z.eq_dec (gen_index e x' y' z') (gen_index e x y z)) as [Ei|Ei].
      + rewrite D, Sz, Ei.
        destruct (FOP_In2 _ _ _ sl' sl (slots_from_ordered (ct_ms ct) 0 Hw) Hs' Hs) as [Q|Q]; [subst; auto|].
        right. apply (keys_sep (ct_ms ct)); auto. intros Q'. inversion Q'; subst sl'. 
        destruct (slot_range _ sl Hw Hs) as [_ [_ Hp']]. unfold slot_before in Q. lia.
      + right. rewrite D, Sz. apply (keys_sep (ct_ms ct)); auto. congruence.
    - right. destruct (Hpre op Ho) as [A [Sr [sl' [x' [y' [z' [c [Hs' [Hd' [D [Sz [Hn Hv]]]]]]]]]]]].
      rewrite D in O1. assert (Hk : (sl', gen_index e x' y' z') = (sl, gen_index e x y z)).
      { apply (key_addr_inj (ct_ms ct) (DIM_PROD e)); auto; try (eapply gen_index_range; eauto).
        unfold sptr, padd in O1. inversion O1. lia. }
      assert (Esl : sl' = sl) by congruence. assert (Ei : gen_index e x' y' z' = gen_index e x y z) by congruence. subst sl'.
      apply gen_index_inj' in Ei; auto; [|unfold fits, in_dims in *; lia..]. 
      exists c. rewrite O3. destruct Ei as [-> [-> ->]]. auto. }
  destruct (new x y z) as [cn|] eqn:En.
  - split; [apply held_wf; auto|]. intros t. rewrite Hold, !held_concat.
    rewrite !nth_error_map. destruct (nth_error (slots (ct_ms ct)) t) as [sl|] eqn:Et; [|auto]. cbn [option_map].
    destruct (V sl (nth_error_In _ _ Et)) as [->|[c [Hc Hin]]]; [auto|]. right. inversion Hc; subst c.
    destruct (combine_nth_error _ _ (slots (ct_ms ct)) (concat cn) t sl) as [b [Hb Hib]]; auto.
    { pose proof (length_slots_from (ct_ms ct) 0 cn (Hnew _ _ _ _ En)) as Hl. exact Hl. }
    rewrite Hb. f_equal. eapply combine_NoDup_fun; [apply (slots_NoDup (ct_ms ct) Hw)|exact Hin|exact Hib].
  - rewrite Hold. apply (concat_inj (ct_ms ct)); auto using held_wf. rewrite !held_concat. apply map_ext_in.
    intros sl Hs. destruct (V sl Hs) as [H|[c [Hc _]]]; [exact H|discriminate].
Qed.

Lemma winv_as_specified : forall ct W A, wf_ct ct -> winv ct W A -> as_specified ct W A.
Proof.
  intros ct W A Hct I ops A' bs H. destruct (run_sim ct ops W A A' bs Hct I H) as [W' [E I']].
  exists W'. split; auto. intros Hn b. destruct (msize (w_mem W') b) as [n|] eqn:Em; auto.
  destruct (wi_leak _ _ _ I' b n Em) as [id [g [Hg _]]]. pose proof (wi_rep _ _ _ I' id) as R. rewrite Hg, Hn in R. contradiction.
Qed.

(** *** set / broadcast *)
Lemma mapR_In : forall (A B : Type) (f : A -> result B) l r b, mapR f l = Val r -> In b r -> exists a, In a l /\ f a = Val b.
Proof.
  intros A B f. induction l as [|a l IH]; intros r b H Hb; cbn [mapR] in H.
  - inversion H; subst. contradiction.
  - destruct (f a) as [b0|] eqn:E; [|discriminate]. destruct (mapR f l) as [bs|] eqn:El; [|discriminate]. inversion H; subst.
    destruct Hb as [<-|Hb]; [exists a; cbn; auto|]. destruct (IH bs b eq_refl Hb) as [a' [H1 H2]]. exists a'. cbn; auto.
Qed.

Lemma set_ops_in : forall ms d cs stride x y z n e ops,
  set_instance_functor ms d cs stride x y z n (mkAcc e 0 0) = Val ops ->
  (forall i c, 0 <= i < n -> nth_error cs (Z.to_nat (i * stride)) = Some c -> wf_cell ms c) ->
  forall op, In op ops -> exists i c sl v, 0 <= i < n /\ nth_error cs (Z.to_nat (i * stride)) = Some c /\
    op = Assign (sptr d (DIM_PROD e) sl (gen_index e (x + i) y z)) (s_size sl) (s_class sl) v /\
    In (sl, v) (combine (slots ms) (concat c)).
Proof.
  intros ms d cs stride x y z n e ops H Hc op Ho. unfold set_instance_functor in H.
  destruct (mapR _ (zseq n)) as [opss|] eqn:E; [|discriminate]. inversion H; subst. clear H.
  apply in_concat in Ho. destruct Ho as [l [Hl Ho]]. destruct (mapR_In _ _ _ _ _ _ E Hl) as [i [Hi F]].
  apply in_zseq in Hi. destruct (nth_error cs (Z.to_nat (i * stride))) as [c|] eqn:En; [|discriminate]. inversion F; subst l. clear F.
  rewrite assign_canon in Ho by eauto. apply in_map_iff in Ho. destruct Ho as [[sl v] [<- Hv]].
  exists i, c, sl, v. split; auto. split; auto. split; auto. cbn [a_ext acc_add with_index]. f_equal. f_equal.
  unfold idx. cbn [a_index a_INDEX acc_add with_index]. rewrite <- gen_index_row. lia.
Qed.

Lemma winv_replace : forall ct W A id g S m' S',
  winv ct W A -> w_grids W id = Some g -> A id = Some S -> same_other (w_mem W) m' (blk g) -> grep ct m' g S' ->
  winv ct (mkW m' (w_grids W)) (fset A id (Some S')).
Proof.
  intros ct W A id g S m' S' I Hg HA SO G'. pose proof (wi_ok _ _ _ I) as M.
  pose proof (same_other_frame _ _ _ M SO) as F. constructor; cbn [w_mem w_grids].
  - apply (gf_ok _ _ _ _ F).
  - intros j. destruct (Nat.eq_dec j id) as [->|Hj].
    + rewrite Hg, fset_same. exact G'.
    + rewrite fset_other by auto. pose proof (wi_rep _ _ _ I j) as R. destruct (w_grids W j) as [h|] eqn:Ej; destruct (A j) as [a|]; auto.
      eapply grep_frame; eauto. apply (wi_sep _ _ _ I j id); auto.
  - intros i j ga gb Hij Hi Hj. eapply (wi_sep _ _ _ I); eauto.
  - intros b n Hb. apply (wi_leak _ _ _ I b n). destruct SO as [_ [S1 _]]. rewrite <- S1. exact Hb.
Qed.

Lemma set_row_throws : forall ct s W A id g S cs stride f x y z n w' ex,
  wf_ct ct -> winv ct W A -> w_grids W id = Some g -> A id = Some S -> ag_fresh S = false -> row_in S x y z n ->
  (forall i, 0 <= i < n -> nth_error cs (Z.to_nat (i * stride)) = Some (f i) /\ wf_cell (ct_ms ct) (f i)) ->
  x_set_row ct s (w_mem W, g) cs stride x y z n = XThr w' ex ->
  ex = XMember /\ snd w' = g /\ exists S', winv ct (mkW (fst w') (w_grids W)) (fset A id (Some S')) /\
    ag_x S' = ag_x S /\ ag_y S' = ag_y S /\ ag_z S' = ag_z S /\
    forall x' y' z', in_box S x' y' z' ->
      if in_row x y z n x' y' z' then mixed (ct_ms ct) (ag_cells S x' y' z') (f (x' - x)) (ag_cells S' x' y' z')
      else ag_cells S' x' y' z' = ag_cells S x' y' z'.
Proof.
  intros ct s W A id g S cs stride f x y z n w' ex Hct I Hg HA HF [Hn Hrow] Hcs H.
  destruct (winv_rep _ _ _ _ _ I Hg) as [S0 [HA0 G]]. assert (S0 = S) by congruence. subst S0.
  destruct (grep_alloc _ _ _ _ G HF) as [e GA]. unfold x_set_row in H. rewrite x_callback_choose in H.
  rewrite (ga_choose _ _ _ _ _ GA) in H.
  destruct (set_instance_functor _ _ _ _ _ _ _ _ _) as [ops|] eqn:E; [|discriminate].
  unfold x_run in H. destruct (exec_x s ops (w_mem W)) as [s1 m1 u|m1 e1| |f1] eqn:Ex; cbn [xlift] in H; try discriminate.
  inversion H; subst w' ex. clear H. apply exec_x_thr in Ex. destruct Ex as [-> [pre [op [post [-> [_ [Ep _]]]]]]].
  split; auto. split; auto. cbn [fst].
  assert (Hops : forall o, In o pre -> exists i sl v, 0 <= i < n /\
    o = Assign (sptr (g_data g) (DIM_PROD e) sl (gen_index e (x + i) y z)) (s_size sl) (s_class sl) v /\
    In (sl, v) (combine (slots (ct_ms ct)) (concat (f i)))).
  { intros o Ho. destruct (set_ops_in _ _ _ _ _ _ _ _ _ _ E) with (op := o) as [i [c [sl [v [Hi [Hc [-> Hv]]]]]]].
    - intros i c Hi Hc. destruct (Hcs i Hi) as [A1 A2]. congruence.
    - apply in_or_app; auto.
    - exists i, sl, v. destruct (Hcs i Hi) as [A1 A2]. assert (c = f i) by congruence. subst c. auto. }
  destruct (partial_assign ct (w_mem W) m1 g e (ag_cells S) pre
     (fun x' y' z' => if in_row x y z n x' y' z' then Some (f (x' - x)) else None)) as [cells' [GA' [SO [_ HC]]]]; auto.
  - intros x' y' z' c Hc. destruct (in_row x y z n x' y' z') eqn:Er; [|discriminate]. inversion Hc; subst.
    apply Hcs. unfold in_row in Er. lia.
  - intros o Ho. destruct (Hops o Ho) as [i [sl [v [Hi [-> Hv]]]]]. cbn [assigning op_src op_dst op_size op_val].
    split; auto. split; auto. exists sl, (x + i), y, z, (f i). split; [apply in_combine_l in Hv; auto|].
    split; [eapply dims_box; eauto|]. split; auto. split; auto. split; auto. unfold in_row.
    assert ((y =? y) && (z =? z) && (x <=? x + i) && (x + i <? x + n) = true) as -> by lia. f_equal. f_equal. lia.
  - exists (mkAG (ag_x S) (ag_y S) (ag_z S) false cells'). cbn [ag_x ag_y ag_z ag_cells]. split; [|split; [auto|split; [auto|split; [auto|]]]].
    + eapply winv_replace; eauto. destruct G as [X [Y [Zz _]]]. split; [exact X|]. split; [exact Y|]. split; [exact Zz|]. cbn [ag_fresh ag_cells]. eauto.
    + intros x' y' z' Hb. specialize (HC x' y' z' (proj1 (dims_box _ _ _ _ _ _ _ G) Hb)).
      destruct (in_row x y z n x' y' z'); auto.
Qed.

(** *** copy_in *)
Lemma in_row_keys_pairs : forall ms rows k, In k (row_keys ms rows) -> In (fst (fst k)) (slots ms) /\ In (snd (fst k), snd k) (row_pairs rows).
Proof. intros ms rows [[sl i] j] H. apply in_row_keys in H. exact H. Qed.

Lemma dual_choose : forall (A : Type) ct (m : mem) g o e (f : ptr -> accessor -> ptr -> accessor -> xout gst A),
  choose (ct_sizes ct) (g_x o) (g_y o) (g_z o) = inr e -> g_x g = g_x o -> g_y g = g_y o -> g_z g = g_z o ->
  x_dual_callback ct (m, g) o g f = f (g_data o) (mkAcc e 0 0) (g_data g) (mkAcc e 0 0).
Proof.
  intros A ct m g o e f C Hx Hy Hz. unfold x_dual_callback. destruct (ct_asym ct).
  - rewrite x_callback_choose, C. rewrite x_callback_choose, Hx, Hy, Hz, C. reflexivity.
  - rewrite Hx, Hy, Hz, !Z.eqb_refl. cbn [negb orb]. rewrite x_callback_choose, C. reflexivity.
Qed.

Lemma copy_in_throws : forall ct s m g e cells o cells' w' ex,
  wf_ct ct -> galloc ct m g e cells -> galloc ct m o e cells' ->
  g_x g = g_x o -> g_y g = g_y o -> g_z g = g_z o -> blk o <> blk g ->
  x_copy_in ct s (m, g) o = XThr w' ex ->
  ex = XMember /\ snd w' = g /\ same_other m (fst w') (blk g) /\ (forall b k, mlive (fst w') b k = mlive m b k) /\
  exists c2, galloc ct (fst w') g e c2 /\
    forall x y z, in_dims (g_x g) (g_y g) (g_z g) x y z -> mixed (ct_ms ct) (cells x y z) (cells' x y z) (c2 x y z).
Proof.
  intros ct s m g e cells o cells' w' ex Hct G O Hx Hy Hz Hb H. unfold x_copy_in in H.
  rewrite (dual_choose _ ct m g o e) in H by (auto; apply (ga_choose _ _ _ _ _ O)).
  rewrite copy_functor_canon in H by reflexivity. cbn [a_ext] in H.
  unfold x_run in H. destruct (exec_x s _ m) as [s1 m1 u|m1 e1| |f1] eqn:Ex; cbn [xlift] in H; try discriminate.
  inversion H; subst w' ex. clear H. apply exec_x_thr in Ex. destruct Ex as [-> [pre [op [post [Eo [_ [Ep _]]]]]]].
  cbn [fst snd]. split; auto. split; auto.
  pose proof (galloc_fits _ _ _ _ _ G) as F. pose proof (galloc_fits _ _ _ _ _ O) as Fo.
  pose proof (ga_region _ _ _ _ _ O) as Ro.
  destruct (partial_assign ct m m1 g e cells pre
     (fun x y z => if (0 <=? x) && (x <? g_x g) && (0 <=? y) && (y <? g_y g) && (0 <=? z) && (z <? g_z g) then Some (cells' x y z) else None))
    as [c2 [GA' [SO [HL HC]]]]; auto.
  - intros x y z c Hc. destruct (_ && _) eqn:Er in Hc; [|discriminate]. inversion Hc; subst.
    apply (rg_cell _ _ _ _ _ Ro (gen_index e x y z)). apply ci_of_gen; auto. unfold in_dims. lia.
  - intros q Hq. assert (Hin : In q (map (copy_key_op (g_data g) (DIM_PROD e) (g_data o) (DIM_PROD e)) (row_keys (ct_ms ct) (copy_rows e (g_x g) (g_y g) (g_z g))))).
    { rewrite Eo. apply in_or_app; auto. }
    apply in_map_iff in Hin. destruct Hin as [k [<- Hk]]. apply in_row_keys_pairs in Hk. destruct Hk as [Hs Hp].
    rewrite copy_row_pairs in Hp. apply in_map_iff in Hp. destruct Hp as [i [Ei Hi]].
    assert (E1 : snd (fst k) = i) by congruence. assert (E2 : snd k = i) by congruence.
    apply in_all_idx in Hi. destruct Hi as [x [y [z [D Di]]]].
    unfold copy_key_op. cbn [assigning op_src op_dst op_size op_val]. split; auto. split; [exact Hb|].
    exists (fst (fst k)), x, y, z, (cells' x y z). rewrite E1, E2, Di.
    split; auto. split; auto. split; auto. split; auto. split.
    { unfold in_dims in D. assert ((0 <=? x) && (x <? g_x g) && (0 <=? y) && (y <? g_y g) && (0 <=? z) && (z <? g_z g) = true) as -> by lia. reflexivity. }
    assert (Hc : ci_of e (g_x o) (g_y o) (g_z o) cells' (gen_index e x y z) = Some (cells' x y z)).
    { apply ci_of_gen; auto. rewrite <- Hx, <- Hy, <- Hz. exact D. }
    destruct (rg_cell _ _ _ _ _ Ro _ _ Hc) as [_ Hwf].
    destruct (cell_value (ct_ms ct) _ (fst (fst k)) Hwf Hs) as [v Hv].
    destruct (rg_val _ _ _ _ _ Ro _ _ _ _ Hc Hv) as [-> _]. exact Hv.
  - split; auto. split; auto. exists c2. split; auto. intros x y z D. specialize (HC x y z D).
    unfold in_dims in D. assert ((0 <=? x) && (x <? g_x g) && (0 <=? y) && (y <? g_y g) && (0 <=? z) && (z <? g_z g) = true) as Hb' by lia.
    rewrite Hb' in HC. exact HC.
Qed.

(** *** Construction that stops half-way *)
Definition mkC (p : ptr) (P : Z) (k : slot * Z) : mop := Construct (sptr p P (fst k) (snd k)) (s_size (fst k)) (s_class (fst k)) (s_default (fst k)).
Definition mkD (p : ptr) (P : Z) (k : slot * Z) : mop := Destroy (sptr p P (fst k) (snd k)) (s_size (fst k)) (s_class (fst k)).
Definition keys_of (ms : list member) (is : list Z) : list (slot * Z) := flat_map (fun i => map (fun sl => (sl, i)) (slots ms)) is.

Lemma map_keys_of : forall (B : Type) (f : slot * Z -> B) ms is,
  map f (keys_of ms is) = flat_map (fun i => map (fun sl => f (sl, i)) (slots ms)) is.
Proof.
  intros B f ms is. unfold keys_of. rewrite !flat_map_concat_map, concat_map, map_map. f_equal. apply map_ext. intros i. rewrite map_map. reflexivity.
Qed.

Lemma keys_FOP : forall ms P p (mk : slot * Z -> mop) keys, wf_members ms -> NoDup keys ->
  (forall sl i, In (sl, i) keys -> In sl (slots ms) /\ 0 <= i < P) ->
  (forall k, op_dst (mk k) = sptr p P (fst k) (snd k)) -> (forall k, op_size (mk k) = s_size (fst k)) -> (forall k, op_src (mk k) = None) ->
  ForallOrdPairs indep (map mk keys).
Proof.
  intros ms P p mk keys Hw Hn Hk Hd Hz Hs. apply FOP_map. apply FOP_NoDup in Hn.
  eapply FOP_impl; [|exact Hn]. intros [a i] [b j] Ha Hb Hne. unfold indep. rewrite !Hd, !Hz, Hs. cbn [fst snd]. split; auto.
  destruct (Hk _ _ Ha), (Hk _ _ Hb). apply (keys_sep ms); auto.
Qed.

Lemma construct_prefix : forall ms m p P keys,
  wf_members ms -> wf_defaults ms -> region ms m p P (fun _ => None) -> NoDup keys ->
  (forall sl i, In (sl, i) keys -> In sl (slots ms) /\ 0 <= i < P) ->
  exists m', exec (map (mkC p P) keys) m = Val m' /\ same_other m m' (pb p) /\
    forall o, mlive m' (pb p) o = true <-> exists sl i, In (sl, i) keys /\ s_class sl = true /\ o = slot_addr P sl i.
Proof.
  intros ms m p P keys Hw Hd R Hn Hk.
  assert (Hdead : forall o, mlive m (pb p) o = false).
  { intros o. destruct (mlive m (pb p) o) eqn:E; auto. destruct (rg_live _ _ _ _ _ R o E) as [i [c [sl [C _]]]]. discriminate. }
  pose proof (rg_off _ _ _ _ _ R) as Hoff.
  destruct (exec_indep (map (mkC p P) keys) m) as [m' [E Q]].
  - apply Forall_map, Forall_forall. intros [sl i] Hin. destruct (Hk _ _ Hin) as [Hs Hi]. unfold op_pre, mkC. cbn [op_size fst snd].
    destruct (slot_range ms sl Hw Hs) as [_ [_ Hp]]. split; auto. cbn [exec1].
    rewrite (region_bounds ms m p P (fun _ => None)) by auto.
    assert (val_ok (s_default sl) (s_size sl) = true) as ->.
    { unfold val_ok. pose proof (default_cell_wf ms Hd) as Hwf. destruct (cell_value ms _ sl Hwf Hs) as [v Hv].
      pose proof (wf_cell_sizes ms _ 0 Hwf) as Hz. fold (slots ms) in Hz.
      pose proof (default_cell_flat ms 0) as Hf. fold (slots ms) in Hf.
      assert (v = s_default sl).
      { rewrite Hf in Hv. apply in_combine_map in Hv. tauto. }
      subst v. rewrite Forall_forall in Hz. specialize (Hz _ Hv). cbn in Hz. lia. }
    cbn [negb]. unfold live at 1. change (pb (sptr p P sl i)) with (pb p). rewrite Hdead, andb_false_r. eauto.
  - apply (keys_FOP ms P p); auto.
  - exists m'. split; auto. split.
    + destruct Q as [Q1 Q2 Q3 Q4 Q5 Q6]. split; auto. split; auto. split; intros b o Hb.
      * apply Q5. intros op Ho. apply in_map_iff in Ho. destruct Ho as [k [<- _]]. unfold inside, mkC. cbn [op_dst].
        change (pb (sptr p P (fst k) (snd k))) with (pb p). destruct (Nat.eqb_spec b (pb p)); [congruence|reflexivity].
      * apply Q6. intros op Ho. apply in_map_iff in Ho. destruct Ho as [k [<- _]]. unfold is_start, mkC. cbn [op_dst].
        change (pb (sptr p P (fst k) (snd k))) with (pb p). destruct (Nat.eqb_spec b (pb p)); [congruence|reflexivity].
    + intros o. split.
      * intros Ho. destruct (decide_start (map (mkC p P) keys) (pb p) o) as [Hno|[op [Hin Hst]]].
        -- rewrite (ep_frame_live _ _ _ Q _ _ Hno), Hdead in Ho. discriminate.
        -- apply in_map_iff in Hin. destruct Hin as [[sl i] [<- Hin]]. apply is_start_spec in Hst. destruct Hst as [_ Hst].
           cbn [mkC op_dst fst snd] in Hst. unfold sptr, padd in Hst. cbn [po] in Hst. exists sl, i. split; auto.
           assert (o = slot_addr P sl i) by lia. split; auto.
           destruct (s_class sl) eqn:Ec; auto. exfalso.
           pose proof (ep_live _ _ _ Q (mkC p P (sl, i))) as L. rewrite in_map_iff in L. specialize (L ltac:(eauto)).
           unfold mkC in L. cbn [op_dst op_live fst snd] in L. rewrite Ec in L. unfold live in L.
           change (pb (sptr p P sl i)) with (pb p) in L. rewrite Hdead in L.
           replace (po (sptr p P sl i)) with o in L by (unfold sptr, padd; cbn [po]; lia). congruence.
      * intros [sl [i [Hin [Hc ->]]]].
        pose proof (ep_live _ _ _ Q (mkC p P (sl, i))) as L. rewrite in_map_iff in L. specialize (L ltac:(eauto)).
        unfold mkC in L. cbn [op_dst op_live fst snd] in L. rewrite Hc in L. unfold live in L.
        change (pb (sptr p P sl i)) with (pb p) in L.
        replace (po (sptr p P sl i)) with (slot_addr P sl i) in L by (unfold sptr, padd; cbn [po]; lia). exact L.
Qed.

Lemma filter_map_comm : forall (A B : Type) (f : A -> B) (q : B -> bool) l, filter q (map f l) = map f (filter (fun a => q (f a)) l).
Proof. intros A B f q. induction l as [|a l IH]; cbn; auto. destruct (q (f a)); cbn; congruence. Qed.

Lemma alive_calls : forall ms m p P keys,
  wf_members ms -> po p = 0 -> NoDup keys -> (forall sl i, In (sl, i) keys -> In sl (slots ms) /\ 0 <= i < P) ->
  (forall o, mlive m (pb p) o = true <-> exists sl i, In (sl, i) keys /\ s_class sl = true /\ o = slot_addr P sl i) ->
  alive m (pb p) (total ms * P) = calls (map (mkC p P) keys).
Proof.
  intros ms m p P keys Hw Hp Hn Hk HL. unfold alive, calls. rewrite filter_map_comm, map_length.
  rewrite <- (map_length (fun k => slot_addr P (fst k) (snd k))). apply Permutation_length. apply NoDup_Permutation.
  - apply NoDup_filter, NoDup_zseq.
  - apply NoDup_map_inj; [|apply NoDup_filter; auto]. intros [a i] [b j] Ha Hb E. cbn [fst snd] in E.
    apply filter_In in Ha, Hb. destruct (Hk a i) as [A1 A2]; [tauto|]. destruct (Hk b j) as [B1 B2]; [tauto|].
    apply (key_addr_inj ms P); auto.
  - intros o. rewrite filter_In, in_zseq, HL, in_map_iff. split.
    + intros [_ [sl [i [H1 [H2 H3]]]]]. exists (sl, i). cbn [fst snd]. split; auto. apply filter_In. split; auto.
    + intros [[sl i] [H1 H2]]. apply filter_In in H2. destruct H2 as [H2 H3]. cbn [fst snd mkC may_throw] in *.
      destruct (Hk _ _ H2) as [S1 S2]. destruct (slot_range ms sl Hw S1) as [R1 [R2 R3]].
      pose proof (slot_addr_bounds P sl i (total ms) R1 R2 R3 S2). split; [lia|]. eauto.
Qed.

Lemma destroy_half : forall ms m p P k1 key k2 m',
  wf_members ms -> wf_defaults ms -> region ms m p P (fun _ => None) -> NoDup (k1 ++ key :: k2) ->
  (forall sl i, In (sl, i) (k1 ++ key :: k2) -> In sl (slots ms) /\ 0 <= i < P) ->
  s_class (fst key) = true -> exec (map (mkC p P) k1) m = Val m' ->
  exec (map (mkD p P) (k1 ++ key :: k2)) m' = Fault DestroyDead.
Proof.
  intros ms m p P k1 key k2 m' Hw Hd R Hn Hk Hc E.
  assert (Hk1 : forall sl i, In (sl, i) k1 -> In sl (slots ms) /\ 0 <= i < P) by (intros; apply Hk, in_or_app; auto).
  apply NoDup_app_iff in Hn. destruct Hn as [Hn1 [Hn2 Hn3]].
  destruct (construct_prefix ms m p P k1 Hw Hd R Hn1 Hk1) as [m1 [E1 [SO HL]]]. rewrite E in E1. inversion E1; subst m1. clear E1.
  destruct SO as [_ [SZ _]]. pose proof (rg_off _ _ _ _ _ R) as Hoff.
  assert (Hbd : forall sl i, In sl (slots ms) -> 0 <= i < P -> chk_bounds m' (sptr p P sl i) (s_size sl) = None).
  { intros sl i Hs Hi. rewrite (chk_bounds_ext m m') by auto. eapply region_bounds; eauto. }
  assert (Hst : forall sl i, po (sptr p P sl i) = slot_addr P sl i) by (intros; unfold sptr, padd; cbn [po]; lia).
  destruct (exec_indep (map (mkD p P) k1) m') as [m2 [E2 Q]].
  - apply Forall_map, Forall_forall. intros [sl i] Hin. destruct (Hk1 _ _ Hin) as [Hs Hi]. unfold op_pre, mkD. cbn [op_size fst snd exec1].
    destruct (slot_range ms sl Hw Hs) as [_ [_ Hp]]. split; auto. rewrite Hbd by auto.
    destruct (s_class sl) eqn:Ec; [|eauto].
    assert (live m' (sptr p P sl i) = true) as ->; [|eauto].
    unfold live. change (pb (sptr p P sl i)) with (pb p). apply HL. exists sl, i. rewrite Hst. auto.
  - apply (keys_FOP ms P p); auto.
  - rewrite map_app, exec_app, E2. cbn [map exec]. destruct key as [sl i]. cbn [fst] in Hc. unfold mkD at 1. cbn [exec1 fst snd].
    destruct (Hk sl i) as [Hs Hi]; [apply in_or_app; right; left; reflexivity|].
    rewrite (chk_bounds_ext m' m2) by apply (ep_size _ _ _ Q). rewrite Hbd by auto. rewrite Hc.
    assert (live m2 (sptr p P sl i) = false) as ->; auto.
    unfold live. rewrite (ep_frame_live _ _ _ Q).
    + change (pb (sptr p P sl i)) with (pb p). destruct (mlive m' (pb p) (po (sptr p P sl i))) eqn:El; auto. exfalso.
      apply HL in El. destruct El as [sl' [i' [Hin [_ Ha]]]]. rewrite Hst in Ha. destruct (Hk1 _ _ Hin) as [Hs' Hi'].
      apply (key_addr_inj ms P) in Ha; auto. inversion Ha; subst. apply (Hn3 (sl', i')); [exact Hin|left; reflexivity].
    + intros op Ho. apply in_map_iff in Ho. destruct Ho as [[sl' i'] [<- Hin]]. unfold mkD. cbn [op_dst fst snd].
      destruct (is_start _ _ _) eqn:Ei; auto. apply is_start_spec in Ei. destruct Ei as [_ Ei]. rewrite !Hst in Ei.
      destruct (Hk1 _ _ Hin) as [Hs' Hi']. apply (key_addr_inj ms P) in Ei; auto. inversion Ei; subst. exfalso.
      apply (Hn3 (sl', i')); [exact Hin|left; reflexivity].
Qed.

Lemma filter_class_slots : forall ms o, length (filter s_class (slots_from o ms)) = class_elements ms.
Proof.
  induction ms as [|mb ms IH]; intros o; cbn [slots_from class_elements fold_right]; auto.
  rewrite filter_app, app_length, IH. unfold class_elements. f_equal. unfold member_slots. rewrite filter_map_comm, map_length.
  cbn [s_class]. destruct (m_class mb).
  - rewrite <- (seq_length (m_count mb) 0) at 2. f_equal. induction (seq 0 (m_count mb)); cbn; congruence.
  - induction (seq 0 (m_count mb)); cbn; auto.
Qed.

Lemma length_flat_map_const : forall (A B : Type) (f : A -> list B) n l, (forall a, In a l -> length (f a) = n) -> length (flat_map f l) = (length l * n)%nat.
Proof.
  intros A B f n. induction l as [|a l IH]; intros H; cbn [flat_map length]; auto. rewrite app_length, IH, (H a); cbn; auto.
  intros; apply H; cbn; auto.
Qed.

Lemma length_all_idx : forall e x y z, 0 <= x -> 0 <= y -> 0 <= z -> length (all_idx e x y z) = Z.to_nat (x * y * z).
Proof.
  intros e x y z X Y Zz. unfold all_idx. rewrite (length_flat_map_const _ _ _ (Z.to_nat x * Z.to_nat y)%nat).
  - rewrite length_zseq. rewrite !Z2Nat.inj_mul by nia. lia.
  - intros z' _. rewrite (length_flat_map_const _ _ _ (Z.to_nat x)).
    + rewrite length_zseq. lia.
    + intros y' _. rewrite map_length, length_zseq. reflexivity.
Qed.

Lemma calls_construct : forall ms p P e x y z, 0 <= x -> 0 <= y -> 0 <= z ->
  calls (map (mkC p P) (keys_of ms (all_idx e x y z))) = grid_elements ms x y z.
Proof.
  intros ms p P e x y z X Y Zz. unfold calls, grid_elements. rewrite filter_map_comm, map_length.
  rewrite <- (length_all_idx e x y z X Y Zz). generalize (all_idx e x y z). induction l as [|i l IH]; auto.
  unfold keys_of in *. cbn [flat_map]. rewrite filter_app, app_length, IH. cbn [length]. cbn [Nat.mul]. f_equal.
  rewrite filter_map_comm, map_length. cbn [mkC may_throw fst]. rewrite <- (filter_class_slots ms 0). reflexivity.
Qed.

Lemma init_cases : forall ct s m g e,
  wf_ct ct -> mem_ok m -> 0 <= g_x g -> 0 <= g_y g -> 0 <= g_z g ->
  choose (ct_sizes ct) (g_x g) (g_y g) (g_z g) = inr e -> blk g <> 0%nat ->
  g_bs g = Some (total (ct_ms ct) * DIM_PROD e) ->
  region (ct_ms ct) m (g_data g) (DIM_PROD e) (fun _ => None) ->
  (exists s' m', x_init ct s (m, g) = XRet s' (m', g) tt /\ g_init ct (m, g) = Ret (m', g) tt /\ sc_allocs s' = sc_allocs s /\
     alive m' (blk g) (total (ct_ms ct) * DIM_PROD e) = grid_elements (ct_ms ct) (g_x g) (g_y g) (g_z g) /\
     match sc_ops s with
     | Some k => (grid_elements (ct_ms ct) (g_x g) (g_y g) (g_z g) <= k)%nat /\ sc_ops s' = Some (k - grid_elements (ct_ms ct) (g_x g) (g_y g) (g_z g))%nat
     | None => sc_ops s' = None end) \/
  (exists m' k, x_init ct s (m, g) = XThr (m', g) XMember /\ sc_ops s = Some k /\
     (k < grid_elements (ct_ms ct) (g_x g) (g_y g) (g_z g))%nat /\
     same_other m m' (blk g) /\ alive m' (blk g) (total (ct_ms ct) * DIM_PROD e) = k /\
     exec (destroy_functor (ct_ms ct) (g_data g) (g_x g) (g_y g) (g_z g) (mkAcc e 0 0)) m' = Fault DestroyDead).
Proof.
  intros ct s m g e Hct M X Y Zz C B S R. pose proof Hct as [Hw Hd].
  destruct (g_init_ok ct m g e Hct M X Y Zz C B S R) as [m' [E [SO GA]]].
  assert (F : fits e (g_x g) (g_y g) (g_z g)) by (eapply choose_fits; eauto).
  unfold g_init in E. rewrite (callback_ok _ _ _ _ _ _ e C) in E. unfold x_init. rewrite x_callback_choose, C.
  rewrite destroy_functor_canon by reflexivity. cbn [a_ext].
  rewrite construct_functor_canon in * by reflexivity. cbn [a_ext] in *.
  change (fun i : Z => map (fun sl : slot => Construct (sptr (g_data g) (DIM_PROD e) sl i) (s_size sl) (s_class sl) (s_default sl)) (slots (ct_ms ct)))
    with (fun i : Z => map (fun sl : slot => mkC (g_data g) (DIM_PROD e) (sl, i)) (slots (ct_ms ct))) in *.
  change (fun i : Z => map (fun sl : slot => Destroy (sptr (g_data g) (DIM_PROD e) sl i) (s_size sl) (s_class sl)) (slots (ct_ms ct)))
    with (fun i : Z => map (fun sl : slot => mkD (g_data g) (DIM_PROD e) (sl, i)) (slots (ct_ms ct))).
  rewrite <- !map_keys_of in *. set (keys := keys_of (ct_ms ct) (all_idx e (g_x g) (g_y g) (g_z g))) in *.
  assert (Hn : NoDup keys) by (apply NoDup_prod_idx; auto; apply NoDup_all_idx; auto).
  assert (Hk : forall sl i, In (sl, i) keys -> In sl (slots (ct_ms ct)) /\ 0 <= i < DIM_PROD e).
  { intros sl i H. apply in_prod_idx in H. destruct H as [H1 H2]. split; auto. apply in_all_idx in H2.
    destruct H2 as [x [y [z [D ->]]]]. eapply gen_index_range; eauto. }
  destruct (exec (map (mkC (g_data g) (DIM_PROD e)) keys) m) as [m1|f] eqn:E1; cbn [run] in E; [|discriminate].
  inversion E; subst m1. clear E. unfold x_run.
  assert (HC : calls (map (mkC (g_data g) (DIM_PROD e)) keys) = grid_elements (ct_ms ct) (g_x g) (g_y g) (g_z g)) by (apply calls_construct; auto).
  pose proof (exec_x_inv (map (mkC (g_data g) (DIM_PROD e)) keys) s m) as Q.
  destruct (exec_x s (map (mkC (g_data g) (DIM_PROD e)) keys) m) as [s' m1 []|m1 ex| |f].
  - left. destruct Q as [Q1 [Q2 [Q3 Q4]]]. rewrite E1 in Q1. inversion Q1; subst m1. exists s', m'. cbn [xlift]. split; auto. split; [|split; [auto|split]].
    + unfold g_init. rewrite (callback_ok _ _ _ _ _ _ e C). rewrite construct_functor_canon by reflexivity. cbn [a_ext].
      change (fun i : Z => map (fun sl : slot => Construct (sptr (g_data g) (DIM_PROD e) sl i) (s_size sl) (s_class sl) (s_default sl)) (slots (ct_ms ct)))
        with (fun i : Z => map (fun sl : slot => mkC (g_data g) (DIM_PROD e) (sl, i)) (slots (ct_ms ct))).
      rewrite <- map_keys_of. fold keys. rewrite E1. reflexivity.
    + destruct (construct_prefix _ m (g_data g) (DIM_PROD e) keys Hw Hd R Hn Hk) as [m2 [E2 [_ HL]]].
      assert (m2 = m') by congruence. subst m2. rewrite <- HC. apply alive_calls; auto. apply (rg_off _ _ _ _ _ R).
    + rewrite HC in Q3. destruct (sc_ops s) as [k|]; auto.
  - right. destruct Q as [-> [pre [op [post [Eo [Hm [Ep Hs]]]]]]].
    assert (Hsplit : exists k1 key k2, keys = k1 ++ key :: k2 /\ pre = map (mkC (g_data g) (DIM_PROD e)) k1 /\ op = mkC (g_data g) (DIM_PROD e) key).
    { apply map_eq_app in Eo. destruct Eo as [k1 [k2 [K1 [K2 K3]]]]. destruct k2 as [|key k2]; [discriminate|].
      cbn [map] in K3. injection K3 as K3 K4. exists k1, key, k2. auto. }
    destruct Hsplit as [k1 [key [k2 [K1 [K2 K3]]]]].
    assert (Hk1 : forall sl i, In (sl, i) k1 -> In sl (slots (ct_ms ct)) /\ 0 <= i < DIM_PROD e)
      by (intros; apply Hk; rewrite K1; apply in_or_app; auto).
    assert (Hn1 : NoDup k1) by (rewrite K1 in Hn; apply NoDup_app_iff in Hn; tauto).
    destruct (construct_prefix _ m (g_data g) (DIM_PROD e) k1 Hw Hd R Hn1 Hk1) as [m2 [E2 [SO2 HL]]].
    rewrite K2, E2 in Ep. inversion Ep; subst m2.
    exists m1, (calls pre). cbn [xlift]. split; auto. split; auto. split; [|split; [|split]].
    + rewrite <- HC, Eo. unfold calls. rewrite filter_app, app_length. cbn [filter]. rewrite Hm. cbn [length]. lia.
    + exact SO2.
    + rewrite K2. apply alive_calls; auto. apply (rg_off _ _ _ _ _ R).
    + rewrite K1. apply (destroy_half (ct_ms ct) m); auto; try (rewrite <- K1; auto; fail).
      rewrite K3 in Hm. exact Hm.
  - contradiction.
  - rewrite E1 in Q. discriminate.
Qed.

(** *** Storage that is gone *)
Lemma destroys_gone : forall b keys p P m, pb p = b -> msize m b = None ->
  exec (map (mkD p P) keys) m = Val m \/ exec (map (mkD p P) keys) m = Fault Dangling.
Proof.
  intros b keys p P m Hp Hm. destruct keys as [|[sl i] keys]; [left; reflexivity|right]. cbn [map exec]. unfold mkD at 1. cbn [exec1 fst snd].
  unfold chk_bounds, sptr, padd. cbn [pb]. rewrite Hp, Hm. reflexivity.
Qed.

Lemma destroy_gone : forall ct m g e n, choose (ct_sizes ct) (g_x g) (g_y g) (g_z g) = inr e -> g_bs g = Some n ->
  blk g <> 0%nat -> msize m (blk g) = None -> destroy_and_deallocate ct (m, g) = Flt Dangling.
Proof.
  intros ct m g e n C S B H. unfold destroy_and_deallocate. unfold blk in *.
  assert (is_null (g_data g) = false) as -> by (unfold is_null; destruct (Nat.eqb_spec (pb (g_data g)) 0); [congruence|auto]).
  rewrite callback_choose, C. rewrite destroy_functor_canon by reflexivity. cbn [a_ext].
  change (fun i : Z => map (fun sl : slot => Destroy (sptr (g_data g) (DIM_PROD e) sl i) (s_size sl) (s_class sl)) (slots (ct_ms ct)))
    with (fun i : Z => map (fun sl : slot => mkD (g_data g) (DIM_PROD e) (sl, i)) (slots (ct_ms ct))).
  rewrite <- map_keys_of.
  destruct (destroys_gone (pb (g_data g)) (keys_of (ct_ms ct) (all_idx e (g_x g) (g_y g) (g_z g))) (g_data g) (DIM_PROD e) m) as [-> | ->]; auto.
  cbn [run obind fst]. rewrite S. cbn [use]. unfold free. rewrite H. reflexivity.
Qed.

Lemma resize_fault : forall ct m g x y z f, destroy_and_deallocate ct (m, g) = Flt f ->
  (g_x g, g_y g, g_z g) <> (x, y, z) -> g_resize ct (m, g) x y z = Flt f.
Proof.
  intros ct m g x y z f H Hne. unfold g_resize.
  destruct (_ && _) eqn:E; [exfalso; apply Hne; repeat f_equal; lia|]. unfold resize_to. rewrite H. reflexivity.
Qed.

(** *** resize *)
Lemma resize_to_cases : forall ct s m g A nx ny nz w' ex,
  wf_ct ct -> mem_ok m -> grep ct m g A -> 0 <= nx -> 0 <= ny -> 0 <= nz -> supported (ct_sizes ct) nx ny nz ->
  x_resize_to ct s (m, g) nx ny nz = XThr w' ex ->
  let '(m', g') := w' in
  g_x g' = nx /\ g_y g' = ny /\ g_z g' = nz /\ (exists e, choose (ct_sizes ct) nx ny nz = inr e /\ g_bs g' = Some (total (ct_ms ct) * DIM_PROD e)) /\
  ((ex = XBadAlloc /\ sc_allocs s = Some 0%nat /\ g_data g' = g_data g /\ gframe m (blk g) m' 0 /\
    destroy_and_deallocate ct (m, g) = Ret (m', g) tt) \/
   (ex = XMember /\ exists k N, sc_ops s = Some k /\ (k < grid_elements (ct_ms ct) nx ny nz)%nat /\ blk g' <> 0%nat /\
    (mnext m <= blk g')%nat /\ gframe m (blk g) m' (blk g') /\ msize m' (blk g') = Some N /\ alive m' (blk g') N = k /\
    g_destroy ct (m', g') = Flt DestroyDead)).
Proof.
  intros ct s m g A nx ny nz w' ex Hct M G X Y Zz Hs H. unfold x_resize_to in H.
  destruct (destroy_ok ct m g A Hct M G) as [m1 [E1 F1]]. rewrite E1 in H. cbn [plain xbind] in H.
  destruct (supported_choose _ _ _ _ Hs) as [e He].
  rewrite x_callback_choose in H. cbn [g_x g_y g_z] in H. rewrite He in H. cbn [xbind a_ext g_bs x_use] in H.
  rewrite byte_size_of_prod in H. cbn [x_use] in H. unfold x_alloc in H.
  pose proof (gf_ok _ _ _ _ F1) as M1.
  destruct (due (sc_allocs s)) eqn:Ed.
  - inversion H; subst w' ex. cbn [g_x g_y g_z g_data g_bs]. split; auto. split; auto. split; auto. split; [eauto|].
    left. split; auto. split; [|auto]. destruct (sc_allocs s) as [[|n]|]; try discriminate. reflexivity.
  - destruct (alloc m1 (total (ct_ms ct) * DIM_PROD e)) as [m2 p] eqn:Ea. cbn [g_ex g_ey g_ez g_bs] in H.
    destruct (alloc_frame _ _ _ _ M1 Ea) as [F2 [Hp1 [Hp2 Hp3]]].
    assert (F : fits e nx ny nz) by (eapply choose_fits; eauto).
    assert (R2 : region (ct_ms ct) m2 p (DIM_PROD e) (fun _ => None)).
    { eapply alloc_region; eauto. eapply DIM_PROD_nonneg; eauto. }
    set (g' := mkGrid nx ny nz (Some (DIM_X e)) (Some (DIM_Y e)) (Some (DIM_Z e)) (Some (total (ct_ms ct) * DIM_PROD e)) p) in *.
    destruct (init_cases ct (mkSched (sc_ops s) (tick (sc_allocs s))) m2 g' e) as [[s' [m3 [E3 _]]]|[m3 [k [E3 [Hk [Hlt [SO [Ha Hd]]]]]]]]; auto.
    { apply (gf_ok _ _ _ _ F2). }
    { rewrite E3 in H. discriminate. }
    rewrite E3 in H. inversion H; subst w' ex. split; auto. split; auto. split; auto. split; [exists e; auto|].
    right. split; auto. exists k, (total (ct_ms ct) * DIM_PROD e). split; [exact Hk|]. split; auto. split; auto.
    assert (Hnm : (mnext m <= blk g')%nat) by (change (blk g') with (pb p); pose proof (gf_next _ _ _ _ F1); lia). split; auto.
    split; [|split; [|split]]; auto.
    + eapply gframe_trans; [exact F1|]. eapply gframe_trans; [exact F2|].
      change (pb p) with (blk g'). apply same_other_frame; auto. apply (gf_ok _ _ _ _ F2).
    + destruct SO as [_ [SZ _]]. rewrite SZ. apply (rg_size _ _ _ _ _ R2).
    + unfold g_destroy, destroy_and_deallocate.
      assert (is_null (g_data g') = false) as -> by (unfold is_null; cbn [g' g_data]; destruct (Nat.eqb_spec (pb p) 0); [congruence|auto]).
      rewrite (callback_ok _ _ _ _ _ _ e) by exact He. cbv beta. rewrite Hd. reflexivity.
Qed.

(** *** Calls that return do what the functions of Grid.v do *)
Definition agrees {W A : Type} (o : xout W A) (p : outcome W A) : Prop :=
  forall s' w a, o = XRet s' w a -> p = Ret w a.

Lemma run_agrees : forall s ops m g, agrees (x_run s ops m g) (run (exec ops m) (fun m' => (m', g)) tt).
Proof.
  intros s ops m g s' w a H. unfold x_run in H. destruct (exec_x s ops m) as [s1 m1 []|m1 e| |f] eqn:E; cbn [xlift] in H; try discriminate.
  inversion H; subst. apply exec_x_ret in E. destruct E as [-> _]. reflexivity.
Qed.

Lemma callback_agrees : forall (W A : Type) ct (w : W) g (f : ptr -> accessor -> xout W A) (h : ptr -> accessor -> outcome W A),
  (forall d a, agrees (f d a) (h d a)) -> agrees (x_callback ct w g f) (callback ct w g h).
Proof.
  intros W A ct w g f h H s' w' a E. rewrite x_callback_choose in E. rewrite callback_choose.
  destruct (choose _ _ _ _); [discriminate|]. eapply H; eauto.
Qed.

Lemma init_agrees : forall ct s w, agrees (x_init ct s w) (g_init ct w).
Proof. intros ct s [m g]. apply callback_agrees. intros. apply run_agrees. Qed.

Lemma alloc_ret : forall s m n s' m' p, x_alloc s m n = XRet s' m' p -> alloc m n = (m', p).
Proof. intros s m n s' m' p H. unfold x_alloc in H. destruct (due _); [discriminate|]. destruct (alloc m n). congruence. Qed.

Lemma resize_agrees : forall ct s w x y z, agrees (x_resize ct s w x y z) (g_resize ct w x y z).
Proof.
  intros ct s [m g] x y z s' w a H. unfold x_resize in H. unfold g_resize. destruct (_ && _); [inversion H; subst; reflexivity|].
  unfold x_resize_to in H. unfold resize_to. destruct (destroy_and_deallocate ct (m, g)) as [[m1 g1] []|[m1 g1] e|f]; cbn [plain xbind obind] in *; try discriminate.
  rewrite x_callback_choose in H. rewrite callback_choose. cbn [g_x g_y g_z] in *.
  destruct (choose _ _ _ _); cbn [xbind obind g_bs] in *; [discriminate|].
  destruct (byte_size_of _ _ _ _); cbn [x_use use] in *; [|discriminate].
  destruct (x_alloc s m1 z0) as [s4 m4 p| | |] eqn:E; try discriminate. apply alloc_ret in E. rewrite E. eapply init_agrees; eauto.
Qed.

Lemma dual_agrees : forall (W A : Type) ct (w : W) g o (f : ptr -> accessor -> ptr -> accessor -> xout W A) h,
  (forall d a d' a', agrees (f d a d' a') (h d a d' a')) -> agrees (x_dual_callback ct w g o f) (dual_callback ct w g o h).
Proof.
  intros W A ct w g o f h H. unfold x_dual_callback, dual_callback. destruct (ct_asym ct).
  - apply callback_agrees. intros. apply callback_agrees. auto.
  - destruct (_ || _); [intros s' w' a E; discriminate|]. apply callback_agrees. auto.
Qed.

Lemma copy_in_agrees : forall ct s w o, agrees (x_copy_in ct s w o) (copy_in ct w o).
Proof. intros ct s [m g] o. apply dual_agrees. intros. apply run_agrees. Qed.

Lemma assign_agrees : forall ct s w o, agrees (x_assign ct s w o) (g_assign ct w o).
Proof.
  intros ct s w o s' w' a H. unfold x_assign in H. unfold g_assign.
  destruct (x_resize ct s w (g_x o) (g_y o) (g_z o)) as [s1 w1 []| | |] eqn:E; cbn [xbind] in H; try discriminate.
  apply resize_agrees in E. rewrite E. cbn [obind]. eapply copy_in_agrees; eauto.
Qed.

Lemma copy_agrees : forall ct s m o, agrees (x_copy ct s m o) (g_copy ct m o).
Proof.
  intros ct s m o s' w' a H. unfold x_copy in H. unfold g_copy. destruct (g_bs o) as [n|]; cbn [x_use use] in *; [|discriminate].
  destruct (x_alloc s m n) as [s1 m1 p| | |] eqn:E; try discriminate. apply alloc_ret in E. rewrite E.
  destruct (x_init ct s1 _) as [s2 w2 []| | |] eqn:E2; cbn [xbind] in H; try discriminate.
  apply init_agrees in E2. rewrite E2. cbn [obind]. eapply copy_in_agrees; eauto.
Qed.

Lemma set_row_agrees : forall ct s m g cs stride x y z n,
  agrees (x_set_row ct s (m, g) cs stride x y z n)
         (callback ct (m, g) g (fun d a => match set_instance_functor (ct_ms ct) d cs stride x y z n a with
                                           | Fault f => Flt f | Val ops => run (exec ops m) (fun m' => (m', g)) tt end)).
Proof.
  intros. apply callback_agrees. intros d a. destruct (set_instance_functor _ _ _ _ _ _ _ _ _); [|intros s' w' u E; discriminate]. apply run_agrees.
Qed.

Lemma load_agrees : forall ct s w l p n, agrees (x_load_streaks ct s w l p n) (g_load_streaks ct w l p n).
Proof. intros ct s [m g] l p n. apply callback_agrees. intros. apply run_agrees. Qed.

(** *** The copy constructor *)
Lemma copy_cases : forall ct s m o e cells w' ex,
  wf_ct ct -> mem_ok m -> galloc ct m o e cells -> x_copy ct s m o = XThr w' ex ->
  (ex = XBadAlloc /\ sc_allocs s = Some 0%nat /\ fst w' = m) \/
  (ex = XMember /\ exists k N, sc_ops s = Some k /\ blk (snd w') <> 0%nat /\ (mnext m <= blk (snd w'))%nat /\
     gframe m 0 (fst w') (blk (snd w')) /\ msize (fst w') (blk (snd w')) = Some N /\
     alive (fst w') (blk (snd w')) N = Nat.min k (grid_elements (ct_ms ct) (g_x o) (g_y o) (g_z o))).
Proof.
  intros ct s m o e cells w' ex Hct M G H. pose proof (galloc_fits _ _ _ _ _ G) as F.
  unfold x_copy in H. rewrite (ga_bs _ _ _ _ _ G) in H. cbn [x_use] in H. unfold x_alloc in H.
  destruct (due (sc_allocs s)) eqn:Ed.
  { inversion H; subst w' ex. left. split; auto. split; auto. destruct (sc_allocs s) as [[|n]|]; try discriminate. reflexivity. }
  right. destruct (alloc m (total (ct_ms ct) * DIM_PROD e)) as [m1 p] eqn:Ea.
  destruct (alloc_frame _ _ _ _ M Ea) as [F1 [Hp1 [Hp2 Hp3]]]. pose proof (gf_ok _ _ _ _ F1) as M1.
  set (g := mkGrid (g_x o) (g_y o) (g_z o) None None None (Some (total (ct_ms ct) * DIM_PROD e)) p) in *.
  assert (R1 : region (ct_ms ct) m1 p (DIM_PROD e) (fun _ => None)).
  { eapply alloc_region; eauto. eapply DIM_PROD_nonneg; eauto. }
  set (s1 := mkSched (sc_ops s) (tick (sc_allocs s))) in *.
  assert (Hb : blk g = mnext m) by exact Hp1.
  destruct (init_cases ct s1 m1 g e) as [[s2 [m2 [E2 [E2' [_ [Ha Hk]]]]]]|[m2 [k [E2 [Hk [Hlt [SO [Ha _]]]]]]]]; auto; try (destruct G; auto; fail).
  - rewrite E2 in H. cbn [xbind] in H.
    destruct (g_init_ok ct m1 g e) as [m2' [E2'' [SO2 G2]]]; auto; try (destruct G; auto; fail).
    assert (m2' = m2) by congruence. subst m2'.
    assert (Hlt : (blk o < mnext m)%nat) by (eapply galloc_lt; eauto).
    assert (Hb0 : blk o <> 0%nat) by (destruct G; auto).
    assert (Hne : blk o <> blk g) by lia.
    pose proof (galloc_frame ct m m1 o e cells 0 (pb p) M G F1 Hb0) as O1.
    pose proof (galloc_frame ct m1 m2 o e cells (blk g) (blk g) M1 O1 (same_other_frame _ _ _ M1 SO2) Hne) as O2.
    assert (M2 : mem_ok m2) by (eapply same_other_ok; eauto).
    pose proof (copy_in_throws ct s2 m2 g e _ o cells w' ex Hct G2 O2 eq_refl eq_refl eq_refl Hne H) as [-> [Hg [SO3 [HL [c2 [G3 _]]]]]].
    split; auto. unfold x_copy_in in H.
    destruct (sc_ops s1) as [k|] eqn:Es.
    + exists k, (total (ct_ms ct) * DIM_PROD e). rewrite Hg. split; [exact Es|]. split; [exact Hp2|]. split; [lia|]. split; [|split].
      * eapply gframe_trans; [exact F1|]. eapply gframe_trans; [apply same_other_frame; [exact M1|exact SO2]|]. apply same_other_frame; auto.
      * apply (rg_size _ _ _ _ _ (ga_region _ _ _ _ _ G3)).
      * destruct Hk as [Hk _]. cbn [g_x g_y g_z g] in *. rewrite Nat.min_r by exact Hk. rewrite <- Ha. unfold alive. f_equal. apply filter_ext. intros x. apply HL.
    + exfalso. rewrite (dual_choose _ ct m2 g o e) in H by (auto; apply (ga_choose _ _ _ _ _ O2)).
      unfold x_run in H.
      pose proof (exec_x_inv (copy_functor (ct_ms ct) (g_data o) {| a_ext := e; a_index := 0; a_INDEX := 0 |} (g_data g) {| a_ext := e; a_index := 0; a_INDEX := 0 |} (g_x g) (g_y g) (g_z g)) s2 m2) as Q.
      destruct (exec_x s2 _ m2) as [s3 m3 u|m3 e3| |f3]; cbn [xlift] in H; try discriminate.
      destruct Q as [_ [pre [op [post [_ [_ [_ Q]]]]]]]. congruence.
  - rewrite E2 in H. cbn [xbind] in H. inversion H; subst w' ex. cbn [fst snd]. split; auto.
    exists k, (total (ct_ms ct) * DIM_PROD e). split; [exact Hk|]. split; [exact Hp2|]. split; [lia|]. split; [|split].
    + eapply gframe_trans; [exact F1|]. apply same_other_frame; auto.
    + destruct SO as [_ [SZ _]]. rewrite SZ. apply (rg_size _ _ _ _ _ R1).
    + cbn [g_x g_y g_z g] in *. rewrite Nat.min_l by lia. exact Ha.
Qed.

(** *** operator= *)
Lemma resize_ret : forall ct m g A nx ny nz m1 g1,
  wf_ct ct -> mem_ok m -> grep ct m g A -> 0 <= nx -> 0 <= ny -> 0 <= nz -> supported (ct_sizes ct) nx ny nz ->
  g_resize ct (m, g) nx ny nz = Ret (m1, g1) tt ->
  gframe m (blk g) m1 (blk g1) /\
  grep ct m1 g1 (if (ag_x A =? nx) && (ag_y A =? ny) && (ag_z A =? nz) then A else new_grid (ct_ms ct) nx ny nz).
Proof.
  intros ct m g A nx ny nz m1 g1 Hct M G X Y Zz Hs E. unfold g_resize in E. pose proof G as [GX [GY [GZ _]]].
  rewrite GX, GY, GZ in E. destruct (_ && _).
  - inversion E; subst. split; auto. apply gframe_refl; auto.
  - destruct (resize_to_ok ct m g A nx ny nz) as [m' [g' [E' [F [G' _]]]]]; auto. rewrite E' in E. inversion E; subst. auto.
Qed.

Lemma assign_copy_throws : forall ct s W A id g D jd o S s1 w1 w' ex,
  wf_ct ct -> winv ct W A -> w_grids W id = Some g -> A id = Some D -> w_grids W jd = Some o -> A jd = Some S -> id <> jd ->
  supported (ct_sizes ct) (ag_x S) (ag_y S) (ag_z S) ->
  x_resize ct s (w_mem W, g) (g_x o) (g_y o) (g_z o) = XRet s1 w1 tt ->
  x_copy_in ct s1 w1 o = XThr w' ex ->
  ex = XMember /\ exists S',
    winv ct (mkW (fst w') (fset (w_grids W) id (Some (snd w')))) (fset A id (Some S')) /\
    ag_x S' = ag_x S /\ ag_y S' = ag_y S /\ ag_z S' = ag_z S /\
    forall x y z, in_box S x y z ->
      mixed (ct_ms ct) (if (ag_x D =? ag_x S) && (ag_y D =? ag_y S) && (ag_z D =? ag_z S) then ag_cells D x y z else default_cell (ct_ms ct))
            (ag_cells S x y z) (ag_cells S' x y z).
Proof.
  intros ct s W A id g D jd o S s1 [m1 g1] w' ex Hct I Hg HA Ho HS Hne Hsup E H. apply resize_agrees in E.
  pose proof (wi_ok _ _ _ I) as M.
  destruct (winv_rep _ _ _ _ _ I Hg) as [D0 [HD0 GD]]. assert (D0 = D) by congruence. subst D0.
  destruct (winv_rep _ _ _ _ _ I Ho) as [S0 [HS0 GS]]. assert (S0 = S) by congruence. subst S0.
  pose proof GS as [SX [SY [SZ HSg]]]. rewrite SX, SY, SZ in E.
  assert (Hnn : 0 <= ag_x S /\ 0 <= ag_y S /\ 0 <= ag_z S).
  { destruct (ag_fresh S); [lia|]. destruct HSg as [e2 HSg]. destruct HSg. lia. }
  destruct (resize_ret ct (w_mem W) g D (ag_x S) (ag_y S) (ag_z S) m1 g1) as [F1 G1]; auto; try lia.
  set (same := (ag_x D =? ag_x S) && (ag_y D =? ag_y S) && (ag_z D =? ag_z S)) in *.
  set (D1 := if same then D else new_grid (ct_ms ct) (ag_x S) (ag_y S) (ag_z S)) in *.
  assert (HD1 : ag_x D1 = ag_x S /\ ag_y D1 = ag_y S /\ ag_z D1 = ag_z S).
  { unfold D1, same. destruct (_ && _) eqn:Eb; cbn [new_grid ag_x ag_y ag_z]; lia. }
  destruct HD1 as [HX1 [HY1 HZ1]]. pose proof G1 as [GX1 [GY1 [GZ1 HG1]]].
  destruct (supported_choose _ _ _ _ Hsup) as [e He].
  assert (Hne0 : ag_fresh S = false /\ ag_fresh D1 = false).
  { assert (Hz : ag_x S = 0 -> ag_y S = 0 -> ag_z S = 0 -> False).
    { intros Z1 Z2 Z3. unfold x_copy_in in H.
      rewrite (dual_choose _ ct m1 g1 o e) in H by (rewrite ?GX1, ?GY1, ?GZ1, ?SX, ?SY, ?SZ; auto; congruence).
      rewrite GX1, GY1, GZ1, HX1, HY1, HZ1, Z1, Z2, Z3, copy_functor_empty in H. cbn in H. discriminate. }
    split.
    - destruct (ag_fresh S); auto. exfalso. apply Hz; lia.
    - destruct (ag_fresh D1); auto. exfalso. apply Hz; lia. }
  destruct Hne0 as [FS FD]. rewrite FS in HSg. rewrite FD in HG1. destruct HSg as [e2 HO]. destruct HG1 as [e1 HG1].
  assert (e2 = e) by (pose proof (ga_choose _ _ _ _ _ HO) as C; rewrite SX, SY, SZ in C; congruence). subst e2.
  assert (e1 = e) by (pose proof (ga_choose _ _ _ _ _ HG1) as C; rewrite GX1, GY1, GZ1, HX1, HY1, HZ1 in C; congruence). subst e1.
  assert (Hb0 : blk o <> 0%nat) by (destruct HO; auto).
  assert (Hob : blk o <> blk g) by (destruct (wi_sep _ _ _ I jd id o g); auto).
  pose proof (galloc_frame ct (w_mem W) m1 o e (ag_cells S) (blk g) (blk g1) M HO F1 Hob) as O1.
  assert (Hob1 : blk o <> blk g1).
  { pose proof (galloc_lt _ _ _ _ _ M HO). assert (blk g1 <> 0%nat) by (destruct HG1; auto). destruct (gf_new _ _ _ _ F1) as [->|[Hz|Hz]]; auto; lia. }
  assert (I1 : winv ct (mkW m1 (fset (w_grids W) id (Some g1))) (fset A id (Some D1))).
  { apply winv_update; auto. rewrite Hg. exact F1. }
  pose proof (copy_in_throws ct s1 m1 g1 e (ag_cells D1) o (ag_cells S) w' ex Hct HG1 O1) as Q.
  destruct Q as [-> [Hg' [SO [_ [c2 [G2 Hmix]]]]]]; auto; try congruence.
  split; auto. set (S' := mkAG (ag_x S) (ag_y S) (ag_z S) false c2). exists S'. split; [|split; [auto|split; [auto|split; [auto|]]]].
  - rewrite Hg'. eapply winv_ext; [|exact (winv_replace ct _ _ id g1 D1 (fst w') S' I1 (fset_same _ _ _ _) (fset_same _ _ _ _) SO
      (conj (eq_trans GX1 HX1) (conj (eq_trans GY1 HY1) (conj (eq_trans GZ1 HZ1) (ex_intro _ e G2)))))].
    intros j. unfold fset. destruct (Nat.eqb j id); auto.
  - intros x y z Hin. cbn [S' ag_cells].
    assert (Hd : in_dims (g_x g1) (g_y g1) (g_z g1) x y z) by (unfold in_box in Hin; unfold in_dims; rewrite GX1, GY1, GZ1, HX1, HY1, HZ1; auto).
    specialize (Hmix x y z Hd). unfold D1 in Hmix. destruct same; exact Hmix.
Qed.

(** *** When resize throws *)
Lemma resize_to_total : forall ct s m g A nx ny nz,
  wf_ct ct -> mem_ok m -> grep ct m g A -> 0 <= nx -> 0 <= ny -> 0 <= nz -> supported (ct_sizes ct) nx ny nz ->
  (exists s' w', x_resize_to ct s (m, g) nx ny nz = XRet s' w' tt /\ sc_allocs s <> Some 0%nat /\
     forall k, sc_ops s = Some k -> (grid_elements (ct_ms ct) nx ny nz <= k)%nat) \/
  (exists w' ex, x_resize_to ct s (m, g) nx ny nz = XThr w' ex /\
     (ex = XBadAlloc /\ sc_allocs s = Some 0%nat \/
      ex = XMember /\ sc_allocs s <> Some 0%nat /\ exists k, sc_ops s = Some k /\ (k < grid_elements (ct_ms ct) nx ny nz)%nat)).
Proof.
  intros ct s m g A nx ny nz Hct M G X Y Zz Hs. unfold x_resize_to.
  destruct (destroy_ok ct m g A Hct M G) as [m1 [E1 F1]]. rewrite E1. cbn [plain xbind].
  destruct (supported_choose _ _ _ _ Hs) as [e He].
  rewrite x_callback_choose. cbn [g_x g_y g_z]. rewrite He. cbn [xbind a_ext g_bs x_use].
  rewrite byte_size_of_prod. cbn [x_use]. unfold x_alloc.
  pose proof (gf_ok _ _ _ _ F1) as M1.
  destruct (due (sc_allocs s)) eqn:Ed.
  - right. do 2 eexists. split; [reflexivity|]. left. split; auto. destruct (sc_allocs s) as [[|n]|]; try discriminate. reflexivity.
  - assert (Hd : sc_allocs s <> Some 0%nat) by (intros Q; rewrite Q in Ed; discriminate).
    destruct (alloc m1 (total (ct_ms ct) * DIM_PROD e)) as [m2 p] eqn:Ea. cbn [g_ex g_ey g_ez g_bs].
    destruct (alloc_frame _ _ _ _ M1 Ea) as [F2 [Hp1 [Hp2 Hp3]]].
    assert (F : fits e nx ny nz) by (eapply choose_fits; eauto).
    assert (R2 : region (ct_ms ct) m2 p (DIM_PROD e) (fun _ => None)).
    { eapply alloc_region; eauto. eapply DIM_PROD_nonneg; eauto. }
    set (g' := mkGrid nx ny nz (Some (DIM_X e)) (Some (DIM_Y e)) (Some (DIM_Z e)) (Some (total (ct_ms ct) * DIM_PROD e)) p) in *.
    destruct (init_cases ct (mkSched (sc_ops s) (tick (sc_allocs s))) m2 g' e) as [[s' [m3 [E3 [_ [_ [_ Hk]]]]]]|[m3 [k [E3 [Hk [Hlt _]]]]]]; auto.
    { apply (gf_ok _ _ _ _ F2). }
    + left. do 2 eexists. split; [exact E3|]. split; auto. intros k Q. cbn [sc_ops] in Hk. rewrite Q in Hk. apply Hk.
    + right. do 2 eexists. split; [exact E3|]. right. split; auto. split; auto. exists k. auto.
Qed.

(** *** What stays behind *)
Lemma frame_leaves : forall m m' b N k, mem_ok m -> gframe m 0 m' b -> (mnext m <= b)%nat -> msize m' b = Some N ->
  alive m' b N = k -> leaves_block m m' b N k.
Proof.
  intros m m' b N k [M1 [M2 M3]] F Hb HN Ha. split; [auto|]. split; auto. split; auto. split.
  - intros c Hc. destruct (Nat.eq_dec c 0) as [->|H0].
    + destruct (gf_ok _ _ _ _ F) as [_ [Q _]]. congruence.
    + destruct (le_lt_dec (mnext m) c) as [L|L].
      * rewrite (M3 c L). destruct (msize m' c) as [n|] eqn:E; auto. destruct (gf_leak _ _ _ _ F c n E) as [->|[_ Q]]; [congruence|].
        rewrite (M3 c L) in Q. discriminate.
      * apply (gf_other _ _ _ _ F c H0 H0 L).
  - intros c n o Hc. assert (c <> 0%nat) by congruence. assert (c < mnext m)%nat.
    { destruct (le_lt_dec (mnext m) c) as [L|L]; auto. rewrite (M3 c L) in Hc. discriminate. }
    destruct (gf_other _ _ _ _ F c) as [_ [Q1 Q2]]; auto.
Qed.

Lemma history_inv : forall ct W A, wf_ct ct -> history ct W A -> winv ct W A.
Proof.
  intros ct W A Hct [ops [bs [H E]]]. destruct (run_sim ct ops start no_grids A bs Hct (winv_start ct) H) as [W' [E' I]].
  rewrite E in E'. inversion E'; subst. exact I.
Qed.
