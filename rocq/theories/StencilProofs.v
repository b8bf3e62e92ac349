(** Proofs about the stencil functors (Stencil.v). *)
From Coq Require Import String ZArith List Bool Lia Permutation ZifyBool ZifyNat Znumtheory.
From Verif Require Import ShortVecLang ShortVecClass ShortVecApi ShortVecScalar SpecShortVec PropsShortVec PropsShortVec2.
From Verif Require Import Base Layout LayoutProofs Sizes SizesProofs Mem MemProofs Accessor AccessorProofs RegionProofs
  Grid SpecGrid GridProofs GridInv GridSim Peeler Array Stencil SpecStencil.
Import ListNotations.
Local Open Scope Z_scope.

Notation n_of c := (Z.of_nat (c_arity c)).

Lemma in_range : forall lo hi v, In v (range lo hi) <-> lo <= v < hi.
Proof.
  intros lo hi v. unfold range. rewrite in_map_iff. split.
  - intros [i [E H]]. apply in_zseq in H. lia.
  - intros H. exists (v - lo). split; [lia|]. apply in_zseq. lia.
Qed.

Lemma round_up_unique : forall n x r r', 0 < n -> is_round_up n x r -> is_round_up n x r' -> r = r'.
Proof.
  intros n x r r' Hn [[a Ha] Hr] [[b Hb] Hr']. assert (a = b) by nia. congruence.
Qed.

Lemma round_up_next : forall n x, 1 <= n <= 32 -> 0 <= x < 2 ^ 31 ->
  is_round_up n x (if x mod n =? 0 then x else sz (x + n - x mod n)).
Proof.
  intros n x Hn Hx. pose proof (Z.mod_pos_bound x n ltac:(lia)) as B. pose proof (Z.div_mod x n ltac:(lia)) as D.
  destruct (Z.eqb_spec (x mod n) 0) as [E|E].
  - split; [|lia]. exists (x / n). lia.
  - assert (Es : sz (x + n - x mod n) = x + n - x mod n) by (unfold sz; apply Z.mod_small; lia). rewrite Es.
    split; [|lia]. exists (x / n + 1). lia.
Qed.

(** *** Vectors *)
Lemma without_qpx_all : forall c, In c without_qpx -> In c all_classes.
Proof. intros c H. unfold without_qpx, all_classes in *. rewrite !in_app_iff in *. tauto. Qed.

Lemma arity_shape : forallb (fun c => Nat.eqb (c_arity c) (c_lanes c * c_nreg c) && Nat.ltb 0 (c_arity c) && Nat.leb (c_arity c) 32) all_classes = true.
Proof. vm_compute. reflexivity. Qed.

Lemma arity_ok : forall c, In c without_qpx ->
  c_arity c = (c_lanes c * c_nreg c)%nat /\ 1 <= n_of c <= 32.
Proof.
  intros c H. apply without_qpx_all in H. pose proof arity_shape as E. rewrite forallb_forall in E.
  specialize (E c H). rewrite !andb_true_iff in E. destruct E as [[E1 E2] E3].
  apply Nat.eqb_eq in E1. apply Nat.ltb_lt in E2. apply Nat.leb_le in E3. lia.
Qed.

Lemma concat_repeat : forall (T : Type) (u : T) a b, concat (repeat (repeat u a) b) = repeat u (a * b)%nat.
Proof.
  intros T u a b. induction b as [|b IH]; simpl.
  - rewrite Nat.mul_0_r. reflexivity.
  - rewrite IH, <- repeat_app. f_equal. lia.
Qed.

Lemma map_const_seq : forall (T : Type) (u : T) n s, map (fun _ => u) (seq s n) = repeat u n.
Proof. intros T u n. induction n as [|n IH]; intros s; simpl; [auto|]. f_equal. apply IH. Qed.

Lemma fresh_is_vec : forall (T : Type) (A : alg T) c, In c without_qpx ->
  is_vec c (fresh A c) (fun _ => a_undef A).
Proof.
  intros T A c H. destruct (arity_ok c H) as [E _]. unfold is_vec, fresh. split; [apply repeat_length|]. split.
  - apply Forall_forall. intros r Hr. apply repeat_spec in Hr. subst. apply repeat_length.
  - rewrite concat_repeat, map_const_seq, E. reflexivity.
Qed.

Lemma is_vec_ext : forall (T : Type) c (v : list (list T)) x y,
  (forall i, (i < c_arity c)%nat -> x i = y i) -> is_vec c v x -> is_vec c v y.
Proof.
  intros T c v x y H [A [B C]]. split; auto. split; auto. rewrite C. apply map_ext_in.
  intros i Hi. apply in_seq in Hi. apply H. lia.
Qed.

Lemma scalar_1_class : double_class cls_scalar_double_1 /\ c_arity cls_scalar_double_1 = 1%nat.
Proof.
  split; [|reflexivity]. split; [|reflexivity]. unfold without_qpx. rewrite !in_app_iff. left.
  unfold scalar_classes. simpl. tauto.
Qed.

Section M.
Context (A : alg elem) (base : nat -> Z) (HA : doubles A).
Notation add := (a_bin A (BAdd KF64)).
Notation mul := (a_bin A (BMul KF64)).

Lemma mis_in_range : forall c p, c_kind c = KF64 -> mis_ok c (mis_of base p).
Proof. intros c p H. unfold mis_ok, mis_of. rewrite H. cbn [esize]. apply Z.mod_pos_bound. lia. Qed.

Lemma first_fault_none : forall m p l,
  (forall i, In i l -> chk_bounds m (dptr p (Z.of_nat i)) 8 = None) ->
  first_fault m p (map data_at l) = None.
Proof.
  intros m p l. induction l as [|i l IH]; intros H; simpl; auto.
  rewrite (H i) by (left; auto). apply IH. intros j Hj. apply H. right; auto.
Qed.

Lemma vec_from_ok : forall c m p data, double_class c ->
  (forall i, (i < c_arity c)%nat ->
     chk_bounds m (dptr p (Z.of_nat i)) 8 = None /\ read m (dptr p (Z.of_nat i)) 8 = data i) ->
  exists v, vec_from A base c m p = Val v /\ is_vec c v data.
Proof.
  intros c m p data [I K] H. unfold vec_from.
  destruct (sv_load MCtorPtr (or_intror (or_introl eq_refl)) c I elem
     (with_data A (fun i => read m (dptr p i) 8)) (fresh A c) (fun _ => a_undef A) (mis_of base p))
    as [r [E [_ [V [R _]]]]].
  - apply fresh_is_vec; auto.
  - apply mis_in_range; auto.
  - rewrite E, R, first_fault_none.
    + exists (r_val r). split; auto. eapply is_vec_ext; [|exact V]. intros i Hi. cbn. apply H; auto.
    + intros i Hi. apply in_seq in Hi. apply H. lia.
Qed.

Lemma to_ops : forall p x l,
  mapR (to_op p) (map (fun i => (data_at i, x i)) l) =
  Val (map (fun i => Assign (dptr p (Z.of_nat i)) 8 false (x i)) l).
Proof. intros p x l. induction l as [|i l IH]; simpl; auto. rewrite IH. reflexivity. Qed.

Lemma vec_to_ops : forall c m p v x, double_class c -> is_vec c v x ->
  vec_to A base c m p v =
  exec (map (fun i => Assign (dptr p (Z.of_nat i)) 8 false (x i)) (seq 0 (c_arity c))) m.
Proof.
  intros c m p v x [I K] Hv. unfold vec_to.
  destruct (sv_store c I elem A v x (mis_of base p) Hv (mis_in_range c p K)) as [r [E [_ [_ [_ W]]]]].
  rewrite E, W, to_ops. reflexivity.
Qed.

(** *** Expressions *)
Section Expr.
Context (vars : list (string * elem)) (f : Z -> Z -> Z -> elem) (dx dy dz : Z).

Fixpoint ev (x y z : Z) (e : vexp) : elem :=
  match e with
  | Temp X Y Z => f (x + X) (y + Y) (z + Z)
  | Var s => match lookup vars s with Some t => t | None => zero end
  | Times a b => mul (ev x y z a) (ev x y z b)
  end.

Fixpoint inside_at (x y z : Z) (e : vexp) : Prop :=
  match e with
  | Temp X Y Z => in_dims dx dy dz (x + X) (y + Y) (z + Z)
  | Var s => exists t, lookup vars s = Some t /\ is_double t
  | Times a b => inside_at x y z a /\ inside_at x y z b
  end.

Definition arg (s : vstmt) : vexp := match s with BufIs e | BufAdd e | BufMul e => e end.

Definition ev_stmt (x y z : Z) (b : elem) (s : vstmt) : elem :=
  match s with
  | BufIs e => ev x y z e
  | BufAdd e => add b (ev x y z e)
  | BufMul e => mul b (ev x y z e)
  end.

Definition ev_body (x y z : Z) (b : elem) (l : list vstmt) : elem := fold_left (ev_stmt x y z) l b.

Lemma ev_double : (forall x y z, in_dims dx dy dz x y z -> is_double (f x y z)) ->
  forall e x y z, inside_at x y z e -> is_double (ev x y z e).
Proof.
  intros Hf e. induction e as [X Y Z|s|a IHa b IHb]; intros x y z H; cbn [ev inside_at] in *.
  - auto.
  - destruct H as [t [-> H]]. auto.
  - destruct H as [H1 H2]. apply HA; auto.
Qed.

Lemma ev_body_double : (forall x y z, in_dims dx dy dz x y z -> is_double (f x y z)) ->
  forall l x y z b, Forall (fun s => inside_at x y z (arg s)) l -> is_double b -> is_double (ev_body x y z b l).
Proof.
  intros Hf l x y z. induction l as [|s l IH]; intros b H Hb; unfold ev_body; cbn [fold_left]; auto.
  inversion H; subst. apply IH; auto.
  destruct s; cbn [ev_stmt arg] in *; [|apply HA; auto|apply HA; auto]; eapply ev_double; eauto.
Qed.

(** The old grid as the kernels see it. *)
Definition sees (m : mem) (d : ptr) (e : extent) : Prop :=
  forall x y z, in_dims dx dy dz x y z ->
    chk_bounds m (padd d (8 * gen_index e x y z)) 8 = None /\
    read m (padd d (8 * gen_index e x y z)) 8 = f x y z.

Lemma temp_ptr_eq : forall d e x y z X Y Z,
  temp_ptr d (at_coord (mkAcc e (gen_index e x y z) 0) (X, Y, Z)) =
  Some (padd d (8 * gen_index e (x + X) (y + Y) (z + Z))).
Proof.
  intros. unfold temp_ptr, member_addr, at_coord. cbn -[Z.mul Z.add DIM_PROD gen_index LFA_INDEX]. f_equal. f_equal.
  unfold LFA_INDEX, gen_index. ring.
Qed.

Lemma temp_ptr_here : forall d e x y z,
  temp_ptr d (mkAcc e (gen_index e x y z) 0) = Some (padd d (8 * gen_index e x y z)).
Proof. intros. unfold temp_ptr, member_addr. cbn -[Z.mul Z.add DIM_PROD gen_index]. f_equal. f_equal. ring. Qed.

Lemma dptr_row : forall d e x y z i,
  dptr (padd d (8 * gen_index e x y z)) i = padd d (8 * gen_index e (x + i) y z).
Proof. intros. unfold dptr, padd. cbn [pb po]. f_equal. rewrite <- gen_index_row. ring. Qed.

Lemma eval_ok : forall c m d e x y z ex, double_class c -> sees m d e ->
  (forall i, (i < c_arity c)%nat -> inside_at (x + Z.of_nat i) y z ex) ->
  exists v, eval A base c m d (mkAcc e (gen_index e x y z) 0) vars ex = Val v /\
            is_vec c v (fun i => ev (x + Z.of_nat i) y z ex).
Proof.
  intros c m d e x y z ex Hc Hs. pose proof Hc as [I K].
  induction ex as [X Y Z|s|a IHa b IHb]; intros Hi; cbn [eval ev inside_at] in *.
  - rewrite temp_ptr_eq. apply vec_from_ok; auto. intros i Hl. rewrite dptr_row.
    replace (x + X + Z.of_nat i) with (x + Z.of_nat i + X) by lia. apply Hs. apply Hi; auto.
  - destruct (arity_ok c I) as [_ Hn]. destruct (Hi 0%nat) as [t [Et Ht]]; [lia|]. rewrite Et.
    destruct (sv_broadcast c (without_qpx_all c I) elem A t) as [r [E [_ [V _]]]]. rewrite E.
    exists (r_val r). auto.
  - destruct IHa as [v [Ev Hv]]; [intros; apply Hi; auto|]. destruct IHb as [w [Ew Hw]]; [intros; apply Hi; auto|].
    rewrite Ev, Ew. cbn [rbind].
    destruct (sv_arith_lanewise MMul MMulEq BMul arith_mul c (without_qpx_all c I) elem A v w _ _ Hv Hw)
      as [r [u [E [R [V _]]]]].
    rewrite E, R. exists u. split; auto. rewrite K in V. exact V.
Qed.

Lemma stmt_ok : forall c m d e x y z b bx s, double_class c -> sees m d e -> is_vec c b bx ->
  (forall i, (i < c_arity c)%nat -> inside_at (x + Z.of_nat i) y z (arg s)) ->
  exists v, exec_stmt A base c m d (mkAcc e (gen_index e x y z) 0) vars b s = Val v /\
            is_vec c v (fun i => ev_stmt (x + Z.of_nat i) y z (bx i) s).
Proof.
  intros c m d e x y z b bx s Hc Hs Hb Hi. pose proof Hc as [I K].
  destruct (eval_ok c m d e x y z (arg s) Hc Hs Hi) as [w [Ew Hw]].
  destruct s as [ex|ex|ex]; cbn [exec_stmt arg ev_stmt] in *; rewrite Ew; cbn [rbind].
  - eauto.
  - unfold op_assign.
    destruct (sv_assign_lanewise MAdd MAddEq BAdd arith_add c (or_introl I) elem A b w _ _ Hb Hw) as [r [E [_ [V _]]]].
    rewrite E. exists (r_val r). split; auto. rewrite K in V. exact V.
  - unfold op_assign.
    destruct (sv_assign_lanewise MMul MMulEq BMul arith_mul c (or_introl I) elem A b w _ _ Hb Hw) as [r [E [_ [V _]]]].
    rewrite E. exists (r_val r). split; auto. rewrite K in V. exact V.
Qed.

Lemma body_ok : forall c m d e x y z l b bx, double_class c -> sees m d e -> is_vec c b bx ->
  (forall i, (i < c_arity c)%nat -> Forall (fun s => inside_at (x + Z.of_nat i) y z (arg s)) l) ->
  exists v, exec_body A base c m d (mkAcc e (gen_index e x y z) 0) vars b l = Val v /\
            is_vec c v (fun i => ev_body (x + Z.of_nat i) y z (bx i) l).
Proof.
  intros c m d e x y z l. induction l as [|s l IH]; intros b bx Hc Hs Hb Hi; cbn [exec_body].
  - eauto.
  - destruct (stmt_ok c m d e x y z b bx s Hc Hs Hb) as [v [Ev Hv]].
    { intros i Hl. specialize (Hi i Hl). inversion Hi; auto. }
    rewrite Ev. cbn [rbind]. apply IH; auto. intros i Hl. specialize (Hi i Hl). inversion Hi; auto.
Qed.

End Expr.

(** *** Grids *)
Lemma one_slot : slots cell_members = [mkSlot 0 8 false zero].
Proof. vm_compute. reflexivity. Qed.

Lemma wf_one : wf_members cell_members.
Proof. repeat constructor. Qed.

Lemma wf_one_cell : forall v, wf_cell cell_members [[v]] <-> is_double v.
Proof.
  intros v. unfold is_double. split; intros H.
  - inversion H as [|a b la lb H1 H2]; subst. destruct H1 as [_ H1]. inversion H1; subst. cbn [m_size] in *. lia.
  - repeat constructor. rewrite H. reflexivity.
Qed.

Lemma wf_cell_temp : forall c, wf_cell cell_members c -> c = [[temp c]] /\ is_double (temp c).
Proof.
  intros c H. assert (E : exists v, c = [[v]]).
  { unfold wf_cell in H. cbn in H. inversion H as [|a b la lb H1 H2]; subst. inversion H2; subst.
    destruct H1 as [H1 _]. cbn in H1. destruct b as [|v [|]]; try discriminate. eauto. }
  destruct E as [v ->]. split; [reflexivity|]. apply wf_one_cell in H. exact H.
Qed.

Section G.
Context (ct : celltype) (Hct : ct_ms ct = cell_members).

Lemma galloc_cell : forall m g e cells x y z, galloc ct m g e cells ->
  in_dims (g_x g) (g_y g) (g_z g) x y z -> wf_cell cell_members (cells x y z).
Proof.
  intros m g e cells x y z G H. pose proof (galloc_fits _ _ _ _ _ G) as F. destruct G.
  rewrite <- Hct. eapply rg_cell; [eassumption|]. apply ci_of_gen; eauto.
Qed.

Lemma slot_ptr : forall d P i, sptr d P (mkSlot 0 8 false zero) i = padd d (8 * i).
Proof. intros. unfold sptr, slot_addr, padd. cbn [s_off s_size]. f_equal. ring. Qed.

Lemma galloc_sees : forall m g e cells, galloc ct m g e cells ->
  sees (fun x y z => temp (cells x y z)) (g_x g) (g_y g) (g_z g) m (g_data g) e.
Proof.
  intros m g e cells G x y z H. pose proof (galloc_fits _ _ _ _ _ G) as F.
  pose proof (galloc_cell _ _ _ _ _ _ _ G H) as W. destruct G as [_ _ _ _ _ _ R]. rewrite Hct in R.
  pose proof (gen_index_range _ _ _ _ _ _ _ F H) as HI. split.
  - rewrite <- (slot_ptr (g_data g) (DIM_PROD e)).
    apply (region_bounds cell_members m (g_data g) (DIM_PROD e) _ (mkSlot 0 8 false zero) _ wf_one R); auto.
    rewrite one_slot. left; reflexivity.
  - rewrite <- (slot_ptr (g_data g) (DIM_PROD e)).
    apply (rg_val _ _ _ _ _ R (gen_index e x y z) (cells x y z) (mkSlot 0 8 false zero)).
    + apply ci_of_gen; auto.
    + rewrite one_slot. destruct (wf_cell_temp _ W) as [E _]. rewrite E. left. reflexivity.
Qed.

(** A set of cells P given the values V. *)
Definition stamp (P : Z -> Z -> Z -> bool) (V : Z -> Z -> Z -> elem) (cells : cellmap) : cellmap :=
  fun x y z => if P x y z then [[V x y z]] else cells x y z.

Definition seg (lo hi y z : Z) : Z -> Z -> Z -> bool :=
  fun x' y' z' => (y' =? y) && (z' =? z) && (lo <=? x') && (x' <? hi).

Lemma cupd_row : forall (V : Z -> Z -> Z -> elem) y z l cells x' y' z' x,
  cupd cells (map (fun i => (x + Z.of_nat i, y, z, [[V (x + Z.of_nat i) y z]])) l) x' y' z' =
  if (y' =? y) && (z' =? z) && existsb (fun i => x' =? x + Z.of_nat i) l then [[V x' y' z']] else cells x' y' z'.
Proof.
  intros V y z l. induction l as [|i l IH]; intros cells x' y' z' x; cbn [map cupd existsb].
  - rewrite andb_false_r. reflexivity.
  - rewrite IH. destruct ((x' =? x + Z.of_nat i) && (y' =? y) && (z' =? z)) eqn:E3.
    + assert (x' = x + Z.of_nat i /\ y' = y /\ z' = z) as [-> [-> ->]] by lia. rewrite !Z.eqb_refl. reflexivity.
    + destruct ((y' =? y) && (z' =? z)) eqn:E4; [|reflexivity].
      assert ((x' =? x + Z.of_nat i) = false) as -> by lia. reflexivity.
Qed.

Lemma row_assigns : forall d e (V : Z -> Z -> Z -> elem) x y z r,
  map (fun i => Assign (dptr (padd d (8 * gen_index e x y z)) (Z.of_nat i)) 8 false (V (x + Z.of_nat i) y z)) r =
  flat_map (fun e0 => map (fun '(sl, v) => Assign (sptr d (DIM_PROD e) sl (fst e0)) (s_size sl) (s_class sl) v)
                          (combine (slots cell_members) (concat (snd e0))))
    (map (fun i => (gen_index e (x + Z.of_nat i) y z, [[V (x + Z.of_nat i) y z]])) r).
Proof.
  intros d e V x y z r. rewrite one_slot.
  induction r as [|k r IH]; cbn [map flat_map concat app combine fst snd s_size s_class]; [reflexivity|].
  rewrite slot_ptr, dptr_row. f_equal. exact IH.
Qed.

Lemma store_ok : forall c m g e cells V b x y z,
  double_class c -> mem_ok m -> galloc ct m g e cells ->
  is_vec c b (fun i => V (x + Z.of_nat i) y z) ->
  (forall i, (i < c_arity c)%nat ->
     in_dims (g_x g) (g_y g) (g_z g) (x + Z.of_nat i) y z /\ is_double (V (x + Z.of_nat i) y z)) ->
  exists m', vec_to A base c m (padd (g_data g) (8 * gen_index e x y z)) b = Val m' /\
    same_other m m' (blk g) /\ galloc ct m' g e (stamp (seg x (x + n_of c) y z) V cells).
Proof.
  intros c m g e cells V b x y z Hc M G Hb Hi. rewrite (vec_to_ops c m _ b _ Hc Hb).
  pose proof (galloc_fits _ _ _ _ _ G) as F. destruct G as [X Y Zz C B S R].
  set (l := map (fun i => (gen_index e (x + Z.of_nat i) y z, [[V (x + Z.of_nat i) y z]])) (seq 0 (c_arity c))).
  destruct (region_assign (ct_ms ct) m (g_data g) (DIM_PROD e) (ci_of e (g_x g) (g_y g) (g_z g) cells) l) as [m' [E [SO R']]]; auto.
  { rewrite Hct. apply wf_one. }
  { unfold l. rewrite map_map. cbn [fst]. apply FinFun.Injective_map_NoDup; [|apply seq_NoDup].
    intros i j. unfold gen_index. lia. }
  { intros i c0 Hin. apply in_map_iff in Hin. destruct Hin as [k [E Hk]]. apply in_seq in Hk. inversion E; subst.
    destruct (Hi k) as [H1 H2]; [lia|]. split.
    - rewrite ci_of_gen by auto. discriminate.
    - rewrite Hct. apply wf_one_cell; auto. }
  exists m'. split; [|split; auto].
  - rewrite <- E. f_equal. unfold l. rewrite Hct. apply row_assigns.
  - constructor; auto. eapply region_ext; [|exact R']. intros i.
    rewrite <- (ci_of_ext e (g_x g) (g_y g) (g_z g)
       (cupd cells (map (fun i => (x + Z.of_nat i, y, z, [[V (x + Z.of_nat i) y z]])) (seq 0 (c_arity c))))).
    + rewrite <- ci_cupd; auto.
      * unfold l. rewrite !map_map. reflexivity.
      * intros x0 y0 z0 c0 Hin. apply in_map_iff in Hin. destruct Hin as [k [E' Hk]]. apply in_seq in Hk.
        inversion E'; subst. apply Hi. lia.
    + intros x' y' z' _. rewrite cupd_row. unfold stamp, seg.
      assert (Eb : existsb (fun i0 => x' =? x + Z.of_nat i0) (seq 0 (c_arity c)) = (x <=? x') && (x' <? x + n_of c)).
      { apply eq_true_iff_eq. rewrite existsb_exists. split.
        - intros [k [Hk E']]. apply in_seq in Hk. lia.
        - intros H. exists (Z.to_nat (x' - x)). split; [apply in_seq; lia|lia]. }
      rewrite Eb, andb_assoc. reflexivity.
Qed.

(** *** The loops *)
Section K.
Context (k : kernel) (m0 : mem) (go gn : grid) (e : extent) (S : cellmap) (dx dy dz : Z).
Hypothesis Hgo : g_x go = dx /\ g_y go = dy /\ g_z go = dz.
Hypothesis Hgn : g_x gn = dx /\ g_y gn = dy /\ g_z gn = dz.
Hypothesis Hsep : blk go <> blk gn.
Notation f := (fun x y z => temp (S x y z)).

(** The cells the kernel computes. *)
Definition target (x y z : Z) : Prop :=
  k_x k <= x < dx - k_xend k /\ k_yz k <= y < dy - k_yz k /\ k_yz k <= z < dz - k_yz k.

Hypothesis Hfirst : exists e0 r, k_body k = BufIs e0 :: r.
Hypothesis Hin : forall x y z, target x y z ->
  in_dims dx dy dz x y z /\ Forall (fun s => inside_at (k_vars k) dx dy dz x y z (arg s)) (k_body k).
Hypothesis Hx0 : 0 <= k_x k.

Definition V (x y z : Z) : elem := ev_body (k_vars k) f x y z zero (k_body k).

Definition Inv (m : mem) (cells : cellmap) : Prop :=
  mem_ok m /\ galloc ct m go e S /\ galloc ct m gn e cells /\ same_other m0 m (blk gn).

Lemma Inv_ext : forall m cells cells', (forall x y z, cells x y z = cells' x y z) -> Inv m cells -> Inv m cells'.
Proof.
  intros m cells cells' H [A1 [A2 [A3 A4]]]. split; [exact A1|]. split; [exact A2|]. split; [|exact A4].
  eapply galloc_ext; [|exact A3]. auto.
Qed.

Lemma V_any : forall x y z b, ev_body (k_vars k) f x y z b (k_body k) = V x y z.
Proof. intros x y z b. destruct Hfirst as [e0 [r E]]. unfold V. rewrite E. reflexivity. Qed.

Lemma S_double : forall m cells, Inv m cells -> forall x y z, in_dims dx dy dz x y z -> is_double (temp (S x y z)).
Proof.
  intros m cells [_ [G _]] x y z H. destruct Hgo as [Ex [Ey Ez]]. rewrite <- Ex, <- Ey, <- Ez in H.
  apply (wf_cell_temp _ (galloc_cell _ _ _ _ _ _ _ G H)).
Qed.

Lemma steps_ok : forall c j fuel m cells b bx x y z, double_class c ->
  Inv m cells -> is_vec c b bx -> (j <= fuel)%nat -> 0 <= x ->
  x + n_of c * Z.of_nat j < 2 ^ 64 ->
  (forall x', x <= x' < x + n_of c * Z.of_nat j -> target x' y z) ->
  exists m', steps A base fuel k c m (g_data go) (mkAcc e (gen_index e x y z) 0)
               (g_data gn) (mkAcc e (gen_index e x y z) 0) b x (x + n_of c * Z.of_nat j)
             = Val (m', x + n_of c * Z.of_nat j) /\
    Inv m' (stamp (seg x (x + n_of c * Z.of_nat j) y z) V cells).
Proof.
  intros c j. induction j as [|j IH]; intros fuel m cells b bx x y z Hc HI Hb Hf Hx He Ht.
  - replace (x + n_of c * Z.of_nat 0) with x by lia. exists m. split.
    + destruct fuel; cbn [steps]; destruct (Z.ltb_spec x x); try lia; reflexivity.
    + eapply Inv_ext; [|exact HI]. intros x' y' z'. unfold stamp, seg.
      destruct (_ && (x' <? x)) eqn:E; [lia|reflexivity].
  - pose proof Hc as [Ic K]. destruct (arity_ok c Ic) as [_ Hn].
    set (n := n_of c) in *. assert (Hend : x + n * Z.of_nat (Datatypes.S j) = x + n + n * Z.of_nat j) by lia.
    assert (Hnj : 0 <= n * Z.of_nat j) by lia.
    rewrite Hend in *. clear Hend.
    destruct fuel as [|fuel]; [lia|]. cbn [steps]. destruct (Z.ltb_spec x (x + n + n * Z.of_nat j)); [|lia].
    pose proof HI as [M [Go [Gn SO]]]. destruct Hgo as [Ex [Ey Ez]]. destruct Hgn as [Ex' [Ey' Ez']].
    destruct (body_ok (k_vars k) f dx dy dz c m (g_data go) e x y z (k_body k) b bx Hc) as [v [Ev Hv]]; auto.
    { rewrite <- Ex, <- Ey, <- Ez. apply galloc_sees; auto. }
    { intros i Hi. apply Hin. apply Ht. unfold n in *. nia. }
    rewrite Ev. cbn [rbind]. rewrite temp_ptr_here.
    assert (Hv' : is_vec c v (fun i => V (x + Z.of_nat i) y z)).
    { eapply is_vec_ext; [|exact Hv]. intros i _. apply V_any. }
    destruct (store_ok c m gn e cells V v x y z Hc M Gn Hv') as [m1 [E1 [SO1 G1]]].
    { intros i Hi. assert (Ht' : target (x + Z.of_nat i) y z) by (apply Ht; unfold n in *; nia).
      destruct (Hin _ _ _ Ht') as [D1 D2]. split; [rewrite Ex', Ey', Ez'; auto|].
      unfold V. apply ev_body_double with (dx := dx) (dy := dy) (dz := dz); auto.
      - intros; eapply S_double; eauto.
      - reflexivity. }
    rewrite E1. cbn [rbind]. fold n.
    assert (Es : sz (x + n) = x + n) by (unfold sz; apply Z.mod_small; lia). rewrite Es.
    unfold acc_add. cbn [a_ext a_index a_INDEX]. rewrite gen_index_row.
    assert (HI1 : Inv m1 (stamp (seg x (x + n) y z) V cells)).
    { assert (M1 : mem_ok m1) by (apply (gf_ok _ _ _ _ (same_other_frame _ _ _ M SO1))).
      split; [auto|]. split; [|split; auto].
      - eapply galloc_frame; [exact M|exact Go|apply same_other_frame; eauto|auto].
      - eapply same_other_trans; eauto. }
    destruct (IH fuel m1 _ v _ (x + n) y z Hc HI1 Hv') as [m2 [E2 HI2]]; try lia.
    { intros x' Hx'. apply Ht. lia. }
    exists m2. split; [exact E2|]. eapply Inv_ext; [|exact HI2]. intros x' y' z'. unfold stamp, seg.
    destruct ((y' =? y) && (z' =? z)) eqn:Eyz; [|reflexivity].
    destruct ((x + n <=? x') && (x' <? x + n + n * Z.of_nat j)) eqn:Ea;
    destruct ((x <=? x') && (x' <? x + n)) eqn:Eb; destruct ((x <=? x') && (x' <? x + n + n * Z.of_nat j)) eqn:Ed;
      cbn [andb] in *; rewrite ?Ea, ?Eb, ?Ed; try reflexivity; lia.
Qed.

Notation acc0 := (mkAcc e 0 0).

Lemma update_ok : forall c m cells x stop y z, double_class c ->
  Inv m cells -> 0 <= x <= stop -> stop < 2 ^ 64 -> (n_of c | stop - x) ->
  (forall x', x <= x' < stop -> target x' y z) ->
  exists m', update A base k c m (g_data go) acc0 (g_data gn) acc0 x stop y z = Val (m', stop) /\
    Inv m' (stamp (seg x stop y z) V cells).
Proof.
  intros c m cells x stop y z Hc HI Hx Hs [q Hq] Ht. unfold update. pose proof Hc as [Ic K].
  destruct (arity_ok c Ic) as [_ Hn].
  destruct (sv_broadcast c (without_qpx_all c Ic) elem A zero) as [r [E [_ [Hv _]]]]. rewrite E.
  unfold with_index. cbn [a_ext a_INDEX].
  assert (Hq0 : 0 <= q) by nia.
  assert (Est : stop = x + n_of c * Z.of_nat (Z.to_nat q)) by nia.
  destruct (steps_ok c (Z.to_nat q) (Z.to_nat (stop - x)) m cells (r_val r) (fun _ => zero) x y z Hc HI Hv) as [m' [E' HI']]; try nia.
  { intros x' Hx'. apply Ht. nia. }
  rewrite <- Est in *. eauto.
Qed.

Lemma row_ok : forall c m cells y z r, double_class c -> Inv m cells ->
  0 <= k_xend k -> k_x k < 2 ^ 31 -> dx < 2 ^ 31 ->
  is_round_up (n_of c) (k_x k) r -> r <= dx - k_xend k ->
  k_yz k <= y < dy - k_yz k -> k_yz k <= z < dz - k_yz k ->
  exists m', row A base k c m (g_data go) acc0 (g_data gn) acc0 dx y z = Val m' /\
    Inv m' (stamp (seg (k_x k) (dx - k_xend k) y z) V cells).
Proof.
  intros c m cells y z r Hc HI Hxe Hxk Hdx Hr Hle Hy Hz. pose proof Hc as [Ic K].
  destruct (arity_ok c Ic) as [_ Hn]. set (n := n_of c) in *.
  assert (HT : forall x', k_x k <= x' < dx - k_xend k -> target x' y z).
  { intros x' Hx'. unfold target. lia. }
  unfold row. fold n.
  assert (Hrx : k_x k <= r) by (destruct Hr; lia).
  assert (Es : sz (dx - k_xend k) = dx - k_xend k) by (unfold sz; apply Z.mod_small; lia). rewrite Es.
  rewrite (round_up_unique n (k_x k) _ r ltac:(lia) (round_up_next n (k_x k) ltac:(lia) ltac:(lia)) Hr).
  set (E := dx - k_xend k) in *.
  pose proof (Z.mod_pos_bound E n ltac:(lia)) as B. pose proof (Z.div_mod E n ltac:(lia)) as D.
  assert (Hl : r <= E - E mod n).
  { destruct Hr as [[q Hq] _]. assert (q <= E / n) by (apply Z.div_le_lower_bound; lia). nia. }
  destruct scalar_1_class as [Hc1 Hn1].
  assert (Hone : forall v, (n_of cls_scalar_double_1 | v)) by (intros v; rewrite Hn1; apply Z.divide_1_l).
  destruct (update_ok cls_scalar_double_1 m cells (k_x k) r y z Hc1 HI) as [m1 [E1 HI1]]; try lia; auto.
  { intros x' Hx'. apply HT. lia. }
  rewrite E1. cbn [rbind].
  destruct (update_ok c m1 _ r (E - E mod n) y z Hc HI1) as [m2 [E2 HI2]]; try lia; auto.
  { destruct Hr as [[q Hq] _]. exists (E / n - q). fold n. lia. }
  { intros x' Hx'. apply HT. lia. }
  rewrite E2. cbn [rbind].
  destruct (update_ok cls_scalar_double_1 m2 _ (E - E mod n) E y z Hc1 HI2) as [m3 [E3 HI3]]; try lia; auto.
  { intros x' Hx'. apply HT. lia. }
  rewrite E3. cbn [rbind]. exists m3. split; auto. eapply Inv_ext; [|exact HI3].
  intros x' y' z'. unfold stamp, seg.
  destruct ((y' =? y) && (z' =? z)) eqn:Eyz; [|reflexivity]. cbn [andb].
  destruct ((E - E mod n <=? x') && (x' <? E)) eqn:Ea; destruct ((r <=? x') && (x' <? E - E mod n)) eqn:Eb;
    destruct ((k_x k <=? x') && (x' <? r)) eqn:Ed; destruct ((k_x k <=? x') && (x' <? E)) eqn:Eg;
    try reflexivity; lia.
Qed.

Lemma foldR_ok : forall (B : Type) (step : mem -> B -> Mem.result mem) (P : B -> Z -> Z -> Z -> bool) (l : list B),
  (forall b m cells, In b l -> Inv m cells -> exists m', step m b = Val m' /\ Inv m' (stamp (P b) V cells)) ->
  forall m cells, Inv m cells ->
  exists m', foldR step l m = Val m' /\ Inv m' (stamp (fun x y z => existsb (fun b => P b x y z) l) V cells).
Proof.
  intros B step P l. induction l as [|b l IH]; intros Hs m cells HI; cbn [foldR existsb].
  - exists m. split; auto.
  - destruct (Hs b m cells (or_introl eq_refl) HI) as [m1 [E1 HI1]]. rewrite E1. cbn [rbind].
    destruct (IH (fun b' m cells Hb => Hs b' m cells (or_intror Hb)) m1 _ HI1) as [m2 [E2 HI2]].
    exists m2. split; auto. eapply Inv_ext; [|exact HI2]. intros x y z. unfold stamp.
    destruct (existsb (fun b0 => P b0 x y z) l); [rewrite orb_true_r; reflexivity|].
    rewrite orb_false_r. reflexivity.
Qed.


Lemma functor_ok : forall c order m cells, double_class c -> Inv m cells ->
  0 <= k_xend k -> 0 <= k_yz k -> k_x k < 2 ^ 31 -> dx < 2 ^ 31 -> k_yz k <= dy < 2 ^ 31 ->
  (exists r, is_round_up (n_of c) (k_x k) r /\ r <= dx - k_xend k) ->
  dz < 2 ^ 31 -> k_yz k < 2 ^ 31 -> 0 <= dz -> (forall l, Permutation (order l) l) ->
  exists m', functor A base k c order dx dy dz (g_data go) acc0 (g_data gn) acc0 m = Val m' /\
    Inv m' (stamp (fun x y z => (k_x k <=? x) && (x <? dx - k_xend k) && (k_yz k <=? y) && (y <? dy - k_yz k) &&
                                (k_yz k <=? z) && (z <? dz - k_yz k)) V cells).
Proof.
  intros c order m cells Hc HI H1 H2 H3 H4 H5 [r [Hr Hle]] H6 H7 H8 HP'. unfold functor.
  assert (HP : Permutation (order (z_range k dz)) (range (k_yz k) (dz - k_yz k))).
  { eapply Permutation_trans; [apply HP'|]. unfold z_range.
    assert (Ez : to_int (sz (dz - k_yz k)) = dz - k_yz k).
    { unfold to_int, sz. destruct (Z.leb_spec 0 (dz - k_yz k)).
      - rewrite (Z.mod_small (dz - k_yz k)) by lia. rewrite Z.mod_small by lia. lia.
      - replace ((dz - k_yz k) mod 2 ^ 64) with (dz - k_yz k + 2 ^ 64)
          by (rewrite <- (Z.mod_add _ 1) by lia; rewrite Z.mod_small by lia; lia).
        replace (dz - k_yz k + 2 ^ 64 + 2 ^ 31) with (dz - k_yz k + 2 ^ 31 + 2 ^ 32 * 2 ^ 32) by lia.
        rewrite Z.mod_add by lia. rewrite Z.mod_small by lia. lia. }
    rewrite Ez. apply Permutation_refl. }
  assert (Es : sz (dy - k_yz k) = dy - k_yz k) by (unfold sz; apply Z.mod_small; lia). rewrite Es.
  destruct (foldR_ok Z (fun m z => foldR (fun m y => row A base k c m (g_data go) acc0 (g_data gn) acc0 dx y z)
                              (range (k_yz k) (dy - k_yz k)) m)
     (fun z x' y' z' => existsb (fun y => seg (k_x k) (dx - k_xend k) y z x' y' z') (range (k_yz k) (dy - k_yz k)))
     (order (z_range k dz))) with (m := m) (cells := cells) as [m' [E HI']]; auto.
  - intros z m1 cells1 Hz HI1.
    assert (Hz' : k_yz k <= z < dz - k_yz k) by (apply in_range; eapply Permutation_in; eauto).
    apply (foldR_ok Z (fun m y => row A base k c m (g_data go) acc0 (g_data gn) acc0 dx y z)
             (fun y => seg (k_x k) (dx - k_xend k) y z)); auto.
    intros y m2 cells2 Hy HI2. apply in_range in Hy. eapply row_ok; eauto.
  - exists m'. split; auto. eapply Inv_ext; [|exact HI']. intros x' y' z'. unfold stamp.
    match goal with |- (if ?a then _ else _) = (if ?b then _ else _) => assert (Eab : a = b); [|rewrite Eab; reflexivity] end.
    apply eq_true_iff_eq. rewrite existsb_exists. split.
    + intros [z [Hz H]]. rewrite existsb_exists in H. destruct H as [y [Hy H]].
      assert (Hz' : k_yz k <= z < dz - k_yz k) by (apply in_range; eapply Permutation_in; eauto).
      apply in_range in Hy. unfold seg in H. lia.
    + intros H. exists z'. split.
      * eapply Permutation_in; [apply Permutation_sym; exact HP|]. apply in_range. lia.
      * rewrite existsb_exists. exists y'. split; [apply in_range; lia|]. unfold seg. lia.
Qed.

End K.
(** *** The two filters *)
Ltac margins := cbn [kernel_of jacobi gauss k_x k_xend k_yz k_vars k_body] in *.

Lemma filter_first : forall fl, exists e0 r, k_body (kernel_of fl) = BufIs e0 :: r.
Proof. intros [a|w]; margins; eauto. Qed.

Lemma filter_in : forall fl dx dy dz x y z, filter_ok fl -> 0 <= dx -> 0 <= dy -> 0 <= dz ->
  target (kernel_of fl) dx dy dz x y z ->
  in_dims dx dy dz x y z /\
  Forall (fun s => inside_at (k_vars (kernel_of fl)) dx dy dz x y z (arg s)) (k_body (kernel_of fl)).
Proof.
  intros fl dx dy dz x y z Ho Hdx Hdy Hdz T. unfold target in T. unfold in_dims.
  destruct fl as [a|w]; margins; cbn [filter_ok] in Ho.
  - split; [lia|].
    repeat (apply Forall_cons || apply Forall_nil); cbn [arg inside_at]; unfold in_dims; try lia.
    exists a. auto.
  - destruct Ho as [_ Ho]. split; [lia|].
    repeat (apply Forall_cons || apply Forall_nil); cbn [arg inside_at]; unfold in_dims;
      (split; [lia|]); (eexists; split; [reflexivity|apply Ho]).
Qed.

Lemma filter_value : forall fl S x y z, filter_ok fl ->
  V (kernel_of fl) S x y z = filter_at A fl (fun x y z => temp (S x y z)) x y z.
Proof.
  intros fl S x y z Ho. destruct fl as [a|w]; unfold V, ev_body; margins; cbn [filter_at filter_ok] in *.
  - cbn [fold_left ev_stmt ev lookup String.eqb Ascii.eqb Bool.eqb]. unfold jacobi_at. rewrite !Z.add_0_r. reflexivity.
  - destruct Ho as [Hs _].
    assert (W : w 0 1 = w 1 0 /\ w 0 2 = w 2 0 /\ w 0 3 = w 1 0 /\ w 0 4 = w 0 0 /\
                w 1 2 = w 2 1 /\ w 1 3 = w 1 1 /\ w 1 4 = w 1 0 /\ w 2 3 = w 2 1 /\ w 2 4 = w 2 0 /\
                w 3 0 = w 1 0 /\ w 3 1 = w 1 1 /\ w 3 2 = w 2 1 /\ w 3 3 = w 1 1 /\ w 3 4 = w 1 0 /\
                w 4 0 = w 0 0 /\ w 4 1 = w 1 0 /\ w 4 2 = w 2 0 /\ w 4 3 = w 1 0 /\ w 4 4 = w 0 0).
    { pose proof (fun i j Hi Hj => proj1 (Hs i j Hi Hj)) as T. pose proof (fun i j Hi Hj => proj2 (Hs i j Hi Hj)) as M.
      pose proof (T 0 1 ltac:(lia) ltac:(lia)). pose proof (T 0 2 ltac:(lia) ltac:(lia)).
      pose proof (T 0 3 ltac:(lia) ltac:(lia)). pose proof (T 0 4 ltac:(lia) ltac:(lia)).
      pose proof (T 1 2 ltac:(lia) ltac:(lia)). pose proof (T 1 3 ltac:(lia) ltac:(lia)).
      pose proof (T 1 4 ltac:(lia) ltac:(lia)). pose proof (T 2 3 ltac:(lia) ltac:(lia)).
      pose proof (T 2 4 ltac:(lia) ltac:(lia)). pose proof (T 3 4 ltac:(lia) ltac:(lia)).
      pose proof (M 0 0 ltac:(lia) ltac:(lia)). pose proof (M 0 1 ltac:(lia) ltac:(lia)).
      pose proof (M 0 2 ltac:(lia) ltac:(lia)). pose proof (M 0 3 ltac:(lia) ltac:(lia)).
      pose proof (M 0 4 ltac:(lia) ltac:(lia)). pose proof (M 1 0 ltac:(lia) ltac:(lia)).
      pose proof (M 1 1 ltac:(lia) ltac:(lia)). pose proof (M 1 2 ltac:(lia) ltac:(lia)).
      pose proof (M 1 3 ltac:(lia) ltac:(lia)). pose proof (M 1 4 ltac:(lia) ltac:(lia)).
      change (4 - 0) with 4 in *. change (4 - 1) with 3 in *. repeat split; congruence. }
    cbn [fold_left ev_stmt ev lookup String.eqb Ascii.eqb Bool.eqb].
    unfold gauss_at, sum1. cbn [flat_map map app fold_left]. rewrite !Z.add_0_r.
    change (2 + -2) with 0. change (2 + -1) with 1. change (2 + 1) with 3. change (2 + 2) with 4.
    destruct W as (W1 & W2 & W3 & W4 & W5 & W6 & W7 & W8 & W9 & W10 & W11 & W12 & W13 & W14 & W15 & W16 & W17 & W18 & W19).
    rewrite W1, W2, W3, W4, W5, W6, W7, W8, W9, W10, W11, W12, W13, W14, W15, W16, W17, W18, W19. reflexivity.
Qed.

(** *** Histories *)
Lemma sweep_sim : forall W0 (A0 : aworld) fl c order old new S D,
  wf_ct ct -> winv ct W0 A0 ->
  old <> new -> A0 old = Some S -> A0 new = Some D ->
  ag_fresh S = false -> ag_fresh D = false ->
  (ag_x S, ag_y S, ag_z S) = (ag_x D, ag_y D, ag_z D) ->
  ag_x S < 2 ^ 31 -> yz_margin fl <= ag_y S < 2 ^ 31 -> ag_z S < 2 ^ 31 ->
  filter_ok fl -> double_class c ->
  wide_enough fl (n_of c) (ag_x S) ->
  (forall l, Permutation (order l) l) ->
  exists W', xstep A base ct W0 (XSweep fl c order old new) = Val (W', BUnit) /\
    winv ct W' (fset A0 new (Some (filtered A fl S D))).
Proof.
  intros W0 A0 fl c order old new S D Hwf HW Hne HS HD FS FD Hdim Hx Hy Hz Ho Hc Hw Hp.
  destruct (winv_grid _ _ _ _ _ HW HS) as [go [Ego Rgo]]. destruct (winv_grid _ _ _ _ _ HW HD) as [gn [Egn Rgn]].
  destruct (grep_alloc _ _ _ _ Rgo FS) as [e Go]. destruct (grep_alloc _ _ _ _ Rgn FD) as [e' Gn].
  destruct Rgo as [Xo [Yo [Zo _]]]. destruct Rgn as [Xn [Yn [Zn _]]]. inversion Hdim as [[D1 D2 D3]].
  assert (Hchoose : choose (ct_sizes ct) (g_x gn) (g_y gn) (g_z gn) = choose (ct_sizes ct) (g_x go) (g_y go) (g_z go)) by congruence.
  assert (e' = e) by (pose proof (ga_choose _ _ _ _ _ Gn); pose proof (ga_choose _ _ _ _ _ Go); congruence). subst e'.
  assert (Hsep : blk go <> blk gn).
  { destruct (wi_sep _ _ _ HW old new go gn Hne Ego Egn) as [H|H]; auto. destruct Go; congruence. }
  pose proof (wi_ok _ _ _ HW) as M.
  cbn [xstep]. rewrite Ego, Egn.
  assert (Hrun : exists m', functor A base (kernel_of fl) c order (g_x go) (g_y go) (g_z go) (g_data go) (mkAcc e 0 0)
                              (g_data gn) (mkAcc e 0 0) (w_mem W0) = Val m' /\
                 Inv (w_mem W0) go gn e (ag_cells S) m'
                   (stamp (interior fl (ag_x S) (ag_y S) (ag_z S)) (V (kernel_of fl) (ag_cells S)) (ag_cells D))).
  { rewrite Xo, Yo, Zo.
    pose proof (ga_x _ _ _ _ _ Go). pose proof (ga_y _ _ _ _ _ Go). pose proof (ga_z _ _ _ _ _ Go).
    destruct (functor_ok (kernel_of fl) (w_mem W0) go gn e (ag_cells S) (ag_x S) (ag_y S) (ag_z S))
      with (c := c) (order := order) (m := w_mem W0) (cells := ag_cells D) as [m' [E I]]; auto.
    - repeat split; congruence.
    - apply filter_first.
    - intros x y z T. apply filter_in; auto; lia.
    - destruct fl; margins; lia.
    - split; [auto|]. split; [auto|]. split; [auto|apply same_other_refl].
    - destruct fl; margins; lia.
    - destruct fl; margins; lia.
    - destruct fl; margins; lia.
    - destruct fl; margins; cbn [yz_margin] in *; lia.
    - destruct fl; exact Hw.
    - destruct fl; margins; lia.
    - lia.
    - exists m'. split; auto. eapply Inv_ext; [|exact I]. intros x y z. unfold stamp, interior. destruct fl; reflexivity. }
  destruct Hrun as [m' [E [M' [_ [G' SO]]]]].
  assert (Hres : sweep A base (kernel_of fl) c order ct (w_mem W0, go) gn = Ret (m', go) tt).
  { unfold sweep, dual_callback. destruct (ct_asym ct).
    - rewrite (callback_ok _ _ _ _ _ _ e) by (destruct Go; auto). rewrite (callback_ok _ _ _ _ _ _ e) by (destruct Gn; auto).
      rewrite E. reflexivity.
    - assert (negb (g_x go =? g_x gn) || negb (g_y go =? g_y gn) || negb (g_z go =? g_z gn) = false) as -> by lia.
      rewrite (callback_ok _ _ _ _ _ _ e) by (destruct Go; auto). cbn [a_ext]. rewrite E. reflexivity. }
  rewrite Hres. eexists. split; [reflexivity|].
  assert (HW' : winv ct (mkW m' (fset (w_grids W0) new (Some gn))) (fset A0 new (Some (filtered A fl S D)))).
  { apply winv_update with (W := W0); auto.
    - rewrite Egn. cbn [oblk]. apply same_other_frame; auto.
    - split; [exact Xn|]. split; [exact Yn|]. split; [exact Zn|]. cbn [filtered ag_fresh ag_cells]. rewrite FD.
      exists e. eapply galloc_ext; [|exact G']. intros x y z _. unfold stamp.
      destruct (interior fl (ag_x S) (ag_y S) (ag_z S) x y z); auto. rewrite filter_value by auto. reflexivity. }
  destruct HW' as [I1 I2 I3 I4]. cbn [w_mem w_grids] in *.
  constructor; cbn [w_mem w_grids]; auto.
  - intros id. specialize (I2 id). rewrite fset_id in I2 by auto. exact I2.
  - intros i j ga gb Hij Hi Hj. apply (I3 i j); auto; rewrite fset_id; auto.
  - intros b n Hb. destruct (I4 b n Hb) as [i [g [Hi Hg]]]. rewrite fset_id in Hi by auto. eauto.
Qed.

Lemma xrun_sim : forall ops W0 A0 A1 bs,
  wf_ct ct -> winv ct W0 A0 -> axrun A ct A0 ops A1 bs ->
  exists W1, xrun A base ct W0 ops = Val (W1, bs) /\ winv ct W1 A1.
Proof.
  intros ops. induction ops as [|op ops IH]; intros W0 A0 A1 bs Hwf I H; inversion H as [|? ? ? ? ? ? ? H1 H2]; subst; cbn [xrun].
  - eauto.
  - inversion H1 as [o A' b' Hs|fl c order old new S D]; subst.
    + destruct (step_sim _ _ _ _ _ _ Hwf I Hs) as [Wa [E1 I1]]. cbn [xstep]. rewrite E1.
      destruct (IH _ _ _ _ Hwf I1 H2) as [W2 [E2 I2]]. rewrite E2. eauto.
    + destruct (sweep_sim W0 A0 fl c order old new S D) as [Wa [E1 I1]]; auto. rewrite E1.
      destruct (IH _ _ _ _ Hwf I1 H2) as [W2 [E2 I2]]. rewrite E2. eauto.
Qed.

End G.
End M.

(** ** The C99 programs *)
Lemma fold_pt : forall (T B : Type) (step : (Z -> T) -> B -> (Z -> T)) (P : B -> bool) (v : T) i l a,
  (forall a b, In b l -> step a b i = if P b then v else a i) ->
  fold_left step l a i = if existsb P l then v else a i.
Proof.
  intros T B step P v i l. induction l as [|b l IH]; intros a H; cbn [fold_left existsb]; [reflexivity|].
  rewrite IH by (intros; apply H; right; auto). rewrite H by (left; auto).
  destruct (existsb P l); [rewrite orb_true_r; reflexivity|]. rewrite orb_false_r. reflexivity.
Qed.

Lemma at3_inj : forall dx dy x y z x' y' z',
  0 <= x < dx -> 0 <= y < dy -> 0 <= x' < dx -> 0 <= y' < dy ->
  at3 dx dy x y z = at3 dx dy x' y' z' -> x = x' /\ y = y' /\ z = z'.
Proof.
  intros dx dy x y z x' y' z' Hx Hy Hx' Hy' H. unfold at3 in H.
  assert (E : forall x y z, z * (dy * dx) + y * dx + x = dx * (dy * z + y) + x) by (intros; ring).
  rewrite !E in H.
  apply Z.div_mod_unique in H; [|lia|lia]. destruct H as [H ->].
  apply Z.div_mod_unique in H; [|lia|lia]. tauto.
Qed.

Lemma loops_at : forall (T : Type) zs ys xs dx dy (value : Z -> Z -> Z -> T) new x y z,
  (forall v, In v xs -> 0 <= v < dx) -> (forall v, In v ys -> 0 <= v < dy) ->
  0 <= x < dx -> 0 <= y < dy ->
  loops zs ys xs dx dy value new (at3 dx dy x y z) =
  if existsb (Z.eqb z) zs && existsb (Z.eqb y) ys && existsb (Z.eqb x) xs then value x y z else new (at3 dx dy x y z).
Proof.
  intros T zs ys xs dx dy value new x y z Hxs Hys Hx Hy. unfold loops.
  rewrite (fold_pt T Z _ (fun z' => (z =? z') && existsb (Z.eqb y) ys && existsb (Z.eqb x) xs) (value x y z)).
  - match goal with |- (if ?a then _ else _) = (if ?b then _ else _) => assert (E : a = b); [|rewrite E; reflexivity] end.
    induction zs as [|z' zs IH]; cbn [existsb]; [reflexivity|]. rewrite IH.
    destruct (z =? z'), (existsb (Z.eqb y) ys), (existsb (Z.eqb x) xs), (existsb (Z.eqb z) zs); reflexivity.
  - intros a z' _.
    rewrite (fold_pt T Z _ (fun y' => (z =? z') && (y =? y') && existsb (Z.eqb x) xs) (value x y z)).
    + match goal with |- (if ?a then _ else _) = (if ?b then _ else _) => assert (E : a = b); [|rewrite E; reflexivity] end.
      clear Hys. induction ys as [|y' ys IH]; cbn [existsb]; [rewrite andb_false_r; reflexivity|]. rewrite IH.
      destruct (z =? z'), (y =? y'), (existsb (Z.eqb y) ys), (existsb (Z.eqb x) xs); reflexivity.
    + intros a' y' Hy'.
      rewrite (fold_pt T Z _ (fun x' => (z =? z') && (y =? y') && (x =? x')) (value x y z)).
      * match goal with |- (if ?a then _ else _) = (if ?b then _ else _) => assert (E : a = b); [|rewrite E; reflexivity] end.
        clear Hxs. induction xs as [|x' xs IH]; cbn [existsb]; [rewrite andb_false_r; reflexivity|]. rewrite IH.
        destruct (z =? z'), (y =? y'), (x =? x'), (existsb (Z.eqb x) xs); reflexivity.
      * intros a'' x' Hx'. unfold write_at.
        destruct (Z.eqb_spec (at3 dx dy x y z) (at3 dx dy x' y' z')) as [E|E].
        -- destruct (at3_inj dx dy x y z x' y' z') as [-> [-> ->]]; auto. rewrite !Z.eqb_refl. reflexivity.
        -- destruct ((z =? z') && (y =? y') && (x =? x')) eqn:Eb; auto. exfalso. apply E. f_equal; lia.
Qed.

Lemma existsb_range : forall v lo hi, existsb (Z.eqb v) (range lo hi) = (lo <=? v) && (v <? hi).
Proof.
  intros. apply eq_true_iff_eq. rewrite existsb_exists. split.
  - intros [w [Hw E]]. apply in_range in Hw. lia.
  - intros H. exists v. split; [apply in_range; lia|apply Z.eqb_refl].
Qed.

Lemma c99_at : forall A fl new old dx dy dz x y z, filter_ok fl ->
  in_dims dx dy dz x y z ->
  c99 A fl new old dx dy dz (at3 dx dy x y z) =
  if interior fl dx dy dz x y z
  then filter_at A fl (fun x y z => old (at3 dx dy x y z)) x y z
  else new (at3 dx dy x y z).
Proof.
  intros A fl new old dx dy dz x y z Ho [Hx [Hy Hz]].
  destruct fl as [a|w]; cbn [c99 filter_at]; [unfold update_c99|unfold filter_c99];
    (rewrite loops_at; [|intros v Hv; apply in_range in Hv; lia|intros v Hv; apply in_range in Hv; lia|lia|lia]);
    rewrite !existsb_range; unfold interior; cbn [x_margin yz_margin].
  - match goal with |- (if ?a then _ else _) = (if ?b then _ else _) => assert (E : a = b); [lia|rewrite E] end.
    reflexivity.
  - match goal with |- (if ?a then _ else _) = (if ?b then _ else _) => assert (E : a = b); [lia|rewrite E] end.
    clear E. match goal with |- (if ?a then _ else _) = _ => destruct a; [|reflexivity] end.
    pose proof (filter_value A (Gauss w) (fun x y z => [[old (at3 dx dy x y z)]]) x y z Ho) as Ev.
    cbn [filter_at] in Ev. unfold temp in Ev. cbn [concat app hd] in Ev. rewrite <- Ev.
    unfold V, ev_body. cbn [kernel_of gauss k_vars k_body fold_left ev_stmt ev lookup String.eqb Ascii.eqb Bool.eqb concat app hd].
    unfold temp. cbn [concat app hd]. rewrite !Z.add_0_r. reflexivity.
Qed.

Lemma filter_local : forall A fl dx dy dz f g x y z,
  (forall x y z, in_dims dx dy dz x y z -> f x y z = g x y z) -> 0 <= dx -> 0 <= dy -> 0 <= dz ->
  interior fl dx dy dz x y z = true -> filter_at A fl f x y z = filter_at A fl g x y z.
Proof.
  intros A fl dx dy dz f g x y z H Hx Hy Hz Hi. unfold in_dims in H.
  destruct fl as [a|w]; unfold interior in Hi; cbn [filter_at x_margin yz_margin] in *.
  - unfold jacobi_at. repeat (rewrite H by lia). reflexivity.
  - unfold gauss_at, sum1. cbn [flat_map map app fold_left]. repeat (rewrite H by lia). reflexivity.
Qed.

Lemma at3_eq : forall dx dy x y z, (z * dy + y) * dx + x = at3 dx dy x y z.
Proof. intros. unfold at3. ring. Qed.

Lemma axrun_app : forall A ct ops1 W W1 bs1 ops2 W2 bs2,
  axrun A ct W ops1 W1 bs1 -> axrun A ct W1 ops2 W2 bs2 -> axrun A ct W (ops1 ++ ops2) W2 (bs1 ++ bs2).
Proof.
  intros A ct ops1. induction ops1 as [|op ops1 IH]; intros W W1 bs1 ops2 W2 bs2 H1 H2; inversion H1; subst; cbn [app].
  - exact H2.
  - econstructor; eauto.
Qed.

(** Two grids ready for sweeps. *)
Record ready (f : filter) (c : cls) (order : list Z -> list Z) (W : aworld) (old new : nat) (S D : agrid) : Prop := {
  rd_ne : old <> new; rd_old : W old = Some S; rd_new : W new = Some D;
  rd_fs : ag_fresh S = false; rd_fd : ag_fresh D = false;
  rd_dim : (ag_x S, ag_y S, ag_z S) = (ag_x D, ag_y D, ag_z D);
  rd_x : 0 <= ag_x S < 2 ^ 31; rd_y : yz_margin f <= ag_y S < 2 ^ 31; rd_z : 0 <= ag_z S < 2 ^ 31;
  rd_ok : filter_ok f; rd_c : double_class c; rd_wide : wide_enough f (Z.of_nat (c_arity c)) (ag_x S);
  rd_ord : forall l, Permutation (order l) l }.

Lemma holds_filtered : forall A f S D a b, filter_ok f ->
  (ag_x S, ag_y S, ag_z S) = (ag_x D, ag_y D, ag_z D) -> 0 <= ag_x S -> 0 <= ag_y S -> 0 <= ag_z S ->
  holds_grid a S -> holds_grid b D ->
  holds_grid (c99 A f b a (ag_x S) (ag_y S) (ag_z S)) (filtered A f S D).
Proof.
  intros A f S D a b Ho Hd Hx Hy Hz Ha Hb. inversion Hd as [[E1 E2 E3]].
  intros x y z [I1 [I2 I3]]. cbn [filtered ag_x ag_y ag_z ag_cells] in *.
  rewrite at3_eq, <- E1, <- E2. rewrite c99_at; auto; [|unfold in_dims; lia].
  destruct (interior f (ag_x S) (ag_y S) (ag_z S) x y z) eqn:Ei.
  - f_equal. f_equal. eapply filter_local; try exact Ei; auto.
    intros x' y' z' H. rewrite Ha by exact H. rewrite at3_eq. reflexivity.
  - rewrite Hb; [|unfold in_box; lia]. rewrite at3_eq, E1, E2. reflexivity.
Qed.

Lemma lfa_steps_ok : forall A ct f c order n W old new S D a b,
  ready f c order W old new S D -> holds_grid a S -> holds_grid b D ->
  exists W' S', axrun A ct W (lfa_steps f c order n old new) W' (repeat BUnit (2 * n)) /\
    W' old = Some S' /\ (ag_x S', ag_y S', ag_z S') = (ag_x S, ag_y S, ag_z S) /\
    holds_grid (fst (c99_steps A f n (ag_x S) (ag_y S) (ag_z S) a b)) S'.
Proof.
  intros A ct f c order n. induction n as [|n IH]; intros W old new S D a b R Ha Hb.
  - exists W, S. split; [constructor|]. split; [apply R|]. split; [reflexivity|exact Ha].
  - pose proof R as [R1 R2 R3 R4 R5 R6 R7 R8 R9 R10 R11 R12 R13]. inversion R6 as [[E1 E2 E3]].
    set (D' := filtered A f S D).
    assert (Hy0 : 0 <= ag_y S) by (destruct f; cbn [yz_margin] in *; lia).
    assert (Hn : holds_grid (c99 A f b a (ag_x S) (ag_y S) (ag_z S)) D') by (apply holds_filtered; auto; lia).
    set (W1 := fset W new (Some D')). set (W2 := fset (fset W1 old (Some D')) new (Some S)).
    assert (H1 : axstep A ct W (XSweep f c order old new) W1 BUnit) by (constructor; auto; lia).
    assert (H2 : axstep A ct W1 (XGrid (OSwap old new)) W2 BUnit).
    { constructor. apply (a_swap ct W1 old new S D').
      - auto.
      - unfold W1. rewrite fset_other; auto.
      - unfold W1. rewrite fset_same; auto.
      - exact E2.
      - exact E3. }
    assert (R' : ready f c order W2 old new D' S).
    { assert (W2 old = Some D') by (unfold W2; rewrite fset_other, fset_same; auto).
      assert (W2 new = Some S) by (unfold W2; apply fset_same).
      constructor; auto; cbn [D' filtered ag_x ag_y ag_z ag_fresh]; try lia; try congruence. }
    destruct (IH W2 old new D' S _ _ R' Hn Ha) as [W' [S' [X [X1 [X2 X3]]]]].
    exists W', S'. split.
    + replace (2 * Datatypes.S n)%nat with (2 + 2 * n)%nat by lia. cbn [lfa_steps repeat concat app plus].
      econstructor; [exact H1|]. econstructor; [exact H2|]. exact X.
    + split; [exact X1|]. split.
      * rewrite X2. cbn [D' filtered ag_x ag_y ag_z]. congruence.
      * cbn [c99_steps]. cbn [D' filtered ag_x ag_y ag_z] in X3. rewrite <- E1, <- E2, <- E3 in X3. exact X3.
Qed.

Lemma divides_wide : forall f c c' dx, double_class c -> double_class c' -> (exists q, c_arity c = q * c_arity c')%nat ->
  wide_enough f (n_of c) dx -> wide_enough f (n_of c') dx.
Proof.
  intros f c c' dx [I _] [I' _] [q Hq] [r [[[k Hk] Hr] Hle]].
  destruct (arity_ok c I) as [_ N]. destruct (arity_ok c' I') as [_ N'].
  assert (Hx : 0 <= x_margin f < 2 ^ 31) by (destruct f; cbn; lia).
  pose proof (round_up_next (n_of c') (x_margin f) N' Hx) as Hn.
  set (r' := if x_margin f mod n_of c' =? 0 then x_margin f else sz (x_margin f + n_of c' - x_margin f mod n_of c')) in *.
  exists r'. split; auto. destruct Hn as [[k' Hk'] Hr'].
  assert (Hd : r = k * Z.of_nat q * n_of c') by nia.
  assert (k' <= k * Z.of_nat q) by nia. nia.
Qed.

Lemma adapted_run : forall A ct ops1 ops2, Forall2 adapted ops1 ops2 ->
  forall W W' bs, axrun A ct W ops1 W' bs -> axrun A ct W ops2 W' bs.
Proof.
  intros A ct ops1 ops2 H. induction H as [|o1 o2 l1 l2 Ha Hl IH]; intros W W' bs R; [exact R|].
  inversion R as [|? ? Wa b ? ? bs' H1 H2]; subst. econstructor; [|apply IH; exact H2].
  inversion Ha as [o|f c order c' order' old new C' Q P]; subst; auto.
  inversion H1; subst. constructor; auto. eapply divides_wide; eauto.
Qed.
