(** Statements C28-C33: soa_array. *)
From Coq Require Import ZArith List Lia Bool Init.Byte.
From Verif Require Import Base Layout LayoutProofs Sizes Mem MemProofs Accessor AccessorProofs
  RegionProofs Grid GridProofs GridInv BufferProofs GridView Array SpecArray ArrayProofs.
Import ListNotations.
Open Scope Z_scope.

(** States a program can be in that used arrays within their contract. *)
Definition reachable (ms : list member) (W : vworld) : Prop :=
  exists ops obs, legal ms no_arrays ops /\ vrun ms vstart ops = Val (W, obs).

(** What the loop [for (it = a.begin(); it != a.end(); ++it)] sees; nothing changes. *)
Definition contents (ms : list member) (W : vworld) (id : nat) (l : list cell) : Prop :=
  exists W', vrun ms W [VIter id; VSize id] = Val (W', [VCells l; VNum (len l)]).
Definition has_cap (ms : list member) (W : vworld) (id : nat) (cap : Z) : Prop :=
  exists W', vrun ms W [VCap id] = Val (W', [VNum cap]).
Definition unused (W : vworld) (id : nat) : Prop := vw_arrs W id = None.
(** All arrays but [id] are what they were. *)
Definition rest_same (ms : list member) (W W' : vworld) (id : nat) : Prop :=
  forall e, e <> id ->
    (unused W e <-> unused W' e) /\ (forall l, contents ms W e l <-> contents ms W' e l) /\
    (forall c, has_cap ms W e c <-> has_cap ms W' e c).

(** *** Connection to the invariant *)
Lemma reach_inv : forall ms W, wf_members ms -> wf_defaults ms -> reachable ms W -> exists A, vinv ms W A.
Proof.
  intros ms W Hw Hd [ops [obs [L E]]]. destruct (vinv_start ms) as [I _].
  destruct (vrun_ok ms ops vstart no_arrays Hw Hd I L) as [W' [A' [obs' [E' [_ I']]]]].
  rewrite E in E'. inversion E'; subst. eauto.
Qed.

Lemma contents_iff : forall ms W A id l, wf_members ms -> wf_defaults ms -> vinv ms W A ->
  (contents ms W id l <-> exists b, A id = Some b /\ bs_l b = l).
Proof.
  intros ms W A id l Hw Hd I. split.
  - intros [W' H]. destruct (A id) as [b|] eqn:E.
    + destruct (vrun_ok ms [VIter id; VSize id] W A Hw Hd I) as [W2 [A2 [obs [E2 [R _]]]]].
      { cbn [legal vpre]. split; [congruence|]. intros A' ob S. inversion S; subst. split; auto. congruence. }
      rewrite H in E2. inversion E2; subst. inversion R as [|? ? ? ? ? ? S R']; subst. inversion S; subst.
      exists b. split; auto. congruence.
    + exfalso. cbn [vrun vstep] in H. unfold on_arr in H. rewrite (vinv_none _ _ _ _ I E) in H. discriminate.
  - intros [b [E <-]]. destruct (vrun_ok ms [VIter id; VSize id] W A Hw Hd I) as [W2 [A2 [obs [E2 [R _]]]]].
    { cbn [legal vpre]. split; [congruence|]. intros A' ob S. inversion S; subst. split; auto. congruence. }
    exists W2. rewrite E2. inversion R as [|? ? ? ? ? ? S R']; subst. inversion R' as [|? ? ? ? ? ? S' R'']; subst.
    inversion R''; subst. inversion S; subst. inversion S'; subst. repeat f_equal; congruence.
Qed.

Lemma has_cap_iff : forall ms W A id c, wf_members ms -> wf_defaults ms -> vinv ms W A ->
  (has_cap ms W id c <-> exists b, A id = Some b /\ bs_cap b = c).
Proof.
  intros ms W A id c Hw Hd I. unfold has_cap. cbn [vrun vstep]. unfold on_arr. pose proof (vi_rep _ _ _ I id) as R.
  destruct (vw_arrs W id) as [a|], (A id) as [b|] eqn:E; try contradiction.
  - cbn [snd]. rewrite (ap_cap _ _ _ _ R). split.
    + intros [W' H]. inversion H; subst. eauto.
    + intros [b' [H1 H2]]. inversion H1; subst. eauto.
  - split; [intros [? ?]; discriminate|intros [? [? ?]]; discriminate].
Qed.

Lemma unused_iff : forall ms W A id, vinv ms W A -> (unused W id <-> A id = None).
Proof.
  intros ms W A id I. unfold unused. pose proof (vi_rep _ _ _ I id) as R.
  destruct (vw_arrs W id), (A id); try contradiction; split; auto; discriminate.
Qed.

Lemma rest_same_of : forall ms W A W' A' id, wf_members ms -> wf_defaults ms -> vinv ms W A -> vinv ms W' A' ->
  (forall e, e <> id -> A e = A' e) -> rest_same ms W W' id.
Proof.
  intros ms W A W' A' id Hw Hd I I' H e He. specialize (H e He).
  rewrite (unused_iff _ _ _ _ I), (unused_iff _ _ _ _ I'), H. split; [tauto|]. split.
  - intros l. rewrite (contents_iff _ _ _ _ _ Hw Hd I), (contents_iff _ _ _ _ _ Hw Hd I'), H. tauto.
  - intros l. rewrite (has_cap_iff _ _ _ _ _ Hw Hd I), (has_cap_iff _ _ _ _ _ Hw Hd I'), H. tauto.
Qed.

Lemma vrun1 : forall ms W op W' ob, vstep ms W op = Val (W', ob) -> vrun ms W [op] = Val (W', [ob]).
Proof. intros. cbn [vrun]. rewrite H. reflexivity. Qed.

Lemma arun_app_legal : forall ms ops A A' obs r, arun A ops A' obs -> legal ms A (ops ++ r) -> legal ms A' r.
Proof.
  intros ms ops A A' obs r H. induction H; intros L; auto. cbn [app legal] in L. destruct L as [_ L]. eauto.
Qed.
Lemma legal_prefix : forall ms ops A r, legal ms A (ops ++ r) -> legal ms A ops.
Proof. intros ms ops. induction ops as [|op ops IH]; intros A r L; cbn [app legal] in *; auto. destruct L as [L1 L2]. split; eauto. Qed.

(** ** Example data *)
Definition ax_ms : list member :=
  [mkMember 2 None false [Some x00; Some x01]; mkMember 1 (Some 2%nat) true [Some x02]].
Definition ax_cell (a b c d : byte) : cell := [[[Some a; Some b]]; [[Some c]; [Some d]]].
Definition ax1 := ax_cell x10 x11 x12 x13.
Definition ax2 := ax_cell x20 x21 x22 x23.
Lemma ax_wf : wf_members ax_ms /\ wf_defaults ax_ms.
Proof. split; repeat constructor. Qed.
Lemma ax_cell_wf : forall a b c d, wf_cell ax_ms (ax_cell a b c d).
Proof. intros. repeat constructor. Qed.

Definition ax_ops : list vop := [VNew 0 4 2 ax1; VPush 0 ax2; VNew 1 2 1 ax2].
Definition ax_world : vworld := match vrun ax_ms vstart ax_ops with Val (w, _) => w | Fault _ => vstart end.

Lemma ax_legal : legal ax_ms no_arrays ax_ops.
Proof.
  cbn [legal ax_ops vpre]. split; [repeat split; try reflexivity; try lia; apply ax_cell_wf|].
  intros A1 o1 S1. inversion S1; subst. split; [split; [cbn; discriminate|apply ax_cell_wf]|].
  intros A2 o2 S2. split; [|intros; exact I].
  split; [|repeat split; try lia; apply ax_cell_wf]. inversion S2; subst; reflexivity.
Qed.

Lemma ax_reachable : reachable ax_ms ax_world.
Proof.
  destruct ax_wf as [Hw Hd]. exists ax_ops. destruct (vinv_start ax_ms) as [I0 _].
  destruct (vrun_ok ax_ms ax_ops vstart no_arrays Hw Hd I0 ax_legal) as [W [A [obs [E _]]]].
  exists obs. split; [apply ax_legal|]. unfold ax_world. rewrite E. reflexivity.
Qed.

Definition obs_of (r : result (vworld * list vobs)) : option (list vobs) :=
  match r with Val (_, o) => Some o | Fault _ => None end.

Lemma ax_contents : contents ax_ms ax_world 0 [ax1; ax1; ax2] /\ contents ax_ms ax_world 1 [ax2] /\
  has_cap ax_ms ax_world 0 4 /\ has_cap ax_ms ax_world 1 2 /\ unused ax_world 2.
Proof.
  assert (G : forall ops o, obs_of (vrun ax_ms ax_world ops) = Some o -> exists W', vrun ax_ms ax_world ops = Val (W', o)).
  { intros ops o. destruct (vrun ax_ms ax_world ops) as [[w os]|]; simpl; intros H; inversion H; eauto. }
  split; [apply G; vm_compute; reflexivity|]. split; [apply G; vm_compute; reflexivity|].
  split; [apply G; vm_compute; reflexivity|]. split; [apply G; vm_compute; reflexivity|].
  vm_compute. reflexivity.
Qed.

(** ** C28 *)
(** Every history within the contract runs without fault, and what it observes is what
    plain lists with a capacity allow ([arun], SpecArray.v). *)
Theorem C28_history : forall ms ops,
  wf_members ms -> wf_defaults ms -> legal ms no_arrays ops ->
  exists W A obs, vrun ms vstart ops = Val (W, obs) /\ arun no_arrays ops A obs.
Proof.
  intros ms ops Hw Hd L. destruct (vinv_start ms) as [I _].
  destruct (vrun_ok ms ops vstart no_arrays Hw Hd I L) as [W [A [obs [E [R _]]]]]. eauto 6.
Qed.

(** Element reads agree with iteration and size in every reachable state. *)
Theorem C28_reads : forall ms W id l i,
  wf_members ms -> wf_defaults ms -> reachable ms W -> contents ms W id l -> 0 <= i < len l ->
  exists W' c, vrun ms W [VGet id i; VBack id] = Val (W', [VCell c; VCell (last l [])]) /\ nth_error l (Z.to_nat i) = Some c.
Proof.
  intros ms W id l i Hw Hd HR Hc Hi. destruct (reach_inv _ _ Hw Hd HR) as [A I].
  rewrite (contents_iff _ _ _ _ _ Hw Hd I) in Hc. destruct Hc as [b [E <-]].
  assert (Hne : bs_l b <> []) by (intros C; rewrite C in Hi; unfold len in Hi; simpl in Hi; lia).
  destruct (vrun_ok ms [VGet id i; VBack id] W A Hw Hd I) as [W' [A' [obs [E' [R _]]]]].
  { cbn [legal vpre]. split; [eauto|]. intros A' ob S. inversion S; subst. split; [|auto]. eauto. }
  inversion R as [|? ? ? ? ? ? S R']; subst. inversion R' as [|? ? ? ? ? ? S' R'']; subst. inversion R''; subst.
  inversion S; subst. inversion S'; subst. exists W', c. rewrite E'. split; [|congruence].
  match goal with H : A' id = Some ?y, H2 : bs_l ?y = ?l0 ++ [?c1] |- _ =>
    replace (last (bs_l b) []) with c1; [reflexivity|]; rewrite E in H; inversion H; subst; rewrite H2; symmetry; apply last_last end.
Qed.

Example C28_case :
  legal ax_ms no_arrays ax_ops /\
  obs_of (vrun ax_ms vstart (ax_ops ++ [VPop 0; VPop 1; VPop 1; VPush 0 ax2; VPush 0 ax1; VPush 0 ax1; VIter 0; VConv 3 2 0; VAssign 1 0]))
  = Some [VUnit; VUnit; VUnit; VUnit; VUnit; VThrow OutOfRange; VUnit; VUnit; VThrow OutOfRange;
          VCells [ax1; ax1; ax2; ax1]; VThrow OutOfRange; VThrow OutOfRange].
Proof. split; [apply ax_legal|]. vm_compute. reflexivity. Qed.

(** ** C29 *)
(** Missing: num + offset wrapping around 2^64 (then the claim is false, below), and an
    array loading from itself with overlapping ranges, target above source. *)
Theorem C29_load_partial : forall ms W d s cap l ls off i n,
  wf_members ms -> wf_defaults ms -> reachable ms W ->
  has_cap ms W d cap -> contents ms W d l -> contents ms W s ls ->
  0 <= i -> 0 <= n -> i + n <= len ls -> 0 <= off -> off + n < 2 ^ 64 ->
  d <> s \/ off <= i \/ i + n <= off ->
  exists W' ob l', vrun ms W [VLoad d off s i n] = Val (W', [ob]) /\
    contents ms W' d l' /\ has_cap ms W' d cap /\ rest_same ms W W' d /\
    (cap < off + n -> ob = VThrow OutOfRange /\ l' = l) /\
    (off + n <= cap -> ob = VUnit /\ len l' = Z.max (len l) (off + n) /\
       (forall k, 0 <= k < n -> nth_error l' (Z.to_nat (off + k)) = nth_error ls (Z.to_nat (i + k))) /\
       (forall k, 0 <= k < len l -> ~ off <= k < off + n -> nth_error l' (Z.to_nat k) = nth_error l (Z.to_nat k))).
Proof.
  intros ms W d s cap l ls off i n Hw Hd HR Hcap Hl Hls Hi Hn Hin Hoff Hwrap Hov.
  destruct (reach_inv _ _ Hw Hd HR) as [A I].
  rewrite (contents_iff _ _ _ _ _ Hw Hd I) in Hl. rewrite (contents_iff _ _ _ _ _ Hw Hd I) in Hls. rewrite (has_cap_iff _ _ _ _ _ Hw Hd I) in Hcap.
  destruct Hl as [a [Ea <-]]. destruct Hls as [b [Eb <-]]. destruct Hcap as [a' [Ea' <-]].
  assert (a' = a) by congruence. subst a'.
  destruct (vstep_ok ms W A (VLoad d off s i n) Hw Hd I) as [W' [A' [ob [E [S [I' _]]]]]].
  { cbn [vpre]. split; [congruence|]. split; [eauto|]. auto. }
  inversion S; subst. assert (a0 = a) by congruence. assert (b0 = b) by congruence. subst a0 b0.
  exists W', ob, l'. split; [apply vrun1; exact E|].
  split; [rewrite (contents_iff _ _ _ _ _ Hw Hd I'), aset_same; eexists; split; reflexivity|].
  split; [rewrite (has_cap_iff _ _ _ _ _ Hw Hd I'), aset_same; eexists; split; reflexivity|].
  split; [eapply rest_same_of; eauto; intros e He; rewrite aset_other by auto; auto|].
  assert (Hxl : length (firstn (Z.to_nat n) (skipn (Z.to_nat i) (bs_l b))) = Z.to_nat n).
  { rewrite firstn_length, skipn_length. unfold len in *. lia. }
  match goal with H : load_result _ _ _ _ _ _ |- _ => inversion H as [Hbig|gap Hfit Hg] end; subst.
  - split; [auto|]. intros. exfalso. unfold len in *. lia.
  - split; [intros; exfalso; unfold len in *; lia|]. intros _. split; auto.
    assert (Hk : (Z.to_nat off <= length (bs_l a ++ gap))%nat) by (rewrite app_length; lia).
    split; [|split].
    + unfold len. rewrite length_over by auto. rewrite app_length, Hxl. lia.
    + intros k Hk'. rewrite nth_error_over by auto. rewrite Hxl.
      destruct (Nat.ltb_spec (Z.to_nat (off + k)) (Z.to_nat off)); [lia|].
      destruct (Nat.ltb_spec (Z.to_nat (off + k)) (Z.to_nat off + Z.to_nat n)); [|lia].
      rewrite nth_error_sub by lia. f_equal. lia.
    + intros k Hk' Hout. rewrite nth_error_over by auto. rewrite Hxl. unfold len in Hk'.
      destruct (Nat.ltb_spec (Z.to_nat k) (Z.to_nat off)); [rewrite nth_error_app1 by lia; auto|].
      destruct (Nat.ltb_spec (Z.to_nat k) (Z.to_nat off + Z.to_nat n)); [lia|]. rewrite nth_error_app1 by lia; auto.
Qed.

Example C29_case :
  obs_of (vrun ax_ms ax_world [VLoad 0 2 1 0 1; VIter 0; VLoad 1 1 0 1 1; VIter 1; VLoad 0 4 1 0 1; VIter 0; VLoadApp 0 1 0 1; VSize 0])
  = Some [VUnit; VCells [ax1; ax1; ax2]; VUnit; VCells [ax2; ax1]; VThrow OutOfRange; VCells [ax1; ax1; ax2]; VUnit; VNum 4].
Proof. vm_compute. reflexivity. Qed.

(** offset + n exceeds the capacity (n = 1, offset = 2^64 - 1) and nothing is thrown:
    the sum wraps to 0 and a cell is written before the array. *)
Theorem C29_wrap_refuted :
  reachable ax_ms ax_world /\ has_cap ax_ms ax_world 0 4 /\ 4 < (2 ^ 64 - 1) + 1 /\
  vrun ax_ms ax_world [VLoad 0 (2 ^ 64 - 1) 1 0 1] = Fault OutOfBounds.
Proof.
  split; [apply ax_reachable|]. split; [apply ax_contents|]. split; [lia|]. vm_compute. reflexivity.
Qed.

(** ** C30 *)
(** The part about n <= N. *)
Theorem C30_fill_partial : forall ms W id cap n c,
  wf_members ms -> wf_defaults ms -> reachable ms W -> unused W id ->
  0 < cap < 2 ^ 31 -> 0 <= n <= cap -> wf_cell ms c ->
  exists W', vrun ms W [VNew id cap n c] = Val (W', [VUnit]) /\
    contents ms W' id (repeat c (Z.to_nat n)) /\ has_cap ms W' id cap /\ rest_same ms W W' id.
Proof.
  intros ms W id cap n c Hw Hd HR Hu Hcap Hn Hc. destruct (reach_inv _ _ Hw Hd HR) as [A I].
  rewrite (unused_iff _ _ _ _ I) in Hu.
  destruct (vstep_ok ms W A (VNew id cap n c) Hw Hd I) as [W' [A' [ob [E [S [I' _]]]]]]; [cbn [vpre]; auto|].
  inversion S; subst. exists W'. split; [apply vrun1; exact E|].
  split; [rewrite (contents_iff _ _ _ _ _ Hw Hd I'), aset_same; eexists; split; reflexivity|].
  split; [rewrite (has_cap_iff _ _ _ _ _ Hw Hd I'), aset_same; eexists; split; reflexivity|].
  eapply rest_same_of; eauto. intros e He. rewrite aset_other by auto. auto.
Qed.

Lemma exec_val_in : forall ops m m' op, (forall o, In o ops -> 0 < op_size o) -> exec ops m = Val m' -> In op ops ->
  chk_bounds m (op_dst op) (op_size op) = None.
Proof.
  induction ops as [|a ops IH]; intros m m' op Hs H Hin; [contradiction|]. cbn [exec] in H.
  destruct (exec1 m a) as [m1|] eqn:E; [|discriminate].
  destruct (exec1_spec m a m1) as [_ [Hsz _]]; auto. { apply Hs; simpl; auto. }
  destruct Hin as [<-|Hin].
  - destruct a; cbn [exec1 op_dst op_size] in *.
    1-3: destruct (chk_bounds m p s); [discriminate|reflexivity].
    destruct (chk_bounds m src s); [discriminate|]. destruct (chk_bounds m dst s); [discriminate|reflexivity].
  - rewrite <- (chk_bounds_ext m m1) by auto. eapply IH; eauto. intros; apply Hs; simpl; auto.
Qed.

Lemma last_slot : forall ms, wf_members ms -> slots ms <> [] ->
  exists sl, In sl (slots ms) /\ s_off sl + s_size sl = total ms /\ 0 < s_size sl.
Proof.
  intros ms Hw Hne. destruct (exists_last Hne) as [pre [sl E]]. exists sl.
  assert (Hin : In sl (slots ms)) by (rewrite E; apply in_or_app; simpl; auto).
  split; auto. split; [|apply (slot_range ms sl Hw Hin)].
  destruct (chained_slots_from ms 0) as [H1 H2]. fold (slots ms) in H1, H2. rewrite E in H1, H2.
  assert (G : forall a b o, chained o (a ++ b) -> chained (o + sizes_sum a) b).
  { clear. induction a as [|x a IH]; intros b o H; simpl in *; [rewrite Z.add_0_r; auto|].
    destruct H as [_ H]. apply IH in H. unfold sizes_sum in *. simpl. rewrite Z.add_assoc. auto. }
  apply G in H1. cbn [chained] in H1. destruct H1 as [H1 _]. rewrite sizes_sum_app in H2.
  unfold sizes_sum at 2 in H2. cbn [fold_right] in H2. lia.
Qed.

(** More elements than fit: for every cell type with a member the constructor leaves the
    object ([Flt]: undefined behaviour), whatever the capacity. *)
Theorem C30_refuted : forall ms m cap n c,
  wf_members ms -> wf_defaults ms -> mem_ok m -> slots ms <> [] -> wf_cell ms c -> 0 < cap -> cap < n < 2 ^ 31 ->
  exists f, ar_new ms m cap n c = Flt f.
Proof.
  intros ms m cap n c Hw Hd M Hne Hc Hcap Hn. unfold ar_new.
  destruct (storage_ok ms m cap M) as [m1 [p [-> [F [P1 [P2 R]]]]]]; [lia|].
  destruct (construct_all_ok ms m1 (mkArr cap n p)) as [m2 [-> [S2 R2]]]; auto; [cbn [ar_cap]; lia|].
  rewrite to_int_small by lia. cbn [ar_data ar_cap] in *.
  destruct (exec (flat_map (fun i => assign_ops p (ar_acc (mkArr cap n p) i) ms c) (zseq n)) m2) as [m3|f] eqn:E; [|cbn [run]; eauto].
  exfalso. destruct (last_slot ms Hw Hne) as [sl [Hin [Ht Hs]]].
  destruct (cell_value ms c sl Hc Hin) as [v Hv].
  pose proof (fun Hs => exec_val_in _ _ _ (Assign (sptr p cap sl cap) (s_size sl) (s_class sl) v) Hs E) as B.
  match type of B with ?P -> _ => assert (HP : P); [|specialize (B HP)] end.
  { intros o Ho. apply in_flat_map in Ho. destruct Ho as [i [_ Ho]]. rewrite assign_canon in Ho by auto.
    apply in_map_iff in Ho. destruct Ho as [[s w] [<- Ho]]. cbn [op_size]. apply in_combine_l in Ho.
    apply (slot_range ms s Hw Ho). }
  match type of B with ?P -> _ => assert (HP2 : P); [|specialize (B HP2)] end.
  { apply in_flat_map. exists cap. split; [apply in_zseq; lia|]. rewrite assign_canon by auto. rewrite ar_prod, ar_idx. cbn [ar_cap].
    apply in_map_iff. exists (sl, v). auto. }
  cbn [op_dst op_size] in B. unfold chk_bounds in B. cbn [sptr padd pb po] in B.
  rewrite (rg_size _ _ _ _ _ R2), (rg_off _ _ _ _ _ R2) in B.
  assert (Hgt : total ms * cap < 0 + slot_addr cap sl cap + s_size sl) by (unfold slot_addr; nia).
  destruct ((0 <=? 0 + slot_addr cap sl cap) && (0 + slot_addr cap sl cap + s_size sl <=? total ms * cap)) eqn:Eb; [lia|].
  discriminate B.
Qed.

(** From 2^31 on [int(elements)] is negative: nothing is written, but size() exceeds
    capacity(). *)
Theorem C30_huge_count : forall ms m cap n c,
  wf_members ms -> wf_defaults ms -> mem_ok m -> 0 < cap < 2 ^ 31 -> 2 ^ 31 <= n < 2 ^ 32 ->
  exists m' a, ar_new ms m cap n c = Ret (m', a) tt /\ ar_n a = n /\ ar_cap a < ar_n a.
Proof.
  intros ms m cap n c Hw Hd M Hcap Hn. unfold ar_new.
  destruct (storage_ok ms m cap M) as [m1 [p [-> [F [P1 [P2 R]]]]]]; [lia|].
  destruct (construct_all_ok ms m1 (mkArr cap n p)) as [m2 [-> [S2 R2]]]; auto; [cbn [ar_cap]; lia|].
  assert (Ht : to_int n = n - 2 ^ 32).
  { unfold to_int. replace (n + 2 ^ 31) with (n - 2 ^ 31 + 1 * 2 ^ 32) by lia. rewrite Z.mod_add by lia. rewrite Z.mod_small by lia. lia. }
  rewrite Ht. unfold zseq. replace (Z.to_nat (n - 2 ^ 32)) with 0%nat by lia. cbn [seq map flat_map exec run].
  do 2 eexists. split; [reflexivity|]. cbn [ar_n ar_cap]. lia.
Qed.

Example C30_case : wf_cell ax_ms ax1 /\ slots ax_ms <> [] /\
  match ar_new ax_ms empty_mem 2 3 ax1 with Flt OutOfBounds => true | _ => false end = true /\
  match ar_new ax_ms empty_mem 2 2 ax1 with Ret _ _ => true | _ => false end = true.
Proof. split; [apply ax_cell_wf|]. split; [discriminate|]. split; vm_compute; reflexivity. Qed.

(** ** C31 *)
(** Copies through the converting constructors and assignments (another capacity, or a
    source that is not const). Missing: const sources of the same type, see below. *)
Theorem C31_copy_partial : forall ms W id cap s l,
  wf_members ms -> wf_defaults ms -> reachable ms W -> unused W id -> contents ms W s l ->
  0 < cap < 2 ^ 31 -> len l <= cap ->
  exists W', vrun ms W [VConv id cap s] = Val (W', [VUnit]) /\ contents ms W' id l /\ has_cap ms W' id cap /\ rest_same ms W W' id.
Proof.
  intros ms W id cap s l Hw Hd HR Hu Hl Hcap Hfit. destruct (reach_inv _ _ Hw Hd HR) as [A I].
  rewrite (unused_iff _ _ _ _ I) in Hu. rewrite (contents_iff _ _ _ _ _ Hw Hd I) in Hl. destruct Hl as [b [Eb <-]].
  destruct (vstep_ok ms W A (VConv id cap s) Hw Hd I) as [W' [A' [ob [E [S [I' _]]]]]].
  { cbn [vpre]. split; auto. split; auto. congruence. }
  inversion S; subst; [|match goal with H1 : A' s = Some ?x, H2 : cap < len (bs_l ?x) |- _ => rewrite Eb in H1; inversion H1; subst; lia end].
  assert (b0 = b) by congruence. subst b0. exists W'. split; [apply vrun1; exact E|].
  split; [rewrite (contents_iff _ _ _ _ _ Hw Hd I'), aset_same; eexists; split; reflexivity|].
  split; [rewrite (has_cap_iff _ _ _ _ _ Hw Hd I'), aset_same; eexists; split; reflexivity|].
  eapply rest_same_of; eauto. intros e He. rewrite aset_other by auto. auto.
Qed.

Theorem C31_assign_partial : forall ms W d s l cap,
  wf_members ms -> wf_defaults ms -> reachable ms W -> contents ms W s l -> has_cap ms W d cap -> len l <= cap ->
  exists W', vrun ms W [VAssign d s] = Val (W', [VUnit]) /\ contents ms W' d l /\ has_cap ms W' d cap /\ rest_same ms W W' d.
Proof.
  intros ms W d s l cap Hw Hd HR Hl Hc Hfit. destruct (reach_inv _ _ Hw Hd HR) as [A I].
  rewrite (contents_iff _ _ _ _ _ Hw Hd I) in Hl. destruct Hl as [b [Eb <-]].
  rewrite (has_cap_iff _ _ _ _ _ Hw Hd I) in Hc. destruct Hc as [a [Ea <-]].
  destruct (vstep_ok ms W A (VAssign d s) Hw Hd I) as [W' [A' [ob [E [S [I' _]]]]]].
  { cbn [vpre]. split; congruence. }
  inversion S; subst; [|match goal with H1 : A' s = Some ?x, H0 : A' d = Some ?y, H2 : bs_cap ?y < len (bs_l ?x) |- _ =>
     rewrite Eb in H1; rewrite Ea in H0; inversion H1; inversion H0; subst; lia end].
  assert (b0 = b) by congruence. assert (a0 = a) by congruence. subst b0 a0. exists W'. split; [apply vrun1; exact E|].
  split; [rewrite (contents_iff _ _ _ _ _ Hw Hd I'), aset_same; eexists; split; reflexivity|].
  split; [rewrite (has_cap_iff _ _ _ _ _ Hw Hd I'), aset_same; eexists; split; reflexivity|].
  eapply rest_same_of; eauto. intros e He. rewrite aset_other by auto. auto.
Qed.

(** Which array a call may change. *)
Definition changes (op : vop) (id : nat) : Prop :=
  match op with
  | VNew i _ _ _ | VConv i _ _ | VAssign i _ | VCopyConst i _ | VAssignConst i _ | VPush i _ | VPop i | VClear i
  | VWrite i _ _ | VLoad i _ _ _ _ | VLoadApp i _ _ _ | VDestroy i => i = id
  | VSwap a b => a = id \/ b = id
  | VGet _ _ | VBack _ | VSize _ | VCap _ | VIter _ => False
  end.

(** Deep: whatever is then done to other arrays (the source of a copy included) leaves an
    array as it is. *)
Theorem C31_independent : forall ms ops op W obs id l,
  wf_members ms -> wf_defaults ms -> legal ms no_arrays (ops ++ [op]) -> vrun ms vstart ops = Val (W, obs) ->
  ~ changes op id -> contents ms W id l ->
  exists W' ob, vrun ms W [op] = Val (W', [ob]) /\ contents ms W' id l.
Proof.
  intros ms ops op W obs id l Hw Hd L E Hch Hc. destruct (vinv_start ms) as [I0 _].
  destruct (vrun_ok ms ops vstart no_arrays Hw Hd I0 (legal_prefix _ _ _ _ L)) as [W0 [A [obs0 [E0 [R0 I]]]]].
  rewrite E in E0. inversion E0; subst W0 obs0. pose proof (arun_app_legal _ _ _ _ _ _ R0 L) as [Lop _].
  destruct (vstep_ok ms W A op Hw Hd I Lop) as [W' [A' [ob [E' [S [I' _]]]]]].
  exists W', ob. split; [apply vrun1; exact E'|].
  rewrite (contents_iff _ _ _ _ _ Hw Hd I) in Hc. rewrite (contents_iff _ _ _ _ _ Hw Hd I').
  assert (A' id = A id) as ->; auto.
  inversion S; subst; cbn [changes] in Hch; auto;
    rewrite ?aset_other by (intros ->; tauto); reflexivity.
Qed.

Example C31_case :
  legal ax_ms no_arrays (ax_ops ++ [VConv 2 3 0; VWrite 0 1 ax2]) /\
  obs_of (vrun ax_ms ax_world [VConv 2 3 0; VWrite 0 1 ax2; VIter 2; VDestroy 0; VIter 2; VDestroy 2]) =
  Some [VUnit; VUnit; VCells [ax1; ax1; ax2]; VUnit; VCells [ax1; ax1; ax2]; VUnit].
Proof.
  split; [|vm_compute; reflexivity].
  cbn [app ax_ops legal vpre]. split; [repeat split; try reflexivity; try lia; apply ax_cell_wf|].
  intros A1 o1 S1. inversion S1; subst. split; [split; [cbn; discriminate|apply ax_cell_wf]|].
  intros A2 o2 S2. inversion S2; subst.
  2:{ match goal with H : len _ = _, E : aset _ 0%nat _ 0%nat = Some _ |- _ => rewrite aset_same in E; inversion E; subst; vm_compute in H; discriminate end. }
  match goal with E : aset _ 0%nat _ 0%nat = Some _ |- _ => rewrite aset_same in E; inversion E; subst end.
  split; [split; [reflexivity|repeat split; try lia; apply ax_cell_wf]|].
  intros A3 o3 S3. inversion S3; subst. split; [split; [reflexivity|split; [lia|cbn; discriminate]]|].
  intros A4 o4 S4. split; [|auto]. split; [|apply ax_cell_wf]. inversion S4; subst; cbn; eexists; split; try reflexivity; vm_compute; split; congruence.
Qed.

(** A const source of the same type: the implicitly declared copy constructor copies
    bytes, no element of class type is constructed, so destroying the copy destroys
    elements that were never constructed (in the program: destroys them twice). *)
Lemma exec_destroy_dead : forall ops m m' p s,
  (forall o, In o ops -> exists q t c, o = Destroy q t c) -> In (Destroy p s true) ops -> live m p = false ->
  exec ops m = Val m' -> False.
Proof.
  induction ops as [|a ops IH]; intros m m' p s Ha Hin Hl H; [contradiction|]. cbn [exec] in H.
  destruct (Ha a (or_introl eq_refl)) as [q [t [c ->]]].
  destruct Hin as [E|Hin].
  - inversion E; subst. cbn [exec1] in H. destruct (chk_bounds m p s); [discriminate|]. rewrite Hl in H. discriminate.
  - destruct (exec1 m (Destroy q t c)) as [m1|] eqn:E1; [|discriminate].
    apply (IH m1 m' p s); auto. { intros; apply Ha; simpl; auto. }
    cbn [exec1] in E1. destruct (chk_bounds m q t); [discriminate|]. destruct c; [|inversion E1; subst; auto].
    destruct (live m q) eqn:Lq; [|discriminate]. inversion E1; subst. unfold live, set_live. cbn [mlive].
    destruct (is_start q (pb p) (po p)); auto.
Qed.

Theorem C31_const_copy_refuted : forall ms W s a l j mb,
  wf_members ms -> wf_defaults ms -> reachable ms W -> vw_arrs W s = Some a -> contents ms W s l ->
  nth_error ms j = Some mb -> m_class mb = true -> (0 < m_count mb)%nat ->
  exists m' a', ar_copy_implicit ms (vw_mem W) a = Ret (m', a') tt /\ exists f, ar_destroy ms (m', a') = Flt f.
Proof.
  intros ms W s a l j mb Hw Hd HR Hs Hc Hj Hcl Hcnt. destruct (reach_inv _ _ Hw Hd HR) as [A I].
  pose proof (vi_rep _ _ _ I s) as R. rewrite Hs in R. destruct (A s) as [b|] eqn:Eb; [|contradiction].
  pose proof (ap_range _ _ _ _ R) as Hr. unfold ar_copy_implicit.
  destruct (storage_ok ms (vw_mem W) (ar_cap a) (vi_mem _ _ _ I)) as [m1 [p [-> [F [P1 [P2 R1]]]]]]; [lia|].
  rewrite agg_size_total. do 2 eexists. split; [reflexivity|]. unfold ar_destroy. cbn [ar_cap ar_data].
  match goal with |- context [exec ?ops ?m] => destruct (exec ops m) as [m3|f] eqn:E; [exfalso|eauto] end.
  assert (Hsl : In (the_slot ms j mb 0) (slots ms)).
  { apply in_slots_the_slot. exists j, mb, 0. split; auto. split; [lia|auto]. }
  refine (exec_destroy_dead _ _ _ (sptr p (ar_cap a) (the_slot ms j mb 0) 0) (s_size (the_slot ms j mb 0)) _ _ _ E).
  - intros o Ho. apply in_flat_map in Ho. destruct Ho as [i [_ Ho]]. rewrite destroy_members_canon in Ho.
    apply in_map_iff in Ho. destruct Ho as [sl [<- _]]. eauto.
  - apply in_flat_map. exists 0. split; [apply in_zseq; lia|]. rewrite destroy_members_canon, ar_prod, ar_idx. cbn [ar_cap].
    apply in_map_iff. exists (the_slot ms j mb 0). split; auto. unfold the_slot. cbn [s_class s_size]. rewrite Hcl. reflexivity.
  - unfold live, copy_bytes. cbn [mlive]. destruct (mlive m1 _ _) eqn:El; auto. exfalso.
    destruct (rg_live _ _ _ _ _ R1 _ El) as [i [c [sl [C _]]]]. discriminate.
Qed.

(** Without members of class type the byte copy is a proper copy. *)
Theorem C31_const_copy_trivial : forall ms W id s l cap,
  wf_members ms -> wf_defaults ms -> reachable ms W -> trivial ms -> unused W id -> contents ms W s l -> has_cap ms W s cap ->
  exists W', vrun ms W [VCopyConst id s] = Val (W', [VUnit]) /\ contents ms W' id l /\ has_cap ms W' id cap /\ rest_same ms W W' id.
Proof.
  intros ms W id s l cap Hw Hd HR T Hu Hl Hc. destruct (reach_inv _ _ Hw Hd HR) as [A I].
  rewrite (unused_iff _ _ _ _ I) in Hu. rewrite (contents_iff _ _ _ _ _ Hw Hd I) in Hl. destruct Hl as [b [Eb <-]].
  rewrite (has_cap_iff _ _ _ _ _ Hw Hd I) in Hc. destruct Hc as [b' [Eb' <-]]. assert (b' = b) by congruence. subst b'.
  destruct (vstep_ok ms W A (VCopyConst id s) Hw Hd I) as [W' [A' [ob [E [S [I' _]]]]]].
  { cbn [vpre]. split; auto. split; auto. congruence. }
  inversion S; subst. assert (b0 = b) by congruence. subst b0. exists W'. split; [apply vrun1; exact E|].
  split; [rewrite (contents_iff _ _ _ _ _ Hw Hd I'), aset_same; eexists; split; reflexivity|].
  split; [rewrite (has_cap_iff _ _ _ _ _ Hw Hd I'), aset_same; eexists; split; reflexivity|].
  eapply rest_same_of; eauto. intros e He. rewrite aset_other by auto. auto.
Qed.

Theorem C31_const_assign_trivial : forall ms W d s l cap,
  wf_members ms -> wf_defaults ms -> reachable ms W -> trivial ms -> contents ms W s l -> has_cap ms W s cap -> has_cap ms W d cap ->
  exists W', vrun ms W [VAssignConst d s] = Val (W', [VUnit]) /\ contents ms W' d l /\ has_cap ms W' d cap /\ rest_same ms W W' d.
Proof.
  intros ms W d s l cap Hw Hd HR T Hl Hc Hc2. destruct (reach_inv _ _ Hw Hd HR) as [A I].
  rewrite (contents_iff _ _ _ _ _ Hw Hd I) in Hl. destruct Hl as [b [Eb <-]].
  rewrite (has_cap_iff _ _ _ _ _ Hw Hd I) in Hc. rewrite (has_cap_iff _ _ _ _ _ Hw Hd I) in Hc2. destruct Hc as [b' [Eb' <-]]. assert (b' = b) by congruence. subst b'.
  destruct Hc2 as [a [Ea Hcap]].
  destruct (vstep_ok ms W A (VAssignConst d s) Hw Hd I) as [W' [A' [ob [E [S [I' _]]]]]].
  { cbn [vpre]. split; eauto 6. }
  inversion S; subst. assert (b0 = b) by congruence. subst b0. exists W'. split; [apply vrun1; exact E|].
  split; [rewrite (contents_iff _ _ _ _ _ Hw Hd I'), aset_same; eexists; split; reflexivity|].
  split; [rewrite (has_cap_iff _ _ _ _ _ Hw Hd I'), aset_same; eexists; split; reflexivity|].
  eapply rest_same_of; eauto. intros e He. rewrite aset_other by auto. auto.
Qed.

Definition ax_triv : list member := [mkMember 2 None false [Some x00; Some x01]; mkMember 1 (Some 2%nat) false [Some x02]].
Example C31_const_case :
  nth_error ax_ms 1 = Some (mkMember 1 (Some 2%nat) true [Some x02]) /\
  match vw_arrs ax_world 0 with
  | Some a => match ar_copy_implicit ax_ms (vw_mem ax_world) a with
              | Ret (m', a') _ => match ar_destroy ax_ms (m', a') with Flt DestroyDead => true | _ => false end
              | _ => false end
  | None => false end = true /\
  trivial ax_triv /\
  obs_of (vrun ax_triv vstart [VNew 0 3 2 ax1; VNew 1 3 0 ax2; VCopyConst 2 0; VPush 0 ax2; VIter 2; VAssignConst 1 0; VPop 0; VIter 1; VDestroy 2; VDestroy 1])
  = Some [VUnit; VUnit; VUnit; VUnit; VCells [ax1; ax1]; VUnit; VUnit; VCells [ax1; ax1; ax2]; VUnit; VUnit].
Proof. split; [reflexivity|]. split; [vm_compute; reflexivity|]. split; [repeat constructor|]. vm_compute. reflexivity. Qed.

(** ** C32 *)
Theorem C32_swap : forall ms W a b la lb cap,
  wf_members ms -> wf_defaults ms -> reachable ms W -> a <> b ->
  contents ms W a la -> contents ms W b lb -> has_cap ms W a cap -> has_cap ms W b cap ->
  exists W', vrun ms W [VSwap a b] = Val (W', [VUnit]) /\
    contents ms W' a lb /\ contents ms W' b la /\ has_cap ms W' a cap /\ has_cap ms W' b cap /\
    (forall e l, e <> a -> e <> b -> (contents ms W e l <-> contents ms W' e l)).
Proof.
  intros ms W a b la lb cap Hw Hd HR Hne Ha Hb Hca Hcb. destruct (reach_inv _ _ Hw Hd HR) as [A I].
  rewrite (contents_iff _ _ _ _ _ Hw Hd I) in Ha. rewrite (contents_iff _ _ _ _ _ Hw Hd I) in Hb. rewrite (has_cap_iff _ _ _ _ _ Hw Hd I) in Hca. rewrite (has_cap_iff _ _ _ _ _ Hw Hd I) in Hcb.
  destruct Ha as [x [Ex <-]], Hb as [y [Ey <-]], Hca as [x' [Ex' Hcx]], Hcb as [y' [Ey' Hcy]].
  assert (x' = x) by congruence. assert (y' = y) by congruence. subst x' y'.
  destruct (vstep_ok ms W A (VSwap a b) Hw Hd I) as [W' [A' [ob [E [S [I' _]]]]]].
  { cbn [vpre]. split; auto. exists x, y. split; auto. split; auto. congruence. }
  inversion S; subst. assert (x0 = x) by congruence. assert (y0 = y) by congruence. subst x0 y0.
  exists W'. split; [apply vrun1; exact E|].
  rewrite 2 (contents_iff _ _ _ _ _ Hw Hd I'), 2 (has_cap_iff _ _ _ _ _ Hw Hd I').
  rewrite aset_same, (aset_other _ _ b) by auto. rewrite aset_same.
  split; [eauto|]. split; [eauto|]. split; [eauto|]. split; [eauto|].
  intros e l He1 He2. rewrite (contents_iff _ _ _ _ _ Hw Hd I), (contents_iff _ _ _ _ _ Hw Hd I').
  rewrite !aset_other by auto. tauto.
Qed.

Example C32_case :
  obs_of (vrun ax_ms vstart [VNew 0 4 3 ax1; VNew 1 4 1 ax2; VSwap 0 1; VIter 0; VIter 1]) =
  Some [VUnit; VUnit; VUnit; VCells [ax2]; VCells [ax1; ax1; ax1]].
Proof. vm_compute. reflexivity. Qed.

(** ** C33 *)
(** C28 says no history constructs, assigns or destroys in the wrong state of an element.
    What is alive in an array, at any time: all class-type elements of all [cap] cells. *)
Theorem C33_all_alive : forall ms W id a o,
  wf_members ms -> wf_defaults ms -> reachable ms W -> vw_arrs W id = Some a ->
  po (ar_data a) = 0 /\
  (mlive (vw_mem W) (pb (ar_data a)) o = true <->
   exists i j mb k, 0 <= i < ar_cap a /\ nth_error ms j = Some mb /\ m_class mb = true /\ 0 <= k < Z.of_nat (m_count mb) /\
     member_addr ms (mkAcc (mkExt (ar_cap a) 1 1) i 0) j k = Some o).
Proof.
  intros ms W id a o Hw Hd HR Ha. destruct (reach_inv _ _ Hw Hd HR) as [A I].
  pose proof (vi_rep _ _ _ I id) as R. rewrite Ha in R. destruct (A id) as [b|]; [|contradiction].
  destruct R as [R1 R2 R3 R4 [rest [R5 R]]]. pose proof (rg_off _ _ _ _ _ R) as Hpo. split; auto.
  assert (HP : DIM_PROD (mkExt (ar_cap a) 1 1) = ar_cap a) by (unfold DIM_PROD; cbn; lia). split.
  - intros Hl. destruct (rg_live _ _ _ _ _ R _ Hl) as [i [c [sl [Hc [Hs [Hcl ->]]]]]].
    destruct (rg_cell _ _ _ _ _ R _ _ Hc) as [Hi _].
    apply in_slots_the_slot in Hs. destruct Hs as [j [mb [k [Hj [Hk ->]]]]].
    exists i, j, mb, k. split; auto. split; auto. split; auto. split; auto.
    rewrite (member_addr_slot _ _ _ _ _ Hj Hk). cbn [a_ext a_index a_INDEX]. rewrite Z.add_0_r, HP. reflexivity.
  - intros [i [j [mb [k [Hi [Hj [Hcl [Hk E]]]]]]]].
    rewrite (member_addr_slot _ _ _ _ _ Hj Hk) in E. cbn [a_ext a_index a_INDEX] in E. rewrite Z.add_0_r, HP in E. inversion E; subst o.
    assert (Hsl : In (the_slot ms j mb k) (slots ms)) by (apply in_slots_the_slot; eauto 8).
    destruct (ci_list (bs_l b ++ rest) i) as [c|] eqn:Ec; [|exfalso; revert Ec; apply ci_list_in; unfold len in R5; lia].
    pose proof (region_live ms _ _ _ _ i c _ R Ec Hsl Hcl) as L. unfold live, sptr, padd in L. cbn [pb po] in L.
    rewrite Hpo, Z.add_0_l in L. exact L.
Qed.

(** No storage and no element outlives the arrays, provided no converting constructor
    threw. Missing: that case, which is false (below). *)
Fixpoint no_throwing_conv (ops : list vop) (obs : list vobs) : Prop :=
  match ops, obs with
  | VConv _ _ _ :: r, VThrow _ :: os => False
  | _ :: r, _ :: os => no_throwing_conv r os
  | _, _ => True
  end.

Lemma run_noleak : forall ms ops W A W' obs,
  wf_members ms -> wf_defaults ms -> vinv ms W A -> legal ms A ops -> vrun ms W ops = Val (W', obs) ->
  no_throwing_conv ops obs -> noleak W -> noleak W'.
Proof.
  intros ms ops. induction ops as [|op ops IH]; intros W A W' obs Hw Hd I L E N NL; cbn [vrun] in E.
  - inversion E; subst. auto.
  - destruct L as [L1 L2]. destruct (vstep_ok ms W A op Hw Hd I L1) as [W1 [A1 [ob [E1 [S [I1 N1]]]]]].
    rewrite E1 in E. destruct (vrun ms W1 ops) as [[W2 os]|] eqn:E2; [|discriminate]. inversion E; subst.
    assert (H : ~ leaks op ob /\ no_throwing_conv ops os).
    { destruct op; cbn [no_throwing_conv leaks] in *; auto. destruct ob; auto; contradiction. }
    destruct H as [H1 H2]. eapply (IH W1 A1); eauto.
Qed.

Theorem C33_nothing_left_partial : forall ms ops W obs,
  wf_members ms -> wf_defaults ms -> legal ms no_arrays ops -> vrun ms vstart ops = Val (W, obs) ->
  no_throwing_conv ops obs -> (forall id, vw_arrs W id = None) ->
  forall b, msize (vw_mem W) b = None.
Proof.
  intros ms ops W obs Hw Hd L E N Hn b. destruct (vinv_start ms) as [I NL].
  pose proof (run_noleak ms ops vstart no_arrays W obs Hw Hd I L E N NL) as G.
  destruct (msize (vw_mem W) b) as [n|] eqn:Em; auto. destruct (G b n Em) as [id [a [Ha _]]]. rewrite Hn in Ha. discriminate.
Qed.

(** An object whose converting constructor threw (too many elements) never becomes an
    array, but the elements it constructed stay alive for ever. *)
Theorem C33_throwing_copy_refuted :
  legal ax_ms no_arrays [VNew 0 4 2 ax1; VConv 1 1 0; VDestroy 0] /\
  (let r := vrun ax_ms vstart [VNew 0 4 2 ax1; VConv 1 1 0; VDestroy 0] in
   match r with
   | Val (W, obs) => obs = [VUnit; VThrow OutOfRange; VUnit] /\ vw_arrs W 0 = None /\ vw_arrs W 1 = None /\
       msize (vw_mem W) 2 = Some 4 /\ mlive (vw_mem W) 2 2 = true
   | Fault _ => False
   end).
Proof.
  split.
  - cbn [legal vpre]. split; [repeat split; try reflexivity; try lia; apply ax_cell_wf|].
    intros A1 o1 S1. inversion S1; subst. split; [split; [reflexivity|split; [lia|cbn; discriminate]]|].
    intros A2 o2 S2. split; [|auto]. inversion S2; subst; [|cbn; discriminate].
    exfalso. match goal with H : aset _ 0%nat _ 0%nat = Some _, L : len _ <= 1 |- _ => rewrite aset_same in H; inversion H; subst; vm_compute in L; apply L; reflexivity end.
  - vm_compute. repeat split; reflexivity.
Qed.

Example C33_case :
  legal ax_ms no_arrays ax_ops /\
  (match vrun ax_ms vstart (ax_ops ++ [VDestroy 0; VDestroy 1]) with
   | Val (W, obs) => (msize (vw_mem W) 1, msize (vw_mem W) 2, obs) | Fault _ => (Some 0, Some 0, []) end)
  = (None, None, [VUnit; VUnit; VUnit; VUnit; VUnit]).
Proof. split; [apply ax_legal|]. vm_compute. reflexivity. Qed.

Print Assumptions C28_history.
Print Assumptions C28_reads.
Print Assumptions C29_load_partial.
Print Assumptions C29_wrap_refuted.
Print Assumptions C30_fill_partial.
Print Assumptions C30_refuted.
Print Assumptions C30_huge_count.
Print Assumptions C31_copy_partial.
Print Assumptions C31_assign_partial.
Print Assumptions C31_independent.
Print Assumptions C31_const_copy_refuted.
Print Assumptions C31_const_copy_trivial.
Print Assumptions C31_const_assign_trivial.
Print Assumptions C32_swap.
Print Assumptions C33_all_alive.
Print Assumptions C33_nothing_left_partial.
Print Assumptions C33_throwing_copy_refuted.
