(** soa_array: what each member function does to the represented sequence, and the
    simulation of whole histories. *)
From Coq Require Import ZArith List Lia Bool.
From Verif Require Import Base Layout LayoutProofs Sizes Mem MemProofs Accessor AccessorProofs
  RegionProofs Grid GridProofs GridInv BufferProofs Array SpecArray.
Import ListNotations.
Open Scope Z_scope.

(** *** Lists *)
Lemma nth_error_over : forall l k xs j, (k <= length l)%nat ->
  nth_error (over l k xs) j =
  if Nat.ltb j k then nth_error l j
  else if Nat.ltb j (k + length xs) then nth_error xs (j - k) else nth_error l j.
Proof.
  intros l k xs j Hk. unfold over.
  assert (Hf : length (firstn k l) = k) by (rewrite firstn_length; lia).
  assert (N : forall (l : list cell) k j, nth_error (skipn k l) j = nth_error l (k + j)).
  { clear. induction l as [|a l IH]; intros [|k] j; simpl; auto. destruct j; auto. }
  destruct (Nat.ltb_spec j k).
  - rewrite nth_error_app1 by lia. rewrite <- (firstn_skipn k l) at 2. rewrite nth_error_app1 by lia. reflexivity.
  - rewrite nth_error_app2 by lia. rewrite Hf. destruct (Nat.ltb_spec j (k + length xs)).
    + rewrite nth_error_app1 by lia. reflexivity.
    + rewrite nth_error_app2 by lia. rewrite N. f_equal. lia.
Qed.

Lemma length_over : forall l k xs, (k <= length l)%nat -> length (over l k xs) = Nat.max (length l) (k + length xs).
Proof. intros l k xs H. unfold over. rewrite !app_length, firstn_length, skipn_length. lia. Qed.

Lemma over_app : forall l r k xs, (k <= length l)%nat ->
  over (l ++ r) k xs = over l k xs ++ skipn (k + length xs - length l) r.
Proof.
  intros l r k xs H. unfold over. rewrite firstn_app, skipn_app. replace (k - length l)%nat with 0%nat by lia.
  cbn [firstn]. rewrite app_nil_r, <- !app_assoc. reflexivity.
Qed.

Lemma over_end : forall l xs, over l (length l) xs = l ++ xs.
Proof. intros l xs. unfold over. rewrite firstn_all, skipn_all2 by lia. rewrite app_nil_r. reflexivity. Qed.

Lemma ci_list_over : forall st k xs (l : list (Z * option cell)),
  NoDup (map fst l) -> (k + length xs <= length st)%nat ->
  (forall j c, In (j, c) l <-> exists d, nth_error xs d = c /\ (d < length xs)%nat /\ j = Z.of_nat (k + d)) ->
  forall j, upd (ci_list st) l j = ci_list (over st k xs) j.
Proof.
  intros st k xs l Hn Hk Hl j. destruct (Z.ltb_spec j 0) as [Hj|Hj].
  - rewrite upd_notin.
    + unfold ci_list. destruct (Z.ltb_spec j 0); [reflexivity|lia].
    + intros C. apply in_map_iff in C. destruct C as [[j' c] [E C]]. simpl in E. subst j'. apply Hl in C.
      destruct C as [d [_ [_ E]]]. lia.
  - unfold ci_list at 2. destruct (Z.ltb_spec j 0); [lia|]. rewrite nth_error_over by lia.
    destruct (in_dec Z.eq_dec j (map fst l)) as [C|C].
    + apply in_map_iff in C. destruct C as [[j' c] [E C]]. simpl in E. subst j'. pose proof C as C'. apply Hl in C'.
      destruct C' as [d [E1 [E2 E3]]]. rewrite (upd_in _ _ _ _ Hn C). subst j. rewrite Nat2Z.id.
      destruct (Nat.ltb_spec (k + d) k); [lia|]. destruct (Nat.ltb_spec (k + d) (k + length xs)); [|lia].
      replace (k + d - k)%nat with d by lia. auto.
    + rewrite upd_notin by auto. unfold ci_list. destruct (Z.ltb_spec j 0); [lia|].
      destruct (Nat.ltb_spec (Z.to_nat j) k); auto. destruct (Nat.ltb_spec (Z.to_nat j) (k + length xs)); auto.
      exfalso. apply C. apply in_map_iff. exists (j, nth_error xs (Z.to_nat j - k)). split; auto. apply Hl.
      exists (Z.to_nat j - k)%nat. split; auto. lia.
Qed.

Lemma nth_error_sub : forall (l : list cell) i n d, (d < n)%nat ->
  nth_error (firstn n (skipn i l)) d = nth_error l (i + d).
Proof.
  intros l i n d H.
  assert (N : forall (l : list cell) k j, nth_error (skipn k l) j = nth_error l (k + j)).
  { clear. induction l as [|a l IH]; intros [|k] j; simpl; auto. destruct j; auto. }
  rewrite <- N. generalize (skipn i l) as r. clear -H. intros r. revert n d H.
  induction r as [|a r IH]; intros [|n] [|d] H; simpl; auto; try lia. apply IH. lia.
Qed.

Lemma ci_list_cells : forall st i, 0 <= i -> ci_list st i = nth_error st (Z.to_nat i).
Proof. intros st i H. unfold ci_list. destruct (Z.ltb_spec i 0); [lia|auto]. Qed.

(** *** Copying a run of cells, also within one region *)
Lemma row_keys_ordered : forall ms off i n,
  wf_members ms -> off <= i \/ i + n <= off ->
  ForallOrdPairs (fun a b : slot * Z * Z => fst (fst a) <> fst (fst b) \/ snd (fst a) <> snd b) (row_keys ms [(off, i, n)]).
Proof.
  intros ms off i n Hw H. unfold row_keys. cbn [flat_map fst snd]. rewrite app_nil_r. apply FOP_flat_map.
  - intros sl _. apply FOP_map. cbn [fst snd]. unfold zseq. apply FOP_map.
    assert (G : forall k s, ForallOrdPairs (fun a b : nat => (a < b)%nat) (seq s k)).
    { induction k as [|k IH]; intros s; simpl; constructor; auto. apply Forall_forall. intros x Hx. apply in_seq in Hx. lia. }
    eapply FOP_impl; [|apply G]. intros a b Ha Hb L. right. apply in_seq in Ha, Hb. cbn beta in L. lia.
  - pose proof (slots_NoDup ms Hw) as D. apply FOP_NoDup in D.
    eapply FOP_impl; [|exact D]. intros a b _ _ Hne x y Hx Hy. apply in_map_iff in Hx, Hy.
    destruct Hx as [u [<- _]], Hy as [v [<- _]]. simpl. auto.
Qed.

Lemma region_copy_run : forall ms m p P st q Q sl off i n,
  wf_members ms -> region ms m p P (ci_list st) -> region ms m q Q (ci_list sl) ->
  (pb q <> pb p \/ (q = p /\ Q = P /\ (off <= i \/ i + n <= off))) ->
  0 <= off -> 0 <= i -> 0 <= n -> off + n <= len st -> i + n <= len sl ->
  exists m', exec (slot_copy_ops ms p P off q Q i n) m = Val m' /\ same_other m m' (pb p) /\
    region ms m' p P (ci_list (over st (Z.to_nat off) (firstn (Z.to_nat n) (skipn (Z.to_nat i) sl)))).
Proof.
  intros ms m p P st q Q sl off i n Hw R R' Hpq Ho Hi Hn Hl1 Hl2. unfold len in *. rewrite slot_copy_ops_keys.
  assert (Hrp : row_pairs [(off, i, n)] = map (fun k => (off + k, i + k)) (zseq n)).
  { unfold row_pairs. cbn [flat_map fst snd]. apply app_nil_r. }
  assert (Hnd : NoDup (map fst (row_pairs [(off, i, n)]))).
  { rewrite Hrp, map_map. cbn [fst]. apply NoDup_map_inj; [|apply NoDup_zseq]. intros; lia. }
  assert (Hxl : length (firstn (Z.to_nat n) (skipn (Z.to_nat i) sl)) = Z.to_nat n) by (rewrite firstn_length, skipn_length; lia).
  destruct (region_copy_ord ms m p P (ci_list st) q Q (ci_list sl) (row_pairs [(off, i, n)]) (row_keys ms [(off, i, n)])
     (map (fun e => (fst e, ci_list sl (snd e))) (row_pairs [(off, i, n)]))) as [m' [E [SO R2]]]; auto.
  - destruct Hpq as [A|[A [B C]]]; auto. right. split; auto. split; auto. apply row_keys_ordered; auto.
  - intros a b H. rewrite Hrp in H. apply in_map_iff in H. destruct H as [k [E H]]. apply in_zseq in H.
    inversion E; subst. split; apply ci_list_in; lia.
  - apply NoDup_row_keys; auto.
  - apply in_row_keys.
  - exists m'. split; auto. split; auto. eapply region_ext; [|exact R2]. intros j. apply ci_list_over.
    + rewrite map_map. exact Hnd.
    + rewrite Hxl. lia.
    + intros a c. rewrite Hrp, map_map. cbn [fst snd]. rewrite in_map_iff. rewrite Hxl. split.
      * intros [k [E1 H]]. apply in_zseq in H. inversion E1; subst. exists (Z.to_nat k).
        rewrite nth_error_sub by lia. split; [|lia]. rewrite ci_list_cells by lia. f_equal. lia.
      * intros [d [E1 [E2 ->]]]. exists (Z.of_nat d). rewrite in_zseq. split; [|lia]. f_equal; [lia|].
        rewrite <- E1, nth_error_sub by lia. rewrite ci_list_cells by lia. f_equal. lia.
Qed.

(** *** Representation *)
Record arep (ms : list member) (m : mem) (a : arr) (b : bseq) : Prop := {
  ap_cap : ar_cap a = bs_cap b;
  ap_range : 0 < ar_cap a < 2 ^ 31;
  ap_n : ar_n a = len (bs_l b);
  ap_blk : pb (ar_data a) <> 0%nat;
  ap_region : exists rest, len (bs_l b ++ rest) = ar_cap a /\
    region ms m (ar_data a) (ar_cap a) (ci_list (bs_l b ++ rest)) }.

Lemma arep_le : forall ms m a b, arep ms m a b -> len (bs_l b) <= ar_cap a.
Proof. intros ms m a b H. destruct (ap_region _ _ _ _ H) as [rest [E _]]. unfold len in *. rewrite app_length in E. lia. Qed.

Lemma arep_wf : forall ms m a b, arep ms m a b -> Forall (wf_cell ms) (bs_l b).
Proof.
  intros ms m a b H. destruct (ap_region _ _ _ _ H) as [rest [E R]]. apply Forall_forall. intros c Hc.
  apply In_nth_error in Hc. destruct Hc as [k Hk]. apply (rg_cell _ _ _ _ _ R (Z.of_nat k) c).
  rewrite ci_list_cells by lia. rewrite Nat2Z.id, nth_error_app1; auto. apply nth_error_Some. congruence.
Qed.

Lemma arep_lt : forall ms m a b, mem_ok m -> arep ms m a b -> (pb (ar_data a) < mnext m)%nat.
Proof.
  intros ms m a b [_ [_ M]] H. destruct (ap_region _ _ _ _ H) as [rest [_ R]].
  destruct (le_lt_dec (mnext m) (pb (ar_data a))) as [L|L]; auto. apply M in L.
  rewrite (rg_size _ _ _ _ _ R) in L. discriminate.
Qed.

Lemma arep_frame : forall ms m m' a b c c',
  mem_ok m -> arep ms m a b -> gframe m c m' c' -> pb (ar_data a) <> c -> arep ms m' a b.
Proof.
  intros ms m m' a b c c' M H F Hc. pose proof (arep_lt _ _ _ _ M H) as L. destruct H as [H1 H2 H3 H4 [rest [H5 R]]].
  constructor; auto. exists rest. split; auto.
  destruct (gf_other _ _ _ _ F (pb (ar_data a))) as [F1 [F2 F3]]; auto. eapply region_frame; eauto.
Qed.

(** *** Small facts *)
Lemma to_int_small : forall v, 0 <= v < 2 ^ 31 -> to_int v = v.
Proof. intros v H. unfold to_int. rewrite Z.mod_small by lia. lia. Qed.
Lemma sz_small : forall v, 0 <= v < 2 ^ 64 -> sz v = v.
Proof. intros v H. unfold sz. apply Z.mod_small. auto. Qed.
Lemma ar_prod : forall a i, DIM_PROD (a_ext (ar_acc a i)) = ar_cap a.
Proof. intros. unfold DIM_PROD, ar_acc. cbn [a_ext DIM_X DIM_Y DIM_Z]. lia. Qed.
Lemma ar_idx : forall a i, idx (ar_acc a i) = i.
Proof. intros. unfold idx, ar_acc. cbn [a_index a_INDEX]. lia. Qed.
Lemma len_nonneg : forall l, 0 <= len l. Proof. intros. unfold len. lia. Qed.

Lemma storage_ok : forall ms m cap, mem_ok m -> 0 <= cap ->
  exists m1 p, ar_storage ms m cap = Ret m1 p /\ gframe m 0 m1 (pb p) /\ pb p = mnext m /\ pb p <> 0%nat /\
    region ms m1 p cap (fun _ => None).
Proof.
  intros ms m cap M H. unfold ar_storage. rewrite agg_size_total.
  destruct (alloc m (total ms * cap)) as [m1 p] eqn:E. destruct (alloc_frame _ _ _ _ M E) as [F [A [B C]]].
  exists m1, p. split; auto. split; auto. split; auto. split; auto. eapply alloc_region; eauto.
Qed.

Lemma construct_all_ok : forall ms m a,
  wf_members ms -> wf_defaults ms -> 0 <= ar_cap a -> region ms m (ar_data a) (ar_cap a) (fun _ => None) ->
  exists m', exec (construct_all ms a) m = Val m' /\ same_other m m' (pb (ar_data a)) /\
    region ms m' (ar_data a) (ar_cap a) (ci_list (repeat (default_cell ms) (Z.to_nat (ar_cap a)))).
Proof.
  intros ms m a Hw Hd Hc R.
  assert (Hops : construct_all ms a = flat_map (fun i => map (fun sl => Construct (sptr (ar_data a) (ar_cap a) sl i)
     (s_size sl) (s_class sl) (s_default sl)) (slots ms)) (zseq (ar_cap a))).
  { unfold construct_all. apply flat_map_ext. intros i. rewrite construct_members_canon, ar_prod, ar_idx. reflexivity. }
  rewrite Hops. destruct (region_construct ms m (ar_data a) (ar_cap a) (fun _ => None) (zseq (ar_cap a)))
    as [m' [E [SO R']]]; auto.
  { apply NoDup_zseq. }
  { intros i Hi. apply in_zseq in Hi. auto. }
  exists m'. split; auto. split; auto. eapply region_ext; [|exact R'].
  intros j. cbn beta. unfold ci_list. destruct (in_dec Z.eq_dec j (zseq (ar_cap a))) as [I|I].
  - rewrite (upd_in _ _ _ (Some (default_cell ms))).
    + apply in_zseq in I. destruct (Z.ltb_spec j 0); [lia|].
      symmetry. apply nth_error_repeat. lia.
    + rewrite map_map, map_id. apply NoDup_zseq.
    + apply in_map_iff. exists j. auto.
  - rewrite upd_notin by (rewrite map_map, map_id; auto). rewrite in_zseq in I.
    destruct (Z.ltb_spec j 0); auto. symmetry. apply nth_error_None. rewrite repeat_length. lia.
Qed.

(** Assigning one caller value to cells [0, n). *)
Lemma fill_ok : forall ms m a st n c,
  wf_members ms -> region ms m (ar_data a) (ar_cap a) (ci_list st) -> wf_cell ms c -> 0 <= n <= len st ->
  exists m', exec (flat_map (fun i => assign_ops (ar_data a) (ar_acc a i) ms c) (zseq n)) m = Val m' /\
    same_other m m' (pb (ar_data a)) /\
    region ms m' (ar_data a) (ar_cap a) (ci_list (over st 0 (repeat c (Z.to_nat n)))).
Proof.
  intros ms m a st n c Hw R Hc Hn. unfold len in Hn.
  assert (Hops : flat_map (fun i => assign_ops (ar_data a) (ar_acc a i) ms c) (zseq n) =
    flat_map (fun e : Z * cell => map (fun '(sl, v) => Assign (sptr (ar_data a) (ar_cap a) sl (fst e)) (s_size sl) (s_class sl) v)
                                 (combine (slots ms) (concat (snd e)))) (map (fun i => (i, c)) (zseq n))).
  { rewrite flat_map_map. cbn [fst snd]. apply flat_map_ext. intros i. rewrite assign_canon by auto. rewrite ar_prod, ar_idx. reflexivity. }
  rewrite Hops. destruct (region_assign ms m (ar_data a) (ar_cap a) (ci_list st) (map (fun i => (i, c)) (zseq n)))
    as [m' [E [SO R']]]; auto.
  { rewrite map_map, map_id. apply NoDup_zseq. }
  { intros i d H. apply in_map_iff in H. destruct H as [k [E H]]. inversion E; subst. apply in_zseq in H. split; auto.
    apply ci_list_in. lia. }
  exists m'. split; auto. split; auto. eapply region_ext; [|exact R']. intros j. apply ci_list_over.
  - rewrite !map_map, map_id. apply NoDup_zseq.
  - rewrite repeat_length. lia.
  - intros k d. rewrite map_map. cbn [fst snd]. rewrite in_map_iff, repeat_length. split.
    + intros [i [E1 H]]. apply in_zseq in H. inversion E1; subst. exists (Z.to_nat k). split; [|lia]. apply nth_error_repeat. lia.
    + intros [i [E1 [E2 ->]]]. exists (Z.of_nat i). rewrite in_zseq. split; [|lia].
      rewrite nth_error_repeat in E1 by lia. subst d. reflexivity.
Qed.

Lemma write_ok : forall ms m a st i c,
  wf_members ms -> region ms m (ar_data a) (ar_cap a) (ci_list st) -> wf_cell ms c -> 0 <= i < len st ->
  exists m', exec (assign_ops (ar_data a) (ar_acc a i) ms c) m = Val m' /\ same_other m m' (pb (ar_data a)) /\
    region ms m' (ar_data a) (ar_cap a) (ci_list (over st (Z.to_nat i) [c])).
Proof.
  intros ms m a st i c Hw R Hc Hn. unfold len in Hn. rewrite assign_canon by auto. rewrite ar_prod, ar_idx.
  destruct (region_assign ms m (ar_data a) (ar_cap a) (ci_list st) [(i, c)]) as [m' [E [SO R']]]; auto.
  { repeat constructor. auto. }
  { intros j d [H|[]]. inversion H; subst. split; auto. apply ci_list_in. lia. }
  simpl in E. rewrite app_nil_r in E. exists m'. split; auto. split; auto. eapply region_ext; [|exact R'].
  intros j. apply ci_list_over.
  - repeat constructor. auto.
  - simpl. lia.
  - intros k d. split.
    + intros [H|[]]. inversion H; subst. exists 0%nat. simpl. repeat split; lia.
    + intros [k' [E1 [E2 ->]]]. simpl in E2. assert (k' = 0%nat) by lia. subst k'. simpl in E1. subst d. left.
      replace (Z.of_nat (Z.to_nat i + 0)) with i by lia. reflexivity.
Qed.

(** *** Constructors and destructor *)
Lemma same_other_frame0 : forall m m1 m2 p, gframe m 0 m1 (pb p) -> same_other m1 m2 (pb p) -> gframe m 0 m2 (pb p).
Proof.
  intros m m1 m2 p F S. eapply gframe_trans; [exact F|]. apply same_other_frame; auto. apply (gf_ok _ _ _ _ F).
Qed.

Lemma skipn_repeat : forall (c : cell) n k, skipn k (repeat c n) = repeat c (n - k).
Proof. intros c. induction n as [|n IH]; intros [|k]; simpl; auto. Qed.

Lemma ar_new_ok : forall ms m cap n c,
  wf_members ms -> wf_defaults ms -> mem_ok m -> 0 < cap < 2 ^ 31 -> 0 <= n <= cap -> wf_cell ms c ->
  exists m' a, ar_new ms m cap n c = Ret (m', a) tt /\ gframe m 0 m' (pb (ar_data a)) /\
    arep ms m' a (mkBS cap (repeat c (Z.to_nat n))).
Proof.
  intros ms m cap n c Hw Hd M Hcap Hn Hc. unfold ar_new.
  destruct (storage_ok ms m cap M) as [m1 [p [-> [F [P1 [P2 R]]]]]]; [lia|].
  destruct (construct_all_ok ms m1 (mkArr cap n p)) as [m2 [-> [S2 R2]]]; auto; [cbn [ar_cap]; lia|].
  rewrite to_int_small by lia. cbn [ar_data ar_cap] in *.
  destruct (fill_ok ms m2 (mkArr cap n p) (repeat (default_cell ms) (Z.to_nat cap)) n c) as [m3 [E3 [S3 R3]]]; auto.
  { unfold len. rewrite repeat_length. lia. }
  cbn [ar_data ar_cap] in *. rewrite E3. cbn [run]. exists m3, (mkArr cap n p). cbn [ar_data]. split; auto.
  pose proof (same_other_frame0 _ _ _ _ F S2) as F2. split; [exact (same_other_frame0 _ _ _ _ F2 S3)|].
  constructor; cbn [ar_cap ar_n ar_data bs_cap bs_l]; auto; try lia.
  - unfold len. rewrite repeat_length. lia.
  - exists (repeat (default_cell ms) (Z.to_nat cap - Z.to_nat n)). split.
    + unfold len. rewrite app_length, !repeat_length. lia.
    + eapply region_ext; [|exact R3]. intros j. f_equal. unfold over. cbn [firstn app].
      rewrite repeat_length, skipn_repeat. reflexivity.
Qed.

Lemma ar_copy_in_ok : forall ms m a b o ob,
  wf_members ms -> arep ms m a b -> arep ms m o ob -> (pb (ar_data o) <> pb (ar_data a) \/ o = a) ->
  len (bs_l ob) <= bs_cap b ->
  exists m' a', ar_copy_in ms (m, a) o = Ret (m', a') tt /\ same_other m m' (pb (ar_data a)) /\ ar_data a' = ar_data a /\
    arep ms m' a' (mkBS (bs_cap b) (bs_l ob)).
Proof.
  intros ms m a b o ob Hw HA HO Hdiff Hfit. pose proof (arep_le _ _ _ _ HO) as Hle.
  destruct HA as [A1 A2 A3 A4 [ra [A5 RA]]]. destruct HO as [O1 O2 O3 O4 [ro [O5 RO]]].
  unfold ar_copy_in. destruct (Z.ltb_spec (ar_cap a) (ar_n o)); [lia|].
  rewrite copy_members_canon. unfold ar_at. rewrite to_int_small by lia. rewrite !ar_prod, !ar_idx.
  destruct (region_copy_run ms m (ar_data a) (ar_cap a) (bs_l b ++ ra) (ar_data o) (ar_cap o) (bs_l ob ++ ro) 0 0 (ar_n o))
    as [m' [E [SO R]]]; auto; try lia.
  { destruct Hdiff as [D|D]; auto. subst o. right. repeat split; auto; lia. }
  { rewrite O3. apply len_nonneg. }
  rewrite E. cbn [run]. exists m', (mkArr (ar_cap a) (ar_n o) (ar_data a)). split; auto. split; auto. split; auto.
  constructor; cbn [ar_cap ar_n ar_data bs_cap bs_l]; auto.
  exists (skipn (length (bs_l ob)) (bs_l b ++ ra)).
  assert (Hx : firstn (Z.to_nat (ar_n o)) (skipn (Z.to_nat 0) (bs_l ob ++ ro)) = bs_l ob).
  { cbn [skipn Z.to_nat]. rewrite O3. unfold len. rewrite Nat2Z.id, firstn_app, Nat.sub_diag, firstn_all. cbn [firstn]. apply app_nil_r. }
  rewrite Hx in R. split.
  - unfold len in *. rewrite !app_length, skipn_length, app_length in *. lia.
  - eapply region_ext; [|exact R]. intros j. reflexivity.
Qed.

Lemma arep_fresh : forall ms m cap p st, 0 < cap < 2 ^ 31 -> pb p <> 0%nat -> len st = cap ->
  region ms m p cap (ci_list st) -> arep ms m (mkArr cap 0 p) (mkBS cap []).
Proof. intros ms m cap p st H1 H2 H3 R. constructor; auto. exists st. auto. Qed.

Lemma ar_conv_ok : forall ms m cap o ob,
  wf_members ms -> wf_defaults ms -> mem_ok m -> 0 < cap < 2 ^ 31 -> arep ms m o ob -> len (bs_l ob) <= cap ->
  exists m' a, ar_conv ms m cap o = Ret (m', a) tt /\ gframe m 0 m' (pb (ar_data a)) /\
    arep ms m' a (mkBS cap (bs_l ob)).
Proof.
  intros ms m cap o ob Hw Hd M Hcap HO Hfit. unfold ar_conv.
  destruct (storage_ok ms m cap M) as [m1 [p [-> [F [P1 [P2 R]]]]]]; [lia|].
  destruct (construct_all_ok ms m1 (mkArr cap 0 p)) as [m2 [-> [S2 R2]]]; auto; [cbn [ar_cap]; lia|].
  cbn [ar_data ar_cap] in *. pose proof (same_other_frame0 _ _ _ _ F S2) as F2.
  pose proof (arep_lt _ _ _ _ M HO) as L. pose proof (ap_blk _ _ _ _ HO) as B0.
  assert (HO2 : arep ms m2 o ob) by (eapply arep_frame; eauto).
  assert (HA : arep ms m2 (mkArr cap 0 p) (mkBS cap [])).
  { eapply arep_fresh; eauto. unfold len. rewrite repeat_length. lia. }
  destruct (ar_copy_in_ok ms m2 _ _ o ob Hw HA HO2) as [m3 [a' [E [SO [D R3]]]]]; auto.
  { left. cbn [ar_data]. lia. }
  exists m3, a'. rewrite D. cbn [ar_data] in *. split; auto. split; auto. eapply same_other_frame0; eauto.
Qed.

Lemma ar_conv_throw : forall ms m cap o ob,
  wf_members ms -> wf_defaults ms -> mem_ok m -> 0 < cap < 2 ^ 31 -> arep ms m o ob -> cap < len (bs_l ob) ->
  exists m' a b', ar_conv ms m cap o = Thr (m', a) OutOfRange /\ gframe m 0 m' b'.
Proof.
  intros ms m cap o ob Hw Hd M Hcap HO Hfit. unfold ar_conv.
  destruct (storage_ok ms m cap M) as [m1 [p [-> [F [P1 [P2 R]]]]]]; [lia|].
  destruct (construct_all_ok ms m1 (mkArr cap 0 p)) as [m2 [-> [S2 R2]]]; auto; [cbn [ar_cap]; lia|].
  unfold ar_copy_in. cbn [ar_cap]. rewrite (ap_n _ _ _ _ HO). destruct (Z.ltb_spec cap (len (bs_l ob))); [|lia].
  cbn [ar_data] in *. exists m2, (mkArr cap 0 p), (pb p). split; auto. eapply same_other_frame0; eauto.
Qed.

Lemma ar_destroy_ok : forall ms m a b,
  wf_members ms -> mem_ok m -> arep ms m a b ->
  exists m', ar_destroy ms (m, a) = Ret m' tt /\ gframe m (pb (ar_data a)) m' 0.
Proof.
  intros ms m a b Hw M HA. destruct HA as [A1 A2 A3 A4 [ra [A5 RA]]]. unfold ar_destroy.
  assert (Hops : flat_map (fun i => destroy_members_ops (ar_data a) (ar_acc a i) ms) (zseq (ar_cap a)) =
     flat_map (fun i => map (fun sl => Destroy (sptr (ar_data a) (ar_cap a) sl i) (s_size sl) (s_class sl)) (slots ms)) (zseq (ar_cap a))).
  { apply flat_map_ext. intros i. rewrite destroy_members_canon, ar_prod, ar_idx. reflexivity. }
  rewrite Hops. destruct (region_destroy ms m (ar_data a) (ar_cap a) (ci_list (bs_l b ++ ra)) (zseq (ar_cap a)))
    as [m1 [E [SO R]]]; auto.
  { apply NoDup_zseq. }
  { intros i Hi. apply in_zseq in Hi. apply ci_list_in. unfold len in A5. lia. }
  rewrite E, agg_size_total. pose proof (same_other_frame _ _ _ M SO) as F.
  destruct (free_frame ms m1 (ar_data a) (ar_cap a) _ (gf_ok _ _ _ _ F) A4 R) as [m2 [E2 F2]].
  { intros i. destruct (in_dec Z.eq_dec i (zseq (ar_cap a))) as [I|I].
    - apply upd_in. { rewrite map_map, map_id. apply NoDup_zseq. } apply in_map_iff. eauto.
    - rewrite upd_notin by (rewrite map_map, map_id; auto). rewrite in_zseq in I. unfold ci_list.
      destruct (Z.ltb_spec i 0); auto. apply nth_error_None. unfold len in A5. lia. }
  rewrite E2. cbn [run]. exists m2. split; auto. eapply gframe_trans; eauto.
Qed.

(** *** Element access *)
Lemma ar_read_ok : forall ms m a st i c,
  wf_members ms -> region ms m (ar_data a) (ar_cap a) (ci_list st) -> nth_error st (Z.to_nat i) = Some c -> 0 <= i ->
  read_cell m (ar_data a) (ar_acc a i) ms = Val c.
Proof.
  intros ms m a st i c Hw R H Hi. eapply region_read_cell; eauto.
  - rewrite ar_prod. eauto.
  - rewrite ar_idx, ci_list_cells by auto. auto.
Qed.

Lemma ar_iter_ok : forall ms m a mid pre post,
  wf_members ms -> region ms m (ar_data a) (ar_cap a) (ci_list (pre ++ mid ++ post)) ->
  ar_iter_from ms m a (length mid) (len pre) (len pre + len mid) = Val mid.
Proof.
  intros ms m a mid. induction mid as [|c mid IH]; intros pre post Hw R; unfold len in *; cbn [length ar_iter_from].
  - destruct (Z.eqb_spec (Z.of_nat (length pre)) (Z.of_nat (length pre) + Z.of_nat 0)); [auto|lia].
  - destruct (Z.eqb_spec (Z.of_nat (length pre)) (Z.of_nat (length pre) + Z.of_nat (S (length mid)))); [lia|].
    rewrite (ar_read_ok ms m a (pre ++ (c :: mid) ++ post) _ c); auto; [| |lia].
    + specialize (IH (pre ++ [c]) post Hw). rewrite <- app_assoc in IH. specialize (IH R).
      rewrite app_length in IH. cbn [length] in IH.
      replace (Z.of_nat (length pre + 1)) with (Z.of_nat (length pre) + 1) in IH by lia.
      replace (Z.of_nat (length pre) + Z.of_nat (S (length mid))) with (Z.of_nat (length pre) + 1 + Z.of_nat (length mid)) by lia.
      rewrite IH. reflexivity.
    + rewrite Nat2Z.id, nth_error_app2, Nat.sub_diag by lia. reflexivity.
Qed.

(** *** swap *)
Lemma read_swap : forall ms m p q P sl i,
  wf_members ms -> po p = 0 -> po q = 0 -> pb p <> pb q -> In sl (slots ms) -> 0 <= i < P ->
  read (swap_bytes m p q (total ms * P)) (sptr p P sl i) (s_size sl) = read m (sptr q P sl i) (s_size sl) /\
  read (swap_bytes m p q (total ms * P)) (sptr q P sl i) (s_size sl) = read m (sptr p P sl i) (s_size sl).
Proof.
  intros ms m p q P sl i Hw Hp Hq Hne Hs Hi. destruct (slot_range ms sl Hw Hs) as [A [B C]].
  pose proof (slot_addr_bounds P sl i (total ms) A B C Hi) as Hb.
  split; unfold read; apply map_ext_in; intros k Hk; apply in_zseq in Hk; unfold swap_bytes, sptr, padd; cbn [mval pb po]; rewrite Hp, Hq.
  - assert (inside p (total ms * P) (pb p) (0 + slot_addr P sl i + k) = true) as -> by (apply inside_spec; lia).
    f_equal. lia.
  - assert (inside p (total ms * P) (pb q) (0 + slot_addr P sl i + k) = false) as ->.
    { destruct (inside p _ _ _) eqn:E; auto. apply inside_spec in E. destruct E; congruence. }
    assert (inside q (total ms * P) (pb q) (0 + slot_addr P sl i + k) = true) as -> by (apply inside_spec; lia).
    f_equal. lia.
Qed.

Lemma region_other_bytes : forall ms m m' p P ca cb,
  wf_members ms -> region ms m p P ca ->
  msize m' (pb p) = msize m (pb p) -> (forall o, mlive m' (pb p) o = mlive m (pb p) o) ->
  (forall i, ca i = None <-> cb i = None) ->
  (forall i c, cb i = Some c -> wf_cell ms c) ->
  (forall i c sl v, cb i = Some c -> In (sl, v) (combine (slots ms) (concat c)) -> read m' (sptr p P sl i) (s_size sl) = v) ->
  region ms m' p P cb.
Proof.
  intros ms m m' p P ca cb Hw R Hs Hl Hn Hwf Hv. constructor.
  - apply (rg_off _ _ _ _ _ R).
  - apply (rg_P _ _ _ _ _ R).
  - rewrite Hs. apply (rg_size _ _ _ _ _ R).
  - intros i c H. split; eauto. destruct (ca i) as [d|] eqn:E.
    + apply (rg_cell _ _ _ _ _ R i d E).
    + apply Hn in E. congruence.
  - intros i c sl v H Hin. split; [eauto|]. intros Hc. destruct (ca i) as [d|] eqn:E.
    + unfold live. cbn [sptr padd pb po]. rewrite Hl. apply (region_live ms m p P ca i d sl R E); auto.
      apply in_combine_l in Hin; auto.
    + apply Hn in E. congruence.
  - intros o H. rewrite Hl in H. destruct (rg_live _ _ _ _ _ R o H) as [i [c [sl [A B]]]].
    destruct (cb i) as [d|] eqn:E; [eauto|]. apply Hn in E. congruence.
Qed.

Lemma ci_list_none : forall st st', length st = length st' -> forall i, ci_list st i = None <-> ci_list st' i = None.
Proof. intros st st' H i. unfold ci_list. destruct (i <? 0); [tauto|]. rewrite !nth_error_None, H. tauto. Qed.

Lemma ar_swap_ok : forall ms m x X y Y,
  wf_members ms -> mem_ok m -> arep ms m x X -> arep ms m y Y -> bs_cap X = bs_cap Y -> pb (ar_data x) <> pb (ar_data y) ->
  exists m' x' y', ar_swap ms m x y = Val (m', x', y') /\ ar_data x' = ar_data x /\ ar_data y' = ar_data y /\
    arep ms m' x' (mkBS (bs_cap X) (bs_l Y)) /\ arep ms m' y' (mkBS (bs_cap Y) (bs_l X)) /\
    mem_ok m' /\ mnext m' = mnext m /\ (forall b, msize m' b = msize m b) /\
    (forall b o, b <> pb (ar_data x) -> b <> pb (ar_data y) -> mval m' b o = mval m b o) /\
    (forall b o, mlive m' b o = mlive m b o).
Proof.
  intros ms m x X y Y Hw M HX HY Hcap Hne. unfold ar_swap. rewrite agg_size_total.
  destruct HX as [X1 X2 X3 X4 [rx [X5 RX]]]. destruct HY as [Y1 Y2 Y3 Y4 [ry [Y5 RY]]].
  assert (Hc : ar_cap y = ar_cap x) by congruence.
  unfold chk_bounds. rewrite (rg_size _ _ _ _ _ RX), (rg_size _ _ _ _ _ RY), (rg_off _ _ _ _ _ RX), (rg_off _ _ _ _ _ RY).
  rewrite !Z.add_0_l, !Z.leb_refl. cbn [andb Z.leb Z.compare].
  set (m' := swap_bytes m (ar_data x) (ar_data y) (total ms * ar_cap x)).
  exists m', (mkArr (ar_cap x) (ar_n y) (ar_data x)), (mkArr (ar_cap y) (ar_n x) (ar_data y)).
  cbn [ar_data]. split; auto. split; auto. split; auto.
  assert (HL : length (bs_l X ++ rx) = length (bs_l Y ++ ry)) by (unfold len in *; lia).
  split; [|split; [|split; [exact M|split; [auto|split; [auto|split; [|auto]]]]]].
  - constructor; cbn [ar_cap ar_n ar_data bs_cap bs_l]; auto. exists ry. split; [congruence|].
    eapply (region_other_bytes ms m m' _ _ (ci_list (bs_l X ++ rx))); auto.
    + apply ci_list_none; auto.
    + intros i c H. apply (rg_cell _ _ _ _ _ RY i c H).
    + intros i c sl v H Hin. destruct (rg_cell _ _ _ _ _ RY i c H) as [Hi _]. rewrite Hc in *.
      unfold m'. destruct (read_swap ms m (ar_data x) (ar_data y) (ar_cap x) sl i Hw) as [E _]; auto.
      * apply (rg_off _ _ _ _ _ RX).
      * apply (rg_off _ _ _ _ _ RY).
      * apply in_combine_l in Hin; auto.
      * rewrite E. apply (rg_val _ _ _ _ _ RY i c sl v H Hin).
  - constructor; cbn [ar_cap ar_n ar_data bs_cap bs_l]; auto. exists rx. split; [congruence|].
    eapply (region_other_bytes ms m m' _ _ (ci_list (bs_l Y ++ ry))); auto.
    + apply ci_list_none; auto.
    + intros i c H. apply (rg_cell _ _ _ _ _ RX i c H).
    + intros i c sl v H Hin. destruct (rg_cell _ _ _ _ _ RX i c H) as [Hi _]. rewrite Hc in *.
      unfold m'. destruct (read_swap ms m (ar_data x) (ar_data y) (ar_cap x) sl i Hw) as [_ E]; auto.
      * apply (rg_off _ _ _ _ _ RX).
      * apply (rg_off _ _ _ _ _ RY).
      * apply in_combine_l in Hin; auto.
      * rewrite E. apply (rg_val _ _ _ _ _ RX i c sl v H Hin).
  - intros b o B1 B2. unfold m', swap_bytes. cbn [mval].
    destruct (inside (ar_data x) _ b o) eqn:E; [apply inside_spec in E; tauto|].
    destruct (inside (ar_data y) _ b o) eqn:E2; [apply inside_spec in E2; tauto|]. reflexivity.
Qed.

(** *** Bytewise copies of cells without members of class type *)
Lemma trivial_slots : forall ms sl, trivial ms -> In sl (slots ms) -> s_class sl = false.
Proof.
  intros ms sl. unfold slots. generalize 0 as o. induction ms as [|m ms IH]; intros o T H; simpl in H; [contradiction|].
  inversion T as [|? ? T1 T2]; subst. apply in_app_or in H. destruct H as [H|H]; [|eapply IH; eauto].
  unfold member_slots in H. apply in_map_iff in H. destruct H as [k [<- _]]. exact T1.
Qed.

Lemma read_copy_bytes : forall ms m p q P sl i,
  wf_members ms -> po p = 0 -> po q = 0 -> In sl (slots ms) -> 0 <= i < P ->
  read (copy_bytes m p q (total ms * P)) (sptr p P sl i) (s_size sl) = read m (sptr q P sl i) (s_size sl).
Proof.
  intros ms m p q P sl i Hw Hp Hq Hs Hi. destruct (slot_range ms sl Hw Hs) as [A [B C]].
  pose proof (slot_addr_bounds P sl i (total ms) A B C Hi) as Hb.
  unfold read; apply map_ext_in; intros k Hk; apply in_zseq in Hk; unfold copy_bytes, sptr, padd; cbn [mval pb po]; rewrite Hp, Hq.
  assert (inside p (total ms * P) (pb p) (0 + slot_addr P sl i + k) = true) as -> by (apply inside_spec; lia).
  f_equal. lia.
Qed.

Lemma copy_bytes_other : forall m p q n, same_other m (copy_bytes m p q n) (pb p).
Proof.
  intros m p q n. split; [reflexivity|]. split; [reflexivity|]. split; [|reflexivity].
  intros b o H. unfold copy_bytes. cbn [mval]. destruct (inside p n b o) eqn:E; auto. apply inside_spec in E. tauto.
Qed.

Lemma region_copy_bytes : forall ms m p q P ca cb,
  wf_members ms -> trivial ms -> region ms m p P ca -> region ms m q P cb ->
  region ms (copy_bytes m p q (total ms * P)) p P cb.
Proof.
  intros ms m p q P ca cb Hw T R R'. constructor.
  - apply (rg_off _ _ _ _ _ R).
  - apply (rg_P _ _ _ _ _ R).
  - apply (rg_size _ _ _ _ _ R).
  - apply (rg_cell _ _ _ _ _ R').
  - intros i c sl v H Hin. assert (Hs : In sl (slots ms)) by (apply in_combine_l in Hin; auto).
    split; [|intros C; rewrite (trivial_slots ms sl T Hs) in C; discriminate].
    rewrite read_copy_bytes; auto.
    + apply (rg_val _ _ _ _ _ R' i c sl v H Hin).
    + apply (rg_off _ _ _ _ _ R).
    + apply (rg_off _ _ _ _ _ R').
    + apply (rg_cell _ _ _ _ _ R' i c H).
  - intros o H. unfold copy_bytes in H. cbn [mlive] in H. destruct (rg_live _ _ _ _ _ R o H) as [i [c [sl [A [B [C D]]]]]].
    rewrite (trivial_slots ms sl T B) in C. discriminate.
Qed.

Lemma ar_copy_implicit_ok : forall ms m o ob,
  wf_members ms -> trivial ms -> mem_ok m -> arep ms m o ob ->
  exists m' a, ar_copy_implicit ms m o = Ret (m', a) tt /\ gframe m 0 m' (pb (ar_data a)) /\ arep ms m' a ob.
Proof.
  intros ms m o ob Hw T M HO. unfold ar_copy_implicit. pose proof (ap_range _ _ _ _ HO) as Hr.
  destruct (storage_ok ms m (ar_cap o) M) as [m1 [p [-> [F [P1 [P2 R]]]]]]; [lia|]. rewrite agg_size_total.
  pose proof (ap_blk _ _ _ _ HO) as B0.
  assert (HO1 : arep ms m1 o ob) by (eapply arep_frame; eauto).
  destruct HO1 as [O1 O2 O3 O4 [ro [O5 RO]]].
  do 2 eexists. split; [reflexivity|]. cbn [ar_data]. split.
  - eapply same_other_frame0; eauto. apply copy_bytes_other.
  - constructor; cbn [ar_cap ar_n ar_data]; auto. exists ro. split; auto. eapply region_copy_bytes; eauto.
Qed.

Lemma ar_assign_implicit_ok : forall ms m a b o ob,
  wf_members ms -> trivial ms -> arep ms m a b -> arep ms m o ob -> bs_cap b = bs_cap ob ->
  exists m' a', ar_assign_implicit ms (m, a) o = Ret (m', a') tt /\ same_other m m' (pb (ar_data a)) /\ ar_data a' = ar_data a /\
    arep ms m' a' ob.
Proof.
  intros ms m a b o ob Hw T HA HO Hc. unfold ar_assign_implicit. rewrite agg_size_total. cbn [fst snd].
  destruct HA as [A1 A2 A3 A4 [ra [A5 RA]]]. destruct HO as [O1 O2 O3 O4 [ro [O5 RO]]].
  assert (Hcc : ar_cap o = ar_cap a) by congruence.
  do 2 eexists. split; [reflexivity|]. cbn [ar_data]. split; [apply copy_bytes_other|]. split; [reflexivity|].
  constructor; cbn [ar_cap ar_n ar_data]; auto; try congruence. exists ro. split; [congruence|]. rewrite Hcc in *. eapply region_copy_bytes; eauto.
Qed.

(** *** load *)
Lemma ar_load_ok : forall ms m a b o ob i n off,
  wf_members ms -> arep ms m a b -> arep ms m o ob ->
  (pb (ar_data o) <> pb (ar_data a) \/ (o = a /\ (off <= i \/ i + n <= off))) ->
  0 <= i -> 0 <= n -> 0 <= off -> i + n <= len (bs_l ob) -> off + n <= bs_cap b ->
  exists m' a' gap, ar_load ms (m, a) (mkSrc (ar_data o) (ar_cap o) (to_int i)) n off = Ret (m', a') tt /\
    same_other m m' (pb (ar_data a)) /\ ar_data a' = ar_data a /\ length gap = (Z.to_nat off - length (bs_l b))%nat /\
    arep ms m' a' (mkBS (bs_cap b) (over (bs_l b ++ gap) (Z.to_nat off) (firstn (Z.to_nat n) (skipn (Z.to_nat i) (bs_l ob))))).
Proof.
  intros ms m a b o ob i n off Hw HA HO Hdiff Hi Hn Hoff Hin Hfit.
  pose proof (arep_le _ _ _ _ HO) as LO. pose proof (arep_le _ _ _ _ HA) as LA.
  destruct HA as [A1 A2 A3 A4 [ra [A5 RA]]]. destruct HO as [O1 O2 O3 O4 [ro [O5 RO]]].
  unfold ar_load. rewrite sz_small by lia.
  destruct (Z.ltb_spec (ar_cap a) (Z.max (ar_n a) (n + off))); [lia|]. cbn [sa_data sa_cap sa_index].
  rewrite load_canon. unfold ar_at. rewrite !to_int_small by lia. rewrite ar_prod, ar_idx.
  destruct (region_copy_run ms m (ar_data a) (ar_cap a) (bs_l b ++ ra) (ar_data o) (ar_cap o) (bs_l ob ++ ro) off i n)
    as [m' [E [SO R]]]; auto; try lia.
  { destruct Hdiff as [D|[D1 D2]]; auto. subst o. right. repeat split; auto. }
  rewrite E. cbn [run].
  assert (Hx : firstn (Z.to_nat n) (skipn (Z.to_nat i) (bs_l ob ++ ro)) = firstn (Z.to_nat n) (skipn (Z.to_nat i) (bs_l ob))).
  { unfold len in *. rewrite skipn_app, firstn_app, skipn_length.
    replace (Z.to_nat n - (length (bs_l ob) - Z.to_nat i))%nat with 0%nat by lia. cbn [firstn]. apply app_nil_r. }
  rewrite Hx in R. set (xs := firstn (Z.to_nat n) (skipn (Z.to_nat i) (bs_l ob))) in *.
  assert (Hxl : length xs = Z.to_nat n) by (unfold xs, len in *; rewrite firstn_length, skipn_length; lia).
  set (k := (Z.to_nat off - length (bs_l b))%nat).
  assert (Hgl : length (firstn k ra) = k).
  { rewrite firstn_length. unfold len in *. rewrite app_length in A5. unfold k. lia. }
  exists m', (mkArr (ar_cap a) (Z.max (ar_n a) (n + off)) (ar_data a)), (firstn k ra).
  split; auto. split; auto. split; auto. split; auto.
  assert (Hk : (Z.to_nat off <= length (bs_l b ++ firstn k ra))%nat) by (rewrite app_length, Hgl; unfold k; lia).
  constructor; cbn [ar_cap ar_n ar_data bs_cap bs_l]; auto.
  - unfold len in *. rewrite length_over by auto. rewrite app_length, Hgl, Hxl. unfold k. lia.
  - exists (skipn (Z.to_nat off + length xs - length (bs_l b ++ firstn k ra)) (skipn k ra)).
    rewrite <- over_app by auto. rewrite <- app_assoc, firstn_skipn. split.
    + unfold len in *. rewrite length_over; rewrite ?app_length in *; lia.
    + exact R.
Qed.

(** *** The state of a program *)
Definition vblk (W : vworld) (id : nat) : nat := match vw_arrs W id with Some a => pb (ar_data a) | None => 0%nat end.

Record vinv (ms : list member) (W : vworld) (A : bworld) : Prop := {
  vi_mem : mem_ok (vw_mem W);
  vi_rep : forall id, match vw_arrs W id, A id with
    | None, None => True | Some a, Some b => arep ms (vw_mem W) a b | _, _ => False end;
  vi_sep : forall i j a b, vw_arrs W i = Some a -> vw_arrs W j = Some b -> i <> j -> pb (ar_data a) <> pb (ar_data b) }.

(** Every allocated block belongs to an existing object. *)
Definition noleak (W : vworld) : Prop :=
  forall c n, msize (vw_mem W) c = Some n -> exists id a, vw_arrs W id = Some a /\ pb (ar_data a) = c.

Lemma aset_same : forall (T : Type) (f : nat -> option T) id v, aset f id v id = v.
Proof. intros. unfold aset. rewrite Nat.eqb_refl. reflexivity. Qed.
Lemma aset_other : forall (T : Type) (f : nat -> option T) id v i, i <> id -> aset f id v i = f i.
Proof. intros. unfold aset. destruct (Nat.eqb_spec i id); congruence. Qed.

Lemma vinv_some : forall ms W A id b, vinv ms W A -> A id = Some b ->
  exists a, vw_arrs W id = Some a /\ arep ms (vw_mem W) a b.
Proof. intros ms W A id b I H. pose proof (vi_rep _ _ _ I id) as R. rewrite H in R. destruct (vw_arrs W id); [eauto|contradiction]. Qed.
Lemma vinv_none : forall ms W A id, vinv ms W A -> A id = None -> vw_arrs W id = None.
Proof. intros ms W A id I H. pose proof (vi_rep _ _ _ I id) as R. rewrite H in R. destruct (vw_arrs W id); [contradiction|auto]. Qed.

Lemma vinv_set : forall ms W A id m' b' oa ob,
  vinv ms W A -> gframe (vw_mem W) (vblk W id) m' b' ->
  match oa, ob with
  | None, None => b' = 0%nat
  | Some a, Some b => arep ms m' a b /\ pb (ar_data a) = b'
  | _, _ => False
  end ->
  vinv ms (mkVW m' (aset (vw_arrs W) id oa)) (aset A id ob) /\
  (noleak W -> noleak (mkVW m' (aset (vw_arrs W) id oa))).
Proof.
  intros ms W A id m' b' oa ob I F H. split; [constructor; cbn [vw_mem vw_arrs]|].
  - apply (gf_ok _ _ _ _ F).
  - intros i. destruct (Nat.eq_dec i id) as [->|Hi].
    + rewrite !aset_same. destruct oa, ob; auto. apply H.
    + rewrite !aset_other by auto. pose proof (vi_rep _ _ _ I i) as R. destruct (vw_arrs W i) as [a|] eqn:Ei; auto.
      destruct (A i) as [b|]; auto. eapply arep_frame; eauto; [apply (vi_mem _ _ _ I)|].
      unfold vblk. destruct (vw_arrs W id) as [a'|] eqn:Ea.
      * eapply (vi_sep _ _ _ I i id); eauto.
      * apply (ap_blk _ _ _ _ R).
  - assert (G : forall j b, vw_arrs W j = Some b -> j <> id -> forall a, oa = Some a -> pb (ar_data a) <> pb (ar_data b)).
    { intros j b Hj Hne a ->. destruct ob as [B|]; [|contradiction]. destruct H as [H1 H2].
      pose proof (vi_rep _ _ _ I j) as R. rewrite Hj in R. destruct (A j) as [bb|]; [|contradiction].
      pose proof (arep_lt _ _ _ _ (vi_mem _ _ _ I) R) as L. pose proof (ap_blk _ _ _ _ R) as N0.
      pose proof (ap_blk _ _ _ _ H1) as N1.
      destruct (gf_new _ _ _ _ F) as [E|[E|E]]; [|lia|lia].
      rewrite H2, E. unfold vblk. destruct (vw_arrs W id) as [a'|] eqn:Ea; [|lia].
      eapply (vi_sep _ _ _ I id j); eauto. }
    intros i j a b Hi Hj Hne. destruct (Nat.eq_dec i id) as [->|N]; destruct (Nat.eq_dec j id) as [->|N']; try congruence.
    + rewrite aset_same in Hi. rewrite aset_other in Hj by auto. eapply G; eauto.
    + rewrite aset_same in Hj. rewrite aset_other in Hi by auto. intros C. symmetry in C. revert C. eapply G; eauto.
    + rewrite aset_other in Hi, Hj by auto. eapply (vi_sep _ _ _ I i j); eauto.
  - intros NL c n Hc. cbn [vw_mem vw_arrs] in *. destruct (gf_leak _ _ _ _ F c n Hc) as [E|[E1 E2]].
    + destruct oa as [a|].
      * destruct ob as [B|]; [|contradiction]. destruct H as [_ H]. exists id, a. rewrite aset_same. split; congruence.
      * destruct ob as [B|]; [contradiction|]. subst. destruct (gf_ok _ _ _ _ F) as [_ [Z0 _]]. congruence.
    + destruct (NL c n E2) as [j [a [Ej Ea]]]. exists j, a. split; auto.
      rewrite aset_other; auto. intros ->. apply E1. unfold vblk. rewrite Ej. auto.
Qed.

Lemma vinv_keep : forall ms W A m' b', vinv ms W A -> gframe (vw_mem W) 0 m' b' -> vinv ms (mkVW m' (vw_arrs W)) A.
Proof.
  intros ms W A m' b' I F. constructor; cbn [vw_mem vw_arrs].
  - apply (gf_ok _ _ _ _ F).
  - intros i. pose proof (vi_rep _ _ _ I i) as R. destruct (vw_arrs W i) as [a|] eqn:Ei; auto.
    destruct (A i) as [b|]; auto. eapply arep_frame; eauto; [apply (vi_mem _ _ _ I)|]. apply (ap_blk _ _ _ _ R).
  - apply (vi_sep _ _ _ I).
Qed.

Lemma vinv_eq : forall ms W A A', (forall i, A i = A' i) -> vinv ms W A -> vinv ms W A'.
Proof. intros ms W A A' E I. destruct I as [I1 I2 I3]. constructor; auto. intros id. rewrite <- E. apply I2. Qed.

Lemma vinv_start : forall ms, vinv ms vstart no_arrays /\ noleak vstart.
Proof.
  intros ms. split; [constructor; cbn; auto|].
  - split; [auto|]. split; auto.
  - discriminate.
  - intros c n H. discriminate.
Qed.

(** A call that gave up memory nothing refers to: the converting constructor throwing. *)
Definition leaks (op : vop) (ob : vobs) : Prop :=
  match op, ob with VConv _ _ _, VThrow _ => True | _, _ => False end.

Theorem vstep_ok : forall ms W A op,
  wf_members ms -> wf_defaults ms -> vinv ms W A -> vpre ms A op ->
  exists W' A' ob, vstep ms W op = Val (W', ob) /\ astep A op A' ob /\ vinv ms W' A' /\
    (noleak W -> ~ leaks op ob -> noleak W').
Proof.
  intros ms W A op Hw Hd I Hpre. pose proof (vi_mem _ _ _ I) as M.
  assert (REFL : forall id a, vw_arrs W id = Some a -> forall i, aset (vw_arrs W) id (Some a) i = vw_arrs W i).
  { intros id a H i. unfold aset. destruct (Nat.eqb_spec i id); congruence. }
  assert (KEEP : forall id a b, vw_arrs W id = Some a -> A id = Some b ->
     vinv ms (mkVW (vw_mem W) (aset (vw_arrs W) id (Some a))) A /\ (noleak W -> noleak (mkVW (vw_mem W) (aset (vw_arrs W) id (Some a))))).
  { intros id a b Ha Hb. destruct (vinv_set ms W A id (vw_mem W) (vblk W id) (Some a) (Some b) I) as [H1 H2].
    - apply gframe_refl; auto.
    - destruct (vinv_some _ _ _ _ _ I Hb) as [a' [E R]]. unfold vblk. rewrite Ha. split; congruence.
    - split; auto. eapply vinv_eq; [|exact H1]. intros i. unfold aset. destruct (Nat.eqb_spec i id); congruence. }
  assert (SET : forall id a b, A id = Some b -> vw_arrs W id = Some a -> forall m' a' b', same_other (vw_mem W) m' (pb (ar_data a)) ->
     ar_data a' = ar_data a -> arep ms m' a' b' ->
     vinv ms (mkVW m' (aset (vw_arrs W) id (Some a'))) (aset A id (Some b')) /\ (noleak W -> noleak (mkVW m' (aset (vw_arrs W) id (Some a'))))).
  { intros id a b Hb Ha m' a' b' SO Ed R. apply (vinv_set ms W A id m' (pb (ar_data a)) (Some a') (Some b') I).
    - unfold vblk. rewrite Ha. apply same_other_frame; auto.
    - split; congruence. }
  destruct op as [id cap n c|id cap src|d s|id src|d s|id c|id|id|id i c|id i|id|id|id|id|d off s i n|d s i n|a b|id]; cbn [vpre vstep] in *.
  - destruct Hpre as [Hid [Hcap [Hn Hc]]]. pose proof (vinv_none _ _ _ _ I Hid) as Hid'.
    destruct (ar_new_ok ms (vw_mem W) cap n c Hw Hd M Hcap Hn Hc) as [m' [a [-> [F R]]]]. cbn [ar_ctor].
    do 3 eexists. split; [reflexivity|]. split; [constructor|].
    destruct (vinv_set ms W A id m' (pb (ar_data a)) (Some a) (Some (mkBS cap (repeat c (Z.to_nat n)))) I) as [G1 G2]; auto.
    unfold vblk. rewrite Hid'. auto.
  - destruct Hpre as [Hid [Hcap Hsrc]]. pose proof (vinv_none _ _ _ _ I Hid) as Hid'.
    destruct (A src) as [ob|] eqn:Es; [|congruence]. destruct (vinv_some _ _ _ _ _ I Es) as [o [Eo RO]].
    unfold with_arr. rewrite Eo. destruct (Z.le_gt_cases (len (bs_l ob)) cap) as [Hf|Hf].
    + destruct (ar_conv_ok ms (vw_mem W) cap o ob Hw Hd M Hcap RO Hf) as [m' [a [-> [F R]]]]. cbn [ar_ctor].
      do 3 eexists. split; [reflexivity|]. split; [econstructor; eauto|].
      destruct (vinv_set ms W A id m' (pb (ar_data a)) (Some a) (Some (mkBS cap (bs_l ob))) I) as [G1 G2]; auto.
      unfold vblk. rewrite Hid'. auto.
    + destruct (ar_conv_throw ms (vw_mem W) cap o ob Hw Hd M Hcap RO) as [m' [a [b' [-> F]]]]; [lia|]. cbn [ar_ctor].
      do 3 eexists. split; [reflexivity|]. split; [eapply b_conv_throw; eauto; lia|].
      split; [eapply vinv_keep; eauto|]. intros _ C. exfalso. apply C. exact Logic.I.
  - destruct Hpre as [H1 H2]. destruct (A d) as [b|] eqn:Ed; [|congruence]. destruct (A s) as [ob|] eqn:Es; [|congruence].
    destruct (vinv_some _ _ _ _ _ I Ed) as [x [Ex RX]]. destruct (vinv_some _ _ _ _ _ I Es) as [o [Eo RO]].
    unfold with_arr, on_arr. rewrite Eo, Ex. unfold ar_assign.
    destruct (Z.le_gt_cases (len (bs_l ob)) (bs_cap b)) as [Hf|Hf].
    + destruct (ar_copy_in_ok ms (vw_mem W) x b o ob Hw RX RO) as [m' [a' [-> [SO [Ed' R]]]]]; auto.
      { destruct (Nat.eq_dec s d) as [->|N]; [right; congruence|left; eapply (vi_sep _ _ _ I s d); eauto]. }
      destruct (SET d x b Ed Ex m' a' _ SO Ed' R) as [G1 G2].
      do 3 eexists. split; [reflexivity|]. split; [econstructor; eauto|]. auto.
    + unfold ar_copy_in. rewrite (ap_n _ _ _ _ RO), (ap_cap _ _ _ _ RX).
      destruct (Z.ltb_spec (bs_cap b) (len (bs_l ob))); [|lia].
      destruct (KEEP d x b Ex Ed) as [G1 G2].
      do 3 eexists. split; [reflexivity|]. split; [eapply b_assign_throw; eauto; lia|]. auto.
  - destruct Hpre as [Hid [Hsrc T]]. pose proof (vinv_none _ _ _ _ I Hid) as Hid'.
    destruct (A src) as [ob|] eqn:Es; [|congruence]. destruct (vinv_some _ _ _ _ _ I Es) as [o [Eo RO]].
    unfold with_arr. rewrite Eo.
    destruct (ar_copy_implicit_ok ms (vw_mem W) o ob Hw T M RO) as [m' [a [-> [F R]]]]. cbn [ar_ctor].
    do 3 eexists. split; [reflexivity|]. split; [econstructor; eauto|].
    destruct (vinv_set ms W A id m' (pb (ar_data a)) (Some a) (Some ob) I) as [G1 G2]; auto.
    unfold vblk. rewrite Hid'. auto.
  - destruct Hpre as [[b [ob [Ed [Es Hc]]]] T].
    destruct (vinv_some _ _ _ _ _ I Ed) as [x [Ex RX]]. destruct (vinv_some _ _ _ _ _ I Es) as [o [Eo RO]].
    unfold with_arr, on_arr. rewrite Eo, Ex.
    destruct (ar_assign_implicit_ok ms (vw_mem W) x b o ob Hw T RX RO Hc) as [m' [a' [-> [SO [Ed' R]]]]].
    destruct (SET d x b Ed Ex m' a' _ SO Ed' R) as [G1 G2].
    do 3 eexists. split; [reflexivity|]. split; [econstructor; eauto|]. auto.
  - destruct Hpre as [H1 Hc]. destruct (A id) as [b|] eqn:Ed; [|congruence].
    destruct (vinv_some _ _ _ _ _ I Ed) as [x [Ex RX]]. unfold on_arr. rewrite Ex. unfold ar_push.
    pose proof (arep_le _ _ _ _ RX) as Hle. pose proof (ap_n _ _ _ _ RX) as Hn. pose proof (ap_cap _ _ _ _ RX) as Hcp.
    pose proof (ap_range _ _ _ _ RX) as Hr.
    destruct (Z.leb_spec (ar_cap x) (ar_n x)) as [Hf|Hf].
    + destruct (KEEP id x b Ex Ed) as [G1 G2].
      do 3 eexists. split; [reflexivity|]. split; [eapply b_push_throw; eauto; lia|]. auto.
    + unfold ar_at. pose proof (len_nonneg (bs_l b)). rewrite to_int_small by lia. rewrite sz_small by lia.
      destruct (ap_region _ _ _ _ RX) as [ra [Hra R]].
      destruct (write_ok ms (vw_mem W) x (bs_l b ++ ra) (ar_n x) c Hw R Hc) as [m' [E [SO R']]].
      { unfold len in *. rewrite app_length in *. lia. }
      rewrite E. cbn [run].
      destruct (SET id x b Ed Ex m' (mkArr (ar_cap x) (ar_n x + 1) (ar_data x)) (mkBS (bs_cap b) (bs_l b ++ [c])) SO eq_refl) as [G1 G2].
      { rewrite over_app in R' by (unfold len in *; lia). rewrite Hn in R'. unfold len in R'. rewrite Nat2Z.id, over_end in R'.
        constructor; cbn [ar_cap ar_n ar_data bs_cap bs_l]; auto; try apply RX.
        - unfold len in *. rewrite app_length. simpl. lia.
        - eexists. split; [|exact R']. unfold len in *. rewrite !app_length, skipn_length in *. cbn [length]. lia. }
      do 3 eexists. split; [reflexivity|]. split; [econstructor; eauto; lia|]. auto.
  - destruct (A id) as [b|] eqn:Ed; [|congruence]. destruct (vinv_some _ _ _ _ _ I Ed) as [x [Ex RX]].
    unfold on_arr. rewrite Ex. unfold ar_pop.
    pose proof (arep_le _ _ _ _ RX) as Hle. pose proof (ap_n _ _ _ _ RX) as Hn. pose proof (ap_range _ _ _ _ RX) as Hr.
    destruct (Z.eqb_spec (ar_n x) 0) as [H0|H0].
    + destruct (KEEP id x b Ex Ed) as [G1 G2]. assert (bs_l b = []) by (destruct (bs_l b); auto; unfold len in *; simpl in *; lia).
      do 3 eexists. split; [reflexivity|]. split; [eapply b_pop_throw; eauto|]. auto.
    + assert (Hne : bs_l b <> []) by (intros C; rewrite C in Hn; apply H0; rewrite Hn; reflexivity).
      destruct (exists_last Hne) as [l [c El]].
      assert (Hlen : len (bs_l b) = len l + 1) by (rewrite El; unfold len; rewrite app_length; simpl; lia).
      pose proof (len_nonneg l). rewrite sz_small by lia.
      destruct (SET id x b Ed Ex (vw_mem W) (mkArr (ar_cap x) (ar_n x - 1) (ar_data x)) (mkBS (bs_cap b) l)) as [G1 G2].
      { apply same_other_refl. } { reflexivity. }
      { destruct RX as [A1 A2 A3 A4 [ra [A5 RA]]]. constructor; cbn [ar_cap ar_n ar_data bs_cap bs_l]; auto; [lia|].
        exists (c :: ra). replace (l ++ c :: ra) with (bs_l b ++ ra); auto. rewrite El, <- app_assoc. reflexivity. }
      do 3 eexists. split; [reflexivity|]. split; [econstructor; eauto|]. auto.
  - destruct (A id) as [b|] eqn:Ed; [|congruence]. destruct (vinv_some _ _ _ _ _ I Ed) as [x [Ex RX]].
    unfold on_arr. rewrite Ex. unfold ar_clear.
    destruct (SET id x b Ed Ex (vw_mem W) (mkArr (ar_cap x) 0 (ar_data x)) (mkBS (bs_cap b) [])) as [G1 G2].
    { apply same_other_refl. } { reflexivity. }
    { destruct RX as [A1 A2 A3 A4 [ra [A5 RA]]]. constructor; cbn [ar_cap ar_n ar_data bs_cap bs_l]; auto.
      exists (bs_l b ++ ra). auto. }
    do 3 eexists. split; [reflexivity|]. split; [econstructor; eauto|]. auto.
  - destruct Hpre as [[b [Ed Hi]] Hc]. destruct (vinv_some _ _ _ _ _ I Ed) as [x [Ex RX]].
    unfold on_arr. rewrite Ex. unfold ar_write, ar_at.
    pose proof (arep_le _ _ _ _ RX) as Hle. pose proof (ap_range _ _ _ _ RX) as Hr. rewrite to_int_small by lia.
    destruct (ap_region _ _ _ _ RX) as [ra [Hra R]].
    destruct (write_ok ms (vw_mem W) x (bs_l b ++ ra) i c Hw R Hc) as [m' [E [SO R']]].
    { unfold len in *. rewrite app_length in *. lia. }
    rewrite E. cbn [run].
    destruct (SET id x b Ed Ex m' x (mkBS (bs_cap b) (over (bs_l b) (Z.to_nat i) [c])) SO eq_refl) as [G1 G2].
    { unfold len in Hi. rewrite over_app in R' by lia. cbn [length] in R'.
      replace (Z.to_nat i + 1 - length (bs_l b))%nat with 0%nat in R' by lia. cbn [skipn] in R'.
      destruct RX as [A1 A2 A3 A4 A5].
      assert (HL : length (over (bs_l b) (Z.to_nat i) [c]) = length (bs_l b)) by (rewrite length_over; simpl; lia).
      constructor; cbn [bs_cap bs_l]; auto.
      - unfold len in *. lia.
      - exists ra. split; auto. unfold len in *. rewrite app_length in *. lia. }
    do 3 eexists. split; [reflexivity|]. split; [econstructor; eauto|]. auto.
  - destruct Hpre as [b [Ed Hi]]. destruct (vinv_some _ _ _ _ _ I Ed) as [x [Ex RX]].
    unfold on_arr. rewrite Ex. unfold ar_get, ar_at.
    pose proof (arep_le _ _ _ _ RX) as Hle. pose proof (ap_range _ _ _ _ RX) as Hr. rewrite to_int_small by lia.
    destruct (ap_region _ _ _ _ RX) as [ra [Hra R]].
    destruct (nth_error (bs_l b) (Z.to_nat i)) as [c|] eqn:En.
    2:{ exfalso. apply nth_error_None in En. unfold len in Hi. lia. }
    rewrite (ar_read_ok ms (vw_mem W) x (bs_l b ++ ra) i c); auto; [| |lia].
    + destruct (KEEP id x b Ex Ed) as [G1 G2]. do 3 eexists. split; [reflexivity|]. split; [econstructor; eauto|]. auto.
    + rewrite nth_error_app1; auto. apply nth_error_Some. congruence.
  - destruct Hpre as [b [Ed Hi]]. destruct (vinv_some _ _ _ _ _ I Ed) as [x [Ex RX]].
    unfold on_arr. rewrite Ex. unfold ar_back, ar_get, ar_at. cbn [snd].
    pose proof (arep_le _ _ _ _ RX) as Hle. pose proof (ap_range _ _ _ _ RX) as Hr.
    destruct (exists_last Hi) as [l [c El]].
    assert (Hlen : ar_n x = len l + 1) by (rewrite (ap_n _ _ _ _ RX), El; unfold len; rewrite app_length; simpl; lia).
    pose proof (ap_n _ _ _ _ RX). pose proof (len_nonneg l). rewrite sz_small by lia. rewrite to_int_small by lia.
    destruct (ap_region _ _ _ _ RX) as [ra [Hra R]].
    rewrite (ar_read_ok ms (vw_mem W) x (bs_l b ++ ra) (ar_n x - 1) c); auto; [| |lia].
    + destruct (KEEP id x b Ex Ed) as [G1 G2]. do 3 eexists. split; [reflexivity|]. split; [econstructor; eauto|]. auto.
    + rewrite El, Hlen. unfold len. replace (Z.to_nat (Z.of_nat (length l) + 1 - 1)) with (length l) by lia.
      rewrite <- app_assoc, nth_error_app2, Nat.sub_diag by lia. reflexivity.
  - destruct (A id) as [b|] eqn:Ed; [|congruence]. destruct (vinv_some _ _ _ _ _ I Ed) as [x [Ex RX]].
    unfold on_arr. rewrite Ex. cbn [snd]. destruct (KEEP id x b Ex Ed) as [G1 G2].
    do 3 eexists. split; [reflexivity|]. rewrite (ap_n _ _ _ _ RX). split; [econstructor; eauto|]. auto.
  - destruct (A id) as [b|] eqn:Ed; [|congruence]. destruct (vinv_some _ _ _ _ _ I Ed) as [x [Ex RX]].
    unfold on_arr. rewrite Ex. cbn [snd]. destruct (KEEP id x b Ex Ed) as [G1 G2].
    do 3 eexists. split; [reflexivity|]. rewrite (ap_cap _ _ _ _ RX). split; [econstructor; eauto|]. auto.
  - destruct (A id) as [b|] eqn:Ed; [|congruence]. destruct (vinv_some _ _ _ _ _ I Ed) as [x [Ex RX]].
    unfold on_arr. rewrite Ex. unfold ar_iter, ar_at. 
    pose proof (arep_le _ _ _ _ RX) as Hle. pose proof (ap_range _ _ _ _ RX) as Hr. pose proof (ap_n _ _ _ _ RX) as Hn.
    pose proof (len_nonneg (bs_l b)). rewrite !to_int_small by lia. cbn [ar_acc a_index].
    destruct (ap_region _ _ _ _ RX) as [ra [Hra R]].
    pose proof (ar_iter_ok ms (vw_mem W) x (bs_l b) [] ra Hw R) as E. cbn [app] in E.
    rewrite Hn. unfold len in *. rewrite Nat2Z.id. cbn [length Z.of_nat] in E. rewrite Z.add_0_l in E. rewrite E.
    destruct (KEEP id x b Ex Ed) as [G1 G2]. do 3 eexists. split; [reflexivity|]. split; [econstructor; eauto|]. auto.
  - destruct Hpre as [H1 [[ob [Es Hin]] [Hi [Hn [Hoff [Hw64 Hov]]]]]]. destruct (A d) as [b|] eqn:Ed; [|congruence].
    destruct (vinv_some _ _ _ _ _ I Ed) as [x [Ex RX]]. destruct (vinv_some _ _ _ _ _ I Es) as [o [Eo RO]].
    unfold with_arr, on_arr. rewrite Eo, Ex.
    assert (Hxl : len (firstn (Z.to_nat n) (skipn (Z.to_nat i) (bs_l ob))) = n).
    { unfold len in *. rewrite firstn_length, skipn_length. lia. }
    destruct (Z.le_gt_cases (off + n) (bs_cap b)) as [Hf|Hf].
    + destruct (ar_load_ok ms (vw_mem W) x b o ob i n off Hw RX RO) as [m' [a' [gap [-> [SO [Ed' [Hg R]]]]]]]; auto.
      { destruct (Nat.eq_dec s d) as [->|N]; [right; split; [congruence|lia]|left; eapply (vi_sep _ _ _ I s d); eauto]. }
      destruct (SET d x b Ed Ex m' a' _ SO Ed' R) as [G1 G2].
      do 3 eexists. split; [reflexivity|]. split; [|eauto]. econstructor; eauto. apply lr_ok; auto. lia.
    + unfold ar_load. pose proof (ap_cap _ _ _ _ RX). rewrite sz_small by lia.
      destruct (Z.ltb_spec (ar_cap x) (Z.max (ar_n x) (n + off))); [|lia].
      destruct (KEEP d x b Ex Ed) as [G1 G2].
      exists (mkVW (vw_mem W) (aset (vw_arrs W) d (Some x))), (aset A d (Some (mkBS (bs_cap b) (bs_l b)))), (VThrow OutOfRange).
      split; [reflexivity|]. split.
      * econstructor; eauto. apply lr_throw. lia.
      * split; [|auto]. eapply vinv_eq; [|exact G1]. intros k. unfold aset. destruct (Nat.eqb_spec k d); auto. subst k. rewrite Ed. destruct b; reflexivity.
  - destruct Hpre as [H1 [[ob [Es Hin]] [Hi Hn]]]. destruct (A d) as [b|] eqn:Ed; [|congruence].
    destruct (vinv_some _ _ _ _ _ I Ed) as [x [Ex RX]]. destruct (vinv_some _ _ _ _ _ I Es) as [o [Eo RO]].
    unfold with_arr, on_arr. rewrite Eo, Ex. unfold ar_load_app. cbn [snd].
    pose proof (ap_n _ _ _ _ RX) as Hnx. rewrite Hnx.
    pose proof (arep_le _ _ _ _ RX) as Hle. pose proof (ap_range _ _ _ _ RX) as Hr. pose proof (len_nonneg (bs_l b)).
    pose proof (arep_le _ _ _ _ RO) as Hle'. pose proof (ap_range _ _ _ _ RO) as Hr'.
    assert (Hxl : len (firstn (Z.to_nat n) (skipn (Z.to_nat i) (bs_l ob))) = n).
    { unfold len in *. rewrite firstn_length, skipn_length. lia. }
    destruct (Z.le_gt_cases (len (bs_l b) + n) (bs_cap b)) as [Hf|Hf].
    + destruct (ar_load_ok ms (vw_mem W) x b o ob i n (len (bs_l b)) Hw RX RO) as [m' [a' [gap [-> [SO [Ed' [Hg R]]]]]]]; auto.
      { destruct (Nat.eq_dec s d) as [->|N]; [right; split; [congruence|]|left; eapply (vi_sep _ _ _ I s d); eauto].
        right. assert (ob = b) by congruence. subst. auto. }
      destruct (SET d x b Ed Ex m' a' _ SO Ed' R) as [G1 G2].
      do 3 eexists. split; [reflexivity|]. split; [|eauto]. econstructor; eauto. apply lr_ok; auto. lia.
    + unfold ar_load. pose proof (ap_cap _ _ _ _ RX). rewrite sz_small by lia.
      destruct (Z.ltb_spec (ar_cap x) (Z.max (ar_n x) (n + len (bs_l b)))); [|lia].
      destruct (KEEP d x b Ex Ed) as [G1 G2].
      exists (mkVW (vw_mem W) (aset (vw_arrs W) d (Some x))), (aset A d (Some (mkBS (bs_cap b) (bs_l b)))), (VThrow OutOfRange).
      split; [reflexivity|]. split.
      * econstructor; eauto. apply lr_throw. lia.
      * split; [|auto]. eapply vinv_eq; [|exact G1]. intros k. unfold aset. destruct (Nat.eqb_spec k d); auto. subst k. rewrite Ed. destruct b; reflexivity.
  - destruct Hpre as [Hne [X [Y [EX [EY Hcap]]]]].
    destruct (vinv_some _ _ _ _ _ I EX) as [x [Ex RX]]. destruct (vinv_some _ _ _ _ _ I EY) as [y [Ey RY]].
    unfold with_arr. rewrite Ex, Ey.
    assert (Hb : pb (ar_data x) <> pb (ar_data y)) by (eapply (vi_sep _ _ _ I a b); eauto).
    destruct (ar_swap_ok ms (vw_mem W) x X y Y Hw M RX RY Hcap Hb)
      as [m' [x' [y' [-> [Dx [Dy [RX' [RY' [M' [N' [S' [V' L']]]]]]]]]]]].
    do 3 eexists. split; [reflexivity|]. split; [econstructor; eauto|].
    assert (OLD : forall i q, aset (aset (vw_arrs W) a (Some x')) b (Some y') i = Some q ->
       exists q0, vw_arrs W i = Some q0 /\ ar_data q0 = ar_data q).
    { intros i q. unfold aset. destruct (Nat.eqb_spec i b) as [->|].
      - intros E. inversion E; subst. exists y. auto.
      - destruct (Nat.eqb_spec i a) as [->|]; [|eauto]. intros E. inversion E; subst. exists x. auto. }
    split; [constructor; cbn [vw_mem vw_arrs]; auto|].
    + intros i. unfold aset. destruct (Nat.eqb_spec i b) as [->|Nb]; auto. destruct (Nat.eqb_spec i a) as [->|Na]; auto.
      pose proof (vi_rep _ _ _ I i) as R. destruct (vw_arrs W i) as [q|] eqn:Ei; auto. destruct (A i) as [B|]; auto.
      assert (pb (ar_data q) <> pb (ar_data x)) by (eapply (vi_sep _ _ _ I i a); eauto).
      assert (pb (ar_data q) <> pb (ar_data y)) by (eapply (vi_sep _ _ _ I i b); eauto).
      destruct R as [A1 A2 A3 A4 [ra [A5 RA]]]. constructor; auto. exists ra. split; auto. eapply region_frame; eauto.
    + intros i j p q Hi Hj Hij. apply OLD in Hi, Hj. destruct Hi as [p0 [Hi <-]], Hj as [q0 [Hj <-]].
      eapply (vi_sep _ _ _ I i j); eauto.
    + intros NL _ c n Hc. cbn [vw_mem vw_arrs] in *. rewrite S' in Hc. destruct (NL c n Hc) as [j [q [Ej Eq]]].
      unfold aset. destruct (Nat.eq_dec j b) as [->|Nb].
      * exists b, y'. rewrite Nat.eqb_refl. split; auto. congruence.
      * destruct (Nat.eq_dec j a) as [->|Na].
        -- exists a, x'. destruct (Nat.eqb_spec a b); [congruence|]. rewrite Nat.eqb_refl. split; auto. congruence.
        -- exists j, q. destruct (Nat.eqb_spec j b); [congruence|]. destruct (Nat.eqb_spec j a); [congruence|]. auto.
  - destruct (A id) as [b|] eqn:Ed; [|congruence]. destruct (vinv_some _ _ _ _ _ I Ed) as [x [Ex RX]].
    unfold with_arr. rewrite Ex. destruct (ar_destroy_ok ms (vw_mem W) x b Hw M RX) as [m' [-> F]].
    do 3 eexists. split; [reflexivity|]. split; [constructor|].
    destruct (vinv_set ms W A id m' 0%nat None None I) as [G1 G2]; auto.
    unfold vblk. rewrite Ex. exact F.
Qed.

Theorem vrun_ok : forall ms ops W A,
  wf_members ms -> wf_defaults ms -> vinv ms W A -> legal ms A ops ->
  exists W' A' obs, vrun ms W ops = Val (W', obs) /\ arun A ops A' obs /\ vinv ms W' A'.
Proof.
  intros ms ops. induction ops as [|op ops IH]; intros W A Hw Hd I L.
  - exists W, A, []. split; [reflexivity|]. split; [constructor|auto].
  - destruct L as [L1 L2]. destruct (vstep_ok ms W A op Hw Hd I L1) as [W1 [A1 [ob [E [S [I1 _]]]]]].
    destruct (IH W1 A1 Hw Hd I1 (L2 _ _ S)) as [W2 [A2 [obs [E2 [S2 I2]]]]].
    exists W2, A2, (ob :: obs). cbn [vrun]. rewrite E, E2. split; auto. split; auto. econstructor; eauto.
Qed.
