(** Lemmas about ArrayThrow.v. *)
From Coq Require Import ZArith List Lia Bool.
From Verif Require Import Base Layout LayoutProofs Sizes SizesProofs Mem MemProofs
  Accessor AccessorProofs RegionProofs Grid SpecGrid GridProofs GridInv BufferProofs GridOps GridSim GridView
  Array SpecArray ArrayProofs Vector GridThrow SpecGridThrow GridThrowProofs ArrayThrow SpecArrayThrow.
Import ListNotations.
Open Scope Z_scope.

(** *** Values after some of the assignments *)
Lemma assigns_read_sep : forall ops m m' q s,
  (forall op, In op ops -> assigning op = true /\ 0 < op_size op /\ sep (op_dst op) (op_size op) q s) ->
  exec ops m = Val m' -> read m' q s = read m q s.
Proof.
  induction ops as [|op r IH]; intros m m' q s Ha H; cbn [exec] in H; [inversion H; auto|].
  destruct (exec1 m op) as [m1|f] eqn:E; [|discriminate].
  destruct (Ha op (or_introl eq_refl)) as [A [S D]]. destruct (assign1_spec _ _ _ A E) as [_ [_ [_ W]]].
  rewrite (IH m1 m' q s) by (auto; intros; apply Ha; right; auto). rewrite W. apply read_write_sep.
  rewrite (assign1_len _ _ _ A E S). exact D.
Qed.

(** As [assigns_value]; sources may lie in the same block as long as they have not been
    assigned to when they are read. *)
Lemma assigns_value2 : forall ops m m' q s,
  (forall op, In op ops -> assigning op = true /\ 0 < op_size op /\
     ((op_dst op = q /\ op_size op = s) \/ sep (op_dst op) (op_size op) q s)) ->
  (forall r op r' m1, ops = r ++ op :: r' -> exec r m = Val m1 -> op_val m1 op = op_val m op) ->
  exec ops m = Val m' ->
  read m' q s = read m q s \/
  exists op, In op ops /\ op_dst op = q /\ op_size op = s /\ read m' q s = op_val m op.
Proof.
  intros ops. induction ops as [|op r IH] using rev_ind; intros m m' q s Ha Hi H.
  - cbn [exec] in H. inversion H; subst. auto.
  - rewrite exec_app in H. destruct (exec r m) as [m1|f] eqn:E; [|discriminate]. cbn [exec] in H.
    destruct (exec1 m1 op) as [m2|f] eqn:E2; [|discriminate]. inversion H; subst m2. clear H.
    destruct (Ha op) as [A [S0 D]]. { apply in_or_app. right. left. reflexivity. }
    destruct (assign1_spec _ _ _ A E2) as [_ [_ [_ W]]].
    pose proof (Hi r op [] m1 eq_refl E) as Hval.
    destruct D as [[Dq Ds]|D].
    + right. exists op. split; [apply in_or_app; right; left; reflexivity|]. split; auto. split; auto.
      rewrite W, <- Hval, Dq. apply read_write_same. rewrite <- Ds. eapply assign1_len; eauto.
    + destruct (IH m m1 q s) as [Hr|[o [Ho [O1 [O2 O3]]]]]; auto.
      { intros o Ho. apply Ha. apply in_or_app; auto. }
      { intros r1 o r2 m2 -> E3. apply (Hi r1 o (r2 ++ [op])); auto. rewrite <- app_assoc. reflexivity. }
      * left. rewrite <- Hr, W. apply read_write_sep. rewrite (assign1_len _ _ _ A E2 S0). exact D.
      * right. exists o. split; [apply in_or_app; auto|]. split; auto. split; auto. rewrite <- O3, W.
        apply read_write_sep. rewrite (assign1_len _ _ _ A E2 S0). exact D.
Qed.

Lemma patched_prefix : forall ms l rest off xs st',
  patched ms (l ++ rest) off xs st' -> patched ms l off xs (firstn (length l) st') /\
  length (firstn (length l) st' ++ skipn (length l) st') = length (l ++ rest).
Proof.
  intros ms l rest off xs st' [L H]. rewrite firstn_skipn. split; auto. rewrite app_length in L. split.
  - rewrite firstn_length. lia.
  - intros j old c Hl Hc. assert (Hj : (j < length l)%nat) by (apply nth_error_Some; congruence).
    apply H. { rewrite nth_error_app1; auto. }
    rewrite <- Hc. symmetry. rewrite <- (firstn_skipn (length l) st') at 2. rewrite nth_error_app1; auto.
    rewrite firstn_length. lia.
Qed.

(** The array after some of the assignments of one call. *)
Lemma region_partial : forall ms m p P st off xs pre m',
  wf_members ms -> region ms m p P (ci_list st) -> len st = P -> 0 <= off -> off + len xs <= P -> Forall (wf_cell ms) xs ->
  (forall op, In op pre -> assigning op = true /\ exists sl k c, In sl (slots ms) /\ nth_error xs k = Some c /\
     op_dst op = sptr p P sl (off + Z.of_nat k) /\ op_size op = s_size sl /\
     In (sl, op_val m op) (combine (slots ms) (concat c))) ->
  (forall r op r' m1, pre = r ++ op :: r' -> exec r m = Val m1 -> op_val m1 op = op_val m op) ->
  exec pre m = Val m' ->
  exists st', same_other m m' (pb p) /\ patched ms st (Z.to_nat off) xs st' /\ region ms m' p P (ci_list st').
Proof.
  intros ms m p P st off xs pre m' Hw R A5 Ho Hfit Hxs Hpre Hind E.
  destruct (assigns_same pre m m' (pb p)) as [SO HL]; auto.
  { intros op Hop. destruct (Hpre op Hop) as [A [sl [k [c [_ [_ [D _]]]]]]]. rewrite D. auto. }
  set (st' := map (fun i => held ms m' p P (Z.of_nat i)) (seq 0 (length st))).
  assert (Hst' : forall j, (j < length st)%nat -> nth_error st' j = Some (held ms m' p P (Z.of_nat j))).
  { intros j Hj. unfold st'. apply (map_nth_error (fun i => held ms m' p P (Z.of_nat i))).
    rewrite (nth_error_nth' _ 0%nat) by (rewrite seq_length; auto). rewrite seq_nth by auto. reflexivity. }
  assert (HR : region ms m' p P (ci_list st')).
  { eapply region_ext; [|exact (region_any ms m m' p P (ci_list st) Hw R (proj1 (proj2 SO) (pb p)) (HL (pb p)))].
    intros i. cbn beta. unfold ci_list. destruct (Z.ltb_spec i 0); auto.
    destruct (le_lt_dec (length st) (Z.to_nat i)) as [G|G].
    - assert (nth_error st (Z.to_nat i) = None) as -> by (apply nth_error_None; auto).
      symmetry. apply nth_error_None. unfold st'. rewrite map_length, seq_length. auto.
    - rewrite Hst' by auto. destruct (nth_error st (Z.to_nat i)) eqn:En; [|apply nth_error_None in En; lia].
      rewrite Z2Nat.id by lia. reflexivity. }
  assert (HP : patched ms st (Z.to_nat off) xs st').
  { split; [unfold st'; rewrite map_length, seq_length; auto|]. intros j old c Hold Hc.
    assert (Hj : (j < length st)%nat) by (apply nth_error_Some; congruence).
    rewrite Hst' in Hc by auto. inversion Hc; subst c. clear Hc. unfold len in *.
    assert (Hi : 0 <= Z.of_nat j < P) by lia.
    assert (Hold' : old = held ms m p P (Z.of_nat j)).
    { eapply region_held; eauto. rewrite ci_list_cells by lia. rewrite Nat2Z.id. exact Hold. }
    assert (V : forall sl, In sl (slots ms) ->
       read m' (sptr p P sl (Z.of_nat j)) (s_size sl) = read m (sptr p P sl (Z.of_nat j)) (s_size sl) \/
       exists k c, Z.of_nat j = off + Z.of_nat k /\ nth_error xs k = Some c /\
         In (sl, read m' (sptr p P sl (Z.of_nat j)) (s_size sl)) (combine (slots ms) (concat c))).
    { intros sl Hs.
      assert (Hkr : forall k c, nth_error xs k = Some c -> 0 <= off + Z.of_nat k < P).
      { intros k c Hk. assert (k < length xs)%nat by (apply nth_error_Some; congruence). lia. }
      destruct (assigns_value2 pre m m' (sptr p P sl (Z.of_nat j)) (s_size sl)) as [H|[op [Hop [O1 [O2 O3]]]]]; auto.
      - intros op Hop. destruct (Hpre op Hop) as [A [sl' [k [c [Hs' [Hk [D [Sz _]]]]]]]].
        split; auto. destruct (slot_range _ sl' Hw Hs') as [_ [_ Hp]]. split; [lia|].
        pose proof (Hkr _ _ Hk) as Hi'.
        destruct (Z.eq_dec (off + Z.of_nat k) (Z.of_nat j)) as [Ei|Ei].
        + rewrite D, Sz, Ei.
          destruct (FOP_In2 _ _ _ sl' sl (slots_from_ordered ms 0 Hw) Hs' Hs) as [Q|Q]; [subst; auto|].
          right. apply (keys_sep ms); auto. intros Q'. inversion Q'; subst sl'.
          destruct (slot_range _ sl Hw Hs) as [_ [_ Hp']]. unfold slot_before in Q. lia.
        + right. rewrite D, Sz. apply (keys_sep ms); auto. congruence.
      - right. destruct (Hpre op Hop) as [A [sl' [k [c [Hs' [Hk [D [Sz Hv]]]]]]]].
        pose proof (Hkr _ _ Hk) as Hi'.
        rewrite D in O1. assert (Hkey : (sl', off + Z.of_nat k) = (sl, Z.of_nat j)).
        { apply (key_addr_inj ms P); auto. unfold sptr, padd in O1. inversion O1. lia. }
        assert (Esl : sl' = sl) by congruence. assert (Ei : off + Z.of_nat k = Z.of_nat j) by congruence. subst sl'.
        exists k, c. rewrite O3. auto. }
    destruct (Nat.leb_spec (Z.to_nat off) j) as [G1|G1]; destruct (Nat.ltb_spec j (Z.to_nat off + length xs)) as [G2|G2]; cbn [andb].
    2,3,4: rewrite Hold'; apply (concat_inj ms); auto using held_wf; rewrite !held_concat; apply map_ext_in; intros sl Hs;
      destruct (V sl Hs) as [H|[k [c [Hj' [Hk _]]]]]; [exact H|]; exfalso; assert (k < length xs)%nat by (apply nth_error_Some; congruence); lia.
    destruct (nth_error xs (j - Z.to_nat off)) as [cn|] eqn:En; [|apply nth_error_None in En; lia].
    enough (HM : mixed ms old cn (held ms m' p P (Z.of_nat j))) by (rewrite <- (nth_error_nth _ _ [] En) in HM; exact HM).
    split; [apply held_wf; auto|]. intros t. rewrite Hold', !held_concat, !nth_error_map.
    destruct (nth_error (slots ms) t) as [sl|] eqn:Et; [|auto]. cbn [option_map].
    destruct (V sl (nth_error_In _ _ Et)) as [->|[k [c [Hj' [Hk Hin]]]]]; [auto|]. right.
    assert (k = (j - Z.to_nat off)%nat) by lia. subst k. assert (c = cn) by congruence. subst c.
    destruct (combine_nth_error _ _ (slots ms) (concat cn) t sl) as [v [Hb Hib]]; auto.
    { rewrite Forall_forall in Hxs. exact (length_slots_from ms 0 cn (Hxs cn (nth_error_In _ _ En))). }
    rewrite Hb. f_equal. eapply combine_NoDup_fun; [apply (slots_NoDup ms Hw)|exact Hin|exact Hib]. }
  exists st'. auto.
Qed.

Lemma arep_partial : forall ms m a b off xs pre m',
  wf_members ms -> arep ms m a b -> 0 <= off -> off + len xs <= ar_cap a -> Forall (wf_cell ms) xs ->
  (forall op, In op pre -> assigning op = true /\ exists sl k c, In sl (slots ms) /\ nth_error xs k = Some c /\
     op_dst op = sptr (ar_data a) (ar_cap a) sl (off + Z.of_nat k) /\ op_size op = s_size sl /\
     In (sl, op_val m op) (combine (slots ms) (concat c))) ->
  (forall r op r' m1, pre = r ++ op :: r' -> exec r m = Val m1 -> op_val m1 op = op_val m op) ->
  exec pre m = Val m' ->
  exists l', same_other m m' (pb (ar_data a)) /\ patched ms (bs_l b) (Z.to_nat off) xs l' /\
    arep ms m' a (mkBS (bs_cap b) l').
Proof.
  intros ms m a b off xs pre m' Hw HA Ho Hfit Hxs Hpre Hind E.
  destruct HA as [A1 A2 A3 A4 [rest [A5 R]]].
  destruct (region_partial ms m (ar_data a) (ar_cap a) (bs_l b ++ rest) off xs pre m') as [st' [SO [HP HR]]]; auto.
  destruct (patched_prefix _ _ _ _ _ _ HP) as [P1 P2].
  exists (firstn (length (bs_l b)) st'). split; auto. split; auto.
  constructor; cbn [bs_cap bs_l]; auto.
  - rewrite A3. unfold len. destruct P1 as [-> _]. reflexivity.
  - exists (skipn (length (bs_l b)) st'). split; [unfold len in *; rewrite P2; exact A5|]. rewrite firstn_skipn. exact HR.
Qed.

(** *** Element assignments *)
Lemma assign_partial : forall ms m a b i c pre op post m',
  wf_members ms -> arep ms m a b -> 0 <= i < ar_cap a -> wf_cell ms c ->
  assign_ops (ar_data a) (ar_acc a i) ms c = pre ++ op :: post -> exec pre m = Val m' ->
  exists l', same_other m m' (pb (ar_data a)) /\ patched ms (bs_l b) (Z.to_nat i) [c] l' /\ arep ms m' a (mkBS (bs_cap b) l').
Proof.
  intros ms m a b i c pre op post m' Hw HA Hi Hc Eo E. rewrite assign_canon in Eo by auto. rewrite ar_prod, ar_idx in Eo.
  assert (Hin : forall o, In o pre -> exists sl v, o = Assign (sptr (ar_data a) (ar_cap a) sl i) (s_size sl) (s_class sl) v /\
     In (sl, v) (combine (slots ms) (concat c))).
  { intros o Ho. assert (Ho' : In o (pre ++ op :: post)) by (apply in_or_app; auto). rewrite <- Eo in Ho'.
    apply in_map_iff in Ho'. destruct Ho' as [[sl v] [<- Hv]]. eauto. }
  eapply (arep_partial ms m a b i [c] pre m'); eauto; try lia.
  - unfold len. cbn [length]. lia.
  - intros o Ho. destruct (Hin o Ho) as [sl [v [-> Hv]]]. split; auto. exists sl, 0%nat, c. cbn [op_dst op_size op_val].
    split; [apply in_combine_l in Hv; auto|]. split; auto. split; [f_equal; lia|]. auto.
  - intros r o r' m1 -> _. destruct (Hin o) as [sl [v [-> _]]]; [apply in_or_app; right; left; auto|]. reflexivity.
Qed.

(** *** Copies of runs *)
Lemma copy_partial : forall ms m a b o ob off i n pre op post m',
  wf_members ms -> arep ms m a b -> arep ms m o ob ->
  (pb (ar_data o) <> pb (ar_data a) \/ (o = a /\ (off <= i \/ i + n <= off))) ->
  0 <= i -> 0 <= n -> 0 <= off -> i + n <= len (bs_l ob) -> off + n <= ar_cap a ->
  slot_copy_ops ms (ar_data a) (ar_cap a) off (ar_data o) (ar_cap o) i n = pre ++ op :: post -> exec pre m = Val m' ->
  exists l', same_other m m' (pb (ar_data a)) /\
    patched ms (bs_l b) (Z.to_nat off) (firstn (Z.to_nat n) (skipn (Z.to_nat i) (bs_l ob))) l' /\
    arep ms m' a (mkBS (bs_cap b) l').
Proof.
  intros ms m a b o ob off i n pre op post m' Hw HA HO Hdiff Hi Hn Hoff Hin Hfit Eo E.
  pose proof (arep_wf _ _ _ _ HO) as HWF. pose proof (arep_le _ _ _ _ HO) as LO. rewrite slot_copy_ops_keys in Eo.
  assert (Hxl : length (firstn (Z.to_nat n) (skipn (Z.to_nat i) (bs_l ob))) = Z.to_nat n)
    by (unfold len in *; rewrite firstn_length, skipn_length; lia).
  assert (Hkeys : exists k1 key k2, row_keys ms [(off, i, n)] = k1 ++ key :: k2 /\
     pre = map (copy_key_op (ar_data a) (ar_cap a) (ar_data o) (ar_cap o)) k1).
  { apply map_eq_app in Eo. destruct Eo as [k1 [k2 [K1 [K2 K3]]]]. destruct k2 as [|key k2]; [discriminate|]. exists k1, key, k2. auto. }
  destruct Hkeys as [k1 [key [k2 [K1 K2]]]].
  assert (HK : forall k, In k k1 -> In (fst (fst k)) (slots ms) /\ exists t, 0 <= t < n /\ snd (fst k) = off + t /\ snd k = i + t).
  { intros k Hk. assert (Hk' : In k (row_keys ms [(off, i, n)])) by (rewrite K1; apply in_or_app; auto).
    apply in_row_keys_pairs in Hk'. destruct Hk' as [S1 S2]. split; auto. unfold row_pairs in S2. cbn [flat_map fst snd] in S2.
    rewrite app_nil_r in S2. apply in_map_iff in S2. destruct S2 as [t [Et Ht]]. apply in_zseq in Ht. exists t.
    split; auto. inversion Et. lia. }
  destruct (ap_region _ _ _ _ HO) as [ro [O5 RO]].
  subst pre. eapply (arep_partial ms m a b off); eauto.
  - unfold len. rewrite Hxl. lia.
  - apply Forall_forall. intros c Hc. rewrite Forall_forall in HWF. apply HWF.
    assert (In c (skipn (Z.to_nat i) (bs_l ob))) by (rewrite <- (firstn_skipn (Z.to_nat n)); apply in_or_app; auto).
    rewrite <- (firstn_skipn (Z.to_nat i) (bs_l ob)). apply in_or_app; auto.
  - intros oo Hoo. apply in_map_iff in Hoo. destruct Hoo as [k [<- Hk]]. destruct (HK k Hk) as [S1 [t [Ht [T1 T2]]]].
    unfold copy_key_op. cbn [assigning op_dst op_size op_val]. split; auto.
    destruct (nth_error (bs_l ob) (Z.to_nat (i + t))) as [c|] eqn:Ec; [|apply nth_error_None in Ec; unfold len in *; lia].
    exists (fst (fst k)), (Z.to_nat t), c. split; auto. split.
    { rewrite nth_error_sub by lia. rewrite <- Ec. f_equal. lia. }
    split; [rewrite T1; f_equal; lia|]. split; auto.
    assert (Hci : ci_list (bs_l ob ++ ro) (snd k) = Some c).
    { rewrite T2, ci_list_cells by lia. rewrite nth_error_app1; auto. apply nth_error_Some. congruence. }
    destruct (rg_cell _ _ _ _ _ RO _ _ Hci) as [_ Hwf].
    destruct (cell_value ms c (fst (fst k)) Hwf S1) as [w Hv].
    destruct (rg_val _ _ _ _ _ RO _ _ _ _ Hci Hv) as [-> _]. exact Hv.
  - intros r oo r' m1 Er E1. apply map_eq_app in Er. destruct Er as [r1 [r2 [R1 [R2 R3]]]].
    destruct r2 as [|k r2]; [discriminate|]. cbn [map] in R3. injection R3 as <- R4. subst r.
    unfold copy_key_op. cbn [op_val].
    assert (Hk : In k k1) by (rewrite R1; apply in_or_app; right; left; auto).
    destruct (HK k Hk) as [S1 [t [Ht [T1 T2]]]].
    destruct Hdiff as [D|[D1 D2]].
    + destruct (assigns_same (map (copy_key_op (ar_data a) (ar_cap a) (ar_data o) (ar_cap o)) r1) m m1 (pb (ar_data a))) as [[_ [_ [V _]]] _]; auto.
      { intros q Hq. apply in_map_iff in Hq. destruct Hq as [k' [<- _]]. split; reflexivity. }
      apply read_ext. intros j Hj. apply V. exact D.
    + subst o. eapply assigns_read_sep; [|exact E1]. intros q Hq. apply in_map_iff in Hq. destruct Hq as [k' [<- Hk']].
      assert (Hk'1 : In k' k1) by (rewrite R1; apply in_or_app; auto).
      destruct (HK k' Hk'1) as [S1' [t' [Ht' [T1' T2']]]]. unfold copy_key_op. cbn [assigning op_size op_dst].
      destruct (slot_range _ _ Hw S1') as [_ [_ Hp]]. split; auto. split; [lia|].
      apply (keys_sep ms); auto; try lia.
      pose proof (row_keys_ordered ms off i n Hw D2) as FO. rewrite K1, R1 in FO.
      rewrite <- app_assoc in FO. cbn [app] in FO.
      assert (Q : fst (fst k') <> fst (fst k) \/ snd (fst k') <> snd k).
      { clear - FO Hk'. induction r1 as [|x r1 IH]; [contradiction|]. cbn [app] in FO. inversion FO as [|? ? F1 F2]; subst.
        destruct Hk' as [->|Hk']; auto. rewrite Forall_forall in F1. apply F1. apply in_or_app. right. left. reflexivity. }
      intros C. inversion C. destruct Q; congruence.
Qed.

(** *** How many calls of members *)
Lemma calls_filter : forall (X : Type) (f : X -> mop) (g : X -> bool) l, (forall x, may_throw (f x) = g x) -> calls (map f l) = length (filter g l).
Proof. intros X f g l H. unfold calls. rewrite filter_map_comm, map_length. f_equal. apply filter_ext. auto. Qed.

Lemma calls_app : forall a b, calls (a ++ b) = (calls a + calls b)%nat.
Proof. intros. unfold calls. rewrite filter_app, app_length. reflexivity. Qed.

Lemma class_slots : forall ms, length (filter s_class (slots ms)) = class_elements ms.
Proof. intros. apply (filter_class_slots ms 0). Qed.

Lemma filter_combine : forall (X Y : Type) (g : X -> bool) (l : list X) (r : list Y), length l = length r ->
  length (filter (fun e => g (fst e)) (combine l r)) = length (filter g l).
Proof.
  intros X Y g. induction l as [|x l IH]; intros [|y r] H; cbn in *; try discriminate; auto.
  destruct (g x); cbn [length]; rewrite IH; auto.
Qed.

Lemma calls_assign : forall d a ms c, wf_cell ms c -> calls (assign_ops d a ms c) = class_elements ms.
Proof.
  intros d a ms c H. rewrite assign_canon by auto. rewrite (calls_filter _ _ (fun e => s_class (fst e))) by (intros []; reflexivity).
  rewrite filter_combine by exact (length_slots_from ms 0 c H). apply class_slots.
Qed.

Lemma calls_copy : forall ms p P off q Q i n, calls (slot_copy_ops ms p P off q Q i n) = (Z.to_nat n * class_elements ms)%nat.
Proof.
  intros. unfold slot_copy_ops. rewrite <- class_slots. induction (slots ms) as [|sl l IH]; [cbn; lia|].
  cbn [flat_map filter]. rewrite calls_app, IH. rewrite (calls_filter _ _ (fun _ => s_class sl)) by reflexivity.
  assert (E : forall b (l : list Z), length (filter (fun _ => b) l) = if b then length l else 0%nat).
  { intros b k. induction k as [|x k IHk]; cbn; destruct b; cbn; auto. }
  rewrite E. destruct (s_class sl); cbn [length]; rewrite ?length_zseq; lia.
Qed.

Lemma calls_flat : forall (f : Z -> list mop) k l, (forall i, In i l -> calls (f i) = k) -> calls (flat_map f l) = (length l * k)%nat.
Proof.
  intros f k. induction l as [|i l IH]; intros H; auto. cbn [flat_map length]. rewrite calls_app, IH, H by (cbn; auto; intros; apply H; cbn; auto).
  cbn. lia.
Qed.

Lemma calls_construct_all : forall ms a, calls (construct_all ms a) = (Z.to_nat (ar_cap a) * class_elements ms)%nat.
Proof.
  intros. unfold construct_all. rewrite (calls_flat _ (class_elements ms)); [rewrite length_zseq; reflexivity|].
  intros i _. rewrite construct_members_canon. rewrite (calls_filter _ _ s_class) by reflexivity. apply class_slots.
Qed.

(** *** Running *)
Definition left_of (s s' : sched) (n : nat) : Prop :=
  match sc_ops s with Some k => (n <= k)%nat /\ sc_ops s' = Some (k - n)%nat | None => sc_ops s' = None end.

Lemma ops_cases : forall s ops m m' before after, exec ops m = Val m' ->
  (exists s', x_ar_ops s ops m before after = XRet s' (m', after) tt /\ left_of s s' (calls ops)) \/
  (exists m1 pre op post, x_ar_ops s ops m before after = XThr (m1, before) XMember /\ ops = pre ++ op :: post /\
     exec pre m = Val m1 /\ sc_ops s = Some (calls pre) /\ (calls pre < calls ops)%nat).
Proof.
  intros s ops m m' before after E. unfold x_ar_ops, left_of. pose proof (exec_x_inv ops s m) as I.
  destruct (exec_x s ops m) as [s' m1 []|m1 e| |f].
  - left. destruct I as [E1 [_ [H1 H2]]]. assert (m1 = m') by congruence. subst m1. exists s'. split; auto.
    destruct (sc_ops s); auto.
  - right. destruct I as [-> [pre [op [post [-> [Hm [Ep Hk]]]]]]]. exists m1, pre, op, post. split; auto. split; auto. split; auto. split; auto.
    rewrite calls_app. unfold calls at 3. cbn [filter]. rewrite Hm. cbn [length]. lia.
  - contradiction.
  - congruence.
Qed.

(** *** Construction *)
Lemma alive_ext : forall m m' b n, (forall o, mlive m' b o = mlive m b o) -> alive m' b n = alive m b n.
Proof. intros m m' b n H. unfold alive. f_equal. apply filter_ext. auto. Qed.

Lemma construct_all_keys : forall ms a, construct_all ms a = map (mkC (ar_data a) (ar_cap a)) (keys_of ms (zseq (ar_cap a))).
Proof.
  intros. rewrite map_keys_of. unfold construct_all. apply flat_map_ext. intros i. rewrite construct_members_canon, ar_prod, ar_idx. reflexivity.
Qed.

Lemma construct_all_cases : forall ms s m a b,
  wf_members ms -> wf_defaults ms -> 0 <= ar_cap a -> region ms m (ar_data a) (ar_cap a) (fun _ => None) ->
  (exists s' m', x_ar_ops s (construct_all ms a) m b b = XRet s' (m', b) tt /\ exec (construct_all ms a) m = Val m' /\
     left_of s s' (Z.to_nat (ar_cap a) * class_elements ms) /\
     alive m' (pb (ar_data a)) (total ms * ar_cap a) = (Z.to_nat (ar_cap a) * class_elements ms)%nat) \/
  (exists m' k, x_ar_ops s (construct_all ms a) m b b = XThr (m', b) XMember /\ sc_ops s = Some k /\
     (k < Z.to_nat (ar_cap a) * class_elements ms)%nat /\ same_other m m' (pb (ar_data a)) /\
     alive m' (pb (ar_data a)) (total ms * ar_cap a) = k).
Proof.
  intros ms s m a b Hw Hd Hc R. destruct (construct_all_ok ms m a Hw Hd Hc R) as [m' [E _]].
  pose proof (ops_cases s _ m m' b b E) as C. rewrite calls_construct_all in C.
  assert (Hn : NoDup (keys_of ms (zseq (ar_cap a)))) by (apply NoDup_prod_idx; auto; apply NoDup_zseq).
  assert (Hk : forall sl i, In (sl, i) (keys_of ms (zseq (ar_cap a))) -> In sl (slots ms) /\ 0 <= i < ar_cap a).
  { intros sl i H. apply in_prod_idx in H. destruct H as [H1 H2]. apply in_zseq in H2. auto. }
  destruct C as [[s' [C1 C2]]|[m1 [pre [op [post [C1 [C2 [C3 [C4 C5]]]]]]]]].
  - left. exists s', m'. split; auto. split; auto. split; auto. rewrite <- calls_construct_all, construct_all_keys.
    rewrite construct_all_keys in E.
    destruct (construct_prefix ms m (ar_data a) (ar_cap a) _ Hw Hd R Hn Hk) as [m2 [E2 [_ HL]]].
    assert (m2 = m') by congruence. subst m2. apply alive_calls; auto. apply (rg_off _ _ _ _ _ R).
  - right. exists m1, (calls pre). split; auto. split; auto. split; auto.
    rewrite construct_all_keys in C2.
    assert (Hs : exists k1 key k2, keys_of ms (zseq (ar_cap a)) = k1 ++ key :: k2 /\ pre = map (mkC (ar_data a) (ar_cap a)) k1).
    { apply map_eq_app in C2. destruct C2 as [k1 [k2 [K1 [K2 K3]]]]. destruct k2 as [|key k2]; [discriminate|]. exists k1, key, k2. auto. }
    destruct Hs as [k1 [key [k2 [K1 K2]]]].
    assert (Hk1 : forall sl i, In (sl, i) k1 -> In sl (slots ms) /\ 0 <= i < ar_cap a)
      by (intros; apply Hk; rewrite K1; apply in_or_app; auto).
    assert (Hn1 : NoDup k1) by (rewrite K1 in Hn; apply NoDup_app_iff in Hn; tauto).
    destruct (construct_prefix ms m (ar_data a) (ar_cap a) k1 Hw Hd R Hn1 Hk1) as [m2 [E2 [SO HL]]].
    rewrite K2 in C3. assert (m2 = m1) by congruence. subst m2. split; auto. rewrite K2. apply alive_calls; auto. apply (rg_off _ _ _ _ _ R).
Qed.

(** What a constructor left behind. *)
Definition lost (ms : list member) (m m' : mem) (cap : Z) (k : nat) : Prop :=
  exists b, gframe m 0 m' b /\ leaves_block m m' b (total ms * cap) k.

Lemma lost_of : forall ms m m1 m' p cap k,
  mem_ok m -> gframe m 0 m1 (pb p) -> pb p = mnext m -> region ms m1 p cap (fun _ => None) -> same_other m1 m' (pb p) ->
  alive m' (pb p) (total ms * cap) = k -> lost ms m m' cap k.
Proof.
  intros ms m m1 m' p cap k M F Hp R SO Ha. exists (pb p). pose proof (same_other_frame0 _ _ _ _ F SO) as F'. split; auto.
  apply frame_leaves; auto; [lia|]. destruct SO as [_ [S _]]. rewrite S. apply (rg_size _ _ _ _ _ R).
Qed.

Lemma left_of_trans : forall s s1 s2 a b, left_of s s1 a -> left_of s1 s2 b -> left_of s s2 (a + b).
Proof.
  unfold left_of. intros s s1 s2 a b H1 H2. destruct (sc_ops s) as [k|].
  - destruct H1 as [A B]. rewrite B in H2. destruct H2 as [C D]. split; [lia|]. rewrite D. f_equal. lia.
  - rewrite H1 in H2. auto.
Qed.

Lemma x_ar_new_cases : forall ms s m cap n c,
  wf_members ms -> wf_defaults ms -> mem_ok m -> 0 < cap < 2 ^ 31 -> 0 <= n <= cap -> wf_cell ms c ->
  let ce := class_elements ms in
  (exists s' w, x_ar_new ms s m cap n c = XRet s' w tt /\ ar_new ms m cap n c = Ret w tt /\ left_of s s' (Z.to_nat (cap + n) * ce)) \/
  (exists m' a k, x_ar_new ms s m cap n c = XThr (m', a) XMember /\ sc_ops s = Some k /\ (k < Z.to_nat (cap + n) * ce)%nat /\
     lost ms m m' cap (Nat.min k (Z.to_nat cap * ce))).
Proof.
  intros ms s m cap n c Hw Hd M Hcap Hn Hc ce. unfold x_ar_new, ar_new.
  destruct (storage_ok ms m cap M) as [m1 [p [-> [F [P1 [P2 R]]]]]]; [lia|].
  assert (Hsum : (Z.to_nat (cap + n) * ce = Z.to_nat cap * ce + Z.to_nat n * ce)%nat) by (rewrite Z2Nat.inj_add by lia; lia).
  destruct (construct_all_cases ms s m1 (mkArr cap n p) (mkArr cap n p) Hw Hd) as [[s1 [m2 [E1 [E1' [L1 A1]]]]]|[m2 [k [E1 [Hk [Hlt [SO A1]]]]]]];
    auto; try (cbn [ar_cap]; lia); cbn [ar_data ar_cap] in *.
  2: { right. rewrite E1. cbn [xbind]. exists m2, (mkArr cap n p), k. split; auto. split; auto. split; [fold ce in Hlt; lia|].
       rewrite Nat.min_l by (fold ce in Hlt; lia). eapply (lost_of ms m m1); eauto. }
  rewrite E1, E1'. cbn [xbind fst]. rewrite to_int_small by lia.
  destruct (construct_all_ok ms m1 (mkArr cap n p)) as [m2' [Q2 [S2 R2]]]; auto; [cbn [ar_cap]; lia|].
  assert (m2' = m2) by congruence. subst m2'. cbn [ar_data ar_cap] in *.
  destruct (fill_ok ms m2 (mkArr cap n p) (repeat (default_cell ms) (Z.to_nat cap)) n c) as [m3 [E3 [S3 R3]]]; auto.
  { unfold len. rewrite repeat_length. lia. }
  cbn [ar_data ar_cap] in *. set (ops := flat_map (fun i => assign_ops p (ar_acc (mkArr cap n p) i) ms c) (zseq n)) in *.
  assert (Hcalls : calls ops = (Z.to_nat n * ce)%nat).
  { unfold ops. rewrite (calls_flat _ ce) by (intros; apply calls_assign; auto). rewrite length_zseq. reflexivity. }
  destruct (ops_cases s1 ops m2 m3 (mkArr cap n p) (mkArr cap n p) E3) as [[s2 [C1 C2]]|[m4 [pre [op [post [C1 [C2 [C3 [C4 C5]]]]]]]]].
  - left. exists s2, (m3, mkArr cap n p). split; auto. split; [rewrite E3; reflexivity|]. rewrite Hsum, <- Hcalls. eapply left_of_trans; eauto.
  - right. unfold left_of in L1. fold ce in L1, A1. destruct (sc_ops s) as [k|] eqn:Hk; [|congruence]. destruct L1 as [L1 L2].
    exists m4, (mkArr cap n p), k. split; auto. split; auto. rewrite C4 in L2. inversion L2 as [L3]. rewrite Hcalls in C5. split; [lia|].
    rewrite Nat.min_r by lia.
    destruct (assigns_same pre m2 m4 (pb p)) as [SO HL]; auto.
    { intros o Ho. assert (Ho' : In o ops) by (rewrite C2; apply in_or_app; auto). unfold ops in Ho'. apply in_flat_map in Ho'.
      destruct Ho' as [i [_ Ho']]. rewrite assign_canon in Ho' by auto. apply in_map_iff in Ho'. destruct Ho' as [[sl v] [<- _]]. split; reflexivity. }
    eapply (lost_of ms m m1); eauto; [eapply same_other_trans; eauto|]. rewrite (alive_ext m2 m4) by auto. exact A1.
Qed.

(** *** Copying *)
Lemma x_copy_in_cases : forall ms s m a b o ob,
  wf_members ms -> arep ms m a b -> arep ms m o ob -> (pb (ar_data o) <> pb (ar_data a) \/ o = a) ->
  if len (bs_l ob) <=? bs_cap b then
    (exists s' w, x_ar_copy_in ms s (m, a) o = XRet s' w tt /\ ar_copy_in ms (m, a) o = Ret w tt /\
       left_of s s' (Z.to_nat (len (bs_l ob)) * class_elements ms)) \/
    (exists m' k l', x_ar_copy_in ms s (m, a) o = XThr (m', a) XMember /\ sc_ops s = Some k /\
       (k < Z.to_nat (len (bs_l ob)) * class_elements ms)%nat /\ same_other m m' (pb (ar_data a)) /\
       (forall b o, mlive m' b o = mlive m b o) /\
       patched ms (bs_l b) 0 (bs_l ob) l' /\ arep ms m' a (mkBS (bs_cap b) l'))
  else x_ar_copy_in ms s (m, a) o = XThr (m, a) (XLib OutOfRange) /\ ar_copy_in ms (m, a) o = Thr (m, a) OutOfRange.
Proof.
  intros ms s m a b o ob Hw HA HO Hdiff. pose proof (ap_cap _ _ _ _ HA) as A1. pose proof (ap_n _ _ _ _ HO) as O3.
  pose proof (ap_range _ _ _ _ HA) as A2.
  destruct (Z.leb_spec (len (bs_l ob)) (bs_cap b)) as [G|G].
  2: { unfold x_ar_copy_in, ar_copy_in. destruct (Z.ltb_spec (ar_cap a) (ar_n o)); [auto|lia]. }
  destruct (ar_copy_in_ok ms m a b o ob Hw HA HO Hdiff G) as [m' [a' [E _]]].
  unfold ar_copy_in in E. unfold x_ar_copy_in, ar_copy_in. destruct (Z.ltb_spec (ar_cap a) (ar_n o)); [lia|].
  rewrite copy_members_canon in *. unfold ar_at in *. rewrite to_int_small in * by lia. rewrite !ar_prod, !ar_idx in *. rewrite O3 in *.
  set (ops := slot_copy_ops ms (ar_data a) (ar_cap a) 0 (ar_data o) (ar_cap o) 0 (len (bs_l ob))) in *.
  destruct (exec ops m) as [m2|f] eqn:E2; [|discriminate]. cbn [run] in *.
  assert (Hcalls : calls ops = (Z.to_nat (len (bs_l ob)) * class_elements ms)%nat) by (unfold ops; apply calls_copy).
  destruct (ops_cases s ops m m2 a (mkArr (ar_cap a) (len (bs_l ob)) (ar_data a)) E2) as [[s2 [C1 C2]]|[m4 [pre [op [post [C1 [C2 [C3 [C4 C5]]]]]]]]].
  - left. exists s2, (m2, mkArr (ar_cap a) (len (bs_l ob)) (ar_data a)). rewrite <- Hcalls. auto.
  - right. pose proof (len_nonneg (bs_l ob)).
    destruct (copy_partial ms m a b o ob 0 0 (len (bs_l ob)) pre op post m4 Hw HA HO) as [l' [SO [HP HA']]]; auto; try lia.
    { destruct Hdiff as [D| ->]; auto. right. split; auto. lia. }
    exists m4, (calls pre), l'. split; auto. split; auto. split; [rewrite <- Hcalls; auto|]. split; auto. split; [|split; auto].
    + destruct (assigns_same pre m m4 (pb (ar_data a))) as [_ HL]; auto.
      intros q Hq. assert (Hq' : In q ops) by (rewrite C2; apply in_or_app; auto). unfold ops in Hq'. rewrite slot_copy_ops_keys in Hq'.
      apply in_map_iff in Hq'. destruct Hq' as [k' [<- _]]. split; reflexivity.
    + cbn [Z.to_nat skipn] in HP. unfold len in HP. rewrite Nat2Z.id, firstn_all in HP. exact HP.
Qed.

Lemma x_ar_conv_cases : forall ms s m cap o ob,
  wf_members ms -> wf_defaults ms -> mem_ok m -> 0 < cap < 2 ^ 31 -> arep ms m o ob ->
  let ce := class_elements ms in
  let N := (Z.to_nat (cap + (if (len (bs_l ob) <=? cap)%Z then len (bs_l ob) else 0)) * ce)%nat in
  (exists s' w, x_ar_conv ms s m cap o = XRet s' w tt /\ ar_conv ms m cap o = Ret w tt /\ left_of s s' N) \/
  (exists s' w, x_ar_conv ms s m cap o = XThr w (XLib OutOfRange) /\ ar_conv ms m cap o = Thr w OutOfRange /\ left_of s s' N) \/
  (exists m' a k, x_ar_conv ms s m cap o = XThr (m', a) XMember /\ sc_ops s = Some k /\ (k < N)%nat /\
     lost ms m m' cap (Nat.min k (Z.to_nat cap * ce))).
Proof.
  intros ms s m cap o ob Hw Hd M Hcap HO ce N. unfold x_ar_conv, ar_conv. pose proof (len_nonneg (bs_l ob)) as Hnn.
  destruct (storage_ok ms m cap M) as [m1 [p [-> [F [P1 [P2 R]]]]]]; [lia|].
  assert (HN : N = (Z.to_nat cap * ce + (if (len (bs_l ob) <=? cap)%Z then Z.to_nat (len (bs_l ob)) * ce else 0))%nat).
  { unfold N. destruct (len (bs_l ob) <=? cap); [rewrite Z2Nat.inj_add by lia; lia|rewrite Z.add_0_r; lia]. }
  clearbody N. subst N.
  destruct (construct_all_cases ms s m1 (mkArr cap 0 p) (mkArr cap 0 p) Hw Hd) as [[s1 [m2 [E1 [E1' [L1 A1]]]]]|[m2 [k [E1 [Hk [Hlt [SO A1]]]]]]];
    auto; try (cbn [ar_cap]; lia); cbn [ar_data ar_cap] in *.
  2: { fold ce in Hlt. right. right. rewrite E1. cbn [xbind]. exists m2, (mkArr cap 0 p), k. split; auto. split; auto. split; [lia|].
       rewrite Nat.min_l by lia. eapply (lost_of ms m m1); eauto. }
  fold ce in L1, A1. rewrite E1, E1'. cbn [xbind].
  destruct (construct_all_ok ms m1 (mkArr cap 0 p)) as [m2' [Q2 [S2 R2]]]; auto; [cbn [ar_cap]; lia|].
  assert (m2' = m2) by congruence. subst m2'. cbn [ar_data ar_cap] in *. pose proof (same_other_frame0 _ _ _ _ F S2) as F2.
  pose proof (arep_lt _ _ _ _ M HO) as L. pose proof (ap_blk _ _ _ _ HO) as B0.
  assert (HO2 : arep ms m2 o ob) by (eapply arep_frame; eauto).
  assert (HA : arep ms m2 (mkArr cap 0 p) (mkBS cap [])).
  { eapply arep_fresh; eauto. unfold len. rewrite repeat_length. lia. }
  assert (Hdiff : pb (ar_data o) <> pb (ar_data (mkArr cap 0 p)) \/ o = mkArr cap 0 p) by (left; cbn [ar_data]; lia).
  pose proof (x_copy_in_cases ms s1 m2 _ _ o ob Hw HA HO2 Hdiff) as C. cbn [bs_cap bs_l ar_data] in C. fold ce in C.
  destruct (Z.leb_spec (len (bs_l ob)) cap) as [G|G].
  - destruct C as [[s2 [w [C1 [C2 C3]]]]|[m4 [k [l' [C1 [C2 [C3 [C4 [C5 _]]]]]]]]].
    + left. exists s2, w. split; auto. split; auto. eapply left_of_trans; eauto.
    + right. right. unfold left_of in L1. destruct (sc_ops s) as [k0|] eqn:Hk; [|congruence]. destruct L1 as [L1 L2].
      exists m4, (mkArr cap 0 p), k0. split; auto. split; auto. rewrite C2 in L2. inversion L2 as [L3]. split; [lia|].
      rewrite Nat.min_r by lia. eapply (lost_of ms m m1); eauto; [eapply same_other_trans; eauto|]. rewrite (alive_ext m2 m4) by auto. exact A1.
  - destruct C as [C1 C2]. right. left. exists s1, (m2, mkArr cap 0 p). rewrite Nat.add_0_r. auto.
Qed.

Lemma x_ar_write_cases : forall ms s m a b i c,
  wf_members ms -> arep ms m a b -> 0 <= i < len (bs_l b) -> wf_cell ms c ->
  (exists s' w, x_ar_write ms s (m, a) i c = XRet s' w tt /\ ar_write ms (m, a) i c = Ret w tt /\ left_of s s' (class_elements ms)) \/
  (exists m' k l', x_ar_write ms s (m, a) i c = XThr (m', a) XMember /\ sc_ops s = Some k /\ (k < class_elements ms)%nat /\
     same_other m m' (pb (ar_data a)) /\ patched ms (bs_l b) (Z.to_nat i) [c] l' /\ arep ms m' a (mkBS (bs_cap b) l')).
Proof.
  intros ms s m a b i c Hw HA Hi Hc. pose proof (arep_le _ _ _ _ HA) as Hle. pose proof (ap_range _ _ _ _ HA) as A2.
  destruct (ap_region _ _ _ _ HA) as [rest [A5 R]].
  unfold x_ar_write, ar_write, ar_at. rewrite to_int_small by lia.
  destruct (write_ok ms m a (bs_l b ++ rest) i c Hw R Hc) as [m2 [E2 _]]; [lia|].
  pose proof (calls_assign (ar_data a) (ar_acc a i) ms c Hc) as Hcalls.
  destruct (ops_cases s _ m m2 a a E2) as [[s2 [C1 C2]]|[m4 [pre [op [post [C1 [C2 [C3 [C4 C5]]]]]]]]].
  - left. exists s2, (m2, a). rewrite E2, <- Hcalls. auto.
  - right. destruct (assign_partial ms m a b i c pre op post m4 Hw HA) as [l' [SO [HP HA']]]; auto; [lia|].
    exists m4, (calls pre), l'. rewrite <- Hcalls. auto 10.
Qed.

Lemma nth_error_ext' : forall (X : Type) (l l' : list X), (forall j, nth_error l' j = nth_error l j) -> l' = l.
Proof.
  intros X. induction l as [|x l IH]; intros [|y l'] H; auto; try (specialize (H 0%nat); discriminate).
  pose proof (H 0%nat) as H0. cbn in H0. inversion H0; subst. f_equal. apply IH. intros j. exact (H (S j)).
Qed.

Lemma patched_beyond : forall ms l off xs l', (length l <= off)%nat -> patched ms l off xs l' -> l' = l.
Proof.
  intros ms l off xs l' H [L P]. apply nth_error_ext'. intros j. 
  destruct (nth_error l j) as [old|] eqn:E.
  - assert (Hj : (j < length l)%nat) by (apply nth_error_Some; congruence).
    destruct (nth_error l' j) as [c|] eqn:E'; [|apply nth_error_None in E'; lia].
    specialize (P j old c E E'). destruct (Nat.leb_spec off j); [lia|]. cbn [andb] in P. congruence.
  - apply nth_error_None in E. apply nth_error_None. lia.
Qed.

Lemma x_ar_push_cases : forall ms s m a b c,
  wf_members ms -> arep ms m a b -> wf_cell ms c ->
  if len (bs_l b) <? bs_cap b then
    (exists s' w, x_ar_push ms s (m, a) c = XRet s' w tt /\ ar_push ms (m, a) c = Ret w tt /\ left_of s s' (class_elements ms)) \/
    (exists m' k, x_ar_push ms s (m, a) c = XThr (m', a) XMember /\ sc_ops s = Some k /\ (k < class_elements ms)%nat /\
       same_other m m' (pb (ar_data a)) /\ arep ms m' a b)
  else x_ar_push ms s (m, a) c = XThr (m, a) (XLib OutOfRange) /\ ar_push ms (m, a) c = Thr (m, a) OutOfRange.
Proof.
  intros ms s m a b c Hw HA Hc. pose proof (arep_le _ _ _ _ HA) as Hle. pose proof (ap_range _ _ _ _ HA) as A2.
  pose proof (ap_cap _ _ _ _ HA) as A1. pose proof (ap_n _ _ _ _ HA) as A3.
  destruct (ap_region _ _ _ _ HA) as [rest [A5 R]]. pose proof (len_nonneg (bs_l b)).
  unfold x_ar_push, ar_push, ar_at. destruct (Z.ltb_spec (len (bs_l b)) (bs_cap b)) as [G|G].
  2: { destruct (Z.leb_spec (ar_cap a) (ar_n a)); [auto|lia]. }
  destruct (Z.leb_spec (ar_cap a) (ar_n a)); [lia|]. rewrite to_int_small by lia.
  destruct (write_ok ms m a (bs_l b ++ rest) (ar_n a) c Hw R Hc) as [m2 [E2 _]]; [lia|].
  pose proof (calls_assign (ar_data a) (ar_acc a (ar_n a)) ms c Hc) as Hcalls.
  destruct (ops_cases s _ m m2 a (mkArr (ar_cap a) (sz (ar_n a + 1)) (ar_data a)) E2) as [[s2 [C1 C2]]|[m4 [pre [op [post [C1 [C2 [C3 [C4 C5]]]]]]]]].
  - left. exists s2. eexists. split; [exact C1|]. rewrite E2, <- Hcalls. auto.
  - right. destruct (assign_partial ms m a b (ar_n a) c pre op post m4 Hw HA) as [l' [SO [HP HA']]]; auto; [lia|].
    apply patched_beyond in HP; [|rewrite A3; unfold len; lia]. subst l'. exists m4, (calls pre). rewrite <- Hcalls.
    destruct b as [cap l]. auto 10.
Qed.

Lemma x_ar_load_cases : forall ms s m a b o ob i n off,
  wf_members ms -> arep ms m a b -> arep ms m o ob ->
  (pb (ar_data o) <> pb (ar_data a) \/ (o = a /\ (off <= i \/ i + n <= off))) ->
  0 <= i -> 0 <= n -> 0 <= off -> i + n <= len (bs_l ob) -> off + n < 2 ^ 64 ->
  let xs := firstn (Z.to_nat n) (skipn (Z.to_nat i) (bs_l ob)) in
  let src := mkSrc (ar_data o) (ar_cap o) (to_int i) in
  if off + n <=? bs_cap b then
    (exists s' w, x_ar_load ms s (m, a) src n off = XRet s' w tt /\ ar_load ms (m, a) src n off = Ret w tt /\ left_of s s' (Z.to_nat n * class_elements ms)) \/
    (exists m' k l', x_ar_load ms s (m, a) src n off = XThr (m', a) XMember /\ sc_ops s = Some k /\ (k < Z.to_nat n * class_elements ms)%nat /\
       same_other m m' (pb (ar_data a)) /\ patched ms (bs_l b) (Z.to_nat off) xs l' /\ arep ms m' a (mkBS (bs_cap b) l'))
  else x_ar_load ms s (m, a) src n off = XThr (m, a) (XLib OutOfRange) /\ ar_load ms (m, a) src n off = Thr (m, a) OutOfRange.
Proof.
  intros ms s m a b o ob i n off Hw HA HO Hdiff Hi Hn Hoff Hin H64 xs src.
  pose proof (arep_le _ _ _ _ HA) as LA. pose proof (arep_le _ _ _ _ HO) as LO. pose proof (ap_range _ _ _ _ HA) as A2. pose proof (ap_range _ _ _ _ HO) as O2.
  pose proof (ap_cap _ _ _ _ HA) as A1. pose proof (ap_n _ _ _ _ HA) as A3.
  destruct (Z.leb_spec (off + n) (bs_cap b)) as [G|G].
  2: { unfold x_ar_load, ar_load. rewrite sz_small by lia. destruct (Z.ltb_spec (ar_cap a) (Z.max (ar_n a) (n + off))); [auto|lia]. }
  destruct (ar_load_ok ms m a b o ob i n off Hw HA HO Hdiff Hi Hn Hoff Hin G) as [mr [ar [gap [E _]]]].
  unfold x_ar_load. unfold ar_load in *. rewrite sz_small in * by lia.
  destruct (Z.ltb_spec (ar_cap a) (Z.max (ar_n a) (n + off))); [lia|]. fold src in E. unfold src in E. unfold src. cbn [sa_data sa_cap sa_index] in *.
  rewrite load_canon in *. unfold ar_at in *. rewrite !to_int_small in * by lia. rewrite ar_prod, ar_idx in *.
  set (ops := slot_copy_ops ms (ar_data a) (ar_cap a) off (ar_data o) (ar_cap o) i n) in *.
  destruct (exec ops m) as [m2|f] eqn:E2; [|discriminate]. cbn [run] in *.
  assert (Hcalls : calls ops = (Z.to_nat n * class_elements ms)%nat) by (unfold ops; apply calls_copy).
  destruct (ops_cases s ops m m2 a (mkArr (ar_cap a) (Z.max (ar_n a) (n + off)) (ar_data a)) E2) as [[s2 [C1 C2]]|[m4 [pre [op [post [C1 [C2 [C3 [C4 C5]]]]]]]]].
  - left. exists s2. eexists. split; [exact C1|]. rewrite <- Hcalls. auto.
  - right. destruct (copy_partial ms m a b o ob off i n pre op post m4 Hw HA HO) as [l' [SO [HP HA']]]; auto; try lia.
    exists m4, (calls pre), l'. rewrite <- Hcalls. auto 10.
Qed.

(** *** One call of a program *)
Definition not_due (s : sched) (n : nat) : Prop := match sc_ops s with Some k => (n <= k)%nat | None => True end.
Lemma left_not_due : forall s s' n, left_of s s' n -> not_due s n.
Proof. unfold left_of, not_due. intros s s' n H. destruct (sc_ops s); tauto. Qed.

(** What a call that was left by throwing did to the storage. *)
Definition storage_left (ms : list member) (m m' : mem) (op : vop) (k : nat) : Prop :=
  match op with
  | VNew _ cap _ _ | VConv _ cap _ => lost ms m m' cap (Nat.min k (Z.to_nat cap * class_elements ms))
  | _ => forall b, msize m' b = msize m b
  end.

Definition x_done (ms : list member) (s : sched) (W : vworld) (A : bworld) (op : vop) : Prop :=
  exists W' ob, x_vstep ms s W op = Val (W', Done ob) /\ vstep ms W op = Val (W', ob) /\ not_due s (member_calls ms A op).
Definition x_thrown (ms : list member) (s : sched) (W : vworld) (A : bworld) (op : vop) : Prop :=
  exists W' A' k, x_vstep ms s W op = Val (W', Caught) /\ athrow ms A op A' /\ vinv ms W' A' /\
    sc_ops s = Some k /\ (k < member_calls ms A op)%nat /\ storage_left ms (vw_mem W) (vw_mem W') op k.

Lemma set_vinv : forall ms W A id a m' b', vinv ms W A -> vw_arrs W id = Some a -> same_other (vw_mem W) m' (pb (ar_data a)) ->
  arep ms m' a b' -> vinv ms (mkVW m' (aset (vw_arrs W) id (Some a))) (aset A id (Some b')).
Proof.
  intros ms W A id a m' b' I Ha SO R.
  apply (vinv_set ms W A id m' (pb (ar_data a)) (Some a) (Some b')); auto.
  unfold vblk. rewrite Ha. apply same_other_frame; auto. apply (vi_mem _ _ _ I).
Qed.

Lemma aset_self : forall (A : bworld) id b, A id = Some b -> forall i, aset A id (Some b) i = A i.
Proof. intros A id b H i. unfold aset. destruct (Nat.eqb_spec i id); congruence. Qed.

Lemma not_due_0 : forall s, not_due s 0. Proof. intros s. unfold not_due. destruct (sc_ops s); auto. lia. Qed.

Theorem x_vstep_cases : forall ms s W A op,
  wf_members ms -> wf_defaults ms -> vinv ms W A -> vpre ms A op ->
  x_done ms s W A op \/ x_thrown ms s W A op.
Proof.
  intros ms s W A op Hw Hd I Hpre. pose proof (vi_mem _ _ _ I) as M.
  assert (PLAIN : (exists W' ob, vstep ms W op = Val (W', ob)) ->
    (forall W' ob, vstep ms W op = Val (W', ob) -> x_vstep ms s W op = Val (W', Done ob)) -> cells_touched A op = 0 -> x_done ms s W A op).
  { intros [W' [ob E]] H C. exists W', ob. split; auto. split; auto. unfold member_calls. rewrite C. apply not_due_0. }
  assert (SELF : forall d e a o ad ao, vw_arrs W d = Some a -> vw_arrs W e = Some o -> A d = Some ad -> A e = Some ao ->
     pb (ar_data o) <> pb (ar_data a) \/ (o = a /\ e = d)).
  { intros d e a o ad ao Ha Ho _ _. destruct (Nat.eq_dec e d) as [->|N]; [right; split; congruence|]. left. eapply (vi_sep _ _ _ I e d); eauto. }
  assert (VO : exists W' ob, vstep ms W op = Val (W', ob)).
  { destruct (vstep_ok ms W A op Hw Hd I Hpre) as [W' [A' [ob [E _]]]]. eauto. }
  destruct op as [id cap n c|id cap src|d e|id src|d e|id c|id|id|id i c|id i|id|id|id|id|d off e i n|d e i n|a0 b0|id];
    try (left; apply PLAIN; [exact VO| |reflexivity]; intros W' ob E; unfold x_vstep; rewrite E; reflexivity); clear PLAIN VO; cbn [vpre] in Hpre.
  - (* new *) destruct Hpre as [H1 [H2 [H3 H4]]].
    destruct (x_ar_new_cases ms s (vw_mem W) cap n c Hw Hd M H2 H3 H4) as [[s' [[m' a] [E1 [E2 L]]]]|[m' [a [k [E1 [Hk [Hlt HL]]]]]]].
    + left. exists (mkVW m' (aset (vw_arrs W) id (Some a))), VUnit. cbn [x_vstep vstep]. rewrite E1, E2. split; auto. split; auto.
      unfold member_calls. cbn [cells_touched]. eapply left_not_due; eauto.
    + right. exists (mkVW m' (vw_arrs W)), A, k. cbn [x_vstep]. rewrite E1. split; auto. split; [constructor|].
      destruct HL as [b [F HL]]. split; [eapply vinv_keep; eauto|]. split; auto. split; auto. cbn [storage_left vw_mem]. exists b. auto.
  - (* conv *) destruct Hpre as [H1 [H2 H3]]. destruct (A src) as [sb|] eqn:Es; [|congruence].
    destruct (vinv_some _ _ _ _ _ I Es) as [o [Ho HO]].
    assert (Hc : cells_touched A (VConv id cap src) = cap + (if len (bs_l sb) <=? cap then len (bs_l sb) else 0)).
    { cbn [cells_touched]. unfold size_of. rewrite Es. reflexivity. }
    destruct (x_ar_conv_cases ms s (vw_mem W) cap o sb Hw Hd M H2 HO) as [[s' [[m' a] [E1 [E2 L]]]]|[[s' [[m' a] [E1 [E2 L]]]]|[m' [a [k [E1 [Hk [Hlt HL]]]]]]]].
    + left. exists (mkVW m' (aset (vw_arrs W) id (Some a))), VUnit. cbn [x_vstep vstep]. unfold with_arr. rewrite Ho, E1, E2. split; auto. split; auto.
      unfold member_calls. rewrite Hc. eapply left_not_due; eauto.
    + left. exists (mkVW m' (vw_arrs W)), (VThrow OutOfRange). cbn [x_vstep vstep]. unfold with_arr. rewrite Ho, E1, E2. split; auto. split; auto.
      unfold member_calls. rewrite Hc. eapply left_not_due; eauto.
    + right. exists (mkVW m' (vw_arrs W)), A, k. cbn [x_vstep]. unfold with_arr. rewrite Ho, E1. split; auto. split; [constructor|].
      destruct HL as [b [F HL]]. split; [eapply vinv_keep; eauto|]. split; auto. split; [unfold member_calls; rewrite Hc; exact Hlt|].
      cbn [storage_left vw_mem]. exists b. auto.
  - (* assign *) destruct Hpre as [H1 H2]. destruct (A d) as [db|] eqn:Ed; [|congruence]. destruct (A e) as [sb|] eqn:Es; [|congruence].
    destruct (vinv_some _ _ _ _ _ I Ed) as [a [Ha HA]]. destruct (vinv_some _ _ _ _ _ I Es) as [o [Ho HO]].
    assert (Hc : cells_touched A (VAssign d e) = if len (bs_l sb) <=? bs_cap db then len (bs_l sb) else 0).
    { cbn [cells_touched]. unfold size_of, cap_of. rewrite Es, Ed. reflexivity. }
    assert (Hdiff : pb (ar_data o) <> pb (ar_data a) \/ o = a) by (destruct (SELF d e a o db sb) as [Q|[Q _]]; auto).
    pose proof (x_copy_in_cases ms s (vw_mem W) a db o sb Hw HA HO Hdiff) as C.
    unfold x_done, x_thrown. cbn [x_vstep vstep storage_left]. unfold with_arr, x_on_arr, on_arr, x_ar_assign, ar_assign. rewrite Ho, Ha.
    unfold member_calls. rewrite Hc.
    destruct (len (bs_l sb) <=? bs_cap db).
    + destruct C as [[s' [[m' a'] [E1 [E2 L]]]]|[m' [k [l' [E1 [Hk [Hlt [SO [_ [HP HA']]]]]]]]]].
      * left. rewrite E1, E2. eexists _, _. split; [reflexivity|]. split; auto. eapply left_not_due; eauto.
      * right. rewrite E1. eexists _, _, k. split; [reflexivity|]. split; [eapply t_assign; eauto|]. split; [eapply set_vinv; eauto|].
        split; auto. split; auto. apply SO.
    + destruct C as [E1 E2]. left. rewrite E1, E2. eexists _, _. split; [reflexivity|]. split; auto. apply not_due_0.
  - (* push *) destruct Hpre as [H1 H2]. destruct (A id) as [db|] eqn:Ed; [|congruence].
    destruct (vinv_some _ _ _ _ _ I Ed) as [a [Ha HA]].
    assert (Hc : cells_touched A (VPush id c) = if len (bs_l db) <? bs_cap db then 1 else 0).
    { cbn [cells_touched]. unfold size_of, cap_of. rewrite Ed. reflexivity. }
    pose proof (x_ar_push_cases ms s (vw_mem W) a db c Hw HA H2) as C.
    unfold x_done, x_thrown. cbn [x_vstep vstep storage_left]. unfold x_on_arr, on_arr. rewrite Ha. unfold member_calls. rewrite Hc.
    destruct (len (bs_l db) <? bs_cap db).
    + change (Z.to_nat 1) with 1%nat. rewrite Nat.mul_1_l.
      destruct C as [[s' [[m' a'] [E1 [E2 L]]]]|[m' [k [E1 [Hk [Hlt [SO HA']]]]]]].
      * left. rewrite E1, E2. eexists _, _. split; [reflexivity|]. split; auto. eapply left_not_due; eauto.
      * right. rewrite E1. eexists _, _, k. split; [reflexivity|]. split; [apply t_push|].
        split; [eapply vinv_eq; [|eapply set_vinv; eauto]; apply aset_self; auto|]. split; auto. split; auto. apply SO.
    + destruct C as [E1 E2]. left. rewrite E1, E2. eexists _, _. split; [reflexivity|]. split; auto. apply not_due_0.
  - (* write *) destruct Hpre as [[db [Ed H1]] H2]. destruct (vinv_some _ _ _ _ _ I Ed) as [a [Ha HA]].
    unfold x_done, x_thrown. cbn [x_vstep vstep storage_left]. unfold x_on_arr, on_arr. rewrite Ha. unfold member_calls. cbn [cells_touched].
    change (Z.to_nat 1) with 1%nat. rewrite Nat.mul_1_l.
    destruct (x_ar_write_cases ms s (vw_mem W) a db i c Hw HA H1 H2) as [[s' [[m' a'] [E1 [E2 L]]]]|[m' [k [l' [E1 [Hk [Hlt [SO [HP HA']]]]]]]]].
    + left. rewrite E1, E2. eexists _, _. split; [reflexivity|]. split; auto. eapply left_not_due; eauto.
    + right. rewrite E1. eexists _, _, k. split; [reflexivity|]. split; [eapply t_write; eauto|]. split; [eapply set_vinv; eauto|].
      split; auto. split; auto. apply SO.
  - (* load *) destruct Hpre as [H1 [[sb [Es H2]] [H3 [H4 [H5 [H6 H7]]]]]]. destruct (A d) as [db|] eqn:Ed; [|congruence].
    destruct (vinv_some _ _ _ _ _ I Ed) as [a [Ha HA]]. destruct (vinv_some _ _ _ _ _ I Es) as [o [Ho HO]].
    assert (Hc : cells_touched A (VLoad d off e i n) = if off + n <=? bs_cap db then n else 0).
    { cbn [cells_touched]. unfold cap_of. rewrite Ed. reflexivity. }
    assert (Hdiff : pb (ar_data o) <> pb (ar_data a) \/ (o = a /\ (off <= i \/ i + n <= off))).
    { destruct (SELF d e a o db sb) as [Q|[Q1 Q2]]; auto. destruct H7 as [H7|H7]; [congruence|auto]. }
    pose proof (x_ar_load_cases ms s (vw_mem W) a db o sb i n off Hw HA HO Hdiff H3 H4 H5 H2 H6) as C. cbn zeta in C.
    unfold x_done, x_thrown. cbn [x_vstep vstep storage_left]. unfold with_arr, x_on_arr, on_arr. rewrite Ho, Ha. unfold member_calls. rewrite Hc.
    destruct (off + n <=? bs_cap db).
    + destruct C as [[s' [[m' a'] [E1 [E2 L]]]]|[m' [k [l' [E1 [Hk [Hlt [SO [HP HA']]]]]]]]].
      * left. rewrite E1, E2. eexists _, _. split; [reflexivity|]. split; auto. eapply left_not_due; eauto.
      * right. rewrite E1. eexists _, _, k. split; [reflexivity|]. split; [eapply t_load; eauto|]. split; [eapply set_vinv; eauto|].
        split; auto. split; auto. apply SO.
    + destruct C as [E1 E2]. left. rewrite E1, E2. eexists _, _. split; [reflexivity|]. split; auto. apply not_due_0.
  - (* load at the end *) destruct Hpre as [H1 [[sb [Es H2]] [H3 H4]]]. destruct (A d) as [db|] eqn:Ed; [|congruence].
    destruct (vinv_some _ _ _ _ _ I Ed) as [a [Ha HA]]. destruct (vinv_some _ _ _ _ _ I Es) as [o [Ho HO]].
    pose proof (arep_le _ _ _ _ HA) as LA. pose proof (arep_le _ _ _ _ HO) as LO. pose proof (ap_range _ _ _ _ HA) as A2. pose proof (ap_range _ _ _ _ HO) as O2.
    pose proof (ap_n _ _ _ _ HA) as A3. pose proof (len_nonneg (bs_l db)) as Ln.
    assert (Hc : cells_touched A (VLoadApp d e i n) = if len (bs_l db) + n <=? bs_cap db then n else 0).
    { cbn [cells_touched]. unfold cap_of, size_of. rewrite Ed. reflexivity. }
    assert (Hdiff : pb (ar_data o) <> pb (ar_data a) \/ (o = a /\ (len (bs_l db) <= i \/ i + n <= len (bs_l db)))).
    { destruct (SELF d e a o db sb) as [Q|[Q1 Q2]]; auto. right. split; auto. right. subst e. congruence. }
    pose proof (x_ar_load_cases ms s (vw_mem W) a db o sb i n (len (bs_l db)) Hw HA HO Hdiff H3 H4 Ln H2) as C. cbn zeta in C.
    specialize (C ltac:(lia)).
    unfold x_done, x_thrown. cbn [x_vstep vstep storage_left]. unfold with_arr, x_on_arr, on_arr, x_ar_load_app, ar_load_app. rewrite Ho, Ha. cbn [snd]. rewrite A3.
    unfold member_calls. rewrite Hc.
    destruct (len (bs_l db) + n <=? bs_cap db).
    + destruct C as [[s' [[m' a'] [E1 [E2 L]]]]|[m' [k [l' [E1 [Hk [Hlt [SO [HP HA']]]]]]]]].
      * left. rewrite E1, E2. eexists _, _. split; [reflexivity|]. split; auto. eapply left_not_due; eauto.
      * right. rewrite E1. apply patched_beyond in HP; [|unfold len; lia]. subst l'.
        eexists _, A, k. split; [reflexivity|]. split; [apply t_load_app|].
        split; [|split; [auto|split; [auto|apply SO]]].
        eapply vinv_eq; [|eapply set_vinv; eauto]. intros j. destruct db as [cap l]. cbn [bs_cap bs_l]. apply aset_self; auto.
    + destruct C as [E1 E2]. left. rewrite E1, E2. eexists _, _. split; [reflexivity|]. split; auto. apply not_due_0.
Qed.

(** *** Whole programs *)
Lemma not_throws : forall ms A s op, not_due s (member_calls ms A op) -> ~ throws ms A s op.
Proof. unfold not_due, throws. intros ms A s op N [k [Hk Hlt]]. rewrite Hk in N. lia. Qed.

Theorem x_vstep_ok : forall ms s W A op,
  wf_members ms -> wf_defaults ms -> vinv ms W A -> vpre ms A op ->
  exists W' A' ob, x_vstep ms s W op = Val (W', ob) /\ xastep ms A s op A' ob /\ vinv ms W' A' /\
    match ob with
    | Done o => vstep ms W op = Val (W', o)
    | Caught => exists k, sc_ops s = Some k /\ storage_left ms (vw_mem W) (vw_mem W') op k
    end.
Proof.
  intros ms s W A op Hw Hd I P.
  destruct (x_vstep_cases ms s W A op Hw Hd I P) as [[W1 [ob [E [E' N]]]]|[W1 [A1 [k [E [T [I1 [Hk [Hlt HS]]]]]]]]].
  - destruct (vstep_ok ms W A op Hw Hd I P) as [W2 [A1 [ob2 [E2 [S [I1 _]]]]]]. rewrite E' in E2. inversion E2; subst W2 ob2.
    exists W1, A1, (Done ob). split; auto. split; [constructor; auto using not_throws|]. auto.
  - exists W1, A1, Caught. split; auto. split; [constructor; auto; exists k; auto|]. split; eauto.
Qed.

Theorem x_vrun_ok : forall ms ops W A,
  wf_members ms -> wf_defaults ms -> vinv ms W A -> xlegal ms A ops ->
  exists W' A' obs, x_vrun ms W ops = Val (W', obs) /\ xarun ms A ops A' obs /\ vinv ms W' A'.
Proof.
  intros ms ops. induction ops as [|[s op] r IH]; intros W A Hw Hd I L.
  - exists W, A, []. split; auto. split; auto. constructor.
  - cbn [xlegal] in L. destruct L as [L1 L2]. cbn [x_vrun].
    destruct (x_vstep_ok ms s W A op Hw Hd I L1) as [W1 [A1 [ob [E [S [I1 _]]]]]].
    destruct (IH W1 A1 Hw Hd I1 (L2 _ _ S)) as [W3 [A3 [obs [E3 [R I3]]]]].
    exists W3, A3, (ob :: obs). rewrite E, E3. split; auto. split; auto. econstructor; eauto.
Qed.
