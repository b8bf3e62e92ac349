(** Lemmas about Layout.v. *)
From Coq Require Import ZArith List Lia Bool.
From Verif Require Import Base Layout.
Import ListNotations.
Open Scope Z_scope.

(** A registered member list as C++ allows it: sizeof is at least 1. *)
Definition wf_members (ms : list member) : Prop := Forall (fun m => 0 < m_size m) ms.

Definition wf_extent (e : extent) : Prop := 0 <= DIM_X e /\ 0 <= DIM_Y e /\ 0 <= DIM_Z e.

(** ** Slots: one per scalar member, [n] per array member of arity [n]. *)
Record slot := mkSlot { s_off : Z; s_size : Z; s_class : bool; s_default : elem }.

Definition member_slots (o : Z) (m : member) : list slot :=
  map (fun k => mkSlot (o + m_size m * Z.of_nat k) (m_size m) (m_class m) (m_default m))
      (seq 0 (m_count m)).

Definition m_bytes (m : member) : Z := m_size m * Z.of_nat (m_count m).

Fixpoint slots_from (o : Z) (ms : list member) : list slot :=
  match ms with
  | [] => []
  | m :: r => member_slots o m ++ slots_from (o + m_bytes m) r
  end.

Definition slots (ms : list member) : list slot := slots_from 0 ms.

Fixpoint total (ms : list member) : Z :=
  match ms with [] => 0 | m :: r => m_bytes m + total r end.

Lemma m_bytes_eq : forall m,
  m_bytes m = m_size m * match m_array m with None => 1 | Some n => Z.of_nat n end.
Proof. intros m. unfold m_bytes, m_count. destruct (m_array m); lia. Qed.

Lemma m_bytes_nonneg : forall m, 0 < m_size m -> 0 <= m_bytes m.
Proof. intros m H. unfold m_bytes. nia. Qed.

Lemma total_nonneg : forall ms, wf_members ms -> 0 <= total ms.
Proof.
  intros ms H. induction H as [|m r Hm H IH]; simpl; [lia|].
  pose proof (m_bytes_nonneg m Hm). lia.
Qed.

Lemma total_app : forall a b, total (a ++ b) = total a + total b.
Proof. induction a as [|m a IH]; simpl; intros; [lia|]. rewrite IH. lia. Qed.

Lemma offset_firstn : forall ms r,
  (r <= length ms)%nat -> offset ms r = Some (total (firstn r ms)).
Proof.
  intros ms r. induction r as [|r IH]; intros Hr; [reflexivity|].
  simpl offset. rewrite IH by lia.
  destruct (nth_error ms r) as [m|] eqn:E.
  - f_equal.
    assert (Hf : firstn (S r) ms = firstn r ms ++ [m]).
    { clear IH Hr. revert r E. induction ms as [|a ms IHm]; intros [|r] E; simpl in *; try discriminate.
      - inversion E. reflexivity.
      - rewrite (IHm r E). reflexivity. }
    rewrite Hf, total_app. simpl. rewrite m_bytes_eq. lia.
  - apply nth_error_None in E. lia.
Qed.

Lemma offset_None : forall ms r, (length ms < r)%nat -> offset ms r = None.
Proof.
  intros ms r. induction r as [|r IH]; intros Hr; [lia|]. simpl.
  destruct (Nat.eq_dec r (length ms)) as [->|N].
  - destruct (offset ms (length ms)); auto.
    rewrite (proj2 (nth_error_None ms (length ms))) by lia. reflexivity.
  - rewrite IH by lia. reflexivity.
Qed.

Lemma agg_size_total : forall ms, agg_size ms = Some (total ms).
Proof. intros ms. unfold agg_size. rewrite offset_firstn by lia. rewrite firstn_all. reflexivity. Qed.

Lemma firstn_S_nth : forall (A : Type) (l : list A) r x,
  nth_error l r = Some x -> firstn (S r) l = firstn r l ++ [x].
Proof.
  intros A l. induction l as [|a l IH]; intros [|r] x E; simpl in *; try discriminate.
  - inversion E. reflexivity.
  - rewrite (IH r x E). reflexivity.
Qed.

Lemma wf_firstn : forall ms r, wf_members ms -> wf_members (firstn r ms).
Proof.
  intros ms r H. unfold wf_members in *. rewrite Forall_forall in *.
  intros x Hx. apply H. rewrite <- (firstn_skipn r ms). apply in_or_app; auto.
Qed.

Lemma wf_skipn : forall ms r, wf_members ms -> wf_members (skipn r ms).
Proof.
  intros ms r H. unfold wf_members in *. rewrite Forall_forall in *.
  intros x Hx. apply H. rewrite <- (firstn_skipn r ms). apply in_or_app; auto.
Qed.

Lemma total_firstn_bound : forall ms r m,
  wf_members ms -> nth_error ms r = Some m ->
  0 <= total (firstn r ms) /\ total (firstn r ms) + m_bytes m <= total ms.
Proof.
  intros ms r m Hw E.
  pose proof (total_nonneg _ (wf_firstn ms r Hw)).
  pose proof (total_nonneg _ (wf_skipn ms (S r) Hw)).
  assert (Ht : total ms = total (firstn (S r) ms) + total (skipn (S r) ms)).
  { rewrite <- total_app, firstn_skipn. reflexivity. }
  rewrite (firstn_S_nth _ _ _ _ E), total_app in Ht. cbn [total] in Ht. lia.
Qed.

(** Slot bookkeeping. *)
Lemma in_member_slots : forall o m sl,
  In sl (member_slots o m) <->
  exists k, (k < m_count m)%nat /\
    sl = mkSlot (o + m_size m * Z.of_nat k) (m_size m) (m_class m) (m_default m).
Proof.
  intros o m sl. unfold member_slots. rewrite in_map_iff. split.
  - intros [k [E Hk]]. apply in_seq in Hk. exists k. split; [lia|auto].
  - intros [k [Hk E]]. exists k. split; auto. apply in_seq. lia.
Qed.

Lemma slots_from_range : forall ms o sl,
  wf_members ms -> In sl (slots_from o ms) ->
  o <= s_off sl /\ s_off sl + s_size sl <= o + total ms /\ 0 < s_size sl.
Proof.
  induction ms as [|m ms IH]; simpl; intros o sl Hw Hin; [contradiction|].
  inversion Hw as [|? ? Hm Hw']; subst. apply in_app_or in Hin.
  pose proof (total_nonneg _ Hw'). pose proof (m_bytes_nonneg _ Hm) as Hb.
  destruct Hin as [Hin|Hin].
  - apply in_member_slots in Hin. destruct Hin as [k [Hk ->]]. simpl.
    unfold m_bytes in *. nia.
  - apply IH in Hin; auto. lia.
Qed.

Lemma FOP_map_seq : forall (A : Type) (f : nat -> A) (R : A -> A -> Prop) n s,
  (forall i j, (i < j)%nat -> R (f i) (f j)) -> ForallOrdPairs R (map f (seq s n)).
Proof.
  intros A f R n. induction n as [|n IH]; intros s H; simpl; constructor; auto.
  apply Forall_map. apply Forall_forall. intros j Hj. apply in_seq in Hj. apply H. lia.
Qed.

Definition slot_before (a b : slot) : Prop := s_off a + s_size a <= s_off b.

Lemma slots_from_ordered : forall ms o,
  wf_members ms -> ForallOrdPairs slot_before (slots_from o ms).
Proof.
  induction ms as [|m ms IH]; simpl; intros o Hw; [constructor|].
  inversion Hw as [|? ? Hm Hw']; subst. apply FOP_app; auto.
  - unfold member_slots. apply FOP_map_seq. intros i j Hij.
    unfold slot_before; simpl. nia.
  - intros a b Ha Hb. apply in_member_slots in Ha. destruct Ha as [k [Hk ->]].
    apply slots_from_range in Hb; auto. unfold slot_before; simpl.
    unfold m_bytes in Hb. nia.
Qed.

Lemma slots_ordered : forall ms, wf_members ms -> ForallOrdPairs slot_before (slots ms).
Proof. intros; apply slots_from_ordered; auto. Qed.

Lemma slots_range : forall ms sl,
  wf_members ms -> In sl (slots ms) ->
  0 <= s_off sl /\ s_off sl + s_size sl <= total ms /\ 0 < s_size sl.
Proof. intros ms sl Hw Hin. pose proof (slots_from_range _ _ _ Hw Hin). lia. Qed.

(** Every byte below the total belongs to a slot. *)
Lemma slots_from_cover : forall ms o b,
  wf_members ms -> o <= b < o + total ms ->
  exists j m k, nth_error ms j = Some m /\ (k < m_count m)%nat /\
    o + total (firstn j ms) + m_size m * Z.of_nat k <= b <
    o + total (firstn j ms) + m_size m * Z.of_nat k + m_size m.
Proof.
  induction ms as [|m ms IH]; simpl; intros o b Hw Hb; [lia|].
  inversion Hw as [|? ? Hm Hw']; subst.
  destruct (Z_lt_dec b (o + m_bytes m)) as [Hlt|Hge].
  - exists 0%nat, m, (Z.to_nat ((b - o) / m_size m)).
    assert (Hq : 0 <= (b - o) / m_size m) by (apply Z.div_pos; lia).
    assert (Hq2 : (b - o) / m_size m < Z.of_nat (m_count m)).
    { apply Z.div_lt_upper_bound; unfold m_bytes in Hlt; lia. }
    pose proof (Z.div_mod (b - o) (m_size m)). pose proof (Z.mod_pos_bound (b - o) (m_size m) Hm).
    simpl. split; auto. split; [lia|]. rewrite Z2Nat.id by lia. lia.
  - destruct (IH (o + m_bytes m) b Hw') as [j [m' [k [Hj [Hk Hr]]]]]; [lia|].
    exists (S j), m', k. simpl. split; auto. split; auto. lia.
Qed.

(** ** Address of (slot, index) in a layout of [P] cells. *)
Definition slot_addr (P : Z) (sl : slot) (i : Z) : Z := P * s_off sl + i * s_size sl.

(** Interval disjointness for two (slot, index) pairs. *)
Lemma slot_addr_disjoint : forall P a b i j,
  0 < s_size a -> 0 < s_size b -> 0 <= i < P -> 0 <= j < P -> slot_before a b ->
  slot_addr P a i + s_size a <= slot_addr P b j.
Proof.
  intros P a b i j Ha Hb Hi Hj H. unfold slot_before, slot_addr in *.
  assert ((i + 1) * s_size a <= P * s_size a) by nia.
  assert (P * (s_off a + s_size a) <= P * s_off b) by nia.
  nia.
Qed.

Lemma slot_addr_same_disjoint : forall P a i j,
  0 < s_size a -> i < j -> slot_addr P a i + s_size a <= slot_addr P a j.
Proof. intros. unfold slot_addr. nia. Qed.

Lemma slot_addr_bounds : forall P sl i T,
  0 <= s_off sl -> s_off sl + s_size sl <= T -> 0 < s_size sl -> 0 <= i < P ->
  0 <= slot_addr P sl i /\ slot_addr P sl i + s_size sl <= P * T.
Proof.
  intros P sl i T Ho Ht Hs Hi. unfold slot_addr.
  assert ((i + 1) * s_size sl <= P * s_size sl) by nia.
  assert (P * (s_off sl + s_size sl) <= P * T) by nia. nia.
Qed.

(** member_addr in terms of slots. *)
Lemma member_addr_eq : forall ms a j k m,
  nth_error ms j = Some m ->
  member_addr ms a j k =
  Some (DIM_PROD (a_ext a) * (total (firstn j ms) +
          m_size m * match m_array m with None => 0 | Some _ => k end)
        + (a_index a + a_INDEX a) * m_size m).
Proof.
  intros ms a j k m E. unfold member_addr. rewrite E.
  rewrite offset_firstn by (apply Nat.lt_le_incl, nth_error_Some; congruence).
  f_equal. lia.
Qed.

(** [valid_slot ms j k]: member [j] exists and [k] is one of its array slots. *)
Definition valid_slot (ms : list member) (j : nat) (k : Z) : Prop :=
  exists m, nth_error ms j = Some m /\ 0 <= k < Z.of_nat (m_count m).

Definition in_ext (a : accessor) : Prop :=
  0 <= a_index a + a_INDEX a < DIM_PROD (a_ext a).

Definition the_slot (ms : list member) (j : nat) (m : member) (k : Z) : slot :=
  mkSlot (total (firstn j ms) + m_size m * k) (m_size m) (m_class m) (m_default m).

Lemma scalar_k : forall m k, 0 <= k < Z.of_nat (m_count m) ->
  match m_array m with None => 0 | Some _ => k end = k.
Proof. intros m k H. unfold m_count in H. destruct (m_array m); lia. Qed.

Lemma member_addr_slot : forall ms a j k m,
  nth_error ms j = Some m -> 0 <= k < Z.of_nat (m_count m) ->
  member_addr ms a j k =
  Some (slot_addr (DIM_PROD (a_ext a)) (the_slot ms j m k) (a_index a + a_INDEX a)).
Proof.
  intros ms a j k m E Hk. rewrite (member_addr_eq _ _ _ _ _ E), scalar_k by auto.
  unfold slot_addr, the_slot; simpl. f_equal; lia.
Qed.

Lemma the_slot_range : forall ms j m k,
  wf_members ms -> nth_error ms j = Some m -> 0 <= k < Z.of_nat (m_count m) ->
  0 <= s_off (the_slot ms j m k) /\
  s_off (the_slot ms j m k) + s_size (the_slot ms j m k) <= total ms /\
  0 < s_size (the_slot ms j m k).
Proof.
  intros ms j m k Hw E Hk. simpl.
  assert (Hm : 0 < m_size m).
  { unfold wf_members in Hw. rewrite Forall_forall in Hw. apply Hw. eapply nth_error_In; eauto. }
  pose proof (total_firstn_bound _ _ _ Hw E) as [H1 H2]. unfold m_bytes in H2. nia.
Qed.

Lemma total_firstn_mono : forall ms j j' m,
  wf_members ms -> nth_error ms j = Some m -> (j < j')%nat ->
  total (firstn j ms) + m_bytes m <= total (firstn j' ms).
Proof.
  intros ms j j' m Hw E Hlt.
  assert (Hf : nth_error (firstn j' ms) j = Some m).
  { rewrite <- E. clear -Hlt. revert j j' Hlt. induction ms as [|x ms IH]; intros [|j] [|j'] H; simpl; auto; try lia.
    apply IH; lia. }
  pose proof (total_firstn_bound _ _ _ (wf_firstn ms j' Hw) Hf) as [_ H].
  rewrite firstn_firstn, Nat.min_l in H by lia. exact H.
Qed.

Lemma the_slot_before : forall ms j m k j' m' k',
  wf_members ms -> nth_error ms j = Some m -> nth_error ms j' = Some m' ->
  0 <= k < Z.of_nat (m_count m) -> 0 <= k' < Z.of_nat (m_count m') ->
  ((j < j')%nat \/ j = j' /\ k < k') ->
  slot_before (the_slot ms j m k) (the_slot ms j' m' k').
Proof.
  intros ms j m k j' m' k' Hw E E' Hk Hk' [H|[-> H]]; unfold slot_before; simpl.
  - pose proof (total_firstn_mono _ _ _ _ Hw E H). unfold m_bytes in *.
    assert (0 < m_size m) by (unfold wf_members in Hw; rewrite Forall_forall in Hw; apply Hw; eapply nth_error_In; eauto).
    assert (0 < m_size m') by (unfold wf_members in Hw; rewrite Forall_forall in Hw; apply Hw; eapply nth_error_In; eauto).
    nia.
  - rewrite E in E'. inversion E'; subst.
    assert (0 < m_size m') by (unfold wf_members in Hw; rewrite Forall_forall in Hw; apply Hw; eapply nth_error_In; eauto).
    nia.
Qed.

(** *** C01 *)
Lemma elements_disjoint : forall ms e i1 I1 i2 I2 j1 k1 j2 k2 m1 m2 a1 a2,
  wf_members ms ->
  nth_error ms j1 = Some m1 -> nth_error ms j2 = Some m2 ->
  0 <= k1 < Z.of_nat (m_count m1) -> 0 <= k2 < Z.of_nat (m_count m2) ->
  0 <= i1 + I1 < DIM_PROD e -> 0 <= i2 + I2 < DIM_PROD e ->
  (i1 + I1, j1, k1) <> (i2 + I2, j2, k2) ->
  member_addr ms (mkAcc e i1 I1) j1 k1 = Some a1 ->
  member_addr ms (mkAcc e i2 I2) j2 k2 = Some a2 ->
  a1 + m_size m1 <= a2 \/ a2 + m_size m2 <= a1.
Proof.
  intros ms e i1 I1 i2 I2 j1 k1 j2 k2 m1 m2 a1 a2 Hw E1 E2 Hk1 Hk2 Hi1 Hi2 Hne Ha1 Ha2.
  rewrite (member_addr_slot _ _ _ _ _ E1 Hk1) in Ha1. rewrite (member_addr_slot _ _ _ _ _ E2 Hk2) in Ha2.
  simpl in Ha1, Ha2. inversion Ha1; inversion Ha2; subst; clear Ha1 Ha2.
  pose proof (the_slot_range _ _ _ _ Hw E1 Hk1) as [_ [_ R1]].
  pose proof (the_slot_range _ _ _ _ Hw E2 Hk2) as [_ [_ R2]].
  destruct (lt_eq_lt_dec j1 j2) as [[Hj|Hj]|Hj].
  - left. apply (slot_addr_disjoint _ (the_slot ms j1 m1 k1)); auto.
    eapply the_slot_before; eauto.
  - subst j2. rewrite E1 in E2. inversion E2; subst m2.
    destruct (Z.lt_trichotomy k1 k2) as [Hk|[Hk|Hk]].
    + left. apply (slot_addr_disjoint _ (the_slot ms j1 m1 k1)); auto. eapply the_slot_before; eauto.
    + subst k2. destruct (Z.lt_trichotomy (i1 + I1) (i2 + I2)) as [Hi|[Hi|Hi]].
      * left. apply (slot_addr_same_disjoint _ (the_slot ms j1 m1 k1)); auto.
      * congruence.
      * right. apply (slot_addr_same_disjoint _ (the_slot ms j1 m1 k1)); auto.
    + right. apply (slot_addr_disjoint _ (the_slot ms j1 m1 k2)); auto. eapply the_slot_before; eauto.
  - right. apply (slot_addr_disjoint _ (the_slot ms j2 m2 k2)); auto. eapply the_slot_before; eauto.
Qed.

(** *** C02 *)
Lemma elements_in_buffer : forall ms e i I j k m T a,
  wf_members ms -> agg_size ms = Some T ->
  nth_error ms j = Some m -> 0 <= k < Z.of_nat (m_count m) ->
  0 <= i + I < DIM_PROD e ->
  member_addr ms (mkAcc e i I) j k = Some a ->
  0 <= a /\ a + m_size m <= T * (DIM_X e * DIM_Y e * DIM_Z e).
Proof.
  intros ms e i I j k m T a Hw HT E Hk Hi Ha.
  rewrite agg_size_total in HT. inversion HT; subst T.
  rewrite (member_addr_slot _ _ _ _ _ E Hk) in Ha. simpl in Ha. inversion Ha; subst a; clear Ha.
  pose proof (the_slot_range _ _ _ _ Hw E Hk) as [R1 [R2 R3]].
  pose proof (slot_addr_bounds _ _ _ _ R1 R2 R3 Hi) as [B1 B2]. simpl in B2.
  unfold DIM_PROD in *. split; auto. simpl. lia.
Qed.

Lemma buffer_tiled : forall ms e T b,
  wf_members ms -> wf_extent e -> agg_size ms = Some T ->
  0 <= b < T * (DIM_X e * DIM_Y e * DIM_Z e) ->
  exists i j k m a,
    0 <= i < DIM_PROD e /\ nth_error ms j = Some m /\ 0 <= k < Z.of_nat (m_count m) /\
    member_addr ms (mkAcc e i 0) j k = Some a /\ a <= b < a + m_size m.
Proof.
  intros ms e T b Hw He HT Hb. rewrite agg_size_total in HT. inversion HT; subst T.
  set (P := DIM_PROD e). assert (HP : 0 < P).
  { unfold P, DIM_PROD. destruct He as [H1 [H2 H3]].
    assert (0 <= DIM_X e * DIM_Y e * DIM_Z e) by (repeat apply Z.mul_nonneg_nonneg; auto).
    destruct (Z.eq_dec (DIM_X e * DIM_Y e * DIM_Z e) 0) as [Hz|]; [rewrite Hz in Hb; lia|lia]. }
  fold (DIM_PROD e) in Hb. fold P in Hb.
  destruct (slots_from_cover ms 0 (b / P) Hw) as [j [m [k [E [Hk Hr]]]]].
  { split; [apply Z.div_pos; lia|]. apply Z.div_lt_upper_bound; lia. }
  assert (Hm : 0 < m_size m).
  { unfold wf_members in Hw. rewrite Forall_forall in Hw. apply Hw. eapply nth_error_In; eauto. }
  set (so := total (firstn j ms) + m_size m * Z.of_nat k) in *.
  assert (Hb1 : P * so <= b < P * so + P * m_size m).
  { pose proof (Z.div_mod b P). pose proof (Z.mod_pos_bound b P HP).
    assert (P * so <= P * (b / P)) by (apply Z.mul_le_mono_nonneg_l; lia).
    assert (P * (b / P + 1) <= P * (so + m_size m)) by (apply Z.mul_le_mono_nonneg_l; lia). lia. }
  set (i := (b - P * so) / m_size m).
  assert (Hi : 0 <= i < P).
  { unfold i. split; [apply Z.div_pos; lia|]. apply Z.div_lt_upper_bound; lia. }
  assert (Hib : i * m_size m <= b - P * so < i * m_size m + m_size m).
  { unfold i. pose proof (Z.div_mod (b - P * so) (m_size m)).
    pose proof (Z.mod_pos_bound (b - P * so) (m_size m) Hm). lia. }
  exists i, j, (Z.of_nat k), m, (slot_addr P (the_slot ms j m (Z.of_nat k)) i).
  split; [auto|]. split; [auto|]. split; [lia|]. split.
  - rewrite (member_addr_slot _ _ _ _ m) by (auto; lia). cbn [a_ext a_index a_INDEX].
    rewrite Z.add_0_r. reflexivity.
  - unfold slot_addr. cbn [s_off s_size the_slot]. fold so. lia.
Qed.

(** *** C03 *)
Lemma unit_stride : forall ms e i I j k m a d,
  nth_error ms j = Some m ->
  member_addr ms (mkAcc e i I) j k = Some a ->
  member_addr ms (mkAcc e (i + d) I) j k = Some (a + d * m_size m).
Proof.
  intros ms e i I j k m a d E Ha. rewrite (member_addr_eq _ _ _ _ _ E) in Ha.
  rewrite (member_addr_eq _ _ _ _ _ E). cbn [a_ext a_index a_INDEX] in *.
  inversion Ha; subst a. f_equal. ring.
Qed.

Lemma array_slot_stride : forall ms e i I j k m n a d,
  nth_error ms j = Some m -> m_array m = Some n ->
  member_addr ms (mkAcc e i I) j k = Some a ->
  member_addr ms (mkAcc e i I) j (k + d) = Some (a + d * (DIM_X e * DIM_Y e * DIM_Z e) * m_size m).
Proof.
  intros ms e i I j k m n a d E Hn Ha. rewrite (member_addr_eq _ _ _ _ _ E) in Ha.
  rewrite (member_addr_eq _ _ _ _ _ E). cbn [a_ext a_index a_INDEX] in *.
  rewrite Hn in *. inversion Ha; subst a. f_equal. unfold DIM_PROD. ring.
Qed.

(** *** C04 *)
Lemma gen_index_bound : forall e x y z,
  0 <= x < DIM_X e -> 0 <= y < DIM_Y e -> 0 <= z < DIM_Z e ->
  0 <= gen_index e x y z < DIM_PROD e.
Proof.
  intros e x y z Hx Hy Hz. unfold gen_index, DIM_PROD.
  assert (y * DIM_X e + x < DIM_Y e * DIM_X e) by nia.
  assert (0 <= y * DIM_X e) by nia.
  assert (Hxy : 0 <= DIM_X e * DIM_Y e) by nia.
  assert ((z + 1) * (DIM_X e * DIM_Y e) <= DIM_Z e * (DIM_X e * DIM_Y e)) by (apply Z.mul_le_mono_nonneg_r; lia).
  assert (0 <= z * (DIM_X e * DIM_Y e)) by (apply Z.mul_nonneg_nonneg; lia).
  lia.
Qed.

Lemma gen_index_inj : forall e x y z x' y' z',
  0 <= x < DIM_X e -> 0 <= y < DIM_Y e -> 0 <= z < DIM_Z e ->
  0 <= x' < DIM_X e -> 0 <= y' < DIM_Y e -> 0 <= z' < DIM_Z e ->
  gen_index e x y z = gen_index e x' y' z' -> x = x' /\ y = y' /\ z = z'.
Proof.
  intros e x y z x' y' z' Hx Hy Hz Hx' Hy' Hz' H. unfold gen_index in H.
  assert (H1 : z = z' /\ y * DIM_X e + x = y' * DIM_X e + x').
  { assert (0 <= y * DIM_X e) by nia. assert (0 <= y' * DIM_X e) by nia.
    assert (y * DIM_X e + x < DIM_X e * DIM_Y e) by nia. assert (y' * DIM_X e + x' < DIM_X e * DIM_Y e) by nia.
    apply (divmod_unique (DIM_X e * DIM_Y e)); lia. }
  destruct H1 as [-> H1].
  apply (divmod_unique (DIM_X e)) in H1; auto. tauto.
Qed.

Lemma gen_index_surj : forall e i,
  wf_extent e -> 0 <= i < DIM_PROD e ->
  exists x y z, 0 <= x < DIM_X e /\ 0 <= y < DIM_Y e /\ 0 <= z < DIM_Z e /\
    gen_index e x y z = i.
Proof.
  intros e i [HX [HY HZ]] Hi. unfold DIM_PROD in Hi.
  assert (Hxy : 0 < DIM_X e * DIM_Y e) by nia.
  assert (HX0 : 0 < DIM_X e) by nia.
  exists (i mod DIM_X e), ((i / DIM_X e) mod DIM_Y e), (i / DIM_X e / DIM_Y e).
  assert (HY0 : 0 < DIM_Y e) by nia.
  pose proof (Z.mod_pos_bound i (DIM_X e) HX0). pose proof (Z.mod_pos_bound (i / DIM_X e) (DIM_Y e) HY0).
  split; [auto|]. split; [auto|]. split.
  - split; [apply Z.div_pos; auto; apply Z.div_pos; lia|].
    rewrite Z.div_div by lia. apply Z.div_lt_upper_bound; lia.
  - unfold gen_index. pose proof (Z.div_mod i (DIM_X e)). pose proof (Z.div_mod (i / DIM_X e) (DIM_Y e)). nia.
Qed.

(** *** C05 *)
Definition shift_all (a : accessor) (cs : list (Z * Z * Z)) : accessor := fold_left at_coord cs a.

Definition csum (cs : list (Z * Z * Z)) : Z * Z * Z :=
  fold_left (fun s c => let '(x, y, z) := s in let '(X, Y, Zc) := c in (x + X, y + Y, z + Zc)) cs (0, 0, 0).

Lemma shift_all_spec : forall cs a,
  a_ext (shift_all a cs) = a_ext a /\ a_index (shift_all a cs) = a_index a /\
  forall sx sy sz x y z, (x, y, z) =
    fold_left (fun s c => let '(x, y, z) := s in let '(X, Y, Zc) := c in (x + X, y + Y, z + Zc)) cs (sx, sy, sz) ->
  a_INDEX (shift_all a cs) = a_INDEX a + gen_index (a_ext a) (x - sx) (y - sy) (z - sz).
Proof.
  induction cs as [|[[X Y] Zc] cs IH]; intros a; cbn [fold_left].
  - split; auto. split; auto. intros sx sy sz x y z H. inversion H. unfold shift_all, gen_index. simpl. ring.
  - destruct (IH (at_coord a (X, Y, Zc))) as [H1 [H2 H3]]. simpl in H1, H2.
    split; auto. split; auto. intros sx sy sz x y z H.
    etransitivity; [exact (H3 _ _ _ _ _ _ H)|]. cbn [at_coord a_ext a_index a_INDEX].
    unfold LFA_INDEX, gen_index. ring.
Qed.

Lemma relative_access : forall ms e x y z cs X Y Zc j k,
  csum cs = (X, Y, Zc) ->
  member_addr ms (shift_all (mkAcc e (gen_index e x y z) 0) cs) j k =
  member_addr ms (mkAcc e (gen_index e (x + X) (y + Y) (z + Zc)) 0) j k.
Proof.
  intros ms e x y z cs X Y Zc j k H.
  destruct (shift_all_spec cs (mkAcc e (gen_index e x y z) 0)) as [H1 [H2 H3]].
  unfold csum in H. symmetry in H. specialize (H3 _ _ _ _ _ _ H). simpl in H1, H2, H3.
  destruct (nth_error ms j) as [m|] eqn:E.
  - rewrite !(member_addr_eq _ _ _ _ _ E). rewrite H1, H2, H3. simpl. f_equal. f_equal. f_equal.
    unfold gen_index. ring.
  - unfold member_addr. rewrite E. reflexivity.
Qed.

Lemma relative_access_moving : forall ms e i0 i1 cs j k,
  member_addr ms (with_index (shift_all (mkAcc e i0 0) cs) i1) j k =
  member_addr ms (shift_all (mkAcc e i1 0) cs) j k.
Proof.
  intros ms e i0 i1 cs j k.
  destruct (shift_all_spec cs (mkAcc e i0 0)) as [A1 [A2 A3]].
  destruct (shift_all_spec cs (mkAcc e i1 0)) as [B1 [B2 B3]].
  destruct (csum cs) as [[X Y] Zc] eqn:Ec. unfold csum in Ec. symmetry in Ec.
  specialize (A3 _ _ _ _ _ _ Ec). specialize (B3 _ _ _ _ _ _ Ec). simpl in *.
  unfold member_addr, with_index. destruct (nth_error ms j); auto. destruct (offset ms j); auto.
  cbn [a_ext a_index a_INDEX]. rewrite A1, B1, B2, A3, B3. reflexivity.
Qed.

(** *** C06 *)
Lemma member_ref_agrees : forall ms a j k m n,
  nth_error ms j = Some m -> m_array m = Some n ->
  member_ref_addr ms a j k = member_addr ms a j k.
Proof.
  intros ms a j k m n E Hn. unfold member_ref_addr. rewrite E.
  rewrite !(member_addr_eq _ _ _ _ _ E). rewrite Hn. f_equal. ring.
Qed.

Lemma access_member_t_agrees : forall ms a j m,
  nth_error ms j = Some m ->
  access_member_t ms a (m_size m) j = member_addr ms a j 0.
Proof.
  intros ms a j m E. rewrite (member_addr_eq _ _ _ _ _ E). unfold access_member_t.
  rewrite offset_firstn by (apply Nat.lt_le_incl, nth_error_Some; congruence).
  f_equal. destruct (m_array m); ring.
Qed.

Lemma access_member_rt_agrees : forall ms a j m o,
  nth_error ms j = Some m -> offset ms j = Some o ->
  Some (access_member_rt a (m_size m) o) = member_addr ms a j 0.
Proof.
  intros ms a j m o E Ho. rewrite <- (access_member_t_agrees _ _ _ _ E).
  unfold access_member_t, access_member_rt. rewrite Ho. reflexivity.
Qed.

(** *** C07 *)
Lemma mp_lookup_found : forall rs r p j rm,
  NoDup (map rm_id rs) ->
  nth_error rs j = Some rm -> (j < r)%nat -> (r <= length rs)%nat ->
  mp_id p = rm_id rm -> mp_type p = rm_type rm -> mp_array p = rm_array rm ->
  mp_lookup rs r p = Some (total (map rm_member (firstn j rs))).
Proof.
  intros rs r p j rm Hnd E. induction r as [|r IH]; intros Hlt Hle Hid Hty Har; [lia|].
  simpl. destruct (nth_error rs r) as [rm'|] eqn:Er; [|apply nth_error_None in Er; lia].
  destruct (Nat.eq_dec r j) as [->|N].
  - rewrite E in Er. inversion Er; subst rm'.
    assert (He : mp_overload_exact p rm = true).
    { unfold mp_overload_exact. rewrite Hty, Har, Nat.eqb_refl. destruct (rm_array rm); auto. apply Nat.eqb_refl. }
    rewrite He, Hid, Nat.eqb_refl.
    rewrite offset_firstn by (rewrite map_length; lia). rewrite firstn_map. reflexivity.
  - assert (Hni : Nat.eqb (mp_id p) (rm_id rm') = false).
    { apply Nat.eqb_neq. intro C. apply N.
      assert (Hl : (r < length (map rm_id rs))%nat) by (rewrite map_length; apply nth_error_Some; congruence).
      rewrite NoDup_nth_error in Hnd. apply Hnd; auto.
      rewrite !nth_error_map, Er, E. simpl. congruence. }
    rewrite Hni, IH by (auto; lia). destruct (mp_overload_exact p rm'); reflexivity.
Qed.

Lemma mp_lookup_missing : forall rs r p,
  (forall rm, In rm rs -> ~ (mp_id p = rm_id rm)) -> mp_lookup rs r p = None.
Proof.
  intros rs r p H. induction r as [|r IH]; simpl; auto.
  destruct (nth_error rs r) as [rm|] eqn:E; auto.
  assert (Nat.eqb (mp_id p) (rm_id rm) = false).
  { apply Nat.eqb_neq. apply H. eapply nth_error_In; eauto. }
  rewrite H0. destruct (mp_overload_exact p rm); auto.
Qed.

(** *** C08 *)
Lemma chk64_ok : forall v, - 2 ^ 63 <= v < 2 ^ 63 -> chk64 v = Some v.
Proof.
  intros v H. unfold chk64, in_i64.
  replace (- 2 ^ 63 <=? v) with true by (symmetry; apply Z.leb_le; lia).
  replace (v <? 2 ^ 63) with true by (symmetry; apply Z.ltb_lt; lia). reflexivity.
Qed.

Lemma gen_index64_exact : forall e x y z,
  wf_extent e -> DIM_PROD e < 2 ^ 63 ->
  0 <= x < DIM_X e -> 0 <= y < DIM_Y e -> 0 <= z < DIM_Z e ->
  gen_index64 e x y z = Some (gen_index e x y z).
Proof.
  intros e x y z [HX [HY HZ]] HP Hx Hy Hz.
  pose proof (gen_index_bound e x y z Hx Hy Hz) as B. unfold gen_index in B. unfold DIM_PROD in *.
  assert (Hzx : 0 <= z * DIM_X e) by nia.
  assert (Hyx : 0 <= y * DIM_X e) by nia.
  assert (Hzxy : 0 <= z * DIM_X e * DIM_Y e) by nia.
  assert (Hzle : z * DIM_X e <= z * DIM_X e * DIM_Y e) by nia.
  unfold gen_index64.
  rewrite (chk64_ok (z * DIM_X e)) by lia.
  rewrite (chk64_ok (z * DIM_X e * DIM_Y e)) by lia.
  rewrite (chk64_ok (y * DIM_X e)) by lia.
  rewrite (chk64_ok (z * DIM_X e * DIM_Y e + y * DIM_X e)) by lia.
  rewrite chk64_ok by lia. reflexivity.
Qed.

Lemma dim_prod64_exact : forall e,
  wf_extent e -> DIM_X e * DIM_Y e < 2 ^ 63 -> DIM_PROD e < 2 ^ 63 -> dim_prod64 e = Some (DIM_PROD e).
Proof.
  intros e [HX [HY HZ]] H1 H2. unfold dim_prod64, DIM_PROD in *.
  assert (0 <= DIM_X e * DIM_Y e) by nia.
  assert (0 <= DIM_X e * DIM_Y e * DIM_Z e) by nia.
  rewrite chk64_ok by lia. apply chk64_ok. lia.
Qed.

Lemma wrap64_small : forall v, 0 <= v < 2 ^ 64 -> wrap64 v = v.
Proof. intros. unfold wrap64. apply Z.mod_small. auto. Qed.

Lemma member_addr64_exact : forall ms e i I j k m T a,
  wf_members ms -> wf_extent e -> agg_size ms = Some T ->
  T * (DIM_X e * DIM_Y e * DIM_Z e) < 2 ^ 63 ->
  nth_error ms j = Some m -> 0 <= k < Z.of_nat (m_count m) ->
  0 <= i + I < DIM_PROD e ->
  - 2 ^ 63 <= i * m_size m < 2 ^ 63 -> - 2 ^ 63 <= I * m_size m < 2 ^ 63 ->
  member_addr ms (mkAcc e i I) j k = Some a ->
  member_addr64 ms (mkAcc e i I) j k = Some a.
Proof.
  intros ms e i I j k m T a Hw He HT Hb E Hk Hi Hw1 Hw2 Ha.
  pose proof (elements_in_buffer _ _ _ _ _ _ _ _ _ Hw HT E Hk Hi Ha) as [Ha0 Ha1].
  rewrite agg_size_total in HT. inversion HT; subst T; clear HT.
  pose proof (the_slot_range _ _ _ _ Hw E Hk) as [R1 [R2 R3]]. simpl in R1, R2, R3.
  pose proof (total_firstn_bound _ _ _ Hw E) as [F1 F2].
  assert (HP0 : 0 < DIM_PROD e) by lia.
  assert (HPT : DIM_PROD e * total ms < 2 ^ 63) by (unfold DIM_PROD in *; nia).
  assert (HT1 : 1 <= total ms) by nia.
  assert (HPb : DIM_PROD e < 2 ^ 63) by nia.
  assert (HTb : total ms < 2 ^ 63) by nia.
  assert (HZ1 : 1 <= DIM_Z e) by (destruct He as [? [? ?]]; unfold DIM_PROD in HP0; nia).
  assert (Hxy : DIM_X e * DIM_Y e <= DIM_PROD e) by (destruct He as [? [? ?]]; unfold DIM_PROD; nia).
  unfold member_addr64. rewrite E.
  rewrite offset_firstn by (apply Nat.lt_le_incl, nth_error_Some; congruence).
  cbn [a_ext a_index a_INDEX].
  rewrite dim_prod64_exact by (auto; lia).
  rewrite (chk64_ok _ Hw1), (chk64_ok _ Hw2).
  rewrite scalar_k by auto.
  rewrite (wrap64_small (m_size m * k)) by nia.
  rewrite (wrap64_small (total _)) by nia.
  rewrite (wrap64_small (m_size m * k + _)) by nia.
  rewrite (wrap64_small (DIM_PROD e)) by nia.
  rewrite (member_addr_eq _ _ _ _ _ E), scalar_k in Ha by auto. cbn [a_ext a_index a_INDEX] in Ha.
  inversion Ha as [Ha']; clear Ha.
  rewrite Ha'. f_equal. unfold wrap64.
  rewrite <- (Zplus_mod (DIM_PROD e * (m_size m * k + total (firstn j ms))) (i * m_size m)).
  rewrite <- Zplus_mod.
  replace (DIM_PROD e * (m_size m * k + total (firstn j ms)) + i * m_size m + I * m_size m) with a by lia.
  apply Z.mod_small. unfold DIM_PROD in *. lia.
Qed.

Lemma member_addr64_inrange : forall ms e i I j k m B a,
  wf_members ms -> wf_extent e ->
  byte_size_of ms (DIM_X e) (DIM_Y e) (DIM_Z e) = Some B -> B < 2 ^ 63 ->
  nth_error ms j = Some m -> 0 <= k < Z.of_nat (m_count m) ->
  0 <= i < DIM_PROD e -> 0 <= i + I < DIM_PROD e ->
  member_addr ms (mkAcc e i I) j k = Some a ->
  member_addr64 ms (mkAcc e i I) j k = Some a.
Proof.
  intros ms e i I j k m B a Hw He HB Hlt E Hk Hi0 Hi Ha.
  unfold byte_size_of in HB. rewrite agg_size_total in HB. inversion HB; subst B; clear HB.
  assert (Hs : 0 < m_size m).
  { unfold wf_members in Hw. rewrite Forall_forall in Hw. apply Hw. eapply nth_error_In; eauto. }
  pose proof (the_slot_range _ _ _ _ Hw E Hk) as [R1 [R2 R3]]. simpl in R1, R2, R3.
  pose proof (total_firstn_bound _ _ _ Hw E) as [F1 F2].
  assert (Hst : m_size m <= total ms) by nia.
  assert (HPs : DIM_PROD e * m_size m <= total ms * DIM_X e * DIM_Y e * DIM_Z e).
  { replace (total ms * DIM_X e * DIM_Y e * DIM_Z e) with (DIM_PROD e * total ms) by (unfold DIM_PROD; ring).
    apply Z.mul_le_mono_nonneg_l; lia. }
  eapply member_addr64_exact; eauto.
  - apply agg_size_total.
  - replace (total ms * (DIM_X e * DIM_Y e * DIM_Z e)) with (total ms * DIM_X e * DIM_Y e * DIM_Z e) by ring. exact Hlt.
  - assert (0 <= i * m_size m) by nia. assert (i * m_size m <= DIM_PROD e * m_size m) by nia. lia.
  - assert (I * m_size m <= DIM_PROD e * m_size m) by nia.
    assert (- (DIM_PROD e * m_size m) <= I * m_size m) by nia. lia.
Qed.

(** *** C09 *)
Lemma element_aligned : forall ms e i I j k m a A,
  nth_error ms j = Some m -> 0 < A ->
  (A | DIM_PROD e) -> (A | m_size m) ->
  member_addr ms (mkAcc e i I) j k = Some a -> (A | a).
Proof.
  intros ms e i I j k m a A E HA HP Hs Ha. rewrite (member_addr_eq _ _ _ _ _ E) in Ha.
  cbn [a_ext a_index a_INDEX] in Ha. inversion Ha; subst a; clear Ha. apply Z.divide_add_r.
  - apply Z.divide_mul_l. auto.
  - apply Z.divide_mul_r. auto.
Qed.
