(** Statements C01-C09: storage layout. *)
From Coq Require Import ZArith List Lia Bool.
From Verif Require Import Base Layout LayoutProofs Sizes SizesProofs.
Import ListNotations.
Open Scope Z_scope.

(** ** Specification vocabulary *)

(** Byte positions of an element of [s] bytes starting at [a]. *)
Definition covers (a s b : Z) : Prop := a <= b < a + s.
Definition ranges_disjoint (a s a' s' : Z) : Prop := forall b, ~ (covers a s b /\ covers a' s' b).

(** Registered members have sizeof >= 1 ([wf_members]); extents are not negative
    ([wf_extent]). [is_slot ms j k m]: [m] is the [j]-th member and [k] one of its
    array slots (only 0 for a scalar member). *)
Definition is_slot (ms : list member) (j : nat) (k : Z) (m : member) : Prop :=
  nth_error ms j = Some m /\
  match m_array m with None => k = 0 | Some n => 0 <= k < Z.of_nat n end.

Lemma is_slot_count : forall ms j k m,
  is_slot ms j k m -> nth_error ms j = Some m /\ 0 <= k < Z.of_nat (m_count m).
Proof.
  intros ms j k m [H1 H2]. split; auto. unfold m_count. destruct (m_array m); lia.
Qed.

(** Example cell: char a; double b[3]; std::string-like class member c (32 bytes); int d. *)
Definition ex_ms : list member :=
  [ mkMember 1 None false []; mkMember 8 (Some 3%nat) false []; mkMember 32 None true []; mkMember 4 None false [] ].
Definition ex_ext : extent := mkExt 32 4 2.

Lemma ex_ms_wf : wf_members ex_ms.
Proof. repeat constructor. Qed.
Lemma ex_ext_wf : wf_extent ex_ext.
Proof. unfold wf_extent; simpl; lia. Qed.

(** ** C01 *)
Theorem C01_elements_disjoint : forall ms e i1 I1 i2 I2 j1 k1 j2 k2 m1 m2,
  wf_members ms ->
  is_slot ms j1 k1 m1 -> is_slot ms j2 k2 m2 ->
  0 <= i1 + I1 < DIM_X e * DIM_Y e * DIM_Z e ->
  0 <= i2 + I2 < DIM_X e * DIM_Y e * DIM_Z e ->
  (i1 + I1, j1, k1) <> (i2 + I2, j2, k2) ->
  exists a1 a2,
    member_addr ms (mkAcc e i1 I1) j1 k1 = Some a1 /\
    member_addr ms (mkAcc e i2 I2) j2 k2 = Some a2 /\
    ranges_disjoint a1 (m_size m1) a2 (m_size m2).
Proof.
  intros ms e i1 I1 i2 I2 j1 k1 j2 k2 m1 m2 Hw S1 S2 H1 H2 Hne.
  apply is_slot_count in S1. apply is_slot_count in S2. destruct S1 as [E1 K1], S2 as [E2 K2].
  do 2 eexists. split; [exact (member_addr_slot ms (mkAcc e i1 I1) _ _ _ E1 K1)|].
  split; [exact (member_addr_slot ms (mkAcc e i2 I2) _ _ _ E2 K2)|].
  intros b [B1 B2]. unfold covers in *.
  pose proof (elements_disjoint ms e i1 I1 i2 I2 j1 k1 j2 k2 m1 m2 _ _ Hw E1 E2 K1 K2 H1 H2 Hne
    (member_addr_slot ms (mkAcc e i1 I1) _ _ _ E1 K1) (member_addr_slot ms (mkAcc e i2 I2) _ _ _ E2 K2)). lia.
Qed.

Example C01_case :
  is_slot ex_ms 1 2 (mkMember 8 (Some 3%nat) false []) /\ is_slot ex_ms 2 0 (mkMember 32 None true []) /\
  member_addr ex_ms (mkAcc ex_ext 250 5) 1 2 = Some 6392 /\
  member_addr ex_ms (mkAcc ex_ext 0 0) 2 0 = Some 6400.
Proof. repeat split; vm_compute; congruence. Qed.

(** ** C02 *)
Theorem C02_elements_inside_buffer : forall ms e i I j k m,
  wf_members ms -> is_slot ms j k m ->
  0 <= i + I < DIM_X e * DIM_Y e * DIM_Z e ->
  exists a B,
    member_addr ms (mkAcc e i I) j k = Some a /\
    byte_size_of ms (DIM_X e) (DIM_Y e) (DIM_Z e) = Some B /\
    0 <= a /\ a + m_size m <= B.
Proof.
  intros ms e i I j k m Hw S Hi. apply is_slot_count in S. destruct S as [E K].
  do 2 eexists. split; [exact (member_addr_slot ms (mkAcc e i I) _ _ _ E K)|].
  split; [unfold byte_size_of; rewrite agg_size_total; reflexivity|].
  pose proof (elements_in_buffer ms e i I j k m _ _ Hw (agg_size_total ms) E K Hi
     (member_addr_slot ms (mkAcc e i I) _ _ _ E K)) as [P1 P2]. split; auto.
  replace (total ms * DIM_X e * DIM_Y e * DIM_Z e) with (total ms * (DIM_X e * DIM_Y e * DIM_Z e)) by ring.
  exact P2.
Qed.

(** Every byte of the buffer belongs to an element (to exactly one, by C01). *)
Theorem C02_buffer_tiled : forall ms e B b,
  wf_members ms -> wf_extent e ->
  byte_size_of ms (DIM_X e) (DIM_Y e) (DIM_Z e) = Some B -> 0 <= b < B ->
  exists x y z j k m a,
    0 <= x < DIM_X e /\ 0 <= y < DIM_Y e /\ 0 <= z < DIM_Z e /\ is_slot ms j k m /\
    member_addr ms (mkAcc e (gen_index e x y z) 0) j k = Some a /\ covers a (m_size m) b.
Proof.
  intros ms e B b Hw He HB Hb. unfold byte_size_of in HB. rewrite agg_size_total in HB. inversion HB; subst B.
  destruct (buffer_tiled ms e (total ms) b Hw He (agg_size_total ms)) as [i [j [k [m [a [Hi [E [K [Ha Hc]]]]]]]]].
  { replace (total ms * (DIM_X e * DIM_Y e * DIM_Z e)) with (total ms * DIM_X e * DIM_Y e * DIM_Z e) by ring. auto. }
  destruct (gen_index_surj e i He Hi) as [x [y [z [Hx [Hy [Hz Hg]]]]]].
  exists x, y, z, j, k, m, a. rewrite Hg. repeat split; auto; try lia.
  unfold m_count in K. destruct (m_array m); lia.
Qed.

(** The buffer size is the number of cells times the sum of the member sizes. *)
Theorem C02_byte_size : forall ms dx dy dz,
  byte_size_of ms dx dy dz =
  Some (dx * dy * dz *
        fold_right Z.add 0 (map (fun m => m_size m * Z.of_nat (match m_array m with None => 1%nat | Some n => n end)) ms)).
Proof.
  intros ms dx dy dz. unfold byte_size_of. rewrite agg_size_total. f_equal.
  assert (E : total ms = fold_right Z.add 0 (map (fun m => m_size m * Z.of_nat (match m_array m with None => 1%nat | Some n => n end)) ms)).
  { induction ms as [|m ms IH]; simpl; auto. rewrite IH. reflexivity. }
  rewrite E. ring.
Qed.

Example C02_case : byte_size_of ex_ms 32 4 2 = Some (256 * 61) /\
  member_addr ex_ms (mkAcc ex_ext 255 0) 3 0 = Some (256 * 61 - 4).
Proof. split; vm_compute; reflexivity. Qed.

(** ** C03 *)
Theorem C03_unit_stride : forall ms e i I j k m d a,
  is_slot ms j k m -> member_addr ms (mkAcc e i I) j k = Some a ->
  member_addr ms (mkAcc e (i + d) I) j k = Some (a + d * m_size m).
Proof. intros ms e i I j k m d a [E _] H. eapply unit_stride; eauto. Qed.

Theorem C03_array_slot_stride : forall ms e i I j k k' m n a,
  nth_error ms j = Some m -> m_array m = Some n ->
  member_addr ms (mkAcc e i I) j k = Some a ->
  member_addr ms (mkAcc e i I) j k' = Some (a + (k' - k) * (DIM_X e * DIM_Y e * DIM_Z e) * m_size m).
Proof.
  intros ms e i I j k k' m n a E Hn H.
  replace k' with (k + (k' - k)) at 1 by ring. eapply array_slot_stride; eauto.
Qed.

Example C03_case :
  member_addr ex_ms (mkAcc ex_ext 7 0) 1 1 = Some (256 + 256 * 8 + 7 * 8) /\
  member_addr ex_ms (mkAcc ex_ext 5 0) 1 1 = Some (256 + 256 * 8 + 7 * 8 - 2 * 8).
Proof. split; vm_compute; reflexivity. Qed.

(** ** C04 *)
Theorem C04_gen_index_bijective : forall e, wf_extent e ->
  (forall x y z, 0 <= x < DIM_X e -> 0 <= y < DIM_Y e -> 0 <= z < DIM_Z e ->
     0 <= gen_index e x y z < DIM_X e * DIM_Y e * DIM_Z e) /\
  (forall x y z x' y' z',
     0 <= x < DIM_X e -> 0 <= y < DIM_Y e -> 0 <= z < DIM_Z e ->
     0 <= x' < DIM_X e -> 0 <= y' < DIM_Y e -> 0 <= z' < DIM_Z e ->
     gen_index e x y z = gen_index e x' y' z' -> x = x' /\ y = y' /\ z = z') /\
  (forall i, 0 <= i < DIM_X e * DIM_Y e * DIM_Z e ->
     exists x y z, 0 <= x < DIM_X e /\ 0 <= y < DIM_Y e /\ 0 <= z < DIM_Z e /\ gen_index e x y z = i).
Proof.
  intros e He. split; [intros; apply gen_index_bound; auto|]. split; [intros; eapply gen_index_inj; eauto|].
  intros; apply gen_index_surj; auto.
Qed.

(** x runs fastest, then y, then z: indices are ordered like the triples (z, y, x). *)
Theorem C04_gen_index_order : forall e x y z x' y' z',
  0 <= x < DIM_X e -> 0 <= y < DIM_Y e -> 0 <= z ->
  0 <= x' < DIM_X e -> 0 <= y' < DIM_Y e -> 0 <= z' ->
  (gen_index e x y z < gen_index e x' y' z' <-> z < z' \/ z = z' /\ (y < y' \/ y = y' /\ x < x')).
Proof.
  assert (L : forall e x y z x' y' z',
    0 <= x < DIM_X e -> 0 <= y < DIM_Y e -> 0 <= z ->
    0 <= x' < DIM_X e -> 0 <= y' < DIM_Y e -> 0 <= z' ->
    z < z' \/ z = z' /\ (y < y' \/ y = y' /\ x < x') -> gen_index e x y z < gen_index e x' y' z').
  { intros e x y z x' y' z' Hx Hy Hz Hx' Hy' Hz' H. unfold gen_index.
    assert (y * DIM_X e + x < DIM_X e * DIM_Y e) by nia. assert (0 <= y' * DIM_X e) by nia.
    destruct H as [H|[-> [H|[-> H]]]]; [|nia|nia].
    assert ((z + 1) * (DIM_X e * DIM_Y e) <= z' * (DIM_X e * DIM_Y e)) by (apply Z.mul_le_mono_nonneg_r; nia). lia. }
  intros e x y z x' y' z' Hx Hy Hz Hx' Hy' Hz'. split; [|apply L; auto].
  intros H. destruct (Z.lt_trichotomy z z') as [?|[->|C]]; [auto| |].
  - right; split; auto. destruct (Z.lt_trichotomy y y') as [?|[->|C]]; [auto| |].
    + right; split; auto. destruct (Z.lt_trichotomy x x') as [?|[->|C]]; [auto|lia|].
      assert (gen_index e x' y' z' < gen_index e x y' z') by (apply L; auto; right; split; auto). lia.
    + assert (gen_index e x' y' z' < gen_index e x y z') by (apply L; auto; right; split; auto). lia.
  - assert (gen_index e x' y' z' < gen_index e x y z) by (apply L; auto). lia.
Qed.

Example C04_case : gen_index ex_ext 31 3 1 = 255 /\ gen_index ex_ext 0 1 0 = 32 /\ gen_index ex_ext 0 0 1 = 128.
Proof. repeat split. Qed.

(** ** C05 *)
(** Nested operator[](coord<>) with the offsets [cs]; the offsets add up. *)
Theorem C05_relative_coordinates : forall ms e x y z cs j k,
  let '(X, Y, Zc) :=
    fold_right (fun c s => let '(a, b, c') := c in let '(p, q, r) := s in (a + p, b + q, c' + r)) (0, 0, 0) cs in
  member_addr ms (fold_left at_coord cs (mkAcc e (gen_index e x y z) 0)) j k =
  member_addr ms (mkAcc e (gen_index e (x + X) (y + Y) (z + Zc)) 0) j k.
Proof.
  intros ms e x y z cs j k.
  assert (G : forall cs a b c p q r,
    fold_right (fun c s => let '(a, b, c') := c in let '(p, q, r) := s in (a + p, b + q, c' + r)) (0, 0, 0) cs = (p, q, r) ->
    fold_left (fun s c => let '(x, y, z) := s in let '(X, Y, Zc) := c in (x + X, y + Y, z + Zc)) cs (a, b, c)
      = (a + p, b + q, c + r)).
  { clear. induction cs as [|[[a' b'] c'] cs IH]; intros a b c p q r H; simpl in *.
    - inversion H. f_equal; [f_equal|]; ring.
    - destruct (fold_right _ _ cs) as [[p' q'] r']. inversion H; subst. rewrite (IH _ _ _ p' q' r'); auto.
      f_equal; [f_equal|]; ring. }
  destruct (fold_right _ _ cs) as [[X Y] Zc] eqn:E.
  apply (relative_access ms e x y z cs X Y Zc j k). unfold csum. rewrite (G _ _ _ _ _ _ _ E). reflexivity.
Qed.

(** Moving the origin (index i0 -> i1) moves a (light) neighbour accessor derived before. *)
Theorem C05_neighbours_move : forall ms e i0 i1 cs j k,
  member_addr ms (with_index (fold_left at_coord cs (mkAcc e i0 0)) i1) j k =
  member_addr ms (fold_left at_coord cs (mkAcc e i1 0)) j k.
Proof. exact relative_access_moving. Qed.

Theorem C05_increment : forall ms e i I d cs j k,
  member_addr ms (fold_left at_coord cs (acc_add (mkAcc e i I) d)) j k =
  member_addr ms (acc_add (fold_left at_coord cs (mkAcc e i I)) d) j k.
Proof.
  intros ms e i I d cs j k. f_equal. unfold acc_add. simpl.
  assert (G : forall cs a, fold_left at_coord cs (mkAcc (a_ext a) (a_index a + d) (a_INDEX a)) =
    mkAcc (a_ext (fold_left at_coord cs a)) (a_index (fold_left at_coord cs a) + d) (a_INDEX (fold_left at_coord cs a))).
  { clear. induction cs as [|[[X Y] Zc] cs IH]; intros a; simpl; auto. rewrite <- IH. reflexivity. }
  apply (G cs (mkAcc e i I)).
Qed.

Example C05_case :
  member_addr ex_ms (at_coord (at_coord (mkAcc ex_ext (gen_index ex_ext 3 2 1) 0) (-1, 1, 0)) (0, 0, -1)) 3 0 =
  member_addr ex_ms (mkAcc ex_ext (gen_index ex_ext 2 3 0) 0) 3 0.
Proof. reflexivity. Qed.

(** ** C06 *)
Theorem C06_reference_agrees : forall ms a j k m n,
  nth_error ms j = Some m -> m_array m = Some n ->
  member_ref_addr ms a j k = member_addr ms a j k /\ member_addr ms a j k <> None.
Proof.
  intros ms a j k m n E Hn. split; [eapply member_ref_agrees; eauto|].
  rewrite (member_addr_eq _ _ _ _ _ E). discriminate.
Qed.

Theorem C06_access_member_agrees : forall ms a j m o,
  nth_error ms j = Some m -> offset ms j = Some o ->
  access_member_t ms a (m_size m) j = member_addr ms a j 0 /\
  Some (access_member_rt a (m_size m) o) = member_addr ms a j 0.
Proof. intros. split; [eapply access_member_t_agrees|eapply access_member_rt_agrees]; eauto. Qed.

Example C06_case :
  member_ref_addr ex_ms (mkAcc ex_ext 9 0) 1 2 = Some (256 + 2 * 256 * 8 + 72) /\
  access_member_rt (mkAcc ex_ext 9 0) 4 57 = 256 * 57 + 36.
Proof. split; reflexivity. Qed.

(** ** C07 *)
(** Registered members [rs] are pairwise different data members. *)
Theorem C07_registered_found : forall rs j rm p,
  NoDup (map rm_id rs) -> nth_error rs j = Some rm ->
  p = mkMP (rm_type rm) (rm_array rm) (rm_id rm) ->
  member_ptr_to_offset rs p =
  Some (fold_right Z.add 0 (map (fun r => rm_size r * Z.of_nat (match rm_array r with None => 1%nat | Some n => n end)) (firstn j rs))).
Proof.
  intros rs j rm p Hnd E ->. unfold member_ptr_to_offset.
  rewrite (mp_lookup_found rs (length rs) _ j rm); auto.
  - f_equal. induction (firstn j rs) as [|r l IH]; simpl; auto. rewrite IH. reflexivity.
  - apply nth_error_Some. congruence.
Qed.

Theorem C07_unregistered_throws : forall rs p,
  ~ In (mp_id p) (map rm_id rs) -> member_ptr_to_offset rs p = None.
Proof.
  intros rs p H. apply mp_lookup_missing. intros rm Hin E. apply H. rewrite E. apply in_map. auto.
Qed.

Example C07_case :
  let rs := [mkReg 0 None 10 1; mkReg 1 (Some 3%nat) 11 8; mkReg 1 None 12 8; mkReg 1 None 13 8] in
  member_ptr_to_offset rs (mkMP 1 None 13) = Some 33 /\ member_ptr_to_offset rs (mkMP 1 (Some 3%nat) 11) = Some 1 /\
  member_ptr_to_offset rs (mkMP 1 None 99) = None.
Proof. repeat split. Qed.

(** ** C08 *)
Theorem C08_no_overflow : forall ms e i I j k m B a,
  wf_members ms -> wf_extent e ->
  byte_size_of ms (DIM_X e) (DIM_Y e) (DIM_Z e) = Some B -> B < 2 ^ 63 ->
  is_slot ms j k m ->
  0 <= i < DIM_X e * DIM_Y e * DIM_Z e -> 0 <= i + I < DIM_X e * DIM_Y e * DIM_Z e ->
  member_addr ms (mkAcc e i I) j k = Some a ->
  member_addr64 ms (mkAcc e i I) j k = Some a.
Proof.
  intros ms e i I j k m B a Hw He HB Hlt S Hi Hi2 Ha. apply is_slot_count in S. destruct S as [E K].
  eapply member_addr64_inrange; eauto.
Qed.

Theorem C08_gen_index_no_overflow : forall e x y z,
  wf_extent e -> DIM_X e * DIM_Y e * DIM_Z e < 2 ^ 63 ->
  0 <= x < DIM_X e -> 0 <= y < DIM_Y e -> 0 <= z < DIM_Z e ->
  gen_index64 e x y z = Some (z * DIM_X e * DIM_Y e + y * DIM_X e + x).
Proof. intros. apply gen_index64_exact; auto. Qed.

(** Above the limit two different members of the same cell alias. *)
Theorem C08_beyond_limit_aliases : exists ms e j1 j2,
  wf_members ms /\ wf_extent e /\ j1 <> j2 /\ DIM_PROD e < 2 ^ 63 /\
  member_addr64 ms (mkAcc e 0 0) j1 0 = member_addr64 ms (mkAcc e 0 0) j2 0 /\
  member_addr64 ms (mkAcc e 0 0) j1 0 <> None.
Proof.
  exists [mkMember 8 None false []; mkMember 8 None false []], (mkExt (2 ^ 20) (2 ^ 20) (2 ^ 21)), 0%nat, 1%nat.
  split; [repeat constructor|]. split; [vm_compute; intuition discriminate|]. split; [lia|].
  split; [reflexivity|]. split; [reflexivity|discriminate].
Qed.

Example C08_case : member_addr64 ex_ms (mkAcc ex_ext 255 (-200)) 3 0 = Some (256 * 57 + 55 * 4).
Proof. reflexivity. Qed.

(** ** C09 *)
(** [base] is the address of the buffer, [al j] the alignment of the type of member [j]. *)
Theorem C09_elements_aligned : forall ms e i I j k m a base (al : nat -> Z),
  is_slot ms j k m -> 0 < al j ->
  (al j | base) -> (al j | DIM_X e * DIM_Y e * DIM_Z e) -> (al j | m_size m) ->
  member_addr ms (mkAcc e i I) j k = Some a -> (base + a) mod al j = 0.
Proof.
  intros ms e i I j k m a base al [E _] Hp Hb HP Hs Ha. apply Z.mod_divide; [lia|].
  apply Z.divide_add_r; auto. eapply element_aligned; eauto.
Qed.

(** With the default size policy that holds for alignments dividing 32. *)
Theorem C09_default_sizes_aligned : forall ms x y z e i I j k m a base A,
  choose Default x y z = inr e ->
  is_slot ms j k m -> 0 < A -> (A | 32) -> (32 | base) -> (A | m_size m) ->
  member_addr ms (mkAcc e i I) j k = Some a -> (base + a) mod A = 0.
Proof.
  intros ms x y z e i I j k m a base A Hc Hs HA H32 Hb Hsz Ha.
  apply (C09_elements_aligned ms e i I j k m a base (fun _ => A)); auto.
  - exact (Z.divide_trans _ _ _ H32 Hb).
  - eapply Z.divide_trans; [exact H32|]. apply (proj1 (default_aligned _ _ _ _ Hc)).
Qed.

(** soa_array<{char, double}, 3> puts its double at offset 3. *)
Theorem C09_odd_capacity_misaligned : exists ms n j m a,
  wf_members ms /\ is_slot ms j 0 m /\ m_size m = 8 /\
  member_addr ms (mkAcc (mkExt n 1 1) 0 0) j 0 = Some a /\ a mod 8 <> 0.
Proof.
  exists [mkMember 1 None false []; mkMember 8 None false []], 3, 1%nat, (mkMember 8 None false []), 3.
  split; [repeat constructor|]. split; [split; reflexivity|]. split; [reflexivity|]. split; [reflexivity|].
  discriminate.
Qed.

Example C09_case : choose Default 40 30 20 = inr (mkExt 64 64 64) /\ (8 | 32) /\
  member_addr ex_ms (mkAcc (mkExt 64 64 64) 77 0) 1 1 = Some (262144 * 9 + 77 * 8).
Proof. repeat split. exists 4. reflexivity. Qed.

Print Assumptions C01_elements_disjoint.
Print Assumptions C02_elements_inside_buffer.
Print Assumptions C02_buffer_tiled.
Print Assumptions C02_byte_size.
Print Assumptions C03_unit_stride.
Print Assumptions C03_array_slot_stride.
Print Assumptions C04_gen_index_bijective.
Print Assumptions C04_gen_index_order.
Print Assumptions C05_relative_coordinates.
Print Assumptions C05_neighbours_move.
Print Assumptions C05_increment.
Print Assumptions C06_reference_agrees.
Print Assumptions C06_access_member_agrees.
Print Assumptions C07_registered_found.
Print Assumptions C07_unregistered_throws.
Print Assumptions C08_no_overflow.
Print Assumptions C08_gen_index_no_overflow.
Print Assumptions C08_beyond_limit_aliases.
Print Assumptions C09_elements_aligned.
Print Assumptions C09_default_sizes_aligned.
Print Assumptions C09_odd_capacity_misaligned.
