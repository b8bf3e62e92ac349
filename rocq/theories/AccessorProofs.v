(** Canonical (slot-wise) form of the accessor bulk functions. *)
From Coq Require Import ZArith List Lia Bool.
From Verif Require Import Base Layout LayoutProofs Mem MemProofs Accessor.
Import ListNotations.
Open Scope Z_scope.

Definition sptr (d : ptr) (P : Z) (sl : slot) (i : Z) : ptr := padd d (slot_addr P sl i).

Definition idx (a : accessor) : Z := a_index a + a_INDEX a.

(** [members_ix] really carries offset<CELL, j>::OFFSET. *)
Lemma members_from_nth : forall ms j o i j' o' m,
  nth_error (members_from j o ms) i = Some (j', o', m) ->
  j' = (j + i)%nat /\ nth_error ms i = Some m /\ o' = o + total (firstn i ms).
Proof.
  induction ms as [|m0 ms IH]; intros j o [|i] j' o' m H; simpl in *; try discriminate.
  - inversion H; subst. repeat split; lia.
  - apply IH in H. destruct H as [-> [H ->]]. repeat split; auto; [lia|].
    unfold m_bytes. lia.
Qed.

Lemma members_ix_offset : forall ms i j o m,
  nth_error (members_ix ms) i = Some (j, o, m) ->
  j = i /\ nth_error ms i = Some m /\ offset ms i = Some o.
Proof.
  intros ms i j o m H. apply members_from_nth in H. destruct H as [-> [H ->]].
  repeat split; auto. rewrite offset_firstn by (apply Nat.lt_le_incl, nth_error_Some; congruence).
  f_equal; lia.
Qed.

(** [eptr] is [member_addr]. *)
Lemma eptr_member_addr : forall ms i j o m d a k,
  nth_error (members_ix ms) i = Some (j, o, m) ->
  exists x, member_addr ms a i k = Some x /\ eptr d a o m k = padd d x.
Proof.
  intros ms i j o m d a k H. apply members_ix_offset in H. destruct H as [_ [H1 H2]].
  unfold member_addr. rewrite H1, H2. eauto.
Qed.

Lemma ptr_eq : forall p q, pb p = pb q -> po p = po q -> p = q.
Proof. intros [b o] [b' o']; simpl; intros; subst; reflexivity. Qed.

Ltac ptr_ring := apply ptr_eq; simpl; [reflexivity| unfold slot_addr, idx; simpl; ring].

Lemma eptr_sptr : forall d a o m k sz cl df,
  sz = m_size m ->
  match m_array m with None => k = 0 | Some _ => True end ->
  eptr d a o m k = sptr d (DIM_PROD (a_ext a)) (mkSlot (o + m_size m * k) sz cl df) (idx a).
Proof.
  intros d a o m k sz cl df -> H. apply ptr_eq; [reflexivity|]. unfold eptr, sptr, slot_addr, idx; simpl.
  destruct (m_array m); [ring|subst; ring].
Qed.

Lemma flat_map_members_slots : forall (B : Type) (f : nat * Z * member -> list B) (h : slot -> list B) ms j o,
  (forall j o m, In m ms -> f (j, o, m) = flat_map h (member_slots o m)) ->
  flat_map f (members_from j o ms) = flat_map h (slots_from o ms).
Proof.
  intros B f h ms. induction ms as [|m ms IH]; intros j o H; simpl; auto.
  rewrite flat_map_app. f_equal.
  - apply H. simpl; auto.
  - apply IH. intros; apply H; simpl; auto.
Qed.

Lemma flat_map_member_slots : forall (B : Type) (h : slot -> list B) o m,
  flat_map h (member_slots o m) =
  flat_map (fun k => h (mkSlot (o + m_size m * k) (m_size m) (m_class m) (m_default m))) (arity_seq (m_count m)).
Proof.
  intros. unfold member_slots, arity_seq. rewrite !flat_map_concat_map, !map_map. reflexivity.
Qed.

Lemma flat_map_single : forall (A B : Type) (f : A -> B) l, flat_map (fun x => [f x]) l = map f l.
Proof. intros A B f l. induction l as [|a l IH]; simpl; congruence. Qed.

Lemma flat_map_ext_in : forall (A B : Type) (f g : A -> list B) l,
  (forall a, In a l -> f a = g a) -> flat_map f l = flat_map g l.
Proof.
  intros A B f g l. induction l as [|a l IH]; intros H; simpl; auto.
  rewrite (H a), IH; simpl; auto. intros; apply H; simpl; auto.
Qed.

Lemma construct_members_canon : forall d a ms,
  construct_members_ops d a ms =
  map (fun sl => Construct (sptr d (DIM_PROD (a_ext a)) sl (idx a)) (s_size sl) (s_class sl) (s_default sl)) (slots ms).
Proof.
  intros d a ms. rewrite <- flat_map_single. unfold construct_members_ops, members_ix, slots.
  apply flat_map_members_slots. intros j o m _. rewrite flat_map_member_slots. unfold m_count.
  destruct (m_array m) as [n|] eqn:E; simpl.
  - rewrite flat_map_single. apply map_ext. intros k. f_equal. unfold rptr, eptr. rewrite E. ptr_ring.
  - f_equal. f_equal. unfold eptr. rewrite E. ptr_ring.
Qed.

Lemma destroy_members_canon : forall d a ms,
  destroy_members_ops d a ms =
  map (fun sl => Destroy (sptr d (DIM_PROD (a_ext a)) sl (idx a)) (s_size sl) (s_class sl)) (slots ms).
Proof.
  intros d a ms. rewrite <- flat_map_single. unfold destroy_members_ops, members_ix, slots.
  apply flat_map_members_slots. intros j o m _. rewrite flat_map_member_slots. unfold m_count.
  destruct (m_array m) as [n|] eqn:E; simpl.
  - rewrite flat_map_single. apply map_ext. intros k. f_equal. unfold rptr, eptr. rewrite E. ptr_ring.
  - f_equal. f_equal. unfold eptr. rewrite E. ptr_ring.
Qed.

(** All three copying functions are copies between two slot layouts. *)
Definition slot_copy_ops (ms : list member) (d : ptr) (P i : Z) (d' : ptr) (P' i' : Z) (count : Z) : list mop :=
  flat_map (fun sl => map (fun n => Copy (sptr d P sl (i + n)) (sptr d' P' sl (i' + n)) (s_size sl) (s_class sl))
                          (zseq count)) (slots ms).

Lemma load_canon : forall d a ms source count off stride,
  load_ops d a ms source count off stride =
  slot_copy_ops ms d (DIM_PROD (a_ext a)) (idx a) source stride off count.
Proof.
  intros. unfold load_ops, slot_copy_ops, members_ix, slots.
  apply flat_map_members_slots. intros j o m _. rewrite flat_map_member_slots. unfold m_count.
  destruct (m_array m) as [n|] eqn:E; cbn [flat_map arity_seq map seq].
  - apply flat_map_ext_in. intros k _. apply map_ext. intros i. f_equal.
    + unfold rptr, eptr. rewrite E. ptr_ring.
    + ptr_ring.
  - rewrite app_nil_r. apply map_ext. intros i. f_equal.
    + unfold eptr. rewrite E. ptr_ring.
    + ptr_ring.
Qed.

Lemma save_canon : forall d a ms target count off stride,
  save_ops d a ms target count off stride =
  slot_copy_ops ms target stride off d (DIM_PROD (a_ext a)) (idx a) count.
Proof.
  intros. unfold save_ops, slot_copy_ops, members_ix, slots.
  apply flat_map_members_slots. intros j o m _. rewrite flat_map_member_slots. unfold m_count.
  destruct (m_array m) as [n|] eqn:E; cbn [flat_map arity_seq map seq].
  - apply flat_map_ext_in. intros k _. apply map_ext. intros i. f_equal.
    + ptr_ring.
    + unfold rptr, eptr. rewrite E. ptr_ring.
  - rewrite app_nil_r. apply map_ext. intros i. f_equal.
    + ptr_ring.
    + unfold eptr. rewrite E. ptr_ring.
Qed.

Lemma copy_members_canon : forall d a ms d' a' count,
  copy_members_ops d a ms d' a' count =
  slot_copy_ops ms d (DIM_PROD (a_ext a)) (idx a) d' (DIM_PROD (a_ext a')) (idx a') count.
Proof.
  intros. unfold copy_members_ops, slot_copy_ops, members_ix, slots.
  apply flat_map_members_slots. intros j o m _. rewrite flat_map_member_slots. unfold m_count.
  destruct (m_array m) as [n|] eqn:E; cbn [flat_map arity_seq map seq].
  - apply flat_map_ext_in. intros k _. apply map_ext. intros i. f_equal.
    + unfold rptr, eptr. rewrite E. ptr_ring.
    + unfold rptr, eptr. rewrite E. ptr_ring.
  - rewrite app_nil_r. apply map_ext. intros i. f_equal.
    + unfold eptr. rewrite E. ptr_ring.
    + unfold eptr. rewrite E. ptr_ring.
Qed.

(** Cells and their flat form. *)
Definition wf_cell (ms : list member) (c : cell) : Prop :=
  Forall2 (fun m vs => length vs = m_count m /\
                       Forall (fun v : elem => Z.of_nat (length v) = m_size m) vs) ms c.

Lemma map_nth_seq : forall (A B : Type) (f : nat -> A -> B) (d : A) (l : list A) s,
  map (fun k => f (s + k)%nat (nth k l d)) (seq 0 (length l)) =
  map (fun '(k, x) => f k x) (combine (seq s (length l)) l).
Proof.
  intros A B f d l. induction l as [|a l IH]; intros s; simpl; auto.
  rewrite Nat.add_0_r. f_equal. rewrite <- seq_shift, map_map. rewrite <- IH.
  apply map_ext. intros k. f_equal. lia.
Qed.

Lemma combine_map_l : forall (A A' B : Type) (f : A -> A') (l : list A) (l' : list B),
  combine (map f l) l' = map (fun '(a, b) => (f a, b)) (combine l l').
Proof. intros A A' B f l. induction l as [|a l IH]; intros [|b l']; simpl; auto. f_equal. auto. Qed.

Lemma combine_app_eq : forall (A B : Type) (l1 l2 : list A) (r1 r2 : list B),
  length l1 = length r1 -> combine (l1 ++ l2) (r1 ++ r2) = combine l1 r1 ++ combine l2 r2.
Proof.
  intros A B l1. induction l1 as [|a l1 IH]; intros l2 [|b r1] r2 H; simpl in *; auto; try discriminate.
  f_equal. apply IH. lia.
Qed.

Lemma length_member_slots : forall o m, length (member_slots o m) = m_count m.
Proof. intros. unfold member_slots. rewrite map_length, seq_length. reflexivity. Qed.

Lemma assign_canon : forall d a ms c,
  wf_cell ms c ->
  assign_ops d a ms c =
  map (fun '(sl, v) => Assign (sptr d (DIM_PROD (a_ext a)) sl (idx a)) (s_size sl) (s_class sl) v)
      (combine (slots ms) (concat c)).
Proof.
  intros d a ms c Hw. unfold assign_ops, members_ix, slots.
  assert (G : forall ms c0 c1 o, wf_cell ms c1 ->
    flat_map (fun e : nat * Z * member => let '(j, o, m) := e in
      match m_array m with
      | None => [Assign (eptr d a o m 0) (m_size m) (m_class m) (nth 0 (nth j (c0 ++ c1) []) [])]
      | Some n =>
          map (fun k => Assign (padd (eptr d a o m 0) ((DIM_PROD (a_ext a) * Z.of_nat k) * m_size m))
                               (m_size m) (m_class m) (nth k (nth j (c0 ++ c1) []) [])) (seq 0 n)
      end) (members_from (length c0) o ms) =
    map (fun '(sl, v) => Assign (sptr d (DIM_PROD (a_ext a)) sl (idx a)) (s_size sl) (s_class sl) v)
      (combine (slots_from o ms) (concat c1))).
  { clear. induction ms as [|m ms IH]; intros c0 c1 o Hw; inversion Hw as [|? vs ? c2 [Hl Hf] Hw']; subst; simpl; auto.
    rewrite combine_app_eq by (rewrite length_member_slots; auto). rewrite map_app. f_equal.
    - rewrite app_nth2 by lia. rewrite Nat.sub_diag. cbn [nth].
      unfold member_slots, m_count in *. destruct (m_array m) as [n|] eqn:E.
      + rewrite combine_map_l, map_map. rewrite <- Hl.
        pose proof (map_nth_seq elem mop (fun k v =>
          Assign (padd (eptr d a o m 0) ((DIM_PROD (a_ext a) * Z.of_nat k) * m_size m)) (m_size m) (m_class m) v) [] vs 0) as G.
        cbn [Nat.add] in G. rewrite G. apply map_ext. intros [k v]. cbn [s_size s_class]. f_equal. unfold eptr. rewrite E. ptr_ring.
      + destruct vs as [|v [|]]; simpl in Hl; try discriminate. simpl. f_equal. f_equal.
        unfold eptr. rewrite E. ptr_ring.
    - specialize (IH (c0 ++ [vs]) c2 (o + m_bytes m) Hw'). rewrite app_length in IH. simpl in IH.
      rewrite <- app_assoc in IH. simpl in IH. rewrite Nat.add_1_r in IH. exact IH. }
  exact (G ms [] c 0 Hw).
Qed.

(** Reading a cell back. *)
Lemma read_cell_ok : forall m0 d a ms c,
  wf_cell ms c ->
  (forall sl v, In (sl, v) (combine (slots ms) (concat c)) ->
     read_elem m0 (sptr d (DIM_PROD (a_ext a)) sl (idx a)) (s_size sl) (s_class sl) = Val v) ->
  read_cell m0 d a ms = Val c.
Proof.
  intros m0 d a ms c Hw H. unfold read_cell, members_ix, slots in *.
  remember 0%nat as j eqn:Ej in |- *. clear Ej.
  set (f := fun e : nat * Z * member => _).
  assert (G : exists o, o = 0) by eauto. destruct G as [o Eo]. rewrite <- Eo in H |- *. clear Eo.
  revert o j c H Hw. 
  induction ms as [|m ms IH]; intros o j c H Hw; inversion Hw as [|? vs ? c2 [Hl Hf] Hw']; subst; simpl in *; auto.
  rewrite combine_app_eq in H by (rewrite length_member_slots; auto).
  rewrite (IH (o + m_size m * Z.of_nat (m_count m)) (S j) c2); auto.
  2:{ intros sl v Hin. apply H. apply in_or_app. right. exact Hin. }
  assert (Hv : forall k v, nth_error vs k = Some v ->
    read_elem m0 (sptr d (DIM_PROD (a_ext a)) (mkSlot (o + m_size m * Z.of_nat k) (m_size m) (m_class m) (m_default m)) (idx a))
      (m_size m) (m_class m) = Val v).
  { intros k v Hk. apply (H (mkSlot (o + m_size m * Z.of_nat k) (m_size m) (m_class m) (m_default m)) v).
    apply in_or_app. left. unfold member_slots. rewrite combine_map_l. apply in_map_iff.
    exists (k, v). split; auto. 
    assert (Hk2 : (k < length vs)%nat) by (apply nth_error_Some; congruence).
    rewrite <- Hl. clear -Hk. 
    assert (G : forall s, In ((s + k)%nat, v) (combine (seq s (length vs)) vs)).
    { revert k Hk. induction vs as [|w vs IHv]; intros [|k] Hk s; simpl in *; try discriminate.
      - inversion Hk; subst. left. f_equal. lia.
      - right. specialize (IHv k Hk (S s)). replace (s + S k)%nat with (S s + k)%nat by lia. auto. }
    exact (G 0%nat). }
  unfold m_count in Hl. destruct (m_array m) as [n|] eqn:E.
  - assert (HM : mapR (fun k => read_elem m0 (padd (eptr d a o m 0) (DIM_PROD (a_ext a) * k * m_size m)) (m_size m) (m_class m)) (arity_seq n) = Val vs).
    { assert (HP : forall k, padd (eptr d a o m 0) (DIM_PROD (a_ext a) * Z.of_nat k * m_size m) =
         sptr d (DIM_PROD (a_ext a)) (mkSlot (o + m_size m * Z.of_nat k) (m_size m) (m_class m) (m_default m)) (idx a)).
      { intros k. unfold eptr. rewrite E. ptr_ring. }
      unfold arity_seq. rewrite <- Hl. clear Hl H IH Hw Hf.
      assert (G : forall vs s, (forall k v, nth_error vs k = Some v ->
         read_elem m0 (padd (eptr d a o m 0) (DIM_PROD (a_ext a) * Z.of_nat (s + k) * m_size m)) (m_size m) (m_class m) = Val v) ->
         mapR (fun k => read_elem m0 (padd (eptr d a o m 0) (DIM_PROD (a_ext a) * k * m_size m)) (m_size m) (m_class m))
           (map Z.of_nat (seq s (length vs))) = Val vs).
      { clear. induction vs as [|v vs IHv]; intros s H; simpl; auto.
        pose proof (H 0%nat v eq_refl) as H0. rewrite Nat.add_0_r in H0. rewrite H0.
        rewrite (IHv (S s)); auto. intros k w Hk. specialize (H (S k) w Hk). 
        replace (s + S k)%nat with (S s + k)%nat in H by lia. exact H. }
      apply G. intros k v Hk. rewrite HP. apply Hv. exact Hk. }
    rewrite HM. reflexivity.
  - destruct vs as [|v [|]]; simpl in Hl; try discriminate. simpl.
    rewrite (eptr_sptr d a o m 0 (m_size m) (m_class m) (m_default m)) by (auto; rewrite E; auto).
    pose proof (Hv 0%nat v eq_refl) as H0. change (Z.of_nat 0) with 0 in H0. rewrite H0. reflexivity.
Qed.

(** If the flat values are known, the shape can be rebuilt. *)
Lemma length_slots_from : forall ms o c, wf_cell ms c -> length (slots_from o ms) = length (concat c).
Proof.
  intros ms. induction ms as [|m ms IH]; intros o c Hw; inversion Hw as [|? vs ? c2 [Hl Hf] Hw']; subst; simpl; auto.
  rewrite !app_length, length_member_slots, Hl. f_equal. apply IH; auto.
Qed.

Lemma wf_cell_sizes : forall ms c o,
  wf_cell ms c -> Forall (fun '(sl, v) => Z.of_nat (length v) = s_size sl) (combine (slots_from o ms) (concat c)).
Proof.
  intros ms. induction ms as [|m ms IH]; intros c o Hw; inversion Hw as [|? vs ? c2 [Hl Hf] Hw']; subst; simpl; auto.
  rewrite combine_app_eq by (rewrite length_member_slots; auto). apply Forall_app. split; auto.
  unfold member_slots. rewrite combine_map_l. apply Forall_map. apply Forall_forall. intros [k v] Hin. simpl.
  apply in_combine_r in Hin. rewrite Forall_forall in Hf. auto.
Qed.

(** The default cell: every member element is T(). *)
Definition default_cell (ms : list member) : cell := map (fun m => repeat (m_default m) (m_count m)) ms.

Definition wf_defaults (ms : list member) : Prop :=
  Forall (fun m => Z.of_nat (length (m_default m)) = m_size m) ms.

Lemma default_cell_wf : forall ms, wf_defaults ms -> wf_cell ms (default_cell ms).
Proof.
  intros ms H. induction H as [|m ms Hm H IH]; simpl; constructor; auto.
  rewrite repeat_length. split; auto. apply Forall_forall. intros v Hv. apply repeat_spec in Hv. subst; auto.
Qed.

Lemma default_cell_flat : forall ms o,
  concat (default_cell ms) = map s_default (slots_from o ms).
Proof.
  induction ms as [|m ms IH]; intros o; simpl; auto. rewrite map_app. rewrite <- IH. f_equal.
  unfold member_slots. rewrite map_map. cbn [s_default]. generalize 0%nat as s. induction (m_count m) as [|n IHn]; intros s; simpl; auto.
  f_equal. apply IHn.
Qed.
