(** The client-side packed buffer of SpecGrid.v is a region. *)
From Coq Require Import ZArith List Lia Bool.
From Verif Require Import Base Layout LayoutProofs Mem MemProofs
  Accessor AccessorProofs RegionProofs Grid SpecGrid GridProofs GridInv.
Import ListNotations.
Open Scope Z_scope.

Definition ci_list (cells : list cell) (i : Z) : option cell :=
  if i <? 0 then None else nth_error cells (Z.to_nat i).

Lemma ci_list_some : forall cells i c, ci_list cells i = Some c ->
  0 <= i < Z.of_nat (length cells) /\ nth_error cells (Z.to_nat i) = Some c.
Proof.
  intros cells i c H. unfold ci_list in H. destruct (Z.ltb_spec i 0); [discriminate|]. split; auto.
  assert (Z.to_nat i < length cells)%nat by (apply nth_error_Some; congruence). lia.
Qed.

Lemma ci_list_in : forall cells i, 0 <= i < Z.of_nat (length cells) -> ci_list cells i <> None.
Proof.
  intros cells i H. unfold ci_list. destruct (Z.ltb_spec i 0); [lia|]. apply nth_error_Some. lia.
Qed.

(** *** Slots are laid end to end *)
Fixpoint chained (o : Z) (sls : list slot) : Prop :=
  match sls with [] => True | sl :: r => s_off sl = o /\ chained (o + s_size sl) r end.

Definition sizes_sum (sls : list slot) : Z := fold_right (fun sl a => s_size sl + a) 0 sls.

Lemma sizes_sum_app : forall a b, sizes_sum (a ++ b) = sizes_sum a + sizes_sum b.
Proof. induction a as [|sl a IH]; intros b; simpl; auto. unfold sizes_sum in *. rewrite IH. lia. Qed.

Lemma chained_app : forall a b o, chained o a -> chained (o + sizes_sum a) b -> chained o (a ++ b).
Proof.
  induction a as [|sl a IH]; intros b o Ha Hb; simpl in *.
  - rewrite Z.add_0_r in Hb. auto.
  - destruct Ha as [H1 H2]. split; auto. apply IH; auto. rewrite <- Z.add_assoc. auto.
Qed.

Lemma chained_member : forall o m, chained o (member_slots o m) /\ sizes_sum (member_slots o m) = m_bytes m.
Proof.
  intros o m. unfold member_slots, m_bytes.
  assert (G : forall n s, chained (o + m_size m * Z.of_nat s)
      (map (fun k => mkSlot (o + m_size m * Z.of_nat k) (m_size m) (m_class m) (m_default m)) (seq s n)) /\
      sizes_sum (map (fun k => mkSlot (o + m_size m * Z.of_nat k) (m_size m) (m_class m) (m_default m)) (seq s n)) = m_size m * Z.of_nat n).
  { induction n as [|n IH]; intros s; cbn [seq map chained sizes_sum fold_right s_off s_size]; [split; [auto|lia]|].
    destruct (IH (S s)) as [H1 H2]. split; [split; [auto|]|].
    - replace (o + m_size m * Z.of_nat s + m_size m) with (o + m_size m * Z.of_nat (S s)) by lia. auto.
    - unfold sizes_sum in H2. rewrite H2. lia. }
  destruct (G (m_count m) 0%nat) as [H1 H2]. rewrite Z.mul_0_r, Z.add_0_r in H1. auto.
Qed.

Lemma chained_slots_from : forall ms o, chained o (slots_from o ms) /\ sizes_sum (slots_from o ms) = total ms.
Proof.
  induction ms as [|m ms IH]; intros o; simpl; auto.
  destruct (chained_member o m) as [H1 H2]. destruct (IH (o + m_bytes m)) as [H3 H4]. split.
  - apply chained_app; auto. rewrite H2. auto.
  - rewrite sizes_sum_app, H2, H4. reflexivity.
Qed.

Definition meta (sl : slot) : Z * bool := (s_size sl, s_class sl).

Lemma flat_meta_slots : forall ms o, flat_meta ms = map meta (slots_from o ms).
Proof.
  induction ms as [|m ms IH]; intros o; simpl; auto. rewrite map_app, <- IH. f_equal.
  unfold member_slots. rewrite map_map. cbn [meta s_size s_class].
  generalize 0%nat as s. induction (m_count m) as [|n IHn]; intros s; simpl; auto. f_equal. apply IHn.
Qed.

Lemma packed_size_total : forall ms n, packed_size ms n = total ms * n.
Proof.
  intros. unfold packed_size. f_equal. rewrite (flat_meta_slots ms 0).
  rewrite <- (proj2 (chained_slots_from ms 0)). unfold sizes_sum.
  induction (slots_from 0 ms) as [|sl l IH]; simpl; auto. rewrite IH. reflexivity.
Qed.

(** *** Elements laid out one after another *)
Fixpoint lay (f : ptr -> Z -> bool -> elem -> mop) (q : ptr) (off : Z) (l : list (Z * bool * elem)) : list mop :=
  match l with
  | [] => []
  | (s, cls, v) :: r => f (padd q off) s cls v :: lay f q (off + s) r
  end.

Lemma build_lay : forall q l off, build_ops q off l = lay Construct q off l.
Proof. induction l as [|[[s cls] v] l IH]; intros off; simpl; auto. rewrite IH. reflexivity. Qed.

Lemma unbuild_lay : forall q l off, unbuild_ops q off l = lay (fun p s cls _ => Destroy p s cls) q off l.
Proof. induction l as [|[[s cls] v] l IH]; intros off; simpl; auto. rewrite IH. reflexivity. Qed.

Definition elems_size (l : list (Z * bool * elem)) : Z := fold_right (fun e a => fst (fst e) + a) 0 l.

Lemma lay_app : forall f q a b off, lay f q off (a ++ b) = lay f q off a ++ lay f q (off + elems_size a) b.
Proof.
  induction a as [|[[s cls] v] a IH]; intros b off; simpl.
  - rewrite Z.add_0_r. reflexivity.
  - rewrite IH, Z.add_assoc. reflexivity.
Qed.

(** One column. *)
Definition lkey := (nat * slot * Z)%type.
Definition kop (f : ptr -> Z -> bool -> elem -> mop) (q : ptr) (n : Z) (cells : list cell) (k : lkey) : mop :=
  let '(t, sl, i) := k in
  f (sptr q n sl i) (s_size sl) (s_class sl) (nth t (concat (nth (Z.to_nat i) cells [])) []).

Definition lkeys (t0 : nat) (sls : list slot) (n : Z) : list lkey :=
  flat_map (fun ts => map (fun i => (fst ts, snd ts, i)) (zseq n)) (combine (seq t0 (length sls)) sls).

Lemma skipn_S : forall (A : Type) (l r : list A) k x, skipn k l = x :: r -> skipn (S k) l = r.
Proof.
  intros A l. induction l as [|a l IH]; intros r [|k] x H; simpl in *; try discriminate.
  - congruence.
  - destruct l; [destruct k; discriminate|]. apply (IH _ _ _ H).
Qed.

Lemma lay_column : forall f q n t sl cells,
  lay f q (n * s_off sl) (map (fun v => (s_size sl, s_class sl, v)) (column cells t)) =
  map (kop f q n cells) (map (fun i => (t, sl, i)) (zseq (Z.of_nat (length cells)))) /\
  elems_size (map (fun v => (s_size sl, s_class sl, v)) (column cells t)) = Z.of_nat (length cells) * s_size sl.
Proof.
  intros f q n t sl cells. split.
  - rewrite map_map. unfold kop, zseq. rewrite map_map, Nat2Z.id. unfold column. rewrite map_map.
    assert (G : forall cs all k, all = skipn k cells -> cs = all ->
      lay f q (n * s_off sl + Z.of_nat k * s_size sl) (map (fun c => (s_size sl, s_class sl, nth t (concat c) [])) cs) =
      map (fun x => f (sptr q n sl (Z.of_nat x)) (s_size sl) (s_class sl) (nth t (concat (nth (Z.to_nat (Z.of_nat x)) cells [])) [])) (seq k (length cs))).
    { induction cs as [|c cs IH]; intros all k Ha Hc; auto. cbn [map lay length seq].
      assert (Hn : nth_error cells k = Some c).
      { rewrite <- (firstn_skipn k cells), nth_error_app2; rewrite firstn_length.
        - rewrite <- Ha, <- Hc.
          assert (length (skipn k cells) = S (length cs)) by (rewrite <- Ha, <- Hc; auto).
          rewrite skipn_length in H. replace (k - Nat.min k (length cells))%nat with 0%nat by lia. reflexivity.
        - lia. }
      f_equal.
      - unfold sptr, slot_addr. f_equal; try (unfold padd; f_equal; lia). rewrite Nat2Z.id, (nth_error_nth _ _ _ Hn). reflexivity.
      - replace (n * s_off sl + Z.of_nat k * s_size sl + s_size sl) with (n * s_off sl + Z.of_nat (S k) * s_size sl) by lia.
        apply IH with (all := skipn (S k) cells); auto.
        symmetry. eapply skipn_S. rewrite <- Ha. symmetry. exact Hc. }
    specialize (G cells cells 0%nat eq_refl eq_refl). rewrite Z.mul_0_l, Z.add_0_r in G. exact G.
  - unfold column. rewrite map_map. induction cells as [|c cells IH]; cbn [map elems_size fold_right length fst]; [lia|].
    unfold elems_size in IH. rewrite IH. lia.
Qed.

Lemma lay_columns : forall f q n cells sls t0 o,
  n = Z.of_nat (length cells) -> chained o sls ->
  lay f q (n * o) (flat_map (fun '(t, (s, cls)) => map (fun v => (s, cls, v)) (column cells t))
                            (combine (seq t0 (length sls)) (map meta sls))) =
  map (kop f q n cells) (lkeys t0 sls n).
Proof.
  intros f q n cells sls. induction sls as [|sl sls IH]; intros t0 o Hn Hc; auto.
  destruct Hc as [H1 H2]. unfold lkeys. cbn [length seq combine map flat_map fst snd]. fold (lkeys (S t0) sls n).
  cbn [meta]. rewrite lay_app, map_app. subst o. destruct (lay_column f q n t0 sl cells) as [L1 L2]. rewrite <- Hn in L1.
  f_equal; auto. rewrite L2, <- Hn. replace (n * s_off sl + n * s_size sl) with (n * (s_off sl + s_size sl)) by lia. apply IH; auto.
Qed.

Lemma lay_pack : forall f q ms cells,
  lay f q 0 (pack_elems ms cells) =
  map (kop f q (Z.of_nat (length cells)) cells) (lkeys 0 (slots ms) (Z.of_nat (length cells))).
Proof.
  intros. unfold pack_elems. rewrite (flat_meta_slots ms 0), map_length.
  pose proof (lay_columns f q (Z.of_nat (length cells)) cells (slots_from 0 ms) 0%nat 0 eq_refl (proj1 (chained_slots_from ms 0))) as H.
  rewrite Z.mul_0_r in H. exact H.
Qed.

Lemma in_combine_seq : forall (A : Type) (l : list A) t0 t x,
  In (t, x) (combine (seq t0 (length l)) l) -> (t0 <= t)%nat /\ nth_error l (t - t0) = Some x.
Proof.
  intros A l. induction l as [|a l IH]; intros t0 t x H; simpl in H; [contradiction|].
  destruct H as [H|H].
  - inversion H; subst. rewrite Nat.sub_diag. auto.
  - apply IH in H. destruct H as [H1 H2]. split; [lia|]. replace (t - t0)%nat with (S (t - S t0)) by lia. auto.
Qed.

Lemma combine_seq_in : forall (A : Type) (l : list A) t0 x, In x l -> exists t, In (t, x) (combine (seq t0 (length l)) l).
Proof.
  intros A l. induction l as [|a l IH]; intros t0 x H; simpl in *; [contradiction|].
  destruct H as [->|H]; eauto. destruct (IH (S t0) x H) as [t Ht]. eauto.
Qed.

Lemma in_lkeys : forall sls n t sl i, In (t, sl, i) (lkeys 0 sls n) -> nth_error sls t = Some sl /\ 0 <= i < n.
Proof.
  intros sls n t sl i H. unfold lkeys in H. apply in_flat_map in H. destruct H as [[t' sl'] [H1 H2]].
  apply in_map_iff in H2. destruct H2 as [i' [E H2]]. simpl in E. inversion E; subst. apply in_zseq in H2.
  apply in_combine_seq in H1. rewrite Nat.sub_0_r in H1. tauto.
Qed.

Lemma lkeys_keys : forall sls t0 n sl i,
  In (sl, i) (map (fun k : lkey => (snd (fst k), snd k)) (lkeys t0 sls n)) <-> In sl sls /\ 0 <= i < n.
Proof.
  intros sls t0 n sl i. rewrite in_map_iff. split.
  - intros [[[t s] j] [E H]]. simpl in E. inversion E; subst. unfold lkeys in H. apply in_flat_map in H.
    destruct H as [[t' sl'] [H1 H2]]. apply in_map_iff in H2. destruct H2 as [i' [E2 H2]]. simpl in E2. inversion E2; subst.
    apply in_zseq in H2. apply in_combine_r in H1. auto.
  - intros [H1 H2]. destruct (combine_seq_in _ sls t0 sl H1) as [t Ht]. exists (t, sl, i). split; auto.
    unfold lkeys. apply in_flat_map. exists (t, sl). split; auto. apply in_map_iff. exists i. rewrite in_zseq. auto.
Qed.

Lemma NoDup_lkeys : forall sls t0 n, NoDup sls -> NoDup (map (fun k : lkey => (snd (fst k), snd k)) (lkeys t0 sls n)).
Proof.
  induction sls as [|sl sls IH]; intros t0 n H; [constructor|]. inversion H as [|? ? H1 H2]; subst.
  unfold lkeys. cbn [length seq combine map flat_map fst snd]. fold (lkeys (S t0) sls n).
  rewrite map_app. apply NoDup_app_iff. split; [|split; [apply IH; auto|]].
  - rewrite map_map. simpl. apply NoDup_map_inj; [|apply NoDup_zseq]. intros a b _ _ E. congruence.
  - intros [s i] Ha Hb. apply lkeys_keys in Hb. rewrite map_map in Ha. simpl in Ha. apply in_map_iff in Ha.
    destruct Ha as [j [E Ha]]. inversion E; subst. tauto.
Qed.

Lemma combine_nth_in : forall (A B : Type) (l : list A) (r : list B) t x d,
  length l = length r -> nth_error l t = Some x -> In (x, nth t r d) (combine l r).
Proof.
  intros A B l. induction l as [|a l IH]; intros [|b r] [|t] x d Hl H; simpl in *; try discriminate.
  - inversion H; subst; auto.
  - right. apply IH; auto.
Qed.

Lemma slot_value : forall ms c t sl v,
  wf_members ms -> wf_cell ms c -> nth_error (slots ms) t = Some sl ->
  In (sl, v) (combine (slots ms) (concat c)) -> nth t (concat c) [] = v.
Proof.
  intros ms c t sl v Hw Hc Ht Hv. pose proof (length_slots_from ms 0 c Hc) as Hl. fold (slots ms) in Hl.
  eapply combine_NoDup_fun; [apply slots_NoDup; eauto| |exact Hv]. apply combine_nth_in; auto.
Qed.

(** *** Building *)
Lemma build_region : forall ms m q cells,
  wf_members ms -> Forall (wf_cell ms) cells ->
  region ms m q (Z.of_nat (length cells)) (fun _ => None) ->
  exists m', exec (build_ops q 0 (pack_elems ms cells)) m = Val m' /\ same_other m m' (pb q) /\
    region ms m' q (Z.of_nat (length cells)) (ci_list cells).
Proof.
  intros ms m q cells Hw Hc R. rewrite build_lay, lay_pack. set (n := Z.of_nat (length cells)) in *.
  set (l := map (fun i => (i, ci_list cells i)) (zseq n)).
  assert (Hfst : map fst l = zseq n) by (unfold l; rewrite map_map; apply map_id).
  assert (Hcell : forall i, 0 <= i < n -> exists c, ci_list cells i = Some c /\ nth (Z.to_nat i) cells [] = c /\ wf_cell ms c).
  { intros i Hi. destruct (ci_list cells i) as [c|] eqn:E; [|exfalso; eapply ci_list_in; eauto; unfold n in *; lia].
    exists c. destruct (ci_list_some _ _ _ E) as [_ Hn]. split; auto. split; [apply nth_error_nth; auto|].
    rewrite Forall_forall in Hc. apply Hc. eapply nth_error_In; eauto. }
  assert (Hlin : forall i c, In (i, c) l -> 0 <= i < n /\ c = ci_list cells i).
  { intros i c H. unfold l in H. apply in_map_iff in H. destruct H as [j [E H]]. inversion E; subst. apply in_zseq in H. auto. }
  destruct (step_region ms n q (fun _ => None) m Hw R lkey (fun k => snd (fst k)) snd (kop Construct q n cells) (lkeys 0 (slots ms) n) l)
    as [m' [E [SO R']]].
  - rewrite Hfst. apply NoDup_zseq.
  - intros i c H. destruct (Hlin i c H) as [Hi ->]. split; auto. destruct (Hcell i Hi) as [c [-> [_ Hwf]]]. auto.
  - apply NoDup_lkeys. apply slots_NoDup; auto.
  - intros sl i. rewrite lkeys_keys, Hfst, in_zseq. tauto.
  - intros [[t sl] i] _. reflexivity.
  - intros [[t sl] i] _. reflexivity.
  - intros [[t sl] i] _. exact I.
  - intros [[t sl] i] Hk. apply in_lkeys in Hk. destruct Hk as [Ht Hi]. destruct (Hcell i Hi) as [c [_ [Hn Hwf]]].
    assert (Hs : In sl (slots ms)) by (eapply nth_error_In; eauto).
    cbn [kop exec1]. rewrite (region_bounds ms m q n (fun _ => None)) by auto. rewrite Hn.
    assert (Hok : val_ok (nth t (concat c) []) (s_size sl) = true).
    { destruct (cell_value ms c sl Hwf Hs) as [v Hv]. rewrite (slot_value ms c t sl v) by auto.
      pose proof (wf_cell_sizes ms c 0 Hwf) as F. rewrite Forall_forall in F. specialize (F _ Hv). simpl in F. unfold val_ok. lia. }
    rewrite Hok. cbn [negb]. rewrite (region_dead ms m q n (fun _ => None)) by auto. rewrite andb_false_r. destruct (s_class sl); eauto.
  - intros [[t sl] i] c v Hk Hl Hv. cbn [fst snd] in *. apply in_lkeys in Hk. destruct Hk as [Ht Hi]. destruct (Hlin _ _ Hl) as [_ E].
    destruct (Hcell i Hi) as [c' [E' [Hn Hwf]]]. assert (Hcc : c' = c) by congruence. rewrite Hcc in Hn, Hwf. cbn [kop op_val op_live]. rewrite Hn.
    split; [eapply slot_value; eauto|]. intros ->. reflexivity.
  - intros [[t sl] i] Hk H. cbn [fst snd] in *. apply in_lkeys in Hk. destruct Hk as [Ht Hi].
    assert (Hs : In sl (slots ms)) by (eapply nth_error_In; eauto).
    destruct H as [H|H].
    + destruct (Hlin _ _ H) as [_ E]. destruct (Hcell i Hi) as [c' [E' _]]. congruence.
    + cbn [kop op_live]. rewrite H. apply (region_dead ms m q n (fun _ => None)); auto.
  - exists m'. split; auto. split; auto. eapply region_ext; [|exact R']. intros i.
    destruct (in_dec Z.eq_dec i (zseq n)) as [Hi|Hi].
    + apply upd_in; [rewrite Hfst; apply NoDup_zseq|]. unfold l. apply in_map_iff. exists i; auto.
    + rewrite upd_notin by (rewrite Hfst; auto). destruct (ci_list cells i) eqn:Ei; auto.
      apply ci_list_some in Ei. exfalso. apply Hi. apply in_zseq. tauto.
Qed.

(** *** Destroying *)
Lemma unbuild_region : forall ms m q cells ci,
  wf_members ms -> region ms m q (Z.of_nat (length cells)) ci ->
  (forall i, 0 <= i < Z.of_nat (length cells) -> ci i <> None) ->
  exists m', exec (unbuild_ops q 0 (pack_elems ms cells)) m = Val m' /\ same_other m m' (pb q) /\
    region ms m' q (Z.of_nat (length cells)) (fun _ => None).
Proof.
  intros ms m q cells ci Hw R Hci. rewrite unbuild_lay, lay_pack. set (n := Z.of_nat (length cells)) in *.
  set (l := map (fun i => (i, @None cell)) (zseq n)).
  assert (Hfst : map fst l = zseq n) by (unfold l; rewrite map_map; apply map_id).
  destruct (step_region ms n q ci m Hw R lkey (fun k => snd (fst k)) snd (kop (fun p s cls _ => Destroy p s cls) q n cells) (lkeys 0 (slots ms) n) l)
    as [m' [E [SO R']]].
  - rewrite Hfst. apply NoDup_zseq.
  - intros i c H. unfold l in H. apply in_map_iff in H. destruct H as [j [E H]]. inversion E; subst. apply in_zseq in H. auto.
  - apply NoDup_lkeys. apply slots_NoDup; auto.
  - intros sl i. rewrite lkeys_keys, Hfst, in_zseq. tauto.
  - intros [[t sl] i] _. reflexivity.
  - intros [[t sl] i] _. reflexivity.
  - intros [[t sl] i] _. exact I.
  - intros [[t sl] i] Hk. apply in_lkeys in Hk. destruct Hk as [Ht Hi].
    assert (Hs : In sl (slots ms)) by (eapply nth_error_In; eauto).
    cbn [kop exec1]. rewrite (region_bounds ms m q n ci) by auto. destruct (s_class sl) eqn:Ec; eauto.
    specialize (Hci i Hi). destruct (ci i) as [c|] eqn:Ei; [|congruence]. rewrite (region_live ms m q n ci i c) by auto. eauto.
  - intros k c v _ H. unfold l in H. apply in_map_iff in H. destruct H as [j [E H]]. discriminate.
  - intros [[t sl] i] Hk _. cbn [fst snd] in *. apply in_lkeys in Hk. destruct Hk as [Ht Hi].
    assert (Hs : In sl (slots ms)) by (eapply nth_error_In; eauto). cbn [kop op_live]. destruct (s_class sl) eqn:Ec; auto.
    apply (region_trivial_dead ms m q n ci); auto.
  - exists m'. split; auto. split; auto. eapply region_ext; [|exact R']. intros i.
    destruct (in_dec Z.eq_dec i (zseq n)) as [Hi|Hi].
    + apply upd_in; [rewrite Hfst; apply NoDup_zseq|]. unfold l. apply in_map_iff. exists i; auto.
    + rewrite upd_notin by (rewrite Hfst; auto). destruct (ci i) as [c|] eqn:Ei; auto.
      apply (rg_cell _ _ _ _ _ R) in Ei. exfalso. apply Hi. apply in_zseq. tauto.
Qed.

(** *** Reading all bytes *)
Lemma zseq_app : forall a b, 0 <= a -> 0 <= b -> zseq (a + b) = zseq a ++ map (fun i => a + i) (zseq b).
Proof.
  intros a b Ha Hb. unfold zseq. rewrite Z2Nat.inj_add by auto. rewrite seq_app, map_app. f_equal.
  simpl. rewrite map_map. rewrite <- (Nat.add_0_r (Z.to_nat a)) at 1. generalize 0%nat as s.
  induction (Z.to_nat b) as [|k IH]; intros s; simpl; auto. f_equal; [lia|]. rewrite <- IH. f_equal. f_equal. lia.
Qed.

Lemma read_app : forall m p a b, 0 <= a -> 0 <= b -> read m p (a + b) = read m p a ++ read m (padd p a) b.
Proof.
  intros. unfold read. rewrite zseq_app, map_app by auto. f_equal. rewrite map_map. apply map_ext. intros i. simpl.
  f_equal. lia.
Qed.

Lemma read_lay : forall m q l off,
  (forall e, In e l -> 0 <= fst (fst e)) ->
  (forall op, In op (lay Construct q off l) -> read m (op_dst op) (op_size op) = op_val m op) ->
  read m (padd q off) (elems_size l) = concat (map snd l).
Proof.
  intros m q l. induction l as [|[[s cls] v] l IH]; intros off Hs H; auto. cbn [elems_size fold_right map concat fst snd].
  fold (elems_size l).
  assert (0 <= elems_size l).
  { clear -Hs. induction l as [|e l IH]; cbn [elems_size fold_right]; [lia|]. fold (elems_size l).
    assert (0 <= fst (fst e)) by (apply Hs; simpl; auto). assert (0 <= elems_size l); [|lia]. apply IH. intros e' He'. apply Hs. simpl in *; tauto. }
  rewrite read_app; auto. 2:{ apply (Hs (s, cls, v)); simpl; auto. } f_equal.
  - apply (H (Construct (padd q off) s cls v)). simpl; auto.
  - replace (padd (padd q off) s) with (padd q (off + s)) by (unfold padd; simpl; f_equal; lia).
    apply IH; [intros; apply Hs; simpl; auto|]. intros op Hop. apply H. simpl; auto.
Qed.

Lemma elems_size_app : forall a b, elems_size (a ++ b) = elems_size a + elems_size b.
Proof. induction a as [|e a IH]; intros b; simpl; auto. unfold elems_size in *. rewrite IH. lia. Qed.

Lemma pack_elems_size : forall ms cells, elems_size (pack_elems ms cells) = packed_size ms (Z.of_nat (length cells)).
Proof.
  intros. unfold pack_elems, packed_size. generalize 0%nat as t. induction (flat_meta ms) as [|[s cls] l IH]; intros t; auto.
  cbn [length seq combine flat_map fold_right fst]. rewrite elems_size_app, IH.
  assert (elems_size (map (fun v => (s, cls, v)) (column cells t)) = Z.of_nat (length cells) * s); [|lia].
  unfold column. rewrite map_map. clear IH. induction cells as [|c cells IH]; cbn [map elems_size fold_right length fst]; [lia|].
  unfold elems_size in IH. rewrite IH. lia.
Qed.

Lemma region_bytes : forall ms m q cells,
  wf_members ms -> region ms m q (Z.of_nat (length cells)) (ci_list cells) ->
  read m q (packed_size ms (Z.of_nat (length cells))) = pack ms cells.
Proof.
  intros ms m q cells Hw R. unfold pack. rewrite <- pack_elems_size.
  replace q with (padd q 0) by (destruct q; unfold padd; simpl; f_equal; lia). apply read_lay.
  - intros [[s cls] v] He. unfold pack_elems in He. apply in_flat_map in He. destruct He as [[t [s' cls']] [H1 H2]].
    apply in_map_iff in H2. destruct H2 as [v' [E _]]. inversion E; subst. simpl.
    apply in_combine_r in H1. rewrite (flat_meta_slots ms 0) in H1. apply in_map_iff in H1. destruct H1 as [sl [E1 H1]].
    inversion E1; subst. apply (slot_range ms sl) in H1; auto. lia.
  - rewrite lay_pack. intros op Hop. apply in_map_iff in Hop. destruct Hop as [[[t sl] i] [<- Hk]].
    apply in_lkeys in Hk. destruct Hk as [Ht Hi]. cbn [kop op_dst op_size op_val].
    destruct (ci_list cells i) as [c|] eqn:Ei; [|exfalso; eapply ci_list_in; eauto].
    destruct (ci_list_some _ _ _ Ei) as [_ Hn]. rewrite (nth_error_nth _ _ _ Hn).
    destruct (rg_cell _ _ _ _ _ R _ _ Ei) as [_ Hwf].
    apply (rg_val _ _ _ _ _ R i c sl _ Ei). apply combine_nth_in; auto.
    pose proof (length_slots_from ms 0 c Hwf). auto.
Qed.
