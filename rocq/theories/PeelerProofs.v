(** Proofs about Peeler.v. *)
From Coq Require Import ZArith List Bool Lia.
From Verif Require Import Base Peeler.
Import ListNotations.
Open Scope Z_scope.

Lemma zseq_neg : forall n, n <= 0 -> zseq n = [].
Proof. intros n H. unfold zseq. replace (Z.to_nat n) with O by lia. reflexivity. Qed.

Lemma zseq_app : forall a b, 0 <= a -> 0 <= b -> zseq (a + b) = zseq a ++ map (fun k => a + k) (zseq b).
Proof.
  intros a b Ha Hb. unfold zseq. rewrite Z2Nat.inj_add by lia. rewrite seq_app, map_app. f_equal.
  simpl. rewrite map_map.
  rewrite <- (Nat.add_0_r (Z.to_nat a)) at 1.
  generalize 0%nat. induction (Z.to_nat b) as [|n IH]; intros s; simpl; auto. f_equal; [lia|].
  rewrite <- (IH (S s)). f_equal. f_equal. lia.
Qed.

Lemma range_empty : forall a b, b <= a -> range a b = [].
Proof. intros a b H. unfold range. rewrite zseq_neg by lia. reflexivity. Qed.

Lemma range_app : forall a b c, a <= b -> b <= c -> range a b ++ range b c = range a c.
Proof.
  intros a b c H1 H2. unfold range. replace (c - a) with ((b - a) + (c - b)) by lia.
  rewrite zseq_app by lia. rewrite map_app, map_map. f_equal. apply map_ext. intros; lia.
Qed.

Lemma range_cons : forall a w b, 0 <= w -> a + w <= b -> range a b = map (fun k => a + k) (zseq w) ++ range (a + w) b.
Proof. intros a w b Hw H. rewrite <- (range_app a (a + w) b) by lia. f_equal. unfold range. do 2 f_equal. lia. Qed.

Lemma processed_app : forall a b, processed (a ++ b) = processed a ++ processed b.
Proof. intros. unfold processed. apply flat_map_app. Qed.

(** A kernel whose width divides the distance runs exactly to the stop. *)
Lemma kernel_ok : forall t w stop fuel i,
  0 < w -> stop <= it_max t -> i <= stop -> (w | stop - i) -> stop - i <= Z.of_nat fuel ->
  exists l, kernel fuel t w i stop = Some (l, stop) /\ processed l = range i stop /\
            Forall (fun '(s, w') => w' = w /\ (w | stop - s)) l.
Proof.
  intros t w stop fuel. induction fuel as [|f IH]; intros i Hw Hm Hi Hd Hf.
  - assert (i = stop) by lia. subst i. exists []. cbn [kernel]. rewrite Z.ltb_irrefl. rewrite range_empty by lia. auto.
  - cbn [kernel]. destruct (Z.ltb_spec i stop) as [H|H].
    + assert (Hs : i + w <= stop) by (apply Z.divide_pos_le in Hd; lia).
      destruct (IH (i + w)) as [l [E [P F]]]; auto; try lia.
      { replace (stop - (i + w)) with ((stop - i) - w) by lia. apply Z.divide_sub_r; auto. apply Z.divide_refl. }
      unfold norm. destruct (Z.leb_spec (i + w) (it_max t)); [|lia]. rewrite E.
      exists ((i, w) :: l). split; auto. split; [|constructor; auto].
      cbn [processed flat_map]. fold (processed l). rewrite P. symmetry. apply range_cons; lia.
    + assert (i = stop) by lia. subst i. exists []. rewrite range_empty by lia. auto.
Qed.

Lemma run_kernel_ok : forall t w i stop,
  0 < w -> stop <= it_max t -> i <= stop -> (w | stop - i) ->
  exists l, run_kernel t w i stop = Some (l, stop) /\ processed l = range i stop /\
            Forall (fun '(s, w') => w' = w /\ (w | stop - s)) l.
Proof. intros. apply kernel_ok; auto. lia. Qed.

Lemma run_kernel_none : forall t w i stop, stop <= i -> run_kernel t w i stop = Some ([], i).
Proof. intros t w i stop H. unfold run_kernel. replace (Z.to_nat (stop - i)) with O by lia. cbn [kernel]. destruct (Z.ltb_spec i stop); [lia|auto]. Qed.

Lemma round_up_unique : forall A x r r', is_round_up A x r -> is_round_up A x r' -> r = r'.
Proof. intros A x r r' [[q ->] H] [[q' ->] H']. assert (q = q') by nia. subst. auto. Qed.

Lemma round_down : forall A e, 0 < A -> (A | e - e mod A) /\ e - A < e - e mod A <= e.
Proof.
  intros A e HA. pose proof (Z.mod_pos_bound e A HA). split; [|lia].
  exists (e / A). pose proof (Z.div_mod e A). lia.
Qed.

Lemma next_stop_round_up : forall A x, 0 < A ->
  is_round_up A x (if negb (x mod A =? 0) then x + A - x mod A else x).
Proof.
  intros A x HA. pose proof (Z.mod_pos_bound x A HA). pose proof (Z.div_mod x A ltac:(lia)).
  destruct (Z.eqb_spec (x mod A) 0) as [E|E]; cbn [negb]; split; try lia.
  - exists (x / A). lia.
  - exists (x / A + 1). lia.
Qed.

(** The three calls, whenever the first aligned index is not behind the end. *)
Lemma three_ok : forall t A x next fin,
  0 < A -> is_round_up A x next -> next <= fin -> fin <= it_max t ->
  peeled A x fin (three t A x next (fin - fin mod A) fin).
Proof.
  intros t A x next fin HA [Hd Hr] Hn Hm. destruct (round_down A fin HA) as [D1 D2]. set (ls := fin - fin mod A) in *.
  assert (next <= ls).
  { destruct Hd as [q ->]. destruct D1 as [p Hp]. clearbody ls. subst ls. assert (q < p + 1) by nia. nia. }
  unfold three.
  destruct (run_kernel_ok t 1 x next) as [l1 [E1 [P1 F1]]]; try lia; [apply Z.divide_1_l|]. rewrite E1.
  destruct (run_kernel_ok t A next ls) as [l2 [E2 [P2 F2]]]; try lia; [apply Z.divide_sub_r; auto|]. rewrite E2.
  destruct (run_kernel_ok t 1 ls fin) as [l3 [E3 [P3 F3]]]; try lia; [apply Z.divide_1_l|]. rewrite E3.
  exists (l1 ++ l2 ++ l3). split; auto. split.
  - rewrite !processed_app, P1, P2, P3. rewrite !range_app by lia. reflexivity.
  - rewrite !Forall_app. repeat split.
    + eapply Forall_impl; [|exact F1]. intros [s w]. tauto.
    + eapply Forall_impl; [|exact F2]. intros [s w] [-> H']. right. split; auto.
      replace s with (ls - (ls - s)) by lia. apply Z.divide_sub_r; auto.
    + eapply Forall_impl; [|exact F3]. intros [s w]. tauto.
Qed.

(** If it is behind the end, the first call already runs past the end. *)
Lemma three_overrun : forall t A x next fin,
  0 < A -> is_round_up A x next -> fin < next -> x <= fin -> next <= it_max t ->
  exists l, three t A x next (fin - fin mod A) fin = Some (l, next) /\ processed l = range x next.
Proof.
  intros t A x next fin HA [Hd Hr] Hn Hx Hm. destruct (round_down A fin HA) as [D1 D2].
  unfold three. destruct (run_kernel_ok t 1 x next) as [l1 [E1 [P1 F1]]]; try lia; [apply Z.divide_1_l|]. rewrite E1.
  rewrite run_kernel_none by lia. rewrite run_kernel_none by lia. exists (l1 ++ [] ++ []). split; auto.
  rewrite app_nil_r. auto.
Qed.

(** If it wrapped to 0, everything is done in the last call. *)
Lemma three_wrapped : forall t A x fin r,
  0 < A -> 0 <= x <= fin -> fin <= it_max t -> is_round_up A x r -> fin < r ->
  peeled A x fin (three t A x 0 (fin - fin mod A) fin).
Proof.
  intros t A x fin r HA Hx Hm [Hd Hr] Hf. destruct (round_down A fin HA) as [D1 D2].
  assert (fin - fin mod A <= x).
  { destruct (Z.le_gt_cases (fin - fin mod A) x); auto. exfalso. destruct D1 as [p Hp], Hd as [q ->]. rewrite Hp in *.
    assert (p < q) by nia. nia. }
  unfold three. rewrite run_kernel_none by lia. rewrite run_kernel_none by lia.
  destruct (run_kernel_ok t 1 x fin) as [l [E [P F]]]; try lia; [apply Z.divide_1_l|]. rewrite E.
  exists ([] ++ [] ++ l). split; auto. split; auto. simpl. eapply Forall_impl; [|exact F]. intros [s w]. tauto.
Qed.
