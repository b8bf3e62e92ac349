(** C85 in IEEE single precision: the counts of ConditionalAny are floats. *)
From Coq Require Import ZArith List Bool Lia SpecFloat.
From Verif Require Import Base Peeler Sph PerfPairs SpecPerfPairs ShortVecBits FloatInt PerfPairsFloat FloatCount PropsPerfPairs.
Import ListNotations.
Local Open Scope Z_scope.

(** Adding 1.0f to a float that is a count. *)
Theorem C85_float_sum : forall s, 0 <= s <= 2 ^ 24 ->
  SFadd 24 128 (single s) (single 1) = single (if s <? 2 ^ 24 then s + 1 else s) /\
  SFadd 24 128 (single s) (single 0) = single s /\ int_of_lane (single s) = s.
Proof.
  intros s H. split; [|split].
  - destruct (Z.ltb_spec s (2 ^ 24)); [apply add_one; lia|]. replace s with (2 ^ 24) by lia. apply add_one_full.
  - apply add_zero. lia.
  - unfold int_of_lane. rewrite single_to_int by lia. rewrite to_int_small by lia. apply sgn32_wrap. lia.
Qed.

Definition count (s : Z) : Prop := 0 <= s <= 2 ^ 24.

Section Lanes.
Context {T : Type} (K : arith T) (radius2 : T) (pos : Z -> point T) (n : Z).

Lemma lanes_f : forall w index j sum, Forall count sum ->
  update_lanes_f K radius2 pos w index j (map single sum) = map single (update_lanes K radius2 pos w index j sum) /\
  Forall count (update_lanes K radius2 pos w index j sum).
Proof.
  intros w index j sum H. unfold update_lanes_f, update_lanes.
  set (mask := map (fun e => near K radius2 (pos (index + e)) (pos j)) (zseq w)). clearbody mask.
  destruct (existsb (fun b => b) mask); [|auto]. revert mask. induction H as [|s sum Hs H IH]; intros [|b mask]; cbn [map combine]; auto.
  destruct (IH mask) as [IH1 IH2]. rewrite IH1. destruct (C85_float_sum s Hs) as [S1 [S0 _]].
  destruct b; cbn [blend_one]; [rewrite S1|rewrite S0]; (split; [reflexivity|]); constructor; auto.
  unfold plus_one, count in *. destruct (Z.ltb_spec s (2 ^ 24)); lia.
Qed.

Lemma row_f : forall w index l sum, Forall count sum ->
  fold_left (fun sum j => update_lanes_f K radius2 pos w index j sum) l (map single sum) =
  map single (fold_left (fun sum j => update_lanes K radius2 pos w index j sum) l sum) /\
  Forall count (fold_left (fun sum j => update_lanes K radius2 pos w index j sum) l sum).
Proof.
  intros w index l. induction l as [|j l IH]; intros sum H; cbn [fold_left]; auto.
  destruct (lanes_f w index j sum H) as [E H']. rewrite E. apply IH, H'.
Qed.

Definition lift {S R : Type} (f : S -> R) (r : option (Z * S)) : option (Z * R) :=
  match r with Some (i, s) => Some (i, f s) | None => None end.
Definition holds {S : Type} (P : S -> Prop) (r : option (Z * S)) : Prop :=
  match r with Some (_, s) => P s | None => True end.

Lemma while_f : forall (S R : Type) (f : S -> R) (P : S -> Prop) stop body body', 
  (forall i s, P s -> body' i (f s) = lift f (body i s) /\ holds P (body i s)) ->
  forall fuel i s, P s -> while fuel stop body' i (f s) = lift f (while fuel stop body i s) /\ holds P (while fuel stop body i s).
Proof.
  intros S R f P stop body body' H. induction fuel as [|fuel IH]; intros i s Hs; cbn [while].
  - destruct (i <? stop); cbn; auto.
  - destruct (i <? stop); [|cbn; auto]. destruct (H i s Hs) as [E HP]. rewrite E.
    destruct (body i s) as [[i' s']|]; cbn [lift obind holds] in *; auto.
Qed.

Lemma update_f_ok : forall w stop index counter,
  update_f K radius2 pos n w stop index counter = update K radius2 pos n w stop index counter.
Proof.
  intros w stop index counter. unfold update_f, update.
  replace (map (fun _ => single 0) (zseq w)) with (map single (map (fun _ => 0) (zseq w))) by (rewrite map_map; reflexivity).
  match goal with |- obind (while ?fu ?st ?b1 _ _) _ = obind (while _ _ ?b2 _ _) _ =>
    destruct (while_f _ _ (map single) (Forall count) st b2 b1) with (fuel := fu) (i := index) (s := map (fun _ : Z => 0) (zseq w)) as [E HP] end.
  - intros i s Hs. cbn beta. destruct ((0 <=? i) && (i + w <=? n)); cbn [lift holds]; [|auto].
    destruct (row_f w i (range 0 n) s Hs) as [E1 E2]. rewrite E1. auto.
  - apply Forall_forall. intros x Hx. apply in_map_iff in Hx. destruct Hx as [e [<- _]]. unfold count. lia.
  - rewrite E. clear E. match type of HP with holds _ ?r => destruct r as [[i s]|] end; cbn [lift obind holds] in *; [|reflexivity].
    do 3 f_equal. rewrite map_map. rewrite <- (map_id s) at 2. apply map_ext_in. intros x Hx.
    rewrite Forall_forall in HP. apply (C85_float_sum x). apply HP, Hx.
Qed.
End Lanes.

Lemma peel_ext : forall (S : Type) (f g : Z -> Z -> Z -> S -> option (Z * S)) A j n s,
  (forall a b c d, f a b c d = g a b c d) -> peel A f j n s = peel A g j n s.
Proof.
  intros S f g A j n s H. unfold peel. rewrite H. destruct (g 1 _ j s) as [[j1 s1]|]; cbn [obind]; [|reflexivity].
  rewrite H. destruct (g A _ j1 s1) as [[j2 s2]|]; cbn [obind]; [apply H|reflexivity].
Qed.

(** Gold counts in floats what the model of C85 counts in integers that stick at 2^24. *)
Theorem C85_floats : forall (T : Type) (K : arith T) radius2 pos n repeats counter,
  count_gold_f K radius2 pos n repeats counter = count_gold K radius2 pos n repeats counter.
Proof.
  intros T K radius2 pos n repeats counter. unfold count_gold_f, count_gold, Nat.iter.
  induction repeats as [|r IH]; cbn [nat_rect]; [reflexivity|]. rewrite IH. clear IH.
  match goal with |- obind ?r _ = _ => destruct r as [c|] end; cbn [obind]; [|reflexivity].
  rewrite (peel_ext _ _ (update K radius2 pos n)); [reflexivity|]. intros. apply update_f_ok.
Qed.

(** So in floats as well: the pairs, for up to 16384 particles ... *)
Theorem C85_gold_floats_partial : forall (T : Type) (K : arith T) radius2 pos n repeats, 0 <= n <= 2 ^ 14 ->
  count_gold_f K radius2 pos n repeats 0 = Some (Z.of_nat repeats * number_of_pairs (near K radius2) (map pos (range 0 n))).
Proof. intros. rewrite C85_floats. apply C85_gold_partial. assumption. Qed.

(** ... but not beyond. *)
Theorem C85_gold_floats_refuted :
  ~ forall (T : Type) (K : arith T) radius2 pos n repeats, 0 <= n ->
      count_gold_f K radius2 pos n repeats 0 = Some (count_vanilla K radius2 pos n repeats 0).
Proof.
  intros H. set (pos := fun _ : Z => mkPoint 0 0 0).
  specialize (H Z integers 1 pos (16 * Z.of_nat (Z.to_nat 1025)) 1%nat ltac:(lia)). rewrite C85_floats in H.
  destruct (C85_gold_refuted Z integers 1 pos (Z.to_nat 1025) 1 ltac:(lia) ltac:(lia)) as [E [E' L]].
  - intros i j. reflexivity.
  - rewrite E, E' in H. apply (f_equal (fun o => match o with Some z => z | None => 0 end)) in H. cbv iota beta in H. lia.
Qed.

(** Two of the counts that decide: the last exact sum and the first rounded one; and a
    whole run in floats. *)
Example C85_float_case :
  SFadd 24 128 (single 16777215) (single 1) = single 16777216 /\
  SFadd 24 128 (single 16777216) (single 1) = single 16777216 /\ single 16777216 <> single 16777215 /\
  count_gold_f integers 5 row_of_eight 40 3 0 = Some (3 * 194).
Proof. split; [vm_compute; reflexivity|]. split; [vm_compute; reflexivity|]. split; [vm_compute; discriminate|]. vm_compute. reflexivity. Qed.

Print Assumptions C85_float_sum.
Print Assumptions C85_floats.
Print Assumptions C85_gold_floats_partial.
Print Assumptions C85_gold_floats_refuted.
