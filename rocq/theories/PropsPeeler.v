(** Statements C44: loop peeler. *)
From Coq Require Import ZArith List Bool Lia.
From Verif Require Import Base Peeler PeelerProofs.
Import ListNotations.
Open Scope Z_scope.

Definition t_unsigned : ity := mkIty (2 ^ 32 - 1) false.
Definition t_int : ity := mkIty (2 ^ 31 - 1) true.
Definition t_size : ity := mkIty (2 ^ 64 - 1) false.

(** Exactly what the macro does, for any unsigned counter type and ARITY dividing its
    number of values. [r]: the first multiple of ARITY at or after X.
    The claim C44 holds iff r <= END or r is not representable; otherwise indices
    END .. r-1 are processed as well. *)
Theorem C44_macro_exact : forall t A x fin r,
  it_signed t = false -> 0 < A -> A <= it_max t -> (A | it_max t + 1) -> 0 <= x <= fin -> fin <= it_max t -> is_round_up A x r ->
  (r <= fin \/ it_max t < r -> peeled A x fin (peeler_macro t A x fin)) /\
  (fin < r <= it_max t ->
     exists l, peeler_macro t A x fin = Some (l, r) /\ processed l = range x r).
Proof.
  intros t A x fin r Ht HA HA2 Hdiv Hx Hf Hr.
  pose proof (round_up_unique A x _ _ Hr (next_stop_round_up A x HA)) as Er.
  pose proof (Z.mod_pos_bound x A HA) as Hmod.
  unfold peeler_macro, norm. rewrite Ht.
  destruct (Z.eqb_spec (x mod A) 0) as [E|E]; cbn [negb] in *.
  - subst r. split; intros H; [apply three_ok; auto; lia|lia].
  - destruct (Z.leb_spec (x + A) (it_max t)) as [L|L].
    + destruct (Z.leb_spec (x mod A) (x + A)); [|lia]. rewrite <- Er. split; intros H'.
      * apply three_ok; auto. lia.
      * apply three_overrun; auto; lia.
    + assert (Hw : (x + A) mod (it_max t + 1) = x + A - (it_max t + 1)).
      { symmetry. apply Z.mod_unique with 1; lia. }
      rewrite Hw. destruct (Z.leb_spec (x mod A) (x + A - (it_max t + 1))) as [L2|L2].
      * (* r itself is not representable: it is max + 1 *)
        assert (r = it_max t + 1).
        { destruct Hr as [[q Hq] Hr]. destruct Hdiv as [p Hp]. assert (q <= p) by nia. assert (p <= q) by nia. nia. }
        replace (x + A - (it_max t + 1) - x mod A) with 0 by lia. split; intros H'; [|lia].
        apply three_wrapped with r; auto; lia.
      * replace (x + A - (it_max t + 1) - x mod A + (it_max t + 1)) with r by lia. split; intros H'.
        -- apply three_ok; auto. lia.
        -- apply three_overrun; auto; lia.
Qed.

(** The claim for both forms and all counter types, for ranges that reach the first
    aligned index. Missing: X <= END < r, which is refuted below. For signed counters
    X + ARITY must be representable. *)
Theorem C44_macro_partial : forall t A x fin r,
  0 < A -> 0 <= x <= fin -> fin <= it_max t -> (it_signed t = true -> x + A <= it_max t) -> A <= it_max t ->
  is_round_up A x r -> r <= fin ->
  peeled A x fin (peeler_macro t A x fin).
Proof.
  intros t A x fin r HA Hx Hf Hs HA2 Hr Hle.
  pose proof (round_up_unique A x _ _ Hr (next_stop_round_up A x HA)) as Er.
  pose proof (Z.mod_pos_bound x A HA) as Hmod.
  unfold peeler_macro, norm.
  destruct (Z.eqb_spec (x mod A) 0) as [E|E]; cbn [negb] in *; [subst r; apply three_ok; auto|].
  destruct (Z.leb_spec (x + A) (it_max t)) as [L|L].
  - destruct (Z.leb_spec (x mod A) (x + A)); [|lia]. rewrite <- Er. apply three_ok; auto.
  - destruct (it_signed t) eqn:S; [specialize (Hs eq_refl); lia|].
    assert (Hw : (x + A) mod (it_max t + 1) = x + A - (it_max t + 1)) by (symmetry; apply Z.mod_unique with 1; lia).
    rewrite Hw. destruct (Z.leb_spec (x mod A) (x + A - (it_max t + 1))) as [L2|L2]; [lia|].
    replace (x + A - (it_max t + 1) - x mod A + (it_max t + 1)) with r by lia. apply three_ok; auto.
Qed.

Theorem C44_function_partial : forall t1 t2 A x fin r,
  0 < A -> 0 <= x <= fin -> fin <= it_max t1 -> fin <= it_max t2 ->
  x + A <= it_max t1 -> A <= it_max t2 ->
  is_round_up A x r -> r <= fin ->
  peeled A x fin (peeler_fn t1 t2 A x fin).
Proof.
  intros t1 t2 A x fin r HA Hx Hf1 Hf2 Hs HA2 Hr Hle.
  pose proof (round_up_unique A x _ _ Hr (next_stop_round_up A x HA)) as Er.
  pose proof (Z.mod_pos_bound x A HA) as Hmod.
  unfold peeler_fn, norm. 
  assert (Hc : it_max t1 <= it_max (common t1 t2)).
  { unfold common. destruct (Z.ltb_spec (it_max t1) (it_max t2)); [lia|]. destruct (Z.ltb_spec (it_max t2) (it_max t1)); cbn [it_max]; lia. }
  cbv zeta. unfold conv. destruct (Z.leb_spec (x mod A) (it_max t2)); [|lia].
  destruct (Z.eqb_spec (x mod A) 0) as [E|E]; cbn [negb] in *.
  - destruct (Z.leb_spec x (it_max t2)); [|lia]. subst r. apply three_ok; auto.
  - destruct (Z.leb_spec (x + A) (it_max (common t1 t2))); [|lia].
    destruct (Z.leb_spec (x mod A) (x + A)); [|lia]. rewrite <- Er.
    destruct (Z.leb_spec r (it_max t2)); [|lia]. apply three_ok; auto.
Qed.

(** The same two for END before the first aligned index: the overrun. *)
Theorem C44_overrun_refuted : forall t A x fin r,
  0 < A -> 0 <= x <= fin -> is_round_up A x r -> fin < r -> x + A <= it_max t ->
  (exists l, peeler_macro t A x fin = Some (l, r) /\ processed l = range x r) /\
  ~ peeled A x fin (peeler_macro t A x fin).
Proof.
  intros t A x fin r HA Hx Hr Hlt Hs.
  pose proof (round_up_unique A x _ _ Hr (next_stop_round_up A x HA)) as Er.
  pose proof (Z.mod_pos_bound x A HA) as Hmod.
  assert (H : exists l, peeler_macro t A x fin = Some (l, r) /\ processed l = range x r).
  { unfold peeler_macro, norm. destruct (Z.eqb_spec (x mod A) 0) as [E|E]; cbn [negb] in *; [lia|].
    destruct (Z.leb_spec (x + A) (it_max t)); [|lia]. destruct (Z.leb_spec (x mod A) (x + A)); [|lia].
    rewrite <- Er. apply three_overrun; auto; lia. }
  split; auto. destruct H as [l [E _]]. intros [l' [E' _]]. rewrite E in E'. inversion E'. lia.
Qed.

(** [5, 7) with width 4: index 7 is processed too; an empty range at 5 processes 5, 6, 7. *)
Example C44_overrun_case :
  peeler_macro t_int 4 5 7 = Some ([(5, 1); (6, 1); (7, 1)], 8) /\
  peeler_fn t_unsigned t_unsigned 4 5 5 = Some ([(5, 1); (6, 1); (7, 1)], 8).
Proof. split; vm_compute; reflexivity. Qed.

(** No index is processed twice or out of order, and no range smaller than [X, END) is
    processed, without any restriction on X <= END. *)
Theorem C44_at_most_an_overrun : forall t A x fin,
  0 < A -> 0 <= x <= fin -> fin <= it_max t -> x + A <= it_max t ->
  exists l stop, peeler_macro t A x fin = Some (l, stop) /\ fin <= stop < fin + A /\ processed l = range x stop.
Proof.
  intros t A x fin HA Hx Hf Hs. pose proof (next_stop_round_up A x HA) as Hr.
  set (r := if negb (x mod A =? 0) then x + A - x mod A else x) in *.
  destruct (Z.le_gt_cases r fin) as [L|L].
  - destruct (C44_macro_partial t A x fin r) as [l [E [P _]]]; auto; try lia. exists l, fin. repeat split; auto; lia.
  - destruct (C44_overrun_refuted t A x fin r) as [[l [E P]] _]; auto. exists l, r. split; auto. split; auto.
    destruct Hr as [_ Hr]. lia.
Qed.

(** [3, 21) with width 8 on int; [5, 43) with width 8 on unsigned / size_t. *)
Example C44_case :
  is_round_up 8 3 8 /\
  peeler_macro t_int 8 3 21 =
    Some ([(3, 1); (4, 1); (5, 1); (6, 1); (7, 1); (8, 8); (16, 1); (17, 1); (18, 1); (19, 1); (20, 1)], 21) /\
  peeler_fn t_unsigned t_size 4 5 14 = Some ([(5, 1); (6, 1); (7, 1); (8, 4); (12, 1); (13, 1)], 14) /\
  (4 | it_max t_unsigned + 1).
Proof. repeat split; try (vm_compute; congruence); [exists 1|exists (2 ^ 30)]; vm_compute; reflexivity. Qed.

Print Assumptions C44_macro_exact.
Print Assumptions C44_macro_partial.
Print Assumptions C44_function_partial.
Print Assumptions C44_overrun_refuted.
Print Assumptions C44_at_most_an_overrun.
