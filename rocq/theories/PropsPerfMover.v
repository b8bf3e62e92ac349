(** Properties of the ParticleMover benchmarks. *)
From Coq Require Import ZArith List Bool Permutation Lia ZifyBool ZifyNat.
From Verif Require Import Base Peeler Sph PerfMover SpecPerfMover PerfJacobiProofs.
Import ListNotations.
Local Open Scope Z_scope.

(** ** Vanilla and Pepper *)
Section Lists.
Context {P T : Type} (posX : P -> T) (ge lt : T -> T -> bool) (flip : T -> T).
(** No NaN. *)
Hypothesis Hge : forall x b, ge x b = negb (lt x b).
Local Notation below b := (fun p => lt (posX p) b).

Lemma splicing_filter : forall (test : P -> bool) rest passed front,
  splicing test passed rest front = (passed ++ filter (fun p => negb (test p)) rest, front ++ filter test rest).
Proof.
  intros test rest. induction rest as [|p rest IH]; intros passed front; cbn [splicing filter].
  - now rewrite !app_nil_r.
  - destruct (test p); cbn [negb]; rewrite IH, <- app_assoc; reflexivity.
Qed.

Lemma filter_ext_list : forall (A : Type) (f g : A -> bool) l, (forall a, In a l -> f a = g a) -> filter f l = filter g l.
Proof.
  induction l as [|a l IH]; intros H; [reflexivity|]. cbn [filter]. rewrite (H a) by (left; reflexivity).
  rewrite IH by (intros; apply H; right; assumption). reflexivity.
Qed.

Lemma vanilla_lists : forall b l r, vanilla_rep posX ge lt b (l, r) =
  (filter (below b) r ++ filter (below b) l, filter (fun p => negb (below b p)) l ++ filter (fun p => negb (below b p)) r).
Proof.
  intros b l r. unfold vanilla_rep. rewrite splicing_filter. cbv iota beta. cbn [app]. rewrite splicing_filter. cbv iota beta. cbn [app].
  rewrite (filter_ext_list P (fun p => negb (ge (posX p) b)) (below b)) by (intros; now rewrite Hge, negb_involutive).
  rewrite (filter_ext_list P (fun p => ge (posX p) b) (fun p => negb (below b p))) by (intros; apply Hge). reflexivity.
Qed.

Lemma push_either_lists : forall b l nl nr, fold_left (push_either posX ge b) l (nl, nr) =
  (nl ++ filter (below b) l, nr ++ filter (fun p => negb (below b p)) l).
Proof.
  intros b l. induction l as [|p l IH]; intros nl nr; cbn [fold_left filter]; [now rewrite !app_nil_r|].
  unfold push_either at 2. rewrite Hge. destruct (lt (posX p) b); cbn [negb]; rewrite IH, <- app_assoc; reflexivity.
Qed.

Lemma filter_perm : forall (A : Type) (f : A -> bool) l l', Permutation l l' -> Permutation (filter f l) (filter f l').
Proof.
  intros A f l l' H. induction H; cbn [filter].
  - constructor.
  - destruct (f x); auto.
  - destruct (f x), (f y); auto using perm_swap.
  - eauto using Permutation_trans.
Qed.

Lemma filter_both : forall (A : Type) (f : A -> bool) l, Permutation (filter f l ++ filter (fun a => negb (f a)) l) l.
Proof.
  intros A f l. induction l as [|a l IH]; cbn [filter]; [constructor|]. destruct (f a); cbn [negb app].
  - now constructor.
  - apply Permutation_sym, Permutation_cons_app, Permutation_sym, IH.
Qed.

Lemma filter_app : forall (A : Type) (f : A -> bool) l l', filter f (l ++ l') = filter f l ++ filter f l'.
Proof. induction l as [|a l IH]; intros; cbn [filter app]; [reflexivity|]. destruct (f a); cbn [app]; now rewrite IH. Qed.

Definition correct_rep (rep : T -> list P * list P -> list P * list P) : Prop :=
  forall b l r, sorted_by (below b) (l ++ r) (fst (rep b (l, r))) (snd (rep b (l, r))).

Lemma vanilla_correct : correct_rep (vanilla_rep posX ge lt).
Proof.
  intros b l r. rewrite vanilla_lists. cbn [fst snd]. unfold sorted_by. rewrite !filter_app. split; [apply Permutation_app_comm|reflexivity].
Qed.

Lemma pepper_correct : correct_rep (pepper_rep posX ge).
Proof.
  intros b l r. unfold pepper_rep. rewrite !push_either_lists. cbn [fst snd app]. unfold sorted_by. rewrite !filter_app. split; reflexivity.
Qed.

Lemma moves_correct : forall rep, correct_rep rep -> forall n b l r,
  sorted_by (below (boundary_of flip n b)) (l ++ r) (fst (moves flip (S n) rep b (l, r))) (snd (moves flip (S n) rep b (l, r))).
Proof.
  intros rep Hr n. induction n as [|n IH]; intros b l r; [apply Hr|].
  change (moves flip (S (S n)) rep b (l, r)) with (moves flip (S n) rep (flip b) (rep b (l, r))).
  destruct (rep b (l, r)) as [l' r'] eqn:E. pose proof (Hr b l r) as [H1 H2]. rewrite E in H1, H2. cbn [fst snd] in H1, H2.
  destruct (IH (flip b) l' r') as [I1 I2].
  replace (boundary_of flip (S n) b) with (boundary_of flip n (flip b)).
  2:{ clear. unfold boundary_of, Nat.iter. induction n as [|n IH]; [reflexivity|]. cbn [nat_rect]. now rewrite IH. }
  assert (Q : Permutation (l' ++ r') (l ++ r)).
  { rewrite H1, H2. apply filter_both. }
  split; [rewrite I1|rewrite I2]; apply filter_perm, Q.
Qed.
End Lists.

Theorem C83_vanilla : forall (P T : Type) (posX : P -> T) ge lt flip, (forall x b, ge x b = negb (lt x b)) ->
  forall n b l r, let result := moves flip (S n) (vanilla_rep posX ge lt) b (l, r) in
  sorted_by (fun p => lt (posX p) (boundary_of flip n b)) (l ++ r) (fst result) (snd result).
Proof. intros. apply moves_correct. now apply vanilla_correct. Qed.

Theorem C83_pepper : forall (P T : Type) (posX : P -> T) ge lt flip, (forall x b, ge x b = negb (lt x b)) ->
  forall n b l r, let result := moves flip (S n) (pepper_rep posX ge) b (l, r) in
  sorted_by (fun p => lt (posX p) (boundary_of flip n b)) (l ++ r) (fst result) (snd result).
Proof. intros. apply moves_correct. now apply pepper_correct. Qed.

(** ** Gold *)

(** The cells of a container, and those it holds in chunks of eight: up to seven
    of the latter lie behind its end. *)
Definition contents {P : Type} (a : array (P := P)) : list P := map (cells a) (zseq (size a)).
Definition round8 (n : Z) : Z := 8 * ((n + 7) / 8).
Definition chunked {P : Type} (a : array (P := P)) : list P := map (cells a) (zseq (round8 (size a))).

Section Gold.
Context {P : Type}.

Lemma zseq_S : forall n, 0 <= n -> zseq (n + 1) = zseq n ++ [n].
Proof.
  intros n H. unfold zseq. replace (Z.to_nat (n + 1)) with (S (Z.to_nat n)) by lia.
  rewrite seq_S, map_app. cbn. now rewrite Z2Nat.id.
Qed.

Lemma push_contents : forall (a : array (P := P)) p, 0 <= size a < capacity ->
  exists a', push_back a p = Some a' /\ contents a' = contents a ++ [p] /\ size a' = size a + 1.
Proof.
  intros a p H. unfold push_back. replace (capacity <=? size a) with false by lia.
  eexists. split; [reflexivity|]. split; [|reflexivity]. unfold contents. cbn [cells size].
  rewrite zseq_S by lia. rewrite map_app. cbn [map]. rewrite Z.eqb_refl. f_equal.
  apply map_ext_in. intros k Hk. apply in_zseq in Hk. now replace (k =? size a) with false by lia.
Qed.

Lemma zseq_app : forall n m, 0 <= n -> 0 <= m -> zseq (n + m) = zseq n ++ map (fun k => n + k) (zseq m).
Proof.
  intros n m Hn Hm. unfold zseq. rewrite Z2Nat.inj_add, seq_app, map_app by lia. f_equal.
  rewrite Nat.add_0_l. rewrite map_map.
  replace (Z.to_nat n) with (Z.to_nat n + 0)%nat by lia. generalize 0%nat. intros s.
  revert s. induction (Z.to_nat m) as [|k IH]; intros s; [reflexivity|]. cbn [seq map]. f_equal; [lia|].
  replace (S (Z.to_nat n + s))%nat with (Z.to_nat n + S s)%nat by lia. apply IH.
Qed.

Lemma load8_contents : forall (a source : array (P := P)) i, 0 <= size a -> size a + 8 <= capacity -> 0 <= i -> i + 8 <= capacity ->
  exists a', load8 a source i = Some a' /\ contents a' = contents a ++ map (fun e => cells source (i + e)) (zseq 8) /\ size a' = size a + 8.
Proof.
  intros a source i H1 H2 H3 H4. unfold load8. replace (capacity <? size a + 8) with false by lia.
  replace ((0 <=? i) && (i + 8 <=? capacity)) with true by lia. eexists. split; [reflexivity|]. split; [|reflexivity].
  unfold contents. cbn [cells size]. rewrite zseq_app by lia. rewrite map_app, map_map. f_equal.
  - apply map_ext_in. intros k Hk. apply in_zseq in Hk. now replace ((size a <=? k) && (k <? size a + 8)) with false by lia.
  - apply map_ext_in. intros k Hk. apply in_zseq in Hk.
    replace ((size a <=? size a + k) && (size a + k <? size a + 8)) with true by lia. f_equal. lia.
Qed.

Lemma any8_ok : forall test (a : array (P := P)) i, 0 <= i -> i + 8 <= capacity ->
  any8 test a i = Some (existsb test (map (fun e => cells a (i + e)) (zseq 8))).
Proof.
  intros test a i H1 H2. unfold any8.
  assert (G : forall l h, (forall e, In e l -> 0 <= e < 8) ->
    ofold (fun hit e => obind (read a (i + e)) (fun p => Some (hit || test p))) l h =
    Some (h || existsb test (map (fun e => cells a (i + e)) l))).
  { induction l as [|e l IH]; intros h H; cbn [ofold map existsb]; [now rewrite orb_false_r|].
    unfold read. pose proof (H e (or_introl eq_refl)). replace ((0 <=? i + e) && (i + e <? capacity)) with true by lia. cbn [obind].
    rewrite IH by (intros; apply H; now right). now rewrite orb_assoc. }
  rewrite G by (intros e He; apply in_zseq in He; lia). reflexivity.
Qed.

Lemma one_by_one_ok : forall test (a : array (P := P)) i keep move, 0 <= i -> i + 8 <= capacity ->
  0 <= size keep -> 0 <= size move -> size keep + 8 <= capacity -> size move + 8 <= capacity ->
  let l := map (fun e => cells a (i + e)) (zseq 8) in
  exists keep' move', one_by_one test a i (keep, move) = Some (keep', move') /\
    contents keep' = contents keep ++ filter (fun p => negb (test p)) l /\ contents move' = contents move ++ filter test l /\
    0 <= size keep' /\ 0 <= size move'.
Proof.
  intros test a i keep move H1 H2 Hk Hm Ck Cm. cbv zeta. unfold one_by_one.
  assert (G : forall l keep move, (forall e, In e l -> 0 <= e < 8) -> 0 <= size keep -> 0 <= size move ->
     size keep + Z.of_nat (length l) <= capacity -> size move + Z.of_nat (length l) <= capacity ->
    exists keep' move', ofold (fun s e => let '(keep, move) := s in
      obind (read a (i + e)) (fun p =>
        if test p then obind (push_back move p) (fun move => Some (keep, move))
        else obind (push_back keep p) (fun keep => Some (keep, move)))) l (keep, move) = Some (keep', move') /\
    contents keep' = contents keep ++ filter (fun p => negb (test p)) (map (fun e => cells a (i + e)) l) /\
    contents move' = contents move ++ filter test (map (fun e => cells a (i + e)) l) /\ 0 <= size keep' /\ 0 <= size move').
  { clear keep move Hk Hm Ck Cm. induction l as [|e l IH]; intros keep move H Hk Hm Ck Cm.
    - exists keep, move. cbn [ofold map filter]. rewrite !app_nil_r. auto.
    - cbn [ofold map filter]. cbn [length] in Ck, Cm. unfold read at 1. pose proof (H e (or_introl eq_refl)).
      replace ((0 <=? i + e) && (i + e <? capacity)) with true by lia. cbn [obind].
      assert (H' : forall e, In e l -> 0 <= e < 8) by (intros; apply H; now right).
      destruct (test (cells a (i + e))); cbn [negb].
      + destruct (push_contents move (cells a (i + e))) as [m' [-> [C S']]]; [lia|]. cbn [obind].
        destruct (IH keep m' H') as [k' [m2 [E [K1 [K2 [K3 K4]]]]]]; try lia. exists k', m2. split; [exact E|]. rewrite K1, K2, C, <- app_assoc. auto.
      + destruct (push_contents keep (cells a (i + e))) as [m' [-> [C S']]]; [lia|]. cbn [obind].
        destruct (IH m' move H') as [k' [m2 [E [K1 [K2 [K3 K4]]]]]]; try lia. exists k', m2. split; [exact E|]. rewrite K1, K2, C, <- app_assoc. auto. }
  apply (G (zseq 8)); auto; [intros e He; apply in_zseq in He; lia|rewrite length_zseq; lia..].
Qed.

Lemma size_contents : forall a : array (P := P), 0 <= size a -> size a = Z.of_nat (length (contents a)).
Proof. intros a H. unfold contents. rewrite map_length, length_zseq. lia. Qed.

(** [sel]: which particles a loop moves. *)
Lemma chunks_ok : forall vtest test sel (a : array (P := P)),
  (forall l : list P, incl l (chunked a) -> if existsb vtest l then forall p, In p l -> sel p = test p else forall p, In p l -> sel p = false) ->
  size a <= capacity ->
  forall m i keep move, size a <= i + 8 * Z.of_nat m < size a + 8 -> 0 <= i -> i mod 8 = 0 ->
  0 <= size keep -> 0 <= size move -> size keep + 8 * Z.of_nat m <= capacity -> size move + 8 * Z.of_nat m <= capacity ->
  let l := map (fun e => cells a (i + e)) (zseq (8 * Z.of_nat m)) in
  forall fuel, (m <= fuel)%nat ->
  exists keep' move', chunks fuel vtest test a i (keep, move) = Some (keep', move') /\
    contents keep' = contents keep ++ filter (fun p => negb (sel p)) l /\ contents move' = contents move ++ filter sel l /\
    0 <= size keep' /\ 0 <= size move'.
Proof.
  intros vtest test sel a Hsel Ha. induction m as [|m IH]; intros i keep move Hi I0 I8 Hk Hm Ck Cm l fuel Hf.
  - exists keep, move. unfold l. cbn [Z.of_nat]. change (zseq (8 * 0)) with (@nil Z). cbn [map filter]. rewrite !app_nil_r.
    split; [|auto]. destruct fuel; cbn [chunks]; now replace (i <? size a) with false by lia.
  - destruct fuel as [|fuel]; [lia|]. cbn [chunks]. replace (i <? size a) with true by lia.
    assert (C8 : i + 8 <= capacity).
    { assert (i < 8208) by (unfold capacity in Ha; lia). unfold capacity. Z.to_euclidean_division_equations. lia. }
    rewrite any8_ok by lia. cbn [obind]. set (l8 := map (fun e => cells a (i + e)) (zseq 8)).
    assert (L : l = l8 ++ map (fun e => cells a (i + 8 + e)) (zseq (8 * Z.of_nat m))).
    { unfold l, l8. replace (8 * Z.of_nat (S m)) with (8 + 8 * Z.of_nat m) by lia. rewrite zseq_app by lia. rewrite map_app, map_map. f_equal.
      apply map_ext. intros e. f_equal. lia. }
    assert (N : exists keep1 move1, (if existsb vtest l8 then one_by_one test a i (keep, move)
        else obind (load8 (fst (keep, move)) a i) (fun keep0 => Some (keep0, snd (keep, move)))) = Some (keep1, move1) /\
      contents keep1 = contents keep ++ filter (fun p => negb (sel p)) l8 /\ contents move1 = contents move ++ filter sel l8 /\
      0 <= size keep1 /\ 0 <= size move1).
    { assert (Hin : incl l8 (chunked a)).
      { intros p Hp. unfold l8 in Hp. apply in_map_iff in Hp as [e [<- He]]. apply in_zseq in He. unfold chunked. apply in_map.
        apply in_zseq. unfold round8. Z.to_euclidean_division_equations. lia. }
      specialize (Hsel l8 Hin). destruct (existsb vtest l8).
      - destruct (one_by_one_ok test a i keep move) as [k' [m' [E [K1 [K2 [K3 K4]]]]]]; try lia. fold l8 in K1, K2.
        exists k', m'. split; [exact E|]. rewrite K1, K2.
        rewrite (filter_ext_list P test sel) by (intros; symmetry; auto).
        rewrite (filter_ext_list P (fun p => negb (test p)) (fun p => negb (sel p))) by (intros; f_equal; symmetry; auto). auto.
      - cbn [fst snd]. destruct (load8_contents keep a i) as [k' [E [K1 K2]]]; try lia. rewrite E. cbn [obind]. exists k', move. split; [reflexivity|].
        fold l8 in K1. rewrite K1. rewrite (filter_ext_list P sel (fun _ => false)) by auto.
        rewrite (filter_ext_list P (fun p => negb (sel p)) (fun _ => true)) by (intros; now rewrite Hsel).
        assert (F0 : forall l : list P, filter (fun _ => false) l = []) by (induction l0; auto).
        assert (F1 : forall l : list P, filter (fun _ => true) l = l) by (induction l0; cbn [filter]; congruence).
        rewrite F0, F1, app_nil_r. repeat split; auto; lia. }
    destruct N as [keep1 [move1 [-> [K1 [K2 [K3 K4]]]]]]. cbn [obind].
    assert (SK : size keep1 <= size keep + 8 /\ size move1 <= size move + 8).
    { rewrite !size_contents by lia. rewrite K1, K2, !app_length.
      assert (F : forall (f : P -> bool) l, (length (filter f l) <= length l)%nat).
      { intros f l0. induction l0 as [|p l0 IHl]; cbn [filter length]; [lia|]. destruct (f p); cbn [length]; lia. }
      pose proof (F (fun p => negb (sel p)) l8). pose proof (F sel l8).
      assert (length l8 = 8%nat) by reflexivity. lia. }
    destruct (IH (i + 8) keep1 move1) with (fuel := fuel) as [k' [m' [E [J1 [J2 [J3 J4]]]]]]; try lia.
    exists k', m'. split; [exact E|]. rewrite L, !filter_app, J1, J2, K1, K2, <- !app_assoc. auto.
Qed.

(** A whole loop: [sel] of the chunks moves. *)
Lemma loop_ok : forall vtest test sel (a keep move : array (P := P)),
  (forall l : list P, incl l (chunked a) -> if existsb vtest l then forall p, In p l -> sel p = test p else forall p, In p l -> sel p = false) ->
  0 <= size a <= capacity -> 0 <= size keep -> 0 <= size move ->
  size keep + round8 (size a) <= capacity -> size move + round8 (size a) <= capacity ->
  exists keep' move', chunks (Z.to_nat (size a)) vtest test a 0 (keep, move) = Some (keep', move') /\
    contents keep' = contents keep ++ filter (fun p => negb (sel p)) (chunked a) /\ contents move' = contents move ++ filter sel (chunked a) /\
    0 <= size keep' /\ 0 <= size move'.
Proof.
  intros vtest test sel a keep move Hs Ha Hk Hm Ck Cm.
  destruct (chunks_ok vtest test sel a Hs ltac:(lia) (Z.to_nat ((size a + 7) / 8)) 0 keep move) with (fuel := Z.to_nat (size a))
    as [k' [m' [E [K1 [K2 K3]]]]]; auto; unfold round8 in *; try (Z.to_euclidean_division_equations; lia).
  exists k', m'. split; [exact E|]. rewrite K1, K2.
  replace (map (fun e => cells a (0 + e)) (zseq (8 * Z.of_nat (Z.to_nat ((size a + 7) / 8))))) with (chunked a); [auto|].
  unfold chunked, round8. rewrite Z2Nat.id by (Z.to_euclidean_division_equations; lia). reflexivity.
Qed.
Lemma push_all : forall l (a : array (P := P)) p, 0 <= size a -> size a + Z.of_nat (length l) <= capacity ->
  (forall k, size a <= k -> cells a k = p) ->
  exists a', ofold push_back l a = Some a' /\ contents a' = contents a ++ l /\ 0 <= size a' /\
    (forall k, size a' <= k -> cells a' k = p).
Proof.
  induction l as [|q l IH]; intros a p S0 C B; cbn [ofold].
  - exists a. rewrite app_nil_r. auto.
  - cbn [length] in C. destruct (push_contents a q) as [a' [E [C' S']]]; [lia|]. rewrite E. cbn [obind].
    destruct (IH a' p) as [a2 [E2 [C2 [S2 B2]]]]; try lia.
    { intros k Hk. unfold push_back in E. replace (capacity <=? size a) with false in E by lia. injection E as <-. cbn [cells size] in *.
      replace (k =? size a) with false by lia. apply B. lia. }
    exists a2. split; [exact E2|]. split; [|auto]. rewrite C2, C', <- app_assoc. reflexivity.
Qed.

Lemma gold_start_ok : forall (p : P) l, Z.of_nat (length l) <= capacity ->
  exists a, gold_start p l = Some a /\ contents a = l /\ 0 <= size a /\ (forall k, size a <= k -> cells a k = p).
Proof.
  intros p l H. unfold gold_start. destruct (push_all l (mkArray (fun _ => p) 0) p) as [a [E [C [S0 B]]]]; auto; cbn [size]; try lia.
  exists a. split; [exact E|]. split; [|auto]. exact C.
Qed.

Lemma gold_start_full : forall l (a : array (P := P)), 0 <= size a <= capacity -> capacity < size a + Z.of_nat (length l) -> ofold push_back l a = None.
Proof.
  induction l as [|q l IH]; intros a S0 C; cbn [length] in C; [lia|]. cbn [ofold].
  destruct (Z_lt_ge_dec (size a) capacity) as [L|G].
  - destruct (push_contents a q) as [a' [-> [_ S']]]; [lia|]. cbn [obind]. apply IH; lia.
  - unfold push_back. replace (capacity <=? size a) with true by lia. reflexivity.
Qed.
End Gold.

Definition blank_array {P : Type} (p : P) : array (P := P) := mkArray (fun _ => p) 0.

Section GoldReps.
Context {P T : Type} (posX : P -> T) (ge lt : T -> T -> bool) (flip : T -> T).
Hypothesis Hge : forall x b, ge x b = negb (lt x b).
Local Notation below b := (fun p => lt (posX p) b).
Local Notation four := (array (P := P) * array (P := P) * array (P := P) * array (P := P))%type.

(** What lists a state holds. *)
Definition shows (o : option four) (l r : list P) : Prop :=
  exists a b c d, o = Some (a, b, c, d) /\ contents a = l /\ contents b = r /\ 0 <= size a /\ 0 <= size b.

Lemma chunked_full : forall a : array (P := P), size a mod 8 = 0 -> chunked a = contents a.
Proof. intros a H. unfold chunked, contents, round8. do 2 f_equal. Z.to_euclidean_division_equations. lia. Qed.

Lemma contents_clear : forall a : array (P := P), contents (clear a) = [].
Proof. reflexivity. Qed.

Lemma filter_len : forall (f : P -> bool) l, (length (filter f l) <= length l)%nat.
Proof. intros f l. induction l as [|p l IHl]; cbn [filter length]; [lia|]. destruct (f p); cbn [length]; lia. Qed.

Lemma existsb_none : forall (f : P -> bool) l, existsb f l = false -> forall p, In p l -> f p = false.
Proof.
  intros f l H p Hp. destruct (f p) eqn:E; [|reflexivity]. assert (existsb f l = true) by (apply existsb_exists; eauto). congruence.
Qed.

Lemma first_rep : forall b (lefts rights nl nr : array (P := P)), 0 <= size lefts -> 0 <= size rights ->
  size lefts mod 8 = 0 -> size rights mod 8 = 0 -> size lefts + size rights <= capacity ->
  shows (gold_rep posX ge lt b b (lefts, rights, nl, nr))
    (fst (pepper_rep posX ge b (contents lefts, contents rights))) (snd (pepper_rep posX ge b (contents lefts, contents rights))).
Proof.
  intros b lefts rights nl nr L0 R0 L8 R8 C. unfold gold_rep.
  assert (RL : round8 (size lefts) = size lefts /\ round8 (size rights) = size rights)
    by (unfold round8; Z.to_euclidean_division_equations; lia).
  destruct (loop_ok (fun p => ge (posX p) b) (fun p => ge (posX p) b) (fun p => ge (posX p) b) lefts (clear nl) (clear nr)) as [k [m [-> [K1 [K2 [K3 K4]]]]]];
    try (cbn [size clear]; lia).
  { intros l _. destruct (existsb _ l) eqn:E; [auto|]. intros p Hp. exact (existsb_none _ l E p Hp). }
  cbn [obind]. rewrite chunked_full, contents_clear in K1, K2 by exact L8. cbn [app] in K1, K2.
  assert (SK : size k <= size lefts /\ size m <= size lefts).
  { rewrite !size_contents by lia. rewrite K1, K2. split; apply Nat2Z.inj_le, filter_len. }
  destruct (loop_ok (fun p => lt (posX p) b) (fun p => lt (posX p) b) (fun p => lt (posX p) b) rights m k) as [k' [m' [-> [J1 [J2 [J3 J4]]]]]]; try lia.
  { intros l _. destruct (existsb _ l) eqn:E; [auto|]. intros p Hp. exact (existsb_none _ l E p Hp). }
  cbn [obind]. rewrite chunked_full in J1, J2 by exact R8.
  exists m', k', lefts, rights. split; [reflexivity|]. unfold pepper_rep. rewrite !(push_either_lists posX ge lt Hge). cbn [fst snd app].
  rewrite J1, J2, K1, K2.
  rewrite (filter_ext_list P (fun p => negb (ge (posX p) b)) (below b)) by (intros; now rewrite Hge, negb_involutive).
  rewrite (filter_ext_list P (fun p => ge (posX p) b) (fun p => negb (below b p))) by (intros; apply Hge). auto.
Qed.

(** Nothing moves when each side is in order with respect to [vec], whatever [b] is. *)
Lemma stuck_rep : forall vec b (lefts rights nl nr : array (P := P)),
  0 <= size lefts -> 0 <= size rights -> round8 (size lefts) + round8 (size rights) <= capacity ->
  (forall p, In p (chunked lefts) -> lt (posX p) vec = true) -> (forall p, In p (chunked rights) -> lt (posX p) vec = false) ->
  shows (gold_rep posX ge lt vec b (lefts, rights, nl, nr)) (chunked lefts) (chunked rights).
Proof.
  intros vec b lefts rights nl nr L0 R0 C HL HR. unfold gold_rep.
  assert (RL : size lefts <= round8 (size lefts) /\ size rights <= round8 (size rights))
    by (unfold round8; Z.to_euclidean_division_equations; lia).
  assert (F0 : forall l : list P, filter (fun _ => false) l = []) by (induction l; auto).
  assert (F1 : forall l : list P, filter (fun _ => true) l = l) by (induction l; cbn [filter]; congruence).
  destruct (loop_ok (fun p => ge (posX p) vec) (fun p => ge (posX p) b) (fun _ => false) lefts (clear nl) (clear nr)) as [k [m [-> [K1 [K2 [K3 K4]]]]]];
    try (cbn [size clear]; lia).
  { intros l Hl. replace (existsb _ l) with false; [auto|]. symmetry. destruct (existsb _ l) eqn:E; [|reflexivity].
    apply existsb_exists in E as [p [Hp E]]. rewrite Hge, (HL p) in E by (apply Hl; exact Hp). discriminate E. }
  cbn [obind]. rewrite F1, contents_clear in K1. rewrite F0, contents_clear in K2. cbn [app] in K1, K2.
  assert (S0 : size m = 0) by (rewrite size_contents, K2 by lia; reflexivity).
  destruct (loop_ok (fun p => lt (posX p) vec) (fun p => lt (posX p) b) (fun _ => false) rights m k) as [k' [m' [E [J1 [J2 [J3 J4]]]]]].
  { intros l Hl. replace (existsb _ l) with false; [auto|]. symmetry. destruct (existsb _ l) eqn:E; [|reflexivity].
    apply existsb_exists in E as [p [Hp E]]. rewrite (HR p) in E by (apply Hl; exact Hp). discriminate E. }
  all: try lia.
  1:{ rewrite size_contents, K1 by lia. unfold chunked at 1. rewrite map_length, length_zseq. lia. }
  rewrite E. cbn [obind]. exists m', k', lefts, rights. split; [reflexivity|].
  rewrite J1, J2, F0, F1, K1, K2, app_nil_r. auto.
Qed.
Lemma contents_round : forall (a : array (P := P)) l n, contents a = l -> 0 <= size a -> Z.of_nat (length l) = n -> size a = n.
Proof. intros a l n H H0 Hn. rewrite size_contents, H by lia. exact Hn. Qed.

(** Any number of repetitions on arrays in order. *)
Lemma stuck_reps : forall vec n b (a1 a2 a3 a4 : array (P := P)) l r,
  contents a1 = l -> contents a2 = r -> 0 <= size a1 -> 0 <= size a2 ->
  Z.of_nat (length l) mod 8 = 0 -> Z.of_nat (length r) mod 8 = 0 -> Z.of_nat (length l) + Z.of_nat (length r) <= capacity ->
  (forall p, In p l -> lt (posX p) vec = true) -> (forall p, In p r -> lt (posX p) vec = false) ->
  shows (moves flip n (fun b' s => obind s (gold_rep posX ge lt vec b')) b (Some (a1, a2, a3, a4))) l r.
Proof.
  intros vec n. induction n as [|n IH]; intros b a1 a2 a3 a4 l r C1 C2 S1 S2 L8 R8 C HL HR; cbn [moves].
  - exists a1, a2, a3, a4. auto.
  - cbn [obind].
    assert (Z1 : size a1 = Z.of_nat (length l)) by (rewrite <- C1; apply size_contents; lia).
    assert (Z2 : size a2 = Z.of_nat (length r)) by (rewrite <- C2; apply size_contents; lia).
    assert (RL : round8 (size a1) = size a1 /\ round8 (size a2) = size a2)
      by (rewrite Z1, Z2; unfold round8; Z.to_euclidean_division_equations; lia).
    assert (F1 : chunked a1 = l) by (rewrite <- C1; apply chunked_full; congruence).
    assert (F2 : chunked a2 = r) by (rewrite <- C2; apply chunked_full; congruence).
    destruct (stuck_rep vec b a1 a2 a3 a4) as [b1 [b2 [b3 [b4 [E [E1 [E2 [E3 E4]]]]]]]]; auto; try lia.
    { now rewrite F1. } { now rewrite F2. }
    rewrite E. apply IH; auto; congruence.
Qed.

Lemma pepper_length : forall b l r,
  (length (fst (pepper_rep posX ge b (l, r))) + length (snd (pepper_rep posX ge b (l, r))) = length l + length r)%nat.
Proof.
  intros b l r. destruct (pepper_correct posX ge lt Hge b l r) as [A B].
  rewrite (Permutation_length A), (Permutation_length B), <- app_length, (Permutation_length (filter_both P (below b) (l ++ r))), app_length. reflexivity.
Qed.

Lemma gold_reps : forall n b (a1 a2 a3 a4 : array (P := P)), 0 <= size a1 -> 0 <= size a2 ->
  size a1 mod 8 = 0 -> size a2 mod 8 = 0 -> size a1 + size a2 <= capacity ->
  let after := pepper_rep posX ge b (contents a1, contents a2) in
  Z.of_nat (length (fst after)) mod 8 = 0 ->
  shows (gold_moves posX ge lt flip (S n) b (a1, a2, a3, a4)) (fst after) (snd after).
Proof.
  intros n b a1 a2 a3 a4 S1 S2 L8 R8 C after M8. unfold gold_moves. cbn [moves obind].
  destruct (first_rep b a1 a2 a3 a4) as [b1 [b2 [b3 [b4 [E [E1 [E2 [E3 E4]]]]]]]]; auto. rewrite E.
  assert (LL := pepper_length b (contents a1) (contents a2)). fold after in LL, E1, E2.
  assert (Z1 := size_contents a1 S1). assert (Z2 := size_contents a2 S2).
  apply stuck_reps; auto.
  - assert (W : Z.of_nat (length (fst after)) + Z.of_nat (length (snd after)) = size a1 + size a2) by lia.
    Z.to_euclidean_division_equations. lia.
  - lia.
  - intros p Hp. destruct (pepper_correct posX ge lt Hge b (contents a1) (contents a2)) as [A _]. fold after in A.
    apply (Permutation_in _ A) in Hp. apply filter_In in Hp. tauto.
  - intros p Hp. destruct (pepper_correct posX ge lt Hge b (contents a1) (contents a2)) as [_ B]. fold after in B.
    apply (Permutation_in _ B) in Hp. apply filter_In in Hp as [_ Hp]. now apply negb_true_iff.
Qed.

End GoldReps.

(** Gold on containers whose sizes are multiples of eight: right for the first
    repetition ... *)
Theorem C83_gold_partial : forall (P T : Type) (posX : P -> T) ge lt, (forall x b, ge x b = negb (lt x b)) ->
  forall b (lefts rights newLeft newRight : array (P := P)), 0 <= size lefts -> 0 <= size rights ->
  size lefts mod 8 = 0 -> size rights mod 8 = 0 -> size lefts + size rights <= capacity ->
  exists l r old_l old_r, gold_rep posX ge lt b b (lefts, rights, newLeft, newRight) = Some (l, r, old_l, old_r) /\
    (contents l, contents r) = pepper_rep posX ge b (contents lefts, contents rights).
Proof.
  intros P T posX ge lt Hge b lefts rights nl nr L0 R0 L8 R8 C.
  destruct (first_rep posX ge lt (fun b => b) Hge b lefts rights nl nr L0 R0 L8 R8 C) as [a1 [a2 [a3 [a4 [E [E1 [E2 _]]]]]]].
  exists a1, a2, a3, a4. split; [exact E|]. rewrite E1, E2. destruct (pepper_rep _ _ _ _). reflexivity.
Qed.

(** ... and then it never moves a particle again. *)
Theorem C83_gold_stuck_refuted : forall (P T : Type) (posX : P -> T) ge lt flip, (forall x b, ge x b = negb (lt x b)) ->
  forall n b (lefts rights newLeft newRight : array (P := P)), 0 <= size lefts -> 0 <= size rights ->
  size lefts mod 8 = 0 -> size rights mod 8 = 0 -> size lefts + size rights <= capacity ->
  let first := pepper_rep posX ge b (contents lefts, contents rights) in
  Z.of_nat (length (fst first)) mod 8 = 0 ->
  exists l r old_l old_r, gold_moves posX ge lt flip (S n) b (lefts, rights, newLeft, newRight) = Some (l, r, old_l, old_r) /\
    (contents l, contents r) = first.
Proof.
  intros P T posX ge lt flip Hge n b lefts rights nl nr L0 R0 L8 R8 C first M8.
  destruct (gold_reps posX ge lt flip Hge n b lefts rights nl nr L0 R0 L8 R8 C M8) as [a1 [a2 [a3 [a4 [E [E1 [E2 _]]]]]]].
  exists a1, a2, a3, a4. split; [exact E|]. rewrite E1, E2. fold first. destruct first. reflexivity.
Qed.

(** The runs: 20 * 20 * 20 particles at multiples of 5 hundredths.  Gold ends with
    the numbers on the left after the first repetition; Vanilla and Pepper have the
    other number there after every second one. *)
Definition twentieth (x y z : Z) : Z * Z * Z := (5 * x, 5 * y, 5 * z).
Definition hundredth_x (p : Z * Z * Z) : Z := fst (fst p).

Lemma flip_back : forall n b, boundary_of (fun b => 100 - b) (S (2 * n)) b = 100 - b.
Proof.
  intros n b. unfold boundary_of, Nat.iter. induction n as [|n IH]; [reflexivity|].
  replace (S (2 * S n)) with (S (S (S (2 * n)))) by lia. cbn [nat_rect] in *. rewrite IH. lia.
Qed.

Theorem C83_gold_runs_refuted : forall d, In d mover_runs -> forall n,
  let l := start_particles twentieth 20 in
  let empty := blank_array (0, 0, 0) in
  let gold_left := Z.of_nat (length (filter (fun p => hundredth_x p <? 50 + d) l)) in
  let true_left := Z.of_nat (length (filter (fun p => hundredth_x p <? 100 - (50 + d)) l)) in
  true_left < gold_left /\
  (exists a, gold_start (0, 0, 0) l = Some a /\
    exists l' r' x y, gold_moves hundredth_x Z.geb Z.ltb (fun b => 100 - b) (S n) (50 + d) (a, empty, empty, empty) = Some (l', r', x, y) /\
      Z.of_nat (length (contents l')) = gold_left) /\
  Z.of_nat (length (fst (moves (fun b => 100 - b) (S (S (2 * n))) (vanilla_rep hundredth_x Z.geb Z.ltb) (50 + d) (l, [])))) = true_left /\
  Z.of_nat (length (fst (moves (fun b => 100 - b) (S (S (2 * n))) (pepper_rep hundredth_x Z.geb) (50 + d) (l, [])))) = true_left.
Proof.
  intros d Hd n l empty gold_left true_left.
  assert (Hge : forall x b, (x >=? b) = negb (x <? b)) by (intros; lia).
  assert (N : Z.of_nat (length l) = 8000) by (vm_compute; reflexivity).
  assert (M : true_left < gold_left /\ gold_left mod 8 = 0).
  { unfold true_left, gold_left, l. cbn [mover_runs In] in Hd.
    repeat (destruct Hd as [<-|Hd]; [vm_compute; split; reflexivity|]). contradiction. }
  clearbody l. split; [apply M|]. split; [|split].
  - destruct (gold_start_ok (0, 0, 0) l) as [a [Ea [Ca [Sa Ba]]]]; [rewrite N; vm_compute; discriminate|]. exists a. split; [exact Ea|].
    assert (S8 : size a = 8000) by (rewrite size_contents, Ca, N by lia; reflexivity).
    assert (F : Z.of_nat (length (fst (pepper_rep hundredth_x Z.geb (50 + d) (contents a, contents empty)))) = gold_left).
    { destruct (pepper_correct hundredth_x Z.geb Z.ltb Hge (50 + d) (contents a) (contents empty)) as [A _].
      rewrite (Permutation_length A), Ca. change (contents empty) with (@nil (Z * Z * Z)). rewrite app_nil_r. reflexivity. }
    destruct (C83_gold_stuck_refuted _ _ hundredth_x Z.geb Z.ltb (fun b => 100 - b) Hge n (50 + d) a empty empty empty
      Sa (Z.le_refl 0)) as [l' [r' [x [y [E F']]]]].
    { rewrite S8. reflexivity. }
    { reflexivity. }
    { rewrite S8. vm_compute. discriminate. }
    { rewrite F. apply M. }
    exists l', r', x, y. split; [exact E|]. rewrite <- F, <- F'. reflexivity.
  - destruct (C83_vanilla _ _ hundredth_x Z.geb Z.ltb (fun b => 100 - b) Hge (S (2 * n)) (50 + d) l []) as [A _].
    rewrite (Permutation_length A), flip_back, app_nil_r. reflexivity.
  - destruct (C83_pepper _ _ hundredth_x Z.geb Z.ltb (fun b => 100 - b) Hge (S (2 * n)) (50 + d) l []) as [A _].
    rewrite (Permutation_length A), flip_back, app_nil_r. reflexivity.
Qed.

(** A number of particles that is no multiple of eight: the cells behind the end
    become particles. *)
Theorem C83_ghosts_refuted : forall (P T : Type) (posX : P -> T) ge lt flip, (forall x b, ge x b = negb (lt x b)) ->
  forall b blank l, Z.of_nat (length l) mod 8 <> 0 -> Z.of_nat (length l) <= capacity ->
  (forall p, In p (blank :: l) -> lt (posX p) b = true) ->
  exists a ghosts l' r' x y, gold_start blank l = Some a /\
    gold_moves posX ge lt flip 1 b (a, blank_array blank, blank_array blank, blank_array blank) = Some (l', r', x, y) /\
    contents l' = l ++ ghosts /\ ghosts <> [] /\ (forall p, In p ghosts -> p = blank).
Proof.
  intros P T posX ge lt flip Hge b blank l M8 C Hl.
  destruct (gold_start_ok blank l C) as [a [Ea [Ca [Sa Ba]]]].
  assert (S8 : size a = Z.of_nat (length l)) by (rewrite <- Ca; apply size_contents; lia).
  assert (R : size a < round8 (size a) /\ round8 (size a) <= capacity)
    by (rewrite S8 in *; unfold round8, capacity in *; Z.to_euclidean_division_equations; lia).
  assert (K : chunked a = l ++ map (fun k => cells a (size a + k)) (zseq (round8 (size a) - size a))).
  { unfold chunked. replace (zseq (round8 (size a))) with (zseq (size a + (round8 (size a) - size a))) by (f_equal; lia).
    rewrite zseq_app by lia. rewrite map_app, map_map. f_equal. exact Ca. }
  destruct (stuck_rep posX ge lt flip Hge b b a (blank_array blank) (blank_array blank) (blank_array blank))
    as [a1 [a2 [a3 [a4 [E [E1 _]]]]]]; try (cbn [size blank_array]; lia).
  - cbn [size blank_array]. change (round8 0) with 0. lia.
  - rewrite K. intros p Hp. apply Hl. apply in_app_or in Hp as [Hp|Hp]; [now right|]. left.
    apply in_map_iff in Hp as [k [<- Hk]]. apply in_zseq in Hk. symmetry. apply Ba. lia.
  - intros p []. 
  - exists a, (map (fun k => cells a (size a + k)) (zseq (round8 (size a) - size a))), a1, a2, a3, a4.
    split; [exact Ea|]. split; [exact E|]. split; [congruence|]. split.
    + intros X. apply (f_equal (@length P)) in X. rewrite map_length, length_zseq in X. cbn [length] in X. lia.
    + intros p Hp. apply in_map_iff in Hp as [k [<- Hk]]. apply in_zseq in Hk. apply Ba. lia.
Qed.

(** The start: d * d * d particles; Gold has room for them up to d = 20. *)
Theorem C83_start : forall (P : Type) (particle : Z -> Z -> Z -> P) blank d, 0 <= d ->
  Z.of_nat (length (start_particles particle d)) = d * d * d /\
  (gold_start blank (start_particles particle d) = None <-> 20 < d).
Proof.
  intros P particle blank d Hd.
  assert (L : forall (A : Type) (f : Z -> list A) n (l : list Z), (forall x, length (f x) = n) -> length (flat_map f l) = (length l * n)%nat).
  { intros A f n l H. induction l as [|x l IH]; [reflexivity|]. cbn [flat_map length]. rewrite app_length, IH, H. lia. }
  assert (N : length (range 0 d) = Z.to_nat d) by (unfold range; rewrite map_length, length_zseq; lia).
  assert (T : Z.of_nat (length (start_particles particle d)) = d * d * d).
  { unfold start_particles. rewrite (L _ _ (Z.to_nat d * Z.to_nat d)%nat).
    - rewrite N. lia.
    - intros z. rewrite (L _ _ (Z.to_nat d)); [now rewrite N|]. intros y. now rewrite map_length. }
  split; [exact T|]. split.
  - intros E. destruct (Z_le_gt_dec d 20) as [G|G]; [|lia]. exfalso.
    destruct (gold_start_ok blank (start_particles particle d)) as [a [Ea _]]; [rewrite T; unfold capacity; nia|]. congruence.
  - intros G. apply gold_start_full; cbn [size]; [unfold capacity; lia|]. rewrite T. unfold capacity. nia.
Qed.

(** A concrete case: nine particles, boundary 3. *)
Example C83_case :
  let l := [5; 1; 4; 1; 2; 9; 2; 6; 3] in
  moves (fun b => 6 - b) 1 (vanilla_rep (fun p => p) Z.geb Z.ltb) 3 (l, [7; 0]) = ([0; 1; 1; 2; 2], [5; 4; 9; 6; 3; 7]) /\
  moves (fun b => 6 - b) 1 (pepper_rep (fun p => p) Z.geb) 3 (l, [7; 0]) = ([1; 1; 2; 2; 0], [5; 4; 9; 6; 3; 7]) /\
  moves (fun b => 10 - b) 2 (vanilla_rep (fun p => p) Z.geb Z.ltb) 10 (firstn 8 l, []) = ([], [5; 1; 4; 1; 2; 9; 2; 6]) /\
  match gold_start 0 (firstn 8 l) with
  | Some a => match gold_moves (fun p => p) Z.geb Z.ltb (fun b => 10 - b) 2 10 (a, blank_array 0, blank_array 0, blank_array 0) with
              | Some (x, y, _, _) => contents x = firstn 8 l /\ contents y = [] | None => False end
  | None => False end /\
  match gold_start 0 l with
  | Some a => match gold_moves (fun p => p) Z.geb Z.ltb (fun b => 10 - b) 1 5 (a, blank_array 0, blank_array 0, blank_array 0) with
              | Some (x, y, _, _) => contents x = [1; 4; 1; 2; 2; 3; 0; 0; 0; 0; 0; 0; 0] /\ contents y = [5; 9; 6] | None => False end
  | None => False end.
Proof. vm_compute. repeat split; reflexivity. Qed.

(** The boundaries of the three runs. *)
Example C83_runs : forall d, In d mover_runs <-> d = 10 \/ d = 50 \/ d = 90.
Proof. intros d. cbn [mover_runs In]. intuition lia. Qed.

Print Assumptions C83_vanilla.
Print Assumptions C83_pepper.
Print Assumptions C83_gold_partial.
Print Assumptions C83_gold_stuck_refuted.
Print Assumptions C83_gold_runs_refuted.
Print Assumptions C83_ghosts_refuted.
Print Assumptions C83_start.
