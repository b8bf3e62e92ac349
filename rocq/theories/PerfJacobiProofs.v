From Coq Require Import ZArith List Bool Lia ZifyBool.
From Verif Require Import Base Peeler Layout Sizes Sph Lbm PerfJacobi SpecPerfJacobi.
Import ListNotations.
Local Open Scope Z_scope.

(** ** Ranges *)
Lemma in_range : forall lo hi x, In x (range lo hi) <-> lo <= x < hi.
Proof.
  intros lo hi x. unfold range. rewrite in_map_iff. split.
  - intros [k [<- Hk]]. apply in_zseq in Hk. lia.
  - intros H. exists (x - lo). rewrite in_zseq. lia.
Qed.

Lemma zseq_split : forall a b, 0 <= a <= b -> zseq b = zseq a ++ map (fun k => a + k) (zseq (b - a)).
Proof.
  intros a b H. unfold zseq. replace (Z.to_nat b) with (Z.to_nat a + Z.to_nat (b - a))%nat by lia.
  rewrite seq_app, map_app, map_map. f_equal. cbn [Nat.add].
  rewrite <- (Nat.add_0_r (Z.to_nat a)) at 1.
  generalize 0%nat. generalize (Z.to_nat (b - a)). intros n. induction n as [|n IH]; intros k; [reflexivity|].
  cbn [seq map]. f_equal; [lia|]. rewrite <- IH. f_equal. f_equal. lia.
Qed.

Lemma range_split : forall a b c, a <= b <= c -> range a c = range a b ++ range b c.
Proof.
  intros a b c H. unfold range. rewrite (zseq_split (b - a) (c - a)) by lia.
  rewrite map_app, map_map. f_equal. replace (c - a - (b - a)) with (c - b) by lia.
  apply map_ext. intros k. lia.
Qed.

Lemma range_empty : forall a b, b <= a -> range a b = [].
Proof. intros a b H. unfold range, zseq. replace (Z.to_nat (b - a)) with 0%nat by lia. reflexivity. Qed.

Lemma range_one : forall a, range a (a + 1) = [a].
Proof. intros a. unfold range. replace (a + 1 - a) with 1 by lia. change (zseq 1) with [0]. cbn [map]. now rewrite Z.add_0_r. Qed.

Lemma range_shift : forall a b d, range (a + d) (b + d) = map (fun x => x + d) (range a b).
Proof. intros a b d. unfold range. rewrite map_map. replace (b + d - (a + d)) with (b - a) by lia. apply map_ext. lia. Qed.

(** ** Memory *)
Section Memory.
Context {T : Type} (K : arith T).

Lemma store_all_fun : forall size (l : list (Z * option T)) (new : Z -> T),
  (forall a v, In (a, v) l -> 0 <= a /\ a + 8 <= size /\ exists w, v = Some w) ->
  (forall a v v', In (a, v) l -> In (a, v') l -> v = v') ->
  exists new', store_all size l new = Some new' /\
    (forall a w, In (a, Some w) l -> new' a = w) /\ (forall a, ~ In a (map fst l) -> new' a = new a).
Proof.
  intros size l. induction l as [|[a v] l IH]; intros new Hr Hc.
  { exists new. split; [reflexivity|]. split; [intros a w []|reflexivity]. }
  destruct (Hr a v (or_introl eq_refl)) as [H0 [H1 [w ->]]].
  cbn [store_all]. replace ((0 <=? a) && (a + 8 <=? size)) with true by lia.
  destruct (IH (fun b => if b =? a then w else new b)) as [m' [E [I1 I2]]].
  { intros a' v' Hin. apply Hr. right. exact Hin. }
  { intros a' v1 v2 A1 A2. apply (Hc a'); right; assumption. }
  exists m'. split; [exact E|]. split.
  - intros a' w' [Eq|Hin]; [|auto]. injection Eq as -> ->.
    destruct (in_dec Z.eq_dec a' (map fst l)) as [Hl|Hl].
    + apply in_map_iff in Hl as [[b v] [Eb Hl]]. cbn [fst] in Eb. subst b.
      pose proof (Hc a' v (Some w') (or_intror Hl) (or_introl eq_refl)) as ->. auto.
    + rewrite (I2 a' Hl). now rewrite Z.eqb_refl.
  - intros b Hb. cbn [map fst] in Hb. rewrite I2 by (intros C; apply Hb; right; exact C).
    destruct (Z.eqb_spec b a) as [->|]; [exfalso; apply Hb; left; reflexivity|reflexivity].
Qed.

Lemma store_all_app : forall size (l1 l2 : list (Z * option T)) new,
  store_all size (l1 ++ l2) new = match store_all size l1 new with Some m => store_all size l2 m | None => None end.
Proof.
  intros size l1. induction l1 as [|[a v] l1 IH]; intros l2 new; [reflexivity|]. cbn [app store_all].
  destruct v; [|reflexivity]. destruct (_ && _); [apply IH|reflexivity].
Qed.

Lemma store_all_none : forall size a (l : list (Z * option T)) new, In (a, None) l -> store_all size l new = None.
Proof.
  intros size a l. induction l as [|[b v] l IH]; intros new Hin; [destruct Hin|]. cbn [store_all].
  destruct Hin as [Eq|Hin]; [injection Eq as -> ->; reflexivity|].
  destruct v; [|reflexivity]. destruct (_ && _); auto.
Qed.

(** ** Sweeps over a grid *)
Section Grid.
Context (oy oz dx dy dz size : Z).
Hypothesis Hdx : 0 <= dx <= oy.
Hypothesis Hdy : 0 <= dy /\ dy * oy <= oz.
Hypothesis Hdz : 0 <= dz /\ 8 * (oz * dz) <= size.

Local Notation addr x y z := (8 * (x + y * oy + z * oz)).

Lemma addr_inj : forall x y z x' y' z', 0 <= x < dx -> 0 <= y < dy -> 0 <= x' < dx -> 0 <= y' < dy ->
  addr x y z = addr x' y' z' -> x = x' /\ y = y' /\ z = z'.
Proof.
  intros x y z x' y' z' Hx Hy Hx' Hy' E.
  assert (B : 0 <= x + y * oy < oz) by nia.
  assert (B' : 0 <= x' + y' * oy < oz) by nia.
  assert (z = z') as -> by nia.
  assert (y = y') as -> by nia. lia.
Qed.

Lemma addr_in : forall x y z, 0 <= x < dx -> 0 <= y < dy -> 0 <= z < dz -> 0 <= addr x y z /\ addr x y z + 8 <= size.
Proof.
  intros x y z Hx Hy Hz. assert (B : 0 <= x + y * oy < oz) by nia.
  assert (z * oz + oz <= oz * dz) by nia. nia.
Qed.

Lemma at_grid : forall (old : Z -> T) g x y z, stores_grid oy oz dx dy dz old g ->
  0 <= x < dx -> 0 <= y < dy -> 0 <= z < dz -> at_ size old (x + y * oy + z * oz) = Some (g x y z).
Proof.
  intros old g x y z Hg Hx Hy Hz. unfold at_, load. destruct (addr_in x y z) as [A B]; auto.
  replace (_ && _) with true by lia. now rewrite Hg.
Qed.

(** One sweep writes f g to the cells with x < endX. *)
Definition sweeps (step : (Z -> T) -> list (Z * option T)) (endX : Z) (f : (Z -> Z -> Z -> T) -> Z -> Z -> Z -> T) : Prop :=
  forall old new g, stores_grid oy oz dx dy dz old g ->
  exists new', store_all size (step old) new = Some new' /\
    (forall x y z, 1 <= x < endX -> 1 <= y < dy - 1 -> 1 <= z < dz - 1 -> new' (addr x y z) = f g x y z) /\
    (forall a, (forall x y z, 1 <= x < endX -> 1 <= y < dy - 1 -> 1 <= z < dz - 1 -> a <> addr x y z) -> new' a = new a).

Lemma lines_sweep : forall (line : (Z -> T) -> Z -> Z -> list (Z * option T)) endX f, endX <= dx ->
  (forall old g y z, stores_grid oy oz dx dy dz old g -> 1 <= y < dy - 1 -> 1 <= z < dz - 1 ->
     line old y z = map (fun x => (addr x y z, Some (f g x y z))) (range 1 endX)) ->
  sweeps (fun old => lines dy dz (line old)) endX f.
Proof.
  intros line endX f HE HL old new g Hg.
  assert (In_iff : forall a v, In (a, v) (lines dy dz (line old)) <->
    exists x y z, 1 <= x < endX /\ 1 <= y < dy - 1 /\ 1 <= z < dz - 1 /\ a = addr x y z /\ v = Some (f g x y z)).
  { intros a v. unfold lines. rewrite in_flat_map. split.
    - intros [z [Hz H]]. apply in_flat_map in H as [y [Hy H]]. apply in_range in Hz. apply in_range in Hy.
      rewrite (HL old g y z Hg Hy Hz) in H. apply in_map_iff in H as [x [E Hx]]. apply in_range in Hx.
      injection E as <- <-. exists x, y, z. auto.
    - intros [x [y [z [Hx [Hy [Hz [-> ->]]]]]]]. exists z. rewrite in_range. split; [exact Hz|].
      apply in_flat_map. exists y. rewrite in_range. split; [exact Hy|].
      rewrite (HL old g y z Hg Hy Hz). apply in_map_iff. exists x. rewrite in_range. auto. }
  destruct (store_all_fun size (lines dy dz (line old)) new) as [new' [E [I1 I2]]].
  - intros a v H. apply In_iff in H as [x [y [z [Hx [Hy [Hz [-> ->]]]]]]].
    destruct (addr_in x y z) as [A B]; try lia. split; [exact A|]. split; [exact B|]. eauto.
  - intros a v v' H H'. apply In_iff in H as [x [y [z [Hx [Hy [Hz [-> ->]]]]]]].
    apply In_iff in H' as [x' [y' [z' [Hx' [Hy' [Hz' [Ea ->]]]]]]].
    apply addr_inj in Ea as [-> [-> ->]]; try lia. reflexivity.
  - exists new'. split; [exact E|]. split.
    + intros x y z Hx Hy Hz. apply I1. apply In_iff. exists x, y, z. auto 6.
    + intros a Ha. apply I2. intros C. apply in_map_iff in C as [[b v] [Eb Hin]]. cbn [fst] in Eb. subst b.
      apply In_iff in Hin as [x [y [z [Hx [Hy [Hz [-> _]]]]]]]. exact (Ha x y z Hx Hy Hz eq_refl).
Qed.

(** Both grids agree outside of the cells written, and the new one holds the sweep. *)
Lemma sweep_holds : forall step endX f old new g, sweeps step endX f -> endX <= dx -> stores_grid oy oz dx dy dz old g ->
  stores_grid oy oz dx dy dz new (sweep endX dy dz (fun _ => fun x y z => new (addr x y z)) g) ->
  exists new', store_all size (step old) new = Some new' /\ stores_grid oy oz dx dy dz new' (sweep endX dy dz f g).
Proof.
  intros step endX f old new g HS HE Ho Hn. destruct (HS old new g Ho) as [new' [E [I1 I2]]].
  exists new'. split; [exact E|]. intros x y z Hx Hy Hz. pose proof (Hn x y z Hx Hy Hz) as N. unfold sweep in N |- *.
  destruct (_ && _) eqn:B in N |- *.
  - apply I1; lia.
  - rewrite <- N. apply I2. intros x' y' z' Hx' Hy' Hz' C. apply addr_inj in C as [-> [-> ->]]; try lia.
Qed.

Lemma keep : forall endX f g (new : Z -> T) , stores_grid oy oz dx dy dz new g ->
  stores_grid oy oz dx dy dz new (sweep endX dy dz (fun _ => fun x y z => new (addr x y z)) (sweep endX dy dz f g)).
Proof.
  intros endX f g new H x y z Hx Hy Hz. unfold sweep. destruct (_ && _) eqn:B; [reflexivity|]. apply H; auto.
Qed.

Lemma again_sweeps : forall step endX f n old new g, sweeps step endX f -> endX <= dx ->
  stores_grid oy oz dx dy dz old g -> stores_grid oy oz dx dy dz new g ->
  exists new', again (S n) size step old new = Some (old, new') /\ stores_grid oy oz dx dy dz new' (sweep endX dy dz f g).
Proof.
  intros step endX f n old new g HS HE Ho Hn.
  assert (P : forall n new, stores_grid oy oz dx dy dz new (sweep endX dy dz (fun _ => fun x y z => new (addr x y z)) g) ->
    exists new', again (S n) size step old new = Some (old, new') /\ stores_grid oy oz dx dy dz new' (sweep endX dy dz f g)).
  { clear n new Hn. intros n. induction n as [|n IH]; intros new Hn;
      destruct (sweep_holds step endX f old new g HS HE Ho Hn) as [new' [E H]];
      cbn [again]; rewrite E.
    - exists new'. auto.
    - apply IH. intros x y z Hx Hy Hz. pose proof (H x y z Hx Hy Hz) as N. unfold sweep in N |- *.
      destruct (_ && _); [reflexivity|exact N]. }
  apply P. intros x y z Hx Hy Hz. unfold sweep. destruct (_ && _); [reflexivity|]. auto.
Qed.

Lemma swapping_sweeps : forall step endX f n old new g, sweeps step endX f -> endX <= dx ->
  stores_grid oy oz dx dy dz old g -> stores_grid oy oz dx dy dz new g ->
  exists old' new', swapping n size step old new = Some (old', new') /\
    stores_grid oy oz dx dy dz old' (iterate n (sweep endX dy dz f) g).
Proof.
  intros step endX f n old new g HS HE Ho Hn.
  assert (P : forall n old new g, stores_grid oy oz dx dy dz old g ->
    stores_grid oy oz dx dy dz new (sweep endX dy dz (fun _ => fun x y z => new (addr x y z)) g) ->
    exists old' new', swapping n size step old new = Some (old', new') /\
      stores_grid oy oz dx dy dz old' (iterate n (sweep endX dy dz f) g)).
  { clear n old new g Ho Hn. intros n. induction n as [|n IH]; intros old new g Ho Hn.
    - exists old, new. auto.
    - destruct (sweep_holds step endX f old new g HS HE Ho Hn) as [new' [E H]]. cbn [swapping iterate]. rewrite E.
      apply IH; [exact H|]. apply keep. exact Ho. }
  apply P; [exact Ho|]. intros x y z Hx Hy Hz. unfold sweep. destruct (_ && _); [reflexivity|]. auto.
Qed.

(** ** The cells *)
Section Cells.
Context (old : Z -> T) (g : Z -> Z -> Z -> T).
Hypothesis Hg : stores_grid oy oz dx dy dz old g.

Lemma at_ok : forall i x y z, i = x + y * oy + z * oz -> 0 <= x < dx -> 0 <= y < dy -> 0 <= z < dz -> at_ size old i = Some (g x y z).
Proof. intros i x y z -> Hx Hy Hz. apply at_grid; auto. Qed.

Ltac look x' y' z' i := rewrite (at_ok i x' y' z') by lia.

Lemma seven_T : forall x y z, 1 <= x < dx - 1 -> 1 <= y < dy - 1 -> 1 <= z < dz - 1 ->
  seven K size old oy oz (WEIGHT_T K) (x + y * oy + z * oz) = Some (filter7 K g x y z).
Proof.
  intros x y z Hx Hy Hz. unfold seven.
  rewrite (at_ok _ x y (z - 1)), (at_ok _ x (y - 1) z), (at_ok _ (x - 1) y z), (at_ok _ x y z), (at_ok _ (x + 1) y z), (at_ok _ x (y + 1) z), (at_ok _ x y (z + 1)) by lia.
  reflexivity.
Qed.

Lemma seven_N : forall x y z, 1 <= x < dx - 1 -> 1 <= y < dy - 1 -> 1 <= z < dz - 1 ->
  seven K size old oy oz (WEIGHT_N K) (x + y * oy + z * oz) = Some (filter_top K g x y z).
Proof.
  intros x y z Hx Hy Hz. unfold seven.
  rewrite (at_ok _ x y (z - 1)), (at_ok _ x (y - 1) z), (at_ok _ (x - 1) y z), (at_ok _ x y z), (at_ok _ (x + 1) y z), (at_ok _ x (y + 1) z), (at_ok _ x y (z + 1)) by lia.
  reflexivity.
Qed.

Lemma aligned_pos : forall base k, base mod 16 = 0 -> aligned (base + 8 * (2 * k)) = true.
Proof. intros base k H. unfold aligned. replace (base + 8 * (2 * k)) with (base + k * 16) by lia. rewrite Z.mod_add, H by lia. reflexivity. Qed.

Lemma pair_ok : forall base i p e x y z, base mod 16 = 0 -> Z.even oy = true -> Z.even oz = true -> Z.even i = true ->
  Z.even p = true -> i + p + e = x + y * oy + z * oz -> 1 <= x < dx - 1 -> 1 <= y < dy - 1 -> 1 <= z < dz - 1 ->
  pair K base size old oy oz i p e = Some (filter6' K g x y z).
Proof.
  intros base i p e x y z Hb Ey Ez Ei Ep E Hx Hy Hz.
  apply Z.even_spec in Ey as [ky Ky]. apply Z.even_spec in Ez as [kz Kz].
  apply Z.even_spec in Ei as [ki Ki]. apply Z.even_spec in Ep as [kp Kp].
  unfold pair, load_pd, loadu_pd. cbv zeta.
  replace (aligned (base + 8 * (i - 1 * oz + p))) with true
    by (replace (i - 1 * oz + p) with (2 * (ki - kz + kp)) by lia; now rewrite aligned_pos).
  replace (aligned (base + 8 * (i - 1 * oy + p))) with true
    by (replace (i - 1 * oy + p) with (2 * (ki - ky + kp)) by lia; now rewrite aligned_pos).
  replace (aligned (base + 8 * (i + 1 * oz + p))) with true
    by (replace (i + 1 * oz + p) with (2 * (ki + kz + kp)) by lia; now rewrite aligned_pos).
  replace (aligned (base + 8 * (i + 1 * oy + p))) with true
    by (replace (i + 1 * oy + p) with (2 * (ki + ky + kp)) by lia; now rewrite aligned_pos).
  rewrite (at_ok _ x (y - 1) z), (at_ok _ x y (z - 1)), (at_ok _ (x - 1) y z), (at_ok _ (x + 1) y z), (at_ok _ x (y + 1) z), (at_ok _ x y (z + 1)) by lia.
  reflexivity.
Qed.

Lemma eight_ok : forall base base' x y z, base mod 16 = 0 -> base' mod 16 = 0 -> Z.even oy = true -> Z.even oz = true ->
  Z.even x = true -> 1 <= x -> x + 8 <= dx - 1 -> 1 <= y < dy - 1 -> 1 <= z < dz - 1 ->
  eight K base size old oy oz base' (x + (y * oy + z * oz)) =
  map (fun x => (addr x y z, Some (filter6' K g x y z))) (range x (x + 8)).
Proof.
  intros base base' x y z Hb Hb' Ey Ez Ex H1 H2 Hy Hz.
  assert (Ei : Z.even (x + (y * oy + z * oz)) = true)
    by (rewrite !Z.even_add, !Z.even_mul, Ex, Ey, Ez, !orb_true_r; reflexivity).
  assert (Al : forall p, Z.even p = true -> aligned (base' + 8 * (x + (y * oy + z * oz) + p)) = true).
  { intros p Ep. apply Z.even_spec in Ei as [ki Ki]. apply Z.even_spec in Ep as [kp Kp].
    replace (x + (y * oy + z * oz) + p) with (2 * (ki + kp)) by lia. now apply aligned_pos. }
  replace (range x (x + 8)) with [x + 0 + 0; x + 0 + 1; x + 2 + 0; x + 2 + 1; x + 4 + 0; x + 4 + 1; x + 6 + 0; x + 6 + 1]
    by (unfold range; replace (x + 8 - x) with 8 by lia; change (zseq 8) with [0; 1; 2; 3; 4; 5; 6; 7]; cbn [map]; repeat (apply f_equal2; [lia|]); reflexivity).
  unfold eight. cbn [flat_map map app].
  assert (Pr : forall p e, Z.even p = true -> 0 <= e -> 0 <= p + e < 8 ->
    (8 * (x + (y * oy + z * oz) + p + e),
     if aligned (base' + 8 * (x + (y * oy + z * oz) + p)) then pair K base size old oy oz (x + (y * oy + z * oz)) p e else None) =
    (addr (x + p + e) y z, Some (filter6' K g (x + p + e) y z))).
  { intros p e Ep He Hpe. rewrite Al by exact Ep. rewrite (pair_ok base _ p e (x + p + e) y z); auto; try lia.
    f_equal. lia. }
  rewrite !Pr by (reflexivity || lia). reflexivity.
Qed.

Lemma eights_ok : forall base base' y z F fuel x stop,
  (forall x', x <= x' < stop -> (x' - x) mod 8 = 0 ->
     eight K base size old oy oz base' (x' + (y * oy + z * oz)) = map F (range x' (x' + 8))) ->
  stop - x <= Z.of_nat fuel ->
  let n := Z.max 0 ((stop - x + 7) / 8) in
  eights K base size old oy oz fuel base' (x + (y * oy + z * oz)) (stop + (y * oy + z * oz)) =
  (map F (range x (x + 8 * n)), x + 8 * n + (y * oy + z * oz)).
Proof.
  intros base base' y z F fuel. induction fuel as [|fuel IH]; intros x stop HF Hf n.
  - assert (n = 0) as -> by (subst n; Z.to_euclidean_division_equations; lia).
    cbn [eights]. rewrite range_empty by lia. cbn [map]. f_equal. lia.
  - cbn [eights]. destruct (Z.ltb_spec (x + (y * oy + z * oz)) (stop + (y * oy + z * oz))) as [H|H].
    + replace (x + (y * oy + z * oz) + 8) with (x + 8 + (y * oy + z * oz)) by lia.
      rewrite IH; [|intros x' Hx' Hm; apply HF; [lia|replace (x' - x) with (x' - (x + 8) + 1 * 8) by lia; rewrite Z.mod_add; lia]|lia].
      set (n' := Z.max 0 _). assert (En : n = 1 + n').
      { subst n n'. replace (stop - x + 7) with (stop - (x + 8) + 7 + 1 * 8) by lia. rewrite Z.div_add by lia.
        Z.to_euclidean_division_equations; lia. }
      assert (0 <= n') by lia.
      rewrite HF by (try lia; rewrite Z.sub_diag; reflexivity).
      rewrite (range_split x (x + 8) (x + 8 * n)) by lia. rewrite map_app.
      replace (x + 8 + 8 * n') with (x + 8 * n) by lia. reflexivity.
    + assert (n = 0) as -> by (subst n; Z.to_euclidean_division_equations; lia).
      rewrite range_empty by lia. cbn [map]. f_equal. lia.
Qed.

Lemma scalar_line : forall t f a b y z, 1 <= a -> b <= dx - 1 -> 1 <= y < dy - 1 -> 1 <= z < dz - 1 ->
  (forall x, 1 <= x < dx - 1 -> seven K size old oy oz t (x + y * oy + z * oz) = Some (f x)) ->
  map (fun i => (8 * i, seven K size old oy oz t i)) (range (a + (y * oy + z * oz)) (b + (y * oy + z * oz))) =
  map (fun x => (addr x y z, Some (f x))) (range a b).
Proof.
  intros t f a b y z Ha Hb Hy Hz H. rewrite range_shift, map_map. apply map_ext_in. intros x Hx. apply in_range in Hx.
  replace (x + (y * oy + z * oz)) with (x + y * oy + z * oz) by lia. rewrite H by lia. reflexivity.
Qed.
End Cells.

(** ** The species *)
Lemma vanilla_sweeps : 
  sweeps (fun old => lines dy dz (fun y z => vanilla_line K size old oy oz 1 (dx - 1) y z)) (dx - 1) (filter7 K).
Proof.
  apply (lines_sweep (fun old y z => vanilla_line K size old oy oz 1 (dx - 1) y z)); [lia|].
  intros old g y z Hg Hy Hz. unfold vanilla_line. apply map_ext_in. intros x Hx. apply in_range in Hx.
  rewrite (seven_T old g) by (auto; lia). reflexivity.
Qed.

Lemma map_choice : forall (f h : Z -> T) (b : Z -> bool) (ad : Z -> Z) lo hi,
  (forall x, lo <= x < hi -> (if b x then f x else h x) = (if b lo then f x else h x)) ->
  map (fun x => (ad x, Some (if b x then f x else h x))) (range lo hi) =
  map (fun x => (ad x, Some (if b lo then f x else h x))) (range lo hi).
Proof. intros f h b ad lo hi H. apply map_ext_in. intros x Hx. apply in_range in Hx. now rewrite H. Qed.

Lemma blocked_line : forall old g base base' y z f, stores_grid oy oz dx dy dz old g ->
  base mod 16 = 0 -> base' mod 16 = 0 -> Z.even oy = true -> Z.even oz = true -> 3 <= dx ->
  1 <= y < dy - 1 -> 1 <= z < dz - 1 ->
  (forall x, f x = if in_blocks dx x then filter6' K g x y z else f x) ->
  eights K base size old oy oz (Z.to_nat (dx - 1 - 2)) base' (2 + (y * oy + z * oz)) (dx - 1 - 7 + (y * oy + z * oz)) =
  (map (fun x => (addr x y z, Some (f x))) (range 2 (2 + 8 * ((dx - 3) / 8))), 2 + 8 * ((dx - 3) / 8) + (y * oy + z * oz)).
Proof.
  intros old g base base' y z f Hg Hb Hb' Ey Ez H3 Hy Hz Hf.
  rewrite (eights_ok old base base' y z (fun x => (addr x y z, Some (filter6' K g x y z)))).
  - replace (Z.max 0 ((dx - 1 - 7 - 2 + 7) / 8)) with ((dx - 3) / 8) by (replace (dx - 1 - 7 - 2 + 7) with (dx - 3) by lia; Z.to_euclidean_division_equations; lia).
    f_equal. apply map_ext_in. intros x Hx. apply in_range in Hx. rewrite Hf. unfold in_blocks.
    replace (_ && _) with true by lia. reflexivity.
  - intros x' Hx' Hm. apply eight_ok; auto; try lia.
    apply Z.mod_divide in Hm; [|lia]. destruct Hm as [k Hk]. replace x' with (2 + 2 * (4 * k)) by lia.
    rewrite Z.even_add, Z.even_mul. reflexivity.
  - lia.
Qed.

Lemma pepper_line_ok : forall old g base base' y z, stores_grid oy oz dx dy dz old g ->
  base mod 16 = 0 -> base' mod 16 = 0 -> Z.even oy = true -> Z.even oz = true -> 3 <= dx ->
  1 <= y < dy - 1 -> 1 <= z < dz - 1 ->
  pepper_line K base size old oy oz base' 1 (dx - 1) y z =
  map (fun x => (addr x y z, Some (pepper_cell K dx g x y z))) (range 1 (dx - 1)).
Proof.
  intros old g base base' y z Hg Hb Hb' Ey Ez H3 Hy Hz. unfold pepper_line. cbv zeta.
  change (1 mod 2 =? 0) with false. cbv iota. change (1 + 1) with 2.
  rewrite (blocked_line old g base base' y z (fun x => pepper_cell K dx g x y z)); auto.
  2: { intros x. unfold pepper_cell. now destruct (in_blocks dx x). }
  assert (B : 0 <= 8 * ((dx - 3) / 8) <= dx - 3) by (Z.to_euclidean_division_equations; lia).
  rewrite (range_split 1 2 (dx - 1)), (range_split 2 (2 + 8 * ((dx - 3) / 8)) (dx - 1)) by lia.
  rewrite !map_app. f_equal; [|f_equal].
  - change 2 with (1 + 1). rewrite range_one. cbn [map]. replace (1 + (y * oy + z * oz)) with (1 + y * oy + z * oz) by lia.
    rewrite (seven_N old g) by (auto; lia). unfold pepper_cell, in_blocks. reflexivity.
  - rewrite (scalar_line old (WEIGHT_N K) (fun x => filter_top K g x y z)); try lia.
    + apply map_ext_in. intros x Hx. apply in_range in Hx. unfold pepper_cell, in_blocks.
      replace ((2 <=? x) && (x <? 2 + 8 * ((dx - 3) / 8))) with false by lia. reflexivity.
    + intros x Hx. apply seven_N; auto.
Qed.

Lemma pepper_sweeps : forall base base', base mod 16 = 0 -> base' mod 16 = 0 -> Z.even oy = true -> Z.even oz = true -> 3 <= dx ->
  sweeps (fun old => lines dy dz (fun y z => pepper_line K base size old oy oz base' 1 (dx - 1) y z)) (dx - 1) (pepper_cell K dx).
Proof.
  intros base base' Hb Hb' Ey Ez H3.
  apply (lines_sweep (fun old y z => pepper_line K base size old oy oz base' 1 (dx - 1) y z)); [lia|].
  intros. apply pepper_line_ok; auto.
Qed.

Definition silver_end : Z := if (dx - 3) mod 8 =? 0 then dx - 1 else dx - 2.

Lemma silver_line_ok : forall old g base base' y z, stores_grid oy oz dx dy dz old g ->
  base mod 16 = 0 -> base' mod 16 = 0 -> Z.even oy = true -> Z.even oz = true -> 3 <= dx ->
  1 <= y < dy - 1 -> 1 <= z < dz - 1 ->
  silver_line K base size old oy oz base' (1 + (y * oy + z * oz)) (dx - 1 + (y * oy + z * oz)) =
  map (fun x => (addr x y z, Some (silver_cell K dx g x y z))) (range 1 silver_end).
Proof.
  intros old g base base' y z Hg Hb Hb' Ey Ez H3 Hy Hz. unfold silver_line. cbv zeta.
  replace (1 + (y * oy + z * oz) + 1) with (2 + (y * oy + z * oz)) by lia.
  replace (dx - 1 + (y * oy + z * oz) - 7) with (dx - 1 - 7 + (y * oy + z * oz)) by lia.
  assert (Ef : eights K base size old oy oz (Z.to_nat (dx - 1 + (y * oy + z * oz) - (1 + (y * oy + z * oz)))) base'
     (2 + (y * oy + z * oz)) (dx - 1 - 7 + (y * oy + z * oz)) =
     (map (fun x => (addr x y z, Some (silver_cell K dx g x y z))) (range 2 (2 + 8 * ((dx - 3) / 8))), 2 + 8 * ((dx - 3) / 8) + (y * oy + z * oz))).
  { rewrite (eights_ok old base base' y z (fun x => (addr x y z, Some (filter6' K g x y z)))).
    - replace (Z.max 0 ((dx - 1 - 7 - 2 + 7) / 8)) with ((dx - 3) / 8) by (replace (dx - 1 - 7 - 2 + 7) with (dx - 3) by lia; Z.to_euclidean_division_equations; lia).
      f_equal. apply map_ext_in. intros x Hx. apply in_range in Hx. unfold silver_cell, in_blocks.
      replace (_ && _) with true by lia. reflexivity.
    - intros x' Hx' Hm. apply eight_ok; auto; try lia.
      apply Z.mod_divide in Hm; [|lia]. destruct Hm as [k Hk]. replace x' with (2 + 2 * (4 * k)) by lia.
      rewrite Z.even_add, Z.even_mul. reflexivity.
    - lia. }
  rewrite Ef. clear Ef.
  assert (B : 0 <= 8 * ((dx - 3) / 8) <= dx - 3) by (Z.to_euclidean_division_equations; lia).
  assert (S : 2 + 8 * ((dx - 3) / 8) <= silver_end /\ (silver_end = dx - 2 \/ silver_end = dx - 1 /\ 2 + 8 * ((dx - 3) / 8) = dx - 1)).
  { unfold silver_end. destruct (Z.eqb_spec ((dx - 3) mod 8) 0); Z.to_euclidean_division_equations; lia. }
  rewrite (range_split 1 2 silver_end), (range_split 2 (2 + 8 * ((dx - 3) / 8)) silver_end) by lia.
  rewrite !map_app. f_equal; [|f_equal].
  - change 2 with (1 + 1). rewrite range_one. cbn [map]. replace (1 + (y * oy + z * oz)) with (1 + y * oy + z * oz) by lia.
    rewrite (seven_T old g) by (auto; lia). unfold silver_cell, in_blocks. reflexivity.
  - replace (dx - 1 + (y * oy + z * oz) - 1) with (dx - 2 + (y * oy + z * oz)) by lia.
    rewrite (scalar_line old (WEIGHT_T K) (fun x => filter7 K g x y z)); try lia.
    + destruct S as [_ [-> | [-> Eq]]].
      * apply map_ext_in. intros x Hx. apply in_range in Hx. unfold silver_cell, in_blocks.
        replace ((2 <=? x) && (x <? 2 + 8 * ((dx - 3) / 8))) with false by lia. reflexivity.
      * rewrite !range_empty by lia. reflexivity.
    + intros x Hx. apply seven_T; auto.
Qed.

(** ** Gold *)
Section Gold.
Context (old : Z -> T) (g : Z -> Z -> Z -> T).
Hypothesis Hg : stores_grid oy oz dx dy dz old g.

Lemma gold_lanes_ok : forall A x y z, 0 <= A -> 1 <= x -> x + A <= dx - 1 -> 1 <= y < dy - 1 -> 1 <= z < dz - 1 ->
  gold_lanes K size old oy oz A (x + (y * oy + z * oz)) =
  map (fun x => (addr x y z, Some (filter6 K g x y z))) (range x (x + A)).
Proof.
  intros A x y z HA Hx HxA Hy Hz. unfold gold_lanes, range. replace (x + A - x) with A by lia. rewrite map_map.
  apply map_ext_in. intros e He. apply in_zseq in He.
  rewrite (at_ok old g Hg _ (x + e) y (z - 1)), (at_ok old g Hg _ (x + e) (y - 1) z), (at_ok old g Hg _ (x + e - 1) y z),
    (at_ok old g Hg _ (x + e + 1) y z), (at_ok old g Hg _ (x + e) (y + 1) z), (at_ok old g Hg _ (x + e) y (z + 1)) by lia.
  f_equal. lia.
Qed.

Lemma gold_loop_ok : forall A y z fuel x stop, 1 <= A -> 1 <= x -> x <= stop -> (A | stop - x) -> stop <= dx - 1 ->
  1 <= y < dy - 1 -> 1 <= z < dz - 1 -> stop - x <= Z.of_nat fuel ->
  gold_loop K size old oy oz fuel A (y * oy + z * oz) x stop =
  (map (fun x => (addr x y z, Some (filter6 K g x y z))) (range x stop), stop).
Proof.
  intros A y z fuel. induction fuel as [|fuel IH]; intros x stop HA Hx Hs [k Hk] Hd Hy Hz Hf.
  - assert (stop = x) as -> by lia. rewrite range_empty by lia. reflexivity.
  - cbn [gold_loop]. destruct (Z.ltb_spec x stop) as [H|H].
    + assert (0 < k) by (apply (Zmult_lt_0_reg_r A); lia).
      assert (A <= stop - x) by (rewrite Hk; nia).
      rewrite IH; auto; try lia. 2: { exists (k - 1). lia. }
      rewrite gold_lanes_ok by lia. rewrite (range_split x (x + A) stop) by lia. rewrite map_app. reflexivity.
    + assert (stop = x) as -> by lia. rewrite range_empty by lia. reflexivity.
Qed.

Lemma gold_line_ok : forall A y z, 1 <= A <= dx - 1 -> 1 <= y < dy - 1 -> 1 <= z < dz - 1 ->
  gold_line K size old oy oz A dx y z = map (fun x => (addr x y z, Some (filter6 K g x y z))) (range 1 (dx - 1)).
Proof.
  intros A y z HA Hy Hz. unfold gold_line. cbv zeta.
  set (next := if 1 mod A =? 0 then 1 else 1 + A - 1 mod A).
  set (last := dx - 1 - (dx - 1) mod A).
  assert (N : next = A).
  { unfold next. destruct (Z.eq_dec A 1) as [->|]; [reflexivity|]. rewrite Z.mod_1_l by lia. change (1 =? 0) with false. cbv iota. lia. }
  assert (L : (A | last - A) /\ A <= last <= dx - 1).
  { unfold last. pose proof (Z.div_mod (dx - 1) A ltac:(lia)) as D. pose proof (Z.mod_pos_bound (dx - 1) A ltac:(lia)).
    assert (1 <= (dx - 1) / A) by (apply Z.div_le_lower_bound; lia).
    split; [exists ((dx - 1) / A - 1); lia|nia]. }
  rewrite N. clearbody last. destruct L as [L1 L2].
  rewrite gold_loop_ok by (try lia; apply Z.divide_1_l).
  rewrite gold_loop_ok by (auto; lia).
  rewrite gold_loop_ok by (try lia; apply Z.divide_1_l).
  rewrite <- !map_app, <- range_split by lia. rewrite <- range_split by lia. reflexivity.
Qed.
End Gold.

Lemma bronze_line_ok : forall old g y z, stores_grid oy oz dx dy dz old g -> 1 <= y < dy - 1 -> 1 <= z < dz - 1 ->
  bronze_line K size old oy oz (1 + (y * oy + z * oz)) (dx - 1 + (y * oy + z * oz)) =
  map (fun x => (addr x y z, Some (filter7 K g x y z))) (range 1 (dx - 1)).
Proof.
  intros old g y z Hg Hy Hz. unfold bronze_line.
  apply (scalar_line old (WEIGHT_T K) (fun x => filter7 K g x y z)); try lia.
  intros x Hx. apply seven_T; auto.
Qed.
End Grid.
End Memory.
