(** Copying, packed load/save, and the simulation of whole histories. *)
From Coq Require Import ZArith List Lia Bool.
From Verif Require Import Base Layout LayoutProofs Sizes SizesProofs Mem MemProofs
  Accessor AccessorProofs RegionProofs Grid SpecGrid GridProofs GridInv BufferProofs.
Import ListNotations.
Open Scope Z_scope.

(** *** copy_in *)
Lemma copy_in_ok : forall ct m g e cells o cells',
  wf_ct ct -> mem_ok m -> galloc ct m g e cells -> galloc ct m o e cells' ->
  g_x g = g_x o -> g_y g = g_y o -> g_z g = g_z o -> (blk o <> blk g \/ o = g) ->
  exists m', copy_in ct (m, g) o = Ret (m', g) tt /\ same_other m m' (blk g) /\ galloc ct m' g e cells'.
Proof.
  intros ct m g e cells o cells' [Hw Hd] M G O Hx Hy Hz Hb.
  pose proof (galloc_fits _ _ _ _ _ G) as F.
  assert (Hdual : forall (f : ptr -> accessor -> ptr -> accessor -> outcome gst unit),
    dual_callback ct (m, g) o g f = f (g_data o) (mkAcc e 0 0) (g_data g) (mkAcc e 0 0)).
  { intros f. unfold dual_callback. destruct (ct_asym ct).
    - rewrite (callback_ok _ _ _ _ _ _ e) by (destruct O; auto). rewrite (callback_ok _ _ _ _ _ _ e) by (destruct G; auto). reflexivity.
    - rewrite Hx, Hy, Hz, !Z.eqb_refl. simpl. rewrite (callback_ok _ _ _ _ _ _ e) by (destruct O; auto). reflexivity. }
  unfold copy_in. rewrite Hdual. clear Hdual.
  rewrite copy_functor_canon by reflexivity. cbn [a_ext].
  destruct G as [X Y Zz C B S R], O as [X' Y' Z' C' B' S' R'].
  destruct (region_copy_rows (ct_ms ct) m (g_data g) (DIM_PROD e) (ci_of e (g_x g) (g_y g) (g_z g) cells)
      (g_data o) (DIM_PROD e) (ci_of e (g_x o) (g_y o) (g_z o) cells') (copy_rows e (g_x g) (g_y g) (g_z g))) as [m' [E [SO RR]]]; auto.
  { rewrite copy_row_pairs. destruct Hb as [Hb| ->]; [left; auto|right]. repeat split; auto.
    intros i j H. apply in_map_iff in H. destruct H as [k [Ek _]]. congruence. }
  { rewrite copy_row_pairs, map_map. simpl. rewrite map_id. apply NoDup_all_idx; auto. }
  { intros i j H. rewrite copy_row_pairs in H. apply in_map_iff in H. destruct H as [k [Ek H]]. inversion Ek; subst.
    apply in_all_idx in H. destruct H as [x [y [z [I ->]]]]. rewrite <- Hx, <- Hy, <- Hz. rewrite !ci_of_gen by auto. split; discriminate. }
  rewrite E. simpl. exists m'. split; auto. split; auto. constructor; auto.
  eapply region_ext; [|exact RR]. rewrite copy_row_pairs, map_map. simpl. intros i. rewrite <- Hx, <- Hy, <- Hz.
  destruct (in_dec Z.eq_dec i (all_idx e (g_x g) (g_y g) (g_z g))) as [Hi|Hi].
  - apply upd_in.
    + rewrite map_map. simpl. rewrite map_id. apply NoDup_all_idx; auto.
    + apply in_map_iff. exists i; auto.
  - rewrite upd_notin by (rewrite map_map; simpl; rewrite map_id; auto).
    assert (N : forall cs, ci_of e (g_x g) (g_y g) (g_z g) cs i = None).
    { intros cs. destruct (ci_of e (g_x g) (g_y g) (g_z g) cs i) eqn:Ei; auto.
      destruct (ci_of_inv _ _ _ _ _ _ _ F Ei) as [x [y [z [I [-> _]]]]]. exfalso. apply Hi. apply in_all_idx. eauto 6. }
    rewrite !N. reflexivity.
Qed.

Lemma copy_functor_empty : forall ms d1 a1 d2 a2 dx dy, copy_functor ms d1 a1 d2 a2 dx dy 0 = [].
Proof. reflexivity. Qed.

Lemma copy_in_empty : forall ct m g o e,
  g_x g = 0 -> g_y g = 0 -> g_z g = 0 -> g_x o = 0 -> g_y o = 0 -> g_z o = 0 ->
  choose (ct_sizes ct) 0 0 0 = inr e -> copy_in ct (m, g) o = Ret (m, g) tt.
Proof.
  intros ct m g o e X Y Zz X' Y' Z' C. unfold copy_in, dual_callback. destruct (ct_asym ct).
  - rewrite (callback_ok _ _ _ _ _ _ e) by (rewrite X', Y', Z'; auto). rewrite (callback_ok _ _ _ _ _ _ e) by (rewrite X, Y, Zz; auto).
    rewrite X, Y, Zz, copy_functor_empty. reflexivity.
  - rewrite X, Y, Zz, X', Y', Z'. simpl. rewrite (callback_ok _ _ _ _ _ _ e) by (rewrite X', Y', Z'; auto). reflexivity.
Qed.

(** *** Packed load/save *)
Fixpoint rows_of (e : extent) (off : Z) (l : list streak) : list (Z * Z * Z) :=
  match l with
  | [] => []
  | (x, y, z, n) :: r => (gen_index e x y z, off, n) :: rows_of e (off + n) r
  end.

Definition flip (r : Z * Z * Z) : Z * Z * Z := (snd (fst r), fst (fst r), snd r).

Lemma load_functor_canon : forall ms d e q count l off,
  load_functor ms d (mkAcc e 0 0) q count off l =
  map (copy_key_op d (DIM_PROD e) q count) (row_keys ms (rows_of e off l)).
Proof.
  induction l as [|[[[x y] z] n] l IH]; intros off; auto. cbn [load_functor rows_of].
  rewrite IH, load_canon, slot_copy_ops_keys. rewrite <- map_app, <- row_keys_app.
  unfold idx. simpl. rewrite Z.add_0_r. reflexivity.
Qed.

Lemma save_functor_canon : forall ms d e q count l off,
  save_functor ms d (mkAcc e 0 0) q count off l =
  map (copy_key_op q count d (DIM_PROD e)) (row_keys ms (map flip (rows_of e off l))).
Proof.
  induction l as [|[[[x y] z] n] l IH]; intros off; auto. cbn [save_functor rows_of map].
  rewrite IH, save_canon, slot_copy_ops_keys. rewrite <- map_app, <- row_keys_app.
  unfold idx. simpl. rewrite Z.add_0_r. reflexivity.
Qed.

Definition gi (e : extent) (c : Z * Z * Z) : Z := let '(x, y, z) := c in gen_index e x y z.
Definition offs (off : Z) (n : nat) : list Z := map (fun k => off + Z.of_nat k) (seq 0 n).

Lemma offs_app : forall off a b, offs off (a + b) = offs off a ++ offs (off + Z.of_nat a) b.
Proof.
  intros off a b. unfold offs. rewrite seq_app, map_app. f_equal. simpl.
  assert (G : forall s, map (fun k => off + Z.of_nat k) (seq (a + s) b) = map (fun k => off + Z.of_nat a + Z.of_nat k) (seq s b)).
  { induction b as [|b IH]; intros s; simpl; auto. f_equal; [lia|]. rewrite <- IH. f_equal. f_equal. lia. }
  rewrite <- (G 0%nat). rewrite Nat.add_0_r. reflexivity.
Qed.

Lemma length_offs : forall off n, length (offs off n) = n.
Proof. intros. unfold offs. rewrite map_length, seq_length. reflexivity. Qed.

Lemma in_offs : forall off n i, In i (offs off n) <-> off <= i < off + Z.of_nat n.
Proof.
  intros. unfold offs. rewrite in_map_iff. split.
  - intros [k [<- H]]. apply in_seq in H. lia.
  - intros H. exists (Z.to_nat (i - off)). split; [lia|]. apply in_seq. lia.
Qed.

Lemma NoDup_offs : forall off n, NoDup (offs off n).
Proof. intros. unfold offs. apply NoDup_map_inj; [|apply seq_NoDup]. intros a b _ _ E. lia. Qed.

Lemma row_pairs_rows : forall e l off,
  Forall (fun '(x, y, z, n) => 0 <= n) l ->
  row_pairs (rows_of e off l) = combine (map (gi e) (streak_coords l)) (offs off (length (streak_coords l))).
Proof.
  intros e l. induction l as [|[[[x y] z] n] l IH]; intros off H; auto. inversion H as [|? ? H1 H2]; subst.
  cbn [rows_of streak_coords flat_map]. fold (streak_coords l).
  unfold row_pairs. cbn [flat_map fst snd]. fold (row_pairs (rows_of e (off + n) l)). rewrite IH by auto.
  rewrite app_length, map_length, length_zseq, map_app, offs_app, combine_app_eq.
  - rewrite Z2Nat.id by auto. f_equal. rewrite map_map. unfold offs, zseq. rewrite !map_map.
    induction (seq 0 (Z.to_nat n)) as [|k ks IHk]; simpl; auto. rewrite IHk. f_equal. f_equal. rewrite gen_index_row. reflexivity.
  - rewrite map_length, map_length, length_zseq, length_offs. reflexivity.
Qed.

Lemma row_pairs_flip : forall rows, row_pairs (map flip rows) = map (fun e => (snd e, fst e)) (row_pairs rows).
Proof.
  unfold row_pairs. induction rows as [|[[a b] n] rows IH]; simpl; auto. rewrite IH, map_app, map_map. reflexivity.
Qed.

Lemma combine_fst : forall (A B : Type) (l : list A) (r : list B), length l = length r -> map fst (combine l r) = l.
Proof. intros A B l. induction l as [|a l IH]; intros [|b r] H; simpl in *; auto; try discriminate. f_equal. auto. Qed.
Lemma combine_snd : forall (A B : Type) (l : list A) (r : list B), length l = length r -> map snd (combine l r) = r.
Proof. intros A B l. induction l as [|a l IH]; intros [|b r] H; simpl in *; auto; try discriminate. f_equal. auto. Qed.

Lemma map_fst_pair : forall (A B C : Type) (f : B -> C) (l : list (A * B)), map fst (map (fun e => (fst e, f (snd e))) l) = map fst l.
Proof. intros. rewrite map_map. reflexivity. Qed.

Lemma streak_in : forall A l x y z,
  Forall (fun '(x, y, z, n) => row_in A x y z n) l -> In (x, y, z) (streak_coords l) -> in_box A x y z.
Proof.
  intros A l x y z H Hin. unfold streak_coords in Hin. apply in_flat_map in Hin. destruct Hin as [[[[x0 y0] z0] n] [H1 H2]].
  rewrite Forall_forall in H. specialize (H _ H1). simpl in H. apply in_map_iff in H2. destruct H2 as [i [E Hi]].
  inversion E; subst. apply in_zseq in Hi. apply H; auto.
Qed.

Lemma cupd_find : forall cells l x y z,
  cupd cells l x y z =
  match find (fun '(x', y', z', _) => (x =? x') && (y =? y') && (z =? z')) l with
  | Some (_, _, _, c) => c | None => cells x y z end.
Proof.
  intros cells l x y z. induction l as [|[[[x' y'] z'] c] l IH]; simpl; auto. destruct (_ && _); auto.
Qed.

Lemma load_ok : forall ct m g e cells q cs l,
  wf_ct ct -> mem_ok m -> galloc ct m g e cells ->
  region (ct_ms ct) m q (Z.of_nat (length cs)) (ci_list cs) -> pb q <> blk g ->
  (forall x y z, In (x, y, z) (streak_coords l) -> in_dims (g_x g) (g_y g) (g_z g) x y z) ->
  Forall (fun '(x, y, z, n) => 0 <= n) l ->
  NoDup (streak_coords l) -> (length (streak_coords l) <= length cs)%nat ->
  exists m', g_load_streaks ct (m, g) l q (Z.of_nat (length cs)) = Ret (m', g) tt /\
    same_other m m' (blk g) /\ galloc ct m' g e (cupd cells (combine (streak_coords l) cs)).
Proof.
  intros ct m g e cells q cs l [Hw Hd] M G RQ Hq Hin Hn0 Hnd Hlen. unfold g_load_streaks.
  pose proof (galloc_fits _ _ _ _ _ G) as F. destruct G as [X Y Zz C B S R].
  rewrite (callback_ok _ _ _ _ _ _ e C). rewrite load_functor_canon.
  set (co := streak_coords l) in *.
  assert (Hprs : row_pairs (rows_of e 0 l) = combine (map (gi e) co) (offs 0 (length co))) by (apply row_pairs_rows; auto).
  assert (Hf : map fst (combine (map (gi e) co) (offs 0 (length co))) = map (gi e) co).
  { apply combine_fst. rewrite map_length, length_offs. reflexivity. }
  destruct (region_copy_rows (ct_ms ct) m (g_data g) (DIM_PROD e) (ci_of e (g_x g) (g_y g) (g_z g) cells)
     q (Z.of_nat (length cs)) (ci_list cs) (rows_of e 0 l)) as [m' [E [SO R']]]; auto.
  { rewrite Hprs, Hf. apply NoDup_map_inj; auto. intros [[x y] z] [[x' y'] z'] H1 H2 E. simpl in E.
    apply Hin in H1, H2. destruct F as [F1 [F2 F3]], H1 as [A1 [A2 A3]], H2 as [B1 [B2 B3]].
    apply gen_index_inj' in E; try lia. destruct E as [-> [-> ->]]. reflexivity. }
  { intros i j H. rewrite Hprs in H. pose proof (in_combine_l _ _ _ _ H) as H1. pose proof (in_combine_r _ _ _ _ H) as H2.
    apply in_map_iff in H1. destruct H1 as [[[x y] z] [<- H1]]. simpl. rewrite ci_of_gen by auto. split; [discriminate|].
    apply in_offs in H2. apply ci_list_in. lia. }
  rewrite E. simpl. exists m'. split; auto. split; auto. constructor; auto.
  eapply region_ext; [|exact R']. rewrite Hprs. intros i.
  rewrite <- ci_cupd; auto.
  2:{ intros x y z c H. apply in_combine_l in H. auto. }
  f_equal. clear -Hlen.
  assert (Gn : forall cx cs' k, cs' = skipn k cs -> (length cx <= length cs')%nat ->
     map (fun e0 : Z * Z => (fst e0, ci_list cs (snd e0))) (combine (map (gi e) cx) (offs (Z.of_nat k) (length cx))) =
     map (fun '(x, y, z, c) => (gen_index e x y z, Some c)) (combine cx cs')).
  { induction cx as [|[[x y] z] co' IH]; intros cs' k Hk Hl; auto. destruct cs' as [|c cs']; [simpl in Hl; lia|].
    change (length ((x, y, z) :: co')) with (1 + length co')%nat. rewrite offs_app.
    cbn [offs seq map app combine fst snd]. f_equal.
    - f_equal. rewrite Z.add_0_r. unfold ci_list. destruct (Z.ltb_spec (Z.of_nat k) 0); [lia|]. rewrite Nat2Z.id.
      rewrite <- (firstn_skipn k cs), nth_error_app2; rewrite firstn_length; [|lia].
      assert (Hsk : length (skipn k cs) = S (length cs')) by (rewrite <- Hk; auto). rewrite skipn_length in Hsk.
      replace (k - Nat.min k (length cs))%nat with 0%nat by lia. rewrite <- Hk. reflexivity.
    - change (Z.of_nat 1) with 1. replace (Z.of_nat k + 1) with (Z.of_nat (S k)) by lia.
      apply (IH cs' (S k)); [|simpl in Hl; lia]. symmetry. eapply skipn_S. symmetry. exact Hk. }
  apply (Gn co cs 0%nat); auto.
Qed.

Lemma save_ok : forall ct m g e cells q cs l,
  wf_ct ct -> mem_ok m -> galloc ct m g e cells ->
  region (ct_ms ct) m q (Z.of_nat (length cs)) (ci_list cs) -> pb q <> blk g ->
  (forall x y z, In (x, y, z) (streak_coords l) -> in_dims (g_x g) (g_y g) (g_z g) x y z) ->
  Forall (fun '(x, y, z, n) => 0 <= n) l ->
  (length (streak_coords l) <= length cs)%nat ->
  exists m', g_save_streaks ct (m, g) l q (Z.of_nat (length cs)) = Ret (m', g) tt /\
    same_other m m' (pb q) /\
    region (ct_ms ct) m' q (Z.of_nat (length cs))
      (ci_list (map (fun '(x, y, z) => cells x y z) (streak_coords l) ++ skipn (length (streak_coords l)) cs)).
Proof.
  intros ct m g e cells q cs l [Hw Hd] M G RQ Hq Hin Hn0 Hlen. unfold g_save_streaks.
  pose proof (galloc_fits _ _ _ _ _ G) as F. destruct G as [X Y Zz C B S R].
  rewrite (callback_ok _ _ _ _ _ _ e C). rewrite save_functor_canon.
  set (co := streak_coords l) in *.
  assert (Hprs : row_pairs (map flip (rows_of e 0 l)) = combine (offs 0 (length co)) (map (gi e) co)).
  { rewrite row_pairs_flip, row_pairs_rows by auto. fold co. generalize (map (gi e) co) as a, (offs 0 (length co)) as b.
    induction a as [|x a IH]; intros [|y b]; simpl; auto. f_equal. apply IH. }
  assert (Hf : map fst (combine (offs 0 (length co)) (map (gi e) co)) = offs 0 (length co)).
  { apply combine_fst. rewrite map_length, length_offs. reflexivity. }
  destruct (region_copy_rows (ct_ms ct) m q (Z.of_nat (length cs)) (ci_list cs) (g_data g) (DIM_PROD e)
     (ci_of e (g_x g) (g_y g) (g_z g) cells) (map flip (rows_of e 0 l))) as [m' [E [SO R']]]; auto.
  { rewrite Hprs, Hf. apply NoDup_offs. }
  { intros i j H. rewrite Hprs in H. pose proof (in_combine_l _ _ _ _ H) as H1. pose proof (in_combine_r _ _ _ _ H) as H2.
    apply in_map_iff in H2. destruct H2 as [[[x y] z] [<- H2]]. simpl. rewrite ci_of_gen by auto. split; [|discriminate].
    apply in_offs in H1. apply ci_list_in. lia. }
  rewrite E. simpl. exists m'. split; auto. split; auto.
  eapply region_ext; [|exact R']. rewrite Hprs. intros i. unfold ci_list at 2.
  destruct (Z.ltb_spec i 0) as [Hi|Hi].
  { rewrite upd_notin.
    - unfold ci_list. destruct (Z.ltb_spec i 0); [auto|lia].
    - rewrite map_fst_pair, Hf, in_offs. lia. }
  destruct (Z.lt_ge_cases i (Z.of_nat (length co))) as [Hc|Hc].
  - rewrite nth_error_app1 by (rewrite map_length; lia). rewrite nth_error_map.
    destruct (nth_error co (Z.to_nat i)) as [[[x y] z]|] eqn:En; [|apply nth_error_None in En; lia].
    cbn [option_map]. apply upd_in; [rewrite map_fst_pair, Hf; apply NoDup_offs|].
    apply in_map_iff. exists (i, gen_index e x y z). cbn [fst snd]. split.
    + rewrite ci_of_gen; auto. apply Hin. eapply nth_error_In; eauto.
    + assert (Ho : nth_error (offs 0 (length co)) (Z.to_nat i) = Some i).
      { unfold offs. rewrite nth_error_map. rewrite (nth_error_nth' _ 0%nat) by (rewrite seq_length; lia).
        rewrite seq_nth by lia. simpl. f_equal. lia. }
      assert (Hg : nth_error (map (gi e) co) (Z.to_nat i) = Some (gen_index e x y z)) by (rewrite nth_error_map, En; reflexivity).
      revert Ho Hg. generalize (offs 0 (length co)) as a, (map (gi e) co) as b, (Z.to_nat i) as k. clear.
      induction a as [|u a IH]; intros [|v b] [|k] H1 H2; simpl in *; try discriminate.
      * inversion H1; inversion H2; auto.
      * right. eapply IH; eauto.
  - rewrite upd_notin by (rewrite map_fst_pair, Hf, in_offs; lia).
    rewrite nth_error_app2 by (rewrite map_length; lia). rewrite map_length. unfold ci_list.
    destruct (Z.ltb_spec i 0); [lia|].
    rewrite <- (firstn_skipn (length co) cs) at 1. rewrite nth_error_app2; rewrite firstn_length; [|lia].
    f_equal. lia.
Qed.

(** *** The client's buffer around them *)
Lemma buffer_frame : forall m b m1 qb m2 x m3 m4 m5,
  mem_ok m -> b <> 0%nat -> (b < mnext m)%nat -> qb = mnext m ->
  gframe m 0 m1 qb -> same_other m1 m2 qb -> (x = b \/ x = qb) -> same_other m2 m3 x ->
  same_other m3 m4 qb -> gframe m4 qb m5 0 -> gframe m b m5 b.
Proof.
  intros m b m1 qb m2 x m3 m4 m5 M Hb Hlt Hq F1 [A1 [A2 [A3 A4]]] Hx [B1 [B2 [B3 B4]]] [C1 [C2 [C3 C4]]] F5.
  destruct F1 as [F11 F12 F13 F14 F15], F5 as [F51 F52 F53 F54 F55]. constructor; auto; try lia.
  - intros c Hc H0 Hl. destruct (F14 c) as [D1 [D2 D3]]; auto. destruct (F54 c) as [E1 [E2 E3]]; try lia.
    split; [rewrite E1, C2, B2, A2; auto|]. split; intros o.
    + rewrite E2, C3, B3, A3; auto; lia.
    + rewrite E3, C4, B4, A4; auto; lia.
  - intros c k Hc. destruct (F55 c k Hc) as [->|[H1 H2]].
    + destruct F51 as [_ [F51 _]]. congruence.
    + rewrite C2, B2, A2 in H2. destruct (F15 c k H2) as [->|[H3 H4]]; [congruence|].
      destruct (Nat.eq_dec c b); auto.
Qed.

Lemma galloc_lt : forall ct m g e cells, mem_ok m -> galloc ct m g e cells -> (blk g < mnext m)%nat.
Proof.
  intros ct m g e cells [_ [_ M]] G. destruct (le_lt_dec (mnext m) (blk g)) as [L|L]; auto. apply M in L.
  destruct G as [_ _ _ _ _ _ R]. unfold blk in L. rewrite (rg_size _ _ _ _ _ R) in L. discriminate.
Qed.

Lemma same_other_ok : forall m m' b, mem_ok m -> same_other m m' b -> mem_ok m'.
Proof. intros m m' b M S. apply (gf_ok _ _ _ _ (same_other_frame m m' b M S)). Qed.

Lemma with_buffer_ok : forall ct m g e cells cells' cs cs' body,
  wf_ct ct -> mem_ok m -> galloc ct m g e cells -> Forall (wf_cell (ct_ms ct)) cs -> length cs' = length cs ->
  (forall m2 q, mem_ok m2 -> galloc ct m2 g e cells -> pb q <> blk g ->
     region (ct_ms ct) m2 q (Z.of_nat (length cs)) (ci_list cs) ->
     exists m3 x, body m2 q = Ret (m3, g) tt /\ (x = blk g \/ x = pb q) /\ same_other m2 m3 x /\
       galloc ct m3 g e cells' /\ region (ct_ms ct) m3 q (Z.of_nat (length cs)) (ci_list cs')) ->
  exists m', with_buffer (ct_ms ct) m cs body = Ret (m', g) (pack (ct_ms ct) cs') /\
    gframe m (blk g) m' (blk g) /\ galloc ct m' g e cells'.
Proof.
  intros ct m g e cells cells' cs cs' body Hct M G Hcs Hlen Hbody. pose proof Hct as [Hw Hd].
  pose proof (galloc_lt _ _ _ _ _ M G) as Hlt. assert (Hb0 : blk g <> 0%nat) by (destruct G; auto).
  unfold with_buffer. rewrite packed_size_total.
  destruct (alloc m (total (ct_ms ct) * Z.of_nat (length cs))) as [m1 q] eqn:Ea.
  destruct (alloc_frame _ _ _ _ M Ea) as [F1 [Hq1 [Hq2 Hq3]]].
  assert (R1 : region (ct_ms ct) m1 q (Z.of_nat (length cs)) (fun _ => None)) by (eapply alloc_region; eauto; lia).
  destruct (build_region (ct_ms ct) m1 q cs Hw Hcs R1) as [m2 [E2 [SO2 R2]]]. rewrite E2.
  assert (M1 : mem_ok m1) by (eapply gf_ok; eauto).
  assert (M2 : mem_ok m2) by (eapply same_other_ok; [exact M1|exact SO2]).
  assert (G2 : galloc ct m2 g e cells).
  { apply (galloc_frame ct m1 m2 g e cells (pb q) (pb q)); auto.
    - exact (galloc_frame ct m m1 g e cells 0 (pb q) M G F1 Hb0).
    - apply same_other_frame; auto.
    - lia. }
  destruct (Hbody m2 q M2 G2) as [m3 [x [E3 [Hx [SO3 [G3 R3]]]]]]; auto; [lia|]. rewrite E3.
  assert (M3 : mem_ok m3) by (eapply same_other_ok; eauto).
  destruct (unbuild_region (ct_ms ct) m3 q cs (ci_list cs') Hw R3) as [m4 [E4 [SO4 R4]]].
  { intros i Hi. apply ci_list_in. lia. }
  rewrite E4. rewrite <- Hlen in R3.
  assert (M4 : mem_ok m4) by (eapply same_other_ok; eauto).
  destruct (free_frame (ct_ms ct) m4 q (Z.of_nat (length cs)) (fun _ => None)) as [m5 [E5 F5]]; auto.
  rewrite E5. cbn [run]. exists m5. split; [|split].
  - f_equal. rewrite <- Hlen, <- packed_size_total. apply region_bytes; auto.
  - eapply buffer_frame; eauto.
  - apply (galloc_frame ct m4 m5 g e cells' (pb q) 0); auto; [|lia].
    apply (galloc_frame ct m3 m4 g e cells' (pb q) (pb q)); auto; [|lia].
    apply same_other_frame; auto.
Qed.
