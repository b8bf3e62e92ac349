(** Lemmas about Grid.v: every member function preserves the representation. *)
From Coq Require Import ZArith List Lia Bool.
From Verif Require Import Base Layout LayoutProofs Sizes SizesProofs Mem MemProofs
  Accessor AccessorProofs RegionProofs Grid SpecGrid.
Import ListNotations.
Open Scope Z_scope.

(** *** Coordinates *)
Definition in_dims (dx dy dz x y z : Z) : Prop := 0 <= x < dx /\ 0 <= y < dy /\ 0 <= z < dz.

Definition fits (e : extent) (dx dy dz : Z) : Prop :=
  0 <= dx <= DIM_X e /\ 0 <= dy <= DIM_Y e /\ 0 <= dz <= DIM_Z e.

(** Storage index -> cell, for the cells inside the dimensions. *)
Definition ci_of (e : extent) (dx dy dz : Z) (cells : cellmap) (i : Z) : option cell :=
  let x := i mod DIM_X e in
  let y := (i / DIM_X e) mod DIM_Y e in
  let z := (i / DIM_X e) / DIM_Y e in
  if (0 <=? x) && (x <? dx) && (0 <=? y) && (y <? dy) && (0 <=? z) && (z <? dz)
  then Some (cells x y z) else None.

Lemma decode_gen_index : forall e x y z,
  0 <= x < DIM_X e -> 0 <= y < DIM_Y e ->
  (gen_index e x y z) mod DIM_X e = x /\
  (gen_index e x y z / DIM_X e) mod DIM_Y e = y /\
  (gen_index e x y z / DIM_X e) / DIM_Y e = z.
Proof.
  intros e x y z Hx Hy. unfold gen_index.
  replace (z * DIM_X e * DIM_Y e + y * DIM_X e + x) with (x + (y + z * DIM_Y e) * DIM_X e) by ring.
  rewrite Z.mod_add, Z.div_add by lia. rewrite (Z.mod_small x), (Z.div_small x) by lia. rewrite Z.add_0_l.
  rewrite Z.mod_add, Z.div_add by lia. rewrite (Z.mod_small y), (Z.div_small y) by lia. repeat split; lia.
Qed.

Lemma ci_of_gen : forall e dx dy dz cells x y z,
  fits e dx dy dz -> in_dims dx dy dz x y z ->
  ci_of e dx dy dz cells (gen_index e x y z) = Some (cells x y z).
Proof.
  intros e dx dy dz cells x y z [F1 [F2 F3]] [I1 [I2 I3]]. unfold ci_of.
  destruct (decode_gen_index e x y z) as [A [B C]]; [lia|lia|]. rewrite A, B, C.
  assert ((0 <=? x) && (x <? dx) && (0 <=? y) && (y <? dy) && (0 <=? z) && (z <? dz) = true) as -> by lia.
  reflexivity.
Qed.

Lemma ci_of_inv : forall e dx dy dz cells i c,
  fits e dx dy dz -> ci_of e dx dy dz cells i = Some c ->
  exists x y z, in_dims dx dy dz x y z /\ i = gen_index e x y z /\ c = cells x y z.
Proof.
  intros e dx dy dz cells i c [F1 [F2 F3]] H. unfold ci_of in H.
  set (x := i mod DIM_X e) in *. set (y := (i / DIM_X e) mod DIM_Y e) in *. set (z := i / DIM_X e / DIM_Y e) in *.
  destruct ((0 <=? x) && (x <? dx) && (0 <=? y) && (y <? dy) && (0 <=? z) && (z <? dz)) eqn:E; [|discriminate].
  exists x, y, z. split; [unfold in_dims; lia|]. split; [|congruence].
  unfold gen_index. pose proof (Z.div_mod i (DIM_X e) ltac:(lia)). pose proof (Z.div_mod (i / DIM_X e) (DIM_Y e) ltac:(lia)).
  fold x in H0. fold y z in H1. nia.
Qed.

Lemma gen_index_inj' : forall e x y z x' y' z',
  0 <= x < DIM_X e -> 0 <= y < DIM_Y e -> 0 <= x' < DIM_X e -> 0 <= y' < DIM_Y e ->
  gen_index e x y z = gen_index e x' y' z' -> x = x' /\ y = y' /\ z = z'.
Proof.
  intros e x y z x' y' z' H1 H2 H3 H4 E.
  destruct (decode_gen_index e x y z) as [A [B C]]; auto.
  destruct (decode_gen_index e x' y' z') as [A' [B' C']]; auto.
  rewrite E in A, B, C. repeat split; congruence.
Qed.

Lemma gen_index_range : forall e dx dy dz x y z,
  fits e dx dy dz -> in_dims dx dy dz x y z -> 0 <= gen_index e x y z < DIM_PROD e.
Proof.
  intros e dx dy dz x y z [F1 [F2 F3]] [I1 [I2 I3]]. unfold gen_index, DIM_PROD.
  assert (y * DIM_X e + x < DIM_Y e * DIM_X e) by nia.
  assert (z * (DIM_X e * DIM_Y e) + DIM_X e * DIM_Y e <= DIM_Z e * (DIM_X e * DIM_Y e)).
  { replace (z * (DIM_X e * DIM_Y e) + DIM_X e * DIM_Y e) with ((z + 1) * (DIM_X e * DIM_Y e)) by ring.
    apply Z.mul_le_mono_nonneg_r; nia. }
  split; [|nia]. assert (0 <= z * DIM_X e * DIM_Y e) by (apply Z.mul_nonneg_nonneg; nia). nia.
Qed.

Lemma gen_index_row : forall e x y z n, gen_index e x y z + n = gen_index e (x + n) y z.
Proof. intros. unfold gen_index. ring. Qed.

Lemma choose_fits : forall cfg dx dy dz e,
  0 <= dx -> 0 <= dy -> 0 <= dz -> choose cfg dx dy dz = inr e -> fits e dx dy dz.
Proof. intros cfg dx dy dz e H1 H2 H3 H. apply choose_covers in H. unfold fits. lia. Qed.

(** Pointwise updates of a cell map. *)
Fixpoint cupd (cells : cellmap) (l : list (Z * Z * Z * cell)) (x y z : Z) : cell :=
  match l with
  | [] => cells x y z
  | (x', y', z', c) :: r =>
      if (x =? x') && (y =? y') && (z =? z') then c else cupd cells r x y z
  end.

Lemma ci_cupd : forall e dx dy dz cells l,
  fits e dx dy dz ->
  (forall x y z c, In (x, y, z, c) l -> in_dims dx dy dz x y z) ->
  forall i, upd (ci_of e dx dy dz cells) (map (fun '(x, y, z, c) => (gen_index e x y z, Some c)) l) i =
            ci_of e dx dy dz (cupd cells l) i.
Proof.
  intros e dx dy dz cells l F. induction l as [|[[[x y] z] c] l IH]; intros Hl i; auto. cbn [map upd].
  assert (Hxyz : in_dims dx dy dz x y z) by (apply (Hl x y z c); simpl; auto).
  rewrite IH by (intros; eapply Hl; simpl; eauto). clear IH.
  destruct (Z.eqb_spec i (gen_index e x y z)) as [->|N].
  - rewrite ci_of_gen by auto. cbn [cupd]. rewrite !Z.eqb_refl. reflexivity.
  - unfold ci_of. destruct (_ && _) eqn:E; auto. cbn [cupd]. 
    destruct ((i mod DIM_X e =? x) && ((i / DIM_X e) mod DIM_Y e =? y) && (i / DIM_X e / DIM_Y e =? z)) eqn:E2; auto.
    exfalso. apply N.
    destruct (ci_of_inv e dx dy dz cells i (cells (i mod DIM_X e) ((i / DIM_X e) mod DIM_Y e) (i / DIM_X e / DIM_Y e)) F) as [x' [y' [z' [I' [Hi _]]]]].
    { unfold ci_of. rewrite E. reflexivity. }
    destruct F as [F1 [F2 F3]]. destruct I' as [I1 [I2 I3]].
    rewrite Hi in E2. clear E N Hl.
    destruct (decode_gen_index e x' y' z') as [A [B C]]; [clear E2; lia|clear E2; lia|]. rewrite A, B, C in E2. rewrite Hi.
    clear A B C. apply andb_prop in E2. destruct E2 as [E2 E4]. apply andb_prop in E2. destruct E2 as [E2 E3].
    apply Z.eqb_eq in E2, E3, E4. subst. reflexivity.
Qed.

Lemma ci_of_ext : forall e dx dy dz cells cells',
  (forall x y z, in_dims dx dy dz x y z -> cells x y z = cells' x y z) ->
  forall i, ci_of e dx dy dz cells i = ci_of e dx dy dz cells' i.
Proof.
  intros e dx dy dz cells cells' H i. unfold ci_of. destruct (_ && _) eqn:E; auto.
  f_equal. apply H. unfold in_dims. lia.
Qed.

(** *** Loops over all cells *)
Lemma flat_map_flat_map : forall (A B C : Type) (f : B -> list C) (g : A -> list B) l,
  flat_map f (flat_map g l) = flat_map (fun x => flat_map f (g x)) l.
Proof. intros A B C f g l. induction l as [|a l IH]; simpl; auto. rewrite flat_map_app, IH. reflexivity. Qed.

Lemma flat_map_map : forall (A B C : Type) (f : B -> list C) (g : A -> B) l,
  flat_map f (map g l) = flat_map (fun x => f (g x)) l.
Proof. intros A B C f g l. induction l as [|a l IH]; simpl; auto. rewrite IH. reflexivity. Qed.

Definition all_idx (e : extent) (dx dy dz : Z) : list Z :=
  flat_map (fun z => flat_map (fun y => map (fun x => gen_index e x y z) (zseq dx)) (zseq dy)) (zseq dz).

Lemma in_all_idx : forall e dx dy dz i,
  In i (all_idx e dx dy dz) <-> exists x y z, in_dims dx dy dz x y z /\ i = gen_index e x y z.
Proof.
  intros. unfold all_idx. rewrite in_flat_map. split.
  - intros [z [Hz H]]. apply in_flat_map in H. destruct H as [y [Hy H]]. apply in_map_iff in H. destruct H as [x [E Hx]].
    apply in_zseq in Hx, Hy, Hz. exists x, y, z. unfold in_dims. auto.
  - intros [x [y [z [[H1 [H2 H3]] ->]]]]. exists z. rewrite in_zseq. split; auto. apply in_flat_map.
    exists y. rewrite in_zseq. split; auto. apply in_map_iff. exists x. rewrite in_zseq. auto.
Qed.

Lemma NoDup_all_idx : forall e dx dy dz, fits e dx dy dz -> NoDup (all_idx e dx dy dz).
Proof.
  intros e dx dy dz [F1 [F2 F3]]. unfold all_idx. apply NoDup_flat_map; [apply NoDup_zseq| |].
  - intros z Hz. apply NoDup_flat_map; [apply NoDup_zseq| |].
    + intros y Hy. apply NoDup_map_inj; [|apply NoDup_zseq]. intros a b Ha Hb E. apply in_zseq in Ha, Hb, Hy.
      apply gen_index_inj' in E; lia.
    + intros a b x Ha Hb H1 H2. apply in_map_iff in H1, H2. destruct H1 as [c [E1 H1]], H2 as [d [E2 H2]].
      apply in_zseq in Ha, Hb, H1, H2. subst x. apply gen_index_inj' in E2; lia.
  - intros a b x Ha Hb H1 H2. apply in_flat_map in H1, H2. destruct H1 as [y [Hy H1]], H2 as [y' [Hy' H2]].
    apply in_map_iff in H1, H2. destruct H1 as [c [E1 H1]], H2 as [d [E2 H2]].
    apply in_zseq in Ha, Hb, H1, H2, Hy, Hy'. subst x. apply gen_index_inj' in E2; lia.
Qed.

Lemma construct_functor_canon : forall ms d dx dy dz a,
  a_INDEX a = 0 ->
  construct_functor ms d dx dy dz a =
  flat_map (fun i => map (fun sl => Construct (sptr d (DIM_PROD (a_ext a)) sl i) (s_size sl) (s_class sl) (s_default sl)) (slots ms))
           (all_idx (a_ext a) dx dy dz).
Proof.
  intros ms d dx dy dz a HI. unfold construct_functor, all_idx. rewrite flat_map_flat_map.
  apply flat_map_ext_in. intros z _. rewrite flat_map_flat_map. apply flat_map_ext_in. intros y _.
  rewrite flat_map_map. apply flat_map_ext_in. intros x _. rewrite construct_members_canon. simpl.
  apply map_ext. intros sl. f_equal. f_equal. unfold idx. simpl. rewrite HI, gen_index_row. simpl. apply Z.add_0_r.
Qed.

Lemma destroy_functor_canon : forall ms d dx dy dz a,
  a_INDEX a = 0 ->
  destroy_functor ms d dx dy dz a =
  flat_map (fun i => map (fun sl => Destroy (sptr d (DIM_PROD (a_ext a)) sl i) (s_size sl) (s_class sl)) (slots ms))
           (all_idx (a_ext a) dx dy dz).
Proof.
  intros ms d dx dy dz a HI. unfold destroy_functor, all_idx. rewrite flat_map_flat_map.
  apply flat_map_ext_in. intros z _. rewrite flat_map_flat_map. apply flat_map_ext_in. intros y _.
  rewrite flat_map_map. apply flat_map_ext_in. intros x _. rewrite destroy_members_canon. simpl.
  apply map_ext. intros sl. f_equal. f_equal. unfold idx. simpl. rewrite HI, gen_index_row. simpl. apply Z.add_0_r.
Qed.

(** *** Rows of copies: (target start, source start, length) *)
Definition row_keys (ms : list member) (rows : list (Z * Z * Z)) : list (slot * Z * Z) :=
  flat_map (fun r => flat_map (fun sl => map (fun n => (sl, fst (fst r) + n, snd (fst r) + n)) (zseq (snd r))) (slots ms)) rows.

Definition row_pairs (rows : list (Z * Z * Z)) : list (Z * Z) :=
  flat_map (fun r => map (fun n => (fst (fst r) + n, snd (fst r) + n)) (zseq (snd r))) rows.

Lemma in_row_keys : forall ms rows sl i j,
  In (sl, i, j) (row_keys ms rows) <-> In sl (slots ms) /\ In (i, j) (row_pairs rows).
Proof.
  intros ms rows sl i j. unfold row_keys, row_pairs. rewrite !in_flat_map. split.
  - intros [r [Hr H]]. apply in_flat_map in H. destruct H as [s [Hs H]]. apply in_map_iff in H.
    destruct H as [n [E Hn]]. inversion E; subst. split; auto. exists r. split; auto. apply in_map_iff. exists n; auto.
  - intros [Hs [r [Hr H]]]. exists r. split; auto. apply in_flat_map. exists sl. split; auto.
    apply in_map_iff in H. destruct H as [n [E Hn]]. inversion E; subst. apply in_map_iff. exists n; auto.
Qed.

Lemma NoDup_app_iff : forall (A : Type) (l1 l2 : list A),
  NoDup (l1 ++ l2) <-> NoDup l1 /\ NoDup l2 /\ (forall x, In x l1 -> ~ In x l2).
Proof.
  intros A l1 l2. induction l1 as [|a l1 IH]; simpl.
  - split; [intros H; repeat split; auto; constructor|tauto].
  - split.
    + intros H. inversion H as [|? ? Ha H']; subst. apply IH in H'. destruct H' as [H1 [H2 H3]].
      rewrite in_app_iff in Ha. split; [constructor; tauto|]. split; auto. intros x [->|Hx]; [tauto|auto].
    + intros [H1 [H2 H3]]. inversion H1 as [|? ? Ha H1']; subst. constructor.
      * rewrite in_app_iff. intros [C|C]; [tauto|]. apply (H3 a); auto.
      * apply IH. repeat split; auto.
Qed.

Lemma NoDup_row_keys : forall ms rows,
  wf_members ms -> NoDup (map fst (row_pairs rows)) -> NoDup (map fst (row_keys ms rows)).
Proof.
  intros ms rows Hw. induction rows as [|[[b s] n] rows IH]; [constructor|].
  unfold row_keys, row_pairs. cbn [flat_map fst snd]. fold (row_keys ms rows) (row_pairs rows).
  rewrite !map_app. rewrite !NoDup_app_iff. intros [H1 [H2 H3]]. split; [|split; auto].
  - rewrite flat_map_concat_map, concat_map, map_map, <- flat_map_concat_map.
    apply NoDup_flat_map; [apply slots_NoDup; auto| |].
    + intros sl _. rewrite map_map. apply NoDup_map_inj; [|apply NoDup_zseq]. intros a c _ _ E. simpl in E. inversion E; lia.
    + intros a c x _ _ Ha Hc. apply in_map_iff in Ha, Hc. destruct Ha as [[[? ?] ?] [E1 Ha]], Hc as [[[? ?] ?] [E2 Hc]].
      apply in_map_iff in Ha, Hc. destruct Ha as [? [E3 _]], Hc as [? [E4 _]]. simpl in *. congruence.
  - intros [sl i] Hx C. apply in_map_iff in Hx, C. destruct Hx as [[[s1 i1] j1] [E1 Hx]], C as [[[s2 i2] j2] [E2 C]].
    simpl in E1, E2. inversion E1; inversion E2; subst. apply in_row_keys in C. destruct C as [_ C].
    apply in_flat_map in Hx. destruct Hx as [s3 [_ Hx]]. apply in_map_iff in Hx. destruct Hx as [k [E Hk]]. inversion E; subst.
    apply (H3 (b + k)).
    + apply in_map_iff. exists (b + k, s + k). split; auto. apply in_map_iff. exists k; auto.
    + apply in_map_iff. exists (b + k, j2). auto.
Qed.

Lemma slot_copy_ops_keys : forall ms d P i d' P' i' n,
  slot_copy_ops ms d P i d' P' i' n = map (copy_key_op d P d' P') (row_keys ms [(i, i', n)]).
Proof.
  intros. unfold slot_copy_ops, row_keys. simpl. rewrite app_nil_r.
  rewrite !flat_map_concat_map, concat_map, map_map. f_equal. apply map_ext. intros sl. rewrite map_map. reflexivity.
Qed.

Lemma row_keys_app : forall ms r1 r2, row_keys ms (r1 ++ r2) = row_keys ms r1 ++ row_keys ms r2.
Proof. intros. unfold row_keys. apply flat_map_app. Qed.

Lemma row_pairs_app : forall r1 r2, row_pairs (r1 ++ r2) = row_pairs r1 ++ row_pairs r2.
Proof. intros. unfold row_pairs. apply flat_map_app. Qed.

(** Copying between regions, row-wise. *)
Lemma region_copy_rows : forall ms m p P ci q Q cj rows,
  wf_members ms -> region ms m p P ci -> region ms m q Q cj ->
  (pb q <> pb p \/ (q = p /\ Q = P /\ forall i j, In (i, j) (row_pairs rows) -> i = j)) ->
  NoDup (map fst (row_pairs rows)) ->
  (forall i j, In (i, j) (row_pairs rows) -> ci i <> None /\ cj j <> None) ->
  exists m',
    exec (map (copy_key_op p P q Q) (row_keys ms rows)) m = Val m' /\ same_other m m' (pb p) /\
    region ms m' p P (upd ci (map (fun e => (fst e, cj (snd e))) (row_pairs rows))).
Proof.
  intros ms m p P ci q Q cj rows Hw R1 R2 Hpq Hn Hi.
  apply (region_copy ms m p P ci q Q cj (row_pairs rows) (row_keys ms rows)); auto.
  - apply NoDup_row_keys; auto.
  - intros. apply in_row_keys.
Qed.

(** copy_functor *)
Definition copy_rows (e : extent) (dx dy dz : Z) : list (Z * Z * Z) :=
  flat_map (fun z => map (fun y => (gen_index e 0 y z, gen_index e 0 y z, dx)) (zseq dy)) (zseq dz).

Lemma copy_functor_canon : forall ms d1 a1 d2 a2 dx dy dz,
  a_INDEX a1 = 0 -> a_INDEX a2 = 0 ->
  copy_functor ms d1 a1 d2 a2 dx dy dz =
  map (copy_key_op d2 (DIM_PROD (a_ext a2)) d1 (DIM_PROD (a_ext a1))) (row_keys ms (copy_rows (a_ext a1) dx dy dz)).
Proof.
  intros ms d1 a1 d2 a2 dx dy dz H1 H2. unfold copy_functor, copy_rows.
  induction (zseq dz) as [|z zs IH]; auto. cbn [flat_map]. rewrite IH, row_keys_app, map_app. f_equal. clear IH.
  induction (zseq dy) as [|y ys IH]; auto. cbn [flat_map map].
  change ((gen_index (a_ext a1) 0 y z, gen_index (a_ext a1) 0 y z, dx) :: map (fun y0 => (gen_index (a_ext a1) 0 y0 z, gen_index (a_ext a1) 0 y0 z, dx)) ys)
    with ([(gen_index (a_ext a1) 0 y z, gen_index (a_ext a1) 0 y z, dx)] ++ map (fun y0 => (gen_index (a_ext a1) 0 y0 z, gen_index (a_ext a1) 0 y0 z, dx)) ys).
  rewrite row_keys_app, map_app, <- IH. f_equal. rewrite copy_members_canon, slot_copy_ops_keys. unfold idx. simpl.
  rewrite H1, H2, !Z.add_0_r. reflexivity.
Qed.

Lemma copy_row_pairs : forall e dx dy dz,
  row_pairs (copy_rows e dx dy dz) = map (fun i => (i, i)) (all_idx e dx dy dz).
Proof.
  intros. unfold row_pairs, copy_rows, all_idx. rewrite flat_map_flat_map.
  rewrite flat_map_concat_map, (flat_map_concat_map _ (zseq dz)), concat_map, map_map. f_equal. apply map_ext. intros z.
  rewrite flat_map_map. rewrite flat_map_concat_map, (flat_map_concat_map _ (zseq dy)), concat_map, map_map. f_equal. apply map_ext. intros y.
  rewrite map_map. apply map_ext. intros x. simpl. rewrite gen_index_row. reflexivity.
Qed.
