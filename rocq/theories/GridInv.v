(** The grid representation and what each member function does to it. *)
From Coq Require Import ZArith List Lia Bool.
From Verif Require Import Base Layout LayoutProofs Sizes SizesProofs Mem MemProofs
  Accessor AccessorProofs RegionProofs Grid SpecGrid GridProofs.
Import ListNotations.
Open Scope Z_scope.

(** *** Heap bookkeeping *)
Definition mem_ok (m : mem) : Prop :=
  (1 <= mnext m)%nat /\ msize m 0 = None /\ forall b, (mnext m <= b)%nat -> msize m b = None.

(** From [m], where block [b] (0: none) is ours, to [m'], where block [b'] is ours. *)
Record gframe (m : mem) (b : nat) (m' : mem) (b' : nat) : Prop := {
  gf_ok : mem_ok m';
  gf_next : (mnext m <= mnext m')%nat;
  gf_new : b' = b \/ b' = 0%nat \/ (mnext m <= b')%nat;
  gf_other : forall c, c <> b -> c <> 0%nat -> (c < mnext m)%nat ->
     msize m' c = msize m c /\ (forall o, mval m' c o = mval m c o) /\ (forall o, mlive m' c o = mlive m c o);
  gf_leak : forall c n, msize m' c = Some n -> c = b' \/ (c <> b /\ msize m c = Some n) }.

Lemma gframe_trans : forall m b m1 b1 m2 b2,
  gframe m b m1 b1 -> gframe m1 b1 m2 b2 -> gframe m b m2 b2.
Proof.
  intros m b m1 b1 m2 b2 F G. destruct F as [F1 F2 F3 F4 F5], G as [G1 G2 G3 G4 G5]. constructor; auto; try lia.
  - intros c Hb H0 Hc. destruct (F4 c Hb H0 Hc) as [A [B C]]. destruct (G4 c) as [A' [B' C']]; auto; try lia.
    split; [congruence|]. split; intros; [rewrite B'; auto|rewrite C'; auto].
  - intros c n Hc. destruct (G5 c n Hc) as [->|[A B]]; auto. destruct (F5 c n B) as [->|D]; auto. congruence.
Qed.

Lemma gframe_refl : forall m b, mem_ok m -> gframe m b m b.
Proof.
  intros m b H. constructor; auto. intros c n Hc. destruct (Nat.eq_dec c b); auto.
Qed.

Lemma same_other_frame : forall m m' b, mem_ok m -> same_other m m' b -> gframe m b m' b.
Proof.
  intros m m' b [H1 [H2 H3]] [A [B [C D]]]. constructor; auto.
  - split; [lia|]. split; [rewrite B; auto|]. intros c Hc. rewrite B. apply H3. lia.
  - lia.
  - intros c n Hc. rewrite B in Hc. destruct (Nat.eq_dec c b); auto.
Qed.

Lemma alloc_frame : forall m n m' p, mem_ok m -> alloc m n = (m', p) ->
  gframe m 0 m' (pb p) /\ pb p = mnext m /\ pb p <> 0%nat /\ po p = 0.
Proof.
  intros m n m' p [H1 [H2 H3]] H. unfold alloc in H. inversion H; subst. clear H. cbn [pb po].
  split; [|repeat split; lia]. constructor; cbn [mnext msize mval mlive]; auto; try lia.
  - split; cbn [mnext msize]; [lia|]. split.
    + destruct (Nat.eqb_spec 0 (mnext m)) as [Hz|Hz]; [exfalso; lia|auto].
    + intros b Hb. destruct (Nat.eqb_spec b (mnext m)); [exfalso; lia|]. apply H3. lia.
  - intros c Hb _ Hc. destruct (Nat.eqb_spec c (mnext m)); [lia|]. auto.
  - intros c k Hc. destruct (Nat.eqb_spec c (mnext m)); auto. right. split; auto. intros ->. congruence.
Qed.

Lemma free_frame : forall ms m p P ci, mem_ok m -> pb p <> 0%nat ->
  region ms m p P ci -> (forall i, ci i = None) ->
  exists m', free m p (total ms * P) = Val m' /\ gframe m (pb p) m' 0.
Proof.
  intros ms m p P ci [H1 [H2 H3]] Hp R Hn. destruct (free_region ms m p P ci R Hn) as [m' [E [A [B [C [D [F G]]]]]]].
  exists m'. split; auto. constructor; auto; try lia.
  - split; [lia|]. split.
    + rewrite C; auto.
    + intros b Hb. destruct (Nat.eq_dec b (pb p)); [congruence|]. rewrite C by auto. apply H3. lia.
  - intros c k Hc. right. destruct (Nat.eq_dec c (pb p)); [congruence|]. rewrite C in Hc by auto. auto.
Qed.

(** *** Representation *)
Definition blk (g : grid) : nat := pb (g_data g).

Record galloc (ct : celltype) (m : mem) (g : grid) (e : extent) (cells : cellmap) : Prop := {
  ga_x : 0 <= g_x g; ga_y : 0 <= g_y g; ga_z : 0 <= g_z g;
  ga_choose : choose (ct_sizes ct) (g_x g) (g_y g) (g_z g) = inr e;
  ga_blk : blk g <> 0%nat;
  ga_bs : g_bs g = Some (total (ct_ms ct) * DIM_PROD e);
  ga_region : region (ct_ms ct) m (g_data g) (DIM_PROD e) (ci_of e (g_x g) (g_y g) (g_z g) cells) }.

Definition grep (ct : celltype) (m : mem) (g : grid) (A : agrid) : Prop :=
  g_x g = ag_x A /\ g_y g = ag_y A /\ g_z g = ag_z A /\
  if ag_fresh A then g_x g = 0 /\ g_y g = 0 /\ g_z g = 0 /\ g_data g = null
  else exists e, galloc ct m g e (ag_cells A).

Lemma galloc_fits : forall ct m g e cells, galloc ct m g e cells -> fits e (g_x g) (g_y g) (g_z g).
Proof. intros ct m g e cells H. destruct H. eapply choose_fits; eauto. Qed.

Lemma DIM_PROD_nonneg : forall e dx dy dz, fits e dx dy dz -> 0 <= DIM_PROD e.
Proof. intros e dx dy dz [A [B C]]. unfold DIM_PROD. apply Z.mul_nonneg_nonneg; [apply Z.mul_nonneg_nonneg|]; lia. Qed.

Lemma galloc_null : forall ct m g e cells, galloc ct m g e cells -> is_null (g_data g) = false.
Proof. intros ct m g e cells H. destruct H. unfold is_null, blk in *. destruct (Nat.eqb_spec (pb (g_data g)) 0); [congruence|auto]. Qed.

Lemma galloc_frame : forall ct m m' g e cells b b',
  mem_ok m -> galloc ct m g e cells -> gframe m b m' b' -> blk g <> b -> galloc ct m' g e cells.
Proof.
  intros ct m m' g e cells b b' [M1 [M2 M3]] H F Hb. destruct H as [X Y Zz C B S R]. constructor; auto.
  assert (Hlt : (blk g < mnext m)%nat).
  { destruct (le_lt_dec (mnext m) (blk g)) as [L|L]; auto. apply M3 in L. unfold blk in L.
    rewrite (rg_size _ _ _ _ _ R) in L. discriminate. }
  destruct (gf_other _ _ _ _ F (blk g)) as [F1 [F2 F3]]; auto.
  eapply region_frame; eauto.
Qed.

Lemma grep_frame : forall ct m m' g A b b',
  mem_ok m -> grep ct m g A -> gframe m b m' b' -> (blk g <> b \/ blk g = 0%nat) -> grep ct m' g A.
Proof.
  intros ct m m' g A b b' M [H1 [H2 [H3 H]]] F Hb. split; [auto|]. split; [auto|]. split; [auto|].
  destruct (ag_fresh A); auto. destruct H as [e H]. exists e.
  eapply galloc_frame; eauto. destruct Hb; auto. destruct H; congruence.
Qed.

Lemma callback_ok : forall (W A : Type) ct (w : W) g (f : ptr -> accessor -> outcome W A) e,
  choose (ct_sizes ct) (g_x g) (g_y g) (g_z g) = inr e -> callback ct w g f = f (g_data g) (mkAcc e 0 0).
Proof. intros W A ct w g f e H. unfold callback. rewrite select_sizes_choose, H. reflexivity. Qed.

Lemma callback_thr : forall (W A : Type) ct (w : W) g (f : ptr -> accessor -> outcome W A) er,
  choose (ct_sizes ct) (g_x g) (g_y g) (g_z g) = inl er -> callback ct w g f = Thr w er.
Proof. intros W A ct w g f e H. unfold callback. rewrite select_sizes_choose, H. reflexivity. Qed.

(** *** init() *)
Lemma g_init_ok : forall ct m g e,
  wf_ct ct -> mem_ok m ->
  0 <= g_x g -> 0 <= g_y g -> 0 <= g_z g ->
  choose (ct_sizes ct) (g_x g) (g_y g) (g_z g) = inr e -> blk g <> 0%nat ->
  g_bs g = Some (total (ct_ms ct) * DIM_PROD e) ->
  region (ct_ms ct) m (g_data g) (DIM_PROD e) (fun _ => None) ->
  exists m', g_init ct (m, g) = Ret (m', g) tt /\ same_other m m' (blk g) /\
    galloc ct m' g e (fun _ _ _ => default_cell (ct_ms ct)).
Proof.
  intros ct m g e [Hw Hd] M X Y Zz C B S R. unfold g_init. rewrite (callback_ok _ _ _ _ _ _ e C).
  assert (F : fits e (g_x g) (g_y g) (g_z g)) by (eapply choose_fits; eauto).
  rewrite construct_functor_canon by reflexivity. cbn [a_ext].
  destruct (region_construct (ct_ms ct) m (g_data g) (DIM_PROD e) (fun _ => None) (all_idx e (g_x g) (g_y g) (g_z g)))
    as [m' [E [SO R']]]; auto.
  { apply NoDup_all_idx; auto. }
  { intros i Hi. apply in_all_idx in Hi. destruct Hi as [x [y [z [I ->]]]]. split; auto.
    eapply gen_index_range; eauto. }
  rewrite E. simpl. exists m'. split; auto. split; auto. constructor; auto.
  eapply region_ext; [|exact R']. intros i. cbn beta.
  destruct (ci_of e (g_x g) (g_y g) (g_z g) (fun _ _ _ => default_cell (ct_ms ct)) i) as [c|] eqn:Ei.
  - destruct (ci_of_inv _ _ _ _ _ _ _ F Ei) as [x [y [z [I [-> ->]]]]].
    apply upd_in.
    + rewrite map_map. rewrite map_id. apply NoDup_all_idx; auto.
    + apply in_map_iff. exists (gen_index e x y z). split; auto. apply in_all_idx. eauto 6.
  - rewrite upd_notin; auto. rewrite map_map, map_id. intros Hin. apply in_all_idx in Hin.
    destruct Hin as [x [y [z [I ->]]]]. rewrite ci_of_gen in Ei by auto. discriminate.
Qed.

(** *** destroy_and_deallocate() *)
Lemma destroy_ok : forall ct m g A,
  wf_ct ct -> mem_ok m -> grep ct m g A ->
  exists m', destroy_and_deallocate ct (m, g) = Ret (m', g) tt /\ gframe m (blk g) m' 0.
Proof.
  intros ct m g A [Hw Hd] M [_ [_ [_ H]]]. unfold destroy_and_deallocate. destruct (ag_fresh A).
  - destruct H as [_ [_ [_ H]]]. unfold blk. rewrite H. simpl. exists m. split; auto. apply gframe_refl; auto.
  - destruct H as [e H]. rewrite (galloc_null _ _ _ _ _ H). pose proof (galloc_fits _ _ _ _ _ H) as F.
    destruct H as [X Y Zz C B S R]. rewrite (callback_ok _ _ _ _ _ _ e C).
    rewrite destroy_functor_canon by reflexivity. cbn [a_ext].
    destruct (region_destroy (ct_ms ct) m (g_data g) (DIM_PROD e) (ci_of e (g_x g) (g_y g) (g_z g) (ag_cells A)) (all_idx e (g_x g) (g_y g) (g_z g)))
      as [m1 [E [SO R']]]; auto.
    { apply NoDup_all_idx; auto. }
    { intros i Hi. apply in_all_idx in Hi. destruct Hi as [x [y [z [I ->]]]]. rewrite ci_of_gen by auto. discriminate. }
    rewrite E. simpl. rewrite S. simpl.
    destruct (free_frame (ct_ms ct) m1 (g_data g) (DIM_PROD e) (fun _ => None)) as [m2 [E2 F2]]; auto.
    { apply (gf_ok _ _ _ _ (same_other_frame _ _ _ M SO)). }
    { eapply region_ext; [|exact R']. intros i. cbn beta.
      destruct (in_dec Z.eq_dec i (all_idx e (g_x g) (g_y g) (g_z g))) as [Hi|Hi].
      - apply upd_in; [rewrite map_map, map_id; apply NoDup_all_idx; auto|]. apply in_map_iff. exists i; auto.
      - rewrite upd_notin by (rewrite map_map, map_id; auto).
        destruct (ci_of e (g_x g) (g_y g) (g_z g) (ag_cells A) i) as [c|] eqn:Ei; auto.
        destruct (ci_of_inv _ _ _ _ _ _ _ F Ei) as [x [y [z [I [-> ->]]]]]. exfalso. apply Hi. apply in_all_idx. eauto 6. }
    rewrite E2. simpl. exists m2. split; auto. eapply gframe_trans; [|exact F2].
    apply same_other_frame; auto.
Qed.

Lemma supported_choose : forall cfg x y z, supported cfg x y z -> exists e, choose cfg x y z = inr e.
Proof. intros. apply choose_supported. auto. Qed.

(** *** resize() *)
Lemma byte_size_of_prod : forall ms e, byte_size_of ms (DIM_X e) (DIM_Y e) (DIM_Z e) = Some (total ms * DIM_PROD e).
Proof. intros. unfold byte_size_of. rewrite agg_size_total. f_equal. unfold DIM_PROD. ring. Qed.

Lemma resize_to_ok : forall ct m g A nx ny nz,
  wf_ct ct -> mem_ok m -> grep ct m g A ->
  0 <= nx -> 0 <= ny -> 0 <= nz -> supported (ct_sizes ct) nx ny nz ->
  exists m' g', resize_to ct (m, g) nx ny nz = Ret (m', g') tt /\
    gframe m (blk g) m' (blk g') /\ grep ct m' g' (new_grid (ct_ms ct) nx ny nz) /\
    (exists e, choose (ct_sizes ct) nx ny nz = inr e /\
       g_ex g' = Some (DIM_X e) /\ g_ey g' = Some (DIM_Y e) /\ g_ez g' = Some (DIM_Z e) /\
       g_bs g' = Some (total (ct_ms ct) * DIM_PROD e)) /\
    (mnext m <= blk g')%nat.
Proof.
  intros ct m g A nx ny nz Hct M G X Y Zz Hs. unfold resize_to.
  destruct (destroy_ok ct m g A Hct M G) as [m1 [E1 F1]]. rewrite E1. cbn [obind].
  destruct (supported_choose _ _ _ _ Hs) as [e He].
  rewrite (callback_ok _ _ ct _ _ _ e) by exact He. cbn [obind a_ext]. rewrite byte_size_of_prod. cbn [use g_bs].
  destruct (alloc m1 (total (ct_ms ct) * DIM_PROD e)) as [m2 p] eqn:Ea.
  pose proof (gf_ok _ _ _ _ F1) as M1.
  destruct (alloc_frame _ _ _ _ M1 Ea) as [F2 [Hp1 [Hp2 Hp3]]].
  assert (F : fits e nx ny nz) by (eapply choose_fits; eauto).
  assert (R2 : region (ct_ms ct) m2 p (DIM_PROD e) (fun _ => None)).
  { eapply alloc_region; eauto. eapply DIM_PROD_nonneg; eauto. }
  set (g' := mkGrid nx ny nz (Some (DIM_X e)) (Some (DIM_Y e)) (Some (DIM_Z e)) (Some (total (ct_ms ct) * DIM_PROD e)) p).
  destruct (g_init_ok ct m2 g' e) as [m3 [E3 [SO GA]]]; auto.
  { apply (gf_ok _ _ _ _ F2). }
  exists m3, g'. cbn [g_ex g_ey g_ez]. split; [exact E3|]. split; [|split; [|split]].
  - eapply gframe_trans; [exact F1|]. eapply gframe_trans; [exact F2|].
    change (pb p) with (blk g'). apply same_other_frame; auto. apply (gf_ok _ _ _ _ F2).
  - repeat split; auto. simpl. exists e. exact GA.
  - exists e. repeat split; auto.
  - change (blk g') with (pb p). pose proof (gf_next _ _ _ _ F1). lia.
Qed.

Lemma fresh_rep : forall ct m cells, grep ct m (mkGrid 0 0 0 None None None None null) (mkAG 0 0 0 true cells).
Proof. intros. repeat split. Qed.

(** *** set / broadcast *)
Lemma mapR_nth_ok : forall (ms : list member) (A B : Type) (f : Z -> A -> B) (cells : Z -> option A) n,
  (forall i, 0 <= i < n -> cells i <> None) ->
  exists l, mapR (fun i => match cells i with None => Fault OutOfBounds | Some c => Val (f i c) end) (zseq n) = Val (map (fun e => f (fst e) (snd e)) l) /\
    map fst l = zseq n /\ (forall i c, In (i, c) l -> cells i = Some c).
Proof.
  intros ms A B f cells n H.
  assert (G : forall is, (forall i, In i is -> cells i <> None) ->
    exists l, mapR (fun i => match cells i with None => Fault OutOfBounds | Some c => Val (f i c) end) is = Val (map (fun e => f (fst e) (snd e)) l) /\
    map fst l = is /\ (forall i c, In (i, c) l -> cells i = Some c)).
  { induction is as [|i is IH]; intros Hi.
    - exists []. simpl. repeat split; auto. intros ? ? [].
    - destruct IH as [l [E [Hl Hc]]]; [intros; apply Hi; simpl; auto|].
      destruct (cells i) as [c|] eqn:Ei; [|exfalso; apply (Hi i); simpl; auto].
      exists ((i, c) :: l). simpl. rewrite Ei, E, Hl. repeat split; auto.
      intros j d [Hj|Hj]; [inversion Hj; subst; auto|auto]. }
  apply G. intros i Hi. apply in_zseq in Hi. auto.
Qed.

Lemma set_ok : forall ct m g e cells (cs : list cell) stride x y z n,
  wf_ct ct -> mem_ok m -> galloc ct m g e cells ->
  (forall i, 0 <= i < n -> in_dims (g_x g) (g_y g) (g_z g) (x + i) y z) ->
  (forall i, 0 <= i < n -> exists c, nth_error cs (Z.to_nat (i * stride)) = Some c /\ wf_cell (ct_ms ct) c) ->
  exists ops m',
    set_instance_functor (ct_ms ct) (g_data g) cs stride x y z n (mkAcc e 0 0) = Val ops /\
    exec ops m = Val m' /\ same_other m m' (blk g) /\
    galloc ct m' g e (fun x' y' z' => if (y' =? y) && (z' =? z) && (x <=? x') && (x' <? x + n)
                                      then nth (Z.to_nat ((x' - x) * stride)) cs [] else cells x' y' z').
Proof.
  intros ct m g e cells cs stride x y z n [Hw Hd] M G Hrow Hcs.
  pose proof (galloc_fits _ _ _ _ _ G) as F. destruct G as [X Y Zz C B S R].
  unfold set_instance_functor.
  destruct (mapR_nth_ok (ct_ms ct) cell (list mop)
     (fun i c => assign_ops (g_data g) (acc_add (with_index (mkAcc e 0 0) (gen_index e x y z)) i) (ct_ms ct) c)
     (fun i => nth_error cs (Z.to_nat (i * stride))) n) as [l [E [Hl Hc]]].
  { intros i Hi. destruct (Hcs i Hi) as [c [Hc _]]. congruence. }
  cbn [a_ext] in *. rewrite E. clear E.
  assert (Hlin : forall i c, In (i, c) l -> 0 <= i < n /\ nth_error cs (Z.to_nat (i * stride)) = Some c /\ wf_cell (ct_ms ct) c).
  { intros i c Hi. assert (Hz : 0 <= i < n) by (apply in_zseq; rewrite <- Hl; apply in_map_iff; exists (i, c); auto).
    split; auto. pose proof (Hc _ _ Hi) as Hn. destruct (Hcs i Hz) as [c' [Hc' Hwf]]. split; congruence. }
  set (l' := map (fun e0 : Z * cell => (gen_index e (x + fst e0) y z, snd e0)) l).
  assert (Hops : concat (map (fun e0 : Z * cell => assign_ops (g_data g) (acc_add (with_index (mkAcc e 0 0) (gen_index e x y z)) (fst e0)) (ct_ms ct) (snd e0)) l) =
    flat_map (fun e0 => map (fun '(sl, v) => Assign (sptr (g_data g) (DIM_PROD e) sl (fst e0)) (s_size sl) (s_class sl) v)
                                 (combine (slots (ct_ms ct)) (concat (snd e0)))) l').
  { unfold l'. rewrite flat_map_map, flat_map_concat_map. f_equal. apply map_ext_in. intros [i c] Hi. simpl fst; simpl snd.
    destruct (Hlin i c Hi) as [_ [_ Hwf]]. rewrite assign_canon by auto. simpl a_ext. apply map_ext. intros [sl v]. f_equal. f_equal.
    unfold idx. simpl. rewrite gen_index_row. lia. }
  rewrite Hops.
  destruct (region_assign (ct_ms ct) m (g_data g) (DIM_PROD e) (ci_of e (g_x g) (g_y g) (g_z g) cells) l') as [m' [E [SO R']]]; auto.
  { unfold l'. rewrite map_map. simpl. 
    assert (NoDup (map (fun i => gen_index e (x + i) y z) (map fst l))).
    { rewrite Hl. apply NoDup_map_inj; [|apply NoDup_zseq]. intros a b _ _ Eab. unfold gen_index in Eab. lia. }
    rewrite map_map in H. exact H. }
  { intros i c Hi. unfold l' in Hi. apply in_map_iff in Hi. destruct Hi as [[j d] [Ej Hi]]. simpl in Ej. inversion Ej; subst.
    destruct (Hlin j c Hi) as [Hj [_ Hwf]]. rewrite ci_of_gen by auto. split; auto. discriminate. }
  exists (flat_map (fun e0 => map (fun '(sl, v) => Assign (sptr (g_data g) (DIM_PROD e) sl (fst e0)) (s_size sl) (s_class sl) v)
                                 (combine (slots (ct_ms ct)) (concat (snd e0)))) l'), m'.
  split; auto. split; auto. split; auto. constructor; auto.
  eapply region_ext; [|exact R'].
  set (l3 := map (fun e0 : Z * cell => (x + fst e0, y, z, snd e0)) l).
  assert (Hl3 : map (fun e0 : Z * cell => (fst e0, Some (snd e0))) l' = map (fun '(x, y, z, c) => (gen_index e x y z, Some c)) l3).
  { unfold l', l3. rewrite !map_map. apply map_ext. intros [i c]. reflexivity. }
  intros i. rewrite Hl3. rewrite ci_cupd; auto.
  2:{ intros x' y' z' c Hi. unfold l3 in Hi. apply in_map_iff in Hi. destruct Hi as [[j d] [Ej Hi]]. simpl in Ej. inversion Ej; subst.
      apply Hrow. apply (Hlin j c Hi). }
  apply ci_of_ext. intros x' y' z' I.
  assert (Hcu : forall lx, (forall j c, In (j, c) lx -> nth_error cs (Z.to_nat (j * stride)) = Some c) ->
     cupd cells (map (fun e0 : Z * cell => (x + fst e0, y, z, snd e0)) lx) x' y' z' =
     if (y' =? y) && (z' =? z) && (existsb (fun j => x' =? x + j) (map fst lx))
     then nth (Z.to_nat ((x' - x) * stride)) cs [] else cells x' y' z').
  { clear -x. induction lx as [|[j c] lx IH]; intros H; simpl.
    - rewrite andb_false_r. reflexivity.
    - destruct (Z.eqb_spec x' (x + j)) as [->|N]; simpl.
      + destruct (Z.eqb_spec y' y); simpl; [|rewrite IH; auto; intros; apply H; simpl; auto].
        destruct (Z.eqb_spec z' z); simpl; [|rewrite IH; auto; intros; apply H; simpl; auto].
        replace (x + j - x) with j by lia. specialize (H j c (or_introl eq_refl)).
        rewrite (nth_error_nth _ _ _ H). reflexivity.
      + apply IH. intros; apply H; simpl; auto. }
  unfold l3. rewrite Hcu by (intros; apply Hlin; auto). rewrite Hl.
  assert (Hex : existsb (fun j => x' =? x + j) (zseq n) = (x <=? x') && (x' <? x + n)).
  { destruct (existsb _ _) eqn:Ee.
    - apply existsb_exists in Ee. destruct Ee as [j [Hj Ee]]. apply in_zseq in Hj. lia.
    - destruct ((x <=? x') && (x' <? x + n)) eqn:E2; auto.
      assert (existsb (fun j => x' =? x + j) (zseq n) = true); [|congruence].
      apply existsb_exists. exists (x' - x). rewrite in_zseq. lia. }
  rewrite Hex, <- !andb_assoc. reflexivity.
Qed.

Lemma galloc_ext : forall ct m g e cells cells',
  (forall x y z, in_dims (g_x g) (g_y g) (g_z g) x y z -> cells x y z = cells' x y z) ->
  galloc ct m g e cells -> galloc ct m g e cells'.
Proof.
  intros ct m g e cells cells' H G. destruct G. constructor; auto. eapply region_ext; [|eauto].
  apply ci_of_ext. auto.
Qed.

(** *** get *)
Lemma get_ok : forall ct m g e cells x y z n,
  wf_ct ct -> galloc ct m g e cells ->
  (forall i, 0 <= i < n -> in_dims (g_x g) (g_y g) (g_z g) (x + i) y z) ->
  g_get_n ct (m, g) x y z n = Ret (m, g) (map (fun i => cells (x + i) y z) (zseq n)).
Proof.
  intros ct m g e cells x y z n [Hw Hd] G Hrow. unfold g_get_n.
  rewrite (callback_ok _ _ _ _ _ _ e) by (destruct G; auto). unfold get_instance_functor.
  rewrite (mapR_Val _ _ _ (fun i => cells (x + i) y z)); auto.
  intros i Hi. apply in_zseq in Hi. pose proof (galloc_fits _ _ _ _ _ G) as F.
  eapply region_read_cell; eauto.
  - simpl. destruct G; eauto.
  - unfold idx. simpl. rewrite gen_index_row, Z.add_0_r. apply ci_of_gen; auto.
Qed.
