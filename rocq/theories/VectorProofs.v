(** soa_vector: what each member function does to the represented list, and the
    simulation of whole histories. *)
From Coq Require Import ZArith List Lia Bool.
From Verif Require Import Base Layout LayoutProofs Sizes SizesProofs Mem MemProofs Accessor AccessorProofs
  RegionProofs Grid SpecGrid GridProofs GridInv BufferProofs GridOps GridSim Array SpecArray ArrayProofs Vector SpecVector.
Import ListNotations.
Open Scope Z_scope.

(** *** count * 1.2 *)
Lemma rnd53_near : forall n, 2 ^ 53 <= n ->
  exists h, 0 < h /\ 2 ^ 53 * h <= n < 2 ^ 54 * h /\ (exists q, rnd53 n = q * (2 * h)) /\ n - h <= rnd53 n <= n + h /\
    exists k, 0 <= k <= Z.log2 n - 52 /\ 2 * h = 2 ^ k.
Proof.
  intros n Hn. unfold rnd53. destruct (Z.ltb_spec n (2 ^ 53)); [lia|].
  pose proof (Z.log2_spec n ltac:(lia)) as [L1 L2].
  assert (HL : 53 <= Z.log2 n) by (replace 53 with (Z.log2 (2 ^ 53)) by (rewrite Z.log2_pow2; lia); apply Z.log2_le_mono; lia).
  set (k := Z.log2 n - 52) in *. assert (Hk : 1 <= k) by (unfold k; lia).
  assert (E1 : 2 ^ k = 2 * 2 ^ (k - 1)) by (rewrite <- Z.pow_succ_r by lia; f_equal; lia).
  assert (E2 : 2 ^ Z.log2 n = 2 ^ 53 * 2 ^ (k - 1)) by (rewrite <- Z.pow_add_r by lia; f_equal; unfold k; lia).
  assert (E3 : 2 ^ Z.succ (Z.log2 n) = 2 ^ 54 * 2 ^ (k - 1)) by (rewrite <- Z.pow_add_r by lia; f_equal; unfold k; lia).
  assert (Hh : 0 < 2 ^ (k - 1)) by (apply Z.pow_pos_nonneg; lia).
  pose proof (Z.div_mod n (2 ^ k) ltac:(lia)) as D. pose proof (Z.mod_pos_bound n (2 ^ k) ltac:(lia)) as B.
  exists (2 ^ (k - 1)). split; [lia|]. split; [lia|]. rewrite <- E1.
  set (q := n / 2 ^ k) in *. set (r := n mod 2 ^ k) in *. set (h := 2 ^ (k - 1)) in *. clearbody q r h.
  destruct (Z.ltb_spec h r); cbn [orb].
  - split; [eauto|]. split; [nia|]. exists k. split; [lia|auto].
  - destruct (Z.eqb_spec r h); cbn [andb].
    + destruct (Z.odd q); (split; [eauto|]; split; [nia|]; exists k; split; [lia|auto]).
    + split; [eauto|]. split; [nia|]. exists k. split; [lia|auto].
Qed.

(** Exactly the fifth more, rounded down. *)
Lemma grow_floor : forall n, 0 <= n < 2 ^ 50 -> grow n = 6 * n / 5.
Proof.
  intros n Hn. unfold grow.
  assert (rnd53 n = n) as -> by (unfold rnd53; destruct (Z.ltb_spec n (2 ^ 53)); [auto|lia]).
  set (N := n * one_point_two). assert (H5 : 5 * N = 6 * 2 ^ 52 * n - n) by (unfold N, one_point_two; lia).
  pose proof (Z.div_mod (6 * n) 5 ltac:(lia)) as D. pose proof (Z.mod_pos_bound (6 * n) 5 ltac:(lia)) as B.
  destruct (Z.lt_ge_cases N (2 ^ 53)) as [Hs|Hs].
  - assert (n = 0 \/ n = 1) as [->| ->] by lia; reflexivity.
  - destruct (rnd53_near N Hs) as [h [H1 [H2 [[q Hq] [H3 [k [Hk1 Hk2]]]]]]].
    set (R := rnd53 N) in *. clearbody R. clearbody N.
    set (t := 6 * n / 5) in *. set (r := (6 * n) mod 5) in *. clearbody t r.
    assert (Hlow : 2 ^ 52 * t <= R).
    { destruct (Z.eq_dec r 0) as [->|Hr].
      - assert (Hu : exists u, n = 5 * u) by (exists (t - n); lia). destruct Hu as [u ->]. assert (t = 6 * u) by lia. subst t.
        assert (Hu : 0 <= u < h) by lia.
        assert (HT : exists s, 2 ^ 52 * (6 * u) = s * (2 * h)).
        { exists (2 ^ (52 - k) * (6 * u)). rewrite Hk2. replace (2 ^ 52) with (2 ^ (52 - k) * 2 ^ k); [ring|].
          rewrite <- Z.pow_add_r; [f_equal; lia| |lia].
          assert (Z.log2 N <= 104); [|lia]. apply Z.lt_succ_r. apply Z.log2_lt_pow2; [lia|].
          assert (2 ^ Z.succ 104 = 2 ^ 50 * 2 ^ 55) by reflexivity. lia. }
        destruct HT as [s Hs']. assert (N = 2 ^ 52 * (6 * u) - u) by lia.
        assert (Hqs : s - 1 < q) by (apply (Z.mul_lt_mono_pos_r (2 * h)); lia).
        rewrite Hs', Hq. apply Z.mul_le_mono_nonneg_r; lia.
      - lia. }
    symmetry. apply Z.div_unique with (r := R - 2 ^ 52 * t); [|lia]. left. lia.
Qed.

(** *** Size policies *)
Lemma first_fit_in : forall d L s, first_fit d L s -> In s L /\ d <= s.
Proof. intros d L s H. induction H; simpl; intuition. Qed.
Lemma first_fit_fun : forall d L s s', first_fit d L s -> first_fit d L s' -> s = s'.
Proof. intros d L s s' H. induction H; intros H'; inversion H'; subst; auto; lia. Qed.
(** Any size between the request and its fit has the same fit. *)
Lemma first_fit_between : forall d L s n, first_fit d L s -> d <= n <= s -> first_fit n L s.
Proof. intros d L s n H. induction H; intros B; [apply ff_here; lia|]. apply ff_next; [lia|auto]. Qed.
Lemma first_fit_room : forall L n, room L n -> exists s, first_fit n L s.
Proof.
  intros L n [s [H1 H2]]. destruct (fit_or_not n L) as [H|H]; auto. unfold no_fit in H. rewrite Forall_forall in H.
  specialize (H _ H1). lia.
Qed.
Lemma no_room : forall L n, ~ room L n -> no_fit n L.
Proof.
  intros L n H. unfold no_fit. apply Forall_forall. intros s Hs. destruct (Z.lt_ge_cases s n); auto.
  exfalso. apply H. exists s. auto.
Qed.
Lemma room_dec : forall L n, room L n \/ ~ room L n.
Proof.
  intros L n. destruct (fit_or_not n L) as [[s H]|H].
  - left. destruct (first_fit_in _ _ _ H). exists s. auto.
  - right. intros [s [H1 H2]]. unfold no_fit in H. rewrite Forall_forall in H. specialize (H _ H1). lia.
Qed.

Definition line (s : Z) : extent := mkExt s 1 1.
Lemma line_prod : forall s, DIM_PROD (line s) = s.
Proof. intros. unfold DIM_PROD, line. cbn [DIM_X DIM_Y DIM_Z]. lia. Qed.

Lemma line_choose : forall cfg L n s, line_policy cfg L -> first_fit n L s -> choose cfg n 1 1 = inr (line s).
Proof.
  intros cfg L n s [| |] H.
  - destruct (choose_default_cases n 1 1) as [[H1 _]|[[H1 _]|[_ ->]]]; [lia|lia|]. apply select_1d_inv. eauto.
  - unfold choose, select_sizes. apply select_1d_inv. eauto.
  - apply choose_custom_inv. exists s, 1, 1. split; [auto|]. split; auto. split; apply ff_here; lia.
Qed.
Lemma line_reject : forall cfg L n, line_policy cfg L -> no_fit n L -> choose cfg n 1 1 = inl OutOfRange.
Proof.
  intros cfg L n [| |] H.
  - destruct (choose_default_cases n 1 1) as [[H1 _]|[[H1 _]|[_ ->]]]; [lia|lia|].
    unfold select_1d. cbn [Z.eqb negb Pos.eqb]. apply case_chain_nofit. auto.
  - unfold choose, select_sizes, select_1d. cbn [Z.eqb negb Pos.eqb]. apply case_chain_nofit. auto.
  - unfold choose, select_sizes, bind_size_x. apply case_chain_nofit. auto.
Qed.

(** *** Cells without members of class type *)
Lemma region_sub : forall ms m p P ci ci',
  trivial ms -> region ms m p P ci -> (forall i c, ci' i = Some c -> ci i = Some c) -> region ms m p P ci'.
Proof.
  intros ms m p P ci ci' T R H. destruct R as [R1 R2 R3 R4 R5 R6]. constructor; auto.
  - intros i c sl v E. eauto.
  - intros o Ho. destruct (R6 o Ho) as [i [c [sl [_ [Hs [Hc _]]]]]]. rewrite (trivial_slots ms sl T Hs) in Hc. discriminate.
Qed.

Lemma region_assign_any : forall ms m p P ci i c,
  wf_members ms -> region ms m p P ci -> 0 <= i < P -> (trivial ms \/ ci i <> None) -> wf_cell ms c ->
  exists m',
    exec (map (fun '(sl, v) => Assign (sptr p P sl i) (s_size sl) (s_class sl) v) (combine (slots ms) (concat c))) m = Val m' /\
    same_other m m' (pb p) /\ region ms m' p P (upd ci [(i, Some c)]).
Proof.
  intros ms m p P ci i c Hw R Hi HT Hc. pose proof (length_slots_from ms 0 c Hc) as Hlen. fold (slots ms) in Hlen.
  assert (Hfst : map fst (combine (slots ms) (concat c)) = slots ms) by (apply combine_fst; auto).
  assert (Hkk : map (fun k : slot * elem => (fst k, i)) (combine (slots ms) (concat c)) = map (fun sl => (sl, i)) (slots ms)).
  { rewrite <- Hfst at 2. rewrite map_map. reflexivity. }
  assert (HX : exists m', exec (map (fun k : slot * elem => Assign (sptr p P (fst k) i) (s_size (fst k)) (s_class (fst k)) (snd k)) (combine (slots ms) (concat c))) m = Val m' /\
    same_other m m' (pb p) /\ region ms m' p P (upd ci [(i, Some c)])).
  { apply (step_region ms P p ci m Hw R (slot * elem) fst (fun _ => i)).
    - repeat constructor. auto.
    - intros j d [E|[]]. inversion E; subst. auto.
    - rewrite Hkk. apply NoDup_map_inj; [|apply slots_NoDup; auto]. intros a b _ _ E. inversion E; auto.
    - intros sl j. rewrite Hkk, in_map_iff. cbn [map fst In]. split.
      + intros [s [E H]]. inversion E; subst. auto.
      + intros [H [<-|[]]]. eauto.
    - reflexivity.
    - reflexivity.
    - intros k _. exact I.
    - intros [sl v] Hk. cbn [fst snd]. pose proof (in_combine_l _ _ _ _ Hk) as Hs.
      cbn [exec1]. rewrite (region_bounds ms m p P ci) by auto.
      pose proof (wf_cell_sizes ms c 0 Hc) as G. rewrite Forall_forall in G. specialize (G _ Hk). simpl in G.
      assert (val_ok v (s_size sl) = true) as -> by (unfold val_ok; lia). cbn [negb].
      destruct (s_class sl) eqn:Ec; cbn [andb]; [|eauto].
      destruct HT as [T|T]; [rewrite (trivial_slots ms sl T Hs) in Ec; discriminate|].
      destruct (ci i) as [d|] eqn:E2; [|congruence]. rewrite (region_live ms m p P ci i d sl) by auto. cbn [negb]. eauto.
    - intros [sl v] d w Hk [E|[]] Hv. inversion E; subst d. cbn [fst snd op_val op_live] in *. split.
      + eapply combine_NoDup_fun; eauto. apply slots_NoDup; auto.
      + intros Ec. destruct HT as [T|T]; [rewrite (trivial_slots ms sl T (in_combine_l _ _ _ _ Hk)) in Ec; discriminate|].
        destruct (ci i) as [d|] eqn:E2; [|congruence]. apply (region_live ms m p P ci i d sl); auto. eapply in_combine_l; eauto.
    - intros [sl v] Hk [[E|[]]|Ec]; [discriminate|]. cbn [fst snd op_live] in *.
      eapply region_trivial_dead; eauto. eapply in_combine_l; eauto. }
  destruct HX as [m' [E H]]. exists m'. split; auto. rewrite <- E. f_equal. apply map_ext. intros [sl v]. reflexivity.
Qed.

(** *** Line-shaped grids *)
Lemma ci_line : forall E d cells i, 0 <= d <= E ->
  ci_of (line E) d 1 1 cells i = if (0 <=? i) && (i <? d) then Some (cells i 0 0) else None.
Proof.
  intros E d cells i H. unfold ci_of, line. cbn [DIM_X DIM_Y DIM_Z]. rewrite Z.mod_1_r, Z.div_1_r.
  destruct (Z.eq_dec E 0) as [->|HE].
  - assert (d = 0) by lia. subst d. destruct (Z.leb_spec 0 i); destruct (Z.ltb_spec i 0); try lia; cbn [andb]; auto.
    + destruct (Z.ltb_spec (i mod 0) 0); destruct (Z.leb_spec 0 (i mod 0)); try lia; reflexivity.
    + destruct (Z.ltb_spec (i mod 0) 0); destruct (Z.leb_spec 0 (i mod 0)); try lia; cbn [andb]; auto.
  - pose proof (Z.mod_pos_bound i E ltac:(lia)) as B. pose proof (Z.div_mod i E ltac:(lia)) as D.
    assert ((0 <=? i mod E) = true) as -> by lia. cbn [andb Z.leb Z.ltb Z.compare]. rewrite andb_true_r.
    destruct (Z.leb_spec 0 i) as [Hi|Hi]; destruct (Z.ltb_spec i d) as [Hd|Hd]; cbn [andb].
    + assert (E1 : i / E = 0) by (apply Z.div_small; lia). assert (E2 : i mod E = i) by (apply Z.mod_small; lia).
      rewrite E1, E2. assert ((i <? d) = true) as -> by lia. reflexivity.
    + destruct (Z.lt_ge_cases i E) as [HL|HL].
      * assert (E2 : i mod E = i) by (apply Z.mod_small; lia). rewrite E2. assert ((i <? d) = false) as -> by lia. reflexivity.
      * assert (1 <= i / E) by (apply Z.div_le_lower_bound; lia). assert ((i / E <? 1) = false) as -> by lia. rewrite andb_false_r. reflexivity.
    + assert (i / E < 0) by (apply Z.div_lt_upper_bound; lia). assert ((0 <=? i / E) = false) as -> by lia. rewrite andb_false_r. reflexivity.
    + lia.
Qed.

Lemma gen_line : forall E x, gen_index (line E) x 0 0 = x.
Proof. intros. unfold gen_index. lia. Qed.

Lemma supported_line : forall cfg L n s, line_policy cfg L -> first_fit n L s -> supported cfg n 1 1.
Proof. intros. apply choose_supported. exists (line s). eapply line_choose; eauto. Qed.

(** A fresh one-dimensional grid. *)
Definition grid_is (ct : celltype) (m : mem) (g : grid) (n E : Z) (cells : cellmap) : Prop :=
  galloc ct m g (line E) cells /\ g_x g = n /\ g_y g = 1 /\ g_z g = 1 /\ g_ex g = Some E.

Lemma grid_resized : forall ct L m g A n E,
  wf_ct ct -> line_policy (ct_sizes ct) L -> mem_ok m -> grep ct m g A -> 0 <= n -> first_fit n L E ->
  exists m' g', resize_to ct (m, g) n 1 1 = Ret (m', g') tt /\ gframe m (blk g) m' (blk g') /\
    grid_is ct m' g' n E (fun _ _ _ => default_cell (ct_ms ct)) /\ (mnext m <= blk g')%nat.
Proof.
  intros ct L m g A n E W P M G Hn H. pose proof (line_choose _ _ _ _ P H) as C.
  destruct (resize_to_ok ct m g A n 1 1 W M G Hn ltac:(lia) ltac:(lia)) as [m' [g' [E1 [F [G' [[e [Ce [Ex [_ [_ _]]]]] B]]]]]].
  { eapply supported_line; eauto. }
  exists m', g'. split; auto. split; auto. split; auto. rewrite C in Ce. inversion Ce; subst e.
  destruct G' as [X [Y [Zz [e GA]]]]. cbn [ag_x ag_y ag_z ag_cells new_grid] in *.
  assert (e = line E). { pose proof (ga_choose _ _ _ _ _ GA) as C'. rewrite X, Y, Zz, C in C'. congruence. } subst e.
  split; auto.
Qed.

Lemma g_new_line : forall ct m n, g_new ct m n 1 1 = resize_to ct (m, mkGrid 0 0 0 None None None None null) n 1 1.
Proof. intros. unfold g_new, g_resize. cbn [g_x g_y g_z]. rewrite andb_false_r. reflexivity. Qed.

Lemma grid_new_ok : forall ct L m n E,
  wf_ct ct -> line_policy (ct_sizes ct) L -> mem_ok m -> 0 <= n -> first_fit n L E ->
  exists m' g, g_new ct m n 1 1 = Ret (m', g) tt /\ gframe m 0 m' (blk g) /\
    grid_is ct m' g n E (fun _ _ _ => default_cell (ct_ms ct)).
Proof.
  intros ct L m n E W P M Hn H. rewrite g_new_line.
  destruct (grid_resized ct L m _ _ n E W P M (fresh_rep ct m (fun _ _ _ => [])) Hn H) as [m' [g [E1 [F [G _]]]]]. eauto 6.
Qed.

Lemma grid_new_throw : forall ct L m n,
  line_policy (ct_sizes ct) L -> no_fit n L -> exists g, g_new ct m n 1 1 = Thr (m, g) OutOfRange.
Proof.
  intros ct L m n P H. apply new_rejected; [congruence|].
  intros C. apply choose_supported in C. destruct C as [e C]. rewrite (line_reject _ _ _ P H) in C. discriminate.
Qed.

Lemma gframe_replace : forall m m3 m4 b bn,
  mem_ok m -> gframe m 0 m3 bn -> gframe m3 b m4 0 -> gframe m b m4 bn.
Proof.
  intros m m3 m4 b bn M [O1 N1 W1 T1 L1] [O2 N2 W2 T2 L2]. constructor; auto.
  - lia.
  - destruct W1 as [H|[H|H]]; auto.
  - intros c H1 H2 H3. destruct (T1 c) as [A1 [A2 A3]]; auto. destruct (T2 c) as [B1 [B2 B3]]; auto; [lia|].
    rewrite B1. split; auto. split; intros; [rewrite B2|rewrite B3]; auto.
  - intros c n Hc. destruct (L2 c n Hc) as [->|[H1 H2]].
    + destruct O2 as [_ [O2 _]]. congruence.
    + destruct (L1 c n H2) as [->|[H3 H4]]; auto.
Qed.

(** *** The represented list *)
Record vrep_at (ct : celltype) (L : list Z) (m : mem) (v : vec) (a : avec) (E : Z) (ci : Z -> option cell) : Prop := {
  vr_count : v_count v = len (av_l a);
  vr_cap : g_x (v_grid v) = av_cap a;
  vr_cap0 : 0 <= av_cap a;
  vr_y : g_y (v_grid v) = 1;
  vr_z : g_z (v_grid v) = 1;
  vr_fit : first_fit (av_cap a) L E;
  vr_blk : blk (v_grid v) <> 0%nat;
  vr_bs : g_bs (v_grid v) = Some (total (ct_ms ct) * E);
  vr_ext : g_ex (v_grid v) = if av_ext a then Some E else None;
  vr_le : len (av_l a) <= E;
  vr_full : av_full a = true -> av_cap a = E;
  vr_small : trivial (ct_ms ct) \/ len (av_l a) <= av_cap a;
  vr_region : region (ct_ms ct) m (g_data (v_grid v)) E ci;
  vr_in : forall i, 0 <= i < av_cap a -> ci i <> None;
  vr_out : trivial (ct_ms ct) \/ forall i, av_cap a <= i -> ci i = None;
  vr_l : forall i, 0 <= i < len (av_l a) -> ci i = nth_error (av_l a) (Z.to_nat i) }.
Definition vrep (ct : celltype) (L : list Z) (m : mem) (v : vec) (a : avec) : Prop := exists E ci, vrep_at ct L m v a E ci.

Lemma vrep_frame : forall ct L m m' v a b b',
  mem_ok m -> vrep ct L m v a -> gframe m b m' b' -> blk (v_grid v) <> b -> vrep ct L m' v a.
Proof.
  intros ct L m m' v a b b' M [E [ci R]] F Hb. exists E, ci. destruct R. constructor; auto.
  assert (Hlt : (blk (v_grid v) < mnext m)%nat).
  { destruct (Nat.lt_ge_cases (blk (v_grid v)) (mnext m)) as [|C]; auto. destruct M as [_ [_ M]]. apply M in C.
    pose proof (rg_size _ _ _ _ _ vr_region0) as S. unfold blk in C. congruence. }
  destruct (gf_other _ _ _ _ F (blk (v_grid v))) as [A1 [A2 A3]]; auto. eapply region_frame; eauto.
Qed.
Lemma vrep_lt : forall ct L m v a, mem_ok m -> vrep ct L m v a -> (blk (v_grid v) < mnext m)%nat.
Proof.
  intros ct L m v a M [E [ci R]]. destruct (Nat.lt_ge_cases (blk (v_grid v)) (mnext m)) as [|C]; auto.
  destruct M as [_ [_ M]]. apply M in C. pose proof (rg_size _ _ _ _ _ (vr_region _ _ _ _ _ _ _ R)) as S. unfold blk in C. congruence.
Qed.

(** The cells below the capacity are a grid of that size. *)
Lemma vrep_galloc : forall ct L m v a E ci,
  line_policy (ct_sizes ct) L -> vrep_at ct L m v a E ci ->
  galloc ct m (v_grid v) (line E) (fun x _ _ => match ci x with Some c => c | None => [] end).
Proof.
  intros ct L m v a E ci P R. pose proof (first_fit_in _ _ _ (vr_fit _ _ _ _ _ _ _ R)) as [_ HE].
  destruct R. constructor; rewrite ?vr_cap1, ?vr_y0, ?vr_z0, ?line_prod; try lia; auto.
  - eapply line_choose; eauto.
  - assert (EQ : forall i, 0 <= i < av_cap a -> ci i = Some (match ci i with Some c => c | None => [] end)).
    { intros i Hi. specialize (vr_in0 i Hi). destruct (ci i); congruence. }
    destruct vr_out0 as [T|O].
    + eapply region_sub; [exact T|exact vr_region0|]. intros i c. rewrite ci_line by lia.
      destruct (Z.leb_spec 0 i); destruct (Z.ltb_spec i (av_cap a)); cbn [andb]; try discriminate.
      intros H1. rewrite EQ by lia. auto.
    + eapply region_ext; [|exact vr_region0]. intros i. rewrite ci_line by lia.
      destruct (Z.leb_spec 0 i); destruct (Z.ltb_spec i (av_cap a)); cbn [andb]; auto.
      destruct (ci i) eqn:Ei; auto. apply (rg_cell _ _ _ _ _ vr_region0) in Ei. lia.
Qed.

(** Conversely. *)
Lemma galloc_vrep : forall ct L m g E cells l n (full ext : bool),
  galloc ct m g (line E) cells -> g_x g = n -> g_y g = 1 -> g_z g = 1 -> first_fit n L E ->
  g_ex g = (if ext then Some E else None) -> (full = true -> n = E) -> len l <= n ->
  (forall i c, nth_error l (Z.to_nat i) = Some c -> 0 <= i -> cells i 0 0 = c) ->
  vrep ct L m (mkVec g (len l)) (mkAV l n full ext).
Proof.
  intros ct L m g E cells l n full ext G X Y Zz F He Hf Hl Hc.
  pose proof (first_fit_in _ _ _ F) as [_ HE]. destruct G as [G1 G2 G3 G4 G5 G6 G7]. rewrite line_prod in *. rewrite X, Y, Zz in G7.
  exists E, (ci_of (line E) n 1 1 cells). constructor; cbn [v_count v_grid av_l av_cap av_full av_ext]; auto; try lia.
  - intros i Hi. rewrite ci_line by lia. assert ((0 <=? i) && (i <? n) = true) as -> by lia. discriminate.
  - right. intros i Hi. rewrite ci_line by lia. assert ((0 <=? i) && (i <? n) = false) as -> by lia. reflexivity.
  - intros i Hi. rewrite ci_line by lia. assert ((0 <=? i) && (i <? n) = true) as -> by lia.
    destruct (nth_error l (Z.to_nat i)) as [c|] eqn:En; [|apply nth_error_None in En; unfold len in Hi; lia].
    erewrite Hc; eauto. lia.
Qed.

Lemma nth_error_repeat' : forall (A : Type) (x y : A) n i, nth_error (repeat x n) i = Some y -> y = x.
Proof. intros A x y n i H. apply nth_error_In in H. apply repeat_spec in H. auto. Qed.
Lemma len_repeat : forall (c : cell) n, 0 <= n -> len (repeat c (Z.to_nat n)) = n.
Proof. intros. unfold len. rewrite repeat_length. lia. Qed.

(** *** Constructors *)
Lemma v_new_ok : forall ct L m n,
  wf_ct ct -> line_policy (ct_sizes ct) L -> mem_ok m -> 0 <= n -> room L n ->
  exists m' v, v_new ct m n = Ret (m', v) tt /\ gframe m 0 m' (blk (v_grid v)) /\
    vrep ct L m' v (mkAV (repeat (default_value (ct_ms ct)) (Z.to_nat n)) n false true).
Proof.
  intros ct L m n W P M Hn R. destruct (first_fit_room _ _ R) as [E FF]. unfold v_new.
  destruct (grid_new_ok ct L m n E W P M Hn FF) as [m' [g [-> [F [G [X [Y [Zz Ex]]]]]]]].
  exists m', (mkVec g n). split; auto. split; auto.
  replace (mkVec g n) with (mkVec g (len (repeat (default_value (ct_ms ct)) (Z.to_nat n)))) by (rewrite len_repeat; auto).
  eapply galloc_vrep; eauto; try discriminate.
  - rewrite len_repeat; lia.
  - intros i c H _. apply nth_error_repeat' in H. symmetry. exact H.
Qed.
Lemma v_new_throw : forall ct L m n, line_policy (ct_sizes ct) L -> ~ room L n ->
  exists v, v_new ct m n = Thr (m, v) OutOfRange.
Proof. intros ct L m n P R. unfold v_new. destruct (grid_new_throw ct L m n P (no_room _ _ R)) as [g ->]. eauto. Qed.

Lemma v_new_fill_ok : forall ct L m n c,
  wf_ct ct -> line_policy (ct_sizes ct) L -> mem_ok m -> 0 <= n -> wf_cell (ct_ms ct) c -> room L n ->
  exists m' v, v_new_fill ct m n c = Ret (m', v) tt /\ gframe m 0 m' (blk (v_grid v)) /\
    vrep ct L m' v (mkAV (repeat c (Z.to_nat n)) n false true).
Proof.
  intros ct L m n c W P M Hn Hc R. destruct (first_fit_room _ _ R) as [E FF]. unfold v_new_fill, v_new.
  destruct (grid_new_ok ct L m n E W P M Hn FF) as [m' [g [-> [F [G [X [Y [Zz Ex]]]]]]]].
  cbn [obind on_grid v_grid v_count g_broadcast]. rewrite (callback_ok _ _ _ _ _ _ (line E)) by (apply (ga_choose _ _ _ _ _ G)).
  destruct (set_ok ct m' g (line E) _ [c] 0 0 0 0 n W (gf_ok _ _ _ _ F) G) as [ops [m2 [-> [-> [SO G2]]]]].
  { intros i Hi. unfold in_dims. lia. }
  { intros i Hi. rewrite Z.mul_0_r. exists c. auto. }
  cbn [run]. exists m2, (mkVec g n). split; auto. split.
  { cbn [v_grid]. unfold blk in *. eapply same_other_frame0; eauto. }
  replace (mkVec g n) with (mkVec g (len (repeat c (Z.to_nat n)))) by (rewrite len_repeat; auto).
  eapply galloc_vrep; eauto; try discriminate.
  - rewrite len_repeat; lia.
  - intros i d H H0. assert (Hi : (Z.to_nat i < length (repeat c (Z.to_nat n)))%nat) by (apply nth_error_Some; congruence).
    apply nth_error_repeat' in H. subst d. rewrite repeat_length in Hi. cbn beta.
    assert ((0 =? 0) && (0 =? 0) && (0 <=? i) && (i <? 0 + n) = true) as -> by lia. rewrite Z.mul_0_r. reflexivity.
Qed.
Lemma v_new_fill_throw : forall ct L m n c, line_policy (ct_sizes ct) L -> ~ room L n ->
  exists v, v_new_fill ct m n c = Thr (m, v) OutOfRange.
Proof. intros ct L m n c P R. unfold v_new_fill. destruct (v_new_throw ct L m n P R) as [v ->]. cbn [obind]. eauto. Qed.

(** *** set, get, callback *)
Lemma v_write_ok : forall ct L m v a E ci i c,
  wf_ct ct -> line_policy (ct_sizes ct) L -> vrep_at ct L m v a E ci ->
  0 <= i < E -> (trivial (ct_ms ct) \/ i < av_cap a) -> wf_cell (ct_ms ct) c ->
  exists m', v_set ct (m, v) i c = Ret (m', v) tt /\ same_other m m' (blk (v_grid v)) /\
    region (ct_ms ct) m' (g_data (v_grid v)) E (upd ci [(i, Some c)]).
Proof.
  intros ct L m [g n] a E ci i c [Hw Hd] P R Hi HT Hc. pose proof (ga_choose _ _ _ _ _ (vrep_galloc _ _ _ _ _ _ _ P R)) as C.
  cbn [v_grid] in C. unfold v_set, on_grid, g_set. cbn [v_grid v_count].
  rewrite (callback_ok _ _ _ _ _ _ (line E) C). unfold set_instance_functor. change (zseq 1) with [0]. cbn [mapR].
  change (Z.to_nat (0 * 1)) with 0%nat. cbn [nth_error concat]. rewrite app_nil_r. rewrite assign_canon by auto.
  replace (idx (acc_add (with_index (mkAcc (line E) 0 0) (gen_index (a_ext (mkAcc (line E) 0 0)) i 0 0)) 0)) with i
    by (unfold idx; cbn [acc_add with_index a_ext a_index a_INDEX line DIM_X DIM_Y DIM_Z]; unfold gen_index; lia).
  cbn [acc_add with_index a_ext]. rewrite line_prod.
  destruct (region_assign_any (ct_ms ct) m (g_data g) E ci i c Hw (vr_region _ _ _ _ _ _ _ R) Hi) as [m' [Ex [SO R']]]; auto.
  { destruct HT as [T|T]; auto. right. apply (vr_in _ _ _ _ _ _ _ R). lia. }
  rewrite Ex. cbn [run]. exists m'. auto.
Qed.

Lemma upd1 : forall ci i c j, upd ci [(i, c)] j = if j =? i then c else ci j.
Proof. reflexivity. Qed.

Lemma len_app : forall l r, len (l ++ r) = len l + len r.
Proof. intros. unfold len. rewrite app_length. lia. Qed.

Lemma v_set_ok : forall ct L m v a i c,
  wf_ct ct -> line_policy (ct_sizes ct) L -> vrep ct L m v a -> 0 <= i < len (av_l a) -> wf_cell (ct_ms ct) c ->
  exists m', v_set ct (m, v) i c = Ret (m', v) tt /\ same_other m m' (blk (v_grid v)) /\
    vrep ct L m' v (mkAV (over (av_l a) (Z.to_nat i) [c]) (av_cap a) (av_full a) (av_ext a)).
Proof.
  intros ct L m v a i c W P [E [ci R]] Hi Hc. pose proof (vr_le _ _ _ _ _ _ _ R) as Hle.
  destruct (v_write_ok ct L m v a E ci i c W P R) as [m' [Ex [SO R']]]; auto; [lia| |].
  { destruct (vr_small _ _ _ _ _ _ _ R); [auto|right; lia]. }
  exists m'. split; auto. split; auto. exists E, (upd ci [(i, Some c)]).
  assert (HL : len (over (av_l a) (Z.to_nat i) [c]) = len (av_l a)) by (unfold len in *; rewrite length_over; cbn [length]; lia).
  destruct R. constructor; cbn [av_l av_cap av_full av_ext]; rewrite ?HL; auto.
  - intros j Hj. rewrite upd1. destruct (j =? i); [discriminate|auto].
  - destruct vr_out0 as [T|O]; auto. destruct vr_small0 as [T|S]; auto. right. intros j Hj. rewrite upd1. destruct (Z.eqb_spec j i); [lia|auto].
  - intros j Hj. rewrite upd1. unfold len in *. rewrite nth_error_over by lia. cbn [length].
    destruct (Z.eqb_spec j i) as [->|N].
    + destruct (Nat.ltb_spec (Z.to_nat i) (Z.to_nat i)); [lia|]. destruct (Nat.ltb_spec (Z.to_nat i) (Z.to_nat i + 1)); [|lia].
      rewrite Nat.sub_diag. reflexivity.
    + destruct (Nat.ltb_spec (Z.to_nat j) (Z.to_nat i)); [auto|]. destruct (Nat.ltb_spec (Z.to_nat j) (Z.to_nat i + 1)); [lia|auto].
Qed.

Lemma v_put_ok : forall ct L m v a E ci c,
  wf_ct ct -> line_policy (ct_sizes ct) L -> vrep_at ct L m v a E ci -> len (av_l a) < E ->
  (trivial (ct_ms ct) \/ len (av_l a) < av_cap a) -> wf_cell (ct_ms ct) c ->
  exists m', v_set ct (m, v) (v_count v) c = Ret (m', v) tt /\ same_other m m' (blk (v_grid v)) /\
    vrep ct L m' (mkVec (v_grid v) (v_count v + 1)) (mkAV (av_l a ++ [c]) (av_cap a) (av_full a) (av_ext a)).
Proof.
  intros ct L m v a E ci c W P R HE HT Hc. pose proof (vr_count _ _ _ _ _ _ _ R) as HN.
  assert (H0 : 0 <= len (av_l a)) by (unfold len; lia).
  destruct (v_write_ok ct L m v a E ci (v_count v) c W P R) as [m' [Ex [SO R']]]; auto; [lia| |].
  { destruct HT; [auto|right; lia]. }
  exists m'. split; auto. split; auto. exists E, (upd ci [(v_count v, Some c)]).
  destruct R. constructor; cbn [av_l av_cap av_full av_ext v_grid v_count]; rewrite ?len_app; auto.
  - rewrite HN. reflexivity.
  - unfold len at 2. cbn. lia.
  - destruct HT; auto. right. unfold len at 2. cbn. lia.
  - intros j Hj. rewrite upd1. destruct (j =? v_count v); [discriminate|auto].
  - destruct vr_out0 as [T|O]; auto. destruct HT as [T|T]; auto. right. intros j Hj. rewrite upd1. destruct (Z.eqb_spec j (v_count v)); [lia|auto].
  - intros j Hj. rewrite upd1. change (len [c]) with 1 in Hj. rewrite HN. destruct (Z.eqb_spec j (len (av_l a))) as [->|N].
    + unfold len. rewrite Nat2Z.id, nth_error_app2, Nat.sub_diag by lia. reflexivity.
    + rewrite nth_error_app1 by (unfold len in *; lia). apply vr_l0. lia.
Qed.

Lemma v_pop_ok : forall ct L m v a l x,
  wf_ct ct -> line_policy (ct_sizes ct) L -> vrep ct L m v a -> av_l a = l ++ [x] ->
  exists m' , v_pop ct (m, v) = Ret (m', mkVec (v_grid v) (v_count v - 1)) tt /\ same_other m m' (blk (v_grid v)) /\
    vrep ct L m' (mkVec (v_grid v) (v_count v - 1)) (mkAV l (av_cap a) (av_full a) (av_ext a)).
Proof.
  intros ct L m v a l x W P [E [ci R]] El. pose proof (vr_count _ _ _ _ _ _ _ R) as HN. pose proof (vr_le _ _ _ _ _ _ _ R) as Hle.
  assert (HL : len (av_l a) = len l + 1) by (rewrite El, len_app; reflexivity).
  assert (H0 : 0 <= len l) by (unfold len; lia).
  assert (Q : vrep_at ct L m (mkVec (v_grid v) (v_count v - 1)) (mkAV l (av_cap a) (av_full a) (av_ext a)) E ci).
  { destruct R. constructor; cbn [av_l av_cap av_full av_ext v_grid v_count]; auto; try lia.
    - destruct vr_small0; [auto|right; lia].
    - intros i Hi. rewrite vr_l0 by lia. rewrite El, nth_error_app1; auto. unfold len in Hi. lia. }
  unfold v_pop. cbn [fst snd v_grid v_count].
  destruct (v_write_ok ct L m (mkVec (v_grid v) (v_count v - 1)) _ E ci (v_count v - 1) (value_init (ct_ms ct)) W P Q) as [m' [Ex [SO R']]].
  { lia. } { destruct (vr_small _ _ _ _ _ _ _ R); [auto|right; cbn [av_cap]; lia]. }
  { apply (default_cell_wf (ct_ms ct)). apply W. }
  exists m'. split; auto. split; auto. exists E, (upd ci [(v_count v - 1, Some (value_init (ct_ms ct)))]).
  cbn [v_grid] in R'. destruct Q. constructor; auto; cbn [av_l av_cap v_grid v_count] in *.
  - intros j Hj. rewrite upd1. destruct (j =? v_count v - 1); [discriminate|auto].
  - destruct vr_out0 as [T|O]; auto. destruct (vr_small _ _ _ _ _ _ _ R) as [T|S]; auto. right. intros j Hj. rewrite upd1.
    destruct (Z.eqb_spec j (v_count v - 1)); [lia|auto].
  - intros j Hj. rewrite upd1. destruct (Z.eqb_spec j (v_count v - 1)); [lia|auto].
Qed.

Lemma v_get_ok : forall ct L m v a i c,
  wf_ct ct -> line_policy (ct_sizes ct) L -> vrep ct L m v a -> 0 <= i -> nth_error (av_l a) (Z.to_nat i) = Some c ->
  v_get ct (m, v) i = Ret (m, v) c.
Proof.
  intros ct L m [g n] a i c [Hw Hd] P [E [ci R]] Hi Hn. pose proof (ga_choose _ _ _ _ _ (vrep_galloc _ _ _ _ _ _ _ P R)) as C.
  assert (Hl : (Z.to_nat i < length (av_l a))%nat) by (apply nth_error_Some; congruence).
  cbn [v_grid] in C. unfold v_get, on_grid, g_get, g_get_n. cbn [v_grid v_count].
  rewrite (callback_ok _ _ _ _ _ _ (line E) C). unfold get_instance_functor. change (zseq 1) with [0]. cbn [mapR].
  rewrite (region_read_cell (ct_ms ct) m (g_data g) _ ci c Hw).
  - reflexivity.
  - cbn [acc_add with_index a_ext]. rewrite line_prod. apply (vr_region _ _ _ _ _ _ _ R).
  - replace (idx (acc_add (with_index (mkAcc (line E) 0 0) (gen_index (a_ext (mkAcc (line E) 0 0)) i 0 0)) 0)) with i
      by (unfold idx; cbn [acc_add with_index a_ext a_index a_INDEX line DIM_X DIM_Y DIM_Z]; unfold gen_index; lia).
    rewrite (vr_l _ _ _ _ _ _ _ R); auto. unfold len. lia.
Qed.

Lemma map_nth_zseq : forall (l : list cell) n, (n <= length l)%nat -> map (fun i => nth (Z.to_nat i) l []) (zseq (Z.of_nat n)) = firstn n l.
Proof.
  intros l n H. unfold zseq. rewrite Nat2Z.id, map_map. 
  assert (G : forall k, (k + n <= length l)%nat -> map (fun x => nth (Z.to_nat (Z.of_nat x)) l []) (seq k n) = firstn n (skipn k l)).
  { clear H. induction n as [|n IH]; intros k Hk; [reflexivity|]. cbn [seq map]. rewrite IH by lia. rewrite Nat2Z.id.
    clear IH. revert l Hk. induction k as [|k IH]; intros [|c l] Hk; cbn [length] in Hk; try lia; [reflexivity|].
    cbn [nth skipn]. apply (IH l). lia. }
  rewrite G by lia. reflexivity.
Qed.

Lemma v_callback_ok : forall ct L m v a n,
  wf_ct ct -> line_policy (ct_sizes ct) L -> vrep ct L m v a -> 0 <= n <= len (av_l a) ->
  v_callback_read ct (m, v) n = Ret (m, v) (firstn (Z.to_nat n) (av_l a)).
Proof.
  intros ct L m [g k] a n [Hw Hd] P [E [ci R]] Hn. pose proof (ga_choose _ _ _ _ _ (vrep_galloc _ _ _ _ _ _ _ P R)) as C.
  cbn [v_grid] in C. unfold v_callback_read, on_grid. cbn [v_grid v_count fst snd].
  rewrite (callback_ok _ _ _ _ _ _ (line E) C).
  rewrite (mapR_Val _ _ _ (fun i => nth (Z.to_nat i) (av_l a) [])).
  - rewrite <- map_nth_zseq by (unfold len in Hn; lia). rewrite Z2Nat.id by lia. reflexivity.
  - intros i Hi. apply in_zseq in Hi. eapply region_read_cell; eauto.
    + cbn [acc_add a_ext]. rewrite line_prod. apply (vr_region _ _ _ _ _ _ _ R).
    + replace (idx (acc_add (mkAcc (line E) 0 0) i)) with i by (unfold idx; cbn [acc_add a_ext a_index a_INDEX line DIM_X DIM_Y DIM_Z]; lia).
      rewrite (vr_l _ _ _ _ _ _ _ R) by lia. apply nth_error_nth'. unfold len in Hn. lia.
Qed.

(** *** reserve *)
Lemma destroy_old : forall ct L m v a h,
  wf_ct ct -> line_policy (ct_sizes ct) L -> mem_ok m -> vrep ct L m v a -> g_y h = 1 -> g_z h = 1 ->
  let old := mkGrid (g_x (v_grid v)) (g_y h) (g_z h) (g_ex (v_grid v)) (g_ey h) (g_ez h) (g_bs (v_grid v)) (g_data (v_grid v)) in
  exists m', g_destroy ct (m, old) = Ret (m', old) tt /\ gframe m (blk (v_grid v)) m' 0.
Proof.
  intros ct L m v a h W P M [E [ci R]] Hy Hz old.
  pose proof (vrep_galloc _ _ _ _ _ _ _ P R) as G.
  assert (G' : galloc ct m old (line E) (fun x _ _ => match ci x with Some c => c | None => [] end)).
  { destruct G as [G1 G2 G3 G4 G5 G6 G7]. rewrite (vr_y _ _ _ _ _ _ _ R), (vr_z _ _ _ _ _ _ _ R) in *.
    constructor; unfold old, blk; cbn [g_x g_y g_z g_bs g_data]; rewrite ?Hy, ?Hz; auto. }
  destruct (destroy_ok ct m old (mkAG (g_x old) (g_y old) (g_z old) false (fun x _ _ => match ci x with Some c => c | None => [] end)) W M) as [m' [E1 F]].
  { repeat split. exists (line E). exact G'. }
  exists m'. split; auto.
Qed.

Lemma load_line_ok : forall ct m h E cells q Q cj n,
  wf_ct ct -> galloc ct m h (line E) cells -> g_x h = E -> g_y h = 1 -> g_z h = 1 ->
  region (ct_ms ct) m q Q cj -> pb q <> blk h -> 0 <= n <= E -> (forall i, 0 <= i < n -> cj i <> None) ->
  exists m', g_load_streaks ct (m, h) [(0, 0, 0, n)] q Q = Ret (m', h) tt /\ same_other m m' (blk h) /\
    galloc ct m' h (line E) (fun x _ _ => if x <? n then match cj x with Some c => c | None => [] end else cells x 0 0).
Proof.
  intros ct m h E cells q Q cj n [Hw Hd] G X Y Zz RQ Hq Hn Hcj. unfold g_load_streaks.
  destruct G as [G1 G2 G3 G4 G5 G6 G7]. rewrite line_prod in *. rewrite X, Y, Zz in *.
  rewrite (callback_ok _ _ _ _ _ _ (line E)) by (rewrite X, Y, Zz; auto). rewrite load_functor_canon. cbn [rows_of]. rewrite gen_line, line_prod.
  assert (HP : row_pairs [(0, 0, n)] = map (fun k => (k, k)) (zseq n)).
  { unfold row_pairs. cbn [flat_map fst snd]. rewrite app_nil_r. apply map_ext. intros k. f_equal; lia. }
  destruct (region_copy_rows (ct_ms ct) m (g_data h) E (ci_of (line E) E 1 1 cells) q Q cj [(0, 0, n)]) as [m' [Ex [SO R]]]; auto.
  { rewrite HP, map_map. cbn [fst]. rewrite map_id. apply NoDup_zseq. }
  { intros i j H. rewrite HP in H. apply in_map_iff in H. destruct H as [k [Ek Hk]]. apply in_zseq in Hk. inversion Ek; subst i j.
    rewrite ci_line by lia. assert ((0 <=? k) && (k <? E) = true) as -> by lia. split; [discriminate|auto]. }
  rewrite Ex. cbn [run]. exists m'. split; auto. split; auto. constructor; rewrite ?line_prod, ?X, ?Y, ?Zz; auto.
  eapply region_ext; [|exact R]. intros i. rewrite HP, map_map. cbn [fst snd]. rewrite !ci_line by lia.
  destruct (in_dec Z.eq_dec i (zseq n)) as [Hi|Hi].
  - rewrite (upd_in _ _ i (cj i)).
    + apply in_zseq in Hi. assert ((0 <=? i) && (i <? E) = true) as -> by lia. assert ((i <? n) = true) as -> by lia.
      specialize (Hcj i Hi). destruct (cj i); congruence.
    + rewrite map_map. cbn [fst]. rewrite map_id. apply NoDup_zseq.
    + apply in_map_iff. exists i; auto.
  - rewrite upd_notin by (rewrite map_map; cbn [fst]; rewrite map_id; auto). rewrite in_zseq in Hi. rewrite ci_line by lia.
    destruct (Z.leb_spec 0 i); destruct (Z.ltb_spec i E); cbn [andb]; auto. assert ((i <? n) = false) as -> by lia. reflexivity.
Qed.

Lemma v_reserve_ok : forall ct L m v a n E',
  wf_ct ct -> line_policy (ct_sizes ct) L -> mem_ok m -> vrep ct L m v a -> av_ext a = true ->
  0 <= n -> first_fit n L E' -> len (av_l a) <= E' ->
  exists m' g', v_reserve ct (m, v) n = Ret (m', mkVec g' (v_count v)) tt /\ gframe m (blk (v_grid v)) m' (blk g') /\
    grid_is ct m' g' E' E' (fun x _ _ => nth (Z.to_nat x) (av_l a) (default_cell (ct_ms ct))).
Proof.
  intros ct L m v a n E' W P M V He Hn FF HE. unfold v_reserve.
  destruct (first_fit_in _ _ _ FF) as [_ HnE].
  destruct (grid_new_ok ct L m n E' W P M Hn FF) as [m1 [h [-> [F1 [G1 [X1 [Y1 [Z1 X1']]]]]]]].
  rewrite X1'. cbn [use].
  (* rounded up *)
  assert (RS : exists m2 h2, g_resize ct (m1, h) E' 1 1 = Ret (m2, h2) tt /\ gframe m 0 m2 (blk h2) /\
     grid_is ct m2 h2 E' E' (fun _ _ _ => default_cell (ct_ms ct))).
  { destruct (Z.eq_dec n E') as [->|N].
    - exists m1, h. split; [|split; [auto|exact (conj G1 (conj X1 (conj Y1 (conj Z1 X1'))))]].
      unfold g_resize. rewrite X1, Y1, Z1, !Z.eqb_refl. reflexivity.
    - destruct (grid_resized ct L m1 h (mkAG (g_x h) (g_y h) (g_z h) false (fun _ _ _ => default_cell (ct_ms ct))) E' E' W P (gf_ok _ _ _ _ F1))
        as [m2 [h2 [Er [F2 [G2 _]]]]].
      + repeat split. exists (line E'). exact G1.
      + lia.
      + eapply first_fit_between; eauto. lia.
      + exists m2, h2. split; [|split; [eapply gframe_trans; eauto|auto]].
        unfold g_resize. assert ((g_x h =? E') = false) as -> by lia. cbn [andb]. exact Er. }
  destruct RS as [m2 [h2 [-> [F2 [G2 [X2 [Y2 [Z2 X2']]]]]]]].
  assert (V2 : vrep ct L m2 v a).
  { eapply vrep_frame; eauto. destruct V as [E [ci R]]. apply (vr_blk _ _ _ _ _ _ _ R). }
  pose proof (vrep_lt _ _ _ _ _ M V) as Hlt.
  assert (Hb : (mnext m <= blk h2)%nat).
  { destruct (gf_new _ _ _ _ F2) as [C|[C|C]]; auto; pose proof (ga_blk _ _ _ _ _ G2); congruence. }
  destruct V2 as [E [ci R2]]. rewrite (vr_ext _ _ _ _ _ _ _ R2), He. cbn [use].
  pose proof (vr_count _ _ _ _ _ _ _ R2) as HN. assert (H0 : 0 <= len (av_l a)) by (unfold len; lia).
  destruct (load_line_ok ct m2 h2 E' _ (g_data (v_grid v)) E ci (v_count v) W G2 X2 Y2 Z2 (vr_region _ _ _ _ _ _ _ R2)) as [m3 [-> [SO G3]]].
  { unfold blk in *. lia. } { lia. }
  { intros i Hi. rewrite (vr_l _ _ _ _ _ _ _ R2) by lia. apply nth_error_Some. unfold len in *. lia. }
  assert (F3 : gframe m 0 m3 (blk h2)) by (unfold blk in *; eapply same_other_frame0; eauto).
  rewrite g_swap_eq.
  assert (V3 : vrep ct L m3 v a).
  { eapply vrep_frame; [exact M|exact V|exact F3|]. apply (vr_blk _ _ _ _ _ _ _ R2). }
  destruct (destroy_old ct L m3 v a h2 W P (gf_ok _ _ _ _ F3) V3 Y2 Z2) as [m4 [-> F4]].
  eexists m4, _. split; [reflexivity|]. unfold blk at 2. cbn [g_data].
  assert (F5 : gframe m (blk (v_grid v)) m4 (blk h2)) by (eapply gframe_replace; eauto).
  split; [exact F5|].
  assert (G4 : galloc ct m4 h2 (line E') (fun x _ _ => nth (Z.to_nat x) (av_l a) (default_cell (ct_ms ct)))).
  { eapply galloc_ext; [|eapply galloc_frame; [apply (gf_ok _ _ _ _ F3)|exact G3|exact F4|lia]].
    intros x y z [Hx _]. cbn beta. destruct (Z.ltb_spec x (v_count v)) as [Hl|Hl].
    - rewrite (vr_l _ _ _ _ _ _ _ R2) by lia. destruct (nth_error (av_l a) (Z.to_nat x)) as [c|] eqn:En.
      + symmetry. apply nth_error_nth. auto.
      + apply nth_error_None in En. unfold len in *. lia.
    - rewrite nth_overflow; auto. unfold len in *. lia. }
  pose proof (vr_y _ _ _ _ _ _ _ R2) as Yv. pose proof (vr_z _ _ _ _ _ _ _ R2) as Zv.
  unfold grid_is. cbn [g_x g_y g_z g_ex]. rewrite X2, X2', Yv, Zv. split; [|auto].
  destruct G4 as [K1 K2 K3 K4 K5 K6 K7]. rewrite X2, Y2, Z2 in *.
  constructor; unfold blk; cbn [g_x g_y g_z g_bs g_data]; auto; lia.
Qed.

Lemma v_reserve_throw : forall ct L m v n, line_policy (ct_sizes ct) L -> ~ room L n -> v_reserve ct (m, v) n = Thr (m, v) OutOfRange.
Proof. intros ct L m v n P H. unfold v_reserve. destruct (grid_new_throw ct L m n P (no_room _ _ H)) as [g ->]. reflexivity. Qed.

(** After reserve() the vector holds the list with which it is then used. *)
Lemma reserved_vrep : forall ct L m g E l d l',
  grid_is ct m g E E (fun x _ _ => nth (Z.to_nat x) l d) -> first_fit E L E -> len l' <= E ->
  (forall i c, nth_error l' i = Some c -> nth i l d = c) ->
  vrep ct L m (mkVec g (len l')) (mkAV l' E true true).
Proof.
  intros ct L m g E l d l' [G [X [Y [Zz Ex]]]] FF HL H.
  eapply galloc_vrep; eauto. intros i c Hc _. cbn beta. auto.
Qed.

Lemma first_fit_self : forall n L E, first_fit n L E -> first_fit E L E.
Proof. intros n L E H. destruct (first_fit_in _ _ _ H). eapply first_fit_between; eauto. lia. Qed.

Lemma v_reserve_list_ok : forall ct L m v a n,
  wf_ct ct -> line_policy (ct_sizes ct) L -> mem_ok m -> vrep ct L m v a -> av_ext a = true ->
  len (av_l a) <= n -> room L n ->
  exists m' v' cap', v_reserve ct (m, v) n = Ret (m', v') tt /\ gframe m (blk (v_grid v)) m' (blk (v_grid v')) /\ n <= cap' /\
    vrep ct L m' v' (mkAV (av_l a) cap' true true).
Proof.
  intros ct L m v a n W P M V He Hn R. destruct (first_fit_room _ _ R) as [E' FF]. destruct (first_fit_in _ _ _ FF) as [_ HE].
  assert (H0 : 0 <= len (av_l a)) by (unfold len; lia).
  destruct (v_reserve_ok ct L m v a n E' W P M V He) as [m' [g' [Er [F G]]]]; auto; try lia.
  exists m', (mkVec g' (v_count v)), E'. split; auto. split; auto. split; auto.
  assert (v_count v = len (av_l a)) as -> by (destruct V as [E [ci V]]; apply (vr_count _ _ _ _ _ _ _ V)).
  eapply reserved_vrep; eauto.
  - eapply first_fit_self; eauto.
  - lia.
  - intros i c Hc. apply nth_error_nth. auto.
Qed.

(** *** resize *)
Lemma v_resize_grow_ok : forall ct L m v a n,
  wf_ct ct -> line_policy (ct_sizes ct) L -> mem_ok m -> vrep ct L m v a -> av_ext a = true ->
  av_cap a < n -> room L n ->
  exists m' v' cap', v_resize ct (m, v) n = Ret (m', v') tt /\ gframe m (blk (v_grid v)) m' (blk (v_grid v')) /\ n <= cap' /\
    vrep ct L m' v' (mkAV (firstn (Z.to_nat n) (av_l a) ++ repeat (default_value (ct_ms ct)) (Z.to_nat n - length (av_l a))) cap' true true).
Proof.
  intros ct L m v a n W P M V He Hn R. destruct (first_fit_room _ _ R) as [E' FF]. destruct (first_fit_in _ _ _ FF) as [_ HE].
  unfold v_resize, v_capacity. cbn [snd].
  assert (HV : g_x (v_grid v) = av_cap a /\ 0 <= av_cap a /\ exists E, first_fit (av_cap a) L E /\ len (av_l a) <= E).
  { destruct V as [E [ci V]]. destruct V. eauto 6. }
  destruct HV as [HX [HC [E [FE HlE]]]]. rewrite HX. assert ((av_cap a <? n) = true) as -> by lia.
  assert (HlE' : len (av_l a) <= E').
  { destruct (Z.le_gt_cases (len (av_l a)) n); [lia|]. assert (first_fit n L E) by (eapply first_fit_between; eauto; lia).
    rewrite (first_fit_fun _ _ _ _ FF H0). auto. }
  destruct (v_reserve_ok ct L m v a n E' W P M V He) as [m' [g' [-> [F G]]]]; auto; try lia.
  cbn [obind fst snd v_grid]. exists m', (mkVec g' n), E'. split; auto. split; auto. split; auto.
  set (l' := firstn (Z.to_nat n) (av_l a) ++ repeat (default_value (ct_ms ct)) (Z.to_nat n - length (av_l a))).
  assert (HL : len l' = n) by (unfold l', len; rewrite app_length, firstn_length, repeat_length; lia).
  rewrite <- HL at 1. eapply reserved_vrep; eauto.
  - eapply first_fit_self; eauto.
  - lia.
  - intros i c Hc. assert (Hi : (i < length l')%nat) by (apply nth_error_Some; congruence). unfold len in HL. unfold l' in Hc.
    destruct (Nat.lt_ge_cases i (length (av_l a))) as [Hl|Hl].
    + rewrite nth_error_app1 in Hc by (rewrite firstn_length; lia). apply nth_error_nth.
      rewrite <- Hc. rewrite <- (firstn_skipn (Z.to_nat n) (av_l a)) at 1. rewrite nth_error_app1; auto. rewrite firstn_length. lia.
    + rewrite nth_overflow by lia. rewrite nth_error_app2 in Hc by (rewrite firstn_length; lia). apply nth_error_repeat' in Hc. symmetry. exact Hc.
Qed.

Lemma v_resize_throw : forall ct L m v a n, line_policy (ct_sizes ct) L -> vrep ct L m v a -> av_cap a < n -> ~ room L n ->
  v_resize ct (m, v) n = Thr (m, v) OutOfRange.
Proof.
  intros ct L m v a n P [E [ci V]] Hn R. unfold v_resize, v_capacity. cbn [snd]. rewrite (vr_cap _ _ _ _ _ _ _ V).
  assert ((av_cap a <? n) = true) as -> by lia. rewrite (v_reserve_throw ct L) by auto. reflexivity.
Qed.

Lemma v_resize_within : forall ct L m v a n, vrep ct L m v a -> 0 <= n <= av_cap a ->
  v_resize ct (m, v) n = Ret (m, mkVec (v_grid v) n) tt /\
  exists more,
    let l' := if n <=? len (av_l a) then firstn (Z.to_nat n) (av_l a) else av_l a ++ more in
    len l' = n /\ vrep ct L m (mkVec (v_grid v) n) (mkAV l' (av_cap a) (av_full a) (av_ext a)).
Proof.
  intros ct L m v a n [E [ci V]] Hn. split.
  - unfold v_resize, v_capacity. cbn [snd fst]. rewrite (vr_cap _ _ _ _ _ _ _ V). assert ((av_cap a <? n) = false) as -> by lia. reflexivity.
  - pose proof (first_fit_in _ _ _ (vr_fit _ _ _ _ _ _ _ V)) as [_ HE].
    exists (map (fun i => match ci (len (av_l a) + i) with Some c => c | None => [] end) (zseq (n - len (av_l a)))).
    intros l'.
    assert (HL : len l' = n).
    { unfold l', len. destruct (Z.leb_spec n (Z.of_nat (length (av_l a)))); [rewrite firstn_length; lia|].
      rewrite app_length, map_length. unfold zseq. rewrite map_length, seq_length. lia. }
    split; auto. exists E, ci. destruct V. constructor; cbn [v_grid v_count av_l av_cap av_full av_ext]; auto; try lia.
    intros i Hi. rewrite HL in Hi. unfold l'. destruct (Z.leb_spec n (len (av_l a))) as [Hc|Hc].
    + rewrite vr_l0 by lia. rewrite <- (firstn_skipn (Z.to_nat n) (av_l a)) at 1. rewrite nth_error_app1; auto.
      rewrite firstn_length. unfold len in *. lia.
    + destruct (Z.lt_ge_cases i (len (av_l a))) as [Hl|Hl].
      * rewrite vr_l0 by lia. rewrite nth_error_app1; auto. unfold len in *. lia.
      * rewrite nth_error_app2 by (unfold len in *; lia). rewrite nth_error_map. unfold zseq. rewrite nth_error_map.
        assert (EN : nth_error (seq 0 (Z.to_nat (n - len (av_l a)))) (Z.to_nat i - length (av_l a)) = Some (Z.to_nat i - length (av_l a))%nat).
        { rewrite (nth_error_nth' _ 0%nat) by (rewrite seq_length; unfold len in *; lia). rewrite seq_nth by (unfold len in *; lia). reflexivity. }
        rewrite EN. cbn [option_map].
        replace (len (av_l a) + Z.of_nat (Z.to_nat i - length (av_l a))) with i by (unfold len in *; lia).
        specialize (vr_in0 i ltac:(lia)). destruct (ci i); congruence.
Qed.

(** *** push_back *)
Lemma v_push_ok : forall ct L m v a c,
  wf_ct ct -> line_policy (ct_sizes ct) L -> growing L -> mem_ok m -> vrep ct L m v a -> av_ext a = true -> wf_cell (ct_ms ct) c ->
  (trivial (ct_ms ct) \/ av_full a = true \/ len (av_l a) < av_cap a) ->
  (exists m', v_push ct (m, v) c = Ret (m', mkVec (v_grid v) (v_count v + 1)) tt /\ gframe m (blk (v_grid v)) m' (blk (v_grid v)) /\
     (av_full a = true -> len (av_l a) < av_cap a) /\
     vrep ct L m' (mkVec (v_grid v) (v_count v + 1)) (mkAV (av_l a ++ [c]) (av_cap a) (av_full a) (av_ext a))) \/
  (exists m' v' cap', v_push ct (m, v) c = Ret (m', v') tt /\ gframe m (blk (v_grid v)) m' (blk (v_grid v')) /\
     In (len (av_l a)) L /\ av_cap a <= len (av_l a) /\ len (av_l a) < cap' /\ 6 * len (av_l a) / 5 <= cap' /\
     vrep ct L m' v' (mkAV (av_l a ++ [c]) cap' true true)) \/
  (v_push ct (m, v) c = Thr (m, v) OutOfRange /\ In (len (av_l a)) L /\ av_cap a <= len (av_l a) /\ ~ room L (6 * len (av_l a) / 5)).
Proof.
  intros ct L m v a c W P GR M V He Hc HT. pose proof V as V'. destruct V' as [E [ci R]].
  unfold v_push. cbn [snd]. pose proof (vr_ext _ _ _ _ _ _ _ R) as HX. rewrite He in HX. rewrite HX. cbn [use].
  pose proof (vr_count _ _ _ _ _ _ _ R) as HN. pose proof (vr_le _ _ _ _ _ _ _ R) as Hle.
  destruct (first_fit_in _ _ _ (vr_fit _ _ _ _ _ _ _ R)) as [HIn HcE]. pose proof (vr_full _ _ _ _ _ _ _ R) as HF.
  destruct (Z.eqb_spec (v_count v) E) as [EQ|NE].
  - right. assert (HE : len (av_l a) = E) by lia.
    unfold growing in GR. rewrite Forall_forall in GR. specialize (GR E HIn).
    rewrite EQ, grow_floor by lia. rewrite HE.
    assert (HG : E < 6 * E / 5) by (apply Z.lt_le_trans with (E + 1); [lia|]; apply Z.div_le_lower_bound; lia).
    destruct (room_dec L (6 * E / 5)) as [Hr|Hr].
    + left. destruct (v_reserve_list_ok ct L m v a (6 * E / 5) W P M V He) as [m1 [v1 [cap' [-> [F1 [Hcap V1]]]]]]; auto; [lia|].
      cbn [obind snd]. pose proof V1 as [E1 [ci1 R1]]. pose proof (vr_full _ _ _ _ _ _ _ R1 eq_refl) as HF1. cbn [av_cap] in HF1.
      destruct (v_put_ok ct L m1 v1 _ E1 ci1 c W P R1) as [m2 [-> [SO V2]]]; cbn [av_l av_cap]; auto; try lia.
      cbn [obind fst snd]. exists m2, (mkVec (v_grid v1) (v_count v1 + 1)), cap'. split; auto. split.
      { eapply gframe_trans; [exact F1|]. apply same_other_frame; auto. apply (gf_ok _ _ _ _ F1). }
      split; auto. split; [lia|]. split; [lia|]. split; auto.
    + right. rewrite (v_reserve_throw ct L) by auto. auto.
  - left. cbn [obind snd].
    destruct (v_put_ok ct L m v a E ci c W P R) as [m2 [-> [SO V2]]]; auto; try lia.
    { destruct HT as [T|[T|T]]; auto. specialize (HF T). right. lia. }
    cbn [obind fst snd]. exists m2. split; auto. split; [apply same_other_frame; auto|]. split; auto.
    intros T. specialize (HF T). lia.
Qed.

(** *** Copies, assignment, destruction *)
Lemma v_copy_ok : forall ct L m v a,
  wf_ct ct -> line_policy (ct_sizes ct) L -> mem_ok m -> vrep ct L m v a -> len (av_l a) <= av_cap a ->
  exists m' v', v_copy ct m v = Ret (m', v') tt /\ gframe m 0 m' (blk (v_grid v')) /\
    vrep ct L m' v' (mkAV (av_l a) (av_cap a) (av_full a) false).
Proof.
  intros ct L m v a W P M [E [ci R]] Hl. unfold v_copy.
  destruct (copy_ok ct m (v_grid v) (line E) _ W M (vrep_galloc _ _ _ _ _ _ _ P R)) as [m' [g [-> [F [X [Y [Zz [G NX]]]]]]]].
  exists m', (mkVec g (v_count v)). split; auto. split; auto. rewrite (vr_count _ _ _ _ _ _ _ R).
  eapply galloc_vrep; eauto; destruct R; auto; try congruence; try discriminate.
  intros i c Hc Hi. cbn beta. rewrite vr_l0, Hc; auto. assert ((Z.to_nat i < length (av_l a))%nat) by (apply nth_error_Some; congruence). unfold len. lia.
Qed.

Lemma v_assign_ok : forall ct L m v a o b,
  wf_ct ct -> line_policy (ct_sizes ct) L -> mem_ok m -> vrep ct L m v a -> vrep ct L m o b ->
  blk (v_grid o) <> blk (v_grid v) -> len (av_l b) <= av_cap b ->
  exists m' v', v_assign ct (m, v) o = Ret (m', v') tt /\ gframe m (blk (v_grid v)) m' (blk (v_grid v')) /\
    vrep ct L m' v' (mkAV (av_l b) (av_cap b) (av_full b) (av_ext a || negb (av_cap a =? av_cap b))).
Proof.
  intros ct L m [g k] a o b W P M V VO Hb Hl. cbn [v_grid] in *. pose proof VO as [EO [co RO]].
  unfold v_assign, on_grid, g_assign. cbn [v_grid v_count].
  rewrite (vr_cap _ _ _ _ _ _ _ RO), (vr_y _ _ _ _ _ _ _ RO), (vr_z _ _ _ _ _ _ _ RO).
  assert (RS : exists m1 g1, g_resize ct (m, g) (av_cap b) 1 1 = Ret (m1, g1) tt /\ gframe m (blk g) m1 (blk g1) /\
     g_x g1 = av_cap b /\ g_y g1 = 1 /\ g_z g1 = 1 /\ g_ex g1 = (if av_ext a || negb (av_cap a =? av_cap b) then Some EO else None) /\ blk (v_grid o) <> blk g1 /\
     exists cells, galloc ct m1 g1 (line EO) cells).
  { destruct V as [E [ci R]]. pose proof (vr_y _ _ _ _ _ _ _ R) as Y. pose proof (vr_z _ _ _ _ _ _ _ R) as Zz.
    pose proof (vr_cap _ _ _ _ _ _ _ R) as X. cbn [v_grid] in *. destruct (Z.eq_dec (av_cap a) (av_cap b)) as [EC|NC].
    - assert (EO = E) by (eapply first_fit_fun; [exact (vr_fit _ _ _ _ _ _ _ RO)|]; rewrite <- EC; apply (vr_fit _ _ _ _ _ _ _ R)). subst EO.
      exists m, g. rewrite <- EC, <- X. split. { unfold g_resize. rewrite Y, Zz, !Z.eqb_refl. reflexivity. }
      split; [apply gframe_refl; auto|]. split; auto. split; auto. split; auto. split.
      { rewrite X, EC, Z.eqb_refl, orb_false_r. apply (vr_ext _ _ _ _ _ _ _ R). }
      split; auto.
      eexists. apply (vrep_galloc _ _ _ _ _ _ _ P R).
    - destruct (grid_resized ct L m g (mkAG (g_x g) (g_y g) (g_z g) false (fun x _ _ => match ci x with Some c => c | None => [] end)) (av_cap b) EO W P M)
        as [m1 [g1 [Er [F1 [[G1 [X1 [Y1 [Z1 E1]]]] B1]]]]].
      + repeat split. exists (line E). apply (vrep_galloc _ _ _ _ _ _ _ P R).
      + apply (vr_cap0 _ _ _ _ _ _ _ RO).
      + apply (vr_fit _ _ _ _ _ _ _ RO).
      + exists m1, g1. split. { unfold g_resize. rewrite X. assert ((av_cap a =? av_cap b) = false) as -> by lia. exact Er. }
        split; auto. split; auto. split; auto. split; auto. split.
        { assert ((av_cap a =? av_cap b) = false) as -> by lia. rewrite orb_true_r. auto. }
        split. { pose proof (vrep_lt _ _ _ _ _ M VO). lia. } eauto. }
  destruct RS as [m1 [g1 [-> [F1 [X1 [Y1 [Z1 [E1 [B1 [cells G1]]]]]]]]]]. cbn [obind].
  assert (VO1 : vrep_at ct L m1 o b EO co).
  { destruct RO. constructor; auto.
    destruct (gf_other _ _ _ _ F1 (blk (v_grid o))) as [A1 [A2 A3]]; auto; [apply (vrep_lt _ _ _ _ _ M VO)|]. eapply region_frame; eauto. }
  destruct (copy_in_ok ct m1 g1 (line EO) cells (v_grid o) _ W (gf_ok _ _ _ _ F1) G1 (vrep_galloc _ _ _ _ _ _ _ P VO1)) as [m2 [-> [SO G2]]]; auto.
  { destruct RO; congruence. } { destruct RO; congruence. } { destruct RO; congruence. }
  cbn [obind fst snd v_grid]. eexists m2, _. split; [reflexivity|]. cbn [v_grid]. split.
  { eapply gframe_trans; [exact F1|]. apply same_other_frame; auto. apply (gf_ok _ _ _ _ F1). }
  rewrite (vr_count _ _ _ _ _ _ _ RO).
  eapply galloc_vrep; eauto; destruct RO; auto.
  intros i c Hc Hi. cbn beta. rewrite vr_l0, Hc; auto. assert ((Z.to_nat i < length (av_l b))%nat) by (apply nth_error_Some; congruence). unfold len. lia.
Qed.

Lemma v_assign_self_ok : forall ct L m v a,
  wf_ct ct -> line_policy (ct_sizes ct) L -> vrep ct L m v a ->
  exists m', v_assign_self ct (m, v) = Ret (m', v) tt /\ same_other m m' (blk (v_grid v)) /\ vrep ct L m' v a.
Proof.
  intros ct L m [g k] a [Hw Hd] P [E [ci R]]. pose proof (vrep_galloc _ _ _ _ _ _ _ P R) as G. cbn [v_grid] in G.
  pose proof (galloc_fits _ _ _ _ _ G) as F.
  unfold v_assign_self, on_grid, g_assign_self. cbn [v_grid v_count snd]. rewrite resize_same. cbn [obind snd].
  assert (Hdual : forall (f : ptr -> accessor -> ptr -> accessor -> outcome gst unit),
    dual_callback ct (m, g) g g f = f (g_data g) (mkAcc (line E) 0 0) (g_data g) (mkAcc (line E) 0 0)).
  { intros f. unfold dual_callback. destruct (ct_asym ct).
    - rewrite (callback_ok _ _ _ _ _ _ (line E)) by (destruct G; auto). rewrite (callback_ok _ _ _ _ _ _ (line E)) by (destruct G; auto). reflexivity.
    - rewrite !Z.eqb_refl. cbn [negb orb]. rewrite (callback_ok _ _ _ _ _ _ (line E)) by (destruct G; auto). reflexivity. }
  unfold copy_in. rewrite Hdual, copy_functor_canon by reflexivity. cbn [a_ext].
  pose proof (vr_region _ _ _ _ _ _ _ R) as RR. cbn [v_grid] in RR. rewrite <- (line_prod E) in RR.
  destruct (region_copy_rows (ct_ms ct) m (g_data g) (DIM_PROD (line E)) ci (g_data g) (DIM_PROD (line E)) ci (copy_rows (line E) (g_x g) (g_y g) (g_z g))) as [m' [Ex [SO R']]]; auto.
  { rewrite copy_row_pairs. right. repeat split; auto. intros i j H. apply in_map_iff in H. destruct H as [j' [Ek _]]. congruence. }
  { rewrite copy_row_pairs, map_map. cbn [fst]. rewrite map_id. apply NoDup_all_idx; auto. }
  { intros i j H. rewrite copy_row_pairs in H. apply in_map_iff in H. destruct H as [j' [Ek H]]. inversion Ek; subst.
    apply in_all_idx in H. destruct H as [x [y [z [I ->]]]]. destruct I as [I1 [I2 I3]].
    pose proof (vr_cap _ _ _ _ _ _ _ R) as XX. pose proof (vr_y _ _ _ _ _ _ _ R) as YY. pose proof (vr_z _ _ _ _ _ _ _ R) as ZZ. cbn [v_grid] in *.
    assert (y = 0) by lia. assert (z = 0) by lia. subst y z. rewrite gen_line.
    assert (ci x <> None) by (apply (vr_in _ _ _ _ _ _ _ R); lia). auto. }
  rewrite Ex. cbn [run]. exists m'. split; auto. split; auto. exists E, ci. destruct R. constructor; auto.
  rewrite line_prod in R'. eapply region_ext; [|exact R']. intros i. rewrite copy_row_pairs, map_map. cbn [fst snd].
  destruct (in_dec Z.eq_dec i (all_idx (line E) (g_x g) (g_y g) (g_z g))) as [Hi|Hi].
  - apply upd_in.
    + rewrite map_map. cbn [fst]. rewrite map_id. apply NoDup_all_idx; auto.
    + apply in_map_iff. exists i; auto.
  - apply upd_notin. rewrite map_map; cbn [fst]; rewrite map_id; auto.
Qed.

Lemma v_destroy_ok : forall ct L m v a,
  wf_ct ct -> line_policy (ct_sizes ct) L -> mem_ok m -> vrep ct L m v a ->
  exists m', v_destroy ct (m, v) = Ret (m', v) tt /\ gframe m (blk (v_grid v)) m' 0.
Proof.
  intros ct L m [g k] a W P M [E [ci R]]. unfold v_destroy, on_grid. cbn [v_grid v_count].
  destruct (destroy_ok ct m g (mkAG (g_x g) (g_y g) (g_z g) false (fun x _ _ => match ci x with Some c => c | None => [] end)) W M) as [m' [E1 F]].
  { repeat split. exists (line E). apply (vrep_galloc _ _ _ _ _ _ _ P R). }
  unfold g_destroy. rewrite E1. exists m'. auto.
Qed.

(** *** The state of a program *)
Definition sblk (W : sworld) (id : nat) : nat := match sw_vecs W id with Some v => blk (v_grid v) | None => 0%nat end.

Record svinv (ct : celltype) (L : list Z) (W : sworld) (A : avworld) : Prop := {
  sv_mem : mem_ok (sw_mem W);
  sv_rep : forall id, match sw_vecs W id, A id with
    | None, None => True | Some v, Some a => vrep ct L (sw_mem W) v a | _, _ => False end;
  sv_sep : forall i j v w, sw_vecs W i = Some v -> sw_vecs W j = Some w -> i <> j -> blk (v_grid v) <> blk (v_grid w);
  (* every allocated block belongs to an existing object *)
  sv_leak : forall c n, msize (sw_mem W) c = Some n -> exists id v, sw_vecs W id = Some v /\ blk (v_grid v) = c }.

Lemma sset_same : forall (T : Type) (f : nat -> option T) id v, sset f id v id = v.
Proof. intros. unfold sset. rewrite Nat.eqb_refl. reflexivity. Qed.
Lemma sset_other : forall (T : Type) (f : nat -> option T) id v i, i <> id -> sset f id v i = f i.
Proof. intros. unfold sset. destruct (Nat.eqb_spec i id); congruence. Qed.
Lemma sset_self : forall (T : Type) (f : nat -> option T) id v i, f id = v -> sset f id v i = f i.
Proof. intros. unfold sset. destruct (Nat.eqb_spec i id); congruence. Qed.

Lemma sv_some : forall ct L W A id a, svinv ct L W A -> A id = Some a ->
  exists v, sw_vecs W id = Some v /\ vrep ct L (sw_mem W) v a.
Proof. intros ct L W A id b I H. pose proof (sv_rep _ _ _ _ I id) as R. rewrite H in R. destruct (sw_vecs W id); [eauto|contradiction]. Qed.
Lemma sv_none : forall ct L W A id, svinv ct L W A -> A id = None -> sw_vecs W id = None.
Proof. intros ct L W A id I H. pose proof (sv_rep _ _ _ _ I id) as R. rewrite H in R. destruct (sw_vecs W id); [contradiction|auto]. Qed.

Lemma vrep_blk : forall ct L m v a, vrep ct L m v a -> blk (v_grid v) <> 0%nat.
Proof. intros ct L m v a [E [ci R]]. apply (vr_blk _ _ _ _ _ _ _ R). Qed.

Lemma sv_set : forall ct L W A id m' b' oa ob,
  svinv ct L W A -> gframe (sw_mem W) (sblk W id) m' b' ->
  match oa, ob with
  | None, None => b' = 0%nat
  | Some v, Some a => vrep ct L m' v a /\ blk (v_grid v) = b'
  | _, _ => False
  end ->
  svinv ct L (mkSW m' (sset (sw_vecs W) id oa)) (sset A id ob).
Proof.
  intros ct L W A id m' b' oa ob I F H. constructor; cbn [sw_mem sw_vecs].
  - apply (gf_ok _ _ _ _ F).
  - intros i. destruct (Nat.eq_dec i id) as [->|Hi].
    + rewrite !sset_same. destruct oa, ob; auto. apply H.
    + rewrite !sset_other by auto. pose proof (sv_rep _ _ _ _ I i) as R. destruct (sw_vecs W i) as [a|] eqn:Ei; auto.
      destruct (A i) as [b|]; auto. eapply vrep_frame; eauto; [apply (sv_mem _ _ _ _ I)|].
      unfold sblk. destruct (sw_vecs W id) as [a'|] eqn:Ea.
      * eapply (sv_sep _ _ _ _ I i id); eauto.
      * eapply vrep_blk; eauto.
  - assert (G : forall j b, sw_vecs W j = Some b -> j <> id -> forall a, oa = Some a -> blk (v_grid a) <> blk (v_grid b)).
    { intros j b Hj Hne a ->. destruct ob as [B|]; [|contradiction]. destruct H as [H1 H2].
      pose proof (sv_rep _ _ _ _ I j) as R. rewrite Hj in R. destruct (A j) as [bb|]; [|contradiction].
      pose proof (vrep_lt _ _ _ _ _ (sv_mem _ _ _ _ I) R) as Lt. pose proof (vrep_blk _ _ _ _ _ R) as N0.
      pose proof (vrep_blk _ _ _ _ _ H1) as N1.
      destruct (gf_new _ _ _ _ F) as [E|[E|E]]; [|lia|lia].
      rewrite H2, E. unfold sblk. destruct (sw_vecs W id) as [a'|] eqn:Ea; [|lia].
      eapply (sv_sep _ _ _ _ I id j); eauto. }
    intros i j a b Hi Hj Hne. destruct (Nat.eq_dec i id) as [->|N]; destruct (Nat.eq_dec j id) as [->|N']; try congruence.
    + rewrite sset_same in Hi. rewrite sset_other in Hj by auto. eapply G; eauto.
    + rewrite sset_same in Hj. rewrite sset_other in Hi by auto. intros C. symmetry in C. revert C. eapply G; eauto.
    + rewrite sset_other in Hi by auto. rewrite sset_other in Hj by auto. eapply (sv_sep _ _ _ _ I i j); eauto.
  - intros c n Hc. destruct (gf_leak _ _ _ _ F c n Hc) as [E|[E1 E2]].
    + destruct oa as [a|].
      * destruct ob as [B|]; [|contradiction]. destruct H as [_ H]. exists id, a. rewrite sset_same. split; congruence.
      * destruct ob as [B|]; [contradiction|]. subst. destruct (gf_ok _ _ _ _ F) as [_ [Z0 _]]. congruence.
    + destruct (sv_leak _ _ _ _ I c n E2) as [j [a [Ej Ea]]]. exists j, a. split; auto.
      rewrite sset_other; auto. intros ->. apply E1. unfold sblk. rewrite Ej. auto.
Qed.

Lemma sv_eq : forall ct L m f f' A A', (forall i, f i = f' i) -> (forall i, A i = A' i) -> svinv ct L (mkSW m f) A -> svinv ct L (mkSW m f') A'.
Proof.
  intros ct L m f f' A A' E1 E2 I. destruct I as [I1 I2 I3 I4]. cbn [sw_mem sw_vecs] in *. constructor; cbn [sw_mem sw_vecs]; auto.
  - intros id. rewrite <- E1, <- E2. apply I2.
  - intros i j v w. rewrite <- !E1. apply I3.
  - intros c n H. destruct (I4 c n H) as [id [v [H1 H2]]]. exists id, v. rewrite <- E1. auto.
Qed.

Lemma sv_start : forall ct L, svinv ct L sstart no_vectors.
Proof.
  intros ct L. constructor; cbn; auto; try discriminate. split; [auto|]. split; auto.
Qed.

Theorem sstep_ok : forall ct L W A op,
  wf_ct ct -> line_policy (ct_sizes ct) L -> growing L -> svinv ct L W A -> spre (ct_ms ct) A op ->
  exists W' A' ob, sstep ct W op = Val (W', ob) /\ spec_step (ct_ms ct) L A op A' ob /\ svinv ct L W' A'.
Proof.
  intros ct L W A op Hw P GR I Hpre. pose proof (sv_mem _ _ _ _ I) as M.
  assert (KEEP : forall id v a, sw_vecs W id = Some v -> A id = Some a -> svinv ct L (mkSW (sw_mem W) (sset (sw_vecs W) id (Some v))) A).
  { intros id v a Hv Ha. destruct W as [m f]. cbn [sw_mem sw_vecs] in *. eapply sv_eq; [| |exact I]; auto.
    intros i. symmetry. apply sset_self. auto. }
  assert (SET : forall id v a, A id = Some a -> sw_vecs W id = Some v -> forall m' v' a', gframe (sw_mem W) (blk (v_grid v)) m' (blk (v_grid v')) ->
     vrep ct L m' v' a' -> svinv ct L (mkSW m' (sset (sw_vecs W) id (Some v'))) (sset A id (Some a'))).
  { intros id v a Ha Hv m' v' a' F R. apply (sv_set ct L W A id m' (blk (v_grid v')) (Some v') (Some a') I); [unfold sblk; rewrite Hv; exact F|auto]. }
  assert (NEW : forall id, A id = None -> forall m' v' a', gframe (sw_mem W) 0 m' (blk (v_grid v')) ->
     vrep ct L m' v' a' -> svinv ct L (mkSW m' (sset (sw_vecs W) id (Some v'))) (sset A id (Some a'))).
  { intros id Ha m' v' a' F R. apply (sv_set ct L W A id m' (blk (v_grid v')) (Some v') (Some a') I); [unfold sblk; rewrite (sv_none _ _ _ _ _ I Ha); exact F|auto]. }
  assert (STAY : svinv ct L (mkSW (sw_mem W) (sw_vecs W)) A) by (destruct W; exact I).
  assert (SAME : forall v m', same_other (sw_mem W) m' (blk (v_grid v)) -> gframe (sw_mem W) (blk (v_grid v)) m' (blk (v_grid v)))
    by (intros; apply same_other_frame; auto).
  destruct op as [id n|id n c|id src|d s|id i c|id i|id|id|id|id n|id n|id|id c|id|id n|id]; cbn [spre sstep] in *.
  - destruct Hpre as [Hid Hn]. destruct (room_dec L n) as [R|R].
    + destruct (v_new_ok ct L (sw_mem W) n Hw P M Hn R) as [m' [v [-> [F V]]]]. cbn [vec_ctor].
      do 3 eexists. split; [reflexivity|]. split; [constructor; auto|]. eauto.
    + destruct (v_new_throw ct L (sw_mem W) n P R) as [v ->]. cbn [vec_ctor].
      do 3 eexists. split; [reflexivity|]. split; [apply a_new_throw; auto|]. auto.
  - destruct Hpre as [Hid [Hn Hc]]. destruct (room_dec L n) as [R|R].
    + destruct (v_new_fill_ok ct L (sw_mem W) n c Hw P M Hn Hc R) as [m' [v [-> [F V]]]]. cbn [vec_ctor].
      do 3 eexists. split; [reflexivity|]. split; [constructor; auto|]. eauto.
    + destruct (v_new_fill_throw ct L (sw_mem W) n c P R) as [v ->]. cbn [vec_ctor].
      do 3 eexists. split; [reflexivity|]. split; [apply a_fill_throw; auto|]. auto.
  - destruct Hpre as [Hid [b [Hb Hl]]]. destruct (sv_some _ _ _ _ _ _ I Hb) as [o [Eo RO]]. rewrite Eo.
    destruct (v_copy_ok ct L (sw_mem W) o b Hw P M RO Hl) as [m' [v [-> [F V]]]]. cbn [vec_ctor].
    do 3 eexists. split; [reflexivity|]. split; [econstructor; eauto|]. eauto.
  - destruct Hpre as [Hd [b [Hb Hl]]]. destruct (A d) as [a|] eqn:Ed; [|congruence].
    destruct (sv_some _ _ _ _ _ _ I Ed) as [v [Ev V]]. destruct (sv_some _ _ _ _ _ _ I Hb) as [o [Eo RO]].
    rewrite Eo. unfold on_vec. rewrite Ev. destruct (Nat.eqb_spec d s) as [->|N].
    + destruct (v_assign_self_ok ct L (sw_mem W) v a Hw P V) as [m' [-> [SO V']]].
      assert (b = a) by congruence. subst b.
      do 3 eexists. split; [reflexivity|]. split; [econstructor; eauto|]. apply (SET s v a Ed Ev m' v); [apply SAME; exact SO|destruct a as [x1 x2 x3 x4]; cbn [av_l av_cap av_full av_ext]; rewrite Z.eqb_refl, orb_false_r; exact V'].
    + destruct Hl as [C|Hl]; [congruence|].
      destruct (v_assign_ok ct L (sw_mem W) v a o b Hw P M V RO) as [m' [v' [-> [F V']]]]; auto.
      { eapply (sv_sep _ _ _ _ I s d); eauto. }
      do 3 eexists. split; [reflexivity|]. split; [econstructor; eauto|]. eauto.
  - destruct Hpre as [[a [Ha Hi]] Hc]. destruct (sv_some _ _ _ _ _ _ I Ha) as [v [Ev V]]. unfold on_vec. rewrite Ev.
    destruct (v_set_ok ct L (sw_mem W) v a i c Hw P V Hi Hc) as [m' [-> [SO V']]].
    do 3 eexists. split; [reflexivity|]. split; [econstructor; eauto|]. eauto.
  - destruct Hpre as [a [Ha Hi]]. destruct (sv_some _ _ _ _ _ _ I Ha) as [v [Ev V]]. unfold on_vec. rewrite Ev.
    destruct (nth_error (av_l a) (Z.to_nat i)) as [c|] eqn:En.
    2:{ exfalso. apply nth_error_None in En. unfold len in Hi. lia. }
    rewrite (v_get_ok ct L (sw_mem W) v a i c) by (auto; lia).
    do 3 eexists. split; [reflexivity|]. split; [econstructor; eauto|]. eauto.
  - destruct (A id) as [a|] eqn:Ha; [|congruence]. destruct (sv_some _ _ _ _ _ _ I Ha) as [v [Ev V]]. unfold on_vec. rewrite Ev.
    do 3 eexists. split; [reflexivity|]. split; [|eauto]. cbn [snd]. unfold v_size.
    destruct V as [E [ci V]]. rewrite (vr_count _ _ _ _ _ _ _ V). constructor; auto.
  - destruct (A id) as [a|] eqn:Ha; [|congruence]. destruct (sv_some _ _ _ _ _ _ I Ha) as [v [Ev V]]. unfold on_vec. rewrite Ev.
    do 3 eexists. split; [reflexivity|]. split; [|eauto]. cbn [snd]. unfold v_empty.
    destruct V as [E [ci V]]. rewrite (vr_count _ _ _ _ _ _ _ V).
    replace (len (av_l a) =? 0) with (match av_l a with [] => true | _ => false end) by (destruct (av_l a); reflexivity). constructor; auto.
  - destruct (A id) as [a|] eqn:Ha; [|congruence]. destruct (sv_some _ _ _ _ _ _ I Ha) as [v [Ev V]]. unfold on_vec. rewrite Ev.
    do 3 eexists. split; [reflexivity|]. split; [|eauto]. cbn [snd]. unfold v_capacity.
    destruct V as [E [ci V]]. rewrite (vr_cap _ _ _ _ _ _ _ V). constructor; auto.
  - destruct Hpre as [Hn [a [Ha Hc]]]. destruct (sv_some _ _ _ _ _ _ I Ha) as [v [Ev V]]. unfold on_vec. rewrite Ev.
    destruct (Z.le_gt_cases n (av_cap a)) as [Hle|Hgt].
    + destruct (v_resize_within ct L (sw_mem W) v a n V) as [-> [more [HL V']]]; [lia|]. cbn zeta in *.
      destruct (Z.leb_spec n (len (av_l a))) as [Hl|Hl].
      * do 3 eexists. split; [reflexivity|]. split; [apply a_shrink; eauto|]. eapply SET; eauto. cbn [v_grid]. apply gframe_refl; auto.
      * do 3 eexists. split; [reflexivity|]. split; [eapply a_extend with (more := more); eauto; lia|]. eapply SET; eauto. cbn [v_grid]. apply gframe_refl; auto.
    + destruct Hc as [C|He]; [lia|]. destruct (room_dec L n) as [R|R].
      * destruct (v_resize_grow_ok ct L (sw_mem W) v a n Hw P M V He) as [m' [v' [cap' [-> [F [Hcap V']]]]]]; auto.
        do 3 eexists. split; [reflexivity|]. split; [eapply a_resize; eauto; lia|]. eauto.
      * rewrite (v_resize_throw ct L _ v a) by (auto; lia).
        do 3 eexists. split; [reflexivity|]. split; [eapply a_resize_throw; eauto; lia|]. eauto.
  - destruct Hpre as [a [Ha [Hn He]]]. destruct (sv_some _ _ _ _ _ _ I Ha) as [v [Ev V]]. unfold on_vec. rewrite Ev.
    destruct (room_dec L n) as [R|R].
    + destruct (v_reserve_list_ok ct L (sw_mem W) v a n Hw P M V He Hn R) as [m' [v' [cap' [-> [F [Hcap V']]]]]].
      do 3 eexists. split; [reflexivity|]. split; [eapply a_reserve; eauto; lia|]. eauto.
    + rewrite (v_reserve_throw ct L) by auto.
      do 3 eexists. split; [reflexivity|]. split; [eapply a_reserve_throw; eauto; lia|]. eauto.
  - destruct (A id) as [a|] eqn:Ha; [|congruence]. destruct (sv_some _ _ _ _ _ _ I Ha) as [v [Ev V]]. unfold on_vec. rewrite Ev.
    unfold v_clear. cbn [fst snd]. do 3 eexists. split; [reflexivity|]. split; [econstructor; eauto|].
    eapply SET; eauto; [cbn [v_grid]; apply gframe_refl; auto|].
    destruct V as [E [ci V]]. exists E, ci. destruct V. constructor; cbn [v_grid v_count av_l av_cap av_full av_ext]; auto; unfold len; cbn [length]; try lia.
    pose proof (rg_P _ _ _ _ _ vr_region0). lia.
  - destruct Hpre as [Hc [a [Ha [He HT]]]]. destruct (sv_some _ _ _ _ _ _ I Ha) as [v [Ev V]]. unfold on_vec. rewrite Ev.
    destruct (v_push_ok ct L (sw_mem W) v a c Hw P GR M V He Hc HT) as [[m' [-> [F [HF V']]]]|[[m' [v' [cap' [-> [F [H1 [H1' [H2 [H3 V']]]]]]]]]|[-> [H1 [H1' H2]]]]].
    + do 3 eexists. split; [reflexivity|]. split; [eapply a_push; eauto|]. eauto.
    + do 3 eexists. split; [reflexivity|]. split; [eapply a_push_grow; eauto|]. eauto.
    + do 3 eexists. split; [reflexivity|]. split; [eapply a_push_throw; eauto|]. eauto.
  - destruct Hpre as [a [Ha Hne]]. destruct (sv_some _ _ _ _ _ _ I Ha) as [v [Ev V]]. unfold on_vec. rewrite Ev.
    destruct (exists_last Hne) as [l [x El]].
    destruct (v_pop_ok ct L (sw_mem W) v a l x Hw P V El) as [m' [-> [SO V']]].
    do 3 eexists. split; [reflexivity|]. split; [econstructor; eauto|]. eapply SET; eauto. cbn [v_grid]. auto.
  - destruct Hpre as [a [Ha Hn]]. destruct (sv_some _ _ _ _ _ _ I Ha) as [v [Ev V]]. unfold on_vec. rewrite Ev.
    rewrite (v_callback_ok ct L (sw_mem W) v a n) by auto.
    do 3 eexists. split; [reflexivity|]. split; [econstructor; eauto|]. eauto.
  - destruct (A id) as [a|] eqn:Ha; [|congruence]. destruct (sv_some _ _ _ _ _ _ I Ha) as [v [Ev V]]. rewrite Ev.
    destruct (v_destroy_ok ct L (sw_mem W) v a Hw P M V) as [m' [-> F]].
    do 3 eexists. split; [reflexivity|]. split; [constructor|].
    apply (sv_set ct L W A id m' 0%nat None None I); [unfold sblk; rewrite Ev; exact F|auto].
Qed.

Theorem srun_ok : forall ct L ops W A,
  wf_ct ct -> line_policy (ct_sizes ct) L -> growing L -> svinv ct L W A -> lawful (ct_ms ct) L A ops ->
  exists W' A' obs, srun ct W ops = Val (W', obs) /\ spec_run (ct_ms ct) L A ops A' obs /\ svinv ct L W' A'.
Proof.
  intros ct L ops. induction ops as [|op ops IH]; intros W A Hw P GR I Lw.
  - exists W, A, []. split; [reflexivity|]. split; [constructor|auto].
  - destruct Lw as [L1 L2]. destruct (sstep_ok ct L W A op Hw P GR I L1) as [W1 [A1 [ob [E [S I1]]]]].
    destruct (IH W1 A1 Hw P GR I1 (L2 _ _ S)) as [W2 [A2 [obs [E2 [S2 I2]]]]].
    exists W2, A2, (ob :: obs). cbn [srun]. rewrite E, E2. split; auto. split; auto. econstructor; eauto.
Qed.
