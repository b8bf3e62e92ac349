(** Proofs for PropsVectorThrowRun.v. *)
From Coq Require Import ZArith List Lia Bool.
From Verif Require Import Base Layout LayoutProofs Sizes SizesProofs Mem MemProofs
  Accessor AccessorProofs RegionProofs Grid SpecGrid GridProofs GridInv BufferProofs GridOps GridSim GridView
  Array SpecArray ArrayProofs Vector SpecVector VectorProofs GridThrow SpecGridThrow GridThrowProofs VectorThrowProofs.
From Verif Require GridThrowRunProofs.
From Verif Require Import VectorThrowRun SpecVectorThrowRun.
Import ListNotations.
Open Scope Z_scope.

(** *** No member throws if none is due *)
Definition quiet {W A : Type} (o : xout W A) : Prop :=
  match o with XRet s _ _ => sc_ops s = None | XThr _ XMember => False | _ => True end.

Lemma run_quiet : forall s ops m g, sc_ops s = None -> quiet (x_run s ops m g).
Proof.
  intros [k a] ops m g H. cbn [sc_ops] in H. subst k. unfold x_run. rewrite exec_x_never. destruct (exec ops m); cbn [xlift quiet sc_ops]; auto.
Qed.

Lemma bind_quiet : forall (W A B : Type) (o : xout W A) (f : sched -> W -> A -> xout W B),
  quiet o -> (forall s w a, sc_ops s = None -> quiet (f s w a)) -> quiet (xbind o f).
Proof. intros W A B [s w a|w [| |e]| |x] f H G; cbn [quiet xbind] in *; auto. Qed.

Lemma lift_quiet : forall (W V A : Type) (o : xout W A) (f : W -> V), quiet o -> quiet (xlift o f).
Proof. intros W V A [s w a|w [| |e]| |x] f H; cbn [quiet xlift] in *; auto. Qed.

Lemma resize_quiet : forall ct s w x y z, sc_ops s = None -> quiet (x_resize ct s w x y z).
Proof.
  intros ct s [m g] x y z H. unfold x_resize. destruct (_ && _ && _); [exact H|]. unfold x_resize_to. apply bind_quiet.
  - destruct (destroy_and_deallocate ct (m, g)); cbn [plain quiet]; auto.
  - intros s1 [m1 g1] _ H1. apply bind_quiet.
    + rewrite x_callback_choose. destruct (choose _ _ _ _); cbn [quiet]; auto.
    + intros s3 [m3 g3] _ H3. destruct (g_bs g3) as [n|]; cbn [x_use quiet]; auto.
      unfold x_alloc. destruct (due _); [exact Logic.I|]. destruct (alloc m3 n) as [m4 p].
      unfold x_init. rewrite x_callback_choose. destruct (choose _ _ _ _); [exact Logic.I|]. apply run_quiet. exact H3.
Qed.

Lemma load_quiet : forall ct s w l q n, sc_ops s = None -> quiet (x_load_streaks ct s w l q n).
Proof.
  intros ct s [m g] l q n H. unfold x_load_streaks. rewrite x_callback_choose. destruct (choose _ _ _ _); [exact Logic.I|].
  apply run_quiet; auto.
Qed.

Lemma row_quiet : forall ct s w cs stride x y z n, sc_ops s = None -> quiet (x_set_row ct s w cs stride x y z n).
Proof.
  intros ct s [m g] cs stride x y z n H. unfold x_set_row. rewrite x_callback_choose. destruct (choose _ _ _ _); [exact Logic.I|].
  destruct (set_instance_functor _ _ _ _ _ _ _ _ _); [apply run_quiet; auto|exact Logic.I].
Qed.

Lemma reserve_quiet : forall ct s w n, sc_ops s = None -> quiet (x_v_reserve ct s w n).
Proof.
  intros ct s [m v] n H. unfold x_v_reserve, x_new.
  pose proof (resize_quiet ct s (m, mkGrid 0 0 0 None None None None null) n 1 1 H) as Q1.
  destruct (x_resize ct s _ n 1 1) as [s1 [m1 h] u|[m1 h] [| |e]| |x]; cbn [quiet] in *; auto.
  destruct (g_ex h) as [ex|]; cbn [x_use quiet]; auto.
  assert (U : forall m' h' e, e <> XMember -> quiet (unwind ct m' h' v e)).
  { intros m' h' e He. unfold unwind. destruct (g_destroy ct (m', h')) as [[] ?| |]; cbn [quiet]; auto. destruct e; auto. }
  pose proof (resize_quiet ct s1 (m1, h) ex 1 1 Q1) as Q2.
  destruct (x_resize ct s1 (m1, h) ex 1 1) as [s2 [m2 h2] u2|[m2 h2] [| |e]| |x]; cbn [quiet] in Q2;
    [|contradiction|apply U; discriminate|apply U; discriminate|exact Logic.I|exact Logic.I].
  destruct (g_ex (v_grid v)) as [old|]; cbn [x_use]; [|exact Logic.I].
  pose proof (load_quiet ct s2 (m2, h2) [(0, 0, 0, v_count v)] (g_data (v_grid v)) old Q2) as Q3.
  destruct (x_load_streaks ct s2 (m2, h2) [(0, 0, 0, v_count v)] (g_data (v_grid v)) old) as [s3 [m3 h3] u3|[m3 h3] [| |e]| |x]; cbn [quiet] in Q3;
    [|contradiction|apply U; discriminate|apply U; discriminate|exact Logic.I|exact Logic.I].
  destruct (g_swap h3 (v_grid v)) as [h4 g4]. destruct (g_destroy ct (m3, h4)) as [[] ?|[] ?|]; cbn [quiet]; auto.
Qed.

(** *** One element *)
Lemma v_set_total : forall ct s m v i c w', v_set ct (m, v) i c = Ret w' tt -> wf_cell (ct_ms ct) c ->
  (exists s', x_v_set ct s (m, v) i c = XRet s' w' tt /\ ~ breaks_element (ct_ms ct) s) \/
  (exists w1, x_v_set ct s (m, v) i c = XThr w1 XMember /\ breaks_element (ct_ms ct) s).
Proof.
  intros ct s m v i c w' H Hc. unfold x_v_set. cbn [fst snd]. unfold v_set, on_grid in H.
  destruct (g_set ct (m, v_grid v) i 0 0 c) as [[m1 g1] []| |f] eqn:E; [|destruct w; discriminate|discriminate]. inversion H; subst.
  unfold g_set in E. rewrite callback_choose in E. unfold x_set, x_set_row. rewrite x_callback_choose.
  destruct (choose _ _ _ _) as [e|e]; [discriminate|].
  destruct (set_instance_functor _ _ _ _ _ _ _ _ _) as [ops|] eqn:Es; [|discriminate].
  assert (HC : calls ops = (1 * class_elements (ct_ms ct))%nat).
  { pose proof (GridThrowRunProofs.calls_set _ _ _ _ _ _ _ _ _ _ Es) as Q. apply Q. intros j d Hj Hd.
    assert (j = 0) by lia. subst j. cbn in Hd. inversion Hd; subst; auto. }
  rewrite Nat.mul_1_l in HC.
  destruct (GridThrowRunProofs.run_total s ops m (v_grid v) (m1, g1) E) as [[s' [E1 K]]|[m2 [E1 K]]]; rewrite HC in K; rewrite E1; cbn [xlift fst snd].
  - left. exists s'. split; auto.
  - right. exists (m2, mkVec (v_grid v) (v_count v)). split; auto.
Qed.

Lemma on_vec_done : forall W id v f h s' w' W' b, sw_vecs W id = Some v -> f (sw_mem W, v) = XRet s' w' tt -> h (sw_mem W, v) = Ret w' tt ->
  on_vec W id h (fun _ : unit => SUnit) = Val (W', b) -> x_on_vec W id f = Val (W', SDone b).
Proof.
  intros W id v f h s' [m' v'] W' b Hv Hf Hh H. unfold x_on_vec. unfold on_vec in H. rewrite Hv, Hh in H. rewrite Hv, Hf.
  inversion H; subst. reflexivity.
Qed.

Lemma on_vec_caught : forall W id v f m' v' e, sw_vecs W id = Some v -> f (sw_mem W, v) = XThr (m', v') e -> match e with XLib _ => False | _ => True end ->
  x_on_vec W id f = Val (mkSW m' (sset (sw_vecs W) id (Some v')), SCaught).
Proof. intros W id v f m' v' e Hv Hf He. unfold x_on_vec. rewrite Hv, Hf. destruct e; auto. contradiction. Qed.

(** *** Enlarging *)
Lemma built_eq : forall ms n E, objects_built ms n E = (grid_elements ms n 1 1 + second ms n E)%nat.
Proof. intros. unfold objects_built, second. rewrite !line_elements. reflexivity. Qed.

Lemma growth_cases : forall ct L s m v a n,
  wf_ct ct -> line_policy (ct_sizes ct) L -> mem_ok m -> vrep ct L m v a -> av_ext a = true -> 0 <= n ->
  harmless_growth (ct_ms ct) L s n -> (forall E, first_fit n L E -> len (av_l a) <= E) ->
  (exists s' w', x_v_reserve ct s (m, v) n = XRet s' w' tt /\ v_reserve ct (m, v) n = Ret w' tt /\
     ~ breaks_growth (ct_ms ct) L s n (av_l a) 0 /\
     (breaks_element (ct_ms ct) s' <-> breaks_growth (ct_ms ct) L s n (av_l a) (class_elements (ct_ms ct)))) \/
  (exists m' e, x_v_reserve ct s (m, v) n = XThr (m', v) e /\ match e with XLib _ => False | _ => True end /\ gframe m 0 m' 0 /\
     forall more, breaks_growth (ct_ms ct) L s n (av_l a) more).
Proof.
  intros ct L s m v a n Hct P M V He Hn [E [FF HG]] HlE. specialize (HlE E FF).
  pose proof (x_reserve_cases ct L s m v a n E Hct P M V He Hn FF HlE) as X. cbv zeta in X.
  rewrite <- built_eq in X. unfold len in X. rewrite Nat2Z.id in X.
  pose proof (reserve_quiet ct s (m, v) n) as Q.
  destruct (x_v_reserve ct s (m, v) n) as [s1 w1 []|[m1 v1] [| |er]| |f]; try contradiction.
  - destruct X as [X1 [X2 [_ X4]]]. left. exists s1, w1. split; auto. split; auto.
    assert (FU : forall E', first_fit n L E' -> E' = E) by (intros E' F'; eapply first_fit_fun; eauto).
    split.
    + intros [B|[E' [k [B1 [B2 B3]]]]]; [contradiction|]. rewrite (FU _ B1) in B3. destruct (X4 k B2). lia.
    + split.
      * intros [k1 [K1 K2]]. destruct (sc_ops s) as [k|] eqn:Es; [|cbn [quiet] in Q; specialize (Q eq_refl); congruence].
        destruct (X4 k eq_refl) as [Y1 Y2]. right. exists E, k. split; auto. split; auto. assert (k1 = (k - (objects_built (ct_ms ct) n E + length (av_l a) * class_elements (ct_ms ct)))%nat) by congruence. lia.
      * intros [B|[E' [k [B1 [B2 B3]]]]]; [contradiction|]. rewrite (FU _ B1) in B3. destruct (X4 k B2) as [Y1 Y2]. eexists. split; [exact Y2|]. lia.
  - destruct X as [-> [Hna [k [Hk [[K1 _]|[K2 [_ F]]]]]]].
    + destruct HG as [HG|[_ HG]]; [contradiction|]. specialize (HG k Hk). rewrite built_eq in HG. lia.
    + right. exists m1, XMember. split; auto. split; auto. split; auto. intros more. right. exists E, k. split; auto. split; auto. lia.
  - destruct X as [-> [-> Ha]]. right. exists m, XBadAlloc. split; auto. split; auto. split; [apply gframe_refl; auto|]. intros more. left. auto.
  - destruct f; try contradiction.
    + destruct X as [X1 [X2 _]]. destruct HG as [HG|[[HG|HG] _]]; congruence.
    + destruct X as [X1 [X2 [X3 [k [Hk K]]]]]. destruct HG as [HG|[_ HG]]; [congruence|]. specialize (HG k Hk). lia.
Qed.

(** *** Steps and programs *)
Ltac done_by Ev EX Es E := eapply on_vec_done; [exact Ev|exact EX| |exact E]; exact Es.
Ltac caught_by Ev EX := eapply on_vec_caught; [exact Ev|exact EX|try exact Logic.I].

Lemma x_sstep_ok : forall ct L W A o op,
  wf_ct ct -> line_policy (ct_sizes ct) L -> growing L -> svinv ct L W A -> spre (ct_ms ct) A op ->
  match o with None => True | Some s => harmless (ct_ms ct) L A s op end ->
  exists W' A' b, x_sstep ct W o op = Val (W', b) /\ vstep (ct_ms ct) L A o op A' b /\ svinv ct L W' A'.
Proof.
  intros ct L W A o op Hct P GR I Hpre Hh.
  destruct (sstep_ok ct L W A op Hct P GR I Hpre) as [W1 [A1 [ob [E [ST I1]]]]].
  pose proof (sv_mem _ _ _ _ I) as M.
  destruct o as [s|].
  2:{ exists W1, A1, (SDone ob). cbn [x_sstep]. rewrite E. split; auto. split; auto. constructor; auto. }
  assert (DONE : forall x, x = Val (W1, SDone ob) -> throws_if (ct_ms ct) L A s op False ->
     exists W' A' b, x = Val (W', b) /\ vstep (ct_ms ct) L A (Some s) op A' b /\ svinv ct L W' A').
  { intros x -> HT. exists W1, A1, (SDone ob). split; auto. split; auto. constructor; auto. }
  assert (STAY : forall id v m', sw_vecs W id = Some v -> gframe (sw_mem W) 0 m' 0 -> svinv ct L (mkSW m' (sset (sw_vecs W) id (Some v))) A).
  { intros id v m' Hv F. eapply sv_eq; [| |exact (sv_keep ct L W A m' I F)]; auto. intros i. symmetry. apply sset_self. auto. }
  assert (FIX : forall id v m', sw_vecs W id = Some v -> same_other (sw_mem W) m' (blk (v_grid v)) ->
     forall a', A id <> None -> vrep ct L m' v a' -> svinv ct L (mkSW m' (sset (sw_vecs W) id (Some v))) (sset A id (Some a'))).
  { intros id v m' Hv SO a' _ V'. eapply (sv_set ct L W A id m' (blk (v_grid v))); eauto. unfold sblk. rewrite Hv. apply same_other_frame; auto. }
  destruct op as [id n|id n c|id src|d s0|id i c|id i|id|id|id|id n|id n|id|id c|id|id n|id]; cbn [harmless] in Hh; try contradiction; cbn [spre sstep x_sstep] in *.
  - (* fill *)
    destruct Hpre as [Hid [Hn Hc]]. destruct Hh as [HR Hh]. destruct (first_fit_room _ _ HR) as [Ef FF].
    pose proof (x_fill_cases ct L s (sw_mem W) n c Ef Hct P M Hn FF Hc) as X.
    destruct (v_new_fill_ok ct L (sw_mem W) n c Hct P M Hn Hc HR) as [m0 [v0 [E0 _]]].
    destruct (x_v_new_fill ct s (sw_mem W) n c) as [s1 [m1 v1] []|[m1 v1] [| |er]| |f] eqn:EX; try contradiction; cbn [x_vec_ctor].
    + destruct X as [X [Hna X2]]. apply DONE.
      * rewrite X in E. cbn [vec_ctor] in E. inversion E; subst. reflexivity.
      * cbn [throws_if]. split; [tauto|]. intros [Q|[k [Q1 Q2]]]; [contradiction|]. specialize (X2 k Q1). rewrite line_elements in X2. lia.
    + destruct X as [Hna [k [Hk [[K _]|[K F]]]]].
      { destruct Hh as [Hh|Hh]; [contradiction|]. specialize (Hh k Hk). rewrite line_elements in K. lia. }
      exists (mkSW m1 (sw_vecs W)), A, SCaught. split; auto. split; [|apply sv_keep; auto].
      apply vs_caught; [constructor|]. cbn [throws_if]. split; [|tauto]. intros _. right. exists k. split; auto. rewrite line_elements in K. lia.
    + destruct X as [-> Ha]. exists (mkSW (sw_mem W) (sw_vecs W)), A, SCaught. split; auto. split; [|destruct W; exact I].
      apply vs_caught; [constructor|]. cbn [throws_if]. tauto.
  - (* set *)
    destruct Hpre as [[a [Ha Hi]] Hc]. destruct (sv_some _ _ _ _ _ _ I Ha) as [v [Ev V]].
    destruct (v_set_ok ct L (sw_mem W) v a i c Hct P V Hi Hc) as [m' [Es _]].
    destruct (v_set_total ct s _ _ _ _ _ Es Hc) as [[s' [EX K]]|[[m1 v1] [EX K]]].
    + apply DONE; [done_by Ev EX Es E|]. cbn [throws_if]. tauto.
    + pose proof (x_set_list ct L s (sw_mem W) v a i c Hct P V Hi Hc) as X. rewrite EX in X.
      destruct X as [_ [-> [SO [c0 [c' [Hc0 [Hm V']]]]]]].
      do 3 eexists. split; [caught_by Ev EX|]. split.
      * apply vs_caught; [eapply sl_set; eauto|]. cbn [throws_if]. tauto.
      * apply FIX; auto. congruence.
  - (* resize *)
    destruct Hpre as [Hn [a [Ha Hx]]]. destruct (sv_some _ _ _ _ _ _ I Ha) as [v [Ev V]].
    destruct Hh as [a' [Ha' Hh]]. assert (a' = a) by congruence. subst a'.
    pose proof V as [Ec [ci R]]. pose proof (vr_cap _ _ _ _ _ _ _ R) as Hcap.
    destruct (Z.le_gt_cases n (av_cap a)) as [Hle|Hgt].
    + apply DONE.
      * destruct (v_resize_within ct L (sw_mem W) v a n V) as [ER _]; [lia|].
        eapply on_vec_done with (h := fun st => v_resize ct st n); [exact Ev| |exact ER|exact E]. unfold x_v_resize, v_capacity. cbn [snd fst]. rewrite Hcap.
        assert ((av_cap a <? n) = false) as -> by lia. reflexivity.
      * cbn [throws_if]. intros a1 Q1. assert (a1 = a) by congruence. subst a1. split; [tauto|lia].
    + destruct Hh as [Hh|Hh]; [lia|]. destruct Hx as [Hx|Hx]; [lia|].
      assert (HlE : forall E0, first_fit n L E0 -> len (av_l a) <= E0).
      { intros E0 FF. pose proof (vr_le _ _ _ _ _ _ _ R). destruct (first_fit_in _ _ _ FF) as [_ Q].
        destruct (Z.le_gt_cases n Ec) as [Q1|Q1]; [|lia].
        assert (E0 = Ec). { eapply first_fit_fun; [exact FF|]. eapply first_fit_between; [exact (vr_fit _ _ _ _ _ _ _ R)|lia]. } lia. }
      destruct (growth_cases ct L s (sw_mem W) v a n Hct P M V Hx Hn Hh HlE) as [[s' [w' [EX [Er [Hna _]]]]]|[m' [e [EX [He [F Hw]]]]]].
      * apply DONE.
        -- eapply on_vec_done with (h := fun st => v_resize ct st n); [exact Ev| | |exact E].
           ++ unfold x_v_resize, v_capacity. cbn [snd]. rewrite Hcap. assert ((av_cap a <? n) = true) as -> by lia. rewrite EX. cbn [xbind]. reflexivity.
           ++ unfold v_resize, v_capacity. cbn [snd]. rewrite Hcap. assert ((av_cap a <? n) = true) as -> by lia. rewrite Er. reflexivity.
        -- cbn [throws_if]. intros a1 Q1. assert (a1 = a) by congruence. subst a1. split; tauto.
      * do 3 eexists. split.
        { eapply on_vec_caught; [exact Ev| |exact He]. unfold x_v_resize, v_capacity. cbn [snd]. rewrite Hcap.
          assert ((av_cap a <? n) = true) as -> by lia. rewrite EX. reflexivity. }
        split; [|apply STAY; auto]. apply vs_caught; [constructor|]. cbn [throws_if].
        intros a1 Q1. assert (a1 = a) by congruence. subst a1. split; [lia|]. intros _. split; auto.
  - (* reserve *)
    destruct Hpre as [a [Ha [Hn Hx]]]. destruct (sv_some _ _ _ _ _ _ I Ha) as [v [Ev V]].
    assert (H0 : 0 <= len (av_l a)) by (unfold len; lia).
    assert (HlE : forall E0, first_fit n L E0 -> len (av_l a) <= E0).
    { intros E0 FF. destruct (first_fit_in _ _ _ FF) as [_ Q]. lia. }
    destruct (growth_cases ct L s (sw_mem W) v a n Hct P M V Hx ltac:(lia) Hh HlE) as [[s' [w' [EX [Er [Hna _]]]]]|[m' [e [EX [He [F Hw]]]]]].
    + apply DONE; [done_by Ev EX Er E|]. cbn [throws_if]. intros a1 Q1. assert (a1 = a) by congruence. subst a1. tauto.
    + do 3 eexists. split; [caught_by Ev EX; exact He|].
      split; [|apply STAY; auto]. apply vs_caught; [constructor|]. cbn [throws_if]. intros a1 Q1. assert (a1 = a) by congruence. subst a1. split; auto.
  - (* push *)
    destruct Hpre as [Hc [a [Ha [Hx HT]]]]. destruct (sv_some _ _ _ _ _ _ I Ha) as [v [Ev V]].
    destruct Hh as [a' [Ha' Hh]]. assert (a' = a) by congruence. subst a'.
    pose proof V as [Ec [ci R]]. pose proof (vr_count _ _ _ _ _ _ _ R) as HN. pose proof (vr_ext _ _ _ _ _ _ _ R) as HX. rewrite Hx in HX.
    destruct (first_fit_in _ _ _ (vr_fit _ _ _ _ _ _ _ R)) as [HIn HcE].
    assert (H0 : 0 <= len (av_l a)) by (unfold len; lia).
    destruct (Z.eq_dec (v_count v) Ec) as [Hf|Hf].
    + (* grows *)
      destruct Hh as [Hh|Hh]; [lia|].
      assert (HR : room L (6 * len (av_l a) / 5)).
      { destruct Hh as [E0 [FF _]]. destruct (first_fit_in _ _ _ FF) as [Q1 Q2]. exists E0. auto. }
      assert (Hx2 : g_ex (v_grid v) = Some (v_count v)) by congruence.
      assert (H6 : len (av_l a) <= 6 * len (av_l a) / 5) by (apply Z.div_le_lower_bound; lia).
      pose proof (x_push_grow ct L s (sw_mem W) v a c Hct P GR M V Hx Hc Hx2 HR) as X.
      assert (HlE : forall E0, first_fit (6 * len (av_l a) / 5) L E0 -> len (av_l a) <= E0).
      { intros E0 FF. destruct (first_fit_in _ _ _ FF) as [_ Q]. lia. }
      assert (H60 : 0 <= 6 * len (av_l a) / 5) by lia.
      pose proof (growth_cases ct L s (sw_mem W) v a _ Hct P M V Hx H60 Hh HlE) as GC.
      assert (HGF : grow (len (av_l a)) = 6 * len (av_l a) / 5).
      { apply grow_floor. pose proof GR as GR'. unfold growing in GR'. rewrite Forall_forall in GR'. specialize (GR' Ec HIn). lia. }
      assert (BG : (match x_v_push ct s (sw_mem W, v) c with XThr _ _ => True | _ => False end) <->
        breaks_growth (ct_ms ct) L s (6 * len (av_l a) / 5) (av_l a) (class_elements (ct_ms ct))).
      { rewrite x_push_eq. rewrite Hx2. cbn [x_use]. rewrite Z.eqb_refl, HN, HGF.
        destruct GC as [[s2 [w2 [Q1 [Q2 [_ Q3]]]]]|[m2 [e [Q [_ [_ Hw]]]]]]; [|rewrite Q; cbn [xbind]; specialize (Hw (class_elements (ct_ms ct))); tauto].
        rewrite Q1. cbn [xbind]. rewrite <- Q3.
        destruct (v_push_ok ct L (sw_mem W) v a c Hct P GR M V Hx Hc HT) as [[m' [EP _]]|[[m' [v' [cap' [EP _]]]]|[_ [_ [_ EP]]]]]; [| |contradiction];
          unfold v_push in EP; cbn [snd] in EP; rewrite Hx2 in EP; cbn [use] in EP; rewrite Z.eqb_refl in EP; rewrite HN, HGF, Q2 in EP; cbn [obind] in EP;
          destruct w2 as [m3 v3]; cbn [snd] in EP |- *;
          destruct (v_set ct (m3, v3) (v_count v3) c) as [w4 []|w4 e4|f4] eqn:Es; cbn [obind] in EP; try discriminate;
          destruct (v_set_total ct s2 _ _ _ _ _ Es Hc) as [[s' [Q K]]|[w5 [Q K]]]; rewrite Q; cbn [xbind]; tauto. }
      assert (FF1 : first_fit (av_cap a) L (len (av_l a))) by (rewrite <- HN, Hf; exact (vr_fit _ _ _ _ _ _ _ R)).
      destruct (x_v_push ct s (sw_mem W, v) c) as [s1 w1 []|[m1 v1] ex| |f] eqn:EX; try contradiction.
      * apply DONE; [done_by Ev EX X E|]. cbn [throws_if]. intros a1 R1. assert (a1 = a) by congruence. subst a1. split; [intros _; exact BG|intros Q; contradiction].
      * destruct X as [X|[s1 [w1 [cap' [X [-> [Hcnt [Hlt [F V']]]]]]]]].
        -- destruct GC as [[s2 [w2 [Q _]]]|[m2 [e [Q [He [F Hw]]]]]]; [congruence|]. rewrite X in Q. inversion Q; subst.
           do 3 eexists. split; [caught_by Ev EX; exact He|]. split; [|apply STAY; auto].
           apply vs_caught; [apply sl_push|]. cbn [throws_if]. intros a1 R1. assert (a1 = a) by congruence. subst a1. split; [intros _; exact BG|intros; contradiction].
        -- do 3 eexists. split; [caught_by Ev EX|]. split.
           ++ apply vs_caught; [eapply (sl_push_grown _ _ id c a cap'); eauto; lia|]. cbn [throws_if].
              intros a1 R1. assert (a1 = a) by congruence. subst a1. split; [intros _; exact BG|intros; contradiction].
           ++ eapply (sv_set ct L W A id m1 (blk (v_grid v1))); eauto. unfold sblk. rewrite Ev. exact F.
      * destruct GC as [[s2 [w2 [Q _]]]|[m2 [e [Q _]]]]; congruence.
    + assert (Hx2 : g_ex (v_grid v) <> Some (v_count v)) by congruence.
      assert (NF : ~ first_fit (av_cap a) L (len (av_l a))).
      { intros Q. apply Hf. rewrite HN. eapply first_fit_fun; [exact Q|exact (vr_fit _ _ _ _ _ _ _ R)]. }
      pose proof (x_push_room ct L s (sw_mem W) v a c Hct P V Hx Hc Hx2 HT) as X.
      assert (BR : (match x_v_push ct s (sw_mem W, v) c with XThr _ _ => True | _ => False end) <-> breaks_element (ct_ms ct) s).
      { rewrite x_push_eq. rewrite HX. cbn [x_use]. assert ((v_count v =? Ec) = false) as -> by lia. cbn [xbind snd].
        destruct (v_push_ok ct L (sw_mem W) v a c Hct P GR M V Hx Hc HT) as [[m' [EP _]]|[[m' [v' [cap' [EP _]]]]|[EP _]]];
          unfold v_push in EP; cbn [snd] in EP; rewrite HX in EP; cbn [use] in EP; (assert ((v_count v =? Ec) = false) as EQ by lia); rewrite EQ in EP; cbn [obind snd] in EP;
          destruct (v_set ct (sw_mem W, v) (v_count v) c) as [w2 []|w2 e2|f2] eqn:Es; cbn [obind] in EP; try discriminate.
        - destruct (v_set_total ct s _ _ _ _ _ Es Hc) as [[s' [Q K]]|[w3 [Q K]]]; rewrite Q; cbn [xbind]; tauto.
        - destruct (v_set_total ct s _ _ _ _ _ Es Hc) as [[s' [Q K]]|[w3 [Q K]]]; rewrite Q; cbn [xbind]; tauto.
        - exfalso. destruct (v_write_ok ct L (sw_mem W) v a Ec ci (v_count v) c Hct P R) as [m3 [Q _]]; auto.
          + pose proof (vr_le _ _ _ _ _ _ _ R). lia.
          + destruct HT as [T|[T|T]]; auto; right; [|lia]. rewrite (vr_full _ _ _ _ _ _ _ R T) in *. pose proof (vr_le _ _ _ _ _ _ _ R). lia.
          + congruence. }
      destruct (x_v_push ct s (sw_mem W, v) c) as [s1 w1 []|[m1 v1] ex| |f] eqn:EX; try contradiction.
      * apply DONE; [done_by Ev EX X E|]. cbn [throws_if]. intros a1 R1. assert (a1 = a) by congruence. subst a1. split; [intros Q; contradiction|intros _; exact BR].
      * destruct X as [-> [-> [SO V']]].
        exists (mkSW m1 (sset (sw_vecs W) id (Some v))), A, SCaught. split; [caught_by Ev EX|]. split.
        -- apply vs_caught; [apply sl_push|]. cbn [throws_if]. intros a1 R1. assert (a1 = a) by congruence. subst a1. split; [intros Q; contradiction|intros _; exact BR].
        -- eapply sv_eq; [| |apply (FIX id v m1 Ev SO a)]; auto; [|congruence]. intros i. apply sset_self. auto.
  - (* pop *)
    destruct Hpre as [a [Ha Hne]]. destruct (sv_some _ _ _ _ _ _ I Ha) as [v [Ev V]]. destruct (exists_last Hne) as [l [x El]].
    destruct (v_pop_ok ct L (sw_mem W) v a l x Hct P V El) as [m' [Es _]].
    assert (Hd : wf_cell (ct_ms ct) (value_init (ct_ms ct))).
    { rewrite value_init_default. destruct Hct as [_ Hct]. apply default_cell_wf. tauto. }
    assert (Es' := Es). unfold v_pop in Es'. cbn [fst snd] in Es'.
    destruct (v_set_total ct s _ _ _ _ _ Es' Hd) as [[s' [EX K]]|[[m1 v1] [EX K]]].
    + apply DONE; [done_by Ev EX Es E|]. cbn [throws_if]. tauto.
    + pose proof (x_pop_list ct L s (sw_mem W) v a l x Hct P V El) as X.
      assert (EP : x_v_pop ct s (sw_mem W, v) = XThr (m1, v1) XMember) by exact EX. rewrite EP in X.
      destruct X as [_ [-> [SO V']]].
      do 3 eexists. split; [caught_by Ev EX|]. split.
      * apply vs_caught; [eapply sl_pop; eauto|]. cbn [throws_if]. tauto.
      * eapply (sv_set ct L W A id m1 (blk (v_grid v))); eauto. unfold sblk. rewrite Ev. apply same_other_frame; auto.
Qed.

Lemma x_srun_ok : forall ct L ops W A,
  wf_ct ct -> line_policy (ct_sizes ct) L -> growing L -> svinv ct L W A -> vlegal (ct_ms ct) L A ops ->
  exists W' A' bs, x_srun ct W ops = Val (W', bs) /\ vrun (ct_ms ct) L A ops A' bs /\ svinv ct L W' A'.
Proof.
  intros ct L ops. induction ops as [|[o op] ops IH]; intros W A Hct P GR I HL.
  - exists W, A, []. split; [reflexivity|]. split; [constructor|auto].
  - cbn [vlegal] in HL. destruct HL as [Hpre [Hh HL]].
    destruct (x_sstep_ok ct L W A o op Hct P GR I Hpre Hh) as [W1 [A1 [b [E [ST I1]]]]].
    destruct (IH W1 A1 Hct P GR I1 (HL _ _ ST)) as [W2 [A2 [bs [E2 [R I2]]]]].
    exists W2, A2, (b :: bs). cbn [x_srun]. rewrite E, E2. split; auto. split; auto. econstructor; eauto.
Qed.
