(** Statements C34-C40 and C55: soa_vector. *)
From Coq Require Import ZArith List Lia Bool Init.Byte Floats.SpecFloat.
From Verif Require Import Base Layout LayoutProofs Sizes SizesProofs Mem MemProofs Accessor AccessorProofs
  RegionProofs Grid SpecGrid GridProofs GridInv BufferProofs GridOps GridSim GridView Array SpecArray ArrayProofs
  Vector SpecVector VectorProofs.
From Verif Require PropsArray.
Import ListNotations.
Open Scope Z_scope.

(** States a program can be in that used vectors within their contract. *)
Definition reachable (ct : celltype) (L : list Z) (W : sworld) : Prop :=
  exists ops obs, lawful (ct_ms ct) L no_vectors ops /\ srun ct sstart ops = Val (W, obs).

(** What a callback and size() see; nothing changes. *)
Definition contents (ct : celltype) (W : sworld) (id : nat) (l : list cell) : Prop :=
  exists W', srun ct W [SSize id; SCallback id (len l)] = Val (W', [SNum (len l); SCells l]).
Definition has_cap (ct : celltype) (W : sworld) (id : nat) (cap : Z) : Prop :=
  exists W', srun ct W [SCap id] = Val (W', [SNum cap]).
Definition unused (W : sworld) (id : nat) : Prop := sw_vecs W id = None.
(** The extents of the storage are initialised: not so in copies, see C38. *)
Definition sized (W : sworld) (id : nat) : Prop := exists v E, sw_vecs W id = Some v /\ g_ex (v_grid v) = Some E.
(** All vectors but [id] are what they were. *)
Definition rest_same (ct : celltype) (W W' : sworld) (id : nat) : Prop :=
  forall e, e <> id ->
    (unused W e <-> unused W' e) /\ (forall l, contents ct W e l <-> contents ct W' e l) /\
    (forall c, has_cap ct W e c <-> has_cap ct W' e c).

(** Size policies considered: one-dimensional storage in sizes that grow. *)
Definition policy (ct : celltype) (L : list Z) : Prop := line_policy (ct_sizes ct) L /\ growing L.

(** *** Connection to the invariant *)
Lemma reach_inv : forall ct L W, wf_ct ct -> policy ct L -> reachable ct L W -> exists A, svinv ct L W A.
Proof.
  intros ct L W Hw [P GR] [ops [obs [Hl E]]].
  destruct (srun_ok ct L ops sstart no_vectors Hw P GR (sv_start ct L) Hl) as [W' [A' [obs' [E' [_ I']]]]].
  rewrite E in E'. inversion E'; subst. eauto.
Qed.

Lemma size_read : forall ct L W A id a, svinv ct L W A -> A id = Some a ->
  exists v, sw_vecs W id = Some v /\ vrep ct L (sw_mem W) v a /\ sstep ct W (SSize id) = Val (mkSW (sw_mem W) (sset (sw_vecs W) id (Some v)), SNum (len (av_l a))).
Proof.
  intros ct L W A id a I E. destruct (sv_some _ _ _ _ _ _ I E) as [v [Ev V]]. exists v. split; auto. split; auto.
  cbn [sstep]. unfold on_vec. rewrite Ev. cbn [snd]. unfold v_size. destruct V as [X [ci V]]. rewrite (vr_count _ _ _ _ _ _ _ V). reflexivity.
Qed.

Lemma contents_iff : forall ct L W A id l, wf_ct ct -> policy ct L -> svinv ct L W A ->
  (contents ct W id l <-> exists a, A id = Some a /\ av_l a = l).
Proof.
  intros ct L W A id l Hw [P GR] I.
  assert (R : forall a n, A id = Some a -> 0 <= n <= len (av_l a) ->
     exists W', srun ct W [SSize id; SCallback id n] = Val (W', [SNum (len (av_l a)); SCells (firstn (Z.to_nat n) (av_l a))])).
  { intros a n E Hn. destruct (srun_ok ct L [SSize id; SCallback id n] W A Hw P GR I) as [W2 [A2 [obs [E2 [R _]]]]].
    { cbn [lawful spre]. split; [congruence|]. intros A' ob S. inversion S; subst. split; eauto. }
    exists W2. rewrite E2. inversion R as [|? ? ? ? ? ? S R']; subst. inversion R' as [|? ? ? ? ? ? S' R'']; subst.
    inversion R''; subst. inversion S; subst. inversion S'; subst. repeat f_equal; congruence. }
  split.
  - intros [W' H]. destruct (A id) as [a|] eqn:E.
    + exists a. split; auto. destruct (size_read _ _ _ _ _ _ I E) as [v [Ev [V S]]].
      assert (HL : len (av_l a) = len l).
      { cbn [srun] in H. rewrite S in H. destruct (sstep ct _ (SCallback id (len l))) as [[w2 o2]|]; [|discriminate]. congruence. }
      destruct (R a (len l) eq_refl) as [W2 E2]; [unfold len in *; lia|]. rewrite H in E2. inversion E2.
      rewrite firstn_all2; auto. unfold len in *. lia.
    + exfalso. cbn [srun sstep] in H. unfold on_vec in H. rewrite (sv_none _ _ _ _ _ I E) in H. discriminate.
  - intros [a [E <-]]. destruct (R a (len (av_l a)) E) as [W2 E2]; [unfold len; lia|].
    exists W2. rewrite E2. rewrite firstn_all2; auto. unfold len. lia.
Qed.

Lemma has_cap_iff : forall ct L W A id c, svinv ct L W A ->
  (has_cap ct W id c <-> exists a, A id = Some a /\ av_cap a = c).
Proof.
  intros ct L W A id c I. unfold has_cap. cbn [srun sstep]. unfold on_vec. pose proof (sv_rep _ _ _ _ I id) as R.
  destruct (sw_vecs W id) as [v|], (A id) as [a|] eqn:E; try contradiction.
  - cbn [snd]. unfold v_capacity. destruct R as [X [ci R]]. rewrite (vr_cap _ _ _ _ _ _ _ R). split.
    + intros [W' H]. inversion H; subst. eauto.
    + intros [b' [H1 H2]]. inversion H1; subst. eauto.
  - split; [intros [? ?]; discriminate|intros [? [? ?]]; discriminate].
Qed.

Lemma unused_iff : forall ct L W A id, svinv ct L W A -> (unused W id <-> A id = None).
Proof.
  intros ct L W A id I. unfold unused. pose proof (sv_rep _ _ _ _ I id) as R.
  destruct (sw_vecs W id), (A id); try contradiction; split; auto; discriminate.
Qed.

Lemma sized_iff : forall ct L W A id a, svinv ct L W A -> A id = Some a -> (sized W id <-> av_ext a = true).
Proof.
  intros ct L W A id a I E. destruct (sv_some _ _ _ _ _ _ I E) as [v [Ev [X [ci V]]]]. pose proof (vr_ext _ _ _ _ _ _ _ V) as H.
  unfold sized. rewrite Ev. split.
  - intros [v' [E' [H1 H2]]]. inversion H1; subst. destruct (av_ext a); congruence.
  - intros Ha. rewrite Ha in H. eauto.
Qed.

Lemma rest_same_of : forall ct L W A W' A' id, wf_ct ct -> policy ct L -> svinv ct L W A -> svinv ct L W' A' ->
  (forall e, e <> id -> A e = A' e) -> rest_same ct W W' id.
Proof.
  intros ct L W A W' A' id Hw P I I' H e He. specialize (H e He).
  rewrite (unused_iff _ _ _ _ _ I), (unused_iff _ _ _ _ _ I'), H. split; [tauto|]. split.
  - intros l. rewrite (contents_iff _ _ _ _ _ _ Hw P I), (contents_iff _ _ _ _ _ _ Hw P I'), H. tauto.
  - intros l. rewrite (has_cap_iff _ _ _ _ _ _ I), (has_cap_iff _ _ _ _ _ _ I'), H. tauto.
Qed.

Lemma srun1 : forall ct W op W' ob, sstep ct W op = Val (W', ob) -> srun ct W [op] = Val (W', [ob]).
Proof. intros. cbn [srun]. rewrite H. reflexivity. Qed.

(** ** Example data *)
Definition sx_ms := PropsArray.ax_ms.
Definition sx1 := PropsArray.ax1.
Definition sx2 := PropsArray.ax2.
(** a cell with a class-type member and one without; sizes 5, 8, 16 *)
Definition sx_ct : celltype := mkCT sx_ms (Uniform1D [5; 8; 16]) false.
Definition sx_triv : celltype := mkCT PropsArray.ax_triv (Uniform1D [5; 8; 16]) false.
Definition sx_def : celltype := mkCT PropsArray.ax_triv Default false.
Lemma sx_wf : wf_ct sx_ct /\ wf_ct sx_triv /\ wf_ct sx_def.
Proof. split; [|split]; repeat constructor. Qed.
Lemma sx_growing : growing [5; 8; 16].
Proof. repeat constructor; lia. Qed.
Lemma default_growing : growing default_1d_sizes.
Proof. unfold growing. apply Forall_forall. intros s H. repeat (destruct H as [<-|H]; [lia|]). contradiction. Qed.
Lemma sx_policy : policy sx_ct [5; 8; 16] /\ policy sx_triv [5; 8; 16] /\ policy sx_def default_1d_sizes.
Proof.
  split; [|split]; (split; [constructor|]); auto using sx_growing, default_growing.
Qed.
Definition obs_of (r : result (sworld * list sobs)) : option (list sobs) :=
  match r with Val (_, o) => Some o | Fault _ => None end.
Definition fault_of (r : result (sworld * list sobs)) : option fault :=
  match r with Val _ => None | Fault f => Some f end.

(** ** C34 *)
(** Every history within the contract runs without fault, and what it observes is what
    plain lists with a capacity allow ([spec_run], SpecVector.v); any cell type. *)
Theorem C34_history : forall ct L ops,
  wf_ct ct -> policy ct L -> lawful (ct_ms ct) L no_vectors ops ->
  exists W A obs, srun ct sstart ops = Val (W, obs) /\ spec_run (ct_ms ct) L no_vectors ops A obs.
Proof.
  intros ct L ops Hw [P GR] Hl.
  destruct (srun_ok ct L ops sstart no_vectors Hw P GR (sv_start ct L) Hl) as [W [A [obs [E [R _]]]]]. eauto 6.
Qed.

(** Reads of single elements agree with what callbacks see. *)
Theorem C34_reads : forall ct L W id l i,
  wf_ct ct -> policy ct L -> reachable ct L W -> contents ct W id l -> 0 <= i < len l ->
  exists W' c, srun ct W [SGet id i; SEmpty id] = Val (W', [SCell c; SBool false]) /\ nth_error l (Z.to_nat i) = Some c.
Proof.
  intros ct L W id l i Hw [P GR] HR Hc Hi. destruct (reach_inv _ _ _ Hw (conj P GR) HR) as [A I].
  rewrite (contents_iff _ _ _ _ _ _ Hw (conj P GR) I) in Hc. destruct Hc as [a [E <-]].
  destruct (srun_ok ct L [SGet id i; SEmpty id] W A Hw P GR I) as [W' [A' [obs [E' [R _]]]]].
  { cbn [lawful spre]. split; [eauto|]. intros A' ob S. inversion S; subst. split; [congruence|auto]. }
  inversion R as [|? ? ? ? ? ? S R']; subst. inversion R' as [|? ? ? ? ? ? S' R'']; subst. inversion R''; subst.
  inversion S; subst. inversion S'; subst. exists W', c. rewrite E'.
  match goal with H : A' id = Some ?y |- context [SBool (match av_l ?y with _ => _ end)] => assert (y = a) by congruence; subst y end.
  match goal with H : A' id = Some ?y, H2 : nth_error (av_l ?y) _ = _ |- _ => assert (y = a) by congruence; subst y end.
  split; auto. destruct (av_l a); [|reflexivity]. unfold len in Hi. cbn in Hi. lia.
Qed.

(** The calls of one vector a plain list can follow. [grows k]: push_back at size [k] is
    not beyond the largest size; [fits n]: neither is [n]. *)
Inductive list_step (ms : list member) (grows fits : Z -> Prop) (id : nat) : sop -> list cell -> list cell -> Prop :=
| l_push : forall l c, wf_cell ms c -> grows (len l) -> list_step ms grows fits id (SPush id c) l (l ++ [c])
| l_pop : forall l c, list_step ms grows fits id (SPop id) (l ++ [c]) l
| l_set : forall l1 l2 x c, wf_cell ms c -> list_step ms grows fits id (SSet id (len l1) c) (l1 ++ x :: l2) (l1 ++ c :: l2)
| l_clear : forall l, list_step ms grows fits id (SClear id) l []
| l_resize : forall l1 l2, list_step ms grows fits id (SResize id (len l1)) (l1 ++ l2) l1
| l_reserve : forall l n, len l <= n -> fits n -> list_step ms grows fits id (SReserve id n) l l.
Inductive list_run (ms : list member) (grows fits : Z -> Prop) (id : nat) : list sop -> list cell -> list cell -> Prop :=
| l_nil : forall l, list_run ms grows fits id [] l l
| l_cons : forall op ops l1 l2 l3, list_step ms grows fits id op l1 l2 -> list_run ms grows fits id ops l2 l3 ->
    list_run ms grows fits id (op :: ops) l1 l3.
(** For an arbitrary list of sizes. *)
Definition grows_in (L : list Z) (k : Z) : Prop := In k L -> room L (6 * k / 5).

Lemma firstn_len : forall (l1 l2 : list cell), firstn (Z.to_nat (len l1)) (l1 ++ l2) = l1.
Proof. intros. unfold len. rewrite Nat2Z.id, firstn_app, firstn_all, Nat.sub_diag. cbn. apply app_nil_r. Qed.

Lemma seq_step : forall ct L id op l l' W A a,
  wf_ct ct -> policy ct L -> list_step (ct_ms ct) (grows_in L) (room L) id op l l' ->
  svinv ct L W A -> A id = Some a -> av_l a = l -> av_ext a = true -> trivial (ct_ms ct) \/ av_full a = true ->
  exists W' A' a', sstep ct W op = Val (W', SUnit) /\ svinv ct L W' A' /\ A' id = Some a' /\ av_l a' = l' /\
    av_ext a' = true /\ (trivial (ct_ms ct) \/ av_full a' = true) /\ (av_full a = true -> av_full a' = true) /\
    (forall e, e <> id -> A' e = A e) /\
    (match op with SReserve _ n => av_full a' = true /\ n <= av_cap a' | _ => True end).
Proof.
  intros ct L id op l l' W A a Hw [P GR] LS I Ha Hl He HT.
  assert (Hpre : spre (ct_ms ct) A op).
  { destruct LS; cbn [spre].
    - split; auto. exists a. split; auto. split; auto. tauto.
    - exists a. split; auto. rewrite Hl. destruct l; discriminate.
    - split; auto. exists a. split; auto. rewrite Hl. unfold len. rewrite app_length. cbn [length]. lia.
    - congruence.
    - split; [unfold len; lia|]. exists a. split; auto.
    - exists a. split; auto. rewrite Hl. auto. }
  destruct (sstep_ok ct L W A op Hw P GR I Hpre) as [W' [A' [ob [E [S I']]]]].
  assert (OTH : forall e x, e <> id -> sset A id (Some x) e = A e) by (intros; apply sset_other; auto).
  destruct LS; inversion S; subst;
    repeat match goal with H1 : ?B id = Some a, H : ?B id = Some ?y |- _ => first [constr_eq y a; fail 1|assert (y = a) by congruence; subst y; clear H] end;
    try (do 3 eexists; split; [exact E|]; split; [exact I'|]; rewrite sset_same; split; [reflexivity|];
         cbn [av_l av_full av_ext av_cap]; repeat (split; auto); fail).
  - exfalso. match goal with H : ~ room L _ |- _ => apply H end. match goal with H : grows_in _ _ |- _ => apply H; auto end.
  - do 3 eexists; split; [exact E|]. split; [exact I'|]. rewrite sset_same. split; [reflexivity|].
    cbn [av_l av_full av_ext av_cap]. split; [|repeat (split; auto)].
    match goal with H : av_l a = ?x ++ [_] |- _ => rewrite Hl in H; apply app_inj_tail in H; destruct H; auto end.
  - do 3 eexists; split; [exact E|]. split; [exact I'|]. rewrite sset_same. split; [reflexivity|].
    cbn [av_l av_full av_ext av_cap]. split; [|repeat (split; auto)].
    rewrite Hl. unfold over, len. rewrite Nat2Z.id, firstn_app, firstn_all, Nat.sub_diag, skipn_app.
    cbn [firstn length app]. rewrite skipn_all2 by lia. replace (length l1 + 1 - length l1)%nat with 1%nat by lia. cbn. rewrite app_nil_r. reflexivity.
  - do 3 eexists; split; [exact E|]. split; [exact I'|]. rewrite sset_same. split; [reflexivity|].
    cbn [av_l av_full av_ext av_cap]. split; [|repeat (split; auto)]. rewrite Hl. apply firstn_len.
  - exfalso. match goal with H : len (av_l a) < len l1 <= _ |- _ => rewrite Hl in H; unfold len in H; rewrite app_length in H; lia end.
  - do 3 eexists; split; [exact E|]. split; [exact I'|]. rewrite sset_same. split; [reflexivity|].
    cbn [av_l av_full av_ext av_cap]. split; [|repeat (split; auto)]. rewrite Hl, firstn_len.
    unfold len. rewrite Nat2Z.id, app_length. replace (length l1 - (length l1 + length l2))%nat with 0%nat by lia. cbn. apply app_nil_r.
  - exfalso. match goal with H : ~ room L _ |- _ => apply H end.
    destruct (sv_some _ _ _ _ _ _ I Ha) as [v [_ [X [ci V]]]]. exists X.
    destruct (first_fit_in _ _ _ (vr_fit _ _ _ _ _ _ _ V)). split; auto.
    pose proof (vr_le _ _ _ _ _ _ _ V) as HX. rewrite Hl in HX. unfold len in *. rewrite app_length in HX. lia.
  - exfalso. match goal with H : ~ room L _ |- _ => apply H; auto end.
Qed.

Lemma seq_run : forall ct L id ops l l' W A a,
  wf_ct ct -> policy ct L -> list_run (ct_ms ct) (grows_in L) (room L) id ops l l' ->
  svinv ct L W A -> A id = Some a -> av_l a = l -> av_ext a = true -> trivial (ct_ms ct) \/ av_full a = true ->
  exists W' A' a', srun ct W ops = Val (W', map (fun _ => SUnit) ops) /\ svinv ct L W' A' /\ A' id = Some a' /\ av_l a' = l' /\
    av_ext a' = true /\ (trivial (ct_ms ct) \/ av_full a' = true) /\ (av_full a = true -> av_full a' = true) /\
    (forall e, e <> id -> A' e = A e).
Proof.
  intros ct L id ops l l' W A a Hw P LR. revert W A a. induction LR as [l|op ops l1 l2 l3 LS LR IH]; intros W A a I Ha Hl He HT.
  - exists W, A, a. split; [reflexivity|]. repeat (split; auto).
  - destruct (seq_step ct L id op l1 l2 W A a Hw P LS I Ha Hl He HT) as [W1 [A1 [a1 [E1 [I1 [Ha1 [Hl1 [He1 [HT1 [HF1 [HO1 _]]]]]]]]]]].
    destruct (IH W1 A1 a1 I1 Ha1 Hl1 He1 HT1) as [W2 [A2 [a2 [E2 [I2 [Ha2 [Hl2 [He2 [HT2 [HF2 HO2]]]]]]]]]].
    exists W2, A2, a2. split. { cbn [srun map]. rewrite E1, E2. reflexivity. }
    split; auto. split; auto. split; auto. split; auto. split; auto. split; auto. intros e Hne. rewrite HO2, HO1; auto.
Qed.

Lemma list_step_mono : forall ms (g g' f f' : Z -> Prop) id op l l', (forall k, g k -> g' k) -> (forall k, f k -> f' k) ->
  list_step ms g f id op l l' -> list_step ms g' f' id op l l'.
Proof. intros ms g g' f f' id op l l' H1 H2 H. destruct H; constructor; auto. Qed.
Lemma list_run_mono : forall ms (g g' f f' : Z -> Prop) id ops l l', (forall k, g k -> g' k) -> (forall k, f k -> f' k) ->
  list_run ms g f id ops l l' -> list_run ms g' f' id ops l l'.
Proof. intros ms g g' f f' id ops l l' H1 H2 H. induction H; econstructor; eauto using list_step_mono. Qed.

(** Cells without members of class type, on any list of sizes: whatever the calls, what
    the vector holds is what the plain list holds; no call throws or faults. *)
Theorem C34_sequence_sizes : forall ct L id W l ops l',
  wf_ct ct -> policy ct L -> trivial (ct_ms ct) -> reachable ct L W -> contents ct W id l -> sized W id ->
  list_run (ct_ms ct) (grows_in L) (room L) id ops l l' ->
  exists W', srun ct W ops = Val (W', map (fun _ => SUnit) ops) /\ contents ct W' id l' /\ sized W' id /\ rest_same ct W W' id.
Proof.
  intros ct L id W l ops l' Hw P T HR Hc Hs LR. destruct (reach_inv _ _ _ Hw P HR) as [A I].
  rewrite (contents_iff _ _ _ _ _ _ Hw P I) in Hc. destruct Hc as [a [Ha Hl]]. rewrite (sized_iff _ _ _ _ _ _ I Ha) in Hs.
  destruct (seq_run ct L id ops l l' W A a Hw P LR I Ha Hl Hs (or_introl T)) as [W2 [A2 [a2 [E2 [I2 [Ha2 [Hl2 [He2 [HT2 [HF2 HO2]]]]]]]]]].
  exists W2. split; auto. split; [rewrite (contents_iff _ _ _ _ _ _ Hw P I2); eauto|]. split; [rewrite (sized_iff _ _ _ _ _ _ I2 Ha2); auto|].
  eapply rest_same_of; eauto. intros e He. symmetry. auto.
Qed.

(** The default sizes: 1073741856 elements at most. *)
Definition largest : Z := 1073741856.
Lemma default_grows : forall k, k < largest -> grows_in default_1d_sizes k.
Proof.
  intros k Hk Hin. exists largest. split; [simpl; tauto|]. unfold largest in *.
  repeat (destruct Hin as [<-|Hin]; [vm_compute; try discriminate; lia|]). contradiction.
Qed.
Lemma default_room : forall n, n <= largest -> room default_1d_sizes n.
Proof. intros n Hn. exists largest. split; [simpl; tauto|auto]. Qed.

Theorem C34_sequence : forall ct n ops l,
  wf_ct ct -> ct_sizes ct = Default -> trivial (ct_ms ct) -> 0 <= n <= largest ->
  list_run (ct_ms ct) (fun k => k < largest) (fun k => k <= largest) 0 ops
    (repeat (default_value (ct_ms ct)) (Z.to_nat n)) l ->
  exists W, srun ct sstart (SNew 0 n :: ops) = Val (W, SUnit :: map (fun _ => SUnit) ops) /\ contents ct W 0 l.
Proof.
  intros ct n ops l Hw HD T Hn LR.
  assert (P : policy ct default_1d_sizes) by (split; [rewrite HD; constructor|apply default_growing]).
  destruct (sstep_ok ct default_1d_sizes sstart no_vectors (SNew 0 n) Hw (proj1 P) (proj2 P) (sv_start ct _)) as [W1 [A1 [ob [E1 [S1 I1]]]]].
  { cbn [spre]. split; [reflexivity|lia]. }
  inversion S1; subst; [|exfalso; match goal with H : ~ room _ _ |- _ => apply H end; apply default_room; lia].
  assert (LR' := list_run_mono _ _ _ _ _ 0%nat ops _ _ default_grows default_room LR).
  destruct (seq_run ct _ 0 ops _ l W1 _ _ Hw P LR' I1 (sset_same _ _ _ _)) as [W2 [A2 [a2 [E2 [I2 [Ha2 [Hl2 _]]]]]]]; auto.
  exists W2. split; [cbn [srun]; rewrite E1, E2; reflexivity|]. rewrite (contents_iff _ _ _ _ _ _ Hw P I2). eauto.
Qed.

(** A vector of the default sizes that grows twice, one with a class-type member. *)
Definition sx_ops : list sop :=
  [SNew 0 3; SReserve 0 4; SPush 0 sx1; SPush 0 sx2; SPush 0 sx1; SPush 0 sx2; SPush 0 sx1; SPush 0 sx2; SSet 0 1 sx2; SPop 0; SResize 0 5;
   SFill 1 2 sx1].
Definition sx_world : sworld := match srun sx_ct sstart sx_ops with Val (w, _) => w | Fault _ => sstart end.
Definition dx : cell := default_value sx_ms.

Lemma sx_room : forall n, n <= 16 -> room [5; 8; 16] n.
Proof. intros n Hn. exists 16. split; [simpl; tauto|auto]. Qed.
Lemma sx_reachable : reachable sx_ct [5; 8; 16] sx_world /\
  contents sx_ct sx_world 0 [dx; sx2; dx; sx1; sx2] /\ sized sx_world 0 /\ contents sx_ct sx_world 1 [sx1; sx1] /\
  has_cap sx_ct sx_world 0 16 /\ has_cap sx_ct sx_world 1 2 /\ sized sx_world 1 /\ unused sx_world 2.
Proof.
  assert (G : forall ops o, obs_of (srun sx_ct sx_world ops) = Some o -> exists W', srun sx_ct sx_world ops = Val (W', o)).
  { intros ops o. destruct (srun sx_ct sx_world ops) as [[w os]|]; simpl; intros H; inversion H; eauto. }
  assert (X : forall id, match sw_vecs sx_world id with Some v => match g_ex (v_grid v) with Some _ => true | None => false end | None => false end = true -> sized sx_world id).
  { intros id. unfold sized. destruct (sw_vecs sx_world id) as [v|]; [|discriminate]. destruct (g_ex (v_grid v)) eqn:Eg; [eauto|discriminate]. }
  split.
  2:{ split; [apply G; vm_compute; reflexivity|]. split; [apply X; vm_compute; reflexivity|].
      split; [apply G; vm_compute; reflexivity|]. split; [apply G; vm_compute; reflexivity|].
      split; [apply G; vm_compute; reflexivity|]. split; [apply X; vm_compute; reflexivity|]. vm_compute. reflexivity. }
  destruct sx_wf as [Hw _]. destruct sx_policy as [P _].
  assert (W1 : wf_cell sx_ms sx1) by apply PropsArray.ax_cell_wf. assert (W2 : wf_cell sx_ms sx2) by apply PropsArray.ax_cell_wf.
  assert (LAW : lawful (ct_ms sx_ct) [5; 8; 16] no_vectors sx_ops).
  { cbn [lawful sx_ops].
    split; [split; [reflexivity|lia]|]. intros A1 o1 S1. inversion S1; subst; [|exfalso; match goal with H : ~ room _ _ |- _ => apply H; apply sx_room; lia end].
    split; [eexists; split; [apply sset_same|]; split; [vm_compute; discriminate|reflexivity]|]. intros A2 o2 S2. inversion S2; subst; [|exfalso; match goal with H : ~ room _ _ |- _ => apply H; apply sx_room; lia end].
    match goal with H : sset _ _ _ 0%nat = Some ?y |- _ => rewrite sset_same in H; inversion H; subst y; clear H end.
    assert (PUSH : forall A l cap c A' ob, A 0%nat = Some (mkAV l cap true true) -> A 1%nat = None -> In c [sx1; sx2] -> len l < 16 ->
      spre (ct_ms sx_ct) A (SPush 0 c) /\
      (spec_step (ct_ms sx_ct) [5; 8; 16] A (SPush 0 c) A' ob -> exists cap', A' 0%nat = Some (mkAV (l ++ [c]) cap' true true) /\ A' 1%nat = None)).
    { intros A l cap c A' ob HA H1 Hc Hl. split.
      - split; [destruct Hc as [<-|[<-|[]]]; auto|]. eexists. split; [exact HA|]. cbn [av_ext av_full]. auto.
      - intros S. inversion S; subst; match type of HA with ?t = _ => match goal with H : t = Some ?y |- _ => is_var y; rewrite HA in H; inversion H; subst y; clear H end end; cbn [av_l av_cap av_full av_ext] in *.
        + eexists. rewrite sset_same, sset_other by auto. eauto.
        + eexists. rewrite sset_same, sset_other by auto. eauto.
        + exfalso. match goal with H : ~ room _ _ |- _ => apply H end. match goal with H : In _ [5; 8; 16] |- _ => destruct H as [XI|[XI|[XI|[]]]] end;
          [rewrite <- XI; apply sx_room; vm_compute; discriminate|rewrite <- XI; apply sx_room; vm_compute; discriminate|lia]. }
    match goal with |- context [sset ?f 0%nat (Some ?y)] => set (A3 := sset f 0%nat (Some y)) end.
    assert (HA3 : A3 0%nat = Some (mkAV (repeat dx 3) cap' true true)) by reflexivity. assert (HB3 : A3 1%nat = None) by reflexivity. clearbody A3.
    pose proof (PUSH _ _ _ sx1 no_vectors SUnit HA3 HB3 ltac:(simpl; auto) ltac:(cbn; lia)) as [Q _]. split; [exact Q|]. clear Q.
    intros A4 o4 S4. destruct (proj2 (PUSH _ _ _ sx1 A4 o4 HA3 HB3 ltac:(simpl; auto) ltac:(cbn; lia)) S4) as [c4 [HA4 HB4]].
    pose proof (PUSH _ _ _ sx2 no_vectors SUnit HA4 HB4 ltac:(simpl; auto) ltac:(cbn; lia)) as [Q _]. split; [exact Q|]. clear Q.
    intros A5 o5 S5. destruct (proj2 (PUSH _ _ _ sx2 A5 o5 HA4 HB4 ltac:(simpl; auto) ltac:(cbn; lia)) S5) as [c5 [HA5 HB5]].
    pose proof (PUSH _ _ _ sx1 no_vectors SUnit HA5 HB5 ltac:(simpl; auto) ltac:(cbn; lia)) as [Q _]. split; [exact Q|]. clear Q.
    intros A6 o6 S6. destruct (proj2 (PUSH _ _ _ sx1 A6 o6 HA5 HB5 ltac:(simpl; auto) ltac:(cbn; lia)) S6) as [c6 [HA6 HB6]].
    pose proof (PUSH _ _ _ sx2 no_vectors SUnit HA6 HB6 ltac:(simpl; auto) ltac:(cbn; lia)) as [Q _]. split; [exact Q|]. clear Q.
    intros A7 o7 S7. destruct (proj2 (PUSH _ _ _ sx2 A7 o7 HA6 HB6 ltac:(simpl; auto) ltac:(cbn; lia)) S7) as [c7 [HA7 HB7]].
    pose proof (PUSH _ _ _ sx1 no_vectors SUnit HA7 HB7 ltac:(simpl; auto) ltac:(cbn; lia)) as [Q _]. split; [exact Q|]. clear Q.
    intros A8 o8 S8. destruct (proj2 (PUSH _ _ _ sx1 A8 o8 HA7 HB7 ltac:(simpl; auto) ltac:(cbn; lia)) S8) as [c8 [HA8 HB8]].
    pose proof (PUSH _ _ _ sx2 no_vectors SUnit HA8 HB8 ltac:(simpl; auto) ltac:(cbn; lia)) as [Q _]. split; [exact Q|]. clear Q.
    intros A9 o9 S9. destruct (proj2 (PUSH _ _ _ sx2 A9 o9 HA8 HB8 ltac:(simpl; auto) ltac:(cbn; lia)) S9) as [c9 [HA9 HB9]].
    split; [split; [|exact W2]; eexists; split; [exact HA9|]; cbn; lia|].
    intros A10 o10 S10. inversion S10; subst. cbn [spre]. rewrite sset_same.
    split; [eexists; split; [reflexivity|]; match goal with H : A9 0%nat = Some ?y |- _ => is_var y; rewrite HA9 in H; inversion H; subst y; clear H end; discriminate|].
    intros A11 o11 S11. inversion S11; subst. cbn [spre]. rewrite sset_same.
    split; [split; [lia|]; eexists; split; [reflexivity|]; right; match goal with H : sset _ _ _ 0%nat = Some ?y |- _ => rewrite sset_same in H; inversion H; subst y; clear H end; match goal with H : A9 0%nat = Some ?y |- _ => is_var y; rewrite HA9 in H; inversion H; subst y; clear H end; reflexivity|].
    intros A12 o12 S12. split; [|auto]. split; [|split; [lia|exact W1]].
    inversion S12; subst; rewrite ?sset_other by auto; rewrite ?sset_other by auto; auto. }
  exists sx_ops. destruct (srun_ok sx_ct [5; 8; 16] sx_ops sstart no_vectors Hw (proj1 P) (proj2 P) (sv_start _ _) LAW) as [W [A [obs [E _]]]].
  exists obs. split; [exact LAW|]. unfold sx_world. rewrite E. reflexivity.
Qed.

Example C34_case :
  trivial (ct_ms sx_def) /\ wf_cell (ct_ms sx_def) sx1 /\
  list_run (ct_ms sx_def) (fun k => k < largest) (fun k => k <= largest) 0 [SPush 0 sx1; SReserve 0 40; SPush 0 sx2; SResize 0 2; SSet 0 1 sx2; SPop 0]
    (repeat (default_value (ct_ms sx_def)) (Z.to_nat 1)) [dx] /\
  obs_of (srun sx_def sstart [SNew 0 1; SPush 0 sx1; SReserve 0 40; SPush 0 sx2; SResize 0 2; SSet 0 1 sx2; SCallback 0 2; SSize 0; SCap 0; SPop 0; SGet 0 0])
  = Some [SUnit; SUnit; SUnit; SUnit; SUnit; SUnit; SCells [dx; sx2]; SNum 2; SNum 64; SUnit; SCell dx].
Proof.
  split; [repeat constructor|]. split; [repeat constructor|]. split; [|vm_compute; reflexivity].
  assert (W1 : wf_cell (ct_ms sx_def) sx1) by (repeat constructor). assert (W2 : wf_cell (ct_ms sx_def) sx2) by (repeat constructor).
  change (repeat _ _) with [dx].
  apply (l_cons _ _ _ _ _ _ [dx] ([dx] ++ [sx1])); [apply l_push; [auto|reflexivity]|].
  eapply l_cons; [apply l_reserve; vm_compute; discriminate|].
  eapply l_cons; [apply l_push; [auto|reflexivity]|].
  apply (l_cons _ _ _ _ _ _ ([dx; sx1] ++ [sx2]) [dx; sx1]); [apply (l_resize _ _ _ _ [dx; sx1] [sx2])|].
  apply (l_cons _ _ _ _ _ _ ([dx] ++ sx1 :: []) ([dx] ++ sx2 :: [])); [apply (l_set _ _ _ _ [dx] [] sx1); auto|].
  apply (l_cons _ _ _ _ _ _ ([dx] ++ [sx2]) [dx]); [apply l_pop|]. apply l_nil.
Qed.

(** ** C35 *)
(** False as stated: for every cell type without class members and every such list of
    sizes, a vector that got its first element without reserve() is larger than its capacity. *)
Theorem C35_refuted : forall ct L c,
  wf_ct ct -> policy ct L -> L <> [] -> trivial (ct_ms ct) -> wf_cell (ct_ms ct) c ->
  exists W, srun ct sstart [SNew 0 0; SPush 0 c; SSize 0; SCap 0] = Val (W, [SUnit; SUnit; SNum 1; SNum 0]).
Proof.
  intros ct L c Hw [P GR] HL T Hc.
  assert (N0 : ~ In 0 L). { intros C. unfold growing in GR. rewrite Forall_forall in GR. specialize (GR 0 C). lia. }
  assert (R0 : room L 0). { destruct L as [|s L]; [congruence|]. exists s. split; [simpl; auto|]. inversion GR; subst. lia. }
  destruct (srun_ok ct L [SNew 0 0; SPush 0 c; SSize 0; SCap 0] sstart no_vectors Hw P GR (sv_start ct L)) as [W [A [obs [E [R _]]]]].
  { cbn [lawful]. split; [split; [reflexivity|lia]|]. intros A1 o1 S1. inversion S1; subst; [|contradiction].
    split; [split; auto; eexists; rewrite sset_same; split; [reflexivity|auto]|].
    intros A2 o2 S2. assert (A2 0%nat <> None) by (inversion S2; subst; rewrite ?sset_same; congruence).
    split; [auto|]. intros A3 o3 S3. inversion S3; subst. split; [auto|]. auto. }
  exists W. rewrite E. do 2 f_equal.
  inversion R as [|? ? ? ? ? ? S1 R1]; subst. inversion R1 as [|? ? ? ? ? ? S2 R2]; subst.
  inversion R2 as [|? ? ? ? ? ? S3 R3]; subst. inversion R3 as [|? ? ? ? ? ? S4 R4]; subst. inversion R4; subst.
  inversion S1; subst; [|contradiction].
  inversion S2; subst;
    match goal with H : sset _ _ _ 0%nat = Some ?y |- _ => rewrite sset_same in H; inversion H; subst y; clear H end; [|contradiction|contradiction].
  inversion S3; subst. inversion S4; subst.
  repeat match goal with H : sset _ _ _ 0%nat = Some ?y |- _ => rewrite sset_same in H; inversion H; subst y; clear H end.
  reflexivity.
Qed.

(** It holds from reserve() on, for every cell type: after a successful reserve, any
    sequence of calls leaves size() <= capacity(), and the plain list is followed. *)
Theorem C35_reserved_partial : forall ct L id W l n ops l',
  wf_ct ct -> policy ct L -> reachable ct L W -> contents ct W id l -> sized W id ->
  list_run (ct_ms ct) (grows_in L) (room L) id (SReserve id n :: ops) l l' ->
  exists W' cap, srun ct W (SReserve id n :: ops) = Val (W', SUnit :: map (fun _ => SUnit) ops) /\
    contents ct W' id l' /\ has_cap ct W' id cap /\ len l' <= cap /\ rest_same ct W W' id.
Proof.
  intros ct L id W l n ops l' Hw P HR Hc Hs LR. destruct (reach_inv _ _ _ Hw P HR) as [A I].
  rewrite (contents_iff _ _ _ _ _ _ Hw P I) in Hc. destruct Hc as [a [Ha Hl]]. rewrite (sized_iff _ _ _ _ _ _ I Ha) in Hs.
  inversion LR as [|? ? ? l2 ? LS LR']; subst. inversion LS; subst.
  assert (Hpre : spre (ct_ms ct) A (SReserve id n)) by (cbn [spre]; eauto).
  destruct (sstep_ok ct L W A _ Hw (proj1 P) (proj2 P) I Hpre) as [W1 [A1 [ob [E1 [S1 I1]]]]].
  inversion S1; subst; [|contradiction]. assert (a0 = a) by congruence. subst a0.
  destruct (seq_run ct L id ops _ l' W1 _ _ Hw P LR' I1 (sset_same _ _ _ _) eq_refl eq_refl (or_intror eq_refl))
    as [W2 [A2 [a2 [E2 [I2 [Ha2 [Hl2 [He2 [HT2 [HF2 HO2]]]]]]]]]].
  exists W2, (av_cap a2). split; [cbn [srun]; rewrite E1, E2; reflexivity|].
  split; [rewrite (contents_iff _ _ _ _ _ _ Hw P I2); eauto|]. split; [rewrite (has_cap_iff _ _ _ _ _ _ I2); eauto|].
  split.
  - destruct (sv_some _ _ _ _ _ _ I2 Ha2) as [v [_ [X [ci V]]]]. rewrite <- Hl2, (vr_full _ _ _ _ _ _ _ V (HF2 eq_refl)).
    apply (vr_le _ _ _ _ _ _ _ V).
  - eapply rest_same_of; eauto. intros e He. rewrite HO2 by auto. rewrite sset_other; auto.
Qed.

(** In every reachable state size() is at most the allocated extent, so the storage
    itself is never overrun. *)
Theorem C35_extent : forall ct L W id l v E,
  wf_ct ct -> policy ct L -> reachable ct L W -> contents ct W id l -> sw_vecs W id = Some v -> g_ex (v_grid v) = Some E ->
  len l <= E /\ In E L.
Proof.
  intros ct L W id l v E Hw P HR Hc Ev Ex. destruct (reach_inv _ _ _ Hw P HR) as [A I].
  rewrite (contents_iff _ _ _ _ _ _ Hw P I) in Hc. destruct Hc as [a [Ha <-]].
  destruct (sv_some _ _ _ _ _ _ I Ha) as [v' [Ev' [X [ci V]]]]. assert (v' = v) by congruence. subst v'.
  pose proof (vr_ext _ _ _ _ _ _ _ V) as HX. destruct (av_ext a); [|congruence]. assert (X = E) by congruence. subst X.
  split; [apply (vr_le _ _ _ _ _ _ _ V)|]. apply (first_fit_in _ _ _ (vr_fit _ _ _ _ _ _ _ V)).
Qed.

Lemma sx_w1 : wf_cell sx_ms sx1. Proof. apply PropsArray.ax_cell_wf. Qed.
Lemma sx_w2 : wf_cell sx_ms sx2. Proof. apply PropsArray.ax_cell_wf. Qed.
Example C35_case :
  list_run (ct_ms sx_ct) (grows_in [5; 8; 16]) (room [5; 8; 16]) 1 [SReserve 1 5; SPush 1 sx1; SPush 1 sx2; SPush 1 sx2] [sx1; sx1] [sx1; sx1; sx1; sx2; sx2] /\
  obs_of (srun sx_ct sx_world [SSize 1; SCap 1; SReserve 1 5; SPush 1 sx1; SPush 1 sx2; SPush 1 sx2; SPush 1 sx2; SSize 1; SCap 1])
  = Some [SNum 2; SNum 2; SUnit; SUnit; SUnit; SUnit; SUnit; SNum 6; SNum 8] /\
  obs_of (srun sx_triv sstart [SNew 0 0; SPush 0 sx1; SSize 0; SCap 0]) = Some [SUnit; SUnit; SNum 1; SNum 0].
Proof.
  split; [|split; vm_compute; reflexivity].
  eapply l_cons; [apply l_reserve; [vm_compute; discriminate|apply sx_room; lia]|].
  assert (G : forall k, k < 5 -> grows_in [5; 8; 16] k) by (intros k Hk [C|[C|[C|[]]]]; lia).
  apply (l_cons _ _ _ _ _ _ _ ([sx1; sx1] ++ [sx1])); [apply l_push; [apply sx_w1|apply G; reflexivity]|].
  apply (l_cons _ _ _ _ _ _ _ ([sx1; sx1; sx1] ++ [sx2])); [apply l_push; [apply sx_w2|apply G; reflexivity]|].
  apply (l_cons _ _ _ _ _ _ _ ([sx1; sx1; sx1; sx2] ++ [sx2])); [apply l_push; [apply sx_w2|apply G; reflexivity]|]. apply l_nil.
Qed.

(** ** C36 *)
Lemma v_set_form : forall ct L m v a E ci i c,
  line_policy (ct_sizes ct) L -> vrep_at ct L m v a E ci -> wf_cell (ct_ms ct) c ->
  v_set ct (m, v) i c =
  run (exec (map (fun '(sl, x) => Assign (sptr (g_data (v_grid v)) E sl i) (s_size sl) (s_class sl) x) (combine (slots (ct_ms ct)) (concat c))) m)
      (fun m' => (m', v)) tt.
Proof.
  intros ct L m [g n] a E ci i c P R Hc. pose proof (ga_choose _ _ _ _ _ (vrep_galloc _ _ _ _ _ _ _ P R)) as C.
  cbn [v_grid] in C. unfold v_set, on_grid, g_set. cbn [v_grid v_count].
  rewrite (callback_ok _ _ _ _ _ _ (line E) C). unfold set_instance_functor. change (zseq 1) with [0]. cbn [mapR].
  change (Z.to_nat (0 * 1)) with 0%nat. cbn [nth_error concat]. rewrite app_nil_r. rewrite assign_canon by auto.
  replace (idx (acc_add (with_index (mkAcc (line E) 0 0) (gen_index (a_ext (mkAcc (line E) 0 0)) i 0 0)) 0)) with i
    by (unfold idx; cbn [acc_add with_index a_ext a_index a_INDEX line DIM_X DIM_Y DIM_Z]; unfold gen_index; lia).
  cbn [acc_add with_index a_ext]. rewrite line_prod.
  match goal with |- context [exec ?ops m] => destruct (exec ops m) end; reflexivity.
Qed.

Lemma exec_assign_dead : forall ops m m' p s x,
  (forall o, In o ops -> exists q t c y, o = Assign q t c y) -> In (Assign p s true x) ops -> live m p = false ->
  exec ops m = Val m' -> False.
Proof.
  induction ops as [|a ops IH]; intros m m' p s x Ha Hin Hl H; [contradiction|]. cbn [exec] in H.
  destruct (Ha a (or_introl eq_refl)) as [q [t [c [y ->]]]].
  destruct Hin as [E|Hin].
  - inversion E; subst. cbn [exec1] in H. destruct (chk_bounds m p s); [discriminate|]. destruct (negb (val_ok x s)); [discriminate|].
    rewrite Hl in H. discriminate.
  - destruct (exec1 m (Assign q t c y)) as [m1|] eqn:E1; [|discriminate].
    apply (IH m1 m' p s x); auto. { intros; apply Ha; simpl; auto. }
    cbn [exec1] in E1. destruct (chk_bounds m q t); [discriminate|]. destruct (negb (val_ok y t)); [discriminate|].
    destruct (c && negb (live m q)); [discriminate|]. inversion E1; subst. exact Hl.
Qed.

(** False as stated: with a member of class type, push_back at capacity() while the
    storage is not exhausted assigns to elements that were never constructed. This is so
    for every reachable state. *)
Theorem C36_refuted : forall ct L W id l v E cap c j mb,
  wf_ct ct -> policy ct L -> reachable ct L W -> contents ct W id l -> has_cap ct W id cap ->
  sw_vecs W id = Some v -> g_ex (v_grid v) = Some E ->
  nth_error (ct_ms ct) j = Some mb -> m_class mb = true -> (0 < m_count mb)%nat -> wf_cell (ct_ms ct) c ->
  len l = cap -> len l < E ->
  exists f, srun ct W [SPush id c] = Fault f.
Proof.
  intros ct L W id l v E cap c j mb Hw P HR Hc Hcap Ev Ex Hj Hcl Hcnt Hwc Hlc HlE. destruct (reach_inv _ _ _ Hw P HR) as [A I].
  rewrite (contents_iff _ _ _ _ _ _ Hw P I) in Hc. destruct Hc as [a [Ha <-]].
  rewrite (has_cap_iff _ _ _ _ _ _ I) in Hcap. destruct Hcap as [a' [Ha' Hcap]]. assert (a' = a) by congruence. subst a'.
  destruct (sv_some _ _ _ _ _ _ I Ha) as [v' [Ev' [X [ci V]]]]. assert (v' = v) by congruence. subst v'.
  pose proof (vr_ext _ _ _ _ _ _ _ V) as HX. destruct (av_ext a); [|congruence]. assert (X = E) by congruence. subst X.
  cbn [srun sstep]. unfold on_vec. rewrite Ev. unfold v_push. cbn [snd]. rewrite Ex. cbn [use].
  pose proof (vr_count _ _ _ _ _ _ _ V) as HN. assert ((v_count v =? E) = false) as -> by lia. cbn [obind snd].
  rewrite (v_set_form ct L _ _ _ _ _ _ _ (proj1 P) V Hwc).
  match goal with |- context [exec ?ops ?m] => destruct (exec ops m) as [m3|f] eqn:EX; [exfalso|cbn [run obind]; eauto] end.
  assert (Hsl : In (the_slot (ct_ms ct) j mb 0) (slots (ct_ms ct))).
  { apply in_slots_the_slot. exists j, mb, 0. split; auto. split; [lia|auto]. }
  destruct (cell_value _ _ _ Hwc Hsl) as [x Hx].
  refine (exec_assign_dead _ _ _ (sptr (g_data (v_grid v)) E (the_slot (ct_ms ct) j mb 0) (v_count v)) (s_size (the_slot (ct_ms ct) j mb 0)) x _ _ _ EX).
  - intros o Ho. apply in_map_iff in Ho. destruct Ho as [[sl y] [<- _]]. eauto.
  - apply in_map_iff. exists (the_slot (ct_ms ct) j mb 0, x). split; auto. unfold the_slot at 3. cbn [s_class]. rewrite Hcl. reflexivity.
  - eapply region_dead; [apply Hw|apply (vr_region _ _ _ _ _ _ _ V)| | |auto]; [|unfold len in *; lia].
    destruct (vr_out _ _ _ _ _ _ _ V) as [T|O]; [|apply O; lia].
    exfalso. unfold trivial in T. rewrite Forall_forall in T. apply nth_error_In in Hj. specialize (T mb Hj). congruence.
Qed.

(** What holds for every cell type: C35_reserved_partial (any sequence after reserve());
    and push_back below capacity(), pop_back always. *)
Theorem C36_below_capacity_partial : forall ct L W id l cap c,
  wf_ct ct -> policy ct L -> reachable ct L W -> contents ct W id l -> has_cap ct W id cap -> sized W id ->
  wf_cell (ct_ms ct) c -> len l < cap ->
  exists W', srun ct W [SPush id c] = Val (W', [SUnit]) /\ contents ct W' id (l ++ [c]) /\ rest_same ct W W' id.
Proof.
  intros ct L W id l cap c Hw P HR Hc Hcap Hs Hwc Hl. destruct (reach_inv _ _ _ Hw P HR) as [A I].
  rewrite (contents_iff _ _ _ _ _ _ Hw P I) in Hc. destruct Hc as [a [Ha <-]].
  rewrite (has_cap_iff _ _ _ _ _ _ I) in Hcap. destruct Hcap as [a' [Ha' Hcap]]. assert (a' = a) by congruence. subst a' cap.
  rewrite (sized_iff _ _ _ _ _ _ I Ha) in Hs.
  destruct (sv_some _ _ _ _ _ _ I Ha) as [v [Ev V]].
  assert (Hpre : spre (ct_ms ct) A (SPush id c)) by (cbn [spre]; split; auto; eauto 7).
  destruct (sstep_ok ct L W A _ Hw (proj1 P) (proj2 P) I Hpre) as [W1 [A1 [ob [E1 [S1 I1]]]]].
  inversion S1; subst;
    match goal with H1 : ?B id = Some a, H : ?B id = Some ?y |- _ => assert (y = a) by congruence; subst y end; try lia.
  exists W1. split; [apply srun1; auto|]. split; [rewrite (contents_iff _ _ _ _ _ _ Hw P I1), sset_same; eauto|].
  eapply rest_same_of; eauto. intros e He. rewrite sset_other; auto.
Qed.

Theorem C36_pop : forall ct L W id l c,
  wf_ct ct -> policy ct L -> reachable ct L W -> contents ct W id (l ++ [c]) ->
  exists W', srun ct W [SPop id] = Val (W', [SUnit]) /\ contents ct W' id l /\ rest_same ct W W' id.
Proof.
  intros ct L W id l c Hw P HR Hc. destruct (reach_inv _ _ _ Hw P HR) as [A I].
  rewrite (contents_iff _ _ _ _ _ _ Hw P I) in Hc. destruct Hc as [a [Ha Hl]].
  assert (Hpre : spre (ct_ms ct) A (SPop id)).
  { cbn [spre]. exists a. split; auto. rewrite Hl. destruct l; discriminate. }
  destruct (sstep_ok ct L W A _ Hw (proj1 P) (proj2 P) I Hpre) as [W1 [A1 [ob [E1 [S1 I1]]]]].
  inversion S1; subst. assert (a0 = a) by congruence. subst a0.
  match goal with H : av_l a = _ ++ [_] |- _ => rewrite Hl in H; apply app_inj_tail in H; destruct H; subst end.
  exists W1. split; [apply srun1; auto|]. split; [rewrite (contents_iff _ _ _ _ _ _ Hw P I1), sset_same; eauto|].
  eapply rest_same_of; eauto. intros e He. rewrite sset_other; auto.
Qed.

Example C36_case :
  (* vector 1: size 2, capacity 2, extent 5 *)
  nth_error (ct_ms sx_ct) 1 = Some (mkMember 1 (Some 2%nat) true [Some x02]) /\
  match sw_vecs sx_world 1 with Some v => match g_ex (v_grid v) with Some e => e =? 5 | None => false end | None => false end = true /\
  fault_of (srun sx_ct sx_world [SPush 1 sx1]) = Some AssignDead /\
  obs_of (srun sx_ct sx_world [SPop 1; SPush 1 sx2; SCallback 1 2]) = Some [SUnit; SUnit; SCells [sx1; sx2]] /\
  obs_of (srun sx_ct sx_world [SReserve 1 2; SPush 1 sx2; SCallback 1 3]) = Some [SUnit; SUnit; SCells [sx1; sx1; sx2]].
Proof. split; [reflexivity|]. repeat split; vm_compute; reflexivity. Qed.

(** ** C37 *)
(** What [count * 1.2] computes, for every count (see Vector.v for its derivation). *)
Lemma rnd53_low : forall n, 0 <= n -> 2 ^ 53 * rnd53 n >= (2 ^ 53 - 1) * n.
Proof.
  intros n Hn. destruct (Z.lt_ge_cases n (2 ^ 53)).
  - assert (rnd53 n = n) as -> by (unfold rnd53; destruct (Z.ltb_spec n (2 ^ 53)); [auto|lia]). lia.
  - destruct (rnd53_near n) as [h [H1 [H2 [_ [H3 _]]]]]; [lia|]. lia.
Qed.
Theorem C37_growth : forall n, 5 <= n -> n < grow n.
Proof.
  intros n Hn. destruct (Z.lt_ge_cases n (2 ^ 50)).
  - rewrite grow_floor by lia. apply Z.lt_le_trans with (n + 1); [lia|]. apply Z.div_le_lower_bound; lia.
  - unfold grow. pose proof (rnd53_low n ltac:(lia)) as A.
    assert (H0 : 0 <= rnd53 n) by lia.
    pose proof (rnd53_low (rnd53 n * one_point_two) ltac:(unfold one_point_two; lia)) as B.
    set (r := rnd53 n) in *. set (R := rnd53 (r * one_point_two)) in *. clearbody r R. unfold one_point_two in B.
    apply Z.lt_le_trans with (n + 1); [lia|]. apply Z.div_le_lower_bound; [lia|]. lia.
Qed.
Theorem C37_exact : forall n, 0 <= n < 2 ^ 50 -> grow n = 6 * n / 5.
Proof. exact grow_floor. Qed.

(** The arithmetic of [grow] agrees with binary64 multiplication (Coq's SpecFloat). *)
Definition sf_grow (n : positive) : option Z :=
  match SFmul 53 1024 (binary_normalize 53 1024 (Zpos n) 0 false) (S754_finite false 5404319552844595 (-52)) with
  | S754_finite false m e => Some (if 0 <=? e then Zpos m * 2 ^ e else Zpos m / 2 ^ (- e))
  | _ => None
  end.
Definition agrees (n : positive) : bool := match sf_grow n with Some k => Z.eqb k (grow (Zpos n)) | None => false end.
Definition float_samples : list positive :=
  [1; 2; 3; 4; 5; 6; 9; 10; 32; 64; 544; 1056; 65568; 1073741856; 1125899906842623; 1125899906842624; 3377699720527870;
   9007199254740991; 9007199254740993; 9007199254740995; 18014398509481985; 12345678901234567891; 18446744073709551615]%positive.
Example C37_float_cases : forallb agrees float_samples = true.
Proof. vm_compute. reflexivity. Qed.

(** Writes behind the storage are out of bounds of some member. *)
Lemma v_set_out : forall ct L m v a E ci i c,
  wf_ct ct -> line_policy (ct_sizes ct) L -> vrep_at ct L m v a E ci -> slots (ct_ms ct) <> [] -> wf_cell (ct_ms ct) c -> E <= i ->
  exists f, v_set ct (m, v) i c = Flt f.
Proof.
  intros ct L m v a E ci i c [Hw Hd] P R Hne Hc Hi. rewrite (v_set_form ct L _ _ _ _ _ _ _ P R Hc).
  match goal with |- context [exec ?ops ?m] => destruct (exec ops m) as [m3|f] eqn:EX; [exfalso|cbn [run]; eauto] end.
  destruct (PropsArray.last_slot _ Hw Hne) as [sl [Hin [Ht Hs]]]. destruct (cell_value _ c sl Hc Hin) as [x Hv].
  pose proof (fun Hs => PropsArray.exec_val_in _ _ _ (Assign (sptr (g_data (v_grid v)) E sl i) (s_size sl) (s_class sl) x) Hs EX) as B.
  match type of B with ?P -> _ => assert (HP : P); [|specialize (B HP)] end.
  { intros o Ho. apply in_map_iff in Ho. destruct Ho as [[q w] [<- Ho]]. cbn [op_size]. apply in_combine_l in Ho. apply (slot_range _ q Hw Ho). }
  match type of B with ?P -> _ => assert (HP2 : P); [|specialize (B HP2)] end.
  { apply in_map_iff. exists (sl, x). auto. }
  cbn [op_dst op_size] in B. unfold chk_bounds in B. cbn [sptr padd pb po] in B.
  pose proof (vr_region _ _ _ _ _ _ _ R) as RG. pose proof (rg_P _ _ _ _ _ RG) as HE.
  rewrite (rg_size _ _ _ _ _ RG), (rg_off _ _ _ _ _ RG) in B.
  assert (Hgt : total (ct_ms ct) * E < 0 + slot_addr E sl i + s_size sl).
  { unfold slot_addr. assert (E * s_size sl <= i * s_size sl) by (apply Z.mul_le_mono_nonneg_r; lia). rewrite <- Ht. lia. }
  destruct ((0 <=? 0 + slot_addr E sl i) && (0 + slot_addr E sl i + s_size sl <=? total (ct_ms ct) * E)) eqn:Eb; [lia|].
  discriminate B.
Qed.

(** False as stated: with a size below 5 (a size policy the library accepts), a vector
    filled to that size does not grow, and the write leaves the storage. *)
Theorem C37_refuted : forall ct L s c,
  wf_ct ct -> line_policy (ct_sizes ct) L -> slots (ct_ms ct) <> [] -> wf_cell (ct_ms ct) c ->
  first_fit s L s -> 0 <= s < 5 ->
  exists f, srun ct sstart [SNew 0 s; SPush 0 c] = Fault f.
Proof.
  intros ct L s c Hw P Hne Hc FF Hs.
  destruct (v_new_ok ct L empty_mem s Hw P) as [m1 [v1 [E1 [F1 V1]]]]; [apply (sv_mem _ _ _ _ (sv_start ct L))|lia|exists s; split; [apply (first_fit_in _ _ _ FF)|lia]|].
  cbn [srun sstep]. change (sw_mem sstart) with empty_mem. rewrite E1. cbn [vec_ctor]. unfold on_vec. cbn [sw_vecs sw_mem]. rewrite sset_same.
  pose proof V1 as [X [ci R]]. cbn [av_cap] in *. assert (X = s) by (eapply first_fit_fun; [exact (vr_fit _ _ _ _ _ _ _ R)|exact FF]). subst X.
  pose proof (vr_count _ _ _ _ _ _ _ R) as HN. cbn [av_l] in HN. unfold len in HN. rewrite repeat_length in HN.
  unfold v_push. cbn [snd]. rewrite (vr_ext _ _ _ _ _ _ _ R). cbn [av_ext use]. assert ((v_count v1 =? s) = true) as -> by lia.
  assert (HG : grow (v_count v1) = s).
  { rewrite grow_floor by lia. assert (s = 0 \/ s = 1 \/ s = 2 \/ s = 3 \/ s = 4) as C by lia.
    replace (v_count v1) with s by lia. destruct C as [->|[->|[->|[->| ->]]]]; reflexivity. }
  rewrite HG.
  assert (HLen : len (repeat (default_value (ct_ms ct)) (Z.to_nat s)) = s) by (unfold len; rewrite repeat_length; lia).
  destruct (v_reserve_ok ct L m1 v1 _ s s Hw P (gf_ok _ _ _ _ F1) V1 eq_refl) as [m3 [g3 [-> [F3 G3]]]]; auto; [lia|cbn [av_l]; lia|].
  cbn [obind snd v_count]. cbn [av_l] in G3. rewrite HN.
  assert (V3 : vrep ct L m3 (mkVec g3 (len (repeat (default_value (ct_ms ct)) (Z.to_nat s)))) (mkAV (repeat (default_value (ct_ms ct)) (Z.to_nat s)) s true true)).
  { eapply reserved_vrep; eauto; [lia|]. intros i x Hx. apply nth_error_nth. auto. }
  rewrite HLen in V3. replace (Z.of_nat (Z.to_nat s)) with s by lia. destruct V3 as [X [ci3 R3]].
  assert (X = s) by (eapply first_fit_fun; [exact (vr_fit _ _ _ _ _ _ _ R3)|exact FF]). subst X.
  destruct (v_set_out ct L m3 _ _ s ci3 s c Hw P R3 Hne Hc ltac:(lia)) as [f ->]. cbn [obind]. eauto.
Qed.

(** With sizes of at least 5 (as the default ones): a push_back that finds the storage
    full enlarges it and appends, unless the largest size is exceeded, in which case
    nothing changes. All cell types. *)
Theorem C37_full_partial : forall ct L W id l v c,
  wf_ct ct -> policy ct L -> reachable ct L W -> contents ct W id l -> wf_cell (ct_ms ct) c ->
  sw_vecs W id = Some v -> g_ex (v_grid v) = Some (len l) ->
  exists W',
    (room L (6 * len l / 5) /\ srun ct W [SPush id c] = Val (W', [SUnit]) /\ contents ct W' id (l ++ [c]) /\
     (exists cap, has_cap ct W' id cap /\ len l < cap /\ 6 * len l / 5 <= cap) /\ rest_same ct W W' id) \/
    (~ room L (6 * len l / 5) /\ srun ct W [SPush id c] = Val (W', [SThrow OutOfRange]) /\ contents ct W' id l /\
     (forall k, has_cap ct W id k <-> has_cap ct W' id k) /\ rest_same ct W W' id).
Proof.
  intros ct L W id l v c Hw P HR Hc Hwc Ev Ex. destruct (reach_inv _ _ _ Hw P HR) as [A I].
  rewrite (contents_iff _ _ _ _ _ _ Hw P I) in Hc. destruct Hc as [a [Ha <-]].
  destruct (sv_some _ _ _ _ _ _ I Ha) as [v' [Ev' V]]. assert (v' = v) by congruence. subst v'. pose proof V as [X [ci R]].
  pose proof (vr_ext _ _ _ _ _ _ _ R) as HX. destruct (av_ext a) eqn:Hs; [|congruence]. assert (X = len (av_l a)) by congruence. subst X.
  destruct (first_fit_in _ _ _ (vr_fit _ _ _ _ _ _ _ R)) as [HIn _].
  pose proof (proj2 P) as GR. unfold growing in GR. rewrite Forall_forall in GR. specialize (GR _ HIn).
  assert (HG : len (av_l a) < 6 * len (av_l a) / 5) by (apply Z.lt_le_trans with (len (av_l a) + 1); [lia|]; apply Z.div_le_lower_bound; lia).
  destruct (room_dec L (6 * len (av_l a) / 5)) as [Hr|Hr].
  - destruct (v_reserve_list_ok ct L (sw_mem W) v a (6 * len (av_l a) / 5) Hw (proj1 P) (sv_mem _ _ _ _ I) V Hs) as [m1 [v1 [cap' [E1 [F1 [Hc1 V1]]]]]]; auto; [lia|].
    pose proof V1 as [E2 [ci1 R1]]. pose proof (vr_full _ _ _ _ _ _ _ R1 eq_refl) as HF1. cbn [av_cap] in HF1.
    destruct (v_put_ok ct L m1 v1 _ E2 ci1 c Hw (proj1 P) R1) as [m2 [E3 [SO V2]]]; cbn [av_l av_cap]; auto; try lia.
    cbn [av_l av_cap av_full av_ext] in V2.
    exists (mkSW m2 (sset (sw_vecs W) id (Some (mkVec (v_grid v1) (v_count v1 + 1))))). left. split; auto.
    assert (I' : svinv ct L (mkSW m2 (sset (sw_vecs W) id (Some (mkVec (v_grid v1) (v_count v1 + 1))))) (sset A id (Some (mkAV (av_l a ++ [c]) cap' true true)))).
    { apply (sv_set ct L W A id m2 (blk (v_grid v1)) (Some _) (Some _) I); [|split; [exact V2|reflexivity]]. unfold sblk. rewrite Ev.
      eapply gframe_trans; [exact F1|]. apply same_other_frame; auto. apply (gf_ok _ _ _ _ F1). }
    split.
    { apply srun1. cbn [sstep]. unfold on_vec. rewrite Ev. unfold v_push. cbn [snd]. rewrite Ex. cbn [use].
      rewrite (vr_count _ _ _ _ _ _ _ R), Z.eqb_refl. rewrite grow_floor by lia. rewrite E1. cbn [obind snd]. rewrite E3. reflexivity. }
    split; [rewrite (contents_iff _ _ _ _ _ _ Hw P I'), sset_same; eauto|].
    split; [exists cap'; split; [rewrite (has_cap_iff _ _ _ _ _ _ I'), sset_same; eauto|lia]|].
    eapply rest_same_of; eauto. intros e He. rewrite sset_other; auto.
  - exists (mkSW (sw_mem W) (sset (sw_vecs W) id (Some v))). right. split; auto.
    assert (I' : svinv ct L (mkSW (sw_mem W) (sset (sw_vecs W) id (Some v))) A).
    { destruct W as [m f]. cbn [sw_mem sw_vecs] in *. eapply sv_eq; [| |exact I]; auto. intros i. symmetry. apply sset_self. auto. }
    split.
    { apply srun1. cbn [sstep]. unfold on_vec. rewrite Ev. unfold v_push. cbn [snd]. rewrite Ex. cbn [use].
      rewrite (vr_count _ _ _ _ _ _ _ R), Z.eqb_refl. rewrite grow_floor by lia. rewrite (v_reserve_throw ct L) by (auto; apply P). reflexivity. }
    split; [rewrite (contents_iff _ _ _ _ _ _ Hw P I'); eauto|].
    split; [intros k; rewrite (has_cap_iff _ _ _ _ _ _ I), (has_cap_iff _ _ _ _ _ _ I'); tauto|].
    eapply rest_same_of; eauto.
Qed.

Definition sx_small : celltype := mkCT PropsArray.ax_triv (Custom [4; 8] [1] [1]) false.
Example C37_case :
  first_fit 4 [4; 8] 4 /\ wf_ct sx_small /\ line_policy (ct_sizes sx_small) [4; 8] /\
  fault_of (srun sx_small sstart [SNew 0 4; SPush 0 sx1]) = Some OutOfBounds /\
  (* one size up it grows *)
  obs_of (srun sx_triv sstart [SNew 0 5; SPush 0 sx1; SSize 0; SCap 0; SGet 0 5]) = Some [SUnit; SUnit; SNum 6; SNum 8; SCell sx1] /\
  obs_of (srun sx_triv sstart [SNew 0 16; SPush 0 sx1; SSize 0; SCap 0]) = Some [SUnit; SThrow OutOfRange; SNum 16; SNum 16].
Proof.
  split; [apply ff_here; lia|]. split; [repeat constructor|]. split; [constructor|]. repeat split; vm_compute; reflexivity.
Qed.

(** ** C38 *)
(** Partial: copies of vectors whose size is within their capacity have the same size,
    capacity and elements. Missing: larger vectors, and "remains usable"; see below. *)
Theorem C38_copy_partial : forall ct L W id src l cap,
  wf_ct ct -> policy ct L -> reachable ct L W -> unused W id -> contents ct W src l -> has_cap ct W src cap -> len l <= cap ->
  exists W', srun ct W [SCopy id src] = Val (W', [SUnit]) /\ contents ct W' id l /\ has_cap ct W' id cap /\ rest_same ct W W' id.
Proof.
  intros ct L W id src l cap Hw P HR Hu Hc Hcap Hl. destruct (reach_inv _ _ _ Hw P HR) as [A I].
  rewrite (contents_iff _ _ _ _ _ _ Hw P I) in Hc. destruct Hc as [a [Ha <-]].
  rewrite (has_cap_iff _ _ _ _ _ _ I) in Hcap. destruct Hcap as [a' [Ha' Hcap]]. assert (a' = a) by congruence. subst a' cap.
  rewrite (unused_iff _ _ _ _ _ I) in Hu.
  assert (Hpre : spre (ct_ms ct) A (SCopy id src)) by (cbn [spre]; eauto).
  destruct (sstep_ok ct L W A _ Hw (proj1 P) (proj2 P) I Hpre) as [W1 [A1 [ob [E1 [S1 I1]]]]].
  inversion S1; subst. assert (b = a) by congruence. subst b. exists W1. split; [apply srun1; auto|].
  split; [rewrite (contents_iff _ _ _ _ _ _ Hw P I1), sset_same; eexists; split; reflexivity|].
  split; [rewrite (has_cap_iff _ _ _ _ _ _ I1), sset_same; eexists; split; reflexivity|].
  eapply rest_same_of; eauto. intros e He. rewrite sset_other; auto.
Qed.

(** Assignment, also onto itself; the target stays as usable as it was. *)
Theorem C38_assign_partial : forall ct L W d s l cap,
  wf_ct ct -> policy ct L -> reachable ct L W -> ~ unused W d -> contents ct W s l -> has_cap ct W s cap -> len l <= cap ->
  exists W', srun ct W [SAssign d s] = Val (W', [SUnit]) /\ contents ct W' d l /\ has_cap ct W' d cap /\
    (sized W d -> sized W' d) /\ rest_same ct W W' d.
Proof.
  intros ct L W d s l cap Hw P HR Hu Hc Hcap Hl. destruct (reach_inv _ _ _ Hw P HR) as [A I].
  rewrite (contents_iff _ _ _ _ _ _ Hw P I) in Hc. destruct Hc as [a [Ha <-]].
  rewrite (has_cap_iff _ _ _ _ _ _ I) in Hcap. destruct Hcap as [a' [Ha' Hcap]]. assert (a' = a) by congruence. subst a' cap.
  rewrite (unused_iff _ _ _ _ _ I) in Hu.
  assert (Hpre : spre (ct_ms ct) A (SAssign d s)) by (cbn [spre]; split; eauto).
  destruct (sstep_ok ct L W A _ Hw (proj1 P) (proj2 P) I Hpre) as [W1 [A1 [ob [E1 [S1 I1]]]]].
  inversion S1; subst. assert (b = a) by congruence. subst b. exists W1. split; [apply srun1; auto|].
  split; [rewrite (contents_iff _ _ _ _ _ _ Hw P I1), sset_same; eexists; split; reflexivity|].
  split; [rewrite (has_cap_iff _ _ _ _ _ _ I1), sset_same; eexists; split; reflexivity|].
  split.
  - match goal with H : A d = Some ?y |- _ => rewrite (sized_iff _ _ _ _ _ _ I H); rewrite (sized_iff _ _ _ _ _ _ I1 (sset_same _ _ _ _)) end.
    cbn [av_ext]. intros ->. reflexivity.
  - eapply rest_same_of; eauto. intros e He. rewrite sset_other; auto.
Qed.

(** Copies can be read, overwritten and made smaller. *)
Theorem C38_copy_use_partial : forall ct L id W l cap ops l',
  wf_ct ct -> policy ct L -> reachable ct L W -> contents ct W id l -> has_cap ct W id cap -> len l <= cap ->
  list_run (ct_ms ct) (fun _ => False) (fun _ => False) id ops l l' ->
  exists W', srun ct W ops = Val (W', map (fun _ => SUnit) ops) /\ contents ct W' id l' /\ rest_same ct W W' id.
Proof.
  intros ct L id W l cap ops l' Hw P HR Hc Hcap Hl LR. destruct (reach_inv _ _ _ Hw P HR) as [A I].
  rewrite (contents_iff _ _ _ _ _ _ Hw P I) in Hc. destruct Hc as [a [Ha Hla]].
  rewrite (has_cap_iff _ _ _ _ _ _ I) in Hcap. destruct Hcap as [a' [Ha' Hcap]]. assert (a' = a) by congruence. subst a' cap.
  assert (G : exists W2 A2 a2, srun ct W ops = Val (W2, map (fun _ => SUnit) ops) /\ svinv ct L W2 A2 /\ A2 id = Some a2 /\ av_l a2 = l' /\
     (forall e, e <> id -> A2 e = A e)).
  { clear HR. revert W A a I Ha Hla Hl Ha'. induction LR as [l|op ops l1 l2 l3 LS LR IH]; intros W A a I Ha Hla Hl _.
    - exists W, A, a. auto 6.
    - assert (Hpre : spre (ct_ms ct) A op).
      { destruct LS; cbn [spre]; try contradiction.
        - exists a. split; auto. rewrite Hla. destruct l; discriminate.
        - split; auto. exists a. split; auto. rewrite Hla. unfold len. rewrite app_length. cbn [length]. lia.
        - congruence.
        - split; [unfold len; lia|]. exists a. split; auto. left. unfold len in *. rewrite app_length in Hl. lia. }
      destruct (sstep_ok ct L W A op Hw (proj1 P) (proj2 P) I Hpre) as [W1 [A1 [ob [E1 [S1 I1]]]]].
      assert (ST : exists a1, ob = SUnit /\ A1 id = Some a1 /\ av_l a1 = l2 /\ av_cap a1 = av_cap a /\ forall e, e <> id -> A1 e = A e).
      { destruct LS; try contradiction; inversion S1; subst;
          match goal with H1 : ?B id = Some a, H : ?B id = Some ?y |- _ => assert (y = a) by congruence; subst y end.
        - eexists. split; auto. rewrite sset_same. split; [reflexivity|]. split; [|split; [reflexivity|intros; apply sset_other; auto]].
          match goal with H : av_l a = _ ++ [_] |- _ => rewrite Hla in H; apply app_inj_tail in H; destruct H; auto end.
        - eexists. split; auto. rewrite sset_same. split; [reflexivity|]. split; [|split; [reflexivity|intros; apply sset_other; auto]].
          cbn [av_l]. rewrite Hla. unfold over, len. rewrite Nat2Z.id, firstn_app, firstn_all, Nat.sub_diag, skipn_app.
          cbn [firstn length app]. rewrite skipn_all2 by lia. replace (length l1 + 1 - length l1)%nat with 1%nat by lia. cbn. rewrite app_nil_r. reflexivity.
        - eexists. split; auto. rewrite sset_same. split; [reflexivity|]. split; [reflexivity|split; [reflexivity|intros; apply sset_other; auto]].
        - eexists. split; auto. rewrite sset_same. split; [reflexivity|]. split; [|split; [reflexivity|intros; apply sset_other; auto]].
          cbn [av_l]. rewrite Hla. apply firstn_len.
        - exfalso. unfold len in *. rewrite Hla, app_length in *. lia.
        - exfalso. unfold len in *. rewrite app_length in *. lia.
        - exfalso. unfold len in *. rewrite app_length in *. lia. }
      destruct ST as [a1 [-> [Ha1 [Hl1 [Hc1 HO1]]]]].
      assert (Hle : len l2 <= av_cap a1).
      { rewrite Hc1. destruct LS; try contradiction; unfold len in *; rewrite ?app_length in *; cbn [length] in *; lia. }
      destruct (IH W1 A1 a1 I1 Ha1 Hl1 Hle Ha1) as [W2 [A2 [a2 [E2 [I2 [Ha2 [Hl2 HO2]]]]]]].
      exists W2, A2, a2. split; [cbn [srun map]; rewrite E1, E2; reflexivity|]. split; auto. split; auto. split; auto.
      intros e He. rewrite HO2, HO1; auto. }
  destruct G as [W2 [A2 [a2 [E2 [I2 [Ha2 [Hl2 HO2]]]]]]]. exists W2. split; auto.
  split; [rewrite (contents_iff _ _ _ _ _ _ Hw P I2); eauto|]. eapply rest_same_of; eauto. intros e He. symmetry. auto.
Qed.

(** Not usable for anything that may need more room: push_back and reserve on a copy read
    extents the copy constructor of soa_grid leaves uninitialised. *)
Theorem C38_copy_push_refuted : forall ct L W id src l cap,
  wf_ct ct -> policy ct L -> reachable ct L W -> unused W id -> contents ct W src l -> has_cap ct W src cap -> len l <= cap ->
  (forall c, srun ct W [SCopy id src; SPush id c] = Fault Indeterminate) /\
  (forall n, 0 <= n -> room L n -> srun ct W [SCopy id src; SReserve id n] = Fault Indeterminate).
Proof.
  intros ct L W id src l cap Hw P HR Hu Hc Hcap Hl. destruct (reach_inv _ _ _ Hw P HR) as [A I].
  rewrite (contents_iff _ _ _ _ _ _ Hw P I) in Hc. destruct Hc as [a [Ha <-]].
  rewrite (has_cap_iff _ _ _ _ _ _ I) in Hcap. destruct Hcap as [a' [Ha' Hcap]]. assert (a' = a) by congruence. subst a' cap.
  destruct (sv_some _ _ _ _ _ _ I Ha) as [v [Ev V]].
  destruct (v_copy_ok ct L (sw_mem W) v a Hw (proj1 P) (sv_mem _ _ _ _ I) V Hl) as [m' [v' [E1 [F V']]]].
  assert (HX : g_ex (v_grid v') = None) by (destruct V' as [X [ci V']]; apply (vr_ext _ _ _ _ _ _ _ V')).
  split.
  - intros c. cbn [srun sstep]. rewrite Ev, E1. cbn [vec_ctor]. unfold on_vec. cbn [sw_vecs sw_mem]. rewrite sset_same.
    unfold v_push. cbn [snd]. rewrite HX. reflexivity.
  - intros n Hn Hr. cbn [srun sstep]. rewrite Ev, E1. cbn [vec_ctor]. unfold on_vec. cbn [sw_vecs sw_mem]. rewrite sset_same.
    unfold v_reserve. destruct (first_fit_room _ _ Hr) as [E' FF]. destruct (first_fit_in _ _ _ FF) as [_ HnE].
    destruct (grid_new_ok ct L m' n E' Hw (proj1 P) (gf_ok _ _ _ _ F) Hn FF) as [m1 [h [-> [F1 [G1 [X1 [Y1 [Z1 X1']]]]]]]].
    rewrite X1'. cbn [use].
    assert (RS : exists m2 h2, g_resize ct (m1, h) E' 1 1 = Ret (m2, h2) tt).
    { destruct (Z.eq_dec n E') as [->|N].
      - exists m1, h. unfold g_resize. rewrite X1, Y1, Z1, !Z.eqb_refl. reflexivity.
      - destruct (grid_resized ct L m1 h (mkAG (g_x h) (g_y h) (g_z h) false (fun _ _ _ => default_cell (ct_ms ct))) E' E' Hw (proj1 P) (gf_ok _ _ _ _ F1))
          as [m2 [h2 [Er _]]].
        + repeat split. exists (line E'). exact G1.
        + lia.
        + eapply first_fit_between; eauto. lia.
        + exists m2, h2. unfold g_resize. assert ((g_x h =? E') = false) as -> by lia. cbn [andb]. exact Er. }
    destruct RS as [m2 [h2 ->]]. rewrite HX. reflexivity.
Qed.

(** Not the same elements either when the size exceeds the capacity: they are not copied. *)
Theorem C38_lost_refuted :
  obs_of (srun sx_triv sstart [SNew 0 0; SPush 0 sx1; SCopy 1 0; SGet 0 0; SGet 1 0]) =
  Some [SUnit; SUnit; SUnit; SCell sx1; SCell [[[None; None]]; [[None]; [None]]]] /\
  obs_of (srun sx_triv sstart [SNew 0 0; SPush 0 sx1; SNew 1 5; SAssign 1 0; SGet 0 0; SGet 1 0]) =
  Some [SUnit; SUnit; SUnit; SUnit; SCell sx1; SCell [[[None; None]]; [[None]; [None]]]].
Proof. split; vm_compute; reflexivity. Qed.

Definition changes (op : sop) (id : nat) : Prop :=
  match op with
  | SNew i _ | SFill i _ _ | SCopy i _ | SAssign i _ | SSet i _ _ | SResize i _ | SReserve i _ | SClear i | SPush i _ | SPop i
  | SDestroy i => i = id
  | SGet _ _ | SSize _ | SEmpty _ | SCap _ | SCallback _ _ => False
  end.
Lemma spec_run_lawful : forall ms L ops A A' obs r, spec_run ms L A ops A' obs -> lawful ms L A (ops ++ r) -> lawful ms L A' r.
Proof. intros ms L ops A A' obs r H. induction H; intros Lw; auto. cbn [app lawful] in Lw. destruct Lw as [_ Lw]. eauto. Qed.
Lemma lawful_prefix : forall ms L ops A r, lawful ms L A (ops ++ r) -> lawful ms L A ops.
Proof. intros ms L ops. induction ops as [|op ops IH]; intros A r Lw; cbn [app lawful] in *; auto. destruct Lw as [L1 L2]. split; eauto. Qed.

(** Deep: what is then done to other vectors, the source included, changes nothing. *)
Theorem C38_independent : forall ct L ops op W obs id l,
  wf_ct ct -> policy ct L -> lawful (ct_ms ct) L no_vectors (ops ++ [op]) -> srun ct sstart ops = Val (W, obs) ->
  ~ changes op id -> contents ct W id l ->
  exists W' ob, srun ct W [op] = Val (W', [ob]) /\ contents ct W' id l.
Proof.
  intros ct L ops op W obs id l Hw P Lw E Hch Hc.
  destruct (srun_ok ct L ops sstart no_vectors Hw (proj1 P) (proj2 P) (sv_start ct L) (lawful_prefix _ _ _ _ _ Lw)) as [W0 [A [obs0 [E0 [R0 I]]]]].
  rewrite E in E0. inversion E0; subst W0 obs0. pose proof (spec_run_lawful _ _ _ _ _ _ _ R0 Lw) as [Lop _].
  destruct (sstep_ok ct L W A op Hw (proj1 P) (proj2 P) I Lop) as [W' [A' [ob [E' [S I']]]]].
  exists W', ob. split; [apply srun1; exact E'|].
  rewrite (contents_iff _ _ _ _ _ _ Hw P I) in Hc. rewrite (contents_iff _ _ _ _ _ _ Hw P I').
  assert (A' id = A id) as ->; auto.
  inversion S; subst; cbn [changes] in Hch; auto; rewrite ?sset_other by (intros ->; tauto); reflexivity.
Qed.

Example C38_case :
  obs_of (srun sx_ct sx_world [SCopy 2 0; SSet 0 1 sx1; SCallback 2 5; SCap 2; SPop 2; SAssign 1 2; SDestroy 2; SCallback 1 4; SPush 1 sx1; SCallback 1 5])
  = Some [SUnit; SUnit; SCells [dx; sx2; dx; sx1; sx2]; SNum 16; SUnit; SUnit; SUnit; SCells [dx; sx2; dx; sx1]; SUnit; SCells [dx; sx2; dx; sx1; sx1]] /\
  fault_of (srun sx_ct sx_world [SCopy 2 0; SPush 2 sx1]) = Some Indeterminate.
Proof. split; vm_compute; reflexivity. Qed.

(** ** C39 *)
(** Partial: reserve(n) with n >= size(). *)
Theorem C39_partial : forall ct L W id l n,
  wf_ct ct -> policy ct L -> reachable ct L W -> contents ct W id l -> sized W id -> len l <= n ->
  exists W',
    (room L n /\ srun ct W [SReserve id n] = Val (W', [SUnit]) /\ contents ct W' id l /\ sized W' id /\
     (exists cap, has_cap ct W' id cap /\ n <= cap) /\ rest_same ct W W' id) \/
    (~ room L n /\ srun ct W [SReserve id n] = Val (W', [SThrow OutOfRange]) /\ contents ct W' id l /\
     (forall k, has_cap ct W id k <-> has_cap ct W' id k) /\ rest_same ct W W' id).
Proof.
  intros ct L W id l n Hw P HR Hc Hs Hn. destruct (reach_inv _ _ _ Hw P HR) as [A I].
  rewrite (contents_iff _ _ _ _ _ _ Hw P I) in Hc. destruct Hc as [a [Ha <-]]. rewrite (sized_iff _ _ _ _ _ _ I Ha) in Hs.
  assert (Hpre : spre (ct_ms ct) A (SReserve id n)) by (cbn [spre]; eauto).
  destruct (sstep_ok ct L W A _ Hw (proj1 P) (proj2 P) I Hpre) as [W1 [A1 [ob [E1 [S1 I1]]]]]. exists W1.
  inversion S1; subst;
    match goal with H1 : ?B id = Some a, H : ?B id = Some ?y |- _ => assert (y = a) by congruence; subst y end; [left|right]; (split; [auto|]; split; [apply srun1; auto|]).
  - split; [rewrite (contents_iff _ _ _ _ _ _ Hw P I1), sset_same; eexists; split; reflexivity|].
    split; [rewrite (sized_iff _ _ _ _ _ _ I1 (sset_same _ _ _ _)); reflexivity|].
    split; [exists cap'; rewrite (has_cap_iff _ _ _ _ _ _ I1), sset_same; split; [eexists; split; reflexivity|auto]|].
    eapply rest_same_of; eauto. intros e He. rewrite sset_other; auto.
  - split; [rewrite (contents_iff _ _ _ _ _ _ Hw P I1); eauto|].
    split; [intros k; rewrite (has_cap_iff _ _ _ _ _ _ I), (has_cap_iff _ _ _ _ _ _ I1); tauto|].
    eapply rest_same_of; eauto.
Qed.

(** False for smaller [n]: whenever the storage chosen for [n] is smaller than the
    vector, the copy overruns it. *)
Theorem C39_refuted : forall ct L W id l n E',
  wf_ct ct -> policy ct L -> slots (ct_ms ct) <> [] -> reachable ct L W -> contents ct W id l -> sized W id ->
  0 <= n -> first_fit n L E' -> E' < len l ->
  exists f, srun ct W [SReserve id n] = Fault f.
Proof.
  intros ct L W id l n E' Hw P Hne HR Hc Hs Hn FF Hlt. destruct (reach_inv _ _ _ Hw P HR) as [A I].
  rewrite (contents_iff _ _ _ _ _ _ Hw P I) in Hc. destruct Hc as [a [Ha <-]]. rewrite (sized_iff _ _ _ _ _ _ I Ha) in Hs.
  destruct (sv_some _ _ _ _ _ _ I Ha) as [v [Ev V]]. destruct V as [X [ci V]].
  cbn [srun sstep]. unfold on_vec. rewrite Ev. unfold v_reserve.
  destruct (first_fit_in _ _ _ FF) as [_ HnE].
  destruct (grid_new_ok ct L (sw_mem W) n E' Hw (proj1 P) (sv_mem _ _ _ _ I) Hn FF) as [m1 [h [-> [F1 [G1 [X1 [Y1 [Z1 X1']]]]]]]].
  rewrite X1'. cbn [use].
  assert (RS : exists m2 h2, g_resize ct (m1, h) E' 1 1 = Ret (m2, h2) tt /\ grid_is ct m2 h2 E' E' (fun _ _ _ => default_cell (ct_ms ct))).
  { destruct (Z.eq_dec n E') as [->|N].
    - exists m1, h. split; [|exact (conj G1 (conj X1 (conj Y1 (conj Z1 X1'))))].
      unfold g_resize. rewrite X1, Y1, Z1, !Z.eqb_refl. reflexivity.
    - destruct (grid_resized ct L m1 h (mkAG (g_x h) (g_y h) (g_z h) false (fun _ _ _ => default_cell (ct_ms ct))) E' E' Hw (proj1 P) (gf_ok _ _ _ _ F1))
        as [m2 [h2 [Er [_ [G2 _]]]]].
      + repeat split. exists (line E'). exact G1.
      + lia.
      + eapply first_fit_between; eauto. lia.
      + exists m2, h2. split; auto. unfold g_resize. assert ((g_x h =? E') = false) as -> by lia. cbn [andb]. exact Er. }
  destruct RS as [m2 [h2 [-> [G2 [X2 [Y2 [Z2 X2']]]]]]].
  rewrite (vr_ext _ _ _ _ _ _ _ V), Hs. cbn [use]. unfold g_load_streaks.
  destruct G2 as [K1 K2 K3 K4 K5 K6 K7]. rewrite line_prod in *. rewrite X2, Y2, Z2 in *.
  rewrite (callback_ok _ _ _ _ _ _ (line E')) by (rewrite X2, Y2, Z2; auto). rewrite load_functor_canon. cbn [rows_of]. rewrite gen_line, line_prod.
  rewrite (vr_count _ _ _ _ _ _ _ V).
  match goal with |- context [exec ?ops ?m] => destruct (exec ops m) as [m3|f] eqn:EX; [exfalso|cbn [run]; eauto] end.
  destruct Hw as [Hw Hd]. destruct (PropsArray.last_slot _ Hw Hne) as [sl [Hin [Ht Hsz]]].
  pose proof (fun Hs => PropsArray.exec_val_in _ _ _ (copy_key_op (g_data h2) E' (g_data (v_grid v)) X (sl, E', E')) Hs EX) as B.
  match type of B with ?P -> _ => assert (HP : P); [|specialize (B HP)] end.
  { intros o Ho. apply in_map_iff in Ho. destruct Ho as [[[q i] j] [<- Ho]]. cbn [copy_key_op op_size fst snd].
    apply in_row_keys in Ho. apply (slot_range _ q Hw). tauto. }
  assert (HE0 : 0 <= E') by lia.
  match type of B with ?P -> _ => assert (HP2 : P); [|specialize (B HP2)] end.
  { apply in_map. apply in_row_keys. split; auto. unfold row_pairs. cbn [flat_map fst snd]. rewrite app_nil_r. apply in_map_iff. exists E'.
    split; [f_equal; lia|]. apply in_zseq. lia. }
  cbn [copy_key_op op_dst op_size fst snd] in B. unfold chk_bounds in B. cbn [sptr padd pb po] in B.
  rewrite (rg_size _ _ _ _ _ K7), (rg_off _ _ _ _ _ K7) in B.
  assert (Hgt : total (ct_ms ct) * E' < 0 + slot_addr E' sl E' + s_size sl) by (unfold slot_addr; rewrite <- Ht; lia).
  destruct ((0 <=? 0 + slot_addr E' sl E') && (0 + slot_addr E' sl E' + s_size sl <=? total (ct_ms ct) * E')) eqn:Eb; [lia|].
  discriminate B.
Qed.

Example C39_case :
  first_fit 3 [5; 8; 16] 5 /\ slots (ct_ms sx_ct) <> [] /\
  obs_of (srun sx_ct sx_world [SReserve 0 5; SCallback 0 5; SCap 0; SReserve 0 17; SCap 0]) =
  Some [SUnit; SCells [dx; sx2; dx; sx1; sx2]; SNum 5; SThrow OutOfRange; SNum 5] /\
  fault_of (srun sx_ct sx_world [SPush 0 sx1; SReserve 0 3]) = Some OutOfBounds.
Proof. split; [apply ff_here; lia|]. split; [discriminate|]. split; vm_compute; reflexivity. Qed.

(** ** C40 *)
(** Partial: when resize() has to reserve. *)
Theorem C40_partial : forall ct L W id l n cap,
  wf_ct ct -> policy ct L -> reachable ct L W -> contents ct W id l -> has_cap ct W id cap -> sized W id ->
  len l <= n -> cap < n -> room L n ->
  exists W', srun ct W [SResize id n] = Val (W', [SUnit]) /\
    contents ct W' id (l ++ repeat (default_value (ct_ms ct)) (Z.to_nat n - length l)) /\ sized W' id /\ rest_same ct W W' id.
Proof.
  intros ct L W id l n cap Hw P HR Hc Hcap Hs Hl Hn Hr. destruct (reach_inv _ _ _ Hw P HR) as [A I].
  rewrite (contents_iff _ _ _ _ _ _ Hw P I) in Hc. destruct Hc as [a [Ha <-]].
  rewrite (has_cap_iff _ _ _ _ _ _ I) in Hcap. destruct Hcap as [a' [Ha' Hcap]]. assert (a' = a) by congruence. subst a' cap.
  rewrite (sized_iff _ _ _ _ _ _ I Ha) in Hs.
  assert (Hpre : spre (ct_ms ct) A (SResize id n)) by (cbn [spre]; split; [unfold len in *; lia|eauto]).
  destruct (sstep_ok ct L W A _ Hw (proj1 P) (proj2 P) I Hpre) as [W1 [A1 [ob [E1 [S1 I1]]]]]. exists W1.
  inversion S1; subst;
    match goal with H1 : ?B id = Some a, H : ?B id = Some ?y |- _ => assert (y = a) by congruence; subst y end; try lia; try contradiction.
  split; [apply srun1; auto|].
  split; [rewrite (contents_iff _ _ _ _ _ _ Hw P I1), sset_same; eexists; split; [reflexivity|]; cbn [av_l]; f_equal; apply firstn_all2; unfold len in *; lia|].
  split; [rewrite (sized_iff _ _ _ _ _ _ I1 (sset_same _ _ _ _)); reflexivity|].
  eapply rest_same_of; eauto. intros e He. rewrite sset_other; auto.
Qed.

(** False within the capacity: the old values come back. Witness: fill with [c], clear(),
    resize(): the element is [c] again, for every cell type and value. *)
Theorem C40_refuted : forall ct L n c,
  wf_ct ct -> policy ct L -> wf_cell (ct_ms ct) c -> 0 < n -> room L n ->
  exists W, srun ct sstart [SFill 0 n c; SClear 0; SResize 0 n; SCallback 0 n] = Val (W, [SUnit; SUnit; SUnit; SCells (repeat c (Z.to_nat n))]).
Proof.
  intros ct L n c Hw P Hc Hn Hr.
  destruct (v_new_fill_ok ct L empty_mem n c Hw (proj1 P)) as [m1 [v1 [E1 [F1 V1]]]]; auto; [apply (sv_mem _ _ _ _ (sv_start ct L))|lia|].
  cbn [srun sstep]. change (sw_mem sstart) with empty_mem. rewrite E1. cbn [vec_ctor]. unfold on_vec. cbn [sw_vecs sw_mem]. rewrite sset_same.
  cbn [v_clear fst snd sw_vecs sw_mem]. rewrite sset_same. unfold v_resize, v_capacity. cbn [snd fst v_grid].
  pose proof V1 as [X [ci R]]. rewrite (vr_cap _ _ _ _ _ _ _ R). cbn [av_cap]. rewrite Z.ltb_irrefl. cbn [sw_vecs sw_mem]. rewrite sset_same.
  assert (HN : v_count v1 = n). { rewrite (vr_count _ _ _ _ _ _ _ R). cbn [av_l]. unfold len. rewrite repeat_length. lia. }
  assert (mkVec (v_grid v1) n = v1) as -> by (destruct v1; cbn in *; congruence).
  rewrite (v_callback_ok ct L m1 v1 _ n Hw (proj1 P) V1) by (cbn [av_l]; unfold len; rewrite repeat_length; lia).
  eexists. do 2 f_equal. cbn [av_l]. rewrite firstn_all2; [reflexivity|]. rewrite repeat_length. lia.
Qed.

Example C40_case :
  obs_of (srun sx_ct sx_world [SCap 1; SResize 1 4; SCallback 1 4]) = Some [SNum 2; SUnit; SCells [sx1; sx1; dx; dx]] /\
  obs_of (srun sx_ct sx_world [SResize 1 1; SResize 1 2; SCallback 1 2]) = Some [SUnit; SUnit; SCells [sx1; sx1]].
Proof. split; vm_compute; reflexivity. Qed.

(** ** C55 *)
(** reserve() takes extent_x() for the distance of the members in the old storage. With
    policies that do not give one-dimensional storage (here sizes 8, 16 in x and 2 in y)
    elements change: witness. For one-dimensional storage C39_partial applies. *)
Definition sx_plane : celltype := mkCT PropsArray.ax_triv (Custom [8; 16] [2] [1]) false.
Theorem C55_refuted : wf_ct sx_plane /\ wf_cell (ct_ms sx_plane) sx1 /\
  obs_of (srun sx_plane sstart [SFill 0 3 sx1; SCallback 0 3; SReserve 0 9; SSize 0; SCallback 0 3]) =
  Some [SUnit; SCells [sx1; sx1; sx1]; SUnit; SNum 3; SCells (repeat [[[Some x10; Some x11]]; [[None]; [None]]] 3)].
Proof. split; [repeat constructor|]. split; [repeat constructor|]. vm_compute. reflexivity. Qed.

(** ** C56 *)
(** No storage outlives the vectors: when every vector was destroyed, no block is allocated. *)
Theorem C56_nothing_left : forall ct L W,
  wf_ct ct -> policy ct L -> reachable ct L W -> (forall id, unused W id) -> forall b, msize (sw_mem W) b = None.
Proof.
  intros ct L W Hw P HR Hu b. destruct (reach_inv _ _ _ Hw P HR) as [A I].
  destruct (msize (sw_mem W) b) as [n|] eqn:E; auto. destruct (sv_leak _ _ _ _ I b n E) as [id [v [H _]]].
  specialize (Hu id). unfold unused in Hu. congruence.
Qed.
(** At any time: one block per vector, of the size of its storage. *)
Theorem C56_one_block_each : forall ct L W b n,
  wf_ct ct -> policy ct L -> reachable ct L W -> msize (sw_mem W) b = Some n ->
  exists id v E, sw_vecs W id = Some v /\ pb (g_data (v_grid v)) = b /\ In E L /\ v_capacity v <= E /\ n = total (ct_ms ct) * E /\
    forall id' v', sw_vecs W id' = Some v' -> pb (g_data (v_grid v')) = b -> id' = id.
Proof.
  intros ct L W b n Hw P HR Hb. destruct (reach_inv _ _ _ Hw P HR) as [A I].
  destruct (sv_leak _ _ _ _ I b n Hb) as [id [v [Ev Hv]]]. pose proof (sv_rep _ _ _ _ I id) as R. rewrite Ev in R.
  destruct (A id) as [a|]; [|contradiction]. destruct R as [E [ci R]].
  destruct (first_fit_in _ _ _ (vr_fit _ _ _ _ _ _ _ R)) as [HIn Hle].
  exists id, v, E. split; auto. split; auto. split; auto. split; [unfold v_capacity; rewrite (vr_cap _ _ _ _ _ _ _ R); auto|].
  split; [pose proof (rg_size _ _ _ _ _ (vr_region _ _ _ _ _ _ _ R)) as S; unfold blk in Hv; rewrite Hv in S; congruence|].
  intros id' v' Ev' Hb'. destruct (Nat.eq_dec id' id) as [->|N]; auto. exfalso.
  apply (sv_sep _ _ _ _ I id' id v' v Ev' Ev N). unfold blk in *. congruence.
Qed.

Example C56_case :
  match srun sx_ct sx_world [SDestroy 0; SDestroy 1] with
  | Val (w, _) => forallb (fun b => match msize (sw_mem w) b with None => true | Some _ => false end) (seq 0 (mnext (sw_mem w)))
  | Fault _ => false end = true /\
  length (filter (fun b => match msize (sw_mem sx_world) b with None => false | Some _ => true end) (seq 0 (mnext (sw_mem sx_world)))) = 2%nat.
Proof. split; vm_compute; reflexivity. Qed.

Print Assumptions C34_history.
Print Assumptions C34_reads.
Print Assumptions C34_sequence_sizes.
Print Assumptions C34_sequence.
Print Assumptions C35_refuted.
Print Assumptions C35_reserved_partial.
Print Assumptions C35_extent.
Print Assumptions C36_refuted.
Print Assumptions C36_below_capacity_partial.
Print Assumptions C36_pop.
Print Assumptions C37_growth.
Print Assumptions C37_exact.
Print Assumptions C37_refuted.
Print Assumptions C37_full_partial.
Print Assumptions C38_copy_partial.
Print Assumptions C38_assign_partial.
Print Assumptions C38_copy_use_partial.
Print Assumptions C38_copy_push_refuted.
Print Assumptions C38_lost_refuted.
Print Assumptions C38_independent.
Print Assumptions C39_partial.
Print Assumptions C39_refuted.
Print Assumptions C40_partial.
Print Assumptions C40_refuted.
Print Assumptions C55_refuted.
Print Assumptions C56_nothing_left.
Print Assumptions C56_one_block_each.
