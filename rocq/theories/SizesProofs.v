(** Lemmas about Sizes.v. *)
From Coq Require Import ZArith List Lia Bool.
From Verif Require Import Base Layout LayoutProofs Sizes.
Import ListNotations.
Open Scope Z_scope.

(** First entry of a list that is at least [d]. *)
Inductive first_fit (d : Z) : list Z -> Z -> Prop :=
| ff_here : forall s r, d <= s -> first_fit d (s :: r) s
| ff_next : forall s r t, ~ d <= s -> first_fit d r t -> first_fit d (s :: r) t.

Definition no_fit (d : Z) (l : list Z) : Prop := Forall (fun s => s < d) l.

Lemma case_chain_spec : forall (R : Type) d l (k : Z -> R) fall,
  (exists s, first_fit d l s /\ case_chain d l k fall = k s) \/
  (no_fit d l /\ case_chain d l k fall = fall).
Proof.
  intros R d l k fall. induction l as [|s r IH]; simpl.
  - right. split; auto. constructor.
  - destruct (Z.leb_spec d s) as [H|H].
    + left. exists s. split; auto. constructor; auto.
    + destruct IH as [[t [Hf He]]|[Hn He]].
      * left. exists t. split; auto. apply ff_next; auto. lia.
      * right. split; auto. constructor; auto.
Qed.

Lemma first_fit_In : forall d l s, first_fit d l s -> In s l /\ d <= s.
Proof. intros d l s H. induction H; simpl; tauto. Qed.

Lemma first_fit_no_fit : forall d l s, first_fit d l s -> no_fit d l -> False.
Proof. intros d l s H. induction H; intros Hn; inversion Hn; subst; [lia|auto]. Qed.

Lemma first_fit_det : forall d l s t, first_fit d l s -> first_fit d l t -> s = t.
Proof. intros d l s t H. revert t. induction H; intros t' Ht; inversion Ht; subst; auto; contradiction. Qed.

Lemma fit_or_not : forall d l, (exists s, first_fit d l s) \/ no_fit d l.
Proof.
  intros d l. destruct (case_chain_spec unit d l (fun _ => tt) tt) as [[s [H _]]|[H _]]; eauto.
Qed.

Lemma case_chain_fit : forall (R : Type) d l s (k : Z -> R) fall,
  first_fit d l s -> case_chain d l k fall = k s.
Proof.
  intros R d l s k fall H. destruct (case_chain_spec R d l k fall) as [[t [Ht E]]|[Hn _]].
  - rewrite E, (first_fit_det _ _ _ _ H Ht). reflexivity.
  - exfalso. eapply first_fit_no_fit; eauto.
Qed.

Lemma case_chain_nofit : forall (R : Type) d l (k : Z -> R) fall,
  no_fit d l -> case_chain d l k fall = fall.
Proof.
  intros R d l k fall H. destruct (case_chain_spec R d l k fall) as [[t [Ht E]]|[Hn E]]; auto.
  exfalso. eapply first_fit_no_fit; eauto.
Qed.

(** Ascending list: first fit = minimum. *)
Fixpoint ascending (l : list Z) : Prop :=
  match l with
  | a :: ((b :: _) as r) => a <= b /\ ascending r
  | _ => True
  end.

Lemma ascending_tail : forall a l, ascending (a :: l) -> ascending l /\ Forall (fun b => a <= b) l.
Proof.
  intros a l. revert a. induction l as [|b l IH]; intros a H.
  - split; simpl; auto.
  - destruct H as [H1 H2]. split; auto. constructor; auto.
    destruct (IH b H2) as [_ Hf]. eapply Forall_impl; [|exact Hf]. intros; simpl in *; lia.
Qed.

Lemma first_fit_minimal : forall d l s t,
  ascending l -> first_fit d l s -> In t l -> d <= t -> s <= t.
Proof.
  intros d l s t Ha H. induction H as [s r Hd|s r u Hn H IH]; intros Hin Ht.
  - apply ascending_tail in Ha. destruct Ha as [_ Hf]. rewrite Forall_forall in Hf.
    destruct Hin as [->|Hin]; [lia|auto].
  - apply ascending_tail in Ha. destruct Ha as [Ha Hf].
    destruct Hin as [->|Hin]; [contradiction|]. apply IH; auto.
Qed.

(** The functor is called exactly once, or the exception is thrown. *)
Lemma select_sizes_choose : forall (R : Type) (thr : exn -> R) f cfg x y z,
  select_sizes R thr f cfg x y z =
  match choose cfg x y z with inl e => thr e | inr ext => f ext end.
Proof.
  intros R thr f cfg x y z.
  assert (CC : forall d l k k2, (forall s, k s = match k2 s with inl e => thr e | inr ext => f ext end) ->
    case_chain d l k (thr OutOfRange) =
    match case_chain d l k2 (inl OutOfRange) with inl e => thr e | inr ext => f ext end).
  { intros d l k k2 Hk. induction l as [|s r IH]; simpl; auto. destruct (d <=? s); auto. }
  assert (S1 : forall l, select_1d R thr f l x y z =
     match select_1d (exn + extent) inl inr l x y z with inl e => thr e | inr ext => f ext end).
  { intros l. unfold select_1d. destruct (negb (y =? 1)); auto. destruct (negb (z =? 1)); auto. }
  assert (S2 : forall l, select_2d R thr f l x y z =
     match select_2d (exn + extent) inl inr l x y z with inl e => thr e | inr ext => f ext end).
  { intros l. unfold select_2d. destruct (negb (z =? 1)); auto. }
  assert (S3 : forall l, select_3d R thr f l x y z =
     match select_3d (exn + extent) inl inr l x y z with inl e => thr e | inr ext => f ext end).
  { intros l. unfold select_3d. auto. }
  unfold choose, select_sizes. destruct cfg as [|xs ys zs|l|l|l]; auto.
  - destruct ((1 <? y) && (1 <? z)); auto. destruct (1 <? y); auto.
  - unfold bind_size_x. apply CC. intros sx. unfold bind_size_y. apply CC. intros sy.
    unfold bind_size_z. apply CC. reflexivity.
Qed.

Lemma select_sizes_const_choose : forall (R : Type) (thr : exn -> R) f cfg x y z,
  select_sizes_const R thr f cfg x y z =
  match choose_const cfg x y z with inl e => thr e | inr ext => f ext end.
Proof.
  intros R thr f cfg x y z.
  assert (CC : forall d l k k2, (forall s, k s = match k2 s with inl e => thr e | inr ext => f ext end) ->
    case_chain d l k (thr OutOfRange) =
    match case_chain d l k2 (inl OutOfRange) with inl e => thr e | inr ext => f ext end).
  { intros d l k k2 Hk. induction l as [|s r IH]; simpl; auto. destruct (d <=? s); auto. }
  assert (S1 : forall l, select_1d_const R thr f l x y z =
     match select_1d_const (exn + extent) inl inr l x y z with inl e => thr e | inr ext => f ext end).
  { intros l. unfold select_1d_const. destruct (negb (y =? 1)); auto. destruct (negb (z =? 1)); auto. }
  assert (S2 : forall l, select_2d R thr f l x y z =
     match select_2d (exn + extent) inl inr l x y z with inl e => thr e | inr ext => f ext end).
  { intros l. unfold select_2d. destruct (negb (z =? 1)); auto. }
  assert (S3 : forall l, select_3d R thr f l x y z =
     match select_3d (exn + extent) inl inr l x y z with inl e => thr e | inr ext => f ext end).
  { intros l. unfold select_3d. auto. }
  unfold choose_const, select_sizes_const. destruct cfg as [|xs ys zs|l|l|l]; auto.
  - destruct ((1 <? y) && (1 <? z)); auto. destruct (1 <? y); auto.
  - unfold bind_size_x. apply CC. intros sx. unfold bind_size_y. apply CC. intros sy.
    unfold bind_size_z. apply CC. reflexivity.
Qed.

(** The specification of a policy: which list bounds which extent. Independent of
    the dispatch code: [fits cfg x y z e] relates dimensions to acceptable extents. *)
Definition minimal (d : Z) (l : list Z) (s : Z) : Prop :=
  In s l /\ d <= s /\ forall t, In t l -> d <= t -> s <= t.

Definition max3 (x y z : Z) := Z.max x (Z.max y z).

Inductive spec_extent : sizes_cfg -> Z -> Z -> Z -> extent -> Prop :=
| se_custom : forall xs ys zs x y z sx sy sz,
    minimal x xs sx -> minimal y ys sy -> minimal z zs sz ->
    spec_extent (Custom xs ys zs) x y z (mkExt sx sy sz)
| se_1d : forall l x s, minimal x l s -> spec_extent (Uniform1D l) x 1 1 (mkExt s 1 1)
| se_2d : forall l x y s, minimal (Z.max x y) l s -> spec_extent (Uniform2D l) x y 1 (mkExt s s 1)
| se_3d : forall l x y z s, minimal (max3 x y z) l s -> spec_extent (Uniform3D l) x y z (mkExt s s s)
| se_def3 : forall x y z e, 1 < y -> 1 < z ->
    spec_extent (Uniform3D default_3d_sizes) x y z e -> spec_extent Default x y z e
| se_def2 : forall x y e, 1 < y ->
    spec_extent (Uniform2D default_2d_sizes) x y 1 e -> spec_extent Default x y 1 e
| se_def1 : forall x e,
    spec_extent (Uniform1D default_1d_sizes) x 1 1 e -> spec_extent Default x 1 1 e.

Definition cfg_lists (cfg : sizes_cfg) : list (list Z) :=
  match cfg with
  | Default => [default_1d_sizes; default_2d_sizes; default_3d_sizes]
  | Custom xs ys zs => [xs; ys; zs]
  | Uniform1D l | Uniform2D l | Uniform3D l => [l]
  end.

Definition ascending_cfg (cfg : sizes_cfg) : Prop := Forall ascending (cfg_lists cfg).

Lemma ascending_Default : ascending_cfg Default.
Proof. repeat constructor; cbn; lia. Qed.

Lemma first_fit_min : forall d l s, ascending l -> first_fit d l s -> minimal d l s.
Proof.
  intros d l s Ha H. destruct (first_fit_In _ _ _ H). split; auto. split; auto.
  intros t Hin Ht. eapply first_fit_minimal; eauto.
Qed.

Lemma choose_custom_inv : forall xs ys zs x y z e,
  choose (Custom xs ys zs) x y z = inr e <->
  exists sx sy sz, e = mkExt sx sy sz /\ first_fit x xs sx /\ first_fit y ys sy /\ first_fit z zs sz.
Proof.
  intros xs ys zs x y z e. unfold choose, select_sizes, bind_size_x, bind_size_y, bind_size_z. split.
  - intros H.
    destruct (fit_or_not x xs) as [[sx Hx]|Hx]; [rewrite (case_chain_fit _ _ _ _ _ _ Hx) in H|rewrite (case_chain_nofit _ _ _ _ _ Hx) in H; discriminate].
    destruct (fit_or_not y ys) as [[sy Hy]|Hy]; [rewrite (case_chain_fit _ _ _ _ _ _ Hy) in H|rewrite (case_chain_nofit _ _ _ _ _ Hy) in H; discriminate].
    destruct (fit_or_not z zs) as [[sz Hz]|Hz]; [rewrite (case_chain_fit _ _ _ _ _ _ Hz) in H|rewrite (case_chain_nofit _ _ _ _ _ Hz) in H; discriminate].
    inversion H; subst. eauto 8.
  - intros [sx [sy [sz [-> [Hx [Hy Hz]]]]]].
    rewrite (case_chain_fit _ _ _ _ _ _ Hx), (case_chain_fit _ _ _ _ _ _ Hy), (case_chain_fit _ _ _ _ _ _ Hz). reflexivity.
Qed.

Lemma select_1d_inv : forall l x y z e,
  select_1d (exn + extent) inl inr l x y z = inr e <->
  y = 1 /\ z = 1 /\ exists s, first_fit x l s /\ e = mkExt s 1 1.
Proof.
  intros l x y z e. unfold select_1d. split.
  - destruct (Z.eqb_spec y 1); [|discriminate]. destruct (Z.eqb_spec z 1); [|discriminate]. simpl.
    destruct (fit_or_not x l) as [[s H]|H].
    + rewrite (case_chain_fit _ _ _ _ _ _ H). intros E; inversion E; subst. eauto.
    + rewrite (case_chain_nofit _ _ _ _ _ H). discriminate.
  - intros [-> [-> [s [H ->]]]]. simpl. rewrite (case_chain_fit _ _ _ _ _ _ H). reflexivity.
Qed.

Lemma select_2d_inv : forall l x y z e,
  select_2d (exn + extent) inl inr l x y z = inr e <->
  z = 1 /\ exists s, first_fit (Z.max x y) l s /\ e = mkExt s s 1.
Proof.
  intros l x y z e. unfold select_2d. split.
  - destruct (Z.eqb_spec z 1); [|discriminate]. simpl.
    destruct (fit_or_not (Z.max x y) l) as [[s H]|H].
    + rewrite (case_chain_fit _ _ _ _ _ _ H). intros E; inversion E; subst. eauto.
    + rewrite (case_chain_nofit _ _ _ _ _ H). discriminate.
  - intros [-> [s [H ->]]]. simpl. rewrite (case_chain_fit _ _ _ _ _ _ H). reflexivity.
Qed.

Lemma select_3d_inv : forall l x y z e,
  select_3d (exn + extent) inl inr l x y z = inr e <->
  exists s, first_fit (max3 x y z) l s /\ e = mkExt s s s.
Proof.
  intros l x y z e. unfold select_3d. split.
  - destruct (fit_or_not (max3 x y z) l) as [[s H]|H].
    + unfold max3 in H. rewrite (case_chain_fit _ _ _ _ _ _ H). intros E; inversion E; subst. eauto.
    + unfold max3 in H. rewrite (case_chain_nofit _ _ _ _ _ H). discriminate.
  - intros [s [H ->]]. rewrite (case_chain_fit _ _ _ _ _ _ H). reflexivity.
Qed.

Lemma choose_default_cases : forall x y z,
  (1 < y /\ 1 < z /\ choose Default x y z = select_3d (exn + extent) inl inr default_3d_sizes x y z) \/
  (1 < y /\ z <= 1 /\ choose Default x y z = select_2d (exn + extent) inl inr default_2d_sizes x y z) \/
  (y <= 1 /\ choose Default x y z = select_1d (exn + extent) inl inr default_1d_sizes x y z).
Proof.
  intros x y z. unfold choose, select_sizes.
  destruct (Z.ltb_spec 1 y); destruct (Z.ltb_spec 1 z); simpl; auto 6.
Qed.

(** *** C10 *)
Lemma choose_spec : forall cfg x y z e,
  ascending_cfg cfg -> choose cfg x y z = inr e -> spec_extent cfg x y z e.
Proof.
  intros cfg x y z e Ha H.
  assert (G1 : forall l, ascending l -> select_1d (exn + extent) inl inr l x y z = inr e -> spec_extent (Uniform1D l) x y z e).
  { intros l Hl Hs. apply select_1d_inv in Hs. destruct Hs as [-> [-> [s [Hs ->]]]].
    constructor. apply first_fit_min; auto. }
  assert (G2 : forall l, ascending l -> select_2d (exn + extent) inl inr l x y z = inr e -> spec_extent (Uniform2D l) x y z e).
  { intros l Hl Hs. apply select_2d_inv in Hs. destruct Hs as [-> [s [Hs ->]]].
    constructor. apply first_fit_min; auto. }
  assert (G3 : forall l, ascending l -> select_3d (exn + extent) inl inr l x y z = inr e -> spec_extent (Uniform3D l) x y z e).
  { intros l Hl Hs. apply select_3d_inv in Hs. destruct Hs as [s [Hs ->]].
    constructor. apply first_fit_min; auto. }
  destruct cfg as [|xs ys zs|l|l|l].
  - pose proof ascending_Default as HD. unfold ascending_cfg, cfg_lists in HD.
    inversion HD as [|? ? A1 HD2]; subst. inversion HD2 as [|? ? A2 HD3]; subst. inversion HD3 as [|? ? A3 _]; subst.
    destruct (choose_default_cases x y z) as [[Hy [Hz E]]|[[Hy [Hz E]]|[Hy E]]]; rewrite E in H.
    + apply se_def3; auto.
    + assert (z = 1) by (apply select_2d_inv in H; tauto). subst z. apply se_def2; auto.
    + assert (y = 1 /\ z = 1) by (apply select_1d_inv in H; tauto). destruct H0; subst.
      apply se_def1; auto.
  - apply choose_custom_inv in H. destruct H as [sx [sy [sz [-> [Hx [Hy Hz]]]]]].
    inversion Ha as [|? ? A1 Ha2]; subst. inversion Ha2 as [|? ? A2 Ha3]; subst. inversion Ha3 as [|? ? A3 _]; subst.
    constructor; apply first_fit_min; auto.
  - inversion Ha; subst; auto.
  - inversion Ha; subst; auto.
  - inversion Ha; subst; auto.
Qed.

(** Covering needs no order. *)
Lemma choose_covers : forall cfg x y z e,
  choose cfg x y z = inr e -> x <= DIM_X e /\ y <= DIM_Y e /\ z <= DIM_Z e.
Proof.
  intros cfg x y z e H.
  assert (G1 : forall l, select_1d (exn + extent) inl inr l x y z = inr e -> x <= DIM_X e /\ y <= DIM_Y e /\ z <= DIM_Z e).
  { intros l Hs. apply select_1d_inv in Hs. destruct Hs as [-> [-> [s [Hs ->]]]].
    apply first_fit_In in Hs. simpl. lia. }
  assert (G2 : forall l, select_2d (exn + extent) inl inr l x y z = inr e -> x <= DIM_X e /\ y <= DIM_Y e /\ z <= DIM_Z e).
  { intros l Hs. apply select_2d_inv in Hs. destruct Hs as [-> [s [Hs ->]]].
    apply first_fit_In in Hs. simpl. lia. }
  assert (G3 : forall l, select_3d (exn + extent) inl inr l x y z = inr e -> x <= DIM_X e /\ y <= DIM_Y e /\ z <= DIM_Z e).
  { intros l Hs. apply select_3d_inv in Hs. destruct Hs as [s [Hs ->]].
    apply first_fit_In in Hs. unfold max3 in Hs. simpl. lia. }
  destruct cfg as [|xs ys zs|l|l|l]; eauto.
  - destruct (choose_default_cases x y z) as [[_ [_ E]]|[[_ [_ E]]|[_ E]]]; rewrite E in H; eauto.
  - apply choose_custom_inv in H. destruct H as [sx [sy [sz [-> [Hx [Hy Hz]]]]]].
    apply first_fit_In in Hx, Hy, Hz. simpl. lia.
Qed.

(** *** C11 *)
Lemma minimal_ex : forall d l, (exists t, In t l /\ d <= t) -> exists s, first_fit d l s.
Proof.
  intros d l [t [Hin Ht]]. destruct (fit_or_not d l) as [H|H]; auto.
  unfold no_fit in H. rewrite Forall_forall in H. apply H in Hin. lia.
Qed.

Definition supported (cfg : sizes_cfg) (x y z : Z) : Prop :=
  let fits d l := exists t, In t l /\ d <= t in
  match cfg with
  | Custom xs ys zs => fits x xs /\ fits y ys /\ fits z zs
  | Uniform1D l => y = 1 /\ z = 1 /\ fits x l
  | Uniform2D l => z = 1 /\ fits x l /\ fits y l
  | Uniform3D l => fits x l /\ fits y l /\ fits z l
  | Default =>
      (1 < y /\ 1 < z /\ x <= 1032 /\ y <= 1032 /\ z <= 1032) \/
      (1 < y /\ z = 1 /\ x <= 32800 /\ y <= 32800) \/
      (y = 1 /\ z = 1 /\ x <= 1073741856)
  end.

Lemma fits_max : forall x y l,
  (exists t, In t l /\ Z.max x y <= t) <-> (exists t, In t l /\ x <= t) /\ (exists t, In t l /\ y <= t).
Proof.
  intros x y l. split.
  - intros [t [Hin H]]. split; exists t; split; auto; lia.
  - intros [[t [Hin H]] [u [Hin' H']]]. destruct (Z.max_spec x y) as [[_ E]|[_ E]]; rewrite E; eauto.
Qed.

Lemma fits_max_elem : forall d l m, In m l -> Forall (fun t => t <= m) l -> ((exists t, In t l /\ d <= t) <-> d <= m).
Proof.
  intros d l m Hin Hf. rewrite Forall_forall in Hf. split.
  - intros [t [Ht H]]. apply Hf in Ht. lia.
  - eauto.
Qed.

Lemma ex_fit_iff : forall d l, (exists s, first_fit d l s) <-> (exists t, In t l /\ d <= t).
Proof.
  intros d l. split; [|apply minimal_ex]. intros [s H]. apply first_fit_In in H. eauto.
Qed.

Lemma sel1_supported : forall l x y z,
  (exists e, select_1d (exn + extent) inl inr l x y z = inr e) <-> supported (Uniform1D l) x y z.
Proof.
  intros l x y z. simpl. rewrite <- ex_fit_iff. split.
  - intros [e H]. apply select_1d_inv in H. destruct H as [? [? [s [H _]]]]. eauto.
  - intros [-> [-> [s H]]]. exists (mkExt s 1 1). apply select_1d_inv. eauto.
Qed.

Lemma sel2_supported : forall l x y z,
  (exists e, select_2d (exn + extent) inl inr l x y z = inr e) <-> supported (Uniform2D l) x y z.
Proof.
  intros l x y z. simpl. rewrite <- fits_max, <- ex_fit_iff. split.
  - intros [e H]. apply select_2d_inv in H. destruct H as [? [s [H _]]]. eauto.
  - intros [-> [s H]]. exists (mkExt s s 1). apply select_2d_inv. eauto.
Qed.

Lemma sel3_supported : forall l x y z,
  (exists e, select_3d (exn + extent) inl inr l x y z = inr e) <-> supported (Uniform3D l) x y z.
Proof.
  intros l x y z. simpl. rewrite <- (fits_max y z), <- (fits_max x), <- ex_fit_iff. split.
  - intros [e H]. apply select_3d_inv in H. destruct H as [s [H _]]. eauto.
  - intros [s H]. exists (mkExt s s s). apply select_3d_inv. eauto.
Qed.

Lemma choose_supported : forall cfg x y z,
  (exists e, choose cfg x y z = inr e) <-> supported cfg x y z.
Proof.
  intros cfg x y z. destruct cfg as [|xs ys zs|l|l|l].
  - simpl supported.
    assert (F1 : forall d, (exists t, In t default_1d_sizes /\ d <= t) <-> d <= 1073741856)
      by (intros; apply fits_max_elem; [cbn; tauto|repeat constructor; lia]).
    assert (F2 : forall d, (exists t, In t default_2d_sizes /\ d <= t) <-> d <= 32800)
      by (intros; apply fits_max_elem; [cbn; tauto|repeat constructor; lia]).
    assert (F3 : forall d, (exists t, In t default_3d_sizes /\ d <= t) <-> d <= 1032)
      by (intros; apply fits_max_elem; [cbn; tauto|repeat constructor; lia]).
    destruct (choose_default_cases x y z) as [[Hy [Hz E]]|[[Hy [Hz E]]|[Hy E]]]; rewrite E.
    + rewrite sel3_supported. cbn [supported]. rewrite !F3. lia.
    + rewrite sel2_supported. cbn [supported]. rewrite !F2. lia.
    + rewrite sel1_supported. cbn [supported]. rewrite !F1. lia.
  - simpl supported. rewrite <- !ex_fit_iff. split.
    + intros [e H]. apply choose_custom_inv in H. destruct H as [sx [sy [sz [_ [Hx [Hy Hz]]]]]].
      split; [|split]; eauto.
    + intros [[sx Hx] [[sy Hy] [sz Hz]]]. exists (mkExt sx sy sz). apply choose_custom_inv. eauto 8.
  - apply sel1_supported.
  - apply sel2_supported.
  - apply sel3_supported.
Qed.

Lemma choose_error : forall cfg x y z er, choose cfg x y z = inl er -> er = OutOfRange.
Proof.
  intros cfg x y z er.
  assert (CC : forall d l (k : Z -> exn + extent), (forall s, k s = inl er -> er = OutOfRange) ->
     case_chain d l k (inl OutOfRange) = inl er -> er = OutOfRange).
  { intros d l k Hk. induction l as [|s r IH]; simpl; [congruence|]. destruct (d <=? s); eauto. }
  assert (C1 : forall l, select_1d (exn + extent) inl inr l x y z = inl er -> er = OutOfRange).
  { intros l. unfold select_1d. destruct (negb (y =? 1)); [congruence|]. destruct (negb (z =? 1)); [congruence|].
    apply CC. congruence. }
  assert (C2 : forall l, select_2d (exn + extent) inl inr l x y z = inl er -> er = OutOfRange).
  { intros l. unfold select_2d. destruct (negb (z =? 1)); [congruence|]. apply CC. congruence. }
  assert (C3 : forall l, select_3d (exn + extent) inl inr l x y z = inl er -> er = OutOfRange).
  { intros l. unfold select_3d. apply CC. congruence. }
  destruct cfg as [|xs ys zs|l|l|l]; unfold choose, select_sizes; eauto.
  - destruct ((1 <? y) && (1 <? z)); eauto. destruct (1 <? y); eauto.
  - apply CC. intros sx. apply CC. intros sy. apply CC. congruence.
Qed.

(** *** C12 *)
Lemma case_chain_ext : forall (R : Type) d d' l (k : Z -> R) fall,
  Forall (fun s => d <= s <-> d' <= s) l -> case_chain d l k fall = case_chain d' l k fall.
Proof.
  intros R d d' l k fall H. induction H as [|s r Hs H IH]; simpl; auto.
  rewrite IH. destruct (Z.leb_spec d s); destruct (Z.leb_spec d' s); auto; lia.
Qed.

Definition positive_1d (cfg : sizes_cfg) : Prop :=
  match cfg with Uniform1D l => Forall (fun s => 1 <= s) l | _ => True end.

Lemma choose_const_eq : forall cfg x y z,
  positive_1d cfg -> choose_const cfg x y z = choose cfg x y z.
Proof.
  intros cfg x y z H.
  assert (G : forall l, Forall (fun s => 1 <= s) l ->
    select_1d_const (exn + extent) inl inr l x y z = select_1d (exn + extent) inl inr l x y z).
  { intros l Hl. unfold select_1d_const, select_1d. destruct (negb (y =? 1)); auto.
    destruct (Z.eqb_spec z 1); auto. subst z. simpl. apply case_chain_ext.
    eapply Forall_impl; [|exact Hl]. intros s Hs. simpl in Hs. lia. }
  destruct cfg as [|xs ys zs|l|l|l]; unfold choose_const, choose, select_sizes_const, select_sizes; auto.
  rewrite G; auto. repeat constructor; lia.
Qed.

(** *** C13 *)
Lemma default_shape : forall x y z e,
  choose Default x y z = inr e ->
  (1 < y /\ 1 < z /\ DIM_X e = DIM_Y e /\ DIM_Y e = DIM_Z e /\ In (DIM_X e) default_3d_sizes) \/
  (1 < y /\ z = 1 /\ DIM_X e = DIM_Y e /\ DIM_Z e = 1 /\ In (DIM_X e) default_2d_sizes) \/
  (y = 1 /\ z = 1 /\ DIM_Y e = 1 /\ DIM_Z e = 1 /\ In (DIM_X e) default_1d_sizes).
Proof.
  intros x y z e H. destruct (choose_default_cases x y z) as [[Hy [Hz E]]|[[Hy [Hz E]]|[Hy E]]]; rewrite E in H.
  - left. apply select_3d_inv in H. destruct H as [s [Hs ->]]. apply first_fit_In in Hs. simpl. tauto.
  - right; left. apply select_2d_inv in H. destruct H as [-> [s [Hs ->]]]. apply first_fit_In in Hs. simpl. tauto.
  - right; right. apply select_1d_inv in H. destruct H as [-> [-> [s [Hs ->]]]]. apply first_fit_In in Hs. simpl. tauto.
Qed.

Lemma default_aligned : forall x y z e,
  choose Default x y z = inr e -> (32 | DIM_PROD e) /\ 0 < DIM_PROD e.
Proof.
  intros x y z e H. apply default_shape in H. unfold DIM_PROD.
  assert (D1 : forall s, In s default_1d_sizes -> (32 | s) /\ 0 < s).
  { assert (F : Forall (fun s => s mod 32 = 0 /\ 0 < s) default_1d_sizes) by (repeat constructor).
    intros s Hs. rewrite Forall_forall in F. apply F in Hs. split; [apply Z.mod_divide; lia|lia]. }
  assert (D2 : forall s, In s default_2d_sizes -> (32 | s) /\ 0 < s).
  { assert (F : Forall (fun s => s mod 32 = 0 /\ 0 < s) default_2d_sizes) by (repeat constructor).
    intros s Hs. rewrite Forall_forall in F. apply F in Hs. split; [apply Z.mod_divide; lia|lia]. }
  assert (D3 : forall s, In s default_3d_sizes -> (8 | s) /\ 0 < s).
  { assert (F : Forall (fun s => s mod 8 = 0 /\ 0 < s) default_3d_sizes) by (repeat constructor).
    intros s Hs. rewrite Forall_forall in F. apply F in Hs. split; [apply Z.mod_divide; lia|lia]. }
  destruct H as [[_ [_ [E1 [E2 Hin]]]]|[[_ [_ [E1 [E2 Hin]]]]|[_ [_ [E1 [E2 Hin]]]]]].
  - rewrite <- E2, <- E1. destruct (D3 _ Hin) as [[q Hq] Hp]. rewrite Hq in *. split.
    + exists (q * q * q * 16). ring.
    + repeat apply Z.mul_pos_pos; lia.
  - rewrite E2, <- E1. destruct (D2 _ Hin) as [Hd Hp]. rewrite Z.mul_1_r. split; [apply Z.divide_mul_l; auto|nia].
  - rewrite E1, E2, !Z.mul_1_r. apply D1; auto.
Qed.
