(** Proofs about cuda_array: it refines SpecCudaArray.v. *)
From Coq Require Import ZArith List Lia Bool Permutation.
From Verif Require Import Base Cuda CudaProofs CudaArray SpecCudaArray.
Import ListNotations.
Local Open Scope nat_scope.

(** ** Invariant *)
Definition wf_dev {A : Type} (d : dev A) : Prop := forall b, d_blk d b <> None -> b < d_next d.
Definition arep {A : Type} (d : dev A) (a : carr) (x : aarr A) : Prop :=
  c_size a = length (aa_list x) /\ c_cap a = aa_cap x /\ c_size a <= c_cap a /\
  match c_ptr a with
  | None => c_cap a = 0
  | Some b => exists l, d_blk d b = Some l /\ length l = c_cap a /\ Forall2 seen (aa_list x) (firstn (c_size a) l)
  end.
Record cinv {A : Type} (W : cworld A) (X : aworld A) : Prop := {
  ci_wf : wf_dev (cw_dev W);
  ci_rep : forall id, match cw_arr W id, X id with
                      | None, None => True | Some a, Some x => arep (cw_dev W) a x | _, _ => False end;
  ci_sep : forall i j a a' b, cw_arr W i = Some a -> cw_arr W j = Some a' -> c_ptr a = Some b -> c_ptr a' = Some b -> i = j;
  ci_own : forall b, d_blk (cw_dev W) b <> None -> exists id a, cw_arr W id = Some a /\ c_ptr a = Some b }.

Definition eff {A : Type} (d : dev A) (old : dptr) (d' : dev A) (new : dptr) : Prop :=
  d_next d <= d_next d' /\
  (forall b, Some b <> old -> Some b <> new -> d_blk d' b = d_blk d b) /\
  (forall b, new = Some b -> b < d_next d' /\ (old = Some b \/ d_next d <= b)) /\
  (forall b, old = Some b -> new <> Some b -> d_blk d' b = None).

Definition ptr_of (a : option carr) : dptr := match a with None => None | Some a => c_ptr a end.

Lemma cinv_update : forall (A : Type) (W : cworld A) X id d' na x',
  cinv W X -> eff (cw_dev W) (ptr_of (cw_arr W id)) d' (ptr_of na) ->
  match na, x' with None, None => True | Some a, Some x => arep d' a x | _, _ => False end ->
  cinv (cw_set W d' id na) (aset X id x').
Proof.
  intros A W X id d' na x' I [E1 [E2 [E3 E4]]] HR. destruct I as [Iw Ir Is Io].
  assert (OTHER : forall i a b, i <> id -> cw_arr W i = Some a -> c_ptr a = Some b ->
     b < d_next (cw_dev W) /\ Some b <> ptr_of (cw_arr W id) /\ Some b <> ptr_of na).
  { intros i a b Hi Ha Hb. pose proof (Ir i) as R. rewrite Ha in R. destruct (X i) as [x|]; [|contradiction].
    destruct R as [_ [_ [_ R]]]. rewrite Hb in R. destruct R as [l [Hl _]].
    assert (LT : b < d_next (cw_dev W)) by (apply Iw; congruence). split; auto.
    assert (NO : Some b <> ptr_of (cw_arr W id)).
    { intros C. destruct (cw_arr W id) as [a'|] eqn:Ea; [|discriminate]. cbn in C. apply Hi. apply (Is i id a a' b); auto. }
    split; auto. intros C. destruct (E3 b (eq_sym C)) as [_ [C1|C1]]; [congruence|lia]. }
  constructor.
  - intros b Hb. cbn [cw_set cw_dev] in *. destruct na as [a|].
    + destruct (c_ptr a) as [bn|] eqn:Ep.
      * destruct (Nat.eq_dec b bn) as [->|Hn]; [apply (E3 bn); cbn; auto|].
        destruct (ptr_of (cw_arr W id)) as [bo|] eqn:Eo.
        -- destruct (Nat.eq_dec b bo) as [->|Hn']; [exfalso; apply Hb; apply E4; cbn; congruence|].
           rewrite E2 in Hb by (cbn; congruence). apply Iw in Hb. lia.
        -- rewrite E2 in Hb by (cbn; congruence). apply Iw in Hb. lia.
      * destruct (ptr_of (cw_arr W id)) as [bo|] eqn:Eo.
        -- destruct (Nat.eq_dec b bo) as [->|Hn']; [exfalso; apply Hb; apply E4; cbn; congruence|].
           rewrite E2 in Hb by (cbn; congruence). apply Iw in Hb. lia.
        -- rewrite E2 in Hb by (cbn; congruence). apply Iw in Hb. lia.
    + destruct (ptr_of (cw_arr W id)) as [bo|] eqn:Eo.
      * destruct (Nat.eq_dec b bo) as [->|Hn']; [exfalso; apply Hb; apply E4; cbn; congruence|].
        rewrite E2 in Hb by (cbn; congruence). apply Iw in Hb. lia.
      * rewrite E2 in Hb by (cbn; congruence). apply Iw in Hb. lia.
  - intros i. cbn [cw_set cw_arr cw_dev]. unfold aset. destruct (Nat.eqb_spec i id) as [->|Hi]; [destruct na, x'; auto|].
    pose proof (Ir i) as R. destruct (cw_arr W i) as [a|] eqn:Ea, (X i) as [x|]; auto.
    destruct R as [R1 [R2 [R3 R4]]]. repeat split; auto. destruct (c_ptr a) as [b|] eqn:Eb; auto.
    destruct (OTHER i a b Hi Ea Eb) as [_ [N1 N2]]. rewrite E2; auto.
  - intros i j a a' b. cbn [cw_set cw_arr]. destruct (Nat.eqb_spec i id) as [->|Hi], (Nat.eqb_spec j id) as [->|Hj]; auto.
    + intros -> H1 H2 H3. destruct (OTHER j a' b Hj H1 H3) as [_ [_ N]]. cbn in N. congruence.
    + intros H1 -> H2 H3. destruct (OTHER i a b Hi H1 H2) as [_ [_ N]]. cbn in N. congruence.
    + intros H1 H2 H3 H4. apply (Is i j a a' b); auto.
  - intros b. cbn [cw_set cw_arr cw_dev]. intros Hb.
    destruct (ptr_of na) as [bn|] eqn:En.
    + destruct (Nat.eq_dec b bn) as [->|Hn].
      { destruct na as [a|]; [|discriminate]. exists id, a. rewrite Nat.eqb_refl. auto. }
      assert (Hold : Some b <> ptr_of (cw_arr W id)) by (intros C; apply Hb; apply E4; congruence).
      rewrite E2 in Hb by congruence. destruct (Io b Hb) as [i [a [H1 H2]]]. exists i, a. split; auto.
      destruct (Nat.eqb_spec i id) as [->|Hi]; auto. exfalso. apply Hold. rewrite H1. cbn. auto.
    + assert (Hold : Some b <> ptr_of (cw_arr W id)) by (intros C; apply Hb; apply E4; congruence).
      rewrite E2 in Hb by congruence. destruct (Io b Hb) as [i [a [H1 H2]]]. exists i, a. split; auto.
      destruct (Nat.eqb_spec i id) as [->|Hi]; auto. exfalso. apply Hold. rewrite H1. cbn. auto.
Qed.

(** ** Primitives *)
(** [d'] is [d] with block [b] replaced. *)
Definition rebl {A : Type} (d : dev A) (b : nat) (l : list (option A)) (d' : dev A) : Prop :=
  d_next d' = d_next d /\ d_blk d' b = Some l /\ forall b', b' <> b -> d_blk d' b' = d_blk d b'.

Lemma set_blk_rebl : forall (A : Type) (d : dev A) b l, rebl d b l (set_blk d b (Some l)).
Proof.
  intros A d b l. unfold set_blk, rebl. cbn. rewrite Nat.eqb_refl. split; auto. split; auto. intros b' Hb.
  destruct (Nat.eqb_spec b' b); congruence.
Qed.
Lemma rebl_refl : forall (A : Type) (d : dev A) b l, d_blk d b = Some l -> rebl d b l d.
Proof. intros A d b l H. split; auto. Qed.
Lemma rebl_trans : forall (A : Type) (d d1 d2 : dev A) b l1 l2, rebl d b l1 d1 -> rebl d1 b l2 d2 -> rebl d b l2 d2.
Proof. intros A d d1 d2 b l1 l2 [N1 [B1 O1]] [N2 [B2 O2]]. split; [congruence|]. split; auto. intros b' Hb. rewrite O2, O1; auto. Qed.

Definition splice {A : Type} (l : list A) (i : nat) (xs : list A) : list A := firstn i l ++ xs ++ skipn (i + length xs) l.
Lemma splice_nil : forall (A : Type) (l : list A) i, splice l i [] = l.
Proof. intros. unfold splice. cbn. rewrite Nat.add_0_r. apply firstn_skipn. Qed.
Lemma length_splice : forall (A : Type) (l : list A) i xs, i + length xs <= length l -> length (splice l i xs) = length l.
Proof. intros. unfold splice. rewrite !app_length, firstn_length, skipn_length. lia. Qed.
Lemma nth_error_splice : forall (A : Type) (l : list A) i xs n, i + length xs <= length l ->
  nth_error (splice l i xs) n = if (i <=? n) && (n <? i + length xs) then nth_error xs (n - i) else nth_error l n.
Proof.
  intros A l i xs n H. unfold splice. destruct (Nat.leb_spec i n) as [H1|H1].
  - rewrite nth_error_app2 by (rewrite firstn_length; lia). rewrite firstn_length, Nat.min_l by lia.
    destruct (Nat.ltb_spec n (i + length xs)) as [H2|H2]; cbn [andb].
    + apply nth_error_app1. lia.
    + rewrite nth_error_app2 by lia. rewrite nth_error_skip. f_equal. lia.
  - cbn [andb]. rewrite nth_error_app1 by (rewrite firstn_length; lia). revert i H1 H. revert n. clear. intros n i H1 _. revert l i H1. induction n as [|n IH]; intros [|a l] [|i] H1; cbn; auto; try lia.
    apply IH. lia.
Qed.

Lemma to_device_ok : forall (A : Type) (d : dev A) b l i xs, d_blk d b = Some l -> i + length xs <= length l ->
  exists d', copy_to_device d (Some b) i xs = COk d' /\ rebl d b (splice l i xs) d'.
Proof.
  intros A d b l i xs Hb Hl. unfold copy_to_device. destruct (Nat.eqb_spec (length xs) 0) as [E|E].
  - destruct xs; [|discriminate]. exists d. split; auto. rewrite splice_nil. apply rebl_refl; auto.
  - rewrite Hb. destruct (Nat.leb_spec (i + length xs) (length l)); [|lia]. eexists. split; [reflexivity|]. apply set_blk_rebl.
Qed.
Lemma splice_snoc : forall (A : Type) (l : list A) i xs ys, i + length xs + length ys <= length l ->
  splice (splice l i xs) (i + length xs) ys = splice l i (xs ++ ys).
Proof.
  intros A l i xs ys H. apply list_ext. intros n.
  rewrite !nth_error_splice; rewrite ?length_splice, ?app_length; try lia.
  destruct (Nat.leb_spec (i + length xs) n), (Nat.leb_spec i n), (Nat.ltb_spec n (i + length xs)), (Nat.ltb_spec n (i + length xs + length ys)),
    (Nat.ltb_spec n (i + (length xs + length ys))); cbn [andb]; try lia; auto.
  - rewrite nth_error_app2 by lia. f_equal. lia.
  - rewrite nth_error_app1 by lia. auto.
Qed.
Lemma fill_from_ok : forall (A : Type) n (d : dev A) b l i v, d_blk d b = Some l -> i + n <= length l ->
  exists d', fill_from d (Some b) i n v = COk d' /\ rebl d b (splice l i (repeat (Some v) n)) d'.
Proof.
  intros A n. induction n as [|n IH]; intros d b l i v Hb Hl.
  - exists d. split; auto. cbn [repeat]. rewrite splice_nil. apply rebl_refl; auto.
  - cbn [fill_from]. destruct (to_device_ok A d b l i [Some v] Hb) as [d1 [-> R1]]; [cbn; lia|]. cbn [cbind].
    destruct (IH d1 b (splice l i [Some v]) (S i) v) as [d2 [-> R2]]; [apply R1|rewrite length_splice by (cbn; lia); lia|].
    exists d2. split; auto. eapply rebl_trans; eauto.
    replace (S i) with (i + length [Some v]) in R2 by (cbn; lia). rewrite splice_snoc in R2 by (cbn; rewrite repeat_length; lia). exact R2.
Qed.
Lemma fill_opt_ok : forall (A : Type) n (d : dev A) b l i v, d_blk d b = Some l -> i + n <= length l ->
  exists d' m, fill_opt d (Some b) i n v = COk d' /\ rebl d b (splice l i m) d' /\ length m <= n /\
    (forall k, k < n -> match v with None => True | Some v => nth_error m k = Some (Some v) end).
Proof.
  intros A n d b l i [v|] Hb Hl; cbn [fill_opt].
  - destruct (fill_from_ok A n d b l i v Hb Hl) as [d' [E R]]. exists d', (repeat (Some v) n). split; auto. split; auto.
    rewrite repeat_length. split; auto. intros k Hk. apply nth_error_repeat; auto.
  - exists d, []. split; auto. rewrite splice_nil. split; [apply rebl_refl; auto|]. cbn. split; [lia|auto].
Qed.
Lemma fill_none : forall (A : Type) (d : dev A) p i v, fill_opt d p i 0 v = COk d.
Proof. intros A d p i [v|]; reflexivity. Qed.

(** Pointwise forms. *)
Lemma seen_pointwise : forall (A : Type) (x l : list (option A)),
  Forall2 seen x l <-> length x = length l /\ forall n v, nth_error x n = Some (Some v) -> nth_error l n = Some (Some v).
Proof.
  intros A x. induction x as [|a x IH]; intros [|b l]; split; intros H.
  - split; auto.
  - constructor.
  - inversion H.
  - destruct H. discriminate.
  - inversion H.
  - destruct H. discriminate.
  - inversion H as [|? ? ? ? H1 H2]; subst. apply IH in H2. destruct H2 as [H2 H3]. split; [cbn; auto|].
    intros [|n] v Hn; cbn in *; auto. destruct H1 as [->| ->]; congruence.
  - destruct H as [H1 H2]. constructor.
    + destruct a as [v|]; [right|left; auto]. specialize (H2 0 v eq_refl). cbn in H2. congruence.
    + apply IH. cbn in H1. split; [lia|]. intros n v Hn. exact (H2 (S n) v Hn).
Qed.
Lemma nth_error_firstn_lt : forall (A : Type) (l : list A) n k, k < n -> nth_error (firstn n l) k = nth_error l k.
Proof. intros A l n. revert l. induction n as [|n IH]; intros [|a l] [|k] H; cbn; auto; try lia. apply IH. lia. Qed.
Lemma seen_firstn : forall (A : Type) (x l : list (option A)), length x <= length l ->
  Forall2 seen x (firstn (length x) l) <-> forall n v, nth_error x n = Some (Some v) -> nth_error l n = Some (Some v).
Proof.
  intros A x l Hl. rewrite seen_pointwise, firstn_length, Nat.min_l by auto. split.
  - intros [_ H] n v Hn. assert (n < length x) by (apply nth_error_Some; congruence).
    rewrite <- (nth_error_firstn_lt _ l (length x)) by auto. auto.
  - intros H. split; auto. intros n v Hn. assert (n < length x) by (apply nth_error_Some; congruence).
    rewrite nth_error_firstn_lt by auto. auto.
Qed.

Lemma arep_make : forall (A : Type) (d : dev A) n cap b l x,
  n = length x -> n <= cap -> d_blk d b = Some l -> length l = cap ->
  (forall k v, nth_error x k = Some (Some v) -> nth_error l k = Some (Some v)) ->
  arep d (mkCarr n cap (Some b)) (mkAA x cap).
Proof.
  intros A d n cap b l x -> H1 H2 H3 H4. unfold arep. cbn [c_size c_cap c_ptr aa_list aa_cap]. repeat split; auto.
  exists l. repeat split; auto. apply seen_firstn; auto. lia.
Qed.
Lemma arep_elim : forall (A : Type) (d : dev A) a x b, arep d a x -> c_ptr a = Some b ->
  exists l, d_blk d b = Some l /\ length l = c_cap a /\ c_size a = length (aa_list x) /\ c_size a <= c_cap a /\ c_cap a = aa_cap x /\
    forall k v, nth_error (aa_list x) k = Some (Some v) -> nth_error l k = Some (Some v).
Proof.
  intros A d a x b [H1 [H2 [H3 H4]]] Hp. rewrite Hp in H4. destruct H4 as [l [L1 [L2 L3]]]. exists l. repeat split; auto.
  rewrite H1 in L3. apply seen_firstn; auto. lia.
Qed.
Lemma arep_null : forall (A : Type) (d : dev A) a x, arep d a x -> c_ptr a = None -> c_size a = 0 /\ c_cap a = 0 /\ aa_list x = [] /\ aa_cap x = 0.
Proof.
  intros A d a x [H1 [H2 [H3 H4]]] Hp. rewrite Hp in H4. assert (length (aa_list x) = 0) by lia.
  destruct (aa_list x); [|discriminate]. repeat split; auto; lia.
Qed.
Lemma null_arep : forall (A : Type) (d : dev A), arep d (mkCarr 0 0 None) (mkAA [] 0).
Proof. intros. repeat split; auto. Qed.

(** allocate: the block, and the effect. *)
Lemma alloc_pos : forall (A : Type) (d : dev A) n, 0 < n -> exists d1, allocate d n = (d1, Some (d_next d)) /\
  d_next d1 = S (d_next d) /\ d_blk d1 (d_next d) = Some (repeat None n) /\ forall b, b <> d_next d -> d_blk d1 b = d_blk d b.
Proof.
  intros A d n Hn. unfold allocate. destruct (Nat.eqb_spec n 0); [lia|]. eexists. split; [reflexivity|]. cbn. rewrite Nat.eqb_refl.
  split; auto. split; auto. intros b Hb. destruct (Nat.eqb_spec b (d_next d)); congruence.
Qed.

Lemma copy_device_ok : forall (A : Type) (d : dev A) b l b' l' n, b <> b' -> d_blk d b = Some l -> d_blk d b' = Some l' -> n <= length l -> n <= length l' ->
  exists d', copy_device d (Some b) (Some b') n = COk d' /\ rebl d b (splice l 0 (firstn n l')) d'.
Proof.
  intros A d b l b' l' n Hne Hb Hb' Hn Hn'. unfold copy_device. destruct (Nat.eqb_spec n 0) as [->|Hz].
  - exists d. split; auto. cbn [firstn]. rewrite splice_nil. apply rebl_refl; auto.
  - destruct (Nat.eqb_spec b b'); [congruence|]. unfold copy_to_host. destruct (Nat.eqb_spec n 0); [lia|]. rewrite Hb'.
    destruct (Nat.leb_spec n (length l')); [|lia]. cbn [cbind]. apply to_device_ok; auto. rewrite firstn_length. lia.
Qed.

(** ** Operations *)
Lemma eff_same : forall (A : Type) (d : dev A) b l d', b < d_next d -> rebl d b l d' -> eff d (Some b) d' (Some b).
Proof.
  intros A d b l d' Hb [R1 [R2 R3]]. unfold eff. rewrite R1. split; [lia|]. split; [intros b' H _; apply R3; congruence|].
  split; [intros b' E; inversion E; subst; auto|]. intros b' E1 E2. congruence.
Qed.
Lemma eff_id : forall (A : Type) (d : dev A) p, (forall b, p = Some b -> b < d_next d) -> eff d p d p.
Proof. intros A d p Hp. unfold eff. split; auto. split; auto. split; [intros b E; auto|]. intros b E1 E2. congruence. Qed.

Lemma new_ok : forall (A : Type) (d : dev A) n, exists d' a, c_new d n = (d', a) /\ eff d None d' (c_ptr a) /\ arep d' a (mkAA (repeat None n) n).
Proof.
  intros A d n. unfold c_new. destruct n as [|n].
  - exists d, (mkCarr 0 0 None). split; auto. split; [apply eff_id; discriminate|apply null_arep].
  - destruct (alloc_pos A d (S n) ltac:(lia)) as [d1 [E [N1 [B1 O1]]]]. rewrite E. exists d1, (mkCarr (S n) (S n) (Some (d_next d))). split; auto. split.
    + unfold eff. rewrite N1. cbn [c_ptr]. split; [lia|]. split; [intros b _ H; apply O1; congruence|].
      split; [intros b X; inversion X; subst; lia|]. intros b X; discriminate.
    + apply arep_make with (l := repeat None (S n)); auto; rewrite ?repeat_length; auto.
Qed.

Lemma from_host_ok : forall (A : Type) (d : dev A) xs, exists d' a, c_from_host d xs = COk (d', a) /\ eff d None d' (c_ptr a) /\ arep d' a (mkAA (map Some xs) (length xs)).
Proof.
  intros A d xs. unfold c_from_host. destruct (length xs) as [|n] eqn:EL.
  - destruct xs; [|discriminate]. exists d, (mkCarr 0 0 None). split; auto. split; [apply eff_id; discriminate|apply null_arep].
  - destruct (alloc_pos A d (S n) ltac:(lia)) as [d1 [E [N1 [B1 O1]]]]. rewrite E.
    destruct (to_device_ok A d1 (d_next d) _ 0 (map Some xs) B1) as [d2 [E2 [N2 [B2 O2]]]]; [rewrite map_length, repeat_length; lia|].
    rewrite E2. cbn [cbind]. do 2 eexists. split; [reflexivity|]. cbn [c_ptr]. split.
    + unfold eff. rewrite N2, N1. split; [lia|]. split; [intros b _ H; rewrite O2, O1; congruence|].
      split; [intros b X; inversion X; subst; lia|]. intros b X; discriminate.
    + eapply arep_make; eauto; rewrite ?map_length; auto.
      * rewrite length_splice; rewrite ?map_length, ?repeat_length; lia.
      * intros k v Hk. rewrite nth_error_splice by (rewrite map_length, repeat_length; lia).
        assert (k < length (map Some xs)) by (apply nth_error_Some; congruence).
        destruct (Nat.ltb_spec k (0 + length (map (@Some A) xs))); [|lia]. cbn [Nat.leb andb]. rewrite Nat.sub_0_r. auto.
Qed.

Lemma copy_ok : forall (A : Type) (d : dev A) o x, wf_dev d -> arep d o x ->
  exists d' a, c_copy d o = COk (d', a) /\ eff d None d' (c_ptr a) /\ arep d' a (mkAA (aa_list x) (length (aa_list x))).
Proof.
  intros A d o x Hw R. unfold c_copy. pose proof R as [R1 _]. destruct (c_size o) as [|n] eqn:ES.
  - cbn [allocate Nat.eqb]. unfold copy_device. cbn [Nat.eqb cbind]. destruct (aa_list x); [|discriminate].
    do 2 eexists. split; [reflexivity|]. split; [apply eff_id; discriminate|apply null_arep].
  - destruct (c_ptr o) as [bo|] eqn:EP; [|destruct (arep_null _ _ _ _ R EP); lia].
    destruct (arep_elim _ _ _ _ _ R EP) as [l [L1 [L2 [L3 [L4 [L5 L6]]]]]].
    destruct (alloc_pos A d (S n) ltac:(lia)) as [d1 [E [N1 [B1 O1]]]]. rewrite E.
    assert (bo < d_next d) by (apply Hw; congruence).
    destruct (copy_device_ok A d1 (d_next d) (repeat None (S n)) bo l (S n)) as [d2 [E2 [N2 [B2 O2]]]]; auto; try lia.
    { rewrite O1 by lia. auto. } { rewrite repeat_length; auto. }
    rewrite E2. cbn [cbind]. do 2 eexists. split; [reflexivity|]. cbn [c_ptr]. split.
    + unfold eff. rewrite N2, N1. split; [lia|]. split; [intros b _ Hb; rewrite O2, O1; congruence|].
      split; [intros b X; inversion X; subst; lia|]. intros b X; discriminate.
    + rewrite <- R1. eapply arep_make; eauto.
      * rewrite length_splice; rewrite ?firstn_length, ?repeat_length; lia.
      * intros k v Hk. rewrite nth_error_splice by (rewrite firstn_length, repeat_length; lia).
        assert (k < length (aa_list x)) by (apply nth_error_Some; congruence). rewrite firstn_length, Nat.min_l by lia.
        destruct (Nat.ltb_spec k (0 + S n)); [|lia]. cbn [Nat.leb andb]. rewrite Nat.sub_0_r, nth_error_firstn_lt by lia. auto.
Qed.

Lemma dealloc_ok : forall (A : Type) (d : dev A) a x, arep d a x ->
  exists d', deallocate d (c_ptr a) = COk d' /\ d_next d' = d_next d /\
    (forall b, c_ptr a = Some b -> d_blk d' b = None) /\ forall b, c_ptr a <> Some b -> d_blk d' b = d_blk d b.
Proof.
  intros A d a x R. destruct (c_ptr a) as [b|] eqn:EP; cbn [deallocate].
  - destruct (arep_elim _ _ _ _ _ R EP) as [l [-> _]]. eexists. split; [reflexivity|]. cbn. split; auto. split.
    + intros b' E. inversion E. rewrite Nat.eqb_refl. auto.
    + intros b' Hb. destruct (Nat.eqb_spec b' b); congruence.
  - exists d. repeat split; auto. intros; discriminate.
Qed.
Lemma destroy_ok : forall (A : Type) (d : dev A) a x, arep d a x -> exists d', c_destroy d a = COk d' /\ eff d (c_ptr a) d' None.
Proof.
  intros A d a x R. unfold c_destroy. destruct (dealloc_ok A d a x R) as [d' [E [N [F O]]]]. exists d'. split; auto.
  unfold eff. rewrite N. split; auto. split; [intros b Hb _; apply O; congruence|]. split; [discriminate|]. intros b Hb _. auto.
Qed.

(** Moving to a bigger block: reserve and resize. *)
Lemma grow_ok : forall (A : Type) (d : dev A) a x n, wf_dev d -> arep d a x -> c_cap a < n ->
  exists d1 d2 d3 l, allocate d n = (d1, Some (d_next d)) /\ copy_device d1 (Some (d_next d)) (c_ptr a) (c_size a) = COk d2 /\
    deallocate d2 (c_ptr a) = COk d3 /\ eff d (c_ptr a) d3 (Some (d_next d)) /\ d_next d3 = S (d_next d) /\
    d_blk d3 (d_next d) = Some l /\ length l = n /\ (forall k v, nth_error (aa_list x) k = Some (Some v) -> nth_error l k = Some (Some v)).
Proof.
  intros A d a x n Hw R Hn. destruct (alloc_pos A d n ltac:(lia)) as [d1 [E [N1 [B1 O1]]]].
  exists d1. destruct (c_ptr a) as [bo|] eqn:EP.
  - destruct (arep_elim _ _ _ _ _ R EP) as [l [L1 [L2 [L3 [L4 [L5 L6]]]]]].
    assert (bo < d_next d) by (apply Hw; congruence).
    destruct (copy_device_ok A d1 (d_next d) (repeat None n) bo l (c_size a)) as [d2 [E2 [N2 [B2 O2]]]]; eauto; try lia.
    { rewrite O1 by lia. auto. } { rewrite repeat_length. lia. }
    exists d2. cbn [deallocate]. rewrite O2, O1, L1 by lia.
    exists (set_blk d2 bo None), (splice (repeat None n) 0 (firstn (c_size a) l)). repeat (split; [auto; fail|]).
    split; [|split; [|split; [|split]]].
    + unfold eff, set_blk. cbn. rewrite N2, N1. split; [lia|]. split.
      * intros b Hb Hb'. destruct (Nat.eqb_spec b bo); [congruence|]. rewrite O2, O1; congruence.
      * split; [intros b X; inversion X; subst; split; [lia|right; lia]|]. intros b X Y. inversion X. rewrite Nat.eqb_refl. auto.
    + cbn. congruence.
    + cbn. destruct (Nat.eqb_spec (d_next d) bo); [lia|]. auto.
    + rewrite length_splice; rewrite ?firstn_length, ?repeat_length; lia.
    + intros k v Hk. rewrite nth_error_splice by (rewrite firstn_length, repeat_length; lia).
      assert (k < length (aa_list x)) by (apply nth_error_Some; congruence). rewrite firstn_length, Nat.min_l by lia.
      destruct (Nat.ltb_spec k (0 + c_size a)); [|lia]. cbn [Nat.leb andb]. rewrite Nat.sub_0_r, nth_error_firstn_lt by lia. auto.
  - destruct (arep_null _ _ _ _ R EP) as [S0 [C0 [L0 _]]]. rewrite S0, L0. unfold copy_device. cbn [Nat.eqb deallocate].
    exists d1, d1, (repeat None n). repeat (split; [auto; fail|]). split; [|split; [auto|split; [auto|split]]].
    + unfold eff. rewrite N1. split; [lia|]. split; [intros b _ Hb; apply O1; congruence|]. split; [intros b X; inversion X; subst; lia|discriminate].
    + apply repeat_length.
    + intros [|k] v Hk; discriminate.
Qed.
Lemma eff_rebl : forall (A : Type) (d : dev A) old d1 b l d2, eff d old d1 (Some b) -> rebl d1 b l d2 -> eff d old d2 (Some b).
Proof.
  intros A d old d1 b l d2 [E1 [E2 [E3 E4]]] [R1 [R2 R3]]. unfold eff. rewrite R1. split; auto. split.
  - intros b' H1 H2. rewrite R3 by congruence. auto.
  - split; auto. intros b' H1 H2. rewrite R3 by congruence. auto.
Qed.

Lemma reserve_ok : forall (A : Type) (d : dev A) a x n, wf_dev d -> arep d a x ->
  exists d' a', c_reserve d a n = COk (d', a') /\ eff d (c_ptr a) d' (c_ptr a') /\ arep d' a' (mkAA (aa_list x) (Nat.max (aa_cap x) n)).
Proof.
  intros A d a x n Hw R. unfold c_reserve. pose proof R as [R1 [R2 [R3 R4]]]. destruct (Nat.leb_spec n (c_cap a)) as [H|H].
  - exists d, a. split; auto. split.
    + apply eff_id. intros b Hb. destruct (arep_elim _ _ _ _ _ R Hb) as [l [L1 _]]. apply Hw. congruence.
    + rewrite Nat.max_l by lia. destruct x; auto.
  - destruct (grow_ok A d a x n Hw R H) as [d1 [d2 [d3 [l [E1 [E2 [E3 [F [N3 [B3 [L3 V3]]]]]]]]]]].
    rewrite E1, E2. cbn [cbind]. rewrite E3. cbn [cbind]. do 2 eexists. split; [reflexivity|]. cbn [c_ptr]. split; auto.
    rewrite Nat.max_r by lia. eapply arep_make; eauto; lia.
Qed.

Lemma nth_error_resized : forall (A : Type) (l : list (option A)) n v k,
  nth_error (resized l n v) k = if k <? n then (if k <? length l then nth_error l k else Some v) else None.
Proof.
  intros A l n v k. unfold resized. destruct (Nat.ltb_spec k n) as [H|H].
  - destruct (Nat.ltb_spec k (length l)) as [H1|H1].
    + rewrite nth_error_app1 by (rewrite firstn_length; lia). apply nth_error_firstn_lt; auto.
    + rewrite nth_error_app2 by (rewrite firstn_length; lia). rewrite firstn_length. apply nth_error_repeat. lia.
  - apply nth_error_None. rewrite app_length, firstn_length, repeat_length. lia.
Qed.
Lemma length_resized : forall (A : Type) (l : list (option A)) n v, length (resized l n v) = n.
Proof. intros. unfold resized. rewrite app_length, firstn_length, repeat_length. lia. Qed.

Lemma resize_ok : forall (A : Type) (d : dev A) a x n v, wf_dev d -> arep d a x ->
  exists d' a', c_resize d a n v = COk (d', a') /\ eff d (c_ptr a) d' (c_ptr a') /\ arep d' a' (mkAA (resized (aa_list x) n v) (Nat.max (aa_cap x) n)).
Proof.
  intros A d a x n v Hw R. unfold c_resize. pose proof R as [R1 [R2 [R3 R4]]].
  assert (FILL : forall (d3 : dev A) b l cap, d_blk d3 b = Some l -> length l = cap -> n <= cap ->
     (forall k w, nth_error (aa_list x) k = Some (Some w) -> nth_error l k = Some (Some w)) ->
     exists d4, fill_opt d3 (Some b) (c_size a) (n - c_size a) v = COk d4 /\ (exists l', rebl d3 b l' d4) /\
       arep d4 (mkCarr n cap (Some b)) (mkAA (resized (aa_list x) n v) cap)).
  { intros d3 b l cap B L Hn V. destruct (le_lt_dec n (c_size a)) as [Hs|Hs].
    - replace (n - c_size a) with 0 by lia. rewrite fill_none. exists d3. split; auto. split; [exists l; apply rebl_refl; auto|].
      apply arep_make with (l := l); auto; rewrite ?length_resized; auto. intros k w Hk. rewrite nth_error_resized in Hk.
      destruct (Nat.ltb_spec k n); [|discriminate]. destruct (Nat.ltb_spec k (length (aa_list x))); [auto|lia].
    - destruct (fill_opt_ok A (n - c_size a) d3 b l (c_size a) v B ltac:(lia)) as [d4 [m [E [RB [Lm Vm]]]]]. exists d4. split; auto. split; [eauto|].
      apply arep_make with (l := splice l (c_size a) m); auto; rewrite ?length_resized; auto.
      + apply RB.
      + rewrite length_splice by lia. auto.
      + intros k w Hk. rewrite nth_error_resized in Hk. destruct (Nat.ltb_spec k n); [|discriminate]. rewrite nth_error_splice by lia.
        destruct (Nat.ltb_spec k (length (aa_list x))) as [H1|H1].
        * destruct (Nat.leb_spec (c_size a) k); [lia|]. cbn [andb]. auto.
        * inversion Hk; subst v. cbn in Vm. specialize (Vm (k - c_size a) ltac:(lia)).
          assert (k - c_size a < length m) by (apply nth_error_Some; congruence).
          destruct (Nat.leb_spec (c_size a) k); [|lia]. destruct (Nat.ltb_spec k (c_size a + length m)); [|lia]. cbn [andb]. auto. }
  destruct (Nat.leb_spec n (c_cap a)) as [H|H].
  - destruct (c_ptr a) as [b|] eqn:EP.
    + destruct (arep_elim _ _ _ _ _ R EP) as [l [L1 [L2 [L3 [L4 [L5 L6]]]]]].
      destruct (FILL d b l (c_cap a) L1 L2 H L6) as [d4 [E [[l' RB] RR]]]. rewrite E. cbn [cbind]. do 2 eexists. split; [reflexivity|]. cbn [c_ptr].
      split; [eapply eff_same; eauto; apply Hw; congruence|]. rewrite Nat.max_l by lia. rewrite <- R2. exact RR.
    + destruct (arep_null _ _ _ _ R EP) as [S0 [C0 [X0 A0]]]. assert (n = 0) as -> by lia.
      rewrite S0. rewrite fill_none. cbn [cbind]. do 2 eexists. split; [reflexivity|]. cbn [c_ptr]. split; [apply eff_id; discriminate|].
      rewrite X0, A0, C0. apply null_arep.
  - destruct (grow_ok A d a x n Hw R H) as [d1 [d2 [d3 [l [E1 [E2 [E3 [F [N3 [B3 [L3 V3]]]]]]]]]]].
    rewrite E1, E2. cbn [cbind]. rewrite E3. cbn [cbind].
    destruct (FILL d3 (d_next d) l n B3 L3 ltac:(lia) V3) as [d4 [E [[l' RB] RR]]]. rewrite E. cbn [cbind]. do 2 eexists. split; [reflexivity|]. cbn [c_ptr].
    split; [eapply eff_rebl; eauto|]. rewrite Nat.max_r by lia. exact RR.
Qed.

Lemma assign_ok : forall (A : Type) (d : dev A) a x o y, wf_dev d -> arep d a x -> arep d o y ->
  (forall b, c_ptr a = Some b -> c_ptr o <> Some b) ->
  exists d' a', c_assign d a o = COk (d', a') /\ eff d (c_ptr a) d' (c_ptr a') /\ arep d' a' (mkAA (aa_list y) (Nat.max (aa_cap x) (length (aa_list y)))).
Proof.
  intros A d a x o y Hw Ra Ro Hne. unfold c_assign. pose proof Ra as [R1 [R2 [R3 R4]]]. pose proof Ro as [Q1 [Q2 [Q3 Q4]]].
  assert (COPY : forall (d3 : dev A) b l cap, d_blk d3 b = Some l -> length l = cap -> c_size o <= cap -> c_ptr o <> Some b ->
     (forall bo, c_ptr o = Some bo -> d_blk d3 bo = d_blk d bo) ->
     exists d4, copy_device d3 (Some b) (c_ptr o) (c_size o) = COk d4 /\ (exists l', rebl d3 b l' d4) /\
       arep d4 (mkCarr (c_size o) cap (Some b)) (mkAA (aa_list y) cap)).
  { intros d3 b l cap B L Hn Hb Hsame. destruct (c_ptr o) as [bo|] eqn:EP.
    - destruct (arep_elim _ _ _ _ _ Ro EP) as [lo [L1 [L2 [L3 [L4 [L5 L6]]]]]].
      destruct (copy_device_ok A d3 b l bo lo (c_size o)) as [d4 [E RB]]; auto; try lia; try congruence. { rewrite Hsame; auto. }
      exists d4. split; auto. split; [eauto|]. apply arep_make with (l := splice l 0 (firstn (c_size o) lo)); auto.
      + apply RB.
      + rewrite length_splice; rewrite ?firstn_length; lia.
      + intros k v Hk. rewrite nth_error_splice by (rewrite firstn_length; lia).
        assert (k < length (aa_list y)) by (apply nth_error_Some; congruence). rewrite firstn_length, Nat.min_l by lia.
        destruct (Nat.ltb_spec k (0 + c_size o)); [|lia]. cbn [Nat.leb andb]. rewrite Nat.sub_0_r, nth_error_firstn_lt by lia. auto.
    - destruct (arep_null _ _ _ _ Ro EP) as [S0 [C0 [X0 A0]]]. rewrite S0. unfold copy_device. cbn [Nat.eqb]. exists d3. split; auto.
      split; [exists l; apply rebl_refl; auto|]. apply arep_make with (l := l); auto; rewrite ?X0; auto; try lia. intros [|k] v Hk; discriminate. }
  destruct (Nat.ltb_spec (c_cap a) (c_size o)) as [H|H].
  - destruct (dealloc_ok A d a x Ra) as [d1 [E1 [N1 [F1 O1]]]]. rewrite E1. cbn [cbind].
    destruct (alloc_pos A d1 (c_size o) ltac:(lia)) as [d2 [E2 [N2 [B2 O2]]]]. rewrite E2. cbn [cbind c_ptr c_cap].
    assert (PO : forall bo, c_ptr o = Some bo -> bo < d_next d /\ c_ptr a <> Some bo).
    { intros bo Hbo. split; [|intros C; apply (Hne bo C); auto]. destruct (arep_elim _ _ _ _ _ Ro Hbo) as [lo [L1 _]]. apply Hw. congruence. }
    destruct (COPY d2 (d_next d1) _ (c_size o) B2) as [d4 [E [[l' RB] RR]]].
    { apply repeat_length. } { auto. } { intros C. destruct (PO _ C). lia. } { intros bo Hbo. destruct (PO _ Hbo). rewrite O2, O1 by (auto; lia). auto. }
    rewrite E. cbn [cbind]. do 2 eexists. split; [reflexivity|]. cbn [c_ptr]. split.
    + eapply eff_rebl; eauto. unfold eff. rewrite N2, N1. split; [lia|]. split; [intros b Hb Hb'; rewrite O2, O1; congruence|].
      split; [intros b X; inversion X; subst; split; [lia|right; lia]|]. intros b Hb Hb'. rewrite O2 by congruence. auto.
    + rewrite Nat.max_r by lia. rewrite <- Q1. exact RR.
  - cbn [cbind]. destruct (c_ptr a) as [b|] eqn:EP.
    + destruct (arep_elim _ _ _ _ _ Ra EP) as [l [L1 [L2 [L3 [L4 [L5 L6]]]]]].
      destruct (COPY d b l (c_cap a) L1 L2 H (Hne b eq_refl)) as [d4 [E [[l' RB] RR]]]; auto. rewrite E. cbn [cbind]. do 2 eexists. split; [reflexivity|]. cbn [c_ptr].
      split; [eapply eff_same; eauto; apply Hw; congruence|]. rewrite Nat.max_l by lia. rewrite <- R2. exact RR.
    + destruct (arep_null _ _ _ _ Ra EP) as [S0 [C0 [X0 A0]]]. assert (SO : c_size o = 0) by lia. rewrite SO. unfold copy_device. cbn [Nat.eqb cbind].
      do 2 eexists. split; [reflexivity|]. cbn [c_ptr]. split; [apply eff_id; discriminate|]. rewrite C0, A0.
      assert (aa_list y = []) as -> by (destruct (aa_list y); [auto|cbn in Q1; lia]). apply null_arep.
Qed.

Lemma to_device_arr : forall (A : Type) (d : dev A) a x i xs y, wf_dev d -> arep d a x ->
  i + length xs <= c_cap a -> length y = length (aa_list x) ->
  (forall k v, nth_error y k = Some (Some v) ->
     if (i <=? k) && (k <? i + length xs) then nth_error xs (k - i) = Some (Some v) else nth_error (aa_list x) k = Some (Some v)) ->
  exists d', copy_to_device d (c_ptr a) i xs = COk d' /\ eff d (c_ptr a) d' (c_ptr a) /\ arep d' a (mkAA y (aa_cap x)).
Proof.
  intros A d a x i xs y Hw R Hi Hy Hv. pose proof R as [R1 [R2 [R3 R4]]]. destruct (c_ptr a) as [b|] eqn:EP.
  - destruct (arep_elim _ _ _ _ _ R EP) as [l [L1 [L2 [L3 [L4 [L5 L6]]]]]].
    destruct (to_device_ok A d b l i xs L1 ltac:(lia)) as [d' [E RB]]. exists d'. split; auto.
    split; [eapply eff_same; eauto; apply Hw; congruence|]. rewrite <- R2. destruct a as [sz cap p]. cbn [c_size c_cap c_ptr] in *. subst p.
    apply arep_make with (l := splice l i xs); auto; try lia.
    + apply RB.
    + rewrite length_splice; lia.
    + intros k v Hk. specialize (Hv k v Hk). rewrite nth_error_splice by lia. destruct ((i <=? k) && (k <? i + length xs)); auto.
  - destruct (arep_null _ _ _ _ R EP) as [S0 [C0 [X0 A0]]]. assert (length xs = 0) by lia. unfold copy_to_device. rewrite H. cbn [Nat.eqb].
    exists d. split; auto. split; [apply eff_id; discriminate|]. rewrite X0 in Hy. destruct y; [|discriminate]. rewrite A0.
    destruct a as [sz cap p]. cbn [c_size c_cap c_ptr] in *. rewrite EP, S0, C0. apply null_arep.
Qed.

(** The fill kernel. *)
Lemma fill_threads_ok : forall (A : Type) n (v : A) s, (Z.of_nat n < 2 ^ 31)%Z -> interleave (fill_threads n v) s ->
  Permutation (map (fun i => (i, v)) (zseq (Z.of_nat n))) s.
Proof.
  intros A n v s Hn I. apply interleave_perm in I. rewrite <- I. unfold fill_threads, init_kernel.
  rewrite (launch_row _ (fun i => if (Z.of_nat n <=? i)%Z then [] else [(i, v)]) (Z.of_nat n) ltac:(lia))
    by (intros i Hi; assert ((Z.of_nat n <=? i)%Z = true) as -> by lia; auto).
  match goal with |- Permutation ?a ?b => assert (a = b) as ->; [|reflexivity] end.
  assert (G : forall l, (forall i, In i l -> (i < Z.of_nat n)%Z) -> map (fun i => (i, v)) l = flat_map (fun i => if (Z.of_nat n <=? i)%Z then [] else [(i, v)]) l).
  { induction l as [|i l IH]; intros H; [reflexivity|]. cbn [map flat_map]. pose proof (H i (or_introl eq_refl)).
    assert ((Z.of_nat n <=? i)%Z = false) as -> by lia. cbn [app]. f_equal. apply IH. intros; apply H; simpl; auto. }
  apply G. intros i Hi. apply in_zseq in Hi. lia.
Qed.
Lemma c_stores_ok : forall (A : Type) (s : list (Z * A)) (d : dev A) b l v, d_blk d b = Some l ->
  (forall i w, In (i, w) s -> (0 <= i < Z.of_nat (length l))%Z /\ w = v) ->
  exists d' l', c_stores d (Some b) s = COk d' /\ rebl d b l' d' /\ length l' = length l /\
    (forall k, In (Z.of_nat k, v) s -> nth_error l' k = Some (Some v)) /\ (forall k, nth_error l k = Some (Some v) -> nth_error l' k = Some (Some v)).
Proof.
  intros A s. induction s as [|[i w] s IH]; intros d b l v Hb Hs.
  - exists d, l. split; auto. split; [apply rebl_refl; auto|]. split; auto. split; auto. intros k [].
  - destruct (Hs i w (or_introl eq_refl)) as [Hi ->]. cbn [c_stores].
    destruct (to_device_ok A d b l (Z.to_nat i) [Some v] Hb) as [d1 [-> R1]]; [cbn; lia|]. cbn [cbind].
    assert (L1 : length (splice l (Z.to_nat i) [Some v]) = length l) by (apply length_splice; cbn; lia).
    destruct (IH d1 b _ v (proj1 (proj2 R1))) as [d2 [l2 [E2 [R2 [L2 [V2 K2]]]]]].
    { intros j w Hj. rewrite L1. apply Hs. simpl; auto. }
    exists d2, l2. split; auto. split; [eapply rebl_trans; eauto|]. split; [congruence|].
    assert (K1 : forall k, nth_error l k = Some (Some v) \/ k = Z.to_nat i -> nth_error (splice l (Z.to_nat i) [Some v]) k = Some (Some v)).
    { intros k Hk. rewrite nth_error_splice by (cbn; lia). cbn [length].
      destruct (Nat.leb_spec (Z.to_nat i) k), (Nat.ltb_spec k (Z.to_nat i + 1)); cbn [andb]; try (destruct Hk; [auto|lia]).
      replace (k - Z.to_nat i) with 0 by lia. reflexivity. }
    split.
    + intros k [X|Hk]; auto. inversion X; subst. apply K2. apply K1. right. lia.
    + intros k Hk. apply K2, K1. auto.
Qed.
Lemma fill_ok : forall (A : Type) (d : dev A) n v s, (Z.of_nat n < 2 ^ 31)%Z -> interleave (fill_threads n v) s ->
  exists d' a, c_fill d n s = COk (d', a) /\ eff d None d' (c_ptr a) /\ arep d' a (mkAA (repeat (Some v) n) n).
Proof.
  intros A d n v s Hn I. pose proof (fill_threads_ok A n v s Hn I) as P. unfold c_fill. destruct n as [|n].
  - apply Permutation_nil in P. subst s. exists d, (mkCarr 0 0 None). split; auto. split; [apply eff_id; discriminate|apply null_arep].
  - destruct (alloc_pos A d (S n) ltac:(lia)) as [d1 [E [N1 [B1 O1]]]]. rewrite E.
    destruct (c_stores_ok A s d1 (d_next d) _ v B1) as [d2 [l2 [E2 [[N2 [B2 O2]] [L2 [V2 _]]]]]].
    { intros i w Hin. apply (Permutation_in _ (Permutation_sym P)) in Hin. apply in_map_iff in Hin. destruct Hin as [j [X Hj]].
      inversion X; subst. apply in_zseq in Hj. rewrite repeat_length. auto. }
    rewrite E2. cbn [cbind]. do 2 eexists. split; [reflexivity|]. cbn [c_ptr]. split.
    + unfold eff. rewrite N2, N1. split; [lia|]. split; [intros b _ H; rewrite O2, O1; congruence|].
      split; [intros b X; inversion X; subst; lia|]. intros b X; discriminate.
    + rewrite repeat_length in L2. apply arep_make with (l := l2); auto; rewrite ?repeat_length; auto.
      intros k w Hk. assert (k < S n) by (rewrite <- (repeat_length (Some v) (S n)); apply nth_error_Some; congruence).
      rewrite nth_error_repeat in Hk by auto. inversion Hk; subst. apply V2. apply (Permutation_in _ P). apply in_map_iff. exists (Z.of_nat k).
      split; auto. apply in_zseq. lia.
Qed.

(** ** Simulation *)
Lemma nth_error_replaced : forall (A : Type) (l : list (option A)) i v k, i < length l ->
  nth_error (replaced l i v) k = if Nat.eqb k i then Some (Some v) else nth_error l k.
Proof.
  intros A l i v k Hi. assert (replaced l i v = splice l i [Some v]) as ->.
  { unfold replaced, splice. cbn [length app]. rewrite Nat.add_1_r. reflexivity. }
  rewrite nth_error_splice by (cbn; lia). cbn [length].
  destruct (Nat.eqb_spec k i) as [->|Hk].
  - destruct (Nat.leb_spec i i), (Nat.ltb_spec i (i + 1)); try lia. cbn [andb]. rewrite Nat.sub_diag. reflexivity.
  - destruct (Nat.leb_spec i k), (Nat.ltb_spec k (i + 1)); cbn [andb]; auto; lia.
Qed.

Lemma cinv_get : forall (A : Type) (W : cworld A) X id x, cinv W X -> X id = Some x -> exists a, cw_arr W id = Some a /\ arep (cw_dev W) a x.
Proof. intros A W X id x I H. pose proof (ci_rep _ _ I id) as R. rewrite H in R. destruct (cw_arr W id) as [a|]; [|contradiction]. eauto. Qed.
Lemma cinv_none : forall (A : Type) (W : cworld A) X id, cinv W X -> X id = None -> cw_arr W id = None.
Proof. intros A W X id I H. pose proof (ci_rep _ _ I id) as R. rewrite H in R. destruct (cw_arr W id); [contradiction|auto]. Qed.

Lemma step_sim : forall (A : Type) (W : cworld A) X op X' b, cinv W X -> alaw X op X' b ->
  exists W' b', cstep W op = COk (W', b') /\ obs_agree b b' /\ cinv W' X'.
Proof.
  intros A W X op X' b I H. pose proof (ci_wf _ _ I) as Hw. destruct H as [id n H0|id n v s H0 Hn HI|id xs H0|id src x H0 H1|id src x y Hne H0 H1
    |id n v x H0|id n x H0|id xs x H0 Hl|id x H0|id i v x H0 Hi|id x H0|id x H0]; unfold cstep.
  - pose proof (cinv_none _ _ _ _ I H0) as N. unfold new_arr. rewrite N. destruct (new_ok A (cw_dev W) n) as [d' [a [E [F R]]]]. rewrite E.
    do 2 eexists. split; [reflexivity|]. split; [exact Logic.I|]. apply cinv_update; auto. rewrite N. exact F.
  - pose proof (cinv_none _ _ _ _ I H0) as N. unfold new_arr. rewrite N. destruct (fill_ok A (cw_dev W) n v s Hn HI) as [d' [a [E [F R]]]]. rewrite E.
    do 2 eexists. split; [reflexivity|]. split; [exact Logic.I|]. apply cinv_update; auto. rewrite N. exact F.
  - pose proof (cinv_none _ _ _ _ I H0) as N. unfold new_arr. rewrite N. destruct (from_host_ok A (cw_dev W) xs) as [d' [a [E [F R]]]]. rewrite E.
    do 2 eexists. split; [reflexivity|]. split; [exact Logic.I|]. apply cinv_update; auto. rewrite N. exact F.
  - pose proof (cinv_none _ _ _ _ I H0) as N. unfold new_arr. rewrite N. destruct (cinv_get _ _ _ _ _ I H1) as [o [Eo Ro]]. unfold on_arr. rewrite Eo.
    destruct (copy_ok A (cw_dev W) o x Hw Ro) as [d' [a [E [F R]]]]. rewrite E.
    do 2 eexists. split; [reflexivity|]. split; [exact Logic.I|]. apply cinv_update; auto. rewrite N. exact F.
  - destruct (cinv_get _ _ _ _ _ I H0) as [a [Ea Ra]]. destruct (cinv_get _ _ _ _ _ I H1) as [o [Eo Ro]]. unfold on_arr. rewrite Ea, Eo.
    destruct (assign_ok A (cw_dev W) a x o y Hw Ra Ro) as [d' [a' [E [F R]]]].
    { intros bb H2 H3. apply Hne. apply (ci_sep _ _ I id src a o bb); auto. }
    rewrite E. do 2 eexists. split; [reflexivity|]. split; [exact Logic.I|]. apply cinv_update; auto. rewrite Ea. exact F.
  - destruct (cinv_get _ _ _ _ _ I H0) as [a [Ea Ra]]. unfold on_arr. rewrite Ea. destruct (resize_ok A (cw_dev W) a x n v Hw Ra) as [d' [a' [E [F R]]]].
    rewrite E. do 2 eexists. split; [reflexivity|]. split; [exact Logic.I|]. apply cinv_update; auto. rewrite Ea. exact F.
  - destruct (cinv_get _ _ _ _ _ I H0) as [a [Ea Ra]]. unfold on_arr. rewrite Ea. destruct (reserve_ok A (cw_dev W) a x n Hw Ra) as [d' [a' [E [F R]]]].
    rewrite E. do 2 eexists. split; [reflexivity|]. split; [exact Logic.I|]. apply cinv_update; auto. rewrite Ea. exact F.
  - destruct (cinv_get _ _ _ _ _ I H0) as [a [Ea Ra]]. pose proof Ra as [R1 [R2 [R3 _]]]. unfold on_arr. rewrite Ea. unfold c_load.
    destruct (Nat.leb_spec (c_size a) (length xs)); [|lia]. rewrite R1.
    assert (LX : length (map (@Some A) (firstn (length (aa_list x)) xs)) = length (aa_list x)) by (rewrite map_length, firstn_length; lia).
    destruct (to_device_arr A (cw_dev W) a x 0 (map Some (firstn (length (aa_list x)) xs)) (map Some (firstn (length (aa_list x)) xs)) Hw Ra) as [d' [E [F R]]].
    { lia. } { auto. }
    { intros k v Hk. assert (k < length (map (@Some A) (firstn (length (aa_list x)) xs))) by (apply nth_error_Some; congruence).
      destruct (Nat.ltb_spec k (0 + length (map (@Some A) (firstn (length (aa_list x)) xs)))); [|lia]. cbn [Nat.leb andb]. rewrite Nat.sub_0_r. auto. }
    rewrite E. do 2 eexists. split; [reflexivity|]. split; [exact Logic.I|]. apply cinv_update; auto. rewrite Ea. exact F.
  - destruct (cinv_get _ _ _ _ _ I H0) as [a [Ea Ra]]. pose proof Ra as [R1 [R2 [R3 R4]]]. unfold on_arr. rewrite Ea. unfold c_save, copy_to_host.
    destruct (Nat.eqb_spec (c_size a) 0) as [Z0|NZ].
    + do 2 eexists. split; [reflexivity|]. split; auto. cbn. destruct (aa_list x); [constructor|cbn in R1; lia].
    + destruct (c_ptr a) as [bb|] eqn:EP; [|lia]. destruct R4 as [l [L1 [L2 L3]]]. rewrite L1. destruct (Nat.leb_spec (c_size a) (length l)); [|lia].
      do 2 eexists. split; [reflexivity|]. split; auto.
  - destruct (cinv_get _ _ _ _ _ I H0) as [a [Ea Ra]]. pose proof Ra as [R1 [R2 [R3 _]]]. unfold on_arr. rewrite Ea. unfold c_poke.
    assert (LR : length (replaced (aa_list x) i v) = length (aa_list x)).
    { unfold replaced. rewrite app_length. cbn [length]. rewrite firstn_length, skipn_length. lia. }
    destruct (to_device_arr A (cw_dev W) a x i [Some v] (replaced (aa_list x) i v) Hw Ra) as [d' [E [F R]]].
    { cbn; lia. } { auto. }
    { intros k w Hk. rewrite nth_error_replaced in Hk by auto. cbn [length]. destruct (Nat.eqb_spec k i) as [->|Hki].
      - destruct (Nat.leb_spec i i), (Nat.ltb_spec i (i + 1)); try lia. cbn [andb]. rewrite Nat.sub_diag. exact Hk.
      - destruct (Nat.leb_spec i k), (Nat.ltb_spec k (i + 1)); cbn [andb]; auto; lia. }
    rewrite E. do 2 eexists. split; [reflexivity|]. split; [exact Logic.I|]. apply cinv_update; auto. rewrite Ea. exact F.
  - destruct (cinv_get _ _ _ _ _ I H0) as [a [Ea Ra]]. pose proof Ra as [R1 [R2 _]]. unfold on_arr. rewrite Ea.
    do 2 eexists. split; [reflexivity|]. split; auto. cbn. auto.
  - destruct (cinv_get _ _ _ _ _ I H0) as [a [Ea Ra]]. unfold on_arr. rewrite Ea. destruct (destroy_ok A (cw_dev W) a x Ra) as [d' [E F]].
    rewrite E. do 2 eexists. split; [reflexivity|]. split; [exact Logic.I|]. apply cinv_update; auto. rewrite Ea. exact F.
Qed.

Lemma run_sim : forall (A : Type) ops (W : cworld A) X X' bs, cinv W X -> arun X ops X' bs ->
  exists W' bs', crun W ops = COk (W', bs') /\ Forall2 obs_agree bs bs' /\ cinv W' X'.
Proof.
  intros A ops W0 X X' bs I0 H. revert W0 I0. induction H as [X|X op X1 b ops X2 bs H1 H IH]; intros W I; [exists W, []; repeat split; auto; apply I|].
  destruct (step_sim A W X op X1 b I H1) as [W1 [b' [E [O I1]]]]. destruct (IH W1 I1) as [W2 [bs' [E2 [O2 I2]]]].
  exists W2, (b' :: bs'). cbn [crun]. rewrite E. cbn [cbind]. rewrite E2. cbn [cbind]. split; auto.
Qed.
Lemma cinv_start : forall A : Type, cinv (@cw_start A) no_arrays.
Proof.
  intros A. constructor.
  - intros b Hb. cbn in Hb. congruence.
  - intros id. cbn. auto.
  - intros i j a a' b H. discriminate.
  - intros b Hb. cbn in Hb. congruence.
Qed.
