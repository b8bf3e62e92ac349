(** A region: a block holding [P] storage cells in SoA layout, seen as a partial map
    from storage index to cell. All containers are proved through this view. *)
From Coq Require Import ZArith List Lia Bool.
From Verif Require Import Base Layout LayoutProofs Mem MemProofs Accessor AccessorProofs.
Import ListNotations.
Open Scope Z_scope.

(** *** Lists *)
Lemma NoDup_flat_map : forall (A B : Type) (f : A -> list B) l,
  NoDup l -> (forall a, In a l -> NoDup (f a)) ->
  (forall a b x, In a l -> In b l -> In x (f a) -> In x (f b) -> a = b) ->
  NoDup (flat_map f l).
Proof.
  intros A B f l Hl. induction Hl as [|a l Ha Hl IH]; intros H1 H2; simpl; [constructor|].
  assert (Happ : forall (l1 l2 : list B), NoDup l1 -> NoDup l2 -> (forall x, In x l1 -> ~ In x l2) -> NoDup (l1 ++ l2)).
  { clear. intros l1 l2 H1 H2 H. induction H1 as [|a l Hn H1 IH]; simpl; auto. constructor.
    - intros C. apply in_app_or in C. destruct C; auto. apply (H a); simpl; auto.
    - apply IH. intros; apply H; simpl; auto. }
  apply Happ.
  - apply H1; simpl; auto.
  - apply IH; intros; [apply H1; simpl; auto|]. eapply H2; simpl; eauto.
  - intros x Hx C. apply in_flat_map in C. destruct C as [b [Hb C]].
    assert (a = b) by (eapply H2; simpl; eauto). subst. contradiction.
Qed.

Lemma NoDup_map_inj : forall (A B : Type) (f : A -> B) l,
  (forall a b, In a l -> In b l -> f a = f b -> a = b) -> NoDup l -> NoDup (map f l).
Proof.
  intros A B f l H Hl. induction Hl as [|a l Ha Hl IH]; simpl; constructor.
  - intros C. apply in_map_iff in C. destruct C as [b [E Hb]].
    assert (b = a) by (apply H; simpl; auto). subst. contradiction.
  - apply IH. intros; apply H; simpl; auto.
Qed.

Lemma slots_NoDup : forall ms, wf_members ms -> NoDup (slots ms).
Proof.
  intros ms Hw. pose proof (slots_from_ordered ms 0 Hw) as H. fold (slots ms) in H.
  assert (Hs : forall sl, In sl (slots ms) -> 0 < s_size sl).
  { intros sl Hin. apply slots_from_range in Hin; auto. lia. }
  induction H as [|a l Hf H IH]; constructor.
  - intros C. rewrite Forall_forall in Hf. specialize (Hf _ C). unfold slot_before in Hf.
    specialize (Hs a (or_introl eq_refl)). lia.
  - apply IH. intros; apply Hs; simpl; auto.
Qed.

Lemma slot_range : forall ms sl, wf_members ms -> In sl (slots ms) ->
  0 <= s_off sl /\ s_off sl + s_size sl <= total ms /\ 0 < s_size sl.
Proof. intros ms sl Hw H. pose proof (slots_from_range ms 0 sl Hw H). lia. Qed.

(** Two different (slot, index) pairs occupy disjoint bytes. *)
Lemma keys_sep : forall ms P p a b i j,
  wf_members ms -> In a (slots ms) -> In b (slots ms) -> 0 <= i < P -> 0 <= j < P ->
  (a, i) <> (b, j) -> sep (sptr p P a i) (s_size a) (sptr p P b j) (s_size b).
Proof.
  intros ms P p a b i j Hw Ha Hb Hi Hj Hne. unfold sep, sptr; simpl. right.
  destruct (slot_range ms a Hw Ha) as [_ [_ Sa]]. destruct (slot_range ms b Hw Hb) as [_ [_ Sb]].
  destruct (FOP_In2 _ _ _ a b (slots_from_ordered ms 0 Hw) Ha Hb) as [E|[E|E]].
  - subst b. assert (i <> j) by congruence.
    destruct (Z.lt_ge_cases i j).
    + pose proof (slot_addr_same_disjoint P a i j Sa ltac:(lia)). lia.
    + pose proof (slot_addr_same_disjoint P a j i Sa ltac:(lia)). lia.
  - pose proof (slot_addr_disjoint P a b i j Sa Sb Hi Hj E). lia.
  - pose proof (slot_addr_disjoint P b a j i Sb Sa Hj Hi E). lia.
Qed.

Lemma key_addr_inj : forall ms P a b i j,
  wf_members ms -> In a (slots ms) -> In b (slots ms) -> 0 <= i < P -> 0 <= j < P ->
  slot_addr P a i = slot_addr P b j -> (a, i) = (b, j).
Proof.
  intros ms P a b i j Hw Ha Hb Hi Hj E.
  destruct (slot_range ms a Hw Ha) as [_ [_ Sa]]. destruct (slot_range ms b Hw Hb) as [_ [_ Sb]].
  destruct (FOP_In2 _ _ _ a b (slots_from_ordered ms 0 Hw) Ha Hb) as [F|[F|F]].
  - subst b. f_equal. unfold slot_addr in E. nia.
  - pose proof (slot_addr_disjoint P a b i j Sa Sb Hi Hj F). lia.
  - pose proof (slot_addr_disjoint P b a j i Sb Sa Hj Hi F). lia.
Qed.

Definition same_other (m m' : mem) (b : nat) : Prop :=
  mnext m' = mnext m /\ (forall b', msize m' b' = msize m b') /\
  (forall b' o, b' <> b -> mval m' b' o = mval m b' o) /\
  (forall b' o, b' <> b -> mlive m' b' o = mlive m b' o).

Lemma same_other_refl : forall m b, same_other m m b.
Proof. intros. repeat split. Qed.

Lemma same_other_trans : forall m1 m2 m3 b, same_other m1 m2 b -> same_other m2 m3 b -> same_other m1 m3 b.
Proof.
  intros m1 m2 m3 b [A1 [A2 [A3 A4]]] [B1 [B2 [B3 B4]]].
  split; [congruence|]. split; [intros; rewrite B2; auto|].
  split; intros; [rewrite B3|rewrite B4]; auto.
Qed.

(** *** One operation per (slot, index) key *)
Lemma FOP_and : forall (A : Type) (R S : A -> A -> Prop) l,
  ForallOrdPairs R l -> ForallOrdPairs S l -> ForallOrdPairs (fun a b => R a b /\ S a b) l.
Proof.
  intros A R S l HR. induction HR as [|a l F HR IH]; intros HS; [constructor|]. inversion HS as [|? ? F' HS']; subst.
  constructor; auto. rewrite Forall_forall in *. auto.
Qed.

Section Family.
  Variable ms : list member.
  Variable P : Z.
  Variable p : ptr.
  Variable K : Type.
  Variable ksl : K -> slot.
  Variable kix : K -> Z.
  Variable mk : K -> mop.
  Variable keys : list K.
  Variable m : mem.
  Hypothesis Hw : wf_members ms.
  Hypothesis Hnd : NoDup (map (fun k => (ksl k, kix k)) keys).
  Hypothesis Hin : forall k, In k keys -> In (ksl k) (slots ms) /\ 0 <= kix k < P.
  Hypothesis Hdst : forall k, In k keys -> op_dst (mk k) = sptr p P (ksl k) (kix k).
  Hypothesis Hsize : forall k, In k keys -> op_size (mk k) = s_size (ksl k).
  Hypothesis Hsrc : ForallOrdPairs (fun a b =>
    match op_src (mk b) with None => True | Some q => sep (op_dst (mk a)) (op_size (mk a)) q (op_size (mk b)) end) keys.
  Hypothesis Hpre : forall k, In k keys -> exists m', exec1 m (mk k) = Val m'.

  Lemma family_exec : exists m',
    exec (map mk keys) m = Val m' /\ same_other m m' (pb p) /\
    (forall k, In k keys ->
       read m' (sptr p P (ksl k) (kix k)) (s_size (ksl k)) = op_val m (mk k) /\
       live m' (sptr p P (ksl k) (kix k)) = op_live m (mk k)) /\
    (forall sl i, In sl (slots ms) -> 0 <= i < P -> ~ In (sl, i) (map (fun k => (ksl k, kix k)) keys) ->
       read m' (sptr p P sl i) (s_size sl) = read m (sptr p P sl i) (s_size sl) /\
       live m' (sptr p P sl i) = live m (sptr p P sl i)) /\
    (forall o, (forall k, In k keys -> o <> po p + slot_addr P (ksl k) (kix k)) ->
       mlive m' (pb p) o = mlive m (pb p) o).
  Proof.
    destruct (exec_indep (map mk keys) m) as [m' [E Q]].
    { apply Forall_map. apply Forall_forall. intros k Hk. split; [|apply Hpre; auto].
      rewrite Hsize by auto. destruct (Hin k Hk) as [H1 _]. apply (slot_range ms) in H1; auto. lia. }
    { apply FOP_map. apply FOP_NoDup in Hnd. 
      assert (G : ForallOrdPairs (fun a b => (ksl a, kix a) <> (ksl b, kix b)) keys).
      { clear -Hnd. induction keys as [|a l IH]; simpl in *; [constructor|]. inversion Hnd as [|? ? F1 F2]; subst.
        constructor; auto. rewrite Forall_map in F1. exact F1. }
      pose proof (FOP_and _ _ _ _ G Hsrc) as GS.
      eapply FOP_impl; [|exact GS]. intros a b Ha Hb [Hne Hs].
      destruct (Hin a Ha) as [Sa Ia]. destruct (Hin b Hb) as [Sb Ib].
      split; [|exact Hs]. rewrite !Hdst, !Hsize by auto. apply (keys_sep ms); auto. }
    exists m'. split; auto. split; [|split; [|split]].
    - split; [apply (ep_next _ _ _ Q)|]. split; [apply (ep_size _ _ _ Q)|].
      split; intros b' o Hb.
      + apply (ep_frame _ _ _ Q). intros op Ho. apply in_map_iff in Ho. destruct Ho as [k [<- Hk]].
        destruct (inside _ _ _ _) eqn:F; auto. apply inside_spec in F. rewrite Hdst in F by auto. simpl in F. tauto.
      + apply (ep_frame_live _ _ _ Q). intros op Ho. apply in_map_iff in Ho. destruct Ho as [k [<- Hk]].
        destruct (is_start _ _ _) eqn:F; auto. apply is_start_spec in F. rewrite Hdst in F by auto. simpl in F. tauto.
    - intros k Hk. rewrite <- Hdst, <- Hsize by auto. split.
      + apply (ep_val _ _ _ Q). apply in_map; auto.
      + apply (ep_live _ _ _ Q). apply in_map; auto.
    - intros sl i Hs Hi Hn.
      assert (Hsep : forall k, In k keys -> sep (sptr p P (ksl k) (kix k)) (s_size (ksl k)) (sptr p P sl i) (s_size sl)).
      { intros k Hk. destruct (Hin k Hk). apply (keys_sep ms); auto. intros C. apply Hn. apply in_map_iff. exists k; auto. }
      pose proof (slot_range ms sl Hw Hs) as Hr.
      split.
      + apply read_ext. intros j Hj. apply (ep_frame _ _ _ Q). intros op Ho. apply in_map_iff in Ho.
        destruct Ho as [k [<- Hk]]. specialize (Hsep k Hk). rewrite Hdst, Hsize by auto.
        destruct (inside _ _ _ _) eqn:F; auto. apply inside_spec in F. unfold sep in Hsep. lia.
      + unfold live. apply (ep_frame_live _ _ _ Q). intros op Ho. apply in_map_iff in Ho.
        destruct Ho as [k [<- Hk]]. specialize (Hsep k Hk). rewrite Hdst by auto. 
        destruct (Hin k Hk) as [Hk1 _]. pose proof (slot_range ms _ Hw Hk1).
        destruct (is_start _ _ _) eqn:F; auto. apply is_start_spec in F. unfold sep in Hsep. lia.
    - intros o Ho. apply (ep_frame_live _ _ _ Q). intros op Hop. apply in_map_iff in Hop.
      destruct Hop as [k [<- Hk]]. destruct (is_start _ _ _) eqn:F; auto. apply is_start_spec in F.
      rewrite Hdst in F by auto. simpl in F. exfalso. apply (Ho k Hk). tauto.
  Qed.
End Family.

(** *** Regions *)
Record region (ms : list member) (m : mem) (p : ptr) (P : Z) (ci : Z -> option cell) : Prop := {
  rg_off : po p = 0;
  rg_P : 0 <= P;
  rg_size : msize m (pb p) = Some (total ms * P);
  rg_cell : forall i c, ci i = Some c -> 0 <= i < P /\ wf_cell ms c;
  rg_val : forall i c sl v, ci i = Some c -> In (sl, v) (combine (slots ms) (concat c)) ->
    read m (sptr p P sl i) (s_size sl) = v /\ (s_class sl = true -> live m (sptr p P sl i) = true);
  rg_live : forall o, mlive m (pb p) o = true ->
    exists i c sl, ci i = Some c /\ In sl (slots ms) /\ s_class sl = true /\ o = slot_addr P sl i }.

Lemma region_ext : forall ms m p P ci ci',
  (forall i, ci i = ci' i) -> region ms m p P ci -> region ms m p P ci'.
Proof.
  intros ms m p P ci ci' E R. destruct R as [R1 R2 R3 R4 R5 R6]. constructor; auto.
  - intros i c H. rewrite <- E in H. auto.
  - intros i c sl v H. rewrite <- E in H. eauto.
  - intros o H. destruct (R6 o H) as [i [c [sl [H1 H2]]]]. exists i, c, sl. rewrite <- E. auto.
Qed.

(** A region depends only on its own block. *)
Lemma region_frame : forall ms m m' p P ci,
  region ms m p P ci ->
  msize m' (pb p) = msize m (pb p) ->
  (forall o, mval m' (pb p) o = mval m (pb p) o) ->
  (forall o, mlive m' (pb p) o = mlive m (pb p) o) ->
  region ms m' p P ci.
Proof.
  intros ms m m' p P ci R Hs Hv Hl. destruct R as [R1 R2 R3 R4 R5 R6]. constructor; auto.
  - congruence.
  - intros i c sl v H1 H2. destruct (R5 i c sl v H1 H2) as [A B]. split.
    + rewrite <- A. apply read_ext. intros. simpl. apply Hv.
    + intros. unfold live. simpl. rewrite Hl. apply B; auto.
  - intros o H. rewrite Hl in H. auto.
Qed.

Lemma region_other : forall ms m m' p P ci b,
  region ms m p P ci -> same_other m m' b -> pb p <> b -> region ms m' p P ci.
Proof.
  intros ms m m' p P ci b R [H1 [H2 [H3 H4]]] Hb. eapply region_frame; eauto.
Qed.

Lemma region_bounds : forall ms m p P ci sl i,
  wf_members ms -> region ms m p P ci -> In sl (slots ms) -> 0 <= i < P ->
  chk_bounds m (sptr p P sl i) (s_size sl) = None.
Proof.
  intros ms m p P ci sl i Hw R Hs Hi. unfold chk_bounds. simpl. rewrite (rg_size _ _ _ _ _ R).
  pose proof (rg_off _ _ _ _ _ R). destruct (slot_range ms sl Hw Hs) as [A [B C]].
  pose proof (slot_addr_bounds P sl i (total ms) A B C Hi).
  assert ((0 <=? po p + slot_addr P sl i) && (po p + slot_addr P sl i + s_size sl <=? total ms * P) = true) as -> by lia.
  reflexivity.
Qed.

(** Each slot of a well-formed cell has a value. *)
Lemma cell_value : forall ms c sl, wf_cell ms c -> In sl (slots ms) ->
  exists v, In (sl, v) (combine (slots ms) (concat c)).
Proof.
  intros ms c sl Hc Hs. pose proof (length_slots_from ms 0 c Hc) as Hl. fold (slots ms) in Hl.
  revert Hl. generalize (concat c) as vs. revert Hs. induction (slots ms) as [|s ss IH]; intros Hs [|v vs] Hl; simpl in *; try contradiction; try discriminate.
  destruct Hs as [->|Hs]; eauto. destruct (IH Hs vs) as [w Hw]; eauto.
Qed.

Lemma combine_NoDup_fun : forall (A B : Type) (l : list A) (r : list B) a b b',
  NoDup l -> In (a, b) (combine l r) -> In (a, b') (combine l r) -> b = b'.
Proof.
  intros A B l. induction l as [|x l IH]; intros [|y r] a b b' Hn H1 H2; simpl in *; try contradiction.
  inversion Hn as [|? ? Hx Hn']; subst.
  destruct H1 as [H1|H1], H2 as [H2|H2].
  - congruence.
  - inversion H1; subst. apply in_combine_l in H2. contradiction.
  - inversion H2; subst. apply in_combine_l in H1. contradiction.
  - eapply IH; eauto.
Qed.

Lemma region_live : forall ms m p P ci i c sl,
  region ms m p P ci -> ci i = Some c -> In sl (slots ms) -> s_class sl = true ->
  live m (sptr p P sl i) = true.
Proof.
  intros ms m p P ci i c sl R Hc Hs Hcl.
  destruct (cell_value ms c sl) as [v Hv]; auto. { apply (rg_cell _ _ _ _ _ R i c Hc). }
  apply (rg_val _ _ _ _ _ R i c sl v Hc Hv). auto.
Qed.

Lemma region_dead : forall ms m p P ci i sl,
  wf_members ms -> region ms m p P ci -> ci i = None -> 0 <= i < P -> In sl (slots ms) ->
  live m (sptr p P sl i) = false.
Proof.
  intros ms m p P ci i sl Hw R Hc Hi Hs. destruct (live m (sptr p P sl i)) eqn:E; auto.
  unfold live in E. simpl in E. rewrite (rg_off _ _ _ _ _ R) in E.
  destruct (rg_live _ _ _ _ _ R _ E) as [j [c [sl' [A [B [C D]]]]]].
  destruct (rg_cell _ _ _ _ _ R j c A) as [Hj _].
  assert ((sl, i) = (sl', j)) by (eapply key_addr_inj; eauto; lia). congruence.
Qed.

(** Partial map update. *)
Fixpoint upd (ci : Z -> option cell) (l : list (Z * option cell)) (i : Z) : option cell :=
  match l with
  | [] => ci i
  | (j, c) :: r => if i =? j then c else upd ci r i
  end.

Lemma upd_in : forall ci l i c, NoDup (map fst l) -> In (i, c) l -> upd ci l i = c.
Proof.
  intros ci l i c. induction l as [|[j d] l IH]; simpl; intros Hn H; [contradiction|].
  inversion Hn as [|? ? Hj Hn']; subst. destruct H as [H|H].
  - inversion H; subst. rewrite Z.eqb_refl. reflexivity.
  - destruct (Z.eqb_spec i j); auto. subst. exfalso. apply Hj. apply in_map_iff. exists (j, c); auto.
Qed.

Lemma upd_notin : forall ci l i, ~ In i (map fst l) -> upd ci l i = ci i.
Proof.
  intros ci l i. induction l as [|[j d] l IH]; simpl; intros H; auto.
  destruct (Z.eqb_spec i j); [subst; tauto|]. apply IH. tauto.
Qed.

(** The general step: cells [fst l] are overwritten slot by slot, in any order. *)
Section Step.
  Variable ms : list member.
  Variable P : Z.
  Variable p : ptr.
  Variable ci : Z -> option cell.
  Variable m : mem.
  Hypothesis Hw : wf_members ms.
  Hypothesis HR : region ms m p P ci.
  Variable K : Type.
  Variable ksl : K -> slot.
  Variable kix : K -> Z.
  Variable mk : K -> mop.
  Variable keys : list K.
  Variable l : list (Z * option cell).
  Hypothesis Hl : NoDup (map fst l).
  Hypothesis Hlr : forall i c, In (i, c) l -> 0 <= i < P /\ match c with None => True | Some c => wf_cell ms c end.
  Hypothesis Hnd : NoDup (map (fun k => (ksl k, kix k)) keys).
  Hypothesis Hkeys : forall sl i, In (sl, i) (map (fun k => (ksl k, kix k)) keys) <-> In sl (slots ms) /\ In i (map fst l).
  Hypothesis Hdst : forall k, In k keys -> op_dst (mk k) = sptr p P (ksl k) (kix k).
  Hypothesis Hsize : forall k, In k keys -> op_size (mk k) = s_size (ksl k).
  Hypothesis Hsrc : ForallOrdPairs (fun a b =>
    match op_src (mk b) with None => True | Some q => sep (op_dst (mk a)) (op_size (mk a)) q (op_size (mk b)) end) keys.
  Hypothesis Hpre : forall k, In k keys -> exists m', exec1 m (mk k) = Val m'.
  Hypothesis Hval : forall k c v, In k keys -> In (kix k, Some c) l ->
    In (ksl k, v) (combine (slots ms) (concat c)) ->
    op_val m (mk k) = v /\ (s_class (ksl k) = true -> op_live m (mk k) = true).
  Hypothesis Hdead : forall k, In k keys ->
    In (kix k, None) l \/ s_class (ksl k) = false -> op_live m (mk k) = false.

  Lemma step_region_ord : exists m',
    exec (map mk keys) m = Val m' /\ same_other m m' (pb p) /\ region ms m' p P (upd ci l).
  Proof.
    assert (Hin : forall k, In k keys -> In (ksl k) (slots ms) /\ 0 <= kix k < P).
    { intros k Hk. destruct (proj1 (Hkeys (ksl k) (kix k))) as [A B].
      - apply in_map_iff. exists k; auto.
      - split; auto. apply in_map_iff in B. destruct B as [[i c] [E B]]. simpl in E. subst i.
        apply (Hlr _ _ B). }
    destruct (family_exec ms P p K ksl kix mk keys m) as [m' [E [Hso [HK [HN HL]]]]]; auto.
    exists m'. split; auto. split; auto.
    destruct HR as [R1 R2 R3 R4 R5 R6].
    assert (Hcase : forall i, In i (map fst l) \/ ~ In i (map fst l)) by (intros i; destruct (in_dec Z.eq_dec i (map fst l)); auto).
    constructor; auto.
    - destruct Hso as [_ [Hs _]]. rewrite Hs. auto.
    - intros i c H. destruct (Hcase i) as [Hi|Hi].
      + apply in_map_iff in Hi. destruct Hi as [[j d] [Ej Hi]]. simpl in Ej. subst j.
        rewrite (upd_in _ _ _ _ Hl Hi) in H. subst d. apply (Hlr _ _ Hi).
      + rewrite upd_notin in H by auto. auto.
    - intros i c sl v H Hv. assert (Hs : In sl (slots ms)) by (apply in_combine_l in Hv; auto).
      destruct (Hcase i) as [Hi|Hi].
      + assert (Hk : In (sl, i) (map (fun k => (ksl k, kix k)) keys)) by (apply Hkeys; auto).
        apply in_map_iff in Hk. destruct Hk as [k [Ek Hk]]. inversion Ek; subst sl i.
        apply in_map_iff in Hi. destruct Hi as [[j d] [Ej Hi]]. simpl in Ej. subst j.
        rewrite (upd_in _ _ _ _ Hl Hi) in H. subst d.
        destruct (HK k Hk) as [A B]. rewrite A, B. apply (Hval k c v); auto.
      + rewrite upd_notin in H by auto. destruct (R4 _ _ H) as [Hr _].
        destruct (HN sl i) as [A B]; auto.
        { intros C. apply Hkeys in C. tauto. }
        rewrite A, B. apply (R5 i c sl v); auto.
    - intros o Ho.
      assert (Hd : (exists k, In k keys /\ o = po p + slot_addr P (ksl k) (kix k)) \/
                   (forall k, In k keys -> o <> po p + slot_addr P (ksl k) (kix k))).
      { clear -K. induction keys as [|k ks IH]; [right; intros k []|].
        destruct (Z.eq_dec o (po p + slot_addr P (ksl k) (kix k))) as [E|E]; [left; exists k; simpl; auto|].
        destruct IH as [[k' [A B]]|IH]; [left; exists k'; simpl; auto|].
        right. intros k' [->|Hk']; auto. }
      destruct Hd as [[k [Hk Ek]]|Hd].
      + destruct (HK k Hk) as [_ B]. unfold live in B. simpl in B. rewrite Ek in Ho. rewrite B in Ho.
        destruct (Hin k Hk) as [Hks Hki].
        destruct (proj1 (Hkeys (ksl k) (kix k))) as [_ Hil]. { apply in_map_iff. exists k; auto. }
        apply in_map_iff in Hil. destruct Hil as [[j d] [Ej Hil]]. simpl in Ej. subst j.
        destruct (s_class (ksl k)) eqn:Ec; [|rewrite Hdead in Ho by auto; discriminate].
        destruct d as [c|]; [|rewrite Hdead in Ho by auto; discriminate].
        exists (kix k), c, (ksl k). repeat split; auto.
        * apply upd_in; auto.
        * rewrite R1 in Ek. lia.
      + rewrite HL in Ho by auto. destruct (R6 o Ho) as [i [c [sl [A [B [C D]]]]]].
        exists i, c, sl. repeat split; auto. rewrite upd_notin; auto.
        intros Hi. assert (Hk : In (sl, i) (map (fun k => (ksl k, kix k)) keys)) by (apply Hkeys; auto).
        apply in_map_iff in Hk. destruct Hk as [k [Ek Hk]]. inversion Ek; subst sl i.
        apply (Hd k Hk). rewrite R1. lia.
  Qed.
End Step.

(** The same with every source in another block or equal to its destination. *)
Lemma step_region : forall ms P p ci m, wf_members ms -> region ms m p P ci ->
  forall (K : Type) (ksl : K -> slot) (kix : K -> Z) (mk : K -> mop) keys l,
  NoDup (map fst l) ->
  (forall i c, In (i, c) l -> 0 <= i < P /\ match c with None => True | Some c => wf_cell ms c end) ->
  NoDup (map (fun k => (ksl k, kix k)) keys) ->
  (forall sl i, In (sl, i) (map (fun k => (ksl k, kix k)) keys) <-> In sl (slots ms) /\ In i (map fst l)) ->
  (forall k, In k keys -> op_dst (mk k) = sptr p P (ksl k) (kix k)) ->
  (forall k, In k keys -> op_size (mk k) = s_size (ksl k)) ->
  (forall k, In k keys -> match op_src (mk k) with None => True | Some q => pb q <> pb p \/ q = op_dst (mk k) end) ->
  (forall k, In k keys -> exists m', exec1 m (mk k) = Val m') ->
  (forall k c v, In k keys -> In (kix k, Some c) l -> In (ksl k, v) (combine (slots ms) (concat c)) ->
     op_val m (mk k) = v /\ (s_class (ksl k) = true -> op_live m (mk k) = true)) ->
  (forall k, In k keys -> In (kix k, None) l \/ s_class (ksl k) = false -> op_live m (mk k) = false) ->
  exists m', exec (map mk keys) m = Val m' /\ same_other m m' (pb p) /\ region ms m' p P (upd ci l).
Proof.
  intros ms P p ci m Hw R K ksl kix mk keys l Hl Hlr Hnd Hkeys Hdst Hsize Hsrc Hpre Hval Hdead.
  apply (step_region_ord ms P p ci m Hw R K ksl kix mk keys l); auto.
  assert (Hin : forall k, In k keys -> In (ksl k) (slots ms) /\ 0 <= kix k < P).
  { intros k Hk. destruct (proj1 (Hkeys (ksl k) (kix k))) as [A B].
    - apply in_map_iff. exists k; auto.
    - split; auto. apply in_map_iff in B. destruct B as [[i c] [E B]]. simpl in E. subst i. apply (Hlr _ _ B). }
  assert (G : ForallOrdPairs (fun a b => (ksl a, kix a) <> (ksl b, kix b)) keys).
  { clear -Hnd. apply FOP_NoDup in Hnd. induction keys as [|a r IH]; simpl in *; [constructor|]. inversion Hnd as [|? ? F1 F2]; subst.
    constructor; auto. rewrite Forall_map in F1. exact F1. }
  eapply FOP_impl; [|exact G]. intros a b Ha Hb Hne.
  destruct (Hin a Ha) as [Sa Ia]. destruct (Hin b Hb) as [Sb Ib].
  specialize (Hsrc b Hb). destruct (op_src (mk b)) as [q|]; auto.
  destruct Hsrc as [Hq|Hq].
  - left. rewrite Hdst by auto. simpl. auto.
  - subst q. rewrite !Hdst, !Hsize by auto. apply (keys_sep ms); auto.
Qed.

Lemma region_trivial_dead : forall ms m p P ci i sl,
  wf_members ms -> region ms m p P ci -> 0 <= i < P -> In sl (slots ms) -> s_class sl = false ->
  live m (sptr p P sl i) = false.
Proof.
  intros ms m p P ci i sl Hw R Hi Hs Hc. destruct (live m (sptr p P sl i)) eqn:E; auto.
  unfold live in E. simpl in E. rewrite (rg_off _ _ _ _ _ R) in E.
  destruct (rg_live _ _ _ _ _ R _ E) as [j [c [sl' [A [B [C D]]]]]].
  destruct (rg_cell _ _ _ _ _ R j c A) as [Hj _].
  assert ((sl, i) = (sl', j)) by (eapply key_addr_inj; eauto; lia). congruence.
Qed.

(** *** The four ways cells change *)
Lemma NoDup_prod_idx : forall ms (is : list Z),
  wf_members ms -> NoDup is -> NoDup (flat_map (fun i => map (fun sl : slot => (sl, i)) (slots ms)) is).
Proof.
  intros ms is Hw Hn. apply NoDup_flat_map; auto.
  - intros i _. apply NoDup_map_inj; [congruence|]. apply slots_NoDup; auto.
  - intros a b x _ _ Ha Hb. apply in_map_iff in Ha, Hb. destruct Ha as [s [<- _]], Hb as [t [E _]]. congruence.
Qed.

Lemma in_prod_idx : forall ms (is : list Z) sl i,
  In (sl, i) (flat_map (fun i => map (fun sl : slot => (sl, i)) (slots ms)) is) <-> In sl (slots ms) /\ In i is.
Proof.
  intros. rewrite in_flat_map. split.
  - intros [j [Hj H]]. apply in_map_iff in H. destruct H as [t [E H]]. inversion E; subst; auto.
  - intros [H1 H2]. exists i. split; auto. apply in_map_iff. exists sl; auto.
Qed.

Lemma region_construct : forall ms m p P ci is,
  wf_members ms -> wf_defaults ms -> region ms m p P ci ->
  NoDup is -> (forall i, In i is -> 0 <= i < P /\ ci i = None) ->
  exists m',
    exec (flat_map (fun i => map (fun sl => Construct (sptr p P sl i) (s_size sl) (s_class sl) (s_default sl)) (slots ms)) is) m = Val m' /\
    same_other m m' (pb p) /\ region ms m' p P (upd ci (map (fun i => (i, Some (default_cell ms))) is)).
Proof.
  intros ms m p P ci is Hw Hd R Hn Hi.
  assert (Hops : flat_map (fun i => map (fun sl => Construct (sptr p P sl i) (s_size sl) (s_class sl) (s_default sl)) (slots ms)) is
    = map (fun k : slot * Z => Construct (sptr p P (fst k) (snd k)) (s_size (fst k)) (s_class (fst k)) (s_default (fst k)))
        (flat_map (fun i => map (fun sl : slot => (sl, i)) (slots ms)) is)).
  { rewrite !flat_map_concat_map, concat_map, map_map. f_equal. apply map_ext. intros i. rewrite map_map. reflexivity. }
  rewrite Hops. 
  assert (Hfst : map fst (map (fun i => (i, Some (default_cell ms))) is) = is) by (rewrite map_map; apply map_id).
  assert (Hsl : forall sl v, In (sl, v) (combine (slots ms) (concat (default_cell ms))) -> v = s_default sl).
  { intros sl v H. rewrite (default_cell_flat ms 0) in H. fold (slots ms) in H. revert H.
    generalize (slots ms) as ss. induction ss as [|s ss IH]; simpl; [intros []|]. intros [E|H]; auto. congruence. }
  assert (Hk : forall k, In k (flat_map (fun i => map (fun sl : slot => (sl, i)) (slots ms)) is) ->
     In (fst k) (slots ms) /\ In (snd k) is).
  { intros [sl i] H. apply in_prod_idx in H. auto. }
  apply (step_region ms P p ci m Hw R (slot * Z) fst snd); auto.
  - rewrite Hfst; auto.
  - intros i c H. apply in_map_iff in H. destruct H as [j [E H]]. inversion E; subst. split; [apply Hi; auto|].
    apply default_cell_wf; auto.
  - rewrite (map_ext _ (fun k => k)) by (intros []; auto). rewrite map_id. apply NoDup_prod_idx; auto.
  - intros sl i. rewrite (map_ext _ (fun k => k)) by (intros []; auto). rewrite map_id, Hfst. apply in_prod_idx.
  - intros k _. exact I.
  - intros k Hk'. destruct (Hk k Hk') as [A B]. destruct (Hi _ B) as [C D].
    simpl. rewrite (region_bounds ms m p P ci) by auto.
    assert (Hok : val_ok (s_default (fst k)) (s_size (fst k)) = true).
    { destruct (cell_value ms (default_cell ms) (fst k)) as [v Hv]; auto. { apply default_cell_wf; auto. }
      pose proof (wf_cell_sizes ms (default_cell ms) 0 (default_cell_wf ms Hd)) as F. rewrite Forall_forall in F.
      specialize (F _ Hv). simpl in F. apply Hsl in Hv. subst v. unfold val_ok. lia. }
    rewrite Hok. simpl. rewrite (region_dead ms m p P ci) by auto. rewrite andb_false_r. destruct (s_class (fst k)); eauto.
  - intros k c v Hk' Hl Hv. apply in_map_iff in Hl. destruct Hl as [j [E Hl]]. inversion E; subst.
    apply Hsl in Hv. subst v. split; [reflexivity|]. intros ->. reflexivity.
  - intros k Hk' [Hl|Hl].
    + apply in_map_iff in Hl. destruct Hl as [j [E Hl]]. discriminate.
    + simpl. rewrite Hl. destruct (Hk k Hk') as [A B]. destruct (Hi _ B) as [C D].
      apply (region_dead ms m p P ci); auto.
Qed.

Lemma region_destroy : forall ms m p P ci is,
  wf_members ms -> region ms m p P ci ->
  NoDup is -> (forall i, In i is -> ci i <> None) ->
  exists m',
    exec (flat_map (fun i => map (fun sl => Destroy (sptr p P sl i) (s_size sl) (s_class sl)) (slots ms)) is) m = Val m' /\
    same_other m m' (pb p) /\ region ms m' p P (upd ci (map (fun i => (i, None)) is)).
Proof.
  intros ms m p P ci is Hw R Hn Hi.
  assert (Hops : flat_map (fun i => map (fun sl => Destroy (sptr p P sl i) (s_size sl) (s_class sl)) (slots ms)) is
    = map (fun k : slot * Z => Destroy (sptr p P (fst k) (snd k)) (s_size (fst k)) (s_class (fst k)))
        (flat_map (fun i => map (fun sl : slot => (sl, i)) (slots ms)) is)).
  { rewrite !flat_map_concat_map, concat_map, map_map. f_equal. apply map_ext. intros i. rewrite map_map. reflexivity. }
  rewrite Hops.
  assert (Hfst : map fst (map (fun i => (i, @None cell)) is) = is) by (rewrite map_map; apply map_id).
  assert (Hk : forall k, In k (flat_map (fun i => map (fun sl : slot => (sl, i)) (slots ms)) is) ->
     In (fst k) (slots ms) /\ In (snd k) is /\ exists c, ci (snd k) = Some c /\ 0 <= snd k < P).
  { intros [sl i] H. apply in_prod_idx in H. destruct H as [H1 H2]. split; auto. split; auto. simpl.
    specialize (Hi _ H2). destruct (ci i) as [c|] eqn:E; [|congruence]. exists c. split; auto.
    apply (rg_cell _ _ _ _ _ R i c E). }
  apply (step_region ms P p ci m Hw R (slot * Z) fst snd); auto.
  - rewrite Hfst; auto.
  - intros i c H. apply in_map_iff in H. destruct H as [j [E H]]. inversion E; subst. split; auto.
    specialize (Hi _ H). destruct (ci i) as [c|] eqn:E2; [|congruence]. apply (rg_cell _ _ _ _ _ R i c E2).
  - rewrite (map_ext _ (fun k => k)) by (intros []; auto). rewrite map_id. apply NoDup_prod_idx; auto.
  - intros sl i. rewrite (map_ext _ (fun k => k)) by (intros []; auto). rewrite map_id, Hfst. apply in_prod_idx.
  - intros k _. exact I.
  - intros k Hk'. destruct (Hk k Hk') as [A [B [c [C D]]]]. 
    simpl. rewrite (region_bounds ms m p P ci) by auto. destruct (s_class (fst k)) eqn:Ec; [|eauto].
    rewrite (region_live ms m p P ci _ c) by auto. eauto.
  - intros k c v Hk' Hl Hv. apply in_map_iff in Hl. destruct Hl as [j [E Hl]]. discriminate.
  - intros k Hk' _. destruct (Hk k Hk') as [A [B [c [C D]]]]. simpl. destruct (s_class (fst k)) eqn:Ec; auto.
    apply (region_trivial_dead ms m p P ci); auto.
Qed.

(** Storing cell values held by the caller. *)
Lemma region_assign : forall ms m p P ci (l : list (Z * cell)),
  wf_members ms -> region ms m p P ci ->
  NoDup (map fst l) -> (forall i c, In (i, c) l -> ci i <> None /\ wf_cell ms c) ->
  exists m',
    exec (flat_map (fun e => map (fun '(sl, v) => Assign (sptr p P sl (fst e)) (s_size sl) (s_class sl) v)
                                 (combine (slots ms) (concat (snd e)))) l) m = Val m' /\
    same_other m m' (pb p) /\ region ms m' p P (upd ci (map (fun e => (fst e, Some (snd e))) l)).
Proof.
  intros ms m p P ci l Hw R Hn Hi.
  set (keys := flat_map (fun e : Z * cell => map (fun sv : slot * elem => (fst sv, fst e, snd sv)) (combine (slots ms) (concat (snd e)))) l).
  assert (Hops : flat_map (fun e => map (fun '(sl, v) => Assign (sptr p P sl (fst e)) (s_size sl) (s_class sl) v)
                                 (combine (slots ms) (concat (snd e)))) l
    = map (fun k : slot * Z * elem => Assign (sptr p P (fst (fst k)) (snd (fst k))) (s_size (fst (fst k))) (s_class (fst (fst k))) (snd k)) keys).
  { unfold keys. rewrite !flat_map_concat_map, concat_map, map_map. f_equal. apply map_ext. intros e. rewrite map_map.
    apply map_ext. intros [sl v]. reflexivity. }
  rewrite Hops.
  assert (Hfst : map fst (map (fun e : Z * cell => (fst e, Some (snd e))) l) = map fst l) by (rewrite map_map; reflexivity).
  assert (Hk : forall k, In k keys -> exists c, In (snd (fst k), c) l /\ In (fst (fst k), snd k) (combine (slots ms) (concat c)) /\
      In (fst (fst k)) (slots ms) /\ 0 <= snd (fst k) < P /\ wf_cell ms c /\ ci (snd (fst k)) <> None).
  { intros k H. unfold keys in H. apply in_flat_map in H. destruct H as [[i c] [H1 H2]]. apply in_map_iff in H2.
    destruct H2 as [[sl v] [E H2]]. subst k. simpl in *. exists c. destruct (Hi _ _ H1) as [A B].
    repeat split; auto.
    - apply in_combine_l in H2; auto.
    - destruct (ci i) as [d|] eqn:E; [|congruence]. apply (rg_cell _ _ _ _ _ R i d E).
    - destruct (ci i) as [d|] eqn:E; [|congruence]. apply (rg_cell _ _ _ _ _ R i d E). }
  assert (Hkk : map (fun k : slot * Z * elem => (fst (fst k), snd (fst k))) keys =
     flat_map (fun i => map (fun sl : slot => (sl, i)) (slots ms)) (map fst l)).
  { unfold keys. rewrite !flat_map_concat_map, concat_map, !map_map. f_equal. apply map_ext_in. intros [i c] He.
    rewrite map_map. simpl. rewrite <- (map_map fst (fun sl => (sl, i))). f_equal.
    destruct (Hi _ _ He) as [_ Hc]. pose proof (length_slots_from ms 0 c Hc) as Hlen. fold (slots ms) in Hlen.
    revert Hlen. generalize (concat c) as vs. generalize (slots ms) as ss. clear.
    induction ss as [|s ss IH]; intros [|v vs] H; simpl in *; try discriminate; auto. f_equal. apply IH. lia. }
  apply (step_region ms P p ci m Hw R (slot * Z * elem) (fun k => fst (fst k)) (fun k => snd (fst k))); auto.
  - rewrite Hfst; auto.
  - intros i c H. apply in_map_iff in H. destruct H as [[j d] [E H]]. inversion E; subst. simpl in *.
    destruct (Hi _ _ H) as [A B]. split; auto.
    destruct (ci i) as [c'|] eqn:E2; [|congruence]. apply (rg_cell _ _ _ _ _ R i c' E2).
  - rewrite Hkk. apply NoDup_prod_idx; auto.
  - intros sl i. rewrite Hkk, Hfst. apply in_prod_idx.
  - intros k _. exact I.
  - intros k Hk'. destruct (Hk k Hk') as [c [A [B [C [D [E F]]]]]].
    simpl. rewrite (region_bounds ms m p P ci) by auto.
    pose proof (wf_cell_sizes ms c 0 E) as G. rewrite Forall_forall in G. specialize (G _ B). simpl in G.
    assert (val_ok (snd k) (s_size (fst (fst k))) = true) as -> by (unfold val_ok; lia). simpl.
    destruct (s_class (fst (fst k))) eqn:Ec; simpl; [|eauto].
    destruct (ci (snd (fst k))) as [d|] eqn:E2; [|congruence].
    rewrite (region_live ms m p P ci _ d) by auto. simpl. eauto.
  - intros k c v Hk' Hl Hv. destruct (Hk k Hk') as [c' [A [B [C [D [E F]]]]]].
    apply in_map_iff in Hl. destruct Hl as [[j d] [E2 Hl]]. inversion E2; subst. simpl in *.
    assert (Some c' = Some c).
    { rewrite <- (upd_in (fun _ => None) (map (fun e : Z * cell => (fst e, Some (snd e))) l) (snd (fst k)) (Some c')).
      - apply upd_in; [rewrite Hfst; auto|]. apply in_map_iff. exists (snd (fst k), c); auto.
      - rewrite Hfst; auto.
      - apply in_map_iff. exists (snd (fst k), c'); auto. }
    assert (c' = c) by congruence. subst c'.
    split. { simpl. eapply combine_NoDup_fun; [apply slots_NoDup; eauto| |]; eauto. }
    intros Hc. simpl. destruct (ci (snd (fst k))) as [d|] eqn:E3; [|congruence].
    apply (region_live ms m p P ci _ d); auto.
  - intros k Hk' [Hl|Hl].
    + apply in_map_iff in Hl. destruct Hl as [j [E Hl]]. discriminate.
    + simpl. destruct (Hk k Hk') as [c' [A [B [C [D [E F]]]]]]. apply (region_trivial_dead ms m p P ci); auto.
Qed.

(** Copying cells of a region [q] (other block) or of the same places in the same block.
    [prs]: (target index, source index). *)
Definition copy_key_op (p : ptr) (P : Z) (q : ptr) (Q : Z) (k : slot * Z * Z) : mop :=
  Copy (sptr p P (fst (fst k)) (snd (fst k))) (sptr q Q (fst (fst k)) (snd k)) (s_size (fst (fst k))) (s_class (fst (fst k))).

Lemma region_copy_ord : forall ms m p P ci q Q cj (prs : list (Z * Z)) (keys : list (slot * Z * Z)) (l : list (Z * option cell)),
  wf_members ms -> region ms m p P ci -> region ms m q Q cj ->
  (pb q <> pb p \/ (q = p /\ Q = P /\
     ForallOrdPairs (fun a b : slot * Z * Z => fst (fst a) <> fst (fst b) \/ snd (fst a) <> snd b) keys)) ->
  NoDup (map fst prs) ->
  (forall i j, In (i, j) prs -> ci i <> None /\ cj j <> None) ->
  NoDup (map fst keys) ->
  (forall sl i j, In (sl, i, j) keys <-> In sl (slots ms) /\ In (i, j) prs) ->
  l = map (fun e => (fst e, cj (snd e))) prs ->
  exists m',
    exec (map (copy_key_op p P q Q) keys) m = Val m' /\
    same_other m m' (pb p) /\ region ms m' p P (upd ci l).
Proof.
  intros ms m p P ci q Q cj prs keys l Hw R R' Hpq Hn Hi Hkn Hk ->.
  assert (Hfst : map fst (map (fun e : Z * Z => (fst e, cj (snd e))) prs) = map fst prs) by (rewrite map_map; reflexivity).
  assert (Hkk : map (fun k : slot * Z * Z => (fst (fst k), snd (fst k))) keys = map fst keys).
  { apply map_ext. intros [[]]. reflexivity. }
  assert (Hkey : forall k, In k keys -> exists c d, In (fst (fst k)) (slots ms) /\ In (snd (fst k), snd k) prs /\
     ci (snd (fst k)) = Some c /\ cj (snd k) = Some d).
  { intros [[sl i] j] H. apply Hk in H. destruct H as [A B]. destruct (Hi _ _ B) as [C D]. simpl.
    destruct (ci i) as [c|]; [|congruence]. destruct (cj j) as [d|]; [|congruence]. exists c, d. auto. }
  apply (step_region_ord ms P p ci m Hw R (slot * Z * Z) (fun k => fst (fst k)) (fun k => snd (fst k))); auto.
  - rewrite Hfst; auto.
  - intros i c H. apply in_map_iff in H. destruct H as [[i' j] [E H]]. inversion E; subst. simpl in *.
    destruct (Hi _ _ H) as [A B]. split.
    + destruct (ci i) as [c'|] eqn:E2; [|congruence]. apply (rg_cell _ _ _ _ _ R i c' E2).
    + destruct (cj j) as [c'|] eqn:E2; [|congruence]. apply (rg_cell _ _ _ _ _ R' j c' E2).
  - rewrite Hkk. auto.
  - intros sl i. rewrite Hkk, Hfst. split.
    + intros H. apply in_map_iff in H. destruct H as [[[s i'] j] [E H]]. simpl in E. inversion E; subst.
      apply Hk in H. destruct H as [A B]. split; auto. apply in_map_iff. exists (i, j); auto.
    + intros [A B]. apply in_map_iff in B. destruct B as [[i' j] [E B]]. simpl in E. subst i'.
      apply in_map_iff. exists (sl, i, j). split; auto. apply Hk; auto.
  - assert (G : ForallOrdPairs (fun a b : slot * Z * Z => pb q <> pb p \/
        (q = p /\ Q = P /\ (fst (fst a) <> fst (fst b) \/ snd (fst a) <> snd b))) keys).
    { destruct Hpq as [A|[A [B C]]].
      - clear -A. induction keys; constructor; auto. apply Forall_forall; auto.
      - eapply FOP_impl; [|exact C]. auto. }
    eapply FOP_impl; [|exact G]. intros a b Ha Hb H. cbn [copy_key_op op_src op_dst op_size].
    destruct H as [H|[-> [-> H]]]; [left; simpl; auto|].
    destruct (Hkey a Ha) as [c [d [A [B [C D]]]]]. destruct (Hkey b Hb) as [c' [d' [A' [B' [C' D']]]]].
    apply (keys_sep ms); auto.
    + apply (rg_cell _ _ _ _ _ R _ _ C).
    + apply (rg_cell _ _ _ _ _ R' _ _ D').
    + destruct H; congruence.
  - intros k Hk'. destruct (Hkey k Hk') as [c [d [A [B [C D]]]]]. simpl.
    destruct (rg_cell _ _ _ _ _ R _ _ C) as [C1 _]. destruct (rg_cell _ _ _ _ _ R' _ _ D) as [D1 _].
    rewrite (region_bounds ms m q Q cj) by auto. rewrite (region_bounds ms m p P ci) by auto.
    destruct (s_class (fst (fst k))) eqn:Ec; simpl; [|eauto].
    rewrite (region_live ms m q Q cj _ d) by auto. rewrite (region_live ms m p P ci _ c) by auto. simpl. eauto.
  - intros k c v Hk' Hl Hv. destruct (Hkey k Hk') as [c' [d [A [B [C D]]]]].
    assert (Hcj : cj (snd k) = Some c).
    { rewrite <- (upd_in (fun _ => None) (map (fun e : Z * Z => (fst e, cj (snd e))) prs) (snd (fst k)) (cj (snd k))).
      - apply upd_in; [rewrite Hfst; auto|]. auto.
      - rewrite Hfst; auto.
      - apply in_map_iff. exists (snd (fst k), snd k); auto. }
    destruct (rg_val _ _ _ _ _ R' _ _ _ _ Hcj Hv) as [V1 V2]. split; [exact V1|].
    intros Hc. simpl. apply (region_live ms m p P ci _ c'); auto.
  - intros k Hk' H. simpl. destruct (Hkey k Hk') as [c' [d [A [B [C D]]]]]. destruct H as [Hl|Hl].
    + apply in_map_iff in Hl. destruct Hl as [[i j] [E Hl]]. simpl in E. inversion E; subst.
      destruct (Hi _ _ Hl) as [_ X]. exfalso. auto.
    + apply (region_trivial_dead ms m p P ci); auto. apply (rg_cell _ _ _ _ _ R _ _ C).
Qed.

Lemma region_copy : forall ms m p P ci q Q cj (prs : list (Z * Z)) (keys : list (slot * Z * Z)) (l : list (Z * option cell)),
  wf_members ms -> region ms m p P ci -> region ms m q Q cj ->
  (pb q <> pb p \/ (q = p /\ Q = P /\ forall i j, In (i, j) prs -> i = j)) ->
  NoDup (map fst prs) ->
  (forall i j, In (i, j) prs -> ci i <> None /\ cj j <> None) ->
  NoDup (map fst keys) ->
  (forall sl i j, In (sl, i, j) keys <-> In sl (slots ms) /\ In (i, j) prs) ->
  l = map (fun e => (fst e, cj (snd e))) prs ->
  exists m',
    exec (map (copy_key_op p P q Q) keys) m = Val m' /\
    same_other m m' (pb p) /\ region ms m' p P (upd ci l).
Proof.
  intros ms m p P ci q Q cj prs keys l Hw R R' Hpq Hn Hi Hkn Hk Hl.
  apply (region_copy_ord ms m p P ci q Q cj prs keys l); auto.
  destruct Hpq as [A|[A [B C]]]; auto. right. split; auto. split; auto.
  assert (G : ForallOrdPairs (fun a b : slot * Z * Z => fst a <> fst b) keys).
  { apply FOP_NoDup in Hkn. clear -Hkn. induction keys as [|a r IH]; simpl in *; [constructor|].
    inversion Hkn as [|? ? F1 F2]; subst. constructor; auto. rewrite Forall_map in F1. exact F1. }
  eapply FOP_impl; [|exact G]. intros [[s i] j] [[s' i'] j'] Ha Hb H. cbn [fst snd] in *.
  apply Hk in Hb. destruct Hb as [_ Hb]. apply C in Hb. subst j'.
  destruct (Z.eq_dec i i'); auto. left. congruence.
Qed.

(** Reading. *)
Lemma region_read_elem : forall ms m p P ci i c sl v,
  wf_members ms -> region ms m p P ci -> ci i = Some c -> In (sl, v) (combine (slots ms) (concat c)) ->
  read_elem m (sptr p P sl i) (s_size sl) (s_class sl) = Val v.
Proof.
  intros ms m p P ci i c sl v Hw R Hc Hv. unfold read_elem.
  assert (Hs : In sl (slots ms)) by (apply in_combine_l in Hv; auto).
  destruct (rg_cell _ _ _ _ _ R _ _ Hc) as [Hi _]. rewrite (region_bounds ms m p P ci) by auto.
  destruct (rg_val _ _ _ _ _ R _ _ _ _ Hc Hv) as [V1 V2].
  destruct (s_class sl); simpl; [rewrite V2 by auto; simpl|]; rewrite V1; reflexivity.
Qed.

Lemma region_read_cell : forall ms m p a ci c,
  wf_members ms -> region ms m p (DIM_PROD (a_ext a)) ci -> ci (idx a) = Some c ->
  read_cell m p a ms = Val c.
Proof.
  intros ms m p a ci c Hw R Hc. apply read_cell_ok.
  - apply (rg_cell _ _ _ _ _ R _ _ Hc).
  - intros sl v Hv. eapply region_read_elem; eauto.
Qed.

(** Allocation and release. *)
Lemma alloc_region : forall ms m P m' p,
  0 <= P -> alloc m (total ms * P) = (m', p) ->
  region ms m' p P (fun _ => None).
Proof.
  intros ms m P m' p HP H. unfold alloc in H. inversion H; subst. constructor; simpl; auto; try discriminate.
  - rewrite Nat.eqb_refl. reflexivity.
  - rewrite Nat.eqb_refl. discriminate.
Qed.

Lemma free_region : forall ms m p P ci,
  region ms m p P ci -> (forall i, ci i = None) ->
  exists m', free m p (total ms * P) = Val m' /\
    mnext m' = mnext m /\ msize m' (pb p) = None /\
    (forall b, b <> pb p -> msize m' b = msize m b) /\
    (forall b o, mval m' b o = mval m b o) /\ (forall b o, mlive m' b o = mlive m b o) /\
    (forall o, mlive m' (pb p) o = false).
Proof.
  intros ms m p P ci R Hn. unfold free. rewrite (rg_size _ _ _ _ _ R), (rg_off _ _ _ _ _ R), !Z.eqb_refl. simpl.
  assert (HL : forall o, mlive m (pb p) o = false).
  { intros o. destruct (mlive m (pb p) o) eqn:E; auto. destruct (rg_live _ _ _ _ _ R _ E) as [i [c [sl [A _]]]].
    rewrite Hn in A. discriminate. }
  destruct (existsb _ _) eqn:E.
  - apply existsb_exists in E. destruct E as [o [_ E]]. rewrite HL in E. discriminate.
  - eexists. split; [reflexivity|]. simpl. rewrite Nat.eqb_refl. repeat split; auto.
    intros b Hb. destruct (Nat.eqb_spec b (pb p)); congruence.
Qed.
