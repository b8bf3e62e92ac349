(** Lemmas about Mem.v: what a list of element operations does to memory. *)
From Coq Require Import ZArith List Lia Bool Permutation.
From Verif Require Import Base Layout Mem.
Import ListNotations.
Open Scope Z_scope.

Definition op_dst (op : mop) : ptr :=
  match op with Construct p _ _ _ | Destroy p _ _ | Assign p _ _ _ | Copy p _ _ _ => p end.
Definition op_size (op : mop) : Z :=
  match op with Construct _ s _ _ | Destroy _ s _ | Assign _ s _ _ | Copy _ _ s _ => s end.
Definition op_src (op : mop) : option ptr :=
  match op with Copy _ q _ _ => Some q | _ => None end.

(** Bytes / liveness an operation leaves at its destination. *)
Definition op_val (m : mem) (op : mop) : elem :=
  match op with
  | Construct _ _ _ v | Assign _ _ _ v => v
  | Destroy p s cls => if cls then repeat None (Z.to_nat s) else read m p s
  | Copy _ q s _ => read m q s
  end.
Definition op_live (m : mem) (op : mop) : bool :=
  match op with
  | Construct p _ cls _ => if cls then true else live m p
  | Destroy p _ cls => if cls then false else live m p
  | Assign p _ _ _ | Copy p _ _ _ => live m p
  end.

Definition sep (p : ptr) (s : Z) (q : ptr) (t : Z) : Prop :=
  pb p <> pb q \/ po p + s <= po q \/ po q + t <= po p.

Lemma sep_sym : forall p s q t, sep p s q t -> sep q t p s.
Proof. unfold sep; intros; intuition. Qed.

(** [a] before [b] does not influence [b]. *)
Definition indep (a b : mop) : Prop :=
  sep (op_dst a) (op_size a) (op_dst b) (op_size b) /\
  match op_src b with None => True | Some q => sep (op_dst a) (op_size a) q (op_size b) end.

Definition op_pre (m : mem) (op : mop) : Prop :=
  0 < op_size op /\ exists m', exec1 m op = Val m'.

Lemma inside_spec : forall p s b o, inside p s b o = true <-> b = pb p /\ po p <= o < po p + s.
Proof.
  intros p s b o. unfold inside. rewrite !andb_true_iff, Nat.eqb_eq, Z.leb_le, Z.ltb_lt. lia.
Qed.

Lemma is_start_spec : forall p b o, is_start p b o = true <-> b = pb p /\ o = po p.
Proof. intros p b o. unfold is_start. rewrite andb_true_iff, Nat.eqb_eq, Z.eqb_eq. tauto. Qed.

Lemma length_read : forall m p s, length (read m p s) = Z.to_nat s.
Proof. intros. unfold read. rewrite map_length, length_zseq. reflexivity. Qed.

Lemma read_ext : forall m m' p s,
  (forall i, 0 <= i < s -> mval m (pb p) (po p + i) = mval m' (pb p) (po p + i)) ->
  read m p s = read m' p s.
Proof.
  intros m m' p s H. unfold read. apply map_ext_in. intros i Hi. apply in_zseq in Hi. auto.
Qed.

Lemma read_ext_inv : forall m m' p s,
  read m p s = read m' p s ->
  (forall i, 0 <= i < s -> mval m (pb p) (po p + i) = mval m' (pb p) (po p + i)).
Proof.
  intros m m' p s H i Hi. unfold read in H.
  assert (E : nth_error (map (fun i => mval m (pb p) (po p + i)) (zseq s)) (Z.to_nat i) =
              nth_error (map (fun i => mval m' (pb p) (po p + i)) (zseq s)) (Z.to_nat i)) by (rewrite H; auto).
  rewrite !nth_error_map, nth_error_zseq in E.
  destruct (Nat.ltb_spec (Z.to_nat i) (Z.to_nat s)); [|lia]. simpl in E. rewrite Z2Nat.id in E by lia. congruence.
Qed.

Lemma list_eq_nth : forall (A : Type) (l l' : list A),
  length l = length l' ->
  (forall i x, nth_error l i = Some x -> nth_error l' i = Some x) -> l = l'.
Proof.
  intros A l. induction l as [|a l IH]; intros [|b l'] Hl H; simpl in *; auto; try discriminate.
  f_equal.
  - specialize (H 0%nat a eq_refl). simpl in H. congruence.
  - apply IH; [lia|]. intros i x E. apply (H (S i) x E).
Qed.

Lemma read_write_same : forall m p v s,
  Z.of_nat (length v) = s -> read (write m p v) p s = v.
Proof.
  intros m p v s Hs. apply list_eq_nth; [rewrite length_read; lia|].
  intros i x E. unfold read in E. rewrite nth_error_map, nth_error_zseq in E.
  destruct (Nat.ltb_spec i (Z.to_nat s)) as [Hi|Hi]; [|discriminate]. simpl in E.
  assert (Hin : inside p (Z.of_nat (length v)) (pb p) (po p + Z.of_nat i) = true) by (apply inside_spec; lia).
  rewrite Hin in E. inversion E as [Hx].
  replace (po p + Z.of_nat i - po p) with (Z.of_nat i) by lia. rewrite Nat2Z.id.
  apply nth_error_nth'. lia.
Qed.

Lemma read_write_sep : forall m p v q t,
  sep p (Z.of_nat (length v)) q t -> read (write m p v) q t = read m q t.
Proof.
  intros m p v q t H. apply read_ext. intros i Hi. simpl.
  destruct (inside p (Z.of_nat (length v)) (pb q) (po q + i)) eqn:E; auto.
  apply inside_spec in E. unfold sep in H. lia.
Qed.

Lemma read_set_live : forall m p l q t, read (set_live m p l) q t = read m q t.
Proof. reflexivity. Qed.

Lemma chk_bounds_ext : forall m m' p s, (forall b, msize m' b = msize m b) -> chk_bounds m' p s = chk_bounds m p s.
Proof. intros m m' p s H. unfold chk_bounds. rewrite H. reflexivity. Qed.

(** One operation. *)
Lemma exec1_spec : forall m op m',
  0 < op_size op -> exec1 m op = Val m' ->
  mnext m' = mnext m /\ (forall b, msize m' b = msize m b) /\
  read m' (op_dst op) (op_size op) = op_val m op /\
  live m' (op_dst op) = op_live m op /\
  (forall b o, inside (op_dst op) (op_size op) b o = false -> mval m' b o = mval m b o) /\
  (forall b o, is_start (op_dst op) b o = false -> mlive m' b o = mlive m b o).
Proof.
  intros m op m' Hs H.
  assert (ST : forall p, is_start p (pb p) (po p) = true) by (intros; apply is_start_spec; auto).
  assert (WR : forall p v s, Z.of_nat (length v) = s -> forall b o, inside p s b o = false -> mval (write m p v) b o = mval m b o).
  { intros p v s Hl b o Ho. simpl. rewrite Hl, Ho. reflexivity. }
  destruct op as [p s cls v|p s cls|p s cls v|d q s cls]; simpl in *.
  - destruct (chk_bounds m p s); [discriminate|].
    destruct (val_ok v s) eqn:Ev; [|discriminate]. apply Z.eqb_eq in Ev. simpl in H.
    destruct (cls && live m p); [discriminate|]. inversion H; subst m'; clear H.
    destruct cls; simpl; repeat split; auto.
    + rewrite read_set_live. apply read_write_same; auto.
    + unfold live; simpl. rewrite ST. reflexivity.
    + intros b o Ho. apply (WR p v s Ev b o Ho).
    + intros b o Ho. rewrite Ho. reflexivity.
    + apply read_write_same; auto.
    + intros b o Ho. apply (WR p v s Ev b o Ho).
  - destruct (chk_bounds m p s); [discriminate|]. destruct cls.
    + destruct (live m p); [|discriminate]. inversion H; subst m'; clear H. simpl; repeat split; auto.
      * rewrite read_set_live. apply read_write_same. rewrite repeat_length. lia.
      * unfold live; simpl. rewrite ST. reflexivity.
      * intros b o Ho. apply (WR p (repeat None (Z.to_nat s)) s); auto. rewrite repeat_length. lia.
      * intros b o Ho. rewrite Ho. reflexivity.
    + inversion H; subst m'; clear H. repeat split; auto.
  - destruct (chk_bounds m p s); [discriminate|].
    destruct (val_ok v s) eqn:Ev; [|discriminate]. apply Z.eqb_eq in Ev. simpl in H.
    destruct (cls && negb (live m p)); [discriminate|]. inversion H; subst m'; clear H.
    simpl; repeat split; auto.
    + apply read_write_same; auto.
    + intros b o Ho. apply (WR p v s Ev b o Ho).
  - destruct (chk_bounds m q s); [discriminate|]. destruct (chk_bounds m d s); [discriminate|].
    destruct (cls && negb (live m q)); [discriminate|]. destruct (cls && negb (live m d)); [discriminate|].
    inversion H; subst m'; clear H. 
    assert (El : Z.of_nat (length (read m q s)) = s) by (rewrite length_read; lia).
    simpl; repeat split; auto.
    + apply read_write_same; auto.
    + intros b o Ho. apply (WR d (read m q s) s El b o Ho).
Qed.

(** State agreement on an operation's footprint. *)
Lemma exec1_pre_ext : forall m m1 op,
  (forall b, msize m1 b = msize m b) ->
  live m1 (op_dst op) = live m (op_dst op) ->
  read m1 (op_dst op) (op_size op) = read m (op_dst op) (op_size op) ->
  match op_src op with
  | None => True
  | Some q => live m1 q = live m q /\ read m1 q (op_size op) = read m q (op_size op)
  end ->
  op_pre m op -> op_pre m1 op /\ op_val m1 op = op_val m op /\ op_live m1 op = op_live m op.
Proof.
  intros m m1 op Hsz Hl Hr Hsrc [Hs [m' He]]. split.
  - split; auto.
    destruct op as [p s cls v|p s cls|p s cls v|d q s cls]; simpl in *;
      rewrite ?(chk_bounds_ext m m1) by auto.
    + destruct (chk_bounds m p s); [discriminate|]. destruct (negb (val_ok v s)); [discriminate|].
      rewrite Hl. destruct (cls && live m p); [discriminate|]. eauto.
    + destruct (chk_bounds m p s); [discriminate|]. destruct cls; [|eauto].
      rewrite Hl. destruct (live m p); [|discriminate]. eauto.
    + destruct (chk_bounds m p s); [discriminate|]. destruct (negb (val_ok v s)); [discriminate|].
      rewrite Hl. destruct (cls && negb (live m p)); [discriminate|]. eauto.
    + destruct Hsrc as [Hlq Hrq].
      destruct (chk_bounds m q s); [discriminate|]. destruct (chk_bounds m d s); [discriminate|].
      rewrite Hl, Hlq. destruct (cls && negb (live m q)); [discriminate|].
      destruct (cls && negb (live m d)); [discriminate|]. eauto.
  - destruct op as [p s cls v|p s cls|p s cls v|d q s cls]; simpl in *; auto.
    + destruct cls; auto.
    + destruct cls; auto.
    + destruct Hsrc as [Hlq Hrq]. auto.
Qed.

Lemma indep_preserves : forall m a b m1,
  op_pre m a -> exec1 m a = Val m1 -> indep a b -> op_pre m b ->
  op_pre m1 b /\ op_val m1 b = op_val m b /\ op_live m1 b = op_live m b.
Proof.
  intros m a b m1 Ha He [Hd Hsrc] Hb. destruct Ha as [Hsa _].
  destruct (exec1_spec _ _ _ Hsa He) as [_ [Hsz [_ [_ [Hfr Hfl]]]]].
  assert (Hsb : 0 < op_size b) by (destruct Hb; auto).
  assert (FR : forall q t, 0 < t -> sep (op_dst a) (op_size a) q t -> live m1 q = live m q /\ read m1 q t = read m q t).
  { intros q t Ht Hsep. split.
    - unfold live. apply Hfl. destruct (is_start (op_dst a) (pb q) (po q)) eqn:E; auto.
      apply is_start_spec in E. unfold sep in Hsep. lia.
    - apply read_ext. intros i Hi. apply Hfr. destruct (inside _ _ _ _) eqn:E; auto.
      apply inside_spec in E. unfold sep in Hsep. lia. }
  apply exec1_pre_ext; auto.
  - apply FR with (t := op_size b); auto.
  - apply FR; auto.
  - destruct (op_src b) as [q|]; auto.
Qed.

Definition outside (ops : list mop) (b : nat) (o : Z) : Prop :=
  forall op, In op ops -> inside (op_dst op) (op_size op) b o = false.
Definition no_start (ops : list mop) (b : nat) (o : Z) : Prop :=
  forall op, In op ops -> is_start (op_dst op) b o = false.

Record exec_post (m : mem) (ops : list mop) (m' : mem) : Prop := {
  ep_next : mnext m' = mnext m;
  ep_size : forall b, msize m' b = msize m b;
  ep_val : forall op, In op ops -> read m' (op_dst op) (op_size op) = op_val m op;
  ep_live : forall op, In op ops -> live m' (op_dst op) = op_live m op;
  ep_frame : forall b o, outside ops b o -> mval m' b o = mval m b o;
  ep_frame_live : forall b o, no_start ops b o -> mlive m' b o = mlive m b o }.

(** The main lemma: independent operations all take effect, relative to the initial
    memory, and change nothing else. *)
Lemma exec_indep : forall ops m,
  Forall (op_pre m) ops -> ForallOrdPairs indep ops ->
  exists m', exec ops m = Val m' /\ exec_post m ops m'.
Proof.
  induction ops as [|a ops IH]; intros m Hpre Hind.
  - exists m. split; [reflexivity|]. constructor; auto; intros op [].
  - inversion Hpre as [|? ? Ha Hpre']; subst. inversion Hind as [|? ? Hia Hind']; subst.
    destruct Ha as [Hsa [m1 He]]. 
    destruct (exec1_spec _ _ _ Hsa He) as [Hn [Hsz [Hv [Hl [Hfr Hfl]]]]].
    rewrite Forall_forall in Hia, Hpre'.
    assert (HP : forall b, In b ops -> op_pre m1 b /\ op_val m1 b = op_val m b /\ op_live m1 b = op_live m b).
    { intros b Hb. apply (indep_preserves m a b m1); auto. split; eauto. }
    destruct (IH m1) as [m2 [He2 P2]].
    + apply Forall_forall. intros b Hb. apply HP; auto.
    + auto.
    + exists m2. split; [simpl; rewrite He; auto|]. constructor.
      * rewrite (ep_next _ _ _ P2). auto.
      * intros b. rewrite (ep_size _ _ _ P2). auto.
      * intros op [<-|Hin].
        -- rewrite <- Hv. apply read_ext. intros i Hi. apply (ep_frame _ _ _ P2). intros b Hb.
           destruct (inside _ _ _ _) eqn:E; auto. apply inside_spec in E.
           destruct (Hia b Hb) as [Hsep _]. unfold sep in Hsep. lia.
        -- rewrite (ep_val _ _ _ P2 op Hin). apply HP; auto.
      * intros op [<-|Hin].
        -- rewrite <- Hl. unfold live. apply (ep_frame_live _ _ _ P2). intros b Hb.
           destruct (is_start _ _ _) eqn:E; auto. apply is_start_spec in E.
           destruct (Hia b Hb) as [Hsep _]. destruct (HP b Hb) as [[Hsb _] _]. unfold sep in Hsep. lia.
        -- rewrite (ep_live _ _ _ P2 op Hin). apply HP; auto.
      * intros b o Hout. rewrite (ep_frame _ _ _ P2).
        -- apply Hfr. apply Hout. simpl; auto.
        -- intros op Hin. apply Hout. simpl; auto.
      * intros b o Hout. rewrite (ep_frame_live _ _ _ P2).
        -- apply Hfl. apply Hout. simpl; auto.
        -- intros op Hin. apply Hout. simpl; auto.
Qed.

Lemma exec_app : forall a b m,
  exec (a ++ b) m = match exec a m with Val m' => exec b m' | Fault f => Fault f end.
Proof.
  induction a as [|op a IH]; intros b m; simpl; auto. destruct (exec1 m op); auto.
Qed.

(** Memories that cannot be told apart by the machine. *)
Definition mem_eq (m m' : mem) : Prop :=
  mnext m = mnext m' /\ (forall b, msize m b = msize m' b) /\
  (forall b o, mval m b o = mval m' b o) /\ (forall b o, mlive m b o = mlive m' b o).

Lemma decide_inside : forall ops b o,
  outside ops b o \/ exists op, In op ops /\ inside (op_dst op) (op_size op) b o = true.
Proof.
  intros ops b o. destruct (existsb (fun op => inside (op_dst op) (op_size op) b o) ops) eqn:E.
  - right. apply existsb_exists in E. auto.
  - left. intros op Hin. destruct (inside _ _ _ _) eqn:E2; auto.
    assert (existsb (fun op => inside (op_dst op) (op_size op) b o) ops = true) by (apply existsb_exists; eauto). congruence.
Qed.

Lemma decide_start : forall ops b o,
  no_start ops b o \/ exists op, In op ops /\ is_start (op_dst op) b o = true.
Proof.
  intros ops b o. destruct (existsb (fun op => is_start (op_dst op) b o) ops) eqn:E.
  - right. apply existsb_exists in E. auto.
  - left. intros op Hin. destruct (is_start _ _ _) eqn:E2; auto.
    assert (existsb (fun op => is_start (op_dst op) b o) ops = true) by (apply existsb_exists; eauto). congruence.
Qed.

(** The outcome is determined by the set of operations. *)
Lemma exec_post_unique : forall m ops ops' m1 m2,
  (forall op, In op ops <-> In op ops') ->
  exec_post m ops m1 -> exec_post m ops' m2 -> mem_eq m1 m2.
Proof.
  intros m ops ops' m1 m2 Hset P1 P2. split; [|split; [|split]].
  - rewrite (ep_next _ _ _ P1), (ep_next _ _ _ P2). reflexivity.
  - intros b. rewrite (ep_size _ _ _ P1), (ep_size _ _ _ P2). reflexivity.
  - intros b o. destruct (decide_inside ops b o) as [H|[op [Hin H]]].
    + rewrite (ep_frame _ _ _ P1) by auto. rewrite (ep_frame _ _ _ P2); auto.
      intros op Hin. apply H. apply Hset; auto.
    + assert (E : read m1 (op_dst op) (op_size op) = read m2 (op_dst op) (op_size op)).
      { rewrite (ep_val _ _ _ P1) by auto. rewrite (ep_val _ _ _ P2); auto. apply Hset; auto. }
      apply inside_spec in H. destruct H as [-> Ho].
      pose proof (read_ext_inv _ _ _ _ E (o - po (op_dst op))) as G.
      replace (po (op_dst op) + (o - po (op_dst op))) with o in G by lia. apply G. lia.
  - intros b o. destruct (decide_start ops b o) as [H|[op [Hin H]]].
    + rewrite (ep_frame_live _ _ _ P1) by auto. rewrite (ep_frame_live _ _ _ P2); auto.
      intros op Hin. apply H. apply Hset; auto.
    + apply is_start_spec in H. destruct H as [-> ->].
      change (live m1 (op_dst op) = live m2 (op_dst op)).
      rewrite (ep_live _ _ _ P1) by auto. rewrite (ep_live _ _ _ P2); auto. apply Hset; auto.
Qed.

(** Mutually independent operations: any order gives the same memory. *)
Definition indep2 (a b : mop) : Prop := indep a b /\ indep b a.

Lemma FOP_perm : forall (A : Type) (R : A -> A -> Prop) l l',
  (forall a b, R a b -> R b a) -> Permutation l l' -> ForallOrdPairs R l -> ForallOrdPairs R l'.
Proof.
  intros A R l l' Hsym HP. induction HP as [|x l l' HP IH|x y l|l l' l'' H1 IH1 H2 IH2]; intros H; auto.
  - inversion H; subst. constructor; auto. eapply Permutation_Forall; eauto.
  - inversion H as [|? ? F1 H']; subst. inversion H' as [|? ? F2 H'']; subst.
    inversion F1; subst. constructor; [constructor; auto|]. constructor; auto.
Qed.

Lemma exec_perm : forall ops ops' m,
  Forall (op_pre m) ops -> ForallOrdPairs indep2 ops -> Permutation ops ops' ->
  exists m1 m2, exec ops m = Val m1 /\ exec ops' m = Val m2 /\ mem_eq m1 m2 /\ exec_post m ops m1.
Proof.
  intros ops ops' m Hpre Hind HP.
  assert (Hind' : ForallOrdPairs indep2 ops') by (eapply FOP_perm; eauto; unfold indep2; tauto).
  destruct (exec_indep ops m) as [m1 [E1 P1]]; auto.
  { eapply FOP_impl; [|exact Hind]. unfold indep2; tauto. }
  destruct (exec_indep ops' m) as [m2 [E2 P2]]; auto.
  { eapply Permutation_Forall; eauto. }
  { eapply FOP_impl; [|exact Hind']. unfold indep2; tauto. }
  exists m1, m2. split; auto. split; auto. split; auto.
  eapply exec_post_unique; eauto. intros op. split; apply Permutation_in; auto. apply Permutation_sym; auto.
Qed.

(** mapR *)
Lemma mapR_Val : forall (A B : Type) (f : A -> result B) (g : A -> B) l,
  (forall a, In a l -> f a = Val (g a)) -> mapR f l = Val (map g l).
Proof.
  intros A B f g l. induction l as [|a l IH]; intros H; simpl; auto.
  rewrite (H a) by (simpl; auto). rewrite IH; auto. intros; apply H; simpl; auto.
Qed.
