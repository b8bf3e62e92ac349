(** List and arithmetic helpers used by the proofs (no model content). *)
From Coq Require Import ZArith List Lia Bool FinFun.
From Coq Require Export ZifyBool ZifyNat.
Import ListNotations.
Open Scope Z_scope.

(** [zseq n] = [0; 1; ...; n-1]: the values a counter takes in
    [for (size_t i = 0; i < n; ++i)]. *)
Definition zseq (n : Z) : list Z := map Z.of_nat (seq 0 (Z.to_nat n)).

Lemma in_zseq : forall n i, In i (zseq n) <-> 0 <= i < n.
Proof.
  intros n i. unfold zseq. rewrite in_map_iff. split.
  - intros [k [Hk Hin]]. apply in_seq in Hin. lia.
  - intros H. exists (Z.to_nat i). split; [lia|]. apply in_seq. lia.
Qed.

Lemma length_zseq : forall n, length (zseq n) = Z.to_nat n.
Proof. intros. unfold zseq. rewrite map_length, seq_length. reflexivity. Qed.

Lemma nth_error_zseq : forall n i,
  nth_error (zseq n) i = if Nat.ltb i (Z.to_nat n) then Some (Z.of_nat i) else None.
Proof.
  intros n i. unfold zseq.
  destruct (Nat.ltb_spec i (Z.to_nat n)) as [H|H].
  - rewrite nth_error_map. rewrite (nth_error_nth' _ 0%nat).
    + simpl. rewrite seq_nth by lia. reflexivity.
    + rewrite seq_length. lia.
  - apply nth_error_None. rewrite map_length, seq_length. lia.
Qed.

Lemma NoDup_zseq : forall n, NoDup (zseq n).
Proof.
  intros n. unfold zseq. apply Injective_map_NoDup.
  - intros a b H. lia.
  - apply seq_NoDup.
Qed.

(** Pairs in list order. *)
Lemma FOP_app : forall (A : Type) (R : A -> A -> Prop) l1 l2,
  ForallOrdPairs R l1 -> ForallOrdPairs R l2 ->
  (forall a b, In a l1 -> In b l2 -> R a b) ->
  ForallOrdPairs R (l1 ++ l2).
Proof.
  intros A R l1 l2 H1 H2 H. induction H1 as [|a l Hf H1 IH]; simpl; auto.
  constructor.
  - apply Forall_app. split; auto.
    apply Forall_forall. intros b Hb. apply H; simpl; auto.
  - apply IH. intros; apply H; simpl; auto.
Qed.

Lemma FOP_impl : forall (A : Type) (R R' : A -> A -> Prop) l,
  (forall a b, In a l -> In b l -> R a b -> R' a b) ->
  ForallOrdPairs R l -> ForallOrdPairs R' l.
Proof.
  intros A R R' l H HR. induction HR as [|a l Hf HR IH]; constructor.
  - rewrite Forall_forall in *. intros b Hb. apply H; simpl; auto.
  - apply IH. intros; apply H; simpl; auto.
Qed.

Lemma FOP_map : forall (A B : Type) (f : A -> B) (R : B -> B -> Prop) l,
  ForallOrdPairs (fun a b => R (f a) (f b)) l -> ForallOrdPairs R (map f l).
Proof.
  intros A B f R l H. induction H as [|a l Hf H IH]; simpl; constructor; auto.
  apply Forall_map. exact Hf.
Qed.

Lemma FOP_flat_map : forall (A B : Type) (f : A -> list B) (R : B -> B -> Prop) l,
  (forall a, In a l -> ForallOrdPairs R (f a)) ->
  ForallOrdPairs (fun a b => forall x y, In x (f a) -> In y (f b) -> R x y) l ->
  ForallOrdPairs R (flat_map f l).
Proof.
  intros A B f R l H1 H2. induction H2 as [|a l Hf H2 IH]; simpl; [constructor|].
  apply FOP_app.
  - apply H1; simpl; auto.
  - apply IH. intros; apply H1; simpl; auto.
  - intros x y Hx Hy. apply in_flat_map in Hy. destruct Hy as [b [Hb Hy]].
    rewrite Forall_forall in Hf. eapply Hf; eauto.
Qed.

Lemma FOP_NoDup : forall (A : Type) (l : list A),
  NoDup l -> ForallOrdPairs (fun a b => a <> b) l.
Proof.
  intros A l H. induction H as [|a l Hn H IH]; constructor; auto.
  apply Forall_forall. intros b Hb E. subst. contradiction.
Qed.

Lemma FOP_In2 : forall (A : Type) (R : A -> A -> Prop) l x y,
  ForallOrdPairs R l -> In x l -> In y l -> x = y \/ R x y \/ R y x.
Proof. intros A R l x y H Hx Hy. eapply ForallOrdPairs_In in H; eauto. Qed.

Lemma FOP_app_inv : forall (A : Type) (R : A -> A -> Prop) l1 l2,
  ForallOrdPairs R (l1 ++ l2) ->
  ForallOrdPairs R l1 /\ ForallOrdPairs R l2 /\ (forall a b, In a l1 -> In b l2 -> R a b).
Proof.
  intros A R l1 l2. induction l1 as [|a l1 IH]; simpl; intros H.
  - split; [constructor|]. split; auto. intros ? ? [].
  - inversion H as [|a' l' Hf Hr]; subst. destruct (IH Hr) as [H1 [H2 H3]].
    apply Forall_app in Hf. destruct Hf as [Hf1 Hf2]. split; [constructor; auto|].
    split; auto. intros x y [Hx|Hx] Hy; subst; auto.
    rewrite Forall_forall in Hf2. auto.
Qed.

(** Division helpers. *)
Lemma divmod_unique : forall d q r q' r',
  0 <= r < d -> 0 <= r' < d -> q * d + r = q' * d + r' -> q = q' /\ r = r'.
Proof.
  intros d q r q' r' Hr Hr' H.
  assert (Hq : q = q') by nia. subst. split; [auto|lia].
Qed.
