(** Statements C10-C13: size policies. *)
From Coq Require Import ZArith List Lia Bool.
From Verif Require Import Base Layout LayoutProofs Sizes SizesProofs.
Import ListNotations.
Open Scope Z_scope.

(** ** C10 *)
(** The chosen extents cover the dimensions (no assumption on the lists). *)
Theorem C10_extents_cover : forall cfg x y z e,
  choose cfg x y z = inr e -> x <= DIM_X e /\ y <= DIM_Y e /\ z <= DIM_Z e.
Proof. exact choose_covers. Qed.

(** [least d l s]: [s] is the least entry of [l] that is at least [d]. *)
Definition least (d : Z) (l : list Z) (s : Z) : Prop :=
  In s l /\ d <= s /\ forall t, In t l -> d <= t -> s <= t.

(** What each policy promises. *)
Definition promised (cfg : sizes_cfg) (x y z : Z) (e : extent) : Prop :=
  match cfg with
  | Custom xs ys zs => least x xs (DIM_X e) /\ least y ys (DIM_Y e) /\ least z zs (DIM_Z e)
  | Uniform1D l => least x l (DIM_X e) /\ DIM_Y e = 1 /\ DIM_Z e = 1
  | Uniform2D l => least (Z.max x y) l (DIM_X e) /\ DIM_Y e = DIM_X e /\ DIM_Z e = 1
  | Uniform3D l => least (Z.max x (Z.max y z)) l (DIM_X e) /\ DIM_Y e = DIM_X e /\ DIM_Z e = DIM_X e
  | Default =>
      (1 < y /\ 1 < z /\ least (Z.max x (Z.max y z)) default_3d_sizes (DIM_X e) /\ DIM_Y e = DIM_X e /\ DIM_Z e = DIM_X e) \/
      (1 < y /\ z = 1 /\ least (Z.max x y) default_2d_sizes (DIM_X e) /\ DIM_Y e = DIM_X e /\ DIM_Z e = 1) \/
      (y = 1 /\ z = 1 /\ least x default_1d_sizes (DIM_X e) /\ DIM_Y e = 1 /\ DIM_Z e = 1)
  end.

Theorem C10_extents_minimal : forall cfg x y z e,
  Forall ascending (cfg_lists cfg) -> choose cfg x y z = inr e -> promised cfg x y z e.
Proof.
  intros cfg x y z e Ha H. pose proof (choose_spec cfg x y z e Ha H) as S.
  destruct S; simpl; unfold least, minimal, max3 in *; auto 10.
  - left. inversion S; subst; simpl; unfold minimal, max3 in *; auto 10.
  - right; left. inversion S; subst; simpl; unfold minimal in *; auto 10.
  - right; right. inversion S; subst; simpl; unfold minimal in *; auto 10.
Qed.

Example C10_case :
  choose (Custom [10; 20; 30] [5; 50] [7]) 11 5 6 = inr (mkExt 20 5 7) /\
  Forall ascending (cfg_lists (Custom [10; 20; 30] [5; 50] [7])) /\
  choose has_default_3d_sizes 129 33 1 = inr (mkExt 136 64 32).
Proof. repeat split; repeat constructor; cbn; lia. Qed.

(** ** C11 *)
(** The functor is an arbitrary state transformer (possibly throwing); callback
    runs it once on the chosen extents or throws without running it. *)
Theorem C11_functor_called_once_or_rejected :
  forall (S : Type) (f : extent -> S -> exn * S + S) (s : S) cfg x y z,
  let callback := select_sizes (S -> exn * S + S) (fun ex s => inl (ex, s)) f cfg x y z in
  (supported cfg x y z -> exists e, choose cfg x y z = inr e /\ callback s = f e s) /\
  (~ supported cfg x y z -> callback s = inl (OutOfRange, s)).
Proof.
  intros S f s cfg x y z callback. unfold callback. rewrite select_sizes_choose.
  rewrite <- choose_supported. split.
  - intros [e He]. exists e. rewrite He. auto.
  - intros H. destruct (choose cfg x y z) as [er|e] eqn:E.
    + rewrite (choose_error _ _ _ _ _ E). reflexivity.
    + exfalso. eauto.
Qed.

Theorem C11_supported_iff : forall cfg x y z,
  (exists e, choose cfg x y z = inr e) <->
  match cfg with
  | Custom xs ys zs => (exists t, In t xs /\ x <= t) /\ (exists t, In t ys /\ y <= t) /\ (exists t, In t zs /\ z <= t)
  | Uniform1D l => y = 1 /\ z = 1 /\ (exists t, In t l /\ x <= t)
  | Uniform2D l => z = 1 /\ (exists t, In t l /\ x <= t) /\ (exists t, In t l /\ y <= t)
  | Uniform3D l => (exists t, In t l /\ x <= t) /\ (exists t, In t l /\ y <= t) /\ (exists t, In t l /\ z <= t)
  | Default =>
      (1 < y /\ 1 < z /\ x <= 1032 /\ y <= 1032 /\ z <= 1032) \/
      (1 < y /\ z = 1 /\ x <= 32800 /\ y <= 32800) \/
      (y = 1 /\ z = 1 /\ x <= 1073741856)
  end.
Proof. exact choose_supported. Qed.

Example C11_case :
  choose (Uniform2D [8; 16]) 9 16 1 = inr (mkExt 16 16 1) /\ choose (Uniform2D [8; 16]) 9 17 1 = inl OutOfRange /\
  choose (Uniform2D [8; 16]) 9 9 2 = inl OutOfRange.
Proof. repeat split. Qed.

(** ** C12 *)
Theorem C12_const_same_extents : forall cfg x y z,
  match cfg with Uniform1D l => Forall (fun s => 1 <= s) l | _ => True end ->
  choose_const cfg x y z = choose cfg x y z.
Proof. exact choose_const_eq. Qed.

(** Without the positivity assumption the two overloads can disagree. *)
Theorem C12_zero_size_differs : exists l x,
  choose (Uniform1D l) x 1 1 = inr (mkExt 0 1 1) /\ choose_const (Uniform1D l) x 1 1 = inr (mkExt 8 1 1).
Proof. exists [0; 8], 0. split; reflexivity. Qed.

Example C12_case : choose_const has_default_1d_sizes 33 1 1 = inr (mkExt 64 1 1).
Proof. reflexivity. Qed.

(** ** C13 *)
Theorem C13_default_cube : forall x y z,
  1 < y <= 1032 -> 1 < z <= 1032 -> x <= 1032 ->
  exists s, choose Default x y z = inr (mkExt s s s) /\ least (Z.max x (Z.max y z)) default_3d_sizes s.
Proof.
  intros x y z Hy Hz Hx.
  assert (Hs : supported Default x y z) by (simpl; lia).
  apply choose_supported in Hs. destruct Hs as [e He].
  pose proof (choose_spec _ _ _ _ _ ascending_Default He) as S.
  inversion S; subst; try lia.
  match goal with H : spec_extent (Uniform3D _) _ _ _ _ |- _ => inversion H; subst end. eauto.
Qed.

Theorem C13_default_square : forall x y,
  1 < y <= 32800 -> x <= 32800 ->
  exists s, choose Default x y 1 = inr (mkExt s s 1) /\ least (Z.max x y) default_2d_sizes s.
Proof.
  intros x y Hy Hx.
  assert (Hs : supported Default x y 1) by (simpl; lia).
  apply choose_supported in Hs. destruct Hs as [e He].
  pose proof (choose_spec _ _ _ _ _ ascending_Default He) as S.
  inversion S; subst; try lia.
  match goal with H : spec_extent (Uniform2D _) _ _ _ _ |- _ => inversion H; subst end. eauto.
Qed.

Theorem C13_default_line : forall x, x <= 1073741856 ->
  exists s, choose Default x 1 1 = inr (mkExt s 1 1) /\ least x default_1d_sizes s.
Proof.
  intros x Hx.
  assert (Hs : supported Default x 1 1) by (simpl; lia).
  apply choose_supported in Hs. destruct Hs as [e He].
  pose proof (choose_spec _ _ _ _ _ ascending_Default He) as S.
  inversion S; subst; try lia.
  match goal with H : spec_extent (Uniform1D _) _ _ _ _ |- _ => inversion H; subst end. eauto.
Qed.

(** The property's last clause ("every such non-degenerate box is accepted") is about
    the three families above. A box that is flat in y but not in z is rejected,
    however small, and so are boxes with a zero y or z. *)
Theorem C13_flat_y_rejected : forall x y z,
  y <= 1 -> (y <> 1 \/ z <> 1) -> choose Default x y z = inl OutOfRange.
Proof.
  intros x y z Hy H. destruct (choose Default x y z) as [er|e] eqn:E.
  - rewrite (choose_error _ _ _ _ _ E). reflexivity.
  - exfalso. assert (S : supported Default x y z) by (apply choose_supported; eauto). simpl in S. lia.
Qed.

Example C13_case : choose Default 5 1 2 = inl OutOfRange /\ choose Default 100 2 1 = inr (mkExt 128 128 1).
Proof. split; reflexivity. Qed.

Print Assumptions C10_extents_cover.
Print Assumptions C10_extents_minimal.
Print Assumptions C11_functor_called_once_or_rejected.
Print Assumptions C11_supported_iff.
Print Assumptions C12_const_same_extents.
Print Assumptions C12_zero_size_differs.
Print Assumptions C13_default_cube.
Print Assumptions C13_default_square.
Print Assumptions C13_default_line.
Print Assumptions C13_flat_y_rejected.
