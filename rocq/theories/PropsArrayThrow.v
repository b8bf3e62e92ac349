(** Statements C88: soa_array when constructors or assignment operators of members throw. *)
From Coq Require Import ZArith List Lia Bool Init.Byte.
From Verif Require Import Base Layout LayoutProofs Sizes Mem MemProofs Accessor AccessorProofs
  RegionProofs Grid GridProofs GridInv BufferProofs GridView Array SpecArray ArrayProofs PropsArray
  GridThrow SpecGridThrow GridThrowProofs ArrayThrow SpecArrayThrow ArrayThrowProofs.
Import ListNotations.
Open Scope Z_scope.

(** States of programs that used arrays within their contract; members may have thrown
    in any of the calls, the program went on after each. *)
Definition survived (ms : list member) (W : vworld) : Prop :=
  exists ops obs, xlegal ms no_arrays ops /\ x_vrun ms vstart ops = Val (W, obs).

(** [A]: what the loop over the elements, size() and capacity() of the arrays say. *)
Definition described (ms : list member) (W : vworld) (A : bworld) : Prop :=
  forall id, match A id with
    | None => unused W id
    | Some b => contents ms W id (bs_l b) /\ has_cap ms W id (bs_cap b)
    end.

Lemma survived_inv : forall ms W, wf_members ms -> wf_defaults ms -> survived ms W -> exists A, vinv ms W A.
Proof.
  intros ms W Hw Hd [ops [obs [L E]]]. destruct (vinv_start ms) as [I0 _].
  destruct (x_vrun_ok ms ops vstart no_arrays Hw Hd I0 L) as [W' [A' [obs' [E' [_ I']]]]].
  rewrite E in E'. inversion E'; subst. eauto.
Qed.

Lemma inv_described : forall ms W A, wf_members ms -> wf_defaults ms -> vinv ms W A -> described ms W A.
Proof.
  intros ms W A Hw Hd I id. destruct (A id) as [b|] eqn:E.
  - split; [eapply contents_iff; eauto|eapply has_cap_iff; eauto].
  - eapply unused_iff; eauto.
Qed.

Lemma described_inv : forall ms W A, wf_members ms -> wf_defaults ms -> survived ms W -> described ms W A -> vinv ms W A.
Proof.
  intros ms W A Hw Hd S D. destruct (survived_inv _ _ Hw Hd S) as [B I]. eapply vinv_eq; [|exact I].
  intros i. specialize (D i). destruct (A i) as [b|].
  - destruct D as [D1 D2]. rewrite (contents_iff _ _ _ _ _ Hw Hd I) in D1. rewrite (has_cap_iff _ _ _ _ _ Hw Hd I) in D2.
    destruct D1 as [b1 [E1 E2]], D2 as [b2 [E3 E4]]. rewrite E1 in *. inversion E3; subst b2. destruct b, b1. cbn in *. congruence.
  - rewrite (unused_iff _ _ _ _ I) in D. exact D.
Qed.

(** ** Whole programs *)
(** Whatever members throw in whatever calls, a program that stays within the contract
    runs without undefined behaviour, and sees what lists allow whose elements may have
    been left half assigned ([athrow], SpecArrayThrow.v). *)
Theorem C88_programs : forall ms ops,
  wf_members ms -> wf_defaults ms -> xlegal ms no_arrays ops ->
  exists W A obs, x_vrun ms vstart ops = Val (W, obs) /\ xarun ms no_arrays ops A obs /\ described ms W A.
Proof.
  intros ms ops Hw Hd L. destruct (vinv_start ms) as [I0 _].
  destruct (x_vrun_ok ms ops vstart no_arrays Hw Hd I0 L) as [W [A [obs [E [R I1]]]]].
  exists W, A, obs. split; auto. split; auto. apply inv_described; auto.
Qed.

(** ** One call *)
(** A call ends by an exception of a member exactly if the member call that is to throw
    is among those that the call makes; otherwise it does what it does without exceptions. *)
Theorem C88_step : forall ms s W A op,
  wf_members ms -> wf_defaults ms -> survived ms W -> described ms W A -> vpre ms A op ->
  exists W' A' ob, x_vstep ms s W op = Val (W', ob) /\ described ms W' A' /\
    (throws ms A s op /\ ob = Caught /\ athrow ms A op A' \/
     ~ throws ms A s op /\ exists o, ob = Done o /\ vstep ms W op = Val (W', o) /\ astep A op A' o).
Proof.
  intros ms s W A op Hw Hd S D P. pose proof (described_inv _ _ _ Hw Hd S D) as I1.
  destruct (x_vstep_ok ms s W A op Hw Hd I1 P) as [W1 [A1 [ob [E [St [I2 H]]]]]].
  exists W1, A1, ob. split; auto. split; [apply inv_described; auto|].
  inversion St; subst; [right|left]; eauto 6.
Qed.

(** Without exceptions the model is that of C28-C33. *)
Theorem C88_never : forall ms W A op,
  wf_members ms -> wf_defaults ms -> survived ms W -> described ms W A -> vpre ms A op ->
  exists W' o, x_vstep ms never W op = Val (W', Done o) /\ vstep ms W op = Val (W', o).
Proof.
  intros ms W A op Hw Hd S D P. destruct (C88_step ms never W A op Hw Hd S D P) as [W' [A' [ob [E [_ [[[k [H _]] _]|[_ [o [-> [H _]]]]]]]]]].
  - discriminate.
  - eauto.
Qed.

(** operator<<, push_back, load at the end, and the constructors: as if they had not been
    called, for all arrays. *)
Theorem C88_strong : forall ms s W A op W',
  wf_members ms -> wf_defaults ms -> survived ms W -> described ms W A -> vpre ms A op ->
  match op with VPush _ _ | VLoadApp _ _ _ _ | VNew _ _ _ _ | VConv _ _ _ => True | _ => False end ->
  x_vstep ms s W op = Val (W', Caught) -> described ms W' A.
Proof.
  intros ms s W A op W' Hw Hd S D P Ho E.
  destruct (C88_step ms s W A op Hw Hd S D P) as [W1 [A1 [ob [E1 [D1 [[_ [_ T]]|[_ [o [-> _]]]]]]]]]; rewrite E in E1; [|discriminate].
  inversion E1; subst W1. inversion T; subst; try contradiction; auto.
Qed.

(** Assignment, load and element assignment: sizes and capacities stay, elements outside
    the target range stay, every element in it is a mixture of old and new; other arrays
    stay as they are. *)
Theorem C88_basic : forall ms s W d l cap W',
  wf_members ms -> wf_defaults ms -> survived ms W -> contents ms W d l -> has_cap ms W d cap ->
  (forall e x, contents ms W e x -> x_vstep ms s W (VAssign d e) = Val (W', Caught) ->
     exists l', contents ms W' d l' /\ has_cap ms W' d cap /\ patched ms l 0 x l' /\ rest_same ms W W' d) /\
  (forall e x i n off, contents ms W e x -> 0 <= i -> 0 <= n -> i + n <= len x -> 0 <= off -> off + n < 2 ^ 64 ->
     d <> e \/ off <= i \/ i + n <= off -> x_vstep ms s W (VLoad d off e i n) = Val (W', Caught) ->
     exists l', contents ms W' d l' /\ has_cap ms W' d cap /\
       patched ms l (Z.to_nat off) (firstn (Z.to_nat n) (skipn (Z.to_nat i) x)) l' /\ rest_same ms W W' d) /\
  (forall i c, 0 <= i < len l -> wf_cell ms c -> x_vstep ms s W (VWrite d i c) = Val (W', Caught) ->
     exists l', contents ms W' d l' /\ has_cap ms W' d cap /\ patched ms l (Z.to_nat i) [c] l' /\ rest_same ms W W' d).
Proof.
  intros ms s W d l cap W' Hw Hd S C1 C2. destruct (survived_inv _ _ Hw Hd S) as [A I1].
  assert (G : forall op l0, vpre ms A op ->  x_vstep ms s W op = Val (W', Caught) ->
     (forall A', athrow ms A op A' -> exists l', A' = aset A d (Some (mkBS cap l')) /\ patched ms l (fst l0) (snd l0) l') ->
     exists l', contents ms W' d l' /\ has_cap ms W' d cap /\ patched ms l (fst l0) (snd l0) l' /\ rest_same ms W W' d).
  { intros op l0 P E H. destruct (x_vstep_cases ms s W A op Hw Hd I1 P) as [[W1 [ob [E1 _]]]|[W1 [A1 [k [E1 [T [I2 _]]]]]]]; rewrite E in E1; [discriminate|].
    inversion E1; subst W1. destruct (H A1 T) as [l' [-> HP]]. exists l'.
    split; [rewrite (contents_iff _ _ _ _ _ Hw Hd I2); rewrite aset_same; eexists; split; reflexivity|].
    split; [rewrite (has_cap_iff _ _ _ _ _ Hw Hd I2); rewrite aset_same; eexists; split; reflexivity|]. split; auto.
    eapply (rest_same_of ms W A W' _ d Hw Hd I1 I2). intros e He. rewrite aset_other; auto. }
  rewrite (contents_iff _ _ _ _ _ Hw Hd I1) in C1. rewrite (has_cap_iff _ _ _ _ _ Hw Hd I1) in C2.
  destruct C1 as [b [Eb <-]], C2 as [b' [Eb' <-]]. assert (b' = b) by congruence. subst b'.
  split; [|split].
  - intros e x Hx E. rewrite (contents_iff _ _ _ _ _ Hw Hd I1) in Hx. destruct Hx as [bx [Ex <-]].
    apply (G (VAssign d e) (0%nat, bs_l bx)); auto; [cbn [vpre]; split; congruence|].
    intros A' T. inversion T as [| |d0 s0 a0 b0 l' HA HB HP| | | |]; subst. exists l'. rewrite Eb in HA. inversion HA; subst a0. rewrite Ex in HB. inversion HB; subst b0. auto.
  - intros e x i n off Hx H1 H2 H3 H4 H5 H6 E. rewrite (contents_iff _ _ _ _ _ Hw Hd I1) in Hx. destruct Hx as [bx [Ex <-]].
    apply (G (VLoad d off e i n) (Z.to_nat off, firstn (Z.to_nat n) (skipn (Z.to_nat i) (bs_l bx)))); auto.
    { cbn [vpre]. split; [congruence|]. split; [exists bx; auto|]. auto 10. }
    intros A' T. inversion T as [| | | | |d0 off0 s0 i0 n0 a0 b0 l' HA HB HP|]; subst. exists l'. rewrite Eb in HA. inversion HA; subst a0. rewrite Ex in HB. inversion HB; subst b0. auto.
  - intros i c H1 H2 E. apply (G (VWrite d i c) (Z.to_nat i, [c])); auto.
    { cbn [vpre]. split; auto. exists b. auto. }
    intros A' T. inversion T as [| | | |id0 i0 c0 a0 l' HA HP| |]; subst. exists l'. rewrite Eb in HA. inversion HA; subst a0. auto.
Qed.

(** ** Storage *)
(** Calls on existing arrays lose nothing. *)
Theorem C88_no_leak : forall ms s W A op W',
  wf_members ms -> wf_defaults ms -> survived ms W -> described ms W A -> vpre ms A op ->
  match op with VNew _ _ _ _ | VConv _ _ _ => False | _ => True end ->
  x_vstep ms s W op = Val (W', Caught) -> forall b, msize (vw_mem W') b = msize (vw_mem W) b.
Proof.
  intros ms s W A op W' Hw Hd S D P Ho E. pose proof (described_inv _ _ _ Hw Hd S D) as I1.
  destruct (x_vstep_cases ms s W A op Hw Hd I1 P) as [[W1 [ob [E1 _]]]|[W1 [A1 [k [E1 [_ [_ [_ [_ H]]]]]]]]]; rewrite E in E1; [discriminate|].
  inversion E1; subst W1. destruct op; try contradiction; exact H.
Qed.

(** Constructors: whatever they had constructed is never destroyed. [k] calls succeed,
    then one throws: if it is one of the constructor calls, [k] objects are lost, if it is
    one of the assignments that follow, all of them. Wanted: none ([C88_cleanup_refuted]). *)
Theorem C88_constructors_partial : forall ms s W A op cap W',
  wf_members ms -> wf_defaults ms -> survived ms W -> described ms W A -> vpre ms A op ->
  match op with VNew _ c _ _ | VConv _ c _ => c = cap | _ => False end ->
  x_vstep ms s W op = Val (W', Caught) ->
  exists k b, sc_ops s = Some k /\
    leaves_block (vw_mem W) (vw_mem W') b (total ms * cap) (Nat.min k (Z.to_nat cap * class_elements ms)).
Proof.
  intros ms s W A op cap W' Hw Hd S D P Ho E. pose proof (described_inv _ _ _ Hw Hd S D) as I1.
  destruct (x_vstep_cases ms s W A op Hw Hd I1 P) as [[W1 [ob [E1 _]]]|[W1 [A1 [k [E1 [_ [_ [Hk [_ H]]]]]]]]]; rewrite E in E1; [discriminate|].
  inversion E1; subst W1. destruct op; try contradiction; subst; destruct H as [b [_ H]]; exists k, b; auto.
Qed.

(** ** Cases *)
Definition at_call (k : nat) : sched := mkSched (Some k) None.
Definition xobs_of (r : result (vworld * list xvobs)) : option (list xvobs) := match r with Val (_, o) => Some o | Fault _ => None end.

Definition is_caught (r : result (vworld * xvobs)) : bool := match r with Val (_, Caught) => true | _ => false end.

(** Members of class type, two per cell, throw in three of the calls. *)
Definition at_ops : list (sched * vop) :=
  [(never, VNew 0 4 2 ax1); (at_call 1, VPush 0 ax2); (never, VPush 0 ax2); (at_call 5, VNew 1 2 1 ax2);
   (never, VNew 1 2 1 ax2); (at_call 1, VWrite 0 1 ax2); (at_call 1, VAssign 0 1); (at_call 3, VLoad 0 0 0 1 2)].

Ltac no_throw H := exfalso; destruct H as [k [H1 H2]]; vm_compute in H1, H2; (discriminate || (inversion H1; subst; lia)).
Ltac must_throw H := exfalso; apply H; eexists; split; [reflexivity|vm_compute; lia].

Lemma at_legal : xlegal ax_ms no_arrays at_ops.
Proof.
  cbn [xlegal at_ops]. split; [repeat split; try reflexivity; try lia; apply ax_cell_wf|].
  intros A1 o1 S1. inversion S1 as [ob1 N1 T1|N1 T1]; subst; [|no_throw N1]. inversion T1; subst.
  split; [split; [cbn; discriminate|apply ax_cell_wf]|].
  intros A2 o2 S2. inversion S2 as [ob2 N2 T2|N2 T2]; subst; [must_throw N2|]. inversion T2; subst.
  split; [split; [cbn; discriminate|apply ax_cell_wf]|].
  intros A3 o3 S3. inversion S3 as [ob3 N3 T3|N3 T3]; subst; [|no_throw N3].
  assert (E3 : A3 = aset (aset no_arrays 0 (Some (mkBS 4 (repeat ax1 (Z.to_nat 2))))) 0 (Some (mkBS 4 (repeat ax1 (Z.to_nat 2) ++ [ax2])))).
  { inversion T3 as [| | | | | | |id0 b0 c0 B0 B1|id0 b0 c0 B0 B1| | | | | | | | | | | | |]; subst; cbn in B0; inversion B0; subst; [reflexivity|vm_compute in B1; discriminate]. }
  subst A3. clear T3 S3.
  split; [repeat split; try reflexivity; try lia; apply ax_cell_wf|].
  intros A4 o4 S4. inversion S4 as [ob4 N4 T4|N4 T4]; subst; [must_throw N4|]. inversion T4; subst.
  split; [repeat split; try reflexivity; try lia; apply ax_cell_wf|].
  intros A5 o5 S5. inversion S5 as [ob5 N5 T5|N5 T5]; subst; [|no_throw N5]. inversion T5; subst.
  split; [split; [eexists; split; [reflexivity|vm_compute; split; congruence]|apply ax_cell_wf]|].
  intros A6 o6 S6. inversion S6 as [ob6 N6 T6|N6 T6]; subst; [must_throw N6|].
  inversion T6 as [| | | |id6 i6 c6 a6 l6 B6 P6| |]; subst. cbn in B6. inversion B6; subst a6. destruct P6 as [P6 _].
  split; [split; cbn; discriminate|].
  intros A7 o7 S7. inversion S7 as [ob7 N7 T7|N7 T7]; subst; [must_throw N7|].
  inversion T7 as [| |d7 s7 a7 b7 l7 B7 B7' P7| | | |]; subst. cbn in B7. inversion B7; subst a7. destruct P7 as [P7 _].
  split; [|intros; exact Logic.I].
  split; [cbn; discriminate|]. split; [|repeat split; try lia]. eexists. split; [reflexivity|]. cbn [bs_l]. unfold len. rewrite P7. cbn [bs_l]. rewrite P6. vm_compute. discriminate.
Qed.

(** What the program sees: both arrays go on being usable; the second element of the
    first array was left half assigned by the write, the first one by the assignment; the
    load of the elements 1 and 2 to 0 and 1 then throws at its last assignment of a member. *)
Example C88_case :
  xlegal ax_ms no_arrays at_ops /\
  xobs_of (x_vrun ax_ms vstart (at_ops ++ [(never, VIter 0); (never, VSize 0); (never, VIter 1); (never, VPop 0); (never, VAssign 1 0); (never, VIter 1); (never, VDestroy 0); (never, VDestroy 1)])) =
  Some [Done VUnit; Caught; Done VUnit; Caught; Done VUnit; Caught; Caught; Caught;
        Done (VCells [ax_cell x20 x21 x22 x13; ax_cell x20 x21 x22 x13; ax2]);
        Done (VNum 3); Done (VCells [ax2]); Done VUnit; Done VUnit; Done (VCells [ax_cell x20 x21 x22 x13; ax_cell x20 x21 x22 x13]);
        Done VUnit; Done VUnit].
Proof. split; [apply at_legal|]. vm_compute. reflexivity. Qed.

Definition at_world : vworld := match x_vrun ax_ms vstart at_ops with Val (w, _) => w | Fault _ => vstart end.

Example C88_survived_case : survived ax_ms at_world.
Proof.
  destruct ax_wf as [Hw Hd]. exists at_ops. destruct (vinv_start ax_ms) as [I0 _].
  destruct (x_vrun_ok ax_ms at_ops vstart no_arrays Hw Hd I0 at_legal) as [W [A [obs [E _]]]].
  exists obs. split; [apply at_legal|]. unfold at_world. rewrite E. reflexivity.
Qed.

(** ** What does not hold *)
(** Assignment is not all or nothing: neither the old nor the new elements. *)
Theorem C88_assign_strong_refuted :
  ~ (forall ms s W d e l x W', wf_members ms -> wf_defaults ms -> survived ms W -> contents ms W d l -> contents ms W e x ->
       x_vstep ms s W (VAssign d e) = Val (W', Caught) -> contents ms W' d l \/ contents ms W' d x).
Proof.
  intros H. destruct ax_wf as [Hw Hd].
  set (ops := [(never, VNew 0 4 2 ax1); (never, VNew 1 4 2 ax2)]).
  assert (L : xlegal ax_ms no_arrays ops).
  { cbn [xlegal ops]. split; [repeat split; try reflexivity; try lia; apply ax_cell_wf|].
    intros A1 o1 S1. inversion S1 as [ob1 N1 T1|N1 T1]; subst; [|no_throw N1]. inversion T1; subst.
    split; [repeat split; try reflexivity; try lia; apply ax_cell_wf|]. intros; exact Logic.I. }
  set (W := match x_vrun ax_ms vstart ops with Val (w, _) => w | Fault _ => vstart end).
  assert (S : survived ax_ms W).
  { exists ops. destruct (vinv_start ax_ms) as [I0 _].
    destruct (x_vrun_ok ax_ms ops vstart no_arrays Hw Hd I0 L) as [W1 [A [obs [E _]]]].
    exists obs. split; [exact L|]. unfold W. rewrite E. reflexivity. }
  assert (G : forall w l o, obs_of (vrun ax_ms w l) = Some o -> exists w', vrun ax_ms w l = Val (w', o)).
  { intros w l o. destruct (vrun ax_ms w l) as [[w1 os]|]; simpl; intros Q; inversion Q; eauto. }
  assert (C0 : contents ax_ms W 0 [ax1; ax1]) by (apply G; vm_compute; reflexivity).
  assert (C1 : contents ax_ms W 1 [ax2; ax2]) by (apply G; vm_compute; reflexivity).
  set (W' := match x_vstep ax_ms (at_call 1) W (VAssign 0 1) with Val (w, _) => w | Fault _ => vstart end).
  assert (E : x_vstep ax_ms (at_call 1) W (VAssign 0 1) = Val (W', Caught)).
  { assert (Q : is_caught (x_vstep ax_ms (at_call 1) W (VAssign 0 1)) = true) by (vm_compute; reflexivity).
    unfold W'. destruct (x_vstep ax_ms (at_call 1) W (VAssign 0 1)) as [[w [o|]]|]; cbn in Q; try discriminate. reflexivity. }
  destruct (H ax_ms (at_call 1) W 0%nat 1%nat _ _ W' Hw Hd S C0 C1 E) as [[w Q]|[w Q]];
    apply (f_equal obs_of) in Q; vm_compute in Q; discriminate.
Qed.

(** A constructor that throws does not destroy what it constructed: no call on the array
    that never came to exist can, and the objects in its storage are still alive. *)
Theorem C88_cleanup_refuted :
  ~ (forall ms s W A id cap n c W', wf_members ms -> wf_defaults ms -> survived ms W -> described ms W A ->
       vpre ms A (VNew id cap n c) -> x_vstep ms s W (VNew id cap n c) = Val (W', Caught) ->
       forall b o, msize (vw_mem W) b = None -> mlive (vw_mem W') b o = false).
Proof.
  intros H. destruct ax_wf as [Hw Hd].
  set (W' := match x_vstep ax_ms (at_call 5) vstart (VNew 0 4 2 ax1) with Val (w, _) => w | Fault _ => vstart end).
  assert (E : x_vstep ax_ms (at_call 5) vstart (VNew 0 4 2 ax1) = Val (W', Caught)).
  { assert (Q : is_caught (x_vstep ax_ms (at_call 5) vstart (VNew 0 4 2 ax1)) = true) by (vm_compute; reflexivity).
    unfold W'. destruct (x_vstep ax_ms (at_call 5) vstart (VNew 0 4 2 ax1)) as [[w [o|]]|]; cbn in Q; try discriminate. reflexivity. }
  assert (S : survived ax_ms vstart) by (exists [], []; split; [exact Logic.I|reflexivity]).
  assert (D : described ax_ms vstart no_arrays) by (intros i; reflexivity).
  assert (P : vpre ax_ms no_arrays (VNew 0 4 2 ax1)) by (repeat split; try reflexivity; try lia; apply ax_cell_wf).
  pose proof (H ax_ms (at_call 5) vstart no_arrays 0%nat 4 2 ax1 W' Hw Hd S D P E 1%nat 8 eq_refl) as Q.
  vm_compute in Q. discriminate.
Qed.

(** The hypotheses of the theorems on single calls, and both outcomes. *)
Example C88_step_case :
  survived ax_ms at_world /\ contents ax_ms at_world 1 [ax2] /\ has_cap ax_ms at_world 1 2 /\
  is_caught (x_vstep ax_ms (at_call 1) at_world (VPush 1 ax1)) = true /\
  is_caught (x_vstep ax_ms (at_call 2) at_world (VPush 1 ax1)) = false /\
  is_caught (x_vstep ax_ms (at_call 0) at_world (VAssign 1 0)) = false /\
  is_caught (x_vstep ax_ms (at_call 1) at_world (VLoadApp 1 0 2 1)) = true /\
  is_caught (x_vstep ax_ms (at_call 9) at_world (VConv 2 4 0)) = true /\
  is_caught (x_vstep ax_ms (at_call 14) at_world (VConv 2 4 0)) = false.
Proof.
  assert (G : forall w l o, obs_of (vrun ax_ms w l) = Some o -> exists w', vrun ax_ms w l = Val (w', o)).
  { intros w l o. destruct (vrun ax_ms w l) as [[w1 os]|]; simpl; intros Q; inversion Q; eauto. }
  split; [apply C88_survived_case|]. split; [apply G; vm_compute; reflexivity|]. split; [apply G; vm_compute; reflexivity|].
  repeat split; vm_compute; reflexivity.
Qed.

Print Assumptions C88_programs.
Print Assumptions C88_step.
Print Assumptions C88_never.
Print Assumptions C88_strong.
Print Assumptions C88_basic.
Print Assumptions C88_no_leak.
Print Assumptions C88_constructors_partial.
Print Assumptions C88_case.
Print Assumptions C88_assign_strong_refuted.
Print Assumptions C88_cleanup_refuted.
