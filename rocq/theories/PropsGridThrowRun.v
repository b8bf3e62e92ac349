(** Statements C90: programs on soa_grids that catch exceptions of members and go on. *)
From Coq Require Import ZArith List Lia Bool Init.Byte.
From Verif Require Import Base Layout LayoutProofs Sizes SizesProofs Mem MemProofs
  Accessor AccessorProofs RegionProofs Grid Vector SpecGrid GridProofs GridInv BufferProofs GridOps GridSim GridView PropsGrid PropsGrid2
  GridThrow SpecGridThrow GridThrowProofs SpecArrayThrow ArrayThrowProofs BufferThrow BufferThrowProofs GridThrowRun SpecGridThrowRun GridThrowRunProofs.
Import ListNotations.
Open Scope Z_scope.

(** ** Whole programs *)
(** A program on any number of grids stays within their contract; members throw in any
    number of its calls of set, broadcast, load, save and assignment between grids of
    equal dimensions. It runs without undefined behaviour; a call throws exactly if the
    member assignment due to throw is among those it makes, and what the program observes
    is what boxes of cells allow whose cells may be mixed where a call was interrupted
    ([gstep], [gleft]). Whatever it does afterwards, it sees these boxes. *)
Theorem C90_programs : forall ct ops, wf_ct ct -> glegal ct no_grids ops ->
  exists W A bs, x_wrun ct start ops = Val (W, bs) /\ grun ct no_grids ops A bs /\ as_specified ct W A.
Proof.
  intros ct ops Hct L. destruct (x_wrun_ok ct ops start no_grids Hct (winv_start ct) L) as [W [A [bs [E [R I]]]]].
  exists W, A, bs. split; auto. split; auto. apply winv_as_specified; auto.
Qed.

(** No storage is left once all grids are destroyed. *)
Theorem C90_no_leak : forall ct ops W bs, wf_ct ct -> glegal ct no_grids ops ->
  x_wrun ct start ops = Val (W, bs) -> (forall id, w_grids W id = None) -> forall b, msize (w_mem W) b = None.
Proof.
  intros ct ops W bs Hct L E Hn b. destruct (x_wrun_ok ct ops start no_grids Hct (winv_start ct) L) as [W' [A [bs' [E' [_ I]]]]].
  rewrite E in E'. inversion E'; subst. destruct (msize (w_mem W') b) as [k|] eqn:Eb; auto.
  destruct (wi_leak _ _ _ I b k Eb) as [i [g [Hg _]]]. rewrite Hn in Hg. discriminate.
Qed.

(** Calls that are not interrupted do what they do in a program without exceptions. *)
Theorem C90_never : forall ct ops W, x_wrun ct W (map (fun op => (never, op)) ops) =
  match wrun ct W ops with Val (W', bs) => Val (W', map GDone bs) | Fault f => Fault f end.
Proof.
  intros ct. induction ops as [|op ops IH]; intros W; [reflexivity|]. cbn [map x_wrun wrun]. rewrite never_step.
  destruct (wstep ct W op) as [[W1 b]|f]; [|reflexivity]. cbn [lift_obs]. rewrite IH. destruct (wrun ct W1 ops) as [[W2 bs]|f]; reflexivity.
Qed.

(** A constructor that throws, at any moment, leaves no object and all others in place. *)
Theorem C90_ctor : forall ct W s op W' bs,
  match op with ONew _ _ _ _ | OCopy _ _ => True | _ => False end ->
  x_wstep ct W s op = Val (W', GCaught bs) -> w_grids W' = w_grids W.
Proof.
  assert (G : forall W id o W' bs, x_ctor W id o = Val (W', GCaught bs) -> w_grids W' = w_grids W).
  { intros W id [s [m g] u|[m g] [| |e]| |f] W' bs H; cbn [x_ctor] in H; inversion H; subst; reflexivity. }
  intros ct W s op W' bs Hop H. destruct op; try contradiction; cbn [x_wstep] in H.
  - eapply G; eauto.
  - destruct (w_grids W src); [|discriminate]. eapply G; eauto.
Qed.
Example C90_ctor_case :
  match x_wstep ex_ct start (mkSched (Some 1%nat) None) (ONew 0 2 1 1) with
  | Val (W, GCaught []) => w_grids W 0%nat = None
  | _ => False
  end.
Proof. vm_compute. reflexivity. Qed.

(** ** A legal program *)
(** Any number of set() and get() on a 2x1x1 grid, under any schedules. *)
Definition ex_op (p : sched * gop) : Prop :=
  match p with
  | (_, OSet 0%nat x 0 0 c) => 0 <= x < 2 /\ wf_cell (ct_ms ex_ct) c
  | (s, OGet 0%nat x 0 0) => s = never /\ 0 <= x < 2
  | _ => False
  end.

Lemma ex_ops_legal : forall ops A S, Forall ex_op ops -> A 0%nat = Some S -> ag_x S = 2 -> ag_y S = 1 -> ag_z S = 1 -> glegal ex_ct A ops.
Proof.
  induction ops as [|[s op] ops IH]; intros A S H HA X Y Zz; [exact Logic.I|]. inversion H as [|? ? H1 H2]; subst.
  assert (HB : forall x, 0 <= x < 2 -> in_box S x 0 0) by (intros x Hx; unfold in_box; lia).
  destruct op; cbn [ex_op] in H1; try contradiction.
  - destruct id; [|contradiction]. destruct y; try contradiction. destruct z; try contradiction. destruct H1 as [Hx Hc].
    cbn [glegal]. split; [|split; [right; exact Logic.I|]].
    + eexists _, _. apply a_set; eauto.
    + intros A' b Hst. inversion Hst; subst.
      * match goal with Ha : astep _ _ _ _ _ |- _ => inversion Ha; subst end.
        match goal with Hs : A 0%nat = Some ?s0 |- _ => assert (s0 = S) by congruence; subst s0 end.
        eapply IH; [exact H2|apply fset_same|..]; cbn [put_row ag_x ag_y ag_z]; congruence.
      * match goal with Ha : astep _ _ _ _ _ |- _ => inversion Ha; subst end.
        match goal with Hs : A 0%nat = Some ?s0 |- _ => assert (s0 = S) by congruence; subst s0 end.
        eapply IH; [exact H2|apply fset_same|..]; cbn [put_row ag_x ag_y ag_z]; congruence.
      * match goal with Ha : gleft _ _ _ _ _ |- _ => inversion Ha; subst end.
        match goal with Ha : _ = _ /\ _ = _ |- _ => destruct Ha as [Ha _]; inversion Ha; subst end.
        match goal with Hs : A 0%nat = Some ?s0 |- _ => assert (s0 = S) by congruence; subst s0 end.
        match goal with Hr : recelled _ _ |- _ => destruct Hr as [R1 [R2 [R3 _]]] end.
        eapply IH; [exact H2|apply fset_same|..]; cbn [put_row ag_x ag_y ag_z]; congruence.
  - destruct id; [|contradiction]. destruct y; try contradiction. destruct z; try contradiction. destruct H1 as [-> Hx].
    cbn [glegal]. split; [|split; [left; reflexivity|]].
    + eexists _, _. apply a_get; eauto.
    + intros A' b Hst. inversion Hst; subst; try (match goal with Hi : interruptible _ _ |- _ => destruct Hi end).
      match goal with Ha : astep _ _ _ _ _ |- _ => inversion Ha; subst end. exact (IH _ S H2 HA X Y Zz).
Qed.

Theorem C90_example_legal : forall ops, Forall ex_op ops -> glegal ex_ct no_grids ((never, ONew 0 2 1 1) :: ops).
Proof.
  intros ops H. cbn [glegal]. split; [|split; [left; reflexivity|]].
  - eexists _, _. apply a_new; try lia; [reflexivity|discriminate|]. apply ex_supported; lia.
  - intros A' b Hst. inversion Hst; subst; try (match goal with Hi : interruptible _ _ |- _ => destruct Hi end).
    match goal with Ha : astep _ _ _ _ _ |- _ => inversion Ha; subst end.
    + eapply ex_ops_legal; [exact H|apply fset_same|reflexivity..].
    + exfalso. match goal with Hn : ~ supported _ _ _ _ |- _ => apply Hn end. apply ex_supported; lia.
Qed.

(** Two of three calls of set() are interrupted: the first in its second assignment, the
    second in its first. *)
Definition at_call (k : nat) : sched := mkSched (Some k) None.
Example C90_case :
  match x_wrun ex_ct start [(never, ONew 0 2 1 1);
      (at_call 1, OSet 0 0 0 0 (ex_cell x20 x21 x22 x23)); (at_call 0, OSet 0 1 0 0 (ex_cell x30 x31 x32 x33));
      (at_call 2, OSet 0 1 0 0 (ex_cell x40 x41 x42 x43)); (never, OGet 0 0 0 0); (never, OGet 0 1 0 0)] with
  | Val (_, bs) => bs = [GDone BUnit; GCaught []; GCaught []; GDone BUnit; GDone (BCell (ex_cell x20 x21 x22 x02)); GDone (BCell (ex_cell x40 x41 x42 x43))]
  | Fault _ => False
  end /\
  Forall ex_op [(at_call 1, OSet 0 0 0 0 (ex_cell x20 x21 x22 x23)); (at_call 0, OSet 0 1 0 0 (ex_cell x30 x31 x32 x33));
      (at_call 2, OSet 0 1 0 0 (ex_cell x40 x41 x42 x43)); (never, OGet 0 0 0 0); (never, OGet 0 1 0 0)].
Proof. split; [vm_compute; reflexivity|]. repeat constructor; lia. Qed.

(** ** Other calls *)
(** The restriction to these calls is necessary: after an exception in resize(), already
    the destructor is undefined behaviour. *)
Theorem C90_resize_refuted :
  ~ forall ct ops A, wf_ct ct -> arun ct no_grids (map snd ops) A (map (fun _ => BUnit) ops) ->
      exists W bs, x_wrun ct start ops = Val (W, bs).
Proof.
  intros H.
  destruct (H ex_ct [(never, ONew 0 2 1 1); (at_call 1, OResize 0 3 2 2); (never, ODestroy 0)]
     (fset (fset (fset no_grids 0 (Some (new_grid (ct_ms ex_ct) 2 1 1))) 0 (Some (new_grid (ct_ms ex_ct) 3 2 2))) 0 None) ex_ct_wf) as [W [bs E]].
  - cbn [map snd].
    eapply ar_cons; [apply a_new; try lia; [reflexivity|discriminate|apply ex_supported; lia]|].
    eapply ar_cons; [eapply a_resize; try lia; [apply fset_same|discriminate|apply ex_supported; lia]|].
    eapply ar_cons; [eapply a_destroy; apply fset_same|]. apply ar_nil.
  - assert (F : match x_wrun ex_ct start [(never, ONew 0 2 1 1); (at_call 1, OResize 0 3 2 2); (never, ODestroy 0)] with Fault _ => true | Val _ => false end = true)
      by (vm_compute; reflexivity).
    rewrite E in F. discriminate.
Qed.

Print Assumptions C90_programs.
Print Assumptions C90_no_leak.
Print Assumptions C90_never.
Print Assumptions C90_ctor.
Print Assumptions C90_example_legal.
Print Assumptions C90_resize_refuted.
