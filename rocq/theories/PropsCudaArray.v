(** C48: cuda_array behaves like a sequence. The specification is the relation [alaw] of
    SpecCudaArray.v: every array is a plain list with a capacity; [None] is an element that
    was never written (and may read as anything). The model is CudaArray.v: device blocks,
    pointers, transfers; any access outside a block, use of a freed block, double free or
    overlapping copy ends the run with a fault. *)
From Coq Require Import ZArith List Lia Bool.
From Verif Require Import Base Cuda CudaProofs CudaArray SpecCudaArray CudaArrayProofs.
Import ListNotations.
Local Open Scope nat_scope.

(** Every lawful history runs without fault, and shows what the lists show. Lawful excludes
    assigning an array to itself and filling 2^31 elements or more (see below), storing or
    loading out of range, and using an array that does not exist. *)
Theorem C48_refinement_partial : forall (A : Type) (ops : list (cop A)) X bs,
  arun no_arrays ops X bs ->
  exists W bs', crun cw_start ops = COk (W, bs') /\ Forall2 obs_agree bs bs'.
Proof. intros A ops X bs H. destruct (run_sim A ops _ _ _ _ (cinv_start A) H) as [W [bs' [E [O _]]]]. eauto. Qed.

(** At any time the arrays that exist are those of the specification, and
    size() <= capacity(). *)
Theorem C48_size_capacity : forall (A : Type) (ops : list (cop A)) X bs W bs' id a,
  arun no_arrays ops X bs -> crun cw_start ops = COk (W, bs') -> cw_arr W id = Some a ->
  c_size a <= c_cap a /\ exists x, X id = Some x /\ c_size a = length (aa_list x) /\ c_cap a = aa_cap x.
Proof.
  intros A ops X bs W bs' id a H E Ha. destruct (run_sim A ops _ _ _ _ (cinv_start A) H) as [W1 [bs1 [E1 [_ I]]]].
  rewrite E in E1. inversion E1; subst W1 bs1. pose proof (ci_rep _ _ I id) as R. rewrite Ha in R. destruct (X id) as [x|]; [|contradiction].
  destruct R as [R1 [R2 [R3 _]]]. split; auto. exists x. auto.
Qed.

(** At any time every live block of device memory belongs to exactly one existing array,
    which points to its start and has its length as capacity. Arrays without a block have
    capacity 0. So nothing is leaked, and when all arrays are gone, all memory is released. *)
Theorem C48_ownership : forall (A : Type) (ops : list (cop A)) X bs W bs',
  arun no_arrays ops X bs -> crun cw_start ops = COk (W, bs') ->
  (forall b l, d_blk (cw_dev W) b = Some l ->
     exists id a, cw_arr W id = Some a /\ c_ptr a = Some b /\ c_cap a = length l /\
       forall id' a', cw_arr W id' = Some a' -> c_ptr a' = Some b -> id' = id) /\
  (forall id a, cw_arr W id = Some a ->
     match c_ptr a with None => c_cap a = 0 | Some b => d_blk (cw_dev W) b <> None end).
Proof.
  intros A ops X bs W bs' H E. destruct (run_sim A ops _ _ _ _ (cinv_start A) H) as [W1 [bs1 [E1 [_ I]]]].
  rewrite E in E1. inversion E1; subst W1 bs1. split.
  - intros b l Hb. destruct (ci_own _ _ I b ltac:(congruence)) as [id [a [Ha Hp]]]. exists id, a. split; auto. split; auto. split.
    + pose proof (ci_rep _ _ I id) as R. rewrite Ha in R. destruct (X id) as [x|]; [|contradiction].
      destruct (arep_elim _ _ _ _ _ R Hp) as [l' [L1 [L2 _]]]. congruence.
    + intros id' a' Ha' Hp'. apply (ci_sep _ _ I id' id a' a b); auto.
  - intros id a Ha. pose proof (ci_rep _ _ I id) as R. rewrite Ha in R. destruct (X id) as [x|]; [|contradiction].
    destruct (c_ptr a) as [b|] eqn:Ep.
    + destruct (arep_elim _ _ _ _ _ R Ep) as [l' [L1 _]]. congruence.
    + destruct (arep_null _ _ _ _ R Ep) as [_ [C _]]. auto.
Qed.
Theorem C48_released : forall (A : Type) (ops : list (cop A)) X bs W bs',
  arun no_arrays ops X bs -> crun cw_start ops = COk (W, bs') -> (forall id, X id = None) ->
  forall b, d_blk (cw_dev W) b = None.
Proof.
  intros A ops X bs W bs' H E HX b. destruct (d_blk (cw_dev W) b) as [l|] eqn:Eb; auto. exfalso.
  destruct (C48_ownership A ops X bs W bs' H E) as [O _]. destruct (O b l Eb) as [id [a [Ha _]]].
  destruct (C48_size_capacity A ops X bs W bs' id a H E Ha) as [_ [x [Hx _]]]. rewrite HX in Hx. discriminate.
Qed.

(** The order in which the threads of the filling kernel store does not matter: two
    histories that differ in it only show the same. *)
Definition same_but_order {A : Type} (o o' : cop A) : Prop :=
  match o, o' with CFill id n v _, CFill id' n' v' _ => id = id' /\ n = n' /\ v = v' | _, _ => o = o' end.
Definition any_order {A : Type} (o : cop A) : Prop :=
  match o with CFill _ n v s => interleave (fill_threads n v) s | _ => True end.
Theorem C48_fill_order : forall (A : Type) (ops ops' : list (cop A)) X bs,
  arun no_arrays ops X bs -> Forall2 same_but_order ops ops' -> Forall any_order ops' ->
  exists W' bs', crun cw_start ops' = COk (W', bs') /\ Forall2 obs_agree bs bs'.
Proof.
  intros A ops ops' X bs H S O. apply C48_refinement_partial with (X := X). revert ops' S O.
  induction H as [X|X op X1 b ops X2 bs H1 H IH]; intros ops' S O; inversion S; subst; [constructor|]. inversion O; subst.
  econstructor; [|apply IH; auto].
  match goal with Hs : same_but_order op ?o |- _ => rename o into o'; rename Hs into Hs' end.
  destruct H1; destruct o'; cbn in Hs'; try discriminate Hs'; try (injection Hs'; intros; subst; econstructor; eauto; fail).
  destruct Hs' as [<- [<- <-]]. constructor; auto.
Qed.

(** Full statement, refuted twice. Filling 2^31 elements: the size is converted to int, the
    grid is invalid, the launch is rejected and no element is written. *)
Theorem C48_fill_refuted : forall (A : Type) (v : A), exists n, Z.of_nat n = (2 ^ 31)%Z /\
  forall s, interleave (fill_threads n v) s ->
  exists W, crun cw_start [CFill 0 n v s; CSave 0] = COk (W, [OUnit; OElems (repeat None n)]).
Proof.
  intros A v. exists (Z.to_nat (2 ^ 31)). split; [rewrite Z2Nat.id; [reflexivity|discriminate]|]. intros s Hs.
  assert (HN : Z.of_nat (Z.to_nat (2 ^ 31)) = (2 ^ 31)%Z) by (rewrite Z2Nat.id; [reflexivity|discriminate]).
  generalize dependent (Z.to_nat (2 ^ 31)). intros n Hs HN.
  assert (s = []) as ->.
  { unfold fill_threads in Hs. rewrite HN in Hs.
    assert (EL : launch (launch_config (2 ^ 31) 1 1) (init_kernel v (2 ^ 31)) = []).
    { unfold launch, threads. assert (launchable (launch_config (2 ^ 31) 1 1) = false) as -> by (vm_compute; reflexivity). reflexivity. }
    rewrite EL in Hs. inversion Hs as [|l1 x t l2 r H E]; auto. destruct l1; discriminate. }
  assert (N0 : 0 < n) by lia. cbn [crun cstep new_arr cw_start cw_arr cw_dev].
  destruct (alloc_pos A (mkDev 0 (fun _ => None)) n N0) as [d1 [E [_ [B _]]]]. cbn [d_next] in *. unfold c_fill. rewrite E. cbn [c_stores cbind].
  unfold on_arr. cbn [cw_set cw_arr cw_dev Nat.eqb]. unfold c_save, copy_to_host. cbn [c_size c_ptr]. rewrite B.
  destruct (Nat.eqb_spec n 0); [lia|]. rewrite repeat_length, Nat.leb_refl. cbn [cbind].
  eexists. rewrite firstn_all2 by (rewrite repeat_length; auto). reflexivity.
Qed.
(** Assigning an array to itself copies a block onto itself, which cudaMemcpy does not
    allow. *)
Theorem C48_self_assign_refuted : exists ops : list (cop Z),
  ops = [CFromHost 0 [7%Z]; CAssign 0 0] /\ crun cw_start ops = CFault COverlap.
Proof. eexists. split; reflexivity. Qed.

(** A lawful history with all operations, and what the model shows. *)
Definition c48_ops (s : list (Z * Z)) : list (cop Z) :=
  [CFill 0 3 5%Z s; CFromHost 1 [1; 2; 3; 4; 5]%Z; CQuery 0; CAssign 0 1; CSave 0; CResize 0 7 (Some 9%Z); CSave 0;
   CReserve 1 20; CResize 1 6 None; CPoke 1 5 8%Z; CSave 1; CCopy 2 1; CResize 2 2 (Some 0%Z); CQuery 2; CResize 2 4 (Some 6%Z); CSave 2;
   CNew 3 0; CAssign 3 2; CLoad 2 [10; 11; 12; 13; 14]%Z; CSave 2; CSave 3; CQuery 1; CDestroy 0; CDestroy 1; CDestroy 3; CDestroy 2].
Example C48_case : exists s, interleave (fill_threads 3 5%Z) s /\ s <> [(0, 5); (1, 5); (2, 5)]%Z /\
  (exists X bs, arun no_arrays (c48_ops s) X bs /\ forall id, X id = None) /\
  exists W, crun cw_start (c48_ops s) = COk (W,
   [OUnit; OUnit; OSizes 3 3; OUnit; OElems [Some 1; Some 2; Some 3; Some 4; Some 5]%Z; OUnit;
    OElems [Some 1; Some 2; Some 3; Some 4; Some 5; Some 9; Some 9]%Z; OUnit; OUnit; OUnit;
    OElems [Some 1; Some 2; Some 3; Some 4; Some 5; Some 8]%Z; OUnit; OUnit; OSizes 2 6; OUnit; OElems [Some 1; Some 2; Some 6; Some 6]%Z;
    OUnit; OUnit; OUnit; OElems [Some 10; Some 11; Some 12; Some 13]%Z; OElems [Some 1; Some 2; Some 6; Some 6]%Z; OSizes 6 20;
    OUnit; OUnit; OUnit; OUnit]).
Proof.
  exists [(2, 5); (0, 5); (1, 5)]%Z. assert (IL : interleave (fill_threads 3 5%Z) [(2, 5); (0, 5); (1, 5)]%Z).
  { assert (E : fill_threads 3 5%Z = [[(0, 5)]; [(1, 5)]; [(2, 5)]]%Z ++ repeat [] 509) by (vm_compute; reflexivity). rewrite E.
    apply (il_step [[(0, 5)]; [(1, 5)]]%Z (2, 5)%Z [] (repeat [] 509)).
    apply (il_step [] (0, 5)%Z [] ([[(1, 5)]; []]%Z ++ repeat [] 509)).
    apply (il_step [[]] (1, 5)%Z [] ([[]] ++ repeat [] 509)).
    constructor. change (Forall (fun t : list (Z * Z) => t = []) (repeat [] 512)). generalize 512. intros k. induction k; constructor; auto. }
  split; auto. split; [discriminate|]. split.
  - do 2 eexists. split.
    + unfold c48_ops. repeat (eapply ar_cons; [first [eapply al_fill; [reflexivity|reflexivity|exact IL] | econstructor; (try reflexivity); (try lia); cbn; lia
         | econstructor; (try reflexivity); try lia] |]). apply ar_nil.
    + intros id. unfold aset. destruct id as [|[|[|[|id]]]]; reflexivity.
  - eexists. vm_compute. reflexivity.
Qed.

Print Assumptions C48_refinement_partial.
Print Assumptions C48_size_capacity.
Print Assumptions C48_ownership.
Print Assumptions C48_released.
Print Assumptions C48_fill_order.
Print Assumptions C48_fill_refuted.
Print Assumptions C48_self_assign_refuted.
