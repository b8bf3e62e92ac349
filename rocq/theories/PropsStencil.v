(** Statement C74: the stencil examples. *)
From Coq Require Import String ZArith List Bool Lia Permutation Init.Byte.
From Verif Require Import ShortVecLang ShortVecClass ShortVecApi ShortVecScalar ShortVecSse ShortVecAvx ShortVecAvx512
  ShortVecNeon ShortVecMic ShortVecQpx ShortVecSelect SpecSelect SpecShortVec
  PropsShortVec PropsShortVec2 PropsSelect.
From Verif Require Import Base Layout LayoutProofs Sizes SizesProofs Mem MemProofs Accessor AccessorProofs RegionProofs
  Grid SpecGrid GridProofs GridInv GridSim Peeler Array Stencil SpecStencil StencilProofs.
Import ListNotations.
Local Open Scope Z_scope.

(** Both examples register one double. *)
Lemma one_double_wf : forall ct, ct_ms ct = cell_members -> wf_ct ct.
Proof. intros ct H. split; rewrite H; repeat constructor. Qed.

(** ** C74: sweeps compute the filter *)

(** Any history of grid operations and sweeps, on any number of grids, with any
    vector class of double and any order of the parallel iterations, in which
    the operations are in range, runs without undefined behaviour, and every
    value observed is the one of the pointwise filters.  [base]: where the
    allocator put the blocks (alignment does not matter); A: any arithmetic. *)
Theorem C74_sweeps : forall (A : alg elem) (base : nat -> Z) (ct : celltype),
  doubles A -> ct_ms ct = cell_members ->
  forall ops W bs, axrun A ct no_grids ops W bs ->
  exists W', xrun A base ct start ops = Val (W', bs).
Proof.
  intros A base ct HA Hct ops W bs H.
  destruct (xrun_sim A base HA ct Hct ops start no_grids W bs (one_double_wf ct Hct) (winv_start ct) H) as [W' [E _]].
  eauto.
Qed.

(** The result does not depend on the vector class or on the order of the
    iterations: with a class of fewer lanes (for instance the scalar one) and
    another order, the same bytes are observed. *)
Theorem C74_portable : forall (A : alg elem) (base base' : nat -> Z) (ct : celltype),
  doubles A -> ct_ms ct = cell_members ->
  forall ops ops' W bs, axrun A ct no_grids ops W bs -> Forall2 adapted ops ops' ->
  exists W1 W2, xrun A base ct start ops = Val (W1, bs) /\ xrun A base' ct start ops' = Val (W2, bs).
Proof.
  intros A base base' ct HA Hct ops ops' W bs H F.
  destruct (C74_sweeps A base ct HA Hct ops W bs H) as [W1 E1].
  destruct (C74_sweeps A base' ct HA Hct ops' W bs (adapted_run A ct ops ops' F _ _ _ H)) as [W2 E2].
  eauto.
Qed.

(** The LibFlatArray program computes, bit for bit, what the C99 program
    computes: after any history in which the grids old and new hold the contents
    of the arrays a and b, and any number n of update-and-swap steps, reading
    any cell of the old grid gives the element of the C99 program's old array. *)
Theorem C74_equals_c99 : forall (A : alg elem) (base : nat -> Z) (ct : celltype),
  doubles A -> ct_ms ct = cell_members ->
  forall ops W bs f c order old new S D a b,
  axrun A ct no_grids ops W bs ->
  ready f c order W old new S D -> holds_grid a S -> holds_grid b D ->
  forall n x y z, in_box S x y z ->
  exists W', xrun A base ct start (ops ++ lfa_steps f c order n old new ++ [XGrid (OGet old x y z)]) =
    Val (W', bs ++ repeat BUnit (2 * n) ++
             [BCell [[fst (c99_steps A f n (ag_x S) (ag_y S) (ag_z S) a b) ((z * ag_y S + y) * ag_x S + x)]]]).
Proof.
  intros A base ct HA Hct ops W bs f c order old new S D a b H R Ha Hb n x y z I.
  destruct (lfa_steps_ok A ct f c order n W old new S D a b R Ha Hb) as [W1 [S' [X [X1 [X2 X3]]]]].
  injection X2 as E1 E2 E3.
  assert (I' : in_box S' x y z) by (unfold in_box in *; lia).
  pose proof (X3 x y z I') as V. rewrite E1, E2 in V.
  eapply C74_sweeps; auto. eapply axrun_app; [exact H|]. eapply axrun_app; [exact X|].
  pose proof (a_get ct W1 old S' x y z X1 I') as G. rewrite V in G.
  econstructor; [|constructor]. constructor. exact G.
Qed.

(** The vector class chosen by estimate_optimum_short_vec_type<double, ...> is
    one of those covered, on every target where it exists. *)
Ltac listed :=
  unfold without_qpx, scalar_classes, sse_classes, avx_classes, avx512_classes, neon_classes, mic_classes; cbn [app In];
  repeat lazymatch goal with
         | |- ?c = ?c \/ _ => left; reflexivity
         | |- _ = _ \/ _ => right
         end; fail.

Lemma double_headers : Forall (fun h => h_kind h = KF64 -> h_guard h <> Some [Qpx] ->
  Forall (fun c => In c without_qpx) (h_variants h)) headers.
Proof.
  unfold headers. repeat (apply Forall_cons; [cbn [h_kind h_guard h_variants]; intros K G;
    first [discriminate K | (exfalso; apply G; reflexivity) |
      (clear; repeat (apply Forall_cons; [listed|]); apply Forall_nil)]|]). apply Forall_nil.
Qed.

Theorem C74_selected : forall t dim size unroll est s n h c, coherent t -> d_cuda_arch t = false ->
  optimum_type t KF64 dim size unroll est = Some (s, KF64, n) ->
  short_vec_class t KF64 n = Some h -> In c (h_variants h) ->
  double_class c /\ Z.of_nat (c_arity c) = n.
Proof.
  intros t dim size unroll est s n h c C U O S V.
  destruct (short_vec_class_shape t KF64 n h c S V) as [K N].
  split; [|exact N]. split; [|exact K].
  unfold short_vec_class in S. destruct (widest_isa t) as [i|] eqn:W; [|discriminate].
  destruct (in_defs _ _ _ _ (the_one_in _ _ S)) as [J [G [Kh _]]].
  pose proof (proj1 (Forall_forall _ _) double_headers h J Kh) as D.
  assert (Q : h_guard h <> Some [Qpx]).
  { intros E. unfold guard_holds in G. rewrite E in G. cbn in G.
    assert (i = Qpx) by (destruct i; auto; discriminate). subst i.
    unfold optimum_type in O. destruct (unroll <? 0); [discriminate|].
    destruct (ilp_to_arity t KF64 unroll) as [a|] eqn:R; [|discriminate].
    revert W R. clear -C U. destruct t as [cu v nn m a5 a2 a1 s4 s2 s1 g l sb lb], C as [_ _ _ _ _ Q _ _]. cbn in U, Q. subst cu.
    unfold widest_isa, isa_defs, ilp_to_arity, bit_width_decls, the_one. cbn.
    destruct v; [destruct (Q eq_refl) as [-> [-> ->]]; cbn; discriminate|].
    destruct nn; cbn; [discriminate|]. destruct m, (avx512_helper _), a2, a1, s4, s2, s1; discriminate. }
  exact (proj1 (Forall_forall _ _) (D Q) c V).
Qed.

(** On an x86-64 with AVX2 a vector has eight doubles. *)
Example C74_selected_case : exists h,
  optimum_type haswell KF64 (32 * 32 * 32) 8 default_unroll default_estimate = Some (false, KF64, 8) /\
  short_vec_class haswell KF64 8 = Some h /\ In cls_avx_double_8_2 (h_variants h).
Proof. eexists. split; [vm_compute; reflexivity|]. split; [vm_compute; reflexivity|]. cbn; auto. Qed.

(** A concrete arithmetic: unsigned integers of 64 bits. *)
Definition number (e : elem) : Z :=
  fold_right (fun b a => match b with Some b => Z.of_N (Byte.to_N b) | None => 0 end + 256 * a) 0 e.
Definition double_of (z : Z) : elem :=
  map (fun i => Byte.of_N (Z.to_N (z / 256 ^ i mod 256))) [0; 1; 2; 3; 4; 5; 6; 7].
Definition integers : alg elem :=
  mkAlg (fun _ x => x)
    (fun o x y => match o with
                  | BAdd _ => double_of (number x + number y)
                  | BMul _ => double_of (number x * number y)
                  | _ => zero
                  end)
    (fun _ x _ => x) (fun z => double_of z) (fun _ => zero) (fun _ => zero) (fun x => x) zero.

Lemma integers_ok : doubles integers.
Proof. intros x y _ _. split; reflexivity. Qed.

Definition ex_cells : celltype := mkCT cell_members Default false.
Definition cell_of (z : Z) : cell := [[double_of z]].

Definition ex_history (w : Z) (c : cls) : list xop :=
  [XGrid (ONew 0 w 3 3); XGrid (ONew 1 w 3 3); XGrid (OSet 0 1 1 1 (cell_of 7)); XGrid (OSet 1 (w - 1) 1 1 (cell_of 5));
   XSweep (Jacobi (double_of 1)) c (@rev Z) 0 1; XGrid (OGet 1 2 1 1); XGrid (OGet 1 (w - 1) 1 1)].
Definition ex_obs (r : Mem.result (world * list obs)) : option (list obs) :=
  match r with Val (_, l) => Some l | Fault _ => None end.


(** A history of the kind C74_sweeps is about, with a vector class of eight doubles. *)
Lemma ex_supported : forall w, 1 <= w <= 32 -> supported (ct_sizes ex_cells) w 3 3.
Proof. intros w Hw. left. lia. Qed.

Lemma ex_avx : double_class cls_avx_double_8_2.
Proof. split; [listed|reflexivity]. Qed.

Lemma ex_scalar : double_class cls_scalar_double_1.
Proof. split; [listed|reflexivity]. Qed.

Lemma ex_wide : wide_enough (Jacobi (double_of 1)) 8 9.
Proof. exists 8. split; [split; [exists 1; lia|cbn; lia]|cbn; lia]. Qed.

Lemma rev_order : forall l : list Z, Permutation (rev l) l.
Proof. intros l. apply Permutation_sym, Permutation_rev. Qed.

Lemma ex_get : forall A ct W id S x y z c, W id = Some S -> in_box S x y z -> ag_cells S x y z = c ->
  axstep A ct W (XGrid (OGet id x y z)) W (BCell c).
Proof. intros A ct W id S x y z c H1 H2 <-. apply ax_grid, a_get; auto. Qed.

Ltac ax_setup :=
  eapply axr_cons; [apply ax_grid, a_new; try (cbn; lia); try reflexivity; first [discriminate|apply ex_supported; lia]|];
  eapply axr_cons; [apply ax_grid, a_new; try (cbn; lia); try reflexivity; first [discriminate|apply ex_supported; lia]|];
  eapply axr_cons; [apply ax_grid; eapply a_set; [reflexivity|unfold in_box; cbn; lia|repeat constructor]|];
  eapply axr_cons; [apply ax_grid; eapply a_set; [reflexivity|unfold in_box; cbn; lia|repeat constructor]|].

Ltac ax_finish :=
  eapply axr_cons; [eapply ex_get; [reflexivity|unfold in_box; cbn; lia|vm_compute; reflexivity]|];
  eapply axr_cons; [eapply ex_get; [reflexivity|unfold in_box; cbn; lia|vm_compute; reflexivity]|];
  constructor.

Example C74_sweeps_case : exists W,
  axrun integers ex_cells no_grids (ex_history 9 cls_avx_double_8_2) W
    [BUnit; BUnit; BUnit; BUnit; BUnit; BCell (cell_of 7); BCell (cell_of 5)].
Proof.
  eexists. unfold ex_history. ax_setup.
  eapply axr_cons.
  { eapply ax_sweep; try reflexivity; try (cbn; lia); [apply ex_avx|apply ex_wide|apply rev_order]. }
  ax_finish.
Qed.

Example C74_portable_case : Forall2 adapted (ex_history 9 cls_avx_double_8_2) (ex_history 9 cls_scalar_double_1).
Proof.
  unfold ex_history. repeat (constructor; [constructor; fail|]). constructor; [|repeat constructor].
  apply ad_sweep; [apply ex_scalar|exists 8%nat; reflexivity|apply rev_order].
Qed.

(** Two arrays and two grids with the same contents, as C74_equals_c99 needs. *)
Example C74_equals_c99_case : exists W S D,
  axrun integers ex_cells no_grids (firstn 4 (ex_history 9 cls_avx_double_8_2)) W [BUnit; BUnit; BUnit; BUnit] /\
  ready (Jacobi (double_of 1)) cls_avx_double_8_2 (@rev Z) W 0 1 S D /\
  holds_grid (fun i => if i =? 37 then double_of 7 else zero) S /\
  holds_grid (fun i => if i =? 44 then double_of 5 else zero) D.
Proof.
  do 3 eexists. split; [|split; [|split]].
  - unfold ex_history. cbn [firstn]. ax_setup. constructor.
  - split; try reflexivity; try (cbn; lia); [apply ex_avx|apply ex_wide|apply rev_order].
  - intros x y z [Hx [Hy Hz]]. cbn in Hx, Hy, Hz. cbn -[Z.mul Z.add Z.eqb Z.leb Z.ltb].
    destruct (Z.eqb_spec ((z * 3 + y) * 9 + x) 37).
    + replace x with 1 by lia. replace y with 1 by lia. replace z with 1 by lia. reflexivity.
    + destruct (_ && _) eqn:E; [exfalso; lia|reflexivity].
  - intros x y z [Hx [Hy Hz]]. cbn in Hx, Hy, Hz. cbn -[Z.mul Z.add Z.eqb Z.leb Z.ltb].
    destruct (Z.eqb_spec ((z * 3 + y) * 9 + x) 44).
    + replace x with 8 by lia. replace y with 1 by lia. replace z with 1 by lia. reflexivity.
    + destruct (_ && _) eqn:E; [exfalso; lia|reflexivity].
Qed.

(** On narrow grids the claim is false: with eight lanes the leading scalar
    loop runs up to the multiple of eight, past the boundary of a grid of width
    four, and overwrites the boundary cell, which with one lane keeps its value. *)
Theorem C74_narrow_refuted :
  let ops := ex_history 4 in
  (exists W, axrun integers ex_cells no_grids (ops cls_scalar_double_1) W
     [BUnit; BUnit; BUnit; BUnit; BUnit; BCell (cell_of 7); BCell (cell_of 5)]) /\
  double_class cls_avx_double_8_2 /\
  exists W, xrun integers (fun _ => 0) ex_cells start (ops cls_avx_double_8_2) =
     Val (W, [BUnit; BUnit; BUnit; BUnit; BUnit; BCell (cell_of 7); BCell (cell_of 0)]).
Proof.
  cbn beta zeta. split; [|split; [exact ex_avx|]].
  - eexists. unfold ex_history. ax_setup.
    eapply axr_cons.
    { eapply ax_sweep; try reflexivity; try (cbn; lia); [apply ex_scalar| |apply rev_order].
      exists 1. split; [split; [exists 1; reflexivity|cbn; lia]|cbn; lia]. }
    ax_finish.
  - destruct (xrun integers (fun _ => 0) ex_cells start (ex_history 4 cls_avx_double_8_2)) as [[W l]|x] eqn:E.
    + exists W. f_equal. f_equal.
      assert (H : ex_obs (xrun integers (fun _ => 0) ex_cells start (ex_history 4 cls_avx_double_8_2)) = Some l)
        by now rewrite E.
      clear E. vm_compute in H. injection H as <-. reflexivity.
    + exfalso.
      assert (H : ex_obs (xrun integers (fun _ => 0) ex_cells start (ex_history 4 cls_avx_double_8_2)) = None)
        by now rewrite E.
      clear E. vm_compute in H. discriminate.
Qed.

Print Assumptions C74_sweeps.
Print Assumptions C74_portable.
Print Assumptions C74_equals_c99.
Print Assumptions C74_selected.
Print Assumptions C74_narrow_refuted.
