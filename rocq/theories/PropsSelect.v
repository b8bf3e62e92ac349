(** Theorems about the selection of short_vec classes (properties C53, C61,
    C62). *)
From Coq Require Import String ZArith Bool List Lia ZifyBool.
From Verif Require Import ShortVecLang ShortVecClass ShortVecApi SpecShortVec
  ShortVecSelect SpecSelect ShortVecProofs PropsShortVec PropsShortVec2.
From Verif Require Import ShortVecScalar ShortVecSse ShortVecAvx ShortVecAvx512
  ShortVecNeon ShortVecMic ShortVecQpx.
Import ListNotations.
Local Open Scope Z_scope.

(** Example targets: an x86-64 with everything up to AVX2, a CPU without any
    vector unit, AArch32 with NEON. *)
Definition haswell : target :=
  mkTarget false false false false false true true true true true (Some 9) None 64 64.
Definition sandy_bridge : target :=
  mkTarget false false false false false false true true true true (Some 9) None 64 64.
Definition skylake_x (gnuc clang : option Z) : target :=
  mkTarget false false false false true true true true true true gnuc clang 64 64.
Definition plain : target :=
  mkTarget false false false false false false false false false false (Some 9) None 64 64.
Definition cortex : target :=
  mkTarget false false true false false false false false false false (Some 9) None 32 32.
Definition blue_gene : target :=
  mkTarget false true false false false false false false false false None None 64 64.
Definition knights_corner : target :=
  mkTarget false false false true false false false false false false None None 64 64.
Definition gpu : target :=
  mkTarget true false false false false true true true true true (Some 9) None 64 64.
Definition win64 : target :=
  mkTarget false false false false false true true true true true None None 64 32.

Example targets_coherent :
  Forall coherent [haswell; sandy_bridge; skylake_x (Some 9) None; plain; cortex; blue_gene;
                   knights_corner; gpu; win64].
Proof. repeat constructor; intros; try discriminate; auto. Qed.

(** ** Instruction set *)

Theorem isa_unique : forall t, coherent t -> exists i, widest_isa t = Some i.
Proof.
  intros [cu v n m a5 a2 a1 s4 s2 s1 g l sb lb] [_ _ _ _ _ Q _ _]. cbn in Q.
  unfold widest_isa, isa_defs; cbn [d_cuda_arch d_vector4double d_arm_neon].
  destruct cu; [eexists; reflexivity|].
  destruct v, n; cbn; try (eexists; reflexivity).
  now destruct (Q eq_refl).
Qed.

(** The chosen instruction set is available, and none that is available has
    wider registers, provided Clang's claim to be an old GCC is ignored. *)
Theorem isa_widest_partial : forall t i, coherent t -> d_cuda_arch t = false ->
  (d_clang t <> None -> d_gnuc t = None) ->
  widest_isa t = Some i ->
  supports t i /\ forall j k, supports t j -> register_bits j k <= register_bits i k.
Proof.
  intros [cu v n m a5 a2 a1 s4 s2 s1 g l sb lb] i [C1 C2 C3 C4 C5 Q N M] U G W.
  unfold widest_isa, isa_defs, avx512_helper, at_least in W. cbn in *. subst cu.
  destruct v; [destruct (Q eq_refl) as [-> [-> ->]]|].
  { injection W as <-. split; [reflexivity|]. cbn.
    intros j k H; destruct j; cbn in *; destruct k; cbn; try lia; destruct a5, a2, a1, s4, s2; intuition (try discriminate; try lia). }
  destruct n; [destruct (N eq_refl) as [-> ->]|].
  { injection W as <-. split; [reflexivity|]. cbn.
    intros j k H; destruct j; cbn in *; destruct k; cbn; try lia; destruct a5, a2, a1, s4, s2; intuition (try discriminate; try lia). }
  destruct m; [specialize (M eq_refl); subst s1|].
  { injection W as <-. split; [reflexivity|]. cbn.
    intros j k H; destruct j; cbn in *; destruct k; cbn; try lia; destruct a5, a2, a1, s4, s2; intuition (try discriminate; try lia). }
  cbn in W.
  destruct a5, a2, a1, s4, s2, s1; cbn in W, C1, C2, C3, C4, C5;
    try (exfalso; intuition discriminate).
  all: destruct g as [g|], l as [l|]; cbn in W, G;
    try (exfalso; assert (X : Some l <> None) by discriminate; specialize (G X); discriminate).
  all: repeat match type of W with context [if ?b then _ else _] => destruct b eqn:? end;
    injection W as <-; cbn; split; try reflexivity; try (split; [reflexivity|]); try lia; try exact I;
    intros j k H; destruct j; cbn in H |- *; destruct k; cbn; try lia.
Qed.

Example isa_widest_case : widest_isa haswell = Some Avx2 /\ widest_isa (skylake_x (Some 9) None) = Some Avx512f /\
  widest_isa cortex = Some Neon /\ widest_isa plain = Some Scalar /\ supports haswell Sse41.
Proof. repeat split. Qed.

(** Clang defines __GNUC__ as 4, so the test of short_vec.hpp:302 never lets
    it use AVX-512, although the part of the test that concerns Clang does. *)
Theorem isa_widest_refuted : exists t i k, coherent t /\ d_cuda_arch t = false /\
  d_clang t = Some 15 /\ d_gnuc t = Some 4 /\ supports t Avx512f /\
  widest_isa t = Some i /\ register_bits i k < register_bits Avx512f k.
Proof.
  exists (skylake_x (Some 4) (Some 15)), Avx2, KF64.
  split; [constructor; intros; try discriminate; auto|].
  repeat split; discriminate.
Qed.

Theorem isa_clang : forall t, d_gnuc t = Some 4 -> widest_isa t <> Some Avx512f.
Proof.
  intros [cu v n m a5 a2 a1 s4 s2 s1 g l sb lb] G. cbn in G. subst g.
  unfold widest_isa, isa_defs, avx512_helper, at_least. cbn.
  destruct cu, v, n, m, a5, a2, a1, s4, s2, s1; cbn; discriminate.
Qed.

(** ** C61: which classes exist *)

Definition arities : list Z := [1; 2; 4; 8; 16; 32].

Lemma headers_arity h : In h headers -> In (h_arity h) arities.
Proof.
  intros I.
  assert (E : forallb (fun h => existsb (Z.eqb (h_arity h)) arities) headers = true)
    by (vm_compute; reflexivity).
  rewrite forallb_forall in E. specialize (E h I). apply existsb_exists in E as [n [N E]].
  apply Z.eqb_eq in E. now rewrite E.
Qed.

Definition all_isas : list isa := [Scalar; Qpx; Neon; Mic; Avx512f; Avx; Avx2; Sse; Sse2; Sse41].
Definition all_kinds : list ekind := [KF32; KF64; KI32].

Lemma all_isas_all i : In i all_isas.
Proof. destruct i; cbn; tauto. Qed.
Lemma all_kinds_all k : In k all_kinds.
Proof. destruct k; cbn; tauto. Qed.

Lemma combos (chk : isa -> ekind -> Z -> bool) :
  forallb (fun i => forallb (fun k => forallb (chk i k) arities) all_kinds) all_isas = true ->
  forall i k n, In n arities -> chk i k n = true.
Proof.
  intros E i k n N. rewrite forallb_forall in E. specialize (E i (all_isas_all i)).
  rewrite forallb_forall in E. specialize (E k (all_kinds_all k)).
  rewrite forallb_forall in E. exact (E n N).
Qed.

Lemma the_one_in {B : Type} (l : list B) (b : B) : the_one l = Some b -> In b l.
Proof.
  destruct l as [|x [|y r]]; cbn; intros H; try discriminate. injection H as ->. now left.
Qed.

Lemma in_defs i k n h : In h (short_vec_defs i k n) ->
  In h headers /\ guard_holds i h = true /\ h_kind h = k /\ h_arity h = n.
Proof.
  unfold short_vec_defs. generalize headers. intros l I.
  apply filter_In in I as [I E]. rewrite !andb_true_iff in E. destruct E as [[G K] N].
  apply Z.eqb_eq in N. split; [exact I|]. split; [exact G|]. split; [|exact N].
  destruct (h_kind h), k; try discriminate; reflexivity.
Qed.

(** There are no classes of any other arity. *)
Theorem short_vec_arities : forall i k n, ~ In n arities -> short_vec_defs i k n = [].
Proof.
  intros i k n N. destruct (short_vec_defs i k n) as [|h l] eqn:F; [reflexivity|].
  assert (I : In h (short_vec_defs i k n)) by (rewrite F; now left).
  destruct (in_defs _ _ _ _ I) as [J [_ [_ E]]]. destruct N. rewrite <- E. now apply headers_arity.
Qed.

(** No configuration defines a class twice, whatever the arity. *)
Theorem short_vec_not_twice : forall i k n, (length (short_vec_defs i k n) <= 1)%nat.
Proof.
  intros i k n. destruct (in_dec Z.eq_dec n arities) as [N|N].
  - apply Nat.leb_le.
    apply (combos (fun i k n => Nat.leb (length (short_vec_defs i k n)) 1)); [vm_compute; reflexivity|exact N].
  - rewrite (short_vec_arities i k n N). cbn. lia.
Qed.

(** float, double and int vectors with 1, 2, 4, 8, 16 and 32 lanes exist in
    every configuration, except short_vec<float, 32> on QPX: the guard of
    short_vec_scalar_float_32.hpp names the scalar configuration only. *)
Theorem short_vec_exists_partial : forall i k n, In n arities ->
  ~ (i = Qpx /\ k = KF32 /\ n = 32) -> exists h, short_vec_defs i k n = [h].
Proof.
  intros i k n N X.
  assert (E : (isa_eqb i Qpx && ekind_eqb k KF32 && (n =? 32)) ||
              Nat.eqb (length (short_vec_defs i k n)) 1 = true).
  { apply (combos (fun i k n => (isa_eqb i Qpx && ekind_eqb k KF32 && (n =? 32)) ||
              Nat.eqb (length (short_vec_defs i k n)) 1)); [vm_compute; reflexivity|exact N]. }
  apply orb_true_iff in E as [E|E].
  - destruct X. rewrite !andb_true_iff in E. destruct E as [[A B] C]. apply Z.eqb_eq in C.
    destruct i; try discriminate; destruct k; try discriminate; auto.
  - apply Nat.eqb_eq in E. destruct (short_vec_defs i k n) as [|h [|? ?]]; try discriminate.
    now exists h.
Qed.

Theorem short_vec_exists_refuted : exists t k n, coherent t /\ In n arities /\
  widest_isa t = Some Qpx /\ short_vec_class t k n = None.
Proof.
  exists blue_gene, KF32, 32. split; [constructor; intros; try discriminate; auto|].
  repeat split. cbn; tauto.
Qed.

Definition variants_match (h : header) : bool :=
  forallb (fun c => ekind_eqb (c_kind c) (h_kind h) && (Z.of_nat (c_arity c) =? h_arity h)) (h_variants h).

Lemma headers_match : forallb variants_match headers = true.
Proof. vm_compute. reflexivity. Qed.

Lemma header_variants h c : In h headers -> In c (h_variants h) ->
  c_kind c = h_kind h /\ Z.of_nat (c_arity c) = h_arity h.
Proof.
  intros I V. assert (X := headers_match). rewrite forallb_forall in X. specialize (X h I).
  unfold variants_match in X. rewrite forallb_forall in X. specialize (X c V).
  apply andb_true_iff in X as [X Y]. apply Z.eqb_eq in Y. split; [|exact Y].
  destruct (h_kind h), (c_kind c); try discriminate; reflexivity.
Qed.

(** The class found has the element type and arity asked for. *)
Theorem short_vec_class_shape : forall t k n h c, short_vec_class t k n = Some h ->
  In c (h_variants h) -> c_kind c = k /\ Z.of_nat (c_arity c) = n.
Proof.
  intros t k n h c S V. unfold short_vec_class in S.
  destruct (widest_isa t) as [i|]; [|discriminate].
  apply the_one_in, in_defs in S as [I [_ [<- <-]]]. now apply header_variants.
Qed.

(** Every class of the model is provided by some header. *)
Theorem short_vec_classes_used : forall c, In c all_classes ->
  exists h d, In h headers /\ In d (h_variants h) /\ c_name d = c_name c.
Proof.
  intros c I.
  by_check c I all_classes (fun c => existsb (fun h => existsb (fun d =>
    String.eqb (c_name d) (c_name c)) (h_variants h)) headers).
  apply existsb_exists in E as [h [H E]]. apply existsb_exists in E as [d [D E]].
  apply String.eqb_eq in E. now exists h, d.
Qed.

Example short_vec_class_case : exists h, short_vec_class haswell KI32 16 = Some h /\
  In cls_avx_int_16_2 (h_variants h).
Proof. eexists. split; [reflexivity|]. left; reflexivity. Qed.

(** ** C53: arity and registers *)

Lemma esize_pos k : 0 < esize k.
Proof. destruct k; reflexivity. Qed.

Lemma arity_fills k ilp w sb : In w [128; 256; 512; esize k * 8] -> 0 <= ilp -> ilp * 512 < 2 ^ sb ->
  fills k ((ilp * w) mod 2 ^ sb / esize k / 8) ilp w.
Proof.
  intros Hw L O. unfold fills. assert (P := esize_pos k).
  assert (W : 0 <= w <= 512) by (cbn in Hw; destruct k; cbn in *; lia).
  rewrite Z.mod_small by nia.
  rewrite Z.div_div by lia.
  assert (X : exists q, ilp * w = q * (esize k * 8)).
  { assert (Y : w mod (esize k * 8) = 0)
      by (cbn [In] in Hw; destruct Hw as [<-|[<-|[<-|[<-|[]]]]]; destruct k; reflexivity).
    apply Z.mod_divide in Y; [|lia]. destruct Y as [q ->]. exists (ilp * q). ring. }
  destruct X as [q X]. rewrite X, Z.div_mul by lia. ring.
Qed.

(** Where ilp_to_arity compiles on a CPU, ARITY lanes fill exactly ILP
    registers of the chosen instruction set. *)
Theorem ilp_fills_registers : forall t i k ilp n, coherent t -> d_cuda_arch t = false ->
  widest_isa t = Some i -> ilp_to_arity t k ilp = Some n ->
  0 <= ilp -> ilp * 512 < 2 ^ size_bits t ->
  fills k n ilp (register_bits i k).
Proof.
  intros [cu v nn m a5 a2 a1 s4 s2 s1 g l sb lb] i k ilp n [C1 C2 C3 C4 C5 Q N M] U W R L O.
  cbn in U, Q, N, M, C1, C2, C3, C4, C5, O. subst cu.
  assert (A : forall w, bit_width_decls (mkTarget false v nn m a5 a2 a1 s4 s2 s1 g l sb lb) k = [w] ->
    In w [128; 256; 512; esize k * 8] -> fills k n ilp w).
  { intros w E Hw. unfold ilp_to_arity in R. cbn [d_cuda_arch] in R. rewrite E in R. cbn [the_one] in R.
    injection R as <-. cbn [size_bits]. now apply arity_fills. }
  unfold ilp_to_arity in R. cbn [d_cuda_arch] in R.
  unfold bit_width_decls, avx512_helper in R, A. unfold widest_isa, isa_defs, avx512_helper in W.
  cbn in R, W, A.
  destruct v; [destruct (Q eq_refl) as [-> [-> ->]]; cbn in R, W; discriminate|].
  destruct nn; [destruct (N eq_refl) as [-> ->]; cbn in R, W, A|].
  { injection W as <-. cbn. apply (A 128 eq_refl). cbn; tauto. }
  destruct m; [cbn in R; discriminate|]. cbn in R, W, A.
  destruct (a5 && at_least 7 g && at_least 4 l).
  { injection W as <-. apply (A 512 eq_refl). cbn; tauto. }
  destruct a2; [rewrite (C2 eq_refl) in A|].
  { injection W as <-. apply (A 256 eq_refl). cbn; tauto. }
  destruct a1. { injection W as <-. apply (A 256 eq_refl). cbn; tauto. }
  destruct s4; [rewrite (C5 (C4 eq_refl)) in A|].
  { injection W as <-. apply (A 128 eq_refl). cbn; tauto. }
  destruct s2; [rewrite (C5 eq_refl) in A|].
  { injection W as <-. apply (A 128 eq_refl). cbn; tauto. }
  destruct s1. { injection W as <-. apply (A 128 eq_refl). cbn; tauto. }
  injection W as <-. cbn [register_bits]. rewrite Z.mul_comm.
  apply (A (esize k * 8) eq_refl). cbn; tauto.
Qed.

Example ilp_fills_case : ilp_to_arity haswell KF64 4 = Some 16 /\
  ilp_to_arity (skylake_x (Some 9) None) KF32 2 = Some 32 /\ ilp_to_arity plain KI32 8 = Some 8.
Proof. repeat split. Qed.

(** Where the class exists too, its objects consist of ILP such registers,
    save for integers on AVX without AVX2 and doubles and integers on NEON. *)
Definition wide_enough (i : isa) (k : ekind) : Prop :=
  ~ (i = Avx /\ k = KI32) /\ ~ (i = Neon /\ k <> KF32).

Theorem ilp_class_registers_partial : forall t i k ilp n h c, coherent t -> d_cuda_arch t = false ->
  widest_isa t = Some i -> wide_enough i k -> ilp_to_arity t k ilp = Some n ->
  0 <= ilp -> ilp * 512 < 2 ^ size_bits t ->
  short_vec_class t k n = Some h -> In c (h_variants h) ->
  consists_of c ilp (register_bits i k).
Proof.
  intros t i k ilp n h c C U W D R L O S V.
  assert (F := ilp_fills_registers t i k ilp n C U W R L O).
  destruct (short_vec_class_shape t k n h c S V) as [K A].
  unfold short_vec_class in S. rewrite W in S.
  assert (I := the_one_in _ _ S).
  assert (N : In n arities)
    by (destruct (in_defs _ _ _ _ I) as [J [_ [_ <-]]]; now apply headers_arity).
  assert (E : (isa_eqb i Avx && ekind_eqb k KI32) || (isa_eqb i Neon && negb (ekind_eqb k KF32)) ||
    negb ((n * (8 * esize k)) mod register_bits i k =? 0) ||
    isa_eqb i Qpx || isa_eqb i Mic ||
    forallb (fun h => forallb (fun c =>
      (Z.of_nat (c_lanes c) * (8 * esize (c_kind c)) =? register_bits i k) &&
      Nat.eqb (c_arity c) (c_nreg c * c_lanes c)) (h_variants h)) (short_vec_defs i k n) = true).
  { apply (combos (fun i k n =>
    (isa_eqb i Avx && ekind_eqb k KI32) || (isa_eqb i Neon && negb (ekind_eqb k KF32)) ||
    negb ((n * (8 * esize k)) mod register_bits i k =? 0) ||
    isa_eqb i Qpx || isa_eqb i Mic ||
    forallb (fun h => forallb (fun c =>
      (Z.of_nat (c_lanes c) * (8 * esize (c_kind c)) =? register_bits i k) &&
      Nat.eqb (c_arity c) (c_nreg c * c_lanes c)) (h_variants h)) (short_vec_defs i k n)));
      [vm_compute; reflexivity|exact N]. }
  assert (B : 0 < register_bits i k) by (destruct i, k; reflexivity).
  rewrite !orb_true_iff in E. destruct E as [[[[[E|E]|E]|E]|E]|E].
  - destruct D as [D _], i, k; try discriminate. now destruct D.
  - destruct D as [_ D], i, k; try discriminate; destruct D; split; auto; discriminate.
  - unfold fills in F. rewrite F, Z.mod_mul in E by lia. discriminate.
  - exfalso. destruct i; try discriminate.
    revert W R. clear -C U. destruct t as [cu v nn m a5 a2 a1 s4 s2 s1 g l sb lb], C as [_ _ _ _ _ Q _ _]. cbn in U, Q. subst cu.
    unfold widest_isa, isa_defs, ilp_to_arity, bit_width_decls, the_one. cbn.
    destruct v; [destruct (Q eq_refl) as [-> [-> ->]]; cbn; discriminate|].
    destruct nn; cbn; [discriminate|]. destruct m, (avx512_helper _), a2, a1, s4, s2, s1; discriminate.
  - exfalso. destruct i; try discriminate.
    revert W R. clear -C U. destruct t as [cu v nn m a5 a2 a1 s4 s2 s1 g l sb lb], C as [_ _ _ _ _ Q N M]. cbn in U, Q, N, M. subst cu.
    unfold widest_isa, isa_defs, ilp_to_arity, bit_width_decls, the_one. cbn.
    destruct v, nn; cbn; try discriminate.
    destruct m; cbn; [discriminate|]. destruct (avx512_helper _), a2, a1, s4, s2, s1; discriminate.
  - rewrite forallb_forall in E. specialize (E h I). rewrite forallb_forall in E. specialize (E c V).
    apply andb_true_iff in E as [E1 E2]. apply Z.eqb_eq in E1. apply Nat.eqb_eq in E2.
    split; [|split; assumption]. unfold fills in F. rewrite <- A, <- E1, K in F. rewrite K in E1.
    rewrite E2, Nat2Z.inj_mul in F.
    assert (P := esize_pos k). assert (L0 : 0 < Z.of_nat (c_lanes c)) by nia. nia.
Qed.

(** The exceptions are real. *)
Theorem ilp_class_registers_refuted :
  (exists h, ilp_to_arity sandy_bridge KI32 1 = Some 8 /\ short_vec_class sandy_bridge KI32 8 = Some h /\
    forall c, In c (h_variants h) -> c_nreg c = 2%nat) /\
  (exists h, ilp_to_arity cortex KF64 1 = Some 2 /\ short_vec_class cortex KF64 2 = Some h /\
    forall c, In c (h_variants h) -> c_nreg c = 2%nat) /\
  (exists h, ilp_to_arity cortex KI32 1 = Some 4 /\ short_vec_class cortex KI32 4 = Some h /\
    forall c, In c (h_variants h) -> c_nreg c = 4%nat).
Proof.
  split; [|split]; eexists; (split; [reflexivity|]; split; [reflexivity|]);
    intros c H; cbn in H; repeat (destruct H as [<-|H]; [reflexivity|]); destruct H.
Qed.

(** On CUDA devices the arity is 1 whatever the ILP; on QPX and MIC
    ilp_to_arity does not compile: BIT_WIDTH is declared twice, respectively
    not at all. *)
Theorem ilp_to_arity_cuda : forall t k ilp, d_cuda_arch t = true -> ilp_to_arity t k ilp = Some 1.
Proof. intros t k ilp U. unfold ilp_to_arity. now rewrite U. Qed.

Theorem ilp_to_arity_qpx_mic : forall t i k ilp, coherent t -> widest_isa t = Some i ->
  (ilp_to_arity t k ilp = None <-> i = Qpx \/ i = Mic).
Proof.
  intros t i k ilp C W.
  destruct t as [cu v nn m a5 a2 a1 s4 s2 s1 g l sb lb], C as [_ _ _ _ _ Q N M]. cbn in Q, N, M.
  revert W. unfold widest_isa, isa_defs, ilp_to_arity, bit_width_decls, avx512_helper, the_one. cbn.
  destruct cu; [intros W; injection W as <-; split; [discriminate|intros [?|?]; discriminate]|].
  destruct v; [destruct (Q eq_refl) as [-> [-> ->]]; cbn; intros W; injection W as <-; tauto|].
  destruct nn; [destruct (N eq_refl) as [-> ->]; cbn; intros W; injection W as <-; split; [discriminate|intros [?|?]; discriminate]|].
  destruct m; cbn; [intros W; injection W as <-; tauto|].
  destruct (a5 && _ && _), a2, a1, s4, s2, s1; intros W; injection W as <-;
    (split; [discriminate|intros [?|?]; discriminate]).
Qed.

(** ** C53: streaming stores *)

Lemma to_long_small t z : 0 < long_bits t -> 31 <= long_bits t - 1 -> 0 <= z < 2 ^ 31 -> to_long t z = z.
Proof.
  intros P L H. unfold to_long.
  assert (E : 2 ^ long_bits t = 2 * 2 ^ (long_bits t - 1)).
  { rewrite <- Z.pow_succ_r by lia. f_equal. lia. }
  assert (Q : 2 ^ 31 <= 2 ^ (long_bits t - 1)) by (apply Z.pow_le_mono_r; lia).
  rewrite E. replace (2 * 2 ^ (long_bits t - 1) / 2) with (2 ^ (long_bits t - 1))
    by (symmetry; rewrite Z.mul_comm; apply Z.div_mul; lia).
  rewrite Z.mod_small by lia. destruct (Z.ltb_spec z (2 ^ (long_bits t - 1))); lia.
Qed.

(** For working sets of less than 2^31 times the cache estimate, streaming
    stores are chosen exactly if the set is at least as large as the cache. *)
Theorem streaming_iff_partial : forall t k dim size unroll est n,
  32 <= long_bits t -> 32 <= size_bits t ->
  0 <= dim -> 0 <= size -> dim * size < 2 ^ size_bits t ->
  0 < est < 2 ^ 31 -> dim * size < 2 ^ 31 * est ->
  0 <= unroll -> ilp_to_arity t k unroll = Some n ->
  exists s, optimum_type t k dim size unroll est = Some (s, k, n) /\
    (s = true <-> est <= dim * size).
Proof.
  intros t k dim size unroll est n L Sb D Z0 O E B U R.
  assert (P : 2 ^ 32 <= 2 ^ size_bits t) by (apply Z.pow_le_mono_r; lia).
  assert (P2 : 2 ^ 31 < 2 ^ 32) by reflexivity.
  unfold optimum_type. destruct (Z.ltb_spec unroll 0); [lia|]. rewrite R.
  unfold streaming_flag. rewrite (Z.mod_small est) by lia.
  destruct (Z.eqb_spec est 0); [lia|].
  assert (M : (dim mod 2 ^ size_bits t * size) mod 2 ^ size_bits t = dim * size).
  { rewrite Z.mul_mod_idemp_l by lia. apply Z.mod_small. split; [|exact O]. now apply Z.mul_nonneg_nonneg. }
  rewrite M.
  assert (Q : 0 <= dim * size / est < 2 ^ 31).
  { split; [apply Z.div_pos; nia|]. apply Z.div_lt_upper_bound; lia. }
  rewrite to_long_small by lia. unfold int_arg.
  destruct (Z.leb_spec (- 2 ^ 31) (dim * size / est)); [|lia].
  destruct (Z.ltb_spec (dim * size / est) (2 ^ 31)); [|lia]. cbn [andb].
  destruct (dim * size / est) eqn:F.
  - exists false. split; [reflexivity|]. split; [discriminate|]. intros G.
    assert (1 <= dim * size / est) by (apply Z.div_le_lower_bound; lia). lia.
  - exists true. split; [reflexivity|]. split; [intros _|reflexivity].
    assert (X := Z.mul_div_le (dim * size) est ltac:(lia)). rewrite F in X. nia.
  - lia.
Qed.

Example streaming_iff_case :
  optimum_type haswell KF64 (256 * 256 * 256) 16 default_unroll default_estimate = Some (true, KF64, 8) /\
  optimum_type haswell KF64 (2 * 2 ^ 20) 8 default_unroll default_estimate = Some (false, KF64, 8).
Proof. split; vm_compute; reflexivity. Qed.

(** Beyond that the class does not compile where long has 64 bits, and where
    long is narrower than size_t the choice can be wrong. *)
Theorem streaming_too_large : forall t k dim size unroll est,
  long_bits t = 64 -> size_bits t = 64 -> 0 <= dim -> 0 <= size -> dim * size < 2 ^ 63 ->
  0 < est < 2 ^ 31 -> 2 ^ 31 * est <= dim * size ->
  optimum_type t k dim size unroll est = None.
Proof.
  intros t k dim size unroll est L Sb D Z0 O E B.
  unfold optimum_type. destruct (unroll <? 0); [reflexivity|].
  destruct (ilp_to_arity t k unroll) as [n|]; [|reflexivity].
  unfold streaming_flag. rewrite Sb.
  assert (P : 2 ^ 31 < 2 ^ 64) by reflexivity. assert (P2 : 2 ^ 63 < 2 ^ 64) by reflexivity.
  rewrite (Z.mod_small est) by lia.
  destruct (Z.eqb_spec est 0); [reflexivity|].
  assert (M : (dim mod 2 ^ 64 * size) mod 2 ^ 64 = dim * size).
  { rewrite Z.mul_mod_idemp_l by lia. apply Z.mod_small. split; [|lia]. now apply Z.mul_nonneg_nonneg. }
  rewrite M. unfold to_long. rewrite L.
  assert (Q : 2 ^ 31 <= dim * size / est) by (apply Z.div_le_lower_bound; lia).
  assert (Q2 : dim * size / est < 2 ^ 63).
  { apply Z.le_lt_trans with (dim * size); [|exact O]. apply Z.div_le_upper_bound; nia. }
  rewrite (Z.mod_small (dim * size / est)) by lia.
  replace (2 ^ 64 / 2) with (2 ^ 63) by reflexivity.
  destruct (Z.ltb_spec (dim * size / est) (2 ^ 63)); [|lia].
  unfold int_arg. destruct (Z.ltb_spec (dim * size / est) (2 ^ 31)); [lia|].
  now rewrite andb_false_r.
Qed.

Theorem streaming_iff_refuted : exists t dim size est n, coherent t /\ 0 < est < 2 ^ 31 /\
  est <= dim * size /\ dim * size < 2 ^ size_bits t /\ ilp_to_arity t KF64 2 = Some n /\
  optimum_type t KF64 dim size 2 est = Some (false, KF64, n).
Proof.
  exists win64, (2 ^ 30), 16, 4, 8.
  split; [constructor; intros; try discriminate; auto|].
  repeat split; vm_compute; try reflexivity; discriminate.
Qed.

(** With the default estimate every set that fits into the address space of a
    64 bit machine (2^56 bytes) is treated correctly. *)
Theorem streaming_default : forall t k dim size n,
  32 <= long_bits t -> size_bits t = 64 -> 0 <= dim -> 0 <= size -> dim * size < 2 ^ 56 ->
  ilp_to_arity t k default_unroll = Some n ->
  exists s, optimum_type t k dim size default_unroll default_estimate = Some (s, k, n) /\
    (s = true <-> default_estimate <= dim * size).
Proof.
  intros t k dim size n L Sb D Z0 O R.
  assert (P : 2 ^ 56 < 2 ^ 64) by reflexivity.
  assert (P2 : 2 ^ 56 = 2 ^ 31 * 2 ^ 25) by reflexivity.
  apply streaming_iff_partial; rewrite ?Sb; unfold default_estimate, default_unroll; try lia; try assumption.
Qed.

(** The loop peeler's scalar vector is of the same template and element type as
    the wide one; only the number of lanes changes. *)
Theorem sibling_switch : forall v n, fst (sibling v n) = fst v /\ snd (sibling v n) = n /\
  sibling (sibling v n) (snd v) = v.
Proof. intros [[s k] m] n. repeat split. Qed.

Example sibling_case : sibling (true, KF64, 8) 1 = (true, KF64, 1).
Proof. reflexivity. Qed.

(** ** C62: streaming_short_vec *)

(** At addresses with the alignment the class needs, store, store_aligned and
    ptr << vec of streaming_short_vec write what short_vec::store writes. *)
Theorem streaming_store : forall c n, In (c, n) nt_ok ->
  forall (T : Type) (A : alg T) v x mis, is_vec c v x -> mis_ok c mis -> aligned_to c n mis ->
  stores c (streaming_mem A c MStore v mis) x /\ stores c (streaming_mem A c MStoreAligned v mis) x.
Proof.
  intros c n I T A v x mis Hv Hm Ha. split; exact (sv_store_nt c n I T A v x mis Hv Hm Ha).
Qed.

Theorem streaming_load : forall c, In c without_qpx ->
  forall (T : Type) (A : alg T) v x mis, is_vec c v x -> mis_ok c mis ->
  forall m, loader m -> loads c (streaming_mem A c m v mis) (a_data A).
Proof.
  intros c I T A v x mis Hv Hm m L.
  destruct L as [->|[->| ->]]; cbn [streaming_mem].
  - apply sv_load with (x := x); auto. now left.
  - apply sv_load with (x := x); auto. now right; left.
  - apply sv_load with (x := x); auto. now left.
Qed.

Example streaming_store_case :
  match streaming_mem Z_machine cls_avx_int_8_2 MStore [[1; 2; 3; 4; 5; 6; 7; 8]] 8 with
  | Some r => map snd (r_writes r) = [1; 2; 3; 4; 5; 6; 7; 8]
  | None => False
  end.
Proof. vm_compute. reflexivity. Qed.

(** ptr << vec works at any address. *)
Theorem streaming_shift_any : forall c, In c without_qpx ->
  forall (T : Type) (A : alg T) v x mis, is_vec c v x -> mis_ok c mis ->
  stores c (streaming_shift A c v mis) x.
Proof. intros c I T A v x mis Hv Hm. now apply sv_store. Qed.

(** The comment of the class says that it replaces all stores by streaming
    stores, which need aligned addresses; ptr << vec is not replaced. *)
Theorem streaming_shift_refuted : exists c v x mis, In c all_classes /\ is_vec c v x /\ mis_ok c mis /\
  streaming_mem Z_machine c MStore v mis = None /\
  stores c (streaming_shift Z_machine c v mis) x.
Proof.
  exists cls_avx_float_8, [[1; 2; 3; 4; 5; 6; 7; 8]], (fun i => Z.of_nat i + 1), 1.
  assert (I : In cls_avx_float_8 without_qpx).
  { change cls_avx_float_8 with (nth 52 without_qpx cls_avx_float_8).
    apply nth_In. apply Nat.ltb_lt. vm_compute. reflexivity. }
  assert (V : is_vec cls_avx_float_8 [[1; 2; 3; 4; 5; 6; 7; 8]] (fun i => Z.of_nat i + 1))
    by (repeat constructor).
  assert (M : mis_ok cls_avx_float_8 1) by (split; [discriminate|reflexivity]).
  split; [apply in_or_app; right; apply in_or_app; right; apply in_or_app; left; cbn; tauto|].
  split; [exact V|]. split; [exact M|]. split; [vm_compute; reflexivity|].
  exact (streaming_shift_any _ I Z Z_machine _ _ 1 V M).
Qed.

Print Assumptions isa_unique.
Print Assumptions isa_widest_partial.
Print Assumptions isa_widest_refuted.
Print Assumptions isa_clang.
Print Assumptions short_vec_not_twice.
Print Assumptions short_vec_exists_partial.
Print Assumptions short_vec_exists_refuted.
Print Assumptions short_vec_arities.
Print Assumptions short_vec_class_shape.
Print Assumptions short_vec_classes_used.
Print Assumptions ilp_fills_registers.
Print Assumptions ilp_class_registers_partial.
Print Assumptions ilp_class_registers_refuted.
Print Assumptions ilp_to_arity_cuda.
Print Assumptions ilp_to_arity_qpx_mic.
Print Assumptions streaming_iff_partial.
Print Assumptions streaming_too_large.
Print Assumptions streaming_iff_refuted.
Print Assumptions streaming_default.
Print Assumptions sibling_switch.
Print Assumptions streaming_store.
Print Assumptions streaming_load.
Print Assumptions streaming_shift_any.
Print Assumptions streaming_shift_refuted.
