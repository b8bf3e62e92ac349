(** Theorems about short_vec: memory access, masks, compound division,
    printing (properties C50, C51, C52). *)
From Coq Require Import String ZArith Bool List Lia.
From Verif Require Import ShortVecLang ShortVecClass ShortVecSym ShortVecApi SpecShortVec
  ShortVecNat ShortVecLift ShortVecProofs ShortVecBits PropsShortVec.
From Verif Require Import ShortVecScalar ShortVecSse ShortVecAvx ShortVecAvx512
  ShortVecNeon ShortVecMic ShortVecQpx.
Import ListNotations.
Local Open Scope Z_scope.

(** ** C50: memory access *)

(** The scalar constructor fills all lanes. *)
Theorem sv_broadcast : forall c, In c all_classes ->
  forall (T : Type) (A : alg T) t, sets_vec c (sv_scalar A c t) (fun _ => t).
Proof.
  intros c I T A t. by_check c I all_classes chk_scalar. exact (chk_scalar_ok c E T A t).
Qed.

(** The constructor taking registers. *)
Definition with_reg_ctor : list cls :=
  filter (fun c => negb (Nat.eqb (c_arity c) 1)) all_classes.

Theorem sv_from_registers : forall c, In c with_reg_ctor ->
  forall (T : Type) (A : alg T) v x, is_vec c v x -> sets_vec c (sv_regs A c v) x.
Proof.
  intros c I T A v x Hv. by_check c I with_reg_ctor chk_regs. exact (chk_regs_ok c E T A v x Hv).
Qed.

(** operator[] *)
Definition with_index : list cls :=
  floating (scalar_classes ++ sse_classes ++ avx_classes ++ avx512_classes) ++ [cls_scalar_int_1].

Theorem sv_index_lane : forall c, In c with_index ->
  forall (T : Type) (A : alg T) v x i, is_vec c v x -> (i < c_arity c)%nat ->
  returns_elem c (sv_index A c v (Z.of_nat i)) x (x i).
Proof.
  intros c I T A v x i Hv Hi. by_check c I with_index chk_index. exact (chk_index_ok c E T A v x i Hv Hi).
Qed.

(** The classes not listed have no operator[]. *)
Theorem sv_index_absent : forall c, In c all_classes ->
  (exists d, In d with_index /\ c_name d = c_name c) \/ c_meth c MIndex = None.
Proof.
  intros c I.
  by_check c I all_classes (fun c =>
    existsb (fun d => String.eqb (c_name d) (c_name c)) with_index ||
    match c_meth c MIndex with None => true | Some _ => false end).
  apply orb_true_iff in E as [E|E].
  - left. apply existsb_exists in E as [d [D E]]. apply String.eqb_eq in E. now exists d.
  - right. now destruct (c_meth c MIndex).
Qed.

(** load(data), short_vec(const T* data), short_vec(initializer_list): any
    address will do, except on QPX. *)
Definition loader (m : mid) : Prop := m = MLoad \/ m = MCtorPtr \/ m = MCtorList.

Theorem sv_load : forall m, loader m -> forall c, In c without_qpx ->
  forall (T : Type) (A : alg T) v x mis, is_vec c v x -> mis_ok c mis ->
  loads c (sv_mem A c m v mis) (a_data A).
Proof.
  intros m H c I T A v x mis Hv Hm.
  by_check c I without_qpx (fun c => chk_load c MLoad 1 && chk_load c MCtorPtr 1 && chk_load c MCtorList 1).
  rewrite !andb_true_iff in E. destruct E as [[E1 E2] E3].
  assert (H1 : aligned_to c 1 mis) by apply Z.mod_1_r.
  destruct H as [->|[->| ->]]; eapply chk_load_ok; eassumption.
Qed.

Theorem sv_store : forall c, In c without_qpx ->
  forall (T : Type) (A : alg T) v x mis, is_vec c v x -> mis_ok c mis ->
  stores c (sv_mem A c MStore v mis) x.
Proof.
  intros c I T A v x mis Hv Hm.
  by_check c I without_qpx (fun c => chk_store c MStore 1).
  assert (H1 : aligned_to c 1 mis) by apply Z.mod_1_r.
  eapply chk_store_ok; eassumption.
Qed.

(** load then store copies exactly ARITY elements, whatever the alignment of
    source and destination. *)
Theorem sv_copy : forall c, In c without_qpx ->
  forall (T : Type) (A B : alg T) v x mis mis', is_vec c v x -> mis_ok c mis -> mis_ok c mis' ->
  exists r1 r2, sv_mem A c MLoad v mis = Some r1 /\ sv_mem B c MStore (r_val r1) mis' = Some r2 /\
    r_reads r1 = map data_at (seq 0 (c_arity c)) /\ r_writes r1 = [] /\ r_reads r2 = [] /\
    r_writes r2 = map (fun i => (data_at i, a_data A (Z.of_nat i))) (seq 0 (c_arity c)).
Proof.
  intros c I T A B v x mis mis' Hv Hm Hm'.
  by_check c I without_qpx (fun c => chk_load c MLoad 1 && chk_store c MStore 1).
  apply andb_true_iff in E as [E1 E2].
  eapply (load_store_ok c _ _ _ _ E1 E2); try eassumption; apply Z.mod_1_r.
Qed.

(** QPX: vec_ld and vec_st ignore the low address bits. *)
Theorem sv_load_store_qpx : forall c, In c qpx_classes ->
  forall (T : Type) (A : alg T) v x mis, is_vec c v x -> mis_ok c mis -> aligned_to c 32 mis ->
  (forall m, loader m -> loads c (sv_mem A c m v mis) (a_data A)) /\
  stores c (sv_mem A c MStore v mis) x.
Proof.
  intros c I T A v x mis Hv Hm Ha.
  by_check c I qpx_classes (fun c => chk_load c MLoad 32 && chk_load c MCtorPtr 32 &&
    chk_load c MCtorList 32 && chk_store c MStore 32).
  rewrite !andb_true_iff in E. destruct E as [[[E1 E2] E3] E4]. split.
  - intros m [->|[->| ->]]; eapply chk_load_ok; eassumption.
  - eapply chk_store_ok; eassumption.
Qed.

Theorem sv_load_qpx_refuted : exists c v x mis, In c qpx_classes /\ is_vec c v x /\ mis_ok c mis /\
  ~ loads c (sv_mem Z_machine c MLoad v mis) (a_data Z_machine).
Proof.
  exists cls_qpx_double_4, [[0; 0; 0; 0]], (fun _ => 0), 1.
  split; [left; reflexivity|]. split; [repeat constructor|]. split; [split; [discriminate|reflexivity]|].
  intros [r [E [_ [[_ [_ V]] _]]]].
  assert (X : match sv_mem Z_machine cls_qpx_double_4 MLoad [[0; 0; 0; 0]] 1 with
              | Some r => hd 0 (concat (r_val r)) | None => -1 end = -1)
    by (vm_compute; reflexivity).
  rewrite E, V in X. apply Z.eqb_eq in X. vm_compute in X. discriminate.
Qed.

(** load_aligned, store_aligned, store_nt: what alignment each class needs.
    With it they behave like load and store. *)
Definition need (n : Z) (l : list cls) : list (cls * Z) := map (fun c => (c, n)) l.
Definition own_size (c : cls) : cls * Z := (c, esize (c_kind c)).
Definition neon_n (n : nat) : list cls := filter (fun c => Nat.eqb (c_arity c) n) neon_classes.
Definition needs : list (cls * Z) :=
  map own_size scalar_classes ++ need 16 sse_classes ++ need 32 avx_classes ++
  need 64 avx512_classes ++ need 64 mic_classes ++ need 32 qpx_classes ++
  need 16 (neon_n 4) ++ need 32 (neon_n 8) ++ need 64 (neon_n 16 ++ neon_n 32).

Theorem sv_aligned_access : forall c n, In (c, n) needs ->
  forall (T : Type) (A : alg T) v x mis, is_vec c v x -> mis_ok c mis -> aligned_to c n mis ->
  loads c (sv_mem A c MLoadAligned v mis) (a_data A) /\
  stores c (sv_mem A c MStoreAligned v mis) x.
Proof.
  intros c n I T A v x mis Hv Hm Ha.
  by_check (c, n) I needs (fun p : cls * Z =>
    chk_load (fst p) MLoadAligned (snd p) && chk_store (fst p) MStoreAligned (snd p)).
  cbn [fst snd] in E. apply andb_true_iff in E as [E1 E2]. split.
  - eapply chk_load_ok; eassumption.
  - eapply chk_store_ok; eassumption.
Qed.

(** Without it the calls are rejected (an assertion fails or the instruction
    traps). *)
Theorem sv_aligned_access_needed : forall c n, In (c, n) needs ->
  forall (T : Type) (A : alg T) v x mis, is_vec c v x -> mis_ok c mis -> ~ aligned_to c n mis ->
  sv_mem A c MLoadAligned v mis = None /\ sv_mem A c MStoreAligned v mis = None.
Proof.
  intros c n I T A v x mis Hv Hm Ha.
  by_check (c, n) I needs (fun p : cls * Z =>
    chk_fail (fst p) MLoadAligned (snd p) && chk_fail (fst p) MStoreAligned (snd p)).
  cbn [fst snd] in E. apply andb_true_iff in E as [E1 E2]. split; eapply chk_fail_ok; eassumption.
Qed.

(** store_nt *)
Definition nt_ok : list (cls * Z) :=
  filter (fun p => negb (String.eqb (c_name (fst p)) "neon_float_4_lp64")) needs.

Theorem sv_store_nt : forall c n, In (c, n) nt_ok ->
  forall (T : Type) (A : alg T) v x mis, is_vec c v x -> mis_ok c mis -> aligned_to c n mis ->
  stores c (sv_mem A c MStoreNt v mis) x.
Proof.
  intros c n I T A v x mis Hv Hm Ha.
  by_check (c, n) I nt_ok (fun p : cls * Z => chk_store (fst p) MStoreNt (snd p)).
  cbn [fst snd] in E. eapply chk_store_ok; eassumption.
Qed.

(** The non-temporal store of short_vec<float, 4> on AArch64 writes none of
    the elements (short_vec_neon_float_4.hpp, store_nt: the asm statement has
    the pointer variable as its output operand). *)
Theorem sv_store_nt_lp64_refuted : exists v x mis,
  In cls_neon_float_4_lp64 neon_classes /\
  is_vec cls_neon_float_4_lp64 v x /\ mis_ok cls_neon_float_4_lp64 mis /\
  aligned_to cls_neon_float_4_lp64 64 mis /\
  ~ stores cls_neon_float_4_lp64 (sv_mem Z_machine cls_neon_float_4_lp64 MStoreNt v mis) x.
Proof.
  exists [[1; 2; 3; 4]], (fun i => Z.of_nat i + 1), 0.
  split; [right; right; left; reflexivity|]. split; [repeat constructor|].
  split; [split; [discriminate|reflexivity]|]. split; [reflexivity|].
  intros [r [E [_ [_ [_ W]]]]].
  assert (X : match sv_mem Z_machine cls_neon_float_4_lp64 MStoreNt [[1; 2; 3; 4]] 0 with
              | Some r => Z.of_nat (length (filter (fun w : address Z * Z =>
                            match fst w with AData 0 => true | _ => false end) (r_writes r)))
              | None => 0 end = 0)
    by (vm_compute; reflexivity).
  rewrite E, W in X. apply Z.eqb_eq in X. vm_compute in X. discriminate.
Qed.

(** The alignment short_vec_strategy promises (c_align) is enough except on
    MIC and for the NEON classes of 8 lanes and more. *)
Theorem sv_strategy_alignment : forall c n, In (c, n) needs ->
  (forall d, In d (mic_classes ++ neon_n 8 ++ neon_n 16 ++ neon_n 32) -> c_name d <> c_name c) ->
  forall mis, aligned_to c (c_align c) mis -> aligned_to c n mis.
Proof.
  intros c n I N mis Ha.
  by_check (c, n) I needs (fun p : cls * Z =>
    existsb (fun d => String.eqb (c_name d) (c_name (fst p)))
      (mic_classes ++ neon_n 8 ++ neon_n 16 ++ neon_n 32) ||
    ((0 <? snd p) && (0 <? c_align (fst p)) && (c_align (fst p) mod snd p =? 0))).
  cbn [fst snd] in E. apply orb_true_iff in E as [E|E].
  - apply existsb_exists in E as [d [D E]]. apply String.eqb_eq in E. now destruct (N d D).
  - rewrite !andb_true_iff in E. destruct E as [[E1 E2] E3].
    apply Z.ltb_lt in E1, E2. apply Z.eqb_eq in E3. unfold aligned_to in *.
    apply Z.mod_divide in Ha; [|lia]. apply Z.mod_divide in E3; [|lia].
    apply Z.mod_divide; [lia|]. now apply Z.divide_trans with (c_align c).
Qed.

Theorem sv_strategy_alignment_refuted : exists c n mis, In (c, n) needs /\ mis_ok c mis /\
  aligned_to c (c_align c) mis /\
  forall (T : Type) (A : alg T) v x, is_vec c v x -> sv_mem A c MLoadAligned v mis = None.
Proof.
  assert (I : In (cls_neon_float_8, 32) needs).
  { change (cls_neon_float_8, 32) with (nth 80 needs (cls_neon_float_8, 32)).
    apply nth_In. apply Nat.ltb_lt. vm_compute. reflexivity. }
  exists cls_neon_float_8, 32, 4. split; [exact I|].
  split; [split; [discriminate|reflexivity]|]. split; [reflexivity|].
  intros T A v x Hv. refine (proj1 (sv_aligned_access_needed _ _ I T A v x 4 Hv _ _)).
  - split; [discriminate|reflexivity].
  - discriminate.
Qed.

(** gather and scatter *)

(** Classes whose code broadcasts offsets with an aligned load. *)
Definition mic_like : list cls :=
  of_kind KF32 avx512_classes ++ [cls_mic_double_16; cls_mic_double_32; cls_mic_float_16; cls_mic_float_32].
(** Classes inserting lanes with inline assembler, which takes the offset in a
    64 bit register. *)
Definition wide_offset (c : cls) : bool :=
  existsb (String.eqb (c_name c))
    ["sse_float_4_41"; "sse_float_8_41"; "sse_float_16_41"; "sse_float_32_41";
     "avx_float_8"; "avx_float_16"; "avx_float_32"]%string.
Definition plain_gather : list cls :=
  filter (fun c => negb (existsb (fun d => String.eqb (c_name d) (c_name c))
                                 (cls_mic_double_8 :: mic_like))) all_classes.

Theorem sv_gather : forall c, In c plain_gather ->
  forall (T : Type) (A : alg T) v x omis, is_vec c v x -> omis_ok omis ->
  (wide_offset c = true -> forall i, (i < c_arity c)%nat ->
     a_un A UQext (a_off A (Z.of_nat i)) = a_off A (Z.of_nat i)) ->
  gathers c (sv_idx A c MGather v omis) (a_off A) (a_ptr A).
Proof.
  intros c I T A v x omis Hv Hm Hq.
  by_check c I plain_gather (fun c => chk_gather c (wide_offset c) 1).
  eapply chk_gather_ok; try eassumption. apply Z.mod_1_r.
Qed.

Theorem sv_gather_aligned_offsets : forall c, In c mic_like ->
  forall (T : Type) (A : alg T) v x omis, is_vec c v x -> omis_ok omis -> (omis * 4) mod 64 = 0 ->
  gathers c (sv_idx A c MGather v omis) (a_off A) (a_ptr A).
Proof.
  intros c I T A v x omis Hv Hm Ha.
  by_check c I mic_like (fun c => chk_gather c false 64).
  eapply chk_gather_ok; try eassumption. discriminate.
Qed.

Theorem sv_scatter : forall c, In c plain_gather ->
  forall (T : Type) (A : alg T) v x omis, is_vec c v x -> omis_ok omis ->
  scatters c (sv_idx A c MScatter v omis) (a_off A) x.
Proof.
  intros c I T A v x omis Hv Hm.
  by_check c I plain_gather (fun c => chk_scatter c 1).
  eapply chk_scatter_ok; try eassumption. apply Z.mod_1_r.
Qed.

Theorem sv_scatter_aligned_offsets : forall c, In c mic_like ->
  forall (T : Type) (A : alg T) v x omis, is_vec c v x -> omis_ok omis -> (omis * 4) mod 64 = 0 ->
  scatters c (sv_idx A c MScatter v omis) (a_off A) x.
Proof.
  intros c I T A v x omis Hv Hm Ha.
  by_check c I mic_like (fun c => chk_scatter c 64).
  eapply chk_scatter_ok; eassumption.
Qed.

Example gather_classes : length plain_gather = 79%nat /\ length mic_like = 6%nat.
Proof. vm_compute. split; reflexivity. Qed.

(** With the offsets at any other address these classes trap. *)
Theorem sv_gather_aligned_offsets_needed : forall c, In c mic_like ->
  forall (T : Type) (A : alg T) v x omis, is_vec c v x -> omis_ok omis -> (omis * 4) mod 64 <> 0 ->
  sv_idx A c MGather v omis = None /\ sv_idx A c MScatter v omis = None.
Proof.
  intros c I T A v x omis Hv Hm Ha.
  by_check c I mic_like (fun c => arity_ok c && forallb (fun mis => ((mis * 4) mod 64 =? 0) ||
     match sv_idx talg c MGather (lanes_of c TVal) mis, sv_idx talg c MScatter (lanes_of c TVal) mis with
     | None, None => true | _, _ => false end) omiss).
  apply andb_true_iff in E as [E1 E2]. apply arity_ok_eq in E1. rewrite forallb_forall in E2.
  specialize (E2 omis (in_omiss _ Hm)). apply orb_true_iff in E2 as [E2|E2].
  { apply Z.eqb_eq in E2. contradiction. }
  apply is_vec_regs in Hv; [|assumption]. subst v.
  assert (L1 := lift_idx A c (vals A x x x (a_undef A)) MGather omis).
  assert (L2 := lift_idx A c (vals A x x x (a_undef A)) MScatter omis).
  cbn [g_val vals] in L1, L2. unfold lanes_of in E2.
  destruct (sv_idx talg c MGather _ omis); [discriminate|].
  destruct (sv_idx talg c MScatter _ omis); [discriminate|]. now split.
Qed.

(** An offset vector as compilers allocate it (aligned to 4 bytes) is not
    enough for the AVX512 class short_vec<float, 16>. *)
Theorem sv_gather_refuted : exists c omis, In c all_classes /\ omis_ok omis /\
  forall (T : Type) (A : alg T) v x, is_vec c v x -> sv_idx A c MGather v omis = None.
Proof.
  exists cls_avx512_float_16, 1.
  split. { change cls_avx512_float_16 with (nth 64 all_classes cls_avx512_float_16).
    apply nth_In. apply Nat.ltb_lt. vm_compute. reflexivity. }
  split; [split; [discriminate|reflexivity]|].
  intros T A v x Hv. refine (proj1 (sv_gather_aligned_offsets_needed _ _ T A v x 1 Hv _ _)).
  - left. reflexivity.
  - split; [discriminate|reflexivity].
  - discriminate.
Qed.

(** The assembler of SHORTVEC_INSERT_PS uses a 64 bit register for the 32 bit
    offset: if the upper half is not zero another element is read. *)
Theorem sv_gather_wide_offset_refuted : exists c v x omis, In c plain_gather /\ is_vec c v x /\
  omis_ok omis /\ ~ gathers c (sv_idx Z_machine c MGather v omis) (a_off Z_machine) (a_ptr Z_machine).
Proof.
  exists cls_sse_float_4_41, [[0; 0; 0; 0]], (fun _ => 0), 0.
  split. { change cls_sse_float_4_41 with (nth 29 plain_gather cls_sse_float_4_41).
    apply nth_In. apply Nat.ltb_lt. vm_compute. reflexivity. }
  split; [repeat constructor|]. split; [split; [discriminate|reflexivity]|].
  intros [r [E [_ [_ [[_ [_ V]] _]]]]].
  assert (X : match sv_idx Z_machine cls_sse_float_4_41 MGather [[0; 0; 0; 0]] 0 with
              | Some r => nth 1 (concat (r_val r)) 0 | None => -1 end = 101 + 2 ^ 32)
    by (vm_compute; reflexivity).
  rewrite E, V in X. apply Z.eqb_eq in X. vm_compute in X. discriminate.
Qed.

(** short_vec<double, 8> on MIC reads the 16 ints up to the end of the cache
    lines, eight more than it may. *)
Theorem sv_gather_mic_double_8_refuted : exists v x, is_vec cls_mic_double_8 v x /\
  ~ gathers cls_mic_double_8 (sv_idx Z_machine cls_mic_double_8 MGather v 0)
      (a_off Z_machine) (a_ptr Z_machine).
Proof.
  exists (regs 1 8 (fun _ => 0)), (fun _ => 0). split; [repeat constructor|].
  intros [r [E [_ [_ [_ R]]]]].
  assert (X : match sv_idx Z_machine cls_mic_double_8 MGather (regs 1 8 (fun _ => 0)) 0 with
              | Some r => existsb (fun a : address Z => match a with AOff 15 => true | _ => false end)
                                  (r_reads r)
              | None => false end = true) by (vm_compute; reflexivity).
  rewrite E in X. apply existsb_exists in X as [a [I X]].
  destruct (R a I) as [i [L [->| ->]]]; [|discriminate].
  unfold off_at in X. destruct (Z.of_nat i) as [|q|q] eqn:Q; try discriminate.
  assert (q = 15%positive) by (repeat (destruct q as [q|q|]; try discriminate); reflexivity).
  subst q. cbn in L. lia.
Qed.

(** Memory after a scatter: an address hit by some lane holds the value of
    the highest such lane, every other address is unchanged. *)
Theorem sv_scatter_memory : forall c, In c plain_gather ->
  forall (T : Type) (A : alg T) v x omis, is_vec c v x -> omis_ok omis ->
  forall eqb : address T -> address T -> bool, (forall a b, eqb a b = true <-> a = b) ->
  exists r, sv_idx A c MScatter v omis = Some r /\
  (forall i old, (i < c_arity c)%nat ->
     (forall j, (i < j < c_arity c)%nat -> a_off A (Z.of_nat j) <> a_off A (Z.of_nat i)) ->
     mem_after eqb (r_writes r) (APtrAt (a_off A (Z.of_nat i))) old = x i) /\
  (forall a old, (forall i, (i < c_arity c)%nat -> a <> APtrAt (a_off A (Z.of_nat i))) ->
     mem_after eqb (r_writes r) a old = old).
Proof.
  intros c I T A v x omis Hv Hm eqb Heq.
  destruct (sv_scatter c I T A v x omis Hv Hm) as [r [E [_ [_ [W _]]]]].
  exists r. split; [exact E|]. rewrite W. split.
  - intros i old L D. apply (mem_after_last _ _ (fun j => APtrAt (a_off A (Z.of_nat j)))).
    + lia.
    + now apply Heq.
    + intros j J. apply not_true_is_false. intros X. apply Heq in X. injection X as X.
      apply (D j); [lia|exact X].
  - intros a old D. apply mem_after_other. intros b J. rewrite map_map in J.
    apply in_map_iff in J as [i [<- J]]. apply in_seq in J. cbn [fst].
    apply not_true_is_false. intros X. apply Heq in X. apply (D i); [lia|now symmetry].
Qed.

Example scatter_case :
  match sv_idx Z_machine cls_sse_double_2 MScatter [[5; 6]] 3 with
  | Some r => map snd (r_writes r) | None => [] end = [5; 6].
Proof. vm_compute. reflexivity. Qed.

(** ** C51: comparisons, masks, blend, any, get, count_mask *)

Inductive comparison_op : mid -> rel -> Prop :=
| op_lt : comparison_op MLt RLt
| op_le : comparison_op MLe RLe
| op_eq : comparison_op MEq REq
| op_gt : comparison_op MGt RGt
| op_ge : comparison_op MGe RGe.

Definition with_compare : list cls :=
  floating (scalar_classes ++ sse_classes ++ avx_classes ++ avx512_classes) ++ [cls_scalar_int_1].

Ltac cases5 H := destruct H as [[[[H1 H2] H3] H4] H5].

(** a < b and so on: lane i of the mask tells whether the comparison holds of
    lane i. *)
Theorem sv_compare : forall m r, comparison_op m r -> forall c, In c with_compare ->
  forall (T : Type) (A : alg T) v w x y, is_vec c v x -> is_vec c w y ->
  returns_mask A c (sv_bin A c m v w) x (fun i => a_bin A (BRel r (c_kind c)) (x i) (y i)).
Proof.
  intros m r H c I T A v w x y Hv Hw.
  by_check c I with_compare (fun c =>
    chk_cmp c MLt (fun i => TBin (BRel RLt (c_kind c)) (TVal i) (TOth i)) &&
    chk_cmp c MLe (fun i => TBin (BRel RLe (c_kind c)) (TVal i) (TOth i)) &&
    chk_cmp c MEq (fun i => TBin (BRel REq (c_kind c)) (TVal i) (TOth i)) &&
    chk_cmp c MGt (fun i => TBin (BRel RGt (c_kind c)) (TVal i) (TOth i)) &&
    chk_cmp c MGe (fun i => TBin (BRel RGe (c_kind c)) (TVal i) (TOth i))).
  rewrite !andb_true_iff in E. cases5 E.
  destruct H;
    [exact (chk_cmp_ok c _ _ H1 T A v w x y Hv Hw)|exact (chk_cmp_ok c _ _ H2 T A v w x y Hv Hw)
    |exact (chk_cmp_ok c _ _ H3 T A v w x y Hv Hw)|exact (chk_cmp_ok c _ _ H4 T A v w x y Hv Hw)
    |exact (chk_cmp_ok c _ _ H5 T A v w x y Hv Hw)].
Qed.

(** The NEON class of four floats: right for <, >, >=; == compares with < and
    <= compares absolute values. *)
Definition neon_rel {T : Type} (A : alg T) (m : mid) (a b : T) : T :=
  match m with
  | MLt => a_bin A (BRel RLt KF32) a b
  | MLe => a_bin A (BRelAbs RLe) a b
  | MEq => a_bin A (BRel RLt KF32) a b
  | MGt => a_bin A (BRel RGt KF32) a b
  | _ => a_bin A (BRel RGe KF32) a b
  end.

Theorem sv_compare_neon : forall m r, comparison_op m r -> forall c, In c (neon_n 4) ->
  forall (T : Type) (A : alg T) v w x y, is_vec c v x -> is_vec c w y ->
  returns_mask A c (sv_bin A c m v w) x (fun i => neon_rel A m (x i) (y i)).
Proof.
  intros m r H c I T A v w x y Hv Hw.
  by_check c I (neon_n 4) (fun c =>
    chk_cmp c MLt (fun i => neon_rel talg MLt (TVal i) (TOth i)) &&
    chk_cmp c MLe (fun i => neon_rel talg MLe (TVal i) (TOth i)) &&
    chk_cmp c MEq (fun i => neon_rel talg MEq (TVal i) (TOth i)) &&
    chk_cmp c MGt (fun i => neon_rel talg MGt (TVal i) (TOth i)) &&
    chk_cmp c MGe (fun i => neon_rel talg MGe (TVal i) (TOth i))).
  rewrite !andb_true_iff in E. cases5 E.
  destruct H;
    [exact (chk_cmp_ok c _ _ H1 T A v w x y Hv Hw)|exact (chk_cmp_ok c _ _ H2 T A v w x y Hv Hw)
    |exact (chk_cmp_ok c _ _ H3 T A v w x y Hv Hw)|exact (chk_cmp_ok c _ _ H4 T A v w x y Hv Hw)
    |exact (chk_cmp_ok c _ _ H5 T A v w x y Hv Hw)].
Qed.

(** 1.0 == 1.0 is false and 1.0 == 2.0 is true there; -1.0 <= 0.5 is false. *)
Theorem sv_compare_neon_refuted :
  let lanes m a b := match sv_bin Z_machine cls_neon_float_4 m [[a; a; a; a]] [[b; b; b; b]] with
                     | Some r => match r_ret r with RVal (VReg l) => map ztruth l | _ => [] end
                     | None => [] end in
  let one := 0x3f800000 in let two := 0x40000000 in
  let minus_one := 0xbf800000 in let half := 0x3f000000 in
  lanes MEq one one = [false; false; false; false] /\
  lanes MEq one two = [true; true; true; true] /\
  lanes MLe minus_one half = [false; false; false; false].
Proof. vm_compute. repeat split. Qed.

(** blend replaces exactly the lanes selected by the mask. *)
Definition with_blend : list cls :=
  floating (scalar_classes ++ sse_classes ++ avx_classes ++ avx512_classes).

Theorem sv_blend_selects : forall c, In c with_blend ->
  forall (T : Type) (A : alg T) truth full word, bit_laws A truth full word ->
  forall v w m x y p, is_vec c v x -> is_vec c w y -> is_mask A c m p ->
  (forall i, (i < c_arity c)%nat -> word (c_kind c) (x i) /\ word (c_kind c) (y i)) ->
  sets_vec c (sv_blend A c v m w) (fun i => if truth (p i) then y i else x i).
Proof.
  intros c I T A truth full word B v w m x y p Hv Hw Hm W.
  by_check c I with_blend chk_blend. eapply chk_blend_ok; eassumption.
Qed.

(** The free function blend(a, b, mask) of short_vec.hpp. *)
Theorem sv_blend_function : forall c, In c with_blend ->
  forall (T : Type) (A : alg T) truth full word, bit_laws A truth full word ->
  forall v w m x y p, is_vec c v x -> is_vec c w y -> is_mask A c m p ->
  (forall i, (i < c_arity c)%nat -> word (c_kind c) (x i) /\ word (c_kind c) (y i)) ->
  exists u, sv_blend3 A c v w m = Some u /\ is_vec c u (fun i => if truth (p i) then y i else x i).
Proof.
  intros c I T A truth full word B v w m x y p Hv Hw Hm W.
  destruct (sv_blend_selects c I T A truth full word B v w m x y p Hv Hw Hm W) as [r [E [_ [V _]]]].
  exists (r_val r). unfold sv_blend3. now rewrite E.
Qed.

(** any(mask): some lane is set. *)
Theorem sv_any_mask : forall c, In c with_compare ->
  forall (T : Type) (A : alg T) truth full word, bit_laws A truth full word ->
  forall m p, is_mask A c m p ->
  exists a, sv_any A c m = Some a /\
    holds A truth (c_kind c) a = Some (existsb (fun i => truth (p i)) (seq 0 (c_arity c))).
Proof.
  intros c I T A truth full word B m p Hm.
  by_check c I with_compare (fun c => match c_mask c with MVec => chk_any c | MInt _ => true | _ => false end).
  destruct (c_mask c) as [n| | |] eqn:M; try discriminate.
  - eapply any_int; eassumption.
  - eapply any_ok; eassumption.
Qed.

(** get(mask, i): lane i is set. *)
Theorem sv_get_mask : forall c, In c with_compare ->
  forall (T : Type) (A : alg T) truth full word, bit_laws A truth full word ->
  forall m p i, is_mask A c m p -> (i < c_arity c)%nat ->
  exists a, sv_get A c m (Z.of_nat i) = Some a /\ holds A truth (c_kind c) a = Some (truth (p i)).
Proof.
  intros c I T A truth full word B m p i Hm Hi.
  by_check c I with_compare (fun c => match c_mask c with MVec => chk_index c | MInt _ => true | _ => false end).
  destruct (c_mask c) as [n| | |] eqn:M; try discriminate.
  - eapply get_int; eassumption.
  - eapply get_vec; eassumption.
Qed.

(** count_mask: the number of lanes set. *)
Theorem sv_count_mask : forall c, In c with_blend ->
  forall (T : Type) (A : alg T) truth full word, bit_laws A truth full word ->
  forall size zero one, size zero = 0 -> size one = 1 -> word (c_kind c) zero -> word (c_kind c) one ->
  forall m p, is_mask A c m p ->
  count_mask A c (holds A truth (c_kind c)) size zero one m = Some (lanes_set truth p (c_arity c)).
Proof.
  intros c I T A truth full word B size zero one Hz Ho Wz Wo m p Hm.
  by_check c I with_blend (fun c => chk_index c && chk_scalar c && chk_blend c &&
    match c_mask c with MVec => chk_any c | _ => true end).
  rewrite !andb_true_iff in E. destruct E as [[[E1 E2] E3] E4].
  eapply (count_ok c); try eassumption. intros M. now rewrite M in E4.
Qed.

(** All together: compare, then count. *)
Theorem sv_compare_count : forall m r, comparison_op m r -> forall c, In c with_blend ->
  forall (T : Type) (A : alg T) truth full word, bit_laws A truth full word ->
  forall size zero one, size zero = 0 -> size one = 1 -> word (c_kind c) zero -> word (c_kind c) one ->
  forall v w x y, is_vec c v x -> is_vec c w y ->
  exists res, sv_bin A c m v w = Some res /\
    count_mask A c (holds A truth (c_kind c)) size zero one (r_ret res)
    = Some (lanes_set truth (fun i => a_bin A (BRel r (c_kind c)) (x i) (y i)) (c_arity c)).
Proof.
  intros m r H c I T A truth full word B size zero one Hz Ho Wz Wo v w x y Hv Hw.
  assert (I' : In c with_compare) by (apply in_or_app; left; exact I).
  destruct (sv_compare m r H c I' T A v w x y Hv Hw) as [res [E [M _]]].
  exists res. split; [exact E|]. eapply sv_count_mask; eassumption.
Qed.

(** Comparing (1.0, 2.0, 3.0, 4.0) < (2.0, 2.0, 4.0, 1.0) on SSE2. *)
Example compare_case :
  match sv_bin Z_machine cls_sse_float_4 MLt
          [[0x3f800000; 0x40000000; 0x40400000; 0x40800000]]
          [[0x40000000; 0x40000000; 0x40800000; 0x3f800000]] with
  | Some r =>
      (match r_ret r with RVec u => u | _ => [] end,
       count_mask Z_machine cls_sse_float_4 (holds Z_machine ztruth KF32)
         (fun t => if t =? 0 then 0 else 1) 0 0x3f800000 (r_ret r))
  | None => ([], None)
  end = ([[0xffffffff; 0; 0xffffffff; 0]], Some 2).
Proof. vm_compute. reflexivity. Qed.

(** ** C52: a /= b against a / b *)

(** The lanes a / b returns and those a /= b leaves. *)
Definition same_division {T : Type} (A : alg T) (c : cls) (v w : list (list T)) : Prop :=
  exists r1 r2 u, sv_bin A c MDiv v w = Some r1 /\ r_ret r1 = RVec u /\
    sv_bin A c MDivEq v w = Some r2 /\ r_val r2 = u.

Definition rounding_assign : list cls :=
  filter (fun c => negb (existsb (String.eqb (c_name c)) ["sse_int_8"; "sse_int_8_41"]%string)) simd_int.
Definition consistent_division : list cls :=
  filter (fun c => negb (existsb (fun d => String.eqb (c_name d) (c_name c)) rounding_assign)) all_classes.

Theorem sv_div_assign_same : forall c, In c consistent_division ->
  forall (T : Type) (A : alg T) v w x y, is_vec c v x -> is_vec c w y -> same_division A c v w.
Proof.
  intros c I T A v w x y Hv Hw.
  by_check c I consistent_division (fun c => arity_ok c &&
    match sv_bin talg c MDiv (lanes_of c TVal) (lanes_of c TOth),
          sv_bin talg c MDivEq (lanes_of c TVal) (lanes_of c TOth) with
    | Some r1, Some r2 => match r_ret r1 with RVec u => vec_eqb (r_val r2) u | _ => false end
    | _, _ => false end).
  apply andb_true_iff in E as [E1 E2]. apply arity_ok_eq in E1.
  apply is_vec_regs in Hv; [|assumption]. apply is_vec_regs in Hw; [|assumption]. subst.
  assert (L1 := lift_bin A c (vals A x y x (a_undef A)) MDiv).
  assert (L2 := lift_bin A c (vals A x y x (a_undef A)) MDivEq).
  cbn [g_val g_oth vals] in L1, L2. unfold lanes_of in E2.
  destruct (sv_bin talg c MDiv _ _) as [r1|]; [|discriminate].
  destruct (sv_bin talg c MDivEq _ _) as [r2|]; [|discriminate].
  destruct (r_ret r1) as [| |u] eqn:R; try discriminate. apply vec_eqb_eq in E2.
  cbn [option_map] in L1, L2. eexists; eexists; eexists.
  split; [exact L1|]. split; [cbn [map_result r_ret]; rewrite R; reflexivity|].
  split; [exact L2|]. cbn [map_result r_val]. now rewrite E2.
Qed.

(** In the other classes a / b truncates and a /= b rounds. *)
Theorem sv_div_assign_rounds : forall c, In c rounding_assign ->
  forall (T : Type) (A : alg T) v w x y, is_vec c v x -> is_vec c w y ->
  sets_vec c (sv_bin A c MDivEq v w) (fun i => via_float A UCvtFI (x i) (y i)).
Proof.
  intros c I T A v w x y Hv Hw.
  by_check c I rounding_assign (fun c => chk_set c MDivEq (fun i =>
    TUn UCvtFI (TBin (BDiv KF32) (TUn UCvtIF (TVal i)) (TUn UCvtIF (TOth i))))).
  exact (chk_set_ok c _ _ E T A v w x y Hv Hw).
Qed.

(** 7 / 4 = 1, but 7 /= 4 leaves 2. *)
Theorem sv_div_assign_refuted : forall c, In c rounding_assign ->
  exists v w, is_vec c v (fun _ => 7) /\ is_vec c w (fun _ => 4) /\
  ~ same_division Z_machine c v w.
Proof.
  intros c I.
  assert (I' : In c simd_int) by (apply filter_In in I; tauto).
  by_check c I' simd_int (fun c => arity_ok c && (1 <=? Z.of_nat (c_arity c))).
  apply andb_true_iff in E as [E L]. apply arity_ok_eq in E. apply Z.leb_le in L.
  exists (regs (c_nreg c) (c_lanes c) (fun _ => 7)), (regs (c_nreg c) (c_lanes c) (fun _ => 4)).
  assert (Hv : is_vec c (regs (c_nreg c) (c_lanes c) (fun _ => 7)) (fun _ => 7)) by now apply regs_is_vec.
  assert (Hw : is_vec c (regs (c_nreg c) (c_lanes c) (fun _ => 4)) (fun _ => 4)) by now apply regs_is_vec.
  split; [exact Hv|]. split; [exact Hw|]. intros [r1 [r2 [u [E1 [R1 [E2 V2]]]]]].
  destruct (sv_div_int_simd c I' Z Z_machine _ _ _ _ Hv Hw) as [r1' [u' [E1' [R1' [[_ [_ V1']] _]]]]].
  destruct (sv_div_assign_rounds c I Z Z_machine _ _ _ _ Hv Hw) as [r2' [E2' [_ [[_ [_ V2']] _]]]].
  rewrite E1 in E1'. injection E1' as <-. rewrite E2 in E2'. injection E2' as <-.
  rewrite R1 in R1'. injection R1' as <-. rewrite V2 in V2'. rewrite V1' in V2'.
  destruct (c_arity c) as [|n]; [lia|]. cbn [seq map] in V2'.
  apply (f_equal (hd 0)) in V2'. cbn [hd] in V2'. apply Z.eqb_eq in V2'. vm_compute in V2'. discriminate.
Qed.

Example division_classes :
  map c_name rounding_assign =
    ["sse_int_4"; "sse_int_4_41"; "sse_int_16"; "sse_int_16_41"; "sse_int_32"; "sse_int_32_41";
     "avx_int_8_2"; "avx_int_16_2"; "avx_int_32_2"; "avx512_int_16"; "avx512_int_32"]%string /\
  length consistent_division = 75%nat.
Proof. vm_compute. split; reflexivity. Qed.

(** ** Stream output *)

Definition well_printed : list cls :=
  filter (fun c => negb (String.eqb (c_name c) "qpx_double_32")) all_classes.

Theorem sv_prints : forall c, In c well_printed ->
  forall (T : Type) (A : alg T) v x, is_vec c v x -> prints c (sv_print A c v) x.
Proof.
  intros c I T A v x Hv. by_check c I well_printed chk_print. exact (chk_print_ok c E T A v x Hv).
Qed.

(** short_vec<double, 32> on QPX prints a second "[" between lanes 15 and 16. *)
Theorem sv_prints_refuted : exists v x, is_vec cls_qpx_double_32 v x /\
  ~ prints cls_qpx_double_32 (sv_print Z_machine cls_qpx_double_32 v) x.
Proof.
  exists (regs 8 4 (fun _ => 0)), (fun _ => 0). split; [repeat constructor|].
  intros P.
  assert (X : match sv_print Z_machine cls_qpx_double_32 (regs 8 4 (fun _ => 0)) with
              | Some l => match nth 32 l (inr 0) with inl s => String.eqb s "[" | inr _ => false end
              | None => false end = true) by (vm_compute; reflexivity).
  rewrite P in X. vm_compute in X. discriminate.
Qed.

Print Assumptions sv_broadcast.
Print Assumptions sv_from_registers.
Print Assumptions sv_index_lane.
Print Assumptions sv_index_absent.
Print Assumptions sv_load.
Print Assumptions sv_store.
Print Assumptions sv_copy.
Print Assumptions sv_load_store_qpx.
Print Assumptions sv_load_qpx_refuted.
Print Assumptions sv_aligned_access.
Print Assumptions sv_aligned_access_needed.
Print Assumptions sv_store_nt.
Print Assumptions sv_store_nt_lp64_refuted.
Print Assumptions sv_strategy_alignment.
Print Assumptions sv_strategy_alignment_refuted.
Print Assumptions sv_gather.
Print Assumptions sv_gather_aligned_offsets.
Print Assumptions sv_gather_aligned_offsets_needed.
Print Assumptions sv_gather_refuted.
Print Assumptions sv_gather_wide_offset_refuted.
Print Assumptions sv_gather_mic_double_8_refuted.
Print Assumptions sv_scatter.
Print Assumptions sv_scatter_aligned_offsets.
Print Assumptions sv_scatter_memory.
Print Assumptions sv_compare.
Print Assumptions sv_compare_neon.
Print Assumptions sv_compare_neon_refuted.
Print Assumptions sv_blend_selects.
Print Assumptions sv_blend_function.
Print Assumptions sv_any_mask.
Print Assumptions sv_get_mask.
Print Assumptions sv_count_mask.
Print Assumptions sv_compare_count.
Print Assumptions sv_div_assign_same.
Print Assumptions sv_div_assign_rounds.
Print Assumptions sv_div_assign_refuted.
Print Assumptions sv_prints.
Print Assumptions sv_prints_refuted.
