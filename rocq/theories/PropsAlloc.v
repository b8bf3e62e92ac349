(** Statements C41-C43: aligned_allocator. *)
From Coq Require Import ZArith List Bool Lia.
From Verif Require Import Base Alloc AllocProofs.
Import ListNotations.
Open Scope Z_scope.

(** ** C41 *)
Theorem C41_aligned_and_inside : forall c h n chunk,
  0 < ac_size c -> PTR <= ac_align c -> 0 <= n -> n * ac_size c + ac_align c + PTR < w64 ->
  may_return h (upsize c n) chunk ->
  exists h' p, a_allocate c h n chunk = AVal (h', p) /\
    (ac_align c | p) /\
    (* the bookkeeping word and the user's bytes lie in the chunk, in this order *)
    chunk <= p - PTR /\ p + n * ac_size c <= chunk + upsize c n /\
    load_ptr (h_bytes h') (p - PTR) = chunk.
Proof.
  intros c h n chunk Hs Ha Hn Ho [M1 [M2 M3]].
  destruct (block_inside c (mkUB (ret_addr c chunk) n chunk)) as [B1 B2]; auto. cbn [b_at b_n b_chunk] in B1, B2.
  assert (0 <= n * ac_size c) by (apply Z.mul_nonneg_nonneg; lia).
  unfold a_allocate. cbn [h_chunks h_bytes].
  assert (Hic : in_chunk (mkHeap (h_bytes h) ((chunk, upsize c n) :: h_chunks h)) (ret_addr c chunk - PTR) PTR = true).
  { apply in_chunk_spec. exists chunk, (upsize c n). cbn [h_chunks In]. split; auto. lia. }
  rewrite Hic. do 2 eexists. split; [reflexivity|]. split; [apply ret_aligned; unfold PTR in *; lia|].
  split; auto. split; auto. cbn [h_bytes]. apply load_store. rewrite upsize_exact in M2 by (unfold PTR in *; lia). unfold PTR in *. lia.
Qed.

(** In any history: live blocks are aligned and the byte ranges the user may use (and
    the bookkeeping words) of different blocks do not overlap. *)
Theorem C41_live_blocks : forall c h us,
  0 < ac_size c -> PTR <= ac_align c -> a_run c h us ->
  (forall u, In u us -> (ac_align c | b_at u) /\ b_at u <> 0) /\
  (forall i j u v, nth_error us i = Some u -> nth_error us j = Some v -> i <> j ->
     apart (b_at u - PTR) (PTR + b_n u * ac_size c) (b_at v - PTR) (PTR + b_n v * ac_size c)).
Proof.
  intros c h us Hs Ha H. pose proof (ainv_run c h us Hs Ha H) as I. split.
  - intros u Hu. destruct (av_block _ _ _ I u Hu) as [U1 [U2 [U3 [U4 [U5 U6]]]]]. destruct (block_inside c u) as [B1 B2]; auto.
    split; [rewrite U5; apply ret_aligned; unfold PTR in *; lia|]. unfold PTR in *. lia.
  - assert (G : forall i j u v, (i < j)%nat -> nth_error us i = Some u -> nth_error us j = Some v ->
       apart (b_at u - PTR) (PTR + b_n u * ac_size c) (b_at v - PTR) (PTR + b_n v * ac_size c)).
    { intros i j u v Hij Hu Hv. pose proof (nth_error_In _ _ Hu) as Iu. pose proof (nth_error_In _ _ Hv) as Iv.
      destruct (av_block _ _ _ I u Iu) as [U1 [U2 [U3 [U4 [U5 U6]]]]]. destruct (block_inside c u) as [B1 B2]; auto.
      destruct (av_block _ _ _ I v Iv) as [V1 [V2 [V3 [V4 [V5 V6]]]]]. destruct (block_inside c v) as [C1 C2]; auto.
      assert (Hap : apart (b_chunk u) (upsize c (b_n u)) (b_chunk v) (upsize c (b_n v))).
      { pose proof (av_apart _ _ _ I) as F. clear -F Hij Hu Hv. revert i j Hij Hu Hv.
        induction F as [|w l Hf F IH]; intros i j Hij Hu Hv; [destruct i; discriminate|].
        destruct j as [|j]; [lia|]. destruct i as [|i]; simpl in *.
        - inversion Hu; subst. rewrite Forall_forall in Hf. apply Hf. eapply nth_error_In; eauto.
        - eapply (IH i j); eauto. lia. }
      unfold apart in *. lia. }
    intros i j u v Hu Hv Hij. destruct (Nat.lt_ge_cases i j); [eapply G; eauto|].
    apply apart_sym. apply (G j i); auto. lia.
Qed.

(** ** C42 *)
(** Whatever the user legally does next, in any history: no access leaves the chunks,
    and a deallocation hands back exactly the chunk (address and size) obtained for that
    block ([us_free] gives the expected answer). *)
Theorem C42_releases_what_it_obtained : forall c h us op us' e,
  0 < ac_size c -> PTR <= ac_align c -> a_run c h us -> u_step c h us op us' e ->
  exists h', a_step c h op = AVal (h', e).
Proof.
  intros c h us op us' e Hs Ha H Hu.
  destruct (ainv_step c h us op us' e Hs Ha (ainv_run c h us Hs Ha H) Hu) as [h' [E _]]. eauto.
Qed.

(** Once: the chunks not yet handed back are those of the live blocks. *)
Theorem C42_chunks_are_live_blocks : forall c h us,
  0 < ac_size c -> PTR <= ac_align c -> a_run c h us ->
  h_chunks h = map (fun u => (b_chunk u, upsize c (b_n u))) us.
Proof. intros c h us Hs Ha H. apply (av_chunks _ _ _ (ainv_run c h us Hs Ha H)). Qed.

(** deallocate(0, n) does nothing. *)
Theorem C42_null : forall c h n, a_deallocate c h 0 n = AVal (h, None).
Proof. reflexivity. Qed.

(** A history: two blocks of doubles, alignment 64, a write to the last byte of the
    first, release of the first. *)
Definition ex_ac : aconf := mkAC 8 64.
Definition ex_next (h : heap) (op : aop) : heap := match a_step ex_ac h op with AVal (h', _) => h' | AFault => no_heap end.
Definition ex_out (h : heap) (op : aop) : option (Z * Z) := match a_step ex_ac h op with AVal (_, o) => o | AFault => None end.
Definition ex_fine (h : heap) (op : aop) : bool := match a_step ex_ac h op with AVal _ => true | AFault => false end.
Lemma ex_step : forall h op, ex_fine h op = true -> a_step ex_ac h op = AVal (ex_next h op, ex_out h op).
Proof. intros h op. unfold ex_fine, ex_next, ex_out. destruct (a_step ex_ac h op) as [[h' o]|]; [auto|discriminate]. Qed.
Definition ex_h1 := ex_next no_heap (AAlloc 2 1000).
Definition ex_h2 := ex_next ex_h1 (AAlloc 1 1136).
Definition ex_h3 := ex_next ex_h2 (AWrite (1024 + 15) 255).
Definition ex_h4 := ex_next ex_h3 (AFree 1024 2).

Example C41_C42_case :
  a_run ex_ac ex_h4 [mkUB 1152 1 1136] /\
  match a_step ex_ac ex_h4 (AFree 1152 1) with AVal (h, o) => h_chunks h = [] /\ o = Some (1136, 80) | AFault => False end.
Proof.
  assert (R1 : a_run ex_ac ex_h1 [mkUB (ret_addr ex_ac 1000) 2 1000]).
  { apply (run_step ex_ac _ _ (AAlloc 2 1000) _ None _ (ex_out no_heap (AAlloc 2 1000)) (run_start ex_ac)).
    - apply us_alloc; try (vm_compute; congruence). split; [reflexivity|]. split; [vm_compute; congruence|]. constructor.
    - apply ex_step. vm_compute. reflexivity. }
  assert (R2 : a_run ex_ac ex_h2 [mkUB (ret_addr ex_ac 1136) 1 1136; mkUB (ret_addr ex_ac 1000) 2 1000]).
  { apply (run_step ex_ac _ _ (AAlloc 1 1136) _ None _ (ex_out ex_h1 (AAlloc 1 1136)) R1).
    - apply us_alloc; try (vm_compute; congruence). split; [reflexivity|]. split; [vm_compute; congruence|].
      assert (E : h_chunks ex_h1 = [(1000, 88)]) by (vm_compute; reflexivity). rewrite E.
      constructor; [right; vm_compute; congruence|constructor].
    - apply ex_step. vm_compute. reflexivity. }
  assert (R3 : a_run ex_ac ex_h3 [mkUB (ret_addr ex_ac 1136) 1 1136; mkUB (ret_addr ex_ac 1000) 2 1000]).
  { apply (run_step ex_ac _ _ (AWrite (1024 + 15) 255) _ None _ (ex_out ex_h2 (AWrite (1024 + 15) 255)) R2).
    - apply us_write; [|lia]. exists (mkUB (ret_addr ex_ac 1000) 2 1000). split; [right; left; reflexivity|]. vm_compute. split; congruence.
    - apply ex_step. vm_compute. reflexivity. }
  split.
  - apply (run_step ex_ac _ _ (AFree 1024 2) _ (Some (1000, 88)) _ (ex_out ex_h3 (AFree 1024 2)) R3).
    + apply (us_free ex_ac ex_h3 _ [mkUB 1152 1 1136] [] (mkUB 1024 2 1000)). reflexivity.
    + apply ex_step. vm_compute. reflexivity.
  - assert (E : ex_fine ex_h4 (AFree 1152 1) = true) by (vm_compute; reflexivity).
    rewrite (ex_step _ _ E). split; vm_compute; reflexivity.
Qed.

(** ** C43 *)
(** False for alignments 1 and 2: the bookkeeping word is written in front of the chunk
    whatever even address the underlying allocator returns. *)
Theorem C43_small_alignment_refuted : forall s n chunk A,
  0 < s -> 0 <= n -> n * s + A + PTR < w64 -> (A = 1 \/ A = 2) -> (16 | chunk) -> 0 < chunk ->
  ret_addr (mkAC s A) chunk - PTR < chunk /\
  a_allocate (mkAC s A) no_heap n chunk = AFault.
Proof.
  intros s n chunk A Hs Hn Ho HA [q Hq] Hc. cbn [no_heap].
  assert (Hlt : ret_addr (mkAC s A) chunk - PTR < chunk).
  { unfold ret_addr, correction, PTR. cbn [ac_align]. destruct HA as [->| ->].
    - rewrite Z.mod_1_r. simpl. lia.
    - replace (chunk mod 2) with 0 by (rewrite Hq; replace (q * 16) with (q * 8 * 2) by lia; rewrite Z.mod_mul; lia). simpl. lia. }
  split; auto. unfold a_allocate, no_heap. cbn [h_bytes h_chunks].
  destruct (in_chunk _ _ _) eqn:E; auto. apply in_chunk_spec in E. cbn [h_chunks In] in E.
  destruct E as [b [t [[Hin|[]] [H1 _]]]]. inversion Hin; subst. lia.
Qed.

(** False for huge counts: the size computation wraps and the chunk is smaller than the
    user's block, for every such n. *)
Theorem C43_overflow_refuted : forall c n,
  0 < ac_size c -> 0 < ac_align c -> ac_align c + PTR < w64 -> 0 <= n < w64 ->
  w64 <= n * ac_size c + ac_align c + PTR ->
  upsize c n < n * ac_size c.
Proof.
  intros c n Hs Ha Hg Hn Ho. unfold upsize, grace_offset. rewrite (Z.mod_small (ac_align c + PTR)) by (unfold PTR in *; lia).
  rewrite Z.add_mod_idemp_l by (unfold w64; lia).
  pose proof (Z.div_mod (n * ac_size c + (ac_align c + PTR)) w64 ltac:(unfold w64; lia)) as D.
  assert (1 <= (n * ac_size c + (ac_align c + PTR)) / w64) by (apply Z.div_le_lower_bound; unfold w64 in *; lia).
  nia.
Qed.

(** 2^61 doubles, alignment 64: the request wraps to 72 bytes. *)
Example C43_overflow_case : upsize (mkAC 8 64) (2 ^ 61) = 72 /\ 0 <= 2 ^ 61 < w64.
Proof. split; vm_compute; [reflexivity|]. split; congruence. Qed.

(** What holds besides C41: alignments 4..7 with a chunk that is itself a multiple of
    ALIGNMENT. Missing: ALIGNMENT < 4, and counts whose size wraps (both refuted). *)
Theorem C43_medium_alignment_partial : forall c h n chunk,
  0 < ac_size c -> 4 <= ac_align c -> (ac_align c | chunk) -> 0 <= n ->
  n * ac_size c + ac_align c + PTR < w64 -> may_return h (upsize c n) chunk ->
  exists h' p, a_allocate c h n chunk = AVal (h', p) /\ (ac_align c | p) /\
    chunk <= p - PTR /\ p + n * ac_size c <= chunk + upsize c n.
Proof.
  intros c h n chunk Hs Ha Hd Hn Ho [M1 [M2 M3]].
  assert (Hm : chunk mod ac_align c = 0) by (apply Z.mod_divide; [lia|auto]).
  assert (Hc : PTR <= correction c chunk <= ac_align c + PTR).
  { unfold correction, PTR. rewrite Hm. cbv zeta. destruct (Z.ltb_spec (ac_align c - 0) 8); lia. }
  assert (0 <= n * ac_size c) by (apply Z.mul_nonneg_nonneg; lia).
  rewrite upsize_exact in M2 by (unfold PTR in *; lia).
  unfold a_allocate. cbn [h_chunks h_bytes].
  assert (Hic : in_chunk (mkHeap (h_bytes h) ((chunk, upsize c n) :: h_chunks h)) (ret_addr c chunk - PTR) PTR = true).
  { apply in_chunk_spec. exists chunk, (upsize c n). cbn [h_chunks In]. split; auto. rewrite upsize_exact by (unfold PTR in *; lia). unfold ret_addr. lia. }
  rewrite Hic. do 2 eexists. split; [reflexivity|]. split; [apply ret_aligned; lia|].
  rewrite upsize_exact by (unfold PTR in *; lia). unfold ret_addr. lia.
Qed.

Example C43_case : may_return no_heap (upsize (mkAC 1 4) 10) 4096 /\ (4 | 4096).
Proof. split; [|exists 1024; reflexivity]. repeat split; vm_compute; try congruence. constructor. Qed.

Print Assumptions C41_aligned_and_inside.
Print Assumptions C41_live_blocks.
Print Assumptions C42_releases_what_it_obtained.
Print Assumptions C42_chunks_are_live_blocks.
Print Assumptions C42_null.
Print Assumptions C43_small_alignment_refuted.
Print Assumptions C43_overflow_refuted.
Print Assumptions C43_medium_alignment_partial.
