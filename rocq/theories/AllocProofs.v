(** Proofs about Alloc.v. *)
From Coq Require Import ZArith List Bool Lia Permutation.
From Verif Require Import Base Alloc.
Import ListNotations.
Open Scope Z_scope.

Lemma upsize_exact : forall c n, 0 <= n -> 0 <= ac_size c -> 0 < ac_align c ->
  n * ac_size c + ac_align c + PTR < w64 -> upsize c n = n * ac_size c + ac_align c + PTR.
Proof.
  intros c n Hn Hs Ha H. unfold upsize, grace_offset, PTR in *. assert (0 <= n * ac_size c) by (apply Z.mul_nonneg_nonneg; lia).
  rewrite (Z.mod_small (n * ac_size c)), (Z.mod_small (ac_align c + 8)), Z.mod_small by lia. lia.
Qed.

Lemma correction_bounds : forall c chunk, PTR <= ac_align c -> PTR <= correction c chunk <= ac_align c + PTR.
Proof.
  intros c chunk H. unfold correction. pose proof (Z.mod_pos_bound chunk (ac_align c)) as B. unfold PTR in *.
  destruct (Z.ltb_spec (ac_align c - chunk mod ac_align c) 8); lia.
Qed.

Lemma ret_aligned : forall c chunk, 0 < ac_align c -> (ac_align c | ret_addr c chunk).
Proof.
  intros c chunk H. unfold ret_addr, correction. pose proof (Z.div_mod chunk (ac_align c)) as D.
  destruct (_ <? _).
  - exists (chunk / ac_align c + 2). lia.
  - exists (chunk / ac_align c + 1). lia.
Qed.

Lemma zseq8 : zseq PTR = [0;1;2;3;4;5;6;7].
Proof. reflexivity. Qed.

(** Eight base-256 digits. *)
Lemma digits8 : forall v, 0 <= v < w64 ->
  fold_right (fun i acc => (v / 256 ^ i) mod 256 * 256 ^ i + acc) 0 (zseq PTR) = v.
Proof.
  intros v Hv. rewrite zseq8. cbn [fold_right].
  assert (E : forall k, 0 <= k -> v mod 256 ^ (k + 1) = v mod 256 ^ k + 256 ^ k * ((v / 256 ^ k) mod 256)).
  { intros k Hk. rewrite Z.pow_add_r, Z.pow_1_r by lia. apply Z.rem_mul_r; [apply Z.pow_nonzero; lia|lia]. }
  pose proof (E 0 ltac:(lia)) as E0. pose proof (E 1 ltac:(lia)) as E1. pose proof (E 2 ltac:(lia)) as E2. pose proof (E 3 ltac:(lia)) as E3.
  pose proof (E 4 ltac:(lia)) as E4. pose proof (E 5 ltac:(lia)) as E5. pose proof (E 6 ltac:(lia)) as E6. pose proof (E 7 ltac:(lia)) as E7.
  clear E. cbn [Z.add Pos.add Pos.succ] in *. change (256 ^ 0) with 1 in *. rewrite Z.mod_1_r in E0.
  rewrite (Z.mod_small v (256 ^ 8)) in E7 by exact Hv. lia.
Qed.

Lemma load_store : forall m a v, 0 <= v < w64 -> load_ptr (store_ptr m a v) a = v.
Proof.
  intros m a v Hv. pose proof (digits8 v Hv) as D. unfold load_ptr, store_ptr. rewrite zseq8 in *. cbn [fold_right] in *.
  assert (E : forall i, 0 <= i < 8 -> (if (a <=? a + i) && (a + i <? a + PTR) then (v / 256 ^ (a + i - a)) mod 256 else m (a + i)) = (v / 256 ^ i) mod 256).
  { intros i Hi. unfold PTR. destruct (Z.leb_spec a (a + i)); [|lia]. destruct (Z.ltb_spec (a + i) (a + 8)); [|lia]. simpl.
    replace (a + i - a) with i by lia. reflexivity. }
  rewrite !E by lia. exact D.
Qed.

Lemma load_ext : forall m m' a, (forall i, 0 <= i < PTR -> m (a + i) = m' (a + i)) -> load_ptr m a = load_ptr m' a.
Proof. intros m m' a H. unfold load_ptr. rewrite zseq8. unfold PTR in H. cbn [fold_right]. rewrite !H by lia. reflexivity. Qed.

Lemma in_chunk_spec : forall h a s, in_chunk h a s = true <-> exists b t, In (b, t) (h_chunks h) /\ b <= a /\ a + s <= b + t.
Proof.
  intros h a s. unfold in_chunk. rewrite existsb_exists. split.
  - intros [[b t] [H1 H2]]. exists b, t. split; auto. lia.
  - intros [b [t [H1 H2]]]. exists (b, t). split; auto. lia.
Qed.

(** *** Invariant *)
Definition chunk_of (c : aconf) (u : ublock) : Z * Z := (b_chunk u, upsize c (b_n u)).

Record ainv (c : aconf) (h : heap) (us : list ublock) : Prop := {
  av_chunks : h_chunks h = map (chunk_of c) us;
  av_block : forall u, In u us ->
    0 <= b_n u /\ b_n u * ac_size c + ac_align c + PTR < w64 /\ 0 < b_chunk u /\
    b_chunk u + upsize c (b_n u) <= w64 /\ b_at u = ret_addr c (b_chunk u) /\
    load_ptr (h_bytes h) (b_at u - PTR) = b_chunk u;
  av_apart : ForallOrdPairs (fun u v => apart (b_chunk u) (upsize c (b_n u)) (b_chunk v) (upsize c (b_n v))) us }.

Lemma block_inside : forall c u, 0 < ac_size c -> PTR <= ac_align c ->
  0 <= b_n u -> b_n u * ac_size c + ac_align c + PTR < w64 -> b_at u = ret_addr c (b_chunk u) ->
  b_chunk u <= b_at u - PTR /\ b_at u + b_n u * ac_size c <= b_chunk u + upsize c (b_n u).
Proof.
  intros c u Hs Ha Hn Ho Hat. rewrite upsize_exact by (unfold PTR in *; lia). rewrite Hat. unfold ret_addr.
  pose proof (correction_bounds c (b_chunk u) Ha). lia.
Qed.

Lemma apart_In : forall (f : ublock -> ublock -> Prop) l u v, (forall a b, f a b -> f b a) ->
  ForallOrdPairs f l -> In u l -> In v l -> u = v \/ f u v.
Proof. intros f l u v Hsym H Hu Hv. destruct (ForallOrdPairs_In H u v Hu Hv) as [|[|]]; auto. Qed.

Lemma apart_sym : forall a s b t, apart a s b t -> apart b t a s.
Proof. unfold apart. intros. lia. Qed.

Lemma remove_chunk_split : forall c l u r,
  ForallOrdPairs (fun u v => apart (b_chunk u) (upsize c (b_n u)) (b_chunk v) (upsize c (b_n v))) (l ++ u :: r) ->
  0 < upsize c (b_n u) ->
  remove_chunk (map (chunk_of c) (l ++ u :: r)) (b_chunk u) (upsize c (b_n u)) = Some (map (chunk_of c) (l ++ r)).
Proof.
  intros c l u r H Hp. induction l as [|v l IH]; cbn [app map remove_chunk chunk_of] in *.
  - rewrite !Z.eqb_refl. reflexivity.
  - inversion H as [|? ? Hf Ho]; subst. rewrite Forall_forall in Hf. specialize (Hf u). 
    assert (Hx : apart (b_chunk v) (upsize c (b_n v)) (b_chunk u) (upsize c (b_n u))) by (apply Hf, in_or_app; simpl; auto).
    destruct ((b_chunk u =? b_chunk v) && (upsize c (b_n u) =? upsize c (b_n v))) eqn:E.
    + exfalso. unfold apart in Hx. lia.
    + rewrite IH; auto.
Qed.

Lemma FOP_remove : forall (A : Type) (f : A -> A -> Prop) l u r, ForallOrdPairs f (l ++ u :: r) -> ForallOrdPairs f (l ++ r).
Proof.
  intros A f l u r. induction l as [|v l IH]; simpl; intros H; inversion H as [|? ? Hf Ho]; subst; auto.
  constructor; auto. rewrite Forall_forall in *. intros x Hx. apply Hf. apply in_app_iff in Hx. apply in_app_iff. simpl. tauto.
Qed.

Lemma ainv_step : forall c h us op us' e,
  0 < ac_size c -> PTR <= ac_align c -> ainv c h us -> u_step c h us op us' e ->
  exists h', a_step c h op = AVal (h', e) /\ ainv c h' us'.
Proof.
  intros c h us op us' e Hs Ha I H. destruct H as [n chunk Hn Ho [M1 [M2 M3]]|a v [u [Hu Hin]] Hv|l r u Hus].
  - (* allocate *)
    cbn [a_step]. unfold a_allocate. cbn [h_chunks h_bytes]. set (u := mkUB (ret_addr c chunk) n chunk).
    destruct (block_inside c u) as [B1 B2]; auto. cbn [u b_at b_n b_chunk] in B1, B2.
    assert (0 <= n * ac_size c) by (apply Z.mul_nonneg_nonneg; lia).
    assert (Hic : in_chunk (mkHeap (h_bytes h) ((chunk, upsize c n) :: h_chunks h)) (ret_addr c chunk - PTR) PTR = true).
    { apply in_chunk_spec. exists chunk, (upsize c n). cbn [h_chunks In]. split; auto. lia. }
    rewrite Hic. eexists. split; [reflexivity|]. constructor.
    + cbn [h_chunks map chunk_of u b_chunk b_n]. rewrite (av_chunks _ _ _ I). reflexivity.
    + intros v Hv. cbn [h_bytes]. destruct Hv as [<-|Hv].
      * cbn [b_n b_chunk b_at]. repeat split; auto; try lia. apply load_store. unfold PTR in *.
        change (b_chunk u) with chunk. rewrite upsize_exact in M2 by (unfold PTR; lia). unfold PTR in *. lia.
      * destruct (av_block _ _ _ I v Hv) as [V1 [V2 [V3 [V4 [V5 V6]]]]]. repeat split; auto.
        etransitivity; [|exact V6]. apply load_ext. intros i Hi. unfold store_ptr.
        destruct (block_inside c v) as [C1 C2]; auto. assert (0 <= b_n v * ac_size c) by (apply Z.mul_nonneg_nonneg; lia).
        assert (Hap : apart chunk (upsize c n) (b_chunk v) (upsize c (b_n v))).
        { rewrite Forall_forall in M3. rewrite (av_chunks _ _ _ I) in M3. specialize (M3 (chunk_of c v)).
          apply M3. apply in_map. auto. }
        unfold apart, PTR in *. destruct (_ && _) eqn:E; auto. exfalso. lia.
    + constructor; [|apply (av_apart _ _ _ I)]. rewrite Forall_forall in M3 |- *. intros v Hv. cbn [b_chunk b_n].
      apply (M3 (chunk_of c v)). rewrite (av_chunks _ _ _ I). apply in_map. auto.
  - (* user write *)
    destruct (av_block _ _ _ I u Hu) as [U1 [U2 [U3 [U4 [U5 U6]]]]]. destruct (block_inside c u) as [B1 B2]; auto.
    cbn [a_step]. assert (Hic : in_chunk h a 1 = true).
    { apply in_chunk_spec. exists (b_chunk u), (upsize c (b_n u)). split; [|unfold PTR in *; lia].
      rewrite (av_chunks _ _ _ I). apply (in_map (chunk_of c)) in Hu. exact Hu. }
    rewrite Hic. eexists. split; [reflexivity|]. destruct I as [I1 I2 I3]. constructor; auto.
    intros w Hw. destruct (I2 w Hw) as [W1 [W2 [W3 [W4 [W5 W6]]]]]. repeat split; auto.
    etransitivity; [|exact W6]. cbn [h_bytes]. apply load_ext. intros i Hi.
    destruct (Z.eqb_spec (b_at w - PTR + i) a) as [E|E]; auto. exfalso.
    destruct (block_inside c w) as [C1 C2]; auto. assert (0 <= b_n w * ac_size c) by (apply Z.mul_nonneg_nonneg; lia).
    destruct (apart_In _ us u w (fun a b => apart_sym _ _ _ _) I3 Hu Hw) as [->|Hap].
    + lia.
    + unfold apart in Hap. lia.
  - (* deallocate *)
    assert (Hu : In u us) by (rewrite Hus; apply in_or_app; simpl; auto).
    destruct (av_block _ _ _ I u Hu) as [U1 [U2 [U3 [U4 [U5 U6]]]]]. destruct (block_inside c u) as [B1 B2]; auto.
    assert (0 <= b_n u * ac_size c) by (apply Z.mul_nonneg_nonneg; lia).
    cbn [a_step]. unfold a_deallocate.
    destruct (Z.eqb_spec (b_at u) 0); [unfold PTR in *; lia|].
    assert (Hic : in_chunk h (b_at u - PTR) PTR = true).
    { apply in_chunk_spec. exists (b_chunk u), (upsize c (b_n u)). split; [|unfold PTR in *; lia].
      rewrite (av_chunks _ _ _ I). apply (in_map (chunk_of c)) in Hu. exact Hu. }
    rewrite Hic, U6. cbv zeta. rewrite (av_chunks _ _ _ I), Hus. pose proof (av_apart _ _ _ I) as Hap. rewrite Hus in Hap.
    rewrite remove_chunk_split; auto; [|rewrite upsize_exact; unfold PTR in *; lia].
    eexists. split; [reflexivity|]. destruct I as [I1 I2 I3]. constructor.
    + reflexivity.
    + cbn [h_bytes]. intros w Hw. apply I2. rewrite Hus. apply in_app_iff in Hw. apply in_app_iff. simpl. tauto.
    + eapply FOP_remove; eauto.
Qed.

Lemma ainv_run : forall c h us, 0 < ac_size c -> PTR <= ac_align c -> a_run c h us -> ainv c h us.
Proof.
  intros c h us Hs Ha H. induction H as [|h us op us' e h' o Hr IH Hu Hst].
  - constructor; auto; [intros u []|constructor].
  - destruct (ainv_step c h us op us' e Hs Ha IH Hu) as [h2 [E I]]. congruence.
Qed.
