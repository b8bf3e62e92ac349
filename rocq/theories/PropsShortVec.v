(** Theorems about short_vec (properties C49 to C52). *)
From Coq Require Import String ZArith Bool List Lia.
From Verif Require Import ShortVecLang ShortVecClass ShortVecSym ShortVecNat ShortVecApi SpecShortVec
  ShortVecLift ShortVecProofs ShortVecBits.
From Verif Require Import ShortVecScalar ShortVecSse ShortVecAvx ShortVecAvx512
  ShortVecNeon ShortVecMic ShortVecQpx.
Import ListNotations.
Local Open Scope Z_scope.

(** ** The classes *)

Definition of_kind (k : ekind) (l : list cls) : list cls :=
  filter (fun c => ekind_beq (c_kind c) k) l.
Definition floating (l : list cls) : list cls := of_kind KF32 l ++ of_kind KF64 l.

Definition shape (c : cls) : ekind * nat := (c_kind c, c_arity c).

Definition twice {X : Type} (l : list X) : list X := flat_map (fun x => [x; x]) l.

(** Element type and arity of the classes of each instruction set (some come
    in two variants). *)
Example class_shapes :
  map shape scalar_classes = list_prod [KF64; KF32; KI32] [1; 2; 4; 8; 16; 32]%nat /\
  map shape sse_classes
    = twice (map (pair KF64) [2; 4; 8; 16; 32]%nat ++ list_prod [KF32; KI32] [4; 8; 16; 32]%nat) /\
  map shape avx_classes
    = twice (map (pair KF64) [4; 8; 16; 32]%nat ++ map (pair KF32) [8; 16; 32]%nat) ++
      map (pair KI32) [8; 16; 32]%nat /\
  map shape avx512_classes
    = map (pair KF64) [8; 16; 32]%nat ++ list_prod [KF32; KI32] [16; 32]%nat /\
  map shape neon_classes
    = (KF32, 4%nat) :: twice (map (pair KF32) [4; 8; 16; 32]%nat) /\
  map shape mic_classes = map (pair KF64) [8; 16; 32]%nat ++ map (pair KF32) [16; 32]%nat /\
  map shape qpx_classes = map (pair KF64) [4; 8; 16; 32]%nat.
Proof. vm_compute. repeat split. Qed.

Ltac by_check c I lst chk :=
  let E := fresh "E" in
  assert (E : forallb chk lst = true) by (vm_compute; reflexivity);
  rewrite forallb_forall in E; specialize (E c I); cbv beta in E.

(** A concrete machine for examples: data[i] = offsets[i] = i, ptr[t] = t + 100,
    registers whose high half holds rubbish. *)
Definition Z_machine : alg Z :=
  zalg (fun _ a => a) (fun a _ => a) (fun _ => 1) (fun i => i) (fun i => i) (fun t => t + 100) 7.

Example laws_hold : bit_laws Z_machine ztruth zfull zword.
Proof. apply zalg_laws. Qed.

(** ** C49: arithmetic *)

Inductive arith : mid -> mid -> (ekind -> bop) -> Prop :=
| arith_add : arith MAdd MAddEq BAdd
| arith_sub : arith MSub MSubEq BSub
| arith_mul : arith MMul MMulEq BMul.

(** a + b, a - b, a * b apply the operation to every lane, in every class of
    every instruction set. *)
Theorem sv_arith_lanewise : forall m me o, arith m me o ->
  forall c, In c all_classes ->
  forall (T : Type) (A : alg T) v w x y, is_vec c v x -> is_vec c w y ->
  returns_vec c (sv_bin A c m v w) x (fun i => a_bin A (o (c_kind c)) (x i) (y i)).
Proof.
  intros m me o H c I T A v w x y Hv Hw.
  by_check c I all_classes (fun c =>
    chk_bin c MAdd (fun i => TBin (BAdd (c_kind c)) (TVal i) (TOth i)) &&
    chk_bin c MSub (fun i => TBin (BSub (c_kind c)) (TVal i) (TOth i)) &&
    chk_bin c MMul (fun i => TBin (BMul (c_kind c)) (TVal i) (TOth i))).
  rewrite !andb_true_iff in E. destruct E as [[E1 E2] E3].
  destruct H; [exact (chk_bin_ok c _ _ E1 T A v w x y Hv Hw)|exact (chk_bin_ok c _ _ E2 T A v w x y Hv Hw)|
    exact (chk_bin_ok c _ _ E3 T A v w x y Hv Hw)].
Qed.

(** The same with both operands the same object. *)
Theorem sv_arith_self_lanewise : forall m me o, arith m me o ->
  forall c, In c all_classes ->
  forall (T : Type) (A : alg T) v x, is_vec c v x ->
  returns_vec c (sv_self A c m v) x (fun i => a_bin A (o (c_kind c)) (x i) (x i)).
Proof.
  intros m me o H c I T A v x Hv.
  by_check c I all_classes (fun c =>
    chk_bin_self c MAdd (fun i => TBin (BAdd (c_kind c)) (TVal i) (TVal i)) &&
    chk_bin_self c MSub (fun i => TBin (BSub (c_kind c)) (TVal i) (TVal i)) &&
    chk_bin_self c MMul (fun i => TBin (BMul (c_kind c)) (TVal i) (TVal i))).
  rewrite !andb_true_iff in E. destruct E as [[E1 E2] E3].
  destruct H; [exact (chk_bin_self_ok c _ _ E1 T A v x Hv)|exact (chk_bin_self_ok c _ _ E2 T A v x Hv)|
    exact (chk_bin_self_ok c _ _ E3 T A v x Hv)].
Qed.

(** s + b, s - b, s * b with a scalar on the left. *)
Theorem sv_arith_left_lanewise : forall m me o, arith m me o ->
  forall c, In c all_classes ->
  forall (T : Type) (A : alg T) t w y, is_vec c w y ->
  returns_vec c (sv_left A c m t w) (fun _ => t) (fun i => a_bin A (o (c_kind c)) t (y i)).
Proof.
  intros m me o H c I T A t w y Hw.
  by_check c I all_classes (fun c => chk_scalar c &&
    chk_bin c MAdd (fun i => TBin (BAdd (c_kind c)) (TVal i) (TOth i)) &&
    chk_bin c MSub (fun i => TBin (BSub (c_kind c)) (TVal i) (TOth i)) &&
    chk_bin c MMul (fun i => TBin (BMul (c_kind c)) (TVal i) (TOth i))).
  rewrite !andb_true_iff in E. destruct E as [[[E0 E1] E2] E3].
  destruct H; eapply left_ok; eassumption.
Qed.

Definition without_qpx : list cls :=
  scalar_classes ++ sse_classes ++ avx_classes ++ avx512_classes ++ neon_classes ++ mic_classes.

(** a += b, a -= b in every class, a *= b everywhere but on QPX. *)
Theorem sv_assign_lanewise : forall m me o, arith m me o ->
  forall c, In c without_qpx \/ (In c all_classes /\ me <> MMulEq) ->
  forall (T : Type) (A : alg T) v w x y, is_vec c v x -> is_vec c w y ->
  sets_vec c (sv_bin A c me v w) (fun i => a_bin A (o (c_kind c)) (x i) (y i)).
Proof.
  intros m me o H c I T A v w x y Hv Hw.
  destruct H.
  1, 2: assert (I' : In c all_classes)
    by (destruct I as [I|[I _]]; [unfold without_qpx, all_classes in *;
          rewrite !in_app_iff in *; tauto|exact I]).
  - by_check c I' all_classes (fun c =>
      chk_set c MAddEq (fun i => TBin (BAdd (c_kind c)) (TVal i) (TOth i))).
    exact (chk_set_ok c _ _ E T A v w x y Hv Hw).
  - by_check c I' all_classes (fun c =>
      chk_set c MSubEq (fun i => TBin (BSub (c_kind c)) (TVal i) (TOth i))).
    exact (chk_set_ok c _ _ E T A v w x y Hv Hw).
  - destruct I as [I|[_ N]]; [|congruence].
    by_check c I without_qpx (fun c =>
      chk_set c MMulEq (fun i => TBin (BMul (c_kind c)) (TVal i) (TOth i))).
    exact (chk_set_ok c _ _ E T A v w x y Hv Hw).
Qed.

Theorem sv_assign_self_lanewise : forall m me o, arith m me o ->
  forall c, In c without_qpx ->
  forall (T : Type) (A : alg T) v x, is_vec c v x ->
  sets_vec c (sv_self A c me v) (fun i => a_bin A (o (c_kind c)) (x i) (x i)).
Proof.
  intros m me o H c I T A v x Hv.
  by_check c I without_qpx (fun c =>
    chk_set_self c MAddEq (fun i => TBin (BAdd (c_kind c)) (TVal i) (TVal i)) &&
    chk_set_self c MSubEq (fun i => TBin (BSub (c_kind c)) (TVal i) (TVal i)) &&
    chk_set_self c MMulEq (fun i => TBin (BMul (c_kind c)) (TVal i) (TVal i))).
  rewrite !andb_true_iff in E. destruct E as [[E1 E2] E3].
  destruct H; [exact (chk_set_self_ok c _ _ E1 T A v x Hv)|exact (chk_set_self_ok c _ _ E2 T A v x Hv)|
    exact (chk_set_self_ok c _ _ E3 T A v x Hv)].
Qed.

(** On QPX *= adds (short_vec_qpx_double_4.hpp, operator*=: vec_add). *)
Theorem sv_qpx_mul_assign : forall c, In c qpx_classes ->
  forall (T : Type) (A : alg T) v w x y, is_vec c v x -> is_vec c w y ->
  sets_vec c (sv_bin A c MMulEq v w) (fun i => a_bin A (BAdd KF64) (x i) (y i)).
Proof.
  intros c I T A v w x y Hv Hw.
  by_check c I qpx_classes (fun c =>
    chk_set c MMulEq (fun i => TBin (BAdd KF64) (TVal i) (TOth i))).
  exact (chk_set_ok c _ _ E T A v w x y Hv Hw).
Qed.

(** ... so 1.0 *= 1.0 leaves 2.0. *)
Theorem sv_qpx_mul_assign_refuted :
  exists c v w x y, In c qpx_classes /\ is_vec c v x /\ is_vec c w y /\
  ~ sets_vec c (sv_bin Z_machine c MMulEq v w) (fun i => a_bin Z_machine (BMul KF64) (x i) (y i)).
Proof.
  pose (one := 0x3ff0000000000000).
  exists cls_qpx_double_4, [[one; one; one; one]], [[one; one; one; one]], (fun _ => one), (fun _ => one).
  split; [left; reflexivity|]. split; [repeat constructor|]. split; [repeat constructor|].
  intros [r [E [_ [[_ [_ V]] _]]]].
  assert (X : match sv_bin Z_machine cls_qpx_double_4 MMulEq [[one; one; one; one]] [[one; one; one; one]] with
              | Some r => hd 0 (concat (r_val r)) | None => 0 end = 0x4000000000000000)
    by (vm_compute; reflexivity).
  rewrite E, V in X. apply Z.eqb_eq in X. vm_compute in X. discriminate.
Qed.

(** Division.  Correctly rounded, lane by lane: all double classes but QPX,
    single precision in the portable and the SSE classes, int in the portable
    ones. *)
Definition exact_div : list cls :=
  scalar_classes ++ floating sse_classes ++
  of_kind KF64 (avx_classes ++ avx512_classes ++ mic_classes).

Theorem sv_div_lanewise : forall c, In c exact_div ->
  forall (T : Type) (A : alg T) v w x y, is_vec c v x -> is_vec c w y ->
  returns_vec c (sv_bin A c MDiv v w) x (fun i => a_bin A (BDiv (c_kind c)) (x i) (y i)) /\
  sets_vec c (sv_bin A c MDivEq v w) (fun i => a_bin A (BDiv (c_kind c)) (x i) (y i)).
Proof.
  intros c I T A v w x y Hv Hw.
  by_check c I exact_div (fun c =>
    chk_bin c MDiv (fun i => TBin (BDiv (c_kind c)) (TVal i) (TOth i)) &&
    chk_set c MDivEq (fun i => TBin (BDiv (c_kind c)) (TVal i) (TOth i))).
  rewrite !andb_true_iff in E. destruct E as [E1 E2].
  split; [exact (chk_bin_ok c _ _ E1 T A v w x y Hv Hw)|exact (chk_set_ok c _ _ E2 T A v w x y Hv Hw)].
Qed.

Theorem sv_div_self_lanewise : forall c, In c exact_div ->
  forall (T : Type) (A : alg T) v x, is_vec c v x ->
  returns_vec c (sv_self A c MDiv v) x (fun i => a_bin A (BDiv (c_kind c)) (x i) (x i)) /\
  sets_vec c (sv_self A c MDivEq v) (fun i => a_bin A (BDiv (c_kind c)) (x i) (x i)).
Proof.
  intros c I T A v x Hv.
  by_check c I exact_div (fun c =>
    chk_bin_self c MDiv (fun i => TBin (BDiv (c_kind c)) (TVal i) (TVal i)) &&
    chk_set_self c MDivEq (fun i => TBin (BDiv (c_kind c)) (TVal i) (TVal i))).
  rewrite !andb_true_iff in E. destruct E as [E1 E2].
  split; [exact (chk_bin_self_ok c _ _ E1 T A v x Hv)|exact (chk_set_self_ok c _ _ E2 T A v x Hv)].
Qed.

Theorem sv_div_left_lanewise : forall c, In c exact_div ->
  forall (T : Type) (A : alg T) t w y, is_vec c w y ->
  returns_vec c (sv_left A c MDiv t w) (fun _ => t) (fun i => a_bin A (BDiv (c_kind c)) t (y i)).
Proof.
  intros c I T A t w y Hw.
  by_check c I exact_div (fun c => chk_scalar c &&
    chk_bin c MDiv (fun i => TBin (BDiv (c_kind c)) (TVal i) (TOth i))).
  rewrite !andb_true_iff in E. destruct E as [E0 E1]. eapply left_ok; eassumption.
Qed.

(** Division through an approximate reciprocal: a * rcp(b). *)
Definition rcp_div : list (cls * apx) :=
  map (fun c => (c, Arcp)) (of_kind KF32 avx_classes) ++
  map (fun c => (c, Arcp14)) (of_kind KF32 avx512_classes) ++
  map (fun c => (c, Arcp23)) (of_kind KF32 mic_classes).

Theorem sv_div_reciprocal : forall c p, In (c, p) rcp_div ->
  forall (T : Type) (A : alg T) v w x y, is_vec c v x -> is_vec c w y ->
  returns_vec c (sv_bin A c MDiv v w) x (fun i => a_bin A (BMul KF32) (x i) (a_un A (UApx p) (y i))) /\
  sets_vec c (sv_bin A c MDivEq v w) (fun i => a_bin A (BMul KF32) (x i) (a_un A (UApx p) (y i))).
Proof.
  intros c p I T A v w x y Hv Hw.
  by_check (c, p) I rcp_div (fun cp : cls * apx =>
    chk_bin (fst cp) MDiv (fun i => TBin (BMul KF32) (TVal i) (TUn (UApx (snd cp)) (TOth i))) &&
    chk_set (fst cp) MDivEq (fun i => TBin (BMul KF32) (TVal i) (TUn (UApx (snd cp)) (TOth i)))).
  cbn [fst snd] in E. rewrite !andb_true_iff in E. destruct E as [E1 E2].
  split; [exact (chk_bin_ok c _ _ E1 T A v w x y Hv Hw)|exact (chk_set_ok c _ _ E2 T A v w x y Hv Hw)].
Qed.

(** NEON: a reciprocal estimate and one Newton step (two if
    LIBFLATARRAY_WITH_INCREASED_PRECISION). *)
Definition newton {T : Type} (A : alg T) (y r : T) : T :=
  a_bin A (BMul KF32) (a_bin A BRecps y r) r.
Definition neon_steps (c : cls) : nat :=
  if existsb (String.eqb (c_name c))
       ["neon_float_4_ip"; "neon_float_8_ip"; "neon_float_16_ip"; "neon_float_32_ip"]%string
  then 2 else 1.
Definition tnewton (y r : term) : term := TBin (BMul KF32) (TBin BRecps y r) r.

Lemma teval_newton : forall (T : Type) (A : alg T) g n y r,
  teval A g (Nat.iter n (tnewton y) r) = Nat.iter n (newton A (teval A g y)) (teval A g r).
Proof.
  intros T A g n y r. induction n as [|n IH]; [reflexivity|].
  change (Nat.iter (S n) (tnewton y) r) with (tnewton y (Nat.iter n (tnewton y) r)).
  change (Nat.iter (S n) (newton A (teval A g y)) (teval A g r)) with
    (newton A (teval A g y) (Nat.iter n (newton A (teval A g y)) (teval A g r))).
  unfold tnewton at 1. cbn [teval]. now rewrite IH.
Qed.

Theorem sv_div_neon : forall c, In c neon_classes ->
  forall (T : Type) (A : alg T) v w x y, is_vec c v x -> is_vec c w y ->
  let q i := a_bin A (BMul KF32) (x i)
               (Nat.iter (neon_steps c) (newton A (y i)) (a_un A (UApx Arecpe) (y i))) in
  returns_vec c (sv_bin A c MDiv v w) x q /\ sets_vec c (sv_bin A c MDivEq v w) q.
Proof.
  intros c I T A v w x y Hv Hw q.
  by_check c I neon_classes (fun c =>
    let q i := TBin (BMul KF32) (TVal i)
               (Nat.iter (neon_steps c) (tnewton (TOth i)) (TUn (UApx Arecpe) (TOth i))) in
    chk_bin c MDiv q && chk_set c MDivEq q).
  rewrite !andb_true_iff in E. destruct E as [E1 E2].
  assert (Q : forall i, q i = teval A (vals A x y x (a_undef A)) (TBin (BMul KF32) (TVal i)
               (Nat.iter (neon_steps c) (tnewton (TOth i)) (TUn (UApx Arecpe) (TOth i))))).
  { intros i. unfold q. cbn [teval vals g_val g_oth]. f_equal.
    symmetry. exact (teval_newton _ A (vals A x y x (a_undef A)) _ (TOth i) (TUn (UApx Arecpe) (TOth i))). }
  split.
  - destruct (chk_bin_ok c _ _ E1 T A v w x y Hv Hw) as [r [u [H1 [H2 [H3 H4]]]]].
    exists r, u. repeat (split; [assumption|]). split; [|exact H4].
    eapply is_vec_ext; [|exact H3]. intros i _. symmetry. apply Q.
  - eapply sets_vec_ext; [|exact (chk_set_ok c _ _ E2 T A v w x y Hv Hw)]. intros i _. symmetry. apply Q.
Qed.

(** QPX: vec_swdiv_nochk *)
Theorem sv_div_qpx : forall c, In c qpx_classes ->
  forall (T : Type) (A : alg T) v w x y, is_vec c v x -> is_vec c w y ->
  returns_vec c (sv_bin A c MDiv v w) x (fun i => a_bin A BSwdiv (x i) (y i)) /\
  sets_vec c (sv_bin A c MDivEq v w) (fun i => a_bin A BSwdiv (x i) (y i)).
Proof.
  intros c I T A v w x y Hv Hw.
  by_check c I qpx_classes (fun c =>
    chk_bin c MDiv (fun i => TBin BSwdiv (TVal i) (TOth i)) &&
    chk_set c MDivEq (fun i => TBin BSwdiv (TVal i) (TOth i))).
  rewrite !andb_true_iff in E. destruct E as [E1 E2].
  split; [exact (chk_bin_ok c _ _ E1 T A v w x y Hv Hw)|exact (chk_set_ok c _ _ E2 T A v w x y Hv Hw)].
Qed.

(** int on SSE, AVX2, AVX512: a / b goes through single precision. *)
Definition simd_int : list cls := of_kind KI32 (sse_classes ++ avx_classes ++ avx512_classes).

Definition via_float {T : Type} (A : alg T) (back : uop) (a b : T) : T :=
  a_un A back (a_bin A (BDiv KF32) (a_un A UCvtIF a) (a_un A UCvtIF b)).

Theorem sv_div_int_simd : forall c, In c simd_int ->
  forall (T : Type) (A : alg T) v w x y, is_vec c v x -> is_vec c w y ->
  returns_vec c (sv_bin A c MDiv v w) x (fun i => via_float A UCvttFI (x i) (y i)).
Proof.
  intros c I T A v w x y Hv Hw.
  by_check c I simd_int (fun c => chk_bin c MDiv (fun i =>
    TUn UCvttFI (TBin (BDiv KF32) (TUn UCvtIF (TVal i)) (TUn UCvtIF (TOth i))))).
  exact (chk_bin_ok c _ _ E T A v w x y Hv Hw).
Qed.

(** Hence int division is not lane-wise int division: 16777217 / 1 = 16777216. *)
Theorem sv_div_int_simd_refuted :
  forall c, In c simd_int -> exists v w x y, is_vec c v x /\ is_vec c w y /\
  ~ returns_vec c (sv_bin Z_machine c MDiv v w) x (fun i => a_bin Z_machine (BDiv KI32) (x i) (y i)).
Proof.
  intros c I. pose (x := fun _ : nat => 16777217). pose (y := fun _ : nat => 1).
  by_check c I simd_int (fun c => arity_ok c && (1 <=? Z.of_nat (c_arity c))).
  apply andb_true_iff in E as [E L]. apply arity_ok_eq in E. apply Z.leb_le in L.
  exists (regs (c_nreg c) (c_lanes c) x), (regs (c_nreg c) (c_lanes c) y), x, y.
  assert (Hv : is_vec c (regs (c_nreg c) (c_lanes c) x) x) by now apply regs_is_vec.
  assert (Hw : is_vec c (regs (c_nreg c) (c_lanes c) y) y) by now apply regs_is_vec.
  split; [exact Hv|]. split; [exact Hw|]. intros [r [u [E1 [E2 [[_ [_ V]] _]]]]].
  destruct (sv_div_int_simd c I Z Z_machine _ _ x y Hv Hw) as [r' [u' [E1' [E2' [[_ [_ V']] _]]]]].
  rewrite E1 in E1'. injection E1' as <-. rewrite E2 in E2'. injection E2' as <-.
  rewrite V in V'. destruct (c_arity c) as [|n]; [lia|]. cbn [seq map] in V'.
  apply (f_equal (hd 0)) in V'. cbn [hd] in V'. apply Z.eqb_eq in V'. vm_compute in V'. discriminate.
Qed.

(** Square roots.  Correctly rounded: everything of float or double but NEON
    and QPX. *)
Definition exact_sqrt : list cls :=
  floating (scalar_classes ++ sse_classes ++ avx_classes ++ avx512_classes ++ mic_classes).

Theorem sv_sqrt_lanewise : forall c, In c exact_sqrt ->
  forall (T : Type) (A : alg T) v x, is_vec c v x ->
  returns_vec c (sv_un A c MSqrt v) x (fun i => a_un A (USqrt (c_kind c)) (x i)).
Proof.
  intros c I T A v x Hv.
  by_check c I exact_sqrt (fun c => chk_un c MSqrt (fun i => TUn (USqrt (c_kind c)) (TVal i))).
  exact (chk_un_ok c _ _ E T A v x Hv).
Qed.

(** int: the portable classes truncate the square root in double precision,
    the others round it in single precision. *)
Theorem sv_sqrt_int : forall c (T : Type) (A : alg T) v x, is_vec c v x ->
  (In c (of_kind KI32 scalar_classes) ->
   returns_vec c (sv_un A c MSqrt v) x
     (fun i => a_un A UDToInt (a_un A (USqrt KF64) (a_un A UIntToD (x i))))) /\
  (In c simd_int ->
   returns_vec c (sv_un A c MSqrt v) x
     (fun i => a_un A UCvtFI (a_un A (USqrt KF32) (a_un A UCvtIF (x i))))).
Proof.
  intros c T A v x Hv. split; intros I.
  - by_check c I (of_kind KI32 scalar_classes) (fun c => chk_un c MSqrt (fun i =>
      TUn UDToInt (TUn (USqrt KF64) (TUn UIntToD (TVal i))))).
    exact (chk_un_ok c _ _ E T A v x Hv).
  - by_check c I simd_int (fun c => chk_un c MSqrt (fun i =>
      TUn UCvtFI (TUn (USqrt KF32) (TUn UCvtIF (TVal i))))).
    exact (chk_un_ok c _ _ E T A v x Hv).
Qed.

(** sqrt(8) is 2 on the portable classes and 3 on the others. *)
Theorem sv_sqrt_int_refuted :
  forall c1 c2, In c1 (of_kind KI32 scalar_classes) -> In c2 simd_int ->
  forall v1 v2, is_vec c1 v1 (fun _ => 8) -> is_vec c2 v2 (fun _ => 8) ->
  returns_vec c1 (sv_un Z_machine c1 MSqrt v1) (fun _ => 8) (fun _ => 2) /\
  returns_vec c2 (sv_un Z_machine c2 MSqrt v2) (fun _ => 8) (fun _ => 3).
Proof.
  intros c1 c2 I1 I2 v1 v2 H1 H2.
  assert (X1 := proj1 (sv_sqrt_int c1 Z Z_machine v1 _ H1) I1).
  assert (X2 := proj2 (sv_sqrt_int c2 Z Z_machine v2 _ H2) I2).
  cbn beta in X1, X2.
  replace (a_un Z_machine UDToInt _) with 2 in X1 by (vm_compute; reflexivity).
  replace (a_un Z_machine UCvtFI _) with 3 in X2 by (vm_compute; reflexivity).
  split; assumption.
Qed.

Example simd_int_nonempty : length simd_int = 13%nat /\ length exact_div = 50%nat /\
  length exact_sqrt = 54%nat /\ length all_classes = 86%nat.
Proof. vm_compute. repeat split. Qed.

(** NEON: an estimate of 1 / sqrt(x), zeroed if infinite, one or two Newton
    steps, times x.  QPX: vec_swsqrt. *)
Definition rsqrt_guess {T : Type} (A : alg T) (x : T) : T :=
  let e := a_un A (UApx Arsqrte) x in
  a_bin A BAnd (a_un A UBitNot (a_un A (UFill KF32) (a_bin A BEqBits (a_lit A 0x7f800000) e))) e.
Definition rsqrt_step {T : Type} (A : alg T) (x r : T) : T :=
  a_bin A (BMul KF32) (a_bin A BRsqrts (a_bin A (BMul KF32) r r) x) r.

Theorem sv_sqrt_neon : forall c, In c neon_classes ->
  forall (T : Type) (A : alg T) v x, is_vec c v x ->
  returns_vec c (sv_un A c MSqrt v) x (fun i =>
    a_bin A (BMul KF32) (x i) (Nat.iter (neon_steps c) (rsqrt_step A (x i)) (rsqrt_guess A (x i)))).
Proof.
  intros c I T A v x Hv.
  by_check c I neon_classes (fun c => chk_un c MSqrt (fun i =>
    TBin (BMul KF32) (TVal i)
      (Nat.iter (neon_steps c) (rsqrt_step talg (TVal i)) (rsqrt_guess talg (TVal i))))).
  destruct (chk_un_ok c _ _ E T A v x Hv) as [r [u [H1 [H2 [H3 H4]]]]].
  exists r, u. repeat (split; [assumption|]). split; [|exact H4].
  eapply is_vec_ext; [|exact H3]. intros i _.
  cbn [teval vals g_val]. f_equal. clear E H3.
  induction (neon_steps c) as [|n IH]; [reflexivity|].
  change (Nat.iter (S n) (rsqrt_step A (x i)) (rsqrt_guess A (x i))) with
    (rsqrt_step A (x i) (Nat.iter n (rsqrt_step A (x i)) (rsqrt_guess A (x i)))).
  rewrite <- IH. reflexivity.
Qed.

Theorem sv_sqrt_qpx : forall c, In c qpx_classes ->
  forall (T : Type) (A : alg T) v x, is_vec c v x ->
  returns_vec c (sv_un A c MSqrt v) x (fun i => a_un A (UApx Aswsqrt) (x i)).
Proof.
  intros c I T A v x Hv.
  by_check c I qpx_classes (fun c => chk_un c MSqrt (fun i => TUn (UApx Aswsqrt) (TVal i))).
  exact (chk_un_ok c _ _ E T A v x Hv).
Qed.

(** a / sqrt(b) and a /= sqrt(b) where the class has its own: a * rsqrt(b). *)
Definition rsqrt_div : list (cls * apx) :=
  map (fun c => (c, Arsqrt)) (of_kind KF32 (sse_classes ++ avx_classes)) ++
  map (fun c => (c, Arsqrt14)) (of_kind KF32 avx512_classes) ++
  map (fun c => (c, Arsqrt23)) (of_kind KF32 mic_classes) ++
  map (fun c => (c, Aqrsqrte)) qpx_classes.
Definition rsqrt_div_int : list (cls * apx) :=
  map (fun c => (c, Arsqrt)) (of_kind KI32 (sse_classes ++ avx_classes)) ++
  map (fun c => (c, Arsqrt14)) (of_kind KI32 avx512_classes).

Theorem sv_div_by_sqrt : forall c p, In (c, p) rsqrt_div ->
  forall (T : Type) (A : alg T) v w x y, is_vec c v x -> is_vec c w y ->
  let q i := a_bin A (BMul (c_kind c)) (x i) (a_un A (UApx p) (y i)) in
  returns_vec c (sv_bin A c MDivSqrt v w) x q /\ sets_vec c (sv_bin A c MDivEqSqrt v w) q.
Proof.
  intros c p I T A v w x y Hv Hw q.
  by_check (c, p) I rsqrt_div (fun cp : cls * apx =>
    let q i := TBin (BMul (c_kind (fst cp))) (TVal i) (TUn (UApx (snd cp)) (TOth i)) in
    chk_bin (fst cp) MDivSqrt q && chk_set (fst cp) MDivEqSqrt q).
  cbn [fst snd] in E. rewrite !andb_true_iff in E. destruct E as [E1 E2].
  split; [exact (chk_bin_ok c _ _ E1 T A v w x y Hv Hw)|exact (chk_set_ok c _ _ E2 T A v w x y Hv Hw)].
Qed.

Theorem sv_div_by_sqrt_int : forall c p, In (c, p) rsqrt_div_int ->
  forall (T : Type) (A : alg T) v w x y, is_vec c v x -> is_vec c w y ->
  let q i := a_un A UCvtFI (a_bin A (BMul KF32) (a_un A UCvtIF (x i))
                                   (a_un A (UApx p) (a_un A UCvtIF (y i)))) in
  returns_vec c (sv_bin A c MDivSqrt v w) x q /\ sets_vec c (sv_bin A c MDivEqSqrt v w) q.
Proof.
  intros c p I T A v w x y Hv Hw q.
  by_check (c, p) I rsqrt_div_int (fun cp : cls * apx =>
    let q i := TUn UCvtFI (TBin (BMul KF32) (TUn UCvtIF (TVal i))
                 (TUn (UApx (snd cp)) (TUn UCvtIF (TOth i)))) in
    chk_bin (fst cp) MDivSqrt q && chk_set (fst cp) MDivEqSqrt q).
  cbn [fst snd] in E. rewrite !andb_true_iff in E. destruct E as [E1 E2].
  split; [exact (chk_bin_ok c _ _ E1 T A v w x y Hv Hw)|exact (chk_set_ok c _ _ E2 T A v w x y Hv Hw)].
Qed.

(** Constructing a vector from sqrt(w) (a sqrt_reference) gives what w.sqrt()
    returns, in every class that has such a constructor. *)
Definition with_sqrt_ref : list cls :=
  of_kind KF32 (sse_classes ++ avx_classes ++ avx512_classes ++ mic_classes) ++ simd_int ++ qpx_classes.

Theorem sv_from_sqrt : forall c, In c with_sqrt_ref ->
  forall (T : Type) (A : alg T) w y, is_vec c w y ->
  exists r1 r2 u, sv_of_sqrt A c w = Some r1 /\ sv_un A c MSqrt w = Some r2 /\
    r_ret r2 = RVec u /\ r_val r1 = u /\ r_reads r1 = [] /\ r_writes r1 = [].
Proof.
  intros c I T A w y Hw.
  by_check c I with_sqrt_ref (fun c => arity_ok c &&
    match sv_of_sqrt talg c (lanes_of c TOth), sv_un talg c MSqrt (lanes_of c TOth) with
    | Some r1, Some r2 => match r_ret r2 with RVec u => vec_eqb (r_val r1) u &&
        list_eqb addr_eqb (r_reads r1) [] && list_eqb write_eqb (r_writes r1) [] | _ => false end
    | _, _ => false end).
  apply andb_true_iff in E as [E1 E2]. apply arity_ok_eq in E1.
  apply is_vec_regs in Hw; [|assumption]. subst w.
  assert (L1 := lift_of_sqrt A c (vals A y y y (a_undef A))).
  assert (L2 : sv_un A c MSqrt (regs (c_nreg c) (c_lanes c) y) =
     option_map (map_result (teval A (vals A y y y (a_undef A))))
       (sv_un talg c MSqrt (regs (c_nreg c) (c_lanes c) TOth))).
  { unfold sv_un. rewrite <- (call_meth_map talg A _ (teval_hom A _)). f_equal.
    unfold map_call; cbn. now rewrite map_regs. }
  cbn [g_oth vals] in L1. unfold lanes_of in E2.
  destruct (sv_of_sqrt talg c _) as [r1|]; [|discriminate].
  destruct (sv_un talg c MSqrt _) as [r2|]; [|discriminate].
  destruct (r_ret r2) as [| |u] eqn:R; try discriminate.
  rewrite !andb_true_iff in E2. destruct E2 as [[E2 E3] E4]. apply vec_eqb_eq in E2.
  apply (list_eqb_eq _ _ addr_eqb_eq) in E3. apply (list_eqb_eq _ _ write_eqb_eq) in E4.
  cbn [option_map] in L1, L2. eexists; eexists; eexists.
  split; [exact L1|]. split; [exact L2|]. cbn [map_result r_ret r_val r_reads r_writes].
  rewrite R, E2, E3, E4. repeat split.
Qed.

(** sqrt(a) / b: correctly rounded on SSE float. *)
Theorem sv_sqrt_over : forall c, In c (of_kind KF32 sse_classes) ->
  forall (T : Type) (A : alg T) w d y z, is_vec c w y -> is_vec c d z ->
  returns_vec c (sv_sqrt_div A c w d) (fun i => a_un A (USqrt KF32) (y i))
    (fun i => a_bin A (BDiv KF32) (a_un A (USqrt KF32) (y i)) (z i)).
Proof.
  intros c I T A w d y z Hw Hd.
  by_check c I (of_kind KF32 sse_classes) (fun c =>
    chk_of_sqrt c (fun i => TUn (USqrt KF32) (TOth i)) &&
    chk_bin c MDiv (fun i => TBin (BDiv KF32) (TVal i) (TOth i))).
  apply andb_true_iff in E as [E1 E2]. unfold sv_sqrt_div.
  destruct (chk_of_sqrt_ok c _ E1 T A w y Hw) as [r [-> [_ [V _]]]].
  exact (chk_bin_ok c _ _ E2 T A _ d _ z V Hd).
Qed.

(** Arithmetic does not depend on the instruction set: two classes of the same
    element type and arity compute the same lanes. *)
Theorem sv_arith_portable : forall m me o, arith m me o ->
  forall c1 c2, In c1 all_classes -> In c2 all_classes -> shape c1 = shape c2 ->
  forall (T : Type) (A : alg T) v1 w1 v2 w2,
  (exists x y, is_vec c1 v1 x /\ is_vec c1 w1 y) ->
  (exists x y, is_vec c2 v2 x /\ is_vec c2 w2 y) ->
  concat v1 = concat v2 -> concat w1 = concat w2 ->
  exists r1 r2 u1 u2, sv_bin A c1 m v1 w1 = Some r1 /\ sv_bin A c2 m v2 w2 = Some r2 /\
    r_ret r1 = RVec u1 /\ r_ret r2 = RVec u2 /\ concat u1 = concat u2.
Proof.
  intros m me o H c1 c2 I1 I2 S T A v1 w1 v2 w2 [x1 [y1 [X1 Y1]]] [x2 [y2 [X2 Y2]]] V W.
  unfold shape in S. injection S as SK SA.
  assert (X2' : is_vec c2 v2 x1).
  { destruct X1 as [_ [_ X1]]. destruct X2 as [L [F X2]]. repeat split; try assumption.
    now rewrite <- SA, <- X1, V. }
  assert (Y2' : is_vec c2 w2 y1).
  { destruct Y1 as [_ [_ Y1]]. destruct Y2 as [L [F Y2]]. repeat split; try assumption.
    now rewrite <- SA, <- Y1, W. }
  destruct (sv_arith_lanewise m me o H c1 I1 T A v1 w1 x1 y1 X1 Y1) as [r1 [u1 [E1 [R1 [[_ [_ U1]] _]]]]].
  destruct (sv_arith_lanewise m me o H c2 I2 T A v2 w2 x1 y1 X2' Y2') as [r2 [u2 [E2 [R2 [[_ [_ U2]] _]]]]].
  exists r1, r2, u1, u2. repeat (split; [assumption|]). now rewrite U1, U2, SK, SA.
Qed.

Example portable_case :
  In cls_sse_float_8_41 all_classes /\ In cls_avx_float_8_2 all_classes /\
  shape cls_sse_float_8_41 = shape cls_avx_float_8_2 /\
  is_vec cls_sse_float_8_41 [[1; 2; 3; 4]; [5; 6; 7; 8]] (fun i => Z.of_nat i + 1) /\
  is_vec cls_avx_float_8_2 [[1; 2; 3; 4; 5; 6; 7; 8]] (fun i => Z.of_nat i + 1).
Proof.
  split; [|split; [|split; [reflexivity|split; repeat constructor]]].
  - change cls_sse_float_8_41 with (nth 31 all_classes cls_sse_float_8_41). apply nth_In.
    apply Nat.ltb_lt. vm_compute. reflexivity.
  - change cls_avx_float_8_2 with (nth 53 all_classes cls_avx_float_8_2). apply nth_In.
    apply Nat.ltb_lt. vm_compute. reflexivity.
Qed.

Print Assumptions sv_arith_lanewise.
Print Assumptions sv_arith_self_lanewise.
Print Assumptions sv_arith_left_lanewise.
Print Assumptions sv_assign_lanewise.
Print Assumptions sv_assign_self_lanewise.
Print Assumptions sv_qpx_mul_assign.
Print Assumptions sv_qpx_mul_assign_refuted.
Print Assumptions sv_div_lanewise.
Print Assumptions sv_div_self_lanewise.
Print Assumptions sv_div_left_lanewise.
Print Assumptions sv_div_reciprocal.
Print Assumptions sv_div_neon.
Print Assumptions sv_div_qpx.
Print Assumptions sv_div_int_simd.
Print Assumptions sv_div_int_simd_refuted.
Print Assumptions sv_sqrt_lanewise.
Print Assumptions sv_sqrt_int.
Print Assumptions sv_sqrt_int_refuted.
Print Assumptions sv_sqrt_neon.
Print Assumptions sv_sqrt_qpx.
Print Assumptions sv_div_by_sqrt.
Print Assumptions sv_div_by_sqrt_int.
Print Assumptions sv_from_sqrt.
Print Assumptions sv_sqrt_over.
Print Assumptions sv_arith_portable.
