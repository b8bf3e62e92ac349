(** Symbolic checks and what they prove. *)
From Coq Require Import String ZArith Bool List Lia.
From Verif Require Import ShortVecLang ShortVecClass ShortVecSym ShortVecNat ShortVecApi
  SpecShortVec ShortVecLift.
Import ListNotations.
Local Open Scope Z_scope.

Definition arity_ok (c : cls) : bool := Nat.eqb (c_arity c) (c_nreg c * c_lanes c).

Lemma arity_ok_eq : forall c, arity_ok c = true -> c_arity c = (c_nreg c * c_lanes c)%nat.
Proof. intros c E. now apply Nat.eqb_eq. Qed.

Definition lanes_of (c : cls) {X : Type} (f : nat -> X) : list (list X) :=
  regs (c_nreg c) (c_lanes c) f.

(** Valuation giving val, other, the mask and the scalar argument. *)
Definition vals {T : Type} (A : alg T) (x y m : nat -> T) (t : T) : asg T :=
  mkAsg x y m m y t.

Ltac reg H := apply is_vec_regs in H; [|assumption]; subst.

Section Checks.
Context (c : cls).
Notation RV := (lanes_of c TVal).
Notation RO := (lanes_of c TOth).

(** a op b *)
Definition chk_bin (m : mid) (F : nat -> term) : bool :=
  arity_ok c && is_res (sv_bin talg c m RV RO) (mkRes RV (RVec (lanes_of c F)) [] []).

Lemma chk_bin_ok : forall m F, chk_bin m F = true ->
  forall (T : Type) (A : alg T) v w x y, is_vec c v x -> is_vec c w y ->
  returns_vec c (sv_bin A c m v w) x
    (fun i => teval A (vals A x y x (a_undef A)) (F i)).
Proof.
  intros m F E T A v w x y Hv Hw. apply andb_true_iff in E as [E1 E2].
  apply arity_ok_eq in E1. apply is_res_eq in E2. reg Hv. reg Hw.
  set (g := vals A x y x (a_undef A)).
  assert (L := lift_bin A c g m). cbn [g g_val g_oth vals] in L.
  unfold lanes_of in E2. rewrite E2 in L. cbn [option_map] in L.
  eexists; eexists. refine (conj L (conj eq_refl (conj _ (conj _ (conj eq_refl eq_refl)))));
    cbn [r_val map_result]; rewrite map_regs; now apply regs_is_vec.
Qed.

(** a op= b *)
Definition chk_set (m : mid) (F : nat -> term) : bool :=
  arity_ok c && is_res (sv_bin talg c m RV RO) (mkRes (lanes_of c F) RVoid [] []).

Lemma chk_set_ok : forall m F, chk_set m F = true ->
  forall (T : Type) (A : alg T) v w x y, is_vec c v x -> is_vec c w y ->
  sets_vec c (sv_bin A c m v w) (fun i => teval A (vals A x y x (a_undef A)) (F i)).
Proof.
  intros m F E T A v w x y Hv Hw. apply andb_true_iff in E as [E1 E2].
  apply arity_ok_eq in E1. apply is_res_eq in E2. reg Hv. reg Hw.
  assert (L := lift_bin A c (vals A x y x (a_undef A)) m). cbn [g_val g_oth vals] in L.
  unfold lanes_of in E2. rewrite E2 in L. cbn [option_map] in L.
  eexists. refine (conj L (conj eq_refl (conj _ (conj eq_refl eq_refl)))).
  cbn [r_val map_result]. rewrite map_regs. now apply regs_is_vec.
Qed.

(** a op a and a op= a *)
Definition chk_bin_self (m : mid) (F : nat -> term) : bool :=
  arity_ok c && is_res (sv_self talg c m RV) (mkRes RV (RVec (lanes_of c F)) [] []).

Lemma chk_bin_self_ok : forall m F, chk_bin_self m F = true ->
  forall (T : Type) (A : alg T) v x, is_vec c v x ->
  returns_vec c (sv_self A c m v) x (fun i => teval A (vals A x x x (a_undef A)) (F i)).
Proof.
  intros m F E T A v x Hv. apply andb_true_iff in E as [E1 E2].
  apply arity_ok_eq in E1. apply is_res_eq in E2. reg Hv.
  assert (L := lift_self A c (vals A x x x (a_undef A)) m). cbn [g_val vals] in L.
  unfold lanes_of in E2. rewrite E2 in L. cbn [option_map] in L.
  eexists; eexists. refine (conj L (conj eq_refl (conj _ (conj _ (conj eq_refl eq_refl)))));
    cbn [r_val map_result]; rewrite map_regs; now apply regs_is_vec.
Qed.

Definition chk_set_self (m : mid) (F : nat -> term) : bool :=
  arity_ok c && is_res (sv_self talg c m RV) (mkRes (lanes_of c F) RVoid [] []).

Lemma chk_set_self_ok : forall m F, chk_set_self m F = true ->
  forall (T : Type) (A : alg T) v x, is_vec c v x ->
  sets_vec c (sv_self A c m v) (fun i => teval A (vals A x x x (a_undef A)) (F i)).
Proof.
  intros m F E T A v x Hv. apply andb_true_iff in E as [E1 E2].
  apply arity_ok_eq in E1. apply is_res_eq in E2. reg Hv.
  assert (L := lift_self A c (vals A x x x (a_undef A)) m). cbn [g_val vals] in L.
  unfold lanes_of in E2. rewrite E2 in L. cbn [option_map] in L.
  eexists. refine (conj L (conj eq_refl (conj _ (conj eq_refl eq_refl)))).
  cbn [r_val map_result]. rewrite map_regs. now apply regs_is_vec.
Qed.

(** a.sqrt() *)
Definition chk_un (m : mid) (F : nat -> term) : bool :=
  arity_ok c && is_res (sv_un talg c m RV) (mkRes RV (RVec (lanes_of c F)) [] []).

Lemma chk_un_ok : forall m F, chk_un m F = true ->
  forall (T : Type) (A : alg T) v x, is_vec c v x ->
  returns_vec c (sv_un A c m v) x (fun i => teval A (vals A x x x (a_undef A)) (F i)).
Proof.
  intros m F E T A v x Hv. apply andb_true_iff in E as [E1 E2].
  apply arity_ok_eq in E1. apply is_res_eq in E2. reg Hv.
  assert (L := lift_un A c (vals A x x x (a_undef A)) m). cbn [g_val vals] in L.
  unfold lanes_of in E2. rewrite E2 in L. cbn [option_map] in L.
  eexists; eexists. refine (conj L (conj eq_refl (conj _ (conj _ (conj eq_refl eq_refl)))));
    cbn [r_val map_result]; rewrite map_regs; now apply regs_is_vec.
Qed.

(** Constructors *)
Definition chk_scalar : bool :=
  arity_ok c && is_res (sv_scalar talg c TArg) (mkRes (lanes_of c (fun _ => TArg)) RVoid [] []).

Lemma chk_scalar_ok : chk_scalar = true ->
  forall (T : Type) (A : alg T) t, sets_vec c (sv_scalar A c t) (fun _ => t).
Proof.
  intros E T A t. apply andb_true_iff in E as [E1 E2].
  apply arity_ok_eq in E1. apply is_res_eq in E2.
  assert (L := lift_scalar A c (vals A (fun _ => t) (fun _ => t) (fun _ => t) t)).
  cbn [g_arg vals] in L. unfold lanes_of in E2. rewrite E2 in L. cbn [option_map] in L.
  eexists. refine (conj L (conj eq_refl (conj _ (conj eq_refl eq_refl)))).
  cbn [r_val map_result]. rewrite map_regs. now apply regs_is_vec.
Qed.

Definition chk_regs : bool :=
  arity_ok c && is_res (sv_regs talg c (lanes_of c TPar)) (mkRes (lanes_of c TPar) RVoid [] []).

Lemma chk_regs_ok : chk_regs = true ->
  forall (T : Type) (A : alg T) v x, is_vec c v x -> sets_vec c (sv_regs A c v) x.
Proof.
  intros E T A v x Hv. apply andb_true_iff in E as [E1 E2].
  apply arity_ok_eq in E1. apply is_res_eq in E2. reg Hv.
  assert (L := lift_regs A c (vals A x x x (a_undef A))).
  cbn [g_par vals] in L. unfold lanes_of in E2. rewrite E2 in L. cbn [option_map] in L.
  eexists. refine (conj L (conj eq_refl (conj _ (conj eq_refl eq_refl)))).
  cbn [r_val map_result]. rewrite map_regs. now apply regs_is_vec.
Qed.

Definition chk_of_sqrt (F : nat -> term) : bool :=
  arity_ok c && is_res (sv_of_sqrt talg c RO) (mkRes (lanes_of c F) RVoid [] []).

Lemma chk_of_sqrt_ok : forall F, chk_of_sqrt F = true ->
  forall (T : Type) (A : alg T) w y, is_vec c w y ->
  sets_vec c (sv_of_sqrt A c w) (fun i => teval A (vals A y y y (a_undef A)) (F i)).
Proof.
  intros F E T A v x Hv. apply andb_true_iff in E as [E1 E2].
  apply arity_ok_eq in E1. apply is_res_eq in E2. reg Hv.
  assert (L := lift_of_sqrt A c (vals A x x x (a_undef A))).
  cbn [g_oth vals] in L. unfold lanes_of in E2. rewrite E2 in L. cbn [option_map] in L.
  eexists. refine (conj L (conj eq_refl (conj _ (conj eq_refl eq_refl)))).
  cbn [r_val map_result]. rewrite map_regs. now apply regs_is_vec.
Qed.

(** a[i] *)
Definition chk_index : bool :=
  arity_ok c &&
  forallb (fun i => is_res (sv_index talg c RV (Z.of_nat i)) (mkRes RV (RVal (VReg [TVal i])) [] []))
          (seq 0 (c_arity c)).

Lemma chk_index_ok : chk_index = true ->
  forall (T : Type) (A : alg T) v x i, is_vec c v x -> (i < c_arity c)%nat ->
  returns_elem c (sv_index A c v (Z.of_nat i)) x (x i).
Proof.
  intros E T A v x i Hv Hi. apply andb_true_iff in E as [E1 E2].
  apply arity_ok_eq in E1. rewrite forallb_forall in E2.
  specialize (E2 i ltac:(apply in_seq; lia)). apply is_res_eq in E2. reg Hv.
  assert (L := lift_index A c (vals A x x x (a_undef A)) (Z.of_nat i)). cbn [g_val vals] in L.
  unfold lanes_of in E2. rewrite E2 in L. cbn [option_map] in L.
  eexists. refine (conj L (conj eq_refl (conj _ (conj eq_refl eq_refl)))).
  cbn [r_val map_result]. rewrite map_regs. now apply regs_is_vec.
Qed.

(** ** Memory *)

Definition miss : list Z := zseq 0 (Z.to_nat (64 / esize (c_kind c))).

Lemma in_miss : forall mis, mis_ok c mis -> In mis miss.
Proof.
  unfold mis_ok, miss. intros mis H.
  assert (G : forall n a m, a <= m < a + Z.of_nat n -> In m (zseq a n)).
  { intros n a m L. apply in_map_iff. exists (Z.to_nat (m - a)). split; [lia|].
    apply in_seq. lia. }
  apply G. destruct (c_kind c); cbn in *; lia.
Qed.

Definition chk_load (m : mid) (al : Z) : bool :=
  arity_ok c &&
  forallb (fun mis => negb ((mis * esize (c_kind c)) mod al =? 0) ||
     is_res (sv_mem talg c m RV mis)
       (mkRes (lanes_of c (fun i => TData (Z.of_nat i))) RVoid
              (map (fun i => AData (Z.of_nat i)) (seq 0 (c_arity c))) [])) miss.

Lemma chk_load_ok : forall m al, chk_load m al = true ->
  forall (T : Type) (A : alg T) v x mis, is_vec c v x -> mis_ok c mis -> aligned_to c al mis ->
  loads c (sv_mem A c m v mis) (a_data A).
Proof.
  intros m al E T A v x mis Hv Hm Ha. apply andb_true_iff in E as [E1 E2].
  apply arity_ok_eq in E1. rewrite forallb_forall in E2.
  specialize (E2 mis (in_miss _ Hm)). unfold aligned_to in Ha. rewrite Ha in E2. cbn [negb Z.eqb orb] in E2.
  apply is_res_eq in E2. reg Hv.
  assert (L := lift_mem A c (vals A x x x (a_undef A)) m mis). cbn [g_val vals] in L.
  unfold lanes_of in E2. rewrite E2 in L. cbn [option_map] in L.
  eexists. refine (conj L (conj eq_refl (conj _ (conj _ eq_refl)))).
  - cbn [r_val map_result]. rewrite map_regs. now apply regs_is_vec.
  - cbn [r_reads map_result]. rewrite map_map. reflexivity.
Qed.

Definition chk_store (m : mid) (al : Z) : bool :=
  arity_ok c &&
  forallb (fun mis => negb ((mis * esize (c_kind c)) mod al =? 0) ||
     is_res (sv_mem talg c m RV mis)
       (mkRes RV RVoid [] (map (fun i => (AData (Z.of_nat i), TVal i)) (seq 0 (c_arity c))))) miss.

Lemma chk_store_ok : forall m al, chk_store m al = true ->
  forall (T : Type) (A : alg T) v x mis, is_vec c v x -> mis_ok c mis -> aligned_to c al mis ->
  stores c (sv_mem A c m v mis) x.
Proof.
  intros m al E T A v x mis Hv Hm Ha. apply andb_true_iff in E as [E1 E2].
  apply arity_ok_eq in E1. rewrite forallb_forall in E2.
  specialize (E2 mis (in_miss _ Hm)). unfold aligned_to in Ha. rewrite Ha in E2. cbn [negb Z.eqb orb] in E2.
  apply is_res_eq in E2. reg Hv.
  assert (L := lift_mem A c (vals A x x x (a_undef A)) m mis). cbn [g_val vals] in L.
  unfold lanes_of in E2. rewrite E2 in L. cbn [option_map] in L.
  eexists. refine (conj L (conj eq_refl (conj _ (conj eq_refl _)))).
  - cbn [r_val map_result]. rewrite map_regs. now apply regs_is_vec.
  - cbn [r_writes map_result]. rewrite map_map. reflexivity.
Qed.

(** The call goes wrong (alignment). *)
Definition chk_fail (m : mid) (al : Z) : bool :=
  arity_ok c &&
  forallb (fun mis => ((mis * esize (c_kind c)) mod al =? 0) ||
     match sv_mem talg c m RV mis with None => true | Some _ => false end) miss.

Lemma chk_fail_ok : forall m al, chk_fail m al = true ->
  forall (T : Type) (A : alg T) v x mis, is_vec c v x -> mis_ok c mis -> ~ aligned_to c al mis ->
  sv_mem A c m v mis = None.
Proof.
  intros m al E T A v x mis Hv Hm Ha. apply andb_true_iff in E as [E1 E2].
  apply arity_ok_eq in E1. rewrite forallb_forall in E2.
  specialize (E2 mis (in_miss _ Hm)). apply orb_true_iff in E2 as [E2|E2].
  { apply Z.eqb_eq in E2. contradiction. }
  destruct (sv_mem talg c m RV mis) eqn:E3; [discriminate|]. reg Hv.
  assert (L := lift_mem A c (vals A x x x (a_undef A)) m mis). cbn [g_val vals] in L.
  unfold lanes_of in E3. now rewrite E3 in L.
Qed.

(** ** gather and scatter *)

Definition omiss : list Z := zseq 0 16.

Lemma in_omiss : forall m, omis_ok m -> In m omiss.
Proof.
  unfold omis_ok, omiss. intros m H. cbn. lia.
Qed.

Definition gather_reads (q : bool) (t : address term) : bool :=
  existsb (fun i => addr_eqb t (AOff (Z.of_nat i)) || addr_eqb t (APtrAt (TOff (Z.of_nat i)))
                    || (q && addr_eqb t (APtrAt (TUn UQext (TOff (Z.of_nat i))))))
          (seq 0 (c_arity c)).

Definition gather_lane (q : bool) (i : nat) (t : term) : bool :=
  term_eqb t (TPtr (TOff (Z.of_nat i))) || (q && term_eqb t (TPtr (TUn UQext (TOff (Z.of_nat i))))).

(** with q the offsets may have gone through an undersized register *)
Definition chk_gather (q : bool) (al : Z) : bool :=
  arity_ok c &&
  forallb (fun mis => negb ((mis * 4) mod al =? 0) ||
    match sv_idx talg c MGather RV mis with
    | Some r =>
        Nat.eqb (length (r_val r)) (c_nreg c) &&
        forallb (fun l => Nat.eqb (length l) (c_lanes c)) (r_val r) &&
        forallb (fun p => gather_lane q (fst p) (snd p))
                (combine (seq 0 (c_arity c)) (concat (r_val r))) &&
        rvalue_eqb (r_ret r) RVoid && list_eqb write_eqb (r_writes r) [] &&
        forallb (gather_reads q) (r_reads r)
    | None => false
    end) omiss.

Lemma combine_lanes : forall (X Y : Type) (h : X -> Y) (x : nat -> Y) l n,
  length l = n -> (forall p, In p (combine (seq 0 n) l) -> h (snd p) = x (fst p)) ->
  map h l = map x (seq 0 n).
Proof.
  intros X Y h x l n. generalize 0%nat. revert n.
  induction l as [|t l IH]; intros n s L P; cbn in L; subst n; [reflexivity|].
  cbn [seq map combine length] in *. f_equal.
  - apply (P (s, t)). now left.
  - apply IH; [reflexivity|]. intros p I. apply P. now right.
Qed.

Lemma concat_length_all : forall (X : Type) l (v : list (list X)),
  Forall (fun r => length r = l) v -> length (concat v) = (length v * l)%nat.
Proof.
  intros X l v F. induction F; cbn; [reflexivity|]. rewrite app_length. lia.
Qed.

Lemma chk_gather_ok : forall q al, chk_gather q al = true ->
  forall (T : Type) (A : alg T) v x omis, is_vec c v x -> omis_ok omis -> (omis * 4) mod al = 0 ->
  (q = true -> forall i, (i < c_arity c)%nat ->
     a_un A UQext (a_off A (Z.of_nat i)) = a_off A (Z.of_nat i)) ->
  gathers c (sv_idx A c MGather v omis) (a_off A) (a_ptr A).
Proof.
  intros q al E T A v x omis Hv Hm Ha Hq. apply andb_true_iff in E as [E1 E2].
  apply arity_ok_eq in E1. rewrite forallb_forall in E2.
  specialize (E2 omis (in_omiss _ Hm)). rewrite Ha in E2. cbn [negb Z.eqb orb] in E2. reg Hv.
  assert (L := lift_idx A c (vals A x x x (a_undef A)) MGather omis). cbn [g_val vals] in L.
  unfold lanes_of in E2. set (h := teval A (vals A x x x (a_undef A))) in *.
  destruct (sv_idx talg c MGather (regs (c_nreg c) (c_lanes c) TVal) omis) as [r|];
    [|discriminate]. cbn [option_map] in L.
  rewrite !andb_true_iff in E2. destruct E2 as [[[[[E2 E3] E4] E5] E6] E7].
  apply Nat.eqb_eq in E2. apply rvalue_eqb_eq in E5.
  apply (list_eqb_eq _ _ write_eqb_eq) in E6.
  assert (F : Forall (fun l => length l = c_lanes c) (r_val r)).
  { apply Forall_forall. intros l I. rewrite forallb_forall in E3. now apply Nat.eqb_eq, E3. }
  rewrite forallb_forall in E4, E7.
  eexists. refine (conj L (conj _ (conj _ (conj _ _)))).
  - cbn [map_result r_ret]. now rewrite E5.
  - cbn [map_result r_writes]. now rewrite E6.
  - cbn [map_result r_val]. repeat apply conj.
    + now rewrite map_length.
    + apply Forall_forall. intros l I. apply in_map_iff in I as [l' [<- I]].
      rewrite map_length. rewrite Forall_forall in F. now apply F.
    + rewrite <- concat_map. apply combine_lanes.
      { rewrite (concat_length_all _ _ _ F). congruence. }
      intros [i t] I. specialize (E4 _ I). cbn [fst snd] in *. apply in_combine_l in I.
      apply in_seq in I. unfold gather_lane in E4. apply orb_true_iff in E4 as [E4|E4].
      * apply term_eqb_eq in E4. subst t. reflexivity.
      * apply andb_true_iff in E4 as [-> E4]. apply term_eqb_eq in E4. subst t.
        cbn [h teval]. rewrite Hq; auto. lia.
  - intros a I. cbn [map_result r_reads] in I. apply in_map_iff in I as [b [<- I]].
    specialize (E7 _ I). unfold gather_reads in E7. apply existsb_exists in E7 as [i [Ii E7]].
    apply in_seq in Ii. exists i. split; [lia|].
    rewrite !orb_true_iff in E7. destruct E7 as [[E7|E7]|E7].
    + apply addr_eqb_eq in E7. subst b. left. reflexivity.
    + apply addr_eqb_eq in E7. subst b. right. reflexivity.
    + apply andb_true_iff in E7 as [-> E7]. apply addr_eqb_eq in E7. subst b. right.
      cbn [map_addr teval h]. rewrite Hq; auto. lia.
Qed.

Definition scatter_reads (t : address term) : bool :=
  existsb (fun i => addr_eqb t (AOff (Z.of_nat i))) (seq 0 (c_arity c)).

Definition chk_scatter (al : Z) : bool :=
  arity_ok c &&
  forallb (fun mis => negb ((mis * 4) mod al =? 0) ||
    match sv_idx talg c MScatter RV mis with
    | Some r =>
        vec_eqb (r_val r) RV && rvalue_eqb (r_ret r) RVoid &&
        list_eqb write_eqb (r_writes r)
          (map (fun i => (APtrAt (TOff (Z.of_nat i)), TVal i)) (seq 0 (c_arity c))) &&
        forallb scatter_reads (r_reads r)
    | None => false
    end) omiss.

Lemma chk_scatter_ok : forall al, chk_scatter al = true ->
  forall (T : Type) (A : alg T) v x omis, is_vec c v x -> omis_ok omis -> (omis * 4) mod al = 0 ->
  scatters c (sv_idx A c MScatter v omis) (a_off A) x.
Proof.
  intros al E T A v x omis Hv Hm Ha. apply andb_true_iff in E as [E1 E2].
  apply arity_ok_eq in E1. rewrite forallb_forall in E2.
  specialize (E2 omis (in_omiss _ Hm)). rewrite Ha in E2. cbn [negb Z.eqb orb] in E2. reg Hv.
  assert (L := lift_idx A c (vals A x x x (a_undef A)) MScatter omis). cbn [g_val vals] in L.
  unfold lanes_of in E2. set (h := teval A (vals A x x x (a_undef A))) in *.
  destruct (sv_idx talg c MScatter (regs (c_nreg c) (c_lanes c) TVal) omis) as [r|];
    [|discriminate]. cbn [option_map] in L.
  rewrite !andb_true_iff in E2. destruct E2 as [[[E2 E3] E4] E5].
  apply vec_eqb_eq in E2. apply rvalue_eqb_eq in E3.
  apply (list_eqb_eq _ _ write_eqb_eq) in E4. rewrite forallb_forall in E5.
  eexists. refine (conj L (conj _ (conj _ (conj _ _)))).
  - cbn [map_result r_ret]. now rewrite E3.
  - cbn [map_result r_val]. rewrite E2, map_regs. now apply regs_is_vec.
  - cbn [map_result r_writes]. rewrite E4, map_map. reflexivity.
  - intros a I. cbn [map_result r_reads] in I. apply in_map_iff in I as [b [<- I]].
    specialize (E5 _ I). unfold scatter_reads in E5. apply existsb_exists in E5 as [i [Ii E5]].
    apply in_seq in Ii. exists i. split; [lia|]. apply addr_eqb_eq in E5. subst b. reflexivity.
Qed.

(** ** Comparisons *)

Definition mask_term (F : nat -> term) : rvalue term :=
  match c_mask c with
  | MInt _ => RVal (VBits (map (fun i => Some (F i)) (seq 0 (c_arity c))))
  | MVec => RVec (lanes_of c (fun i => TUn (UFill (c_kind c)) (F i)))
  | MReg => RVal (VReg (map (fun i => TUn (UFill (c_kind c)) (F i)) (seq 0 (c_arity c))))
  | MNone => RVoid
  end.

Definition mask_ok : bool :=
  match c_mask c with
  | MInt n => Nat.leb (c_arity c) n | MVec => true
  | MReg => Nat.eqb (c_nreg c) 1 | MNone => false end.

Definition chk_cmp (m : mid) (F : nat -> term) : bool :=
  arity_ok c && mask_ok && is_res (sv_bin talg c m RV RO) (mkRes RV (mask_term F) [] []).

Lemma chk_cmp_ok : forall m F, chk_cmp m F = true ->
  forall (T : Type) (A : alg T) v w x y, is_vec c v x -> is_vec c w y ->
  returns_mask A c (sv_bin A c m v w) x (fun i => teval A (vals A x y x (a_undef A)) (F i)).
Proof.
  intros m F E T A v w x y Hv Hw. unfold chk_cmp in E. rewrite !andb_true_iff in E. destruct E as [[E1 E3] E2].
  apply arity_ok_eq in E1. apply is_res_eq in E2. reg Hv. reg Hw.
  assert (L := lift_bin A c (vals A x y x (a_undef A)) m). cbn [g_val g_oth vals] in L.
  unfold lanes_of in E2. rewrite E2 in L. cbn [option_map] in L.
  eexists. refine (conj L (conj _ (conj _ (conj eq_refl eq_refl)))).
  - cbn [map_result r_ret]. unfold is_mask, mask_term, mask_ok in *.
    destruct (c_mask c) as [n| | |]; cbn [map_rvalue map_value]; [| | |discriminate].
    + split; [now apply Nat.leb_le|]. rewrite map_map. reflexivity.
    + eexists. split; [reflexivity|]. unfold lanes_of. rewrite map_regs. now apply regs_is_vec.
    + apply Nat.eqb_eq in E3. eexists. split; [reflexivity|]. rewrite map_map.
      repeat apply conj; [symmetry; exact E3| |].
      * constructor; [|constructor]. rewrite map_length, seq_length. rewrite E1, E3. lia.
      * cbn. rewrite app_nil_r. reflexivity.
  - cbn [r_val map_result]. rewrite map_regs. now apply regs_is_vec.
Qed.

(** ** blend *)

Definition chk_blend_int : bool :=
  arity_ok c &&
  is_res (sv_blend talg c RV (RVal (VBits (map (fun i => Some (TBit i)) (seq 0 (c_arity c))))) RO)
         (mkRes (lanes_of c (fun i => TSel (TBit i) (TOth i) (TVal i))) RVoid [] []).

Lemma chk_blend_int_ok : chk_blend_int = true ->
  forall (T : Type) (A : alg T) v w x y p, is_vec c v x -> is_vec c w y ->
  sets_vec c (sv_blend A c v (RVal (VBits (map (fun i => Some (p i)) (seq 0 (c_arity c))))) w)
             (fun i => a_sel A (p i) (y i) (x i)).
Proof.
  intros E T A v w x y p Hv Hw. apply andb_true_iff in E as [E1 E2].
  apply arity_ok_eq in E1. apply is_res_eq in E2. reg Hv. reg Hw.
  assert (L := lift_blend_int A c (vals A x y p (a_undef A)) (c_arity c)).
  cbn [g_val g_oth g_bit vals] in L.
  unfold lanes_of in E2. rewrite E2 in L. cbn [option_map] in L.
  eexists. refine (conj L (conj eq_refl (conj _ (conj eq_refl eq_refl)))).
  cbn [r_val map_result]. rewrite map_regs. now apply regs_is_vec.
Qed.

Definition blend_and (k : ekind) (i : nat) : term :=
  TBin BOr (TBin BAnd (TMsk i) (TOth i)) (TBin BAndNot (TMsk i) (TVal i)).
Definition blend_msb (k : ekind) (i : nat) : term :=
  TSel (TUn (UMsb k) (TMsk i)) (TOth i) (TVal i).

Definition chk_blend_vec (F : nat -> term) : bool :=
  arity_ok c &&
  is_res (sv_blend talg c RV (RVec (lanes_of c TMsk)) RO) (mkRes (lanes_of c F) RVoid [] []).

Lemma chk_blend_vec_ok : forall F, chk_blend_vec F = true ->
  forall (T : Type) (A : alg T) v w mv x y p, is_vec c v x -> is_vec c w y -> is_vec c mv p ->
  sets_vec c (sv_blend A c v (RVec mv) w)
             (fun i => teval A (vals A x y p (a_undef A)) (F i)).
Proof.
  intros F E T A v w mv x y p Hv Hw Hm. apply andb_true_iff in E as [E1 E2].
  apply arity_ok_eq in E1. apply is_res_eq in E2. reg Hv. reg Hw. reg Hm.
  assert (L := lift_blend_vec A c (vals A x y p (a_undef A))).
  cbn [g_val g_oth g_msk vals] in L.
  unfold lanes_of in E2. rewrite E2 in L. cbn [option_map] in L.
  eexists. refine (conj L (conj eq_refl (conj _ (conj eq_refl eq_refl)))).
  cbn [r_val map_result]. rewrite map_regs. now apply regs_is_vec.
Qed.

(** blend of every class that has one *)
Definition chk_blend : bool :=
  match c_mask c with
  | MInt n => Nat.leb (c_arity c) n && chk_blend_int
  | MVec => chk_blend_vec (blend_and (c_kind c)) || chk_blend_vec (blend_msb (c_kind c))
  | _ => false
  end.

Lemma sets_vec_ext : forall (T : Type) o (y z : nat -> T),
  (forall i, (i < c_arity c)%nat -> y i = z i) -> sets_vec c o y -> sets_vec c o z.
Proof.
  intros T o y z E [r [H1 [H2 [H3 H4]]]]. exists r. repeat (split; [assumption|]).
  split; [|exact H4]. now apply (is_vec_ext _ _ _ y).
Qed.

Lemma chk_blend_ok : chk_blend = true ->
  forall (T : Type) (A : alg T) truth full word, bit_laws A truth full word ->
  forall v w m x y p, is_vec c v x -> is_vec c w y -> is_mask A c m p ->
  (forall i, (i < c_arity c)%nat -> word (c_kind c) (x i) /\ word (c_kind c) (y i)) ->
  sets_vec c (sv_blend A c v m w) (fun i => if truth (p i) then y i else x i).
Proof.
  intros E T A truth full word B v w m x y p Hv Hw Hm W. unfold chk_blend in E.
  unfold is_mask in Hm. destruct (c_mask c) as [n| | |]; try discriminate.
  - destruct Hm as [_ ->]. apply andb_true_iff in E as [_ E].
    eapply sets_vec_ext; [|apply (chk_blend_int_ok E); eassumption].
    intros i _. apply (bl_sel _ _ _ _ B).
  - destruct Hm as [mv [-> Hm]]. apply orb_true_iff in E as [E|E].
    + eapply sets_vec_ext; [|apply (chk_blend_vec_ok _ E); eassumption].
      intros i Hi. destruct (W i Hi) as [Wx Wy].
      cbn [teval blend_and vals g_val g_oth g_msk].
      rewrite (bl_fill _ _ _ _ B).
      rewrite (bl_and_word _ _ _ _ B) by assumption.
      rewrite (bl_andnot_word _ _ _ _ B) by assumption.
      destruct (truth (p i)); [now apply (bl_or_left _ _ _ _ B)|now apply (bl_or_right _ _ _ _ B)].
    + eapply sets_vec_ext; [|apply (chk_blend_vec_ok _ E); eassumption].
      intros i Hi. cbn [teval blend_msb vals g_val g_oth g_msk].
      rewrite (bl_fill _ _ _ _ B), (bl_sel _ _ _ _ B), (bl_msb _ _ _ _ B). reflexivity.
Qed.

(** ** any *)

(** Lanes a mask-valued term is the disjunction of. *)
Fixpoint mset (t : term) : option (list nat) :=
  match t with
  | TVal i => Some [i]
  | TBin BOr a b =>
      match mset a, mset b with Some x, Some y => Some (x ++ y) | _, _ => None end
  | TBin BAnd a b =>
      if term_eqb a b then mset a else None
  | _ => None
  end.

Fixpoint cset (t : term) : option (list nat) :=
  match t with
  | TUn (UTruth k) a => if ekind_beq k (c_kind c) then mset a else None
  | TUn UNonZero a => mset a
  | TUn UNot (TUn UNot a) => cset a
  | TBin BLOr a b =>
      match cset a, cset b with Some x, Some y => Some (x ++ y) | _, _ => None end
  | _ => None
  end.

Lemma mset_ok : forall (T : Type) (A : alg T) truth full word, bit_laws A truth full word ->
  forall k (b : nat -> bool) g, (forall i, g_val g i = full k (b i)) ->
  forall t s, mset t = Some s -> teval A g t = full k (existsb b s).
Proof.
  intros T A truth full word B k b g G. induction t; cbn [mset]; intros s E; try discriminate.
  - injection E as <-. cbn. now rewrite G, orb_false_r.
  - destruct b0; try discriminate.
    + destruct (term_eqb t1 t2) eqn:Q; [|discriminate]. apply term_eqb_eq in Q. subst t2.
      cbn [teval]. rewrite (IHt1 _ E), (bl_and _ _ _ _ B). now rewrite andb_diag.
    + destruct (mset t1) as [x|]; [|discriminate]. destruct (mset t2) as [y|]; [|discriminate].
      injection E as <-. cbn [teval]. rewrite (IHt1 _ eq_refl), (IHt2 _ eq_refl), (bl_or _ _ _ _ B).
      now rewrite existsb_app.
Qed.

Fixpoint tsz (t : term) : nat :=
  match t with
  | TPtr t | TUn _ t => S (tsz t)
  | TBin _ t u => S (tsz t + tsz u)
  | TSel a t u => S (tsz a + tsz t + tsz u)
  | _ => 1%nat
  end.

Lemma cset_ok : forall (T : Type) (A : alg T) truth full word, bit_laws A truth full word ->
  forall (b : nat -> bool) g, (forall i, g_val g i = full (c_kind c) (b i)) ->
  forall t s, cset t = Some s -> truth (teval A g t) = existsb b s.
Proof.
  intros T A truth full word B b g G t.
  assert (N : forall n t, (tsz t <= n)%nat -> forall s, cset t = Some s ->
                          truth (teval A g t) = existsb b s).
  2: { exact (N _ t (le_n _)). }
  clear t. induction n as [|n IH]; intros t L; [destruct t; cbn in L; lia|].
  destruct t; cbn [cset]; intros s E; try discriminate.
  - destruct u; try discriminate.
    + destruct (ekind_beq k (c_kind c)) eqn:Q; [|discriminate]. apply internal_ekind_dec_bl in Q.
      subst k. cbn [teval]. rewrite (mset_ok _ _ _ _ _ B _ _ _ G _ _ E). apply (bl_truth _ _ _ _ B).
    + cbn [teval]. rewrite (mset_ok _ _ _ _ _ B _ _ _ G _ _ E). apply (bl_nonzero _ _ _ _ B).
    + destruct t; try discriminate. destruct u; try discriminate.
      cbn [teval]. rewrite !(bl_not _ _ _ _ B), negb_involutive. apply IH; [|exact E].
      cbn [tsz] in L. lia.
  - destruct b0; try discriminate.
    destruct (cset t1) as [x|] eqn:C1; [|discriminate]. destruct (cset t2) as [y|] eqn:C2; [|discriminate].
    injection E as <-. cbn [teval tsz] in *. rewrite (bl_lor _ _ _ _ B).
    rewrite (IH t1 ltac:(lia) _ C1), (IH t2 ltac:(lia) _ C2). now rewrite existsb_app.
Qed.

Definition same_set (a b : list nat) : bool :=
  forallb (fun i => existsb (Nat.eqb i) b) a && forallb (fun i => existsb (Nat.eqb i) a) b.

Lemma same_set_ok : forall a b, same_set a b = true ->
  forall f : nat -> bool, existsb f a = existsb f b.
Proof.
  intros a b E f. apply andb_true_iff in E as [E1 E2]. rewrite forallb_forall in E1, E2.
  apply eq_true_iff_eq. rewrite !existsb_exists. split; intros [i [I F]]; exists i; (split; [|exact F]).
  - specialize (E1 _ I). apply existsb_exists in E1 as [j [J Q]]. apply Nat.eqb_eq in Q. now subst.
  - specialize (E2 _ I). apply existsb_exists in E2 as [j [J Q]]. apply Nat.eqb_eq in Q. now subst.
Qed.

Definition chk_any : bool :=
  arity_ok c &&
  match sv_un talg c MAny RV with
  | Some r =>
      vec_eqb (r_val r) RV && list_eqb addr_eqb (r_reads r) [] && list_eqb write_eqb (r_writes r) [] &&
      match r_ret r with
      | RVal (VBits [Some t]) =>
          match cset t with Some s => same_set s (seq 0 (c_arity c)) | None => false end
      | _ => false
      end
  | None => false
  end.

Lemma chk_any_ok : chk_any = true ->
  forall (T : Type) (A : alg T) truth full word, bit_laws A truth full word ->
  forall v (b : nat -> bool), is_vec c v (fun i => full (c_kind c) (b i)) ->
  exists r t, sv_un A c MAny v = Some r /\ r_ret r = RVal (VBits [Some t]) /\
    truth t = existsb b (seq 0 (c_arity c)) /\
    is_vec c (r_val r) (fun i => full (c_kind c) (b i)) /\ r_reads r = [] /\ r_writes r = [].
Proof.
  intros E T A truth full word B v b Hv. apply andb_true_iff in E as [E1 E2].
  apply arity_ok_eq in E1. reg Hv.
  set (x := fun i => full (c_kind c) (b i)).
  assert (L := lift_un A c (vals A x x x (a_undef A)) MAny). cbn [g_val vals] in L.
  unfold lanes_of in E2.
  destruct (sv_un talg c MAny (regs (c_nreg c) (c_lanes c) TVal)) as [r|]; [|discriminate].
  cbn [option_map] in L. rewrite !andb_true_iff in E2. destruct E2 as [[[E2 E3] E4] E5].
  apply vec_eqb_eq in E2. apply (list_eqb_eq _ _ addr_eqb_eq) in E3.
  apply (list_eqb_eq _ _ write_eqb_eq) in E4.
  destruct (r_ret r) as [|[|[|[t|] [|]]| |]|] eqn:R; try discriminate.
  destruct (cset t) as [s|] eqn:C; [|discriminate].
  eexists; eexists. refine (conj L (conj _ (conj _ (conj _ (conj _ _))))).
  - cbn [map_result r_ret]. rewrite R. cbn. reflexivity.
  - rewrite (cset_ok _ _ _ _ _ B b (vals A x x x (a_undef A)) (fun i => eq_refl) _ _ C). now apply same_set_ok.
  - cbn [map_result r_val]. rewrite E2, map_regs. now apply regs_is_vec.
  - cbn [map_result r_reads]. now rewrite E3.
  - cbn [map_result r_writes]. now rewrite E4.
Qed.

(** ** Printing *)

Definition item_eqb (a b : string + term) : bool :=
  match a, b with
  | inl s, inl t => String.eqb s t
  | inr s, inr t => term_eqb s t
  | _, _ => false
  end.

Lemma item_eqb_eq : forall a b, item_eqb a b = true -> a = b.
Proof.
  intros [s|s] [t|t] E; try discriminate; cbn in E.
  - apply String.eqb_eq in E. now subst.
  - apply term_eqb_eq in E. now subst.
Qed.

Definition chk_print : bool :=
  arity_ok c &&
  match sv_print talg c RV with
  | Some l => list_eqb item_eqb l
      (inl "["%string :: listing (map TVal (seq 0 (c_arity c))) ++ [inl "]"%string])
  | None => false
  end.

Lemma map_listing : forall (X Y : Type) (h : X -> Y) l,
  map (map_item h) (listing l) = listing (map h l).
Proof.
  intros X Y h l. induction l as [|t [|u r] IH]; [reflexivity|reflexivity|].
  cbn [listing map] in *. rewrite IH. reflexivity.
Qed.

Lemma chk_print_ok : chk_print = true ->
  forall (T : Type) (A : alg T) v x, is_vec c v x -> prints c (sv_print A c v) x.
Proof.
  intros E T A v x Hv. apply andb_true_iff in E as [E1 E2]. apply arity_ok_eq in E1. reg Hv.
  assert (L := lift_print A c (vals A x x x (a_undef A))). cbn [g_val vals] in L.
  unfold sv_print in *. unfold lanes_of in E2. cbn [a_undef talg] in E2.
  destruct (call_print talg c _) as [l|]; [|discriminate].
  apply (list_eqb_eq _ _ item_eqb_eq) in E2. subst l. unfold prints. etransitivity; [exact L|].
  cbn [option_map map]. rewrite map_app, map_listing, map_map. reflexivity.
Qed.

(** ** Combinations *)

Lemma left_ok : forall m (o : bop), chk_scalar = true -> chk_bin m (fun i => TBin o (TVal i) (TOth i)) = true ->
  forall (T : Type) (A : alg T) t w y, is_vec c w y ->
  returns_vec c (sv_left A c m t w) (fun _ => t) (fun i => a_bin A o t (y i)).
Proof.
  intros m o E1 E2 T A t w y Hw. unfold sv_left.
  destruct (chk_scalar_ok E1 T A t) as [r [-> [_ [Hr _]]]].
  exact (chk_bin_ok _ _ E2 T A _ _ _ _ Hr Hw).
Qed.

Lemma any_ok : chk_any = true -> c_mask c = MVec ->
  forall (T : Type) (A : alg T) truth full word, bit_laws A truth full word ->
  forall m p, is_mask A c m p ->
  exists x, sv_any A c m = Some x /\
    holds A truth (c_kind c) x = Some (existsb (fun i => truth (p i)) (seq 0 (c_arity c))).
Proof.
  intros E M T A truth full word B m p Hm. unfold is_mask in Hm. rewrite M in Hm.
  destruct Hm as [v [-> Hv]]. cbn [sv_any].
  assert (Hv' : is_vec c v (fun i => full (c_kind c) (truth (p i)))).
  { eapply is_vec_ext; [|exact Hv]. intros i _. apply (bl_fill _ _ _ _ B). }
  destruct (chk_any_ok E T A truth full word B v (fun i => truth (p i)) Hv') as
    [r [t [-> [-> [Ht _]]]]].
  eexists. split; [reflexivity|]. cbn. now rewrite Ht, orb_false_r.
Qed.

Lemma any_int : forall n, c_mask c = MInt n ->
  forall (T : Type) (A : alg T) truth m p, is_mask A c m p ->
  exists x, sv_any A c m = Some x /\
    holds A truth (c_kind c) x = Some (existsb (fun i => truth (p i)) (seq 0 (c_arity c))).
Proof.
  intros n M T A truth m p Hm. unfold is_mask in Hm. rewrite M in Hm.
  destruct Hm as [_ ->]. eexists. split; [reflexivity|]. cbn [holds]. f_equal.
  induction (seq 0 (c_arity c)) as [|i l IH]; [reflexivity|]. cbn. now rewrite IH.
Qed.

Lemma get_vec : chk_index = true -> c_mask c = MVec ->
  forall (T : Type) (A : alg T) truth full word, bit_laws A truth full word ->
  forall m p i, is_mask A c m p -> (i < c_arity c)%nat ->
  exists x, sv_get A c m (Z.of_nat i) = Some x /\ holds A truth (c_kind c) x = Some (truth (p i)).
Proof.
  intros E M T A truth full word B m p i Hm Hi. unfold is_mask in Hm. rewrite M in Hm.
  destruct Hm as [v [-> Hv]]. cbn [sv_get].
  destruct (chk_index_ok E T A v _ i Hv Hi) as [r [-> [-> _]]].
  eexists. split; [reflexivity|]. cbn [holds]. now rewrite (bl_fill _ _ _ _ B), (bl_truth _ _ _ _ B).
Qed.

Lemma skipn_map_seq : forall (X : Type) (f : nat -> X) i n, (i < n)%nat ->
  exists r, skipn i (map f (seq 0 n)) = f i :: r.
Proof.
  intros X f i n L. replace n with (i + S (n - i - 1))%nat by lia.
  rewrite seq_app, map_app, skipn_app, skipn_all2 by (rewrite map_length, seq_length; lia).
  rewrite map_length, seq_length, Nat.sub_diag. cbn [seq map skipn app Nat.add]. now eexists.
Qed.

Lemma get_int : forall n, c_mask c = MInt n ->
  forall (T : Type) (A : alg T) truth m p i, is_mask A c m p -> (i < c_arity c)%nat ->
  exists x, sv_get A c m (Z.of_nat i) = Some x /\ holds A truth (c_kind c) x = Some (truth (p i)).
Proof.
  intros n M T A truth m p i Hm Hi. unfold is_mask in Hm. rewrite M in Hm.
  destruct Hm as [_ ->]. unfold sv_get.
  replace (0 <=? Z.of_nat i) with true by (symmetry; apply Z.leb_le; lia).
  eexists. split; [reflexivity|]. rewrite Nat2Z.id.
  destruct (skipn_map_seq _ (fun i => Some (p i)) i (c_arity c) Hi) as [r ->].
  unfold bits_and. cbn [length seq combine map fst snd Z.of_nat]. cbn [Z.testbit Pos.testbit holds existsb].
  f_equal. replace (existsb _ _) with false; [apply orb_false_r|].
  symmetry. apply not_true_is_false. intros X. apply existsb_exists in X as [o [I O]].
  apply in_map_iff in I as [[k t] [<- I]]. apply in_combine_l in I. apply in_seq in I.
  cbn [fst snd] in O. rewrite (Z.bits_above_log2 1) in O; [discriminate|lia|cbn; lia].
Qed.

Lemma sum_lanes_ok : chk_index = true ->
  forall (T : Type) (A : alg T) size v x, is_vec c v x -> forall n, (n <= c_arity c)%nat ->
  sum_lanes A c size v n = Some (fold_right Z.add 0 (map (fun i => size (x i)) (seq 0 n))).
Proof.
  intros E T A size v x Hv. induction n as [|n IH]; intros L; [reflexivity|].
  cbn [sum_lanes]. rewrite IH by lia.
  destruct (chk_index_ok E T A v x n Hv ltac:(lia)) as [r [-> [-> _]]].
  f_equal. rewrite seq_S, map_app, fold_right_app. cbn [map fold_right Nat.add].
  generalize (map (fun i => size (x i)) (seq 0 n)). intros l.
  induction l as [|a l IHl]; cbn [fold_right]; lia.
Qed.

Lemma count_sum : forall (p : nat -> bool) l,
  fold_right Z.add 0 (map (fun i => if p i then 1 else 0) l) = Z.of_nat (length (filter p l)).
Proof.
  intros p l. induction l as [|i l IH]; [reflexivity|]. cbn [map fold_right filter].
  rewrite IH. destruct (p i); cbn [length]; lia.
Qed.

Lemma count_ok : chk_index = true -> chk_scalar = true -> chk_blend = true ->
  (c_mask c = MVec -> chk_any = true) ->
  forall (T : Type) (A : alg T) truth full word, bit_laws A truth full word ->
  forall size zero one, size zero = 0 -> size one = 1 -> word (c_kind c) zero -> word (c_kind c) one ->
  forall m p, is_mask A c m p ->
  count_mask A c (holds A truth (c_kind c)) size zero one m = Some (lanes_set truth p (c_arity c)).
Proof.
  intros Ei Es Eb Ea T A truth full word B size zero one Hz Ho Wz Wo m p Hm.
  assert (H : exists x, sv_any A c m = Some x /\
    holds A truth (c_kind c) x = Some (existsb (fun i => truth (p i)) (seq 0 (c_arity c)))).
  { destruct (c_mask c) as [n| | |] eqn:M.
    - eapply any_int; eassumption.
    - eapply any_ok; eauto.
    - unfold chk_blend in Eb. now rewrite M in Eb.
    - unfold chk_blend in Eb. now rewrite M in Eb. }
  destruct H as [xa [Ax Hx]]. unfold count_mask. rewrite Ax, Hx. unfold lanes_set.
  destruct (existsb (fun i => truth (p i)) (seq 0 (c_arity c))) eqn:X.
  - destruct (chk_scalar_ok Es T A zero) as [rz [-> [_ [Vz _]]]].
    destruct (chk_scalar_ok Es T A one) as [ro [-> [_ [Vo _]]]].
    destruct (chk_blend_ok Eb T A truth full word B _ _ m _ _ p Vz Vo Hm) as [r [-> [_ [Vr _]]]].
    { intros i _. now split. }
    rewrite (sum_lanes_ok Ei T A size _ _ Vr) by lia. f_equal.
    rewrite <- count_sum. f_equal. apply map_ext. intros i. now destruct (truth (p i)).
  - f_equal. replace (filter _ _) with (@nil nat); [reflexivity|].
    symmetry. revert X. generalize (seq 0 (c_arity c)). intros l.
    induction l as [|i l IH]; [reflexivity|]. cbn [existsb filter]. intros X.
    apply orb_false_iff in X as [-> X]. now apply IH.
Qed.

(** Copying by load and store. *)
Lemma load_store_ok : forall ml ms al as_, chk_load ml al = true -> chk_store ms as_ = true ->
  forall (T : Type) (A B : alg T) v x mis mis', is_vec c v x ->
  mis_ok c mis -> aligned_to c al mis -> mis_ok c mis' -> aligned_to c as_ mis' ->
  exists r1 r2, sv_mem A c ml v mis = Some r1 /\ sv_mem B c ms (r_val r1) mis' = Some r2 /\
    r_reads r1 = map data_at (seq 0 (c_arity c)) /\ r_writes r1 = [] /\ r_reads r2 = [] /\
    r_writes r2 = map (fun i => (data_at i, a_data A (Z.of_nat i))) (seq 0 (c_arity c)).
Proof.
  intros ml ms al as_ E1 E2 T A B v x mis mis' Hv Hm Ha Hm' Ha'.
  destruct (chk_load_ok _ _ E1 T A v x mis Hv Hm Ha) as [r1 [H1 [_ [V1 [R1 W1]]]]].
  destruct (chk_store_ok _ _ E2 T B (r_val r1) _ mis' V1 Hm' Ha') as [r2 [H2 [_ [_ [R2 W2]]]]].
  exists r1, r2. auto 10.
Qed.

End Checks.

(** ** Memory after the writes of a store or scatter *)

Lemma mem_after_other : forall (T : Type) eqb (ws : list (address T * T)) a old,
  (forall b, In b (map fst ws) -> eqb b a = false) -> mem_after eqb ws a old = old.
Proof.
  intros T eqb ws a. induction ws as [|[b t] ws IH]; intros old H; [reflexivity|].
  cbn [mem_after]. rewrite (H b) by now left. apply IH. intros b' I. apply H. now right.
Qed.

Lemma mem_after_last : forall (T : Type) eqb (ad : nat -> address T) (x : nat -> T) a i n s old,
  (s <= i < s + n)%nat -> eqb (ad i) a = true ->
  (forall j, (i < j < s + n)%nat -> eqb (ad j) a = false) ->
  mem_after eqb (map (fun j => (ad j, x j)) (seq s n)) a old = x i.
Proof.
  intros T eqb ad x a i n. induction n as [|n IH]; intros s old L E H; [lia|].
  cbn [seq map mem_after]. destruct (Nat.eq_dec s i) as [->|N].
  - rewrite E. apply mem_after_other. intros b I. rewrite map_map in I.
    apply in_map_iff in I as [j [<- I]]. apply in_seq in I. apply H. lia.
  - apply IH; [lia|assumption|]. intros j J. apply H. lia.
Qed.
