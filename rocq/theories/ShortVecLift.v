(** From symbolic runs to all lane algebras and all lanes. *)
From Coq Require Import String ZArith Bool List Lia.
From Verif Require Import ShortVecLang ShortVecClass ShortVecSym ShortVecNat ShortVecApi
  SpecShortVec.
Import ListNotations.
Local Open Scope Z_scope.

(** ** Equality tests are sound *)

Lemma term_eqb_eq : forall a b, term_eqb a b = true -> a = b.
Proof.
  induction a; intro y; destruct y; cbn [term_eqb]; intro E; try discriminate;
    rewrite ?andb_true_iff in E;
    repeat match goal with
    | H : _ /\ _ |- _ => destruct H
    | H : Nat.eqb _ _ = true |- _ => apply Nat.eqb_eq in H; subst
    | H : (_ =? _) = true |- _ => apply Z.eqb_eq in H; subst
    | H : uop_beq _ _ = true |- _ => apply internal_uop_dec_bl in H; subst
    | H : bop_beq _ _ = true |- _ => apply internal_bop_dec_bl in H; subst
    end; f_equal; auto.
Qed.

Fixpoint list_eqb {X : Type} (f : X -> X -> bool) (a b : list X) : bool :=
  match a, b with
  | [], [] => true
  | x :: a', y :: b' => f x y && list_eqb f a' b'
  | _, _ => false
  end.

Lemma list_eqb_eq : forall (X : Type) (f : X -> X -> bool),
  (forall x y, f x y = true -> x = y) ->
  forall a b, list_eqb f a b = true -> a = b.
Proof.
  intros X f S. induction a as [|x a IH]; destruct b; cbn; intro E; try discriminate; auto.
  apply andb_true_iff in E as [E1 E2]. f_equal; auto.
Qed.

Definition opt_eqb {X : Type} (f : X -> X -> bool) (a b : option X) : bool :=
  match a, b with Some x, Some y => f x y | None, None => true | _, _ => false end.

Lemma opt_eqb_eq : forall (X : Type) (f : X -> X -> bool),
  (forall x y, f x y = true -> x = y) ->
  forall a b, opt_eqb f a b = true -> a = b.
Proof. intros X f S [x|] [y|]; cbn; intro E; try discriminate; auto. f_equal; auto. Qed.

Definition addr_eqb (a b : address term) : bool :=
  match a, b with
  | AData x, AData y | AOff x, AOff y => x =? y
  | APtr, APtr => true
  | APtrAt t, APtrAt u => term_eqb t u
  | ALoc x i, ALoc y j => String.eqb x y && (i =? j)
  | _, _ => false
  end.

Lemma addr_eqb_eq : forall a b, addr_eqb a b = true -> a = b.
Proof.
  destruct a, b; cbn; intro E; try discriminate; auto.
  - apply Z.eqb_eq in E; congruence.
  - apply Z.eqb_eq in E; congruence.
  - apply term_eqb_eq in E; congruence.
  - apply andb_true_iff in E as [E1 E2]. apply String.eqb_eq in E1. apply Z.eqb_eq in E2. congruence.
Qed.

Definition value_eqb (a b : value term) : bool :=
  match a, b with
  | VReg x, VReg y => list_eqb term_eqb x y
  | VBits x, VBits y => list_eqb (opt_eqb term_eqb) x y
  | VInt x, VInt y => x =? y
  | VAddr x, VAddr y => addr_eqb x y
  | _, _ => false
  end.

Lemma value_eqb_eq : forall a b, value_eqb a b = true -> a = b.
Proof.
  destruct a, b; cbn; intro E; try discriminate; f_equal.
  - revert E. apply list_eqb_eq, term_eqb_eq.
  - revert E. apply list_eqb_eq, opt_eqb_eq, term_eqb_eq.
  - now apply Z.eqb_eq.
  - now apply addr_eqb_eq.
Qed.

Definition vec_eqb : list (list term) -> list (list term) -> bool := list_eqb (list_eqb term_eqb).

Lemma vec_eqb_eq : forall a b, vec_eqb a b = true -> a = b.
Proof. apply list_eqb_eq, list_eqb_eq, term_eqb_eq. Qed.

Definition rvalue_eqb (a b : rvalue term) : bool :=
  match a, b with
  | RVoid, RVoid => true
  | RVal x, RVal y => value_eqb x y
  | RVec x, RVec y => vec_eqb x y
  | _, _ => false
  end.

Lemma rvalue_eqb_eq : forall a b, rvalue_eqb a b = true -> a = b.
Proof.
  destruct a, b; cbn; intro E; try discriminate; f_equal.
  - now apply value_eqb_eq.
  - now apply vec_eqb_eq.
Qed.

Definition write_eqb (a b : address term * term) : bool :=
  addr_eqb (fst a) (fst b) && term_eqb (snd a) (snd b).

Lemma write_eqb_eq : forall a b, write_eqb a b = true -> a = b.
Proof.
  intros [a t] [b u]; unfold write_eqb; cbn; intro E. apply andb_true_iff in E as [E1 E2].
  f_equal; [now apply addr_eqb_eq | now apply term_eqb_eq].
Qed.

Definition res_eqb (a b : result term) : bool :=
  vec_eqb (r_val a) (r_val b) && rvalue_eqb (r_ret a) (r_ret b) &&
  list_eqb addr_eqb (r_reads a) (r_reads b) && list_eqb write_eqb (r_writes a) (r_writes b).

Lemma res_eqb_eq : forall a b, res_eqb a b = true -> a = b.
Proof.
  intros [v r rd w] [v' r' rd' w']; unfold res_eqb; cbn; intro E.
  rewrite !andb_true_iff in E. destruct E as [[[E1 E2] E3] E4].
  apply vec_eqb_eq in E1. apply rvalue_eqb_eq in E2.
  apply (list_eqb_eq _ _ addr_eqb_eq) in E3. apply (list_eqb_eq _ _ write_eqb_eq) in E4.
  congruence.
Qed.

Definition is_res (o : option (result term)) (r : result term) : bool :=
  match o with Some x => res_eqb x r | None => false end.

Lemma is_res_eq : forall o r, is_res o r = true -> o = Some r.
Proof. intros [x|] r E; cbn in E; [|discriminate]. apply res_eqb_eq in E. congruence. Qed.

(** ** Valuations *)

Record asg (T : Type) := mkAsg {
  g_val : nat -> T; g_oth : nat -> T; g_msk : nat -> T; g_bit : nat -> T;
  g_par : nat -> T; g_arg : T }.
Arguments mkAsg {T}. Arguments g_val {T}. Arguments g_oth {T}. Arguments g_msk {T}.
Arguments g_bit {T}. Arguments g_par {T}. Arguments g_arg {T}.

Section Eval.
Context {T : Type} (A : alg T) (g : asg T).

Fixpoint teval (t : term) : T :=
  match t with
  | TVal i => g_val g i | TOth i => g_oth g i | TMsk i => g_msk g i
  | TBit i => g_bit g i | TPar i => g_par g i | TArg => g_arg g
  | TData z => a_data A z | TOff z => a_off A z | TPtr t => a_ptr A (teval t)
  | TUn u t => a_un A u (teval t) | TBin b t u => a_bin A b (teval t) (teval u)
  | TSel c t u => a_sel A (teval c) (teval t) (teval u)
  | TLit z => a_lit A z | TUndef => a_undef A
  end.

Lemma teval_hom : hom talg A teval.
Proof. constructor; reflexivity. Qed.

End Eval.

(** ** Registers *)

Lemma map_regs : forall (T U : Type) (h : T -> U) n l f,
  map (map h) (regs n l f) = regs n l (fun i => h (f i)).
Proof.
  intros. unfold regs. rewrite map_map. apply map_ext. intro. now rewrite map_map.
Qed.

Lemma map_seq_shift : forall (T : Type) (f : nat -> T) b l a,
  map (fun j => f (b + j)%nat) (seq a l) = map f (seq (b + a) l).
Proof.
  intros T f b. induction l as [|l IH]; intro a; [reflexivity|].
  cbn [seq map]. f_equal. rewrite IH. now rewrite Nat.add_succ_r.
Qed.

Lemma regs_concat : forall (T : Type) n l (f : nat -> T),
  concat (regs n l f) = map f (seq 0 (n * l)).
Proof.
  intros T n l f. unfold regs.
  assert (G : forall k s, concat (map (fun r => map (fun j => f (r * l + j)%nat) (seq 0 l)) (seq s k))
                          = map f (seq (s * l) (k * l))).
  { induction k as [|k IH]; intro s; [reflexivity|].
    cbn [seq map concat Nat.mul]. rewrite IH, seq_app, map_app. f_equal.
    - rewrite map_seq_shift. now rewrite Nat.add_0_r.
    - f_equal. f_equal. lia. }
  apply (G n 0%nat).
Qed.

Lemma regs_shape : forall (T : Type) n l (f : nat -> T),
  length (regs n l f) = n /\ Forall (fun r => length r = l) (regs n l f).
Proof.
  intros. unfold regs. split; [now rewrite map_length, seq_length|].
  apply Forall_forall. intros r I. apply in_map_iff in I as [k [<- _]].
  now rewrite map_length, seq_length.
Qed.

Lemma regs_is_vec : forall (T : Type) c (x : nat -> T),
  c_arity c = (c_nreg c * c_lanes c)%nat -> is_vec c (regs (c_nreg c) (c_lanes c) x) x.
Proof.
  intros T c x E. destruct (regs_shape T (c_nreg c) (c_lanes c) x) as [H1 H2].
  repeat split; auto. rewrite regs_concat. now rewrite E.
Qed.

Lemma chunk_unique : forall (T : Type) l (v w : list (list T)),
  length v = length w -> Forall (fun r => length r = l) v -> Forall (fun r => length r = l) w ->
  concat v = concat w -> v = w.
Proof.
  intros T l v. induction v as [|r v IH]; intros [|s w] L Fv Fw E; try discriminate; auto.
  inversion Fv; inversion Fw; subst. cbn in E.
  assert (r = s /\ concat v = concat w) as [-> E'].
  { assert (G : forall (a b c d : list T), length a = length b -> a ++ c = b ++ d -> a = b /\ c = d).
    { induction a as [|x a IHa]; destruct b; cbn; intros c d La Ea; try discriminate; auto.
      injection La as La. injection Ea as -> Ea. destruct (IHa _ _ _ La Ea); subst; auto. }
    apply G; auto. }
  f_equal. apply IH; auto.
Qed.

Lemma is_vec_regs : forall (T : Type) c v (x : nat -> T),
  c_arity c = (c_nreg c * c_lanes c)%nat -> is_vec c v x ->
  v = regs (c_nreg c) (c_lanes c) x.
Proof.
  intros T c v x E [L [F C]]. destruct (regs_shape T (c_nreg c) (c_lanes c) x) as [H1 H2].
  apply (chunk_unique T (c_lanes c)); auto; [congruence|]. rewrite regs_concat. now rewrite C, E.
Qed.

Lemma is_vec_ext : forall (T : Type) c v (x y : nat -> T),
  (forall i, (i < c_arity c)%nat -> x i = y i) -> is_vec c v x -> is_vec c v y.
Proof.
  intros T c v x y E [L [F C]]. repeat split; auto. rewrite C. apply map_ext_in.
  intros i I. apply in_seq in I. apply E. lia.
Qed.

(** ** Every way of calling commutes with evaluation *)

Section Lift.
Context {T : Type} (A : alg T) (c : cls) (g : asg T).
Let h := teval A g.
Let R {X : Type} (f : nat -> X) := regs (c_nreg c) (c_lanes c) f.

Let H : hom talg A h := teval_hom A g.

Lemma lift_call : forall m k k', k' = map_call h k ->
  call_meth A c m k' = option_map (map_result h) (call_meth talg c m k).
Proof. intros m k k' ->. apply call_meth_map, H. Qed.

Lemma map_fresh : map (map h) (fresh talg c) = fresh A c.
Proof.
  unfold fresh. rewrite map_repeat. f_equal. rewrite map_repeat. reflexivity.
Qed.

Lemma lift_bin : forall m,
  sv_bin A c m (R (g_val g)) (R (g_oth g))
  = option_map (map_result h) (sv_bin talg c m (R TVal) (R TOth)).
Proof.
  intros. apply lift_call. unfold map_call; cbn. unfold R. now rewrite !map_regs.
Qed.

Lemma lift_self : forall m,
  sv_self A c m (R (g_val g)) = option_map (map_result h) (sv_self talg c m (R TVal)).
Proof.
  intros. apply lift_call. unfold map_call; cbn. unfold R. now rewrite !map_regs.
Qed.

Lemma lift_un : forall m,
  sv_un A c m (R (g_val g)) = option_map (map_result h) (sv_un talg c m (R TVal)).
Proof.
  intros. apply lift_call. unfold map_call; cbn. unfold R. now rewrite !map_regs.
Qed.

Lemma lift_scalar :
  sv_scalar A c (g_arg g) = option_map (map_result h) (sv_scalar talg c TArg).
Proof.
  intros. apply lift_call. unfold map_call; cbn. now rewrite map_fresh.
Qed.

Lemma lift_regs :
  sv_regs A c (R (g_par g)) = option_map (map_result h) (sv_regs talg c (R TPar)).
Proof.
  intros. apply lift_call. unfold map_call; cbn. unfold R. now rewrite map_fresh, map_regs.
Qed.

Lemma lift_of_sqrt :
  sv_of_sqrt A c (R (g_oth g)) = option_map (map_result h) (sv_of_sqrt talg c (R TOth)).
Proof.
  intros. apply lift_call. unfold map_call; cbn. unfold R. now rewrite map_fresh, map_regs.
Qed.

Lemma lift_index : forall i,
  sv_index A c (R (g_val g)) i = option_map (map_result h) (sv_index talg c (R TVal) i).
Proof.
  intros. apply lift_call. unfold map_call; cbn. unfold R. now rewrite !map_regs.
Qed.

Lemma lift_mem : forall m mis,
  sv_mem A c m (R (g_val g)) mis = option_map (map_result h) (sv_mem talg c m (R TVal) mis).
Proof.
  intros. apply lift_call. unfold map_call; cbn. unfold R. now rewrite !map_regs.
Qed.

Lemma lift_idx : forall m omis,
  sv_idx A c m (R (g_val g)) omis = option_map (map_result h) (sv_idx talg c m (R TVal) omis).
Proof.
  intros. apply lift_call. unfold map_call; cbn. unfold R. now rewrite !map_regs.
Qed.

Lemma lift_blend_vec :
  sv_blend A c (R (g_val g)) (RVec (R (g_msk g))) (R (g_oth g))
  = option_map (map_result h) (sv_blend talg c (R TVal) (RVec (R TMsk)) (R TOth)).
Proof.
  intros. apply lift_call. unfold map_call; cbn. unfold R. now rewrite !map_regs.
Qed.

Lemma lift_blend_int : forall n,
  sv_blend A c (R (g_val g)) (RVal (VBits (map (fun i => Some (g_bit g i)) (seq 0 n)))) (R (g_oth g))
  = option_map (map_result h)
      (sv_blend talg c (R TVal) (RVal (VBits (map (fun i => Some (TBit i)) (seq 0 n)))) (R TOth)).
Proof.
  intros. apply lift_call. unfold map_call; cbn. unfold R. rewrite !map_regs, map_map. reflexivity.
Qed.

Lemma lift_print :
  call_print A c (mkCall (R (g_val g)) [] [] [] [] (a_undef A) 0 0 0 false false)
  = option_map (map (map_item h))
      (call_print talg c (mkCall (R TVal) [] [] [] [] TUndef 0 0 0 false false)).
Proof.
  rewrite <- (call_print_map talg A h H). f_equal. unfold map_call; cbn. unfold R. now rewrite map_regs.
Qed.

End Lift.
