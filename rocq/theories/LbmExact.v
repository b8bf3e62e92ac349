From Coq Require Import ZArith List Bool Lia Ring_theory Field_theory Ring Field.
From Verif Require Import Base Sph Lbm SpecLbm LbmProofs.
Import ListNotations.
Local Open Scope Z_scope.

(** ** Physics *)
Section Exact.
Context {T : Type} (K : arith T).
Hypothesis HK : exact_field K.
Notation "a +. b" := (r_add K a b) (at level 50, left associativity).
Notation "a -. b" := (r_sub K a b) (at level 50, left associativity).
Notation "a *. b" := (r_mul K a b) (at level 40, left associativity).
Notation "a /. b" := (r_div K a b) (at level 40, left associativity).
Notation "# z" := (r_num K z) (at level 5).
Context (inv : T -> T).
Hypothesis Hf : field_theory #0 #1 (r_add K) (r_mul K) (r_sub K) (r_neg K) (r_div K) inv eq.

Lemma num_opp : forall z, #(- z) = r_neg K #z.
Proof.
  intros z. destruct Hf as [Rg _ _ _]. pose proof (ef_add K HK z (- z)) as E. rewrite Z.add_opp_diag_r in E.
  destruct Rg as [add_0 add_c add_a mul_1 mul_c mul_a dist sub_d opp_d].
  rewrite <- (add_0 #(- z)). rewrite <- (opp_d #z). rewrite (add_c #z (r_neg K #z)), <- add_a, <- E, add_c, add_0.
  reflexivity.
Qed.

Lemma num_mul : forall a b, #(a * b) = #a *. #b.
Proof.
  pose proof (F_R Hf) as Rg.
  assert (P : forall a b, 0 <= b -> #(a * b) = #a *. #b).
  { intros a b Hb. pattern b. apply natlike_ind; [| |exact Hb].
    - rewrite Z.mul_0_r. pose proof (ARmul_0_l (Rth_ARth (Eqsth T) (Eq_ext _ _ _) Rg)) as M0. symmetry. rewrite (Rmul_comm Rg). apply M0.
    - intros x Hx IH. unfold Z.succ. rewrite Z.mul_add_distr_l, Z.mul_1_r, !(ef_add K HK), IH.
      rewrite (Rmul_comm Rg #a (#x +. #1)), (Rdistr_l Rg), (Rmul_1_l Rg), (Rmul_comm Rg #x). reflexivity. }
  intros a b. destruct (Z.le_ge_cases 0 b) as [H|H]; [auto|].
  replace (a * b) with (- (a * - b)) by lia. rewrite num_opp, P by lia. rewrite num_opp.
  assert (E : forall u v, r_neg K (u *. r_neg K v) = u *. v).
  { pose proof (Rth_ARth (Eqsth T) (Eq_ext _ _ _) Rg) as AR. intros u v.
    rewrite (Rmul_comm Rg u (r_neg K v)), <- (ARopp_mul_l AR), (Ropp_opp (Eqsth T) (Eq_ext _ _ _) Rg).
    apply (Rmul_comm Rg). }
  apply E.
Qed.

Lemma num_morph : ring_morph #0 #1 (r_add K) (r_mul K) (r_sub K) (r_neg K) eq 0 1 Z.add Z.mul Z.sub Z.opp Zeq_bool (r_num K).
Proof.
  constructor; auto.
  - apply (ef_add K HK).
  - intros x y. unfold Z.sub. rewrite (ef_add K HK), num_opp. symmetry. apply (Rsub_def (F_R Hf)).
  - apply num_mul.
  - apply num_opp.
  - intros x y E. apply Zeq_bool_eq in E. congruence.
Qed.

Ltac numeral t := match t with r_num K ?z => match isZcst z with true => constr:(z) | _ => constr:(NotConstant) end | _ => constr:(NotConstant) end.
Add Field Kfield : Hf (morphism num_morph, constants [numeral]).

Ltac nonzero := repeat split; apply (ef_nonzero K HK); discriminate.

Lemma collide_relax : forall f d, collide K f d = relax K f d.
Proof.
  intros f d. destruct d; unfold collide, text_at, update_text, relax, equilibrium, weight, mass, momentum, sum19, dirs;
    cbv zeta; cbn [find Z.eqb Pos.eqb code fst snd cx cy cz fold_right Z.abs Z.add Pos.add]; field; nonzero.
Qed.

Lemma relax_mass : forall f, mass K (relax K f) = mass K f.
Proof.
  intros f. unfold mass, sum19, dirs, relax, equilibrium, weight.
  cbv zeta. cbn [fold_right cx cy cz Z.abs Z.add Pos.add].
  set (r := mass K f). set (ux := momentum K cx f). set (uy := momentum K cy f). set (uz := momentum K cz f).
  assert (R : r = sum19 K f) by reflexivity. unfold sum19, dirs in R. cbn [fold_right] in R.
  clearbody ux uy uz. rewrite R. field. nonzero.
Qed.

Lemma relax_momentum : forall f c, c = cx \/ c = cy \/ c = cz -> momentum K c (relax K f) = momentum K c f.
Proof.
  intros f c Hc. unfold momentum, sum19, dirs, relax, equilibrium, weight.
  set (r := mass K f). set (ux := momentum K cx f). set (uy := momentum K cy f). set (uz := momentum K cz f).
  assert (X : ux = sum19 K (fun d => #(cx d) *. f d)) by reflexivity.
  assert (Y : uy = sum19 K (fun d => #(cy d) *. f d)) by reflexivity.
  assert (W : uz = sum19 K (fun d => #(cz d) *. f d)) by reflexivity.
  unfold sum19, dirs in X, Y, W. cbn [fold_right cx cy cz] in X, Y, W. clearbody r ux uy uz.
  destruct Hc as [->|[->| ->]]; cbv zeta; cbn [fold_right cx cy cz Z.abs Z.add Pos.add].
  - rewrite <- X. match type of X with _ = ?s => transitivity ((#1 -. #10 /. #17) *. s +. #10 /. #17 *. ux) end;
      [clear X; field; nonzero|rewrite <- X; field; nonzero].
  - rewrite <- Y. match type of Y with _ = ?s => transitivity ((#1 -. #10 /. #17) *. s +. #10 /. #17 *. uy) end;
      [clear Y; field; nonzero|rewrite <- Y; field; nonzero].
  - rewrite <- W. match type of W with _ = ?s => transitivity ((#1 -. #10 /. #17) *. s +. #10 /. #17 *. uz) end;
      [clear W; field; nonzero|rewrite <- W; field; nonzero].
Qed.

Lemma relax_equilibrium : forall f, (forall d, f d = equilibrium K f d) -> forall d, relax K f d = f d.
Proof.
  intros f He d. unfold relax. rewrite <- He. generalize (f d). intros t. field. nonzero.
Qed.
End Exact.
