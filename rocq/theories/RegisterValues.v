(** Proofs about the values of constant expressions of SpecRegister.v. *)
From Coq Require Import String Ascii ZArith Bool Lia.
From Coq Require Import List.
From Verif Require Import Preproc PreprocAbs PreprocLib SpecPreproc PreprocProofs SpecRegister RegisterProofs.
Import ListNotations.
Local Open Scope Z_scope.

Opaque lib lib_words.

(** ** More fuel changes nothing *)

Lemma bind_some : forall (A B : Type) (o : option A) (f : A -> option B) y,
  bind o f = Some y -> exists x, o = Some x /\ f x = Some y.
Proof. intros A B [x|] f y H; [exists x; auto|discriminate]. Qed.

Lemma ev_more : forall env f k l x, ev env f k l = Some x -> ev env (S f) k l = Some x.
Proof.
  intros env f. induction f as [|f IH]; intros k l x H; [discriminate|].
  assert (P : forall r y, bind (after TLp r) (fun r => bind (ev env f Sum r)
      (fun x => bind (after TRp (snd x)) (fun s => Some (fst x, s)))) = Some y ->
    bind (after TLp r) (fun r => bind (ev env (S f) Sum r)
      (fun x => bind (after TRp (snd x)) (fun s => Some (fst x, s)))) = Some y).
  { intros r y Q. apply bind_some in Q. destruct Q as [a [E Q]]. rewrite E. cbn [bind].
    apply bind_some in Q. destruct Q as [b [E2 Q]]. rewrite (IH _ _ _ E2). exact Q. }
  remember (S f) as g eqn:Eg. cbn [ev]. rewrite Eg in H. cbn [ev] in H.
  destruct k.
  - apply bind_some in H. destruct H as [a [E H]]. rewrite (IH _ _ _ E). cbn [bind].
    destruct (after (TPunct "+") (snd a)); [|exact H].
    apply bind_some in H. destruct H as [b [E2 H]]. rewrite (IH _ _ _ E2). exact H.
  - apply bind_some in H. destruct H as [a [E H]]. rewrite (IH _ _ _ E). cbn [bind].
    destruct (after (TPunct "*") (snd a)); [|exact H].
    apply bind_some in H. destruct H as [b [E2 H]]. rewrite (IH _ _ _ E2). exact H.
  - destruct l as [|t r]; [discriminate|]. destruct t; try discriminate; try exact H; try (apply P; exact H).
    destruct (Pos.eqb p (spell "sizeof")); [exact H|].
    destruct (Pos.eqb p (spell "long")); [apply P; exact H|].
    destruct (Pos.eqb p (spell "static_cast")).
    { apply bind_some in H. destruct H as [a [E H]]. rewrite E. cbn [bind]. apply P. exact H. }
    destruct (if Pos.eqb p (spell "offset") then after (TPunct "<") r else None).
    + apply bind_some in H. destruct H as [b [E2 H]]. rewrite E2. cbn [bind].
      apply bind_some in H. destruct H as [d [E3 H]]. rewrite (IH _ _ _ E3). exact H.
    + destruct (Pos.eqb p (spell "detail") || Pos.eqb p (spell "flat_array")); [|exact H].
      apply bind_some in H. destruct H as [a [E H]]. rewrite E. cbn [bind]. exact (IH _ _ _ H).
Qed.

Lemma ev_le : forall env f g k l x, ev env f k l = Some x -> (f <= g)%nat -> ev env g k l = Some x.
Proof. intros env f g k l x H L. induction L; [exact H|]. apply ev_more. exact IHL. Qed.

Lemma has_value_unique : forall env l v w, has_value env l v -> has_value env l w -> v = w.
Proof.
  intros env l v w [f Hf] [g Hg]. apply (ev_le _ _ (Nat.max f g)) in Hf; [|lia].
  apply (ev_le _ _ (Nat.max f g)) in Hg; [|lia]. congruence.
Qed.

(** ** Expressions followed by other text *)

Definition free_of (t : tok) (r : list tok) : Prop := after t r = None.

Definition ends (k : level) (r : list tok) : Prop :=
  free_of (TPunct "<") r /\
  match k with
  | Sum => free_of (TPunct "+") r /\ free_of (TPunct "*") r
  | Product => free_of (TPunct "*") r
  | Factor => True
  end.

Definition eats (env : cenv) (k : level) (l : list tok) (v : Z) : Prop :=
  exists f0, forall f r, (f0 <= f)%nat -> ends k r -> ev env f k (l ++ r) = Some (v, r).

Lemma eats_value : forall env l v, eats env Sum l v -> has_value env l v.
Proof.
  intros env l v [f H]. exists f. rewrite <- (app_nil_r l) at 1. apply H; [lia|]. repeat split; reflexivity.
Qed.

Lemma eats_primary : forall env l v, primary_value env l v -> eats env Factor l v.
Proof. intros env l v [f H]. exists f. intros g r L _. apply (ev_le _ f); [apply H|exact L]. Qed.

Lemma eats_factor : forall env l v, eats env Factor l v -> eats env Product l v.
Proof.
  intros env l v [f0 H]. exists (S f0). intros f r L [El E]. destruct f as [|f]; [lia|]. cbn [ev].
  rewrite H by (try exact (conj El I); lia). cbn [bind snd]. unfold free_of in E. rewrite E. reflexivity.
Qed.

Lemma eats_product : forall env l v, eats env Product l v -> eats env Sum l v.
Proof.
  intros env l v [f0 H]. exists (S f0). intros f r L [El [E1 E2]]. destruct f as [|f]; [lia|]. cbn [ev].
  rewrite H by (try exact (conj El E2); lia). cbn [bind snd]. unfold free_of in E1. rewrite E1. reflexivity.
Qed.

Lemma after_here : forall t r, after t (t :: r) = Some r.
Proof. intros t r. unfold after. destruct (same_tok t t); [reflexivity|congruence]. Qed.

Lemma eats_times : forall env a b v w, eats env Factor a v -> eats env Product b w ->
  eats env Product (a ++ TPunct "*" :: b) (v * w).
Proof.
  intros env a b v w [f1 H1] [f2 H2]. exists (S (Nat.max f1 f2)). intros f r L E. destruct f as [|f]; [lia|].
  rewrite <- app_assoc. cbn [ev app]. rewrite H1 by (try (split; [reflexivity|exact I]); lia). cbn [bind snd fst]. rewrite after_here.
  rewrite H2 by (try exact E; lia). reflexivity.
Qed.

Lemma eats_plus : forall env a b v w, eats env Product a v -> eats env Sum b w ->
  eats env Sum (a ++ TPunct "+" :: b) (v + w).
Proof.
  intros env a b v w [f1 H1] [f2 H2]. exists (S (Nat.max f1 f2)). intros f r L E. destruct f as [|f]; [lia|].
  rewrite <- app_assoc. cbn [ev app]. rewrite H1 by (try (split; reflexivity); lia). cbn [bind snd fst]. rewrite after_here.
  rewrite H2 by (try exact E; lia). reflexivity.
Qed.

Lemma eats_paren : forall env l v, eats env Sum l v -> eats env Factor (TLp :: l ++ [TRp]) v.
Proof.
  intros env l v [f0 H]. exists (S f0). intros f r L _. destruct f as [|f]; [lia|]. cbn [app ev].
  rewrite after_here. cbn [bind]. rewrite <- app_assoc. rewrite H; [|lia|repeat split; reflexivity].
  cbn [bind snd fst app]. rewrite after_here. reflexivity.
Qed.

Lemma eats_long : forall env l v, eats env Sum l v -> eats env Factor (word "long" :: TLp :: l ++ [TRp]) v.
Proof.
  intros env l v [f0 H]. exists (S f0). intros f r L _. destruct f as [|f]; [lia|]. cbn [app ev word].
  replace (Pos.eqb (spell "long") (spell "sizeof")) with false by (vm_compute; reflexivity). rewrite Pos.eqb_refl.
  rewrite after_here. cbn [bind]. rewrite <- app_assoc. rewrite H; [|lia|repeat split; reflexivity].
  cbn [bind snd fst app]. rewrite after_here. reflexivity.
Qed.

Lemma after_all_here : forall ts r, after_all ts (ts ++ r) = Some r.
Proof.
  induction ts as [|t ts IH]; intros r; [reflexivity|]. cbn [app after_all]. rewrite after_here. apply IH.
Qed.

Lemma eats_cast : forall env l v, eats env Sum l v ->
  eats env Factor (word "static_cast" :: tokens "<long>" ++ TLp :: l ++ [TRp]) v.
Proof.
  intros env l v [f0 H]. exists (S f0). intros f r L _. destruct f as [|f]; [lia|]. cbn [app ev word].
  replace (Pos.eqb (spell "static_cast") (spell "sizeof")) with false by (vm_compute; reflexivity).
  replace (Pos.eqb (spell "static_cast") (spell "long")) with false by (vm_compute; reflexivity). rewrite Pos.eqb_refl.
  rewrite <- app_assoc, after_all_here. cbn [bind app].
  rewrite after_here. cbn [bind]. rewrite <- app_assoc. rewrite H; [|lia|repeat split; reflexivity].
  cbn [bind snd fst app]. rewrite after_here. reflexivity.
Qed.

Lemma eats_num : forall env p, eats env Factor [TNum p] (literal p).
Proof. intros env p. exists 1%nat. intros f r L _. destruct f as [|f]; [lia|]. reflexivity. Qed.

Definition variable_name (p : spelling) : bool :=
  negb (Pos.eqb p (spell "sizeof")) && negb (Pos.eqb p (spell "long")) &&
  negb (Pos.eqb p (spell "static_cast")) &&
  negb (Pos.eqb p (spell "detail")) && negb (Pos.eqb p (spell "flat_array")).

Lemma eats_var : forall env p v, variable_name p = true -> e_var env p = Some v -> eats env Factor [TId p] v.
Proof.
  intros env p v N E. exists 1%nat. intros f r L [El _]. destruct f as [|f]; [lia|]. unfold variable_name in N.
  cbn [app ev]. destruct (Pos.eqb p (spell "sizeof")); [discriminate|]. destruct (Pos.eqb p (spell "long")); [discriminate|].
  destruct (Pos.eqb p (spell "static_cast")); [rewrite !andb_false_r in N; discriminate|].
  replace (if Pos.eqb p (spell "offset") then after (TPunct "<") r else None) with (@None (list tok))
    by (unfold free_of in El; rewrite El; destruct (Pos.eqb p (spell "offset")); reflexivity).
  destruct (Pos.eqb p (spell "detail")); [discriminate|].
  destruct (Pos.eqb p (spell "flat_array")); [discriminate|]. cbn [orb]. rewrite E. reflexivity.
Qed.

Lemma eats_deref : forall env p v, e_deref env p = Some v -> eats env Factor [TPunct "*"; TId p] v.
Proof.
  intros env p v E. exists 1%nat. intros f r L _. destruct f as [|f]; [lia|].
  cbn [app ev]. rewrite after_here. cbn [bind]. rewrite E. reflexivity.
Qed.

(** ** Enclosed texts *)

Lemma enclosed_balanced : forall stop l d r, bal l d = true ->
  (stop = is_rp \/ stop = is_comma) ->
  forall z, stop z = true -> enclosed stop (l ++ z :: r) d = Some (l, r).
Proof.
  intros stop l. induction l as [|t l IH]; intros d r B S z Hz.
  - cbn [bal] in B. apply Nat.eqb_eq in B. subst d. cbn [app enclosed]. rewrite Hz. reflexivity.
  - cbn [app enclosed]. assert (Q : Nat.eqb d 0 && stop t = false).
    { destruct S as [-> | ->]; destruct t; cbn [is_rp is_comma]; rewrite ?andb_false_r; try reflexivity;
        cbn [bal] in B; destruct d; try discriminate; reflexivity. }
    rewrite Q. destruct t; cbn [bal] in B; try (rewrite (IH _ r B S z Hz); destruct d; reflexivity).
    + destruct d as [|d]; [discriminate|]. cbn [pred]. rewrite (IH _ r B S z Hz). reflexivity.
    + destruct d as [|d]; [discriminate|]. rewrite (IH _ r B S z Hz). reflexivity.
Qed.

Lemma eats_sizeof : forall env ty, balanced ty -> eats env Factor (word "sizeof" :: TLp :: ty ++ [TRp]) (e_sizeof env ty).
Proof.
  intros env ty B. exists 1%nat. intros f r L _. destruct f as [|f]; [lia|]. cbn [app ev word]. rewrite Pos.eqb_refl.
  rewrite after_here. cbn [bind]. rewrite <- app_assoc. cbn [app].
  rewrite (enclosed_balanced is_rp ty 0 r B (or_introl eq_refl) TRp eq_refl). reflexivity.
Qed.

Lemma eats_offset : forall env c i k w, balanced c -> eats env Sum i k -> e_offset env c k = Some w ->
  eats env Factor (word "offset" :: TPunct "<" :: c ++ TComma :: i ++ tokens ">::OFFSET") w.
Proof.
  intros env c i k w B [f0 H] E. exists (S f0). intros f r L _. destruct f as [|f]; [lia|]. cbn [app ev word].
  replace (Pos.eqb (spell "offset") (spell "sizeof")) with false by (vm_compute; reflexivity).
  replace (Pos.eqb (spell "offset") (spell "long")) with false by (vm_compute; reflexivity).
  replace (Pos.eqb (spell "offset") (spell "static_cast")) with false by (vm_compute; reflexivity). rewrite Pos.eqb_refl.
  rewrite after_here. rewrite <- app_assoc. cbn [app].
  rewrite (enclosed_balanced is_comma c 0 _ B (or_intror eq_refl) TComma eq_refl). cbn [bind snd fst].
  rewrite <- app_assoc. rewrite H; [|lia|repeat split; reflexivity]. cbn [bind snd fst]. rewrite after_all_here.
  cbn [bind]. rewrite E. reflexivity.
Qed.

Lemma eats_qualified : forall env l v q, q = "detail"%string \/ q = "flat_array"%string ->
  eats env Factor l v -> eats env Factor (word q :: tokens "::" ++ l) v.
Proof.
  intros env l v q Q [f0 H]. exists (S f0). intros f r L Hr. destruct f as [|f]; [lia|]. cbn [app ev word].
  assert (N : Pos.eqb (spell q) (spell "sizeof") = false /\ Pos.eqb (spell q) (spell "long") = false /\
              Pos.eqb (spell q) (spell "static_cast") = false /\
              Pos.eqb (spell q) (spell "offset") = false /\
              Pos.eqb (spell q) (spell "detail") || Pos.eqb (spell q) (spell "flat_array") = true).
  { destruct Q as [-> | ->]; vm_compute; repeat split. }
  destruct N as [-> [-> [-> [-> ->]]]]. rewrite <- app_assoc, after_all_here. cbn [bind]. apply H; [lia|exact Hr].
Qed.

(** ** Numerals *)

Lemma literal_small : forall n, (n < 64)%nat -> exists p, numeral n = TNum p /\ literal p = Z.of_nat n.
Proof.
  intros n H. exists (spell (DecimalString.NilZero.string_of_uint (Nat.to_uint n))). split; [reflexivity|].
  assert (T : forallb (fun n => Z.eqb (literal (spell (DecimalString.NilZero.string_of_uint (Nat.to_uint n)))) (Z.of_nat n))
                (seq 0 64) = true) by (vm_compute; reflexivity).
  apply Z.eqb_eq. exact (proj1 (forallb_forall _ _) T n ltac:(apply in_seq; lia)).
Qed.

Lemma eats_numeral : forall env n, (n < 64)%nat -> eats env Factor [numeral n] (Z.of_nat n).
Proof. intros env n H. destruct (literal_small n H) as [p [-> <-]]. apply eats_num. Qed.

(** ** Expressions with atoms *)

Section Templates.
Variable env : cenv.
Variable sg : nat -> list tok.

Definition eT (k : level) (l : list tok) (v : Z) : Prop := eats env k (inst sg l) v.

Lemma eT_value : forall l v, eT Sum l v -> has_value env (inst sg l) v.
Proof. intros l v H. apply eats_value. exact H. Qed.

Lemma eT_factor : forall l v, eT Factor l v -> eT Product l v.
Proof. intros l v H. apply eats_factor. exact H. Qed.

Lemma eT_product : forall l v, eT Product l v -> eT Sum l v.
Proof. intros l v H. apply eats_product. exact H. Qed.

Lemma eT_one : forall l v, eT Factor l v -> eT Sum l v.
Proof. intros l v H. apply eT_product, eT_factor. exact H. Qed.

Lemma eT_plus : forall a b v w, eT Product a v -> eT Sum b w -> eT Sum (a ++ TPunct "+" :: b) (v + w).
Proof. intros a b v w H1 H2. unfold eT. rewrite inst_app. cbn [inst]. apply eats_plus; assumption. Qed.

Lemma eT_times : forall a b v w, eT Factor a v -> eT Product b w -> eT Product (a ++ TPunct "*" :: b) (v * w).
Proof. intros a b v w H1 H2. unfold eT. rewrite inst_app. cbn [inst]. apply eats_times; assumption. Qed.

Lemma eT_times2 : forall a b v w, eT Factor a v -> eT Factor b w -> eT Product (a ++ TPunct "*" :: b) (v * w).
Proof. intros a b v w H1 H2. apply eT_times; [exact H1|apply eT_factor; exact H2]. Qed.

Lemma eT_paren : forall l v, eT Sum l v -> eT Factor (TLp :: l ++ [TRp]) v.
Proof. intros l v H. unfold eT. cbn [inst]. rewrite inst_app. cbn [inst]. apply eats_paren. exact H. Qed.

Lemma eT_long : forall l v, eT Sum l v -> eT Factor (word "long" :: TLp :: l ++ [TRp]) v.
Proof. intros l v H. unfold eT. cbn [inst word]. rewrite inst_app. cbn [inst]. apply eats_long. exact H. Qed.

Lemma eT_cast : forall l v, eT Sum l v -> eT Factor (word "static_cast" :: tokens "<long>" ++ TLp :: l ++ [TRp]) v.
Proof.
  intros l v H. unfold eT. cbn [inst word]. rewrite inst_app. cbn [inst]. rewrite inst_app. cbn [inst].
  replace (inst sg (tokens "<long>")) with (tokens "<long>") by (vm_compute; reflexivity). apply eats_cast. exact H.
Qed.

Lemma eT_atom : forall n v, eats env Factor (sg n) v -> eT Factor [TAtom n] v.
Proof. intros n v H. unfold eT. cbn [inst]. rewrite app_nil_r. exact H. Qed.

Lemma eT_num : forall n, (n < 64)%nat -> eT Factor [numeral n] (Z.of_nat n).
Proof. intros n H. apply eats_numeral. exact H. Qed.

Lemma eT_var : forall x v, variable_name (spell x) = true -> var_is env x v -> eT Factor [word x] v.
Proof. intros x v N H. apply eats_var; assumption. Qed.

Lemma eT_deref : forall x v, e_deref env (spell x) = Some v -> eT Factor [TPunct "*"; word x] v.
Proof. intros x v H. apply eats_deref. exact H. Qed.

Lemma eT_sizeof : forall n, balanced (sg n) -> eT Factor (word "sizeof" :: TLp :: [TAtom n] ++ [TRp]) (e_sizeof env (sg n)).
Proof. intros n H. unfold eT. cbn [app inst word]. apply eats_sizeof. exact H. Qed.

Lemma eT_sizeof_name : forall x, eT Factor (word "sizeof" :: TLp :: [word x] ++ [TRp]) (e_sizeof env [word x]).
Proof. intros x. apply (eats_sizeof env [word x]). reflexivity. Qed.

Lemma eT_offset : forall n i k w, balanced (sg n) -> eT Sum i k -> e_offset env (sg n) k = Some w ->
  eT Factor (word "offset" :: TPunct "<" :: [TAtom n] ++ TComma :: i ++ tokens ">::OFFSET") w.
Proof.
  intros n i k w B H E. unfold eT. cbn [app inst word]. rewrite inst_app.
  replace (inst sg (tokens ">::OFFSET")) with (tokens ">::OFFSET") by (vm_compute; reflexivity).
  eapply eats_offset; eassumption.
Qed.

Lemma eT_qualified : forall l v q, q = "detail"%string \/ q = "flat_array"%string ->
  eT Factor l v -> eT Factor (word q :: tokens "::" ++ l) v.
Proof.
  intros l v q Q H. unfold eT. cbn [inst word]. rewrite inst_app.
  replace (inst sg (tokens "::")) with (tokens "::") by (vm_compute; reflexivity). apply eats_qualified; assumption.
Qed.

Lemma eT_full_offset : forall n i k w, balanced (sg n) -> eT Sum i k -> e_offset env (sg n) k = Some w ->
  eT Factor (word "detail" :: tokens "::" ++ word "flat_array" :: tokens "::" ++
    word "offset" :: TPunct "<" :: [TAtom n] ++ TComma :: i ++ tokens ">::OFFSET") w.
Proof.
  intros n i k w B H E. apply eT_qualified; [left; reflexivity|]. apply eT_qualified; [right; reflexivity|].
  eapply eT_offset; eassumption.
Qed.

Lemma index_eats : forall index v, index_is env index v -> eT Factor (tokens index) v.
Proof.
  intros index v [[-> H]|[-> H]].
  - replace (tokens "my_index") with [word "my_index"] by (vm_compute; reflexivity). apply eT_var; [vm_compute; reflexivity|exact H].
  - replace (tokens "*my_index") with [TPunct "*"; word "my_index"] by (vm_compute; reflexivity). apply eT_deref. exact H.
Qed.

End Templates.

(** Closed facts about token lists. *)
Ltac closed := vm_compute; reflexivity.

(** The sum, product or factor with variables, parentheses and casts only. *)
Ltac plain_eats :=
  match goal with
  | |- eT _ _ Sum (_ ++ TPunct "+" :: _) _ => apply eT_plus; plain_eats
  | |- eT _ _ Product (_ ++ TPunct "*" :: _) _ => apply eT_times; plain_eats
  | |- eT _ _ Sum _ _ => apply eT_product; plain_eats
  | |- eT _ _ Product _ _ => apply eT_factor; plain_eats
  | |- eT _ _ Factor (TLp :: _ ++ [TRp]) _ => apply eT_paren; plain_eats
  | |- eT _ _ Factor (word "static_cast" :: _) _ => apply eT_cast; plain_eats
  | |- eT _ _ Factor [word ?x] _ => apply eT_var; [closed|eassumption]
  | _ => idtac
  end.

(** ** The expressions of a registration *)

Section Expressions.
Variable env : cenv.
Variable c : list tok.
Hypothesis Hc : balanced c.

(** The initialiser: [e] stands for the count. *)
Lemma init_eats : forall sg e n i T, balanced (sg 2%nat) -> balanced (sg 3%nat) -> sg 1%nat = [numeral i] ->
  eT env sg Factor e n -> e_offset env (sg 2%nat) (Z.of_nat i) = Some T -> (i < 64)%nat ->
  eT env sg Sum ((word "offset" :: TPunct "<" :: [TAtom 2] ++ TComma :: ([TAtom 1] ++ TPunct "+" :: [numeral 0]) ++ tokens ">::OFFSET")
    ++ TPunct "+" :: (word "sizeof" :: TLp :: [TAtom 3] ++ [TRp]) ++ TPunct "*" :: e) (T + e_sizeof env (sg 3%nat) * n).
Proof.
  intros sg e n i T B2 B3 E1 He HT L. apply eT_plus; [apply eT_factor|apply eT_product, eT_times2].
  - eapply eT_offset; [exact B2| |exact HT].
    replace (Z.of_nat i) with (Z.of_nat i + Z.of_nat 0) by lia. apply eT_plus; [apply eT_factor, eT_atom|apply eT_one, eT_num; lia].
    rewrite E1. apply eats_numeral. exact L.
  - apply eT_sizeof. exact B3.
  - exact He.
Qed.

Lemma init_value : forall i m s n T, balanced (sm_type m) -> occupies env m (s, n) ->
  e_offset env c (Z.of_nat i) = Some T -> (i < 64)%nat ->
  has_value env (text_for offset_init c i m) (T + s * n).
Proof.
  intros i m s n T Bt [Es En] HT L. cbn [fst snd] in *. subst s. unfold text_for, is_array.
  destruct (sm_arity m) as [a|] eqn:Ea.
  - rewrite about_inst by closed. apply eT_value.
    replace (abstracted names (offset_init true)) with
      ((word "offset" :: TPunct "<" :: [TAtom 2] ++ TComma :: ([TAtom 1] ++ TPunct "+" :: [numeral 0]) ++ tokens ">::OFFSET")
       ++ TPunct "+" :: (word "sizeof" :: TLp :: [TAtom 3] ++ [TRp]) ++ TPunct "*" :: [TAtom 5]) by closed.
    apply (init_eats (sigma i c m) [TAtom 5] n i T); try assumption; [reflexivity|].
    apply eT_atom. cbn [sigma]. rewrite Ea. apply eats_primary. exact En.
  - rewrite about_inst by closed. apply eT_value.
    replace (abstracted names (offset_init false)) with
      ((word "offset" :: TPunct "<" :: [TAtom 2] ++ TComma :: ([TAtom 1] ++ TPunct "+" :: [numeral 0]) ++ tokens ">::OFFSET")
       ++ TPunct "+" :: (word "sizeof" :: TLp :: [TAtom 3] ++ [TRp]) ++ TPunct "*" :: [numeral 1]) by closed.
    apply (init_eats (sigma i c m) [numeral 1] n i T); try assumption; [reflexivity|].
    subst n. apply (eT_num env _ 1). lia.
Qed.

Definition address_shape (e idx : list tok) : list tok :=
  [word "my_data"] ++ TPunct "+" :: ((TLp :: [word "DIM_PROD"] ++ [TRp]) ++ TPunct "*" ::
      (TLp :: ((TLp :: ((word "sizeof" :: TLp :: [TAtom 3] ++ [TRp]) ++ TPunct "*" :: e) ++ [TRp]) ++ TPunct "+" ::
       word "detail" :: tokens "::" ++ word "flat_array" :: tokens "::" ++
         word "offset" :: TPunct "<" :: [TAtom 2] ++ TComma :: [TAtom 1] ++ tokens ">::OFFSET") ++ [TRp])) ++ TPunct "+" ::
      (idx ++ TPunct "*" :: (word "long" :: TLp :: (word "sizeof" :: TLp :: [TAtom 3] ++ [TRp]) ++ [TRp])) ++ TPunct "+" ::
      [word "INDEX"] ++ TPunct "*" :: (word "long" :: TLp :: (word "sizeof" :: TLp :: [TAtom 3] ++ [TRp]) ++ [TRp]).

Lemma address_eats : forall sg i e n T idx D P x I, balanced (sg 2%nat) -> balanced (sg 3%nat) -> sg 1%nat = [numeral i] ->
  eT env sg Factor e n -> e_offset env (sg 2%nat) (Z.of_nat i) = Some T -> (i < 64)%nat ->
  var_is env "my_data" D -> var_is env "DIM_PROD" P -> eT env sg Factor idx x -> var_is env "INDEX" I ->
  eT env sg Sum (address_shape e idx)
    (D + (P * (e_sizeof env (sg 3%nat) * n + T) + (x * e_sizeof env (sg 3%nat) + I * e_sizeof env (sg 3%nat)))).
Proof.
  intros sg i e n T idx D P x I B2 B3 E1 He HT L HD HP Hx HI. unfold address_shape.
  pose proof (eT_sizeof env sg 3 B3) as Sz.
  pose proof (eT_long env sg _ _ (eT_one _ _ _ _ Sz)) as Lg.
  apply eT_plus; [apply eT_factor, eT_var; [closed|exact HD]|].
  apply eT_plus; [apply eT_times2|apply eT_plus; [|apply eT_product]; apply eT_times2].
  - apply eT_paren, eT_one, eT_var; [closed|exact HP].
  - apply eT_paren, eT_plus; [apply eT_factor, eT_paren, eT_product, eT_times2; [exact Sz|exact He]|].
    apply eT_one. eapply eT_full_offset; [exact B2| |exact HT]. apply eT_one, eT_atom. rewrite E1. apply eats_numeral. exact L.
  - exact Hx.
  - exact Lg.
  - apply eT_var; [closed|exact HI].
  - exact Lg.
Qed.

Lemma address_value : forall i m s n T index D P x I k, balanced (sm_type m) -> occupies env m (s, n) ->
  e_offset env c (Z.of_nat i) = Some T -> (i < 64)%nat ->
  var_is env "my_data" D -> var_is env "DIM_PROD" P -> index_is env index x -> var_is env "INDEX" I ->
  var_is env "ARRAY_INDEX" k ->
  has_value env (text_for (address_text index) c i m)
    (D + (P * (s * match sm_arity m with None => 0 | Some _ => k end + T) + (x * s + I * s))).
Proof.
  intros i m s n T index D P x I k Bt [Es En] HT L HD HP Hx HI Hk. cbn [fst snd] in *. subst s.
  pose proof (index_eats env (sigma i c m) _ _ Hx) as Ex.
  assert (Nx : index = "my_index"%string \/ index = "*my_index"%string) by (destruct Hx as [[E _]|[E _]]; auto).
  unfold text_for, is_array. destruct (sm_arity m) as [a|] eqn:Ea.
  - rewrite about_inst by (destruct Nx as [-> | ->]; closed). apply eT_value.
    replace (abstracted names (address_text index true)) with (address_shape [word "ARRAY_INDEX"] (tokens index))
      by (destruct Nx as [-> | ->]; closed).
    apply (address_eats (sigma i c m) i _ k T); try assumption; [reflexivity|]. apply eT_var; [closed|exact Hk].
  - rewrite about_inst by (destruct Nx as [-> | ->]; closed). apply eT_value.
    replace (abstracted names (address_text index false)) with (address_shape [numeral 0] (tokens index))
      by (destruct Nx as [-> | ->]; closed).
    apply (address_eats (sigma i c m) i _ (Z.of_nat 0) T); try assumption; [reflexivity|]. apply eT_num. lia.
Qed.

(** ** Other expressions *)

(** Texts about the class only: the class is the atom 2. *)
Definition class_sg (n : nat) : list tok := match n with 2%nat => c | _ => [] end.

Lemma class_text_inst : forall s, no_atoms (tokens s) = true ->
  class_text c s = inst class_sg (abstracted [("THE_CLASS"%string, 2%nat)] (tokens s)).
Proof. intros s H. apply (fill_inst [("THE_CLASS"%string, 2%nat)] class_sg). exact H. Qed.

Lemma plain_value : forall l v, no_atoms l = true -> eT env class_sg Sum l v -> has_value env l v.
Proof. intros l v N H. apply eT_value in H. rewrite plain_inst in H by exact N. exact H. Qed.

Lemma gen_index_value : forall x y z dx dy,
  var_is env "x" x -> var_is env "y" y -> var_is env "z" z -> var_is env "DIM_X" dx -> var_is env "DIM_Y" dy ->
  has_value env (tokens gen_index_text) (z * (dx * dy) + (y * dx + x)).
Proof.
  intros x y z dx dy Hx Hy Hz Hdx Hdy.
  replace (tokens gen_index_text) with
    (([word "z"] ++ TPunct "*" :: [word "DIM_X"] ++ TPunct "*" :: [word "DIM_Y"]) ++ TPunct "+" ::
     ([word "y"] ++ TPunct "*" :: [word "DIM_X"]) ++ TPunct "+" :: [word "x"]) by closed.
  apply plain_value; [closed|]. plain_eats.
Qed.

Lemma gen_index_sized_value : forall x y z dx dy,
  var_is env "x" x -> var_is env "y" y -> var_is env "z" z -> var_is env "DIM_X" dx -> var_is env "DIM_Y" dy ->
  has_value env (tokens gen_index_text_sized) (z * (dx * dy) + (y * dx + x)).
Proof.
  intros x y z dx dy Hx Hy Hz Hdx Hdy.
  replace (tokens gen_index_text_sized) with
    (((word "static_cast" :: tokens "<long>" ++ TLp :: [word "z"] ++ [TRp]) ++ TPunct "*" :: [word "DIM_X"] ++ TPunct "*" :: [word "DIM_Y"]) ++ TPunct "+" ::
     ((word "static_cast" :: tokens "<long>" ++ TLp :: [word "y"] ++ [TRp]) ++ TPunct "*" :: [word "DIM_X"]) ++ TPunct "+" ::
     (word "static_cast" :: tokens "<long>" ++ TLp :: [word "x"] ++ [TRp])) by closed.
  apply plain_value; [closed|]. plain_eats.
Qed.

Lemma coord_index_value : forall X Y Zc dx dy I,
  var_is env "X" X -> var_is env "Y" Y -> var_is env "Z" Zc -> var_is env "DIM_X" dx -> var_is env "DIM_Y" dy ->
  var_is env "INDEX" I -> has_value env (tokens coord_index_text) (I + (Zc * (dx * dy) + (Y * dx + X))).
Proof.
  intros X Y Zc dx dy I HX HY HZ Hdx Hdy HI.
  replace (tokens coord_index_text) with
    (TLp :: ([word "INDEX"] ++ TPunct "+" :: ([word "Z"] ++ TPunct "*" :: TLp :: ([word "DIM_X"] ++ TPunct "*" :: [word "DIM_Y"]) ++ [TRp]) ++
     TPunct "+" :: ([word "Y"] ++ TPunct "*" :: [word "DIM_X"]) ++ TPunct "+" :: [word "X"]) ++ [TRp]) by closed.
  apply plain_value; [closed|]. apply eT_one. plain_eats.
Qed.

Lemma dim_prod_value : forall dx dy dz, var_is env "DIM_X" dx -> var_is env "DIM_Y" dy -> var_is env "DIM_Z" dz ->
  has_value env (tokens dim_prod_text) (dx * (dy * dz)).
Proof.
  intros dx dy dz Hdx Hdy Hdz.
  replace (tokens dim_prod_text) with ([word "DIM_X"] ++ TPunct "*" :: [word "DIM_Y"] ++ TPunct "*" :: [word "DIM_Z"]) by closed.
  apply plain_value; [closed|]. apply eT_product. plain_eats.
Qed.

Lemma numbered_value : forall index D P x I j T, index_is env index x ->
  var_is env "my_data" D -> var_is env "DIM_PROD" P -> var_is env "INDEX" I -> var_is env "OFFSET" j ->
  e_offset env c j = Some T ->
  has_value env (class_text c (numbered_text index))
    (D + (P * T + (x * e_sizeof env [word "MEMBER_TYPE"] + I * e_sizeof env [word "MEMBER_TYPE"]))).
Proof.
  intros index D P x I j T Hx HD HP HI Hj HT. pose proof (index_eats env class_sg _ _ Hx) as Ex.
  assert (Nx : index = "my_index"%string \/ index = "*my_index"%string) by (destruct Hx as [[E _]|[E _]]; auto).
  rewrite class_text_inst by (destruct Nx as [-> | ->]; closed). apply eT_value.
  replace (abstracted [("THE_CLASS"%string, 2%nat)] (tokens (numbered_text index))) with
    ([word "my_data"] ++ TPunct "+" :: ([word "DIM_PROD"] ++ TPunct "*" ::
       word "detail" :: tokens "::" ++ word "flat_array" :: tokens "::" ++
         word "offset" :: TPunct "<" :: [TAtom 2] ++ TComma :: [word "OFFSET"] ++ tokens ">::OFFSET") ++ TPunct "+" ::
     (tokens index ++ TPunct "*" :: word "sizeof" :: TLp :: [word "MEMBER_TYPE"] ++ [TRp]) ++ TPunct "+" ::
     [word "INDEX"] ++ TPunct "*" :: word "sizeof" :: TLp :: [word "MEMBER_TYPE"] ++ [TRp])
    by (destruct Nx as [-> | ->]; closed).
  apply eT_plus; [apply eT_factor, eT_var; [closed|exact HD]|].
  apply eT_plus; [apply eT_times2|apply eT_plus; [|apply eT_product]; apply eT_times2].
  - apply eT_var; [closed|exact HP].
  - eapply eT_full_offset; [exact Hc| |exact HT]. apply eT_one, eT_var; [closed|exact Hj].
  - exact Ex.
  - apply eT_sizeof_name.
  - apply eT_var; [closed|exact HI].
  - apply eT_sizeof_name.
Qed.

Lemma at_offset_value : forall index D P x I s o, index_is env index x ->
  var_is env "my_data" D -> var_is env "DIM_PROD" P -> var_is env "INDEX" I -> var_is env "size_of_member" s ->
  var_is env "offset" o ->
  has_value env (tokens (at_offset_text index)) (D + (P * o + (x * s + I * s))).
Proof.
  intros index D P x I s o Hx HD HP HI Hs Ho. pose proof (index_eats env class_sg _ _ Hx) as Ex.
  assert (Nx : index = "my_index"%string \/ index = "*my_index"%string) by (destruct Hx as [[E _]|[E _]]; auto).
  replace (tokens (at_offset_text index)) with
    ([word "my_data"] ++ TPunct "+" :: ([word "DIM_PROD"] ++ TPunct "*" :: [word "offset"]) ++ TPunct "+" ::
     (tokens index ++ TPunct "*" :: [word "size_of_member"]) ++ TPunct "+" ::
     [word "INDEX"] ++ TPunct "*" :: [word "size_of_member"])
    by (destruct Nx as [-> | ->]; closed).
  apply plain_value; [destruct Nx as [-> | ->]; closed|]. plain_eats. exact Ex.
Qed.

Lemma total_value : forall n T, var_is env "INDEX" n -> e_offset env c n = Some T ->
  has_value env (class_text c total_text) T.
Proof.
  intros n T Hn HT. rewrite class_text_inst by closed. apply eT_value.
  replace (abstracted [("THE_CLASS"%string, 2%nat)] (tokens total_text)) with
    (word "detail" :: tokens "::" ++ word "flat_array" :: tokens "::" ++
         word "offset" :: TPunct "<" :: [TAtom 2] ++ TComma :: [word "INDEX"] ++ tokens ">::OFFSET") by closed.
  apply eT_one. eapply eT_full_offset; [exact Hc| |exact HT]. apply eT_one, eT_var; [closed|exact Hn].
Qed.

Lemma linear_value : forall i m buffer B T stride, buffer = "source"%string \/ buffer = "target"%string ->
  var_is env buffer B -> var_is env "stride" stride -> e_offset env c (Z.of_nat i) = Some T -> (i < 64)%nat ->
  has_value env (about i c m (tokens (linear_text buffer))) (B + T * stride).
Proof.
  intros i m buffer B T stride Nb HB Hs HT L.
  rewrite about_inst by (destruct Nb as [-> | ->]; closed). apply eT_value.
  replace (abstracted names (tokens (linear_text buffer))) with
    ([word buffer] ++ TPunct "+" :: (word "detail" :: tokens "::" ++ word "flat_array" :: tokens "::" ++
         word "offset" :: TPunct "<" :: [TAtom 2] ++ TComma :: [TAtom 1] ++ tokens ">::OFFSET") ++ TPunct "*" :: [word "stride"])
    by (destruct Nb as [-> | ->]; closed).
  apply eT_plus; [apply eT_factor, eT_var; [destruct Nb as [-> | ->]; closed|exact HB]|]. apply eT_product, eT_times2.
  - eapply eT_full_offset; [exact Hc| |exact HT]. apply eT_one, eT_atom. apply eats_numeral. exact L.
  - apply eT_var; [closed|exact Hs].
Qed.

End Expressions.
