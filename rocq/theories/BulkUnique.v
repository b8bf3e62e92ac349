(** Proofs for C73: more fuel changes nothing, so a text performs at most one list of
    accesses. *)
From Coq Require Import String Ascii ZArith Bool Lia.
From Coq Require Import List.
From Verif Require Import Base Layout Mem.
From Verif Require Import Preproc PreprocAbs PreprocLib SpecPreproc PreprocProofs SpecRegister RegisterProofs RegisterValues.
From Verif Require Import SpecBulk BulkProofs.
Import ListNotations.
Local Open Scope Z_scope.

Opaque lib lib_words tokens.

(** One bind: [tac E] rewrites the first part in the goal. *)
Ltac one H tac :=
  let x := fresh "x" in let E := fresh "E" in
  apply bind_some in H; destruct H as [x [E H]]; first [rewrite E|tac E]; cbn [bind]; cbn beta in H.

Lemma called_more : forall f types o x arg v, called f types o x arg = Some v -> called (S f) types o x arg = Some v.
Proof.
  intros f types o x arg v H. unfold called in *.
  one H ltac:(fun E => fail). one H ltac:(fun E => fail).
  assert (K : forall k w, bind (ev (with_var (o_env o) (spell "ARRAY_INDEX") k) f Sum (d_address x0)) (fun v =>
      match snd v with [] => Some (mkPtr (o_block o) (fst v)) | _ => None end) = Some w ->
    bind (ev (with_var (o_env o) (spell "ARRAY_INDEX") k) (S f) Sum (d_address x0)) (fun v =>
      match snd v with [] => Some (mkPtr (o_block o) (fst v)) | _ => None end) = Some w).
  { intros k w Q. one Q ltac:(fun E => rewrite (ev_more _ _ _ _ _ E)). exact Q. }
  destruct (d_array x0), arg; try discriminate H;
    one H ltac:(fun E => rewrite (K _ _ E)); exact H.
Qed.

Lemma sums_more : forall s f v l x, sums s f v l = Some x -> sums s (S f) v l = Some x.
Proof.
  intros s f. induction f as [|f IH]; intros v l x H; [discriminate|]. remember (S f) as g. cbn [sums]. rewrite Heqg in H. cbn [sums] in H.
  destruct (after (TPunct "+") l); [|exact H]. subst g.
  one H ltac:(fun E => rewrite (ev_more _ _ _ _ _ E)). one H ltac:(fun E => fail). exact (IH _ _ _ H).
Qed.

Lemma subscripts_more : forall s f v l x, subscripts s f v l = Some x -> subscripts s (S f) v l = Some x.
Proof.
  intros s f. induction f as [|f IH]; intros v l x H; [discriminate|]. remember (S f) as g. cbn [subscripts]. rewrite Heqg in H.
  cbn [subscripts] in H. destruct (after (TPunct "[") l); [|exact H]. subst g.
  one H ltac:(fun E => rewrite (ev_more _ _ _ _ _ E)). do 2 one H ltac:(fun E => fail). exact (IH _ _ _ H).
Qed.

Lemma call_of_more : forall s f o l x, call_of s f o l = Some x -> call_of s (S f) o l = Some x.
Proof.
  intros s f o l x H. unfold call_of in *. destruct l as [|t r]; [discriminate|]. destruct t; try discriminate.
  destruct (after (TPunct "<") r).
  - one H ltac:(fun E => rewrite (ev_more _ _ _ _ _ E)). one H ltac:(fun E => fail).
    one H ltac:(fun E => rewrite (called_more _ _ _ _ _ _ E)). exact H.
  - one H ltac:(fun E => fail). one H ltac:(fun E => rewrite (called_more _ _ _ _ _ _ E)). exact H.
Qed.

Lemma pv_more : forall s f k l x, pv s f k l = Some x -> pv s (S f) k l = Some x.
Proof.
  intros s f. induction f as [|f IH]; intros k l x H; [discriminate|]. destruct k.
  - rewrite pv_sum in *. one H ltac:(fun E => rewrite (IH _ _ _ E)). apply sums_more. exact H.
  - rewrite pv_unary in *. destruct (after (TPunct "&") l).
    + one H ltac:(fun E => rewrite (IH _ _ _ E)). exact H.
    + apply IH. exact H.
  - rewrite pv_postfix in *. one H ltac:(fun E => rewrite (IH _ _ _ E)). apply subscripts_more. exact H.
  - destruct l as [|t r]; [discriminate|]. destruct t; try discriminate.
    + rewrite pv_id in *. destruct (Pos.eqb p (spell "this")).
      * one H ltac:(fun E => fail). apply call_of_more. exact H.
      * destruct (assoc (s_pointers s) p); [exact H|]. destruct (assoc (s_objects s) p).
        -- one H ltac:(fun E => fail). apply call_of_more. exact H.
        -- destruct (match s_cell s with Some y => Pos.eqb p y | None => false end); [exact H|]. apply call_of_more. exact H.
    + rewrite pv_paren in *. one H ltac:(fun E => fail). destruct (pointer_type (s_type s) (fst x0)).
      * one H ltac:(fun E => rewrite (IH _ _ _ E)). exact H.
      * one H ltac:(fun E => rewrite (IH _ _ _ E)). exact H.
Qed.

Lemma whole_pv_more : forall s f k l x, whole (pv s f k l) = Some x -> whole (pv s (S f) k l) = Some x.
Proof. intros s f k l x H. unfold whole in *. one H ltac:(fun E => rewrite (pv_more _ _ _ _ _ E)). exact H. Qed.

Lemma template_int_more : forall s f l x, template_int s f l = Some x -> template_int s (S f) l = Some x.
Proof.
  intros s f l x H. unfold template_int in *. one H ltac:(fun E => fail). unfold whole in *.
  apply bind_some in H. destruct H as [y [Ey H]]. apply bind_some in Ey. destruct Ey as [z [Ez E2]].
  rewrite (ev_more _ _ _ _ _ Ez). cbn [bind]. rewrite E2. exact H.
Qed.

Ltac more H := repeat one H ltac:(fun E =>
  first [rewrite (ev_more _ _ _ _ _ E)|rewrite (pv_more _ _ _ _ _ E)|rewrite (template_int_more _ _ _ _ E)
        |rewrite (whole_pv_more _ _ _ _ _ E)]).

Section Statements.
Variable c : list tok.

Lemma cell_helper_more : forall s f size l x, cell_helper c s f size l = Some x -> cell_helper c s (S f) size l = Some x.
Proof.
  intros s f size l x H. unfold cell_helper in *. one H ltac:(fun E => fail).
  destruct (negb (same_text (fst x0) c)); [discriminate|]. more H. destruct (negb (d_array x8)); [discriminate|].
  one H ltac:(fun E => fail). destruct x9 as [|t r]; [discriminate|]. destruct t; try discriminate. more H. exact H.
Qed.

Lemma array_helper_more : forall s f size l x, array_helper s f size l = Some x -> array_helper s (S f) size l = Some x.
Proof.
  intros s f size l x H. unfold array_helper in *. one H ltac:(fun E => fail). one H ltac:(fun E => fail).
  destruct x1 as [|t r]; [discriminate|]. destruct t; try discriminate. more H. exact H.
Qed.

Lemma helper_call_more : forall s f l x, helper_call c s f l = Some x -> helper_call c s (S f) l = Some x.
Proof.
  intros s f l x H. unfold helper_call in *. more H. destruct (after_all (tokens "::template inner1<") (snd x0)).
  - apply cell_helper_more. exact H.
  - one H ltac:(fun E => fail). apply array_helper_more. exact H.
Qed.

Lemma call_statement_more : forall s f p l x, call_statement c s f p l = Some x -> call_statement c s (S f) p l = Some x.
Proof.
  intros s f p l x H. unfold call_statement in *.
  destruct (Pos.eqb p (spell "new")); [unfold placement_new in *; more H; exact H|].
  destruct (Pos.eqb p (spell "detail")); [unfold destruct_call in *; more H; exact H|].
  destruct (Pos.eqb p (spell "std")); [unfold copy_call in *; more H; exact H|].
  destruct (Pos.eqb p (spell "typename")); [|discriminate]. one H ltac:(fun E => fail). apply helper_call_more. exact H.
Qed.

Lemma simple_more : forall s f l x, simple c s f l = Some x -> simple c s (S f) l = Some x.
Proof.
  intros s f l x H. unfold simple in *. destruct (scan (punct "=") l 0) as [[lhs rhs]|].
  - one H ltac:(fun E => rewrite (whole_pv_more _ _ _ _ _ E)). destruct (declared s lhs) as [[y t]|]; more H; exact H.
  - destruct l as [|t r]; [discriminate|]. destruct t; try discriminate.
    one H ltac:(fun E => rewrite (call_statement_more _ _ _ _ _ E)). exact H.
Qed.

Lemma goes_on_more : forall s f h k x, goes_on s f h k = Some x -> goes_on s (S f) h k = Some x.
Proof. intros s f h k x H. unfold goes_on in *. more H. exact H. Qed.

Lemma loop_more : forall g (p p' : Z -> option bool) (r r' : Z -> option (list event)) k x,
  (forall k y, p k = Some y -> p' k = Some y) -> (forall k y, r k = Some y -> r' k = Some y) ->
  loop g p r k = Some x -> loop (S g) p' r' k = Some x.
Proof.
  induction g as [|g IH]; intros p p' r r' k x Hp Hr H; [discriminate|]. remember (S g) as g1. cbn [loop]. rewrite Heqg1 in H.
  cbn [loop] in H. one H ltac:(fun E => rewrite (Hp _ _ E)). destruct x0; [|exact H].
  one H ltac:(fun E => rewrite (Hr _ _ E)). one H ltac:(fun E => rewrite (IH _ _ _ _ _ _ Hp Hr E)). exact H.
Qed.

Lemma run_more : forall f s l x, run c f s l = Some x -> run c (S f) s l = Some x.
Proof.
  intros f. induction f as [|f IH]; intros s l x H; [discriminate|]. destruct l as [|t r]; [exact H|].
  rewrite run_cons in *. destruct (punct ";" t); [apply IH; exact H|]. destruct (punct "{" t).
  { one H ltac:(fun E => fail). one H ltac:(fun E => rewrite (IH _ _ _ E)). one H ltac:(fun E => rewrite (IH _ _ _ E)). exact H. }
  destruct (same_tok t (word "for")).
  { do 3 one H ltac:(fun E => fail).
    one H ltac:(fun E => fail). one H ltac:(fun E => fail).
    one H ltac:(fun E => rewrite (loop_more f (goes_on s f x2) (goes_on s (S f) x2)
      (fun k => run c f (with_int s (fst x2) k) (fst x4)) (fun k => run c (S f) (with_int s (fst x2) k) (fst x4)) _ _
      (fun k y => goes_on_more s f x2 k y) (fun k y => IH _ _ y) E)).
    one H ltac:(fun E => rewrite (IH _ _ _ E)). exact H. }
  one H ltac:(fun E => fail). one H ltac:(fun E => rewrite (simple_more _ _ _ _ E)). one H ltac:(fun E => rewrite (IH _ _ _ E)). exact H.
Qed.

Lemma run_le : forall f g s l x, run c f s l = Some x -> (f <= g)%nat -> run c g s l = Some x.
Proof. intros f g s l x H L. induction L; [exact H|]. apply run_more. exact IHL. Qed.

Lemma performs_unique : forall s l x y, performs c s l x -> performs c s l y -> x = y.
Proof.
  intros s l x y [f Hf] [g Hg]. apply (run_le f (Nat.max f g)) in Hf; [|lia]. apply (run_le g (Nat.max f g)) in Hg; [|lia]. congruence.
Qed.

End Statements.
