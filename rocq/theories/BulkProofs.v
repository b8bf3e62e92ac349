(** Proofs for C73: running the statements of the generated bulk functions. *)
From Coq Require Import String Ascii ZArith Bool Lia.
From Coq Require Import List.
From Verif Require Import Base Layout Mem Accessor AccessorProofs.
From Verif Require Import Preproc PreprocAbs PreprocLib SpecPreproc PreprocProofs SpecRegister RegisterProofs RegisterValues.
From Verif Require Import PropsRegister SpecBulk.
Import ListNotations.
Local Open Scope Z_scope.

Opaque lib lib_words.

(** ** Scanning texts with atoms *)

Definition skips (stop : tok -> bool) (l : list tok) : Prop :=
  forall r d, scan stop (l ++ r) d = bind (scan stop r d) (fun x => Some (l ++ fst x, snd x)).

Definition stops (stop : tok -> bool) : Prop :=
  stop = is_rp \/ stop = punct "}" \/ stop = punct ";" \/ stop = punct "=".

Lemma quiet_token : forall stop t d, stops stop ->
  punct "{" t = false /\ punct "}" t = false /\ punct ";" t = false /\ punct "=" t = false ->
  (t = TRp -> d <> O) -> Nat.eqb d 0 && stop t = false.
Proof.
  intros stop t d S [H1 [H2 [H3 H4]]] Hd. destruct d as [|d]; [|reflexivity]. cbn [Nat.eqb andb].
  destruct S as [-> | [-> | [-> | ->]]]; try assumption. destruct t; try reflexivity. exfalso. apply Hd; reflexivity.
Qed.

Lemma quiet_skips : forall stop l, stops stop -> balanced l -> no_statement l -> skips stop l.
Proof.
  intros stop l S B Q r d.
  enough (G : forall e, bal l e = true -> scan stop (l ++ r) (e + d) = bind (scan stop r d) (fun x => Some (l ++ fst x, snd x)))
    by (apply (G O B)).
  clear B. induction Q as [|t l Ht Q IH]; intros e B.
  - cbn [bal] in B. apply Nat.eqb_eq in B. subst e. cbn [app Nat.add]. destruct (scan stop r d) as [[a b]|]; reflexivity.
  - cbn [app scan]. rewrite (quiet_token stop t (e + d) S Ht) by (intros ->; cbn [bal] in B; destruct e; [discriminate|discriminate]).
    assert (K : forall e', (if opens t then Some (Datatypes.S (e + d)) else if closes t then match (e + d)%nat with O => None | Datatypes.S d' => Some d' end else Some (e + d)%nat)
              = Some (e' + d)%nat -> bal l e' = true ->
      bind (if opens t then Some (Datatypes.S (e + d)) else if closes t then match (e + d)%nat with O => None | Datatypes.S d' => Some d' end else Some (e + d)%nat)
        (fun d' => bind (scan stop (l ++ r) d') (fun x => Some (t :: fst x, snd x)))
      = bind (scan stop r d) (fun x => Some (t :: l ++ fst x, snd x))).
    { intros e' E B'. rewrite E. cbn [bind]. rewrite (IH e' B'). destruct (scan stop r d) as [[a b]|]; reflexivity. }
    destruct Ht as [H1 [H2 _]]. destruct t; cbn [bal] in B; cbn [opens closes] in *;
      try (apply (K e); [reflexivity|exact B]).
    + apply (K e); [|exact B]. cbn [punct] in H1, H2. rewrite Ascii.eqb_sym in H1, H2. rewrite H1, H2. reflexivity.
    + apply (K (Datatypes.S e)); [reflexivity|exact B].
    + destruct e as [|e]; [discriminate|]. apply (K e); [reflexivity|exact B].
    + destruct e as [|e]; [discriminate|]. apply (K (Datatypes.S e)); [reflexivity|exact B].
Qed.

Section Atoms.
Variable sg : nat -> list tok.

Lemma inst_nonatom : forall t l, is_atom t = false -> inst sg (t :: l) = t :: inst sg l.
Proof. intros t l H. destruct t; try reflexivity. discriminate. Qed.

Lemma scan_inst : forall stop, (forall n, skips stop (sg n)) -> (forall n, stop (TAtom n) = false) ->
  forall l d r, scan stop (inst sg l ++ r) d =
    match scan stop l d with
    | Some (a, b) => Some (inst sg a, inst sg b ++ r)
    | None => match l with [] => scan stop r d | _ => scan stop (inst sg l ++ r) d end
    end.
Proof.
  intros stop Hs Ha l. induction l as [|t l IH]; intros d r; [reflexivity|].
  destruct (scan stop (t :: l) d) as [[a b]|] eqn:E; [|reflexivity].
  destruct (is_atom t) eqn:At.
  - destruct t; try discriminate. cbn [scan opens closes] in E. rewrite Ha, andb_false_r in E. cbn [bind] in E.
    cbn [inst]. rewrite <- app_assoc, Hs, IH. destruct (scan stop l d) as [[x y]|]; [|discriminate].
    cbn [bind fst snd] in *. injection E as <- <-. reflexivity.
  - rewrite inst_nonatom by exact At. cbn [app scan] in *. destruct (Nat.eqb d 0 && stop t).
    + injection E as <- <-. reflexivity.
    + destruct (if opens t then Some (S d) else if closes t then match d with O => None | S d' => Some d' end else Some d) as [d'|];
        [|discriminate]. cbn [bind] in *. rewrite IH. destruct (scan stop l d') as [[x y]|]; [|discriminate].
      cbn [bind fst snd] in *. injection E as <- <-. rewrite inst_nonatom by exact At. reflexivity.
Qed.

Lemma scan_some : forall stop l d r a b, (forall n, skips stop (sg n)) -> (forall n, stop (TAtom n) = false) ->
  scan stop l d = Some (a, b) -> scan stop (inst sg l ++ r) d = Some (inst sg a, inst sg b ++ r).
Proof. intros stop l d r a b Hs Ha E. rewrite scan_inst, E by assumption. reflexivity. Qed.

Lemma scan_none : forall stop, (forall n, skips stop (sg n)) -> (forall n, stop (TAtom n) = false) ->
  forall l d, scan stop l d = None -> scan stop (inst sg l) d = None.
Proof.
  intros stop Hs Ha l. induction l as [|t l IH]; intros d E; [reflexivity|].
  destruct (is_atom t) eqn:At.
  - destruct t; try discriminate. cbn [scan opens closes] in E. rewrite Ha, andb_false_r in E. cbn [bind] in E.
    cbn [inst]. rewrite Hs. rewrite IH; [reflexivity|]. destruct (scan stop l d); [discriminate|reflexivity].
  - rewrite inst_nonatom by exact At. cbn [scan] in *. destruct (Nat.eqb d 0 && stop t); [discriminate|].
    destruct (if opens t then Some (S d) else if closes t then match d with O => None | S d' => Some d' end else Some d) as [d'|];
      [|reflexivity]. cbn [bind] in *. rewrite IH; [reflexivity|]. destruct (scan stop l d'); [discriminate|reflexivity].
Qed.

End Atoms.

Lemma angle_closed : forall l r, angles l 0 0 = true -> angle (l ++ TPunct ">" :: r) 0 0 = Some (l, r).
Proof.
  intros l r. generalize 0%nat at 1 3 as p. generalize 0%nat as a.
  induction l as [|t l IH]; intros a p H.
  - cbn [angles] in H. apply andb_true_iff in H. destruct H as [Hp Ha]. cbn [app angle]. rewrite Hp, Ha. reflexivity.
  - cbn [app angle]. assert (N : Nat.eqb p 0 && Nat.eqb a 0 && punct ">" t = false).
    { destruct t; cbn [punct]; rewrite ?andb_false_r; try reflexivity. cbn [angles] in H.
      destruct (Nat.eqb p 0) eqn:Ep; [|reflexivity]. destruct (Nat.eqb a 0) eqn:Ea; [|reflexivity]. cbn [andb].
      destruct (Ascii.eqb ">" c) eqn:Ec; [|reflexivity]. apply Ascii.eqb_eq in Ec. subst c.
      apply Nat.eqb_eq in Ea. subst a. discriminate. }
    rewrite N. destruct t; cbn [angles] in H; try (cbn [bind fst snd]; rewrite (IH _ _ H); reflexivity).
    + destruct (Nat.eqb p 0); [|cbn [bind fst snd]; rewrite (IH _ _ H); reflexivity].
      destruct (Ascii.eqb c "<"); [cbn [bind fst snd]; rewrite (IH _ _ H); reflexivity|].
      destruct (Ascii.eqb c ">"); [|cbn [bind fst snd]; rewrite (IH _ _ H); reflexivity].
      destruct a; [discriminate|]. cbn [bind fst snd pred]. rewrite (IH _ _ H). reflexivity.
    + destruct p; [discriminate|]. cbn [bind fst snd]. rewrite (IH _ _ H). reflexivity.
Qed.

Lemma butlast_snoc : forall l t, butlast (l ++ [t]) = Some (l, t).
Proof.
  induction l as [|u l IH]; intros t; [reflexivity|]. cbn [app butlast]. rewrite IH. cbn [bind fst snd].
  destruct l; reflexivity.
Qed.

Lemma same_text_refl : forall l, same_text l l = true.
Proof. induction l as [|t l IH]; [reflexivity|]. cbn [same_text]. destruct (same_tok t t); [exact IH|congruence]. Qed.

(** ** Expressions *)

(* Expected tokens. *)
Ltac eat := repeat (rewrite after_here; cbn [bind after_all fst snd]).

Lemma ev_max : forall env k l v, eats env k l v -> exists f0, forall f r, (f0 <= f)%nat -> ends k r -> ev env f k (l ++ r) = Some (v, r).
Proof. intros env k l v H. exact H. Qed.

Section Expressions.
Variable s : scope.

Lemma pv_sum : forall f l, pv s (S f) PSum l = bind (pv s f PUnary l) (fun x => sums s f (fst x) (snd x)).
Proof. reflexivity. Qed.
Lemma pv_unary : forall f l, pv s (S f) PUnary l =
  match after (TPunct "&") l with
  | Some r => bind (pv s f PUnary r) (fun x => bind (address_of (fst x)) (fun v => Some (v, snd x)))
  | None => pv s f PPostfix l
  end.
Proof. reflexivity. Qed.
Lemma pv_postfix : forall f l, pv s (S f) PPostfix l = bind (pv s f PPrimary l) (fun x => subscripts s f (fst x) (snd x)).
Proof. reflexivity. Qed.
Lemma pv_paren : forall f r, pv s (S f) PPrimary (TLp :: r) =
  bind (scan is_rp r 0) (fun x =>
    match pointer_type (s_type s) (fst x) with
    | Some t => bind (pv s f PUnary (snd x)) (fun y => bind (converted (fst y) t) (fun v => Some (v, snd y)))
    | None => bind (pv s f PSum (fst x)) (fun y => match snd y with [] => Some (fst y, snd x) | _ => None end)
    end).
Proof. reflexivity. Qed.
Lemma pv_id : forall f x r, pv s (S f) PPrimary (TId x :: r) =
  if Pos.eqb x (spell "this") then bind (after_all [TPunct "-"; TPunct ">"] r) (call_of s f (s_this s)) else
  match assoc (s_pointers s) x with
  | Some (p, t) => Some (Pointer p t, r)
  | None =>
    match assoc (s_objects s) x with
    | Some o => bind (after (TPunct ".") r) (call_of s f o)
    | None =>
      if match s_cell s with Some y => Pos.eqb x y | None => false end then
        bind (after (TPunct ".") r) (fun r =>
          match r with
          | TId y :: r => bind (member_named (o_decls (s_this s)) y) (fun d =>
              if d_array d then None else Some (OfCell (d_no d), r))
          | _ => None
          end)
      else call_of s f (s_this s) (TId x :: r)
    end
  end.
Proof. reflexivity. Qed.
Lemma sums_end : forall f v l, free_of (TPunct "+") l -> sums s (S f) v l = Some (v, l).
Proof. intros f v l H. cbn [sums]. unfold free_of in H. rewrite H. reflexivity. Qed.
Lemma sums_plus : forall f v r, sums s (S f) v (TPunct "+" :: r) =
  bind (ev (s_env s) f Product r) (fun x => bind (moved v (fst x)) (fun w => sums s f w (snd x))).
Proof. intros f v r. cbn [sums]. rewrite after_here. reflexivity. Qed.
Lemma subscripts_end : forall f v l, free_of (TPunct "[") l -> subscripts s (S f) v l = Some (v, l).
Proof. intros f v l H. cbn [subscripts]. unfold free_of in H. rewrite H. reflexivity. Qed.
Lemma subscripts_one : forall f v r, subscripts s (S f) v (TPunct "[" :: r) =
  bind (ev (s_env s) f Sum r) (fun x => bind (after (TPunct "]") (snd x)) (fun r =>
      bind (subscript v (fst x)) (fun w => subscripts s f w r))).
Proof. intros f v r. cbn [subscripts]. rewrite after_here. reflexivity. Qed.

Variable sg : nat -> list tok.
Hypothesis sg_skips : forall stop n, stops stop -> skips stop (sg n).

Definition pends (k : plevel) (r : list tok) : Prop :=
  match k with
  | PSum => free_of (TPunct "+") r /\ free_of (TPunct "[") r /\ ends Product r
  | PUnary | PPostfix => free_of (TPunct "[") r
  | PPrimary => True
  end.

Definition pT (k : plevel) (l : list tok) (v : value) : Prop :=
  exists f0, forall f r, (f0 <= f)%nat -> pends k r -> pv s f k (inst sg l ++ r) = Some (v, r).

Lemma pT_whole : forall l v, pT PSum l v -> exists f0, forall f, (f0 <= f)%nat -> whole (pv s f PSum (inst sg l)) = Some v.
Proof.
  intros l v [f0 H]. exists f0. intros f L. rewrite <- (app_nil_r (inst sg l)).
  rewrite H; [reflexivity|exact L|repeat split; reflexivity].
Qed.

Lemma pT_whole_unary : forall l v, pT PUnary l v -> exists f0, forall f, (f0 <= f)%nat -> whole (pv s f PUnary (inst sg l)) = Some v.
Proof.
  intros l v [f0 H]. exists f0. intros f L. rewrite <- (app_nil_r (inst sg l)). rewrite H; [reflexivity|exact L|reflexivity].
Qed.

Lemma pT_sum : forall l v, pT PUnary l v -> pT PSum l v.
Proof.
  intros l v [f0 H]. exists (S (S f0)). intros f r L [E1 [E2 _]]. destruct f as [|[|f]]; try lia. rewrite pv_sum.
  rewrite H by (try exact E2; lia). cbn [bind fst snd]. apply sums_end. exact E1.
Qed.

Lemma pT_plus : forall l a b v n w, l = a ++ TPunct "+" :: b -> pT PUnary a v -> eT (s_env s) sg Product b n ->
  moved v n = Some w -> pT PSum l w.
Proof.
  intros l a b v n w -> [f1 H1] [f2 H2] M. exists (S (S (S (Nat.max f1 f2)))). intros f r L [E1 [E2 E3]].
  destruct f as [|[|[|f]]]; try lia. rewrite inst_app. cbn [inst]. rewrite <- app_assoc. cbn [app]. rewrite pv_sum.
  rewrite H1; [|lia|reflexivity]. cbn [bind fst snd]. rewrite sums_plus, H2 by (try exact E3; lia).
  cbn [bind fst snd]. rewrite M. cbn [bind]. apply sums_end. exact E1.
Qed.

Lemma pT_amp : forall l x p t, l = TPunct "&" :: x -> pT PUnary x (Element p t) -> pT PUnary l (Pointer p (Some t)).
Proof.
  intros l x p t -> [f0 H]. exists (S f0). intros f r L E. destruct f as [|f]; [lia|]. cbn [inst app]. rewrite pv_unary, after_here.
  rewrite H by (try exact E; lia). reflexivity.
Qed.

Definition no_amp (l : list tok) : Prop := match l with [] => False | t :: _ => is_atom t = false /\ punct "&" t = false end.

Lemma no_amp_after : forall l r, no_amp l -> after (TPunct "&") (inst sg l ++ r) = None.
Proof.
  intros [|t l] r H; [contradiction|]. destruct H as [H1 H2]. rewrite inst_nonatom by exact H1. cbn [app]. unfold after.
  destruct (same_tok (TPunct "&") t) as [<-|]; [discriminate|reflexivity].
Qed.

Lemma pT_unary : forall l v, no_amp l -> pT PPostfix l v -> pT PUnary l v.
Proof.
  intros l v N [f0 H]. exists (S f0). intros f r L E. destruct f as [|f]; [lia|]. rewrite pv_unary, no_amp_after by exact N.
  apply H; [lia|exact E].
Qed.

Lemma pT_postfix : forall l v, pT PPrimary l v -> pT PPostfix l v.
Proof.
  intros l v [f0 H]. exists (S (S f0)). intros f r L E. destruct f as [|[|f]]; try lia. rewrite pv_postfix.
  rewrite H by (try exact I; lia). cbn [bind fst snd]. apply subscripts_end. exact E.
Qed.

Lemma pT_subscript : forall l a b v n w, l = a ++ TPunct "[" :: b ++ [TPunct "]"] ->
  pT PPrimary a v -> eT (s_env s) sg Sum b n -> subscript v n = Some w -> pT PPostfix l w.
Proof.
  intros l a b v n w -> [f1 H1] [f2 H2] M. exists (S (S (S (Nat.max f1 f2)))). intros f r L E.
  destruct f as [|[|[|f]]]; try lia. rewrite inst_app. cbn [inst]. rewrite inst_app. cbn [inst].
  rewrite <- app_assoc. cbn [app]. rewrite <- app_assoc. cbn [app]. rewrite pv_postfix.
  rewrite H1 by (try exact I; lia). cbn [bind fst snd]. rewrite subscripts_one, H2; [|lia|repeat split; reflexivity].
  cbn [bind fst snd]. rewrite after_here. cbn [bind]. rewrite M. cbn [bind]. apply subscripts_end. exact E.
Qed.

Lemma rp_skips : forall n, skips is_rp (sg n).
Proof. intros n. apply sg_skips. left. reflexivity. Qed.

Lemma pT_paren : forall l x a v, l = TLp :: x -> scan is_rp x 0 = Some (a, []) ->
  pointer_type (s_type s) (inst sg a) = None -> pT PSum a v -> pT PPrimary l v.
Proof.
  intros l x a v -> E N [f0 H]. exists (S f0). intros f r L _. destruct f as [|f]; [lia|]. cbn [inst app]. rewrite pv_paren.
  rewrite (scan_some sg is_rp x 0 r a [] rp_skips (fun _ => eq_refl) E). cbn [bind fst snd inst app]. rewrite N.
  rewrite <- (app_nil_r (inst sg a)). rewrite H by (try (repeat split; reflexivity); lia). reflexivity.
Qed.

Lemma pT_cast : forall l x a b t v w, l = TLp :: x -> scan is_rp x 0 = Some (a, b) ->
  pointer_type (s_type s) (inst sg a) = Some t -> pT PUnary b v -> converted v t = Some w -> pT PPostfix l w.
Proof.
  intros l x a b t v w -> E N [f0 H] C. exists (S (S f0)). intros f r L F. destruct f as [|[|f]]; try lia. cbn [inst app].
  rewrite pv_postfix, pv_paren.
  rewrite (scan_some sg is_rp x 0 r a b rp_skips (fun _ => eq_refl) E). cbn [bind fst snd]. rewrite N.
  rewrite H by (try exact F; lia). cbn [bind fst snd]. rewrite C. cbn [bind fst snd]. apply subscripts_end. exact F.
Qed.

(** Calls of member functions. *)
Definition calls (o : object) (x : spelling) (arg : option Z) (v : value) : Prop :=
  exists f0, forall f, (f0 <= f)%nat -> called f (s_type s) o x arg = Some v.

Lemma call_plain : forall o x v f0, (forall f, (f0 <= f)%nat -> called f (s_type s) o x None = Some v) ->
  forall f r, (f0 <= f)%nat -> call_of s f o (TId x :: TLp :: TRp :: r) = Some (v, r).
Proof.
  intros o x v f0 H f r L. cbn [call_of after_all]. change (after (TPunct "<") (TLp :: TRp :: r)) with (@None (list tok)).
  eat. rewrite H by exact L. reflexivity.
Qed.

Lemma pT_this : forall l p n v, l = word "this" :: TPunct "-" :: TPunct ">" :: TAtom n :: TLp :: TRp :: nil ->
  sg n = [TId p] -> calls (s_this s) p None v -> pT PPrimary l v.
Proof.
  intros l p n v -> E [f0 H]. exists (S f0). intros f r L _. destruct f as [|f]; [lia|]. cbn [inst app word]. rewrite E.
  unfold word. cbn [app]. rewrite pv_id, Pos.eqb_refl. cbn [after_all]. eat.
  apply (call_plain _ _ _ f0 H). lia.
Qed.

Lemma pT_object : forall l x p n o v, l = word x :: TPunct "." :: TAtom n :: TLp :: TRp :: nil ->
  sg n = [TId p] -> Pos.eqb (spell x) (spell "this") = false -> assoc (s_pointers s) (spell x) = None ->
  assoc (s_objects s) (spell x) = Some o -> calls o p None v -> pT PPrimary l v.
Proof.
  intros l x p n o v -> E N1 N2 N3 [f0 H]. exists (S f0). intros f r L _. destruct f as [|f]; [lia|]. cbn [inst app word]. rewrite E.
  unfold word. cbn [app]. rewrite pv_id, N1, N2, N3, after_here. cbn [bind]. apply (call_plain _ _ _ f0 H). lia.
Qed.

Definition unqualified (p : spelling) : Prop :=
  Pos.eqb p (spell "this") = false /\ assoc (s_pointers s) p = None /\ assoc (s_objects s) p = None /\
  match s_cell s with Some y => Pos.eqb p y = false | None => True end.

Lemma pv_unqualified : forall f p r, unqualified p -> pv s (S f) PPrimary (TId p :: r) = call_of s f (s_this s) (TId p :: r).
Proof.
  intros f p r [H1 [H2 [H3 H4]]]. rewrite pv_id, H1, H2, H3. destruct (s_cell s); [rewrite H4|]; reflexivity.
Qed.

Lemma pT_member : forall l p n v, l = TAtom n :: TLp :: TRp :: nil -> sg n = [TId p] -> unqualified p ->
  calls (s_this s) p None v -> pT PPrimary l v.
Proof.
  intros l p n v -> E U [f0 H]. exists (S f0). intros f r L _. destruct f as [|f]; [lia|]. cbn [inst]. rewrite E.
  cbn [app]. rewrite pv_unqualified by exact U. apply (call_plain _ _ _ f0 H). lia.
Qed.

Lemma pT_member_at : forall l p n b k v, l = TAtom n :: TPunct "<" :: b ++ [TPunct ">"; TLp; TRp] -> sg n = [TId p] -> unqualified p ->
  eT (s_env s) sg Sum b k -> calls (s_this s) p (Some k) v -> pT PPrimary l v.
Proof.
  intros l p n b k v -> E U [f1 H1] [f2 H2]. exists (S (Nat.max f1 f2)). intros f r L _. destruct f as [|f]; [lia|].
  cbn [inst]. rewrite E, inst_app. cbn [app inst]. rewrite <- app_assoc. cbn [app].
  rewrite pv_unqualified by exact U. cbn [call_of]. rewrite after_here, H1; [|lia|repeat split; reflexivity].
  cbn [bind fst snd after_all]. eat. rewrite H2 by lia. reflexivity.
Qed.

Lemma pT_pointer : forall l x q t, l = [word x] -> Pos.eqb (spell x) (spell "this") = false ->
  assoc (s_pointers s) (spell x) = Some (q, t) -> pT PPrimary l (Pointer q t).
Proof.
  intros l x q t -> N E. exists 1%nat. intros f r L _. destruct f as [|f]; [lia|]. cbn [inst app word]. unfold word. rewrite pv_id, N, E. reflexivity.
Qed.

Lemma pT_cell : forall l x p n d, l = word x :: TPunct "." :: TAtom n :: nil -> sg n = [TId p] ->
  Pos.eqb (spell x) (spell "this") = false -> assoc (s_pointers s) (spell x) = None ->
  assoc (s_objects s) (spell x) = None -> s_cell s = Some (spell x) ->
  member_named (o_decls (s_this s)) p = Some d -> d_array d = false -> pT PPrimary l (OfCell (d_no d)).
Proof.
  intros l x p n d -> E N1 N2 N3 N4 M A. exists 1%nat. intros f r L _. destruct f as [|f]; [lia|]. cbn [inst word]. rewrite E.
  unfold word. cbn [app]. rewrite pv_id, N1, N2, N3, N4, Pos.eqb_refl, after_here. cbn [bind]. rewrite M. cbn [bind]. rewrite A. reflexivity.
Qed.

End Expressions.

(** ** Statements *)

Section Statements.
Variable c : list tok.
Variable sg : nat -> list tok.
Hypothesis sg_skips : forall stop n, stops stop -> skips stop (sg n).

Lemma skips_semi : forall n, skips (punct ";") (sg n).
Proof. intros n. apply sg_skips. right; right; left. reflexivity. Qed.
Lemma skips_brace : forall n, skips (punct "}") (sg n).
Proof. intros n. apply sg_skips. right; left. reflexivity. Qed.
Lemma skips_equals : forall n, skips (punct "=") (sg n).
Proof. intros n. apply sg_skips. right; right; right. reflexivity. Qed.
Lemma skips_rp : forall n, skips is_rp (sg n).
Proof. intros n. apply sg_skips. left. reflexivity. Qed.

(** All statements of the text, and a text that is one statement. *)
Definition all_runs (s : scope) (l : list tok) (es : list event) : Prop :=
  exists f0, forall f, (f0 <= f)%nat -> run c f s l = Some es.
Definition step (s : scope) (l : list tok) (es : list event) : Prop :=
  exists f0, forall f r, (f0 <= f)%nat -> run c (S f) s (l ++ r) = bind (run c f s r) (fun b => Some (es ++ b)).

Lemma run_cons : forall f s t r, run c (S f) s (t :: r) =
  if punct ";" t then run c f s r else
  if punct "{" t then
    bind (scan (punct "}") r 0) (fun x =>
    bind (run c f s (fst x)) (fun a => bind (run c f s (snd x)) (fun b => Some (a ++ b))))
  else if same_tok t (word "for") then
    bind (after TLp r) (fun r => bind (scan is_rp r 0) (fun x =>
    bind (counting (fst x)) (fun h =>
    bind (after (TPunct "{") (snd x)) (fun r => bind (scan (punct "}") r 0) (fun y =>
    bind (loop f (goes_on s f h) (fun k => run c f (with_int s (fst h) k) (fst y)) 0) (fun a =>
    bind (run c f s (snd y)) (fun b => Some (a ++ b))))))))
  else
    bind (scan (punct ";") (t :: r) 0) (fun x =>
    bind (simple c s f (fst x)) (fun y =>
    bind (run c f (snd y) (snd x)) (fun b => Some (fst y ++ b)))).
Proof. reflexivity. Qed.

Lemma runs_nil : forall s, all_runs s [] [].
Proof. clear sg sg_skips. intros s. exists 1%nat. intros f L. destruct f as [|f]; [lia|]. reflexivity. Qed.

Lemma step_runs : forall s l r es fs, step s l es -> all_runs s r fs -> all_runs s (l ++ r) (es ++ fs).
Proof.
  clear sg sg_skips. intros s l r es fs [f1 H1] [f2 H2]. exists (S (Nat.max f1 f2)). intros f L. destruct f as [|f]; [lia|].
  rewrite H1 by lia. rewrite H2 by lia. reflexivity.
Qed.

Lemma step_alone : forall s l es, step s l es -> all_runs s l es.
Proof.
  intros s l es H. rewrite <- (app_nil_r l), <- (app_nil_r es). apply step_runs; [exact H|apply runs_nil].
Qed.

Lemma step_block : forall s l x a es, l = TPunct "{" :: x -> scan (punct "}") x 0 = Some (a, []) ->
  all_runs s (inst sg a) es -> step s (inst sg l) es.
Proof.
  intros s l x a es -> E [f0 H]. exists f0. intros f r L. cbn [inst app]. rewrite run_cons. cbn [punct Ascii.eqb Bool.eqb].
  rewrite (scan_some sg (punct "}") x 0 r a [] skips_brace (fun _ => eq_refl) E). cbn [bind fst snd inst app].
  rewrite H by exact L. reflexivity.
Qed.

(** A statement with a semicolon. *)
Definition sT (s : scope) (l : list tok) (es : list event) (s' : scope) : Prop :=
  exists f0, forall f, (f0 <= f)%nat -> simple c s f (inst sg l) = Some (es, s').

Definition simple_start (l : list tok) : Prop :=
  match l with
  | [] => False
  | t :: _ => punct ";" t = false /\ punct "{" t = false /\ t <> word "for"
  end.

Lemma run_simple : forall f s l r a b, simple_start (inst sg l) -> scan (punct ";") l 0 = Some (a, b) ->
  run c (S f) s (inst sg l ++ r) =
  bind (simple c s f (inst sg a)) (fun y => bind (run c f (snd y) (inst sg b ++ r)) (fun z => Some (fst y ++ z))).
Proof.
  intros f s l r a b N E.
  pose proof (scan_some sg (punct ";") l 0 r a b skips_semi (fun _ => eq_refl) E) as K.
  destruct (inst sg l) as [|t x]; [contradiction|]. destruct N as [N1 [N2 N3]]. cbn [app] in *. rewrite run_cons, N1, N2, K.
  destruct (same_tok t (word "for")); [contradiction|]. reflexivity.
Qed.

Lemma step_simple : forall s l a es, simple_start (inst sg l) -> scan (punct ";") l 0 = Some (a, []) ->
  sT s a es s -> step s (inst sg l) es.
Proof.
  intros s l a es N E [f0 H]. exists f0. intros f r L. rewrite (run_simple f s l r a [] N E), H by exact L. reflexivity.
Qed.

Lemma runs_simple : forall s l a b es s' fs, simple_start (inst sg l) -> scan (punct ";") l 0 = Some (a, b) ->
  sT s a es s' -> all_runs s' (inst sg b) fs -> all_runs s (inst sg l) (es ++ fs).
Proof.
  intros s l a b es s' fs N E [f1 H1] [f2 H2]. exists (S (Nat.max f1 f2)). intros f L. destruct f as [|f]; [lia|].
  rewrite <- (app_nil_r (inst sg l)). rewrite (run_simple f s l [] a b N E), H1 by lia. cbn [bind fst snd].
  rewrite app_nil_r, H2 by lia. reflexivity.
Qed.

(** Loops. *)
Definition counts (s : scope) (l : list tok) (x : spelling) (n : Z) : Prop :=
  exists r, counting (inst sg l) = Some (x, r) /\
    forall k, exists f0, forall f, (f0 <= f)%nat -> goes_on s f (x, r) k = Some (k <? n).

Lemma loop_rounds : forall s x bd n ek h, (forall k, exists f0, forall f, (f0 <= f)%nat -> goes_on s f h k = Some (k <? n)) ->
  (forall k, 0 <= k < n -> all_runs (with_int s x k) bd (ek k)) ->
  forall j, Z.of_nat j <= n -> exists f0, forall f g, (f0 <= f)%nat -> (f0 <= g)%nat ->
    loop g (goes_on s f h) (fun k => run c f (with_int s x k) bd) (n - Z.of_nat j) =
    Some (flat_map ek (map (fun i => n - Z.of_nat j + Z.of_nat i) (seq 0 j))).
Proof.
  clear sg_skips. intros s x bd n ek h Hh Hb j. induction j as [|j IH]; intros L.
  - destruct (Hh (n - Z.of_nat 0)) as [f1 H1]. exists (S f1). intros f g L1 L2. destruct g as [|g]; [lia|]. cbn [loop].
    rewrite H1 by lia. replace (n - Z.of_nat 0 <? n) with false by lia. reflexivity.
  - destruct IH as [f1 H1]; [lia|]. destruct (Hh (n - Z.of_nat (S j))) as [f2 H2].
    destruct (Hb (n - Z.of_nat (S j)) ltac:(lia)) as [f3 H3].
    exists (S (f1 + f2 + f3)). intros f g L1 L2. destruct g as [|g]; [lia|]. cbn [loop].
    rewrite H2 by lia. replace (n - Z.of_nat (S j) <? n) with true by lia. cbn [bind]. rewrite H3 by lia. cbn [bind].
    replace (n - Z.of_nat (S j) + 1) with (n - Z.of_nat j) by lia. rewrite H1 by lia. cbn [bind]. f_equal.
    cbn [seq map flat_map]. rewrite <- seq_shift, map_map. replace (n - Z.of_nat (S j) + Z.of_nat 0) with (n - Z.of_nat (S j)) by lia.
    f_equal. f_equal. apply map_ext. intros i. lia.
Qed.

Lemma loop_all : forall s x bd n ek h, (forall k, exists f0, forall f, (f0 <= f)%nat -> goes_on s f h k = Some (k <? n)) ->
  (forall k, 0 <= k < n -> all_runs (with_int s x k) bd (ek k)) ->
  exists f0, forall f, (f0 <= f)%nat ->
    loop f (goes_on s f h) (fun k => run c f (with_int s x k) bd) 0 = Some (flat_map ek (zseq n)).
Proof.
  clear sg_skips. intros s x bd n ek h Hh Hb. destruct (Z.leb_spec 0 n) as [P|P].
  - destruct (loop_rounds s x bd n ek h Hh Hb (Z.to_nat n) ltac:(lia)) as [f0 H]. exists f0. intros f L.
    specialize (H f f L L). replace (n - Z.of_nat (Z.to_nat n)) with 0 in H by lia. rewrite H. reflexivity.
  - destruct (Hh 0) as [f1 H1]. exists (S f1). intros f L. destruct f as [|f]; [lia|]. cbn [loop]. rewrite H1 by lia.
    replace (0 <? n) with false by lia. unfold zseq. replace (Z.to_nat n) with O by lia. reflexivity.
Qed.

Lemma step_for : forall s l x h y bd v n ek, l = word "for" :: TLp :: x ->
  scan is_rp x 0 = Some (h, TPunct "{" :: y) -> scan (punct "}") y 0 = Some (bd, []) ->
  counts s h v n -> (forall k, 0 <= k < n -> all_runs (with_int s v k) (inst sg bd) (ek k)) ->
  step s (inst sg l) (flat_map ek (zseq n)).
Proof.
  intros s l x h y bd v n ek -> E1 E2 [rest [H1 Hg]] H.
  destruct (loop_all s v (inst sg bd) n ek (v, rest) Hg H) as [f2 H2].
  exists f2. intros f r L.
  change (inst sg (word "for" :: TLp :: x) ++ r) with (word "for" :: TLp :: inst sg x ++ r). rewrite run_cons.
  change (punct ";" (word "for")) with false. change (punct "{" (word "for")) with false. cbv match.
  destruct (same_tok (word "for") (word "for")) as [_|N]; [|congruence]. eat.
  rewrite (scan_some sg is_rp x 0 r h _ skips_rp (fun _ => eq_refl) E1). cbn [bind fst snd]. rewrite H1.
  cbn [bind fst snd inst app]. eat. rewrite (scan_some sg (punct "}") y 0 r bd [] skips_brace (fun _ => eq_refl) E2).
  cbn [bind fst snd inst app]. rewrite H2 by lia. reflexivity.
Qed.

Lemma counts_spec : forall s l (size : bool) x b n,
  l = (if size then tokens "std::size_t" else [word "int"]) ++ word x :: tokens "= 0;" ++ word x :: TPunct "<" :: b ++ tokens "; ++" ++ [word x] ->
  (forall k, eT (s_env (with_int s (spell x) k)) sg Sum b n) -> counts s l (spell x) n.
Proof.
  intros s l size x b n -> H. exists (inst sg b ++ tokens "; ++" ++ [word x]). split.
  - rewrite inst_app.
    replace (inst sg (if size then tokens "std::size_t" else [word "int"])) with (if size then tokens "std::size_t" else [word "int"])
      by (destruct size; reflexivity).
    change (inst sg (word x :: tokens "= 0;" ++ word x :: TPunct "<" :: b ++ tokens "; ++" ++ [word x]))
      with (word x :: tokens "= 0;" ++ word x :: TPunct "<" :: inst sg (b ++ tokens "; ++" ++ [word x])).
    rewrite inst_app. change (inst sg (tokens "; ++" ++ [word x])) with (tokens "; ++" ++ [word x]).
    set (rest := word x :: tokens "= 0;" ++ word x :: TPunct "<" :: inst sg b ++ tokens "; ++" ++ [word x]).
    unfold counting.
    assert (P : match after (word "int") ((if size then tokens "std::size_t" else [word "int"]) ++ rest) with
                | Some r => Some r
                | None => after_all (tokens "std::size_t") ((if size then tokens "std::size_t" else [word "int"]) ++ rest)
                end = Some rest).
    { destruct size.
      - replace (after (word "int") (tokens "std::size_t" ++ rest)) with (@None (list tok)) by (vm_compute; reflexivity).
        apply after_all_here.
      - cbn [app]. rewrite after_here. reflexivity. }
    rewrite P. cbn [bind]. subst rest. unfold word at 1. rewrite after_all_here. cbn [bind after_all]. unfold word at 1. eat. reflexivity.
  - intros k. destruct (H k) as [f0 Hk]. exists f0. intros f L. unfold goes_on. cbn [fst snd].
    rewrite Hk; [|exact L|repeat split; reflexivity]. cbn [bind fst snd]. unfold word. rewrite same_text_refl. reflexivity.
Qed.

(** Statements with a semicolon. *)
Lemma simple_equals : forall s f l a b, scan (punct "=") l 0 = Some (a, b) ->
  simple c s f (inst sg l) =
  bind (whole (pv s f PSum (inst sg b))) (fun v =>
    match declared s (inst sg a) with
    | Some (x, t) => bind (typed_pointer t v) (fun p => Some ([], with_pointer s x (p, Some t)))
    | None => bind (whole (pv s f PUnary (inst sg a))) (fun w => bind (stored w v) (fun e => Some (e, s)))
    end).
Proof.
  intros s f l a b E. unfold simple. rewrite <- (app_nil_r (inst sg l)).
  rewrite (scan_some sg (punct "=") l 0 [] a b skips_equals (fun _ => eq_refl) E). rewrite app_nil_r. reflexivity.
Qed.

Lemma sT_assign : forall s l a b v w e, scan (punct "=") l 0 = Some (a, b) -> declared s (inst sg a) = None ->
  pT s sg PUnary a w -> pT s sg PSum b v -> stored w v = Some e -> sT s l e s.
Proof.
  intros s l a b v w e E D Hw Hv St. apply pT_whole_unary in Hw. apply pT_whole in Hv.
  destruct Hw as [f1 H1], Hv as [f2 H2]. exists (Nat.max f1 f2). intros f L. rewrite (simple_equals s f l a b E), D.
  rewrite H2 by lia. cbn [bind]. rewrite H1 by lia. cbn [bind]. rewrite St. reflexivity.
Qed.

Lemma sT_declare : forall s l a b x t p, scan (punct "=") l 0 = Some (a, b) -> declared s (inst sg a) = Some (x, t) ->
  pT s sg PSum b (Pointer p (Some t)) -> sT s l [] (with_pointer s x (p, Some t)).
Proof.
  intros s l a b x t p E D Hv. apply pT_whole in Hv. destruct Hv as [f0 H]. exists f0. intros f L.
  rewrite (simple_equals s f l a b E), D, H by exact L. cbn [bind typed_pointer].
  replace (same_ty t t) with true; [reflexivity|]. unfold same_ty. rewrite Z.eqb_refl, Bool.eqb_reflx. reflexivity.
Qed.

Lemma simple_other : forall s f l x r, scan (punct "=") l 0 = None -> inst sg l = TId x :: r ->
  simple c s f (inst sg l) = bind (call_statement c s f x r) (fun e => Some (e, s)).
Proof.
  intros s f l x r E El. unfold simple. rewrite (scan_none sg (punct "=") skips_equals (fun _ => eq_refl) l 0 E).
  rewrite El. reflexivity.
Qed.

Lemma call_new : forall s f r, call_statement c s f (spell "new") r = placement_new s f r.
Proof. intros s f r. unfold call_statement. rewrite Pos.eqb_refl. reflexivity. Qed.
Lemma call_detail : forall s f r, call_statement c s f (spell "detail") r = destruct_call s f r.
Proof.
  intros s f r. unfold call_statement. replace (Pos.eqb (spell "detail") (spell "new")) with false by closed.
  rewrite Pos.eqb_refl. reflexivity.
Qed.
Lemma call_std : forall s f r, call_statement c s f (spell "std") r = copy_call s f r.
Proof.
  intros s f r. unfold call_statement. replace (Pos.eqb (spell "std") (spell "new")) with false by closed.
  replace (Pos.eqb (spell "std") (spell "detail")) with false by closed. rewrite Pos.eqb_refl. reflexivity.
Qed.
Lemma call_typename : forall s f r, call_statement c s f (spell "typename") r =
  bind (after_all (tokens "LibFlatArray::detail::soa_array_member_copy_helper<") r) (helper_call c s f).
Proof.
  intros s f r. unfold call_statement. replace (Pos.eqb (spell "typename") (spell "new")) with false by closed.
  replace (Pos.eqb (spell "typename") (spell "detail")) with false by closed.
  replace (Pos.eqb (spell "typename") (spell "std")) with false by closed. rewrite Pos.eqb_refl. reflexivity.
Qed.

Lemma same_ty_refl : forall t, same_ty t t = true.
Proof. intros t. unfold same_ty. rewrite Z.eqb_refl, Bool.eqb_reflx. reflexivity. Qed.

Lemma sT_new : forall s l x a b p t, l = word "new" :: TLp :: x -> scan (punct "=") l 0 = None ->
  scan is_rp x 0 = Some (a, b ++ [TLp; TRp]) -> pT s sg PSum a (Pointer p (Some t)) ->
  s_type s (inst sg b) = Some t ->
  sT s l [Do (Construct p (t_size t) (t_class t) (t_default t))] s.
Proof.
  intros s l x a b p t -> N E Hv T. apply pT_whole in Hv. destruct Hv as [f0 H]. exists f0. intros f L.
  rewrite (simple_other s f _ (spell "new") (TLp :: inst sg x) N eq_refl). rewrite call_new. unfold placement_new. eat.
  rewrite <- (app_nil_r (inst sg x)). rewrite (scan_some sg is_rp x 0 [] a _ skips_rp (fun _ => eq_refl) E).
  cbn [bind fst snd]. rewrite H by exact L. cbn [bind]. rewrite app_nil_r, inst_app.
  change (inst sg [TLp; TRp]) with ([TLp] ++ [TRp]). rewrite app_assoc, butlast_snoc. cbn [bind fst snd].
  rewrite butlast_snoc. cbn [bind fst snd]. rewrite T. cbn [bind typed_pointer]. rewrite same_ty_refl. reflexivity.
Qed.

(** The text after a prefix without atoms. *)
Lemma inst_prefix : forall t l, no_atoms t = true -> inst sg (t ++ l) = t ++ inst sg l.
Proof. intros t l H. rewrite inst_app, plain_inst by exact H. reflexivity. Qed.

Lemma sT_destroy : forall s l a p t, l = word "detail" :: tokens "::flat_array::generic_destruct(" ++ a ++ [TRp] ->
  scan (punct "=") l 0 = None -> pT s sg PSum a (Pointer p (Some t)) ->
  sT s l [Do (Destroy p (t_size t) (t_class t))] s.
Proof.
  intros s l a p t El N [f0 H]. exists f0. intros f L.
  assert (Ei : inst sg l = TId (spell "detail") :: tokens "::flat_array::generic_destruct(" ++ inst sg a ++ [TRp]).
  { rewrite El, inst_nonatom, inst_prefix, inst_app by closed. reflexivity. }
  rewrite (simple_other s f _ _ _ N Ei), call_detail. unfold destruct_call. rewrite after_all_here. cbn [bind].
  rewrite H by (try (repeat split; reflexivity); lia). reflexivity.
Qed.

Lemma sT_copy : forall s l a b d va vb vd e, l = word "std" :: tokens "::copy(" ++ a ++ TComma :: b ++ TComma :: d ++ [TRp] ->
  scan (punct "=") l 0 = None -> pT s sg PSum a va -> pT s sg PSum b vb -> pT s sg PSum d vd ->
  std_copy va vb vd = Some e -> sT s l e s.
Proof.
  intros s l a b d va vb vd e El N [f1 H1] [f2 H2] [f3 H3] C. exists (Nat.max f1 (Nat.max f2 f3)). intros f L.
  assert (Ei : inst sg l = TId (spell "std") :: tokens "::copy(" ++ inst sg a ++ TComma :: inst sg b ++ TComma :: inst sg d ++ [TRp]).
  { rewrite El, inst_nonatom, inst_prefix, inst_app by closed. cbn [inst]. rewrite inst_app. cbn [inst]. rewrite inst_app. reflexivity. }
  rewrite (simple_other s f _ _ _ N Ei), call_std. unfold copy_call.
  rewrite after_all_here. cbn [bind]. rewrite H1 by (try (repeat split; reflexivity); lia).
  cbn [bind fst snd]. eat. rewrite H2 by (try (repeat split; reflexivity); lia). cbn [bind fst snd]. eat.
  rewrite H3 by (try (repeat split; reflexivity); lia). cbn [bind fst snd]. rewrite C. reflexivity.
Qed.

(** ** The helper classes *)

Lemma angles_app : forall l m p a, angles l p a = true -> angles m 0 0 = true -> angles (l ++ m) p a = true.
Proof.
  induction l as [|t l IH]; intros m p a H Hm.
  - cbn [angles] in H. apply andb_true_iff in H. destruct H as [H1 H2]. apply Nat.eqb_eq in H1, H2. subst. exact Hm.
  - cbn [app]. destruct t; cbn [angles] in *; try (apply IH; assumption).
    + destruct (Nat.eqb p 0); [|apply IH; assumption]. destruct (Ascii.eqb c0 "<"); [apply IH; assumption|].
      destruct (Ascii.eqb c0 ">"); [|apply IH; assumption]. destruct a; [discriminate|apply IH; assumption].
    + destruct p; [discriminate|apply IH; assumption].
Qed.

Lemma template_type_spec : forall s T t r, angles T 0 0 = true -> s_type s T = Some t ->
  template_type s (T ++ TPunct ">" :: r) = Some (t, r).
Proof. intros s T t r A H. unfold template_type. rewrite angle_closed by exact A. cbn [bind fst snd]. rewrite H. reflexivity. Qed.

Lemma template_int_spec : forall s f N n r, angles N 0 0 = true -> ev (s_env s) f Sum N = Some (n, []) ->
  template_int s f (N ++ TPunct ">" :: r) = Some (n, r).
Proof. intros s f N n r A H. unfold template_int. rewrite angle_closed by exact A. cbn [bind fst snd]. rewrite H. reflexivity. Qed.

Lemma cell_helper_spec : forall s f size T t N n p d what D q,
  angles c 0 0 = true -> angles T 0 0 = true -> angles N 0 0 = true -> s_type s T = Some t ->
  ev (s_env s) f Sum N = Some (n, []) -> member_named (o_decls (s_this s)) p = Some d -> d_array d = true ->
  s_cell s = Some (spell "cell") -> pv s f PSum (D ++ [TRp]) = Some (Pointer q (Some t), [TRp]) ->
  cell_helper c s f size (c ++ TPunct ">" :: tokens "::template inner2<" ++ T ++ TPunct ">" ::
    tokens "::template inner3<" ++ N ++ TPunct ">" :: tokens "::template inner4<&" ++ (c ++ tokens "::" ++ [TId p]) ++ TPunct ">" ::
    tokens "::template" ++ TId what :: TPunct "<" :: N ++ TPunct ">" :: [TLp; TRp; TLp; TId (spell "cell"); TComma] ++ D ++ [TRp]) =
  if Pos.eqb what (spell "copy_in") then Some (copy_in size (Z.to_nat n) (d_no d) q t) else
  if Pos.eqb what (spell "copy_out") then Some (copy_out size (Z.to_nat n) (d_no d) q t) else None.
Proof.
  intros s f size T t N n p d what D q Ac AT AN HT HN Hd Ha Hc HD. unfold cell_helper.
  rewrite (angle_closed c) by exact Ac. cbn [bind fst snd]. rewrite same_text_refl. cbn [negb].
  rewrite after_all_here. cbn [bind]. rewrite (template_type_spec s T t) by assumption. cbn [bind fst snd].
  rewrite after_all_here. cbn [bind]. rewrite (template_int_spec s f N n) by assumption. cbn [bind fst snd].
  rewrite after_all_here. cbn [bind].
  rewrite (angle_closed (c ++ tokens "::" ++ [TId p])) by (apply angles_app; [exact Ac|reflexivity]). cbn [bind fst snd].
  rewrite app_assoc, after_all_here. cbn [bind]. rewrite Hd. cbn [bind]. rewrite Ha. cbn [negb].
  rewrite after_all_here. cbn [bind]. rewrite after_here. cbn [bind]. rewrite (template_int_spec s f N n) by assumption. cbn [bind fst snd].
  rewrite Hc, after_all_here. cbn [bind]. rewrite HD. cbn [bind fst snd typed_pointer]. rewrite same_ty_refl. reflexivity.
Qed.

Lemma array_helper_spec : forall s f size T t N n what A B C O S p q count offset stride,
  angles T 0 0 = true -> angles N 0 0 = true -> s_type s T = Some t -> ev (s_env s) f Sum N = Some (n, []) ->
  (forall r, pv s f PSum (A ++ TComma :: r) = Some (Pointer p (Some t), TComma :: r)) ->
  (forall r, pv s f PSum (B ++ TComma :: r) = Some (Pointer q (Some t), TComma :: r)) ->
  (forall r, ev (s_env s) f Sum (C ++ TComma :: r) = Some (count, TComma :: r)) ->
  (forall r, ev (s_env s) f Sum (O ++ TComma :: r) = Some (offset, TComma :: r)) ->
  ev (s_env s) f Sum (S ++ [TRp]) = Some (stride, [TRp]) ->
  array_helper s f size (T ++ TPunct ">" :: tokens "::template" ++ TId what :: TPunct "<" :: N ++ TPunct ">" ::
    [TLp; TRp; TLp] ++ A ++ TComma :: B ++ TComma :: C ++ TComma :: O ++ TComma :: S ++ [TRp]) =
  if Pos.eqb what (spell "copy_array_in") then Some (copy_array_in size (Z.to_nat n) p q t count offset stride) else
  if Pos.eqb what (spell "copy_array_out") then Some (copy_array_out size (Z.to_nat n) p q t count offset stride) else None.
Proof.
  intros s f size T t N n what A B C O S p q count offset stride AT AN HT HN HA HB HC HO HS. unfold array_helper.
  rewrite (template_type_spec s T t) by assumption. cbn [bind fst snd]. rewrite after_all_here. cbn [bind]. rewrite after_here. cbn [bind].
  rewrite (template_int_spec s f N n) by assumption. cbn [bind fst snd]. rewrite after_all_here. cbn [bind].
  rewrite HA. cbn [bind fst snd]. eat. rewrite HB. cbn [bind fst snd]. eat. rewrite HC. cbn [bind fst snd]. eat.
  rewrite HO. cbn [bind fst snd]. eat. rewrite HS. cbn [bind fst snd typed_pointer]. rewrite !same_ty_refl. reflexivity.
Qed.

Lemma eT_whole : forall env l v, eT env sg Sum l v -> exists f0, forall f, (f0 <= f)%nat -> ev env f Sum (inst sg l) = Some (v, []).
Proof.
  intros env l v [f0 H]. exists f0. intros f L. rewrite <- (app_nil_r (inst sg l)) at 1. apply H; [exact L|repeat split; reflexivity].
Qed.

Ltac spread :=
  repeat match goal with
  | |- context [inst sg (?a ++ ?b)] => rewrite (inst_app sg a b)
  | |- context [inst sg (word ?w :: ?b)] => rewrite (inst_nonatom sg (word w) b) by reflexivity
  | |- context [inst sg (TPunct ?w :: ?b)] => rewrite (inst_nonatom sg (TPunct w) b) by reflexivity
  | |- context [inst sg (TComma :: ?b)] => rewrite (inst_nonatom sg TComma b) by reflexivity
  | |- context [inst sg (tokens ?w)] => rewrite (plain_inst sg (tokens w)) by closed
  end.

(** Atoms: 2 the class, 3 the type, 4 the name, 5 the arity. *)
Definition helper_text (rest : list tok) : list tok :=
  word "typename" :: tokens "LibFlatArray::detail::soa_array_member_copy_helper<" ++ [word "DIM_PROD"] ++ TPunct ">" :: rest.

Definition cell_text (what : string) (D : list tok) : list tok :=
  helper_text (tokens "::template inner1<" ++ [TAtom 2] ++ TPunct ">" ::
    tokens "::template inner2<" ++ [TAtom 3] ++ TPunct ">" :: tokens "::template inner3<" ++ [TAtom 5] ++ TPunct ">" ::
    tokens "::template inner4<&" ++ ([TAtom 2] ++ tokens "::" ++ [TAtom 4]) ++ TPunct ">" ::
    tokens "::template" ++ word what :: TPunct "<" :: [TAtom 5] ++ TPunct ">" :: [TLp; TRp; TLp; word "cell"; TComma] ++ D ++ [TRp]).

Definition array_text (what : string) (A B C O S : list tok) : list tok :=
  helper_text (tokens "::template inner_a<" ++ [TAtom 3] ++ TPunct ">" ::
    tokens "::template" ++ word what :: TPunct "<" :: [TAtom 5] ++ TPunct ">" ::
    [TLp; TRp; TLp] ++ A ++ TComma :: B ++ TComma :: C ++ TComma :: O ++ TComma :: S ++ [TRp]).

Lemma simple_helper : forall s f l rest P, l = helper_text rest -> scan (punct "=") l 0 = None ->
  ev (s_env s) f Sum [word "DIM_PROD"] = Some (P, []) ->
  simple c s f (inst sg l) = bind
    (match after_all (tokens "::template inner1<") (inst sg rest) with
     | Some r => cell_helper c s f P r
     | None => bind (after_all (tokens "::template inner_a<") (inst sg rest)) (array_helper s f P)
     end) (fun e => Some (e, s)).
Proof.
  intros s f l rest P El N HP.
  assert (Ei : inst sg l = TId (spell "typename") :: tokens "LibFlatArray::detail::soa_array_member_copy_helper<" ++
               [word "DIM_PROD"] ++ TPunct ">" :: inst sg rest).
  { rewrite El. unfold helper_text. rewrite inst_nonatom, inst_prefix, inst_app by closed. reflexivity. }
  rewrite (simple_other s f _ _ _ N Ei), call_typename. f_equal. rewrite after_all_here. cbn [bind]. unfold helper_call.
  rewrite (template_int_spec s f [word "DIM_PROD"] P) by (try exact HP; reflexivity). reflexivity.
Qed.

Lemma dim_prod_ev : forall env P, var_is env "DIM_PROD" P -> exists f0, forall f, (f0 <= f)%nat -> ev env f Sum [word "DIM_PROD"] = Some (P, []).
Proof.
  intros env P H. apply (eT_whole env [word "DIM_PROD"]). apply eT_one, eT_var; [closed|exact H].
Qed.

Lemma sT_cell : forall s l what D P t n p d q, l = cell_text what D -> scan (punct "=") l 0 = None -> no_atoms [word what] = true ->
  var_is (s_env s) "DIM_PROD" P -> sg 2%nat = c -> sg 4%nat = [TId p] ->
  angles c 0 0 = true -> angles (sg 3%nat) 0 0 = true -> angles (sg 5%nat) 0 0 = true -> s_type s (sg 3%nat) = Some t ->
  eats (s_env s) Factor (sg 5%nat) n -> member_named (o_decls (s_this s)) p = Some d -> d_array d = true ->
  s_cell s = Some (spell "cell") -> pT s sg PSum D (Pointer q (Some t)) ->
  forall es, (if Pos.eqb (spell what) (spell "copy_in") then Some (copy_in P (Z.to_nat n) (d_no d) q t) else
   if Pos.eqb (spell what) (spell "copy_out") then Some (copy_out P (Z.to_nat n) (d_no d) q t) else None) = Some es ->
  sT s l es s.
Proof.
  intros s l what D P t n p d q El N _ HP E2 E4 A2 A3 A5 H3 H5 Hd Ha Hc [f3 HD] es He.
  destruct (dim_prod_ev _ _ HP) as [f1 H1].
  assert (W5 : exists f0, forall f, (f0 <= f)%nat -> ev (s_env s) f Sum (sg 5%nat) = Some (n, [])).
  { destruct (eats_product _ _ _ (eats_factor _ _ _ H5)) as [f0 W]. exists f0. intros f L. rewrite <- (app_nil_r (sg 5%nat)) at 1.
    apply W; [exact L|repeat split; reflexivity]. }
  destruct W5 as [f2 H2]. exists (Nat.max f1 (Nat.max f2 f3)). intros f L.
  erewrite (simple_helper s f l _ P El N) by (apply H1; lia).
  rewrite inst_prefix by closed. rewrite after_all_here.
  assert (Ei : inst sg ([TAtom 2] ++ TPunct ">" ::
    tokens "::template inner2<" ++ [TAtom 3] ++ TPunct ">" :: tokens "::template inner3<" ++ [TAtom 5] ++ TPunct ">" ::
    tokens "::template inner4<&" ++ ([TAtom 2] ++ tokens "::" ++ [TAtom 4]) ++ TPunct ">" ::
    tokens "::template" ++ word what :: TPunct "<" :: [TAtom 5] ++ TPunct ">" :: [TLp; TRp; TLp; word "cell"; TComma] ++ D ++ [TRp]) =
    c ++ TPunct ">" :: tokens "::template inner2<" ++ sg 3%nat ++ TPunct ">" ::
    tokens "::template inner3<" ++ sg 5%nat ++ TPunct ">" :: tokens "::template inner4<&" ++ (c ++ tokens "::" ++ [TId p]) ++ TPunct ">" ::
    tokens "::template" ++ TId (spell what) :: TPunct "<" :: sg 5%nat ++ TPunct ">" :: [TLp; TRp; TLp; TId (spell "cell"); TComma] ++ inst sg D ++ [TRp]).
  { spread.
    cbn [inst]. rewrite E2, E4, !app_nil_r. reflexivity. }
  rewrite Ei, (cell_helper_spec s f P _ t _ n p d (spell what) (inst sg D) q); try assumption.
  - rewrite He. reflexivity.
  - apply H2. lia.
  - apply HD; [lia|repeat split; reflexivity].
Qed.

Lemma sT_array : forall s l what A B C O S P t n p q count offset stride,
  l = array_text what A B C O S -> scan (punct "=") l 0 = None ->
  var_is (s_env s) "DIM_PROD" P -> angles (sg 3%nat) 0 0 = true -> angles (sg 5%nat) 0 0 = true -> s_type s (sg 3%nat) = Some t ->
  eats (s_env s) Factor (sg 5%nat) n ->
  pT s sg PSum A (Pointer p (Some t)) -> pT s sg PSum B (Pointer q (Some t)) ->
  eT (s_env s) sg Sum C count -> eT (s_env s) sg Sum O offset -> eT (s_env s) sg Sum S stride ->
  forall es, (if Pos.eqb (spell what) (spell "copy_array_in") then Some (copy_array_in P (Z.to_nat n) p q t count offset stride) else
   if Pos.eqb (spell what) (spell "copy_array_out") then Some (copy_array_out P (Z.to_nat n) p q t count offset stride) else None) = Some es ->
  sT s l es s.
Proof.
  intros s l what A B C O S P t n p q count offset stride El N HP A3 A5 H3 H5 [fa HA] [fb HB] [fc HC] [fo HO] [fs HS] es He.
  destruct (dim_prod_ev _ _ HP) as [f1 H1].
  assert (W5 : exists f0, forall f, (f0 <= f)%nat -> ev (s_env s) f Sum (sg 5%nat) = Some (n, [])).
  { destruct (eats_product _ _ _ (eats_factor _ _ _ H5)) as [f0 W]. exists f0. intros f L. rewrite <- (app_nil_r (sg 5%nat)) at 1.
    apply W; [exact L|repeat split; reflexivity]. }
  destruct W5 as [f2 H2]. exists (f1 + f2 + fa + fb + fc + fo + fs)%nat. intros f L.
  erewrite (simple_helper s f l _ P El N) by (apply H1; lia).
  rewrite inst_prefix by closed.
  replace (after_all (tokens "::template inner1<") (tokens "::template inner_a<" ++ inst sg ([TAtom 3] ++ TPunct ">" ::
    tokens "::template" ++ word what :: TPunct "<" :: [TAtom 5] ++ TPunct ">" ::
    [TLp; TRp; TLp] ++ A ++ TComma :: B ++ TComma :: C ++ TComma :: O ++ TComma :: S ++ [TRp]))) with (@None (list tok))
    by (generalize (inst sg ([TAtom 3] ++ TPunct ">" ::
    tokens "::template" ++ word what :: TPunct "<" :: [TAtom 5] ++ TPunct ">" ::
    [TLp; TRp; TLp] ++ A ++ TComma :: B ++ TComma :: C ++ TComma :: O ++ TComma :: S ++ [TRp])); intros z; closed).
  rewrite after_all_here. cbn [bind].
  assert (Ei : inst sg ([TAtom 3] ++ TPunct ">" ::
    tokens "::template" ++ word what :: TPunct "<" :: [TAtom 5] ++ TPunct ">" ::
    [TLp; TRp; TLp] ++ A ++ TComma :: B ++ TComma :: C ++ TComma :: O ++ TComma :: S ++ [TRp]) =
    sg 3%nat ++ TPunct ">" :: tokens "::template" ++ TId (spell what) :: TPunct "<" :: sg 5%nat ++ TPunct ">" ::
    [TLp; TRp; TLp] ++ inst sg A ++ TComma :: inst sg B ++ TComma :: inst sg C ++ TComma :: inst sg O ++ TComma :: inst sg S ++ [TRp]).
  { spread.
    cbn [inst]. rewrite !app_nil_r. reflexivity. }
  rewrite Ei, (array_helper_spec s f P _ t _ n (spell what) (inst sg A) (inst sg B) (inst sg C) (inst sg O) (inst sg S) p q count offset stride);
    try assumption.
  - rewrite He. reflexivity.
  - apply H2. lia.
  - intros r. apply HA; [lia|repeat split; reflexivity].
  - intros r. apply HB; [lia|repeat split; reflexivity].
  - intros r. apply HC; [lia|repeat split; reflexivity].
  - intros r. apply HO; [lia|repeat split; reflexivity].
  - apply HS; [lia|repeat split; reflexivity].
Qed.

End Statements.
