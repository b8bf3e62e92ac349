(** Reasoning about macro expansion for inputs with unknown parts.

    [expandA] expands a token list in which [TAtom n] stands for an arbitrary
    inert token sequence [sg n] (balanced, no comma outside parentheses, no
    macro names).  It gives up (None) wherever the result could depend on what
    the atoms stand for, on hide sets, or on what follows the list.  The theorem
    [sim_expand] says that each of its results is a result of the real
    preprocessor [expand] for every instantiation of the atoms.  Nothing in this
    file is specific to the library. *)
From Coq Require Import String Ascii ZArith Bool List Lia.
From Coq Require Import FMapPositive.
From Verif Require Import Preproc SpecPreproc.
Import ListNotations.

(** ** Expansion as a relation *)

Definition eh (tab : table) (l r : list htok) : Prop := exists f, expand tab f l = Some r.

Lemma map_opt_mono : forall (X Y : Type) (f g : X -> option Y) l ys,
  (forall x y, f x = Some y -> g x = Some y) -> map_opt f l = Some ys -> map_opt g l = Some ys.
Proof.
  intros X Y f g l. induction l as [|x l IH]; intros ys H E; cbn [map_opt] in *; [exact E|].
  destruct (f x) as [y|] eqn:Ex; [|discriminate].
  destruct (map_opt f l) as [zs|] eqn:El; [|discriminate].
  rewrite (H _ _ Ex), (IH _ H eq_refl). exact E.
Qed.

Lemma expand_S : forall tab f l r, expand tab f l = Some r -> expand tab (S f) l = Some r.
Proof.
  intros tab f. induction f as [|f IH]; intros l r H; [discriminate|].
  assert (IHm : forall args eargs, map_opt (expand tab f) args = Some eargs ->
                map_opt (expand tab (S f)) args = Some eargs)
    by (intros; eapply map_opt_mono; eauto).
  remember (S f) as f' eqn:Ef. rewrite Ef in H.
  destruct l as [|x l]; [exact H|].
  assert (EM : forall o, match expand tab f l with Some o => Some (x :: o) | None => None end = Some o ->
          match expand tab f' l with Some o => Some (x :: o) | None => None end = Some o).
  { intros o E. destruct (expand tab f l) as [o'|] eqn:E'; [|discriminate].
    rewrite (IH _ _ E'). exact E. }
  cbn [expand] in H |- *.
  destruct (fst x); try (apply EM; exact H).
  destruct (hs_mem p (snd x)); [apply EM; exact H|].
  destruct (PositiveMap.find p tab) as [m|]; [|apply EM; exact H].
  destruct (m_params m) as [ps|].
  - destruct l as [|[t' h'] l']; [apply EM; exact H|].
    destruct t'; try (apply EM; exact H).
    destruct (collect l' 0 [] []) as [[[args h2] rest]|]; [|discriminate].
    destruct (Nat.eqb (length args) (length ps)); [|discriminate].
    destruct (map_opt (expand tab f) args) as [eargs|] eqn:Ea; [|discriminate].
    rewrite (IHm _ _ Ea).
    destruct (subst (m_body m) ps args eargs []) as [o|]; [|discriminate].
    apply IH. exact H.
  - destruct (subst (m_body m) [] [] [] []) as [o|]; [|discriminate].
    apply IH. exact H.
Qed.

Lemma expand_mono : forall tab f g l r, (f <= g)%nat -> expand tab f l = Some r -> expand tab g l = Some r.
Proof.
  intros tab f g l r H E. induction H as [|g H IH]; [exact E|apply expand_S; exact IH].
Qed.

Lemma eh_det : forall tab l r r', eh tab l r -> eh tab l r' -> r = r'.
Proof.
  intros tab l r r' [f H] [g H'].
  apply (expand_mono _ f (Nat.max f g)) in H; [|lia].
  apply (expand_mono _ g (Nat.max f g)) in H'; [|lia]. congruence.
Qed.

(** ** Steps *)

Lemma eh_nil : forall tab, eh tab [] [].
Proof. intros. exists 1%nat. reflexivity. Qed.

Lemma eh_emit : forall tab x l r, plain_tok tab (fst x) -> eh tab l r -> eh tab (x :: l) (x :: r).
Proof.
  intros tab x l r Hp [f H]. exists (S f). cbn [expand]. rewrite H.
  destruct (fst x) as [p| | | | | | | |]; try reflexivity.
  cbn [plain_tok] in Hp. rewrite Hp. destruct (hs_mem p (snd x)); reflexivity.
Qed.

Lemma eh_emit_seg : forall tab s l r, Forall (fun x => plain_tok tab (fst x)) s ->
  eh tab l r -> eh tab (s ++ l) (s ++ r).
Proof.
  intros tab s l r H E. induction H as [|x s Hx H IH]; [exact E|].
  cbn [app]. apply eh_emit; assumption.
Qed.

(** A function-like macro name not followed by "(". *)
Lemma eh_emit_name : forall tab p h m ps l r,
  PositiveMap.find p tab = Some m -> m_params m = Some ps ->
  match l with (TLp, _) :: _ => False | _ => True end ->
  eh tab l r -> eh tab ((TId p, h) :: l) ((TId p, h) :: r).
Proof.
  intros tab p h m ps l r Hm Hps Hl [f H]. exists (S f). cbn [expand fst snd]. rewrite H, Hm, Hps.
  destruct (hs_mem p h); [reflexivity|].
  destruct l as [|[t' h'] l']; [reflexivity|]. destruct t'; try reflexivity. contradiction.
Qed.

Lemma map_opt_eh : forall tab args eargs, Forall2 (eh tab) args eargs ->
  exists f, map_opt (expand tab f) args = Some eargs.
Proof.
  intros tab args eargs H. induction H as [|a e args eargs [f Hf] H [g Hg]]; [exists 0%nat; reflexivity|].
  exists (Nat.max f g). cbn [map_opt].
  rewrite (expand_mono _ f (Nat.max f g) _ _ ltac:(lia) Hf).
  rewrite (map_opt_mono _ _ (expand tab g) (expand tab (Nat.max f g)) args eargs); [reflexivity| |exact Hg].
  intros x y E. eapply expand_mono; [|exact E]. lia.
Qed.

Lemma eh_call : forall tab p h hl l m ps args h' rest eargs o r,
  hs_mem p h = false -> PositiveMap.find p tab = Some m -> m_params m = Some ps ->
  collect l 0 [] [] = Some (args, h', rest) -> length args = length ps ->
  Forall2 (eh tab) args eargs ->
  subst (m_body m) ps args eargs [] = Some o ->
  eh tab (hs_add (hs_union [p] (hs_inter h h')) o ++ rest) r ->
  eh tab ((TId p, h) :: (TLp, hl) :: l) r.
Proof.
  intros tab p h hl l m ps args h' rest eargs o r Hh Hm Hps Hc Hn Ha Hs [f Hr].
  destruct (map_opt_eh _ _ _ Ha) as [g Hg].
  exists (S (Nat.max f g)). cbn [expand fst snd]. rewrite Hh, Hm, Hps, Hc, Hn, Nat.eqb_refl.
  rewrite (map_opt_mono _ _ (expand tab g) (expand tab (Nat.max f g)) args eargs);
    [|intros x y E; eapply expand_mono; [|exact E]; lia|exact Hg].
  rewrite Hs. eapply expand_mono; [|exact Hr]. lia.
Qed.

Lemma eh_object : forall tab p h l m o r,
  hs_mem p h = false -> PositiveMap.find p tab = Some m -> m_params m = None ->
  subst (m_body m) [] [] [] [] = Some o ->
  eh tab (hs_add (hs_union [p] h) o ++ l) r ->
  eh tab ((TId p, h) :: l) r.
Proof.
  intros tab p h l m o r Hh Hm Hps Hs [f Hr].
  exists (S f). cbn [expand fst snd]. rewrite Hh, Hm, Hps, Hs. exact Hr.
Qed.

(** ** Hide sets *)

Lemma hs_mem_app : forall p a b, hs_mem p (a ++ b) = hs_mem p a || hs_mem p b.
Proof. intros. apply existsb_app. Qed.

Lemma hs_mem_filter : forall p f a, hs_mem p (filter f a) = hs_mem p a && f p.
Proof.
  intros p f a. unfold hs_mem. induction a as [|q a IH]; [reflexivity|].
  cbn [filter existsb]. destruct (f q) eqn:E; cbn [existsb]; rewrite IH.
  - destruct (Pos.eqb_spec p q) as [->|N]; cbn [orb]; [rewrite E; reflexivity|reflexivity].
  - destruct (Pos.eqb_spec p q) as [->|N]; cbn [orb]; [|reflexivity].
    rewrite E, andb_false_r. reflexivity.
Qed.

Lemma hs_mem_inter : forall p a b, hs_mem p (hs_inter a b) = hs_mem p a && hs_mem p b.
Proof. intros. apply hs_mem_filter. Qed.

Lemma hs_mem_union : forall p a b, hs_mem p (hs_union a b) = hs_mem p a || hs_mem p b.
Proof.
  intros. unfold hs_union. rewrite hs_mem_app, hs_mem_filter.
  destruct (hs_mem p a), (hs_mem p b); reflexivity.
Qed.

(** ** Balanced segments *)

Lemma collect_seg : forall s k d r cur args, bal (map fst s) k = true ->
  collect (s ++ r) (k + d) cur args = collect r d (rev s ++ cur) args.
Proof.
  induction s as [|[t h] s IH]; intros k d r cur args H; cbn [map bal app fst] in *.
  - apply Nat.eqb_eq in H. subst k. reflexivity.
  - cbn [collect fst rev]. rewrite <- app_assoc. cbn [app].
    destruct t; try (rewrite IH by exact H; reflexivity).
    + change (S (k + d)) with (S k + d)%nat. rewrite IH by exact H. reflexivity.
    + destruct k as [|k]; [discriminate|]. cbn [Nat.add]. rewrite IH by exact H. reflexivity.
    + destruct k as [|k]; [discriminate|]. change (S k + d)%nat with (S (k + d)).
      change (S (k + d)) with (S k + d)%nat. rewrite IH by exact H. reflexivity.
Qed.

Lemma collect_seg0 : forall s d r cur args, balanced (map fst s) ->
  collect (s ++ r) d cur args = collect r d (rev s ++ cur) args.
Proof. intros. apply (collect_seg s 0). assumption. Qed.

Lemma bal_app : forall a b k d, bal a k = true -> bal (a ++ b) (k + d) = bal b d.
Proof.
  induction a as [|t a IH]; intros b k d H; cbn [bal app] in *.
  - apply Nat.eqb_eq in H. subst. reflexivity.
  - destruct t; try (apply IH; exact H).
    + apply (IH b (S k) d). exact H.
    + destruct k as [|k]; [discriminate|]. apply IH. exact H.
    + destruct k as [|k]; [discriminate|]. apply (IH b (S k) d). exact H.
Qed.

Lemma balanced_app : forall a b, balanced a -> balanced b -> balanced (a ++ b).
Proof. unfold balanced. intros a b Ha Hb. change 0%nat with (0 + 0)%nat. rewrite bal_app by exact Ha. exact Hb. Qed.

Lemma bal_up : forall a b k, balanced a -> bal (a ++ b) k = bal b k.
Proof. intros a b k H. apply (bal_app a b 0 k). exact H. Qed.

Lemma balanced_paren : forall a, balanced a -> balanced (TLp :: a ++ [TRp]).
Proof. intros a H. unfold balanced. cbn [bal]. rewrite bal_up by exact H. reflexivity. Qed.

Lemma inert_app : forall tab a b, inert tab a -> inert tab b -> inert tab (a ++ b).
Proof. intros tab a b [A B] [C D]. split; [apply balanced_app; assumption|apply Forall_app; split; assumption]. Qed.

Lemma inert_nil : forall tab, inert tab [].
Proof. intros. split; [reflexivity|constructor]. Qed.

Lemma inert_paren : forall tab a, inert tab a -> inert tab (TLp :: a ++ [TRp]).
Proof.
  intros tab a [A B]. split; [apply balanced_paren; exact A|].
  constructor; [exact I|]. apply Forall_app. split; [exact B|]. constructor; [exact I|constructor].
Qed.

(** ** The abstract expansion *)

Definition is_atom (t : tok) : bool := match t with TAtom _ => true | _ => false end.

Section Abs.
Variable tab : table.               (* the macros *)
Variable words : PositiveMap.t unit. (* identifiers known not to be macros *)
Variable F : list spelling.         (* names the surroundings may hide *)

Fixpoint expandA (fuel : nat) (l : list htok) : option (list htok) :=
  match fuel with
  | O => None
  | S f =>
    match l with
    | [] => Some []
    | x :: r =>
      let emit := match expandA f r with Some o => Some (x :: o) | None => None end in
      match fst x with
      | TId p =>
        match PositiveMap.find p tab with
        | None => match PositiveMap.find p words with Some _ => emit | None => None end
        | Some m =>
          if hs_mem p (snd x) || hs_mem p F then None else
          match m_params m with
          | None =>
            match subst (m_body m) [] [] [] [] with
            | Some o => expandA f (hs_add (hs_union [p] (snd x)) o ++ r)
            | None => None
            end
          | Some ps =>
            match r with
            | (TLp, _) :: r' =>
              match collect r' 0 [] [] with
              | Some (args, _, rest) =>
                if Nat.eqb (length args) (length ps) then
                  match map_opt (expandA f) args with
                  | Some eargs =>
                    match subst (m_body m) ps args eargs [] with
                    | Some o => expandA f (hs_add (hs_union [p] (snd x)) o ++ rest)
                    | None => None
                    end
                  | None => None
                  end
                else None
              | None => None
              end
            | (TAtom _, _) :: _ => None
            | _ => emit
            end
          end
        end
      | _ => emit
      end
    end
  end.

End Abs.

(** ** Simulation *)

Section Sim.
Variable tab tab' : table.
Variable words : PositiveMap.t unit.
Variable F : list spelling.
Variable sg : nat -> list tok.

Hypothesis tab_le : forall p m, PositiveMap.find p tab = Some m -> PositiveMap.find p tab' = Some m.
Hypothesis words_ok : forall p, PositiveMap.find p tab = None ->
  PositiveMap.find p words <> None -> PositiveMap.find p tab' = None.
Hypothesis tab_no_atoms : forall p m, PositiveMap.find p tab = Some m ->
  forallb (fun t => negb (is_atom t)) (m_body m) = true.
Hypothesis sg_inert : forall n, inert tab' (sg n).

(** Hide set of the real run against that of the abstract run. *)
Definition hle (h' h : hideset) : Prop :=
  forall p, hs_mem p h' = true -> hs_mem p h = true \/ hs_mem p F = true.

Definition named (t : tok) : bool := match t with TId _ | TNum _ => true | _ => false end.

Inductive sim : list htok -> list htok -> Prop :=
| sim_nil : sim [] []
| sim_atom : forall n h s a c, map fst s = sg n -> sim a c -> sim ((TAtom n, h) :: a) (s ++ c)
| sim_tok : forall t h h' a c, is_atom t = false -> (named t = true -> hle h' h) -> sim a c ->
    sim ((t, h) :: a) ((t, h') :: c).

Lemma sim_app : forall a c b d, sim a c -> sim b d -> sim (a ++ b) (c ++ d).
Proof.
  intros a c b d H. induction H as [|n h s a c E H IH|t h h' a c Ht Hh H IH]; intros H'; cbn [app].
  - exact H'.
  - rewrite <- app_assoc. apply sim_atom; auto.
  - apply sim_tok; auto.
Qed.

Lemma sim_app_inv : forall a b c, sim (a ++ b) c -> exists c1 c2, c = c1 ++ c2 /\ sim a c1 /\ sim b c2.
Proof.
  induction a as [|x a IH]; intros b c H; cbn [app] in H.
  - exists [], c. repeat split; [constructor|exact H].
  - inversion H as [|n h s a' c' E H' |t h h' a' c' Ht Hh H']; subst.
    + destruct (IH _ _ H') as [c1 [c2 [-> [A B]]]].
      exists (s ++ c1), c2. rewrite app_assoc. repeat split; [constructor; assumption|exact B].
    + destruct (IH _ _ H') as [c1 [c2 [-> [A B]]]].
      exists ((t, h') :: c1), c2. repeat split; [constructor; assumption|exact B].
Qed.

(** What the real run is about, as plain tokens. *)
Fixpoint inst (l : list tok) : list tok :=
  match l with
  | [] => []
  | TAtom n :: r => sg n ++ inst r
  | t :: r => t :: inst r
  end.

Lemma sim_inst : forall a c, sim a c -> map fst c = inst (map fst a).
Proof.
  intros a c H. induction H as [|n h s a c E H IH|t h h' a c Ht Hh H IH]; [reflexivity| |].
  - rewrite map_app, E, IH. reflexivity.
  - cbn [map fst]. rewrite IH. destruct t; try reflexivity. discriminate.
Qed.

Lemma hle_refl : forall h, hle h h.
Proof. intros h p H. left. exact H. Qed.

Lemma sim_inst_bare : forall l, sim (map bare l) (map bare (inst l)).
Proof.
  induction l as [|t l IH]; [constructor|]. cbn [map].
  destruct (is_atom t) eqn:E.
  - destruct t; try discriminate. cbn [inst]. rewrite map_app. apply sim_atom; [|exact IH].
    rewrite map_map. apply map_id.
  - assert (inst (t :: l) = t :: inst l) as -> by (destruct t; try reflexivity; discriminate).
    cbn [map]. apply sim_tok; [exact E|intros _; apply hle_refl|exact IH].
Qed.

(** Collecting arguments. *)
Lemma sim_rev : forall a c, sim a c -> sim (rev (rev a)) (rev (rev c)).
Proof. intros. rewrite !rev_involutive. assumption. Qed.

Lemma Forall2_rev : forall (X Y : Type) (R : X -> Y -> Prop) l l', Forall2 R l l' -> Forall2 R (rev l) (rev l').
Proof.
  intros X Y R l l' H. induction H as [|x y l l' Hx H IH]; [constructor|].
  cbn [rev]. apply Forall2_app; [exact IH|]. constructor; [exact Hx|constructor].
Qed.

Lemma sim_collect : forall a c, sim a c -> forall d cur cur' args args' r h' rest,
  collect a d cur args = Some (r, h', rest) ->
  sim (rev cur) (rev cur') -> Forall2 sim args args' ->
  exists r' h2 rest', collect c d cur' args' = Some (r', h2, rest') /\ Forall2 sim r r' /\ sim rest rest'.
Proof.
  intros a c H. induction H as [|n h s a c E H IH|t h h0 a c Ht Hh H IH];
    intros d cur cur' args args' r h' rest Hc Hcur Hargs.
  - discriminate.
  - cbn [collect fst] in Hc. rewrite collect_seg0 by (rewrite E; apply sg_inert).
    eapply IH; [exact Hc| |exact Hargs].
    rewrite rev_app_distr, rev_involutive. cbn [rev]. apply sim_app; [exact Hcur|].
    rewrite <- (app_nil_r s). apply sim_atom; [exact E|constructor].
  - assert (Hp : sim (rev ((t, h) :: cur)) (rev ((t, h0) :: cur'))).
    { cbn [rev]. apply sim_app; [exact Hcur|]. apply sim_tok; [exact Ht|exact Hh|constructor]. }
    cbn [collect fst snd] in Hc |- *.
    destruct t; try (eapply IH; [exact Hc|exact Hp|exact Hargs]).
    + destruct d as [|d]; [|eapply IH; [exact Hc|exact Hp|exact Hargs]].
      injection Hc as <- <- <-. eexists _, _, _. split; [reflexivity|]. split; [|exact H].
      apply (Forall2_rev _ _ sim (rev cur :: args) (rev cur' :: args')). constructor; assumption.
    + destruct d as [|d]; [|eapply IH; [exact Hc|exact Hp|exact Hargs]].
      eapply IH; [exact Hc|constructor|constructor; assumption].
Qed.

(** Pasting. *)
Lemma glue_cons2 : forall x y a r,
  glue (x :: y :: a) r = match glue (y :: a) r with Some z => Some (x :: z) | None => None end.
Proof. reflexivity. Qed.

Lemma glue_seg : forall s c r x, glue c r = Some x -> glue (s ++ c) r = Some (s ++ x).
Proof.
  induction s as [|y s IH]; intros c r x H; [exact H|]. cbn [app].
  specialize (IH c r x H).
  destruct (s ++ c) as [|z w] eqn:E.
  - destruct s; [destruct c; discriminate|discriminate].
  - rewrite glue_cons2, IH. reflexivity.
Qed.

Lemma hle_inter : forall a b c d, hle a c -> hle b d -> hle (hs_inter a b) (hs_inter c d).
Proof.
  intros a b c d H1 H2 p H. rewrite hs_mem_inter in H. apply andb_true_iff in H. destruct H as [A B].
  rewrite hs_mem_inter. destruct (H1 _ A) as [A'|A']; [|right; exact A'].
  destruct (H2 _ B) as [B'|B']; [|right; exact B']. left. rewrite A', B'. reflexivity.
Qed.

Lemma paste_sim : forall t h t2 h2 c h' h2',
  paste_tok (t, h) (t2, h2) = Some c -> hle h' h -> hle h2' h2 ->
  exists c', paste_tok (t, h') (t2, h2') = Some c' /\ fst c = fst c' /\ is_atom (fst c) = false /\ hle (snd c') (snd c).
Proof.
  intros t h t2 h2 c h' h2' H A B. unfold paste_tok in *. cbn [fst snd] in *.
  destruct t, t2; try discriminate; injection H as <-; (eexists; split; [reflexivity|]);
    cbn [fst snd]; (split; [reflexivity|]); (split; [reflexivity|]); apply hle_inter; assumption.
Qed.

Lemma paste_named : forall a b c, paste_tok a b = Some c -> named (fst a) = true /\ named (fst b) = true.
Proof. intros [t h] [t2 h2] c H. unfold paste_tok in H. cbn [fst] in *. destruct t, t2; try discriminate; split; reflexivity. Qed.

Lemma named_not_atom : forall t, named t = true -> is_atom t = false.
Proof. intros t. destruct t; intros; try reflexivity; discriminate. Qed.

Lemma sim_named_inv : forall t h a c, named t = true -> sim ((t, h) :: a) c ->
  exists h' c', c = (t, h') :: c' /\ hle h' h /\ sim a c'.
Proof.
  intros t h a c Hn H. inversion H as [|n h0 s a' c' E H'|t' h0 h' a' c' Ht Hh H']; subst; [discriminate|].
  exists h', c'. auto.
Qed.

Lemma sim_glue : forall l l', sim l l' -> forall r r' x, sim r r' -> glue l r = Some x ->
  exists x', glue l' r' = Some x' /\ sim x x'.
Proof.
  intros l l' H. induction H as [|n h s a c E H IH|t h h' a c Ht Hh H IH]; intros r r' x Hr Hg.
  - discriminate.
  - destruct a as [|y a].
    + cbn [glue] in Hg. destruct r as [|z r]; [discriminate|].
      unfold paste_tok in Hg. cbn [fst] in Hg. discriminate.
    + rewrite glue_cons2 in Hg. destruct (glue (y :: a) r) as [x0|] eqn:G; [|discriminate].
      injection Hg as <-. destruct (IH _ _ _ Hr G) as [x' [G' S']].
      exists (s ++ x'). split; [apply glue_seg; exact G'|]. apply sim_atom; assumption.
  - destruct a as [|y a].
    + inversion H; subst. cbn [glue] in Hg |- *.
      destruct r as [|[t2 h2] r]; [discriminate|].
      destruct (paste_tok (t, h) (t2, h2)) as [[tc hc]|] eqn:P; [|discriminate]. injection Hg as <-.
      destruct (paste_named _ _ _ P) as [N1 N2]. cbn [fst] in N1, N2.
      destruct (sim_named_inv _ _ _ _ N2 Hr) as [h2' [r0 [-> [L2 S2]]]].
      destruct (paste_sim _ _ _ _ _ h' h2' P (Hh N1) L2) as [[t' hc'] [P' [E1 [E2 L']]]].
      cbn [fst snd] in *. subst t'. rewrite P'. eexists. split; [reflexivity|].
      apply sim_tok; [exact E2|intros _; exact L'|exact S2].
    + rewrite glue_cons2 in Hg. destruct (glue (y :: a) r) as [x0|] eqn:G; [|discriminate].
      injection Hg as <-. destruct (IH _ _ _ Hr G) as [x' [G' S']].
      exists ((t, h') :: x'). split; [|apply sim_tok; assumption].
      exact (glue_seg [(t, h')] c r' x' G').
Qed.

Lemma last_plain_app : forall s c, last_plain c = true -> last_plain (s ++ c) = true.
Proof.
  induction s as [|x s IH]; intros c H; [exact H|]. cbn [app].
  specialize (IH c H). destruct (s ++ c); [discriminate|]. exact IH.
Qed.

Lemma sim_last_plain : forall l l', sim l l' -> last_plain l = true -> last_plain l' = true.
Proof.
  intros l l' H. induction H as [|n h s a c E H IH|t h h' a c Ht Hh H IH]; intros L; [discriminate| |].
  - destruct a; [discriminate|]. apply last_plain_app. apply IH. exact L.
  - destruct a as [|y a].
    + inversion H; subst. exact L.
    + apply (last_plain_app [(t, h')]). apply IH. exact L.
Qed.

Lemma Forall2_nth_sim : forall args args' i, Forall2 sim args args' -> sim (nth i args []) (nth i args' []).
Proof.
  intros args args' i H. revert i. induction H as [|a b l l' Hab H IH]; intros [|i]; cbn [nth]; auto; constructor.
Qed.

Lemma sim_subst : forall body ps args args' eargs eargs' out out' o,
  forallb (fun t => negb (is_atom t)) body = true ->
  Forall2 sim args args' -> Forall2 sim eargs eargs' -> sim out out' ->
  subst body ps args eargs out = Some o ->
  exists o', subst body ps args' eargs' out' = Some o' /\ sim o o'.
Proof.
  intros body.
  assert (G : forall n body, (length body <= n)%nat -> forall ps args args' eargs eargs' out out' o,
    forallb (fun t => negb (is_atom t)) body = true ->
    Forall2 sim args args' -> Forall2 sim eargs eargs' -> sim out out' ->
    subst body ps args eargs out = Some o ->
    exists o', subst body ps args' eargs' out' = Some o' /\ sim o o').
  2:{ intros. eapply (G (length body)); eauto. }
  clear body. induction n as [|n IH]; intros body Hn ps args args' eargs eargs' out out' o HA H1 H2 H3 H.
  - destruct body; [|cbn [length] in Hn; lia]. cbn [subst] in *. injection H as <-. eauto.
  - destruct body as [|t r]; [cbn [subst] in *; injection H as <-; eauto|].
    cbn [length] in Hn. cbn [forallb] in HA. apply andb_true_iff in HA. destruct HA as [HA HA'].
    assert (Hb : forall t0, is_atom t0 = false -> sim [bare t0] [bare t0]).
    { intros t0 H0. apply sim_tok; [exact H0|intros _; apply hle_refl|constructor]. }
    assert (Hrest : forall out out', sim out out' -> forall o, subst r ps args eargs out = Some o ->
              exists o', subst r ps args' eargs' out' = Some o' /\ sim o o').
    { intros. eapply (IH r); eauto. lia. }
    assert (Hgen :
      match as_param ps t with
      | Some i => match r with
                  | TPaste :: _ => if last_plain (nth i args []) then subst r ps args eargs (out ++ nth i args []) else None
                  | _ => subst r ps args eargs (out ++ nth i eargs [])
                  end
      | None => subst r ps args eargs (out ++ [bare t])
      end = Some o ->
      exists o', match as_param ps t with
      | Some i => match r with
                  | TPaste :: _ => if last_plain (nth i args' []) then subst r ps args' eargs' (out' ++ nth i args' []) else None
                  | _ => subst r ps args' eargs' (out' ++ nth i eargs' [])
                  end
      | None => subst r ps args' eargs' (out' ++ [bare t])
      end = Some o' /\ sim o o').
    { intros E. destruct (as_param ps t) as [i|].
      - assert (Hp : subst r ps args eargs (out ++ nth i eargs []) = Some o ->
                 exists o', subst r ps args' eargs' (out' ++ nth i eargs' []) = Some o' /\ sim o o').
        { apply Hrest. apply sim_app; [exact H3|apply Forall2_nth_sim; exact H2]. }
        destruct r as [|t1 r1]; [exact (Hp E)|].
        destruct t1; try exact (Hp E).
        destruct (last_plain (nth i args [])) eqn:L; [|discriminate].
        rewrite (sim_last_plain _ _ (Forall2_nth_sim _ _ i H1) L).
        revert E. apply Hrest. apply sim_app; [exact H3|apply Forall2_nth_sim; exact H1].
      - revert E. apply Hrest. apply sim_app; [exact H3|]. apply Hb.
        destruct (is_atom t); [discriminate|reflexivity]. }
    destruct t; try exact (Hgen H).
    destruct r as [|t1 r1]; [exact (Hgen H)|].
    cbn [subst] in H |- *. cbn [forallb] in HA'. apply andb_true_iff in HA'. destruct HA' as [HA1 HA2].
    cbn [length] in Hn.
    destruct (as_param ps t1) as [i|].
    + destruct (glue out (nth i args [])) as [g|] eqn:G; [|discriminate].
      destruct (sim_glue _ _ H3 _ _ _ (Forall2_nth_sim _ _ i H1) G) as [g' [G' S']]. rewrite G'.
      eapply (IH r1); eauto. lia.
    + destruct (glue out [bare t1]) as [g|] eqn:G; [|discriminate].
      assert (Ht1 : is_atom t1 = false) by (destruct (is_atom t1); [discriminate|reflexivity]).
      destruct (sim_glue _ _ H3 _ _ _ (Hb t1 Ht1) G) as [g' [G' S']]. rewrite G'.
      eapply (IH r1); eauto. lia.
Qed.

Lemma hle_add : forall p h' h x y, hle h' h -> hle x y ->
  hle (hs_union (hs_union [p] h') x) (hs_union (hs_union [p] h) y).
Proof.
  intros p h' h x y A B q H. rewrite !hs_mem_union in H |- *.
  apply orb_true_iff in H. destruct H as [H|H].
  - apply orb_true_iff in H. destruct H as [H|H].
    + left. rewrite H. reflexivity.
    + destruct (A _ H) as [H'|H']; [left; rewrite H', orb_true_r; reflexivity|right; exact H'].
  - destruct (B _ H) as [H'|H']; [left; rewrite H', orb_true_r; reflexivity|right; exact H'].
Qed.

Lemma sim_hs_add : forall p h' h l l', hle h' h -> sim l l' ->
  sim (hs_add (hs_union [p] h) l) (hs_add (hs_union [p] h') l').
Proof.
  intros p h' h l l' A H. unfold hs_add.
  induction H as [|n h0 s a c E H IH|t h0 h0' a c Ht Hh H IH]; cbn [map].
  - constructor.
  - rewrite map_app. apply sim_atom; [|exact IH]. rewrite map_map. exact E.
  - cbn [fst snd]. apply sim_tok; [exact Ht| |exact IH]. intros N. apply hle_add; auto.
Qed.

Lemma Forall2_len : forall (X Y : Type) (R : X -> Y -> Prop) l l', Forall2 R l l' -> length l = length l'.
Proof. intros X Y R l l' H. induction H; [reflexivity|]. cbn [length]. congruence. Qed.

(** The list ends with a stop: nothing in it reaches beyond its end. *)
Lemma collect_tail : forall a n h d cur args r h' rest,
  collect (a ++ [(TAtom n, h)]) d cur args = Some (r, h', rest) ->
  exists rest0, rest = rest0 ++ [(TAtom n, h)] /\ collect a d cur args = Some (r, h', rest0).
Proof.
  induction a as [|[t h0] a IH]; intros n h d cur args r h' rest H; [discriminate|].
  cbn [app collect fst snd] in H |- *.
  destruct t; try (apply IH; exact H).
  - destruct d; [|apply IH; exact H]. injection H as <- <- <-. eauto.
  - destruct d; apply IH; exact H.
Qed.

Lemma collect_more : forall a d cur args r h' rest b,
  collect a d cur args = Some (r, h', rest) -> collect (a ++ b) d cur args = Some (r, h', rest ++ b).
Proof.
  induction a as [|[t h0] a IH]; intros d cur args r h' rest b H; [discriminate|].
  cbn [app collect fst snd] in H |- *.
  destruct t; try (apply IH; exact H).
  - destruct d; [|apply IH; exact H]. injection H as <- <- <-. reflexivity.
  - destruct d; apply IH; exact H.
Qed.

(** Tails: nothing, or a stop that stands for any list with a known expansion. *)
Inductive tail : list htok -> list htok -> list htok -> Prop :=
| tail_none : tail [] [] []
| tail_stop : forall n h L R, eh tab' L R -> tail [(TAtom n, h)] L R.

Lemma Forall2_eh_args : forall f (IH : forall a c r, expandA tab words F f a = Some r -> sim a c ->
    exists r', eh tab' c r' /\ sim r r') args args' eargs,
  map_opt (expandA tab words F f) args = Some eargs -> Forall2 sim args args' ->
  exists eargs', Forall2 (eh tab') args' eargs' /\ Forall2 sim eargs eargs'.
Proof.
  intros f IH args args' eargs E H. revert eargs E.
  induction H as [|a b l l' Hab H IH2]; intros eargs E; cbn [map_opt] in E.
  - injection E as <-. exists []. split; constructor.
  - destruct (expandA tab words F f a) as [y|] eqn:Ey; [|discriminate].
    destruct (map_opt (expandA tab words F f) l) as [ys|] eqn:Eys; [|discriminate].
    injection E as <-. destruct (IH _ _ _ Ey Hab) as [y' [A B]].
    destruct (IH2 _ eq_refl) as [ys' [C D]]. exists (y' :: ys'). split; constructor; assumption.
Qed.

Theorem sim_expand : forall f a tA L R c r,
  tail tA L R -> expandA tab words F f (a ++ tA) = Some r -> sim a c ->
  exists r0 r', r = r0 ++ tA /\ sim r0 r' /\ eh tab' (c ++ L) (r' ++ R).
Proof.
  induction f as [|f IH]; intros a tA L R c r HT H HS; [discriminate|].
  assert (IHn : forall a c r, expandA tab words F f a = Some r -> sim a c ->
                exists r', eh tab' c r' /\ sim r r').
  { intros a0 c0 r0 E0 S0. rewrite <- (app_nil_r a0) in E0.
    destruct (IH _ _ _ _ _ _ tail_none E0 S0) as [r1 [r' [-> [A B]]]].
    rewrite !app_nil_r in *. eauto. }
  inversion HS as [|n h s a' c' E H'|t h h' a' c' Ht Hh H']; subst.
  - (* the tail itself *)
    cbn [app] in H |- *. inversion HT; subst; cbn [expandA fst] in H.
    + injection H as <-. exists [], []. repeat split; [constructor|apply eh_nil].
    + destruct f as [|f]; [discriminate|]. cbn [expandA] in H. injection H as <-.
      exists [], []. repeat split; [constructor|assumption].
  - (* an atom *)
    cbn [app expandA fst] in H.
    destruct (expandA tab words F f (a' ++ tA)) as [o|] eqn:Eo; [|discriminate]. injection H as <-.
    destruct (IH _ _ _ _ _ _ HT Eo H') as [r0 [r' [-> [A B]]]].
    exists ((TAtom n, h) :: r0), (s ++ r'). split; [reflexivity|].
    split; [apply sim_atom; assumption|]. rewrite <- !app_assoc. apply eh_emit_seg; [|exact B].
    apply Forall_map. rewrite E. apply sg_inert.
  - assert (Hemit : forall o, expandA tab words F f (a' ++ tA) = Some o -> (t, h) :: o = r ->
        (forall x y, eh tab' (c' ++ L) y -> x = (t, h') -> eh tab' (x :: c' ++ L) (x :: y)) ->
        exists r0 r', r = r0 ++ tA /\ sim r0 r' /\ eh tab' (((t, h') :: c') ++ L) (r' ++ R)).
    { intros o Eo <- He. destruct (IH _ _ _ _ _ _ HT Eo H') as [r0 [r' [-> [A B]]]].
      exists ((t, h) :: r0), ((t, h') :: r'). split; [reflexivity|].
      split; [apply sim_tok; assumption|]. cbn [app]. apply He; [exact B|reflexivity]. }
    cbn [app expandA fst snd] in H.
    destruct (match t with TId _ => true | _ => false end) eqn:Eid.
    2:{ assert (Hx : match expandA tab words F f (a' ++ tA) with Some o => Some ((t, h) :: o) | None => None end = Some r)
          by (destruct t; try exact H; discriminate).
        destruct (expandA tab words F f (a' ++ tA)) as [o|] eqn:Eo; [|discriminate].
        injection Hx as <-. apply (Hemit o eq_refl eq_refl).
        intros x y Hy ->. apply eh_emit; [|exact Hy]. destruct t; try exact I; discriminate. }
    destruct t as [p| | | | | | | |]; try discriminate. clear Eid.
    destruct (PositiveMap.find p tab) as [m|] eqn:Em.
    2:{ destruct (PositiveMap.find p words) as [u|] eqn:Ew; [|discriminate].
        destruct (expandA tab words F f (a' ++ tA)) as [o|] eqn:Eo; [|discriminate].
        injection H as <-. apply (Hemit o eq_refl eq_refl).
        intros x y Hy ->. apply eh_emit; [|exact Hy]. cbn [fst plain_tok].
        apply words_ok; [exact Em|rewrite Ew; discriminate]. }
    pose proof (tab_le _ _ Em) as Em'.
    destruct (hs_mem p h || hs_mem p F) eqn:Ehid; [discriminate|].
    apply orb_false_iff in Ehid. destruct Ehid as [Eh1 Eh2].
    specialize (Hh eq_refl).
    assert (Eh' : hs_mem p h' = false).
    { destruct (hs_mem p h') eqn:Ex; [|reflexivity]. destruct (Hh _ Ex); congruence. }
    pose proof (tab_no_atoms _ _ Em) as HNA.
    destruct (m_params m) as [ps|] eqn:Eps.
    2:{ destruct (subst (m_body m) [] [] [] []) as [o|] eqn:Es; [|discriminate].
        rewrite app_assoc in H.
        destruct (sim_subst (m_body m) [] [] [] [] [] [] [] o HNA ltac:(constructor) ltac:(constructor) sim_nil Es)
          as [o' [Es' So]].
        destruct (IH _ _ _ _ (hs_add (hs_union [p] h') o' ++ c') _ HT H) as [r0 [r' [-> [A B]]]].
        { apply sim_app; [apply sim_hs_add; assumption|exact H']. }
        exists r0, r'. split; [reflexivity|]. split; [exact A|]. cbn [app].
        eapply eh_object; [exact Eh'|exact Em'|exact Eps|exact Es'|].
        rewrite app_assoc. exact B. }
    assert (Hname : forall o, expandA tab words F f (a' ++ tA) = Some o -> (TId p, h) :: o = r ->
       match c' ++ L with (TLp, _) :: _ => False | _ => True end ->
       exists r0 r', r = r0 ++ tA /\ sim r0 r' /\ eh tab' (((TId p, h') :: c') ++ L) (r' ++ R)).
    { intros o Eo Er Hl. apply (Hemit o Eo Er). intros x y Hy ->.
      eapply eh_emit_name; [exact Em'|exact Eps|exact Hl|exact Hy]. }
    destruct a' as [|[t1 h1] a1].
    { (* the name is last *)
      cbn [app] in H. inversion HT; subst; [|discriminate].
      destruct (expandA tab words F f []) as [o|] eqn:Eo; [|discriminate].
      injection H as <-. inversion H'; subst. apply (Hname o Eo eq_refl). exact I. }
    cbn [app] in H.
    destruct (match t1 with TLp => true | _ => false end) eqn:Elp.
    2:{ assert (is_atom t1 = false) as Hna by (destruct t1; try reflexivity; discriminate).
        assert (Hx : match expandA tab words F f ((t1, h1) :: a1 ++ tA) with
                     Some o => Some ((TId p, h) :: o) | None => None end = Some r)
          by (destruct t1; try exact H; discriminate).
        destruct (expandA tab words F f ((t1, h1) :: a1 ++ tA)) as [o|] eqn:Eo; [|discriminate].
        injection Hx as Hx. inversion H' as [|n0 h0 s0 a0 c0 E0 H0|t0 h0 h0' a0 c0 Ht0 Hh0 H0]; subst; [discriminate|].
        eapply Hname; [cbn [app]; exact Eo|reflexivity|].
        cbn [app]. destruct t1; try exact I. discriminate. }
    destruct t1; try discriminate. clear Elp.
    inversion H' as [|n0 h0 s0 a0 c0 E0 H0|t0 h0 h0' a0 c0 Ht0 Hh0 H0]; subst.
    destruct (collect (a1 ++ tA) 0 [] []) as [[[args hc] rest]|] eqn:Ec; [|discriminate].
    destruct (Nat.eqb (length args) (length ps)) eqn:En; [|discriminate]. apply Nat.eqb_eq in En.
    assert (exists rest0, rest = rest0 ++ tA /\ collect a1 0 [] [] = Some (args, hc, rest0)) as [rest0 [-> Ec']].
    { inversion HT; subst.
      - rewrite app_nil_r in Ec. exists rest. rewrite app_nil_r. auto.
      - apply collect_tail in Ec. exact Ec. }
    destruct (map_opt (expandA tab words F f) args) as [eargs|] eqn:Ea; [|discriminate].
    destruct (subst (m_body m) ps args eargs []) as [o|] eqn:Es; [|discriminate].
    destruct (sim_collect _ _ H0 _ _ [] _ [] _ _ _ Ec' sim_nil ltac:(constructor))
      as [args' [hc' [rest' [Ec2 [Sa Sr]]]]].
    destruct (Forall2_eh_args f IHn _ _ _ Ea Sa) as [eargs' [Ha1 Ha2]].
    destruct (sim_subst _ ps _ _ _ _ [] [] o HNA Sa Ha2 sim_nil Es) as [o' [Es' So]].
    rewrite app_assoc in H.
    destruct (IH _ _ _ _ (hs_add (hs_union [p] (hs_inter h' hc')) o' ++ rest') _ HT H) as [r0 [r' [-> [A B]]]].
    { apply sim_app; [|exact Sr]. apply sim_hs_add; [|exact So].
      intros q Hq. rewrite hs_mem_inter in Hq. apply andb_true_iff in Hq. apply Hh. apply Hq. }
    exists r0, r'. split; [reflexivity|]. split; [exact A|]. cbn [app].
    eapply eh_call; [exact Eh'|exact Em'|exact Eps| | |exact Ha1|exact Es'|].
    + apply collect_more. exact Ec2.
    + rewrite <- En. symmetry. eapply Forall2_len. exact Sa.
    + rewrite app_assoc. exact B.
Qed.

End Sim.
