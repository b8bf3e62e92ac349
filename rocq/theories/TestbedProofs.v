(** Proofs for C69 to C72. *)
From Coq Require Import String Ascii.
From Coq Require Import ZArith List Bool Lia.
From Verif Require Import Testbed SpecTestbed.
Import ListNotations.
Open Scope Z_scope.

Lemma len_app a b : len (a ++ b) = len a + len b.
Proof. unfold len. rewrite app_length. lia. Qed.
Lemma len_cons c a : len (c :: a) = 1 + len a.
Proof. unfold len. simpl length. lia. Qed.
Lemma len_one c : len [c] = 1.
Proof. reflexivity. Qed.
Lemma len_nil : len [] = 0.
Proof. reflexivity. Qed.
Lemma len_pos a : 0 <= len a.
Proof. unfold len. lia. Qed.

(** ** trim *)

Lemma blanks_cons c s : blanks (c :: s) <-> c = blank /\ blanks s.
Proof. unfold blanks. split; intros H; [inversion H; auto|destruct H; subst; constructor; auto]. Qed.

Lemma char_in a c b : char_at (a ++ c :: b) (len a) = Returns c.
Proof.
  unfold char_at. pose proof (len_pos a). pose proof (len_pos b). rewrite len_app, len_cons.
  replace ((0 <=? len a) && (len a <? len a + (1 + len b))) with true by lia.
  unfold len. rewrite Nat2Z.id, app_nth2, Nat.sub_diag by lia. reflexivity.
Qed.
Lemma char_end a : char_at a (len a) = Returns nul.
Proof. unfold char_at. pose proof (len_pos a). rewrite Z.ltb_irrefl, andb_false_r, Z.eqb_refl. reflexivity. Qed.

Lemma start_goes : forall a p s fuel, blanks a -> (forall r, s <> blank :: r) -> (length a < fuel)%nat ->
  trim_start fuel (p ++ a ++ s) (len p) = Returns (len p + len a).
Proof.
  induction a as [|c a IH]; intros p s fuel B N F; (destruct fuel as [|fuel]; [simpl in F; lia|]); cbn [trim_start].
  - replace (len p + len []) with (len p) by (rewrite len_nil; lia). cbn [app]. destruct s as [|c s].
    + rewrite app_nil_r, char_end. cbn [andThen]. reflexivity.
    + rewrite char_in. cbn [andThen]. destruct (Ascii.eqb_spec c blank); [subst; exfalso; eapply N; reflexivity|]. reflexivity.
  - apply blanks_cons in B. destruct B as [-> B]. cbn [app]. rewrite char_in. cbn [andThen].
    rewrite Ascii.eqb_refl. cbn [andb]. rewrite len_app, !len_cons.
    pose proof (len_pos (a ++ s)). destruct (Z.ltb_spec (len p) (len p + (1 + len (a ++ s)))); [|lia].
    replace (len p + 1) with (len (p ++ [blank])) by (rewrite len_app, len_one; lia).
    replace (p ++ blank :: a ++ s) with ((p ++ [blank]) ++ a ++ s) by (rewrite <- app_assoc; reflexivity).
    rewrite IH by (auto; simpl in F; lia). rewrite len_app, len_one. f_equal. lia.
Qed.

(** From position [len p + len b] down over the blanks [b] to the character before. *)
Lemma end_goes : forall b p c r fuel, blanks b -> c <> blank -> (length b < fuel)%nat -> 1 <= len p ->
  trim_end fuel (p ++ c :: b ++ r) (len p + len b) = Returns (len p).
Proof.
  induction b as [|x b IH] using rev_ind; intros p c r fuel B N F L; (destruct fuel as [|fuel]; [simpl in F; lia|]); cbn [trim_end].
  - replace (len p + len []) with (len p) by (rewrite len_nil; lia). rewrite char_in. cbn [andThen].
    destruct (Ascii.eqb_spec c blank); [contradiction|]. reflexivity.
  - unfold blanks in B. apply Forall_app in B. destruct B as [B X]. inversion X; subst.
    replace (p ++ c :: (b ++ [blank]) ++ r) with ((p ++ c :: b) ++ blank :: r) by (rewrite <- !app_assoc; reflexivity).
    replace (len p + len (b ++ [blank])) with (len (p ++ c :: b)) by (rewrite !len_app, !len_cons, len_nil; lia).
    rewrite char_in. cbn [andThen]. rewrite Ascii.eqb_refl. cbn [andb].
    rewrite len_app, len_cons. pose proof (len_pos b). destruct (Z.ltb_spec 1 (len p + (1 + len b))); [|lia].
    replace (len p + (1 + len b) - 1) with (len p + len b) by lia. rewrite <- app_assoc. cbn [app].
    apply IH; auto. rewrite app_length in F. simpl in F. lia.
Qed.

(** The same when the last character that is no blank is the very first one. *)
Lemma end_goes_first : forall b c r fuel, blanks b -> (length b < fuel)%nat -> b <> [] ->
  trim_end fuel (c :: b ++ r) (len b) = Returns 1.
Proof.
  induction b as [|x b IH] using rev_ind; intros c r fuel B F L; [congruence|]. destruct fuel as [|fuel]; [simpl in F; lia|]. cbn [trim_end].
  unfold blanks in B. apply Forall_app in B. destruct B as [B X]. inversion X; subst.
  replace (c :: (b ++ [blank]) ++ r) with ((c :: b) ++ blank :: r) by (simpl; rewrite <- !app_assoc; reflexivity).
  replace (len (b ++ [blank])) with (len (c :: b)) by (rewrite !len_app, !len_cons, len_nil; lia).
  rewrite char_in. cbn [andThen]. rewrite Ascii.eqb_refl. cbn [andb]. rewrite len_cons.
  destruct b as [|y b].
  - reflexivity.
  - rewrite len_cons. pose proof (len_pos b). destruct (Z.ltb_spec 1 (1 + (1 + len b))); [|lia].
    replace (1 + (1 + len b) - 1) with (len (y :: b)) by (rewrite len_cons; lia). cbn [app].
    apply (IH c (blank :: r) fuel); auto; [|discriminate]. rewrite app_length in F. simpl in F |- *. lia.
Qed.

Lemma sub_at a t b n : n = len t -> sub_string (a ++ t ++ b) (len a) n = Returns t.
Proof.
  intros ->. unfold sub_string. pose proof (len_pos t). pose proof (len_pos b). rewrite !len_app.
  destruct (Z.ltb_spec (len a + (len t + len b)) (len a)); [lia|].
  replace (Z.min (len t) (len a + (len t + len b) - len a)) with (len t) by lia.
  unfold len. rewrite !Nat2Z.id. rewrite skipn_app, skipn_all, Nat.sub_diag. cbn [app skipn].
  rewrite firstn_app, firstn_all, Nat.sub_diag. cbn [firstn]. rewrite app_nil_r. reflexivity.
Qed.

Lemma bare_split t : bare t -> t = [] \/ exists r c, t = r ++ [c] /\ c <> blank.
Proof.
  intros [_ B]. destruct t as [|x t] using rev_ind; [auto|]. right. exists t, x. split; auto.
  intros ->. eapply B; reflexivity.
Qed.

Lemma trim_correct s t : strips s t -> Z.of_nat (length s) < 2 ^ 64 -> trim s = Returns t.
Proof.
  intros (a & b & E & A & B & T) Small. unfold trim.
  destruct (Z.eqb_spec (len s) 0) as [Z0|NZ].
  { subst s. rewrite !len_app in Z0. pose proof (len_pos a). pose proof (len_pos t). pose proof (len_pos b).
    destruct a; [|rewrite len_cons in Z0; pose proof (len_pos a0); lia].
    destruct t; [|rewrite len_cons in Z0; pose proof (len_pos t); lia].
    destruct b; [reflexivity|rewrite len_cons in Z0; pose proof (len_pos b); lia]. }
  destruct (bare_split t T) as [->|(r & c & -> & C)].
  - (* blanks only *)
    cbn [app] in E. assert (B' : blanks s) by (subst; apply Forall_app; auto).
    assert (S1 : trim_start (2 + length s) s 0 = Returns (len s)).
    { pose proof (start_goes s [] [] (2 + length s) B' ltac:(discriminate) ltac:(lia)) as G.
      cbn [app] in G. rewrite app_nil_r in G. exact G. }
    rewrite S1. cbn [andThen].
    assert (E1 : exists e, trim_end (2 + length s) s (len s - 1) = Returns e /\ 0 <= e < len s).
    { destruct s as [|x [|y s']]; [simpl in NZ; exfalso; apply NZ; reflexivity| |].
      - exists 0. split; [|unfold len; simpl; lia]. apply blanks_cons in B'. destruct B' as [-> _]. reflexivity.
      - exists 1. assert (B2 : blanks (y :: s')) by (apply blanks_cons in B'; tauto). split; [|rewrite !len_cons; pose proof (len_pos s'); lia].
        pose proof (end_goes_first (y :: s') x [] (2 + length (x :: y :: s')) B2 ltac:(simpl; lia) ltac:(discriminate)) as G.
        rewrite app_nil_r in G. rewrite <- G. f_equal. rewrite (len_cons x). lia. }
    destruct E1 as (e & E1 & L). rewrite E1. cbn [andThen].
    assert (C1 : exists c, char_at s e = Returns c).
    { unfold char_at. replace ((0 <=? e) && (e <? len s)) with true by lia. eauto. }
    destruct C1 as (c & ->). cbn [andThen]. unfold sub_string. rewrite Z.ltb_irrefl.
    unfold len. rewrite Nat2Z.id, skipn_all, firstn_nil. reflexivity.
  - (* the last character that is no blank is c *)
    assert (S1 : trim_start (2 + length s) s 0 = Returns (len a)).
    { subst s. apply (start_goes a [] ((r ++ [c]) ++ b) _ A); [|rewrite !app_length; lia].
      intros q Q. destruct r as [|x r]; simpl in Q; injection Q as Q1 Q2; [congruence|].
      subst x. destruct T as [T _]. eapply T. reflexivity. }
    rewrite S1. cbn [andThen].
    assert (G : exists e d, trim_end (2 + length s) s (len s - 1) = Returns e /\ char_at s e = Returns d /\
              (if negb (Ascii.eqb d blank) && (e <? len s) then e + 1 else e) = len a + len r + 1).
    { assert (E' : s = (a ++ r) ++ c :: b) by (subst; rewrite <- !app_assoc; reflexivity).
      assert (Ls : len s - 1 = len (a ++ r) + len b) by (rewrite E', len_app, len_cons; lia).
      destruct (a ++ r) as [|x q] eqn:Ar.
      - destruct a, r; try discriminate. cbn [app] in *. destruct b as [|y b].
        + exists 0, c. subst s. cbn. destruct (Ascii.eqb_spec c blank); [contradiction|]. auto.
        + exists 1, blank. assert (y = blank) by (apply blanks_cons in B; tauto). subst y. split; [|split; [subst s; exact (char_in [c] blank b)|reflexivity]].
          rewrite Ls, E'. pose proof (end_goes_first (blank :: b) c [] (2 + length s) B ltac:(rewrite E'; simpl; lia) ltac:(discriminate)) as G.
          rewrite app_nil_r in G. rewrite E' in G. exact G.
      - exists (len (x :: q)), c. split.
        + rewrite Ls, E'. pose proof (end_goes b (x :: q) c [] (2 + length s) B C ltac:(rewrite E', app_length; simpl; lia)
            ltac:(rewrite len_cons; pose proof (len_pos q); lia)) as G. rewrite app_nil_r in G. rewrite E' in G. exact G.
        + rewrite E' at 1. rewrite char_in. split; [reflexivity|]. destruct (Ascii.eqb_spec c blank); [contradiction|].
          cbn [negb andb]. rewrite E', len_app, !len_cons. pose proof (len_pos b). pose proof (len_pos q).
          destruct (Z.ltb_spec (1 + len q) (1 + len q + (1 + len b))); [|lia].
          assert (LA : len (a ++ r) = len (x :: q)) by (rewrite Ar; reflexivity). rewrite len_app, len_cons in LA. lia. }
    destruct G as (e & d & -> & G1 & G2). cbn [andThen]. rewrite G1. cbn [andThen]. rewrite G2.
    subst s. apply sub_at. unfold size_sub. rewrite len_app. replace (len [c]) with 1 by reflexivity.
    replace (len a + len r + 1 - len a) with (len r + 1) by lia. apply Z.mod_small.
    pose proof (len_pos r). rewrite !app_length in Small. unfold len in *. simpl in Small. lia.
Qed.

Lemma strips_exist s : exists t, strips s t.
Proof.
  assert (L : forall s, exists a t, s = a ++ t /\ blanks a /\ (forall r, t <> blank :: r)).
  { induction s0 as [|c s0 (a & t & -> & A & T)].
    - exists [], []. repeat split; [constructor|discriminate].
    - destruct (ascii_dec c blank) as [->|N].
      + exists (blank :: a), t. repeat split; auto. constructor; auto.
      + exists [], (c :: a ++ t). repeat split; [constructor|]. intros r H. injection H as H _. congruence. }
  assert (R : forall s, exists t b, s = t ++ b /\ blanks b /\ (forall r, t <> r ++ [blank])).
  { induction s0 as [|c s0 (t & b & -> & B & T)] using rev_ind.
    - exists [], []. repeat split; [constructor|]. intros [|? ?]; discriminate.
    - destruct (ascii_dec c blank) as [->|N].
      + exists t, (b ++ [blank]). rewrite app_assoc. repeat split; auto. apply Forall_app. split; auto.
      + exists ((t ++ b) ++ [c]), []. rewrite app_nil_r. repeat split; [constructor|]. intros r H.
        apply app_inj_tail in H. destruct H. congruence. }
  destruct (L s) as (a & u & -> & A & U). destruct (R u) as (t & b & -> & B & T).
  exists t, a, b. repeat split; auto. intros r ->. eapply U. reflexivity.
Qed.

Lemma leading_unique : forall a a' t t', blanks a -> blanks a' -> (forall r, t <> blank :: r) -> (forall r, t' <> blank :: r) ->
  a ++ t = a' ++ t' -> t = t'.
Proof.
  induction a as [|c a IH]; intros [|c' a'] t t' A A' T T' E; cbn [app] in E.
  - exact E.
  - apply blanks_cons in A'. destruct A' as [-> _]. exfalso. eapply T. exact E.
  - apply blanks_cons in A. destruct A as [-> _]. exfalso. eapply T'. symmetry. exact E.
  - injection E as _ E. apply blanks_cons in A, A'. eapply IH; try eassumption; tauto.
Qed.

Lemma blanks_rev s : blanks s -> blanks (rev s).
Proof. intros H. apply Forall_forall. intros x I. apply in_rev in I. exact (proj1 (Forall_forall _ _) H x I). Qed.

Lemma strips_unique s t t' : strips s t -> strips s t' -> t = t'.
Proof.
  intros (a & b & E & A & B & T1 & T2) (a' & b' & E' & A' & B' & T1' & T2').
  assert (X : forall (t b : text), blanks b -> (forall r, t <> r ++ [blank]) -> (forall r, t <> blank :: r) ->
     (t = [] /\ blanks (t ++ b)) \/ (forall r, t ++ b <> blank :: r)).
  { intros u v V U1 U2. destruct u as [|c u]; [left; auto|right]. intros r H. injection H as H _. subst. eapply U2; reflexivity. }
  destruct (X t b B T2 T1) as [[-> N]|N].
  - (* everything is blank *)
    assert (W : blanks s) by (subst s; apply Forall_app; auto).
    rewrite E' in W. unfold blanks in W. rewrite !Forall_app in W. destruct W as (_ & W & _).
    destruct t' as [|c t']; auto. inversion W; subst. exfalso. eapply T1'. reflexivity.
  - destruct (X t' b' B' T2' T1') as [[-> N']|N'].
    + assert (W : blanks s) by (rewrite E'; apply Forall_app; auto).
      rewrite E in W. unfold blanks in W. rewrite !Forall_app in W. destruct W as (_ & W & _).
      destruct t as [|c t]; auto. inversion W; subst. exfalso. eapply T1. reflexivity.
    + assert (Q : t ++ b = t' ++ b') by (eapply leading_unique with (a := a) (a' := a'); auto; congruence).
      apply (f_equal (@rev ascii)) in Q. rewrite !rev_app_distr in Q.
      assert (rev t = rev t').
      { eapply leading_unique with (a := rev b) (a' := rev b'); auto using blanks_rev.
        - intros r H. eapply (T2 (rev r)). rewrite <- (rev_involutive t), H. reflexivity.
        - intros r H. eapply (T2' (rev r)). rewrite <- (rev_involutive t'), H. reflexivity. }
      rewrite <- (rev_involutive t), H, rev_involutive. reflexivity.
Qed.

Lemma bare_strips t : bare t -> strips t t.
Proof. intros B. exists [], []. rewrite app_nil_r. repeat split; try constructor; apply B. Qed.

(** ** tokenize *)

Lemma getlines_item d : forall p item s, ~ In d p -> getlines d item (p ++ s) = getlines d (rev p ++ item) s.
Proof.
  induction p as [|c p IH]; intros item s N; auto. cbn [app getlines].
  destruct (Ascii.eqb_spec c d); [subst; exfalso; apply N; left; reflexivity|].
  rewrite IH by (intros H; apply N; right; exact H). cbn [rev]. rewrite <- app_assoc. reflexivity.
Qed.

Lemma getlines_glue d : forall parts, Forall (fun p => ~ In d p) parts -> getlines d [] (glue d parts) = counted parts.
Proof.
  induction 1 as [|p parts P F IH]; auto. destruct parts as [|q parts].
  - cbn [glue counted]. rewrite <- (app_nil_r p) at 1. rewrite getlines_item by auto. cbn [getlines].
    rewrite app_nil_r. destruct p as [|c p]; auto. destruct (rev (c :: p)) eqn:R.
    + apply (f_equal (@length ascii)) in R. rewrite rev_length in R. discriminate.
    + rewrite <- R, rev_involutive. reflexivity.
  - change (glue d (p :: q :: parts)) with (p ++ d :: glue d (q :: parts)). rewrite getlines_item by auto.
    cbn [getlines]. rewrite Ascii.eqb_refl, app_nil_r, rev_involutive, IH. reflexivity.
Qed.

Lemma each_trim : forall ps ts, Forall2 strips ps ts -> Forall (fun p : text => Z.of_nat (length p) < 2 ^ 64) ps -> each trim ps = Returns ts.
Proof.
  induction 1 as [|p t ps ts P F IH]; intros S; auto. inversion S; subst.
  cbn [each]. rewrite (trim_correct _ _ P) by auto. cbn [andThen]. rewrite IH by auto. reflexivity.
Qed.

Lemma strips_all : forall ps, exists ts, Forall2 strips ps ts.
Proof.
  induction ps as [|p ps [ts IH]]; [exists []; constructor|].
  destruct (strips_exist p) as [t T]. exists (t :: ts). constructor; auto.
Qed.

Lemma glue_small d : forall parts n, Z.of_nat (length (glue d parts)) < n -> Forall (fun p : text => Z.of_nat (length p) < n) parts.
Proof.
  induction parts as [|p parts IH]; intros n H; [constructor|]. destruct parts as [|q parts].
  - repeat constructor. exact H.
  - change (glue d (p :: q :: parts)) with (p ++ d :: glue d (q :: parts)) in H. rewrite app_length in H. cbn [length] in H.
    constructor; [lia|apply IH; lia].
Qed.

Lemma counted_sub : forall (P : text -> Prop) parts, Forall P parts -> Forall P (counted parts).
Proof.
  induction 1 as [|p parts H F IH]; [constructor|]. destruct parts as [|t parts]; [destruct p; repeat constructor; auto|].
  change (counted (p :: t :: parts)) with (p :: counted (t :: parts)). constructor; auto.
Qed.

Lemma tokenize_correct d s parts ts : splits d s parts -> Forall2 strips (counted parts) ts ->
  Z.of_nat (length s) < 2 ^ 64 -> tokenize s d = Returns ts.
Proof.
  intros (_ & N & ->) F S. unfold tokenize. rewrite getlines_glue by auto. apply each_trim; auto.
  apply counted_sub. eapply glue_small. exact S.
Qed.

Lemma splits_exist d : forall s, exists parts, splits d s parts.
Proof.
  induction s as [|c s (parts & N & F & E)].
  - exists [[]]. repeat split; [discriminate|]. repeat constructor. auto.
  - destruct (ascii_dec c d) as [->|D].
    + exists ([] :: parts). repeat split; [discriminate| |].
      * constructor; auto.
      * destruct parts; [congruence|]. cbn [glue app]. rewrite E. reflexivity.
    + destruct parts as [|p parts]; [congruence|]. inversion F; subst. exists ((c :: p) :: parts). repeat split; [discriminate| |].
      * constructor; auto. intros [|]; auto.
      * destruct parts; reflexivity.
Qed.

Lemma tokenize_total d s : Z.of_nat (length s) < 2 ^ 64 ->
  exists parts ts, splits d s parts /\ Forall2 strips (counted parts) ts /\ tokenize s d = Returns ts.
Proof.
  intros S. destruct (splits_exist d s) as (parts & P). destruct (strips_all (counted parts)) as (ts & T).
  exists parts, ts. repeat split; try apply P; auto. eapply tokenize_correct; eauto.
Qed.

(** Two ways of cutting a text at the first delimiter. *)
Lemma first_cut : forall d p p' (q q' : text), ~ In d p -> ~ In d p' -> p ++ d :: q = p' ++ d :: q' -> p = p' /\ q = q'.
Proof.
  induction p as [|c p IH]; intros [|c' p'] q q' N N' E; cbn [app] in E; [|injection E as E1 E2..].
  - injection E as E. subst. auto.
  - subst. exfalso. apply N'. left. reflexivity.
  - subst. exfalso. apply N. left. reflexivity.
  - subst. destruct (IH p' q q') as [-> ->]; auto.
    + intros H. apply N. right. exact H.
    + intros H. apply N'. right. exact H.
Qed.

Lemma glue_in d : forall parts q, In d (glue d (q :: parts)) -> In d q \/ parts <> [].
Proof. intros [|p parts] q H; [left; exact H|right; discriminate]. Qed.

Lemma splits_unique d s : forall parts parts', splits d s parts -> splits d s parts' -> parts = parts'.
Proof.
  intros parts parts' (N & F & E) (N' & F' & E'). rewrite E in E'. clear E. revert parts' N N' F' E'.
  induction F as [|p parts P F IH]; intros parts' N N' F' E; [exfalso; apply N; reflexivity|].
  destruct parts' as [|p' parts']; [exfalso; apply N'; reflexivity|]. inversion F'; subst.
  destruct parts as [|q parts], parts' as [|q' parts'].
  - cbn [glue] in E. congruence.
  - exfalso. apply P. cbn [glue] in E. rewrite E. apply in_or_app. right. left. reflexivity.
  - exfalso. apply H1. change (glue d [p']) with p' in E. rewrite <- E. apply in_or_app. right. left. reflexivity.
  - change (p ++ d :: glue d (q :: parts) = p' ++ d :: glue d (q' :: parts')) in E.
    apply first_cut in E; auto. destruct E as [-> E]. f_equal. apply IH; auto; discriminate.
Qed.

(** ** join *)

Lemma join_glue d : forall ts, ts <> [] -> join ts [d] = glue d ts.
Proof.
  intros [|t ts] N; [congruence|]. clear N. unfold join. cbn [join_from app]. revert t.
  induction ts as [|u ts IH]; intros t; [apply app_nil_r|]. cbn [join_from app]. rewrite IH. reflexivity.
Qed.

Lemma counted_all : forall parts, parts <> [] -> last parts [] <> [] -> counted parts = parts.
Proof.
  induction parts as [|p parts IH]; intros N L; [congruence|]. destruct parts as [|q parts].
  - cbn in *. destruct p; congruence.
  - change (p :: counted (q :: parts) = p :: q :: parts). f_equal. apply IH; [discriminate|exact L].
Qed.

Lemma glue_last d : forall parts q, last (q :: parts) [] = [] -> parts <> [] -> exists r, glue d (q :: parts) = r ++ [d].
Proof.
  induction parts as [|p parts IH]; intros q L N; [congruence|].
  change (glue d (q :: p :: parts)) with (q ++ d :: glue d (p :: parts)). destruct parts as [|p' parts].
  - cbn in L. subst. exists q. reflexivity.
  - destruct (IH p L ltac:(discriminate)) as (r & ->). exists (q ++ d :: r). rewrite <- app_assoc. reflexivity.
Qed.

Lemma join_tokenize d s parts : splits d s parts -> Forall bare parts -> (forall r, s <> r ++ [d]) -> s <> [] ->
  Z.of_nat (length s) < 2 ^ 64 ->
  exists ts, tokenize s d = Returns ts /\ join ts [d] = s.
Proof.
  intros P B E N S. pose proof P as (N1 & F & Q).
  assert (L : last parts [] <> []).
  { intros L. destruct parts as [|q parts]; [congruence|]. destruct parts as [|q' parts].
    - cbn in L. subst. apply N. reflexivity.
    - destruct (glue_last d (q' :: parts) q L ltac:(discriminate)) as (r & R). rewrite <- Q in R. eapply E. exact R. }
  exists parts. split.
  - eapply tokenize_correct; eauto. rewrite counted_all by auto. clear - B. induction B; constructor; auto using bare_strips.
  - rewrite join_glue by auto. auto.
Qed.

(** ** /proc/cpuinfo *)

Lemma upto_newline : forall p room r, ~ In newline p -> (length p <= room)%nat ->
  line_upto room (p ++ newline :: r) = Some (p, r).
Proof.
  induction p as [|c p IH]; intros room r N L.
  - destruct room; reflexivity.
  - destruct room as [|room]; [cbn in L; lia|]. cbn [app line_upto].
    destruct (Ascii.eqb_spec c newline); [subst; exfalso; apply N; left; reflexivity|].
    rewrite IH; auto; [|cbn in L; lia]. intros H. apply N. right. exact H.
Qed.
Lemma upto_end : forall p room, ~ In newline p -> (length p <= room)%nat -> line_upto room p = Some (p, []).
Proof.
  induction p as [|c p IH]; intros room N L; [destruct room; reflexivity|].
  destruct room as [|room]; [cbn in L; lia|]. cbn [line_upto].
  destruct (Ascii.eqb_spec c newline); [subst; exfalso; apply N; left; reflexivity|].
  rewrite IH; auto; [|cbn in L; lia]. intros H. apply N. right. exact H.
Qed.
Lemma upto_long : forall p room r, ~ In newline p -> (room < length p)%nat -> line_upto room (p ++ r) = None.
Proof.
  induction p as [|c p IH]; intros room r N L; [cbn in L; lia|].
  assert (N' : ~ In newline p) by (intros H; apply N; right; exact H). cbn [length] in L.
  destruct room as [|room]; cbn [app line_upto]; (destruct (Ascii.eqb_spec c newline); [subst; exfalso; apply N; left; reflexivity|]); auto.
  rewrite IH by (auto; lia). reflexivity. 
Qed.

Lemma c_string_plain : forall p, ~ In nul p -> c_string p = p.
Proof.
  induction p as [|c p IH]; intros N; auto. cbn [c_string].
  destruct (Ascii.eqb_spec c nul); [subst; exfalso; apply N; left; reflexivity|].
  rewrite IH; auto. intros H. apply N. right. exact H.
Qed.

Lemma room_is : Z.of_nat (buffer_size - 1) = 4095.
Proof. unfold buffer_size. rewrite Nat2Z.inj_sub; [rewrite Z2Nat.id; reflexivity || lia|]. apply (Z2Nat.inj_le 1 (2 ^ 12)); lia. Qed.
Opaque buffer_size.

Lemma same_spec a b : same a b = true <-> a = b.
Proof. unfold same. destruct (list_eq_dec ascii_dec a b); split; congruence. Qed.

Lemma key_bare k n : bare k -> bare (k ++ repeat tab n).
Proof.
  intros [K1 K2]. destruct n as [|n]; [cbn [repeat]; rewrite app_nil_r; split; auto|]. split.
  - intros r E. destruct k as [|c k]; cbn in E; [discriminate|]. injection E as -> E. eapply K1. reflexivity.
  - intros r E. replace (S n) with (n + 1)%nat in E by lia. rewrite repeat_app, app_assoc in E. cbn [repeat] in E.
    apply app_inj_tail in E. destruct E. discriminate.
Qed.

Definition tab_parts (k : text) (n : nat) : list text := k :: repeat [] n.

Lemma glue_tabs : forall n k, glue tab (tab_parts k n) = k ++ repeat tab n.
Proof.
  induction n as [|n IH]; intros k; [cbn; rewrite app_nil_r; reflexivity|].
  unfold tab_parts in *. cbn [repeat]. change (glue tab (k :: [] :: repeat [] n)) with (k ++ tab :: glue tab ([] :: repeat [] n)).
  rewrite IH. reflexivity.
Qed.

Lemma counted_tabs n k : counted (tab_parts k (S n)) = k :: repeat [] n.
Proof.
  unfold tab_parts. revert k. induction n as [|n IH]; intros k; [reflexivity|].
  change (counted (k :: repeat [] (S (S n)))) with (k :: counted ([] :: repeat [] (S n))). rewrite IH. reflexivity.
Qed.

Lemma nil_bare : bare [].
Proof. split; [discriminate|]. intros [|? ?]; discriminate. Qed.

Lemma strips_self : forall l, Forall bare l -> Forall2 strips l l.
Proof. induction 1; constructor; auto using bare_strips. Qed.

Lemma key_fields k n : ~ In tab k -> bare k -> Z.of_nat (length (k ++ repeat tab n)) < 2 ^ 64 ->
  tokenize (k ++ repeat tab n) tab = Returns (counted (tab_parts k n)).
Proof.
  intros N B S. apply tokenize_correct with (parts := tab_parts k n); auto.
  - split; [discriminate|]. split; [|rewrite glue_tabs; reflexivity].
    constructor; auto. apply Forall_forall. intros p I. apply repeat_spec in I. subst. auto.
  - apply strips_self. apply counted_sub. constructor; auto. apply Forall_forall. intros p I. apply repeat_spec in I. subst. apply nil_bare.
Qed.

Lemma colon_no_tab : forall n, ~ In ":"%char (repeat tab n).
Proof. intros n H. apply repeat_spec in H. discriminate. Qed.
Lemma newline_no_tab : forall n, ~ In newline (repeat tab n).
Proof. intros n H. apply repeat_spec in H. discriminate. Qed.
Lemma nul_no_tab : forall n, ~ In nul (repeat tab n).
Proof. intros n H. apply repeat_spec in H. discriminate. Qed.

Lemma entry_no_nul e : well_formed e -> ~ In nul (entry_line e).
Proof.
  intros ((K1 & _) & _ & _ & (V1 & _) & _). unfold entry_line. rewrite !in_app_iff. cbn [In].
  intros [H|[H|[H|H]]]; auto; [exact (nul_no_tab _ H)|discriminate].
Qed.
Lemma entry_no_newline e : well_formed e -> ~ In newline (entry_line e).
Proof.
  intros ((_ & K1 & _) & _ & _ & (_ & V1 & _) & _). unfold entry_line. rewrite !in_app_iff. cbn [In].
  intros [H|[H|[H|H]]]; auto; [exact (newline_no_tab _ H)|discriminate].
Qed.

Lemma entry_splits e : well_formed e -> splits ":"%char (entry_line e) [e_key e ++ repeat tab (e_tabs e); e_value e].
Proof.
  intros ((_ & _ & K1) & _ & _ & (_ & _ & V1) & _). split; [discriminate|]. split.
  - repeat constructor; auto. rewrite in_app_iff. intros [H|H]; auto. exact (colon_no_tab _ H).
  - unfold entry_line. cbn [glue]. rewrite <- app_assoc. reflexivity.
Qed.

(** The first field of a line. *)
Lemma entry_tokens e t : well_formed e -> strips (e_value e) t ->
  tokenize (c_string (entry_line e)) ":"%char =
    Returns ((e_key e ++ repeat tab (e_tabs e)) :: match e_value e with [] => [] | _ => [t] end).
Proof.
  intros W T. rewrite c_string_plain by (apply entry_no_nul; auto).
  eapply tokenize_correct; [apply entry_splits; auto| |].
  - cbn [counted]. destruct (e_value e) eqn:V; repeat constructor; auto; apply bare_strips, key_bare, W.
  - destruct W as (_ & _ & _ & _ & L). lia.
Qed.

Lemma entry_fields e : well_formed e ->
  tokenize (e_key e ++ repeat tab (e_tabs e)) tab = Returns (counted (tab_parts (e_key e) (e_tabs e))).
Proof.
  intros (_ & T & B & _ & L). apply key_fields; auto. unfold entry_line in L. rewrite !app_length in *. cbn [length] in L. lia.
Qed.

Lemma named_fields e w : w <> [] ->
  Nat.eqb (length (counted (tab_parts (e_key e) (e_tabs e)))) 1 &&
    same (nth 0 (counted (tab_parts (e_key e) (e_tabs e))) []) w = true <-> (e_tabs e <= 1)%nat /\ e_key e = w.
Proof.
  intros N. rewrite andb_true_iff, Nat.eqb_eq, same_spec. destruct (e_tabs e) as [|n].
  - cbn. destruct (e_key e) eqn:K; cbn.
    + split; [intros [H _]; discriminate|]. intros [_ H]. congruence.
    + split; [intros [_ H]; auto|]. intros [_ H]. auto.
  - rewrite counted_tabs. cbn [length nth]. rewrite repeat_length. split; intros [H1 H2]; split; auto; lia.
Qed.

Lemma bool_false b P : (b = true <-> P) -> ~ P -> b = false.
Proof. destruct b; intuition. Qed.

Lemma other_line e : well_formed e -> ~ names_cpu e -> proc_line (entry_line e) = Returns None.
Proof.
  intros W N. destruct (strips_exist (e_value e)) as (t & T). unfold proc_line.
  rewrite (entry_tokens e t W T). cbn [andThen item nth_error]. rewrite entry_fields by auto. cbn [andThen].
  rewrite (bool_false _ _ (named_fields e (txt "cpu") ltac:(discriminate))) by (unfold names_cpu in N; tauto).
  rewrite (bool_false _ _ (named_fields e (txt "model name") ltac:(discriminate))) by (unfold names_cpu in N; tauto).
  reflexivity.
Qed.

Lemma no_blank_bare p : ~ In blank p -> bare p.
Proof.
  intros N. split; intros r E; subst; apply N.
  - left. reflexivity.
  - apply in_or_app. right. left. reflexivity.
Qed.

Lemma words_back t : bare t -> t <> [] -> Z.of_nat (length t) < 2 ^ 64 ->
  exists ts, tokenize t blank = Returns ts /\ join ts [blank] = t.
Proof.
  intros [_ B] N S. destruct (splits_exist blank t) as (parts & P). eapply join_tokenize; eauto.
  destruct P as (_ & P & _). eapply Forall_impl; [|exact P]. apply no_blank_bare.
Qed.

Lemma last_char t c : t <> [] -> Z.of_nat (length t) < 2 ^ 64 -> last t nul = c -> char_at t (size_sub (len t) 1) = Returns c.
Proof.
  intros N S L. destruct t as [|x t] using rev_ind; [congruence|]. clear IHt. rewrite last_last in L. subst x.
  unfold size_sub. rewrite len_app, len_one. replace (len t + 1 - 1) with (len t) by lia.
  pose proof (len_pos t). rewrite app_length in S. cbn in S. rewrite Z.mod_small by (unfold len in *; lia).
  apply char_in.
Qed.

Lemma strips_in s t c : strips s t -> In c t -> In c s.
Proof. intros (a & b & -> & _) H. rewrite !in_app_iff. auto. Qed.
Lemma strips_length s t : strips s t -> (length t <= length s)%nat.
Proof. intros (a & b & -> & _). rewrite !app_length. lia. Qed.

Lemma named_line e t : well_formed e -> names_cpu e -> strips (e_value e) t -> t <> [] ->
  proc_line (entry_line e) = Returns (Some t).
Proof.
  intros W [N1 N2] T NT. unfold proc_line. rewrite (entry_tokens e t W T). cbn [andThen item nth_error].
  assert (V : e_value e <> []).
  { intros E. pose proof (strips_length _ _ T). rewrite E in H. destruct t; [congruence|cbn in H; lia]. }
  rewrite entry_fields by auto. cbn [andThen].
  destruct (e_value e) as [|v0 v] eqn:EV; [congruence|]. cbn [nth_error andThen].
  destruct (Nat.eqb _ 1 && same _ (txt "cpu")) eqn:C; [reflexivity|].
  assert (K : e_key e = txt "model name").
  { destruct N2 as [K|K]; auto. exfalso. rewrite (proj2 (named_fields e (txt "cpu") ltac:(discriminate))) in C; [discriminate|auto]. }
  rewrite (proj2 (named_fields e (txt "model name") ltac:(discriminate))) by auto.
  assert (St : Z.of_nat (length t) < 2 ^ 64).
  { destruct W as (_ & _ & _ & _ & L). pose proof (strips_length _ _ T) as L2. unfold entry_line in L. rewrite EV in L.
    rewrite !app_length in L. cbn [length] in *. lia. }
  assert (B : bare t) by (destruct T as (a & b & _ & _ & _ & B); exact B).
  destruct (words_back t B NT St) as (ts & TS & J). cbv iota. cbn [item nth_error andThen]. rewrite TS. cbn [andThen]. rewrite J.
  rewrite (last_char t (last t nul)) by auto. cbn [andThen].
  assert (IL : In (last t nul) t).
  { destruct t as [|x t] using rev_ind; [congruence|]. rewrite last_last. apply in_or_app. right. left. reflexivity. }
  destruct (Ascii.eqb_spec (last t nul) nul) as [E|E]; [|reflexivity]. exfalso.
  destruct W as (_ & _ & _ & (W & _) & _). apply W. rewrite EV. eapply strips_in; eauto. rewrite E in IL. exact IL.
Qed.

Definition ends_line (rest : text) : Prop := rest = [] \/ exists r, rest = newline :: r.

Lemma getline_one p rest : ~ In newline p -> Z.of_nat (length p) <= 4095 -> ends_line rest -> p ++ rest <> [] ->
  stream_getline buffer_size (p ++ rest) = Some (p, match rest with [] => [] | _ :: r => r end).
Proof.
  intros N L E NE. pose proof room_is.
  assert (G : line_upto (buffer_size - 1) (p ++ rest) = Some (p, match rest with [] => [] | _ :: r => r end)).
  { destruct E as [->|(r & ->)]; [rewrite app_nil_r; apply upto_end; auto; lia|apply upto_newline; auto; lia]. }
  unfold stream_getline. destruct (p ++ rest); [congruence|exact G].
Qed.

Lemma entry_nonempty e rest : entry_line e ++ rest <> [].
Proof. unfold entry_line. intros H. apply app_eq_nil in H. destruct H as [H _]. apply app_eq_nil in H. destruct H as [_ H]. apply app_eq_nil in H. destruct H as [_ H]. discriminate. Qed.

(** The lines before do not matter. *)
Lemma skip_lines : forall es fuel s, Forall well_formed es -> Forall (fun e => ~ names_cpu e) es ->
  (length es <= fuel)%nat -> proc_lines fuel (lines_of es ++ s) = proc_lines (fuel - length es) s.
Proof.
  induction es as [|e es IH]; intros fuel s W N F.
  - cbn. rewrite Nat.sub_0_r. reflexivity.
  - inversion W; inversion N; subst. destruct fuel as [|fuel]; [cbn in F; lia|].
    replace (lines_of (e :: es) ++ s) with (entry_line e ++ newline :: (lines_of es ++ s)) by (cbn [lines_of flat_map]; rewrite <- !app_assoc; reflexivity).
    cbn [proc_lines]. rewrite getline_one; [|apply entry_no_newline; auto|apply H1|right; eauto|apply entry_nonempty].
    rewrite other_line by auto. cbn [andThen length Nat.sub]. apply IH; auto. cbn in F. lia.
Qed.

Lemma lines_length es : (length es <= length (lines_of es))%nat.
Proof. induction es as [|e es IH]; cbn [lines_of flat_map length] in *; auto. rewrite !app_length. cbn [length]. fold (lines_of es). lia. Qed.

Lemma proc_found es e rest t : Forall well_formed es -> Forall (fun x => ~ names_cpu x) es ->
  well_formed e -> names_cpu e -> strips (e_value e) t -> t <> [] -> ends_line rest ->
  parse_proc_cpu (Some (lines_of es ++ entry_line e ++ rest)) = Returns t.
Proof.
  intros W N We Ne T NT E. unfold parse_proc_cpu. pose proof (lines_length es). rewrite skip_lines; auto; [|rewrite app_length; lia].
  assert (F : exists f, (S (length (lines_of es ++ entry_line e ++ rest)) - length es = S f)%nat).
  { exists (length (lines_of es ++ entry_line e ++ rest) - length es)%nat. rewrite app_length in *. lia. }
  destruct F as (f & ->). cbn [proc_lines].
  rewrite getline_one; [|apply entry_no_newline; auto|apply We|auto|apply entry_nonempty].
  rewrite (named_line e t) by auto. reflexivity.
Qed.

Lemma proc_none es : Forall well_formed es -> Forall (fun x => ~ names_cpu x) es -> parse_proc_cpu (Some (lines_of es)) = RuntimeError.
Proof.
  intros W N. unfold parse_proc_cpu. rewrite <- (app_nil_r (lines_of es)) at 2. pose proof (lines_length es).
  rewrite skip_lines by (auto; lia). destruct (S (length (lines_of es)) - length es)%nat; reflexivity.
Qed.

Lemma proc_after es s : Forall well_formed es -> Forall (fun x => ~ names_cpu x) es ->
  exists f, (length s <= f)%nat /\ parse_proc_cpu (Some (lines_of es ++ s)) = proc_lines (S f) s.
Proof.
  intros W N. unfold parse_proc_cpu. pose proof (lines_length es). rewrite skip_lines; auto; [|rewrite app_length; lia].
  exists (length (lines_of es ++ s) - length es)%nat. rewrite app_length in *. split; [lia|]. f_equal. lia.
Qed.

Lemma blank_line_undefined es rest : Forall well_formed es -> Forall (fun x => ~ names_cpu x) es ->
  parse_proc_cpu (Some (lines_of es ++ newline :: rest)) = Undef.
Proof.
  intros W N. destruct (proc_after es (newline :: rest) W N) as (f & _ & ->). cbn [proc_lines].
  change (newline :: rest) with ([] ++ newline :: rest).
  rewrite (getline_one [] (newline :: rest)); [reflexivity|auto|cbn; lia|right; eauto|discriminate].
Qed.

Lemma long_line es l rest : Forall well_formed es -> Forall (fun x => ~ names_cpu x) es ->
  ~ In newline l -> 4095 < Z.of_nat (length l) -> parse_proc_cpu (Some (lines_of es ++ l ++ rest)) = RuntimeError.
Proof.
  intros W N L S. destruct (proc_after es (l ++ rest) W N) as (f & _ & ->). cbn [proc_lines].
  assert (G : stream_getline buffer_size (l ++ rest) = None).
  { unfold stream_getline. pose proof room_is. destruct (l ++ rest) eqn:E; auto. rewrite <- E. apply upto_long; auto. lia. }
  rewrite G. reflexivity.
Qed.

(** ** likwid-topology *)

Lemma prefix_spec : forall w s, prefix w s = true <-> starts w s.
Proof.
  induction w as [|c w IH]; intros s; cbn [prefix].
  - split; auto. intros _. exists s. reflexivity.
  - destruct s as [|x s]; [split; [discriminate|intros (r & H); discriminate]|].
    rewrite andb_true_iff, Ascii.eqb_eq, IH. split.
    + intros (-> & r & ->). exists r. reflexivity.
    + intros (r & H). injection H as -> ->. split; auto. exists r. reflexivity.
Qed.

Lemma contains_spec : forall w s, contains w s = true <-> occurs w s.
Proof.
  intros w s. induction s as [|c s IH]; cbn [contains]; rewrite orb_true_iff, prefix_spec.
  - split.
    + intros [(r & H)|H]; [exists [], r; exact H|discriminate].
    + intros (a & b & H). left. exists b. destruct a; [exact H|discriminate].
  - rewrite IH. split.
    + intros [(r & H)|(a & b & H)]; [exists [], r; exact H|]. exists (c :: a), b. rewrite H. reflexivity.
    + intros ([|x a] & b & H); [left; exists b; exact H|]. right. injection H as -> ->. exists a, b. reflexivity.
Qed.

(** Comparing two ways of writing a text as two parts. *)
Lemma app_cases : forall (a b c d : text), a ++ b = c ++ d ->
  (exists m, c = a ++ m /\ b = m ++ d) \/ (exists m, m <> [] /\ a = c ++ m /\ d = m ++ b).
Proof.
  induction a as [|x a IH]; intros b c d E.
  - left. exists c. auto.
  - destruct c as [|y c].
    + right. exists (x :: a). split; [discriminate|]. split; auto.
    + injection E as -> E. destruct (IH _ _ _ E) as [(m & -> & ->)|(m & N & -> & ->)]; [left|right]; exists m; auto.
Qed.

Lemma around : forall w l r x, ~ In x w -> occurs_later w (l ++ x :: r) -> occurs_later w l \/ occurs w r.
Proof.
  intros w l r x N (a & b & A & E).
  replace (a ++ w ++ b) with ((a ++ w) ++ b) in E by (rewrite app_assoc; reflexivity).
  destruct (app_cases _ _ _ _ E) as [(m & E1 & E2)|(m & M & E1 & E2)].
  - (* l ends within a ++ w *)
    destruct (app_cases _ _ _ _ E1) as [(m1 & E3 & E4)|(m1 & M1 & E3 & E4)].
    + (* l = a ++ m1, w = m1 ++ m *)
      destruct m as [|y m].
      * left. exists a, []. split; auto. rewrite !app_nil_r in *. subst. reflexivity.
      * cbn in E2. injection E2 as E2 _. exfalso. apply N. rewrite E4, E2. apply in_or_app. right. left. reflexivity.
    + destruct m1 as [|y m1]; [congruence|]. rewrite E4 in E2. cbn in E2. injection E2 as _ E2.
      right. exists m1, b. rewrite E2, <- app_assoc. reflexivity.
  - left. exists a, m. split; auto. rewrite E1, <- app_assoc. reflexivity.
Qed.

Lemma starts_front w l x r : ~ In x w -> starts w (l ++ x :: r) -> starts w l.
Proof.
  intros N (q & E). destruct (app_cases _ _ _ _ (eq_sym E)) as [(m & E1 & E2)|(m & M & E1 & E2)].
  - exists m. exact E1.
  - destruct m as [|y m]; [congruence|]. injection E2 as -> _. exfalso. apply N. rewrite E1. apply in_or_app. right. left. reflexivity.
Qed.

Definition key (w : text) : Prop := w = txt "CPU type" \/ w = txt "CPU name".

Lemma key_plain w : key w -> ~ In nul w /\ ~ In newline w /\ ~ In ","%char w.
Proof. intros [->| ->]; repeat split; intros H; cbn in H; repeat (destruct H as [H|H]; [discriminate|]); exact H. Qed.

(** The buffer after a line has been read. *)
Definition filled (l buffer : text) : text := l ++ newline :: nul :: skipn (length l + 2) buffer.

Lemma filled_length l buffer : (length l + 2 <= length buffer)%nat -> length (filled l buffer) = length buffer.
Proof. intros H. unfold filled. rewrite app_length. cbn [length]. rewrite skipn_length. lia. Qed.

Lemma filled_later w l buffer : key w -> ~ occurs_later w l -> ~ occurs_later w buffer -> ~ occurs_later w (filled l buffer).
Proof.
  intros K L B H. destruct (key_plain w K) as (K1 & K2 & K3). unfold filled in H.
  destruct (around _ _ _ _ K2 H) as [H1|H1]; [exact (L H1)|].
  assert (H2 : occurs w (skipn (length l + 2) buffer)).
  { destruct H1 as (a & b & E). destruct a as [|c a].
    - exfalso. destruct w as [|c w]; [destruct K; discriminate|]. cbn in E. injection E as E _. subst. apply K1. left. reflexivity.
    - injection E as _ E. exists a, b. exact E. }
  apply B. rewrite <- (firstn_skipn (length l + 2) buffer). destruct H2 as (a & b & E). rewrite E.
  exists (firstn (length l + 2) buffer ++ a), b. split; [|rewrite <- app_assoc; reflexivity].
  intros Q. apply app_eq_nil in Q. destruct Q as [Q _]. apply (f_equal (@length ascii)) in Q. rewrite firstn_length in Q. cbn in Q.
  assert (length buffer = 0%nat) by lia. destruct buffer; [|discriminate]. rewrite skipn_nil in E.
  destruct a; [|discriminate]. destruct w; [destruct K; discriminate|discriminate].
Qed.

Lemma filled_starts w l buffer : key w -> starts w (filled l buffer) <-> starts w l.
Proof.
  intros K. destruct (key_plain w K) as (K1 & K2 & K3). split.
  - apply starts_front. exact K2.
  - intros (r & ->). exists (r ++ newline :: nul :: skipn (length (w ++ r) + 2) buffer). unfold filled. rewrite <- app_assoc. reflexivity.
Qed.

(** The parts of a text followed by more text. *)
Fixpoint extend (parts : list text) (more : list text) : list text :=
  match parts, more with
  | [p], m :: ms => (p ++ m) :: ms
  | p :: r, _ => p :: extend r more
  | [], _ => more
  end.

Lemma glue_extend d : forall parts more, parts <> [] -> more <> [] -> glue d (extend parts more) = glue d parts ++ glue d more.
Proof.
  induction parts as [|p parts IH]; intros more N M; [congruence|]. destruct parts as [|q parts].
  - destruct more as [|m ms]; [congruence|]. cbn [extend]. destruct ms; [reflexivity|].
    change (glue d ((p ++ m) :: l :: ms)) with ((p ++ m) ++ d :: glue d (l :: ms)). rewrite <- app_assoc. reflexivity.
  - specialize (IH more ltac:(discriminate) M).
    assert (X : exists y ys, extend (q :: parts) more = y :: ys).
    { destruct parts; destruct more; cbn; eauto. }
    destruct X as (y & ys & X). change (extend (p :: q :: parts) more) with (p :: extend (q :: parts) more). rewrite X in *.
    change (glue d (p :: y :: ys)) with (p ++ d :: glue d (y :: ys)). rewrite IH.
    change (glue d (p :: q :: parts)) with (p ++ d :: glue d (q :: parts)). rewrite <- app_assoc. reflexivity.
Qed.

Lemma extend_free d : forall parts more, Forall (fun p => ~ In d p) parts -> Forall (fun p => ~ In d p) more ->
  Forall (fun p => ~ In d p) (extend parts more).
Proof.
  induction parts as [|p parts IH]; intros more N M; [exact M|]. inversion N; subst. destruct parts as [|q parts].
  - destruct more as [|m ms]; cbn [extend]; [constructor; auto|]. inversion M; subst. constructor; auto. rewrite in_app_iff. tauto.
  - change (extend (p :: q :: parts) more) with (p :: extend (q :: parts) more). constructor; auto.
Qed.

Lemma extend_shape : forall parts more, (3 <= length parts)%nat -> exists p v q ps,
  parts = p :: v :: q :: ps /\ exists rest, extend parts more = p :: v :: rest /\ rest <> [].
Proof.
  intros [|p [|v [|q ps]]] more L; cbn in L; try lia. exists p, v, q, ps. split; auto.
  exists (extend (q :: ps) more). split; [reflexivity|]. destruct ps, more; discriminate.
Qed.

(** Tokens of which only the first may contain a key. *)
Definition no_key (t : text) : Prop := contains (txt "CPU type") t = false /\ contains (txt "CPU name") t = false.

Lemma tokens_quiet : forall ts fuel T N, Forall no_key ts -> (length ts <= fuel)%nat -> likwid_tokens fuel ts T N = Returns (T, N).
Proof.
  induction ts as [|t ts IH]; intros fuel T N Q F; [destruct fuel; reflexivity|].
  destruct fuel as [|fuel]; [cbn in F; lia|]. inversion Q as [|? ? [Q1 Q2] Q3]; subst. cbn [likwid_tokens].
  rewrite Q1. cbn [andThen]. rewrite Q2. apply IH; auto. cbn in F. lia.
Qed.

Lemma tokens_step f t r T N : likwid_tokens (S f) (t :: r) T N =
  andThen (if contains (txt "CPU type") t
           then match r with [] => Undef | t' :: r' => Returns (t', r', t') end
           else Returns (t, r, T)) (fun x =>
    let '(cur, rest, T') := x in
    if contains (txt "CPU name") cur
    then match rest with [] => Undef | t' :: r' => likwid_tokens f r' T' t' end
    else likwid_tokens f rest T' N).
Proof. reflexivity. Qed.

Lemma tokens_type t v ts T N : contains (txt "CPU type") t = true -> no_key v -> Forall no_key ts ->
  likwid_tokens (length (t :: v :: ts)) (t :: v :: ts) T N = Returns (v, N).
Proof.
  intros C [V1 V2] Q. cbn [length]. rewrite tokens_step, C. cbn [andThen]. rewrite V2. apply tokens_quiet; auto; lia.
Qed.
Lemma tokens_name t v ts T N : contains (txt "CPU type") t = false -> contains (txt "CPU name") t = true -> Forall no_key ts ->
  likwid_tokens (length (t :: v :: ts)) (t :: v :: ts) T N = Returns (T, v).
Proof.
  intros C1 C Q. cbn [length]. rewrite tokens_step, C1. cbn [andThen]. rewrite C. apply tokens_quiet; auto; lia.
Qed.

Lemma strips_occurs w s t : strips s t -> occurs w t -> occurs w s.
Proof. intros (a & b & -> & _) (x & y & ->). exists (a ++ x), (y ++ b). rewrite <- !app_assoc. reflexivity. Qed.

Lemma key_solid w : key w -> exists c q e, w = c :: q ++ [e] /\ c <> blank /\ e <> blank.
Proof.
  intros [->| ->]; [exists "C"%char, (txt "PU typ"), "e"%char|exists "C"%char, (txt "PU nam"), "e"%char];
    (split; [reflexivity|split; discriminate]).
Qed.

Lemma strips_starts w s t : key w -> strips s t -> starts w s -> starts w t.
Proof.
  intros K (a & b & E & A & B & T) (r & R). destruct (key_solid w K) as (c & q & e & W & C & D).
  assert (a = []).
  { destruct a as [|x a]; auto. apply blanks_cons in A. destruct A as [-> _]. exfalso. rewrite R, W in E. cbn in E. injection E as E _. congruence. }
  subst a. cbn in E. rewrite R in E. destruct (app_cases _ _ _ _ E) as [(m & E1 & _)|(m & M & E1 & E2)]; [exists m; exact E1|].
  exfalso. (* e is in b *)
  destruct m as [|y m] using rev_ind; [congruence|]. rewrite W in E1.
  change (c :: q ++ [e]) with ((c :: q) ++ [e]) in E1. rewrite app_assoc in E1. apply app_inj_tail in E1. destruct E1 as [_ <-].
  rewrite E2 in B. unfold blanks in B. rewrite !Forall_app in B. destruct B as [[_ B] _]. inversion B. congruence.
Qed.

Lemma contains_false w s : ~ occurs w s -> contains w s = false.
Proof. intros N. destruct (contains w s) eqn:C; auto. exfalso. apply N, contains_spec, C. Qed.

Lemma part_later d w : forall parts p, occurs w p -> forall q, In p parts -> occurs_later w (glue d (q :: parts)).
Proof.
  induction parts as [|p' parts IH]; intros p O q H; [contradiction|].
  change (glue d (q :: p' :: parts)) with (q ++ d :: glue d (p' :: parts)). destruct H as [->|H].
  - destruct O as (a & b & ->). destruct parts as [|p2 parts].
    + exists (q ++ d :: a), b. split; [destruct q; discriminate|]. cbn [glue]. rewrite <- app_assoc. reflexivity.
    + exists (q ++ d :: a), (b ++ d :: glue d (p2 :: parts)). split; [destruct q; discriminate|].
      change (glue d ((a ++ w ++ b) :: p2 :: parts)) with ((a ++ w ++ b) ++ d :: glue d (p2 :: parts)).
      rewrite <- !app_assoc. reflexivity.
  - destruct (IH p O p' H) as (a & b & A & E). rewrite E. exists (q ++ d :: a), b. split; [destruct q; discriminate|].
    rewrite <- app_assoc. reflexivity.
Qed.

Lemma counted_in : forall parts p, In p (counted parts) -> In p parts.
Proof.
  induction parts as [|q parts IH]; intros p H; [contradiction|]. destruct parts as [|q' parts].
  - cbn in H. destruct q; [contradiction|]. exact H.
  - change (counted (q :: q' :: parts)) with (q :: counted (q' :: parts)) in H. destruct H as [->|H]; [left; auto|right; auto].
Qed.

Lemma quiet_tokens w d : forall q parts ts, key w -> ~ occurs_later w (glue d (q :: parts)) ->
  Forall2 strips (counted parts) ts -> Forall (fun t => contains w t = false) ts.
Proof.
  intros q parts ts K N F.
  assert (G : forall p, In p (counted parts) -> ~ occurs w p).
  { intros p I O. apply N. eapply part_later; eauto. apply counted_in. exact I. }
  clear N. induction F as [|p t ps ts S F IH]; constructor.
  - apply contains_false. intros O. eapply G; [left; reflexivity|]. eapply strips_occurs; eauto.
  - apply IH. intros p' I. apply G. right. exact I.
Qed.

Lemma first_contains w d q parts t : key w -> ~ occurs_later w (glue d (q :: parts)) -> ~ In d w -> strips q t ->
  contains w t = true <-> starts w (glue d (q :: parts)).
Proof.
  intros K N D S. rewrite contains_spec. split.
  - intros O. pose proof (strips_occurs _ _ _ S O) as (a & b & E).
    destruct a as [|c a].
    + cbn in E. subst q. destruct parts as [|p parts]; [exists b; reflexivity|].
      exists (b ++ d :: glue d (p :: parts)). change (glue d ((w ++ b) :: p :: parts)) with ((w ++ b) ++ d :: glue d (p :: parts)).
      rewrite <- app_assoc. reflexivity.
    + exfalso. apply N. subst q. destruct parts as [|p parts].
      * exists (c :: a), b. split; [discriminate|reflexivity].
      * exists (c :: a), (b ++ d :: glue d (p :: parts)). split; [discriminate|].
        change (glue d ((( c :: a) ++ w ++ b) :: p :: parts)) with (((c :: a) ++ w ++ b) ++ d :: glue d (p :: parts)).
        rewrite <- !app_assoc. reflexivity.
  - intros H. assert (H2 : starts w q).
    { destruct parts as [|p parts]; [exact H|]. eapply starts_front; [exact D|]. exact H. }
    destruct (strips_starts _ _ _ K S H2) as (r & ->). exists [], r. reflexivity.
Qed.

Lemma take_newline : forall l room r, ~ In newline l -> (length l < room)%nat ->
  take_line room (l ++ newline :: r) = (l ++ [newline], r).
Proof.
  induction l as [|c l IH]; intros room r N L; (destruct room as [|room]; [cbn in L; lia|]); cbn [app take_line].
  - reflexivity.
  - destruct (Ascii.eqb_spec c newline); [subst; exfalso; apply N; left; reflexivity|].
    rewrite IH; [reflexivity| |cbn in L; lia]. intros H. apply N. right. exact H.
Qed.

Lemma fgets_line l buffer r : ~ In newline l -> (length l + 2 <= length buffer)%nat ->
  fgets buffer (l ++ newline :: r) = Some (filled l buffer, r).
Proof.
  intros N L. assert (G : take_line (length buffer - 1) (l ++ newline :: r) = (l ++ [newline], r)) by (apply take_newline; auto; lia).
  unfold fgets. destruct (l ++ newline :: r) eqn:E; [destruct l; discriminate|]. rewrite G. unfold filled.
  rewrite <- app_assoc, app_length. cbn [app length]. replace (length l + 1 + 1)%nat with (length l + 2)%nat by lia. reflexivity.
Qed.

Lemma csv_no d ps : d <> ","%char -> Forall (fun p : text => ~ In d p) ps -> ~ In d (csv ps).
Proof.
  intros D F. unfold csv. induction F as [|p ps P F IH]; [auto|]. destruct ps as [|q ps]; [exact P|].
  change (glue "," (p :: q :: ps)) with (p ++ ","%char :: glue "," (q :: ps)). rewrite in_app_iff. cbn [In]. intros [H|[H|H]]; auto.
Qed.

Lemma starts_dec w s : {starts w s} + {~ starts w s}.
Proof. destruct (prefix w s) eqn:P; [left; apply prefix_spec, P|right]. intros H. apply prefix_spec in H. congruence. Qed.

Lemma not_both s : starts (txt "CPU type") s -> starts (txt "CPU name") s -> False.
Proof. intros (r & ->) (q & H). discriminate. Qed.

Lemma occurs_in w s : starts w s -> occurs w s.
Proof. intros (r & ->). exists [], r. reflexivity. Qed.

(** One line. *)
Lemma one_line size ps buffer T N : csv_line size ps -> length buffer = size -> (Z.of_nat size < 2 ^ 64) ->
  (forall w, key w -> ~ occurs_later w buffer) ->
  exists ts, tokenize (filled (csv ps) buffer) ","%char = Returns ts /\
    exists T' N', likwid_tokens (length ts) ts T N = Returns (T', N') /\
    (forall ls t, noted (txt "CPU type") (ps :: ls) T t -> noted (txt "CPU type") ls T' t) /\
    (forall ls n, noted (txt "CPU name") (ps :: ls) N n -> noted (txt "CPU name") ls N' n).
Proof.
  intros (NE & F & L & W) SB SS NB.
  assert (W' : forall w, key w -> ~ occurs_later w (csv ps) /\ (starts w (csv ps) -> (3 <= length ps)%nat)).
  { inversion W as [|? ? W1 W2]; subst. inversion W2 as [|? ? W3 W4]; subst. intros w [->| ->]; auto. }
  set (tl := newline :: nul :: skipn (length (csv ps) + 2) buffer).
  destruct (splits_exist ","%char tl) as (more & M1 & M2 & M3).
  assert (P : splits ","%char (filled (csv ps) buffer) (extend ps more)).
  { split; [destruct ps as [|p [|q ps]], more; discriminate || congruence|]. split.
    - apply extend_free; auto. eapply Forall_impl; [|exact F]. intros p (_ & _ & H). exact H.
    - rewrite glue_extend by auto. rewrite <- M3. reflexivity. }
  destruct (strips_all (counted (extend ps more))) as (ts & TS).
  exists ts. split; [eapply tokenize_correct; eauto; rewrite filled_length; lia|].
  assert (NL : forall w, key w -> ~ occurs_later w (filled (csv ps) buffer)).
  { intros w K. apply filled_later; auto. apply W'. exact K. }
  destruct P as (P1 & P2 & P3).
  destruct (extend ps more) as [|q parts] eqn:EX; [congruence|].
  assert (KT : key (txt "CPU type")) by (left; reflexivity). assert (KN : key (txt "CPU name")) by (right; reflexivity).
  rewrite P3 in NL.
  assert (QT := fun ts => quiet_tokens _ _ q parts ts KT (NL _ KT)). assert (QN := fun ts => quiet_tokens _ _ q parts ts KN (NL _ KN)).
  assert (QQ : forall us, Forall2 strips (counted parts) us -> Forall no_key us).
  { intros us U. specialize (QT us U). specialize (QN us U). clear - QT QN. induction us; inversion QT; inversion QN; subst; constructor; auto. split; auto. }
  assert (ST : forall w, key w -> (starts w (glue "," (q :: parts)) <-> starts w (csv ps))).
  { intros w K. rewrite <- P3. apply filled_starts. exact K. }
  (* a key at the start *)
  assert (HIT : forall w, key w -> starts w (csv ps) -> exists v t0 t1 us,
            nth_error ps 1 = Some v /\ ts = t0 :: t1 :: us /\ strips v t1 /\ strips q t0 /\ Forall2 strips (counted parts) (t1 :: us)).
  { intros w K S. destruct (W' w K) as [_ W3]. destruct (extend_shape ps more (W3 S)) as (p & v & p2 & ps2 & E1 & rest & E2 & E3).
    rewrite E2 in EX. injection EX as Q1 Q2. subst q parts. destruct rest as [|r0 rest]; [congruence|].
    change (counted (p :: v :: r0 :: rest)) with (p :: counted (v :: r0 :: rest)) in TS.
    inversion TS as [|? t0 ? ts0 S0 TS0]; subst. change (counted (v :: r0 :: rest)) with (v :: counted (r0 :: rest)) in TS0 |- *.
    inversion TS0 as [|? t1 ? us S1 TS1]; subst. exists v, t0, t1, us. repeat split; auto. }
  destruct (starts_dec (txt "CPU type") (csv ps)) as [S|S].
  - destruct (HIT _ KT S) as (v & t0 & t1 & us & V & -> & S1 & S0 & U).
    pose proof (QQ _ U) as Q. inversion Q; subst.
    exists t1, N. split; [|split].
    + apply tokens_type; auto. apply (proj2 (first_contains _ "," q parts t0 KT (NL _ KT) (proj2 (proj2 (key_plain _ KT))) S0)). apply ST; auto.
    + intros ls t H. inversion H; subst; [|contradiction]. assert (v0 = v) by congruence. subst.
      match goal with X : strips v _ |- _ => rewrite (strips_unique _ _ _ S1 X); assumption end.
    + intros ls n H. inversion H; subst; [exfalso; eapply not_both; eauto|assumption].
  - destruct (starts_dec (txt "CPU name") (csv ps)) as [S'|S'].
    + destruct (HIT _ KN S') as (v & t0 & t1 & us & V & -> & S1 & S0 & U).
      pose proof (QQ _ U) as Q. inversion Q; subst.
      exists T, t1. split; [|split].
      * apply tokens_name; auto.
        -- apply not_true_iff_false. intros C.
           apply (proj1 (first_contains _ "," q parts t0 KT (NL _ KT) (proj2 (proj2 (key_plain _ KT))) S0)) in C. apply ST in C; auto.
        -- apply (proj2 (first_contains _ "," q parts t0 KN (NL _ KN) (proj2 (proj2 (key_plain _ KN))) S0)). apply ST; auto.
      * intros ls t H. inversion H; subst; [contradiction|assumption].
      * intros ls n H. inversion H; subst; [|contradiction]. assert (v0 = v) by congruence. subst.
        match goal with X : strips v _ |- _ => rewrite (strips_unique _ _ _ S1 X); assumption end.
    + exists T, N. split; [|split; intros ls t H; inversion H; subst; try contradiction; assumption].
      apply tokens_quiet; auto.
      assert (X : Forall2 strips (counted (q :: parts)) ts -> Forall no_key ts).
      { intros X. destruct parts as [|p parts].
        - cbn [counted] in X. destruct q as [|c q0]; [inversion X; constructor|]. inversion X as [|? t0 ? ts0 S0 X0]; subst. inversion X0; subst. repeat constructor.
          + apply not_true_iff_false. intros C. apply (proj1 (first_contains _ "," _ [] t0 KT (NL _ KT) (proj2 (proj2 (key_plain _ KT))) S0)) in C. apply ST in C; auto.
          + apply not_true_iff_false. intros C. apply (proj1 (first_contains _ "," _ [] t0 KN (NL _ KN) (proj2 (proj2 (key_plain _ KN))) S0)) in C. apply ST in C; auto.
        - change (counted (q :: p :: parts)) with (q :: counted (p :: parts)) in X. inversion X as [|? t0 ? ts0 S0 X0]; subst. constructor; [split|apply QQ; auto].
          + apply not_true_iff_false. intros C. apply (proj1 (first_contains _ "," _ _ t0 KT (NL _ KT) (proj2 (proj2 (key_plain _ KT))) S0)) in C. apply ST in C; auto.
          + apply not_true_iff_false. intros C. apply (proj1 (first_contains _ "," _ _ t0 KN (NL _ KN) (proj2 (proj2 (key_plain _ KN))) S0)) in C. apply ST in C; auto. }
      apply X. exact TS.
Qed.

Lemma all_lines size : Z.of_nat size < 2 ^ 64 -> forall ls fuel buffer T N t n, Forall (csv_line size) ls -> length buffer = size ->
  (forall w, key w -> ~ occurs_later w buffer) -> noted (txt "CPU type") ls T t -> noted (txt "CPU name") ls N n ->
  (length ls <= fuel)%nat -> likwid_lines fuel buffer (csv_output ls) T N = Returns (t, n).
Proof.
  intros SS. induction ls as [|ps ls IH]; intros fuel buffer T N t n F SB NB HT HN L.
  - inversion HT; inversion HN; subst. destruct fuel; reflexivity.
  - destruct fuel as [|fuel]; [cbn in L; lia|]. inversion F as [|? ? F1 F2]; subst. cbn [likwid_lines].
    replace (csv_output (ps :: ls)) with (csv ps ++ newline :: csv_output ls) by (cbn [csv_output flat_map]; rewrite <- app_assoc; reflexivity).
    pose proof F1 as (_ & FP & LP & FW).
    assert (NN : ~ In newline (csv ps)).
    { apply csv_no; [discriminate|]. eapply Forall_impl; [|exact FP]. intros p (_ & H & _). exact H. }
    rewrite fgets_line by auto.
    destruct (one_line _ ps buffer T N F1 eq_refl SS NB) as (ts & -> & T' & N' & E & HT' & HN'). cbn [andThen]. rewrite E. cbn [andThen fst snd].
    apply IH; auto.
    + apply filled_length. exact LP.
    + intros w K. apply filled_later; auto. inversion FW as [|? ? W1 W2]; subst. inversion W2 as [|? ? W3 W4]; subst.
      destruct K as [->| ->]; [apply W1|apply W3].
    + cbn in L. lia.
Qed.

Lemma blanks_quiet w n : key w -> ~ occurs_later w (repeat blank n).
Proof.
  intros K (a & b & _ & E). destruct (key_solid w K) as (c & q & e & W & C & _). apply C.
  eapply repeat_spec. rewrite E, W. apply in_or_app. right. left. reflexivity.
Qed.

Lemma csv_output_length ls : (length ls <= length (csv_output ls))%nat.
Proof. induction ls as [|ps ls IH]; cbn [csv_output flat_map length] in *; auto. rewrite !app_length. cbn [length]. fold (csv_output ls). lia. Qed.

Lemma likwid_correct size ls t n : Z.of_nat size < 2 ^ 64 -> Forall (csv_line size) ls ->
  noted (txt "CPU type") ls [] t -> noted (txt "CPU name") ls [] n ->
  parse_likwid_topology size (Some (csv_output ls)) =
    match t, n with [], _ => RuntimeError | _, [] => RuntimeError | _, _ => Returns (t ++ txt ", " ++ n) end.
Proof.
  intros SS F T N. unfold parse_likwid_topology. pose proof (csv_output_length ls).
  rewrite (all_lines size SS ls _ _ [] [] t n F); auto.
  - cbn [andThen]. destruct t, n; reflexivity.
  - apply repeat_length.
  - intros w K. apply blanks_quiet. exact K.
Qed.

(** ** evaluate *)

Lemma digit_char d : 0 <= d <= 9 -> digit_value (ascii_of_nat (Z.to_nat (48 + d))) = d.
Proof. intros H. unfold digit_value. rewrite nat_ascii_embedding by lia. lia. Qed.

Definition val (v : Z) (s : text) : Z := fold_left (fun v c => 10 * v + digit_value c) s v.

Lemma val_shift : forall s v, val v s = v * 10 ^ Z.of_nat (length s) + val 0 s.
Proof.
  induction s as [|c s IH]; intros v; cbn [val fold_left length]; [lia|].
  change (fold_left _ s ?x) with (val x s). rewrite IH, (IH (10 * 0 + digit_value c)).
  rewrite Nat2Z.inj_succ, Z.pow_succ_r by lia. ring.
Qed.

Lemma digits_value : forall fuel n acc, 0 <= n < 10 ^ Z.of_nat fuel -> (0 < fuel)%nat -> Forall is_digit acc ->
  Forall is_digit (digits fuel n acc) /\ digits fuel n acc <> [] /\
  val 0 (digits fuel n acc) = n * 10 ^ Z.of_nat (length acc) + val 0 acc.
Proof.
  induction fuel as [|fuel IH]; intros n acc N F A; [lia|]. cbn [digits].
  assert (M : 0 <= n mod 10 <= 9) by (pose proof (Z.mod_pos_bound n 10); lia).
  set (c := ascii_of_nat (Z.to_nat (48 + n mod 10))).
  assert (DC : digit_value c = n mod 10) by (apply digit_char; exact M).
  assert (A' : Forall is_digit (c :: acc)) by (constructor; auto; unfold is_digit; rewrite DC; exact M).
  assert (V : val 0 (c :: acc) = (n mod 10) * 10 ^ Z.of_nat (length acc) + val 0 acc).
  { change (val (10 * 0 + digit_value c) acc = (n mod 10) * 10 ^ Z.of_nat (length acc) + val 0 acc). rewrite val_shift, DC. ring. }
  destruct (Z.ltb_spec n 10).
  - split; [exact A'|]. split; [discriminate|]. rewrite V, Z.mod_small by lia. reflexivity.
  - rewrite Nat2Z.inj_succ, Z.pow_succ_r in N by lia.
    assert (Q : 0 <= n / 10 < 10 ^ Z.of_nat fuel).
    { split; [apply Z.div_pos; lia|]. apply Z.div_lt_upper_bound; lia. }
    assert (F' : (0 < fuel)%nat).
    { destruct fuel; [|lia]. cbn in Q. assert (10 / 10 <= n / 10) by (apply Z.div_le_mono; lia). change (10 / 10) with 1 in *. lia. }
    destruct (IH (n / 10) (c :: acc) Q F' A') as (I1 & I2 & I3). split; [exact I1|]. split; [exact I2|].
    rewrite I3, V. cbn [length]. rewrite Nat2Z.inj_succ, Z.pow_succ_r by lia.
    rewrite (Z.div_mod n 10) at 3 by lia. ring.
Qed.

Lemma print_natural n : 0 <= n < 10 ^ 20 -> natural (digits 20 n []) n.
Proof.
  intros N. destruct (digits_value 20 n [] N ltac:(lia) ltac:(constructor)) as (D1 & D2 & D3).
  split; [exact D2|]. split; [exact D1|]. change (val 0 (digits 20 n []) = n). rewrite D3. cbn. lia.
Qed.

Lemma print_integer n : - 2 ^ 31 <= n < 2 ^ 31 -> integer (print_int n) n.
Proof.
  intros N. unfold print_int. destruct (Z.ltb_spec n 0).
  - right. exists (digits 20 (- n) []). split; auto. apply print_natural. lia.
  - left. apply print_natural. lia.
Qed.

Lemma natural_chars s n c : natural s n -> In c s -> is_digit c.
Proof. intros (_ & F & _) I. exact (proj1 (Forall_forall _ _) F c I). Qed.

Lemma integer_chars s n c : integer s n -> In c s -> is_digit c \/ c = "-"%char.
Proof.
  intros [N|(r & -> & N)] I; [left; eapply natural_chars; eauto|]. destruct I as [<-|I]; auto. left. eapply natural_chars; eauto.
Qed.

Lemma integer_no s n c : integer s n -> ~ is_digit c -> c <> "-"%char -> ~ In c s.
Proof. intros N D M I. destruct (integer_chars _ _ _ N I); contradiction. Qed.

Lemma pretty_text : forall d r, pretty_dim (d :: r) = Returns (txt "(" ++ glue ","%char (print_int d :: map (fun x => blank :: print_int x) r) ++ txt ")").
Proof.
  intros d r. unfold pretty_dim. f_equal. f_equal. rewrite app_assoc. f_equal. revert d.
  assert (G : forall s, s ++ flat_map (fun x => txt ", " ++ print_int x) r = glue "," (s :: map (fun x => blank :: print_int x) r)).
  { induction r as [|x r IH]; intros s; [cbn; apply app_nil_r|]. cbn [map flat_map].
    change (glue "," (s :: (blank :: print_int x) :: map (fun x0 => blank :: print_int x0) r))
      with (s ++ ","%char :: glue "," ((blank :: print_int x) :: map (fun x0 => blank :: print_int x0) r)).
    rewrite <- IH. cbn [app txt list_ascii_of_string]. reflexivity. }
  intros d. apply G.
Qed.

Lemma strips_pad s t n a : strips s t -> blanks a -> strips (a ++ s ++ repeat blank n) t.
Proof.
  intros (x & y & -> & X & Y & T) A. exists (a ++ x), (y ++ repeat blank n). rewrite <- !app_assoc. repeat split; auto; try apply T.
  - apply Forall_app. auto.
  - apply Forall_app. split; auto. apply Forall_forall. intros c I. apply repeat_spec in I. auto.
Qed.

Definition columns (revision now host dev order family species dims perf unit : text) : list text :=
  [setw 18 revision; blank :: now ++ [blank]; blank :: setw 32 host; blank :: setw 48 dev; blank :: setw 8 order;
   blank :: setw 32 family; blank :: setw 8 species; blank :: setw 24 dims; blank :: setw 12 perf; blank :: setw 8 unit].

Lemma line_columns revision now host dev order family species dims perf unit :
  setw 18 revision ++ txt "; " ++ now ++ txt " ; " ++ setw 32 host ++ txt "; " ++
        setw 48 dev ++ txt "; " ++ setw 8 order ++ txt "; " ++ setw 32 family ++ txt "; " ++
        setw 8 species ++ txt "; " ++ setw 24 dims ++ txt "; " ++ setw 12 perf ++ txt "; " ++ setw 8 unit
  = glue ";"%char (columns revision now host dev order family species dims perf unit).
Proof. unfold columns. cbn [glue txt list_ascii_of_string]. repeat (rewrite <- ?app_assoc; cbn [app]). reflexivity. Qed.

Lemma setw_no c n s : c <> blank -> ~ In c s -> ~ In c (setw n s).
Proof. intros C N. unfold setw. rewrite in_app_iff. intros [H|H]; auto. apply repeat_spec in H. congruence. Qed.

Lemma columns_free revision now host dev order family species dims perf unit :
  Forall (fun s => ~ In ";"%char s) [revision; now; host; dev; order; family; species; dims; perf; unit] ->
  Forall (fun s => ~ In ";"%char s) (columns revision now host dev order family species dims perf unit).
Proof.
  intros F. repeat match goal with H : Forall _ (_ :: _) |- _ => inversion H; clear H; subst end.
  unfold columns. repeat (constructor; [first [apply setw_no; [discriminate|assumption] |
    intros [H|H]; [discriminate|]; (revert H; apply setw_no; [discriminate|assumption]) |
    intros [H|H]; [discriminate|]; apply in_app_or in H; destruct H as [H|[H|[]]]; [contradiction|discriminate]]|]). constructor.
Qed.

Lemma setw_strips n s t : strips s t -> strips (setw n s) t.
Proof. intros H. apply (strips_pad s t (n - length s) [] H). constructor. Qed.
Lemma blank_setw_strips n s t : strips s t -> strips (blank :: setw n s) t.
Proof. intros H. apply (strips_pad s t (n - length s) [blank] H). repeat constructor. Qed.
Lemma around_strips s t : strips s t -> strips (blank :: s ++ [blank]) t.
Proof. intros H. apply (strips_pad s t 1 [blank] H). repeat constructor. Qed.

Lemma columns_strips revision now host dev order family species dims perf unit ts :
  Forall2 strips [revision; now; host; dev; order; family; species; dims; perf; unit] ts ->
  Forall2 strips (columns revision now host dev order family species dims perf unit) ts.
Proof.
  intros F. repeat match goal with H : Forall2 _ (_ :: _) _ |- _ => inversion H; clear H; subst end.
  match goal with H : Forall2 _ [] _ |- _ => inversion H; subst end.
  unfold columns. repeat (constructor; [first [apply setw_strips; assumption|apply blank_setw_strips; assumption|apply around_strips; assumption]|]). constructor.
Qed.

Lemma positions_app d : forall a i b, positions d i (a ++ b) = positions d i a ++ positions d (i + length a) b.
Proof.
  induction a as [|c a IH]; intros i b; cbn [app positions length]; [rewrite Nat.add_0_r; reflexivity|].
  rewrite IH, <- app_assoc. replace (i + S (length a))%nat with (S i + length a)%nat by lia. reflexivity.
Qed.
Lemma positions_none d : forall a i, ~ In d a -> positions d i a = [].
Proof.
  induction a as [|c a IH]; intros i N; auto. cbn [positions]. destruct (Ascii.eqb_spec c d); [subst; exfalso; apply N; left; reflexivity|].
  apply IH. intros H. apply N. right. exact H.
Qed.

(** The separators depend on the lengths of all columns but the last. *)
Fixpoint stops (i : nat) (ls : list nat) : list nat :=
  match ls with
  | [] => []
  | l :: r => (i + l)%nat :: stops (S (i + l)) r
  end.

Lemma positions_glue d : forall parts i, Forall (fun p => ~ In d p) parts ->
  positions d i (glue d parts) = stops i (removelast (map (@length ascii) parts)).
Proof.
  induction parts as [|p parts IH]; intros i F; auto. inversion F; subst. destruct parts as [|q parts].
  - cbn. apply positions_none. auto.
  - change (glue d (p :: q :: parts)) with (p ++ d :: glue d (q :: parts)). rewrite positions_app, positions_none by auto.
    cbn [app positions]. rewrite Ascii.eqb_refl, IH by auto. reflexivity.
Qed.

Lemma setw_length n s : (length s <= n)%nat -> length (setw n s) = n.
Proof. intros H. unfold setw. rewrite app_length, repeat_length. lia. Qed.

Lemma column_lengths revision now host dev order family species dims perf unit :
  (length revision <= 18)%nat -> length now = 20%nat -> (length host <= 32)%nat -> (length dev <= 48)%nat -> (length order <= 8)%nat ->
  (length family <= 32)%nat -> (length species <= 8)%nat -> (length dims <= 24)%nat -> (length perf <= 12)%nat ->
  removelast (map (@length ascii) (columns revision now host dev order family species dims perf unit)) = [18; 22; 33; 49; 9; 33; 9; 25; 13]%nat.
Proof.
  intros. unfold columns. cbn [map removelast length]. rewrite !app_length. rewrite !setw_length by assumption. cbn [length].
  rewrite H0. reflexivity.
Qed.
