(** C54: the list macros of preprocessor.hpp, for every translation unit that
    includes the library, every list and every extra argument.

    [expands tab l r]: a preprocessor whose macro table is [tab] turns the token
    list [l] into [r]. *)
From Coq Require Import String Ascii ZArith Bool Lia.
From Coq Require Import List.
From Coq Require Import FMapPositive.
From Verif Require Import Preproc PreprocAbs PreprocLib SpecPreproc PreprocProofs PreprocForEach.
Import ListNotations.
Local Open Scope nat_scope.

Opaque lib lib_words.

Definition expands (tab : table) (l r : list tok) : Prop :=
  exists f, expand_source tab f l = Some r.

(** Expansion has at most one result. *)
Theorem C54_expansion_unique : forall tab l r r', expands tab l r -> expands tab l r' -> r = r'.
Proof.
  intros tab l r r' [f H] [g H']. unfold expand_source in *.
  destruct (expand tab f (map bare l)) as [x|] eqn:E; [|discriminate].
  destruct (expand tab g (map bare l)) as [y|] eqn:E'; [|discriminate].
  assert (x = y) by (apply (eh_det tab (map bare l)); [exists f|exists g]; assumption). congruence.
Qed.

Lemma expands_eh : forall tab l hr, eh tab (map bare l) hr -> expands tab l (map fst hr).
Proof. intros tab l hr [f H]. exists f. unfold expand_source. rewrite H. reflexivity. Qed.

(** LIBFLATARRAY_SIZE((e0)...(en)) is the number of elements. *)
Theorem C54_size_is_length : forall tab l,
  includes_lib tab -> Forall (inert tab) l -> length l <= 51 ->
  expands tab (call (word "LIBFLATARRAY_SIZE") [seq_of l]) [numeral (length l)].
Proof.
  intros tab l Ht Hl Hn.
  destruct (size_expands tab Ht l [] [] [] (map bare (seq_of l)) Hn Hl hsub_nil (map_bare_fst _)) as [hr [E H]].
  rewrite <- E. apply expands_eh. unfold call. cbn [separated map]. rewrite map_app. exact H.
Qed.

(** LIBFLATARRAY_ELEM(i, (e0)...(en)) is element i, for lists of any length. *)
Theorem C54_elem_is_nth : forall tab l i,
  includes_lib tab -> Forall (inert tab) l -> i < length l -> i <= 50 ->
  expands tab (call (word "LIBFLATARRAY_ELEM") [[numeral i]; seq_of l]) (nth i l []).
Proof.
  intros tab l i Ht Hl Hi Hi2.
  destruct (elem_expands tab Ht l i [] [] [] [] [] (map bare (seq_of l)) Hi Hi2 Hl hsub_nil hsub_nil (map_bare_fst _))
    as [hr [E H]].
  rewrite <- E. apply expands_eh. unfold call. cbn [separated map app]. rewrite map_app. exact H.
Qed.

(** LIBFLATARRAY_DEQUEUE drops the first element, for lists of any length. *)
Theorem C54_dequeue_is_tail : forall tab e l,
  includes_lib tab -> inert tab e -> Forall (inert tab) l ->
  expands tab (call (word "LIBFLATARRAY_DEQUEUE") [seq_of (e :: l)]) (seq_of l).
Proof.
  intros tab e l Ht He Hl.
  destruct (dequeue_expands tab Ht e l [] [] [] (map bare (seq_of (e :: l))) He Hl hsub_nil (map_bare_fst _))
    as [hr [E H]].
  rewrite <- E. apply expands_eh. unfold call. cbn [separated map app]. rewrite map_app. exact H.
Qed.

(** LIBFLATARRAY_IF_SHORTER(list, n, a, b) is a if the list has fewer than n
    elements and b otherwise. *)
Theorem C54_if_shorter_compares : forall tab l n a b,
  includes_lib tab -> Forall (inert tab) l -> inert tab a -> inert tab b ->
  n <= 50 -> length l <= n + 50 ->
  expands tab (call (word "LIBFLATARRAY_IF_SHORTER") [seq_of l; [numeral n]; a; b])
              (if length l <? n then a else b).
Proof.
  intros tab l n a b Ht Hl Ha Hb Hn Hlen.
  pose proof (proj1 (forallb_forall _ _) if_shorter_runs n ltac:(apply in_seq; lia)) as R. cbv beta in R.
  pose proof (proj1 (forallb_forall _ _) R (length l) ltac:(apply in_seq; lia)) as R2. cbv beta in R2.
  apply result_is_ok in R2.
  set (sg := fun i => match i with O => [] | S O => a | S (S O) => b | S (S (S j)) => nth j l [] end).
  assert (Hsg : forall i, inert tab (sg i)).
  { intros [|[|[|i]]]; cbn [sg]; [apply inert_nil|exact Ha|exact Hb|apply nth_inert; exact Hl]. }
  assert (I : inst sg (aseq 3 (length l)) = seq_of l) by (apply inst_aseq; reflexivity).
  destruct (run_sim tab Ht _ _ sg _ _
     (map bare (call (word "LIBFLATARRAY_IF_SHORTER") [seq_of l; [numeral n]; a; b])) Hsg R2) as [hr [A B]].
  - assert (E : call (word "LIBFLATARRAY_IF_SHORTER") [seq_of l; [numeral n]; a; b] =
             inst sg (call (word "LIBFLATARRAY_IF_SHORTER") [aseq 3 (length l); [numeral n]; [TAtom 1]; [TAtom 2]])).
    { unfold call. cbn [separated app]. rewrite <- !app_assoc. cbn [app]. rewrite <- !app_assoc. cbn [app].
      match goal with |- _ = inst sg (?w :: TLp :: ?x ++ ?y) =>
        change (inst sg (w :: TLp :: x ++ y)) with (w :: TLp :: inst sg (x ++ y)); rewrite (inst_app sg x y) end.
      rewrite I. reflexivity. }
    rewrite E. apply sim_inst_bare.
  - replace (if length l <? n then a else b) with (inst sg [if length l <? n then TAtom 1 else TAtom 2]).
    + rewrite <- B. apply expands_eh. exact A.
    + destruct (length l <? n); apply app_nil_r.
Qed.

(** ** LIBFLATARRAY_FOR_EACH *)

Lemma upto_each : forall X (l : list (list tok)) i, l <> [] -> (forall j, j < length l -> X j = i j) ->
  upto X (length l - 1) = concat (map i (seq 0 (length l))).
Proof.
  intros X l i Hl H. destruct l as [|e l]; [contradiction|]. clear Hl. cbn [length] in *.
  replace (S (length l) - 1) with (length l) by lia. revert H. generalize (length l). intros n H.
  assert (G : forall k, k <= n -> upto X k = concat (map i (seq 0 (S k)))).
  { induction k as [|k IH]; intros Hk.
    - cbn [upto seq map concat]. rewrite app_nil_r. apply H. lia.
    - rewrite seq_S, map_app, concat_app, <- IH by lia. cbn [upto map concat plus].
      rewrite app_nil_r, (H (S k)) by lia. reflexivity. }
  apply G. lia.
Qed.

Lemma each_from_seq : forall f l i, each_from i f l = concat (map (fun j => f j (nth (j - i) l [])) (seq i (length l))).
Proof.
  intros f l. induction l as [|e l IH]; intros i; [reflexivity|].
  cbn [each_from length seq map concat]. rewrite Nat.sub_diag. cbn [nth]. f_equal. rewrite IH. f_equal.
  apply map_ext_in. intros j Hj. apply in_seq in Hj.
  replace (j - i) with (S (j - S i)) by lia. reflexivity.
Qed.

Lemma for_each_general : forall tab M a l f,
  includes_lib tab -> inert tab a -> Forall (inert tab) l -> 1 <= length l <= 51 ->
  (forall h, eh tab [(TId M, h)] [(TId M, h)]) ->
  (forall i hM h1 h2 h3 h4 sI sA sE L R, i < length l ->
    hsub hM -> map fst sI = [numeral i] -> map fst sA = a -> map fst sE = nth i l [] -> eh tab L R ->
    exists hr, map fst hr = f i (nth i l []) /\
      eh tab ((TId M, hM) :: (TLp, h1) :: sI ++ (TComma, h2) :: sA ++ (TComma, h3) :: sE ++ (TRp, h4) :: L)
             (hr ++ R)) ->
  expands tab (call (word "LIBFLATARRAY_FOR_EACH") [[TId M]; a; seq_of l]) (each_from 0 f l).
Proof.
  intros tab M a l f Ht Ha Hl Hlen HM HX.
  destruct (for_each_expands tab Ht M a l (fun i => f i (nth i l [])) Ha Hl HM HX
              [] [] [] [] [] [] (map bare a) (map bare (seq_of l)) [] [] Hlen) as [hr [E H]].
  - intros p Hp. discriminate.
  - apply hsub_nil.
  - apply map_bare_fst.
  - apply map_bare_fst.
  - apply eh_nil.
  - rewrite app_nil_r in H.
    assert (map fst hr = each_from 0 f l) as <-.
    { rewrite E, each_from_seq.
      rewrite (upto_each _ l (fun j => f j (nth j l []))).
      - f_equal. apply map_ext. intros j. rewrite Nat.sub_0_r. reflexivity.
      - intros ->. cbn [length] in Hlen. lia.
      - reflexivity. }
    apply expands_eh. unfold call. cbn [separated map app]. rewrite <- app_assoc. cbn [app].
    repeat rewrite map_app. cbn [map]. rewrite map_app. exact H.
Qed.

(** With a callback that is not a macro the expansion is the sequence of the
    calls M(0, a, e0) M(1, a, e1) ... M(n, a, en). *)
Theorem C54_for_each_calls : forall tab m a l,
  includes_lib tab -> PositiveMap.find m tab = None -> inert tab a -> Forall (inert tab) l ->
  1 <= length l <= 51 ->
  expands tab (call (word "LIBFLATARRAY_FOR_EACH") [[TId m]; a; seq_of l])
              (each_from 0 (callback (TId m) a) l).
Proof.
  intros tab m a l Ht Hm Ha Hl Hlen. apply for_each_general; try assumption.
  - intros h. apply eh_emit; [exact Hm|apply eh_nil].
  - intros i hM h1 h2 h3 h4 sI sA sE L R Hi _ EI EA EE HL.
    exists ((TId m, hM) :: (TLp, h1) :: sI ++ (TComma, h2) :: sA ++ (TComma, h3) :: sE ++ [(TRp, h4)]).
    split.
    + cbn [map fst]. repeat (rewrite map_app; cbn [map fst]). rewrite EI, EA, EE.
      unfold callback, call. cbn [separated app]. rewrite <- !app_assoc. reflexivity.
    + assert (P : forall s t, map fst s = t -> Forall (plain_tok tab) t ->
                  Forall (fun x : htok => plain_tok tab (fst x)) s)
        by (intros s t <- H; apply Forall_map; exact H).
      norm_app. apply eh_emit; [exact Hm|]. apply eh_emit; [exact I|].
      apply eh_emit_seg; [eapply P; [exact EI|constructor; [exact I|constructor]]|].
      apply eh_emit; [exact I|].
      apply eh_emit_seg; [eapply P; [exact EA|apply Ha]|].
      apply eh_emit; [exact I|].
      apply eh_emit_seg; [eapply P; [exact EE|apply nth_inert; exact Hl]|].
      apply eh_emit; [exact I|exact HL].
Qed.

(** With a callback defined as "#define M(P1, P2, P3) body", the body without ##
    and without macro names other than its parameters: the bodies for
    (0, a, e0), (1, a, e1), ... (n, a, en), in this order. *)
Definition plain_body (tab : table) (body : list tok) : Prop :=
  Forall (fun t => plain_tok tab t /\ t <> TPaste) body.

Lemma subst_plain : forall tab p1 p2 p3 body (s1 s2 s3 : list htok) out,
  plain_body tab body ->
  exists o, subst body [p1; p2; p3] [s1; s2; s3] [s1; s2; s3] out = Some (out ++ o) /\
    map fst o = replace3 p1 p2 p3 body (map fst s1) (map fst s2) (map fst s3) /\
    (Forall (fun x => plain_tok tab (fst x)) s1 -> Forall (fun x => plain_tok tab (fst x)) s2 ->
     Forall (fun x => plain_tok tab (fst x)) s3 -> Forall (fun x => plain_tok tab (fst x)) o).
Proof.
  intros tab p1 p2 p3 body s1 s2 s3. induction body as [|t body IH]; intros out H.
  - exists []. rewrite app_nil_r. repeat split. intros. constructor.
  - inversion H as [|? ? [Hp Ht] Hb]; subst.
    set (x := match t with
              | TId p => if Pos.eqb p p1 then s1 else if Pos.eqb p p2 then s2 else if Pos.eqb p p3 then s3 else [bare t]
              | _ => [bare t] end).
    destruct (IH (out ++ x) Hb) as [o [E1 [E2 E3]]].
    exists (x ++ o). split; [|split].
    + rewrite app_assoc. rewrite <- E1.
      assert (Hnp : match body with TPaste :: _ => False | _ => True end).
      { destruct body as [|b body]; [exact I|]. inversion Hb as [|? ? [_ N] _]; subst. destruct b; try exact I.
        contradiction. }
      unfold x. destruct t; try reflexivity.
      * cbn [subst as_param param_index].
        destruct (Pos.eqb p p1); [destruct body as [|[] body]; try reflexivity; contradiction|].
        destruct (Pos.eqb p p2); [destruct body as [|[] body]; try reflexivity; contradiction|].
        destruct (Pos.eqb p p3); [destruct body as [|[] body]; try reflexivity; contradiction|].
        reflexivity.
      * contradiction.
    + transitivity (map fst x ++ map fst o); [apply map_app|]. rewrite E2.
      unfold replace3. cbn [map concat]. f_equal. unfold x.
      destruct t; try reflexivity.
      destruct (Pos.eqb p p1); [reflexivity|]. destruct (Pos.eqb p p2); [reflexivity|].
      destruct (Pos.eqb p p3); reflexivity.
    + intros H1 H2 H3. apply Forall_app. split; [|apply E3; assumption]. unfold x.
      assert (Hs : Forall (fun x => plain_tok tab (fst x)) [bare t]) by (constructor; [exact Hp|constructor]).
      destruct t; try exact Hs.
      destruct (Pos.eqb p p1); [exact H1|]. destruct (Pos.eqb p p2); [exact H2|].
      destruct (Pos.eqb p p3); [exact H3|exact Hs].
Qed.

Theorem C54_for_each_expands_bodies : forall tab m p1 p2 p3 body a l,
  includes_lib tab -> PositiveMap.find m tab = Some (mkMacro (Some [p1; p2; p3]) body) ->
  PositiveMap.find m lib = None -> plain_body tab body ->
  inert tab a -> Forall (inert tab) l -> 1 <= length l <= 51 ->
  expands tab (call (word "LIBFLATARRAY_FOR_EACH") [[TId m]; a; seq_of l])
              (each_from 0 (fun i e => replace3 p1 p2 p3 body [numeral i] a e) l).
Proof.
  intros tab m p1 p2 p3 body a l Ht Hm Hml Hb Ha Hl Hlen. apply for_each_general; try assumption.
  - intros h. eapply eh_emit_name; [exact Hm|reflexivity|exact I|apply eh_nil].
  - intros i hM h1 h2 h3 h4 sI sA sE L R Hi HhM EI EA EE HL.
    assert (P : forall s t, map fst s = t -> Forall (plain_tok tab) t ->
                Forall (fun x : htok => plain_tok tab (fst x)) s)
      by (intros s t <- H; apply Forall_map; exact H).
    assert (PI : Forall (fun x : htok => plain_tok tab (fst x)) sI)
      by (eapply P; [exact EI|constructor; [exact I|constructor]]).
    assert (PA : Forall (fun x : htok => plain_tok tab (fst x)) sA) by (eapply P; [exact EA|apply Ha]).
    assert (PE : Forall (fun x : htok => plain_tok tab (fst x)) sE)
      by (eapply P; [exact EE|apply nth_inert; exact Hl]).
    assert (S : forall s, Forall (fun x : htok => plain_tok tab (fst x)) s -> eh tab s s).
    { intros s Hs. rewrite <- (app_nil_r s). apply eh_emit_seg; [exact Hs|apply eh_nil]. }
    destruct (subst_plain tab p1 p2 p3 body sI sA sE [] Hb) as [o [E1 [E2 E3]]].
    exists (hs_add (hs_union [m] (hs_inter hM h4)) o). split.
    + unfold hs_add. rewrite map_map. cbn [fst]. rewrite <- EI, <- EA, <- EE. exact E2.
    + eapply eh_call with (args := [sI; sA; sE]) (eargs := [sI; sA; sE]) (h' := h4) (rest := L).
      * destruct (hs_mem m hM) eqn:Em; [|reflexivity]. apply HhM in Em.
        assert (T : forallb (fun p => match PositiveMap.find p lib with Some _ => true | None => false end) hidden = true)
          by (vm_compute; reflexivity).
        unfold hs_mem in Em. apply existsb_exists in Em. destruct Em as [q [Iq Eq]]. apply Pos.eqb_eq in Eq. subst q.
        pose proof (proj1 (forallb_forall _ _) T m Iq) as G. cbv beta in G. rewrite Hml in G. discriminate.
      * exact Hm.
      * reflexivity.
      * rewrite collect_next by (rewrite EI; reflexivity). rewrite collect_next by (rewrite EA; apply Ha).
        rewrite collect_last; [reflexivity|]. rewrite EE. apply (nth_inert tab). exact Hl.
      * reflexivity.
      * repeat constructor; apply S; assumption.
      * exact E1.
      * cbn [app]. apply eh_emit_seg; [|exact HL]. unfold hs_add. apply Forall_map. cbn [fst].
        apply E3; assumption.
Qed.

(** ** The hypotheses are met *)

Definition tokens (s : string) : list tok := lex s None.

(** A source that includes the library and nothing else, ... *)
Lemma lib_includes_lib : includes_lib lib.
Proof. split; [tauto|]. intros p H _. exact H. Qed.

(** ... and one that defines a macro of its own in addition. *)
Lemma one_more_includes_lib : forall p m,
  PositiveMap.find p lib = None -> PositiveMap.find p lib_words = None ->
  includes_lib (PositiveMap.add p m lib).
Proof.
  intros p m H W. split.
  - intros q n Hq. rewrite PositiveMapAdditionalFacts.gsspec.
    destruct (PositiveMap.E.eq_dec q p) as [->|_]; [congruence|exact Hq].
  - intros q Hq Wq. rewrite PositiveMapAdditionalFacts.gsspec.
    destruct (PositiveMap.E.eq_dec q p) as [->|_]; [contradiction|exact Hq].
Qed.

Definition tracer : spelling := spell "TRACE".
Definition tracer_macro : macro :=
  mkMacro (Some [spell "N"; spell "WHAT"; spell "MEMBER"])
          (tokens "WHAT.visit(N, MEMBER);").
Definition user : table := PositiveMap.add tracer tracer_macro lib.

Lemma user_includes_lib : includes_lib user.
Proof. apply one_more_includes_lib; vm_compute; reflexivity. Qed.

Definition settled (tab : table) (l : list tok) : bool :=
  bal l 0 && forallb (fun t => match t with
    | TId p => match PositiveMap.find p tab with None => true | Some _ => false end
    | _ => true end) l.

Lemma settled_inert : forall tab l, settled tab l = true -> inert tab l.
Proof.
  intros tab l H. apply andb_true_iff in H. destruct H as [A B]. split; [exact A|].
  apply Forall_forall. intros t Ht. pose proof (proj1 (forallb_forall _ _) B t Ht) as G. cbv beta in G.
  destruct t; try exact I. cbn [plain_tok]. destruct (PositiveMap.find p tab); [discriminate|reflexivity].
Qed.

(** Members of a cell class as they are passed to the registration macros. *)
Definition particle : list (list tok) :=
  map tokens ["(double)(pos)"; "(float)(vel)(3)"; "(std::pair<int, char>)(tag)"]%string.

Lemma particle_inert : Forall (inert user) particle /\ Forall (inert lib) particle.
Proof.
  split; apply Forall_forall; intros e He; apply settled_inert;
    [change (settled user e = true)|change (settled lib e = true)];
    revert e He; apply forallb_forall; vm_compute; reflexivity.
Qed.

Lemma expands_same : forall tab l r l' r', expands tab l r -> l' = l -> r' = r -> expands tab l' r'.
Proof. intros tab l r l' r' H -> ->. exact H. Qed.

Local Tactic Notation "same_text" uconstr(T) :=
  eapply expands_same; [exact T|vm_compute; reflexivity|vm_compute; reflexivity].

Example particle_calls :
  expands user (tokens "LIBFLATARRAY_FOR_EACH(visit, Cell, ((double)(pos))((float)(vel)(3))((std::pair<int, char>)(tag)))")
    (tokens "visit(0, Cell, (double)(pos)) visit(1, Cell, (float)(vel)(3)) visit(2, Cell, (std::pair<int, char>)(tag))").
Proof.
  same_text (C54_for_each_calls user (spell "visit") [word "Cell"] particle user_includes_lib
    ltac:(vm_compute; reflexivity) ltac:(apply settled_inert; vm_compute; reflexivity) (proj1 particle_inert)
    ltac:(vm_compute; repeat constructor)).
Qed.

Example particle_bodies :
  expands user (tokens "LIBFLATARRAY_FOR_EACH(TRACE, out, ((double)(pos))((float)(vel)(3))((std::pair<int, char>)(tag)))")
    (tokens "out.visit(0, (double)(pos)); out.visit(1, (float)(vel)(3)); out.visit(2, (std::pair<int, char>)(tag));").
Proof.
  same_text (C54_for_each_expands_bodies user tracer _ _ _ _ [word "out"] particle user_includes_lib
    ltac:(vm_compute; reflexivity) ltac:(vm_compute; reflexivity)
    ltac:(repeat (constructor; [split; [vm_compute; reflexivity|discriminate]|]); constructor)
    ltac:(apply settled_inert; vm_compute; reflexivity) (proj1 particle_inert)
    ltac:(vm_compute; repeat constructor)).
Qed.

Definition many (n : nat) : list (list tok) := repeat [word "x"] n.

Lemma many_inert : forall n, Forall (inert lib) (many n).
Proof.
  intros n. apply Forall_forall. intros e He. apply repeat_spec in He. subst e.
  apply settled_inert. vm_compute. reflexivity.
Qed.

Example particle_size : expands user (tokens "LIBFLATARRAY_SIZE((a)(b b)())") (tokens "3").
Proof.
  same_text (C54_size_is_length user [tokens "a"; tokens "b b"; []] user_includes_lib
    ltac:(repeat (constructor; [apply settled_inert; vm_compute; reflexivity|]); constructor)
    ltac:(vm_compute; repeat constructor)).
Qed.

Example particle_elem : expands user (tokens "LIBFLATARRAY_ELEM(1, ((double)(pos))((float)(vel)(3))((std::pair<int, char>)(tag)))")
  (tokens "(float)(vel)(3)").
Proof.
  same_text (C54_elem_is_nth user particle 1 user_includes_lib (proj1 particle_inert)
    ltac:(vm_compute; repeat constructor) ltac:(vm_compute; repeat constructor)).
Qed.

Example particle_dequeue : expands user (tokens "LIBFLATARRAY_DEQUEUE((a)(b)(c))") (tokens "(b)(c)").
Proof.
  same_text (C54_dequeue_is_tail user (tokens "a") [tokens "b"; tokens "c"] user_includes_lib
    ltac:(apply settled_inert; vm_compute; reflexivity)
    ltac:(repeat (constructor; [apply settled_inert; vm_compute; reflexivity|]); constructor)).
Qed.

Example particle_shorter :
  expands user (tokens "LIBFLATARRAY_IF_SHORTER((float)(vel)(3), 3, yes, no)") (tokens "no") /\
  expands user (tokens "LIBFLATARRAY_IF_SHORTER((double)(pos), 3, yes, no)") (tokens "yes").
Proof.
  split.
  - same_text (C54_if_shorter_compares user [tokens "float"; tokens "vel"; tokens "3"] 3 (tokens "yes") (tokens "no") user_includes_lib
      ltac:(repeat (constructor; [apply settled_inert; vm_compute; reflexivity|]); constructor)
      ltac:(apply settled_inert; vm_compute; reflexivity) ltac:(apply settled_inert; vm_compute; reflexivity)
      ltac:(vm_compute; repeat constructor) ltac:(vm_compute; repeat constructor)).
  - same_text (C54_if_shorter_compares user [tokens "double"; tokens "pos"] 3 (tokens "yes") (tokens "no") user_includes_lib
      ltac:(repeat (constructor; [apply settled_inert; vm_compute; reflexivity|]); constructor)
      ltac:(apply settled_inert; vm_compute; reflexivity) ltac:(apply settled_inert; vm_compute; reflexivity)
      ltac:(vm_compute; repeat constructor) ltac:(vm_compute; repeat constructor)).
Qed.

(** ** The limits *)

Lemma lib_expands : forall l r, result_is (expand_source lib steps l) r = true -> expands lib l r.
Proof. intros l r H. exists steps. apply result_is_ok. exact H. Qed.

(** From 52 elements on SIZE is not a number and FOR_EACH leaves a call of a
    macro that does not exist. *)
Theorem C54_for_each_52_refuted :
  expands lib (call (word "LIBFLATARRAY_SIZE") [seq_of (many 52)]) (tokens "51(x)") /\
  expands lib (call (word "LIBFLATARRAY_FOR_EACH") [[word "M"]; [word "A"]; seq_of (many 52)])
    (call (word "LIBFLATARRAY_FOR_EACH_51") [[word "M"]; [word "A"]; seq_of (many 52)]).
Proof. split; apply lib_expands; vm_compute; reflexivity. Qed.

Print Assumptions C54_expansion_unique.
Print Assumptions C54_size_is_length.
Print Assumptions C54_elem_is_nth.
Print Assumptions C54_dequeue_is_tail.
Print Assumptions C54_if_shorter_compares.
Print Assumptions C54_for_each_calls.
Print Assumptions C54_for_each_expands_bodies.
Print Assumptions C54_for_each_52_refuted.
