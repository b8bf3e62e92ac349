(** Proofs about the list macros: SIZE, ELEM, DEQUEUE and IF_SHORTER by running
    the abstract expansion, FOR_EACH by induction on the list position. *)
From Coq Require Import String Ascii ZArith Bool Lia.
From Coq Require Import List.
From Coq Require Import FMapPositive DecimalString.
From Verif Require Import Preproc PreprocAbs PreprocLib SpecPreproc.
Import ListNotations.
Local Open Scope nat_scope.

Opaque lib lib_words.

(** ** Running the abstract expansion on the library *)

Definition run (f : nat) (F : list spelling) (l : list tok) : option (list tok) :=
  match expandA lib lib_words F f (map bare l) with
  | Some r => Some (map fst r)
  | None => None
  end.

(** Running with a stop at the end (the atom 0). *)
Definition run_closed (f : nat) (F : list spelling) (l : list tok) : option (list tok) :=
  match expandA lib lib_words F f (map bare l ++ [bare (TAtom 0)]) with
  | Some r => Some (map fst r)
  | None => None
  end.

Lemma lib_no_atoms : forall p m, PositiveMap.find p lib = Some m ->
  forallb (fun t => negb (is_atom t)) (m_body m) = true.
Proof.
  intros p m H. apply PositiveMap.elements_correct in H.
  pose proof (proj1 (forallb_forall _ _) lib_atom_free _ H) as G. cbn [snd] in G.
  unfold atom_free in G. rewrite <- G. clear.
  induction (m_body m) as [|t l IH]; [reflexivity|]. cbn [forallb]. rewrite IH.
  destruct t; reflexivity.
Qed.

Section Run.
Variable tab : table.
Hypothesis Htab : includes_lib tab.

Lemma run_sim : forall f F sg la ra hl,
  (forall n, inert tab (sg n)) ->
  run f F la = Some ra -> sim F sg (map bare la) hl ->
  exists hr, eh tab hl hr /\ map fst hr = inst sg ra.
Proof.
  intros f F sg la ra hl Hsg H HS. unfold run in H.
  destruct (expandA lib lib_words F f (map bare la)) as [r|] eqn:E; [|discriminate].
  injection H as <-. rewrite <- (app_nil_r (map bare la)) in E.
  destruct (sim_expand lib tab lib_words F sg (proj1 Htab) (proj2 Htab) lib_no_atoms Hsg
              _ _ _ _ _ _ _ (tail_none tab) E HS) as [r0 [r' [-> [A B]]]].
  rewrite !app_nil_r in *. exists r'. split; [exact B|]. eapply sim_inst. exact A.
Qed.

Lemma run_closed_sim : forall f F sg la ra hl L R,
  (forall n, inert tab (sg n)) ->
  run_closed f F la = Some (ra ++ [TAtom 0]) -> sim F sg (map bare la) hl -> eh tab L R ->
  exists hr, map fst hr = inst sg ra /\ eh tab (hl ++ L) (hr ++ R).
Proof.
  intros f F sg la ra hl L R Hsg H HS HL. unfold run_closed in H.
  destruct (expandA lib lib_words F f (map bare la ++ [bare (TAtom 0)])) as [r|] eqn:E; [|discriminate].
  injection H as H.
  destruct (sim_expand lib tab lib_words F sg (proj1 Htab) (proj2 Htab) lib_no_atoms Hsg
              _ _ _ _ _ _ _ (tail_stop tab 0 [] L R HL) E HS) as [r0 [r1 [-> [A1 B1]]]].
  rewrite map_app in H. cbn [map fst] in H. apply app_inj_tail in H. destruct H as [H _].
  exists r1. split; [rewrite <- H; eapply sim_inst; exact A1|exact B1].
Qed.

End Run.

Definition steps : nat := Z.to_nat 20000.

(** ** Comparing token lists *)

Definition tok_eq (a b : tok) : {a = b} + {a <> b}.
Proof. decide equality; try apply Pos.eq_dec; try apply Nat.eq_dec. apply ascii_dec. Defined.

Definition result_is (o : option (list tok)) (r : list tok) : bool :=
  match o with
  | Some x => if list_eq_dec tok_eq x r then true else false
  | None => false
  end.

Lemma result_is_ok : forall o r, result_is o r = true -> o = Some r.
Proof. intros [x|] r H; cbn [result_is] in H; [|discriminate]. destruct (list_eq_dec tok_eq x r); [congruence|discriminate]. Qed.

(** (atom k)(atom k+1)... *)
Definition aseq (k n : nat) : list tok := concat (map (fun i => [TLp; TAtom i; TRp]) (seq k n)).

(** ** Names *)

Definition dec (n : nat) : string := NilZero.string_of_uint (Nat.to_uint n).

Definition fe_name (k : nat) : spelling := spell ("LIBFLATARRAY_FOR_EACH_" ++ dec k).

Definition nFE := spell "LIBFLATARRAY_FOR_EACH".
Definition nFE1 := spell "LIBFLATARRAY_FOR_EACH_I".
Definition nFE2 := spell "LIBFLATARRAY_FOR_EACH_II".
Definition nFE3 := spell "LIBFLATARRAY_FOR_EACH_III".
Definition nEVAL := spell "LIBFLATARRAY_FOR_EACH_EVAL".
Definition nELEM := spell "LIBFLATARRAY_ELEM".
Definition nSIZE := spell "LIBFLATARRAY_SIZE".
Definition nDEQ := spell "LIBFLATARRAY_DEQUEUE".

(** Macros in whose expansion FOR_EACH is used. *)
Definition outer : list spelling :=
  map spell ["LIBFLATARRAY_REGISTER_SOA"; "LIBFLATARRAY_REGISTER_SOA_MAIN"; "LIBFLATARRAY_CUSTOM_SIZES";
             "LIBFLATARRAY_CUSTOM_SIZES_1D_UNIFORM"; "LIBFLATARRAY_CUSTOM_SIZES_2D_UNIFORM";
             "LIBFLATARRAY_CUSTOM_SIZES_3D_UNIFORM"]%string.

(** Everything a callback of FOR_EACH may find hidden. *)
Definition hidden : list spelling :=
  outer ++ [nFE; nFE1; nFE2; nFE3; nEVAL] ++ map fe_name (seq 0 51).

Lemma size_runs : forallb (fun n =>
  result_is (run steps hidden (call (TId nSIZE) [aseq 1 n])) [numeral n]) (seq 0 52) = true.
Proof. vm_compute. reflexivity. Qed.

Lemma elem_runs : forallb (fun n =>
  result_is (run steps hidden (call (TId nELEM) [[numeral n]; aseq 1 (S n) ++ [TAtom 0]]))
            [TAtom (S n)]) (seq 0 51) = true.
Proof. vm_compute. reflexivity. Qed.

Lemma dequeue_run :
  result_is (run steps hidden (call (TId nDEQ) [aseq 1 1 ++ [TAtom 0]])) [TAtom 0] = true.
Proof. vm_compute. reflexivity. Qed.

Lemma if_shorter_runs : forallb (fun len => forallb (fun n =>
  result_is (run steps hidden (call (word "LIBFLATARRAY_IF_SHORTER")
               [aseq 3 n; [numeral len]; [TAtom 1]; [TAtom 2]]))
            [if n <? len then TAtom 1 else TAtom 2]) (seq 0 (len + 51))) (seq 0 51) = true.
Proof. vm_compute. reflexivity. Qed.

(** ** Instantiating the atoms *)

Lemma map_bare_fst : forall l, map fst (map bare l) = l.
Proof. intros. rewrite map_map. apply map_id. Qed.

Lemma inst_app : forall sg a b, inst sg (a ++ b) = inst sg a ++ inst sg b.
Proof.
  intros sg a b. induction a as [|t a IH]; [reflexivity|].
  destruct t; try (apply (f_equal (cons _)); exact IH).
  change (sg n ++ inst sg (a ++ b) = (sg n ++ inst sg a) ++ inst sg b).
  rewrite IH, app_assoc. reflexivity.
Qed.

(** Unnamed tokens and atoms may carry any hide sets. *)
Lemma sim_unnamed : forall F sg la s, forallb (fun t => negb (named t)) la = true ->
  map fst s = inst sg la -> sim F sg (map bare la) s.
Proof.
  intros F sg la. induction la as [|t la IH]; intros s Hn E.
  - destruct s; [constructor|discriminate].
  - cbn [forallb] in Hn. apply andb_true_iff in Hn. destruct Hn as [Ht Hn]. cbn [map].
    destruct (is_atom t) eqn:Ea.
    + destruct t; try discriminate. cbn [inst] in E. apply map_eq_app in E.
      destruct E as [s1 [s2 [-> [E1 E2]]]]. apply sim_atom; [exact E1|]. apply IH; assumption.
    + assert (E' : inst sg (t :: la) = t :: inst sg la) by (destruct t; try reflexivity; discriminate).
      rewrite E' in E. destruct s as [|[t' h'] s]; [discriminate|]. cbn [map fst] in E.
      injection E as -> E. apply sim_tok; [exact Ea| |apply IH; assumption].
      intros N. rewrite N in Ht. discriminate.
Qed.

Lemma aseq_unnamed : forall n k, forallb (fun t => negb (named t)) (aseq k n) = true.
Proof.
  induction n as [|n IH]; intros k; [reflexivity|]. unfold aseq. cbn [seq map concat app forallb named negb andb].
  apply IH.
Qed.

(** [sg] lists the elements of [l] from atom [k] on. *)
Lemma inst_aseq : forall sg l k, (forall i, i < length l -> sg (k + i) = nth i l []) ->
  inst sg (aseq k (length l)) = seq_of l.
Proof.
  intros sg l. induction l as [|e l IH]; intros k H; [reflexivity|].
  change (TLp :: sg k ++ TRp :: inst sg (aseq (S k) (length l)) = (TLp :: e ++ [TRp]) ++ seq_of l).
  pose proof (H 0 ltac:(cbn [length]; lia)) as H0. rewrite Nat.add_0_r in H0. cbn [nth] in H0. rewrite H0.
  cbn [app]. rewrite <- app_assoc. cbn [app]. f_equal. f_equal. f_equal. apply IH.
  intros i Hi. replace (S k + i) with (k + S i) by lia. rewrite H by (cbn [length]; lia). reflexivity.
Qed.

Lemma seq_of_app : forall a b, seq_of (a ++ b) = seq_of a ++ seq_of b.
Proof. intros. unfold seq_of. rewrite map_app, concat_app. reflexivity. Qed.

Lemma seq_of_inert : forall tab l, Forall (inert tab) l -> inert tab (seq_of l).
Proof.
  intros tab l H. induction H as [|e l He H IH]; [apply inert_nil|].
  unfold seq_of. cbn [map concat]. apply inert_app; [apply inert_paren; exact He|exact IH].
Qed.

Lemma nth_inert : forall tab l i, Forall (inert tab) l -> inert tab (nth i l []).
Proof.
  intros tab l i H. revert i. induction H as [|e l He H IH]; intros [|i]; cbn [nth]; auto using inert_nil.
Qed.

(** Hide sets all of whose names are in [hidden]. *)
Definition hsub (h : hideset) : Prop := forall p, hs_mem p h = true -> hs_mem p hidden = true.

Lemma hsub_hle : forall h, hsub h -> hle hidden h [].
Proof. intros h H p E. right. apply H. exact E. Qed.

Lemma hsub_nil : hsub [].
Proof. intros p H. discriminate. Qed.

Lemma hsub_union : forall p a b, hs_mem p hidden = true -> hsub a -> hsub b -> hsub (hs_union (hs_union [p] a) b).
Proof.
  intros p a b Hp Ha Hb q H. rewrite !hs_mem_union in H.
  destruct (hs_mem q b) eqn:E; [apply Hb; exact E|]. destruct (hs_mem q a) eqn:E2; [apply Ha; exact E2|].
  rewrite !orb_false_r in H. unfold hs_mem in H. cbn [existsb] in H. rewrite orb_false_r in H.
  apply Pos.eqb_eq in H. subst. exact Hp.
Qed.

Lemma hsub_inter : forall a b, hsub a -> hsub (hs_inter a b).
Proof. intros a b H p E. rewrite hs_mem_inter in E. apply andb_true_iff in E. apply H. apply E. Qed.

Section List_macros.
Variable tab : table.
Hypothesis Htab : includes_lib tab.

Lemma elem_expands : forall l k hE h1 hk h2 h3 sL,
  k < length l -> k <= 50 -> Forall (inert tab) l ->
  hsub hE -> hsub hk -> map fst sL = seq_of l ->
  exists hr, map fst hr = nth k l [] /\
    eh tab ((TId nELEM, hE) :: (TLp, h1) :: (numeral k, hk) :: (TComma, h2) :: sL ++ [(TRp, h3)]) hr.
Proof.
  intros l k hE h1 hk h2 h3 sL Hk Hk2 Hl HE Hkh EL.
  pose proof (proj1 (forallb_forall _ _) elem_runs k ltac:(apply in_seq; lia)) as R. cbv beta in R.
  apply result_is_ok in R.
  set (sg := fun n => match n with O => seq_of (skipn (S k) l) | S i => nth i (firstn (S k) l) [] end).
  assert (Hsg : forall n, inert tab (sg n)).
  { intros [|n]; unfold sg.
    - apply seq_of_inert. rewrite <- (firstn_skipn (S k) l) in Hl. apply Forall_app in Hl. apply Hl.
    - apply nth_inert. rewrite <- (firstn_skipn (S k) l) in Hl. apply Forall_app in Hl. apply Hl. }
  assert (Hlen : length (firstn (S k) l) = S k) by (rewrite firstn_length; lia).
  destruct (run_sim tab Htab _ _ sg _ _
    ((TId nELEM, hE) :: (TLp, h1) :: (numeral k, hk) :: (TComma, h2) :: sL ++ [(TRp, h3)]) Hsg R) as [hr [A B]].
  - unfold call. cbn [separated app map]. rewrite map_app. cbn [map].
    apply sim_tok; [reflexivity|intros _; apply hsub_hle; exact HE|].
    apply sim_tok; [reflexivity|discriminate|].
    apply sim_tok; [reflexivity|intros _; apply hsub_hle; exact Hkh|].
    apply sim_tok; [reflexivity|discriminate|].
    apply sim_app; [|apply sim_tok; [reflexivity|discriminate|constructor]].
    apply sim_unnamed.
    + rewrite forallb_app, aseq_unnamed. reflexivity.
    + rewrite EL, inst_app. cbn [inst]. rewrite app_nil_r. rewrite <- (firstn_skipn (S k) l) at 1.
      rewrite seq_of_app. f_equal. rewrite <- Hlen at 2. symmetry. apply inst_aseq.
      intros i Hi. reflexivity.
  - exists hr. split; [|exact A]. rewrite B. cbn [inst]. rewrite app_nil_r. unfold sg.
    rewrite <- (firstn_skipn (S k) l) at 2. rewrite app_nth1 by lia. reflexivity.
Qed.

Lemma size_expands : forall l h h1 h2 sL,
  length l <= 51 -> Forall (inert tab) l -> hsub h -> map fst sL = seq_of l ->
  exists hr, map fst hr = [numeral (length l)] /\
    eh tab ((TId nSIZE, h) :: (TLp, h1) :: sL ++ [(TRp, h2)]) hr.
Proof.
  intros l h h1 h2 sL Hl Hi Hh EL.
  pose proof (proj1 (forallb_forall _ _) size_runs (length l) ltac:(apply in_seq; lia)) as R. cbv beta in R.
  apply result_is_ok in R.
  set (sg := fun n => match n with O => [] | S i => nth i l [] end).
  assert (Hsg : forall n, inert tab (sg n)) by (intros [|n]; [apply inert_nil|apply nth_inert; exact Hi]).
  destruct (run_sim tab Htab _ _ sg _ _
    ((TId nSIZE, h) :: (TLp, h1) :: sL ++ [(TRp, h2)]) Hsg R) as [hr [A B]].
  - unfold call. cbn [separated app map]. rewrite map_app. cbn [map].
    apply sim_tok; [reflexivity|intros _; apply hsub_hle; exact Hh|].
    apply sim_tok; [reflexivity|discriminate|].
    apply sim_app; [|apply sim_tok; [reflexivity|discriminate|constructor]].
    apply sim_unnamed; [apply aseq_unnamed|]. rewrite EL. symmetry. apply inst_aseq. reflexivity.
  - exists hr. split; [exact B|exact A].
Qed.

Lemma dequeue_expands : forall e l h h1 h2 sL,
  inert tab e -> Forall (inert tab) l -> hsub h -> map fst sL = seq_of (e :: l) ->
  exists hr, map fst hr = seq_of l /\
    eh tab ((TId nDEQ, h) :: (TLp, h1) :: sL ++ [(TRp, h2)]) hr.
Proof.
  intros e l h h1 h2 sL He Hl Hh EL.
  pose proof dequeue_run as R. apply result_is_ok in R.
  set (sg := fun n => match n with O => seq_of l | S i => e end).
  assert (Hsg : forall n, inert tab (sg n)) by (intros [|n]; [apply seq_of_inert; exact Hl|exact He]).
  destruct (run_sim tab Htab _ _ sg _ _
    ((TId nDEQ, h) :: (TLp, h1) :: sL ++ [(TRp, h2)]) Hsg R) as [hr [A B]].
  - unfold call. cbn [separated app map]. rewrite map_app. cbn [map].
    apply sim_tok; [reflexivity|intros _; apply hsub_hle; exact Hh|].
    apply sim_tok; [reflexivity|discriminate|].
    change [(TRp, h2)] with ([] ++ [(TRp, h2)]).
    apply (sim_app _ _ (map bare [TLp; TAtom 1; TRp; TAtom 0])); [|apply sim_tok; [reflexivity|discriminate|constructor]].
    apply sim_unnamed; [reflexivity|]. rewrite EL. cbn [inst]. rewrite app_nil_r.
    unfold seq_of. cbn [map concat app]. rewrite <- app_assoc. reflexivity.
  - exists hr. split; [|exact A]. rewrite B. cbn [inst]. apply app_nil_r.
Qed.

End List_macros.
