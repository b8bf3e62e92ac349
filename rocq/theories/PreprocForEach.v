(** LIBFLATARRAY_FOR_EACH: proof by induction on the position in the list. *)
From Coq Require Import String Ascii ZArith Bool Lia.
From Coq Require Import List.
From Coq Require Import FMapPositive DecimalString.
From Verif Require Import Preproc PreprocAbs PreprocLib SpecPreproc PreprocProofs.
Import ListNotations.
Local Open Scope nat_scope.

Opaque lib lib_words.

Definition fe_params : list spelling := map spell ["MACRO"; "DEFAULT_ARG"; "LIST"]%string.

Definition eval_part (k : nat) : list tok :=
  [TId nEVAL; TLp; word "MACRO"; TComma; numeral k; TComma; word "DEFAULT_ARG"; TComma;
   TId nELEM; TLp; numeral k; TComma; word "LIST"; TRp; TRp].

Definition fe_macro (k : nat) : macro :=
  mkMacro (Some fe_params)
    (match k with
     | O => []
     | S j => [TId (fe_name j); TLp; word "MACRO"; TComma; word "DEFAULT_ARG"; TComma; word "LIST"; TRp]
     end ++ eval_part k).

Definition macro_is (o : option macro) (m : macro) : bool :=
  match o with
  | Some x =>
    (if list_eq_dec tok_eq (m_body x) (m_body m) then true else false) &&
    match m_params x, m_params m with
    | Some a, Some b => if list_eq_dec Pos.eq_dec a b then true else false
    | _, _ => false
    end
  | None => false
  end.

Lemma macro_is_ok : forall o m, macro_is o m = true -> o = Some m.
Proof.
  intros [[px bx]|] [pm bm] H; cbn [macro_is m_params m_body] in H; [|discriminate].
  destruct (list_eq_dec tok_eq bx bm) as [->|]; [|discriminate].
  destruct px as [px|], pm as [pm|]; try discriminate.
  destruct (list_eq_dec Pos.eq_dec px pm) as [->|]; [reflexivity|discriminate].
Qed.

Lemma fe_table : forallb (fun k => macro_is (PositiveMap.find (fe_name k) lib) (fe_macro k)) (seq 0 51) = true.
Proof. vm_compute. reflexivity. Qed.

Lemma fe_lookup : forall k, k <= 50 -> PositiveMap.find (fe_name k) lib = Some (fe_macro k).
Proof.
  intros k H. apply macro_is_ok.
  exact (proj1 (forallb_forall _ _) fe_table k ltac:(apply in_seq; lia)).
Qed.

Lemma fe_no_param : forall k, k <= 50 -> param_index (fe_name k) fe_params 0 = None.
Proof.
  intros k H.
  assert (T : forallb (fun k => match param_index (fe_name k) fe_params 0 with None => true | _ => false end)
                (seq 0 51) = true) by (vm_compute; reflexivity).
  pose proof (proj1 (forallb_forall _ _) T k ltac:(apply in_seq; lia)) as G. cbv beta in G.
  destruct (param_index (fe_name k) fe_params 0); [discriminate|reflexivity].
Qed.

Lemma fe_names_differ : forall i j, i <= 50 -> j < i -> Pos.eqb (fe_name j) (fe_name i) = false.
Proof.
  intros i j Hi Hj.
  assert (T : forallb (fun i => forallb (fun j => negb (Pos.eqb (fe_name j) (fe_name i))) (seq 0 i)) (seq 0 51) = true)
    by (vm_compute; reflexivity).
  pose proof (proj1 (forallb_forall _ _) T i ltac:(apply in_seq; lia)) as G. cbv beta in G.
  pose proof (proj1 (forallb_forall _ _) G j ltac:(apply in_seq; lia)) as G2. cbv beta in G2.
  apply negb_true_iff in G2. exact G2.
Qed.

Lemma fe_hidden : forall k, k <= 50 -> hs_mem (fe_name k) hidden = true.
Proof.
  intros k H.
  assert (T : forallb (fun k => hs_mem (fe_name k) hidden) (seq 0 51) = true) by (vm_compute; reflexivity).
  exact (proj1 (forallb_forall _ _) T k ltac:(apply in_seq; lia)).
Qed.

Lemma eval_not_fe : forall k, k <= 50 -> Pos.eqb nEVAL (fe_name k) = false.
Proof.
  intros k H.
  assert (T : forallb (fun k => negb (Pos.eqb nEVAL (fe_name k))) (seq 0 51) = true) by (vm_compute; reflexivity).
  pose proof (proj1 (forallb_forall _ _) T k ltac:(apply in_seq; lia)) as G. cbv beta in G.
  apply negb_true_iff in G. exact G.
Qed.

(** Arguments separated by commas. *)
Lemma collect_one : forall s h L, balanced (map fst s) ->
  collect (s ++ (TRp, h) :: L) 0 [] [] = Some ([s], h, L).
Proof.
  intros s h L H. rewrite collect_seg0 by exact H. cbn [collect fst snd].
  rewrite app_nil_r, rev_involutive. reflexivity.
Qed.

Lemma collect_last : forall s h L args, balanced (map fst s) ->
  collect (s ++ (TRp, h) :: L) 0 [] args = Some (rev args ++ [s], h, L).
Proof.
  intros s h L args H. rewrite collect_seg0 by exact H. cbn [collect fst snd].
  rewrite app_nil_r, rev_involutive. reflexivity.
Qed.

Lemma collect_next : forall s h L args, balanced (map fst s) ->
  collect (s ++ (TComma, h) :: L) 0 [] args = collect L 0 [] (s :: args).
Proof.
  intros s h L args H. rewrite collect_seg0 by exact H. cbn [collect fst snd].
  rewrite app_nil_r, rev_involutive. reflexivity.
Qed.

(** Pasting the list length onto the prefix yields the macro's name. *)
Lemma spell_app_push : forall c q p, spell_app (push_char c q) p = push_char c (spell_app q p).
Proof. intros [[] [] [] [] [] [] [] []] q p; reflexivity. Qed.

Lemma spell_app_from : forall s q p, spell_app (spell_from q s) p = spell_from (spell_app q p) s.
Proof.
  induction s as [|c s IH]; intros q p; [reflexivity|].
  change (spell_app (spell_from (push_char c q) s) p = spell_from (push_char c (spell_app q p)) s).
  rewrite IH, spell_app_push. reflexivity.
Qed.

Lemma spell_append : forall a b, spell (a ++ b) = spell_app (spell b) (spell a).
Proof.
  intros a b. unfold spell. rewrite spell_app_from. change (spell_app 1%positive (spell_from 1%positive a)) with (spell_from 1%positive a).
  generalize 1%positive. induction a as [|c a IH]; intros p; [reflexivity|].
  change (spell_from (push_char c p) (a ++ b) = spell_from (spell_from (push_char c p) a) b). apply IH.
Qed.

(** Hide sets made of given names. *)
Definition within (S : list spelling) (h : hideset) : Prop := forall p, hs_mem p h = true -> hs_mem p S = true.

Lemma within_union : forall S p a b, hs_mem p S = true -> within S a -> within S b ->
  within S (hs_union (hs_union [p] a) b).
Proof.
  intros S p a b Hp Ha Hb q H. rewrite !hs_mem_union in H.
  destruct (hs_mem q b) eqn:E; [apply Hb; exact E|]. destruct (hs_mem q a) eqn:E2; [apply Ha; exact E2|].
  rewrite !orb_false_r in H. unfold hs_mem in H. cbn [existsb] in H. rewrite orb_false_r in H.
  apply Pos.eqb_eq in H. subst. exact Hp.
Qed.

Lemma within_inter : forall S a b, within S a -> within S (hs_inter a b).
Proof. intros S a b H p E. rewrite hs_mem_inter in E. apply andb_true_iff in E. apply H. apply E. Qed.

Lemma within_nil : forall S, within S [].
Proof. intros S p H. discriminate. Qed.

Lemma within_le : forall S T h, forallb (fun p => hs_mem p T) S = true -> within S h -> within T h.
Proof.
  intros S T h H W p E. specialize (W p E). unfold hs_mem in W. apply existsb_exists in W.
  destruct W as [q [I Q]]. apply Pos.eqb_eq in Q. subst q.
  exact (proj1 (forallb_forall _ _) H p I).
Qed.

Lemma not_within : forall S h p, within S h -> hs_mem p S = false -> hs_mem p h = false.
Proof. intros S h p W H. destruct (hs_mem p h) eqn:E; [|reflexivity]. rewrite (W _ E) in H. discriminate. Qed.

(** What FOR_EACH_k can find hidden. *)
Definition before : list spelling := outer ++ [nFE; nFE1; nFE2; nFE3].

Lemma before_fe : forall k, k <= 50 -> hs_mem (fe_name k) before = false.
Proof.
  intros k H.
  assert (T : forallb (fun k => negb (hs_mem (fe_name k) before)) (seq 0 51) = true) by (vm_compute; reflexivity).
  pose proof (proj1 (forallb_forall _ _) T k ltac:(apply in_seq; lia)) as G. cbv beta in G.
  apply negb_true_iff in G. exact G.
Qed.

Lemma before_hidden : forall h, within before h -> hsub h.
Proof. intros h H. apply (within_le before hidden h); [vm_compute; reflexivity|exact H]. Qed.

Ltac norm_app := repeat (progress (repeat rewrite map_app; repeat rewrite <- app_assoc; cbn [map app fst snd])).
Ltac norm_app_in H :=
  repeat (progress (repeat rewrite map_app in H; repeat rewrite <- app_assoc in H; cbn [map app fst snd] in H)).

Section For_each.
Variable tab : table.
Hypothesis Htab : includes_lib tab.
Variable M : spelling.
Variable A : list tok.
Variable l : list (list tok).
Variable X : nat -> list tok.
Hypothesis HA : inert tab A.
Hypothesis Hl : Forall (inert tab) l.
Hypothesis HM : forall h, eh tab [(TId M, h)] [(TId M, h)].

(** The callback's expansion for each position, whatever follows. *)
Hypothesis HX : forall i hM h1 h2 h3 h4 sI sA sE L R, i < length l ->
  hsub hM -> map fst sI = [numeral i] -> map fst sA = A -> map fst sE = nth i l [] -> eh tab L R ->
  exists hr, map fst hr = X i /\
    eh tab ((TId M, hM) :: (TLp, h1) :: sI ++ (TComma, h2) :: sA ++ (TComma, h3) :: sE ++ (TRp, h4) :: L)
           (hr ++ R).

Lemma seg_self : forall s t, inert tab t -> map fst s = t -> eh tab s s.
Proof.
  intros s t [_ H] E. rewrite <- (app_nil_r s). apply eh_emit_seg; [|apply eh_nil].
  apply Forall_map. rewrite E. exact H.
Qed.

Lemma num_self : forall n h, eh tab [(TNum n, h)] [(TNum n, h)].
Proof. intros. apply eh_emit; [exact I|apply eh_nil]. Qed.

Fixpoint upto (k : nat) : list tok :=
  match k with O => X 0 | S j => upto j ++ X (S j) end.

(** FOR_EACH_EVAL(M, k, A, ELEM(k, LIST)) *)
Lemma eval_expands : forall k h h1 h2 h3 h4 h5 h6 h7 h8 hM hI hE hk sA sL L R,
  k < length l -> k <= 50 -> hsub h -> hs_mem nEVAL h = false -> hsub hM -> hsub hE -> hsub hk ->
  map fst sA = A -> map fst sL = seq_of l -> eh tab L R ->
  exists hr, map fst hr = X k /\
    eh tab ((TId nEVAL, h) :: (TLp, h1) :: [(TId M, hM)] ++ (TComma, h2) :: [(numeral k, hI)] ++ (TComma, h3) ::
            sA ++ (TComma, h4) ::
            ((TId nELEM, hE) :: (TLp, h5) :: (numeral k, hk) :: (TComma, h6) :: sL ++ [(TRp, h7)]) ++
            (TRp, h8) :: L) (hr ++ R).
Proof.
  intros k h h1 h2 h3 h4 h5 h6 h7 h8 hM hI hE hk sA sL L R Hk Hk2 Hh Hn HhM HhE Hhk EA EL HL.
  destruct (elem_expands tab Htab l k hE h5 hk h6 h7 sL Hk Hk2 Hl HhE Hhk EL) as [sE [EE HE]].
  set (H' := hs_union [nEVAL] (hs_inter h h8)).
  assert (HbA : balanced (map fst sA)) by (rewrite EA; apply HA).
  assert (HbL : balanced (map fst sL)) by (rewrite EL; apply seq_of_inert with (tab := tab); exact Hl).
  destruct (HX k (hs_union H' hM) (hs_union H' []) (hs_union H' []) (hs_union H' []) (hs_union H' [])
             (hs_add H' [(numeral k, hI)]) (hs_add H' sA) (hs_add H' sE) L R Hk) as [hr [E1 E2]].
  - unfold H'. apply hsub_union; [vm_compute; reflexivity|apply hsub_inter; exact Hh|exact HhM].
  - reflexivity.
  - unfold hs_add. rewrite map_map. exact EA.
  - unfold hs_add. rewrite map_map. exact EE.
  - exact HL.
  - exists hr. split; [exact E1|].
    eapply eh_call with (args := [[(TId M, hM)]; [(numeral k, hI)]; sA;
        (TId nELEM, hE) :: (TLp, h5) :: (numeral k, hk) :: (TComma, h6) :: sL ++ [(TRp, h7)]])
      (eargs := [[(TId M, hM)]; [(numeral k, hI)]; sA; sE]) (h' := h8) (rest := L)
      (m := mkMacro (Some (map spell ["MACRO"; "ARG1"; "ARG2"; "ARG3"]%string))
              [word "MACRO"; TLp; word "ARG1"; TComma; word "ARG2"; TComma; word "ARG3"; TRp]).
    + exact Hn.
    + apply (proj1 Htab). apply macro_is_ok. vm_compute. reflexivity.
    + reflexivity.
    + rewrite collect_next by reflexivity. rewrite collect_next by reflexivity.
      rewrite collect_next by exact HbA. rewrite collect_last; [reflexivity|].
      cbn [map fst]. rewrite map_app. unfold balanced. cbn [bal numeral]. cbn [map fst].
      rewrite bal_up by exact HbL. reflexivity.
    + reflexivity.
    + constructor; [apply HM|]. constructor; [apply num_self|].
      constructor; [eapply seg_self; [exact HA|exact EA]|]. constructor; [exact HE|constructor].
    + cbn [m_body]. reflexivity.
    + cbn [nth app]. fold H'. unfold hs_add in E2 |- *. unfold bare.
      norm_app. norm_app_in E2. exact E2.
Qed.

(** FOR_EACH_k(M, A, LIST) *)
Lemma fe_expands : forall k h h1 h2 h3 h4 hM sA sL L R,
  k < length l -> k <= 50 -> hsub h -> hs_mem nEVAL h = false ->
  (forall j, j <= k -> hs_mem (fe_name j) h = false) -> hsub hM ->
  map fst sA = A -> map fst sL = seq_of l -> eh tab L R ->
  exists hr, map fst hr = upto k /\
    eh tab ((TId (fe_name k), h) :: (TLp, h1) :: [(TId M, hM)] ++ (TComma, h2) :: sA ++ (TComma, h3) ::
            sL ++ (TRp, h4) :: L) (hr ++ R).
Proof.
  induction k as [|k IH]; intros h h1 h2 h3 h4 hM sA sL L R Hk Hk2 Hh Hn Hfe HhM EA EL HL.
  - set (H' := hs_union [fe_name 0] (hs_inter h h4)).
    assert (HbA : balanced (map fst sA)) by (rewrite EA; apply HA).
    assert (HbL : balanced (map fst sL)) by (rewrite EL; apply seq_of_inert with (tab := tab); exact Hl).
    assert (HH : forall x, hsub x -> hsub (hs_union H' x)).
    { intros x Hx. unfold H'. apply hsub_union; [apply fe_hidden; lia|apply hsub_inter; exact Hh|exact Hx]. }
    assert (HE : hs_mem nEVAL (hs_union H' []) = false).
    { unfold H'. rewrite !hs_mem_union, hs_mem_inter, Hn. cbn [andb]. unfold hs_mem. cbn [existsb].
      rewrite (eval_not_fe 0) by lia. reflexivity. }
    destruct (eval_expands 0 (hs_union H' []) (hs_union H' []) (hs_union H' []) (hs_union H' []) (hs_union H' [])
                (hs_union H' []) (hs_union H' []) (hs_union H' []) (hs_union H' []) (hs_union H' hM) (hs_union H' [])
                (hs_union H' []) (hs_union H' []) (hs_add H' sA) (hs_add H' sL) L R Hk Hk2
                (HH _ hsub_nil) HE (HH _ HhM) (HH _ hsub_nil) (HH _ hsub_nil)) as [hr [E1 E2]].
    + unfold hs_add. rewrite map_map. exact EA.
    + unfold hs_add. rewrite map_map. exact EL.
    + exact HL.
    + exists hr. split; [exact E1|].
      eapply eh_call with (args := [[(TId M, hM)]; sA; sL]) (eargs := [[(TId M, hM)]; sA; sL])
        (h' := h4) (rest := L) (m := fe_macro 0).
      * apply Hfe. lia.
      * apply (proj1 Htab). apply fe_lookup. lia.
      * reflexivity.
      * rewrite collect_next by reflexivity. rewrite collect_next by exact HbA.
        rewrite collect_last by exact HbL. reflexivity.
      * reflexivity.
      * constructor; [apply HM|]. constructor; [eapply seg_self; [exact HA|exact EA]|].
        constructor; [eapply seg_self; [apply seq_of_inert; exact Hl|exact EL]|constructor].
      * cbn [m_body fe_macro app eval_part]. reflexivity.
      * cbn [nth app]. fold H'. unfold hs_add in E2 |- *. unfold bare.
        norm_app. norm_app_in E2. exact E2.
  - set (H' := hs_union [fe_name (S k)] (hs_inter h h4)).
    assert (HbA : balanced (map fst sA)) by (rewrite EA; apply HA).
    assert (HbL : balanced (map fst sL)) by (rewrite EL; apply seq_of_inert with (tab := tab); exact Hl).
    assert (HH : forall x, hsub x -> hsub (hs_union H' x)).
    { intros x Hx. unfold H'. apply hsub_union; [apply fe_hidden; lia|apply hsub_inter; exact Hh|exact Hx]. }
    assert (HE : hs_mem nEVAL (hs_union H' []) = false).
    { unfold H'. rewrite !hs_mem_union, hs_mem_inter, Hn. cbn [andb]. unfold hs_mem. cbn [existsb].
      rewrite (eval_not_fe (S k)) by lia. reflexivity. }
    assert (EA' : map fst (hs_add H' sA) = A) by (unfold hs_add; rewrite map_map; exact EA).
    assert (EL' : map fst (hs_add H' sL) = seq_of l) by (unfold hs_add; rewrite map_map; exact EL).
    destruct (eval_expands (S k) (hs_union H' []) (hs_union H' []) (hs_union H' []) (hs_union H' []) (hs_union H' [])
                (hs_union H' []) (hs_union H' []) (hs_union H' []) (hs_union H' []) (hs_union H' hM) (hs_union H' [])
                (hs_union H' []) (hs_union H' []) (hs_add H' sA) (hs_add H' sL) L R Hk Hk2
                (HH _ hsub_nil) HE (HH _ HhM) (HH _ hsub_nil) (HH _ hsub_nil) EA' EL' HL) as [hr [E1 E2]].
    assert (Hj : forall j, j <= k -> hs_mem (fe_name j) (hs_union H' []) = false).
    { intros j Hj. unfold H'. rewrite !hs_mem_union, hs_mem_inter, (Hfe j) by lia. cbn [andb]. unfold hs_mem.
      cbn [existsb]. rewrite (fe_names_differ (S k) j) by lia. reflexivity. }
    destruct (IH (hs_union H' []) (hs_union H' []) (hs_union H' []) (hs_union H' []) (hs_union H' [])
                (hs_union H' hM) (hs_add H' sA) (hs_add H' sL) _ _ ltac:(lia) ltac:(lia) (HH _ hsub_nil) HE
                Hj (HH _ HhM) EA' EL' E2) as [hr0 [E3 E4]].
    exists (hr0 ++ hr). split; [rewrite map_app, E3, E1; reflexivity|].
    eapply eh_call with (args := [[(TId M, hM)]; sA; sL]) (eargs := [[(TId M, hM)]; sA; sL])
      (h' := h4) (rest := L) (m := fe_macro (S k)).
    + apply Hfe. lia.
    + apply (proj1 Htab). apply fe_lookup. lia.
    + reflexivity.
    + rewrite collect_next by reflexivity. rewrite collect_next by exact HbA.
      rewrite collect_last by exact HbL. reflexivity.
    + reflexivity.
    + constructor; [apply HM|]. constructor; [eapply seg_self; [exact HA|exact EA]|].
      constructor; [eapply seg_self; [apply seq_of_inert; exact Hl|exact EL]|constructor].
    + cbn [m_body fe_macro app]. cbn [subst as_param]. rewrite (fe_no_param k) by lia. reflexivity.
    + cbn [nth app]. fold H'. unfold hs_add in E4 |- *. unfold bare.
      norm_app. norm_app_in E4. exact E4.
Qed.

(** FOR_EACH(M, A, LIST) *)
Lemma for_each_expands : forall h h1 h2 h3 h4 hM sA sL L R,
  1 <= length l <= 51 -> (forall p, hs_mem p h = true -> hs_mem p outer = true) -> hsub hM ->
  map fst sA = A -> map fst sL = seq_of l -> eh tab L R ->
  exists hr, map fst hr = upto (length l - 1) /\
    eh tab ((TId nFE, h) :: (TLp, h1) :: [(TId M, hM)] ++ (TComma, h2) :: sA ++ (TComma, h3) ::
            sL ++ (TRp, h4) :: L) (hr ++ R).
Proof.
  intros h h1 h2 h3 h4 hM sA sL L R Hlen Hh HhM EA EL HL.
  assert (Hne : exists e l', l = e :: l') by (destruct l as [|e l']; [cbn [length] in Hlen; lia|eauto]).
  destruct Hne as [e [l' El]].
  assert (Hl' : Forall (inert tab) (e :: l')) by (rewrite <- El; exact Hl).
  assert (He : inert tab e) by (inversion Hl'; assumption).
  assert (Hl'' : Forall (inert tab) l') by (inversion Hl'; assumption).
  assert (HbA : forall s : list htok, map fst s = A -> balanced (map fst s)) by (intros s Es; rewrite Es; apply HA).
  assert (HbL : forall s : list htok, map fst s = seq_of l -> balanced (map fst s))
    by (intros s Es; rewrite Es; apply seq_of_inert with (tab := tab); exact Hl).
  assert (Hadd : forall H s, map fst (hs_add H s) = map fst s) by (intros; unfold hs_add; rewrite map_map; reflexivity).
  assert (HsA : forall s, map fst s = A -> eh tab s s) by (intros; eapply seg_self; [exact HA|assumption]).
  assert (HsL : forall s, map fst s = seq_of l -> eh tab s s)
    by (intros; eapply seg_self; [apply seq_of_inert; exact Hl|assumption]).
  set (H1 := hs_union [nFE] (hs_inter h h4)). set (H1' := hs_union H1 []).
  set (H2 := hs_union [nFE1] (hs_inter H1' H1')). set (H2' := hs_union H2 []).
  set (H3 := hs_union [nFE2] (hs_inter H2' H2')). set (H3' := hs_union H3 []).
  set (H4 := hs_union [nFE3] (hs_inter H3' H3')). set (H4' := hs_union H4 []).
  assert (W1 : within (outer ++ [nFE]) H1').
  { unfold H1', H1. apply within_union; [vm_compute; reflexivity| |apply within_nil].
    apply within_inter. apply (within_le outer); [vm_compute; reflexivity|exact Hh]. }
  assert (W2 : within (outer ++ [nFE; nFE1]) H2').
  { unfold H2', H2. apply within_union; [vm_compute; reflexivity| |apply within_nil].
    apply within_inter. apply (within_le (outer ++ [nFE])); [vm_compute; reflexivity|exact W1]. }
  assert (W3 : within (outer ++ [nFE; nFE1; nFE2]) H3').
  { unfold H3', H3. apply within_union; [vm_compute; reflexivity| |apply within_nil].
    apply within_inter. apply (within_le (outer ++ [nFE; nFE1])); [vm_compute; reflexivity|exact W2]. }
  assert (W4 : within before H4').
  { unfold H4', H4. apply within_union; [vm_compute; reflexivity| |apply within_nil].
    apply within_inter. apply (within_le (outer ++ [nFE; nFE1; nFE2])); [vm_compute; reflexivity|exact W3]. }
  assert (HH : forall p H x, hs_mem p hidden = true -> hsub H -> hsub x -> hsub (hs_union (hs_union [p] (hs_inter H H)) x)).
  { intros p H x Hp Hs Hx. apply hsub_union; [exact Hp|apply hsub_inter; exact Hs|exact Hx]. }
  assert (S1 : hsub H1') by (apply (within_le (outer ++ [nFE])); [vm_compute; reflexivity|exact W1]).
  assert (S2 : hsub H2') by (apply (within_le (outer ++ [nFE; nFE1])); [vm_compute; reflexivity|exact W2]).
  assert (S3 : hsub H3') by (apply (within_le (outer ++ [nFE; nFE1; nFE2])); [vm_compute; reflexivity|exact W3]).
  assert (S4 : hsub H4') by (apply before_hidden; exact W4).
  set (M1 := hs_union H1 hM). set (M2 := hs_union H2 M1). set (M3 := hs_union H3 M2). set (M4 := hs_union H4 M3).
  assert (SM1 : hsub M1).
  { unfold M1, H1. apply hsub_union; [vm_compute; reflexivity|apply hsub_inter|exact HhM].
    apply (within_le outer); [vm_compute; reflexivity|exact Hh]. }
  assert (SM2 : hsub M2) by (unfold M2, H2; apply HH; [vm_compute; reflexivity|exact S1|exact SM1]).
  assert (SM3 : hsub M3) by (unfold M3, H3; apply HH; [vm_compute; reflexivity|exact S2|exact SM2]).
  assert (SM4 : hsub M4) by (unfold M4, H4; apply HH; [vm_compute; reflexivity|exact S3|exact SM3]).
  set (sA1 := hs_add H1 sA). set (sA2 := hs_add H2 sA1). set (sA3 := hs_add H3 sA2). set (sA4 := hs_add H4 sA3).
  set (sL1 := hs_add H1 sL). set (sL2 := hs_add H2 sL1). set (sL3 := hs_add H3 sL2). set (sL4 := hs_add H4 sL3).
  assert (A1 : map fst sA1 = A) by (unfold sA1; rewrite Hadd; exact EA).
  assert (A2 : map fst sA2 = A) by (unfold sA2; rewrite Hadd; exact A1).
  assert (A3 : map fst sA3 = A) by (unfold sA3; rewrite Hadd; exact A2).
  assert (A4 : map fst sA4 = A) by (unfold sA4; rewrite Hadd; exact A3).
  assert (L1 : map fst sL1 = seq_of l) by (unfold sL1; rewrite Hadd; exact EL).
  assert (L2 : map fst sL2 = seq_of l) by (unfold sL2; rewrite Hadd; exact L1).
  assert (L3 : map fst sL3 = seq_of l) by (unfold sL3; rewrite Hadd; exact L2).
  assert (L4 : map fst sL4 = seq_of l) by (unfold sL4; rewrite Hadd; exact L3).
  assert (Hn : length l - 1 = length l') by (rewrite El; cbn [length]; lia).
  rewrite Hn. assert (Hn2 : length l' <= 50) by (rewrite El in Hlen; cbn [length] in Hlen; lia).
  (* DEQUEUE(LIST) *)
  destruct (dequeue_expands tab Htab e l' H1' H1' H1' sL1 He Hl'' S1) as [st [T1 T2]];
    [rewrite <- El; exact L1|].
  (* SIZE(tail) *)
  destruct (size_expands tab Htab l' H2' H2' H2' (hs_add H2 st) ltac:(lia) Hl'' S2) as [sn [N1 N2]];
    [rewrite Hadd; exact T1|].
  assert (exists hn, sn = [(numeral (length l'), hn)]) as [hn ->].
  { destruct sn as [|[t hn] [|? ?]]; try discriminate. cbn [map fst] in N1. injection N1 as ->. eauto. }
  (* FOR_EACH_n *)
  destruct (fe_expands (length l') H4' H4' H4' H4' H4' M4 sA4 sL4 L R) as [hr [E1 E2]].
  { rewrite El. cbn [length]. lia. }
  { exact Hn2. }
  { exact S4. }
  { apply (not_within before); [exact W4|vm_compute; reflexivity]. }
  { intros j Hj. apply (not_within before); [exact W4|apply before_fe; lia]. }
  { exact SM4. }
  { exact A4. }
  { exact L4. }
  { exact HL. }
  exists hr. split; [exact E1|].
  (* FOR_EACH_III *)
  assert (Q3 : eh tab ((TId nFE3, H3') :: (TLp, H3') :: [(TId M, M3)] ++ (TComma, H3') :: sA3 ++ (TComma, H3') ::
       [(numeral (length l'), hs_union H3 hn)] ++ (TComma, H3') :: sL3 ++ (TRp, H3') :: L) (hr ++ R)).
  { eapply eh_call with (args := [[(TId M, M3)]; sA3; [(numeral (length l'), hs_union H3 hn)]; sL3])
      (eargs := [[(TId M, M3)]; sA3; [(numeral (length l'), hs_union H3 hn)]; sL3]) (h' := H3') (rest := L)
      (m := mkMacro (Some (map spell ["MACRO"; "DEFAULT_ARG"; "SIZE"; "LIST"]%string))
              [word "LIBFLATARRAY_FOR_EACH_"; TPaste; word "SIZE"; TLp; word "MACRO"; TComma; word "DEFAULT_ARG"; TComma;
               word "LIST"; TRp]).
    - apply (not_within _ _ _ W3). vm_compute. reflexivity.
    - apply (proj1 Htab). apply macro_is_ok. vm_compute. reflexivity.
    - reflexivity.
    - rewrite collect_next by reflexivity. rewrite collect_next by (apply HbA; exact A3).
      rewrite collect_next by reflexivity. rewrite collect_last by (apply HbL; exact L3). reflexivity.
    - reflexivity.
    - constructor; [apply HM|]. constructor; [apply HsA; exact A3|]. constructor; [apply num_self|].
      constructor; [apply HsL; exact L3|constructor].
    - cbn [m_body]. reflexivity.
    - cbn [nth app]. fold H4. rewrite <- spell_append.
      change (spell ("LIBFLATARRAY_FOR_EACH_" ++ NilZero.string_of_uint (Nat.to_uint (length l'))))
        with (fe_name (length l')).
      unfold sA4, sL4, hs_add, bare in *.
      norm_app. norm_app_in E2. exact E2. }
  (* FOR_EACH_II *)
  assert (Hcall : forall p x y z (s : list htok), balanced (map fst s) ->
            balanced (map fst ((TId p, x) :: (TLp, y) :: s ++ [(TRp, z)]))).
  { intros p x y z s Hb. cbn [map fst]. rewrite map_app. unfold balanced. cbn [bal].
    rewrite bal_up by exact Hb. reflexivity. }
  assert (Q2 : eh tab ((TId nFE2, H2') :: (TLp, H2') :: [(TId M, M2)] ++ (TComma, H2') :: sA2 ++ (TComma, H2') ::
       ((TId nSIZE, H2') :: (TLp, H2') :: hs_add H2 st ++ [(TRp, H2')]) ++ (TComma, H2') :: sL2 ++ (TRp, H2') :: L)
       (hr ++ R)).
  { eapply eh_call with (args := [[(TId M, M2)]; sA2; (TId nSIZE, H2') :: (TLp, H2') :: hs_add H2 st ++ [(TRp, H2')]; sL2])
      (eargs := [[(TId M, M2)]; sA2; [(numeral (length l'), hn)]; sL2]) (h' := H2') (rest := L)
      (m := mkMacro (Some (map spell ["MACRO"; "DEFAULT_ARG"; "SIZE"; "LIST"]%string))
              [TId nFE3; TLp; word "MACRO"; TComma; word "DEFAULT_ARG"; TComma; word "SIZE"; TComma;
               word "LIST"; TRp]).
    - apply (not_within _ _ _ W2). vm_compute. reflexivity.
    - apply (proj1 Htab). apply macro_is_ok. vm_compute. reflexivity.
    - reflexivity.
    - rewrite collect_next by reflexivity. rewrite collect_next by (apply HbA; exact A2).
      rewrite collect_next.
      2:{ apply Hcall. rewrite Hadd, T1. apply seq_of_inert with (tab := tab). exact Hl''. }
      rewrite collect_last by (apply HbL; exact L2). reflexivity.
    - reflexivity.
    - constructor; [apply HM|]. constructor; [apply HsA; exact A2|]. constructor; [exact N2|].
      constructor; [apply HsL; exact L2|constructor].
    - cbn [m_body]. reflexivity.
    - cbn [nth app]. fold H3. unfold sA3, sL3, hs_add, bare in *.
      norm_app. norm_app_in Q3. exact Q3. }
  (* FOR_EACH_I *)
  assert (Q1 : eh tab ((TId nFE1, H1') :: (TLp, H1') :: [(TId M, M1)] ++ (TComma, H1') :: sA1 ++ (TComma, H1') ::
       ((TId nDEQ, H1') :: (TLp, H1') :: sL1 ++ [(TRp, H1')]) ++ (TComma, H1') :: sL1 ++ (TRp, H1') :: L)
       (hr ++ R)).
  { eapply eh_call with (args := [[(TId M, M1)]; sA1; (TId nDEQ, H1') :: (TLp, H1') :: sL1 ++ [(TRp, H1')]; sL1])
      (eargs := [[(TId M, M1)]; sA1; st; sL1]) (h' := H1') (rest := L)
      (m := mkMacro (Some (map spell ["MACRO"; "DEFAULT_ARG"; "LIST_SHORT"; "LIST"]%string))
              [TId nFE2; TLp; word "MACRO"; TComma; word "DEFAULT_ARG"; TComma; TId nSIZE; TLp; word "LIST_SHORT"; TRp;
               TComma; word "LIST"; TRp]).
    - apply (not_within _ _ _ W1). vm_compute. reflexivity.
    - apply (proj1 Htab). apply macro_is_ok. vm_compute. reflexivity.
    - reflexivity.
    - rewrite collect_next by reflexivity. rewrite collect_next by (apply HbA; exact A1).
      rewrite collect_next by (apply Hcall; apply HbL; exact L1).
      rewrite collect_last by (apply HbL; exact L1). reflexivity.
    - reflexivity.
    - constructor; [apply HM|]. constructor; [apply HsA; exact A1|]. constructor; [exact T2|].
      constructor; [apply HsL; exact L1|constructor].
    - cbn [m_body]. reflexivity.
    - cbn [nth app]. fold H2. unfold sA2, sL2, hs_add, bare in *.
      norm_app. norm_app_in Q2. exact Q2. }
  eapply eh_call with (args := [[(TId M, hM)]; sA; sL]) (eargs := [[(TId M, hM)]; sA; sL]) (h' := h4) (rest := L)
      (m := mkMacro (Some fe_params)
              [TId nFE1; TLp; word "MACRO"; TComma; word "DEFAULT_ARG"; TComma; TId nDEQ; TLp; word "LIST"; TRp;
               TComma; word "LIST"; TRp]).
  - apply (not_within outer); [exact Hh|vm_compute; reflexivity].
  - apply (proj1 Htab). apply macro_is_ok. vm_compute. reflexivity.
  - reflexivity.
  - rewrite collect_next by reflexivity. rewrite collect_next by (apply HbA; exact EA).
    rewrite collect_last by (apply HbL; exact EL). reflexivity.
  - reflexivity.
  - constructor; [apply HM|]. constructor; [apply HsA; exact EA|].
    constructor; [apply HsL; exact EL|constructor].
  - cbn [m_body]. reflexivity.
  - cbn [nth app]. fold H1. unfold sA1, sL1, hs_add, bare in *.
    norm_app. norm_app_in Q1. exact Q1.
Qed.

End For_each.
