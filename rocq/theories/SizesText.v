(** Proofs about the macros that list sizes (LIBFLATARRAY_CUSTOM_SIZES and its
    variants): their expansion is the text of SpecSizes.v. *)
From Coq Require Import String Ascii ZArith Bool Lia.
From Coq Require Import List.
From Coq Require Import FMapPositive.
From Verif Require Import Preproc PreprocAbs PreprocLib SpecPreproc PreprocProofs PreprocForEach PropsPreproc SpecRegister
  RegisterProofs SpecSizes.
Import ListNotations.
Local Open Scope nat_scope.

Opaque lib lib_words.

Definition unused : tok := word "unused".

(** ** Callbacks *)

Definition case_callbacks : list (string * string) :=
  [("LIBFLATARRAY_CASE_DIM_X", case_x); ("LIBFLATARRAY_CASE_DIM_Y", case_y); ("LIBFLATARRAY_CASE_DIM_Z", case_z);
   ("LIBFLATARRAY_CASE_DIM_MAX_3D", case_3d); ("LIBFLATARRAY_CASE_DIM_MAX_2D", case_2d);
   ("LIBFLATARRAY_CASE_DIM_MAX_1D", case_1d)]%string.

Definition size_name : list (string * nat) := [("THE_SIZE"%string, 3)].

Definition case_ok (x : string * string) : bool :=
  match PositiveMap.find (spell (fst x)) lib with
  | Some m => match m_params m with Some _ => true | _ => false end
  | None => false
  end && no_atoms (tokens (snd x)) &&
  result_is (run_closed steps hidden (call (word (fst x)) [[TAtom 1]; [TAtom 2]; [TAtom 3]]))
            (abstracted size_name (tokens (snd x)) ++ [TAtom 0]).

Lemma cases_ok : forallb case_ok case_callbacks = true.
Proof. vm_compute. reflexivity. Qed.

Lemma case_in : forall x, In x case_callbacks -> case_ok x = true.
Proof. intros x H. exact (proj1 (forallb_forall _ _) cases_ok _ H). Qed.

Lemma unused_word : PositiveMap.find (spell "unused") lib = None /\ PositiveMap.find (spell "unused") lib_words <> None.
Proof.
  split; [vm_compute; reflexivity|]. intros E.
  assert (T : match PositiveMap.find (spell "unused") lib_words with Some _ => true | None => false end = true)
    by (vm_compute; reflexivity).
  rewrite E in T. discriminate.
Qed.

Section Each.
Variable tab : table.
Hypothesis Htab : includes_lib tab.

Lemma unused_inert : inert tab [unused].
Proof.
  split; [reflexivity|]. constructor; [|constructor]. exact (proj2 Htab _ (proj1 unused_word) (proj2 unused_word)).
Qed.

Definition case_sigma (i : nat) (e : list tok) (n : nat) : list tok :=
  match n with 1 => [numeral i] | 2 => [unused] | 3 => e | _ => [] end.

Lemma case_expands : forall x i e hM h1 h2 h3 h4 sI sA sE L R,
  In x case_callbacks -> inert tab e -> hsub hM ->
  map fst sI = [numeral i] -> map fst sA = [unused] -> map fst sE = e -> eh tab L R ->
  exists hr, map fst hr = size_text (snd x) e /\
    eh tab ((word (fst x), hM) :: (TLp, h1) :: sI ++ (TComma, h2) :: sA ++ (TComma, h3) :: sE ++ (TRp, h4) :: L) (hr ++ R).
Proof.
  intros x i e hM h1 h2 h3 h4 sI sA sE L R H He HhM EI EA EE HL.
  apply case_in in H. unfold case_ok in H. apply andb_true_iff in H. destruct H as [H Hr].
  apply andb_true_iff in H. destruct H as [_ Hn]. apply result_is_ok in Hr.
  assert (Hsg : forall n, inert tab (case_sigma i e n)).
  { intros n. destruct n as [|[|[|[|n]]]]; cbn [case_sigma]; try apply inert_nil; try assumption; [|apply unused_inert].
    split; [reflexivity|]. constructor; [exact I|constructor]. }
  set (hl := (word (fst x), hM) :: (TLp, h1) :: sI ++ (TComma, h2) :: sA ++ (TComma, h3) :: sE ++ [(TRp, h4)]).
  assert (S : sim hidden (case_sigma i e) (map bare (call (word (fst x)) [[TAtom 1]; [TAtom 2]; [TAtom 3]])) hl).
  { unfold call, hl. cbn [separated]. cbn [app map].
    apply sim_tok; [reflexivity|intros _; apply hsub_hle; exact HhM|].
    apply sim_tok; [reflexivity|discriminate|].
    apply (sim_atom hidden (case_sigma i e) 1 []); [exact EI|].
    apply sim_tok; [reflexivity|discriminate|].
    apply (sim_atom hidden (case_sigma i e) 2 []); [exact EA|].
    apply sim_tok; [reflexivity|discriminate|].
    apply (sim_atom hidden (case_sigma i e) 3 []); [exact EE|].
    apply sim_tok; [reflexivity|discriminate|]. constructor. }
  destruct (run_closed_sim tab Htab steps hidden _ _ _ hl L R Hsg Hr S HL) as [hr [E1 E2]].
  exists hr. split.
  - rewrite E1. symmetry. exact (fill_inst size_name (case_sigma i e) (tokens (snd x)) Hn).
  - unfold hl in E2. cbn [app] in E2. repeat (rewrite <- app_assoc in E2; cbn [app] in E2). exact E2.
Qed.

Lemma nth_seq : forall (f : list tok -> list tok) (l : list (list tok)),
  concat (map (fun i => f (nth i l [])) (seq 0 (length l))) = concat (map f l).
Proof.
  intros f l. f_equal. rewrite <- (map_map (fun i => nth i l []) f). f_equal.
  induction l as [|e l IH]; [reflexivity|]. cbn [length seq map nth]. f_equal.
  rewrite <- seq_shift, map_map. exact IH.
Qed.

Lemma cases_expand : forall x l h h1 h2 h3 h4 hM sA sL L R,
  In x case_callbacks -> Forall (inert tab) l -> 1 <= length l <= 51 ->
  (forall p, hs_mem p h = true -> hs_mem p outer = true) -> hsub hM ->
  map fst sA = [unused] -> map fst sL = seq_of l -> eh tab L R ->
  exists hr, map fst hr = concat (map (size_text (snd x)) l) /\
    eh tab ((TId nFE, h) :: (TLp, h1) :: (word (fst x), hM) :: (TComma, h2) :: sA ++ (TComma, h3) ::
            sL ++ (TRp, h4) :: L) (hr ++ R).
Proof.
  intros x l h h1 h2 h3 h4 hM sA sL L R HI Hl Hlen Hh HhM EA EL HL.
  pose proof (case_in x HI) as Hok. unfold case_ok in Hok. apply andb_true_iff in Hok. destruct Hok as [Hok _].
  apply andb_true_iff in Hok. destruct Hok as [Hok _].
  destruct (PositiveMap.find (spell (fst x)) lib) as [m|] eqn:EM; [|discriminate].
  destruct (m_params m) as [ps|] eqn:EP; [|discriminate].
  destruct (for_each_expands tab Htab (spell (fst x)) [unused] l (fun i => size_text (snd x) (nth i l [])) unused_inert Hl) with
    (h := h) (h1 := h1) (h2 := h2) (h3 := h3) (h4 := h4) (hM := hM) (sA := sA) (sL := sL) (L := L) (R := R)
    as [hr [E H]]; try assumption.
  - intros hh. eapply eh_emit_name; [apply Htab; exact EM|exact EP|exact I|apply eh_nil].
  - intros i hM' g1 g2 g3 g4 sI sA' sE L' R' Hi HhM' EI EA' EE HL'.
    apply (case_expands x i); try assumption.
    apply (proj1 (Forall_forall _ _) Hl). apply nth_In. exact Hi.
  - exists hr. split; [|exact H]. rewrite E, <- (nth_seq (size_text (snd x)) l).
    apply (upto_each (fun i => size_text (snd x) (nth i l [])) l); [|reflexivity].
    intros Z. rewrite Z in Hlen. cbn [length] in Hlen. lia.
Qed.

End Each.

(** ** The replacement lists: text and calls of FOR_EACH.  The atoms 7, 8, 9 are the lists. *)

Inductive spiece :=
| QText (l r : list tok)
| QEach (M s : string) (which : nat).

Definition spiece_source (x : spiece) : list tok :=
  match x with
  | QText l _ => l
  | QEach M _ k => [TId nFE; TLp; word M; TComma; unused; TComma; TAtom (7 + k); TRp]
  end.

Fixpoint find_case (p : spelling) (l : list (string * string)) : option (string * string) :=
  match l with
  | [] => None
  | (M, t) :: r => if Pos.eqb p (spell M) then Some (M, t) else find_case p r
  end.

Definition qtext (acc : list tok) : spiece := QText (rev acc) (without_stop (run_closed steps outer (rev acc))).

Fixpoint spieces (l acc : list tok) : list spiece :=
  match l with
  | [] => [qtext acc]
  | t :: r =>
    match l with
    | TId p :: TLp :: TId q :: TComma :: TId u :: TComma :: TAtom n :: TRp :: r' =>
      match find_case q case_callbacks with
      | Some (M, s) => qtext acc :: QEach M s (n - 7) :: spieces r' []
      | None => spieces r (t :: acc)
      end
    | _ => spieces r (t :: acc)
    end
  end.

Definition is_case (M s : string) : bool :=
  existsb (fun x => String.eqb (fst x) M && String.eqb (snd x) s) case_callbacks.

Definition spiece_ok (f : nat) (x : spiece) : bool :=
  match x with
  | QText l r => no_atoms r && result_is (run_closed f outer l) (r ++ [TAtom 0])
  | QEach M s k => is_case M s && (k <? 3)
  end.

Definition macro_of (N : spelling) : macro := or_none (PositiveMap.find N lib).
Definition abs_atoms (n : nat) : list (list htok) := map (fun k => [bare (TAtom (7 + k))]) (seq 0 n).

(** The replacement list with [n] atoms as arguments. *)
Definition body_abs (N : spelling) (ps : list spelling) : list htok :=
  hs_add (hs_union [N] []) (or_nil (subst (m_body (macro_of N)) ps (abs_atoms (length ps)) (abs_atoms (length ps)) [])).

Definition body_pieces (N : spelling) (ps : list spelling) : list spiece := spieces (map fst (body_abs N ps)) [].

Definition params_are (m : option macro) (ps : list spelling) : bool :=
  match m with
  | Some m => match m_params m with Some qs => if list_eq_dec Pos.eq_dec qs ps then true else false | None => false end
  | None => false
  end.

Definition macro_ok (f : nat) (N : spelling) (ps : list spelling) : bool :=
  params_are (PositiveMap.find N lib) ps &&
  hs_mem N outer &&
  match subst (m_body (macro_of N)) ps (abs_atoms (length ps)) (abs_atoms (length ps)) [] with Some _ => true | None => false end &&
  list_is (concat (map spiece_source (body_pieces N ps))) (map fst (body_abs N ps)) &&
  forallb (spiece_ok f) (body_pieces N ps) &&
  forallb (fun x : htok => forallb (fun p => hs_mem p outer) (snd x)) (body_abs N ps).

Section Main.
Variable tab : table.
Hypothesis Htab : includes_lib tab.
Variable lists : list (list (list tok)).
Hypothesis Hlists : Forall (fun l => Forall (inert tab) l /\ 1 <= length l <= 51) lists.

Definition slist (k : nat) : list (list tok) := nth k lists [].

Lemma slist_inert : forall k, Forall (inert tab) (slist k).
Proof.
  intros k. unfold slist. destruct (le_lt_dec (length lists) k) as [H|H].
  - rewrite nth_overflow by exact H. constructor.
  - apply (proj1 (Forall_forall _ _) Hlists). apply nth_In. exact H.
Qed.

Definition sg3 (n : nat) : list tok := match n with 7 => seq_of (slist 0) | 8 => seq_of (slist 1) | 9 => seq_of (slist 2) | _ => [] end.

Lemma sg3_inert : forall n, inert tab (sg3 n).
Proof.
  intros n. do 10 (destruct n as [|n]; [cbn [sg3]; try apply inert_nil; apply seq_of_inert; apply slist_inert|]). apply inert_nil.
Qed.

Definition spiece_text (x : spiece) : list tok :=
  match x with
  | QText _ r => r
  | QEach _ s k => concat (map (size_text s) (slist k))
  end.

Lemma spieces_expand : forall f xs hl,
  forallb (spiece_ok f) xs = true -> (forall M s k, In (QEach M s k) xs -> k < length lists) ->
  sim outer sg3 (map bare (concat (map spiece_source xs))) hl ->
  exists hr, map fst hr = concat (map spiece_text xs) /\ eh tab hl hr.
Proof.
  intros f xs. induction xs as [|x xs IH]; intros hl Hok Hk H.
  - inversion H. exists []. split; [reflexivity|apply eh_nil].
  - cbn [map concat] in H. rewrite map_app in H. apply sim_app_inv in H. destruct H as [h1 [h2 [-> [S1 S2]]]].
    cbn [forallb] in Hok. apply andb_true_iff in Hok. destruct Hok as [Hx Hok].
    destruct (IH h2 Hok (fun M s k Q => Hk M s k (or_intror Q)) S2) as [r2 [E2 X2]].
    assert (G : exists r1, map fst r1 = spiece_text x /\ eh tab (h1 ++ h2) (r1 ++ r2)).
    { destruct x as [l r|M s k]; cbn [spiece_ok] in Hx; apply andb_true_iff in Hx; destruct Hx as [Hx1 Hx2].
      - apply result_is_ok in Hx2.
        destruct (run_closed_sim tab Htab f outer sg3 l r h1 h2 r2 sg3_inert Hx2 S1 X2) as [r1 [A B]].
        exists r1. split; [|exact B]. cbn [spiece_text]. rewrite A. apply plain_inst. exact Hx1.
      - apply Nat.ltb_lt in Hx2. pose proof (Hk M s k (or_introl eq_refl)) as Hkl.
        unfold is_case in Hx1. apply existsb_exists in Hx1. destruct Hx1 as [[M' s'] [HI HE]].
        cbn [fst snd] in HE. apply andb_true_iff in HE. destruct HE as [HE1 HE2].
        apply String.eqb_eq in HE1. apply String.eqb_eq in HE2. subst M' s'.
        cbn [spiece_source map] in S1. unfold bare in S1.
        apply sim_tok_inv in S1; [|reflexivity]. destruct S1 as [g1 [c1 [-> [Hg1 S1]]]].
        apply sim_tok_inv in S1; [|reflexivity]. destruct S1 as [g2 [c2 [-> [_ S1]]]].
        apply sim_tok_inv in S1; [|reflexivity]. destruct S1 as [g3 [c3 [-> [Hg3 S1]]]].
        apply sim_tok_inv in S1; [|reflexivity]. destruct S1 as [g4 [c4 [-> [_ S1]]]].
        apply sim_tok_inv in S1; [|reflexivity]. destruct S1 as [g5 [c5 [-> [_ S1]]]].
        apply sim_tok_inv in S1; [|reflexivity]. destruct S1 as [g6 [c6 [-> [_ S1]]]].
        apply sim_atom_inv in S1. destruct S1 as [sL [c7 [-> [EL S1]]]].
        apply sim_tok_inv in S1; [|reflexivity]. destruct S1 as [g8 [c8 [-> [_ S1]]]].
        inversion S1; subst.
        assert (ES : sg3 (7 + k) = seq_of (slist k)).
        { destruct k as [|[|[|k]]]; try reflexivity. lia. }
        rewrite ES in EL.
        destruct (cases_expand tab Htab (M, s) (slist k) g1 g2 g4 g6 g8 g3 [(unused, g5)] sL h2 r2 HI (slist_inert k))
          as [hr [A B]].
        + apply (proj1 (Forall_forall _ _) Hlists). apply nth_In. exact Hkl.
        + intros p Hp. destruct (Hg1 eq_refl p Hp) as [Q|Q]; [discriminate|exact Q].
        + intros p Hp. destruct (Hg3 eq_refl p Hp) as [Q|Q]; [discriminate|apply outer_hidden; exact Q].
        + reflexivity.
        + exact EL.
        + exact X2.
        + exists hr. split; [exact A|]. cbn [app fst] in *. rewrite <- app_assoc. cbn [app]. exact B. }
    destruct G as [r1 [E1 X1]]. exists (r1 ++ r2). split; [|exact X1].
    transitivity (map fst r1 ++ map fst r2); [apply map_app|]. cbn [map concat]. rewrite E1, E2. reflexivity.
Qed.

(** A call of one of the macros, with the lists as arguments. *)
Lemma sizes_expand : forall f N ps,
  macro_ok f N ps = true -> 1 <= length lists <= 3 -> length ps = length lists ->
  (forall M s k, In (QEach M s k) (body_pieces N ps) -> k < length lists) ->
  expands tab (call (TId N) (map seq_of lists)) (concat (map spiece_text (body_pieces N ps))).
Proof.
  intros f N ps Hok Hl3 Hps Hk. unfold macro_ok in Hok.
  apply andb_true_iff in Hok. destruct Hok as [Hok Hhid]. apply andb_true_iff in Hok. destruct Hok as [Hok Hpok].
  apply andb_true_iff in Hok. destruct Hok as [Hok Hsplit]. apply andb_true_iff in Hok. destruct Hok as [Hok Hsub].
  apply andb_true_iff in Hok. destruct Hok as [Hpar Hout].
  assert (Lm : PositiveMap.find N lib = Some (macro_of N) /\ m_params (macro_of N) = Some ps).
  { unfold macro_of, params_are in *. destruct (PositiveMap.find N lib) as [m|]; [|discriminate]. cbn [or_none].
    split; [reflexivity|]. destruct (m_params m) as [qs|]; [|discriminate].
    destruct (list_eq_dec Pos.eq_dec qs ps) as [->|]; [reflexivity|discriminate]. }
  destruct Lm as [Lm Lp].
  assert (So : subst (m_body (macro_of N)) ps (abs_atoms (length ps)) (abs_atoms (length ps)) [] <> None).
  { intros E. rewrite E in Hsub. discriminate. }
  destruct (some_of _ _ So) as [o Eo]. clear So.
  set (segs := map (fun l => map bare (seq_of l)) lists).
  assert (Sim : Forall2 (sim outer sg3) (abs_atoms (length ps)) segs).
  { rewrite Hps. unfold abs_atoms, segs, sg3, slist.
    destruct lists as [|a [|b [|c [|d r]]]]; cbn [length] in *; try lia; cbn [seq map];
      repeat constructor; match goal with |- sim _ ?sg _ (map bare ?x) =>
        rewrite <- (app_nil_r (map bare x)); apply (sim_atom outer sg _ []); [apply map_bare_fst|constructor] end. }
  destruct (sim_subst outer sg3 (m_body (macro_of N)) ps _ segs _ segs [] [] o
              (lib_no_atoms _ _ Lm) Sim Sim (sim_nil _ _) Eo) as [o' [So' Sim']].
  assert (Sb : sim outer sg3 (body_abs N ps) (hs_add (hs_union [N] []) o')).
  { unfold body_abs. rewrite Eo. cbn [or_nil]. apply sim_hs_add; [|exact Sim'].
    intros p Hp. left. exact Hp. }
  pose proof (sim_bare _ _ _ _ Sb Hhid) as Sb2.
  pose proof (list_is_ok _ _ Hsplit) as Eq. rewrite <- Eq in Sb2.
  destruct (spieces_expand f (body_pieces N ps) _ Hpok Hk Sb2) as [hr [E X]].
  rewrite <- E. apply expands_eh.
  assert (Self : Forall2 (eh tab) segs segs).
  { unfold segs. assert (G : forall ls, Forall (Forall (inert tab)) ls ->
      Forall2 (eh tab) (map (fun l => map bare (seq_of l)) ls) (map (fun l => map bare (seq_of l)) ls)).
    { intros ls H. induction H as [|l ls H1 H IH]; cbn [map]; constructor; [|exact IH].
      eapply seg_self; [apply seq_of_inert; exact H1|apply map_bare_fst]. }
    apply G. eapply Forall_impl; [|exact Hlists]. intros l H. apply H. }
  assert (Bal : Forall (fun l => balanced (map fst (map bare (seq_of l)))) lists).
  { eapply Forall_impl; [|exact Hlists]. intros l H. rewrite map_bare_fst.
    apply (seq_of_inert tab). apply H. }
  assert (Col : exists inner, map bare (call (TId N) (map seq_of lists)) = (TId N, []) :: (TLp, []) :: inner /\
                collect inner 0 [] [] = Some (segs, [], [])).
  { unfold segs, call. destruct lists as [|a [|b [|c [|d r]]]]; cbn [length] in *; try lia;
      cbn [map separated app]; eexists; (split; [reflexivity|]); norm_app;
      change (bare TComma) with (TComma, @nil spelling); change (bare TRp) with (TRp, @nil spelling);
      repeat (apply Forall_cons_iff in Bal; destruct Bal as [? Bal]);
      repeat rewrite collect_next by assumption; rewrite collect_last by assumption; reflexivity. }
  destruct Col as [inner [-> Col]].
  eapply eh_call with (args := segs) (eargs := segs) (h' := []) (rest := []).
  - reflexivity.
  - apply Htab. exact Lm.
  - exact Lp.
  - exact Col.
  - unfold segs. rewrite map_length. symmetry. exact Hps.
  - exact Self.
  - exact So'.
  - rewrite app_nil_r. exact X.
Qed.
End Main.

(** ** The four macros *)

Definition nCS := spell "LIBFLATARRAY_CUSTOM_SIZES".
Definition nCS1 := spell "LIBFLATARRAY_CUSTOM_SIZES_1D_UNIFORM".
Definition nCS2 := spell "LIBFLATARRAY_CUSTOM_SIZES_2D_UNIFORM".
Definition nCS3 := spell "LIBFLATARRAY_CUSTOM_SIZES_3D_UNIFORM".
Definition ps3 : list spelling := map spell ["X_SIZES"; "Y_SIZES"; "Z_SIZES"]%string.
Definition ps1 : list spelling := [spell "SIZES"].

Definition each_below (n : nat) (xs : list spiece) : bool :=
  forallb (fun x => match x with QEach _ _ k => k <? n | QText _ _ => true end) xs.

(** Both texts as tokens and lists of cases. *)
Inductive elt := ETok (t : tok) | ECase (s : string) (k : nat).

Definition elt_eq (a b : elt) : {a = b} + {a <> b}.
Proof. decide equality; [apply tok_eq|apply Nat.eq_dec|apply string_dec]. Defined.

Definition flat_spiece (x : spiece) : list elt :=
  match x with
  | QText _ r => map ETok r
  | QEach _ s k => [ECase s k]
  end.

Definition flat_size_item (x : size_item) : list elt :=
  match x with
  | SCode s => map ETok (tokens s)
  | SEach k s => [ECase s k]
  end.

Definition flat_fn (g : fn) : list elt :=
  map ETok (tokens (f_head g) ++ tokens "{") ++ concat (map flat_size_item (f_body g)) ++ map ETok (tokens "}").

Definition flat_class (gs : list fn) : list elt :=
  map ETok (tokens "typedef void has_sizes;") ++ concat (map flat_fn gs).

Definition elt_text (lists : list (list (list tok))) (x : elt) : list tok :=
  match x with
  | ETok t => [t]
  | ECase s k => concat (map (size_text s) (nth k lists []))
  end.

Definition elts_text (lists : list (list (list tok))) (l : list elt) : list tok := concat (map (elt_text lists) l).

Lemma elts_app : forall lists a b, elts_text lists (a ++ b) = elts_text lists a ++ elts_text lists b.
Proof. intros. unfold elts_text. rewrite map_app, concat_app. reflexivity. Qed.

Lemma elts_toks : forall lists l, elts_text lists (map ETok l) = l.
Proof. intros lists l. unfold elts_text. induction l as [|t l IH]; [reflexivity|]. cbn [map concat elt_text app]. rewrite IH. reflexivity. Qed.

Lemma elts_concat : forall (A : Type) lists (f : A -> list elt) (g : A -> list tok) l,
  (forall x, elts_text lists (f x) = g x) -> elts_text lists (concat (map f l)) = concat (map g l).
Proof.
  intros A lists f g l H. induction l as [|x l IH]; [reflexivity|]. cbn [map concat]. rewrite elts_app, H, IH. reflexivity.
Qed.

Lemma flat_spieces_text : forall lists xs,
  elts_text lists (concat (map flat_spiece xs)) = concat (map (spiece_text lists) xs).
Proof.
  intros lists xs. apply elts_concat. intros [l r|M s k]; cbn [flat_spiece spiece_text]; [apply elts_toks|].
  unfold elts_text. cbn [map concat elt_text]. apply app_nil_r.
Qed.

Lemma flat_class_text : forall lists gs, elts_text lists (flat_class gs) = class_sizes lists gs.
Proof.
  intros lists gs. unfold flat_class, class_sizes. rewrite elts_app, elts_toks. f_equal.
  apply elts_concat. intros g. unfold flat_fn, fn_text. rewrite !elts_app, !elts_toks, <- app_assoc.
  f_equal. f_equal. f_equal. apply elts_concat. intros [s|k s]; cbn [flat_size_item render_size]; [apply elts_toks|].
  unfold elts_text. cbn [map concat elt_text]. apply app_nil_r.
Qed.

Definition text_agrees (N : spelling) (ps : list spelling) (gs : list fn) : bool :=
  macro_ok steps N ps && each_below (length ps) (body_pieces N ps) &&
  (if list_eq_dec elt_eq (concat (map flat_spiece (body_pieces N ps))) (flat_class gs) then true else false).

Definition both (g : string -> list fn) : list fn := alternate (g ""%string) (g "const "%string).

Lemma custom_agrees : text_agrees nCS ps3 (both custom_functions) = true.
Proof. vm_compute. reflexivity. Qed.
Lemma uniform_1d_agrees : text_agrees nCS1 ps1 (both uniform_1d) = true.
Proof. vm_compute. reflexivity. Qed.
Lemma uniform_2d_agrees : text_agrees nCS2 ps1 (both uniform_2d) = true.
Proof. vm_compute. reflexivity. Qed.
Lemma uniform_3d_agrees : text_agrees nCS3 ps1 (both uniform_3d) = true.
Proof. vm_compute. reflexivity. Qed.

Lemma text_expands : forall N ps gs tab lists, text_agrees N ps gs = true ->
  includes_lib tab -> Forall (fun l => Forall (inert tab) l /\ 1 <= length l <= 51) lists ->
  1 <= length lists <= 3 -> length ps = length lists ->
  expands tab (call (TId N) (map seq_of lists)) (class_sizes lists gs).
Proof.
  intros N ps gs tab lists H Htab Hl H3 Hps. unfold text_agrees in H.
  apply andb_true_iff in H. destruct H as [H H2]. apply andb_true_iff in H. destruct H as [H0 H1].
  destruct (list_eq_dec elt_eq _ _) as [E|]; [|discriminate].
  rewrite <- flat_class_text, <- E, flat_spieces_text.
  apply (sizes_expand tab Htab lists Hl steps N ps H0 H3 Hps).
  intros M s k Hin. pose proof (proj1 (forallb_forall _ _) H1 _ Hin) as G. cbv beta iota in G.
  apply Nat.ltb_lt in G. rewrite <- Hps. exact G.
Qed.
