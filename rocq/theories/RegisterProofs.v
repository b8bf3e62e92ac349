(** Proofs about the registration macros: the callbacks of FOR_EACH by running
    the abstract expansion once for scalar and once for array members. *)
From Coq Require Import String Ascii ZArith Bool Lia.
From Coq Require Import List.
From Coq Require Import FMapPositive.
From Verif Require Import Preproc PreprocAbs PreprocLib SpecPreproc PreprocProofs PreprocForEach PropsPreproc SpecRegister.
Import ListNotations.
Local Open Scope nat_scope.

Opaque lib lib_words.

(** ** Templates as token lists with atoms *)

Definition names : list (string * nat) :=
  [("THE_INDEX", 1); ("THE_CLASS", 2); ("THE_TYPE", 3); ("THE_NAME", 4); ("THE_ARITY", 5)]%string.

Fixpoint atom_of (ns : list (string * nat)) (p : spelling) : option nat :=
  match ns with
  | [] => None
  | (s, n) :: r => if Pos.eqb p (spell s) then Some n else atom_of r p
  end.

Definition abstracted (ns : list (string * nat)) (l : list tok) : list tok :=
  map (fun t => match t with
    | TId p => match atom_of ns p with Some n => TAtom n | None => t end
    | _ => t end) l.

Definition no_atoms (l : list tok) : bool := forallb (fun t => negb (is_atom t)) l.

Lemma look_atoms : forall ns sg p, look (map (fun x => (fst x, sg (snd x))) ns) p =
  match atom_of ns p with Some n => Some (sg n) | None => None end.
Proof.
  intros ns sg p. induction ns as [|[s n] ns IH]; [reflexivity|]. cbn [map look atom_of fst snd].
  destruct (Pos.eqb p (spell s)); [reflexivity|exact IH].
Qed.

Lemma fill_inst : forall ns sg l, no_atoms l = true ->
  fill (map (fun x => (fst x, sg (snd x))) ns) l = inst sg (abstracted ns l).
Proof.
  intros ns sg l. induction l as [|t l IH]; intros H; [reflexivity|].
  cbn [no_atoms forallb] in H. apply andb_true_iff in H. destruct H as [Ht H].
  unfold fill in *. cbn [map concat]. rewrite IH by exact H. cbn [abstracted map].
  destruct t; try reflexivity; try discriminate.
  rewrite look_atoms. destruct (atom_of ns p); reflexivity.
Qed.

Lemma plain_inst : forall sg l, no_atoms l = true -> inst sg l = l.
Proof.
  intros sg l. induction l as [|t l IH]; intros H; [reflexivity|]. cbn [no_atoms forallb] in H.
  apply andb_true_iff in H. destruct H as [Ht H]. destruct t; try discriminate; cbn [inst]; rewrite IH by exact H; reflexivity.
Qed.

Definition sigma (i : nat) (c : list tok) (m : soa_member) (n : nat) : list tok :=
  match n with
  | 1 => [numeral i]
  | 2 => c
  | 3 => sm_type m
  | 4 => sm_name m
  | 5 => match sm_arity m with Some a => a | None => [] end
  | _ => []
  end.

Lemma about_inst : forall i c m l, no_atoms l = true ->
  about i c m l = inst (sigma i c m) (abstracted names l).
Proof. intros i c m l H. rewrite <- (fill_inst names (sigma i c m)) by exact H. reflexivity. Qed.

(** ** Callbacks *)

Definition inert_member (tab : table) (m : soa_member) : Prop :=
  inert tab (sm_type m) /\ inert tab (sm_name m) /\
  match sm_arity m with Some n => inert tab n | None => True end.

Lemma member_text_inert : forall tab m, inert_member tab m -> inert tab (member_text m).
Proof.
  intros tab m [A [B C]]. unfold member_text. apply seq_of_inert.
  constructor; [exact A|]. constructor; [exact B|]. destruct (sm_arity m); repeat constructor; apply C.
Qed.

(** What the callback yields on atoms: [k] elements in the member. *)
Definition callback_gives (M : string) (k : nat) (l : list tok) : bool :=
  no_atoms l &&
  result_is (run_closed steps hidden (call (word M) [[TAtom 1]; [TAtom 2]; aseq 3 k]))
            (abstracted names l ++ [TAtom 0]).

Definition callback_ok (M : string) (scalar array : list tok) : bool :=
  negb (hs_mem (spell M) hidden) &&
  match PositiveMap.find (spell M) lib with
  | Some m => match m_params m with Some [_; _; _] => true | _ => false end
  | None => false
  end && callback_gives M 2 scalar && callback_gives M 3 array.

Section Callbacks.
Variable tab : table.
Hypothesis Htab : includes_lib tab.

Lemma callback_expands : forall M k l i c m hM h1 h2 h3 h4 sI sA sE L R,
  callback_gives M k l = true ->
  k = match sm_arity m with Some _ => 3 | None => 2 end ->
  inert tab c -> inert_member tab m -> hsub hM ->
  map fst sI = [numeral i] -> map fst sA = c -> map fst sE = member_text m -> eh tab L R ->
  exists hr, map fst hr = about i c m l /\
    eh tab ((word M, hM) :: (TLp, h1) :: sI ++ (TComma, h2) :: sA ++ (TComma, h3) :: sE ++ (TRp, h4) :: L) (hr ++ R).
Proof.
  intros M k l i c m hM h1 h2 h3 h4 sI sA sE L R H Hk Hc [Hm1 [Hm2 Hm3]] HhM EI EA EE HL.
  apply andb_true_iff in H. destruct H as [Hn H]. apply result_is_ok in H.
  assert (Hsg : forall n, inert tab (sigma i c m n)).
  { intros n. destruct n as [|[|[|[|[|[|n]]]]]]; cbn [sigma]; try apply inert_nil; try assumption.
    - split; [reflexivity|]. constructor; [exact I|constructor].
    - destruct (sm_arity m); [exact Hm3|apply inert_nil]. }
  assert (IE : inst (sigma i c m) (aseq 3 k) = member_text m).
  { unfold member_text. rewrite Hk.
    set (es := sm_type m :: sm_name m :: match sm_arity m with Some n => [n] | None => [] end).
    replace (match sm_arity m with Some _ => 3 | None => 2 end) with (length es)
      by (unfold es; destruct (sm_arity m); reflexivity).
    apply inst_aseq. intros j Hj. unfold es in *. destruct (sm_arity m) eqn:E; cbn [length] in Hj;
      destruct j as [|[|[|j]]]; cbn [sigma plus nth]; rewrite ?E; try reflexivity; lia. }
  set (hl := (word M, hM) :: (TLp, h1) :: sI ++ (TComma, h2) :: sA ++ (TComma, h3) :: sE ++ [(TRp, h4)]).
  assert (S : sim hidden (sigma i c m) (map bare (call (word M) [[TAtom 1]; [TAtom 2]; aseq 3 k])) hl).
  { unfold call, hl. cbn [separated]. cbn [app map]. rewrite map_app. cbn [map].
    apply sim_tok; [reflexivity|intros _; apply hsub_hle; exact HhM|].
    apply sim_tok; [reflexivity|discriminate|].
    apply (sim_atom hidden (sigma i c m) 1 []); [exact EI|].
    apply sim_tok; [reflexivity|discriminate|].
    apply (sim_atom hidden (sigma i c m) 2 []); [exact EA|].
    apply sim_tok; [reflexivity|discriminate|].
    apply sim_app; [apply sim_unnamed; [apply aseq_unnamed|rewrite IE; exact EE]|].
    apply sim_tok; [reflexivity|discriminate|]. constructor. }
  destruct (run_closed_sim tab Htab steps hidden _ _ _ hl L R Hsg H S HL) as [hr [E1 E2]].
  exists hr. split; [rewrite E1; symmetry; apply about_inst; exact Hn|].
  unfold hl in E2. cbn [app] in E2. repeat (rewrite <- app_assoc in E2; cbn [app] in E2). exact E2.
Qed.

End Callbacks.

(** ** LIBFLATARRAY_REGISTER_SOA *)

(** The callbacks it uses and the text they stand for. *)
Definition callbacks : list (string * template) :=
  [("LIBFLATARRAY_DEFINE_FIELD_OFFSET", offset_class);
   ("LIBFLATARRAY_DECLARE_SOA_MEMBER_CONST", accessor_functions "const" "my_index");
   ("LIBFLATARRAY_DECLARE_SOA_MEMBER_NORMAL", accessor_functions "" "my_index");
   ("LIBFLATARRAY_DECLARE_SOA_MEMBER_LIGHT_CONST", accessor_functions "const" "*my_index");
   ("LIBFLATARRAY_DECLARE_SOA_MEMBER_LIGHT_NORMAL", accessor_functions "" "*my_index");
   ("LIBFLATARRAY_COPY_SOA_GENERIC_MEMBER_IN", assign_text);
   ("LIBFLATARRAY_COPY_SOA_GENERIC_MEMBER_OUT", extract_text);
   ("LIBFLATARRAY_COPY_SOA_GENERIC_MEMBER_ARRAY_IN", load_text);
   ("LIBFLATARRAY_COPY_SOA_GENERIC_MEMBER_ARRAY_OUT", save_text);
   ("LIBFLATARRAY_COPY_SOA_GENERIC_MEMBER", copy_text);
   ("LIBFLATARRAY_INIT_SOA_GENERIC_MEMBER", construct_text);
   ("LIBFLATARRAY_DESTROY_SOA_GENERIC_MEMBER", destroy_text)]%string.

Lemma callbacks_ok : forallb (fun x => callback_ok (fst x) (snd x false) (snd x true)) callbacks = true.
Proof. vm_compute. reflexivity. Qed.

Lemma callback_in : forall M t, In (M, t) callbacks -> callback_ok M (t false) (t true) = true.
Proof. intros M t H. exact (proj1 (forallb_forall _ _) callbacks_ok _ H). Qed.

Section Each.
Variable tab : table.
Hypothesis Htab : includes_lib tab.
Variable c : list tok.
Hypothesis Hc : inert tab c.
Variable ms : list soa_member.
Hypothesis Hms : Forall (inert_member tab) ms.
Hypothesis Hlen : 1 <= length ms <= 51.

Definition nth_text (t : template) (i : nat) : list tok :=
  match nth_error ms i with Some m => text_for t c i m | None => [] end.

Lemma members_nth : forall (f : nat -> soa_member -> list tok) l i,
  members_from i f l = concat (map (fun j => match nth_error l (j - i) with Some m => f j m | None => [] end) (seq i (length l))).
Proof.
  intros f l. induction l as [|m l IH]; intros i; [reflexivity|].
  cbn [members_from length seq map concat]. rewrite Nat.sub_diag. cbn [nth_error]. f_equal. rewrite IH. f_equal.
  apply map_ext_in. intros j Hj. apply in_seq in Hj. replace (j - i) with (S (j - S i)) by lia. reflexivity.
Qed.

Lemma each_expands : forall M t h h1 h2 h3 h4 hM sA sL L R,
  In (M, t) callbacks ->
  (forall p, hs_mem p h = true -> hs_mem p outer = true) -> hsub hM ->
  map fst sA = c -> map fst sL = seq_of (map member_text ms) -> eh tab L R ->
  exists hr, map fst hr = members_from 0 (text_for t c) ms /\
    eh tab ((TId nFE, h) :: (TLp, h1) :: (word M, hM) :: (TComma, h2) :: sA ++ (TComma, h3) ::
            sL ++ (TRp, h4) :: L) (hr ++ R).
Proof.
  intros M t h h1 h2 h3 h4 hM sA sL L R HI Hh HhM EA EL HL.
  apply callback_in in HI. unfold callback_ok in HI.
  apply andb_true_iff in HI. destruct HI as [HI G3]. apply andb_true_iff in HI. destruct HI as [HI G2].
  apply andb_true_iff in HI. destruct HI as [HhidM HI].
  destruct (PositiveMap.find (spell M) lib) as [m|] eqn:EM; [|discriminate].
  destruct (m_params m) as [ps|] eqn:EP; [|discriminate].
  assert (Ht : Forall (inert tab) (map member_text ms)).
  { apply Forall_map. eapply Forall_impl; [|exact Hms]. intros x. apply member_text_inert. }
  assert (Hl : length (map member_text ms) = length ms) by apply map_length.
  destruct (for_each_expands tab Htab (spell M) c (map member_text ms) (nth_text t) Hc Ht) with
    (h := h) (h1 := h1) (h2 := h2) (h3 := h3) (h4 := h4) (hM := hM) (sA := sA) (sL := sL) (L := L) (R := R)
    as [hr [E H]]; try assumption.
  - intros hh. eapply eh_emit_name; [apply Htab; exact EM|exact EP|exact I|apply eh_nil].
  - intros i hM' g1 g2 g3 g4 sI sA' sE L' R' Hi HhM' EI EA' EE HL'.
    rewrite Hl in Hi. destruct (nth_error ms i) as [x|] eqn:Ex; [|apply nth_error_None in Ex; lia].
    assert (Hx : inert_member tab x) by (apply (proj1 (Forall_forall _ _) Hms); eapply nth_error_In; exact Ex).
    assert (EE' : map fst sE = member_text x).
    { rewrite EE. apply nth_error_nth. rewrite nth_error_map, Ex. reflexivity. }
    unfold nth_text. rewrite Ex. unfold text_for.
    destruct (is_array x) eqn:Ar; unfold is_array in Ar.
    + apply (callback_expands tab Htab M 3); try assumption. destruct (sm_arity x); [reflexivity|discriminate].
    + apply (callback_expands tab Htab M 2); try assumption. destruct (sm_arity x); [discriminate|reflexivity].
  - rewrite Hl. exact Hlen.
  - exists hr. split; [|exact H]. rewrite E, members_nth, Hl.
    assert (Hne : ms <> []) by (intros Z; rewrite Z in Hlen; cbn [length] in Hlen; lia).
    rewrite <- Hl. rewrite (upto_each (nth_text t) (map member_text ms) (nth_text t)); [|intros Z|reflexivity].
    + f_equal. apply map_ext. intros j. rewrite Nat.sub_0_r. reflexivity.
    + apply map_eq_nil in Z. contradiction.
Qed.

(** LIBFLATARRAY_SIZE in front of other text. *)
Lemma size_runs_closed : forallb (fun n =>
  result_is (run_closed steps hidden (call (TId nSIZE) [aseq 1 n])) ([numeral n] ++ [TAtom 0])) (seq 0 52) = true.
Proof. vm_compute. reflexivity. Qed.

Lemma size_expands_in : forall h h1 h2 sL L R,
  hsub h -> map fst sL = seq_of (map member_text ms) -> eh tab L R ->
  exists hr, map fst hr = [numeral (length ms)] /\
    eh tab ((TId nSIZE, h) :: (TLp, h1) :: sL ++ (TRp, h2) :: L) (hr ++ R).
Proof.
  intros h h1 h2 sL L R Hh EL HL.
  pose proof (proj1 (forallb_forall _ _) size_runs_closed (length ms) ltac:(apply in_seq; lia)) as G. cbv beta in G.
  apply result_is_ok in G.
  set (es := map member_text ms) in *.
  assert (Hes : Forall (inert tab) es).
  { apply Forall_map. eapply Forall_impl; [|exact Hms]. intros x. apply member_text_inert. }
  set (sg := fun i => match i with O => [] | S j => nth j es [] end).
  assert (Hsg : forall i, inert tab (sg i)).
  { intros [|i]; cbn [sg]; [apply inert_nil|apply nth_inert; exact Hes]. }
  assert (I1 : inst sg (aseq 1 (length ms)) = seq_of es).
  { replace (length ms) with (length es) by apply map_length. apply inst_aseq. reflexivity. }
  destruct (run_closed_sim tab Htab steps hidden sg _ _ ((TId nSIZE, h) :: (TLp, h1) :: sL ++ [(TRp, h2)]) L R Hsg G)
    as [hr [A B]]; [|exact HL|].
  - unfold call. cbn [separated app map]. rewrite map_app. cbn [map].
    apply sim_tok; [reflexivity|intros _; apply hsub_hle; exact Hh|].
    apply sim_tok; [reflexivity|discriminate|].
    apply sim_app; [apply sim_unnamed; [apply aseq_unnamed|rewrite I1; exact EL]|].
    apply sim_tok; [reflexivity|discriminate|]. constructor.
  - exists hr. split; [exact A|]. cbn [app] in B. rewrite <- app_assoc in B. exact B.
Qed.

End Each.

(** ** The replacement list of LIBFLATARRAY_REGISTER_SOA_MAIN *)

(** Its pieces: text free of FOR_EACH and SIZE together with what becomes of it,
    FOR_EACH of a callback, and SIZE.  The atom 2 is the class, the atom 9 the
    list of members. *)
Inductive piece :=
| PText (l r : list tok)
| PEach (M : string) (t : template)
| PSize.

Definition piece_source (x : piece) : list tok :=
  match x with
  | PText l _ => l
  | PEach M _ => [TId nFE; TLp; word M; TComma; TAtom 2; TComma; TAtom 9; TRp]
  | PSize => [TId nSIZE; TLp; TAtom 9; TRp]
  end.

Fixpoint find_callback (p : spelling) (l : list (string * template)) : option (string * template) :=
  match l with
  | [] => None
  | (M, t) :: r => if Pos.eqb p (spell M) then Some (M, t) else find_callback p r
  end.

Definition without_stop (o : option (list tok)) : list tok :=
  match o with Some l => removelast l | None => [] end.

Definition text_piece (acc : list tok) : piece :=
  PText (rev acc) (without_stop (run_closed steps outer (rev acc))).

Fixpoint pieces (l acc : list tok) : list piece :=
  match l with
  | [] => [text_piece acc]
  | t :: r =>
    match l with
    | TId p :: TLp :: TId q :: TComma :: TAtom 2 :: TComma :: TAtom 9 :: TRp :: r' =>
      match find_callback q callbacks with
      | Some (M, tm) => text_piece acc :: PEach M tm :: pieces r' []
      | None => pieces r (t :: acc)
      end
    | TId p :: TLp :: TAtom 9 :: TRp :: r' =>
      if Pos.eqb p nSIZE then text_piece acc :: PSize :: pieces r' [] else pieces r (t :: acc)
    | _ => pieces r (t :: acc)
    end
  end.

Definition or_none (o : option macro) : macro :=
  match o with Some m => m | None => mkMacro None [] end.

Definition nREG := spell "LIBFLATARRAY_REGISTER_SOA".
Definition nMAIN := spell "LIBFLATARRAY_REGISTER_SOA_MAIN".
Definition main_macro : macro := or_none (PositiveMap.find nMAIN lib).
Definition main_params : list spelling := [spell "CELL_TYPE"; spell "CELL_MEMBERS"].

Definition or_nil (o : option (list htok)) : list htok := match o with Some l => l | None => [] end.

Definition atoms29 : list (list htok) := [[bare (TAtom 2)]; [bare (TAtom 9)]].

Definition main_abs : list htok :=
  hs_add (hs_union [nMAIN] []) (or_nil (subst (m_body main_macro) main_params atoms29 atoms29 [])).

Definition main_pieces : list piece := pieces (map fst main_abs) [].

Definition piece_ok (f : nat) (x : piece) : bool :=
  match x with
  | PText l r => result_is (run_closed f outer l) (r ++ [TAtom 0])
  | PEach M t => match find_callback (spell M) callbacks with Some _ => true | None => false end
  | PSize => true
  end.

Definition list_is (a b : list tok) : bool := if list_eq_dec tok_eq a b then true else false.

Lemma main_split : list_is (concat (map piece_source main_pieces)) (map fst main_abs) = true.
Proof. vm_compute. reflexivity. Qed.

Lemma main_ok : forallb (piece_ok steps) main_pieces = true.
Proof. vm_compute. reflexivity. Qed.

Lemma main_hides : forallb (fun x : htok => forallb (fun p => hs_mem p outer) (snd x)) main_abs = true.
Proof. vm_compute. reflexivity. Qed.


Lemma sim_bare : forall F sg a c, sim F sg a c ->
  forallb (fun x : htok => forallb (fun p => hs_mem p F) (snd x)) a = true ->
  sim F sg (map bare (map fst a)) c.
Proof.
  intros F sg a c H. induction H as [|n h s a c E H IH|t h h' a c Ht Hh H IH]; intros G; [constructor| |];
    cbn [forallb snd] in G; apply andb_true_iff in G; destruct G as [G1 G2]; cbn [map fst].
  - apply sim_atom; [exact E|]. apply IH. exact G2.
  - apply sim_tok; [exact Ht| |apply IH; exact G2].
    intros Hn p Hp. right. destruct (Hh Hn p Hp) as [Q|Q]; [|exact Q].
    unfold hs_mem in Q. apply existsb_exists in Q. destruct Q as [q [Iq Eq]]. apply Pos.eqb_eq in Eq. subst q.
    exact (proj1 (forallb_forall _ _) G1 p Iq).
Qed.

Lemma sim_wider : forall F G sg a c, (forall p, hs_mem p F = true -> hs_mem p G = true) ->
  sim F sg a c -> sim G sg a c.
Proof.
  intros F G sg a c HFG H. induction H as [|n h s a c E H IH|t h h' a c Ht Hh H IH].
  - constructor.
  - apply sim_atom; assumption.
  - apply sim_tok; [exact Ht| |exact IH]. intros Hn p Hp. destruct (Hh Hn p Hp); auto.
Qed.

Lemma outer_hidden : forall p, hs_mem p outer = true -> hs_mem p hidden = true.
Proof. intros p H. unfold hidden. rewrite hs_mem_app, H. reflexivity. Qed.

Lemma sim_tok_inv : forall F sg t h a c, is_atom t = false -> sim F sg ((t, h) :: a) c ->
  exists h' c', c = (t, h') :: c' /\ (named t = true -> hle F h' h) /\ sim F sg a c'.
Proof.
  intros F sg t h a c Ht H. inversion H as [|n h0 s a' c' E H'|t' h0 h' a' c' Ht' Hh H']; subst; [discriminate|].
  exists h', c'. auto.
Qed.

Lemma sim_atom_inv : forall F sg n h a c, sim F sg ((TAtom n, h) :: a) c ->
  exists s c', c = s ++ c' /\ map fst s = sg n /\ sim F sg a c'.
Proof.
  intros F sg n h a c H. inversion H as [|n0 h0 s a' c' E H'|t' h0 h' a' c' Ht' Hh H']; subst; [|discriminate].
  exists s, c'. auto.
Qed.

Lemma find_callback_in : forall p l M t, find_callback p l = Some (M, t) -> In (M, t) l /\ p = spell M.
Proof.
  intros p l M t. induction l as [|[N u] l IH]; intros H; cbn [find_callback] in H; [discriminate|].
  destruct (Pos.eqb p (spell N)) eqn:E.
  - injection H as -> ->. apply Pos.eqb_eq in E. split; [left; reflexivity|exact E].
  - destruct (IH H) as [A B]. split; [right; exact A|exact B].
Qed.

Lemma pieces_each : forall l acc M t, In (PEach M t) (pieces l acc) -> In (M, t) callbacks.
Proof.
  intros l. remember (length l) as n eqn:En. revert l En.
  induction n as [n IH] using (well_founded_induction lt_wf). intros l En acc M t H.
  assert (T : forall x, In (PEach M t) [text_piece x] -> False) by (intros x [Q|[]]; discriminate).
  destruct l as [|a r]; cbn [pieces] in H; [destruct (T _ H)|].
  assert (D : forall x, In (PEach M t) (pieces r x) -> In (M, t) callbacks).
  { intros x Hx. apply (IH (length r)) with (l := r) (acc := x); [subst; cbn [length]; lia|reflexivity|exact Hx]. }
  repeat match type of H with
  | context [match ?y with _ => _ end] => is_var y; destruct y; try (eapply D; exact H)
  end.
  - destruct (find_callback p0 callbacks) as [[N u]|] eqn:E; [|eapply D; exact H].
    destruct H as [H|[H|H]]; [discriminate| |].
    + injection H as -> ->. apply find_callback_in in E. apply E.
    + eapply IH; [|reflexivity|exact H]. subst. cbn [length]. lia.
  - destruct (Pos.eqb p nSIZE); [|eapply D; exact H]. destruct H as [H|[H|H]]; [discriminate|discriminate|].
    eapply IH; [|reflexivity|exact H]. subst. cbn [length]. lia.
Qed.

Section Main.
Variable tab : table.
Hypothesis Htab : includes_lib tab.
Variable c : list tok.
Hypothesis Hc : inert tab c.
Variable ms : list soa_member.
Hypothesis Hms : Forall (inert_member tab) ms.
Hypothesis Hlen : 1 <= length ms <= 51.

Definition sgT (n : nat) : list tok :=
  match n with 2 => c | 9 => seq_of (map member_text ms) | _ => [] end.

Lemma sgT_inert : forall n, inert tab (sgT n).
Proof.
  intros n. do 10 (destruct n as [|n]; [cbn [sgT]; try apply inert_nil; try assumption|]); [|apply inert_nil].
  apply seq_of_inert. apply Forall_map. eapply Forall_impl; [|exact Hms]. intros x. apply member_text_inert.
Qed.

Definition piece_text (x : piece) : list tok :=
  match x with
  | PText _ r => inst sgT r
  | PEach _ t => members_from 0 (text_for t c) ms
  | PSize => [numeral (length ms)]
  end.

Lemma text_piece_expands : forall f l r h1 h2 r2,
  result_is (run_closed f outer l) (r ++ [TAtom 0]) = true ->
  sim outer sgT (map bare l) h1 -> eh tab h2 r2 ->
  exists r1, map fst r1 = inst sgT r /\ eh tab (h1 ++ h2) (r1 ++ r2).
Proof.
  intros f l r h1 h2 r2 Hx S1 X2. apply result_is_ok in Hx.
  exact (run_closed_sim tab Htab f outer sgT l r h1 h2 r2 sgT_inert Hx S1 X2).
Qed.

Lemma each_piece_expands : forall M t h1 h2 r2, In (M, t) callbacks ->
  sim outer sgT (map bare [TId nFE; TLp; word M; TComma; TAtom 2; TComma; TAtom 9; TRp]) h1 -> eh tab h2 r2 ->
  exists r1, map fst r1 = members_from 0 (text_for t c) ms /\ eh tab (h1 ++ h2) (r1 ++ r2).
Proof.
  intros M t h1 h2 r2 Hin S1 X2. cbn [map] in S1. unfold bare in S1.
  apply sim_tok_inv in S1; [|reflexivity]. destruct S1 as [g1 [c1 [-> [Hg1 S1]]]].
  apply sim_tok_inv in S1; [|reflexivity]. destruct S1 as [g2 [c2 [-> [_ S1]]]].
  apply sim_tok_inv in S1; [|reflexivity]. destruct S1 as [g3 [c3 [-> [Hg3 S1]]]].
  apply sim_tok_inv in S1; [|reflexivity]. destruct S1 as [g4 [c4 [-> [_ S1]]]].
  apply sim_atom_inv in S1. destruct S1 as [sA [c5 [-> [EA S1]]]].
  apply sim_tok_inv in S1; [|reflexivity]. destruct S1 as [g6 [c6 [-> [_ S1]]]].
  apply sim_atom_inv in S1. destruct S1 as [sL [c7 [-> [EL S1]]]].
  apply sim_tok_inv in S1; [|reflexivity]. destruct S1 as [g8 [c8 [-> [_ S1]]]].
  inversion S1; subst.
  destruct (each_expands tab Htab c Hc ms Hms Hlen M t g1 g2 g4 g6 g8 g3 sA sL h2 r2 Hin) as [hr [A B]].
  - intros p Hp. destruct (Hg1 eq_refl p Hp) as [Q|Q]; [discriminate|exact Q].
  - intros p Hp. destruct (Hg3 eq_refl p Hp) as [Q|Q]; [discriminate|apply outer_hidden; exact Q].
  - exact EA.
  - exact EL.
  - exact X2.
  - exists hr. split; [exact A|]. cbn [app]. repeat (rewrite <- app_assoc; cbn [app]). exact B.
Qed.

Lemma size_piece_expands : forall h1 h2 r2,
  sim outer sgT (map bare [TId nSIZE; TLp; TAtom 9; TRp]) h1 -> eh tab h2 r2 ->
  exists r1, map fst r1 = [numeral (length ms)] /\ eh tab (h1 ++ h2) (r1 ++ r2).
Proof.
  intros h1 h2 r2 S1 X2. cbn [map] in S1. unfold bare in S1.
  apply sim_tok_inv in S1; [|reflexivity]. destruct S1 as [g1 [c1 [-> [Hg1 S1]]]].
  apply sim_tok_inv in S1; [|reflexivity]. destruct S1 as [g2 [c2 [-> [_ S1]]]].
  apply sim_atom_inv in S1. destruct S1 as [sL [c7 [-> [EL S1]]]].
  apply sim_tok_inv in S1; [|reflexivity]. destruct S1 as [g8 [c8 [-> [_ S1]]]].
  inversion S1; subst.
  destruct (size_expands_in tab Htab ms Hms Hlen g1 g2 g8 sL h2 r2) as [hr [A B]].
  - intros p Hp. destruct (Hg1 eq_refl p Hp) as [Q|Q]; [discriminate|apply outer_hidden; exact Q].
  - exact EL.
  - exact X2.
  - exists hr. split; [exact A|]. cbn [app]. rewrite <- app_assoc. exact B.
Qed.

Lemma pieces_expand : forall f xs hl,
  forallb (piece_ok f) xs = true -> (forall M t, In (PEach M t) xs -> In (M, t) callbacks) ->
  sim outer sgT (map bare (concat (map piece_source xs))) hl ->
  exists hr, map fst hr = concat (map piece_text xs) /\ eh tab hl hr.
Proof.
  intros f xs. induction xs as [|x xs IH]; intros hl Hok Hin H.
  - inversion H. exists []. split; [reflexivity|apply eh_nil].
  - cbn [map concat] in H. rewrite map_app in H. apply sim_app_inv in H. destruct H as [h1 [h2 [-> [S1 S2]]]].
    cbn [forallb] in Hok. apply andb_true_iff in Hok. destruct Hok as [Hx Hok].
    destruct (IH h2 Hok (fun M t Q => Hin M t (or_intror Q)) S2) as [r2 [E2 X2]].
    assert (G : exists r1, map fst r1 = piece_text x /\ eh tab (h1 ++ h2) (r1 ++ r2)).
    { destruct x as [l r|M t|].
      - exact (text_piece_expands f l r h1 h2 r2 Hx S1 X2).
      - exact (each_piece_expands M t h1 h2 r2 (Hin M t (or_introl eq_refl)) S1 X2).
      - exact (size_piece_expands h1 h2 r2 S1 X2). }
    destruct G as [r1 [E1 X1]]. exists (r1 ++ r2). split; [|exact X1].
    transitivity (map fst r1 ++ map fst r2); [apply map_app|]. cbn [map concat]. rewrite E1, E2. reflexivity.
Qed.

Lemma reg_lookup : PositiveMap.find nREG lib =
  Some (mkMacro (Some main_params) [TId nMAIN; TLp; word "CELL_TYPE"; TComma; word "CELL_MEMBERS"; TRp]).
Proof. apply macro_is_ok. vm_compute. reflexivity. Qed.

Lemma main_lookup : PositiveMap.find nMAIN lib = Some main_macro /\ m_params main_macro = Some main_params.
Proof.
  assert (T : match PositiveMap.find nMAIN lib with
              | Some m => match m_params m with Some ps => if list_eq_dec Pos.eq_dec ps main_params then true else false
                          | None => false end
              | None => false end = true) by (vm_compute; reflexivity).
  unfold main_macro. destruct (PositiveMap.find nMAIN lib) as [m|]; [|discriminate]. cbn [or_none].
  split; [reflexivity|]. destruct (m_params m) as [ps|]; [|discriminate].
  destruct (list_eq_dec Pos.eq_dec ps main_params) as [->|]; [reflexivity|discriminate].
Qed.

Lemma main_subst_some : subst (m_body main_macro) main_params atoms29 atoms29 [] <> None.
Proof.
  intros E. assert (T : match subst (m_body main_macro) main_params atoms29 atoms29 [] with
                        | Some _ => true | None => false end = true) by (vm_compute; reflexivity).
  rewrite E in T. discriminate.
Qed.

Lemma some_of : forall (A : Type) (o : option A), o <> None -> exists x, o = Some x.
Proof. intros A [x|] H; [exists x; reflexivity|destruct (H eq_refl)]. Qed.

Lemma list_is_ok : forall a b, list_is a b = true -> a = b.
Proof. intros a b. unfold list_is. destruct (list_eq_dec tok_eq a b); [auto|discriminate]. Qed.

Lemma register_expands : expands tab (call (TId nREG) [c; seq_of (map member_text ms)])
  (concat (map piece_text main_pieces)).
Proof.
  set (sL0 := map bare (seq_of (map member_text ms))). set (sA0 := map bare c).
  assert (ET : map fst sL0 = seq_of (map member_text ms)) by apply map_bare_fst.
  assert (EC : map fst sA0 = c) by apply map_bare_fst.
  assert (HL : inert tab (seq_of (map member_text ms))) by exact (sgT_inert 9).
  assert (Self : forall s t, inert tab t -> map fst s = t -> eh tab s s) by (intros; eapply seg_self; eassumption).
  assert (Hadd : forall H s, map fst (hs_add H s) = map fst s)
    by (intros; unfold hs_add; rewrite map_map; reflexivity).
  set (H1 := hs_union [nREG] (hs_inter [] [])).
  assert (X : exists hr, map fst hr = concat (map piece_text main_pieces) /\
    eh tab ((TId nREG, []) :: (TLp, []) :: sA0 ++ (TComma, []) :: sL0 ++ (TRp, []) :: []) hr).
  2: { destruct X as [hr [E X]]. rewrite <- E. apply expands_eh. unfold call. cbn [separated map app].
       repeat rewrite map_app. cbn [map app]. rewrite <- app_assoc. exact X. }
  (* after the first call: MAIN(class, members) *)
  set (sA := hs_add H1 sA0). set (sL := hs_add H1 sL0).
  assert (EA' : map fst sA = c) by (unfold sA; rewrite Hadd; exact EC).
  assert (EL' : map fst sL = seq_of (map member_text ms)) by (unfold sL; rewrite Hadd; exact ET).
  destruct main_lookup as [Lm Lp].
  destruct (some_of _ _ main_subst_some) as [o So].
  assert (A29 : Forall2 (sim outer sgT) atoms29 [sA; sL]).
  { constructor.
    - rewrite <- (app_nil_r sA). apply sim_atom; [exact EA'|constructor].
    - constructor; [|constructor]. rewrite <- (app_nil_r sL). apply sim_atom; [exact EL'|constructor]. }
  destruct (sim_subst outer sgT (m_body main_macro) main_params atoms29 [sA; sL] atoms29 [sA; sL] [] [] o
              (lib_no_atoms _ _ Lm) A29 A29 (sim_nil _ _) So) as [o' [So' Sim']].
  set (hM := hs_union H1 []).
  assert (Sb : sim outer sgT main_abs (hs_add (hs_union [nMAIN] (hs_inter hM hM)) o')).
  { unfold main_abs. rewrite So. cbn [or_nil]. apply sim_hs_add; [|exact Sim'].
    intros p Hp. right. rewrite hs_mem_inter in Hp. apply andb_true_iff in Hp. destruct Hp as [Hp _].
    unfold hM, H1 in Hp. rewrite !hs_mem_union, hs_mem_inter in Hp. cbn [hs_mem existsb] in Hp.
    rewrite !orb_false_r in Hp. apply Pos.eqb_eq in Hp. subst p. vm_compute. reflexivity. }
  pose proof (sim_bare _ _ _ _ Sb main_hides) as Sb2.
  pose proof (list_is_ok _ _ main_split) as Eq.
  rewrite <- Eq in Sb2.
  destruct (pieces_expand steps main_pieces _ main_ok (pieces_each _ _) Sb2) as [hr [E X]].
  exists hr. split; [exact E|].
  eapply eh_call with (args := [sA0; sL0]) (eargs := [sA0; sL0]) (h' := []) (rest := []).
  - reflexivity.
  - apply Htab. exact reg_lookup.
  - reflexivity.
  - rewrite collect_next by (rewrite EC; apply Hc). rewrite collect_last by (rewrite ET; apply HL). reflexivity.
  - reflexivity.
  - repeat constructor; [eapply Self; [exact Hc|exact EC]|eapply Self; [exact HL|exact ET]].
  - reflexivity.
  - assert (En : hs_add H1 ([bare (TId nMAIN)] ++ [bare TLp] ++ sA0 ++ [bare TComma] ++ sL0 ++ [bare TRp]) ++ [] =
            (TId nMAIN, hM) :: (TLp, hM) :: sA ++ (TComma, hM) :: sL ++ [(TRp, hM)]).
    { rewrite app_nil_r. unfold hs_add. rewrite !map_app. reflexivity. }
    assert (Goal1 : eh tab ((TId nMAIN, hM) :: (TLp, hM) :: sA ++ (TComma, hM) :: sL ++ [(TRp, hM)]) hr).
    { eapply eh_call with (args := [sA; sL]) (eargs := [sA; sL]) (h' := hM) (rest := []).
      - vm_compute. reflexivity.
      - apply Htab. exact Lm.
      - exact Lp.
      - rewrite collect_next by (rewrite EA'; apply Hc). rewrite collect_last by (rewrite EL'; apply HL). reflexivity.
      - reflexivity.
      - repeat constructor; [eapply Self; [exact Hc|exact EA']|eapply Self; [exact HL|exact EL']].
      - exact So'.
      - rewrite app_nil_r. exact X. }
    rewrite <- En in Goal1. repeat rewrite <- app_assoc in Goal1. cbn [app] in Goal1.
    repeat rewrite <- app_assoc. cbn [app]. exact Goal1.
Qed.

End Main.
