(** The expansion of LIBFLATARRAY_REGISTER_SOA compared with the text of SpecRegister.v. *)
From Coq Require Import String Ascii ZArith Bool Lia.
From Coq Require Import List.
From Verif Require Import Preproc PreprocAbs PreprocLib SpecPreproc PreprocProofs PropsPreproc SpecRegister RegisterProofs.
Import ListNotations.
Local Open Scope nat_scope.

Opaque lib lib_words.

(** ** Both texts as token lists with atoms: 2 for the class, 99 for the number
    of members, 100 + k for the texts of the callback number k. *)

Definition callback_texts : list (list tok * list tok) := map (fun x => (snd x false, snd x true)) callbacks.

Fixpoint code_of (a b : list tok) (l : list (list tok * list tok)) (k : nat) : option nat :=
  match l with
  | [] => None
  | (x, y) :: r => if list_is a x && list_is b y then Some k else code_of a b r (S k)
  end.

Definition template_code (t : template) : option nat := code_of (t false) (t true) callback_texts 0.

Definition code_atom (o : option nat) : list tok := match o with Some k => [TAtom (100 + k)] | None => [] end.
Definition coded (o : option nat) : bool := match o with Some _ => true | None => false end.

Definition flat_piece (x : piece) : list tok :=
  match x with
  | PText _ r => r
  | PEach _ t => code_atom (template_code t)
  | PSize => [TAtom 99]
  end.

Definition flat_item (x : item) : list tok :=
  match x with
  | Code s => abstracted [("THE_CLASS"%string, 2)] (tokens s)
  | Count => [TAtom 99]
  | PerMember t => code_atom (template_code t)
  end.

Definition flat_section (s : list item) : list tok := concat (map flat_item s).

(** Only the class as atom. *)
Definition class_only (l : list tok) : bool :=
  forallb (fun t => match t with TAtom 2 => true | TAtom _ => false | _ => true end) l.

Definition piece_coded (x : piece) : bool :=
  match x with
  | PText _ r => class_only r
  | PEach _ t => coded (template_code t)
  | PSize => true
  end.

Definition item_coded (x : item) : bool :=
  match x with
  | Code s => no_atoms (tokens s)
  | Count => true
  | PerMember t => coded (template_code t)
  end.

Fixpoint strip (s l : list tok) : option (list tok) :=
  match s, l with
  | [], _ => Some l
  | t :: s', u :: l' => if tok_eq t u then strip s' l' else None
  | _, [] => None
  end.

Fixpoint skip_to (s l acc : list tok) : option (list tok * list tok) :=
  match strip s l with
  | Some r => Some (rev acc, r)
  | None => match l with [] => None | t :: l' => skip_to s l' (t :: acc) end
  end.

(** The text after each section but the last, and what is left at the end. *)
Fixpoint find_gaps (secs : list (list tok)) (l : list tok) : list (list tok) :=
  match secs with
  | [] => [l]
  | s :: ss => match skip_to s l [] with
               | Some (g, r) => g :: find_gaps ss r
               | None => []
               end
  end.

Definition flat_main : list tok := concat (map flat_piece main_pieces).
Definition flat_sections : list (list tok) := map flat_section registration.

(* the first is empty: the text starts with the first section *)
Definition flat_gaps : list (list tok) := tl (find_gaps flat_sections flat_main).

Lemma gaps_facts : list_is flat_main (woven flat_sections flat_gaps) = true /\
  forallb (fun g => existsb (list_is g) (map tokens qualifiers)) flat_gaps = true /\
  length flat_gaps = length registration /\
  forallb piece_coded main_pieces = true /\ forallb (forallb item_coded) registration = true /\
  forallb no_atoms flat_gaps = true.
Proof. vm_compute. repeat split. Qed.

(** ** Instances *)

Section Instances.
Variable c : list tok.
Variable ms : list soa_member.

Definition texts (n : nat) : list tok :=
  if Nat.eqb n 2 then c else if Nat.eqb n 99 then [numeral (length ms)] else
  match nth_error callback_texts (n - 100) with
  | Some (a, b) => members_from 0 (text_for (either a b) c) ms
  | None => []
  end.

Lemma members_ext : forall f g l i, (forall j m, f j m = g j m) -> members_from i f l = members_from i g l.
Proof.
  intros f g l. induction l as [|m l IH]; intros i H; [reflexivity|]. cbn [members_from]. rewrite H, (IH (S i) H). reflexivity.
Qed.

Lemma code_of_spec : forall a b l k n, code_of a b l k = Some n -> k <= n /\ nth_error l (n - k) = Some (a, b).
Proof.
  intros a b l. induction l as [|[x y] l IH]; intros k n H; [discriminate|]. cbn [code_of] in H.
  destruct (list_is a x && list_is b y) eqn:E.
  - injection H as <-. rewrite Nat.sub_diag. apply andb_true_iff in E. destruct E as [E1 E2].
    apply list_is_ok in E1. apply list_is_ok in E2. subst. split; [lia|reflexivity].
  - apply IH in H. destruct H as [H1 H2]. split; [lia|]. replace (n - k) with (S (n - S k)) by lia. exact H2.
Qed.

Lemma texts_template : forall t k, template_code t = Some k -> inst texts [TAtom (100 + k)] = members_from 0 (text_for t c) ms.
Proof.
  intros t k H. unfold template_code in H. apply code_of_spec in H. destruct H as [_ H]. rewrite Nat.sub_0_r in H.
  unfold inst. cbn [map concat]. rewrite app_nil_r. unfold texts.
  replace (Nat.eqb (100 + k) 2) with false by (symmetry; apply Nat.eqb_neq; lia).
  replace (Nat.eqb (100 + k) 99) with false by (symmetry; apply Nat.eqb_neq; lia).
  replace (100 + k - 100) with k by lia. rewrite H. apply members_ext. intros j m. unfold text_for.
  destruct (is_array m); reflexivity.
Qed.

Lemma class_inst : forall l sg, sg 2 = c -> class_only l = true -> inst sg l = inst texts l.
Proof.
  intros l sg Hs. induction l as [|t l IH]; intros H; [reflexivity|]. cbn [class_only forallb] in H.
  apply andb_true_iff in H. destruct H as [Ht H]. destruct t; cbn [inst]; rewrite IH by exact H; try reflexivity.
  destruct n as [|[|[|n]]]; try discriminate. rewrite Hs. reflexivity.
Qed.

Lemma flat_piece_text : forall x, piece_coded x = true -> inst texts (flat_piece x) = piece_text c ms x.
Proof.
  intros [l r|M t|] H; cbn [piece_coded flat_piece piece_text] in *.
  - symmetry. apply class_inst; [reflexivity|exact H].
  - destruct (template_code t) as [k|] eqn:E; [|discriminate]. apply texts_template. exact E.
  - reflexivity.
Qed.

Lemma flat_item_text : forall x, item_coded x = true -> inst texts (flat_item x) = render_item c ms x.
Proof.
  intros [s| |t] H; cbn [item_coded flat_item render_item] in *.
  - symmetry. apply (fill_inst [("THE_CLASS"%string, 2)] texts). exact H.
  - reflexivity.
  - destruct (template_code t) as [k|] eqn:E; [|discriminate]. apply texts_template. exact E.
Qed.

Lemma inst_concat : forall (A : Type) sg (f g : A -> list tok) (ok : A -> bool) l,
  (forall x, ok x = true -> inst sg (f x) = g x) -> forallb ok l = true ->
  inst sg (concat (map f l)) = concat (map g l).
Proof.
  intros A sg f g ok l H. induction l as [|x l IH]; intros Hl; [reflexivity|]. cbn [forallb] in Hl.
  apply andb_true_iff in Hl. destruct Hl as [Hx Hl]. cbn [map concat]. rewrite inst_app, H, IH by assumption. reflexivity.
Qed.

Lemma inst_woven : forall sg ss gs, inst sg (woven ss gs) = woven (map (inst sg) ss) (map (inst sg) gs).
Proof.
  intros sg ss. induction ss as [|s ss IH]; intros [|g gs]; try reflexivity.
  cbn [woven map]. rewrite !inst_app, IH. reflexivity.
Qed.

End Instances.

Lemma flat_main_eq : concat (map flat_piece main_pieces) = flat_main.
Proof. reflexivity. Qed.

Lemma flat_sections_eq : flat_sections = map flat_section registration.
Proof. reflexivity. Qed.

Opaque flat_main flat_sections flat_gaps main_pieces registration callback_texts.

Theorem registration_text : exists gaps, length gaps = length registration /\ only_qualifiers gaps /\
  forall tab c ms, includes_lib tab -> inert tab c -> Forall (inert_member tab) ms -> 1 <= length ms <= 51 ->
  expands tab (call (TId nREG) [c; seq_of (map member_text ms)]) (woven (map (render c ms) registration) gaps).
Proof.
  destruct gaps_facts as [F1 [F2 [F3 [F4 [F5 F6]]]]]. exists flat_gaps.
  split; [exact F3|]. split.
  { apply Forall_forall. intros g Hg. pose proof (proj1 (forallb_forall _ _) F2 g Hg) as H. cbv beta in H.
    apply existsb_exists in H. destruct H as [x [Hx E]]. apply list_is_ok in E. subst g. exact Hx. }
  intros tab c ms Htab Hc Hms Hlen.
  pose proof (register_expands tab Htab c Hc ms Hms Hlen) as X.
  assert (A : map (render c ms) registration = map (inst (texts c ms)) flat_sections).
  { rewrite flat_sections_eq, map_map. apply map_ext_in. intros s Hs.
    pose proof (proj1 (forallb_forall _ _) F5 s Hs) as Hok. unfold render, flat_section. symmetry.
    apply inst_concat with (ok := item_coded); [apply flat_item_text|exact Hok]. }
  assert (B : flat_gaps = map (inst (texts c ms)) flat_gaps).
  { rewrite <- (map_id flat_gaps) at 1. apply map_ext_in. intros g Hg. symmetry. apply plain_inst.
    exact (proj1 (forallb_forall _ _) F6 g Hg). }
  rewrite A, B, <- inst_woven, <- (list_is_ok _ _ F1), <- flat_main_eq.
  rewrite (inst_concat piece (texts c ms) flat_piece (piece_text c ms) piece_coded main_pieces (flat_piece_text c ms) F4).
  exact X.
Qed.
