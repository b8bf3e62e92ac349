(** Proofs for C73, continued: the statements about one member, and all members. *)
From Coq Require Import String Ascii ZArith Bool Lia.
From Coq Require Import List.
From Verif Require Import Base Layout Mem Accessor AccessorProofs.
From Verif Require Import Preproc PreprocAbs PreprocLib SpecPreproc PreprocProofs SpecRegister RegisterProofs RegisterValues.
From Verif Require Import PropsRegister SpecBulk BulkProofs.
Import ListNotations.
Local Open Scope Z_scope.

Opaque lib lib_words.

(** ** The class scope and what statements add to it *)

Lemma agrees_refl : forall E, agrees E E.
Proof. intros E. repeat split. Qed.

Lemma agrees_var : forall E F x v, agrees E F -> In x (map spell local_names) -> agrees E (with_var F x v).
Proof.
  intros E F x v [H1 [H2 [H3 H4]]] Hx. repeat split; try assumption. intros y Hy. cbn [with_var e_var].
  destruct (Pos.eqb_spec y x) as [->|]; [contradiction|]. apply H4. exact Hy.
Qed.

Lemma agrees_vars : forall E l, (forall x, In x (map fst l) -> In x local_names) -> agrees E (with_vars E l).
Proof.
  intros E l. induction l as [|[x v] l IH]; intros H; [apply agrees_refl|]. cbn [with_vars]. apply agrees_var.
  - apply IH. intros y Hy. apply H. right. exact Hy.
  - apply in_map, H. left. reflexivity.
Qed.

Lemma var_here : forall E x v, var_is (with_var E (spell x) v) x v.
Proof. intros E x v. unfold var_is. cbn [with_var e_var]. rewrite Pos.eqb_refl. reflexivity. Qed.

Lemma var_beside : forall E x y v w, Pos.eqb (spell x) y = false -> var_is E x v -> var_is (with_var E y w) x v.
Proof. intros E x y v w N H. unfold var_is in *. cbn [with_var e_var]. rewrite N. exact H. Qed.

Ltac not_local := vm_compute; intuition discriminate.

Lemma var_agrees : forall E F x v, agrees E F -> ~ In (spell x) (map spell local_names) -> var_is E x v -> var_is F x v.
Proof. intros E F x v [_ [_ [_ H]]] N V. unfold var_is in *. rewrite H by exact N. exact V. Qed.

Lemma state_agrees : forall E F index D a, agrees E F -> accessor_state E index D a -> accessor_state F index D a.
Proof.
  intros E F index D a HA [H1 [H2 [H3 H4]]].
  repeat split; try (eapply var_agrees; [exact HA|not_local|assumption]).
  destruct H3 as [[-> H]|[-> H]]; [left|right]; (split; [reflexivity|]).
  - apply (var_agrees E F "my_index" _ HA); [not_local|exact H].
  - destruct HA as [_ [-> _]]. exact H.
Qed.

Lemma usable_occupies : forall E F types m lm, agrees E F -> usable E types m lm -> occupies F m (m_size lm, layout_count lm).
Proof.
  intros E F types m lm HA [_ [_ [_ [_ [Hs Ha]]]]]. split; cbn [fst snd].
  - destruct HA as [-> _]. symmetry. exact Hs.
  - unfold layout_count. destruct (sm_arity m), (m_array lm); try contradiction; [apply Ha; exact HA|reflexivity].
Qed.

Lemma usable_described : forall E types m lm, usable E types m lm -> described E m lm.
Proof.
  intros E types m lm [_ [_ [_ [_ [Hs Ha]]]]]. split; [symmetry; exact Hs|].
  destruct (sm_arity m), (m_array lm); try contradiction; [apply Ha, agrees_refl|exact I].
Qed.

(** ** The member functions *)

Definition calls_in (types : list tok -> option ty) (o : object) (x : spelling) (arg : option Z) (v : value) : Prop :=
  exists f0, forall f, (f0 <= f)%nat -> called f types o x arg = Some v.

Lemma functions_name : forall index c ms i x, In x (map d_name (functions_from index c i ms)) <-> In x (map name_of ms).
Proof. intros index c ms. induction ms as [|m ms IH]; intros i x; [reflexivity|]. cbn. rewrite IH. reflexivity. Qed.

Lemma functions_lookup : forall index c ms k i m, NoDup (map name_of ms) -> nth_error ms i = Some m ->
  member_named (functions_from index c k ms) (name_of m) = Some (function_of index c (k + i) m).
Proof.
  intros index c ms. induction ms as [|m0 ms IH]; intros k [|i] m N H; try discriminate; inversion N as [|? ? N1 N2]; subst.
  - injection H as ->. cbn [functions_from member_named function_of d_name]. rewrite Pos.eqb_refl, Nat.add_0_r. reflexivity.
  - cbn [nth_error] in H. cbn [functions_from member_named function_of d_name].
    destruct (Pos.eqb_spec (name_of m) (name_of m0)) as [E|_].
    + exfalso. apply N1. rewrite <- E. apply in_map. eapply nth_error_In. exact H.
    + rewrite (IH (S k) i m N2 H). replace (S k + i)%nat with (k + S i)%nat by lia. reflexivity.
Qed.

Definition elem_ty (lm : Layout.member) : ty := mkTy (m_size lm) (m_class lm) (m_default lm).

(** [lm], with the offset [o], describes member [i] of the class. *)
Definition member_at (E : cenv) (types : list tok -> option ty) (c : list tok) (ms : list soa_member)
    (i : nat) (m : soa_member) (o : Z) (lm : Layout.member) : Prop :=
  nth_error ms i = Some m /\ usable E types m lm /\ e_offset E c (Z.of_nat i) = Some o /\ (i < 64)%nat.

Section Calls.
Variables (E : cenv) (types : list tok -> option ty) (c : list tok) (ms : list soa_member).
Variables (index : string) (d : ptr) (a : accessor).
Hypothesis Hc : balanced c.
Hypothesis Hn : NoDup (map name_of ms).
Hypothesis Ha : accessor_state E index (po d) a.

Lemma address_called : forall i m o lm k, member_at E types c ms i m o lm ->
  exists f0, forall f, (f0 <= f)%nat ->
    bind (ev (with_var E (spell "ARRAY_INDEX") k) f Sum (text_for (address_text index) c i m)) (fun v =>
      match snd v with [] => Some (mkPtr (pb d) (fst v)) | _ => None end) = Some (eptr d a o lm k).
Proof.
  intros i m o lm k [Hm [Hu [Ho Hi]]].
  assert (HA : agrees E (with_var E (spell "ARRAY_INDEX") k)) by (apply agrees_var; [apply agrees_refl|vm_compute; auto 10]).
  destruct (state_agrees _ _ _ _ _ HA Ha) as [H1 [H2 [H3 H4]]].
  assert (Ho' : e_offset (with_var E (spell "ARRAY_INDEX") k) c (Z.of_nat i) = Some o) by exact Ho.
  assert (Bt : balanced (sm_type m)) by (destruct Hu as [_ [[B _] _]]; exact B).
  destruct (address_value _ c Hc i m _ _ o index _ _ _ _ k Bt (usable_occupies _ _ _ _ _ HA Hu) Ho' Hi H1 H2 H3 H4 (var_here _ _ _)) as [f0 V].
  exists f0. intros f L. rewrite (ev_le _ _ _ _ _ _ V L). cbn [bind fst snd]. f_equal.
  apply ptr_eq; [reflexivity|]. unfold eptr. cbn [padd po].
  destruct Hu as [_ [_ [_ [_ [_ Hx]]]]]. destruct (sm_arity m), (m_array lm); try contradiction; lia.
Qed.

Lemma member_called : forall i m o lm, member_at E types c ms i m o lm ->
  match sm_arity m with
  | None => calls_in types (accessor_object E index d c ms) (name_of m) None (Element (eptr d a o lm 0) (elem_ty lm))
  | Some _ =>
    (forall k, calls_in types (accessor_object E index d c ms) (name_of m) (Some k) (Element (eptr d a o lm k) (elem_ty lm))) /\
    calls_in types (accessor_object E index d c ms) (name_of m) None
      (Reference (eptr d a o lm 0) (elem_ty lm) (DIM_PROD (a_ext a)))
  end.
Proof.
  intros i m o lm M. pose proof M as [Hm [Hu _]].
  assert (L : member_named (o_decls (accessor_object E index d c ms)) (name_of m) = Some (function_of index c i m))
    by (apply (functions_lookup index c ms 0 i m Hn Hm)).
  assert (Ht : types (sm_type m) = Some (elem_ty lm)) by (apply Hu).
  destruct (sm_arity m) eqn:Em.
  - split.
    + intros k. destruct (address_called i m o lm k M) as [f0 H]. exists f0. intros f Lf. unfold called. rewrite L.
      cbn [bind function_of d_type d_array d_address]. rewrite Ht. cbn [bind]. unfold is_array. rewrite Em.
      cbn [o_env o_block accessor_object]. rewrite H by exact Lf. reflexivity.
    + destruct (address_called i m o lm 0 M) as [f0 H]. exists f0. intros f Lf. unfold called. rewrite L.
      cbn [bind function_of d_type d_array d_address]. rewrite Ht. cbn [bind]. unfold is_array. rewrite Em.
      cbn [o_env o_block accessor_object]. rewrite H by exact Lf. cbn [bind].
      destruct Ha as [_ [HP _]]. unfold var_is in HP. rewrite HP. reflexivity.
  - destruct (address_called i m o lm 0 M) as [f0 H]. exists f0. intros f Lf. unfold called. rewrite L.
    cbn [bind function_of d_type d_array d_address]. rewrite Ht. cbn [bind]. unfold is_array. rewrite Em.
    cbn [o_env o_block accessor_object]. rewrite H by exact Lf. reflexivity.
Qed.

End Calls.

(** ** The replaced words *)

Lemma numeral_quiet : forall i, balanced [numeral i] /\ no_statement [numeral i].
Proof. intros i. split; [reflexivity|]. constructor; [repeat split; reflexivity|constructor]. Qed.

Lemma sigma_skips : forall E types c i m lm, type_like c -> usable E types m lm ->
  forall stop n, stops stop -> skips stop (sigma i c m n).
Proof.
  intros E types c i m lm [Bc [Qc _]] [[p [Ep _]] [[Bt [Qt _]] [_ [_ [_ Ha]]]]] stop n S. apply quiet_skips; [exact S| |].
  - destruct n as [|[|[|[|[|[|n]]]]]]; cbn [sigma]; try reflexivity; try assumption.
    + rewrite Ep. reflexivity.
    + destruct (sm_arity m), (m_array lm); try contradiction; [apply Ha|reflexivity].
  - destruct n as [|[|[|[|[|[|n]]]]]]; cbn [sigma]; try constructor; try assumption; try (repeat split; reflexivity); try constructor.
    + rewrite Ep. constructor; [repeat split; reflexivity|constructor].
    + destruct (sm_arity m), (m_array lm); try contradiction; [apply Ha|constructor].
Qed.

(** ** Steps *)

Lemma pointer_none : forall types l t, punct "*" t = false -> pointer_type types (l ++ [t]) = None.
Proof. intros types l t H. unfold pointer_type. rewrite butlast_snoc. cbn [bind snd]. rewrite H. reflexivity. Qed.

Lemma pointer_none_inst : forall types sg l x t, l = x ++ [t] -> is_atom t = false -> punct "*" t = false ->
  pointer_type types (inst sg l) = None.
Proof.
  intros types sg l x t -> A H. rewrite inst_app, inst_nonatom by exact A. cbn [inst]. apply pointer_none. exact H.
Qed.

Lemma declared_none : forall s sg l x t, l = x ++ [t] -> (t = TRp \/ t = TPunct "]") -> declared s (inst sg l) = None.
Proof.
  intros s sg l x t -> H. rewrite inst_app, inst_nonatom by (destruct H as [-> | ->]; reflexivity). unfold declared. cbn [inst].
  rewrite butlast_snoc. cbn [bind snd]. destruct H as [-> | ->]; reflexivity.
Qed.

Notation A x := (abstracted names (tokens x)).

Section Steps.
Variables (E : cenv) (types : list tok -> option ty) (c : list tok) (ms : list soa_member).
Variables (index : string) (d : ptr) (a : accessor).
Hypothesis Tc : type_like c.
Hypothesis Hn : NoDup (map name_of ms).
Hypothesis Ha : accessor_state E index (po d) a.

(** A scope in a member function of the accessor. *)
Definition inside (s : scope) : Prop :=
  s_type s = types /\ s_this s = accessor_object E index d c ms /\ agrees E (s_env s).

Lemma inside_int : forall s x v, inside s -> In x (map spell local_names) -> inside (with_int s x v).
Proof. intros s x v [H1 [H2 H3]] Hx. repeat split; try assumption; apply (agrees_var E (s_env s) x v H3 Hx). Qed.

Lemma inside_pointer : forall s x v, inside s -> inside (with_pointer s x v).
Proof. intros s x v H. exact H. Qed.

Section Member.
Variables (i : nat) (m : soa_member) (o : Z) (lm : Layout.member).
Hypothesis M : member_at E types c ms i m o lm.

Let sg := sigma i c m.

Lemma sg_skips : forall stop n, stops stop -> skips stop (sg n).
Proof. destruct M as [_ [Hu _]]. apply (sigma_skips E types c i m lm Tc Hu). Qed.

Lemma sg_name : sg 4%nat = [TId (name_of m)].
Proof. destruct M as [_ [[[p [Ep _]] _] _]]. unfold sg. cbn [sigma]. unfold name_of. rewrite Ep. reflexivity. Qed.

Lemma name_not : forall x, In x ["this"; "for"]%string -> Pos.eqb (name_of m) (spell x) = false.
Proof.
  intros x Hx. destruct M as [_ [[[p [Ep N]] _] _]]. unfold name_of. rewrite Ep. apply Pos.eqb_neq. intros ->. apply N.
  apply in_map. exact Hx.
Qed.

Lemma sg_type : forall s, inside s -> s_type s (sg 3%nat) = Some (elem_ty lm).
Proof. intros s [-> _]. destruct M as [_ [Hu _]]. apply Hu. Qed.

Lemma pT_up : forall s l v, no_amp l -> pT s sg PPrimary l v -> pT s sg PSum l v.
Proof.
  intros s l v N H. apply pT_sum; [exact sg_skips|]. apply pT_unary; [exact sg_skips|exact N|].
  apply pT_postfix; [exact sg_skips|]. exact H.
Qed.

Lemma pT_up_postfix : forall s l v, no_amp l -> pT s sg PPostfix l v -> pT s sg PSum l v.
Proof. intros s l v N H. apply pT_sum; [exact sg_skips|]. apply pT_unary; [exact sg_skips|exact N|]. exact H. Qed.

(** this->NAME() *)
Lemma pT_this_name : forall s v, inside s -> calls_in types (accessor_object E index d c ms) (name_of m) None v ->
  pT s sg PPrimary (A "this->THE_NAME()") v.
Proof.
  intros s v [Hs [Ht _]] H. eapply (pT_this s sg sg_skips); [closed|exact sg_name|]. unfold calls. rewrite Hs, Ht. exact H.
Qed.

(** &(…) *)
Lemma pT_amp_paren : forall s l x a0 p t, l = TPunct "&" :: TLp :: x -> scan is_rp x 0 = Some (a0, []) ->
  pointer_type (s_type s) (inst sg a0) = None -> pT s sg PSum a0 (Element p t) -> pT s sg PUnary l (Pointer p (Some t)).
Proof.
  intros s l x a0 p t -> Sc N H. eapply (pT_amp s sg sg_skips); [reflexivity|]. apply (pT_unary s sg sg_skips); [split; reflexivity|].
  apply (pT_postfix s sg sg_skips). eapply (pT_paren s sg sg_skips); [reflexivity|exact Sc|exact N|exact H].
Qed.

Lemma text_inst : forall t b, is_array m = b -> no_atoms (t b) = true -> text_for t c i m = inst sg (abstracted names (t b)).
Proof. intros t b Hb N. unfold text_for. rewrite Hb. apply about_inst. exact N. Qed.

(** Functions with the parameters buffer, count, offset, stride. *)
Definition transfers (s : scope) (buffer : string) (B : ptr) (count off stride : Z) : Prop :=
  inside s /\ assoc (s_pointers s) (spell buffer) = Some (B, None) /\
  var_is (s_env s) "count" count /\ var_is (s_env s) "offset" off /\ var_is (s_env s) "stride" stride.

Lemma transfers_i : forall s buffer B count off stride k, transfers s buffer B count off stride ->
  transfers (with_int s (spell "i") k) buffer B count off stride.
Proof.
  intros s buffer B count off stride k [H1 [H2 [H3 [H4 H5]]]]. split; [apply inside_int; [exact H1|vm_compute; auto]|].
  split; [exact H2|]. repeat split; apply var_beside; try closed; assumption.
Qed.

Lemma pT_linear : forall s buffer B count off stride, buffer = "source"%string \/ buffer = "target"%string ->
  transfers s buffer B count off stride -> pT s sg PSum (A (linear_text buffer)) (Pointer (padd B (o * stride)) None).
Proof.
  intros s buffer B count off stride Hb [[_ [_ HA]] [HB [_ [_ Hst]]]].
  eapply (pT_plus s sg sg_skips _ [word buffer] (([word "detail"] ++ tokens "::" ++ word "flat_array" :: tokens "::" ++
    word "offset" :: TPunct "<" :: [TAtom 2] ++ TComma :: [TAtom 1] ++ tokens ">::OFFSET") ++ TPunct "*" :: [word "stride"])).
  - destruct Hb as [-> | ->]; closed.
  - apply (pT_unary s sg sg_skips); [destruct Hb as [-> | ->]; split; reflexivity|]. apply (pT_postfix s sg sg_skips).
    apply (pT_pointer s sg _ buffer B None); [reflexivity|destruct Hb as [-> | ->]; closed|exact HB].
  - apply eT_times2; [|apply eT_var; [closed|exact Hst]]. destruct M as [_ [_ [Ho Hi]]].
    eapply (eT_full_offset (s_env s) sg 2 [TAtom 1] (Z.of_nat i)).
    + exact (proj1 Tc).
    + apply eT_one, eT_atom, eats_numeral. exact Hi.
    + destruct HA as [_ [_ [-> _]]]. exact Ho.
  - reflexivity.
Qed.

(** (const T* )(buffer + …) *)
Lemma pT_linear_cast : forall (const : bool) s buffer B count off stride, buffer = "source"%string \/ buffer = "target"%string ->
  transfers s buffer B count off stride ->
  pT s sg PPostfix (A ((if const then "(const THE_TYPE*)(" else "(THE_TYPE*)(") ++ linear_text buffer ++ ")")%string)
    (Pointer (padd B (o * stride)) (Some (elem_ty lm))).
Proof.
  intros const s buffer B count off stride Hb Ht.
  apply (pT_cast s sg sg_skips _ (A ((if const then "const THE_TYPE*)(" else "THE_TYPE*)(") ++ linear_text buffer ++ ")")%string)
    (A (if const then "const THE_TYPE*" else "THE_TYPE*")%string) (A ("(" ++ linear_text buffer ++ ")")%string)
    (elem_ty lm) (Pointer (padd B (o * stride)) None)).
  - destruct const, Hb as [-> | ->]; closed.
  - destruct const, Hb as [-> | ->]; closed.
  - destruct Ht as [Hs _]. destruct const.
    + replace (A "const THE_TYPE*") with ((word "const" :: [TAtom 3]) ++ [TPunct "*"]) by closed. rewrite inst_app.
      change (inst sg [TPunct "*"]) with [TPunct "*"]. unfold pointer_type. rewrite butlast_snoc. cbn [bind fst snd].
      rewrite inst_nonatom by reflexivity. unfold word. change (punct "*" (TPunct "*")) with true. rewrite Pos.eqb_refl.
      cbn [inst]. rewrite app_nil_r. exact (sg_type s Hs).
    + replace (A "THE_TYPE*") with ([TAtom 3] ++ [TPunct "*"]) by closed. rewrite inst_app.
      change (inst sg [TPunct "*"]) with [TPunct "*"]. unfold pointer_type. rewrite butlast_snoc. cbn [bind fst snd].
      change (punct "*" (TPunct "*")) with true. cbn [inst]. rewrite app_nil_r.
      assert (Q : match sg 3%nat with TId p :: r => if Pos.eqb p (spell "const") then r else sg 3%nat | _ => sg 3%nat end = sg 3%nat).
      { destruct M as [_ [[_ [_ [O _]]] _]]. unfold sg. cbn [sigma]. destruct (sm_type m) as [|t x]; [reflexivity|].
        destruct t; try reflexivity. destruct (Pos.eqb_spec p (spell "const")) as [->|]; [|reflexivity].
        exfalso. apply O. vm_compute. auto. }
      rewrite Q. exact (sg_type s Hs).
  - apply (pT_unary s sg sg_skips); [destruct Hb as [-> | ->]; split; reflexivity|]. apply (pT_postfix s sg sg_skips).
    apply (pT_paren s sg sg_skips _ (A (linear_text buffer ++ ")")%string) (A (linear_text buffer))).
    + destruct Hb as [-> | ->]; closed.
    + destruct Hb as [-> | ->]; closed.
    + eapply (pointer_none_inst _ sg _ (A (buffer ++ " + detail::flat_array::offset<THE_CLASS, THE_INDEX>::OFFSET *")%string) (word "stride"));
        [destruct Hb as [-> | ->]; closed|reflexivity|reflexivity].
    + eapply pT_linear; eassumption.
  - reflexivity.
Qed.

(** Functions with another accessor and a count. *)
Definition beside (s : scope) (E' : cenv) (index' : string) (d' : ptr) (count : Z) : Prop :=
  inside s /\ assoc (s_pointers s) (spell "other") = None /\
  assoc (s_objects s) (spell "other") = Some (accessor_object E' index' d' c ms) /\ var_is (s_env s) "count" count.

Lemma beside_i : forall s E' index' d' count k, beside s E' index' d' count -> beside (with_int s (spell "i") k) E' index' d' count.
Proof.
  intros s E' index' d' count k [H1 [H2 [H3 H4]]]. split; [apply inside_int; [exact H1|vm_compute; auto]|].
  split; [exact H2|]. split; [exact H3|]. apply var_beside; [closed|exact H4].
Qed.

Lemma pT_other_name : forall s E' index' d' count v, beside s E' index' d' count ->
  calls_in types (accessor_object E' index' d' c ms) (name_of m) None v ->
  pT s sg PPrimary (A "other.THE_NAME()") v.
Proof.
  intros s E' index' d' count v [[Hs _] [H1 [H2 _]]] H.
  eapply (pT_object s sg sg_skips _ "other"); [closed|exact sg_name|closed|exact H1|exact H2|]. unfold calls. rewrite Hs. exact H.
Qed.

(** Functions with a cell. *)
Definition with_cell (s : scope) : Prop :=
  inside s /\ s_pointers s = [] /\ s_objects s = [] /\ s_cell s = Some (spell "cell").

Lemma declared_member : forall s, inside s -> member_named (o_decls (s_this s)) (name_of m) = Some (function_of index c i m).
Proof. intros s [_ [-> _]]. destruct M as [Hm _]. apply (functions_lookup index c ms 0 i m Hn Hm). Qed.

Lemma unqualified_name : forall s, with_cell s -> name_of m <> spell "cell" -> unqualified s (name_of m).
Proof.
  intros s [_ [H1 [H2 H3]]] N. unfold unqualified. rewrite H1, H2, H3. repeat split; [apply name_not; left; reflexivity|].
  apply Pos.eqb_neq. exact N.
Qed.

Section Scalar.
Hypothesis Sc : sm_arity m = None.

Lemma scalar : is_array m = false.
Proof. unfold is_array. rewrite Sc. reflexivity. Qed.

Lemma scalar_layout : m_array lm = None.
Proof.
  destruct M as [_ [[_ [_ [_ [_ [_ Hx]]]]] _]]. rewrite Sc in Hx. destruct (m_array lm); [contradiction|reflexivity].
Qed.

Lemma scalar_call : calls_in types (accessor_object E index d c ms) (name_of m) None (Element (eptr d a o lm 0) (elem_ty lm)).
Proof. pose proof (member_called E types c ms index d a (proj1 Tc) Hn Ha i m o lm M) as H. rewrite Sc in H. exact H. Qed.

Lemma pT_instance : forall s, inside s -> pT s sg PSum (A "&(this->THE_NAME())") (Pointer (eptr d a o lm 0) (Some (elem_ty lm))).
Proof.
  intros s Hs. apply (pT_sum s sg sg_skips). eapply pT_amp_paren.
  - closed.
  - closed.
  - eapply (pointer_none_inst _ sg _ (A "this->THE_NAME(") TRp); [closed|reflexivity|reflexivity].
  - apply pT_up; [split; reflexivity|]. exact (pT_this_name s _ Hs scalar_call).
Qed.

Lemma simple_start_type : forall l r, l = TAtom 3 :: r -> simple_start (inst sg l).
Proof.
  intros l r ->. cbn [inst]. destruct M as [_ [[_ [[_ [Q _]] [O _]]] _]]. unfold sg. cbn [sigma].
  destruct (sm_type m) as [|t x]; [contradiction|]. cbn [app simple_start]. inversion Q as [|? ? Ht]; subst. repeat split; try apply Ht.
  intros ->. apply O. vm_compute. auto.
Qed.

Lemma declared_instance : forall s, inside s -> declared s (inst sg (A "THE_TYPE *instance")) = Some (spell "instance", elem_ty lm).
Proof.
  intros s Hs. replace (A "THE_TYPE *instance") with (([TAtom 3] ++ [TPunct "*"]) ++ [word "instance"]) by closed.
  rewrite inst_app, inst_app. change (inst sg [word "instance"]) with [word "instance"]. change (inst sg [TPunct "*"]) with [TPunct "*"].
  unfold declared. rewrite butlast_snoc. cbn [bind fst snd word]. rewrite butlast_snoc. cbn [bind fst snd].
  cbn [inst]. rewrite app_nil_r, (sg_type s Hs). reflexivity.
Qed.

Lemma step_construct_scalar : forall s, inside s -> step c s (text_for construct_text c i m)
  [Do (Construct (eptr d a o lm 0) (m_size lm) (m_class lm) (m_default lm))].
Proof.
  intros s Hs. rewrite (text_inst construct_text false scalar) by closed. eapply (step_block c sg sg_skips); [closed|closed|].
  apply (runs_simple c sg sg_skips s _ (A "THE_TYPE *instance = &(this->THE_NAME())") (A "new (instance) THE_TYPE();") []
    (with_pointer s (spell "instance") (eptr d a o lm 0, Some (elem_ty lm)))).
  - eapply simple_start_type. closed.
  - closed.
  - eapply (sT_declare c sg sg_skips); [closed|apply declared_instance; exact Hs|apply pT_instance; exact Hs].
  - apply (step_alone c). eapply (step_simple c sg sg_skips).
    + vm_compute. repeat split; discriminate.
    + closed.
    + eapply (sT_new c sg sg_skips _ _ _ _ [TAtom 3] (eptr d a o lm 0) (elem_ty lm)); [closed|closed|closed| |].
      * apply pT_up; [split; reflexivity|]. eapply (pT_pointer _ sg _ "instance"); [closed|closed|reflexivity].
      * cbn [inst]. rewrite app_nil_r. apply sg_type. exact Hs.
Qed.


Lemma step_destroy_scalar : forall s, inside s -> step c s (text_for destroy_text c i m)
  [Do (Destroy (eptr d a o lm 0) (m_size lm) (m_class lm))].
Proof.
  intros s Hs. rewrite (text_inst destroy_text false scalar) by closed. eapply (step_block c sg sg_skips); [closed|closed|].
  apply (runs_simple c sg sg_skips s _ (A "THE_TYPE *instance = &(this->THE_NAME())") (A "detail::flat_array::generic_destruct(instance);") []
    (with_pointer s (spell "instance") (eptr d a o lm 0, Some (elem_ty lm)))).
  - eapply simple_start_type. closed.
  - closed.
  - eapply (sT_declare c sg sg_skips); [closed|apply declared_instance; exact Hs|apply pT_instance; exact Hs].
  - apply (step_alone c). eapply (step_simple c sg sg_skips).
    + vm_compute. repeat split; discriminate.
    + closed.
    + apply (sT_destroy c sg sg_skips _ _ [word "instance"] (eptr d a o lm 0) (elem_ty lm)); [closed|closed|].
      apply pT_up; [split; reflexivity|]. eapply (pT_pointer _ sg _ "instance"); [closed|closed|reflexivity].
Qed.

Lemma pT_each : forall s k, inside s -> var_is (s_env s) "i" k ->
  pT s sg PPostfix (A "(&this->THE_NAME())[i]") (Element (padd (eptr d a o lm 0) (k * m_size lm)) (elem_ty lm)).
Proof.
  intros s k Hs Hi.
  apply (pT_subscript s sg sg_skips _ (A "(&this->THE_NAME())") [word "i"] (Pointer (eptr d a o lm 0) (Some (elem_ty lm))) k).
  - closed.
  - eapply (pT_paren s sg sg_skips); [closed|closed| |].
    + eapply (pointer_none_inst _ sg _ (A "&this->THE_NAME(") TRp); [closed|reflexivity|reflexivity].
    + apply (pT_sum s sg sg_skips). eapply (pT_amp s sg sg_skips); [closed|].
      apply (pT_unary s sg sg_skips); [split; reflexivity|]. apply (pT_postfix s sg sg_skips).
      exact (pT_this_name s _ Hs scalar_call).
  - apply eT_one, eT_var; [closed|exact Hi].
  - reflexivity.
Qed.

Lemma pT_linear_each : forall (const : bool) s buffer B count off stride k, buffer = "source"%string \/ buffer = "target"%string ->
  transfers s buffer B count off stride -> var_is (s_env s) "i" k ->
  pT s sg PPostfix (A ((if const then "((const THE_TYPE*)(" else "((THE_TYPE*)(") ++ linear_text buffer ++ "))[offset + i]")%string)
    (Element (padd (padd B (o * stride)) ((off + k) * m_size lm)) (elem_ty lm)).
Proof.
  intros const s buffer B count off stride k Hb Ht Hi.
  apply (pT_subscript s sg sg_skips _ (A ((if const then "((const THE_TYPE*)(" else "((THE_TYPE*)(") ++ linear_text buffer ++ "))")%string)
    ([word "offset"] ++ TPunct "+" :: [word "i"]) (Pointer (padd B (o * stride)) (Some (elem_ty lm))) (off + k)).
  - destruct const, Hb as [-> | ->]; closed.
  - apply (pT_paren s sg sg_skips _ (A ((if const then "(const THE_TYPE*)(" else "(THE_TYPE*)(") ++ linear_text buffer ++ "))")%string)
      (A ((if const then "(const THE_TYPE*)(" else "(THE_TYPE*)(") ++ linear_text buffer ++ ")")%string)).
    + destruct const, Hb as [-> | ->]; closed.
    + destruct const, Hb as [-> | ->]; closed.
    + eapply (pointer_none_inst _ sg _ (A ((if const then "(const THE_TYPE*)(" else "(THE_TYPE*)(") ++ linear_text buffer)%string) TRp);
        [destruct const, Hb as [-> | ->]; closed|reflexivity|reflexivity].
    + apply pT_up_postfix; [destruct const, Hb as [-> | ->]; split; reflexivity|]. eapply pT_linear_cast; eassumption.
  - destruct Ht as [_ [_ [_ [Ho _]]]]. apply eT_plus; [apply eT_factor, eT_var; [closed|exact Ho]|].
    apply eT_one, eT_var; [closed|exact Hi].
  - reflexivity.
Qed.

Lemma counts_count : forall s count, var_is (s_env s) "count" count ->
  counts sg s (A "std::size_t i = 0; i < count; ++i") (spell "i") count.
Proof.
  intros s count H. eapply (counts_spec sg s _ true "i" [word "count"]); [closed|]. intros k.
  apply eT_one, eT_var; [closed|]. apply var_beside; [closed|exact H].
Qed.

Lemma var_with_int : forall s x k, var_is (s_env (with_int s (spell x) k)) x k.
Proof. intros s x k. apply var_here. Qed.

Lemma step_load_scalar : forall s B count off stride, transfers s "source" B count off stride ->
  step c s (text_for load_text c i m)
    (map (fun k => Do (Copy (padd (eptr d a o lm 0) (k * m_size lm)) (padd (padd B (o * stride)) ((off + k) * m_size lm))
                     (m_size lm) (m_class lm))) (zseq count)).
Proof.
  intros s B count off stride Ht. rewrite (text_inst load_text false scalar) by closed. rewrite <- flat_map_single.
  eapply (step_block c sg sg_skips); [closed|closed|]. apply (step_alone c).
  eapply (step_for c sg sg_skips s _ _ (A "std::size_t i = 0; i < count; ++i")); [closed|closed|closed|apply counts_count; apply Ht|].
  intros k _. pose proof (transfers_i s _ _ _ _ _ k Ht) as Ht'. apply (step_alone c). eapply (step_simple c sg sg_skips).
  - vm_compute. repeat split; discriminate.
  - closed.
  - eapply (sT_assign c sg sg_skips _ _ (A "(&this->THE_NAME())[i]") (A ("((const THE_TYPE*)(" ++ linear_text "source" ++ "))[offset + i]")%string)).
    + closed.
    + eapply (declared_none _ sg _ (A "(&this->THE_NAME())[i")); [closed|right; reflexivity].
    + apply (pT_unary _ sg sg_skips); [split; reflexivity|]. apply pT_each; [apply Ht'|apply var_with_int].
    + apply pT_up_postfix; [split; reflexivity|]. eapply (pT_linear_each true); [left; reflexivity|exact Ht'|apply var_with_int].
    + cbn [stored]. rewrite same_ty_refl. reflexivity.
Qed.

Lemma step_save_scalar : forall s B count off stride, transfers s "target" B count off stride ->
  step c s (text_for save_text c i m)
    (map (fun k => Do (Copy (padd (padd B (o * stride)) ((off + k) * m_size lm)) (padd (eptr d a o lm 0) (k * m_size lm))
                     (m_size lm) (m_class lm))) (zseq count)).
Proof.
  intros s B count off stride Ht. rewrite (text_inst save_text false scalar) by closed. rewrite <- flat_map_single.
  eapply (step_block c sg sg_skips); [closed|closed|]. apply (step_alone c).
  eapply (step_for c sg sg_skips s _ _ (A "std::size_t i = 0; i < count; ++i")); [closed|closed|closed|apply counts_count; apply Ht|].
  intros k _. pose proof (transfers_i s _ _ _ _ _ k Ht) as Ht'. apply (step_alone c). eapply (step_simple c sg sg_skips).
  - vm_compute. repeat split; discriminate.
  - closed.
  - eapply (sT_assign c sg sg_skips _ _ (A ("((THE_TYPE*)(" ++ linear_text "target" ++ "))[offset + i]")%string) (A "(&this->THE_NAME())[i]")).
    + closed.
    + eapply (declared_none _ sg _ (A ("((THE_TYPE*)(" ++ linear_text "target" ++ "))[offset + i")%string)); [closed|right; reflexivity].
    + apply (pT_unary _ sg sg_skips); [split; reflexivity|]. eapply (pT_linear_each false); [right; reflexivity|exact Ht'|apply var_with_int].
    + apply pT_up_postfix; [split; reflexivity|]. apply pT_each; [apply Ht'|apply var_with_int].
    + cbn [stored]. rewrite same_ty_refl. reflexivity.
Qed.

Lemma std_copy_elements : forall p q t count, 0 < t_size t ->
  std_copy (Pointer p (Some t)) (Pointer (padd p (count * t_size t)) (Some t)) (Pointer q (Some t)) =
  Some (map (fun i => element_copy t q i p i) (zseq count)).
Proof.
  intros p q t count H. cbn [std_copy padd pb po]. rewrite Nat.eqb_refl, !same_ty_refl. replace (0 <? t_size t) with true by lia.
  cbn [andb]. replace (po p + count * t_size t - po p) with (count * t_size t) by lia. rewrite Z.div_mul by lia. reflexivity.
Qed.

Lemma step_copy_scalar : forall s E' index' d' a' count, 0 < m_size lm -> beside s E' index' d' count ->
  member_at E' types c ms i m o lm -> accessor_state E' index' (po d') a' ->
  step c s (text_for copy_text c i m)
    (map (fun k => Do (Copy (padd (eptr d a o lm 0) (k * m_size lm)) (padd (eptr d' a' o lm 0) (k * m_size lm))
                     (m_size lm) (m_class lm))) (zseq count)).
Proof.
  intros s E' index' d' a' count Hz Hb M' Ha'. rewrite (text_inst copy_text false scalar) by closed.
  assert (Oc : calls_in types (accessor_object E' index' d' c ms) (name_of m) None (Element (eptr d' a' o lm 0) (elem_ty lm))).
  { pose proof (member_called E' types c ms index' d' a' (proj1 Tc) Hn Ha' i m o lm M') as H. rewrite Sc in H. exact H. }
  assert (Po : pT s sg PUnary (A "&(other.THE_NAME())") (Pointer (eptr d' a' o lm 0) (Some (elem_ty lm)))).
  { eapply pT_amp_paren; [closed|closed| |].
    - eapply (pointer_none_inst _ sg _ (A "other.THE_NAME(") TRp); [closed|reflexivity|reflexivity].
    - apply pT_up; [split; reflexivity|]. exact (pT_other_name s _ _ _ _ _ Hb Oc). }
  eapply (step_block c sg sg_skips); [closed|closed|]. apply (step_alone c). eapply (step_simple c sg sg_skips).
  - vm_compute. repeat split; discriminate.
  - closed.
  - eapply (sT_copy c sg sg_skips s _ (A "&(other.THE_NAME())") (A "&(other.THE_NAME()) + count") (A "&(this->THE_NAME())")).
    + closed.
    + closed.
    + apply (pT_sum s sg sg_skips). exact Po.
    + eapply (pT_plus s sg sg_skips _ (A "&(other.THE_NAME())") [word "count"]); [closed|exact Po| |reflexivity].
      apply eT_factor, eT_var; [closed|apply Hb].
    + apply pT_instance. apply Hb.
    + exact (std_copy_elements _ _ (elem_ty lm) count Hz).
Qed.

Lemma simple_start_name : forall l r, l = TAtom 4 :: r -> simple_start (inst sg l).
Proof.
  intros l r ->. cbn [inst]. rewrite sg_name. cbn [app simple_start]. repeat split. intros H. injection H as H.
  pose proof (name_not "for" (or_intror (or_introl eq_refl))) as N. rewrite H, Pos.eqb_refl in N. discriminate.
Qed.

Lemma pT_unary_name : forall s l r v, l = TAtom 4 :: r -> pT s sg PPostfix l v -> pT s sg PUnary l v.
Proof.
  intros s l r v -> [f0 H]. exists (S f0). intros f x L F. destruct f as [|f]; [lia|]. rewrite pv_unary.
  replace (after (TPunct "&") (inst sg (TAtom 4 :: r) ++ x)) with (@None (list tok)) by (cbn [inst]; rewrite sg_name; reflexivity).
  apply H; [lia|exact F].
Qed.

Lemma pT_of_cell : forall s, with_cell s -> pT s sg PPrimary (A "cell.THE_NAME") (OfCell i).
Proof.
  intros s [Hs [H1 [H2 H3]]].
  apply (pT_cell s sg sg_skips _ "cell" (name_of m) 4 (function_of index c i m)).
  - closed.
  - exact sg_name.
  - closed.
  - rewrite H1. reflexivity.
  - rewrite H2. reflexivity.
  - exact H3.
  - apply declared_member. exact Hs.
  - exact scalar.
Qed.

Lemma step_assign_scalar : forall s, with_cell s -> name_of m <> spell "cell" ->
  step c s (text_for assign_text c i m) [FromCell (eptr d a o lm 0) (m_size lm) (m_class lm) i 0].
Proof.
  intros s Hs N. rewrite (text_inst assign_text false scalar) by closed. eapply (step_simple c sg sg_skips).
  - eapply simple_start_name. closed.
  - closed.
  - eapply (sT_assign c sg sg_skips s _ (A "THE_NAME()") (A "cell.THE_NAME")).
    + closed.
    + eapply (declared_none s sg _ (A "THE_NAME(")); [closed|left; reflexivity].
    + eapply pT_unary_name; [closed|]. apply (pT_postfix s sg sg_skips).
      eapply (pT_member s sg sg_skips); [closed|exact sg_name|apply unqualified_name; assumption|].
      destruct Hs as [[Ht [Hu _]] _]. unfold calls. rewrite Ht, Hu. exact scalar_call.
    + apply pT_up; [split; reflexivity|]. apply pT_of_cell. exact Hs.
    + reflexivity.
Qed.

Lemma step_extract_scalar : forall s, with_cell s ->
  step c s (text_for extract_text c i m) [ToCell i 0 (eptr d a o lm 0) (m_size lm) (m_class lm)].
Proof.
  intros s Hs. rewrite (text_inst extract_text false scalar) by closed. eapply (step_simple c sg sg_skips).
  - vm_compute. repeat split; discriminate.
  - closed.
  - eapply (sT_assign c sg sg_skips s _ (A "cell.THE_NAME") (A "this->THE_NAME()")).
    + closed.
    + replace (A "cell.THE_NAME") with ([word "cell"; TPunct "."] ++ [TAtom 4]) by closed. rewrite inst_app. cbn [inst].
      rewrite sg_name, app_nil_r. unfold declared. rewrite butlast_snoc. reflexivity.
    + apply (pT_unary s sg sg_skips); [split; reflexivity|]. apply (pT_postfix s sg sg_skips), pT_of_cell. exact Hs.
    + apply pT_up; [split; reflexivity|]. apply pT_this_name; [apply Hs|exact scalar_call].
    + reflexivity.
Qed.

End Scalar.

Section Array.
Variable n : nat.
Variable ar : list tok.
Hypothesis Sa : sm_arity m = Some ar.
Hypothesis La : m_array lm = Some n.

Lemma array : is_array m = true.
Proof. unfold is_array. rewrite Sa. reflexivity. Qed.

Lemma array_calls :
  (forall k, calls_in types (accessor_object E index d c ms) (name_of m) (Some k) (Element (eptr d a o lm k) (elem_ty lm))) /\
  calls_in types (accessor_object E index d c ms) (name_of m) None
    (Reference (eptr d a o lm 0) (elem_ty lm) (DIM_PROD (a_ext a))).
Proof. pose proof (member_called E types c ms index d a (proj1 Tc) Hn Ha i m o lm M) as H. rewrite Sa in H. exact H. Qed.

Lemma arity_like : type_like (sg 5%nat).
Proof.
  destruct M as [_ [[_ [_ [_ [_ [_ Hx]]]]] _]]. rewrite Sa, La in Hx. unfold sg. cbn [sigma]. rewrite Sa. apply Hx.
Qed.

Lemma arity_eats : forall s, inside s -> eats (s_env s) Factor (sg 5%nat) (Z.of_nat n).
Proof.
  intros s [_ [_ HA]]. destruct M as [_ [[_ [_ [_ [_ [_ Hx]]]]] _]]. rewrite Sa, La in Hx. unfold sg. cbn [sigma]. rewrite Sa.
  apply eats_primary, Hx, HA.
Qed.

Lemma type_angles : angles (sg 3%nat) 0 0 = true.
Proof. destruct M as [_ [[_ [[_ [_ H]] _]] _]]. exact H. Qed.

Lemma counts_arity : forall (size : bool) s, inside s ->
  counts sg s (A (if size then "std::size_t i = 0; i < THE_ARITY; ++i" else "int i = 0; i < THE_ARITY; ++i")%string) (spell "i") (Z.of_nat n).
Proof.
  intros size s Hs. eapply (counts_spec sg s _ size "i" [TAtom 5]); [destruct size; closed|]. intros k.
  apply eT_one, eT_atom, arity_eats. apply inside_int; [exact Hs|vm_compute; auto].
Qed.

(** &(this->NAME()[0]) and &(this->NAME()[i]) *)
Lemma pT_amp_ref : forall (z : bool) s k, inside s -> (if z then k = 0 else var_is (s_env s) "i" k) ->
  pT s sg PSum (A (if z then "&(this->THE_NAME()[0])" else "&(this->THE_NAME()[i])")%string)
    (Pointer (rptr d a o lm k) (Some (elem_ty lm))).
Proof.
  intros z s k Hs Hk. apply (pT_sum s sg sg_skips).
  apply (pT_amp_paren s _ (A (if z then "this->THE_NAME()[0])" else "this->THE_NAME()[i])")%string)
    (A (if z then "this->THE_NAME()[0]" else "this->THE_NAME()[i]")%string)).
  - destruct z; closed.
  - destruct z; closed.
  - eapply (pointer_none_inst _ sg _ (A (if z then "this->THE_NAME()[0" else "this->THE_NAME()[i")%string) (TPunct "]"));
      [destruct z; closed|reflexivity|reflexivity].
  - apply pT_up_postfix; [destruct z; split; reflexivity|].
    apply (pT_subscript s sg sg_skips _ (A "this->THE_NAME()") (if z then [numeral 0] else [word "i"])
      (Reference (eptr d a o lm 0) (elem_ty lm) (DIM_PROD (a_ext a))) k).
    + destruct z; closed.
    + apply pT_this_name; [exact Hs|apply array_calls].
    + destruct z; [subst k; apply eT_one; apply (eT_num _ _ 0); lia|apply eT_one, eT_var; [closed|exact Hk]].
    + reflexivity.
Qed.

Lemma step_construct_array : forall s, inside s -> step c s (text_for construct_text c i m)
  (map (fun k => Do (Construct (rptr d a o lm k) (m_size lm) (m_class lm) (m_default lm))) (zseq (Z.of_nat n))).
Proof.
  intros s Hs. rewrite (text_inst construct_text true array) by closed. rewrite <- flat_map_single.
  eapply (step_block c sg sg_skips); [closed|closed|]. apply (step_alone c).
  eapply (step_for c sg sg_skips s _ _ (A "int i = 0; i < THE_ARITY; ++i")); [closed|closed|closed|apply (counts_arity false); exact Hs|].
  intros k _. assert (Hs' : inside (with_int s (spell "i") k)) by (apply inside_int; [exact Hs|vm_compute; auto]).
  apply (step_alone c). eapply (step_simple c sg sg_skips).
  - vm_compute. repeat split; discriminate.
  - closed.
  - eapply (sT_new c sg sg_skips _ _ _ (A "&(this->THE_NAME()[i])") [TAtom 3] (rptr d a o lm k) (elem_ty lm)); [closed|closed|closed| |].
    + apply (pT_amp_ref false); [exact Hs'|apply var_here].
    + cbn [inst]. rewrite app_nil_r. apply sg_type. exact Hs'.
Qed.

Lemma step_destroy_array : forall s, inside s -> step c s (text_for destroy_text c i m)
  (map (fun k => Do (Destroy (rptr d a o lm k) (m_size lm) (m_class lm))) (zseq (Z.of_nat n))).
Proof.
  intros s Hs. rewrite (text_inst destroy_text true array) by closed. rewrite <- flat_map_single.
  eapply (step_block c sg sg_skips); [closed|closed|]. apply (step_alone c).
  eapply (step_for c sg sg_skips s _ _ (A "int i = 0; i < THE_ARITY; ++i")); [closed|closed|closed|apply (counts_arity false); exact Hs|].
  intros k _. assert (Hs' : inside (with_int s (spell "i") k)) by (apply inside_int; [exact Hs|vm_compute; auto]).
  apply (step_alone c). eapply (step_simple c sg sg_skips).
  - vm_compute. repeat split; discriminate.
  - closed.
  - apply (sT_destroy c sg sg_skips _ _ (A "&(this->THE_NAME()[i])") (rptr d a o lm k) (elem_ty lm)); [closed|closed|].
    apply (pT_amp_ref false); [exact Hs'|apply var_here].
Qed.

Lemma step_copy_array : forall s E' index' d' a' count, 0 < m_size lm -> beside s E' index' d' count ->
  member_at E' types c ms i m o lm -> accessor_state E' index' (po d') a' ->
  step c s (text_for copy_text c i m)
    (flat_map (fun k => map (fun j => Do (Copy (padd (rptr d a o lm k) (j * m_size lm)) (padd (rptr d' a' o lm k) (j * m_size lm))
                     (m_size lm) (m_class lm))) (zseq count)) (zseq (Z.of_nat n))).
Proof.
  intros s E' index' d' a' count Hz Hb M' Ha'. rewrite (text_inst copy_text true array) by closed.
  assert (Oc : calls_in types (accessor_object E' index' d' c ms) (name_of m) None
     (Reference (eptr d' a' o lm 0) (elem_ty lm) (DIM_PROD (a_ext a')))).
  { pose proof (member_called E' types c ms index' d' a' (proj1 Tc) Hn Ha' i m o lm M') as H. rewrite Sa in H. apply H. }
  eapply (step_block c sg sg_skips); [closed|closed|]. apply (step_alone c).
  eapply (step_for c sg sg_skips s _ _ (A "std::size_t i = 0; i < THE_ARITY; ++i")); [closed|closed|closed|apply (counts_arity true); apply Hb|].
  intros k _. pose proof (beside_i s _ _ _ _ k Hb) as Hb'.
  assert (Po : pT (with_int s (spell "i") k) sg PUnary (A "&(other.THE_NAME()[i])") (Pointer (rptr d' a' o lm k) (Some (elem_ty lm)))).
  { eapply pT_amp_paren; [closed|closed| |].
    - eapply (pointer_none_inst _ sg _ (A "other.THE_NAME()[i") (TPunct "]")); [closed|reflexivity|reflexivity].
    - apply pT_up_postfix; [split; reflexivity|].
      eapply (pT_subscript _ sg sg_skips _ (A "other.THE_NAME()") [word "i"]); [closed| | |].
      + exact (pT_other_name _ _ _ _ _ _ Hb' Oc).
      + apply eT_one, eT_var; [closed|apply var_here].
      + reflexivity. }
  apply (step_alone c). eapply (step_simple c sg sg_skips).
  - vm_compute. repeat split; discriminate.
  - closed.
  - eapply (sT_copy c sg sg_skips _ _ (A "&(other.THE_NAME()[i])") (A "&(other.THE_NAME()[i]) + count") (A "&(this->THE_NAME()[i])")).
    + closed.
    + closed.
    + apply (pT_sum _ sg sg_skips). exact Po.
    + eapply (pT_plus _ sg sg_skips _ (A "&(other.THE_NAME()[i])") [word "count"]); [closed|exact Po| |reflexivity].
      apply eT_factor, eT_var; [closed|apply Hb'].
    + apply (pT_amp_ref false); [apply Hb'|apply var_here].
    + exact (std_copy_elements _ _ (elem_ty lm) count Hz).
Qed.

Lemma copy_array_in_spec : forall size k p q t count off stride, copy_array_in size k p q t count off stride =
  flat_map (fun k => map (fun i => element_copy t q (size * k + i) p (stride * k + off + i)) (zseq count)) (arity_seq k).
Proof.
  intros size k p q t count off stride. induction k as [|k IH]; [reflexivity|]. unfold arity_seq in *. rewrite seq_S, map_app, flat_map_app.
  cbn [copy_array_in]. rewrite IH. cbn [map flat_map]. rewrite app_nil_r. reflexivity.
Qed.

Lemma copy_array_out_spec : forall size k p q t count off stride, copy_array_out size k p q t count off stride =
  flat_map (fun k => map (fun i => element_copy t p (stride * k + off + i) q (size * k + i)) (zseq count)) (arity_seq k).
Proof.
  intros size k p q t count off stride. induction k as [|k IH]; [reflexivity|]. unfold arity_seq in *. rewrite seq_S, map_app, flat_map_app.
  cbn [copy_array_out]. rewrite IH. cbn [map flat_map]. rewrite app_nil_r. reflexivity.
Qed.

Lemma copy_in_spec : forall size k j p t, copy_in size k j p t =
  map (fun k => FromCell (padd p (size * Z.of_nat k * t_size t)) (t_size t) (t_class t) j k) (seq 0 k).
Proof.
  intros size k j p t. induction k as [|k IH]; [reflexivity|]. rewrite seq_S, map_app. cbn [copy_in]. rewrite IH. reflexivity.
Qed.

Lemma copy_out_spec : forall size k j p t, copy_out size k j p t =
  map (fun k => ToCell j k (padd p (size * Z.of_nat k * t_size t)) (t_size t) (t_class t)) (seq 0 k).
Proof.
  intros size k j p t. induction k as [|k IH]; [reflexivity|]. rewrite seq_S, map_app. cbn [copy_out]. rewrite IH. reflexivity.
Qed.

Lemma step_load_array : forall s B count off stride, transfers s "source" B count off stride ->
  step c s (text_for load_text c i m)
    (copy_array_in (DIM_PROD (a_ext a)) n (padd B (o * stride)) (rptr d a o lm 0) (elem_ty lm) count off stride).
Proof.
  intros s B count off stride Ht. rewrite (text_inst load_text true array) by closed. pose proof Ht as [Hs [_ [Hc [Ho Hst]]]].
  eapply (step_block c sg sg_skips); [closed|closed|]. apply (step_alone c). eapply (step_simple c sg sg_skips).
  - vm_compute. repeat split; discriminate.
  - closed.
  - eapply (sT_array c sg sg_skips s _ "copy_array_in" (A ("(const THE_TYPE*)(" ++ linear_text "source" ++ ")")%string)
      (A "&(this->THE_NAME()[0])") [word "count"] [word "offset"] [word "stride"]).
    + closed.
    + closed.
    + eapply var_agrees; [apply Hs|not_local|apply Ha].
    + exact type_angles.
    + apply arity_like.
    + apply sg_type. exact Hs.
    + apply arity_eats. exact Hs.
    + apply pT_up_postfix; [split; reflexivity|]. eapply (pT_linear_cast true); [left; reflexivity|exact Ht].
    + apply (pT_amp_ref true); [exact Hs|reflexivity].
    + apply eT_one, eT_var; [closed|exact Hc].
    + apply eT_one, eT_var; [closed|exact Ho].
    + apply eT_one, eT_var; [closed|exact Hst].
    + rewrite Nat2Z.id. reflexivity.
Qed.

Lemma step_save_array : forall s B count off stride, transfers s "target" B count off stride ->
  step c s (text_for save_text c i m)
    (copy_array_out (DIM_PROD (a_ext a)) n (padd B (o * stride)) (rptr d a o lm 0) (elem_ty lm) count off stride).
Proof.
  intros s B count off stride Ht. rewrite (text_inst save_text true array) by closed. pose proof Ht as [Hs [_ [Hc [Ho Hst]]]].
  eapply (step_block c sg sg_skips); [closed|closed|]. apply (step_alone c). eapply (step_simple c sg sg_skips).
  - vm_compute. repeat split; discriminate.
  - closed.
  - eapply (sT_array c sg sg_skips s _ "copy_array_out" (A ("(THE_TYPE*)(" ++ linear_text "target" ++ ")")%string)
      (A "&(this->THE_NAME()[0])") [word "count"] [word "offset"] [word "stride"]).
    + closed.
    + closed.
    + eapply var_agrees; [apply Hs|not_local|apply Ha].
    + exact type_angles.
    + apply arity_like.
    + apply sg_type. exact Hs.
    + apply arity_eats. exact Hs.
    + apply pT_up_postfix; [split; reflexivity|]. eapply (pT_linear_cast false); [right; reflexivity|exact Ht].
    + apply (pT_amp_ref true); [exact Hs|reflexivity].
    + apply eT_one, eT_var; [closed|exact Hc].
    + apply eT_one, eT_var; [closed|exact Ho].
    + apply eT_one, eT_var; [closed|exact Hst].
    + rewrite Nat2Z.id. reflexivity.
Qed.

Lemma pT_first : forall s, with_cell s -> name_of m <> spell "cell" ->
  pT s sg PSum (A "&THE_NAME<0>()") (Pointer (eptr d a o lm 0) (Some (elem_ty lm))).
Proof.
  intros s Hs N. apply (pT_sum s sg sg_skips). eapply (pT_amp s sg sg_skips); [closed|].
  eapply pT_unary_name; [closed|]. apply (pT_postfix s sg sg_skips).
  eapply (pT_member_at s sg sg_skips _ _ 4 [numeral 0] 0); [closed|exact sg_name|apply unqualified_name; assumption| |].
  - apply eT_one. apply (eT_num _ _ 0). lia.
  - destruct Hs as [[Ht [Hu _]] _]. unfold calls. rewrite Ht, Hu. apply array_calls.
Qed.

Lemma step_assign_array : forall s, with_cell s -> name_of m <> spell "cell" ->
  step c s (text_for assign_text c i m) (copy_in (DIM_PROD (a_ext a)) n i (eptr d a o lm 0) (elem_ty lm)).
Proof.
  intros s Hs N. rewrite (text_inst assign_text true array) by closed. pose proof Hs as [Hi [_ [_ Hcell]]].
  eapply (step_block c sg sg_skips); [closed|closed|]. apply (step_alone c). eapply (step_simple c sg sg_skips).
  - vm_compute. repeat split; discriminate.
  - closed.
  - eapply (sT_cell c sg sg_skips s _ "copy_in" (A "&THE_NAME<0>()") _ _ _ (name_of m) (function_of index c i m)).
    + closed.
    + closed.
    + reflexivity.
    + eapply var_agrees; [apply Hi|not_local|apply Ha].
    + reflexivity.
    + exact sg_name.
    + apply Tc.
    + exact type_angles.
    + apply arity_like.
    + apply sg_type. exact Hi.
    + apply arity_eats. exact Hi.
    + apply declared_member. exact Hi.
    + exact array.
    + exact Hcell.
    + apply pT_first; assumption.
    + rewrite Nat2Z.id. reflexivity.
Qed.

Lemma step_extract_array : forall s, with_cell s -> name_of m <> spell "cell" ->
  step c s (text_for extract_text c i m) (copy_out (DIM_PROD (a_ext a)) n i (eptr d a o lm 0) (elem_ty lm)).
Proof.
  intros s Hs N. rewrite (text_inst extract_text true array) by closed. pose proof Hs as [Hi [_ [_ Hcell]]].
  eapply (step_block c sg sg_skips); [closed|closed|]. apply (step_alone c). eapply (step_simple c sg sg_skips).
  - vm_compute. repeat split; discriminate.
  - closed.
  - eapply (sT_cell c sg sg_skips s _ "copy_out" (A "&THE_NAME<0>()") _ _ _ (name_of m) (function_of index c i m)).
    + closed.
    + closed.
    + reflexivity.
    + eapply var_agrees; [apply Hi|not_local|apply Ha].
    + reflexivity.
    + exact sg_name.
    + apply Tc.
    + exact type_angles.
    + apply arity_like.
    + apply sg_type. exact Hi.
    + apply arity_eats. exact Hi.
    + apply declared_member. exact Hi.
    + exact array.
    + exact Hcell.
    + apply pT_first; assumption.
    + rewrite Nat2Z.id. reflexivity.
Qed.

End Array.
End Member.
End Steps.
