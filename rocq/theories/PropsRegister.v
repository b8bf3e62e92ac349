(** Properties C63 to C65: the registration macro. *)
From Coq Require Import String Ascii ZArith Bool Lia.
From Coq Require Import List.
From Verif Require Import Preproc PreprocAbs PreprocLib SpecPreproc PropsPreproc.
From Verif Require Layout.
From Verif Require Import SpecRegister RegisterProofs RegisterText RegisterValues.
Import ListNotations.
Local Open Scope Z_scope.

Opaque lib lib_words.

(** * C63: the text *)

(** LIBFLATARRAY_REGISTER_SOA(class, members) expands to the sections of
    [registration], with nothing but qualifiers between them. *)
Theorem C63_registration_text : exists gaps, length gaps = length registration /\ only_qualifiers gaps /\
  forall tab c ms, includes_lib tab -> inert tab c -> Forall (inert_member tab) ms -> (1 <= length ms <= 51)%nat ->
  expands tab (call (word "LIBFLATARRAY_REGISTER_SOA") [c; seq_of (map member_text ms)])
    (woven (map (render c ms) registration) gaps).
Proof. exact registration_text. Qed.

(** In every text about the members each of them occurs once, in order. *)
Theorem C63_members_in_order : forall t c ms,
  exists parts, length parts = length ms /\ render_item c ms (PerMember t) = concat parts /\
    forall i m, nth_error ms i = Some m -> nth_error parts i = Some (about i c m (t (is_array m))).
Proof.
  intros t c ms. cbn [render_item].
  assert (G : forall l k, exists parts, length parts = length l /\ members_from k (text_for t c) l = concat parts /\
    forall i m, nth_error l i = Some m -> nth_error parts i = Some (about (k + i) c m (t (is_array m)))).
  { induction l as [|m l IH]; intros k.
    - exists []. repeat split. intros [|i] m H; discriminate.
    - destruct (IH (S k)) as [parts [L [E N]]]. exists (text_for t c k m :: parts). cbn [length members_from concat].
      split; [congruence|]. split; [rewrite E; reflexivity|]. intros [|i] m' H; cbn [nth_error] in *.
      + injection H as <-. rewrite Nat.add_0_r. reflexivity.
      + rewrite (N i m' H). do 2 f_equal. lia. }
  destruct (G ms 0%nat) as [parts H]. exists parts. exact H.
Qed.

(** * C64: the offsets *)

Definition plain_types (ms : list soa_member) : Prop := Forall (fun m => balanced (sm_type m)) ms.

Theorem C64_value_unique : forall env l v w, has_value env l v -> has_value env l w -> v = w.
Proof. exact has_value_unique. Qed.

Lemma occupies_nth : forall env ms xs i m, Forall2 (occupies env) ms xs -> nth_error ms i = Some m ->
  exists x, nth_error xs i = Some x /\ occupies env m x.
Proof.
  intros env ms xs i m H. revert i. induction H as [|a b ms xs Hab H IH]; intros [|i] E; try discriminate.
  - injection E as <-. exists b. auto.
  - cbn [nth_error] in *. apply IH. exact E.
Qed.

Lemma sum_next : forall xs i x, nth_error xs i = Some x ->
  sum_bytes (firstn (S i) xs) = sum_bytes (firstn i xs) + fst x * snd x.
Proof.
  induction xs as [|y xs IH]; intros [|i] x E; try discriminate.
  - injection E as <-. unfold sum_bytes. cbn [firstn fold_right]. lia.
  - cbn [nth_error] in E. specialize (IH i x E). unfold sum_bytes in *.
    change (firstn (S (S i)) (y :: xs)) with (y :: firstn (S i) xs). change (firstn (S i) (y :: xs)) with (y :: firstn i xs).
    cbn [fold_right]. rewrite IH. lia.
Qed.

(** offset<c, i>::OFFSET is the number of bytes of the members before the i-th. *)
Theorem C64_offsets_sum : forall env c ms xs T,
  balanced c -> plain_types ms -> (length ms <= 51)%nat -> Forall2 (occupies env) ms xs ->
  offset_table env c ms T ->
  forall i, (i <= length ms)%nat -> T i = sum_bytes (firstn i xs).
Proof.
  intros env c ms xs T Hc Ht Hl Hx [H0 [He Hv]] i. induction i as [|i IH]; intros Hi; [rewrite H0; destruct xs; reflexivity|].
  destruct (nth_error ms i) as [m|] eqn:E; [|apply nth_error_None in E; lia].
  destruct (occupies_nth _ _ _ _ _ Hx E) as [[s n] [Ex Om]].
  assert (Bm : balanced (sm_type m)) by (apply (proj1 (Forall_forall _ _) Ht); eapply nth_error_In; exact E).
  pose proof (init_value env c Hc i m s n (T i) Bm Om (He i ltac:(lia)) ltac:(lia)) as V.
  rewrite (has_value_unique _ _ _ _ (Hv i m E) V), (sum_next _ _ _ Ex), <- IH by lia. reflexivity.
Qed.

(** These sums are a solution: the initialisers have these values. *)
Theorem C64_offsets_exist : forall env c ms xs,
  balanced c -> plain_types ms -> (length ms <= 51)%nat -> Forall2 (occupies env) ms xs ->
  (forall i, (i <= length ms)%nat -> e_offset env c (Z.of_nat i) = Some (sum_bytes (firstn i xs))) ->
  offset_table env c ms (fun i => sum_bytes (firstn i xs)).
Proof.
  intros env c ms xs Hc Ht Hl Hx He. split; [destruct xs; reflexivity|]. split; [exact He|].
  intros i m E. destruct (occupies_nth _ _ _ _ _ Hx E) as [[s n] [Ex Om]].
  assert (Hi : (i < length ms)%nat) by (apply nth_error_Some; rewrite E; discriminate).
  assert (Bm : balanced (sm_type m)) by (apply (proj1 (Forall_forall _ _) Ht); eapply nth_error_In; exact E).
  rewrite (sum_next _ _ _ Ex). cbn [fst snd]. apply init_value; try assumption; [apply He|]; lia.
Qed.

(** [lm] is the entry of Layout.v for the member [m]. *)
Definition described (env : cenv) (m : soa_member) (lm : Layout.member) : Prop :=
  Layout.m_size lm = e_sizeof env (sm_type m) /\
  match sm_arity m, Layout.m_array lm with
  | None, None => True
  | Some a, Some n => primary_value env a (Z.of_nat n)
  | _, _ => False
  end.

Definition layout_count (lm : Layout.member) : Z := match Layout.m_array lm with None => 1 | Some n => Z.of_nat n end.

Lemma same_length : forall (A B : Type) (P : A -> B -> Prop) l r, Forall2 P l r -> length l = length r.
Proof. intros A B P l r H. induction H; cbn [length]; congruence. Qed.

Lemma described_occupies : forall env ms lms, Forall2 (described env) ms lms ->
  Forall2 (occupies env) ms (map (fun lm => (Layout.m_size lm, layout_count lm)) lms).
Proof.
  intros env ms lms H. induction H as [|m lm ms lms [Hs Ha] H IH]; constructor; [|exact IH].
  split; [exact Hs|]. cbn [snd]. unfold layout_count. destruct (sm_arity m), (Layout.m_array lm); try contradiction; auto.
Qed.

Lemma layout_sum : forall lms i, (i <= length lms)%nat ->
  Layout.offset lms i = Some (sum_bytes (firstn i (map (fun lm => (Layout.m_size lm, layout_count lm)) lms))).
Proof.
  intros lms i. induction i as [|i IH]; intros Hi; [destruct lms; reflexivity|].
  cbn [Layout.offset]. rewrite IH by lia. destruct (nth_error lms i) as [lm|] eqn:E; [|apply nth_error_None in E; lia].
  erewrite sum_next by (rewrite nth_error_map, E; reflexivity). reflexivity.
Qed.

(** The offsets of the layout model are those of the generated classes. *)
Theorem C64_layout_offsets : forall env c ms lms T,
  balanced c -> plain_types ms -> (length ms <= 51)%nat -> Forall2 (described env) ms lms ->
  offset_table env c ms T ->
  forall i, (i <= length ms)%nat -> Layout.offset lms i = Some (T i).
Proof.
  intros env c ms lms T Hc Ht Hl Hd HT i Hi. rewrite layout_sum by (rewrite <- (same_length _ _ _ _ _ Hd); exact Hi).
  f_equal. symmetry. eapply C64_offsets_sum; try eassumption. apply described_occupies. exact Hd.
Qed.

(** number_of_members<c>::VALUE and aggregated_member_size<c>::VALUE. *)
Theorem C64_totals : forall env c ms lms T,
  balanced c -> plain_types ms -> (length ms <= 51)%nat -> Forall2 (described env) ms lms ->
  offset_table env c ms T ->
  has_value env (render_item c ms Count) (Z.of_nat (length ms)) /\
  (var_is env "INDEX" (Z.of_nat (length ms)) ->
   exists v, Layout.agg_size lms = Some v /\ has_value env (class_text c total_text) v).
Proof.
  intros env c ms lms T Hc Ht Hl Hd HT. split.
  - apply eats_value, eats_product, eats_factor, eats_numeral. lia.
  - intros HI. exists (T (length ms)). split.
    + unfold Layout.agg_size. rewrite <- (same_length _ _ _ _ _ Hd). eapply C64_layout_offsets; try eassumption. lia.
    + eapply total_value; [exact Hc|exact HI|]. apply HT. lia.
Qed.

(** * C65: the addresses *)

(** The variables of an accessor with the state [a] over the buffer at [D]. *)
Definition accessor_state (env : cenv) (index : string) (D : Z) (a : Layout.accessor) : Prop :=
  var_is env "my_data" D /\ var_is env "DIM_PROD" (Layout.DIM_PROD (Layout.a_ext a)) /\
  index_is env index (Layout.a_index a) /\ var_is env "INDEX" (Layout.a_INDEX a).

Definition dims (env : cenv) (e : Layout.extent) : Prop :=
  var_is env "DIM_X" (Layout.DIM_X e) /\ var_is env "DIM_Y" (Layout.DIM_Y e) /\ var_is env "DIM_Z" (Layout.DIM_Z e).

(** member() and member<k>() refer to the address of the layout model. *)
Theorem C65_member_address : forall env c ms lms T index D a i m k,
  balanced c -> plain_types ms -> (length ms <= 51)%nat -> Forall2 (described env) ms lms ->
  offset_table env c ms T -> accessor_state env index D a -> var_is env "ARRAY_INDEX" k ->
  nth_error ms i = Some m ->
  exists v, Layout.member_addr lms a i k = Some v /\ has_value env (text_for (address_text index) c i m) (D + v).
Proof.
  intros env c ms lms T index D a i m k Hc Ht Hl Hd HT [HD [HP [Hx HI]]] Hk E.
  assert (Hi : (i < length ms)%nat) by (apply nth_error_Some; rewrite E; discriminate).
  assert (Bm : balanced (sm_type m)) by (apply (proj1 (Forall_forall _ _) Ht); eapply nth_error_In; exact E).
  destruct (occupies_nth _ _ _ _ _ (described_occupies _ _ _ Hd) E) as [[s n] [Ex Om]].
  rewrite nth_error_map in Ex. destruct (nth_error lms i) as [lm|] eqn:El; [|discriminate].
  injection Ex as Es En.
  assert (Dm : described env m lm).
  { clear - Hd E El. revert i E El. induction Hd as [|x y ms lms Hxy Hd IH]; intros [|i] E El; try discriminate.
    - injection E as <-. injection El as <-. exact Hxy.
    - exact (IH i E El). }
  pose proof (address_value env c Hc i m s n (T i) index D _ _ _ k Bm Om (proj1 (proj2 HT) i ltac:(lia)) ltac:(lia) HD HP Hx HI Hk) as V.
  unfold Layout.member_addr. rewrite El, (C64_layout_offsets env c ms lms T Hc Ht Hl Hd HT i) by lia.
  eexists. split; [reflexivity|]. eapply eq_ind; [exact V|]. f_equal. subst s.
  destruct Dm as [_ Da]. destruct (sm_arity m), (Layout.m_array lm); try contradiction; lia.
Qed.

(** access_member<MEMBER_TYPE, j>() and access_member(size, offset). *)
Theorem C65_access_member : forall env c ms lms T index D a j,
  balanced c -> plain_types ms -> (length ms <= 51)%nat -> Forall2 (described env) ms lms ->
  offset_table env c ms T -> accessor_state env index D a -> var_is env "OFFSET" (Z.of_nat j) -> (j <= length ms)%nat ->
  exists v, Layout.access_member_t lms a (e_sizeof env [word "MEMBER_TYPE"]) j = Some v /\
    has_value env (class_text c (numbered_text index)) (D + v).
Proof.
  intros env c ms lms T index D a j Hc Ht Hl Hd HT [HD [HP [Hx HI]]] Hj L.
  unfold Layout.access_member_t. rewrite (C64_layout_offsets env c ms lms T Hc Ht Hl Hd HT j L).
  eexists. split; [reflexivity|]. eapply eq_ind; [eapply numbered_value; try eassumption; apply HT; exact L|]. lia.
Qed.

Theorem C65_access_offset : forall env index D a s o,
  accessor_state env index D a -> var_is env "size_of_member" s -> var_is env "offset" o ->
  has_value env (tokens (at_offset_text index)) (D + Layout.access_member_rt a s o).
Proof.
  intros env index D a s o [HD [HP [Hx HI]]] Hs Ho. unfold Layout.access_member_rt.
  eapply eq_ind; [apply (at_offset_value env []); eassumption|]. lia.
Qed.

(** gen_index, operator[](coord) and DIM_PROD. *)
Theorem C65_indices : forall env e x y z I, dims env e ->
  (var_is env "x" x -> var_is env "y" y -> var_is env "z" z ->
   has_value env (tokens gen_index_text) (Layout.gen_index e x y z) /\
   has_value env (tokens gen_index_text_sized) (Layout.gen_index e x y z)) /\
  (var_is env "X" x -> var_is env "Y" y -> var_is env "Z" z -> var_is env "INDEX" I ->
   has_value env (tokens coord_index_text) (Layout.LFA_INDEX x y z e I)) /\
  has_value env (tokens dim_prod_text) (Layout.DIM_PROD e).
Proof.
  intros env e x y z I [Dx [Dy Dz]]. split; [|split].
  - intros Hx Hy Hz. unfold Layout.gen_index. split.
    + eapply eq_ind; [apply (gen_index_value env []); eassumption|]. lia.
    + eapply eq_ind; [apply (gen_index_sized_value env []); eassumption|]. lia.
  - intros Hx Hy Hz HI. unfold Layout.LFA_INDEX. eapply eq_ind; [apply (coord_index_value env []); eassumption|]. lia.
  - unfold Layout.DIM_PROD. eapply eq_ind; [apply (dim_prod_value env []); eassumption|]. lia.
Qed.

(** In the linear format the values of member [i] start at its offset times the stride. *)
Theorem C65_linear_start : forall env c ms lms T i m buffer B stride,
  balanced c -> plain_types ms -> (length ms <= 51)%nat -> Forall2 (described env) ms lms ->
  offset_table env c ms T -> nth_error ms i = Some m -> In buffer ["source"; "target"]%string ->
  var_is env buffer B -> var_is env "stride" stride ->
  exists o, Layout.offset lms i = Some o /\ has_value env (about i c m (tokens (linear_text buffer))) (B + o * stride).
Proof.
  intros env c ms lms T i m buffer B stride Hc Ht Hl Hd HT E Hb HB Hs.
  assert (Hi : (i < length ms)%nat) by (apply nth_error_Some; rewrite E; discriminate).
  exists (T i). split; [eapply C64_layout_offsets; try eassumption; lia|].
  apply linear_value; try assumption; [|apply HT; lia|lia].
  destruct Hb as [<-|[<-|[]]]; auto.
Qed.

(** * Limits and examples *)

(** A class with an array member and two scalar members. *)
Definition Particle : list tok := tokens "Particle".
Definition particle_members : list soa_member :=
  [mkSM (tokens "double") (tokens "pos") (Some (tokens "3"));
   mkSM (tokens "float") (tokens "mass") None;
   mkSM (tokens "std::pair<int, char>") (tokens "tags") (Some (tokens "(1 + N)"))].

Lemma types_settled : forall tab ms,
  forallb (fun m => settled tab (sm_type m) && settled tab (sm_name m) &&
    match sm_arity m with Some a => settled tab a | None => true end) ms = true ->
  Forall (inert_member tab) ms.
Proof.
  intros tab ms H. apply Forall_forall. intros m Hm. pose proof (proj1 (forallb_forall _ _) H m Hm) as G. cbv beta in G.
  apply andb_true_iff in G. destruct G as [G G3]. apply andb_true_iff in G. destruct G as [G1 G2].
  split; [apply settled_inert; exact G1|]. split; [apply settled_inert; exact G2|].
  destruct (sm_arity m); [apply settled_inert; exact G3|exact I].
Qed.

(** A type with a comma that is not in parentheses cannot be registered: the
    third member is not an admissible argument, the first two are. *)
Example particle_admissible :
  includes_lib user /\ inert user Particle /\ Forall (inert_member user) (firstn 2 particle_members) /\
  settled user (sm_type (nth 2 particle_members (mkSM [] [] None))) = false.
Proof.
  split; [exact user_includes_lib|]. split; [apply settled_inert; vm_compute; reflexivity|].
  split; [apply types_settled; vm_compute; reflexivity|vm_compute; reflexivity].
Qed.

Example particle_registered : exists gaps, only_qualifiers gaps /\
  expands user (tokens "LIBFLATARRAY_REGISTER_SOA(Particle, ((double)(pos)(3))((float)(mass)))")
    (woven (map (render Particle (firstn 2 particle_members)) registration) gaps).
Proof.
  destruct C63_registration_text as [gaps [_ [Q H]]]. exists gaps. split; [exact Q|].
  eapply expands_same; [|vm_compute; reflexivity|reflexivity].
  destruct particle_admissible as [A [B [C _]]].
  exact (H user Particle (firstn 2 particle_members) A B C ltac:(vm_compute; repeat constructor)).
Qed.

(** Two of the texts for these members. *)
Example particle_assignment :
  render_item Particle (firstn 2 particle_members) (PerMember assign_text) =
  tokens "{ typename LibFlatArray::detail::soa_array_member_copy_helper<DIM_PROD>::
      template inner1<Particle>::template inner2<double>::template inner3<3>::
      template inner4<&Particle::pos>::template copy_in<3>()(cell, &pos<0>()); }
    mass() = cell.mass;".
Proof. vm_compute. reflexivity. Qed.

Example particle_offsets :
  map (fun x => text_for offset_init Particle (fst x) (snd x)) (combine [0; 1]%nat (firstn 2 particle_members)) =
  [tokens "offset<Particle, 0 + 0>::OFFSET + sizeof(double) * 3";
   tokens "offset<Particle, 1 + 0>::OFFSET + sizeof(float) * 1"].
Proof. vm_compute. reflexivity. Qed.

(** Sizes as on common platforms, N = 4, an accessor of a 4 x 5 x 6 array at 1000
    whose run-time index is 7 and whose INDEX is 21. *)
Definition vars : list (string * Z) :=
  [("my_data", 1000); ("DIM_X", 4); ("DIM_Y", 5); ("DIM_Z", 6); ("DIM_PROD", 120); ("my_index", 7);
   ("INDEX", 21); ("ARRAY_INDEX", 2); ("N", 4); ("OFFSET", 2); ("size_of_member", 4); ("offset", 24);
   ("x", 1); ("y", 2); ("z", 3); ("X", 1); ("Y", 2); ("Z", -1); ("source", 500); ("stride", 10)]%string.

Fixpoint find_var (p : spelling) (l : list (string * Z)) : option Z :=
  match l with
  | [] => None
  | (s, v) :: r => if Pos.eqb p (spell s) then Some v else find_var p r
  end.

Definition platform : cenv := {|
  e_sizeof := fun t => if list_eq_dec same_tok t (tokens "double") then 8
                       else if list_eq_dec same_tok t (tokens "std::pair<int, char>") then 12 else 4;
  e_var := fun p => find_var p vars;
  e_deref := fun p => if Pos.eqb p (spell "my_index") then Some 7 else None;
  e_offset := fun c k => if list_eq_dec same_tok c Particle then nth_error [0; 24; 28; 88] (Z.to_nat k) else None |}.

Definition particle_layout : list Layout.member :=
  [Layout.mkMember 8 (Some 3%nat) false []; Layout.mkMember 4 None false []; Layout.mkMember 12 (Some 5%nat) false []].

Lemma particle_described : Forall2 (described platform) (firstn 3 particle_members) particle_layout.
Proof.
  repeat constructor.
  - exists 1%nat. intros r. vm_compute. reflexivity.
  - exists 5%nat. intros r. vm_compute. reflexivity.
Qed.

Lemma particle_table : offset_table platform Particle (firstn 2 particle_members) (fun i => nth i [0; 24; 28; 88] 0).
Proof.
  split; [reflexivity|]. split.
  - intros i Hi. cbn [length firstn particle_members] in Hi. destruct i as [|[|[|i]]]; [vm_compute; reflexivity..|lia].
  - intros i m H. destruct i as [|[|i]]; [| |destruct i; discriminate]; injection H as <-; exists 9%nat; vm_compute; reflexivity.
Qed.

Example particle_offset_values : forall i, (i <= 2)%nat -> Layout.offset (firstn 2 particle_layout) i = nth_error [0; 24; 28] i.
Proof.
  intros i Hi. rewrite (C64_layout_offsets platform Particle (firstn 2 particle_members) (firstn 2 particle_layout)
    (fun i => nth i [0; 24; 28; 88] 0)); try exact particle_table; try exact Hi.
  - destruct i as [|[|[|i]]]; try reflexivity. lia.
  - reflexivity.
  - repeat constructor.
  - vm_compute. repeat constructor.
  - pose proof particle_described as H. cbn [firstn particle_members particle_layout] in *.
    inversion H; subst. inversion H5; subst.
    apply Forall2_cons; [assumption|apply Forall2_cons; [assumption|constructor]].
Qed.

(** pos<2>(), mass(), access_member<float, 1>() and access_member(4, 24). *)
Example particle_addresses :
  has_value platform (text_for (address_text "my_index") Particle 0 (nth 0 particle_members (mkSM [] [] None)))
    (1000 + 2 * 120 * 8 + 28 * 8) /\
  has_value platform (text_for (address_text "*my_index") Particle 1 (nth 1 particle_members (mkSM [] [] None)))
    (1000 + 120 * 24 + 28 * 4) /\
  has_value platform (class_text Particle (numbered_text "my_index")) (1000 + 120 * 28 + 28 * 4) /\
  has_value platform (tokens (at_offset_text "*my_index")) (1000 + 120 * 24 + 28 * 4) /\
  has_value platform (tokens gen_index_text) (3 * 20 + 2 * 4 + 1) /\
  has_value platform (tokens coord_index_text) (21 - 20 + 8 + 1) /\
  has_value platform (about 1 Particle (nth 1 particle_members (mkSM [] [] None)) (tokens (linear_text "source"))) (500 + 24 * 10).
Proof. repeat split; exists 20%nat; vm_compute; reflexivity. Qed.

Example particle_state : accessor_state platform "*my_index" 1000 (Layout.mkAcc (Layout.mkExt 4 5 6) 7 21) /\
  accessor_state platform "my_index" 1000 (Layout.mkAcc (Layout.mkExt 4 5 6) 7 21) /\ dims platform (Layout.mkExt 4 5 6).
Proof. repeat split; try (vm_compute; reflexivity); [right|left]; split; vm_compute; reflexivity. Qed.

(** The arity is not put in parentheses: for float values[2 + 1] the next
    offset is 4 * 2 + 1, not 4 * 3.  So [primary_value] in [occupies] cannot be
    weakened to [has_value]. *)
Theorem C64_unparenthesised_arity_refuted :
  ~ (forall env c m a n T, balanced c -> balanced (sm_type m) -> sm_arity m = Some a -> has_value env a n ->
       e_offset env c 0 = Some T -> has_value env (text_for offset_init c 0 m) (T + e_sizeof env (sm_type m) * n)).
Proof.
  intros H.
  pose proof (H platform Particle (mkSM (tokens "float") (tokens "values") (Some (tokens "2 + 1"))) (tokens "2 + 1") 3 0
    eq_refl eq_refl eq_refl ltac:(exists 9%nat; vm_compute; reflexivity) ltac:(vm_compute; reflexivity)) as V.
  assert (W : has_value platform (text_for offset_init Particle 0
    (mkSM (tokens "float") (tokens "values") (Some (tokens "2 + 1")))) 9) by (exists 20%nat; vm_compute; reflexivity).
  pose proof (has_value_unique _ _ _ _ V W) as E. vm_compute in E. discriminate.
Qed.


Print Assumptions C63_registration_text.
Print Assumptions C63_members_in_order.
Print Assumptions C64_value_unique.
Print Assumptions C64_offsets_sum.
Print Assumptions C64_offsets_exist.
Print Assumptions C64_layout_offsets.
Print Assumptions C64_totals.
Print Assumptions C64_unparenthesised_arity_refuted.
Print Assumptions C65_member_address.
Print Assumptions C65_access_member.
Print Assumptions C65_access_offset.
Print Assumptions C65_indices.
Print Assumptions C65_linear_start.
