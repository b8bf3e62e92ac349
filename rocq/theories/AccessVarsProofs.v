(** Simulation between AccessVars.v and SpecAccessVars.v. *)
From Coq Require Import ZArith List Bool Lia.
From Verif Require Import Layout AccessVars SpecAccessVars.
Import ListNotations.
Open Scope Z_scope.

Lemma put_length {A} (l : list A) n a : length (put l n a) = length l.
Proof. revert n; induction l; destruct n; simpl; auto. Qed.

Lemma nth_put_same {A} (l : list A) n a d : (n < length l)%nat -> nth n (put l n a) d = a.
Proof. revert n; induction l; destruct n; simpl; intros; try lia; auto. apply IHl. lia. Qed.

Lemma nth_put_other {A} (l : list A) n m a d : n <> m -> nth m (put l n a) d = nth m l d.
Proof.
  revert n m; induction l; destruct n, m; simpl; intros; auto; try congruence.
Qed.

Lemma nth_snoc {A} (l : list A) n a d :
  nth n (l ++ [a]) d = if Nat.eqb n (length l) then a else nth n l d.
Proof.
  destruct (Nat.eqb_spec n (length l)).
  - subst. rewrite app_nth2, Nat.sub_diag by lia. reflexivity.
  - destruct (Nat.lt_ge_cases n (length l)).
    + apply app_nth1. lia.
    + rewrite !nth_overflow; auto. rewrite app_length. simpl. lia.
Qed.

Lemma nth_error_snoc {A} (l : list A) n a b :
  nth_error (l ++ [a]) n = Some b -> n = length l /\ b = a \/ nth_error l n = Some b.
Proof.
  intros H. destruct (Nat.lt_ge_cases n (length l)).
  - right. rewrite nth_error_app1 in H by lia. exact H.
  - rewrite nth_error_app2 in H by lia.
    destruct (n - length l)%nat eqn:E; simpl in H.
    + left. split; [lia|congruence].
    + destruct n0; discriminate.
Qed.

Definition is_copy (p : place * place) : cell * cell :=
  (mkCell (fst (fst p)) (a_ext (snd (fst p))) (a_index (snd (fst p)) + a_INDEX (snd (fst p))),
   mkCell (fst (snd p)) (a_ext (snd (snd p))) (a_index (snd (snd p)) + a_INDEX (snd (snd p)))).

(** [own]: which variable the index at a location belongs to. *)
Definition agree (own : list nat) (n : nat) (v : var) (e : entry) : Prop :=
  match v, e with
  | VGone, EGone => True
  | VLong l, ELong _ => nth_error own l = Some n
  | VAcc o, EAcc t =>
      o_cls o = t_cls t /\ o_const o = t_const t /\ o_data o = t_data t /\ o_ext o = t_ext t /\
      o_INDEX o = t_I t + displacement (t_ext t) (t_disp t) /\
      match t_src t with
      | Own _ => holds_pointer (o_cls o) = false /\ nth_error own (o_loc o) = Some n
      | Follows m => holds_pointer (o_cls o) = true /\ nth_error own (o_loc o) = Some m
      end
  | _, _ => False
  end.

Record R (own : list nat) (w : world) (s : ideal) : Prop := {
  R_len : length own = length (w_store w);
  R_inj : NoDup own;
  R_store : forall l m, nth_error own l = Some m ->
      (m < length (i_entries s))%nat /\ nth l (w_store w) None = own_position (entry_at s m);
  R_vars : length (w_vars w) = length (i_entries s);
  R_agree : forall n, agree own n (var_at w n) (entry_at s n);
  R_copies : i_copies s = map is_copy (w_copies w) }.

Definition matches {A B : Type} (P : A -> B -> Prop) (a : result A) (b : result B) : Prop :=
  match a, b with
  | Done x, Done y => P x y
  | IllFormed, IllFormed => True
  | Undefined, Undefined => True
  | _, _ => False
  end.

Lemma matches_bind {A B C D} (P : A -> B -> Prop) (Q : C -> D -> Prop) a b f g :
  matches P a b -> (forall x y, P x y -> matches Q (f x) (g y)) ->
  matches Q (andThen a f) (andThen b g).
Proof. destruct a, b; simpl; auto; contradiction. Qed.

Lemma R_start : R [] start nothing.
Proof.
  split; simpl; auto.
  - constructor.
  - intros [|] ? H; discriminate.
  - intros [|n]; simpl; auto.
Qed.

Lemma agree_acc own w s n : R own w s ->
  matches (fun o t => var_at w n = VAcc o /\ entry_at s n = EAcc t /\ agree own n (VAcc o) (EAcc t))
    (acc_at w n) (thing_at s n).
Proof.
  intros H. pose proof (R_agree _ _ _ H n) as G. unfold acc_at, thing_at.
  destruct (var_at w n), (entry_at s n); simpl in *; auto; contradiction.
Qed.

Lemma load_matches own w s n o t : R own w s -> entry_at s n = EAcc t ->
  agree own n (VAcc o) (EAcc t) -> matches eq (load_long w (o_loc o)) (position s t).
Proof.
  intros H E (_ & _ & _ & _ & _ & G). unfold load_long, position.
  destruct (t_src t) eqn:S.
  - destruct G as [_ G]. destruct (R_store _ _ _ H _ _ G) as [_ ->]. rewrite E. simpl. rewrite S. reflexivity.
  - destruct G as [_ G]. destruct (R_store _ _ _ H _ _ G) as [_ ->].
    destruct (own_position (entry_at s n0)); simpl; auto.
Qed.

(** The owner of the index of a thing. *)
Lemma owner_is own n o t : agree own n (VAcc o) (EAcc t) -> nth_error own (o_loc o) = Some (leader n t).
Proof. intros (_ & _ & _ & _ & _ & G). unfold leader. destruct (t_src t); tauto. Qed.

(** Adding a variable that refers to an existing index. *)
Lemma add_follower own w s o t : R own w s ->
  agree own (length (i_entries s)) (VAcc o) (EAcc t) -> (exists m, t_src t = Follows m) ->
  R own (add_var w (VAcc o)) (introduce s (EAcc t)).
Proof.
  intros [H1 H2 H3 H4 H5 H6] G (m0 & S0).
  split; simpl; auto.
  - intros l m E. destruct (H3 _ _ E) as [L ->]. rewrite app_length. split; [lia|].
    unfold entry_at. simpl. rewrite nth_snoc. destruct (Nat.eqb_spec m (length (i_entries s))); [lia|]. reflexivity.
  - rewrite !app_length. simpl. lia.
  - intros n. unfold var_at, entry_at. simpl. rewrite !nth_snoc, H4.
    destruct (Nat.eqb_spec n (length (i_entries s))).
    + subst. exact G.
    + apply H5.
Qed.

Lemma own_fresh own w s : R own w s -> ~ In (length (i_entries s)) own.
Proof.
  intros H C. apply In_nth_error in C. destruct C as (l & C).
  destruct (R_store _ _ _ H _ _ C). lia.
Qed.

Lemma NoDup_snoc {A} (l : list A) a : NoDup l -> ~ In a l -> NoDup (l ++ [a]).
Proof.
  intros H N. apply NoDup_remove_1 with (a := a) (l' := @nil A) in H || idtac.
  induction l; simpl; [repeat constructor; auto|].
  inversion H; subst. constructor.
  - rewrite in_app_iff. simpl. simpl in N. intuition.
  - apply IHl; auto. simpl in N; tauto.
Qed.

Lemma agree_snoc own m n v e : agree own n v e -> agree (own ++ [m]) n v e.
Proof.
  assert (X : forall l k, nth_error own l = Some k -> nth_error (own ++ [m]) l = Some k).
  { intros l k E. rewrite nth_error_app1; auto. apply nth_error_Some. congruence. }
  destruct v, e; simpl; auto. intuition. destruct (t_src t); intuition.
Qed.

(** Adding a variable with an index of its own. *)
Lemma add_owner own w s i v e : R own w s ->
  own_position e = Some i ->
  agree (own ++ [length (i_entries s)]) (length (i_entries s)) v e ->
  R (own ++ [length (i_entries s)])
    (mkWorld (w_store w ++ [Some i]) (w_vars w ++ [v]) (w_copies w)) (introduce s e).
Proof.
  intros H P G. pose proof (own_fresh _ _ _ H) as F. destruct H as [H1 H2 H3 H4 H5 H6].
  split; simpl; auto.
  - rewrite !app_length, H1. reflexivity.
  - apply NoDup_snoc; auto.
  - intros l m E. rewrite app_length. simpl. apply nth_error_snoc in E. destruct E as [[-> ->]|E].
    + split; [lia|]. rewrite H1, nth_snoc, Nat.eqb_refl. unfold entry_at. simpl.
      rewrite nth_snoc, Nat.eqb_refl. auto.
    + destruct (H3 _ _ E) as [L Q]. split; [lia|]. rewrite nth_snoc.
      destruct (Nat.eqb_spec l (length (w_store w))).
      { assert (l < length own)%nat by (apply nth_error_Some; congruence). lia. }
      rewrite Q. unfold entry_at. simpl. rewrite nth_snoc.
      destruct (Nat.eqb_spec m (length (i_entries s))); [lia|]. reflexivity.
  - rewrite !app_length. simpl. lia.
  - intros n. unfold var_at, entry_at. simpl. rewrite !nth_snoc, H4.
    destruct (Nat.eqb_spec n (length (i_entries s))).
    + subst. exact G.
    + apply agree_snoc, H5.
Qed.

(** Changing an index. *)
Lemma store_matches own w s n l i : R own w s -> nth_error own l = Some n ->
  matches (R own) (store_long w l i) (place_at s n i).
Proof.
  intros H E. destruct (R_store _ _ _ H _ _ E) as [L Q].
  assert (X : forall e, own_position e = Some i ->
     (forall m v, agree own m v (entry_at s n) -> agree own m v e) ->
     (n < length (i_entries s))%nat ->
     R own (mkWorld (put (w_store w) l (Some i)) (w_vars w) (w_copies w)) (replace s n e)).
  { intros e P A L'. destruct H as [H1 H2 H3 H4 H5 H6]. split; simpl; auto.
    - rewrite put_length. auto.
    - intros l' m E'. rewrite put_length. destruct (H3 _ _ E') as [L'' Q']. split; auto.
      unfold entry_at. simpl.
      destruct (Nat.eq_dec l l').
      + subst. assert (m = n) by congruence. subst. rewrite !nth_put_same; auto.
        rewrite <- H1. apply nth_error_Some. congruence.
      + rewrite !nth_put_other; auto.
        intros ->. apply n0. apply (proj1 (NoDup_nth_error own)) with (i := l) (j := l') in H2; auto.
        * apply nth_error_Some. congruence.
        * congruence.
    - rewrite put_length. auto.
    - intros m. unfold entry_at. simpl. destruct (Nat.eq_dec n m).
      + subst. rewrite nth_put_same; auto. apply A. apply H5.
      + rewrite nth_put_other; auto. apply H5. }
  unfold store_long, place_at. rewrite Q.
  destruct (entry_at s n) eqn:En; [| |exact I].
  - cbn [own_position matches]. apply X; auto.
  - cbn [own_position]. destruct (t_src t) eqn:S; simpl; auto. apply X; auto.
    intros m v. destruct v; simpl; auto. rewrite S. auto.
Qed.

(** Replacing an accessor by one that refers to existing indices. *)
Lemma replace_R own w s n v e : R own w s -> (n < length (i_entries s))%nat ->
  agree own n v e -> own_position e = own_position (entry_at s n) ->
  R own (mkWorld (w_store w) (put (w_vars w) n v) (w_copies w)) (replace s n e).
Proof.
  intros [H1 H2 H3 H4 H5 H6] L G P. split; simpl; auto.
  - intros l m E. rewrite put_length. destruct (H3 _ _ E) as [L' ->]. split; auto.
    unfold entry_at in *. simpl. destruct (Nat.eq_dec n m).
    + subst. rewrite nth_put_same; auto.
    + rewrite nth_put_other; auto.
  - rewrite !put_length. auto.
  - intros m. unfold var_at, entry_at. simpl. destruct (Nat.eq_dec n m).
    + subst. rewrite !nth_put_same; auto. rewrite H4. auto.
    + rewrite !nth_put_other; auto. apply H5.
Qed.

Lemma in_range own w s n o : R own w s -> var_at w n = VAcc o -> (n < length (i_entries s))%nat.
Proof.
  intros H E. rewrite <- (R_vars _ _ _ H). destruct (Nat.lt_ge_cases n (length (w_vars w))); auto.
  unfold var_at in E. rewrite nth_overflow in E by lia. discriminate.
Qed.

Lemma alike_types own n m x y p q : agree own n (VAcc x) (EAcc p) -> agree own m (VAcc y) (EAcc q) ->
  same_type x y = alike p q.
Proof.
  intros (A1 & A2 & A3 & A4 & A5 & A6) (B1 & B2 & B3 & B4 & B5 & B6).
  unfold same_type, alike. rewrite A1, A4, A5, B1, B4, B5. reflexivity.
Qed.

Lemma same_class_holds a b : same_class a b = true -> holds_pointer a = holds_pointer b.
Proof. destruct a, b; simpl; congruence. Qed.

Lemma alike_class a b : alike a b = true -> same_class (t_cls a) (t_cls b) = true.
Proof. unfold alike. rewrite !andb_true_iff. tauto. Qed.

Definition step_R (w : world) (s : ideal) : Prop := exists own, R own w s.

Lemma INDEX_displaced o t c : o_ext o = t_ext t ->
  o_INDEX o = t_I t + displacement (t_ext t) (t_disp t) ->
  sub_INDEX o c = t_I t + displacement (t_ext t) (plus (t_disp t) c).
Proof.
  intros E1 E2. unfold sub_INDEX, LFA_INDEX, displacement, plus in *.
  destruct c as [[X Y] Z0]. destruct (t_disp t) as [[x y] z]. rewrite E2, E1. ring.
Qed.

Theorem exec_matches own w s st : R own w s -> matches step_R (exec w st) (ideal_exec s st).
Proof.
  intros H. destruct st; cbn [exec ideal_exec].
  - (* NewLong *)
    cbn [add_long]. unfold add_var. cbn. exists (own ++ [length (i_entries s)]).
    apply add_owner; auto. simpl. rewrite <- (R_len _ _ _ H), nth_error_app2, Nat.sub_diag by lia. reflexivity.
  - (* NewHolding *)
    destruct k; simpl; auto;
      (exists (own ++ [length (i_entries s)]); unfold new_holding, add_var; cbn [add_long w_store w_vars w_copies]; apply add_owner; auto; simpl;
       rewrite <- (R_len _ _ _ H), nth_error_app2, Nat.sub_diag by lia; simpl;
       repeat split; auto; destruct e; simpl; lia).
  - (* NewLight *)
    pose proof (R_agree _ _ _ H l) as G.
    assert (X : forall k l0 i, holds_pointer k = true -> var_at w l = VLong l0 -> entry_at s l = ELong i ->
      step_R (new_pointing w k cq d e I l0) (introduce s (EAcc (mkThing k cq d e I (0, 0, 0) (Follows l))))).
    { intros k0 l0 i Hk E1 E2. rewrite E1, E2 in G. exists own. apply add_follower; auto; [|eexists; reflexivity].
      simpl. simpl in G. repeat split; auto. lia. }
    destruct k; simpl; auto; unfold long_at; destruct (var_at w l) eqn:E1, (entry_at s l) eqn:E2;
      simpl in G |- *; auto; try contradiction; eapply X; eauto.
  - (* Sub *)
    eapply matches_bind; [apply (agree_acc _ _ _ x H)|].
    intros o t (E1 & E2 & G). pose proof (load_matches _ _ _ _ _ _ H E2 G) as LM.
    pose proof (owner_is _ _ _ _ G) as OI.
    destruct G as (A1 & A2 & A3 & A4 & A5 & A6).
    pose proof (INDEX_displaced o t c A4 A5) as ID.
    assert (F : forall k, holds_pointer k = true ->
       step_R (new_pointing w k cq (o_data o) (o_ext o) (sub_INDEX o c) (o_loc o))
         (introduce s (EAcc (mkThing k cq (t_data t) (t_ext t) (t_I t) (plus (t_disp t) c) (Follows (leader x t)))))).
    { intros k Hk. exists own. apply add_follower; auto; [|eexists; reflexivity]. simpl. repeat split; auto. }
    assert (F2 : forall i, step_R (new_holding w ConstSoa cq (o_data o) (o_ext o) (sub_INDEX o c) i)
         (introduce s (EAcc (mkThing ConstSoa cq (t_data t) (t_ext t) (t_I t) (plus (t_disp t) c) (Own i))))).
    { intros i. exists (own ++ [length (i_entries s)]). unfold new_holding, add_var. cbn [add_long w_store w_vars w_copies].
      apply add_owner; auto. simpl.
      rewrite <- (R_len _ _ _ H), nth_error_app2, Nat.sub_diag by lia. repeat split; auto. }
    unfold sub. rewrite A1, A2. destruct (t_cls t), (t_const t); cbn [sub_class holds_pointer]; simpl; auto;
      (eapply matches_bind; [exact LM|]; intros i j ->; simpl; auto).
  - (* Copy *)
    eapply matches_bind; [apply (agree_acc _ _ _ x H)|].
    intros o t (E1 & E2 & G). pose proof (load_matches _ _ _ _ _ _ H E2 G) as LM.
    destruct G as (A1 & A2 & A3 & A4 & A5 & A6). unfold copy.
    destruct (t_src t) eqn:S; destruct A6 as [A6 A7]; rewrite A6.
    + unfold position in LM. rewrite S in LM. destruct (load_long w (o_loc o)); simpl in LM; try contradiction.
      subst. simpl. unfold new_holding, add_var. cbn [add_long w_store w_vars w_copies].
      exists (own ++ [length (i_entries s)]). apply add_owner; auto. simpl.
      rewrite <- (R_len _ _ _ H), nth_error_app2, Nat.sub_diag by lia. repeat split; auto; congruence.
    + simpl. exists own. apply add_follower; auto; [|eexists; reflexivity]. simpl. repeat split; auto.
  - (* Assign *)
    eapply matches_bind; [apply (agree_acc _ _ _ x H)|]. intros o t (E1 & E2 & G).
    eapply matches_bind; [apply (agree_acc _ _ _ y H)|]. intros o' t' (E1' & E2' & G').
    pose proof (load_matches _ _ _ _ _ _ H E2 G) as LM.
    pose proof (load_matches _ _ _ _ _ _ H E2' G') as LM'.
    pose proof (alike_types _ _ _ _ _ _ _ G G') as AT.
    pose proof (in_range _ _ _ _ _ H E1) as IR.
    destruct G as (A1 & A2 & A3 & A4 & A5 & A6). destruct G' as (B1 & B2 & B3 & B4 & B5 & B6).
    unfold assign. rewrite A2. destruct (t_const t) eqn:TC; [exact I|]. rewrite AT.
    destruct (alike t t') eqn:AL.
    + pose proof (same_class_holds _ _ (alike_class _ _ AL)) as HP. rewrite <- A1, <- B1 in HP.
      destruct (t_src t) as [i|m] eqn:S; destruct A6 as [A6 A7]; rewrite A6.
      * rewrite A6 in HP. destruct (t_src t') as [j|] eqn:S'; destruct B6 as [B6 B7]; [|congruence].
        unfold position in LM'. rewrite S' in LM'. destruct (load_long w (o_loc o')); simpl in LM'; try contradiction.
        subst. simpl.
        pose proof (store_matches _ _ _ _ _ j H A7) as SM.
        unfold place_at in SM. rewrite E2, S in SM.
        destruct (store_long w (o_loc o) j) as [w'| |] eqn:SL; simpl in SM; try contradiction.
        simpl. exists own.
        assert (Q : i_entries (replace s x (EAcc (mkThing (t_cls t) false (t_data t') (t_ext t) (t_I t) (t_disp t) (Own j))))
          = i_entries (replace (replace s x (EAcc (mkThing (t_cls t) (t_const t) (t_data t) (t_ext t) (t_I t) (t_disp t) (Own j)))) x
               (EAcc (mkThing (t_cls t) false (t_data t') (t_ext t) (t_I t) (t_disp t) (Own j))))).
        { simpl. clear. revert x. induction (i_entries s); destruct x; simpl; auto. rewrite <- IHl; auto. }
        assert (Q' : replace s x (EAcc (mkThing (t_cls t) false (t_data t') (t_ext t) (t_I t) (t_disp t) (Own j)))
          = replace (replace s x (EAcc (mkThing (t_cls t) (t_const t) (t_data t) (t_ext t) (t_I t) (t_disp t) (Own j)))) x
               (EAcc (mkThing (t_cls t) false (t_data t') (t_ext t) (t_I t) (t_disp t) (Own j)))).
        { unfold replace in *. simpl in Q. simpl. rewrite <- Q. reflexivity. }
        rewrite Q'. apply replace_R; auto.
        -- simpl. rewrite put_length. auto.
        -- simpl. repeat split; auto; congruence.
        -- unfold entry_at. simpl. rewrite nth_put_same; auto.
      * rewrite A6 in HP. destruct (t_src t') as [j|] eqn:S'; destruct B6 as [B6 B7]; [congruence|].
        simpl. exists own. apply replace_R; auto.
        -- simpl. repeat split; auto; congruence.
        -- simpl. rewrite E2. simpl. rewrite S. reflexivity.
    + rewrite A1. destruct (t_cls t) eqn:TCl; simpl; auto;
        (eapply matches_bind; [exact LM|]; intros i i' ->;
         eapply matches_bind; [exact LM'|]; intros j j' ->; simpl;
         exists own; destruct H as [H1 H2 H3 H4 H5 H6]; split; simpl; auto;
         rewrite H6; f_equal; unfold is_copy, cell_of, place_of; simpl;
         rewrite A3, A4, A5, B3, B4, B5; f_equal; f_equal; lia).
  - (* Advance *)
    eapply matches_bind; [apply (agree_acc _ _ _ x H)|]. intros o t (E1 & E2 & G).
    pose proof (load_matches _ _ _ _ _ _ H E2 G) as LM. pose proof (owner_is _ _ _ _ G) as OI.
    destruct G as (A1 & A2 & A3 & A4 & A5 & A6). unfold advance. rewrite A2.
    destruct (t_const t); [exact I|]. eapply matches_bind; [exact LM|]. intros i j ->.
    pose proof (store_matches _ _ _ _ _ (j + d) H OI) as SM. revert SM.
    destruct (store_long w (o_loc o) (j + d)), (place_at s (leader x t) (j + d)); simpl; auto. intros; exists own; auto.
  - (* SetIndex *)
    eapply matches_bind; [apply (agree_acc _ _ _ x H)|]. intros o t (E1 & E2 & G).
    pose proof (load_matches _ _ _ _ _ _ H E2 G) as LM. pose proof (owner_is _ _ _ _ G) as OI.
    destruct G as (A1 & A2 & A3 & A4 & A5 & A6). unfold set_index. rewrite A2.
    destruct (t_const t); [exact I|].
    pose proof (store_matches _ _ _ _ _ i H OI) as SM. unfold store_long, load_long in *.
    destruct (nth (o_loc o) (w_store w) None), (position s t); simpl in *; auto; try contradiction.
    destruct (place_at s (leader x t) i); simpl in *; auto. exists own; auto.
  - (* SetLong *)
    pose proof (R_agree _ _ _ H l) as G. unfold long_at.
    destruct (var_at w l) eqn:E1, (entry_at s l) eqn:E2; simpl in G |- *; auto; try contradiction.
    pose proof (store_matches _ _ _ _ _ i H G) as SM. revert SM.
    destruct (store_long w l0 i), (place_at s l i); simpl; auto. intros; exists own; auto.
  - (* Drop *)
    pose proof (R_agree _ _ _ H n) as G. unfold drop.
    assert (X : forall l, nth_error own l = Some n ->
       R own (mkWorld (put (w_store w) l None) (put (w_vars w) n VGone) (w_copies w)) (replace s n EGone)).
    { intros l E. destruct (R_store _ _ _ H _ _ E) as [IR _]. destruct H as [H1 H2 H3 H4 H5 H6]. split; simpl; auto.
      - rewrite put_length; auto.
      - intros l' m E'. rewrite put_length. destruct (H3 _ _ E') as [L' Q]. split; auto.
        unfold entry_at. simpl. destruct (Nat.eq_dec l l').
        + subst. assert (m = n) by congruence. subst. rewrite !nth_put_same; auto.
          rewrite <- H1. apply nth_error_Some. congruence.
        + rewrite !nth_put_other; auto. intros ->. apply n0.
          apply (proj1 (NoDup_nth_error own)) with (i := l) (j := l') in H2; auto.
          * apply nth_error_Some. congruence.
          * congruence.
      - rewrite !put_length; auto.
      - intros m. unfold var_at, entry_at. simpl. destruct (Nat.eq_dec n m).
        + subst. rewrite !nth_put_same; auto; first [exact I | rewrite H4; auto].
        + rewrite !nth_put_other; auto. apply H5. }
    destruct (var_at w n) as [l|o|] eqn:E1, (entry_at s n) as [i|t|] eqn:E2; simpl in G |- *; auto; try contradiction.
    + exists own. auto.
    + destruct G as (A1 & A2 & A3 & A4 & A5 & A6). destruct (t_src t) eqn:S; destruct A6 as [A6 A7]; rewrite A6.
      * exists own. auto.
      * exists own. apply replace_R; auto.
        -- eapply in_range; eauto.
        -- exact I.
        -- rewrite E2. simpl. rewrite S. reflexivity.
Qed.

Theorem execs_match p : forall w s, step_R w s -> matches step_R (execs w p) (ideal_execs s p).
Proof.
  induction p as [|st p IH]; intros w s (own & H); simpl.
  - exists own; auto.
  - eapply matches_bind; [apply (exec_matches _ _ _ _ H)|]. intros. apply IH. auto.
Qed.

Theorem index_matches w s n : step_R w s -> matches eq (index_of w n) (ideal_index s n).
Proof.
  intros (own & H). unfold index_of, ideal_index.
  eapply matches_bind; [apply (agree_acc _ _ _ n H)|]. intros o t (E1 & E2 & G). eapply load_matches; eauto.
Qed.

Theorem address_matches ms w s n j k : step_R w s ->
  matches eq (address_of ms w n j k) (andThen (ideal_cell s n) (fun c => Done (cell_member ms c j k))).
Proof.
  intros (own & H). unfold address_of, ideal_cell.
  pose proof (agree_acc _ _ _ n H) as AA.
  destruct (acc_at w n) as [o| |], (thing_at s n) as [t| |]; simpl in *; auto; try contradiction.
  destruct AA as (E1 & E2 & G). pose proof (load_matches _ _ _ _ _ _ H E2 G) as LM.
  destruct (load_long w (o_loc o)) as [i| |], (position s t) as [i'| |]; simpl in *; auto; try contradiction. subst i'.
  destruct G as (A1 & A2 & A3 & A4 & A5 & A6).
  unfold member_addr, cell_member, cell_of. simpl.
  destruct (nth_error ms j); auto. destruct (offset ms j); auto. f_equal.
  rewrite A3, A4, A5. ring.
Qed.

Theorem equals_match w s n m : step_R w s -> matches eq (equals w n m) (ideal_equals s n m).
Proof.
  intros (own & H). unfold equals, ideal_equals.
  eapply matches_bind; [apply (agree_acc _ _ _ n H)|]. intros o t (E1 & E2 & G).
  eapply matches_bind; [apply (agree_acc _ _ _ m H)|]. intros o' t' (E1' & E2' & G').
  rewrite (alike_types _ _ _ _ _ _ _ G G'). destruct (alike t t') eqn:AL; [|exact I].
  eapply matches_bind; [eapply load_matches; eauto|]. intros i i' <-.
  eapply matches_bind; [eapply load_matches; eauto|]. intros j j' <-.
  destruct G as (A1 & A2 & A3 & A4 & A5 & A6). destruct G' as (B1 & B2 & B3 & B4 & B5 & B6).
  pose proof (same_class_holds _ _ (alike_class _ _ AL)) as HP. rewrite <- A1, <- B1 in HP.
  simpl. rewrite A3, B3. f_equal.
  destruct (t_src t), (t_src t'); destruct A6 as [A6 A7]; destruct B6 as [B6 B7]; rewrite A6; auto; try congruence.
  destruct (Nat.eqb_spec (o_loc o) (o_loc o')), (Nat.eqb_spec n0 n1); auto.
  - congruence.
  - subst. exfalso. apply n2. apply (proj1 (NoDup_nth_error own)); [apply (R_inj _ _ _ H)| |congruence].
    apply nth_error_Some. congruence.
Qed.

(** ** Consequences, on the ideal side *)

(** Statement [st] assigns to variable [n] or ends its lifetime. *)
Definition disturbs (n : nat) (st : stmt) : bool :=
  match st with
  | Assign x _ => Nat.eqb x n
  | Drop x => Nat.eqb x n
  | _ => false
  end.

Definition with_src (t : thing) (s : source) : thing :=
  mkThing (t_cls t) (t_const t) (t_data t) (t_ext t) (t_I t) (t_disp t) s.

Definition same_kind (a b : source) : Prop :=
  match a, b with Own _, Own _ => True | Follows m, Follows k => m = k | _, _ => False end.

Lemma same_kind_refl a : same_kind a a.
Proof. destruct a; simpl; auto. Qed.

Lemma with_src_id t : with_src t (t_src t) = t.
Proof. destruct t; reflexivity. Qed.

Lemma in_entries s n t : entry_at s n = EAcc t -> (n < length (i_entries s))%nat.
Proof.
  intros E. destruct (Nat.lt_ge_cases n (length (i_entries s))); auto.
  unfold entry_at in E. rewrite nth_overflow in E by lia. discriminate.
Qed.

Lemma introduce_entry s e n : (n < length (i_entries s))%nat -> entry_at (introduce s e) n = entry_at s n.
Proof.
  intros L. unfold entry_at. simpl. rewrite nth_snoc. destruct (Nat.eqb_spec n (length (i_entries s))); [lia|]. reflexivity.
Qed.

Lemma replace_entry s e n m : (m < length (i_entries s))%nat ->
  entry_at (replace s n e) m = if Nat.eqb n m then e else entry_at s m.
Proof.
  intros L. unfold entry_at. simpl. destruct (Nat.eqb_spec n m).
  - subst. apply nth_put_same; auto.
  - apply nth_put_other; auto.
Qed.

(** What a statement can do to an accessor it does not disturb: move it. *)
Lemma place_at_keeps s s' m i n t : place_at s m i = Done s' -> entry_at s n = EAcc t ->
  exists r, entry_at s' n = EAcc (with_src t r) /\ same_kind (t_src t) r /\
            (n <> m -> r = t_src t) /\ length (i_entries s') = length (i_entries s).
Proof.
  intros P E. pose proof (in_entries _ _ _ E) as L. unfold place_at in P.
  destruct (entry_at s m) as [z|u|] eqn:Em; try discriminate.
  - inversion P; subst; clear P. rewrite replace_entry by auto.
    destruct (Nat.eqb_spec m n); [subst; congruence|].
    exists (t_src t). rewrite with_src_id. split; auto. split; [apply same_kind_refl|]. simpl. rewrite put_length. auto.
  - destruct (t_src u) eqn:S; try discriminate. inversion P; subst; clear P. rewrite replace_entry by auto.
    destruct (Nat.eqb_spec m n).
    + subst. assert (u = t) by congruence. subst u. exists (Own i). split; auto. rewrite S. simpl. rewrite put_length. repeat split; auto. congruence.
    + exists (t_src t). rewrite with_src_id. split; auto. split; [apply same_kind_refl|]. simpl. rewrite put_length. auto.
Qed.

Lemma andThen_done {A B} (r : result A) (f : A -> result B) b :
  andThen r f = Done b -> exists a, r = Done a /\ f a = Done b.
Proof. destruct r; simpl; intros; try discriminate. eauto. Qed.

Ltac peel H := let a := fresh "a" in let E := fresh "E" in
  apply andThen_done in H; destruct H as (a & E & H).

Lemma replace_length s n e : length (i_entries (replace s n e)) = length (i_entries s).
Proof. apply put_length. Qed.
Lemma introduce_length s e : length (i_entries (introduce s e)) = S (length (i_entries s)).
Proof. simpl. rewrite app_length. simpl. lia. Qed.

(** Index of the variable a statement moves: [None] if none. *)
Definition moves (s : ideal) (st : stmt) : option nat :=
  match st with
  | Advance x _ | SetIndex x _ => match entry_at s x with EAcc t => Some (leader x t) | _ => None end
  | SetLong l _ => Some l
  | _ => None
  end.

Lemma step_keeps s s' st n t : ideal_exec s st = Done s' -> entry_at s n = EAcc t -> disturbs n st = false ->
  exists r, entry_at s' n = EAcc (with_src t r) /\ same_kind (t_src t) r /\
            (moves s st <> Some n -> r = t_src t).
Proof.
  intros X E D. pose proof (in_entries _ _ _ E) as L.
  assert (I1 : forall e, Done (introduce s e) = Done s' ->
     exists r, entry_at s' n = EAcc (with_src t r) /\ same_kind (t_src t) r /\ (moves s st <> Some n -> r = t_src t)).
  { intros e Q. inversion Q; subst. rewrite introduce_entry by auto. exists (t_src t). rewrite with_src_id.
    split; auto. split; auto. apply same_kind_refl. }
  assert (I2 : forall m e, n <> m -> Done (replace s m e) = Done s' ->
     exists r, entry_at s' n = EAcc (with_src t r) /\ same_kind (t_src t) r /\ (moves s st <> Some n -> r = t_src t)).
  { intros m e N Q. inversion Q; subst. rewrite replace_entry by auto. destruct (Nat.eqb_spec m n); [congruence|].
    exists (t_src t). rewrite with_src_id. split; auto. split; auto. apply same_kind_refl. }
  assert (I3 : forall m i, moves s st = Some m -> place_at s m i = Done s' ->
     exists r, entry_at s' n = EAcc (with_src t r) /\ same_kind (t_src t) r /\ (moves s st <> Some n -> r = t_src t)).
  { intros m i M Q. destruct (place_at_keeps _ _ _ _ _ _ Q E) as (r & R1 & R2 & R3 & _).
    exists r. split; auto. split; auto. rewrite M. intros. apply R3. congruence. }
  destruct st; cbn [ideal_exec disturbs moves] in *.
  - eauto.
  - destruct (follower k); [discriminate|]. eauto.
  - destruct (follower k); [|discriminate]. destruct (entry_at s l); try discriminate; eauto.
  - peel X. destruct (t_cls a), (t_const a); try discriminate; peel X; eauto.
  - peel X. eauto.
  - peel X. peel X. destruct (t_const a); [discriminate|]. apply Nat.eqb_neq in D. destruct (alike a a0); [eauto|].
    assert (K : forall c, Done (mkIdeal (i_entries s) c) = Done s' ->
      exists r, entry_at s' n = EAcc (with_src t r) /\ same_kind (t_src t) r /\ (@None nat <> Some n -> r = t_src t)).
    { intros c Q. inversion Q; subst. exists (t_src t). rewrite with_src_id. split; auto. split; auto. apply same_kind_refl. }
    destruct (t_cls a); try discriminate; peel X; peel X; eauto.
  - peel X. destruct (t_const a); [discriminate|]. peel X. unfold thing_at in E0.
    destruct (entry_at s x) eqn:Ex; try discriminate. inversion E0; subst. eauto.
  - peel X. destruct (t_const a); [discriminate|]. peel X. unfold thing_at in E0.
    destruct (entry_at s x) eqn:Ex; try discriminate. inversion E0; subst. eauto.
  - destruct (entry_at s l); try discriminate. eauto.
  - apply Nat.eqb_neq in D. destruct (entry_at s n0); try discriminate; eauto.
Qed.

(** A program that does not disturb [n] keeps everything of it but its position. *)
Lemma program_keeps q : forall s s' n t, ideal_execs s q = Done s' -> entry_at s n = EAcc t ->
  forallb (fun st => negb (disturbs n st)) q = true ->
  exists r, entry_at s' n = EAcc (with_src t r) /\ same_kind (t_src t) r.
Proof.
  induction q as [|st q IH]; intros s s' n t X E D; simpl in *.
  - inversion X; subst. exists (t_src t). rewrite with_src_id. split; auto. apply same_kind_refl.
  - peel X. apply andb_true_iff in D. destruct D as [D1 D2]. apply negb_true_iff in D1.
    destruct (step_keeps _ _ _ _ _ E0 E D1) as (r & R1 & R2 & _).
    destruct (IH _ _ _ _ X R1 D2) as (r' & R3 & R4).
    exists r'. split; auto. simpl in R4. destruct (t_src t), r, r'; simpl in *; auto; try contradiction; congruence.
Qed.

(** Who can be followed: a [long] or a soa_accessor, and it stays so. *)
Definition followable (e : entry) : Prop :=
  match e with
  | ELong _ | EGone => True
  | EAcc t => t_cls t = Soa /\ t_const t = false
  end.
Definition sound (s : ideal) : Prop :=
  forall n t, entry_at s n = EAcc t ->
    match t_src t with
    | Own _ => follower (t_cls t) = false
    | Follows m => follower (t_cls t) = true /\ (m < length (i_entries s))%nat /\ followable (entry_at s m)
    end.

Lemma followable_keeps s s' st m : sound s -> ideal_exec s st = Done s' -> (m < length (i_entries s))%nat ->
  followable (entry_at s m) -> (m < length (i_entries s'))%nat /\ followable (entry_at s' m).
Proof.
  intros SD X L F.
  assert (I1 : forall e, Done (introduce s e) = Done s' -> (m < length (i_entries s'))%nat /\ followable (entry_at s' m)).
  { intros e Q. inversion Q; subst. rewrite introduce_length, introduce_entry by auto. split; auto. }
  assert (I2 : forall n e, followable e -> Done (replace s n e) = Done s' -> (m < length (i_entries s'))%nat /\ followable (entry_at s' m)).
  { intros n e G Q. inversion Q; subst. rewrite replace_length, replace_entry by auto. split; auto. destruct (Nat.eqb n m); auto. }
  assert (I3 : forall n i, place_at s n i = Done s' -> (m < length (i_entries s'))%nat /\ followable (entry_at s' m)).
  { intros n i Q. unfold place_at in Q. destruct (entry_at s n) eqn:En; try discriminate.
    - eapply I2; [|exact Q]. exact I.
    - destruct (t_src t) eqn:S; try discriminate. inversion Q; subst. rewrite replace_length, replace_entry by auto.
      split; auto. destruct (Nat.eqb_spec n m); auto. subst. rewrite En in F. exact F. }
  destruct st; cbn [ideal_exec] in *.
  - eauto.
  - destruct (follower k); [discriminate|]. eauto.
  - destruct (follower k); [|discriminate]. destruct (entry_at s l); try discriminate; eauto.
  - peel X. destruct (t_cls a), (t_const a); try discriminate; peel X; eauto.
  - peel X. eauto.
  - peel X. peel X. destruct (t_const a) eqn:C; [discriminate|]. destruct (alike a a0) eqn:A.
    + inversion X; subst. rewrite replace_length, replace_entry by auto. split; auto.
      destruct (Nat.eqb_spec x m); auto. subst. unfold thing_at in E. destruct (entry_at s m); try discriminate.
      inversion E; subst. simpl in *. tauto.
    + destruct (t_cls a); try discriminate; peel X; peel X; inversion X; subst; split; auto.
  - peel X. destruct (t_const a); [discriminate|]. peel X. eauto.
  - peel X. destruct (t_const a); [discriminate|]. peel X. eauto.
  - destruct (entry_at s l); try discriminate. eauto.
  - destruct (entry_at s n); try discriminate; (eapply I2; [|exact X]; exact I).
Qed.

Lemma follower_pointer k : follower k = holds_pointer k.
Proof. destruct k; reflexivity. Qed.

Lemma sound_step s s' st : sound s -> ideal_exec s st = Done s' -> sound s'.
Proof.
  intros SD X n t E.
  assert (K : forall m, (m < length (i_entries s))%nat -> followable (entry_at s m) ->
     (m < length (i_entries s'))%nat /\ followable (entry_at s' m)) by (intros; eapply followable_keeps; eauto).
  set (OK := fun t : thing => match t_src t with
    | Own _ => follower (t_cls t) = false
    | Follows m => follower (t_cls t) = true /\ (m < length (i_entries s'))%nat /\ followable (entry_at s' m)
    end).
  change (OK t).
  assert (OLD : forall m u, entry_at s m = EAcc u -> OK u).
  { intros m u Eu. pose proof (SD _ _ Eu) as Q. unfold OK. destruct (t_src u); auto. destruct Q as (Q1 & Q2 & Q3).
    split; auto. }
  assert (LEAD : forall m u, entry_at s m = EAcc u -> (follower (t_cls u) = true \/ t_cls u = Soa /\ t_const u = false) ->
     (leader m u < length (i_entries s'))%nat /\ followable (entry_at s' (leader m u))).
  { intros m u Eu Q. pose proof (SD _ _ Eu) as Q'. unfold leader. destruct (t_src u) eqn:S.
    - apply K; [eapply in_entries; eauto|]. rewrite Eu. simpl. destruct Q as [Q|Q]; [congruence|]. auto.
    - destruct Q' as (Q1 & Q2 & Q3). apply K; auto. }
  assert (I1 : forall e, Done (introduce s e) = Done s' -> (forall u, e = EAcc u -> OK u) -> OK t).
  { intros e Q O. inversion Q; subst s'. unfold entry_at in E. simpl in E. rewrite nth_snoc in E.
    destruct (Nat.eqb_spec n (length (i_entries s))); [apply O; auto|]. eapply OLD. exact E. }
  assert (I2 : forall m e, Done (replace s m e) = Done s' -> (forall u, e = EAcc u -> OK u) -> OK t).
  { intros m e Q O. inversion Q; subst s'. destruct (Nat.lt_ge_cases n (length (i_entries s))).
    - rewrite replace_entry in E by auto. destruct (Nat.eqb m n); [apply O; auto|]. eapply OLD; eauto.
    - unfold entry_at in E. simpl in E. rewrite nth_overflow in E by (rewrite put_length; lia). discriminate. }
  assert (I3 : forall m i, place_at s m i = Done s' -> OK t).
  { intros m i Q. unfold place_at in Q. destruct (entry_at s m) eqn:En; try discriminate.
    - eapply I2; [exact Q|]. intros; discriminate.
    - destruct (t_src t0) eqn:S; try discriminate. eapply I2; [exact Q|]. intros u U. inversion U; subst.
      pose proof (OLD _ _ En) as O. unfold OK in *. rewrite S in O. simpl. exact O. }
  assert (TH : forall m a, thing_at s m = Done a -> entry_at s m = EAcc a).
  { unfold thing_at. intros m a. destruct (entry_at s m); intros Q; inversion Q; auto. }
  destruct st; cbn [ideal_exec] in X.
  - eapply I1; [exact X|]. intros; discriminate.
  - destruct (follower k) eqn:Fk; [discriminate|]. eapply I1; [exact X|]. intros u U. inversion U; subst. exact Fk.
  - destruct (follower k) eqn:Fk; [|discriminate]. destruct (entry_at s l) eqn:El; try discriminate.
    eapply I1; [exact X|]. intros u U. inversion U; subst. unfold OK. simpl. split; auto. apply K.
    + destruct (Nat.lt_ge_cases l (length (i_entries s))); auto. unfold entry_at in El. rewrite nth_overflow in El by lia. discriminate.
    + rewrite El. constructor.
  - peel X. apply TH in E0. pose proof (LEAD _ _ E0) as LL.
    destruct (t_cls a), (t_const a); try discriminate; peel X; eapply I1; try exact X;
      intros u U; inversion U; subst; unfold OK; simpl; auto.
  - peel X. apply TH in E0. eapply I1; [exact X|]. intros u U. inversion U; subst. apply (OLD _ _ E0).
  - peel X. peel X. apply TH in E0. apply TH in E1. destruct (t_const a) eqn:C; [discriminate|]. destruct (alike a a0) eqn:A.
    + eapply I2; [exact X|]. intros u U. inversion U; subst. pose proof (OLD _ _ E1) as O.
      pose proof (same_class_holds _ _ (alike_class _ _ A)) as HP. rewrite <- !follower_pointer in HP.
      unfold OK in *. simpl. rewrite HP. exact O.
    + destruct (t_cls a); try discriminate; peel X; peel X; inversion X; subst; eapply OLD; eauto.
  - peel X. destruct (t_const a); [discriminate|]. peel X. eauto.
  - peel X. destruct (t_const a); [discriminate|]. peel X. eauto.
  - destruct (entry_at s l); try discriminate. eauto.
  - destruct (entry_at s n0); try discriminate; (eapply I2; [exact X|]; intros; discriminate).
Qed.

Lemma sound_start : sound nothing.
Proof. intros [|n] t E; discriminate. Qed.

Lemma sound_execs q : forall s s', sound s -> ideal_execs s q = Done s' -> sound s'.
Proof.
  induction q as [|st q IH]; intros s s' SD X; simpl in X.
  - inversion X; subst; auto.
  - peel X. eapply IH; [|exact X]. eapply sound_step; eauto.
Qed.

Lemma gone_stays s s' st n : ideal_exec s st = Done s' -> entry_at s n = EGone -> (n < length (i_entries s))%nat ->
  entry_at s' n = EGone /\ (n < length (i_entries s'))%nat.
Proof.
  intros X G L.
  assert (I1 : forall e, Done (introduce s e) = Done s' -> entry_at s' n = EGone /\ (n < length (i_entries s'))%nat).
  { intros e Q. inversion Q; subst. rewrite introduce_length, introduce_entry by auto. split; auto. }
  assert (I2 : forall m e, (m = n -> e = EGone) -> Done (replace s m e) = Done s' -> entry_at s' n = EGone /\ (n < length (i_entries s'))%nat).
  { intros m e N Q. inversion Q; subst. rewrite replace_length, replace_entry by auto. split; auto.
    destruct (Nat.eqb_spec m n); auto. }
  assert (I3 : forall m i, place_at s m i = Done s' -> entry_at s' n = EGone /\ (n < length (i_entries s'))%nat).
  { intros m i Q. unfold place_at in Q. destruct (entry_at s m) eqn:Em; try discriminate.
    - eapply I2; [|exact Q]. intros ->. congruence.
    - destruct (t_src t); try discriminate. eapply I2; [|exact Q]. intros ->. congruence. }
  destruct st; cbn [ideal_exec] in *.
  - eauto.
  - destruct (follower k); [discriminate|]. eauto.
  - destruct (follower k); [|discriminate]. destruct (entry_at s l); try discriminate; eauto.
  - peel X. destruct (t_cls a), (t_const a); try discriminate; peel X; eauto.
  - peel X. eauto.
  - peel X. peel X. destruct (t_const a) eqn:C; [discriminate|]. destruct (alike a a0) eqn:A.
    + eapply I2; [|exact X]. intros ->. unfold thing_at in E. rewrite G in E. discriminate.
    + destruct (t_cls a); try discriminate; peel X; peel X; inversion X; subst; split; auto.
  - peel X. destruct (t_const a); [discriminate|]. peel X. eauto.
  - peel X. destruct (t_const a); [discriminate|]. peel X. eauto.
  - destruct (entry_at s l); try discriminate. eauto.
  - destruct (entry_at s n0); try discriminate; (eapply I2; [|exact X]; auto).
Qed.
