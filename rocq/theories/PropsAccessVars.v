(** Statements C67, C68: accessor objects, their indices, assignment and comparison. *)
From Coq Require Import ZArith List Bool Lia.
From Verif Require Import Layout AccessVars SpecAccessVars AccessVarsProofs.
Import ListNotations.
Open Scope Z_scope.

(** ** C67 *)
(** Every program with accessors does what the pointer-free description says: it is
    ill-formed or undefined in the same cases, and all observations agree (the index,
    the address of every member, comparisons, the cells copied). *)
Theorem C67_programs : forall p,
  match execs start p, ideal_execs nothing p with
  | Done w, Done s =>
      (forall n, index_of w n = ideal_index s n) /\
      (forall ms n j k, address_of ms w n j k =
         match ideal_cell s n with
         | Done c => Done (cell_member ms c j k)
         | IllFormed => IllFormed
         | Undefined => Undefined
         end) /\
      (forall n m, equals w n m = ideal_equals s n m) /\
      map (fun x => (mkCell (fst (fst x)) (a_ext (snd (fst x))) (a_index (snd (fst x)) + a_INDEX (snd (fst x))),
                     mkCell (fst (snd x)) (a_ext (snd (snd x))) (a_index (snd (snd x)) + a_INDEX (snd (snd x)))))
          (w_copies w) = i_copies s
  | IllFormed, IllFormed => True
  | Undefined, Undefined => True
  | _, _ => False
  end.
Proof.
  intros p. pose proof (execs_match p start nothing (ex_intro _ [] R_start)) as M.
  assert (EQ : forall A (a b : result A), matches eq a b -> a = b).
  { intros A [] [] H; simpl in H; try contradiction; congruence. }
  destruct (execs start p) as [w| |], (ideal_execs nothing p) as [s| |]; simpl in M; auto.
  split; [intros; apply EQ, index_matches; auto|].
  split; [intros; rewrite (EQ _ _ _ (address_matches ms w s n j k M)); destruct (ideal_cell s n); reflexivity|].
  split; [intros; apply EQ, equals_match; auto|].
  destruct M as (own & M). symmetry. apply (R_copies _ _ _ M).
Qed.

Definition e842 : extent := mkExt 8 4 2.

(** acc at (1,1,0), n = acc[coord<-1,1,1>()], ++acc: n has moved along. *)
Example C67_programs_case :
  let p := [NewHolding Soa false 1000 e842 0 9; Sub false 0 (-1, 1, 1); Advance 0 1] in
  match execs start p with
  | Done w => index_of w 1 = Done 10 /\
              address_of [mkMember 8 None false []] w 1 0 0 = Done (Some (1000 + (10 - 1 + 8 + 32) * 8))
  | _ => False
  end.
Proof. split; reflexivity. Qed.

(** The statement assigns to variable [n] or ends its lifetime. *)
Definition touches (n : nat) (st : stmt) : Prop :=
  match st with
  | Assign x _ => x = n
  | Drop x => x = n
  | _ => False
  end.

Lemma untouched : forall n q, Forall (fun st => ~ touches n st) q ->
  forallb (fun st => negb (disturbs n st)) q = true.
Proof.
  intros n q H. apply forallb_forall. intros st I. rewrite Forall_forall in H. specialize (H _ I).
  destruct st; simpl in *; auto; apply negb_true_iff, Nat.eqb_neq; auto.
Qed.

Lemma reach : forall p w, execs start p = Done w -> exists s, ideal_execs nothing p = Done s /\ step_R w s.
Proof.
  intros p w E. pose proof (execs_match p start nothing (ex_intro _ [] R_start)) as M. rewrite E in M.
  destruct (ideal_execs nothing p) as [s| |]; simpl in M; try contradiction. eauto.
Qed.

Lemma reach_on : forall w s q w', step_R w s -> execs w q = Done w' ->
  exists s', ideal_execs s q = Done s' /\ step_R w' s'.
Proof.
  intros w s q w' H E. pose proof (execs_match q w s H) as M. rewrite E in M.
  destruct (ideal_execs s q) as [s'| |]; simpl in M; try contradiction. eauto.
Qed.

Lemma reach_one : forall w s st w', step_R w s -> exec w st = Done w' ->
  exists s', ideal_exec s st = Done s' /\ step_R w' s'.
Proof.
  intros w s st w' [own H] E. pose proof (exec_matches own w s st H) as M. rewrite E in M.
  destruct (ideal_exec s st) as [s'| |]; simpl in M; try contradiction. eauto.
Qed.

Lemma observed : forall w s, step_R w s ->
  (forall n, index_of w n = ideal_index s n) /\
  (forall ms n j k, address_of ms w n j k = andThen (ideal_cell s n) (fun c => Done (cell_member ms c j k))) /\
  (forall n m, equals w n m = ideal_equals s n m) /\ length (w_vars w) = length (i_entries s).
Proof.
  intros w s H.
  assert (EQ : forall A (a b : result A), matches eq a b -> a = b).
  { intros A [] [] G; simpl in G; try contradiction; congruence. }
  split; [intros; apply EQ, index_matches; auto|].
  split; [intros; apply EQ, address_matches; auto|].
  split; [intros; apply EQ, equals_match; auto|].
  destruct H as [own H]. apply (R_vars _ _ _ H).
Qed.

(** Address of the member of the cell displaced by [c] from what [x] stands for. *)
Definition displaced (ms : list member) (e : extent) (c : Z * Z * Z) (a : result (option Z)) (j : nat) : result (option Z) :=
  match a, nth_error ms j with
  | Done (Some b), Some m =>
      let '(x, y, z) := c in Done (Some (b + (x + y * DIM_X e + z * (DIM_X e * DIM_Y e)) * m_size m))
  | r, _ => r
  end.

(** n = x[coord<...>()] of an accessor that is not a const_soa_accessor: whatever
    happens later (as long as neither is assigned to and both live), n has the index
    of x and stands for the cell displaced by the coordinate from the one of x. *)
Theorem C67_neighbour_follows : forall p x o cq c q w w1 w',
  execs start p = Done w -> acc_at w x = Done o -> o_cls o <> ConstSoa ->
  exec w (Sub cq x c) = Done w1 -> execs w1 q = Done w' ->
  let n := length (w_vars w) in
  Forall (fun st => ~ touches x st) q -> Forall (fun st => ~ touches n st) q ->
  index_of w' n = index_of w' x /\
  forall ms j k, address_of ms w' n j k = displaced ms (o_ext o) c (address_of ms w' x j k) j.
Proof.
  intros p x o cq c q w w1 w' E A C X Q n T1 T2.
  destruct (reach _ _ E) as (s & Es & H). destruct (reach_one _ _ _ _ H X) as (s1 & X1 & H1).
  destruct (reach_on _ _ _ _ H1 Q) as (s' & Q1 & H').
  assert (SD : sound s) by (eapply sound_execs; [apply sound_start|exact Es]).
  assert (N : n = length (i_entries s)) by (destruct (observed _ _ H) as (_ & _ & _ & L); exact L).
  destruct (observed _ _ H') as (O1 & O2 & _). rewrite !O1.
  destruct H as [own H]. pose proof (agree_acc own w s x H) as AA. rewrite A in AA.
  destruct (thing_at s x) as [t| |] eqn:Et; simpl in AA; try contradiction.
  destruct AA as (V & En & (G1 & G2 & G3 & G4 & G5 & G6)).
  assert (S1 : exists k, s1 = introduce s (EAcc (mkThing k cq (t_data t) (t_ext t) (t_I t) (plus (t_disp t) c) (Follows (leader x t))))).
  { cbn [ideal_exec] in X1. rewrite Et in X1. cbn [andThen] in X1. rewrite G1 in C.
    destruct (t_cls t), (t_const t); try discriminate; try congruence; peel X1; inversion X1; eauto. }
  destruct S1 as (k & ->).
  set (u := mkThing k cq (t_data t) (t_ext t) (t_I t) (plus (t_disp t) c) (Follows (leader x t))) in *.
  assert (E1 : entry_at (introduce s (EAcc u)) x = EAcc t).
  { rewrite introduce_entry; auto. eapply in_entries; eauto. }
  assert (E2 : entry_at (introduce s (EAcc u)) n = EAcc u).
  { unfold entry_at. simpl. rewrite nth_snoc, N, Nat.eqb_refl. reflexivity. }
  destruct (program_keeps _ _ _ _ _ Q1 E1 (untouched _ _ T1)) as (r1 & F1 & K1).
  destruct (program_keeps _ _ _ _ _ Q1 E2 (untouched _ _ T2)) as (r2 & F2 & K2).
  simpl in K2. destruct r2 as [|m]; [contradiction|]. subst m.
  assert (P : position s' (with_src u (Follows (leader x t))) = position s' (with_src t r1)).
  { unfold position. cbn [t_src with_src]. unfold leader in *. destruct (t_src t) eqn:S; destruct r1; simpl in K1; try contradiction.
    - rewrite F1. reflexivity.
    - subst. reflexivity. }
  unfold ideal_index, thing_at. rewrite F1, F2. cbn [andThen]. split; [exact P|].
  intros ms j k0. rewrite !O2. unfold ideal_cell, thing_at. rewrite F1, F2. cbn [andThen]. rewrite P.
  destruct (position s' (with_src t r1)) as [i| |]; cbn [andThen]; auto.
  unfold displaced, cell_member, cell_of. cbn [with_src t_data t_ext t_I t_disp c_data c_ext c_pos u].
  destruct (nth_error ms j) eqn:Ej; auto. destruct (offset ms j); auto.
  destruct c as [[a b] d]. destruct (t_disp t) as [[a' b'] d']. cbn [plus displacement]. rewrite G4. f_equal. f_equal. ring.
Qed.

Example C67_neighbour_follows_case :
  let p := [NewHolding Soa false 1000 e842 0 9] in
  let q := [Advance 1 5; Copy true 1; NewLong 3; SetIndex 2 0] in
  match execs start p with
  | Done w =>
      match exec w (Sub false 0 (1, 0, 0)) with
      | Done w1 =>
          match execs w1 (firstn 3 q) with
          | Done w' => index_of w' 0 = Done 14 /\ index_of w' 1 = Done 14 /\ index_of w' 2 = Done 14 /\
                       execs w1 q = IllFormed
          | _ => False
          end
      | _ => False
      end
  | _ => False
  end.
Proof. repeat split. Qed.

(** A neighbour taken from a const_soa_accessor is a copy: it keeps the index of the
    moment, wherever the other one is moved, until a statement names it. *)
Definition moves_var (n : nat) (st : stmt) : Prop :=
  match st with
  | Assign x _ => x = n
  | Drop x => x = n
  | Advance x _ => x = n
  | SetIndex x _ => x = n
  | _ => False
  end.

Theorem C67_const_neighbour_stays : forall p x o cq c q w w1 w' i,
  execs start p = Done w -> acc_at w x = Done o -> o_cls o = ConstSoa -> index_of w x = Done i ->
  exec w (Sub cq x c) = Done w1 -> execs w1 q = Done w' ->
  let n := length (w_vars w) in
  Forall (fun st => ~ moves_var n st) q -> index_of w' n = Done i.
Proof.
  intros p x o cq c q w w1 w' i E A C Ix X Q n T.
  destruct (reach _ _ E) as (s & Es & H). destruct (reach_one _ _ _ _ H X) as (s1 & X1 & H1).
  destruct (reach_on _ _ _ _ H1 Q) as (s' & Q1 & H').
  assert (SD : sound s) by (eapply sound_execs; [apply sound_start|exact Es]).
  assert (SD1 : sound s1) by (eapply sound_step; eauto).
  assert (N : n = length (i_entries s)) by (destruct (observed _ _ H) as (_ & _ & _ & L); exact L).
  destruct (observed _ _ H) as (P1 & _). destruct (observed _ _ H') as (O1 & _). rewrite O1. rewrite P1 in Ix.
  destruct H as [own H]. pose proof (agree_acc own w s x H) as AA. rewrite A in AA.
  destruct (thing_at s x) as [t| |] eqn:Et; simpl in AA; try contradiction.
  destruct AA as (V & En & (G1 & G2 & G3 & G4 & G5 & G6)).
  unfold ideal_index in Ix. rewrite Et in Ix. cbn [andThen] in Ix.
  set (u := mkThing ConstSoa cq (t_data t) (t_ext t) (t_I t) (plus (t_disp t) c) (Own i)).
  assert (S1 : s1 = introduce s (EAcc u)).
  { cbn [ideal_exec] in X1. rewrite Et in X1. cbn [andThen] in X1. rewrite <- G1, C in X1. rewrite Ix in X1. inversion X1. reflexivity. }
  assert (E2 : entry_at s1 n = EAcc u).
  { subst s1. unfold entry_at. simpl. rewrite nth_snoc, N, Nat.eqb_refl. reflexivity. }
  clear - E2 SD1 Q1 T. revert s1 E2 SD1 Q1.
  induction T as [|st q T1 T2 IH]; intros s1 E2 SD1 Q1; simpl in Q1.
  - inversion Q1; subst. unfold ideal_index, thing_at. rewrite E2. reflexivity.
  - peel Q1. assert (D : disturbs n st = false).
    { destruct st; simpl in *; auto; apply Nat.eqb_neq; auto. }
    destruct (step_keeps _ _ _ _ _ E E2 D) as (r & R1 & R2 & R3).
    assert (M : moves s1 st <> Some n).
    { intros M. destruct st; simpl in M, T1; try discriminate.
      - destruct (entry_at s1 x) eqn:Ex; try discriminate. injection M as M. unfold leader in M.
        pose proof (SD1 _ _ Ex) as Y. destruct (t_src t0); [congruence|]. subst.
        destruct Y as (_ & _ & Y). rewrite E2 in Y. simpl in Y. destruct Y; discriminate.
      - destruct (entry_at s1 x) eqn:Ex; try discriminate. injection M as M. unfold leader in M.
        pose proof (SD1 _ _ Ex) as Y. destruct (t_src t0); [congruence|]. subst.
        destruct Y as (_ & _ & Y). rewrite E2 in Y. simpl in Y. destruct Y; discriminate.
      - injection M as M. subst. cbn [ideal_exec] in E. rewrite E2 in E. discriminate. }
    rewrite (R3 M) in R1. rewrite with_src_id in R1. eapply IH; eauto. eapply sound_step; eauto.
Qed.

Example C67_const_neighbour_stays_case :
  match execs start [NewHolding ConstSoa false 1000 e842 0 9; Sub false 0 (1, 0, 0); Advance 0 3] with
  | Done w => index_of w 0 = Done 12 /\ index_of w 1 = Done 9
  | _ => False
  end.
Proof. split; reflexivity. Qed.

(** A neighbour does not outlive the accessor it was taken from: once that is gone,
    reading the index or a member is undefined (also when both were temporaries of
    one expression and only the neighbour was kept). *)
Theorem C67_dangling : forall p x o cq c q w w1 w2 w',
  execs start p = Done w -> acc_at w x = Done o -> o_cls o = Soa ->
  exec w (Sub cq x c) = Done w1 -> exec w1 (Drop x) = Done w2 -> execs w2 q = Done w' ->
  let n := length (w_vars w) in
  Forall (fun st => ~ touches n st) q ->
  index_of w' n = Undefined /\ forall ms j k, address_of ms w' n j k = Undefined.
Proof.
  intros p x o cq c q w w1 w2 w' E A C X D Q n T.
  destruct (reach _ _ E) as (s & Es & H). destruct (reach_one _ _ _ _ H X) as (s1 & X1 & H1).
  destruct (reach_one _ _ _ _ H1 D) as (s2 & X2 & H2).
  destruct (reach_on _ _ _ _ H2 Q) as (s' & Q1 & H').
  assert (SD : sound s) by (eapply sound_execs; [apply sound_start|exact Es]).
  assert (N : n = length (i_entries s)) by (destruct (observed _ _ H) as (_ & _ & _ & L); exact L).
  destruct (observed _ _ H') as (O1 & O2 & _).
  destruct H as [own H]. pose proof (agree_acc own w s x H) as AA. rewrite A in AA.
  destruct (thing_at s x) as [t| |] eqn:Et; simpl in AA; try contradiction.
  destruct AA as (V & En & (G1 & G2 & G3 & G4 & G5 & G6)).
  assert (LD : leader x t = x).
  { pose proof (SD _ _ En) as Y. unfold leader. destruct (t_src t); auto. rewrite <- G1, C in Y. destruct Y; discriminate. }
  assert (S1 : exists k, s1 = introduce s (EAcc (mkThing k cq (t_data t) (t_ext t) (t_I t) (plus (t_disp t) c) (Follows x)))).
  { cbn [ideal_exec] in X1. rewrite Et in X1. cbn [andThen] in X1. rewrite <- G1, C, LD in X1.
    destruct (t_const t); try discriminate; peel X1; inversion X1; eauto. }
  destruct S1 as (k & S1).
  set (u := mkThing k cq (t_data t) (t_ext t) (t_I t) (plus (t_disp t) c) (Follows x)) in *.
  pose proof (in_entries _ _ _ En) as Lx.
  assert (E1 : s2 = replace s1 x EGone).
  { cbn [ideal_exec] in X2. subst s1. rewrite introduce_entry in X2 by auto. rewrite En in X2. inversion X2. reflexivity. }
  assert (F1 : entry_at s2 x = EGone).
  { subst s2. rewrite replace_entry by (subst s1; rewrite introduce_length; lia). rewrite Nat.eqb_refl. reflexivity. }
  assert (F2 : entry_at s2 n = EAcc u).
  { subst s2. rewrite replace_entry by (subst s1; rewrite introduce_length; lia).
    destruct (Nat.eqb_spec x n); [lia|]. subst s1. unfold entry_at. simpl. rewrite nth_snoc, N, Nat.eqb_refl. reflexivity. }
  destruct (program_keeps _ _ _ _ _ Q1 F2 (untouched _ _ T)) as (r2 & K1 & K2).
  simpl in K2. destruct r2 as [|m]; [contradiction|]. subst m.
  assert (GN : entry_at s' x = EGone).
  { assert (L2 : (x < length (i_entries s2))%nat) by (subst s2 s1; rewrite replace_length, introduce_length; lia).
    clear - F1 L2 Q1. revert s2 F1 L2 Q1. induction q as [|st q IH]; intros s2 F1 L2 Q1; simpl in Q1.
    - inversion Q1; subst; auto.
    - peel Q1. destruct (gone_stays _ _ _ _ E F1 L2). eapply IH; eauto. }
  rewrite O1. split.
  - unfold ideal_index, thing_at. rewrite K1. cbn [andThen]. unfold position. cbn [with_src t_src]. rewrite GN. reflexivity.
  - intros. rewrite O2. unfold ideal_cell, thing_at. rewrite K1. cbn [andThen]. unfold position. cbn [with_src t_src].
    rewrite GN. reflexivity.
Qed.

(** soa_array's operator[] returns a temporary: auto n = array[3][coord<1, 0, 0>()]. *)
Example C67_dangling_case :
  match execs start [NewHolding Soa false 1000 (mkExt 100 1 1) 0 3; Sub false 0 (1, 0, 0); Drop 0; NewLong 7] with
  | Done w => index_of w 1 = Undefined /\ execs w [Advance 1 1] = Undefined
  | _ => False
  end.
Proof. split; reflexivity. Qed.

(** "The neighbour of an accessor can be had through a const reference" is false for
    soa_accessor: the const operator[] does not compile when used. *)
Theorem C67_const_reference_refuted : forall d e i c,
  execs start [NewHolding Soa true d e 0 i; Sub false 0 c] = IllFormed /\
  (forall k, k <> Soa -> exists w,
     execs start [NewLong i; (if holds_pointer k then NewLight k true d e 0 0 else NewHolding k true d e 0 i); Sub false 1 c] = Done w /\
     index_of w 2 = Done i).
Proof.
  intros d e i [[X Y] Z0]. split; [reflexivity|].
  intros [] N; [congruence| | |]; eexists; (split; [reflexivity|reflexivity]).
Qed.

(** ** C68 *)
(** Accessors of different types: the assignment copies the cell, once, and changes
    no accessor. *)
Theorem C68_assign_copies_partial : forall p w x y o o' i j,
  execs start p = Done w -> acc_at w x = Done o -> acc_at w y = Done o' ->
  o_const o = false -> (o_cls o = Soa \/ o_cls o = Light) ->
  (o_cls o, o_ext o, o_INDEX o) <> (o_cls o', o_ext o', o_INDEX o') ->
  index_of w x = Done i -> index_of w y = Done j ->
  exists w', exec w (Assign x y) = Done w' /\ w_vars w' = w_vars w /\ w_store w' = w_store w /\
    w_copies w' = ((o_data o, mkAcc (o_ext o) i (o_INDEX o)), (o_data o', mkAcc (o_ext o') j (o_INDEX o'))) :: w_copies w.
Proof.
  intros p w x y o o' i j E A B C K N I J. cbn [exec]. rewrite A, B. cbn [andThen]. unfold assign. rewrite C.
  unfold index_of in I, J. rewrite A in I. rewrite B in J. cbn [andThen] in I, J.
  assert (S : same_type o o' = false).
  { destruct (same_type o o') eqn:S; auto. exfalso. apply N. unfold same_type in S.
    rewrite !andb_true_iff, !Z.eqb_eq in S. destruct S as ((((S1 & S2) & S3) & S4) & S5).
    destruct (o_ext o), (o_ext o'); simpl in *; subst.
    destruct (o_cls o), (o_cls o'); simpl in S1; congruence. }
  rewrite S. destruct K as [-> | ->]; rewrite I; cbn [andThen]; rewrite J; cbn [andThen]; eexists;
    (split; [reflexivity|]); repeat split.
Qed.

Example C68_assign_copies_case :
  match execs start [NewHolding Soa false 1000 e842 0 9; Sub false 0 (1, 0, 0); Sub false 0 (0, 1, 0); Assign 1 2] with
  | Done w => w_copies w = [((1000, mkAcc e842 9 1), (1000, mkAcc e842 9 8))]
  | _ => False
  end.
Proof. reflexivity. Qed.

(** Accessors of one type: nothing is copied; the left one now stands for the cell of
    the right one. *)
Theorem C68_assign_same_type : forall p w x y o o' w',
  execs start p = Done w -> acc_at w x = Done o -> acc_at w y = Done o' ->
  (o_cls o, o_ext o, o_INDEX o) = (o_cls o', o_ext o', o_INDEX o') ->
  exec w (Assign x y) = Done w' ->
  w_copies w' = w_copies w /\ index_of w' x = index_of w y /\
  forall ms j k, address_of ms w' x j k = address_of ms w y j k.
Proof.
  intros p w x y o o' w' E A B Q X.
  destruct (reach _ _ E) as (s & Es & H). destruct (reach_one _ _ _ _ H X) as (s1 & X1 & H1).
  destruct (observed _ _ H) as (O1 & O2 & _). destruct (observed _ _ H1) as (P1 & P2 & _).
  assert (SD : sound s) by (eapply sound_execs; [apply sound_start|exact Es]).
  assert (CP : w_copies w' = w_copies w).
  { cbn [exec] in X. rewrite A, B in X. cbn [andThen] in X. unfold assign in X.
    destruct (o_const o); [discriminate|].
    assert (S : same_type o o' = true).
    { unfold same_type. injection Q as Q1 Q2 Q3. rewrite Q1, Q2, Q3, !Z.eqb_refl. destruct (o_cls o'); reflexivity. }
    rewrite S in X. destruct (holds_pointer (o_cls o)).
    - inversion X; reflexivity.
    - peel X. peel X. inversion X; subst. simpl. unfold store_long in E1. destruct (nth (o_loc o) (w_store w) None); inversion E1; reflexivity. }
  split; [exact CP|].
  destruct H as [own H]. pose proof (agree_acc own w s x H) as AA. pose proof (agree_acc own w s y H) as AB.
  rewrite A in AA. rewrite B in AB.
  destruct (thing_at s x) as [t| |] eqn:Et; simpl in AA; try contradiction.
  destruct (thing_at s y) as [u| |] eqn:Eu; simpl in AB; try contradiction.
  destruct AA as (V & En & G). destruct AB as (V' & En' & G').
  pose proof (alike_types _ _ _ _ _ _ _ G G') as AT.
  destruct G as (G1 & G2 & G3 & G4 & G5 & G6). destruct G' as (K1 & K2 & K3 & K4 & K5 & K6).
  injection Q as Q1 Q2 Q3.
  assert (AL : alike t u = true).
  { rewrite <- AT. unfold same_type. rewrite Q1, Q2, Q3, !Z.eqb_refl. destruct (o_cls o'); reflexivity. }
  cbn [ideal_exec] in X1. rewrite Et, Eu in X1. cbn [andThen] in X1. destruct (t_const t) eqn:TC; [discriminate|].
  rewrite AL in X1. inversion X1; subst s1.
  pose proof (in_entries _ _ _ En) as Lx.
  set (v := mkThing (t_cls t) false (t_data u) (t_ext t) (t_I t) (t_disp t) (t_src u)) in *.
  assert (EX : entry_at (replace s x (EAcc v)) x = EAcc v) by (rewrite replace_entry, Nat.eqb_refl by auto; reflexivity).
  assert (PO : position (replace s x (EAcc v)) v = position s u).
  { unfold position. cbn [v t_src]. destruct (t_src u) as [|m] eqn:S; auto.
    pose proof (SD _ _ En') as Y. rewrite S in Y. destruct Y as (Y1 & Y2 & Y3).
    rewrite replace_entry by auto. destruct (Nat.eqb_spec x m); auto. subst m. exfalso.
    rewrite En in Y3. simpl in Y3. destruct Y3 as [Y3 _].
    pose proof (alike_class _ _ AL) as AC. rewrite Y3 in AC. destruct (t_cls u); simpl in *; discriminate. }
  split.
  - rewrite P1, O1. unfold ideal_index, thing_at. rewrite EX, En'. cbn [andThen]. exact PO.
  - intros. rewrite P2, O2. unfold ideal_cell, thing_at. rewrite EX, En'. cbn [andThen]. rewrite PO.
    destruct (position s u); cbn [andThen]; auto. f_equal. unfold cell_member, cell_of. cbn [v t_data t_ext t_I t_disp c_data c_ext c_pos].
    destruct (nth_error ms j); auto. destruct (offset ms j); auto. f_equal.
    rewrite <- G4, <- K4, Q2. rewrite <- G4 in G5. rewrite <- K4 in K5. rewrite Q2 in G5.
    replace (a + t_I t + displacement (o_ext o') (t_disp t)) with (a + t_I u + displacement (o_ext o') (t_disp u)) by lia.
    reflexivity.
Qed.

(** "x = y copies the cell of y to the cell of x" is false for two accessors of one
    type; an element-wise copy a[i] = b[i] of two soa_arrays of one size does nothing. *)
Theorem C68_assign_copies_refuted :
  exists p w w', execs start p = Done w /\ exec w (Assign 0 1) = Done w' /\
    acc_at w 0 <> acc_at w 1 /\ index_of w 0 = Done 3 /\ index_of w 1 = Done 3 /\ w_copies w' = [].
Proof.
  exists [NewHolding Soa false 1000 (mkExt 100 1 1) 0 3; NewHolding Soa false 2000 (mkExt 100 1 1) 0 3].
  eexists. eexists. split; [reflexivity|]. split; [reflexivity|]. repeat split. discriminate.
Qed.

(** Comparison: equal accessors stand for the same elements. *)
Theorem C68_equal_same : forall p w x y,
  execs start p = Done w -> equals w x y = Done true ->
  index_of w x = index_of w y /\ forall ms j k, address_of ms w x j k = address_of ms w y j k.
Proof.
  intros p w x y E Q. unfold equals in Q. unfold index_of, address_of.
  destruct (acc_at w x) as [o| |]; try discriminate. destruct (acc_at w y) as [o'| |]; try discriminate.
  cbn [andThen] in *. destruct (same_type o o') eqn:S; [|discriminate].
  peel Q. peel Q. inversion Q as [Q1]. apply andb_true_iff in Q1. destruct Q1 as [Q1 Q2]. apply Z.eqb_eq in Q1.
  rewrite E0, E1. cbn [andThen].
  assert (a = a0).
  { destruct (holds_pointer (o_cls o)); [|apply Z.eqb_eq; auto]. apply Nat.eqb_eq in Q2. rewrite Q2 in E0. congruence. }
  subst. split; auto. intros. unfold same_type in S. rewrite !andb_true_iff, !Z.eqb_eq in S.
  destruct S as ((((S1 & S2) & S3) & S4) & S5).
  assert (o_ext o = o_ext o') by (destruct (o_ext o), (o_ext o'); simpl in *; congruence).
  rewrite Q1, H, S5. reflexivity.
Qed.

(** For soa_accessor and const_soa_accessor also the converse, on one data pointer. *)
Theorem C68_same_equal_partial : forall p w x y o o' ms j k m a,
  execs start p = Done w -> acc_at w x = Done o -> acc_at w y = Done o' ->
  (o_cls o, o_data o, o_ext o, o_INDEX o) = (o_cls o', o_data o', o_ext o', o_INDEX o') ->
  (o_cls o = Soa \/ o_cls o = ConstSoa) ->
  nth_error ms j = Some m -> 0 < m_size m ->
  address_of ms w x j k = Done (Some a) -> address_of ms w y j k = Done (Some a) ->
  equals w x y = Done true.
Proof.
  intros p w x y o o' ms j k m a E A B Q C J P X Y. unfold address_of in X, Y. unfold equals. rewrite A, B in *.
  cbn [andThen] in *. injection Q as Q1 Q2 Q3 Q4.
  peel X. peel Y. rewrite E0, E1. cbn [andThen].
  assert (S : same_type o o' = true).
  { unfold same_type. rewrite Q1, Q3, Q4, !Z.eqb_refl. destruct (o_cls o'); reflexivity. }
  rewrite S. unfold member_addr in X, Y. rewrite J in X, Y. rewrite <- Q2, <- Q3, <- Q4 in Y.
  destruct (offset ms j); [|discriminate]. injection X as X. injection Y as Y.
  cbn [a_ext a_index a_INDEX] in *.
  assert (a0 = a1) by nia. subst. rewrite Q2, !Z.eqb_refl. destruct C as [-> | ->]; reflexivity.
Qed.

(** ... but not for the light ones, which compare the address of the index. *)
Theorem C68_same_equal_refuted : exists p w,
  execs start p = Done w /\ equals w 2 3 = Done false /\
  (forall ms j k, address_of ms w 2 j k = address_of ms w 3 j k).
Proof.
  exists [NewHolding Soa false 1000 e842 0 9; NewHolding Soa false 1000 e842 0 9; Sub false 0 (1, 0, 0); Sub false 1 (1, 0, 0)].
  eexists. split; [reflexivity|]. split; reflexivity.
Qed.

Example C68_equal_case :
  match execs start [NewHolding Soa false 1000 e842 0 9; NewHolding Soa false 1000 e842 0 8; Advance 1 1; Sub false 0 (1, 0, 0); Copy false 2] with
  | Done w => equals w 0 1 = Done true /\ equals w 2 3 = Done true /\ equals w 0 2 = IllFormed
  | _ => False
  end.
Proof. repeat split. Qed.

Print Assumptions C67_programs.
Print Assumptions C67_neighbour_follows.
Print Assumptions C67_const_neighbour_stays.
Print Assumptions C67_dangling.
Print Assumptions C67_const_reference_refuted.
Print Assumptions C68_assign_copies_partial.
Print Assumptions C68_assign_same_type.
Print Assumptions C68_assign_copies_refuted.
Print Assumptions C68_equal_same.
Print Assumptions C68_same_equal_partial.
Print Assumptions C68_same_equal_refuted.
