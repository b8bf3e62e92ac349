(** Proofs for C73: the bodies of the bulk functions, and playing the accesses. *)
From Coq Require Import String Ascii ZArith Bool Lia.
From Coq Require Import List.
From Verif Require Import Base Layout Mem Accessor AccessorProofs.
From Verif Require Import Preproc PreprocAbs PreprocLib SpecPreproc PreprocProofs SpecRegister RegisterProofs RegisterValues.
From Verif Require Import PropsRegister SpecBulk BulkProofs BulkSteps.
Import ListNotations.
Local Open Scope Z_scope.

Opaque lib lib_words.

(** ** One step per member *)

Lemma semicolon_runs : forall c s, all_runs c s (tokens ";") [].
Proof. intros c s. exists 2%nat. intros f L. destruct f as [|[|f]]; [lia|lia|reflexivity]. Qed.

Lemma steps_from : forall c s t g ms lms i o, length ms = length lms ->
  (forall k m e, nth_error ms k = Some m -> nth_error (Accessor.members_from i o lms) k = Some e ->
     step c s (text_for t c (i + k) m) (g e)) ->
  all_runs c s (SpecRegister.members_from i (text_for t c) ms ++ tokens ";") (flat_map g (Accessor.members_from i o lms)).
Proof.
  intros c s t g ms. induction ms as [|m ms IH]; intros [|lm lms] i o L H; try discriminate.
  - apply semicolon_runs.
  - cbn [SpecRegister.members_from Accessor.members_from flat_map]. rewrite <- app_assoc. apply step_runs.
    + specialize (H O m _ eq_refl eq_refl). rewrite Nat.add_0_r in H. exact H.
    + apply IH; [injection L as L; exact L|]. intros k m' e H1 H2. specialize (H (S k) m' e H1 H2).
      replace (S i + k)%nat with (i + S k)%nat by lia. exact H.
Qed.

Lemma steps_all : forall c s t g ms lms, length ms = length lms ->
  (forall i m o lm, nth_error ms i = Some m -> nth_error lms i = Some lm -> Layout.offset lms i = Some o ->
     step c s (text_for t c i m) (g (i, o, lm))) ->
  all_runs c s (body t c ms) (flat_map g (members_ix lms)).
Proof.
  intros c s t g ms lms L H. apply steps_from; [exact L|]. intros k m [[j o] lm] H1 H2.
  apply (members_ix_offset lms) in H2. destruct H2 as [-> [H2 H3]]. apply H; assumption.
Qed.

Lemma runs_performs : forall c s l es, all_runs c s l es -> performs c s l es.
Proof. intros c s l es [f H]. exists f. apply H. lia. Qed.

(** ** Lists of accesses *)

Lemma map_flat_map : forall (A B C : Type) (f : B -> C) (g : A -> list B) l, map f (flat_map g l) = flat_map (fun x => map f (g x)) l.
Proof. intros A B C f g l. induction l as [|x l IH]; [reflexivity|]. cbn [flat_map]. rewrite map_app, IH. reflexivity. Qed.

Lemma play_app : forall l r x, play (l ++ r) x = rbind (play l x) (play r).
Proof.
  induction l as [|e l IH]; intros r x; [reflexivity|]. cbn [app play]. destruct (play1 e x); [apply IH|reflexivity].
Qed.

Lemma play_do : forall ops m c, play (map Do ops) (m, c) = rbind (exec ops m) (fun m' => Val (m', c)).
Proof.
  induction ops as [|op ops IH]; intros m c; [reflexivity|]. cbn [map play play1 exec]. destruct (exec1 m op); [apply IH|reflexivity].
Qed.

(** ** Cells *)

(** The accesses of operator= and operator>>. *)
Definition in_events (d : ptr) (a : accessor) (e : nat * Z * Layout.member) : list event :=
  let '(j, o, lm) := e in
  match m_array lm with
  | None => [FromCell (eptr d a o lm 0) (m_size lm) (m_class lm) j 0]
  | Some n => map (fun k => FromCell (padd (eptr d a o lm 0) (DIM_PROD (a_ext a) * Z.of_nat k * m_size lm)) (m_size lm) (m_class lm) j k) (seq 0 n)
  end.

Definition out_events (d : ptr) (a : accessor) (e : nat * Z * Layout.member) : list event :=
  let '(j, o, lm) := e in
  match m_array lm with
  | None => [ToCell j 0 (eptr d a o lm 0) (m_size lm) (m_class lm)]
  | Some n => map (fun k => ToCell j k (padd (eptr d a o lm 0) (DIM_PROD (a_ext a) * Z.of_nat k * m_size lm)) (m_size lm) (m_class lm)) (seq 0 n)
  end.

Definition in_op (c : list (list elem)) (e : event) (op : mop) : Prop :=
  exists p s cls j k vs v, e = FromCell p s cls j k /\ op = Assign p s cls v /\ nth_error c j = Some vs /\ nth_error vs k = Some v.

Lemma play_in : forall c es ops, Forall2 (in_op c) es ops -> forall m,
  play es (m, c) = rbind (exec ops m) (fun m' => Val (m', c)).
Proof.
  intros c es ops H. induction H as [|e op es ops [p [s [cls [j [k [vs [v [-> [-> [H1 H2]]]]]]]]]] H IH]; intros m; [reflexivity|].
  cbn [play play1 exec]. rewrite H1, H2. destruct (exec1 m (Assign p s cls v)); [apply IH|reflexivity].
Qed.

Lemma shaped_nth : forall lms c j lm, shaped lms c -> nth_error lms j = Some lm ->
  exists vs, nth_error c j = Some vs /\ length vs = m_count lm.
Proof.
  intros lms c j lm H. revert j. induction H as [|x y lms c Hxy H IH]; intros [|j] E; try discriminate.
  - injection E as <-. exists y. auto.
  - apply IH. exact E.
Qed.

Lemma Forall2_flat_map : forall (A B C : Type) (P : B -> C -> Prop) (f : A -> list B) (g : A -> list C) l,
  (forall x, In x l -> Forall2 P (f x) (g x)) -> Forall2 P (flat_map f l) (flat_map g l).
Proof.
  intros A B C P f g l. induction l as [|x l IH]; intros H; [constructor|]. cbn [flat_map]. apply Forall2_app.
  - apply H. left. reflexivity.
  - apply IH. intros y Hy. apply H. right. exact Hy.
Qed.

Lemma Forall2_map2 : forall (A B C : Type) (P : B -> C -> Prop) (f : A -> B) (g : A -> C) l,
  (forall x, In x l -> P (f x) (g x)) -> Forall2 P (map f l) (map g l).
Proof.
  intros A B C P f g l. induction l as [|x l IH]; intros H; constructor; [apply H; left; reflexivity|].
  apply IH. intros y Hy. apply H. right. exact Hy.
Qed.

Lemma in_events_ops : forall d a lms c, shaped lms c ->
  Forall2 (in_op c) (flat_map (in_events d a) (members_ix lms)) (assign_ops d a lms c).
Proof.
  intros d a lms c H. unfold assign_ops. apply Forall2_flat_map. intros [[j o] lm] Hin.
  apply In_nth_error in Hin. destruct Hin as [i Hi]. apply members_ix_offset in Hi. destruct Hi as [-> [Hi _]].
  destruct (shaped_nth lms c i lm H Hi) as [vs [Hv Hl]]. cbn [in_events]. unfold m_count in Hl.
  assert (K : forall k, (k < length vs)%nat -> nth_error vs k = Some (nth k vs [])) by (intros k Hk; apply nth_error_nth'; exact Hk).
  rewrite (nth_error_nth c i [] Hv). destruct (m_array lm) as [n|].
  - apply Forall2_map2. intros k Hk. apply in_seq in Hk. unfold in_op. do 7 eexists. split; [reflexivity|].
    split; [reflexivity|]. split; [exact Hv|]. apply K. lia.
  - constructor; [|constructor]. unfold in_op. do 7 eexists. split; [reflexivity|].
    split; [reflexivity|]. split; [exact Hv|]. apply K. lia.
Qed.

Theorem play_assign : forall d a lms c m, shaped lms c ->
  play (flat_map (in_events d a) (members_ix lms)) (m, c) = rbind (exec (assign_ops d a lms c) m) (fun m' => Val (m', c)).
Proof. intros d a lms c m H. apply play_in, in_events_ops. exact H. Qed.

Lemma put_middle : forall (A : Type) (l r : list A) x v, put (l ++ x :: r) (length l) v = Some (l ++ v :: r).
Proof. intros A l r x v. induction l as [|y l IH]; [reflexivity|]. cbn [app length put]. rewrite IH. reflexivity. Qed.

Lemma nth_middle : forall (A : Type) (l r : list A) x, nth_error (l ++ x :: r) (length l) = Some x.
Proof. intros A l r x. rewrite nth_error_app2, Nat.sub_diag by lia. reflexivity. Qed.

(** The elements of one member from element [length us] on. *)
Lemma play_out_elements : forall m p sz cls P (us vs : list elem) (l r : list (list elem)),
  play (map (fun k => ToCell (length l) k (padd p (P * Z.of_nat k * sz)) sz cls) (seq (length us) (length vs))) (m, l ++ (us ++ vs) :: r) =
  rbind (mapR (fun k => read_elem m (padd p (P * k * sz)) sz cls) (map Z.of_nat (seq (length us) (length vs))))
    (fun ws => Val (m, l ++ (us ++ ws) :: r)).
Proof.
  intros m p sz cls P us vs. revert us. induction vs as [|v vs IH]; intros us l r.
  - reflexivity.
  - cbn [length seq map play mapR play1]. destruct (read_elem m (padd p (P * Z.of_nat (length us) * sz)) sz cls) as [w|f]; [|reflexivity].
    cbn [rbind]. rewrite nth_middle, put_middle, put_middle. cbn [rbind].
    specialize (IH (us ++ [w]) l r). rewrite app_length in IH. cbn [length] in IH. rewrite Nat.add_1_r in IH.
    rewrite <- app_assoc in IH. cbn [app] in IH. rewrite IH.
    destruct (mapR (fun k => read_elem m (padd p (P * k * sz)) sz cls) (map Z.of_nat (seq (S (length us)) (length vs)))) as [ws|f]; [|reflexivity].
    cbn [rbind]. rewrite <- app_assoc. reflexivity.
Qed.

Definition read_member (m0 : mem) (d : ptr) (a : accessor) (e : nat * Z * Layout.member) : result (list elem) :=
  let '(_, o, m) := e in
  match m_array m with
  | None => mapR (fun k => read_elem m0 (eptr d a o m 0) (m_size m) (m_class m)) [0]
  | Some n => mapR (fun k => read_elem m0 (padd (eptr d a o m 0) ((DIM_PROD (a_ext a) * k) * m_size m)) (m_size m) (m_class m)) (arity_seq n)
  end.

Lemma play_out_member : forall m d a o lm vs l r, length vs = m_count lm ->
  play (out_events d a (length l, o, lm)) (m, l ++ vs :: r) =
  rbind (read_member m d a (length l, o, lm)) (fun ws => Val (m, l ++ ws :: r)).
Proof.
  intros m d a o lm vs l r H. cbn [out_events read_member]. unfold m_count in H. destruct (m_array lm) as [n|].
  - pose proof (play_out_elements m (eptr d a o lm 0) (m_size lm) (m_class lm) (DIM_PROD (a_ext a)) [] vs l r) as K.
    cbn [length app] in K. rewrite H in K. exact K.
  - destruct vs as [|v [|]]; try discriminate. cbn [play play1 mapR].
    destruct (read_elem m (eptr d a o lm 0) (m_size lm) (m_class lm)) as [w|f]; [|reflexivity].
    cbn [rbind]. rewrite nth_middle. cbn [put]. rewrite put_middle. reflexivity.
Qed.

Lemma play_out_from : forall m d a lms c o l, shaped lms c ->
  play (flat_map (out_events d a) (Accessor.members_from (length l) o lms)) (m, l ++ c) =
  rbind (mapR (read_member m d a) (Accessor.members_from (length l) o lms)) (fun c' => Val (m, l ++ c')).
Proof.
  intros m d a lms. induction lms as [|lm lms IH]; intros c o l H; inversion H as [|? vs ? c' Hv H']; subst; [reflexivity|].
  cbn [Accessor.members_from flat_map]. rewrite play_app, (play_out_member m d a o lm vs l c' Hv). cbn [mapR].
  destruct (read_member m d a (length l, o, lm)) as [ws|f]; [|reflexivity]. cbn [rbind].
  specialize (IH c' (o + m_size lm * Z.of_nat (m_count lm)) (l ++ [ws]) H'). rewrite app_length in IH. cbn [length] in IH.
  rewrite Nat.add_1_r, <- app_assoc in IH. cbn [app] in IH. rewrite IH.
  destruct (mapR (read_member m d a) (Accessor.members_from (S (length l)) (o + m_size lm * Z.of_nat (m_count lm)) lms)) as [cs|f]; [|reflexivity].
  cbn [rbind]. rewrite <- app_assoc. reflexivity.
Qed.

Theorem play_extract : forall d a lms c m, shaped lms c ->
  play (flat_map (out_events d a) (members_ix lms)) (m, c) = rbind (read_cell m d a lms) (fun c' => Val (m, c')).
Proof. intros d a lms c m H. exact (play_out_from m d a lms c 0 [] H). Qed.

(** ** The bodies *)

Section Bodies.
Variables (E : cenv) (types : list tok -> option ty) (c : list tok) (ms : list soa_member) (lms : list Layout.member).
Variables (T : nat -> Z) (index : string) (d : ptr) (a : accessor).
Hypothesis Tc : type_like c.
Hypothesis Hn : NoDup (map name_of ms).
Hypothesis Hl : (length ms <= 51)%nat.
Hypothesis Hu : Forall2 (usable E types) ms lms.
Hypothesis HT : offset_table E c ms T.
Hypothesis Ha : accessor_state E index (po d) a.

Lemma usable_types : plain_types ms.
Proof.
  pose proof Hu as Q. clear - Q. unfold plain_types. induction Q as [|m lm ms lms H _ IH]; [constructor|]. constructor; [|exact IH].
  destruct H as [_ [[B _] _]]. exact B.
Qed.

Lemma usable_all : Forall2 (described E) ms lms.
Proof. pose proof Hu as Q. clear - Q. induction Q as [|m lm ms lms H _ IH]; [constructor|]. constructor; [eapply usable_described; exact H|exact IH]. Qed.

Lemma members_at : forall i m o lm, nth_error ms i = Some m -> nth_error lms i = Some lm -> Layout.offset lms i = Some o ->
  member_at E types c ms i m o lm.
Proof.
  intros i m o lm H1 H2 H3. assert (L : (i < length ms)%nat) by (apply nth_error_Some; congruence).
  split; [exact H1|]. split; [|split; [|lia]].
  - pose proof Hu as Q. clear - Q H1 H2. revert i H1 H2. induction Q as [|x y ms lms Hxy H IH]; intros [|i] H1 H2; try discriminate.
    + injection H1 as <-. injection H2 as <-. exact Hxy.
    + exact (IH i H1 H2).
  - pose proof (C64_layout_offsets E c ms lms T (proj1 Tc) usable_types Hl usable_all HT i ltac:(lia)) as O.
    rewrite H3 in O. injection O as ->. apply (proj1 (proj2 HT)). lia.
Qed.

Lemma same_count : length ms = length lms.
Proof. exact (same_length _ _ _ _ _ Hu). Qed.

Lemma array_entries : forall i m o lm n, member_at E types c ms i m o lm -> m_array lm = Some n -> exists ar, sm_arity m = Some ar.
Proof.
  intros i m o lm n [_ [[_ [_ [_ [_ [_ H]]]]] _]] Hx. rewrite Hx in H. destruct (sm_arity m) as [ar|]; [exists ar; reflexivity|contradiction].
Qed.

Lemma scalar_entries : forall i m o lm, member_at E types c ms i m o lm -> m_array lm = None -> sm_arity m = None.
Proof.
  intros i m o lm [_ [[_ [_ [_ [_ [_ H]]]]] _]] Hx. rewrite Hx in H. destruct (sm_arity m) as [ar|]; [contradiction|reflexivity].
Qed.

Lemma zseq_arity : forall n, zseq (Z.of_nat n) = arity_seq n.
Proof. intros n. unfold zseq. rewrite Nat2Z.id. reflexivity. Qed.

Notation inside := (inside E types c ms index d).

Lemma construct_runs : forall s, inside s -> all_runs c s (body construct_text c ms) (map Do (construct_members_ops d a lms)).
Proof.
  intros s Hs. unfold construct_members_ops. rewrite map_flat_map. apply steps_all; [exact same_count|].
  intros i m o lm H1 H2 H3. pose proof (members_at i m o lm H1 H2 H3) as M. destruct (m_array lm) as [n|] eqn:En.
  - destruct (array_entries i m o lm n M En) as [ar Ea]. rewrite map_map, <- zseq_arity.
    eapply step_construct_array; eassumption.
  - eapply step_construct_scalar; try eassumption. eapply scalar_entries; eassumption.
Qed.

Lemma destroy_runs : forall s, inside s -> all_runs c s (body destroy_text c ms) (map Do (destroy_members_ops d a lms)).
Proof.
  intros s Hs. unfold destroy_members_ops. rewrite map_flat_map. apply steps_all; [exact same_count|].
  intros i m o lm H1 H2 H3. pose proof (members_at i m o lm H1 H2 H3) as M. destruct (m_array lm) as [n|] eqn:En.
  - destruct (array_entries i m o lm n M En) as [ar Ea]. rewrite map_map, <- zseq_arity.
    eapply step_destroy_array; eassumption.
  - eapply step_destroy_scalar; try eassumption. eapply scalar_entries; eassumption.
Qed.

Lemma load_runs : forall s B count off stride, transfers E types c ms index d s "source" B count off stride ->
  all_runs c s (body load_text c ms) (map Do (load_ops d a lms B count off stride)).
Proof.
  intros s B count off stride Hs. unfold load_ops. rewrite map_flat_map. apply steps_all; [exact same_count|].
  intros i m o lm H1 H2 H3. pose proof (members_at i m o lm H1 H2 H3) as M. destruct (m_array lm) as [n|] eqn:En.
  - destruct (array_entries i m o lm n M En) as [ar Ea]. rewrite map_flat_map.
    erewrite flat_map_ext; [|intros k; apply map_map].
    pose proof (step_load_array E types c ms index d a Tc Hn Ha i m o lm M n ar Ea En s B count off stride Hs) as K.
    rewrite copy_array_in_spec in K. exact K.
  - rewrite map_map. eapply step_load_scalar; try eassumption. eapply scalar_entries; eassumption.
Qed.

Lemma save_runs : forall s B count off stride, transfers E types c ms index d s "target" B count off stride ->
  all_runs c s (body save_text c ms) (map Do (save_ops d a lms B count off stride)).
Proof.
  intros s B count off stride Hs. unfold save_ops. rewrite map_flat_map. apply steps_all; [exact same_count|].
  intros i m o lm H1 H2 H3. pose proof (members_at i m o lm H1 H2 H3) as M. destruct (m_array lm) as [n|] eqn:En.
  - destruct (array_entries i m o lm n M En) as [ar Ea]. rewrite map_flat_map.
    erewrite flat_map_ext; [|intros k; apply map_map].
    pose proof (step_save_array E types c ms index d a Tc Hn Ha i m o lm M n ar Ea En s B count off stride Hs) as K.
    rewrite copy_array_out_spec in K. exact K.
  - rewrite map_map. eapply step_save_scalar; try eassumption. eapply scalar_entries; eassumption.
Qed.

Lemma assign_runs : forall s, with_cell E types c ms index d s -> ~ In (spell "cell") (map name_of ms) ->
  all_runs c s (body assign_text c ms) (flat_map (in_events d a) (members_ix lms)).
Proof.
  intros s Hs N. apply steps_all; [exact same_count|].
  intros i m o lm H1 H2 H3. pose proof (members_at i m o lm H1 H2 H3) as M.
  assert (Nm : name_of m <> spell "cell") by (intros Q; apply N; rewrite <- Q; apply in_map; eapply nth_error_In; exact H1).
  cbn [in_events]. destruct (m_array lm) as [n|] eqn:En.
  - destruct (array_entries i m o lm n M En) as [ar Ea].
    pose proof (step_assign_array E types c ms index d a Tc Hn Ha i m o lm M n ar Ea En s Hs Nm) as K.
    rewrite copy_in_spec in K. exact K.
  - eapply step_assign_scalar; try eassumption. eapply scalar_entries; eassumption.
Qed.

Lemma extract_runs : forall s, with_cell E types c ms index d s -> ~ In (spell "cell") (map name_of ms) ->
  all_runs c s (body extract_text c ms) (flat_map (out_events d a) (members_ix lms)).
Proof.
  intros s Hs N. apply steps_all; [exact same_count|].
  intros i m o lm H1 H2 H3. pose proof (members_at i m o lm H1 H2 H3) as M.
  assert (Nm : name_of m <> spell "cell") by (intros Q; apply N; rewrite <- Q; apply in_map; eapply nth_error_In; exact H1).
  cbn [out_events]. destruct (m_array lm) as [n|] eqn:En.
  - destruct (array_entries i m o lm n M En) as [ar Ea].
    pose proof (step_extract_array E types c ms index d a Tc Hn Ha i m o lm M n ar Ea En s Hs Nm) as K.
    rewrite copy_out_spec in K. exact K.
  - eapply step_extract_scalar; try eassumption. eapply scalar_entries; eassumption.
Qed.

End Bodies.

Lemma copy_runs : forall E types c ms lms T index d a E' T' index' d' a', type_like c -> NoDup (map name_of ms) ->
  (length ms <= 51)%nat -> Forall2 (usable E types) ms lms -> offset_table E c ms T -> accessor_state E index (po d) a ->
  Forall2 (usable E' types) ms lms -> offset_table E' c ms T' -> accessor_state E' index' (po d') a' ->
  Forall (fun lm => 0 < m_size lm) lms ->
  forall s count, beside E types c ms index d s E' index' d' count ->
  all_runs c s (body copy_text c ms) (map Do (copy_members_ops d a lms d' a' count)).
Proof.
  intros E types c ms lms T index d a E' T' index' d' a' Tc Hn Hl Hu HT Ha Hu' HT' Ha' Hz s count Hs.
  unfold copy_members_ops. rewrite map_flat_map. apply steps_all; [exact (same_length _ _ _ _ _ Hu)|].
  intros i m o lm H1 H2 H3.
  pose proof (members_at E types c ms lms T Tc Hl Hu HT i m o lm H1 H2 H3) as M.
  pose proof (members_at E' types c ms lms T' Tc Hl Hu' HT' i m o lm H1 H2 H3) as M'.
  assert (Z0 : 0 < m_size lm) by (apply (proj1 (Forall_forall _ _) Hz); eapply nth_error_In; exact H2).
  destruct (m_array lm) as [n|] eqn:En.
  - destruct (array_entries E types c ms i m o lm n M En) as [ar Ea]. rewrite map_flat_map, <- zseq_arity.
    erewrite flat_map_ext; [|intros k; apply map_map]. eapply step_copy_array; eassumption.
  - rewrite map_map. eapply step_copy_scalar; try eassumption. eapply scalar_entries; eassumption.
Qed.
