(** Statements C91: programs on soa_vectors that catch exceptions of members and of the
    allocator and go on. *)
From Coq Require Import ZArith List Lia Bool Init.Byte.
From Verif Require Import Base Layout LayoutProofs Sizes SizesProofs Mem MemProofs
  Accessor AccessorProofs RegionProofs Grid SpecGrid GridProofs GridInv BufferProofs GridOps GridSim GridView
  Array SpecArray Vector SpecVector VectorProofs PropsVector
  GridThrow SpecGridThrow PropsVectorThrow VectorThrowRun SpecVectorThrowRun VectorThrowRunProofs.
Import ListNotations.
Open Scope Z_scope.

(** ** Whole programs *)
(** A program on any number of vectors stays within their contract; something throws in
    any number of its calls of set, pop_back, push_back, resize, reserve and of
    soa_vector(n, value), though not while storage is being filled with objects
    ([harmless]). It runs without undefined behaviour, and observes what lists allow of
    which an interrupted call leaves what [sleft] says; a call throws
    exactly if [throws_if] says so. Whatever it does afterwards, it sees these lists, and nothing leaks. *)
Theorem C91_programs : forall ct L ops, wf_ct ct -> policy ct L -> vlegal (ct_ms ct) L no_vectors ops ->
  exists W A bs, x_srun ct sstart ops = Val (W, bs) /\ vrun (ct_ms ct) L no_vectors ops A bs /\ v_as_specified ct L W A.
Proof.
  intros ct L ops Hct HP HL. pose proof HP as [P GR].
  destruct (x_srun_ok ct L ops sstart no_vectors Hct P GR (sv_start ct L) HL) as [W [A [bs [E [R I]]]]].
  exists W, A, bs. split; auto. split; auto. apply inv_specified; auto.
Qed.

(** No storage is left once all vectors are destroyed. *)
Theorem C91_no_leak : forall ct L ops W bs, wf_ct ct -> policy ct L -> vlegal (ct_ms ct) L no_vectors ops ->
  x_srun ct sstart ops = Val (W, bs) -> (forall id, sw_vecs W id = None) -> forall b, msize (sw_mem W) b = None.
Proof.
  intros ct L ops W bs Hct [P GR] HL E Hn b.
  destruct (x_srun_ok ct L ops sstart no_vectors Hct P GR (sv_start ct L) HL) as [W' [A [bs' [E' [_ I]]]]].
  rewrite E in E'. inversion E'; subst. destruct (msize (sw_mem W') b) as [k|] eqn:Eb; auto.
  destruct (sv_leak _ _ _ _ I b k Eb) as [i [v [Hv _]]]. rewrite Hn in Hv. discriminate.
Qed.

(** Without schedules a program is one of those of C34 to C42. *)
Theorem C91_plain : forall ct ops W, x_srun ct W (map (fun op => (None, op)) ops) =
  match srun ct W ops with Val (W', bs) => Val (W', map SDone bs) | Fault f => Fault f end.
Proof.
  intros ct. induction ops as [|op ops IH]; intros W; [reflexivity|]. cbn [map x_srun srun x_sstep].
  destruct (sstep ct W op) as [[W1 b]|f]; [|reflexivity]. rewrite IH. destruct (srun ct W1 ops) as [[W2 bs]|f]; reflexivity.
Qed.

(** A constructor that throws, at any moment, leaves no object and all others in place;
    other calls keep the object. *)
Theorem C91_objects : forall ct W s op W' id, x_sstep ct W (Some s) op = Val (W', SCaught) ->
  (sw_vecs W' id = None <-> sw_vecs W id = None) /\
  match op with SFill _ _ _ => sw_vecs W' = sw_vecs W | _ => True end.
Proof.
  assert (G : forall W id f W' i, x_on_vec W id f = Val (W', SCaught) -> (sw_vecs W' i = None <-> sw_vecs W i = None)).
  { intros W id f W' i H. unfold x_on_vec in H. destruct (sw_vecs W id) as [v|] eqn:Ev; [|discriminate].
    destruct (f (sw_mem W, v)) as [s [m g] u|[m g] [| |e]| |x]; inversion H; subst; cbn [sw_vecs]; unfold sset; destruct (Nat.eqb_spec i id); subst; try tauto; rewrite Ev; split; discriminate. }
  intros ct W s op W' id H.
  assert (N : forall x, match sstep ct W x with Val (w', b) => Val (w', SDone b) | Fault f => Fault f end <> Val (W', SCaught)).
  { intros x. destruct (sstep ct W x) as [[w b]|f]; discriminate. }
  destruct op; cbn [x_sstep] in H; try (exfalso; eapply N; exact H); try (split; [eapply G; exact H|exact Logic.I]).
  assert (E : sw_vecs W' = sw_vecs W).
  { unfold x_vec_ctor in H. destruct (x_v_new_fill ct s (sw_mem W) n c) as [s1 [m g] u|[m g] [| |e]| |x]; inversion H; subst; reflexivity. }
  rewrite E. tauto.
Qed.

(** ** A legal program *)
(** A vector of three elements with room for 16; then any set() and push_back(), as long
    as there is room, under any schedules. *)
Definition vx_op (p : option sched * sop) : Prop :=
  match snd p with
  | SSet 0%nat i c => 0 <= i < 3 /\ wf_cell sx_ms c
  | SPush 0%nat c => wf_cell sx_ms c
  | _ => False
  end.

Lemma len_over : forall (l : list cell) i c, len (over l i [c]) = len l \/ (length l <= i)%nat.
Proof.
  intros l i c. destruct (Nat.le_gt_cases (length l) i); [right; auto|left]. unfold len, over. rewrite !app_length, firstn_length, skipn_length. cbn [length]. lia.
Qed.

Lemma vx_ops_legal : forall ops A a, Forall vx_op ops -> A 0%nat = Some a -> 3 <= len (av_l a) -> len (av_l a) + Z.of_nat (length ops) <= av_cap a ->
  av_ext a = true -> vlegal sx_ms [5; 8; 16] A ops.
Proof.
  induction ops as [|[o op] ops IH]; intros A a H HA H3 Hl Hx; [exact Logic.I|]. inversion H as [|? ? H1 H2]; subst.
  cbn [length] in Hl.
  assert (OV : forall i c, 0 <= i < 3 -> len (over (av_l a) (Z.to_nat i) [c]) = len (av_l a)).
  { intros i c Hi. destruct (len_over (av_l a) (Z.to_nat i) c) as [Q|Q]; auto. unfold len in *. lia. }
  destruct op; cbn [vx_op snd] in H1; try contradiction.
  - destruct id; [|contradiction]. destruct H1 as [Hi Hc]. cbn [vlegal]. split; [|split].
    + cbn [spre]. split; auto. exists a. split; auto. lia.
    + destruct o; exact Logic.I.
    + intros A' b ST. assert (G : exists c', A' = sset A 0%nat (Some (mkAV (over (av_l a) (Z.to_nat i) [c']) (av_cap a) (av_full a) (av_ext a)))).
      { inversion ST; subst;
          match goal with
          | Q : spec_step _ _ _ _ _ _ |- _ => inversion Q; subst
          | Q : sleft _ _ _ _ |- _ => inversion Q; subst
          end;
          match goal with Q : A 0%nat = Some ?x |- _ => assert (x = a) by congruence; subst x end; eauto. }
      destruct G as [c' ->]. eapply IH; [exact H2|apply sset_same|..]; cbn [av_l av_cap av_ext]; rewrite ?OV; auto; lia.
  - destruct id; [|contradiction]. cbn [vlegal]. split; [|split].
    + cbn [spre]. split; auto. exists a. split; auto. split; auto. right. right. lia.
    + destruct o; [|exact Logic.I]. exists a. split; auto. left. lia.
    + intros A' b ST.
      assert (G : A' = A \/ A' = sset A 0%nat (Some (mkAV (av_l a ++ [c]) (av_cap a) (av_full a) (av_ext a)))).
      { inversion ST; subst;
          match goal with
          | Q : spec_step _ _ _ _ _ _ |- _ => inversion Q; subst
          | Q : sleft _ _ _ _ |- _ => inversion Q; subst
          end; auto;
          match goal with Q : A 0%nat = Some ?x |- _ => assert (x = a) by congruence; subst x end; auto; exfalso; lia. }
      destruct G as [->| ->]; [eapply IH; eauto; lia|].
      assert (LA : len (av_l a ++ [c]) = len (av_l a) + 1) by (unfold len; rewrite app_length; cbn [length]; lia).
      eapply IH; [exact H2|apply sset_same|..]; cbn [av_l av_cap av_ext]; rewrite ?LA; auto; lia.
Qed.

Theorem C91_example_legal : forall ops, Forall vx_op ops -> (length ops <= 13)%nat ->
  vlegal (ct_ms sx_ct) [5; 8; 16] no_vectors ((None, SNew 0 3) :: (None, SReserve 0 16) :: ops).
Proof.
  intros ops H Hl. cbn [vlegal]. split; [cbn [spre]; split; [reflexivity|lia]|]. split; [exact Logic.I|].
  intros A b ST. inversion ST; subst. match goal with Q : spec_step _ _ _ _ _ _ |- _ => inversion Q; subst end.
  2:{ exfalso. match goal with Q : ~ room _ _ |- _ => apply Q, sx_room end. lia. }
  cbn [spre]. split; [eexists; split; [apply sset_same|]; cbn [av_l av_ext]; split; [vm_compute; discriminate|reflexivity]|]. split; [exact Logic.I|].
  intros A b ST2. inversion ST2; subst. match goal with Q : spec_step _ _ _ (SReserve _ _) _ _ |- _ => inversion Q; subst end.
  - match goal with Q : sset _ _ _ _ = Some a |- _ => rewrite sset_same in Q; inversion Q; subst end.
    eapply vx_ops_legal; [exact H|apply sset_same|..]; cbn [av_l av_cap av_ext]; [vm_compute; discriminate| |reflexivity].
    match goal with |- ?x + _ <= _ => replace x with 3 by reflexivity end. lia.
  - exfalso. match goal with Q : ~ room _ _ |- _ => apply Q, sx_room end. lia.
Qed.

(** An interrupted set() mixes, interrupted push_back()s add nothing, an allocation that
    fails changes nothing, an interrupted pop_back() pops. *)
Definition thr (k : nat) : option sched := Some (mkSched (Some k) None).
Definition obs_of_x (r : result (sworld * list sxobs)) : option (list sxobs) := match r with Val (_, bs) => Some bs | Fault _ => None end.
Definition got (r : result (sworld * list sxobs)) (k : nat) : option sxobs :=
  match obs_of_x r with Some bs => nth_error bs k | None => None end.
Definition vx_ops : list (option sched * sop) :=
  [(None, SNew 0 3); (None, SReserve 0 16); (thr 1, SSet 0 1 sx2); (thr 0, SPush 0 sx1); (thr 1, SPush 0 sx1); (thr 2, SPush 0 sx1);
   (Some (mkSched None (Some 0%nat)), SReserve 0 16); (thr 0, SPop 0); (thr 64, SReserve 0 16); (None, SSize 0); (None, SGet 0 1); (None, SCap 0)].
Example C91_case :
  let r := x_srun sx_ct sstart vx_ops in
  map (got r) [2; 3; 4; 5; 6; 7; 8; 9; 11]%nat =
    [Some SCaught; Some SCaught; Some SCaught; Some (SDone SUnit); Some SCaught; Some SCaught; Some (SDone SUnit); Some (SDone (SNum 3)); Some (SDone (SNum 16))] /\
  (exists c, got r 10 = Some (SDone (SCell c)) /\ c <> sx2 /\ c <> dx) /\
  Forall vx_op [(thr 1, SSet 0 1 sx2); (thr 0, SPush 0 sx1); (thr 1, SPush 0 sx1); (thr 2, SPush 0 sx1)].
Proof.
  split; [vm_compute; reflexivity|]. split.
  - eexists. split; [vm_compute; reflexivity|]. split; discriminate.
  - repeat constructor; cbn [vx_op snd]; try lia; apply PropsArray.ax_cell_wf.
Qed.

(** reserve(16) of three elements with two members each builds 32 objects and copies 6;
    soa_vector(4, value) builds 8 and assigns 8; a push_back() that enlarges 5 elements
    to 6, rounded up to 8, builds 12 and 16, copies 10 and assigns 2. *)
Example C91_threshold :
  let r := x_srun sx_ct sstart [(None, SNew 0 3); (None, SReserve 0 16); (thr 37, SReserve 0 16); (thr 38, SReserve 0 16);
    (thr 15, SFill 1 4 sx1); (thr 16, SFill 1 4 sx1); (None, SNew 2 5); (None, SReserve 2 5); (thr 39, SPush 2 sx1); (None, SCap 2); (None, SSize 2)] in
  let r' := x_srun sx_ct sstart [(None, SNew 2 5); (None, SReserve 2 5); (thr 37, SPush 2 sx1); (None, SCap 2); (thr 40, SPush 2 sx1); (None, SSize 2)] in
  map (got r) [2; 3; 4; 5; 8; 9; 10]%nat =
    [Some SCaught; Some (SDone SUnit); Some SCaught; Some (SDone SUnit); Some SCaught; Some (SDone (SNum 8)); Some (SDone (SNum 5))] /\
  map (got r') [2; 3; 4; 5]%nat = [Some SCaught; Some (SDone (SNum 5)); Some (SDone SUnit); Some (SDone (SNum 6))].
Proof. vm_compute. split; reflexivity. Qed.

(** ** Other moments *)
(** The restriction is necessary: an exception while push_back() fills new storage is
    undefined behaviour. *)
Theorem C91_push_refuted :
  ~ forall ct L ops, wf_ct ct -> policy ct L -> lawful (ct_ms ct) L no_vectors (map snd ops) ->
      exists W bs, x_srun ct sstart ops = Val (W, bs).
Proof.
  intros H. destruct sx_wf as [Hw _]. destruct sx_policy as [HP _].
  destruct (H sx_ct [5; 8; 16] [(None, SNew 0 5); (None, SReserve 0 5); (thr 12, SPush 0 sx1)] Hw HP) as [W [bs E]].
  - cbn [map snd lawful]. split; [cbn [spre]; split; [reflexivity|lia]|]. intros A b ST. inversion ST; subst.
    2:{ exfalso. match goal with Q : ~ room _ _ |- _ => apply Q, sx_room end. lia. }
    split; [cbn [spre]; eexists; split; [apply sset_same|]; cbn [av_l av_ext]; split; [vm_compute; discriminate|reflexivity]|].
    intros A b ST2. inversion ST2; subst.
    2:{ exfalso. match goal with Q : ~ room _ _ |- _ => apply Q, sx_room end. lia. }
    split; [|intros; exact Logic.I]. cbn [spre]. split; [apply PropsArray.ax_cell_wf|].
    eexists. split; [apply sset_same|]. cbn [av_ext av_full av_l av_cap]. split; [reflexivity|]. right. left. reflexivity.
  - assert (F : match x_srun sx_ct sstart [(None, SNew 0 5); (None, SReserve 0 5); (thr 12, SPush 0 sx1)] with Fault _ => true | Val _ => false end = true)
      by (vm_compute; reflexivity).
    rewrite E in F. discriminate.
Qed.

Print Assumptions C91_programs.
Print Assumptions C91_no_leak.
Print Assumptions C91_plain.
Print Assumptions C91_objects.
Print Assumptions C91_example_legal.
Print Assumptions C91_push_refuted.
