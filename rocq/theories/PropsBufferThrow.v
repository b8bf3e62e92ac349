(** Statements C89: load() and save() of soa_grid when assignment operators of members throw. *)
From Coq Require Import ZArith List Lia Bool Init.Byte.
From Verif Require Import Base Layout LayoutProofs Sizes SizesProofs Mem MemProofs
  Accessor AccessorProofs RegionProofs Grid SpecGrid GridProofs GridInv BufferProofs GridOps GridSim GridView PropsGrid PropsGrid2
  Vector GridThrow SpecGridThrow GridThrowProofs SpecArrayThrow ArrayThrowProofs BufferThrow BufferThrowProofs.
Import ListNotations.
Open Scope Z_scope.

(** A call that moves [n] cells ends by an exception of a member exactly if the [k]-th
    assignment of a class-type member is to throw and the call gets that far. *)
Definition gets_to_throw (ms : list member) (s : sched) (n : nat) : Prop :=
  exists k, sc_ops s = Some k /\ (k < n * class_elements ms)%nat.

(** ** load *)
(** A client packs [cs] into a buffer, calls load() for the cells in [l], catches what
    members throw and takes the buffer down. Nothing of that is undefined behaviour; the
    buffer still holds [cs]; the grid is usable and has its dimensions; cells not in [l]
    are as before; the [k]-th cell in [l] is the [k]-th of the buffer, or, after an
    exception, has each of its members from there or from before. *)
Theorem C89_load : forall ct s W A id g S l cs,
  wf_ct ct -> history ct W A -> w_grids W id = Some g -> A id = Some S -> ag_fresh S = false ->
  Forall (fun '(x, y, z, n) => row_in S x y z n) l -> NoDup (streak_coords l) ->
  (length (streak_coords l) <= length cs)%nat -> Forall (wf_cell (ct_ms ct)) cs ->
  exists m' thrown S',
    x_with_buffer (ct_ms ct) (w_mem W) cs (fun m q => x_load_streaks ct s (m, g) l q (Z.of_nat (length cs)))
      = Ret (m', g) (thrown, pack (ct_ms ct) cs) /\
    (thrown = true <-> gets_to_throw (ct_ms ct) s (length (streak_coords l))) /\
    as_specified ct (mkW m' (fset (w_grids W) id (Some g))) (fset A id (Some S')) /\
    ag_x S' = ag_x S /\ ag_y S' = ag_y S /\ ag_z S' = ag_z S /\
    (forall x y z, in_box S x y z -> ~ In (x, y, z) (streak_coords l) -> ag_cells S' x y z = ag_cells S x y z) /\
    (forall k x y z c, nth_error (streak_coords l) k = Some (x, y, z) -> nth_error cs k = Some c ->
       if thrown then mixed (ct_ms ct) (ag_cells S x y z) c (ag_cells S' x y z) else ag_cells S' x y z = c).
Proof.
  intros ct s W A id g S l cs Hct HH Hg HA HF Hl Hnd Hlen Hcs. pose proof (history_inv _ _ _ Hct HH) as I.
  pose proof (wi_ok _ _ _ I) as M.
  destruct (winv_rep _ _ _ _ _ I Hg) as [S0 [HA0 G]]. assert (S0 = S) by congruence. subst S0.
  destruct (grep_alloc _ _ _ _ G HF) as [e GA].
  assert (HD : forall x y z, In (x, y, z) (streak_coords l) -> in_dims (g_x g) (g_y g) (g_z g) x y z).
  { intros x y z Hin. eapply dims_box; eauto. eapply streak_in; eauto. }
  destruct (x_with_buffer_ok ct (w_mem W) g e (ag_cells S) cs
     (fun m q => x_load_streaks ct s (m, g) l q (Z.of_nat (length cs)))
     (fun b cells' cs' => cs' = cs /\ (b = true <-> gets_to_throw (ct_ms ct) s (length (streak_coords l))) /\
        forall x y z, in_dims (g_x g) (g_y g) (g_z g) x y z ->
          match the_new (streak_coords l) cs x y z with
          | None => cells' x y z = ag_cells S x y z
          | Some c => if b then mixed (ct_ms ct) (ag_cells S x y z) c (cells' x y z) else cells' x y z = c
          end)) as [m' [b [cells' [cs' [E [F [G' [-> [HB HC]]]]]]]]]; auto.
  { intros m2 q M2 G2 Hq R2.
    destruct (x_load_cases ct s m2 g e (ag_cells S) q cs l) as [m3 [cells' [b [E3 [SO3 [G3 [HB HC]]]]]]]; auto.
    - eapply row_nonneg; eauto.
    - exists m3, (blk g), b, cells', cs. split; auto. split; auto. split; auto. split; [split; auto|]. split; auto. split; auto.
      eapply region_frame; eauto; [destruct SO3 as [_ [SO3 _]]; apply SO3| |]; destruct SO3 as [_ [_ [SV SL]]]; intros; [apply SV|apply SL]; auto. }
  exists m', b, (mkAG (ag_x S) (ag_y S) (ag_z S) false cells'). cbn [ag_x ag_y ag_z ag_cells].
  split; auto. split; auto. split.
  - apply winv_as_specified; auto. eapply winv_update; eauto; [rewrite Hg; exact F|].
    destruct G as [X [Y [Zz _]]]. split; [exact X|]. split; [exact Y|]. split; [exact Zz|]. cbn [ag_fresh ag_cells]. eauto.
  - split; auto. split; auto. split; auto. split.
    + intros x y z Hb Hni. specialize (HC x y z (proj1 (dims_box _ _ _ _ _ _ _ G) Hb)).
      destruct (the_new (streak_coords l) cs x y z) eqn:En; auto. apply the_new_some in En. tauto.
    + intros k x y z c H1 H2. specialize (HC x y z (HD x y z (nth_error_In _ _ H1))).
      rewrite (the_new_nth _ _ _ _ _ _ _ Hnd H1 H2) in HC. exact HC.
Qed.

(** ** save *)
(** The same client with save(): all grids are as before, whatever was thrown; the
    buffer holds the cells in [l] in front of what else it held, or, after an exception,
    in each of these places each member from the grid or from before. *)
Theorem C89_save : forall ct s W A id g S l cs,
  wf_ct ct -> history ct W A -> w_grids W id = Some g -> A id = Some S -> ag_fresh S = false ->
  Forall (fun '(x, y, z, n) => row_in S x y z n) l ->
  (length (streak_coords l) <= length cs)%nat -> Forall (wf_cell (ct_ms ct)) cs ->
  let vs := map (fun '(x, y, z) => ag_cells S x y z) (streak_coords l) in
  exists m' thrown cs',
    x_with_buffer (ct_ms ct) (w_mem W) cs (fun m q => x_save_streaks ct s (m, g) l q (Z.of_nat (length cs)))
      = Ret (m', g) (thrown, pack (ct_ms ct) cs') /\
    (thrown = true <-> gets_to_throw (ct_ms ct) s (length (streak_coords l))) /\
    as_specified ct (mkW m' (fset (w_grids W) id (Some g))) A /\
    length cs' = length cs /\
    (forall k old c, nth_error cs k = Some old -> nth_error cs' k = Some c ->
       match nth_error vs k with
       | Some v => if thrown then mixed (ct_ms ct) old v c else c = v
       | None => c = old
       end).
Proof.
  intros ct s W A id g S l cs Hct HH Hg HA HF Hl Hlen Hcs vs. pose proof (history_inv _ _ _ Hct HH) as I.
  pose proof (wi_ok _ _ _ I) as M.
  destruct (winv_rep _ _ _ _ _ I Hg) as [S0 [HA0 G]]. assert (S0 = S) by congruence. subst S0.
  destruct (grep_alloc _ _ _ _ G HF) as [e GA].
  assert (HD : forall x y z, In (x, y, z) (streak_coords l) -> in_dims (g_x g) (g_y g) (g_z g) x y z).
  { intros x y z Hin. eapply dims_box; eauto. eapply streak_in; eauto. }
  assert (Hvl : length vs = length (streak_coords l)) by apply map_length.
  destruct (x_with_buffer_ok ct (w_mem W) g e (ag_cells S) cs
     (fun m q => x_save_streaks ct s (m, g) l q (Z.of_nat (length cs)))
     (fun b cells' cs' => cells' = ag_cells S /\ (b = true <-> gets_to_throw (ct_ms ct) s (length (streak_coords l))) /\
        (if b : bool then patched (ct_ms ct) cs 0 vs cs' else cs' = vs ++ skipn (length vs) cs)))
     as [m' [b [cells' [cs' [E [F [G' [-> [HB HC]]]]]]]]]; auto.
  { intros m2 q M2 G2 Hq R2.
    destruct (x_save_cases ct s m2 g e (ag_cells S) q cs l) as [m3 [cs' [b [E3 [SO3 [R3 [HB HC]]]]]]]; auto.
    - eapply row_nonneg; eauto.
    - exists m3, (pb q), b, (ag_cells S), cs'. split; auto. split; auto. split; auto. split; [split; auto|]. split; [|split; auto].
      + destruct b; [apply HC|]. fold vs in HC. rewrite HC, app_length, skipn_length. lia.
      + apply (galloc_frame ct m2 m3 g e (ag_cells S) (pb q) (pb q)); auto. apply same_other_frame; auto. }
  exists m', b, cs'. split; auto. split; auto. split; [|split].
  - apply winv_as_specified; auto. eapply winv_ext; [apply (fset_id _ A id (Some S) HA)|].
    eapply winv_update; eauto; [rewrite Hg; exact F|].
    destruct G as [X [Y [Zz _]]]. split; [exact X|]. split; [exact Y|]. split; [exact Zz|]. rewrite HF. eauto.
  - destruct b; [apply HC|]. rewrite HC, app_length, skipn_length. lia.
  - intros k old c H1 H2. destruct (nth_error vs k) as [v|] eqn:Ev.
    + assert (Hk : (k < length vs)%nat) by (apply nth_error_Some; congruence). destruct b.
      * destruct HC as [_ HC]. specialize (HC k old c H1 H2).
        replace (Nat.leb 0 k && Nat.ltb k (0 + length vs))%bool with true in HC by (symmetry; apply andb_true_intro; split; [reflexivity|apply Nat.ltb_lt; lia]).
        rewrite Nat.sub_0_r, (nth_error_nth _ _ _ Ev) in HC. exact HC.
      * rewrite HC, nth_error_app1 in H2 by lia. congruence.
    + apply nth_error_None in Ev. destruct b.
      * destruct HC as [_ HC]. specialize (HC k old c H1 H2).
        replace (Nat.leb 0 k && Nat.ltb k (0 + length vs))%bool with false in HC by (symmetry; apply andb_false_intro2; apply Nat.ltb_ge; lia). exact HC.
      * rewrite HC, nth_error_app2 in H2 by lia.
        rewrite <- (firstn_skipn (length vs) cs), nth_error_app2 in H1 by (rewrite firstn_length; lia).
        rewrite firstn_length, Nat.min_l in H1 by lia. congruence.
Qed.

(** ** Examples *)
(** Two cells and one more of a 3x2x2 grid, two elements of class type in each; five of
    the six assignments succeed. load() leaves the third cell with its last element as it
    was; save() leaves the last element of the third cell in the buffer as it was. *)
Definition ex_streaks : list streak := [(0, 0, 0, 2); (1, 1, 0, 1)].
Definition ex_buffer : list cell :=
  [ex_cell x20 x21 x22 x23; ex_cell x24 x25 x26 x27; ex_cell x28 x29 x2a x2b; ex_cell x2c x2d x2e x2f].

Example C89_load_case :
  match x_with_buffer (ct_ms ex_ct) (w_mem ex_world) ex_buffer
          (fun m q => x_load_streaks ex_ct (mkSched (Some 5%nat) None) (m, ex_grid 0) ex_streaks q 4) with
  | Ret w' (thrown, bytes) => thrown = true /\ bytes = pack (ct_ms ex_ct) ex_buffer /\
      match g_get_n ex_ct w' 0 0 0 2 with Ret _ cs => cs = [ex_cell x20 x21 x22 x23; ex_cell x24 x25 x26 x27] | _ => False end /\
      match g_get ex_ct w' 1 1 0 with Ret _ c => c = ex_cell x28 x29 x2a x13 | _ => False end
  | _ => False
  end /\
  gets_to_throw (ct_ms ex_ct) (mkSched (Some 5%nat) None) (length (streak_coords ex_streaks)).
Proof. split; [vm_compute; repeat split|]. exists 5%nat. split; [reflexivity|]. vm_compute. lia. Qed.

Example C89_save_case :
  match x_with_buffer (ct_ms ex_ct) (w_mem ex_world) ex_buffer
          (fun m q => x_save_streaks ex_ct (mkSched (Some 5%nat) None) (m, ex_grid 0) ex_streaks q 4) with
  | Ret _ (thrown, bytes) => thrown = true /\
      bytes = pack (ct_ms ex_ct) [ex_cell x00 x01 x02 x02; ex_cell x00 x01 x02 x02; ex_cell x10 x11 x12 x2b; ex_cell x2c x2d x2e x2f]
  | _ => False
  end.
Proof. vm_compute. repeat split. Qed.

(** The other hypotheses hold of that grid and these streaks. *)
Example C89_hypotheses : exists A S,
  wf_ct ex_ct /\ history ex_ct ex_world A /\ w_grids ex_world 0 = Some (ex_grid 0) /\ A 0%nat = Some S /\ ag_fresh S = false /\
  Forall (fun '(x, y, z, n) => row_in S x y z n) ex_streaks /\ NoDup (streak_coords ex_streaks) /\
  (length (streak_coords ex_streaks) <= length ex_buffer)%nat /\ Forall (wf_cell (ct_ms ex_ct)) ex_buffer.
Proof.
  assert (HG : w_grids ex_world 0 = Some (ex_grid 0)) by (vm_compute; reflexivity).
  destruct ex_reachable as [ops [A [bs [HA HR]]]].
  assert (HH : history ex_ct ex_world A) by (exists ops, bs; auto).
  pose proof (history_inv _ _ _ ex_ct_wf HH) as I. destruct (winv_rep _ _ _ _ _ I HG) as [S [HS G]].
  exists A, S. split; [apply ex_ct_wf|]. split; auto. split; auto. split; auto.
  assert (D : g_x (ex_grid 0) = 3 /\ g_y (ex_grid 0) = 2 /\ g_z (ex_grid 0) = 2) by (vm_compute; auto).
  assert (HB : forall x y z, 0 <= x < 3 -> 0 <= y < 2 -> 0 <= z < 2 -> in_box S x y z).
  { intros x y z Hx Hy Hz. eapply dims_box; eauto. unfold in_dims. destruct D as [-> [-> ->]]. auto. }
  split; [apply (nonfresh _ _ _ _ 0 0 0 G); apply HB; lia|].
  split; [|split; [|split]].
  - unfold ex_streaks. apply Forall_cons; [|apply Forall_cons; [|apply Forall_nil]]; (split; [lia|intros; apply HB; lia]).
  - vm_compute. repeat constructor; cbn [In]; intuition discriminate.
  - vm_compute. lia.
  - repeat constructor.
Qed.

Print Assumptions C89_load.
Print Assumptions C89_save.
