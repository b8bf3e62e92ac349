(** Property C73: running the text of the generated bulk functions. *)
From Coq Require Import String Ascii ZArith Bool List Lia PArith.
From Verif Require Import Base Layout Mem Accessor Preproc SpecPreproc SpecRegister RegisterProofs RegisterText RegisterValues PropsRegister.
From Verif Require Import SpecBulk BulkProofs BulkSteps BulkUnique BulkAll.
Import ListNotations.
Local Open Scope Z_scope.

(** The class [c] with the members [ms], of which the layout model has the entries
    [lms]; in the class scope [E] of an accessor with the state [a] over the buffer at
    [d] the offsets have the values [T]. *)
Definition registered (E : cenv) (types : list tok -> option ty) (c : list tok) (ms : list soa_member)
    (lms : list Layout.member) (T : nat -> Z) (index : string) (d : ptr) (a : accessor) : Prop :=
  type_like c /\ NoDup (map name_of ms) /\ (length ms <= 51)%nat /\ Forall2 (usable E types) ms lms /\
  offset_table E c ms T /\ accessor_state E index (po d) a.

(** * The text *)

(** The functions of the registration (C63) are a head, the body and a brace. *)
Theorem C73_body_text : forall head t c ms,
  render c ms (function head t) = class_text c (head ++ "{") ++ body t c ms ++ tokens "}".
Proof.
  intros head t c ms. unfold render, function, body. cbn [map concat render_item]. rewrite app_nil_r, <- app_assoc. reflexivity.
Qed.

(** The text has at most one meaning. *)
Theorem C73_unique : forall c s l x y, performs c s l x -> performs c s l y -> x = y.
Proof. exact performs_unique. Qed.

(** * The functions *)

Section Functions.
Variables (E : cenv) (types : list tok -> option ty) (c : list tok) (ms : list soa_member) (lms : list Layout.member).
Variables (T : nat -> Z) (index : string) (d : ptr) (a : accessor).

Lemma scope_inside : forall ints objs ptrs cell, (forall x, In x (map fst ints) -> In x local_names) ->
  inside E types c ms index d (function_scope E types (accessor_object E index d c ms) ints objs ptrs cell).
Proof. intros ints objs ptrs cell H. repeat split; apply (agrees_vars E ints H). Qed.

Lemma scope_transfers : forall buffer B count off stride,
  transfers E types c ms index d
    (function_scope E types (accessor_object E index d c ms) [("count", count); ("offset", off); ("stride", stride)]%string
       [] [(buffer, B)] false) buffer B count off stride.
Proof.
  intros buffer B count off stride. split; [|split; [|split; [|split]]].
  - apply scope_inside. intros x H. cbn [map fst In] in H. unfold local_names. cbn [In]. intuition.
  - cbn [function_scope s_pointers map fst snd assoc]. rewrite Pos.eqb_refl. reflexivity.
  - apply var_here.
  - apply var_beside; [closed|]. apply var_here.
  - apply var_beside; [closed|]. apply var_beside; [closed|]. apply var_here.
Qed.

Theorem C73_construct : registered E types c ms lms T index d a ->
  performs c (function_scope E types (accessor_object E index d c ms) [] [] [] false)
    (body construct_text c ms) (map Do (construct_members_ops d a lms)).
Proof.
  intros [H1 [H2 [H3 [H4 [H5 H6]]]]]. apply runs_performs. eapply construct_runs; try eassumption. apply scope_inside. intros x [].
Qed.

Theorem C73_destroy : registered E types c ms lms T index d a ->
  performs c (function_scope E types (accessor_object E index d c ms) [] [] [] false)
    (body destroy_text c ms) (map Do (destroy_members_ops d a lms)).
Proof.
  intros [H1 [H2 [H3 [H4 [H5 H6]]]]]. apply runs_performs. eapply destroy_runs; try eassumption. apply scope_inside. intros x [].
Qed.

(** load(source, count, offset, stride) *)
Theorem C73_load : registered E types c ms lms T index d a -> forall source count off stride,
  performs c (function_scope E types (accessor_object E index d c ms)
      [("count", count); ("offset", off); ("stride", stride)]%string [] [("source", source)]%string false)
    (body load_text c ms) (map Do (load_ops d a lms source count off stride)).
Proof.
  intros [H1 [H2 [H3 [H4 [H5 H6]]]]] source count off stride. apply runs_performs. eapply load_runs; try eassumption.
  apply scope_transfers.
Qed.

(** save(target, count, offset, stride) *)
Theorem C73_save : registered E types c ms lms T index d a -> forall target count off stride,
  performs c (function_scope E types (accessor_object E index d c ms)
      [("count", count); ("offset", off); ("stride", stride)]%string [] [("target", target)]%string false)
    (body save_text c ms) (map Do (save_ops d a lms target count off stride)).
Proof.
  intros [H1 [H2 [H3 [H4 [H5 H6]]]]] target count off stride. apply runs_performs. eapply save_runs; try eassumption.
  apply scope_transfers.
Qed.

(** copy_members(other, count); the other accessor may belong to another extent. *)
Theorem C73_copy : forall E' T' index' d' a', registered E types c ms lms T index d a ->
  registered E' types c ms lms T' index' d' a' -> Forall (fun lm => 0 < m_size lm) lms -> forall count,
  performs c (function_scope E types (accessor_object E index d c ms) [("count", count)]%string
      [("other", accessor_object E' index' d' c ms)]%string [] false)
    (body copy_text c ms) (map Do (copy_members_ops d a lms d' a' count)).
Proof.
  intros E' T' index' d' a' [H1 [H2 [H3 [H4 [H5 H6]]]]] [_ [_ [_ [K4 [K5 K6]]]]] P count. apply runs_performs.
  eapply (copy_runs E types c ms lms T index d a E' T' index' d' a'); try eassumption. split; [|split; [|split]].
  - apply scope_inside. intros x H. cbn [map fst In] in H. unfold local_names. cbn [In]. intuition.
  - reflexivity.
  - cbn [function_scope s_objects map fst snd assoc]. rewrite Pos.eqb_refl. reflexivity.
  - apply var_here.
Qed.

(** Playing such a list is executing the operations. *)
Theorem C73_effect : forall ops m cell, play (map Do ops) (m, cell) = rbind (exec ops m) (fun m' => Val (m', cell)).
Proof. exact play_do. Qed.

(** operator=(cell) *)
Theorem C73_assign : registered E types c ms lms T index d a -> ~ In (spell "cell") (map name_of ms) ->
  exists es, performs c (function_scope E types (accessor_object E index d c ms) [] [] [] true) (body assign_text c ms) es /\
    forall m cell, shaped lms cell -> play es (m, cell) = rbind (exec (assign_ops d a lms cell) m) (fun m' => Val (m', cell)).
Proof.
  intros [H1 [H2 [H3 [H4 [H5 H6]]]]] N. eexists. split.
  - apply runs_performs. eapply assign_runs; try eassumption. split; [apply scope_inside; intros x []|]. repeat split.
  - intros m cell Hc. apply play_assign. exact Hc.
Qed.

(** operator>>(cell) *)
Theorem C73_extract : registered E types c ms lms T index d a -> ~ In (spell "cell") (map name_of ms) ->
  exists es, performs c (function_scope E types (accessor_object E index d c ms) [] [] [] true) (body extract_text c ms) es /\
    forall m cell, shaped lms cell -> play es (m, cell) = rbind (read_cell m d a lms) (fun cell' => Val (m, cell')).
Proof.
  intros [H1 [H2 [H3 [H4 [H5 H6]]]]] N. eexists. split.
  - apply runs_performs. eapply extract_runs; try eassumption. split; [apply scope_inside; intros x []|]. repeat split.
  - intros m cell Hc. apply play_extract. exact Hc.
Qed.

End Functions.

(** * A class with a scalar and an array of objects *)

Definition station : list tok := tokens "Station".
Definition station_members : list soa_member :=
  [mkSM (tokens "double") (tokens "temp") None; mkSM (tokens "std::vector<int>") (tokens "log") (Some (tokens "N"))].
Definition station_layout : list Layout.member :=
  [mkMember 8 None false (repeat None 8); mkMember 24 (Some 3%nat) true (repeat (Some Byte.x00) 24)].

Definition station_types (l : list tok) : option ty :=
  if same_text l (tokens "double") then Some (mkTy 8 false (repeat None 8)) else
  if same_text l (tokens "std::vector<int>") then Some (mkTy 24 true (repeat (Some Byte.x00) 24)) else None.

Definition station_offset (i : nat) : Z := nth i [0; 8; 80] 0.

Definition station_env (vars : list (string * Z)) (x : Z) : cenv :=
  mkEnv (fun l => if same_text l (tokens "double") then 8 else 24) (fun p => find_var p vars) (fun _ => Some x)
    (fun l k => if same_text l station && (0 <=? k) && (k <=? 2) then Some (station_offset (Z.to_nat k)) else None).

(** N = 3, the accessor of element 8 in a 100 x 1 x 1 array at 16. *)
Definition here : cenv :=
  station_env [("my_data", 16); ("DIM_PROD", 100); ("my_index", 7); ("INDEX", 1); ("N", 3)]%string 0.
Definition here_ptr : ptr := mkPtr 3 16.
Definition here_acc : accessor := mkAcc (mkExt 100 1 1) 7 1.

(** The accessor of element 5 of another array, through a shared index. *)
Definition there : cenv := station_env [("my_data", 0); ("DIM_PROD", 60); ("INDEX", 0); ("N", 3)]%string 5.
Definition there_ptr : ptr := mkPtr 4 0.
Definition there_acc : accessor := mkAcc (mkExt 5 4 3) 5 0.

Lemma arity_N : forall E F, agrees E F -> var_is E "N" 3 -> primary_value F (tokens "N") 3.
Proof.
  intros E F HF HN. exists 1%nat. intros r.
  assert (V : var_is F "N" 3) by (eapply var_agrees; [exact HF|not_local|exact HN]).
  change (tokens "N") with [TId (spell "N")]. cbn [app ev].
  replace (Pos.eqb (spell "N") (spell "sizeof")) with false by closed.
  replace (Pos.eqb (spell "N") (spell "offset")) with false by closed.
  unfold var_is in V. rewrite V. reflexivity.
Qed.

Lemma station_usable : forall vars x, var_is (station_env vars x) "N" 3 ->
  Forall2 (usable (station_env vars x) station_types) station_members station_layout.
Proof.
  intros vars x HN. constructor; [|constructor; [|constructor]].
  - split; [exists (spell "temp"); split; [reflexivity|not_local]|].
    split; [split; [closed|split; [vm_compute; repeat constructor|closed]]|]. split; [not_local|]. split; [closed|]. split; [closed|]. exact Logic.I.
  - split; [exists (spell "log"); split; [reflexivity|not_local]|].
    split; [split; [closed|split; [vm_compute; repeat constructor|closed]]|]. split; [not_local|]. split; [closed|]. split; [closed|].
    cbn [station_members sm_arity m_array]. split; [split; [closed|split; [vm_compute; repeat constructor|closed]]|].
    intros F HF. exact (arity_N _ _ HF HN).
Qed.

Lemma station_table : forall vars x, var_is (station_env vars x) "N" 3 -> offset_table (station_env vars x) station station_members station_offset.
Proof.
  intros vars x HN. split; [reflexivity|]. split.
  - intros i L. destruct i as [|[|[|i]]]; [reflexivity|reflexivity|reflexivity|]. cbn [length station_members] in L. lia.
  - intros i m H.
    assert (K : offset_table (station_env vars x) station station_members (fun i => sum_bytes (firstn i [(8, 1); (24, 3)]))).
    { apply C64_offsets_exist; [closed|repeat constructor|vm_compute; repeat constructor| |].
      - constructor; [split; closed|]. constructor; [|constructor]. split; [closed|]. exact (arity_N _ _ (agrees_refl _) HN).
      - intros j L. destruct j as [|[|[|j]]]; [reflexivity|reflexivity|reflexivity|]. cbn [length station_members] in L. lia. }
    destruct K as [_ [_ K]]. specialize (K i m H). destruct i as [|[|i]]; [exact K|exact K|]. destruct i; discriminate.
Qed.

Example here_registered : registered here station_types station station_members station_layout station_offset "my_index" here_ptr here_acc.
Proof.
  split; [split; [closed|split; [vm_compute; repeat constructor|closed]]|].
  split; [constructor; [not_local|constructor; [intros []|constructor]]|]. split; [vm_compute; repeat constructor|].
  split; [apply station_usable; closed|]. split; [apply station_table; closed|].
  repeat split; try closed. left. split; closed.
Qed.

Example there_registered :
  registered there station_types station station_members station_layout station_offset "*my_index" there_ptr there_acc.
Proof.
  split; [split; [closed|split; [vm_compute; repeat constructor|closed]]|].
  split; [constructor; [not_local|constructor; [intros []|constructor]]|]. split; [vm_compute; repeat constructor|].
  split; [apply station_usable; closed|]. split; [apply station_table; closed|].
  repeat split; try closed. right. split; closed.
Qed.

Example station_sizes : Forall (fun lm => 0 < m_size lm) station_layout /\ ~ In (spell "cell") (map name_of station_members).
Proof. split; [repeat constructor|not_local]. Qed.

(** What copy_members(other, 2) does, in order. *)
Example station_copy :
  performs station
    (function_scope here station_types (accessor_object here "my_index" here_ptr station station_members) [("count", 2)]%string
       [("other", accessor_object there "*my_index" there_ptr station station_members)]%string [] false)
    (body copy_text station station_members)
    (map Do ([Copy (mkPtr 3 (16 + 8 * 8)) (mkPtr 4 (5 * 8)) 8 false; Copy (mkPtr 3 (16 + 9 * 8)) (mkPtr 4 (6 * 8)) 8 false] ++
       flat_map (fun k => map (fun i => Copy (mkPtr 3 (16 + 100 * 8 + (100 * k + 8 + i) * 24))
                                             (mkPtr 4 (60 * 8 + (60 * k + 5 + i) * 24)) 24 true) [0; 1]) [0; 1; 2])).
Proof.
  eapply eq_ind; [eapply C73_copy; [exact here_registered|exact there_registered|apply station_sizes]|]. closed.
Qed.

(** What cell = accessor[…] reads. *)
Example station_extract :
  performs station
    (function_scope here station_types (accessor_object here "my_index" here_ptr station station_members) [] [] [] true)
    (body extract_text station station_members)
    (ToCell 0 0 (mkPtr 3 (16 + 8 * 8)) 8 false ::
     map (fun k => ToCell 1 k (mkPtr 3 (16 + 100 * 8 + (100 * Z.of_nat k + 8) * 24)) 24 true) [0; 1; 2]%nat).
Proof. exists 200%nat. closed. Qed.

(** * Names that get in the way *)

(** If the arity of a member is written i, the loop variable hides it:
    construct_members and the others with loops skip the member, while load and
    save copy it.  So the condition on local names in [usable] is needed. *)
Definition hidden_members : list soa_member := [mkSM (tokens "double") (tokens "values") (Some (tokens "i"))].
Definition hidden_layout : list Layout.member := [mkMember 8 (Some 2%nat) false (repeat None 8)].
Definition hidden : cenv :=
  mkEnv (fun _ => 8) (fun p => find_var p [("my_data", 0); ("DIM_PROD", 10); ("my_index", 0); ("INDEX", 0); ("i", 2)]%string)
    (fun _ => None) (fun _ k => Some (16 * k)).
Definition hidden_ptr : ptr := mkPtr 0 0.
Definition hidden_acc : accessor := mkAcc (mkExt 10 1 1) 0 0.
Definition hidden_scope (ints : list (string * Z)) (ptrs : list (string * ptr)) : scope :=
  function_scope hidden station_types (accessor_object hidden "my_index" hidden_ptr station hidden_members) ints [] ptrs false.

Theorem C73_arity_i_refuted :
  Forall2 (described hidden) hidden_members hidden_layout /\
  offset_table hidden station hidden_members (fun i => 16 * Z.of_nat i) /\
  accessor_state hidden "my_index" (po hidden_ptr) hidden_acc /\
  length (construct_members_ops hidden_ptr hidden_acc hidden_layout) = 2%nat /\
  performs station (hidden_scope [] []) (body construct_text station hidden_members) [] /\
  performs station (hidden_scope [("count", 1); ("offset", 0); ("stride", 1)]%string [("source", mkPtr 1 0)]%string)
    (body load_text station hidden_members) (map Do (load_ops hidden_ptr hidden_acc hidden_layout (mkPtr 1 0) 1 0 1)).
Proof.
  assert (P : primary_value hidden (tokens "i") 2) by (exists 1%nat; intros r; reflexivity).
  split; [repeat constructor; exact P|]. split.
  { split; [reflexivity|]. split; [intros i _; reflexivity|].
    intros [|[|i]] m H; try discriminate. injection H as <-. exists 20%nat. closed. }
  split; [repeat split; try closed; left; split; closed|]. split; [closed|].
  split; exists 60%nat; closed.
Qed.

(** If a member is called cell, the parameter of operator= hides its function: the
    text has no meaning. *)
Definition cell_members : list soa_member := [mkSM (tokens "double") (tokens "cell") None].

Theorem C73_member_cell_refuted : forall es,
  ~ performs station (function_scope hidden station_types (accessor_object hidden "my_index" hidden_ptr station cell_members) [] [] [] true)
      (body assign_text station cell_members) es.
Proof.
  intros es [f H]. apply (run_le station f (20 + f)) in H; [|lia]. revert H. set (n := f). clearbody n. vm_compute. discriminate.
Qed.

Print Assumptions C73_body_text.
Print Assumptions C73_unique.
Print Assumptions C73_construct.
Print Assumptions C73_destroy.
Print Assumptions C73_load.
Print Assumptions C73_save.
Print Assumptions C73_copy.
Print Assumptions C73_effect.
Print Assumptions C73_assign.
Print Assumptions C73_extract.
Print Assumptions C73_arity_i_refuted.
Print Assumptions C73_member_cell_refuted.
