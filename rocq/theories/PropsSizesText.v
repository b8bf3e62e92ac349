(** Statements C66: the macros that list sizes, as text and as what the text does. *)
From Coq Require Import String Ascii ZArith Bool Lia.
From Coq Require Import List.
From Coq Require Import FMapPositive.
From Coq Require DecimalString.
From Verif Require Import Preproc PreprocLib SpecPreproc PropsPreproc SpecRegister Layout Sizes SpecSizes SizesText SizesRun.
Import ListNotations.
Local Open Scope Z_scope.

Opaque lib lib_words.

(** Elements that are not macros, 1 to 51 of them. *)
Definition sizes_ok (tab : table) (l : list (list tok)) : Prop := Forall (inert tab) l /\ (1 <= length l <= 51)%nat.

(** The non-const and the const version of each function. *)
Definition in_both (f : string -> list fn) : list fn := alternate (f ""%string) (f "const "%string).

(** ** C66: text *)
Theorem C66_custom_text : forall tab xs ys zs, includes_lib tab ->
  sizes_ok tab xs -> sizes_ok tab ys -> sizes_ok tab zs ->
  expands tab (call (word "LIBFLATARRAY_CUSTOM_SIZES") [seq_of xs; seq_of ys; seq_of zs])
    (class_sizes [xs; ys; zs] (in_both custom_functions)).
Proof.
  intros tab xs ys zs Ht Hx Hy Hz.
  apply (text_expands nCS ps3 _ tab [xs; ys; zs] custom_agrees Ht); [|cbn [length]; lia|reflexivity].
  repeat (constructor; [assumption|]). constructor.
Qed.

Theorem C66_uniform_text : forall tab l, includes_lib tab -> sizes_ok tab l ->
  expands tab (call (word "LIBFLATARRAY_CUSTOM_SIZES_1D_UNIFORM") [seq_of l]) (class_sizes [l] (in_both uniform_1d)) /\
  expands tab (call (word "LIBFLATARRAY_CUSTOM_SIZES_2D_UNIFORM") [seq_of l]) (class_sizes [l] (in_both uniform_2d)) /\
  expands tab (call (word "LIBFLATARRAY_CUSTOM_SIZES_3D_UNIFORM") [seq_of l]) (class_sizes [l] (in_both uniform_3d)).
Proof.
  intros tab l Ht Hl.
  assert (H : Forall (fun l => Forall (inert tab) l /\ (1 <= length l <= 51)%nat) [l]) by (constructor; [exact Hl|constructor]).
  split; [|split].
  - apply (text_expands nCS1 ps1 _ tab [l] uniform_1d_agrees Ht H); [cbn [length]; lia|reflexivity].
  - apply (text_expands nCS2 ps1 _ tab [l] uniform_2d_agrees Ht H); [cbn [length]; lia|reflexivity].
  - apply (text_expands nCS3 ps1 _ tab [l] uniform_3d_agrees Ht H); [cbn [length]; lia|reflexivity].
Qed.

(** ** C66: behaviour; [const] is empty or "const " *)
Theorem C66_outcome_unique : forall lists gs x y z o o', selects lists gs x y z o -> selects lists gs x y z o' -> o = o'.
Proof. exact selects_unique. Qed.

Theorem C66_custom_first_fit : forall const xs ys zs x y z,
  selects [sizes_of xs; sizes_of ys; sizes_of zs] (custom_functions const) x y z
    match first_fit x (values xs), first_fit y (values ys), first_fit z (values zs) with
    | Some a, Some b, Some c => Uses a b c
    | _, _, _ => Throws
    end.
Proof.
  intros const xs ys zs x y z. apply selects_by with (n := (length xs + length ys + length zs + 6)%nat).
  intros g d F HF. rewrite custom_performs by exact HF.
  destruct (first_fit x (values xs)); [|reflexivity]. cbn [fitted].
  destruct (first_fit y (values ys)); [|reflexivity]. cbn [fitted].
  destruct (first_fit z (values zs)); reflexivity.
Qed.

Theorem C66_uniform_1d_first_fit : forall const l x y z, const = ""%string \/ const = "const "%string ->
  selects [sizes_of l] (uniform_1d const) x y z
    (if (y =? 1) && (z =? 1) then fitted (fun s => Uses s 1 1) Throws
       (first_fit (if String.eqb const "" then x else Z.max x 1) (values l)) else Throws).
Proof.
  intros const l x y z H. apply selects_by with (n := (length l + 8)%nat). intros g d F HF. destruct H as [-> | ->].
  - rewrite uniform_1d_performs by exact HF. reflexivity.
  - rewrite uniform_1d_const_performs by exact HF. unfold one_dim.
    destruct (y =? 1); [|reflexivity]. cbn [andb]. destruct (z =? 1) eqn:E; [|reflexivity].
    apply Z.eqb_eq in E. subst z. reflexivity.
Qed.

Theorem C66_uniform_2d_first_fit : forall const l x y z,
  selects [sizes_of l] (uniform_2d const) x y z
    (if z =? 1 then fitted (fun s => Uses s s 1) Throws (first_fit (Z.max x y) (values l)) else Throws).
Proof.
  intros const l x y z. apply selects_by with (n := (length l + 8)%nat). intros g d F HF.
  apply (uniform_2d_performs d l const x y z _ F HF).
Qed.

Theorem C66_uniform_3d_first_fit : forall const l x y z,
  selects [sizes_of l] (uniform_3d const) x y z
    (fitted (fun s => Uses s s s) Throws (first_fit (Z.max x (Z.max y z)) (values l))).
Proof.
  intros const l x y z. apply selects_by with (n := (length l + 8)%nat). intros g d F HF.
  apply (uniform_3d_performs d l const x y z _ F HF).
Qed.

(** ** C66: agreement with the model behind C10 to C13 *)

Definition outcome_of (r : exn + extent) : outcome :=
  match r with inl _ => Throws | inr e => Uses (DIM_X e) (DIM_Y e) (DIM_Z e) end.

Lemma chain_fits : forall (dim : Z) (l : list Z) (k : Z -> exn + extent) (K : Z -> outcome),
  (forall s, outcome_of (k s) = K s) ->
  outcome_of (case_chain dim l k (inl OutOfRange)) = fitted K Throws (first_fit dim l).
Proof.
  intros dim l k K H. unfold first_fit. induction l as [|s l IH]; [reflexivity|]. cbn [case_chain find].
  destruct (dim <=? s); [apply H|exact IH].
Qed.

Theorem C66_custom_is_model : forall const xs ys zs x y z,
  selects [sizes_of xs; sizes_of ys; sizes_of zs] (custom_functions const) x y z
    (outcome_of (choose (Custom (values xs) (values ys) (values zs)) x y z)).
Proof.
  intros const xs ys zs x y z. unfold choose, select_sizes, bind_size_x, bind_size_y, bind_size_z.
  rewrite chain_fits with (K := fun r => fitted (fun s => fitted (fun t => Uses r s t) Throws (first_fit z (values zs)))
                   Throws (first_fit y (values ys))).
  - apply selects_by with (n := (length xs + length ys + length zs + 6)%nat). intros g d F HF.
    apply custom_performs. exact HF.
  - intros r. apply chain_fits. intros s. apply chain_fits. intros t. reflexivity.
Qed.

Theorem C66_uniform_is_model : forall l x y z,
  selects [sizes_of l] (uniform_1d "") x y z (outcome_of (choose (Uniform1D (values l)) x y z)) /\
  selects [sizes_of l] (uniform_1d "const ") x y z (outcome_of (choose_const (Uniform1D (values l)) x y z)) /\
  (forall const, selects [sizes_of l] (uniform_2d const) x y z (outcome_of (choose (Uniform2D (values l)) x y z))) /\
  (forall const, selects [sizes_of l] (uniform_3d const) x y z (outcome_of (choose (Uniform3D (values l)) x y z))).
Proof.
  intros l x y z.
  unfold choose, choose_const, select_sizes, select_sizes_const, select_1d, select_1d_const, select_2d, select_3d.
  split; [|split; [|split]]; intros; apply selects_by with (n := (length l + 8)%nat); intros g d F HF.
  - rewrite uniform_1d_performs by exact HF. unfold one_dim. destruct (y =? 1); [|reflexivity]. cbn [negb andb].
    destruct (z =? 1); [|reflexivity]. cbn [negb]. symmetry. apply chain_fits. reflexivity.
  - rewrite uniform_1d_const_performs by exact HF. unfold one_dim. destruct (y =? 1); [|reflexivity]. cbn [negb andb].
    destruct (z =? 1); [|reflexivity]. cbn [negb]. symmetry. apply chain_fits. reflexivity.
  - rewrite uniform_2d_performs by exact HF. unfold two_dim.
    destruct (z =? 1); [|reflexivity]. cbn [negb]. symmetry. apply chain_fits. reflexivity.
  - rewrite uniform_3d_performs by exact HF. unfold three_dim. symmetry. apply chain_fits. reflexivity.
Qed.

(** ** C66: the default sizes *)

(** The literals of a list of numbers. *)
Definition literals (l : list Z) : list spelling :=
  map (fun n => spell (DecimalString.NilZero.string_of_uint (N.to_uint (Z.to_N n)))) l.

Lemma literals_ok : forall tab l, (1 <= length l <= 51)%nat -> sizes_ok tab (sizes_of (literals l)).
Proof.
  intros tab l H. split; [|unfold sizes_of, literals; rewrite !map_length; exact H].
  unfold sizes_of. apply Forall_map. apply Forall_forall. intros p _. split; [reflexivity|]. constructor; [exact I|constructor].
Qed.

(** What the class does: [text] is the use of the macro inside it. *)
Definition class_does (text : string) (functions : string -> list fn) (cfg : sizes_cfg) : Prop :=
  exists lists, (forall tab, includes_lib tab -> expands tab (tokens text) (class_sizes lists (in_both functions))) /\
  forall x y z, selects lists (functions ""%string) x y z (outcome_of (choose cfg x y z)) /\
                selects lists (functions "const "%string) x y z (outcome_of (choose_const cfg x y z)).

Theorem C66_default_lists :
  class_does default_1d_text uniform_1d has_default_1d_sizes /\
  class_does default_2d_text custom_functions has_default_2d_sizes /\
  class_does default_2d_uniform_text uniform_2d has_default_2d_sizes_uniform /\
  class_does default_3d_text custom_functions has_default_3d_sizes /\
  class_does default_3d_uniform_text uniform_3d has_default_3d_sizes_uniform.
Proof.
  assert (V1 : values (literals default_1d_sizes) = default_1d_sizes) by (vm_compute; reflexivity).
  assert (V2 : values (literals default_2d_sizes) = default_2d_sizes) by (vm_compute; reflexivity).
  assert (V3 : values (literals default_3d_sizes) = default_3d_sizes) by (vm_compute; reflexivity).
  assert (V4 : values (literals [1]) = [1]) by (vm_compute; reflexivity).
  assert (L1 : (1 <= length default_1d_sizes <= 51)%nat) by (cbn [length default_1d_sizes]; lia).
  assert (L2 : (1 <= length default_2d_sizes <= 51)%nat) by (cbn [length default_2d_sizes]; lia).
  assert (L3 : (1 <= length default_3d_sizes <= 51)%nat) by (cbn [length default_3d_sizes]; lia).
  assert (L4 : (1 <= length [1] <= 51)%nat) by (cbn [length]; lia).
  split; [|split; [|split; [|split]]].
  - exists [sizes_of (literals default_1d_sizes)]. split.
    + intros tab Ht.
      assert (E : tokens default_1d_text = call (word "LIBFLATARRAY_CUSTOM_SIZES_1D_UNIFORM") [seq_of (sizes_of (literals default_1d_sizes))])
        by (vm_compute; reflexivity).
      rewrite E. apply C66_uniform_text; [exact Ht|apply literals_ok; exact L1].
    + intros x y z. pose proof (C66_uniform_is_model (literals default_1d_sizes) x y z) as H. rewrite V1 in H.
      destruct H as [A [B _]]. split; [exact A|exact B].
  - exists [sizes_of (literals default_2d_sizes); sizes_of (literals default_2d_sizes); sizes_of (literals [1])]. split.
    + intros tab Ht.
      assert (E : tokens default_2d_text = call (word "LIBFLATARRAY_CUSTOM_SIZES")
        [seq_of (sizes_of (literals default_2d_sizes)); seq_of (sizes_of (literals default_2d_sizes)); seq_of (sizes_of (literals [1]))])
        by (vm_compute; reflexivity).
      rewrite E. apply C66_custom_text; [exact Ht| | |]; apply literals_ok; assumption.
    + intros x y z. pose proof (fun c => C66_custom_is_model c (literals default_2d_sizes) (literals default_2d_sizes) (literals [1]) x y z) as H.
      rewrite V2, V4 in H. split; apply H.
  - exists [sizes_of (literals default_2d_sizes)]. split.
    + intros tab Ht.
      assert (E : tokens default_2d_uniform_text = call (word "LIBFLATARRAY_CUSTOM_SIZES_2D_UNIFORM") [seq_of (sizes_of (literals default_2d_sizes))])
        by (vm_compute; reflexivity).
      rewrite E. apply C66_uniform_text; [exact Ht|apply literals_ok; exact L2].
    + intros x y z. pose proof (C66_uniform_is_model (literals default_2d_sizes) x y z) as H. rewrite V2 in H.
      destruct H as [_ [_ [H _]]]. split; apply H.
  - exists [sizes_of (literals default_3d_sizes); sizes_of (literals default_3d_sizes); sizes_of (literals default_3d_sizes)]. split.
    + intros tab Ht.
      assert (E : tokens default_3d_text = call (word "LIBFLATARRAY_CUSTOM_SIZES")
        [seq_of (sizes_of (literals default_3d_sizes)); seq_of (sizes_of (literals default_3d_sizes)); seq_of (sizes_of (literals default_3d_sizes))])
        by (vm_compute; reflexivity).
      rewrite E. apply C66_custom_text; [exact Ht| | |]; apply literals_ok; assumption.
    + intros x y z. pose proof (fun c => C66_custom_is_model c (literals default_3d_sizes) (literals default_3d_sizes) (literals default_3d_sizes) x y z) as H.
      rewrite V3 in H. split; apply H.
  - exists [sizes_of (literals default_3d_sizes)]. split.
    + intros tab Ht.
      assert (E : tokens default_3d_uniform_text = call (word "LIBFLATARRAY_CUSTOM_SIZES_3D_UNIFORM") [seq_of (sizes_of (literals default_3d_sizes))])
        by (vm_compute; reflexivity).
      rewrite E. apply C66_uniform_text; [exact Ht|apply literals_ok; exact L3].
    + intros x y z. pose proof (C66_uniform_is_model (literals default_3d_sizes) x y z) as H. rewrite V3 in H.
      destruct H as [_ [_ [_ H]]]. split; apply H.
Qed.

(** Cases: literals (8)(16) and (4); a dimension above every size; an order that is not ascending. *)
Definition eight_sixteen : list spelling := [spell "8"; spell "16"].
Example C66_case_values : values eight_sixteen = [8; 16] /\ first_fit 9 [8; 16] = Some 16 /\ first_fit 17 [8; 16] = None /\
  first_fit 3 [64; 32] = Some 64.
Proof. vm_compute. repeat split. Qed.
Example C66_case_ok : sizes_ok lib (sizes_of eight_sixteen).
Proof. split; [|cbn [length sizes_of map eight_sixteen]; lia]. repeat (constructor; [split; [reflexivity|constructor; [exact I|constructor]]|]). constructor. Qed.
Example C66_case_runs :
  selects [sizes_of eight_sixteen; sizes_of eight_sixteen; sizes_of [spell "4"]] (custom_functions "") 9 8 4 (Uses 16 8 4) /\
  selects [sizes_of eight_sixteen; sizes_of eight_sixteen; sizes_of [spell "4"]] (custom_functions "") 9 8 5 Throws /\
  selects [sizes_of eight_sixteen] (uniform_2d "") 3 9 1 (Uses 16 16 1) /\
  selects [sizes_of eight_sixteen] (uniform_2d "") 3 9 2 Throws.
Proof.
  split; [|split; [|split]].
  - exact (C66_custom_first_fit "" eight_sixteen eight_sixteen [spell "4"] 9 8 4).
  - exact (C66_custom_first_fit "" eight_sixteen eight_sixteen [spell "4"] 9 8 5).
  - exact (C66_uniform_2d_first_fit "" eight_sixteen 3 9 1).
  - exact (C66_uniform_2d_first_fit "" eight_sixteen 3 9 2).
Qed.

Print Assumptions C66_custom_text.
Print Assumptions C66_uniform_text.
Print Assumptions C66_outcome_unique.
Print Assumptions C66_custom_first_fit.
Print Assumptions C66_uniform_1d_first_fit.
Print Assumptions C66_uniform_2d_first_fit.
Print Assumptions C66_uniform_3d_first_fit.
Print Assumptions C66_custom_is_model.
Print Assumptions C66_uniform_is_model.
Print Assumptions C66_default_lists.
