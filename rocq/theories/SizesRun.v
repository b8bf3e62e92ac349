(** Running the text of the size selection functions. *)
From Coq Require Import String Ascii ZArith Bool Lia.
From Coq Require Import List.
From Verif Require Import Preproc SpecPreproc SpecRegister SpecSizes.
Import ListNotations.
Local Open Scope Z_scope.

Definition dims (x y z : Z) : list (string * Z) := [("dim_x", x); ("dim_y", y); ("dim_z", z)]%string.
Definition dims_y (a y z : Z) : list (string * Z) := [("DIM_X", a); ("dim_y", y); ("dim_z", z)]%string.
Definition dims_z (a b z : Z) : list (string * Z) := [("DIM_X", a); ("DIM_Y", b); ("dim_z", z)]%string.
Definition with_max (m x y z : Z) : list (string * Z) := ("maxDim"%string, m) :: dims x y z.

Lemma run_S : forall n f vars l, run n (S f) vars l = step (run n f) vars n l.
Proof. reflexivity. Qed.

Section Depth.
Variable d : nat.
Local Notation D := (10 + d)%nat.

Definition case_does (s : string) (vars : list (string * Z)) (dim : Z) (K : Z -> outcome) : Prop :=
  forall f p r, run D (S (S f)) vars (size_text s [TNum p] ++ r) =
                if dim <=? literal p then K (literal p) else run D (S f) vars r.

(** The body of the case [s] after the condition. *)
Lemma case_split : forall s vars dim K body,
  (forall R p r, step R vars D (size_text s [TNum p] ++ r) =
                 if dim <=? literal p then R vars (body p ++ r) else R vars r) ->
  (forall R p r, step R vars D (body p ++ r) = K (literal p)) ->
  case_does s vars dim K.
Proof.
  intros s vars dim K body H1 H2 f p r. rewrite run_S, H1.
  destruct (dim <=? literal p); [|reflexivity]. rewrite run_S. apply H2.
Qed.

Definition functor_tail (a : list tok) : list tok :=
  tokens "LibFlatArray::soa_accessor<CELL, " ++ a ++ tokens ", 0> accessor(data, 0); functor(accessor); return;".

Lemma case_x_does : forall x y z, case_does case_x (dims x y z) x (fun s => Calls "bind_size_y" [s] [y; z]).
Proof.
  intros. apply case_split with (body := fun p => tokens "bind_size_y<CELL, " ++ [TNum p] ++
    tokens ">(dim_y, dim_z, data, functor); return;"); intros; vm_compute; reflexivity.
Qed.

Lemma case_y_does : forall a y z, case_does case_y (dims_y a y z) y (fun s => Calls "bind_size_z" [a; s] [z]).
Proof.
  intros. apply case_split with (body := fun p => tokens "bind_size_z<CELL, DIM_X, " ++ [TNum p] ++
    tokens ">(dim_z, data, functor); return;"); intros; vm_compute; reflexivity.
Qed.

Lemma case_z_does : forall a b z, case_does case_z (dims_z a b z) z (fun s => Uses a b s).
Proof.
  intros. apply case_split with (body := fun p => functor_tail (tokens "DIM_X, DIM_Y, " ++ [TNum p]));
    intros; vm_compute; reflexivity.
Qed.

Lemma case_3d_does : forall m x y z, case_does case_3d (with_max m x y z) m (fun s => Uses s s s).
Proof.
  intros. apply case_split with (body := fun p => functor_tail [TNum p; TComma; TNum p; TComma; TNum p]);
    intros; vm_compute; reflexivity.
Qed.

Lemma case_2d_does : forall m x y z, case_does case_2d (with_max m x y z) m (fun s => Uses s s 1).
Proof.
  intros. apply case_split with (body := fun p => functor_tail ([TNum p; TComma; TNum p] ++ tokens ", 1"));
    intros; vm_compute; reflexivity.
Qed.

Lemma case_1d_does : forall m x y z, case_does case_1d (with_max m x y z) m (fun s => Uses s 1 1).
Proof.
  intros. apply case_split with (body := fun p => functor_tail ([TNum p] ++ tokens ", 1, 1"));
    intros; vm_compute; reflexivity.
Qed.

(** The chain of cases. *)
Lemma chain_does : forall s vars dim K, case_does s vars dim K ->
  forall ps f r, run D (length ps + S f) vars (concat (map (size_text s) (sizes_of ps)) ++ r) =
                 fitted K (run D (S f) vars r) (first_fit dim (values ps)).
Proof.
  intros s vars dim K H ps. unfold first_fit, values. induction ps as [|p ps IH]; intros f r; [reflexivity|].
  cbn [sizes_of map concat length plus find]. rewrite <- app_assoc.
  replace (length ps + S f)%nat with (S (length ps + f))%nat by lia. rewrite H.
  destruct (dim <=? literal p); [reflexivity|].
  replace (S (length ps + f))%nat with (length ps + S f)%nat by lia. apply IH.
Qed.

(** A chain and the throw after it. *)
Lemma cases_then_throw : forall s vars dim K message lists k ps f, case_does s vars dim K ->
  (forall g, run D (S (S g)) vars (render_size lists (throwing message)) = Throws) -> nth k lists [] = sizes_of ps ->
  (length ps + 2 <= f)%nat ->
  run D f vars (concat (map (render_size lists) [SEach k s; throwing message])) = fitted K Throws (first_fit dim (values ps)).
Proof.
  intros s vars dim K message lists k ps f H HT HN Hf. cbn [map concat]. rewrite app_nil_r.
  change (render_size lists (SEach k s)) with (concat (map (size_text s) (nth k lists []))). rewrite HN.
  replace f with (length ps + S (S (f - length ps - 2)))%nat by lia.
  rewrite (chain_does s vars dim K H). rewrite HT. reflexivity.
Qed.

(** ** LIBFLATARRAY_CUSTOM_SIZES *)

Section Custom.
Variables xs ys zs : list spelling.
Let lists := [sizes_of xs; sizes_of ys; sizes_of zs].
Variable F : nat.
Hypothesis HF : (length xs + length ys + length zs + 6 <= F)%nat.

Lemma select_runs : forall const x y z g f,
  perform lists (custom_functions const) (S g) D (S f) "select_size" [] [x; y; z] =
  perform lists (custom_functions const) g D (S f) "bind_size_x" [] [x; y; z].
Proof.
  intros. cbn [perform custom_functions find selector f_name String.eqb Ascii.eqb Bool.eqb f_tparams f_params f_body combine app].
  assert (E : run D (S f) (dims x y z) (concat (map (render_size lists)
              [SCode "bind_size_x<CELL>(dim_x, dim_y, dim_z, data, functor);"])) = Calls "bind_size_x" [] [x; y; z]).
  { rewrite run_S. remember (run D f) as R eqn:ER. clear ER. vm_compute. reflexivity. }
  unfold dims in E. rewrite E. reflexivity.
Qed.

Lemma bind_z_runs : forall const a b z g,
  perform lists (custom_functions const) (S g) D F "bind_size_z" [a; b] [z] =
  fitted (fun s => Uses a b s) Throws (first_fit z (values zs)).
Proof.
  intros. cbn [perform custom_functions find selector binder f_name String.eqb Ascii.eqb Bool.eqb f_tparams f_params f_body combine app].
  pose proof (cases_then_throw case_z (dims_z a b z) z _ "grid dimension Z too large" lists 2 zs F (case_z_does a b z)
    ltac:(intros; vm_compute; reflexivity) eq_refl ltac:(lia)) as E.
  unfold dims_z in E. rewrite E. destruct (first_fit z (values zs)); reflexivity.
Qed.

Lemma bind_y_runs : forall const a y z g,
  perform lists (custom_functions const) (S (S g)) D F "bind_size_y" [a] [y; z] =
  fitted (fun s => fitted (fun t => Uses a s t) Throws (first_fit z (values zs))) Throws (first_fit y (values ys)).
Proof.
  intros.
  remember (S g) as g' eqn:Eg.
  cbn [perform custom_functions find selector binder f_name String.eqb Ascii.eqb Bool.eqb f_tparams f_params f_body combine app].
  pose proof (cases_then_throw case_y (dims_y a y z) y _ "grid dimension Y too large" lists 1 ys F (case_y_does a y z)
    ltac:(intros; vm_compute; reflexivity) eq_refl ltac:(lia)) as E.
  unfold dims_y in E. rewrite E. destruct (first_fit y (values ys)); [|reflexivity]. cbn [fitted]. subst g'. apply bind_z_runs.
Qed.

Lemma bind_x_runs : forall const x y z g,
  perform lists (custom_functions const) (S (S (S g))) D F "bind_size_x" [] [x; y; z] =
  fitted (fun r => fitted (fun s => fitted (fun t => Uses r s t) Throws (first_fit z (values zs)))
                   Throws (first_fit y (values ys))) Throws (first_fit x (values xs)).
Proof.
  intros.
  remember (S (S g)) as g' eqn:Eg.
  cbn [perform custom_functions find selector binder f_name String.eqb Ascii.eqb Bool.eqb f_tparams f_params f_body combine app].
  pose proof (cases_then_throw case_x (dims x y z) x _ "grid dimension X too large" lists 0 xs F (case_x_does x y z)
    ltac:(intros; vm_compute; reflexivity) eq_refl ltac:(lia)) as E.
  unfold dims in E. rewrite E. destruct (first_fit x (values xs)); [|reflexivity]. cbn [fitted]. subst g'. apply bind_y_runs.
Qed.

Lemma custom_performs : forall const x y z g,
  perform lists (custom_functions const) (S (S (S (S g)))) D F "select_size" [] [x; y; z] =
  fitted (fun r => fitted (fun s => fitted (fun t => Uses r s t) Throws (first_fit z (values zs)))
                   Throws (first_fit y (values ys))) Throws (first_fit x (values xs)).
Proof.
  intros. assert (EF : F = S (F - 1)) by lia. rewrite EF, select_runs, <- EF. apply bind_x_runs.
Qed.
End Custom.

(** ** The variants with one list *)

Section Uniform.
Variable ps : list spelling.
Let lists := [sizes_of ps].

(** The selector computes [m] in [n] statements and looks for it. *)
Lemma uniform_performs : forall const checks extent case x y z m K n g F,
  case_does case (with_max m x y z) m K ->
  (forall g r, run D (n + g) (dims x y z) (concat (map (render_size lists) checks) ++ tokens extent ++ r) = run D g (with_max m x y z) r) ->
  (forall v, match K v with Uses _ _ _ => True | _ => False end) -> (n + length ps + 2 <= F)%nat ->
  perform lists (uniform const checks extent case) (S g) D F "select_size" [] [x; y; z] =
  fitted K Throws (first_fit m (values ps)).
Proof.
  intros const checks extent case x y z m K n g F HC HE HK HF.
  cbn [perform uniform find selector f_name String.eqb Ascii.eqb Bool.eqb f_tparams f_params f_body combine app].
  pose proof (cases_then_throw case (with_max m x y z) m K "max grid dimension too large" lists 0 ps (F - n) HC
    ltac:(intros; vm_compute; reflexivity) eq_refl ltac:(lia)) as E.
  rewrite map_app, concat_app.
  change (map (render_size lists) [SCode extent; SEach 0 case; throwing "max grid dimension too large"])
    with (tokens extent :: map (render_size lists) [SEach 0 case; throwing "max grid dimension too large"]).
  cbn [concat]. specialize (HE (F - n)%nat (concat (map (render_size lists) [SEach 0 case; throwing "max grid dimension too large"]))).
  replace (n + (F - n))%nat with F in HE by lia.
  unfold dims in HE. rewrite HE, E. destruct (first_fit m (values ps)) as [v|]; cbn [fitted]; [|reflexivity].
  specialize (HK v). destruct (K v); try reflexivity; destruct HK.
Qed.

(** ... or throws in a check. *)
Lemma uniform_rejects : forall const checks extent case x y z g F,
  (forall r, run D F (dims x y z) (concat (map (render_size lists) checks) ++ r) = Throws) ->
  perform lists (uniform const checks extent case) (S g) D F "select_size" [] [x; y; z] = Throws.
Proof.
  intros const checks extent case x y z g F H.
  cbn [perform uniform find selector f_name String.eqb Ascii.eqb Bool.eqb f_tparams f_params f_body combine app].
  rewrite map_app, concat_app. unfold dims in H. rewrite H. reflexivity.
Qed.

(** Checks. *)
Lemma step_y1 : forall R x y z r, step R (dims x y z) D (render_size lists (require_one "dim_y" "y" "1D") ++ r) =
  if negb (y =? 1) then R (dims x y z) (tokens "throw std::out_of_range(""expected 1D grid, but y != 1"");" ++ r) else R (dims x y z) r.
Proof. intros. vm_compute. reflexivity. Qed.
Lemma step_z1 : forall R x y z r, step R (dims x y z) D (render_size lists (require_one "dim_z" "z" "1D") ++ r) =
  if negb (z =? 1) then R (dims x y z) (tokens "throw std::out_of_range(""expected 1D grid, but z != 1"");" ++ r) else R (dims x y z) r.
Proof. intros. vm_compute. reflexivity. Qed.
Lemma step_z2 : forall R x y z r, step R (dims x y z) D (render_size lists (require_one "dim_z" "z" "2D") ++ r) =
  if negb (z =? 1) then R (dims x y z) (tokens "throw std::out_of_range(""expected 2D grid, but z != 1"");" ++ r) else R (dims x y z) r.
Proof. intros. vm_compute. reflexivity. Qed.

(** What the variants do. *)
Definition one_dim (m y z : Z) : outcome :=
  if (y =? 1) && (z =? 1) then fitted (fun s => Uses s 1 1) Throws (first_fit m (values ps)) else Throws.
Definition two_dim (x y z : Z) : outcome :=
  if z =? 1 then fitted (fun s => Uses s s 1) Throws (first_fit (Z.max x y) (values ps)) else Throws.
Definition three_dim (x y z : Z) : outcome :=
  fitted (fun s => Uses s s s) Throws (first_fit (Z.max x (Z.max y z)) (values ps)).

Lemma extent_1d : forall x y z g r, run D (S g) (dims x y z) (tokens "std::size_t maxDim = dim_x;" ++ r) = run D g (with_max x x y z) r.
Proof. intros. rewrite run_S. generalize (run D g). intros R. vm_compute. reflexivity. Qed.
Lemma using_max : forall x y z g r, run D (S g) (dims x y z) (tokens "using std::max;" ++ r) = run D g (dims x y z) r.
Proof. intros. rewrite run_S. generalize (run D g). intros R. vm_compute. reflexivity. Qed.
Lemma max_xz : forall x y z g r, run D (S g) (dims x y z) (tokens "std::size_t maxDim = max(dim_x, dim_z);" ++ r) = run D g (with_max (Z.max x z) x y z) r.
Proof. intros. rewrite run_S. generalize (run D g). intros R. vm_compute. reflexivity. Qed.
Lemma max_xy : forall x y z g r, run D (S g) (dims x y z) (tokens "std::size_t maxDim = max(dim_x, dim_y);" ++ r) = run D g (with_max (Z.max x y) x y z) r.
Proof. intros. rewrite run_S. generalize (run D g). intros R. vm_compute. reflexivity. Qed.
Lemma max_xyz : forall x y z g r, run D (S g) (dims x y z) (tokens "std::size_t maxDim = max(dim_x, max(dim_y, dim_z));" ++ r) = run D g (with_max (Z.max x (Z.max y z)) x y z) r.
Proof. intros. rewrite run_S. generalize (run D g). intros R. vm_compute. reflexivity. Qed.

Lemma split_xz : tokens "using std::max; std::size_t maxDim = max(dim_x, dim_z);" = tokens "using std::max;" ++ tokens "std::size_t maxDim = max(dim_x, dim_z);".
Proof. vm_compute. reflexivity. Qed.
Lemma split_xy : tokens "using std::max; std::size_t maxDim = max(dim_x, dim_y);" = tokens "using std::max;" ++ tokens "std::size_t maxDim = max(dim_x, dim_y);".
Proof. vm_compute. reflexivity. Qed.
Lemma split_xyz : tokens "using std::max; std::size_t maxDim = max(dim_x, max(dim_y, dim_z));" = tokens "using std::max;" ++ tokens "std::size_t maxDim = max(dim_x, max(dim_y, dim_z));".
Proof. vm_compute. reflexivity. Qed.

Lemma run_throw : forall vars f s r, (exists l, tokens s = word "throw" :: l) -> run D (S f) vars (tokens s ++ r) = Throws.
Proof. intros vars f s r [l E]. rewrite run_S, E. generalize (run D f). intros R. vm_compute. reflexivity. Qed.

Ltac throws := eexists; vm_compute; reflexivity.

Lemma checks_1d : forall x y z g r, run D (S (S g)) (dims x y z)
  (concat (map (render_size lists) [require_one "dim_y" "y" "1D"; require_one "dim_z" "z" "1D"]) ++ r) =
  if (y =? 1) && (z =? 1) then run D g (dims x y z) r else
  if (y =? 1) then run D g (dims x y z) (tokens "throw std::out_of_range(""expected 1D grid, but z != 1"");" ++ r)
  else run D (S g) (dims x y z) (tokens "throw std::out_of_range(""expected 1D grid, but y != 1"");" ++
         render_size lists (require_one "dim_z" "z" "1D") ++ r).
Proof.
  intros. cbn [map concat]. rewrite app_nil_r, <- app_assoc. rewrite run_S, step_y1.
  destruct (y =? 1); cbn [negb andb]; [|reflexivity]. rewrite run_S, step_z1.
  destruct (z =? 1); reflexivity.
Qed.

Lemma checks_2d : forall x y z g r, run D (S g) (dims x y z)
  (concat (map (render_size lists) [require_one "dim_z" "z" "2D"]) ++ r) =
  if (z =? 1) then run D g (dims x y z) r else
  run D g (dims x y z) (tokens "throw std::out_of_range(""expected 2D grid, but z != 1"");" ++ r).
Proof.
  intros. cbn [map concat]. rewrite app_nil_r. rewrite run_S, step_z2. destruct (z =? 1); reflexivity.
Qed.

Definition one_d (const extent : string) : list fn :=
  uniform const [require_one "dim_y" "y" "1D"; require_one "dim_z" "z" "1D"] extent case_1d.

Lemma one_d_performs : forall const extent n x y z m g F,
  (forall g r, run D (n + g) (dims x y z) (tokens extent ++ r) = run D g (with_max m x y z) r) ->
  (n + length ps + 4 <= F)%nat ->
  perform lists (one_d const extent) (S g) D F "select_size" [] [x; y; z] = one_dim m y z.
Proof.
  intros const extent n x y z m g F H HF. unfold one_dim. destruct ((y =? 1) && (z =? 1)) eqn:E.
  - apply uniform_performs with (n := S (S n)); [apply case_1d_does| |intros; exact I|lia].
    intros h r. cbn [plus]. rewrite checks_1d, E. apply H.
  - destruct F as [|[|[|F]]]; try lia.
    apply uniform_rejects. intros r. rewrite checks_1d, E. destruct (y =? 1); apply run_throw; throws.
Qed.

Lemma uniform_1d_performs : forall x y z g F, (length ps + 8 <= F)%nat ->
  perform lists (uniform_1d "") (S g) D F "select_size" [] [x; y; z] = one_dim x y z.
Proof.
  intros x y z g F HF. apply (one_d_performs "" "std::size_t maxDim = dim_x;" 1); [|lia]. intros h r. apply extent_1d.
Qed.

Lemma uniform_1d_const_performs : forall x y z g F, (length ps + 8 <= F)%nat ->
  perform lists (uniform_1d "const ") (S g) D F "select_size" [] [x; y; z] = one_dim (Z.max x z) y z.
Proof.
  intros x y z g F HF. apply (one_d_performs "const " "using std::max; std::size_t maxDim = max(dim_x, dim_z);" 2); [|lia].
  intros h r. rewrite split_xz, <- app_assoc. cbn [plus]. rewrite using_max. apply max_xz.
Qed.

Lemma uniform_2d_performs : forall const x y z g F, (length ps + 8 <= F)%nat ->
  perform lists (uniform_2d const) (S g) D F "select_size" [] [x; y; z] = two_dim x y z.
Proof.
  intros const x y z g F HF. unfold two_dim, uniform_2d. destruct (z =? 1) eqn:Ez.
  - apply uniform_performs with (n := 3%nat); [apply case_2d_does| |intros; exact I|lia].
    intros h r. cbn [plus]. rewrite checks_2d, Ez, split_xy, <- app_assoc, using_max. apply max_xy.
  - destruct F as [|[|F]]; try lia.
    apply uniform_rejects. intros r. rewrite checks_2d, Ez. apply run_throw; throws.
Qed.

Lemma uniform_3d_performs : forall const x y z g F, (length ps + 8 <= F)%nat ->
  perform lists (uniform_3d const) (S g) D F "select_size" [] [x; y; z] = three_dim x y z.
Proof.
  intros const x y z g F HF. unfold three_dim, uniform_3d.
  apply uniform_performs with (n := 2%nat); [apply case_3d_does| |intros; exact I|lia].
  intros h r. assert (E : concat (map (render_size lists) []) = []) by reflexivity. rewrite E, app_nil_l. cbn [plus].
  rewrite split_xyz, <- app_assoc, using_max. apply max_xyz.
Qed.
End Uniform.
End Depth.

(** ** For all large bounds *)

Lemma selects_by : forall lists gs x y z o n,
  (forall g d F, (n <= F)%nat -> perform lists gs (S (S (S (S g)))) (10 + d) F "select_size" [] [x; y; z] = o) ->
  selects lists gs x y z o.
Proof.
  intros lists gs x y z o n H. exists (Nat.max n 10). intros calls depth fuel H1 H2 H3.
  replace calls with (S (S (S (S (calls - 4))))) by lia. replace depth with (10 + (depth - 10))%nat by lia. apply H. lia.
Qed.

Lemma selects_unique : forall lists gs x y z o o', selects lists gs x y z o -> selects lists gs x y z o' -> o = o'.
Proof.
  intros lists gs x y z o o' [n H] [n' H']. rewrite <- (H (Nat.max n n') (Nat.max n n') (Nat.max n n')) by lia.
  apply H'; lia.
Qed.
