(** C75: the vector kernels of the SPH example compute what the C kernels
    compute, and run past the last particle otherwise.  C76: what they compute. *)
From Coq Require Import ZArith List Bool Lia Ring_theory InitialRing.
From Verif Require Import Base Peeler Sph SpecSph SphProofs.
Import ListNotations.
Local Open Scope Z_scope.

(** Integers, for examples; "division" ignores the divisor. *)
Definition ints : arith Z := mkArith Z.add Z.sub Z.mul (fun a b => a * 1) Z.opp Z.sqrt Z.ltb (fun z => z) 1.

Example ints_exact : exact ints.
Proof. split; [exact InitialRing.Zth|exists (fun _ => 1); reflexivity]. Qed.

(** Particles at the given places on a line; all others at [ghost]. *)
Definition line (xs : list Z) (ghost : Z) : particles Z :=
  mkP (fun _ => 0) (fun i => nth (Z.to_nat i) xs ghost) (fun _ => 0) (fun i => i) (fun _ => 0) (fun _ => 0) (fun _ => 0).

Definition look {T U : Type} (l : list Z) (o : option (particles T)) (g : particles T -> Z -> U) : option (list U) :=
  match o with Some p => Some (map (g p) l) | None => None end.

(** If the number of particles is a multiple of the arity, the vector kernels
    touch only storage of existing particles (ext may be n) and yield exactly
    the C results, whatever the arithmetic (the order of additions is the same;
    one product is written the other way round), for any number of steps with
    any further functions in between. *)
Theorem C75_kernels_partial :
  forall (T : Type) (K : arith T) (ext A n : Z) (mass g h k rho0 mu : T) (rest : particles T -> particles T),
  (forall a b, r_mul K a b = r_mul K b a) ->
  0 < A -> 0 <= n <= ext -> (A | n) ->
  (forall p, compute_density_lfa K ext A n h mass p = Some (compute_density K n h mass p)) /\
  (forall p, compute_accel_lfa K ext A n mass g h k rho0 mu p = Some (compute_accel K n mass g h k rho0 mu p)) /\
  (forall steps p, simulate_lfa K ext A steps n mass g h k rho0 mu rest p =
                   Some (simulate K steps n mass g h k rho0 mu rest p)).
Proof.
  intros T K ext A n mass g h k rho0 mu rest Hc HA Hn Hd. split; [|split]; intros.
  - now apply density_lfa_ok.
  - now apply accel_lfa_ok.
  - now apply simulate_lfa_ok.
Qed.

(** Any number of particles: the density kernel compares particle i with all
    particles up to the next multiple of the arity as well, if that is beyond n.
    These must be in the storage. *)
Theorem C75_ghosts :
  forall (T : Type) (K : arith T) (ext A n : Z) (h mass : T) (p : particles T) (up : Z -> Z),
  0 < A -> 0 <= n <= ext ->
  (forall i, 0 <= i < n -> (exists r, is_round_up A (i + 1) r /\ up i = Z.max n r) /\ up i <= ext) ->
  compute_density_lfa K ext A n h mass p = Some (density_with_ghosts K up n h mass p).
Proof.
  intros T K ext A n h mass p up HA Hn Hu. apply (density_lfa_ghosts K ext A HA); try lia; intros i Hi; apply Hu; auto.
Qed.

(** 4 particles, 4 lanes. *)
Example C75_kernels_case :
  let p := line [0; 2; 6; 9] 100 in
  (4 | 4) /\ (forall a b, r_mul ints a b = r_mul ints b a) /\
  look [0; 1; 2; 3] (compute_density_lfa ints 4 4 4 3 1 p) rho = Some [504; 504; 4; 4] /\
  look [0; 1; 2; 3] (compute_accel_lfa ints 4 4 4 1 9 3 1 5 1 p) a_x = Some [260; -260; 0; 0] /\
  look [0; 1; 2; 3] (simulate_lfa ints 4 4 3 4 1 9 3 1 5 1 (fun p => p) p) a_x = Some [-29980; 29980; 0; 0].
Proof. cbv zeta. split; [exists 1; reflexivity|]. split; [intros; apply Z.mul_comm|]. vm_compute. auto. Qed.

(** 5 particles, 4 lanes: the last one is compared with 5, 6 and 7. *)
Example C75_ghosts_case :
  let up := fun i => if i <? 4 then 5 else 8 in
  (forall i, 0 <= i < 5 -> (exists r, is_round_up 4 (i + 1) r /\ up i = Z.max 5 r) /\ up i <= 8) /\
  look [0; 1; 2; 3; 4; 7] (compute_density_lfa ints 8 4 5 3 1 (line [0; 2; 6; 9; 20] 18)) rho =
    Some [504; 504; 4; 4; 1504; 500].
Proof.
  cbv zeta. split; [|reflexivity]. intros i Hi. split; [exists (if i <? 4 then 4 else 8); split; [split|]|];
    destruct (Z.ltb_spec i 4); try lia; [exists 1|exists 2]; reflexivity.
Qed.

(** For all numbers of particles the claim is false.  Unless the number is a
    multiple of the arity, both kernels leave the storage of the particles. *)
Theorem C75_overrun_refuted :
  forall (T : Type) (K : arith T) (A n : Z) (mass g h k rho0 mu : T) (p : particles T),
  0 < A -> 0 < n -> ~ (A | n) ->
  compute_density_lfa K n A n h mass p = None /\
  compute_accel_lfa K n A n mass g h k rho0 mu p = None.
Proof.
  intros T K A n mass g h k rho0 mu p HA Hn Hd. split; [now apply density_overrun|now apply accel_overrun].
Qed.

(** Where there is storage behind (soa_grid rounds up; these cells are not
    constructed, C16), the results depend on what happens to be there, and then
    differ from the C results. *)
Theorem C75_ghosts_refuted :
  let xs := [0; 2; 6; 9; 20] in
  let i := [0; 1; 2; 3; 4] in
  (forall ghost, look i (Some (compute_density ints 5 3 1 (line xs ghost))) rho = Some [504; 504; 4; 4; 4]) /\
  (forall ghost, look i (Some (compute_accel ints 5 1 9 3 1 5 1 (line xs ghost))) a_x = Some [260; -260; 0; 0; 0]) /\
  look i (compute_density_lfa ints 32 4 5 3 1 (line xs 100)) rho = Some [504; 504; 4; 4; 4] /\
  look i (compute_density_lfa ints 32 4 5 3 1 (line xs 18)) rho = Some [504; 504; 4; 4; 1504] /\
  look i (compute_accel_lfa ints 32 4 5 1 9 3 1 5 1 (line xs 18)) a_x = Some [260; -260; 0; 0; -1140].
Proof. cbv zeta. repeat split. Qed.

(** The interactions are only ever handled in whole groups: no entry behind the
    collected ones, left from earlier, is used. *)
Theorem C75_no_stale_entries :
  forall (T : Type) (K : arith T) (n : Z) (fuel w : nat) (h rho0 C_0 C_p C_v : T) a buf r,
  (0 < w)%nat -> handle_interactions K n fuel w h rho0 C_0 C_p C_v a buf = Some r ->
  (length buf mod w = 0)%nat.
Proof.
  intros T K n fuel w h rho0 C_0 C_p C_v a buf r Hw. revert a buf.
  induction fuel as [|f IH]; intros a buf H; (destruct buf as [|x buf]; [now apply Nat.mod_0_l; lia|]).
  - discriminate H.
  - cbn [handle_interactions] in H. destruct (Nat.ltb_spec (length (x :: buf)) w) as [L|L]; [discriminate H|].
    destruct (ofold _ (firstn w (x :: buf)) a) as [a'|]; cbn [obind] in H; [|discriminate H].
    apply IH in H. rewrite skipn_length in H.
    replace (length (x :: buf)) with (length (x :: buf) - w + 1 * w)%nat by lia. now rewrite Nat.mod_add by lia.
Qed.
Example C75_no_stale_entries_case :
  let e := mkI 1 2 3 4 5 6 7 8 9 0 1 in
  handle_interactions ints 8 4 2 3 1 1 1 1 (fun _ => 0, fun _ => 0) [e; e; e] = None /\
  handle_interactions ints 8 4 2 3 1 1 1 1 (fun _ => 0, fun _ => 0) [e; e; e; e] <> None.
Proof. cbv zeta. split; [reflexivity|discriminate]. Qed.

(** ** C76 *)

(** In exact arithmetic the C kernels compute, for each particle, the density
    and acceleration as sums over all other particles, each counted once. *)
Theorem C76_density :
  forall (T : Type) (K : arith T) (n : Z) (h mass : T) (p : particles T), exact K ->
  let q := compute_density K n h mass p in
  (forall i, 0 <= i < n -> rho q i = density K n h mass p i) /\
  (forall i, ~ (0 <= i < n) -> rho q i = rho p i) /\
  pos_x q = pos_x p /\ pos_y q = pos_y p /\ v_x q = v_x p /\ v_y q = v_y p /\ a_x q = a_x p /\ a_y q = a_y p.
Proof.
  intros T K n h mass p HK q. subst q. repeat split; intros i Hi; rewrite (density_pointwise K HK);
    destruct (_ && _) eqn:E; auto; exfalso; lia.
Qed.

Theorem C76_acceleration :
  forall (T : Type) (K : arith T) (n : Z) (mass g h k rho0 mu : T) (p : particles T), exact K ->
  let q := compute_accel K n mass g h k rho0 mu p in
  (forall i, 0 <= i < n ->
     a_x q i = acceleration K n mass h k rho0 mu (r_num K 0) pos_x v_x p i /\
     a_y q i = acceleration K n mass h k rho0 mu (r_neg K g) pos_y v_y p i) /\
  (forall i, ~ (0 <= i < n) -> a_x q i = a_x p i /\ a_y q i = a_y p i) /\
  rho q = rho p /\ pos_x q = pos_x p /\ pos_y q = pos_y p /\ v_x q = v_x p /\ v_y q = v_y p.
Proof.
  intros T K n mass g h k rho0 mu p HK q. subst q. repeat split; try (intros i Hi);
    destruct (accel_pointwise K HK mass g h k rho0 mu p n i) as [E1 E2];
    rewrite ?E1, ?E2; destruct (_ && _) eqn:E; auto; exfalso; lia.
Qed.

(** The forces of particles on each other add up to nothing: what remains of
    the total acceleration is gravity, in both directions. *)
Theorem C76_momentum :
  forall (T : Type) (K : arith T) (n : Z) (mass g h k rho0 mu : T) (p : particles T), exact K ->
  let q := compute_accel K n mass g h k rho0 mu p in
  total K (range 0 n) (a_x q) = r_num K 0 /\
  total K (range 0 n) (a_y q) = total K (range 0 n) (fun _ => r_neg K g).
Proof. intros T K n mass g h k rho0 mu p HK q. apply (accel_total K HK). Qed.

(** The same for the vector kernels. *)
Theorem C76_vector :
  forall (T : Type) (K : arith T) (ext A n : Z) (mass g h k rho0 mu : T) (p : particles T),
  exact K -> 0 < A -> 0 <= n <= ext -> (A | n) ->
  exists q r, compute_density_lfa K ext A n h mass p = Some q /\
    compute_accel_lfa K ext A n mass g h k rho0 mu q = Some r /\
    (forall i, 0 <= i < n ->
       rho r i = density K n h mass p i /\
       a_x r i = acceleration K n mass h k rho0 mu (r_num K 0) pos_x v_x q i /\
       a_y r i = acceleration K n mass h k rho0 mu (r_neg K g) pos_y v_y q i) /\
    total K (range 0 n) (a_x r) = r_num K 0 /\
    total K (range 0 n) (a_y r) = total K (range 0 n) (fun _ => r_neg K g).
Proof.
  intros T K ext A n mass g h k rho0 mu p HK HA Hn Hd. do 2 eexists.
  split; [now apply density_lfa_ok|]. split; [apply accel_lfa_ok; auto; apply (Rmul_comm (ex_ring K HK))|].
  split; [|apply (accel_total K HK)]. intros i Hi.
  destruct (C76_density T K n h mass p HK) as [D _].
  destruct (C76_acceleration T K n mass g h k rho0 mu (compute_density K n h mass p) HK) as [Ac [_ [R _]]].
  rewrite R. destruct (Ac i Hi). auto.
Qed.

Example C76_case :
  let p := line [0; 2; 6; 9] 100 in
  exact ints /\
  map (density ints 4 3 1 p) [0; 1; 2; 3] = [504; 504; 4; 4] /\
  map (acceleration ints 4 1 3 1 5 1 0 pos_x v_x p) [0; 1; 2; 3] = [260; -260; 0; 0] /\
  map (acceleration ints 4 1 3 1 5 1 (-9) pos_y v_y p) [0; 1; 2; 3] = [-9; -9; -9; -9].
Proof. cbv zeta. split; [exact ints_exact|]. vm_compute. auto. Qed.

Print Assumptions C75_kernels_partial.
Print Assumptions C75_ghosts.
Print Assumptions C75_no_stale_entries.
Print Assumptions C75_overrun_refuted.
Print Assumptions C75_ghosts_refuted.
Print Assumptions C76_density.
Print Assumptions C76_acceleration.
Print Assumptions C76_momentum.
Print Assumptions C76_vector.
