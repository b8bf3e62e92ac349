(** The kernels of the smoothed particle hydrodynamics example,
    examples/smoothed_particle_hydrodynamics/kernels.hpp (with short_vec and
    loop_peeler) and kernels.c (plain C), and the loop of time steps.  Model
    only; proofs are in SphProofs.v.

    Simplifications: the arithmetic is arbitrary, but the same for float and
    double (no conversions between them; PI and M_PI are the same number);
    vector expressions are evaluated lane by lane (C49, C51, C57), members are
    separate arrays (C01), integers are unbounded.  Accesses of the vector
    kernels outside the first [ext] particles are failures (None). *)
From Coq Require Import ZArith List Bool.
From Verif Require Import Base Peeler.
Import ListNotations.
Local Open Scope Z_scope.

(** Numbers. *)
Record arith (T : Type) := mkArith {
  r_add : T -> T -> T; r_sub : T -> T -> T; r_mul : T -> T -> T; r_div : T -> T -> T;
  r_neg : T -> T; r_sqrt : T -> T; r_lt : T -> T -> bool; r_num : Z -> T; r_pi : T }.
Arguments mkArith {T}. Arguments r_add {T}. Arguments r_sub {T}. Arguments r_mul {T}.
Arguments r_div {T}. Arguments r_neg {T}. Arguments r_sqrt {T}. Arguments r_lt {T}.
Arguments r_num {T}. Arguments r_pi {T}.

(** The particles (main.cpp:98-119): one array per member. *)
Record particles (T : Type) := mkP {
  rho : Z -> T; pos_x : Z -> T; pos_y : Z -> T; v_x : Z -> T; v_y : Z -> T; a_x : Z -> T; a_y : Z -> T }.
Arguments mkP {T}. Arguments rho {T}. Arguments pos_x {T}. Arguments pos_y {T}.
Arguments v_x {T}. Arguments v_y {T}. Arguments a_x {T}. Arguments a_y {T}.

(** An entry of the interaction buffer (kernels.hpp:6-45). *)
Record interaction (T : Type) := mkI {
  i_rho_i : T; i_v_x_i : T; i_v_y_i : T; i_rho_j : T; i_v_x_j : T; i_v_y_j : T;
  i_delta_x : T; i_delta_y : T; i_dist_squared : T; i_i : Z; i_j : Z }.
Arguments mkI {T}. Arguments i_rho_i {T}. Arguments i_v_x_i {T}. Arguments i_v_y_i {T}.
Arguments i_rho_j {T}. Arguments i_v_x_j {T}. Arguments i_v_y_j {T}. Arguments i_delta_x {T}.
Arguments i_delta_y {T}. Arguments i_dist_squared {T}. Arguments i_i {T}. Arguments i_j {T}.

Definition obind {A B : Type} (o : option A) (f : A -> option B) : option B :=
  match o with Some a => f a | None => None end.

Fixpoint ofold {A B : Type} (f : A -> B -> option A) (l : list B) (a : A) : option A :=
  match l with
  | [] => Some a
  | b :: r => obind (f a b) (ofold f r)
  end.

Section Kernels.
Context {T : Type} (K : arith T).
Local Notation "a +. b" := (r_add K a b) (at level 50, left associativity).
Local Notation "a -. b" := (r_sub K a b) (at level 50, left associativity).
Local Notation "a *. b" := (r_mul K a b) (at level 40, left associativity).
Local Notation "a /. b" := (r_div K a b) (at level 40, left associativity).
Local Notation "# z" := (r_num K z) (at level 5).

(** a[i] = v, a[i] += v, a[i] -= v *)
Definition put (a : Z -> T) (i : Z) (v : T) : Z -> T := fun k => if k =? i then v else a k.
Definition plus_at (a : Z -> T) (i : Z) (v : T) : Z -> T := put a i (a i +. v).
Definition minus_at (a : Z -> T) (i : Z) (v : T) : Z -> T := put a i (a i -. v).

(** ** The C kernels *)

(** kernels.c:40-50 *)
Definition density_pair (C h_squared : T) (p : particles T) (i : Z) (r : Z -> T) (j : Z) : Z -> T :=
  let delta_x := pos_x p i -. pos_x p j in
  let delta_y := pos_y p i -. pos_y p j in
  let dist_squared := delta_x *. delta_x +. delta_y *. delta_y in
  let overlap := h_squared -. dist_squared in
  if r_lt K #0 overlap then
    let rho_ij := C *. overlap *. overlap *. overlap in
    plus_at (plus_at r i rho_ij) j rho_ij
  else r.

(** compute_density (kernels.c:28-52) *)
Definition compute_density (n : Z) (h mass : T) (p : particles T) : particles T :=
  let h_squared := h *. h in
  let h_pow_8 := h_squared *. h_squared *. h_squared *. h_squared in
  let C := #4 *. mass /. r_pi K /. h_pow_8 in
  let r := fold_left (fun r i => put r i (#4 *. mass /. r_pi K /. h_squared)) (range 0 n) (rho p) in
  let r := fold_left (fun r i => fold_left (density_pair C h_squared p i) (range (i + 1) n) r) (range 0 n) r in
  mkP r (pos_x p) (pos_y p) (v_x p) (v_y p) (a_x p) (a_y p).

(** kernels.c:84-102; the pair of arrays (a_x, a_y). *)
Definition accel_pair (h rho0 h_squared C_0 C_p C_v : T) (p : particles T) (i : Z)
    (a : (Z -> T) * (Z -> T)) (j : Z) : (Z -> T) * (Z -> T) :=
  let delta_x := pos_x p i -. pos_x p j in
  let delta_y := pos_y p i -. pos_y p j in
  let dist_squared := delta_x *. delta_x +. delta_y *. delta_y in
  if r_lt K dist_squared h_squared then
    let q := r_sqrt K dist_squared /. h in
    let u := #1 -. q in
    let w_0 := C_0 *. u /. rho p i /. rho p j in
    let w_p := w_0 *. C_p *. (rho p i +. rho p j -. #2 *. rho0) *. u /. q in
    let w_v := w_0 *. C_v in
    let delta_v_x := v_x p i -. v_x p j in
    let delta_v_y := v_y p i -. v_y p j in
    (minus_at (plus_at (fst a) i (w_p *. delta_x +. w_v *. delta_v_x)) j (w_p *. delta_x +. w_v *. delta_v_x),
     minus_at (plus_at (snd a) i (w_p *. delta_y +. w_v *. delta_v_y)) j (w_p *. delta_y +. w_v *. delta_v_y))
  else a.

(** compute_accel (kernels.c:54-104) *)
Definition compute_accel (n : Z) (mass g h k rho0 mu : T) (p : particles T) : particles T :=
  let h_squared := h *. h in
  let C_0 := mass /. r_pi K /. (h_squared *. h_squared) in
  let C_p := #15 *. k in
  let C_v := #(-40) *. mu in
  let ax := fold_left (fun a i => put a i #0) (range 0 n) (a_x p) in
  let ay := fold_left (fun a i => put a i (r_neg K g)) (range 0 n) (a_y p) in
  let a := fold_left (fun a i => fold_left (accel_pair h rho0 h_squared C_0 C_p C_v p i) (range (i + 1) n) a)
             (range 0 n) (ax, ay) in
  mkP (rho p) (pos_x p) (pos_y p) (v_x p) (v_y p) (fst a) (snd a).

(** ** The vector kernels *)
Section Vector.
(** Number of particles that storage was allocated for; FLOAT::ARITY. *)
Context (ext A : Z).

(** [w] lanes starting at particle [j] are within the storage. *)
Definition inside (j w : Z) : bool := (0 <=? j) && (j + w <=? ext).

(** loop_peeler (loop_peeler.hpp:99-116).  [lambda w stop j s]: the lambda for
    arity w with end stop, the counter being j; result: counter and state. *)
Definition peel {S : Type} (lambda : Z -> Z -> Z -> S -> option (Z * S)) (j n : Z) (s : S) : option (Z * S) :=
  let remainder := j mod A in
  let next_stop := if remainder =? 0 then j else j + A - remainder in
  let last_stop := n - n mod A in
  obind (lambda 1 next_stop j s) (fun '(j, s) =>
  obind (lambda A last_stop j s) (fun '(j, s) => lambda 1 n j s)).

(** while (j < stop) body, at most [fuel] times. *)
Fixpoint while {S : Type} (fuel : nat) (stop : Z) (body : Z -> S -> option (Z * S)) (j : Z) (s : S)
    : option (Z * S) :=
  if j <? stop then
    match fuel with
    | O => None
    | Datatypes.S f => obind (body j s) (fun '(j, s) => while f stop body j s)
    end
  else Some (j, s).

(** &particles.member() << vec, the lanes of vec being [v]. *)
Definition store (a : Z -> T) (j w : Z) (v : T) : option (Z -> T) :=
  if inside j w then Some (fold_left (fun a e => put a (j + e) v) (zseq w) a) else None.

(** The lambda of kernels.hpp:67-75. *)
Definition init_rho (h mass : T) (w stop j : Z) (r : Z -> T) : option (Z * (Z -> T)) :=
  let h_squared := h *. h in
  while (Z.to_nat (stop - j)) stop (fun j r =>
    obind (store r j w (#4 *. mass /. r_pi K /. h_squared)) (fun r => Some (j + w, r))) j r.

(** The loop over the lanes of overlap (kernels.hpp:108-116): rho_i and rho_j
    are updated one lane after the other, particles_j advancing. *)
Fixpoint density_lanes (C : T) (i j : Z) (r : Z -> T) (overlap : list T) : option (Z * (Z -> T)) :=
  match overlap with
  | [] => Some (j, r)
  | o :: rest =>
      if r_lt K #0 o then
        if inside i 1 && inside j 1 then
          let rho_ij := C *. o *. o *. o in
          density_lanes C i (j + 1) (plus_at (plus_at r i rho_ij) j rho_ij) rest
        else None
      else density_lanes C i (j + 1) r rest
  end.

(** The lambda of kernels.hpp:94-121. *)
Definition density_lambda (C h : T) (p : particles T) (i : Z) (pos_x_i pos_y_i : T)
    (w stop j : Z) (r : Z -> T) : option (Z * (Z -> T)) :=
  let h_squared := h *. h in
  while (Z.to_nat (stop - j)) stop (fun j r =>
    if inside j w then
      let overlap := map (fun e =>
        let delta_x := pos_x_i -. pos_x p (j + e) in
        let delta_y := pos_y_i -. pos_y p (j + e) in
        let dist_squared := delta_x *. delta_x +. delta_y *. delta_y in
        h_squared -. dist_squared) (zseq w) in
      if existsb (fun o => r_lt K #0 o) overlap then density_lanes C i j r overlap
      else Some (j + w, r)
    else None) j r.

(** compute_density_lfa (kernels.hpp:61-123); the accessor stands at particle 0. *)
Definition compute_density_lfa (n : Z) (h mass : T) (p : particles T) : option (particles T) :=
  obind (peel (init_rho h mass) 0 n (rho p)) (fun '(_, r) =>
  let h_squared := h *. h in
  let h_pow_8 := h_squared *. h_squared *. h_squared *. h_squared in
  let C := #4 *. mass /. r_pi K /. h_pow_8 in
  obind (ofold (fun r i =>
    if inside i 1 then
      obind (peel (density_lambda C h p i (pos_x p i) (pos_y p i)) (i + 1) n r) (fun '(_, r) => Some r)
    else None) (range 0 n) r) (fun r =>
  Some (mkP r (pos_x p) (pos_y p) (v_x p) (v_y p) (a_x p) (a_y p)))).

(** The lanes of one iteration of handle_interactions (kernels.hpp:130-150). *)
Definition handle_lane (h rho0 C_0 C_p C_v : T) (a : (Z -> T) * (Z -> T)) (x : interaction T)
    : option ((Z -> T) * (Z -> T)) :=
  let q := r_sqrt K (i_dist_squared x) /. h in
  let u := #1 -. q in
  let w_0 := u *. C_0 /. i_rho_i x /. i_rho_j x in
  let w_p := w_0 *. C_p *. (i_rho_i x +. i_rho_j x -. #2 *. rho0) *. u /. q in
  let w_v := w_0 *. C_v in
  let delta_v_x := i_v_x_i x -. i_v_x_j x in
  let delta_v_y := i_v_y_i x -. i_v_y_j x in
  let add_x := w_p *. i_delta_x x +. w_v *. delta_v_x in
  let add_y := w_p *. i_delta_y x +. w_v *. delta_v_y in
  if inside (i_i x) 1 && inside (i_j x) 1 then
    Some (minus_at (plus_at (fst a) (i_i x) add_x) (i_j x) add_x,
          minus_at (plus_at (snd a) (i_i x) add_y) (i_j x) add_y)
  else None.

(** handle_interactions<w> (kernels.hpp:125-153) without the final clear: loads
    of w entries that are not all there (stale ones) count as failure. *)
Fixpoint handle_interactions (fuel : nat) (w : nat) (h rho0 C_0 C_p C_v : T) (a : (Z -> T) * (Z -> T))
    (buf : list (interaction T)) : option ((Z -> T) * (Z -> T)) :=
  match buf with
  | [] => Some a
  | _ =>
      match fuel with
      | O => None
      | S f =>
          if Nat.ltb (length buf) w then None
          else obind (ofold (handle_lane h rho0 C_0 C_p C_v) (firstn w buf) a) (fun a =>
                 handle_interactions f w h rho0 C_0 C_p C_v a (skipn w buf))
      end
  end.

(** The lambda of kernels.hpp:175-183; arrays (a_x, a_y). *)
Definition init_accel (g : T) (w stop j : Z) (a : (Z -> T) * (Z -> T)) : option (Z * ((Z -> T) * (Z -> T))) :=
  while (Z.to_nat (stop - j)) stop (fun j a =>
    obind (store (fst a) j w #0) (fun ax =>
    obind (store (snd a) j w (r_neg K g)) (fun ay => Some (j + w, (ax, ay))))) j a.

(** State of the force loop: the arrays and the interaction buffer. *)
Notation fstate := (((Z -> T) * (Z -> T)) * list (interaction T))%type.

(** The loop over the lanes (kernels.hpp:214-234); soa_array::SIZE is A, and
    operator<< of a full soa_array throws (failure).  The lanes are given as
    (delta_x, delta_y, dist_squared). *)
Fixpoint accel_lanes (h rho0 h_squared C_0 C_p C_v : T) (p : particles T) (i j : Z) (s : fstate)
    (lanes : list (T * T * T)) : option (Z * fstate) :=
  match lanes with
  | [] => Some (j, s)
  | (delta_x, delta_y, dist_squared) :: rest =>
      obind (if r_lt K dist_squared h_squared then
               if inside i 1 && inside j 1 && (Z.of_nat (length (snd s)) <? A) then
                 Some (fst s, snd s ++ [mkI (rho p i) (v_x p i) (v_y p i) (rho p j) (v_x p j) (v_y p j)
                                            delta_x delta_y dist_squared i j])
               else None
             else Some s) (fun s =>
      obind (if Z.of_nat (length (snd s)) =? A then
               obind (handle_interactions (length (snd s)) (Z.to_nat A) h rho0 C_0 C_p C_v (fst s) (snd s))
                     (fun a => Some (a, []))
             else Some s) (fun s =>
      accel_lanes h rho0 h_squared C_0 C_p C_v p i (j + 1) s rest))
  end.

(** The lambda of kernels.hpp:201-238: after the lanes, particles_j goes back
    by ARITY and is then advanced by the loop. *)
Definition accel_lambda (h rho0 h_squared C_0 C_p C_v : T) (p : particles T) (i : Z)
    (w stop j : Z) (s : fstate) : option (Z * fstate) :=
  if inside i 1 then
    let pos_x_i := pos_x p i in
    let pos_y_i := pos_y p i in
    while (Z.to_nat (stop - j)) stop (fun j s =>
      if inside j w then
        let lanes := map (fun e =>
          let delta_x := pos_x_i -. pos_x p (j + e) in
          let delta_y := pos_y_i -. pos_y p (j + e) in
          (delta_x, delta_y, delta_x *. delta_x +. delta_y *. delta_y)) (zseq w) in
        if existsb (fun '(_, _, dist_squared) => r_lt K dist_squared h_squared) lanes then
          obind (accel_lanes h rho0 h_squared C_0 C_p C_v p i j s lanes) (fun '(j, s) =>
            let j := j + - w in
            Some (j + w, s))
        else Some (j + w, s)
      else None) j s
  else None.

(** compute_accel_lfa (kernels.hpp:155-241). *)
Definition compute_accel_lfa (n : Z) (mass g h k rho0 mu : T) (p : particles T) : option (particles T) :=
  let h_squared := h *. h in
  let C_0 := mass /. r_pi K /. (h_squared *. h_squared) in
  let C_p := #15 *. k in
  let C_v := #(-40) *. mu in
  obind (peel (init_accel g) 0 n (a_x p, a_y p)) (fun '(_, a) =>
  obind (ofold (fun s i =>
    obind (peel (accel_lambda h rho0 h_squared C_0 C_p C_v p i) (i + 1) n s) (fun '(_, s) => Some s))
    (range 0 n) (a, [])) (fun s =>
  obind (handle_interactions (length (snd s)) 1 h rho0 C_0 C_p C_v (fst s) (snd s)) (fun a =>
  Some (mkP (rho p) (pos_x p) (pos_y p) (v_x p) (v_y p) (fst a) (snd a))))).

(** ** Time steps (main.cpp:156-201 and main.cpp:241-278)

    [rest]: leapfrog and reflect_bc, the same functions in both programs. *)
Fixpoint simulate_lfa (steps : nat) (n : Z) (mass g h k rho0 mu : T) (rest : particles T -> particles T)
    (p : particles T) : option (particles T) :=
  match steps with
  | O => Some p
  | S s =>
      obind (compute_density_lfa n h mass p) (fun p =>
      obind (compute_accel_lfa n mass g h k rho0 mu p) (fun p =>
      simulate_lfa s n mass g h k rho0 mu rest (rest p)))
  end.
End Vector.

Fixpoint simulate (steps : nat) (n : Z) (mass g h k rho0 mu : T) (rest : particles T -> particles T)
    (p : particles T) : particles T :=
  match steps with
  | O => p
  | S s => simulate s n mass g h k rho0 mu rest
             (rest (compute_accel n mass g h k rho0 mu (compute_density n h mass p)))
  end.

End Kernels.
