(** What accessor objects should do, without pointers and without linearised
    offsets: an accessor either has a position of its own or follows another
    variable, and stands for the cell at that position displaced by a relative
    coordinate. *)
From Coq Require Import ZArith List Bool.
From Verif Require Import Layout AccessVars.
Import ListNotations.
Open Scope Z_scope.

Inductive source := Own (i : Z) | Follows (n : nat).

(** [t_I]: the INDEX template argument it was declared with; [t_disp]: the sum of
    the coordinates in its derivation. *)
Record thing := mkThing {
  t_cls : cls; t_const : bool; t_data : Z; t_ext : extent; t_I : Z;
  t_disp : Z * Z * Z; t_src : source }.

Inductive entry := ELong (i : Z) | EAcc (t : thing) | EGone.

(** A cell: data pointer, extents, position in the linear order of the cells. *)
Record cell := mkCell { c_data : Z; c_ext : extent; c_pos : Z }.

Record ideal := mkIdeal { i_entries : list entry; i_copies : list (cell * cell) }.
Definition nothing : ideal := mkIdeal [] [].

Definition entry_at (s : ideal) (n : nat) : entry := nth n (i_entries s) EGone.
Definition thing_at (s : ideal) (n : nat) : result thing :=
  match entry_at s n with EAcc t => Done t | ELong _ => IllFormed | EGone => Undefined end.

(** The current position of variable [n]: a variable that follows one that is gone
    has none. *)
Definition own_position (e : entry) : option Z :=
  match e with
  | ELong i => Some i
  | EAcc t => match t_src t with Own i => Some i | Follows _ => None end
  | EGone => None
  end.
Definition position (s : ideal) (t : thing) : result Z :=
  match t_src t with
  | Own i => Done i
  | Follows n => match own_position (entry_at s n) with Some i => Done i | None => Undefined end
  end.

Definition displacement (e : extent) (c : Z * Z * Z) : Z :=
  let '(x, y, z) := c in x + y * DIM_X e + z * (DIM_X e * DIM_Y e).
Definition plus (a b : Z * Z * Z) : Z * Z * Z :=
  let '(x, y, z) := a in let '(p, q, r) := b in (x + p, y + q, z + r).

(** The cell a thing stands for when its position is [i]. *)
Definition cell_of (t : thing) (i : Z) : cell :=
  mkCell (t_data t) (t_ext t) (i + t_I t + displacement (t_ext t) (t_disp t)).

(** Whom to follow to follow thing [t], which is variable [n]. *)
Definition leader (n : nat) (t : thing) : nat :=
  match t_src t with Own _ => n | Follows m => m end.

Definition introduce (s : ideal) (e : entry) : ideal := mkIdeal (i_entries s ++ [e]) (i_copies s).
Definition replace (s : ideal) (n : nat) (e : entry) : ideal := mkIdeal (put (i_entries s) n e) (i_copies s).

(** Move variable [n] itself to position [i]. *)
Definition place_at (s : ideal) (n : nat) (i : Z) : result ideal :=
  match entry_at s n with
  | ELong _ => Done (replace s n (ELong i))
  | EAcc t => match t_src t with
              | Own _ => Done (replace s n (EAcc (mkThing (t_cls t) (t_const t) (t_data t) (t_ext t) (t_I t) (t_disp t) (Own i))))
              | Follows _ => Undefined
              end
  | EGone => Undefined
  end.

(** Types of two things are equal: class, extents and the compile-time offset. *)
Definition alike (a b : thing) : bool :=
  same_class (t_cls a) (t_cls b) && (DIM_X (t_ext a) =? DIM_X (t_ext b)) &&
  (DIM_Y (t_ext a) =? DIM_Y (t_ext b)) && (DIM_Z (t_ext a) =? DIM_Z (t_ext b)) &&
  (t_I a + displacement (t_ext a) (t_disp a) =? t_I b + displacement (t_ext b) (t_disp b)).

Definition follower (k : cls) : bool := match k with Light | ConstLight => true | _ => false end.

Definition ideal_exec (s : ideal) (st : stmt) : result ideal :=
  match st with
  | NewLong i => Done (introduce s (ELong i))
  | NewHolding k cq d e J i =>
      if follower k then IllFormed
      else Done (introduce s (EAcc (mkThing k cq d e J (0, 0, 0) (Own i))))
  | NewLight k cq d e J n =>
      if follower k then
        match entry_at s n with
        | ELong _ => Done (introduce s (EAcc (mkThing k cq d e J (0, 0, 0) (Follows n))))
        | EAcc _ => IllFormed
        | EGone => Undefined
        end
      else IllFormed
  | Sub cq n c =>
      andThen (thing_at s n) (fun t =>
        match t_cls t, t_const t with
        | Soa, true => IllFormed
        | ConstSoa, _ =>
            andThen (position s t) (fun i =>
              Done (introduce s (EAcc (mkThing ConstSoa cq (t_data t) (t_ext t) (t_I t) (plus (t_disp t) c) (Own i)))))
        | k, _ =>
            andThen (position s t) (fun _ =>
              Done (introduce s (EAcc (mkThing (match k with ConstLight => ConstLight | _ => Light end) cq
                                         (t_data t) (t_ext t) (t_I t) (plus (t_disp t) c) (Follows (leader n t))))))
        end)
  | Copy cq n =>
      andThen (thing_at s n) (fun t =>
        Done (introduce s (EAcc (mkThing (t_cls t) cq (t_data t) (t_ext t) (t_I t) (t_disp t) (t_src t)))))
  | Assign n m =>
      andThen (thing_at s n) (fun x =>
      andThen (thing_at s m) (fun y =>
        if t_const x then IllFormed
        else if alike x y then
          Done (replace s n (EAcc (mkThing (t_cls x) (t_const x) (t_data y) (t_ext x) (t_I x) (t_disp x) (t_src y))))
        else match t_cls x with
             | ConstSoa | ConstLight => IllFormed
             | _ => andThen (position s x) (fun i => andThen (position s y) (fun j =>
                      Done (mkIdeal (i_entries s) ((cell_of x i, cell_of y j) :: i_copies s))))
             end))
  | Advance n d =>
      andThen (thing_at s n) (fun t =>
        if t_const t then IllFormed
        else andThen (position s t) (fun i => place_at s (leader n t) (i + d)))
  | SetIndex n i =>
      andThen (thing_at s n) (fun t =>
        if t_const t then IllFormed
        else andThen (position s t) (fun _ => place_at s (leader n t) i))
  | SetLong n i =>
      match entry_at s n with
      | ELong _ => place_at s n i
      | EAcc _ => IllFormed
      | EGone => Undefined
      end
  | Drop n =>
      match entry_at s n with EGone => Undefined | _ => Done (replace s n EGone) end
  end.

Fixpoint ideal_execs (s : ideal) (p : list stmt) : result ideal :=
  match p with
  | [] => Done s
  | st :: r => andThen (ideal_exec s st) (fun s' => ideal_execs s' r)
  end.

(** Observations. *)
Definition ideal_index (s : ideal) (n : nat) : result Z :=
  andThen (thing_at s n) (fun t => position s t).
Definition ideal_cell (s : ideal) (n : nat) : result cell :=
  andThen (thing_at s n) (fun t => andThen (position s t) (fun i => Done (cell_of t i))).
Definition ideal_equals (s : ideal) (n m : nat) : result bool :=
  andThen (thing_at s n) (fun x =>
  andThen (thing_at s m) (fun y =>
    if alike x y then
      andThen (position s x) (fun i =>
      andThen (position s y) (fun j =>
        Done ((t_data x =? t_data y) &&
              match t_src x, t_src y with
              | Follows p, Follows q => Nat.eqb p q
              | _, _ => i =? j
              end)))
    else IllFormed)).

(** Where member [j], array element [k] of a cell starts: members one after the other,
    each an array over all cells. *)
Definition cell_member (ms : list member) (c : cell) (j : nat) (k : Z) : option Z :=
  match nth_error ms j, offset ms j with
  | Some m, Some o =>
      Some (c_data c + DIM_PROD (c_ext c) * (o + m_size m * (match m_array m with None => 0 | Some _ => k end))
            + c_pos c * m_size m)
  | _, _ => None
  end.
