(** The four accessor classes as objects: which index an accessor uses, what
    assignment and comparison do.  include/libflatarray/macros.hpp:129-933 (generated
    by LIBFLATARRAY_REGISTER_SOA).  Model only; proofs are in AccessVarsProofs.v.
    Simplifications: one cell type; objects are numbered in order of their
    creation; integers are unbounded (C08 treats overflow). *)
From Coq Require Import ZArith List Bool.
From Verif Require Import Layout.
Import ListNotations.
Open Scope Z_scope.

(** soa_accessor (macros.hpp:130), const_soa_accessor (391), soa_accessor_light (538),
    const_soa_accessor_light (789). *)
Inductive cls := Soa | ConstSoa | Light | ConstLight.

(** Whether the class holds a [long my_index] (387, 534) or a [long *my_index] (785, 932). *)
Definition holds_pointer (c : cls) : bool :=
  match c with Soa | ConstSoa => false | Light | ConstLight => true end.

(** Storage of [long] objects: [None] is an object whose lifetime has ended. *)
Definition store := list (option Z).

(** An accessor object.  [o_loc] is the location of its own my_index, or what the
    pointer my_index points to.  [o_const]: the object is const-qualified.
    [o_ext] and [o_INDEX] are template arguments. *)
Record obj := mkObj {
  o_cls : cls; o_const : bool; o_data : Z; o_ext : extent; o_INDEX : Z; o_loc : nat }.

(** A variable: a [long] of the user, an accessor, or one whose lifetime has ended. *)
Inductive var := VLong (l : nat) | VAcc (o : obj) | VGone.

(** A cell as source or target of a copy: data pointer, template arguments, my_index. *)
Definition place := (Z * accessor)%type.

(** [w_copies]: the cell copies performed so far (target, source), latest first. *)
Record world := mkWorld { w_store : store; w_vars : list var; w_copies : list (place * place) }.
Definition start : world := mkWorld [] [] [].

Inductive result (A : Type) := Done (a : A) | IllFormed | Undefined.
Arguments Done {A} a.
Arguments IllFormed {A}.
Arguments Undefined {A}.

Definition andThen {A B : Type} (r : result A) (f : A -> result B) : result B :=
  match r with Done a => f a | IllFormed => IllFormed | Undefined => Undefined end.

Definition var_at (w : world) (n : nat) : var := nth n (w_vars w) VGone.
Definition acc_at (w : world) (n : nat) : result obj :=
  match var_at w n with VAcc o => Done o | VLong _ => IllFormed | VGone => Undefined end.
Definition long_at (w : world) (n : nat) : result nat :=
  match var_at w n with VLong l => Done l | VAcc _ => IllFormed | VGone => Undefined end.

(** Reading and writing through a location. *)
Definition load_long (w : world) (l : nat) : result Z :=
  match nth l (w_store w) None with Some i => Done i | None => Undefined end.
Fixpoint put {A : Type} (l : list A) (n : nat) (a : A) : list A :=
  match l, n with
  | [], _ => []
  | _ :: r, O => a :: r
  | x :: r, S m => x :: put r m a
  end.
Definition store_long (w : world) (l : nat) (i : Z) : result world :=
  match nth l (w_store w) None with
  | Some _ => Done (mkWorld (put (w_store w) l (Some i)) (w_vars w) (w_copies w))
  | None => Undefined
  end.

Definition add_var (w : world) (v : var) : world :=
  mkWorld (w_store w) (w_vars w ++ [v]) (w_copies w).
Definition add_long (w : world) (i : Z) : world * nat :=
  (mkWorld (w_store w ++ [Some i]) (w_vars w) (w_copies w), length (w_store w)).

(** A new accessor that holds its index: soa_accessor(data, index) (161-164),
    const_soa_accessor(data, index) (422-425). *)
Definition new_holding (w : world) (k : cls) (c : bool) (d : Z) (e : extent) (I i : Z) : world :=
  let '(w', l) := add_long w i in add_var w' (VAcc (mkObj k c d e I l)).
(** A new accessor that refers to an index: the light classes (569-572, 820-823)
    store the address of the [long&] they get. *)
Definition new_pointing (w : world) (k : cls) (c : bool) (d : Z) (e : extent) (I : Z) (l : nat) : world :=
  add_var w (VAcc (mkObj k c d e I l)).

(** operator[](coord<X, Y, Z>): soa_accessor 207-215 (non-const) and 217-225
    (const), const_soa_accessor 468-476, soa_accessor_light 615-623,
    const_soa_accessor_light 866-874.  INDEX of the result comes from
    LIBFLATARRAY_PARAMS (44-45, detail/macros.hpp:30-36).
    Class of the result; None: ill-formed.  The const overload of soa_accessor
    hands its my_index, which is const there, to the parameter [long&] of
    const_soa_accessor_light. *)
Definition sub_class (k : cls) (const_object : bool) : option cls :=
  match k, const_object with
  | Soa, false => Some Light
  | Soa, true => None
  | ConstSoa, _ => Some ConstSoa
  | Light, _ => Some Light
  | ConstLight, _ => Some ConstLight
  end.
Definition sub_INDEX (o : obj) (c : Z * Z * Z) : Z :=
  let '(X, Y, Zc) := c in LFA_INDEX X Y Zc (o_ext o) (o_INDEX o).
Definition sub (w : world) (cq : bool) (o : obj) (c : Z * Z * Z) : result world :=
  match sub_class (o_cls o) (o_const o) with
  | None => IllFormed
  | Some k =>
      if holds_pointer k then
        (* my_index of a soa_accessor or *my_index of a light accessor is bound to long& *)
        andThen (load_long w (o_loc o)) (fun _ =>
          Done (new_pointing w k cq (o_data o) (o_ext o) (sub_INDEX o c) (o_loc o)))
      else
        (* my_index is passed by value *)
        andThen (load_long w (o_loc o)) (fun i =>
          Done (new_holding w k cq (o_data o) (o_ext o) (sub_INDEX o c) i))
  end.

(** Implicit copy constructor: memberwise. *)
Definition copy (w : world) (cq : bool) (o : obj) : result world :=
  if holds_pointer (o_cls o)
  then Done (new_pointing w (o_cls o) cq (o_data o) (o_ext o) (o_INDEX o) (o_loc o))
  else andThen (load_long w (o_loc o)) (fun i =>
         Done (new_holding w (o_cls o) cq (o_data o) (o_ext o) (o_INDEX o) i)).

(** Same type: same class template and same template arguments. *)
Definition same_class (a b : cls) : bool :=
  match a, b with
  | Soa, Soa | ConstSoa, ConstSoa | Light, Light | ConstLight, ConstLight => true
  | _, _ => false
  end.
Definition same_type (a b : obj) : bool :=
  same_class (o_cls a) (o_cls b) && (DIM_X (o_ext a) =? DIM_X (o_ext b)) &&
  (DIM_Y (o_ext a) =? DIM_Y (o_ext b)) && (DIM_Z (o_ext a) =? DIM_Z (o_ext b)) &&
  (o_INDEX a =? o_INDEX b).

(** The cell an accessor stands for (members: detail/macros.hpp:92-107). *)
Definition place_of (o : obj) (i : Z) : place := (o_data o, mkAcc (o_ext o) i (o_INDEX o)).

(** [x = y].  Equal types: the implicit copy assignment, memberwise.  Otherwise the
    only candidate is operator=(const CELL_TYPE&) of the classes without const
    (227-235, 625-633), with y converted by operator CELL_TYPE (166-174, 427-435,
    574-582, 825-833): the cell is copied. *)
Definition assign (w : world) (n : nat) (x y : obj) : result world :=
  if o_const x then
    IllFormed
  else if same_type x y then
    if holds_pointer (o_cls x)
    then Done (mkWorld (w_store w)
                 (put (w_vars w) n (VAcc (mkObj (o_cls x) (o_const x) (o_data y) (o_ext x) (o_INDEX x) (o_loc y))))
                 (w_copies w))
    else andThen (load_long w (o_loc y)) (fun i =>
         andThen (store_long w (o_loc x) i) (fun w' =>
           Done (mkWorld (w_store w')
                   (put (w_vars w') n (VAcc (mkObj (o_cls x) (o_const x) (o_data y) (o_ext x) (o_INDEX x) (o_loc x))))
                   (w_copies w'))))
  else match o_cls x with
       | ConstSoa | ConstLight => IllFormed
       | Soa | Light =>
           andThen (load_long w (o_loc x)) (fun i =>
           andThen (load_long w (o_loc y)) (fun j =>
             Done (mkWorld (w_store w) (w_vars w) ((place_of x i, place_of y j) :: w_copies w))))
       end.

(** operator+= (193-198, 454-459, 601-606, 852-857); operator++ (200-205, 461-466,
    608-613, 859-864) is [advance 1]. *)
Definition advance (w : world) (o : obj) (d : Z) : result world :=
  if o_const o then IllFormed
  else andThen (load_long w (o_loc o)) (fun i => store_long w (o_loc o) (i + d)).

(** [x.index() = i] (373-377, 520-524, 771-775, 918-922); the const overload returns
    a const reference. *)
Definition set_index (w : world) (o : obj) (i : Z) : result world :=
  if o_const o then IllFormed else store_long w (o_loc o) i.

(** End of the lifetime of a variable; a [long] or an index held inside dies with it. *)
Definition drop (w : world) (n : nat) : result world :=
  match var_at w n with
  | VGone => Undefined
  | VLong l => Done (mkWorld (put (w_store w) l None) (put (w_vars w) n VGone) (w_copies w))
  | VAcc o =>
      Done (mkWorld (if holds_pointer (o_cls o) then w_store w else put (w_store w) (o_loc o) None)
                    (put (w_vars w) n VGone) (w_copies w))
  end.

(** Statements of a program. *)
Inductive stmt :=
  | NewLong (i : Z)                                                  (* long n = i; *)
  | NewHolding (k : cls) (cq : bool) (d : Z) (e : extent) (I i : Z)  (* soa_accessor<...> n(d, i); *)
  | NewLight (k : cls) (cq : bool) (d : Z) (e : extent) (I : Z) (l : nat) (* soa_accessor_light<...> n(d, l); *)
  | Sub (cq : bool) (x : nat) (c : Z * Z * Z)                        (* auto n = x[coord<X, Y, Z>()]; *)
  | Copy (cq : bool) (x : nat)                                       (* auto n = x; *)
  | Assign (x y : nat)                                               (* x = y; *)
  | Advance (x : nat) (d : Z)                                        (* x += d; *)
  | SetIndex (x : nat) (i : Z)                                       (* x.index() = i; *)
  | SetLong (l : nat) (i : Z)                                        (* l = i; *)
  | Drop (n : nat).                                                  (* end of the scope of n *)

Definition exec (w : world) (s : stmt) : result world :=
  match s with
  | NewLong i => let '(w', l) := add_long w i in Done (add_var w' (VLong l))
  | NewHolding k cq d e J i =>
      if holds_pointer k then IllFormed else Done (new_holding w k cq d e J i)
  | NewLight k cq d e J n =>
      if holds_pointer k
      then andThen (long_at w n) (fun l => Done (new_pointing w k cq d e J l))
      else IllFormed
  | Sub cq x c => andThen (acc_at w x) (fun o => sub w cq o c)
  | Copy cq x => andThen (acc_at w x) (fun o => copy w cq o)
  | Assign x y => andThen (acc_at w x) (fun o => andThen (acc_at w y) (fun p => assign w x o p))
  | Advance x d => andThen (acc_at w x) (fun o => advance w o d)
  | SetIndex x i => andThen (acc_at w x) (fun o => set_index w o i)
  | SetLong n i => andThen (long_at w n) (fun l => store_long w l i)
  | Drop n => drop w n
  end.

Fixpoint execs (w : world) (p : list stmt) : result world :=
  match p with
  | [] => Done w
  | s :: r => andThen (exec w s) (fun w' => execs w' r)
  end.

(** x.index(), as a value. *)
Definition index_of (w : world) (n : nat) : result Z :=
  andThen (acc_at w n) (fun o => load_long w (o_loc o)).

(** &x.member<k>() of member number j of the registered cell [ms]
    (detail/macros.hpp:92-138); None: no such member. *)
Definition address_of (ms : list member) (w : world) (n : nat) (j : nat) (k : Z) : result (option Z) :=
  andThen (acc_at w n) (fun o =>
  andThen (load_long w (o_loc o)) (fun i =>
    Done (match member_addr ms (mkAcc (o_ext o) i (o_INDEX o)) j k with
          | Some a => Some (o_data o + a)
          | None => None
          end))).

(** x == y (176-184, 437-445, 584-592, 835-843).  my_data and my_index of another
    class are private there.  The light classes compare the pointers. *)
Definition equals (w : world) (n m : nat) : result bool :=
  andThen (acc_at w n) (fun x =>
  andThen (acc_at w m) (fun y =>
    if same_type x y then
      andThen (load_long w (o_loc x)) (fun i =>
      andThen (load_long w (o_loc y)) (fun j =>
        Done ((o_data x =? o_data y) &&
              (if holds_pointer (o_cls x) then Nat.eqb (o_loc x) (o_loc y) else i =? j))))
    else IllFormed)).
