(** The ParticleMover benchmarks, examples/performance_tests/main.cpp:1848-2078:
    particles are sorted into two containers by their x coordinate.  Model only;
    proofs are in PropsPerfMover.v.

    Simplifications: a particle is a value of any type with an x coordinate; the
    comparisons and the computation of the next boundary are parameters; timing
    is left out.  None stands for an access outside a soa_array's storage or
    for the exception of a full one. *)
From Coq Require Import ZArith List Bool.
From Verif Require Import Base Peeler Sph.
Import ListNotations.
Local Open Scope Z_scope.

Section Mover.
(** [ge], [lt]: operators >= and <; [flip b] is 1.0 - b. *)
Context {P T : Type} (posX : P -> T) (ge lt : T -> T -> bool) (flip : T -> T).

(** The start values: gridDim^3 particles, all on the left
    (main.cpp:1879-1887, 1944-1952, 2010-2018). *)
Definition start_particles (particle : Z -> Z -> Z -> P) (gridDim : Z) : list P :=
  flat_map (fun z => flat_map (fun y => map (fun x => particle x y z) (range 0 gridDim)) (range 0 gridDim)) (range 0 gridDim).

(** ** Vanilla: std::list and splice

    The loop of an iterator over a list (main.cpp:1895-1903, 1906-1914): [passed]
    lies before the iterator, [rest] from it on; [front] is the other list up to
    the position that elements are spliced before. *)
Fixpoint splicing (test : P -> bool) (passed rest front : list P) : list P * list P :=
  match rest with
  | [] => (passed, front)
  | p :: rest => if test p then splicing test passed rest (front ++ [p]) else splicing test (passed ++ [p]) rest front
  end.

(** One repetition (main.cpp:1891-1914).  rightStart is the first of the elements
    that were on the right, or the end; behind the first loop it has the arrivals
    before it. *)
Definition vanilla_rep (b : T) (s : list P * list P) : list P * list P :=
  let '(lefts, rights) := s in
  let '(lefts, front) := splicing (fun p => ge (posX p) b) [] lefts [] in
  let '(rights, front) := splicing (fun p => lt (posX p) b) front rights [] in
  (front ++ lefts, rights).

(** ** Pepper: std::vector (main.cpp:1958-1979) *)
Definition push_either (b : T) (s : list P * list P) (p : P) : list P * list P :=
  let '(newLeft, newRight) := s in
  if ge (posX p) b then (newLeft, newRight ++ [p]) else (newLeft ++ [p], newRight).

Definition pepper_rep (b : T) (s : list P * list P) : list P * list P :=
  let '(lefts, rights) := s in
  fold_left (push_either b) rights (fold_left (push_either b) lefts ([], [])).

(** main.cpp:1891, 1916 and 1958, 1981. *)
Fixpoint moves {S : Type} (n : nat) (rep : T -> S -> S) (b : T) (s : S) : S :=
  match n with O => s | Datatypes.S n => moves n rep (flip b) (rep b s) end.

(** ** Gold: soa_array of 8192 + 16 particles *)
Record array := mkArray { cells : Z -> P; size : Z }.
Definition capacity : Z := 8192 + 16.

Definition read (a : array) (i : Z) : option P :=
  if (0 <=? i) && (i <? capacity) then Some (cells a i) else None.
(** soa_array.hpp:161-173 *)
Definition push_back (a : array) (p : P) : option array :=
  if capacity <=? size a then None else Some (mkArray (fun k => if k =? size a then p else cells a k) (size a + 1)).
(** load(source[i], 8) (soa_array.hpp:175-196) *)
Definition load8 (a source : array) (i : Z) : option array :=
  if capacity <? size a + 8 then None
  else if (0 <=? i) && (i + 8 <=? capacity)
  then Some (mkArray (fun k => if (size a <=? k) && (k <? size a + 8) then cells source (i + (k - size a)) else cells a k) (size a + 8))
  else None.

(** any(short_vec<float, 8>(&a[i].posX()) OP boundaryVec) *)
Definition any8 (test : P -> bool) (a : array) (i : Z) : option bool :=
  ofold (fun hit e => obind (read a (i + e)) (fun p => Some (hit || test p))) (zseq 8) false.

(** The inner loop (main.cpp:2030-2036, 2049-2055). *)
Definition one_by_one (test : P -> bool) (a : array) (i : Z) (s : array * array) : option (array * array) :=
  ofold (fun s e => let '(keep, move) := s in
    obind (read a (i + e)) (fun p =>
      if test p then obind (push_back move p) (fun move => Some (keep, move))
      else obind (push_back keep p) (fun keep => Some (keep, move)))) (zseq 8) s.

(** The loop over the chunks of a container (main.cpp:2028-2045, 2047-2064). *)
Fixpoint chunks (fuel : nat) (vtest test : P -> bool) (a : array) (i : Z) (s : array * array) : option (array * array) :=
  if i <? size a then
    match fuel with
    | O => None
    | S fuel =>
        obind (any8 vtest a i) (fun hit =>
        obind (if hit then one_by_one test a i s else obind (load8 (fst s) a i) (fun keep => Some (keep, snd s)))
          (chunks fuel vtest test a (i + 8)))
    end
  else Some s.

(** left, right, newLeft, newRight *)
Notation four := (array * array * array * array)%type.
Definition clear (a : array) : array := mkArray (cells a) 0.

(** One repetition (main.cpp:2024-2067); [boundaryVec] was set before the loop
    (main.cpp:2004) and stays. *)
Definition gold_rep (boundaryVec b : T) (s : four) : option four :=
  let '(lefts, rights, newLeft, newRight) := s in
  obind (chunks (Z.to_nat (size lefts)) (fun p => ge (posX p) boundaryVec) (fun p => ge (posX p) b) lefts 0 (clear newLeft, clear newRight))
    (fun '(newLeft, newRight) =>
  obind (chunks (Z.to_nat (size rights)) (fun p => lt (posX p) boundaryVec) (fun p => lt (posX p) b) rights 0 (newRight, newLeft))
    (fun '(newRight, newLeft) => Some (newLeft, newRight, lefts, rights))).

Definition gold_moves (n : nat) (b : T) (s : four) : option four :=
  moves n (fun b' s => obind s (gold_rep b b')) b (Some s).

(** The start of Gold (main.cpp:2007-2018): all cells hold Particle(), then the
    particles are pushed. *)
Definition gold_start (blank : P) (particles : list P) : option array :=
  ofold push_back particles (mkArray (fun _ => blank) 0).
End Mover.

(** The second element of dim in the three runs (main.cpp:2573-2592); gridDim is 20. *)
Definition mover_runs : list Z := [10; 50; 90].
