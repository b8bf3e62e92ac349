(** Specification side of C69 to C72: pieces of text, without positions and loops. *)
From Coq Require Import String Ascii.
From Coq Require Import ZArith List Bool.
From Verif Require Import Testbed.
Import ListNotations.

Definition blanks (s : text) : Prop := Forall (eq blank) s.

(** No blank at either end. *)
Definition bare (s : text) : Prop := (forall r, s <> blank :: r) /\ (forall r, s <> r ++ [blank]).

(** [t] is [s] without the blanks around it. *)
Definition strips (s t : text) : Prop := exists a b, s = a ++ t ++ b /\ blanks a /\ blanks b /\ bare t.

(** The parts with the delimiter between them. *)
Fixpoint glue (d : ascii) (parts : list text) : text :=
  match parts with
  | [] => []
  | [p] => p
  | p :: r => p ++ d :: glue d r
  end.

(** [parts] are the parts of [s] between the delimiters. *)
Definition splits (d : ascii) (s : text) (parts : list text) : Prop :=
  parts <> [] /\ Forall (fun p => ~ In d p) parts /\ s = glue d parts.

(** What is left after a delimiter at the end of the text does not count. *)
Fixpoint counted (parts : list text) : list text :=
  match parts with
  | [] => []
  | [p] => match p with [] => [] | _ => [p] end
  | p :: r => p :: counted r
  end.

(** A line of /proc/cpuinfo: key, tabs, colon, value. *)
Record entry := mkEntry { e_key : text; e_tabs : nat; e_value : text }.
Definition entry_line (e : entry) : text := e_key e ++ repeat tab (e_tabs e) ++ ":"%char :: e_value e.

Definition plain (s : text) : Prop := ~ In nul s /\ ~ In newline s /\ ~ In ":"%char s.
Definition well_formed (e : entry) : Prop :=
  plain (e_key e) /\ ~ In tab (e_key e) /\ bare (e_key e) /\ plain (e_value e) /\
  (Z.of_nat (length (entry_line e)) <= 4095)%Z.

(** The entries that name the CPU, in the form the code looks for. *)
Definition names_cpu (e : entry) : Prop :=
  (e_tabs e <= 1)%nat /\ (e_key e = txt "cpu" \/ e_key e = txt "model name").

Definition lines_of (es : list entry) : text := flat_map (fun e => entry_line e ++ [newline]) es.

(** Lines of the output of likwid-topology -O, without the newline: comma separated. *)
Definition csv (parts : list text) : text := glue ","%char parts.

(** [w] occurs in [s] behind its first character. *)
Definition occurs_later (w s : text) : Prop := exists a b, a <> [] /\ s = a ++ w ++ b.

Definition occurs (w s : text) : Prop := exists a b, s = a ++ w ++ b.

Definition starts (w s : text) : Prop := exists r, s = w ++ r.

(** A line of likwid-topology -O: fields with commas between them. *)
Definition csv_line (size : nat) (ps : list text) : Prop :=
  ps <> [] /\ Forall (fun p => ~ In nul p /\ ~ In newline p /\ ~ In ","%char p) ps /\
  (length (csv ps) + 2 <= size)%nat /\
  Forall (fun w => ~ occurs_later w (csv ps) /\ (starts w (csv ps) -> (3 <= length ps)%nat)) [txt "CPU type"; txt "CPU name"].

Definition csv_output (ls : list (list text)) : text := flat_map (fun ps => csv ps ++ [newline]) ls.

(** The field after the last [w] at the start of a line; before there was [t0]. *)
Inductive noted (w : text) : list (list text) -> text -> text -> Prop :=
| noted_none t : noted w [] t t
| noted_hit ps ls v t0 t t' : starts w (csv ps) -> nth_error ps 1 = Some v -> strips v t' -> noted w ls t' t ->
    noted w (ps :: ls) t0 t
| noted_miss ps ls t0 t : ~ starts w (csv ps) -> noted w ls t0 t -> noted w (ps :: ls) t0 t.

(** Positions of a character in a text. *)
Fixpoint positions (d : ascii) (i : nat) (s : text) : list nat :=
  match s with
  | [] => []
  | c :: r => (if Ascii.eqb c d then [i] else []) ++ positions d (S i) r
  end.

(** The number a decimal numeral stands for. *)
Definition digit_value (c : ascii) : Z := Z.of_nat (nat_of_ascii c) - 48.
Definition is_digit (c : ascii) : Prop := (0 <= digit_value c <= 9)%Z.
Definition natural (s : text) (n : Z) : Prop :=
  s <> [] /\ Forall is_digit s /\ fold_left (fun v c => (10 * v + digit_value c)%Z) s 0%Z = n.
Definition integer (s : text) (n : Z) : Prop :=
  natural s n \/ exists r, s = "-"%char :: r /\ natural r (- n).
