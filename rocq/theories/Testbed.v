(** The benchmark support in include/libflatarray/testbed: how the name of the CPU is
    found (cpu_benchmark.hpp) and how results are printed (evaluate.hpp).  Model
    only; proofs are in TestbedProofs.v.
    Simplifications: characters are 8 bit; the contents of /proc/cpuinfo, the output
    of likwid-topology, the clock, the host name and the printed form of the
    performance are inputs. *)
From Coq Require Import String Ascii.
From Coq Require Import ZArith List Bool.
Import ListNotations.
Open Scope Z_scope.

Notation text := (list ascii).
Definition txt (s : string) : text := list_ascii_of_string s.

(** Outcome of a call: a value, a std::runtime_error, another exception, undefined
    behaviour. *)
Inductive outcome (A : Type) := Returns (a : A) | RuntimeError | OtherError | Undef.
Arguments Returns {A} a.
Arguments RuntimeError {A}.
Arguments OtherError {A}.
Arguments Undef {A}.

Definition andThen {A B : Type} (r : outcome A) (f : A -> outcome B) : outcome B :=
  match r with Returns a => f a | RuntimeError => RuntimeError | OtherError => OtherError | Undef => Undef end.

Definition blank : ascii := " "%char.
Definition tab : ascii := "009"%char.
Definition newline : ascii := "010"%char.
Definition nul : ascii := "000"%char.

Definition len (s : text) : Z := Z.of_nat (length s).

(** s[i] of a std::string: the position size() holds '\0', beyond it is undefined. *)
Definition char_at (s : text) (i : Z) : outcome ascii :=
  if (0 <=? i) && (i <? len s) then Returns (nth (Z.to_nat i) s nul)
  else if i =? len s then Returns nul
  else Undef.

(** std::string(s, pos, n): std::out_of_range beyond the end; n is clipped. *)
Definition sub_string (s : text) (pos n : Z) : outcome text :=
  if len s <? pos then OtherError
  else Returns (firstn (Z.to_nat (Z.min n (len s - pos))) (skipn (Z.to_nat pos) s)).

(** a - b in std::size_t. *)
Definition size_sub (a b : Z) : Z := (a - b) mod 2 ^ 64.

(** cpu_benchmark.hpp:119-122: the first loop of trim. *)
Fixpoint trim_start (fuel : nat) (s : text) (start : Z) : outcome Z :=
  match fuel with
  | O => Undef
  | S f =>
      andThen (char_at s start) (fun c =>
        if Ascii.eqb c blank && (start <? len s) then trim_start f s (start + 1) else Returns start)
  end.
(** cpu_benchmark.hpp:124-127: the second loop. *)
Fixpoint trim_end (fuel : nat) (s : text) (e : Z) : outcome Z :=
  match fuel with
  | O => Undef
  | S f =>
      andThen (char_at s e) (fun c =>
        if Ascii.eqb c blank && (1 <? e) then trim_end f s (e - 1) else Returns e)
  end.
(** cpu_benchmark.hpp:113-133. *)
Definition trim (s : text) : outcome text :=
  if len s =? 0 then Returns s
  else
    andThen (trim_start (2 + length s) s 0) (fun start =>
    andThen (trim_end (2 + length s) s (len s - 1)) (fun e =>
    andThen (char_at s e) (fun c =>
      let e' := if negb (Ascii.eqb c blank) && (e <? len s) then e + 1 else e in
      sub_string s start (size_sub e' start)))).

(** std::getline(stream, item, delimiter) until it fails: the delimiter is dropped;
    a call that finds the end of the stream at once fails. [item] is what the
    current call has got so far, reversed. *)
Fixpoint getlines (delimiter : ascii) (item : text) (s : text) : list text :=
  match s with
  | [] => match item with [] => [] | _ => [rev item] end
  | c :: r => if Ascii.eqb c delimiter then rev item :: getlines delimiter [] r
              else getlines delimiter (c :: item) r
  end.

Fixpoint each {A B : Type} (f : A -> outcome B) (l : list A) : outcome (list B) :=
  match l with
  | [] => Returns []
  | x :: r => andThen (f x) (fun y => andThen (each f r) (fun ys => Returns (y :: ys)))
  end.

(** cpu_benchmark.hpp:135-147. *)
Definition tokenize (line : text) (delimiter : ascii) : outcome (list text) :=
  each trim (getlines delimiter [] line).

(** cpu_benchmark.hpp:149-162. *)
Fixpoint join_from (first : bool) (tokens : list text) (delimiter : text) : text :=
  match tokens with
  | [] => []
  | t :: r => (if first then [] else delimiter) ++ t ++ join_from false r delimiter
  end.
Definition join (tokens : list text) (delimiter : text) : text := join_from true tokens delimiter.

(** tokens[n] of a std::vector. *)
Definition item (tokens : list text) (n : nat) : outcome text :=
  match nth_error tokens n with Some t => Returns t | None => Undef end.

Definition same (a b : text) : bool := if list_eq_dec ascii_dec a b then true else false.

(** A char array read as a string ends at the first 0. *)
Fixpoint c_string (s : text) : text :=
  match s with
  | [] => []
  | c :: r => if Ascii.eqb c nul then [] else c :: c_string r
  end.

(** std::istream::getline(buffer, n): stops at the end of the stream, at a newline
    (extracted, not stored), or when n - 1 characters are stored (failure); no
    character at all is a failure.  Some (line, rest): success. *)
Fixpoint line_upto (room : nat) (s : text) : option (text * text) :=
  match s with
  | [] => Some ([], [])
  | c :: r =>
      if Ascii.eqb c newline then Some ([], r)
      else match room with
           | O => None
           | S m => match line_upto m r with Some (l, q) => Some (c :: l, q) | None => None end
           end
  end.
Definition stream_getline (n : nat) (s : text) : option (text * text) :=
  match s with [] => None | _ => line_upto (n - 1) s end.

(** cpu_benchmark.hpp:54: bufferSize. *)
Definition buffer_size : nat := Z.to_nat (2 ^ 12).

(** One round of the loop in parse_proc_cpu (cpu_benchmark.hpp:57-73): None is
    the next round. *)
Definition proc_line (buffer : text) : outcome (option text) :=
  andThen (tokenize (c_string buffer) ":"%char) (fun tokens =>
  andThen (item tokens 0) (fun t0 =>
  andThen (tokenize t0 tab) (fun fields =>
    if Nat.eqb (length fields) 1 && same (nth 0 fields []) (txt "cpu") then
      andThen (item tokens 1) (fun t => Returns (Some t))
    else if Nat.eqb (length fields) 1 && same (nth 0 fields []) (txt "model name") then
      andThen (item tokens 1) (fun t1 =>
      andThen (tokenize t1 blank) (fun tokens' =>
        let buf := join tokens' [blank] in
        andThen (char_at buf (size_sub (len buf) 1)) (fun c =>
          Returns (Some (if Ascii.eqb c nul then firstn (length buf - 1) buf else buf)))))
    else Returns None))).

(** cpu_benchmark.hpp:51-77. *)
Fixpoint proc_lines (fuel : nat) (s : text) : outcome text :=
  match fuel with
  | O => RuntimeError
  | S f =>
      match stream_getline buffer_size s with
      | None => RuntimeError
      | Some (line, rest) =>
          andThen (proc_line line) (fun r =>
            match r with Some t => Returns t | None => proc_lines f rest end)
      end
  end.
(** None: the file cannot be opened. *)
Definition parse_proc_cpu (file : option text) : outcome text :=
  match file with
  | None => RuntimeError
  | Some s => proc_lines (S (length s)) s
  end.

(** s.find(w) != npos. *)
Fixpoint prefix (w s : text) : bool :=
  match w, s with
  | [], _ => true
  | _, [] => false
  | a :: w', b :: s' => Ascii.eqb a b && prefix w' s'
  end.
Fixpoint contains (w s : text) : bool :=
  prefix w s || match s with [] => false | _ :: r => contains w r end.

(** fgets(buffer, n, file) on the rest [s] of the stream: at most n - 1 characters, up to
    and including a newline, and a 0 are written to the buffer.  None: end of file. *)
Fixpoint take_line (room : nat) (s : text) : text * text :=
  match room, s with
  | O, _ => ([], s)
  | _, [] => ([], [])
  | S m, c :: r => if Ascii.eqb c newline then ([c], r)
                   else let '(l, q) := take_line m r in (c :: l, q)
  end.
Definition fgets (buffer s : text) : option (text * text) :=
  match s with
  | [] => None
  | _ => let '(l, q) := take_line (length buffer - 1) s in
         Some (l ++ nul :: skipn (length l + 1) buffer, q)
  end.

(** The loop over the tokens (cpu_benchmark.hpp:96-103); [++i] may reach the end, which
    must not be dereferenced. *)
Fixpoint likwid_tokens (fuel : nat) (tokens : list text) (cpu_type cpu_name : text) : outcome (text * text) :=
  match fuel, tokens with
  | _, [] => Returns (cpu_type, cpu_name)
  | O, _ => Undef
  | S f, t :: r =>
      andThen (if contains (txt "CPU type") t
               then match r with [] => Undef | t' :: r' => Returns (t', r', t') end
               else Returns (t, r, cpu_type)) (fun x =>
        let '(cur, rest, cpu_type') := x in
        if contains (txt "CPU name") cur
        then match rest with [] => Undef | t' :: r' => likwid_tokens f r' cpu_type' t' end
        else likwid_tokens f rest cpu_type' cpu_name)
  end.
(** The loop over the lines (94-104); the whole buffer is split, not only the line. *)
Fixpoint likwid_lines (fuel : nat) (buffer s cpu_type cpu_name : text) : outcome (text * text) :=
  match fuel with
  | O => Returns (cpu_type, cpu_name)
  | S f =>
      match fgets buffer s with
      | None => Returns (cpu_type, cpu_name)
      | Some (buffer', rest) =>
          andThen (tokenize buffer' ","%char) (fun tokens =>
          andThen (likwid_tokens (length tokens) tokens cpu_type cpu_name) (fun x =>
            likwid_lines f buffer' rest (fst x) (snd x)))
      end
  end.
(** cpu_benchmark.hpp:79-111; [size] is the size of read_buffer (100000 there).  None:
    popen fails. *)
Definition parse_likwid_topology (size : nat) (output : option text) : outcome text :=
  match output with
  | None => RuntimeError
  | Some s =>
      andThen (likwid_lines (S (length s)) (repeat blank size) s [] []) (fun x =>
        let '(cpu_type, cpu_name) := x in
        if Nat.eqb (length cpu_type) 0 || Nat.eqb (length cpu_name) 0 then RuntimeError
        else Returns (cpu_type ++ txt ", " ++ cpu_name))
  end.

(** cpu_benchmark.hpp:35-48. *)
Definition device (size : nat) (output file : option text) : outcome text :=
  match parse_likwid_topology size output with
  | RuntimeError =>
      match parse_proc_cpu file with
      | RuntimeError => Returns (txt "unknown CPU")
      | r => r
      end
  | r => r
  end.

(** ** evaluate.hpp *)

(** evaluate.hpp:50-53. *)
Definition header : text := txt
  "#rev              ; date                 ; host                            ; device                                          ; order   ; family                          ; species ; dimensions              ; perf        ; unit".

(** Decimal digits of an int, as operator<< prints it. *)
Fixpoint digits (fuel : nat) (n : Z) (acc : text) : text :=
  match fuel with
  | O => acc
  | S f => let acc' := ascii_of_nat (Z.to_nat (48 + n mod 10)) :: acc in
           if n <? 10 then acc' else digits f (n / 10) acc'
  end.
Definition print_int (n : Z) : text :=
  if n <? 0 then "-"%char :: digits 20 (- n) [] else digits 20 n [].

(** evaluate.hpp:114-119; dim[0] of an empty vector is undefined. *)
Definition pretty_dim (dim : list Z) : outcome text :=
  match dim with
  | [] => Undef
  | d :: r => Returns (txt "(" ++ print_int d ++ flat_map (fun x => txt ", " ++ print_int x) r ++ txt ")")
  end.

(** operator<< after setw(n), left aligned. *)
Definition setw (n : nat) (s : text) : text := s ++ repeat blank (n - length s).

(** What a benchmark answers. *)
Record answers := mkAnswers { b_order : text; b_family : text; b_species : text; b_unit : text; b_device : text }.

(** evaluate.hpp:55-134: the line printed (without its newline); None: nothing. *)
Definition evaluate (name revision now hostname performance : text) (b : answers) (dim : list Z) (output : bool)
  : outcome (option text) :=
  if negb (contains name (b_family b)) then Returns None
  else andThen (pretty_dim dim) (fun d =>
    if output then
      Returns (Some (setw 18 revision ++ txt "; " ++ now ++ txt " ; " ++ setw 32 (c_string hostname) ++ txt "; " ++
        setw 48 (b_device b) ++ txt "; " ++ setw 8 (b_order b) ++ txt "; " ++ setw 32 (b_family b) ++ txt "; " ++
        setw 8 (b_species b) ++ txt "; " ++ setw 24 d ++ txt "; " ++ setw 12 performance ++ txt "; " ++
        setw 8 (b_unit b)))
    else Returns None).
