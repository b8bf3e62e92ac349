(** A C preprocessor: lexing of #define lines and macro expansion with hide
    sets (D. Prosser's algorithm, the one the C and C++ standards describe),
    for object-like and function-like macros with ##.  Not modelled: #, __VA_ARGS__,
    character literals, escapes in string literals, comments, conditional
    directives; white space is dropped, operators are lexed character by character.

    It is applied to the text of /repo/include/libflatarray/preprocessor.hpp,
    detail/preprocessor.hpp, macros.hpp and detail/macros.hpp (PreprocText.v). *)
From Coq Require Import String Ascii ZArith Bool List.
From Coq Require Import FMapPositive.
Import ListNotations.
Local Open Scope Z_scope.

(** ** Tokens *)

(** Spellings are encoded as positives: eight bits per character, the last
    character in the lowest bits, a leading 1. *)
Definition spelling := positive.

Definition push_bit (b : bool) (p : positive) : positive := if b then xI p else xO p.

Definition push_char (c : ascii) (p : spelling) : spelling :=
  match c with
  | Ascii b0 b1 b2 b3 b4 b5 b6 b7 =>
    push_bit b0 (push_bit b1 (push_bit b2 (push_bit b3
      (push_bit b4 (push_bit b5 (push_bit b6 (push_bit b7 p)))))))
  end.

Fixpoint spell_from (p : spelling) (s : string) : spelling :=
  match s with
  | EmptyString => p
  | String c r => spell_from (push_char c p) r
  end.

Definition spell (s : string) : spelling := spell_from xH s.

(** Concatenation. *)
Fixpoint spell_app (b a : spelling) : spelling :=
  match b with
  | xH => a
  | xO b' => xO (spell_app b' a)
  | xI b' => xI (spell_app b' a)
  end.

Inductive tok :=
| TId (p : spelling)      (* identifier *)
| TNum (p : spelling)     (* preprocessing number *)
| TStr (p : spelling)     (* string literal *)
| TPunct (c : ascii)      (* any other character *)
| TLp | TRp | TComma
| TPaste                  (* ## *)
| TAtom (n : nat).        (* stands for some token sequence in PreprocAbs.v; no source has it *)

Definition in_range (a b c : ascii) : bool :=
  N.leb (N_of_ascii a) (N_of_ascii c) && N.leb (N_of_ascii c) (N_of_ascii b).
Definition is_digit (c : ascii) : bool := in_range "0" "9" c.
Definition is_letter (c : ascii) : bool :=
  in_range "a" "z" c || in_range "A" "Z" c || Ascii.eqb c "_".
Definition is_space (c : ascii) : bool := N.leb (N_of_ascii c) 32.

(** The lexer; [cur] is the identifier, number or string literal being read. *)
Inductive lexeme := LId | LNum | LStr.

Definition flush (cur : option (lexeme * spelling)) (r : list tok) : list tok :=
  match cur with
  | None => r
  | Some (LId, p) => TId p :: r
  | Some (LNum, p) => TNum p :: r
  | Some (LStr, p) => TStr p :: r
  end.

Fixpoint lex (s : string) (cur : option (lexeme * spelling)) : list tok :=
  match s with
  | EmptyString => flush cur []
  | String c r =>
    let start :=
      if is_letter c then lex r (Some (LId, push_char c xH)) else
      if is_digit c then lex r (Some (LNum, push_char c xH)) else
      if is_space c then lex r None else
      if Ascii.eqb c """" then lex r (Some (LStr, xH)) else
      if Ascii.eqb c "(" then TLp :: lex r None else
      if Ascii.eqb c ")" then TRp :: lex r None else
      if Ascii.eqb c "," then TComma :: lex r None else
      match c, r with
      | "#"%char, String "#"%char r' => TPaste :: lex r' None
      | _, _ => TPunct c :: lex r None
      end in
    match cur with
    | None => start
    | Some (LStr, p) => if Ascii.eqb c """" then flush cur (lex r None) else lex r (Some (LStr, push_char c p))
    | Some (k, p) => if is_letter c || is_digit c then lex r (Some (k, push_char c p)) else flush cur start
    end
  end.

(** ** Macro definitions *)

Record macro := mkMacro {
  m_params : option (list spelling);   (* None: object-like *)
  m_body : list tok }.

(** Parameters up to the closing parenthesis. *)
Fixpoint parse_params (l : list tok) (acc : list spelling) : option (list spelling * list tok) :=
  match l with
  | TId p :: TComma :: r => parse_params r (acc ++ [p])
  | TId p :: TRp :: r => Some (acc ++ [p], r)
  | _ => None
  end.

(** #define NAME(A, B) body or #define NAME body.  Whether the parenthesis
    follows the name immediately is decided on the text: [fn] tells. *)
Definition parse_define (fn : bool) (l : list tok) : option (spelling * macro) :=
  match l with
  | TPunct _ :: TId _ :: TId name :: r =>
    if fn then
      match r with
      | TLp :: r' => match parse_params r' [] with
                     | Some (ps, body) => Some (name, mkMacro (Some ps) body)
                     | None => None
                     end
      | _ => None
      end
    else Some (name, mkMacro None r)
  | _ => None
  end.

(** Does "(" follow the name directly?  The text is "#define NAME..." with one
    blank before the name. *)
Fixpoint after_name (s : string) : bool :=
  match s with
  | EmptyString => false
  | String c r => if is_letter c || is_digit c then after_name r else Ascii.eqb c "("
  end.

Definition define_of (s : string) : option (spelling * macro) :=
  parse_define (after_name (substring 8 (String.length s) s)) (lex s None).

Definition table := PositiveMap.t macro.

Fixpoint table_of (l : list string) (t : table) : option table :=
  match l with
  | [] => Some t
  | s :: r =>
    match define_of s with
    | Some (n, m) => match PositiveMap.find n t with
                     | Some _ => None              (* redefinition *)
                     | None => table_of r (PositiveMap.add n m t)
                     end
    | None => None
    end
  end.

(** ** Expansion *)

Definition hideset := list spelling.
Definition htok := (tok * hideset)%type.

Definition hs_mem (p : spelling) (h : hideset) : bool := existsb (Pos.eqb p) h.
Definition hs_inter (a b : hideset) : hideset := filter (fun p => hs_mem p b) a.
Definition hs_union (a b : hideset) : hideset := filter (fun p => negb (hs_mem p b)) a ++ b.

Definition hs_add (h : hideset) (l : list htok) : list htok :=
  map (fun x => (fst x, hs_union h (snd x))) l.

(** The arguments of a call after its "(": depth of nesting, tokens of the
    current argument (reversed), arguments read (reversed).  Yields the
    arguments, the hide set of ")" and what follows. *)
Fixpoint collect (l : list htok) (depth : nat) (cur : list htok) (args : list (list htok))
  : option (list (list htok) * hideset * list htok) :=
  match l with
  | [] => None
  | x :: r =>
    match fst x with
    | TLp => collect r (S depth) (x :: cur) args
    | TRp => match depth with
             | O => Some (rev (rev cur :: args), snd x, r)
             | S d => collect r d (x :: cur) args
             end
    | TComma => match depth with
                | O => collect r O [] (rev cur :: args)
                | S _ => collect r depth (x :: cur) args
                end
    | _ => collect r depth (x :: cur) args
    end
  end.

(** ## on two tokens: the result must be one token. *)
Definition paste_tok (a b : htok) : option htok :=
  match fst a, fst b with
  | TId p, TId q | TId p, TNum q => Some (TId (spell_app q p), hs_inter (snd a) (snd b))
  | TNum p, TNum q => Some (TNum (spell_app q p), hs_inter (snd a) (snd b))
  | _, _ => None
  end.

(** The last token of [l] pasted to the first of [r].  Empty operands
    (placemarkers in the standard's terms) do not occur in the library and are
    treated as errors. *)
Fixpoint glue (l r : list htok) : option (list htok) :=
  match l with
  | [] => None
  | [a] => match r with
           | [] => None
           | b :: r' => match paste_tok a b with Some c => Some (c :: r') | None => None end
           end
  | a :: l' => match glue l' r with Some x => Some (a :: x) | None => None end
  end.

(** An argument that can stand to the left of ##. *)
Fixpoint last_plain (l : list htok) : bool :=
  match l with
  | [] => false
  | [x] => match fst x with TId _ | TNum _ => true | _ => false end
  | _ :: r => last_plain r
  end.

(** Position of a parameter. *)
Fixpoint param_index (p : spelling) (ps : list spelling) (n : nat) : option nat :=
  match ps with
  | [] => None
  | q :: r => if Pos.eqb p q then Some n else param_index p r (S n)
  end.

Definition as_param (ps : list spelling) (t : tok) : option nat :=
  match t with TId p => param_index p ps 0 | _ => None end.

(** Tokens of the replacement list carry the empty hide set. *)
Definition bare (t : tok) : htok := (t, []).

(** Replacement list [body] with arguments [args] (fully expanded: [eargs])
    substituted; [out] is what has been produced so far. *)
Fixpoint subst (body : list tok) (ps : list spelling) (args eargs : list (list htok))
    (out : list htok) : option (list htok) :=
  match body with
  | [] => Some out
  | TPaste :: t :: r =>
    match as_param ps t with
    | Some i => match glue out (nth i args []) with
                | Some o => subst r ps args eargs o
                | None => None
                end
    | None => match glue out [bare t] with
              | Some o => subst r ps args eargs o
              | None => None
              end
    end
  | t :: r =>
    match as_param ps t with
    | Some i =>
      match r with
      | TPaste :: _ => if last_plain (nth i args [])
                       then subst r ps args eargs (out ++ nth i args [])
                       else None
      | _ => subst r ps args eargs (out ++ nth i eargs [])
      end
    | None => subst r ps args eargs (out ++ [bare t])
    end
  end.

Section Expand.
Variable tab : table.

Fixpoint map_opt {X Y : Type} (f : X -> option Y) (l : list X) : option (list Y) :=
  match l with
  | [] => Some []
  | x :: r => match f x, map_opt f r with
              | Some y, Some ys => Some (y :: ys)
              | _, _ => None
              end
  end.

(** Expansion of a token list; None: out of fuel or an error (unterminated
    call, wrong number of arguments, ## not forming a token). *)
Fixpoint expand (fuel : nat) (l : list htok) : option (list htok) :=
  match fuel with
  | O => None
  | S f =>
    match l with
    | [] => Some []
    | x :: r =>
      let emit := match expand f r with Some o => Some (x :: o) | None => None end in
      match fst x with
      | TId p =>
        if hs_mem p (snd x) then emit else
        match PositiveMap.find p tab with
        | None => emit
        | Some m =>
          match m_params m with
          | None =>
            match subst (m_body m) [] [] [] [] with
            | Some o => expand f (hs_add (hs_union [p] (snd x)) o ++ r)
            | None => None
            end
          | Some ps =>
            match r with
            | (TLp, _) :: r' =>
              match collect r' 0 [] [] with
              | Some (args, h', rest) =>
                if Nat.eqb (length args) (length ps) then
                  match map_opt (expand f) args with
                  | Some eargs =>
                    match subst (m_body m) ps args eargs [] with
                    | Some o => expand f (hs_add (hs_union [p] (hs_inter (snd x) h')) o ++ rest)
                    | None => None
                    end
                  | None => None
                  end
                else None
              | None => None
              end
            | _ => emit
            end
          end
        end
      | _ => emit
      end
    end
  end.

End Expand.

(** Source tokens carry empty hide sets; the result is the plain token list. *)
Definition expand_source (tab : table) (fuel : nat) (l : list tok) : option (list tok) :=
  match expand tab fuel (map bare l) with
  | Some r => Some (map fst r)
  | None => None
  end.
