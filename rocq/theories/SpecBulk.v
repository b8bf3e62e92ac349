(** Specification side of C73: what running the statements of the generated bulk
    functions means.  The statements are token lists (SpecRegister.v); a run yields the
    element accesses in program order.

    The language: blocks, counting for loops, declarations of pointer variables,
    assignments, placement new, and calls of generic_destruct, std::copy and the
    classes of detail/soa_array_member_copy_helper.hpp.  Integers are unbounded. *)
From Coq Require Import String Ascii ZArith Bool List PArith.
From Verif Require Import Base Layout Mem Preproc SpecPreproc SpecRegister.
Import ListNotations.
Local Open Scope Z_scope.

(** ** Accesses *)

(** The cell is the object operator= copies from and operator>> copies to: for
    each member a list of elements. *)
Inductive event :=
| Do (op : mop)                                            (* within the memory *)
| FromCell (p : ptr) (s : Z) (cls : bool) (j k : nat)      (* *p = element k of member j of the cell *)
| ToCell (j k : nat) (p : ptr) (s : Z) (cls : bool).       (* the other direction *)

Fixpoint put {A : Type} (l : list A) (k : nat) (v : A) : option (list A) :=
  match l, k with
  | [], _ => None
  | _ :: r, O => Some (v :: r)
  | x :: r, S k' => match put r k' v with Some r' => Some (x :: r') | None => None end
  end.

Definition play1 (e : event) (x : mem * list (list elem)) : result (mem * list (list elem)) :=
  let '(m, c) := x in
  match e with
  | Do op => rbind (exec1 m op) (fun m' => Val (m', c))
  | FromCell p s cls j k =>
    match nth_error c j with
    | Some l => match nth_error l k with
                | Some v => rbind (exec1 m (Assign p s cls v)) (fun m' => Val (m', c))
                | None => Fault OutOfBounds
                end
    | None => Fault OutOfBounds
    end
  | ToCell j k p s cls =>
    rbind (read_elem m p s cls) (fun v =>
      match nth_error c j with
      | Some l => match put l k v with
                  | Some l' => match put c j l' with Some c' => Val (m, c') | None => Fault OutOfBounds end
                  | None => Fault OutOfBounds
                  end
      | None => Fault OutOfBounds
      end)
  end.

Fixpoint play (l : list event) (x : mem * list (list elem)) : result (mem * list (list elem)) :=
  match l with
  | [] => Val x
  | e :: r => rbind (play1 e x) (play r)
  end.

(** ** Scanning *)

Definition punct (c : ascii) (t : tok) : bool := match t with TPunct d => Ascii.eqb c d | _ => false end.
Definition opens (t : tok) : bool := match t with TLp => true | TPunct c => Ascii.eqb c "{" | _ => false end.
Definition closes (t : tok) : bool := match t with TRp => true | TPunct c => Ascii.eqb c "}" | _ => false end.

(** The text before and after the first token with [stop] outside of parentheses
    and braces. *)
Fixpoint scan (stop : tok -> bool) (l : list tok) (d : nat) : option (list tok * list tok) :=
  match l with
  | [] => None
  | t :: r =>
    if Nat.eqb d 0 && stop t then Some ([], r) else
    bind (if opens t then Some (S d) else if closes t then match d with O => None | S d' => Some d' end else Some d)
      (fun d' => bind (scan stop r d') (fun x => Some (t :: fst x, snd x)))
  end.

(** The text of a template argument: up to the matching >, parentheses aside. *)
Fixpoint angle (l : list tok) (p a : nat) : option (list tok * list tok) :=
  match l with
  | [] => None
  | t :: r =>
    if Nat.eqb p 0 && Nat.eqb a 0 && punct ">" t then Some ([], r) else
    bind (match t with
          | TLp => Some (S p, a)
          | TRp => match p with O => None | S p' => Some (p', a) end
          | TPunct c =>
            if Nat.eqb p 0 then
              if Ascii.eqb c "<" then Some (p, S a) else if Ascii.eqb c ">" then Some (p, pred a) else Some (p, a)
            else Some (p, a)
          | _ => Some (p, a)
          end)
      (fun q => bind (angle r (fst q) (snd q)) (fun x => Some (t :: fst x, snd x)))
  end.

Fixpoint butlast (l : list tok) : option (list tok * tok) :=
  match l with
  | [] => None
  | [t] => Some ([], t)
  | t :: r => bind (butlast r) (fun x => Some (t :: fst x, snd x))
  end.

Fixpoint same_text (l r : list tok) : bool :=
  match l, r with
  | [], [] => true
  | t :: l', u :: r' => if same_tok t u then same_text l' r' else false
  | _, _ => false
  end.

(** ** The surroundings of a statement *)

Record ty := mkTy { t_size : Z; t_class : bool; t_default : elem }.

Definition same_ty (a b : ty) : bool := Z.eqb (t_size a) (t_size b) && Bool.eqb (t_class a) (t_class b).

(** Member number [d_no] of the cell class and the member functions of the accessor
    with its name: name() for a scalar member; name<ARRAY_INDEX>() and name() for an
    array member.  [d_address] is the address in the text of the function. *)
Record decl := mkDecl { d_name : spelling; d_no : nat; d_type : list tok; d_array : bool; d_address : list tok }.

(** An accessor over the memory block [o_block]; in its functions the names have
    the values [o_env]. *)
Record object := mkObj { o_env : cenv; o_block : nat; o_decls : list decl }.

Record scope := mkScope {
  s_env : cenv;                              (* integers *)
  s_type : list tok -> option ty;            (* element types *)
  s_this : object;
  s_objects : list (spelling * object);      (* other accessors *)
  s_pointers : list (spelling * (ptr * option ty));   (* pointer variables; None: char *)
  s_cell : option spelling }.                (* the variable of the class type *)

Definition with_var (env : cenv) (x : spelling) (v : Z) : cenv :=
  mkEnv (e_sizeof env) (fun y => if Pos.eqb y x then Some v else e_var env y) (e_deref env) (e_offset env).

Definition with_int (s : scope) (x : spelling) (v : Z) : scope :=
  mkScope (with_var (s_env s) x v) (s_type s) (s_this s) (s_objects s) (s_pointers s) (s_cell s).

Definition with_pointer (s : scope) (x : spelling) (v : ptr * option ty) : scope :=
  mkScope (s_env s) (s_type s) (s_this s) (s_objects s) ((x, v) :: s_pointers s) (s_cell s).

Fixpoint assoc {A : Type} (l : list (spelling * A)) (x : spelling) : option A :=
  match l with
  | [] => None
  | (y, v) :: r => if Pos.eqb x y then Some v else assoc r x
  end.

Fixpoint member_named (l : list decl) (x : spelling) : option decl :=
  match l with
  | [] => None
  | d :: r => if Pos.eqb x (d_name d) then Some d else member_named r x
  end.

(** ** Expressions with pointers *)

Inductive value :=
| Pointer (p : ptr) (t : option ty)
| Reference (p : ptr) (t : ty) (n : Z)   (* class reference: data, SIZE *)
| Element (p : ptr) (t : ty)
| OfCell (j : nat).                      (* cell.member *)

Definition address_of (v : value) : option value :=
  match v with Element p t => Some (Pointer p (Some t)) | _ => None end.

Definition moved (v : value) (n : Z) : option value :=
  match v with
  | Pointer p (Some t) => Some (Pointer (padd p (n * t_size t)) (Some t))
  | Pointer p None => Some (Pointer (padd p n) None)
  | _ => None
  end.

(** reference::operator[]: detail/soa_array_member_copy_helper.hpp:163-166. *)
Definition subscript (v : value) (n : Z) : option value :=
  match v with
  | Pointer p (Some t) => Some (Element (padd p (n * t_size t)) t)
  | Reference p t size => Some (Element (padd p (n * size * t_size t)) t)
  | _ => None
  end.

Definition converted (v : value) (t : ty) : option value :=
  match v with Pointer p _ => Some (Pointer p (Some t)) | _ => None end.

(** A call of a member function of an accessor. *)
Definition called (f : nat) (types : list tok -> option ty) (o : object) (x : spelling) (arg : option Z) : option value :=
  bind (member_named (o_decls o) x) (fun d =>
  bind (types (d_type d)) (fun t =>
  let at_index k := bind (ev (with_var (o_env o) (spell "ARRAY_INDEX") k) f Sum (d_address d)) (fun v =>
    match snd v with [] => Some (mkPtr (o_block o) (fst v)) | _ => None end) in
  match d_array d, arg with
  | false, None => bind (at_index 0) (fun p => Some (Element p t))
  | true, Some k => bind (at_index k) (fun p => Some (Element p t))
  | true, None => bind (at_index 0) (fun p =>
      bind (e_var (o_env o) (spell "DIM_PROD")) (fun n => Some (Reference p t n)))
  | false, Some _ => None
  end)).

(** [T*] or [const T*] *)
Definition pointer_type (types : list tok -> option ty) (l : list tok) : option ty :=
  bind (butlast l) (fun x =>
    if punct "*" (snd x) then
      types (match fst x with
             | TId p :: r => if Pos.eqb p (spell "const") then r else fst x
             | _ => fst x
             end)
    else None).

Inductive plevel := PSum | PUnary | PPostfix | PPrimary.

Section Pointers.
Variable s : scope.

Fixpoint sums (f : nat) (v : value) (l : list tok) : option (value * list tok) :=
  match f with
  | O => None
  | S f' =>
    match after (TPunct "+") l with
    | None => Some (v, l)
    | Some r => bind (ev (s_env s) f' Product r) (fun x => bind (moved v (fst x)) (fun w => sums f' w (snd x)))
    end
  end.

Fixpoint subscripts (f : nat) (v : value) (l : list tok) : option (value * list tok) :=
  match f with
  | O => None
  | S f' =>
    match after (TPunct "[") l with
    | None => Some (v, l)
    | Some r =>
      bind (ev (s_env s) f' Sum r) (fun x => bind (after (TPunct "]") (snd x)) (fun r =>
      bind (subscript v (fst x)) (fun w => subscripts f' w r)))
    end
  end.

(** name() or name<k>() *)
Definition call_of (f : nat) (o : object) (l : list tok) : option (value * list tok) :=
  match l with
  | TId x :: r =>
    match after (TPunct "<") r with
    | None => bind (after_all [TLp; TRp] r) (fun r => bind (called f (s_type s) o x None) (fun v => Some (v, r)))
    | Some r =>
      bind (ev (s_env s) f Sum r) (fun k => bind (after_all [TPunct ">"; TLp; TRp] (snd k)) (fun r =>
      bind (called f (s_type s) o x (Some (fst k))) (fun v => Some (v, r))))
    end
  | _ => None
  end.

Fixpoint pv (f : nat) (k : plevel) (l : list tok) : option (value * list tok) :=
  match f with
  | O => None
  | S f' =>
    match k with
    | PSum => bind (pv f' PUnary l) (fun x => sums f' (fst x) (snd x))
    | PUnary =>
      match after (TPunct "&") l with
      | Some r => bind (pv f' PUnary r) (fun x => bind (address_of (fst x)) (fun v => Some (v, snd x)))
      | None => pv f' PPostfix l
      end
    | PPostfix => bind (pv f' PPrimary l) (fun x => subscripts f' (fst x) (snd x))
    | PPrimary =>
      match l with
      | TLp :: r =>
        bind (scan is_rp r 0) (fun x =>
          match pointer_type (s_type s) (fst x) with
          | Some t => bind (pv f' PUnary (snd x)) (fun y => bind (converted (fst y) t) (fun v => Some (v, snd y)))
          | None => bind (pv f' PSum (fst x)) (fun y => match snd y with [] => Some (fst y, snd x) | _ => None end)
          end)
      | TId x :: r =>
        if Pos.eqb x (spell "this") then bind (after_all [TPunct "-"; TPunct ">"] r) (call_of f' (s_this s)) else
        match assoc (s_pointers s) x with
        | Some (p, t) => Some (Pointer p t, r)
        | None =>
          match assoc (s_objects s) x with
          | Some o => bind (after (TPunct ".") r) (call_of f' o)
          | None =>
            if match s_cell s with Some y => Pos.eqb x y | None => false end then
              bind (after (TPunct ".") r) (fun r =>
                match r with
                | TId y :: r => bind (member_named (o_decls (s_this s)) y) (fun d =>
                    if d_array d then None else Some (OfCell (d_no d), r))
                | _ => None
                end)
            else call_of f' (s_this s) l
          end
        end
      | _ => None
      end
    end
  end.

(** The expression is the whole text. *)
Definition whole {A : Type} (o : option (A * list tok)) : option A :=
  bind o (fun x => match snd x with [] => Some (fst x) | _ => None end).

End Pointers.

(** ** Statements *)

(** dst = src *)
Definition stored (dst src : value) : option (list event) :=
  match dst, src with
  | Element p t, OfCell j => Some [FromCell p (t_size t) (t_class t) j 0]
  | OfCell j, Element p t => Some [ToCell j 0 p (t_size t) (t_class t)]
  | Element p t, Element q u => if same_ty t u then Some [Do (Copy p q (t_size t) (t_class t))] else None
  | _, _ => None
  end.

Definition element_copy (t : ty) (p : ptr) (i : Z) (q : ptr) (j : Z) : event :=
  Do (Copy (padd p (i * t_size t)) (padd q (j * t_size t)) (t_size t) (t_class t)).

(** std::copy(first, last, result) *)
Definition std_copy (first last result : value) : option (list event) :=
  match first, last, result with
  | Pointer p (Some t), Pointer q (Some u), Pointer r (Some v) =>
    if Nat.eqb (pb p) (pb q) && same_ty t u && same_ty t v && (0 <? t_size t) then
      Some (map (fun i => element_copy t r i p i) (zseq ((po q - po p) / t_size t)))
    else None
  | _, _, _ => None
  end.

(** detail/soa_array_member_copy_helper.hpp:202-234 and 236-268: the functors
    copy_in<n> and copy_out<n> for member [j]. *)
Fixpoint copy_in (size : Z) (n : nat) (j : nat) (data : ptr) (t : ty) : list event :=
  match n with
  | O => []
  | S n' => copy_in size n' j data t ++
            [FromCell (padd data (size * Z.of_nat n' * t_size t)) (t_size t) (t_class t) j n']
  end.

Fixpoint copy_out (size : Z) (n : nat) (j : nat) (data : ptr) (t : ty) : list event :=
  match n with
  | O => []
  | S n' => copy_out size n' j data t ++
            [ToCell j n' (padd data (size * Z.of_nat n' * t_size t)) (t_size t) (t_class t)]
  end.

(** detail/soa_array_member_copy_helper.hpp:42-89 and 91-138. *)
Fixpoint copy_array_in (size : Z) (n : nat) (source data : ptr) (t : ty) (count offset stride : Z) : list event :=
  match n with
  | O => []
  | S n' => copy_array_in size n' source data t count offset stride ++
            map (fun i => element_copy t data (size * Z.of_nat n' + i) source (stride * Z.of_nat n' + offset + i)) (zseq count)
  end.

Fixpoint copy_array_out (size : Z) (n : nat) (target data : ptr) (t : ty) (count offset stride : Z) : list event :=
  match n with
  | O => []
  | S n' => copy_array_out size n' target data t count offset stride ++
            map (fun i => element_copy t target (stride * Z.of_nat n' + offset + i) data (size * Z.of_nat n' + i)) (zseq count)
  end.

Definition typed_pointer (t : ty) (v : value) : option ptr :=
  match v with Pointer p (Some u) => if same_ty t u then Some p else None | _ => None end.

Section Statements.
Variable class : list tok.

(** Arguments of soa_array_member_copy_helper<SIZE>::… *)
Definition template_int (s : scope) (f : nat) (l : list tok) : option (Z * list tok) :=
  bind (angle l 0 0) (fun x => bind (whole (ev (s_env s) f Sum (fst x))) (fun v => Some (v, snd x))).

Definition template_type (s : scope) (l : list tok) : option (ty * list tok) :=
  bind (angle l 0 0) (fun x => bind (s_type s (fst x)) (fun t => Some (t, snd x))).

(** inner1<class>::template inner2<T>::template inner3<n>::template
    inner4<&class::member>::template copy_in<n>()(cell, data) or copy_out *)
Definition cell_helper (s : scope) (f : nat) (size : Z) (l : list tok) : option (list event) :=
  bind (angle l 0 0) (fun c => if negb (same_text (fst c) class) then None else
  bind (after_all (tokens "::template inner2<") (snd c)) (fun r =>
  bind (template_type s r) (fun t =>
  bind (after_all (tokens "::template inner3<") (snd t)) (fun r =>
  bind (template_int s f r) (fun n =>
  bind (after_all (tokens "::template inner4<&") (snd n)) (fun r =>
  bind (angle r 0 0) (fun m =>
  bind (after_all (class ++ tokens "::") (fst m)) (fun name =>
  bind (match name with [TId x] => member_named (o_decls (s_this s)) x | _ => None end) (fun d =>
  if negb (d_array d) then None else
  bind (after_all (tokens "::template") (snd m)) (fun r =>
  match r with
  | TId what :: r =>
    bind (after (TPunct "<") r) (fun r =>
    bind (template_int s f r) (fun count =>
    bind (match s_cell s with Some x => after_all [TLp; TRp; TLp; TId x; TComma] (snd count) | None => None end) (fun r =>
    bind (pv s f PSum r) (fun data =>
    bind (typed_pointer (fst t) (fst data)) (fun p =>
    match snd data with
    | [TRp] =>
      if Pos.eqb what (spell "copy_in") then Some (copy_in size (Z.to_nat (fst count)) (d_no d) p (fst t)) else
      if Pos.eqb what (spell "copy_out") then Some (copy_out size (Z.to_nat (fst count)) (d_no d) p (fst t)) else None
    | _ => None
    end)))))
  | _ => None
  end)))))))))).

(** inner_a<T>::template copy_array_in<n>()(source, data, count, offset, stride) or copy_array_out *)
Definition array_helper (s : scope) (f : nat) (size : Z) (l : list tok) : option (list event) :=
  bind (template_type s l) (fun t =>
  bind (after_all (tokens "::template") (snd t)) (fun r =>
  match r with
  | TId what :: r =>
    bind (after (TPunct "<") r) (fun r =>
    bind (template_int s f r) (fun n =>
    bind (after_all [TLp; TRp; TLp] (snd n)) (fun r =>
    bind (pv s f PSum r) (fun a =>
    bind (after TComma (snd a)) (fun r =>
    bind (pv s f PSum r) (fun b =>
    bind (after TComma (snd b)) (fun r =>
    bind (ev (s_env s) f Sum r) (fun count =>
    bind (after TComma (snd count)) (fun r =>
    bind (ev (s_env s) f Sum r) (fun offset =>
    bind (after TComma (snd offset)) (fun r =>
    bind (ev (s_env s) f Sum r) (fun stride =>
    bind (typed_pointer (fst t) (fst a)) (fun p =>
    bind (typed_pointer (fst t) (fst b)) (fun q =>
    match snd stride with
    | [TRp] =>
      if Pos.eqb what (spell "copy_array_in") then
        Some (copy_array_in size (Z.to_nat (fst n)) p q (fst t) (fst count) (fst offset) (fst stride)) else
      if Pos.eqb what (spell "copy_array_out") then
        Some (copy_array_out size (Z.to_nat (fst n)) p q (fst t) (fst count) (fst offset) (fst stride)) else None
    | _ => None
    end))))))))))))))
  | _ => None
  end)).

(** What follows soa_array_member_copy_helper< *)
Definition helper_call (s : scope) (f : nat) (l : list tok) : option (list event) :=
  bind (template_int s f l) (fun size =>
  match after_all (tokens "::template inner1<") (snd size) with
  | Some r => cell_helper s f (fst size) r
  | None => bind (after_all (tokens "::template inner_a<") (snd size)) (array_helper s f (fst size))
  end).

(** T *x *)
Definition declared (s : scope) (l : list tok) : option (spelling * ty) :=
  bind (butlast l) (fun x =>
    match snd x with
    | TId p => bind (butlast (fst x)) (fun y =>
        if punct "*" (snd y) then bind (s_type s (fst y)) (fun t => Some (p, t)) else None)
    | _ => None
    end).

(** What follows the word new: (pointer) T() *)
Definition placement_new (s : scope) (f : nat) (l : list tok) : option (list event) :=
  bind (after TLp l) (fun r => bind (scan is_rp r 0) (fun x =>
  bind (whole (pv s f PSum (fst x))) (fun v =>
  bind (butlast (snd x)) (fun y => bind (butlast (fst y)) (fun z =>
  match snd y, snd z with
  | TRp, TLp => bind (s_type s (fst z)) (fun t => bind (typed_pointer t v) (fun p =>
      Some [Do (Construct p (t_size t) (t_class t) (t_default t))]))
  | _, _ => None
  end))))).

(** ::flat_array::generic_destruct(pointer) *)
Definition destruct_call (s : scope) (f : nat) (l : list tok) : option (list event) :=
  bind (after_all (tokens "::flat_array::generic_destruct(") l) (fun r =>
  bind (pv s f PSum r) (fun v =>
  match fst v, snd v with
  | Pointer p (Some t), [TRp] => Some [Do (Destroy p (t_size t) (t_class t))]
  | _, _ => None
  end)).

(** ::copy(first, last, result) *)
Definition copy_call (s : scope) (f : nat) (l : list tok) : option (list event) :=
  bind (after_all (tokens "::copy(") l) (fun r =>
  bind (pv s f PSum r) (fun a => bind (after TComma (snd a)) (fun r =>
  bind (pv s f PSum r) (fun b => bind (after TComma (snd b)) (fun r =>
  bind (pv s f PSum r) (fun c =>
  match snd c with [TRp] => std_copy (fst a) (fst b) (fst c) | _ => None end)))))).

(** A statement without = that starts with the word [x]. *)
Definition call_statement (s : scope) (f : nat) (x : spelling) (l : list tok) : option (list event) :=
  if Pos.eqb x (spell "new") then placement_new s f l else
  if Pos.eqb x (spell "detail") then destruct_call s f l else
  if Pos.eqb x (spell "std") then copy_call s f l else
  if Pos.eqb x (spell "typename") then
    bind (after_all (tokens "LibFlatArray::detail::soa_array_member_copy_helper<") l) (helper_call s f)
  else None.

(** A statement that ends with a semicolon; also the scope of what follows. *)
Definition simple (s : scope) (f : nat) (l : list tok) : option (list event * scope) :=
  match scan (punct "=") l 0 with
  | Some (lhs, rhs) =>
    bind (whole (pv s f PSum rhs)) (fun v =>
      match declared s lhs with
      | Some (x, t) => bind (typed_pointer t v) (fun p => Some ([], with_pointer s x (p, Some t)))
      | None => bind (whole (pv s f PUnary lhs)) (fun w => bind (stored w v) (fun e => Some (e, s)))
      end)
  | None =>
    match l with
    | TId x :: r => bind (call_statement s f x r) (fun e => Some (e, s))
    | _ => None
    end
  end.

(** for (TYPE x = 0; x < n; ++x): the variable and the text from n on. *)
Definition counting (l : list tok) : option (spelling * list tok) :=
  bind (match after (word "int") l with Some r => Some r | None => after_all (tokens "std::size_t") l end) (fun r =>
  match r with
  | TId x :: r =>
    bind (after_all (tokens "= 0;") r) (fun r => bind (after_all [TId x; TPunct "<"] r) (fun r => Some (x, r)))
  | _ => None
  end).

(** Is there a round with the value [k] of the variable? *)
Definition goes_on (s : scope) (f : nat) (h : spelling * list tok) (k : Z) : option bool :=
  bind (ev (s_env (with_int s (fst h) k)) f Sum (snd h)) (fun n =>
    if same_text (snd n) (tokens "; ++" ++ [TId (fst h)]) then Some (k <? fst n) else None).

(** The rounds from the value [k] on. *)
Fixpoint loop (g : nat) (more : Z -> option bool) (round : Z -> option (list event)) (k : Z) : option (list event) :=
  match g with
  | O => None
  | S g' =>
    bind (more k) (fun b => if b then bind (round k) (fun x => bind (loop g' more round (k + 1)) (fun y => Some (x ++ y))) else Some [])
  end.

Fixpoint run (f : nat) (s : scope) (l : list tok) : option (list event) :=
  match f with
  | O => None
  | S f' =>
    match l with
    | [] => Some []
    | t :: r =>
      if punct ";" t then run f' s r else
      if punct "{" t then
        bind (scan (punct "}") r 0) (fun x =>
        bind (run f' s (fst x)) (fun a => bind (run f' s (snd x)) (fun b => Some (a ++ b))))
      else if same_tok t (word "for") then
        bind (after TLp r) (fun r => bind (scan is_rp r 0) (fun x =>
        bind (counting (fst x)) (fun h =>
        bind (after (TPunct "{") (snd x)) (fun r => bind (scan (punct "}") r 0) (fun y =>
        bind (loop f' (goes_on s f' h) (fun k => run f' (with_int s (fst h) k) (fst y)) 0) (fun a =>
        bind (run f' s (snd y)) (fun b => Some (a ++ b))))))))
      else
        bind (scan (punct ";") l 0) (fun x =>
        bind (simple s f' (fst x)) (fun y =>
        bind (run f' (snd y) (snd x)) (fun b => Some (fst y ++ b))))
    end
  end.

(** Running the text yields the accesses. *)
Definition performs (s : scope) (l : list tok) (es : list event) : Prop := exists f, run f s l = Some es.

End Statements.

(** ** The bulk functions of a registered class *)

Definition name_of (m : soa_member) : spelling := match sm_name m with [TId p] => p | _ => xH end.

(** The member functions that accessor_functions declares. *)
Definition function_of (index : string) (c : list tok) (i : nat) (m : soa_member) : decl :=
  mkDecl (name_of m) i (sm_type m) (is_array m) (text_for (address_text index) c i m).

Fixpoint functions_from (index : string) (c : list tok) (i : nat) (ms : list soa_member) : list decl :=
  match ms with
  | [] => []
  | m :: r => function_of index c i m :: functions_from index c (S i) r
  end.

(** The text between the braces of a function. *)
Definition body (t : template) (c : list tok) (ms : list soa_member) : list tok :=
  members_from 0 (text_for t c) ms ++ tokens ";".

(** The accessor with the class scope [E] over the buffer at [d]. *)
Definition accessor_object (E : cenv) (index : string) (d : ptr) (c : list tok) (ms : list soa_member) : object :=
  mkObj E (pb d) (functions_from index c 0 ms).

Fixpoint with_vars (E : cenv) (l : list (string * Z)) : cenv :=
  match l with
  | [] => E
  | (x, v) :: r => with_var (with_vars E r) (spell x) v
  end.

(** The scope of a function: the class scope and the parameters. *)
Definition function_scope (E : cenv) (types : list tok -> option ty) (this : object) (ints : list (string * Z))
    (objects : list (string * object)) (pointers : list (string * ptr)) (cell : bool) : scope :=
  mkScope (with_vars E ints) types this (map (fun x => (spell (fst x), snd x)) objects)
    (map (fun x => (spell (fst x), (snd x, None))) pointers) (if cell then Some (spell "cell") else None).

(** Texts that can be types, arities or the class: balanced parentheses and angle
    brackets, none of { } ; = *)
Fixpoint angles (l : list tok) (p a : nat) : bool :=
  match l with
  | [] => Nat.eqb p 0 && Nat.eqb a 0
  | TLp :: r => angles r (S p) a
  | TRp :: r => match p with O => false | S p' => angles r p' a end
  | TPunct c :: r =>
    if Nat.eqb p 0 then
      if Ascii.eqb c "<" then angles r p (S a) else
      if Ascii.eqb c ">" then match a with O => false | S a' => angles r p a' end else angles r p a
    else angles r p a
  | _ :: r => angles r p a
  end.

Definition no_statement (l : list tok) : Prop :=
  Forall (fun t => punct "{" t = false /\ punct "}" t = false /\ punct ";" t = false /\ punct "=" t = false) l.

Definition type_like (l : list tok) : Prop := balanced l /\ no_statement l /\ angles l 0 0 = true.

(** The text does not start with one of the words or with [. *)
Definition starts_otherwise (ws : list string) (l : list tok) : Prop :=
  match l with
  | [] => False
  | TId p :: _ => ~ In p (map spell ws)
  | _ => True
  end.

(** The names a member function or a statement adds to the class scope. *)
Definition local_names : list string := ["i"; "count"; "offset"; "stride"; "ARRAY_INDEX"]%string.

Definition agrees (E F : cenv) : Prop :=
  (forall l, e_sizeof F l = e_sizeof E l) /\ (forall x, e_deref F x = e_deref E x) /\
  (forall l k, e_offset F l k = e_offset E l k) /\
  (forall x, ~ In x (map spell local_names) -> e_var F x = e_var E x).

(** A member of which the layout model has the entry [lm]: its name is an identifier,
    its arity does not depend on local names. *)
Definition usable (E : cenv) (types : list tok -> option ty) (m : soa_member) (lm : Layout.member) : Prop :=
  (exists p, sm_name m = [TId p] /\ ~ In p (map spell ["this"; "for"]%string)) /\
  type_like (sm_type m) /\ starts_otherwise ["const"; "for"]%string (sm_type m) /\
  types (sm_type m) = Some (mkTy (Layout.m_size lm) (Layout.m_class lm) (Layout.m_default lm)) /\
  e_sizeof E (sm_type m) = Layout.m_size lm /\
  match sm_arity m, Layout.m_array lm with
  | None, None => True
  | Some a, Some n => type_like a /\ forall F, agrees E F -> primary_value F a (Z.of_nat n)
  | _, _ => False
  end.

(** A cell with one value per element of the members. *)
Definition shaped (lms : list Layout.member) (c : list (list elem)) : Prop :=
  Forall2 (fun lm vs => length vs = Layout.m_count lm) lms c.
