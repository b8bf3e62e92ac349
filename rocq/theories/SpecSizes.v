(** Specification side of C66: the text LIBFLATARRAY_CUSTOM_SIZES and its
    variants should expand to, and what running that text means. *)
From Coq Require Import String Ascii ZArith Bool List PArith.
From Verif Require Import Preproc SpecPreproc SpecRegister.
Import ListNotations.
Local Open Scope Z_scope.

(** ** The text *)

(** Code, or one text per element of the list of sizes number [which]. *)
Inductive size_item :=
| SCode (s : string)
| SEach (which : nat) (s : string).   (* with THE_SIZE for the element *)

Definition size_text (s : string) (e : list tok) : list tok := fill [("THE_SIZE"%string, e)] (tokens s).

Definition render_size (lists : list (list (list tok))) (x : size_item) : list tok :=
  match x with
  | SCode s => tokens s
  | SEach which s => concat (map (size_text s) (nth which lists []))
  end.

(** A member function: template parameters and parameters of integer type, body. *)
Record fn := mkFn { f_name : string; f_tparams : list string; f_params : list string; f_head : string; f_body : list size_item }.

Definition fn_text (lists : list (list (list tok))) (g : fn) : list tok :=
  tokens (f_head g) ++ tokens "{" ++ concat (map (render_size lists) (f_body g)) ++ tokens "}".

Definition class_sizes (lists : list (list (list tok))) (gs : list fn) : list tok :=
  tokens "typedef void has_sizes;" ++ concat (map (fn_text lists) gs).

(** [const] is empty or "const " *)
Definition selector (const : string) (body : list size_item) : fn :=
  mkFn "select_size" [] ["dim_x"; "dim_y"; "dim_z"]%string
    ("template<typename CELL, typename FUNCTOR> void select_size(" ++ const ++ "char *data, FUNCTOR& functor,
      const std::size_t dim_x = 1, const std::size_t dim_y = 1, const std::size_t dim_z = 1)")%string body.

Definition binder (name : string) (tparams params : list string) (const : string) (body : list size_item) : fn :=
  mkFn name tparams params
    ("template<typename CELL, " ++ fold_right (fun p r => "long " ++ p ++ ", " ++ r)%string "typename FUNCTOR> void " tparams ++
     name ++ "(" ++ fold_right (fun p r => "const std::size_t " ++ p ++ ", " ++ r)%string (const ++ "char *data, FUNCTOR& functor) const") params)%string
    body.

Definition throwing (message : string) : size_item :=
  SCode ("; throw std::out_of_range(""" ++ message ++ """);")%string.

(** The cases. *)
Definition functor_call (extents : string) : string :=
  ("LibFlatArray::soa_accessor<CELL, " ++ extents ++ ", 0> accessor(data, 0); functor(accessor); return; }")%string.

Definition case_x : string := "if (dim_x <= THE_SIZE) { bind_size_y<CELL, THE_SIZE>(dim_y, dim_z, data, functor); return; }".
Definition case_y : string := "if (dim_y <= THE_SIZE) { bind_size_z<CELL, DIM_X, THE_SIZE>(dim_z, data, functor); return; }".
Definition case_z : string := ("if (dim_z <= THE_SIZE) {" ++ functor_call "DIM_X, DIM_Y, THE_SIZE")%string.
Definition case_3d : string := ("if (maxDim <= THE_SIZE) {" ++ functor_call "THE_SIZE, THE_SIZE, THE_SIZE")%string.
Definition case_2d : string := ("if (maxDim <= THE_SIZE) {" ++ functor_call "THE_SIZE, THE_SIZE, 1")%string.
Definition case_1d : string := ("if (maxDim <= THE_SIZE) {" ++ functor_call "THE_SIZE, 1, 1")%string.

Definition require_one (dim letter n : string) : size_item :=
  SCode ("if (" ++ dim ++ " != 1) { throw std::out_of_range(""expected " ++ n ++ " grid, but " ++ letter ++ " != 1""); }")%string.

(** LIBFLATARRAY_CUSTOM_SIZES(xs, ys, zs) *)
Definition custom_functions (const : string) : list fn :=
  [ selector const [SCode "bind_size_x<CELL>(dim_x, dim_y, dim_z, data, functor);"];
    binder "bind_size_x" [] ["dim_x"; "dim_y"; "dim_z"]%string const [SEach 0 case_x; throwing "grid dimension X too large"];
    binder "bind_size_y" ["DIM_X"]%string ["dim_y"; "dim_z"]%string const [SEach 1 case_y; throwing "grid dimension Y too large"];
    binder "bind_size_z" ["DIM_X"; "DIM_Y"]%string ["dim_z"]%string const [SEach 2 case_z; throwing "grid dimension Z too large"] ].

(** Non-const and const versions take turns. *)
Fixpoint alternate {A : Type} (l r : list A) : list A :=
  match l, r with
  | x :: l', y :: r' => x :: y :: alternate l' r'
  | _, _ => []
  end.

(** The variants with one list; [extent] computes the extent to look for. *)
Definition uniform (const : string) (checks : list size_item) (extent case : string) : list fn :=
  [ selector const (checks ++ [SCode extent; SEach 0 case; throwing "max grid dimension too large"]) ].

Definition uniform_1d (const : string) : list fn :=
  uniform const [require_one "dim_y" "y" "1D"; require_one "dim_z" "z" "1D"]
    (if String.eqb const "" then "std::size_t maxDim = dim_x;"
     else "using std::max; std::size_t maxDim = max(dim_x, dim_z);") case_1d.
Definition uniform_2d (const : string) : list fn :=
  uniform const [require_one "dim_z" "z" "2D"] "using std::max; std::size_t maxDim = max(dim_x, dim_y);" case_2d.
Definition uniform_3d (const : string) : list fn :=
  uniform const [] "using std::max; std::size_t maxDim = max(dim_x, max(dim_y, dim_z));" case_3d.

(** ** What the text does *)

Inductive outcome :=
| Throws
| Uses (sx sy sz : Z)                                    (* runs the functor on an accessor of these extents *)
| Calls (name : string) (targs args : list Z)
| Stuck.

Definition env_of (vars : list (string * Z)) : cenv := {|
  e_sizeof := fun _ => 0;
  e_var := fun p => fold_right (fun x r => if Pos.eqb p (spell (fst x)) then Some (snd x) else r) None vars;
  e_deref := fun _ => None;
  e_offset := fun _ _ => None |}.

(** a, b, c> *)
Fixpoint targs (vars : list (string * Z)) (fuel : nat) (l : list tok) : option (list Z * list tok) :=
  match fuel with
  | O => None
  | S f =>
    bind (ev (env_of vars) f Sum l) (fun x =>
      match after TComma (snd x) with
      | Some r => bind (targs vars f r) (fun y => Some (fst x :: fst y, snd y))
      | None => bind (after (TPunct ">") (snd x)) (fun r => Some ([fst x], r))
      end)
  end.

(** a, b, data, functor); *)
Fixpoint args (vars : list (string * Z)) (fuel : nat) (l : list tok) : option (list Z * list tok) :=
  match fuel with
  | O => None
  | S f =>
    match after_all (tokens "data, functor);") l with
    | Some r => Some ([], r)
    | None => bind (ev (env_of vars) f Sum l) (fun x => bind (after TComma (snd x)) (fun r =>
                bind (args vars f r) (fun y => Some (fst x :: fst y, snd y))))
    end
  end.

(** max(a, b) *)
Fixpoint maximum (vars : list (string * Z)) (fuel : nat) (l : list tok) : option (Z * list tok) :=
  match fuel with
  | O => None
  | S f =>
    match after_all (tokens "max(") l with
    | Some r =>
      bind (maximum vars f r) (fun x => bind (after TComma (snd x)) (fun s =>
      bind (maximum vars f s) (fun y => bind (after TRp (snd y)) (fun z => Some (Z.max (fst x) (fst y), z)))))
    | None => ev (env_of vars) f Sum l
    end
  end.

(** The text up to the closing brace and what comes after it. *)
Fixpoint block (l : list tok) (d : nat) : option (list tok * list tok) :=
  match l with
  | [] => None
  | t :: r =>
    if same_tok t (TPunct "}") then
      match d with
      | O => Some ([], r)
      | S d' => bind (block r d') (fun x => Some (t :: fst x, snd x))
      end
    else bind (block r (if same_tok t (TPunct "{") then S d else d)) (fun x => Some (t :: fst x, snd x))
  end.

(** variable <= e or variable != e, up to the closing parenthesis *)
Definition condition (vars : list (string * Z)) (fuel : nat) (l : list tok) : option (bool * list tok) :=
  match l with
  | TId p :: r =>
    bind (e_var (env_of vars) p) (fun v =>
    bind (match after_all (tokens "<=") r with Some s => Some (true, s) | None =>
          match after_all (tokens "!=") r with Some s => Some (false, s) | None => None end end) (fun o =>
    bind (ev (env_of vars) fuel Sum (snd o)) (fun x =>
    bind (after TRp (snd x)) (fun s =>
    Some (if fst o then v <=? fst x else negb (v =? fst x), s)))))
  | _ => None
  end.

Definition or_stuck (o : option outcome) : outcome := match o with Some x => x | None => Stuck end.

(** Calls of the functions bind_size_*, with or without a return after them. *)
Definition binders : list string := ["bind_size_x"; "bind_size_y"; "bind_size_z"]%string.

(** The end of a case: the call or the construction of the accessor. *)
Definition action (vars : list (string * Z)) (fuel : nat) (l : list tok) : outcome :=
  or_stuck (
    match after_all (tokens "LibFlatArray::soa_accessor<CELL, ") l with
    | Some r =>
      bind (targs vars fuel r) (fun x =>
      bind (after_all (tokens "accessor(data, 0); functor(accessor); return;") (snd x)) (fun _ =>
        match fst x with [sx; sy; sz; 0] => Some (Uses sx sy sz) | _ => None end))
    | None =>
      match l with
      | TId p :: r =>
        bind (find (fun n => Pos.eqb p (spell n)) binders) (fun name =>
        bind (after_all (tokens "<CELL") r) (fun s =>
        bind (match after TComma s with Some t => targs vars fuel t
              | None => bind (after (TPunct ">") s) (fun t => Some ([], t)) end) (fun x =>
        bind (after TLp (snd x)) (fun t =>
        bind (args vars fuel t) (fun y =>
        match after_all (tokens "return;") (snd y), snd y with
        | Some _, _ | None, [] => Some (Calls name (fst x) (fst y))
        | _, _ => None
        end)))))
      | _ => None
      end
    end).

(** One statement; [rest] runs what follows it. *)
Definition step (rest : list (string * Z) -> list tok -> outcome) (vars : list (string * Z)) (fuel : nat) (l : list tok) : outcome :=
  match after_all (tokens "if (") l with
  | Some r =>
    or_stuck (bind (condition vars fuel r) (fun x => bind (after (TPunct "{") (snd x)) (fun s =>
              bind (block s 0) (fun y => Some (if fst x then rest vars (fst y ++ snd y) else rest vars (snd y))))))
  | None =>
  match after (TPunct ";") l with
  | Some r => rest vars r
  | None =>
  match after (word "throw") l with
  | Some _ => Throws
  | None =>
  match after_all (tokens "using std::max;") l with
  | Some r => rest vars r
  | None =>
  match after_all (tokens "std::size_t maxDim =") l with
  | Some r => or_stuck (bind (maximum vars fuel r) (fun x => bind (after (TPunct ";") (snd x)) (fun s =>
                Some (rest (("maxDim"%string, fst x) :: vars) s))))
  | None => action vars fuel l
  end end end end end.

(** [depth] bounds the depth of expressions, [fuel] the number of statements. *)
Fixpoint run (depth fuel : nat) (vars : list (string * Z)) (l : list tok) : outcome :=
  match fuel with
  | O => Stuck
  | S f => step (run depth f) vars depth l
  end.

(** Calling a function of the class, and the functions it calls. *)
Fixpoint perform (lists : list (list (list tok))) (gs : list fn) (calls depth fuel : nat) (name : string) (tas las : list Z) : outcome :=
  match calls with
  | O => Stuck
  | S c =>
    match find (fun g => String.eqb (f_name g) name) gs with
    | None => Stuck
    | Some g =>
      match run depth fuel (combine (f_tparams g) tas ++ combine (f_params g) las) (concat (map (render_size lists) (f_body g))) with
      | Calls n t a => perform lists gs c depth fuel n t a
      | o => o
      end
    end
  end.

(** select_size(data, functor, x, y, z) ends with [o]: for all large bounds. *)
Definition selects (lists : list (list (list tok))) (gs : list fn) (x y z : Z) (o : outcome) : Prop :=
  exists n, forall calls depth fuel, (n <= calls)%nat -> (n <= depth)%nat -> (n <= fuel)%nat ->
  perform lists gs calls depth fuel "select_size" [] [x; y; z] = o.

(** ** What it should do *)

(** The first size in the list that is large enough. *)
Definition first_fit (dim : Z) (sizes : list Z) : option Z := find (fun s => dim <=? s) sizes.

Definition sizes_of (l : list spelling) : list (list tok) := map (fun p => [TNum p]) l.
Definition values (l : list spelling) : list Z := map literal l.

(** What the extents of the accessor are, or that the call throws. *)
Definition fitted (K : Z -> outcome) (otherwise : outcome) (o : option Z) : outcome :=
  match o with Some v => K v | None => otherwise end.

(** ** The lists of the default sizes (include/libflatarray/api_traits.hpp:67-125) *)

Definition default_1d_text : string :=
  "LIBFLATARRAY_CUSTOM_SIZES_1D_UNIFORM(
            (32)(64)(128)(192)(256)(512)(544)(1056)(2080)(4128)(8224)(16416)(32800)(65568)(131104)(262176)(524320)(1048608)(2097184)(4194336)(8388640)(16777248)(33554464)(67108896)(134217760)(268435488)(536870944)(1073741856))".
Definition default_2d_text : string :=
  "LIBFLATARRAY_CUSTOM_SIZES(
            (32)(64)(128)(192)(256)(512)(544)(1056)(2080)(4128)(8224)(16416)(32800),
            (32)(64)(128)(192)(256)(512)(544)(1056)(2080)(4128)(8224)(16416)(32800),
            (1))".
Definition default_2d_uniform_text : string :=
  "LIBFLATARRAY_CUSTOM_SIZES_2D_UNIFORM(
            (32)(64)(128)(192)(256)(512)(544)(1056)(2080)(4128)(8224)(16416)(32800))".
Definition default_3d_text : string :=
  "LIBFLATARRAY_CUSTOM_SIZES(
            (32)(64)(128)(136)(192)(200)(256)(264)(512)(520)(1032),
            (32)(64)(128)(136)(192)(200)(256)(264)(512)(520)(1032),
            (32)(64)(128)(136)(192)(200)(256)(264)(512)(520)(1032))".
Definition default_3d_uniform_text : string :=
  "LIBFLATARRAY_CUSTOM_SIZES_3D_UNIFORM(
            (32)(64)(128)(136)(192)(200)(256)(264)(512)(520)(1032))".
