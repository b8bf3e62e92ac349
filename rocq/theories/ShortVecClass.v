(** short_vec classes and calls of their member functions.

    A class gives its element type, arity, the registers it consists of, the
    alignment its strategy asks for (short_vec.hpp:146-263), its mask_type and
    the bodies of its member functions. *)
From Coq Require Import String ZArith Bool List.
From Verif Require Import ShortVecLang.
Import ListNotations.
Local Open Scope Z_scope.

(** Member functions. *)
Inductive mid :=
| MCtorScalar | MCtorPtr | MCtorRegs | MCtorSqrt | MCtorList
| MAny | MIndex
| MSubEq | MSub | MAddEq | MAdd | MMulEq | MMul | MDivEq | MDiv | MDivEqSqrt | MDivSqrt
| MLt | MLe | MEq | MGt | MGe
| MSqrt | MLoad | MLoadAligned | MStore | MStoreAligned | MStoreNt
| MGather | MScatter | MBlend.

(** mask_type: an integer of so many bits, the class itself, a bare register,
    or absent. *)
Inductive mkind := MInt (bits : nat) | MVec | MReg | MNone.

Record cls := mkCls {
  c_name : string;
  c_kind : ekind;
  c_arity : nat;
  c_nreg : nat;
  c_lanes : nat;
  c_align : Z;
  c_mask : mkind;
  c_meth : mid -> option body;
  c_ctor : body;           (* constructor used by return short_vec(...) *)
  c_print : list item }.

(** Arguments of a call: those of [env], plus the index and the old val. *)
Record call (T : Type) := mkCall {
  k_val : list (list T);
  k_other : list (list T);
  k_mask : list (list T);
  k_maskint : list (option T);
  k_par : list (list T);
  k_arg : T;
  k_i : Z;
  k_mis : Z;
  k_omis : Z;
  k_oalias : bool;
  k_malias : bool }.
Arguments mkCall {T}. Arguments k_val {T}. Arguments k_other {T}.
Arguments k_mask {T}. Arguments k_maskint {T}. Arguments k_par {T}.
Arguments k_arg {T}. Arguments k_i {T}. Arguments k_mis {T}.
Arguments k_omis {T}. Arguments k_oalias {T}. Arguments k_malias {T}.

(** Effect of a call: val afterwards, what is returned, the addresses read
    and the writes in program order. *)
Inductive rvalue (T : Type) :=
| RVoid
| RVal (v : value T)
| RVec (regs : list (list T)).
Arguments RVoid {T}. Arguments RVal {T}. Arguments RVec {T}.

Record result (T : Type) := mkRes {
  r_val : list (list T);
  r_ret : rvalue T;
  r_reads : list (address T);
  r_writes : list (address T * T) }.
Arguments mkRes {T}. Arguments r_val {T}. Arguments r_ret {T}.
Arguments r_reads {T}. Arguments r_writes {T}.

Section Calls.
Context {T : Type} (A : alg T).

Definition mask_bits (c : cls) : nat :=
  match c_mask c with MInt n => n | _ => 0%nat end.

Definition call_env (c : cls) (k : call T) : env T :=
  mkEnv (c_kind c) (mask_bits c) (k_other k) (k_mask k) (k_maskint k) (k_par k)
        (k_arg k) (k_mis k) (k_omis k) (k_oalias k) (k_malias k).

Definition as_reg (v : value T) : option (list T) :=
  match v with VReg l => Some l | _ => None end.

(** "return short_vec<T, N>(r1, ..., rn)": the constructor taking registers
    (for arity 1 the one taking a scalar) run on a fresh object. *)
Definition build (c : cls) (vs : list (value T)) : option (list (list T)) :=
  match omap as_reg vs with
  | None => None
  | Some ps =>
      let e := mkEnv (c_kind c) (mask_bits c) [] [] [] ps
                     (match ps with [[t]] => t | _ => a_undef A end) 0 0 false false in
      match run A (fun _ => None) e (c_ctor c)
                (mkSt (repeat (repeat (a_undef A) (c_lanes c)) (c_nreg c)) [] [] []) with
      | Some (Running s) => Some (st_val s)
      | _ => None
      end
  end.

Definition finish (o : option (outcome T)) : option (result T) :=
  match o with
  | None => None
  | Some (Running s) =>
      Some (mkRes (st_val s) RVoid (rev (st_reads s)) (rev (st_writes s)))
  | Some (Returned s v) =>
      Some (mkRes (st_val s) (RVal v) (rev (st_reads s)) (rev (st_writes s)))
  | Some (ReturnedVec s r) =>
      Some (mkRes (st_val s) (RVec r) (rev (st_reads s)) (rev (st_writes s)))
  end.

(** Run a body as a member function of c. *)
Definition call_body (c : cls) (b : body) (k : call T) : option (result T) :=
  finish (run A (build c) (call_env c k) b
              (mkSt (k_val k) [("i"%string, VInt (k_i k))] [] [])).

(** Call a member function; None if the class has none or the call goes
    wrong (alignment assertion, use of a value of the wrong shape). *)
Definition call_meth (c : cls) (m : mid) (k : call T) : option (result T) :=
  match c_meth c m with
  | Some b => call_body c b k
  | None => None
  end.

(** operator<<(std::ostream&, short_vec): what is sent to the stream. *)
Fixpoint print_items (c : cls) (k : call T) (l : list item) : option (list (string + T)) :=
  match l with
  | [] => Some []
  | PStr s :: r =>
      match print_items c k r with Some o => Some (inl s :: o) | None => None end
  | PVal e :: r =>
      match eval A (call_env c k) (mkSt (k_val k) [] [] []) e with
      | Some (VReg [t], _) =>
          match print_items c k r with Some o => Some (inr t :: o) | None => None end
      | _ => None
      end
  end.

Definition call_print (c : cls) (k : call T) : option (list (string + T)) :=
  print_items c k (c_print c).

End Calls.
