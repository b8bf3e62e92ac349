(** Specification side of C63 to C65: the C++ text one would write by hand for a
    registered class, and the value of the constant expressions in it.  Uses the
    tokens of Preproc.v, not its expansion. *)
From Coq Require Import String Ascii ZArith Bool List PArith.
From Verif Require Import Preproc SpecPreproc.
Import ListNotations.
Local Open Scope Z_scope.

Definition tokens (s : string) : list tok := lex s None.

(** ** Members *)

(** (type)(name) or (type)(name)(arity) *)
Record soa_member := mkSM { sm_type : list tok; sm_name : list tok; sm_arity : option (list tok) }.

Definition member_text (m : soa_member) : list tok :=
  seq_of (sm_type m :: sm_name m :: match sm_arity m with Some n => [n] | None => [] end).

(** ** Templates of text *)

Fixpoint look (args : list (string * list tok)) (p : spelling) : option (list tok) :=
  match args with
  | [] => None
  | (s, v) :: r => if Pos.eqb p (spell s) then Some v else look r p
  end.

(** The text with the named words replaced. *)
Definition fill (args : list (string * list tok)) (l : list tok) : list tok :=
  concat (map (fun t => match t with
    | TId p => match look args p with Some v => v | None => [t] end
    | _ => [t] end) l).

(** Text about member number [i] of the class [c]. *)
Definition about (i : nat) (c : list tok) (m : soa_member) (l : list tok) : list tok :=
  fill [("THE_INDEX", [numeral i]); ("THE_CLASS", c); ("THE_TYPE", sm_type m); ("THE_NAME", sm_name m);
        ("THE_ARITY", match sm_arity m with Some n => n | None => [] end)]%string l.

Definition is_array (m : soa_member) : bool := match sm_arity m with Some _ => true | None => false end.

(** A template: the text for scalar members (false) and for array members (true). *)
Definition template := bool -> list tok.
Definition either (scalar array : list tok) : template := fun b => if b then array else scalar.

Definition text_for (t : template) (c : list tok) (i : nat) (m : soa_member) : list tok :=
  about i c m (t (is_array m)).

(** The texts for all members in order. *)
Fixpoint members_from (i : nat) (f : nat -> soa_member -> list tok) (ms : list soa_member) : list tok :=
  match ms with
  | [] => []
  | m :: r => f i m ++ members_from (S i) f r
  end.

(** ** Constant expressions

    Sums and products of literals, variables, *variable, sizeof(type), long(e),
    static_cast<long>(e), (e) and offset<class, e>::OFFSET, with the usual precedence. *)

Record cenv := mkEnv {
  e_sizeof : list tok -> Z;
  e_var : spelling -> option Z;
  e_deref : spelling -> option Z;
  e_offset : list tok -> Z -> option Z }.

(** Decimal literals. *)
Fixpoint literal (p : spelling) : Z :=
  match p with
  | xH => 0
  | xO (xO (xO (xO (xI (xI (xO (xO q))))))) => 10 * literal q
  | xI (xO (xO (xO (xI (xI (xO (xO q))))))) => 10 * literal q + 1
  | xO (xI (xO (xO (xI (xI (xO (xO q))))))) => 10 * literal q + 2
  | xI (xI (xO (xO (xI (xI (xO (xO q))))))) => 10 * literal q + 3
  | xO (xO (xI (xO (xI (xI (xO (xO q))))))) => 10 * literal q + 4
  | xI (xO (xI (xO (xI (xI (xO (xO q))))))) => 10 * literal q + 5
  | xO (xI (xI (xO (xI (xI (xO (xO q))))))) => 10 * literal q + 6
  | xI (xI (xI (xO (xI (xI (xO (xO q))))))) => 10 * literal q + 7
  | xO (xO (xO (xI (xI (xI (xO (xO q))))))) => 10 * literal q + 8
  | xI (xO (xO (xI (xI (xI (xO (xO q))))))) => 10 * literal q + 9
  | _ => 0
  end.

(** What comes before the closing parenthesis or the first comma, and what
    comes after it. *)
Fixpoint enclosed (stop : tok -> bool) (l : list tok) (d : nat) : option (list tok * list tok) :=
  match l with
  | [] => None
  | t :: r =>
    if Nat.eqb d 0 && stop t then Some ([], r) else
    match t, d with
    | TRp, O => None
    | _, _ =>
      match enclosed stop r (match t with TLp => S d | TRp => pred d | _ => d end) with
      | Some (a, b) => Some (t :: a, b)
      | None => None
      end
    end
  end.

Definition is_rp (t : tok) : bool := match t with TRp => true | _ => false end.
Definition is_comma (t : tok) : bool := match t with TComma => true | _ => false end.

Inductive level := Sum | Product | Factor.

Definition same_tok (t u : tok) : {t = u} + {t <> u}.
Proof. decide equality; try apply Pos.eq_dec; try apply ascii_dec; apply Nat.eq_dec. Defined.

(** The rest of the text after the given tokens. *)
Definition after (t : tok) (l : list tok) : option (list tok) :=
  match l with
  | u :: r => if same_tok t u then Some r else None
  | [] => None
  end.

Fixpoint after_all (ts : list tok) (l : list tok) : option (list tok) :=
  match ts with
  | [] => Some l
  | t :: ts' => match after t l with Some r => after_all ts' r | None => None end
  end.

Definition bind {A B : Type} (o : option A) (f : A -> option B) : option B :=
  match o with Some a => f a | None => None end.

Section Value.
Variable env : cenv.

(** A sum, product or factor at the start of the text: value and rest. *)
Fixpoint ev (fuel : nat) (k : level) (l : list tok) : option (Z * list tok) :=
  match fuel with
  | O => None
  | S f =>
    let parenthesised r :=
      bind (after TLp r) (fun r => bind (ev f Sum r) (fun x => bind (after TRp (snd x)) (fun s => Some (fst x, s)))) in
    match k with
    | Sum =>
      bind (ev f Product l) (fun x =>
        match after (TPunct "+") (snd x) with
        | Some r => bind (ev f Sum r) (fun y => Some (fst x + fst y, snd y))
        | None => Some x
        end)
    | Product =>
      bind (ev f Factor l) (fun x =>
        match after (TPunct "*") (snd x) with
        | Some r => bind (ev f Product r) (fun y => Some (fst x * fst y, snd y))
        | None => Some x
        end)
    | Factor =>
      match l with
      | TNum p :: r => Some (literal p, r)
      | TLp :: r => parenthesised l
      | TPunct _ :: r =>
        bind (after (TPunct "*") l) (fun r =>
          match r with TId p :: s => bind (e_deref env p) (fun v => Some (v, s)) | _ => None end)
      | TId p :: r =>
        if Pos.eqb p (spell "sizeof") then
          bind (after TLp r) (fun r => bind (enclosed is_rp r 0) (fun x => Some (e_sizeof env (fst x), snd x)))
        else if Pos.eqb p (spell "long") then parenthesised r
        else if Pos.eqb p (spell "static_cast") then bind (after_all (tokens "<long>") r) parenthesised
        else match (if Pos.eqb p (spell "offset") then after (TPunct "<") r else None) with
        | Some r =>
          bind (enclosed is_comma r 0) (fun x =>
          bind (ev f Sum (snd x)) (fun y =>
          bind (after_all (tokens ">::OFFSET") (snd y)) (fun s =>
          bind (e_offset env (fst x) (fst y)) (fun w => Some (w, s)))))
        | None =>
          if Pos.eqb p (spell "detail") || Pos.eqb p (spell "flat_array") then
            bind (after_all (tokens "::") r) (fun s => ev f Factor s)
          else bind (e_var env p) (fun v => Some (v, r))
        end
      | _ => None
      end
    end
  end.

(** The expression [l] has the value [v]. *)
Definition has_value (l : list tok) (v : Z) : Prop := exists f, ev f Sum l = Some (v, []).

(** [l] is a primary expression with the value [v]: it may be an operand of *. *)
Definition primary_value (l : list tok) (v : Z) : Prop :=
  exists f, forall r, ev f Factor (l ++ r) = Some (v, r).

End Value.

(** ** The text of a registration *)

(** What stands for offset<c, i + 1>::OFFSET. *)
Definition offset_init : template := either
  (tokens "offset<THE_CLASS, THE_INDEX + 0>::OFFSET + sizeof(THE_TYPE) * 1")
  (tokens "offset<THE_CLASS, THE_INDEX + 0>::OFFSET + sizeof(THE_TYPE) * THE_ARITY").

(** The class offset<c, i + 1> with the lookup of member pointers. *)
Definition offset_class : template := fun array =>
    tokens "namespace detail { namespace flat_array {
      template<> class offset<THE_CLASS, THE_INDEX + 1> {
      public:
        static const std::size_t OFFSET = " ++ offset_init array ++ tokens ";

        template<typename MEMBER_TYPE>
        inline int operator()(MEMBER_TYPE THE_CLASS::*member_ptr)
        { return offset<THE_CLASS, THE_INDEX + 0>()(member_ptr); }

        inline int operator()(THE_TYPE (THE_CLASS::*member_ptr)" ++
          tokens (if array then "[THE_ARITY]" else "") ++ tokens ")
        {
          if (member_ptr == &THE_CLASS::THE_NAME) { return offset<THE_CLASS, THE_INDEX + 0>::OFFSET; }
          else { return offset<THE_CLASS, THE_INDEX + 0>()(member_ptr); }
        }

        template<std::size_t ARITY>
        inline int operator()(THE_TYPE (THE_CLASS::*member_ptr)[ARITY])
        { return offset<THE_CLASS, THE_INDEX + 0>()(member_ptr); }
      };
    } }".

(** The address a member function returns a reference to; [index] is how the
    accessor finds its run-time index. *)
Definition address_text (index : string) : template := fun array =>
  tokens "my_data + (DIM_PROD) * ((sizeof(THE_TYPE) * " ++
  tokens (if array then "ARRAY_INDEX" else "0") ++
  tokens ") + detail::flat_array::offset<THE_CLASS, THE_INDEX>::OFFSET) + " ++
  tokens index ++ tokens " * long(sizeof(THE_TYPE)) + INDEX * long(sizeof(THE_TYPE))".

(** The member functions of an accessor; [const] is empty or "const". *)
Definition accessor_functions (const index : string) : template := fun array =>
  tokens (if array then "template<int ARRAY_INDEX>" else "") ++
  tokens "inline __host__ __device__ " ++ tokens const ++ tokens " THE_TYPE& THE_NAME() " ++ tokens const ++
  tokens "{ return *(THE_TYPE*)(" ++ address_text index array ++ tokens "); }" ++
  if array then
    tokens "inline __host__ __device__
      typename LibFlatArray::detail::soa_array_member_copy_helper<DIM_PROD>::
      template inner1<THE_CLASS>::template inner2<THE_TYPE>::reference THE_NAME() " ++ tokens const ++
    tokens "{ return typename LibFlatArray::detail::soa_array_member_copy_helper<DIM_PROD>::
      template inner1<THE_CLASS>::template inner2<THE_TYPE>::reference((char*)&THE_NAME<0>()); }"
  else [].

(** The statements about one member in the bulk functions. *)

Definition assign_text : template := either
  (tokens "THE_NAME() = cell.THE_NAME;")
  (tokens "{ typename LibFlatArray::detail::soa_array_member_copy_helper<DIM_PROD>::
      template inner1<THE_CLASS>::template inner2<THE_TYPE>::template inner3<THE_ARITY>::
      template inner4<&THE_CLASS::THE_NAME>::template copy_in<THE_ARITY>()(cell, &THE_NAME<0>()); }").

Definition extract_text : template := either
  (tokens "cell.THE_NAME = this->THE_NAME();")
  (tokens "{ typename LibFlatArray::detail::soa_array_member_copy_helper<DIM_PROD>::
      template inner1<THE_CLASS>::template inner2<THE_TYPE>::template inner3<THE_ARITY>::
      template inner4<&THE_CLASS::THE_NAME>::template copy_out<THE_ARITY>()(cell, &THE_NAME<0>()); }").

(** Where the values of one member start in the linear format of save and load. *)
Definition linear_text (buffer : string) : string :=
  buffer ++ " + detail::flat_array::offset<THE_CLASS, THE_INDEX>::OFFSET * stride".

Definition load_text : template := either
  (tokens ("{ for (std::size_t i = 0; i < count; ++i) {
      (&this->THE_NAME())[i] = ((const THE_TYPE*)(" ++ linear_text "source" ++ "))[offset + i];
    } }"))
  (tokens ("{ typename LibFlatArray::detail::soa_array_member_copy_helper<DIM_PROD>::
      template inner_a<THE_TYPE>::template copy_array_in<THE_ARITY>()(
        (const THE_TYPE*)(" ++ linear_text "source" ++ "), &(this->THE_NAME()[0]), count, offset, stride); }")).

Definition save_text : template := either
  (tokens ("{ for (std::size_t i = 0; i < count; ++i) {
      ((THE_TYPE*)(" ++ linear_text "target" ++ "))[offset + i] = (&this->THE_NAME())[i];
    } }"))
  (tokens ("{ typename LibFlatArray::detail::soa_array_member_copy_helper<DIM_PROD>::
      template inner_a<THE_TYPE>::template copy_array_out<THE_ARITY>()(
        (THE_TYPE*)(" ++ linear_text "target" ++ "), &(this->THE_NAME()[0]), count, offset, stride); }")).

Definition copy_text : template := either
  (tokens "{ std::copy(&(other.THE_NAME()), &(other.THE_NAME()) + count, &(this->THE_NAME())); }")
  (tokens "{ for (std::size_t i = 0; i < THE_ARITY; ++i) {
      std::copy(&(other.THE_NAME()[i]), &(other.THE_NAME()[i]) + count, &(this->THE_NAME()[i]));
    } }").

Definition construct_text : template := either
  (tokens "{ THE_TYPE *instance = &(this->THE_NAME()); new (instance) THE_TYPE(); }")
  (tokens "{ for (int i = 0; i < THE_ARITY; ++i) { new (&(this->THE_NAME()[i])) THE_TYPE(); } }").

Definition destroy_text : template := either
  (tokens "{ THE_TYPE *instance = &(this->THE_NAME()); detail::flat_array::generic_destruct(instance); }")
  (tokens "{ for (int i = 0; i < THE_ARITY; ++i) {
      detail::flat_array::generic_destruct(&(this->THE_NAME()[i]));
    } }").

(** ** The whole registration

    Sections of the text in order; between two sections there is text that is
    the same for all lists of members. *)
Inductive item :=
| Code (s : string)          (* with THE_CLASS for the class *)
| Count                      (* the number of members *)
| PerMember (t : template).  (* one text per member, in order *)

Definition render_item (c : list tok) (ms : list soa_member) (x : item) : list tok :=
  match x with
  | Code s => fill [("THE_CLASS"%string, c)] (tokens s)
  | Count => [numeral (length ms)]
  | PerMember t => members_from 0 (text_for t c) ms
  end.

Definition render (c : list tok) (ms : list soa_member) (s : list item) : list tok :=
  concat (map (render_item c ms) s).

(** Sections and the text following each of them. *)
Fixpoint woven (secs gaps : list (list tok)) : list tok :=
  match secs, gaps with
  | s :: ss, g :: gs => s ++ g ++ woven ss gs
  | _, _ => []
  end.

Definition function (head : string) (t : template) : list item := [Code (head ++ "{"); PerMember t; Code ";}"].

Definition save_functions : list item :=
  Code "void save(char *target, std::size_t count) const { save(target, count, 0, count); } __host__ __device__ inline "
  :: function "void save(char *target, std::size_t count, std::size_t offset, std::size_t stride) const" save_text.

Definition load_functions : list item :=
  Code "void load(const char *source, std::size_t count) { load(source, count, 0, count); } __host__ __device__ inline "
  :: function "void load(const char *source, std::size_t count, std::size_t offset, std::size_t stride)" load_text.

Definition dim_prod_text : string := "DIM_X * DIM_Y * DIM_Z".

Definition class_head (name : string) : list item :=
  [Code ("template<long MY_DIM_X, long MY_DIM_Y, long MY_DIM_Z, long INDEX> class " ++ name ++
         "<THE_CLASS, MY_DIM_X, MY_DIM_Y, MY_DIM_Z, INDEX> { public: typedef THE_CLASS element_type;
          static const long DIM_X = MY_DIM_X; static const long DIM_Y = MY_DIM_Y; static const long DIM_Z = MY_DIM_Z;
          static const long DIM_PROD = " ++ dim_prod_text ++ ";")].

(** Index functions. *)
Definition gen_index_text : string := "z * DIM_X * DIM_Y + y * DIM_X + x".
Definition gen_index_text_sized : string :=
  "static_cast<long>(z) * DIM_X * DIM_Y + static_cast<long>(y) * DIM_X + static_cast<long>(x)".
Definition coord_index_text : string := "(INDEX + Z * (DIM_X * DIM_Y) + Y * DIM_X + X)".

Definition gen_index_sections : list (list item) :=
  [ [Code ("static long gen_index(const long x, const long y, const long z) { return " ++ gen_index_text ++ "; }")];
    [Code ("static long gen_index(const std::size_t x, const std::size_t y, const std::size_t z) { return " ++
           gen_index_text_sized ++ "; }")] ].

(** Comparing and moving; [index] names the run-time index. *)
Definition moving_sections (index : string) : list (list item) :=
  [ [Code "operator THE_CLASS() const { THE_CLASS ret; *this >> ret; return ret; }"];
    [Code "bool operator==(const SOA_ACCESSOR& other) const
             { return (my_data == other.my_data) && (my_index == other.my_index); }"];
    [Code "bool operator!=(const SOA_ACCESSOR& other) const { return !(*this == other); }"];
    [Code ("void operator+=(const long offset) { " ++ index ++ " += offset; }")];
    [Code ("void operator++() { ++" ++ index ++ "; }")] ].

(** operator[](coord<X, Y, Z>) of the class [result]. *)
Definition at_coord_section (result const index : string) : list item :=
  [Code ("template<long X, long Y, long Z> inline __host__ __device__ " ++
         result ++ "<THE_CLASS, DIM_X, DIM_Y, DIM_Z, " ++ coord_index_text ++ "> operator[](coord<X, Y, Z>) " ++ const ++
         " { return " ++ result ++ "<THE_CLASS, DIM_X, DIM_Y, DIM_Z, " ++ coord_index_text ++ ">(my_data, " ++ index ++ "); }")].

(** Access by number and by offset. *)
Definition numbered_text (index : string) : string :=
  "my_data + DIM_PROD * detail::flat_array::offset<THE_CLASS, OFFSET>::OFFSET + " ++ index ++
  " * sizeof(MEMBER_TYPE) + INDEX * sizeof(MEMBER_TYPE)".
Definition at_offset_text (index : string) : string :=
  "my_data + DIM_PROD * offset + " ++ index ++ " * size_of_member + INDEX * size_of_member".

Definition access_sections (index : string) : list (list item) :=
  [ [Code ("template<typename MEMBER_TYPE, long OFFSET> inline __host__ __device__ MEMBER_TYPE& access_member() {
              return *(MEMBER_TYPE*)(" ++ numbered_text index ++ "); }")];
    [Code ("char *access_member(const long size_of_member, const long offset) { return " ++
           at_offset_text index ++ "; }")] ].

(** data() and index(), and the variables. *)
Definition data_sections (const index index_type : string) : list (list item) :=
  [ [Code ("const char *data() const { return my_data; }")] ] ++
  (if String.eqb const "" then [ [Code "char *data() { return my_data; }"] ] else []) ++
  [ [Code ("long& index() { return " ++ index ++ "; }")];
    [Code ("const long& index() const { return " ++ index ++ "; }")];
    [Code ("private: " ++ const ++ " char *my_data; " ++ index_type ++ " my_index; };")] ].

(** The functions of the two kinds of mutable accessors. *)
Definition mutable_sections (index : string) : list (list item) :=
  [ function "void operator=(const THE_CLASS& cell)" assign_text;
    [Code "void operator<<(const THE_CLASS& cell) { (*this) = cell; }"];
    function "void operator>>(THE_CLASS& cell) const" extract_text;
    load_functions;
    save_functions;
    function "void construct_members()" construct_text;
    function "void destroy_members()" destroy_text;
    function "void copy_members(const OTHER_ACCESSOR& other, std::size_t count)" copy_text ]
  ++ access_sections index ++
  [ [PerMember (accessor_functions "" index); Code ";"; PerMember (accessor_functions "const" index); Code ";"] ].

Definition const_sections (index : string) : list (list item) :=
  [ function "void operator>>(THE_CLASS& cell) const" extract_text;
    save_functions;
    [PerMember (accessor_functions "const" index); Code ";"] ].

(** The four accessor classes. *)
Definition accessor_class : list (list item) :=
  [ class_head "soa_accessor" ] ++ gen_index_sections ++
  [ [Code "soa_accessor(char *my_data, const long my_index) : my_data(my_data), my_index(my_index) {}"] ] ++
  moving_sections "my_index" ++
  [ at_coord_section "soa_accessor_light" "" "my_index"; at_coord_section "const_soa_accessor_light" "const" "my_index" ] ++
  mutable_sections "my_index" ++ data_sections "" "my_index" "long".

Definition const_accessor_class : list (list item) :=
  [ class_head "const_soa_accessor" ] ++ gen_index_sections ++
  [ [Code "const_soa_accessor(const char *my_data, long my_index) : my_data(my_data), my_index(my_index) {}"] ] ++
  moving_sections "my_index" ++
  [ at_coord_section "const_soa_accessor" "const" "my_index" ] ++
  const_sections "my_index" ++ data_sections "const" "my_index" "long".

Definition light_accessor_class : list (list item) :=
  [ class_head "soa_accessor_light" ] ++ gen_index_sections ++
  [ [Code "soa_accessor_light(char *my_data, long& my_index) : my_data(my_data), my_index(&my_index) {}"] ] ++
  moving_sections "*my_index" ++
  [ at_coord_section "soa_accessor_light" "const" "*my_index" ] ++
  mutable_sections "*my_index" ++ data_sections "" "*my_index" "long *".

Definition const_light_accessor_class : list (list item) :=
  [ class_head "const_soa_accessor_light" ] ++ gen_index_sections ++
  [ [Code "const_soa_accessor_light(const char *my_data, long& my_index) : my_data(my_data), my_index(&my_index) {}"] ] ++
  moving_sections "*my_index" ++
  [ at_coord_section "const_soa_accessor_light" "const" "*my_index" ] ++
  const_sections "*my_index" ++ data_sections "const" "*my_index" "long *".

(** The value of aggregated_member_size. *)
Definition total_text : string := "detail::flat_array::offset<THE_CLASS, INDEX>::OFFSET".

Definition registration : list (list item) :=
  [ [Code "namespace LibFlatArray {"; PerMember offset_class;
     Code "template<> class number_of_members<THE_CLASS> { public: static const std::size_t VALUE = "; Count;
     Code ("; };
       template<> class aggregated_member_size<THE_CLASS> {
       private: static const std::size_t INDEX = number_of_members<THE_CLASS>::VALUE;
       public: static const std::size_t VALUE = " ++ total_text ++ "; };")] ]
  ++ accessor_class ++ const_accessor_class ++ light_accessor_class ++ const_light_accessor_class ++
  [ [Code "} template<long DIM_X, long DIM_Y, long DIM_Z, long INDEX> __host__ __device__ inline
       void operator<<(THE_CLASS& cell, const LibFlatArray::soa_accessor<THE_CLASS, DIM_X, DIM_Y, DIM_Z, INDEX> soa)
       { soa >> cell; }"] ].

(** What may stand between the sections. *)
Definition qualifiers : list string :=
  [""; "__host__ __device__"; "inline __host__ __device__"; "__host__ __device__ inline";
   "__host__ __device__ inline __attribute__ ((__always_inline__))";
   "template<typename SOA_ACCESSOR> inline __host__ __device__";
   "template<typename OTHER_ACCESSOR> __host__ __device__ inline"]%string.

Definition only_qualifiers (gaps : list (list tok)) : Prop := Forall (fun g => In g (map tokens qualifiers)) gaps.

(** ** What the numbers in the text mean *)

(** [T i] is the value of offset<c, i>::OFFSET: zero for the first
    (detail/offset.hpp:39-43), the generated initialisers for the others. *)
Definition offset_table (env : cenv) (c : list tok) (ms : list soa_member) (T : nat -> Z) : Prop :=
  T O = 0 /\
  (forall i, (i <= length ms)%nat -> e_offset env c (Z.of_nat i) = Some (T i)) /\
  (forall i m, nth_error ms i = Some m -> has_value env (text_for offset_init c i m) (T (S i))).

(** Member [m] has elements of [size] bytes and [count] of them. *)
Definition occupies (env : cenv) (m : soa_member) (x : Z * Z) : Prop :=
  fst x = e_sizeof env (sm_type m) /\
  match sm_arity m with
  | None => snd x = 1
  | Some a => primary_value env a (snd x)
  end.

Definition sum_bytes (l : list (Z * Z)) : Z := fold_right (fun x s => fst x * snd x + s) 0 l.

(** The run-time index as the accessor names it. *)
Definition index_is (env : cenv) (index : string) (v : Z) : Prop :=
  (index = "my_index"%string /\ e_var env (spell "my_index") = Some v) \/
  (index = "*my_index"%string /\ e_deref env (spell "my_index") = Some v).

Definition var_is (env : cenv) (x : string) (v : Z) : Prop := e_var env (spell x) = Some v.

(** Text about the class only. *)
Definition class_text (c : list tok) (s : string) : list tok := fill [("THE_CLASS"%string, c)] (tokens s).
