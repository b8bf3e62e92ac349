(** include/libflatarray/aligned_allocator.hpp on a flat 64-bit address space.
    sizeof(char* ) = 8. Model and its specification; proofs are in AllocProofs.v. *)
From Coq Require Import ZArith List Bool.
From Verif Require Import Base.
Import ListNotations.
Open Scope Z_scope.

Definition w64 : Z := 2 ^ 64.
(** sizeof(char* ) *)
Definition PTR : Z := 8.

(** aligned_allocator<T, ALIGNMENT>: sizeof(T) and ALIGNMENT. *)
Record aconf := mkAC { ac_size : Z; ac_align : Z }.

(** graceOffset (aligned_allocator.hpp:135-138) and upsize (140-143), in std::size_t. *)
Definition grace_offset (c : aconf) : Z := (ac_align c + PTR) mod w64.
Definition upsize (c : aconf) (n : Z) : Z := ((n * ac_size c) mod w64 + grace_offset c) mod w64.

(** Lines 77-82 of allocate: from the chunk's address to the returned address. *)
Definition correction (c : aconf) (chunk : Z) : Z :=
  let offset := chunk mod ac_align c in
  let cor := ac_align c - offset in
  if cor <? PTR then cor + ac_align c else cor.
Definition ret_addr (c : aconf) (chunk : Z) : Z := chunk + correction c chunk.

(** Byte-addressed memory; a pointer is stored as 8 little-endian bytes. *)
Definition bytes := Z -> Z.
Definition store_ptr (m : bytes) (a v : Z) : bytes :=
  fun x => if (a <=? x) && (x <? a + PTR) then (v / 256 ^ (x - a)) mod 256 else m x.
Definition load_ptr (m : bytes) (a : Z) : Z :=
  fold_right (fun i acc => m (a + i) * 256 ^ i + acc) 0 (zseq PTR).

(** The underlying std::allocator<char>: the chunks it has handed out. *)
Record heap := mkHeap { h_bytes : bytes; h_chunks : list (Z * Z) }.

(** What it may return for a request of [s] bytes: any address of an unused range that
    is not null (oracle). std::allocator throws on failure, so the null test of
    allocate (74-76) never fires; a failing request is simply not part of a history. *)
Definition apart (a s b t : Z) : Prop := a + s <= b \/ b + t <= a.
Definition may_return (h : heap) (s a : Z) : Prop :=
  0 < a /\ a + s <= w64 /\ Forall (fun '(b, t) => apart a s b t) (h_chunks h).

(** Is [a, a + s) inside some handed-out chunk? Writing elsewhere is a fault. *)
Definition in_chunk (h : heap) (a s : Z) : bool :=
  existsb (fun '(b, t) => (b <=? a) && (a + s <=? b + t)) (h_chunks h).

Inductive aresult (A : Type) := AVal (a : A) | AFault.
Arguments AVal {A} a.
Arguments AFault {A}.

(** allocate(n) (aligned_allocator.hpp:63-85) when the underlying allocator returned [chunk]. *)
Definition a_allocate (c : aconf) (h : heap) (n chunk : Z) : aresult (heap * Z) :=
  let h1 := mkHeap (h_bytes h) ((chunk, upsize c n) :: h_chunks h) in
  let ret := ret_addr c chunk in
  if in_chunk h1 (ret - PTR) PTR
  then AVal (mkHeap (store_ptr (h_bytes h1) (ret - PTR) chunk) (h_chunks h1), ret)
  else AFault.

(** std::allocator<char>().deallocate(p, s): must be a chunk that was handed out. *)
Fixpoint remove_chunk (l : list (Z * Z)) (a s : Z) : option (list (Z * Z)) :=
  match l with
  | [] => None
  | (b, t) :: r => if (a =? b) && (s =? t) then Some r
                   else match remove_chunk r a s with Some r' => Some ((b, t) :: r') | None => None end
  end.

(** deallocate(p, n) (aligned_allocator.hpp:87-98); also returns what was released. *)
Definition a_deallocate (c : aconf) (h : heap) (p n : Z) : aresult (heap * option (Z * Z)) :=
  if p =? 0 then AVal (h, None)
  else if in_chunk h (p - PTR) PTR then
         let actual := load_ptr (h_bytes h) (p - PTR) in
         match remove_chunk (h_chunks h) actual (upsize c n) with
         | Some l => AVal (mkHeap (h_bytes h) l, Some (actual, upsize c n))
         | None => AFault
         end
       else AFault.

(** *** Histories
    [b_at], [b_n]: what the user got and asked for; [b_chunk]: what the underlying
    allocator returned (ghost, for the statement). *)
Record ublock := mkUB { b_at : Z; b_n : Z; b_chunk : Z }.

Inductive aop :=
| AAlloc (n chunk : Z)
| AWrite (a v : Z)
| AFree (p n : Z).

(** The user's side: allocate without overflow, write bytes inside own blocks, release
    own blocks with the right count. *)
Definition user_owns (c : aconf) (us : list ublock) (a : Z) : Prop :=
  exists u, In u us /\ b_at u <= a < b_at u + b_n u * ac_size c.

(** One step of the library; [None]: nothing was released. *)
Definition a_step (c : aconf) (h : heap) (op : aop) : aresult (heap * option (Z * Z)) :=
  match op with
  | AAlloc n chunk => match a_allocate c h n chunk with AVal (h', _) => AVal (h', None) | AFault => AFault end
  | AWrite a v => if in_chunk h a 1 then AVal (mkHeap (fun x => if x =? a then v else h_bytes h x) (h_chunks h), None) else AFault
  | AFree p n => a_deallocate c h p n
  end.

(** One step as the user sees it. *)
Inductive u_step (c : aconf) (h : heap) (us : list ublock) : aop -> list ublock -> option (Z * Z) -> Prop :=
| us_alloc : forall n chunk,
    0 <= n -> n * ac_size c + ac_align c + PTR < w64 -> may_return h (upsize c n) chunk ->
    u_step c h us (AAlloc n chunk) (mkUB (ret_addr c chunk) n chunk :: us) None
| us_write : forall a v, user_owns c us a -> 0 <= v < 256 -> u_step c h us (AWrite a v) us None
| us_free : forall l r u, us = l ++ u :: r ->
    u_step c h us (AFree (b_at u) (b_n u)) (l ++ r) (Some (b_chunk u, upsize c (b_n u))).

Definition no_heap : heap := mkHeap (fun _ => 0) [].

(** Histories: the heap evolves by the library's steps, the blocks by the user's. *)
Inductive a_run (c : aconf) : heap -> list ublock -> Prop :=
| run_start : a_run c no_heap []
| run_step : forall h us op us' e h' o,
    a_run c h us -> u_step c h us op us' e -> a_step c h op = AVal (h', o) -> a_run c h' us'.
