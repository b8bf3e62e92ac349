(** load() and save() of soa_grid when assignment operators of members throw. save() here,
    load() in GridThrow.v ([x_load_streaks]); both run under a schedule as described
    there. Model only; proofs are in BufferThrowProofs.v, statements in PropsBufferThrow.v. *)
From Coq Require Import ZArith List Bool.
From Verif Require Import Base Layout Sizes Mem Accessor Grid SpecGrid Vector GridThrow.
Import ListNotations.
Open Scope Z_scope.

(** save(begin, end, target, count) (soa_grid.hpp:327-346). *)
Definition x_save_streaks (ct : celltype) (s : sched) (w : gst) (l : list streak) (target : ptr) (count : Z) : xout gst unit :=
  let '(m, g) := w in
  x_callback ct w g (fun d a => x_run s (save_functor (ct_ms ct) d a target count 0 l) m g).

(** The client of [with_buffer] (SpecGrid.v), who also catches what members throw: whether
    there was something to catch, and the bytes of the buffer afterwards. *)
Definition x_with_buffer (ms : list member) (m : mem) (cells : list cell)
                         (body : mem -> ptr -> xout gst unit) : outcome gst (bool * list memval) :=
  let n := Z.of_nat (length cells) in
  let '(m1, q) := alloc m (packed_size ms n) in
  let finish (m3 : mem) (g3 : grid) (caught : bool) :=
    let bytes := read m3 q (packed_size ms n) in
    match exec (unbuild_ops q 0 (pack_elems ms cells)) m3 with
    | Fault f => Flt f
    | Val m4 => run (free m4 q (packed_size ms n)) (fun m5 => (m5, g3)) (caught, bytes)
    end in
  match exec (build_ops q 0 (pack_elems ms cells)) m1 with
  | Fault f => Flt f
  | Val m2 =>
      match body m2 q with
      | XRet _ (m3, g3) _ => finish m3 g3 false
      | XThr (m3, g3) XMember => finish m3 g3 true
      | XThr w (XLib e) => Thr w e
      | XThr _ XBadAlloc | XTerminate => Flt BadType   (* do not occur: nothing is allocated or destroyed *)
      | XFlt f => Flt f
      end
  end.
