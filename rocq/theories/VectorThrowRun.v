(** Programs on any number of soa_vectors in which members or the allocator throw. A
    call may carry a schedule (GridThrow.v); the program catches what is thrown and goes
    on. Model only; proofs are in VectorThrowRunProofs.v, statements in
    PropsVectorThrowRun.v. *)
From Coq Require Import ZArith List Bool.
From Verif Require Import Base Layout Sizes Mem Accessor Grid Vector GridThrow.
Import ListNotations.
Open Scope Z_scope.

(** [SCaught]: user code threw. *)
Inductive sxobs := SDone (ob : sobs) | SCaught.

(** A call on an existing object, which stays in place. *)
Definition x_on_vec (w : sworld) (id : nat) (f : vst -> xout vst unit) : result (sworld * sxobs) :=
  match sw_vecs w id with
  | None => Fault Dangling
  | Some v =>
      match f (sw_mem w, v) with
      | XRet _ (m', v') _ => Val (mkSW m' (sset (sw_vecs w) id (Some v')), SDone SUnit)
      | XThr (m', v') (XLib e) => Val (mkSW m' (sset (sw_vecs w) id (Some v')), SDone (SThrow e))
      | XThr (m', v') _ => Val (mkSW m' (sset (sw_vecs w) id (Some v')), SCaught)
      | XTerminate => Fault BadType   (* std::terminate() *)
      | XFlt x => Fault x
      end
  end.

(** A constructor; if it throws there is no object. *)
Definition x_vec_ctor (w : sworld) (id : nat) (o : xout vst unit) : result (sworld * sxobs) :=
  match o with
  | XRet _ (m', v') _ => Val (mkSW m' (sset (sw_vecs w) id (Some v')), SDone SUnit)
  | XThr (m', _) (XLib e) => Val (mkSW m' (sw_vecs w), SDone (SThrow e))
  | XThr (m', _) _ => Val (mkSW m' (sw_vecs w), SCaught)
  | XTerminate => Fault BadType
  | XFlt x => Fault x
  end.

(** [sstep] (Vector.v) under a schedule; [None]: nothing throws: soa_vector(count, value),
    set, resize, reserve, push_back and pop_back (soa_vector.hpp:53-60, 67-72, 100-125,
    141-160). Schedules of the other calls are ignored. *)
Definition x_sstep (ct : celltype) (w : sworld) (o : option sched) (op : sop) : result (sworld * sxobs) :=
  let plain_call := match sstep ct w op with Val (w', b) => Val (w', SDone b) | Fault f => Fault f end in
  match o with
  | None => plain_call
  | Some s =>
      match op with
      | SFill id n c => x_vec_ctor w id (x_v_new_fill ct s (sw_mem w) n c)
      | SSet id i c => x_on_vec w id (fun st => x_v_set ct s st i c)
      | SResize id n => x_on_vec w id (fun st => x_v_resize ct s st n)
      | SReserve id n => x_on_vec w id (fun st => x_v_reserve ct s st n)
      | SPush id c => x_on_vec w id (fun st => x_v_push ct s st c)
      | SPop id => x_on_vec w id (fun st => x_v_pop ct s st)
      | _ => plain_call
      end
  end.

Fixpoint x_srun (ct : celltype) (w : sworld) (ops : list (option sched * sop)) : result (sworld * list sxobs) :=
  match ops with
  | [] => Val (w, [])
  | (o, op) :: r =>
      match x_sstep ct w o op with
      | Fault f => Fault f
      | Val (w1, b) =>
          match x_srun ct w1 r with
          | Fault f => Fault f
          | Val (w2, bs) => Val (w2, b :: bs)
          end
      end
  end.
