(** Programs on any number of soa_grids in which members or the allocator throw: each call
    carries a schedule (GridThrow.v); the program catches what is thrown and goes on.
    Model only; proofs are in GridThrowRunProofs.v, statements in PropsGridThrowRun.v. *)
From Coq Require Import ZArith List Bool.
From Verif Require Import Base Layout Sizes Mem Accessor Grid SpecGrid Vector GridThrow BufferThrow.
Import ListNotations.
Open Scope Z_scope.

(** [GCaught]: user code threw; the bytes of the client's buffer, if the call had one. *)
Inductive xobs := GDone (b : obs) | GCaught (bytes : list memval).

(** A call on an existing object, which stays in place. *)
Definition x_on_grid (w : world) (id : nat) (f : gst -> xout gst unit) : result (world * xobs) :=
  match w_grids w id with
  | None => Fault Dangling
  | Some g =>
      match f (w_mem w, g) with
      | XRet _ (m', g') _ => Val (mkW m' (fset (w_grids w) id (Some g')), GDone BUnit)
      | XThr (m', g') (XLib e) => Val (mkW m' (fset (w_grids w) id (Some g')), GDone (BThrow e))
      | XThr (m', g') _ => Val (mkW m' (fset (w_grids w) id (Some g')), GCaught [])
      | XTerminate => Fault BadType   (* does not occur: no object is destroyed by unwinding *)
      | XFlt x => Fault x
      end
  end.

(** A call that gets a buffer with [cs]. *)
Definition x_on_buffer (ct : celltype) (w : world) (id : nat) (cs : list cell) (f : gst -> ptr -> xout gst unit)
                       (ob : list memval -> obs) : result (world * xobs) :=
  match w_grids w id with
  | None => Fault Dangling
  | Some g =>
      match x_with_buffer (ct_ms ct) (w_mem w) cs (fun m q => f (m, g) q) with
      | Ret (m', g') (caught, bytes) =>
          Val (mkW m' (fset (w_grids w) id (Some g')), if caught then GCaught bytes else GDone (ob bytes))
      | Thr (m', g') e => Val (mkW m' (fset (w_grids w) id (Some g')), GDone (BThrow e))
      | Flt x => Fault x
      end
  end.

(** A constructor; if it throws there is no object. *)
Definition x_ctor (w : world) (id : nat) (o : xout gst unit) : result (world * xobs) :=
  match o with
  | XRet _ (m', g') _ => Val (mkW m' (fset (w_grids w) id (Some g')), GDone BUnit)
  | XThr (m', _) (XLib e) => Val (mkW m' (w_grids w), GDone (BThrow e))
  | XThr (m', _) _ => Val (mkW m' (w_grids w), GCaught [])
  | XTerminate => Fault BadType
  | XFlt x => Fault x
  end.

Definition plain_step (ct : celltype) (w : world) (op : gop) : result (world * xobs) :=
  match wstep ct w op with Val (w', b) => Val (w', GDone b) | Fault f => Fault f end.

(** [wstep] (SpecGrid.v) under a schedule. Calls of member assignments by get() and by
    self-assignment are not scheduled. *)
Definition x_wstep (ct : celltype) (w : world) (s : sched) (op : gop) : result (world * xobs) :=
  match op with
  | ONew id x y z => x_ctor w id (x_new ct s (w_mem w) x y z)
  | OCopy id src =>
      match w_grids w src with
      | None => Fault Dangling
      | Some o => x_ctor w id (x_copy ct s (w_mem w) o)
      end
  | OAssign id src =>
      if Nat.eqb id src then plain_step ct w op
      else match w_grids w src with
           | None => Fault Dangling
           | Some o => x_on_grid w id (fun st => x_assign ct s st o)
           end
  | OResize id x y z => x_on_grid w id (fun st => x_resize ct s st x y z)
  | OSet id x y z c => x_on_grid w id (fun st => x_set ct s st x y z c)
  | OSetN id x y z cs => x_on_grid w id (fun st => x_set_n ct s st x y z cs (Z.of_nat (length cs)))
  | OBroadcast id x y z c n => x_on_grid w id (fun st => x_broadcast ct s st x y z c n)
  | OLoad id l cs => x_on_buffer ct w id cs (fun st q => x_load_streaks ct s st l q (Z.of_nat (length cs))) (fun _ => BUnit)
  | OSave id l cs => x_on_buffer ct w id cs (fun st q => x_save_streaks ct s st l q (Z.of_nat (length cs))) BBytes
  | OSwap _ _ | OGet _ _ _ _ | OGetN _ _ _ _ _ | OQuery _ | ODestroy _ => plain_step ct w op
  end.

Fixpoint x_wrun (ct : celltype) (w : world) (ops : list (sched * gop)) : result (world * list xobs) :=
  match ops with
  | [] => Val (w, [])
  | (s, op) :: r =>
      match x_wstep ct w s op with
      | Fault f => Fault f
      | Val (w', b) =>
          match x_wrun ct w' r with
          | Fault f => Fault f
          | Val (w'', bs) => Val (w'', b :: bs)
          end
      end
  end.
