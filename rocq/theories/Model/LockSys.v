(** The lock-object services under an arbitrary scheduler.

    Threads call lock-object services and other blocking services; the code that follows
    a call of the scheduler inside a service (lockobj.c:193, 275) is executed when the
    thread is dispatched again, which can happen at any time at which it is RUNNABLE. The
    choice of who runs and of when ticks occur is left completely open (any scheduler,
    any number of processors); kernel/core/sched.c is modelled separately. *)
From Verif Require Import Model.Base Model.State Model.LockFifo Model.LockObj.

(** Where a thread resumes inside the kernel. *)
Inductive kont :=
| KUser                          (** running user code *)
| KLock (id deadline : Z)        (** lockobj.c:276, inside pok_lockobj_lock *)
| KWait (id deadline : Z)        (** lockobj.c:195, inside pok_lockobj_eventwait *)
| KRelock (id ret_wait : Z)      (** lockobj.c:206 -> 276, re-locking in eventwait *)
| KOther.                        (** inside another blocking service (sleep, end of period, stop self) *)

(** System state; objects are indexed by identifier, threads by thread number. *)
Record lsys := mkLsys {
  s_obj : Z -> lockobj;
  s_th  : Z -> thread;
  s_now : Z;
  s_k   : Z -> kont
}.

(** Observable events. *)
Inductive event :=
| EvCreate (id : Z) (a : lattr)               (** object created *)
| EvBlocked (id t p : Z)                      (** lock request of t, with priority p, must wait *)
| EvAcquired (id t : Z)                       (** lock request of t is satisfied, t continues *)
| EvTimeout (id t : Z)                        (** lock request of t reported TIMEOUT *)
| EvReleased (id t : Z) (w : option Z)        (** t released a resource; w was made ready *)
| EvWaiting (id t p : Z)                      (** t waits for the event *)
| EvWaitEnd (id t e : Z)                      (** t stops waiting for the event, with code e *)
| EvSignalled (id t : Z) (w : option Z)       (** t signalled the event; w was made ready *)
| EvBroadcast (id t : Z)                      (** t broadcast the event *)
| EvReturn (t e : Z).                         (** the service called by t returned e *)

(** The services of pok_lockobj_partition_wrapper, lockobj.c:399-426. *)
Inductive lop :=
| OpLock (timeout : Z) | OpUnlock | OpWait (timeout : Z) | OpSignal | OpBroadcast.

Inductive label :=
| LCreate (id : Z) (a : lattr)       (** pok_lockobj_create on an unused object *)
| LCall (t id : Z) (o : lop)         (** a running thread calls a service *)
| LOther (t s w : Z)                 (** a running thread blocks in another service *)
| LWakeOther (t : Z)                 (** ... and is made ready again *)
| LResume (t : Z)                    (** a ready thread continues inside the kernel *)
| LTick                              (** kernel/core/time.c: the clock advances *)
| LExpire (t : Z)                    (** sched.c:207-210: its wake-up time has passed *)
| LEnv (t s : Z)                     (** another service or the budget code overwrites the state of t:
                                         thread.c:360,371, sched.c:262,696,701 *)
| LPrio (t p : Z).                   (** thread.c:349 *)

Inductive result :=
| Next (s : lsys) (ev : list event)
| Disabled
| Failure.                           (** kernel assertion failed or endless loop *)

(** Where a thread is: executing its own code, or blocked in a service other than those of
    kernel/core/lockobj.c. *)
Definition is_user (k : kont) : bool := match k with KUser => true | _ => false end.
Definition is_other (k : kont) : bool := match k with KOther => true | _ => false end.

(** kernel/core/sched.c: only threads in POK_STATE_RUNNABLE are elected (sched.c:464, 523, 615). *)
Definition runnable (s : lsys) (t : Z) : bool := t_state (s_th s t) =? ST_RUNNABLE.

(** Writes back lock object [id] (pok_partitions_lockobjs[id], kernel/core/lockobj.c:39), the threads, and
    the place of thread [t]. *)
Definition with_obj (s : lsys) (id : Z) (o : lockobj) (th : Z -> thread) (t : Z) (k : kont) : lsys :=
  mkLsys (upd (s_obj s) id o) th (s_now s) (upd (s_k s) t k).

(** One call of a lock-object service by thread [t]. *)
Definition call (n : Z) (s : lsys) (t id : Z) (o : lop) : result :=
  let ob := s_obj s id in
  let th := s_th s in
  match o with
  | OpLock timeout =>
      match obj_lock n (s_now s) t ob th timeout with
      | Crash => Failure
      | Done (ob', th', Returns e) =>
          Next (with_obj s id ob' th' t KUser)
               ((if e =? ERR_OK then [EvAcquired id t] else []) ++ [EvReturn t e])
      | Done (ob', th', Blocks d) =>
          Next (with_obj s id ob' th' t (KLock id d)) [EvBlocked id t (prio_of th t)]
      end
  | OpUnlock =>
      match obj_unlock n ob th with
      | Crash => Failure
      | Done (ob', th', e, w) =>
          Next (with_obj s id ob' th' t KUser)
               ((if e =? ERR_OK then [EvReleased id t w] else []) ++ [EvReturn t e])
      end
  | OpWait timeout =>
      match obj_eventwait n (s_now s) t ob th timeout with
      | Crash => Failure
      | Done (ob', th', Returns e) =>
          Next (with_obj s id ob' th' t KUser) [EvReturn t e]
      | Done (ob', th', Blocks d) =>
          let w := match obj_unlock n ob th with Done (_, _, _, w) => w | Crash => None end in
          Next (with_obj s id ob' th' t (KWait id d))
               [EvReleased id t w; EvWaiting id t (prio_of th t)]
      end
  | OpSignal =>
      let '(ob', th', e, w) := obj_eventsignal n ob th in
      Next (with_obj s id ob' th' t KUser) [EvSignalled id t w; EvReturn t e]
  | OpBroadcast =>
      match obj_eventbroadcast n ob th with
      | Crash => Failure
      | Done (ob', th', e, _) =>
          Next (with_obj s id ob' th' t KUser) [EvBroadcast id t; EvReturn t e]
      end
  end.

(** A ready thread continues after the call of the scheduler (lockobj.c:193-211, 275-285). *)
Definition resume (n : Z) (s : lsys) (t : Z) : result :=
  match s_k s t with
  | KUser => Disabled
  | KOther => Next (mkLsys (s_obj s) (s_th s) (s_now s) (upd (s_k s) t KUser)) []
  | KLock id d =>
      match obj_lock_resume n (s_now s) t (s_obj s id) d with
      | Crash => Failure
      | Done (ob', e) =>
          Next (with_obj s id ob' (s_th s) t KUser)
               [if e =? ERR_OK then EvAcquired id t else EvTimeout id t; EvReturn t e]
      end
  | KWait id d =>
      match obj_eventwait_resume n (s_now s) t (s_obj s id) (s_th s) d with
      | Crash => Failure
      | Done (ob', th', rw, Returns e) =>
          Next (with_obj s id ob' th' t KUser)
               [EvWaitEnd id t rw; EvAcquired id t; EvReturn t e]
      | Done (ob', th', rw, Blocks d') =>
          Next (with_obj s id ob' th' t (KRelock id rw))
               [EvWaitEnd id t rw; EvBlocked id t (prio_of (s_th s) t)]
      end
  | KRelock id rw =>
      match obj_lock_resume n (s_now s) t (s_obj s id) 0 with
      | Crash => Failure
      | Done (ob', e) =>
          Next (with_obj s id ob' (s_th s) t KUser)
               [EvAcquired id t; EvReturn t (if negb (e =? ERR_OK) then e else rw)]
      end
  end.

(** One step. [n] is POK_CONFIG_NB_THREADS. *)
Definition step (n : Z) (s : lsys) (l : label) : result :=
  match l with
  | LCreate id a =>
      if o_init (s_obj s id) then Disabled
      else
        let '(o, e) := obj_create (s_obj s id) a in
        Next (mkLsys (upd (s_obj s) id o) (s_th s) (s_now s) (s_k s))
             (if e =? ERR_OK then [EvCreate id a] else [])
  | LCall t id o =>
      if (0 <=? t) && (t <? n) && is_user (s_k s t) && runnable s t
      then call n s t id o else Disabled
  | LOther t st w =>
      if (0 <=? t) && (t <? n) && is_user (s_k s t) && runnable s t
      then Next (mkLsys (s_obj s) (upd (s_th s) t (set_t_wakeup w (set_t_state st (s_th s t))))
                        (s_now s) (upd (s_k s) t KOther)) []
      else Disabled
  | LWakeOther t =>
      if is_other (s_k s t)
      then Next (mkLsys (s_obj s) (set_state (s_th s) t ST_RUNNABLE) (s_now s) (s_k s)) []
      else Disabled
  | LResume t => if runnable s t then resume n s t else Disabled
  | LTick => Next (mkLsys (s_obj s) (s_th s) (s_now s + 1) (s_k s)) []
  | LExpire t =>
      if (t_state (s_th s t) =? ST_WAITING) && (t_wakeup (s_th s t) <=? s_now s)
      then Next (mkLsys (s_obj s) (set_state (s_th s) t ST_RUNNABLE) (s_now s) (s_k s)) []
      else Disabled
  | LEnv t st => Next (mkLsys (s_obj s) (set_state (s_th s) t st) (s_now s) (s_k s)) []
  | LPrio t p =>
      Next (mkLsys (s_obj s) (upd (s_th s) t (set_t_priority p (s_th s t))) (s_now s) (s_k s)) []
  end.

(** A history: the labels are executed in order; disabled labels are skipped. *)
Fixpoint run (n : Z) (s : lsys) (ls : list label) : option (lsys * list event) :=
  match ls with
  | [] => Some (s, [])
  | l :: ls' =>
      match step n s l with
      | Failure => None
      | Disabled => run n s ls'
      | Next s' ev =>
          match run n s' ls' with
          | None => None
          | Some (s'', ev') => Some (s'', ev ++ ev')
          end
      end
  end.

(** After boot: no object is in use (lockobj.c:60-64) and every thread runs user code. *)
Definition boot (th : Z -> thread) (now : Z) : lsys :=
  mkLsys (fun _ => obj_boot obj_zero) th now (fun _ => KUser).
