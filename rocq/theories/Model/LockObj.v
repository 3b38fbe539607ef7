(** Lock objects: kernel/core/lockobj.c:44-287 and 289-427. *)
From Verif Require Import Model.Base Model.State Model.LockFifo.

(** Kinds, kernel/include/core/lockobj.h:34-38. *)
Definition LK_MUTEX := 1.
Definition LK_SEMAPHORE := 2.
Definition LK_EVENT := 3.

(** Operations of the system call, lockobj.h:115-121. *)
Definition LOP_LOCK := 1.
Definition LOP_UNLOCK := 2.
Definition LOP_WAIT := 3.
Definition LOP_SIGNAL := 4.
Definition LOP_BROADCAST := 5.

(** pok_lockobj_t, lockobj.h:75-102. The two spin locks are left out: each operation
    below runs under them and is modelled as one atomic step (see DESIGN.md). *)
Record lockobj := mkObj {
  o_fifo   : fifo;
  o_event  : fifo;
  o_lpol   : Z;
  o_qpol   : Z;
  o_kind   : Z;
  o_init   : bool;
  o_value  : Z;
  o_max    : Z
}.

(** Assignment to one field. *)
Definition set_o_fifo (f : fifo) (o : lockobj) : lockobj :=
  mkObj f (o_event o) (o_lpol o) (o_qpol o) (o_kind o) (o_init o) (o_value o) (o_max o).
Definition set_o_event (f : fifo) (o : lockobj) : lockobj :=
  mkObj (o_fifo o) f (o_lpol o) (o_qpol o) (o_kind o) (o_init o) (o_value o) (o_max o).
Definition set_o_value (v : Z) (o : lockobj) : lockobj :=
  mkObj (o_fifo o) (o_event o) (o_lpol o) (o_qpol o) (o_kind o) (o_init o) v (o_max o).

(** pok_lockobj_attr_t, lockobj.h:67-73. *)
Record lattr := mkLattr {
  la_kind : Z; la_lpol : Z; la_qpol : Z; la_initial : Z; la_max : Z
}.

(** Static storage is zero (is_empty = FALSE = 0); this is the state of an object
    before pok_lockobj_init (lockobj.c:39). *)
Definition fifo_zero : fifo := mkFifo 0 0 false (fun _ => 0).
Definition obj_zero : lockobj := mkObj fifo_zero fifo_zero 0 0 0 false 0 0.

(** lockobj.c:60-64, for one object. *)
Definition obj_boot (o : lockobj) : lockobj :=
  mkObj (o_fifo o) (o_event o) (o_lpol o) (o_qpol o) (o_kind o) false 1 (o_max o).

(** lockobj.c:69-108. *)
Definition obj_create (o : lockobj) (a : lattr) : lockobj * Z :=
  if negb (la_lpol a =? 0) && negb (la_lpol a =? 1) && negb (la_lpol a =? 2)
  then (o, ERR_LOCKOBJ_POLICY)
  else if negb (la_kind a =? LK_MUTEX) && negb (la_kind a =? LK_SEMAPHORE)
          && negb (la_kind a =? LK_EVENT)
  then (o, ERR_LOCKOBJ_KIND)
  else
    (mkObj (fifo_init (o_fifo o)) (fifo_init (o_event o)) (la_lpol a)
           (if la_kind a =? LK_EVENT then QD_PRIORITY else la_qpol a)
           (la_kind a) true
           (if la_kind a =? LK_SEMAPHORE then la_initial a else 1)
           (if la_kind a =? LK_SEMAPHORE then la_max a else o_max o),
     ERR_OK).

(** Outcome of the first half of a possibly blocking service. [Crash] stands for
    a failed kernel assertion or a loop that does not terminate. *)
Inductive outcome :=
| Returns (e : Z)            (** returns [e] to the caller *)
| Blocks (deadline : Z).     (** the caller was put to sleep; 0 = no deadline *)

Inductive res (A : Type) := Done (a : A) | Crash.
Arguments Done {A} a.
Arguments Crash {A}.

(** Assignments [pok_threads[i].state = s], kernel/core/sched.c:678, 686, 706. *)
Definition set_state (ths : Z -> thread) (i s : Z) : Z -> thread :=
  upd ths i (set_t_state s (ths i)).

(** kernel/core/sched.c:677-679. *)
Definition sched_unlock_thread (ths : Z -> thread) (i : Z) : Z -> thread :=
  set_state ths i ST_RUNNABLE.

(** sched.c:685-687. *)
Definition sched_lock_current (ths : Z -> thread) (cur : Z) : Z -> thread :=
  set_state ths cur ST_LOCK.

(** sched.c:689-692. *)
Definition sched_lock_current_timed (ths : Z -> thread) (cur time : Z) : Z -> thread :=
  upd ths cur (set_t_wakeup time (set_t_state ST_WAITING (ths cur))).

(** [pok_threads[i].priority], kernel/core/lockobj.c:448-449. *)
Definition prio_of (ths : Z -> thread) (i : Z) : Z := t_priority (ths i).

(** lockobj.c:265-266 and 184: absolute deadline in unsigned 64-bit arithmetic;
    [timeout] is 0 when there is none (or no attribute was given). *)
Definition deadline_of (timeout now : Z) : Z :=
  if 0 <? timeout then u64 (timeout + now) else 0.

(** lockobj.c:269-272 and 186-190. *)
Definition block_current (ths : Z -> thread) (cur deadline : Z) : Z -> thread :=
  if 0 <? deadline then sched_lock_current_timed ths cur deadline
  else sched_lock_current ths cur.

(** pok_lockobj_lock up to the call of the scheduler, lockobj.c:251-274.
    The result of the insertion is ignored by the C code (267). *)
Definition obj_lock (n now cur : Z) (o : lockobj) (ths : Z -> thread) (timeout : Z)
  : res (lockobj * (Z -> thread) * outcome) :=
  if negb (o_init o) then Done (o, ths, Returns ERR_LOCKOBJ_NOTREADY)
  else if 0 <? o_value o then
    if fifo_is_empty (o_fifo o)
    then Done (set_o_value (u16 (o_value o - 1)) o, ths, Returns ERR_OK)
    else Crash
  else
    match fifo_enqueue n (prio_of ths) (o_fifo o) cur (o_qpol o) with
    | None => Crash
    | Some (f, _) =>
        let d := deadline_of timeout now in
        Done (set_o_fifo f o, block_current ths cur d, Blocks d)
    end.

(** pok_lockobj_lock after the scheduler came back, lockobj.c:276-285. *)
Definition obj_lock_resume (n now cur : Z) (o : lockobj) (deadline : Z)
  : res (lockobj * Z) :=
  if negb (deadline =? 0) && (deadline <=? now) then
    match fifo_remove n (o_fifo o) cur with
    | None => Crash
    | Some (f, _) => Done (set_o_fifo f o, ERR_TIMEOUT)
    end
  else Done (o, ERR_OK).

(** pok_lockobj_unlock, lockobj.c:289-377. The last component is the thread that was
    made ready, for which the caller then reschedules (372-374). *)
Definition obj_unlock (n : Z) (o : lockobj) (ths : Z -> thread)
  : res (lockobj * (Z -> thread) * Z * option Z) :=
  if negb (o_init o) then Done (o, ths, ERR_LOCKOBJ_NOTREADY, None)
  else if negb (o_value o =? 0) then
    if fifo_is_empty (o_fifo o) then
      if o_kind o =? LK_SEMAPHORE then
        if o_value o <? o_max o
        then Done (set_o_value (u16 (o_value o + 1)) o, ths, ERR_OK, None)
        else Done (o, ths, ERR_OK, None)
      else Done (set_o_value 1 o, ths, ERR_OK, None)
    else Crash
  else if fifo_is_empty (o_fifo o) then
    Done (set_o_value 1 o, ths, ERR_OK, None)
  else
    let t := fifo_get_head (o_fifo o) in
    let '(f, _) := fifo_dequeue n (o_fifo o) in
    Done (set_o_fifo f o, sched_unlock_thread ths t, ERR_OK, Some t).

(** pok_lockobj_eventwait up to the call of the scheduler, lockobj.c:158-192. The
    assertion of line 179 is compiled in. Rescheduling inside the nested unlock is
    suppressed because eventspin is held (372). *)
Definition obj_eventwait (n now cur : Z) (o : lockobj) (ths : Z -> thread) (timeout : Z)
  : res (lockobj * (Z -> thread) * outcome) :=
  if negb (o_init o) then Done (o, ths, Returns ERR_LOCKOBJ_NOTREADY)
  else if negb (o_kind o =? LK_EVENT) then Done (o, ths, Returns ERR_EINVAL)
  else
    match obj_unlock n o ths with
    | Crash => Crash
    | Done (o1, ths1, e, _) =>
        if negb (e =? 0) then Done (o1, ths1, Returns ERR_UNAVAILABLE)
        else
          match fifo_enqueue n (prio_of ths1) (o_event o1) cur QD_PRIORITY with
          | None => Crash
          | Some (f, er) =>
              if negb (er =? 0) then Crash
              else
                let d := deadline_of timeout now in
                Done (set_o_event f o1, block_current ths1 cur d, Blocks d)
          end
    end.

(** pok_lockobj_eventwait after the scheduler came back, lockobj.c:195-211: timeout
    handling, then re-locking, which may block again. The first component of the result
    value is [ret_wait]. *)
Definition obj_eventwait_resume (n now cur : Z) (o : lockobj) (ths : Z -> thread)
  (deadline : Z) : res (lockobj * (Z -> thread) * Z * outcome) :=
  let r :=
    if negb (deadline =? 0) && (deadline <=? now) then
      match fifo_remove n (o_event o) cur with
      | None => Crash
      | Some (f, _) => Done (set_o_event f o, ERR_TIMEOUT)
      end
    else Done (o, ERR_OK) in
  match r with
  | Crash => Crash
  | Done (o1, ret_wait) =>
      match obj_lock n now cur o1 ths 0 with
      | Crash => Crash
      | Done (o2, ths2, Returns e) =>
          Done (o2, ths2, ret_wait, Returns (if negb (e =? ERR_OK) then e else ret_wait))
      | Done (o2, ths2, Blocks d) => Done (o2, ths2, ret_wait, Blocks d)
      end
  end.

(** pok_lockobj_eventsignal, lockobj.c:214-229. *)
Definition obj_eventsignal (n : Z) (o : lockobj) (ths : Z -> thread)
  : lockobj * (Z -> thread) * Z * option Z :=
  if fifo_is_empty (o_event o) then (o, ths, ERR_NOTFOUND, None)
  else
    let t := fifo_get_head (o_event o) in
    let '(f, _) := fifo_dequeue n (o_event o) in
    (set_o_event f o, sched_unlock_thread ths t, ERR_OK, Some t).

(** lockobj.c:236-241. [None] when the loop has not stopped. *)
Fixpoint broadcast_loop (fuel : nat) (n : Z) (f : fifo) (ths : Z -> thread)
  : option (fifo * (Z -> thread)) :=
  match fuel with
  | O => None
  | S k =>
      if fifo_is_empty f then Some (f, ths)
      else
        let t := fifo_get_head f in
        broadcast_loop k n (fst (fifo_dequeue n f)) (sched_unlock_thread ths t)
  end.

(** pok_lockobj_eventbroadcast, lockobj.c:231-249. The last component tells whether
    a rescheduling is requested. *)
Definition obj_eventbroadcast (n : Z) (o : lockobj) (ths : Z -> thread)
  : res (lockobj * (Z -> thread) * Z * bool) :=
  match broadcast_loop (S (S (Z.to_nat n))) n (o_event o) ths with
  | None => Crash
  | Some (f, ths') => Done (set_o_event f o, ths', ERR_OK, negb (fifo_is_empty (o_event o)))
  end.
