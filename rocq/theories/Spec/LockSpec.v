(** What users expect of lock objects, stated on sequences of observable events. *)
From Verif Require Import Model.Base Model.State Model.LockFifo Model.LockObj Model.LockSys.

(** Queue of waiting threads in order of arrival, each with its priority. *)
Definition wqueue := list (Z * Z).

Fixpoint leaves (t : Z) (q : wqueue) : wqueue :=
  match q with
  | [] => []
  | (x, p) :: q' => if x =? t then q' else (x, p) :: leaves t q'
  end.

Definition waits (t : Z) (q : wqueue) : bool := existsb (fun e => fst e =? t) q.

(** First come, first served. *)
Definition first_come (q : wqueue) : option Z :=
  match q with [] => None | (x, _) :: _ => Some x end.

(** Highest priority; the earliest arrival among equals. *)
Fixpoint best (q : wqueue) : option (Z * Z) :=
  match q with
  | [] => None
  | (x, p) :: q' =>
      match best q' with
      | Some (y, r) => if p <? r then Some (y, r) else Some (x, p)
      | None => Some (x, p)
      end
  end.
Definition most_urgent (q : wqueue) : option Z :=
  match best q with Some (x, _) => Some x | None => None end.

Definition opt_is (a b : option Z) : bool :=
  match a, b with
  | None, None => true
  | Some x, Some y => x =? y
  | _, _ => false
  end.

(** Replay of the events of object [id] against the list of waiters. [None] as soon as an
    event contradicts the discipline: a release that wakes another thread than the one the
    discipline [pick] designates (or nobody although somebody waits), or a thread that obtains the
    resource while it is still waiting. *)
Definition replay_step (pick : wqueue -> option Z) (id : Z) (q : wqueue) (e : event) : option wqueue :=
  match e with
  | EvCreate i _ => if i =? id then Some [] else Some q
  | EvBlocked i t p => if i =? id then Some (q ++ [(t, p)]) else Some q
  | EvReleased i _ w =>
      if i =? id then
        if opt_is w (pick q)
        then Some (match w with Some x => leaves x q | None => q end)
        else None
      else Some q
  | EvTimeout i t => if i =? id then Some (leaves t q) else Some q
  | EvAcquired i t => if i =? id then (if waits t q then None else Some q) else Some q
  | _ => Some q
  end.

Fixpoint replay (pick : wqueue -> option Z) (id : Z) (q : wqueue) (evs : list event) : option wqueue :=
  match evs with
  | [] => Some q
  | e :: evs' =>
      match replay_step pick id q e with
      | None => None
      | Some q' => replay pick id q' evs'
      end
  end.

(** Same for the threads waiting for an event: a signal wakes the most urgent waiter (and
    nobody only if nobody waits), a broadcast empties the queue, a wait that ends with TIMEOUT
    leaves it, and a wait can end with OK only after having been woken. *)
Definition ereplay_step (id : Z) (q : wqueue) (e : event) : option wqueue :=
  match e with
  | EvCreate i _ => if i =? id then Some [] else Some q
  | EvWaiting i t p => if i =? id then Some (q ++ [(t, p)]) else Some q
  | EvSignalled i _ w =>
      if i =? id then
        if opt_is w (most_urgent q)
        then Some (match w with Some x => leaves x q | None => q end)
        else None
      else Some q
  | EvBroadcast i _ => if i =? id then Some [] else Some q
  | EvWaitEnd i t e =>
      if i =? id then
        if e =? ERR_OK then (if waits t q then None else Some q) else Some (leaves t q)
      else Some q
  | _ => Some q
  end.

Fixpoint ereplay (id : Z) (q : wqueue) (evs : list event) : option wqueue :=
  match evs with
  | [] => Some q
  | e :: evs' =>
      match ereplay_step id q e with
      | None => None
      | Some q' => ereplay id q' evs'
      end
  end.

(** Counting, for mutual exclusion. *)
Definition is_acquire (id : Z) (e : event) : bool :=
  match e with EvAcquired i _ => i =? id | _ => false end.
Definition is_release (id : Z) (e : event) : bool :=
  match e with EvReleased i _ _ => i =? id | _ => false end.
Definition count (p : event -> bool) (evs : list event) : Z :=
  Z.of_nat (length (filter p evs)).

(** Histories in which a thread that waits for a lock or an event is made ready only by a
    release/signal or by the expiry of its timeout, and keeps its priority while it waits;
    signals go to created objects; disciplines are FIFO or PRIORITY. *)
Definition undisturbed (s : lsys) (l : label) : Prop :=
  match l with
  | LEnv _ _ => False
  | LPrio t _ => s_k s t = KUser \/ s_k s t = KOther
  | LCall _ id OpSignal => o_init (s_obj s id) = true
  | LCall _ id OpBroadcast => o_init (s_obj s id) = true
  | LCreate _ a => la_qpol a = QD_FIFO \/ la_qpol a = QD_PRIORITY
  | _ => True
  end.

Fixpoint undisturbed_run (n : Z) (s : lsys) (ls : list label) : Prop :=
  match ls with
  | [] => True
  | l :: ls' =>
      undisturbed s l /\
      match step n s l with
      | Next s' _ => undisturbed_run n s' ls'
      | Disabled => undisturbed_run n s ls'
      | Failure => True
      end
  end.

(** Attributes as the C types allow them (uint16 values). *)
Definition attr_typed (a : lattr) : Prop :=
  0 <= la_initial a < 2^16 /\ 0 <= la_max a < 2^16.
Definition label_typed (l : label) : Prop :=
  match l with LCreate _ a => attr_typed a | _ => True end.

(** Threads blocked in a lock request, or in the wait for an event, of object [id]. *)
Definition blocked_on (s : lsys) (id t : Z) : Prop :=
  ((exists d, s_k s t = KLock id d) \/ (exists r, s_k s t = KRelock id r)) /\
  t_state (s_th s t) <> ST_RUNNABLE.
Definition event_blocked_on (s : lsys) (id t : Z) : Prop :=
  (exists d, s_k s t = KWait id d) /\ t_state (s_th s t) <> ST_RUNNABLE.

(** Thread whose action produced the event. *)
Definition actor (e : event) : option Z :=
  match e with
  | EvCreate _ _ => None
  | EvBlocked _ t _ | EvAcquired _ t | EvTimeout _ t | EvReleased _ t _ | EvWaiting _ t _
  | EvWaitEnd _ t _ | EvSignalled _ t _ | EvBroadcast _ t | EvReturn t _ => Some t
  end.
(** First action of thread [w]. *)
Fixpoint first_action (w : Z) (evs : list event) : option event :=
  match evs with
  | [] => None
  | e :: evs' => if opt_is (actor e) (Some w) then Some e else first_action w evs'
  end.
