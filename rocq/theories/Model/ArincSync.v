(** The ARINC 653 semaphores, events and time-outs of libpok: libpok/arinc653/semaphore.c, event.c, time.c, queueing.c,
    buffer.c with the functions of libpok/core and libpok/middleware that they call.

    Times are in nanoseconds, signed 64-bit numbers (SYSTEM_TIME_TYPE, include/arinc653/types.h:65-67). A name is the
    list of its characters without the final NUL. Tables are total functions: cells outside an array stand for what
    the linker has put there. *)
From Verif Require Import Model.Base Model.State Model.LockObj Model.LockSys Model.Kernel Model.Port Model.Arinc.

(** ** Time-outs *)
(** INFINITE_TIME_VALUE, types.h:67. *)
Definition INFINITE_TIME := -1.
(** WAIT_SEMAPHORE, semaphore.c:105-112, and pok_sem_wait (core/semwait.c:29-36): the time-out of the kernel service. *)
Definition sem_timeout (T : Z) : Z := u64 ((if T =? INFINITE_TIME then 0 else u64 T / 1000) * 1000).
(** WAIT_EVENT, event.c:139-140, and pok_event_wait (core/eventwait.c:30-37). SEND_BUFFER and RECEIVE_BUFFER
    (buffer.c:55-77) wait in the same way (middleware/buffersend.c:61, bufferreceive.c:52). *)
Definition event_timeout (T : Z) : Z := u64 (u64 T * 1000).
(** TIMED_WAIT, time.c:26-28, and pok_thread_sleep (core/threadsleep.c:18-20): microseconds, in 32 bits. *)
Definition timed_wait (T : Z) : prog := Ask (SSleep (u32 (u64 T / 1000))) (fun r => Fin r).
(** RECEIVE_QUEUING_MESSAGE, queueing.c:94-99, and middleware/portqueueingreceive.c:23-29 of libpok: 32 bits. *)
Definition receive_timeout (T : Z) : Z := u32 (if T =? INFINITE_TIME then 0 else T).
(** SEND_QUEUING_MESSAGE, queueing.c:81-82, and middleware/portqueueingsend.c:22-26 of libpok. *)
Definition send_timeout (T : Z) : Z := u32 T.

(** semaphore.c:114-122, event.c:142-154. *)
Definition wait_code (r : Z) : Z :=
  if r =? ERR_OK then NO_ERROR else if r =? ERR_TIMEOUT then TIMED_OUT else INVALID_PARAM.
(** semaphore.c:139-143, event.c:105-111. *)
Definition signal_code (r : Z) : Z := if r =? ERR_OK then NO_ERROR else INVALID_PARAM.

(** ** Names and identifiers *)
(** pok_arinc653_semaphores_names and _layers (semaphore.c:44-46); events: event.c:41-42. *)
Record objs := mkObjs { ob_names : list (list Z); ob_ready : Z -> bool; ob_core : Z -> Z }.
Definition ob_nb (o : objs) : Z := Z.of_nat (length (ob_names o)).
(** CHECK_SEM_INIT (semaphore.c:28-35): nothing is ready at first; static storage is zero. [r], [c]: outside the table. *)
Definition objs_start (names : list (list Z)) (r : Z -> bool) (c : Z -> Z) : objs :=
  let inside i := (0 <=? i) && (i <? Z.of_nat (length names)) in
  mkObjs names (fun i => if inside i then false else r i) (fun i => if inside i then 0 else c i).

(** strncmp (names[i], NAME, strlen (NAME)) == 0: [name] is a prefix of the declared name (C70_strncmp). *)
Fixpoint has_prefix (name declared : list Z) : bool :=
  match name, declared with
  | [], _ => true
  | _ :: _, [] => false
  | a :: n, b :: d => (a =? b) && has_prefix n d
  end.
(** GET_SEMAPHORE_ID, semaphore.c:146-165; GET_EVENT_ID, event.c:157-175: the first match. *)
Fixpoint find_from (name : list Z) (names : list (list Z)) (i : Z) : option Z :=
  match names with
  | [] => None
  | d :: r => if has_prefix name d then Some i else find_from name r (i + 1)
  end.
Definition get_obj_id (name : list Z) (o : objs) : pout :=
  match find_from name (ob_names o) 0 with
  | Some i => PProcess i NO_ERROR
  | None => PReturns INVALID_CONFIG
  end.

(** CREATE_SEMAPHORE, semaphore.c:48-92; CREATE_EVENT, event.c:44-85. [r], [id]: what the kernel returns and
    stores. An identifier that was found is inside the table, so that the tests of lines 70 and 61 do nothing. *)
Definition create_obj (name : list Z) (r id : Z) (o : objs) : objs * pout :=
  match find_from name (ob_names o) 0 with
  | None => (o, PReturns INVALID_CONFIG)
  | Some i =>
      if ob_ready o i then (o, PProcess i NO_ACTION)
      else if negb (r =? ERR_OK) then (o, PProcess i INVALID_PARAM)
      else (mkObjs (ob_names o) (upd (ob_ready o) i true) (upd (ob_core o) i id), PProcess i NO_ERROR)
  end.

Inductive obj_op := BCreate (name : list Z) (r id : Z) | BGetId (name : list Z).
Definition obj_step (op : obj_op) (o : objs) : objs * pout :=
  match op with
  | BCreate name r id => create_obj name r id o
  | BGetId name => (o, get_obj_id name o)
  end.
Fixpoint obj_run (ops : list obj_op) (o : objs) : objs * list pout :=
  match ops with
  | [] => (o, [])
  | op :: t => let '(o1, r) := obj_step op o in let '(o2, rs) := obj_run t o1 in (o2, r :: rs)
  end.

(** What a request on identifier [id] does: it is refused with a code, or passed to the kernel. *)
Inductive request := Refused (code : Z) | Passed (v : svc).
(** WAIT_SEMAPHORE, semaphore.c:94-112; [SEMAPHORE_ID] is signed (include/arinc653/semaphore.h:50, types.h:40). *)
Definition wait_semaphore (o : objs) (id T : Z) : request :=
  if ob_nb o <? id then Refused INVALID_PARAM
  else Passed (SLockOp (ob_core o id) LK_SEMAPHORE (Some (OpLock (sem_timeout T)))).
(** SIGNAL_SEMAPHORE, semaphore.c:125-137. *)
Definition signal_semaphore (o : objs) (id : Z) : request :=
  if ob_nb o <? id then Refused INVALID_PARAM
  else Passed (SLockOp (ob_core o id) LK_SEMAPHORE (Some OpUnlock)).
(** WAIT_EVENT, event.c:121-140. *)
Definition wait_event (o : objs) (id T : Z) : request :=
  if ob_nb o <=? id then Refused INVALID_CONFIG
  else if negb (ob_ready o id) then Refused NOT_AVAILABLE
  else Passed (SLockOp (ob_core o id) LK_EVENT (Some (OpWait (event_timeout T)))).
(** SET_EVENT, event.c:87-104. *)
Definition set_event (o : objs) (id : Z) : request :=
  if ob_nb o <=? id then Refused INVALID_CONFIG
  else if negb (ob_ready o id) then Refused NOT_AVAILABLE
  else Passed (SLockOp (ob_core o id) LK_EVENT (Some OpSignal)).
