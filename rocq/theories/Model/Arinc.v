(** The ARINC 653 interface of libpok: libpok/arinc653/process.c, arincutils.c, time.c, partition.c, semaphore.c,
    event.c, queueing.c, buffer.c, blackboard.c.

    A service is a program that asks the kernel; the kernel is the machine of Model/Kernel.v. Names are lists of
    characters without the final NUL, at most 29 (NAME_TYPE, include/arinc653/types.h:56-57); two names are compared
    with strcmp, which is equality (C41). Tables are total functions: cells outside an array stand for what the
    linker has put there. *)
From Verif Require Import Model.Base Model.State Model.LockSys Model.Sched Model.Kernel.

(** RETURN_CODE_TYPE, include/arinc653/types.h:46-55. *)
Definition NO_ERROR := 0.
Definition NO_ACTION := 1.
Definition NOT_AVAILABLE := 2.
Definition INVALID_PARAM := 3.
Definition INVALID_CONFIG := 4.
Definition INVALID_MODE := 5.
Definition TIMED_OUT := 6.

(** ** Processes and their names *)

(** PROCESS_STATE_TYPE, include/arinc653/process.h:43-48. *)
Definition AP_DORMANT := 0.
Definition AP_WAITING := 3.
(** process.h:26-27. *)
Definition MIN_PRIORITY := 1.
Definition MAX_PRIORITY := 63.

(** pok_arinc653_processes_nb, pok_arinc653_processes (process.c:25-26), arinc_process_attribute
    (include/arinc653/arincutils.h:24-30). *)
Record procs := mkProcs { pr_nb : Z; pr_core : Z -> Z; pr_name : Z -> list Z; pr_prio : Z -> Z }.
(** Static storage is zero. *)
Definition procs_start : procs := mkProcs 0 (fun _ => 0) (fun _ => []) (fun _ => 0).

Definition same_name (a b : list Z) : bool := if list_eq_dec Z.eq_dec a b then true else false.
(** process_name_exist, arincutils.c:24-31; [n] entries from [i] on. 0: not found, or found in entry 0. *)
Fixpoint name_loop (n : nat) (p : procs) (name : list Z) (i : Z) : Z :=
  match n with
  | O => 0
  | S k => if same_name name (pr_name p i) then i else name_loop k p name (i + 1)
  end.
Definition name_exist (nbt : Z) (p : procs) (name : list Z) : Z := name_loop (Z.to_nat nbt) p name 0.

(** [PReturns code]: nothing stored; [PProcess id code]: the identifier [id] is stored; [POutside]: a write
    behind the end of the tables. *)
Inductive pout := PReturns (code : Z) | PProcess (id code : Z) | POutside.

(** GET_PROCESS_ID, process.c:28-40. [nbt] is POK_CONFIG_NB_THREADS. *)
Definition get_process_id (nbt : Z) (name : list Z) (p : procs) : pout :=
  let id := name_exist nbt p name in
  PProcess id (if id =? 0 then INVALID_CONFIG else NO_ERROR).

(** CREATE_PROCESS, process.c:81-121. [r], [id]: what pok_thread_create returns and stores; [r2]: what
    pok_thread_suspend_target returns. *)
Definition create_process (nbt : Z) (name : list Z) (prio : Z) (r id r2 : Z) (p : procs) : procs * pout :=
  if negb (name_exist nbt p name =? 0) then (p, PReturns NO_ACTION)
  else if (MAX_PRIORITY <? prio) || (prio <? MIN_PRIORITY) then (p, PReturns INVALID_PARAM)
  else if negb (r =? ERR_OK) then (p, PReturns r)
  else
    let nb := u32 (pr_nb p + 1) in
    if nbt <=? nb then (p, POutside)
    else (mkProcs nb (upd (pr_core p) nb id) (upd (pr_name p) nb name) (upd (pr_prio p) nb prio), PProcess nb r2).

(** GET_PROCESS_STATUS, process.c:53-79: name and base priority stored for process [id]; both are taken from the
    entry with the number of the kernel thread (lines 68-71). *)
Definition status_name (id : Z) (p : procs) : list Z := pr_name p (pr_core p id).
Definition status_base_prio (id : Z) (p : procs) : Z := pr_prio p (pr_core p id).

(** GET_MY_ID, process.c:42-51, for a process executed by kernel thread [t]. *)
Definition get_my_id (t : Z) : pout := PProcess t NO_ERROR.

Inductive proc_op := OCreate (name : list Z) (prio r id r2 : Z) | OGetId (name : list Z).
Definition proc_step (nbt : Z) (o : proc_op) (p : procs) : procs * pout :=
  match o with
  | OCreate name prio r id r2 => create_process nbt name prio r id r2 p
  | OGetId name => (p, get_process_id nbt name p)
  end.
Fixpoint proc_run (nbt : Z) (ops : list proc_op) (p : procs) : procs * list pout :=
  match ops with
  | [] => (p, [])
  | o :: t => let '(p1, r) := proc_step nbt o p in let '(p2, rs) := proc_run nbt t p1 in (p2, r :: rs)
  end.

(** ** Services that ask the kernel *)

(** pok_thread_attr_t as filled by THREAD_STATUS (kernel/core/thread.c:329-343); the fields that libpok looks at. *)
Record status := mkStatus { st_state : Z; st_period : Z; st_prio : Z }.
Definition status_of (t : thread) : status := mkStatus (t_state t) (u64 (t_period t)) (t_priority t).

(** A service: it returns a code, or makes a system call and goes on with its code (and, for THREAD_STATUS, with
    the attributes that the kernel has stored). *)
Inductive prog :=
| Fin (code : Z)
| Ask (v : svc) (k : Z -> prog)
| AskStatus (id : Z) (k : Z -> status -> prog).

(** Execution by the thread that executes on processor [c], not interrupted between two system calls. [junk] is
    the content of the local variable before THREAD_STATUS fills it. [None]: the kernel fails or refuses the call,
    or the thread has lost the processor with system calls still to make. *)
Fixpoint exec (cfg : config) (c : Z) (junk : status) (p : prog) (s : kstate) : option (kstate * Z) :=
  match p with
  | Fin e => Some (s, e)
  | Ask v k =>
      match kstep cfg s (KCall c v) with
      | KNext s' (XRet _ _ _ r _ :: _) =>
          match k r with
          | Fin e => Some (s', e)
          | _ => if k_cur s' c =? k_cur s c then exec cfg c junk (k r) s' else None
          end
      | _ => None
      end
  | AskStatus id k =>
      match kstep cfg s (KCall c (SStatus id)) with
      | KNext s' (XRet _ _ _ r _ :: _) =>
          exec cfg c junk (k r (if r =? ERR_OK then status_of (k_th s id) else junk)) s'
      | _ => None
      end
  end.

(** [core] is pok_arinc653_processes[process_id]. INFINITE_TIME_VALUE (types.h:67) as an unsigned 64-bit value: *)
Definition FOREVER := 2 ^ 64 - 1.

(** SUSPEND, process.c:157-178; the code of THREAD_STATUS is not looked at. *)
Definition apex_suspend (core : Z) : prog :=
  AskStatus core (fun _ a =>
    if st_state a =? AP_DORMANT then Fin INVALID_MODE
    else if st_period a =? FOREVER then Fin INVALID_MODE
    else if st_state a =? AP_WAITING then Fin NO_ACTION
    else Ask (SSuspendTarget core) (fun r => Fin r)).

(** RESUME, process.c:180-205. *)
Definition apex_resume (core : Z) : prog :=
  AskStatus core (fun r a =>
    if negb (r =? 0) then Fin INVALID_PARAM
    else if st_state a =? AP_DORMANT then Fin INVALID_MODE
    else if st_period a =? FOREVER then Fin INVALID_MODE
    else if negb (st_state a =? AP_WAITING) then Fin INVALID_MODE
    else Ask (SResume core) (fun r => Fin r)).

(** STOP, process.c:211-214. *)
Definition apex_stop (core : Z) : prog := Ask (SStop core) (fun r => Fin r).

(** DELAYED_START, process.c:216-247, delay in ns; pok_thread_delayed_start (libpok/core/threaddelayedstart.c:22-26)
    passes 32 bits. START (207-209) has delay 0. *)
Definition apex_delayed_start (core delay : Z) : prog :=
  AskStatus core (fun r a =>
    if negb (r =? ERR_OK) then Fin INVALID_PARAM
    else if negb (st_state a =? AP_DORMANT) then Fin NO_ACTION
    else if delay =? -1 then Fin INVALID_PARAM
    else Ask (SDelayedStart core (u32 delay)) (fun r => Fin (if r =? ERR_OK then NO_ERROR else INVALID_PARAM))).
Definition apex_start (core : Z) : prog := apex_delayed_start core 0.

(** SET_PRIORITY, process.c:125-147. *)
Definition apex_set_priority (core prio : Z) : prog :=
  AskStatus core (fun r a =>
    if negb (r =? ERR_OK) then Fin INVALID_PARAM
    else if (MAX_PRIORITY <? prio) || (prio <? MIN_PRIORITY) then Fin INVALID_PARAM
    else if st_state a =? AP_DORMANT then Fin INVALID_MODE
    else Ask (SSetPriority core prio) (fun r => Fin r)).
