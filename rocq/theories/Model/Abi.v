(** The structures that libpok and the kernel exchange, each as declared by its own side, and the
    functions of both sides that fill and read them.
    Simplified: memory is a function from addresses to bytes without wrap-around at 2^32 (C31 and C34
    show that the structures lie in the partition); the kernel sees the memory of the partition at the
    address the partition uses (the base address is added on one side and is part of the segment on the
    other); the padding between the fields keeps its contents. *)
From Coq Require Import String.
From Verif Require Import Model.Base Spec.CLayout.
Local Open Scope string_scope.
Local Open Scope Z_scope.

(** Store and load of [w] bytes, least significant byte first (x86). *)
Definition store (m : Z -> Z) (a w v : Z) : Z -> Z :=
  fun x => if (a <=? x) && (x <? a + w) then byte v (x - a) else m x.
Fixpoint loadn (m : Z -> Z) (a : Z) (k : nat) : Z :=
  match k with O => 0 | S j => m a + 256 * loadn m (a + 1) j end.
Definition load (m : Z -> Z) (a w : Z) : Z := loadn m a (Z.to_nat w).

(** p->n = v and p->n for a structure declared as [fs]. *)
Definition set (fs : list field) (m : Z -> Z) (a : Z) (n : string) (v : Z) : Z -> Z :=
  match where_is fs n with Some (o, w) => store m (a + o) w v | None => m end.
Definition get (fs : list field) (m : Z -> Z) (a : Z) (n : string) : Z :=
  match where_is fs n with Some (o, w) => load m (a + o) w | None => 0 end.
(** Assignment of all fields. *)
Definition write_all (fs : list field) (m : Z -> Z) (a : Z) (v : string -> Z) : Z -> Z :=
  fold_left (fun m n => set fs m a n (v n)) (map fst fs) m.

(** ** Declarations of the kernel *)
(** pok_thread_attr_t, kernel/include/core/thread.h:68-77. *)
Definition k_thread_attr : list field :=
  [f8 "priority"; f8 "processor_affinity"; f32 "entry"; f64 "period"; f64 "deadline"; f64 "time_capacity";
   f32 "stack_size"; f32 "state"].
(** pok_lockobj_attr_t, kernel/include/core/lockobj.h:66-72; pok_sem_value_t is uint16_t, types.h:42. *)
Definition k_lockobj_attr : list field :=
  [f32 "kind"; f32 "locking_policy"; f32 "queueing_policy"; f16 "initial_value"; f16 "max_value"].
(** pok_lockobj_lockattr_t, kernel/include/core/lockobj.h:116-121. *)
Definition k_lockattr : list field :=
  [f32 "operation"; f32 "obj_kind"; f32 "lock_kind"; f64 "timeout"].
(** pok_port_sampling_status_t, kernel/include/middleware/port.h:96-101. *)
Definition k_sampling : list field := [f32 "size"; f8 "direction"; f64 "refresh"; f32 "validity"].
(** pok_port_queueing_status_t, kernel/include/middleware/port.h:68-72. *)
Definition k_queueing : list field := [f32 "size"; f8 "direction"; f8 "waiting_processes"].
(** pok_syscall_args_t, kernel/include/core/syscall.h:103-110. *)
Definition k_args : list field := [f32 "nargs"; f32 "arg1"; f32 "arg2"; f32 "arg3"; f32 "arg4"; f32 "arg5"].
(** s_pci_device, kernel/include/arch/x86/pci.h:49-60. *)
Definition k_pci : list field :=
  [f16 "bus"; f16 "dev"; f16 "fun"; f16 "vendorid"; f16 "deviceid"; f16 "irq_line"; f16 "io_range";
   fwords "bar" 6; f32 "addr"; f32 "irq_handler"].
(** pok_error_status_t, kernel/include/core/error.h:39-47. *)
Definition k_error : list field :=
  [f8 "error_kind"; f32 "failed_thread"; f32 "failed_addr"; fbytes "msg" 250; f32 "msg_size"].
(** kernel/include/core/error.h:21-37. *)
Definition k_kinds : list (string * Z) :=
  [("DEADLINE_MISSED", 10); ("APPLICATION_ERROR", 11); ("NUMERIC_ERROR", 12); ("ILLEGAL_REQUEST", 13);
   ("STACK_OVERFLOW", 14); ("MEMORY_VIOLATION", 15); ("HARDWARE_FAULT", 16); ("POWER_FAIL", 17);
   ("PARTITION_CONFIGURATION", 30); ("PARTITION_INIT", 31); ("PARTITION_SCHEDULING", 32);
   ("PARTITION_HANDLER", 33); ("PARTITION_PROCESS", 34); ("KERNEL_INIT", 50); ("KERNEL_SCHEDULING", 51);
   ("KERNEL_CONFIG", 52)].

(** ** Declarations of libpok *)
(** pok_thread_attr_t, libpok/include/core/thread.h:28-37. *)
Definition l_thread_attr : list field :=
  [f8 "priority"; f8 "processor_affinity"; f32 "entry"; f64 "period"; f64 "deadline"; f64 "time_capacity";
   f32 "stack_size"; f32 "state"].
(** pok_lockobj_attr_t, libpok/include/core/lockobj.h:37-43; pok_sem_value_t, types.h:40. *)
Definition l_lockobj_attr : list field :=
  [f32 "kind"; f32 "locking_policy"; f32 "queueing_policy"; f16 "initial_value"; f16 "max_value"].
(** pok_lockobj_lockattr_t, libpok/include/core/lockobj.h:58-63. *)
Definition l_lockattr : list field :=
  [f32 "operation"; f32 "obj_kind"; f32 "lock_kind"; f64 "timeout"].
(** pok_port_sampling_status_t, libpok/include/middleware/port.h:103-108. *)
Definition l_sampling : list field := [f32 "size"; f8 "direction"; f64 "refresh"; f32 "validity"].
(** pok_port_queueing_status_t, libpok/include/middleware/port.h:61-66. *)
Definition l_queueing : list field := [f32 "size"; f8 "direction"; f8 "nb_messages"; f8 "waiting_processes"].
(** pok_syscall_args_t, libpok/include/core/syscall.h:106-113. *)
Definition l_args : list field := [f32 "nargs"; f32 "arg1"; f32 "arg2"; f32 "arg3"; f32 "arg4"; f32 "arg5"].
(** s_pci_device, libpok/include/arch/x86/pci.h:26-37. *)
Definition l_pci : list field :=
  [f16 "bus"; f16 "dev"; f16 "fun"; f16 "vendorid"; f16 "deviceid"; f16 "irq_line"; f16 "io_range";
   fwords "bar" 6; f32 "addr"; f32 "irq_handler"].
(** pok_error_status_t, libpok/include/core/error.h:22-28; msg is a pointer. *)
Definition l_error : list field :=
  [f8 "error_kind"; f32 "failed_thread"; f32 "failed_addr"; f32 "msg"; f32 "msg_size"].
(** libpok/include/core/error.h:38-51. *)
Definition l_kinds : list (string * Z) :=
  [("DEADLINE_MISSED", 10); ("APPLICATION_ERROR", 11); ("NUMERIC_ERROR", 12); ("ILLEGAL_REQUEST", 13);
   ("STACK_OVERFLOW", 14); ("MEMORY_VIOLATION", 15); ("HARDWARE_FAULT", 16); ("POWER_FAIL", 17);
   ("PARTITION_CONFIGURATION", 30); ("PARTITION_INIT", 31); ("PARTITION_SCHEDULING", 32);
   ("PARTITION_PROCESS", 33); ("KERNEL_INIT", 50); ("KERNEL_SCHEDULING", 51)].

(** ** Creation of lock objects *)
(** Kinds, lockobj.h:34-38 (kernel) and 20-24 (libpok); LOCKOBJ_OPERATION_*, 108-114 and 50-56. *)
Definition K_MUTEX := 1.
Definition K_SEMAPHORE := 2.
Definition K_EVENT := 3.
Definition OP_LOCK := 1.
Definition OP_UNLOCK := 2.
Definition OP_WAIT := 3.
Definition OP_SIGNAL := 4.
Definition OP_BROADCAST := 5.
(** POK_QUEUEING_DISCIPLINE_PRIORITY, lockobj.h:42-45. *)
Definition Q_PRIORITY := 1.
(** kernel/include/errno.h, POK_ERRNO_LOCKOBJ_KIND and POK_ERRNO_LOCKOBJ_POLICY, errno.h:56-57. *)
Definition E_KIND := 502.
Definition E_POLICY := 503.

(** pok_event_create, libpok/core/eventcreate.c:24-33; [a] is the address of lockattr on the stack. *)
Definition event_create (m : Z -> Z) (a : Z) : Z -> Z :=
  let m := set l_lockobj_attr m a "kind" K_EVENT in
  set l_lockobj_attr m a "locking_policy" 0.

(** pok_sem_create, libpok/core/semcreate.c:24-36. *)
Definition sem_create (m : Z -> Z) (a value maxv disc : Z) : Z -> Z :=
  let m := set l_lockobj_attr m a "initial_value" value in
  let m := set l_lockobj_attr m a "max_value" maxv in
  let m := set l_lockobj_attr m a "queueing_policy" disc in
  let m := set l_lockobj_attr m a "locking_policy" 0 in
  set l_lockobj_attr m a "kind" K_SEMAPHORE.

(** pok_mutex_create, libpok/core/mutexcreate.c:22-33. *)
Definition mutex_create (m : Z -> Z) (a disc policy : Z) : Z -> Z :=
  let m := set l_lockobj_attr m a "kind" K_MUTEX in
  let m := set l_lockobj_attr m a "queueing_policy" disc in
  set l_lockobj_attr m a "locking_policy" policy.

(** The fields of pok_lockobj_t that pok_lockobj_create fills, kernel/include/core/lockobj.h:74-101
    (the queues are in Model/Kernel.v). *)
Record lobj := { b_policy : Z; b_queue : Z; b_kind : Z; b_init : bool; b_value : Z; b_max : Z }.

(** pok_lockobj_create, kernel/core/lockobj.c:69-108; [p] is the address of the attributes. *)
Definition k_create (m : Z -> Z) (p : Z) (o : lobj) : Z * lobj :=
  let pol := get k_lockobj_attr m p "locking_policy" in
  let knd := get k_lockobj_attr m p "kind" in
  if negb (pol =? 0) && negb (pol =? 1) && negb (pol =? 2) then (E_POLICY, o)
  else if negb (knd =? K_MUTEX) && negb (knd =? K_SEMAPHORE) && negb (knd =? K_EVENT) then (E_KIND, o)
  else
    let q := if knd =? K_EVENT then Q_PRIORITY else get k_lockobj_attr m p "queueing_policy" in
    if knd =? K_SEMAPHORE
    then (ERR_OK, {| b_policy := pol; b_queue := q; b_kind := knd; b_init := true;
                     b_value := get k_lockobj_attr m p "initial_value"; b_max := get k_lockobj_attr m p "max_value" |})
    else (ERR_OK, {| b_policy := pol; b_queue := q; b_kind := knd; b_init := true; b_value := 1; b_max := b_max o |}).

(** *id = mid in pok_lockobj_partition_create, lockobj.c:146; pok_lockobj_id_t is uint8_t,
    kernel/include/types.h:38. *)
Definition k_put_id (m : Z -> Z) (p mid : Z) : Z -> Z := store m p 1 mid.
(** The identifier in the hands of the application: pok_event_id_t is uint16_t, pok_sem_id_t and
    pok_mutex_id_t are uint8_t, libpok/include/types.h:35-37. *)
Definition l_event_id (m : Z -> Z) (p : Z) : Z := load m p 2.
Definition l_other_id (m : Z -> Z) (p : Z) : Z := load m p 1.

(** ** Operations on lock objects *)
(** pok_event_lock, libpok/core/eventlock.c:24-31; _unlock, eventunlock.c:24-30; _wait,
    eventwait.c:30-37; _signal, eventsignal.c:24-30; _broadcast, eventbroadcast.c:24-30. *)
Definition event_lock (m : Z -> Z) (a : Z) : Z -> Z :=
  let m := set l_lockattr m a "operation" OP_LOCK in
  let m := set l_lockattr m a "timeout" 0 in set l_lockattr m a "obj_kind" K_EVENT.
Definition event_unlock (m : Z -> Z) (a : Z) : Z -> Z :=
  let m := set l_lockattr m a "operation" OP_UNLOCK in set l_lockattr m a "obj_kind" K_EVENT.
Definition event_wait (m : Z -> Z) (a us : Z) : Z -> Z :=
  let m := set l_lockattr m a "operation" OP_WAIT in
  let m := set l_lockattr m a "timeout" (u64 (us * 1000)) in set l_lockattr m a "obj_kind" K_EVENT.
Definition event_signal (m : Z -> Z) (a : Z) : Z -> Z :=
  let m := set l_lockattr m a "operation" OP_SIGNAL in set l_lockattr m a "obj_kind" K_EVENT.
Definition event_broadcast (m : Z -> Z) (a : Z) : Z -> Z :=
  let m := set l_lockattr m a "operation" OP_BROADCAST in set l_lockattr m a "obj_kind" K_EVENT.
(** pok_mutex_lock, mutexlock.c:22-29; _trylock, mutextrylock.c:28-35; _unlock, mutexunlock.c:22-28. *)
Definition mutex_lock (m : Z -> Z) (a : Z) : Z -> Z :=
  let m := set l_lockattr m a "operation" OP_LOCK in
  let m := set l_lockattr m a "timeout" 0 in set l_lockattr m a "obj_kind" K_MUTEX.
Definition mutex_trylock (m : Z -> Z) (a us : Z) : Z -> Z :=
  let m := set l_lockattr m a "operation" OP_LOCK in
  let m := set l_lockattr m a "timeout" (u64 (us * 1000)) in set l_lockattr m a "obj_kind" K_MUTEX.
Definition mutex_unlock (m : Z -> Z) (a : Z) : Z -> Z :=
  let m := set l_lockattr m a "operation" OP_UNLOCK in set l_lockattr m a "obj_kind" K_MUTEX.
(** pok_sem_wait, semwait.c:29-36; pok_sem_signal, semsignal.c:24-30. *)
Definition sem_wait (m : Z -> Z) (a us : Z) : Z -> Z :=
  let m := set l_lockattr m a "operation" OP_LOCK in
  let m := set l_lockattr m a "obj_kind" K_SEMAPHORE in set l_lockattr m a "timeout" (u64 (us * 1000)).
Definition sem_signal (m : Z -> Z) (a : Z) : Z -> Z :=
  let m := set l_lockattr m a "operation" OP_UNLOCK in set l_lockattr m a "obj_kind" K_SEMAPHORE.

(** pok_lockobj_partition_wrapper, kernel/core/lockobj.c:380-427, called from syscall.c:369-378 with
    (const uint8_t)args->arg1: which function is called for which object; [None] is POK_ERRNO_EINVAL.
    [lo], [hi] are the bounds of the partition, [kinds] the kinds of the objects. *)
Definition k_wrapper (m : Z -> Z) (p arg1 lo hi : Z) (kinds : Z -> Z) : option op :=
  let id := u8 arg1 in
  if id <? lo then None
  else if hi <=? id then None
  else if negb (kinds id =? get k_lockattr m p "obj_kind") then None
  else
    let o := get k_lockattr m p "operation" in
    if o =? OP_LOCK then Some (Lock id (get k_lockattr m p "timeout"))
    else if o =? OP_UNLOCK then Some (Unlock id)
    else if o =? OP_WAIT then Some (Wait id (get k_lockattr m p "timeout"))
    else if o =? OP_SIGNAL then Some (Signal id)
    else if o =? OP_BROADCAST then Some (Broadcast id)
    else None.

(** ** Times passed in registers *)
(** pok_thread_sleep, libpok/core/threadsleep.c:18-20 and kernel/core/syscall.c:155-157. *)
Definition sleep_arg (us : Z) : Z := u32 us.
(** pok_thread_sleep_until, libpok/include/core/thread.h:61-62 and syscall.c:160-162. *)
Definition until_arg (t : Z) : Z := u32 t.
(** pok_thread_delayed_start, libpok/core/threaddelayedstart.c:22-26 and syscall.c:183-184. *)
Definition delayed_arg (us : Z) : Z := u32 us.

(** ** Status of ports and errors *)
(** The end of pok_port_sampling_status, kernel/middleware/portsamplingstatus.c:53-61. *)
Definition k_sampling_status (m : Z -> Z) (p size dir refresh last now : Z) : Z -> Z :=
  let m := set k_sampling m p "size" size in
  let m := set k_sampling m p "direction" dir in
  let m := set k_sampling m p "refresh" refresh in
  set k_sampling m p "validity" (if u64 (last + refresh) <? now then 0 else 1).

(** The end of pok_port_queueing_status, kernel/middleware/portqueueingstatus.c:46-48. *)
Definition k_queueing_status (m : Z -> Z) (p size dir : Z) : Z -> Z :=
  let m := set k_queueing m p "size" size in
  let m := set k_queueing m p "direction" dir in
  set k_queueing m p "waiting_processes" 0.

(** pok_error_get, kernel/core/error.c:149-154; memcpy copies [len] bytes of the message, [len] being
    the msg_size of the status. *)
Definition k_error_get (m : Z -> Z) (p knd thr addr : Z) (msg : Z -> Z) (len : Z) : Z -> Z :=
  let m := set k_error m p "error_kind" knd in
  let m := set k_error m p "failed_thread" thr in
  let m := set k_error m p "failed_addr" addr in
  let m := set k_error m p "msg_size" len in
  match where_is k_error "msg" with
  | Some (o, _) => fun x => if (p + o <=? x) && (x <? p + o + len) then msg (x - (p + o)) else m x
  | None => m
  end.

(** The address that the default error handler reads first, *(status.msg + status.msg_size),
    libpok/core/errorhandlerworker.c:43 (with POK_NEEDS_DEBUG). *)
Definition worker_reads (m : Z -> Z) (p : Z) : Z :=
  u32 (get l_error m p "msg" + get l_error m p "msg_size").
