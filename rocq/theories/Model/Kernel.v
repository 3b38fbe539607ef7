(** The kernel core as one state machine: partitions, threads, the scheduler and lock objects.
    kernel/core/{partition,thread,sched,lockobj,error,multiprocessing,boot,syscall}.c. *)
From Verif Require Import Model.Base Model.State Model.LockFifo Model.LockObj Model.LockSys Model.Sched.

(** When ports are flushed, sched.c:144-164. *)
Inductive flush_policy := FlushNone | FlushMajor | FlushPeriod (period : Z) | FlushWindows.

(** The deployment (deployment.h), over which all theorems are quantified. Ports are modelled
    elsewhere. *)
Record config := mkConfig {
  c_nparts : Z;                 (** POK_CONFIG_NB_PARTITIONS *)
  c_nthreads : Z;               (** POK_CONFIG_NB_THREADS, with the idle threads and the kernel thread *)
  c_nprocs : Z;                 (** POK_CONFIG_NB_PROCESSORS *)
  c_threads : Z -> Z;           (** POK_CONFIG_PARTITIONS_NTHREADS *)
  c_lockobjs : Z -> Z;          (** POK_CONFIG_PARTITIONS_NLOCKOBJECTS *)
  c_sched : Z -> Z;             (** POK_CONFIG_PARTITIONS_SCHEDULER *)
  c_mask : Z -> Z;              (** POK_CONFIG_PROCESSOR_AFFINITY *)
  c_size : Z -> Z;              (** POK_CONFIG_PARTITIONS_SIZE *)
  c_entry : Z -> Z;             (** entry point found in the binary of the partition *)
  c_nslots : Z;                 (** POK_CONFIG_SCHEDULING_NBSLOTS *)
  c_slot : Z -> Z;              (** POK_CONFIG_SCHEDULING_SLOTS *)
  c_alloc : Z -> Z;             (** POK_CONFIG_SCHEDULING_SLOTS_ALLOCATION *)
  c_major : Z;                  (** POK_CONFIG_SCHEDULING_MAJOR_FRAME *)
  c_flush : flush_policy;
  c_timed_wake : bool;          (** one of the options of sched.c:205-206 is enabled *)
  c_stack : Z;                  (** POK_USER_STACK_SIZE *)
  c_heap : Z                    (** start of the kernel heap, pm.c:48-51 *)
}.

(** IDLE_THREAD and KERNEL_THREAD, include/core/thread.h:29-30. *)
Definition idle (cfg : config) (p : Z) : Z := c_nthreads cfg - 2 - p.
Definition kernel_thread (cfg : config) : Z := c_nthreads cfg - 1.

(** Kernel variables. *)
Record kstate := mkK {
  k_th : Z -> thread;           (** pok_threads, thread.c:42 *)
  k_part : Z -> part;           (** pok_partitions, partition.c:40 *)
  k_obj : Z -> lockobj;         (** pok_partitions_lockobjs, lockobj.c:39 *)
  k_cur : Z -> Z;               (** current_threads, partition.c:41 *)
  k_cp : Z;                     (** pok_current_partition, sched.c:63 *)
  k_slot : Z;                   (** pok_sched_current_slot, sched.c:85 *)
  k_deadline : Z;               (** pok_sched_next_deadline, sched.c:78 *)
  k_major : Z;                  (** pok_sched_next_major_frame, sched.c:79 *)
  k_flush : Z;                  (** pok_sched_next_flush, sched.c:80 *)
  k_now : Z;                    (** pok_tick_counter, time.c:35 *)
  k_present : Z -> bool;        (** present bits of the segments of a partition, arch/x86/gdt.h:33 *)
  k_brk : Z;                    (** pok_x86_pm_brk, arch/x86/x86-qemu/pm.c:36 *)
  k_k : Z -> kont               (** where a thread that is inside a lock-object service resumes; [KUser]
                                    when nothing remains to be done in the kernel *)
}.

(** Assignments to one kernel variable (declarations as cited in [kstate]). *)
Definition set_k_th v s := mkK v (k_part s) (k_obj s) (k_cur s) (k_cp s) (k_slot s) (k_deadline s) (k_major s) (k_flush s) (k_now s) (k_present s) (k_brk s) (k_k s).
Definition set_k_part v s := mkK (k_th s) v (k_obj s) (k_cur s) (k_cp s) (k_slot s) (k_deadline s) (k_major s) (k_flush s) (k_now s) (k_present s) (k_brk s) (k_k s).
Definition set_k_obj v s := mkK (k_th s) (k_part s) v (k_cur s) (k_cp s) (k_slot s) (k_deadline s) (k_major s) (k_flush s) (k_now s) (k_present s) (k_brk s) (k_k s).
Definition set_k_cur v s := mkK (k_th s) (k_part s) (k_obj s) v (k_cp s) (k_slot s) (k_deadline s) (k_major s) (k_flush s) (k_now s) (k_present s) (k_brk s) (k_k s).
Definition set_k_cp v s := mkK (k_th s) (k_part s) (k_obj s) (k_cur s) v (k_slot s) (k_deadline s) (k_major s) (k_flush s) (k_now s) (k_present s) (k_brk s) (k_k s).
Definition set_k_slot v s := mkK (k_th s) (k_part s) (k_obj s) (k_cur s) (k_cp s) v (k_deadline s) (k_major s) (k_flush s) (k_now s) (k_present s) (k_brk s) (k_k s).
Definition set_k_deadline v s := mkK (k_th s) (k_part s) (k_obj s) (k_cur s) (k_cp s) (k_slot s) v (k_major s) (k_flush s) (k_now s) (k_present s) (k_brk s) (k_k s).
Definition set_k_major v s := mkK (k_th s) (k_part s) (k_obj s) (k_cur s) (k_cp s) (k_slot s) (k_deadline s) v (k_flush s) (k_now s) (k_present s) (k_brk s) (k_k s).
Definition set_k_flush v s := mkK (k_th s) (k_part s) (k_obj s) (k_cur s) (k_cp s) (k_slot s) (k_deadline s) (k_major s) v (k_now s) (k_present s) (k_brk s) (k_k s).
Definition set_k_now v s := mkK (k_th s) (k_part s) (k_obj s) (k_cur s) (k_cp s) (k_slot s) (k_deadline s) (k_major s) (k_flush s) v (k_present s) (k_brk s) (k_k s).
Definition set_k_present v s := mkK (k_th s) (k_part s) (k_obj s) (k_cur s) (k_cp s) (k_slot s) (k_deadline s) (k_major s) (k_flush s) (k_now s) v (k_brk s) (k_k s).
Definition set_k_brk v s := mkK (k_th s) (k_part s) (k_obj s) (k_cur s) (k_cp s) (k_slot s) (k_deadline s) (k_major s) (k_flush s) (k_now s) (k_present s) v (k_k s).
Definition set_k_k v s := mkK (k_th s) (k_part s) (k_obj s) (k_cur s) (k_cp s) (k_slot s) (k_deadline s) (k_major s) (k_flush s) (k_now s) (k_present s) (k_brk s) v.

(** Assignment to a field of one thread or of one partition. *)
Definition on_th (i : Z) (f : thread -> thread) (s : kstate) : kstate :=
  set_k_th (upd (k_th s) i (f (k_th s i))) s.
Definition on_part (i : Z) (f : part -> part) (s : kstate) : kstate :=
  set_k_part (upd (k_part s) i (f (k_part s i))) s.

(** pok_threads, pok_partitions of the thread and partition now executing
    (include/core/thread.h:102, include/core/partition.h:136). *)
Definition cur_part (s : kstate) : part := k_part s (k_cp s).

(** ** Processors: kernel/core/multiprocessing.c *)

(** multiprocessing.c:26-35. [None]: the assertion fails, i.e. the mask has not enough bits. *)
Fixpoint real_id_loop (fuel : nat) (mask local proc counter : Z) : option Z :=
  match fuel with
  | O => None
  | S k =>
      if counter <=? local then
        real_id_loop k mask local (proc + 1) (counter + Z.b2z (Z.testbit mask proc))
      else Some (proc - 1)
  end.
Definition get_proc_real_id (mask local : Z) : option Z := real_id_loop 65 mask local 0 0.

(** multiprocessing.c:37-45. *)
Fixpoint partition_id_loop (fuel : nat) (mask i proc : Z) : Z :=
  match fuel with
  | O => proc
  | S k => partition_id_loop k mask (i + 1) (proc + Z.b2z (Z.testbit mask i))
  end.
Definition get_proc_partition_id (mask real : Z) : option Z :=
  if Z.testbit mask real then Some (partition_id_loop (Z.to_nat real) mask 0 0) else None.

(** ** Scheduler: kernel/core/sched.c *)

(** What [pok_elect_partition] does to the ports. *)
Inductive flush_act := NoFlush | FlushAll | FlushPart (pid : Z).

(** pok_elect_partition, sched.c:137-186. *)
Definition elect_partition (cfg : config) (s : kstate) : kstate * Z * flush_act :=
  if c_nparts cfg <=? 1 then (s, k_cp s, NoFlush)
  else if k_deadline s <=? k_now s then
    let '(s1, f) :=
      match c_flush cfg with
      | FlushNone => (s, NoFlush)
      | FlushPeriod p =>
          if k_flush s <=? k_now s then (set_k_flush (u64 (k_flush s + p)) s, FlushAll) else (s, NoFlush)
      | FlushWindows => (s, FlushPart (k_cp s))
      | FlushMajor =>
          if k_major s <=? k_now s then (set_k_major (u64 (k_major s + c_major cfg)) s, FlushAll)
          else (s, NoFlush)
      end in
    let slot := (k_slot s1 + 1) mod c_nslots cfg in
    let s2 := set_k_deadline (u64 (k_deadline s1 + c_slot cfg slot)) (set_k_slot slot s1) in
    (s2, c_alloc cfg slot, f)
  else (s, k_cp s, NoFlush).

(** Body of the wake-up loop for one thread, sched.c:203-220. [None]: the assertion on the time
    capacity fails. *)
Definition wake (timed : bool) (p now : Z) (t : thread) : option thread :=
  if t_affinity t =? p then
    let t1 :=
      if timed && (t_state t =? ST_WAITING) && (t_wakeup t <=? now)
      then set_t_state ST_RUNNABLE t else t in
    if (t_state t1 =? ST_WAIT_NEXT) && (t_next_act t1 <=? now) then
      if t_capacity t1 =? 0 then None
      else Some (set_t_next_act (u64 (t_next_act t1 + t_period t1))
                   (set_t_remaining (t_capacity t1) (set_t_state ST_RUNNABLE t1)))
    else Some t1
  else Some t.

(** sched.c:200-221, [n] threads from [i] on. *)
Fixpoint wake_loop (n : nat) (timed : bool) (p now : Z) (th : Z -> thread) (i : Z)
  : option (Z -> thread) :=
  match n with
  | O => Some th
  | S k =>
      match wake timed p now (th i) with
      | None => None
      | Some t => wake_loop k timed p now (upd th i t) (i + 1)
      end
  end.

(** sched_func as set by pok_partition_setup_scheduler, partition.c:51-76 (all policies compiled in). *)
Definition sched_func (cfg : config) (pid p : Z) (th : Z -> thread) (low high prev cur : Z) : option Z :=
  if c_sched cfg pid =? SCHED_RMS then sched_rms p (idle cfg p) th low high
  else if c_sched cfg pid =? SCHED_STATIC then sched_static p (idle cfg p) th low high prev cur
  else sched_rr p (idle cfg p) th low high prev cur.

(** sched.c:251-264: the budget of the thread that executed until now. *)
Definition consume (cfg : config) (c : Z) (s : kstate) : kstate :=
  let t := k_cur s c in
  if negb (t =? idle cfg c) && negb (t =? p_main (cur_part s)) && negb (t =? p_error (cur_part s)) then
    if 0 <? t_remaining (k_th s t) then on_th t (set_t_remaining (t_remaining (k_th s t) - 1)) s
    else if 0 <? t_capacity (k_th s t) then on_th t (set_t_state ST_WAIT_NEXT) s
    else s
  else s.

(** sched.c:226-279: the thread to be executed. *)
Definition elect (cfg : config) (c np : Z) (s : kstate) : option (kstate * Z) :=
  let pt := k_part s np in
  if (p_mode pt =? PM_COLD) || (p_mode pt =? PM_WARM) then
    Some (s, if c =? p_main_proc pt then p_main pt else idle cfg c)
  else if p_mode pt =? PM_NORMAL then
    if (p_cur pt c =? p_error pt) && (t_state (k_th s (p_cur pt c)) =? ST_RUNNABLE)
    then Some (s, p_error pt)
    else
      let s1 := consume cfg c s in
      match sched_func cfg np c (k_th s1) (p_low pt) (p_high pt) (p_prev pt c) (p_cur pt c) with
      | None => None
      | Some e => Some (s1, e)
      end
  else Some (s, idle cfg c).

(** pok_elect_thread, sched.c:188-287. The loop counter of the wake-up loop is 8 bits wide: with more
    than 255 threads the loop does not end. *)
Definition elect_thread (cfg : config) (c np : Z) (s : kstate) : option (kstate * Z) :=
  let pt := k_part s np in
  if 255 <? p_nthreads pt then None
  else
    match wake_loop (Z.to_nat (p_nthreads pt)) (c_timed_wake cfg) c (k_now s) (k_th s) (p_low pt) with
    | None => None
    | Some th =>
        match elect cfg c np (set_k_th th s) with
        | None => None
        | Some (s2, e) =>
            Some (if 0 <? t_capacity (k_th s2 (k_cur s2 c))
                  then on_th e (set_t_end_time (u64 (k_now s + t_remaining (k_th s2 e)))) s2
                  else s2, e)
        end
    end.

(** sched.c:296-305 and 410-419: bookkeeping of the current and previous thread of the partition. *)
Definition record_thread (cfg : config) (c e : Z) (s : kstate) : kstate :=
  let pid := k_cp s in
  let pt := k_part s pid in
  if p_cur pt c =? e then s
  else
    let pt1 := if p_cur pt c =? idle cfg c then pt else set_p_prev (upd (p_prev pt) c (p_cur pt c)) pt in
    on_part pid (fun _ => set_p_cur (upd (p_cur pt1) c e) pt1) s.

(** pok_sched_context_switch, sched.c:381-405; the check of the spin locks is left out (no service
    below holds one when it calls the scheduler). *)
Definition switch_to (c e : Z) (s : kstate) : kstate := set_k_cur (upd (k_cur s) c e) s.

(** pok_sched_thread, sched.c:407-421. The elected thread is stored in 8 bits. *)
Definition sched_thread (cfg : config) (c : Z) (s : kstate) : option kstate :=
  match elect_thread cfg c (k_cp s) s with
  | None => None
  | Some (s1, e) => Some (switch_to c (u8 e) (record_thread cfg c (u8 e) s1))
  end.

(** pok_space_switch, arch/x86/space.c:47-54. *)
Definition space_switch (old new : Z) (s : kstate) : kstate :=
  set_k_present (upd (upd (k_present s) old false) new true) s.

(** pok_global_sched_thread, sched.c:293-307, with pok_global_sched_context_switch (347-377) and
    synchro_processors (321-341). [newp] is the variable new_partition, [src] tells whether this is the
    processor that started the global scheduling. *)
Definition global_sched_thread (cfg : config) (newp src : bool) (c : Z) (s : kstate) : option kstate :=
  match elect_thread cfg c (k_cp s) s with
  | None => None
  | Some (s1, e0) =>
      let e := u8 e0 in
      let s2 := record_thread cfg c e s1 in
      let s3 := if src && newp
                then space_switch (t_partition (k_th s2 (k_cur s2 c))) (t_partition (k_th s2 e)) s2
                else s2 in
      Some (switch_to c e s3)
  end.

(** The other processors execute pok_global_sched_thread when they receive the interrupt sent at
    sched.c:316 (arch/x86/ipi.c:35-38). Here they do so one after the other, in increasing order. *)
Fixpoint global_sched_others (n : nat) (cfg : config) (newp : bool) (src c : Z) (s : kstate) : option kstate :=
  match n with
  | O => Some s
  | S k =>
      match (if c =? src then Some s else global_sched_thread cfg newp false c s) with
      | None => None
      | Some s' => global_sched_others k cfg newp src (c + 1) s'
      end
  end.

(** pok_global_sched, sched.c:308-319. *)
Definition global_sched (cfg : config) (c : Z) (s : kstate) : option (kstate * flush_act) :=
  let '(s1, np, f) := elect_partition cfg s in
  let newp := negb (np =? k_cp s1) in
  let s2 := set_k_cp np s1 in
  match global_sched_thread cfg newp true c s2 with
  | None => None
  | Some s3 =>
      match global_sched_others (Z.to_nat (c_nprocs cfg)) cfg newp c 0 s3 with
      | None => None
      | Some s4 => Some (s4, f)
      end
  end.

(** pok_threads_schedule_one_proc, sched.c:425-435. A request to another processor is an interrupt that
    it takes later (label [KIpi] below). *)
Definition schedule_one_proc (cfg : config) (c dest : Z) (s : kstate) : option kstate :=
  if 1 <? c_nprocs cfg then if dest =? c then sched_thread cfg c s else Some s
  else if dest =? 0 then sched_thread cfg c s else None.

(** pok_threads_schedule_every_proc, sched.c:437-442; same remark. *)
Definition schedule_every_proc (cfg : config) (c : Z) (s : kstate) : option kstate := sched_thread cfg c s.

(** pok_sched_activate_error_thread, sched.c:717-728. *)
Definition activate_error_thread (c : Z) (s : kstate) : kstate :=
  let e := p_error (cur_part s) in
  if e =? 0 then s
  else
    switch_to c e
      (on_th e (fun t => set_t_state ST_RUNNABLE (set_t_next_act 0 (set_t_period 100
                           (set_t_remaining 1000 (set_t_priority 255 t))))) s).

(** ** Threads: kernel/core/thread.c *)

(** pok_thread_attr_t, include/core/thread.h:68-77; the fields the kernel reads. *)
Record tattr := mkAttr {
  a_prio : Z; a_affinity : Z; a_entry : Z; a_period : Z; a_deadline : Z; a_capacity : Z
}.

(** The sizes of these fields, include/core/thread.h:69-74. *)
Definition typed_attr (a : tattr) : tattr :=
  mkAttr (u8 (a_prio a)) (u8 (a_affinity a)) (u32 (a_entry a)) (u64 (a_period a)) (u64 (a_deadline a))
         (u64 (a_capacity a)).

(** KERNEL_STACK_SIZE, arch/x86/space.c:35. *)
Definition KERNEL_STACK := 8192.

(** thread.c:154-208: the fields of the new thread. The priority test (154-157) always succeeds
    because a priority has 8 bits. *)
Definition init_thread (pid affinity stack : Z) (a : tattr) (t : thread) : thread :=
  let t1 := set_t_base_prio (a_prio a) (set_t_priority (a_prio a) t) in
  let t2 := if 0 <? a_period a
            then set_t_next_act (a_period a) (set_t_period (s64 (a_period a)) t1) else t1 in
  let t3 := if 0 <? a_deadline a then set_t_deadline (a_deadline a) t2 else t2 in
  let t4 := if 0 <? a_capacity a
            then set_t_remaining (s64 (a_capacity a)) (set_t_capacity (s64 (a_capacity a)) t3)
            else set_t_capacity INFINITE (set_t_remaining INFINITE t3) in
  set_t_stack stack (set_t_entry (a_entry a) (set_t_partition pid
    (set_t_wakeup 0 (set_t_state ST_RUNNABLE (set_t_affinity affinity t4))))).

(** thread.c:209-215: the table is kept sorted under RMS. The saved context of a thread is part of its
    entry in the table, so that the continuations move too. *)
Definition sort_threads (low i : Z) (s : kstate) : kstate :=
  let f := insert_sort (fun x : thread * kont => t_period (fst x)) (fun j => (k_th s j, k_k s j)) low i in
  set_k_k (fun j => snd (f j)) (set_k_th (fun j => fst (f j)) s).

(** pok_partition_thread_create, thread.c:129-224. The result is [None] when an assertion fails; the
    identifier is only meaningful when the code is OK. A new kernel stack is taken from the heap
    (arch/x86/space.c:82) and the context starts in user code. *)
Definition thread_create (cfg : config) (a : tattr) (pid : Z) (s : kstate) : option (kstate * Z * Z) :=
  let pt := k_part s pid in
  if negb (p_mode pt =? PM_COLD) && negb (p_mode pt =? PM_WARM) then Some (s, ERR_MODE, 0)
  else
    let id := p_low pt + p_index pt in
    if p_high pt <=? id then Some (s, ERR_TOOMANY, 0)
    else
      match get_proc_real_id (c_mask cfg pid) (a_affinity a) with
      | None => None
      | Some aff =>
          if (if 1 <? c_nprocs cfg then aff <? c_nprocs cfg else aff =? 0) &&
             (if p_main_entry pt =? a_entry a then aff =? p_main_proc pt else true)
          then
            let stack := u32 (p_size pt - 4 - (p_index pt + 1) * c_stack cfg) in
            let s1 := on_part pid (set_p_index (p_index pt + 1)) s in
            let s2 := on_th id (init_thread pid aff stack a) s1 in
            let s3 := set_k_brk (u32 (k_brk s2 + KERNEL_STACK)) s2 in
            let s4 := set_k_k (upd (k_k s3) id KUser) s3 in
            let s5 := if (c_sched cfg pid =? SCHED_RMS) && (p_low pt <? id)
                      then sort_threads (p_low pt + 1) id s4 else s4 in
            Some (s5, ERR_OK, id)
          else None
      end.

(** The range check shared by the services that designate a thread by its number
    (thread.c:289, 330, 346, 356, 367, partition.c:440, 465): note that thread_index_high itself passes. *)
Definition in_bounds (s : kstate) (id : Z) : bool :=
  negb (id <? p_low (cur_part s)) && negb (p_high (cur_part s) <? id).

(** pok_thread_restart, thread.c:258-285. *)
Definition thread_restart (id : Z) (s : kstate) : kstate :=
  let s1 := on_th id (fun t => set_t_wakeup 0 (set_t_state ST_WAIT_NEXT (set_t_remaining (t_capacity t) t))) s in
  set_k_k (upd (k_k s1) id KUser) (set_k_brk (u32 (k_brk s1 + KERNEL_STACK)) s1).

(** thread.c:292-325: what pok_thread_delayed_start does to the thread. pok_context_reset (294) writes to memory,
    not to the table of threads, and not to the saved context; it is left out here: see Model/X86Reset.v. *)
Definition delayed_start_thread (mode now ns : Z) (t : thread) : thread :=
  let t0 := set_t_priority (t_base_prio t) t in
  if t_period t0 =? INFINITE then
    if mode =? PM_NORMAL then
      if ns =? 0 then
        let t1 := set_t_state ST_RUNNABLE t0 in
        if 0 <? t_capacity t1 then set_t_end_time (u64 (now + t_capacity t1)) t1 else t1
      else set_t_wakeup (u64 (now + ns)) (set_t_state ST_WAITING t0)
    else set_t_wakeup ns (set_t_state ST_DELAYED t0)
  else
    if mode =? PM_NORMAL then
      set_t_end_time (u64 (t_deadline t0 + u64 (ns + now))) (set_t_next_act (u64 (ns + now)) t0)
    else set_t_wakeup ns (set_t_state ST_DELAYED t0).

(** ** Partitions: kernel/core/partition.c *)

(** partition.c:116-129. *)
Definition main_attr (entry : Z) : tattr := mkAttr 1 0 entry (u64 INFINITE) 0 (u64 INFINITE).
Definition setup_main_thread (cfg : config) (pid : Z) (s : kstate) : option kstate :=
  match thread_create cfg (main_attr (p_main_entry (k_part s pid))) pid s with
  | None => None
  | Some (s1, _, id) => Some (on_part pid (set_p_main id) s1)
  end.

(** pok_partition_reinit, partition.c:85-111. The memory image that the loader copies again is not part
    of this model. *)
Definition partition_reinit (cfg : config) (c pid : Z) (s : kstate) : option kstate :=
  let s1 := on_part pid (fun pt =>
    set_p_main_entry (c_entry cfg pid) (set_p_error 0
      (set_p_prev (upd (p_prev pt) c (idle cfg c))
        (set_p_cur (upd (p_cur pt) c (p_low pt)) (set_p_index 0 pt))))) s in
  setup_main_thread cfg pid s1.

(** partition.c:279-309: start of one thread when the partition enters NORMAL mode. *)
Definition normal_start (cfg : config) (now activation : Z) (t : thread) : thread :=
  if t_state t =? ST_DELAYED then
    if t_period t =? INFINITE then
      let t1 := set_t_wakeup (u64 (t_wakeup t + now))
                  (set_t_state (if t_wakeup t =? 0 then ST_RUNNABLE else ST_WAITING) t) in
      if 0 <? t_capacity t1 then set_t_end_time (u64 (t_wakeup t1 + t_capacity t1)) t1 else t1
    else if t_wakeup t =? 0 then
      let t1 := set_t_wakeup (u64 (t_wakeup t + now)) (set_t_state ST_RUNNABLE t) in
      if 0 <? t_capacity t1 then set_t_end_time (u64 (t_wakeup t1 + t_capacity t1)) t1 else t1
    else
      let na := u64 (t_wakeup t + c_major cfg + activation) in
      set_t_state ST_WAIT_NEXT (set_t_end_time (u64 (na + t_capacity t)) (set_t_next_act na t))
  else t.

(** partition.c:277-310, [n] threads from [i] on. *)
Fixpoint normal_loop (n : nat) (cfg : config) (now activation : Z) (th : Z -> thread) (i : Z) : Z -> thread :=
  match n with
  | O => th
  | S k => normal_loop k cfg now activation (upd th i (normal_start cfg now activation (th i))) (i + 1)
  end.

(** Result of a service: the new state, the code and the flush that a global scheduling caused.
    A service that blocks has not returned yet; its code is the one it will return. *)
Definition ret (s : kstate) (e : Z) : option (kstate * Z * flush_act) := Some (s, e, NoFlush).
Definition then_sched (cfg : config) (c : Z) (s : kstate) (e : Z) : option (kstate * Z * flush_act) :=
  match sched_thread cfg c s with None => None | Some s' => Some (s', e, NoFlush) end.
Definition then_global (cfg : config) (c : Z) (s : kstate) (e : Z) : option (kstate * Z * flush_act) :=
  match global_sched cfg c s with None => None | Some (s', f) => Some (s', e, f) end.

(** pok_partition_set_mode, partition.c:256-372, for the current partition (its only caller is
    pok_partition_set_mode_current). *)
Definition set_mode (cfg : config) (c mode : Z) (s : kstate) : option (kstate * Z * flush_act) :=
  let pid := k_cp s in
  let pt := k_part s pid in
  if mode =? PM_NORMAL then
    if p_mode pt =? PM_IDLE then ret s ERR_PARTITION_MODE
    else if negb (k_cur s c =? p_main pt) then ret s ERR_PARTITION_MODE
    else
      let s1 := on_part pid (set_p_mode mode) s in
      let s2 := set_k_th (normal_loop (Z.to_nat (p_nthreads pt)) cfg (k_now s) (p_activation pt)
                                      (k_th s1) (p_low pt)) s1 in
      then_global cfg c (on_th (p_main pt) (set_t_state ST_STOPPED) s2) ERR_OK
  else if mode =? PM_STOPPED then
    if (p_error pt =? 0) || negb (k_cur s c =? p_error pt) then ret s ERR_PARTITION_MODE
    else then_global cfg c (on_part pid (set_p_mode mode) s) ERR_OK
  else if (mode =? PM_WARM) || (mode =? PM_COLD) then
    if (p_mode pt =? PM_COLD) && (mode =? PM_WARM) then ret s ERR_PARTITION_MODE
    else if (p_error pt =? 0) || negb (k_cur s c =? p_error pt) then ret s ERR_PARTITION_MODE
    else
      match partition_reinit cfg c pid (on_part pid (set_p_mode mode) s) with
      | None => None
      | Some s1 => then_global cfg c s1 ERR_OK
      end
  else ret s ERR_PARTITION_MODE.

(** pok_partition_set_mode_current, partition.c:377-390. *)
Definition set_mode_current (cfg : config) (c mode : Z) (s : kstate) : option (kstate * Z * flush_act) :=
  if negb (k_cur s c =? p_main (cur_part s)) && negb (k_cur s c =? p_error (cur_part s))
  then ret s ERR_THREAD
  else set_mode cfg c mode s.

(** ** Lock objects: kernel/core/lockobj.c *)

(** lockobj.c:133-140. *)
Fixpoint find_free (n : nat) (obj : Z -> lockobj) (i : Z) : option Z :=
  match n with
  | O => None
  | S k => if negb (o_init (obj i)) then Some i else find_free k obj (i + 1)
  end.

(** pok_lockobj_partition_create, lockobj.c:111-155. *)
Definition lockobj_create (s : kstate) (a : lattr) : kstate * Z * Z :=
  if negb (p_mode (cur_part s) =? PM_COLD) && negb (p_mode (cur_part s) =? PM_WARM)
  then (s, ERR_MODE, 0)
  else
    let low := p_lo_low (cur_part s) in
    match find_free (Z.to_nat (p_lo_high (cur_part s) - low)) (k_obj s) low with
    | None => (s, ERR_LOCKOBJ_UNAVAILABLE, 0)
    | Some id =>
        let '(o, e) := obj_create (k_obj s id) a in
        (set_k_obj (upd (k_obj s) id o) s, e, id)
    end.

(** Services on a lock object after the checks of the wrapper, lockobj.c:399-426, by the thread that
    executes on processor [c]. The continuation of a blocked thread is recorded. *)
Definition lock_service (cfg : config) (c id : Z) (o : lop) (s : kstate) : option (kstate * Z * flush_act) :=
  let t := k_cur s c in
  let n := c_nthreads cfg in
  let ob := k_obj s id in
  let put ob' th' k := set_k_k (upd (k_k s) t k) (set_k_th th' (set_k_obj (upd (k_obj s) id ob') s)) in
  match o with
  | OpLock timeout =>
      match obj_lock n (k_now s) t ob (k_th s) timeout with
      | Crash => None
      | Done (ob', th', Returns e) => ret (put ob' th' KUser) e
      | Done (ob', th', Blocks d) => then_sched cfg c (put ob' th' (KLock id d)) ERR_OK
      end
  | OpUnlock =>
      match obj_unlock n ob (k_th s) with
      | Crash => None
      | Done (ob', th', e, None) => ret (put ob' th' KUser) e
      | Done (ob', th', e, Some w) =>
          match schedule_one_proc cfg c (t_affinity (th' w)) (put ob' th' KUser) with
          | None => None
          | Some s' => ret s' e
          end
      end
  | OpWait timeout =>
      match obj_eventwait n (k_now s) t ob (k_th s) timeout with
      | Crash => None
      | Done (ob', th', Returns e) => ret (put ob' th' KUser) e
      | Done (ob', th', Blocks d) => then_sched cfg c (put ob' th' (KWait id d)) ERR_OK
      end
  | OpSignal =>
      match obj_eventsignal n ob (k_th s) with
      | (ob', th', e, None) => ret (put ob' th' KUser) e
      | (ob', th', e, Some w) =>
          match schedule_one_proc cfg c (t_affinity (th' w)) (put ob' th' KUser) with
          | None => None
          | Some s' => ret s' e
          end
      end
  | OpBroadcast =>
      match obj_eventbroadcast n ob (k_th s) with
      | Crash => None
      | Done (ob', th', e, false) => ret (put ob' th' KUser) e
      | Done (ob', th', e, true) =>
          match schedule_every_proc cfg c (put ob' th' KUser) with
          | None => None
          | Some s' => ret s' e
          end
      end
  end.

(** pok_lockobj_partition_wrapper, lockobj.c:380-427. [kind] is attr->obj_kind; [o] is [None] for an
    operation code that is not in the enumeration. *)
Definition lock_wrapper (cfg : config) (c id kind : Z) (o : option lop) (s : kstate)
  : option (kstate * Z * flush_act) :=
  if id <? p_lo_low (cur_part s) then ret s ERR_EINVAL
  else if p_lo_high (cur_part s) <=? id then ret s ERR_EINVAL
  else if negb (o_kind (k_obj s id) =? kind) then ret s ERR_EINVAL
  else match o with None => ret s ERR_EINVAL | Some op => lock_service cfg c id op s end.

(** The rest of a lock-object service when the thread is executed again (lockobj.c:195-211, 276-285). *)
Definition lock_continue (cfg : config) (c : Z) (s : kstate) : option (kstate * Z * flush_act) :=
  let t := k_cur s c in
  let n := c_nthreads cfg in
  let put id ob' th' k := set_k_k (upd (k_k s) t k) (set_k_th th' (set_k_obj (upd (k_obj s) id ob') s)) in
  match k_k s t with
  | KUser | KOther => ret s ERR_OK
  | KLock id d =>
      match obj_lock_resume n (k_now s) t (k_obj s id) d with
      | Crash => None
      | Done (ob', e) => ret (put id ob' (k_th s) KUser) e
      end
  | KWait id d =>
      match obj_eventwait_resume n (k_now s) t (k_obj s id) (k_th s) d with
      | Crash => None
      | Done (ob', th', _, Returns e) => ret (put id ob' th' KUser) e
      | Done (ob', th', rw, Blocks _) => then_sched cfg c (put id ob' th' (KRelock id rw)) rw
      end
  | KRelock id rw =>
      match obj_lock_resume n (k_now s) t (k_obj s id) 0 with
      | Crash => None
      | Done (ob', e) => ret (put id ob' (k_th s) KUser) (if negb (e =? ERR_OK) then e else rw)
      end
  end.

(** ** System calls: kernel/core/syscall.c:65-476 *)

(** The services of this model; sizes as in the C prototypes (ids, delays and modes are uint32). *)
Inductive svc :=
| SCreate (a : tattr)                 (** THREAD_CREATE, syscall.c:145 *)
| SSleep (us : Z)                     (** THREAD_SLEEP, 156 *)
| SSleepUntil (us : Z)                (** THREAD_SLEEP_UNTIL, 161 *)
| SEndPeriod                          (** THREAD_PERIOD, 165 *)
| SSuspend                            (** THREAD_SUSPEND, 168, and THREAD_STOPSELF, 199 *)
| SStatus (id : Z)                    (** THREAD_STATUS, 177 *)
| SDelayedStart (id us : Z)           (** THREAD_DELAYED_START, 183 *)
| SSetPriority (id prio : Z)          (** THREAD_SET_PRIORITY, 185 *)
| SResume (id : Z)                    (** THREAD_RESUME, 187 *)
| SSuspendTarget (id : Z)             (** THREAD_SUSPEND_TARGET, 189 *)
| SRestart (tid : Z)                  (** THREAD_RESTART, 191 *)
| SStop (tid : Z)                     (** THREAD_STOP, 193 *)
| SSetMode (mode : Z)                 (** PARTITION_SET_MODE, 203 *)
| SErrorCreate (entry uperiod udeadline uaffinity : Z)
                                      (** ERROR_HANDLER_CREATE, 242; the last three are the values of
                                          uninitialised fields of a local variable, error.c:25-34 *)
| SRaise                              (** ERROR_RAISE_APPLICATION_ERROR, 245, and unknown calls, 469 *)
| SLockCreate (a : lattr)             (** LOCKOBJ_CREATE, 360 *)
| SLockOp (id kind : Z) (o : option lop). (** LOCKOBJ_OPERATION, 369 *)

(** One service called by the thread that executes on processor [c]; the calling partition is the current
    one. The last component is the identifier returned through a pointer, if any. *)
Definition service (cfg : config) (c : Z) (v : svc) (s : kstate) : option (kstate * Z * flush_act * Z) :=
  let t := k_cur s c in
  let no r := match r with None => None | Some (s', e, f) => Some (s', e, f, 0) end in
  match v with
  | SCreate a =>
      match thread_create cfg (typed_attr a) (k_cp s) s with
      | None => None
      | Some (s', e, id) => Some (s', e, NoFlush, id)
      end
  | SSleep us =>  (* thread.c:236-242 *)
      no (then_sched cfg c
            (on_th t (fun x => set_t_wakeup (u64 (us * 1000 + k_now s)) (set_t_state ST_WAITING x)) s) ERR_OK)
  | SSleepUntil us =>  (* thread.c:246-250 *)
      no (then_sched cfg c
            (on_th t (fun x => set_t_wakeup (u64 (us * 1000)) (set_t_state ST_WAITING x)) s) ERR_OK)
  | SEndPeriod =>  (* sched.c:710-715 *)
      no (then_sched cfg c (on_th t (fun x => set_t_remaining 0 (set_t_state ST_WAIT_NEXT x)) s) ERR_OK)
  | SSuspend =>  (* thread.c:253-256, sched.c:695-698 *)
      no (then_sched cfg c (on_th t (set_t_state ST_STOPPED) s) ERR_OK)
  | SStatus id =>  (* thread.c:329-343; the assertion of get_proc_partition_id can fail *)
      if in_bounds s id then
        match get_proc_partition_id (c_mask cfg (k_cp s)) (t_affinity (k_th s id)) with
        | None => None
        | Some _ => no (ret s ERR_OK)
        end
      else no (ret s ERR_PARAM)
  | SDelayedStart id us =>  (* thread.c:287-327 *)
      if in_bounds s id then
        let m := p_mode (k_part s (t_partition (k_th s id))) in
        let inf := t_period (k_th s id) =? INFINITE in
        let s1 := on_th id (delayed_start_thread m (k_now s) (us * 1000)) s in
        if inf && (m =? PM_NORMAL) then no (then_global cfg c s1 ERR_OK) else no (ret s1 ERR_OK)
      else no (ret s ERR_THREADATTR)
  | SSetPriority id prio =>  (* thread.c:345-353; stored in 8 bits *)
      if in_bounds s id then no (then_global cfg c (on_th id (set_t_priority (u8 prio)) s) ERR_OK)
      else no (ret s ERR_PARAM)
  | SResume id =>  (* thread.c:355-364 *)
      if in_bounds s id
      then no (then_global cfg c (on_th id (fun x => set_t_state ST_RUNNABLE (set_t_wakeup (k_now s) x)) s) ERR_OK)
      else no (ret s ERR_THREADATTR)
  | SSuspendTarget id =>  (* thread.c:366-373 *)
      if in_bounds s id && negb (id =? t) then no (ret (on_th id (set_t_state ST_STOPPED) s) ERR_OK)
      else no (ret s ERR_THREADATTR)
  | SRestart tid =>  (* partition.c:458-478 *)
      if negb (t =? p_error (cur_part s)) then no (ret s ERR_THREAD)
      else
        let id := u32 (tid + p_low (cur_part s)) in
        if in_bounds s id then no (then_global cfg c (thread_restart id s) ERR_OK)
        else no (ret s ERR_THREADATTR)
  | SStop tid =>  (* partition.c:433-453 *)
      if negb (t =? p_error (cur_part s)) then no (ret s ERR_THREAD)
      else
        let id := u32 (tid + p_low (cur_part s)) in
        if in_bounds s id then no (then_global cfg c (on_th id (set_t_state ST_STOPPED) s) ERR_OK)
        else no (ret s ERR_THREADATTR)
  | SSetMode m => no (set_mode_current cfg c m s)
  | SErrorCreate entry up ud ua =>  (* error.c:23-41; a failed creation leaves tid uninitialised *)
      match thread_create cfg (typed_attr (mkAttr 200 ua entry up ud 10000)) (k_cp s) s with
      | None => None
      | Some (s', e, id) =>
          if e =? ERR_OK
          then no (ret (activate_error_thread c (on_part (k_cp s') (set_p_error id) s')) e)
          else None
      end
  | SRaise =>  (* error.c:129-144; syscall.c:469-473; arch/x86/exceptions.c. Error status not modelled *)
      no (ret (activate_error_thread c s) ERR_OK)
  | SLockCreate a => let '(s', e, id) := lockobj_create s a in Some (s', e, NoFlush, id)
  | SLockOp id kind o => no (lock_wrapper cfg c id kind o s)
  end.

(** ** The machine *)

Inductive klabel :=
| KTick (d : Z)          (** the clock advances by d (arch/x86/x86-qemu/pit.c:48) *)
| KTimer (c : Z)         (** timer interrupt with an elapsed quantum on processor c (pit.c:50-53) *)
| KIpi (c : Z)           (** rescheduling interrupt on processor c (arch/x86/ipi.c:40-43) *)
| KCall (c : Z) (v : svc) (** the thread on processor c calls a service *)
| KCont (c : Z).         (** the thread on processor c continues inside a lock-object service *)

(** What the outside sees of a step. *)
Inductive kevent :=
| XRet (c t : Z) (v : svc) (e id : Z) (** service v called by thread t on processor c: code, identifier.
                             The code reaches the thread when it executes again; for a lock-object service
                             that blocks, the code is that of [XCont] *)
| XCont (c t e : Z)      (** thread t leaves a lock-object service or blocks again in it *)
| XFlush (f : flush_act).

Inductive kresult :=
| KNext (s : kstate) (ev : list kevent)
| KDisabled
| KFail.                 (** failed assertion, undefined behaviour or endless loop in the kernel *)

(** Threads of partitions come first in the table, then the idle threads, then the kernel thread. *)
Definition user_thread (cfg : config) (t : Z) : bool := (0 <=? t) && (t <? c_nthreads cfg - 1 - c_nprocs cfg).

Definition valid_proc (cfg : config) (c : Z) : bool := (0 <=? c) && (c <? c_nprocs cfg).

Definition kstep (cfg : config) (s : kstate) (l : klabel) : kresult :=
  match l with
  | KTick d => if 0 <? d then KNext (set_k_now (k_now s + d) s) [] else KDisabled
  | KTimer c =>
      if valid_proc cfg c then
        match global_sched cfg c s with None => KFail | Some (s', f) => KNext s' [XFlush f] end
      else KDisabled
  | KIpi c =>
      if valid_proc cfg c then
        match sched_thread cfg c s with None => KFail | Some s' => KNext s' [] end
      else KDisabled
  | KCall c v =>
      if valid_proc cfg c && user_thread cfg (k_cur s c) && is_user (k_k s (k_cur s c)) then
        match service cfg c v s with
        | None => KFail
        | Some (s', e, f, id) => KNext s' [XRet c (k_cur s c) v e id; XFlush f]
        end
      else KDisabled
  | KCont c =>
      if valid_proc cfg c && user_thread cfg (k_cur s c) && negb (is_user (k_k s (k_cur s c))) then
        match lock_continue cfg c s with
        | None => KFail
        | Some (s', e, f) => KNext s' [XCont c (k_cur s c) e; XFlush f]
        end
      else KDisabled
  end.

Fixpoint krun (cfg : config) (s : kstate) (ls : list klabel) : option (kstate * list kevent) :=
  match ls with
  | [] => Some (s, [])
  | l :: ls' =>
      match kstep cfg s l with
      | KFail => None
      | KDisabled => krun cfg s ls'
      | KNext s' ev =>
          match krun cfg s' ls' with
          | None => None
          | Some (s'', ev') => Some (s'', ev ++ ev')
          end
      end
  end.

(** ** Boot: kernel/core/boot.c:35-50 *)

(** Static storage before initialisation. *)
Definition zero_thread : thread := mkThread 0 0 0 0 0 0 0 0 0 0 0 0 0 0.
Definition zero_part : part := mkPart 0 0 0 0 0 (fun _ => 0) (fun _ => 0) 0 0 0 0 0 0 0 0 0 0.
Definition zero_kstate (cfg : config) : kstate :=
  mkK (fun _ => zero_thread) (fun _ => zero_part) (fun _ => obj_zero) (fun _ => 0) 0 0 0 0 0 0
      (fun _ => false) (c_heap cfg) (fun _ => KUser).

(** Body of the loop of pok_partition_init, partition.c:151-245, for partition [i]; [ti] and [li] are
    threads_index and lockobj_index. The base address comes from the heap (154), whose break is 32 bits
    wide. *)
Definition init_partition (cfg : config) (i ti li : Z) (s : kstate) : option kstate :=
  match get_proc_real_id (c_mask cfg i) 0 with
  | None => None
  | Some mp =>
      let base := k_brk s in
      let s1 := set_k_brk (u32 (base + c_size cfg i)) s in
      let s2 := set_k_present (upd (k_present s1) i true) s1 in
      let s3 := on_part i (fun _ =>
        mkPart base (c_size cfg i) (c_threads cfg i) (c_sched cfg i) 0
               (fun j => idle cfg j) (fun j => idle cfg j) ti (ti + c_threads cfg i) 0
               li (u8 (li + c_lockobjs cfg i)) 0 0 (c_entry cfg i) mp PM_WARM) s2 in
      let s4 := set_k_cur (fun _ => kernel_thread cfg) s3 in
      setup_main_thread cfg i s4
  end.

Fixpoint init_partitions (n : nat) (cfg : config) (i ti li : Z) (s : kstate) : option kstate :=
  match n with
  | O => Some s
  | S k =>
      match init_partition cfg i ti li s with
      | None => None
      | Some s' => init_partitions k cfg (i + 1) (ti + c_threads cfg i) (u8 (li + c_lockobjs cfg i)) s'
      end
  end.

(** pok_thread_init, thread.c:92-121, for one thread. *)
Definition reset_thread (t : thread) : thread :=
  set_t_affinity 0 (set_t_state ST_STOPPED (set_t_wakeup 0 (set_t_next_act 0
    (set_t_remaining INFINITE (set_t_capacity INFINITE (set_t_deadline 0 (set_t_period INFINITE t))))))).
(** pok_idle_thread_init, thread.c:68-86, for the idle thread of processor [i]. *)
Definition idle_thread (i : Z) (t : thread) : thread :=
  set_t_state ST_RUNNABLE (set_t_base_prio 0 (set_t_affinity i (set_t_wakeup 0
    (set_t_remaining INFINITE (set_t_next_act 0 (set_t_capacity INFINITE
      (set_t_deadline 0 (set_t_period INFINITE t)))))))).
Definition thread_init (cfg : config) (s : kstate) : kstate :=
  set_k_brk (u32 (k_brk s + c_nprocs cfg * 8192))
    (set_k_th (fun j =>
       let t := reset_thread (k_th s j) in
       let p := c_nthreads cfg - 2 - j in
       if (0 <=? p) && (p <? c_nprocs cfg) then idle_thread p t else t) s).

(** pok_sched_init, sched.c:96-123 (the check of the major frame is a hypothesis of the theorems). *)
Definition sched_init (cfg : config) (s : kstate) : kstate :=
  set_k_cp (c_alloc cfg 0) (set_k_flush 0 (set_k_deadline (c_slot cfg 0)
    (set_k_major (c_major cfg) (set_k_slot 0 s)))).

(** boot.c:35-50. *)
Definition kboot (cfg : config) : option kstate :=
  match init_partitions (Z.to_nat (c_nparts cfg)) cfg 0 0 0 (zero_kstate cfg) with
  | None => None
  | Some s => Some (set_k_obj (fun i => obj_boot (k_obj s i)) (sched_init cfg (thread_init cfg s)))
  end.
