(** State of the kernel core: threads and partitions. *)
From Verif Require Import Model.Base.

(** Thread states, kernel/include/core/sched.h:29-36. *)
Definition ST_STOPPED := 0.
Definition ST_RUNNABLE := 1.
Definition ST_WAITING := 2.
Definition ST_LOCK := 3.
Definition ST_WAIT_NEXT := 4.
Definition ST_DELAYED := 5.

(** INFINITE_TIME_VALUE, kernel/include/core/thread.h:32. *)
Definition INFINITE := -1.

(** pok_thread_t, kernel/include/core/thread.h:48-66. The saved stack pointer
    [sp] is left out: contexts are modelled by the continuations of the machines. *)
Record thread := mkThread {
  t_priority : Z;
  t_period : Z;
  t_deadline : Z;
  t_capacity : Z;
  t_remaining : Z;
  t_next_act : Z;
  t_state : Z;
  t_end_time : Z;
  t_wakeup : Z;
  t_entry : Z;
  t_partition : Z;
  t_stack : Z;
  t_base_prio : Z;
  t_affinity : Z
}.

(** Assignment to priority (include/core/thread.h:49). *)
Definition set_t_priority (v : Z) (x : thread) : thread :=
  mkThread v (t_period x) (t_deadline x) (t_capacity x) (t_remaining x) (t_next_act x) (t_state x) (t_end_time x) (t_wakeup x) (t_entry x) (t_partition x) (t_stack x) (t_base_prio x) (t_affinity x).
(** Assignment to period (include/core/thread.h:50). *)
Definition set_t_period (v : Z) (x : thread) : thread :=
  mkThread (t_priority x) v (t_deadline x) (t_capacity x) (t_remaining x) (t_next_act x) (t_state x) (t_end_time x) (t_wakeup x) (t_entry x) (t_partition x) (t_stack x) (t_base_prio x) (t_affinity x).
(** Assignment to deadline (include/core/thread.h:51). *)
Definition set_t_deadline (v : Z) (x : thread) : thread :=
  mkThread (t_priority x) (t_period x) v (t_capacity x) (t_remaining x) (t_next_act x) (t_state x) (t_end_time x) (t_wakeup x) (t_entry x) (t_partition x) (t_stack x) (t_base_prio x) (t_affinity x).
(** Assignment to time_capacity (include/core/thread.h:52). *)
Definition set_t_capacity (v : Z) (x : thread) : thread :=
  mkThread (t_priority x) (t_period x) (t_deadline x) v (t_remaining x) (t_next_act x) (t_state x) (t_end_time x) (t_wakeup x) (t_entry x) (t_partition x) (t_stack x) (t_base_prio x) (t_affinity x).
(** Assignment to remaining_time_capacity (include/core/thread.h:53). *)
Definition set_t_remaining (v : Z) (x : thread) : thread :=
  mkThread (t_priority x) (t_period x) (t_deadline x) (t_capacity x) v (t_next_act x) (t_state x) (t_end_time x) (t_wakeup x) (t_entry x) (t_partition x) (t_stack x) (t_base_prio x) (t_affinity x).
(** Assignment to next_activation (include/core/thread.h:54). *)
Definition set_t_next_act (v : Z) (x : thread) : thread :=
  mkThread (t_priority x) (t_period x) (t_deadline x) (t_capacity x) (t_remaining x) v (t_state x) (t_end_time x) (t_wakeup x) (t_entry x) (t_partition x) (t_stack x) (t_base_prio x) (t_affinity x).
(** Assignment to state (include/core/thread.h:55). *)
Definition set_t_state (v : Z) (x : thread) : thread :=
  mkThread (t_priority x) (t_period x) (t_deadline x) (t_capacity x) (t_remaining x) (t_next_act x) v (t_end_time x) (t_wakeup x) (t_entry x) (t_partition x) (t_stack x) (t_base_prio x) (t_affinity x).
(** Assignment to end_time (include/core/thread.h:56). *)
Definition set_t_end_time (v : Z) (x : thread) : thread :=
  mkThread (t_priority x) (t_period x) (t_deadline x) (t_capacity x) (t_remaining x) (t_next_act x) (t_state x) v (t_wakeup x) (t_entry x) (t_partition x) (t_stack x) (t_base_prio x) (t_affinity x).
(** Assignment to wakeup_time (include/core/thread.h:57). *)
Definition set_t_wakeup (v : Z) (x : thread) : thread :=
  mkThread (t_priority x) (t_period x) (t_deadline x) (t_capacity x) (t_remaining x) (t_next_act x) (t_state x) (t_end_time x) v (t_entry x) (t_partition x) (t_stack x) (t_base_prio x) (t_affinity x).
(** Assignment to entry (include/core/thread.h:58). *)
Definition set_t_entry (v : Z) (x : thread) : thread :=
  mkThread (t_priority x) (t_period x) (t_deadline x) (t_capacity x) (t_remaining x) (t_next_act x) (t_state x) (t_end_time x) (t_wakeup x) v (t_partition x) (t_stack x) (t_base_prio x) (t_affinity x).
(** Assignment to partition (include/core/thread.h:59). *)
Definition set_t_partition (v : Z) (x : thread) : thread :=
  mkThread (t_priority x) (t_period x) (t_deadline x) (t_capacity x) (t_remaining x) (t_next_act x) (t_state x) (t_end_time x) (t_wakeup x) (t_entry x) v (t_stack x) (t_base_prio x) (t_affinity x).
(** Assignment to init_stack_addr (include/core/thread.h:61). *)
Definition set_t_stack (v : Z) (x : thread) : thread :=
  mkThread (t_priority x) (t_period x) (t_deadline x) (t_capacity x) (t_remaining x) (t_next_act x) (t_state x) (t_end_time x) (t_wakeup x) (t_entry x) (t_partition x) v (t_base_prio x) (t_affinity x).
(** Assignment to base_priority (include/core/thread.h:62). *)
Definition set_t_base_prio (v : Z) (x : thread) : thread :=
  mkThread (t_priority x) (t_period x) (t_deadline x) (t_capacity x) (t_remaining x) (t_next_act x) (t_state x) (t_end_time x) (t_wakeup x) (t_entry x) (t_partition x) (t_stack x) v (t_affinity x).
(** Assignment to processor_affinity (include/core/thread.h:63). *)
Definition set_t_affinity (v : Z) (x : thread) : thread :=
  mkThread (t_priority x) (t_period x) (t_deadline x) (t_capacity x) (t_remaining x) (t_next_act x) (t_state x) (t_end_time x) (t_wakeup x) (t_entry x) (t_partition x) (t_stack x) (t_base_prio x) v.

(** Partition modes, kernel/include/core/partition.h:35-48. *)
Definition PM_COLD := 1.
Definition PM_WARM := 2.
Definition PM_NORMAL := 3.
Definition PM_IDLE := 4.
Definition PM_RESTART := 5.
Definition PM_STOPPED := 6.

(** Partition schedulers, kernel/include/core/schedvalues.h:18-26. *)
Definition SCHED_RR := 1.
Definition SCHED_RMS := 3.
Definition SCHED_STATIC := 6.

(** pok_partition_t, kernel/include/core/partition.h:62-123. Left out: name, period
    (never used), virtual base (equal to 0 offset on x86), error_status, I/O range,
    lock level and start condition. prev_thread and current_thread are indexed by processor. *)
Record part := mkPart {
  p_base : Z;
  p_size : Z;
  p_nthreads : Z;
  p_sched : Z;
  p_activation : Z;
  p_prev : Z -> Z;
  p_cur : Z -> Z;
  p_low : Z;
  p_high : Z;
  p_index : Z;
  p_lo_low : Z;
  p_lo_high : Z;
  p_error : Z;
  p_main : Z;
  p_main_entry : Z;
  p_main_proc : Z;
  p_mode : Z
}.

(** Assignment to base_addr (include/core/partition.h:63). *)
Definition set_p_base (v : Z) (x : part) : part :=
  mkPart v (p_size x) (p_nthreads x) (p_sched x) (p_activation x) (p_prev x) (p_cur x) (p_low x) (p_high x) (p_index x) (p_lo_low x) (p_lo_high x) (p_error x) (p_main x) (p_main_entry x) (p_main_proc x) (p_mode x).
(** Assignment to size (include/core/partition.h:69). *)
Definition set_p_size (v : Z) (x : part) : part :=
  mkPart (p_base x) v (p_nthreads x) (p_sched x) (p_activation x) (p_prev x) (p_cur x) (p_low x) (p_high x) (p_index x) (p_lo_low x) (p_lo_high x) (p_error x) (p_main x) (p_main_entry x) (p_main_proc x) (p_mode x).
(** Assignment to nthreads (include/core/partition.h:73). *)
Definition set_p_nthreads (v : Z) (x : part) : part :=
  mkPart (p_base x) (p_size x) v (p_sched x) (p_activation x) (p_prev x) (p_cur x) (p_low x) (p_high x) (p_index x) (p_lo_low x) (p_lo_high x) (p_error x) (p_main x) (p_main_entry x) (p_main_proc x) (p_mode x).
(** Assignment to sched (include/core/partition.h:77). *)
Definition set_p_sched (v : Z) (x : part) : part :=
  mkPart (p_base x) (p_size x) (p_nthreads x) v (p_activation x) (p_prev x) (p_cur x) (p_low x) (p_high x) (p_index x) (p_lo_low x) (p_lo_high x) (p_error x) (p_main x) (p_main_entry x) (p_main_proc x) (p_mode x).
(** Assignment to activation (include/core/partition.h:84). *)
Definition set_p_activation (v : Z) (x : part) : part :=
  mkPart (p_base x) (p_size x) (p_nthreads x) (p_sched x) v (p_prev x) (p_cur x) (p_low x) (p_high x) (p_index x) (p_lo_low x) (p_lo_high x) (p_error x) (p_main x) (p_main_entry x) (p_main_proc x) (p_mode x).
(** Assignment to prev_thread (include/core/partition.h:81). *)
Definition set_p_prev (v : Z -> Z) (x : part) : part :=
  mkPart (p_base x) (p_size x) (p_nthreads x) (p_sched x) (p_activation x) v (p_cur x) (p_low x) (p_high x) (p_index x) (p_lo_low x) (p_lo_high x) (p_error x) (p_main x) (p_main_entry x) (p_main_proc x) (p_mode x).
(** Assignment to current_thread (include/core/partition.h:89). *)
Definition set_p_cur (v : Z -> Z) (x : part) : part :=
  mkPart (p_base x) (p_size x) (p_nthreads x) (p_sched x) (p_activation x) (p_prev x) v (p_low x) (p_high x) (p_index x) (p_lo_low x) (p_lo_high x) (p_error x) (p_main x) (p_main_entry x) (p_main_proc x) (p_mode x).
(** Assignment to thread_index_low (include/core/partition.h:93). *)
Definition set_p_low (v : Z) (x : part) : part :=
  mkPart (p_base x) (p_size x) (p_nthreads x) (p_sched x) (p_activation x) (p_prev x) (p_cur x) v (p_high x) (p_index x) (p_lo_low x) (p_lo_high x) (p_error x) (p_main x) (p_main_entry x) (p_main_proc x) (p_mode x).
(** Assignment to thread_index_high (include/core/partition.h:94). *)
Definition set_p_high (v : Z) (x : part) : part :=
  mkPart (p_base x) (p_size x) (p_nthreads x) (p_sched x) (p_activation x) (p_prev x) (p_cur x) (p_low x) v (p_index x) (p_lo_low x) (p_lo_high x) (p_error x) (p_main x) (p_main_entry x) (p_main_proc x) (p_mode x).
(** Assignment to thread_index (include/core/partition.h:95). *)
Definition set_p_index (v : Z) (x : part) : part :=
  mkPart (p_base x) (p_size x) (p_nthreads x) (p_sched x) (p_activation x) (p_prev x) (p_cur x) (p_low x) (p_high x) v (p_lo_low x) (p_lo_high x) (p_error x) (p_main x) (p_main_entry x) (p_main_proc x) (p_mode x).
(** Assignment to lockobj_index_low (include/core/partition.h:98). *)
Definition set_p_lo_low (v : Z) (x : part) : part :=
  mkPart (p_base x) (p_size x) (p_nthreads x) (p_sched x) (p_activation x) (p_prev x) (p_cur x) (p_low x) (p_high x) (p_index x) v (p_lo_high x) (p_error x) (p_main x) (p_main_entry x) (p_main_proc x) (p_mode x).
(** Assignment to lockobj_index_high (include/core/partition.h:100). *)
Definition set_p_lo_high (v : Z) (x : part) : part :=
  mkPart (p_base x) (p_size x) (p_nthreads x) (p_sched x) (p_activation x) (p_prev x) (p_cur x) (p_low x) (p_high x) (p_index x) (p_lo_low x) v (p_error x) (p_main x) (p_main_entry x) (p_main_proc x) (p_mode x).
(** Assignment to thread_error (include/core/partition.h:104). *)
Definition set_p_error (v : Z) (x : part) : part :=
  mkPart (p_base x) (p_size x) (p_nthreads x) (p_sched x) (p_activation x) (p_prev x) (p_cur x) (p_low x) (p_high x) (p_index x) (p_lo_low x) (p_lo_high x) v (p_main x) (p_main_entry x) (p_main_proc x) (p_mode x).
(** Assignment to thread_main (include/core/partition.h:107). *)
Definition set_p_main (v : Z) (x : part) : part :=
  mkPart (p_base x) (p_size x) (p_nthreads x) (p_sched x) (p_activation x) (p_prev x) (p_cur x) (p_low x) (p_high x) (p_index x) (p_lo_low x) (p_lo_high x) (p_error x) v (p_main_entry x) (p_main_proc x) (p_mode x).
(** Assignment to thread_main_entry (include/core/partition.h:109). *)
Definition set_p_main_entry (v : Z) (x : part) : part :=
  mkPart (p_base x) (p_size x) (p_nthreads x) (p_sched x) (p_activation x) (p_prev x) (p_cur x) (p_low x) (p_high x) (p_index x) (p_lo_low x) (p_lo_high x) (p_error x) (p_main x) v (p_main_proc x) (p_mode x).
(** Assignment to thread_main_proc (include/core/partition.h:111). *)
Definition set_p_main_proc (v : Z) (x : part) : part :=
  mkPart (p_base x) (p_size x) (p_nthreads x) (p_sched x) (p_activation x) (p_prev x) (p_cur x) (p_low x) (p_high x) (p_index x) (p_lo_low x) (p_lo_high x) (p_error x) (p_main x) (p_main_entry x) v (p_mode x).
(** Assignment to mode (include/core/partition.h:112). *)
Definition set_p_mode (v : Z) (x : part) : part :=
  mkPart (p_base x) (p_size x) (p_nthreads x) (p_sched x) (p_activation x) (p_prev x) (p_cur x) (p_low x) (p_high x) (p_index x) (p_lo_low x) (p_lo_high x) (p_error x) (p_main x) (p_main_entry x) (p_main_proc x) v.
