(** Vocabulary for the properties of the kernel machine. *)
From Verif Require Import Model.Base Model.State Model.LockFifo Model.LockObj Model.LockSys Model.Kernel Spec.SchedSpec.

(** f 0 + ... + f (n-1). *)
Fixpoint psum (f : Z -> Z) (n : nat) : Z :=
  match n with O => 0 | S k => psum f k + f (Z.of_nat k) end.
Definition sum_to (f : Z -> Z) (i : Z) : Z := psum f (Z.to_nat i).

Definition is_part (cfg : config) (i : Z) : Prop := 0 <= i < c_nparts cfg.
Definition is_proc (cfg : config) (c : Z) : Prop := 0 <= c < c_nprocs cfg.

(** First thread of partition [i] and first thread behind it. *)
Definition low_of (cfg : config) (i : Z) : Z := sum_to (c_threads cfg) i.
Definition high_of (cfg : config) (i : Z) : Z := low_of cfg i + c_threads cfg i.
(** Thread [t] belongs to partition [i]. *)
Definition thread_of (cfg : config) (i t : Z) : Prop := in_range (low_of cfg i) (high_of cfg i) t.

(** First lock object of partition [i] and first one behind it. *)
Definition lo_low_of (cfg : config) (i : Z) : Z := sum_to (c_lockobjs cfg) i.
Definition lo_high_of (cfg : config) (i : Z) : Z := lo_low_of cfg i + c_lockobjs cfg i.
Definition lockobj_of (cfg : config) (i o : Z) : Prop := in_range (lo_low_of cfg i) (lo_high_of cfg i) o.

(** Deployments that the kernel supports: identifiers fit into 8 bits, every partition has a main thread,
    slots are positive and add up to the major frame (the check of sched.c:110-122). *)
Record supported (cfg : config) : Prop := {
  sp_parts : 1 <= c_nparts cfg <= 255;
  sp_procs : 1 <= c_nprocs cfg <= 64;
  sp_threads : forall i, is_part cfg i -> 1 <= c_threads cfg i <= 255;
  sp_total : sum_to (c_threads cfg) (c_nparts cfg) + c_nprocs cfg + 1 <= c_nthreads cfg <= 256;
  sp_objs : forall i, is_part cfg i -> 0 <= c_lockobjs cfg i;
  sp_objs_total : sum_to (c_lockobjs cfg) (c_nparts cfg) <= 255;
  sp_nslots : 1 <= c_nslots cfg;
  sp_slots : forall i, 0 <= i < c_nslots cfg -> 0 < c_slot cfg i;
  sp_alloc : forall i, 0 <= i < c_nslots cfg -> is_part cfg (c_alloc cfg i);
  sp_major : c_major cfg = sum_to (c_slot cfg) (c_nslots cfg)
}.

(** States reached by some execution from boot. *)
Definition reachable (cfg : config) (s : kstate) : Prop :=
  exists s0 ls evs, kboot cfg = Some s0 /\ krun cfg s0 ls = Some (s, evs).

(** ** The slot table *)
Definition slots_of (cfg : config) : list (Z * Z) :=
  map (fun i => (c_slot cfg i, c_alloc cfg i)) (ids 0 (c_nslots cfg)).
(** Owner of the instant at distance [r] from the start of the table. *)
Fixpoint owner_at (l : list (Z * Z)) (r : Z) : option Z :=
  match l with
  | [] => None
  | (d, p) :: l' => if r <? d then Some p else owner_at l' (r - d)
  end.
(** Owner of instant [t]: the table repeats with the period of the major frame. *)
Definition owner (cfg : config) (t : Z) : option Z := owner_at (slots_of cfg) (t mod c_major cfg).

(** Histories in which a timer interrupt is taken at least once per (shortest) slot: since the last timer
    interrupt the clock has advanced by [g]. Everything else may happen at any time. *)
Fixpoint timely (cfg : config) (g : Z) (ls : list klabel) : Prop :=
  match ls with
  | [] => True
  | KTick d :: ls' =>
      0 < d /\ (forall i, 0 <= i < c_nslots cfg -> g + d <= c_slot cfg i) /\ timely cfg (g + d) ls'
  | KTimer c :: ls' => is_proc cfg c /\ timely cfg 0 ls'
  | _ :: ls' => timely cfg g ls'
  end.
(** Time since the last timer interrupt at the end of a history. *)
Fixpoint since_timer (g : Z) (ls : list klabel) : Z :=
  match ls with
  | [] => g
  | KTick d :: ls' => since_timer (g + d) ls'
  | KTimer c :: ls' => since_timer 0 ls'
  | _ :: ls' => since_timer g ls'
  end.

(** Steps at which processor [c], and no other, chooses its thread anew. *)
Definition election_on (cfg : config) (c : Z) (l : klabel) : Prop :=
  l = KIpi c \/ (l = KTimer c /\ c_nprocs cfg = 1).

(** The partition that executes in state [s] is in NORMAL mode under policy [sch], and its error handler is
    not the thread on processor [c]. *)
Definition scheduling (cfg : config) (c sch : Z) (s : kstate) : Prop :=
  p_mode (k_part s (k_cp s)) = PM_NORMAL /\ c_sched cfg (k_cp s) = sch /\
  k_cur s c <> p_error (k_part s (k_cp s)).

(** No partition ever creates an error handler. *)
Definition creates_handler (l : klabel) : bool :=
  match l with KCall _ (SErrorCreate _ _ _ _) => true | _ => false end.
Definition no_handler (ls : list klabel) : Prop := forallb (fun l => negb (creates_handler l)) ls = true.

(** Threads of partition [i] that the main thread has created. *)
Definition created (cfg : config) (s : kstate) (i t : Z) : Prop :=
  low_of cfg i < t < low_of cfg i + p_index (k_part s i).

(** Thread [t] has the attributes [a], reduced to the sizes of the fields of the structure: priority, entry
    point, period (when given) and time capacity (0: unlimited). *)
Definition has_attrs (a : tattr) (t : thread) : Prop :=
  t_priority t = u8 (a_prio a) /\ t_entry t = u32 (a_entry a) /\
  (u64 (a_period a) <> 0 -> t_period t = s64 (u64 (a_period a)) /\ t_next_act t = u64 (a_period a)) /\
  t_capacity t = (if u64 (a_capacity a) =? 0 then INFINITE else s64 (u64 (a_capacity a))) /\
  t_remaining t = t_capacity t /\ t_state t = ST_RUNNABLE.

(** The thread that executes on processor [c] in state [s] calls service [v]; the call returns [e] and the
    identifier [id] (0 when the service returns none), and the state afterwards is [s']. *)
Definition calls (cfg : config) (s : kstate) (c : Z) (v : svc) (s' : kstate) (e id : Z) : Prop :=
  exists f, kstep cfg s (KCall c v) = KNext s' [XRet c (k_cur s c) v e id; XFlush f].

(** ** Partition modes *)
Definition mode_of (s : kstate) (i : Z) : Z := p_mode (k_part s i).
Definition is_init (m : Z) : Prop := m = PM_COLD \/ m = PM_WARM.
(** Mode transitions that a partition may request for itself. *)
Definition allowed_mode (old new : Z) : Prop :=
  (is_init old /\ new = PM_NORMAL) \/
  ((is_init old \/ old = PM_NORMAL) /\ new = PM_STOPPED) \/
  ((is_init old \/ old = PM_NORMAL) /\ is_init new /\ ~ (old = PM_COLD /\ new = PM_WARM)).

(** ** What a history created *)
Definition in_rangeb (low high t : Z) : bool := (low <=? t) && (t <? high).
(** Identifiers of threads returned to partition [i]. *)
Fixpoint made_threads (cfg : config) (i : Z) (evs : list kevent) : list Z :=
  match evs with
  | [] => []
  | XRet c t (SCreate a) e id :: evs' =>
      if (e =? ERR_OK) && in_rangeb (low_of cfg i) (high_of cfg i) t
      then id :: made_threads cfg i evs' else made_threads cfg i evs'
  | _ :: evs' => made_threads cfg i evs'
  end.
(** Identifiers of lock objects returned to any partition. *)
Fixpoint made_objs (evs : list kevent) : list Z :=
  match evs with
  | [] => []
  | XRet c t (SLockCreate a) e id :: evs' => if e =? ERR_OK then id :: made_objs evs' else made_objs evs'
  | _ :: evs' => made_objs evs'
  end.
(** Partition [i] has not been restarted. *)
Definition is_restart (cfg : config) (i : Z) (ev : kevent) : bool :=
  match ev with
  | XRet c t (SSetMode m) e id =>
      (e =? ERR_OK) && ((m =? PM_COLD) || (m =? PM_WARM)) && in_rangeb (low_of cfg i) (high_of cfg i) t
  | _ => false
  end.
Definition not_restarted (cfg : config) (i : Z) (evs : list kevent) : Prop :=
  forallb (fun ev => negb (is_restart cfg i ev)) evs = true.

(** Partition [i] is in NORMAL mode in every state of the execution of [ls] from [s]. *)
Fixpoint stays_normal (cfg : config) (i : Z) (s : kstate) (ls : list klabel) : Prop :=
  mode_of s i = PM_NORMAL /\
  match ls with
  | [] => True
  | l :: ls' => match kstep cfg s l with KNext s' _ => stays_normal cfg i s' ls' | _ => stays_normal cfg i s ls' end
  end.

(** Requests to create a thread or a lock object. *)
Definition creates (v : svc) : Prop := match v with SCreate _ | SLockCreate _ => True | _ => False end.
(** Every such request of a thread of partition [i] among the events was refused because of the mode. *)
Definition refusals (cfg : config) (i : Z) (evs : list kevent) : Prop :=
  forall c t v e id, In (XRet c t v e id) evs -> creates v -> thread_of cfg i t -> e = ERR_MODE.

(** Known kinds and locking policies of lock objects. *)
Definition valid_lattr (a : lattr) : Prop :=
  (la_kind a = LK_MUTEX \/ la_kind a = LK_SEMAPHORE \/ la_kind a = LK_EVENT) /\ 0 <= la_lpol a <= 2.

(** The thread that a request of partition [i] designates; THREAD_RESTART and THREAD_STOP count from the first
    thread of the partition, in 32-bit arithmetic. *)
Definition names (cfg : config) (i : Z) (v : svc) : option Z :=
  match v with
  | SStatus id | SDelayedStart id _ | SSetPriority id _ | SResume id | SSuspendTarget id => Some id
  | SRestart tid | SStop tid => Some (u32 (tid + low_of cfg i))
  | _ => None
  end.
(** Requests that signal a lock object that was never created. *)
Definition signals_unborn (s : kstate) (v : svc) : Prop :=
  match v with
  | SLockOp o _ (Some op) => o_init (k_obj s o) = false /\ (op = OpSignal \/ op = OpBroadcast)
  | _ => False
  end.

(** What identifies a thread and how it is scheduled, apart from its progress (state, dates and remaining budget). *)
Definition attributes (t : thread) :=
  (t_priority t, t_base_prio t, t_period t, t_deadline t, t_capacity t, t_entry t, t_partition t, t_stack t, t_affinity t).

(** ** Steps as seen by one thread *)
(** Step [l] in state [s] is no service that designates thread [t] of partition [j], no signal for a lock object
    that does not exist, and no change of the mode of that partition. *)
Definition leaves_alone (cfg : config) (j t : Z) (s : kstate) (l : klabel) : Prop :=
  match l with
  | KCall _ v => names cfg (k_cp s) v <> Some t /\ ~ signals_unborn s v /\ (k_cp s = j -> match v with SSetMode _ => False | _ => True end)
  | _ => True
  end.
(** Steps inside a lock-object service, which may release a blocked thread. *)
Definition lock_step (l : klabel) : Prop :=
  match l with KCall _ (SLockOp _ _ _) | KCont _ => True | _ => False end.
(** Threads in a wait queue, which is a ring of [n] cells, in their order. *)
Definition ring (n : Z) (f : fifo) : list Z :=
  if f_empty f then []
  else let d := (f_last f - f_head f) mod n in
       map (fun i => f_buf f ((f_head f + i) mod n)) (ids 0 (if d =? 0 then n else d)).
(** Thread [t] waits for no lock object. *)
Definition unqueued (cfg : config) (s : kstate) (t : Z) : Prop :=
  forall i o, is_part cfg i -> lockobj_of cfg i o -> o_init (k_obj s o) = true ->
  ~ In t (ring (c_nthreads cfg) (o_fifo (k_obj s o))) /\ ~ In t (ring (c_nthreads cfg) (o_event (k_obj s o))).
(** Interrupts at which processor [x] chooses its thread anew. *)
Definition schedules (cfg : config) (l : klabel) (x : Z) : Prop :=
  is_proc cfg x /\ (l = KIpi x \/ exists c, l = KTimer c).
(** Steps that no thread initiates. *)
Definition spontaneous (l : klabel) : Prop :=
  match l with KCall _ _ | KCont _ => False | _ => True end.
(** Thread [t] executes on no processor. *)
Definition executes_nowhere (cfg : config) (s : kstate) (t : Z) : Prop := forall c, is_proc cfg c -> k_cur s c <> t.
(** Along the execution of [ls] from [s], partition [j] is in NORMAL mode, [t] is not its error handler, and
    no step designates [t]. *)
Fixpoint undisturbed (cfg : config) (j t : Z) (s : kstate) (ls : list klabel) : Prop :=
  mode_of s j = PM_NORMAL /\ t <> p_error (k_part s j) /\
  match ls with
  | [] => True
  | l :: ls' => leaves_alone cfg j t s l /\
      match kstep cfg s l with KNext s' _ => undisturbed cfg j t s' ls' | _ => undisturbed cfg j t s ls' end
  end.
(** Interrupts at which processor [x] chooses [t] while it executes [t]: how many there are. *)
Definition schedulesb (cfg : config) (l : klabel) (x : Z) : bool :=
  match l with KTimer _ => valid_proc cfg x | KIpi c => c =? x | _ => false end.
Fixpoint kept (cfg : config) (x t : Z) (s : kstate) (ls : list klabel) : Z :=
  match ls with
  | [] => 0
  | l :: ls' =>
      match kstep cfg s l with
      | KNext s' _ => (if schedulesb cfg l x && (k_cur s x =? t) && (k_cur s' x =? t) then 1 else 0) + kept cfg x t s' ls'
      | _ => kept cfg x t s ls'
      end
  end.
