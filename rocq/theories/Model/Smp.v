(** Synchronisation between processors: spin locks (kernel/include/arch/x86/spinlock.h) and the rendezvous of the
    scheduler (kernel/include/arch/x86/rendezvous.h, kernel/core/sched.c), one memory access at a time.

    Simplification: memory is sequentially consistent; the store buffers of the processors and the freedom of the
    compiler to move other accesses across the assembly statements are not modelled. *)
From Verif Require Import Model.Base.

(** * Spin locks *)

(** Where a processor is in SPIN_LOCK (spinlock.h:32-43) or SPIN_UNLOCK (spinlock.h:24-30) of lock [l]. *)
Inductive spin_pc :=
| SpOut                      (** in neither *)
| SpXchg (l : Z)             (** spinlock.h:36: before "lock xchg", with 1 in al *)
| SpTest (l al : Z)          (** spinlock.h:37-38: before the test of al *)
| SpInc (l : Z)              (** spinlock.h:42: before the read of spinlocks[proc] *)
| SpIncW (l v : Z)           (** spinlock.h:42: before the write of [v + 1] *)
| SpAssert (l : Z)           (** spinlock.h:26 *)
| SpAssertCnt (l : Z)        (** spinlock.h:27 *)
| SpDec (l : Z)              (** spinlock.h:28: before the read *)
| SpDecW (l v : Z)           (** spinlock.h:28: before the write of [v - 1] *)
| SpStore (l : Z).           (** spinlock.h:29: before the lock is set to 0 *)

(** The lock bytes, spinlocks[] (spinlock.h:22) and the positions of the processors. *)
Record spin_state := mkSpin { sp_lock : Z -> Z; sp_cnt : Z -> Z; sp_pc : Z -> spin_pc }.

(** Static storage is zero at start (kernel/arch/x86/multiprocessing.c:38). *)
Definition spin_start : spin_state := mkSpin (fun _ => 0) (fun _ => 0) (fun _ => SpOut).

(** What happens: processor [p] starts one of the macros, or does the next access of the one it is in. *)
Inductive spin_label := SpLock (p l : Z) | SpUnlock (p l : Z) | SpNext (p : Z).

(** Events that an observer sees: the exchange that finds the lock free, the store that frees it. *)
Inductive spin_event := Acquired (p l : Z) | Released (p l : Z).

Inductive spin_result := SpGo (s : spin_state) (ev : list spin_event) | SpAssertFails | SpDisabled.

Definition spin_step (a : spin_label) (s : spin_state) : spin_result :=
  let goto p pc ev := SpGo (mkSpin (sp_lock s) (sp_cnt s) (upd (sp_pc s) p pc)) ev in
  match a with
  | SpLock p l => match sp_pc s p with SpOut => goto p (SpXchg l) [] | _ => SpDisabled end
  | SpUnlock p l => match sp_pc s p with SpOut => goto p (SpAssert l) [] | _ => SpDisabled end
  | SpNext p =>
      match sp_pc s p with
      | SpOut => SpDisabled
      | SpXchg l => SpGo (mkSpin (upd (sp_lock s) l 1) (sp_cnt s) (upd (sp_pc s) p (SpTest l (sp_lock s l))))
                      (if sp_lock s l =? 0 then [Acquired p l] else [])
      | SpTest l al => goto p (if al =? 0 then SpInc l else SpXchg l) []
      | SpInc l => goto p (SpIncW l (sp_cnt s p)) []
      | SpIncW l v => SpGo (mkSpin (sp_lock s) (upd (sp_cnt s) p (s32 (v + 1))) (upd (sp_pc s) p SpOut)) []
      | SpAssert l => if sp_lock s l =? 0 then SpAssertFails else goto p (SpAssertCnt l) []
      | SpAssertCnt l => if sp_cnt s p =? 0 then SpAssertFails else goto p (SpDec l) []
      | SpDec l => goto p (SpDecW l (sp_cnt s p)) []
      | SpDecW l v => SpGo (mkSpin (sp_lock s) (upd (sp_cnt s) p (s32 (v - 1))) (upd (sp_pc s) p (SpStore l))) []
      | SpStore l => SpGo (mkSpin (upd (sp_lock s) l 0) (sp_cnt s) (upd (sp_pc s) p SpOut)) [Released p l]
      end
  end.

(** * The rendezvous of the scheduler *)

(** The processor that receives the timer interrupt is number 0 here. Positions of that processor in
    pok_global_sched (sched.c:308-319) and synchro_processors (sched.c:321-341), and of the others in the handler of
    the interrupt it sends them. The election of threads, which touches neither variable, is left out. *)
Inductive rv_pc :=
(* the initiating processor *)
| RIdle          (** sched.c:315, rendezvous.h:35: assert(!fence) *)
| RSetFence      (** rendezvous.h:36: fence = 1 *)
| RSend          (** sched.c:316: interrupt the others *)
| RAssert1       (** sched.c:327, rendezvous.h:42: assert(fence > 0) *)
| RWait1         (** rendezvous.h:43: while (fence != n) *)
| RSwitch        (** sched.c:328-331: switch the address space *)
| RAssert2       (** sched.c:332, rendezvous.h:35: assert(!barr) *)
| RSetBarr       (** rendezvous.h:36: barr = 1 *)
| RAssert3       (** sched.c:333, rendezvous.h:49: assert(fence > 0) *)
| RClearFence    (** rendezvous.h:50: fence = 0 *)
| RAssert4       (** sched.c:334, rendezvous.h:42: assert(barr > 0) *)
| RWait2         (** rendezvous.h:43: while (barr != n) *)
| RAssert5       (** sched.c:335, rendezvous.h:49: assert(barr > 0) *)
| RClearBarr     (** rendezvous.h:50: barr = 0 *)
(* the others *)
| JOut           (** executing something else; will take a pending interrupt *)
| JAssert1       (** sched.c:323, rendezvous.h:58: assert(fence > 0) *)
| JInc1          (** rendezvous.h:59: lock incw fence *)
| JWait1         (** rendezvous.h:60: while (fence) *)
| JAssert2       (** sched.c:324, rendezvous.h:58: assert(barr > 0) *)
| JInc2          (** rendezvous.h:59: lock incw barr *)
| JWait2.        (** rendezvous.h:60: while (barr) *)

Record rv_state := mkRv { rv_fence : Z; rv_barr : Z; rv_at : Z -> rv_pc; rv_pend : Z -> bool }.

Definition rv_start : rv_state :=
  mkRv 0 0 (fun p => if p =? 0 then RIdle else JOut) (fun _ => false).

Inductive rv_event := Enter (p : Z) | Switch | Leave (p : Z).

(** "lock incw" adds one to the low 16 bits of the 32-bit variable (rendezvous.h:59). *)
Definition incw (x : Z) : Z := (x / 2 ^ 16) * 2 ^ 16 + u16 (x + 1).

(** The next access of processor [p] with [n] processors in the system (multiprocessing_system). A loop that goes on
    waiting leaves the state as it is. [None]: an assertion fails. *)
Definition rv_step (n p : Z) (s : rv_state) : option (rv_state * list rv_event) :=
  let f := rv_fence s in let b := rv_barr s in
  let go pc ev := Some (mkRv f b (upd (rv_at s) p pc) (rv_pend s), ev) in
  let setf v pc ev := Some (mkRv v b (upd (rv_at s) p pc) (rv_pend s), ev) in
  let setb v pc ev := Some (mkRv f v (upd (rv_at s) p pc) (rv_pend s), ev) in
  let stay := Some (s, []) in
  match rv_at s p with
  | RIdle => if f =? 0 then go RSetFence [] else None
  | RSetFence => setf 1 RSend [Enter p]
  | RSend => Some (mkRv f b (upd (rv_at s) p RAssert1) (fun q => if q =? p then rv_pend s q else true), [])
  | RAssert1 => if 0 <? f then go RWait1 [] else None
  | RWait1 => if f =? n then go RSwitch [] else stay
  | RSwitch => go RAssert2 [Switch]
  | RAssert2 => if b =? 0 then go RSetBarr [] else None
  | RSetBarr => setb 1 RAssert3 []
  | RAssert3 => if 0 <? f then go RClearFence [] else None
  | RClearFence => setf 0 RAssert4 []
  | RAssert4 => if 0 <? b then go RWait2 [] else None
  | RWait2 => if b =? n then go RAssert5 [] else stay
  | RAssert5 => if 0 <? b then go RClearBarr [] else None
  | RClearBarr => setb 0 RIdle [Leave p]
  | JOut => if rv_pend s p then Some (mkRv f b (upd (rv_at s) p JAssert1) (upd (rv_pend s) p false), []) else stay
  | JAssert1 => if 0 <? f then go JInc1 [] else None
  | JInc1 => setf (incw f) JWait1 [Enter p]
  | JWait1 => if f =? 0 then go JAssert2 [] else stay
  | JAssert2 => if 0 <? b then go JInc2 [] else None
  | JInc2 => setb (incw b) JWait2 []
  | JWait2 => if b =? 0 then go JOut [Leave p] else stay
  end.

(** A schedule says which processor does the next access. *)
Fixpoint rv_run (n : Z) (sched : list Z) (s : rv_state) : option (rv_state * list rv_event) :=
  match sched with
  | [] => Some (s, [])
  | p :: t => match rv_step n p s with
              | None => None
              | Some (s1, e1) => match rv_run n t s1 with None => None | Some (s2, e2) => Some (s2, e1 ++ e2) end
              end
  end.
