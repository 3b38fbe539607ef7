(** A small deployment for the examples beside the theorems: two partitions with 3 and 2 threads, one or two
    processors, slots of 10 and 20 ticks. *)
From Verif Require Import Model.Base Model.State Model.LockFifo Model.LockObj Model.LockSys Model.Sched
  Model.Kernel Spec.SchedSpec Spec.KernelSpec.

(** [two a b]: the list of values a, b, as a function. *)
Definition two (a b : Z) : Z -> Z := fun i => if i =? 0 then a else b.

(** [procs] processors, schedulers [s0] and [s1], 4 and 2 threads. *)
Definition demo (procs s0 s1 : Z) : config :=
  mkConfig 2 (7 + procs) procs (two 4 2) (two 1 1) (two s0 s1) (two (2 ^ procs - 1) 1) (two 100000 50000)
           (two 4096 8192) 2 (two 10 20) (two 0 1) 30 FlushMajor true 4096 1048576.

Lemma demo_supported : forall procs s0 s1, 1 <= procs <= 4 -> supported (demo procs s0 s1).
Proof.
  intros procs s0 s1 Hp. constructor.
  - cbn. lia.
  - change (1 <= procs <= 64). lia.
  - intros i _. cbn. unfold two. destruct (i =? 0); lia.
  - change (6 + procs + 1 <= 7 + procs <= 256). lia.
  - intros i _. cbn. unfold two. destruct (i =? 0); lia.
  - vm_compute. discriminate.
  - cbn. lia.
  - intros i _. cbn. unfold two. destruct (i =? 0); lia.
  - intros i _. unfold is_part. cbn. unfold two. destruct (i =? 0); lia.
  - reflexivity.
Qed.

(** A thread of priority [p], on processor [c] of its partition, with period and time capacity; 0: none. *)
Definition at_entry (p c period capacity : Z) : tattr := mkAttr p c 5000 period 0 capacity.

(** Boot and a history. *)
Definition demo_run (cfg : config) (ls : list klabel) : option (kstate * list kevent) :=
  match kboot cfg with Some s => krun cfg s ls | None => None end.
(** The main thread of partition 0 starts, creates threads and switches to NORMAL mode. *)
Definition demo_start (attrs : list tattr) : list klabel :=
  [KTick 1; KTimer 0] ++ map (fun a => KCall 0 (SCreate a)) attrs ++ [KCall 0 (SSetMode PM_NORMAL)].
Lemma demo_reachable : forall cfg ls s evs, demo_run cfg ls = Some (s, evs) -> reachable cfg s.
Proof.
  intros cfg ls s evs H. unfold demo_run in H. destruct (kboot cfg) as [s0|] eqn:E; [|discriminate].
  exists s0, ls, evs. auto.
Qed.
