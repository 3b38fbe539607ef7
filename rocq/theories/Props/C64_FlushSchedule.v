(** C64: ports are flushed once per major frame; or as the deployment chooses. *)
From Verif Require Import Model.Base Model.State Model.LockObj Model.LockSys Model.Sched Model.Kernel
  Spec.SchedSpec Spec.KernelSpec Spec.FlushSpec Spec.Demo Proof.FlushProof.

(** Several partitions, timer interrupts at least once per slot: as many flushes as major frames have been
    completed, seen from an instant not before the last timer interrupt. Taken for every prefix of a history
    this says when each flush happens. *)
Theorem C64_frames : forall cfg s0 ls s evs,
  supported cfg -> c_flush cfg = FlushMajor -> 1 < c_nparts cfg ->
  kboot cfg = Some s0 -> krun cfg s0 ls = Some (s, evs) -> timely cfg 0 ls ->
  k_now s + c_major cfg < 2 ^ 64 ->
  exists t, k_now s - since_timer 0 ls <= t <= k_now s /\
    flushes evs = repeat FlushAll (Z.to_nat (t / c_major cfg)).
Proof. exact frame_flushes. Qed.
Print Assumptions C64_frames.

(** Late timer interrupts never make flushes more frequent than major frames. *)
Theorem C64_never_early : forall cfg s0 ls s evs,
  supported cfg -> c_flush cfg = FlushMajor ->
  kboot cfg = Some s0 -> krun cfg s0 ls = Some (s, evs) -> k_now s + c_major cfg < 2 ^ 64 ->
  exists n, 0 <= n /\ n * c_major cfg <= k_now s /\ flushes evs = repeat FlushAll (Z.to_nat n).
Proof. exact frame_bound. Qed.
Print Assumptions C64_never_early.

(** A deployment with one partition never flushes its ports: sched.c:139 compiles the code away. *)
Theorem C64_single_none : forall cfg s ls s' evs, c_nparts cfg <= 1 ->
  krun cfg s ls = Some (s', evs) -> flushes evs = [].
Proof. intros cfg s ls s' evs H. apply no_flushes. now right. Qed.
Print Assumptions C64_single_none.

(** A flush period (POK_FLUSH_PERIOD): never more than one flush ahead of the period... *)
Theorem C64_period_bound : forall cfg p s0 ls s evs,
  supported cfg -> c_flush cfg = FlushPeriod p -> 0 < p ->
  kboot cfg = Some s0 -> krun cfg s0 ls = Some (s, evs) -> k_now s + p < 2 ^ 64 ->
  exists n, 0 <= n /\ (n - 1) * p <= k_now s /\ flushes evs = repeat FlushAll (Z.to_nat n).
Proof. exact period_bound. Qed.
Print Assumptions C64_period_bound.

(** ... and, if no slot is longer than the period, never behind it. *)
Theorem C64_period_kept : forall cfg p s0 ls s evs,
  supported cfg -> c_flush cfg = FlushPeriod p -> 1 < c_nparts cfg ->
  (forall i, 0 <= i < c_nslots cfg -> c_slot cfg i <= p) ->
  kboot cfg = Some s0 -> krun cfg s0 ls = Some (s, evs) -> timely cfg 0 ls ->
  k_now s + p < 2 ^ 64 ->
  exists n, (k_now s - since_timer 0 ls) / p <= n /\ flushes evs = repeat FlushAll (Z.to_nat n).
Proof. exact period_timely. Qed.
Print Assumptions C64_period_kept.

(** Flush on windows (POK_NEEDS_FLUSH_ON_WINDOWS): whenever another partition gets the processor, the ports of
    the one that leaves are flushed, and no other ports ever. *)
Theorem C64_windows : forall cfg s l s' ev, c_flush cfg = FlushWindows -> kstep cfg s l = KNext s' ev ->
  (k_cp s' <> k_cp s -> flushes ev = [FlushPart (k_cp s)]) /\
  (forall f, In f (flushes ev) -> f = FlushPart (k_cp s)).
Proof. exact window_step. Qed.
Print Assumptions C64_windows.

(** A kernel without ports flushes nothing. *)
Theorem C64_none : forall cfg s ls s' evs, c_flush cfg = FlushNone ->
  krun cfg s ls = Some (s', evs) -> flushes evs = [].
Proof. intros cfg s ls s' evs H. apply no_flushes. now left. Qed.
Print Assumptions C64_none.

(** ** Examples *)

(** The demonstration deployment with another flush policy or number of partitions. *)
Definition c64_demo (parts : Z) (f : flush_policy) : config :=
  mkConfig parts 8 1 (two 4 2) (two 1 1) (two SCHED_RR SCHED_RR) (two 1 1) (two 100000 50000)
           (two 4096 8192) 2 (two 10 20) (two 0 (parts - 1)) 30 f true 4096 1048576.
Lemma c64_supported : forall parts f, parts = 1 \/ parts = 2 -> supported (c64_demo parts f).
Proof.
  intros parts f Hp. constructor.
  - change (1 <= parts <= 255). lia.
  - cbn. lia.
  - intros i _. cbn. unfold two. destruct (i =? 0); lia.
  - cbn [c64_demo c_nparts c_nthreads c_nprocs c_threads]. destruct Hp as [-> | ->]; vm_compute; split; discriminate.
  - intros i _. cbn. unfold two. destruct (i =? 0); lia.
  - cbn [c64_demo c_nparts c_lockobjs]. destruct Hp as [-> | ->]; vm_compute; discriminate.
  - cbn. lia.
  - intros i _. cbn. unfold two. destruct (i =? 0); lia.
  - intros i _. unfold is_part. cbn. unfold two. destruct (i =? 0); lia.
  - reflexivity.
Qed.

(** A timer interrupt every 10 ticks, in between system calls that elect partitions as well. *)
Definition c64_history : list klabel :=
  demo_start [at_entry 5 0 100 2] ++
  [KTick 9; KTimer 0] ++ flat_map (fun _ => [KTick 10; KTimer 0; KCall 0 (SSetPriority 1 5)]) [1; 2; 3; 4; 5; 6; 7].
Lemma c64_timely : forall parts f, timely (c64_demo parts f) 0 c64_history /\ since_timer 0 c64_history = 0.
Proof.
  intros. split; [|reflexivity]. unfold c64_history, demo_start. cbn. unfold two, is_proc.
  repeat split; try lia; try (intros i _; destruct (i =? 0); lia); cbn; lia.
Qed.
Example c64_case : exists s evs,
  demo_run (c64_demo 2 FlushMajor) c64_history = Some (s, evs) /\ k_now s = 80 /\
  flushes evs = [FlushAll; FlushAll].
Proof. eexists _, _. split; [vm_compute; reflexivity|]. repeat split; vm_compute; reflexivity. Qed.
Example c64_case_period : exists s evs,
  demo_run (c64_demo 2 (FlushPeriod 20)) c64_history = Some (s, evs) /\ k_now s = 80 /\
  flushes evs = [FlushAll; FlushAll; FlushAll; FlushAll].
Proof. eexists _, _. split; [vm_compute; reflexivity|]. repeat split; vm_compute; reflexivity. Qed.
Example c64_case_windows : exists s evs,
  demo_run (c64_demo 2 FlushWindows) c64_history = Some (s, evs) /\ k_now s = 80 /\
  flushes evs = [FlushPart 0; FlushPart 1; FlushPart 0; FlushPart 1; FlushPart 0].
Proof. eexists _, _. split; [vm_compute; reflexivity|]. repeat split; vm_compute; reflexivity. Qed.

(** Full claim 1: every deployment flushes once per major frame. False for a single partition. *)
Theorem C64_single_refuted : ~ (forall cfg s0 ls s evs,
  supported cfg -> c_flush cfg = FlushMajor ->
  kboot cfg = Some s0 -> krun cfg s0 ls = Some (s, evs) -> timely cfg 0 ls -> since_timer 0 ls = 0 ->
  k_now s + c_major cfg < 2 ^ 64 ->
  k_now s / c_major cfg <= Z.of_nat (length (flushes evs))).
Proof.
  intro H. set (cfg := c64_demo 1 FlushMajor).
  assert (X : match kboot cfg with Some s0 => match krun cfg s0 c64_history with
    | Some (s, evs) => k_now s = 80 /\ length (flushes evs) = 0%nat | None => False end | None => False end)
    by (clear H; vm_compute; split; reflexivity).
  destruct (kboot cfg) as [s0|] eqn:B; [|exact X].
  destruct (krun cfg s0 c64_history) as [[s evs]|] eqn:R; [|exact X].
  destruct X as (X1 & X2). destruct (c64_timely 1 FlushMajor) as (T & G).
  pose proof (H cfg s0 c64_history s evs (c64_supported 1 FlushMajor ltac:(now left)) eq_refl B R T G) as Y.
  clear - X1 X2 Y. rewrite X1, X2 in Y. specialize (Y eq_refl). now apply Y.
Qed.
Print Assumptions C64_single_refuted.

(** Full claim 2: a flush period is kept even if slots are longer. False: a flush every 5 ticks was asked for,
    there is one per slot, 16 against 5 after 80 ticks. *)
Theorem C64_period_refuted : ~ (forall cfg p s0 ls s evs,
  supported cfg -> c_flush cfg = FlushPeriod p -> 0 < p -> 1 < c_nparts cfg ->
  kboot cfg = Some s0 -> krun cfg s0 ls = Some (s, evs) -> timely cfg 0 ls -> since_timer 0 ls = 0 ->
  k_now s + p < 2 ^ 64 ->
  k_now s / p <= Z.of_nat (length (flushes evs))).
Proof.
  intro H. set (cfg := c64_demo 2 (FlushPeriod 5)).
  assert (X : match kboot cfg with Some s0 => match krun cfg s0 c64_history with
    | Some (s, evs) => k_now s = 80 /\ length (flushes evs) = 5%nat | None => False end | None => False end)
    by (clear H; vm_compute; split; reflexivity).
  destruct (kboot cfg) as [s0|] eqn:B; [|exact X].
  destruct (krun cfg s0 c64_history) as [[s evs]|] eqn:R; [|exact X].
  destruct X as (X1 & X2). destruct (c64_timely 2 (FlushPeriod 5)) as (T & G).
  pose proof (H cfg 5 s0 c64_history s evs (c64_supported 2 (FlushPeriod 5) ltac:(now right)) eq_refl eq_refl eq_refl B R T G) as Y.
  clear - X1 X2 Y. rewrite X1, X2 in Y. specialize (Y eq_refl). now apply Y.
Qed.
Print Assumptions C64_period_refuted.
