(** C19: stopped, locked and sleeping threads are never elected and stay so until their wake-up event.

    Two exceptions make the full property false. The main thread of a partition in an INIT mode executes whatever
    its state ([C19_only_ready_refuted]: at the very first scheduling point it executes and is STOPPED). A thread
    that is stopped while it executes on another processor is charged at the next interrupt of that processor,
    and if its budget is exhausted it then waits for its activation instead of being stopped
    ([C19_stays_blocked_refuted]). The partial theorems exclude these cases. *)
From Verif Require Import Model.Base Model.State Model.LockFifo Model.LockObj Model.LockSys Model.Sched Model.Kernel
  Spec.SchedSpec Spec.KernelSpec Spec.Demo Proof.ElectProof Proof.ServiceProof Proof.KernelInv Proof.PlaceProof
  Proof.EffectProof Proof.ActivationProof.

(** ** Election *)
Definition C19_only_ready : Prop := forall cfg, supported cfg -> forall s l s' ev x,
  reachable cfg s -> kstep cfg s l = KNext s' ev -> schedules cfg l x ->
  k_cur s' x = idle cfg x \/ t_state (k_th s' (k_cur s' x)) = ST_RUNNABLE.

Theorem C19_only_ready_refuted : ~ C19_only_ready.
Proof.
  intros H. set (cfg := demo 1 SCHED_RR SCHED_RR).
  assert (X : match demo_run cfg [KTick 1] with
        | Some (s, _) => match kstep cfg s (KTimer 0) with
            | KNext s' ev => k_cur s' 0 = 0 /\ t_state (k_th s' 0) = ST_STOPPED
            | _ => False end
        | None => False end) by (clear H; vm_compute; repeat split).
  destruct (demo_run cfg [KTick 1]) as [[s evs]|] eqn:R; [|contradiction].
  destruct (kstep cfg s (KTimer 0)) as [s' ev| |] eqn:K; try contradiction. destruct X as (C & X).
  assert (P : schedules cfg (KTimer 0) 0) by (split; [split; [discriminate|reflexivity]|right; now exists 0]).
  destruct (H cfg (demo_supported 1 _ _ ltac:(lia)) s (KTimer 0) s' ev 0 (demo_reachable _ _ _ _ R) K P) as [E|E]; rewrite C in E.
  - clear - E. discriminate.
  - rewrite X in E. clear - E. discriminate.
Qed.
Print Assumptions C19_only_ready_refuted.

(** What is missing: partitions in an INIT mode. *)
Theorem C19_only_ready_partial : forall cfg, supported cfg -> forall s l s' ev x,
  reachable cfg s -> kstep cfg s l = KNext s' ev -> schedules cfg l x -> mode_of s' (k_cp s') = PM_NORMAL ->
  k_cur s' x = idle cfg x \/ t_state (k_th s' (k_cur s' x)) = ST_RUNNABLE.
Proof.
  intros cfg W s l s' ev x Hr H (Hx & Hl) Hm. pose proof (reachable_inv cfg W s Hr) as I. pose proof (reachable_placed cfg W s Hr) as Pl.
  destruct Hl as [->|(c & ->)]; cbn in H.
  - destruct (valid_proc cfg x) eqn:V; [|discriminate]. destruct (sched_thread cfg x s) as [s1|] eqn:G; [|discriminate].
    injection H as <- _. apply (phase_ready cfg W x PhThread s s1 x); auto. now right.
  - destruct (valid_proc cfg c) eqn:V; [|discriminate]. apply valid_proc_is in V.
    destruct (global_sched cfg c s) as [[s1 f]|] eqn:G; [|discriminate].
    injection H as <- _. apply (phase_ready cfg W c PhGlobal s s1 x); auto. now exists f. now left.
Qed.
Print Assumptions C19_only_ready_partial.

(** Every step, services included: a thread that starts executing is ready. *)
Theorem C19_starts_ready_partial : forall cfg, supported cfg -> forall s l s' ev j t x,
  reachable cfg s -> kstep cfg s l = KNext s' ev -> is_part cfg j -> thread_of cfg j t -> is_proc cfg x ->
  mode_of s j = PM_NORMAL -> t <> p_error (k_part s j) -> leaves_alone cfg j t s l ->
  k_cur s x <> t -> k_cur s' x = t -> t_state (k_th s' t) = ST_RUNNABLE.
Proof.
  intros cfg W s l s' ev j t x Hr H Hj Ht Hx Hm Hne Hl N E.
  destruct (step_gets cfg W j t Hj Ht s l s' ev x Hr H Hm Hne Hl Hx E) as [C|C]; [contradiction|exact C].
Qed.
Print Assumptions C19_starts_ready_partial.

(** ** State *)
(** The date that the thread waits for, if any, has not been reached. *)
Definition not_due (cfg : config) (now : Z) (a : thread) : Prop :=
  (t_state a = ST_WAITING -> now < t_wakeup a \/ c_timed_wake cfg = false) /\
  (t_state a = ST_WAIT_NEXT -> now < t_next_act a).

Definition C19_stays_blocked : Prop := forall cfg, supported cfg -> forall s l s' ev j t,
  reachable cfg s -> kstep cfg s l = KNext s' ev -> is_part cfg j -> thread_of cfg j t ->
  mode_of s j = PM_NORMAL -> t <> p_error (k_part s j) -> spontaneous l ->
  t_state (k_th s t) <> ST_RUNNABLE -> not_due cfg (k_now s) (k_th s t) -> t_state (k_th s' t) = t_state (k_th s t).

(** Thread 2 on processor 1 stops thread 1, which executes on processor 0 and has used its budget. *)
Definition c19_stop : list klabel :=
  demo_start [at_entry 5 0 20 1; at_entry 5 1 20 5] ++ [KTick 1; KTimer 0; KCall 1 (SSuspendTarget 1); KTick 1].
Theorem C19_stays_blocked_refuted : ~ C19_stays_blocked.
Proof.
  intros H. set (cfg := demo 2 SCHED_RR SCHED_RR).
  assert (X : match demo_run cfg c19_stop with
        | Some (s, _) => mode_of s 0 = PM_NORMAL /\ 1 <> p_error (k_part s 0) /\ t_state (k_th s 1) = ST_STOPPED /\
            match kstep cfg s (KTimer 0) with
            | KNext s' ev => t_state (k_th s' 1) = ST_WAIT_NEXT
            | _ => False end
        | None => False end) by (clear H; vm_compute; repeat split; discriminate).
  destruct (demo_run cfg c19_stop) as [[s evs]|] eqn:R; [|contradiction]. destruct X as (Hm & Hne & Hs & X).
  destruct (kstep cfg s (KTimer 0)) as [s' ev| |] eqn:K; try contradiction.
  assert (C : t_state (k_th s' 1) = t_state (k_th s 1)).
  { apply (H cfg (demo_supported 2 _ _ ltac:(lia)) s (KTimer 0) s' ev 0 1 (demo_reachable _ _ _ _ R) K).
    - clear. vm_compute. repeat split; discriminate.
    - clear. vm_compute. repeat split; discriminate.
    - exact Hm.
    - exact Hne.
    - exact Logic.I.
    - rewrite Hs. clear. discriminate.
    - unfold not_due. rewrite Hs. clear. split; intros C; discriminate. }
  rewrite X, Hs in C. clear - C. discriminate.
Qed.
Print Assumptions C19_stays_blocked_refuted.

(** What is missing: threads stopped while they execute. Any step but those inside lock services, not only
    spontaneous ones. *)
Theorem C19_stays_blocked_partial : forall cfg, supported cfg -> forall s l s' ev j t,
  reachable cfg s -> kstep cfg s l = KNext s' ev -> is_part cfg j -> thread_of cfg j t ->
  mode_of s j = PM_NORMAL -> t <> p_error (k_part s j) -> leaves_alone cfg j t s l -> ~ lock_step l ->
  executes_nowhere cfg s t -> t_state (k_th s t) <> ST_RUNNABLE -> not_due cfg (k_now s) (k_th s t) ->
  t_state (k_th s' t) = t_state (k_th s t) /\ executes_nowhere cfg s' t.
Proof.
  intros cfg W s l s' ev j t Hr H Hj Ht Hm Hne Hl Hk Hx Hs Hd.
  assert (E : t_state (k_th s' t) = t_state (k_th s t)).
  { pose proof (step_dormant cfg W j t Hj Ht s l s' ev Hr H Hm Hne Hl (or_introl Hk) Hx Hd) as F. now apply same_end_fields in F. }
  split; [exact E|]. intros x Px C. rewrite <- E in Hs.
  destruct (step_gets cfg W j t Hj Ht s l s' ev x Hr H Hm Hne Hl Px C) as [D|D]; [now apply (Hx x)|now apply Hs].
Qed.
Print Assumptions C19_stays_blocked_partial.

(** Whole executions, lock services included, for threads that wait for no lock object. *)
Theorem C19_stays_blocked_run_partial : forall cfg, supported cfg -> forall s ls s' evs j t,
  reachable cfg s -> krun cfg s ls = Some (s', evs) -> is_part cfg j -> thread_of cfg j t -> undisturbed cfg j t s ls ->
  executes_nowhere cfg s t -> unqueued cfg s t -> t_state (k_th s t) <> ST_RUNNABLE -> not_due cfg (k_now s') (k_th s t) ->
  t_state (k_th s' t) = t_state (k_th s t) /\ executes_nowhere cfg s' t.
Proof.
  intros cfg W s ls s' evs j t Hr H Hj Ht Hu Hx Hq Hs Hd.
  destruct (run_dormant cfg W j t Hj Ht ls s s' evs Hr H Hu Hs Hx Hq Hd) as (A & B & _). split; [|exact B]. now apply same_end_fields in A.
Qed.
Print Assumptions C19_stays_blocked_run_partial.

(** Thread 1 sleeps until 1001 and thread 2 is suspended; both stay so over several frames, while the idle thread
    and partition 1 execute. *)
Definition c19_quiet : list klabel := demo_start [at_entry 5 0 0 0; at_entry 5 0 0 0] ++ [KCall 0 (SSleep 1); KCall 0 SSuspend].
Definition c19_later : list klabel := [KTick 20; KTimer 0; KTick 100; KTimer 0; KTimer 0; KTick 400; KTimer 0; KTimer 0; KTimer 0].
Example c19_case : exists s evs s' ev, demo_run (demo 1 SCHED_RR SCHED_RR) c19_quiet = Some (s, evs) /\
  t_state (k_th s 1) = ST_WAITING /\ t_state (k_th s 2) = ST_STOPPED /\ t_wakeup (k_th s 1) = 1001 /\
  undisturbed (demo 1 SCHED_RR SCHED_RR) 0 1 s c19_later /\ undisturbed (demo 1 SCHED_RR SCHED_RR) 0 2 s c19_later /\
  krun (demo 1 SCHED_RR SCHED_RR) s c19_later = Some (s', ev) /\ k_now s' = 521 /\
  not_due (demo 1 SCHED_RR SCHED_RR) (k_now s') (k_th s 1) /\ not_due (demo 1 SCHED_RR SCHED_RR) (k_now s') (k_th s 2) /\
  t_state (k_th s' 1) = ST_WAITING /\ t_state (k_th s' 2) = ST_STOPPED.
Proof.
  eexists _, _, _, _. split; [vm_compute; reflexivity|]. do 3 (split; [reflexivity|]).
  do 2 (split; [vm_compute; repeat split; discriminate|]). split; [vm_compute; reflexivity|]. split; [reflexivity|].
  split; [split; [left; reflexivity|intros C; vm_compute in C; discriminate]|].
  split; [split; intros C; vm_compute in C; discriminate|]. split; reflexivity.
Qed.
