(** C17: periodic threads are activated at the first scheduling point at or after their activation date, never
    before, with a full budget, and their activation dates advance by exactly one period.

    "Never before" is false: a thread whose budget is exhausted while it waits for a lock object is made ready as
    soon as the object is released ([C17_not_early_refuted]). True of threads that wait for no lock object
    ([C17_not_early_partial]). The rest of the property is proved. *)
From Verif Require Import Model.Base Model.State Model.LockFifo Model.LockObj Model.LockSys Model.Sched Model.Kernel
  Spec.SchedSpec Spec.KernelSpec Spec.Demo Proof.ElectProof Proof.ServiceProof Proof.KernelInv Proof.ActivationProof.

(** A scheduling point of the processor of the thread, in its partition, at or after its activation date. *)
Definition due (cfg : config) (j t : Z) (s : kstate) (l : klabel) (s' : kstate) : Prop :=
  schedules cfg l (t_affinity (k_th s t)) /\ k_cp s' = j /\ t_next_act (k_th s t) <= k_now s.

Theorem C17_activation : forall cfg, supported cfg -> forall s l s' ev j t,
  reachable cfg s -> kstep cfg s l = KNext s' ev -> is_part cfg j -> thread_of cfg j t ->
  mode_of s j = PM_NORMAL -> t <> p_error (k_part s j) -> spontaneous l -> executes_nowhere cfg s t ->
  t_state (k_th s t) = ST_WAIT_NEXT ->
  (due cfg j t s l s' -> t_state (k_th s' t) = ST_RUNNABLE /\ t_remaining (k_th s' t) = t_capacity (k_th s t) /\
     t_next_act (k_th s' t) = u64 (t_next_act (k_th s t) + t_period (k_th s t))) /\
  (~ due cfg j t s l s' -> t_state (k_th s' t) = ST_WAIT_NEXT /\ t_remaining (k_th s' t) = t_remaining (k_th s t) /\
     t_next_act (k_th s' t) = t_next_act (k_th s t)).
Proof.
  intros cfg W s l s' ev j t Hr H Hj Ht Hm Hne Hl Hx Hw.
  pose proof (spontaneous_effect cfg W j t Hj Ht s l s' ev Hr H Hm Hne Hl Hx) as E. cbv zeta in E. destruct E as (E1 & E2).
  assert (Q : forall y, wake (c_timed_wake cfg) (t_affinity (k_th s t)) (k_now s) (k_th s t) = Some y ->
     (t_next_act (k_th s t) <= k_now s -> t_state y = ST_RUNNABLE /\ t_remaining y = t_capacity (k_th s t) /\
        t_next_act y = u64 (t_next_act (k_th s t) + t_period (k_th s t))) /\
     (~ t_next_act (k_th s t) <= k_now s -> y = k_th s t)).
  { intros y. unfold wake. rewrite Z.eqb_refl, Hw.
    replace (c_timed_wake cfg && (ST_WAIT_NEXT =? ST_WAITING) && (t_wakeup (k_th s t) <=? k_now s)) with false
      by (destruct (c_timed_wake cfg); reflexivity).
    rewrite Hw. replace (ST_WAIT_NEXT =? ST_WAIT_NEXT) with true by reflexivity. cbn [andb].
    destruct (Z.leb_spec (t_next_act (k_th s t)) (k_now s)) as [L|L].
    - destruct (t_capacity (k_th s t) =? 0); [discriminate|]. intros [= <-]. split; [intros _; repeat split|intros N; lia].
    - intros [= <-]. split; [lia|reflexivity]. }
  assert (S : forall a b, same_end a b -> t_state b = t_state a /\ t_remaining b = t_remaining a /\ t_next_act b = t_next_act a).
  { intros a b F. apply same_end_fields in F. tauto. }
  split.
  - intros (D1 & D2 & D3). destruct (E2 D1 D2) as (y & Ey & F). destruct (Q y Ey) as (Q1 & _). destruct (Q1 D3) as (A & B & C).
    destruct (S _ _ F) as (F1 & F2 & F3). rewrite F1, F2, F3. auto.
  - intros N. rewrite <- Hw.
    assert (G : forall P, (schedules cfg l (t_affinity (k_th s t)) /\ k_cp s' = j -> P) ->
       (~ (schedules cfg l (t_affinity (k_th s t)) /\ k_cp s' = j) -> P) -> P).
    { intros P P1 P2. destruct (schedules_dec cfg l (t_affinity (k_th s t))) as [D|D].
      - destruct (Z.eq_dec (k_cp s') j) as [D'|D']; [apply P1|apply P2]; tauto.
      - apply P2. tauto. }
    apply G.
    + intros (D1 & D2). destruct (E2 D1 D2) as (y & Ey & F). destruct (Q y Ey) as (_ & Q2).
      assert (y = k_th s t) by (apply Q2; intros L; apply N; split; auto). subst y. apply S, F.
    + intros D. apply S, E1, D.
Qed.
Print Assumptions C17_activation.

(** The activation date is always an earlier one plus a whole number of periods, and a date is only passed when
    the clock has reached it; the period does not change. *)
Theorem C17_no_drift : forall cfg, supported cfg -> forall s ls s' evs j t,
  reachable cfg s -> krun cfg s ls = Some (s', evs) -> is_part cfg j -> thread_of cfg j t -> undisturbed cfg j t s ls ->
  0 <= t_period (k_th s t) -> k_now s' + t_period (k_th s t) < 2 ^ 64 ->
  t_period (k_th s' t) = t_period (k_th s t) /\
  exists k, 0 <= k /\ t_next_act (k_th s' t) = t_next_act (k_th s t) + k * t_period (k_th s t) /\
    (k = 0 \/ t_next_act (k_th s t) + (k - 1) * t_period (k_th s t) <= k_now s').
Proof.
  intros cfg W s ls s' evs j t Hr H Hj Ht Hu Hp Hb.
  destruct (run_next cfg W j t Hj Ht ls s s' evs Hr H Hu Hp Hb) as (A & B). split; [|exact B].
  unfold statics in A. congruence.
Qed.
Print Assumptions C17_no_drift.

Definition C17_not_early : Prop := forall cfg, supported cfg -> forall s ls s' evs j t,
  reachable cfg s -> krun cfg s ls = Some (s', evs) -> is_part cfg j -> thread_of cfg j t -> undisturbed cfg j t s ls ->
  t_state (k_th s t) = ST_WAIT_NEXT -> executes_nowhere cfg s t -> k_now s' < t_next_act (k_th s t) ->
  t_state (k_th s' t) = ST_WAIT_NEXT.

(** Thread 1 has used its budget when it asks for the mutex that thread 2 holds: it waits for the mutex, and its
    state becomes that of a thread that waits for its activation, at 20000. At 1022 thread 2 releases the mutex
    and thread 1 is ready. *)
Definition c17_op (o : lop) : klabel := KCall 0 (SLockOp 0 LK_MUTEX (Some o)).
Definition c17_queued : list klabel :=
  [KTick 1; KTimer 0; KCall 0 (SCreate (at_entry 5 0 20000 1)); KCall 0 (SCreate (at_entry 5 0 0 0));
   KCall 0 (SLockCreate (mkLattr LK_MUTEX 0 0 0 0)); KCall 0 (SSetMode PM_NORMAL);
   KTick 1; KTimer 0; c17_op (OpLock 0); KCall 0 (SSleep 1); c17_op (OpLock 0)].
Theorem C17_not_early_refuted : ~ C17_not_early.
Proof.
  intros H. set (cfg := demo 1 SCHED_RR SCHED_RR). set (ls := [KTick 1020; KTimer 0; KTimer 0; c17_op OpUnlock]).
  assert (X : match demo_run cfg c17_queued with
        | Some (s, _) => t_state (k_th s 1) = ST_WAIT_NEXT /\ k_cur s 0 = 6 /\ t_next_act (k_th s 1) = 20000 /\
            undisturbed cfg 0 1 s ls /\
            match krun cfg s ls with
            | Some (s', ev) => k_now s' = 1022 /\ t_state (k_th s' 1) = ST_RUNNABLE
            | _ => False end
        | None => False end).
  { clear H. vm_compute. repeat split; try discriminate. intros (Z & _). discriminate. }
  destruct (demo_run cfg c17_queued) as [[s evs]|] eqn:R; [|contradiction]. destruct X as (Hw & Hc & Hn & Hu & X).
  destruct (krun cfg s ls) as [[s' ev]|] eqn:K; [|contradiction]. destruct X as (Hn' & X).
  assert (C : t_state (k_th s' 1) = ST_WAIT_NEXT).
  { apply (H cfg (demo_supported 1 _ _ ltac:(lia)) s ls s' ev 0 1 (demo_reachable _ _ _ _ R) K).
    - clear. vm_compute. repeat split; discriminate.
    - clear. vm_compute. repeat split; discriminate.
    - exact Hu.
    - exact Hw.
    - intros c (C1 & C2). change (c_nprocs cfg) with 1 in C2. replace c with 0 by lia. rewrite Hc. clear. discriminate.
    - rewrite Hn, Hn'. reflexivity. }
  rewrite X in C. clear - C. discriminate.
Qed.
Print Assumptions C17_not_early_refuted.

(** What is missing in the partial theorem: threads in the queue of a lock object. *)
Theorem C17_not_early_partial : forall cfg, supported cfg -> forall s ls s' evs j t,
  reachable cfg s -> krun cfg s ls = Some (s', evs) -> is_part cfg j -> thread_of cfg j t -> undisturbed cfg j t s ls ->
  t_state (k_th s t) = ST_WAIT_NEXT -> executes_nowhere cfg s t -> unqueued cfg s t -> k_now s' < t_next_act (k_th s t) ->
  t_state (k_th s' t) = ST_WAIT_NEXT /\ t_remaining (k_th s' t) = t_remaining (k_th s t) /\
  t_next_act (k_th s' t) = t_next_act (k_th s t) /\ executes_nowhere cfg s' t.
Proof.
  intros cfg W s ls s' evs j t Hr H Hj Ht Hu Hw Hx Hq Hn.
  destruct (run_dormant cfg W j t Hj Ht ls s s' evs Hr H Hu) as (A & B & _); auto.
  - rewrite Hw. discriminate.
  - split; [rewrite Hw; discriminate|auto].
  - apply same_end_fields in A. rewrite <- Hw. tauto.
Qed.
Print Assumptions C17_not_early_partial.

(** Thread 1 with period 20 and capacity 1: it finishes its budget, waits for 20, and is activated at 31, the first
    scheduling point of its partition after 20; its next date is 40. *)
Definition c17_waits : list klabel := demo_start [at_entry 5 0 20 1] ++ [KTick 1; KTimer 0; KTick 1; KTimer 0].
Example c17_case : exists s evs s' ev, demo_run (demo 1 SCHED_RR SCHED_RR) c17_waits = Some (s, evs) /\
  t_state (k_th s 1) = ST_WAIT_NEXT /\ k_cur s 0 = 6 /\ t_next_act (k_th s 1) = 20 /\ mode_of s 0 = PM_NORMAL /\
  unqueued (demo 1 SCHED_RR SCHED_RR) s 1 /\
  krun (demo 1 SCHED_RR SCHED_RR) s [KTick 7; KTimer 0; KTick 10; KTimer 0] = Some (s', ev) /\
  k_now s' = 20 /\ t_state (k_th s' 1) = ST_WAIT_NEXT /\
  exists s2 e2, krun (demo 1 SCHED_RR SCHED_RR) s' [KTick 11; KTimer 0] = Some (s2, e2) /\
    k_now s2 = 31 /\ k_cp s2 = 0 /\ t_state (k_th s2 1) = ST_RUNNABLE /\ t_remaining (k_th s2 1) = 1 /\
    t_next_act (k_th s2 1) = 40.
Proof.
  eexists _, _, _, _. split; [vm_compute; reflexivity|]. split; [reflexivity|]. split; [reflexivity|]. split; [reflexivity|].
  split; [reflexivity|]. split.
  - intros i o (Hi1 & Hi2) Ho Hinit. cbn in Hinit. discriminate.
  - split; [vm_compute; reflexivity|]. split; [reflexivity|]. split; [reflexivity|]. eexists _, _. 
    split; [vm_compute; reflexivity|]. repeat split.
Qed.
