(** C13: rate-monotonic scheduling elects a ready thread of smallest period.

    The claim is false of the code: threads without a period carry the period -1, the creation service sorts
    the table by the signed period, so that they come first and are elected before every periodic thread.
    What holds is proved as [C13_sound] and [C13_smallest_period_partial]. *)
From Verif Require Import Model.Base Model.State Model.LockObj Model.LockSys Model.Sched Model.Kernel
  Spec.SchedSpec Spec.KernelSpec Spec.Demo Proof.SchedProof Proof.ChoiceProof Proof.RmsProof.

(** The claim: after each election in an RMS partition, no ready created thread has a smaller period than
    the elected one; no period counts as infinite ([period_le]). *)
Definition C13_smallest_period : Prop := forall cfg, supported cfg -> forall s0 ls s evs l c s' ev,
  kboot cfg = Some s0 -> krun cfg s0 ls = Some (s, evs) -> no_handler ls ->
  election_on cfg c l -> kstep cfg s l = KNext s' ev -> scheduling cfg c SCHED_RMS s' ->
  forall i, created cfg s' (k_cp s') i -> ready_thread c (k_th s') i ->
    period_le (t_period (k_th s' (k_cur s' c))) (t_period (k_th s' i)).

(** A thread of period 100 and one without period: the second one is elected. *)
Definition c13_history : list klabel :=
  demo_start [at_entry 5 0 100 10; at_entry 5 0 0 10] ++ [KTick 1].
Theorem C13_smallest_period_refuted : ~ C13_smallest_period.
Proof.
  intros H. set (cfg := demo 1 SCHED_RMS SCHED_RR).
  destruct (kboot cfg) as [s0|] eqn:B; [|vm_compute in B; discriminate].
  destruct (krun cfg s0 c13_history) as [[s evs]|] eqn:R.
  2:{ assert (X : match kboot cfg with Some s => krun cfg s c13_history | None => None end <> None) by (vm_compute; discriminate).
      rewrite B in X. contradiction. }
  destruct (kstep cfg s (KTimer 0)) as [s' ev| |] eqn:K.
  all: assert (X : match kboot cfg with Some s => match krun cfg s c13_history with
        | Some (s, _) => match kstep cfg s (KTimer 0) with
            | KNext s' _ => p_mode (k_part s' (k_cp s')) = PM_NORMAL /\ k_cp s' = 0 /\ k_cur s' 0 = 1 /\ p_error (k_part s' (k_cp s')) = 0 /\
                p_index (k_part s' 0) = 3 /\ ready_thread 0 (k_th s') 2 /\ t_period (k_th s' 1) = INFINITE /\ t_period (k_th s' 2) = 100
            | _ => False end | None => False end | None => False end) by (vm_compute; repeat split).
  all: rewrite B, R, K in X; try contradiction.
  destruct X as (X1 & X2 & X3 & X4 & X5 & X6 & X7 & X8).
  assert (G : period_le (t_period (k_th s' (k_cur s' 0))) (t_period (k_th s' 2))).
  { apply (H cfg (demo_supported 1 _ _ ltac:(lia)) s0 c13_history s evs (KTimer 0) 0 s' ev B R); try assumption.
    - reflexivity.
    - right. split; reflexivity.
    - unfold scheduling. rewrite X2 in *. rewrite X3, X4. repeat split; [assumption|discriminate].
    - rewrite X2. unfold created. rewrite X5. vm_compute. auto. }
  rewrite X3, X7, X8 in G. destruct G as [G|(G & _)]; [discriminate|now apply G].
Qed.
Print Assumptions C13_smallest_period_refuted.

(** The elected thread is ready and of the partition; idle only when no thread is ready. *)
Theorem C13_sound : forall cfg, supported cfg -> forall s l c s' ev,
  reachable cfg s -> election_on cfg c l -> kstep cfg s l = KNext s' ev -> scheduling cfg c SCHED_RMS s' ->
  sound_choice c (idle cfg c) (low_of cfg (k_cp s')) (high_of cfg (k_cp s')) (k_th s') (k_cur s' c).
Proof. intros cfg W s l c s' ev R El H S. exact (proj1 (rms_machine cfg W s l c s' ev R El H S)). Qed.
Print Assumptions C13_sound.

(** The claim with the missing hypothesis: the elected thread is periodic. In particular it holds in every
    partition whose threads are all periodic. (Also assumed: no error handler is created, for the error thread
    is given the period 100 without being moved in the table.) *)
Theorem C13_smallest_period_partial : forall cfg, supported cfg -> forall s0 ls s evs l c s' ev,
  kboot cfg = Some s0 -> krun cfg s0 ls = Some (s, evs) -> no_handler ls ->
  election_on cfg c l -> kstep cfg s l = KNext s' ev -> scheduling cfg c SCHED_RMS s' ->
  t_period (k_th s' (k_cur s' c)) <> INFINITE ->
  forall i, created cfg s' (k_cp s') i -> ready_thread c (k_th s') i ->
    period_le (t_period (k_th s' (k_cur s' c))) (t_period (k_th s' i)).
Proof. exact rms_smallest. Qed.
Print Assumptions C13_smallest_period_partial.

(** Periods 100, 50 and 70: the thread of period 50 is elected while all three are ready. *)
Definition c13_periodic : list klabel :=
  demo_start [at_entry 5 0 100 10; at_entry 5 0 50 10; at_entry 5 0 70 10] ++ [KTick 1].
Example c13_case : exists s evs s' ev,
  demo_run (demo 1 SCHED_RMS SCHED_RR) c13_periodic = Some (s, evs) /\ no_handler c13_periodic /\
  kstep (demo 1 SCHED_RMS SCHED_RR) s (KTimer 0) = KNext s' ev /\ k_cur s' 0 = 1 /\
  scheduling (demo 1 SCHED_RMS SCHED_RR) 0 SCHED_RMS s' /\
  map (fun i => t_period (k_th s' i)) [1; 2; 3] = [50; 70; 100] /\
  map (fun i => t_state (k_th s' i)) [1; 2; 3] = [ST_RUNNABLE; ST_RUNNABLE; ST_RUNNABLE].
Proof.
  eexists _, _, _, _. split; [vm_compute; reflexivity|]. split; [reflexivity|]. split; [vm_compute; reflexivity|].
  split; [vm_compute; reflexivity|]. split; [vm_compute; intuition discriminate|]. split; reflexivity.
Qed.
