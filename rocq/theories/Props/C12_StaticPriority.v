(** C12: static-priority scheduling elects a ready thread of maximal priority. *)
From Verif Require Import Model.Base Model.State Model.LockObj Model.LockSys Model.Sched Model.Kernel
  Spec.SchedSpec Spec.KernelSpec Spec.Demo Proof.SchedProof Proof.ChoiceProof.

(** The election function, for all thread tables; the search begins at the thread given by the first
    argument of [steps_to], and the first one of maximal priority is taken. *)
Theorem C12_static_priority : forall p idle th low high prev cur,
  low < high -> idle_or_in idle low high prev -> idle_or_in idle low high cur ->
  (forall i, in_range low high i -> 0 <= t_priority (th i)) ->
  let from := if prev =? idle then low else if cur =? idle then prev else cur in
  exists e, sched_static p idle th low high prev cur = Some e /\
    ((in_range low high e /\ ready_thread p th e /\
      forall i, in_range low high i -> ready_thread p th i ->
        t_priority (th i) <= t_priority (th e) /\
        (t_priority (th i) = t_priority (th e) -> steps_to low high from e <= steps_to low high from i)) \/
     (e = idle /\ forall i, in_range low high i -> ~ ready_thread p th i)).
Proof. exact static_spec. Qed.
Print Assumptions C12_static_priority.

(** The running kernel. *)
Theorem C12_machine : forall cfg, supported cfg -> forall s l c s' ev,
  reachable cfg s -> election_on cfg c l -> kstep cfg s l = KNext s' ev -> scheduling cfg c SCHED_STATIC s' ->
  sound_choice c (idle cfg c) (low_of cfg (k_cp s')) (high_of cfg (k_cp s')) (k_th s') (k_cur s' c) /\
  forall i, thread_of cfg (k_cp s') i -> ready_thread c (k_th s') i ->
    t_priority (k_th s' i) <= t_priority (k_th s' (k_cur s' c)).
Proof. exact static_machine. Qed.
Print Assumptions C12_machine.

(** Three threads of priorities 5, 9 and 9. *)
Definition c12_history : list klabel :=
  demo_start [at_entry 5 0 100 2; at_entry 9 0 100 2; at_entry 9 0 100 2] ++ [KTick 1].
Example c12_case : exists s evs s' ev,
  demo_run (demo 1 SCHED_STATIC SCHED_RR) c12_history = Some (s, evs) /\
  kstep (demo 1 SCHED_STATIC SCHED_RR) s (KTimer 0) = KNext s' ev /\ k_cur s' 0 = 2 /\
  scheduling (demo 1 SCHED_STATIC SCHED_RR) 0 SCHED_STATIC s' /\
  map (fun i => t_priority (k_th s' i)) [1; 2; 3] = [5; 9; 9] /\
  map (fun i => t_state (k_th s' i)) [1; 2; 3] = [ST_RUNNABLE; ST_RUNNABLE; ST_RUNNABLE].
Proof.
  eexists _, _, _, _. split; [vm_compute; reflexivity|]. split; [vm_compute; reflexivity|].
  split; [vm_compute; reflexivity|]. split; [vm_compute; intuition discriminate|]. split; reflexivity.
Qed.
