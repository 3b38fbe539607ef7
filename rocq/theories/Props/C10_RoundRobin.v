(** C10: round-robin elects a ready thread of the partition, or idle when there is none. *)
From Verif Require Import Model.Base Model.State Model.LockObj Model.LockSys Model.Sched Model.Kernel
  Spec.SchedSpec Spec.KernelSpec Spec.Demo Proof.SchedProof Proof.ChoiceProof.

(** The election function, for all thread tables. *)
Theorem C10_round_robin : forall p idle th low high prev cur,
  low < high -> idle_or_in idle low high prev -> idle_or_in idle low high cur ->
  exists e, sched_rr p idle th low high prev cur = Some e /\ sound_choice p idle low high th e.
Proof. exact rr_sound. Qed.
Print Assumptions C10_round_robin.

(** The running kernel: whenever a processor elects in a round-robin partition, the thread that executes
    afterwards is a ready thread of that partition bound to the processor, or idle and there is none. *)
Theorem C10_machine : forall cfg, supported cfg -> forall s l c s' ev,
  reachable cfg s -> election_on cfg c l -> kstep cfg s l = KNext s' ev -> scheduling cfg c SCHED_RR s' ->
  sound_choice c (idle cfg c) (low_of cfg (k_cp s')) (high_of cfg (k_cp s')) (k_th s') (k_cur s' c).
Proof. exact rr_machine. Qed.
Print Assumptions C10_machine.

(** Two threads; the first one has used up its quantum of 2 when the timer ticks for the third time. *)
Definition c10_history : list klabel :=
  demo_start [at_entry 5 0 100 2; at_entry 5 0 100 2] ++ [KTick 1; KTimer 0; KTick 1].
Example c10_case : exists s evs s' ev,
  demo_run (demo 1 SCHED_RR SCHED_RR) c10_history = Some (s, evs) /\ k_cur s 0 = 1 /\
  kstep (demo 1 SCHED_RR SCHED_RR) s (KTimer 0) = KNext s' ev /\ k_cur s' 0 = 2 /\
  scheduling (demo 1 SCHED_RR SCHED_RR) 0 SCHED_RR s' /\ election_on (demo 1 SCHED_RR SCHED_RR) 0 (KTimer 0).
Proof.
  eexists _, _, _, _. split; [vm_compute; reflexivity|]. split; [vm_compute; reflexivity|].
  split; [vm_compute; reflexivity|]. split; [vm_compute; reflexivity|]. split; [vm_compute; intuition discriminate|].
  right. split; reflexivity.
Qed.
(** A table in which nothing is ready. *)
Example c10_idle : sched_rr 0 9 (fun _ => zero_thread) 1 4 2 3 = Some 9.
Proof. reflexivity. Qed.
