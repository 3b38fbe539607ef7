(** C23: thread creation returns distinct identifiers inside the range of the partition and respects its
    quota. *)
From Verif Require Import Model.Base Model.State Model.LockFifo Model.LockObj Model.LockSys Model.Sched Model.Kernel
  Spec.SchedSpec Spec.KernelSpec Spec.Demo Proof.KernelInv Proof.CreateStep.

(** Any execution in which partition [i] is not restarted: the identifiers returned to it are distinct, fewer
    than its threads, inside its range, and none is that of a main thread. *)
Theorem C23_identifiers : forall cfg, supported cfg -> forall s ls s' evs i,
  reachable cfg s -> krun cfg s ls = Some (s', evs) -> is_part cfg i -> not_restarted cfg i evs ->
  NoDup (made_threads cfg i evs) /\ Z.of_nat (length (made_threads cfg i evs)) < c_threads cfg i /\
  forall id, In id (made_threads cfg i evs) ->
    low_of cfg i < id < high_of cfg i /\ forall j, is_part cfg j -> id <> low_of cfg j.
Proof. exact created_ids. Qed.
Print Assumptions C23_identifiers.

(** With the quota used up, creation fails with TOOMANY and changes nothing. *)
Theorem C23_quota : forall cfg, supported cfg -> forall s c a s' e id,
  reachable cfg s -> calls cfg s c (SCreate a) s' e id ->
  is_init (mode_of s (k_cp s)) -> p_index (k_part s (k_cp s)) = c_threads cfg (k_cp s) ->
  e = ERR_TOOMANY /\ s' = s.
Proof. exact create_quota. Qed.
Print Assumptions C23_quota.

(** Creation fails in no other case than the mode and the quota, and then changes nothing. *)
Theorem C23_refusals : forall cfg, supported cfg -> forall s c a s' e id,
  reachable cfg s -> calls cfg s c (SCreate a) s' e id -> e <> ERR_OK ->
  s' = s /\ ((e = ERR_MODE /\ ~ is_init (mode_of s (k_cp s))) \/
             (e = ERR_TOOMANY /\ is_init (mode_of s (k_cp s)) /\
              p_index (k_part s (k_cp s)) = c_threads cfg (k_cp s))).
Proof. exact create_refusals. Qed.
Print Assumptions C23_refusals.

(** Four creations in partition 0, which has room for three, and one in partition 1. *)
Definition c23_history : list klabel :=
  [KTick 1; KTimer 0; KCall 0 (SCreate (at_entry 5 0 50 10)); KCall 0 (SCreate (at_entry 6 0 0 0));
   KCall 0 (SCreate (at_entry 7 0 40 10)); KTick 10; KTimer 0; KCall 0 (SCreate (at_entry 5 0 0 0)); KTick 20; KTimer 0].
Example c23_case : exists s evs,
  demo_run (demo 1 SCHED_RR SCHED_RR) c23_history = Some (s, evs) /\
  not_restarted (demo 1 SCHED_RR SCHED_RR) 0 evs /\ not_restarted (demo 1 SCHED_RR SCHED_RR) 1 evs /\
  made_threads (demo 1 SCHED_RR SCHED_RR) 0 evs = [1; 2; 3] /\ made_threads (demo 1 SCHED_RR SCHED_RR) 1 evs = [5] /\
  is_init (mode_of s (k_cp s)) /\ p_index (k_part s (k_cp s)) = c_threads (demo 1 SCHED_RR SCHED_RR) (k_cp s) /\
  calls (demo 1 SCHED_RR SCHED_RR) s 0 (SCreate (at_entry 9 0 0 0)) s ERR_TOOMANY 0.
Proof.
  eexists _, _. split; [vm_compute; reflexivity|]. split; [reflexivity|]. split; [reflexivity|]. split; [reflexivity|].
  split; [reflexivity|]. split; [right; reflexivity|]. split; [reflexivity|]. eexists. vm_compute. reflexivity.
Qed.
