(** C21: partition mode changes follow the automaton of ARINC 653. *)
From Verif Require Import Model.Base Model.State Model.LockFifo Model.LockObj Model.LockSys Model.Sched Model.Kernel
  Spec.SchedSpec Spec.KernelSpec Spec.Demo Proof.PartStep.

(** The only step that changes the mode of a partition is a request of that partition itself, for the new
    mode, and the transition is one of the permitted ones. *)
Theorem C21_mode_change : forall cfg, supported cfg -> forall s l s' ev i,
  reachable cfg s -> kstep cfg s l = KNext s' ev -> is_part cfg i -> mode_of s' i <> mode_of s i ->
  i = k_cp s /\ allowed_mode (mode_of s i) (mode_of s' i) /\
  exists c id, l = KCall c (SSetMode (mode_of s' i)) /\ calls cfg s c (SSetMode (mode_of s' i)) s' ERR_OK id.
Proof. exact mode_change. Qed.
Print Assumptions C21_mode_change.

(** A request, for any value: refused without any effect, or granted; NORMAL is granted to the main thread
    only, and the other modes to the error handler only. *)
Theorem C21_request : forall cfg, supported cfg -> forall s c m s' e id,
  reachable cfg s -> calls cfg s c (SSetMode m) s' e id ->
  (e <> ERR_OK /\ s' = s) \/
  (e = ERR_OK /\ mode_of s' (k_cp s) = m /\
   (m = PM_NORMAL -> k_cur s c = low_of cfg (k_cp s)) /\
   (m <> PM_NORMAL -> p_error (k_part s (k_cp s)) <> 0 /\ k_cur s c = p_error (k_part s (k_cp s)))).
Proof. exact mode_request. Qed.
Print Assumptions C21_request.

(** A stopped partition stays stopped, whatever happens. *)
Theorem C21_stopped_forever : forall cfg, supported cfg -> forall ls s s' evs i,
  reachable cfg s -> is_part cfg i -> mode_of s i = PM_STOPPED -> krun cfg s ls = Some (s', evs) ->
  mode_of s' i = PM_STOPPED.
Proof. exact stopped_forever. Qed.
Print Assumptions C21_stopped_forever.

(** The main thread creates an error handler and starts the partition; an error is raised; the handler asks
    in vain for a value that is not a mode, restarts the partition and is refused nothing else; the second
    time it stops the partition. *)
Definition c21_handler : list klabel := [KCall 0 (SErrorCreate 6000 0 0 0); KTimer 0; KCall 0 (SSetMode PM_NORMAL)].
Definition c21_history : list klabel :=
  [KTick 1; KTimer 0] ++ c21_handler ++ [KCall 0 (SSetMode 77); KCall 0 (SSetMode PM_COLD)].
Example c21_case : exists s evs s1 ev1 s2 ev2,
  demo_run (demo 1 SCHED_RR SCHED_RR) ([KTick 1; KTimer 0] ++ c21_handler) = Some (s, evs) /\
  mode_of s 0 = PM_NORMAL /\ k_cur s 0 = p_error (k_part s 0) /\
  krun (demo 1 SCHED_RR SCHED_RR) s [KCall 0 (SSetMode 77); KCall 0 (SSetMode PM_COLD)] = Some (s1, ev1) /\
  mode_of s1 0 = PM_COLD /\
  krun (demo 1 SCHED_RR SCHED_RR) s1 (c21_handler ++ [KCall 0 (SSetMode PM_STOPPED)]) = Some (s2, ev2) /\
  mode_of s2 0 = PM_STOPPED.
Proof.
  eexists _, _, _, _, _, _. split; [vm_compute; reflexivity|]. split; [vm_compute; reflexivity|].
  split; [vm_compute; reflexivity|]. split; [vm_compute; reflexivity|]. split; [vm_compute; reflexivity|].
  split; vm_compute; reflexivity.
Qed.
