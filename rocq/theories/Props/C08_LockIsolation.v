(** C08: lock objects are isolated between partitions.

    The wake-up of threads of other partitions through a lock object that was never created is treated in
    C54. *)
From Verif Require Import Model.Base Model.State Model.LockFifo Model.LockObj Model.LockSys Model.Sched Model.Kernel
  Spec.SchedSpec Spec.KernelSpec Spec.Demo Proof.KernelInv Proof.ObjStep Proof.CreateStep.

(** An operation with any identifier, kind and operation code. *)
Theorem C08_operation : forall cfg, supported cfg -> forall s c o kind op s' e id,
  reachable cfg s -> calls cfg s c (SLockOp o kind op) s' e id ->
  (e = ERR_EINVAL /\ s' = s) \/
  (lockobj_of cfg (k_cp s) o /\ forall x, x <> o -> k_obj s' x = k_obj s x).
Proof. exact lock_op. Qed.
Print Assumptions C08_operation.

(** Every step of the kernel, including threads that continue inside a lock service, leaves the lock objects
    of all partitions but the current one alone. *)
Theorem C08_foreign_objects : forall cfg, supported cfg -> forall s l s' ev o,
  reachable cfg s -> kstep cfg s l = KNext s' ev -> ~ lockobj_of cfg (k_cp s) o -> k_obj s' o = k_obj s o.
Proof. exact foreign_objs. Qed.
Print Assumptions C08_foreign_objects.

(** Lock objects belong to one partition. *)
Theorem C08_ranges_disjoint : forall cfg, supported cfg -> forall i j o,
  is_part cfg i -> is_part cfg j -> lockobj_of cfg i o -> lockobj_of cfg j o -> i = j.
Proof. exact lo_ranges_disjoint. Qed.
Print Assumptions C08_ranges_disjoint.

(** Partition 1 takes its own lock object, number 1, and is refused that of partition 0. *)
Definition c08_history : list klabel :=
  [KTick 1; KTimer 0; KCall 0 (SLockCreate (mkLattr LK_MUTEX 0 0 0 0)); KTick 10; KTimer 0;
   KCall 0 (SLockCreate (mkLattr LK_MUTEX 0 0 0 0))].
Example c08_case : exists s evs s',
  demo_run (demo 1 SCHED_RR SCHED_RR) c08_history = Some (s, evs) /\ k_cp s = 1 /\
  calls (demo 1 SCHED_RR SCHED_RR) s 0 (SLockOp 0 LK_MUTEX (Some (OpLock 0))) s ERR_EINVAL 0 /\
  calls (demo 1 SCHED_RR SCHED_RR) s 0 (SLockOp 1 LK_MUTEX (Some (OpLock 0))) s' ERR_OK 0 /\
  o_value (k_obj s 1) = 1 /\ o_value (k_obj s' 1) = 0 /\ o_value (k_obj s' 0) = 1 /\
  lockobj_of (demo 1 SCHED_RR SCHED_RR) 0 0 /\ lockobj_of (demo 1 SCHED_RR SCHED_RR) 1 1.
Proof.
  eexists _, _, _. split; [vm_compute; reflexivity|]. split; [reflexivity|]. split; [eexists; vm_compute; reflexivity|].
  split; [eexists; vm_compute; reflexivity|]. repeat split; vm_compute; (reflexivity || discriminate).
Qed.
