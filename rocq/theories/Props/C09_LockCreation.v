(** C09: lock object creation hands out fresh in-range identifiers only during initialisation. *)
From Verif Require Import Model.Base Model.State Model.LockFifo Model.LockObj Model.LockSys Model.Sched Model.Kernel
  Spec.SchedSpec Spec.KernelSpec Spec.Demo Proof.KernelInv Proof.CreateStep.

(** A creation either succeeds, in an INIT mode, and takes a free object of the partition, or changes no lock
    object at all. *)
Theorem C09_creation : forall cfg, supported cfg -> forall s c a s' e id,
  reachable cfg s -> calls cfg s c (SLockCreate a) s' e id ->
  (e = ERR_OK /\ is_init (mode_of s (k_cp s)) /\ lockobj_of cfg (k_cp s) id /\
   o_init (k_obj s id) = false /\ o_init (k_obj s' id) = true /\ (forall o, o <> id -> k_obj s' o = k_obj s o)) \/
  (e <> ERR_OK /\ forall o, k_obj s' o = k_obj s o).
Proof. exact lock_create. Qed.
Print Assumptions C09_creation.

(** All objects used: refused. *)
Theorem C09_exhausted : forall cfg, supported cfg -> forall s c a s' e id,
  reachable cfg s -> calls cfg s c (SLockCreate a) s' e id -> is_init (mode_of s (k_cp s)) ->
  (forall o, lockobj_of cfg (k_cp s) o -> o_init (k_obj s o) = true) ->
  e = ERR_LOCKOBJ_UNAVAILABLE /\ s' = s.
Proof. exact lock_create_full. Qed.
Print Assumptions C09_exhausted.

(** A free object, an INIT mode and valid attributes: granted. *)
Theorem C09_granted : forall cfg, supported cfg -> forall s c a s' e id,
  reachable cfg s -> calls cfg s c (SLockCreate a) s' e id -> is_init (mode_of s (k_cp s)) -> valid_lattr a ->
  (exists o, lockobj_of cfg (k_cp s) o /\ o_init (k_obj s o) = false) -> e = ERR_OK.
Proof. exact lock_create_ok. Qed.
Print Assumptions C09_granted.

(** Along every execution, of all partitions and with restarts, no identifier is handed out twice. *)
Theorem C09_distinct : forall cfg, supported cfg -> forall s ls s' evs,
  reachable cfg s -> krun cfg s ls = Some (s', evs) -> NoDup (made_objs evs).
Proof. exact made_distinct. Qed.
Print Assumptions C09_distinct.

(** Two partitions create a lock object each; the second creation of partition 0 is refused. *)
Definition c09_attr : lattr := mkLattr LK_SEMAPHORE 0 0 1 3.
Definition c09_history : list klabel :=
  [KTick 1; KTimer 0; KCall 0 (SLockCreate (mkLattr 9 0 0 0 0)); KCall 0 (SLockCreate c09_attr);
   KTick 10; KTimer 0; KCall 0 (SLockCreate (mkLattr LK_MUTEX 0 0 0 0)); KTick 20; KTimer 0].
Example c09_case : exists s evs,
  demo_run (demo 1 SCHED_RR SCHED_RR) c09_history = Some (s, evs) /\ made_objs evs = [0; 1] /\
  is_init (mode_of s (k_cp s)) /\ o_init (k_obj s 0) = true /\
  calls (demo 1 SCHED_RR SCHED_RR) s 0 (SLockCreate c09_attr) s ERR_LOCKOBJ_UNAVAILABLE 0.
Proof.
  eexists _, _. split; [vm_compute; reflexivity|]. split; [reflexivity|]. split; [right; reflexivity|]. split; [reflexivity|].
  eexists. vm_compute. reflexivity.
Qed.
Example c09_grant : exists s evs s',
  demo_run (demo 1 SCHED_RR SCHED_RR) [KTick 1; KTimer 0] = Some (s, evs) /\ valid_lattr c09_attr /\
  is_init (mode_of s (k_cp s)) /\ lockobj_of (demo 1 SCHED_RR SCHED_RR) (k_cp s) 0 /\ o_init (k_obj s 0) = false /\
  calls (demo 1 SCHED_RR SCHED_RR) s 0 (SLockCreate c09_attr) s' ERR_OK 0.
Proof.
  eexists _, _, _. split; [vm_compute; reflexivity|]. split; [cbv; intuition discriminate|]. split; [right; reflexivity|].
  split; [vm_compute; split; [discriminate|reflexivity]|]. split; [reflexivity|]. eexists. vm_compute. reflexivity.
Qed.
