(** C22: nothing can be created once the partition runs.

    Requests to create a thread or a lock object are refused without effect. The request to create an error
    handler, which also creates a thread, is not: it goes on with an uninitialised identifier
    ([C22_nothing_created_refuted]). *)
From Verif Require Import Model.Base Model.State Model.LockFifo Model.LockObj Model.LockSys Model.Sched Model.Kernel
  Spec.SchedSpec Spec.KernelSpec Spec.Demo Proof.KernelInv Proof.CreateStep.

(** The full claim, with error handlers. *)
Definition C22_nothing_created : Prop := forall cfg, supported cfg -> forall s c v,
  reachable cfg s -> mode_of s (k_cp s) = PM_NORMAL -> creates v \/ creates_handler (KCall c v) = true ->
  kstep cfg s (KCall c v) = KDisabled \/ exists id, calls cfg s c v s ERR_MODE id.

(** A thread of a running partition creates an error handler. *)
Theorem C22_nothing_created_refuted : ~ C22_nothing_created.
Proof.
  intros H. set (cfg := demo 1 SCHED_RR SCHED_RR). set (ls := demo_start [at_entry 5 0 0 0]).
  destruct (demo_run cfg ls) as [[s evs]|] eqn:R.
  all: assert (X : match demo_run cfg ls with
        | Some (s, _) => mode_of s (k_cp s) = PM_NORMAL /\ kstep cfg s (KCall 0 (SErrorCreate 6000 0 0 0)) = KFail
        | None => False end) by (vm_compute; repeat split).
  all: rewrite R in X; try contradiction. destruct X as (Hm & X).
  destruct (H cfg (demo_supported 1 _ _ ltac:(lia)) s 0 (SErrorCreate 6000 0 0 0) (demo_reachable _ _ _ _ R) Hm (or_intror eq_refl)) as [C|(id & f & C)];
    rewrite X in C; discriminate.
Qed.
Print Assumptions C22_nothing_created_refuted.

(** The claim without the creation of error handlers. *)
Theorem C22_nothing_created_partial : forall cfg s c v,
  mode_of s (k_cp s) = PM_NORMAL -> creates v ->
  kstep cfg s (KCall c v) <> KFail /\
  forall s' e id, calls cfg s c v s' e id -> e = ERR_MODE /\ s' = s.
Proof.
  intros cfg s c v Hm Hv. split; [now apply create_normal_safe|]. intros s' e id HC. now apply (create_normal cfg s c v s' e id HC Hv).
Qed.
Print Assumptions C22_nothing_created_partial.

(** Along every execution, as long as partition [i] is in NORMAL mode: all its requests are refused, and no
    other activity (including requests of other partitions, or for error handlers) creates a thread or a lock
    object in it or destroys one. *)
Theorem C22_history : forall cfg, supported cfg -> forall ls s s' evs i,
  reachable cfg s -> krun cfg s ls = Some (s', evs) -> is_part cfg i -> stays_normal cfg i s ls ->
  p_index (k_part s' i) = p_index (k_part s i) /\
  (forall o, lockobj_of cfg i o -> o_init (k_obj s' o) = o_init (k_obj s o)) /\
  refusals cfg i evs.
Proof. exact create_normal_run. Qed.
Print Assumptions C22_history.

Definition c22_requests : list klabel :=
  [KCall 0 (SCreate (at_entry 7 0 50 10)); KCall 0 (SLockCreate (mkLattr LK_MUTEX 0 0 0 0)); KTick 10; KTimer 0;
   KCall 0 (SCreate (at_entry 7 0 50 10)); KTick 20; KTimer 0; KCall 0 (SCreate (at_entry 8 0 50 10))].
Example c22_case : exists s evs s' ev1 ev2 ev3,
  demo_run (demo 1 SCHED_RR SCHED_RR) (demo_start [at_entry 5 0 0 0]) = Some (s, evs) /\
  stays_normal (demo 1 SCHED_RR SCHED_RR) 0 s c22_requests /\
  krun (demo 1 SCHED_RR SCHED_RR) s c22_requests = Some (s', ev1) /\
  ev1 = XRet 0 1 (SCreate (at_entry 7 0 50 10)) ERR_MODE 0 :: ev2 /\
  (* the other partition, in INIT mode, does create its thread *)
  In (XRet 0 4 (SCreate (at_entry 7 0 50 10)) ERR_OK 5) ev1 /\ In (XRet 0 1 (SCreate (at_entry 8 0 50 10)) ERR_MODE 0) ev3 /\ ev1 = ev3.
Proof.
  eexists _, _, _, _, _, _. split; [vm_compute; reflexivity|]. split; [vm_compute; repeat split|].
  split; [vm_compute; reflexivity|]. split; [reflexivity|]. split; [vm_compute; tauto|]. split; [|reflexivity]. vm_compute. tauto.
Qed.
