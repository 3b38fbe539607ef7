(** C20: thread services act only on threads of the calling partition.

    The bound check of the kernel accepts one identifier too many: the first one after the caller's range, which
    is the main thread of the next partition ([C20_own_threads_refuted]). *)
From Verif Require Import Model.Base Model.State Model.LockFifo Model.LockObj Model.LockSys Model.Sched Model.Kernel
  Spec.SchedSpec Spec.KernelSpec Spec.Demo Proof.KernelInv Proof.ThreadFrame.

(** A request that designates thread [t] fails without effect, or [t] belongs to the caller's partition, all other
    threads keep their attributes, and threads of partitions that do not execute keep everything. *)
Definition own_thread_only (cfg : config) (s s' : kstate) (e t : Z) : Prop :=
  (e <> ERR_OK /\ s' = s) \/
  (e = ERR_OK /\ thread_of cfg (k_cp s) t /\
   (forall u, u <> t -> attributes (k_th s' u) = attributes (k_th s u)) /\
   (forall j u, is_part cfg j -> j <> k_cp s -> j <> k_cp s' -> thread_of cfg j u -> k_th s' u = k_th s u)).

Definition C20_own_threads : Prop := forall cfg, supported cfg -> forall s c v s' e id t,
  reachable cfg s -> calls cfg s c v s' e id -> names cfg (k_cp s) v = Some t -> own_thread_only cfg s s' e t.

(** A thread of partition 0 (threads 0 to 3) resumes thread 4, the main thread of partition 1. *)
Theorem C20_own_threads_refuted : ~ C20_own_threads.
Proof.
  intros H. set (cfg := demo 1 SCHED_RR SCHED_RR). set (ls := demo_start [at_entry 5 0 0 0]). set (v := SResume 4).
  destruct (demo_run cfg ls) as [[s evs]|] eqn:R.
  all: assert (X : match demo_run cfg ls with
        | Some (s, _) => k_cp s = 0 /\ t_state (k_th s 4) = ST_STOPPED /\
            match kstep cfg s (KCall 0 v) with
            | KNext s' ev => ev = [XRet 0 (k_cur s 0) v ERR_OK 0; XFlush NoFlush] /\ t_state (k_th s' 4) = ST_RUNNABLE
            | _ => False end
        | None => False end) by (vm_compute; repeat split).
  all: rewrite R in X; try contradiction. destruct X as (Hcp & _ & X).
  destruct (kstep cfg s (KCall 0 v)) as [s' ev| |] eqn:K; try contradiction. destruct X as (-> & X).
  destruct (H cfg (demo_supported 1 _ _ ltac:(lia)) s 0 v s' ERR_OK 0 4 (demo_reachable _ _ _ _ R) (ex_intro _ NoFlush K) eq_refl)
    as [(C & _)|(_ & C & _)]; [exact (C eq_refl)|]. rewrite Hcp in C. destruct C as (_ & C). vm_compute in C. discriminate.
Qed.
Print Assumptions C20_own_threads_refuted.

(** The claim for all other identifiers. *)
Theorem C20_own_threads_partial : forall cfg, supported cfg -> forall s c v s' e id t,
  reachable cfg s -> calls cfg s c v s' e id -> names cfg (k_cp s) v = Some t -> t <> high_of cfg (k_cp s) ->
  own_thread_only cfg s s' e t.
Proof. exact named_service. Qed.
Print Assumptions C20_own_threads_partial.

(** Identifiers outside the caller's range and different from that one are refused, without effect on anything. *)
Theorem C20_foreign_refused : forall cfg, supported cfg -> forall s c v s' e id t,
  reachable cfg s -> calls cfg s c v s' e id -> names cfg (k_cp s) v = Some t ->
  t < low_of cfg (k_cp s) \/ high_of cfg (k_cp s) < t -> e <> ERR_OK /\ s' = s.
Proof.
  intros cfg W s c v s' e id t Hr HC Hn Ht. destruct (names_service cfg W s c v s' e id t Hr HC Hn) as [H|(_ & H)]; [assumption|]. lia.
Qed.
Print Assumptions C20_foreign_refused.

(** A thread changes the priority of another one of its partition, tries the same on thread 5 of partition 1. *)
Example c20_case : exists s evs s' s'',
  demo_run (demo 1 SCHED_RR SCHED_RR) (demo_start [at_entry 5 0 0 0; at_entry 6 0 0 0]) = Some (s, evs) /\
  calls (demo 1 SCHED_RR SCHED_RR) s 0 (SSetPriority 2 9) s' ERR_OK 0 /\
  calls (demo 1 SCHED_RR SCHED_RR) s 0 (SSetPriority 5 9) s'' ERR_PARAM 0 /\
  t_priority (k_th s 2) = 6 /\ t_priority (k_th s' 2) = 9 /\ t_priority (k_th s' 1) = 5.
Proof.
  eexists _, _, _, _. split; [vm_compute; reflexivity|]. split; [eexists; vm_compute; reflexivity|].
  split; [eexists; vm_compute; reflexivity|]. repeat split.
Qed.
