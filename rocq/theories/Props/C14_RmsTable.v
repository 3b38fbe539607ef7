(** C14: thread creation in a rate-monotonic partition.

    The table stays sorted and no thread is lost. The identifier returned to the creator does not always
    designate the thread created ([C14_returned_id_refuted]): it is the last slot of the table, before the
    sort moves the new thread to its place. *)
From Verif Require Import Model.Base Model.State Model.LockObj Model.LockSys Model.Sched Model.Kernel
  Spec.SchedSpec Spec.KernelSpec Spec.Demo Proof.SchedProof Proof.KernelInv Proof.RmsProof.
From Coq Require Import Permutation.

(** In every history without error handlers the created threads of an RMS partition are sorted by period. *)
Theorem C14_sorted : forall cfg, supported cfg -> forall s0 ls s evs i,
  kboot cfg = Some s0 -> krun cfg s0 ls = Some (s, evs) -> no_handler ls ->
  is_part cfg i -> c_sched cfg i = SCHED_RMS ->
  ordered t_period (k_th s) (low_of cfg i + 1) (low_of cfg i + p_index (k_part s i)).
Proof. exact rms_sorted. Qed.
Print Assumptions C14_sorted.

(** A successful creation, whatever the scheduler: the created threads afterwards are the ones before and a
    new one with the attributes given, in some order. *)
Theorem C14_permutation : forall cfg, supported cfg -> forall s c a s' id,
  reachable cfg s -> calls cfg s c (SCreate a) s' ERR_OK id ->
  exists nt, has_attrs a nt /\
    p_index (k_part s' (k_cp s)) = p_index (k_part s (k_cp s)) + 1 /\
    Permutation (slice (k_th s') (low_of cfg (k_cp s) + 1) (low_of cfg (k_cp s) + p_index (k_part s' (k_cp s))))
                (nt :: slice (k_th s) (low_of cfg (k_cp s) + 1) (low_of cfg (k_cp s) + p_index (k_part s (k_cp s)))).
Proof. exact create_perm_step. Qed.
Print Assumptions C14_permutation.

(** The claim on identifiers. *)
Definition C14_returned_id : Prop := forall cfg, supported cfg -> forall s c a s' id,
  reachable cfg s -> calls cfg s c (SCreate a) s' ERR_OK id ->
  has_attrs a (k_th s' id).

(** Periods 100 and then 50: the second creation returns 2, and thread 2 is the one of period 100. *)
Theorem C14_returned_id_refuted : ~ C14_returned_id.
Proof.
  intros H. set (cfg := demo 1 SCHED_RMS SCHED_RR).
  set (a1 := at_entry 5 0 100 10). set (a2 := at_entry 5 0 50 10).
  destruct (demo_run cfg [KTick 1; KTimer 0; KCall 0 (SCreate a1)]) as [[s evs]|] eqn:R.
  all: assert (X : match demo_run cfg [KTick 1; KTimer 0; KCall 0 (SCreate a1)] with
        | Some (s, _) => match kstep cfg s (KCall 0 (SCreate a2)) with
            | KNext s' ev => ev = [XRet 0 (k_cur s 0) (SCreate a2) ERR_OK 2; XFlush NoFlush] /\ t_period (k_th s' 2) = 100
            | _ => False end | None => False end) by (vm_compute; repeat split).
  all: rewrite R in X; try contradiction.
  destruct (kstep cfg s (KCall 0 (SCreate a2))) as [s' ev| |] eqn:K; try contradiction.
  destruct X as (-> & X).
  specialize (H cfg (demo_supported 1 _ _ ltac:(lia)) s 0 a2 s' 2 (demo_reachable _ _ _ _ R) (ex_intro _ _ K)).
  destruct H as (_ & _ & H & _). destruct H as (H & _); [vm_compute; discriminate|]. rewrite X in H. discriminate.
Qed.
Print Assumptions C14_returned_id_refuted.

(** With the missing hypothesis: the scheduler is not RMS, or no created thread has a greater period. *)
Theorem C14_returned_id_partial : forall cfg, supported cfg -> forall s c a s' id,
  reachable cfg s -> calls cfg s c (SCreate a) s' ERR_OK id ->
  c_sched cfg (k_cp s) <> SCHED_RMS \/
  (0 < u64 (a_period a) < 2 ^ 63 /\
   forall t, created cfg s (k_cp s) t -> t_period (k_th s t) <= u64 (a_period a)) ->
  has_attrs a (k_th s' id).
Proof. exact create_id_step. Qed.
Print Assumptions C14_returned_id_partial.

(** Three creations; the last one with the greatest period. *)
Definition c14_history : list klabel := [KTick 1; KTimer 0; KCall 0 (SCreate (at_entry 5 0 50 10)); KCall 0 (SCreate (at_entry 6 0 40 10))].
Example c14_case : exists s evs s' ,
  demo_run (demo 1 SCHED_RMS SCHED_RR) c14_history = Some (s, evs) /\ no_handler c14_history /\
  calls (demo 1 SCHED_RMS SCHED_RR) s 0 (SCreate (at_entry 7 0 60 10)) s' ERR_OK 3 /\
  map (fun i => t_period (k_th s' i)) [1; 2; 3] = [40; 50; 60] /\
  map (fun i => t_priority (k_th s' i)) [1; 2; 3] = [6; 5; 7].
Proof.
  eexists _, _, _. split; [vm_compute; reflexivity|]. split; [reflexivity|]. split; [eexists; vm_compute; reflexivity|].
  split; reflexivity.
Qed.
