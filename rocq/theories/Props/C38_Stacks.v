(** C38: the user stacks of the threads of a partition are disjoint and inside the partition. *)
From Verif Require Import Model.Base Model.State Model.LockFifo Model.LockObj Model.LockSys Model.Sched Model.Kernel
  Spec.SchedSpec Spec.KernelSpec Spec.MemSpec Spec.SpaceSpec Spec.Demo Proof.Tac Proof.KernelBasic Proof.KernelInv
  Proof.MemKernel Proof.MemBoot.

Lemma C38_address : forall cfg s i t, supported cfg -> reachable cfg s -> is_part cfg i -> stacks_fit cfg i ->
  forall f, stack_map cfg s i f -> live cfg s i t ->
  stack_start cfg s t = c_size cfg i - 4 - (f t + 2) * c_stack cfg /\ 0 <= f t < c_threads cfg i.
Proof.
  intros cfg s i t W Hr Hi (F1 & F2 & F3) f (H1 & _) Ht. destruct (H1 t Ht) as (Hp & Hf).
  pose proof (po_index _ _ _ (ki_part _ _ (reachable_inv cfg W s Hr) i Hi)) as Hix.
  split; [|lia]. unfold stack_start. unfold place in Hp. injection Hp as _ Hp. rewrite Hp. unfold stack_no, u32.
  rewrite Z.mod_small; [lia|]. nia.
Qed.

(** In every reachable state, whatever the order in which threads were created and sorted. *)
Theorem C38_disjoint : forall cfg s i t t', supported cfg -> reachable cfg s -> is_part cfg i -> stacks_fit cfg i ->
  live cfg s i t -> live cfg s i t' -> t <> t' ->
  apart (stack_start cfg s t) (c_stack cfg) (stack_start cfg s t') (c_stack cfg).
Proof.
  intros cfg s i t t' W Hr Hi Hf Ht Ht' Hne a Ha Ha'.
  destruct (reach_stack cfg W s Hr i Hi) as (f & Hm).
  destruct (C38_address cfg s i t W Hr Hi Hf f Hm Ht) as (E1 & _). destruct (C38_address cfg s i t' W Hr Hi Hf f Hm Ht') as (E2 & _).
  destruct Hm as (_ & Hinj). destruct Hf as (F1 & _).
  assert (f t <> f t') by (intros C; apply Hne; now apply Hinj).
  rewrite E1 in Ha. rewrite E2 in Ha'. nia.
Qed.
Print Assumptions C38_disjoint.

Theorem C38_inside : forall cfg s i t, supported cfg -> reachable cfg s -> is_part cfg i -> stacks_fit cfg i ->
  live cfg s i t -> inside (stack_start cfg s t) (c_stack cfg) 0 (mem_size s i).
Proof.
  intros cfg s i t W Hr Hi Hf Ht k Hk. destruct (reach_stack cfg W s Hr i Hi) as (f & Hm).
  destruct (C38_address cfg s i t W Hr Hi Hf f Hm Ht) as (E1 & E2).
  unfold mem_size. rewrite (reach_size cfg W s Hr i Hi), E1. destruct Hf as (F1 & F2 & F3). nia.
Qed.
Print Assumptions C38_inside.

(** The threads belong to the partition, so that the address is relative to the right segment. *)
Theorem C38_partition : forall cfg s i t, supported cfg -> reachable cfg s -> is_part cfg i -> live cfg s i t ->
  t_partition (k_th s t) = i.
Proof.
  intros cfg s i t W Hr Hi Ht. destruct (reach_stack cfg W s Hr i Hi) as (f & H1 & _).
  destruct (H1 t Ht) as (Hp & _). unfold place in Hp. congruence.
Qed.
Print Assumptions C38_partition.

(** Three threads of a rate-monotonic partition, created in the order of decreasing periods. *)
Example C38_demo : stacks_fit (demo 1 SCHED_RMS SCHED_RR) 0 /\
  match demo_run (demo 1 SCHED_RMS SCHED_RR) (demo_start [at_entry 1 0 300 5; at_entry 1 0 200 5; at_entry 1 0 100 5]) with
  | Some (m, _) => live (demo 1 SCHED_RMS SCHED_RR) m 0 3 /\
      map (stack_start (demo 1 SCHED_RMS SCHED_RR) m) [0; 1; 2; 3] = [91804; 79516; 83612; 87708]
  | None => False
  end.
Proof.
  split.
  - unfold stacks_fit. cbn. unfold two. cbn. lia.
  - vm_compute. repeat split; try reflexivity; discriminate.
Qed.
