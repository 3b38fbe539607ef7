(** C35: the memory ranges of different partitions are disjoint and lie above the start of the heap.

    [memory_fits] says that what the kernel allocates until the end of its initialisation fits below 2^32. *)
From Verif Require Import Model.Base Model.State Model.LockFifo Model.LockObj Model.LockSys Model.Sched Model.Kernel
  Spec.SchedSpec Spec.KernelSpec Spec.MemSpec Spec.SpaceSpec Spec.Demo Proof.Tac Proof.KernelBasic Proof.KernelInv
  Proof.MemKernel Proof.MemBoot.

(** In every reachable state, for every number and size of partitions. *)
Theorem C35_disjoint : forall cfg s i j, supported cfg -> memory_fits cfg -> reachable cfg s ->
  is_part cfg i -> is_part cfg j -> i <> j ->
  apart (mem_start s i) (mem_size s i) (mem_start s j) (mem_size s j).
Proof.
  intros cfg s i j W Hf Hr Hi Hj Hne a Ha Hb. unfold mem_start, mem_size in *.
  rewrite (reach_base cfg W s Hf Hr i Hi), (reach_size cfg W s Hr i Hi) in Ha.
  rewrite (reach_base cfg W s Hf Hr j Hj), (reach_size cfg W s Hr j Hj) in Hb.
  assert (G : forall x y, is_part cfg x -> is_part cfg y -> x < y -> part_addr cfg x + c_size cfg x <= part_addr cfg y).
  { intros x y Hx Hy Hxy. destruct Hf as (_ & H2 & _). unfold is_part in *.
    pose proof (part_addr_succ cfg x ltac:(lia)). unfold part_addr in *.
    pose proof (sum_to_mono (c_size cfg) (c_nparts cfg) (x + 1) y H2 ltac:(lia)). lia. }
  destruct (Z_lt_dec i j); [specialize (G i j Hi Hj)|specialize (G j i Hj Hi)]; lia.
Qed.
Print Assumptions C35_disjoint.

(** Each range lies inside the address space and above what the kernel used before. *)
Theorem C35_bounds : forall cfg s i, supported cfg -> memory_fits cfg -> reachable cfg s -> is_part cfg i ->
  mem_size s i = c_size cfg i /\ c_heap cfg <= mem_start s i /\ mem_start s i + mem_size s i < 2 ^ 32.
Proof.
  intros cfg s i W Hf Hr Hi. unfold mem_start, mem_size.
  rewrite (reach_base cfg W s Hf Hr i Hi), (reach_size cfg W s Hr i Hi). split; [reflexivity|].
  unfold is_part in Hi. pose proof (part_addr_bound cfg W i Hf ltac:(lia)).
  pose proof (part_addr_bound cfg W (i + 1) Hf ltac:(lia)). rewrite part_addr_succ in * by lia.
  destruct Hf as (_ & H2 & _). specialize (H2 i Hi). lia.
Qed.
Print Assumptions C35_bounds.

(** The memory of a partition never moves. *)
Theorem C35_fixed : forall cfg s l s' ev i, supported cfg -> reachable cfg s -> kstep cfg s l = KNext s' ev ->
  mem_start s' i = mem_start s i /\ mem_size s' i = mem_size s i.
Proof.
  intros cfg s l s' ev i W Hr H. destruct (step_mem cfg W s l s' ev (reachable_inv cfg W s Hr) H) as (G & _). apply G.
Qed.
Print Assumptions C35_fixed.

(** The kernel stacks of threads are taken from the same heap: after at most [n] steps the next block still
    lies behind all partitions, if [n] more stacks fit. *)
Theorem C35_stacks : forall cfg s0 ls s evs i, supported cfg -> memory_fits cfg -> kboot cfg = Some s0 ->
  k_brk s0 + 8192 * Z.of_nat (length ls) < 2 ^ 32 -> krun cfg s0 ls = Some (s, evs) -> is_part cfg i ->
  apart (k_brk s) 8192 (mem_start s i) (mem_size s i) /\ c_heap cfg <= k_brk s.
Proof.
  intros cfg s0 ls s evs i W Hf B Hb R Hi. destruct (boot_mem cfg W s0 B) as (_ & G & _). specialize (G Hf).
  assert (Hr : reachable cfg s) by (exists s0, ls, evs; auto).
  pose proof (sp_parts cfg W). pose proof (sp_procs cfg W).
  pose proof (part_addr_bound cfg W (c_nparts cfg) Hf ltac:(lia)) as Hbd. destruct Hf as (Hf0 & Hf1 & Hf2).
  destruct (run_brk cfg W ls s0 s evs (part_addr cfg (c_nparts cfg)) (kboot_inv cfg W s0 B)) as (G1 & _); try assumption; try lia.
  split; [|lia]. intros a Ha Ha'. unfold mem_start, mem_size in *.
  assert (Hf : memory_fits cfg) by (repeat split; assumption).
  rewrite (reach_base cfg W s Hf Hr i Hi), (reach_size cfg W s Hr i Hi) in Ha'.
  unfold is_part in Hi. pose proof (part_addr_succ cfg i ltac:(lia)).
  pose proof (sum_to_mono (c_size cfg) (c_nparts cfg) (i + 1) (c_nparts cfg) Hf1 ltac:(lia)). unfold part_addr in *. lia.
Qed.
Print Assumptions C35_stacks.

(** Without that bound it is false: the end of the heap is never checked, and a partition that creates a
    thread makes the break wrap around to the memory below the heap. *)
Definition tight : config :=
  mkConfig 2 8 1 (two 4 2) (two 1 1) (two SCHED_RR SCHED_RR) (two 1 1) (two (2 ^ 31) (2 ^ 31 - 2 ^ 20 - 32768))
           (two 4096 8192) 2 (two 10 20) (two 0 1) 30 FlushMajor true 4096 1048576.
Lemma tight_supported : supported tight.
Proof.
  constructor; try (cbn; lia); try (intros i _; cbn; unfold two; destruct (i =? 0); lia).
  - change (7 + 1 <= 8 <= 256). lia.
  - vm_compute. discriminate.
  - intros i _. unfold is_part. cbn. unfold two. destruct (i =? 0); lia.
  - reflexivity.
Qed.
Lemma tight_fits : memory_fits tight.
Proof.
  split; [cbn; lia|]. split.
  - intros i _. cbn. unfold two. destruct (i =? 0); lia.
  - vm_compute. reflexivity.
Qed.
Theorem C35_stacks_unbounded_refuted :
  ~ (forall cfg s, supported cfg -> memory_fits cfg -> reachable cfg s -> c_heap cfg <= k_brk s).
Proof.
  intros H. set (ls := [KTick 1; KTimer 0; KCall 0 (SCreate (at_entry 1 0 0 0))]).
  assert (X : match demo_run tight ls with Some (m, _) => k_brk m = 0 | None => False end)
    by (clear H; vm_compute; reflexivity).
  destruct (demo_run tight ls) as [[m ev]|] eqn:R; [|exact X].
  specialize (H tight m tight_supported tight_fits (demo_reachable _ _ _ _ R)).
  rewrite X in H. change (c_heap tight) with 1048576 in H. lia.
Qed.
Print Assumptions C35_stacks_unbounded_refuted.

Example C35_demo : memory_fits (demo 2 SCHED_RR SCHED_RR) /\
  match demo_run (demo 2 SCHED_RR SCHED_RR) (demo_start [at_entry 1 0 0 0]) with
  | Some (m, _) => mem_start m 0 = 1048576 /\ mem_size m 0 = 100000 /\ mem_start m 1 = 1048576 + 100000 + 8192 /\
                   mem_size m 1 = 50000
  | None => False
  end.
Proof.
  split.
  - split; [cbn; lia|]. split; [|vm_compute; reflexivity]. intros i _. cbn. unfold two. destruct (i =? 0); lia.
  - vm_compute. repeat split; reflexivity.
Qed.
