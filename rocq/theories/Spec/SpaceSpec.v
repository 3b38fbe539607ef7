(** Vocabulary for the memory of partitions in the kernel machine. *)
From Verif Require Import Model.Base Model.State Model.LockFifo Model.LockObj Model.LockSys Model.Kernel
  Spec.SchedSpec Spec.KernelSpec Spec.MemSpec.

(** Memory of partition [i]. *)
Definition mem_start (s : kstate) (i : Z) : Z := p_base (k_part s i).
Definition mem_size (s : kstate) (i : Z) : Z := p_size (k_part s i).

(** The partitions, one kernel stack for each main thread and one for each idle thread fit between the
    start of the heap and the end of the address space. *)
Definition memory_fits (cfg : config) : Prop :=
  0 <= c_heap cfg /\ (forall i, is_part cfg i -> 0 <= c_size cfg i) /\
  c_heap cfg + sum_to (c_size cfg) (c_nparts cfg) + 8192 * c_nparts cfg + 8192 * c_nprocs cfg < 2 ^ 32.

(** The main thread of partition [i] and the threads it has created since the last (re)start. *)
Definition live (cfg : config) (s : kstate) (i t : Z) : Prop :=
  low_of cfg i <= t < low_of cfg i + p_index (k_part s i).

(** Lowest address and size of the user stack of thread [t], relative to the partition: the stack grows
    downwards from the address kept in the thread table. *)
Definition stack_start (cfg : config) (s : kstate) (t : Z) : Z := t_stack (k_th s t) - c_stack cfg.

(** The stacks of all threads of partition [i] and the four bytes above them fit into it. *)
Definition stacks_fit (cfg : config) (i : Z) : Prop :=
  0 < c_stack cfg /\ c_size cfg i < 2 ^ 32 /\ (c_threads cfg i + 1) * c_stack cfg + 4 <= c_size cfg i.

(** Processor that takes a step. *)
Definition proc_of (l : klabel) : option Z :=
  match l with KTick _ => None | KTimer c | KIpi c => Some c | KCall c _ | KCont c => Some c end.

(** A step that changes the partition does so from a live thread to a live thread: no idle thread is
    involved, nor the thread that boots the kernel. *)
Definition clean_switch (cfg : config) (s : kstate) (l : klabel) (s' : kstate) : Prop :=
  k_cp s' <> k_cp s -> forall c, proc_of l = Some c ->
  live cfg s (k_cp s) (k_cur s c) /\ live cfg s' (k_cp s') (k_cur s' c).
Fixpoint clean_switches (cfg : config) (s : kstate) (ls : list klabel) : Prop :=
  match ls with
  | [] => True
  | l :: ls' =>
      match kstep cfg s l with
      | KNext s' _ => clean_switch cfg s l s' /\ clean_switches cfg s' ls'
      | KDisabled => clean_switches cfg s ls'
      | KFail => True
      end
  end.
(** Partition [q] has been current during the history. *)
Fixpoint was_current (cfg : config) (q : Z) (s : kstate) (ls : list klabel) : Prop :=
  k_cp s = q \/
  match ls with
  | [] => False
  | l :: ls' =>
      match kstep cfg s l with
      | KNext s' _ => was_current cfg q s' ls'
      | KDisabled => was_current cfg q s ls'
      | KFail => False
      end
  end.
