(** What the start of a thread may touch: where it is, and where the kernel is. *)
From Verif Require Import Model.Base Model.State Model.Kernel Spec.KernelSpec Spec.MemSpec Spec.X86Cpu Spec.X86Threads.

(** Word [x] of linear memory belongs to partition [i]. *)
Definition word_of (s : kstate) (i x : Z) : Prop := p_base (k_part s i) <= x < p_base (k_part s i) + p_size (k_part s i).
(** What a change of memory touches. *)
Definition changes (f : (Z -> Z) -> Z -> Z) (x : Z) : Prop := exists m, f m x <> m x.
(** The words from [a] to [b] are no part of the kernel stacks, nor of the table of threads. *)
Definition clear_of (L : layout) (a b : Z) : Prop := forall u, Spec.X86Threads.thread L u ->
  (b <= lo L u \/ hi L u <= a) /\ (slot L u < a \/ b <= slot L u).
