(** Threads on one SPARC processor: each of them runs as if it were alone, and which of them runs changes now and then. *)
From Verif Require Import Model.Base Spec.SparcCpu Spec.SparcWindows.

(** The words of a program: its stack with the 84 bytes below it in which the kernel keeps registers, and its data. *)
Definition own (K : place) (a : Z) : Prop := lo K - 84 <= a < hi K \/ data K a = true.
Definition confined (K : place) (A : prog) : Prop := forall a v, p_mem A a = Some v -> own K a.

(** [who] runs; [progs] are the programs and [at_] their program counters. *)
Record threads := mkThreads { who : nat; progs : nat -> prog; at_ : nat -> Z * Z }.
(** [Go l p q]: the running program executes [l], which takes it to [p] and [q]. [Switch j]: an interrupt, after which [j] runs. *)
Inductive event := Go (l : list op) (p q : Z) | Switch (j : nat).
Definition put {T : Type} (f : nat -> T) (i : nat) (v : T) : nat -> T := fun n => if Nat.eqb n i then v else f n.
Definition t_step (N : nat) (K : nat -> place) (s : threads) (e : event) : option threads :=
  match e with
  | Go l p q => match p_run (K (who s)) (progs s (who s)) l with
                | Some A => Some (mkThreads (who s) (put (progs s) (who s) A) (put (at_ s) (who s) (p, q)))
                | None => None end
  | Switch j => if Nat.ltb j N then Some (mkThreads j (progs s) (at_ s)) else None
  end.
Fixpoint t_run (N : nat) (K : nat -> place) (s : threads) (l : list event) : option threads :=
  match l with [] => Some s | e :: r => match t_step N K s e with Some s' => t_run N K s' r | None => None end end.

(** A program that waits: everything it has is in memory. What is below its stack pointer is listed in kernel/arch/sparc/context_offset.h:49-68:
    globals, %o registers, program counters and the number of frames (at most seven) that go back into windows. *)
Record kept (K : place) (m : Z -> Z) (A : prog) (p q : Z) : Prop := {
  kt_shape : shape K A;
  kt_count : 1 <= m (p_sp A 0 - 0x54) <= 7 /\ m (p_sp A 0 - 0x54) <= Z.of_nat (p_depth A);
  kt_glob : forall r v, 1 <= r < 8 -> p_glob A r = Some v -> m (p_sp A 0 - (32 - 4 * r)) = v;
  kt_out : forall r v, 8 <= r < 16 -> r <> 14 -> p_out A r = Some v -> m (p_sp A 0 - 4 * r) = v;
  kt_fr : forall k r v, (k < p_depth A)%nat -> 16 <= r < 32 -> p_fr A k r = Some v -> m (p_sp A k + 4 * (r - 16)) = v;
  kt_mem : forall a v, p_mem A a = Some v -> m a = v;
  kt_pc : m (p_sp A 0 - 0x4c) = p;
  kt_npc : m (p_sp A 0 - 0x50) = q }.

(** The state of the processor shows the threads: the running one [holds], the others are [kept] at the stack pointers in [slot]. *)
Record shows (N : nat) (K : nat -> place) (slot : nat -> Z) (s : threads) (c : sparc) : Prop := {
  s_who : (who s < N)%nat;
  s_run : holds (K (who s)) c (progs s (who s));
  s_pc : at_ s (who s) = (pc c, npc c);
  s_conf : forall n, (n < N)%nat -> confined (K n) (progs s n);
  s_kept : forall n, (n < N)%nat -> n <> who s -> kept (K n) (mem c) (progs s n) (fst (at_ s n)) (snd (at_ s n));
  s_slot : forall n, (n < N)%nat -> n <> who s -> mem c (slot n) = p_sp (progs s n) 0;
  s_acc : forall n a, (n < N)%nat -> own (K n) a -> acc c a = 2 }.

(** The threads have their own words, the kernel has others: [var] for the stack pointer of the running thread, [slot] for those of all. *)
Record placed (N : nat) (K : nat -> place) (var : Z) (slot : nat -> Z) : Prop := {
  pl_apart : forall i j a, (i < N)%nat -> (j < N)%nat -> own (K i) a -> own (K j) a -> i = j;
  pl_var : forall i, (i < N)%nat -> ~ own (K i) var;
  pl_slot : forall i j, (i < N)%nat -> (j < N)%nat -> ~ own (K i) (slot j);
  pl_inj : forall i j, (i < N)%nat -> (j < N)%nat -> slot i = slot j -> i = j;
  pl_other : forall i, (i < N)%nat -> slot i <> var;
  pl_align : var mod 4 = 0 }.

(** What the kernel's C code does between an interrupt in thread [i] and the return to [j]: it comes back in the same window and mode, leaves
    the words of threads and the map of memory, and exchanges stack pointers if another thread is to run. *)
Definition serves (N : nat) (K : nat -> place) (var : Z) (slot : nat -> Z) (i j : nat) (c c' : sparc) : Prop :=
  cwp c' = cwp c /\ (forall b, 5 <= b < 12 -> Z.testbit (psr c') b = Z.testbit (psr c) b) /\ (forall a, acc c' a = acc c a) /\
  (forall n a, (n < N)%nat -> own (K n) a -> mem c' a = mem c a) /\
  (forall n, (n < N)%nat -> n <> i -> mem c' (slot n) = mem c (slot n)) /\
  (i = j -> mem c' var = mem c var) /\
  (i <> j -> mem c' var = mem c (slot j) /\ mem c' (slot i) = mem c var).
