(** Threads that give the processor to each other with pok_context_switch: what a history is. *)
From Verif Require Import Model.Base Spec.X86Cpu Model.X86Entry.

(** Threads 0 to [count - 1], their kernel stacks [lo t, hi t) and the words pok_threads[t].sp. *)
Record layout := mkLayout { count : Z; lo : Z -> Z; hi : Z -> Z; slot : Z -> Z }.
Definition thread (L : layout) (t : Z) : Prop := 0 <= t < count L.
Definition separated (L : layout) : Prop :=
  (forall t u, thread L t -> thread L u -> t <> u -> hi L t <= lo L u \/ hi L u <= lo L t) /\
  (forall t u, thread L t -> thread L u -> t <> u -> slot L t <> slot L u) /\
  (forall t u, thread L t -> thread L u -> slot L t < lo L u \/ hi L u <= slot L t).

(** What a thread has when it calls pok_context_switch, and where it goes on. *)
Record snap := mkSnap { sn_gp : gprs; sn_esp : Z; sn_eip : Z; sn_efl : Z; sn_mem : Z -> Z }.

(** Who runs, the processor, and for the others what they had. *)
Record sys := mkSys { cur : Z; proc : cpu; snaps : Z -> snap }.

(** The running thread does anything but write to the words pok_threads[].sp and to the used part of the kernel stacks
    of the others; in the end it is in the kernel. The used part of a stack begins at pok_threads[u].sp. *)
Definition works (L : layout) (t : Z) (c c' : cpu) : Prop :=
  (forall u, thread L u -> u <> t -> mem c' (slot L u) = mem c (slot L u)) /\
  (forall u a, thread L u -> u <> t -> mem c (slot L u) <= a < hi L u -> mem c' a = mem c a) /\
  gdt c' 1 = Some (0, 0) /\ cs c' = mkS 8 0 0.
(** It is about to execute pok_context_switch (&pok_threads[t].sp, pok_threads[u].sp), sched.c:362-375, with room on
    its stack. *)
Definition calls (L : layout) (t u : Z) (c : cpu) : Prop :=
  lo L t + 44 <= esp c /\ esp c + 12 <= hi L t /\
  mem c (esp c + 4) = slot L t /\ mem c (esp c + 8) = mem c (slot L u).

Inductive sstep (L : layout) (label : Z) : sys -> sys -> Prop :=
| SWork : forall s c', works L (cur s) (proc s) c' -> sstep L label s (mkSys (cur s) c' (snaps s))
| SSwitch : forall s u c', thread L u -> u <> cur s -> calls L (cur s) u (proc s) -> gdt (proc s) 1 = Some (0, 0) -> cs (proc s) = mkS 8 0 0 ->
    exec_all (context_switch label) (proc s) = Some c' ->
    sstep L label s (mkSys u c' (upd (snaps s) (cur s)
      (mkSnap (gp (proc s)) (esp (proc s)) label (efl (proc s)) (mem (proc s))))).
Inductive sreach (L : layout) (label : Z) (s0 : sys) : sys -> Prop :=
| SR0 : sreach L label s0 s0
| SR1 : forall s s', sreach L label s0 s -> sstep L label s s' -> sreach L label s0 s'.

(** The context of a thread that does not run is at pok_threads[u].sp: the words that POPA and IRET take, and above
    them its stack. *)
Definition context_of (L : layout) (u : Z) (n : snap) (m : Z -> Z) : Prop :=
  let S := m (slot L u) in
  lo L u <= S /\ sn_esp n = S + 44 /\ sn_esp n <= hi L u /\
  m S = edi (sn_gp n) /\ m (S + 4) = esi (sn_gp n) /\ m (S + 8) = ebp (sn_gp n) /\ m (S + 16) = ebx (sn_gp n) /\
  m (S + 20) = edx (sn_gp n) /\ m (S + 24) = ecx (sn_gp n) /\ m (S + 28) = eax (sn_gp n) /\
  m (S + 32) = sn_eip n /\ m (S + 36) = 8 /\ m (S + 40) = sn_efl n /\
  (forall a, sn_esp n <= a < hi L u -> m a = sn_mem n a).
(** At the beginning one thread runs and every other thread has a context. *)
Definition ready (L : layout) (s : sys) : Prop :=
  thread L (cur s) /\ forall u, thread L u -> u <> cur s -> context_of L u (snaps s u) (mem (proc s)).

(** The thread goes on where it stopped: general registers, stack pointer, flags, instruction, and its stack. *)
Definition goes_on (L : layout) (u : Z) (n : snap) (c : cpu) : Prop :=
  gp c = sn_gp n /\ esp c = sn_esp n /\ eip c = sn_eip n /\ efl c = sn_efl n /\ cs c = mkS 8 0 0 /\
  forall a, sn_esp n <= a < hi L u -> mem c a = sn_mem n a.
