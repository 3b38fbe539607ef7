(** Threads of the PowerPC port: kernel/arch/ppc/cswitch.S, thread.c, thread.h and space.c:60-94 (pok_space_context_create). The allocator is C81's; the
    address it returns is a parameter here. Debug output is left out. Addresses do not wrap. *)
From Verif Require Import Model.Base Spec.PpcCpu Model.PpcEntry.

(** pok_context_switch (old_sp, new_sp), cswitch.S:3-63: saving, changing the stack, loading. *)
Definition switch_save : list instr :=
  [Mf 0 LR; Stw 0 4 1; Stwu 1 (-96) 1; Mf 0 CR; Stw 0 8 1; Stw 2 12 1; Stw 13 16 1; Stw 14 20 1; Stw 15 24 1; Stw 16 28 1; Stw 17 32 1; Stw 18 36 1; Stw 19 40 1;
   Stw 20 44 1; Stw 21 48 1; Stw 22 52 1; Stw 23 56 1; Stw 24 60 1; Stw 25 64 1; Stw 26 68 1; Stw 27 72 1; Stw 28 76 1; Stw 29 80 1; Stw 30 84 1; Stw 31 88 1].
Definition switch_stack : list instr := [Stw 1 0 3; Mr 1 4].
Definition switch_load : list instr :=
  [Lwz 31 88 1; Lwz 30 84 1; Lwz 29 80 1; Lwz 28 76 1; Lwz 27 72 1; Lwz 26 68 1; Lwz 25 64 1; Lwz 24 60 1; Lwz 23 56 1; Lwz 22 52 1; Lwz 21 48 1; Lwz 20 44 1;
   Lwz 19 40 1; Lwz 18 36 1; Lwz 17 32 1; Lwz 16 28 1; Lwz 15 24 1; Lwz 14 20 1; Lwz 13 16 1; Lwz 2 12 1; Lwz 0 8 1; Mt CR 0; Lwz 1 0 1].
Definition switch_return : list instr := [Lwz 0 4 1; Mt LR 0; Blr].
Definition context_switch : list instr := switch_save ++ switch_stack ++ switch_load ++ switch_return.

(** pok_arch_thread_start up to the call of pok_thread_start, cswitch.S:68-74 (which calls its first argument, core/thread.c:230-233). *)
Definition thread_start : list instr := [Mr 3 14; Mr 4 15; Xor 0 0 0; Stw 0 4 1].

(** memset (p, 0, 4 * n) on words. *)
Fixpoint zero_words (n : nat) (p : Z) (m : Z -> Z) : Z -> Z := match n with O => m | S k => zero_words k (p + 4) (upd m p 0) end.

(** context_t is 104 bytes (thread.h:20-52): r14 at 20, r15 at 24, back_chain at 96, lr at 100. volatile_context_t is 96 bytes (:54-84). *)
Definition CONTEXT_SIZE := 104.
Definition VOLATILE_SIZE := 96.

(** pok_context_create, thread.c:24-44; [stack]: what the allocator returned; [label]: the address of pok_arch_thread_start. *)
Definition context_create (stack label id stack_size entry : Z) (m : Z -> Z) : Z * (Z -> Z) :=
  let sp := stack + stack_size - CONTEXT_SIZE in
  let m := zero_words 26 sp m in
  (sp, upd (upd (upd (upd m (sp + 20) entry) (sp + 24) id) (sp + 100) label) sp (sp + 96)).

(** pok_context_reset, thread.c:46-62. *)
Definition context_reset (label stack_size stack_addr : Z) (m : Z -> Z) : Z * (Z -> Z) :=
  let sp := stack_addr + stack_size - 4 - CONTEXT_SIZE in
  let id := m (sp + 24) in let entry := m (sp + 20) in
  let m := zero_words 26 sp m in
  (0, upd (upd (upd (upd m (sp + 20) entry) (sp + 24) id) (sp + 100) label) sp (sp + 96)).

(** pok_space_context_create, space.c:62-94; [label]: the address of pok_arch_rfi. MSR_EE | MSR_IP | MSR_DR | MSR_IR | MSR_PR = 0xc070. *)
Definition KERNEL_STACK_SIZE := 8192.
Definition space_context_create (stack label entry stack_rel arg1 arg2 : Z) (m : Z -> Z) : Z * (Z -> Z) :=
  let vctx := stack + KERNEL_STACK_SIZE - VOLATILE_SIZE in
  let ctx := vctx - CONTEXT_SIZE + 8 in
  let m := zero_words 24 vctx (zero_words 26 ctx m) in
  let m := upd (upd (upd (upd (upd m (vctx + 20) arg1) (vctx + 24) arg2) vctx (stack_rel - 12)) (vctx + 72) entry) (vctx + 76) 0xc070 in
  (ctx, upd (upd m (ctx + 100) label) ctx vctx).
