(** The start of a process that was stopped: pok_context_reset of the x86 port and the address that it is given. *)
From Verif Require Import Model.Base Model.State Model.Kernel Spec.X86Cpu Model.X86Entry.

(** sizeof (start_context_t), arch/x86/thread.h:23-45: 11 words of the context, the fake return address, entry, id. *)
Definition START_CONTEXT := 56.
(** pok_context_reset, arch/x86/thread.c:69-86. [starter]: the address of pok_thread_start. As in Model/X86Entry.v the
    memory is one of words: that [stack_addr] is a multiple of 4 is not asked for, the words would only be read
    elsewhere. [m] is the linear memory: the kernel's segments have base 0. *)
Definition reset_at (stack_size stack_addr : Z) : Z := u32 (stack_addr + stack_size - 4 - START_CONTEXT).
Definition context_reset (stack_size stack_addr starter : Z) (m : Z -> Z) : Z -> Z :=
  let sp := reset_at stack_size stack_addr in
  let id := m (sp + 52) in
  let entry := m (sp + 48) in
  write_words m sp [0; 0; 0; sp + 32; 0; 0; 0; 0; starter; 8; IF; 0; entry; id].
(** thread.c:294: the call in pok_thread_delayed_start, for thread [id]. *)
Definition start_resets (cfg : config) (s : kstate) (id starter : Z) (m : Z -> Z) : Z -> Z :=
  context_reset (c_stack cfg) (t_stack (k_th s id)) starter m.
