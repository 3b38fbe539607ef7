(** Entry, exit and switch code of the x86 port: kernel/include/arch/x86/interrupt.h, ipi.h, kernel/arch/x86/thread.c,
    space.c, interrupt.c. The processor is Spec/X86Cpu.v; one processor, whose esp0 is pok_tss[0].esp0. *)
From Verif Require Import Model.Base Spec.X86Cpu.

(** update_tss, interrupt.c:20-26; frame->cs is 48 bytes into the frame, which has 64 bytes (interrupt.h:20-43).
    [j]: what the C code leaves in eax, ecx, edx. *)
Definition clobber (j : Z * Z * Z) (c : cpu) : cpu :=
  let '(a, b, d) := j in
  set_gp (mkGp a b d (ebx (gp c)) (ebp (gp c)) (esi (gp c)) (edi (gp c))) c.
Definition update_tss (j : Z * Z * Z) (c : cpu) : option cpu :=
  let frame := top c 0 in
  Some (clobber j (if mem c (frame + 48) mod 65536 =? 8 then c else set_esp0 (frame + 64) c)).

(** Common parts of the stubs, interrupt.h:48-68. *)
Definition stub_save : list instr := [Pusha; PushDs; PushEs; PushEsp; MovAx 0x10; MovDsAx; MovEsAx].
Definition stub_restore : list instr := [AddEsp 4; PopEs; PopDs; Popa; AddEsp 4; Sti].
(** INTERRUPT_HANDLER, interrupt.h:46-70. *)
Definition stub (h : cpu -> option cpu) (j : Z * Z * Z) : list instr :=
  [Cli; AddEsp (-4)] ++ stub_save ++ [Call h; Call (update_tss j)] ++ stub_restore ++ [Iret].
(** INTERRUPT_HANDLER_errorcode, interrupt.h:72-95. *)
Definition stub_errorcode (h : cpu -> option cpu) (j : Z * Z * Z) : list instr :=
  [Cli] ++ stub_save ++ [Call h; Call (update_tss j)] ++ stub_restore ++ [Iret].
(** INTERRUPT_HANDLER_syscall, interrupt.h:97-122. *)
Definition stub_syscall (h : cpu -> option cpu) (j : Z * Z * Z) : list instr :=
  [Cli; AddEsp (-4)] ++ stub_save ++ [Call h; StoreEax 40; Call (update_tss j)] ++ stub_restore ++ [Iret].
(** INTERRUPT_HANDLER_IPI, ipi.h:33-57: pok_end_ipi ([e]) is called after the registers have been restored. *)
Definition stub_ipi (h : cpu -> option cpu) (j : Z * Z * Z) (e : cpu -> option cpu) : list instr :=
  [Cli; AddEsp (-4)] ++ stub_save ++ [Call h; Call (update_tss j)] ++ stub_restore ++ [Call e; Iret].
(** pok_end_ipi, ipi.c:31, as GCC translates it: the address of the local APIC is loaded into eax from the variable at
    [v], in the segment ds; 1 is stored 0xb0 bytes on. The base of the segment is added to both. *)
Definition end_ipi (v : Z) (c : cpu) : option cpu :=
  let a := mem c (base (ds c) + v) in
  Some (set_mem (upd (mem c) (base (ds c) + a + 0xb0) 1) (set_gp (set_eax a (gp c)) c)).

(** pok_context_switch, thread.c:53-68, up to its iret; [label]: the address of the ret at its end, which is where the
    thread goes on. *)
Definition context_switch (label : Z) : list instr :=
  [Pushf; PushCs; PushL label; Pusha; LoadEbx 48; StoreEsp; LoadEsp 52; Popa; Iret].

(** Writing a list of words. *)
Fixpoint write_words (m : Z -> Z) (a : Z) (l : list Z) : Z -> Z :=
  match l with [] => m | w :: r => write_words (upd m a w) (a + 4) r end.

(** KERNEL_STACK_SIZE, space.c:32. *)
Definition KSTACK := 8192.
(** pok_space_context_create, space.c:78-106, for the stack at [stack] (from pok_bsp_mem_alloc): the context that is
    returned and the memory. [dispatch]: the address of pok_dispatch_space. The structure is that of space.h:29-38 and
    thread.h:23-38: 11 + 8 words. *)
Definition space_context_create (stack dispatch pid entry affinity user_sp arg1 arg2 : Z) (m : Z -> Z) : Z * (Z -> Z) :=
  let sp := stack + KSTACK - 4 - 76 in
  (sp, write_words m sp
     [0; 0; 0; sp + 32; 0; 0; 0; 0; dispatch; 8; IF;
      0; pid; entry; user_sp; affinity; sp; arg1; arg2]).

(** GDT_BUILD_SELECTOR, GDT_PARTITION_CODE_SEGMENT, GDT_PARTITION_DATA_SEGMENT, gdt.h:53-62; [np]: number of
    processors. *)
Definition code_sel (np p : Z) : Z := (3 + np + 2 * p) * 8 + 3.
Definition data_sel (np p : Z) : Z := (3 + np + 2 * p + 1) * 8 + 3.

(** pok_dispatch_space, space.c:121-155: its arguments are above the return address; [frame]: where the compiler puts
    the local variable ctx. *)
Definition dispatch_space (np frame : Z) (c : cpu) : option cpu :=
  let pid := top c 4 mod 256 in
  let c1 := set_mem (write_words (mem c) frame
     [data_sel np pid; data_sel np pid; 0; 0; 0; frame + 40; top c 28; 0; 0; top c 24;
      0; top c 8; code_sel np pid; IF; top c 12; data_sel np pid]) c in
  let c2 := set_esp0 (top c 20) (set_efl (if_off (efl c)) c1) in
  exec_all [PopEs; PopDs; Popa; AddEsp 4; Iret] (set_esp frame c2).
