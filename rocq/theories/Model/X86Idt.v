(** The interrupt descriptor table: kernel/arch/x86/event.c, event.h, exceptions.c, syscalls.c, arch.c, ipi.c, pci.c,
    x86-qemu/bsp.c, x86-qemu/pit.c. *)
From Verif Require Import Model.Base.

(** pok_idt as 64-bit words; IDT_SIZE entries (event.c:24-26). Words past the last one are what follows in memory. *)
Definition IDT_SIZE := 256.
Definition idt_t := Z -> Z.

(** idt_entry_t, event.h:29-39: the bit fields from the lowest. *)
Definition entry (offset_low segsel res0 type d res1 dpl present offset_high : Z) : Z :=
  offset_low + segsel * 2 ^ 16 + res0 * 2 ^ 32 + type * 2 ^ 40 + d * 2 ^ 43 + res1 * 2 ^ 44 + dpl * 2 ^ 45 +
  present * 2 ^ 47 + offset_high * 2 ^ 48.
(** pok_idt_set_gate, event.c:58-69; each value is cut to its bit field. *)
Definition idt_set_gate (idt : idt_t) (index segsel offset t dpl : Z) : idt_t :=
  upd idt index (entry (offset mod 2 ^ 16) (segsel mod 2 ^ 16) 0 (t mod 8) 1 0 (dpl mod 4) 1 ((offset / 2 ^ 16) mod 2 ^ 16)).
(** event.h:23-27. *)
Definition IDTE_INTERRUPT := 6.
Definition IDTE_TRAP := 7.

(** The handlers, by name. *)
Inductive handler :=
| divide_error | debug | nmi | breakpoint | overflow | boundrange | invalidopcode | nomath_coproc | doublefault
| copseg_overrun | invalid_tss | segment_not_present | stackseg_fault | general_protection | pagefault | fpu_fault
| alignement_check | machine_check | simd_fault
| syscall_gate | pit_interrupt | IPI_test_gate | global_sched_thread_gate | sched_thread_gate | pci_handler.
(** Which of them are written with INTERRUPT_HANDLER_errorcode: exceptions.c:174-264. *)
Definition errorcode_stub (h : handler) : bool :=
  match h with
  | doublefault | invalid_tss | segment_not_present | stackseg_fault | general_protection | pagefault
  | alignement_check => true
  | _ => false
  end.

(** exception_list, exceptions.c:48-71 with the numbers of event.h:41-60. *)
Definition exception_list : list (Z * handler) :=
  [(0, divide_error); (1, debug); (2, nmi); (3, breakpoint); (4, overflow); (5, boundrange); (6, invalidopcode);
   (7, nomath_coproc); (8, doublefault); (9, copseg_overrun); (10, invalid_tss); (11, segment_not_present);
   (12, stackseg_fault); (13, general_protection); (14, pagefault); (16, fpu_fault); (17, alignement_check);
   (18, machine_check); (19, simd_fault)].

Section Boot.
  (** The addresses of the handlers. *)
  Variable addr : handler -> Z.

  (** pok_exception_init, exceptions.c:73-82; GDT_CORE_CODE_SEGMENT is 1 (gdt.h:51). *)
  Definition exception_init (idt : idt_t) : idt_t :=
    fold_left (fun i e => idt_set_gate i (fst e) 8 (addr (snd e)) IDTE_INTERRUPT 3) exception_list idt.
  (** POK_SYSCALL_INT_NUMBER, core/syscall.h:25; pok_syscall_init, syscalls.c:76-81. *)
  Definition SYSCALL_INT := 42.
  Definition syscall_init (idt : idt_t) : idt_t := idt_set_gate idt SYSCALL_INT 8 (addr syscall_gate) IDTE_INTERRUPT 3.
  (** pok_event_init with pok_idt_init on the first processor, event.c:28-56: the table is cleared. *)
  Definition event_init (idt : idt_t) : idt_t :=
    syscall_init (exception_init (fun i => if (0 <=? i) && (i <? IDT_SIZE) then 0 else idt i)).
  (** sysdesc.limit, event.c:50: sizeof(pok_idt). *)
  Definition idt_limit : Z := 8 * IDT_SIZE.

  (** pok_arch_event_register, arch.c:52-57. *)
  Definition event_register (idt : idt_t) (vector : Z) (h : handler) : idt_t :=
    idt_set_gate idt vector 8 (addr h) IDTE_TRAP 3.
  (** pok_ipi_init, ipi.c:45-51 with the numbers of ipi.h:17-19; called if the machine has several processors. *)
  Definition ipi_init (idt : idt_t) : idt_t :=
    event_register (event_register (event_register idt 33 IPI_test_gate) 34 global_sched_thread_gate) 35 sched_thread_gate.
  (** pok_boot: pok_arch_init (arch.c:28-34), pok_time_init: pit.c:73 with bsp.c:37-43. *)
  Definition boot (several : bool) (idt : idt_t) : idt_t :=
    let i := event_init idt in
    event_register (if several then ipi_init i else i) (32 + 0) pit_interrupt.

  (** pci_register, pci.c:94-95, for the line that the device's configuration space gives: the selector is
      GDT_CORE_CODE_SEGMENT, not shifted. *)
  Definition pci_register (irq_line : Z) (idt : idt_t) : idt_t :=
    idt_set_gate idt (32 + irq_line mod 256) 1 (addr pci_handler) IDTE_INTERRUPT 0.
End Boot.
