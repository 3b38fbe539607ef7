# POK model in Rocq: design

Source: `/repo` (pok-kernel/pok, pinned commit), read as text only. All paths
below are relative to it (`kernel/` is left out where it is clear). Properties
are listed in `properties.jsonl`; `MANIFEST.json` maps each of them to theorem
names; `seeded/LOG.jsonl` records which theorems fail when the model is made wrong
on purpose.

## Layout

    rocq/theories/Model/*.v    executable model of the C code (no lemmas); each definition cites file:lines
    rocq/theories/Spec/*.v     small specifications, written without looking into the model's helpers
    rocq/theories/Proof/*.v    lemmas, invariants, refinements
    rocq/theories/Props/Cnn*.v one file per property: theorem statement closed by a short proof from lemmas,
                               `Print Assumptions`, and a concrete `Example` meeting the hypotheses

## Modelling conventions

* C integers are `Z`; where wrap-around can matter it is written explicitly
  (`u8 x = x mod 2^8`, `u32`, `u64`, signed variants). Indices that the configuration bounds
  below 256 are kept as plain `Z` with that bound in the hypothesis.
* A C array is a total function `Z -> T` updated by `upd`. Out-of-bounds accesses that
  the code can perform are modelled as a distinct outcome, not as a
  silent default. Same for division by zero, failed `assert`, and loops that do
  not terminate (fuel exhausted, with fuel shown sufficient where termination is claimed).
* Functions that block (`pok_sched_thread` in the middle of `pok_lockobj_lock`) are split at
  the blocking point: the first half returns a waiting state, the second half is a `resume` function.
* The configuration (`deployment.h`) is a record over which theorems are quantified.
* No functional extensionality: equalities of states that contain arrays are pointwise.

## Names of theorems

* `Cnn_name`: a full statement (or a full part of one), for all inputs.
* `Cnn_name_partial`: proved under a condition the property does not mention; the comment above says what is missing.
* `Cnn_name_refuted`: the negation of the property as stated, with a concrete counterexample on the model. The
  property stays in `properties.jsonl` as stated, because it is what the code should do.

## Per property: what is modelled and how it is proved

| id | status | modelled code | proof method |
|----|--------|---------------|--------------|
| C01 | proved | lockobj.c ring (enqueue FIFO, dequeue, remove) | ring refines a list (abstraction function), then induction on operation histories |
| C02 | proved | lockobj.c ring, PRIORITY insertion | same abstraction; insertion = stable sorted insert; queue sorted as invariant |
| C03 | proved | lock/unlock on an object | invariant over histories, 16-bit wrap explicit |
| C04 | proved | lock/unlock/resume incl. spurious wake-ups | invariant "value>0 -> queue empty"; assertion failure is an explicit outcome shown unreachable |
| C05 | proved | object-level machine with thread states (blocked / holding) | counting invariant over event traces; with spurious resumes refuted |
| C06 | partial | resume half of lock with deadline test | refuted by trace; partial: holds when the woken thread is rescheduled before its deadline |
| C07 | proved | eventsignal / eventbroadcast | by the ring refinement; broadcast loop termination by queue length |
| C08 | proved | partition_wrapper, partition_init ranges | case analysis, prefix sums disjoint |
| C09 | proved | partition_create, create | invariant on the `initialized` flags, induction on histories |
| C10 | proved | pok_sched_part_rr | loop invariant on the cyclic scan |
| C11 | proved | pok_sched_part_rr iterated | cyclic distance argument: the elected thread is the first eligible one in cyclic order; induction |
| C12 | proved | pok_sched_part_static | loop invariant on running maximum |
| C13 | partial | pok_sched_part_rms + insertion sort | sortedness + scan order; refuted for infinite period (-1 sorts first) |
| C14 | partial | pok_thread_insert_sort, partition_thread_create | insertion-sort proof (sorted, permutation); returned id refuted |
| C15 | proved | pok_elect_partition | invariant linking deadline to prefix sums; for all t |
| C16 | partial | pok_elect_partition inside the kernel machine | projection/bisimulation: slot variables are a function of ticks |
| C17 | partial | wake loop of pok_elect_thread | loop lemma + induction over scheduling points |
| C18 | proved | budget code of pok_elect_thread | measure remaining capacity |
| C19 | partial | pok_elect_thread | refuted (budget exhaustion overwrites state); partial for other threads |
| C20 | partial | thread services by id | refuted at id = upper bound; partial for id < upper bound |
| C21 | proved | pok_partition_set_mode | case analysis, then induction on histories |
| C22 | partial | creation services + set_mode | invariant |
| C23 | proved | pok_partition_thread_create | invariant on thread_index, induction |
| C24 | partial | sleep services + wake loop | loop lemma |
| C25 | partial | port ring read/write/send/receive | ring-buffer refinement; refuted because available_size is wrong when off_b < off_e; partial when the data fits |
| C26 | partial | sampling read/write | refinement to last-value register |
| C27 | proved | pok_port_create | invariant: buffers are consecutive slices of the pool |
| C28 | partial | pok_own_port and callers | refuted at id = NB_PORTS (reads one past the table); partial for other ids |
| C29 | partial | flush | frame + routing lemma over the flush loops |
| C30 | proved | pok_check_ptr_in_partition | arithmetic, all 32-bit values |
| C31 | partial | pok_core_syscall, syscall_gate and the handlers as a table of tests and accesses | case analysis over all calls with one lemma on tested ranges; eight calls and the race refuted |
| C32 | partial | uint8 casts in pok_core_syscall | refuted / partial for n <= 255 |
| C33 | partial | sampling_read etc. with lock tracking | refuted for sampling_read; partial for the others |
| C34 | partial | gdt_set_segment | bit-field arithmetic; refuted at several sizes; partial |
| C35 | proved | sbrk, partition_init | induction over partitions |
| C36 | partial | space switch + idle | refuted by a schedule; partial without idle at slot boundaries |
| C37 | proved | selectors | arithmetic |
| C38 | proved | stack addresses | arithmetic |
| C39 | partial | allocator.c | invariant tying the table of spaces to the list of live blocks, for two disciplines of use; refuted by a history |
| C40 | proved | udivdi3 | loop invariant |
| C41 | partial | libc | loop invariants over byte memories |
| C42 | partial | itoa/atoi | digit lists |
| C43 | partial | Caesar | arithmetic; refuted for bytes > 250; partial |
| C44 | proved | DES Feistel network | Feistel inversion generic in round keys; CBC induction |
| C45 | proved | Blowfish | as C44 |
| C46 | proved | processor masks | induction over bits |
| C47 | partial | libpok buffers | ring refinement / refuted |
| C48 | partial | blackboards | refuted (clear ignored) / partial |
| C49 | partial | pit_interrupt | induction on interrupts |
| C50 | proved | printf digits | digit lists |
| C51 | partial | loader.c, memcpy | frame and content lemmas over the segment loop |
| C52 | proved | rendezvous protocol | transition system over n processors, inductive invariant |
| C53 | proved | spin lock | transition system, inductive invariant |
| C54 | partial | services and scheduler across partitions | frame lemma per service, induction on steps |
| C55 | partial | printf return value | counting along the conversion loop; refuted |
| C56 | partial | strcpy, strncpy, streq | loop invariants; refuted in parts |
| C57 | partial | DES and Blowfish marshalling | composition of C44/C45 with the size fields; refuted for lengths other than 8 |
| C58 | partial | DES_check_key_parity, DES_is_weak_key, DES_set_key_checked | word-wise memcmp unfolded; refuted |
| C59 | partial | pok_buffer_id, pok_blackboard_id, streq | scan lemmas; refuted for prefixes |
| C60 | partial | allocator.c | exact characterisation for stack use; refuted otherwise |
| C61 | partial | INB/OUTB, pci_register | arithmetic; refuted |
| C62 | proved | DES_encrypt1, DES_set_key_unchecked, DES_ncbc_encrypt, DES_SPtrans, des_skb | linearity over bits reduces the permutations and the key schedule to a check of single bits by computation; S boxes by exhaustive computation; induction over rounds and blocks |
| C63 | partial | Blowfish: bf_enc.c, bf_skey.c, bf_pi.h, blowfish.c; Spec/BlowfishSpec.v is the published algorithm | subkey arrays related entry by entry; two rounds at a time against the rounds of the algorithm with the states abstract; key schedule by induction over the 521 replacements; first 64 words of the table against Machin's formula by computation |
| C64 | partial | pok_elect_partition with its flush marks under all steps of the kernel machine | the marks evolve by themselves (step lemma over all services), then an invariant tying number of flushes, frame number and marks; instants tracked as in C15 |
| C65 | partial | pok_thread_delayed_start, the start loop of pok_partition_set_mode, wake loop, all under all steps of the kernel machine | a delayed thread of an initialising partition keeps its record (relation over elections and services), one step lemma for the change of mode, then the dormancy lemma of C24 |
| C66 | partial | CREATE_PROCESS, GET_PROCESS_ID, GET_PROCESS_STATUS (name and base priority), GET_MY_ID, process_name_exist; answers of the kernel are arbitrary | the table is the list of created processes shifted by one (invariant over all requests) |
| C67 | partial | SUSPEND, RESUME, STOP, START, DELAYED_START, SET_PRIORITY as programs of system calls over the kernel machine; not preempted between two system calls of one service | inversion of the program, effect of each system call, dormancy lemma of C24 and theorems of C65 for what follows; refutations by computed runs |
| C68 | partial | WAIT_SEMAPHORE, WAIT_EVENT, TIMED_WAIT, queueing ports: conversion of time-outs, and the kernel code below | invariant of a pending call over all histories of lock objects; bounds on 64-bit arithmetic; corollary of C24; concrete runs for the refutations |
| C69 | partial | ArincSync.v, LockSys.v: WAIT_EVENT and SET_EVENT as requests on kernel events | invariant: a thread queued for the event lock stays queued (replay of C02) until a release; witnesses by computation |
| C70 | partial | ArincSync.v: objs, find_from, create_obj, get_obj_id, requests | invariant on the table of granted creations; prefix test related to strncmp of C41; witnesses by computation |
| C71 | partial | ArincPart.v: set_partition_mode as a program on the kernel machine, get_partition_status | C21 for the kernel request, case analysis; witnesses by computation |
| C72 | partial | Libm.v: c_floorf, c_ceilf, c_truncf, c_roundf, c_rintf, c_fpclassifyf; Float.v: fadd, fsub, fmul, fdiv | values as integers in units of the smallest number; rounding relation for the operations; case analysis on the exponent; the sticky bit of rintf by classes of remainders; witness by computation |
| C73 | partial | Libm.v: c_floor, c_ceil, c_trunc, c_round, c_rint, c_fpclassifyd, hi, lo, ins | the same over two 32-bit words; carries between the words; witnesses by computation |
| C74 | partial | fabs, copysign, isnan, isinf, finite and their float versions (Model/Libm.v) | Bit operations turned into division and remainder by powers of two, word by word; witnesses computed. |
| C75 | partial | nextafter.c, nextafterf.c | The code moves a key (pattern with sign as an integer) by one; keys order numbers as values do, so neighbours in key are neighbours in value. |
| C76 | partial | scalbn.c, scalbnf.c, ldexp.c, ldexpf.c | One generic function for both formats (Proof/FloatScale.v), shown equal to the two programs; the product is exact until the last multiplication, which rounds once. |
| C77 | partial | frexp.c, ilogb.c, logb.c, modf.c and their float versions | Subnormals are first scaled up exactly; induction over the shift loop of ilogb; the rest of modf is representable, so the subtraction is exact. |
| C78 | partial | e_sqrtf.c, e_sqrt.c (sqrtf.c, sqrt.c only call them) | The bit-by-bit loop keeps q^2 <= x < (q+r)^2; the double version is the same loop on pairs of words (Proof/LibmSqrtd.v); the last bit with a nonzero rest rounds to nearest, as no root is a halfway case. |
| C79 | partial | e_fmodf.c, e_fmod.c (fmodf.c, fmod.c only call them) | The loop computes X*2^n mod Y on integers (modz_spec); mantissas are scaled from the patterns and back without loss; the double version is the same loop on pairs of words (Proof/LibmModd.v). |
| C80 | partial | e_remainderf.c, e_remainder.c (remainder*.c, drem*.c only call them) | After fmod by 2p every subtraction is between numbers within a factor of two and hence exact (Sterbenz, Proof/FloatRem.v); doubling and halving are exact; two subtractions or none at a tie. |
| C81 | partial | arch/ppc/space.c, arch/ppc/prep/bsp.c (pok_bsp_mem_alloc), the allocation loop of core/partition.c | Invariant over histories: every valid entry of the page table maps a page of the partition named by its VSID; service by a pigeonhole argument over the eight entries of a group, which hold different blocks of 4 MB. |
| C82 | partial | arch/sparc/space.c, space.h, leon3/sparc_conf.h, leon3/bsp.c (pok_bsp_mem_alloc), the allocation loop of core/partition.c | Loop invariants give every word of the three tables after boot; the walk of the reference MMU is then computed for all addresses. |
| C83 | partial | include/arch/x86/interrupt.h (three stubs), ipi.h (the fourth), interrupt.c (update_tss), ipi.c (pok_end_ipi), as lists of instructions of Spec/X86Cpu.v | Each part of a stub is executed symbolically; a record says which words of the frame hold what; the C handler is any function that keeps what the calling convention says. |
| C84 | partial | thread.c (pok_context_switch), space.c (pok_space_context_create, pok_dispatch_space) | Invariant over histories: every thread that does not run has, at its saved stack pointer, the words that POPA and IRET will take, equal to a snapshot of what it had. |
| C85 | partial | arch/x86/event.c, event.h, exceptions.c (table), syscalls.c (pok_syscall_init), arch.c (pok_arch_event_register), ipi.c (pok_ipi_init), pci.c (pci_register), x86-qemu/pit.c and bsp.c (registration) | The bit fields of a descriptor are separated for all values; the table after boot is computed vector by vector for arbitrary handler addresses. |
| C86 | partial | pok_context_reset of the x86 port and its call in pok_thread_delayed_start, on the kernel machine and the processor model | stack invariant of C35 and C84 for where and what, evaluation of boot for the counterexamples |
| C87 | partial | arch/x86/x86-qemu/cons.c with the console configured; pok_cons_write of the SPARC and PowerPC ports; the result of CONSWRITE | refinement of a terminal of 25 x 80 cells; overlapping copy downwards by induction |
| C88 | partial | kernel error declaration, raise and get, the exception handlers' codes, the error system calls, GET_ERROR_STATUS and RAISE_APPLICATION_ERROR, the error log (Model/ErrorHm.v) | Byte-level memory with the layouts of both structures; the codes of the standard and the numbers in memory are defined in Spec/HealthMonitor.v; refutations by computation |
| C89 | partial | libpok/arinc653/sampling.c, queueing.c, CREATE_BLACKBOARD of blackboard.c, on Model/Port.v | Case analysis of the composition of library and kernel; the kernel's results from C26 and the invariant of the ports; concrete runs for the refutations |
| C90 | partial | arch/ppc/entry.S: SAVE_REGS, pok_arch_rfi, the handlers of DSI, ISI, decrementer and system call, instruction by instruction; the other vectors | Symbolic execution of the instruction lists for arbitrary registers and memory; C functions are arbitrary functions that keep what the ABI says; induction over the number of faults |
| C91 | partial | arch/ppc/cswitch.S, thread.c, pok_space_context_create of space.c | Symbolic execution; the frame of a switched thread as a predicate on memory; composition with the exit path of C90 |
| C92 | partial | arch/ppc/timer.c, arch/sparc/leon3/timer.c | Induction over the readings of the handler's loop; Spec/GpTimer.v is the timer of the Leon3 clock by clock, its number of interrupts in closed form |
| C93 | partial | arch/sparc/regwin.S, window trap entries of entry.S | Refinement: a relation between the processor (windows, WIM, save areas in memory) and a machine with one window per call is kept by every instruction; traps by symbolic execution in lemmas per block |
| C94 | partial | arch/sparc/entry.S (trap_prehandler, context_save, context_restore), traps.c, syscalls.c, thread.c, space.c:127-144 | Symbolic execution of the assembly in blocks, loops by induction over the windows; suspend and continue as two lemmas between a running and a waiting program; induction over histories of threads |
| C95 | partial | drivers/rtl8029.c: rtl8029_init, rtl8029_write, ne2000_write, ne2000_read | frames by induction over the pieces of a message; DMA by induction over the bytes |
| C96 | partial | drivers/rtl8029.c: rtl8029_poll, rtl8029_read, rtl8029_enqueue, rtl8029_poll_and_read | invariant over histories: all frames since initialisation and their pages; refutations for all such histories or with computed witnesses |
| C97 | partial | arch/x86/multiprocessing.c, ap.c, ipi.c (pok_send_ipi), the stacks of start_ap.S and entry.S | induction over the entries of a table, the bytes searched and the processors in order of arrival; computed witnesses for refutations |
| C98 | partial | x86-qemu/pic.c, bsp.c (irq_register, irq_acknowledge) | invariant over histories of calls, requests and interrupts; service by induction over the open requests |
| C99 | partial | arch/x86/pci.c (pci_read, pci_open, pci_register), syscall.c (INB, OUTB, PCI_REGISTER) | arithmetic on address words; the search as the first of an ordered list; invariant over histories of calls |
| C100 | partial | arinc653/buffer.c, bufferstatus.c, blackboardstatus.c on the buffers of C47 | Simulation: each granted request of the ARINC specification is a step of the queues of C47, induction over the history |
| C101 | partial | the structures of both sides' headers, the wrappers of lock objects in libpok/core, pok_lockobj_create and pok_lockobj_partition_wrapper, port and error status (Model/Abi.v) | Layout computed by the ABI's rule (Spec/CLayout.v); one lemma on structures without overlap gives reads after writes; refutations by computation |
| C102 | partial | libc/stdlib/rand.c (Model/Rand.v) | 2^j steps of the generator in closed form by induction on j, hence no earlier return; permutation by counting; classes modulo 257 counted |
| C103 | partial | libm/e_scalb.c, e_scalbf.c, significand.c, significandf.c (Model/LibmScalb.v) | one proof for both formats over C76 (scalbn), C77 (ilogb, frexp) and C72/C73 (rint); results of rint are integers everywhere; rounding beyond the cut-off is constant |
| C104 | proved | libm/e_logf.c, e_expf.c, e_acosf.c, … (the tests before the interior; Model/LibmElem.v) | the pattern is split into sign and magnitude; bands of patterns are turned into bands of values by monotonicity, single arguments are computed |
| C105 | partial | libm/e_powf.c, the tests before the interior (Model/LibmPow.v) | odd integers are told by divisibility of the pattern, the exponent adds an even number; zeros and infinities as base are computed for each kind and sign of the exponent |
| C106 | partial | libm/e_atan2f.c, the tests before the interior (Model/LibmAtan2.v) | the function is rewritten in terms of signs and magnitudes; the constants are compared with pi by rounding twenty digits of it |
| C107 | partial | libm/e_hypotf.c (Model/LibmAtan2.v) | the function depends on the greater and the smaller magnitude only; refutation by computation |

## Layers

### Lock objects (Model/LockFifo.v, LockObj.v, LockSys.v; C01-C09)
core/lockobj.c: ring buffer, enqueue (FIFO and by priority), dequeue, removal, create, lock, unlock, event wait, signal,
broadcast, partition_create and partition_wrapper. Spin locks inside are taken as giving atomicity (what they give is C53).
A blocked call is split in two; deadlines are compared with the clock at resumption as in the code, and resumptions
that nobody caused (early wake-ups) are part of the histories.

### Scheduler and thread services (Model/State.v, Sched.v, Kernel.v; C10-C24, C54, C64, C65)
core/sched.c (partition election, thread election, FIFO-less policies RR, RMS and static, budgets, wake-ups, global multi-processor
scheduling loop), core/thread.c, core/partition.c (init, modes, restart), core/error.c (error handler activation), lock services as
seen from threads, memory placement. A step of the machine is one service call by the thread executing on a processor, or one tick. Services
are atomic up to their scheduling point. Not modelled: the context switch itself, the FIFO scheduler stub, EDF/LLF (not in the code), POK_NEEDS_DEBUG output.
The port flushes in pok_elect_partition are in the port layer.

### Ports (Model/Port.v; C25-C29, C32, C33)
middleware/*.c of the kernel: creation, rings, sampling, queueing, flush. The lock of a port is one bit (its queue is C01-C09);
services are atomic up to their blocking points. POK_ERROR_CURRENT_PARTITION callbacks are not modelled (they do not change port state).
Pointers to small results are assumed valid there; the tests on pointers are C30 and C31.

### Memory (Model/Mem.v and the memory parts of Kernel.v; C30, C34-C38)
GDT descriptors bit by bit (arch/x86/gdt.c), pok_check_ptr_in_partition, placement of partitions and stacks (arch/x86/space.c, core/partition.c,
sbrk), enabling and disabling of segments at partition switches. Paging is not used by the code.

### System calls (Model/Syscall.v; C31, C61)
core/syscall.c and arch/x86/syscalls.c as a table: which pointer ranges are tested, which ranges the handler then accesses (longest path, i386 layouts), and
I/O port rights. The argument structure is re-read from the memory of the partition; a change between test and use is a parameter.

### C library (Model/Libc.v; C40-C42, C50, C55, C56)
libc/__udivdi3.c, kernel and libpok mem*, str*, itoa, atoi, printf. Direction flag assumed clear (i386 string instructions); `char` is signed; variable
arguments are a list of 32-bit words; %f of the libpok printf, unknown conversions are not modelled; the strlen of the kernel counts in `int`, kept as u32.

### Cryptography (Model/CryptoTables.v, Crypto.v; C43-C45, C57, C58, C62, C63)
libpok/protocols: Caesar, DES (set_key, encrypt1, CBC), Blowfish (set_key, encrypt, CBC), protocol marshalling. Tables copied by script. The compile-time
variants DES_PTR, DES_UNROLL, BF_PTR2 are not modelled. Initialisation vectors do not overlap the data; lengths are not negative. The uninitialised key
schedule that the code can use is an arbitrary parameter.

### Timer, processors, rendezvous (Model/Timer.v, Smp.v; C46, C49, C52, C53)
arch/x86/x86-qemu/pit.c, bits of core/multiprocessing.c, spinlock.h, the start and switch rendezvous. Memory is sequentially consistent; each step of an
interleaving is one memory access; compiler reordering is not modelled. APIC details are not modelled; processor 0 is the source of the timer.

### Libpok middleware (Model/Middleware.v; C47, C48, C59)
Buffers and blackboards on top of kernel events: operations atomic under the event lock; the result of event creation is a parameter.

### Allocator and loader (Model/Alloc.v, Loader.v; C39, C51, C60)
libpok/core/allocator.c from its initialised table on; pointers are offsets; the entry behind the table is a parameter. core/loader.c and arch/x86/space.c: ELF loading with
the i386 memcpy; pok_partition_error is a flag.

### PowerPC memory (Model/Ppc.v; Spec/PpcMmu.v; C81)
arch/ppc/space.c and the allocation of partitions. Spec/PpcMmu.v is the translation of addresses by a 32-bit PowerPC (segment registers, hashed page table); BAT registers
are taken as invalid, the translation look-aside buffer as coherent with the page table. Contents of segment registers and memory at boot are parameters.

### PowerPC exceptions and threads (Model/PpcEntry.v, PpcThread.v; Spec/PpcCpu.v; C90, C91)
The handlers of entry.S, pok_arch_rfi, pok_context_switch, pok_arch_thread_start and the creation of contexts, instruction by instruction, on a processor with general registers, special registers, MSR and memory as words
(Programming Environments Manual). A branch to the endless loop `failed` is the outcome None. C functions called by a handler are any function that keeps what the System V ABI says. Wrapping of addresses, translation while the
kernel runs (it is off), floating point, reservation and caches are not modelled, nor is the reset vector. The port does not compile at this commit (space.c:62 against include/arch.h:72); the model follows the definitions.

### Timers of the other boards (Model/BoardTimer.v; Spec/GpTimer.v; C92)
The decrementer of the PowerPC board and the timer of the Leon3 (GRLIB manual). The time base is a parameter (the readings); that the inline assembly of get_ppc_tb, which is not volatile, is executed where it is written is assumed.

### SPARC memory (Model/Sparc.v; Spec/SparcMmu.v; C82)
arch/sparc/space.c, its constants and the allocation of partitions. Spec/SparcMmu.v is the table walk of the SPARC V8 reference MMU with 32-bit physical addresses; the addresses that the
linker gives to the tables are parameters. Caches, look-aside buffers and the bypass ASI are not modelled.

### SPARC windows (Model/SparcEntry.v; Spec/SparcCpu.v, SparcWindows.v; C93)
Spec/SparcCpu.v is the processor as far as the trap code uses it: eight windows of sixteen registers, PSR, WIM, Y, word memory with access rights. Delayed writes of PSR and WIM
are left out (the code fills the delays). Spec/SparcWindows.v is the machine a program believes in: one window per call, registers and memory words unspecified until written.
Floating-point registers are not modelled.

### SPARC traps and threads (Model/SparcTrap.v; Spec/SparcThreads.v; C94)
The common trap path of entry.S, instruction by instruction on the processor of Spec/SparcCpu.v, with trap_handler, pok_arch_sc_int, pok_context_switch and the functions that prepare
threads. The C code between the two assembly parts is one step (a parameter with a contract: same window, mode and stack contents); its own window traps are left out. All threads live in one
address space with separate words, as the threads of one partition do; the exchange of address spaces is that of C82. Debugging output is left out.

### Network driver (Model/Rtl8029.v; Spec/Ne2000.v, Spec/NetSpec.v; C95, C96)
kernel/drivers/rtl8029.c on an NE2000 card (data sheets of the DP8390 and of the RTL8029AS): pages of registers, remote DMA with bytes, the receive ring, transmission in no time. The registers TCR, RCR, DCR and
IMR, the interrupt, and collisions are left out; a frame arrives at once, between two calls of the driver. What the card stores as a frame may or may not include the check bytes. rtl8029_clear and the
discovery by PCI are not modelled. The file does not compile at this commit (sndlen is declared nowhere): it is taken as a local variable. What pok_port_virtual_destination answers is a parameter.

### Console (Model/Console.v; Spec/Terminal.v, Spec/ConsoleSpec.v; C87)
arch/x86/x86-qemu/cons.c with POK_NEEDS_CONSOLE and POK_NEEDS_DEBUG. The spin lock, the wait for the serial line, the hardware cursor and the set-up of the serial line
are left out; memory at 0xb8000 is ordinary memory.

### Health monitoring (Model/ErrorHm.v; Spec/HealthMonitor.v; C88)
kernel/core/error.c, the handlers of exceptions.c, the error system calls, libpok/arinc653/error.c and core/errorlog.c without POK_NEEDS_DEBUG. Memory of the partition is a map from its
addresses to bytes; structures have the i386 layout; memcpy copies at once. The switch to the handler is its thread number (the scheduler is in Model/Kernel.v). The creation of processes is reduced to the counting of threads and identifiers.

### x86 entry code (Model/X86Entry.v, Model/X86Idt.v; Spec/X86Cpu.v, Spec/X86Threads.v, Spec/X86Gates.v; C83, C84, C85)
The assembly stubs of interrupts, exceptions, system calls and inter-processor interrupts, pok_context_switch, pok_space_context_create and pok_dispatch_space, instruction by instruction, on a
processor (Spec/X86Cpu.v) with general registers, segment registers with hidden base and level, flags, one opaque value for the FPU, memory as words, and the table of present descriptors.
Delivery of interrupts through gates, IRET to the same and to an outer level, PUSHA and POPA follow the Intel manual. C functions called by a stub are any function that keeps what the calling
convention says (and, as other threads may have run meanwhile, returns with the same descriptors present). Segment limits, single-step and nested-task flags, I/O permission, alignment of
stack pointers, and faults while a frame is pushed are not modelled. Model/X86Idt.v is the interrupt descriptor table as the boot code and pci_register write it; Spec/X86Gates.v is the processor's reading of it. Model/X86Reset.v (C86) is pok_context_reset, which writes to linear memory; Model/Kernel.v leaves these writes out, so the theorems on the kernel machine hold as long as the words hit neither its tables nor its code (C86 shows that they can). For pok_end_ipi the translation by the compiler (address loaded into eax, through ds) is assumed.

### Mathematical library (Model/Float.v, Libm.v, LibmRoot.v; Spec/Ieee.v, LibmSpec.v; C72-C80)
libpok/libm, the functions that work on the bits: fabs, copysign, isnan, isinf, finite, fpclassify, floor, ceil, trunc, rint, round, modf, frexp, ilogb, logb, scalbn, ldexp, nextafter, sqrt, fmod, remainder, scalb (the part __ieee754_scalb, without the wrapper that reports errors), significand, for float and for double. Of logf, log2f, log10f, expf, acosf, asinf, atanf, acoshf, atanhf, coshf, sinhf, tanhf, cbrtf, sinf, cosf, tanf (Model/LibmElem.v, C104), powf (Model/LibmPow.v, C105) and atan2f (Model/LibmAtan2.v, C106) the tests at the beginning are modelled; the computation after them is an arbitrary function. hypotf (C107) is modelled as a whole. A number is its bit pattern.
Model/Float.v is an assumption about the processor: every operation on floats (doubles) is done in that format and rounded to nearest even; C72_arithmetic proves that the definitions do what IEEE 754 says. The excess precision of the x87 unit, exception flags, other rounding modes and signalling of NaN are not modelled; which NaN comes out is fixed but no theorem uses it.
Left shifts of signed integers wrap (GCC). For double the byte order is a parameter: the union of math_private.h always has the less significant word first.
Spec/Ieee.v states formats, values and rounding from the standard; values are integers in units of the smallest positive number of the format.

### ARINC 653 interface (Model/Arinc.v, ArincSync.v, ArincPart.v, ArincPort.v; C66-C71, C89)
libpok/arinc653/process.c and arincutils.c. Process names are lists of characters (strcmp is equality, C41), the answers of the kernel arbitrary in C66.
The process services of C67 are programs of system calls executed on the kernel machine; between two system calls of one service nothing else
happens, between services anything may. The content of uninitialised local variables is a parameter.
Model/ArincSync.v: semaphores and events (names, identifiers, the kernel request that each service makes, return codes) and the time-outs of semaphores, events, queueing ports and TIMED_WAIT;
the kernel objects behind them are those of Model/LockSys.v. Model/ArincPart.v: SET_PARTITION_MODE and GET_PARTITION_STATUS. Model/ArincPort.v: the services of sampling and queueing ports and the identifier of CREATE_BLACKBOARD, on the ports of Model/Port.v; names are numbers, uninitialised variables parameters, signed products wrap.

### ARINC buffers (Model/ArincBuffer.v; Spec/ArincBuffer.v; C100)
libpok/arinc653/buffer.c and the status functions of buffers and blackboards, on Model/Middleware.v. Spec/ArincBuffer.v is the behaviour that ARINC 653 Part 1 gives to the services, with its codes. The field discipline of a buffer is written and never read
in the code and is left out. A service that waits is the outcome Blocks; what it does when the wait ends with an error is apex_woken.

### Start of the processors (Model/MpBoot.v; Spec/MpTable.v; C97)
arch/x86/multiprocessing.c, ap.c, ipi.c (pok_send_ipi) and the stack addresses of start_ap.S and x86-qemu/entry.S. Memory is a function from addresses to bytes. The specification is the layout of the
MultiProcessor Specification 1.4 and the command register of the local APIC (Intel SDM). Processors pass the spin lock of main_ap one at a time (mutual exclusion of spin locks is in the multiprocessor properties), so an
execution is an order of arrival. Not modelled: the waits with the PIT, enabling the APIC through its MSR, the copy of the real-mode code and the change to protected mode, GDT and events of the other processors (C85), debug output.

### Interrupt controllers (Model/Pic.v; Spec/Pic8259.v; C98)
x86-qemu/pic.c and the registration of bsp.c. The specification is two 8259A controllers in cascade, edge-triggered, fully nested, without rotation of priorities and special modes; what was in service before initialisation stays in
service there. The handlers of vectors are numbers; the descriptors themselves are C85. Not modelled: spurious interrupts of a request that is withdrawn.

### PCI and ports of partitions (Model/Pci.v; Spec/Pci.v; C99)
arch/x86/pci.c and the system calls INB, OUTB and PCI_REGISTER of core/syscall.c. The specification is the layout of the configuration space (PCI Local Bus Specification), a function from bus, device, function and offset to bytes
that does not change. The test of the pointer argument is in C31; the gate that pci_register sets is C85. Not modelled: the assembly stub pci_handler.

### The boundary between partitions and kernel (Model/Abi.v; Spec/CLayout.v; C101)
The structures of the headers of kernel and libpok as lists of fields, laid out by the rule of the System V ABI for the Intel 386, and the functions that fill and read them. Memory is a function from addresses to bytes; addresses do not wrap
around; kernel and partition see a structure at the same address (the base address of the partition is added on one side and is that of the segment on the other). The attributes of pok_lockobj_lock and the objects themselves are those of the kernel machine.

## Not modelled

The reset paths of the SPARC and PowerPC ports, boot, hardware drivers (serial line, enabling of the APIC), 
the compiler, caches and weak memory, instrumentation, the Ada bindings, the parts of the ARINC 653 interface not named above, the functions of libm not named above (the interior of the elementary functions, their versions for double, and the other transcendental functions), gettimeofday, SSL/other protocols not named above.

## Trusted base

* Coq 8.16.1 kernel (`coqc`, cross-checked with `coqchk`).
* Axioms: none of our own, none of the standard library; see the last section. `coqchk` names seven constants `Coq.ssr.ssrunder.Under_rel.*`: they are parameters of a module type of the standard library that is loaded with `List` and `Lia`; no theorem depends on them.
* The hand translation from C to Gallina. The citation comments are there to make it auditable; simplifications are named in the comment of the definition concerned.
* The statements in `Spec/` and `Props/` say what the English claims say.

## What Print Assumptions prints

622 theorems are named in MANIFEST.json. For 622 of them `Print Assumptions` prints `Closed under the global context` (no axiom at all).

The list, by property (all closed unless listed above):

* C01: `C01_fifo_order`
* C02: `C02_priority_order`, `C02_event_order`
* C03: `C03_value_range`, `C03_zero_maximum_refuted`
* C04: `C04_never_fails`, `C04_no_idle_resource`
* C05: `C05_mutual_exclusion`, `C05_disturbed_refuted`
* C06: `C06_release_lost_refuted`, `C06_release_reaches_waiter_partial`
* C07: `C07_signal`, `C07_broadcast`, `C07_terminates`
* C08: `C08_operation`, `C08_foreign_objects`, `C08_ranges_disjoint`
* C09: `C09_creation`, `C09_exhausted`, `C09_granted`, `C09_distinct`
* C10: `C10_round_robin`, `C10_machine`
* C11: `C11_round_robin_fair`
* C12: `C12_static_priority`, `C12_machine`
* C13: `C13_smallest_period_refuted`, `C13_sound`, `C13_smallest_period_partial`
* C14: `C14_sorted`, `C14_permutation`, `C14_returned_id_refuted`, `C14_returned_id_partial`
* C15: `C15_slot_owner`, `C15_slot_exact`, `C15_only_owner_executes`
* C16: `C16_temporal_isolation_partial`, `C85_clock_refuted`
* C17: `C17_activation`, `C17_no_drift`, `C17_not_early_refuted`, `C17_not_early_partial`
* C18: `C18_budget`, `C18_exhausted`
* C19: `C19_only_ready_refuted`, `C19_only_ready_partial`, `C19_starts_ready_partial`, `C19_stays_blocked_refuted`, `C19_stays_blocked_partial`, `C19_stays_blocked_run_partial`
* C20: `C20_own_threads_refuted`, `C20_own_threads_partial`, `C20_foreign_refused`
* C21: `C21_mode_change`, `C21_request`, `C21_stopped_forever`
* C22: `C22_nothing_created_refuted`, `C22_nothing_created_partial`, `C22_history`
* C23: `C23_identifiers`, `C23_quota`, `C23_refusals`
* C24: `C24_not_early_refuted`, `C24_not_early_partial`, `C24_woken`
* C25: `C25_receive`, `C25_receive_resumed`, `C25_fits_refuted`, `C25_send_refuted`, `C25_send_partial`, `C25_send_resumed_partial`, `C25_channel_partial`
* C26: `C26_read`, `C26_last_refuted`, `C26_channel_partial`
* C27: `C27_disjoint`, `C27_frame`
* C28: `C28_foreign_refuted`, `C28_foreign_partial`, `C28_create`
* C29: `C29_frame`, `C29_frame_all`, `C29_transfer_refuted`, `C29_room_refuted`, `C29_transfer_partial`, `C29_sampling_partial`
* C30: `C30_exact`, `C30_empty`, `C30_physical`, `C30_ports`
* C31: `C31_calls_partial`, `C31_refused`, `C31_others_partial`, `C31_conswrite_refuted`, `C31_getchar_refuted`, `C31_mac_refuted`, `C31_samplingread_refuted`, `C31_lockobj_null_refuted`, `C31_lockobj_size_refuted`, `C31_net_refuted`, `C31_race_refuted`
* C32: `C32_send_refuted`, `C32_write_refuted`, `C32_write_refuted_queueing`, `C32_send_partial`, `C32_send_waited_partial`, `C32_resumed_partial`, `C32_write_partial`
* C33: `C33_released_refuted`, `C33_released_partial`, `C33_resumed`, `C33_never_stuck_partial`
* C34: `C34_refuted`, `C34_megabyte_refuted`, `C34_extent`, `C34_kinds`, `C34_tss`, `C34_partial`
* C35: `C35_disjoint`, `C35_bounds`, `C35_fixed`, `C35_stacks`
* C36: `C36_others_refuted`, `C36_own_refuted`, `C36_present_partial`, `C36_step_partial`, `C36_table`
* C37: `C37_caller`, `C37_dispatch`, `C37_distinct`, `C37_fits`
* C38: `C38_disjoint`, `C38_inside`, `C38_partition`
* C39: `C39_disjoint_refuted`, `C39_isolated_partial`, `C39_stack_partial`, `C39_calloc_refuted`
* C40: `C40_quotient`, `C40_remainder`, `C40_outcomes`
* C41: `C41_memcpy`, `C41_memset`, `C41_strlen`, `C41_strcmp`, `C41_strncmp`, `C41_strcmp_unsigned_refuted`, `C41_memcmp_equal_refuted`, `C41_memcmp_sign_refuted`, `C41_memcmp_partial`
* C42: `C42_refuted`, `C42_largest_refuted`, `C42_partial`, `C42_itoa`, `C42_atoi`, `C42_negative`, `C42_radix`, `C42_numeral_unique`
* C43: `C43_roundtrip_refuted`, `C43_roundtrip_partial`
* C44: `C44_block`, `C44_cbc`
* C45: `C45_block`, `C45_keys`, `C45_cbc`
* C46: `C46_real`, `C46_local`, `C46_bijection`
* C47: `C47_fifo_partial`, `C47_short_refuted`, `C47_order_refuted`, `C47_long_refuted`, `C47_poll_refuted`, `C47_id_refuted`
* C48: `C48_read_partial`, `C48_displayed_partial`, `C48_length_refuted`, `C48_clear_refuted`, `C48_fresh_refuted`
* C49: `C49_quantum_partial`, `C49_drift_partial`, `C49_evenly_refuted`, `C49_no_drift_refuted`
* C50: `C50_printf`, `C50_integer`
* C51: `C51_load_partial`, `C51_reload_partial`, `C51_outside_refuted`, `C51_type_refuted`, `C51_clear_refuted`, `C51_magic_refuted`
* C52: `C52_assertions`, `C52_all_entered`, `C52_switch`, `C52_all_leave`
* C53: `C53_exclusion`, `C53_assertions`, `C53_acquire`, `C53_count`, `C53_foreign_release_refuted`
* C54: `C54_isolation_refuted_by_identifier`, `C54_isolation_refuted_by_signal`, `C54_isolation_partial`
* C55: `C55_refuted`, `C55_partial`
* C56: `C56_strcpy`, `C56_strncpy_partial`, `C56_strncpy_padding_refuted`, `C56_streq_refuted`, `C56_streq_partial`
* C57: `C57_des_refuted`, `C57_blowfish_refuted`, `C57_des_partial`, `C57_blowfish_partial`
* C58: `C58_weak_refuted`, `C58_refused_key_used_refuted`, `C58_check_partial`
* C59: `C59_streq_partial`, `C59_found_partial`, `C59_equal_refuted`, `C59_found_refuted`, `C59_long_refuted`
* C60: `C60_stack_partial`, `C60_leak_refuted`, `C60_beyond_refuted`
* C61: `C61_bounds`, `C61_registered_partial`, `C61_behind_refuted`, `C61_claimed_refuted`, `C61_none_refuted`
* C62: `C62_block`, `C62_cbc`, `C62_marshall`
* C63: `C63_subkeys`, `C63_block`, `C63_marshall`, `C63_cbc`, `C63_pi_partial`
* C64: `C64_frames`, `C64_never_early`, `C64_single_none`, `C64_period_bound`, `C64_period_kept`, `C64_windows`, `C64_none`, `C64_single_refuted`, `C64_period_refuted`
* C65: `C65_not_early_partial`, `C65_periodic_date`, `C65_at_once`, `C65_started`, `C65_normal_partial`, `C65_never_started`, `C65_not_early_refuted`, `C65_normal_refuted`
* C66: `C66_distinct`, `C66_found`, `C66_created`, `C66_inside`, `C66_status_partial`, `C66_status_refuted`, `C66_my_id_refuted`, `C66_empty_refuted`
* C67: `C67_suspend`, `C67_never_resumed`, `C67_resume_effect`, `C67_stop_denied`, `C67_start_refused`, `C67_delay`, `C67_not_early_partial`, `C67_never_started`, `C67_priority`, `C67_resume_refuted`, `C67_lock_refuted`, `C67_stop_refuted`, `C67_not_early_refuted`, `C67_on_time_refuted`
* C68: `C68_sem_infinite`, `C68_sem_not_early_partial`, `C68_sem_on_time_partial`, `C68_sem_short`, `C68_sem_not_early_refuted`, `C68_sem_no_wait_refuted`, `C68_sem_on_time_refuted`, `C68_event_not_early_partial`, `C68_event_no_wait_refuted`, `C68_event_infinite_refuted`, `C68_event_on_time_refuted`, `C68_receive_infinite`, `C68_port_deadline`, `C68_receive_on_time_refuted`, `C68_receive_waits_refuted`, `C68_receive_long_refuted`, `C68_send_infinite_refuted`, `C68_timed_wait_partial`, `C68_timed_wait_refuted`, `C68_timed_wait_long_refuted`
* C69: `C69_always_waits`, `C69_latched_refuted`, `C69_set`, `C69_set_succeeds_refuted`, `C69_all_woken_refuted`, `C69_return_partial`, `C69_stuck`, `C69_return_refuted`
* C70: `C70_strncmp`, `C70_distinct`, `C70_requests`, `C70_created_found`, `C70_found_partial`, `C70_unknown_partial`, `C70_event_refused_partial`, `C70_found_refuted`, `C70_create_refuted`, `C70_unknown_refuted`, `C70_uncreated_refuted`, `C70_event_refused_refuted`, `C70_sem_refused_refuted`, `C70_sem_range_refuted`, `C70_sem_apart_refuted`
* C71: `C71_effect`, `C71_refusals`, `C71_normal`, `C71_idle_refuted`, `C71_cold_refuted`, `C71_warm_refuted`, `C71_codes_refuted`, `C71_mode_partial`, `C71_identifier_partial`, `C71_identifier_refuted`, `C71_duration_refuted`, `C71_period_refuted`, `C71_boot_refuted`
* C72: `C72_arithmetic`, `C72_floorf`, `C72_ceilf`, `C72_truncf`, `C72_roundf`, `C72_special`, `C72_rintf_partial`, `C72_rintf_refuted`
* C73: `C73_floor_partial`, `C73_ceil_partial`, `C73_trunc_partial`, `C73_round_partial`, `C73_special_partial`, `C73_rint_partial`, `C73_rint_refuted`, `C73_big_endian_refuted`
* C74: `C74_sign_float`, `C74_class_float`, `C74_sign_double_partial`, `C74_class_double_partial`, `C74_isnan_refuted`, `C74_big_endian_refuted`
* C75: `C75_nextafterf_partial`, `C75_nextafter_partial`, `C75_equal_refuted`, `C75_big_endian_refuted`
* C76: `C76_float_partial`, `C76_double_partial`, `C76_overflow_refuted`, `C76_big_endian_refuted`
* C77: `C77_frexp_float`, `C77_ilogb_float`, `C77_modf_float_partial`, `C77_logb_float_partial`, `C77_frexp_double_partial`, `C77_ilogb_double_partial`, `C77_modf_double_partial`, `C77_logb_double_partial`, `C77_logb_refuted`, `C77_modf_refuted`, `C77_big_endian_refuted`
* C78: `C78_sqrt_float`, `C78_sqrt_double_partial`, `C78_sqrt_double_refuted`, `C78_big_endian_refuted`
* C79: `C79_fmod_float`, `C79_fmod_double_partial`, `C79_big_endian_refuted`
* C80: `C80_remainder_float`, `C80_remainder_double_partial`, `C80_big_endian_refuted`
* C81: `C81_isolation_partial`, `C81_disjoint`, `C81_service_partial`, `C81_isolation_refuted`, `C81_service_refuted`, `C81_fault_refuted`
* C82: `C82_exact_partial`, `C82_isolation_partial`, `C82_service_partial`, `C82_aligned`, `C82_refused`, `C82_service_refuted`, `C82_isolation_refuted`, `C82_oversize_refuted`
* C83: `C83_interrupt`, `C83_exception`, `C83_syscall`, `C83_frame`, `C83_software_refuted`, `C83_ipi_refuted`, `C83_eoi_refuted`
* C84: `C84_switch`, `C84_snapshot`, `C84_start`, `C84_fpu_refuted`, `C84_fs_refuted`
* C85: `C85_gate`, `C85_boot`, `C85_errorcode`, `C85_open`, `C85_only_syscall_refuted`, `C85_clock_refuted`, `C85_rendezvous_refuted`, `C85_pci_refuted`, `C85_line_refuted`
* C86: `C86_where`, `C86_not_own`, `C86_goes_on`, `C86_restart_cost`, `C86_isolation_refuted`, `C86_kernel_refuted`, `C86_start_refuted`, `C84_start`
* C87: `C87_write`, `C87_safe`, `C87_init`, `C87_serial`, `C87_text_refuted`, `C87_result_refuted`, `C87_serial_result_refuted`
* C88: `C88_fault`, `C88_code_refuted`, `C88_code_wrong`, `C88_unhandled`, `C88_raised`, `C88_none`, `C88_consumed_refuted`, `C88_unhandled_raise_refuted`, `C88_raise_service`, `C88_raise_refused`, `C88_raise_service_refuted`, `C88_overrun`, `C88_text_faults`, `C88_return_code`, `C88_status_refuted`, `C88_process_partial`, `C88_process_refuted`, `C88_log`, `C88_log_refuted`
* C89: `C89_create_sampling_partial`, `C89_refresh_refuted`, `C89_create_queuing_partial`, `C89_queuing_size_refuted`, `C89_queuing_again_refuted`, `C89_refused`, `C89_sampling_id`, `C89_identifier_refuted`, `C89_write_partial`, `C89_write_kind_refuted`, `C89_read`, `C89_status_partial`, `C89_status_refuted`, `C89_empty`, `C89_code_refuted`, `C89_length_refuted`, `C89_queuing_id_refuted`, `C89_queuing_id_stray`, `C89_queuing_status_refuted`, `C89_blackboard_refuted`
* C90: `C90_isi_partial`, `C90_dsi_partial`, `C90_system_call_partial`, `C90_kernel_tick_partial`, `C90_preemption_refuted`, `C90_errors_refuted`, `C90_kernel_faults`, `C90_kernel_stack_refuted`, `C90_exit_refuted`
* C91: `C91_switch`, `C91_start`, `C91_kernel_start_partial`, `C91_idle_refuted`, `C91_tick_refuted`, `C91_reset_extent`, `C91_restart_refuted`, `C91_reset_refuted`
* C92: `C92_time_base`, `C92_time_base_again`, `C92_ppc_counts`, `C92_ppc_ends`, `C92_ppc_late_refuted`, `C92_ppc_units_refuted`, `C92_sparc_period`, `C92_sparc_refuted`
* C93: `C93_windows`, `C93_write_refuted`, `C93_read_refuted`, `C93_halt_refuted`
* C94: `C94_threads_partial`, `C94_context_switch`, `C94_create`, `C94_create_idle`, `C94_syscall`, `C94_full_refuted`, `C94_flags_refuted`, `C94_y_refuted`, `C94_mode_refuted`, `C94_write_refuted`, `C94_halt_refuted`, `C94_exception_refuted`, `C94_software_refuted`, `C94_reset_refuted`
* C95: `C95_write`, `C95_sizes`, `C95_init`, `C95_mac_refuted`, `C95_leak_refuted`
* C96: `C96_history_partial`, `C96_late_refuted`, `C96_endless_refuted`, `C96_wrap_refuted`, `C96_long_refuted`, `C96_check_refuted`, `C96_port_refuted`, `C96_size_refuted`, `C96_count_refuted`, `C96_foreign_refuted`
* C97: `C97_discover`, `C97_alone`, `C97_numbers`, `C97_stacks`, `C97_ipi`, `C97_all`, `C97_handlers`, `C97_single`, `C97_startup`, `C97_schedule_in_order`, `C97_ebda_refuted`, `C97_ebda_start_refuted`, `C97_default_refuted`, `C97_stray_refuted`, `C97_ioapic_refuted`, `C97_unusable_refuted`, `C97_apic_refuted`, `C97_stack_refuted`, `C97_schedule_refuted`
* C98: `C98_init`, `C98_masks`, `C98_interrupt`, `C98_served`, `C98_handler`, `C98_line2_refuted`, `C98_register_refuted`, `C98_vectors_refuted`, `C98_acknowledge_refuted`
* C99: `C99_read`, `C99_open_partial`, `C99_ports_partial`, `C99_register`, `C99_range_refuted`, `C99_port0_refuted`, `C99_last_refuted`, `C99_align_refuted`, `C99_wrap_refuted`, `C99_found_refuted`
* C100: `C100_services_partial`, `C100_refused`, `C100_board_size`, `C100_codes_refuted`, `C100_discipline_refuted`, `C100_room_refuted`, `C100_identifier_refuted`, `C100_status_refuted`, `C100_get_refuted`, `C100_board_empty_refuted`
* C101: `C101_exchange`, `C101_created`, `C101_operations`, `C101_refused`, `C101_timeout_refuted`, `C101_identifier`, `C101_identifier_refuted`, `C101_times`, `C101_times_refuted`, `C101_sampling`, `C101_queueing`, `C101_queueing_refuted`, `C101_error_fields`, `C101_error_refuted`, `C101_kinds`, `C101_kinds_refuted`
* C102: `C102_range`, `C102_states`, `C102_even`, `C102_half`, `C102_period`, `C102_max_refuted`
* C103: `C103_scalb_float`, `C103_scalb_double_partial`, `C103_significand_float`, `C103_significand_double_partial`, `C103_big_endian_refuted`
* C104: `C104_logarithms`, `C104_exponential`, `C104_inverse_trigonometric`, `C104_hyperbolic`, `C104_cube_root`, `C104_trigonometric`
* C105: `C105_zero_and_nan`, `C105_infinite_exponent`, `C105_zero_and_infinite_base`, `C105_negative_base`, `C105_base_one_refuted`
* C106: `C106_atan2_ends`, `C106_atan2_pi_partial`, `C106_atan2_pi_refuted`
* C107: `C107_hypot_ends`, `C107_hypot_refuted`
