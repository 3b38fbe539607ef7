{"id": "C01", "title": "FIFO wait queue serves threads in arrival order", "statement": "For a lock object with FIFO queueing discipline, threads that block on it are woken by successive releases exactly in the order in which they blocked; a thread that leaves the queue because its timeout expired is removed without disturbing the relative order of the others, and no thread is lost, duplicated or invented.", "quantifier": "every number of configured threads, every initial queue position (ring offset) and every finite sequence of block / release / timeout operations in which a thread blocks only while it is not already queued", "why_tests_cant": "the queue is a ring buffer whose head/last indices wrap modulo the number of threads; the interesting states are all (offset, length, removal position) combinations reached after arbitrarily long histories", "anchors": ["kernel/core/lockobj.c: pok_lockobj_fifo_init, pok_lockobj_get_head, pok_lockobj_enqueue, pok_lockobj_dequeue, pok_lockobj_remove_thread, pok_lockobj_lock, pok_lockobj_unlock"]}
{"id": "C02", "title": "Priority wait queue serves highest priority first, FIFO among equals", "statement": "For a lock object with priority queueing discipline (and for the waiters of every event), a release wakes a waiting thread of maximal priority, and among waiters of the same priority the one that has waited longest; no waiter is lost or duplicated.", "quantifier": "every number of threads, every assignment of priorities, every finite sequence of block / release / timeout operations in which a thread blocks only while not already queued and priorities of queued threads are not changed", "why_tests_cant": "depends on the insertion point and on shifting elements across the wrap-around point of the ring for every possible queue content", "anchors": ["kernel/core/lockobj.c: pok_lockobj_enqueue, pok_lockobj_dequeue, pok_lockobj_remove_thread"]}
{"id": "C03", "title": "Semaphore value stays between 0 and its maximum", "statement": "A semaphore created with 0 <= initial value <= maximum value and maximum >= 1 never holds a value above its maximum (nor below zero, nor does its 16-bit counter wrap), whatever sequence of waits, signals and timeouts is executed; a mutex or event never holds a value other than 0 or 1.", "quantifier": "all initial/maximum values, all finite sequences of lock / unlock / timeout operations by any threads, including unbalanced signals", "why_tests_cant": "requires an invariant over unbounded histories; a test exercises a handful of counts", "anchors": ["kernel/core/lockobj.c: pok_lockobj_create, pok_lockobj_lock, pok_lockobj_unlock"]}
{"id": "C04", "title": "No thread waits while a resource is free", "statement": "At every moment, if a lock object has an available resource then no thread is queued on it, so the kernel's internal assertions in lock and unlock never fire.", "quantifier": "all lock-object kinds, disciplines and parameters, all finite operation histories including timeouts, kernel resume of a blocked thread and unbalanced unlocks", "why_tests_cant": "the assertion only fails in a particular interleaving; absence of any such interleaving is an invariant over all histories", "anchors": ["kernel/core/lockobj.c: pok_lockobj_lock (assert line 260), pok_lockobj_unlock (assert line 316)"]}
{"id": "C05", "title": "Acquisitions never exceed initial value plus releases (mutual exclusion)", "statement": "For a lock object whose blocked threads are made ready only by a release of the object or by expiry of their timeout, the number of lock calls that have returned success is at most the initial value plus the number of unlock calls; in particular at most one thread at a time is inside a critical section protected by a mutex.", "quantifier": "all threads, all interleavings of lock (with or without timeout) and unlock calls, all tick values", "why_tests_cant": "mutual exclusion is a safety property of every interleaving", "anchors": ["kernel/core/lockobj.c: pok_lockobj_lock, pok_lockobj_unlock", "kernel/core/sched.c: pok_sched_unlock_thread"]}
{"id": "C06", "title": "A release with a waiter is never lost", "statement": "When a resource is released while some thread is waiting for it, some waiting thread eventually returns success from lock: the release is not swallowed by a waiter that reports a timeout.", "quantifier": "all interleavings of unlock, tick and rescheduling of the woken thread", "why_tests_cant": "the loss needs the woken thread to be rescheduled only at or after its deadline, a timing window tests practically never hit", "anchors": ["kernel/core/lockobj.c: pok_lockobj_lock lines 265-286, pok_lockobj_unlock"]}
{"id": "C07", "title": "Event signal wakes exactly one waiter, broadcast wakes all", "statement": "Signalling an event with waiters makes exactly the most urgent waiter ready and returns success; with no waiter it changes nothing and returns NOTFOUND. Broadcasting makes every waiter ready, leaves no waiter, and always terminates. No thread other than the waiters is made ready.", "quantifier": "all wait-queue contents reachable by waiting threads, all thread states", "why_tests_cant": "quantifies over every queue content and ring offset", "anchors": ["kernel/core/lockobj.c: pok_lockobj_eventwait, pok_lockobj_eventsignal, pok_lockobj_eventbroadcast"]}
{"id": "C08", "title": "Lock objects are isolated between partitions", "statement": "An operation on a lock object requested by a partition with any identifier either is rejected with EINVAL leaving every lock object and every thread unchanged, or touches only a lock object allocated to that partition; ranges allocated to different partitions are disjoint.", "quantifier": "all configurations, all identifiers, operations, object kinds and states", "why_tests_cant": "all 256 identifiers times all configurations and kernel states", "anchors": ["kernel/core/lockobj.c: pok_lockobj_partition_wrapper", "kernel/core/partition.c: pok_partition_init"]}
{"id": "C09", "title": "Lock object creation hands out fresh in-range identifiers only during initialisation", "statement": "A successful creation returns an identifier inside the partition's own range that was not in use and marks it in use; identifiers returned by successive successful creations are pairwise distinct; creation fails outside the INIT modes and when all objects are used, in which case no object changes.", "quantifier": "all configurations, all creation histories", "why_tests_cant": "needs induction over creation histories and configurations", "anchors": ["kernel/core/lockobj.c: pok_lockobj_partition_create, pok_lockobj_create"]}
{"id": "C10", "title": "Round-robin election returns a runnable thread of the partition", "statement": "Under round-robin the elected thread is always either the processor's idle thread or a thread of the partition being scheduled that is runnable and bound to this processor; idle is elected only if no such thread exists.", "quantifier": "all thread tables, ranges, previous/current threads, processors", "why_tests_cant": "the state space of thread tables is unbounded", "anchors": ["kernel/core/sched.c: pok_sched_part_rr"]}
{"id": "C11", "title": "Round-robin is fair", "statement": "If a set of threads of a partition stays runnable, then in successive round-robin elections every such thread is elected again after each of the others has been elected at most once in between (when quanta are exhausted): each runnable thread is elected within n elections, n being the number of runnable threads of the partition on that processor.", "quantifier": "all thread tables, all numbers of threads, all starting points", "why_tests_cant": "fairness is a property of infinite schedules over arbitrary tables", "anchors": ["kernel/core/sched.c: pok_sched_part_rr"]}
{"id": "C12", "title": "Static-priority election picks a thread of maximal priority", "statement": "Under static-priority scheduling the elected thread is runnable, belongs to the partition and processor, and no other eligible thread has a strictly higher priority; when several have the maximal priority the first one in cyclic order after the starting thread is taken; idle is elected only when nothing is eligible.", "quantifier": "all thread tables, ranges, priorities, states, previous/current threads", "why_tests_cant": "universally quantified over tables", "anchors": ["kernel/core/sched.c: pok_sched_part_static"]}
{"id": "C13", "title": "Rate-monotonic election picks a runnable thread with the smallest period", "statement": "Under RMS the elected thread is runnable, eligible and among the eligible user threads none has a strictly smaller period (non-periodic threads counting as having an infinite period).", "quantifier": "all thread tables produced by the creation service", "why_tests_cant": "depends on the table order maintained by insertion sorting on every creation", "anchors": ["kernel/core/sched.c: pok_sched_part_rms", "kernel/core/thread.c: pok_thread_insert_sort"]}
{"id": "C14", "title": "Thread creation keeps the RMS table sorted and loses no thread; returned identifiers stay valid", "statement": "After any sequence of thread creations in an RMS partition the thread table of the partition is ordered by period and is a permutation of the threads created, and the identifier returned to the creator designates the thread it created.", "quantifier": "all sequences of creations with arbitrary periods", "why_tests_cant": "every insertion order matters; tests create threads in one order", "anchors": ["kernel/core/thread.c: pok_thread_insert_sort, pok_partition_thread_create"]}
{"id": "C15", "title": "Partition slots follow the configured cyclic table", "statement": "If the scheduler is entered at every tick, then at every tick t the partition being executed is exactly the one the configured slot table assigns to the position of t inside the major frame: slot boundaries fall at the cumulative sums of the slot durations and the table repeats with the period of the major frame.", "quantifier": "all slot tables with positive durations summing to the major frame, all times", "why_tests_cant": "correctness over unbounded time and arbitrary tables", "anchors": ["kernel/core/sched.c: pok_elect_partition, pok_sched_init, pok_global_sched"]}
{"id": "C16", "title": "Temporal isolation: the partition schedule cannot be influenced by partitions", "statement": "Which partition executes at each tick is a function of the slot table and the tick only: two executions that differ arbitrarily in thread states, partition modes, system calls and additional scheduler invocations inside slots see identical partition windows.", "quantifier": "all pairs of executions with the same configuration and tick sequence", "why_tests_cant": "a two-execution (hyper-) property over unbounded executions", "anchors": ["kernel/core/sched.c: pok_elect_partition, pok_sched_thread, pok_global_sched, pok_elect_thread"]}
{"id": "C17", "title": "Periodic threads are activated without drift", "statement": "A periodic thread waiting for its activation is made ready at the first scheduling point of its partition at or after its activation date, never before it, with its budget refilled to its time capacity, and its next activation date advances by exactly one period each time: the k-th activation date is first + k*period.", "quantifier": "all periods, capacities, times and scheduling-point sequences", "why_tests_cant": "drift accumulates over unbounded executions", "anchors": ["kernel/core/sched.c: pok_elect_thread lines 188-225"]}
{"id": "C18", "title": "CPU budget of a periodic thread is bounded by its capacity", "statement": "Between two activations, a thread with a finite time capacity C is kept or elected by at most C+1 consecutive scheduling elections before it is suspended until its next activation.", "quantifier": "all capacities, periods, election histories", "why_tests_cant": "bounded consumption over arbitrary histories", "anchors": ["kernel/core/sched.c: pok_elect_thread budget code", "kernel/core/sched.c: pok_sched_part_rr"]}
{"id": "C19", "title": "Blocked, sleeping and stopped threads are never executed and stay so until their wake-up event", "statement": "A thread that is stopped, locked, or sleeping is never elected, and scheduling alone changes the state of such a thread only when its wake-up date or activation date has been reached.", "quantifier": "all thread tables, times, scheduler kinds", "why_tests_cant": "quantifies over all tables and histories", "anchors": ["kernel/core/sched.c: pok_elect_thread"]}
{"id": "C20", "title": "Thread services act only on threads of the calling partition", "statement": "A call that designates a thread by identifier (suspend, resume, set priority, get status, stop, restart, delayed start) either fails without changing any thread, or affects only a thread in the calling partition's own range.", "quantifier": "all configurations, all identifiers, all kernel states", "why_tests_cant": "boundary identifiers for every configuration", "anchors": ["kernel/core/thread.c: pok_thread_delayed_start, pok_thread_get_status, pok_thread_set_priority, pok_thread_resume, pok_thread_suspend_target", "kernel/core/partition.c: pok_partition_stop_thread, pok_partition_restart_thread"]}
{"id": "C21", "title": "Partition mode changes follow the ARINC-653 automaton", "statement": "The partition mode only changes along the permitted transitions: a partition in NORMAL mode never goes back to an INIT mode except through a restart request, INIT_COLD never changes directly to INIT_WARM, and a stopped or idle partition never changes its own mode; a refused request changes nothing.", "quantifier": "all modes, all requested modes (including values that are not modes), all calling threads", "why_tests_cant": "all histories of requests", "anchors": ["kernel/core/partition.c: pok_partition_set_mode, pok_partition_set_mode_current, pok_partition_reinit"]}
{"id": "C22", "title": "Nothing can be created once the partition runs", "statement": "While a partition is in NORMAL mode every request to create a thread or lock object fails with a mode error and leaves the kernel state unchanged, and this remains so along every further sequence of requests until the partition leaves NORMAL mode.", "quantifier": "all states, attributes and request histories", "why_tests_cant": "an invariant of unbounded histories", "anchors": ["kernel/core/thread.c: pok_partition_thread_create", "kernel/core/lockobj.c: pok_lockobj_partition_create", "kernel/core/partition.c: pok_partition_set_mode"]}
{"id": "C23", "title": "Thread creation returns distinct identifiers inside the partition's range and respects its quota", "statement": "Successive successful creations in one partition return pairwise distinct identifiers strictly inside the range allocated to the partition (never the identifier of the main thread of any partition), and the creation after the quota is exhausted fails with TOOMANY without changing any thread.", "quantifier": "all configurations and creation histories", "why_tests_cant": "induction on creation histories over all configurations", "anchors": ["kernel/core/thread.c: pok_partition_thread_create", "kernel/core/partition.c: pok_partition_init"]}
{"id": "C24", "title": "A sleeping thread is not woken early and is woken at the first scheduling point after its date", "statement": "A thread that sleeps for d microseconds from time t (or until an absolute date) is not made ready by the scheduler at any time before the requested date, and is ready after the first scheduling of its partition on its processor at or after that date.", "quantifier": "all dates, times, thread tables; dates computed modulo 2^64", "why_tests_cant": "unbounded time", "anchors": ["kernel/core/thread.c: pok_thread_sleep, pok_thread_sleep_until", "kernel/core/sched.c: pok_elect_thread"]}
{"id": "C25", "title": "Queueing ports deliver bytes in order, without loss or corruption", "statement": "The byte stream read from a queueing port equals the byte stream written into it, in order: every send that is accepted appends its bytes after all bytes still unread, and every receive removes the oldest bytes; a send that does not fit in the free space is refused.", "quantifier": "all port sizes, all sequences of sends and receives of arbitrary lengths, all ring offsets", "why_tests_cant": "a refinement of an unbounded queue by a wrapping ring buffer for all histories", "anchors": ["kernel/middleware/portutils.c: pok_port_available_size, pok_port_consumed_size, pok_port_get, pok_port_write", "kernel/middleware/portqueueingsend.c: pok_port_queueing_send", "kernel/middleware/portqueueingreceive.c: pok_port_queueing_receive"]}
{"id": "C26", "title": "Sampling ports deliver the last message and its validity", "statement": "Reading a sampling port returns exactly the bytes of the most recent message stored in it (and repeatedly so, reading does not consume), EMPTY if none was ever stored, and a validity flag that is true exactly when the message is no older than the refresh period.", "quantifier": "all sizes, contents, times and read/write histories", "why_tests_cant": "all histories and all times", "anchors": ["kernel/middleware/portutils.c: pok_port_get, pok_port_write", "kernel/middleware/portsamplingread.c: pok_port_sampling_read", "kernel/middleware/portsamplingwrite.c: pok_port_sampling_write"]}
{"id": "C27", "title": "Port buffers never overlap", "statement": "The byte ranges of the shared kernel pool assigned to different created ports are pairwise disjoint and inside the pool, so that no operation on one port ever alters the contents of another; the pool is never over-committed.", "quantifier": "all creation sequences with arbitrary sizes", "why_tests_cant": "induction over all creation histories", "anchors": ["kernel/middleware/portcreate.c: pok_port_create", "kernel/middleware/queueinit.c: pok_queue_init"]}
{"id": "C28", "title": "A partition can only use its own ports", "statement": "Every port service called with an identifier that is not a port assigned to the calling partition by the configuration fails and leaves all ports and the pool unchanged.", "quantifier": "all configurations, identifiers, services", "why_tests_cant": "all identifiers including the boundary of the port table", "anchors": ["kernel/middleware/portutils.c: pok_own_port", "kernel/middleware/portqueueingsend.c", "kernel/middleware/portqueueingreceive.c", "kernel/middleware/portsamplingread.c", "kernel/middleware/portsamplingwrite.c"]}
{"id": "C29", "title": "Inter-partition channels route data only along configured connections", "statement": "Flushing a partition's ports transfers the pending data of each of its output ports to exactly the configured destination ports that are created with direction IN, and changes no port that is neither an output port of that partition nor one of their configured destinations.", "quantifier": "all channel configurations, port states and contents", "why_tests_cant": "information-flow property over all states", "anchors": ["kernel/middleware/portflushall.c: pok_port_flush_partition, pok_port_flushall"]}
{"id": "C30", "title": "Pointer validation accepts exactly the ranges inside the partition", "statement": "The kernel's check of a user pointer and size accepts a non-empty range if and only if every byte of [ptr, ptr+size) lies inside the memory of the calling partition, for all 32-bit values, without being fooled by arithmetic wrap-around; an empty range is accepted if and only if its start is at most the partition's size.", "quantifier": "all 32-bit base addresses, sizes, pointers and lengths", "why_tests_cant": "2^128 inputs; wrap-around corner cases", "anchors": ["kernel/include/core/partition.h: pok_check_ptr_in_partition", "kernel/core/syscall.c: POK_CHECK_PTR_OR_RETURN"]}
{"id": "C31", "title": "System calls touch user memory only inside the caller's partition", "statement": "Every memory range that a system call reads or writes through a pointer argument lies entirely within the memory of the calling partition, otherwise the call fails with EINVAL without any access.", "quantifier": "all system calls, all argument values, all partitions", "why_tests_cant": "all 32-bit arguments of all calls", "anchors": ["kernel/core/syscall.c: pok_core_syscall"]}
{"id": "C32", "title": "Message lengths are transferred faithfully", "statement": "A message sent or written with length n through the system-call interface transfers exactly n bytes or fails.", "quantifier": "all 32-bit lengths", "why_tests_cant": "truncation shows only above 255", "anchors": ["kernel/core/syscall.c: pok_core_syscall, cases POK_SYSCALL_MIDDLEWARE_SAMPLING_WRITE and POK_SYSCALL_MIDDLEWARE_QUEUEING_SEND"]}
{"id": "C33", "title": "Port services release the port's lock on every path", "statement": "Whenever a port service returns, the port lock it took is free again, so that no later call on the port can block forever.", "quantifier": "all return paths, all port states and arguments", "why_tests_cant": "error paths are numerous and rarely tested", "anchors": ["kernel/middleware/portsamplingread.c: pok_port_sampling_read", "kernel/middleware/portsamplingwrite.c", "kernel/middleware/portqueueingsend.c", "kernel/middleware/portqueueingreceive.c"]}
{"id": "C34", "title": "x86 partition segments cover exactly the partition's memory", "statement": "The descriptor installed for a partition's code or data segment with base b and size s allows access to offset o if and only if o < s.", "quantifier": "all 32-bit bases and sizes", "why_tests_cant": "2^64 descriptor inputs; errors appear at granularity boundaries", "anchors": ["kernel/arch/x86/gdt.c: gdt_set_segment", "kernel/arch/x86/space.c: pok_create_space"]}
{"id": "C35", "title": "Memory of different partitions is disjoint", "statement": "The physical memory ranges assigned to different partitions are pairwise disjoint and lie above all memory used before by the kernel, as long as the total does not exceed the address space.", "quantifier": "all numbers and sizes of partitions", "why_tests_cant": "all configurations", "anchors": ["kernel/arch/x86/x86-qemu/pm.c: pok_x86_pm_sbrk", "kernel/arch/x86/x86-qemu/bsp.c: pok_bsp_mem_alloc", "kernel/core/partition.c: pok_partition_init"]}
{"id": "C36", "title": "Exactly the running partition's segments are present", "statement": "Whenever a thread of partition p executes, the segments of p are present and those of all other partitions are absent.", "quantifier": "all schedules, idle periods and partition tables", "why_tests_cant": "depends on the sequence of context switches", "anchors": ["kernel/arch/x86/space.c: pok_space_switch, pok_create_space", "kernel/core/sched.c: synchro_processors, pok_global_sched, pok_global_sched_context_switch"]}
{"id": "C37", "title": "The kernel identifies the calling partition correctly from its code segment", "statement": "The partition number the system-call gate derives from the saved code-segment selector is the partition to whose segment the selector belongs, for every partition and number of processors.", "quantifier": "all partitions and processor counts within the range of 16-bit selectors", "why_tests_cant": "all configurations", "anchors": ["kernel/arch/x86/syscalls.c: PARTITION_ID", "kernel/arch/x86/gdt.h: GDT_PARTITION_CODE_SEGMENT, GDT_BUILD_SELECTOR"]}
{"id": "C38", "title": "Thread stacks of a partition do not overlap and lie inside its memory", "statement": "The user stacks given to the threads of a partition are pairwise disjoint address ranges inside the partition.", "quantifier": "all partition sizes and thread counts for which the stacks fit", "why_tests_cant": "all configurations", "anchors": ["kernel/arch/x86/arch.c: pok_thread_stack_addr", "kernel/arch/x86/space.c"]}
{"id": "C39", "title": "Dynamic memory allocator returns disjoint live blocks inside the heap", "statement": "Blocks returned by malloc/calloc that have not been freed are pairwise disjoint, lie inside the heap and have at least the requested size, along every sequence of allocations and frees of live blocks.", "quantifier": "all sequences of allocation and free requests", "why_tests_cant": "unbounded histories; fragmentation patterns", "anchors": ["libpok/core/allocator.c: pok_allocator_allocate, pok_allocator_free"]}
{"id": "C40", "title": "64-bit division and modulo are exact", "statement": "For all 64-bit numerators and non-zero denominators the helper routines return the quotient and remainder of Euclidean division; division always terminates.", "quantifier": "all 2^128 operand pairs", "why_tests_cant": "2^128 inputs", "anchors": ["kernel/libc/__udivdi3.c: __udivdi3", "kernel/libc/__umoddi3.c: __umoddi3", "libpok/libc/misc/__udivdi3.c", "libpok/libc/misc/__umoddi3.c"]}
{"id": "C41", "title": "Memory and string primitives meet their C specification", "statement": "memcpy copies exactly n bytes and changes no other byte; memset sets exactly n bytes; strlen returns the index of the first NUL; memcmp and strcmp return zero exactly for equal contents and otherwise the sign of the first difference.", "quantifier": "all lengths and contents", "why_tests_cant": "all lengths and contents", "anchors": ["kernel/libc/memcpy.c: memcpy", "kernel/libc/memset.c: memset", "kernel/libc/strlen.c: strlen", "kernel/libc/strcmp.c: strcmp, strncmp", "libpok/libc/string/memcmp.c: memcmp", "libpok/libc/string/strcmp.c: strcmp"]}
{"id": "C42", "title": "Decimal conversion round trip", "statement": "Converting a 32-bit integer to decimal text and parsing the text returns the integer.", "quantifier": "all 2^32 integers", "why_tests_cant": "2^32 inputs and sign corner cases", "anchors": ["libpok/libc/string/itoa.c: itoa", "libpok/libc/string/atoi.c: atoi"]}
{"id": "C43", "title": "Caesar protocol round trip", "statement": "Unmarshalling a message marshalled by the Caesar protocol yields the original message.", "quantifier": "all messages of all lengths", "why_tests_cant": "all byte values", "anchors": ["libpok/protocols/ceasar/ceasar.c: pok_protocols_ceasar_marshall, pok_protocols_ceasar_unmarshall"]}
{"id": "C44", "title": "DES decryption inverts encryption", "statement": "For every key schedule and every 64-bit block, decrypting an encrypted block returns the block; the CBC mode used by the protocol returns the original message for every message, key and initialisation vector.", "quantifier": "all keys, blocks, IVs, messages", "why_tests_cant": "2^64 blocks times 2^56 keys", "anchors": ["libpok/protocols/des/des_enc.c: DES_encrypt1", "libpok/protocols/des/ncbc_enc.c: DES_ncbc_encrypt", "libpok/protocols/des/des.c: pok_protocols_des_marshall, pok_protocols_des_unmarshall"]}
{"id": "C45", "title": "Blowfish decryption inverts encryption", "statement": "For every key and every block, decrypting an encrypted block returns the block, and CBC decryption inverts CBC encryption for every message.", "quantifier": "all keys, blocks, messages", "why_tests_cant": "2^64 blocks times all keys", "anchors": ["libpok/protocols/blowfish/bf_enc.c: BF_encrypt, BF_decrypt, BF_cbc_encrypt"]}
{"id": "C46", "title": "Processor numbering is a bijection", "statement": "Translating a partition-local processor number to the physical one and back returns the number, for every affinity mask, and translated processors belong to the mask.", "quantifier": "all processor masks and processor numbers", "why_tests_cant": "all masks", "anchors": ["kernel/core/multiprocessing.c: pok_get_proc_real_id, pok_get_proc_partition_id"]}
{"id": "C47", "title": "Buffers of a partition deliver messages in order", "statement": "The intra-partition buffer service delivers messages in the order sent, unaltered, and refuses a message when full.", "quantifier": "all buffer sizes, message histories", "why_tests_cant": "all histories and ring positions", "anchors": ["libpok/middleware/buffersend.c: pok_buffer_send", "libpok/middleware/bufferreceive.c: pok_buffer_receive", "libpok/middleware/buffercreate.c: pok_buffer_create"]}
{"id": "C48", "title": "Blackboards return the last displayed message", "statement": "Reading a blackboard returns the last message displayed, and after clearing it reports empty until the next display.", "quantifier": "all display/clear/read histories", "why_tests_cant": "all histories", "anchors": ["libpok/middleware/blackboarddisplay.c: pok_blackboard_display", "libpok/middleware/blackboardread.c: pok_blackboard_read", "libpok/middleware/blackboardclear.c: pok_blackboard_clear", "libpok/middleware/blackboardcreate.c: pok_blackboard_create"]}
{"id": "C49", "title": "Timer interrupts produce one scheduler quantum every fixed number of ticks", "statement": "The timer interrupt advances the tick counter by one per interrupt and invokes the scheduler on exactly one interrupt in every quantum, with no drift.", "quantifier": "all numbers of interrupts", "why_tests_cant": "unbounded time", "anchors": ["kernel/arch/x86/x86-qemu/pit.c: pit_interrupt"]}
{"id": "C50", "title": "printf renders integers exactly", "statement": "The kernel printf renders every 32-bit integer in the requested base as its canonical numeral.", "quantifier": "all 2^32 integers and bases 2..16", "why_tests_cant": "2^32 inputs", "anchors": ["kernel/libc/printf.c: print_int, my_printnbr_base"]}
{"id": "C51", "title": "ELF loading stays inside the partition and copies the file image", "statement": "Loading a partition binary writes exactly the loadable segments' bytes at their addresses followed by zeros up to their memory size, and nothing outside the partition's memory.", "quantifier": "all program headers", "why_tests_cant": "malformed headers", "anchors": ["kernel/core/loader.c: pok_loader_elf_load, pok_loader_load_partition"]}
{"id": "C52", "title": "Processor rendezvous releases all processors and only when all have arrived", "statement": "No processor leaves the scheduling rendezvous before every processor has entered it, and once all have entered all can leave.", "quantifier": "all interleavings of any number of processors", "why_tests_cant": "all interleavings", "anchors": ["kernel/core/sched.c: synchro_processors", "kernel/include/arch/x86/rendezvous.h"]}
{"id": "C53", "title": "Spin locks provide mutual exclusion", "statement": "At most one processor at a time is between acquiring and releasing a spin lock.", "quantifier": "all interleavings of any number of processors", "why_tests_cant": "all interleavings", "anchors": ["kernel/include/arch/x86/spinlock.h"]}
{"id": "C54", "title": "Threads of partitions that do not execute are left alone", "statement": "Whatever the kernel does on behalf of one partition (any service call with any arguments, any interrupt, any scheduling), the kernel data of every thread of a partition that is current neither before nor after the step is unchanged: no partition can stop, wake, delay or modify a thread of another.", "quantifier": "all configurations, all reachable kernel states, all calls and interrupts", "why_tests_cant": "quantifies over every call with every argument in every reachable state; one foreign field changed in one corner case breaks it", "anchors": ["kernel/core/thread.c", "kernel/core/lockobj.c: pok_lockobj_eventsignal, pok_lockobj_eventbroadcast", "kernel/core/sched.c: pok_elect_thread", "kernel/core/partition.c"]}
{"id": "C55", "title": "printf returns the number of characters it writes", "statement": "The result of printf is the number of characters given to the console.", "quantifier": "all formats, arguments and output lengths", "why_tests_cant": "tests look at the output, not at the result", "anchors": ["kernel/libc/printf.c: vprintf, my_printnbr_base, print_int", "libpok/libc/stdio/printf.c"]}
{"id": "C56", "title": "String copies are exact and string equality is decided", "statement": "strcpy copies a string including its NUL and changes no other byte; strncpy writes exactly the given number of bytes, padded with zeros; streq answers 1 exactly for equal strings.", "quantifier": "all strings, positions and sizes", "why_tests_cant": "off-by-one and length-modulo-256 errors show only for particular lengths", "anchors": ["libpok/libc/string/strcpy.c: strcpy, strncpy", "libpok/libc/string/streq.c: streq"]}
{"id": "C57", "title": "DES and Blowfish protocols give back the message and its length", "statement": "Unmarshalling what the DES or the Blowfish protocol marshalled yields the original bytes and the original size.", "quantifier": "all keys the check accepts, all messages of all lengths, all buffer positions", "why_tests_cant": "tests use messages of one block; the claim concerns every length", "anchors": ["libpok/protocols/des/des.c: pok_protocols_des_marshall, pok_protocols_des_unmarshall", "libpok/protocols/blowfish/blowfish.c: pok_protocols_blowfish_marshall, pok_protocols_blowfish_unmarshall", "libpok/protocols/blowfish/bf_skey.c: BF_set_key"]}
{"id": "C58", "title": "DES keys are accepted exactly if they have odd parity and are not weak", "statement": "DES_set_key_checked accepts a key and computes its schedule exactly if all its bytes have an odd number of one bits and the key is not one of the sixteen weak keys; a key that is refused is not used to encrypt.", "quantifier": "all keys, all memory contents around them", "why_tests_cant": "the outcome depends on bytes outside the key, which tests do not vary", "anchors": ["libpok/protocols/des/set_key.c: DES_check_key_parity, DES_is_weak_key, DES_set_key_checked", "libpok/libc/string/memcmp.c: memcmp"]}
{"id": "C59", "title": "Names find the object configured under them", "statement": "Looking up a buffer or a blackboard by its configured name yields the object of that name and no other.", "quantifier": "all sets of different names, all names", "why_tests_cant": "depends on pairs of names of which one begins the other, or on lengths of 256, which generated configurations do not contain", "anchors": ["libpok/libc/string/streq.c: streq", "libpok/middleware/bufferid.c: pok_buffer_id", "libpok/middleware/blackboardid.c: pok_blackboard_id", "libpok/middleware/buffercreate.c: pok_buffer_create", "libpok/middleware/blackboardcreate.c: pok_blackboard_create"]}
{"id": "C60", "title": "Freed memory can be allocated again", "statement": "When no block is live the whole heap of a partition can be allocated, and a request is granted if enough memory is free for it.", "quantifier": "all sequences of allocations and frees, all heap sizes and table sizes", "why_tests_cant": "lost space shows only after particular orders of frees", "anchors": ["libpok/core/allocator.c: pok_allocator_allocate, pok_allocator_free, pok_allocator_merge_space, pok_allocator_delete_space"]}
{"id": "C61", "title": "Partitions access only the I/O ports of their device", "statement": "The I/O port calls of a partition reach exactly the ports of the device registered for it, and none if there is no such device.", "quantifier": "all arguments, all devices, all registration structures", "why_tests_cant": "all 32-bit port numbers; the bounds come from data of the partition", "anchors": ["kernel/core/syscall.c: pok_core_syscall", "kernel/arch/x86/pci.c: pci_register, pci_open"]}
{"id": "C62", "title": "The DES code computes the Data Encryption Standard", "statement": "For every key and every block the code writes the cipher (or, deciphering, the plain text) that FIPS PUB 46-3 defines; messages are chained as in FIPS PUB 81 with the last block filled up with zeros.", "quantifier": "all 2^64 keys, all 2^64 blocks, messages of all lengths, all buffers", "why_tests_cant": "a wrong entry in the merged S-box tables or in the tables of the key schedule shows in a fraction of the keys and blocks only; there are 2^128 pairs", "anchors": ["libpok/protocols/des/des_enc.c: DES_encrypt1", "libpok/protocols/des/set_key.c: DES_set_key_unchecked", "libpok/protocols/des/spr.h: DES_SPtrans", "libpok/protocols/des/ncbc_enc.c: DES_ncbc_encrypt", "libpok/protocols/des/des.c: pok_protocols_des_marshall"]}
{"id": "C63", "title": "The Blowfish code computes the published cipher", "statement": "For every key of 1 to 72 bytes BF_set_key leaves in every entry of P and S the value that the published key schedule gives; for every block the bytes written by BF_ecb_encrypt, and by the Blowfish protocol's marshalling and unmarshalling functions, are the published cipher (its inverse) of the bytes read; BF_cbc_encrypt chains the blocks of a message of any length, the last one filled up with zeros; and the table bf_init holds the fraction of pi.", "quantifier": "all keys, blocks, memories, lengths, vectors and buffer positions that do not overlap harmfully", "why_tests_cant": "2^64 blocks and up to 2^576 keys; the round trip tests of the example programs accept any invertible function in place of the cipher.", "anchors": ["libpok/protocols/blowfish/bf_enc.c: BF_encrypt, BF_decrypt, BF_cbc_encrypt, BF_ecb_encrypt", "libpok/protocols/blowfish/bf_skey.c: BF_set_key", "libpok/protocols/blowfish/bf_pi.h: bf_init", "libpok/protocols/blowfish/blowfish.c: pok_protocols_blowfish_marshall, pok_protocols_blowfish_unmarshall"]}
{"id": "C64", "title": "Ports are flushed once per major frame", "statement": "With several partitions and timely timer interrupts the number of flushes of all ports equals the number of completed major frames (seen from an instant since the last timer interrupt); it never exceeds it whatever happens. With a flush period the number of flushes follows the period; with flushing on windows exactly the ports of the partition that leaves are flushed at every partition switch.", "quantifier": "all supported deployments, all flush policies, all histories of ticks, interrupts and system calls", "why_tests_cant": "system calls elect partitions as well as timer interrupts, at any instant and on any processor; a double or a missed flush needs a particular interleaving", "anchors": ["kernel/core/sched.c: pok_elect_partition", "kernel/core/sched.c: pok_global_sched", "kernel/core/sched.c: pok_sched_init"]}
{"id": "C65", "title": "A delayed thread does not start before its delay has passed", "statement": "A thread whose start is delayed while its partition initialises itself is not ready and executes nowhere until the delay, counted from the change to NORMAL mode, has passed, and is ready at the first scheduling of its partition on its processor afterwards; without delay it is ready at once. The same holds from the request on for a thread delayed in NORMAL mode.", "quantifier": "all supported deployments, all created threads, all delays that fit the clock, all histories of the initialisation and of the time afterwards that do not designate the thread", "why_tests_cant": "the delay is stored in the wake-up field until the change of mode and converted there; interference by other services, partitions and processors in between cannot be enumerated", "anchors": ["kernel/core/thread.c: pok_thread_delayed_start", "kernel/core/partition.c: pok_partition_set_mode", "kernel/core/sched.c: pok_elect_thread"]}
{"id": "C66", "title": "ARINC process names and identifiers", "statement": "No two processes of a partition have the same name; GET_PROCESS_ID gives the n-th created process the identifier n and knows no other names; CREATE_PROCESS refuses a taken name, a priority outside 1..63 and whatever the kernel refuses without changing the tables, and writes inside the tables as long as the kernel grants fewer threads than they have entries; GET_PROCESS_STATUS reports the name and base priority given at creation, GET_MY_ID the identifier.", "quantifier": "all sequences of CREATE_PROCESS and GET_PROCESS_ID, all names, priorities and answers of the kernel, all table sizes", "why_tests_cant": "names are arbitrary strings and the tables are indexed partly by the process and partly by the kernel thread, which agree in the first partition only", "anchors": ["libpok/arinc653/process.c: CREATE_PROCESS, GET_PROCESS_ID, GET_PROCESS_STATUS, GET_MY_ID", "libpok/arinc653/arincutils.c: process_name_exist"]}
{"id": "C67", "title": "ARINC process services act on the designated process as specified", "statement": "SUSPEND, RESUME, STOP, START, DELAYED_START and SET_PRIORITY that return an error change nothing; SUSPEND stops exactly the designated process and RESUME makes a suspended process ready again, and no process that waits for a lock object; STOP stops exactly the designated process; DELAYED_START starts it after the given delay in nanoseconds, neither earlier nor later; SET_PRIORITY gives it a priority from 1 to 63.", "quantifier": "all supported deployments, all reachable kernel states, all processes of the caller's partition, all arguments and delays, all histories between two services that do not designate the process", "why_tests_cant": "each service is a sequence of system calls whose codes, states and units are those of the kernel and not of ARINC 653; the effect on a process shows only later, in an unbounded set of schedules", "anchors": ["libpok/arinc653/process.c: SUSPEND, RESUME, STOP, START, DELAYED_START, SET_PRIORITY", "kernel/core/thread.c", "kernel/core/partition.c: pok_partition_stop_thread"]}
{"id": "C68", "title": "ARINC time-outs are kept", "statement": "A time-out of 0 does not wait, INFINITE_TIME_VALUE never times out, and any other time-out of T nanoseconds of WAIT_SEMAPHORE, WAIT_EVENT, SEND_QUEUING_MESSAGE, RECEIVE_QUEUING_MESSAGE and TIMED_WAIT ends the wait T nanoseconds after the call and not before.", "quantifier": "all time-outs, all times, all histories of lock objects under any scheduler and any number of processors (semaphores, events), all reachable states of the ports, all supported deployments and reachable kernel states (TIMED_WAIT)", "why_tests_cant": "64-bit times: the units, the roundings and the wrap-arounds show only at values that are minutes or centuries long, and a wait that never ends cannot be observed", "anchors": ["libpok/arinc653/semaphore.c: WAIT_SEMAPHORE", "libpok/arinc653/event.c: WAIT_EVENT", "libpok/arinc653/queueing.c", "libpok/arinc653/time.c: TIMED_WAIT", "libpok/core/semwait.c", "libpok/core/eventwait.c", "libpok/core/threadsleep.c", "kernel/core/lockobj.c", "kernel/middleware/portqueueingreceive.c", "kernel/middleware/portqueueingsend.c"]}
{"id": "C69", "title": "ARINC events keep their state and wake their waiters", "statement": "SET_EVENT makes every process that waits for the event ready and lets later WAIT_EVENT calls return at once until RESET_EVENT; a process that has been made ready returns from WAIT_EVENT with NO_ERROR.", "quantifier": "every history of calls, time-outs and dispatching of any number of threads, every event, every priority order", "why_tests_cant": "The failures need particular interleavings: two waiters and two SET_EVENT calls before the second waiter is dispatched leave it stuck; a test with one waiter that waits before the event is set passes.", "anchors": ["libpok/arinc653/event.c:87-154", "kernel/core/lockobj.c:158-229"]}
{"id": "C70", "title": "ARINC semaphore and event names and identifiers designate one object", "statement": "CREATE gives every semaphore or event an identifier of its own; GET_..._ID finds exactly the created object of that name; a request goes to the kernel object created for its identifier and is refused for identifiers of no created object.", "quantifier": "every table of declared names, every sequence of creations and look-ups, every answer of the kernel, every name and identifier", "why_tests_cant": "The failures need names that are prefixes of one another or identifiers that were never handed out, which well-behaved test programs do not have.", "anchors": ["libpok/arinc653/semaphore.c:28-165", "libpok/arinc653/event.c:44-175", "libpok/libc/string/strcmp.c:36-44"]}
{"id": "C71", "title": "ARINC partition services set the mode and report the status", "statement": "SET_PARTITION_MODE sets any of the four modes with NO_ERROR, except NO_ACTION for NORMAL in NORMAL, INVALID_MODE for WARM_START in COLD_START and INVALID_PARAM for other values, always with a code of RETURN_CODE_TYPE; GET_PARTITION_STATUS reports identifier, mode, period and duration of the calling partition, COLD_START at first.", "quantifier": "every supported deployment, every reachable kernel state, every calling thread and processor, every requested value, every previous content of the status structure", "why_tests_cant": "The failures depend on the deployment (slot table not in the order of the partitions), on uninitialised memory of the caller and on who calls in which mode; the test suite uses the identity slot table.", "anchors": ["libpok/arinc653/partition.c:23-76", "kernel/core/partition.c:256-425", "libpok/include/core/partition.h"]}
{"id": "C72", "title": "Floats are rounded to integers as C99 says", "statement": "For every finite float, floorf, ceilf, truncf, roundf and rintf return the integer below, above, toward 0, nearest with halfway cases away from 0, nearest with halfway cases to even, with the sign of the argument; infinities come back unchanged and NaN gives NaN.", "quantifier": "all 2^32 bit patterns of a float", "why_tests_cant": "The function that fails, rintf, fails on one pattern out of 2^12 or so in a single binade; the arguments a test tries (small numbers, halves, powers of two) all round correctly.", "anchors": ["libpok/libm/floorf.c:46-78", "libpok/libm/ceilf.c:35-68", "libpok/libm/truncf.c:43-67", "libpok/libm/roundf.c:45-65", "libpok/libm/rintf.c:40-81", "libpok/libm/fpclassify.c:21-38", "libpok/libm/math_private.h:177-192"]}
{"id": "C73", "title": "Doubles are rounded to integers as C99 says", "statement": "For every finite double, floor, ceil, trunc, round and rint return the integer below, above, toward 0, nearest with halfway cases away from 0, nearest with halfway cases to even, with the sign of the argument; infinities come back unchanged and NaN gives NaN; on little-endian and on big-endian processors.", "quantifier": "all 2^64 bit patterns of a double, both byte orders", "why_tests_cant": "2^64 arguments cannot be tried; rint fails for some numbers between 2^18 and 2^19 whose fraction is exactly 3/4, and the byte order shows on PowerPC and SPARC only.", "anchors": ["libpok/libm/floor.c:42-93", "libpok/libm/ceil.c:43-95", "libpok/libm/trunc.c:43-77", "libpok/libm/round.c:45-65", "libpok/libm/rint.c:47-95", "libpok/libm/fpclassify.c:40-63", "libpok/libm/math_private.h:67-155"]}
{"id": "C74", "title": "Sign and class of a floating-point number are read off correctly", "statement": "For every bit pattern, fabs clears the sign and copysign transfers it without touching the rest; isnan, isinf and finite return 1 exactly for NaN, infinities and finite numbers and 0 otherwise; for float and double, on little-endian and big-endian processors.", "quantifier": "all 2^32 patterns of a float, all 2^64 of a double, both byte orders", "why_tests_cant": "Tests call isnan in a condition, where -1 is as good as 1; NaN patterns with payload only in the low word and the byte order of other processors are not tried.", "anchors": ["libpok/libm/fabs.c:35-40", "libpok/libm/fabsf.c:40-45", "libpok/libm/copysign.c:38-44", "libpok/libm/copysignf.c:39-45", "libpok/libm/isnan.c:36-43", "libpok/libm/isnanf.c:39-45", "libpok/libm/isinf.c:30-37", "libpok/libm/isinff.c:30-36", "libpok/libm/finite.c:37-41", "libpok/libm/finitef.c:40-44"]}
{"id": "C75", "title": "nextafter returns the adjacent number", "statement": "For all x and y that are not NaN, nextafter(x, y) is the number next to x on the side of y, through zero, subnormals and infinity, and y when the two are equal; NaN for NaN; for float and double, on little-endian and big-endian processors.", "quantifier": "all pairs of bit patterns, both byte orders", "why_tests_cant": "Adjacency is a statement about all other numbers, and a test samples a few pairs; the sign of a returned zero is invisible to ==.", "anchors": ["libpok/libm/nextafter.c:39-94", "libpok/libm/nextafterf.c:35-81"]}
{"id": "C76", "title": "scalbn and ldexp multiply by a power of two with one rounding", "statement": "For every number x and every int n, scalbn(x, n) and ldexp(x, n) return x * 2^n rounded to the nearest number, with the sign of x, through subnormals, zero and infinity; infinities and NaN pass; for float and double, on little-endian and big-endian processors.", "quantifier": "all bit patterns, all values of an int, both byte orders", "why_tests_cant": "Double rounding shows only for results in the subnormal range at exact halfway cases, and the overflowing addition only for exponents near INT_MAX, where most compilers happen to give the right answer.", "anchors": ["libpok/libm/scalbn.c:44-76", "libpok/libm/scalbnf.c:39-71", "libpok/libm/ldexp.c:33-39", "libpok/libm/ldexpf.c:36-43"]}
{"id": "C77", "title": "frexp, ilogb, logb and modf take numbers apart exactly", "statement": "For every number x: frexp returns f with 1/2 <= |f| < 1 and e with x = f * 2^e; ilogb and logb the exponent e with 2^e <= |x| < 2^(e+1), subnormals included; modf the integer part and the rest, with the sign of x and without rounding; the special values are those of C99; for float and double, on little-endian and big-endian processors.", "quantifier": "all bit patterns, both byte orders", "why_tests_cant": "The subnormal numbers are a tiny part of the patterns and are treated by separate code in every function; the loops of ilogb depend on the position of the leading bit.", "anchors": ["libpok/libm/frexp.c:45-62", "libpok/libm/frexpf.c:37-54", "libpok/libm/ilogb.c:38-60", "libpok/libm/ilogbf.c:35-51", "libpok/libm/logb.c:38-50", "libpok/libm/logbf.c:35-47", "libpok/libm/modf.c:44-85", "libpok/libm/modff.c:37-66"]}
{"id": "C78", "title": "sqrt is correctly rounded", "statement": "For every positive number x, sqrt(x) is the number of the format nearest to the square root of x; the root of a zero is that zero, of +inf +inf, of NaN and of every negative number NaN; for float and double, on little-endian and big-endian processors.", "quantifier": "all bit patterns, both byte orders", "why_tests_cant": "Correct rounding is a statement about all neighbours of the result for 2^64 arguments; the subnormals that shift by 32 are a 10^-15 part of them and give the right answer on processors that take the shift count modulo 32.", "anchors": ["libpok/libm/e_sqrt.c:104-206", "libpok/libm/e_sqrtf.c:36-100", "libpok/libm/sqrt.c:35-49", "libpok/libm/sqrtf.c:39-54"]}
{"id": "C79", "title": "fmod is exact", "statement": "For all finite x and finite nonzero y, fmod(x, y) is exactly x - n * y for an integer n, smaller in magnitude than y and with the sign of x; it is x for infinite y and NaN for y = 0, infinite x or a NaN; for float and double, on little-endian and big-endian processors.", "quantifier": "all pairs of bit patterns, both byte orders", "why_tests_cant": "The quotient can have 2046 bits, the loop runs up to 2098 times, and both arguments can be subnormal; a test has no exact reference but another implementation of the same loop.", "anchors": ["libpok/libm/e_fmod.c:42-166", "libpok/libm/e_fmodf.c:45-125", "libpok/libm/fmod.c:36-50", "libpok/libm/fmodf.c:39-54"]}
{"id": "C80", "title": "remainder is exact and rounds the quotient to even", "statement": "For all finite x and finite nonzero p, remainder(x, p) is exactly x - n * p for the integer n nearest to x / p, the even one when two are equally near, and a zero result has the sign of x; it is x for infinite p and NaN for p = 0, infinite x or a NaN; for float and double, on little-endian and big-endian processors.", "quantifier": "all pairs of bit patterns, both byte orders", "why_tests_cant": "Correctness rests on three subtractions and two comparisons being free of rounding for every pair of arguments, subnormals and numbers near overflow included; halfway quotients are rare among random pairs.", "anchors": ["libpok/libm/e_remainder.c:42-84", "libpok/libm/e_remainderf.c:37-79", "libpok/libm/remainder.c:36-50", "libpok/libm/remainderf.c:39-54", "libpok/libm/drem.c:26", "libpok/libm/dremf.c:27"]}
{"id": "C81", "title": "PowerPC: a partition reaches its own memory only, and page faults inside it are served", "statement": "On the PowerPC port, after boot and after every sequence of partition switches and memory accesses, an access of the running partition that the hardware translates reaches a byte of its own memory; memories of different partitions have no byte in common and lie above the kernel; every access of a partition inside its memory is served by the page fault handlers and reaches the byte at that offset; an access outside is reported and does not stop the kernel.", "quantifier": "all lists of partition and stack sizes that fit into memory, all contents of segment registers and memory at boot, all sequences of switches and accesses", "why_tests_cant": "Whether two pages meet in one group of the hashed page table depends on the xor of partition number and page index, and on everything touched before; emulated processors start with segment registers of one value.", "anchors": ["kernel/arch/ppc/space.c:27-53", "kernel/arch/ppc/space.c:119-203", "kernel/arch/ppc/prep/bsp.c:29-35", "kernel/core/partition.c:146-173"]}
{"id": "C82", "title": "SPARC: a partition reaches the page at its own address and nothing else", "statement": "On the SPARC port, after boot, for every partition, kind of access and address: the MMU translates an access of the partition in user mode if and only if the address is below 256 KB, and to the address of the partition plus that offset; no byte is reached by two partitions or belongs to the kernel; every partition reaches all of its memory.", "quantifier": "all numbers and sizes of partitions, all places of the tables that the alignment attributes allow, all memory contents before boot, all addresses and kinds of access", "why_tests_cant": "The alignment of the table of contexts is decided by the linker; a table that happens to be aligned hides the fault. A test cannot try all addresses in all contexts.", "anchors": ["kernel/arch/sparc/space.c:38-101", "kernel/arch/sparc/space.c:148-185", "kernel/arch/sparc/space.h:30-78", "kernel/arch/sparc/leon3/bsp.c:41-49", "kernel/core/partition.c:150-173"]}
{"id": "C83", "title": "An interrupt, an exception or a system call gives the interrupted program its registers back", "statement": "When an interrupt, an exception or a system call comes in, at any point of a partition's program or of the kernel, the entry stub, around any C function that keeps what the calling convention says, does not fault and afterwards the program has all its general registers (after a system call: all but eax, which is the result), stack pointer, flags, code, stack and data segments, and the next entry from the partition will use the same kernel stack; the handler finds the registers of the program in the frame it is given.", "quantifier": "all register contents, stack addresses, segments, error codes, C handlers, gates of both kinds, both privilege levels", "why_tests_cant": "The fault shows for one vector and one way of entering it only, or in one register of the interrupted program at one moment; a test would have to interrupt every instruction.", "anchors": ["kernel/include/arch/x86/interrupt.h:20-122", "kernel/include/arch/x86/ipi.h:33-57", "kernel/arch/x86/interrupt.c:20-26", "kernel/arch/x86/ipi.c:31"]}
{"id": "C84", "title": "A thread that was switched away goes on where it stopped, and a new thread starts at its entry", "statement": "In every history of switches between any number of threads with separate kernel stacks, pok_context_switch does not fault, and the thread that gets the processor has the registers, flags, stack and address that it had when it last called pok_context_switch; a thread made by pok_space_context_create starts in user mode at its entry, on its stack, with its arguments, in the segments of its partition, with interrupts enabled; nothing of another thread is left in any register.", "quantifier": "all numbers of threads, stack layouts, register contents, histories of switches, numbers of processors, partitions and arguments", "why_tests_cant": "A register that is lost or leaks shows only when another thread uses it in between; the histories of switches are unbounded.", "anchors": ["kernel/arch/x86/thread.c:31-68", "kernel/arch/x86/space.c:78-155", "kernel/arch/x86/thread.h:19-43", "kernel/arch/x86/space.h:26-38", "kernel/core/sched.c:347-405"]}
{"id": "C85", "title": "Every vector leads to its handler, and partitions enter the kernel through the system call only", "statement": "After boot, at every privilege level, each exception and interrupt reaches the handler that is meant for it, with the stub for an error code exactly where the processor pushes one, and the other vectors are closed; a PCI device's interrupt reaches its handler and disturbs no other vector; of the INT instructions a partition can execute only that of the system call.", "quantifier": "all handler addresses, table contents before boot, vectors, privilege levels, interrupt lines", "why_tests_cant": "A test executes the INT instructions its author thinks of, on the interrupt lines of one machine.", "anchors": ["kernel/arch/x86/event.c:28-69", "kernel/arch/x86/event.h:23-60", "kernel/arch/x86/exceptions.c:48-82", "kernel/arch/x86/syscalls.c:76-81", "kernel/arch/x86/arch.c:52-57", "kernel/arch/x86/ipi.c:45-51", "kernel/arch/x86/pci.c:87-100", "kernel/arch/x86/x86-qemu/pit.c:42-76"]}
{"id": "C86", "title": "A thread that is started again begins at its entry, and the start touches nothing else", "statement": "When a stopped thread is started again (START, DELAYED_START) it begins at its entry point the next time it gets the processor; the words that the start writes belong to the thread, not to the kernel or another partition; and restarting threads does not use up the memory of the kernel.", "quantifier": "all deployments, reachable states, threads, stack sizes, histories of thread switches", "why_tests_cant": "A test of START looks at the return code and the state; that the thread goes on in the middle of its code, or that 14 words of another partition changed, shows only in particular layouts.", "anchors": ["kernel/arch/x86/thread.c:69-86", "kernel/arch/x86/thread.h:23-45", "kernel/core/thread.c:258-327", "kernel/core/partition.c:458-478"]}
{"id": "C87", "title": "The console shows what is written to it, on the screen only, and reports it", "statement": "After pok_cons_write the screen shows what an 80 by 25 terminal shows after the characters and escape sequences of the text (wrapping, scrolling, tabulators, colours, cursor positions), the serial line got the characters, no memory outside the screen has changed, nothing but the text matters, and the system call reports success.", "quantifier": "all texts, lengths, screen contents, cursor positions and colours", "why_tests_cant": "A test prints a few lines; it does not reach every cursor position with every escape sequence, nor texts that end inside an escape sequence.", "anchors": ["kernel/arch/x86/x86-qemu/cons.c:31-190", "kernel/arch/x86/x86-qemu/cons.h:25-50", "kernel/core/syscall.c:70-78", "kernel/arch/sparc/leon3/cons.c:32-44", "kernel/arch/ppc/prep/cons.c:30-42"]}
{"id": "C88", "title": "An error reaches the error handler of its partition with its code, its process and its message", "statement": "An exception or an error raised by the application makes the error handler of its partition run next, without a part of other partitions in it; the handler reads the code the standard gives to the event, the identifier of the process and the message, once; without a handler the error goes to the partition level; GET_ERROR_STATUS writes to its results only and says NO_ERROR; up to 100 errors can be logged and none is written behind the log.", "quantifier": "all exceptions, partitions, messages, lengths, memory contents and addresses", "why_tests_cant": "A test raises one error and looks at the code. It does not see what the kernel writes behind the object it was given (the two sides disagree on the structure), nor every message, nor every order of creation.", "anchors": ["kernel/core/error.c:23-160", "kernel/include/core/error.h:21-47", "kernel/arch/x86/exceptions.c:84-295", "kernel/core/sched.c:717-728", "kernel/core/syscall.c:242-255", "libpok/include/core/error.h:22-51", "libpok/arinc653/error.c:58-158", "libpok/core/errorlog.c:25-42"]}
{"id": "C89", "title": "The ARINC port services do to the port what the standard says and report it", "statement": "A port that is created under NO_ERROR is the partition's port of that name, with the size, direction and refresh period asked for, and no other port changes; invalid parameters change nothing; a message written under NO_ERROR is in the sampling port designated by the identifier, a read returns the message the port holds and whether it is fresh; the services for the identifier and the status of a port store what their names say; every return code is one of the standard's.", "quantifier": "all port configurations, states of the ports, partitions, identifiers, sizes, periods, messages and previous contents of result variables", "why_tests_cant": "A test uses a handful of small identifiers, sizes and periods. The truncations to 8 and 32 bits, the wrapped product and the results that are only right if the variable held something suitable before appear for values tests do not use.", "anchors": ["libpok/arinc653/sampling.c:24-123", "libpok/arinc653/queueing.c:24-132", "libpok/arinc653/blackboard.c:21-31", "libpok/middleware/portsamplingcreate.c:23-29", "kernel/middleware/portsamplingwrite.c:39-76", "kernel/middleware/portsamplingstatus.c:31-64", "kernel/core/syscall.c:300-357"]}
{"id": "C90", "title": "PowerPC: an exception or a system call gives the interrupted program its registers back, on a kernel stack that lasts, and the kernel stays in control", "statement": "After a page fault, a system call or a tick the interrupted program goes on with all its registers (for a system call: but for the result), in its mode; the C function runs in supervisor mode on the thread's kernel stack with the arguments of the exception; the frame lies in the kernel stack of 8192 bytes; a running partition is preempted by the tick; errors of a partition do not stop the kernel; an interrupt on the way out changes nothing.", "quantifier": "all contents of registers and memory, all exceptions, all C functions that keep what the calling convention says, any number of exceptions in a row", "why_tests_cant": "The port does not even compile at this commit, and the failures need a tick in user mode, more than a hundred system calls of one thread, or an interrupt before one particular instruction.", "anchors": ["kernel/arch/ppc/entry.S:4-34", "kernel/arch/ppc/entry.S:44-77", "kernel/arch/ppc/entry.S:125-237", "kernel/arch/ppc/msr.h"]}
{"id": "C91", "title": "PowerPC: a thread that was switched away goes on where it stopped, and a new thread starts at its entry", "statement": "pok_context_switch stores the context of the caller and continues the other thread where it called pok_context_switch, with the registers that a C function keeps; a thread of a partition starts at its entry in user mode with its arguments and stack, a thread of the kernel at its entry; the idle thread can be interrupted; a tick during the switch changes nothing; a thread that is started again begins at its entry.", "quantifier": "all registers, memory contents, stacks, entries and arguments; every C function as handler of the tick", "why_tests_cant": "Failures need a tick between two instructions of the switch, or the idle thread elected by the tick handler; the port does not compile, so no test runs it.", "anchors": ["kernel/arch/ppc/cswitch.S:3-74", "kernel/arch/ppc/thread.c:24-62", "kernel/arch/ppc/space.c:62-94", "kernel/arch/ppc/arch.c:65-70", "kernel/core/thread.c:294"]}
{"id": "C92", "title": "The timers of the PowerPC and SPARC boards count the time that has passed", "statement": "The 64-bit time base is read consistently; each tick interrupt counts exactly the periods that are over, without drift and however late it comes, and sets the decrementer to the rest of the running period; the tick counter of both boards is the time in nanoseconds.", "quantifier": "all values of the time base, all sequences of readings, any number of clocks", "why_tests_cant": "Drift and units are only seen against an independent clock over long times, carries of the time base once in 2^32 cycles, delays of 2^31 cycles hardly ever.", "anchors": ["kernel/arch/ppc/timer.c:31-83", "kernel/arch/sparc/leon3/timer.c:37-63", "kernel/arch/sparc/leon3/sparc_conf.h:26", "kernel/include/core/time.h:24"]}
{"id": "C93", "title": "SPARC: calls and returns to any depth work on eight register windows, and the window traps touch nothing the program may not touch", "statement": "Every program that treats its stack as the ABI asks sees the same registers and memory as on a machine with as many windows as calls; the overflow and underflow traps leave condition codes, mode, interrupt level, Y and program counters; they neither write nor read memory that the program itself may not, and no stack pointer stops the processor.", "quantifier": "all sequences of instructions (register operations, loads, stores, calls, returns) of any length and depth, all window positions, all stack pointers", "why_tests_cant": "Every position of the window pointer against every call depth matters; the harmful cases need a stack pointer chosen to do harm.", "anchors": ["kernel/arch/sparc/regwin.S:14-99", "kernel/arch/sparc/entry.S:34-35", "kernel/arch/sparc/leon3/sparc_conf.h:28"]}
{"id": "C94", "title": "SPARC: an interrupted thread goes on as if nothing had happened, whatever other threads did in between", "statement": "After any sequence of instructions, timer interrupts and switches between threads with stacks of their own, each thread finds its registers in all frames, its memory, its program counter, condition codes, Y and its mode; a new thread starts at its entry point with its arguments; a system call gets number and arguments and the program goes on behind it with the result; exceptions of a program reach its error handling; no trap touches memory that the program may not; a thread that is restarted begins at its entry point.", "quantifier": "all numbers of threads, all histories of instructions and switches of any length, all call depths and window positions, all kernel code that exchanges stack pointers as the scheduler does, all trap numbers", "why_tests_cant": "An interrupt may come at every instruction with every number of frames in windows; the damage shows only when the frame that was hit returns.", "anchors": ["kernel/arch/sparc/entry.S:9-480", "kernel/arch/sparc/context_offset.h:49-66", "kernel/arch/sparc/traps.c:31-78", "kernel/arch/sparc/syscalls.c:37-81", "kernel/arch/sparc/thread.c:34-81", "kernel/arch/sparc/space.c:127-144", "kernel/arch/sparc/arch.c:68-72"]}
{"id": "C95", "title": "Network driver: a message that is sent leaves the card in frames that carry it, and nothing else", "statement": "rtl8029_init makes the card ready (empty ring, no pending interrupt, empty queues) and reads its address; rtl8029_write sends each message, whatever its length, to every destination that exists, in order, cut into frames of 60 to 1514 bytes whose pieces put together are the message, with the address of the node and the port numbers; received frames and the ring stay as they are; frames hold no other bytes of kernel memory.", "quantifier": "all messages, all lists of destinations, all states of the card between calls, all contents of kernel stack and card memory", "why_tests_cant": "The driver is written against registers whose meaning depends on the selected page; a test on one emulator with short messages sees neither the address nor the padding.", "anchors": ["kernel/drivers/rtl8029.c:36-99", "kernel/drivers/rtl8029.c:304-391", "kernel/drivers/rtl8029.c:495-597", "kernel/include/drivers/rtl8029.h:49-70", "kernel/include/drivers/rtl8029.h:221-230"]}
{"id": "C96", "title": "Network driver: received messages are delivered, whole and in order, and a poll ends", "statement": "In every history of arriving frames, polls, reads and sent messages, a reader of a port gets the bytes of the messages for that port, in order, each message whole or not at all; a poll delivers all frames that have arrived, ends, and stays within its packet and its tables, whatever other machines send.", "quantifier": "all histories of any length, all positions in the ring, all messages, ports and configurations", "why_tests_cant": "The ring has 56 pages and the faults show when a frame ends at its last page, when exactly one frame waits, or when a frame has an unusual length or port.", "anchors": ["kernel/drivers/rtl8029.c:71-135", "kernel/drivers/rtl8029.c:139-302", "kernel/drivers/rtl8029.c:397-458"]}
{"id": "C97", "title": "Multiprocessor start: the table of the machine is found and read, every processor gets its own number and stack, and interrupts between processors reach whom they are for", "statement": "pok_multiprocessing_init finds the MP floating pointer structure wherever the specification allows it, counts the processors of the table it points to, goes on exactly when the usable ones are as many as configured, and takes the address of the local APICs from it without damage to the table; whatever the order in which the processors come, numbers are distinct, 0 for the one that boots, stacks are disjoint and within pok_stack, and no spin lock stays counted; a request to schedule a thread of a processor reaches that processor.", "quantifier": "all contents of memory, all well-formed tables with any number of entries, all orders of arrival, all APIC numbers, all configurations of up to 255 processors", "why_tests_cant": "An emulator has one table at one place, APIC numbers from 0 on and nearly always the same order of arrival.", "anchors": ["kernel/arch/x86/multiprocessing.c:44-137", "kernel/arch/x86/multiprocessing.c:156-172", "kernel/arch/x86/multiprocessing.c:226-309", "kernel/arch/x86/ap.c:32-45", "kernel/arch/x86/ipi.c:53-59", "kernel/arch/x86/start_ap.S:38-56", "kernel/arch/x86/x86-qemu/entry.S:16-39", "kernel/include/arch/x86/spinlock.h:23-43"]}
{"id": "C98", "title": "Interrupt controllers: each request of a device on an open line reaches the handler registered for it, once and in order of priority", "statement": "After pok_pic_init no line is open; over any history of registrations, masks, requests, interrupts and acknowledgements a line is masked exactly if its last call says so, an interrupt has the vector of a line that asks and is open, the first in priority; with acknowledgements every open request is taken once and goes to the handler registered last; calls about one line do not touch others, and bad lines are refused.", "quantifier": "all histories of any length, all states of the controllers at boot, all 256 values of the line argument", "why_tests_cant": "The controllers change what a port means during initialisation, and faults show only with several lines, nested services or line numbers the tests never use.", "anchors": ["kernel/arch/x86/x86-qemu/pic.c:22-83", "kernel/arch/x86/x86-qemu/pic.h:18-29", "kernel/arch/x86/x86-qemu/bsp.c:31-43", "kernel/arch/x86/arch.c:52-57"]}
{"id": "C99", "title": "PCI devices and the ports of partitions: a partition finds its device, and touches the ports of devices it registered and no others", "statement": "pci_read gives the bytes of the register asked for; pci_open finds the first function with the identity asked for wherever it is, with its base address and line; over any history of registrations, reads and writes of any partitions, a partition touches a port only if it belongs to a device it registered, and every port of that device works.", "quantifier": "all contents of the configuration space, all functions and registers, all histories of any length of all partitions, all ports and values", "why_tests_cant": "An emulator has one network card at a fixed place with ports at a multiple of 256, and a test driver asks for the range it needs.", "anchors": ["kernel/arch/x86/pci.c:23-65", "kernel/arch/x86/pci.c:87-100", "kernel/core/syscall.c:381-405", "kernel/include/core/partition.h:114-119", "kernel/include/arch/x86/pci.h:27-44"]}
{"id": "C100", "title": "The ARINC buffer services are bounded queues of messages, and the status of buffers and blackboards is what they hold", "statement": "Over any history of CREATE_BUFFER, SEND_BUFFER and RECEIVE_BUFFER the answers are those of ARINC 653: a buffer holds up to MAX_NB_MESSAGE messages of up to MAX_MESSAGE_SIZE bytes, gives them back in order and unaltered, waits or refuses when full or empty, and every return code is the standard's; no memory but that of the buffers changes; the status services tell the limits given at creation, how many messages are there and whether a blackboard is empty.", "quantifier": "all histories of any length, all names, sizes, numbers of messages, identifiers, messages and time-outs", "why_tests_cant": "A test uses one or two buffers with fitting messages and looks at NO_ERROR; other codes, limits from 256 on and identifiers beyond 8 bits do not occur.", "anchors": ["libpok/arinc653/buffer.c:22-95", "libpok/arinc653/blackboard.c:54-77", "libpok/middleware/bufferstatus.c:25-38", "libpok/middleware/blackboardstatus.c:25-36", "libpok/middleware/buffercreate.c:31-69", "libpok/middleware/buffersend.c:30-84", "libpok/middleware/bufferreceive.c:30-77"]}
{"id": "C101", "title": "Partitions and the kernel agree on the structures and arguments of the system calls", "statement": "Whatever a partition writes into a structure or passes as an argument of a system call, the kernel reads the same values, and whatever the kernel writes into a structure of the partition, the partition reads; the kernel writes nothing outside the variable of the partition; lock objects are made and operated on as asked for, whatever the unset fields contain; both sides give the kinds of errors the same numbers.", "quantifier": "all structures exchanged, all values of their fields, all contents of memory before, all addresses, identifiers, times and messages", "why_tests_cant": "The two sides are compiled from separate headers; the fields of a variable on the stack that nobody sets contain zeroes in most tests, and long times, long messages and error texts do not occur.", "anchors": ["kernel/include/core/lockobj.h:34-121", "libpok/include/core/lockobj.h:20-63", "kernel/include/core/thread.h:68-77", "libpok/include/core/thread.h:28-62", "kernel/include/middleware/port.h:68-101", "libpok/include/middleware/port.h:61-108", "kernel/include/core/error.h:21-47", "libpok/include/core/error.h:22-51", "kernel/core/lockobj.c:69-108", "kernel/core/lockobj.c:380-427", "kernel/core/error.c:146-160", "libpok/core/eventcreate.c:24-33", "libpok/core/semwait.c:29-36", "libpok/core/errorhandlerworker.c:30-55"]}
{"id": "C102", "title": "rand returns every value equally often and repeats only after 2^32 calls", "statement": "From every state, rand returns numbers between 0 and RAND_MAX; in 2^32 calls the hidden number takes every value once and every result occurs equally often, up to one; the results repeat after 2^32 calls and not earlier; RAND_MAX is at least 32767 as the standard asks for.", "quantifier": "all states and numbers of calls, all results and all periods", "why_tests_cant": "2^32 calls from every one of 2^32 states cannot be tried; a test looks at a few results.", "anchors": ["libpok/libc/stdlib/rand.c:22-27", "libpok/include/libc/stdlib.h:20"]}
{"id": "C103", "title": "scalb multiplies by a power of two with one rounding, significand divides by the power of two of the exponent", "statement": "For all x and fn, scalb(x, fn) is x * 2^fn rounded once when fn is an integer, however great, NaN when it is none, and follows the rules for zeros, infinities and NaN otherwise; significand(x) is x divided exactly by the greatest power of two not above |x|, zeros and infinities unchanged; no undefined operation is reached.", "quantifier": "all pairs of bit patterns for scalb, all bit patterns for significand, float and double, both byte orders", "why_tests_cant": "2^64 pairs of floats and 2^128 of doubles cannot be tried; rint, which decides whether fn is an integer, is wrong for some arguments, and fn is cut off at 65000.", "anchors": ["libpok/libm/e_scalb.c:38-64", "libpok/libm/e_scalbf.c:35-61", "libpok/libm/significand.c:38", "libpok/libm/significandf.c:35"]}
{"id": "C104", "title": "The elementary functions for float return the results C99 fixes at the ends and outside of their domains", "statement": "For all x: a NaN gives a NaN; logf, log2f, log10f give -infinity at zeros, NaN below zero, +infinity at +infinity; expf gives +infinity beyond 89 and +0 below -104; acosf, asinf, atanhf give NaN outside of [-1, 1], acoshf below 1; acosf(1) and acoshf(1) are +0; acosf(-1), asinf(+-1), atanf(+-infinity) are pi and half of pi correctly rounded; atanhf(+-1) and sinhf(+-infinity) are the infinities of the same sign; coshf is +infinity beyond 90; tanhf(+-infinity) is +-1; asinf, atanf, atanhf, sinhf, tanhf and cbrtf keep signed zeros, cbrtf infinities; sinf, cosf, tanf of infinities are NaN.", "quantifier": "all 2^32 bit patterns of the argument, for 16 functions, whatever the interior of the function computes", "why_tests_cant": "Each special case is a band of patterns bounded by a constant of the code; tests try single values of it, and the results must not depend on the interior, which has hundreds of constants of its own.", "anchors": ["libpok/libm/e_logf.c:47-64", "libpok/libm/e_log2f.c:46-63", "libpok/libm/e_log10f.c:41-58", "libpok/libm/e_expf.c:70-84", "libpok/libm/e_acosf.c:49-61", "libpok/libm/e_asinf.c:50-65", "libpok/libm/atanf.c:66-84", "libpok/libm/e_acoshf.c:36-49", "libpok/libm/e_atanhf.c:37-48", "libpok/libm/e_coshf.c:37-75", "libpok/libm/e_sinhf.c:37-55", "libpok/libm/tanhf.c:37-55", "libpok/libm/cbrtf.c:48-60", "libpok/libm/sinf.c:42-55", "libpok/libm/cosf.c:45-58", "libpok/libm/tanf.c:35-48"]}
{"id": "C105", "title": "powf returns the results C99 fixes for zeros, infinities, NaN and negative bases", "statement": "For all x and y: powf(x, +-0) is 1; powf(1, y) is 1 even for NaN; powf(-1, +-infinity) is 1; other NaN give NaN; an infinite y gives +infinity or +0 by |x| above or below 1; zeros and infinities as x give zeros and infinities by the sign of y, negative only when x is and y is an odd integer; a negative finite x with a finite y that is no integer gives NaN.", "quantifier": "all 2^64 pairs of bit patterns, whatever the interior of the function computes", "why_tests_cant": "2^64 pairs cannot be tried; whether y is an odd integer is decided by shifts that depend on its exponent, and the cases overlap so that their order matters.", "anchors": ["libpok/libm/e_powf.c:76-150"]}
{"id": "C106", "title": "atan2f returns the results C99 fixes for zeros, infinities and NaN", "statement": "For all y and x: a NaN gives NaN; atan2f(+-0, x) is +-0 for x with a positive sign and +-pi for a negative one; atan2f(y, +-0) is +-pi/2; atan2f(y, +infinity) is +-0 and atan2f(y, -infinity) +-pi for finite y; atan2f(+-infinity, x) is +-pi/2 for finite x, +-pi/4 at +infinity and +-3pi/4 at -infinity, each correctly rounded.", "quantifier": "all 2^64 pairs of bit patterns, whatever the interior of the function computes", "why_tests_cant": "2^64 pairs cannot be tried; a result off by one unit in the last place passes tests with a tolerance.", "anchors": ["libpok/libm/e_atan2f.c:40-98", "libpok/libm/atanf.c:66-84"]}
{"id": "C107", "title": "hypotf returns the length of the hypotenuse without spurious overflow or underflow", "statement": "For all x and y: hypotf is +infinity if x or y is infinite, even with NaN; NaN for other NaN; |x| when y is zero and |y| when x is; and where x^2 + y^2 is the square of a float, that float up to a millionth of it.", "quantifier": "all 2^64 pairs of bit patterns", "why_tests_cant": "2^64 pairs cannot be tried; arguments of common size take a path without scaling, only sums below 2^-50 or above 2^50 show the wrong scaling.", "anchors": ["libpok/libm/e_hypotf.c:34-113"]}
