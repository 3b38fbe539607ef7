{
 "claims": [
  {
   "property": "C01",
   "status": "proved",
   "theorems": [
    "C01_fifo_order"
   ],
   "note": "All undisturbed histories of the lock-object machine; replay against a first-come queue."
  },
  {
   "property": "C02",
   "status": "proved",
   "theorems": [
    "C02_priority_order",
    "C02_event_order"
   ],
   "note": "All undisturbed histories; lock queues with priority discipline, and event waiters."
  },
  {
   "property": "C03",
   "status": "proved",
   "theorems": [
    "C03_value_range",
    "C03_zero_maximum_refuted"
   ],
   "note": "All histories, including disturbed ones. A semaphore created with maximum 0 reaches value 1 (refutation recorded)."
  },
  {
   "property": "C04",
   "status": "proved",
   "theorems": [
    "C04_never_fails",
    "C04_no_idle_resource"
   ],
   "note": "Assertions and loop termination in all histories; no blocked thread with a free unit in undisturbed ones."
  },
  {
   "property": "C05",
   "status": "proved",
   "theorems": [
    "C05_mutual_exclusion",
    "C05_disturbed_refuted"
   ],
   "note": "Counting statement over traces; without the undisturbed hypothesis it is false (recorded)."
  },
  {
   "property": "C06",
   "status": "partial",
   "theorems": [
    "C06_release_lost_refuted",
    "C06_release_reaches_waiter_partial"
   ],
   "note": "The full statement is false of the code: a woken waiter dispatched at its deadline reports TIMEOUT and the unit vanishes."
  },
  {
   "property": "C07",
   "status": "proved",
   "theorems": [
    "C07_signal",
    "C07_broadcast",
    "C07_terminates"
   ],
   "note": "All undisturbed histories."
  },
  {
   "property": "C10",
   "status": "proved",
   "theorems": [
    "C10_round_robin",
    "C10_machine"
   ],
   "note": "Election function for all tables, and all reachable kernel states."
  },
  {
   "property": "C11",
   "status": "proved",
   "theorems": [
    "C11_round_robin_fair"
   ],
   "note": "Bounded bypass over all sequences of elections."
  },
  {
   "property": "C12",
   "status": "proved",
   "theorems": [
    "C12_static_priority",
    "C12_machine"
   ],
   "note": "Election function for all tables, and all reachable kernel states."
  },
  {
   "property": "C13",
   "status": "partial",
   "theorems": [
    "C13_smallest_period_refuted",
    "C13_sound",
    "C13_smallest_period_partial"
   ],
   "note": "False of the code when a thread without period is ready (period -1 sorts first); proved when the elected thread is periodic, in histories without error handler."
  },
  {
   "property": "C14",
   "status": "partial",
   "theorems": [
    "C14_sorted",
    "C14_permutation",
    "C14_returned_id_refuted",
    "C14_returned_id_partial"
   ],
   "note": "Sorted and a permutation: proved. The returned identifier designates another thread after the sort: refuted, with the exact exception."
  },
  {
   "property": "C15",
   "status": "proved",
   "theorems": [
    "C15_slot_owner",
    "C15_slot_exact",
    "C15_only_owner_executes"
   ],
   "note": "All histories in which the timer is timely."
  },
  {
   "property": "C16",
   "status": "partial",
   "theorems": [
    "C16_temporal_isolation_partial",
    "C85_clock_refuted"
   ],
   "note": "Proved for all histories of the kernel in which the timer is timely, system calls included. Refuted for the INT instruction: the gate of the timer interrupt is open to partitions, so that a partition moves the clock that the schedule follows."
  },
  {
   "property": "C08",
   "status": "proved",
   "theorems": [
    "C08_operation",
    "C08_foreign_objects",
    "C08_ranges_disjoint"
   ],
   "note": "All identifiers, kinds and operation codes, and every step of the kernel machine."
  },
  {
   "property": "C09",
   "status": "proved",
   "theorems": [
    "C09_creation",
    "C09_exhausted",
    "C09_granted",
    "C09_distinct"
   ],
   "note": "Single calls and complete histories of all partitions, restarts included."
  },
  {
   "property": "C21",
   "status": "proved",
   "theorems": [
    "C21_mode_change",
    "C21_request",
    "C21_stopped_forever"
   ],
   "note": "All steps of the kernel machine; requests for arbitrary values."
  },
  {
   "property": "C22",
   "status": "partial",
   "theorems": [
    "C22_nothing_created_refuted",
    "C22_nothing_created_partial",
    "C22_history"
   ],
   "note": "Creation of an error handler in NORMAL mode uses an uninitialised identifier (refuted with a witness); proved for threads and lock objects, for calls and histories."
  },
  {
   "property": "C23",
   "status": "proved",
   "theorems": [
    "C23_identifiers",
    "C23_quota",
    "C23_refusals"
   ],
   "note": "Histories without restart of the partition in between; the error callback of the TOOMANY path is generated code and not modelled."
  },
  {
   "property": "C20",
   "status": "partial",
   "theorems": [
    "C20_own_threads_refuted",
    "C20_own_threads_partial",
    "C20_foreign_refused"
   ],
   "note": "False of the code for the identifier just after the caller's range (the main thread of the next partition): refuted with a witness; proved for every other identifier."
  },
  {
   "property": "C54",
   "status": "partial",
   "theorems": [
    "C54_isolation_refuted_by_identifier",
    "C54_isolation_refuted_by_signal",
    "C54_isolation_partial"
   ],
   "note": "Refuted in two ways (identifier one past the range; signal on a lock object never created); proved for every other step of the kernel machine."
  },
  {
   "property": "C17",
   "status": "partial",
   "theorems": [
    "C17_activation",
    "C17_no_drift",
    "C17_not_early_refuted",
    "C17_not_early_partial"
   ],
   "note": "Activation at the first scheduling point at or after the date, refill and absence of drift: proved. Never before: refuted for a thread queued on a lock object (released before its date); proved for threads in no lock queue."
  },
  {
   "property": "C18",
   "status": "proved",
   "theorems": [
    "C18_budget",
    "C18_exhausted"
   ],
   "note": "All executions without activation of the thread in between; elections caused by interrupts are counted."
  },
  {
   "property": "C19",
   "status": "partial",
   "theorems": [
    "C19_only_ready_refuted",
    "C19_only_ready_partial",
    "C19_starts_ready_partial",
    "C19_stays_blocked_refuted",
    "C19_stays_blocked_partial",
    "C19_stays_blocked_run_partial"
   ],
   "note": "Refuted for main threads in INIT modes and for a thread stopped while it executes on another processor with no budget left; proved in NORMAL mode for threads that do not execute."
  },
  {
   "property": "C24",
   "status": "partial",
   "theorems": [
    "C24_not_early_refuted",
    "C24_not_early_partial",
    "C24_woken"
   ],
   "note": "Refuted for a thread that sleeps with its budget used up (woken by its activation); proved otherwise. Wake-up at the first scheduling after the date: proved."
  },
  {
   "property": "C27",
   "status": "proved",
   "theorems": [
    "C27_disjoint",
    "C27_frame"
   ],
   "note": "All reachable states of the port machine, all configurations."
  },
  {
   "property": "C28",
   "status": "partial",
   "theorems": [
    "C28_foreign_refuted",
    "C28_foreign_partial",
    "C28_create"
   ],
   "note": "Refuted for identifier NB_PORTS (owner table read past its end); proved for all others, and for creation by name."
  },
  {
   "property": "C32",
   "status": "partial",
   "theorems": [
    "C32_send_refuted",
    "C32_write_refuted",
    "C32_write_refuted_queueing",
    "C32_send_partial",
    "C32_send_waited_partial",
    "C32_resumed_partial",
    "C32_write_partial"
   ],
   "note": "Refuted: lengths are truncated to 8 bits, and a sampling write into a full queueing port returns OK. Proved up to 255 bytes on ports of the right kind."
  },
  {
   "property": "C33",
   "status": "partial",
   "theorems": [
    "C33_released_refuted",
    "C33_released_partial",
    "C33_resumed",
    "C33_never_stuck_partial"
   ],
   "note": "Refuted for SAMPLING_READ with a buffer outside the partition; proved for every other call."
  },
  {
   "property": "C25",
   "status": "partial",
   "theorems": [
    "C25_receive",
    "C25_receive_resumed",
    "C25_fits_refuted",
    "C25_send_refuted",
    "C25_send_partial",
    "C25_send_resumed_partial",
    "C25_channel_partial"
   ],
   "note": "Receptions proved in full. False for sends: a message that does not fit is accepted and overwrites unread bytes. Proved for sends that fit, and end to end over all runs in which sends and flushes fit."
  },
  {
   "property": "C26",
   "status": "partial",
   "theorems": [
    "C26_read",
    "C26_last_refuted",
    "C26_channel_partial"
   ],
   "note": "False for messages shorter than the port (stale tail). Proved for single reads in all states and end to end for messages of the size of both ports."
  },
  {
   "property": "C29",
   "status": "partial",
   "theorems": [
    "C29_frame",
    "C29_frame_all",
    "C29_transfer_refuted",
    "C29_room_refuted",
    "C29_transfer_partial",
    "C29_sampling_partial"
   ],
   "note": "The frame half is proved in full. The transfer half is false when the destination lacks room or is wrongly marked full; proved otherwise."
  },
  {
   "property": "C30",
   "status": "proved",
   "theorems": [
    "C30_exact",
    "C30_empty",
    "C30_physical",
    "C30_ports"
   ],
   "note": "All 32-bit values; also the physical bytes the kernel then accesses, and that the check used by the port layer is this one."
  },
  {
   "property": "C34",
   "status": "partial",
   "theorems": [
    "C34_refuted",
    "C34_megabyte_refuted",
    "C34_extent",
    "C34_kinds",
    "C34_tss",
    "C34_partial"
   ],
   "note": "False of the code: the limit is set to the size instead of the size less one, and sizes above one megabyte are rounded to pages; refuted with witnesses. The exact extent for all bases and sizes is C34_extent; every byte of the partition is accessible (size 2^20 excepted) and nothing beyond 4096 bytes behind it."
  },
  {
   "property": "C35",
   "status": "proved",
   "theorems": [
    "C35_disjoint",
    "C35_bounds",
    "C35_fixed",
    "C35_stacks"
   ],
   "note": "All configurations whose memory fits; unchanged along all executions. Kernel stacks allocated at run time are covered by C35_stacks; their unbounded consumption is C35_stacks_unbounded_refuted."
  },
  {
   "property": "C36",
   "status": "partial",
   "theorems": [
    "C36_others_refuted",
    "C36_own_refuted",
    "C36_present_partial",
    "C36_step_partial",
    "C36_table"
   ],
   "note": "False of the code in both directions (segments of all partitions are present until first switched out; idle threads count as threads of partition 0): refuted with witnesses. Proved for histories in which no idle thread is involved in a change of partition, for partitions that have executed."
  },
  {
   "property": "C37",
   "status": "proved",
   "theorems": [
    "C37_caller",
    "C37_dispatch",
    "C37_distinct",
    "C37_fits"
   ],
   "note": "All partitions and processor counts; C37_fits says exactly when the segments fit the table."
  },
  {
   "property": "C38",
   "status": "proved",
   "theorems": [
    "C38_disjoint",
    "C38_inside",
    "C38_partition"
   ],
   "note": "All reachable states, all configurations whose stacks fit."
  },
  {
   "property": "C40",
   "status": "proved",
   "theorems": [
    "C40_quotient",
    "C40_remainder",
    "C40_outcomes"
   ],
   "note": "All operands of 64 bits."
  },
  {
   "property": "C41",
   "status": "partial",
   "theorems": [
    "C41_memcpy",
    "C41_memset",
    "C41_strlen",
    "C41_strcmp",
    "C41_strncmp",
    "C41_strcmp_unsigned_refuted",
    "C41_memcmp_equal_refuted",
    "C41_memcmp_sign_refuted",
    "C41_memcmp_partial"
   ],
   "note": "memcpy (assembly and C variants), memset, strlen (both variants), strcmp and strncmp: proved, with signed order of characters (the unsigned order of the C standard is refuted). memcmp compares 32-bit words: refuted, with its exact meaning for zero."
  },
  {
   "property": "C42",
   "status": "partial",
   "theorems": [
    "C42_refuted",
    "C42_largest_refuted",
    "C42_partial",
    "C42_itoa",
    "C42_atoi",
    "C42_negative",
    "C42_radix",
    "C42_numeral_unique"
   ],
   "note": "False of negative numbers, of the smallest and of the 48 largest integers (refuted); proved for all others. itoa alone is proved for all integers but the smallest."
  },
  {
   "property": "C50",
   "status": "proved",
   "theorems": [
    "C50_printf",
    "C50_integer"
   ],
   "note": "All formats built from literals, %%, all integer conversions and sizes, %c and %s (the bases offered are 8, 10 and 16); the most negative 64-bit number is excluded (its negation is undefined)."
  },
  {
   "property": "C55",
   "status": "partial",
   "theorems": [
    "C55_refuted",
    "C55_partial"
   ],
   "note": "False: one too few for every number other than zero (refuted); the exact result is proved."
  },
  {
   "property": "C56",
   "status": "partial",
   "theorems": [
    "C56_strcpy",
    "C56_strncpy_partial",
    "C56_strncpy_padding_refuted",
    "C56_streq_refuted",
    "C56_streq_partial"
   ],
   "note": "strcpy proved; strncpy does not pad and streq accepts prefixes (refuted), what they do is proved."
  },
  {
   "property": "C43",
   "status": "partial",
   "theorems": [
    "C43_roundtrip_refuted",
    "C43_roundtrip_partial"
   ],
   "note": "False for bytes above 250, because the cipher works modulo 255 (refuted); proved that sizes come back and that exactly the bytes up to 250 do."
  },
  {
   "property": "C44",
   "status": "proved",
   "theorems": [
    "C44_block",
    "C44_cbc"
   ],
   "note": "Blocks for every schedule; CBC for every schedule, vector, message length and buffer layout. The protocol on top of it, which loses the length, is C57."
  },
  {
   "property": "C45",
   "status": "proved",
   "theorems": [
    "C45_block",
    "C45_keys",
    "C45_cbc"
   ],
   "note": "Blocks and CBC for every contents of the key structure and every message length; BF_set_key yields such a contents for every key."
  },
  {
   "property": "C57",
   "status": "partial",
   "theorems": [
    "C57_des_refuted",
    "C57_blowfish_refuted",
    "C57_des_partial",
    "C57_blowfish_partial"
   ],
   "note": "False for messages of other than eight bytes: the size stored is always 8 (refuted). Proved for eight bytes, for every good key."
  },
  {
   "property": "C58",
   "status": "partial",
   "theorems": [
    "C58_weak_refuted",
    "C58_refused_key_used_refuted",
    "C58_check_partial"
   ],
   "note": "False: the comparison with the weak keys covers 32 bytes, and the protocol ignores a refusal (refuted). The parity test, the acceptance of all good keys and the soundness of refusals are proved."
  },
  {
   "property": "C46",
   "status": "proved",
   "theorems": [
    "C46_real",
    "C46_local",
    "C46_bijection"
   ],
   "note": "All 64-bit masks and all 8-bit processor numbers."
  },
  {
   "property": "C49",
   "status": "partial",
   "theorems": [
    "C49_quantum_partial",
    "C49_drift_partial",
    "C49_evenly_refuted",
    "C49_no_drift_refuted"
   ],
   "note": "The counter counts nanoseconds; on it exactly the interrupts that complete a quantum call the scheduler (proved for all accepted frequencies). False: the calls come after 109 and after 108 interrupts, and the counter falls behind the oscillator without bound (refuted; rate of the drift proved)."
  },
  {
   "property": "C52",
   "status": "proved",
   "theorems": [
    "C52_assertions",
    "C52_all_entered",
    "C52_switch",
    "C52_all_leave"
   ],
   "note": "Every number of processors up to 255, every interleaving of single memory accesses; leaving for every fair schedule. Memory sequentially consistent."
  },
  {
   "property": "C53",
   "status": "proved",
   "theorems": [
    "C53_exclusion",
    "C53_assertions",
    "C53_acquire",
    "C53_count",
    "C53_foreign_release_refuted"
   ],
   "note": "Every interleaving of single memory accesses of any processors on any locks, if each releases only what it acquired; without that condition it is false (refuted). Memory sequentially consistent."
  },
  {
   "property": "C47",
   "status": "partial",
   "theorems": [
    "C47_fifo_partial",
    "C47_short_refuted",
    "C47_order_refuted",
    "C47_long_refuted",
    "C47_poll_refuted",
    "C47_id_refuted"
   ],
   "note": "Proved for all histories of all buffers of a partition if messages have exactly the message size, the buffers fit into the memory, their names are good, nobody polls an empty buffer and no id equals the number of buffers; each of these conditions is needed (refuted without)."
  },
  {
   "property": "C48",
   "status": "partial",
   "theorems": [
    "C48_read_partial",
    "C48_displayed_partial",
    "C48_length_refuted",
    "C48_clear_refuted",
    "C48_fresh_refuted"
   ],
   "note": "Proved: along every history a read begins with the last message displayed on that blackboard. False: the length, emptiness before the first display and after clearing (refuted)."
  },
  {
   "property": "C59",
   "status": "partial",
   "theorems": [
    "C59_streq_partial",
    "C59_found_partial",
    "C59_equal_refuted",
    "C59_found_refuted",
    "C59_long_refuted"
   ],
   "note": "Proved for names below 256 characters none of which begins another; false otherwise (refuted)."
  },
  {
   "property": "C39",
   "status": "partial",
   "theorems": [
    "C39_disjoint_refuted",
    "C39_isolated_partial",
    "C39_stack_partial",
    "C39_calloc_refuted"
   ],
   "note": "False: merging neighbouring free spaces can hand out a live block again, and calloc multiplies in 32 bits (refuted). Proved for all histories in which freed blocks have no free neighbour, and for all histories that free in reverse order of allocation."
  },
  {
   "property": "C60",
   "status": "partial",
   "theorems": [
    "C60_stack_partial",
    "C60_leak_refuted",
    "C60_beyond_refuted"
   ],
   "note": "False: memory is lost after some orders of frees, and the entry behind the table is read (refuted). Proved exactly for histories that free in reverse order, as long as the table of spaces has room."
  },
  {
   "property": "C51",
   "status": "partial",
   "theorems": [
    "C51_load_partial",
    "C51_reload_partial",
    "C51_outside_refuted",
    "C51_type_refuted",
    "C51_clear_refuted",
    "C51_magic_refuted"
   ],
   "note": "Proved for every well-formed file; false for others, which are not rejected: segments outside the partition, segments of other types, segments larger in the file than in memory and files with another magic number (refuted)."
  },
  {
   "property": "C31",
   "status": "partial",
   "theorems": [
    "C31_calls_partial",
    "C31_refused",
    "C31_others_partial",
    "C31_conswrite_refuted",
    "C31_getchar_refuted",
    "C31_mac_refuted",
    "C31_samplingread_refuted",
    "C31_lockobj_null_refuted",
    "C31_lockobj_size_refuted",
    "C31_net_refuted",
    "C31_race_refuted"
   ],
   "note": "Proved for all calls but eight, for all arguments; false of those eight (console write and read, MAC address, sampling read, lock operation, three network calls), each refuted and proved under the condition that should have been tested. False if another processor changes the arguments during the call (refuted)."
  },
  {
   "property": "C61",
   "status": "partial",
   "theorems": [
    "C61_bounds",
    "C61_registered_partial",
    "C61_behind_refuted",
    "C61_claimed_refuted",
    "C61_none_refuted"
   ],
   "note": "Proved: exactly the ports between the stored bounds. False: the bounds include the port behind the device, the size is what the partition claims, and without a device port 0 is accessible (refuted)."
  },
  {
   "property": "C62",
   "status": "proved",
   "theorems": [
    "C62_block",
    "C62_cbc",
    "C62_marshall"
   ],
   "note": "Against a separate specification of FIPS 46-3 on lists of bits."
  },
  {
   "property": "C63",
   "status": "partial",
   "theorems": [
    "C63_subkeys",
    "C63_block",
    "C63_marshall",
    "C63_cbc",
    "C63_pi_partial"
   ],
   "note": "Everything except the last clause is proved in full, the table being used as it stands. That the table is pi is proved for its first 64 of 1042 words; the others are not computed inside the prover."
  },
  {
   "property": "C64",
   "status": "partial",
   "theorems": [
    "C64_frames",
    "C64_never_early",
    "C64_single_none",
    "C64_period_bound",
    "C64_period_kept",
    "C64_windows",
    "C64_none",
    "C64_single_refuted",
    "C64_period_refuted"
   ],
   "note": "Proved for several partitions; refuted for a single partition (the code is compiled away and ports are never flushed) and for a flush period shorter than a slot."
  },
  {
   "property": "C65",
   "status": "partial",
   "theorems": [
    "C65_not_early_partial",
    "C65_periodic_date",
    "C65_at_once",
    "C65_started",
    "C65_normal_partial",
    "C65_never_started",
    "C65_not_early_refuted",
    "C65_normal_refuted"
   ],
   "note": "Proved for threads without period. Refuted for periodic ones: after initialisation they are released at a date counted from boot; in NORMAL mode the request neither stops a ready thread nor ever starts a stopped one (proved for all executions)."
  },
  {
   "property": "C66",
   "status": "partial",
   "theorems": [
    "C66_distinct",
    "C66_found",
    "C66_created",
    "C66_inside",
    "C66_status_partial",
    "C66_status_refuted",
    "C66_my_id_refuted",
    "C66_empty_refuted"
   ],
   "note": "Names, identifiers and table bounds proved for non-empty names (two processes may have the empty name: refuted). GET_PROCESS_STATUS reads the entry of the kernel thread number: proved when it equals the identifier, refuted otherwise; GET_MY_ID returns the kernel thread: refuted."
  },
  {
   "property": "C67",
   "status": "partial",
   "theorems": [
    "C67_suspend",
    "C67_never_resumed",
    "C67_resume_effect",
    "C67_stop_denied",
    "C67_start_refused",
    "C67_delay",
    "C67_not_early_partial",
    "C67_never_started",
    "C67_priority",
    "C67_resume_refuted",
    "C67_lock_refuted",
    "C67_stop_refuted",
    "C67_not_early_refuted",
    "C67_on_time_refuted"
   ],
   "note": "Proved: refusals change nothing, SUSPEND and SET_PRIORITY do what they say. Proved for all executions: a suspended process is never resumed, STOP is refused to all but the error handler, START never starts a stopped periodic process. Refuted: RESUME leaves lock queues alone (it hands out a held mutex), STOP by the error handler stops the designated process, delays are kept (multiplied by 1000, upper 32 bits lost). A service preempted between two of its system calls is not covered."
  },
  {
   "property": "C68",
   "status": "partial",
   "theorems": [
    "C68_sem_infinite",
    "C68_sem_not_early_partial",
    "C68_sem_on_time_partial",
    "C68_sem_short",
    "C68_sem_not_early_refuted",
    "C68_sem_no_wait_refuted",
    "C68_sem_on_time_refuted",
    "C68_event_not_early_partial",
    "C68_event_no_wait_refuted",
    "C68_event_infinite_refuted",
    "C68_event_on_time_refuted",
    "C68_receive_infinite",
    "C68_port_deadline",
    "C68_receive_on_time_refuted",
    "C68_receive_waits_refuted",
    "C68_receive_long_refuted",
    "C68_send_infinite_refuted",
    "C68_timed_wait_partial",
    "C68_timed_wait_refuted",
    "C68_timed_wait_long_refuted"
   ],
   "note": "Semaphores: proved up to one microsecond, except that time-outs below 1000 ns (also 0) wait for ever. Events: the unit is wrong by a factor of 1000, 0 waits for ever, INFINITE times out at once. Queueing ports: INFINITE does not wait (receive) or is 4.3 s (send), deadlines count the current time twice. TIMED_WAIT: proved up to one microsecond below 71 minutes, wraps beyond. Blocking inside a busy port or a full buffer array is not covered."
  },
  {
   "property": "C69",
   "status": "partial",
   "theorems": [
    "C69_always_waits",
    "C69_latched_refuted",
    "C69_set",
    "C69_set_succeeds_refuted",
    "C69_all_woken_refuted",
    "C69_return_partial",
    "C69_stuck",
    "C69_return_refuted"
   ],
   "note": "Refuted: events have no state (WAIT_EVENT always waits, C69_always_waits), SET_EVENT fails when nobody waits and otherwise wakes exactly the most urgent waiter (C69_set), and WAIT_EVENT keeps the lock of the kernel event, so that a second woken waiter is stuck until somebody else calls WAIT_EVENT (C69_stuck, for every continuation). Proved: a woken waiter returns NO_ERROR if the lock is free (C69_return_partial)."
  },
  {
   "property": "C70",
   "status": "partial",
   "theorems": [
    "C70_strncmp",
    "C70_distinct",
    "C70_requests",
    "C70_created_found",
    "C70_found_partial",
    "C70_unknown_partial",
    "C70_event_refused_partial",
    "C70_found_refuted",
    "C70_create_refuted",
    "C70_unknown_refuted",
    "C70_uncreated_refuted",
    "C70_event_refused_refuted",
    "C70_sem_refused_refuted",
    "C70_sem_range_refuted",
    "C70_sem_apart_refuted"
   ],
   "note": "Proved: distinct identifiers, requests on created objects reach the kernel object made for them for ever, the name of a creation finds it. Refuted: names match by prefix (C70_strncmp), so a declared name can find another object, be impossible to create, and undeclared or never created names are found; negative event identifiers and semaphores that were not created are not refused, the latter act on kernel object 0. Partial theorems state what remains."
  },
  {
   "property": "C71",
   "status": "partial",
   "theorems": [
    "C71_effect",
    "C71_refusals",
    "C71_normal",
    "C71_idle_refuted",
    "C71_cold_refuted",
    "C71_warm_refuted",
    "C71_codes_refuted",
    "C71_mode_partial",
    "C71_identifier_partial",
    "C71_identifier_refuted",
    "C71_duration_refuted",
    "C71_period_refuted",
    "C71_boot_refuted"
   ],
   "note": "Proved: a request is granted with NO_ERROR or changes nothing; the refusals of ARINC 653 have their codes; the main thread starts its partition; the reported mode is right (unless another processor has just stopped the partition). Refuted: IDLE and COLD_START are never set, ordinary processes cannot ask for WARM_START, kernel error numbers come back as return codes, the identifier keeps three old bytes, the duration is that of the slot with the number of the partition, the period is 0, the first start is reported as warm."
  },
  {
   "property": "C72",
   "status": "partial",
   "theorems": [
    "C72_arithmetic",
    "C72_floorf",
    "C72_ceilf",
    "C72_truncf",
    "C72_roundf",
    "C72_special",
    "C72_rintf_partial",
    "C72_rintf_refuted"
   ],
   "note": "Proved for floorf, ceilf, truncf, roundf, all patterns, and for infinities and NaN. rintf: proved except when 2^21 <= |x| < 2^22, the fraction is 3/4 and the integer part even; there refuted (rintf(2097152.75) = 2097152). C72_arithmetic shows that the modelled operations of the processor round to nearest even as IEEE 754 prescribes."
  },
  {
   "property": "C73",
   "status": "partial",
   "theorems": [
    "C73_floor_partial",
    "C73_ceil_partial",
    "C73_trunc_partial",
    "C73_round_partial",
    "C73_special_partial",
    "C73_rint_partial",
    "C73_rint_refuted",
    "C73_big_endian_refuted"
   ],
   "note": "Proved on little-endian processors for floor, ceil, trunc, round, infinities and NaN; rint: except when 2^18 <= |x| < 2^19, the fraction is 3/4 and the integer part even; there refuted (rint(262144.75) = 262144). Refuted on big-endian processors, where the union of math_private.h swaps the two words."
  },
  {
   "property": "C74",
   "status": "partial",
   "theorems": [
    "C74_sign_float",
    "C74_class_float",
    "C74_sign_double_partial",
    "C74_class_double_partial",
    "C74_isnan_refuted",
    "C74_big_endian_refuted"
   ],
   "note": "Proved for float; for double on little-endian processors except that isnan returns -1 for NaN (the cast binds closer than the shift). Refuted on big-endian processors."
  },
  {
   "property": "C75",
   "status": "partial",
   "theorems": [
    "C75_nextafterf_partial",
    "C75_nextafter_partial",
    "C75_equal_refuted",
    "C75_big_endian_refuted"
   ],
   "note": "Proved for float and little-endian double when the arguments differ; for equal arguments x is returned instead of y, which differs for zeros (refuted). Refuted on big-endian processors."
  },
  {
   "property": "C76",
   "status": "partial",
   "theorems": [
    "C76_float_partial",
    "C76_double_partial",
    "C76_overflow_refuted",
    "C76_big_endian_refuted"
   ],
   "note": "Proved for float and little-endian double for all exponents but the few next to INT_MAX and INT_MIN for which adding the exponent of x can leave the range of an int; there the program is undefined (refuted with scalbn(1.0, INT_MAX)). Refuted on big-endian processors."
  },
  {
   "property": "C77",
   "status": "partial",
   "theorems": [
    "C77_frexp_float",
    "C77_ilogb_float",
    "C77_modf_float_partial",
    "C77_logb_float_partial",
    "C77_frexp_double_partial",
    "C77_ilogb_double_partial",
    "C77_modf_double_partial",
    "C77_logb_double_partial",
    "C77_logb_refuted",
    "C77_modf_refuted",
    "C77_big_endian_refuted"
   ],
   "note": "Proved for frexp and ilogb, all values; for modf except NaN (the rest is a zero, refuted); for logb except subnormals (always -126 or -1022, refuted); double on little-endian processors, refuted on big-endian ones."
  },
  {
   "property": "C78",
   "status": "partial",
   "theorems": [
    "C78_sqrt_float",
    "C78_sqrt_double_partial",
    "C78_sqrt_double_refuted",
    "C78_big_endian_refuted"
   ],
   "note": "Proved for float, all values; for double on little-endian processors except subnormals whose leading bit is bit 31 or bit 10, for which the program shifts by 32, which is undefined (refuted). Refuted on big-endian processors."
  },
  {
   "property": "C79",
   "status": "partial",
   "theorems": [
    "C79_fmod_float",
    "C79_fmod_double_partial",
    "C79_big_endian_refuted"
   ],
   "note": "Proved for float, all values; for double on little-endian processors, all values. Refuted on big-endian processors."
  },
  {
   "property": "C80",
   "status": "partial",
   "theorems": [
    "C80_remainder_float",
    "C80_remainder_double_partial",
    "C80_big_endian_refuted"
   ],
   "note": "Proved for float, all values; for double on little-endian processors, all values. Refuted on big-endian processors."
  },
  {
   "property": "C81",
   "status": "partial",
   "theorems": [
    "C81_isolation_partial",
    "C81_disjoint",
    "C81_service_partial",
    "C81_isolation_refuted",
    "C81_service_refuted",
    "C81_fault_refuted"
   ],
   "note": "Isolation proved when segment registers 1 to 15, which the kernel never writes, do not hold the number of a partition, and the page table, which it never clears, is empty at boot; service proved for partitions of at most 256 MB that together need at most eight blocks of 4 MB. Refuted: with all segment registers 0 a partition reaches partition 0 through segment 1; a partition of 36 MB stops the kernel by touching nine of its pages; any access outside the memory of the partition stops the kernel."
  },
  {
   "property": "C82",
   "status": "partial",
   "theorems": [
    "C82_exact_partial",
    "C82_isolation_partial",
    "C82_service_partial",
    "C82_aligned",
    "C82_refused",
    "C82_service_refuted",
    "C82_isolation_refuted",
    "C82_oversize_refuted"
   ],
   "note": "Proved when the table of contexts is on a multiple of 64; the attribute in the code guarantees that for 16 or more partitions only. Refuted for two partitions and a table on a multiple of 8 (memory not reached; kernel memory written). A partition of more than 256 KB is run without memory, as boot ignores the refusal."
  },
  {
   "property": "C83",
   "status": "partial",
   "theorems": [
    "C83_interrupt",
    "C83_exception",
    "C83_syscall",
    "C83_frame",
    "C83_software_refuted",
    "C83_ipi_refuted",
    "C83_eoi_refuted"
   ],
   "note": "Proved for the stubs of interrupts, exceptions and the system call. Refuted: INT 13 (or 8, 10, 11, 12, 14, 17) executed by a partition, which the gates allow (C85), pushes no error code, and the stub's IRET faults in the kernel; the stub of inter-processor interrupts calls pok_end_ipi after it has restored the registers, so that eax is lost and the end of interrupt is written into the partition's memory instead of the APIC."
  },
  {
   "property": "C84",
   "status": "partial",
   "theorems": [
    "C84_switch",
    "C84_snapshot",
    "C84_start",
    "C84_fpu_refuted",
    "C84_fs_refuted"
   ],
   "note": "Proved for the general registers, flags, stack, code and data segments. Refuted for the floating-point registers, which the kernel never saves, and for fs and gs: a thread of partition 1 starts with fs on the memory of partition 0."
  },
  {
   "property": "C85",
   "status": "partial",
   "theorems": [
    "C85_gate",
    "C85_boot",
    "C85_errorcode",
    "C85_open",
    "C85_only_syscall_refuted",
    "C85_clock_refuted",
    "C85_rendezvous_refuted",
    "C85_pci_refuted",
    "C85_line_refuted"
   ],
   "note": "Proved: every exception and interrupt of the kernel reaches its handler. Refuted: all gates are open to INT instructions of partitions, so that a partition can move the clock (INT 32) or fail an assertion of the rendezvous (INT 34); the gate of a PCI device has a null selector, replaces the system call's for line 10, and lies outside the table for line 255."
  },
  {
   "property": "C86",
   "status": "partial",
   "theorems": [
    "C86_where",
    "C86_not_own",
    "C86_goes_on",
    "C86_restart_cost",
    "C86_isolation_refuted",
    "C86_kernel_refuted",
    "C86_start_refuted",
    "C84_start"
   ],
   "note": "Proved: where pok_context_reset writes in every reachable state; that a stopped thread goes on where it was stopped; that each restart by the error handler takes 8192 bytes for ever; that the context made by pok_thread_restart starts at the entry (C84_start). Refuted: the claim for START: the address is relative to the partition but used as a linear one, so that another partition or the kernel is overwritten, and the saved context is not reset."
  },
  {
   "property": "C87",
   "status": "partial",
   "theorems": [
    "C87_write",
    "C87_safe",
    "C87_init",
    "C87_serial",
    "C87_text_refuted",
    "C87_result_refuted",
    "C87_serial_result_refuted"
   ],
   "note": "Proved: every complete text is shown as on the terminal, and every text whatever touches the screen only. Refuted: a text that ends with an escape character shows bytes behind it; CONSWRITE returns EINVAL for texts without visible characters and, on SPARC and PowerPC, always."
  },
  {
   "property": "C88",
   "status": "partial",
   "theorems": [
    "C88_fault",
    "C88_code_refuted",
    "C88_code_wrong",
    "C88_unhandled",
    "C88_raised",
    "C88_none",
    "C88_consumed_refuted",
    "C88_unhandled_raise_refuted",
    "C88_raise_service",
    "C88_raise_refused",
    "C88_raise_service_refuted",
    "C88_overrun",
    "C88_text_faults",
    "C88_return_code",
    "C88_status_refuted",
    "C88_process_partial",
    "C88_process_refuted",
    "C88_log",
    "C88_log_refuted"
   ],
   "note": "Proved for the kernel: the handler of the partition runs next and reads code, thread and message in the kernel's structure. Refuted: accesses outside the segment, overflows and floating-point errors have other codes than the standard's; an error is never consumed; an error raised without a handler is dropped; the library's structure has 20 bytes and a pointer where the kernel writes 268 and the text, so GET_ERROR_STATUS overwrites its stack and faults on every text of four printable characters; it never stores NO_ERROR; processes created after the handler are reported under another identifier; the 101st log entry is written behind the log."
  },
  {
   "property": "C89",
   "status": "partial",
   "theorems": [
    "C89_create_sampling_partial",
    "C89_refresh_refuted",
    "C89_create_queuing_partial",
    "C89_queuing_size_refuted",
    "C89_queuing_again_refuted",
    "C89_refused",
    "C89_sampling_id",
    "C89_identifier_refuted",
    "C89_write_partial",
    "C89_write_kind_refuted",
    "C89_read",
    "C89_status_partial",
    "C89_status_refuted",
    "C89_empty",
    "C89_code_refuted",
    "C89_length_refuted",
    "C89_queuing_id_refuted",
    "C89_queuing_id_stray",
    "C89_queuing_status_refuted",
    "C89_blackboard_refuted"
   ],
   "note": "Proved: creation of sampling ports with refresh periods below 2^32 ns, of queueing ports whose total size does not wrap, refused parameters, identifiers of sampling ports, reads, writes to identifiers below 256, size, refresh and validity in the status. Refuted: a refresh period of 5 s becomes 0.7 s; a queueing port of 0x40000001 x 4 bytes gets 4 bytes under NO_ERROR, and creating a port again with another size is NO_ERROR too; identifier 258 writes to port 2; a sampling message can be written to a queueing port; the status of a source says direction 2; error numbers of the kernel are returned as return codes; what RECEIVE_QUEUING_MESSAGE does depends on the old value of LENGTH; GET_QUEUING_PORT_ID writes where its variable points; GET_QUEUING_PORT_STATUS returns what the stack held; CREATE_BLACKBOARD does not store the identifier."
  },
  {
   "property": "C90",
   "status": "partial",
   "theorems": [
    "C90_isi_partial",
    "C90_dsi_partial",
    "C90_system_call_partial",
    "C90_kernel_tick_partial",
    "C90_preemption_refuted",
    "C90_errors_refuted",
    "C90_kernel_faults",
    "C90_kernel_stack_refuted",
    "C90_exit_refuted"
   ],
   "note": "Proved: page faults, system calls and ticks inside the kernel restore every register, pass the right arguments, write only their frame. Missing and refuted: the tick of a running partition stops the machine, as does every other exception (illegal instruction, alignment); SPRG1 is set to the beginning of the frame instead of its end, so each entry from user mode lowers the kernel stack by 80 bytes and the 103rd frame lies below it; an interrupt before the rfi of a system call writes a frame below the program's stack pointer in supervisor mode and then rfi returns to itself for ever."
  },
  {
   "property": "C91",
   "status": "partial",
   "theorems": [
    "C91_switch",
    "C91_start",
    "C91_kernel_start_partial",
    "C91_idle_refuted",
    "C91_tick_refuted",
    "C91_reset_extent",
    "C91_restart_refuted",
    "C91_reset_refuted"
   ],
   "note": "Proved: switching there and back, the start of partition threads and of kernel threads. Refuted: the idle thread that the tick switches to runs with interrupts off for ever; a tick between the last two loads of pok_context_switch makes the new thread return to the old one's address; pok_context_reset does not touch the kernel's context, so a restarted thread goes on where it stopped, and is 4 bytes off where contexts are."
  },
  {
   "property": "C92",
   "status": "partial",
   "theorems": [
    "C92_time_base",
    "C92_time_base_again",
    "C92_ppc_counts",
    "C92_ppc_ends",
    "C92_ppc_late_refuted",
    "C92_ppc_units_refuted",
    "C92_sparc_period",
    "C92_sparc_refuted"
   ],
   "note": "Proved: consistent reading of the time base, exact counting of periods for delays below 2^31 cycles, termination of the handler's loop, the period of the SPARC timer. Refuted: a delay of 2^31 cycles or more loses the ticks; the PowerPC tick counter advances by 40 per 400000 ns; the SPARC timer interrupts every 1002 clocks instead of 500, so that its clock runs at less than half speed."
  },
  {
   "property": "C93",
   "status": "partial",
   "theorems": [
    "C93_windows",
    "C93_write_refuted",
    "C93_read_refuted",
    "C93_halt_refuted"
   ],
   "note": "Proved: simulation of a machine with unlimited windows, for every program and every length. Refuted: protection. The traps store and load with the rights of the kernel at the stack pointer of the frame: a program in user mode writes sixteen words of its choice into kernel memory or reads sixteen words of it, and an odd or unmapped stack pointer stops the processor."
  },
  {
   "property": "C94",
   "status": "partial",
   "theorems": [
    "C94_threads_partial",
    "C94_context_switch",
    "C94_create",
    "C94_create_idle",
    "C94_syscall",
    "C94_full_refuted",
    "C94_flags_refuted",
    "C94_y_refuted",
    "C94_mode_refuted",
    "C94_write_refuted",
    "C94_halt_refuted",
    "C94_exception_refuted",
    "C94_software_refuted",
    "C94_reset_refuted"
   ],
   "note": "Proved: registers of all frames, memory and program counters over any history of any number of threads, provided no interrupt comes while seven frames are in windows; new threads; system calls. Refuted: with seven frames in windows the oldest frame gets a kernel address as return address; condition codes and Y are lost; every trap returns to supervisor mode; registers are stored with kernel rights at the program's stack pointer, and an odd one stops the processor; exceptions are executed again for ever (without debugging code); trap instructions other than the system call restart the kernel; pok_context_reset exchanges entry point and number of the idle thread, whatever thread is to be restarted."
  },
  {
   "property": "C95",
   "status": "partial",
   "theorems": [
    "C95_write",
    "C95_sizes",
    "C95_init",
    "C95_mac_refuted",
    "C95_leak_refuted"
   ],
   "note": "Proved: sending, for all messages and destinations, and the state after initialisation. Refuted: the address of the node is always 0, because page 1 is selected while the DMA is programmed; short frames carry bytes of the kernel stack."
  },
  {
   "property": "C96",
   "status": "partial",
   "theorems": [
    "C96_history_partial",
    "C96_late_refuted",
    "C96_endless_refuted",
    "C96_wrap_refuted",
    "C96_long_refuted",
    "C96_check_refuted",
    "C96_port_refuted",
    "C96_size_refuted",
    "C96_count_refuted",
    "C96_foreign_refuted"
   ],
   "note": "Proved: delivery whole and in order over histories of any length of one-page frames in which the ring wraps any number of times, but with the last frame left on the card, and without a poll when the next page is the first of the ring. Refuted: the last frame is not delivered; with the next page being the first the poll does not end, or overruns its packet; longer frames, frames with check bytes and unknown ports make the poll go beyond its arrays; messages of more than 20 bytes are never delivered; rtl8029_poll_and_read loses sight of the rest of a message and of what follows a frame for another node."
  },
  {
   "property": "C97",
   "status": "partial",
   "theorems": [
    "C97_discover",
    "C97_alone",
    "C97_numbers",
    "C97_stacks",
    "C97_ipi",
    "C97_all",
    "C97_handlers",
    "C97_single",
    "C97_startup",
    "C97_schedule_in_order",
    "C97_ebda_refuted",
    "C97_ebda_start_refuted",
    "C97_default_refuted",
    "C97_stray_refuted",
    "C97_ioapic_refuted",
    "C97_unusable_refuted",
    "C97_apic_refuted",
    "C97_stack_refuted",
    "C97_schedule_refuted"
   ],
   "note": "Proved: the structure in the ROM and its table, for all tables; numbers, stacks, messages between processors. Refuted: a structure in the extended BIOS data area is not used (its offset is taken for its address); default configurations; signatures at odd places are taken; entries of I/O APICs are overwritten; a processor marked unusable stops the kernel; APIC numbers beyond the number of processors write outside proc_index; a boot processor that is not number 0 shares its stack; processor numbers are used as APIC numbers, so a request goes to another processor when they came in another order."
  },
  {
   "property": "C98",
   "status": "partial",
   "theorems": [
    "C98_init",
    "C98_masks",
    "C98_interrupt",
    "C98_served",
    "C98_handler",
    "C98_line2_refuted",
    "C98_register_refuted",
    "C98_vectors_refuted",
    "C98_acknowledge_refuted"
   ],
   "note": "Proved: initialisation, masks, interrupts, service in order, handlers, over all histories. Refuted: masking line 2 stops eight other lines; registration for lines from 16 on reports success and can replace an exception handler; lines 1 to 3 and 10 share their vectors with the interrupts between processors and the system calls; an acknowledgement ends the service that comes first, whatever its argument."
  },
  {
   "property": "C99",
   "status": "partial",
   "theorems": [
    "C99_read",
    "C99_open_partial",
    "C99_ports_partial",
    "C99_register",
    "C99_range_refuted",
    "C99_port0_refuted",
    "C99_last_refuted",
    "C99_align_refuted",
    "C99_wrap_refuted",
    "C99_found_refuted"
   ],
   "note": "Proved: reads of registers; the search among eight buses for functions with a zero header byte and no self test; the ports touched over all histories when the ports of registered devices start at a multiple of 32 and the ranges given end below 65536, except for port 0. Refuted: the range is named by the partition, so with any device whose address has low bits 0 all ports are open; port 0 is open to all; a range of n opens n + 1 ports; ports not at a multiple of 32 open those of a neighbour; a range that wraps opens nothing; devices with several functions, with a self test or beyond bus 7 are not found."
  },
  {
   "property": "C100",
   "status": "partial",
   "theorems": [
    "C100_services_partial",
    "C100_refused",
    "C100_board_size",
    "C100_codes_refuted",
    "C100_discipline_refuted",
    "C100_room_refuted",
    "C100_identifier_refuted",
    "C100_status_refuted",
    "C100_get_refuted",
    "C100_board_empty_refuted"
   ],
   "note": "Proved: all histories of requests that the standard grants or lets wait, with messages of the greatest length; refusals; limits in the status. Refuted: codes (a full buffer, a second creation and a time-out give numbers that are no codes, unknown identifiers and names NO_ACTION); the discipline has no effect; impossible sizes and buffers larger than the memory are accepted and overwrite other memory; identifiers count modulo 256; the number of messages is always 0, limits from 256 on wrap, the status of a buffer not created divides by zero; the identifier and status services do nothing; a blackboard with a message is reported empty."
  },
  {
   "property": "C101",
   "status": "partial",
   "theorems": [
    "C101_exchange",
    "C101_created",
    "C101_operations",
    "C101_refused",
    "C101_timeout_refuted",
    "C101_identifier",
    "C101_identifier_refuted",
    "C101_times",
    "C101_times_refuted",
    "C101_sampling",
    "C101_queueing",
    "C101_queueing_refuted",
    "C101_error_fields",
    "C101_error_refuted",
    "C101_kinds",
    "C101_kinds_refuted"
   ],
   "note": "Proved: six structures are exchanged faithfully for all contents; lock objects are made and operated on as asked for whatever the unset fields contain; the status of sampling ports; kinds of errors but one. Refuted: time-outs are multiplied modulo 2^64 and times in registers taken modulo 2^32; the number of an event has a stray second byte; the two sides declare the status of queueing ports and of errors differently, so that the number of messages is always 0, the number of waiting processes is what the variable contained, 268 bytes are written into 20 and the text of an error is used as an address; one kind of error has two numbers."
  },
  {
   "property": "C102",
   "status": "partial",
   "theorems": [
    "C102_range",
    "C102_states",
    "C102_even",
    "C102_half",
    "C102_period",
    "C102_max_refuted"
   ],
   "note": "Proved but for the size: the hidden number runs through all 2^32 numbers, every result occurs 16711935 times (0 once more), the periods of the results are exactly the multiples of 2^32. Refuted: RAND_MAX is 256, the standard asks for 32767 at least."
  },
  {
   "property": "C103",
   "status": "partial",
   "theorems": [
    "C103_scalb_float",
    "C103_scalb_double_partial",
    "C103_significand_float",
    "C103_significand_double_partial",
    "C103_big_endian_refuted"
   ],
   "note": "Proved for floats and, on little-endian processors, for doubles: the wrong results of rint are still integers, so fractions are told from integers, and cutting fn off at 65000 changes no result. Refuted on big-endian processors: scalb(1.0, 0.0) is 0.0."
  },
  {
   "property": "C104",
   "status": "proved",
   "theorems": [
    "C104_logarithms",
    "C104_exponential",
    "C104_inverse_trigonometric",
    "C104_hyperbolic",
    "C104_cube_root",
    "C104_trigonometric"
   ],
   "note": "Proved for every continuation after the tests. The __ieee754_ functions are modelled, not the wrappers of k_standard.c; the values in the interior of the domains and the versions for double are not covered."
  },
  {
   "property": "C105",
   "status": "partial",
   "theorems": [
    "C105_zero_and_nan",
    "C105_infinite_exponent",
    "C105_zero_and_infinite_base",
    "C105_negative_base",
    "C105_base_one_refuted"
   ],
   "note": "Proved but for the bases 1 and -1. Refuted there: powf(1, NaN), powf(1, +-infinity) and powf(-1, +-infinity) are NaN instead of 1. __ieee754_powf is modelled, not the wrapper; the values in the interior are not covered."
  },
  {
   "property": "C106",
   "status": "partial",
   "theorems": [
    "C106_atan2_ends",
    "C106_atan2_pi_partial",
    "C106_atan2_pi_refuted"
   ],
   "note": "Proved but for the results that are pi: these are pi rounded towards zero, not to nearest (refuted: atan2f(0, -1) is 0x40490fda, one unit below acosf(-1)). __ieee754_atan2f is modelled, not the wrapper; the interior is not covered."
  },
  {
   "property": "C107",
   "status": "partial",
   "theorems": [
    "C107_hypot_ends",
    "C107_hypot_refuted"
   ],
   "note": "Zeros, infinities and NaN proved. Refuted: beyond 2^50 and below 2^-50 the scaling is by 2^187 where 2^60 is meant, and by 1/2 for subnormal numbers where 2^126 is, so that hypotf(3*2^51, 4*2^51) and hypotf(3*2^-60, 4*2^-60) are NaN and the hypotenuse of subnormal sides is 0. Missing: the accuracy in the middle range."
  }
 ]
}