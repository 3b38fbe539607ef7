(** Health monitoring: kernel/core/error.c, the exception handlers of kernel/arch/x86/exceptions.c, the system calls of
    kernel/core/syscall.c and the services of libpok/arinc653/error.c and libpok/core/errorlog.c.
    Simplified: the memory of the current partition is a map from its own addresses (0 to its size - 1) to bytes, so the
    addition of its base to a pointer does not appear (Model/Syscall.v has it); memcpy copies its bytes at once (C41 is
    about the loop); the build is the one without POK_NEEDS_DEBUG. *)
From Verif Require Import Model.Base Model.Mem Model.Syscall.

(** Error kinds, kernel/include/core/error.h:21-37. *)
Definition KIND_INVALID := 9.
Definition KIND_DEADLINE_MISSED := 10.
Definition KIND_APPLICATION_ERROR := 11.
Definition KIND_NUMERIC_ERROR := 12.
Definition KIND_ILLEGAL_REQUEST := 13.
Definition KIND_STACK_OVERFLOW := 14.
Definition KIND_MEMORY_VIOLATION := 15.
Definition KIND_HARDWARE_FAULT := 16.
Definition KIND_POWER_FAIL := 17.
Definition KIND_PARTITION_HANDLER := 33.
(** POK_ERROR_MAX_MSG_SIZE, kernel/include/core/error.h:39. *)
Definition MAX_MSG := 250.

(** The kernel's pok_error_status_t, kernel/include/core/error.h:41-47. *)
Record status := mkStatus { s_kind : Z; s_thread : Z; s_addr : Z; s_msg : Z -> Z; s_size : Z }.

(** The fields of pok_partition_t used here, kernel/include/core/partition.h:61-126, with the thread that runs in the
    partition: thread_index_low, current thread, thread_error, error_status. *)
Record part := mkPart { p_low : Z; p_current : Z; p_handler : Z; p_status : status }.

(** pok_partitions and pok_current_partition. *)
Record kernel := mkKernel { k_cur : Z; k_parts : Z -> part }.
Definition cur (k : kernel) : part := k_parts k (k_cur k).
Definition set_status (k : kernel) (s : status) : kernel :=
  let p := cur k in mkKernel (k_cur k) (upd (k_parts k) (k_cur k) (mkPart (p_low p) (p_current p) (p_handler p) s)).

(** pok_partition_init, kernel/core/partition.c:225-229, and pok_partition_reinit, :98-102: the message is not cleared. *)
Definition no_error (s : status) : status := mkStatus KIND_INVALID 0 0 (s_msg s) 0.

(** What happens next: a thread is switched to, the error is left to the partition level (pok_partition_error, which
    does nothing, error.c:86-99), or the interrupted thread goes on. *)
Inductive next := Switch (t : Z) | Partition_level (kind : Z) | Go_on.

(** pok_sched_activate_error_thread, kernel/core/sched.c:717-728: the thread switched to. *)
Definition activate (k : kernel) : next := if p_handler (cur k) =? 0 then Go_on else Switch (p_handler (cur k)).

(** pok_error_declare, kernel/core/error.c:48-69, followed by pok_sched_activate_error_thread as in all its callers. *)
Definition error_declare (k : kernel) (kind : Z) : kernel * next :=
  let p := cur k in
  if p_handler p =? 0 then (k, Partition_level (u8 kind))
  else
    let k' := set_status k (mkStatus (u8 kind) (u32 (p_current p - p_low p)) (s_addr (p_status p)) (s_msg (p_status p)) 0) in
    (k', activate k').

(** The handlers of the exceptions, kernel/arch/x86/exceptions.c:84-295, vectors kernel/arch/x86/event.h:41-59. *)
Definition exception_kind (v : Z) : option Z :=
  if v =? 0 then Some KIND_NUMERIC_ERROR            (* exception_divide_error *)
  else if v =? 1 then Some KIND_ILLEGAL_REQUEST     (* exception_debug *)
  else if v =? 2 then Some KIND_ILLEGAL_REQUEST     (* exception_nmi *)
  else if v =? 3 then Some KIND_ILLEGAL_REQUEST     (* exception_breakpoint *)
  else if v =? 4 then Some KIND_STACK_OVERFLOW      (* exception_overflow *)
  else if v =? 5 then Some KIND_STACK_OVERFLOW      (* exception_boundrange *)
  else if v =? 6 then Some KIND_ILLEGAL_REQUEST     (* exception_invalidopcode *)
  else if v =? 7 then Some KIND_ILLEGAL_REQUEST     (* exception_nomath_coproc *)
  else if v =? 9 then Some KIND_MEMORY_VIOLATION    (* exception_copseg_overrun *)
  else if v =? 10 then Some KIND_MEMORY_VIOLATION   (* exception_invalid_tss *)
  else if v =? 11 then Some KIND_MEMORY_VIOLATION   (* exception_segment_not_present *)
  else if v =? 12 then Some KIND_MEMORY_VIOLATION   (* exception_stackseg_fault *)
  else if v =? 13 then Some KIND_ILLEGAL_REQUEST    (* exception_general_protection *)
  else if v =? 14 then Some KIND_MEMORY_VIOLATION   (* exception_pagefault *)
  else if v =? 16 then Some KIND_HARDWARE_FAULT     (* exception_fpu_fault *)
  else if v =? 17 then Some KIND_HARDWARE_FAULT     (* exception_alignement_check *)
  else if v =? 18 then Some KIND_HARDWARE_FAULT     (* exception_machine_check *)
  else if v =? 19 then Some KIND_HARDWARE_FAULT     (* exception_simd_fault *)
  else None.
(** exceptions.c:84-295; exception_doublefault (:174-183) goes to the partition level at once. *)
Definition exception (k : kernel) (v : Z) : option (kernel * next) :=
  if v =? 8 then Some (k, Partition_level KIND_PARTITION_HANDLER)
  else option_map (error_declare k) (exception_kind v).

(** Bytes [src 0], [src 1], ... copied to address [a]. *)
Definition blit (m : Z -> Z) (a : Z) (src : Z -> Z) (n : Z) : Z -> Z :=
  fun x => if (a <=? x) && (x <? a + n) then src (x - a) else m x.
(** A 32-bit store, lowest byte first. *)
Definition store32 (m : Z -> Z) (a v : Z) : Z -> Z := blit m a (fun i => (v / 2 ^ (8 * i)) mod 256) 4.

(** pok_error_raise_application_error, kernel/core/error.c:129-144; [m] the memory, [a] the address of the message. *)
Definition raise_application_error (k : kernel) (m : Z -> Z) (a n : Z) : kernel * next :=
  let n := if MAX_MSG <? n then MAX_MSG else n in
  let p := cur k in
  let k' := set_status k (mkStatus KIND_APPLICATION_ERROR (u32 (p_current p - p_low p)) (s_addr (p_status p))
              (blit (s_msg (p_status p)) 0 (fun i => m (a + i)) n) n) in
  (k', activate k').

(** pok_error_get, kernel/core/error.c:146-160. Offsets of the kernel's structure (i386 ABI): error_kind 0, failed_thread 4,
    failed_addr 8, msg 12, msg_size 264; size 268. *)
Definition error_get (k : kernel) (m : Z -> Z) (a : Z) : (Z -> Z) * Z :=
  let s := p_status (cur k) in
  if s_kind s =? KIND_INVALID then (m, ERR_UNAVAILABLE)
  else
    let m := upd m a (s_kind s) in
    let m := store32 m (a + 4) (s_thread s) in
    let m := store32 m (a + 8) (s_addr s) in
    let m := store32 m (a + 264) (s_size s) in
    (blit m (a + 12) (s_msg s) (s_size s), ERR_OK).

(** POK_SYSCALL_ERROR_RAISE_APPLICATION_ERROR, kernel/core/syscall.c:245-250; [size] is the size of the partition and
    [ptr_in_partition] is CHECK_PTR (:52-57). *)
Definition sys_raise (size : Z) (k : kernel) (m : Z -> Z) (a n : Z) : kernel * next * Z :=
  if ptr_in_partition 1 (fun _ => size) 0 a n then (raise_application_error k m a n, ERR_OK) else ((k, Go_on), ERR_EINVAL).

(** POK_SYSCALL_ERROR_GET, kernel/core/syscall.c:252-255. *)
Definition sys_get (size : Z) (k : kernel) (m : Z -> Z) (a : Z) : (Z -> Z) * Z :=
  if ptr_in_partition 1 (fun _ => size) 0 a 268 then error_get k m a else (m, ERR_EINVAL).

(** ** The library of the partition *)

(** RETURN_CODE_TYPE, libpok/include/arinc653/types.h:44-52. *)
Definition NO_ERROR := 0.
Definition NO_ACTION := 1.
Definition INVALID_PARAM := 3.

(** CONVERT_ERROR_POK_TO_ARINC, libpok/arinc653/error.c:58-84, with the codes of libpok/include/arinc653/error.h:34-43. *)
Definition to_arinc (kind : Z) : option Z :=
  if (KIND_DEADLINE_MISSED <=? kind) && (kind <=? KIND_POWER_FAIL) then Some (kind - KIND_DEADLINE_MISSED) else None.

(** RAISE_APPLICATION_ERROR, libpok/arinc653/error.c:141-158; LENGTH is signed. REPORT_APPLICATION_MESSAGE (:90-101) is the same
    without the test of the code. The result of the system call is dropped (libpok/core/errorraise.c has no result). *)
Definition raise_service (size : Z) (k : kernel) (m : Z -> Z) (code a len : Z) : kernel * next * Z :=
  if 64 <? len then ((k, Go_on), INVALID_PARAM)
  else if negb (code =? 1) then ((k, Go_on), INVALID_PARAM)
  else (fst (sys_raise size k m a (u32 len)), NO_ERROR).

(** GET_ERROR_STATUS, libpok/arinc653/error.c:117-139. [loc] is the address of core_status, [es] of *ERROR_STATUS, [rc] of
    *RETURN_CODE. Offsets of the library's pok_error_status_t (libpok/include/core/error.h:22-28): error_kind 0, failed_thread
    4, failed_addr 8, msg (a pointer) 12, msg_size 16; size 20. Offsets of ERROR_STATUS_TYPE (libpok/include/arinc653/error.h:
    48-54): ERROR_CODE 0, LENGTH 4, FAILED_PROCESS_ID 8, FAILED_ADDRESS 12, MESSAGE 16; size 80. [None]: a load outside of
    the partition's segment. *)
Definition get_error_status (size : Z) (k : kernel) (m : Z -> Z) (loc es rc : Z) : option (Z -> Z) :=
  let (m, r) := sys_get size k m loc in
  if negb (r =? ERR_OK) then Some (store32 m rc NO_ACTION)
  else
    let m := match to_arinc (m loc) with Some c => store32 m es c | None => m end in
    let m := store32 m (es + 4) (word_at m (loc + 16)) in
    let msg := word_at m (loc + 12) in
    if msg + 64 <=? size then
      let m := blit m (es + 16) (fun i => m (msg + i)) 64 in
      let m := store32 m (es + 8) (word_at m (loc + 4)) in
      Some (store32 m (es + 12) (word_at m (loc + 8)))
    else None.

(** pok_error_log, libpok/core/errorlog.c:28-42: pok_error_reported is at address [base]; an entry has the fields thread 0,
    error 4, when 8 (64 bits); size 16. pok_error_nb_reported is the second component. *)
Definition error_log (base : Z) (g : (Z -> Z) * Z) (r : Z * Z * Z) : (Z -> Z) * Z :=
  let '(thread, error, when) := r in
  let (m, nb) := g in
  let e := base + 16 * nb in
  (blit (store32 (store32 m e thread) (e + 4) error) (e + 8) (fun i => (when / 2 ^ (8 * i)) mod 256) 8, u16 (nb + 1)).

(** What a partition creates, and the numbers this gives: CREATE_PROCESS, libpok/arinc653/process.c:81-121 (the next process
    identifier, from 1), CREATE_ERROR_HANDLER, libpok/arinc653/error.c:103-115; both end in pok_partition_thread_create,
    kernel/core/thread.c:129-209, which takes the next thread of the partition; thread 0 is its main thread. *)
Inductive creation := Process | Handler.
Record created := mkCreated { c_next : Z; c_nb : Z; c_thread : Z -> Z }.
Definition create (c : created) (x : creation) : created :=
  match x with
  | Process => mkCreated (c_next c + 1) (c_nb c + 1) (upd (c_thread c) (c_nb c + 1) (c_next c))
  | Handler => mkCreated (c_next c + 1) (c_nb c) (c_thread c)
  end.
Definition nothing_created : created := mkCreated 1 0 (fun _ => 0).
