(** System calls: which arguments are tested and which memory is then accessed. *)
From Coq Require Import ZArith List Bool.
From Verif Require Import Model.Base Model.Mem.
Import ListNotations.
Open Scope Z_scope.

(** pok_syscall_id_t, include/core/syscall.h:24-101. The calls that take no
    pointer (sleep, period, suspend, priorities, modes, I/O ports, clearing and
    polling the network device, shut down) are one constructor. *)
Inductive call :=
| ConsWrite | GetChar
| VirtualCreate | VirtualNbDestinations | VirtualDestination | VirtualGetGlobal | VirtualNode | NodeMacAddr
| GetTick
| ThreadCreate | ThreadId | ThreadStatus
| PartitionGetId | PartitionGetPeriod | PartitionGetDuration | PartitionGetLockLevel
| PartitionGetOperatingMode | PartitionGetStartCondition
| RaiseApplicationError | ErrorGet
| SamplingCreate | SamplingWrite | SamplingRead | SamplingId | SamplingStatus
| QueueingCreate | QueueingSend | QueueingReceive | QueueingId | QueueingStatus
| LockobjCreate | LockobjOperation
| PciRegister
| NetRead | NetPollAndRead | NetWrite
| NoPointer.

(** pok_syscall_args_t, include/core/syscall.h:103-110 ([nargs] is not used by
    the calls modelled here). *)
Record args := mkArgs { arg1 : Z; arg2 : Z; arg3 : Z; arg4 : Z; arg5 : Z }.

(** What the handlers use besides the arguments. *)
Record env := mkEnv {
  e_names : list (list Z);   (** pok_ports_names, without the final NUL *)
  e_maxlen : Z;              (** pok_ports_names_max_len *)
  e_psize : Z -> Z;          (** pok_ports[i].size *)
  e_consumed : Z -> Z;       (** pok_port_consumed_size(i), middleware/portutils.c *)
  e_msgsize : Z;             (** error_status.msg_size of the partition *)
  e_qlen : Z -> Z;           (** dev.recv_buf[i].len, drivers/rtl8029.c *)
}.

(** A range of physical memory: address of the first byte and length. *)
Definition range := (Z * Z)%type.

(** Fields of a structure at [p]. *)
Definition fields (p : Z) (l : list (Z * Z)) : list range := map (fun '(o, n) => (p + o, n)) l.

(** i386 layouts: enumerations have 4 bytes, uint64_t is aligned to 4. *)

(** pok_thread_attr_t, include/core/thread.h:68-77. *)
Definition thread_attr_size := 40.
Definition thread_attr_fields : list (Z * Z) := [(0, 1); (1, 1); (4, 4); (8, 8); (16, 8); (24, 8); (32, 4); (36, 4)].
(** pok_error_status_t, include/core/error.h:41-47; [n] bytes of the message. *)
Definition error_status_size := 268.
Definition error_status_fields (n : Z) : list (Z * Z) := [(0, 1); (4, 4); (8, 4); (264, 4); (12, n)].
(** pok_port_sampling_status_t, include/middleware/port.h:96-101. *)
Definition sampling_status_size := 20.
Definition sampling_status_fields : list (Z * Z) := [(0, 4); (4, 1); (8, 8); (16, 4)].
(** pok_port_queueing_status_t, include/middleware/port.h:68-72. *)
Definition queueing_status_size := 8.
Definition queueing_status_fields : list (Z * Z) := [(0, 4); (4, 1); (5, 1)].
(** pok_lockobj_attr_t, include/core/lockobj.h:66-72. *)
Definition lockobj_attr_size := 16.
Definition lockobj_attr_fields : list (Z * Z) := [(0, 4); (4, 4); (8, 4); (12, 2); (14, 2)].
(** pok_lockobj_lockattr_t, include/core/lockobj.h:116-121; used by
    pok_lockobj_partition_wrapper, pok_lockobj_lock and pok_lockobj_unlock,
    core/lockobj.c:251-310, 380-430. *)
Definition lockattr_fields : list (Z * Z) := [(4, 4); (0, 4); (8, 4); (12, 8)].
(** s_pci_device, include/arch/x86/pci.h:46-60; pci_open and pci_register,
    arch/x86/pci.c:39-100. *)
Definition pci_device_size := 48.
Definition pci_device_fields : list (Z * Z) := [(6, 2); (8, 2); (0, 2); (2, 2); (4, 2); (16, 4); (10, 2); (12, 2)].

(** strcmp, libc/strcmp.c:20-34: number of bytes of the first string that are
    read when the second is [s] (followed by NUL). *)
Fixpoint strcmp_reads (m : Z -> Z) (a : Z) (s : list Z) : Z :=
  match s with
  | [] => 1
  | c :: r => if m a =? c then 1 + strcmp_reads m (a + 1) r else 1
  end.

(** pok_port_virtual_id, pok_port_sampling_id, pok_port_queueing_id,
    middleware/portvirtualid.c:29-47, portsamplingid.c:24-41,
    portqueueingid.c:24-42: the name is compared with the names of the ports in
    turn. Simplified: all names are tried, also after the one that is found. *)
Definition name_reads (m : Z -> Z) (e : env) (a : Z) : list range :=
  map (fun s => (a, strcmp_reads m a s)) (e_names e).

Definition CONS_ESCAPE := 255.
Definition CONS_COLOR := 2.
Definition CONS_SETX := 3.
Definition CONS_SETY := 4.

(** pok_cons_write, arch/x86/x86-qemu/cons.c:151-190: the bytes read, one range
    each; [k] bounds the number of turns of the loop. *)
Fixpoint cons_reads (k : nat) (m : Z -> Z) (s i len : Z) : list range :=
  match k with
  | O => []
  | S k =>
      if i <? len then
        if m (s + i) =? CONS_ESCAPE then
          let c := m (s + i + 1) in
          if (c =? CONS_COLOR) || (c =? CONS_SETX) || (c =? CONS_SETY) then
            (s + i, 1) :: (s + i + 1, 1) :: (s + i + 2, 1) :: cons_reads k m s (i + 3) len
          else (s + i, 1) :: (s + i + 1, 1) :: cons_reads k m s (i + 2) len
        else (s + i, 1) :: cons_reads k m s (i + 1) len
      else []
  end.

Definition RECV_BUF_SZ := 20.

(** The pointers and sizes given to CHECK_PTR, core/syscall.c:51-57, 65-446. *)
Definition checks (c : call) (e : env) (a : args) : list (Z * Z) :=
  match c with
  | ConsWrite => [(arg1 a, arg2 a)]
  | GetChar => [(arg1 a, 0)]
  | VirtualCreate | SamplingId | QueueingId => [(arg1 a, u32 (e_maxlen e + 1)); (arg2 a, 1)]
  | VirtualNbDestinations => [(arg2 a, 4)]
  | VirtualDestination => [(arg3 a, 4)]
  | VirtualGetGlobal => [(arg2 a, 1)]
  | VirtualNode => [(arg2 a, 4)]
  | NodeMacAddr => [(arg1 a, 6); (arg2 a, 4)]
  | GetTick => [(arg1 a, 8)]
  | ThreadCreate => [(arg1 a, 4); (arg2 a, thread_attr_size)]
  | ThreadId => [(arg1 a, 4)]
  | ThreadStatus => [(arg2 a, thread_attr_size)]
  | PartitionGetId => [(arg1 a, 1)]
  | PartitionGetPeriod | PartitionGetDuration => [(arg1 a, 8)]
  | PartitionGetLockLevel | PartitionGetOperatingMode | PartitionGetStartCondition => [(arg1 a, 4)]
  | RaiseApplicationError => [(arg1 a, arg2 a)]
  | ErrorGet => [(arg1 a, error_status_size)]
  | SamplingCreate | QueueingCreate => [(arg1 a, u32 (e_maxlen e + 1)); (arg5 a, 1)]
  | SamplingWrite | QueueingSend => [(arg2 a, arg3 a)]
  | SamplingRead => [(arg3 a, 4); (arg4 a, 4)]
  | SamplingStatus => [(arg2 a, sampling_status_size)]
  | QueueingReceive => [(arg4 a, arg3 a); (arg5 a, 4)]
  | QueueingStatus => [(arg2 a, queueing_status_size)]
  | LockobjCreate => [(arg1 a, 1); (arg2 a, lockobj_attr_size)]
  | LockobjOperation => if arg2 a =? 0 then [] else [(arg2 a, lockobj_attr_size)]
  | PciRegister => [(arg1 a, pci_device_size)]
  | NetRead | NetPollAndRead | NetWrite => [(arg2 a, 4)]
  | NoPointer => []
  end.

(** pok_port_sampling_read, middleware/portsamplingread.c:49-57: the test made by
    the handler itself, of the size of the port whose number is that of the
    partition. The address has been turned into a physical one and back. *)
Definition late_checks (c : call) (e : env) (pid : Z) (a : args) : list (Z * Z) :=
  match c with
  | SamplingRead => [(arg2 a, e_psize e pid)]
  | _ => []
  end.

(** The memory accessed through the arguments, by physical address. [base] is
    infos->base_addr, [m] the physical memory. Each entry is made by the longest
    path through the handler: the paths that fail earlier make some of these
    accesses. *)
Definition accesses (c : call) (e : env) (base : Z) (m : Z -> Z) (a : args) : list range :=
  let at_ x := u32 (x + base) in
  match c with
  (** arch/x86/x86-qemu/cons.c:151-190 *)
  | ConsWrite => cons_reads (Z.to_nat (arg2 a)) m (at_ (arg1 a)) 0 (arg2 a)
  (** read_serial, arch/x86/x86-qemu/cons.c:55-58 *)
  | GetChar => [(at_ (arg1 a), 1)]
  | VirtualCreate | SamplingId | QueueingId => name_reads m e (at_ (arg1 a)) ++ [(at_ (arg2 a), 1)]
  (** middleware/portvirtualnbdestinations.c, portvirtualdestination.c,
      portvirtualgetglobal.c, portvirtualutils.c:29-45 *)
  | VirtualNbDestinations => [(at_ (arg2 a), 4)]
  | VirtualDestination => [(at_ (arg3 a), 4)]
  | VirtualGetGlobal => [(at_ (arg2 a), 1)]
  | VirtualNode => [(at_ (arg2 a), 1)]
  | NodeMacAddr => [(at_ (arg1 a), 1); (at_ (arg2 a), 6)]
  (** core/syscall.c:140-141 *)
  | GetTick => [(at_ (arg1 a), 8)]
  (** pok_partition_thread_create, pok_sched_get_current, pok_thread_get_status,
      core/thread.c, core/sched.c *)
  | ThreadCreate => (at_ (arg1 a), 4) :: fields (at_ (arg2 a)) thread_attr_fields
  | ThreadId => [(at_ (arg1 a), 4)]
  | ThreadStatus => fields (at_ (arg2 a)) thread_attr_fields
  (** pok_current_partition_get_*, core/partition.c *)
  | PartitionGetId => [(at_ (arg1 a), 1)]
  | PartitionGetPeriod | PartitionGetDuration => [(at_ (arg1 a), 8)]
  | PartitionGetLockLevel | PartitionGetOperatingMode | PartitionGetStartCondition => [(at_ (arg1 a), 4)]
  (** pok_error_raise_application_error, pok_error_get, core/error.c:129-160 *)
  | RaiseApplicationError => [(at_ (arg1 a), Z.min (arg2 a) 250)]
  | ErrorGet => fields (at_ (arg1 a)) (error_status_fields (e_msgsize e))
  (** middleware/portcreate.c, portsamplingcreate.c, portqueueingcreate.c *)
  | SamplingCreate | QueueingCreate => name_reads m e (at_ (arg1 a)) ++ [(at_ (arg5 a), 1)]
  (** middleware/portsamplingwrite.c, portqueueingsend.c: the length is converted
      to uint8_t, core/syscall.c:275, 327 *)
  | SamplingWrite | QueueingSend => [(at_ (arg2 a), u8 (arg3 a))]
  (** middleware/portsamplingread.c:59-78 *)
  | SamplingRead => [(at_ (arg2 a), e_psize e (u8 (arg1 a))); (at_ (arg4 a), 4); (at_ (arg3 a), 4)]
  | SamplingStatus => fields (at_ (arg2 a)) sampling_status_fields
  (** middleware/portqueueingreceive.c:23-110 *)
  | QueueingReceive =>
      [(at_ (arg5 a), 4); (at_ (arg4 a), Z.min (arg3 a) (e_psize e (u8 (arg1 a))));
       (at_ (arg4 a), Z.min (arg3 a) (e_consumed e (u8 (arg1 a))))]
  | QueueingStatus => fields (at_ (arg2 a)) queueing_status_fields
  (** pok_lockobj_partition_create, pok_lockobj_create, core/lockobj.c *)
  | LockobjCreate => (at_ (arg1 a), 1) :: fields (at_ (arg2 a)) lockobj_attr_fields
  (** pok_lockobj_partition_wrapper; the null pointer is passed on as it is and
      not as an address of the partition, core/syscall.c:370-378 *)
  | LockobjOperation => fields (if arg2 a =? 0 then 0 else at_ (arg2 a)) lockattr_fields
  | PciRegister => fields (at_ (arg1 a)) pci_device_fields
  (** drivers/rtl8029.c:139-300: the first RECV_BUF_SZ bytes are written over and
      over; lines 306-370: all bytes are read *)
  | NetRead | NetPollAndRead =>
      [(at_ (arg2 a), Z.min (Z.min (arg3 a) (e_qlen e (u8 (arg1 a)))) RECV_BUF_SZ)]
  | NetWrite => [(at_ (arg2 a), arg3 a)]
  | NoPointer => []
  end.

(** A 32-bit word of memory, lowest byte first. *)
Definition word_at (m : Z -> Z) (a : Z) : Z := m a + 2 ^ 8 * m (a + 1) + 2 ^ 16 * m (a + 2) + 2 ^ 24 * m (a + 3).

(** The argument structure at physical address [p]. *)
Definition args_at (m : Z -> Z) (p : Z) : args :=
  mkArgs (word_at m (p + 4)) (word_at m (p + 8)) (word_at m (p + 12)) (word_at m (p + 16)) (word_at m (p + 20)).

(** Outcome: refused with EINVAL by one of the tests, or carried out; with the
    memory accessed. *)
Inductive outcome := Refused (l : list range) | Done (l : list range).
Definition touched (o : outcome) : list range := match o with Refused l | Done l => l end.

(** syscall_gate, arch/x86/syscalls.c:33-68, and pok_core_syscall. The arguments
    stay in the memory of the partition and are read again at each use: [m0] is
    the memory at the time of the tests, [m] at the time of the accesses. *)
Definition syscall (nparts : Z) (psize pbase : Z -> Z) (pid ebx : Z) (c : call) (e : env) (m0 m : Z -> Z) : outcome :=
  let ok := forallb (fun '(p, n) => ptr_in_partition nparts psize pid p n) in
  if ptr_in_partition nparts psize pid ebx 24 then
    let p := u32 (ebx + pbase pid) in
    let a0 := args_at m0 p in
    let a := args_at m p in
    if ok (checks c e a0) then
      if ok (late_checks c e pid a) then Done ((p, 24) :: accesses c e (pbase pid) m a) else Refused [(p, 24)]
    else Refused [(p, 24)]
  else Refused [].

(** ** I/O ports *)

(** pok_partition_t.io_min, io_max (uint16_t). *)
Record io := mkIo { io_min : Z; io_max : Z }.

(** POK_SYSCALL_INB and OUTB, core/syscall.c:381-398: the I/O port accessed. *)
Definition io_access (i : io) (arg : Z) : option Z :=
  if (arg <? io_min i) || (io_max i <? arg) then None else Some (u16 arg).

(** pci_register, arch/x86/pci.c:87-100: [bar] is the base address register read
    from the device, [range] the field io_range of the structure of the caller. *)
Definition pci_register (bar range : Z) : io :=
  let b := u32 (bar - bar mod 32) in mkIo (u16 b) (u16 (b + range)).
