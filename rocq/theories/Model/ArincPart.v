(** The ARINC 653 partition services: libpok/arinc653/partition.c with the macros of libpok/include/core/partition.h. *)
From Verif Require Import Model.Base Model.State Model.LockSys Model.Kernel Model.Arinc.

(** OPERATING_MODE_TYPE, include/arinc653/partition.h:23-28. *)
Definition A_IDLE := 0.
Definition A_COLD := 1.
Definition A_WARM := 2.
Definition A_NORMAL := 3.

(** SET_PARTITION_MODE, partition.c:34-76. [cur] is the answer of pok_current_partition_get_operating_mode
    (kernel/core/partition.c:410-414). *)
Definition set_partition_mode (cur m : Z) : prog :=
  let go core :=
    if cur =? core then Fin NO_ACTION
    else if (cur =? PM_COLD) && (core =? PM_WARM) then Fin INVALID_MODE
    else Ask (SSetMode core) (fun r => Fin r) in
  if m =? A_IDLE then go PM_IDLE
  else if m =? A_NORMAL then go PM_NORMAL
  else if m =? A_COLD then Fin NOT_AVAILABLE
  else if m =? A_WARM then go PM_WARM
  else Fin INVALID_PARAM.

(** PARTITION_STATUS_TYPE, include/arinc653/partition.h:38-45. *)
Record pstatus := mkPstatus {
  ps_period : Z; ps_duration : Z; ps_id : Z; ps_lock : Z; ps_mode : Z; ps_start : Z }.
(** GET_PARTITION_STATUS, partition.c:23-32, and the services of kernel/core/partition.c:395-425. The kernel stores one
    byte into IDENTIFIER (line 396); [junk] is the former value of the field. period, lock_level and start_condition
    are set by pok_partition_init only (kernel/core/partition.c:195, 237-238). *)
Definition get_partition_status (cfg : config) (junk : Z) (s : kstate) : pstatus :=
  mkPstatus 0 (c_slot cfg (k_cp s)) (u32 junk - u8 junk + u8 (k_cp s)) 0 (p_mode (k_part s (k_cp s))) 0.
