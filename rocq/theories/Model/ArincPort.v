(** The port services of the ARINC 653 interface: libpok/arinc653/sampling.c and queueing.c with libpok/middleware/port*.c,
    on the ports of Model/Port.v; the identifier of a blackboard, libpok/arinc653/blackboard.c.
    Simplified: names are numbers as in Model/Port.v. What a local variable holds before it is assigned is a parameter
    ([junk]). Products of two integers wrap (the code multiplies signed numbers). *)
From Verif Require Import Model.Base Model.Port.

(** RETURN_CODE_TYPE, libpok/include/arinc653/types.h:44-52. *)
Definition NO_ERROR := 0.
Definition NO_ACTION := 1.
Definition NOT_AVAILABLE := 2.
Definition INVALID_PARAM := 3.
Definition INVALID_CONFIG := 4.
Definition INVALID_MODE := 5.

(** A service returns (with the ports, *RETURN_CODE and what it stores elsewhere), or it waits, or it does not return. *)
Inductive sout :=
| SNone
| SId (id : Z)
| SData (d : list Z)
| SMsg (d : list Z) (valid : Z)
| SStat (size dir refresh valid : Z).
Inductive sres :=
| SRet (s : pstate) (code : Z) (o : sout)
| SWait (s : pstate) (w : pcall)
| SNever.

(** PORT_DIRECTION_TYPE (types.h:59) to pok_port_direction_t (libpok/include/middleware/port.h:25-28): sampling.c:48-60,
    queueing.c:51-63. *)
Definition core_direction (dir : Z) : option Z :=
  if dir =? 0 then Some DIR_OUT else if dir =? 1 then Some DIR_IN else None.

(** Creation: the identifier is copied whether the kernel has stored one or not (sampling.c:65, queueing.c:69). *)
Definition created (junk : Z) (r : pres) : sres :=
  match r with
  | PRet s e (OId id) => SRet s e (SId id)
  | PRet s e _ => SRet s e (SId (u8 junk))
  | PWait s w => SWait s w
  | _ => SNever
  end.

(** CREATE_SAMPLING_PORT, libpok/arinc653/sampling.c:24-68; [state] is attr.state, compared with the operating mode NORMAL = 3
    (:39); pok_port_sampling_create, libpok/middleware/portsamplingcreate.c:23-29, passes 32 bits of the refresh period. *)
Definition create_sampling_port (cfg : pconfig) (now part junk state name max dir refresh : Z) (s : pstate) : sres :=
  if state =? 3 then SRet s INVALID_MODE SNone
  else if (max <=? 0) || (refresh <? 0) then SRet s INVALID_CONFIG SNone
  else match core_direction dir with
       | None => SRet s INVALID_PARAM SNone
       | Some d => created junk (port_call cfg now part (RCreateS name max d refresh) s)
       end.

(** CREATE_QUEUING_PORT, libpok/arinc653/queueing.c:24-71. *)
Definition create_queuing_port (cfg : pconfig) (now part junk name max nb dir disc : Z) (s : pstate) : sres :=
  if negb ((disc =? 0) || (disc =? 1)) then SRet s INVALID_PARAM SNone
  else match core_direction dir with
       | None => SRet s INVALID_PARAM SNone
       | Some d => created junk (port_call cfg now part (RCreateQ name (max * nb) d (disc =? 0)) s)
       end.

(** WRITE_SAMPLING_MESSAGE, sampling.c:70-83; the parameter of pok_port_sampling_write is an 8-bit identifier. *)
Definition write_sampling_message (cfg : pconfig) (now part id : Z) (data : Z -> Z) (ptr len : Z) (s : pstate) : sres :=
  if len <=? 0 then SRet s INVALID_PARAM SNone
  else match port_call cfg now part (RWrite (u8 id) data len ptr) s with
       | PRet s e _ => SRet s e SNone
       | PWait s w => SWait s w
       | _ => SNever
       end.

(** READ_SAMPLING_MESSAGE, sampling.c:85-96: LENGTH and VALIDITY are written by the kernel (both sides have 32 bits). *)
Definition read_sampling_message (cfg : pconfig) (now part id ptr : Z) (s : pstate) : sres :=
  match port_call cfg now part (RRead (u8 id) ptr) s with
  | PRet s e (OMsg d v) => SRet s e (SMsg d (if v then 1 else 0))
  | PRet s e _ => SRet s e SNone
  | PWait s w => SWait s w
  | _ => SNever
  end.

(** GET_SAMPLING_PORT_ID, sampling.c:98-108. *)
Definition get_sampling_port_id (cfg : pconfig) (part junk name : Z) (s : pstate) : sres :=
  match port_id cfg part PK_SAMPLING name with
  | (e, Some id) => SRet s e (SId id)
  | (e, None) => SRet s e (SId (u8 junk))
  end.

(** GET_SAMPLING_PORT_STATUS, sampling.c:110-123; [junk] stands for the four fields. *)
Definition get_sampling_port_status (cfg : pconfig) (now part junk id : Z) (s : pstate) : sres :=
  match port_call cfg now part (RStatusS id) s with
  | PRet s e (OStat size dir refresh v) => SRet s e (SStat size dir refresh (if v then 1 else 0))
  | PRet s e _ => SRet s e (SStat junk junk junk junk)
  | PWait s w => SWait s w
  | _ => SNever
  end.

(** SEND_QUEUING_MESSAGE, queueing.c:73-85. *)
Definition send_queuing_message (cfg : pconfig) (now part id : Z) (data : Z -> Z) (ptr len tmo : Z) (s : pstate) : sres :=
  match port_call cfg now part (RSend (u8 id) data len ptr tmo) s with
  | PRet s e _ => SRet s e SNone
  | PWait s w => SWait s w
  | _ => SNever
  end.

(** RECEIVE_QUEUING_MESSAGE, queueing.c:87-105; [len] is *LENGTH at the call. *)
Definition receive_queuing_message (cfg : pconfig) (now part id tmo ptr len : Z) (s : pstate) : sres :=
  match port_call cfg now part (RReceive (u8 id) (if tmo =? -1 then 0 else tmo) len ptr) s with
  | PRet s e (OData d) => SRet s (if e =? ERR_EMPTY then NOT_AVAILABLE else e) (SData d)
  | PRet s e _ => SRet s (if e =? ERR_EMPTY then NOT_AVAILABLE else e) SNone
  | PWait s w => SWait s w
  | _ => SNever
  end.

(** GET_QUEUING_PORT_ID, queueing.c:107-115: the address for the identifier is the value of *QUEUING_PORT_ID. The
    variable is in the memory [m] of the partition at address [v], a 32-bit number; the kernel writes one byte if the address
    is inside the partition (syscall.c:340-347). *)
Definition get_queuing_port_id (cfg : pconfig) (part name : Z) (m : Z -> Z) (v : Z) : (Z -> Z) * Z :=
  let a := m v + 2 ^ 8 * m (v + 1) + 2 ^ 16 * m (v + 2) + 2 ^ 24 * m (v + 3) in
  if check_ptr cfg part a 1 then
    match port_id cfg part PK_QUEUEING name with
    | (e, Some id) => (upd m a id, e)
    | (e, None) => (m, e)
    end
  else (m, ERR_EINVAL).

(** GET_QUEUING_PORT_STATUS, queueing.c:117-132: pok_port_queueing_id is called with the identifier as the address of a name
    and the status as the place for an identifier. [str a] is the name at address [a], [junk] the four fields of the status
    before the call (size, direction, number of messages, waiting processes). Result: code, NB_MESSAGE, MAX_MESSAGE_SIZE,
    PORT_DIRECTION, WAITING_PROCESSES. *)
Definition get_queuing_port_status (cfg : pconfig) (part id : Z) (str : Z -> Z) (junk : Z * Z * Z * Z) : Z * (Z * Z * Z * Z) :=
  let '(size, dir, nb, waiting) := junk in
  match port_id cfg part PK_QUEUEING (str id) with
  | (e, Some i) => (e, (nb, size - size mod 256 + i, dir, waiting))
  | (e, None) => (e, (nb, size, dir, waiting))
  end.

(** CREATE_BLACKBOARD, libpok/arinc653/blackboard.c:21-31: [r] and [core] are the answer of pok_blackboard_create, [old] the value of
    *BLACKBOARD_ID before. Result: *RETURN_CODE and *BLACKBOARD_ID. *)
Definition create_blackboard (r core old : Z) : Z * Z := (r, old).
