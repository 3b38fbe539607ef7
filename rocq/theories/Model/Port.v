(** Inter-partition ports: kernel/middleware/*.c.

    A service of the kernel is executed without interleaving up to the point where it waits (flushing takes no
    lock and happens inside the scheduler). The lock object of a port is reduced to one bit, free or held: the queues
    of lock objects are the subject of Model/LockObj.v. POK_ERROR_CURRENT_PARTITION (portcreate.c:40, 45, 51, 74) is a
    callback generated from the configuration; it is left out. Names are numbers; strcmp is equality. User
    memory is a function from the offset; the bytes a service stores in user memory are part of its result. *)
From Verif Require Import Model.Base.

(** kernel/include/middleware/port.h:29-45. *)
Definition PORT_MAX_SIZE := 512.       (* port.h:29 *)
Definition DIR_IN := 1.                (* port.h:32 *)
Definition DIR_OUT := 2.               (* port.h:33 *)
Definition PK_QUEUEING := 1.           (* port.h:39 *)
Definition PK_SAMPLING := 2.           (* port.h:40 *)
Definition PK_INVALID := 10.           (* port.h:44 *)
Definition POOL_SIZE := 1024.          (* queueinit.c:23 *)

(** pok_port_t, port.h:47-64; identifier and discipline are never read. The lock: [pt_linit] is its field
    initialized, [pt_free] tells whether current_value is 1. *)
Record port := mkPort {
  pt_part : Z; pt_index : Z; pt_full : bool; pt_size : Z; pt_b : Z; pt_e : Z; pt_dir : Z; pt_ready : bool;
  pt_empty : bool; pt_kind : Z; pt_refresh : Z; pt_last : Z; pt_linit : bool; pt_free : bool; pt_flush : bool
}.
(** Assignments to fields. *)
Definition set_pt_offs (b e : Z) (empty full : bool) (p : port) : port :=
  mkPort (pt_part p) (pt_index p) full (pt_size p) b e (pt_dir p) (pt_ready p) empty (pt_kind p) (pt_refresh p) (pt_last p)
         (pt_linit p) (pt_free p) (pt_flush p).
Definition set_pt_last (v : Z) (p : port) : port :=
  mkPort (pt_part p) (pt_index p) (pt_full p) (pt_size p) (pt_b p) (pt_e p) (pt_dir p) (pt_ready p) (pt_empty p) (pt_kind p)
         (pt_refresh p) v (pt_linit p) (pt_free p) (pt_flush p).
Definition set_pt_free (v : bool) (p : port) : port :=
  mkPort (pt_part p) (pt_index p) (pt_full p) (pt_size p) (pt_b p) (pt_e p) (pt_dir p) (pt_ready p) (pt_empty p) (pt_kind p)
         (pt_refresh p) (pt_last p) (pt_linit p) v (pt_flush p).
Definition set_pt_flush (v : bool) (p : port) : port :=
  mkPort (pt_part p) (pt_index p) (pt_full p) (pt_size p) (pt_b p) (pt_e p) (pt_dir p) (pt_ready p) (pt_empty p) (pt_kind p)
         (pt_refresh p) (pt_last p) (pt_linit p) (pt_free p) v.
(** portsamplingcreate.c:37-42, portqueueingcreate.c:57-61: refresh period, and a new lock object, free. *)
Definition set_pt_fresh (refresh last : Z) (p : port) : port :=
  mkPort (pt_part p) (pt_index p) (pt_full p) (pt_size p) (pt_b p) (pt_e p) (pt_dir p) (pt_ready p) (pt_empty p) (pt_kind p)
         refresh last true true (pt_flush p).

(** Deployment constants: POK_CONFIG_NB_PORTS, POK_CONFIG_NB_PARTITIONS, POK_CONFIG_PARTITIONS_PORTS,
    pok_ports_names, pok_ports_kind, pok_ports_nb_destinations, pok_ports_destinations,
    pok_global_ports_to_local_ports, pok_ports_nb_ports_by_partition, pok_ports_by_partition (portflushall.c:34-55),
    the sizes of the partitions, and, for virtual ports, the number of entries of pok_ports_nodes (portflushall.c:50),
    pok_local_ports_to_global_ports (portvirtualgetglobal.c:35) and pok_ports_nodes (portvirtualutils.c:26). *)
Record pconfig := mkPconfig {
  q_nports : Z; q_nparts : Z; q_owner : Z -> Z; q_name : Z -> Z; q_kind : Z -> Z; q_ndest : Z -> Z; q_dest : Z -> Z -> Z;
  q_local : Z -> Z; q_nby : Z -> Z; q_by : Z -> Z -> Z; q_psize : Z -> Z; q_nglobal : Z; q_global : Z -> Z; q_node : Z -> Z
}.

(** pok_ports, pok_queue.data and pok_queue.available_size. *)
Record pstate := mkPs { ps_port : Z -> port; ps_pool : Z -> Z; ps_avail : Z }.
Definition on_port (id : Z) (g : port -> port) (s : pstate) : pstate :=
  mkPs (upd (ps_port s) id (g (ps_port s id))) (ps_pool s) (ps_avail s).
Definition set_ps_pool (v : Z -> Z) (s : pstate) : pstate := mkPs (ps_port s) v (ps_avail s).

(** pok_port_init, portinit.c:37-48, with pok_queue_init, queueinit.c:22-26; the other fields are zero. *)
Definition port_zero : port := mkPort 0 0 false 0 0 0 0 false true PK_INVALID 0 0 false false false.
Definition ports_boot : pstate := mkPs (fun _ => port_zero) (fun _ => 0) POOL_SIZE.

(** [n] consecutive bytes of [f], from 0 on. *)
Definition bytes (f : Z -> Z) (n : Z) : list Z := map (fun i => f (Z.of_nat i)) (seq 0 (Z.to_nat n)).
(** memcpy of [n] bytes from [src] to address [d]. *)
Definition blit (mem : Z -> Z) (d : Z) (src : Z -> Z) (n : Z) : Z -> Z :=
  fun i => if (d <=? i) && (i <? d + n) then src (i - d) else mem i.

(** pok_port_available_size, portutils.c:34-44. Sizes are 32 bits wide (include/types.h:30). *)
Definition available_size (p : port) : Z :=
  if pt_full p then 0
  else if pt_b p <? pt_e p then u32 (pt_b p - pt_e p)
  else u32 (pt_size p - pt_e p + pt_b p).
(** pok_port_consumed_size, portutils.c:46-56. *)
Definition consumed_size (p : port) : Z :=
  if pt_empty p then 0
  else if pt_b p <? pt_e p then u32 (pt_e p - pt_b p)
  else u32 (pt_size p - pt_b p + pt_e p).

(** pok_port_get, portutils.c:58-118: new port, result, bytes stored. [None]: division by zero (line 89). *)
Definition port_get (pool : Z -> Z) (p : port) (n : Z) : option (port * Z * list Z) :=
  if pt_kind p =? PK_QUEUEING then
    if pt_empty p then Some (p, ERR_EINVAL, [])
    else if pt_size p <? n then Some (p, ERR_SIZE, [])
    else
      let src := if pt_size p <? pt_b p + n
                 then fun i => if i <? pt_size p - pt_b p then pool (pt_index p + pt_b p + i)
                               else pool (pt_index p + (i - (pt_size p - pt_b p)))
                 else fun i => pool (pt_index p + pt_b p + i) in
      if pt_size p =? 0 then None
      else
        let b' := (pt_b p + n) mod pt_size p in
        Some (if b' =? pt_e p then set_pt_offs b' (pt_e p) true false p
              else set_pt_offs b' (pt_e p) (pt_empty p) (pt_full p) p, ERR_OK, bytes src n)
  else if pt_kind p =? PK_SAMPLING then
    if pt_empty p then Some (p, ERR_EMPTY, [])
    else if pt_size p <? n then Some (p, ERR_SIZE, [])
    else Some (p, ERR_OK, bytes (fun i => pool (pt_index p + pt_b p + i)) n)
  else Some (p, ERR_EINVAL, []).

(** pok_port_write, portutils.c:120-180: new pool, new port, result. *)
Definition port_write (now : Z) (pool : Z -> Z) (p : port) (data : Z -> Z) (n : Z) : option ((Z -> Z) * port * Z) :=
  if pt_kind p =? PK_QUEUEING then
    if pt_full p then Some (pool, p, ERR_SIZE)
    else if pt_size p <? n then Some (pool, p, ERR_SIZE)
    else
      let pool' := if pt_size p <? pt_e p + n
                   then let t := pt_size p - pt_e p in
                        blit (blit pool (pt_index p + pt_e p) data t) (pt_index p) (fun i => data (i + t)) (n - t)
                   else blit pool (pt_index p + pt_e p) data n in
      if pt_size p =? 0 then None
      else
        let e' := (pt_e p + n) mod pt_size p in
        Some (pool', set_pt_offs (pt_b p) e' false (if e' =? pt_b p then true else pt_full p) p, ERR_OK)
  else if pt_kind p =? PK_SAMPLING then
    if pt_size p <? n then Some (pool, p, ERR_SIZE)
    else Some (blit pool (pt_index p + pt_e p) data n,
               set_pt_last now (set_pt_offs (pt_b p) (pt_e p) false (pt_full p) p), ERR_OK)
  else Some (pool, p, ERR_EINVAL).

(** pok_own_port, portutils.c:258-270. [None]: the table is read past its end (port = NB_PORTS passes the test). *)
Definition own_port (cfg : pconfig) (part id : Z) : option bool :=
  if q_nports cfg <? id then Some false
  else if id =? q_nports cfg then None
  else Some (q_owner cfg id =? part).

(** What a service stores in user memory. *)
Inductive pout :=
| ONone
| OId (id : Z)                      (** *id *)
| OData (d : list Z)                (** data and *len, queueing_receive *)
| OMsg (d : list Z) (valid : bool)  (** data, *len and *valid, sampling_read *)
| OStat (size dir refresh : Z) (valid : bool).
(** Calls that wait for an event on the port, with the absolute date computed at portqueueingsend.c:80 and
    portqueueingreceive.c:83, and the deadline of pok_lockobj_eventwait (lockobj.c:259). *)
Inductive pcall :=
| WSend (part id : Z) (data : Z -> Z) (len tmo dl : Z)
| WRecv (part id maxlen tmo dl : Z).
Inductive pres :=
| PRet (s : pstate) (e : Z) (o : pout)
| PWait (s : pstate) (w : pcall)
| PStuck                            (** the lock of the port is held: the thread waits for it *)
| PUb.                              (** out-of-bounds access or division by zero *)

(** [id > NB_PORTS] and pok_own_port, as in every service (portqueueingsend.c:37-51 and so on); [k] is the rest. *)
Definition owned (cfg : pconfig) (part id : Z) (s : pstate) (k : pres) : pres :=
  if q_nports cfg <? id then PRet s ERR_EINVAL ONone
  else match own_port cfg part id with
       | None => PUb
       | Some false => PRet s ERR_PORT ONone
       | Some true => k
       end.
(** pok_lockobj_lock with NULL attributes on the lock of the port, lockobj.c:243-282. *)
Definition lock_port (id : Z) (s : pstate) (notready : pres) (k : pstate -> pres) : pres :=
  if negb (pt_linit (ps_port s id)) then notready
  else if pt_free (ps_port s id) then k (on_port id (set_pt_free false) s)
  else PStuck.
Definition unlock_port (id : Z) (s : pstate) : pstate := on_port id (set_pt_free true) s.

(** Result of pok_port_write on port [id] put back into the state. *)
Definition write_port (now id : Z) (data : Z -> Z) (n : Z) (s : pstate) : option (pstate * Z) :=
  match port_write now (ps_pool s) (ps_port s id) data n with
  | None => None
  | Some (pool, p, e) => Some (on_port id (fun _ => p) (set_ps_pool pool s), e)
  end.

(** portqueueingsend.c:83-105: the loop and the rest, with the lock held. *)
Definition send_loop (now part id : Z) (data : Z -> Z) (len tmo : Z) (s : pstate) : pres :=
  if available_size (ps_port s id) <? len then
    if tmo =? 0 then PRet (unlock_port id s) ERR_FULL ONone
    else PWait (unlock_port id s) (WSend part id data len tmo (u64 (tmo + now)))
  else
    match write_port now id data len s with
    | None => PUb
    | Some (s', _) => PRet (unlock_port id (on_port id (set_pt_flush true) s')) ERR_OK ONone
    end.
(** pok_port_queueing_send, portqueueingsend.c:30-106. *)
Definition queueing_send (cfg : pconfig) (now part id : Z) (null : bool) (data : Z -> Z) (len tmo : Z) (s : pstate) : pres :=
  if q_nports cfg <? id then PRet s ERR_EINVAL ONone
  else if len <=? 0 then PRet s ERR_SIZE ONone
  else if null then PRet s ERR_EINVAL ONone
  else owned cfg part id s
    (if negb (pt_ready (ps_port s id)) then PRet s ERR_PORT ONone
     else if pt_size (ps_port s id) <? len then PRet s ERR_SIZE ONone
     else if negb (pt_dir (ps_port s id) =? DIR_OUT) then PRet s ERR_DIRECTION ONone
     else if negb (pt_part (ps_port s id) =? part) then PRet s ERR_EPERM ONone
     else if negb (pt_kind (ps_port s id) =? PK_QUEUEING) then PRet s ERR_KIND ONone
     else lock_port id s (PRet s ERR_LOCKOBJ_NOTREADY ONone)
            (send_loop now part id data len (if tmo =? 0 then 0 else u64 (tmo + now)))).

(** portqueueingreceive.c:91-120, with the lock held. *)
Definition receive_loop (now part id maxlen tmo : Z) (s : pstate) : pres :=
  if pt_empty (ps_port s id) then
    if tmo =? 0 then PRet (unlock_port id s) ERR_EMPTY (OData [])
    else PWait (unlock_port id s) (WRecv part id maxlen tmo (u64 (tmo + now)))
  else
    let clen := consumed_size (ps_port s id) in
    let rlen := if clen <? maxlen then clen else maxlen in
    match port_get (ps_pool s) (ps_port s id) rlen with
    | None => PUb
    | Some (p, e, d) => PRet (unlock_port id (on_port id (fun _ => p) s)) ERR_OK (OData (if e =? ERR_OK then d else []))
    end.
(** pok_port_queueing_receive, portqueueingreceive.c:31-121. *)
Definition queueing_receive (cfg : pconfig) (now part id maxlen tmo : Z) (s : pstate) : pres :=
  if maxlen <=? 0 then PRet s ERR_EINVAL (OData [])
  else owned cfg part id s
    (if negb (pt_ready (ps_port s id)) then PRet s ERR_PORT (OData [])
     else if negb (pt_kind (ps_port s id) =? PK_QUEUEING) then PRet s ERR_KIND (OData [])
     else if negb (pt_dir (ps_port s id) =? DIR_IN) then PRet s ERR_DIRECTION (OData [])
     else lock_port id s (PRet s ERR_LOCKOBJ_NOTREADY (OData []))
            (receive_loop now part id maxlen (if 0 <? tmo then u64 (tmo + now) else tmo))).

(** A waiting call goes on: lockobj.c:270-285, portqueueingsend.c:89-92, portqueueingreceive.c:97-100. *)
Definition resume_call (now : Z) (w : pcall) (s : pstate) : pres :=
  match w with
  | WSend part id data len tmo dl =>
      lock_port id s (PRet (unlock_port id s) ERR_LOCKOBJ_NOTREADY ONone) (fun s1 =>
        if negb (dl =? 0) && (dl <=? now) then PRet (unlock_port id s1) ERR_TIMEOUT ONone
        else send_loop now part id data len tmo s1)
  | WRecv part id maxlen tmo dl =>
      lock_port id s (PRet (unlock_port id s) ERR_LOCKOBJ_NOTREADY (OData [])) (fun s1 =>
        if negb (dl =? 0) && (dl <=? now) then PRet (unlock_port id s1) ERR_TIMEOUT (OData [])
        else receive_loop now part id maxlen tmo s1)
  end.

(** pok_check_ptr_in_partition, include/core/partition.h:142-157. *)
Definition check_ptr (cfg : pconfig) (part ptr size : Z) : bool :=
  if q_nparts cfg <=? part then false
  else if q_psize cfg part <? size then false
  else ptr <=? q_psize cfg part - size.

(** pok_port_sampling_read, portsamplingread.c:28-88; [ptr] is the offset of the buffer in the partition. The size
    tested at line 61-63 is that of port number [part], not of port [id]; the lock is kept at line 64. *)
Definition sampling_read (cfg : pconfig) (now part id : Z) (null : bool) (ptr : Z) (s : pstate) : pres :=
  if null then PRet s ERR_EINVAL ONone
  else owned cfg part id s
    (if negb (pt_ready (ps_port s id)) then PRet s ERR_PORT ONone
     else if negb (pt_kind (ps_port s id) =? PK_SAMPLING) then PRet s ERR_EINVAL ONone
     else if negb (pt_dir (ps_port s id) =? DIR_IN) then PRet s ERR_MODE ONone
     else
       let rest s1 :=
         if q_nports cfg <=? part then PUb
         else if negb (check_ptr cfg part ptr (pt_size (ps_port s1 part))) then PRet s1 ERR_EINVAL ONone
         else match port_get (ps_pool s1) (ps_port s1 id) (pt_size (ps_port s1 id)) with
              | None => PUb
              | Some (p, e, d) =>
                  if e =? ERR_EMPTY then PRet (unlock_port id s1) ERR_EMPTY (OMsg [] false)
                  else PRet (unlock_port id s1) ERR_OK
                         (OMsg d (negb (u64 (pt_last (ps_port s1 id) + pt_refresh (ps_port s1 id)) <? now)))
              end in
       lock_port id s (rest s) rest).

(** pok_port_sampling_write, portsamplingwrite.c:39-76; the results of lock, write and unlock are ignored. *)
Definition sampling_write (cfg : pconfig) (now part id : Z) (null : bool) (data : Z -> Z) (len : Z) (s : pstate) : pres :=
  if null then PRet s ERR_EINVAL ONone
  else owned cfg part id s
    (if negb (pt_ready (ps_port s id)) then PRet s ERR_EINVAL ONone
     else if pt_size (ps_port s id) <? len then PRet s ERR_EINVAL ONone
     else if negb (pt_dir (ps_port s id) =? DIR_OUT) then PRet s ERR_DIRECTION ONone
     else
       let rest s1 :=
         match write_port now id data len s1 with
         | None => PUb
         | Some (s2, _) => PRet (on_port id (set_pt_flush true) (unlock_port id s2)) ERR_OK ONone
         end in
       lock_port id s (rest s) rest).

(** pok_port_sampling_status, portsamplingstatus.c:31-64. *)
Definition sampling_status (cfg : pconfig) (now part id : Z) (s : pstate) : pres :=
  owned cfg part id s
    (if negb (pt_ready (ps_port s id)) then PRet s ERR_EINVAL ONone
     else if negb (pt_kind (ps_port s id) =? PK_SAMPLING) then PRet s ERR_EINVAL ONone
     else if negb (pt_part (ps_port s id) =? part) then PRet s ERR_EINVAL ONone
     else PRet s ERR_OK (OStat (pt_size (ps_port s id)) (pt_dir (ps_port s id)) (pt_refresh (ps_port s id))
                               (negb (u64 (pt_last (ps_port s id) + pt_refresh (ps_port s id)) <? now)))).
(** pok_port_queueing_status, portqueueingstatus.c:24-51. *)
Definition queueing_status (cfg : pconfig) (part id : Z) (s : pstate) : pres :=
  owned cfg part id s
    (if negb (pt_ready (ps_port s id)) then PRet s ERR_EINVAL ONone
     else if negb (pt_kind (ps_port s id) =? PK_QUEUEING) then PRet s ERR_EINVAL ONone
     else if negb (pt_part (ps_port s id) =? part) then PRet s ERR_EINVAL ONone
     else PRet s ERR_OK (OStat (pt_size (ps_port s id)) (pt_dir (ps_port s id)) 0 false)).

(** pok_port_sampling_id and pok_port_queueing_id, portsamplingid.c:24-40, portqueueingid.c:24-41: the loop from [i]
    on over [n] ports. *)
Fixpoint port_id_loop (n : nat) (cfg : pconfig) (part kind name i : Z) : Z * option Z :=
  match n with
  | O => (ERR_NOTFOUND, None)
  | S k =>
      if (q_name cfg i =? name) && (q_kind cfg i =? kind) then
        match own_port cfg part i with
        | Some true => (ERR_OK, Some i)
        | _ => (ERR_PORT, None)
        end
      else port_id_loop k cfg part kind name (i + 1)
  end.
Definition port_id (cfg : pconfig) (part kind name : Z) : Z * option Z :=
  port_id_loop (Z.to_nat (q_nports cfg)) cfg part kind name 0.

(** pok_port_create, portcreate.c:31-108: state, result, identifier. The field empty is not assigned. *)
Definition port_create (cfg : pconfig) (part name size dir kind : Z) (s : pstate) : pstate * Z * option Z :=
  if PORT_MAX_SIZE <? size then (s, ERR_PORT, None)
  else if ps_avail s <? size then (s, ERR_PORT, None)
  else if negb (dir =? DIR_IN) && negb (dir =? DIR_OUT) then (s, ERR_PORT, None)
  else
    match port_id cfg part kind name with
    | (e, None) => (s, e, None)
    | (_, Some id) =>
        let p := ps_port s id in
        if pt_ready p then (s, ERR_EXISTS, Some id)
        else
          (mkPs (upd (ps_port s) id
                     (mkPort part (POOL_SIZE - ps_avail s) false size 0 0 dir true (pt_empty p) kind (pt_refresh p) (pt_last p)
                             (pt_linit p) (pt_free p) (pt_flush p)))
                (ps_pool s) (ps_avail s - size), ERR_OK, Some id)
    end.
(** pok_port_sampling_create, portsamplingcreate.c:25-45. *)
Definition sampling_create (cfg : pconfig) (part name size dir refresh : Z) (s : pstate) : pres :=
  match port_create cfg part name size dir PK_SAMPLING s with
  | (s', e, Some id) => if e =? ERR_OK then PRet (on_port id (set_pt_fresh refresh 0) s') ERR_OK (OId id) else PRet s' e (OId id)
  | (s', e, None) => PRet s' e ONone
  end.
(** pok_port_queueing_create, portqueueingcreate.c:25-64; [fifo] is discipline = FIFO. *)
Definition queueing_create (cfg : pconfig) (part name size dir : Z) (fifo : bool) (s : pstate) : pres :=
  if negb fifo then PRet s ERR_DISCIPLINE ONone
  else
    match port_create cfg part name size dir PK_QUEUEING s with
    | (s', e, Some id) =>
        if e =? ERR_OK then PRet (on_port id (fun p => set_pt_fresh (pt_refresh p) (pt_last p) p) s') ERR_OK (OId id)
        else PRet s' (if e =? ERR_EXISTS then ERR_OK else e) (OId id)
    | (s', e, None) => PRet s' e ONone
    end.

(** Inner loop of pok_port_flush_partition, portflushall.c:94-113, for the destinations number [j] on. The
    broadcasts only wake threads up. *)
Fixpoint deliver (n : nat) (cfg : pconfig) (now src : Z) (data : Z -> Z) (len j : Z) (s : pstate) : option pstate :=
  match n with
  | O => Some s
  | S k =>
      let d := q_local cfg (q_dest cfg src j) in
      if negb (pt_ready (ps_port s d)) || negb (pt_dir (ps_port s d) =? DIR_IN) then deliver k cfg now src data len (j + 1) s
      else
        match write_port now d data len s with
        | None => None
        | Some (s', _) => deliver k cfg now src data len (j + 1) s'
        end
  end.
(** Body of the outer loop, portflushall.c:72-120, for port [l]. *)
Definition flush_port (cfg : pconfig) (now l : Z) (s : pstate) : option pstate :=
  if negb (pt_dir (ps_port s l) =? DIR_OUT) then Some s
  else if pt_empty (ps_port s l) then Some s
  else if negb (pt_flush (ps_port s l)) then Some s
  else
    let len := consumed_size (ps_port s l) in
    match port_get (ps_pool s) (ps_port s l) len with
    | None => None
    | Some (p, e, d) =>
        if negb (e =? ERR_OK) then Some s
        else
          match deliver (Z.to_nat (q_ndest cfg l)) cfg now l (fun i => nth (Z.to_nat i) d 0) len 0 (on_port l (fun _ => p) s) with
          | None => None
          | Some s' => Some (on_port l (set_pt_flush false) s')
          end
    end.
(** pok_port_flush_partition, portflushall.c:59-122. *)
Fixpoint flush_loop (n : nat) (cfg : pconfig) (now part i : Z) (s : pstate) : option pstate :=
  match n with
  | O => Some s
  | S k =>
      match flush_port cfg now (q_by cfg part i) s with
      | None => None
      | Some s' => flush_loop k cfg now part (i + 1) s'
      end
  end.
Definition flush_partition (cfg : pconfig) (now part : Z) (s : pstate) : option pstate :=
  flush_loop (Z.to_nat (q_nby cfg part)) cfg now part 0 s.
(** pok_port_flushall, portflushall.c:128-136; [active p]: the mode of [p] is NORMAL or IDLE. *)
Fixpoint flush_parts (n : nat) (cfg : pconfig) (active : Z -> bool) (now p : Z) (s : pstate) : option pstate :=
  match n with
  | O => Some s
  | S k =>
      match (if active p then flush_partition cfg now p s else Some s) with
      | None => None
      | Some s' => flush_parts k cfg active now (p + 1) s'
      end
  end.
Definition flush_all (cfg : pconfig) (active : Z -> bool) (now : Z) (s : pstate) : option pstate :=
  flush_parts (Z.to_nat (q_nparts cfg)) cfg active now 0 s.

(** ** Virtual ports: only the tables of the configuration are read *)
(** KIND_VIRTUAL and KIND_SAMPLING are the same number (port.h:40-43). *)
Definition PK_VIRTUAL := 2.
(** portvirtualdestination.c:40-50 and the same tests in portvirtualgetglobal.c:39-49, portvirtualnbdestinations.c:35-45. *)
Definition virtual (cfg : pconfig) (part id : Z) (s : pstate) (k : pres) : pres :=
  if q_nports cfg <=? id then PRet s ERR_PORT ONone
  else match own_port cfg part id with
       | None => PUb
       | Some false => PRet s ERR_PORT ONone
       | Some true => if negb (q_kind cfg id =? PK_VIRTUAL) then PRet s ERR_PORT ONone else k
       end.
(** pok_port_virtual_nb_destinations, portvirtualnbdestinations.c:33-50. *)
Definition virtual_nb_destinations (cfg : pconfig) (part id : Z) (s : pstate) : pres :=
  virtual cfg part id s (PRet s ERR_OK (OId (q_ndest cfg id))).
(** pok_port_virtual_destination, portvirtualdestination.c:36-60: n = nb_destinations passes the test of line 52. *)
Definition virtual_destination (cfg : pconfig) (part id n : Z) (s : pstate) : pres :=
  virtual cfg part id s
    (if q_ndest cfg id <? n then PRet s ERR_PORT ONone
     else if n =? q_ndest cfg id then PUb
     else PRet s ERR_OK (OId (q_dest cfg id n))).
(** pok_port_virtual_get_global, portvirtualgetglobal.c:37-54. *)
Definition virtual_get_global (cfg : pconfig) (part id : Z) (s : pstate) : pres :=
  virtual cfg part id s (PRet s ERR_OK (OId (q_global cfg id))).
(** pok_port_virtual_node, portvirtualutils.c:29-32: no test at all. *)
Definition virtual_node (cfg : pconfig) (port : Z) (s : pstate) : pres :=
  if q_nglobal cfg <=? port then PUb else PRet s ERR_OK (OId (q_node cfg port)).

(** ** System calls, syscall.c:89-126 and 258-357 *)
Inductive preq :=
| RCreateS (name size dir refresh : Z)       (** MIDDLEWARE_SAMPLING_CREATE, 259 *)
| RWrite (id : Z) (data : Z -> Z) (len ptr : Z) (** MIDDLEWARE_SAMPLING_WRITE, 269 *)
| RRead (id ptr : Z)                         (** MIDDLEWARE_SAMPLING_READ, 277 *)
| RStatusS (id : Z)                          (** MIDDLEWARE_SAMPLING_STATUS, 300 *)
| RCreateQ (name size dir : Z) (fifo : bool) (** MIDDLEWARE_QUEUEING_CREATE, 310 *)
| RSend (id : Z) (data : Z -> Z) (len ptr tmo : Z) (** MIDDLEWARE_QUEUEING_SEND, 321 *)
| RReceive (id tmo maxlen ptr : Z)           (** MIDDLEWARE_QUEUEING_RECEIVE, 329 *)
| RStatusQ (id : Z)                          (** MIDDLEWARE_QUEUEING_STATUS, 350 *)
| RVNb (id : Z)                              (** MIDDLEWARE_VIRTUAL_NB_DESTINATIONS, 98 *)
| RVDest (id n : Z)                          (** MIDDLEWARE_VIRTUAL_DESTINATION, 105 *)
| RVGlobal (id : Z)                          (** MIDDLEWARE_VIRTUAL_GET_GLOBAL, 112 *)
| RVNode (port : Z).                         (** MIDDLEWARE_VIRTUAL_NODE, 119 *)

(** One port system call of partition [part] at time [now]. The arguments are 32 bits wide; identifiers and directions are
    truncated to 8 bits (include/types.h:31-33), and so are the lengths of SAMPLING_WRITE and QUEUEING_SEND
    (syscall.c:275, 327). Pointers are offsets in the partition; the base address of a partition is not 0, so that
    no pointer that passes the test is NULL. Pointers to small results (identifiers, lengths, flags, status records) are taken
    as valid: they are the subject of Model/Syscall.v. *)
Definition port_call (cfg : pconfig) (now part : Z) (r : preq) (s : pstate) : pres :=
  match r with
  | RCreateS name size dir refresh => sampling_create cfg part name (u32 size) (u8 dir) (u32 refresh) s
  | RWrite id data len ptr =>
      if check_ptr cfg part (u32 ptr) (u32 len) then sampling_write cfg now part (u8 id) false data (u8 len) s
      else PRet s ERR_EINVAL ONone
  | RRead id ptr => sampling_read cfg now part (u8 id) false (u32 ptr) s
  | RStatusS id => sampling_status cfg now part (u8 id) s
  | RCreateQ name size dir fifo => queueing_create cfg part name (u32 size) (u8 dir) fifo s
  | RSend id data len ptr tmo =>
      if check_ptr cfg part (u32 ptr) (u32 len) then queueing_send cfg now part (u8 id) false data (u8 len) (u32 tmo) s
      else PRet s ERR_EINVAL ONone
  | RReceive id tmo maxlen ptr =>
      if check_ptr cfg part (u32 ptr) (u32 maxlen) then queueing_receive cfg now part (u8 id) (u32 maxlen) (u32 tmo) s
      else PRet s ERR_EINVAL ONone
  | RStatusQ id => queueing_status cfg part (u8 id) s
  | RVNb id => virtual_nb_destinations cfg part (u8 id) s
  | RVDest id n => virtual_destination cfg part (u8 id) (u32 n) s
  | RVGlobal id => virtual_get_global cfg part (u8 id) s
  | RVNode port => virtual_node cfg (u32 port) s
  end.

(** ** Histories *)
Inductive plabel :=
| PCall (part now : Z) (r : preq)
| PResume (k : nat) (now : Z)                (** the waiting call number [k] goes on *)
| PFlushPart (part now : Z)                  (** sched.c:155 *)
| PFlushAll (active : Z -> bool) (now : Z).  (** sched.c:150, 161 *)
Inductive pevent :=
| EvRet (part : Z) (r : preq) (e : Z) (o : pout)
| EvWait (part : Z) (r : preq)
| EvResumed (w : pcall) (e : Z) (o : pout)
| EvFlush.
(** The ports and the calls that wait. *)
Definition pmach := (pstate * list pcall)%type.
Definition remove_nth {A : Type} (k : nat) (l : list A) : list A := firstn k l ++ skipn (S k) l.
(** Outcome of a step: [None] stands for undefined behaviour; a thread that waits for the lock of a port leaves
    no trace. *)
Definition pstep (cfg : pconfig) (m : pmach) (l : plabel) : option (pmach * list pevent) :=
  let '(s, ws) := m in
  match l with
  | PCall part now r =>
      match port_call cfg now part r s with
      | PRet s' e o => Some ((s', ws), [EvRet part r e o])
      | PWait s' w => Some ((s', ws ++ [w]), [EvWait part r])
      | PStuck => Some (m, [])
      | PUb => None
      end
  | PResume k now =>
      match nth_error ws k with
      | None => Some (m, [])
      | Some w =>
          match resume_call now w s with
          | PRet s' e o => Some ((s', remove_nth k ws), [EvResumed w e o])
          | PWait s' w' => Some ((s', remove_nth k ws ++ [w']), [])
          | PStuck => Some (m, [])
          | PUb => None
          end
      end
  | PFlushPart part now =>
      match flush_partition cfg now part s with None => None | Some s' => Some ((s', ws), [EvFlush]) end
  | PFlushAll active now =>
      match flush_all cfg active now s with None => None | Some s' => Some ((s', ws), [EvFlush]) end
  end.
Fixpoint prun (cfg : pconfig) (m : pmach) (ls : list plabel) : option (pmach * list pevent) :=
  match ls with
  | [] => Some (m, [])
  | l :: ls' =>
      match pstep cfg m l with
      | None => None
      | Some (m1, ev) => match prun cfg m1 ls' with None => None | Some (m2, ev') => Some (m2, ev ++ ev') end
      end
  end.
