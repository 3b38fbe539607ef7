(** What ports are for, independently of how they are implemented: a queueing port holds a sequence of bytes, a sampling port
    holds one message, and every port has its own part of the pool. *)
From Verif Require Import Model.Base Model.Port.

(** Number of bytes held by a ring, and those bytes, oldest first. *)
Definition pending (p : port) : Z :=
  if pt_empty p then 0 else if pt_b p <? pt_e p then pt_e p - pt_b p else pt_size p - pt_b p + pt_e p.
Definition content (pool : Z -> Z) (p : port) : list Z :=
  bytes (fun i => pool (pt_index p + (pt_b p + i) mod pt_size p)) (pending p).
(** The message held by a sampling port. *)
Definition message (pool : Z -> Z) (p : port) : list Z := bytes (fun i => pool (pt_index p + i)) (pt_size p).

(** Offsets inside the buffer; equal offsets mean empty or full. *)
Definition ring_ok (p : port) : Prop :=
  0 < pt_size p /\ 0 <= pt_b p < pt_size p /\ 0 <= pt_e p < pt_size p /\
  (pt_empty p = true -> pt_b p = pt_e p /\ pt_full p = false) /\
  (pt_b p = pt_e p -> pt_empty p = true \/ pt_full p = true).

(** Address [a] of the pool belongs to port [p]. *)
Definition in_buffer (p : port) (a : Z) : Prop := pt_index p <= a < pt_index p + pt_size p.

(** A sound configuration: the tables of the ports of a partition and of the destinations only name ports. *)
Record pcfg_ok (cfg : pconfig) : Prop := {
  pc_nports : 0 < q_nports cfg <= 255;
  pc_nparts : 0 < q_nparts cfg <= 255;
  pc_owner : forall id, 0 <= id < q_nports cfg -> 0 <= q_owner cfg id < q_nparts cfg;
  pc_by : forall part i, 0 <= part < q_nparts cfg -> 0 <= i < q_nby cfg part ->
            0 <= q_by cfg part i < q_nports cfg /\ q_owner cfg (q_by cfg part i) = part;
  pc_dest : forall l j, 0 <= l < q_nports cfg -> 0 <= j < q_ndest cfg l -> 0 <= q_local cfg (q_dest cfg l j) < q_nports cfg
}.

(** Arguments that can occur: calls are made by partitions, at 64-bit dates. *)
Definition plabel_ok (cfg : pconfig) (l : plabel) : Prop :=
  match l with
  | PCall part now _ => 0 <= part < q_nparts cfg /\ 0 <= now < 2^64
  | PResume _ now => 0 <= now < 2^64
  | PFlushPart part now => 0 <= part < q_nparts cfg /\ 0 <= now < 2^64
  | PFlushAll _ now => 0 <= now < 2^64
  end.
(** States that can be reached from boot. *)
Inductive preachable (cfg : pconfig) : pmach -> Prop :=
| pr_boot : preachable cfg (ports_boot, [])
| pr_step m l m' ev : preachable cfg m -> plabel_ok cfg l -> pstep cfg m l = Some (m', ev) -> preachable cfg m'.

(** The port a request names, if any. *)
Definition rid (r : preq) : option Z :=
  match r with
  | RCreateS _ _ _ _ | RCreateQ _ _ _ _ | RVNode _ => None
  | RWrite id _ _ _ | RRead id _ | RStatusS id | RSend id _ _ _ _ | RReceive id _ _ _ | RStatusQ id
  | RVNb id | RVDest id _ | RVGlobal id => Some (u8 id)
  end.
(** Port and length of a call that waits. *)
Definition wid (w : pcall) : Z := match w with WSend _ id _ _ _ _ => id | WRecv _ id _ _ _ => id end.
Definition wlen (w : pcall) : Z := match w with WSend _ _ _ n _ _ => n | WRecv _ _ n _ _ => n end.

(** Port [d] is a configured destination of port [l]. *)
Definition dests (cfg : pconfig) (l d : Z) : Prop := exists j, 0 <= j < q_ndest cfg l /\ d = q_local cfg (q_dest cfg l j).
(** Ports that flushing partition [part] may change: its output ports and their destinations. *)
Definition outs (cfg : pconfig) (s : pstate) (part l : Z) : Prop :=
  exists i, 0 <= i < q_nby cfg part /\ l = q_by cfg part i /\ pt_dir (ps_port s l) = DIR_OUT.
Definition fed (cfg : pconfig) (s : pstate) (part d : Z) : Prop :=
  exists l, outs cfg s part l /\ dests cfg l d /\ pt_dir (ps_port s d) = DIR_IN.

(** States reached by histories all of whose steps satisfy [G]. *)
Inductive preach_with (cfg : pconfig) (G : pstate -> plabel -> Prop) : pmach -> Prop :=
| pw_boot : preach_with cfg G (ports_boot, [])
| pw_step m l m' ev : preach_with cfg G m -> plabel_ok cfg l -> G (fst m) l -> pstep cfg m l = Some (m', ev) -> preach_with cfg G m'.
