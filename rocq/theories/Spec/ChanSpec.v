(** Channels: a source port and a destination port of other partitions, seen as byte streams or as messages. *)
From Verif Require Import Model.Base Model.Port Spec.PortSpec.

(** Bytes held by port [id]. *)
Definition held (s : pstate) (id : Z) : list Z := content (ps_pool s) (ps_port s id).

(** Bytes that a history has accepted for port [src] (calls that returned OK), and delivered from port [dst]. *)
Definition sent_of (src : Z) (ev : pevent) : list Z :=
  match ev with
  | EvRet _ (RSend id data len _ _) e _ => if (u8 id =? src) && (e =? ERR_OK) then bytes data (u8 len) else []
  | EvResumed (WSend _ id data len _ _) e _ => if (id =? src) && (e =? ERR_OK) then bytes data len else []
  | _ => []
  end.
Definition sent (src : Z) (evs : list pevent) : list Z := flat_map (sent_of src) evs.
Definition received_of (dst : Z) (ev : pevent) : list Z :=
  match ev with
  | EvRet _ (RReceive id _ _ _) e (OData d) => if (u8 id =? dst) && (e =? ERR_OK) then d else []
  | EvResumed (WRecv _ id _ _ _) e (OData d) => if (id =? dst) && (e =? ERR_OK) then d else []
  | _ => []
  end.
Definition received (dst : Z) (evs : list pevent) : list Z := flat_map (received_of dst) evs.

(** [dst] is exactly one of the destinations of [src], and of no other port. *)
Record channel (cfg : pconfig) (src dst : Z) : Prop := {
  ch_src : 0 <= src < q_nports cfg;
  ch_dst : 0 <= dst < q_nports cfg;
  ch_neq : src <> dst;
  ch_once : exists j, 0 <= j < q_ndest cfg src /\ forall j', 0 <= j' < q_ndest cfg src -> (q_local cfg (q_dest cfg src j') = dst <-> j' = j);
  ch_only : forall l, dests cfg l dst -> l = src
}.
(** Both ends created, as queueing ports of the right directions. *)
Definition opened (kind : Z) (s : pstate) (src dst : Z) : Prop :=
  pt_ready (ps_port s src) = true /\ pt_kind (ps_port s src) = kind /\ pt_dir (ps_port s src) = DIR_OUT /\
  pt_ready (ps_port s dst) = true /\ pt_kind (ps_port s dst) = kind /\ pt_dir (ps_port s dst) = DIR_IN.

(** All steps of a run satisfy [G]. *)
Fixpoint guarded (cfg : pconfig) (G : pmach -> plabel -> Prop) (m : pmach) (ls : list plabel) : Prop :=
  match ls with
  | [] => True
  | l :: ls' => G m l /\ match pstep cfg m l with Some (m1, _) => guarded cfg G m1 ls' | None => True end
  end.

(** ** Sampling channels *)
(** What a sampling channel is for: the last message written at the source, whether it is still to be delivered, and the last
    message delivered with the date of its delivery. *)
Record samp := mkSamp { sp_out : option (list Z); sp_fresh : bool; sp_in : option (list Z * Z) }.
Definition samp_flush (now : Z) (a : samp) : samp :=
  match sp_out a with
  | Some d => if sp_fresh a then mkSamp (Some d) false (Some (d, now)) else a
  | None => a
  end.
Definition samp_step (cfg : pconfig) (src : Z) (a : samp) (l : plabel) (ev : list pevent) : samp :=
  match l with
  | PCall _ _ (RWrite id data len _) =>
      match ev with
      | [EvRet _ _ e _] => if (u8 id =? src) && (e =? ERR_OK) then mkSamp (Some (bytes data (u8 len))) true (sp_in a) else a
      | _ => a
      end
  | PFlushPart part now => if part =? q_owner cfg src then samp_flush now a else a
  | PFlushAll active now => if active (q_owner cfg src) then samp_flush now a else a
  | _ => a
  end.
(** A read of port [dst] that ends returns the last message delivered, valid if and only if it is not older than [refresh]. *)
Definition read_ok (dst refresh : Z) (a : samp) (l : plabel) (ev : list pevent) : Prop :=
  match l, ev with
  | PCall _ now (RRead id _), [EvRet _ _ e o] => u8 id = dst ->
      match sp_in a with
      | None => e <> ERR_OK
      | Some (d, t) => e <> ERR_EMPTY /\ (e = ERR_OK -> exists v, o = OMsg d v /\ (v = true <-> now <= t + refresh))
      end
  | _, _ => True
  end.
Fixpoint reads_ok (cfg : pconfig) (src dst refresh : Z) (a : samp) (tr : list (plabel * list pevent)) : Prop :=
  match tr with
  | [] => True
  | (l, ev) :: tr' => read_ok dst refresh a l ev /\ reads_ok cfg src dst refresh (samp_step cfg src a l ev) tr'
  end.
(** The steps of a run with their events. *)
Fixpoint ptrace (cfg : pconfig) (m : pmach) (ls : list plabel) : option (list (plabel * list pevent)) :=
  match ls with
  | [] => Some []
  | l :: ls' =>
      match pstep cfg m l with
      | None => None
      | Some (m1, ev) => match ptrace cfg m1 ls' with None => None | Some tr => Some ((l, ev) :: tr) end
      end
  end.
