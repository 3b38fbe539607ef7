(** C29: flushing a partition moves the data of its output ports to the configured destinations, and touches nothing else.

    The second half holds in all states ([C29_frame], [C29_frame_all]): a port that is neither an output port of the
    partition nor a configured destination, with direction IN, of one of them keeps its record and its buffer. The first half does
    not: the result of pok_port_write at the destination is ignored, so what does not fit is lost although the source is
    emptied ([C29_transfer_refuted]); and the destination may refuse everything although it has room, because a
    partial read leaves it marked full ([C29_room_refuted]). Proved with room in a destination not marked full
    ([C29_transfer_partial]) and for sampling channels between ports of the same size ([C29_sampling_partial]). *)
From Verif Require Import Model.Base Model.Port Spec.PortSpec Spec.PortDemo Spec.ChanSpec Proof.Tac Proof.PortRing Proof.PortInv Proof.PortWait Proof.PortChan
  Proof.SampChan Proof.PortFlush.

Theorem C29_frame : forall cfg, pcfg_ok cfg -> forall m part now m' ev j, preachable cfg m -> pstep cfg m (PFlushPart part now) = Some (m', ev) ->
  ~ outs cfg (fst m) part j -> ~ fed cfg (fst m) part j ->
  ps_port (fst m') j = ps_port (fst m) j /\ (forall a, in_buffer (ps_port (fst m) j) a -> ps_pool (fst m') a = ps_pool (fst m) a) /\ snd m' = snd m.
Proof.
  intros cfg C [s ws] part now m' ev j R S N1 N2. destruct (preach_inv cfg _ C R) as [I _]. cbn [fst snd pstep] in *.
  destruct (flush_partition cfg now part s) as [s1|] eqn:F; [|discriminate]. injection S as <- _. cbn [fst snd].
  pose proof (flush_partition_effect _ _ _ _ _ (pi_shape _ _ I) F) as E. destruct (pt_ready (ps_port s j)) eqn:Rj.
  - destruct (effect_still cfg _ _ _ _ j I E Rj) as [A B]; [tauto|exact N2|auto].
  - destruct E as (_ & _ & Fr & _). split; [apply Fr; tauto|]. split; [|reflexivity]. intros a Ha. destruct (pi_idle _ _ I j Rj) as (Z0 & _). unfold in_buffer in Ha. lia.
Qed.
Print Assumptions C29_frame.
Theorem C29_frame_all : forall cfg, pcfg_ok cfg -> forall m active now m' ev j, preachable cfg m -> pstep cfg m (PFlushAll active now) = Some (m', ev) ->
  (forall part, 0 <= part < q_nparts cfg -> active part = true -> ~ outs cfg (fst m) part j /\ ~ fed cfg (fst m) part j) ->
  ps_port (fst m') j = ps_port (fst m) j /\ (forall a, in_buffer (ps_port (fst m) j) a -> ps_pool (fst m') a = ps_pool (fst m) a) /\ snd m' = snd m.
Proof.
  intros cfg C [s ws] active now m' ev j R S N. destruct (preach_inv cfg _ C R) as [I _]. cbn [fst snd pstep] in *.
  destruct (flush_all cfg active now s) as [s1|] eqn:F; [|discriminate]. injection S as <- _. cbn [fst snd].
  pose proof (flush_parts_effect _ _ _ _ _ _ _ (pi_shape _ _ I) F) as E.
  assert (NP : ~ (exists part, 0 <= part < 0 + Z.of_nat (Z.to_nat (q_nparts cfg)) /\ active part = true /\ (outs cfg s part j \/ fed cfg s part j))).
  { intros (p & Hp & A & X). destruct (N p ltac:(lia) A). tauto. }
  destruct (pt_ready (ps_port s j)) eqn:Rj.
  - destruct (effect_still cfg _ _ _ _ j I E Rj) as [A B]; [exact NP| |auto]. intros (p & Hp & A & X). apply NP. eauto 6.
  - destruct E as (_ & _ & Fr & _). split; [apply Fr; exact NP|]. split; [|reflexivity]. intros a Ha. destruct (pi_idle _ _ I j Rj) as (Z0 & _). unfold in_buffer in Ha. lia.
Qed.
Print Assumptions C29_frame_all.
(** Partition 0 is flushed: the ports 2 and 3 of the other kind, and the memory behind them, are not outputs or destinations that hold data; port 1 is fed. *)
Example C29_frame_nonvacuous :
  match pdemo_run (p_q 8 ++ p_s 8 100 ++ [p_send 1 10 3; p_write 1 50 8]) with
  | Some (m, _) => match pstep pdemo m (PFlushPart 0 2) with
      | Some (m', _) => held (fst m') 1 = [10; 11; 12] /\ ~ outs pdemo (fst m) 1 2 /\ stored_in (fst m') 3 = Some [50; 51; 52; 53; 54; 55; 56; 57]
      | None => False end
  | None => False
  end.
Proof.
  assert (A : match pdemo_run (p_q 8 ++ p_s 8 100 ++ [p_send 1 10 3; p_write 1 50 8]) with
  | Some (m, _) => match pstep pdemo m (PFlushPart 0 2) with
      | Some (m', _) => held (fst m') 1 = [10; 11; 12] /\ stored_in (fst m') 3 = Some [50; 51; 52; 53; 54; 55; 56; 57]
      | None => False end
  | None => False
  end) by (vm_compute; split; reflexivity).
  destruct (pdemo_run _) as [[m ev]|]; [|exact A]. destruct (pstep pdemo m _) as [[m' ev']|]; [|exact A]. destruct A as [A B]. split; [exact A|]. split; [|exact B].
  intros (i & _ & E & _). cbn [pdemo q_by] in E. lia.
Qed.

(** *** Transfer *)
Definition listed (cfg : pconfig) (src : Z) : Prop := exists i, 0 <= i < q_nby cfg (q_owner cfg src) /\ q_by cfg (q_owner cfg src) i = src.
Definition C29_transfer : Prop := forall cfg, pcfg_ok cfg -> forall src dst, channel cfg src dst -> listed cfg src -> forall m now m' ev,
  preachable cfg m -> opened PK_QUEUEING (fst m) src dst -> pstep cfg m (PFlushPart (q_owner cfg src) now) = Some (m', ev) ->
  held (fst m') dst = held (fst m) dst ++ held (fst m) src.
(** The same, if there is room for the bytes. *)
Definition C29_room : Prop := forall cfg, pcfg_ok cfg -> forall src dst, channel cfg src dst -> listed cfg src -> forall m now m' ev,
  preachable cfg m -> opened PK_QUEUEING (fst m) src dst -> pending (ps_port (fst m) dst) + pending (ps_port (fst m) src) <= pt_size (ps_port (fst m) dst) ->
  pstep cfg m (PFlushPart (q_owner cfg src) now) = Some (m', ev) ->
  held (fst m') dst = held (fst m) dst ++ held (fst m) src.
Lemma pdemo_channel : channel pdemo 0 1.
Proof.
  split; cbn [pdemo q_nports]; try lia.
  - exists 0. cbn [pdemo q_ndest q_local q_dest]. change (0 mod 2 =? 0) with true. cbn iota. split; [lia|]. intros j Hj. lia.
  - intros l (j & _ & E). cbn [pdemo q_local q_dest] in E. lia.
Qed.
Lemma pdemo_listed : listed pdemo 0.
Proof. exists 0. cbn. lia. Qed.
(** The destination holds four bytes of four; 20 and 21 are lost. *)
Theorem C29_transfer_refuted : ~ C29_transfer.
Proof.
  intros H. set (ls := p_q 4 ++ [p_send 1 10 4; PFlushPart 0 2; p_send 3 20 2]).
  assert (X : match pdemo_run ls with
     | Some (m, _) => opened PK_QUEUEING (fst m) 0 1 /\ held (fst m) 0 = [20; 21] /\ held (fst m) 1 = [10; 11; 12; 13] /\
        match pstep pdemo m (PFlushPart (q_owner pdemo 0) 4) with Some (m', _) => held (fst m') 1 = [10; 11; 12; 13] /\ held (fst m') 0 = [] | None => False end
     | None => False end) by (clear H; vm_compute; repeat split; reflexivity).
  destruct (pdemo_run ls) as [[m ev]|] eqn:R; [|exact X]. destruct X as (Op & H0 & H1 & X).
  destruct (pstep pdemo m (PFlushPart (q_owner pdemo 0) 4)) as [[m' ev']|] eqn:P; [|exact X]. destruct X as [X _].
  assert (Y : held (fst m') 1 = held (fst m) 1 ++ held (fst m) 0) by exact (H pdemo pdemo_ok 0 1 pdemo_channel pdemo_listed m 4 m' ev' (pdemo_reachable _ _ _ R) Op P).
  rewrite H0, H1, X in Y. clear - Y. discriminate Y.
Qed.
Print Assumptions C29_transfer_refuted.
(** Three of the four bytes have been read; there is room, but the port is still marked full and 20, 21 are lost. *)
Theorem C29_room_refuted : ~ C29_room.
Proof.
  intros H. set (ls := p_q 4 ++ [p_send 1 10 4; PFlushPart 0 2; p_recv 3 3; p_send 3 20 2]).
  assert (X : match pdemo_run ls with
     | Some (m, _) => opened PK_QUEUEING (fst m) 0 1 /\ held (fst m) 0 = [20; 21] /\ held (fst m) 1 = [13] /\
        pending (ps_port (fst m) 1) = 1 /\ pending (ps_port (fst m) 0) = 2 /\ pt_size (ps_port (fst m) 1) = 4 /\
        match pstep pdemo m (PFlushPart (q_owner pdemo 0) 4) with Some (m', _) => held (fst m') 1 = [13] /\ held (fst m') 0 = [] | None => False end
     | None => False end) by (clear H; vm_compute; repeat split; reflexivity).
  destruct (pdemo_run ls) as [[m ev]|] eqn:R; [|exact X]. destruct X as (Op & H0 & H1 & P1 & P0 & S1 & X).
  destruct (pstep pdemo m (PFlushPart (q_owner pdemo 0) 4)) as [[m' ev']|] eqn:P; [|exact X]. destruct X as [X _].
  assert (Fit : pending (ps_port (fst m) 1) + pending (ps_port (fst m) 0) <= pt_size (ps_port (fst m) 1)) by (rewrite P1, P0, S1; lia).
  assert (Y : held (fst m') 1 = held (fst m) 1 ++ held (fst m) 0) by exact (H pdemo pdemo_ok 0 1 pdemo_channel pdemo_listed m 4 m' ev' (pdemo_reachable _ _ _ R) Op Fit P).
  rewrite H0, H1, X in Y. clear - Y. discriminate Y.
Qed.
Print Assumptions C29_room_refuted.
Theorem C29_transfer_partial : forall cfg, pcfg_ok cfg -> forall src dst, channel cfg src dst -> listed cfg src -> forall m now m' ev,
  preachable cfg m -> opened PK_QUEUEING (fst m) src dst -> pt_full (ps_port (fst m) dst) = false ->
  pending (ps_port (fst m) dst) + pending (ps_port (fst m) src) <= pt_size (ps_port (fst m) dst) ->
  pstep cfg m (PFlushPart (q_owner cfg src) now) = Some (m', ev) ->
  held (fst m') dst = held (fst m) dst ++ held (fst m) src /\ held (fst m') src = [].
Proof.
  intros cfg C src dst Ch Ls [s ws] now m' ev R Op Fu Fit S. destruct (preach_inv cfg _ C R) as [I _]. pose proof (preach_marks cfg _ C R) as M. cbn [fst snd pstep] in *.
  destruct (flush_partition cfg now (q_owner cfg src) s) as [s1|] eqn:F; [|discriminate]. injection S as <- _. cbn [fst].
  eapply transfer; eauto. right. auto.
Qed.
Print Assumptions C29_transfer_partial.
Example C29_transfer_nonvacuous :
  match pdemo_run (p_q 8 ++ [p_send 1 10 3; PFlushPart 0 2; p_send 3 20 2]) with
  | Some (m, _) => opened PK_QUEUEING (fst m) 0 1 /\ pt_full (ps_port (fst m) 1) = false /\ held (fst m) 0 = [20; 21] /\ held (fst m) 1 = [10; 11; 12]
  | None => False
  end.
Proof. vm_compute. repeat split; reflexivity. Qed.

(** Sampling channels: a message not delivered yet replaces that of the destination. *)
Theorem C29_sampling_partial : forall cfg, pcfg_ok cfg -> forall src dst, channel cfg src dst -> listed cfg src -> forall m now m' ev,
  preachable cfg m -> opened PK_SAMPLING (fst m) src dst -> pt_size (ps_port (fst m) src) = pt_size (ps_port (fst m) dst) ->
  pstep cfg m (PFlushPart (q_owner cfg src) now) = Some (m', ev) ->
  stored_in (fst m') src = stored_in (fst m) src /\
  stored_in (fst m') dst = (if pt_flush (ps_port (fst m) src) then match stored_in (fst m) src with Some d => Some d | None => stored_in (fst m) dst end else stored_in (fst m) dst).
Proof.
  intros cfg C src dst Ch Ls [s ws] now m' ev R Op Sz S. destruct (preach_inv cfg _ C R) as [I _]. cbn [fst snd pstep] in *.
  destruct (flush_partition cfg now (q_owner cfg src) s) as [s1|] eqn:F; [|discriminate]. injection S as <- _. cbn [fst].
  set (a := mkSamp (stored_in s src) (pt_flush (ps_port s src)) (option_map (fun d => (d, pt_last (ps_port s dst))) (stored_in s dst))).
  assert (Rl : samp_rel src dst (pt_refresh (ps_port s dst)) s a).
  { split; auto; unfold a; cbn [sp_out sp_fresh sp_in].
    - destruct (stored_in s dst); reflexivity.
    - intros d t. destruct (stored_in s dst); [intros [= _ <-]; reflexivity|discriminate]. }
  assert (Hp : 0 <= q_owner cfg src < q_nparts cfg) by (apply (pc_owner _ C), (ch_src _ _ _ Ch)).
  pose proof (flush_partition_samp cfg C src dst Ch Ls _ now (q_owner cfg src) s s1 a Hp I Rl F) as [_ Q]. rewrite Z.eqb_refl in Q.
  rewrite (sr_out _ _ _ _ _ Q), (sr_in _ _ _ _ _ Q). unfold samp_flush, a. cbn [sp_out sp_fresh sp_in].
  destruct (stored_in s src) as [d|] eqn:So; [destruct (pt_flush (ps_port s src))|]; cbn [sp_out sp_in option_map fst]; split; auto; try (rewrite So; reflexivity);
    destruct (pt_flush (ps_port s src)); destruct (stored_in s dst); reflexivity.
Qed.
Print Assumptions C29_sampling_partial.
