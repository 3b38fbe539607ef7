(** C25: the bytes read from a queueing port are the bytes written into it, in order; a send that does not fit is refused.

    Receptions always behave ([C25_receive], [C25_receive_resumed]): they remove the oldest bytes, as many as asked for or as
    there are. Sends do not: pok_port_available_size computes off_b - off_e, which is a huge unsigned number whenever
    the bytes held do not wrap round, and counts the wrong part of the ring when they do; a message that
    does not fit is accepted and overwrites unread bytes ([C25_fits_refuted], [C25_send_refuted]). Proved for
    sends that fit ([C25_send_partial], [C25_send_resumed_partial]) and, end to end, for a source and its destination
    ([C25_channel_partial]): as long as the accepted sends fit and what is flushed fits in a destination not marked
    full, the bytes received, then those held at the destination, then those held at the source are exactly the bytes sent. *)
From Verif Require Import Model.Base Model.Port Spec.PortSpec Spec.PortDemo Spec.ChanSpec Proof.Tac Proof.PortRing Proof.PortInv Proof.PortWait Proof.PortChan.

Theorem C25_receive : forall cfg, pcfg_ok cfg -> forall m now part id tmo maxlen ptr s' o, preachable cfg m -> 0 <= part < q_nparts cfg ->
  port_call cfg now part (RReceive id tmo maxlen ptr) (fst m) = PRet s' ERR_OK o ->
  exists d, o = OData d /\ d ++ held s' (u8 id) = held (fst m) (u8 id) /\ d <> [] /\ Z.of_nat (length d) = Z.min (u32 maxlen) (pending (ps_port (fst m) (u8 id))).
Proof.
  intros cfg C m now part id tmo maxlen ptr s' o R Hp. destruct (preach_inv cfg m C R) as [I _]. cbn [port_call]. cut_if A.
  unfold queueing_receive, owned. cut_if L. cut_if A1. destruct (own_port _ _ _) as [[]|]; try discriminate. cut_if A2. cut_if A3. cut_if A4.
  unfold lock_port. cut_if A5. cut_if A6. intros H. apply negb_false_iff in A2, A3. apply Z.eqb_eq in A3.
  match type of H with receive_loop ?a ?b ?c ?d ?e _ = _ => pose proof (locked_receive cfg a b c d e (fst m) I A2 A3 ltac:(lia)) as X end.
  rewrite H in X. destruct o as [|i|d|d v|? ? ? ?]; try contradiction. destruct X as (X1 & _ & X2). destruct (X2 eq_refl) as [X3 X4]. eauto 6.
Qed.
Print Assumptions C25_receive.
Theorem C25_receive_resumed : forall cfg, pcfg_ok cfg -> forall m now k part id maxlen tmo dl s' o, preachable cfg m ->
  nth_error (snd m) k = Some (WRecv part id maxlen tmo dl) -> resume_call now (WRecv part id maxlen tmo dl) (fst m) = PRet s' ERR_OK o ->
  exists d, o = OData d /\ d ++ held s' id = held (fst m) id /\ d <> [] /\ Z.of_nat (length d) = Z.min maxlen (pending (ps_port (fst m) id)).
Proof.
  intros cfg C m now k part id maxlen tmo dl s' o R N. destruct (preach_inv cfg m C R) as [I _]. pose proof (preach_waits cfg m C R) as Wk.
  assert (Kw : wait_ok cfg (fst m) (WRecv part id maxlen tmo dl)) by (apply nth_error_In in N; rewrite Forall_forall in Wk; auto).
  destruct Kw as (_ & Rd & K & Hl & _). cbn [wid] in *. cbn [resume_call]. unfold lock_port. cut_if A5. cut_if A6. cut_if A7. intros H.
  pose proof (locked_receive cfg now part id maxlen tmo (fst m) I Rd K Hl) as X. rewrite H in X.
  destruct o as [|i|d|d v|? ? ? ?]; try contradiction. destruct X as (X1 & _ & X2). destruct (X2 eq_refl) as [X3 X4]. eauto 6.
Qed.
Print Assumptions C25_receive_resumed.

(** *** Sends *)
Definition C25_send : Prop := forall cfg, pcfg_ok cfg -> forall m now part id data len ptr tmo s' o, preachable cfg m -> 0 <= part < q_nparts cfg ->
  0 <= len < 2^8 -> port_call cfg now part (RSend id data len ptr tmo) (fst m) = PRet s' ERR_OK o -> held s' (u8 id) = held (fst m) (u8 id) ++ bytes data len.
Definition C25_fits : Prop := forall cfg, pcfg_ok cfg -> forall m now part id data len ptr tmo s' o, preachable cfg m -> 0 <= part < q_nparts cfg ->
  0 <= len < 2^8 -> port_call cfg now part (RSend id data len ptr tmo) (fst m) = PRet s' ERR_OK o -> pending (ps_port (fst m) (u8 id)) + len <= pt_size (ps_port (fst m) (u8 id)).
(** A port of 4 bytes holds 10, 11, 12; the message 20, 21, 22 is accepted. *)
Theorem C25_fits_refuted : ~ C25_fits.
Proof.
  intros H. set (ls := p_q 4 ++ [p_send 1 10 3]).
  assert (X : match pdemo_run ls with
     | Some (m, _) => pending (ps_port (fst m) 0) = 3 /\ pt_size (ps_port (fst m) 0) = 4 /\
        match port_call pdemo 2 0 (RSend 0 (from_val 20) 3 64 0) (fst m) with PRet s' e o => e = ERR_OK | _ => False end
     | None => False end) by (clear H; vm_compute; repeat split; reflexivity).
  destruct (pdemo_run ls) as [[m ev]|] eqn:R; [|exact X]. destruct X as (P3 & S4 & X).
  destruct (port_call pdemo 2 0 (RSend 0 (from_val 20) 3 64 0) (fst m)) as [s' e o| | |] eqn:P; [|exact X|exact X|exact X]. subst e.
  assert (Y : pending (ps_port (fst m) (u8 0)) + 3 <= pt_size (ps_port (fst m) (u8 0))).
  { refine (H pdemo pdemo_ok m 2 0 0 (from_val 20) 3 64 0 s' o (pdemo_reachable _ _ _ R) _ _ P); clear; cbn; lia. }
  change (u8 0) with 0 in Y. rewrite P3, S4 in Y. clear - Y. lia.
Qed.
Print Assumptions C25_fits_refuted.
(** Afterwards the port holds 12, 20: the two bytes 10, 11 and the end of the new message are gone. *)
Theorem C25_send_refuted : ~ C25_send.
Proof.
  intros H. set (ls := p_q 4 ++ [p_send 1 10 3]).
  assert (X : match pdemo_run ls with
     | Some (m, _) => held (fst m) 0 = [10; 11; 12] /\
        match port_call pdemo 2 0 (RSend 0 (from_val 20) 3 64 0) (fst m) with PRet s' e o => e = ERR_OK /\ length (held s' 0) = 2%nat | _ => False end
     | None => False end) by (clear H; vm_compute; repeat split; reflexivity).
  destruct (pdemo_run ls) as [[m ev]|] eqn:R; [|exact X]. destruct X as (P3 & X).
  destruct (port_call pdemo 2 0 (RSend 0 (from_val 20) 3 64 0) (fst m)) as [s' e o| | |] eqn:P; [|exact X|exact X|exact X]. destruct X as [-> X].
  assert (Y : held s' (u8 0) = held (fst m) (u8 0) ++ bytes (from_val 20) 3).
  { refine (H pdemo pdemo_ok m 2 0 0 (from_val 20) 3 64 0 s' o (pdemo_reachable _ _ _ R) _ _ P); clear; cbn; lia. }
  change (u8 0) with 0 in Y. rewrite P3 in Y. rewrite Y in X. clear - X. discriminate X.
Qed.
Print Assumptions C25_send_refuted.

Lemma send_ok cfg now part id data len tmo s s' e o : pinv cfg s -> pt_ready (ps_port s id) = true -> pt_kind (ps_port s id) = PK_QUEUEING -> 0 < len ->
  pending (ps_port s id) + len <= pt_size (ps_port s id) ->
  send_loop now part id data len tmo (on_port id (set_pt_free false) s) = PRet s' e o -> held s' id = held s id ++ (if e =? ERR_OK then bytes data len else []).
Proof.
  intros I R K Hl G H. rewrite <- (held_free id id false s). set (s1 := on_port id (set_pt_free false) s) in *.
  assert (S1 : ps_port s1 id = set_pt_free false (ps_port s id)) by (unfold s1; cbn [ps_port on_port]; apply upd_same).
  pose proof (send_loop_held now part id data len tmo s1) as X. rewrite H in X. apply X; auto; rewrite S1.
  - apply shape_free, (pi_shape _ _ I).
  - exact K.
  - right. exact G.
Qed.
(** A send that fits appends its bytes. *)
Theorem C25_send_partial : forall cfg, pcfg_ok cfg -> forall m now part id data len ptr tmo s' o, preachable cfg m -> 0 <= part < q_nparts cfg ->
  0 <= len < 2^8 -> pending (ps_port (fst m) (u8 id)) + len <= pt_size (ps_port (fst m) (u8 id)) ->
  port_call cfg now part (RSend id data len ptr tmo) (fst m) = PRet s' ERR_OK o -> held s' (u8 id) = held (fst m) (u8 id) ++ bytes data len.
Proof.
  intros cfg C m now part id data len ptr tmo s' o R Hp Hl G. destruct (preach_inv cfg m C R) as [I _]. cbn [port_call].
  assert (El : u8 len = len) by (unfold u8; apply Z.mod_small; lia). rewrite El.
  cut_if A. unfold queueing_send, owned. cut_if A1. cut_if L. destruct (own_port _ _ _) as [[]|]; try discriminate.
  cut_if A2. cut_if A3. cut_if A4. cut_if A5. cut_if A6. unfold lock_port. cut_if A7. cut_if A8. intros H. apply negb_false_iff in A2, A6. apply Z.eqb_eq in A6.
  apply send_ok with (cfg := cfg) in H; auto. lia.
Qed.
Print Assumptions C25_send_partial.
Theorem C25_send_resumed_partial : forall cfg, pcfg_ok cfg -> forall m now k part id data len tmo dl s' o, preachable cfg m ->
  nth_error (snd m) k = Some (WSend part id data len tmo dl) -> pending (ps_port (fst m) id) + len <= pt_size (ps_port (fst m) id) ->
  resume_call now (WSend part id data len tmo dl) (fst m) = PRet s' ERR_OK o -> held s' id = held (fst m) id ++ bytes data len.
Proof.
  intros cfg C m now k part id data len tmo dl s' o R N G. destruct (preach_inv cfg m C R) as [I _]. pose proof (preach_waits cfg m C R) as Wk.
  assert (Kw : wait_ok cfg (fst m) (WSend part id data len tmo dl)) by (apply nth_error_In in N; rewrite Forall_forall in Wk; auto).
  destruct Kw as (_ & Rd & K & (Hl & _) & _). cbn [wid] in *. cbn [resume_call]. unfold lock_port. cut_if A5. cut_if A6. cut_if A7. intros H.
  apply send_ok with (cfg := cfg) in H; auto.
Qed.
Print Assumptions C25_send_resumed_partial.

(** *** From the source to the destination *)
Theorem C25_channel_partial : forall cfg, pcfg_ok cfg -> forall src dst, channel cfg src dst -> forall m ls m' ev,
  preachable cfg m -> opened PK_QUEUEING (fst m) src dst -> Forall (plabel_ok cfg) ls -> guarded cfg (roomy cfg src dst) m ls -> prun cfg m ls = Some (m', ev) ->
  received dst ev ++ held (fst m') dst ++ held (fst m') src = held (fst m) dst ++ held (fst m) src ++ sent src ev.
Proof. intros cfg C src dst Ch m ls m' ev R Op L G P. exact (run_stream cfg C src dst Ch ls m m' ev R Op L G P). Qed.
Print Assumptions C25_channel_partial.

(** Two messages, two flushes, a wrapping destination. *)
Lemma pdemo_channel : channel pdemo 0 1.
Proof.
  split; cbn [pdemo q_nports]; try lia.
  - exists 0. cbn [pdemo q_ndest q_local q_dest]. change (0 mod 2 =? 0) with true. cbn iota. split; [lia|]. intros j Hj. lia.
  - intros l (j & _ & E). cbn [pdemo q_local q_dest] in E. lia.
Qed.
Definition story : list plabel :=
  [p_send 1 10 3; PFlushPart 0 2; p_send 3 20 2; p_recv 4 2; PFlushAll (fun _ => true) 5; p_recv 6 8; p_send 7 30 4; PFlushPart 0 8; p_recv 9 3].
Example C25_channel_nonvacuous :
  match pdemo_run (p_q 5) with
  | Some (m, _) => opened PK_QUEUEING (fst m) 0 1 /\ guarded pdemo (roomy pdemo 0 1) m story /\
      match prun pdemo m story with
      | Some (m', ev) => received 1 ev = [10; 11; 12; 20; 21; 30; 31; 32] /\ held (fst m') 1 = [33] /\ sent 0 ev = [10; 11; 12; 20; 21; 30; 31; 32; 33]
      | None => False
      end
  | None => False
  end.
Proof. vm_compute. repeat split; intros; try discriminate; right; repeat split; discriminate. Qed.
