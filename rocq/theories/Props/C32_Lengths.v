(** C32: a message sent or written with length n transfers exactly n bytes or fails.

    False twice. The length is truncated to 8 bits: sending 257 bytes transfers 1 ([C32_send_refuted]), writing 260
    transfers 4 ([C32_write_refuted]). And SAMPLING_WRITE applied to a full queueing port stores nothing and returns OK
    ([C32_write_refuted_queueing]). Proved for lengths up to 255, on queueing ports for QUEUEING_SEND and on sampling
    ports for SAMPLING_WRITE. *)
From Verif Require Import Model.Base Model.Port Spec.PortSpec Spec.PortDemo Proof.Tac Proof.PortRing Proof.PortInv Proof.PortWait.

(** [len] bytes of [data] have been put in the ring of port [id], behind those already there. *)
Definition queued (id : Z) (data : Z -> Z) (len : Z) (s s' : pstate) : Prop :=
  let p := ps_port s id in
  len <= pt_size p /\ pt_e (ps_port s' id) = (pt_e p + len) mod pt_size p /\
  forall i, 0 <= i < len -> ps_pool s' (pt_index p + (pt_e p + i) mod pt_size p) = data i.
(** The first [len] bytes of the message of port [id] are those of [data]. *)
Definition stored (id : Z) (data : Z -> Z) (len : Z) (s s' : pstate) : Prop :=
  len <= pt_size (ps_port s id) /\ pt_empty (ps_port s' id) = false /\
  forall i, 0 <= i < len -> ps_pool s' (pt_index (ps_port s id) + i) = data i.

Definition C32_send : Prop := forall cfg, pcfg_ok cfg -> forall m now part id data len ptr tmo s' o, preachable cfg m -> 0 <= part < q_nparts cfg ->
  0 <= len < 2^32 -> port_call cfg now part (RSend id data len ptr tmo) (fst m) = PRet s' ERR_OK o -> queued (u8 id) data len (fst m) s'.
Theorem C32_send_refuted : ~ C32_send.
Proof.
  intros H. set (ls := p_q 8).
  assert (X : match pdemo_run ls with
     | Some (m, _) => pt_size (ps_port (fst m) 0) = 8 /\ match port_call pdemo 5 0 (RSend 0 (from_val 10) 257 64 0) (fst m) with PRet s' e o => e = ERR_OK | _ => False end
     | None => False end) by (clear H; vm_compute; split; reflexivity).
  destruct (pdemo_run ls) as [[m ev]|] eqn:R; [|exact X]. destruct X as [Sz X].
  destruct (port_call pdemo 5 0 (RSend 0 (from_val 10) 257 64 0) (fst m)) as [s' e o| | |] eqn:P; [|exact X|exact X|exact X]. subst e.
  assert (Y : queued (u8 0) (from_val 10) 257 (fst m) s').
  { refine (H pdemo pdemo_ok m 5 0 0 (from_val 10) 257 64 0 s' o (pdemo_reachable _ _ _ R) _ _ P); clear; cbn; lia. }
  destruct Y as [Y _]. change (u8 0) with 0 in Y. rewrite Sz in Y. clear - Y. lia.
Qed.
Print Assumptions C32_send_refuted.
Definition C32_write : Prop := forall cfg, pcfg_ok cfg -> forall m now part id data len ptr s' o, preachable cfg m -> 0 <= part < q_nparts cfg ->
  0 <= len < 2^32 -> port_call cfg now part (RWrite id data len ptr) (fst m) = PRet s' ERR_OK o -> stored (u8 id) data len (fst m) s'.
Theorem C32_write_refuted : ~ C32_write.
Proof.
  intros H. set (ls := p_s 8 100).
  assert (X : match pdemo_run ls with
     | Some (m, _) => pt_size (ps_port (fst m) 2) = 8 /\ match port_call pdemo 5 0 (RWrite 2 (from_val 10) 260 64) (fst m) with PRet s' e o => e = ERR_OK | _ => False end
     | None => False end) by (clear H; vm_compute; split; reflexivity).
  destruct (pdemo_run ls) as [[m ev]|] eqn:R; [|exact X]. destruct X as [Sz X].
  destruct (port_call pdemo 5 0 (RWrite 2 (from_val 10) 260 64) (fst m)) as [s' e o| | |] eqn:P; [|exact X|exact X|exact X]. subst e.
  assert (Y : stored (u8 2) (from_val 10) 260 (fst m) s').
  { refine (H pdemo pdemo_ok m 5 0 2 (from_val 10) 260 64 s' o (pdemo_reachable _ _ _ R) _ _ P); clear; cbn; lia. }
  destruct Y as [Y _]. change (u8 2) with 2 in Y. rewrite Sz in Y. clear - Y. lia.
Qed.
Print Assumptions C32_write_refuted.
(** Port 0 is full with 10, 11, 12, 13; writing 20 into it as if it were a sampling port returns OK. *)
Theorem C32_write_refuted_queueing : ~ (forall cfg, pcfg_ok cfg -> forall m now part id data len ptr s' o, preachable cfg m -> 0 <= part < q_nparts cfg ->
  0 <= len < 2^8 -> port_call cfg now part (RWrite id data len ptr) (fst m) = PRet s' ERR_OK o -> stored (u8 id) data len (fst m) s').
Proof.
  intros H. set (ls := p_q 4 ++ [p_send 1 10 4]).
  assert (X : match pdemo_run ls with
     | Some (m, _) => pt_index (ps_port (fst m) 0) = 0 /\
        match port_call pdemo 5 0 (RWrite 0 (from_val 20) 1 64) (fst m) with PRet s' e o => e = ERR_OK /\ ps_pool s' 0 = 10 | _ => False end
     | None => False end) by (clear H; vm_compute; repeat split; reflexivity).
  destruct (pdemo_run ls) as [[m ev]|] eqn:R; [|exact X]. destruct X as [Ix X].
  destruct (port_call pdemo 5 0 (RWrite 0 (from_val 20) 1 64) (fst m)) as [s' e o| | |] eqn:P; [|exact X|exact X|exact X]. destruct X as [-> X].
  assert (Y : stored (u8 0) (from_val 20) 1 (fst m) s').
  { refine (H pdemo pdemo_ok m 5 0 0 (from_val 20) 1 64 s' o (pdemo_reachable _ _ _ R) _ _ P); clear; cbn; lia. }
  destruct Y as [_ [_ Y]]. specialize (Y 0 ltac:(clear; lia)). change (u8 0) with 0 in Y. rewrite Ix in Y. change (0 + 0) with 0 in Y. rewrite X in Y. discriminate Y.
Qed.
Print Assumptions C32_write_refuted_queueing.

Lemma send_loop_ok now part id data len tmo s s1 s' o : shape (ps_port s1 id) -> pt_kind (ps_port s1 id) = PK_QUEUEING -> 0 < len <= pt_size (ps_port s1 id) ->
  same_id (ps_port s id) (ps_port s1 id) -> pt_e (ps_port s1 id) = pt_e (ps_port s id) ->
  send_loop now part id data len tmo s1 = PRet s' ERR_OK o -> queued id data len s s'.
Proof.
  intros Sh K Hl (I1 & I2 & I3 & _) Ee. unfold send_loop. destruct (_ <? len) eqn:Av; [destruct (tmo =? 0); discriminate|].
  assert (Fu : pt_full (ps_port s1 id) = false).
  { unfold available_size in Av. destruct (pt_full (ps_port s1 id)); [lia|reflexivity]. }
  assert (Rg : ring_ok (ps_port s1 id)) by (apply shape_ring; [exact Sh|exact K|lia]).
  destruct (write_store now (ps_pool s1) (ps_port s1 id) data len K Rg Fu ltac:(lia)) as (pool' & p' & W & E' & D). unfold write_port. rewrite W.
  intros [= <- <-]. unfold queued. cbv zeta. rewrite I2, I3, <- Ee. split; [lia|]. split; [|exact D].
  cbn [ps_port on_port unlock_port set_ps_pool]. rewrite ?upd_same. exact E'.
Qed.

Theorem C32_send_partial : forall cfg, pcfg_ok cfg -> forall m now part id data len ptr tmo s' o, preachable cfg m -> 0 <= part < q_nparts cfg ->
  0 <= len < 2^8 -> port_call cfg now part (RSend id data len ptr tmo) (fst m) = PRet s' ERR_OK o -> queued (u8 id) data len (fst m) s'.
Proof.
  intros cfg C [s ws] now part id0 data len ptr tmo s' o R Hp Hl. destruct (preach_inv cfg _ C R) as [I W]. cbn [fst port_call] in *.
  destruct (check_ptr _ _ _ _); [|discriminate]. assert (U : u8 len = len) by (unfold u8; rewrite Z.mod_small; lia). rewrite U. set (id := u8 id0).
  unfold queueing_send, owned. cut_if A1. cut_if L. destruct (own_port _ _ _) as [[]|]; try discriminate.
  cut_if A3. cut_if Sz. cut_if A4. cut_if A5. cut_if K. unfold lock_port. cut_if A6. cut_if A7.
  pose proof (effect_on id (set_pt_free false) s (fun _ => False) (shape_free false)) as E.
  apply send_loop_ok.
  - apply (proj1 (proj2 E)). apply (pi_shape _ _ I).
  - cbn [ps_port on_port]. rewrite upd_same. cbn. lia.
  - cbn [ps_port on_port]. rewrite upd_same. cbn [pt_size set_pt_free]. lia.
  - apply (proj1 (proj2 E)).
  - cbn [ps_port on_port]. rewrite upd_same. reflexivity.
Qed.
Print Assumptions C32_send_partial.
(** A send that had to wait: the call remembers its length and data. *)
Theorem C32_send_waited_partial : forall cfg, pcfg_ok cfg -> forall m now part id data len ptr tmo s' w, preachable cfg m -> 0 <= part < q_nparts cfg ->
  0 <= len < 2^8 -> port_call cfg now part (RSend id data len ptr tmo) (fst m) = PWait s' w ->
  exists tmo' dl, w = WSend part (u8 id) data len tmo' dl.
Proof.
  intros cfg C [s ws] now part id0 data len ptr tmo s' w R Hp Hl. cbn [fst port_call].
  destruct (check_ptr _ _ _ _); [|discriminate]. assert (U : u8 len = len) by (unfold u8; rewrite Z.mod_small; lia). rewrite U.
  unfold queueing_send, owned. cut_if A1. cut_if L. destruct (own_port _ _ _) as [[]|]; try discriminate.
  cut_if A3. cut_if Sz. cut_if A4. cut_if A5. cut_if K. unfold lock_port. cut_if A6. cut_if A7. unfold send_loop.
  cut_if A8; [|destruct (write_port _ _ _ _ _) as [[]|]; discriminate]. cut_if Zt. intros [= _ <-]. eauto.
Qed.
Print Assumptions C32_send_waited_partial.
Theorem C32_resumed_partial : forall cfg, pcfg_ok cfg -> forall m now part id data len tmo dl s' o, preachable cfg m ->
  In (WSend part id data len tmo dl) (snd m) ->
  resume_call now (WSend part id data len tmo dl) (fst m) = PRet s' ERR_OK o -> queued id data len (fst m) s'.
Proof.
  intros cfg C [s ws] now part id data len tmo dl s' o R Hin. destruct (preach_inv cfg _ C R) as [I W].
  pose proof (preach_waits cfg _ C R) as Wk. rewrite Forall_forall in Wk. destruct (Wk _ Hin) as (_ & _ & K & Hl & _). clear Wk. cbn [fst wid resume_call] in *.
  unfold lock_port. cut_if A1. cut_if A2. cut_if A3.
  pose proof (effect_on id (set_pt_free false) s (fun _ => False) (shape_free false)) as E.
  apply send_loop_ok.
  - apply (proj1 (proj2 E)). apply (pi_shape _ _ I).
  - cbn [ps_port on_port]. rewrite upd_same. exact K.
  - cbn [ps_port on_port]. rewrite upd_same. cbn [pt_size set_pt_free]. lia.
  - apply (proj1 (proj2 E)).
  - cbn [ps_port on_port]. rewrite upd_same. reflexivity.
Qed.
Print Assumptions C32_resumed_partial.
Theorem C32_write_partial : forall cfg, pcfg_ok cfg -> forall m now part id data len ptr s' o, preachable cfg m -> 0 <= part < q_nparts cfg ->
  0 <= len < 2^8 -> pt_kind (ps_port (fst m) (u8 id)) = PK_SAMPLING ->
  port_call cfg now part (RWrite id data len ptr) (fst m) = PRet s' ERR_OK o -> stored (u8 id) data len (fst m) s'.
Proof.
  intros cfg C [s ws] now part id0 data len ptr s' o R Hp Hl. destruct (preach_inv cfg _ C R) as [I W]. cbn [fst port_call] in *.
  assert (U : u8 len = len) by (unfold u8; rewrite Z.mod_small; lia). rewrite U. set (id := u8 id0). intros K.
  destruct (check_ptr _ _ _ _); [|discriminate].
  unfold sampling_write, owned. cut_if A1. destruct (own_port _ _ _) as [[]|]; try discriminate.
  cut_if A3. cut_if Sz. cut_if A4. cbv zeta.
  assert (Ez : pt_e (ps_port s id) = 0) by (apply shape_samp; [apply (pi_shape _ _ I)|exact K]).
  assert (G : forall s1, ps_pool s1 = ps_pool s -> pt_kind (ps_port s1 id) = PK_SAMPLING -> pt_e (ps_port s1 id) = 0 -> pt_size (ps_port s1 id) = pt_size (ps_port s id) ->
     pt_index (ps_port s1 id) = pt_index (ps_port s id) ->
     match write_port now id data len s1 with None => PUb | Some (s2, _) => PRet (on_port id (set_pt_flush true) (unlock_port id s2)) ERR_OK ONone end = PRet s' ERR_OK o ->
     stored id data len s s').
  { intros s1 P1 P2 P3 P4 P5. destruct (write_store_s now (ps_pool s1) (ps_port s1 id) data len P2 P3 ltac:(lia)) as (pool' & p' & Wr & _ & Em & _ & _ & D).
    unfold write_port. rewrite Wr. intros [= <- <-]. split; [lia|]. split; [cbn [ps_port on_port unlock_port set_ps_pool]; rewrite ?upd_same; exact Em|].
    intros i Hi. cbn [ps_pool on_port unlock_port set_ps_pool]. rewrite D, P5. replace (_ && _) with true by lia. f_equal. lia. }
  unfold lock_port. destruct (negb (pt_linit _)); [apply G; auto|]. cut_if A5.
  apply G; cbn [ps_pool ps_port on_port]; rewrite ?upd_same; auto.
Qed.
Print Assumptions C32_write_partial.
(** Six bytes into a ring of 8 at offset 5: they wrap around. *)
Example C32_example : exists m ev s' o,
  pdemo_run (p_q 8 ++ [p_send 1 10 5; PFlushPart 0 2]) = Some (m, ev) /\
  port_call pdemo 3 0 (RSend 0 (from_val 20) 6 64 0) (fst m) = PRet s' ERR_OK o /\
  pt_e (ps_port (fst m) 0) = 5 /\ pt_e (ps_port s' 0) = 3 /\ bytes (ps_pool s') 8 = [23; 24; 25; 13; 14; 20; 21; 22].
Proof. eexists _, _, _, _. split; [vm_compute; reflexivity|]. split; [vm_compute; reflexivity|]. vm_compute. repeat split. Qed.
Example C32_write_example : exists m ev s' o,
  pdemo_run (p_s 8 100) = Some (m, ev) /\ pt_kind (ps_port (fst m) 2) = PK_SAMPLING /\
  port_call pdemo 3 0 (RWrite 2 (from_val 20) 6 64) (fst m) = PRet s' ERR_OK o /\ bytes (ps_pool s') 8 = [20; 21; 22; 23; 24; 25; 0; 0].
Proof. eexists _, _, _, _. split; [vm_compute; reflexivity|]. split; [vm_compute; reflexivity|]. split; [vm_compute; reflexivity|]. vm_compute. reflexivity. Qed.
(** A send of 6 bytes that waits for the full port to be emptied. *)
Example C32_waited_example : exists s w ev s' o,
  pdemo_run (p_q 8 ++ [p_send 1 10 8; PCall 0 2 (RSend 0 (from_val 20) 6 64 100); PFlushPart 0 3]) = Some ((s, [w]), ev) /\
  w = WSend 0 0 (from_val 20) 6 102 104 /\ resume_call 4 w s = PRet s' ERR_OK o /\ bytes (ps_pool s') 8 = [20; 21; 22; 23; 24; 25; 16; 17].
Proof. eexists _, _, _, _, _. split; [vm_compute; reflexivity|]. split; [vm_compute; reflexivity|]. split; [vm_compute; reflexivity|]. vm_compute. reflexivity. Qed.
