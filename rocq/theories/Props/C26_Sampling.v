(** C26: reading a sampling port returns the last message stored in it, as often as it is read, EMPTY if there is none, and
    whether the message is no older than the refresh period.

    False for messages shorter than the port: a read always returns as many bytes as the port has, and those behind
    the message are leftovers of older ones ([C26_last_refuted]). Proved for what one read returns in every reachable
    state ([C26_read]) and, end to end, for messages of the size of both ports ([C26_channel_partial]): every read that
    succeeds returns the last message delivered before, and is valid if and only if it is not older than the refresh
    period; no read succeeds before the first delivery and none returns EMPTY afterwards. Dates are supposed not to overflow. *)
From Verif Require Import Model.Base Model.Port Spec.PortSpec Spec.PortDemo Spec.ChanSpec Proof.Tac Proof.PortRing Proof.PortInv Proof.PortWait Proof.PortChan Proof.SampChan.

(** A read returns what the port holds and leaves it there. *)
Theorem C26_read : forall cfg, pcfg_ok cfg -> forall m now part id ptr s' e o, preachable cfg m -> 0 <= part < q_nparts cfg -> 0 <= now < 2^64 ->
  port_call cfg now part (RRead id ptr) (fst m) = PRet s' e o ->
  (e = ERR_EMPTY -> stored_in (fst m) (u8 id) = None) /\
  (e = ERR_OK -> exists d v, stored_in (fst m) (u8 id) = Some d /\ o = OMsg d v /\
     let p := ps_port (fst m) (u8 id) in 0 <= pt_last p + pt_refresh p < 2^64 -> (v = true <-> now <= pt_last p + pt_refresh p)) /\
  stored_in s' (u8 id) = stored_in (fst m) (u8 id) /\ pt_last (ps_port s' (u8 id)) = pt_last (ps_port (fst m) (u8 id)).
Proof.
  intros cfg C m now part id ptr s' e o R Hp Hnow. destruct (preach_inv cfg m C R) as [I _]. set (s := fst m) in *.
  set (i := u8 id).
  set (Q := (e = ERR_EMPTY -> stored_in s i = None) /\
  (e = ERR_OK -> exists d v, stored_in s i = Some d /\ o = OMsg d v /\ let p := ps_port s i in 0 <= pt_last p + pt_refresh p < 2^64 -> (v = true <-> now <= pt_last p + pt_refresh p)) /\
  stored_in s' i = stored_in s i /\ pt_last (ps_port s' i) = pt_last (ps_port s i)).
  assert (No : forall e1 o1, e1 <> ERR_OK -> e1 <> ERR_EMPTY -> PRet s e1 o1 = PRet s' e o -> Q).
  { intros e1 o1 N1 N2 [= <- <- <-]. unfold Q. split; [intros; contradiction|]. split; [intros; contradiction|auto]. }
  cbn [port_call]. unfold sampling_read, owned. fold i. cut_if A1; [apply No; discriminate|].
  destruct (own_port _ _ _) as [[]|]; [|apply No; discriminate|discriminate]. cut_if A2; [apply No; discriminate|]. cut_if A3; [apply No; discriminate|].
  cut_if A4; [apply No; discriminate|]. cbv zeta. apply negb_false_iff in A2, A3. apply Z.eqb_eq in A3.
  assert (Main : forall s1, shape (ps_port s1 i) -> pt_kind (ps_port s1 i) = PK_SAMPLING -> stored_in s1 i = stored_in s i -> pt_last (ps_port s1 i) = pt_last (ps_port s i) ->
     pt_refresh (ps_port s1 i) = pt_refresh (ps_port s i) ->
     (if q_nports cfg <=? part then PUb
         else if negb (check_ptr cfg part (u32 ptr) (pt_size (ps_port s1 part))) then PRet s1 ERR_EINVAL ONone
         else match port_get (ps_pool s1) (ps_port s1 i) (pt_size (ps_port s1 i)) with
              | None => PUb
              | Some (p, e, d) =>
                  if e =? ERR_EMPTY then PRet (unlock_port i s1) ERR_EMPTY (OMsg [] false)
                  else PRet (unlock_port i s1) ERR_OK
                         (OMsg d (negb (u64 (pt_last (ps_port s1 i) + pt_refresh (ps_port s1 i)) <? now)))
              end) = PRet s' e o -> Q).
  { intros s1 Sh K E1 E2 E3. cut_if B1. cut_if B2.
    { intros [= <- <- <-]. unfold Q. split; [discriminate|]. split; [discriminate|auto]. }
    rewrite (samp_get s1 i Sh K), E1, E2, E3. assert (U : stored_in (unlock_port i s1) i = stored_in s i) by (unfold unlock_port; rewrite stored_free; exact E1).
    assert (V : pt_last (ps_port (unlock_port i s1) i) = pt_last (ps_port s i)) by (unfold unlock_port; cbn [ps_port on_port]; rewrite upd_same; exact E2).
    unfold Q. destruct (stored_in s i) as [d|] eqn:St.
    - change (ERR_OK =? ERR_EMPTY) with false. cbn iota. intros [= <- <- <-]. split; [discriminate|]. split; [|auto]. intros _.
      eexists _, _. split; [reflexivity|]. split; [reflexivity|]. cbv zeta. intros Hv. unfold u64. rewrite Z.mod_small by lia. rewrite negb_true_iff, Z.ltb_ge. reflexivity.
    - change (ERR_EMPTY =? ERR_EMPTY) with true. cbn iota. intros [= <- <- <-]. split; [auto|]. split; [discriminate|auto]. }
  unfold lock_port. cut_if A5; [apply Main; auto; apply (pi_shape _ _ I)|]. cut_if A6. apply Main.
  - cbn [ps_port on_port]. rewrite upd_same. apply shape_free, (pi_shape _ _ I).
  - cbn [ps_port on_port]. rewrite upd_same. exact A3.
  - apply stored_free.
  - cbn [ps_port on_port]. rewrite upd_same. reflexivity.
  - cbn [ps_port on_port]. rewrite upd_same. reflexivity.
Qed.
Print Assumptions C26_read.

(** *** From the source to the destination *)
Definition C26_last : Prop := forall cfg, pcfg_ok cfg -> forall src dst, channel cfg src dst -> forall m part now data len ptr now2 part3 now3 ptr3 m' o1 d v,
  preachable cfg m -> opened PK_SAMPLING (fst m) src dst -> pt_size (ps_port (fst m) src) = pt_size (ps_port (fst m) dst) -> 0 <= len < 2^8 ->
  prun cfg m [PCall part now (RWrite src data len ptr); PFlushPart (q_owner cfg src) now2; PCall part3 now3 (RRead dst ptr3)] =
    Some (m', [EvRet part (RWrite src data len ptr) ERR_OK o1; EvFlush; EvRet part3 (RRead dst ptr3) ERR_OK (OMsg d v)]) ->
  d = bytes data len.
Lemma pdemo_channel_s : channel pdemo 2 3.
Proof.
  split; cbn [pdemo q_nports]; try lia.
  - exists 0. cbn [pdemo q_ndest q_local q_dest]. change (2 mod 2 =? 0) with true. cbn iota. split; [lia|]. intros j Hj. lia.
  - intros l (j & _ & E). cbn [pdemo q_local q_dest] in E. lia.
Qed.
(** The message 10, 11, 12, 13 is delivered, then the message 20, 21: the read returns 20, 21, 12, 13. *)
Theorem C26_last_refuted : ~ C26_last.
Proof.
  intros H. set (ls := p_s 4 100 ++ [p_write 1 10 4; PFlushPart 0 2]).
  set (ls2 := [PCall 0 3 (RWrite 2 (from_val 20) 2 64); PFlushPart (q_owner pdemo 2) 4; PCall 1 5 (RRead 3 64)]).
  assert (X : match pdemo_run ls with
     | Some (m, _) => opened PK_SAMPLING (fst m) 2 3 /\ pt_size (ps_port (fst m) 2) = pt_size (ps_port (fst m) 3) /\
        match prun pdemo m ls2 with
        | Some (m', [EvRet a r1 e1 o1; EvFlush; EvRet b r2 e2 (OMsg d v)]) =>
            a = 0 /\ b = 1 /\ e1 = ERR_OK /\ e2 = ERR_OK /\ r1 = RWrite 2 (from_val 20) 2 64 /\ r2 = RRead 3 64 /\ d = [20; 21; 12; 13]
        | _ => False
        end
     | None => False end) by (clear H; vm_compute; repeat split; reflexivity).
  destruct (pdemo_run ls) as [[m ev]|] eqn:R; [|exact X]. destruct X as (Op & Sz & X).
  destruct (prun pdemo m ls2) as [[m' ev2]|] eqn:P; [|exact X].
  destruct ev2 as [|[a r1 e1 o1| | |] [|[| | |] [|[b r2 e2 [| | |d v|]| | |] [|]]]]; try (exfalso; exact X). destruct X as (-> & -> & -> & -> & -> & -> & X).
  assert (Y : d = bytes (from_val 20) 2).
  { refine (H pdemo pdemo_ok 2 3 pdemo_channel_s m 0 3 (from_val 20) 2 64 4 1 5 64 m' o1 d v (pdemo_reachable _ _ _ R) Op Sz _ P). clear; lia. }
  rewrite X in Y. clear - Y. discriminate Y.
Qed.
Print Assumptions C26_last_refuted.

Theorem C26_channel_partial : forall cfg, pcfg_ok cfg -> forall src dst, channel cfg src dst -> (exists i, 0 <= i < q_nby cfg (q_owner cfg src) /\ q_by cfg (q_owner cfg src) i = src) ->
  forall m ls tr refresh, preachable cfg m -> opened PK_SAMPLING (fst m) src dst -> pt_size (ps_port (fst m) src) = pt_size (ps_port (fst m) dst) ->
  pt_empty (ps_port (fst m) src) = true -> pt_empty (ps_port (fst m) dst) = true -> refresh = pt_refresh (ps_port (fst m) dst) -> 0 <= refresh ->
  Forall (plabel_ok cfg) ls -> guarded cfg (full_size src refresh) m ls -> ptrace cfg m ls = Some tr ->
  reads_ok cfg src dst refresh (mkSamp None false None) tr.
Proof.
  intros cfg C src dst Ch Ls m ls tr refresh R Op Sz E1 E2 Rf Hr L G T. eapply run_samp; eauto; [|intros d t X; discriminate X].
  split; auto; cbn [sp_out sp_in].
  - unfold stored_in. rewrite E1. reflexivity.
  - congruence.
  - unfold stored_in. rewrite E2. reflexivity.
  - discriminate.
Qed.
Print Assumptions C26_channel_partial.
Definition story_s : list plabel := [p_read 1; p_write 2 10 4; p_read 3; PFlushPart 0 4; p_read 5; p_write 6 20 4; p_read 104; PFlushAll (fun _ => true) 200; p_read 301].
Example C26_channel_nonvacuous :
  match pdemo_run (p_s 4 100) with
  | Some (m, _) => opened PK_SAMPLING (fst m) 2 3 /\ pt_empty (ps_port (fst m) 2) = true /\ pt_empty (ps_port (fst m) 3) = true /\ pt_refresh (ps_port (fst m) 3) = 100 /\
      guarded pdemo (full_size 2 100) m story_s /\
      match ptrace pdemo m story_s with
      | Some tr => map (fun x => match snd x with [EvRet _ (RRead _ _) e o] => Some (e, o) | _ => None end) tr =
          [Some (ERR_EMPTY, OMsg [] false); None; Some (ERR_EMPTY, OMsg [] false); None; Some (ERR_OK, OMsg [10; 11; 12; 13] true); None;
           Some (ERR_OK, OMsg [10; 11; 12; 13] true); None; Some (ERR_OK, OMsg [20; 21; 22; 23] false)]
      | None => False
      end
  | None => False
  end.
Proof. vm_compute. repeat split; intros; reflexivity. Qed.
