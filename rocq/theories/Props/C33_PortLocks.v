(** C33: whenever a port service returns, the lock of the port is free again.

    False: SAMPLING_READ with a buffer outside the partition returns with the lock taken, and the next call on
    the port waits for ever ([C33_released_refuted]). Proved for all other calls and for calls that had waited
    ([C33_released_partial], [C33_resumed]); in histories without such a call no thread ever waits for the lock of a port
    ([C33_never_stuck_partial]). *)
From Verif Require Import Model.Base Model.Port Spec.PortSpec Spec.PortDemo Proof.Tac Proof.PortRing Proof.PortInv.

Definition C33_released : Prop := forall cfg, pcfg_ok cfg -> forall m now part r s' e o, preachable cfg m -> 0 <= part < q_nparts cfg ->
  port_call cfg now part r (fst m) = PRet s' e o -> forall id, pt_free (ps_port (fst m) id) = true -> pt_free (ps_port s' id) = true.

Theorem C33_released_refuted : ~ C33_released.
Proof.
  intros H. set (ls := p_q 8 ++ p_s 8 100).
  assert (X : match pdemo_run ls with
     | Some (m, _) => pt_free (ps_port (fst m) 3) = true /\
         match port_call pdemo 5 1 (RRead 3 4090) (fst m) with PRet s' _ _ => pt_free (ps_port s' 3) = false | _ => False end
     | None => False end) by (clear H; vm_compute; split; reflexivity).
  destruct (pdemo_run ls) as [[m ev]|] eqn:R; [|exact X]. destruct X as [Fr X].
  destruct (port_call pdemo 5 1 (RRead 3 4090) (fst m)) as [s' e o| | |] eqn:P; [|exact X|exact X|exact X].
  assert (Y : pt_free (ps_port s' 3) = true).
  { refine (H pdemo pdemo_ok m 5 1 (RRead 3 4090) s' e o (pdemo_reachable _ _ _ R) _ P 3 Fr). clear. cbn. lia. }
  rewrite X in Y. discriminate Y.
Qed.
Print Assumptions C33_released_refuted.
(** After this, reading port 3 again is stuck. *)
Example C33_released_refuted_stuck : exists s ws ev,
  pdemo_run (p_q 8 ++ p_s 8 100 ++ [PCall 1 5 (RRead 3 4090)]) = Some ((s, ws), ev) /\ port_call pdemo 6 1 (RRead 3 64) s = PStuck.
Proof. eexists _, _, _. split; [vm_compute; reflexivity|]. vm_compute. reflexivity. Qed.

(** A read whose buffer passes the test of portsamplingread.c:63 (which looks at the size of port number [part]). *)
Definition good_read (cfg : pconfig) (part : Z) (s : pstate) (r : preq) : Prop :=
  forall id ptr, r = RRead id ptr -> u32 ptr + pt_size (ps_port s part) <= q_psize cfg part.

(** The port a call is about is left free, or nothing is changed at all. *)
Definition frees (id : Z) (s : pstate) (r : pres) : Prop :=
  match r with PRet s' _ _ => s' = s \/ pt_free (ps_port s' id) = true | PWait s' _ => pt_free (ps_port s' id) = true | PStuck | PUb => True end.
Lemma unlock_free id s : pt_free (ps_port (unlock_port id s) id) = true.
Proof. unfold unlock_port. cbn [ps_port on_port]. rewrite upd_same. reflexivity. Qed.
Lemma frees_owned cfg part id s i k : frees i s k -> frees i s (owned cfg part id s k).
Proof. intros H. unfold owned. destruct (_ <? _); [left; reflexivity|]. destruct (own_port cfg part id) as [[]|]; [exact H|left; reflexivity|exact I]. Qed.
Lemma frees_virtual cfg part id s i k : frees i s k -> frees i s (virtual cfg part id s k).
Proof.
  intros H. unfold virtual. destruct (_ <=? _); [left; reflexivity|]. destruct (own_port cfg part id) as [[]|]; [|left; reflexivity|exact I].
  destruct (negb _); [left; reflexivity|exact H].
Qed.
Lemma frees_lock id s nr k : frees id s nr -> (forall s1, frees id s (k s1)) -> frees id s (lock_port id s nr k).
Proof. intros N K. unfold lock_port. destruct (negb _); [exact N|]. destruct (pt_free _); [|exact I]. apply K. Qed.
Lemma frees_send_loop now part id data len tmo s s1 : frees id s (send_loop now part id data len tmo s1).
Proof.
  unfold send_loop. destruct (_ <? _); [destruct (_ =? _); [right|]; apply unlock_free|].
  destruct (write_port _ _ _ _ _) as [[s2 e]|]; [|exact I]. right. apply unlock_free.
Qed.
Lemma frees_receive_loop now part id len tmo s s1 : frees id s (receive_loop now part id len tmo s1).
Proof.
  unfold receive_loop. destruct (pt_empty _); [destruct (_ =? _); [right|]; apply unlock_free|]. cbv zeta.
  destruct (port_get _ _ _) as [[[p e] d]|]; [|exact I]. right. apply unlock_free.
Qed.
Ltac same := left; reflexivity.
Lemma frees_call cfg now part r id s : part < q_nparts cfg -> good_read cfg part s r -> 0 <= pt_size (ps_port s part) -> rid r = Some id ->
  frees id s (port_call cfg now part r s).
Proof.
  intros Hp G Hz Rd. destruct r; cbn [rid] in Rd; try discriminate; injection Rd as <-; cbn [port_call].
  - destruct (check_ptr _ _ _ _); [|same]. unfold sampling_write. apply frees_owned. destruct (negb _); [same|]. destruct (_ <? _); [same|].
    destruct (negb _); [same|]. cbv zeta.
    assert (K : forall s1, frees (u8 id0) s match write_port now (u8 id0) data (u8 len) s1 with
        | None => PUb | Some (s2, _) => PRet (on_port (u8 id0) (set_pt_flush true) (unlock_port (u8 id0) s2)) ERR_OK ONone end).
    { intros s1. destruct (write_port _ _ _ _ _) as [[s2 e]|]; [|exact I]. right. cbn [ps_port on_port unlock_port]. rewrite upd_same, upd_same. reflexivity. }
    apply frees_lock; [apply K|exact K].
  - unfold sampling_read. apply frees_owned. repeat (destruct (negb _); [same|]). cbv zeta.
    specialize (G id0 ptr eq_refl).
    assert (Ck : forall s1, pt_size (ps_port s1 part) = pt_size (ps_port s part) -> check_ptr cfg part (u32 ptr) (pt_size (ps_port s1 part)) = true).
    { intros s1 E. unfold check_ptr. replace (q_nparts cfg <=? part) with false by lia. rewrite E. pose proof (u32_pos ptr).
      replace (q_psize cfg part <? pt_size (ps_port s part)) with false by lia. lia. }
    assert (K : forall s1, pt_size (ps_port s1 part) = pt_size (ps_port s part) -> frees (u8 id0) s
     (if q_nports cfg <=? part then PUb
      else if negb (check_ptr cfg part (u32 ptr) (pt_size (ps_port s1 part))) then PRet s1 ERR_EINVAL ONone
      else match port_get (ps_pool s1) (ps_port s1 (u8 id0)) (pt_size (ps_port s1 (u8 id0))) with
           | None => PUb
           | Some (p, e, d) => if e =? ERR_EMPTY then PRet (unlock_port (u8 id0) s1) ERR_EMPTY (OMsg [] false)
               else PRet (unlock_port (u8 id0) s1) ERR_OK (OMsg d (negb (u64 (pt_last (ps_port s1 (u8 id0)) + pt_refresh (ps_port s1 (u8 id0))) <? now)))
           end)).
    { intros s1 E. destruct (_ <=? _); [exact I|]. rewrite (Ck s1 E). cbn [negb]. destruct (port_get _ _ _) as [[[p e] d]|]; [|exact I].
      destruct (e =? ERR_EMPTY); right; apply unlock_free. }
    unfold lock_port. destruct (negb _); [apply K; reflexivity|]. destruct (pt_free _); [|exact I]. apply K.
    cbn [ps_port on_port]. unfold upd. destruct (part =? u8 id0) eqn:Q; [|reflexivity]. replace part with (u8 id0) by lia. reflexivity.
  - unfold sampling_status. apply frees_owned. repeat (destruct (negb _); [same|]). same.
  - destruct (check_ptr _ _ _ _); [|same]. unfold queueing_send. destruct (_ <? _); [same|]. destruct (_ <=? _); [same|]. apply frees_owned.
    destruct (negb _); [same|]. destruct (_ <? _); [same|]. repeat (destruct (negb _); [same|]). apply frees_lock; [same|]. intros s1. apply frees_send_loop.
  - destruct (check_ptr _ _ _ _); [|same]. unfold queueing_receive. destruct (_ <=? _); [same|]. apply frees_owned.
    repeat (destruct (negb _); [same|]). apply frees_lock; [same|]. intros s1. apply frees_receive_loop.
  - unfold queueing_status. apply frees_owned. repeat (destruct (negb _); [same|]). same.
  - apply frees_virtual. same.
  - apply frees_virtual. destruct (_ <? _); [same|]. destruct (_ =? _); [exact I|same].
  - apply frees_virtual. same.
Qed.
Lemma frees_resume now w s : frees (wid w) s (resume_call now w s).
Proof.
  destruct w; cbn [wid resume_call]; (apply frees_lock; [right; apply unlock_free|]); intros s1;
    (destruct (_ && _); [right; apply unlock_free|]); [apply frees_send_loop|apply frees_receive_loop].
Qed.
Lemma shape_size p : shape p -> pt_ready p = true -> 0 <= pt_size p.
Proof. intros [A|A [B _]|A B|A B] R; try lia. congruence. Qed.
Lemma inv_size cfg s i : pinv cfg s -> 0 <= pt_size (ps_port s i).
Proof.
  intros I. destruct (pt_ready (ps_port s i)) eqn:R; [apply shape_size; [apply (pi_shape _ _ I)|exact R]|].
  destruct (pi_idle _ _ I i R) as [-> _]. lia.
Qed.

(** Whatever the outcome (return or wait). *)
Theorem C33_released_partial : forall cfg, pcfg_ok cfg -> forall m now part r, preachable cfg m -> 0 <= part < q_nparts cfg ->
  good_read cfg part (fst m) r ->
  forall s', (exists e o, port_call cfg now part r (fst m) = PRet s' e o) \/ (exists w, port_call cfg now part r (fst m) = PWait s' w) ->
  forall id, pt_free (ps_port (fst m) id) = true -> pt_free (ps_port s' id) = true.
Proof.
  intros cfg C [s ws] now part r R Hp G s' H id Fr. destruct (preach_inv cfg _ C R) as [I W]. cbn [fst snd] in *.
  destruct (rid r) as [i|] eqn:Rd.
  - pose proof (eff_call cfg now part r i s (pi_shape _ _ I) Rd) as E. pose proof (frees_call cfg now part r i s (proj2 Hp) G (inv_size _ _ part I) Rd) as F.
    destruct (Z.eq_dec id i) as [->|N].
    + destruct H as [(e & o & H)|(w & H)]; rewrite H in F; cbn [frees] in F; [|exact F]. destruct F as [->|F]; assumption.
    + assert (X : ps_port s' id = ps_port s id); [|congruence].
      destruct H as [(e & o & H)|(w & H)]; rewrite H in E; cbn [eff] in E; destruct E as (_ & _ & E & _); apply E; exact N.
  - assert (Hn : 0 <= q_nports cfg) by (destruct C as [C _]; lia).
    assert (K : forall nm sz d kd sx ex ox, port_create cfg part nm sz d kd s = (sx, ex, ox) -> pt_free (ps_port sx id) = true).
    { intros nm sz d kd sx ex ox Cr. destruct (create_cases _ _ _ _ _ _ _ _ _ _ Hn Cr) as [[-> Ne]|X]; [exact Fr|].
      destruct X as (j & -> & -> & _ & _ & _ & _ & Nr & _ & _ & _ & Pl & _ & Oth & New).
      destruct (Z.eq_dec id j) as [->|N]; [rewrite New; exact Fr|rewrite (Oth id N); exact Fr]. }
    destruct r; cbn [rid port_call] in *; try discriminate.
    + unfold sampling_create in H. destruct (port_create cfg part name (u32 size) (u8 dir) PK_SAMPLING s) as [[sx ex] ox] eqn:Cr. apply K in Cr.
      destruct ox as [j|]; [destruct (ex =? ERR_OK)|]; (destruct H as [(e & o & H)|(w & H)]; [|discriminate]); injection H as <- _ _; [|exact Cr|exact Cr].
      cbn [ps_port on_port]. unfold upd. destruct (id =? j); [reflexivity|exact Cr].
    + unfold queueing_create in H. destruct (negb fifo); [destruct H as [(e & o & H)|(w & H)]; [|discriminate]; injection H as <- _ _; exact Fr|].
      destruct (port_create cfg part name (u32 size) (u8 dir) PK_QUEUEING s) as [[sx ex] ox] eqn:Cr. apply K in Cr.
      destruct ox as [j|]; [destruct (ex =? ERR_OK)|]; (destruct H as [(e & o & H)|(w & H)]; [|discriminate]); injection H as <- _ _; [|exact Cr|exact Cr].
      cbn [ps_port on_port]. unfold upd. destruct (id =? j); [reflexivity|exact Cr].
    + unfold virtual_node in H. destruct (_ <=? _); destruct H as [(e & o & H)|(w & H)]; try discriminate. injection H as <- _ _. exact Fr.
Qed.
Print Assumptions C33_released_partial.
Theorem C33_resumed : forall cfg, pcfg_ok cfg -> forall m now k w, preachable cfg m -> nth_error (snd m) k = Some w ->
  forall s', (exists e o, resume_call now w (fst m) = PRet s' e o) \/ (exists w', resume_call now w (fst m) = PWait s' w') ->
  forall id, pt_free (ps_port (fst m) id) = true -> pt_free (ps_port s' id) = true.
Proof.
  intros cfg C [s ws] now k w R Nt s' H id Fr. destruct (preach_inv cfg _ C R) as [I W]. cbn [fst snd] in *.
  assert (Hw : 0 <= wlen w) by (apply nth_error_In in Nt; unfold waits_ok in W; rewrite Forall_forall in W; auto).
  pose proof (eff_resume s (pi_shape _ _ I) now w Hw) as E. pose proof (frees_resume now w s) as F.
  destruct (Z.eq_dec id (wid w)) as [->|N].
  - destruct H as [(e & o & H)|(w1 & H)]; rewrite H in F; cbn [frees] in F; [|exact F]. destruct F as [->|F]; assumption.
  - assert (X : ps_port s' id = ps_port s id); [|congruence].
    destruct H as [(e & o & H)|(w1 & H)]; rewrite H in E; cbn [eff] in E; destruct E as (_ & _ & E & _); apply E; exact N.
Qed.
Print Assumptions C33_resumed.
(** A reception that waits for data, data arrives, the reception goes on; the lock is free before and after. *)
Example C33_example : exists s w ev s' ev',
  pdemo_run (p_q 8 ++ [PCall 1 1 (RReceive 1 50 4 64); p_send 2 10 3; PFlushPart 0 3]) = Some ((s, [w]), ev) /\
  pstep pdemo (s, [w]) (PResume 0 4) = Some ((s', []), ev') /\ ev' = [EvResumed w ERR_OK (OData [10; 11; 12])] /\
  pt_free (ps_port s 1) = true /\ pt_free (ps_port s' 1) = true.
Proof. eexists _, _, _, _, _. split; [vm_compute; reflexivity|]. split; [vm_compute; reflexivity|]. repeat split. Qed.

(** Histories whose sampling reads have good buffers. *)
Definition good_label (cfg : pconfig) (s : pstate) (l : plabel) : Prop :=
  match l with PCall part _ r => good_read cfg part s r | _ => True end.
Lemma with_reachable cfg G m : preach_with cfg G m -> preachable cfg m.
Proof. induction 1; [apply pr_boot|eapply pr_step; eauto]. Qed.

Lemma deliver_free cfg now src data len n : forall j s s', deliver n cfg now src data len j s = Some s' -> forall i, pt_free (ps_port s' i) = pt_free (ps_port s i).
Proof.
  induction n as [|n IH]; intros j s s'; cbn [deliver]; [intros [= <-]; reflexivity|].
  destruct (_ || _); [apply IH|]. unfold write_port, port_write. set (d := q_local cfg (q_dest cfg src j)).
  intros H i. revert H.
  repeat (match goal with |- context [if ?b then _ else _] => destruct b end);
    try discriminate; intros H; apply IH with (i := i) in H; rewrite H; cbn [ps_port on_port set_ps_pool]; unfold upd;
    (destruct (i =? d) eqn:E; [replace i with d by lia; reflexivity|reflexivity]).
Qed.
Lemma flush_port_free cfg now l s s' : flush_port cfg now l s = Some s' -> forall i, pt_free (ps_port s' i) = pt_free (ps_port s i).
Proof.
  unfold flush_port. destruct (negb _); [intros [= <-]; reflexivity|]. destruct (pt_empty _); [intros [= <-]; reflexivity|].
  destruct (negb _); [intros [= <-]; reflexivity|]. destruct (port_get _ _ _) as [[[p e] d]|] eqn:G; [|discriminate].
  destruct (negb _); [intros [= <-]; reflexivity|].
  assert (Fp : pt_free p = pt_free (ps_port s l)).
  { revert G. unfold port_get. repeat (match goal with |- context [if ?b then _ else _] => destruct b end); try discriminate; intros [= <- _ _]; reflexivity. }
  destruct (deliver _ _ _ _ _ _ _ _) as [s2|] eqn:D; [|discriminate]. intros [= <-] i. pose proof (deliver_free _ _ _ _ _ _ _ _ _ D) as F.
  cbn [ps_port on_port]. unfold upd at 1. destruct (i =? l) eqn:E.
  - replace i with l by lia. cbn [pt_free set_pt_flush]. rewrite F. cbn [ps_port on_port]. rewrite upd_same. exact Fp.
  - rewrite F. cbn [ps_port on_port]. rewrite upd_other by lia. reflexivity.
Qed.
Lemma flush_partition_free cfg now part s s' : flush_partition cfg now part s = Some s' -> forall i, pt_free (ps_port s' i) = pt_free (ps_port s i).
Proof.
  unfold flush_partition. generalize 0 as k. revert s. induction (Z.to_nat (q_nby cfg part)) as [|n IH]; intros s k; cbn [flush_loop]; [intros [= <-]; reflexivity|].
  destruct (flush_port _ _ _ _) as [s1|] eqn:F; [|discriminate]. intros H i. rewrite (IH _ _ H), (flush_port_free _ _ _ _ _ F). reflexivity.
Qed.
Lemma flush_all_free cfg active now s s' : flush_all cfg active now s = Some s' -> forall i, pt_free (ps_port s' i) = pt_free (ps_port s i).
Proof.
  unfold flush_all. generalize 0 as k. revert s. induction (Z.to_nat (q_nparts cfg)) as [|n IH]; intros s k; cbn [flush_parts]; [intros [= <-]; reflexivity|].
  destruct (active k).
  - destruct (flush_partition _ _ _ _) as [s1|] eqn:F; [|discriminate]. intros H i. rewrite (IH _ _ H), (flush_partition_free _ _ _ _ _ F). reflexivity.
  - apply IH.
Qed.

Lemma good_free cfg m : pcfg_ok cfg -> preach_with cfg (good_label cfg) m -> forall id, pt_ready (ps_port (fst m) id) = true -> pt_free (ps_port (fst m) id) = true.
Proof.
  intros C. induction 1 as [|[s ws] l [s' ws'] ev R IH L G S]; [discriminate|]. cbn [fst] in *. intros id Hr.
  pose proof (with_reachable _ _ _ R) as R0. destruct (preach_inv cfg _ C R0) as [I W]. cbn [fst snd] in *.
  destruct l as [part now r|k now|part now|active now]; cbn [pstep plabel_ok good_label] in *.
  - assert (Old : pt_ready (ps_port s id) = true -> pt_free (ps_port s' id) = true).
    { intros H. apply IH in H. destruct (port_call cfg now part r s) as [s1 e o|s1 w| |] eqn:P; try discriminate; injection S as <- <- _; [| |exact H];
        (refine (C33_released_partial cfg C (s, ws) now part r R0 _ G s1 _ id H); [lia|eauto]). }
    destruct (pt_ready (ps_port s id)) eqn:Rs; [auto|].
    (* just created *)
    destruct (rid r) as [i|] eqn:Rd.
    + pose proof (eff_call cfg now part r i s (pi_shape _ _ I) Rd) as E.
      destruct (port_call cfg now part r s) as [s1 e o|s1 w| |] eqn:P; try discriminate; injection S as <- <- _; [| |congruence];
        destruct E as (_ & E & _); destruct (E id) as [(_ & _ & _ & _ & X & _) _]; congruence.
    + assert (Hn : 0 <= q_nports cfg) by (destruct C as [C _]; lia).
      assert (K : forall nm sz d kd sx ex ox, port_create cfg part nm sz d kd s = (sx, ex, ox) ->
                  pt_ready (ps_port sx id) = true -> ox = Some id /\ ex = ERR_OK).
      { intros nm sz d kd sx ex ox Cr. destruct (create_cases _ _ _ _ _ _ _ _ _ _ Hn Cr) as [[-> Ne]|X]; [congruence|].
        destruct X as (j & -> & -> & _ & _ & _ & _ & Nr & _ & _ & _ & Pl & _ & Oth & New).
        destruct (Z.eq_dec id j) as [->|N]; [auto|]. rewrite (Oth id N). congruence. }
      destruct r; cbn [rid port_call] in *; try discriminate.
      * unfold sampling_create in S. destruct (port_create cfg part name (u32 size) (u8 dir) PK_SAMPLING s) as [[sx ex] ox] eqn:Cr.
        destruct ox as [j|]; [destruct (ex =? ERR_OK) eqn:E|]; injection S as <- <- _.
        -- cbn [ps_port on_port] in *. unfold upd in *. destruct (id =? j) eqn:Q; [reflexivity|]. destruct (K _ _ _ _ _ _ _ Cr Hr) as [[= ->] _]. lia.
        -- destruct (K _ _ _ _ _ _ _ Cr Hr) as [_ ->]. discriminate.
        -- destruct (K _ _ _ _ _ _ _ Cr Hr) as [? _]. discriminate.
      * unfold queueing_create in S. destruct (negb fifo); [injection S as <- <- _; congruence|].
        destruct (port_create cfg part name (u32 size) (u8 dir) PK_QUEUEING s) as [[sx ex] ox] eqn:Cr.
        destruct ox as [j|]; [destruct (ex =? ERR_OK) eqn:E|]; injection S as <- <- _.
        -- cbn [ps_port on_port] in *. unfold upd in *. destruct (id =? j) eqn:Q; [reflexivity|]. destruct (K _ _ _ _ _ _ _ Cr Hr) as [[= ->] _]. lia.
        -- destruct (K _ _ _ _ _ _ _ Cr Hr) as [_ ->]. discriminate.
        -- destruct (K _ _ _ _ _ _ _ Cr Hr) as [? _]. discriminate.
      * unfold virtual_node in S. destruct (_ <=? _); [discriminate|]. injection S as <- <- _. congruence.
  - destruct (nth_error ws k) as [w|] eqn:Nt; [|injection S as <- <- _; auto].
    assert (Hw : 0 <= wlen w) by (apply nth_error_In in Nt; unfold waits_ok in W; rewrite Forall_forall in W; auto).
    pose proof (eff_resume s (pi_shape _ _ I) now w Hw) as E.
    destruct (resume_call now w s) as [s1 e o|s1 w1| |] eqn:P; try discriminate; injection S as <- <- _; [| |auto];
      (destruct E as (_ & E & _); destruct (E id) as [(_ & _ & _ & _ & X & _) _]; rewrite <- X in Hr;
       refine (C33_resumed cfg C (s, ws) now k w R0 Nt s1 _ id (IH id Hr)); eauto).
  - destruct (flush_partition cfg now part s) as [s1|] eqn:F; [|discriminate]. injection S as <- <- _.
    rewrite (flush_partition_free _ _ _ _ _ F). apply IH. pose proof (flush_partition_effect _ _ _ _ _ (pi_shape _ _ I) F) as (_ & E & _).
    destruct (E id) as [(_ & _ & _ & _ & X & _) _]. congruence.
  - destruct (flush_all cfg active now s) as [s1|] eqn:F; [|discriminate]. injection S as <- <- _.
    rewrite (flush_all_free _ _ _ _ _ F). apply IH. pose proof (flush_parts_effect _ _ _ _ _ _ _ (pi_shape _ _ I) F) as (_ & E & _).
    destruct (E id) as [(_ & _ & _ & _ & X & _) _]. congruence.
Qed.

Theorem C33_never_stuck_partial : forall cfg, pcfg_ok cfg -> forall m, preach_with cfg (good_label cfg) m -> forall now part r,
  port_call cfg now part r (fst m) <> PStuck.
Proof.
  intros cfg C [s ws] R now part r. pose proof (good_free _ _ C R) as Fr. cbn [fst] in *.
  assert (L : forall id nr k, (pt_ready (ps_port s id) = true -> pt_free (ps_port s id) = true) -> pt_ready (ps_port s id) = true ->
     nr <> PStuck -> (forall s1, k s1 <> PStuck) -> lock_port id s nr k <> PStuck).
  { intros id nr k F Rd N K. unfold lock_port. destruct (negb _); [exact N|]. rewrite (F Rd). apply K. }
  assert (Ow : forall id k, k <> PStuck -> owned cfg part id s k <> PStuck).
  { intros id k K. unfold owned. destruct (_ <? _); [discriminate|]. destruct (own_port cfg part id) as [[]|]; [exact K|discriminate|discriminate]. }
  assert (Vi : forall id k, k <> PStuck -> virtual cfg part id s k <> PStuck).
  { intros id k K. unfold virtual. destruct (_ <=? _); [discriminate|]. destruct (own_port cfg part id) as [[]|]; [|discriminate|discriminate].
    destruct (negb _); [discriminate|exact K]. }
  destruct r; cbn [port_call].
  - unfold sampling_create. destruct (port_create _ _ _ _ _ _ _) as [[sx ex] [j|]]; [destruct (_ =? _)|]; discriminate.
  - destruct (check_ptr _ _ _ _); [|discriminate]. unfold sampling_write. apply Ow. destruct (pt_ready (ps_port s (u8 id))) eqn:Rd; [|discriminate].
    cbn [negb]. destruct (_ <? _); [discriminate|]. destruct (negb _); [discriminate|]. cbv zeta. apply L; auto; [|intros s1]; destruct (write_port _ _ _ _ _) as [[]|]; discriminate.
  - unfold sampling_read. apply Ow. destruct (pt_ready (ps_port s (u8 id))) eqn:Rd; [|discriminate]. cbn [negb].
    repeat (destruct (negb _); [discriminate|]). cbv zeta. apply L; auto; [|intros s1]; (destruct (_ <=? _); [discriminate|]); (destruct (negb _); [discriminate|]);
      destruct (port_get _ _ _) as [[[p e] d]|]; try discriminate; destruct (_ =? _); discriminate.
  - unfold sampling_status. apply Ow. repeat (destruct (negb _); [discriminate|]). discriminate.
  - unfold queueing_create. destruct (negb _); [discriminate|]. destruct (port_create _ _ _ _ _ _ _) as [[sx ex] [j|]]; [destruct (_ =? _)|]; discriminate.
  - destruct (check_ptr _ _ _ _); [|discriminate]. unfold queueing_send. destruct (_ <? _); [discriminate|]. destruct (_ <=? _); [discriminate|]. apply Ow.
    destruct (pt_ready (ps_port s (u8 id))) eqn:Rd; [|discriminate]. cbn [negb]. destruct (_ <? _); [discriminate|]. repeat (destruct (negb _); [discriminate|]).
    apply L; auto; [discriminate|]. intros s1. unfold send_loop. destruct (_ <? _); [destruct (_ =? _); discriminate|]. destruct (write_port _ _ _ _ _) as [[]|]; discriminate.
  - destruct (check_ptr _ _ _ _); [|discriminate]. unfold queueing_receive. destruct (_ <=? _); [discriminate|]. apply Ow.
    destruct (pt_ready (ps_port s (u8 id))) eqn:Rd; [|discriminate]. cbn [negb]. repeat (destruct (negb _); [discriminate|]).
    apply L; auto; [discriminate|]. intros s1. unfold receive_loop. destruct (pt_empty _); [destruct (_ =? _); discriminate|]. cbv zeta. destruct (port_get _ _ _) as [[[]]|]; discriminate.
  - unfold queueing_status. apply Ow. repeat (destruct (negb _); [discriminate|]). discriminate.
  - apply Vi. discriminate.
  - apply Vi. destruct (_ <? _); [discriminate|]. destruct (_ =? _); discriminate.
  - apply Vi. discriminate.
  - unfold virtual_node. destruct (_ <=? _); discriminate.
Qed.
Print Assumptions C33_never_stuck_partial.
(** A history of this kind, with a read of the full port. *)
Example C33_never_stuck_example : exists m, preach_with pdemo (good_label pdemo) m /\ pt_ready (ps_port (fst m) 3) = true /\
  port_call pdemo 4 1 (RRead 3 4088) (fst m) <> PStuck.
Proof.
  assert (K : forall ls m m' ev, preach_with pdemo (good_label pdemo) m -> prun pdemo m ls = Some (m', ev) ->
      Forall (fun l => plabel_ok pdemo l /\ match l with PCall _ _ (RRead _ _) => False | _ => True end) ls -> preach_with pdemo (good_label pdemo) m').
  { induction ls as [|l ls IH]; intros m m' ev P; cbn [prun]; [intros [= <- _] _; exact P|].
    destruct (pstep pdemo m l) as [[m1 e1]|] eqn:S; [|discriminate]. destruct (prun pdemo m1 ls) as [[m2 e2]|] eqn:Q; [|discriminate].
    intros [= <- _] F. inversion F as [|? ? [F1 F2] F3]; subst. eapply IH; [|exact Q|exact F3]. eapply pw_step; [exact P|exact F1| |exact S].
    destruct l; cbn [good_label]; auto. destruct r; cbn in F2; try contradiction; intros ? ? X; discriminate X. }
  eexists. split; [eapply (K (p_s 8 100 ++ [p_write 1 70 8; PFlushPart 0 3])); [apply pw_boot|vm_compute; reflexivity|]|].
  - repeat constructor; cbn; lia.
  - split; [reflexivity|]. vm_compute. discriminate.
Qed.
