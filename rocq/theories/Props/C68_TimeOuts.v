(** C68: the time-outs of the ARINC 653 services.

    ARINC 653: a time-out of 0 does not wait, INFINITE_TIME_VALUE never times out, and any other time-out of T ns ends
    the wait T ns after the call, not before.
    Semaphores: INFINITE_TIME_VALUE is right. A time-out of less than 1000 ns waits for ever instead, and T is rounded
    down to microseconds ([C68_sem_not_early_partial], [C68_sem_on_time_partial]).
    Events, and the buffers that use them in the same way: T is taken for microseconds; 0 waits for ever,
    INFINITE_TIME_VALUE times out at once.
    Queueing ports: INFINITE_TIME_VALUE does not wait at all when receiving and is 4.3 s when sending; the deadline is
    the time-out plus twice the current time.
    TIMED_WAIT: rounded down to microseconds, which are taken modulo 2^32. *)
From Verif Require Import Model.Base Model.State Model.LockFifo Model.LockObj Model.LockSys Model.Kernel Model.Port Model.Arinc Model.ArincSync
  Spec.SchedSpec Spec.KernelSpec Spec.PortSpec Spec.ApexWaitSpec Spec.Demo Spec.PortDemo Proof.Tac Proof.LockClaims Proof.ApexWaitProof
  Proof.ArincProcProof Props.C24_Sleep Props.C65_DelayedStart.

(** ** The services on lock objects *)
(** A service: the kernel call that it makes for a time-out. *)
Definition sem_wait (T : Z) : lop := OpLock (sem_timeout T).
Definition ev_wait (T : Z) : lop := OpWait (event_timeout T).

(** States of a history that starts at boot, in which the clock has not come to its end. *)
Definition usual (n : Z) (s : lsys) : Prop := 0 < s_now s < 2 ^ 62 /\
  exists th now ls evs, run n (boot th now) ls = Some (s, evs).

Definition does_not_wait (op : Z -> lop) : Prop := forall n s t id s0 ev, usual n s ->
  step n s (LCall t id (op 0)) = Next s0 ev -> returns t ev.
Definition waits_for_ever (op : Z -> lop) : Prop := forall n s t id s1 e, usual n s ->
  pending n s t id (op INFINITE_TIME) s1 -> ends n t s1 e -> wait_code e <> TIMED_OUT.
Definition not_early (op : Z -> lop) : Prop := forall n s t id T s1 e, usual n s -> 0 <= T < 2 ^ 63 ->
  pending n s t id (op T) s1 -> ends n t s1 e -> wait_code e = TIMED_OUT -> s_now s + T <= s_now s1.
Definition on_time (op : Z -> lop) : Prop := forall n s t id T s1, usual n s -> 0 < T < 2 ^ 63 ->
  pending n s t id (op T) s1 -> t_state (s_th s1 t) = ST_WAITING \/ t_state (s_th s1 t) = ST_LOCK ->
  s_now s + T <= s_now s1 -> expires n t s1.

Lemma timed_out_code : forall e, wait_code e = TIMED_OUT -> e = ERR_TIMEOUT.
Proof. intros e H. unfold wait_code in H. destruct (e =? ERR_OK); [discriminate|]. destruct (Z.eqb_spec e ERR_TIMEOUT); [assumption|discriminate]. Qed.
Lemma u64_small : forall x, 0 <= x < 2 ^ 64 -> u64 x = x.
Proof. intros x H. unfold u64. apply Z.mod_small. exact H. Qed.
Lemma sem_small : forall T, 0 <= T < 2 ^ 63 -> sem_timeout T = T / 1000 * 1000.
Proof.
  intros T H. change (2 ^ 63) with 9223372036854775808 in H. unfold sem_timeout. destruct (Z.eqb_spec T INFINITE_TIME) as [E|_].
  - unfold INFINITE_TIME in E. lia.
  - rewrite (u64_small T) by (change (2 ^ 64) with 18446744073709551616; lia).
    apply u64_small. change (2 ^ 64) with 18446744073709551616. lia.
Qed.

(** *** Semaphores *)
Theorem C68_sem_infinite : waits_for_ever sem_wait.
Proof.
  intros n s t id s1 e U P E X. apply timed_out_code in X.
  destruct (pending_ends n s t id _ s1 e P E X) as (A & _). apply A. reflexivity.
Qed.
Print Assumptions C68_sem_infinite.

(** What is missing: the last microsecond. *)
Theorem C68_sem_not_early_partial : forall n s t id T s1 e, usual n s -> 0 <= T < 2 ^ 63 ->
  pending n s t id (sem_wait T) s1 -> ends n t s1 e -> wait_code e = TIMED_OUT ->
  1000 <= T /\ s_now s + T - 1000 < s_now s1.
Proof.
  intros n s t id T s1 e ((U1 & U2) & _) HT P E X. apply timed_out_code in X.
  destruct (pending_ends n s t id _ s1 e P E X) as (A & B). unfold sem_wait, timeout_of, deadline_of in A, B.
  rewrite (sem_small T HT) in A, B. change (2 ^ 63) with 9223372036854775808 in HT. change (2 ^ 62) with 4611686018427387904 in U2.
  destruct (0 <? T / 1000 * 1000) eqn:L; [|contradiction A; reflexivity].
  rewrite u64_small in B by (change (2 ^ 64) with 18446744073709551616; lia). lia.
Qed.
Print Assumptions C68_sem_not_early_partial.

(** What is missing: the time-outs of less than a microsecond. *)
Theorem C68_sem_on_time_partial : forall n s t id T s1, usual n s -> 1000 <= T < 2 ^ 63 ->
  pending n s t id (sem_wait T) s1 -> t_state (s_th s1 t) = ST_WAITING -> s_now s + T <= s_now s1 -> expires n t s1.
Proof.
  intros n s t id T s1 ((U1 & U2) & _) HT P E X. change (2 ^ 62) with 4611686018427387904 in U2.
  assert (D : deadline_of (timeout_of (sem_wait T)) (s_now s) = T / 1000 * 1000 + s_now s).
  { unfold sem_wait, timeout_of, deadline_of. rewrite sem_small by (clear - HT; lia).
    change (2 ^ 63) with 9223372036854775808 in HT. replace (0 <? T / 1000 * 1000) with true by lia.
    apply u64_small. change (2 ^ 64) with 18446744073709551616. lia. }
  apply (pending_expires n s t id _ s1 P); rewrite ?D; [|exact E|left; reflexivity|]; clear - U1 HT X; lia.
Qed.
Print Assumptions C68_sem_on_time_partial.

(** A time-out of less than a microsecond is none: the call blocks and never times out. *)
Theorem C68_sem_short : forall n s t id T s1 e, 0 <= T < 1000 -> pending n s t id (sem_wait T) s1 -> ends n t s1 e ->
  wait_code e <> TIMED_OUT.
Proof.
  intros n s t id T s1 e HT P E X. apply timed_out_code in X.
  destruct (pending_ends n s t id _ s1 e P E X) as (A & _). apply A. unfold sem_wait, timeout_of, deadline_of.
  rewrite sem_small by (change (2 ^ 63) with 9223372036854775808; lia). replace (T / 1000) with 0 by lia. reflexivity.
Qed.
Print Assumptions C68_sem_short.

(** Thread 1 waits for a semaphore of value 0. *)
Definition c68_sem : list label := [LCreate 0 (mkLattr LK_SEMAPHORE 0 QD_FIFO 0 5); LTick; LTick].
Definition c68_event : list label := [LCreate 0 event_attr; LTick; LTick].
Definition c68_state (ls : list label) : lsys :=
  match run 4 (boot (table [1; 2; 5; 3]) 5000) ls with Some (s, _) => s | None => boot (table []) 0 end.
Lemma c68_usual : forall ls, usual 4 (c68_state ls) <-> 0 < s_now (c68_state ls) < 2 ^ 62.
Proof.
  intros ls. split; [intros (A & _); exact A|]. intros A. split; [exact A|].
  unfold c68_state. destruct (run 4 (boot (table [1; 2; 5; 3]) 5000) ls) as [[s evs]|] eqn:R.
  - exists (table [1; 2; 5; 3]), 5000, ls, evs. exact R.
  - exists (table []), 0, [], []. reflexivity.
Qed.
Ltac usually := apply c68_usual; vm_compute; split; reflexivity.
(** The state after the call [op T] and [k] ticks. *)
Definition c68_after (ls : list label) (o : lop) (k : nat) (more : list label) : lsys :=
  match step 4 (c68_state ls) (LCall 1 0 o) with
  | Next s0 _ => match run 4 s0 (repeat LTick k ++ more) with Some (s1, _) => s1 | None => s0 end
  | _ => c68_state ls
  end.
Definition quiet (t : Z) (evs : list event) : bool := forallb (fun e => match e with EvReturn u _ => negb (u =? t) | _ => true end) evs.
Lemma quiet_spec : forall t evs, quiet t evs = true -> ~ returns t evs.
Proof.
  intros t evs Q (e & I). unfold quiet in Q. rewrite forallb_forall in Q. specialize (Q _ I). cbn in Q.
  rewrite Z.eqb_refl in Q. discriminate.
Qed.
Lemma c68_pending : forall ls o k more,
  match step 4 (c68_state ls) (LCall 1 0 o) with
  | Next s0 ev0 => match run 4 s0 (repeat LTick k ++ more) with Some (s1, ev1) => quiet 1 (ev0 ++ ev1) | None => false end
  | _ => false end = true ->
  pending 4 (c68_state ls) 1 0 o (c68_after ls o k more).
Proof.
  intros ls o k more H. unfold c68_after. destruct (step 4 (c68_state ls) (LCall 1 0 o)) as [s0 ev0| |] eqn:S0; try discriminate.
  destruct (run 4 s0 (repeat LTick k ++ more)) as [[s1 ev1]|] eqn:R; [|discriminate].
  exists s0, ev0, (repeat LTick k ++ more), ev1. split; [exact S0|]. split; [exact R|]. now apply quiet_spec.
Qed.

(** Time-out 2500: the call times out after 2000 already. *)
Example c68_sem_case : pending 4 (c68_state c68_sem) 1 0 (sem_wait 2500) (c68_after c68_sem (sem_wait 2500) 2000 [LExpire 1]) /\
  usual 4 (c68_state c68_sem) /\ ends 4 1 (c68_after c68_sem (sem_wait 2500) 2000 [LExpire 1]) ERR_TIMEOUT /\
  s_now (c68_after c68_sem (sem_wait 2500) 2000 [LExpire 1]) = s_now (c68_state c68_sem) + 2000 /\
  ~ expires 4 1 (c68_after c68_sem (sem_wait 2500) 1999 []) /\ expires 4 1 (c68_after c68_sem (sem_wait 2500) 2500 []).
Proof.
  split; [apply c68_pending; vm_compute; reflexivity|]. split; [usually|].
  split; [exists (LResume 1); eexists; eexists; split; [vm_compute; reflexivity|right; left; reflexivity]|].
  split; [vm_compute; reflexivity|]. split; [intros (s2 & ev & H); vm_compute in H; discriminate H|].
  do 2 eexists. vm_compute. reflexivity.
Qed.
Theorem C68_sem_not_early_refuted : ~ not_early sem_wait.
Proof.
  intros H. destruct c68_sem_case as (P & U & E & N & _).
  specialize (H 4 _ 1 0 2500 _ ERR_TIMEOUT U ltac:(vm_compute; split; [discriminate|reflexivity]) P E eq_refl). lia.
Qed.
Print Assumptions C68_sem_not_early_refuted.

Theorem C68_sem_no_wait_refuted : ~ does_not_wait sem_wait.
Proof.
  intros H.
  assert (X : match step 4 (c68_state c68_sem) (LCall 1 0 (sem_wait 0)) with Next _ ev => quiet 1 ev = true | _ => False end)
    by (vm_compute; reflexivity).
  destruct (step 4 (c68_state c68_sem) (LCall 1 0 (sem_wait 0))) as [s0 ev| |] eqn:E; try contradiction.
  apply (quiet_spec 1 ev X). apply (H 4 (c68_state c68_sem) 1 0 s0 ev); [usually|exact E].
Qed.
Print Assumptions C68_sem_no_wait_refuted.

Theorem C68_sem_on_time_refuted : ~ on_time sem_wait.
Proof.
  intros H. destruct (H 4 (c68_state c68_sem) 1 0 999 (c68_after c68_sem (sem_wait 999) 1000 [])) as (s2 & ev & E).
  - usually.
  - vm_compute. split; reflexivity.
  - apply c68_pending. vm_compute. reflexivity.
  - right. vm_compute. reflexivity.
  - vm_compute. discriminate.
  - vm_compute in E. discriminate E.
Qed.
Print Assumptions C68_sem_on_time_refuted.

(** *** Events *)
(** The wait is a thousand times too long, so that it is not too short. What is missing: time-outs of 500 years. *)
Theorem C68_event_not_early_partial : forall n s t id T s1 e, usual n s -> 0 <= T < 2 ^ 53 ->
  pending n s t id (ev_wait T) s1 -> ends n t s1 e -> wait_code e = TIMED_OUT -> 0 < T /\ s_now s + 1000 * T <= s_now s1.
Proof.
  intros n s t id T s1 e ((U1 & U2) & _) HT P E X. apply timed_out_code in X.
  destruct (pending_ends n s t id _ s1 e P E X) as (A & B). unfold ev_wait, timeout_of, deadline_of, event_timeout in A, B.
  change (2 ^ 53) with 9007199254740992 in HT. change (2 ^ 62) with 4611686018427387904 in U2.
  rewrite (u64_small T), (u64_small (T * 1000)) in A, B by (change (2 ^ 64) with 18446744073709551616; lia).
  destruct (0 <? T * 1000) eqn:L; [|contradiction A; reflexivity].
  rewrite u64_small in B by (change (2 ^ 64) with 18446744073709551616; lia). lia.
Qed.
Print Assumptions C68_event_not_early_partial.

Theorem C68_event_no_wait_refuted : ~ does_not_wait ev_wait.
Proof.
  intros H.
  assert (X : match step 4 (c68_state c68_event) (LCall 1 0 (ev_wait 0)) with Next _ ev => quiet 1 ev = true | _ => False end)
    by (vm_compute; reflexivity).
  destruct (step 4 (c68_state c68_event) (LCall 1 0 (ev_wait 0))) as [s0 ev| |] eqn:E; try contradiction.
  apply (quiet_spec 1 ev X). apply (H 4 (c68_state c68_event) 1 0 s0 ev); [usually|exact E].
Qed.
Print Assumptions C68_event_no_wait_refuted.

(** INFINITE_TIME_VALUE: the deadline is 1000 ns before the call. *)
Theorem C68_event_infinite_refuted : ~ waits_for_ever ev_wait.
Proof.
  intros H. apply (H 4 (c68_state c68_event) 1 0 (c68_after c68_event (ev_wait INFINITE_TIME) 0 [LExpire 1]) ERR_TIMEOUT).
  - usually.
  - apply c68_pending. vm_compute. reflexivity.
  - exists (LResume 1). eexists. eexists. split; [vm_compute; reflexivity|right; right; left; reflexivity].
  - reflexivity.
Qed.
Print Assumptions C68_event_infinite_refuted.

Theorem C68_event_on_time_refuted : ~ on_time ev_wait.
Proof.
  intros H. destruct (H 4 (c68_state c68_event) 1 0 2 (c68_after c68_event (ev_wait 2) 1999 [])) as (s2 & ev & E).
  - usually.
  - vm_compute. split; reflexivity.
  - apply c68_pending. vm_compute. reflexivity.
  - left. vm_compute. reflexivity.
  - vm_compute. discriminate.
  - vm_compute in E. discriminate E.
Qed.
Print Assumptions C68_event_on_time_refuted.
(** Time-out 2: the call times out after 2000. *)
Example c68_event_case : pending 4 (c68_state c68_event) 1 0 (ev_wait 2) (c68_after c68_event (ev_wait 2) 2000 [LExpire 1]) /\
  usual 4 (c68_state c68_event) /\ ends 4 1 (c68_after c68_event (ev_wait 2) 2000 [LExpire 1]) ERR_TIMEOUT.
Proof.
  split; [apply c68_pending; vm_compute; reflexivity|]. split; [usually|].
  exists (LResume 1). eexists. eexists. split; [vm_compute; reflexivity|right; right; left; reflexivity].
Qed.

(** ** Queueing ports *)
Lemma owned_wait : forall cfg part id s k s' w, owned cfg part id s k = PWait s' w -> k = PWait s' w.
Proof. intros cfg part id s k s' w H. unfold owned in H. destruct (_ <? _) in H; [discriminate|]. destruct (own_port _ _ _) as [[]|]; [exact H|discriminate|discriminate]. Qed.
Lemma lock_wait : forall id s e o k s' w, lock_port id s (PRet s e o) k = PWait s' w -> exists s1, k s1 = PWait s' w.
Proof.
  intros id s e o k s' w H. unfold lock_port in H. destruct (negb _) in H; [discriminate|]. destruct (pt_free _); [|discriminate].
  eexists. exact H.
Qed.
(** The calls that wait: the date that they keep and their deadline. *)
Lemma receive_wait : forall cfg now part id maxlen tmo s s' w, queueing_receive cfg now part id maxlen tmo s = PWait s' w ->
  let date := if 0 <? tmo then u64 (tmo + now) else tmo in
  date <> 0 /\ w = WRecv part id maxlen date (u64 (date + now)).
Proof.
  intros cfg now part id maxlen tmo s s' w H date. unfold queueing_receive in H. destruct (maxlen <=? 0); [discriminate|].
  apply owned_wait in H. destruct (negb _) in H; [discriminate|]. destruct (negb _) in H; [discriminate|].
  destruct (negb _) in H; [discriminate|]. apply lock_wait in H. destruct H as (s1 & H). fold date in H. unfold receive_loop in H.
  destruct (pt_empty _).
  - destruct (Z.eqb_spec date 0) as [E|E]; [discriminate|]. injection H as _ <-. split; [exact E|reflexivity].
  - cbv zeta in H. destruct (port_get _ _ _) as [[[p e] d]|]; discriminate.
Qed.
Lemma send_wait : forall cfg now part id null data len tmo s s' w, queueing_send cfg now part id null data len tmo s = PWait s' w ->
  let date := if tmo =? 0 then 0 else u64 (tmo + now) in
  date <> 0 /\ w = WSend part id data len date (u64 (date + now)).
Proof.
  intros cfg now part id null data len tmo s s' w H date. unfold queueing_send in H. destruct (_ <? id); [discriminate|].
  destruct (len <=? 0); [discriminate|]. destruct null; [discriminate|].
  apply owned_wait in H.
  destruct (negb _) in H; [discriminate|]. destruct (_ <? len) in H; [discriminate|].
  destruct (negb _) in H; [discriminate|]. destruct (negb _) in H; [discriminate|]. destruct (negb _) in H; [discriminate|].
  apply lock_wait in H. destruct H as (s1 & H). fold date in H. unfold send_loop in H. destruct (_ <? len) in H.
  - destruct (Z.eqb_spec date 0) as [E|E]; [discriminate|]. injection H as _ <-. split; [exact E|reflexivity].
  - destruct (write_port _ _ _ _ _) as [[s2 e]|]; discriminate.
Qed.

(** RECEIVE_QUEUING_MESSAGE with INFINITE_TIME_VALUE never waits. *)
Theorem C68_receive_infinite : forall cfg now part id maxlen s s' w,
  queueing_receive cfg now part id maxlen (receive_timeout INFINITE_TIME) s <> PWait s' w.
Proof. intros cfg now part id maxlen s s' w H. apply receive_wait in H. destruct H as (A & _). now apply A. Qed.
Print Assumptions C68_receive_infinite.

(** The date at which a waiting call times out. *)
Definition port_deadline (w : pcall) : Z := match w with WSend _ _ _ _ _ dl => dl | WRecv _ _ _ _ dl => dl end.

(** It is the time-out plus twice the time of the call. *)
Theorem C68_port_deadline : forall cfg now part id maxlen null data len T s s' w, 0 < T < 2 ^ 32 -> 0 <= now < 2 ^ 62 ->
  queueing_receive cfg now part id maxlen (receive_timeout T) s = PWait s' w \/
  queueing_send cfg now part id null data len (send_timeout T) s = PWait s' w ->
  port_deadline w = T + 2 * now.
Proof.
  intros cfg now part id maxlen null data len T s s' w HT Hn H. change (2 ^ 32) with 4294967296 in HT. change (2 ^ 62) with 4611686018427387904 in Hn.
  assert (R : receive_timeout T = T).
  { unfold receive_timeout, INFINITE_TIME. replace (T =? -1) with false by lia. unfold u32. change (2 ^ 32) with 4294967296. apply Z.mod_small. lia. }
  assert (Q : send_timeout T = T) by (unfold send_timeout, u32; change (2 ^ 32) with 4294967296; apply Z.mod_small; lia).
  assert (D : u64 (T + now) = T + now) by (apply u64_small; change (2 ^ 64) with 18446744073709551616; lia).
  assert (D2 : u64 (T + now + now) = T + now + now) by (apply u64_small; change (2 ^ 64) with 18446744073709551616; lia).
  destruct H as [H|H].
  - apply receive_wait in H. cbv zeta in H. rewrite R in H. replace (0 <? T) with true in H by lia. rewrite D, D2 in H.
    destruct H as (_ & ->). cbn [port_deadline]. lia.
  - apply send_wait in H. cbv zeta in H. rewrite Q in H. replace (T =? 0) with false in H by lia. rewrite D, D2 in H.
    destruct H as (_ & ->). cbn [port_deadline]. lia.
Qed.
Print Assumptions C68_port_deadline.

(** A call that waits ends at the time of the call plus the time-out; without end if it is INFINITE_TIME_VALUE. *)
Definition C68_receive_on_time : Prop := forall cfg now part id maxlen T s s' w, pcfg_ok cfg -> 0 < T < 2 ^ 32 -> 0 <= now < 2 ^ 62 ->
  (exists cs, preachable cfg (s, cs)) -> queueing_receive cfg now part id maxlen (receive_timeout T) s = PWait s' w ->
  port_deadline w = now + T.
Definition C68_receive_waits : Prop := forall cfg now part id maxlen s s' d, pcfg_ok cfg -> 0 <= now < 2 ^ 62 ->
  (exists cs, preachable cfg (s, cs)) -> queueing_receive cfg now part id maxlen (receive_timeout INFINITE_TIME) s = PRet s' ERR_EMPTY d -> False.
Definition C68_send_infinite : Prop := forall cfg now part id null data len s s' w, pcfg_ok cfg -> 0 <= now < 2 ^ 62 ->
  (exists cs, preachable cfg (s, cs)) -> queueing_send cfg now part id null data len (send_timeout INFINITE_TIME) s = PWait s' w ->
  port_deadline w = 0.

Definition c68_ports (ls : list plabel) : pstate := match pdemo_run ls with Some ((s, _), _) => s | None => ports_boot end.
Lemma c68_ports_reachable : forall ls, exists cs, preachable pdemo (c68_ports ls, cs).
Proof.
  intros ls. unfold c68_ports. destruct (pdemo_run ls) as [[[s cs] ev]|] eqn:R.
  - exists cs. exact (pdemo_reachable ls _ ev R).
  - exists []. apply pr_boot.
Qed.
Theorem C68_receive_on_time_refuted : ~ C68_receive_on_time.
Proof.
  intros H.
  assert (X : match queueing_receive pdemo 1000 1 1 8 (receive_timeout 500) (c68_ports (p_q 16)) with
              | PWait _ w => port_deadline w = 2500 | _ => False end) by (vm_compute; reflexivity).
  destruct (queueing_receive pdemo 1000 1 1 8 (receive_timeout 500) (c68_ports (p_q 16))) as [|s' w| |] eqn:E; try contradiction.
  assert (Y : port_deadline w = 1000 + 500).
  { apply (H pdemo 1000 1 1 8 500 (c68_ports (p_q 16)) s' w pdemo_ok); [vm_compute; split; reflexivity|vm_compute; split; [discriminate|reflexivity]|apply c68_ports_reachable|exact E]. }
  clear E. lia.
Qed.
Print Assumptions C68_receive_on_time_refuted.

Theorem C68_receive_waits_refuted : ~ C68_receive_waits.
Proof.
  intros H.
  assert (X : match queueing_receive pdemo 1000 1 1 8 (receive_timeout INFINITE_TIME) (c68_ports (p_q 16)) with
              | PRet _ e _ => e = ERR_EMPTY | _ => False end) by (vm_compute; reflexivity).
  destruct (queueing_receive pdemo 1000 1 1 8 (receive_timeout INFINITE_TIME) (c68_ports (p_q 16))) as [s' e d| | |] eqn:E; try contradiction.
  subst e. apply (H pdemo 1000 1 1 8 (c68_ports (p_q 16)) s' d pdemo_ok); [vm_compute; split; [discriminate|reflexivity]|apply c68_ports_reachable|exact E].
Qed.
Print Assumptions C68_receive_waits_refuted.

(** Nor does a time-out of 2^32: it is cut to 32 bits. *)
Theorem C68_receive_long_refuted : ~ (forall cfg now part id maxlen T s s' d, pcfg_ok cfg -> 0 <= now < 2 ^ 62 -> 0 < T < 2 ^ 63 ->
  (exists cs, preachable cfg (s, cs)) -> queueing_receive cfg now part id maxlen (receive_timeout T) s = PRet s' ERR_EMPTY d -> False).
Proof.
  intros H.
  assert (X : match queueing_receive pdemo 1000 1 1 8 (receive_timeout 4294967296) (c68_ports (p_q 16)) with
              | PRet _ e _ => e = ERR_EMPTY | _ => False end) by (vm_compute; reflexivity).
  destruct (queueing_receive pdemo 1000 1 1 8 (receive_timeout 4294967296) (c68_ports (p_q 16))) as [s' e d| | |] eqn:E; try contradiction.
  subst e. apply (H pdemo 1000 1 1 8 4294967296 (c68_ports (p_q 16)) s' d pdemo_ok);
    [vm_compute; split; [discriminate|reflexivity]|vm_compute; split; reflexivity|apply c68_ports_reachable|exact E].
Qed.
Print Assumptions C68_receive_long_refuted.

(** Port 0 has a buffer of 16 bytes that is full. *)
Theorem C68_send_infinite_refuted : ~ C68_send_infinite.
Proof.
  intros H. set (s := c68_ports (p_q 16 ++ [p_send 1 7 16])).
  assert (X : match queueing_send pdemo 1000 0 0 false (from_val 1) 12 (send_timeout INFINITE_TIME) s with
              | PWait _ w => port_deadline w = 4294969295 | _ => False end) by (vm_compute; reflexivity).
  destruct (queueing_send pdemo 1000 0 0 false (from_val 1) 12 (send_timeout INFINITE_TIME) s) as [|s' w| |] eqn:E; try contradiction.
  assert (Y : port_deadline w = 0).
  { apply (H pdemo 1000 0 0 false (from_val 1) 12 s s' w pdemo_ok); [vm_compute; split; [discriminate|reflexivity]|apply c68_ports_reachable|exact E]. }
  clear E. lia.
Qed.
Print Assumptions C68_send_infinite_refuted.

(** ** TIMED_WAIT *)
(** The process does not go on before [d]. *)
Definition sleeps_until (T d : Z) : Prop := forall cfg, supported cfg -> forall s c junk s1 e ls s' evs j t,
  reachable cfg s -> is_part cfg j -> thread_of cfg j t -> exec cfg c junk (timed_wait T) s = Some (s1, e) -> k_cur s c = t -> k_cp s = j ->
  krun cfg s1 ls = Some (s', evs) -> mode_of s j = PM_NORMAL -> t <> p_error (k_part s j) -> undisturbed cfg j t s1 ls -> unqueued cfg s t ->
  0 <= k_now s < 2 ^ 62 -> 0 < t_remaining (k_th s t) \/ t_capacity (k_th s t) <= 0 ->
  k_now s' < k_now s + d -> t_state (k_th s' t) = ST_WAITING /\ executes_nowhere cfg s' t.

(** What is missing: delays of more than 71 minutes, and the last microsecond. *)
Theorem C68_timed_wait_partial : forall T, 0 <= T < 2 ^ 32 * 1000 -> sleeps_until T (T / 1000 * 1000).
Proof.
  intros T HT cfg W s c junk s1 e ls s' evs j t Hr Hj Ht HE Hk Hcp HR Hm Hne Hu Hq Hn Hb Hd.
  change (2 ^ 32 * 1000) with 4294967296000 in HT. change (2 ^ 62) with 4611686018427387904 in Hn.
  apply (exec_last cfg c junk _ (fun r => r)) in HE. destruct HE as (r & id & HC & ->).
  assert (U : u32 (u64 T / 1000) = T / 1000).
  { rewrite (u64_small T) by (change (2 ^ 64) with 18446744073709551616; lia). unfold u32. change (2 ^ 32) with 4294967296. apply Z.mod_small. lia. }
  destruct (C24_not_early_partial cfg W s c _ s1 r id ls s' evs j t (k_now s + T / 1000 * 1000) Hr Hj Ht HC Hk Hcp) as (A & _ & B); auto.
  exists (T / 1000). left. rewrite U. split; [reflexivity|]. rewrite u64_small by (change (2 ^ 64) with 18446744073709551616; lia). lia.
Qed.
Print Assumptions C68_timed_wait_partial.

(** Thread 1 waits for 2^32 microseconds and 1999 ns: it executes again 1020 ns later. *)
Definition c68_long : Z := 2 ^ 32 * 1000 + 1999.
Definition c68_soon : list klabel := [KTick 1040; KTimer 0; KTimer 0].
Lemma c68_sleep : forall T d, T = 1999 /\ d = 1999 \/ T = c68_long /\ d = 2 ^ 32 * 1000 -> ~ sleeps_until T d.
Proof.
  intros T d HT H. set (cfg := demo 1 SCHED_RR SCHED_RR).
  assert (X : match demo_run cfg (demo_start [at_entry 5 0 0 0]) with
        | Some (s, _) => mode_of s 0 = PM_NORMAL /\ 1 <> p_error (k_part s 0) /\ k_cur s 0 = 1 /\ k_cp s = 0 /\ k_now s = 1 /\
            (o_init (k_obj s 0) = false /\ o_init (k_obj s 1) = false) /\ t_capacity (k_th s 1) <= 0 /\
            match exec cfg 0 (mkStatus 7 7 7) (timed_wait T) s with
            | Some (s1, e) => undisturbed cfg 0 1 s1 c68_soon /\
                match krun cfg s1 c68_soon with
                | Some (s', _) => k_now s' = 1041 /\ t_state (k_th s' 1) = ST_RUNNABLE
                | None => False end
            | _ => False end
        | None => False end) by (clear H; destruct HT as [(-> & _)|(-> & _)]; vm_compute; repeat split; discriminate).
  destruct (demo_run cfg (demo_start [at_entry 5 0 0 0])) as [[s evs]|] eqn:R; [|contradiction].
  destruct X as (Hm & Hne & Hc & Hcp & Hn & (O0 & O1) & Hb & X).
  destruct (exec cfg 0 (mkStatus 7 7 7) (timed_wait T) s) as [[s1 e]|] eqn:K; [|contradiction]. destruct X as (Hu & X).
  destruct (krun cfg s1 c68_soon) as [[s' ev']|] eqn:K'; [|contradiction]. destruct X as (Hn' & X).
  assert (Y : t_state (k_th s' 1) = ST_WAITING /\ executes_nowhere cfg s' 1).
  { apply (H cfg (demo_supported 1 _ _ ltac:(lia)) s 0 (mkStatus 7 7 7) s1 e c68_soon s' ev' 0 1 (demo_reachable _ _ _ _ R)); auto.
    - clear. vm_compute. repeat split; discriminate.
    - clear. vm_compute. repeat split; discriminate.
    - now apply demo_unqueued.
    - rewrite Hn. clear. vm_compute. split; [discriminate|reflexivity].
    - rewrite Hn, Hn'. clear - HT. destruct HT as [(_ & ->)|(_ & ->)]; reflexivity. }
  destruct Y as (Y & _). rewrite X in Y. clear - Y. discriminate.
Qed.
Theorem C68_timed_wait_refuted : ~ (forall T, 0 <= T < 2 ^ 63 -> sleeps_until T T).
Proof. intros H. apply (c68_sleep 1999 1999); [left; split; reflexivity|]. apply H. vm_compute. split; [discriminate|reflexivity]. Qed.
Print Assumptions C68_timed_wait_refuted.
(** Nor to the microsecond. *)
Theorem C68_timed_wait_long_refuted : ~ (forall T d, 0 <= T < 2 ^ 63 -> 0 <= d -> d + 1000 <= T -> sleeps_until T d).
Proof.
  intros H. apply (c68_sleep c68_long (2 ^ 32 * 1000)); [right; split; reflexivity|].
  apply H; [vm_compute; split; [discriminate|reflexivity]|vm_compute; discriminate|vm_compute; discriminate].
Qed.
Print Assumptions C68_timed_wait_long_refuted.
(** TIMED_WAIT of 1999 ns at 1: still asleep at 521. *)
Example c68_timed_wait_case : exists s evs s1 s' ev,
  demo_run (demo 1 SCHED_RR SCHED_RR) (demo_start [at_entry 5 0 0 0]) = Some (s, evs) /\
  exec (demo 1 SCHED_RR SCHED_RR) 0 (mkStatus 7 7 7) (timed_wait 1999) s = Some (s1, NO_ERROR) /\ k_cur s 0 = 1 /\ k_cp s = 0 /\
  t_capacity (k_th s 1) <= 0 /\ krun (demo 1 SCHED_RR SCHED_RR) s1 c24_waits = Some (s', ev) /\
  undisturbed (demo 1 SCHED_RR SCHED_RR) 0 1 s1 c24_waits /\ k_now s' = 521 /\ t_state (k_th s' 1) = ST_WAITING.
Proof.
  eexists _, _, _, _, _. split; [vm_compute; reflexivity|]. split; [vm_compute; reflexivity|]. do 2 (split; [reflexivity|]).
  split; [vm_compute; discriminate|]. split; [vm_compute; reflexivity|].
  split; [vm_compute; repeat split; discriminate|]. split; reflexivity.
Qed.
