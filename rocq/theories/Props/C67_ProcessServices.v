(** C67: what the ARINC 653 process services do to the thread of the process they designate.

    Proved: SUSPEND, RESUME, STOP, DELAYED_START and SET_PRIORITY with a code other than NO_ERROR change nothing;
    SUSPEND stops exactly the designated process; SET_PRIORITY sets exactly its priority, from 1 to 63.
    Refuted: that a suspended process can be resumed (never: [C67_never_resumed]); that RESUME leaves a process
    alone that waits for a lock object; that STOP stops the designated process (nobody but the error handler may
    call it, [C67_stop_denied], and from there it stops another one); that DELAYED_START starts a process after
    the delay, neither earlier nor later; that START starts a process (a periodic one never,
    [C67_never_started]). *)
From Verif Require Import Model.Base Model.State Model.LockFifo Model.LockObj Model.LockSys Model.Sched Model.Kernel Model.Arinc
  Spec.SchedSpec Spec.KernelSpec Spec.ArincProcSpec Spec.Demo Proof.Tac Proof.ElectProof Proof.ServiceProof Proof.KernelInv
  Proof.ActivationProof Proof.PartStep Proof.ArincProcProof Props.C24_Sleep Props.C65_DelayedStart.

(** ** SUSPEND and RESUME *)
(** SUSPEND stops the process and does nothing else; a process without period is refused. *)
Theorem C67_suspend : forall cfg, supported cfg -> forall s c junk j t s' e,
  reachable cfg s -> own_process cfg j t s -> exec cfg c junk (apex_suspend t) s = Some (s', e) ->
  (e <> NO_ERROR /\ s' = s) \/
  (e = NO_ERROR /\ only_state t ST_STOPPED s s' /\ t <> k_cur s c /\ t_period (k_th s t) <> INFINITE).
Proof.
  intros cfg W s c junk j t s' e Hr Ho H.
  destruct (suspend_effect cfg W s c junk j t s' e Hr Ho H) as [A|(A & B & C & _ & _ & D)]; [now left|right; auto].
Qed.
Print Assumptions C67_suspend.

(** [suspended cfg j t s2]: SUSPEND of process [t] was granted, then anything happened that does not designate [t]. *)
Definition suspended (cfg : config) (j t : Z) (s2 : kstate) : Prop :=
  exists s c junk s1 ls evs, reachable cfg s /\ own_process cfg j t s /\ apart cfg j t s /\ mode_of s j = PM_NORMAL /\
    exec cfg c junk (apex_suspend t) s = Some (s1, NO_ERROR) /\
    krun cfg s1 ls = Some (s2, evs) /\ undisturbed cfg j t s1 ls.

Definition C67_resume : Prop := forall cfg, supported cfg -> forall j t s2 c junk s3 e,
  suspended cfg j t s2 -> own_process cfg j t s2 -> exec cfg c junk (apex_resume t) s2 = Some (s3, e) ->
  e = NO_ERROR /\ t_state (k_th s3 t) = ST_RUNNABLE.

Lemma reachable_on_stop : forall cfg s c junk t s1, supported cfg -> reachable cfg s ->
  (exists j, own_process cfg j t s) -> exec cfg c junk (apex_suspend t) s = Some (s1, NO_ERROR) -> reachable cfg s1.
Proof.
  intros cfg s c junk t s1 W Hr (j & Ho) H. unfold apex_suspend in H. apply exec_status in H.
  assert (X : forall a, exec cfg c junk (if st_state a =? AP_DORMANT then Fin INVALID_MODE
    else if st_period a =? FOREVER then Fin INVALID_MODE else if st_state a =? AP_WAITING then Fin NO_ACTION
    else Ask (SSuspendTarget t) (fun r => Fin r)) s = Some (s1, NO_ERROR) -> reachable cfg s1).
  { intros a E. destruct (_ =? AP_DORMANT) in E; [discriminate E|]. destruct (_ =? FOREVER) in E; [discriminate E|].
    destruct (_ =? AP_WAITING) in E; [discriminate E|]. apply (exec_last cfg c junk _ (fun r => r)) in E.
    destruct E as (r & id & (f & E) & _). exact (ChoiceProof.reachable_step cfg s _ s1 _ Hr E). }
  destruct H as [(_ & H)|(_ & H)]; apply X in H; exact H.
Qed.

(** A suspended process is refused by RESUME, whoever calls it and whenever, and stays stopped. *)
Theorem C67_never_resumed : forall cfg, supported cfg -> forall j t s2 c junk s3 e,
  suspended cfg j t s2 -> own_process cfg j t s2 -> exec cfg c junk (apex_resume t) s2 = Some (s3, e) ->
  e = INVALID_MODE /\ s3 = s2 /\ t_state (k_th s3 t) = ST_STOPPED /\ executes_nowhere cfg s3 t.
Proof.
  intros cfg W j t s2 c junk s3 e (s & c0 & junk0 & s1 & ls & evs & Hr & Ho & (He & Hq & Hx) & Hm & HS & HR & Hu) Ho2 H.
  assert (Hr1 : reachable cfg s1) by (apply (reachable_on_stop cfg s c0 junk0 t s1 W Hr (ex_intro _ j Ho) HS)).
  assert (Hr2 : reachable cfg s2) by (exact (reachable_run cfg ls s1 s2 evs Hr1 HR)).
  destruct (suspend_effect cfg W s c0 junk0 j t s1 NO_ERROR Hr Ho HS) as [(A & _)|(_ & B & _)]; [contradiction A; reflexivity|].
  pose proof Ho as (Hj & Ht & _ & _). unfold only_state in B.
  assert (Et : t_state (k_th s1 t) = ST_STOPPED) by (rewrite B; unfold on_th; cbn; rewrite upd_same; reflexivity).
  destruct (run_dormant cfg W j t Hj Ht ls s1 s2 evs Hr1 HR Hu) as (S4 & X4 & _).
  - rewrite Et. discriminate.
  - rewrite B. exact Hx.
  - rewrite B. exact Hq.
  - split; rewrite Et; discriminate.
  - apply same_end_fields in S4. destruct S4 as (_ & _ & _ & _ & _ & G1 & _).
    assert (E2 : t_state (k_th s2 t) = ST_STOPPED) by congruence.
    destruct (resume_effect cfg W s2 c junk j t s3 e Hr2 Ho2 H) as [(-> & -> & _)|(_ & L & _)].
    + auto.
    + rewrite E2 in L. discriminate L.
Qed.
Print Assumptions C67_never_resumed.

(** RESUME acts only on a process that waits for a lock object, and changes nothing otherwise. *)
Theorem C67_resume_effect : forall cfg, supported cfg -> forall s c junk j t s' e,
  reachable cfg s -> own_process cfg j t s -> exec cfg c junk (apex_resume t) s = Some (s', e) ->
  (e = INVALID_MODE /\ s' = s) \/ (e = NO_ERROR /\ t_state (k_th s t) = ST_LOCK /\ t_period (k_th s t) <> INFINITE).
Proof.
  intros cfg W s c junk j t s' e Hr Ho H.
  destruct (resume_effect cfg W s c junk j t s' e Hr Ho H) as [(A & B & _)|(A & B & C & _)]; [left|right]; auto.
Qed.
Print Assumptions C67_resume_effect.

Definition no_junk : status := mkStatus 7 7 7.
(** Thread 1 suspends thread 2, of period 20000, and asks to resume it. *)
Definition c67_start : list klabel := demo_start [at_entry 5 0 0 0; at_entry 5 0 20000 100].
Lemma demo_own : forall s i t, i = 0 -> p_index (k_part s 0) = 3 -> t = 1 \/ t = 2 -> k_cp s = 0 ->
  own_process (demo 1 SCHED_RR SCHED_RR) i t s.
Proof.
  intros s i t -> Hi Ht Hcp. split; [clear; vm_compute; repeat split; discriminate|].
  split; [destruct Ht as [-> | ->]; clear; vm_compute; repeat split; discriminate|].
  split; [|exact Hcp]. unfold created. rewrite Hi. destruct Ht as [-> | ->]; clear; vm_compute; split; reflexivity.
Qed.
Lemma demo_nowhere : forall s t, k_cur s 0 <> t -> executes_nowhere (demo 1 SCHED_RR SCHED_RR) s t.
Proof. intros s t N c (C1 & C2). change (c < 1) in C2. replace c with 0 by lia. exact N. Qed.

Example c67_suspended : exists s2 s3, suspended (demo 1 SCHED_RR SCHED_RR) 0 2 s2 /\
  own_process (demo 1 SCHED_RR SCHED_RR) 0 2 s2 /\ k_now s2 = 2 /\
  exec (demo 1 SCHED_RR SCHED_RR) 0 no_junk (apex_resume 2) s2 = Some (s3, INVALID_MODE).
Proof.
  set (cfg := demo 1 SCHED_RR SCHED_RR).
  assert (X : match demo_run cfg c67_start with
        | Some (s, _) => p_index (k_part s 0) = 3 /\ k_cp s = 0 /\ mode_of s 0 = PM_NORMAL /\ p_error (k_part s 0) = 0 /\
            (o_init (k_obj s 0) = false /\ o_init (k_obj s 1) = false) /\ k_cur s 0 = 1 /\
            match exec cfg 0 no_junk (apex_suspend 2) s with
            | Some (s1, e) => e = NO_ERROR /\ undisturbed cfg 0 2 s1 [KTick 1; KTimer 0] /\
                match krun cfg s1 [KTick 1; KTimer 0] with
                | Some (s2, _) => k_now s2 = 2 /\ p_index (k_part s2 0) = 3 /\ k_cp s2 = 0 /\
                    match exec cfg 0 no_junk (apex_resume 2) s2 with Some (_, e) => e = INVALID_MODE | None => False end
                | None => False end
            | None => False end
        | None => False end) by (vm_compute; repeat split; discriminate).
  destruct (demo_run cfg c67_start) as [[s evs]|] eqn:R; [|contradiction].
  destruct X as (Hi & Hcp & Hm & He & (O0 & O1) & Hc & X).
  destruct (exec cfg 0 no_junk (apex_suspend 2) s) as [[s1 e]|] eqn:E1; [|contradiction]. destruct X as (-> & Hu & X).
  destruct (krun cfg s1 [KTick 1; KTimer 0]) as [[s2 ev2]|] eqn:K2; [|contradiction]. destruct X as (Hn & Hi2 & Hcp2 & X).
  destruct (exec cfg 0 no_junk (apex_resume 2) s2) as [[s3 e3]|] eqn:E3; [|contradiction]. subst e3.
  exists s2, s3. split; [|split; [|split; [exact Hn|exact E3]]].
  - exists s, 0, no_junk, s1, [KTick 1; KTimer 0], ev2.
    split; [exact (demo_reachable _ _ _ _ R)|]. split; [now apply demo_own; auto|]. split.
    { split; [rewrite He; discriminate|]. split; [now apply demo_unqueued|]. apply demo_nowhere. rewrite Hc. discriminate. }
    split; [exact Hm|]. split; [exact E1|]. split; [exact K2|exact Hu].
  - now apply demo_own; auto.
Qed.

Theorem C67_resume_refuted : ~ C67_resume.
Proof.
  intros H. destruct c67_suspended as (s2 & s3 & A & B & _ & E).
  destruct (H _ (demo_supported 1 _ _ ltac:(lia)) 0 2 s2 0 no_junk s3 INVALID_MODE A B E) as (C & _). discriminate C.
Qed.
Print Assumptions C67_resume_refuted.

(** A process in the queue of a lock object stays there until the object is released. *)
Definition C67_lock : Prop := forall cfg, supported cfg -> forall s c junk j t o s' e,
  reachable cfg s -> own_process cfg j t s -> lockobj_of cfg j o -> o_init (k_obj s o) = true ->
  t_state (k_th s t) = ST_LOCK -> In t (ring (c_nthreads cfg) (o_fifo (k_obj s o))) ->
  exec cfg c junk (apex_resume t) s = Some (s', e) -> t_state (k_th s' t) = ST_LOCK.

(** Thread 1 holds the mutex that thread 2 waits for, and resumes thread 2. *)
Definition c67_mutex (o : lop) : klabel := KCall 0 (SLockOp 0 LK_MUTEX (Some o)).
Definition c67_locked : list klabel :=
  [KTick 1; KTimer 0; KCall 0 (SCreate (at_entry 5 0 0 0)); KCall 0 (SCreate (at_entry 5 0 20000 100));
   KCall 0 (SLockCreate (mkLattr LK_MUTEX 0 0 0 0)); KCall 0 (SSetMode PM_NORMAL);
   KTick 1; KTimer 0; c67_mutex (OpLock 0); KCall 0 (SSleep 1); c67_mutex (OpLock 0); KTick 1020; KTimer 0; KTimer 0].
Theorem C67_lock_refuted : ~ C67_lock.
Proof.
  intros H. set (cfg := demo 1 SCHED_RR SCHED_RR).
  assert (X : match demo_run cfg c67_locked with
        | Some (s, _) => p_index (k_part s 0) = 3 /\ k_cp s = 0 /\ o_init (k_obj s 0) = true /\ t_state (k_th s 2) = ST_LOCK /\
            ring (c_nthreads cfg) (o_fifo (k_obj s 0)) = [2] /\
            match exec cfg 0 no_junk (apex_resume 2) s with
            | Some (s', e) => t_state (k_th s' 2) = ST_RUNNABLE
            | None => False end
        | None => False end) by (clear H; vm_compute; repeat split; discriminate).
  destruct (demo_run cfg c67_locked) as [[s evs]|] eqn:R; [|contradiction].
  destruct X as (Hi & Hcp & Ho & Hl & Hq & X).
  destruct (exec cfg 0 no_junk (apex_resume 2) s) as [[s' e]|] eqn:E; [|contradiction].
  assert (Y : t_state (k_th s' 2) = ST_LOCK); [|rewrite X in Y; clear - Y; discriminate Y].
  apply (H cfg (demo_supported 1 _ _ ltac:(lia)) s 0 no_junk 0 2 0 s' e (demo_reachable _ _ _ _ R)).
  - now apply demo_own; auto.
  - clear. vm_compute. repeat split; discriminate.
  - exact Ho.
  - exact Hl.
  - rewrite Hq. left. reflexivity.
  - exact E.
Qed.
Print Assumptions C67_lock_refuted.
(** The mutex is granted to thread 2 (code OK) while thread 1 has not released it. *)
Example c67_both : match demo_run (demo 1 SCHED_RR SCHED_RR) c67_locked with
  | Some (s, evs) => In (XRet 0 1 (SLockOp 0 LK_MUTEX (Some (OpLock 0))) ERR_OK 0) evs /\
      match exec (demo 1 SCHED_RR SCHED_RR) 0 no_junk (apex_resume 2) s with
      | Some (s1, e) => e = NO_ERROR /\
          match krun (demo 1 SCHED_RR SCHED_RR) s1 (repeat (KTimer 0) 69 ++ [KCall 0 (SSleep 1); KCont 0]) with
          | Some (s2, evs2) => In (XCont 0 2 ERR_OK) evs2 /\ k_cur s2 0 = 2 /\ k_now s2 = 1022
          | None => False end
      | None => False end
  | None => False end.
Proof. vm_compute. split; [tauto|]. split; [reflexivity|]. split; [tauto|]. split; reflexivity. Qed.

(** ** STOP *)
(** Nobody but the error handler of the partition is served: the code is POK_ERRNO_THREAD (49), which is no
    RETURN_CODE_TYPE. *)
Theorem C67_stop_denied : forall cfg s c junk t s' e, exec cfg c junk (apex_stop t) s = Some (s', e) ->
  k_cur s c <> p_error (k_part s (k_cp s)) -> e = 49 /\ s' = s.
Proof. exact stop_denied. Qed.
Print Assumptions C67_stop_denied.

(** STOP with NO_ERROR stops the process that it designates, and no other one. *)
Definition C67_stop : Prop := forall cfg, supported cfg -> forall s c junk j t s',
  reachable cfg s -> own_process cfg j t s -> exec cfg c junk (apex_stop t) s = Some (s', NO_ERROR) ->
  t_state (k_th s' t) = ST_STOPPED /\ forall u, created cfg s j u -> u <> t -> t_state (k_th s' u) = t_state (k_th s u).

(** Partition 1 has the threads 1 to 5; thread 1 is the main thread, 2 and 3 are processes, 4 is the error handler. *)
Definition c67_cfg : config :=
  mkConfig 2 8 1 (two 1 5) (two 1 1) (two SCHED_RR SCHED_RR) (two 1 1) (two 100000 50000)
           (two 4096 8192) 2 (two 10 20) (two 0 1) 30 FlushMajor true 4096 1048576.
Lemma c67_cfg_supported : supported c67_cfg.
Proof.
  constructor.
  - cbn. lia.
  - change (1 <= 1 <= 64). lia.
  - intros i _. cbn. unfold two. destruct (i =? 0); lia.
  - change (6 + 1 + 1 <= 8 <= 256). lia.
  - intros i _. cbn. unfold two. destruct (i =? 0); lia.
  - vm_compute. discriminate.
  - cbn. lia.
  - intros i _. cbn. unfold two. destruct (i =? 0); lia.
  - intros i _. unfold is_part. cbn. unfold two. destruct (i =? 0); lia.
  - reflexivity.
Qed.
Definition c67_handler : list klabel :=
  [KTick 11; KTimer 0; KCall 0 (SCreate (at_entry 5 0 0 0)); KCall 0 (SCreate (at_entry 5 0 0 0));
   KCall 0 (SErrorCreate 5000 0 0 0)].
(** The handler stops process 2; thread 3 is stopped. *)
Theorem C67_stop_refuted : ~ C67_stop.
Proof.
  intros H. set (cfg := c67_cfg).
  assert (X : match demo_run cfg c67_handler with
        | Some (s, _) => p_index (k_part s 1) = 4 /\ k_cp s = 1 /\ k_cur s 0 = 4 /\ p_error (k_part s 1) = 4 /\
            match exec cfg 0 no_junk (apex_stop 2) s with
            | Some (s', e) => e = NO_ERROR /\ t_state (k_th s' 2) = ST_RUNNABLE /\ t_state (k_th s' 3) = ST_STOPPED
            | None => False end
        | None => False end) by (clear H; vm_compute; repeat split).
  destruct (demo_run cfg c67_handler) as [[s evs]|] eqn:R; [|contradiction].
  destruct X as (Hi & Hcp & _ & _ & X).
  destruct (exec cfg 0 no_junk (apex_stop 2) s) as [[s' e]|] eqn:E; [|contradiction]. destruct X as (-> & X & _).
  assert (O : own_process cfg 1 2 s).
  { split; [clear; vm_compute; repeat split; discriminate|]. split; [clear; vm_compute; repeat split; discriminate|].
    split; [|exact Hcp]. unfold created. rewrite Hi. clear. vm_compute. split; reflexivity. }
  destruct (H cfg c67_cfg_supported s 0 no_junk 1 2 s' (demo_reachable _ _ _ _ R) O E) as (Y & _).
  rewrite X in Y. clear - Y. discriminate Y.
Qed.
Print Assumptions C67_stop_refuted.
Example c67_denied : match demo_run (demo 1 SCHED_RR SCHED_RR) c67_start with
  | Some (s, _) => k_cur s 0 = 1 /\ p_error (k_part s (k_cp s)) = 0 /\
      match exec (demo 1 SCHED_RR SCHED_RR) 0 no_junk (apex_stop 2) s with
      | Some (_, e) => e = 49 | None => False end
  | None => False end.
Proof. vm_compute. repeat split. Qed.

(** ** DELAYED_START and START *)
(** A process that is not dormant, and an infinite delay, are refused without effect. *)
Theorem C67_start_refused : forall cfg, supported cfg -> forall s c junk j t d s' e,
  reachable cfg s -> own_process cfg j t s -> exec cfg c junk (apex_delayed_start t d) s = Some (s', e) ->
  (e <> NO_ERROR <-> t_state (k_th s t) <> ST_STOPPED \/ d = -1) /\ (e <> NO_ERROR -> s' = s).
Proof.
  intros cfg W s c junk j t d s' e Hr Ho H.
  destruct (start_effect cfg W s c junk j t d s' e Hr Ho H) as [(A & B & C)|(A & B & C & _)].
  - split; [split; intros; assumption|intros; assumption].
  - split; [split|]; intros X; try contradiction. exfalso. destruct X as [X|X]; contradiction.
Qed.
Print Assumptions C67_start_refused.

(** The delay is in nanoseconds; a process without period whose start was granted in NORMAL mode waits for 1000
    times the delay, of which the upper 32 bits are lost. *)
Theorem C67_delay : forall cfg, supported cfg -> forall s c junk d s1 ls s2 evs j t,
  reachable cfg s -> own_process cfg j t s -> apart cfg j t s -> mode_of s j = PM_NORMAL ->
  t_period (k_th s t) = INFINITE -> 0 < d mod 2 ^ 32 -> k_now s + d mod 2 ^ 32 * 1000 < 2 ^ 64 ->
  exec cfg c junk (apex_delayed_start t d) s = Some (s1, NO_ERROR) ->
  krun cfg s1 ls = Some (s2, evs) -> undisturbed cfg j t s1 ls -> k_now s2 < k_now s + d mod 2 ^ 32 * 1000 ->
  t_state (k_th s2 t) = ST_WAITING /\ t_wakeup (k_th s2 t) = k_now s + d mod 2 ^ 32 * 1000 /\ executes_nowhere cfg s2 t.
Proof.
  intros cfg W s c junk d s1 ls s2 evs j t Hr Ho (He & Hq & Hx) Hm Hp Hd Hb H HR Hu Hn.
  destruct (start_effect cfg W s c junk j t d s1 _ Hr Ho H) as [(A & _)|(_ & _ & _ & id & HC)]; [contradiction A; reflexivity|].
  destruct Ho as (Hj & Ht & Hcr & Hcp). unfold u32 in HC.
  destruct (C65_normal_partial cfg W s c (d mod 2 ^ 32) s1 ERR_OK id ls s2 evs j t Hr Hj Ht Hcr Hcp Hm He Hq Hx Hd Hb HC HR Hu Hp Hn)
    as (_ & A). exact A.
Qed.
Print Assumptions C67_delay.

(** The claim about the delay: the process does not execute and is not ready before the delay has passed, and is
    ready at the first scheduling of its partition afterwards. *)
Definition C67_not_early : Prop := forall cfg, supported cfg -> forall s c junk d s1 ls s2 evs j t,
  reachable cfg s -> own_process cfg j t s -> apart cfg j t s -> mode_of s j = PM_NORMAL ->
  0 < d -> k_now s + d < 2 ^ 63 ->
  exec cfg c junk (apex_delayed_start t d) s = Some (s1, NO_ERROR) ->
  krun cfg s1 ls = Some (s2, evs) -> undisturbed cfg j t s1 ls -> k_now s2 < k_now s + d ->
  t_state (k_th s2 t) <> ST_RUNNABLE /\ executes_nowhere cfg s2 t.
Definition C67_on_time : Prop := forall cfg, supported cfg -> forall s c junk d s1 ls s2 evs l s3 ev j t,
  c_timed_wake cfg = true -> reachable cfg s -> own_process cfg j t s -> apart cfg j t s -> mode_of s j = PM_NORMAL ->
  0 < d -> k_now s + d < 2 ^ 63 ->
  exec cfg c junk (apex_delayed_start t d) s = Some (s1, NO_ERROR) ->
  krun cfg s1 ls = Some (s2, evs) -> undisturbed cfg j t s1 ls -> k_now s + d <= k_now s2 ->
  kstep cfg s2 l = KNext s3 ev -> schedules cfg l (t_affinity (k_th s2 t)) -> k_cp s3 = j ->
  t_state (k_th s3 t) = ST_RUNNABLE.

(** The first half holds for delays below 2^32 ns (4.3 s) and processes without period; longer delays and periodic
    processes are missing. *)
Theorem C67_not_early_partial : forall cfg, supported cfg -> forall s c junk d s1 ls s2 evs j t,
  reachable cfg s -> own_process cfg j t s -> apart cfg j t s -> mode_of s j = PM_NORMAL ->
  t_period (k_th s t) = INFINITE -> 0 < d < 2 ^ 32 -> k_now s + d * 1000 < 2 ^ 64 ->
  exec cfg c junk (apex_delayed_start t d) s = Some (s1, NO_ERROR) ->
  krun cfg s1 ls = Some (s2, evs) -> undisturbed cfg j t s1 ls -> k_now s2 < k_now s + d ->
  t_state (k_th s2 t) <> ST_RUNNABLE /\ executes_nowhere cfg s2 t.
Proof.
  intros cfg W s c junk d s1 ls s2 evs j t Hr Ho Ha Hm Hp Hd Hb H HR Hu Hn.
  assert (E : d mod 2 ^ 32 = d) by (apply Z.mod_small; lia).
  destruct (C67_delay cfg W s c junk d s1 ls s2 evs j t Hr Ho Ha Hm Hp) as (A & _ & B); try (rewrite E; lia); try assumption.
  split; [|exact B]. rewrite A. discriminate.
Qed.
Print Assumptions C67_not_early_partial.

(** A stopped periodic process that START has started with NO_ERROR in NORMAL mode never executes. *)
Theorem C67_never_started : forall cfg, supported cfg -> forall s c junk d s1 e ls s2 evs j t,
  reachable cfg s -> own_process cfg j t s -> apart cfg j t s -> mode_of s j = PM_NORMAL ->
  t_period (k_th s t) <> INFINITE -> t_state (k_th s t) = ST_STOPPED -> d <> -1 ->
  exec cfg c junk (apex_delayed_start t d) s = Some (s1, e) ->
  krun cfg s1 ls = Some (s2, evs) -> undisturbed cfg j t s1 ls ->
  e = NO_ERROR /\ t_state (k_th s2 t) = ST_STOPPED /\ executes_nowhere cfg s2 t.
Proof.
  intros cfg W s c junk d s1 e ls s2 evs j t Hr Ho (He & Hq & Hx) Hm Hp Hst Hd H HR Hu.
  destruct (start_effect cfg W s c junk j t d s1 _ Hr Ho H) as [(_ & _ & [A|A])|(A & _ & _ & id & HC)]; try contradiction.
  destruct Ho as (Hj & Ht & Hcr & Hcp).
  destruct (C65_never_started cfg W s c _ s1 ERR_OK id ls s2 evs j t Hr Hj Ht Hcr Hcp Hm He Hq Hx Hp Hst HC HR Hu) as (_ & B).
  split; [exact A|exact B].
Qed.
Print Assumptions C67_never_started.

(** Thread 2 has no period; thread 1 stops it and starts it with a delay. *)
Definition c67_stopped : list klabel := demo_start [at_entry 5 0 0 0; at_entry 5 0 0 0] ++ [KCall 0 (SSuspendTarget 2)].
(** A delay of 2^32 ns: ready at once. *)
Theorem C67_not_early_refuted : ~ C67_not_early.
Proof.
  intros H. set (cfg := demo 1 SCHED_RR SCHED_RR).
  assert (X : match demo_run cfg c67_stopped with
        | Some (s, _) => p_index (k_part s 0) = 3 /\ k_cp s = 0 /\ mode_of s 0 = PM_NORMAL /\ p_error (k_part s 0) = 0 /\
            (o_init (k_obj s 0) = false /\ o_init (k_obj s 1) = false) /\ k_cur s 0 = 1 /\ k_now s = 1 /\
            match exec cfg 0 no_junk (apex_delayed_start 2 (2 ^ 32)) s with
            | Some (s1, e) => e = NO_ERROR /\ undisturbed cfg 0 2 s1 [] /\ k_now s1 = 1 /\ t_state (k_th s1 2) = ST_RUNNABLE
            | None => False end
        | None => False end) by (clear H; vm_compute; repeat split; discriminate).
  destruct (demo_run cfg c67_stopped) as [[s evs]|] eqn:R; [|contradiction].
  destruct X as (Hi & Hcp & Hm & He & (O0 & O1) & Hc & Hn & X).
  destruct (exec cfg 0 no_junk (apex_delayed_start 2 (2 ^ 32)) s) as [[s1 e]|] eqn:E1; [|contradiction].
  destruct X as (-> & Hu & Hn1 & X).
  assert (Y : t_state (k_th s1 2) <> ST_RUNNABLE /\ executes_nowhere cfg s1 2); [|destruct Y as (Y & _); exact (Y X)].
  apply (H cfg (demo_supported 1 _ _ ltac:(lia)) s 0 no_junk (2 ^ 32) s1 [] s1 [] 0 2 (demo_reachable _ _ _ _ R)).
  - now apply demo_own; auto.
  - split; [rewrite He; discriminate|]. split; [now apply demo_unqueued|]. apply demo_nowhere. rewrite Hc. discriminate.
  - exact Hm.
  - reflexivity.
  - rewrite Hn. reflexivity.
  - exact E1.
  - reflexivity.
  - exact Hu.
  - rewrite Hn, Hn1. reflexivity.
Qed.
Print Assumptions C67_not_early_refuted.

(** A delay of 1 ns: 3 ns later thread 2 still waits, for 1001. *)
Theorem C67_on_time_refuted : ~ C67_on_time.
Proof.
  intros H. set (cfg := demo 1 SCHED_RR SCHED_RR).
  assert (X : match demo_run cfg c67_stopped with
        | Some (s, _) => p_index (k_part s 0) = 3 /\ k_cp s = 0 /\ mode_of s 0 = PM_NORMAL /\ p_error (k_part s 0) = 0 /\
            (o_init (k_obj s 0) = false /\ o_init (k_obj s 1) = false) /\ k_cur s 0 = 1 /\ k_now s = 1 /\
            match exec cfg 0 no_junk (apex_delayed_start 2 1) s with
            | Some (s1, e) => e = NO_ERROR /\ undisturbed cfg 0 2 s1 [KTick 3] /\
                match krun cfg s1 [KTick 3] with
                | Some (s2, _) => k_now s2 = 4 /\ t_affinity (k_th s2 2) = 0 /\
                    match kstep cfg s2 (KTimer 0) with
                    | KNext s3 _ => k_cp s3 = 0 /\ t_state (k_th s3 2) = ST_WAITING
                    | _ => False end
                | None => False end
            | None => False end
        | None => False end) by (clear H; vm_compute; repeat split; discriminate).
  destruct (demo_run cfg c67_stopped) as [[s evs]|] eqn:R; [|contradiction].
  destruct X as (Hi & Hcp & Hm & He & (O0 & O1) & Hc & Hn & X).
  destruct (exec cfg 0 no_junk (apex_delayed_start 2 1) s) as [[s1 e]|] eqn:E1; [|contradiction].
  destruct X as (-> & Hu & X). destruct (krun cfg s1 [KTick 3]) as [[s2 ev2]|] eqn:K2; [|contradiction].
  destruct X as (Hn2 & Ha & X). destruct (kstep cfg s2 (KTimer 0)) as [s3 ev3| |] eqn:K3; try contradiction.
  destruct X as (Hcp3 & X).
  assert (Y : t_state (k_th s3 2) = ST_RUNNABLE); [|rewrite X in Y; clear - Y; discriminate Y].
  apply (H cfg (demo_supported 1 _ _ ltac:(lia)) s 0 no_junk 1 s1 [KTick 3] s2 ev2 (KTimer 0) s3 ev3 0 2 eq_refl (demo_reachable _ _ _ _ R)).
  - now apply demo_own; auto.
  - split; [rewrite He; discriminate|]. split; [now apply demo_unqueued|]. apply demo_nowhere. rewrite Hc. discriminate.
  - exact Hm.
  - reflexivity.
  - rewrite Hn. reflexivity.
  - exact E1.
  - exact K2.
  - exact Hu.
  - rewrite Hn, Hn2. clear. lia.
  - exact K3.
  - rewrite Ha. split; [clear; vm_compute; split; [discriminate|reflexivity]|]. right. exists 0. reflexivity.
  - exact Hcp3.
Qed.
Print Assumptions C67_on_time_refuted.
(** The hypotheses of [C67_delay] and [C67_never_started] are met: thread 2 without period waits for 1 + 1000 * 5;
    thread 2 of period 20000, suspended and started with NO_ERROR, is stopped at 40. *)
Example c67_waits : match demo_run (demo 1 SCHED_RR SCHED_RR) c67_stopped with
  | Some (s, _) => k_now s = 1 /\
    match exec (demo 1 SCHED_RR SCHED_RR) 0 no_junk (apex_delayed_start 2 (2 ^ 32 + 5)) s with
    | Some (s1, e) => e = NO_ERROR /\ undisturbed (demo 1 SCHED_RR SCHED_RR) 0 2 s1 [KTick 900; KTimer 0] /\ t_wakeup (k_th s1 2) = 5001
    | None => False end
  | None => False end.
Proof. vm_compute. repeat split; discriminate. Qed.
Example c67_never : match demo_run (demo 1 SCHED_RR SCHED_RR) (c67_start ++ [KCall 0 (SSuspendTarget 2)]) with
  | Some (s, _) =>
    match exec (demo 1 SCHED_RR SCHED_RR) 0 no_junk (apex_start 2) s with
    | Some (s1, e) => e = NO_ERROR /\ undisturbed (demo 1 SCHED_RR SCHED_RR) 0 2 s1 [KTick 9; KTimer 0; KTick 20; KTimer 0; KTick 10; KTimer 0] /\
      match krun (demo 1 SCHED_RR SCHED_RR) s1 [KTick 9; KTimer 0; KTick 20; KTimer 0; KTick 10; KTimer 0] with
      | Some (s2, _) => k_now s2 = 40 /\ t_state (k_th s2 2) = ST_STOPPED | None => False end
    | None => False end
  | None => False end.
Proof. vm_compute. repeat split; discriminate. Qed.

(** ** SET_PRIORITY *)
(** The priority of the process becomes the one asked for, which is from 1 to 63; nothing else about any process
    changes but its progress. Any other request, and one for a dormant process, changes nothing. *)
Theorem C67_priority : forall cfg, supported cfg -> forall s c junk j t p s' e,
  reachable cfg s -> own_process cfg j t s -> exec cfg c junk (apex_set_priority t p) s = Some (s', e) ->
  (e <> NO_ERROR /\ s' = s /\ (~ 1 <= p <= 63 \/ t_state (k_th s t) = ST_STOPPED)) \/
  (e = NO_ERROR /\ 1 <= p <= 63 /\ t_state (k_th s t) <> ST_STOPPED /\ t_priority (k_th s' t) = p /\
   forall u, u <> t -> attributes (k_th s' u) = attributes (k_th s u)).
Proof. exact priority_effect. Qed.
Print Assumptions C67_priority.
Example c67_priority : match demo_run (demo 1 SCHED_RR SCHED_RR) c67_start with
  | Some (s, _) => t_priority (k_th s 2) = 5 /\
    match exec (demo 1 SCHED_RR SCHED_RR) 0 no_junk (apex_set_priority 2 63) s with
    | Some (s1, e) => e = NO_ERROR /\ t_priority (k_th s1 2) = 63 | None => False end /\
    match exec (demo 1 SCHED_RR SCHED_RR) 0 no_junk (apex_set_priority 2 64) s with
    | Some (s1, e) => e = INVALID_PARAM | None => False end
  | None => False end.
Proof. vm_compute. repeat split. Qed.
