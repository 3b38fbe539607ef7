(** C24: a sleeping thread is not woken before its date and is ready after the first scheduling of its partition on
    its processor at or after that date.

    "Not before" is false for a thread whose time budget is used up when it goes to sleep: it then waits for its
    next activation and executes again at that date ([C24_not_early_refuted]). True of the other threads
    ([C24_not_early_partial]). The second half is proved ([C24_woken]). *)
From Verif Require Import Model.Base Model.State Model.LockFifo Model.LockObj Model.LockSys Model.Sched Model.Kernel
  Spec.SchedSpec Spec.KernelSpec Spec.Demo Proof.ElectProof Proof.ServiceProof Proof.KernelInv Proof.ActivationProof.

(** Request [v] at time [now] asks to sleep until [d]; delays and dates are in microseconds, the clock counts
    nanoseconds modulo 2^64. *)
Definition asks_sleep (v : svc) (now d : Z) : Prop :=
  exists us, (v = SSleep us /\ d = u64 (us * 1000 + now)) \/ (v = SSleepUntil us /\ d = u64 (us * 1000)).

Definition C24_not_early : Prop := forall cfg, supported cfg -> forall s c v s1 e id ls s' evs j t d,
  reachable cfg s -> is_part cfg j -> thread_of cfg j t -> calls cfg s c v s1 e id -> k_cur s c = t -> k_cp s = j ->
  asks_sleep v (k_now s) d -> krun cfg s1 ls = Some (s', evs) ->
  mode_of s j = PM_NORMAL -> t <> p_error (k_part s j) -> undisturbed cfg j t s1 ls -> unqueued cfg s t ->
  k_now s' < d -> t_state (k_th s' t) <> ST_RUNNABLE.

(** Thread 1 has period 20 and capacity 1. With its budget used up, it asks at 2 to sleep for 1000 ticks; at 31 it
    executes again. *)
Definition c24_tired : list klabel := demo_start [at_entry 5 0 20 1] ++ [KTick 1; KTimer 0].
Definition c24_later : list klabel := [KTick 29; KTimer 0; KTimer 0].
Theorem C24_not_early_refuted : ~ C24_not_early.
Proof.
  intros H. set (cfg := demo 1 SCHED_RR SCHED_RR).
  assert (X : match demo_run cfg c24_tired with
        | Some (s, _) => mode_of s 0 = PM_NORMAL /\ 1 <> p_error (k_part s 0) /\ k_cur s 0 = 1 /\ k_cp s = 0 /\ k_now s = 2 /\
            (o_init (k_obj s 0) = false /\ o_init (k_obj s 1) = false) /\
            match kstep cfg s (KCall 0 (SSleep 1)) with
            | KNext s1 ev => ev = [XRet 0 1 (SSleep 1) ERR_OK 0; XFlush NoFlush] /\ undisturbed cfg 0 1 s1 c24_later /\
                match krun cfg s1 c24_later with
                | Some (s', _) => k_now s' = 31 /\ t_state (k_th s' 1) = ST_RUNNABLE
                | None => False end
            | _ => False end
        | None => False end) by (clear H; vm_compute; repeat split; discriminate).
  destruct (demo_run cfg c24_tired) as [[s evs]|] eqn:R; [|contradiction]. destruct X as (Hm & Hne & Hc & Hcp & Hn & (O0 & O1) & X).
  destruct (kstep cfg s (KCall 0 (SSleep 1))) as [s1 ev| |] eqn:K; try contradiction. destruct X as (-> & Hu & X).
  destruct (krun cfg s1 c24_later) as [[s' ev']|] eqn:K'; [|contradiction]. destruct X as (Hn' & X).
  revert X. apply (H cfg (demo_supported 1 _ _ ltac:(lia)) s 0 (SSleep 1) s1 ERR_OK 0 c24_later s' ev' 0 1 1002 (demo_reachable _ _ _ _ R)).
  - clear. vm_compute. repeat split; discriminate.
  - clear. vm_compute. repeat split; discriminate.
  - exists NoFlush. rewrite Hc. exact K.
  - exact Hc.
  - exact Hcp.
  - exists 1. left. rewrite Hn. split; reflexivity.
  - exact K'.
  - exact Hm.
  - exact Hne.
  - exact Hu.
  - intros i o (Hi1 & Hi2) Ho Hi. change (c_nparts cfg) with 2 in Hi2.
    assert (Q : o = 0 \/ o = 1).
    { assert (i = 0 \/ i = 1) as [-> | ->] by lia; destruct Ho as (Ho1 & Ho2);
        [change (0 <= o) in Ho1; change (o < 1) in Ho2|change (1 <= o) in Ho1; change (o < 2) in Ho2]; lia. }
    destruct Q as [-> | ->]; [rewrite O0 in Hi|rewrite O1 in Hi]; clear - Hi; discriminate.
  - rewrite Hn'. reflexivity.
Qed.
Print Assumptions C24_not_early_refuted.

(** What is missing: threads with a time capacity that have used up their budget. [d] must not be already past
    when it is requested; timed wake-ups can be configured away, and the thread then sleeps for ever. *)
Theorem C24_not_early_partial : forall cfg, supported cfg -> forall s c v s1 e id ls s' evs j t d,
  reachable cfg s -> is_part cfg j -> thread_of cfg j t -> calls cfg s c v s1 e id -> k_cur s c = t -> k_cp s = j ->
  asks_sleep v (k_now s) d -> krun cfg s1 ls = Some (s', evs) ->
  mode_of s j = PM_NORMAL -> t <> p_error (k_part s j) -> undisturbed cfg j t s1 ls -> unqueued cfg s t ->
  k_now s' < d -> 0 < t_remaining (k_th s t) \/ t_capacity (k_th s t) <= 0 ->
  t_state (k_th s' t) = ST_WAITING /\ t_wakeup (k_th s' t) = d /\ executes_nowhere cfg s' t.
Proof.
  intros cfg W s c v s1 e id ls s' evs j t d Hr Hj Ht HC Hk Hcp (us & Hv) HR Hm Hne Hu Hq Hd Hb.
  destruct (sleep_date cfg W j t Hj Ht s c us v s1 e id d Hr HC Hk Hcp Hm Hne Hv) as (E1 & E2 & Eo & E3).
  pose proof (SlotProof.krun_now cfg ls s1 s' evs HR) as Hn.
  destruct E3 as (E3 & E4); [left; lia|exact Hb|]. 
  destruct HC as (f & HC). assert (Hr1 : reachable cfg s1) by (exact (ChoiceProof.reachable_step cfg s _ s1 _ Hr HC)).
  assert (Hq1 : unqueued cfg s1 t).
  { intros i o. rewrite Eo. apply Hq. }
  destruct (run_dormant cfg W j t Hj Ht ls s1 s' evs Hr1 HR Hu) as (A & B & _); auto.
  - rewrite E3. discriminate.
  - split; [intros _; left; lia|rewrite E3; discriminate].
  - apply same_end_fields in A. rewrite <- E3, <- E1. tauto.
Qed.
Print Assumptions C24_not_early_partial.

(** A thread that sleeps and executes nowhere is ready after the first scheduling at or after its date. *)
Theorem C24_woken : forall cfg, supported cfg -> forall s l s' ev j t,
  reachable cfg s -> kstep cfg s l = KNext s' ev -> is_part cfg j -> thread_of cfg j t ->
  mode_of s j = PM_NORMAL -> t <> p_error (k_part s j) -> c_timed_wake cfg = true ->
  t_state (k_th s t) = ST_WAITING -> executes_nowhere cfg s t ->
  schedules cfg l (t_affinity (k_th s t)) -> k_cp s' = j -> t_wakeup (k_th s t) <= k_now s ->
  t_state (k_th s' t) = ST_RUNNABLE.
Proof.
  intros cfg W s l s' ev j t Hr H Hj Ht Hm Hne Hw Hs Hx Hl Hcp Hd.
  assert (Sp : spontaneous l) by (destruct Hl as (_ & [->|(c & ->)]); exact Logic.I).
  pose proof (spontaneous_effect cfg W j t Hj Ht s l s' ev Hr H Hm Hne Sp Hx) as E. cbv zeta in E. destruct E as (_ & E2).
  destruct (E2 Hl Hcp) as (y & Ey & F). apply same_end_fields in F. destruct F as (_ & _ & _ & _ & _ & -> & _).
  unfold wake in Ey. rewrite Z.eqb_refl, Hw, Hs in Ey. destruct (Z.leb_spec (t_wakeup (k_th s t)) (k_now s)); [|lia].
  replace (true && (ST_WAITING =? ST_WAITING) && true) with true in Ey by reflexivity. cbn in Ey. injection Ey as <-. reflexivity.
Qed.
Print Assumptions C24_woken.

(** Thread 1 sleeps for 1000 ticks at 1: asleep at 521, ready at 1051, the first scheduling of its partition after
    1001. *)
Definition c24_waits : list klabel := [KTick 20; KTimer 0; KTick 100; KTimer 0; KTimer 0; KTick 400; KTimer 0; KTimer 0; KTimer 0].
Example c24_case : exists s evs s1 s' ev s2 ev2 s3 ev3,
  demo_run (demo 1 SCHED_RR SCHED_RR) (demo_start [at_entry 5 0 0 0]) = Some (s, evs) /\
  calls (demo 1 SCHED_RR SCHED_RR) s 0 (SSleep 1) s1 ERR_OK 0 /\ k_cur s 0 = 1 /\ k_cp s = 0 /\
  asks_sleep (SSleep 1) (k_now s) 1001 /\ t_capacity (k_th s 1) <= 0 /\
  krun (demo 1 SCHED_RR SCHED_RR) s1 c24_waits = Some (s', ev) /\
  undisturbed (demo 1 SCHED_RR SCHED_RR) 0 1 s1 c24_waits /\ k_now s' = 521 /\ t_state (k_th s' 1) = ST_WAITING /\
  krun (demo 1 SCHED_RR SCHED_RR) s' [KTick 530; KTimer 0] = Some (s2, ev2) /\ t_state (k_th s2 1) = ST_WAITING /\
  kstep (demo 1 SCHED_RR SCHED_RR) s2 (KTimer 0) = KNext s3 ev3 /\ k_cp s3 = 0 /\ t_state (k_th s3 1) = ST_RUNNABLE.
Proof.
  eexists _, _, _, _, _, _, _, _, _. split; [vm_compute; reflexivity|]. split; [eexists; vm_compute; reflexivity|]. do 2 (split; [reflexivity|]).
  split; [exists 1; left; split; reflexivity|]. split; [vm_compute; discriminate|]. split; [vm_compute; reflexivity|].
  split; [vm_compute; repeat split; discriminate|]. do 2 (split; [reflexivity|]). split; [vm_compute; reflexivity|]. split; [reflexivity|].
  split; [vm_compute; reflexivity|]. split; reflexivity.
Qed.
