(** Final forms of the lock-object statements, and the traces of the counterexamples. *)
From Verif Require Import Model.Base Model.State Model.LockFifo Model.LockObj Model.LockSys
  Spec.LockSpec Spec.SemSpec Proof.Tac Proof.LockFifoProof Proof.LockSafe Proof.LockValue
  Proof.WaitOrder Proof.LockSysProof Proof.LockTrace Proof.LockRun Proof.LockPost.

(** A ready thread with priority [p], and a thread table for the examples. *)
Definition ready (p : Z) : thread :=
  mkThread p 0 0 0 0 0 ST_RUNNABLE 0 0 0 0 0 p 0.
Definition table (prios : list Z) (t : Z) : thread := ready (nth (Z.to_nat t) prios 0).

Definition mutex_fifo : lattr := mkLattr LK_MUTEX 0 QD_FIFO 0 0.
Definition mutex_prio : lattr := mkLattr LK_MUTEX 0 QD_PRIORITY 0 0.
Definition sem (i m q : Z) : lattr := mkLattr LK_SEMAPHORE 0 q i m.
Definition event_attr : lattr := mkLattr LK_EVENT 0 QD_FIFO 0 0.

Lemma fifo_order : forall n th now ls s evs id a,
  0 < n -> Forall label_typed ls -> undisturbed_run n (boot th now) ls ->
  run n (boot th now) ls = Some (s, evs) ->
  In (EvCreate id a) evs -> la_kind a <> LK_EVENT -> la_qpol a = QD_FIFO ->
  exists q, replay first_come id [] evs = Some q /\ NoDup (map fst q) /\
            forall t, blocked_on s id t -> In t (map fst q).
Proof.
  intros n th now ls s evs id a Hn Hty Hund Hrun Hcr Hk Hq.
  destruct (lock_queue_follows n th now ls s evs id a Hn Hty Hund Hrun Hcr) as (q & Hr & Hnd & Hb & _).
  exists q. split; [|auto].
  unfold disc_of in Hr. rewrite (proj2 (Z.eqb_neq _ _) Hk), Hq in Hr. exact Hr.
Qed.

Lemma prio_order : forall n th now ls s evs id a,
  0 < n -> Forall label_typed ls -> undisturbed_run n (boot th now) ls ->
  run n (boot th now) ls = Some (s, evs) ->
  In (EvCreate id a) evs -> la_kind a = LK_EVENT \/ la_qpol a = QD_PRIORITY ->
  exists q, replay most_urgent id [] evs = Some q /\ NoDup (map fst q) /\
            forall t, blocked_on s id t -> In t (map fst q).
Proof.
  intros n th now ls s evs id a Hn Hty Hund Hrun Hcr Hk.
  destruct (lock_queue_follows n th now ls s evs id a Hn Hty Hund Hrun Hcr) as (q & Hr & Hnd & Hb & _).
  exists q. split; [|auto].
  assert (Hd : disc_of a = QD_PRIORITY).
  { unfold disc_of. destruct (Z.eqb_spec (la_kind a) LK_EVENT); [reflexivity|].
    destruct Hk as [Hk|Hk]; [contradiction|exact Hk]. }
  rewrite Hd in Hr. exact Hr.
Qed.

Lemma never_fails : forall n th now ls,
  0 < n -> Forall label_typed ls ->
  exists s evs, run n (boot th now) ls = Some (s, evs) /\
    forall id, o_init (s_obj s id) = true -> 0 < o_value (s_obj s id) ->
               fifo_is_empty (o_fifo (s_obj s id)) = true.
Proof.
  intros n th now ls Hn Hty.
  destruct (run_ok n ls (boot th now) Hn (boot_ok n th now Hn) Hty) as (s & evs & Hr & Hs).
  exists s, evs. split; [exact Hr|]. intros id Hi Hv.
  destruct (Hs id) as ((_ & _ & _ & H) & _). now apply H.
Qed.

Lemma no_idle_resource : forall n th now ls s evs id a t,
  0 < n -> Forall label_typed ls -> undisturbed_run n (boot th now) ls ->
  run n (boot th now) ls = Some (s, evs) -> In (EvCreate id a) evs ->
  blocked_on s id t -> o_value (s_obj s id) = 0.
Proof.
  intros n th now ls s evs id a t Hn Hty Hund Hrun Hcr Hb.
  destruct (lock_queue_follows n th now ls s evs id a Hn Hty Hund Hrun Hcr) as (q & Hr & Hnd & Hbl & Hv).
  destruct (run_ok n ls (boot th now) Hn (boot_ok n th now Hn) Hty) as (s2 & evs2 & Hr2 & Hs).
  rewrite Hrun in Hr2. injection Hr2 as <- <-.
  destruct (Hs id) as ((_ & _ & Hval & _) & _).
  destruct (Z.eq_dec (o_value (s_obj s id)) 0) as [He|He]; [exact He|].
  specialize (Hbl t Hb). rewrite Hv in Hbl by lia. contradiction.
Qed.

(** A mutex, two threads: thread 1 waits with a timeout, is woken by thread 0, but is dispatched
    only after its deadline. *)
Definition lost_release : list label :=
  [LCreate 0 mutex_fifo; LCall 0 0 (OpLock 0); LCall 1 0 (OpLock 5); LCall 0 0 OpUnlock;
   LTick; LTick; LTick; LTick; LTick; LResume 1].

Lemma lost_release_run : exists s,
  run 2 (boot (table [1; 1]) 0) lost_release
    = Some (s, [EvCreate 0 mutex_fifo; EvAcquired 0 0; EvReturn 0 ERR_OK; EvBlocked 0 1 1;
                EvReleased 0 0 (Some 1); EvReturn 0 ERR_OK; EvTimeout 0 1; EvReturn 1 ERR_TIMEOUT]) /\
  o_value (s_obj s 0) = 0 /\ (forall t, s_k s t = KUser).
Proof.
  eexists. split; [vm_compute; reflexivity|]. split; [reflexivity|].
  intros t. cbn [s_k]. destruct t as [|[p|p|]|p]; reflexivity.
Qed.
