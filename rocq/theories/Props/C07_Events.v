(** C07: a signal wakes exactly the most urgent waiter, a broadcast wakes all. *)
From Verif Require Import Model.Base Model.State Model.LockFifo Model.LockObj Model.LockSys
  Spec.LockSpec Proof.LockPost Proof.LockClaims.

(** [q] is the list of waiters that the history of the event determines. *)
Theorem C07_signal : forall n th now ls s evs id a,
  0 < n -> Forall label_typed ls -> undisturbed_run n (boot th now) ls ->
  run n (boot th now) ls = Some (s, evs) -> In (EvCreate id a) evs ->
  forall t s' ev, step n s (LCall t id OpSignal) = Next s' ev ->
  exists q, ereplay id [] evs = Some q /\ NoDup (map fst q) /\
    (forall u, event_blocked_on s id u -> In u (map fst q)) /\
    match most_urgent q with
    | Some w => ev = [EvSignalled id t (Some w); EvReturn t ERR_OK] /\
        t_state (s_th s' w) = ST_RUNNABLE /\ (forall u, u <> w -> s_th s' u = s_th s u)
    | None => ev = [EvSignalled id t None; EvReturn t ERR_NOTFOUND] /\
        (forall u, s_th s' u = s_th s u)
    end.
Proof. exact signal_effect. Qed.
Print Assumptions C07_signal.

Theorem C07_broadcast : forall n th now ls s evs id a,
  0 < n -> Forall label_typed ls -> undisturbed_run n (boot th now) ls ->
  run n (boot th now) ls = Some (s, evs) -> In (EvCreate id a) evs ->
  forall t s' ev, step n s (LCall t id OpBroadcast) = Next s' ev ->
  exists q, ereplay id [] evs = Some q /\ NoDup (map fst q) /\
    (forall u, event_blocked_on s id u -> In u (map fst q)) /\
    ev = [EvBroadcast id t; EvReturn t ERR_OK] /\
    (forall u, In u (map fst q) -> t_state (s_th s' u) = ST_RUNNABLE) /\
    (forall u, ~ In u (map fst q) -> s_th s' u = s_th s u) /\
    (forall u, ~ event_blocked_on s' id u).
Proof. exact broadcast_effect. Qed.
Print Assumptions C07_broadcast.

(** Broadcast always terminates (no call fails in any history). *)
Theorem C07_terminates : forall n th now ls,
  0 < n -> Forall label_typed ls -> run n (boot th now) ls <> None.
Proof.
  intros n th now ls Hn Hty. destruct (never_fails n th now ls Hn Hty) as (s & evs & Hr & _). congruence.
Qed.
Print Assumptions C07_terminates.

(** Three waiters; the most urgent one is signalled, then the rest is woken. *)
Definition c07_history : list label :=
  [LCreate 0 event_attr;
   LCall 1 0 (OpLock 0); LCall 1 0 (OpWait 0); LCall 2 0 (OpLock 0); LCall 2 0 (OpWait 0);
   LCall 3 0 (OpLock 0); LCall 3 0 (OpWait 7); LCall 0 0 OpSignal].
Example c07_case : exists s evs s' ev,
  run 4 (boot (table [1; 2; 5; 3]) 0) c07_history = Some (s, evs) /\
  undisturbed_run 4 (boot (table [1; 2; 5; 3]) 0) c07_history /\ Forall label_typed c07_history /\
  In (EvCreate 0 event_attr) evs /\ In (EvSignalled 0 0 (Some 2)) evs /\
  ereplay 0 [] evs = Some [(1, 2); (3, 3)] /\
  step 4 s (LCall 0 0 OpBroadcast) = Next s' ev.
Proof.
  do 4 eexists. split; [vm_compute; reflexivity|]. split; [vm_compute; intuition|].
  split; [repeat constructor; vm_compute; intuition discriminate|].
  split; [now left|]. split; [cbn; intuition|]. split; [vm_compute; reflexivity|].
  vm_compute. reflexivity.
Qed.
