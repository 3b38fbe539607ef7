(** C69: the ARINC 653 events.

    ARINC 653: SET_EVENT sets the event to "up" and makes every waiting process ready; the event stays up until
    RESET_EVENT, and WAIT_EVENT on an event that is up returns at once.
    Here an event has no state: WAIT_EVENT always waits, SET_EVENT without a waiter fails, and with waiters it makes
    one of them ready. WAIT_EVENT returns with the lock of the kernel event, which no ARINC service releases but the
    next WAIT_EVENT: a second waiter that has been made ready may never return. *)
From Verif Require Import Model.Base Model.State Model.LockFifo Model.LockObj Model.LockSys Model.Arinc Model.ArincSync
  Spec.LockSpec Spec.SemSpec Spec.ApexWaitSpec Proof.Tac Proof.LockValue Proof.LockSafe Proof.LockSysProof Proof.LockTrace Proof.LockRun
  Proof.LockPost Proof.LockClaims Props.C68_TimeOuts.

(** A history in which event [id] has been created. *)
Definition event_history (n : Z) (s : lsys) (evs : list event) (id : Z) : Prop :=
  0 < n /\ exists th now ls a, Forall label_typed ls /\ undisturbed_run n (boot th now) ls /\
    run n (boot th now) ls = Some (s, evs) /\ In (EvCreate id a) evs /\ la_kind a = LK_EVENT.

Lemma event_created : forall n s evs id, event_history n s evs id ->
  o_init (s_obj s id) = true /\ o_kind (s_obj s id) = LK_EVENT.
Proof.
  intros n s evs id (Hn & th & now & ls & a & Ty & U & R & C & K).
  destruct (run_hist n ls (boot th now) [] Hn (boot_ok n th now Hn) Ty) with (s' := s) (evs := evs) as (_ & H); [intros ? ? []|exact R|].
  cbn [app] in H. destruct (H id a C) as (A & B & _). split; [exact A|congruence].
Qed.

(** ** Waiting *)
(** WAIT_EVENT never returns at once. *)
Theorem C69_always_waits : forall n s evs id, event_history n s evs id ->
  forall t T s' ev, step n s (LCall t id (ev_wait T)) = Next s' ev -> ~ returns t ev /\ t_state (s_th s' t) <> ST_RUNNABLE.
Proof.
  intros n s evs id H t T s' ev E. destruct (event_created n s evs id H) as (I & K). cbn [step] in E.
  destruct ((0 <=? t) && (t <? n) && is_user (s_k s t) && runnable s t); [|discriminate E].
  unfold ev_wait in E. cbn [call] in E. unfold obj_eventwait in E. rewrite I, K in E. cbn [negb] in E. rewrite Z.eqb_refl in E. cbn [negb] in E.
  destruct (obj_unlock n (s_obj s id) (s_th s)) as [[[[o1 th1] e] w]|] eqn:UL; [|discriminate E].
  assert (e = 0) as ->.
  { unfold obj_unlock in UL. rewrite I in UL. cbn [negb] in UL.
    repeat match type of UL with context [if ?c then _ else _] => destruct c end; try discriminate UL; try (inversion UL; reflexivity).
    destruct (fifo_dequeue n (o_fifo (s_obj s id))) as [f z]. inversion UL. reflexivity. }
  rewrite Z.eqb_refl in E. cbn [negb] in E.
  destruct (fifo_enqueue n (prio_of th1) (o_event o1) t QD_PRIORITY) as [[f er]|]; [|discriminate E].
  destruct (negb (er =? 0)); [discriminate E|]. inversion E. subst s' ev. split.
  - intros (x & [X|[X|[]]]); discriminate X.
  - cbn [with_obj s_th]. unfold block_current, sched_lock_current_timed, sched_lock_current, set_state.
    destruct (0 <? deadline_of (event_timeout T) (s_now s)); rewrite upd_same; cbn; discriminate.
Qed.
Print Assumptions C69_always_waits.

(** Event 0; threads 1, 2 and 3 may wait for it, thread 0 sets it. *)
Definition c69_run (ls : list label) : option (lsys * list event) := run 4 (boot (table [1; 2; 5; 3]) 5000) (LCreate 0 event_attr :: ls).
Definition c69_state (ls : list label) : lsys := match c69_run ls with Some (s, _) => s | None => boot (table []) 0 end.
Definition c69_evs (ls : list label) : list event := match c69_run ls with Some (_, e) => e | None => [] end.
Definition c69_wait (t : Z) : label := LCall t 0 (ev_wait 50).
Definition c69_set : label := LCall 0 0 OpSignal.
Lemma c69_history : forall ls, Forall label_typed ls -> undisturbed_run 4 (boot (table [1; 2; 5; 3]) 5000) (LCreate 0 event_attr :: ls) ->
  c69_run ls <> None -> In (EvCreate 0 event_attr) (c69_evs ls) -> event_history 4 (c69_state ls) (c69_evs ls) 0.
Proof.
  intros ls Ty U N I. split; [lia|]. exists (table [1; 2; 5; 3]), 5000, (LCreate 0 event_attr :: ls), event_attr.
  split; [constructor; [cbn; unfold attr_typed; cbn; lia|exact Ty]|]. split; [exact U|].
  unfold c69_state, c69_evs in *. unfold c69_run in *. destruct (run 4 _ (LCreate 0 event_attr :: ls)) as [[s e]|]; [|contradiction N; reflexivity].
  split; [reflexivity|]. split; [exact I|reflexivity].
Qed.
Ltac history69 := apply c69_history; [repeat constructor|vm_compute; intuition|vm_compute; discriminate|vm_compute; now left].

Example c69_wait_case : event_history 4 (c69_state [c69_set]) (c69_evs [c69_set]) 0 /\
  exists s' ev, step 4 (c69_state [c69_set]) (c69_wait 1) = Next s' ev /\ t_state (s_th s' 1) = ST_WAITING.
Proof. split; [history69|]. do 2 eexists. split; vm_compute; reflexivity. Qed.

(** WAIT_EVENT after SET_EVENT returns at once (no RESET_EVENT in between). *)
Theorem C69_latched_refuted : ~ (forall n s evs id u s1 ev1 t T s2 ev2, event_history n s evs id ->
  step n s (LCall u id OpSignal) = Next s1 ev1 -> step n s1 (LCall t id (ev_wait T)) = Next s2 ev2 -> returns t ev2).
Proof.
  intros H. specialize (H 4 (c69_state []) (c69_evs []) 0 0).
  destruct (step 4 (c69_state []) (LCall 0 0 OpSignal)) as [s1 ev1| |] eqn:E1; [|vm_compute in E1; discriminate E1|vm_compute in E1; discriminate E1].
  assert (X : match step 4 s1 (c69_wait 1) with Next _ ev => quiet 1 ev = true | _ => False end).
  { vm_compute in E1. injection E1 as <- <-. vm_compute. reflexivity. }
  destruct (step 4 s1 (c69_wait 1)) as [s2 ev2| |] eqn:E2; try contradiction.
  apply (quiet_spec 1 ev2 X). apply (H s1 ev1 1 50 s2 ev2); [history69|reflexivity|exact E2].
Qed.
Print Assumptions C69_latched_refuted.

(** ** Setting *)
(** The code of SET_EVENT tells whether somebody was waiting, and the most urgent one is made ready. *)
Theorem C69_set : forall n s evs id, event_history n s evs id ->
  forall t s' ev, step n s (LCall t id OpSignal) = Next s' ev -> exists q e, ereplay id [] evs = Some q /\ In (EvReturn t e) ev /\
  match most_urgent q with
  | None => signal_code e = INVALID_PARAM /\ forall u, s_th s' u = s_th s u
  | Some w => signal_code e = NO_ERROR /\ t_state (s_th s' w) = ST_RUNNABLE /\ forall u, u <> w -> s_th s' u = s_th s u
  end.
Proof.
  intros n s evs id (Hn & th & now & ls & a & Ty & U & R & C & K) t s' ev E.
  destruct (signal_effect n th now ls s evs id a Hn Ty U R C t s' ev E) as (q & A & _ & _ & B).
  destruct (most_urgent q) as [w|] eqn:M.
  - destruct B as (-> & B1 & B2). exists q, ERR_OK. split; [exact A|]. split; [right; now left|]. rewrite M. repeat split; assumption.
  - destruct B as (-> & B1). exists q, ERR_NOTFOUND. split; [exact A|]. split; [right; now left|]. rewrite M. split; [reflexivity|exact B1].
Qed.
Print Assumptions C69_set.

(** Threads 1 and 2 wait; 2 is more urgent. *)
Example c69_set_case : event_history 4 (c69_state [c69_wait 1; c69_wait 2]) (c69_evs [c69_wait 1; c69_wait 2]) 0 /\
  ereplay 0 [] (c69_evs [c69_wait 1; c69_wait 2]) = Some [(1, 2); (2, 5)] /\
  exists s' ev, step 4 (c69_state [c69_wait 1; c69_wait 2]) c69_set = Next s' ev /\ In (EvReturn 0 ERR_OK) ev /\
    t_state (s_th s' 2) = ST_RUNNABLE /\ t_state (s_th s' 1) = ST_WAITING.
Proof. split; [history69|]. split; [vm_compute; reflexivity|]. do 2 eexists. split; [vm_compute; reflexivity|]. repeat split. right. now left. Qed.

(** SET_EVENT on a created event succeeds. *)
Theorem C69_set_succeeds_refuted : ~ (forall n s evs id t s' ev e, event_history n s evs id ->
  step n s (LCall t id OpSignal) = Next s' ev -> In (EvReturn t e) ev -> signal_code e = NO_ERROR).
Proof.
  intros H. specialize (H 4 (c69_state []) (c69_evs []) 0 0).
  destruct (step 4 (c69_state []) (LCall 0 0 OpSignal)) as [s1 ev1| |] eqn:E1; [|vm_compute in E1; discriminate E1|vm_compute in E1; discriminate E1].
  assert (I : In (EvReturn 0 ERR_NOTFOUND) ev1) by (vm_compute in E1; injection E1 as <- <-; right; now left).
  specialize (H s1 ev1 ERR_NOTFOUND ltac:(history69) eq_refl I). discriminate H.
Qed.
Print Assumptions C69_set_succeeds_refuted.

(** SET_EVENT makes every waiting thread ready. *)
Theorem C69_all_woken_refuted : ~ (forall n s evs id t s' ev u, event_history n s evs id ->
  step n s (LCall t id OpSignal) = Next s' ev -> event_blocked_on s id u -> t_state (s_th s' u) = ST_RUNNABLE).
Proof.
  intros H. destruct c69_set_case as (C & _ & s' & ev & E & _ & _ & W).
  specialize (H 4 _ _ 0 0 s' ev 1 C E).
  assert (B : event_blocked_on (c69_state [c69_wait 1; c69_wait 2]) 0 1).
  { split; [eexists; vm_compute; reflexivity|vm_compute; discriminate]. }
  specialize (H B). rewrite W in H. discriminate H.
Qed.
Print Assumptions C69_all_woken_refuted.

(** ** Returning *)
(** What is missing: the lock of the event is not always free. A waiter that has been made ready and is dispatched
    (before its time-out) returns NO_ERROR if it is. *)
Theorem C69_return_partial : forall n s evs id, event_history n s evs id ->
  forall t d s' ev, s_k s t = KWait id d -> d = 0 \/ s_now s < d -> 0 < o_value (s_obj s id) ->
  step n s (LResume t) = Next s' ev -> exists e, In (EvReturn t e) ev /\ wait_code e = NO_ERROR.
Proof.
  intros n s evs id H t d s' ev K D V E. destruct (event_created n s evs id H) as (I & _). cbn [step] in E.
  destruct (runnable s t); [|discriminate E]. unfold resume in E. rewrite K in E. unfold obj_eventwait_resume in E.
  assert (X : negb (d =? 0) && (d <=? s_now s) = false) by lia. rewrite X in E.
  unfold obj_lock in E. rewrite I in E. cbn [negb] in E. replace (0 <? o_value (s_obj s id)) with true in E by lia.
  destruct (fifo_is_empty (o_fifo (s_obj s id))); [|discriminate E]. inversion E. subst ev.
  eexists. split; [right; right; left; reflexivity|reflexivity].
Qed.
Print Assumptions C69_return_partial.

Example c69_return_case : let ls := [c69_wait 1; c69_wait 2; c69_set] in
  event_history 4 (c69_state ls) (c69_evs ls) 0 /\ (exists d, s_k (c69_state ls) 2 = KWait 0 d /\ s_now (c69_state ls) < d) /\
  0 < o_value (s_obj (c69_state ls) 0) /\ exists s' ev, step 4 (c69_state ls) (LResume 2) = Next s' ev /\ In (EvReturn 2 ERR_OK) ev.
Proof.
  cbv zeta. split; [history69|]. split; [eexists; split; vm_compute; reflexivity|]. split; [vm_compute; reflexivity|].
  do 2 eexists. split; [vm_compute; reflexivity|]. right. right. now left.
Qed.

(** Labels that do not release the lock of event [id]: everything but the next WAIT_EVENT (and a request of the kernel
    service that no ARINC service makes). *)
Definition keeps_lock (id : Z) (l : label) : Prop :=
  match l with
  | LCall _ i (OpWait _) | LCall _ i OpUnlock => i <> id
  | _ => True
  end.
Lemma replay_waiting : forall pk id t ev q q', replay pk id q ev = Some q' -> waits t q = true ->
  (forall e, In e ev -> match e with EvReleased i _ _ => i <> id | EvTimeout i u => i <> id \/ u <> t | EvCreate i _ => i <> id | _ => True end) ->
  waits t q' = true /\ ~ In (EvAcquired id t) ev.
Proof.
  intros pk id t ev. induction ev as [|e ev IH]; intros q q' R W N; cbn [replay] in R.
  - inversion R. subst. split; [exact W|intros []].
  - destruct (replay_step pk id q e) as [q1|] eqn:S1; [|discriminate R].
    assert (X : waits t q1 = true /\ e <> EvAcquired id t).
    { specialize (N e (or_introl eq_refl)). destruct e; cbn [replay_step] in S1; try (inversion S1; subst; split; [exact W|discriminate]).
      - rewrite (proj2 (Z.eqb_neq _ _) N) in S1. inversion S1. subst. split; [exact W|discriminate].
      - destruct (id0 =? id); inversion S1; subst; (split; [|discriminate]); [rewrite waits_app, W; reflexivity|exact W].
      - destruct (Z.eqb_spec id0 id) as [->|NE].
        + destruct (waits t0 q) eqn:W0; [discriminate S1|]. inversion S1. subst. split; [exact W|]. intros E. inversion E. subst. congruence.
        + inversion S1. subst. split; [exact W|]. intros E. inversion E. subst. contradiction.
      - destruct (Z.eqb_spec id0 id) as [->|NE]; inversion S1; subst; (split; [|discriminate]); [|exact W].
        destruct N as [N|N]; [contradiction|]. clear - W N. induction q as [|[x p] q IH]; [discriminate W|].
        cbn [leaves]. destruct (Z.eqb_spec x t0) as [->|NX].
        + cbn in W. apply orb_prop in W. destruct W as [W|W]; [apply Z.eqb_eq in W; congruence|exact W].
        + cbn in W |- *. apply orb_prop in W. destruct W as [W|W]; [now rewrite W|]. fold (waits t q) in W. rewrite orb_true_iff. right. now apply IH.
      - rewrite (proj2 (Z.eqb_neq _ _) N) in S1. inversion S1. subst. split; [exact W|discriminate]. }
    destruct X as (W1 & NE). destruct (IH q1 q' R W1) as (A & B); [intros x I; apply N; now right|].
    split; [exact A|]. intros [E|I]; [contradiction|contradiction].
Qed.
(** One step from a state in which thread [t] is queued for the lock of event [id] after its wait. *)
Lemma stuck_step : forall n s l s' ev id t r, step n s l = Next s' ev -> keeps_lock id l -> o_init (s_obj s id) = true -> s_k s t = KRelock id r ->
  (forall e, In e ev -> match e with EvReleased i _ _ => i <> id | EvTimeout i u => i <> id \/ u <> t | EvCreate i _ => i <> id | _ => True end) /\
  (In (EvAcquired id t) ev \/ (s_k s' t = KRelock id r /\ ~ returns t ev)).
Proof.
  intros n s l s' ev id t r E KL I K.
  assert (other : forall u, is_user (s_k s u) = true -> u <> t) by (intros u X ->; rewrite K in X; discriminate X).
  destruct l as [i a|u i o|u st w|u|u| |u|u st|u p]; cbn [step] in E.
  - destruct (o_init (s_obj s i)) eqn:Hi; [discriminate E|]. assert (i <> id) by (intros ->; congruence).
    destruct (obj_create (s_obj s i) a) as [o e]. inversion E. subst. cbn [s_k].
    destruct (e =? ERR_OK); (split; [intros x X; try (destruct X as [<-|[]]; assumption); destruct X|]); right; (split; [exact K|]);
      intros (c & X); [destruct X as [X|[]]; discriminate X|destruct X].
  - destruct ((0 <=? u) && (u <? n) && is_user (s_k s u) && runnable s u) eqn:C; [|discriminate E].
    assert (NE : u <> t) by (apply other; destruct (is_user (s_k s u)); [reflexivity|]; rewrite andb_false_r in C; discriminate C).
    assert (kept : forall ob th k, s_k (with_obj s i ob th u k) t = KRelock id r) by (intros; cbn [with_obj s_k]; rewrite upd_other by congruence; exact K).
    assert (quiet_u : forall evs, (forall c, In (EvReturn t c) evs -> False) -> ~ returns t evs) by (intros evs X (c & Y); exact (X c Y)).
    destruct o as [tmo| |tmo| |]; cbn [call keeps_lock] in E, KL.
    + destruct (obj_lock n (s_now s) u (s_obj s i) (s_th s) tmo) as [[[o' th'] [e|d]]|]; inversion E; subst; clear E.
      * split; [|right; split; [apply kept|]].
        -- intros x X. apply in_app_or in X. destruct X as [X|[<-|[]]]; [|exact Logic.I]. destruct (e =? ERR_OK); [destruct X as [<-|[]]; exact Logic.I|destruct X].
        -- apply quiet_u. intros c X. apply in_app_or in X. destruct X as [X|[X|[]]]; [|congruence]. destruct (e =? ERR_OK); [destruct X as [X|[]]; discriminate X|destruct X].
      * split; [intros x [<-|[]]; exact Logic.I|]. right. split; [apply kept|]. apply quiet_u. intros c [X|[]]. discriminate X.
    + destruct (obj_unlock n (s_obj s i) (s_th s)) as [[[[o' th'] e] w]|]; inversion E; subst; clear E.
      split; [|right; split; [apply kept|]].
      * intros x X. apply in_app_or in X. destruct X as [X|[<-|[]]]; [|exact Logic.I]. destruct (e =? ERR_OK); [destruct X as [<-|[]]; exact KL|destruct X].
      * apply quiet_u. intros c X. apply in_app_or in X. destruct X as [X|[X|[]]]; [|congruence]. destruct (e =? ERR_OK); [destruct X as [X|[]]; discriminate X|destruct X].
    + destruct (obj_eventwait n (s_now s) u (s_obj s i) (s_th s) tmo) as [[[o' th'] [e|d]]|]; inversion E; subst; clear E.
      * split; [intros x [<-|[]]; exact Logic.I|]. right. split; [apply kept|]. apply quiet_u. intros c [X|[]]. congruence.
      * split; [intros x [<-|[<-|[]]]; [exact KL|exact Logic.I]|]. right. split; [apply kept|]. apply quiet_u. intros c [X|[X|[]]]; discriminate X.
    + destruct (obj_eventsignal n (s_obj s i) (s_th s)) as [[[o' th'] e] w]. inversion E; subst; clear E.
      split; [intros x [<-|[<-|[]]]; exact Logic.I|]. right. split; [apply kept|]. apply quiet_u. intros c [X|[X|[]]]; congruence.
    + destruct (obj_eventbroadcast n (s_obj s i) (s_th s)) as [[[[o' th'] e] w]|]; inversion E; subst; clear E.
      split; [intros x [<-|[<-|[]]]; exact Logic.I|]. right. split; [apply kept|]. apply quiet_u. intros c [X|[X|[]]]; congruence.
  - destruct ((0 <=? u) && (u <? n) && is_user (s_k s u) && runnable s u) eqn:C; [|discriminate E].
    assert (NE : u <> t) by (apply other; destruct (is_user (s_k s u)); [reflexivity|]; rewrite andb_false_r in C; discriminate C).
    inversion E; subst. split; [intros x []|]. right. cbn [s_k]. rewrite upd_other by congruence. split; [exact K|intros (c & [])].
  - destruct (is_other (s_k s u)); inversion E; subst. split; [intros x []|]. right. split; [exact K|intros (c & [])].
  - destruct (runnable s u); [|discriminate E]. unfold resume in E. destruct (Z.eq_dec u t) as [->|NE].
    + rewrite K in E. cbn [obj_lock_resume] in E. unfold obj_lock_resume in E. change (negb (0 =? 0)) with false in E. cbn [andb] in E.
      inversion E; subst. split; [intros x [<-|[<-|[]]]; exact Logic.I|]. left. now left.
    + assert (kept : forall i ob th k, s_k (with_obj s i ob th u k) t = KRelock id r) by (intros; cbn [with_obj s_k]; rewrite upd_other by congruence; exact K).
      assert (quiet_u : forall evs, (forall c, In (EvReturn t c) evs -> False) -> ~ returns t evs) by (intros evs X (c & Y); exact (X c Y)).
      destruct (s_k s u) as [|i d|i d|i rw|]; [discriminate E| | | |].
      * destruct (obj_lock_resume n (s_now s) u (s_obj s i) d) as [[o' e]|]; inversion E; subst; clear E.
        split; [intros x [<-|[<-|[]]]; [destruct (e =? ERR_OK); [exact Logic.I|now right]|exact Logic.I]|].
        right. split; [apply kept|]. apply quiet_u. intros c [X|[X|[]]]; [destruct (e =? ERR_OK); discriminate X|congruence].
      * destruct (obj_eventwait_resume n (s_now s) u (s_obj s i) (s_th s) d) as [[[[o' th'] rw] [e|d']]|]; inversion E; subst; clear E.
        -- split; [intros x [<-|[<-|[<-|[]]]]; exact Logic.I|]. right. split; [apply kept|]. apply quiet_u. intros c [X|[X|[X|[]]]]; congruence.
        -- split; [intros x [<-|[<-|[]]]; exact Logic.I|]. right. split; [apply kept|]. apply quiet_u. intros c [X|[X|[]]]; congruence.
      * destruct (obj_lock_resume n (s_now s) u (s_obj s i) 0) as [[o' e]|]; inversion E; subst; clear E.
        split; [intros x [<-|[<-|[]]]; exact Logic.I|]. right. split; [apply kept|]. apply quiet_u. intros c [X|[X|[]]]; congruence.
      * inversion E; subst. split; [intros x []|]. right. cbn [s_k]. rewrite upd_other by congruence. split; [exact K|intros (c & [])].
  - inversion E; subst. split; [intros x []|]. right. split; [exact K|intros (c & [])].
  - destruct ((t_state (s_th s u) =? ST_WAITING) && (t_wakeup (s_th s u) <=? s_now s)); inversion E; subst. split; [intros x []|]. right. split; [exact K|intros (c & [])].
  - inversion E; subst. split; [intros x []|]. right. split; [exact K|intros (c & [])].
  - inversion E; subst. split; [intros x []|]. right. split; [exact K|intros (c & [])].
Qed.
Lemma stuck_run : forall n id t r ls s QQ s' evs, 0 < n -> SInv n s QQ -> Forall label_typed ls -> undisturbed_run n s ls -> Forall (keeps_lock id) ls ->
  o_init (s_obj s id) = true -> s_k s t = KRelock id r -> waits t (QQ true id) = true -> run n s ls = Some (s', evs) -> ~ returns t evs.
Proof.
  intros n id t r. induction ls as [|l ls IH]; intros s QQ s' evs Hn HS Ty U KL I K W R; cbn [run] in R.
  - inversion R. intros (e & []).
  - inversion Ty as [|? ? Tl Ty']; subst. inversion KL as [|? ? Kl KL']; subst. cbn [undisturbed_run] in U. destruct U as (Ul & U).
    destruct (step n s l) as [s1 ev| |] eqn:E; [|now apply (IH s QQ s' evs)|discriminate R].
    destruct (run n s1 ls) as [[s2 ev2]|] eqn:R2; [|discriminate R]. inversion R. subst s2 evs.
    destruct (step_Tr n s QQ l s1 ev Hn HS Ul Tl E) as (QQ1 & (HS1 & Hst & Hr & _)).
    destruct (stuck_step n s l s1 ev id t r E Kl I K) as (N & D).
    destruct (Hst id I) as (I1 & Q1). specialize (Hr id (o_qpol (s_obj s1 id)) (fun _ => eq_refl)).
    destruct (replay_waiting _ _ _ _ _ _ Hr W N) as (W1 & NA). destruct D as [D|(K1 & NR)]; [contradiction|].
    intros (e & X). apply in_app_or in X. destruct X as [X|X]; [apply NR; now exists e|].
    apply (IH s1 QQ1 s' ev2 Hn HS1 Ty' U KL' I1 K1 W1 R2). now exists e.
Qed.

(** A waiter that has been woken and finds the lock taken does not return unless somebody else calls WAIT_EVENT:
    not after any number of calls of SET_EVENT. *)
Theorem C69_stuck : forall n s evs id, event_history n s evs id ->
  forall t r ls s' evs', s_k s t = KRelock id r -> blocked_on s id t ->
  Forall label_typed ls -> undisturbed_run n s ls -> Forall (keeps_lock id) ls -> run n s ls = Some (s', evs') -> ~ returns t evs'.
Proof.
  intros n s evs id H t r ls s' evs' K B Ty U KL R. destruct (event_created n s evs id H) as (I & _).
  destruct H as (Hn & th & now & ls0 & a & Ty0 & U0 & R0 & C & _).
  destruct (run_Tr n ls0 _ _ s evs Hn (boot_SInv n th now Hn) U0 Ty0 R0) as (QQ & (HS & _)).
  apply (stuck_run n id t r ls s QQ s' evs' Hn HS Ty U KL I K); [|exact R].
  pose proof (SInv_blocked n s QQ id t HS B) as X. unfold waits. apply existsb_exists. apply in_map_iff in X.
  destruct X as (p & <- & X). exists p. split; [exact X|apply Z.eqb_refl].
Qed.
Print Assumptions C69_stuck.

(** Threads 1 and 2 wait, the event is set twice, both are dispatched: thread 1 is stuck. *)
Definition c69_two : list label := [c69_wait 1; c69_wait 2; c69_set; LResume 2; c69_set; LResume 1].
Example c69_stuck_case : event_history 4 (c69_state c69_two) (c69_evs c69_two) 0 /\
  s_k (c69_state c69_two) 1 = KRelock 0 ERR_OK /\ blocked_on (c69_state c69_two) 0 1 /\
  (let ls := [c69_set; LTick; LExpire 1; LResume 1; c69_set; LResume 1] in
   Forall label_typed ls /\ undisturbed_run 4 (c69_state c69_two) ls /\ Forall (keeps_lock 0) ls /\ run 4 (c69_state c69_two) ls <> None) /\
  (exists s' ev, run 4 (c69_state c69_two) [c69_wait 3; LResume 1] = Some (s', ev) /\ In (EvReturn 1 ERR_OK) ev).
Proof.
  split; [history69|]. split; [vm_compute; reflexivity|]. split; [split; [right; eexists; vm_compute; reflexivity|vm_compute; discriminate]|].
  split; [cbv zeta; split; [repeat constructor|]; split; [vm_compute; intuition|]; split; [repeat constructor; discriminate|vm_compute; discriminate]|].
  do 2 eexists. split; [vm_compute; reflexivity|]. cbn. intuition.
Qed.

(** A waiter that is made ready by SET_EVENT returns when it is dispatched (before its time-out). *)
Theorem C69_return_refuted : ~ (forall n s evs id, event_history n s evs id ->
  forall t d s' ev, s_k s t = KWait id d -> d = 0 \/ s_now s < d -> step n s (LResume t) = Next s' ev -> returns t ev).
Proof.
  intros H. pose (ls := [c69_wait 1; c69_wait 2; c69_set; LResume 2; c69_set]).
  specialize (H 4 (c69_state ls) (c69_evs ls) 0 ltac:(unfold ls; history69) 1).
  assert (X : match step 4 (c69_state ls) (LResume 1) with Next _ ev => quiet 1 ev = true | _ => False end) by (vm_compute; reflexivity).
  destruct (step 4 (c69_state ls) (LResume 1)) as [s' ev| |] eqn:E; try contradiction.
  apply (quiet_spec 1 ev X). apply (H (event_timeout 50 + 5000) s' ev); [vm_compute; reflexivity|right; vm_compute; reflexivity|reflexivity].
Qed.
Print Assumptions C69_return_refuted.
