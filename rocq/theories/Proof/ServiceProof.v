(** Every service is an update of some threads followed by a scheduling. *)
From Verif Require Import Model.Base Model.State Model.LockFifo Model.LockObj Model.LockSys Model.Sched
  Model.Kernel Spec.SchedSpec Spec.KernelSpec Proof.Tac Proof.SchedProof Proof.KernelBasic Proof.FairProof
  Proof.ClockProof Proof.SlotProof Proof.KernelInv Proof.ElectProof.

(** ** Lock objects and the thread table *)

(** Lock-object operations by [cur] change states (and the wake-up date of the caller) only. *)
Definition lock_upd (cur : Z) (th th' : Z -> thread) : Prop := forall t,
  th' t = th t \/ th' t = set_t_state ST_RUNNABLE (th t) \/
  (t = cur /\ exists st w, (st = ST_LOCK \/ st = ST_WAITING) /\ th' t = set_t_wakeup w (set_t_state st (th t))).

Lemma lock_upd_refl : forall cur th, lock_upd cur th th.
Proof. intros cur th t. now left. Qed.
(** Waking up threads. *)
Definition wake_upd (th th' : Z -> thread) : Prop := forall t, th' t = th t \/ th' t = set_t_state ST_RUNNABLE (th t).
Lemma wake_upd_refl : forall th, wake_upd th th.
Proof. intros th t. now left. Qed.
Lemma wake_upd_one : forall a b w, wake_upd a b -> wake_upd a (sched_unlock_thread b w).
Proof.
  intros a b w H t. unfold sched_unlock_thread, set_state, upd. destruct (Z.eqb_spec t w) as [->|]; [|apply H].
  destruct (H w) as [->| ->]; right; reflexivity.
Qed.
Lemma wake_lock : forall cur a b, wake_upd a b -> lock_upd cur a b.
Proof. intros cur a b H t. destruct (H t); auto. Qed.
Lemma block_upd : forall cur a b d, wake_upd a b -> lock_upd cur a (block_current b cur d).
Proof.
  intros cur a b d H t. unfold block_current, sched_lock_current_timed, sched_lock_current, set_state.
  destruct (_ <? _); unfold upd; destruct (Z.eqb_spec t cur) as [->|]; try (apply wake_lock; assumption).
  - right; right. split; [reflexivity|]. exists ST_WAITING, d. split; [now right|]. destruct (H cur) as [->| ->]; reflexivity.
  - right; right. split; [reflexivity|].
    exists ST_LOCK, (t_wakeup (b cur)). split; [now left|]. destruct (H cur) as [->| ->]; reflexivity.
Qed.

Lemma obj_lock_upd : forall n now cur o th tmo o' th' out, obj_lock n now cur o th tmo = Done (o', th', out) ->
  lock_upd cur th th'.
Proof.
  intros n now cur o th tmo o' th' out H. unfold obj_lock in H.
  destruct (negb _). { injection H as _ <- _. apply lock_upd_refl. }
  destruct (0 <? o_value o).
  { destruct (fifo_is_empty _); [|discriminate]. injection H as _ <- _. apply lock_upd_refl. }
  destruct (fifo_enqueue _ _ _ _ _) as [[f r]|]; [|discriminate]. injection H as _ <- _.
  apply block_upd, wake_upd_refl.
Qed.
Lemma obj_unlock_upd : forall n o th o' th' e w, obj_unlock n o th = Done (o', th', e, w) -> wake_upd th th'.
Proof.
  intros n o th o' th' e w H. unfold obj_unlock in H.
  destruct (negb _). { injection H as _ <- _ _. apply wake_upd_refl. }
  destruct (negb _).
  { destruct (fifo_is_empty _); [|discriminate]. destruct (_ =? _); [destruct (_ <? _)|];
      injection H as _ <- _ _; apply wake_upd_refl. }
  destruct (fifo_is_empty _). { injection H as _ <- _ _. apply wake_upd_refl. }
  destruct (fifo_dequeue _ _) as [f r]. injection H as _ <- _ _. apply wake_upd_one, wake_upd_refl.
Qed.
Lemma obj_eventwait_upd : forall n now cur o th tmo o' th' out, obj_eventwait n now cur o th tmo = Done (o', th', out) ->
  lock_upd cur th th'.
Proof.
  intros n now cur o th tmo o' th' out H. unfold obj_eventwait in H.
  destruct (negb _). { injection H as _ <- _. apply lock_upd_refl. }
  destruct (negb _). { injection H as _ <- _. apply lock_upd_refl. }
  destruct (obj_unlock n o th) as [[[[o1 th1] e] w]|] eqn:E; [|discriminate]. apply obj_unlock_upd in E.
  destruct (negb _). { injection H as _ <- _. now apply wake_lock. }
  destruct (fifo_enqueue _ _ _ _ _) as [[f r]|]; [|discriminate]. destruct (negb _); [discriminate|].
  injection H as _ <- _. now apply block_upd.
Qed.
Lemma obj_eventwait_resume_upd : forall n now cur o th d o' th' rw out,
  obj_eventwait_resume n now cur o th d = Done (o', th', rw, out) -> lock_upd cur th th'.
Proof.
  intros n now cur o th d o' th' rw out H. unfold obj_eventwait_resume in H.
  match type of H with match ?x with _ => _ end = _ => destruct x as [[o1 rw1]|]; [|discriminate] end.
  destruct (obj_lock n now cur o1 th 0) as [[[o2 th2] [e|d2]]|] eqn:E; [| |discriminate];
    injection H as _ <- _ _; now apply obj_lock_upd in E.
Qed.
Lemma obj_eventsignal_upd : forall n o th o' th' e w, obj_eventsignal n o th = (o', th', e, w) -> wake_upd th th'.
Proof.
  intros n o th o' th' e w H. unfold obj_eventsignal in H.
  destruct (fifo_is_empty _). { injection H as _ <- _ _. apply wake_upd_refl. }
  destruct (fifo_dequeue _ _) as [f r]. injection H as _ <- _ _. apply wake_upd_one, wake_upd_refl.
Qed.
Lemma broadcast_upd : forall fuel n f th0 th f' th', wake_upd th0 th -> broadcast_loop fuel n f th = Some (f', th') -> wake_upd th0 th'.
Proof.
  induction fuel as [|k IH]; intros n f th0 th f' th' Hw H; cbn in H; [discriminate|].
  destruct (fifo_is_empty f). { injection H as _ <-. assumption. }
  apply IH with (th0 := th0) in H; [assumption|]. now apply wake_upd_one.
Qed.
Lemma obj_eventbroadcast_upd : forall n o th o' th' e b, obj_eventbroadcast n o th = Done (o', th', e, b) -> wake_upd th th'.
Proof.
  intros n o th o' th' e b H. unfold obj_eventbroadcast in H.
  destruct (broadcast_loop _ _ _ _) as [[f th1]|] eqn:E; [|discriminate]. injection H as _ <- _ _.
  apply broadcast_upd with (th0 := th) in E; [assumption|apply wake_upd_refl].
Qed.

(** ** Shape of services *)
Inductive phase := PhNone | PhThread | PhGlobal.
Definition run_phase (cfg : config) (c : Z) (ph : phase) (s s' : kstate) : Prop :=
  match ph with
  | PhNone => s' = s
  | PhThread => sched_thread cfg c s = Some s'
  | PhGlobal => exists f, global_sched cfg c s = Some (s', f)
  end.

(** Threads that service [v] called on processor [c] writes. *)
Definition writes (cfg : config) (c : Z) (v : svc) (s : kstate) (t : Z) : Prop :=
  match v with
  | SCreate _ | SErrorCreate _ _ _ _ | SSetMode _ => thread_of cfg (k_cp s) t
  | SSleep _ | SSleepUntil _ | SEndPeriod | SSuspend => t = k_cur s c
  | SStatus _ | SLockCreate _ => False
  | SDelayedStart id _ | SSetPriority id _ | SResume id | SSuspendTarget id => t = id /\ in_bounds s id = true
  | SRestart tid | SStop tid => t = u32 (tid + p_low (cur_part s)) /\ in_bounds s t = true
  | SRaise => t = p_error (cur_part s) /\ t <> 0
  | SLockOp _ _ _ => False
  end.
(** ... and what happens to the others. *)
Definition others_upd (c : Z) (v : svc) (s s1 : kstate) (t : Z) : Prop :=
  match v with
  | SLockOp _ _ _ =>
      k_th s1 t = k_th s t \/ k_th s1 t = set_t_state ST_RUNNABLE (k_th s t) \/
      (t = k_cur s c /\ exists st w, (st = ST_LOCK \/ st = ST_WAITING) /\
         k_th s1 t = set_t_wakeup w (set_t_state st (k_th s t)))
  | _ => k_th s1 t = k_th s t
  end.

Section Shape.
Variable cfg : config.
Hypothesis W : supported cfg.

Lemma sort_threads_shape : forall low i s, low <= i -> exists pos, low <= pos <= i /\
  forall x, k_th (sort_threads low i s) x = k_th s (if x =? pos then i else if (pos <? x) && (x <=? i) then x - 1 else x) /\
            k_k (sort_threads low i s) x = k_k s (if x =? pos then i else if (pos <? x) && (x <=? i) then x - 1 else x).
Proof.
  intros low i s Hli. unfold sort_threads, insert_sort.
  destruct (insert_shift_spec _ (Z.to_nat (i - low)) (fun x : thread * kont => t_period (fst x))
              (fun j => (k_th s j, k_k s j)) low (i - 1) (k_th s i, k_k s i) ltac:(lia) ltac:(lia)) as (pos & Hp & Hx & _).
  replace (i - 1 + 1) with i in * by lia.
  exists pos. split; [assumption|]. intros x. cbn. rewrite Hx.
  destruct (_ =? _); [split; reflexivity|]. destruct (_ && _); split; reflexivity.
Qed.

Lemma thread_create_frame : forall a pid s s' e id, kinv cfg s -> is_part cfg pid ->
  thread_create cfg a pid s = Some (s', e, id) ->
  k_now s' = k_now s /\ k_obj s' = k_obj s /\ (forall i, i <> pid -> k_part s' i = k_part s i) /\
  (forall t, ~ thread_of cfg pid t -> k_th s' t = k_th s t /\ k_k s' t = k_k s t) /\
  k_th s' (low_of cfg pid) = k_th s (low_of cfg pid).
Proof.
  intros a pid s s' e id I Hpid H.
  destruct (thread_create_cases cfg _ _ _ _ _ _ H) as [(-> & _)|(-> & -> & Hid & _ & th & k & aff & _ & -> & Hth)].
  - repeat split.
  - pose proof (ki_part _ _ I pid Hpid) as Hok. pose proof (po_low _ _ _ Hok) as Hlow. pose proof (po_high _ _ _ Hok) as Hhigh.
    pose proof (po_index _ _ _ Hok) as Hix. rewrite Hlow, Hhigh in *.
    set (id := low_of cfg pid + p_index (k_part s pid)) in *.
    split; [reflexivity|]. split; [reflexivity|].
    split; [intros i Hi; cbn; now rewrite upd_other|].
    cbv zeta in Hth. cbn [k_th k_k set_k_k set_k_th on_part].
    match type of Hth with if ?b then _ else _ => destruct b end; destruct Hth as (-> & ->).
    + match goal with |- context [sort_threads ?l ?i ?x] =>
        destruct (sort_threads_shape l i x ltac:(lia)) as (pos & Hpos & Hs) end.
      split.
      * intros t Ht. unfold thread_of, in_range in Ht. destruct (Hs t) as (-> & ->).
        destruct (Z.eqb_spec t pos); [lia|]. destruct (Z.ltb_spec pos t); destruct (Z.leb_spec t id); cbn [andb]; try lia;
        cbn; rewrite !upd_other by lia; auto.
      * destruct (Hs (low_of cfg pid)) as (-> & _). destruct (Z.eqb_spec (low_of cfg pid) pos); [lia|].
        destruct (Z.ltb_spec pos (low_of cfg pid)); [lia|]. cbn. now rewrite upd_other by lia.
    + split; [|cbn; now rewrite upd_other by lia].
      intros t Ht. unfold thread_of, in_range in Ht. cbn. rewrite !upd_other by lia. auto.
Qed.

Lemma normal_loop_outside : forall n now act th i t, t < i \/ i + Z.of_nat n <= t -> normal_loop n cfg now act th i t = th t.
Proof.
  induction n as [|n IH]; intros now act th i t Ht; cbn; [reflexivity|].
  rewrite IH by lia. now rewrite upd_other by lia.
Qed.
Lemma normal_loop_inside : forall n now act th i t, i <= t < i + Z.of_nat n ->
  normal_loop n cfg now act th i t = normal_start cfg now act (th t).
Proof.
  induction n as [|n IH]; intros now act th i t Ht; cbn; [lia|].
  destruct (Z.eq_dec t i) as [->|Hne].
  - rewrite normal_loop_outside by lia. now rewrite upd_same.
  - rewrite IH by lia. now rewrite upd_other.
Qed.

(** Attributes that are fixed at creation. *)
Definition statics (t : thread) := (t_period t, t_deadline t, t_capacity t, t_entry t, t_partition t, t_stack t, t_base_prio t, t_affinity t).
Definition keeps_statics (v : svc) : Prop :=
  match v with
  | SCreate _ | SErrorCreate _ _ _ _ | SRaise => False
  | SSetMode m => m <> PM_COLD /\ m <> PM_WARM
  | _ => True
  end.
(** Services that leave partitions and the executing threads alone. *)
Definition calm (v : svc) : Prop :=
  match v with SCreate _ | SErrorCreate _ _ _ _ | SRaise | SSetMode _ => False | _ => True end.
Lemma normal_start_statics : forall now act t, statics (normal_start cfg now act t) = statics t.
Proof.
  intros now act t. unfold normal_start. destruct (_ =? ST_DELAYED); [|reflexivity].
  destruct (_ =? INFINITE).
  - destruct (0 <? _); reflexivity.
  - destruct (_ =? 0); [destruct (0 <? _); reflexivity|reflexivity].
Qed.
Lemma normal_loop_statics : forall n now act th i t, statics (normal_loop n cfg now act th i t) = statics (th t).
Proof.
  intros n now act th i t. destruct (Z_lt_dec t i); [rewrite normal_loop_outside by lia; reflexivity|].
  destruct (Z_le_dec (i + Z.of_nat n) t); [rewrite normal_loop_outside by lia; reflexivity|].
  rewrite normal_loop_inside by lia. apply normal_start_statics.
Qed.
Lemma delayed_statics : forall m now ns t, statics (delayed_start_thread m now ns t) = statics t.
Proof.
  intros m now ns t. unfold delayed_start_thread. destruct (_ =? INFINITE); (destruct (_ =? PM_NORMAL); [|reflexivity]).
  - destruct (ns =? 0); [destruct (0 <? _); reflexivity|reflexivity].
  - reflexivity.
Qed.
Lemma lock_upd_statics : forall cur th th', lock_upd cur th th' -> forall t, statics (th' t) = statics (th t).
Proof. intros cur th th' H t. destruct (H t) as [->|[->|(_ & st & w & _ & ->)]]; reflexivity. Qed.

(** What holds between the state [s] in which a service is called and the state [s1] at its scheduling. *)
Definition before_sched (c : Z) (v : svc) (s s1 : kstate) : Prop :=
  kinv cfg s1 /\ k_cp s1 = k_cp s /\ k_now s1 = k_now s /\
  (forall t, ~ writes cfg c v s t -> others_upd c v s s1 t) /\
  (forall i, i <> k_cp s -> k_part s1 i = k_part s i) /\
  (keeps_statics v -> forall t, statics (k_th s1 t) = statics (k_th s t)) /\
  (calm v -> k_part s1 = k_part s /\ k_cur s1 = k_cur s).

Lemma phase_none : forall c v s s1 e s' e' f, before_sched c v s s1 -> ret s1 e = Some (s', e', f) ->
  exists s1 ph, run_phase cfg c ph s1 s' /\ before_sched c v s s1.
Proof. intros c v s s1 e s' e' f B H. injection H as <- _ _. exists s1, PhNone. split; [reflexivity|assumption]. Qed.
Lemma phase_thread : forall c v s s1 e s' e' f, before_sched c v s s1 -> then_sched cfg c s1 e = Some (s', e', f) ->
  exists s1 ph, run_phase cfg c ph s1 s' /\ before_sched c v s s1.
Proof.
  intros c v s s1 e s' e' f B H. unfold then_sched in H. destruct (sched_thread cfg c s1) as [s2|] eqn:E; [|discriminate].
  injection H as <- _ _. exists s1, PhThread. split; [exact E|assumption].
Qed.
Lemma phase_global : forall c v s s1 e s' e' f, before_sched c v s s1 -> then_global cfg c s1 e = Some (s', e', f) ->
  exists s1 ph, run_phase cfg c ph s1 s' /\ before_sched c v s s1.
Proof.
  intros c v s s1 e s' e' f B H. unfold then_global in H. destruct (global_sched cfg c s1) as [[s2 f2]|] eqn:E; [|discriminate].
  injection H as <- _ _. exists s1, PhGlobal. split; [now exists f2|assumption].
Qed.
Lemma phase_one : forall c v s s1 d s', before_sched c v s s1 -> schedule_one_proc cfg c d s1 = Some s' ->
  exists s1 ph, run_phase cfg c ph s1 s' /\ before_sched c v s s1.
Proof.
  intros c v s s1 d s' B H. unfold schedule_one_proc in H.
  destruct (1 <? c_nprocs cfg); [destruct (d =? c)|destruct (d =? 0)]; try discriminate.
  - exists s1, PhThread. split; assumption.
  - injection H as <-. exists s1, PhNone. split; [reflexivity|assumption].
  - exists s1, PhThread. split; assumption.
Qed.

Lemma before_refl : forall c v s, kinv cfg s -> before_sched c v s s.
Proof.
  intros c v s I. split; [assumption|]. split; [reflexivity|]. split; [reflexivity|].
  split; [|repeat split]. intros t _. destruct v; cbn; auto.
Qed.
(** Writing one thread that the service may write. *)
Lemma before_on : forall c v s t g, kinv cfg s -> writes cfg c v s t ->
  (keeps_statics v -> forall x, statics (g x) = statics x) -> before_sched c v s (on_th t g s).
Proof.
  intros c v s t g I Hw Hst. split; [now apply kinv_th|]. split; [reflexivity|]. split; [reflexivity|].
  split.
  2:{ split; [reflexivity|]. split; [|repeat split]. intros Hk x. cbn. unfold upd. destruct (Z.eqb_spec x t) as [->|]; [now apply Hst|reflexivity]. }
  intros x Hx. assert (Hne : x <> t) by (intros ->; contradiction).
  assert (E : k_th (on_th t g s) x = k_th s x) by (cbn; now rewrite upd_other).
  destruct v; cbn [others_upd]; auto.
Qed.

Lemma lock_service_phase : forall c id o s s' e f kind, kinv cfg s -> is_proc cfg c ->
  lock_service cfg c id o s = Some (s', e, f) ->
  exists s1 ph, run_phase cfg c ph s1 s' /\ before_sched c (SLockOp id kind (Some o)) s s1.
Proof.
  intros c id o s s' e f kind I Hc H. unfold lock_service in H. cbv zeta in H.
  assert (B : forall ob th k, lock_upd (k_cur s c) (k_th s) th ->
    before_sched c (SLockOp id kind (Some o)) s
      (set_k_k (upd (k_k s) (k_cur s c) k) (set_k_th th (set_k_obj (upd (k_obj s) id ob) s)))).
  { intros ob th k Hl. split; [kframe I|]. split; [reflexivity|]. split; [reflexivity|]. split.
    - intros t _. exact (Hl t).
    - split; [reflexivity|]. split; [|repeat split]. intros _. exact (lock_upd_statics _ _ _ Hl). }
  destruct o.
  - destruct (obj_lock _ _ _ _ _ _) as [[[ob th] [e'|d]]|] eqn:E; [| |discriminate]; apply obj_lock_upd in E.
    + eapply phase_none; [apply B; exact E|exact H].
    + eapply phase_thread; [apply B; exact E|exact H].
  - destruct (obj_unlock _ _ _) as [[[[ob th] e'] [w|]]|] eqn:E; [| |discriminate]; apply obj_unlock_upd in E;
      apply (wake_lock (k_cur s c)) in E.
    + destruct (schedule_one_proc _ _ _ _) as [s1|] eqn:E1; [|discriminate]. injection H as <- _ _.
      eapply phase_one; [apply B; exact E|exact E1].
    + eapply phase_none; [apply B; exact E|exact H].
  - destruct (obj_eventwait _ _ _ _ _ _) as [[[ob th] [e'|d]]|] eqn:E; [| |discriminate]; apply obj_eventwait_upd in E.
    + eapply phase_none; [apply B; exact E|exact H].
    + eapply phase_thread; [apply B; exact E|exact H].
  - destruct (obj_eventsignal _ _ _) as [[[ob th] e'] [w|]] eqn:E; apply obj_eventsignal_upd in E;
      apply (wake_lock (k_cur s c)) in E.
    + destruct (schedule_one_proc _ _ _ _) as [s1|] eqn:E1; [|discriminate]. injection H as <- _ _.
      eapply phase_one; [apply B; exact E|exact E1].
    + eapply phase_none; [apply B; exact E|exact H].
  - destruct (obj_eventbroadcast _ _ _) as [[[[ob th] e'] [|]]|] eqn:E; [| |discriminate]; apply obj_eventbroadcast_upd in E;
      apply (wake_lock (k_cur s c)) in E.
    + unfold schedule_every_proc in H. destruct (sched_thread _ _ _) as [s1|] eqn:E1; [|discriminate].
      injection H as <- _ _. eexists _, PhThread. split; [exact E1|]. apply B; exact E.
    + eapply phase_none; [apply B; exact E|exact H].
Qed.

Lemma set_mode_phase : forall c m s s' e f, kinv cfg s -> is_proc cfg c ->
  set_mode cfg c m s = Some (s', e, f) ->
  exists s1 ph, run_phase cfg c ph s1 s' /\ before_sched c (SSetMode m) s s1.
Proof.
  intros c m s s' e f I Hc H. unfold set_mode in H.
  assert (Hret : forall e0, ret s e0 = Some (s', e, f) ->
    exists s1 ph, run_phase cfg c ph s1 s' /\ before_sched c (SSetMode m) s s1).
  { intros e0 E. eapply phase_none; [|exact E]. now apply before_refl. }
  pose proof (ki_part _ _ I _ (ki_cp _ _ I)) as Hok.
  assert (Hpm : forall v, known_mode v -> kinv cfg (on_part (k_cp s) (set_p_mode v) s)).
  { intros v Hv. apply kinv_part; [assumption|]. intros Hp. apply set_mode_ok; [|assumption]. now apply (ki_part _ _ I). }
  destruct (Z.eqb_spec m PM_NORMAL) as [->|].
  { destruct (_ =? PM_IDLE); [now apply Hret in H|]. destruct (negb _); [now apply Hret in H|].
    eapply phase_global; [|exact H]. split.
    { do 2 apply kinv_th. apply Hpm. unfold known_mode. auto. }
    split; [reflexivity|]. split; [reflexivity|]. split.
    - intros t Ht. cbn in Ht. cbn. rewrite (po_low _ _ _ Hok), (po_nthreads _ _ _ Hok), (po_main _ _ _ Hok).
      pose proof (sp_threads cfg W _ (ki_cp _ _ I)). unfold thread_of, in_range, high_of in Ht.
      rewrite upd_other by lia. apply normal_loop_outside. lia.
    - split; [intros i Hi; cbn; now rewrite upd_other|]. split; [|intros []]. intros _ t. cbn. unfold upd.
      match goal with |- context [t =? ?x] => destruct (Z.eqb_spec t x) as [->|] end; [|apply normal_loop_statics].
      cbn. apply normal_loop_statics. }
  destruct (Z.eqb_spec m PM_STOPPED) as [->|].
  { destruct (_ || _); [now apply Hret in H|]. eapply phase_global; [|exact H]. split.
    { apply Hpm. unfold known_mode. auto. }
    split; [reflexivity|]. split; [reflexivity|]. split; [intros; reflexivity|].
    split; [intros i Hi; cbn; now rewrite upd_other|split; [reflexivity|intros []]]. }
  destruct ((m =? PM_WARM) || (m =? PM_COLD)) eqn:B; [|now apply Hret in H].
  assert (Hm : m = PM_COLD \/ m = PM_WARM) by (rewrite orb_true_iff, !Z.eqb_eq in B; tauto). clear B.
  destruct (_ && _); [now apply Hret in H|]. destruct (_ || _); [now apply Hret in H|].
  destruct (partition_reinit _ _ _ _) as [s1|] eqn:E; [|discriminate].
  eapply phase_global; [|exact H].
  pose proof (reinit_clock _ _ _ _ _ E) as Eck. cbn in Eck.
  pose proof (f_equal ck_now Eck) as Enow. cbn in Enow.
  assert (Ith : forall t, ~ thread_of cfg (k_cp s) t -> k_th s1 t = k_th s t).
  { unfold partition_reinit in E. apply (setup_main_shape cfg W) in E.
    - destruct E as (_ & _ & _ & _ & _ & _ & _ & _ & aff & _ & ->). intros t Ht. cbn.
      pose proof (low_lt_high cfg W _ (ki_cp _ _ I)). unfold thread_of, in_range in Ht. rewrite upd_other by lia. reflexivity.
    - apply (ki_cp _ _ I).
    - cbn. now rewrite upd_same.
    - cbn. rewrite !upd_same. apply (po_low _ _ _ Hok).
    - cbn. rewrite !upd_same. apply (po_high _ _ _ Hok).
    - cbn. rewrite !upd_same. exact Hm. }
  apply (reinit_inv cfg W) in E.
  - destruct E as (I1 & Ecp & Ecur & _ & Ep & _). split; [assumption|]. split; [exact Ecp|]. split; [exact Enow|].
    split; [intros t Ht; apply Ith; exact Ht|].
    split; [intros i Hi; rewrite Ep by assumption; cbn; now rewrite upd_other|]. split; [|intros []]. intros (? & ?). tauto.
  - apply Hpm. unfold known_mode. tauto.
  - apply (ki_cp _ _ I).
  - assumption.
  - cbn. rewrite upd_same. exact Hm.
Qed.

Lemma service_phase : forall c v s s' e f id, kinv cfg s -> is_proc cfg c ->
  service cfg c v s = Some (s', e, f, id) ->
  exists s1 ph, run_phase cfg c ph s1 s' /\ before_sched c v s s1.
Proof.
  intros c v s s' e f id I Hc H. unfold service in H. cbv zeta in H.
  pose proof (ki_cp _ _ I) as Hcp.
  destruct v.
  - destruct (thread_create _ _ _ _) as [[[s1 e1] i1]|] eqn:E; [|discriminate].
    injection H as <- _ _ _. exists s1, PhNone. split; [reflexivity|].
    pose proof (thread_create_inv cfg _ _ _ _ _ _ I Hcp E) as (I1 & Ecp & _).
    apply thread_create_frame in E; try assumption. destruct E as (E1 & _ & E2 & E3 & _).
    split; [assumption|]. split; [assumption|]. split; [assumption|]. split; [|split; [assumption|split; intros []]].
    intros t Ht. apply E3. exact Ht.
  - inv_no H. eapply phase_thread; [|exact E]. apply before_on; [assumption|reflexivity|reflexivity].
  - inv_no H. eapply phase_thread; [|exact E]. apply before_on; [assumption|reflexivity|reflexivity].
  - inv_no H. eapply phase_thread; [|exact E]. apply before_on; [assumption|reflexivity|reflexivity].
  - inv_no H. eapply phase_thread; [|exact E]. apply before_on; [assumption|reflexivity|reflexivity].
  - destruct (in_bounds s id0).
    + destruct (get_proc_partition_id _ _); [|discriminate]. inv_no H. eapply phase_none; [|exact E]. now apply before_refl.
    + inv_no H. eapply phase_none; [|exact E]. now apply before_refl.
  - destruct (in_bounds s id0) eqn:B.
    + destruct (_ && _).
      * inv_no H. eapply phase_global; [|exact E]. apply before_on; [assumption|split; auto|].
        intros _ x. apply delayed_statics.
      * inv_no H. eapply phase_none; [|exact E]. apply before_on; [assumption|split; auto|].
        intros _ x. apply delayed_statics.
    + inv_no H. eapply phase_none; [|exact E]. now apply before_refl.
  - destruct (in_bounds s id0) eqn:B; inv_no H.
    + eapply phase_global; [|exact E]. apply before_on; [assumption|split; auto|reflexivity].
    + eapply phase_none; [|exact E]. now apply before_refl.
  - destruct (in_bounds s id0) eqn:B; inv_no H.
    + eapply phase_global; [|exact E]. apply before_on; [assumption|split; auto|reflexivity].
    + eapply phase_none; [|exact E]. now apply before_refl.
  - destruct (in_bounds s id0) eqn:B; cbn [andb] in H.
    2:{ inv_no H. eapply phase_none; [|exact E]. now apply before_refl. }
    destruct (negb _); inv_no H; (eapply phase_none; [|exact E]); [apply before_on; [assumption|split; auto|reflexivity]|now apply before_refl].
  - destruct (negb _).
    + inv_no H. eapply phase_none; [|exact E]. now apply before_refl.
    + destruct (in_bounds s (u32 (tid + p_low (cur_part s)))) eqn:B; inv_no H.
      * eapply phase_global; [|exact E].
        assert (Hb : before_sched c (SRestart tid) s (on_th (u32 (tid + p_low (cur_part s)))
          (fun t => set_t_wakeup 0 (set_t_state ST_WAIT_NEXT (set_t_remaining (t_capacity t) t))) s))
          by (apply before_on; [assumption|split; auto|reflexivity]).
        destruct Hb as (B1 & B2 & B3 & B4 & B5 & B6). split; [unfold thread_restart; kframe B1|].
        split; [assumption|]. split; [assumption|]. split; [exact B4|]. split; [exact B5|exact B6]. 
      * eapply phase_none; [|exact E]. now apply before_refl.
  - destruct (negb _).
    + inv_no H. eapply phase_none; [|exact E]. now apply before_refl.
    + destruct (in_bounds s (u32 (tid + p_low (cur_part s)))) eqn:B; inv_no H.
      * eapply phase_global; [|exact E]. apply before_on; [assumption|split; auto|reflexivity].
      * eapply phase_none; [|exact E]. now apply before_refl.
  - inv_no H. unfold set_mode_current in E. destruct (_ && _).
    + eapply phase_none; [|exact E]. now apply before_refl.
    + now apply set_mode_phase in E.
  - destruct (thread_create _ _ _ _) as [[[s1 e1] i1]|] eqn:E; [|discriminate].
    destruct (Z.eqb_spec e1 ERR_OK) as [->|]; [|discriminate]. injection H as <- _ _ _.
    pose proof (thread_create_inv cfg _ _ _ _ _ _ I Hcp E) as (I1 & Ecp & _ & Hid). specialize (Hid eq_refl).
    apply thread_create_frame in E; try assumption. destruct E as (E1 & _ & E2 & E3 & _).
    assert (I2 : kinv cfg (on_part (k_cp s1) (set_p_error i1) s1)).
    { apply kinv_part; [assumption|]. intros _. rewrite Ecp. apply set_error_ok; [now apply (ki_part _ _ I1)|now right]. }
    eexists _, PhNone. split; [reflexivity|]. split; [now apply (activate_error_inv cfg)|].
    unfold activate_error_thread, cur_part. cbn [k_cp k_part on_part set_k_part]. rewrite upd_same. cbn [p_error set_p_error].
    assert (E4 : forall i, i <> k_cp s -> k_part (on_part (k_cp s1) (set_p_error i1) s1) i = k_part s i).
    { intros i Hi. cbn. rewrite upd_other by congruence. now apply E2. }
    destruct (i1 =? 0); cbn [k_cp k_now k_th k_part on_th switch_to set_k_th set_k_cur].
    + split; [exact Ecp|]. split; [exact E1|]. split; [intros t Ht; now apply E3|]. split; [exact E4|split; intros []].
    + split; [exact Ecp|]. split; [exact E1|]. split; [|split; [exact E4|split; intros []]]. intros t Ht. cbn [others_upd].
      cbn. rewrite upd_other; [now apply E3|]. intros ->. apply Ht. cbn. unfold thread_of, in_range. lia.
  - inv_no H. injection E as <- _ _. eexists _, PhNone. split; [reflexivity|].
    split; [now apply (activate_error_inv cfg)|]. unfold activate_error_thread.
    destruct (Z.eqb_spec (p_error (cur_part s)) 0).
    + split; [reflexivity|]. split; [reflexivity|]. split; [intros; reflexivity|repeat split]; try reflexivity; try (now intros []).
    + split; [reflexivity|]. split; [reflexivity|]. split; [|split; [reflexivity|split; intros []]]. intros t Ht. cbn. rewrite upd_other; [reflexivity|].
      intros ->. apply Ht. split; [reflexivity|assumption].
  - destruct (lockobj_create s a) as [[s1 e1] i1] eqn:E. injection H as <- _ _ _. exists s1, PhNone. split; [reflexivity|].
    unfold lockobj_create in E. destruct (_ && _). { injection E as <- _ _. now apply before_refl. }
    destruct (find_free _ _ _). 2:{ injection E as <- _ _. now apply before_refl. }
    destruct (obj_create _ _). injection E as <- _ _.
    split; [kframe I|]. split; [reflexivity|]. split; [reflexivity|]. split; [intros; reflexivity|repeat split].
  - inv_no H. unfold lock_wrapper in E.
    destruct (_ <? _). { eapply phase_none; [|exact E]. now apply before_refl. }
    destruct (_ <=? _). { eapply phase_none; [|exact E]. now apply before_refl. }
    destruct (negb _). { eapply phase_none; [|exact E]. now apply before_refl. }
    destruct o. 2:{ eapply phase_none; [|exact E]. now apply before_refl. }
    eapply lock_service_phase; eassumption.
Qed.

(** A continuation inside a lock-object service. *)
Lemma lock_continue_phase : forall c s s' e f id kind o, kinv cfg s -> is_proc cfg c ->
  lock_continue cfg c s = Some (s', e, f) ->
  exists s1 ph, run_phase cfg c ph s1 s' /\ before_sched c (SLockOp id kind o) s s1.
Proof.
  intros c s s' e f id kind o I Hc H. unfold lock_continue in H. cbv zeta in H.
  assert (B : forall i ob th k, lock_upd (k_cur s c) (k_th s) th ->
    before_sched c (SLockOp id kind o) s
      (set_k_k (upd (k_k s) (k_cur s c) k) (set_k_th th (set_k_obj (upd (k_obj s) i ob) s)))).
  { intros i ob th k Hl. split; [kframe I|]. split; [reflexivity|]. split; [reflexivity|]. split.
    - intros t _. exact (Hl t).
    - split; [reflexivity|]. split; [|repeat split]. intros _. exact (lock_upd_statics _ _ _ Hl). }
  destruct (k_k s (k_cur s c)).
  - eapply phase_none; [now apply before_refl|exact H].
  - destruct (obj_lock_resume _ _ _ _ _) as [[ob e']|]; [|discriminate].
    eapply phase_none; [apply B; apply lock_upd_refl|exact H].
  - destruct (obj_eventwait_resume _ _ _ _ _ _) as [[[[ob th] rw] [e'|d]]|] eqn:E; [| |discriminate];
      apply obj_eventwait_resume_upd in E.
    + eapply phase_none; [apply B; exact E|exact H].
    + eapply phase_thread; [apply B; exact E|exact H].
  - destruct (obj_lock_resume _ _ _ _ _) as [[ob e']|]; [|discriminate].
    eapply phase_none; [apply B; apply lock_upd_refl|exact H].
  - eapply phase_none; [now apply before_refl|exact H].
Qed.
End Shape.
