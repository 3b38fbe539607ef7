(** Every entry of the thread table evolves by a fixed list of elementary updates, so that a property of
    threads that these updates keep is an invariant of the kernel. *)
From Verif Require Import Model.Base Model.State Model.LockFifo Model.LockObj Model.LockSys Model.Sched
  Model.Kernel Spec.SchedSpec Spec.KernelSpec Proof.Tac Proof.SchedProof Proof.KernelBasic Proof.FairProof
  Proof.ClockProof Proof.SlotProof Proof.KernelInv Proof.ElectProof Proof.ServiceProof Proof.PlaceProof.
From Coq Require Import Relations.

Definition handler_start (t : thread) : thread :=
  set_t_state ST_RUNNABLE (set_t_next_act 0 (set_t_period 100 (set_t_remaining 1000 (set_t_priority 255 t)))).

Inductive tupd : thread -> thread -> Prop :=
| TU_state : forall v t, tupd t (set_t_state v t)
| TU_wakeup : forall v t, tupd t (set_t_wakeup v t)
| TU_end : forall v t, tupd t (set_t_end_time v t)
| TU_next : forall v t, tupd t (set_t_next_act (u64 v) t)
| TU_use : forall t, 0 < t_remaining t -> tupd t (set_t_remaining (t_remaining t - 1) t)
| TU_refill : forall t, tupd t (set_t_remaining (t_capacity t) t)
| TU_spend : forall t, tupd t (set_t_remaining 0 t)
| TU_prio : forall v t, tupd t (set_t_priority (u8 v) t)
| TU_base : forall t, tupd t (set_t_priority (t_base_prio t) t)
| TU_init : forall pid aff stack a t, typed_attr a = a -> tupd t (init_thread pid aff stack a t)
| TU_main : forall pid aff stack entry t, tupd t (init_thread pid aff stack (main_attr entry) t)
| TU_handler : forall t, tupd t (handler_start t).
Definition tstar := clos_refl_trans thread tupd.

Lemma ts_refl : forall t, tstar t t. Proof. intros. apply rt_refl. Qed.
Lemma ts_step : forall a b, tupd a b -> tstar a b. Proof. intros. now apply rt_step. Qed.
Lemma ts_trans : forall a b c, tstar a b -> tstar b c -> tstar a c. Proof. intros. now apply rt_trans with b. Qed.
Ltac ts1 := first [apply TU_state | apply TU_wakeup | apply TU_end | apply TU_next | apply TU_refill
  | apply TU_spend | apply TU_prio | apply TU_base | apply TU_handler].
(** Chains of elementary updates. *)
Ltac ts := repeat (first [apply ts_refl | apply ts_step; ts1 | eapply ts_trans; [|apply ts_step; ts1]]).

Definition from (s s' : kstate) : Prop := forall t, exists t0, tstar (k_th s t0) (k_th s' t).
Lemma from_refl : forall s s', k_th s' = k_th s -> from s s'.
Proof. intros s s' E t. exists t. rewrite E. apply ts_refl. Qed.
Lemma from_trans : forall a b c, from a b -> from b c -> from a c.
Proof. intros a b c H1 H2 t. destruct (H2 t) as (t1 & E2). destruct (H1 t1) as (t0 & E1). exists t0. now apply ts_trans with (k_th b t1). Qed.
Lemma from_each : forall s s', (forall t, tstar (k_th s t) (k_th s' t)) -> from s s'.
Proof. intros s s' H t. now exists t. Qed.
Lemma from_on : forall s i g, (forall t, tstar t (g t)) -> from s (on_th i g s).
Proof.
  intros s i g H. apply from_each. intros t. cbn. unfold upd. destruct (Z.eqb_spec t i) as [->|]; [apply H|apply ts_refl].
Qed.

Lemma typed_twice : forall a, typed_attr (typed_attr a) = typed_attr a.
Proof. intros a. unfold typed_attr, u8, u32, u64. cbn. rewrite !Zmod_mod. reflexivity. Qed.

Lemma wake_ts : forall timed p now t t', wake timed p now t = Some t' -> tstar t t'.
Proof.
  intros timed p now t t' H. unfold wake in H. destruct (_ =? p); [|injection H as <-; apply ts_refl].
  cbv zeta in H.
  set (t1 := if timed && _ && _ then _ else t) in *.
  assert (H1 : tstar t t1) by (unfold t1; destruct (timed && _ && _); ts).
  clearbody t1. apply ts_trans with t1; [assumption|].
  destruct (_ && _); [|injection H as <-; apply ts_refl].
  destruct (_ =? 0); [discriminate|]. injection H as <-.
  apply ts_trans with (set_t_remaining (t_capacity t1) (set_t_state ST_RUNNABLE t1)); [|ts].
  apply ts_trans with (set_t_state ST_RUNNABLE t1); [ts|]. apply ts_step. apply (TU_refill (set_t_state ST_RUNNABLE t1)).
Qed.
Lemma charge_ts : forall t, tstar t (charge t).
Proof.
  intros t. unfold charge. destruct (Z.ltb_spec 0 (t_remaining t)); [apply ts_step; now apply TU_use|].
  destruct (0 <? t_capacity t); ts.
Qed.
Lemma normal_start_ts : forall cfg now act t, tstar t (normal_start cfg now act t).
Proof.
  intros cfg now act t. unfold normal_start. destruct (_ =? ST_DELAYED); [|apply ts_refl].
  destruct (_ =? INFINITE); cbv zeta; [|destruct (_ =? 0)]; try (destruct (0 <? _)); ts.
Qed.
Lemma delayed_ts : forall m now ns t, tstar t (delayed_start_thread m now ns t).
Proof.
  intros m now ns t. unfold delayed_start_thread. cbv zeta.
  destruct (_ =? INFINITE); destruct (m =? PM_NORMAL); try (destruct (ns =? 0)); try (destruct (0 <? _)); ts.
Qed.

Section From.
Variable cfg : config.
Hypothesis W : supported cfg.

Lemma elected_ts : forall c s s', half cfg s -> is_proc cfg c -> elected cfg c s s' ->
  forall t, tstar (k_th s t) (k_th s' t).
Proof.
  intros c s s' Hh Hc He t.
  destruct (elected_table cfg W c s s' Hh Hc He) as (_ & _ & _ & _ & _ & _ & _ & th1 & th2 & T1 & T2 & T3 & T4).
  assert (E1 : tstar (k_th s t) (th1 t)).
  { destruct (thread_of_dec cfg (k_cp s) t) as [H|H]; [specialize (T1 t H); now apply wake_ts in T1|rewrite T2 by assumption; apply ts_refl]. }
  assert (E2 : tstar (th1 t) (th2 t)).
  { destruct T4 as [(_ & _ & C1 & C2 & _)|(-> & _)]; [|apply ts_refl].
    destruct (charged_dec cfg c s t) as [H|H]; [rewrite C1 by assumption; apply charge_ts|rewrite C2 by assumption; apply ts_refl]. }
  apply ts_trans with (th1 t); [assumption|]. apply ts_trans with (th2 t); [assumption|].
  rewrite (T3 t). ts.
Qed.

Lemma global_ts : forall c s s' f, half cfg s -> is_proc cfg c -> global_sched cfg c s = Some (s', f) ->
  forall t, tstar (k_th s t) (k_th s' t).
Proof.
  intros c s s' f Hh Hc H.
  refine (proj1 (global_sched_rel cfg W (fun s s' => forall t, tstar (k_th s t) (k_th s' t)) _ _ _ _ c s s' f Hh Hc H)).
  - intros a b d H1 H2 t. now apply ts_trans with (k_th b t).
  - intros a t. apply ts_refl.
  - intros d a b Ha Hd He. now apply elected_ts with d.
  - intros a b Ha Hr t. destruct (repart_fields _ _ _ Hr) as (-> & _). apply ts_refl.
Qed.

Lemma then_sched_from : forall c s0 s e s' e' f, kinv cfg s -> is_proc cfg c -> from s0 s ->
  then_sched cfg c s e = Some (s', e', f) -> from s0 s'.
Proof.
  intros c s0 s e s' e' f I Hc Hf H. unfold then_sched in H. destruct (sched_thread cfg c s) as [s1|] eqn:E; [|discriminate].
  injection H as <- _ _. apply from_trans with s; [assumption|]. apply from_each.
  apply elected_ts with c; [now apply kinv_half|assumption|]. now apply sched_thread_elected.
Qed.
Lemma then_global_from : forall c s0 s e s' e' f, kinv cfg s -> is_proc cfg c -> from s0 s ->
  then_global cfg c s e = Some (s', e', f) -> from s0 s'.
Proof.
  intros c s0 s e s' e' f I Hc Hf H. unfold then_global in H. destruct (global_sched cfg c s) as [[s1 f1]|] eqn:E; [|discriminate].
  injection H as <- _ _. apply from_trans with s; [assumption|]. apply from_each.
  apply global_ts with c f1; [now apply kinv_half|assumption|assumption].
Qed.
Lemma schedule_one_from : forall c d s0 s s', kinv cfg s -> is_proc cfg c -> from s0 s ->
  schedule_one_proc cfg c d s = Some s' -> from s0 s'.
Proof.
  intros c d s0 s s' I Hc Hf H. unfold schedule_one_proc in H.
  assert (G : sched_thread cfg c s = Some s' -> from s0 s').
  { intros E. apply (then_sched_from c s0 s 0 s' 0 NoFlush); try assumption. unfold then_sched. now rewrite E. }
  destruct (1 <? _); [destruct (d =? c); [auto|injection H as <-; assumption]|destruct (d =? 0); [auto|discriminate]].
Qed.
Lemma lock_upd_from : forall cur s s', lock_upd cur (k_th s) (k_th s') -> from s s'.
Proof.
  intros cur s s' H. apply from_each. intros t. destruct (H t) as [->|[->|(_ & st & w & _ & ->)]]; ts.
Qed.

Lemma sort_from : forall low i s, low <= i -> from s (sort_threads low i s).
Proof.
  intros low i s Hi t. destruct (sort_threads_shape low i s Hi) as (pos & _ & H).
  destruct (H t) as (E & _). rewrite E. eexists. apply ts_refl.
Qed.

Lemma thread_create_from : forall a pid s s' e id,
  (forall pid aff stack t, tupd t (init_thread pid aff stack a t)) ->
  thread_create cfg a pid s = Some (s', e, id) -> from s s'.
Proof.
  intros a pid s s' e id Ha H.
  destruct (thread_create_cases cfg _ _ _ _ _ _ H) as [(-> & _)|(-> & Hid & _ & _ & th & k & aff & _ & -> & Hth)];
    [now apply from_refl|].
  cbv zeta in Hth. match type of Hth with context [on_th id ?g s] => set (g0 := g) in * end.
  assert (H1 : from s (set_k_k (upd (k_k s) id KUser) (on_th id g0 s))).
  { apply from_trans with (on_th id g0 s); [|now apply from_refl]. apply from_on. intros t. apply ts_step, Ha. }
  destruct ((c_sched cfg pid =? SCHED_RMS) && _) eqn:B; destruct Hth as (-> & _).
  - apply from_trans with (sort_threads (p_low (k_part s pid) + 1) id (set_k_k (upd (k_k s) id KUser) (on_th id g0 s))); [|now apply from_refl].
    apply from_trans with (set_k_k (upd (k_k s) id KUser) (on_th id g0 s)); [assumption|]. apply sort_from.
    rewrite andb_true_iff in B. lia.
  - apply from_trans with (set_k_k (upd (k_k s) id KUser) (on_th id g0 s)); [assumption|now apply from_refl].
Qed.
Lemma activate_from : forall c s, from s (activate_error_thread c s).
Proof.
  intros c s. unfold activate_error_thread. destruct (_ =? 0); [now apply from_refl|].
  apply from_trans with (on_th (p_error (cur_part s)) handler_start s); [|now apply from_refl].
  apply from_on. intros t. ts.
Qed.

Lemma set_mode_from : forall c m s s' e f, kinv cfg s -> is_proc cfg c -> set_mode cfg c m s = Some (s', e, f) -> from s s'.
Proof.
  intros c m s s' e f I Hc H. unfold set_mode in H.
  assert (Hret : forall e0, ret s e0 = Some (s', e, f) -> from s s').
  { intros e0 E. injection E as <- _ _. now apply from_refl. }
  pose proof (ki_part _ _ I _ (ki_cp _ _ I)) as Hok.
  assert (Hpm : forall v, known_mode v -> kinv cfg (on_part (k_cp s) (set_p_mode v) s)).
  { intros v Hv. apply kinv_part; [assumption|]. intros Hp. apply set_mode_ok; [|assumption]. now apply (ki_part _ _ I). }
  destruct (Z.eqb_spec m PM_NORMAL) as [->|].
  { destruct (_ =? PM_IDLE); [now apply Hret in H|]. destruct (negb _); [now apply Hret in H|].
    eapply then_global_from; [| |  |exact H]; [|assumption|].
    { do 2 apply kinv_th. apply Hpm. unfold known_mode. auto. }
    apply from_each. intros t. cbn. unfold upd at 1.
    assert (N : forall x, tstar (k_th s x) (normal_loop (Z.to_nat (p_nthreads (k_part s (k_cp s)))) cfg (k_now s)
       (p_activation (k_part s (k_cp s))) (k_th s) (p_low (k_part s (k_cp s))) x)).
    { intros x. set (n := Z.to_nat _). set (lo := p_low _).
      destruct (Z_lt_dec x lo); [rewrite normal_loop_outside by lia; apply ts_refl|].
      destruct (Z_lt_dec x (lo + Z.of_nat n)); [|rewrite normal_loop_outside by lia; apply ts_refl].
      rewrite normal_loop_inside by lia. apply normal_start_ts. }
    destruct (Z.eqb_spec t (p_main (k_part s (k_cp s)))) as [->|]; [|apply N].
    eapply ts_trans; [apply N|]. apply ts_step, TU_state. }
  destruct (Z.eqb_spec m PM_STOPPED) as [->|].
  { destruct (_ || _); [now apply Hret in H|]. eapply then_global_from; [| | |exact H]; [|assumption|now apply from_refl].
    apply Hpm. unfold known_mode. auto. }
  destruct ((m =? PM_WARM) || (m =? PM_COLD)) eqn:B; [|now apply Hret in H].
  assert (Hm : m = PM_COLD \/ m = PM_WARM) by (rewrite orb_true_iff, !Z.eqb_eq in B; tauto). clear B.
  destruct (_ && _); [now apply Hret in H|]. destruct (_ || _); [now apply Hret in H|].
  destruct (partition_reinit _ _ _ _) as [s1|] eqn:E; [|discriminate].
  assert (I2 : kinv cfg (on_part (k_cp s) (set_p_mode m) s)) by (apply Hpm; unfold known_mode; tauto).
  pose proof (ki_cp _ _ I) as Hcp.
  assert (Em : p_mode (k_part (on_part (k_cp s) (set_p_mode m) s) (k_cp s)) = m) by (cbn; now rewrite upd_same).
  eapply then_global_from; [| | |exact H]; [|assumption|].
  - refine (proj1 (reinit_inv cfg W c _ _ _ I2 Hcp Hc _ E)). rewrite Em. exact Hm.
  - unfold partition_reinit in E. apply (setup_main_shape cfg W) in E.
    + destruct E as (_ & _ & _ & _ & _ & _ & _ & _ & aff & _ & E). intros t. exists t. rewrite E. cbn. unfold upd at 1.
      destruct (Z.eqb_spec t (low_of cfg (k_cp s))) as [->|]; [|apply ts_refl]. apply ts_step, TU_main.
    + assumption.
    + cbn. now rewrite upd_same.
    + cbn. rewrite !upd_same. apply (po_low _ _ _ Hok).
    + cbn. rewrite !upd_same. apply (po_high _ _ _ Hok).
    + cbn. rewrite !upd_same. exact Hm.
Qed.

Lemma lock_service_from : forall c id o s s' e f, kinv cfg s -> is_proc cfg c ->
  lock_service cfg c id o s = Some (s', e, f) -> from s s'.
Proof.
  intros c id o s s' e f I Hc H. unfold lock_service in H. cbv zeta in H.
  assert (P : forall ob th k, lock_upd (k_cur s c) (k_th s) th ->
     from s (set_k_k (upd (k_k s) (k_cur s c) k) (set_k_th th (set_k_obj (upd (k_obj s) id ob) s)))).
  { intros ob th k Hl. apply lock_upd_from with (k_cur s c). exact Hl. }
  assert (K : forall ob th k, kinv cfg (set_k_k (upd (k_k s) (k_cur s c) k) (set_k_th th (set_k_obj (upd (k_obj s) id ob) s)))).
  { intros. kframe I. }
  destruct o.
  - destruct (obj_lock _ _ _ _ _ _) as [[[ob th] [e1|d]]|] eqn:E; [| |discriminate]; apply obj_lock_upd in E.
    + injection H as <- _ _. now apply P.
    + eapply then_sched_from; [| | |exact H]; auto.
  - destruct (obj_unlock _ _ _) as [[[[ob th] e1] [w|]]|] eqn:E; [| |discriminate]; apply obj_unlock_upd in E; apply (wake_lock (k_cur s c)) in E.
    + destruct (schedule_one_proc _ _ _ _) as [s1|] eqn:G; [|discriminate]. injection H as <- _ _.
      eapply schedule_one_from; [| | |exact G]; auto.
    + injection H as <- _ _. now apply P.
  - destruct (obj_eventwait _ _ _ _ _ _) as [[[ob th] [e1|d]]|] eqn:E; [| |discriminate]; apply obj_eventwait_upd in E.
    + injection H as <- _ _. now apply P.
    + eapply then_sched_from; [| | |exact H]; auto.
  - destruct (obj_eventsignal _ _ _) as [[[ob th] e1] [w|]] eqn:E; apply obj_eventsignal_upd in E; apply (wake_lock (k_cur s c)) in E.
    + destruct (schedule_one_proc _ _ _ _) as [s1|] eqn:G; [|discriminate]. injection H as <- _ _.
      eapply schedule_one_from; [| | |exact G]; auto.
    + injection H as <- _ _. now apply P.
  - destruct (obj_eventbroadcast _ _ _) as [[[[ob th] e1] [|]]|] eqn:E; [| |discriminate]; apply obj_eventbroadcast_upd in E; apply (wake_lock (k_cur s c)) in E.
    + unfold schedule_every_proc in H. destruct (sched_thread _ _ _) as [s1|] eqn:G; [|discriminate]. injection H as <- _ _.
      eapply (then_sched_from c s _ 0 s1 0 NoFlush (K ob th KUser) Hc (P ob th KUser E)). unfold then_sched. now rewrite G.
    + injection H as <- _ _. now apply P.
Qed.

Lemma lock_continue_from : forall c s s' e f, kinv cfg s -> is_proc cfg c ->
  lock_continue cfg c s = Some (s', e, f) -> from s s'.
Proof.
  intros c s s' e f I Hc H.
  destruct (lock_continue_phase cfg c s s' e f 0 0 None I Hc H) as (s1 & ph & Hph & I1 & B1 & B2 & B3 & _).
  assert (F : from s s1). { apply lock_upd_from with (k_cur s c). intros t. apply (B3 t). intros []. }
  destruct ph; cbn in Hph.
  - now subst s'.
  - apply (then_sched_from c s s1 0 s' 0 NoFlush I1 Hc F). unfold then_sched. now rewrite Hph.
  - destruct Hph as (f1 & Hph). apply (then_global_from c s s1 0 s' 0 f1 I1 Hc F). unfold then_global. now rewrite Hph.
Qed.

Lemma service_from : forall c v s s' e f id, kinv cfg s -> is_proc cfg c ->
  service cfg c v s = Some (s', e, f, id) -> from s s'.
Proof.
  intros c v s s' e f id I Hc H. unfold service in H. cbv zeta in H.
  pose proof (ki_cp _ _ I) as Hcp.
  assert (Hr : forall s1 e1 s2 e2 f2, from s s1 -> ret s1 e1 = Some (s2, e2, f2) -> from s s2).
  { intros s1 e1 s2 e2 f2 F R. injection R as <- _ _. exact F. }
  assert (F0 : from s s) by now apply from_refl.
  destruct v.
  - destruct (thread_create _ _ _ _) as [[[s1 e1] i1]|] eqn:E; [|discriminate]. injection H as <- _ _ _.
    apply thread_create_from in E; [assumption|]. intros. apply TU_init, typed_twice.
  - inv_no H. eapply then_sched_from; [| | |exact E]; [now apply kinv_th|assumption|]. apply from_on. intros t. ts.
  - inv_no H. eapply then_sched_from; [| | |exact E]; [now apply kinv_th|assumption|]. apply from_on. intros t. ts.
  - inv_no H. eapply then_sched_from; [| | |exact E]; [now apply kinv_th|assumption|]. apply from_on. intros t. ts.
  - inv_no H. eapply then_sched_from; [| | |exact E]; [now apply kinv_th|assumption|]. apply from_on. intros t. ts.
  - destruct (in_bounds s id0); [destruct (get_proc_partition_id _ _); [|discriminate]|]; inv_no H; eapply Hr; [|exact E| |exact E]; assumption.
  - destruct (in_bounds s id0); [|inv_no H; eapply Hr; [|exact E]; assumption].
    assert (F1 : from s (on_th id0 (delayed_start_thread (p_mode (k_part s (t_partition (k_th s id0)))) (k_now s) (us * 1000)) s)).
    { apply from_on. intros t. apply delayed_ts. }
    destruct (_ && _); inv_no H.
    + eapply then_global_from; [| | |exact E]; [now apply kinv_th|assumption|assumption].
    + eapply Hr; [|exact E]; assumption.
  - destruct (in_bounds s id0); inv_no H; [|eapply Hr; [|exact E]; assumption].
    eapply then_global_from; [| | |exact E]; [now apply kinv_th|assumption|]. apply from_on. intros t. ts.
  - destruct (in_bounds s id0); inv_no H; [|eapply Hr; [|exact E]; assumption].
    eapply then_global_from; [| | |exact E]; [now apply kinv_th|assumption|]. apply from_on. intros t. ts.
  - destruct (_ && _); inv_no H; eapply Hr; [|exact E| |exact E]; [|assumption]. apply from_on. intros t. ts.
  - destruct (negb _); [inv_no H; eapply Hr; [|exact E]; assumption|].
    destruct (in_bounds s _); inv_no H; [|eapply Hr; [|exact E]; assumption].
    eapply then_global_from; [| | |exact E]; [unfold thread_restart; kframe I|assumption|].
    unfold thread_restart. match goal with |- context [on_th ?i ?g s] => apply from_trans with (on_th i g s) end; [|now apply from_refl].
    apply from_on. intros t. apply ts_trans with (set_t_remaining (t_capacity t) t); ts.
  - destruct (negb _); [inv_no H; eapply Hr; [|exact E]; assumption|].
    destruct (in_bounds s _); inv_no H; [|eapply Hr; [|exact E]; assumption].
    eapply then_global_from; [| | |exact E]; [now apply kinv_th|assumption|]. apply from_on. intros t. ts.
  - inv_no H. unfold set_mode_current in E. destruct (_ && _); [eapply Hr; [|exact E]; assumption|]. now apply set_mode_from in E.
  - destruct (thread_create _ _ _ _) as [[[s1 e1] i1]|] eqn:E; [|discriminate].
    destruct (e1 =? ERR_OK); [|discriminate]. injection H as <- _ _ _.
    apply thread_create_from in E; [|intros; apply TU_init, typed_twice].
    apply from_trans with s1; [assumption|]. apply from_trans with (on_part (k_cp s1) (set_p_error i1) s1); [now apply from_refl|apply activate_from].
  - inv_no H. eapply Hr; [|exact E]. apply activate_from.
  - destruct (lockobj_create s a) as [[s1 e1] i1] eqn:E. injection H as <- _ _ _.
    unfold lockobj_create in E. destruct (_ && _). { injection E as <- _ _. assumption. }
    destruct (find_free _ _ _). 2:{ injection E as <- _ _. assumption. }
    destruct (obj_create _ _). injection E as <- _ _. now apply from_refl.
  - inv_no H. unfold lock_wrapper in E.
    destruct (_ <? _); [eapply Hr; [|exact E]; assumption|]. destruct (_ <=? _); [eapply Hr; [|exact E]; assumption|].
    destruct (negb _); [eapply Hr; [|exact E]; assumption|]. destruct o; [|eapply Hr; [|exact E]; assumption].
    eapply lock_service_from; eassumption.
Qed.

Lemma kstep_from : forall s l s' ev, kinv cfg s -> kstep cfg s l = KNext s' ev -> from s s'.
Proof.
  intros s l s' ev I H. destruct l as [d|c|c|c v|c]; cbn in H.
  - destruct (0 <? d); [|discriminate]. injection H as <- _. now apply from_refl.
  - destruct (valid_proc cfg c) eqn:V; [|discriminate]. apply valid_proc_is in V.
    destruct (global_sched cfg c s) as [[s1 f]|] eqn:G; [|discriminate]. injection H as <- _.
    apply from_each. apply global_ts with c f; [now apply kinv_half|assumption|assumption].
  - destruct (valid_proc cfg c) eqn:V; [|discriminate]. apply valid_proc_is in V.
    destruct (sched_thread cfg c s) as [s1|] eqn:G; [|discriminate]. injection H as <- _.
    apply from_each. apply elected_ts with c; [now apply kinv_half|assumption|now apply sched_thread_elected].
  - destruct (valid_proc cfg c) eqn:V; [|discriminate]. apply valid_proc_is in V.
    destruct (_ && _); [|discriminate]. destruct (service cfg c v s) as [[[[s1 e] f] id]|] eqn:G; [|discriminate].
    injection H as <- _. eapply service_from; eassumption.
  - destruct (valid_proc cfg c) eqn:V; [|discriminate]. apply valid_proc_is in V.
    destruct (_ && _); [|discriminate]. destruct (lock_continue cfg c s) as [[[s1 e] f]|] eqn:G; [|discriminate].
    injection H as <- _. eapply lock_continue_from; eassumption.
Qed.

Lemma init_partitions_from : forall n i ti li s s', init_partitions n cfg i ti li s = Some s' -> from s s'.
Proof.
  induction n as [|n IH]; intros i ti li s s' H; cbn [init_partitions] in H; [injection H as <-; now apply from_refl|].
  destruct (init_partition cfg i ti li s) as [s1|] eqn:E; [|discriminate]. apply IH in H.
  apply from_trans with s1; [|assumption].
  unfold init_partition in E. destruct (get_proc_real_id _ _); [|discriminate].
  match type of E with setup_main_thread _ _ ?x = _ => apply from_trans with x; [now apply from_refl|]; set (sb := x) in * end.
  unfold setup_main_thread in E. destruct (thread_create _ _ _ _) as [[[s2 e] id]|] eqn:T; [|discriminate]. injection E as <-.
  apply from_trans with s2; [|now apply from_refl]. apply thread_create_from in T; [assumption|]. intros. apply TU_main.
Qed.

(** A property of threads that holds of cleared storage and that the elementary updates keep holds in every
    reachable state. *)
Lemma reachable_threads : forall P : thread -> Prop,
  P zero_thread -> (forall t, P t -> P (reset_thread t)) -> (forall i t, P t -> P (idle_thread i t)) ->
  (forall t t', tupd t t' -> P t -> P t') ->
  forall s, reachable cfg s -> forall t, P (k_th s t).
Proof.
  intros P H0 Hreset Hidle Hupd.
  assert (Hstar : forall t t', tstar t t' -> P t -> P t').
  { intros t t' H. apply clos_rt_rt1n in H. induction H as [|x y z Hxy _ IH]; [auto|]. intros Hx. apply IH. now apply Hupd with x. }
  refine (reachable_ind_inv cfg W (fun s => forall t, P (k_th s t)) _ _).
  - intros s H t. unfold kboot in H. destruct (init_partitions _ _ _ _ _ _) as [s1|] eqn:E; [|discriminate].
    injection H as <-. cbn.
    assert (G : P (k_th s1 t)) by (destruct (init_partitions_from _ _ _ _ _ _ E t) as (t0 & G); now apply Hstar with zero_thread).
    destruct (_ && _); auto.
  - intros s l s' ev I Hp H t. destruct (kstep_from s l s' ev I H t) as (t0 & H0'). now apply Hstar with (k_th s t0).
Qed.
End From.
