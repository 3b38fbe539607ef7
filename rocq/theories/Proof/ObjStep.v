(** How steps change lock objects, continuations and the threads of other partitions. *)
From Verif Require Import Model.Base Model.State Model.LockFifo Model.LockObj Model.LockSys Model.Sched
  Model.Kernel Spec.SchedSpec Spec.KernelSpec Proof.Tac Proof.SchedProof Proof.KernelBasic Proof.FairProof
  Proof.ClockProof Proof.SlotProof Proof.KernelInv Proof.ElectProof Proof.ServiceProof Proof.PlaceProof
  Proof.ThreadUpd Proof.ChoiceProof Proof.RmsProof Proof.PartStep.

(** ** Operations keep the flag [initialized] *)
Lemma obj_lock_init : forall n now cur o th tmo o' th' out, obj_lock n now cur o th tmo = Done (o', th', out) -> o_init o' = o_init o.
Proof.
  intros n now cur o th tmo o' th' out H. unfold obj_lock in H. destruct (negb _); [injection H as <- _ _; reflexivity|].
  destruct (0 <? _). { destruct (fifo_is_empty _); [|discriminate]. injection H as <- _ _. reflexivity. }
  destruct (fifo_enqueue _ _ _ _ _) as [[f e]|]; [|discriminate]. injection H as <- _ _. reflexivity.
Qed.
Lemma obj_lock_resume_init : forall n now cur o d o' e, obj_lock_resume n now cur o d = Done (o', e) -> o_init o' = o_init o.
Proof.
  intros n now cur o d o' e H. unfold obj_lock_resume in H. destruct (_ && _); [|injection H as <- _; reflexivity].
  destruct (fifo_remove _ _ _) as [[f r]|]; [|discriminate]. injection H as <- _. reflexivity.
Qed.
Lemma obj_unlock_init : forall n o th o' th' e w, obj_unlock n o th = Done (o', th', e, w) -> o_init o' = o_init o.
Proof.
  intros n o th o' th' e w H. unfold obj_unlock in H. destruct (negb (o_init o)); [injection H as <- _ _ _; reflexivity|].
  destruct (negb _).
  { destruct (fifo_is_empty _); [|discriminate]. destruct (_ =? _); [destruct (_ <? _)|]; injection H as <- _ _ _; reflexivity. }
  destruct (fifo_is_empty _); [injection H as <- _ _ _; reflexivity|].
  destruct (fifo_dequeue _ _) as [f r]. injection H as <- _ _ _. reflexivity.
Qed.
Lemma obj_eventwait_init : forall n now cur o th tmo o' th' out, obj_eventwait n now cur o th tmo = Done (o', th', out) -> o_init o' = o_init o.
Proof.
  intros n now cur o th tmo o' th' out H. unfold obj_eventwait in H. destruct (negb (o_init o)); [injection H as <- _ _; reflexivity|].
  destruct (negb _); [injection H as <- _ _; reflexivity|].
  destruct (obj_unlock n o th) as [[[[o1 th1] e] w]|] eqn:E; [|discriminate]. apply obj_unlock_init in E.
  destruct (negb _); [injection H as <- _ _; assumption|].
  destruct (fifo_enqueue _ _ _ _ _) as [[f r]|]; [|discriminate]. destruct (negb _); [discriminate|]. injection H as <- _ _. exact E.
Qed.
Lemma obj_eventwait_resume_init : forall n now cur o th d o' th' rw out,
  obj_eventwait_resume n now cur o th d = Done (o', th', rw, out) -> o_init o' = o_init o.
Proof.
  intros n now cur o th d o' th' rw out H. unfold obj_eventwait_resume in H.
  match type of H with (match ?r with _ => _ end) = _ => destruct r as [[o1 rw1]|] eqn:E; [|discriminate] end.
  assert (E1 : o_init o1 = o_init o).
  { destruct (_ && _); [|injection E as <- _; reflexivity]. destruct (fifo_remove _ _ _) as [[f r]|]; [|discriminate].
    injection E as <- _. reflexivity. }
  destruct (obj_lock n now cur o1 th 0) as [[[o2 th2] [e|d2]]|] eqn:E2; [| |discriminate]; apply obj_lock_init in E2;
    injection H as <- _ _ _; congruence.
Qed.
Lemma obj_eventsignal_init : forall n o th o' th' e w, obj_eventsignal n o th = (o', th', e, w) -> o_init o' = o_init o.
Proof.
  intros n o th o' th' e w H. unfold obj_eventsignal in H. destruct (fifo_is_empty _); [injection H as <- _ _ _; reflexivity|].
  destruct (fifo_dequeue _ _). injection H as <- _ _ _. reflexivity.
Qed.
Lemma obj_eventbroadcast_init : forall n o th o' th' e b, obj_eventbroadcast n o th = Done (o', th', e, b) -> o_init o' = o_init o.
Proof.
  intros n o th o' th' e b H. unfold obj_eventbroadcast in H. destruct (broadcast_loop _ _ _ _) as [[f th1]|]; [|discriminate].
  injection H as <- _ _ _. reflexivity.
Qed.

Section Objs.
Variable cfg : config.
Hypothesis W : supported cfg.

Lemma lo_ranges_disjoint : forall i j o, is_part cfg i -> is_part cfg j -> lockobj_of cfg i o -> lockobj_of cfg j o -> i = j.
Proof.
  intros i j o Hi Hj Hoi Hoj. unfold lockobj_of, in_range, lo_high_of in *.
  assert (Hord : forall a b, is_part cfg a -> is_part cfg b -> a < b -> lo_low_of cfg a + c_lockobjs cfg a <= lo_low_of cfg b).
  { intros a b Ha Hb Hab. unfold lo_low_of, is_part in *. rewrite <- sum_to_succ by lia.
    apply sum_to_mono with (c_nparts cfg); try lia. apply (objs_nonneg cfg W). }
  destruct (Z.lt_trichotomy i j) as [H|[H|H]]; [|assumption|].
  - pose proof (Hord i j Hi Hj H). lia.
  - pose proof (Hord j i Hj Hi H). lia.
Qed.

(** The lock object in which a thread waits belongs to its partition. *)
Definition kont_of (i : Z) (k : kont) : Prop :=
  match k with KLock id _ | KWait id _ | KRelock id _ => lockobj_of cfg i id | _ => True end.
Definition own (s : kstate) : Prop := forall i t, is_part cfg i -> thread_of cfg i t -> kont_of i (k_k s t).

(** The state after a lock-object operation on [id] and before the scheduling. *)
Definition lock_put (c id : Z) (s : kstate) (ob : lockobj) (th : Z -> thread) (k : kont) : kstate :=
  set_k_k (upd (k_k s) (k_cur s c) k) (set_k_th th (set_k_obj (upd (k_obj s) id ob) s)).
Lemma lock_put_inv : forall c id s ob th k, kinv cfg s -> kinv cfg (lock_put c id s ob th k).
Proof. intros c id s ob th k I. unfold lock_put. kframe I. Qed.

(** Which operation was performed on the object. *)
Inductive did (n now cur : Z) (o : lockobj) (th : Z -> thread) : lop -> lockobj -> (Z -> thread) -> Prop :=
| did_lock : forall tmo o' th' r, obj_lock n now cur o th tmo = Done (o', th', r) -> did n now cur o th (OpLock tmo) o' th'
| did_unlock : forall o' th' e w, obj_unlock n o th = Done (o', th', e, w) -> did n now cur o th OpUnlock o' th'
| did_wait : forall tmo o' th' r, obj_eventwait n now cur o th tmo = Done (o', th', r) -> did n now cur o th (OpWait tmo) o' th'
| did_signal : forall o' th' e w, obj_eventsignal n o th = (o', th', e, w) -> did n now cur o th OpSignal o' th'
| did_broadcast : forall o' th' e b, obj_eventbroadcast n o th = Done (o', th', e, b) -> did n now cur o th OpBroadcast o' th'.
Inductive did_then (n now cur : Z) (o : lockobj) (th : Z -> thread) : lockobj -> (Z -> thread) -> Prop :=
| then_lock : forall d o' e, obj_lock_resume n now cur o d = Done (o', e) -> did_then n now cur o th o' th
| then_wait : forall d o' th' rw r, obj_eventwait_resume n now cur o th d = Done (o', th', rw, r) -> did_then n now cur o th o' th'.

Lemma lock_service_did : forall c id o s s' e f, kinv cfg s -> is_proc cfg c -> lock_service cfg c id o s = Some (s', e, f) ->
  exists ob th k ph, run_phase cfg c ph (lock_put c id s ob th k) s' /\ o_init ob = o_init (k_obj s id) /\
    (k = KUser \/ exists d, k = KLock id d \/ k = KWait id d) /\ lock_upd (k_cur s c) (k_th s) th /\
    did (c_nthreads cfg) (k_now s) (k_cur s c) (k_obj s id) (k_th s) o ob th.
Proof.
  intros c id o s s' e f I Hc H. unfold lock_service in H. cbv zeta in H.
  change (fun (ob' : lockobj) (th' : Z -> thread) (k : kont) =>
      set_k_k (upd (k_k s) (k_cur s c) k) (set_k_th th' (set_k_obj (upd (k_obj s) id ob') s)))
    with (fun ob' th' k => lock_put c id s ob' th' k) in H. cbv beta in H.
  assert (Hnone : forall ob th k e0, ret (lock_put c id s ob th k) e0 = Some (s', e, f) ->
    run_phase cfg c PhNone (lock_put c id s ob th k) s').
  { intros ob th k e0 E. unfold ret in E. injection E as <- _ _. reflexivity. }
  assert (Hsch : forall ob th k e0, then_sched cfg c (lock_put c id s ob th k) e0 = Some (s', e, f) ->
    run_phase cfg c PhThread (lock_put c id s ob th k) s').
  { intros ob th k e0 E. unfold then_sched in E. destruct (sched_thread _ _ _) eqn:E1; [|discriminate]. injection E as <- _ _. exact E1. }
  assert (Hone : forall ob th k d s1 e0, schedule_one_proc cfg c d (lock_put c id s ob th k) = Some s1 -> ret s1 e0 = Some (s', e, f) ->
    exists ph, run_phase cfg c ph (lock_put c id s ob th k) s').
  { intros ob th k d s1 e0 E E2. unfold ret in E2. injection E2 as <- _ _. unfold schedule_one_proc in E.
    destruct (1 <? c_nprocs cfg); [destruct (d =? c)|destruct (d =? 0)]; try discriminate.
    - now exists PhThread.
    - injection E as <-. now exists PhNone.
    - now exists PhThread. }
  destruct o.
  - destruct (obj_lock _ _ _ _ _ _) as [[[ob th] [e'|d]]|] eqn:E; [| |discriminate]; pose proof (obj_lock_init _ _ _ _ _ _ _ _ _ E) as Ei; pose proof (did_lock _ _ _ _ _ _ _ _ _ E) as Ed; apply obj_lock_upd in E.
    + exists ob, th, KUser, PhNone. split; [now apply Hnone in H|]. auto.
    + exists ob, th, (KLock id d), PhThread. split; [now apply Hsch in H|]. eauto 10.
  - destruct (obj_unlock _ _ _) as [[[[ob th] e'] [w|]]|] eqn:E; [| |discriminate]; pose proof (obj_unlock_init _ _ _ _ _ _ _ E) as Ei; pose proof (did_unlock _ (k_now s) (k_cur s c) _ _ _ _ _ _ E) as Ed;
      apply obj_unlock_upd in E; apply (wake_lock (k_cur s c)) in E.
    + destruct (schedule_one_proc _ _ _ _) as [s1|] eqn:E1; [|discriminate].
      destruct (Hone _ _ _ _ _ _ E1 H) as (ph & Hph). exists ob, th, KUser, ph. auto.
    + exists ob, th, KUser, PhNone. split; [now apply Hnone in H|]. auto.
  - destruct (obj_eventwait _ _ _ _ _ _) as [[[ob th] [e'|d]]|] eqn:E; [| |discriminate]; pose proof (obj_eventwait_init _ _ _ _ _ _ _ _ _ E) as Ei; pose proof (did_wait _ _ _ _ _ _ _ _ _ E) as Ed; apply obj_eventwait_upd in E.
    + exists ob, th, KUser, PhNone. split; [now apply Hnone in H|]. auto.
    + exists ob, th, (KWait id d), PhThread. split; [now apply Hsch in H|]. eauto 10.
  - destruct (obj_eventsignal _ _ _) as [[[ob th] e'] [w|]] eqn:E; pose proof (obj_eventsignal_init _ _ _ _ _ _ _ E) as Ei; pose proof (did_signal _ (k_now s) (k_cur s c) _ _ _ _ _ _ E) as Ed;
      apply obj_eventsignal_upd in E; apply (wake_lock (k_cur s c)) in E.
    + destruct (schedule_one_proc _ _ _ _) as [s1|] eqn:E1; [|discriminate].
      destruct (Hone _ _ _ _ _ _ E1 H) as (ph & Hph). exists ob, th, KUser, ph. auto.
    + exists ob, th, KUser, PhNone. split; [now apply Hnone in H|]. auto.
  - destruct (obj_eventbroadcast _ _ _) as [[[[ob th] e'] [|]]|] eqn:E; [| |discriminate]; pose proof (obj_eventbroadcast_init _ _ _ _ _ _ _ E) as Ei; pose proof (did_broadcast _ (k_now s) (k_cur s c) _ _ _ _ _ _ E) as Ed;
      apply obj_eventbroadcast_upd in E; apply (wake_lock (k_cur s c)) in E.
    + unfold schedule_every_proc in H. destruct (sched_thread _ _ _) as [s1|] eqn:E1; [|discriminate].
      injection H as <- _ _. exists ob, th, KUser, PhThread. auto.
    + exists ob, th, KUser, PhNone. split; [now apply Hnone in H|]. auto.
Qed.

Lemma lock_service_put : forall c id o s s' e f, kinv cfg s -> is_proc cfg c -> lock_service cfg c id o s = Some (s', e, f) ->
  exists ob th k ph, run_phase cfg c ph (lock_put c id s ob th k) s' /\ o_init ob = o_init (k_obj s id) /\
    (k = KUser \/ exists d, k = KLock id d \/ k = KWait id d) /\ lock_upd (k_cur s c) (k_th s) th.
Proof.
  intros c id o s s' e f I Hc H. destruct (lock_service_did c id o s s' e f I Hc H) as (ob & th & k & ph & A & B & C & D & _).
  exists ob, th, k, ph. auto.
Qed.

Lemma lock_continue_did : forall c s s' e f, kinv cfg s -> is_proc cfg c -> lock_continue cfg c s = Some (s', e, f) ->
  s' = s \/
  exists id ob th k ph, run_phase cfg c ph (lock_put c id s ob th k) s' /\ o_init ob = o_init (k_obj s id) /\
    (forall i, kont_of i (k_k s (k_cur s c)) -> lockobj_of cfg i id) /\
    (k = KUser \/ exists rw, k = KRelock id rw) /\ lock_upd (k_cur s c) (k_th s) th /\
    did_then (c_nthreads cfg) (k_now s) (k_cur s c) (k_obj s id) (k_th s) ob th.
Proof.
  intros c s s' e f I Hc H. unfold lock_continue in H. cbv zeta in H.
  destruct (k_k s (k_cur s c)) as [|id d|id d|id rw|].
  - left. unfold ret in H. injection H as <- _ _. reflexivity.
  - right. destruct (obj_lock_resume _ _ _ _ _) as [[ob e']|] eqn:E; [|discriminate]. pose proof (then_lock _ _ _ _ (k_th s) _ _ _ E) as Ed. apply obj_lock_resume_init in E.
    unfold ret in H. injection H as <- _ _. exists id, ob, (k_th s), KUser, PhNone.
    split; [reflexivity|]. split; [assumption|]. split; [auto|]. split; [now left|]. split; [apply lock_upd_refl|assumption].
  - right. destruct (obj_eventwait_resume _ _ _ _ _ _) as [[[[ob th] rw] [e'|d']]|] eqn:E; [| |discriminate];
      pose proof (obj_eventwait_resume_init _ _ _ _ _ _ _ _ _ _ E) as Ei; pose proof (then_wait _ _ _ _ _ _ _ _ _ _ E) as Ed; apply obj_eventwait_resume_upd in E.
    + unfold ret in H. injection H as <- _ _. exists id, ob, th, KUser, PhNone. split; [reflexivity|]. auto.
    + unfold then_sched in H. destruct (sched_thread _ _ _) as [s1|] eqn:E1; [|discriminate]. injection H as <- _ _.
      exists id, ob, th, (KRelock id rw), PhThread. split; [exact E1|]. eauto 8.
  - right. destruct (obj_lock_resume _ _ _ _ _) as [[ob e']|] eqn:E; [|discriminate]. pose proof (then_lock _ _ _ _ (k_th s) _ _ _ E) as Ed. apply obj_lock_resume_init in E.
    unfold ret in H. injection H as <- _ _. exists id, ob, (k_th s), KUser, PhNone.
    split; [reflexivity|]. split; [assumption|]. split; [auto|]. split; [now left|]. split; [apply lock_upd_refl|assumption].
  - left. unfold ret in H. injection H as <- _ _. reflexivity.
Qed.

Lemma lock_continue_put : forall c s s' e f, kinv cfg s -> is_proc cfg c -> lock_continue cfg c s = Some (s', e, f) ->
  s' = s \/
  exists id ob th k ph, run_phase cfg c ph (lock_put c id s ob th k) s' /\ o_init ob = o_init (k_obj s id) /\
    (forall i, kont_of i (k_k s (k_cur s c)) -> lockobj_of cfg i id) /\
    (k = KUser \/ exists rw, k = KRelock id rw) /\ lock_upd (k_cur s c) (k_th s) th.
Proof.
  intros c s s' e f I Hc H. destruct (lock_continue_did c s s' e f I Hc H) as [->|(id & ob & th & k & ph & A & B & C & D & E & _)]; [now left|].
  right. exists id, ob, th, k, ph. auto.
Qed.

(** ** Objects and continuations *)
Record obj_ok (s s' : kstate) : Prop := {
  oo_own : own s';
  oo_out : forall o, ~ lockobj_of cfg (k_cp s) o -> k_obj s' o = k_obj s o;
  oo_init : forall o, o_init (k_obj s o) = true -> o_init (k_obj s' o) = true
}.
Lemma obj_ok_same : forall s s', own s -> k_obj s' = k_obj s -> k_k s' = k_k s -> obj_ok s s'.
Proof. intros s s' H E1 E2. constructor; rewrite ?E1; auto. unfold own. rewrite E2. exact H. Qed.
Lemma obj_ok_phase : forall s s1 s' c ph, kinv cfg s1 -> is_proc cfg c -> run_phase cfg c ph s1 s' -> obj_ok s s1 -> obj_ok s s'.
Proof.
  intros s s1 s' c ph I Hc H [H1 H2 H3]. destruct (phase_keeps cfg W c ph s1 s' I Hc H) as (_ & E1 & E2).
  constructor; rewrite ?E1; auto. unfold own. rewrite E2. exact H1.
Qed.
Lemma obj_ok_put : forall c id s ob th k, kinv cfg s -> own s -> is_proc cfg c -> user_thread cfg (k_cur s c) = true ->
  lockobj_of cfg (k_cp s) id -> o_init ob = o_init (k_obj s id) -> kont_of (k_cp s) k -> obj_ok s (lock_put c id s ob th k).
Proof.
  intros c id s ob th k I O Hc Hu Hid Hi Hk. constructor; cbn.
  - intros i t Hpi Ht. cbn. unfold upd. destruct (Z.eqb_spec t (k_cur s c)) as [->|]; [|now apply O].
    destruct (caller_is cfg s c I Hc Hu) as (Hcall & _).
    rewrite (ranges_disjoint cfg W i (k_cp s) (k_cur s c) Hpi (ki_cp _ _ I) Ht Hcall). assumption.
  - intros o Ho. apply upd_other. intros ->. contradiction.
  - intros o Ho. unfold upd. destruct (Z.eqb_spec o id) as [->|]; [congruence|assumption].
Qed.

Lemma create_own : forall a pid s s' e id, kinv cfg s -> is_part cfg pid -> own s ->
  thread_create cfg a pid s = Some (s', e, id) -> own s'.
Proof.
  intros a pid s s' e id I Hpid O H i t Hi Ht.
  destruct (Z.eq_dec i pid) as [->|Hne].
  2:{ destruct (thread_create_frame cfg _ _ _ _ _ _ I Hpid H) as (_ & _ & _ & F & _).
      rewrite (proj2 (F t (fun C => Hne (ranges_disjoint cfg W i pid t Hi Hpid Ht C)))). now apply O. }
  pose proof (ki_part _ _ I pid Hpid) as Hok. pose proof (po_index _ _ _ Hok) as Hix.
  destruct (thread_create_cases cfg _ _ _ _ _ _ H) as [(-> & _)|(-> & -> & Hid & _ & th & k & aff & _ & -> & Hth)]; [now apply O|].
  cbn [k_k set_k_k]. cbv zeta in Hth. rewrite (po_low _ _ _ Hok), (po_high _ _ _ Hok) in *.
  set (id := low_of cfg pid + p_index (k_part s pid)) in *.
  assert (Hupd : forall x, thread_of cfg pid x -> kont_of pid (upd (k_k s) id KUser x)).
  { intros x Hx. unfold upd. destruct (x =? id); [exact Logic.I|now apply O]. }
  match type of Hth with if ?b then _ else _ => destruct b end; destruct Hth as (_ & ->).
  - match goal with |- context [sort_threads ?l ?i ?x] => destruct (sort_threads_shape l i x ltac:(lia)) as (pos & Hpos & Hs) end.
    destruct (Hs t) as (_ & ->). cbn [k_k set_k_k]. apply Hupd. unfold thread_of, in_range in *.
    destruct (Z.eqb_spec t pos); [lia|]. destruct (Z.ltb_spec pos t); destruct (Z.leb_spec t id); cbn [andb]; lia.
  - cbn. now apply Hupd.
Qed.

Lemma service_objs : forall c v s s' e f id, kinv cfg s -> own s -> is_proc cfg c -> user_thread cfg (k_cur s c) = true ->
  service cfg c v s = Some (s', e, f, id) ->
  obj_ok s s' /\ match v with SLockCreate _ | SLockOp _ _ _ => True | _ => k_obj s' = k_obj s end.
Proof.
  intros c v s s' e f id I O Hc Hu H. pose proof (ki_cp _ _ I) as Hcp.
  assert (Hph : forall s1 ph, kinv cfg s1 -> run_phase cfg c ph s1 s' -> k_obj s1 = k_obj s -> own s1 -> obj_ok s s' /\ k_obj s' = k_obj s).
  { intros s1 ph I1 Hr E1 O1. split.
    - apply obj_ok_phase with s1 c ph; try assumption. constructor; rewrite ?E1; auto.
    - destruct (phase_keeps cfg W c ph s1 s' I1 Hc Hr) as (_ & E & _). congruence. }
  assert (Hsch : forall t g e0, then_sched cfg c (on_th t g s) e0 = Some (s', e, f) -> obj_ok s s' /\ k_obj s' = k_obj s).
  { intros t g e0 E. unfold then_sched in E. destruct (sched_thread _ _ _) as [s2|] eqn:E1; [|discriminate]. injection E as <- _ _.
    apply (Hph (on_th t g s) PhThread); [now apply kinv_th|exact E1|reflexivity|exact O]. }
  assert (Hglob : forall s1 e0, kinv cfg s1 -> k_obj s1 = k_obj s -> own s1 -> then_global cfg c s1 e0 = Some (s', e, f) -> obj_ok s s' /\ k_obj s' = k_obj s).
  { intros s1 e0 I1 E1 O1 E. unfold then_global in E. destruct (global_sched _ _ _) as [[s2 f2]|] eqn:E2; [|discriminate]. injection E as <- _ _.
    apply (Hph s1 PhGlobal); [assumption|now exists f2|assumption|assumption]. }
  assert (Hsame : forall s1, k_obj s1 = k_obj s -> k_k s1 = k_k s -> s' = s1 -> obj_ok s s' /\ k_obj s' = k_obj s).
  { intros s1 E1 E2 ->. split; [now apply obj_ok_same|assumption]. }
  destruct v; unfold service in H; cbv zeta in H.
  - destruct (thread_create _ _ _ _) as [[[s1 e1] i1]|] eqn:E; [|discriminate]. injection H as <- _ _ _.
    destruct (thread_create_frame cfg _ _ _ _ _ _ I Hcp E) as (_ & E2 & _).
    split; [|assumption]. constructor; rewrite ?E2; auto. now apply create_own in E.
  - inv_no H. now apply Hsch in E.
  - inv_no H. now apply Hsch in E.
  - inv_no H. now apply Hsch in E.
  - inv_no H. now apply Hsch in E.
  - destruct (in_bounds s id0).
    + destruct (get_proc_partition_id _ _); [|discriminate]. inv_no H. injection E as <- _ _. now apply Hsame with s.
    + inv_no H. injection E as <- _ _. now apply Hsame with s.
  - destruct (in_bounds s id0).
    + destruct (_ && _).
      * inv_no H. apply Hglob in E; [assumption|now apply kinv_th|reflexivity|exact O].
      * inv_no H. injection E as <- _ _. (eapply Hsame; [| |reflexivity]; reflexivity).
    + inv_no H. injection E as <- _ _. now apply Hsame with s.
  - destruct (in_bounds s id0); inv_no H.
    + apply Hglob in E; [assumption|now apply kinv_th|reflexivity|exact O].
    + injection E as <- _ _. now apply Hsame with s.
  - destruct (in_bounds s id0); inv_no H.
    + apply Hglob in E; [assumption|now apply kinv_th|reflexivity|exact O].
    + injection E as <- _ _. now apply Hsame with s.
  - destruct (_ && _); inv_no H; injection E as <- _ _; (eapply Hsame; [| |reflexivity]; reflexivity).
  - destruct (negb _); [inv_no H; injection E as <- _ _; now apply Hsame with s|].
    destruct (in_bounds _ _); inv_no H.
    + apply Hglob in E; [assumption| |reflexivity|].
      * unfold thread_restart. kframe I.
      * intros i t Hi Ht. cbn. unfold upd. destruct (_ =? _); [exact Logic.I|now apply O].
    + injection E as <- _ _. now apply Hsame with s.
  - destruct (negb _); [inv_no H; injection E as <- _ _; now apply Hsame with s|].
    destruct (in_bounds _ _); inv_no H.
    + apply Hglob in E; [assumption|now apply kinv_th|reflexivity|exact O].
    + injection E as <- _ _. now apply Hsame with s.
  - inv_no H. unfold set_mode_current in E. destruct (_ && _); [injection E as <- _ _; now apply Hsame with s|].
    unfold set_mode in E.
    assert (Hpm : forall m, known_mode m -> kinv cfg (on_part (k_cp s) (set_p_mode m) s)).
    { intros m Hm. apply kinv_part; [assumption|]. intros Hpp. apply set_mode_ok; [|assumption]. now apply (ki_part _ _ I). }
    destruct (Z.eqb_spec mode PM_NORMAL) as [->|].
    { destruct (_ =? PM_IDLE); [injection E as <- _ _; now apply Hsame with s|]. destruct (negb _); [injection E as <- _ _; now apply Hsame with s|].
      apply Hglob in E; [assumption| |reflexivity|exact O]. do 2 apply kinv_th. apply Hpm. unfold known_mode. auto. }
    destruct (Z.eqb_spec mode PM_STOPPED) as [->|].
    { destruct (_ || _); [injection E as <- _ _; now apply Hsame with s|]. apply Hglob in E; [assumption| |reflexivity|exact O].
      apply Hpm. unfold known_mode. auto. }
    destruct ((mode =? PM_WARM) || (mode =? PM_COLD)) eqn:B; [|injection E as <- _ _; now apply Hsame with s].
    assert (Hm : mode = PM_COLD \/ mode = PM_WARM) by (rewrite orb_true_iff, !Z.eqb_eq in B; tauto). clear B.
    destruct (_ && _); [injection E as <- _ _; now apply Hsame with s|]. destruct (_ || _); [injection E as <- _ _; now apply Hsame with s|].
    destruct (partition_reinit _ _ _ _) as [s1|] eqn:R; [|discriminate].
    pose proof R as R0. apply (reinit_inv cfg W) in R0; try assumption.
    2:{ apply Hpm. unfold known_mode. tauto. }
    2:{ cbn. rewrite upd_same. exact Hm. }
    destruct R0 as (I1 & _ & _ & Eo & _). apply Hglob in E; [assumption|assumption|exact Eo|].
    unfold partition_reinit, setup_main_thread in R. cbn [k_part on_part set_k_part] in R.
    destruct (thread_create _ _ _ _) as [[[s2 e2] i2]|] eqn:T; [|discriminate]. injection R as <-.
    intros i t Hi Ht. cbn [k_k on_part set_k_part].
    destruct (thread_create_cases cfg _ _ _ _ _ _ T) as [(-> & _)|(-> & -> & Hid & _ & th9 & k9 & aff9 & _ & -> & Hth)]; [now apply O|].
    pose proof (ki_part _ _ I _ Hcp) as Hok. cbn [k_part on_part set_k_part k_k set_k_k on_th set_k_th k_th] in Hth |- *.
    rewrite !upd_same in Hth. cbn in Hth. cbv zeta in Hth. rewrite (po_low _ _ _ Hok), Z.add_0_r, Z.ltb_irrefl, andb_false_r in Hth.
    destruct Hth as (_ & ->). unfold upd. destruct (_ =? _); [exact Logic.I|now apply O].
  - destruct (thread_create _ _ _ _) as [[[s1 e1] i1]|] eqn:E; [|discriminate].
    destruct (e1 =? ERR_OK); [|discriminate]. injection H as <- _ _ _.
    destruct (thread_create_frame cfg _ _ _ _ _ _ I Hcp E) as (_ & E2 & _). apply create_own in E; try assumption.
    assert (Ex : k_obj (activate_error_thread c (on_part (k_cp s1) (set_p_error i1) s1)) = k_obj s1 /\
                 k_k (activate_error_thread c (on_part (k_cp s1) (set_p_error i1) s1)) = k_k s1)
      by (unfold activate_error_thread; destruct (_ =? 0); split; reflexivity).
    destruct Ex as (X1 & X2). split; [|congruence]. constructor; rewrite ?X1, ?E2; auto. unfold own. rewrite X2. exact E.
  - inv_no H. injection E as <- _ _. eapply Hsame; [| |reflexivity]; unfold activate_error_thread; destruct (_ =? 0); reflexivity.
  - destruct (lockobj_create s a) as [[s1 e1] i1] eqn:E. injection H as <- _ _ _. split; [|exact Logic.I].
    unfold lockobj_create in E. destruct (_ && _); [injection E as <- _ _; now apply obj_ok_same|].
    destruct (find_free _ _ _) as [j|] eqn:F; [|injection E as <- _ _; now apply obj_ok_same].
    destruct (obj_create (k_obj s j) a) as [ob e2] eqn:C. injection E as <- _ _.
    assert (Hj : lockobj_of cfg (k_cp s) j /\ o_init (k_obj s j) = false).
    { pose proof (ki_part _ _ I _ Hcp) as Hok. unfold cur_part in F. rewrite (po_lo_low _ _ _ Hok), (po_lo_high _ _ _ Hok) in F.
      assert (G : forall n i, find_free n (k_obj s) i = Some j -> i <= j < i + Z.of_nat n /\ o_init (k_obj s j) = false).
      { induction n as [|n IH]; intros i F0; cbn in F0; [discriminate|]. destruct (o_init (k_obj s i)) eqn:Ei; cbn in F0.
        - apply IH in F0. lia || (split; [lia|apply F0]).
        - injection F0 as <-. split; [lia|assumption]. }
      apply G in F. unfold lockobj_of, in_range. pose proof (sp_objs cfg W _ Hcp). unfold lo_high_of in *. split; [lia|apply F]. }
    destruct Hj as (Hj & Hj2). constructor; cbn.
    + exact O.
    + intros o Ho. apply upd_other. intros ->. contradiction.
    + intros o Ho. unfold upd. destruct (Z.eqb_spec o j) as [->|]; [congruence|assumption].
  - inv_no H. split; [|exact Logic.I]. unfold lock_wrapper in E.
    pose proof (ki_part _ _ I _ Hcp) as Hok. unfold cur_part in E. rewrite (po_lo_low _ _ _ Hok), (po_lo_high _ _ _ Hok) in E.
    destruct (Z.ltb_spec id0 (lo_low_of cfg (k_cp s))); [injection E as <- _ _; now apply obj_ok_same|].
    destruct (Z.leb_spec (lo_high_of cfg (k_cp s)) id0); [injection E as <- _ _; now apply obj_ok_same|].
    destruct (negb _); [injection E as <- _ _; now apply obj_ok_same|].
    destruct o as [op|]; [|injection E as <- _ _; now apply obj_ok_same].
    destruct (lock_service_put _ _ _ _ _ _ _ I Hc E) as (ob & th & k9 & ph & Hr & Hi & Hk & _).
    assert (Hid : lockobj_of cfg (k_cp s) id0) by (unfold lockobj_of, in_range; lia).
    apply obj_ok_phase with (lock_put c id0 s ob th k9) c ph; [now apply lock_put_inv|assumption|assumption|].
    apply obj_ok_put; try assumption. destruct Hk as [->|(d & [->| ->])]; [exact Logic.I|exact Hid|exact Hid].
Qed.

Lemma step_objs : forall s l s' ev, kinv cfg s -> own s -> kstep cfg s l = KNext s' ev -> obj_ok s s'.
Proof.
  intros s l s' ev I O H. destruct l as [d|c|c|c v|c]; cbn in H.
  - destruct (0 <? d); [|discriminate]. injection H as <- _. now apply obj_ok_same.
  - destruct (valid_proc cfg c) eqn:V; [|discriminate]. apply valid_proc_is in V.
    destruct (global_sched cfg c s) as [[s1 f]|] eqn:G; [|discriminate]. injection H as <- _.
    apply obj_ok_phase with s c PhGlobal; [assumption|assumption|now exists f|now apply obj_ok_same].
  - destruct (valid_proc cfg c) eqn:V; [|discriminate]. apply valid_proc_is in V.
    destruct (sched_thread cfg c s) as [s1|] eqn:G; [|discriminate]. injection H as <- _.
    apply obj_ok_phase with s c PhThread; [assumption|assumption|exact G|now apply obj_ok_same].
  - destruct (valid_proc cfg c) eqn:V; [|discriminate]. apply valid_proc_is in V.
    destruct (user_thread cfg (k_cur s c)) eqn:U; [|discriminate]. destruct (is_user _); [|discriminate]. cbn in H.
    destruct (service cfg c v s) as [[[[s1 e] f] id]|] eqn:G; [|discriminate]. injection H as <- _.
    now apply service_objs in G.
  - destruct (valid_proc cfg c) eqn:V; [|discriminate]. apply valid_proc_is in V.
    destruct (user_thread cfg (k_cur s c)) eqn:U; [|discriminate]. destruct (is_user _); [discriminate|]. cbn in H.
    destruct (lock_continue cfg c s) as [[[s1 e] f]|] eqn:G; [|discriminate]. injection H as <- _.
    destruct (lock_continue_put _ _ _ _ _ I V G) as [->|(id & ob & th & k & ph & Hr & Hi & Hid & Hk & _)]; [now apply obj_ok_same|].
    assert (Hid2 : lockobj_of cfg (k_cp s) id).
    { apply Hid. destruct (caller_is cfg s c I V U) as (Hcall & _). apply O; [apply (ki_cp _ _ I)|assumption]. }
    apply obj_ok_phase with (lock_put c id s ob th k) c ph; [now apply lock_put_inv|assumption|assumption|].
    apply obj_ok_put; try assumption. destruct Hk as [->|(rw & ->)]; [exact Logic.I|exact Hid2].
Qed.

Lemma reachable_own : forall s, reachable cfg s -> own s.
Proof.
  refine (reachable_ind_inv cfg W own _ _).
  - intros s H i t Hi Ht. destruct (kboot_state cfg W s H) as (_ & _ & _ & Hk & _). rewrite Hk. exact Logic.I.
  - intros s l s' ev I O H. apply (oo_own _ _ (step_objs s l s' ev I O H)).
Qed.
End Objs.
