(** Threads in the wait queues of lock objects belong to the partition of the object. *)
From Verif Require Import Model.Base Model.State Model.LockFifo Model.LockObj Model.LockSys Model.Sched Model.Kernel
  Spec.LockSpec Spec.SchedSpec Spec.KernelSpec Proof.Tac Proof.LockFifoProof Proof.SchedProof Proof.KernelBasic Proof.ClockProof
  Proof.KernelInv Proof.ElectProof Proof.ServiceProof Proof.PlaceProof Proof.PartStep Proof.ObjStep.

Section Members.
Variable P : Z -> Prop.
Variable n : Z.
Hypothesis Hn : 0 < n.

Definition members (f : fifo) : Prop := exists l, repr n f l /\ Forall P l.

Lemma members_init : forall f, members (fifo_init f).
Proof. intros f. exists []. split; [now apply repr_init|constructor]. Qed.

Lemma insert_forall : forall prio t l, P t -> Forall P l -> Forall P (insert_prio prio t l).
Proof.
  intros prio t l Ht. induction l as [|x l IH]; intros H; cbn; [now repeat constructor|].
  inversion H; subst. destruct (_ <=? _); constructor; auto.
Qed.
Lemma leave_forall : forall t l, Forall P l -> Forall P (leave t l).
Proof.
  intros t l. induction l as [|x l IH]; intros H; cbn; [constructor|]. inversion H; subst.
  destruct (x =? t); [assumption|constructor; auto].
Qed.

Lemma repr_full : forall f l, repr n f l -> length l = Z.to_nat n -> f_last f = f_head f /\ f_empty f = false.
Proof.
  intros f l (_ & Hh & _ & Hl & He & _) Hlen. split.
  - rewrite Hl, Hlen. unfold pos. rewrite Z2Nat.id by lia. rewrite <- (Z.mul_1_l n) at 1. rewrite Z_mod_plus_full. apply Z.mod_small. lia.
  - rewrite He. destruct l; [cbn in Hlen; lia|reflexivity].
Qed.

Lemma members_enqueue : forall prio f t d f' e, fifo_enqueue n prio f t d = Some (f', e) -> P t -> members f -> members f'.
Proof.
  intros prio f t d f' e H Ht (l & Hr & Hl). pose proof Hr as (_ & Hh & Hlen & _).
  destruct (Nat.eq_dec (length l) (Z.to_nat n)) as [Hfull|Hne].
  - destruct (repr_full f l Hr Hfull) as (E1 & E2). unfold fifo_enqueue in H.
    destruct (d =? QD_FIFO). { rewrite E2, E1, Z.eqb_refl in H. cbn in H. injection H as <- _. now exists l. }
    destruct (d =? QD_PRIORITY). 2:{ injection H as <- _. now exists l. }
    cbn [prio_scan] in H. rewrite E1, Z.eqb_refl in H. cbn [negb andb shift_back] in H. rewrite Z.eqb_refl in H. injection H as <- _.
    exists [t]. split; [|now repeat constructor]. unfold repr. cbn [f_head f_last f_empty f_buf length].
    split; [assumption|]. split; [assumption|]. split; [lia|]. split.
    { unfold nxt, pos. reflexivity. }
    split; [reflexivity|]. intros k Hk. assert (k = 0%nat) as -> by lia. rewrite pos_0 by lia. cbn. now rewrite upd_same.
  - assert (Hlt : (length l < Z.to_nat n)%nat) by lia.
    destruct (Z.eqb_spec d QD_FIFO) as [->|N1].
    + destruct (repr_enqueue_fifo n prio f l t Hr Hlt) as (g & E & Hg). rewrite E in H. injection H as <- _.
      exists (l ++ [t]). split; [assumption|]. apply Forall_app. split; [assumption|now repeat constructor].
    + destruct (Z.eqb_spec d QD_PRIORITY) as [->|N2].
      * destruct (repr_enqueue_prio n prio f l t Hr Hlt) as (g & E & Hg). rewrite E in H. injection H as <- _.
        exists (insert_prio prio t l). split; [assumption|now apply insert_forall].
      * unfold fifo_enqueue in H. apply Z.eqb_neq in N1, N2. rewrite N1, N2 in H. injection H as <- _. now exists l.
Qed.

Lemma members_dequeue : forall f, members f -> members (fst (fifo_dequeue n f)) /\ (f_empty f = false -> P (fifo_get_head f)).
Proof.
  intros f (l & Hr & Hl). destruct l as [|x l].
  - rewrite (repr_dequeue_empty n f Hr). split; [now exists []|]. intros He.
    exfalso. pose proof Hr as (_ & _ & _ & _ & E & _). congruence.
  - destruct (repr_dequeue n f x l Hr) as (g & E & Hg & _). rewrite E. inversion Hl; subst. split; [now exists l|].
    intros _. rewrite (repr_head n f x l Hr). assumption.
Qed.

Lemma members_remove : forall f t f' e, fifo_remove n f t = Some (f', e) -> members f -> members f'.
Proof.
  intros f t f' e H (l & Hr & Hl). destruct (repr_remove n f l t Hr) as (g & r & E & Hg & _). rewrite E in H. injection H as <- _.
  exists (leave t l). split; [assumption|now apply leave_forall].
Qed.

(** ** Objects *)
Definition objq (o : lockobj) : Prop := o_init o = true -> members (o_fifo o) /\ members (o_event o).
Definition outside (th th' : Z -> thread) : Prop := forall t, ~ P t -> th' t = th t.
Lemma outside_refl : forall th, outside th th.
Proof. now intros th t _. Qed.
Lemma outside_one : forall th th' w, outside th th' -> P w -> outside th (sched_unlock_thread th' w).
Proof.
  intros th th' w H Hw t Ht. unfold sched_unlock_thread, set_state, upd. destruct (Z.eqb_spec t w) as [->|]; [contradiction|now apply H].
Qed.
Lemma outside_block : forall th th' cur d, outside th th' -> P cur -> outside th (block_current th' cur d).
Proof.
  intros th th' cur d H Hc t Ht. unfold block_current, sched_lock_current_timed, sched_lock_current, set_state, upd.
  destruct (0 <? d); destruct (Z.eqb_spec t cur) as [->|]; try contradiction; now apply H.
Qed.

Lemma objq_lock : forall now cur o th tmo o' th' r, obj_lock n now cur o th tmo = Done (o', th', r) -> P cur -> objq o ->
  objq o' /\ outside th th'.
Proof.
  intros now cur o th tmo o' th' r H Hc Hq. unfold obj_lock in H.
  destruct (o_init o) eqn:Ei; cbn [negb] in H. 2:{ injection H as <- <- _. split; [assumption|apply outside_refl]. }
  destruct (Hq Ei) as (M1 & M2).
  destruct (0 <? o_value o). { destruct (fifo_is_empty _); [|discriminate]. injection H as <- <- _. split; [now intros _|apply outside_refl]. }
  destruct (fifo_enqueue _ _ _ _ _) as [[f e]|] eqn:E; [|discriminate]. injection H as <- <- _.
  split. { intros _. split; [|exact M2]. now apply members_enqueue in E. }
  apply outside_block; [apply outside_refl|assumption].
Qed.
Lemma objq_lock_resume : forall now cur o d o' e, obj_lock_resume n now cur o d = Done (o', e) -> objq o -> objq o'.
Proof.
  intros now cur o d o' e H Hq. unfold obj_lock_resume in H. destruct (_ && _); [|now injection H as <- _].
  destruct (fifo_remove _ _ _) as [[f r]|] eqn:E; [|discriminate]. injection H as <- _. intros Hi. destruct (Hq Hi) as (M1 & M2).
  split; [|exact M2]. now apply members_remove in E.
Qed.
Lemma objq_unlock : forall o th o' th' e w, obj_unlock n o th = Done (o', th', e, w) -> objq o -> objq o' /\ outside th th'.
Proof.
  intros o th o' th' e w H Hq. unfold obj_unlock in H.
  destruct (o_init o) eqn:Ei; cbn [negb] in H. 2:{ injection H as <- <- _ _. split; [assumption|apply outside_refl]. }
  destruct (Hq Ei) as (M1 & M2).
  destruct (negb _).
  { destruct (fifo_is_empty _); [|discriminate]. destruct (_ =? _); [destruct (_ <? _)|]; injection H as <- <- _ _;
      (split; [now intros _|apply outside_refl]). }
  destruct (fifo_is_empty (o_fifo o)) eqn:Em. { injection H as <- <- _ _. split; [now intros _|apply outside_refl]. }
  destruct (members_dequeue _ M1) as (D1 & D2). destruct (fifo_dequeue _ _) as [f r]. injection H as <- <- _ _.
  split; [now intros _|]. apply outside_one; [apply outside_refl|now apply D2].
Qed.
Lemma objq_eventwait : forall now cur o th tmo o' th' r, obj_eventwait n now cur o th tmo = Done (o', th', r) -> P cur -> objq o ->
  objq o' /\ outside th th'.
Proof.
  intros now cur o th tmo o' th' r H Hc Hq. unfold obj_eventwait in H.
  destruct (o_init o) eqn:Ei; cbn [negb] in H. 2:{ injection H as <- <- _. split; [assumption|apply outside_refl]. }
  destruct (negb _). { injection H as <- <- _. split; [assumption|apply outside_refl]. }
  destruct (obj_unlock n o th) as [[[[o1 th1] e] w]|] eqn:E; [|discriminate].
  pose proof (obj_unlock_init _ _ _ _ _ _ _ E) as Ei1. destruct (objq_unlock _ _ _ _ _ _ E Hq) as (Q1 & U1).
  destruct (negb _). { injection H as <- <- _. auto. }
  destruct (fifo_enqueue _ _ _ _ _) as [[f er]|] eqn:E2; [|discriminate]. destruct (negb _); [discriminate|]. injection H as <- <- _.
  destruct (Q1 ltac:(congruence)) as (M1 & M2). split; [|now apply outside_block].
  intros _. split; [exact M1|]. now apply members_enqueue in E2.
Qed.
Lemma objq_eventwait_resume : forall now cur o th d o' th' rw r, obj_eventwait_resume n now cur o th d = Done (o', th', rw, r) ->
  P cur -> objq o -> objq o' /\ outside th th'.
Proof.
  intros now cur o th d o' th' rw r H Hc Hq. unfold obj_eventwait_resume in H.
  match type of H with (match ?x with _ => _ end) = _ => destruct x as [[o1 rw1]|] eqn:E; [|discriminate] end.
  assert (Q1 : objq o1).
  { destruct (_ && _); [|injection E as <- _; assumption]. destruct (fifo_remove _ _ _) as [[f e]|] eqn:E1; [|discriminate].
    injection E as <- _. intros Hi. destruct (Hq Hi) as (M1 & M2). split; [exact M1|]. now apply members_remove in E1. }
  destruct (obj_lock n now cur o1 th 0) as [[[o2 th2] [e|d2]]|] eqn:E2; [| |discriminate]; injection H as <- <- _ _;
    now apply objq_lock in E2.
Qed.
Lemma objq_signal : forall o th o' th' e w, obj_eventsignal n o th = (o', th', e, w) -> objq o ->
  objq o' /\ (o_init o = true -> outside th th').
Proof.
  intros o th o' th' e w H Hq. unfold obj_eventsignal in H.
  destruct (fifo_is_empty (o_event o)) eqn:Em. { injection H as <- <- _ _. split; [assumption|intros; apply outside_refl]. }
  destruct (fifo_dequeue n (o_event o)) as [f r] eqn:E. injection H as <- <- _ _.
  assert (Hm : o_init o = true -> members f /\ P (fifo_get_head (o_event o))).
  { intros Hi. destruct (Hq Hi) as (_ & M2). destruct (members_dequeue _ M2) as (D1 & D2). rewrite E in D1. split; [exact D1|now apply D2]. }
  split. { intros Hi. split; [apply (Hq Hi)|]. apply (Hm Hi). }
  intros Hi. apply outside_one; [apply outside_refl|apply (Hm Hi)].
Qed.
Lemma broadcast_members : forall fuel f th0 th f' th', broadcast_loop fuel n f th = Some (f', th') -> members f -> outside th0 th ->
  members f' /\ outside th0 th'.
Proof.
  induction fuel as [|k IH]; intros f th0 th f' th' H M U; cbn in H; [discriminate|].
  destruct (fifo_is_empty f) eqn:Em. { injection H as <- <-. auto. }
  destruct (members_dequeue _ M) as (D1 & D2). apply (IH _ th0 _ _ _ H D1). apply outside_one; [assumption|now apply D2].
Qed.
Lemma objq_broadcast : forall o th o' th' e b, obj_eventbroadcast n o th = Done (o', th', e, b) -> objq o ->
  objq o' /\ (o_init o = true -> outside th th').
Proof.
  intros o th o' th' e b H Hq. unfold obj_eventbroadcast in H. destruct (broadcast_loop _ _ _ _) as [[f th1]|] eqn:E; [|discriminate].
  injection H as <- <- _ _.
  assert (Hm : o_init o = true -> members f /\ outside th th1).
  { intros Hi. destruct (Hq Hi) as (_ & M2). apply (broadcast_members _ _ th _ _ _ E M2 (outside_refl th)). }
  split; [|intros Hi; apply (Hm Hi)]. intros Hi. split; [apply (Hq Hi)|]. apply (Hm Hi).
Qed.

(** Signals on an object that was not created. *)
Definition blind (o : lockobj) (op : lop) : Prop := o_init o = false /\ (op = OpSignal \/ op = OpBroadcast).
Lemma objq_did : forall now cur o th op o' th', did n now cur o th op o' th' -> P cur -> objq o ->
  objq o' /\ (~ blind o op -> outside th th').
Proof.
  intros now cur o th op o' th' H Hc Hq. destruct H.
  - destruct (objq_lock _ _ _ _ _ _ _ _ H Hc Hq). auto.
  - destruct (objq_unlock _ _ _ _ _ _ H Hq). auto.
  - destruct (objq_eventwait _ _ _ _ _ _ _ _ H Hc Hq). auto.
  - destruct (objq_signal _ _ _ _ _ _ H Hq) as (A & B). split; [assumption|]. intros Hb. apply B.
    destruct (o_init o) eqn:Ei; [reflexivity|]. exfalso. apply Hb. split; auto.
  - destruct (objq_broadcast _ _ _ _ _ _ H Hq) as (A & B). split; [assumption|]. intros Hb. apply B.
    destruct (o_init o) eqn:Ei; [reflexivity|]. exfalso. apply Hb. split; auto.
Qed.
Lemma objq_did_then : forall now cur o th o' th', did_then n now cur o th o' th' -> P cur -> objq o -> objq o' /\ outside th th'.
Proof.
  intros now cur o th o' th' H Hc Hq. destruct H.
  - split; [now apply objq_lock_resume in H|apply outside_refl].
  - now apply objq_eventwait_resume in H.
Qed.
End Members.

(** ** The kernel *)
Section Queues.
Variable cfg : config.
Hypothesis W : supported cfg.

(** Only threads in [PF i] wait for objects of partition [i]. *)
Definition wait_in (PF : Z -> Z -> Prop) (s : kstate) : Prop := forall i o, is_part cfg i -> lockobj_of cfg i o ->
  objq (PF i) (c_nthreads cfg) (k_obj s o).
Definition queues (s : kstate) : Prop := wait_in (thread_of cfg) s.

Lemma nthreads_pos : 0 < c_nthreads cfg.
Proof.
  pose proof (sp_total _ W). pose proof (sp_procs _ W). pose proof (sum_to_mono (c_threads cfg) (c_nparts cfg) 0 (c_nparts cfg)).
  pose proof (sp_parts _ W). assert (0 <= sum_to (c_threads cfg) (c_nparts cfg)); [|lia].
  assert (sum_to (c_threads cfg) 0 <= sum_to (c_threads cfg) (c_nparts cfg)).
  { apply H1; try lia. intros i Hi. pose proof (sp_threads _ W i). unfold is_part in *. lia. }
  cbn in *. lia.
Qed.

Lemma queues_put : forall PF c id s ob th k, kinv cfg s -> lockobj_of cfg (k_cp s) id -> wait_in PF s ->
  objq (PF (k_cp s)) (c_nthreads cfg) ob -> wait_in PF (lock_put c id s ob th k).
Proof.
  intros PF c id s ob th k I Hid Q Hob i o Hi Ho. cbn. unfold upd. destruct (Z.eqb_spec o id) as [->|]; [|now apply Q].
  now rewrite (lo_ranges_disjoint cfg W i (k_cp s) id Hi (ki_cp _ _ I) Ho Hid).
Qed.

Lemma wait_in_step : forall PF s l s' ev, kinv cfg s -> own cfg s -> wait_in PF s -> kstep cfg s l = KNext s' ev ->
  (forall c, is_proc cfg c -> thread_of cfg (k_cp s) (k_cur s c) -> PF (k_cp s) (k_cur s c)) -> wait_in PF s'.
Proof.
  intros PF s l s' ev I O Q H HPF. pose proof nthreads_pos as Hn.
  assert (Hsame : k_obj s' = k_obj s -> wait_in PF s') by (intros E i o; rewrite E; apply Q).
  destruct l as [d|c|c|c v|c]; cbn in H.
  - destruct (0 <? d); [|discriminate]. injection H as <- _. now apply Hsame.
  - destruct (valid_proc cfg c) eqn:V; [|discriminate]. apply valid_proc_is in V.
    destruct (global_sched cfg c s) as [[s1 f]|] eqn:G; [|discriminate]. injection H as <- _.
    apply Hsame. apply (phase_keeps cfg W c PhGlobal s s1 I V (ex_intro _ f G)).
  - destruct (valid_proc cfg c) eqn:V; [|discriminate]. apply valid_proc_is in V.
    destruct (sched_thread cfg c s) as [s1|] eqn:G; [|discriminate]. injection H as <- _.
    apply Hsame. apply (phase_keeps cfg W c PhThread s s1 I V G).
  - destruct (valid_proc cfg c) eqn:V; [|discriminate]. apply valid_proc_is in V.
    destruct (user_thread cfg (k_cur s c)) eqn:U; [|discriminate]. destruct (is_user _); [|discriminate]. cbn in H.
    destruct (service cfg c v s) as [[[[s1 e] f] id]|] eqn:G; [|discriminate]. injection H as <- _.
    destruct (service_objs cfg W c v s s1 e f id I O V U G) as (_ & X).
    destruct (caller_is cfg s c I V U) as (Hcall & _).
    destruct v; try (now apply Hsame); cbn in G; clear X.
    + destruct (lockobj_create s a) as [[s2 e2] i2] eqn:E. injection G as <- _ _ _. unfold lockobj_create in E.
      destruct (negb _ && negb _). { injection E as <- _ _. assumption. }
      destruct (find_free _ _ _) as [j|]. 2:{ injection E as <- _ _. assumption. }
      destruct (obj_create (k_obj s j) a) as [o2 e3] eqn:Eo. injection E as <- _ _.
      intros i o Hi Ho. cbn. unfold upd. destruct (Z.eqb_spec o j) as [->|]; [|now apply Q].
      unfold obj_create in Eo. destruct (negb (la_lpol a =? 0) && _ && _). { injection Eo as <- _. now apply Q. }
      destruct (negb _ && _ && _). { injection Eo as <- _. now apply Q. }
      injection Eo as <- _. intros _. cbn. split; apply members_init; assumption.
    + inv_no G. unfold lock_wrapper, cur_part in E. pose proof (ki_part _ _ I _ (ki_cp _ _ I)) as Hok.
      rewrite (po_lo_low _ _ _ Hok), (po_lo_high _ _ _ Hok) in E.
      destruct (Z.ltb_spec id0 (lo_low_of cfg (k_cp s))) as [|L1]. { injection E as <- _ _. assumption. }
      destruct (Z.leb_spec (lo_high_of cfg (k_cp s)) id0) as [|L2]. { injection E as <- _ _. assumption. }
      destruct (negb _). { injection E as <- _ _. assumption. }
      destruct o as [op|]. 2:{ injection E as <- _ _. assumption. }
      assert (Hid : lockobj_of cfg (k_cp s) id0) by (unfold lockobj_of, in_range; lia).
      destruct (lock_service_did cfg c _ op s _ _ _ I V E) as (ob & th & k9 & ph & R & _ & _ & _ & D).
      destruct (objq_did _ _ Hn _ _ _ _ _ _ _ D (HPF c V Hcall) (Q _ _ (ki_cp _ _ I) Hid)) as (Qo & _).
      destruct (phase_keeps cfg W c ph _ _ (lock_put_inv cfg c _ s ob th k9 I) V R) as (_ & Eo & _).
      intros i o Hi Ho. rewrite Eo. now apply (queues_put PF c id0 s ob th k9).
  - destruct (valid_proc cfg c) eqn:V; [|discriminate]. apply valid_proc_is in V.
    destruct (user_thread cfg (k_cur s c)) eqn:U; [|discriminate]. destruct (negb (is_user _)); [|discriminate]. cbn in H.
    destruct (lock_continue cfg c s) as [[[s1 e] f]|] eqn:G; [|discriminate]. injection H as <- _.
    destruct (caller_is cfg s c I V U) as (Hcall & _).
    destruct (lock_continue_did cfg c s s1 e f I V G) as [->|(id & ob & th & k9 & ph & R & _ & Hid & _ & _ & D)]; [assumption|].
    specialize (Hid _ (O _ _ (ki_cp _ _ I) Hcall)).
    destruct (objq_did_then _ _ Hn _ _ _ _ _ _ D (HPF c V Hcall) (Q _ _ (ki_cp _ _ I) Hid)) as (Qo & _).
    destruct (phase_keeps cfg W c ph _ _ (lock_put_inv cfg c _ s ob th k9 I) V R) as (_ & Eo & _).
    intros i o Hi Ho. rewrite Eo. now apply (queues_put PF c id s ob th k9).
Qed.

Lemma queues_step : forall s l s' ev, kinv cfg s -> own cfg s -> queues s -> kstep cfg s l = KNext s' ev -> queues s'.
Proof. intros s l s' ev I O Q H. now apply (wait_in_step (thread_of cfg) s l s' ev). Qed.

Lemma reachable_queues : forall s, reachable cfg s -> queues s.
Proof.
  assert (G : forall s, reachable cfg s -> own cfg s /\ queues s); [|intros s H; now apply G].
  refine (reachable_ind_inv cfg W (fun s => own cfg s /\ queues s) _ _).
  - intros s H. split.
    + intros i t Hi Ht. destruct (kboot_state cfg W s H) as (_ & _ & _ & Hk & _). rewrite Hk. exact Logic.I.
    + intros i o Hi Ho Hc. destruct (kboot_state cfg W s H) as (_ & _ & E & _). rewrite E in Hc. discriminate.
  - intros s l s' ev I (O & Q) H. split; [apply (oo_own _ _ _ (step_objs cfg W s l s' ev I O H))|now apply queues_step with s l ev].
Qed.
End Queues.
