(** Which thread can execute on which processor, depending on the mode of the partition. *)
From Verif Require Import Model.Base Model.State Model.LockFifo Model.LockObj Model.LockSys Model.Sched
  Model.Kernel Spec.SchedSpec Spec.KernelSpec Proof.Tac Proof.SchedProof Proof.KernelBasic Proof.FairProof
  Proof.ClockProof Proof.SlotProof Proof.KernelInv Proof.ElectProof Proof.ServiceProof.

Lemma same_end_statics : forall t t', same_end t t' -> statics t' = statics t.
Proof. intros t t' ->. reflexivity. Qed.
Lemma wake_statics : forall timed p now t t', wake timed p now t = Some t' -> statics t' = statics t.
Proof.
  intros timed p now t t' H. unfold wake in H. destruct (_ =? p); [|now injection H as <-].
  destruct (timed && _ && _); cbv zeta in H.
  - destruct (_ && _); [destruct (_ =? 0); [discriminate|]|]; injection H as <-; reflexivity.
  - destruct (_ && _); [destruct (_ =? 0); [discriminate|]|]; injection H as <-; reflexivity.
Qed.
Lemma charge_statics : forall t, statics (charge t) = statics t.
Proof. intros t. unfold charge. destruct (0 <? t_remaining t); [reflexivity|]. destruct (0 <? t_capacity t); reflexivity. Qed.

Section Place.
Variable cfg : config.
Hypothesis W : supported cfg.

Lemma thread_of_dec : forall i t, thread_of cfg i t \/ ~ thread_of cfg i t.
Proof. intros i t. unfold thread_of, in_range. lia. Qed.
Lemma charged_dec : forall c s t, charged cfg c s t \/ ~ charged cfg c s t.
Proof. intros c s t. unfold charged. lia. Qed.

Lemma elected_statics : forall c s s', half cfg s -> is_proc cfg c -> elected cfg c s s' ->
  forall t, statics (k_th s' t) = statics (k_th s t).
Proof.
  intros c s s' Hh Hc He t. destruct (elected_table cfg W c s s' Hh Hc He) as (_ & _ & _ & _ & _ & _ & _ & th1 & th2 & T1 & T2 & T3 & T4).
  rewrite (same_end_statics _ _ (T3 t)).
  assert (E1 : statics (th1 t) = statics (k_th s t)).
  { destruct (thread_of_dec (k_cp s) t) as [H|H]; [|now rewrite T2].
    specialize (T1 t H). now apply wake_statics in T1. }
  rewrite <- E1. destruct T4 as [(_ & _ & C1 & C2 & _)|(-> & _)]; [|reflexivity].
  destruct (charged_dec c s t) as [H|H]; [rewrite C1 by assumption; apply charge_statics|now rewrite C2].
Qed.

(** Thread [t] may execute on processor [c]. *)
Definition may_run (s : kstate) (c t : Z) : Prop :=
  let pt := k_part s (k_cp s) in
  t = kernel_thread cfg \/ t = idle cfg c \/
  ((p_mode pt = PM_COLD \/ p_mode pt = PM_WARM) /\ c = p_main_proc pt /\ (t = low_of cfg (k_cp s) \/ t = p_error pt)) \/
  (p_mode pt = PM_NORMAL /\ (t = p_error pt \/ t_affinity (k_th s t) = c)).
Definition placed (s : kstate) : Prop := forall c, is_proc cfg c -> may_run s c (k_cur s c).

(** Changes that do not matter for [may_run]. *)
Definition unmoved (s s' : kstate) : Prop :=
  k_cp s' = k_cp s /\ (forall t, t_affinity (k_th s' t) = t_affinity (k_th s t)) /\
  p_mode (k_part s' (k_cp s)) = p_mode (k_part s (k_cp s)) /\
  p_error (k_part s' (k_cp s)) = p_error (k_part s (k_cp s)) /\
  p_main_proc (k_part s' (k_cp s)) = p_main_proc (k_part s (k_cp s)).
Lemma may_run_unmoved : forall s s' c t, unmoved s s' -> may_run s c t -> may_run s' c t.
Proof.
  intros s s' c t (E1 & E2 & E3 & E4 & E5) H. unfold may_run in *. rewrite E1, E3, E4, E5, E2. exact H.
Qed.
Lemma elected_unmoved : forall c s s', half cfg s -> is_proc cfg c -> elected cfg c s s' -> unmoved s s'.
Proof.
  intros c s s' Hh Hc He. pose proof (elected_statics c s s' Hh Hc He) as Hs.
  destruct (elected_table cfg W c s s' Hh Hc He) as (E1 & _).
  destruct (elected_parts cfg c s s' He (k_cp s)) as (pv & cu & Ep).
  split; [assumption|]. split; [intros t; specialize (Hs t); unfold statics in Hs; congruence|].
  rewrite Ep. repeat split.
Qed.
Lemma elected_runs : forall c s s', half cfg s -> is_proc cfg c -> elected cfg c s s' -> may_run s' c (k_cur s' c).
Proof.
  intros c s s' Hh Hc He.
  apply may_run_unmoved with s; [now apply elected_unmoved with c|].
  pose proof (elected_statics c s s' Hh Hc He) as Hs.
  destruct (elected_table cfg W c s s' Hh Hc He) as (_ & _ & _ & _ & _ & _ & _ & th1 & th2 & T1 & T2 & T3 & T4).
  destruct Hh as (HP & Hcp & _). destruct (HP _ Hcp) as [Hlow Hhigh Hn _ _ Hmain _ Herr Hmode _ _ Hcur Hprev].
  unfold may_run. destruct T4 as [(Hm & _ & _ & _ & S)|(-> & [(Hm & _ & ->)|[(Hm & ->)|(Hm & ->)]])].
  - destruct (sched_func_ok cfg W _ c th2 _ _ Hcp (Hprev c Hc) (Hcur c Hc)) as (e & E & C). rewrite S in E. injection E as <-.
    destruct C as [->|(_ & _ & Ha)]; [right; now left|]. do 3 right. split; [assumption|]. right.
    assert (E2 : statics (th2 (k_cur s' c)) = statics (k_th s (k_cur s' c))).
    { rewrite <- Hs. symmetry. apply same_end_statics, T3. }
    unfold statics in E2. congruence.
  - do 3 right. auto.
  - destruct (Z.eqb_spec c (p_main_proc (k_part s (k_cp s)))); [|right; now left]. right; right; left. auto.
  - right; now left.
Qed.

Lemma elected_placed : forall c s s', half cfg s -> is_proc cfg c -> elected cfg c s s' -> placed s -> placed s'.
Proof.
  intros c s s' Hh Hc He Hp x Hx. destruct (Z.eq_dec x c) as [->|Hne]; [now apply elected_runs with s|].
  destruct (elected_table cfg W c s s' Hh Hc He) as (_ & _ & _ & _ & _ & Hk & _). rewrite Hk by assumption.
  apply may_run_unmoved with s; [now apply elected_unmoved with c|now apply Hp].
Qed.

(** A global scheduling places everybody anew. *)
Lemma global_sched_placed : forall c s s' f, half cfg s -> is_proc cfg c -> global_sched cfg c s = Some (s', f) -> placed s'.
Proof.
  intros c s s' f Hh Hc H x Hx.
  destruct (global_sched_split cfg W c s s' f Hh Hc H x Hx) as (r & a & b & _ & _ & Ha & HR & Hab).
  pose proof (elected_runs x a b Ha Hx Hab) as Hb.
  destruct (HR (fun s s' => unmoved s s' /\ k_cur s' x = k_cur s x)) as (_ & (U & E)).
  - split; [|split].
    + intros s1 s2 s3 ((A1 & A2 & A3 & A4 & A5) & A6) ((B1 & B2 & B3 & B4 & B5) & B6).
      rewrite A1 in *. repeat split; congruence.
    + intros s1. repeat split.
    + intros d s1 s2 Hh1 Hd Hne Hel. split; [now apply elected_unmoved with d|].
      destruct (elected_table cfg W d s1 s2 Hh1 Hd Hel) as (_ & _ & _ & _ & _ & Hk & _). apply Hk. congruence.
  - rewrite E. now apply may_run_unmoved with b.
Qed.

Lemma placed_frame : forall s s', k_cp s' = k_cp s -> k_cur s' = k_cur s -> k_part s' = k_part s ->
  (forall t, statics (k_th s' t) = statics (k_th s t)) -> placed s -> placed s'.
Proof.
  intros s s' E1 E2 E3 E4 Hp c Hc. rewrite E2. apply may_run_unmoved with s; [|now apply Hp].
  split; [assumption|]. split; [intros t; specialize (E4 t); unfold statics in E4; congruence|].
  rewrite E3. repeat split.
Qed.

(** The caller of a service is a thread of the current partition. *)
Lemma caller_is : forall s c, kinv cfg s -> is_proc cfg c -> user_thread cfg (k_cur s c) = true ->
  thread_of cfg (k_cp s) (k_cur s c) /\ k_cur s c <> kernel_thread cfg /\ k_cur s c <> idle cfg c.
Proof.
  intros s c I Hc Hu. unfold user_thread in Hu. unfold is_proc in Hc.
  assert (H1 : k_cur s c <> kernel_thread cfg) by (unfold kernel_thread; lia).
  assert (H2 : k_cur s c <> idle cfg c) by (unfold idle; lia).
  destruct (ki_cur _ _ I c Hc) as [H|[H|H]]; tauto.
Qed.
Lemma caller_mode : forall s c, kinv cfg s -> placed s -> is_proc cfg c -> user_thread cfg (k_cur s c) = true ->
  let pt := k_part s (k_cp s) in
  (((p_mode pt = PM_COLD \/ p_mode pt = PM_WARM) /\ c = p_main_proc pt /\
    (k_cur s c = low_of cfg (k_cp s) \/ k_cur s c = p_error pt)) \/
   (p_mode pt = PM_NORMAL /\ (k_cur s c = p_error pt \/ t_affinity (k_th s (k_cur s c)) = c))).
Proof.
  intros s c I Hp Hc Hu. destruct (caller_is s c I Hc Hu) as (_ & H1 & H2). specialize (Hp c Hc). unfold may_run in Hp. cbv zeta in *.
  destruct Hp as [H|[H|[H|H]]]; [contradiction|contradiction|now left|now right].
Qed.

Lemma thread_create_part : forall a pid s s' e id, thread_create cfg a pid s = Some (s', e, id) ->
  k_cur s' = k_cur s /\ (e = ERR_OK \/ s' = s) /\
  forall i, exists n, k_part s' i = set_p_index n (k_part s i).
Proof.
  intros a pid s s' e id H.
  assert (Hid : forall pt, exists n, pt = set_p_index n pt) by (intros pt; exists (p_index pt); now destruct pt).
  destruct (thread_create_cases cfg _ _ _ _ _ _ H) as [(-> & _)|(-> & -> & _ & _ & th & k & aff & _ & -> & _)].
  - auto.
  - split; [reflexivity|]. split; [now left|]. intros i. cbn. unfold upd. destruct (Z.eqb_spec i pid) as [->|]; [now eexists|auto].
Qed.

(** Threads and indices may change freely while the partition initialises. *)
Lemma placed_init : forall s s', k_cp s' = k_cp s -> k_cur s' = k_cur s ->
  (exists n, k_part s' (k_cp s) = set_p_index n (k_part s (k_cp s))) ->
  p_mode (k_part s (k_cp s)) = PM_COLD \/ p_mode (k_part s (k_cp s)) = PM_WARM -> placed s -> placed s'.
Proof.
  intros s s' E1 E2 (n & E3) Hm Hp c Hc. specialize (Hp c Hc). unfold may_run in *. rewrite E1, E2, E3. cbn.
  destruct Hp as [H|[H|[H|(H & _)]]]; [now left|right; now left|right; right; left; exact H|].
  rewrite H in Hm. destruct Hm; discriminate.
Qed.

Lemma create_mode : forall a pid s s' id, thread_create cfg a pid s = Some (s', ERR_OK, id) ->
  p_mode (k_part s pid) = PM_COLD \/ p_mode (k_part s pid) = PM_WARM.
Proof.
  intros a pid s s' id H.
  destruct (thread_create_cases cfg _ _ _ _ _ _ H) as [(_ & [(C & _)|(C & _)])|(_ & _ & _ & Hm & _)]; try discriminate.
  exact Hm.
Qed.

Lemma thread_create_placed : forall a s s' e id, placed s ->
  thread_create cfg a (k_cp s) s = Some (s', e, id) -> placed s'.
Proof.
  intros a s s' e id Hp H. destruct (thread_create_part _ _ _ _ _ _ H) as (E2 & [->|E] & E3).
  - apply placed_init with s; try assumption.
    + apply thread_create_clock in H. apply (f_equal ck_cp H).
    + apply E3.
    + now apply create_mode in H.
  - now subst s'.
Qed.

Lemma activate_placed : forall c s, placed s -> is_proc cfg c ->
  (((p_mode (k_part s (k_cp s)) = PM_COLD \/ p_mode (k_part s (k_cp s)) = PM_WARM) /\ c = p_main_proc (k_part s (k_cp s))) \/
   p_mode (k_part s (k_cp s)) = PM_NORMAL) ->
  placed (activate_error_thread c s).
Proof.
  intros c s Hp Hc Hm x Hx. unfold activate_error_thread. unfold cur_part.
  destruct (_ =? 0); [now apply Hp|].
  assert (U : unmoved s (switch_to c (p_error (k_part s (k_cp s)))
      (on_th (p_error (k_part s (k_cp s))) (fun t => set_t_state ST_RUNNABLE (set_t_next_act 0 (set_t_period 100
                           (set_t_remaining 1000 (set_t_priority 255 t))))) s))).
  { split; [reflexivity|]. split; [|repeat split]. intros t. cbn. unfold upd.
    destruct (Z.eqb_spec t (p_error (k_part s (k_cp s)))) as [->|]; reflexivity. }
  apply may_run_unmoved with s; [exact U|]. cbn. unfold upd. destruct (Z.eqb_spec x c) as [->|]; [|now apply Hp].
  unfold may_run. destruct Hm as [(Hm & Hcm)|Hm]; [right; right; left; auto|do 3 right; auto].
Qed.

Lemma set_mode_placed : forall c mode s s' e f, kinv cfg s -> placed s -> is_proc cfg c ->
  set_mode cfg c mode s = Some (s', e, f) -> placed s'.
Proof.
  intros c mode s s' e f I Hp Hc E. unfold set_mode in E.
  assert (Hglob : forall s1 e0, kinv cfg s1 -> then_global cfg c s1 e0 = Some (s', e, f) -> placed s').
  { intros s1 e0 I1 Hg. unfold then_global in Hg. destruct (global_sched cfg c s1) as [[s2 f2]|] eqn:G; [|discriminate].
    injection Hg as <- _ _. apply global_sched_placed in G; [assumption|now apply kinv_half|assumption]. }
  assert (Hret : forall e0, ret s e0 = Some (s', e, f) -> placed s') by (intros e0 E0; injection E0 as <- _ _; assumption).
  assert (Hpm : forall v, known_mode v -> kinv cfg (on_part (k_cp s) (set_p_mode v) s)).
  { intros v Hv. apply kinv_part; [assumption|]. intros Hpp. apply set_mode_ok; [|assumption]. now apply (ki_part _ _ I). }
  destruct (Z.eqb_spec mode PM_NORMAL) as [->|].
  { destruct (_ =? PM_IDLE); [now apply Hret in E|]. destruct (negb _); [now apply Hret in E|].
    apply Hglob in E; [assumption|]. do 2 apply kinv_th. apply Hpm. unfold known_mode. auto. }
  destruct (Z.eqb_spec mode PM_STOPPED) as [->|].
  { destruct (_ || _); [now apply Hret in E|]. apply Hglob in E; [assumption|]. apply Hpm. unfold known_mode. auto. }
  destruct ((mode =? PM_WARM) || (mode =? PM_COLD)) eqn:B; [|now apply Hret in E].
  assert (Hm : mode = PM_COLD \/ mode = PM_WARM) by (rewrite orb_true_iff, !Z.eqb_eq in B; tauto). clear B.
  destruct (_ && _); [now apply Hret in E|]. destruct (_ || _); [now apply Hret in E|].
  destruct (partition_reinit _ _ _ _) as [s1|] eqn:R; [|discriminate].
  apply Hglob in E; [assumption|]. apply (reinit_inv cfg W) in R; [apply R| | | |].
  + apply Hpm. unfold known_mode. tauto.
  + apply (ki_cp _ _ I).
  + assumption.
  + cbn. rewrite upd_same. exact Hm.
Qed.

Lemma service_placed : forall c v s s' e f id, kinv cfg s -> placed s -> is_proc cfg c ->
  user_thread cfg (k_cur s c) = true -> service cfg c v s = Some (s', e, f, id) -> placed s'.
Proof.
  intros c v s s' e f id I Hp Hc Hu H. pose proof (caller_mode s c I Hp Hc Hu) as Hcm. cbv zeta in Hcm.
  assert (Hcalm : calm v -> keeps_statics v -> placed s').
  { intros Hv Hk. destruct (service_phase cfg W c v s s' e f id I Hc H) as (s1 & ph & Hph & I1 & B1 & B2 & B3 & B4 & B5 & B6).
    specialize (B5 Hk). specialize (B6 Hv). destruct B6 as (B6 & B7).
    assert (Hp1 : placed s1) by (apply placed_frame with s; assumption).
    destruct ph as [| |]; cbn in Hph.
    - now subst s'.
    - apply sched_thread_elected in Hph. apply elected_placed with c s1; [now apply kinv_half|assumption|assumption|assumption].
    - destruct Hph as (f' & Hg). apply global_sched_placed in Hg; [assumption|now apply kinv_half|assumption]. }
  destruct v; try (apply Hcalm; exact Logic.I); clear Hcalm; unfold service in H; cbv zeta in H.
  - destruct (thread_create _ _ _ _) as [[[s1 e1] i1]|] eqn:E; [|discriminate].
    injection H as <- _ _ _. now apply thread_create_placed in E.
  - inv_no H. unfold set_mode_current in E.
    destruct (_ && _); [injection E as <- _ _; assumption|]. eapply set_mode_placed; eassumption.
  - destruct (thread_create _ _ _ _) as [[[s1 e1] i1]|] eqn:E; [|discriminate].
    destruct (Z.eqb_spec e1 ERR_OK) as [->|]; [|discriminate]. injection H as <- _ _ _.
    pose proof (create_mode _ _ _ _ _ E) as Hm. pose proof (thread_create_placed _ _ _ _ _ Hp E) as Hp1.
    pose proof (thread_create_clock _ _ _ _ _ _ _ E) as Eck. apply (f_equal ck_cp) in Eck. cbn in Eck.
    assert (Hid : i1 <> 0).
    { destruct (thread_create_cases cfg _ _ _ _ _ _ E) as [(_ & [(C & _)|(C & _)])|(_ & Hi & _)]; try discriminate.
      destruct (ki_part _ _ I _ (ki_cp _ _ I)) as [Hlow _ _ _ _ _ Hix _ _ _ _ _ _]. rewrite Hi, Hlow.
      pose proof (low_nonneg cfg W _ (ki_cp _ _ I)). lia. }
    apply thread_create_part in E. destruct E as (E2 & _ & E3). destruct (E3 (k_cp s)) as (n & En).
    assert (Hother : forall x, is_proc cfg x -> x <> c -> k_cur s x = kernel_thread cfg \/ k_cur s x = idle cfg x).
    { intros x Hx Hne. destruct (Hp x Hx) as [G|[G|[(_ & G & _)|(G & _)]]]; [now left|now right| |].
      - destruct Hcm as [(_ & G2 & _)|(G2 & _)]; [congruence|]. rewrite G2 in Hm. destruct Hm; discriminate.
      - rewrite G in Hm. destruct Hm; discriminate. }
    intros x Hx. unfold activate_error_thread, cur_part. cbn [k_cp k_part on_part set_k_part]. rewrite upd_same. cbn [p_error set_p_error].
    assert (Hcmain : c = p_main_proc (k_part s (k_cp s))).
    { destruct Hcm as [(_ & G2 & _)|(G2 & _)]; [assumption|]. rewrite G2 in Hm. destruct Hm; discriminate. }
    destruct (Z.eqb_spec i1 0) as [->|Hi1].
    + now destruct Hid.
    + cbn [k_cur switch_to set_k_cur on_th set_k_th on_part set_k_part]. unfold upd at 1. 
      destruct (Z.eqb_spec x c) as [->|Hne].
      * unfold may_run. cbn. rewrite upd_same, Eck, En. cbn. right; right; left. auto.
      * rewrite E2. destruct (Hother x Hx Hne); [now left|right; now left].
  - inv_no H. injection E as <- _ _. apply activate_placed; try assumption.
    destruct Hcm as [(Hm & G & _)|(Hm & _)]; [left|right]; auto.
Qed.

Lemma lock_continue_placed : forall c s s' e f, kinv cfg s -> placed s -> is_proc cfg c ->
  lock_continue cfg c s = Some (s', e, f) -> placed s'.
Proof.
  intros c s s' e f I Hp Hc H.
  destruct (lock_continue_phase cfg c s s' e f 0 0 None I Hc H) as (s1 & ph & Hph & I1 & B1 & B2 & B3 & B4 & B5 & B6).
  destruct (B6 Logic.I) as (B7 & B8).
  assert (Hp1 : placed s1) by (apply placed_frame with s; [assumption|assumption|assumption|apply B5; exact Logic.I|assumption]).
  destruct ph as [| |]; cbn in Hph.
  - now subst s'.
  - apply sched_thread_elected in Hph. apply elected_placed with c s1; [now apply kinv_half|assumption|assumption|assumption].
  - destruct Hph as (f' & Hg). apply global_sched_placed in Hg; [assumption|now apply kinv_half|assumption].
Qed.

Lemma kstep_placed : forall s l s' ev, kinv cfg s -> placed s -> kstep cfg s l = KNext s' ev -> placed s'.
Proof.
  intros s l s' ev I Hp H. destruct l as [d|c|c|c v|c]; cbn in H.
  - destruct (0 <? d); [|discriminate]. injection H as <- _. apply placed_frame with s; auto.
  - destruct (valid_proc cfg c) eqn:V; [|discriminate]. apply valid_proc_is in V.
    destruct (global_sched cfg c s) as [[s1 f]|] eqn:G; [|discriminate]. injection H as <- _.
    apply global_sched_placed in G; [assumption|now apply kinv_half|assumption].
  - destruct (valid_proc cfg c) eqn:V; [|discriminate]. apply valid_proc_is in V.
    destruct (sched_thread cfg c s) as [s1|] eqn:G; [|discriminate]. injection H as <- _.
    apply sched_thread_elected in G. apply elected_placed with c s; [now apply kinv_half|assumption|assumption|assumption].
  - destruct (valid_proc cfg c) eqn:V; [|discriminate]. apply valid_proc_is in V.
    destruct (user_thread cfg (k_cur s c)) eqn:U; [|discriminate]. cbn in H.
    destruct (is_user _); [|discriminate]. destruct (service cfg c v s) as [[[[s1 e] f] id]|] eqn:G; [|discriminate].
    injection H as <- _. eapply service_placed; eassumption.
  - destruct (valid_proc cfg c) eqn:V; [|discriminate]. apply valid_proc_is in V.
    destruct (user_thread cfg (k_cur s c)) eqn:U; [|discriminate]. cbn in H.
    destruct (is_user _); [discriminate|]. destruct (lock_continue cfg c s) as [[[s1 e] f]|] eqn:G; [|discriminate].
    injection H as <- _. eapply lock_continue_placed; eassumption.
Qed.

Lemma reachable_placed : forall s, reachable cfg s -> placed s.
Proof.
  apply reachable_ind_inv; [assumption| |].
  - intros s H c Hc. destruct (kboot_state cfg W s H) as (_ & -> & _). now left.
  - intros s l s' ev I Hp H. now apply kstep_placed with s l ev.
Qed.
End Place.
