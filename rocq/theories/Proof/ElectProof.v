(** What one election does to the thread table, and whom it elects. *)
From Verif Require Import Model.Base Model.State Model.LockFifo Model.LockObj Model.LockSys Model.Sched
  Model.Kernel Spec.SchedSpec Spec.KernelSpec Proof.Tac Proof.SchedProof Proof.KernelBasic Proof.FairProof
  Proof.ClockProof Proof.SlotProof Proof.KernelInv.

(** Threads that agree except for the end of their budget. *)
Definition same_end (t t' : thread) : Prop := t' = set_t_end_time (t_end_time t') t.
Lemma same_end_refl : forall t, same_end t t.
Proof. intros []. reflexivity. Qed.
Lemma same_end_set : forall t v, same_end t (set_t_end_time v t).
Proof. intros. reflexivity. Qed.
Lemma same_end_fields : forall t t', same_end t t' ->
  t_priority t' = t_priority t /\ t_period t' = t_period t /\ t_capacity t' = t_capacity t /\
  t_remaining t' = t_remaining t /\ t_next_act t' = t_next_act t /\ t_state t' = t_state t /\
  t_wakeup t' = t_wakeup t /\ t_affinity t' = t_affinity t /\ t_partition t' = t_partition t /\
  t_deadline t' = t_deadline t /\ t_entry t' = t_entry t /\ t_stack t' = t_stack t /\ t_base_prio t' = t_base_prio t.
Proof. intros t t' ->. repeat split. Qed.

Lemma wake_loop_spec : forall n timed p now th i th', wake_loop n timed p now th i = Some th' ->
  (forall j, i <= j < i + Z.of_nat n -> wake timed p now (th j) = Some (th' j)) /\
  (forall j, j < i \/ i + Z.of_nat n <= j -> th' j = th j).
Proof.
  induction n as [|n IH]; intros timed p now th i th' H; cbn [wake_loop] in H.
  - injection H as <-. split; [intros; lia|auto].
  - destruct (wake timed p now (th i)) as [t|] eqn:E; [|discriminate].
    apply IH in H. destruct H as (H1 & H2). split.
    + intros j Hj. destruct (Z.eq_dec j i) as [->|Hne].
      * rewrite H2 by lia. now rewrite upd_same.
      * rewrite <- H1 by lia. now rewrite upd_other.
    + intros j Hj. rewrite H2 by lia. rewrite upd_other by lia. reflexivity.
Qed.

(** The thread whose budget is charged. *)
Definition charged (cfg : config) (c : Z) (s : kstate) (t : Z) : Prop :=
  t = k_cur s c /\ t <> idle cfg c /\ t <> p_main (cur_part s) /\ t <> p_error (cur_part s).

Definition charge (t : thread) : thread :=
  if 0 <? t_remaining t then set_t_remaining (t_remaining t - 1) t
  else if 0 <? t_capacity t then set_t_state ST_WAIT_NEXT t else t.

Lemma consume_spec : forall cfg c s,
  (forall t, charged cfg c s t -> k_th (consume cfg c s) t = charge (k_th s t)) /\
  (forall t, ~ charged cfg c s t -> k_th (consume cfg c s) t = k_th s t).
Proof.
  intros cfg c s. unfold consume, charged, charge. set (t0 := k_cur s c).
  destruct (negb (t0 =? idle cfg c) && negb (t0 =? p_main (cur_part s)) && negb (t0 =? p_error (cur_part s))) eqn:B.
  - rewrite !andb_true_iff, !negb_true_iff, !Z.eqb_neq in B. split.
    + intros t (-> & _). destruct (0 <? t_remaining (k_th s t0)); [cbn; now rewrite upd_same|].
      destruct (0 <? t_capacity (k_th s t0)); [cbn; now rewrite upd_same|reflexivity].
    + intros t Ht. assert (t <> t0) by (intros ->; tauto).
      destruct (0 <? t_remaining (k_th s t0)); [cbn; now rewrite upd_other|].
      destruct (0 <? t_capacity (k_th s t0)); [cbn; now rewrite upd_other|reflexivity].
  - rewrite !andb_false_iff, !negb_false_iff, !Z.eqb_eq in B. split; [|auto].
    intros t (-> & H1 & H2 & H3). tauto.
Qed.

(** The error handler of the partition keeps the processor. *)
Definition handler_runs (c np : Z) (th : Z -> thread) (s : kstate) : Prop :=
  p_cur (k_part s np) c = p_error (k_part s np) /\ t_state (th (p_cur (k_part s np) c)) = ST_RUNNABLE.

(** One election: wake-up, charge, choice. [th1] is the table after the wake-up, [th2] the one seen by the
    scheduler of the partition. *)
Lemma elect_thread_table : forall cfg c np s s' e, elect_thread cfg c np s = Some (s', e) ->
  let pt := k_part s np in
  exists th1 th2,
    (forall j, p_low pt <= j < p_low pt + Z.of_nat (Z.to_nat (p_nthreads pt)) ->
       wake (c_timed_wake cfg) c (k_now s) (k_th s j) = Some (th1 j)) /\
    (forall j, j < p_low pt \/ p_low pt + Z.of_nat (Z.to_nat (p_nthreads pt)) <= j -> th1 j = k_th s j) /\
    (forall j, same_end (th2 j) (k_th s' j)) /\
    ((p_mode pt = PM_NORMAL /\ ~ handler_runs c np th1 s /\
      (forall j, charged cfg c s j -> th2 j = charge (th1 j)) /\
      (forall j, ~ charged cfg c s j -> th2 j = th1 j) /\
      sched_func cfg np c th2 (p_low pt) (p_high pt) (p_prev pt c) (p_cur pt c) = Some e) \/
     (th2 = th1 /\
      ((p_mode pt = PM_NORMAL /\ handler_runs c np th1 s /\ e = p_error pt) \/
       ((p_mode pt = PM_COLD \/ p_mode pt = PM_WARM) /\ e = if c =? p_main_proc pt then p_main pt else idle cfg c) \/
       (p_mode pt <> PM_NORMAL /\ p_mode pt <> PM_COLD /\ p_mode pt <> PM_WARM /\ e = idle cfg c)))).
Proof.
  intros cfg c np s s' e H pt. unfold elect_thread in H. fold pt in H.
  destruct (_ <? _); [discriminate|].
  destruct (wake_loop _ _ _ _ _ _) as [th1|] eqn:Hw; [|discriminate]. apply wake_loop_spec in Hw.
  destruct (elect cfg c np (set_k_th th1 s)) as [[s2 e2]|] eqn:E; [|discriminate].
  injection H as <- <-. destruct Hw as (Hw1 & Hw2).
  exists th1, (k_th s2). split; [exact Hw1|]. split; [exact Hw2|].
  split.
  { intros j. destruct (_ <? _); [|apply same_end_refl]. cbn.
    unfold upd. destruct (Z.eqb_spec j e2) as [->|]; [apply same_end_set|apply same_end_refl]. }
  unfold elect in E. change (k_part (set_k_th th1 s)) with (k_part s) in E. fold pt in E.
  destruct ((p_mode pt =? PM_COLD) || (p_mode pt =? PM_WARM)) eqn:B.
  { injection E as <- <-. right. split; [reflexivity|]. right; left. split; [|reflexivity].
    rewrite orb_true_iff, !Z.eqb_eq in B. exact B. }
  rewrite orb_false_iff, !Z.eqb_neq in B.
  destruct (Z.eqb_spec (p_mode pt) PM_NORMAL) as [Hn|Hn].
  2:{ injection E as <- <-. right. split; [reflexivity|]. right; right. tauto. }
  change (k_th (set_k_th th1 s)) with th1 in E.
  destruct ((p_cur pt c =? p_error pt) && (t_state (th1 (p_cur pt c)) =? ST_RUNNABLE)) eqn:Bh.
  - injection E as <- <-. right. split; [reflexivity|]. left.
    rewrite andb_true_iff, !Z.eqb_eq in Bh. unfold handler_runs. auto.
  - rewrite andb_false_iff, !Z.eqb_neq in Bh.
    destruct (sched_func _ _ _ _ _ _ _ _) as [e'|] eqn:Es; [|discriminate]. injection E as <- <-. left.
    split; [assumption|]. split; [unfold handler_runs; fold pt; tauto|].
    destruct (consume_spec cfg c (set_k_th th1 s)) as (C1 & C2).
    split; [exact C1|]. split; [exact C2|]. exact Es.
Qed.

(** An election on processor [c] and the switch to the elected thread. *)
Definition elected (cfg : config) (c : Z) (s s' : kstate) : Prop :=
  exists th e pr, elect_thread cfg c (k_cp s) s = Some (set_k_th th s, e) /\
    s' = switch_to c (u8 e) (set_k_present pr (record_thread cfg c (u8 e) (set_k_th th s))).

Lemma set_k_present_id : forall s, set_k_present (k_present s) s = s.
Proof. now intros []. Qed.
Lemma sched_thread_elected : forall cfg c s s', sched_thread cfg c s = Some s' -> elected cfg c s s'.
Proof.
  intros cfg c s s' H. destruct (sched_thread_shape _ _ _ _ H) as (th & e & E & ->).
  exists th, e, (k_present (record_thread cfg c (u8 e) (set_k_th th s))). split; [assumption|].
  now rewrite set_k_present_id.
Qed.
Lemma global_sched_thread_elected : forall cfg newp src c s s',
  global_sched_thread cfg newp src c s = Some s' -> elected cfg c s s'.
Proof. intros. now apply global_sched_thread_shape in H. Qed.

(** The partitions are well formed. *)
Definition half (cfg : config) (s : kstate) : Prop := mid_inv cfg s (fun _ => False).
Lemma kinv_half : forall cfg s, kinv cfg s -> half cfg s.
Proof. intros cfg s [H1 H2 H3 H4]. split; [assumption|]. split; [assumption|]. split; [assumption|]. intros ? ? []. Qed.
Lemma mid_half : forall cfg s d, mid_inv cfg s d -> half cfg s.
Proof. intros cfg s d (H1 & H2 & H3 & H4). split; [assumption|]. split; [assumption|]. split; [assumption|]. intros ? ? []. Qed.

Section Elect.
Variable cfg : config.
Hypothesis W : supported cfg.

(** The same for a partition of a state that satisfies the invariant, with the executing thread. *)
Lemma elected_table : forall c s s', half cfg s -> is_proc cfg c -> elected cfg c s s' ->
  let i := k_cp s in let pt := k_part s i in
  k_cp s' = i /\ k_now s' = k_now s /\ k_obj s' = k_obj s /\ k_k s' = k_k s /\ k_brk s' = k_brk s /\
  (forall x, x <> c -> k_cur s' x = k_cur s x) /\
  (k_cur s' c = idle cfg c \/ thread_of cfg i (k_cur s' c)) /\
  exists th1 th2,
    (forall j, thread_of cfg i j -> wake (c_timed_wake cfg) c (k_now s) (k_th s j) = Some (th1 j)) /\
    (forall j, ~ thread_of cfg i j -> th1 j = k_th s j) /\
    (forall j, same_end (th2 j) (k_th s' j)) /\
    ((p_mode pt = PM_NORMAL /\ ~ handler_runs c i th1 s /\
      (forall j, charged cfg c s j -> th2 j = charge (th1 j)) /\
      (forall j, ~ charged cfg c s j -> th2 j = th1 j) /\
      sched_func cfg i c th2 (low_of cfg i) (high_of cfg i) (p_prev pt c) (p_cur pt c) = Some (k_cur s' c)) \/
     (th2 = th1 /\
      ((p_mode pt = PM_NORMAL /\ handler_runs c i th1 s /\ k_cur s' c = p_error pt) \/
       ((p_mode pt = PM_COLD \/ p_mode pt = PM_WARM) /\
        k_cur s' c = if c =? p_main_proc pt then low_of cfg i else idle cfg c) \/
       (p_mode pt = PM_STOPPED /\ k_cur s' c = idle cfg c)))).
Proof.
  intros c s s' (HP & Hcp & _ & _) Hc H i pt.
  destruct H as (th & e & pr & E & Es').
  pose proof (elect_thread_ok cfg W c s _ e HP Hcp Hc E) as He.
  rewrite (elected_bound cfg W c i e Hcp Hc He) in Es'.
  pose proof (record_thread_fields cfg c e (set_k_th th s)) as (R1 & R5 & R2 & R3 & _ & _ & _ & _ & R4 & _ & R6 & R7).
  destruct (HP _ Hcp) as [Hlow Hhigh Hn _ _ Hmain _ Herr Hmode _ _ Hcur Hprev].
  fold i in Hlow, Hhigh, Hn, Hmain, Herr, Hmode. fold pt in Hlow, Hhigh, Hn, Hmain, Herr, Hmode.
  pose proof (sp_threads cfg W i Hcp) as Hnt.
  assert (Ecur : k_cur s' c = e) by (rewrite Es'; cbn; now rewrite upd_same).
  assert (Eth : k_th s' = th) by (rewrite Es'; cbn; rewrite R1; reflexivity).
  split; [rewrite Es'; cbn; rewrite R3; reflexivity|].
  split; [rewrite Es'; cbn; rewrite R4; reflexivity|].
  split; [rewrite Es'; cbn; rewrite R5; reflexivity|].
  split; [rewrite Es'; cbn; rewrite R7; reflexivity|].
  split; [rewrite Es'; cbn; rewrite R6; reflexivity|].
  split; [intros x Hx; rewrite Es'; cbn; rewrite upd_other by assumption; rewrite R2; reflexivity|].
  rewrite Ecur. split; [exact He|].
  destruct (elect_thread_table _ _ _ _ _ _ E) as (th1 & th2 & T1 & T2 & T3 & T4).
  fold i in T1, T2, T4. fold pt in T1, T2, T4. rewrite Hn, Hlow, Z2Nat.id in T1, T2 by lia.
  exists th1, th2.
  split; [intros j Hj; apply T1; exact Hj|].
  split. { intros j Hj. apply T2. unfold thread_of, in_range, high_of in Hj. lia. }
  split. { intros j. rewrite Eth. exact (T3 j). }
  rewrite Hlow, Hhigh, Hmain in T4.
  destruct T4 as [T4|(T4 & [T5|[T5|T5]])]; [left; exact T4|right; split; [assumption|left; exact T5]|right; split; [assumption|right; left; exact T5]|].
  right. split; [assumption|]. right; right. unfold known_mode in Hmode. tauto.
Qed.

(** Partitions after an election. *)
Lemma elected_parts : forall c s s', elected cfg c s s' -> forall j,
  exists pv cu, k_part s' j = set_p_cur cu (set_p_prev pv (k_part s j)).
Proof.
  intros c s s' (th & e & pr & _ & ->) j. cbn. unfold record_thread. destruct (_ =? u8 e).
  - exists (p_prev (k_part s j)), (p_cur (k_part s j)). cbn. now destruct (k_part s j).
  - cbn. unfold upd at 1. destruct (Z.eqb_spec j (k_cp s)) as [->|].
    2:{ exists (p_prev (k_part s j)), (p_cur (k_part s j)). now destruct (k_part s j). }
    destruct (_ =? idle cfg c); [|eexists _, _; reflexivity].
    exists (p_prev (k_part s (k_cp s))), (upd (p_cur (k_part s (k_cp s))) c (u8 e)).
    destruct (k_part s (k_cp s)). reflexivity.
Qed.

Lemma elected_half : forall c s s', half cfg s -> is_proc cfg c -> elected cfg c s s' -> half cfg s'.
Proof.
  intros c s s' (HP & Hcp & Hs & Hcur) Hc (th & e & pr & E & ->).
  pose proof (elect_thread_ok cfg W c s _ e HP Hcp Hc E) as He. rewrite (elected_bound cfg W c (k_cp s) e Hcp Hc He).
  destruct (record_thread_fields cfg c e (set_k_th th s)) as (_ & _ & R1 & R2 & R3 & _). cbn in R1, R2, R3.
  unfold half, mid_inv. cbn [k_part k_cp k_slot k_cur switch_to set_k_cur set_k_present].
  rewrite R2, R3. split; [apply record_thread_parts; assumption|]. split; [assumption|]. split; [assumption|].
  intros ? ? [].
Qed.

(** Change of partition at the beginning of a global scheduling. *)
Definition repart (s s' : kstate) : Prop :=
  exists s1 np f, elect_partition cfg s = (s1, np, f) /\ s' = set_k_cp np s1.

Lemma repart_half : forall s s', half cfg s -> repart s s' -> half cfg s'.
Proof.
  intros s s' (HP & Hcp & Hs & _) (s1 & np & f & E & ->).
  destruct (elect_partition_ok cfg W _ _ _ _ Hcp Hs E) as (A & B).
  apply elect_partition_clock in E. destruct E as (_ & _ & Hp & _).
  split; [cbn; rewrite Hp; assumption|]. split; [assumption|]. split; [assumption|]. intros ? ? [].
Qed.
Lemma repart_fields : forall s s', repart s s' ->
  k_th s' = k_th s /\ k_part s' = k_part s /\ k_obj s' = k_obj s /\ k_cur s' = k_cur s /\ k_now s' = k_now s /\
  k_k s' = k_k s /\ k_brk s' = k_brk s /\ k_present s' = k_present s.
Proof.
  intros s s' (s1 & np & f & E & ->). apply elect_partition_clock in E.
  destruct E as (_ & H1 & H2 & H3 & H4 & _ & H5 & H6 & H7 & H8). repeat split; assumption.
Qed.

(** A global scheduling is a change of partition followed by one election on each processor. *)
Section Rel.
Variable R : kstate -> kstate -> Prop.
Hypothesis R_trans : forall a b c, R a b -> R b c -> R a c.
Hypothesis R_refl : forall a, R a a.
Hypothesis R_elected : forall c s s', half cfg s -> is_proc cfg c -> elected cfg c s s' -> R s s'.
Hypothesis R_repart : forall s s', half cfg s -> repart s s' -> R s s'.

Lemma others_rel : forall n newp src c s s', half cfg s -> 0 <= c -> c + Z.of_nat n <= c_nprocs cfg ->
  global_sched_others n cfg newp src c s = Some s' -> R s s' /\ half cfg s'.
Proof.
  clear R_repart.
  induction n as [|n IH]; intros newp src c s s' Hh Hc Hn H; cbn in H.
  - injection H as <-. auto.
  - destruct (Z.eqb_spec c src) as [->|].
    + apply IH in H; try assumption; lia.
    + destruct (global_sched_thread cfg newp false c s) as [s1|] eqn:E; [|discriminate].
      apply global_sched_thread_elected in E. assert (Hp : is_proc cfg c) by (unfold is_proc; lia).
      pose proof (elected_half c s s1 Hh Hp E) as Hh1. apply IH in H; try assumption; try lia.
      split; [|apply H]. apply R_trans with s1; [now apply R_elected with c|apply H].
Qed.

Lemma global_sched_rel : forall c s s' f, half cfg s -> is_proc cfg c -> global_sched cfg c s = Some (s', f) ->
  R s s' /\ half cfg s'.
Proof.
  intros c s s' f Hh Hc H. destruct (global_sched_shape _ _ _ _ _ H) as (s1 & np & s3 & E & E3 & E4).
  assert (Hre : repart s (set_k_cp np s1)) by (exists s1, np, f; auto).
  pose proof (repart_half _ _ Hh Hre) as Hh1. apply global_sched_thread_elected in E3.
  pose proof (elected_half _ _ _ Hh1 Hc E3) as Hh3. pose proof (sp_procs cfg W).
  apply others_rel in E4; try assumption; try lia. split; [|apply E4].
  apply R_trans with (set_k_cp np s1); [now apply R_repart|].
  apply R_trans with s3; [now apply R_elected with c|apply E4].
Qed.
End Rel.

(** ... and each processor gets its election. *)
Definition closed_except (x : Z) (R : kstate -> kstate -> Prop) : Prop :=
  (forall a b c, R a b -> R b c -> R a c) /\ (forall a, R a a) /\
  (forall c s s', half cfg s -> is_proc cfg c -> c <> x -> elected cfg c s s' -> R s s').

Lemma others_except : forall n newp src c s s' x, half cfg s -> 0 <= c -> c + Z.of_nat n <= c_nprocs cfg ->
  (forall d, c <= d < c + Z.of_nat n -> d <> src -> d <> x) ->
  global_sched_others n cfg newp src c s = Some s' -> forall R, closed_except x R -> R s s'.
Proof.
  induction n as [|n IH]; intros newp src c s s' x Hh Hc Hn Hx H R HR; cbn in H.
  - injection H as <-. apply HR.
  - destruct (Z.eqb_spec c src) as [->|].
    + apply (IH newp src (src + 1) s s' x); try assumption; try lia. intros d Hd. apply Hx. lia.
    + destruct (global_sched_thread cfg newp false c s) as [s1|] eqn:E; [|discriminate].
      apply global_sched_thread_elected in E. assert (Hp : is_proc cfg c) by (unfold is_proc; lia).
      pose proof (elected_half c s s1 Hh Hp E) as Hh1. destruct HR as (Rt & Rr & Re).
      apply Rt with s1; [apply Re with c; try assumption; apply Hx; lia|].
      apply (IH newp src (c + 1) s1 s' x); try assumption; try lia; [intros d Hd; apply Hx; lia|].
      repeat split; assumption.
Qed.

Lemma others_split : forall n newp src c s s', half cfg s -> 0 <= c -> c + Z.of_nat n <= c_nprocs cfg ->
  global_sched_others n cfg newp src c s = Some s' ->
  forall x, c <= x < c + Z.of_nat n -> x <> src -> exists a b, half cfg a /\
    (forall R, closed_except x R -> R s a /\ R b s') /\ elected cfg x a b.
Proof.
  induction n as [|n IH]; intros newp src c s s' Hh Hc Hn H x Hx Hne; [lia|]. cbn in H.
  destruct (Z.eqb_spec c src) as [->|Hcs].
  - apply (IH newp src (src + 1) s s'); try assumption; lia.
  - destruct (global_sched_thread cfg newp false c s) as [s1|] eqn:E; [|discriminate].
    apply global_sched_thread_elected in E. assert (Hp : is_proc cfg c) by (unfold is_proc; lia).
    pose proof (elected_half c s s1 Hh Hp E) as Hh1.
    destruct (Z.eq_dec x c) as [->|Hxc].
    + exists s, s1. split; [assumption|]. split; [|assumption]. intros R HR. split; [apply HR|].
      apply (others_except n newp src (c + 1) s1 s' c); try assumption; lia.
    + destruct (IH newp src (c + 1) s1 s' Hh1 ltac:(lia) ltac:(lia) H x ltac:(lia) Hne) as (a & b & Ha & HR & Hab).
      exists a, b. split; [assumption|]. split; [|assumption]. intros R HRR.
      destruct (HR R HRR) as (R1 & R2). split; [|assumption]. destruct HRR as (Rt & Rr & Re). apply Rt with s1; [|assumption].
      apply Re with c; try assumption. congruence.
Qed.

Lemma global_sched_split : forall c s s' f, half cfg s -> is_proc cfg c -> global_sched cfg c s = Some (s', f) ->
  forall x, is_proc cfg x -> exists r a b, repart s r /\ half cfg r /\ half cfg a /\
    (forall R, closed_except x R -> R r a /\ R b s') /\ elected cfg x a b.
Proof.
  intros c s s' f Hh Hc H x Hx. destruct (global_sched_shape _ _ _ _ _ H) as (s1 & np & s3 & E & E3 & E4).
  assert (Hre : repart s (set_k_cp np s1)) by (exists s1, np, f; auto).
  pose proof (repart_half _ _ Hh Hre) as Hh1. apply global_sched_thread_elected in E3.
  pose proof (elected_half _ _ _ Hh1 Hc E3) as Hh3. pose proof (sp_procs cfg W) as Hpr.
  exists (set_k_cp np s1). destruct (Z.eq_dec x c) as [->|Hne].
  - exists (set_k_cp np s1), s3. split; [assumption|]. split; [assumption|]. split; [assumption|]. split; [|assumption].
    intros R HR. split; [apply HR|].
    apply (others_except (Z.to_nat (c_nprocs cfg)) _ c 0 s3 s' c Hh3 (Z.le_refl 0) ltac:(lia) ltac:(auto) E4 R HR).
  - unfold is_proc in Hx.
    destruct (others_split (Z.to_nat (c_nprocs cfg)) _ _ 0 _ _ Hh3 (Z.le_refl 0) ltac:(lia) E4 x ltac:(lia) Hne) as (a & b & Ha & HR & Hab).
    exists a, b. split; [assumption|]. split; [assumption|]. split; [assumption|]. split; [|assumption].
    intros R HRR. destruct (HR R HRR) as (R1 & R2). split; [|assumption]. destruct HRR as (Rt & Rr & Re).
    apply Rt with s3; [|assumption]. apply Re with c; try assumption. congruence.
Qed.
End Elect.
