(** What the schedulers choose, in the running kernel. *)
From Verif Require Import Model.Base Model.State Model.LockFifo Model.LockObj Model.LockSys Model.Sched
  Model.Kernel Spec.SchedSpec Spec.KernelSpec Proof.Tac Proof.SchedProof Proof.KernelBasic Proof.FairProof
  Proof.ClockProof Proof.SlotProof Proof.KernelInv Proof.ElectProof Proof.ServiceProof Proof.PlaceProof
  Proof.ThreadUpd.

Lemma prio_range : forall cfg s t, supported cfg -> reachable cfg s -> 0 <= t_priority (k_th s t) < 256.
Proof.
  intros cfg s t W H.
  assert (G : (fun t => 0 <= t_priority t < 256 /\ 0 <= t_base_prio t < 256) (k_th s t)); [|apply G].
  revert s H t. apply (reachable_threads cfg W (fun t => 0 <= t_priority t < 256 /\ 0 <= t_base_prio t < 256)).
  - cbn. lia.
  - cbn. auto.
  - cbn. intros _ t H. lia.
  - intros t t' U H. destruct U; cbn; try exact H; try (unfold u8; split; [apply Z.mod_pos_bound; lia|apply H]); try lia.
    + assert (Ha : 0 <= a_prio a < 256) by (rewrite <- H0; apply Z.mod_pos_bound; lia).
      unfold init_thread. cbv zeta.
      destruct (0 <? a_period a); destruct (0 <? a_deadline a); destruct (0 <? a_capacity a); cbn; lia.
Qed.

Section Choice.
Variable cfg : config.
Hypothesis W : supported cfg.

(** A step at which processor [c] elects is one election. *)
Lemma election_elected : forall c l s s' ev, kinv cfg s -> election_on cfg c l -> kstep cfg s l = KNext s' ev ->
  is_proc cfg c /\ exists r, (r = s \/ repart cfg s r) /\ half cfg r /\ elected cfg c r s'.
Proof.
  intros c l s s' ev I [->|(-> & Hn)] H; cbn in H.
  - destruct (valid_proc cfg c) eqn:V; [|discriminate]. apply valid_proc_is in V. split; [assumption|].
    destruct (sched_thread cfg c s) as [s1|] eqn:G; [|discriminate]. injection H as <- _.
    exists s. split; [now left|]. split; [now apply kinv_half|now apply sched_thread_elected].
  - destruct (valid_proc cfg c) eqn:V; [|discriminate]. apply valid_proc_is in V. split; [assumption|].
    destruct (global_sched cfg c s) as [[s1 f]|] eqn:G; [|discriminate]. injection H as <- _.
    destruct (global_sched_split cfg W c s s1 f (kinv_half _ _ I) V G c V) as (r & a & b & Hr & Hhr & Ha & HR & Hab).
    destruct (HR eq) as (-> & ->).
    + split; [intros; congruence|]. split; [reflexivity|]. intros d x y _ Hd Hne _. unfold is_proc in *. lia.
    + exists a. auto.
Qed.

(** The table of the scheduler, up to fields that it does not read. *)
Lemma scheduling_func : forall c r s' sch, half cfg r -> is_proc cfg c -> elected cfg c r s' -> scheduling cfg c sch s' ->
  exists th prev cur, (forall j, same_end (th j) (k_th s' j)) /\
    idle_or_in (idle cfg c) (low_of cfg (k_cp s')) (high_of cfg (k_cp s')) prev /\
    idle_or_in (idle cfg c) (low_of cfg (k_cp s')) (high_of cfg (k_cp s')) cur /\
    sched_func cfg (k_cp s') c th (low_of cfg (k_cp s')) (high_of cfg (k_cp s')) prev cur = Some (k_cur s' c).
Proof.
  intros c r s' sch Hh Hc He (Hm & _ & Hne).
  destruct (elected_table cfg W c r s' Hh Hc He) as (E1 & _ & _ & _ & _ & _ & _ & th1 & th2 & T1 & T2 & T3 & T4).
  destruct (elected_parts cfg c r s' He (k_cp r)) as (pv & cu & Ep).
  rewrite E1 in *. rewrite Ep in *. cbn in Hm, Hne.
  destruct Hh as (HP & Hcp & _). destruct (HP _ Hcp) as [_ _ _ _ _ _ _ _ _ _ _ Hcur Hprev].
  destruct T4 as [(_ & _ & _ & _ & S)|(_ & [(_ & _ & C)|[(C & _)|(C & _)]])].
  - exists th2, (p_prev (k_part r (k_cp r)) c), (p_cur (k_part r (k_cp r)) c).
    split; [exact T3|]. split; [now apply Hprev|]. split; [now apply Hcur|assumption].
  - contradiction.
  - rewrite Hm in C. destruct C; discriminate.
  - rewrite Hm in C. discriminate.
Qed.

Lemma same_end_ready : forall p th th' i, same_end (th i) (th' i) -> (ready_thread p th i <-> ready_thread p th' i).
Proof. intros p th th' i E. unfold ready_thread. rewrite E. cbn. tauto. Qed.

Lemma sound_same_end : forall p id low high th th' e, (forall j, same_end (th j) (th' j)) ->
  sound_choice p id low high th e -> sound_choice p id low high th' e.
Proof.
  intros p id low high th th' e S [(H1 & H2)|(H1 & H2)]; [left|right]; (split; [assumption|]).
  - apply (same_end_ready p th th' e); auto.
  - intros i Hi Hr. apply (H2 i Hi). apply (same_end_ready p th th' i); auto.
Qed.

Lemma rr_machine : forall s l c s' ev, reachable cfg s -> election_on cfg c l -> kstep cfg s l = KNext s' ev ->
  scheduling cfg c SCHED_RR s' ->
  sound_choice c (idle cfg c) (low_of cfg (k_cp s')) (high_of cfg (k_cp s')) (k_th s') (k_cur s' c).
Proof.
  intros s l c s' ev R El H S. pose proof (reachable_inv cfg W s R) as I. pose proof (kstep_inv cfg W _ _ _ _ I H) as I'.
  destruct (election_elected c l s s' ev I El H) as (Hc & r & _ & Hh & He).
  destruct (scheduling_func c r s' _ Hh Hc He S) as (th & prev & cur & T & Hp & Hcu & F).
  unfold sched_func in F. destruct S as (_ & Es & _). rewrite Es in F. cbn in F.
  destruct (rr_sound c (idle cfg c) th _ _ prev cur (low_lt_high cfg W _ (ki_cp _ _ I')) Hp Hcu) as (e & Ee & So).
  rewrite F in Ee. injection Ee as <-. now apply sound_same_end with th.
Qed.

Lemma reachable_step : forall s l s' ev, reachable cfg s -> kstep cfg s l = KNext s' ev -> reachable cfg s'.
Proof.
  intros s l s' ev (s0 & ls & evs & B & R) H. exists s0, (ls ++ [l]), (evs ++ ev). split; [assumption|].
  clear B. revert s0 evs R. induction ls as [|x ls IH]; intros s0 evs R; cbn in R |- *.
  - injection R as <- <-. rewrite H. cbn. now rewrite app_nil_r.
  - destruct (kstep cfg s0 x) as [s1 ev1| |]; [| |discriminate].
    + destruct (krun cfg s1 ls) as [[s2 ev2]|] eqn:R2; [|discriminate]. injection R as <- <-.
      rewrite (IH s1 ev2 R2). now rewrite app_assoc.
    + now apply IH.
Qed.

Lemma static_machine : forall s l c s' ev, reachable cfg s -> election_on cfg c l -> kstep cfg s l = KNext s' ev ->
  scheduling cfg c SCHED_STATIC s' ->
  sound_choice c (idle cfg c) (low_of cfg (k_cp s')) (high_of cfg (k_cp s')) (k_th s') (k_cur s' c) /\
  forall i, thread_of cfg (k_cp s') i -> ready_thread c (k_th s') i ->
    t_priority (k_th s' i) <= t_priority (k_th s' (k_cur s' c)).
Proof.
  intros s l c s' ev R El H S. pose proof (reachable_inv cfg W s R) as I. pose proof (kstep_inv cfg W _ _ _ _ I H) as I'.
  pose proof (reachable_step s l s' ev R H) as R'.
  destruct (election_elected c l s s' ev I El H) as (Hc & r & _ & Hh & He).
  destruct (scheduling_func c r s' _ Hh Hc He S) as (th & prev & cur & T & Hp & Hcu & F).
  unfold sched_func in F. destruct S as (_ & Es & _). rewrite Es in F. cbn in F.
  assert (Hpr : forall i, t_priority (th i) = t_priority (k_th s' i)) by (intros i; rewrite (T i); reflexivity).
  destruct (static_spec c (idle cfg c) th _ _ prev cur (low_lt_high cfg W _ (ki_cp _ _ I')) Hp Hcu) as (e & Ee & So).
  { intros i _. rewrite Hpr. apply (prio_range cfg s' i W R'). }
  rewrite F in Ee. injection Ee as <-. split.
  - apply sound_same_end with th; [assumption|]. destruct So as [(H1 & H2 & _)|(H1 & H2)]; [left|right]; auto.
  - intros i Hi Hr. apply (same_end_ready c th) in Hr; [|apply T].
    destruct So as [(_ & _ & H3)|(_ & H3)]; [|exfalso; now apply (H3 i)]. rewrite <- !Hpr. now apply H3.
Qed.

Lemma rms_machine : forall s l c s' ev, reachable cfg s -> election_on cfg c l -> kstep cfg s l = KNext s' ev ->
  scheduling cfg c SCHED_RMS s' ->
  sound_choice c (idle cfg c) (low_of cfg (k_cp s')) (high_of cfg (k_cp s')) (k_th s') (k_cur s' c) /\
  forall i, thread_of cfg (k_cp s') i -> ready_thread c (k_th s') i -> i <> low_of cfg (k_cp s') ->
    k_cur s' c <= i /\ k_cur s' c <> low_of cfg (k_cp s').
Proof.
  intros s l c s' ev R El H S. pose proof (reachable_inv cfg W s R) as I. pose proof (kstep_inv cfg W _ _ _ _ I H) as I'.
  destruct (election_elected c l s s' ev I El H) as (Hc & r & _ & Hh & He).
  destruct (scheduling_func c r s' _ Hh Hc He S) as (th & prev & cur & T & Hp & Hcu & F).
  unfold sched_func in F. destruct S as (_ & Es & _). rewrite Es in F. cbn in F.
  pose proof (low_lt_high cfg W _ (ki_cp _ _ I')) as Hlh.
  destruct (rms_sound c (idle cfg c) th _ _ Hlh) as (e & Ee & So). rewrite F in Ee. injection Ee as <-.
  split; [now apply sound_same_end with th|].
  destruct (rms_spec c (idle cfg c) th _ _ Hlh) as (e & Ee & Sp). rewrite F in Ee. injection Ee as <-.
  intros i Hi Hr Hne. apply (same_end_ready c th) in Hr; [|apply T]. unfold thread_of, in_range in Hi.
  destruct Sp as [(H1 & _ & H2)|[(H1 & _ & H2)|(_ & H2)]].
  - split; [|lia]. destruct (Z_lt_le_dec i (k_cur s' c)); [|assumption]. exfalso. apply (H2 i); [lia|assumption].
  - exfalso. apply (H2 i); [lia|assumption].
  - exfalso. now apply (H2 i).
Qed.
End Choice.
