(** Delayed starts. *)
From Verif Require Import Model.Base Model.State Model.LockFifo Model.LockObj Model.LockSys Model.Sched
  Model.Kernel Spec.SchedSpec Spec.KernelSpec Spec.SpaceSpec Spec.DelaySpec Proof.Tac Proof.SchedProof Proof.KernelBasic Proof.FairProof Proof.ClockProof Proof.SlotProof
  Proof.KernelInv Proof.MemKernel Proof.MemBoot Proof.ThreadFrame Proof.ThreadUpd Proof.QueueProof Proof.ElectProof Proof.ServiceProof Proof.PartStep Proof.PlaceProof Proof.EffectProof Proof.ActivationProof.

Lemma raise_dec : forall v, {v = SRaise} + {v <> SRaise}.
Proof. destruct v; try (right; discriminate). now left. Qed.

Section Delay.
Variable cfg : config.
Hypothesis W : supported cfg.
Variables j t : Z.
Hypothesis Hj : is_part cfg j.
Hypothesis Ht : thread_of cfg j t.
Hypothesis Hmain : t <> low_of cfg j.

(** While a partition initialises itself, only its main thread and its error handler execute. *)
Lemma init_nowhere : forall s, reachable cfg s -> is_init (mode_of s j) -> t <> p_error (k_part s j) -> executes_nowhere cfg s t.
Proof.
  intros s Hr Hm He c Hc C. pose proof (reachable_inv cfg W s Hr) as I. pose proof (reachable_placed cfg W s Hr c Hc) as P.
  destruct (Z.eq_dec (k_cp s) j) as [E|N].
  - unfold may_run in P. rewrite C, E in P. destruct (user_not_idle cfg W j t c Hj Ht Hc) as (U1 & U2).
    unfold is_init, mode_of in Hm.
    destruct P as [P|[P|[(_ & _ & [P|P])|(P & _)]]]; try congruence. rewrite P in Hm. destruct Hm; discriminate.
  - apply (kinv_away cfg W j s Hj I (not_eq_sym N) c Hc). now rewrite C.
Qed.

Definition idles (a b : kstate) : Prop :=
  is_init (mode_of a j) -> executes_nowhere cfg a t -> t_state (k_th a t) = ST_DELAYED ->
  same_end (k_th a t) (k_th b t) /\ executes_nowhere cfg b t /\ mode_of b j = mode_of a j.

Lemma idles_trans : forall a b c, idles a b -> idles b c -> idles a c.
Proof.
  intros a b c A B Hm Hx Hs. destruct (A Hm Hx Hs) as (A1 & A2 & A3).
  pose proof (same_end_fields _ _ A1) as F. destruct F as (_ & _ & _ & _ & _ & F & _).
  destruct B as (B1 & B2 & B3); [now rewrite A3|assumption|congruence|].
  split; [now apply same_end_trans with (k_th b t)|]. split; [assumption|congruence].
Qed.
Lemma idles_refl : forall a, idles a a.
Proof. intros a _ Hx _. split; [apply same_end_refl|]. auto. Qed.

Lemma idles_elected : forall c a b, half cfg a -> is_proc cfg c -> elected cfg c a b -> idles a b.
Proof.
  intros c a b Hh Hc He Hm Hx Hs.
  destruct (elected_table cfg W c a b Hh Hc He) as (Ecp & _ & _ & _ & _ & Ecur & Hcur & th1 & th2 & T1 & T2 & T3 & T4). cbv zeta in *.
  destruct (elected_part cfg c a b j He) as (Em & _).
  split; [|split; [|exact Em]].
  - enough (X : th2 t = k_th a t) by (rewrite <- X; apply T3).
    destruct (Z.eq_dec (k_cp a) j) as [E|N].
    + assert (X1 : th1 t = k_th a t).
      { rewrite E in T1. specialize (T1 t Ht). rewrite wake_dormant in T1; [now injection T1 as <-|].
        split; rewrite Hs; discriminate. }
      unfold is_init, mode_of in Hm. rewrite E in T4. destruct T4 as [(C & _)|(-> & _)]; [|exact X1].
      rewrite C in Hm. destruct Hm; discriminate.
    + assert (Nt : ~ thread_of cfg (k_cp a) t).
      { intro C. apply N. apply (ranges_disjoint cfg W _ _ t); try assumption. apply (proj1 (proj2 Hh)). }
      assert (X1 : th1 t = k_th a t) by (now apply T2). rewrite <- X1.
      destruct T4 as [(_ & _ & _ & T5 & _)|(-> & _)]; [|reflexivity]. apply T5. intros (C & _). apply (Hx c Hc). now symmetry.
  - intros x Px C. destruct (Z.eq_dec x c) as [->|Nx]; [|rewrite (Ecur x Nx) in C; now apply (Hx x)].
    destruct (user_not_idle cfg W j t c Hj Ht Hc) as (U1 & U2).
    destruct (Z.eq_dec (k_cp a) j) as [E|N].
    + unfold is_init, mode_of in Hm. rewrite E in T4.
      destruct T4 as [(D & _)|(_ & [(D & _)|[(_ & D)|(D & _)]])].
      * rewrite D in Hm. destruct Hm; discriminate.
      * rewrite D in Hm. destruct Hm; discriminate.
      * destruct (_ =? _) in D; congruence.
      * rewrite D in Hm. destruct Hm; discriminate.
    + destruct Hcur as [D|D]; [congruence|]. rewrite C in D. apply N.
      apply (ranges_disjoint cfg W _ _ t); try assumption. apply (proj1 (proj2 Hh)).
Qed.
Lemma idles_repart : forall a b, half cfg a -> repart cfg a b -> idles a b.
Proof.
  intros a b _ Hre Hm Hx Hs. apply repart_fields in Hre. destruct Hre as (E1 & E2 & _ & E3 & _).
  unfold executes_nowhere, mode_of. rewrite E1, E2, E3. split; [apply same_end_refl|]. auto.
Qed.
Lemma idles_phase : forall c ph s s', kinv cfg s -> is_proc cfg c -> run_phase cfg c ph s s' -> idles s s'.
Proof.
  intros c ph s s' I Hc H. destruct ph; cbn in H.
  - subst s'. apply idles_refl.
  - apply sched_thread_elected in H. apply idles_elected with c; try assumption. now apply kinv_half.
  - destruct H as (f & H).
    apply (global_sched_rel cfg W idles idles_trans idles_refl idles_elected idles_repart c s s' f) in H; [apply H|now apply kinv_half|assumption].
Qed.

(** What precedes scheduling leaves the thread alone. *)
Lemma init_step : forall s l s' ev, reachable cfg s -> kstep cfg s l = KNext s' ev ->
  is_init (mode_of s j) -> t <> p_error (k_part s j) -> leaves_alone cfg j t s l -> creates_nothing j s l ->
  unqueued cfg s t -> t_state (k_th s t) = ST_DELAYED -> same_end (k_th s t) (k_th s' t).
Proof.
  intros s l s' ev Hr H Hm He Hl Hcr Hq Hs. pose proof (reachable_inv cfg W s Hr) as I.
  pose proof (init_nowhere s Hr Hm He) as Hx. apply (unqueued_unq cfg W t s Hr) in Hq.
  assert (Hgo : forall c ph s1, kinv cfg s1 -> is_proc cfg c -> run_phase cfg c ph s1 s' ->
    k_th s1 t = k_th s t -> executes_nowhere cfg s1 t -> k_part s1 j = k_part s j -> same_end (k_th s t) (k_th s' t)).
  { intros c ph s1 I1 Hc Hph E Hx1 Ep. rewrite <- E. apply (idles_phase c ph s1 s' I1 Hc Hph).
    - unfold mode_of. now rewrite Ep.
    - assumption.
    - congruence. }
  destruct l as [d|c|c|c v|c].
  - cbn in H. destruct (0 <? d); [|discriminate]. injection H as <- _. apply same_end_refl.
  - cbn in H. destruct (valid_proc cfg c) eqn:V; [|discriminate]. apply valid_proc_is in V.
    destruct (global_sched cfg c s) as [[s1 f]|] eqn:G; [|discriminate]. injection H as <- _.
    apply (Hgo c PhGlobal s); auto. now exists f.
  - cbn in H. destruct (valid_proc cfg c) eqn:V; [|discriminate]. apply valid_proc_is in V.
    destruct (sched_thread cfg c s) as [s1|] eqn:G; [|discriminate]. injection H as <- _.
    apply (Hgo c PhThread s); auto.
  - destruct (step_call cfg s c v s' ev H) as (e & id & f0 & _ & HC). pose proof (calls_service cfg s c v s' e id HC) as (V & U & _ & f & G).
    destruct Hl as (Hn & Hsg & Hl). assert (Hne : t <> k_cur s c) by (intros C; apply (Hx c V); now symmetry).
    destruct (match v return {match v with SLockOp _ _ _ => True | _ => False end} + {match v with SLockOp _ _ _ => False | _ => True end}
              with SLockOp _ _ _ => left Logic.I | _ => right Logic.I end) as [Hlk|Hlk].
    { destruct v; try contradiction. destruct (lockop_phase cfg W t s c _ _ _ _ _ _ _ Hr V U G Hsg) as (s1 & ph & Hph & B & Hq1).
      destruct B as (I1 & _ & _ & _ & _ & _ & B7). destruct (B7 Logic.I) as (B8 & B9).
      apply (Hgo c ph s1); try assumption; [now apply Hq1|intros x Px; rewrite B9; now apply Hx|now rewrite B8]. }
    assert (Hok := ki_part _ _ I _ (ki_cp _ _ I)).
    destruct (service_phase cfg W c v s s' e f id I V G) as (s1 & ph & Hph & I1 & Ecp & En & Hoth & Hparts & Hst & Hcalm).
    destruct (Z.eq_dec (k_cp s) j) as [E|N].
    + destruct (raise_dec v) as [->|Nr].
      { (* the error handler is activated *)
        cbn in G. injection G as <- _ _ _. unfold activate_error_thread, cur_part. rewrite E.
        destruct (_ =? 0); [apply same_end_refl|]. cbn. rewrite upd_other by congruence. apply same_end_refl. }
      assert (Cv : calm v).
      { destruct v; try exact Logic.I.
        - now elim Hcr.
        - elim (Hl E).
        - now elim Hcr.
        - now elim Nr. }
      assert (Nw : ~ writes cfg c v s t).
      { intros Hw. destruct v; cbn in Hw; try contradiction; try (now elim Hne); destruct Hw as (Hw & _); apply Hn; cbn;
        try (now rewrite Hw). all: rewrite Hw; unfold cur_part; now rewrite (po_low _ _ _ Hok). }
      destruct (Hcalm Cv) as (Ep & Ec). specialize (Hoth t Nw).
      apply (Hgo c ph s1); try assumption; [|intros x Px; rewrite Ec; now apply Hx|now rewrite Ep].
      destruct v; try exact Hoth. contradiction.
    + assert (Nw : ~ writes cfg c v s t).
      { intros Hw. assert (K : thread_of cfg (k_cp s) t \/ names cfg (k_cp s) v = Some t).
        { destruct (caller_is cfg s c I V U) as (Hcall & _).
          destruct v; cbn in Hw |- *; try (left; exact Hw); try contradiction; try (left; now rewrite Hw);
          try (right; now destruct Hw as (-> & _)); try (right; destruct Hw as (-> & _); unfold cur_part; now rewrite (po_low _ _ _ Hok)).
          left. destruct Hw as (-> & Hw). unfold cur_part in *. destruct (po_error _ _ _ Hok) as [C|C]; [now elim Hw|unfold thread_of, in_range; lia]. }
        destruct K as [K|K]; [|now elim Hn]. apply N. now apply (ranges_disjoint cfg W _ _ t (ki_cp _ _ I)). }
      specialize (Hoth t Nw). apply (Hgo c ph s1); try assumption.
      * destruct v; try exact Hoth. contradiction.
      * intros x Px C. apply (kinv_away cfg W j s1 Hj I1 ltac:(congruence) x Px). now rewrite C.
      * apply Hparts. congruence.
  - cbn in H. destruct (valid_proc cfg c) eqn:V; [|discriminate]. apply valid_proc_is in V.
    destruct (user_thread cfg (k_cur s c)) eqn:U; [|discriminate]. destruct (negb (is_user _)); [|discriminate]. cbn in H.
    destruct (lock_continue cfg c s) as [[[s9 e] f]|] eqn:G; [|discriminate]. injection H as <- _.
    destruct (cont_phase cfg W t s c s9 e f Hr V U G) as (s1 & ph & Hph & B & Hq1).
    destruct B as (I1 & _ & _ & _ & _ & _ & B7). destruct (B7 Logic.I) as (B8 & B9).
    apply (Hgo c ph s1); try assumption; [apply Hq1; [assumption|intros C; apply (Hx c V); now symmetry]|intros x Px; rewrite B9; now apply Hx|now rewrite B8].
Qed.

Lemma init_run : forall ls s s' evs, reachable cfg s -> krun cfg s ls = Some (s', evs) -> prepares cfg j t s ls ->
  unqueued cfg s t -> t_state (k_th s t) = ST_DELAYED ->
  same_end (k_th s t) (k_th s' t) /\ unqueued cfg s' t /\ executes_nowhere cfg s' t /\
  is_init (mode_of s' j) /\ t <> p_error (k_part s' j).
Proof.
  induction ls as [|l ls IH]; intros s s' evs Hr H Hu Hq Hs; cbn in H.
  - injection H as <- _. destruct Hu as (Hm & He & _). split; [apply same_end_refl|]. split; [assumption|].
    split; [now apply init_nowhere|]. auto.
  - destruct Hu as (Hm & He & Hl & Hcr & Hu). destruct (kstep cfg s l) as [s1 ev| |] eqn:K; [| |discriminate].
    + destruct (krun cfg s1 ls) as [[s2 ev2]|] eqn:R; [|discriminate]. injection H as <- _.
      assert (Hr1 : reachable cfg s1). { apply (reachable_run cfg [l] s s1 (ev ++ [])); [assumption|]. cbn. now rewrite K. }
      pose proof (init_step s l s1 ev Hr K Hm He Hl Hcr Hq Hs) as S1.
      pose proof (same_end_fields _ _ S1) as F. destruct F as (_ & _ & _ & _ & _ & F & _).
      assert (Hq1 : unqueued cfg s1 t).
      { apply (unqueued_unq cfg W t s1 Hr1). apply (unq_step cfg W t s l s1 ev Hr K); [now apply init_nowhere|].
        now apply (unqueued_unq cfg W t s Hr). }
      destruct (IH s1 s2 ev2 Hr1 R Hu Hq1 ltac:(congruence)) as (S2 & X). split; [|exact X].
      now apply same_end_trans with (k_th s1 t).
    + now apply (IH s s' evs Hr H Hu).
Qed.

(** Scheduling after the thread was made dormant or ready, while it executes nowhere. *)
Lemma fresh_phase : forall c s1 s' f, kinv cfg s1 -> is_proc cfg c -> global_sched cfg c s1 = Some (s', f) ->
  mode_of s1 j = PM_NORMAL -> t <> p_error (k_part s1 j) -> executes_nowhere cfg s1 t ->
  (dormant cfg (k_now s1) (k_th s1 t) -> same_end (k_th s1 t) (k_th s' t) /\
    (t_state (k_th s1 t) <> ST_RUNNABLE -> executes_nowhere cfg s' t)).
Proof.
  intros c s1 s' f I1 Hc G Hm He Hx Hd.
  assert (M : mine cfg j t s1) by (split; [exact Hm|split; [exact He|intros d Hd1 _; now apply Hx]]).
  assert (Hph : run_phase cfg c PhGlobal s1 s') by (now exists f).
  assert (S1 : same_end (k_th s1 t) (k_th s' t)).
  { destruct (phase_effect cfg W j t Hj Ht c PhGlobal s1 s' I1 Hc Hph M) as (P1 & P2).
    destruct (elects_dec cfg PhGlobal c (aff t s1)) as [(El & Hxx)|N]; [|auto].
    destruct (P2 El Hxx) as (y & Y1 & Y2 & Y3 & _).
    assert (Ey : y = k_th s1 t).
    { destruct (Z.eq_dec (k_cp s') j) as [E|E]; [|auto]. specialize (Y1 E). rewrite (wake_dormant _ _ _ _ Hd) in Y1. now injection Y1 as <-. }
    subst y. destruct Y3 as [Y3|(Y3 & _)]; [assumption|]. elim (Hx _ Hxx Y3). }
  split; [exact S1|]. intros Hst x Px C. destruct (phase_gets cfg W j t Hj Ht c PhGlobal s1 s' x I1 Hc Hph M Px C) as [(_ & D)|D].
  - now apply (Hx x).
  - apply same_end_fields in S1. destruct S1 as (_ & _ & _ & _ & _ & S1 & _). congruence.
Qed.

(** The change to NORMAL mode. *)
Lemma start_step : forall s c s' id, reachable cfg s -> calls cfg s c (SSetMode PM_NORMAL) s' ERR_OK id -> k_cp s = j ->
  is_init (mode_of s j) -> t <> p_error (k_part s j) ->
  let a := normal_start cfg (k_now s) (p_activation (k_part s j)) (k_th s t) in
  dormant cfg (k_now s) a ->
  same_end a (k_th s' t) /\ (t_state a <> ST_RUNNABLE -> executes_nowhere cfg s' t) /\ k_obj s' = k_obj s /\ k_now s' = k_now s.
Proof.
  intros s c s' id Hr HC Hcp Hm He a Hd. pose proof (reachable_inv cfg W s Hr) as I. pose proof (init_nowhere s Hr Hm He) as Hx.
  apply calls_service in HC. destruct HC as (V & U & _ & f & G). cbn in G.
  destruct (set_mode_current cfg c PM_NORMAL s) as [[[s2 e2] f2]|] eqn:E; [|discriminate]. injection G as -> -> _ _.
  unfold set_mode_current in E. destruct (_ && _) in E; [unfold ret in E; discriminate|].
  unfold set_mode in E. replace (PM_NORMAL =? PM_NORMAL) with true in E by reflexivity.
  destruct (_ =? PM_IDLE) in E; [unfold ret in E; discriminate|].
  destruct (negb _) in E; [unfold ret in E; discriminate|]. cbv zeta in E. unfold then_global in E.
  assert (Hok := ki_part _ _ I _ (ki_cp _ _ I)).
  match type of E with context [global_sched cfg c ?z] => set (s1 := z) in E end.
  destruct (global_sched cfg c s1) as [[s3 f3]|] eqn:GS; [|discriminate]. injection E as -> _.
  assert (I1 : kinv cfg s1).
  { unfold s1. do 2 apply kinv_th. apply kinv_part; [assumption|]. intros Hp. apply set_mode_ok; [|unfold known_mode; auto]. now apply (ki_part _ _ I). }
  assert (Eth : k_th s1 t = a).
  { unfold s1, a. cbn. rewrite Hcp in *. rewrite (po_low _ _ _ Hok), (po_nthreads _ _ _ Hok), (po_main _ _ _ Hok).
    pose proof (sp_threads cfg W _ Hj). unfold thread_of, in_range, high_of in Ht.
    rewrite upd_other by lia. apply normal_loop_inside. lia. }
  destruct (fresh_phase c s1 s' f3 I1 V GS) as (S1 & S2).
  - unfold mode_of, s1. cbn. rewrite <- Hcp, upd_same. reflexivity.
  - unfold s1. cbn. rewrite <- Hcp, upd_same. cbn. now rewrite Hcp.
  - exact Hx.
  - rewrite Eth. exact Hd.
  - rewrite Eth in S1, S2. split; [assumption|]. split; [assumption|].
    destruct (phase_keeps cfg W c PhGlobal s1 s' I1 V (ex_intro _ f3 GS)) as (_ & Eo & _). split; [exact Eo|].
    apply global_sched_clock in GS. destruct GS as (GS & _). apply (f_equal ck_now) in GS. rewrite next_clock_now in GS. exact GS.
Qed.

(** ** The service itself *)
Lemma own_bounds : forall s, kinv cfg s -> k_cp s = j -> in_bounds s t = true.
Proof.
  intros s I Hcp. assert (Hok := ki_part _ _ I _ (ki_cp _ _ I)). unfold in_bounds, cur_part.
  rewrite (po_low _ _ _ Hok), (po_high _ _ _ Hok), Hcp. unfold thread_of, in_range in Ht.
  destruct (Z.ltb_spec t (low_of cfg j)); [lia|]. destruct (Z.ltb_spec (high_of cfg j) t); [lia|]. reflexivity.
Qed.
Lemma live_partition : forall s, reachable cfg s -> live cfg s j t -> t_partition (k_th s t) = j.
Proof.
  intros s Hr Hl. destruct (reach_stack cfg W s Hr j Hj) as (f & H & _). destruct (H t Hl) as (E & _). unfold place in E. congruence.
Qed.
(** ... during initialisation. *)
Lemma delay_init : forall s c us s' e id, reachable cfg s -> calls cfg s c (SDelayedStart t us) s' e id -> k_cp s = j ->
  live cfg s j t -> is_init (mode_of s j) ->
  e = ERR_OK /\ s' = on_th t (fun x => set_t_wakeup (us * 1000) (set_t_state ST_DELAYED (set_t_priority (t_base_prio x) x))) s.
Proof.
  intros s c us s' e id Hr HC Hcp Hl Hm. pose proof (reachable_inv cfg W s Hr) as I.
  apply calls_service in HC. destruct HC as (V & U & _ & f & G). unfold service in G. cbv zeta in G.
  rewrite (own_bounds s I Hcp), (live_partition s Hr Hl) in G.
  assert (Nn : (p_mode (k_part s j) =? PM_NORMAL) = false).
  { unfold is_init, mode_of in Hm. destruct Hm as [-> | ->]; reflexivity. }
  rewrite Nn, andb_false_r in G. cbn in G. injection G as <- <- _ _. split; [reflexivity|].
  unfold on_th. f_equal. f_equal. unfold delayed_start_thread. rewrite Nn. now destruct (_ =? INFINITE).
Qed.
(** ... in NORMAL mode. *)
Lemma delay_normal : forall s c us s' e id, reachable cfg s -> calls cfg s c (SDelayedStart t us) s' e id -> k_cp s = j ->
  live cfg s j t -> mode_of s j = PM_NORMAL -> t <> p_error (k_part s j) -> executes_nowhere cfg s t ->
  t_period (k_th s t) = INFINITE -> 0 <= us -> k_now s + us * 1000 < 2 ^ 64 -> 0 <= k_now s ->
  e = ERR_OK /\ k_obj s' = k_obj s /\ k_now s' = k_now s /\
  (us = 0 -> t_state (k_th s' t) = ST_RUNNABLE) /\
  (us <> 0 -> t_state (k_th s' t) = ST_WAITING /\ t_wakeup (k_th s' t) = k_now s + us * 1000 /\ executes_nowhere cfg s' t).
Proof.
  intros s c us s' e id Hr HC Hcp Hl Hm He Hx Hp Hus Hb Hn. pose proof (reachable_inv cfg W s Hr) as I.
  apply calls_service in HC. destruct HC as (V & U & _ & f & G). unfold service in G. cbv zeta in G.
  rewrite (own_bounds s I Hcp), (live_partition s Hr Hl) in G. unfold mode_of in Hm. rewrite Hp, Hm in G.
  replace ((INFINITE =? INFINITE) && (PM_NORMAL =? PM_NORMAL)) with true in G by reflexivity. unfold then_global in G.
  match type of G with context [global_sched cfg c ?z] => set (s1 := z) in G end.
  destruct (global_sched cfg c s1) as [[s3 f3]|] eqn:GS; [|discriminate]. cbn in G. injection G as <- <- _ _.
  assert (I1 : kinv cfg s1) by (unfold s1; now apply kinv_th).
  assert (Eth : k_th s1 t = delayed_start_thread PM_NORMAL (k_now s) (us * 1000) (k_th s t)) by (unfold s1, on_th; cbn; now rewrite upd_same).
  set (a := delayed_start_thread PM_NORMAL (k_now s) (us * 1000) (k_th s t)) in *.
  assert (Ha : (us = 0 -> t_state a = ST_RUNNABLE) /\ (us <> 0 -> t_state a = ST_WAITING /\ t_wakeup a = k_now s + us * 1000)).
  { unfold a, delayed_start_thread. cbv zeta. replace (t_period (set_t_priority (t_base_prio (k_th s t)) (k_th s t))) with INFINITE by (now rewrite <- Hp).
    rewrite !Z.eqb_refl. destruct (Z.eqb_spec (us * 1000) 0).
    - split; [|lia]. intros _. now destruct (0 <? _).
    - split; [lia|]. intros _. split; [reflexivity|]. cbn. unfold u64. apply Z.mod_small. lia. }
  assert (Hd : dormant cfg (k_now s1) (k_th s1 t)).
  { rewrite Eth. change (k_now s1) with (k_now s). destruct Ha as (A1 & A2). unfold dormant. destruct (Z.eq_dec us 0) as [Ez|N].
    - rewrite (A1 Ez). split; discriminate.
    - destruct (A2 N) as (-> & ->). split; [intros _; left; lia|discriminate]. }
  destruct (fresh_phase c s1 s3 f3 I1 V GS Hm He Hx Hd) as (S1 & S2). rewrite Eth in S1, S2.
  split; [reflexivity|].
  destruct (phase_keeps cfg W c PhGlobal s1 s3 I1 V (ex_intro _ f3 GS)) as (_ & Eo & _). split; [exact Eo|].
  apply global_sched_clock in GS. destruct GS as (GS & _). apply (f_equal ck_now) in GS. rewrite next_clock_now in GS. split; [exact GS|].
  apply same_end_fields in S1. destruct S1 as (_ & F2 & F3 & F4 & F5 & F6 & F7). destruct Ha as (A1 & A2). split.
  - intros E. specialize (A1 E). congruence.
  - intros N. destruct (A2 N) as (B1 & B2). split; [congruence|]. split; [|apply S2; rewrite B1; discriminate]. rewrite <- B2. tauto.
Qed.
End Delay.
