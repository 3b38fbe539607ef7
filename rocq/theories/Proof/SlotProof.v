(** Executions follow the slot table. *)
From Verif Require Import Model.Base Model.State Model.LockFifo Model.LockObj Model.LockSys Model.Sched
  Model.Kernel Spec.SchedSpec Spec.KernelSpec Proof.Tac Proof.SchedProof Proof.KernelBasic Proof.FairProof Proof.ClockProof.

Lemma init_partitions_clock : forall n cfg i ti li s s', init_partitions n cfg i ti li s = Some s' -> clock_of s' = clock_of s.
Proof.
  induction n as [|n IH]; intros cfg i ti li s s' H; cbn in H; [now injection H as <-|].
  destruct (init_partition cfg i ti li s) as [s1|] eqn:E; [|discriminate]. apply IH in H. rewrite H.
  unfold init_partition in E. destruct (get_proc_real_id _ _); [|discriminate].
  apply setup_main_clock in E. rewrite E. reflexivity.
Qed.
Lemma kboot_clock : forall cfg s, kboot cfg = Some s -> clock_of s = mkClock (c_alloc cfg 0) 0 (c_slot cfg 0) 0.
Proof.
  intros cfg s H. unfold kboot in H. destruct (init_partitions _ _ _ _ _ _) as [s1|] eqn:E; [|discriminate].
  injection H as <-. apply init_partitions_clock in E. unfold clock_of in *. cbn in *. congruence.
Qed.

Lemma next_clock_now : forall cfg k, ck_now (next_clock cfg k) = ck_now k.
Proof. intros. unfold next_clock. destruct (_ <=? 1); [reflexivity|]. now destruct (_ <=? _). Qed.

Lemma kstep_now : forall cfg s l s' ev, kstep cfg s l = KNext s' ev -> k_now s <= k_now s'.
Proof.
  intros cfg s l s' ev H. apply kstep_clock in H.
  assert (C : forall s s', clock_step cfg s s' -> k_now s' = k_now s).
  { intros a b [E|E].
    - now apply (f_equal ck_now) in E.
    - apply (f_equal ck_now) in E. rewrite next_clock_now in E. exact E. }
  destruct l; try (apply C in H; lia).
  - destruct H as (Hd & ->). cbn. lia.
  - destruct H as (_ & E). apply (f_equal ck_now) in E. rewrite next_clock_now in E. cbn in E. lia.
Qed.
Lemma krun_now : forall cfg ls s s' evs, krun cfg s ls = Some (s', evs) -> k_now s <= k_now s'.
Proof.
  induction ls as [|l ls IH]; intros s s' evs H; cbn in H.
  - injection H as <- _. lia.
  - destruct (kstep cfg s l) as [s1 ev| |] eqn:E; [| |discriminate].
    + destruct (krun cfg s1 ls) as [[s2 ev2]|] eqn:R; [|discriminate]. injection H as <- _.
      apply kstep_now in E. apply IH in R. lia.
    + now apply IH in H.
Qed.

(** ** One partition *)
Lemma find_slot : forall f n r, (forall k, 0 <= k < n -> 0 <= f k) -> 0 <= n -> 0 <= r < sum_to f n ->
  exists i, 0 <= i < n /\ sum_to f i <= r < sum_to f (i + 1).
Proof.
  intros f n r Hf Hn. replace n with (Z.of_nat (Z.to_nat n)) in * by lia. revert r Hf.
  generalize (Z.to_nat n) as m. clear n Hn. induction m as [|m IH]; intros r Hf Hr.
  - rewrite sum_to_0 in Hr. lia.
  - rewrite Nat2Z.inj_succ, <- Z.add_1_r in *. rewrite sum_to_succ in Hr by lia.
    destruct (Z.lt_ge_cases r (sum_to f (Z.of_nat m))) as [L|L].
    + destruct (IH r) as (i & Hi & Hs); [intros; apply Hf; lia|lia|]. exists i. split; [lia|assumption].
    + exists (Z.of_nat m). split; [lia|]. rewrite sum_to_succ by lia. lia.
Qed.
Lemma major_pos : forall cfg, supported cfg -> 0 < c_major cfg.
Proof.
  intros cfg W. rewrite (sp_major cfg W). pose proof (sp_nslots cfg W).
  pose proof (sum_to_mono (c_slot cfg) (c_nslots cfg) 1 (c_nslots cfg) (slots_nonneg cfg W) ltac:(lia) ltac:(lia) ltac:(lia)) as H1.
  rewrite (sum_to_succ _ 0) in H1 by lia. rewrite sum_to_0 in H1. pose proof (sp_slots cfg W 0 ltac:(lia)). lia.
Qed.
Lemma owner_total : forall cfg t, supported cfg -> exists i, 0 <= i < c_nslots cfg /\ owner cfg t = Some (c_alloc cfg i).
Proof.
  intros cfg t W. pose proof (major_pos cfg W) as Hm.
  pose proof (Z.mod_pos_bound t (c_major cfg) Hm) as Hb. rewrite (sp_major cfg W) in Hb at 3.
  destruct (find_slot (c_slot cfg) (c_nslots cfg) (t mod c_major cfg) (slots_nonneg cfg W)) as (i & Hi & Hs).
  - pose proof (sp_nslots cfg W). lia.
  - lia.
  - exists i. split; [assumption|]. unfold owner. now apply owner_slot.
Qed.

(** ** Several partitions *)
Definition tracked (cfg : config) (s : kstate) (g : Z) : Prop :=
  exists t, k_now s - g <= t <= k_now s /\ 0 <= t /\
    (1 < c_nparts cfg -> in_slot cfg (clock_of s) t) /\ (c_nparts cfg <= 1 -> k_cp s = 0).

Lemma tracked_owner : forall cfg s g, supported cfg -> tracked cfg s g ->
  exists t, k_now s - g <= t <= k_now s /\ owner cfg t = Some (k_cp s).
Proof.
  intros cfg s g W (t & Ht & _ & Hmany & Hone). exists t. split; [assumption|].
  destruct (Z.lt_ge_cases 1 (c_nparts cfg)) as [L|L].
  - specialize (Hmany L). apply in_slot_owner in Hmany; [exact Hmany|assumption].
  - rewrite (Hone L). destruct (owner_total cfg t W) as (i & Hi & ->).
    pose proof (sp_alloc cfg W i Hi) as Ha. unfold is_part in Ha. f_equal. lia.
Qed.

Lemma tracked_next : forall cfg s s' g, supported cfg -> tracked cfg s g ->
  (forall i, 0 <= i < c_nslots cfg -> g <= c_slot cfg i) -> 0 <= g ->
  k_now s + c_major cfg < 2 ^ 64 ->
  clock_of s' = next_clock cfg (clock_of s) -> tracked cfg s' 0.
Proof.
  intros cfg s s' g W (t & Ht & H0 & Hmany & Hone) Hg Hg0 Hw E.
  assert (En : k_now s' = k_now s).
  { apply (f_equal ck_now) in E. rewrite next_clock_now in E. exact E. }
  exists (k_now s'). rewrite En. split; [lia|]. split; [lia|]. split.
  - intro L. rewrite E. change (k_now s) with (ck_now (clock_of s)).
    apply next_clock_in_slot with t; [assumption|assumption|now apply Hmany| | |]; cbn [clock_of ck_now].
    + lia.
    + intros i Hi. specialize (Hg i Hi). lia.
    + lia.
  - intro L. apply (f_equal ck_cp) in E. cbn in E. rewrite E. unfold next_clock.
    destruct (Z.leb_spec (c_nparts cfg) 1); [|lia]. exact (Hone L).
Qed.
Lemma tracked_weaken : forall cfg s g g', tracked cfg s g -> g <= g' -> tracked cfg s g'.
Proof. intros cfg s g g' (t & Ht & H) Hle. exists t. split; [lia|assumption]. Qed.
Lemma tracked_same : forall cfg s s' g, tracked cfg s g -> clock_of s' = clock_of s -> tracked cfg s' g.
Proof.
  intros cfg s s' g (t & Ht & H0 & Hm & Ho) E. exists t.
  assert (En := f_equal ck_now E). assert (Ec := f_equal ck_cp E). cbn in En, Ec.
  rewrite En, E, Ec. auto.
Qed.

Lemma timely_tracked : forall cfg, supported cfg -> forall ls s s' evs g,
  tracked cfg s g -> 0 <= g -> (forall i, 0 <= i < c_nslots cfg -> g <= c_slot cfg i) ->
  timely cfg g ls -> krun cfg s ls = Some (s', evs) -> k_now s' + c_major cfg < 2 ^ 64 ->
  tracked cfg s' (since_timer g ls).
Proof.
  intros cfg W. induction ls as [|l ls IH]; intros s s' evs g Htr Hg Hgs Hti Hrun Hw.
  - cbn in Hrun. injection Hrun as <- _. exact Htr.
  - cbn [krun] in Hrun.
    destruct (kstep cfg s l) as [s1 ev| |] eqn:E; [| |discriminate].
    + destruct (krun cfg s1 ls) as [[s2 ev2]|] eqn:R; [|discriminate]. injection Hrun as <- _.
      pose proof (krun_now _ _ _ _ _ R) as Hn2. pose proof (kstep_now _ _ _ _ _ E) as Hn1.
      apply kstep_clock in E.
      assert (Hother : clock_step cfg s s1 -> timely cfg g ls -> tracked cfg s2 (since_timer g ls)).
      { intros Hc Ht. apply (IH s1 s2 ev2 g); try assumption. destruct Hc as [Hc|Hc].
        - apply tracked_same with s; assumption.
        - apply tracked_weaken with 0; [|assumption]. apply tracked_next with s g; try assumption. lia. }
      destruct l; cbn [since_timer timely] in *; try (apply Hother; assumption).
      * destruct Hti as (Hd & Hgd & Hti). destruct E as (_ & ->).
        apply (IH _ _ _ _) with (5 := R); try assumption; try lia.
        destruct Htr as (t & Ht & H0 & Hm & Ho). exists t. cbn. split; [lia|]. split; [lia|].
        split; [|exact Ho]. intro L. specialize (Hm L). unfold in_slot in *. cbn in *. exact Hm.
      * destruct Hti as (Hp & Hti). destruct E as (_ & E).
        apply (IH s1 s2 ev2 0); [|lia| |assumption|assumption|assumption].
        -- apply tracked_next with s g; try assumption. lia.
        -- intros i Hi. pose proof (sp_slots cfg W i Hi). lia.
    + (* disabled *)
      destruct l; cbn [since_timer timely] in *; try (eapply IH; eassumption).
      * destruct Hti as (Hd & _). cbn in E. destruct (Z.ltb_spec 0 d); [discriminate|lia].
      * destruct Hti as (Hp & _). cbn in E. unfold valid_proc in E. unfold is_proc in Hp.
        rewrite (proj2 (Z.leb_le 0 c)), (proj2 (Z.ltb_lt c (c_nprocs cfg))) in E by lia. cbn in E.
        destruct (global_sched cfg c s) as [[? ?]|]; discriminate.
Qed.

Lemma boot_tracked : forall cfg s, supported cfg -> kboot cfg = Some s -> tracked cfg s 0.
Proof.
  intros cfg s W H. apply kboot_clock in H. exists 0.
  assert (En := f_equal ck_now H). assert (Ec := f_equal ck_cp H). cbn in En, Ec.
  rewrite En, H, Ec. split; [lia|]. split; [lia|]. pose proof (sp_nslots cfg W) as Hn.
  pose proof (sp_slots cfg W 0 ltac:(lia)) as Hs. split.
  - intros _. unfold in_slot. cbn [ck_slot ck_deadline ck_cp]. split; [lia|]. split; [|split; [lia|reflexivity]].
    exists 0. split; [lia|]. rewrite sum_to_succ by lia. rewrite sum_to_0. lia.
  - intro L. pose proof (sp_alloc cfg W 0 ltac:(lia)) as Ha. unfold is_part in Ha. lia.
Qed.

Lemma timely_owner : forall cfg s0 ls s evs,
  supported cfg -> kboot cfg = Some s0 -> krun cfg s0 ls = Some (s, evs) -> timely cfg 0 ls ->
  k_now s + c_major cfg < 2 ^ 64 ->
  exists t, k_now s - since_timer 0 ls <= t <= k_now s /\ owner cfg t = Some (k_cp s).
Proof.
  intros cfg s0 ls s evs W Hb Hr Ht Hw. apply tracked_owner; [assumption|].
  eapply timely_tracked; try eassumption; try lia.
  - now apply boot_tracked.
  - intros i Hi. pose proof (sp_slots cfg W i Hi). lia.
Qed.

Lemma timely_exact : forall cfg s0 ls s evs,
  supported cfg -> kboot cfg = Some s0 -> krun cfg s0 ls = Some (s, evs) -> timely cfg 0 ls ->
  since_timer 0 ls = 0 -> k_now s + c_major cfg < 2 ^ 64 -> owner cfg (k_now s) = Some (k_cp s).
Proof.
  intros cfg s0 ls s evs W Hb Hr Ht Hs Hw. destruct (timely_owner cfg s0 ls s evs W Hb Hr Ht Hw) as (t & Hti & Ho).
  rewrite Hs in Hti. now replace (k_now s) with t by lia.
Qed.

Lemma timely_same : forall cfg s0 ls1 s1 evs1 ls2 s2 evs2,
  supported cfg -> kboot cfg = Some s0 ->
  krun cfg s0 ls1 = Some (s1, evs1) -> timely cfg 0 ls1 -> since_timer 0 ls1 = 0 ->
  krun cfg s0 ls2 = Some (s2, evs2) -> timely cfg 0 ls2 -> since_timer 0 ls2 = 0 ->
  k_now s1 = k_now s2 -> k_now s1 + c_major cfg < 2 ^ 64 -> k_cp s1 = k_cp s2.
Proof.
  intros cfg s0 ls1 s1 evs1 ls2 s2 evs2 W Hb R1 T1 G1 R2 T2 G2 E Hw.
  pose proof (timely_exact cfg s0 ls1 s1 evs1 W Hb R1 T1 G1 Hw) as O1. rewrite E in Hw, O1.
  pose proof (timely_exact cfg s0 ls2 s2 evs2 W Hb R2 T2 G2 Hw) as O2. congruence.
Qed.
