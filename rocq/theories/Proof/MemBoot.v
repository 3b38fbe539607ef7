(** Memory after boot. *)
From Verif Require Import Model.Base Model.State Model.LockFifo Model.LockObj Model.LockSys Model.Sched
  Model.Kernel Spec.SchedSpec Spec.KernelSpec Spec.MemSpec Spec.SpaceSpec Proof.Tac Proof.SchedProof Proof.KernelBasic
  Proof.ClockProof Proof.SlotProof Proof.KernelInv Proof.ElectProof Proof.ServiceProof Proof.MemKernel.

Section Boot.
Variable cfg : config.
Hypothesis W : supported cfg.

(** Start of the memory of partition [i]: the partitions follow each other, separated by the kernel stack of
    the main thread. *)
Definition part_addr (i : Z) : Z := c_heap cfg + sum_to (c_size cfg) i + 8192 * i.

Definition laid (s : kstate) (j : Z) : Prop :=
  k_present s j = true /\ place (k_th s (low_of cfg j)) = (j, stack_no cfg j 0) /\
  (memory_fits cfg -> p_base (k_part s j) = part_addr j).

Lemma part_addr_succ : forall i, 0 <= i -> part_addr (i + 1) = part_addr i + c_size cfg i + 8192.
Proof. intros i Hi. unfold part_addr. rewrite sum_to_succ by assumption. lia. Qed.
Lemma part_addr_bound : forall i, memory_fits cfg -> 0 <= i <= c_nparts cfg -> c_heap cfg <= part_addr i < 2 ^ 32.
Proof.
  intros i (H1 & H2 & H3) Hi. unfold part_addr. pose proof (sp_procs cfg W).
  pose proof (sum_to_nonneg (c_size cfg) (c_nparts cfg) i H2 Hi).
  pose proof (sum_to_mono (c_size cfg) (c_nparts cfg) i (c_nparts cfg) H2 ltac:(lia)). lia.
Qed.

Lemma boot_loop : forall n i s s', 0 <= i -> i + Z.of_nat n <= c_nparts cfg ->
  (forall j, 0 <= j < i -> laid s j) -> (memory_fits cfg -> k_brk s = part_addr i) ->
  init_partitions n cfg i (low_of cfg i) (lo_low_of cfg i) s = Some s' ->
  (forall j, 0 <= j < i + Z.of_nat n -> laid s' j) /\ (memory_fits cfg -> k_brk s' = part_addr (i + Z.of_nat n)).
Proof.
  induction n as [|n IH]; intros i s s' Hi Hn HL Hb H; cbn [init_partitions] in H.
  - injection H as <-. rewrite Z.add_0_r. auto.
  - destruct (init_partition cfg i (low_of cfg i) (lo_low_of cfg i) s) as [s1|] eqn:E; [|discriminate].
    assert (Hip : is_part cfg i) by (unfold is_part; lia).
    unfold init_partition in E. destruct (get_proc_real_id _ _) as [mp|] eqn:Emp; [|discriminate].
    match type of E with setup_main_thread _ _ ?x = _ => set (sb := x) in * end.
    pose proof (low_lt_high cfg W i Hip) as Hlh.
    pose proof (lo_high_bound cfg W i Hip) as Hlo. pose proof (lo_low_nonneg cfg W i ltac:(unfold is_part in Hip; lia)) as Hlo0.
    pose proof (sp_objs cfg W i Hip) as Hob. unfold lo_high_of in Hlo.
    assert (Hu8 : u8 (lo_low_of cfg i + c_lockobjs cfg i) = lo_low_of cfg i + c_lockobjs cfg i) by (apply u8_small; lia).
    assert (Epi : k_part sb i = mkPart (k_brk s) (c_size cfg i) (c_threads cfg i) (c_sched cfg i) 0
               (fun j => idle cfg j) (fun j => idle cfg j) (low_of cfg i) (low_of cfg i + c_threads cfg i) 0
               (lo_low_of cfg i) (lo_low_of cfg i + c_lockobjs cfg i) 0 0 (c_entry cfg i) mp PM_WARM).
    { unfold sb. cbn. rewrite upd_same, Hu8. reflexivity. }
    destruct (setup_main_shape cfg W i sb s1 Hip) as (F1 & F2 & F3 & F4 & F5 & F6 & F7 & F8 & aff & _ & F9); try (rewrite Epi; cbn; auto; fail); try assumption.
    rewrite Hu8 in H. change (low_of cfg i + c_threads cfg i) with (high_of cfg i) in H.
    change (lo_low_of cfg i + c_lockobjs cfg i) with (lo_high_of cfg i) in H.
    rewrite high_is_next, lo_high_is_next in H by assumption.
    assert (Hpl : forall j, 0 <= j < i + 1 -> laid s1 j).
    { intros j Hj. unfold laid. destruct (Z.eq_dec j i) as [->|Hne].
      - rewrite F4, F6, F9, upd_same, Epi. cbn [p_base set_p_main set_p_index p_size p_main_entry].
        split; [unfold sb; cbn; apply upd_same|]. split; [|exact Hb].
        assert (Es : stack_no cfg i 0 = u32 (c_size cfg i - 4 - c_stack cfg)) by (unfold stack_no; f_equal; lia).
        rewrite Es. reflexivity.
      - destruct (HL j ltac:(lia)) as (G1 & G2 & G3). rewrite F4, F5, F9 by assumption.
        split; [unfold sb; cbn; rewrite upd_other by assumption; exact G1|]. split.
        + rewrite upd_other; [exact G2|]. intros C. apply Hne.
          apply (ranges_disjoint cfg W j i (low_of cfg j)); [unfold is_part; lia|assumption| |].
          * pose proof (low_lt_high cfg W j ltac:(unfold is_part; lia)). unfold thread_of, in_range. lia.
          * rewrite C. unfold thread_of, in_range. lia.
        + unfold sb. cbn. rewrite upd_other by assumption. exact G3. }
    destruct (IH (i + 1) s1 s') as (R1 & R2); try assumption; try lia.
    { intros Hf. rewrite F8. unfold sb. cbn [k_brk set_k_brk on_part set_k_part set_k_cur set_k_present].
      rewrite (Hb Hf). rewrite part_addr_succ by assumption.
      pose proof (part_addr_bound i Hf ltac:(unfold is_part in *; lia)) as B1.
      pose proof (part_addr_bound (i + 1) Hf ltac:(unfold is_part in *; lia)) as B2. rewrite part_addr_succ in B2 by assumption.
      destruct Hf as (Hf0 & Hf1 & _). specialize (Hf1 i Hip). unfold KERNEL_STACK. unfold u32. rewrite !Z.mod_small by lia. reflexivity. }
    replace (i + Z.of_nat (S n)) with (i + 1 + Z.of_nat n) by lia. auto.
Qed.

Lemma boot_mem : forall s, kboot cfg = Some s ->
  (forall j, is_part cfg j -> laid s j) /\
  (memory_fits cfg -> k_brk s = part_addr (c_nparts cfg) + 8192 * c_nprocs cfg) /\ stack_inv cfg s.
Proof.
  intros s H. pose proof (kboot_state cfg W s H) as (HB & _).
  unfold kboot in H. destruct (init_partitions _ _ _ _ _ _) as [s1|] eqn:E; [|discriminate]. injection H as <-.
  pose proof (sp_parts cfg W).
  destruct (boot_loop (Z.to_nat (c_nparts cfg)) 0 (zero_kstate cfg) s1) as (G1 & G2); try lia; try assumption.
  { intros _. unfold part_addr. rewrite sum_to_0. change (k_brk (zero_kstate cfg)) with (c_heap cfg). lia. }
  assert (Hn : 0 + Z.of_nat (Z.to_nat (c_nparts cfg)) = c_nparts cfg) by lia. rewrite Hn in *.
  match goal with |- context [set_k_obj ?o ?x] => set (s2 := set_k_obj o x) in * end.
  assert (Ep : forall t, place (k_th s2 t) = place (k_th s1 t)).
  { intros t. cbn. destruct (_ && _); reflexivity. }
  assert (HL : forall j, is_part cfg j -> laid s2 j).
  { intros j Hj. destruct (G1 j Hj) as (A1 & A2 & A3). split; [exact A1|]. split; [rewrite Ep; exact A2|exact A3]. }
  split; [exact HL|]. split.
  - intros Hf. change (u32 (k_brk s1 + c_nprocs cfg * 8192) = part_addr (c_nparts cfg) + 8192 * c_nprocs cfg). rewrite (G2 Hf). pose proof (part_addr_bound (c_nparts cfg) Hf ltac:(lia)) as B.
    destruct Hf as (Hf0 & Hf1 & Hf2). pose proof (sp_procs cfg W).
    unfold u32. rewrite Z.mod_small; [lia|]. unfold part_addr in *. lia.
  - intros j Hj. exists (fun _ => 0). destruct (HB j Hj) as (_ & _ & _ & Hix & _). unfold stack_map, live. rewrite Hix. split.
    + intros t Ht. assert (t = low_of cfg j) by lia. subst t. split; [|lia]. apply HL. exact Hj.
    + intros t t' Ht Ht' _. lia.
Qed.

Lemma reach_stack : forall s, reachable cfg s -> stack_inv cfg s.
Proof.
  apply (reachable_ind_inv cfg W).
  - intros s H. now apply boot_mem.
  - intros s l s' ev I Hs H. now apply (step_mem cfg W s l s' ev I H).
Qed.
Lemma reach_base : forall s, memory_fits cfg -> reachable cfg s -> forall i, is_part cfg i -> p_base (k_part s i) = part_addr i.
Proof.
  intros s Hf. apply (reachable_ind_inv cfg W (fun s => forall i, is_part cfg i -> p_base (k_part s i) = part_addr i)).
  - intros s0 H i Hi. destruct (boot_mem s0 H) as (G & _). now apply G.
  - intros s0 l s' ev I Hs H i Hi. destruct (step_mem cfg W s0 l s' ev I H) as (G & _). destruct (G i) as (-> & _). now apply Hs.
Qed.
Lemma reach_size : forall s, reachable cfg s -> forall i, is_part cfg i -> p_size (k_part s i) = c_size cfg i.
Proof. intros s H i Hi. apply (po_size _ _ _ (ki_part _ _ (reachable_inv cfg W s H) i Hi)). Qed.

(** The break along a history that allocates [n] kernel stacks at most. *)
Lemma run_brk : forall ls s s' evs lo, kinv cfg s -> lo <= k_brk s -> 0 <= lo -> k_brk s + 8192 * Z.of_nat (length ls) < 2 ^ 32 ->
  krun cfg s ls = Some (s', evs) -> lo <= k_brk s' /\ k_brk s' <= k_brk s + 8192 * Z.of_nat (length ls).
Proof.
  induction ls as [|l ls IH]; intros s s' evs lo I Hlo H0 Hb H; cbn in H.
  - injection H as <- _. cbn. lia.
  - cbn [length] in Hb |- *. rewrite Nat2Z.inj_succ in *. destruct (kstep cfg s l) as [s1 ev| |] eqn:E; [| |discriminate].
    + destruct (krun cfg s1 ls) as [[s2 ev2]|] eqn:R; [|discriminate]. injection H as <- _.
      destruct (step_mem cfg W s l s1 ev I E) as (_ & Hk & _).
      assert (Hk1 : lo <= k_brk s1 <= k_brk s + 8192).
      { destruct Hk as [-> | ->]; [lia|]. unfold u32. rewrite Z.mod_small by lia. lia. }
      pose proof (kstep_inv cfg W s l s1 ev I E) as I1. destruct (IH s1 s2 ev2 lo I1 ltac:(lia) H0 ltac:(lia) R) as (G1 & G2). lia.
    + destruct (IH s s' evs lo I Hlo H0 ltac:(lia) H) as (G1 & G2). lia.
Qed.

(** ** Segments *)
Lemma present_run : forall ls s s' evs (V : Z -> Prop), kinv cfg s -> stack_inv cfg s ->
  k_present s (k_cp s) = true -> (forall q, is_part cfg q -> V q -> q <> k_cp s -> k_present s q = false) ->
  clean_switches cfg s ls -> krun cfg s ls = Some (s', evs) ->
  k_present s' (k_cp s') = true /\
  (forall q, is_part cfg q -> V q \/ was_current cfg q s ls -> q <> k_cp s' -> k_present s' q = false).
Proof.
  induction ls as [|l ls IH]; intros s s' evs V I Hs Hp HV Hc H; cbn in H, Hc |- *.
  - injection H as <- _. split; [assumption|]. intros q Hq [Q|[Q|Q]] Hne; [now apply HV|congruence|contradiction].
  - destruct (kstep cfg s l) as [s1 ev| |] eqn:E; [| |discriminate].
    + destruct (krun cfg s1 ls) as [[s2 ev2]|] eqn:R; [|discriminate]. injection H as <- _. destruct Hc as (Hc1 & Hc2).
      pose proof (kstep_inv cfg W s l s1 ev I E) as I1. destruct (step_mem cfg W s l s1 ev I E) as (_ & _ & Hs1). specialize (Hs1 Hs).
      destruct (step_present cfg W s l s1 ev I Hs E) as (P1 & P2).
      destruct (Z.eq_dec (k_cp s1) (k_cp s)) as [Ec|Ec].
      * specialize (P1 Ec). destruct (IH s1 s2 ev2 V) as (G1 & G2); try assumption; try (rewrite P1, Ec; assumption).
        split; [assumption|]. intros q Hq Q Hne. apply G2; try assumption. destruct Q as [Q|[Q|Q]]; auto.
        right. destruct ls; cbn; left; congruence.
      * specialize (P2 Ec Hc1). destruct (IH s1 s2 ev2 (fun q => V q \/ q = k_cp s)) as (G1 & G2); try assumption.
        { rewrite P2. apply upd_same. }
        { rewrite P2. intros q Hq Q Hne. rewrite upd_other by assumption. unfold upd. destruct (Z.eqb_spec q (k_cp s)); [reflexivity|].
          apply HV; tauto. }
        split; [assumption|]. intros q Hq Q Hne. apply G2; try assumption. destruct Q as [Q|[Q|Q]]; auto.
    + destruct (IH s s' evs V) as (G1 & G2); try assumption. split; [assumption|]. intros q Hq Q Hne. apply G2; try assumption.
      destruct Q as [Q|[Q|Q]]; auto. right. destruct ls; cbn; left; congruence.
Qed.
End Boot.
