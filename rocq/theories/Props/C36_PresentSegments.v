(** C36: exactly the segments of the running partition are present.

    False in both directions. All partitions' segments are present after boot until their partition is
    switched out for the first time; and idle threads count as threads of partition 0, so that a change of
    partition from or to an idle thread disables or enables the segments of partition 0 instead. What holds
    is given for histories in which no idle thread is involved in a change of partition. *)
From Verif Require Import Model.Base Model.State Model.LockFifo Model.LockObj Model.LockSys Model.Sched Model.Kernel
  Spec.SchedSpec Spec.KernelSpec Spec.MemSpec Spec.SpaceSpec Spec.Demo Proof.Tac Proof.KernelBasic Proof.KernelInv
  Model.Mem Proof.MemProof Proof.MemKernel Proof.MemBoot.

(** The full statement. *)
Definition C36_statement : Prop := forall cfg s c p, supported cfg -> reachable cfg s -> is_proc cfg c -> is_part cfg p ->
  thread_of cfg p (k_cur s c) ->
  k_present s p = true /\ forall q, is_part cfg q -> q <> p -> k_present s q = false.

(** A thread of partition 0 executes while the segments of partition 1 are present. *)
Theorem C36_others_refuted : ~ (forall cfg s c p, supported cfg -> reachable cfg s -> is_proc cfg c -> is_part cfg p ->
  thread_of cfg p (k_cur s c) -> forall q, is_part cfg q -> q <> p -> k_present s q = false).
Proof.
  intros H. set (ls := [KTick 1; KTimer 0]).
  assert (X : match demo_run (demo 1 SCHED_RR SCHED_RR) ls with Some (m, _) => k_cur m 0 = 0 /\ k_present m 1 = true | None => False end)
    by (clear H; vm_compute; repeat split; reflexivity).
  destruct (demo_run (demo 1 SCHED_RR SCHED_RR) ls) as [[m ev]|] eqn:R; [|exact X]. destruct X as (X1 & X2).
  assert (Y : k_present m 1 = false).
  { refine (H (demo 1 SCHED_RR SCHED_RR) m 0 0 (demo_supported 1 SCHED_RR SCHED_RR ltac:(lia)) (demo_reachable _ _ _ _ R) _ _ _ 1 _ _);
      clear - X1; [cbn; unfold is_proc; cbn; lia|unfold is_part; cbn; lia| |unfold is_part; cbn; lia|lia].
    rewrite X1. unfold thread_of, in_range. vm_compute. split; [discriminate|reflexivity]. }
  rewrite X2 in Y. discriminate Y.
Qed.
Print Assumptions C36_others_refuted.

(** A thread of partition 1 executes while its own segments are absent: its partition was switched out while the
    thread delayed itself, and switched in again while the thread was still waiting. *)
Theorem C36_own_refuted : ~ (forall cfg s c p, supported cfg -> reachable cfg s -> is_proc cfg c -> is_part cfg p ->
  thread_of cfg p (k_cur s c) -> k_present s p = true).
Proof.
  intros H. set (ls := [KTick 1; KTimer 0; KTick 9; KTimer 0; KCall 0 (SCreate (at_entry 1 0 0 0)); KCall 0 (SSetMode PM_NORMAL);
    KTick 25; KCall 0 (SDelayedStart 5 1); KTick 5; KTimer 0] ++ concat (repeat [KTick 20; KTimer 0; KTick 10; KTimer 0] 33) ++
    [KTick 5; KTimer 0]).
  assert (X : match demo_run (demo 1 SCHED_RR SCHED_RR) ls with Some (m, _) => k_cur m 0 = 5 /\ k_present m 1 = false | None => False end)
    by (clear H; vm_compute; repeat split; reflexivity).
  destruct (demo_run (demo 1 SCHED_RR SCHED_RR) ls) as [[m ev]|] eqn:R; [|exact X]. destruct X as (X1 & X2).
  assert (Y : k_present m 1 = true).
  { refine (H (demo 1 SCHED_RR SCHED_RR) m 0 1 (demo_supported 1 SCHED_RR SCHED_RR ltac:(lia)) (demo_reachable _ _ _ _ R) _ _ _);
      clear - X1; [cbn; unfold is_proc; cbn; lia|unfold is_part; cbn; lia|].
    rewrite X1. unfold thread_of, in_range. vm_compute. split; [discriminate|reflexivity]. }
  rewrite X2 in Y. discriminate Y.
Qed.
Print Assumptions C36_own_refuted.

(** What holds: as long as each change of partition goes from a thread to a thread, the segments of the
    current partition are present, and those of every other partition that has executed are absent. Missing:
    partitions that have not executed yet, and changes of partition that involve an idle thread. *)
Theorem C36_present_partial : forall cfg s0 ls s evs, supported cfg -> kboot cfg = Some s0 ->
  krun cfg s0 ls = Some (s, evs) -> clean_switches cfg s0 ls ->
  k_present s (k_cp s) = true /\
  forall q, is_part cfg q -> q <> k_cp s -> was_current cfg q s0 ls -> k_present s q = false.
Proof.
  intros cfg s0 ls s evs W B R Hc. destruct (boot_mem cfg W s0 B) as (G1 & _ & G3).
  pose proof (kboot_inv cfg W s0 B) as I.
  destruct (present_run cfg W ls s0 s evs (fun _ => False) I G3) as (P1 & P2); try assumption.
  - apply G1. apply (ki_cp _ _ I).
  - intros q _ [].
  - split; [assumption|]. intros q Hq Hne Hw. apply P2; auto.
Qed.
Print Assumptions C36_present_partial.

(** One step: segments change only when the partition does, and then as they should if no idle thread is
    involved. *)
Theorem C36_step_partial : forall cfg s l s' ev, supported cfg -> reachable cfg s -> kstep cfg s l = KNext s' ev ->
  (k_cp s' = k_cp s -> forall q, k_present s' q = k_present s q) /\
  (k_cp s' <> k_cp s -> clean_switch cfg s l s' ->
   k_present s' (k_cp s') = true /\ k_present s' (k_cp s) = false /\
   forall q, q <> k_cp s -> q <> k_cp s' -> k_present s' q = k_present s q).
Proof.
  intros cfg s l s' ev W Hr H.
  destruct (step_present cfg W s l s' ev (reachable_inv cfg W s Hr) (reach_stack cfg W s Hr) H) as (P1 & P2).
  split; [intros E q; now rewrite P1|]. intros Hne Hc. rewrite (P2 Hne Hc).
  split; [apply upd_same|]. split; [rewrite upd_other by congruence; apply upd_same|].
  intros q H1 H2. now rewrite !upd_other by assumption.
Qed.
Print Assumptions C36_step_partial.

(** The flags [k_present] of the kernel machine are the present bits of the descriptor table: switching
    clears those of the old partition, sets those of the new one and leaves the other descriptors alone. *)
Theorem C36_table : forall np old new g g', 0 <= np -> 0 <= old -> 0 <= new -> gdt_switch np old new g = Some g' ->
  (forall i, i = gdt_code np new \/ i = gdt_data np new -> seg_present (desc_bits (g' i))) /\
  (forall i, old <> new -> i = gdt_code np old \/ i = gdt_data np old -> ~ seg_present (desc_bits (g' i))) /\
  (forall i, i <> gdt_code np old -> i <> gdt_data np old -> i <> gdt_code np new -> i <> gdt_data np new -> g' i = g i) /\
  (forall i, seg_base (desc_bits (g' i)) = seg_base (desc_bits (g i)) /\ seg_limit (desc_bits (g' i)) = seg_limit (desc_bits (g i))).
Proof.
  intros np old new g g' Hnp Ho Hn H. unfold gdt_switch, gdt_present, gdt_write in H.
  repeat (match type of H with context [if ?b then _ else _] => destruct b; [|discriminate] end). injection H as <-.
  assert (D : gdt_code np old <> gdt_data np old /\ gdt_code np new <> gdt_data np new /\ gdt_code np old <> gdt_data np new /\
              gdt_data np old <> gdt_code np new) by (unfold gdt_code, gdt_data; lia).
  destruct D as (D1 & D2 & D3 & D4). split; [|split; [|split]].
  - intros i [-> | ->]; unfold seg_present; rewrite field_present.
    + rewrite upd_other by congruence. rewrite upd_same. reflexivity.
    + rewrite upd_same. reflexivity.
  - intros i Hne Hi. assert (E : gdt_code np old <> gdt_code np new /\ gdt_data np old <> gdt_data np new) by (unfold gdt_code, gdt_data; lia).
    destruct E as (E1 & E2). unfold seg_present. rewrite field_present. destruct Hi as [-> | ->].
    + do 3 rewrite upd_other by congruence. rewrite upd_same. discriminate.
    + do 2 rewrite upd_other by congruence. rewrite upd_same. discriminate.
  - intros i H1 H2 H3 H4. now rewrite !upd_other by assumption.
  - assert (K : forall (f : gdt) j v i, exists u, upd f j (with_present v (f j)) i = with_present u (f i)).
    { intros f j v i. unfold upd. destruct (Z.eqb_spec i j) as [->|]; [now exists v|]. exists (d_present (f i)). now destruct (f i). }
    set (g1 := upd g _ _). set (g2 := upd g1 _ _). set (g3 := upd g2 _ _). set (g4 := upd g3 _ _). intros i.
    destruct (K g (gdt_code np old) 0 i) as (u1 & E1). destruct (K g1 (gdt_data np old) 0 i) as (u2 & E2).
    destruct (K g2 (gdt_code np new) 1 i) as (u3 & E3). destruct (K g3 (gdt_data np new) 1 i) as (u4 & E4).
    fold g1 in E1. fold g2 in E2. fold g3 in E3. fold g4 in E4. rewrite E4, E3, E2, E1. unfold seg_base, seg_limit.
    rewrite !field_base_low, !field_base_high, !field_limit_low, !field_limit_high, !field_granularity. split; reflexivity.
Qed.
Print Assumptions C36_table.

(** Two changes of partition, both clean: in the second one the segments of partition 1 become absent. *)
Example C36_demo :
  match kboot (demo 1 SCHED_RR SCHED_RR) with
  | Some s0 => clean_switches (demo 1 SCHED_RR SCHED_RR) s0 [KTick 1; KTimer 0; KTick 9; KTimer 0; KTick 20; KTimer 0] /\
      match krun (demo 1 SCHED_RR SCHED_RR) s0 [KTick 1; KTimer 0; KTick 9; KTimer 0; KTick 20; KTimer 0] with
      | Some (m, _) => k_cp m = 0 /\ k_present m 0 = true /\ k_present m 1 = false
      | None => False
      end
  | None => False
  end.
Proof.
  vm_compute. repeat split; intros;
    try match goal with H : ?x = ?x -> False |- _ => exfalso; apply H; reflexivity end;
    match goal with H : _ = Some _ |- _ => injection H as <- | _ => idtac end;
    try reflexivity;
    match goal with H : _ = Gt |- _ => vm_compute in H; discriminate H end.
Qed.
