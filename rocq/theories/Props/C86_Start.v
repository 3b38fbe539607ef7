(** C86: A thread that is started again begins at its entry; its start touches nothing but the thread, and costs no
    memory for ever. *)
From Verif Require Import Model.Base Model.State Model.LockFifo Model.LockObj Model.LockSys Model.Sched Model.Kernel
  Spec.SchedSpec Spec.KernelSpec Spec.MemSpec Spec.SpaceSpec Spec.Demo Proof.Tac Proof.KernelBasic Proof.ClockProof Proof.KernelInv
  Proof.MemKernel Proof.MemBoot
  Spec.X86Cpu Model.X86Entry Model.X86Reset Spec.X86Threads Spec.X86Start Proof.X86EntryProof Proof.X86ThreadsProof.
Notation thread_in := Spec.X86Threads.thread.

(** ** Where pok_context_reset writes *)
Lemma reset_other : forall z a st m x, (x < reset_at z a \/ reset_at z a + 56 <= x) -> context_reset z a st m x = m x.
Proof. intros z a st m x H. unfold context_reset. cbv zeta. apply write_other. cbn [length]. lia. Qed.

Lemma u32_sm : forall x, 0 <= x < 2 ^ 32 -> u32 x = x.
Proof. intros x H. unfold u32. now apply Z.mod_small. Qed.

(** In every reachable state, for every thread: the start writes 14 words that lie below the SIZE of the partition. The
    addresses are linear ones: the base of the partition has not been added. *)
Theorem C86_where : forall cfg s i t st, supported cfg -> reachable cfg s -> is_part cfg i -> stacks_fit cfg i ->
  64 <= c_stack cfg -> live cfg s i t ->
  exists k, 0 <= k < p_index (k_part s i) /\
    forall x, changes (start_resets cfg s t st) x ->
      c_size cfg i - 64 - k * c_stack cfg <= x < c_size cfg i - 8 - k * c_stack cfg /\ 0 <= x < c_size cfg i.
Proof.
  intros cfg s i t st W Hr Hi (F1 & F2 & F3) F4 Hl. destruct (reach_stack cfg W s Hr i Hi) as (f & H1 & _).
  destruct (H1 t Hl) as (Hp & Hk). unfold place in Hp. injection Hp as _ Hs. exists (f t). split; [exact Hk|].
  pose proof (po_index _ _ _ (ki_part _ _ (reachable_inv cfg W s Hr) i Hi)) as Hix.
  assert (Hm : (f t + 1) * c_stack cfg <= c_threads cfg i * c_stack cfg) by (apply Z.mul_le_mono_nonneg_r; lia).
  assert (E : (f t + 1) * c_stack cfg = f t * c_stack cfg + c_stack cfg) by ring.
  assert (E2 : (c_threads cfg i + 1) * c_stack cfg = c_threads cfg i * c_stack cfg + c_stack cfg) by ring.
  assert (N : 0 <= f t * c_stack cfg) by (apply Z.mul_nonneg_nonneg; lia).
  assert (A : reset_at (c_stack cfg) (t_stack (k_th s t)) = c_size cfg i - 64 - f t * c_stack cfg).
  { unfold reset_at, START_CONTEXT. rewrite Hs. unfold stack_no. rewrite (u32_sm (c_size cfg i - 4 - _)) by (clear - F1 F2 F3 F4 Hm E E2 N; lia).
    rewrite u32_sm by (clear - F1 F2 F3 F4 Hm E E2 N; lia). clear - E. lia. }
  intros x (m & Hx). unfold start_resets in Hx.
  assert (B : ~ (x < reset_at (c_stack cfg) (t_stack (k_th s t)) \/ reset_at (c_stack cfg) (t_stack (k_th s t)) + 56 <= x)).
  { intros C. apply Hx. now apply reset_other. }
  rewrite A in B. clear - B F1 F2 F3 F4 Hm E E2 N. lia.
Qed.
Print Assumptions C86_where.

(** So the start of a thread of a partition that is no larger than the address at which the heap of the kernel begins
    touches no partition, not even its own: only the kernel and what is below it. *)
Theorem C86_not_own : forall cfg s i t st j x, supported cfg -> memory_fits cfg -> reachable cfg s -> is_part cfg i ->
  stacks_fit cfg i -> 64 <= c_stack cfg -> live cfg s i t -> c_size cfg i <= c_heap cfg -> is_part cfg j ->
  changes (start_resets cfg s t st) x -> x < c_heap cfg /\ ~ word_of s j x.
Proof.
  intros cfg s i t st j x W Hf Hr Hi F F4 Hl Hsz Hj Hx.
  destruct (C86_where cfg s i t st W Hr Hi F F4 Hl) as (k & _ & H). destruct (H x Hx) as (_ & Hb).
  split; [lia|]. intros (C & _). rewrite (reach_base cfg W s Hf Hr j Hj) in C.
  unfold is_part in Hj. pose proof (part_addr_bound cfg W j Hf ltac:(lia)). lia.
Qed.
Print Assumptions C86_not_own.

(** ** Isolation *)
(** Two partitions, of [z0] and [z1] bytes, kernel from 1 MB on, heap at [heap]. *)
Definition sized (z0 z1 heap : Z) : config :=
  mkConfig 2 8 1 (two 4 2) (two 1 1) (two SCHED_RR SCHED_RR) (two 1 1) (two z0 z1)
           (two 4096 8192) 2 (two 10 20) (two 0 1) 30 FlushMajor true 8192 heap.
Lemma sized_supported : forall z0 z1 h, supported (sized z0 z1 h).
Proof.
  intros. constructor; try (cbn; lia); try (intros i _; cbn; unfold two; destruct (i =? 0); lia); try reflexivity.
  - vm_compute. split; discriminate.
  - vm_compute. discriminate.
  - intros i _. unfold is_part. cbn. unfold two. destruct (i =? 0); lia.
Qed.
(** The start of the main thread of partition 1 writes into partition 0: 3 MB each, from 2 MB on. *)
Theorem C86_isolation_refuted : ~ (forall cfg s i j t st x, supported cfg -> memory_fits cfg -> reachable cfg s ->
  is_part cfg i -> is_part cfg j -> i <> j -> stacks_fit cfg i -> 64 <= c_stack cfg -> live cfg s i t ->
  changes (start_resets cfg s t st) x -> ~ word_of s j x).
Proof.
  intros H. set (cfg := sized 0x300000 0x300000 0x200000) in *.
  assert (X : match kboot cfg with Some s => t_stack (k_th s 4) = 0x2fdffc /\ p_index (k_part s 1) = 1 /\
     p_base (k_part s 0) = 0x200000 /\ p_size (k_part s 0) = 0x300000 | None => False end)
    by (clear H; vm_compute; repeat split; reflexivity).
  destruct (kboot cfg) as [s|] eqn:B; [|contradiction]. destruct X as (X1 & X2 & X3 & X4).
  apply (H cfg s 1 0 4 0x100500 0x2fffe4).
  - apply sized_supported.
  - split; [vm_compute; discriminate|]. split; [|vm_compute; reflexivity]. intros i _. cbn. unfold two. destruct (i =? 0); lia.
  - exists s, [], []. split; [exact B|reflexivity].
  - vm_compute. split; [discriminate|reflexivity].
  - vm_compute. split; [discriminate|reflexivity].
  - lia.
  - repeat split; vm_compute; try reflexivity; discriminate.
  - vm_compute. discriminate.
  - unfold live. rewrite X2. change (low_of cfg 1) with 4. lia.
  - exists (fun _ => 0). unfold start_resets. rewrite X1. vm_compute. discriminate.
  - unfold word_of. rewrite X3, X4. lia.
Qed.
Print Assumptions C86_isolation_refuted.

(** That of a partition of 1.5 MB writes into the kernel, which is at 1 MB, below its heap (at 2 MB). *)
Theorem C86_kernel_refuted : ~ (forall cfg s i t st x, supported cfg -> memory_fits cfg -> reachable cfg s ->
  is_part cfg i -> stacks_fit cfg i -> 64 <= c_stack cfg -> live cfg s i t ->
  changes (start_resets cfg s t st) x -> ~ 0x100000 <= x < c_heap cfg).
Proof.
  intros H. set (cfg := sized 0x180000 0x180000 0x200000) in *.
  assert (X : match kboot cfg with Some s => t_stack (k_th s 4) = 0x17dffc /\ p_index (k_part s 1) = 1 | None => False end)
    by (clear H; vm_compute; repeat split; reflexivity).
  destruct (kboot cfg) as [s|] eqn:B; [|contradiction]. destruct X as (X1 & X2).
  apply (H cfg s 1 4 0x100500 0x17ffe4).
  - apply sized_supported.
  - split; [vm_compute; discriminate|]. split; [|vm_compute; reflexivity]. intros i _. cbn. unfold two. destruct (i =? 0); lia.
  - exists s, [], []. split; [exact B|reflexivity].
  - vm_compute. split; [discriminate|reflexivity].
  - repeat split; vm_compute; try reflexivity; discriminate.
  - vm_compute. discriminate.
  - unfold live. rewrite X2. change (low_of cfg 1) with 4. lia.
  - exists (fun _ => 0). unfold start_resets. rewrite X1. vm_compute. discriminate.
  - change (c_heap cfg) with 0x200000. lia.
Qed.
Print Assumptions C86_kernel_refuted.

(** ** The start itself *)
(** Where the 14 words meet neither the kernel stacks nor the table, a stopped thread that is started again goes on where
    it was stopped, for every history before and every such thread: its saved context has not been touched. *)
Theorem C86_goes_on : forall L label s0 s u z a st, separated L -> ready L s0 -> sreach L label s0 s ->
  thread_in L u -> u <> cur s -> calls L (cur s) u (proc s) -> gdt (proc s) 1 = Some (0, 0) -> cs (proc s) = mkS 8 0 0 ->
  clear_of L (reset_at z a) (reset_at z a + 56) ->
  exists c', exec_all (context_switch label) (set_mem (context_reset z a st (mem (proc s))) (proc s)) = Some c' /\
    gp c' = sn_gp (snaps s u) /\ esp c' = sn_esp (snaps s u) /\ eip c' = sn_eip (snaps s u).
Proof.
  intros L label s0 s u z a st Sep R H Tu Hu Hc HG HC Hcl.
  pose proof (reach_ready L label Sep s0 s R H) as R'. pose proof R' as (Tc & _).
  set (c1 := set_mem (context_reset z a st (mem (proc s))) (proc s)).
  assert (E1 : mem c1 = context_reset z a st (mem (proc s)) /\ esp c1 = esp (proc s) /\ gdt c1 = gdt (proc s) /\ cs c1 = cs (proc s)).
  { unfold c1, set_mem. cbn [mem esp gdt cs]. auto. }
  clearbody c1. destruct E1 as (M1 & M2 & M3 & M4).
  assert (K : forall v, thread_in L v -> mem c1 (slot L v) = mem (proc s) (slot L v) /\
    forall x, lo L v <= x < hi L v -> mem c1 x = mem (proc s) x).
  { intros v Tv. destruct (Hcl v Tv) as (A & B). rewrite M1. split; [apply reset_other; lia|].
    intros x Hx. apply reset_other. lia. }
  assert (Wk : works L (cur s) (proc s) c1).
  { assert (Q : forall v, thread_in L v -> v <> cur s -> lo L v <= mem (proc s) (slot L v)).
    { intros v Tv Nv. destruct R' as (_ & R2). apply (R2 v Tv Nv). }
    split; [intros v Tv _; now apply K|]. split; [|rewrite M3, M4; auto].
    intros v x Tv Nv Hx. apply (proj2 (K v Tv)). specialize (Q v Tv Nv). lia. }
  pose proof (SR1 L label s0 s _ H (SWork L label s c1 Wk)) as H1. set (s1 := mkSys (cur s) c1 (snaps s)) in *.
  assert (Hc1 : calls L (cur s1) u (proc s1)).
  { unfold calls in *. cbn [cur proc s1]. rewrite M2. destruct Hc as (A & B & C & D). split; [exact A|]. split; [exact B|].
    destruct (K (cur s) Tc) as (_ & K2). rewrite !K2 by lia. rewrite (proj1 (K u Tu)). auto. }
  destruct (switch_ok L label Sep s1 u (reach_ready L label Sep s0 s1 R H1) Tu Hu Hc1 ltac:(cbn [proc s1]; congruence) ltac:(cbn [proc s1]; congruence))
    as (c' & A & (B1 & B2 & B3 & _) & _).
  exists c'. split; [exact A|]. auto.
Qed.
Print Assumptions C86_goes_on.

(** Two threads of a kernel whose heap is at 1 MB: thread 0 runs, thread 1 stopped at address 0x5000. *)
Definition LS : layout := mkLayout 2 (fun t => 0x100000 + 8192 * t) (fun t => 0x100000 + 8192 * t + 8192) (fun t => 0x180000 + 4 * t).
Definition ms : Z -> Z := fun a =>
  if a =? 0x180004 then 0x102f00 else
  if a =? 0x102f20 then 0x5000 else if a =? 0x102f24 then 8 else if a =? 0x102f28 then 0x202 else
  if a =? 0x101f04 then 0x180000 else if a =? 0x101f08 then 0x102f00 else 0.
Definition cs0 : cpu := mkCpu (mkGp 1 2 3 4 5 6 7) 0x101f00 0x4000 0x202 (mkS 8 0 0) (mkS 16 0 0) (mkS 16 0 0) (mkS 16 0 0)
  (mkS 0 0 3) (mkS 0 0 3) 0 ms 0 (fun i => if (i =? 1) || (i =? 2) then Some (0, 0) else None).
(** Thread 1 is started and gets the processor: it is at 0x5000 again, though what starts threads is at 0x105000. *)
Theorem C86_start_refuted : ~ (forall L label c t u z a st c', separated L -> thread_in L t -> thread_in L u -> u <> t ->
  clear_of L (reset_at z a) (reset_at z a + 56) ->
  calls L t u c -> exec_all (context_switch label) (set_mem (context_reset z a st (mem c)) c) = Some c' -> eip c' = st).
Proof.
  intros H.
  assert (X : exists c', exec_all (context_switch 0x4444) (set_mem (context_reset 8192 0x17ffc 0x105000 (mem cs0)) cs0) = Some c' /\ eip c' = 0x5000).
  { eexists. split; [vm_compute; reflexivity|reflexivity]. }
  destruct X as (c' & X & Y). specialize (H LS 0x4444 cs0 0 1 8192 0x17ffc 0x105000 c').
  rewrite Y in H. assert (C : 0x5000 = 0x105000); [apply H|discriminate].
  - unfold separated, Spec.X86Threads.thread, LS. cbn [count lo hi slot]. repeat split; intros t u Ht Hu; try intros N; lia.
  - vm_compute. split; [discriminate|reflexivity].
  - vm_compute. split; [discriminate|reflexivity].
  - lia.
  - intros u Hu. change (reset_at 8192 0x17ffc) with 0x19fc0. cbn [lo hi slot LS]. unfold Spec.X86Threads.thread in Hu. cbn [count LS] in Hu. lia.
  - unfold calls. repeat split; try reflexivity; vm_compute; discriminate.
  - exact X.
Qed.
Print Assumptions C86_start_refuted.

(** ** Restart by the error handler *)
(** Each restart of a thread takes a kernel stack that is never given back. *)
Theorem C86_restart_cost : forall cfg s c tid s' ev t id, kstep cfg s (KCall c (SRestart tid)) = KNext s' ev ->
  In (XRet c t (SRestart tid) ERR_OK id) ev -> k_brk s' = u32 (k_brk s + 8192).
Proof.
  intros cfg s c tid s' ev t id H Hin. cbn [kstep] in H. destruct (_ && _); [|discriminate].
  cbn [service] in H. destruct (negb _).
  - cbn in H. injection H as <- <-. cbn in Hin. repeat (destruct Hin as [C|Hin]; [discriminate|]). contradiction.
  - destruct (in_bounds s _).
    + unfold then_global in H. destruct (global_sched _ _ _) as [[s1 f]|] eqn:E; [|discriminate].
      apply global_sched_clock in E. destruct E as (_ & _ & E & _). cbn in H. injection H as <- _. rewrite E. reflexivity.
    + cbn in H. injection H as <- <-. cbn in Hin. repeat (destruct Hin as [C|Hin]; [discriminate|]). contradiction.
Qed.
Print Assumptions C86_restart_cost.
(** It happens: the main thread makes an error handler, which restarts the main thread. *)
Definition c86_leak : list klabel := [KTick 1; KTimer 0; KCall 0 (SErrorCreate 6000 0 0 0); KCall 0 (SRestart 0)].
Example C86_leak_example : match demo_run (demo 1 SCHED_RR SCHED_RR) c86_leak with
  Some (s, evs) => In (XRet 0 1 (SRestart 0) ERR_OK 0) evs | None => False end.
Proof. vm_compute. tauto. Qed.

(** Hypotheses can be met. *)
Example C86_example : let cfg := sized 0x180000 0x180000 0x200000 in
  supported cfg /\ memory_fits cfg /\ stacks_fit cfg 1 /\
  exists s, kboot cfg = Some s /\ reachable cfg s /\ live cfg s 1 4 /\ c_size cfg 1 <= c_heap cfg /\
    changes (start_resets cfg s 4 0x100500) 0x17ffe4.
Proof.
  intros cfg. split; [apply sized_supported|].
  split; [split; [vm_compute; discriminate|]; split; [|vm_compute; reflexivity]; intros i _; cbn; unfold two; destruct (i =? 0); lia|].
  split; [repeat split; vm_compute; try reflexivity; discriminate|].
  assert (X : match kboot cfg with Some s => t_stack (k_th s 4) = 0x17dffc /\ p_index (k_part s 1) = 1 | None => False end)
    by (vm_compute; repeat split; reflexivity).
  destruct (kboot cfg) as [s|] eqn:B; [|contradiction]. destruct X as (X1 & X2). exists s. split; [reflexivity|].
  split; [exists s, [], []; split; [exact B|reflexivity]|].
  split; [unfold live; rewrite X2; change (low_of cfg 1) with 4; lia|]. split; [vm_compute; discriminate|].
  exists (fun _ => 0). unfold start_resets. rewrite X1. vm_compute. discriminate.
Qed.
