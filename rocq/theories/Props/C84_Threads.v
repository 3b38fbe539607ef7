(** C84: A thread that has been switched away goes on exactly where it stopped; a new one starts at its entry. *)
From Verif Require Import Model.Base Spec.X86Cpu Model.X86Entry Spec.X86Threads Proof.Tac Proof.X86EntryProof Proof.X86ThreadsProof.

(** In every history of work and switches, any number of threads: pok_context_switch (&old.sp, new.sp) does not fault,
    and the thread that it gives the processor to has the registers, the flags and the stack that it had when it called
    pok_context_switch itself. *)
Theorem C84_switch : forall L label s0 s u, separated L -> ready L s0 -> sreach L label s0 s ->
  thread L u -> u <> cur s -> calls L (cur s) u (proc s) -> gdt (proc s) 1 = Some (0, 0) -> cs (proc s) = mkS 8 0 0 ->
  exists c', exec_all (context_switch label) (proc s) = Some c' /\ goes_on L u (snaps s u) c'.
Proof.
  intros L label s0 s u Sep R H Tu Hu Hc HG HC.
  destruct (switch_ok L label Sep s u (reach_ready L label Sep s0 s R H) Tu Hu Hc HG HC) as (c' & A & B & _).
  exists c'. split; [exact A|exact B].
Qed.
Print Assumptions C84_switch.

(** What pok_context_switch finds for the thread is what the thread itself had: the snapshot that the history keeps. *)
Theorem C84_snapshot : forall L label s u c', thread L u -> u <> cur s -> calls L (cur s) u (proc s) ->
  gdt (proc s) 1 = Some (0, 0) -> cs (proc s) = mkS 8 0 0 -> exec_all (context_switch label) (proc s) = Some c' ->
  exists s', sstep L label s s' /\ cur s' = u /\ proc s' = c' /\
    snaps s' (cur s) = mkSnap (gp (proc s)) (esp (proc s)) label (efl (proc s)) (mem (proc s)) /\
    (forall v, v <> cur s -> snaps s' v = snaps s v).
Proof.
  intros L label s u c' Tu Hu Hc HG HC X. eexists. split; [eapply SSwitch; eassumption|].
  cbn [cur proc snaps]. split; [reflexivity|]. split; [reflexivity|].
  split; [apply upd_same|]. intros v Hv. now apply upd_other.
Qed.
Print Assumptions C84_snapshot.

(** A thread made by pok_space_context_create starts in its partition: at its entry, with its stack, its arguments, the
    segments of its partition, interrupts enabled and nothing else in its general registers; and the kernel will be
    entered at the end of its kernel stack. *)
Theorem C84_start : forall L label c t u np frame stack dispatch pid entry aff usp a1 a2 m sp m1 b,
  separated L -> thread L t -> thread L u -> lo L u = stack -> hi L u = stack + 8192 -> 1 <= np -> 0 <= pid < 256 ->
  space_context_create stack dispatch pid entry aff usp a1 a2 m = (sp, m1) ->
  mem c (slot L u) = sp -> (forall a, sp <= a < sp + 76 -> mem c a = m1 a) ->
  u <> t -> calls L t u c -> gdt c 1 = Some (0, 0) -> cs c = mkS 8 0 0 ->
  gdt c (3 + np + 2 * pid) = Some (b, 3) -> gdt c (4 + np + 2 * pid) = Some (b, 3) ->
  exists c1 c2, exec_all (context_switch label) c = Some c1 /\ eip c1 = dispatch /\ gp c1 = mkGp 0 0 0 0 0 0 0 /\
    dispatch_space np frame c1 = Some c2 /\
    eip c2 = entry /\ esp c2 = usp /\ gp c2 = mkGp a1 0 0 a2 0 0 0 /\ efl c2 = 512 /\
    cs c2 = mkS ((3 + np + 2 * pid) * 8 + 3) b 3 /\ ss c2 = mkS ((4 + np + 2 * pid) * 8 + 3) b 3 /\
    ds c2 = ss c2 /\ es c2 = ss c2 /\ esp0 c2 = sp /\ stack < sp <= stack + 8192 /\ gdt c2 = gdt c.
Proof.
  intros L label c t u np frame stack dispatch pid entry aff usp a1 a2 m sp m1 b Sep Tt Tu Hlo Hhi Hn Hp HM HS HK Hu Hc HG HC G1 G2.
  destruct (created _ _ _ _ _ _ _ _ _ _ _ HM) as (E & M0 & M4 & M8 & M16 & M20 & M24 & M28 & M32 & M36 & M40 & M48 & M52 & M56 & M64 & M68 & M72).
  set (n := mkSnap (mkGp 0 0 0 0 0 0 0) (sp + 44) dispatch IF (mem c)).
  assert (X : context_of L u n (mem c)).
  { unfold context_of. cbv zeta. rewrite HS. unfold n. cbn [sn_gp sn_esp sn_eip sn_efl sn_mem eax ecx edx ebx ebp esi edi].
    rewrite !HK by lia. split; [lia|]. split; [reflexivity|]. split; [lia|]. repeat split; try assumption. }
  destruct (switch_one L label Sep c t u n Tt Tu X Hu Hc HG HC) as (c1 & A & (B1 & B2 & B3 & B4 & B5 & B6) & D & _ & F1 & F2 & F3).
  unfold n in B1, B2, B3, B4. cbn [sn_gp sn_esp sn_eip sn_efl] in B1, B2, B3, B4.
  assert (K : forall a, sp + 44 <= a < sp + 76 -> mem c1 a = m1 a).
  { intros a Ha. rewrite <- HK by lia. change (mem c a) with (sn_mem n a). apply B6. unfold n. cbn [sn_esp]. lia. }
  pose proof (dispatch_ok np frame c1 sp pid entry usp a1 a2 b Hn Hp B2 B5) as Q.
  rewrite !K in Q by lia. rewrite F3 in Q. specialize (Q M48 M52 M56 M64 M68 M72 G1 G2).
  exists c1. eexists. split; [exact A|]. split; [exact B3|]. split; [exact B1|]. split; [exact Q|].
  cbn [eip esp gp efl cs ss ds es esp0 gdt]. repeat split; lia.
Qed.
Print Assumptions C84_start.

(** ** What is lost *)
(** Threads 0 and 1. Thread 0 runs and is about to switch to thread 1. *)
Definition L2 : layout := mkLayout 2 (fun t => 0x100000 + 8192 * t) (fun t => 0x100000 + 8192 * t + 8192) (fun t => 0x180000 + 4 * t).
Lemma L2_sep : separated L2.
Proof.
  unfold separated, thread, L2. cbn [count lo hi slot]. repeat split; intros t u Ht Hu; try intros N; lia.
Qed.
Definition m0 : Z -> Z := fun a =>
  if a =? 0x180004 then 0x102f00 else                                     (* pok_threads[1].sp *)
  if a =? 0x102f20 then 0x5000 else if a =? 0x102f24 then 8 else if a =? 0x102f28 then 0x202 else
  if a =? 0x101f04 then 0x180000 else if a =? 0x101f08 then 0x102f00 else (* arguments of thread 0 *)
  if a =? 0x102f30 then 0x180004 else if a =? 0x102f34 then 0x101ed4 else 0. (* arguments of thread 1 *)
Definition c0 : cpu := mkCpu (mkGp 1 2 3 4 5 6 7) 0x101f00 0x4000 0x202 (mkS 8 0 0) (mkS 16 0 0) (mkS 16 0 0) (mkS 16 0 0)
  (mkS 0 0 3) (mkS 0 0 3) 111 m0 0 (fun i => if (i =? 1) || (i =? 2) then Some (0, 0) else None).
Definition s_0 : sys := mkSys 0 c0 (fun _ => mkSnap (mkGp 0 0 0 0 0 0 0) 0x102f2c 0x5000 0x202 m0).
Lemma s_0_ready : ready L2 s_0.
Proof.
  split; [unfold thread; cbn; lia|]. intros u Tu Hu. unfold thread in Tu. cbn [count L2 cur s_0] in Tu, Hu.
  assert (u = 1) as -> by lia. unfold context_of. cbv zeta. cbn [proc s_0 snaps mem c0 sn_gp sn_esp sn_eip sn_efl sn_mem].
  change (m0 (slot L2 1)) with 0x102f00. cbn [lo hi L2]. repeat split; try reflexivity; lia.
Qed.

(** The floating-point registers are not switched: thread 0 has 111 there, thread 1 computes 222, and thread 0 goes on
    with 222. *)
Theorem C84_fpu_refuted : exists s1 s2 s3, separated L2 /\ ready L2 s_0 /\
  sstep L2 0x4444 s_0 s1 /\ sstep L2 0x4444 s1 s2 /\ sstep L2 0x4444 s2 s3 /\
  cur s_0 = 0 /\ cur s1 = 1 /\ cur s2 = 1 /\ cur s3 = 0 /\ gp (proc s3) = gp (proc s_0) /\ eip (proc s3) = 0x4444 /\
  fpu (proc s_0) = 111 /\ fpu (proc s3) = 222.
Proof.
  assert (T0 : thread L2 0) by (unfold thread; cbn; lia). assert (T1 : thread L2 1) by (unfold thread; cbn; lia).
  assert (C0 : calls L2 0 1 c0) by (unfold calls; cbn [lo hi slot L2]; repeat split; try reflexivity; vm_compute; discriminate).
  destruct (switch_one L2 0x4444 L2_sep c0 0 1 (snaps s_0 1) T0 T1 (proj2 s_0_ready 1 T1 ltac:(cbn; lia)) ltac:(lia) C0 eq_refl eq_refl)
    as (c1 & X1 & G1 & M1 & F1 & _ & _ & D1).
  set (s1 := mkSys 1 c1 (upd (snaps s_0) 0 (mkSnap (gp c0) (esp c0) 0x4444 (efl c0) (mem c0)))).
  assert (S1 : sstep L2 0x4444 s_0 s1) by (apply (SSwitch L2 0x4444 s_0 1 c1); auto; cbn; lia).
  pose proof (step_ready L2 0x4444 L2_sep s_0 s1 s_0_ready S1) as R1.
  set (c2 := mkCpu (gp c1) (esp c1) (eip c1) (efl c1) (cs c1) (ss c1) (ds c1) (es c1) (fs c1) (gs c1) 222 (mem c1) (esp0 c1) (gdt c1)).
  set (s2 := mkSys 1 c2 (snaps s1)).
  destruct G1 as (E1 & E2 & E3 & E4 & E5 & E6).
  assert (S2 : sstep L2 0x4444 s1 s2).
  { apply (SWork L2 0x4444 s1 c2). unfold works. cbn [mem c2 cs gdt cur s1 proc]. repeat split; auto. now rewrite D1. }
  pose proof (step_ready L2 0x4444 L2_sep s1 s2 R1 S2) as R2.
  assert (C2 : calls L2 1 0 c2).
  { unfold calls. cbn [c2 esp mem]. rewrite E2, M1. cbn [snaps s_0 sn_esp lo hi slot L2].
    repeat split; try (vm_compute; reflexivity); vm_compute; discriminate. }
  destruct (switch_one L2 0x4444 L2_sep c2 1 0 (snaps s2 0) T1 T0 (proj2 R2 0 T0 ltac:(cbn; lia)) ltac:(lia) C2
    ltac:(cbn [c2 gdt]; now rewrite D1) ltac:(exact E5)) as (c3 & X3 & (H1 & H2 & H3 & _) & _ & F3 & _).
  set (s3 := mkSys 0 c3 (upd (snaps s2) 1 (mkSnap (gp c2) (esp c2) 0x4444 (efl c2) (mem c2)))).
  assert (S3 : sstep L2 0x4444 s2 s3).
  { apply (SSwitch L2 0x4444 s2 0 c3); auto; cbn [cur s2 proc c2 gdt]; try lia. now rewrite D1. }
  exists s1, s2, s3. split; [exact L2_sep|]. split; [exact s_0_ready|]. split; [exact S1|]. split; [exact S2|]. split; [exact S3|].
  split; [reflexivity|]. split; [reflexivity|]. split; [reflexivity|]. split; [reflexivity|].
  split; [exact H1|]. split; [exact H3|]. split; [reflexivity|]. exact F3.
Qed.
Print Assumptions C84_fpu_refuted.

(** Nor are fs and gs, and IRET makes null only what belongs to an inner level: a program of partition 0 that uses fs is
    interrupted; the scheduler makes the segments of partition 1 present instead of those of partition 0 and switches to
    a new thread of partition 1; that thread starts with fs still on the segment of partition 0, though its descriptor
    is absent. [pre]: the handler's frame of the interrupt, from which it calls pok_context_switch. *)
Definition gdt0 : Z -> option (Z * Z) := fun i =>
  if (i =? 1) || (i =? 2) then Some (0, 0) else if (i =? 4) || (i =? 5) then Some (0x200000, 3) else None.
Definition gdt1 : Z -> option (Z * Z) := fun i =>
  if (i =? 1) || (i =? 2) then Some (0, 0) else if (i =? 6) || (i =? 7) then Some (0x300000, 3) else None.
Definition user0 : cpu := mkCpu (mkGp 1 2 3 4 5 6 7) 0xfff0 0x1234 0x202
  (mkS 0x23 0x200000 3) (mkS 0x2b 0x200000 3) (mkS 0x2b 0x200000 3) (mkS 0x2b 0x200000 3) (mkS 0x2b 0x200000 3) (mkS 0 0 3)
  0 (snd (space_context_create 0x102000 0x105000 1 0x1000 0 0xe000 0xdead 0xbeaf (fun _ => 0))) 0x101f00 gdt0.
(** The C code between the stub and pok_context_switch: pok_space_switch (0, 1), and the call. *)
Definition scheduler (c : cpu) : cpu :=
  let e := esp c - 16 in
  mkCpu (gp c) e (eip c) (efl c) (cs c) (ss c) (ds c) (es c) (fs c) (gs c) (fpu c)
    (upd (upd (upd (mem c) (e + 8) (0x102000 + 8112)) (e + 4) 0x180000) e 0x106000) (esp0 c) gdt1.
Theorem C84_fs_refuted : exists c1 c2 c3 c4, running user0 /\
  enter None true 0x107000 user0 = Some c1 /\ exec_all ([Cli; AddEsp (-4)] ++ stub_save) c1 = Some c2 /\
  exec_all (context_switch 0x4444) (scheduler c2) = Some c3 /\ eip c3 = 0x105000 /\
  dispatch_space 1 0x102f00 c3 = Some c4 /\
  cs c4 = mkS 0x33 0x300000 3 /\ ds c4 = mkS 0x3b 0x300000 3 /\ eip c4 = 0x1000 /\
  fs c4 = mkS 0x2b 0x200000 3 /\ load (gdt c4) 0x2b = None.
Proof.
  do 4 eexists. split.
  { constructor; try reflexivity; unfold user0; cbn; try (left; reflexivity); repeat split; try lia; reflexivity. }
  split; [vm_compute; reflexivity|]. split; [vm_compute; reflexivity|]. split; [vm_compute; reflexivity|].
  split; [vm_compute; reflexivity|]. split; [vm_compute; reflexivity|]. repeat split; vm_compute; reflexivity.
Qed.
Print Assumptions C84_fs_refuted.

(** Hypotheses can be met: the two threads above, after no step. *)
Example C84_example : separated L2 /\ ready L2 s_0 /\ sreach L2 0x4444 s_0 s_0 /\ calls L2 0 1 c0 /\
  exists c', exec_all (context_switch 0x4444) c0 = Some c' /\ eip c' = 0x5000 /\ esp c' = 0x102f2c.
Proof.
  split; [exact L2_sep|]. split; [exact s_0_ready|]. split; [constructor|].
  split; [unfold calls; cbn [lo hi slot L2]; repeat split; try reflexivity; vm_compute; discriminate|].
  eexists. split; [vm_compute; reflexivity|]. split; reflexivity.
Qed.
