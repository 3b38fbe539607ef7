(** C91: PowerPC: a thread that was switched away goes on where it stopped, and a new one starts at its entry.

    [run context_switch c] is pok_context_switch (r3: where to keep the stack pointer, r4: the stack pointer of the other thread), instruction by instruction. *)
From Verif Require Import Model.Base Spec.PpcCpu Model.PpcEntry Model.PpcThread Proof.PpcEntryProof Proof.PpcThreadProof Proof.Tac.

(** The call of pok_context_switch in [c] returns in [c']: where it was called, with the registers that a C function keeps. *)
Definition goes_on (c c' : ppc) : Prop :=
  pc c' = spr c LR /\ gpr c' 1 = gpr c 1 /\ gpr c' 2 = gpr c 2 /\ (forall r, 13 <= r < 32 -> gpr c' r = gpr c r) /\ spr c' CR = spr c CR.
(** The switch in [d] writes its frame and its slot; neither is in [lo, hi). *)
Definition writes_elsewhere (d : ppc) (lo hi : Z) : Prop :=
  (gpr d 1 + 8 <= lo \/ hi <= gpr d 1 - 96) /\ (gpr d 3 < lo \/ hi <= gpr d 3).

Lemma load_parked : forall d lo hi n, writes_elsewhere d lo hi -> lo <= gpr d 4 -> gpr d 4 + 96 <= hi -> lo <= gpr n 1 -> gpr n 1 + 8 <= hi -> parked (gpr d 4) n (mem d) ->
  exists d', run context_switch d = Some d' /\ goes_on n d' /\ (forall a, lo <= a < hi -> mem d' a = mem d a) /\ (forall q, q <> CR -> q <> LR -> spr d' q = spr d q).
Proof.
  intros d lo hi n (W1 & W2) H1 H2 H3 H4 (P1 & P2 & P3 & P4). destruct (switch_exec d) as (d' & R & MO & MS & _ & G & G1 & GC & GP & GS). exists d'. split; [exact R|].
  assert (K : forall a, lo <= a < hi -> mem d' a = mem d a) by (intros a Ha; apply MO; lia). split; [|split; [exact K|exact GS]].
  unfold goes_on. rewrite G1, GC, GP. rewrite (K (gpr d 4)), (K (gpr d 4 + 8)) by lia. rewrite P1, P2. rewrite K by lia. rewrite P3.
  split; [reflexivity|]. split; [reflexivity|]. assert (PL : forall r, kept r -> 12 <= place r < 92) by (intros r Hr; unfold place, kept in *; destruct (Z.eqb_spec r 2); lia).
  assert (A : forall r, kept r -> gpr d' r = gpr n r) by (intros r Hr; rewrite G by exact Hr; pose proof (PL r Hr); rewrite K by lia; apply P4, Hr).
  split; [apply A; unfold kept; lia|]. split; [intros r Hr; apply A; unfold kept; lia|reflexivity].
Qed.

(** ** Switching *)
(** [c] switches away; later ([d]), with the stack pointer that was kept and the 104 bytes of its frame untouched, somebody switches back. *)
Theorem C91_switch : forall c d, let b := gpr c 1 - 96 in gpr c 3 < b \/ b + 104 <= gpr c 3 ->
  exists c1, run context_switch c = Some c1 /\ spr c1 MSR = spr c MSR /\ spr c1 SPRG1 = spr c SPRG1 /\
    (gpr d 4 = mem c1 (gpr c 3) -> (forall a, b <= a < b + 104 -> mem d a = mem c1 a) -> writes_elsewhere d b (b + 104) ->
     exists d', run context_switch d = Some d' /\ goes_on c d' /\ spr d' MSR = spr d MSR).
Proof.
  intros c d b HS. destruct (switch_exec c) as (c1 & R & MO & MS & MP & _ & _ & _ & _ & GS). exists c1. split; [exact R|].
  split; [apply GS; discriminate|]. split; [apply GS; discriminate|]. intros H4 HM W. specialize (MP HS). fold b in MS, MP. rewrite MS in H4.
  destruct (load_parked d b (b + 104) c W) as (d' & R' & G & _ & SP); try (rewrite ?H4; unfold b; lia).
  - rewrite H4. destruct MP as (P1 & P2 & P3 & P4). assert (PL : forall r, kept r -> 12 <= place r < 92) by (intros r Hr; unfold place, kept in *; destruct (Z.eqb_spec r 2); lia).
    unfold parked. rewrite !HM by (unfold b; lia). repeat (split; [assumption|]). intros r Hr. pose proof (PL r Hr). rewrite HM by lia. apply P4, Hr.
  - exists d'. split; [exact R'|]. split; [exact G|]. apply SP; discriminate.
Qed.
Print Assumptions C91_switch.

(** ** New threads *)
(** The words of a new context of a partition's thread. *)
Lemma created_user : forall stack label entry usp a1 a2 m sp m1, space_context_create stack label entry usp a1 a2 m = (sp, m1) ->
  sp = stack + 8000 /\ m1 sp = sp + 96 /\ m1 (sp + 100) = label /\
  (forall k, 2 <= k < 24 -> m1 (sp + 4 * k) = 0) /\ m1 (sp + 96) = usp - 12 /\ m1 (sp + 96 + 20) = a1 /\ m1 (sp + 96 + 24) = a2 /\ m1 (sp + 96 + 72) = entry /\ m1 (sp + 96 + 76) = 0xc070 /\
  (forall k, 2 <= k < 24 -> k <> 5 -> k <> 6 -> k <> 18 -> k <> 19 -> m1 (sp + 96 + 4 * k) = 0).
Proof.
  intros stack label entry usp a1 a2 m sp m1 H. unfold space_context_create, KERNEL_STACK_SIZE, VOLATILE_SIZE, CONTEXT_SIZE in H. cbv zeta in H.
  apply pair_equal_spec in H. destruct H as [<- <-].
  set (v := stack + 8192 - 96). set (x := v - 104 + 8). split; [unfold x, v; lia|]. assert (E : v = x + 96) by (unfold x; lia). clearbody x. rewrite E. clear E v.
  split; [rewrite upd_same; lia|]. split; [rewrite upd_other by lia; apply upd_same|].
  assert (Z1 : forall k, 2 <= k < 24 -> zero_words 24 (x + 96) (zero_words 26 x m) (x + 4 * k) = 0).
  { intros k Hk. rewrite zero_out by lia. apply zero_in. lia. }
  assert (Z2 : forall k, 2 <= k < 24 -> zero_words 24 (x + 96) (zero_words 26 x m) (x + 96 + 4 * k) = 0) by (intros k Hk; apply zero_in; lia).
  split; [intros k Hk; rewrite !upd_other by lia; now apply Z1|].
  split; [repeat (first [rewrite upd_same; reflexivity|rewrite upd_other by lia])|].
  split; [repeat (first [rewrite upd_same; reflexivity|rewrite upd_other by lia])|].
  split; [repeat (first [rewrite upd_same; reflexivity|rewrite upd_other by lia])|].
  split; [repeat (first [rewrite upd_same; reflexivity|rewrite upd_other by lia])|].
  split; [repeat (first [rewrite upd_same; reflexivity|rewrite upd_other by lia])|].
  intros k Hk N5 N6 N18 N19. rewrite !upd_other by lia. now apply Z2.
Qed.

(** A new thread of a partition: when it is switched to for the first time, it goes through pok_arch_rfi to its entry, in user mode with interrupts and translation on, with its arguments in r3 and r4,
    12 below the end of its stack, and zeros in all other registers; the kernel will be entered on its kernel stack. *)
Theorem C91_start : forall stack label entry usp a1 a2 m sp m1 d, space_context_create stack label entry usp a1 a2 m = (sp, m1) -> gpr d 4 = sp ->
  (forall a, sp <= a < stack + 8192 -> mem d a = m1 a) -> writes_elsewhere d stack (stack + 8192) ->
  exists d1 d2, run context_switch d = Some d1 /\ pc d1 = label /\ run arch_rfi d1 = Some d2 /\
    pc d2 = entry /\ gpr d2 1 = usp - 12 /\ gpr d2 3 = a1 /\ gpr d2 4 = a2 /\ (forall r, 0 <= r < 32 -> r <> 1 -> r <> 3 -> r <> 4 -> gpr d2 r = 0) /\
    spr d2 LR = 0 /\ spr d2 CTR = 0 /\ spr d2 XER = 0 /\ spr d2 CR = 0 /\ user d2 = true /\ enabled d2 = true /\ spr d2 MSR = 0xc070 /\
    stack + 96 <= spr d2 SPRG1 <= stack + 8192 - 8.
Proof.
  intros stack label entry usp a1 a2 m sp m1 d HC H4 HM W.
  destruct (created_user _ _ _ _ _ _ _ _ _ HC) as (E & M0 & ML & MZ & V0 & V3 & V4 & VR & VM & VZ).
  set (n := mkPpc (fun r => if r =? 1 then sp + 96 else 0) (fun q => if q =? LR then label else 0) 0 (fun _ => 0)).
  assert (PL : forall r, kept r -> exists k, place r = 4 * k /\ 3 <= k < 23) by (intros r Hr; unfold place, kept in *; destruct (Z.eqb_spec r 2); [exists 3|exists (r - 9)]; lia).
  destruct (load_parked d stack (stack + 8192) n W) as (d1 & R1 & (P1 & P2 & P3 & P4 & P5) & K & SP); try (cbn [n gpr Z.eqb Pos.eqb]; lia).
  { rewrite H4. unfold parked. cbn [n gpr spr Z.eqb Pos.eqb]. rewrite !HM by lia. split; [exact M0|]. split; [apply (MZ 2); lia|].
    split; [replace (sp + 96 + 4) with (sp + 100) by lia; exact ML|]. intros r Hr. destruct (PL r Hr) as (k & -> & Hk). rewrite HM by lia.
    destruct (Z.eqb_spec r 1); [unfold kept in Hr; lia|]. apply MZ. lia. }
  set (u := mkPpc (fun r => if r =? 1 then usp - 12 else if r =? 3 then a1 else if r =? 4 then a2 else 0) (fun q => if q =? MSR then 0xc070 else 0) 0 (fun _ => 0)).
  assert (B : gpr d1 1 = sp + 96) by exact P2.
  assert (KM : forall a, sp <= a < stack + 8192 -> mem d1 a = m1 a) by (intros a Ha; rewrite K by lia; now apply HM).
  destruct (rfi_ok d1 u entry 0xc070) as (d2 & R2 & (Q1 & Q2 & Q3 & Q4 & Q5 & Q6 & Q7) & QM & _ & _ & QS).
  - rewrite B. unfold framed. rewrite !KM by lia. cbn [u gpr spr Z.eqb Pos.eqb MSR LR CTR XER CR].
    pose proof (fun k => VZ k) as Y. rewrite V0, V3, V4, VR, VM.
    assert (T : forall k j, k = 4 * j -> 2 <= j < 24 -> j <> 5 -> j <> 6 -> j <> 18 -> j <> 19 -> m1 (sp + 96 + k) = 0) by (intros k j -> A0 A1 A2 A3 A4; apply VZ; assumption).
    repeat split; try reflexivity;
    [apply (T 8 2)|apply (T 12 3)|apply (T 16 4)|apply (T 28 7)|apply (T 32 8)|apply (T 36 9)|apply (T 40 10)|apply (T 44 11)|apply (T 48 12)|apply (T 52 13)|apply (T 56 14)|apply (T 60 15)
      |apply (T 64 16)|apply (T 68 17)|apply (T 84 21)]; lia.
  - intros r Hr. rewrite P4 by lia. cbn [n u gpr]. destruct (Z.eqb_spec r 1); [lia|]. destruct (Z.eqb_spec r 3); [lia|]. destruct (Z.eqb_spec r 4); [lia|reflexivity].
  - reflexivity.
  - exists d1, d2. split; [exact R1|]. split; [exact P1|]. split; [exact R2|]. split; [exact Q1|].
    rewrite (Q2 1), (Q2 3), (Q2 4) by lia. do 3 (split; [reflexivity|]). split.
    { intros r Hr N1 N3 N4. rewrite Q2 by exact Hr. cbn [u gpr]. destruct (Z.eqb_spec r 1); [lia|]. destruct (Z.eqb_spec r 3); [lia|]. destruct (Z.eqb_spec r 4); [lia|reflexivity]. }
    unfold user, enabled. rewrite Q3, Q4, Q5, Q6, Q7. do 7 (split; [reflexivity|]). rewrite QS. change (Z.testbit 0xc070 14) with true. cbv iota. lia.
Qed.
Print Assumptions C91_start.

(** A new thread of the kernel (the idle thread): it calls its entry with its identifier at hand, at the end of its stack, with interrupts as they were for the thread that switched to it. *)
Theorem C91_kernel_start_partial : forall stack label id size entry m sp m1 d, context_create stack label id size entry m = (sp, m1) -> 104 <= size -> gpr d 4 = sp ->
  (forall a, sp <= a < stack + size -> mem d a = m1 a) -> writes_elsewhere d stack (stack + size) ->
  exists d1 d2, run context_switch d = Some d1 /\ pc d1 = label /\ run thread_start d1 = Some d2 /\
    gpr d2 3 = entry /\ gpr d2 4 = id /\ gpr d2 1 = stack + size - 8 /\ mem d2 (gpr d2 1 + 4) = 0 /\ spr d2 MSR = spr d MSR.
Proof.
  intros stack label id size entry m sp m1 d HC HS H4 HM W. unfold context_create, CONTEXT_SIZE in HC. cbv zeta in HC. apply pair_equal_spec in HC. destruct HC as [E HC].
  assert (ES : sp = stack + size - 104) by lia. rewrite E in HC. clear E.
  set (n := mkPpc (fun r => if r =? 1 then sp + 96 else if r =? 14 then entry else if r =? 15 then id else 0) (fun q => if q =? LR then label else 0) 0 (fun _ => 0)).
  assert (Z1 : forall k, 0 <= k < 26 -> zero_words 26 sp m (sp + 4 * k) = 0) by (intros k Hk; apply zero_in; lia).
  destruct (load_parked d stack (stack + size) n W) as (d1 & R1 & (P1 & P2 & P3 & P4 & P5) & K & SP); try (cbn [n gpr Z.eqb Pos.eqb]; lia).
  { rewrite H4. unfold parked. cbn [n gpr spr Z.eqb Pos.eqb]. rewrite !HM by lia. rewrite <- HC. split; [apply upd_same|].
    split; [rewrite !upd_other by lia; apply (Z1 2); lia|]. split; [rewrite upd_other by lia; replace (sp + 96 + 4) with (sp + 100) by lia; apply upd_same|].
    intros r Hr. assert (PL : exists k, place r = 4 * k /\ 3 <= k < 23 /\ (r = 14 <-> k = 5) /\ (r = 15 <-> k = 6)) by (unfold place, kept in *; destruct (Z.eqb_spec r 2); [exists 3|exists (r - 9)]; lia).
    destruct PL as (k & -> & Hk & K5 & K6). rewrite HM by lia. rewrite <- HC. rewrite upd_other by lia. rewrite upd_other by lia.
    destruct (Z.eqb_spec r 1); [unfold kept in Hr; lia|]. destruct (Z.eqb_spec r 14) as [E | N].
    - rewrite (proj1 K5 E). rewrite upd_other by lia. apply upd_same.
    - destruct (Z.eqb_spec r 15) as [E | N'].
      + rewrite (proj1 K6 E). apply upd_same.
      + rewrite !upd_other by lia. apply Z1. lia. }
  exists d1. assert (B : gpr d1 1 = sp + 96) by exact P2.
  assert (T : exists d2, run thread_start d1 = Some d2 /\ gpr d2 3 = gpr d1 14 /\ gpr d2 4 = gpr d1 15 /\ gpr d2 1 = gpr d1 1 /\ mem d2 (gpr d2 1 + 4) = 0 /\ spr d2 = spr d1).
  { clear. destruct d1 as [g s p m]. go thread_start. do 3 (split; [reflexivity|]). split; [|reflexivity]. cbn. rewrite upd_same. apply Z.lxor_nilpotent. }
  destruct T as (d2 & R2 & T3 & T4 & T1 & TM & TS). exists d2. split; [exact R1|]. split; [exact P1|]. split; [exact R2|]. rewrite T3, T4, P4, P4 by lia.
  do 2 (split; [reflexivity|]). split; [rewrite T1, B; lia|]. split; [exact TM|]. rewrite TS. apply SP; discriminate.
Qed.
Print Assumptions C91_kernel_start_partial.

(** Full statement: the idle thread waits for interrupts. Switched to by the tick, it never sees one: it begins with interrupts off, and what it does is an endless loop (arch.c:65-70). *)
Theorem C91_idle_refuted : forall c resume cause, user c = false -> enabled c = true -> Z.land (spr c MSR) MSR_SAVED = spr c MSR -> is_cause cause ->
  exists seen, (forall h, run (decrementer h) (exception resume cause c) = match h seen with None => None | Some a => run arch_rfi a end) /\
    forall stack label id size entry m sp m1 d, spr d MSR = spr seen MSR ->
      context_create stack label id size entry m = (sp, m1) -> 104 <= size -> gpr d 4 = sp -> (forall a, sp <= a < stack + size -> mem d a = m1 a) -> writes_elsewhere d stack (stack + size) ->
      exists d1 d2, run context_switch d = Some d1 /\ run thread_start d1 = Some d2 /\ gpr d2 3 = entry /\ enabled d2 = false.
Proof.
  intros c resume cause U EN HM HC. destruct (kernel_entry c resume cause U HM HC) as (c2 & R & _ & _ & _ & _ & _ & _ & _ & SM & _). exists c2. split.
  { intros h. unfold decrementer. rewrite R. rewrite run_app by reflexivity. unfold run at 1. cbn [run_skip exec]. destruct (h c2); reflexivity. }
  intros stack label id size entry m sp m1 d HD H1 H2 H3 H4 H5. destruct (C91_kernel_start_partial _ _ _ _ _ _ _ _ _ H1 H2 H3 H4 H5) as (d1 & d2 & A & _ & B & E3 & _ & _ & _ & EM).
  exists d1, d2. split; [exact A|]. split; [exact B|]. split; [exact E3|]. unfold enabled. rewrite EM, HD, SM, Z.land_spec. apply andb_false_r.
Qed.
Print Assumptions C91_idle_refuted.

(** ** A tick during the switch *)
(** Full statement: an interrupt during pok_context_switch leaves its outcome the same. With interrupts enabled, as they are in system calls, a tick between the last two loads makes the new thread return to where the
    old one called pok_context_switch: the handler keeps the link register in the word that is loaded next. *)
Theorem C91_tick_refuted : forall c at_ h, user c = false -> enabled c = true -> Z.land (spr c MSR) MSR_SAVED = spr c MSR -> c_function 88 h ->
  exists c4, run (switch_save ++ switch_stack ++ switch_load) c = Some c4 /\ enabled c4 = true /\
    (exists c', run switch_return c4 = Some c' /\ pc c' = mem c4 (gpr c4 1 + 4)) /\
    exists seen, forall after, h seen = Some after -> exists c5 c', run (decrementer h) (exception at_ 0 c4) = Some c5 /\
      run switch_return c5 = Some c' /\ gpr c' 1 = gpr c4 1 /\ pc c' = spr c LR.
Proof.
  intros c at_ h U EN HM Hh. destruct (save1_ok c) as (c1 & R1 & A1 & AG & AS & AP & AM). destruct (save2_ok c1) as (c2 & R2 & BG & BS & BP & BM).
  set (c3 := mkPpc (upd (gpr c2) 1 (gpr c2 4)) (spr c2) (pc c2) (upd (mem c2) (gpr c2 3 + 0) (gpr c2 1))).
  destruct (load_ok c3) as (c4 & R4 & D & D1 & DC & DS & DM & DP). exists c4.
  assert (S4 : forall q, q <> CR -> spr c4 q = spr c q) by (intros q Q; rewrite DS by exact Q; unfold c3; cbn [spr]; now rewrite BS, AS).
  split.
  { change (switch_save ++ switch_stack ++ switch_load) with (save1 ++ save2 ++ switch_stack ++ switch_load). rewrite run_app by reflexivity. rewrite R1.
    rewrite run_app by reflexivity. rewrite R2. rewrite run_app by reflexivity. change (run switch_stack c2) with (Some c3). exact R4. }
  split; [unfold enabled in *; rewrite S4 by discriminate; exact EN|]. split; [eexists; split; reflexivity|].
  assert (U4 : user c4 = false) by (unfold user in *; rewrite S4 by discriminate; exact U). assert (K4 : Z.land (spr c4 MSR) MSR_SAVED = spr c4 MSR) by (rewrite S4 by discriminate; exact HM).
  destruct (kernel_entry c4 at_ 0 U4 K4 eq_refl) as (s & R & F & G1 & G3 & G4 & GO & SB & B80 & SM2 & SG). change FRAME_SIZE with 80 in *.
  exists s. intros a Ha. pose proof (Hh _ _ Ha) as K. pose proof K as (Ka & _ & K13 & _ & KM). destruct (mode_bits _ 0 K4 eq_refl) as (MB & M14).
  pose proof (framed_kept 88 _ _ _ _ _ _ ltac:(lia) K G1 F) as FA.
  destruct (rfi_ok a c4 at_ (Z.lor (Z.land (spr c4 MSR) MSR_SAVED) 0)) as (c5 & RR & (_ & RG & _) & ME & _).
  - rewrite Ka, G1. exact FA.
  - intros r Hr. rewrite K13 by lia. apply GO; lia.
  - exact MB.
  - exists c5. eexists. split; [unfold decrementer; rewrite R; rewrite run_app by reflexivity; unfold run at 1; cbn [run_skip exec]; rewrite Ha; exact RR|].
    split; [reflexivity|]. cbn [gpr pc set_pc set_spr set_gpr spr mem]. rewrite upd_other by lia. split; [apply RG; lia|]. unfold upd. cbn [Z.eqb Pos.eqb]. rewrite RG by lia. rewrite ME.
    destruct FA as (_ & _ & _ & _ & _ & _ & _ & _ & _ & _ & _ & _ & _ & _ & _ & _ & _ & _ & _ & FL). replace (gpr c4 1 + 4) with (gpr c4 1 - 80 + 84) by lia. rewrite FL. apply S4. discriminate.
Qed.
Print Assumptions C91_tick_refuted.

(** ** Starting a thread again *)
(** pok_context_reset writes only to the 104 bytes below the last word of the area that it is given, ... *)
Theorem C91_reset_extent : forall label size addr m a, a < addr + size - 108 \/ addr + size - 4 <= a -> snd (context_reset label size addr m) a = m a.
Proof.
  intros label size addr m a H. unfold context_reset, CONTEXT_SIZE. cbv zeta. cbn [snd]. rewrite !upd_other by lia. apply zero_out. lia.
Qed.
Print Assumptions C91_reset_extent.
(** ... Full statement: after it, the next switch to the thread begins at its entry. The area is the thread's stack in its partition (core/thread.c:294), the context is in the kernel: the thread goes on where it
    stopped. *)
Theorem C91_restart_refuted : forall c d label size addr, let b := gpr c 1 - 96 in gpr c 3 < b \/ b + 104 <= gpr c 3 -> addr + size <= b \/ b + 104 <= addr + size - 108 ->
  exists c1, run context_switch c = Some c1 /\
    (gpr d 4 = mem c1 (gpr c 3) -> mem d = snd (context_reset label size addr (mem c1)) -> writes_elsewhere d b (b + 104) ->
     exists d', run context_switch d = Some d' /\ goes_on c d').
Proof.
  intros c d label size addr b HS HA. destruct (C91_switch c d HS) as (c1 & R & _ & _ & P). exists c1. split; [exact R|]. intros H4 HM W.
  destruct (P H4) as (d' & R' & G & _); [|exact W|exists d'; now split]. fold b. intros a Ha. rewrite HM. apply C91_reset_extent. lia.
Qed.
Print Assumptions C91_restart_refuted.
(** Given the stack of a thread made by pok_context_create, it would be 4 bytes off: the new context begins at address 0, with the entry as identifier. *)
Theorem C91_reset_refuted : forall stack label id size entry m sp m1, context_create stack label id size entry m = (sp, m1) ->
  let m2 := snd (context_reset label size stack m1) in m2 (sp - 4) = sp - 4 + 96 /\ m2 (sp - 4 + 20) = 0 /\ m2 (sp - 4 + 24) = entry.
Proof.
  intros stack label id size entry m sp m1 HC m2. unfold context_create, CONTEXT_SIZE in HC. cbv zeta in HC. apply pair_equal_spec in HC. destruct HC as [E HC].
  rewrite E in HC. unfold m2, context_reset, CONTEXT_SIZE. cbv zeta. cbn [snd]. replace (stack + size - 4 - 104) with (sp - 4) by lia.
  assert (A : m1 (sp - 4 + 20) = 0).
  { replace (sp - 4 + 20) with (sp + 4 * 4) by lia. rewrite <- HC. rewrite !upd_other by lia. apply zero_in. lia. }
  assert (B : m1 (sp - 4 + 24) = entry).
  { replace (sp - 4 + 24) with (sp + 20) by lia. rewrite <- HC. do 3 rewrite upd_other by lia. apply upd_same. }
  rewrite A, B. split; [apply upd_same|]. split.
  - do 3 rewrite upd_other by lia. apply upd_same.
  - do 2 rewrite upd_other by lia. apply upd_same.
Qed.
Print Assumptions C91_reset_refuted.

(** ** Examples *)
(** A thread on a stack that ends at 0x30000 switches to a new thread of a partition whose kernel stack is at 0x40000: entry 0x1000, stack 0x8000, arguments 7 and 8; pok_arch_rfi is at 0x104. *)
Definition new_thread := space_context_create 0x40000 0x104 0x1000 0x8000 7 8 (fun _ => 99).
Definition running : ppc := mkPpc (fun r => if r =? 1 then 0x2ff00 else if r =? 3 then 0x50000 else if r =? 4 then fst new_thread else r) (fun q => if q =? MSR then 0x9040 else if q =? LR then 0x7777 else 5) 0 (snd new_thread).
Example running_meets : space_context_create 0x40000 0x104 0x1000 0x8000 7 8 (fun _ => 99) = (fst new_thread, snd new_thread) /\ gpr running 4 = fst new_thread /\
  (forall a, fst new_thread <= a < 0x40000 + 8192 -> mem running a = snd new_thread a) /\ writes_elsewhere running 0x40000 (0x40000 + 8192) /\
  user running = false /\ enabled running = true /\ Z.land (spr running MSR) MSR_SAVED = spr running MSR.
Proof. split; [reflexivity|]. split; [reflexivity|]. split; [reflexivity|]. split; [|repeat split]. unfold writes_elsewhere. cbn [running gpr Z.eqb Pos.eqb]. lia. Qed.
Definition then_ (l : list instr) (o : option ppc) : option ppc := match o with None => None | Some c => run l c end.
Definition look (o : option ppc) : option (Z * Z * Z * Z * Z) := match o with None => None | Some c => Some (pc c, gpr c 1, gpr c 3, gpr c 14, spr c MSR) end.
Example start_example : look (run context_switch running) = Some (0x104, 0x41fa0, 0x50000, 0, 0x9040) /\ look (then_ arch_rfi (run context_switch running)) = Some (0x1000, 0x8000 - 12, 7, 0, 0xc070).
Proof. split; vm_compute; reflexivity. Qed.
(** Back to the first thread, from a thread on the stack at 0x60000 whose link register is 0x8888: it goes on at 0x7777 with its r14 — or at 0x8888, if a tick comes between the loads. *)
Definition back (c : ppc) : ppc := mkPpc (fun r => if r =? 1 then 0x5ff00 else if r =? 3 then 0x50004 else if r =? 4 then mem c 0x50000 else 1000 + r) (fun q => if q =? MSR then 0x9040 else if q =? LR then 0x8888 else 6) 0 (mem c).
Example back_example :
  match run context_switch running with
  | None => False
  | Some c => look (run context_switch (back c)) = Some (0x7777, 0x2ff00, 0x50004, 14, 0x9040) /\
     match run (switch_save ++ switch_stack ++ switch_load) (back c) with
     | None => False
     | Some c4 => look (then_ switch_return (run (decrementer Some) (exception 0x600 0 c4))) = Some (0x8888, 0x2ff00, 0x50004, 14, 0x9040)
     end
  end.
Proof. vm_compute. split; reflexivity. Qed.
