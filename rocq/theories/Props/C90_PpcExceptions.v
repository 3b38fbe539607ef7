(** C90: exceptions of the PowerPC port save and restore the interrupted program; its kernel stack, its tick in user mode and the way out of a system call.

    [exception resume cause c] is the processor when the exception begins (Spec/PpcCpu.v), [run (dsi h)] what entry.S does from there on, with the C
    function as an arbitrary [h] that keeps what the ABI makes it keep. *)
From Verif Require Import Model.Base Spec.PpcCpu Model.PpcEntry Proof.PpcEntryProof Proof.Tac.

(** ** Page faults *)
(** A fault of a program: the C function runs on the kernel stack that SPRG1 points to, in supervisor mode without interrupts, with
    the address and reason as arguments; on the way to it only the frame was written. When it returns, the program goes on with all its
    registers; the kernel stack pointer is 80 lower than before. *)
Definition answers (code : (ppc -> option ppc) -> list instr) (resume cause : Z) (c seen : ppc) : Prop :=
  forall h, c_function 88 h ->
    (h seen = None -> run (code h) (exception resume cause c) = None) /\
    forall after, h seen = Some after -> exists c', run (code h) (exception resume cause c) = Some c' /\ resumed resume c c' /\
      mem c' = mem after /\ spr c' SPRG1 = spr c SPRG1 - 80.
Definition on_kernel_stack (c seen : ppc) : Prop :=
  gpr seen 1 = spr c SPRG1 - 80 /\ user seen = false /\ enabled seen = false /\ same_but (spr c SPRG1 - 80) 88 (mem c) (mem seen).

Lemma off : forall m, Z.testbit (Z.land m MSR_KEPT) 14 = false /\ Z.testbit (Z.land m MSR_KEPT) 15 = false.
Proof. intros m. rewrite !Z.land_spec. split; apply andb_false_r. Qed.

Lemma bl_rfi : forall h c, run ([Bl h] ++ arch_rfi) c = match h c with None => None | Some a => run arch_rfi a end.
Proof. intros h c. rewrite run_app by reflexivity. unfold run at 1. cbn [run_skip exec]. destruct (h c); reflexivity. Qed.
Lemma resumes : forall h c seen resume cause, c_function 88 h -> user c = true -> Z.land (spr c MSR) MSR_SAVED = spr c MSR -> is_cause cause ->
  gpr seen 1 = spr c SPRG1 - 80 -> framed (spr c SPRG1 - 80) c resume (Z.lor (Z.land (spr c MSR) MSR_SAVED) cause) (mem seen) ->
  (forall r, 14 <= r < 32 -> gpr seen r = gpr c r) -> forall after, h seen = Some after ->
  exists c', run arch_rfi after = Some c' /\ resumed resume c c' /\ mem c' = mem after /\ spr c' SPRG1 = spr c SPRG1 - 80.
Proof.
  intros h c seen resume cause Hh U HM HC G1 F GO a Ha. pose proof (Hh _ _ Ha) as K. pose proof K as (K1 & K2 & K13 & KM & KM').
  destruct (mode_bits _ _ HM HC) as (MB & M14).
  destruct (rfi_ok a c resume (Z.lor (Z.land (spr c MSR) MSR_SAVED) cause)) as (c' & RR & RES & ME & _ & _ & SG).
  - rewrite K1, G1. eapply framed_kept; [|exact K|exact G1|exact F]. lia.
  - intros r Hr. rewrite K13 by lia. apply GO; lia.
  - exact MB.
  - exists c'. split; [exact RR|]. split; [exact RES|]. split; [exact ME|]. rewrite SG, M14. unfold user in U. rewrite U, K1, G1. reflexivity.
Qed.

Theorem C90_isi_partial : forall c resume cause, user c = true -> Z.land (spr c MSR) MSR_SAVED = spr c MSR -> is_cause cause ->
  exists seen, on_kernel_stack c seen /\ gpr seen 3 = resume /\ gpr seen 4 = Z.lor (spr c MSR) cause /\ answers isi resume cause c seen.
Proof.
  intros c resume cause U HM HC.
  destruct (user_entry c resume cause U HM HC) as (c2 & R & F & G1 & G3 & G4 & GO & SB & _ & SM & SO).
  exists c2. destruct (off (spr c MSR)) as (O14 & O15). split.
  { split; [exact G1|]. unfold user, enabled. rewrite SM. now repeat split. }
  split; [exact G3|]. split; [rewrite G4, HM; reflexivity|]. intros h Hh.
  assert (E : run (isi h) (exception resume cause c) = match h c2 with None => None | Some a => run arch_rfi a end) by (unfold isi; rewrite R; apply bl_rfi).
  rewrite E. split; [intros ->; reflexivity|]. intros a Ha. rewrite Ha.
  apply (resumes h c c2 resume cause); try assumption. intros r Hr. apply GO; lia.
Qed.
Print Assumptions C90_isi_partial.

Theorem C90_dsi_partial : forall c resume cause, user c = true -> Z.land (spr c MSR) MSR_SAVED = spr c MSR -> is_cause cause ->
  exists seen, on_kernel_stack c seen /\ gpr seen 3 = spr c DAR /\ gpr seen 4 = spr c DSISR /\ answers dsi resume cause c seen.
Proof.
  intros c resume cause U HM HC.
  destruct (user_entry c resume cause U HM HC) as (c2 & R & F & G1 & G3 & G4 & GO & SB & _ & SM & SO).
  exists (set_gpr 4 (spr c2 DSISR) (set_gpr 3 (spr c2 DAR) c2)). destruct (off (spr c MSR)) as (O14 & O15). split.
  { split; [exact G1|]. unfold user, enabled, set_gpr. cbn [spr mem]. rewrite SM. now repeat split. }
  split; [apply SO; discriminate|]. split; [apply SO; discriminate|]. intros h Hh. set (c3 := set_gpr 4 _ _).
  assert (E : run (dsi h) (exception resume cause c) = match h c3 with None => None | Some a => run arch_rfi a end).
  { unfold dsi. rewrite R. change [Mf 3 DAR; Mf 4 DSISR; Bl h] with ([Mf 3 DAR; Mf 4 DSISR] ++ [Bl h]). rewrite <- app_assoc, run_app by reflexivity. apply bl_rfi. }
  rewrite E. split; [intros ->; reflexivity|]. intros a Ha. rewrite Ha.
  apply (resumes h c c3 resume cause); try assumption. intros r Hr. unfold c3, set_gpr. cbn [gpr]. unfold upd.
  destruct (Z.eqb_spec r 4); [lia|]. destruct (Z.eqb_spec r 3); [lia|]. apply GO; lia.
Qed.
Print Assumptions C90_dsi_partial.

(** ** System calls *)
(** The C function gets r3 to r8 of the program as its arguments, on the kernel stack with interrupts enabled; the program goes on with all its
    registers but r3, which holds what the function left there. *)
Theorem C90_system_call_partial : forall c resume cause, user c = true -> Z.land (spr c MSR) MSR_SAVED = spr c MSR -> is_cause cause ->
  exists seen, gpr seen 1 = spr c SPRG1 - 80 /\ user seen = false /\ enabled seen = true /\ same_but (spr c SPRG1 - 80) 88 (mem c) (mem seen) /\
    (forall r, 3 <= r <= 8 -> gpr seen r = gpr c r) /\
    forall h, c_function 88 h ->
      (h seen = None -> run (system_call h) (exception resume cause c) = None) /\
      forall after, h seen = Some after -> exists c', run (system_call h) (exception resume cause c) = Some c' /\
        resumed resume (set_gpr 3 (gpr after 3) c) c' /\ same_but (spr c SPRG1 - 80) 88 (mem after) (mem c') /\ spr c' SPRG1 = spr c SPRG1 - 80.
Proof.
  intros c resume cause U HM HC.
  destruct (user_entry c resume cause U HM HC) as (c2 & R & F & G1 & G3 & G4 & GO & SB & _ & SM & SO).
  set (b := spr c SPRG1 - 80) in *. change (spr c SPRG1 - FRAME_SIZE) with b in *.
  set (l := [Lwz 3 20 1; Lwz 4 24 1; Lwz 5 28 1; Lwz 6 32 1; Lwz 7 36 1; Lwz 8 40 1; Mf 0 MSR; Ori 0 0 EE; Mt MSR 0]).
  assert (X : exists c3, run l c2 = Some c3 /\ gpr c3 3 = mem c2 (gpr c2 1 + 20) /\ gpr c3 4 = mem c2 (gpr c2 1 + 24) /\ gpr c3 5 = mem c2 (gpr c2 1 + 28) /\
     gpr c3 6 = mem c2 (gpr c2 1 + 32) /\ gpr c3 7 = mem c2 (gpr c2 1 + 36) /\ gpr c3 8 = mem c2 (gpr c2 1 + 40) /\
     (forall r, 9 <= r -> gpr c3 r = gpr c2 r) /\ gpr c3 1 = gpr c2 1 /\ mem c3 = mem c2 /\ spr c3 MSR = Z.lor (spr c2 MSR) EE).
  { clear. destruct c2 as [g s p m]. go l. do 6 (split; [reflexivity|]). split; [intros r Hr; eqbs|]. split; [reflexivity|]. split; reflexivity. }
  destruct X as (c3 & R3 & X3 & X4 & X5 & X6 & X7 & X8 & X9 & X1 & XM & XS). exists c3.
  destruct (off (spr c MSR)) as (O14 & O15). rewrite X1. split; [exact G1|].
  split; [unfold user; rewrite XS, SM, Z.lor_spec, O14; reflexivity|]. split; [unfold enabled; rewrite XS, Z.lor_spec; apply orb_true_r|].
  split; [rewrite XM; exact SB|]. pose proof F as (_ & _ & _ & _ & F3 & F4 & F5 & F6 & F7 & F8 & _). rewrite G1 in *. split.
  { intros r Hr. assert (r = 3 \/ r = 4 \/ r = 5 \/ r = 6 \/ r = 7 \/ r = 8) as C by lia. repeat (destruct C as [-> | C]; [congruence|]). subst r. congruence. }
  intros h Hh.
  assert (E : run (system_call h) (exception resume cause c) = match h c3 with None => None | Some a => run arch_rfi (set_word (gpr a 1 + 20) (gpr a 3) a) end).
  { unfold system_call. rewrite R. change ([Lwz 3 20 1; Lwz 4 24 1; Lwz 5 28 1; Lwz 6 32 1; Lwz 7 36 1; Lwz 8 40 1; Mf 0 MSR; Ori 0 0 EE; Mt MSR 0; Bl h; Stw 3 20 1])
    with (l ++ [Bl h; Stw 3 20 1]). rewrite <- app_assoc, run_app by reflexivity. rewrite R3. clear. rewrite run_app by reflexivity. unfold run at 1. cbn [run_skip exec].
    destruct (h c3); reflexivity. }
  rewrite E. split; [intros ->; reflexivity|]. intros a Ha. rewrite Ha. pose proof (Hh _ _ Ha) as K. pose proof K as (K1 & K2 & K13 & KM & KM').
  destruct (mode_bits _ _ HM HC) as (MB & M14). rewrite X1 in K1.
  destruct (rfi_ok (set_word (gpr a 1 + 20) (gpr a 3) a) (set_gpr 3 (gpr a 3) c) resume (Z.lor (Z.land (spr c MSR) MSR_SAVED) cause)) as (c' & RR & RES & ME & _ & _ & SG).
  - cbn [set_word gpr mem]. assert (FA : framed b c resume (Z.lor (Z.land (spr c MSR) MSR_SAVED) cause) (mem a)).
    { eapply framed_kept; [|exact K|congruence|rewrite XM; exact F]. lia. }
    rewrite K1. clear - FA. unfold framed in *. unfold set_gpr. cbn [gpr spr].
    rewrite !upd_same. rewrite !upd_other by lia. intuition.
  - intros r Hr. cbn [set_word gpr set_gpr]. rewrite K13 by lia. rewrite X9 by lia. rewrite upd_other by lia. apply GO; lia.
  - exact MB.
  - exists c'. split; [exact RR|]. split; [exact RES|]. rewrite ME. cbn [set_word mem gpr] in *. split.
    + intros x Hx. rewrite upd_other by lia. reflexivity.
    + rewrite SG, M14. unfold user in U. rewrite U. exact K1.
Qed.
Print Assumptions C90_system_call_partial.

(** ** The tick *)
(** In the kernel, the handler of the decrementer uses the stack it finds; the interrupted code goes on with all its registers. *)
Theorem C90_kernel_tick_partial : forall c resume cause, user c = false -> Z.land (spr c MSR) MSR_SAVED = spr c MSR -> is_cause cause ->
  exists seen, gpr seen 1 = gpr c 1 - 80 /\ user seen = false /\ enabled seen = false /\ same_but (gpr c 1 - 80) 88 (mem c) (mem seen) /\ mem seen (gpr c 1) = mem c (gpr c 1) /\
    forall h, c_function 88 h ->
      (h seen = None -> run (decrementer h) (exception resume cause c) = None) /\
      forall after, h seen = Some after -> exists c', run (decrementer h) (exception resume cause c) = Some c' /\ resumed resume c c' /\ mem c' = mem after.
Proof.
  intros c resume cause U HM HC.
  destruct (kernel_entry c resume cause U HM HC) as (c2 & R & F & G1 & G3 & G4 & GO & SB & B80 & SM & SG). change FRAME_SIZE with 80 in *.
  exists c2. destruct (off (spr c MSR)) as (O14 & O15). split; [exact G1|]. unfold user, enabled. rewrite SM, O14, O15. do 2 (split; [reflexivity|]).
  split; [exact SB|]. split; [replace (gpr c 1) with (gpr c 1 - 80 + 80) by lia; exact B80|]. intros h Hh.
  assert (E : run (decrementer h) (exception resume cause c) = match h c2 with None => None | Some a => run arch_rfi a end) by (unfold decrementer; rewrite R; apply bl_rfi).
  rewrite E. split; [intros ->; reflexivity|]. intros a Ha. rewrite Ha. pose proof (Hh _ _ Ha) as K. pose proof K as (K1 & K2 & K13 & KM & KM').
  destruct (mode_bits _ _ HM HC) as (MB & M14).
  destruct (rfi_ok a c resume (Z.lor (Z.land (spr c MSR) MSR_SAVED) cause)) as (c' & RR & RES & ME & _).
  - rewrite K1, G1. eapply framed_kept; [|exact K|exact G1|exact F]. lia.
  - intros r Hr. rewrite K13 by lia. apply GO; lia.
  - exact MB.
  - exists c'. split; [exact RR|]. split; [exact RES|exact ME].
Qed.
Print Assumptions C90_kernel_tick_partial.

(** Full statement: the tick of a running partition comes back. It never does: the handler stops the machine, whatever the C function does. *)
Theorem C90_preemption_refuted : forall h c resume cause, user c = true -> Z.land (spr c MSR) MSR_SAVED = spr c MSR -> is_cause cause ->
  run (decrementer h) (exception resume cause c) = None.
Proof.
  intros h c resume cause U HM HC. destruct (mode_bits _ _ HM HC) as (_ & B14). unfold user in U. rewrite U in B14. unfold decrementer.
  destruct (prologue_ok (exception resume cause c)) as (c1 & R1 & E1 & _). rewrite run_app by reflexivity. rewrite R1.
  change (spr (exception resume cause c) SRR1) with (Z.lor (Z.land (spr c MSR) MSR_SAVED) cause) in E1. rewrite B14 in E1. cbn [negb] in E1.
  change ([FailNe; Stwu 1 (- FRAME_SIZE) 1] ++ save_regs ++ [Bl h] ++ arch_rfi) with (FailNe :: Stwu 1 (- FRAME_SIZE) 1 :: save_regs ++ [Bl h] ++ arch_rfi).
  apply run_none. cbn [exec]. rewrite E1. reflexivity.
Qed.
Print Assumptions C90_preemption_refuted.

(** ** The other exceptions *)
(** Full statement: an error of a partition (an illegal instruction or a misaligned access, 0x700 and 0x600, say) is handled and the kernel goes on. Every exception but the four
    above stops the machine; those of the kernel itself do too, but for the decrementer. *)
Theorem C90_errors_refuted : forall hdsi hisi hdecr hsc v resume cause c, v <> 0x300 -> v <> 0x400 -> v <> 0x900 -> v <> 0xc00 ->
  deliver hdsi hisi hdecr hsc v resume cause c = None.
Proof.
  intros hdsi hisi hdecr hsc v resume cause c A B C D. unfold deliver, vector.
  destruct (Z.eqb_spec v 0x300); [contradiction|]. destruct (Z.eqb_spec v 0x400); [contradiction|].
  destruct (Z.eqb_spec v 0x900); [contradiction|]. destruct (Z.eqb_spec v 0xc00); [contradiction|reflexivity].
Qed.
Print Assumptions C90_errors_refuted.
Theorem C90_kernel_faults : forall hdsi hisi hdecr hsc v resume cause c, v <> 0x900 -> user c = false -> Z.land (spr c MSR) MSR_SAVED = spr c MSR -> is_cause cause ->
  deliver hdsi hisi hdecr hsc v resume cause c = None.
Proof.
  intros hdsi hisi hdecr hsc v resume cause c N U HM HC. destruct (mode_bits _ _ HM HC) as (_ & B14). unfold user in U. rewrite U in B14.
  destruct (prologue_ok (exception resume cause c)) as (c1 & R1 & E1 & _).
  change (spr (exception resume cause c) SRR1) with (Z.lor (Z.land (spr c MSR) MSR_SAVED) cause) in E1. rewrite B14 in E1. cbn [negb] in E1.
  assert (X : forall l, run (prologue ++ from_user ++ l) (exception resume cause c) = None).
  { intros l. rewrite run_app by reflexivity. rewrite R1. apply run_none. cbn [exec]. rewrite E1. reflexivity. }
  unfold deliver, vector.
  destruct (Z.eqb_spec v 0x300); [apply X|]. destruct (Z.eqb_spec v 0x400); [apply X|].
  destruct (Z.eqb_spec v 0x900); [contradiction|]. destruct (Z.eqb_spec v 0xc00); [apply X|reflexivity].
Qed.
Print Assumptions C90_kernel_faults.

(** ** The kernel stack *)
(** A program that runs, faults and runs on, [n] times: its own instructions change neither SPRG1 nor the MSR. *)
Inductive faults (h : ppc -> option ppc) : nat -> ppc -> ppc -> Prop :=
| faults_none : forall c, faults h 0 c c
| faults_more : forall n c c1 c2 c3 resume cause, faults h n c c1 -> spr c2 SPRG1 = spr c1 SPRG1 -> spr c2 MSR = spr c1 MSR -> is_cause cause ->
    run (isi h) (exception resume cause c2) = Some c3 -> faults h (S n) c c3.
Lemma faults_lower : forall h n c c', c_function 88 h -> user c = true -> Z.land (spr c MSR) MSR_SAVED = spr c MSR -> faults h n c c' ->
  spr c' SPRG1 = spr c SPRG1 - 80 * Z.of_nat n /\ spr c' MSR = spr c MSR.
Proof.
  intros h n c c' Hh U HM F. induction F as [c | n c c1 c2 c3 resume cause F IH S1 S2 HC R]; [split; lia|].
  destruct (IH U HM) as (I1 & I2).
  destruct (C90_isi_partial c2 resume cause) as (seen & _ & _ & _ & A).
  - unfold user in *. congruence.
  - congruence.
  - exact HC.
  - destruct (A h Hh) as (A1 & A2). destruct (h seen) as [a|] eqn:E.
    + destruct (A2 a eq_refl) as (c' & R' & (_ & _ & _ & _ & _ & _ & M) & _ & P). rewrite R in R'. injection R' as <-. split; [lia|congruence].
    + rewrite A1 in R by reflexivity. discriminate R.
Qed.
(** Full statement: the frame of an exception lies in the kernel stack of 8192 bytes at [lo]. After [n] page faults (or system calls: each lowers SPRG1 by 80 as
    well) the next frame is 80 n bytes lower than the first; the 103rd lies below the stack. *)
Theorem C90_kernel_stack_refuted : forall c lo, user c = true -> Z.land (spr c MSR) MSR_SAVED = spr c MSR -> lo <= spr c SPRG1 <= lo + 8192 ->
  (forall h n c', c_function 88 h -> faults h n c c' -> spr c' SPRG1 = spr c SPRG1 - 80 * Z.of_nat n) /\
  exists h c', c_function 88 h /\ faults h 103 c c' /\ spr c' SPRG1 < lo.
Proof.
  intros c lo U HM HL. split; [intros h n c' Hh F; exact (proj1 (faults_lower h n c c' Hh U HM F))|].
  assert (C : c_function 88 Some) by (intros x y E; injection E as <-; repeat split; reflexivity).
  assert (K : forall n, exists c', faults Some n c c').
  { induction n as [|n (c1 & F)]; [exists c; constructor|]. destruct (faults_lower _ _ _ _ C U HM F) as (_ & M).
    destruct (C90_isi_partial c1 0 0) as (seen & _ & _ & _ & A); [unfold user in *; congruence|congruence|reflexivity|].
    destruct (A Some C) as (_ & A2). destruct (A2 seen eq_refl) as (c' & R & _). exists c'.
    exact (faults_more Some n c c1 c1 c' 0 0 F eq_refl eq_refl eq_refl R). }
  destruct (K 103%nat) as (c' & F). exists Some, c'. split; [exact C|]. split; [exact F|].
  rewrite (proj1 (faults_lower _ _ _ _ C U HM F)). lia.
Qed.
Print Assumptions C90_kernel_stack_refuted.

(** ** The way out of a system call *)
Lemma stuck : forall n c at_, spr c SRR0 = at_ -> Z.testbit (spr c SRR1) 14 = false ->
  exists c', run (repeat Rfi n) c = Some c' /\ spr c' SRR0 = at_ /\ Z.testbit (spr c' SRR1) 14 = false /\ (n <> O -> pc c' = at_ /\ user c' = false).
Proof.
  induction n as [|n IH]; intros c at_ H0 H1; [exists c; repeat split; auto; contradiction|].
  cbn [repeat]. erewrite run_cons; [|reflexivity|reflexivity].
  destruct (IH (set_pc (spr c SRR0) (set_spr MSR (Z.land (spr c SRR1) MSR_SAVED) c)) at_) as (c' & R & A & B & D); [exact H0|exact H1|].
  exists c'. split; [exact R|]. split; [exact A|]. split; [exact B|]. intros _. destruct n.
  - cbn in R. injection R as <-. split; [exact H0|]. unfold user, set_pc, set_spr. cbn [spr]. rewrite upd_same, Z.land_spec, H1. reflexivity.
  - apply D. discriminate.
Qed.
(** Full statement: an interrupt during pok_arch_rfi leaves the outcome the same. System calls arrive there with interrupts enabled. An interrupt just before the last
    instruction, which is at [at_], finds the stack pointer of the program [u]: the handler puts its frame below it, in supervisor mode, r5 of the program
    first among what the program chose; and the program never goes on: from then on rfi returns to itself. *)
Theorem C90_exit_refuted : forall u c resume mode at_ h, framed (gpr c 1) u resume mode (mem c) -> (forall r, 14 <= r < 32 -> gpr c r = gpr u r) ->
  Z.land mode MSR_SAVED = spr u MSR -> user u = true -> user c = false -> enabled c = true -> Z.land (spr c MSR) MSR_SAVED = spr c MSR -> c_function 88 h ->
  exists c1, run (firstn 30 arch_rfi) c = Some c1 /\ (exists c', run (skipn 30 arch_rfi) c1 = Some c' /\ resumed resume u c') /\
    enabled c1 = true /\ exists seen, mem seen (gpr u 1 - 80 + 28) = gpr u 5 /\
      forall after, h seen = Some after -> exists c2, run (decrementer h) (exception at_ 0 c1) = Some c2 /\
        forall n, n <> O -> exists c3, run (repeat Rfi n) c2 = Some c3 /\ pc c3 = at_ /\ user c3 = false.
Proof.
  intros u c resume mode at_ h F G HM UU UC EC HK Hh.
  destruct (exit_ok c u resume mode [] F G) as (c1 & R & (LG & LL & LC & LX & LCR & L0 & L1) & M & SM & P & _).
  rewrite app_nil_r in R. change (run [] c1) with (Some c1) in R. exists c1. split; [exact R|].
  split; [exists (set_pc (spr c1 SRR0) (set_spr MSR (Z.land (spr c1 SRR1) MSR_SAVED) c1)); split; [reflexivity|];
    unfold resumed, set_pc, set_spr; cbn [pc gpr spr]; rewrite L0, L1, HM; unfold upd; cbn [Z.eqb]; repeat split; assumption|].
  split; [unfold enabled in *; congruence|].
  assert (U1 : user c1 = false) by (unfold user in *; congruence). assert (K1 : Z.land (spr c1 MSR) MSR_SAVED = spr c1 MSR) by congruence.
  destruct (kernel_entry c1 at_ 0 U1 K1 eq_refl) as (c2 & R2 & F2 & G1 & G3 & G4 & GO & SB & B80 & SM2 & SG). change FRAME_SIZE with 80 in *.
  exists c2. rewrite (LG 1) in * by lia. pose proof F2 as (_ & _ & _ & _ & _ & _ & F5 & _). split; [rewrite F5; apply LG; lia|].
  intros a Ha. pose proof (Hh _ _ Ha) as K. pose proof K as (Ka & _ & K13 & _ & _). destruct (mode_bits _ 0 K1 eq_refl) as (MB & M14).
  destruct (rfi_ok a c1 at_ (Z.lor (Z.land (spr c1 MSR) MSR_SAVED) 0)) as (c' & RR & RES & ME & S0 & S1 & _).
  - rewrite Ka, G1. eapply framed_kept; [|exact K|exact G1|exact F2]. lia.
  - intros r Hr. rewrite K13 by lia. apply GO; lia.
  - exact MB.
  - exists c'. split; [unfold decrementer; rewrite R2, bl_rfi, Ha; exact RR|]. intros n Hn.
    destruct (stuck n c' at_ S0) as (c3 & R3 & _ & _ & D); [rewrite S1, M14; exact U1|]. exists c3. split; [exact R3|]. now apply D.
Qed.
Print Assumptions C90_exit_refuted.

(** ** Example *)
(** A program with r5 = 55 and stack pointer 0x9000 whose kernel stack ends at 0x20000. *)
Definition program : ppc := mkPpc (fun r => if r =? 1 then 0x9000 else 11 * r) (fun q => if q =? SPRG1 then 0x20000 else if q =? MSR then 0xc070 else if q =? DAR then 0x8004 else q) 0x1000 (fun _ => 7).
Example program_meets : user program = true /\ Z.land (spr program MSR) MSR_SAVED = spr program MSR /\ is_cause (2 ^ 30) /\ c_function 88 Some.
Proof. split; [reflexivity|]. split; [reflexivity|]. split; [reflexivity|]. intros x y E; injection E as <-; repeat split; reflexivity. Qed.
(** A fault and its return: r5, the program counter, the mode, the word of the frame with r5, the kernel stack pointer. *)
Definition look (o : option ppc) : option (Z * Z * Z * Z * Z) :=
  match o with None => None | Some c => Some (gpr c 5, pc c, spr c MSR, mem c (0x20000 - 80 + 28), spr c SPRG1) end.
Example fault_example : look (run (dsi Some) (exception 0x1004 (2 ^ 30) program)) = Some (55, 0x1004, 0xc070, 55, 0x20000 - 80).
Proof. vm_compute. reflexivity. Qed.
(** A system call whose function answers 5 (in r3), and a tick in user mode. *)
Example system_call_example : match run (system_call (fun c => Some (set_gpr 3 5 c))) (exception 0x1004 0 program) with
  | Some c => gpr c 3 = 5 /\ gpr c 4 = 44 /\ pc c = 0x1004 /\ user c = true | None => False end.
Proof. vm_compute. repeat split. Qed.
Example tick_example : look (run (decrementer Some) (exception 0x1004 0 program)) = None.
Proof. vm_compute. reflexivity. Qed.
(** The kernel inside a system call of the program, about to leave. *)
Definition leaving : ppc := mkPpc (fun r => if r =? 1 then 0x20000 - 80 else 11 * r) (fun q => if q =? MSR then 0x9040 else q) 0 
  (fun a => let k := a - (0x20000 - 80) in if k =? 0 then 0x9000 else if k =? 8 then CR else if k =? 12 then 0 else if k =? 16 then 22
     else if k =? 64 then CTR else if k =? 68 then XER else if k =? 72 then 0x1004 else if k =? 76 then 0xc070 else if k =? 84 then LR else 11 * ((k - 8) / 4)).
Example leaving_meets : framed (gpr leaving 1) program 0x1004 0xc070 (mem leaving) /\ (forall r, 14 <= r < 32 -> gpr leaving r = gpr program r) /\
  user leaving = false /\ enabled leaving = true /\ Z.land (spr leaving MSR) MSR_SAVED = spr leaving MSR.
Proof.
  split; [unfold framed; vm_compute; repeat split|]. split; [|repeat split]. intros r Hr. cbn [gpr leaving program].
  destruct (Z.eqb_spec r 1); [lia|reflexivity].
Qed.
