(** C94: on SPARC, a thread that is interrupted goes on later as if nothing had happened, whatever other threads did in between.

    It holds for registers, memory and program counters as long as no interrupt comes while seven frames of a thread are in windows
    ([C94_threads_partial]: any number of threads with stacks of their own, any sequence of steps and switches), for a new thread
    ([C94_create], [C94_create_idle]) and for system calls ([C94_syscall]: number and arguments come from %o0 to %o5, the result is in %o0, the
    program goes on behind the trap instruction); pok_context_switch does what the theorem about threads asks of the kernel's C code
    ([C94_context_switch]).

    It is false in general. With seven frames in windows the oldest of them gets an address of the kernel as its return address
    ([C94_full_refuted]). The condition codes and Y are not restored, although they are saved ([C94_flags_refuted], [C94_y_refuted]). Every trap
    returns to supervisor mode ([C94_mode_refuted]). The registers are stored with the rights of the kernel wherever the program's stack
    pointer points ([C94_write_refuted]), and a stack pointer that is no multiple of four stops the processor at the next interrupt
    ([C94_halt_refuted]). An exception other than a system call and the timer's interrupt is never handled: without debugging code the
    instruction is executed again and again ([C94_exception_refuted]), and all trap instructions but the system call restart the kernel
    ([C94_software_refuted]). pok_context_reset exchanges entry point and argument of the idle thread, whatever thread it is called for
    ([C94_reset_refuted]). *)
From Verif Require Import Model.Base Spec.SparcCpu Spec.SparcWindows Spec.SparcThreads Model.SparcEntry Model.SparcTrap
  Proof.Tac Proof.SparcWinProof Proof.SparcProgProof Proof.SparcTrapProof Proof.SparcLeaveProof Proof.SparcThreadProof Proof.SparcSwitchProof.
From Verif Require Props.C93_SparcWindows.

(** What is missing for the full property is in the name [calm]: no interrupt comes while seven frames are in windows. Condition codes and Y are
    not part of [shows]. *)
Theorem C94_threads_partial : forall k fatal h N K slot,
  placed N K (arch_sp k) slot ->
  (forall i j c, (i < N)%nat -> (j < N)%nat -> exists c', h i j c = Some c' /\ serves N K (arch_sp k) slot i j c c') ->
  forall l s c s', shows N K slot s c -> 1 <= acc c (arch_sp k) -> t_run N K s l = Some s' -> calm k fatal h (who s, c) l ->
  exists c', c_events k fatal h (who s, c) l = Some (who s', c') /\ shows N K slot s' c' /\
    (pc c', npc c') = at_ s' (who s') /\ forall r v, 0 <= r < 32 -> p_reg (progs s' (who s')) r = Some v -> reg c' r = v.
Proof.
  intros k fatal h N K slot P SV l s c s' H Ha E Cm. destruct (history_ok k fatal h N K slot P SV l s c s' H Ha E Cm) as (c' & R & H').
  exists c'. split; [exact R|]. split; [exact H'|]. split; [symmetry; exact (s_pc _ _ _ _ _ H')|].
  intros r v Hr Ev. exact (holds_reg _ c' _ r v (s_run _ _ _ _ _ H') Hr Ev).
Qed.
Print Assumptions C94_threads_partial.

Definition sched (k : kern) (slot : nat -> Z) (i j : nat) (c : sparc) : option sparc :=
  if Nat.eqb i j then Some c else Some (context_switch k (slot i) (mem c (slot j)) c).
Theorem C94_context_switch : forall k N K slot i j c, placed N K (arch_sp k) slot -> (i < N)%nat -> (j < N)%nat ->
  exists c', sched k slot i j c = Some c' /\ serves N K (arch_sp k) slot i j c c'.
Proof.
  intros k N K slot i j c P Hi Hj. unfold sched. destruct (Nat.eqb_spec i j) as [-> | Nij].
  - exists c. split; [reflexivity|]. unfold serves. do 6 (split; [reflexivity|]). congruence.
  - eexists. split; [reflexivity|]. unfold context_switch.
    assert (M : forall a, a <> arch_sp k -> a <> slot i -> upd (upd (mem c) (slot i) (mem c (arch_sp k))) (arch_sp k) (mem c (slot j)) a = mem c a).
    { intros a N1 N2. unfold upd. destruct (Z.eqb_spec a (arch_sp k)); [contradiction|]. destruct (Z.eqb_spec a (slot i)); [contradiction|reflexivity]. }
    unfold serves. cbn [mem acc psr set_mem]. do 3 (split; [reflexivity|]). split; [|split; [|split]].
    + intros n a Hn Ha. apply M; intros ->; [exact (pl_var _ _ _ _ P n Hn Ha)|exact (pl_slot _ _ _ _ P n i Hn Hi Ha)].
    + intros n Hn Nn. apply M; [exact (pl_other _ _ _ _ P n Hn)|]. intros Q. apply Nn. exact (pl_inj _ _ _ _ P n i Hn Hi Q).
    + contradiction.
    + intros _. pose proof (pl_other _ _ _ _ P i Hi) as No. split; unfold upd; [rewrite Z.eqb_refl; reflexivity|].
      destruct (Z.eqb_spec (slot i) (arch_sp k)); [contradiction|]. rewrite Z.eqb_refl. reflexivity.
Qed.
Print Assumptions C94_context_switch.

(** ** New threads *)
(** A program that has not begun: nothing is known of it but its stack pointer and some %o registers. *)
Definition fresh (sp : Z) (out : Z -> option Z) : prog := mkProg (fun _ => None) (fun r => if r =? 14 then Some sp else out r) (fun _ _ => None) 1 (fun _ => None).
Lemma fresh_shape : forall K sp out, 84 <= lo K -> hi K <= 2 ^ 32 -> lo K <= sp -> sp + 64 <= hi K -> sp mod 8 = 0 -> shape K (fresh sp out).
Proof.
  intros K sp out H1 H2 H3 H4 H5. assert (E : forall k, (k < 1)%nat -> p_sp (fresh sp out) k = sp) by (intros k Hk; replace k with 0%nat by lia; reflexivity).
  constructor; cbn [p_depth fresh p_mem]; try reflexivity; try (intros; lia).
  - exact H3.
  - exact H4.
  - intros k Hk. rewrite E by exact Hk. exact H5.
Qed.
Theorem C94_create : forall K sp entry arg1 arg2 m, 84 <= lo K -> hi K <= 2 ^ 32 -> lo K <= sp -> sp + 64 <= hi K -> sp mod 8 = 0 ->
  kept K (space_context_create sp entry arg1 arg2 m) (fresh sp (fun r => if r =? 8 then Some arg1 else if r =? 9 then Some arg2 else None)) entry (u32 (entry + 4)) /\
  forall a, ~ sp - 84 <= a < sp -> space_context_create sp entry arg1 arg2 m a = m a.
Proof.
  intros K sp entry arg1 arg2 m H1 H2 H3 H4 H5. unfold space_context_create, CNT_OFF, PC_OFF, NPC_OFF. split.
  - constructor; try (change (p_sp _ 0) with sp).
    + now apply fresh_shape.
    + rewrite !upd_other, upd_same by lia. cbn [p_depth fresh]. lia.
    + discriminate.
    + intros r v Hr N E. cbn [p_out fresh] in E. destruct (Z.eqb_spec r 14); [contradiction|]. destruct (Z.eqb_spec r 8) as [-> |].
      * injection E as <-. rewrite upd_other, upd_same by lia. reflexivity.
      * destruct (Z.eqb_spec r 9) as [-> |]; [|discriminate]. injection E as <-. rewrite upd_same. reflexivity.
    + discriminate.
    + discriminate.
    + rewrite !upd_other, upd_same by lia. reflexivity.
    + rewrite !upd_other, upd_same by lia. reflexivity.
  - intros a Ha. rewrite !upd_other by lia. reflexivity.
Qed.
Print Assumptions C94_create.

(** The idle thread finds its number in %o1, not in %o0. *)
Theorem C94_create_idle : forall k K id entry m, 84 <= lo K -> hi K <= 2 ^ 32 -> lo K <= idlestack k - 0x40 -> idlestack k <= hi K -> idlestack k mod 8 = 0 ->
  let (sp, m') := context_create k id entry m in
  sp = idlestack k - 0x40 /\ kept K m' (fresh sp (fun r => if r =? 9 then Some id else None)) entry (u32 (entry + 4)) /\ forall a, ~ sp - 84 <= a < sp -> m' a = m a.
Proof.
  intros k K id entry m H1 H2 H3 H4 H5. unfold context_create, CNT_OFF, PC_OFF, NPC_OFF. cbv zeta. set (sp := idlestack k - 0x40) in *. split; [reflexivity|]. split.
  - constructor; try (change (p_sp _ 0) with sp).
    + apply fresh_shape; try assumption; unfold sp; [lia|]. clear - H5. lia.
    + rewrite !upd_other, upd_same by lia. cbn [p_depth fresh]. lia.
    + discriminate.
    + intros r v Hr N E. cbn [p_out fresh] in E. destruct (Z.eqb_spec r 14); [contradiction|]. destruct (Z.eqb_spec r 9) as [-> |]; [|discriminate].
      injection E as <-. rewrite upd_same. reflexivity.
    + discriminate.
    + discriminate.
    + rewrite !upd_other, upd_same by lia. reflexivity.
    + rewrite !upd_other, upd_same by lia. reflexivity.
  - intros a Ha. rewrite !upd_other by lia. reflexivity.
Qed.
Print Assumptions C94_create_idle.

(** ** Traps that come back to the same thread *)
(** What the C code does to the processor when no other thread is chosen; [ok] are the words it must leave. *)
Definition returns (ok : Z -> Prop) (c c' : sparc) : Prop :=
  cwp c' = cwp c /\ (forall b, 5 <= b < 12 -> Z.testbit (psr c') b = Z.testbit (psr c) b) /\ (forall a, acc c' a = acc c a) /\ forall a, ok a -> mem c' a = mem c a.
Definition still (k : kern) (K : place) (a : Z) : Prop := own K a \/ a = arch_sp k.
Record ready (k : kern) (K : place) (c : sparc) (A : prog) : Prop := {
  r_holds : holds K c A;
  r_few : resident c <= 6;
  r_conf : confined K A;
  r_var : ~ own K (arch_sp k);
  r_align : arch_sp k mod 4 = 0;
  r_acc : 1 <= acc c (arch_sp k) }.

(** The common part: a handler [h], after which the thread is [B] in memory. *)
Lemma trap_back : forall k isr fatal tt K c A, ready k K c A ->
  exists c1, enter k tt c = Some c1 /\ kept K (mem c1) A (pc c) (npc c) /\ reg c1 11 = tt /\ reg c1 13 = p_sp A 0 /\ yreg c1 = yreg c /\
    forall c2 B p q, trap_handler k isr fatal c1 = Some c2 -> cwp c2 = cwp c1 -> (forall b, 5 <= b < 12 -> Z.testbit (psr c2) b = Z.testbit (psr c1) b) ->
      (forall a, acc c2 a = acc c1 a) -> mem c2 (arch_sp k) = p_sp B 0 -> kept K (mem c2) B p q -> confined K B ->
      exists c', whole k isr fatal tt c = Some c' /\ holds K c' B /\ pc c' = p /\ npc c' = q /\ SUP c' = true /\ icc c' = 4 /\ yreg c' = yreg c2 /\ mem c' = mem c2.
Proof.
  intros k isr fatal tt K c A [H R6 C V Al Ac].
  destruct (suspend k tt K c A H R6) as (c1 & E1 & Kt & C1 & B1 & W1 & Y1 & A1 & K8 & K9 & K11 & K13 & K14 & F1).
  exists c1. do 5 (split; [assumption|]). intros c2 B p q E2 C2 B2 A2 V2 Kt2 Cf.
  assert (AccA : forall a, acc c2 a = acc c a) by (intros a; rewrite A2, A1; reflexivity).
  assert (Own : forall a, own K a -> acc c2 a = 2).
  { intros a [Ha|Ha]; rewrite AccA; [exact (h_acc K c A H a Ha)|exact (h_data K c A H a Ha)]. }
  destruct (continue_ k K c2 B p q Kt2) as (c' & E3 & H3 & P3 & Q3 & M3 & A3 & S3 & _ & I3 & Y3 & _); try assumption.
  { rewrite C2. clear - C1. lia. }
  { unfold SUP. rewrite B2 by (clear; lia). rewrite B1 by (clear; lia). reflexivity. }
  { unfold PS. rewrite B2 by (clear; lia). rewrite B1 by (clear; lia). reflexivity. }
  { rewrite AccA. exact Ac. }
  { intros a Ha. apply Own. left. exact Ha. }
  { intros a Ha. apply Own. right. exact Ha. }
  { intros a v Ev. apply Own. exact (Cf a v Ev). }
  exists c'. split; [unfold whole; rewrite E1; cbn [bind]; rewrite E2; cbn [bind]; exact E3|]. repeat (split; [assumption|]). exact M3.
Qed.

(** A handler that chooses no other thread: the same program, at the same place. *)
Lemma trap_same : forall k isr fatal tt K c A h, ready k K c A -> (forall c1, reg c1 11 = tt -> trap_handler k isr fatal c1 = h (set_mem (upd (mem c1) (arch_sp k) (reg c1 13)) c1)) ->
  (forall c1, exists c2, h c1 = Some c2 /\ returns (still k K) c1 c2) ->
  exists c1 c2 c', h c1 = Some c2 /\ yreg c1 = yreg c /\ whole k isr fatal tt c = Some c' /\ holds K c' A /\ pc c' = pc c /\ npc c' = npc c /\ SUP c' = true /\ icc c' = 4 /\ yreg c' = yreg c2.
Proof.
  intros k isr fatal tt K c A h Rd Hh Hr. pose proof Rd as [H R6 C V Al Ac].
  destruct (trap_back k isr fatal tt K c A Rd) as (c1 & E1 & Kt & K11 & K13 & Y1 & Back).
  set (c1' := set_mem (upd (mem c1) (arch_sp k) (reg c1 13)) c1) in *.
  destruct (Hr c1') as (c2 & E2 & (C2 & B2 & A2 & M2)).
  assert (Var : mem c2 (arch_sp k) = p_sp A 0).
  { rewrite M2 by (right; reflexivity). unfold c1'. cbn [mem set_mem]. rewrite upd_same. exact K13. }
  destruct (Back c2 A (pc c) (npc c)) as (c' & W' & H' & P' & Q' & S' & I' & Y' & _).
  { rewrite (Hh c1 K11). exact E2. }
  { exact C2. }
  { exact B2. }
  { exact A2. }
  { exact Var. }
  { apply kept_ext with (mem c1); [exact Kt|exact C|]. intros a Ha. rewrite M2 by (left; exact Ha). unfold c1'. cbn [mem set_mem].
    rewrite upd_other; [reflexivity|]. intros ->. exact (V Ha). }
  { exact C. }
  exists c1', c2, c'. split; [exact E2|]. split; [exact Y1|]. repeat (split; [assumption|]). exact Y'.
Qed.

(** System calls. [core]: pok_core_syscall. *)
Theorem C94_syscall : forall k tick fatal core K c A, ready k K c A ->
  (forall nr args c1, exists ret c2, core nr args c1 = Some (ret, c2) /\ returns (still k K) c1 c2) ->
  exists c1 c2 ret c', core (reg c 8) (map (reg c) [9; 10; 11; 12; 13]) c1 = Some (ret, c2) /\
    whole k (registered tick (arch_sc_int k core)) fatal 0x82 c = Some c' /\ holds K c' (p_set 8 (Some ret) A) /\ reg c' 8 = ret /\
    pc c' = u32 (pc c + 4) /\ npc c' = u32 (npc c + 4).
Proof.
  intros k tick fatal core K c A Rd Hr. pose proof Rd as [H R6 C V Al Ac]. pose proof (h_shape K c A H) as Sh. pose proof (sp_range K A 0 Sh (sh_depth K A Sh)) as R0.
  set (isr := registered tick (arch_sc_int k core)).
  (* all %o registers are stored, also those the program has not set *)
  assert (Outs : exists c1, enter k 0x82 c = Some c1 /\ forall r, 8 <= r < 16 -> mem c1 (p_sp A 0 - I_OFF (r + 16)) = reg c r).
  { pose proof (h_win K c A H) as W. pose proof (res_range c W) as R. pose proof (h_res K c A H) as D. pose proof W as (Hc & _). unfold NW in Hc.
    assert (S0 : win c (below (cwp c)) 30 = p_sp A 0).
    { pose proof (h_out K c A H 14 (p_sp A 0) ltac:(clear; lia) (sh_sp K A Sh)) as F. rewrite reg_out in F by (clear; lia). exact F. }
    assert (Known : forall j r v, (Z.of_nat j < resident c) -> 16 <= r < 32 -> p_fr A j r = Some v -> win c ((cwp c + Z.of_nat j) mod 8) r = v).
    { intros j r v Hj Hr' Ev. pose proof (h_fr K c A H j r v ltac:(clear - Hj D; lia) Hr' Ev) as F. unfold in_frame in F.
      destruct (Z.ltb_spec (Z.of_nat j) (resident c)); [exact F|exfalso; clear - H0 Hj; lia]. }
    assert (Ch : forall j, 0 <= j < resident c -> chain (win c) (below (cwp c)) j = p_sp A (Z.to_nat j)).
    { intros j Hj. unfold chain. destruct (Z.eq_dec j 0) as [-> | N]; [rewrite Z.add_0_r, Z.mod_small by (apply below_range); exact S0|].
      set (i := Z.to_nat (j - 1)). assert (Ei : Z.to_nat j = S i) by (unfold i; clear - Hj N; lia). rewrite Ei.
      rewrite <- (Known i 30 (p_sp A (S i))); [f_equal; unfold below, NW, i; clear - Hc Hj N; lia|unfold i; clear - Hj N; lia|clear; lia|].
      apply (sh_fp K A Sh). clear - Ei Hj D. lia. }
    assert (Dn : forall j, 0 <= j < resident c -> (Z.to_nat j < p_depth A)%nat) by (intros j Hj; clear - Hj D; lia).
    destruct (enter_ok k 0x82 c (below (cwp c)) (resident c) (p_sp A 0) W eq_refl eq_refl (eq_sym S0)) as
      (c1 & E & C1 & B1 & W1 & Y1 & A1 & K8 & K9 & K11 & K12 & K13 & K14 & Mg & Mi & _).
    { intros j Hj. rewrite Ch by exact Hj. apply (sh_align K A Sh). exact (Dn j Hj). }
    { intros j a Hj Ha. rewrite Ch in Ha by exact Hj. pose proof (sp_range K A _ Sh (Dn j Hj)) as Rg. rewrite (h_acc K c A H a) by (clear - Rg Ha; lia). clear; lia. }
    { intros i j Hij Hj. rewrite !Ch by (clear - Hij Hj; lia). apply (grow K A Sh); [clear - Hij; lia|apply Dn; clear - Hij Hj; lia]. }
    { intros a Ha. rewrite (h_acc K c A H a); [clear; lia|]. clear - R0 Ha. lia. }
    exists c1. split; [exact E|]. intros r Hr'. rewrite Mi by (clear - Hr'; lia). rewrite reg_out by exact Hr'. reflexivity. }
  destruct Outs as (c1 & E1 & Outs).
  destruct (trap_back k isr fatal 0x82 K c A Rd) as (d1 & E1' & Kt & K11 & K13 & Y1 & Back). rewrite E1 in E1'. assert (d1 = c1) by congruence. subst d1. clear E1'.
  set (c1' := set_mem (upd (mem c1) (arch_sp k) (reg c1 13)) c1).
  assert (Var1 : mem c1' (arch_sp k) = p_sp A 0) by (unfold c1'; cbn [mem set_mem]; rewrite upd_same; exact K13).
  assert (Own1 : forall a, own K a -> mem c1' a = mem c1 a).
  { intros a Ha. unfold c1'. cbn [mem set_mem]. rewrite upd_other; [reflexivity|]. intros ->. exact (V Ha). }
  assert (Off : forall o, 0 <= o <= 84 -> own K (p_sp A 0 - o)) by (intros o Ho; left; clear - Ho R0; lia).
  assert (Args : mem c1' (p_sp A 0 - 0x20) = reg c 8 /\ map (fun r => mem c1' (p_sp A 0 - I_OFF r)) [25; 26; 27; 28; 29] = map (reg c) [9; 10; 11; 12; 13]).
  { assert (O : forall r, 8 <= r < 16 -> mem c1' (p_sp A 0 - I_OFF (r + 16)) = reg c r).
    { intros r Hr'. rewrite Own1 by (apply Off; unfold I_OFF; clear - Hr'; lia). apply Outs. exact Hr'. }
    split; [exact (O 8 ltac:(clear; lia))|]. cbn [map]. change 25 with (9 + 16). change 26 with (10 + 16). change 27 with (11 + 16). change 28 with (12 + 16). change 29 with (13 + 16).
    rewrite !O by (clear; lia). reflexivity. }
  destruct Args as [Ar0 Ar]. destruct (Hr (reg c 8) (map (reg c) [9; 10; 11; 12; 13]) c1') as (ret & c2 & E2 & (C2 & B2 & A2 & M2)).
  set (s := p_sp A 0) in *.
  set (m1 := upd (mem c2) (s - 0x20) ret). set (m2 := upd m1 (s - PC_OFF) (u32 (m1 (s - PC_OFF) + 4))). set (m3 := upd m2 (s - NPC_OFF) (u32 (m2 (s - NPC_OFF) + 4))).
  assert (Hd : trap_handler k isr fatal c1 = Some (set_mem m3 c2)).
  { unfold trap_handler. rewrite K11. change (isr 130) with (Some (arch_sc_int k core)). cbv beta iota zeta. fold c1'. unfold arch_sc_int. cbv zeta. rewrite Var1, Ar0, Ar, E2. reflexivity. }
  assert (Old : forall a, own K a -> mem c2 a = mem c1 a) by (intros a Ha; rewrite M2 by (left; exact Ha); apply Own1; exact Ha).
  assert (Mpc : mem c2 (s - PC_OFF) = pc c) by (rewrite Old by (apply Off; unfold PC_OFF; clear; lia); exact (kt_pc _ _ _ _ _ Kt)).
  assert (Mnpc : mem c2 (s - NPC_OFF) = npc c) by (rewrite Old by (apply Off; unfold NPC_OFF; clear; lia); exact (kt_npc _ _ _ _ _ Kt)).
  assert (P8 : p_sp (p_set 8 (Some ret) A) 0 = s) by (apply sp_set_p; discriminate).
  assert (M3 : forall a, a <> s - 0x20 -> a <> s - 0x4c -> a <> s - 0x50 -> m3 a = mem c2 a).
  { intros a N1 N2 N3. unfold m3, m2, m1, PC_OFF, NPC_OFF. rewrite !upd_other by assumption. reflexivity. }
  pose proof (kept_ext K (mem c1) (mem c2) A (pc c) (npc c) Kt C Old) as Kt2.
  assert (Ctx : forall a, s - 84 <= a < s -> p_mem A a = None) by (intros a Ha; apply (sh_free K A Sh); fold s; clear - Ha R0; lia).
  destruct (Back (set_mem m3 c2) (p_set 8 (Some ret) A) (u32 (pc c + 4)) (u32 (npc c + 4))) as (c' & W' & H' & P' & Q' & _).
  { exact Hd. }
  { exact C2. }
  { exact B2. }
  { exact A2. }
  { cbn [mem set_mem]. rewrite P8, M3; [rewrite M2 by (right; reflexivity); exact Var1| | |]; intros Q; apply V; rewrite Q; apply Off; clear; lia. }
  { cbn [mem set_mem]. constructor; rewrite ?P8.
    - apply shape_set; [exact Sh|reflexivity].
    - rewrite M3 by (clear; lia). change (p_depth (p_set 8 (Some ret) A)) with (p_depth A). exact (kt_count _ _ _ _ _ Kt2).
    - intros r v Hr' Ev. rewrite M3 by (clear - Hr'; lia). exact (kt_glob _ _ _ _ _ Kt2 r v Hr' Ev).
    - intros r v Hr' N Ev. change (p_out (p_set 8 (Some ret) A)) with (upd (p_out A) 8 (Some ret)) in Ev. destruct (Z.eq_dec r 8) as [-> | N8].
      + rewrite upd_same in Ev. injection Ev as <-. unfold m3, m2, m1, PC_OFF, NPC_OFF. rewrite !upd_other by (clear; lia). change (4 * 8) with 32. apply upd_same.
      + rewrite upd_other in Ev by exact N8. rewrite M3 by (clear - Hr' N8; lia). exact (kt_out _ _ _ _ _ Kt2 r v Hr' N Ev).
    - intros j r v Hj Hr' Ev. change (p_fr (p_set 8 (Some ret) A)) with (p_fr A) in Ev. change (p_depth (p_set 8 (Some ret) A)) with (p_depth A) in Hj.
      rewrite sp_set_p by discriminate. assert (G : s <= p_sp A j).
      { destruct j as [|j]; [unfold s; clear; lia|]. pose proof (grow K A Sh (S j) 0 ltac:(clear; lia) Hj) as G. fold s in G. clear - G. lia. }
      rewrite M3 by (clear - G Hr'; lia). exact (kt_fr _ _ _ _ _ Kt2 j r v Hj Hr' Ev).
    - intros a v Ev. change (p_mem (p_set 8 (Some ret) A)) with (p_mem A) in Ev.
      rewrite M3; [exact (kt_mem _ _ _ _ _ Kt2 a v Ev)| | |]; intros Q; rewrite Ctx in Ev by (rewrite Q; clear; lia); discriminate.
    - unfold m3, m2, m1, PC_OFF, NPC_OFF. rewrite upd_other by (clear; lia). rewrite upd_same. rewrite upd_other by (clear; lia). f_equal. unfold PC_OFF in Mpc. rewrite Mpc. reflexivity.
    - unfold m3. change (s - 0x50) with (s - NPC_OFF). rewrite upd_same. unfold m2, m1, PC_OFF, NPC_OFF. rewrite !upd_other by (clear; lia). f_equal. unfold NPC_OFF in Mnpc. rewrite Mnpc. reflexivity. }
  { exact C. }
  exists c1', c2, ret, c'. split; [exact E2|]. split; [exact W'|]. split; [exact H'|]. split; [|split; assumption].
  exact (holds_reg K c' _ 8 ret H' ltac:(clear; lia) eq_refl).
Qed.
Print Assumptions C94_syscall.

(** ** What is lost *)
(** The timer's interrupt; the scheduler finds no other thread. *)
Definition timer (k : kern) (h : sparc -> option sparc) (c : sparc) : option sparc := whole k (registered h (fun _ => None)) (fun c => Some c) 0x18 c.
Lemma timer_same : forall k h K c A, ready k K c A -> (forall c1, exists c2, h c1 = Some c2 /\ returns (still k K) c1 c2) ->
  exists c1 c2 c', h c1 = Some c2 /\ yreg c1 = yreg c /\ timer k h c = Some c' /\ holds K c' A /\ pc c' = pc c /\ npc c' = npc c /\ SUP c' = true /\ icc c' = 4 /\ yreg c' = yreg c2.
Proof.
  intros k h K c A Rd Hr. apply (trap_same k _ _ 0x18 K c A h Rd); [|exact Hr]. intros c1 E. unfold trap_handler. rewrite E. reflexivity.
Qed.
(** The program runs with the rights of the kernel afterwards. *)
Theorem C94_mode_refuted : forall k h K c A, ready k K c A -> SUP c = false -> (forall c1, exists c2, h c1 = Some c2 /\ returns (still k K) c1 c2) ->
  exists c', timer k h c = Some c' /\ SUP c' = true /\ forall a, acc c a = 1 -> may c a = false /\ (acc c' a = acc c a -> may c' a = true).
Proof.
  intros k h K c A Rd U Hr. destruct (timer_same k h K c A Rd Hr) as (c1 & c2 & c' & _ & _ & W & _ & _ & _ & S' & _). exists c'. split; [exact W|]. split; [exact S'|].
  intros a Ha. unfold may. rewrite U, S', Ha. split; [reflexivity|]. intros ->. reflexivity.
Qed.
Print Assumptions C94_mode_refuted.
(** Condition codes: whatever they were, Z is set and N, V and C are clear. *)
Theorem C94_flags_refuted : forall k h K c A, ready k K c A -> (forall c1, exists c2, h c1 = Some c2 /\ returns (still k K) c1 c2) ->
  exists c', timer k h c = Some c' /\ icc c' = 4.
Proof. intros k h K c A Rd Hr. destruct (timer_same k h K c A Rd Hr) as (c1 & c2 & c' & _ & _ & W & _ & _ & _ & _ & I' & _). exists c'. split; [exact W|exact I']. Qed.
Print Assumptions C94_flags_refuted.
(** Y: it is that of the kernel, which uses it for multiplications and divisions. *)
Theorem C94_y_refuted : forall k K c A v, ready k K c A ->
  exists c', timer k (fun c1 => Some (set_y v c1)) c = Some c' /\ yreg c' = v.
Proof.
  intros k K c A v Rd. destruct (timer_same k (fun c1 => Some (set_y v c1)) K c A Rd) as (c1 & c2 & c' & E & _ & W & _ & _ & _ & _ & _ & Y').
  { intros c1. eexists. split; [reflexivity|]. unfold returns. repeat split. }
  exists c'. split; [exact W|]. rewrite Y'. injection E as <-. reflexivity.
Qed.
Print Assumptions C94_y_refuted.

(** Seven frames in windows: the return address of the oldest becomes the address of an instruction in trap_prehandler, its frame pointer an
    address below the thread's own stack pointer. *)
Theorem C94_full_refuted : forall k K c A, holds K c A -> resident c = 7 -> confined K A -> ~ own K (arch_sp k) -> arch_sp k mod 4 = 0 -> 1 <= acc c (arch_sp k) ->
  exists c', timer k (fun c1 => Some c1) c = Some c' /\ pc c' = pc c /\ in_frame c' A 6 31 = at_save k /\ in_frame c' A 6 30 = u32 (p_sp A 0 - 64).
Proof.
  intros k K c A H R7 C V Al Ac. pose proof (h_win K c A H) as W. pose proof (h_shape K c A H) as Sh. pose proof (sp_range K A 0 Sh (sh_depth K A Sh)) as R0.
  pose proof (h_res K c A H) as D. rewrite R7 in D. pose proof W as (Hc & _). unfold NW in Hc.
  assert (S0 : win c (below (cwp c)) 30 = p_sp A 0).
  { pose proof (h_out K c A H 14 (p_sp A 0) ltac:(clear; lia) (sh_sp K A Sh)) as F. rewrite reg_out in F by (clear; lia). exact F. }
  assert (Ch : forall j, 0 <= j < 7 -> chain (win c) (below (cwp c)) j = p_sp A (Z.to_nat j)).
  { intros j Hj. unfold chain. destruct (Z.eq_dec j 0) as [-> | N]; [rewrite Z.add_0_r, Z.mod_small by (apply below_range); exact S0|].
    set (i := Z.to_nat (j - 1)). assert (Ei : Z.to_nat j = S i) by (unfold i; clear - Hj N; lia). rewrite Ei.
    assert (Hi : (S i < p_depth A)%nat) by (clear - Ei Hj D; lia).
    pose proof (h_fr K c A H i 30 (p_sp A (S i)) ltac:(clear - Hi; lia) ltac:(clear; lia) (sh_fp K A Sh i Hi)) as F. unfold in_frame in F. rewrite R7 in F.
    destruct (Z.ltb_spec (Z.of_nat i) 7) as [L|L]; [|exfalso; unfold i in L; clear - L Hj N; lia].
    rewrite <- F. f_equal. unfold below, NW, i. clear - Hc Hj N. lia. }
  assert (Dn : forall j, 0 <= j < 7 -> (Z.to_nat j < p_depth A)%nat) by (intros j Hj; clear - Hj D; lia).
  destruct (enter_ok k 0x18 c (below (cwp c)) 7 (p_sp A 0) W eq_refl (eq_sym R7) (eq_sym S0)) as
    (c1 & E & C1 & B1 & W1 & Y1 & A1 & K8 & K9 & K11 & K12 & K13 & K14 & Mg & Mi & Mpc & Mnpc & Mc & My & Mf & Mj & Mo).
  { intros j Hj. rewrite Ch by exact Hj. apply (sh_align K A Sh). exact (Dn j Hj). }
  { intros j a Hj Ha. rewrite Ch in Ha by exact Hj. pose proof (sp_range K A _ Sh (Dn j Hj)) as Rg. rewrite (h_acc K c A H a) by (clear - Rg Ha; lia). clear; lia. }
  { intros i j Hij Hj. rewrite !Ch by (clear - Hij Hj; lia). apply (grow K A Sh); [clear - Hij; lia|apply Dn; clear - Hij Hj; lia]. }
  { intros a Ha. rewrite (h_acc K c A H a); [clear; lia|]. clear - R0 Ha. lia. }
  destruct (Mj eq_refl) as [J30 J31]. rewrite (Ch 6 ltac:(clear; lia)) in J30, J31. change (Z.to_nat 6) with 6%nat in *.
  set (s := p_sp A 0) in *. set (c1' := set_mem (upd (mem c1) (arch_sp k) (reg c1 13)) c1).
  assert (Own1 : forall a, own K a -> mem c1' a = mem c1 a).
  { intros a Ha. unfold c1'. cbn [mem set_mem]. rewrite upd_other; [reflexivity|]. intros ->. exact (V Ha). }
  assert (Off : forall o, 0 <= o <= 84 -> own K (s - o)) by (intros o Ho; left; clear - Ho R0; lia).
  assert (Ch1 : forall i, (i < 7)%nat -> mchain (mem c1') s i = p_sp A i).
  { induction i as [|i IH]; intros Hi; [reflexivity|]. rewrite mchain_S, IH by (clear - Hi; lia).
    pose proof (sp_range K A i Sh ltac:(clear - Hi D; lia)) as Rg. rewrite Own1 by (left; clear - Rg; lia).
    pose proof (Ch (Z.of_nat i) ltac:(clear - Hi; lia)) as Ci. rewrite Nat2Z.id in Ci. rewrite <- Ci. change 56 with (4 * (30 - 16)).
    rewrite Mf; [|clear - Hi; lia|clear; lia|left; clear - Hi; lia].
    pose proof (h_fr K c A H i 30 (p_sp A (S i)) ltac:(clear - Hi D; lia) ltac:(clear; lia) (sh_fp K A Sh i ltac:(clear - Hi D; lia))) as F. unfold in_frame in F. rewrite R7 in F.
    destruct (Z.ltb_spec (Z.of_nat i) 7) as [L|L]; [exact F|exfalso; clear - L Hi; lia]. }
  assert (Acc2 : forall a, lo K - 84 <= a < hi K -> 1 <= acc c1' a).
  { intros a Ha. change (acc c1') with (acc c1). rewrite A1, (h_acc K c A H a Ha). clear. lia. }
  destruct (leave_ok k c1' s 7) as (c' & E' & C' & W' & Y' & M' & A' & B' & I' & Pc & Npc & G' & O' & V').
  { change (cwp c1') with (cwp c1). rewrite C1. pose proof (below_range (cwp c)) as Br. clear - Br. lia. }
  { unfold SUP. change (psr c1') with (psr c1). rewrite B1 by (clear; lia). reflexivity. }
  { exact Al. }
  { change (acc c1') with (acc c1). rewrite A1. exact Ac. }
  { unfold c1'. cbn [mem set_mem]. rewrite upd_same. exact K13. }
  { rewrite Own1 by (apply Off; unfold CNT_OFF; clear; lia). exact Mc. }
  { clear. lia. }
  { intros a Ha. apply Acc2. clear - Ha R0. lia. }
  { intros i Hi. rewrite Ch1 by exact Hi. apply (sh_align K A Sh). clear - Hi D. lia. }
  { intros i a Hi Ha. rewrite Ch1 in Ha by exact Hi. pose proof (sp_range K A i Sh ltac:(clear - Hi D; lia)) as Rg. apply Acc2. clear - Ha Rg. lia. }
  exists c'. split.
  { unfold timer, whole. rewrite E. cbn [bind]. unfold trap_handler. rewrite K11. change (registered (fun c1 => Some c1) (fun _ => None) 24) with (Some (fun c1 : sparc => Some c1)).
    cbv beta iota zeta. cbn [bind]. exact E'. }
  split; [rewrite Pc, Own1 by (apply Off; unfold PC_OFF; clear; lia); exact Mpc|].
  assert (Iv : invalid c' = 7) by (unfold invalid; rewrite W'; reflexivity). assert (Rs : resident c' = 7) by (unfold resident, NW; rewrite Iv, C'; reflexivity).
  pose proof (sp_range K A 6 Sh ltac:(clear - D; lia)) as R6.
  unfold in_frame. rewrite Rs, C'. change (Z.of_nat 6 <? 7) with true. cbn iota. change ((0 + Z.of_nat 6) mod NW) with (Z.of_nat 6).
  rewrite !V' by (clear; lia). rewrite !Ch1 by (clear; lia). change (4 * (31 - 16)) with 60. change (4 * (30 - 16)) with 56.
  rewrite !Own1 by (left; clear - R6; lia). split; [exact J31|exact J30].
Qed.
Print Assumptions C94_full_refuted.

(** ** What a program can do to others *)
(** A program with one frame in a window: the eight words of its %o registers, among others, go to memory that only the kernel may touch. *)
Theorem C94_write_refuted : forall k tt c s, windows c -> resident c = 1 -> SUP c = false -> reg c 14 = s -> s mod 8 = 0 -> (forall a, s - 84 <= a < s + 64 -> acc c a = 1) ->
  (forall a, s - 84 <= a < s + 64 -> may c a = false) /\
  exists c1, enter k tt c = Some c1 /\ (forall r, 8 <= r < 16 -> mem c1 (s - 4 * r) = reg c r) /\ (forall r, 16 <= r < 32 -> mem c1 (s + 4 * (r - 16)) = reg c r).
Proof.
  intros k tt c s W R1 U Es Hal Hacc. split.
  { intros a Ha. unfold may. rewrite U, Hacc by exact Ha. reflexivity. }
  pose proof W as (Hc & _). unfold NW in Hc. rewrite reg_out in Es by lia. change (14 + 16) with 30 in Es.
  assert (C0 : forall j, 0 <= j < 1 -> chain (win c) (below (cwp c)) j = s).
  { intros j Hj. replace j with 0 by (clear - Hj; lia). unfold chain. rewrite Z.add_0_r, Z.mod_small by (apply below_range). exact Es. }
  destruct (enter_ok k tt c (below (cwp c)) 1 s W eq_refl (eq_sym R1) (eq_sym Es)) as
    (c1 & E & C1 & B1 & W1 & Y1 & A1 & K8 & K9 & K11 & K12 & K13 & K14 & Mg & Mi & Mpc & Mnpc & Mc & My & Mf & Mj & Mo).
  { intros j Hj. rewrite C0 by exact Hj. exact Hal. }
  { intros j a Hj Ha. rewrite C0 in Ha by exact Hj. rewrite Hacc by (clear - Ha; lia). clear; lia. }
  { intros i j Hij Hj. exfalso. clear - Hij Hj. lia. }
  { intros a Ha. rewrite Hacc by (clear - Ha; lia). clear; lia. }
  exists c1. split; [exact E|]. split.
  - intros r Hr. replace (s - 4 * r) with (s - I_OFF (r + 16)) by (unfold I_OFF; clear; lia). rewrite Mi by (clear - Hr; lia). rewrite reg_out by exact Hr. reflexivity.
  - intros r Hr. pose proof (Mf 0 r ltac:(clear; lia) Hr (or_introl eq_refl)) as F. rewrite (C0 0 ltac:(clear; lia)) in F. rewrite F, reg_win by exact Hr. f_equal. clear - Hc. lia.
Qed.
Print Assumptions C94_write_refuted.

(** Any trap, with any handler, while the stack pointer is no multiple of four or points where nothing is mapped: the processor stops. *)
Theorem C94_halt_refuted : forall k isr fatal tt c, 0 <= cwp c < 8 -> reg c 14 mod 4 <> 0 \/ acc c (reg c 14 - 28) = 0 -> whole k isr fatal tt c = None.
Proof.
  intros k isr fatal tt c Hc B. destruct (trap_ok c Hc) as (C0 & P0 & W0 & Y0 & M0 & A0 & G0 & V0 & L1 & L2).
  pose proof (below_range (cwp c)) as Br.
  destruct (pre_ok k tt (trap c)) as (c1 & R1 & P1 & W1 & Y1 & M1 & A1 & G1 & V1 & X16 & X19 & X20 & X24 & X30 & X31); [rewrite C0; exact Br|]. rewrite C0 in *.
  assert (C1 : cwp c1 = below (cwp c)) by (unfold cwp at 1; rewrite P1, kernel_psr_cwp; exact C0).
  assert (R30 : reg c1 30 = reg c 14).
  { rewrite reg_win by lia. rewrite C1, V1 by (left; split; [reflexivity|]; lia). rewrite V0 by (right; lia). rewrite reg_out by lia. reflexivity. }
  unfold whole, enter. rewrite save_head_eq.
  replace (trap_handle tt ++ prehandler k ++ [Rdpsr 8; Andn 8 8 0x20; Wrpsr 8] ++ sts own_list ++ [And 3 8 31; Movi 2 1; Sllr 2 2 3; Rdwim 1; Mov 7 15; Movi 6 0])
    with ((trap_handle tt ++ prehandler k ++ [Rdpsr 8; Andn 8 8 0x20; Wrpsr 8]) ++ sts own_list ++ [And 3 8 31; Movi 2 1; Sllr 2 2 3; Rdwim 1; Mov 7 15; Movi 6 0]) by reflexivity.
  rewrite run_app, R1. unfold own_list. cbn [sts map app run fst snd]. unfold exec at 1. rewrite R30. unfold fine, may. rewrite A1, A0.
  assert (Su : SUP c1 = true) by (unfold SUP; rewrite P1, kernel_psr_bit by lia; reflexivity). rewrite Su.
  destruct B as [B|B].
  - assert (N : (reg c 14 + -28) mod 4 <> 0) by (clear - B; lia). apply Z.eqb_neq in N. rewrite N. reflexivity.
  - change (reg c 14 + -28) with (reg c 14 - 28). rewrite B, andb_false_r. reflexivity.
Qed.
Print Assumptions C94_halt_refuted.

(** ** Exceptions *)
(** Without POK_NEEDS_DEBUG: an exception that is neither a system call nor the timer's interrupt returns to the instruction that raised it. *)
Theorem C94_exception_refuted : forall k tick core K c A tt, ready k K c A -> tt <> 0x82 -> tt <> 0x18 ->
  exists c', whole k (registered tick core) (fun c => Some c) tt c = Some c' /\ holds K c' A /\ pc c' = pc c /\ npc c' = npc c.
Proof.
  intros k tick core K c A tt Rd N1 N2.
  destruct (trap_same k (registered tick core) (fun c => Some c) tt K c A (fun c => Some c) Rd) as (c1 & c2 & c' & _ & _ & W & H' & P' & Q' & _).
  - intros c1 E. unfold trap_handler. rewrite E. unfold registered. apply Z.eqb_neq in N1. apply Z.eqb_neq in N2. rewrite N1, N2. reflexivity.
  - intros c1. exists c1. split; [reflexivity|]. unfold returns. repeat split.
  - exists c'. repeat (split; [assumption|]). exact Q'.
Qed.
Print Assumptions C94_exception_refuted.
(** A program in user mode may execute [ta n] for any n below 128: trap 128 + n. *)
Theorem C94_software_refuted : forall n, 0 <= n < 128 -> n <> 2 -> vector_of (0x80 + n) = Reset.
Proof.
  intros n Hn N2. unfold vector_of. destruct (Z.eqb_spec (128 + n) 5); [lia|]. destruct (Z.eqb_spec (128 + n) 6); [lia|].
  destruct (Z.leb_spec (128 + n) 0x0b); [lia|]. destruct (Z.leb_spec (128 + n) 0x1e); [lia|]. destruct (Z.leb_spec (128 + n) 0x2c); [lia|]. rewrite !andb_false_r.
  destruct (Z.eqb_spec (128 + n) 0x3c); [lia|]. destruct (Z.eqb_spec (128 + n) 0x82); [lia|]. reflexivity.
Qed.
Print Assumptions C94_software_refuted.

(** ** pok_context_reset *)
(** Whatever thread is to be restarted (the function is called with its stack size and stack pointer and looks at neither): only the idle
    thread's registers change, and it would begin at the address that is its number. *)
Theorem C94_reset_refuted : forall k id entry m,
  let (sp, m') := context_create k id entry m in
  context_reset k m' (sp - PC_OFF) = id /\ context_reset k m' (sp - NPC_OFF) = u32 (id + 4) /\ context_reset k m' (sp - 0x24) = entry /\
  forall a, a < sp - 84 \/ sp <= a -> context_reset k m' a = m' a.
Proof.
  intros k id entry m. unfold context_create, context_reset, CNT_OFF, PC_OFF, NPC_OFF. cbv zeta. set (sp := idlestack k - 0x40).
  split; [|split; [|split]].
  - rewrite !(upd_other _ _ _ _ (sp - 76)) by lia. rewrite upd_same. rewrite upd_same. reflexivity.
  - rewrite (upd_other _ _ _ _ (sp - 80)) by lia. rewrite upd_same. rewrite upd_same. reflexivity.
  - rewrite upd_same. rewrite !(upd_other _ _ _ _ (sp - 76)) by lia. rewrite upd_same. reflexivity.
  - intros a Ha. rewrite !(upd_other _ _ _ _ a) by lia. reflexivity.
Qed.
Print Assumptions C94_reset_refuted.

Section Examples.
Import C93_SparcWindows.
(** The page of the kernel is at 0x20000. Thread 0 is that of C93; thread 1 has just been created, with arguments 77 and 88. *)
Definition k0 : kern := mkKern 0x20100 0x20110 0x20120 0x20f00 0x20c00 0x20800.
Definition K1 : place := mkPlace 0x9100 0x9900 (fun _ => false).
Definition Ks (n : nat) : place := match n with O => K0 | _ => K1 end.
Definition slots (n : nat) : Z := 0x20900 + 4 * Z.of_nat n.
Definition A1 : prog := fresh 0x9800 (fun r => if r =? 8 then Some 77 else if r =? 9 then Some 88 else None).
Definition s0 : threads := mkThreads 0 (put (fun _ => A1) 0 A0) (put (fun _ => (0x4000, 0x4004)) 0%nat (100, 104)).
Definition c2 : sparc := set_mem (upd (space_context_create 0x9800 0x4000 77 88 (mem c0)) (slots 1) 0x9800) c0.
Lemma two : forall n, (n < 2)%nat -> n = 0%nat \/ n = 1%nat.
Proof. intros n Hn. lia. Qed.
Lemma own0 : forall a, own K0 a -> 0xfac <= a < 0x8000 \/ a = 0x9000.
Proof. intros a [Ha|Ha]; [left; exact Ha|right]. apply Z.eqb_eq in Ha. exact Ha. Qed.
Lemma own1 : forall a, own K1 a -> 0x90ac <= a < 0x9900.
Proof. intros a [Ha|Ha]; [exact Ha|discriminate]. Qed.
Lemma own_n : forall n a, (n < 2)%nat -> own (Ks n) a -> 0xfac <= a < 0x9900.
Proof. intros n a Hn Ha. destruct (two n Hn) as [-> | ->]; [apply own0 in Ha|apply own1 in Ha]; lia. Qed.
Example two_placed : placed 2 Ks (arch_sp k0) slots.
Proof.
  constructor.
  - intros i j a Hi Hj H1 H2. destruct (two i Hi) as [-> | ->]; destruct (two j Hj) as [-> | ->]; try reflexivity; exfalso.
    + apply own0 in H1. apply own1 in H2. lia.
    + apply own1 in H1. apply own0 in H2. lia.
  - intros i Hi H. apply own_n in H; [|exact Hi]. change (arch_sp k0) with 0x20800 in H. lia.
  - intros i j Hi Hj H. apply own_n in H; [|exact Hi]. unfold slots in H. lia.
  - intros i j _ _ E. unfold slots in E. lia.
  - intros i _. unfold slots. change (arch_sp k0) with 0x20800. lia.
  - reflexivity.
Qed.
Lemma c2_same : forall a, a < 0x97ac \/ 0x9800 <= a < 0x20000 -> mem c2 a = mem c0 a.
Proof.
  intros a Ha. unfold c2, slots. cbn [mem set_mem]. rewrite upd_other by lia.
  apply (C94_create K1 0x9800 0x4000 77 88 (mem c0)); cbn [lo hi K1]; try lia.
Qed.
Example two_shows : shows 2 Ks slots s0 c2.
Proof.
  assert (Cf : forall n, (n < 2)%nat -> confined (Ks n) (progs s0 n)).
  { intros n Hn a v E. destruct (two n Hn) as [-> | ->]; [|discriminate]. change (progs s0 0) with A0 in E. cbn [p_mem A0] in E.
    destruct (Z.eqb_spec a 0x9000) as [-> |]; [right; reflexivity|discriminate]. }
  constructor.
  - cbn. lia.
  - change (holds K0 c2 A0). pose proof c0_holds as [h1 h2 h3 h4 h5 h6 h7 h8 h9]. constructor; try assumption.
    + intros j r v Hj Hr Ev. discriminate.
    + intros a v Ev. cbn [p_mem A0] in Ev. destruct (Z.eqb_spec a 0x9000) as [-> |]; [|discriminate]. injection Ev as <-. split; reflexivity.
  - reflexivity.
  - exact Cf.
  - intros n Hn N. destruct (two n Hn) as [-> | ->]; [contradiction|]. change (kept K1 (mem c2) A1 0x4000 0x4004).
    apply kept_ext with (space_context_create 0x9800 0x4000 77 88 (mem c0)).
    + apply (C94_create K1 0x9800 0x4000 77 88 (mem c0)); cbn [lo hi K1]; try lia; reflexivity.
    + exact (Cf 1%nat Hn).
    + intros a Ha. apply own1 in Ha. unfold c2, slots. cbn [mem set_mem]. rewrite upd_other by lia. reflexivity.
  - intros n Hn N. destruct (two n Hn) as [-> | ->]; [contradiction|]. reflexivity.
  - intros n a Hn Ha. apply own_n in Ha; [|exact Hn]. cbn [acc c2 c0 set_mem].
    destruct (Z.leb_spec 0xf00 a); [|lia]. destruct (Z.ltb_spec a 0xa000); [reflexivity|lia].
Qed.
(** Thread 0 computes 10 + ... + 1 by recursion; it is interrupted with six frames in windows and again after some returns. *)
Definition history : list event :=
  [Go (firstn 10 program) 200 204; Switch 1; Go [Set_ 16 [8; 9] sum; Call 96; Set_ 8 [24] sum] 300 304; Switch 0; Switch 0;
   Go (firstn 18 (skipn 10 program)) 208 212; Switch 1; Go [Ret 10 [24] sum] 308 312; Switch 0; Go (skipn 28 program) 216 220].
Example history_spec : option_map (fun s => (who s, p_out (progs s 0) 8, p_mem (progs s 0) 0x9000, at_ s 0%nat, p_out (progs s 1) 10, p_fr (progs s 1) 0 16, at_ s 1%nat)) (t_run 2 Ks s0 history)
  = Some (0%nat, Some 55, Some 55, (216, 220), Some 77, Some 165, (308, 312)).
Proof. vm_compute. reflexivity. Qed.
Example history_calm : calm k0 (fun c => Some c) (sched k0 slots) (0%nat, c2) history.
Proof. vm_compute. repeat split; discriminate. Qed.
Example history_run : option_map (fun s => (fst s, reg (snd s) 8, mem (snd s) 0x9000, pc (snd s), npc (snd s))) (c_events k0 (fun c => Some c) (sched k0 slots) (0%nat, c2) history)
  = Some (0%nat, 55, 55, 216, 220).
Proof. vm_compute. reflexivity. Qed.

Example c0_ready : ready k0 K0 c0 A0.
Proof.
  constructor; try (vm_compute; reflexivity).
  - exact c0_holds.
  - vm_compute. discriminate.
  - intros a v E. cbn [p_mem A0] in E. destruct (Z.eqb_spec a 0x9000) as [-> |]; [right; reflexivity|discriminate].
  - intros H. apply own0 in H. change (arch_sp k0) with 0x20800 in H. lia.
  - vm_compute. discriminate.
Qed.
(** System call 41 with arguments: the kernel answers with their sum. *)
Definition c_call : sparc := set_win (upd2 (upd2 (win c0) 2 24 41) 2 25 1) c0.
Definition core0 (nr : Z) (args : list Z) (c : sparc) : option (Z * sparc) := Some (nr + sum args, c).
Example call_run : option_map (fun c => (reg c 8, reg c 9, pc c, npc c, SUP c_call, SUP c, icc c)) (whole k0 (registered (fun _ => None) (arch_sc_int k0 core0)) (fun c => Some c) 0x82 c_call)
  = Some (41 + 1 + 2026 + 2027 + 2028 + 2029, 1, 104, 108, false, true, 4).
Proof. vm_compute. reflexivity. Qed.
(** The first system call of a program in user mode; the timer's interrupt with other condition codes and another Y. *)
Definition c_flags : sparc := set_psr (0xB00020 + 3) c0.
Example flags_run : option_map (fun c => (icc c_flags, icc c, yreg c_flags, yreg c)) (timer k0 (fun c => Some (set_y 9 c)) c_flags) = Some (11, 4, 5, 9).
Proof. vm_compute. reflexivity. Qed.
(** Seven frames: the program calls six functions and is interrupted. *)
Definition six : list op := concat (repeat [Set_ 8 [] (fun _ => 4); Call 96] 6).
Example seven_run : option_map (fun c => (resident c, reg c 30)) (c_run c0 six) = Some (7, 0x7f00 - 5 * 96) /\
  match c_run c0 six with Some c => option_map (fun c' => (win c ((cwp c + 6) mod 8) 31, win c' 6 31, win c' 6 30)) (timer k0 (fun c => Some c) c) | None => None end
  = Some (3031, 0x20100, 0x7f00 - 6 * 96 - 64).
Proof. split; vm_compute; reflexivity. Qed.
(** A program puts an address of the kernel into its stack pointer and waits for the timer. *)
Definition c_bad (s : Z) : sparc := set_win (upd2 (win c0) 2 30 s) c0.
Example bad_write : windows (c_bad 0x20400) /\ resident (c_bad 0x20400) = 1 /\ SUP (c_bad 0x20400) = false /\
  option_map (fun c => (mem c (0x20400 - 32), mem c (0x20400 - 36), mem c 0x20400)) (enter k0 0x18 (c_bad 0x20400)) = Some (2024, 2025, 3016).
Proof. split; [unfold windows; vm_compute; repeat split; discriminate|]. repeat split. Qed.
Example bad_halt : timer k0 (fun c => Some c) (c_bad 0x7f02) = None /\ timer k0 (fun c => Some c) (c_bad 0x30000) = None.
Proof. split; vm_compute; reflexivity. Qed.
(** Division by zero, a privileged instruction, an access that is not allowed. *)
Example exceptions : map (fun tt => option_map (fun c => (pc c, npc c)) (whole k0 (registered (fun _ => None) (fun _ => None)) (fun c => Some c) tt c0)) [0x2a; 0x03; 0x09]
  = [Some (100, 104); Some (100, 104); Some (100, 104)].
Proof. vm_compute. reflexivity. Qed.
Example vectors : map vector_of [0x82; 0x81; 0x00; 0x18] = [vector_of 0x82; Reset; Reset; vector_of 0x18] /\ vector_of 0x82 <> Reset /\ vector_of 0x18 <> Reset.
Proof. vm_compute. repeat split; discriminate. Qed.
End Examples.
