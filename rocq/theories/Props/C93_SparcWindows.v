(** C93: on SPARC, functions may call each other to any depth: the traps of a full and of an empty window file make the eight windows of the
    processor look like as many as the program needs.

    It holds for programs that treat their stack as the ABI asks ([C93_windows]: every sequence of instructions that the machine of
    Spec/SparcWindows.v, which has no limit and no window in memory, can execute is executed by the processor with the same values in every
    register and every word of memory, and the traps leave condition codes, mode, interrupt level, Y and the program counters). It is false
    that programs cannot harm others by it: the traps store and load with the rights of the kernel at whatever address the program has put into
    the stack pointer of the frame ([C93_write_refuted], [C93_read_refuted]), and an address that is odd or not mapped stops the processor
    ([C93_halt_refuted]). *)
From Verif Require Import Model.Base Spec.SparcCpu Spec.SparcWindows Model.SparcEntry Proof.Tac Proof.SparcWinProof Proof.SparcProgProof.

Theorem C93_windows : forall K l c A A', holds K c A -> p_run K A l = Some A' ->
  exists c', c_run c l = Some c' /\ holds K c' A' /\ same_rest c c' /\
    forall r v, 0 <= r < 32 -> p_reg A' r = Some v -> reg c' r = v.
Proof.
  intros K l c A A' H E. destruct (run_sim K l c A A' H E) as (c' & R & H' & Re). exists c'.
  split; [exact R|]. split; [exact H'|]. split; [exact Re|]. intros r v Hr Hv. exact (holds_reg K c' A' r v H' Hr Hv).
Qed.
Print Assumptions C93_windows.

(** A program in user mode at the end of its windows: the stack pointer of the oldest frame in a window is the %fp of the frame it called. *)
Definition oldest_sp (c : sparc) : Z := win c ((cwp c + 5) mod 8) 30.
Definition full (c : sparc) : Prop := windows c /\ SUP c = false /\ resident c = 7.
Definition empty (c : sparc) : Prop := windows c /\ SUP c = false /\ resident c = 1.
Lemma full_inv : forall c, full c -> invalid c = below (cwp c) /\ Z.testbit (wim c) (below (cwp c)) = true.
Proof.
  intros c ((Hc & Hi & Hw & Hn & _) & _ & R). unfold resident, NW in *.
  assert (E : invalid c = below (cwp c)) by (unfold below, NW; clear - R Hc Hi; lia). split; [exact E|].
  rewrite Hw, <- E, wim_bit by lia. apply Z.eqb_refl.
Qed.
Lemma empty_inv : forall c, empty c -> invalid c = above (cwp c) /\ Z.testbit (wim c) (above (cwp c)) = true.
Proof.
  intros c ((Hc & Hi & Hw & Hn & _) & _ & R). unfold resident, NW in *.
  assert (E : invalid c = above (cwp c)) by (unfold above, NW; clear - R Hc Hi; lia). split; [exact E|].
  rewrite Hw, <- E, wim_bit by lia. apply Z.eqb_refl.
Qed.

(** Sixteen words of memory that only the kernel may touch become what the program has in the registers of its oldest frame. *)
Theorem C93_write_refuted : forall c n s, full c -> oldest_sp c = s -> s mod 8 = 0 -> (forall a, s <= a < s + 64 -> acc c a = 1) ->
  (forall a, s <= a < s + 64 -> may c a = false) /\
  exists c', do_save n c = Some c' /\ SUP c' = false /\ forall r, 16 <= r < 32 -> mem c' (s + 4 * (r - 16)) = win c ((cwp c + 6) mod 8) r.
Proof.
  intros c n s F Es Hal Hacc. destruct (full_inv c F) as [I T]. destruct F as (W & U & R). split.
  { intros a Ha. unfold may. rewrite U, Hacc by exact Ha. reflexivity. }
  unfold oldest_sp in Es. pose proof W as (Hc & _). unfold NW in Hc.
  destruct (overflow_ok c W I) as (c' & E & C' & W' & (Bits & _) & _ & _ & Min & _).
  { rewrite Es. exact Hal. }
  { rewrite Es. intros a Ha. rewrite Hacc by exact Ha. lia. }
  unfold do_save. rewrite T, E. rewrite W', C', wim_bit; [|apply Z.mod_pos_bound; lia|apply below_range].
  destruct (Z.eqb_spec ((cwp c + 6) mod 8) (below (cwp c))) as [Q|Q]; [exfalso; unfold below, NW in Q; clear - Q Hc; lia|].
  eexists. split; [reflexivity|]. split.
  - unfold SUP, shift_down. rewrite psr_set. cbn [psr set_psr]. pose proof (below_range (cwp c')). rewrite set_cwp_high, Bits by lia. exact U.
  - intros r Hr. unfold shift_down. rewrite mem_set. cbn [mem set_psr]. rewrite <- Es. apply Min. exact Hr.
Qed.
Print Assumptions C93_write_refuted.

(** And words that only the kernel may touch come into the registers of a program: the local and input registers after a return. *)
Theorem C93_read_refuted : forall c s, empty c -> reg c 30 = s -> s mod 8 = 0 -> (forall a, s <= a < s + 64 -> acc c a = 1) ->
  (forall a, s <= a < s + 64 -> may c a = false) /\
  exists c', do_restore 0 (fun _ => 0) c = Some c' /\ SUP c' = false /\ forall r, 16 <= r < 32 -> reg c' r = mem c (s + 4 * (r - 16)).
Proof.
  intros c s F Es Hal Hacc. destruct (empty_inv c F) as [I T]. destruct F as (W & U & R). split.
  { intros a Ha. unfold may. rewrite U, Hacc by exact Ha. reflexivity. }
  rewrite reg_win in Es by lia. pose proof W as (Hc & _). unfold NW in Hc.
  destruct (underflow_ok c W I) as (c' & E & C' & W' & (Bits & _) & _ & _ & Min & _).
  { rewrite Es. exact Hal. }
  { rewrite Es. intros a Ha. rewrite Hacc by exact Ha. lia. }
  unfold do_restore. rewrite T, E. rewrite W', C', wim_bit; [|apply Z.mod_pos_bound; lia|apply above_range].
  destruct (Z.eqb_spec ((cwp c + 2) mod 8) (above (cwp c))) as [Q|Q]; [exfalso; unfold above, NW in Q; clear - Q Hc; lia|].
  pose proof (above_range (cwp c)) as Ar. eexists. split; [reflexivity|]. change (shift_up 0 0 c') with (set_psr (set_cwp (above (cwp c')) (psr c')) c').
  rewrite C'. split.
  - unfold SUP. cbn [psr set_psr]. rewrite set_cwp_high, Bits by lia. exact U.
  - intros r Hr. rewrite reg_win by lia. rewrite cwp_move by exact Ar. cbn [win set_psr]. rewrite Min by exact Hr. rewrite Es. reflexivity.
Qed.
Print Assumptions C93_read_refuted.

(** A stack pointer that is not a multiple of 8 or that nobody may use: the trap within the trap stops the processor. *)
Theorem C93_halt_refuted : forall c n, full c -> oldest_sp c mod 8 <> 0 \/ acc c (oldest_sp c) = 0 -> do_save n c = None.
Proof.
  intros c n F B. destruct (full_inv c F) as [I T]. destruct F as (W & U & R). pose proof W as (Hc & Hi & Hw & Hn & HET). unfold NW in *.
  unfold do_save. rewrite T. destruct (trap_ok c Hc) as (C0 & P0 & W0 & Y0 & M0 & A0 & G0 & V0 & L1 & L2).
  pose proof (below_range (cwp c)) as Bt. pose proof (below_range (below (cwp c))) as Bb.
  destruct (overflow_head (trap c)) as (c1 & R1 & P1 & W1 & Y1 & PC1 & NPC1 & M1 & A1 & G1 & V1 & K1).
  { rewrite W0, C0, Hw, I, wim_bit by lia. apply Z.eqb_neq. unfold below, NW. clear - Hc. lia. }
  rewrite C0 in P1, V1.
  assert (C1 : cwp c1 = below (below (cwp c))) by (unfold cwp at 1; rewrite P1; apply set_cwp_low; lia).
  assert (S1 : SUP c1 = true).
  { unfold SUP. rewrite P1, set_cwp_high by lia. rewrite P0, set_cwp_high by lia. now rewrite trap_psr_bit by lia. }
  assert (SP : reg c1 14 = oldest_sp c).
  { rewrite reg_out by lia. rewrite C1. change (14 + 16) with 30. unfold oldest_sp.
    replace (below (below (below (cwp c)))) with ((cwp c + 5) mod 8) by (unfold below, NW; clear - Hc; lia).
    rewrite V1 by (left; unfold below, NW; clear - Hc; lia). apply V0. left. unfold below, NW. clear - Hc. lia. }
  unfold overflow. rewrite run_app, R1. unfold spill. cbn [app run]. unfold exec at 1. rewrite SP, Z.add_0_r. unfold fine, may. rewrite S1, A1, A0.
  destruct B as [B|B]; [|rewrite B, andb_false_r; reflexivity]. apply Z.eqb_neq in B. rewrite B. reflexivity.
Qed.
Print Assumptions C93_halt_refuted.

(** ** Examples *)
Section Examples.
Definition K0 : place := mkPlace 0x1000 0x8000 (fun a => a =? 0x9000).
Definition A0 : prog := mkProg (fun _ => None) (fun r => if r =? 14 then Some 0x7f00 else None) (fun _ _ => None) 1 (fun a => if a =? 0x9000 then Some 7 else None).
(** A thread that has just been started, in user mode, window 3; the page of the kernel is at 0x20000. *)
Definition c0 : sparc :=
  mkSparc (fun _ => 0) (fun w r => if (w =? 2) && (r =? 30) then 0x7f00 else 1000 * w + r) (0x20 + 3) (2 ^ 4) 5 100 104 (fun a => if a =? 0x9000 then 7 else a)
    (fun a => if (0xf00 <=? a) && (a <? 0xa000) then 2 else if (0x20000 <=? a) && (a <? 0x21000) then 1 else 0).
Example c0_holds : holds K0 c0 A0.
Proof.
  constructor.
  - unfold windows. vm_compute. repeat split; discriminate.
  - constructor.
    + cbn [lo hi K0]. lia.
    + cbn [p_depth A0]. lia.
    + reflexivity.
    + intros k Hk. cbn [p_depth A0] in Hk. lia.
    + vm_compute. discriminate.
    + vm_compute. discriminate.
    + intros k Hk. cbn [p_depth A0] in Hk. lia.
    + intros k Hk. cbn [p_depth A0] in Hk. replace k with 0%nat by lia. reflexivity.
    + intros k a Hk Ha. cbn [p_depth A0] in Hk. replace k with 0%nat in Ha by lia. change (p_sp A0 0) with 0x7f00 in Ha. cbn [p_mem A0].
      destruct (Z.eqb_spec a 0x9000); [lia|reflexivity].
    + intros a Ha. change (p_sp A0 0) with 0x7f00 in Ha. cbn [p_mem A0]. destruct (Z.eqb_spec a 0x9000); [lia|reflexivity].
  - vm_compute. discriminate.
  - intros r v Hr E. discriminate.
  - intros r v Hr E. cbn [p_out A0] in E. destruct (Z.eqb_spec r 14) as [-> |]; [|discriminate]. injection E as <-. reflexivity.
  - intros k r v _ _ E. discriminate.
  - intros a v E. cbn [p_mem A0] in E. destruct (Z.eqb_spec a 0x9000) as [-> |]; [|discriminate]. injection E as <-. split; reflexivity.
  - intros a Ha. cbn [lo hi K0] in Ha. cbn [acc c0]. destruct (Z.leb_spec 0xf00 a); [|lia]. destruct (Z.ltb_spec a 0xa000); [reflexivity|lia].
  - intros a Ha. cbn [data K0] in Ha. apply Z.eqb_eq in Ha. subst a. reflexivity.
Qed.
(** The sum of 0 to 10 by a recursive function: twelve frames on eight windows; a word of memory is written and read on the way. *)
Definition sum (l : list Z) : Z := fold_right Z.add 0 l.
Definition program : list op :=
  [Set_ 8 [] (fun _ => 10); Call 96] ++ concat (repeat [Set_ 8 [24] (fun l => sum l - 1); Call 96] 10) ++
  [Set_ 8 [] (fun _ => 0)] ++ concat (repeat [Ret 8 [24; 8] sum] 11) ++ [Store [8] (fun _ => 0x9000) sum; Load 1 [] (fun _ => 0x9000)].
Example sum_spec : option_map (fun A => (p_out A 8, p_glob A 1, p_mem A 0x9000)) (p_run K0 A0 program) = Some (Some 55, Some 55, Some 55).
Proof. reflexivity. Qed.
Example sum_run : option_map (fun c => (reg c 8, reg c 1, mem c 0x9000, cwp c, resident c)) (c_run c0 program) = Some (55, 55, 55, 3, 1).
Proof. vm_compute. reflexivity. Qed.

(** A program in user mode that has called six functions and has put an address of the kernel into the %fp of the sixth. *)
Definition c_full (s : Z) : sparc := set_win (upd2 (win c0) 0 30 s) (set_wim (2 ^ 2) c0).
Example c_full_full : full (c_full 0x20000).
Proof. unfold full, windows. vm_compute. repeat split; discriminate. Qed.
Example write_kernel : oldest_sp (c_full 0x20000) = 0x20000 /\ option_map (fun c => (mem c 0x20000, mem c 0x20004, SUP c)) (do_save 96 (c_full 0x20000)) = Some (1016, 1017, false).
Proof. vm_compute. split; reflexivity. Qed.
Example halt : full (c_full 0x7001) /\ do_save 96 (c_full 0x7001) = None /\ full (c_full 0x30000) /\ do_save 96 (c_full 0x30000) = None.
Proof. split; [unfold full, windows; vm_compute; repeat split; discriminate|]. split; [vm_compute; reflexivity|].
  split; [unfold full, windows; vm_compute; repeat split; discriminate|vm_compute; reflexivity]. Qed.
Definition c_empty : sparc := set_win (upd2 (win c0) 3 30 0x20000) c0.
Example read_kernel : empty c_empty /\ reg c_empty 30 = 0x20000 /\ option_map (fun c => (reg c 16, reg c 17, SUP c)) (do_restore 0 (fun _ => 0) c_empty) = Some (0x20000, 0x20004, false).
Proof. split; [unfold empty, windows; vm_compute; repeat split; discriminate|]. vm_compute. split; reflexivity. Qed.
End Examples.
