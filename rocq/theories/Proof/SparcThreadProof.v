(** Threads of the SPARC port: suspended and continued. *)
From Verif Require Import Model.Base Spec.SparcCpu Spec.SparcWindows Spec.SparcThreads Model.SparcEntry Model.SparcTrap
  Proof.Tac Proof.SparcWinProof Proof.SparcProgProof Proof.SparcTrapProof Proof.SparcLeaveProof.

Lemma suspend : forall k tt K c A, holds K c A -> resident c <= 6 ->
  exists c1, enter k tt c = Some c1 /\ kept K (mem c1) A (pc c) (npc c) /\ 0 <= cwp c1 < 8 /\
    (forall b, 5 <= b < 20 \/ 24 <= b -> Z.testbit (psr c1) b = if b <? 12 then true else Z.testbit (psr c) b) /\
    wim c1 = 2 ^ above (cwp c1) /\ yreg c1 = yreg c /\ acc c1 = acc c /\
    reg c1 8 = pc c /\ reg c1 9 = npc c /\ reg c1 11 = tt /\ reg c1 13 = p_sp A 0 /\ reg c1 14 = Z.ldiff (u32 (kstack k - 0x40)) 0xf /\
    (forall a, ~ lo K - 84 <= a < hi K -> mem c1 a = mem c a).
Proof.
  intros k tt K c A H R6. pose proof (h_win K c A H) as W. pose proof (res_range c W) as R. pose proof (h_shape K c A H) as Sh.
  pose proof (h_res K c A H) as D. pose proof W as (Hc & _). unfold NW in Hc.
  set (t := below (cwp c)) in *. set (n := resident c) in *.
  assert (S0 : win c t 30 = p_sp A 0).
  { pose proof (h_out K c A H 14 (p_sp A 0) ltac:(clear; lia) (sh_sp K A Sh)) as F. rewrite reg_out in F by (clear; lia). exact F. }
  assert (Ch : forall j, 0 <= j < n -> chain (win c) t j = p_sp A (Z.to_nat j)).
  { intros j Hj. unfold chain. destruct (Z.eq_dec j 0) as [-> | N].
    - rewrite Z.add_0_r, Z.mod_small by (apply below_range). exact S0.
    - set (i := Z.to_nat (j - 1)). assert (Ei : Z.to_nat j = S i) by (unfold i; clear - Hj N; lia). rewrite Ei.
      assert (Hi : (S i < p_depth A)%nat) by (unfold i; clear - Hj D N; lia).
      pose proof (h_fr K c A H i 30 (p_sp A (S i)) ltac:(clear - Hi; lia) ltac:(clear; lia) (sh_fp K A Sh i Hi)) as F. unfold in_frame in F.
      destruct (Z.ltb_spec (Z.of_nat i) (resident c)) as [L|L]; [|exfalso; unfold i in L; fold n in L; clear - L Hj N; lia].
      rewrite <- F. f_equal. unfold t, below, NW, i. clear - Hc Hj N. lia. }
  assert (Dn : forall j, 0 <= j < n -> (Z.to_nat j < p_depth A)%nat) by (intros j Hj; clear - Hj D; lia).
  pose proof (sp_range K A 0 Sh (sh_depth K A Sh)) as [Lo _].
  destruct (enter_ok k tt c t n (p_sp A 0) W eq_refl eq_refl (eq_sym S0)) as
    (c1 & E & C1 & B1 & W1 & Y1 & A1 & K8 & K9 & K11 & K12 & K13 & K14 & Mg & Mi & Mpc & Mnpc & Mc & My & Mf & _ & Mo).
  { intros j Hj. rewrite Ch by exact Hj. apply (sh_align K A Sh). exact (Dn j Hj). }
  { intros j a Hj Ha. rewrite Ch in Ha by exact Hj. pose proof (sp_range K A _ Sh (Dn j Hj)) as Rg. rewrite (h_acc K c A H a) by (clear - Rg Ha; lia). clear; lia. }
  { intros i j Hij Hj. rewrite !Ch by (clear - Hij Hj; lia). apply (grow K A Sh); [clear - Hij; lia|apply Dn; clear - Hij Hj; lia]. }
  { intros a Ha. rewrite (h_acc K c A H a); [clear; lia|]. pose proof (sp_range K A 0 Sh (sh_depth K A Sh)) as Rg. clear - Rg Ha Lo. lia. }
  exists c1. split; [exact E|]. split.
  - constructor.
    + exact Sh.
    + change (p_sp A 0 - 0x54) with (p_sp A 0 - CNT_OFF). rewrite Mc. clear - R D. lia.
    + intros r v Hr Ev. change (p_sp A 0 - (32 - 4 * r)) with (p_sp A 0 - G_OFF r). rewrite Mg by exact Hr. exact (h_glob K c A H r v Hr Ev).
    + intros r v Hr _ Ev. replace (p_sp A 0 - 4 * r) with (p_sp A 0 - I_OFF (r + 16)) by (unfold I_OFF; clear; lia). rewrite Mi by (clear - Hr; lia).
      pose proof (h_out K c A H r v Hr Ev) as F. rewrite reg_out in F by exact Hr. exact F.
    + intros j r v Hj Hr Ev. pose proof (h_fr K c A H j r v Hj Hr Ev) as F. unfold in_frame in F. fold n in F. unfold NW in F.
      destruct (Z.ltb_spec (Z.of_nat j) n) as [L|L].
      * pose proof (Ch (Z.of_nat j) ltac:(clear - L; lia)) as Cj. rewrite Nat2Z.id in Cj. rewrite <- Cj.
        rewrite Mf; [exact F|clear - L; lia|exact Hr|]. left. clear - L R6. fold n in R6. lia.
      * rewrite Mo; [exact F| |].
        -- assert (Hj0 : (0 < j)%nat) by (clear - L R; lia). pose proof (grow K A Sh j 0 Hj0 Hj) as G. clear - G Hr. lia.
        -- intros i Hi. rewrite Ch by exact Hi. assert (Hij : (Z.to_nat i < j)%nat) by (clear - Hi L; lia). pose proof (grow K A Sh j _ Hij Hj) as G. clear - G Hr. lia.
    + intros a v Ev. rewrite Mo; [exact (proj1 (h_mem K c A H a v Ev))| |].
      * intros Ha. rewrite (sh_free K A Sh a) in Ev by (clear - Ha Lo; lia). discriminate.
      * intros j Hj Ha. rewrite Ch in Ha by exact Hj. rewrite (sh_area K A Sh _ a (Dn j Hj) Ha) in Ev. discriminate.
    + exact Mpc.
    + exact Mnpc.
  - split; [rewrite C1; apply below_range|]. split; [exact B1|].
    split; [rewrite C1, W1; unfold t; rewrite above_below by exact Hc; reflexivity|]. do 7 (split; [assumption|]).
    intros a Ha. apply Mo.
    + pose proof (sp_range K A 0 Sh (sh_depth K A Sh)) as Rg. clear - Ha Rg. lia.
    + intros j Hj. rewrite Ch by exact Hj. pose proof (sp_range K A _ Sh (Dn j Hj)) as Rg. clear - Ha Rg. lia.
Qed.

Lemma continue_ : forall k K c A p q, kept K (mem c) A p q -> cwp c < 8 -> SUP c = true -> PS c = true ->
  arch_sp k mod 4 = 0 -> 1 <= acc c (arch_sp k) -> mem c (arch_sp k) = p_sp A 0 ->
  (forall a, lo K - 84 <= a < hi K -> acc c a = 2) -> (forall a, data K a = true -> acc c a = 2) -> (forall a v, p_mem A a = Some v -> acc c a = 2) ->
  exists c', leave k c = Some c' /\ holds K c' A /\ pc c' = p /\ npc c' = q /\ mem c' = mem c /\ acc c' = acc c /\
    SUP c' = true /\ PS c' = true /\ icc c' = 4 /\ yreg c' = yreg c /\ resident c' = mem c (p_sp A 0 - CNT_OFF) /\
    (forall b, 8 <= b < 12 -> Z.testbit (psr c') b = false).
Proof.
  intros k K c A p q H Hc HS HP Ha4 Haa Hs Hacc Hdat Hpm. pose proof (kt_shape _ _ _ _ _ H) as Sh. destruct (kt_count _ _ _ _ _ H) as [N17 ND].
  set (s := p_sp A 0) in *. set (n := Z.to_nat (mem c (s - 0x54))).
  assert (En : mem c (s - 0x54) = Z.of_nat n) by (unfold n; clear - N17; lia). assert (Hn : (1 <= n <= 7)%nat) by (clear - En N17; lia).
  assert (Dn : (n <= p_depth A)%nat) by (rewrite En in ND; clear - ND; lia).
  assert (Ch : forall i, (i < n)%nat -> mchain (mem c) s i = p_sp A i).
  { induction i as [|i IH]; intros Hi; [reflexivity|]. rewrite mchain_S, IH by (clear - Hi; lia).
    apply (kt_fr _ _ _ _ _ H i 30); [clear - Hi Dn; lia|clear; lia|]. apply (sh_fp K A Sh). clear - Hi Dn. lia. }
  pose proof (sp_range K A 0 Sh (sh_depth K A Sh)) as R0. fold s in R0.
  destruct (leave_ok k c s n) as (c' & E & C' & W' & Y' & M' & A' & B' & I' & Pc & Npc & G' & O' & V'); try assumption.
  { intros a Ha. rewrite Hacc by (clear - Ha R0; lia). clear; lia. }
  { intros i Hi. rewrite Ch by exact Hi. apply (sh_align K A Sh). clear - Hi Dn. lia. }
  { intros i a Hi Ha. rewrite Ch in Ha by exact Hi. pose proof (sp_range K A i Sh ltac:(clear - Hi Dn; lia)) as Rg. rewrite Hacc by (clear - Ha Rg; lia). clear; lia. }
  assert (Iv : invalid c' = Z.of_nat n) by (unfold invalid; rewrite W'; apply inv_pow; clear - Hn; lia).
  assert (Rs : resident c' = Z.of_nat n) by (unfold resident, NW; rewrite Iv, C'; clear - Hn; lia).
  exists c'. split; [exact E|]. split.
  - constructor.
    + unfold windows, NW. rewrite Iv, C', W'. unfold ET. rewrite B' by (clear; lia). clear - Hn. repeat split; lia.
    + exact Sh.
    + rewrite Rs. clear - Dn. lia.
    + intros r v Hr Ev. rewrite G' by exact Hr. exact (kt_glob _ _ _ _ _ H r v Hr Ev).
    + intros r v Hr Ev. rewrite O' by exact Hr. destruct (Z.eqb_spec r 14) as [-> | N].
      * unfold s. rewrite (sh_sp K A Sh) in Ev. injection Ev as <-. reflexivity.
      * replace (s - I_OFF (r + 16)) with (s - 4 * r) by (unfold I_OFF; clear; lia). exact (kt_out _ _ _ _ _ H r v Hr N Ev).
    + intros j r v Hj Hr Ev. unfold in_frame. rewrite Rs, C', M'. unfold NW. pose proof (kt_fr _ _ _ _ _ H j r v Hj Hr Ev) as F.
      destruct (Z.ltb_spec (Z.of_nat j) (Z.of_nat n)) as [L|L]; [|exact F].
      assert (Hj' : (j < n)%nat) by (clear - L; lia). replace ((0 + Z.of_nat j) mod 8) with (Z.of_nat j) by (clear - Hj' Hn; lia).
      rewrite V' by assumption. rewrite Ch by exact Hj'. exact F.
    + intros a v Ev. rewrite M', A'. split; [exact (kt_mem _ _ _ _ _ H a v Ev)|exact (Hpm a v Ev)].
    + intros a Ha. rewrite A'. apply Hacc. exact Ha.
    + intros a Ha. rewrite A'. apply Hdat. exact Ha.
  - split; [rewrite Pc; exact (kt_pc _ _ _ _ _ H)|]. split; [rewrite Npc; exact (kt_npc _ _ _ _ _ H)|]. split; [exact M'|]. split; [exact A'|].
    split; [unfold SUP; rewrite B' by (clear; lia); exact HP|]. split; [unfold PS; rewrite B' by (clear; lia); exact HP|].
    split; [exact I'|]. split; [exact Y'|]. split; [rewrite Rs, <- En; reflexivity|].
    intros b Hb. rewrite B' by (clear - Hb; lia). destruct (Z.eqb_spec b 5); [exfalso; clear - e Hb; lia|]. destruct (Z.eqb_spec b 7); [exfalso; clear - e Hb; lia|].
    destruct (Z.leb_spec 8 b); [|exfalso; clear - H0 Hb; lia]. destruct (Z.ltb_spec b 12); [reflexivity|exfalso; clear - H1 Hb; lia].
Qed.
