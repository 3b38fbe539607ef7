(** Proofs about the traps of the SPARC port: restoring a thread. *)
From Verif Require Import Model.Base Spec.SparcCpu Spec.SparcWindows Model.SparcEntry Model.SparcTrap Proof.Tac Proof.SparcWinProof Proof.SparcTrapProof.

(** ** Loads relative to %l2 *)
Definition lds (l : list (Z * Z)) : list instr := map (fun x => Ld 18 (snd x) (fst x)) l.
Definition got (f : Z -> Z) (r : Z) (l : list (Z * Z)) (v : Z) : Z := fold_left (fun a x => if r =? fst x then f (snd x) else a) l v.
Definition target (x : Z * Z) : bool := low x && ((1 <=? fst x) && (fst x <? 8) || (19 <=? fst x) && (fst x <? 32)).
Lemma lds_ok : forall l c s, forallb target l = true -> reg c 18 = s -> s mod 4 = 0 -> (forall a, s - 84 <= a < s -> may c a = true) ->
  exists c', run (lds l) c = Some c' /\ psr c' = psr c /\ wim c' = wim c /\ yreg c' = yreg c /\ mem c' = mem c /\ acc c' = acc c /\
    (forall r, 0 <= r < 32 -> reg c' r = got (fun o => mem c (s + o)) r l (reg c r)) /\ (forall w r, w <> cwp c -> win c' w r = win c w r).
Proof.
  induction l as [|[d o] l IH]; intros c s Hl H18 Hal Hm; [exists c; repeat split|].
  cbn [forallb] in Hl. apply andb_prop in Hl. destruct Hl as [T Hl]. unfold target, low in T. cbn [fst snd] in T.
  apply andb_prop in T. destruct T as [T D]. apply andb_prop in T. destruct T as [T L4]. apply andb_prop in T. destruct T as [L1 L2].
  apply Z.leb_le in L1. apply Z.ltb_lt in L2. apply Z.eqb_eq in L4.
  assert (Hd : 1 <= d < 8 \/ 19 <= d < 32).
  { apply orb_prop in D. destruct D as [D|D]; apply andb_prop in D; destruct D as [D1 D2]; apply Z.leb_le in D1; apply Z.ltb_lt in D2; lia. }
  set (c1 := set_reg d (mem c (s + o)) c).
  assert (R1 : exec (Ld 18 o d) c = Some c1).
  { unfold exec. rewrite H18. unfold fine. rewrite Hm by lia. replace ((s + o) mod 4) with 0 by (clear - Hal L4; lia). reflexivity. }
  destruct (IH c1 s Hl) as (c' & R & P & W & Y & M & A & Rg & V).
  { unfold c1. rewrite reg_set by (clear - Hd; lia). destruct (Z.eqb_spec 18 d); [lia|exact H18]. }
  { exact Hal. }
  { intros a Ha. unfold c1. rewrite may_set. apply Hm. exact Ha. }
  exists c'. unfold c1 in P, W, Y, M, A. autorewrite with sprj in P, W, Y, M, A. split; [cbn [lds map run fst snd]; rewrite R1; exact R|].
  do 5 (split; [assumption|]). split.
  - intros r Hr. rewrite Rg by exact Hr. unfold c1. rewrite mem_set, reg_set by (clear - Hd Hr; lia). reflexivity.
  - intros w r Hw. unfold c1 in V. rewrite cwp_set in V. rewrite V by exact Hw. rewrite win_set by (clear - Hd; lia).
    destruct (Z.eqb_spec w (cwp c)); [contradiction|]. rewrite andb_false_r. cbn [andb orb].
    destruct Hd as [Hd|Hd]; [destruct (Z.leb_spec 8 d); [lia|]; reflexivity|]. destruct (Z.ltb_spec d 16); [lia|]. rewrite andb_false_r. reflexivity.
Qed.

(** ** Before the loop *)
Fixpoint mchain (m : Z -> Z) (s : Z) (j : nat) : Z := match j with O => s | S i => m (mchain m s i + 56) end.
Definition first_psr (p : Z) : Z := Z.lor (Z.ldiff p 15) 7.
Lemma first_psr_cwp : forall p, Z.land p 31 < 8 -> Z.land (first_psr p) 31 = 7.
Proof.
  intros p Hp. change 7 with (Z.land 7 31). apply low_eq. intros n Hn. unfold first_psr. rewrite Z.lor_spec, Z.ldiff_spec.
  assert (C : n < 4 \/ n = 4) by lia. destruct C as [C|C].
  - assert (F : Z.testbit 15 n = true) by (change 15 with (Z.ones 4); apply Z.ones_spec_low; lia). rewrite F. cbn [negb]. rewrite andb_false_r. reflexivity.
  - subst n. assert (F : Z.testbit p 4 = false).
    { rewrite land31 in Hp. rewrite <- (Z.mod_pow2_bits_low p 5 4) by lia. change (2 ^ 5) with 32. apply (testbit_small _ 4 3); [|lia].
      pose proof (Z.mod_pos_bound p 32). lia. }
    rewrite F. reflexivity.
Qed.
Lemma first_psr_bit : forall p n, 5 <= n -> Z.testbit (first_psr p) n = Z.testbit p n.
Proof.
  intros p n Hn. unfold first_psr. rewrite Z.lor_spec, Z.ldiff_spec, (testbit_small 15 n 4), (testbit_small 7 n 3) by lia.
  cbn [negb]. now rewrite andb_true_r, orb_false_r.
Qed.
Lemma set_reg_psr : forall p c r v, Z.land p 31 = cwp c -> psr (set_reg r v (set_psr p c)) = p.
Proof. intros. rewrite psr_set. reflexivity. Qed.

Lemma head_ok : forall k c s n, cwp c < 8 -> SUP c = true -> arch_sp k mod 4 = 0 -> 1 <= acc c (arch_sp k) -> mem c (arch_sp k) = s -> s mod 8 = 0 ->
  (forall a, s - 84 <= a < s -> 1 <= acc c a) -> mem c (s - CNT_OFF) = n -> 1 <= n <= 7 ->
  exists c', run (restore_head k) c = Some c' /\ cwp c' = 7 /\ same_bits (psr c') (psr c) /\ zero_flag c' = false /\ wim c' = 2 ^ n /\ yreg c' = yreg c /\
    mem c' = mem c /\ acc c' = acc c /\ glob c' 1 = n /\ glob c' 2 = s /\ glob c' 3 = mem c (s - PC_OFF) /\ glob c' 4 = mem c (s - NPC_OFF) /\ win c' 7 30 = s.
Proof.
  intros k c s n Hc HS Ha4 Haa Hs Hal Hacc Hcnt Hn.
  set (c1 := set_reg 16 (psr c) (set_reg 7 (at_restore k) (set_reg 15 (at_restore k) (set_reg 2 s (set_reg 6 (arch_sp k) c))))).
  assert (R1 : run [Movi 6 (arch_sp k); Ld 6 0 2; Movi 15 (at_restore k); Mov 7 15; Rdpsr 16] c = Some c1).
  { cbn [run exec]. autorewrite with sprj. regs. rewrite Z.add_0_r, Hs. unfold fine. rewrite Ha4, may_sup by assumption. cbn [andb Z.eqb].
    autorewrite with sprj. regs. reflexivity. }
  set (c2 := set_psr (first_psr (psr c)) (set_reg 16 (first_psr (psr c)) (set_reg 16 (Z.ldiff (psr c) 15) c1))).
  assert (F : Z.land (first_psr (psr c)) 31 = 7) by (apply first_psr_cwp; exact Hc).
  assert (R2 : run [Andn 16 16 0xf; Ori 16 16 7; Wrpsr 16] c1 = Some c2).
  { cbn [run exec]. regs. replace (reg c1 16) with (psr c) by (unfold c1; regs; reflexivity).
    change (Z.lor (Z.ldiff (psr c) 15) 7) with (first_psr (psr c)). rewrite F. reflexivity. }
  assert (C2 : cwp c2 = 7) by exact F.
  assert (Q2 : glob c2 2 = s /\ mem c2 = mem c /\ acc c2 = acc c /\ yreg c2 = yreg c).
  { unfold c2. cbn [glob mem acc yreg set_psr]. unfold c1. autorewrite with sprj. regs. repeat split. }
  destruct Q2 as (G2 & M2 & A2 & Y2).
  assert (S2 : SUP c2 = true) by (unfold SUP, c2; cbn [psr set_psr]; rewrite first_psr_bit by lia; exact HS).
  set (c3 := set_reg 4 (mem c (s - NPC_OFF)) (set_reg 3 (mem c (s - PC_OFF)) (set_reg 1 n (set_reg 30 s c2)))).
  assert (R3 : run [Mov 30 2; Ld 2 (-0x54) 1; Ld 2 (-0x4c) 3; Ld 2 (-0x50) 4] c2 = Some c3).
  { assert (E2 : reg c2 2 = s) by (rewrite reg_glob by lia; exact G2).
    assert (Fi : forall o, -84 <= o < 0 -> o mod 4 = 0 -> fine c2 4 (s + o) = true).
    { intros o Ho Ho4. unfold fine. rewrite may_sup; [|exact S2|rewrite A2; apply Hacc; clear - Ho; lia]. replace ((s + o) mod 4) with 0 by (clear - Hal Ho4; lia). reflexivity. }
    cbn [run exec]. rewrite E2. autorewrite with sprj. regs. rewrite E2, Fi by (reflexivity || lia). autorewrite with sprj. regs. rewrite E2, Fi by (reflexivity || lia).
    autorewrite with sprj. regs. rewrite E2, Fi by (reflexivity || lia). autorewrite with sprj. rewrite M2.
    change (s + -84) with (s - CNT_OFF). rewrite Hcnt. reflexivity. }
  assert (Pn : u32 (1 * 2 ^ (n mod 32)) = 2 ^ n) by (assert (Hn8 : 0 <= n < 8) by lia; clear - Hn8; eight Hn8; reflexivity).
  assert (Pl : Z.land (2 ^ n) 255 = 2 ^ n) by (assert (Hn8 : 0 <= n < 8) by lia; clear - Hn8; eight Hn8; reflexivity).
  set (c4 := set_wim (2 ^ n) (set_reg 16 (2 ^ n) (set_reg 16 1 c3))).
  assert (R4 : run [Movi 16 1; Sllr 16 16 1; Wrwim 16] c3 = Some c4).
  { cbn [run exec]. regs. replace (reg c3 1) with n by (unfold c3; regs; reflexivity). rewrite Pn, Pl. reflexivity. }
  assert (P4 : psr c4 = first_psr (psr c)) by (unfold c4; cbn [psr set_wim]; unfold c3; autorewrite with sprj; reflexivity).
  assert (G4 : forall r, 1 <= r < 5 -> glob c4 r = if r =? 1 then n else if r =? 2 then s else if r =? 3 then mem c (s - PC_OFF) else mem c (s - NPC_OFF)).
  { intros r Hr. unfold c4. cbn [glob set_wim]. unfold c3. rewrite !glob_set by lia.
    assert (C : r = 1 \/ r = 2 \/ r = 3 \/ r = 4) by lia. repeat (destruct C as [-> | C]); try subst r; cbn [Z.eqb Pos.eqb]; reflexivity. }
  exists (set_psr (set_icc (icc_of n) (psr c4)) c4). split.
  { change (restore_head k) with ([Movi 6 (arch_sp k); Ld 6 0 2; Movi 15 (at_restore k); Mov 7 15; Rdpsr 16] ++ [Andn 16 16 0xf; Ori 16 16 7; Wrpsr 16] ++
      [Mov 30 2; Ld 2 (-0x54) 1; Ld 2 (-0x4c) 3; Ld 2 (-0x50) 4] ++ [Movi 16 1; Sllr 16 16 1; Wrwim 16] ++ [Tst 1]).
    rewrite run_app, R1, run_app, R2, run_app, R3, run_app, R4. cbn [run]. unfold exec. rewrite (reg_glob c4 1), (G4 1) by lia. reflexivity. }
  pose proof (icc_of_range n) as Ir. unfold cwp, zero_flag, same_bits. cbn [psr wim yreg mem acc glob win set_psr].
  split; [rewrite cwp_icc by lia; rewrite P4; exact F|]. split; [intros b Hb; rewrite icc_bit by lia; rewrite P4; apply first_psr_bit; lia|].
  split; [rewrite zero_icc; apply Z.eqb_neq; lia|]. split; [reflexivity|].
  unfold c4 at 1 2 3. cbn [yreg mem acc set_wim]. unfold c3. autorewrite with sprj. split; [exact Y2|]. split; [exact M2|]. split; [exact A2|].
  rewrite !G4 by lia. do 4 (split; [reflexivity|]).
  unfold c4. cbn [win set_wim]. rewrite !win_set_local by lia. cbn [Z.eqb Pos.eqb]. rewrite !andb_false_r. unfold c3. rewrite !win_set_glob, win_set_local by lia. rewrite C2. reflexivity.
Qed.

(** ** The loop *)
Lemma load_one : forall c s, 0 <= cwp c < 8 -> Z.testbit (wim c) (above (cwp c)) = false -> SUP c = true -> 1 <= glob c 1 < 100 ->
  win c (cwp c) 30 = s -> s mod 8 = 0 -> (forall a, s <= a < s + 64 -> 1 <= acc c a) ->
  exists c', run ([Restore] ++ fill ++ [Subcc 1 1 1]) c = Some c' /\ cwp c' = above (cwp c) /\ same_bits (psr c') (psr c) /\
    zero_flag c' = (glob c 1 - 1 =? 0) /\ (zero_flag c' = true -> icc c' = 4) /\ wim c' = wim c /\ yreg c' = yreg c /\ mem c' = mem c /\ acc c' = acc c /\
    glob c' 1 = glob c 1 - 1 /\ (forall r, 2 <= r < 8 -> glob c' r = glob c r) /\
    (forall w r, 16 <= r < 32 -> win c' w r = if w =? above (cwp c) then mem c (s + 4 * (r - 16)) else win c w r).
Proof.
  intros c s Hc Hb HS H1 Hs Hal Hacc. pose proof (above_range (cwp c)) as Ar. set (w := above (cwp c)) in *.
  set (c1 := set_psr (set_cwp w (psr c)) c).
  assert (C1 : cwp c1 = w) by (apply cwp_move; exact Ar).
  assert (R1 : exec Restore c = Some c1) by (unfold exec; fold w; rewrite Hb; reflexivity).
  assert (SP : reg c1 14 = s) by (rewrite reg_out by lia; rewrite C1; unfold w; rewrite below_above by exact Hc; exact Hs).
  destruct (fill_ok c1) as (w' & R2 & Fw).
  { rewrite SP. exact Hal. }
  { rewrite SP. intros a Ha. apply may_sup; [|exact (Hacc a Ha)]. unfold SUP, c1. cbn [psr set_psr]. rewrite set_cwp_high by lia. exact HS. }
  rewrite SP, C1 in Fw. set (v := glob c 1 - 1). assert (Ev : u32 (glob c 1 - 1) = v) by (unfold u32, v; apply Z.mod_small; lia).
  set (q := set_icc (icc_of v + 0) (psr c1)).
  exists (set_reg 1 v (set_psr q (set_win w' c1))). pose proof (icc_of_range v) as Ir.
  assert (Cq : Z.land q 31 = w) by (unfold q; rewrite cwp_icc by lia; exact C1).
  split.
  { rewrite run_app. cbn [run]. rewrite R1, run_app, R2. cbn [run]. unfold exec. rewrite reg_glob by lia. change (glob (set_win w' c1) 1) with (glob c 1).
    rewrite Ev. destruct (Z.ltb_spec (glob c 1) 1); [lia|]. reflexivity. }
  split; [rewrite cwp_set; exact Cq|].
  split. { intros n Hn. rewrite psr_set. change (psr (set_psr q (set_win w' c1))) with q. unfold q. rewrite icc_bit by lia. unfold c1. cbn [psr set_psr]. apply set_cwp_high; lia. }
  assert (Zf : Z.testbit q 22 = (v =? 0)) by (unfold q; rewrite Z.add_0_r; apply zero_icc).
  split; [unfold zero_flag; rewrite psr_set; exact Zf|].
  split.
  { unfold zero_flag. rewrite psr_set. change (psr (set_psr q (set_win w' c1))) with q. rewrite Zf. intros E. apply Z.eqb_eq in E.
    unfold icc. rewrite psr_set. change (psr (set_psr q (set_win w' c1))) with q. unfold q. rewrite E. change (icc_of 0 + 0) with 4.
    apply Z.bits_inj'. intros n Hn. rewrite Z.land_spec, Z.shiftr_spec by lia. change 15 with (Z.ones 4).
    destruct (Z_lt_dec n 4) as [L|L].
    - rewrite icc_in by lia. rewrite Z.ones_spec_low by lia. rewrite andb_true_r. f_equal. lia.
    - rewrite Z.ones_spec_high by lia. rewrite andb_false_r. symmetry. apply (testbit_small 4 n 3); lia. }
  autorewrite with sprj. do 4 (split; [reflexivity|]). split; [rewrite glob_set by lia; reflexivity|].
  split. { intros r Hr. rewrite glob_set by lia. destruct (Z.eqb_spec r 1); [lia|reflexivity]. }
  intros x r Hr. rewrite win_set_glob by lia. cbn [win set_psr set_win]. rewrite Fw by exact Hr. reflexivity.
Qed.

Lemma mchain_S : forall m s j, mchain m s (S j) = m (mchain m s j + 56). Proof. reflexivity. Qed.
Lemma restore_loop_ok : forall rest fuel c s j n, (j + rest = n)%nat -> (1 <= rest)%nat -> (n <= 7)%nat -> (rest <= fuel)%nat ->
  cwp c = (7 + Z.of_nat j) mod 8 -> wim c = 2 ^ Z.of_nat n -> SUP c = true -> glob c 1 = Z.of_nat rest -> win c 7 30 = s ->
  (forall i r, (i < j)%nat -> 16 <= r < 32 -> win c (Z.of_nat i) r = mem c (mchain (mem c) s i + 4 * (r - 16))) ->
  (forall i, (i < n)%nat -> mchain (mem c) s i mod 8 = 0) ->
  (forall i a, (i < n)%nat -> mchain (mem c) s i <= a < mchain (mem c) s i + 64 -> 1 <= acc c a) ->
  exists c', restore_loop fuel c = Some c' /\ cwp c' < 8 /\ same_bits (psr c') (psr c) /\ icc c' = 4 /\ wim c' = wim c /\ yreg c' = yreg c /\ mem c' = mem c /\ acc c' = acc c /\
    (forall r, 2 <= r < 8 -> glob c' r = glob c r) /\
    (forall i r, (i < n)%nat -> 16 <= r < 32 -> win c' (Z.of_nat i) r = mem c (mchain (mem c) s i + 4 * (r - 16))).
Proof.
  induction rest as [|rest IH]; intros fuel c s j n Hj H1 H7 Hf Hc Hw HS Hg Hs Hin Hal Hacc; [lia|]. (destruct fuel as [|fuel]; [lia|]). cbn [restore_loop].
  assert (Hjn : (j < n)%nat) by lia.
  assert (Cr : 0 <= cwp c < 8) by (rewrite Hc; apply Z.mod_pos_bound; reflexivity).
  assert (Ab : above (cwp c) = Z.of_nat j) by (rewrite Hc; unfold above, NW; clear - H7 Hjn; lia).
  assert (Ws : win c (cwp c) 30 = mchain (mem c) s j).
  { destruct j as [|i]; [rewrite Hc; exact Hs|]. replace (cwp c) with (Z.of_nat i) by (rewrite Hc; clear - H7 Hjn; lia). rewrite mchain_S.
    apply (Hin i 30); clear; lia. }
  destruct (load_one c (mchain (mem c) s j)) as (c1 & R1 & C1 & B1 & Z1 & I1 & W1 & Y1 & M1 & A1 & G1 & Go & V1).
  { exact Cr. }
  { rewrite Ab, Hw, wim_bit by (clear - H7 Hjn; lia). apply Z.eqb_neq. clear - Hjn. lia. }
  { exact HS. }
  { rewrite Hg. clear - Hj H7. lia. }
  { exact Ws. }
  { apply Hal. exact Hjn. }
  { intros a Ha. apply (Hacc j); assumption. }
  rewrite Ab in *. rewrite R1, Z1.
  assert (In1 : forall i r, (i < S j)%nat -> 16 <= r < 32 -> win c1 (Z.of_nat i) r = mem c (mchain (mem c) s i + 4 * (r - 16))).
  { intros i r Hi Hr. rewrite V1 by exact Hr. destruct (Z.eqb_spec (Z.of_nat i) (Z.of_nat j)) as [E|N].
    - apply Nat2Z.inj in E. subst i. reflexivity.
    - apply Hin; [clear - Hi N; lia|exact Hr]. }
  destruct rest as [|rest].
  - rewrite Hg. change (Z.of_nat 1 - 1 =? 0) with true. cbn iota. exists c1. split; [reflexivity|]. split; [rewrite C1; clear - H7 Hjn; lia|]. split; [exact B1|].
    split; [apply I1; rewrite Z1, Hg; reflexivity|]. do 4 (split; [assumption|]). split; [exact Go|].
    intros i r Hi Hr. apply In1; [clear - Hi Hj; lia|exact Hr].
  - replace (glob c 1 - 1 =? 0) with false by (symmetry; apply Z.eqb_neq; rewrite Hg; clear; lia). cbn iota.
    destruct (IH fuel c1 s (S j) n) as (c' & R & C' & B' & I' & W' & Y' & M' & A' & G' & V'); rewrite ?M1, ?A1, ?W1 in *; try assumption.
    { clear - Hj. lia. }
    { clear. lia. }
    { clear - Hf. lia. }
    { rewrite C1. clear - H7 Hjn. lia. }
    { unfold SUP. rewrite B1 by (clear; lia). exact HS. }
    { rewrite G1, Hg. clear. lia. }
    { rewrite V1 by (clear; lia). destruct (Z.eqb_spec 7 (Z.of_nat j)); [exfalso; clear - e Hjn H7; lia|exact Hs]. }
    exists c'. split; [exact R|]. split; [exact C'|]. split; [apply same_bits_trans with (psr c1); assumption|]. split; [exact I'|].
    split; [exact W'|]. split; [rewrite Y'; exact Y1|]. split; [exact M'|]. split; [exact A'|]. split; [intros r Hr; rewrite G' by exact Hr; apply Go; exact Hr|exact V'].
Qed.

(** ** After the loop *)
Definition back_list : list (Z * Z) := own_list.
Definition last_psr (p : Z) : Z := set_cwp 7 p.
Definition user_psr (p : Z) : Z := Z.ldiff p 0xF20.
Lemma user_psr_bit : forall p n, 5 <= n -> Z.testbit (user_psr p) n = if (n =? 5) || (8 <=? n) && (n <? 12) then false else Z.testbit p n.
Proof.
  intros p n Hn. unfold user_psr. rewrite Z.ldiff_spec.
  destruct (Z.ltb_spec n 12).
  - assert (C : n = 5 \/ n = 6 \/ n = 7 \/ n = 8 \/ n = 9 \/ n = 10 \/ n = 11) by lia.
    repeat (destruct C as [-> | C]); try subst n; cbn [Z.eqb Pos.eqb Z.leb Z.compare Pos.compare Pos.compare_cont orb andb]; (apply andb_false_r || apply andb_true_r).
  - rewrite (testbit_small 0xF20 n 12) by lia. destruct (Z.eqb_spec n 5); [lia|]. rewrite andb_false_r. apply andb_true_r.
Qed.
Lemma user_psr_cwp : forall p, Z.land (user_psr p) 31 = Z.land p 31.
Proof.
  intros p. unfold user_psr. apply ldiff_low. intros n Hn. assert (C : n = 0 \/ n = 1 \/ n = 2 \/ n = 3 \/ n = 4) by lia.
  repeat (destruct C as [-> | C]); try subst n; reflexivity.
Qed.
Lemma rtail_ok : forall c s n, SUP c = true -> cwp c < 8 -> glob c 2 = s -> s mod 8 = 0 -> (forall a, s - 84 <= a < s -> 1 <= acc c a) -> wim c = 2 ^ n -> 1 <= n <= 7 ->
  exists c', run restore_tail c = Some c' /\ cwp c' = 0 /\ wim c' = 2 ^ n /\ yreg c' = yreg c /\ mem c' = mem c /\ acc c' = acc c /\
    (forall b, 5 <= b -> Z.testbit (psr c') b = if b =? 5 then true else if b =? 7 then Z.testbit (psr c) 6 else if (8 <=? b) && (b <? 12) then false else Z.testbit (psr c) b) /\
    pc c' = glob c 3 /\ npc c' = glob c 4 /\
    (forall r, 1 <= r < 8 -> glob c' r = mem c (s - G_OFF r)) /\
    (forall r, 8 <= r < 16 -> reg c' r = if r =? 14 then s else mem c (s - I_OFF (r + 16))) /\
    (forall w r, w <> 7 -> win c' w r = win c w r).
Proof.
  intros c s n HS Hc H2 Hal Hacc Hw Hn.
  set (c1 := set_psr (last_psr (psr c)) (set_reg 6 (last_psr (psr c)) (set_reg 6 (Z.ldiff (psr c) 31) (set_reg 6 (psr c) c)))).
  assert (L7 : Z.land (last_psr (psr c)) 31 = 7) by (apply set_cwp_low; lia).
  assert (R1 : run [Rdpsr 6; Andn 6 6 31; Ori 6 6 7; Wrpsr 6] c = Some c1).
  { cbn [run exec]. regs. change (Z.lor (Z.ldiff (psr c) 31) 7) with (last_psr (psr c)). rewrite L7. reflexivity. }
  assert (C1 : cwp c1 = 7) by exact L7.
  assert (G1 : forall r, 2 <= r < 5 -> reg c1 r = glob c r).
  { intros r Hr. rewrite reg_glob by lia. unfold c1. cbn [glob set_psr]. rewrite !glob_set by lia. destruct (Z.eqb_spec r 6); [lia|reflexivity]. }
  set (c2 := set_reg 23 (reg c1 7) (set_reg 20 (glob c 4) (set_reg 19 (glob c 3) (set_reg 18 s c1)))).
  assert (R2 : run [Mov 18 2; Mov 19 3; Mov 20 4; Mov 23 7] c1 = Some c2).
  { cbn [run exec]. regs. rewrite (G1 2), (G1 3), (G1 4) by lia. rewrite H2. reflexivity. }
  assert (C2 : cwp c2 = 7) by (unfold c2; rewrite !cwp_set; exact C1).
  assert (P2 : psr c2 = last_psr (psr c)) by (unfold c2; autorewrite with sprj; reflexivity).
  assert (Q2 : mem c2 = mem c /\ acc c2 = acc c /\ yreg c2 = yreg c /\ wim c2 = wim c).
  { unfold c2, c1. autorewrite with sprj. cbn [mem acc yreg wim set_psr]. autorewrite with sprj. repeat split. }
  destruct Q2 as (M2 & A2 & Y2 & W2).
  assert (V2 : forall w r, w <> 7 -> win c2 w r = win c w r).
  { intros w r Hw'. unfold c2. rewrite !win_set_local by lia. rewrite !cwp_set, C1. destruct (Z.eqb_spec w 7); [contradiction|]. cbn [andb].
    unfold c1. cbn [win set_psr]. rewrite !win_set_glob by lia. reflexivity. }
  assert (B2 : forall b, 5 <= b -> Z.testbit (psr c2) b = Z.testbit (psr c) b) by (intros b Hb; rewrite P2; apply set_cwp_high; lia).
  destruct (lds_ok own_list c2 s eq_refl) as (c3 & R3 & P3 & W3 & Y3 & M3 & A3 & Rg & V3).
  { unfold c2. regs. reflexivity. }
  { clear - Hal. lia. }
  { intros a Ha. apply may_sup; [unfold SUP; rewrite B2 by lia; exact HS|]. rewrite A2. apply Hacc. exact Ha. }
  rewrite M2 in Rg. assert (C3 : cwp c3 = 7) by (unfold cwp; rewrite P3; exact C2).
  set (c4 := set_psr (user_psr (psr c2)) (set_reg 16 (user_psr (psr c2)) (set_reg 16 (psr c2) (set_reg 30 s c3)))).
  assert (R318 : reg c3 18 = s) by (rewrite Rg by lia; unfold got, own_list; cbn [fold_left fst snd Z.eqb Pos.eqb]; unfold c2; regs; reflexivity).
  assert (R319 : reg c3 19 = glob c 3) by (rewrite Rg by lia; unfold got, own_list; cbn [fold_left fst snd Z.eqb Pos.eqb]; unfold c2; regs; reflexivity).
  assert (R320 : reg c3 20 = glob c 4) by (rewrite Rg by lia; unfold got, own_list; cbn [fold_left fst snd Z.eqb Pos.eqb]; unfold c2; regs; reflexivity).
  assert (U7 : Z.land (user_psr (psr c2)) 31 = 7) by (rewrite user_psr_cwp; exact C2).
  assert (R4 : run [Mov 30 18; Rdpsr 16; Andn 16 16 0xF20; Wrpsr 16] c3 = Some c4).
  { cbn [run exec]. rewrite R318. autorewrite with sprj. rewrite P3. regs. change (Z.ldiff (psr c2) 0xF20) with (user_psr (psr c2)). rewrite U7. reflexivity. }
  assert (C4 : cwp c4 = 7) by exact U7.
  assert (Rc4 : forall r, 1 <= r < 32 -> r <> 16 -> reg c4 r = if r =? 30 then s else reg c3 r).
  { intros r Hr N. unfold c4. rewrite reg_psr by (rewrite !cwp_set, C3; exact U7). rewrite !reg_set by lia. destruct (Z.eqb_spec r 16); [contradiction|reflexivity]. }
  assert (W4 : wim c4 = 2 ^ n) by (unfold c4; cbn [wim set_psr]; autorewrite with sprj; rewrite W3, W2; exact Hw).
  assert (P4 : psr c4 = user_psr (psr c2)) by reflexivity.
  assert (R5 : exec (JmpRett 19 20) c4 = Some (set_pcs (reg c4 19) (reg c4 20) (set_psr (rett_psr (above (cwp c4)) (psr c4)) c4))).
  { apply rett_ok.
    - unfold ET. rewrite P4, user_psr_bit by lia. reflexivity.
    - unfold SUP. rewrite P4, user_psr_bit by lia. change ((7 =? 5) || (8 <=? 7) && (7 <? 12)) with false. cbn iota. rewrite B2 by lia. exact HS.
    - rewrite C4, W4, wim_bit; [|lia|apply above_range]. apply Z.eqb_neq. change (above 7) with 0. lia. }
  rewrite C4 in R5. change (above 7) with 0 in R5. rewrite !Rc4 in R5 by lia. cbn [Z.eqb Pos.eqb] in R5. rewrite R319, R320 in R5.
  eexists. split.
  { change restore_tail with ([Rdpsr 6; Andn 6 6 31; Ori 6 6 7; Wrpsr 6] ++ [Mov 18 2; Mov 19 3; Mov 20 4; Mov 23 7] ++ lds own_list ++ [Mov 30 18; Rdpsr 16; Andn 16 16 0xF20; Wrpsr 16] ++ [JmpRett 19 20]).
    rewrite run_app, R1, run_app, R2, run_app, R3, run_app, R4. cbn [run]. rewrite R5. reflexivity. }
  assert (C5 : forall a b, cwp (set_pcs a b (set_psr (rett_psr 0 (psr c4)) c4)) = 0) by (intros a b; unfold cwp; cbn [psr set_pcs set_psr]; apply rett_psr_cwp; lia).
  split; [apply C5|]. cbn [wim yreg mem acc psr pc npc glob win set_pcs set_psr]. split; [exact W4|].
  unfold c4 at 1 2 3. cbn [yreg mem acc set_psr]. autorewrite with sprj. rewrite Y3, Y2, M3, M2, A3, A2. do 3 (split; [reflexivity|]). split.
  { intros b Hb. rewrite rett_psr_bit by lia. rewrite P4. destruct (Z.eqb_spec b 5); [reflexivity|].
    destruct (Z.eqb_spec b 7) as [-> |]; [rewrite user_psr_bit by lia; change ((6 =? 5) || (8 <=? 6) && (6 <? 12)) with false; cbn iota; apply B2; lia|].
    rewrite user_psr_bit by lia. destruct (Z.eqb_spec b 5); [contradiction|]. cbn [orb]. destruct ((8 <=? b) && (b <? 12)); [reflexivity|]. apply B2; lia. }
  do 2 (split; [reflexivity|]). split; [|split].
  - intros r Hr. rewrite <- reg_glob by exact Hr. rewrite Rc4 by lia. destruct (Z.eqb_spec r 30); [lia|]. rewrite Rg by lia.
    replace (s - G_OFF r) with (s + (4 * r - 32)) by (unfold G_OFF; lia).
    apply seven_regs in Hr. repeat (destruct Hr as [-> | Hr]); try subst r; reflexivity.
  - intros r Hr. rewrite reg_out by exact Hr. rewrite C5. change (below 0) with 7. cbn [win set_pcs set_psr].
    assert (E : win c4 7 (r + 16) = reg c4 (r + 16)) by (rewrite reg_win by lia; rewrite C4; reflexivity). rewrite E, Rc4 by lia.
    destruct (Z.eqb_spec r 14) as [-> | N]; [reflexivity|]. destruct (Z.eqb_spec (r + 16) 30); [lia|]. rewrite Rg by lia.
    replace (s - I_OFF (r + 16)) with (s + (- 4 * r)) by (unfold I_OFF; lia).
    assert (C : r = 8 \/ r = 9 \/ r = 10 \/ r = 11 \/ r = 12 \/ r = 13 \/ r = 15) by lia. repeat (destruct C as [-> | C]); try subst r; reflexivity.
  - intros w r Hw'. unfold c4. cbn [win set_psr]. rewrite !win_set_local by lia. rewrite !cwp_set, C3. destruct (Z.eqb_spec w 7); [contradiction|]. cbn [andb].
    rewrite V3 by (rewrite C2; exact Hw'). apply V2. exact Hw'.
Qed.

(** ** From the C function to the thread *)
Lemma leave_ok : forall k c s n, cwp c < 8 -> SUP c = true -> arch_sp k mod 4 = 0 -> 1 <= acc c (arch_sp k) -> mem c (arch_sp k) = s ->
  mem c (s - CNT_OFF) = Z.of_nat n -> (1 <= n <= 7)%nat -> (forall a, s - 84 <= a < s -> 1 <= acc c a) ->
  (forall i, (i < n)%nat -> mchain (mem c) s i mod 8 = 0) ->
  (forall i a, (i < n)%nat -> mchain (mem c) s i <= a < mchain (mem c) s i + 64 -> 1 <= acc c a) ->
  exists c', leave k c = Some c' /\ cwp c' = 0 /\ wim c' = 2 ^ Z.of_nat n /\ yreg c' = yreg c /\ mem c' = mem c /\ acc c' = acc c /\
    (forall b, 5 <= b < 20 \/ 24 <= b -> Z.testbit (psr c') b = if b =? 5 then true else if b =? 7 then Z.testbit (psr c) 6 else if (8 <=? b) && (b <? 12) then false else Z.testbit (psr c) b) /\
    icc c' = 4 /\ pc c' = mem c (s - PC_OFF) /\ npc c' = mem c (s - NPC_OFF) /\
    (forall r, 1 <= r < 8 -> glob c' r = mem c (s - G_OFF r)) /\
    (forall r, 8 <= r < 16 -> reg c' r = if r =? 14 then s else mem c (s - I_OFF (r + 16))) /\
    (forall i r, (i < n)%nat -> 16 <= r < 32 -> win c' (Z.of_nat i) r = mem c (mchain (mem c) s i + 4 * (r - 16))).
Proof.
  intros k c s n Hc HS Ha4 Haa Hs Hcnt Hn Hown Hal Hacc.
  assert (Hal0 : s mod 8 = 0) by (apply (Hal 0%nat); clear - Hn; lia).
  destruct (head_ok k c s (Z.of_nat n)) as (c1 & R1 & C1 & B1 & Z1 & W1 & Y1 & M1 & A1 & G1 & G2 & G3 & G4 & V1); try assumption; [clear - Hn; lia|].
  destruct (restore_loop_ok n 8 c1 s 0 n) as (c2 & R2 & C2 & B2 & I2 & W2 & Y2 & M2 & A2 & Go & V2); rewrite ?M1, ?A1 in *; try assumption.
  { reflexivity. }
  { clear - Hn. lia. }
  { clear - Hn. lia. }
  { clear - Hn. lia. }
  { unfold SUP. rewrite B1 by (clear; lia). exact HS. }
  { intros i r Hi. clear - Hi. lia. }
  destruct (rtail_ok c2 s (Z.of_nat n)) as (c3 & R3 & C3 & W3 & Y3 & M3 & A3 & B3 & PC3 & NPC3 & G' & O' & V3); rewrite ?M2, ?A2 in *.
  { unfold SUP. rewrite B2, B1 by (clear; lia). exact HS. }
  { exact C2. }
  { rewrite Go by (clear; lia). exact G2. }
  { exact Hal0. }
  { exact Hown. }
  { rewrite W2. exact W1. }
  { clear - Hn. lia. }
  exists c3. split; [unfold leave; rewrite R1; cbn [bind]; rewrite Z1, R2; cbn [bind]; exact R3|].
  split; [exact C3|]. split; [exact W3|]. split; [rewrite Y3, Y2; exact Y1|]. split; [exact M3|]. split; [exact A3|]. split.
  { intros b Hb. rewrite B3 by (clear - Hb; lia). destruct (b =? 5); [reflexivity|]. destruct (b =? 7); [rewrite B2, B1 by (clear; lia); reflexivity|].
    destruct ((8 <=? b) && (b <? 12)); [reflexivity|]. rewrite B2, B1 by exact Hb. reflexivity. }
  split.
  { rewrite <- I2. unfold icc. apply Z.bits_inj'. intros b Hb. rewrite !Z.land_spec, !Z.shiftr_spec by exact Hb. rewrite B3 by (clear - Hb; lia).
    destruct (Z.eqb_spec (b + 20) 5); [exfalso; clear - Hb e; lia|]. destruct (Z.eqb_spec (b + 20) 7); [exfalso; clear - Hb e; lia|].
    destruct (Z.ltb_spec (b + 20) 12); [exfalso; clear - Hb H; lia|]. rewrite andb_false_r. reflexivity. }
  split; [rewrite PC3, Go by (clear; lia); exact G3|]. split; [rewrite NPC3, Go by (clear; lia); exact G4|].
  split; [exact G'|]. split; [exact O'|]. intros i r Hi Hr. rewrite V3 by (clear - Hi Hn; lia). apply V2; assumption.
Qed.
