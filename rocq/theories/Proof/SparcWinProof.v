(** Proofs about the window traps of the SPARC port. *)
From Verif Require Import Model.Base Spec.SparcCpu Spec.SparcWindows Model.SparcEntry Proof.Tac.

(** ** Bits *)
Lemma land31 : forall x, Z.land x 31 = x mod 32.
Proof. intros x. change 31 with (Z.ones 5). now rewrite Z.land_ones by lia. Qed.
Lemma cwp_range : forall c, 0 <= cwp c < 32.
Proof. intros c. unfold cwp. rewrite land31. apply Z.mod_pos_bound. lia. Qed.
Lemma testbit_small : forall x n k, 0 <= x < 2 ^ k -> k <= n -> Z.testbit x n = false.
Proof.
  intros x n k Hx Hn. destruct (Z.eq_dec x 0) as [-> | N]; [apply Z.bits_0|].
  apply Z.bits_above_log2; [lia|]. apply Z.log2_lt_pow2; [lia|]. apply Z.lt_le_trans with (2 ^ k); [lia|]. apply Z.pow_le_mono_r; lia.
Qed.
Lemma set_cwp_high : forall w p n, 0 <= w < 32 -> 5 <= n -> Z.testbit (set_cwp w p) n = Z.testbit p n.
Proof.
  intros w p n Hw Hn. unfold set_cwp. rewrite Z.lor_spec, Z.ldiff_spec.
  rewrite (testbit_small w n 5) by lia. rewrite (testbit_small 31 n 5) by lia. now rewrite orb_false_r, andb_true_r.
Qed.
Lemma set_cwp_low : forall w p, 0 <= w < 32 -> Z.land (set_cwp w p) 31 = w.
Proof.
  intros w p Hw. unfold set_cwp. rewrite Z.land_lor_distr_l.
  assert (E : Z.land (Z.ldiff p 31) 31 = 0).
  { apply Z.bits_inj'. intros n Hn. rewrite Z.land_spec, Z.ldiff_spec, Z.bits_0. destruct (Z.testbit p n), (Z.testbit 31 n); reflexivity. }
  rewrite E, Z.lor_0_l, land31. apply Z.mod_small. lia.
Qed.
Lemma low_eq : forall p q, (forall n, 0 <= n < 5 -> Z.testbit p n = Z.testbit q n) -> Z.land p 31 = Z.land q 31.
Proof.
  intros p q H. apply Z.bits_inj'. intros n Hn. rewrite !Z.land_spec. destruct (Z_lt_dec n 5); [rewrite H by lia; reflexivity|].
  rewrite (testbit_small 31 n 5) by lia. now rewrite !andb_false_r.
Qed.
Lemma below_range : forall w, 0 <= below w < 8.
Proof. intros w. unfold below, NW. apply Z.mod_pos_bound. lia. Qed.
Lemma above_range : forall w, 0 <= above w < 8.
Proof. intros w. unfold above, NW. apply Z.mod_pos_bound. lia. Qed.
Lemma below_above : forall w, 0 <= w < 8 -> below (above w) = w.
Proof. intros w Hw. unfold below, above, NW. lia. Qed.
Lemma above_below : forall w, 0 <= w < 8 -> above (below w) = w.
Proof. intros w Hw. unfold below, above, NW. lia. Qed.

(** ** Registers *)
Lemma below_cwp : forall c, below (cwp c) <> cwp c.
Proof. intros c. pose proof (cwp_range c). unfold below, NW. lia. Qed.
Ltac rcase := repeat match goal with
  | |- context [?a =? ?b] => destruct (Z.eqb_spec a b); try lia
  | |- context [?a <? ?b] => destruct (Z.ltb_spec a b); try lia end.
Lemma proj_set_reg : forall r v c, psr (set_reg r v c) = psr c /\ wim (set_reg r v c) = wim c /\ yreg (set_reg r v c) = yreg c /\
  pc (set_reg r v c) = pc c /\ npc (set_reg r v c) = npc c /\ mem (set_reg r v c) = mem c /\ acc (set_reg r v c) = acc c.
Proof. intros r v c. unfold set_reg. destruct (r =? 0), (r <? 8), (r <? 16); cbn; repeat split; reflexivity. Qed.
Lemma psr_set : forall r v c, psr (set_reg r v c) = psr c. Proof. intros r v c. apply proj_set_reg. Qed.
Lemma wim_set : forall r v c, wim (set_reg r v c) = wim c. Proof. intros r v c. apply proj_set_reg. Qed.
Lemma y_set : forall r v c, yreg (set_reg r v c) = yreg c. Proof. intros r v c. apply proj_set_reg. Qed.
Lemma pc_set : forall r v c, pc (set_reg r v c) = pc c. Proof. intros r v c. apply proj_set_reg. Qed.
Lemma npc_set : forall r v c, npc (set_reg r v c) = npc c. Proof. intros r v c. apply proj_set_reg. Qed.
Lemma mem_set : forall r v c, mem (set_reg r v c) = mem c. Proof. intros r v c. apply proj_set_reg. Qed.
Lemma acc_set : forall r v c, acc (set_reg r v c) = acc c. Proof. intros r v c. apply proj_set_reg. Qed.
Lemma cwp_set : forall r v c, cwp (set_reg r v c) = cwp c. Proof. intros r v c. unfold cwp. now rewrite psr_set. Qed.
Lemma sup_set : forall r v c, SUP (set_reg r v c) = SUP c. Proof. intros r v c. unfold SUP. now rewrite psr_set. Qed.
Lemma et_set : forall r v c, ET (set_reg r v c) = ET c. Proof. intros r v c. unfold ET. now rewrite psr_set. Qed.
Lemma ps_set : forall r v c, PS (set_reg r v c) = PS c. Proof. intros r v c. unfold PS. now rewrite psr_set. Qed.
Lemma may_set : forall r v c a, may (set_reg r v c) a = may c a. Proof. intros r v c a. unfold may. now rewrite sup_set, acc_set. Qed.
Lemma fine_set : forall r v c n a, fine (set_reg r v c) n a = fine c n a. Proof. intros r v c n a. unfold fine. now rewrite may_set. Qed.
Lemma reg_set : forall r v c r', 1 <= r < 32 -> 0 <= r' < 32 -> reg (set_reg r v c) r' = if r' =? r then v else reg c r'.
Proof.
  intros r v c r' Hr Hr'. pose proof (below_cwp c) as B. unfold reg. rewrite cwp_set. unfold set_reg, upd, upd2.
  rcase; cbn; unfold upd2; rcase; cbn; try reflexivity.
Qed.
Lemma glob_set : forall r v c r', 1 <= r < 32 -> 1 <= r' < 8 -> glob (set_reg r v c) r' = if r' =? r then v else glob c r'.
Proof. intros r v c r' Hr Hr'. unfold set_reg, upd. rcase; cbn; unfold upd; rcase; reflexivity. Qed.
Lemma win_set : forall r v c w r', 1 <= r < 32 ->
  win (set_reg r v c) w r' =
    if (8 <=? r) && (r <? 16) && (w =? below (cwp c)) && (r' =? r + 16) || (16 <=? r) && (w =? cwp c) && (r' =? r) then v else win c w r'.
Proof.
  intros r v c w r' Hr. unfold set_reg.
  destruct (Z.eqb_spec r 0); [lia|]. destruct (Z.ltb_spec r 8); cbn.
  - destruct (Z.leb_spec 8 r); [lia|]. destruct (Z.leb_spec 16 r); [lia|]. reflexivity.
  - destruct (Z.leb_spec 8 r); [|lia]. destruct (Z.ltb_spec r 16); destruct (Z.leb_spec 16 r); try lia; cbn; unfold upd2.
    + now rewrite orb_false_r.
    + reflexivity.
Qed.
Lemma win_set_local : forall r v c w r', 16 <= r < 32 -> win (set_reg r v c) w r' = if (w =? cwp c) && (r' =? r) then v else win c w r'.
Proof.
  intros r v c w r' Hr. rewrite win_set by lia. destruct (Z.leb_spec 8 r); [|lia]. destruct (Z.ltb_spec r 16); [lia|].
  destruct (Z.leb_spec 16 r); [|lia]. reflexivity.
Qed.
Lemma win_set_glob : forall r v c w r', 1 <= r < 8 -> win (set_reg r v c) w r' = win c w r'.
Proof.
  intros r v c w r' Hr. rewrite win_set by lia. destruct (Z.leb_spec 8 r); [lia|]. destruct (Z.leb_spec 16 r); [lia|]. reflexivity.
Qed.
Lemma glob_set_other : forall r v c r', 8 <= r < 32 -> glob (set_reg r v c) r' = glob c r'.
Proof. intros r v c r' Hr. unfold set_reg. rcase; reflexivity. Qed.
Lemma reg_0 : forall c, reg c 0 = 0.
Proof. reflexivity. Qed.
Lemma reg_glob : forall c r, 1 <= r < 8 -> reg c r = glob c r.
Proof. intros c r Hr. unfold reg. rcase; reflexivity. Qed.
Lemma reg_out : forall c r, 8 <= r < 16 -> reg c r = win c (below (cwp c)) (r + 16).
Proof. intros c r Hr. unfold reg. rcase; reflexivity. Qed.
Lemma reg_win : forall c r, 16 <= r < 32 -> reg c r = win c (cwp c) r.
Proof. intros c r Hr. unfold reg. rcase; reflexivity. Qed.

#[global] Hint Rewrite psr_set wim_set y_set pc_set npc_set mem_set acc_set cwp_set sup_set et_set ps_set may_set fine_set : sprj.

(** ** Moving the window *)
Lemma cwp_move : forall w c, 0 <= w < 8 -> cwp (set_psr (set_cwp w (psr c)) c) = w.
Proof. intros w c Hw. unfold cwp. cbn [psr set_psr]. apply set_cwp_low. lia. Qed.

(** ** A window to memory and back *)
Lemma spill_ok : forall c, reg c 14 mod 8 = 0 -> (forall a, reg c 14 <= a < reg c 14 + 64 -> may c a = true) ->
  exists m, run spill c = Some (set_mem m c) /\
    (forall r, 16 <= r < 32 -> m (reg c 14 + 4 * (r - 16)) = reg c r) /\
    (forall a, ~ reg c 14 <= a < reg c 14 + 64 -> m a = mem c a).
Proof.
  intros c Hal Hmay.
  assert (F : forall off, 0 <= off < 64 -> off mod 8 = 0 -> forall m, fine (set_mem m c) 8 (reg (set_mem m c) 14 + off) = true).
  { intros off Ho Hm m. change (reg (set_mem m c) 14) with (reg c 14). unfold fine. change (may (set_mem m c)) with (may c).
    rewrite Hmay by lia. rewrite andb_true_r. apply Z.eqb_eq. clear - Hal Hm. lia. }
  assert (St : forall off r m, 0 <= off < 64 -> off mod 8 = 0 ->
    exec (Std r 14 off) (set_mem m c) = Some (set_mem (upd (upd m (reg c 14 + off) (reg c r)) (reg c 14 + off + 4) (reg c (r + 1))) c)).
  { intros off r m Ho Hm. unfold exec. rewrite F by assumption. reflexivity. }
  assert (E0 : c = set_mem (mem c) c) by (destruct c; reflexivity).
  eexists. split.
  - unfold spill. rewrite E0 at 1. cbn [run]. rewrite (St 0 16) by (reflexivity || lia). rewrite (St 8 18) by (reflexivity || lia).
    rewrite (St 16 20) by (reflexivity || lia). rewrite (St 24 22) by (reflexivity || lia). rewrite (St 32 24) by (reflexivity || lia).
    rewrite (St 40 26) by (reflexivity || lia). rewrite (St 48 28) by (reflexivity || lia). rewrite (St 56 30) by (reflexivity || lia). reflexivity.
  - clear. set (s := reg c 14). clearbody s. split.
    + intros r Hr. assert (C : r = 16 \/ r = 17 \/ r = 18 \/ r = 19 \/ r = 20 \/ r = 21 \/ r = 22 \/ r = 23 \/ r = 24 \/ r = 25 \/ r = 26 \/ r = 27 \/
        r = 28 \/ r = 29 \/ r = 30 \/ r = 31) by lia.
      unfold upd. repeat (destruct C as [-> | C]; [rcase; reflexivity|]). subst r. rcase; reflexivity.
    + intros a Ha. unfold upd. rcase; reflexivity.
Qed.

Definition loaded (c : sparc) (m : Z -> Z) (k : Z) : Z -> Z -> Z :=
  fun w r => if (w =? cwp c) && (16 <=? r) && (r <? k) then m (reg c 14 + 4 * (r - 16)) else win c w r.
Lemma fill_ok : forall c, reg c 14 mod 8 = 0 -> (forall a, reg c 14 <= a < reg c 14 + 64 -> may c a = true) ->
  exists w', run fill c = Some (set_win w' c) /\
    (forall w r, 16 <= r < 32 -> w' w r = if w =? cwp c then mem c (reg c 14 + 4 * (r - 16)) else win c w r).
Proof.
  intros c Hal Hmay.
  set (sp := reg c 14) in *.
  assert (St : forall off r w, 0 <= off < 64 -> off mod 8 = 0 -> 16 <= r < 31 -> w (below (cwp c)) 30 = sp ->
    exists w', exec (Ldd 14 off r) (set_win w c) = Some (set_win w' c) /\ w' (below (cwp c)) 30 = sp /\
      forall x y, w' x y = if (x =? cwp c) && (y =? r) then mem c (sp + off) else if (x =? cwp c) && (y =? r + 1) then mem c (sp + off + 4) else w x y).
  { intros off r w Ho Hm Hr Hs. pose proof (below_cwp c) as B.
    assert (R : reg (set_win w c) 14 = sp) by (rewrite reg_out by lia; exact Hs).
    exists (upd2 (upd2 w (cwp c) r (mem c (sp + off))) (cwp c) (r + 1) (mem c (sp + off + 4))). split; [|split].
    - unfold exec. rewrite R. unfold fine. change (may (set_win w c)) with (may c). rewrite Hmay by lia.
      replace ((sp + off) mod 8) with 0 by (clear - Hal Hm; lia). cbn [Z.eqb andb]. unfold set_reg.
      destruct (Z.eqb_spec (r + 1) 0); [lia|]. destruct (Z.ltb_spec (r + 1) 8); [lia|]. destruct (Z.ltb_spec (r + 1) 16); [lia|].
      destruct (Z.eqb_spec r 0); [lia|]. destruct (Z.ltb_spec r 8); [lia|]. destruct (Z.ltb_spec r 16); [lia|]. reflexivity.
    - unfold upd2. destruct (Z.eqb_spec (below (cwp c)) (cwp c)); [congruence|]. exact Hs.
    - intros x y. unfold upd2. destruct (Z.eqb_spec x (cwp c)); cbn [andb]; [|reflexivity].
      destruct (Z.eqb_spec y (r + 1)); destruct (Z.eqb_spec y r); try reflexivity; lia. }
  assert (E0 : c = set_win (win c) c) by (destruct c; reflexivity).
  assert (H0 : win c (below (cwp c)) 30 = sp) by (unfold sp; now rewrite reg_out by lia).
  cut (exists w', run fill (set_win (win c) c) = Some (set_win w' c) /\
    (forall w r, 16 <= r < 32 -> w' w r = if w =? cwp c then mem c (sp + 4 * (r - 16)) else win c w r)).
  { intros (w' & E & P). exists w'. split; [|exact P]. rewrite <- E0 in E. exact E. }
  unfold fill. cbn [run].
  destruct (St 0 16 (win c)) as (w1 & E1 & H1 & P1); [lia|reflexivity|lia|exact H0|]. rewrite E1.
  destruct (St 8 18 w1) as (w2 & E2 & H2 & P2); [lia|reflexivity|lia|exact H1|]. rewrite E2.
  destruct (St 16 20 w2) as (w3 & E3 & H3 & P3); [lia|reflexivity|lia|exact H2|]. rewrite E3.
  destruct (St 24 22 w3) as (w4 & E4 & H4 & P4); [lia|reflexivity|lia|exact H3|]. rewrite E4.
  destruct (St 32 24 w4) as (w5 & E5 & H5 & P5); [lia|reflexivity|lia|exact H4|]. rewrite E5.
  destruct (St 40 26 w5) as (w6 & E6 & H6 & P6); [lia|reflexivity|lia|exact H5|]. rewrite E6.
  destruct (St 48 28 w6) as (w7 & E7 & H7 & P7); [lia|reflexivity|lia|exact H6|]. rewrite E7.
  destruct (St 56 30 w7) as (w8 & E8 & H8 & P8); [lia|reflexivity|lia|exact H7|]. rewrite E8.
  exists w8. split; [reflexivity|]. intros w r Hr. rewrite P8, P7, P6, P5, P4, P3, P2, P1.
  destruct (Z.eqb_spec w (cwp c)); cbn [andb]; [|reflexivity].
  assert (C : r = 16 \/ r = 17 \/ r = 18 \/ r = 19 \/ r = 20 \/ r = 21 \/ r = 22 \/ r = 23 \/ r = 24 \/ r = 25 \/ r = 26 \/ r = 27 \/
        r = 28 \/ r = 29 \/ r = 30 \/ r = 31) by lia.
  clear - C. repeat (destruct C as [-> | C]; [cbn; f_equal; lia|]). subst r. cbn. f_equal. lia.
Qed.

(** ** The window traps *)
Lemma run_app : forall l1 l2 c, run (l1 ++ l2) c = match run l1 c with None => None | Some c' => run l2 c' end.
Proof. induction l1 as [|i l1 IH]; intros l2 c; [reflexivity|]. cbn [app run]. destruct (exec i c); [apply IH|reflexivity]. Qed.
Ltac eqbs := cbn [Z.eqb Pos.eqb].
Ltac regs := repeat first [rewrite reg_set by lia; eqbs | rewrite glob_set_other by lia | rewrite glob_set by lia].
Lemma reg_move : forall p c r, 1 <= r < 8 -> reg (set_psr p c) r = reg c r.
Proof. intros p c r Hr. rewrite !reg_glob by lia. reflexivity. Qed.

Lemma overflow_head : forall c, Z.testbit (wim c) (below (cwp c)) = false ->
  exists c', run [Rdwim 19; Mov 23 1; Srl 1 19 1; Sll 20 19 7; Or 1 20 1; Save; Wrwim 1] c = Some c' /\
    psr c' = set_cwp (below (cwp c)) (psr c) /\ wim c' = Z.land (Z.lor (u32 (wim c * 2 ^ 7)) (wim c / 2 ^ 1)) 255 /\
    yreg c' = yreg c /\ pc c' = pc c /\ npc c' = npc c /\ mem c' = mem c /\ acc c' = acc c /\
    (forall r, 2 <= r < 8 -> glob c' r = glob c r) /\
    (forall w r, w <> cwp c \/ r <> 19 /\ r <> 20 /\ r <> 23 -> win c' w r = win c w r) /\
    win c' (cwp c) 23 = glob c 1.
Proof.
  intros c H. eexists. split.
  - cbn [run exec]. autorewrite with sprj. rewrite H. reflexivity.
  - cbn [psr wim yreg pc npc mem acc glob win set_psr set_wim]. autorewrite with sprj.
    repeat split.
    + rewrite reg_move by lia. rewrite reg_set by lia. eqbs. regs. reflexivity.
    + intros r Hr. regs. destruct (Z.eqb_spec r 1); [lia|]. regs. destruct (Z.eqb_spec r 1); [lia|]. regs. reflexivity.
    + intros w r Hw. rewrite win_set_glob by lia. rewrite win_set_local by lia. rewrite win_set_glob by lia.
      rewrite !win_set_local by lia. autorewrite with sprj.
      destruct (Z.eqb_spec w (cwp c)); cbn [andb]; [|reflexivity].
      destruct (Z.eqb_spec r 20); [lia|]. destruct (Z.eqb_spec r 23); [lia|]. destruct (Z.eqb_spec r 19); [lia|]. reflexivity.
    + rewrite win_set_glob by lia. rewrite win_set_local by lia. rewrite win_set_glob by lia.
      rewrite win_set_local by lia. autorewrite with sprj. rewrite Z.eqb_refl. eqbs. cbn [andb].
      regs. apply reg_glob. lia.
Qed.

(** The bits of WIM. *)
Lemma pow8 : forall i, 0 <= i < 8 -> i = 0 \/ i = 1 \/ i = 2 \/ i = 3 \/ i = 4 \/ i = 5 \/ i = 6 \/ i = 7.
Proof. intros i Hi. lia. Qed.
Ltac eight H := apply pow8 in H; repeat (destruct H as [-> | H]); try subst.
Lemma rotate_right : forall i, 0 <= i < 8 -> Z.land (Z.lor (u32 (2 ^ i * 2 ^ 7)) (2 ^ i / 2 ^ 1)) 255 = 2 ^ below i.
Proof. intros i H. eight H; reflexivity. Qed.
Lemma rotate_left : forall i, 0 <= i < 8 -> Z.land (Z.lor (2 ^ i / 2 ^ 7) (u32 (2 ^ i * 2 ^ 1))) 255 = 2 ^ above i.
Proof. intros i H. eight H; reflexivity. Qed.
Lemma wim_bit : forall i w, 0 <= i < 8 -> 0 <= w < 8 -> Z.testbit (2 ^ i) w = (i =? w).
Proof. intros i w Hi Hw. apply Z.pow2_bits_eqb. lia. Qed.

(** What rett makes of the state register. *)
Definition rett_psr (w p : Z) : Z :=
  Z.lor (if Z.testbit p 6 then Z.lor (set_cwp w p) 128 else Z.ldiff (set_cwp w p) 128) 32.
Lemma rett_ok : forall a b c, ET c = false -> SUP c = true -> Z.testbit (wim c) (above (cwp c)) = false ->
  exec (JmpRett a b) c = Some (set_pcs (reg c a) (reg c b) (set_psr (rett_psr (above (cwp c)) (psr c)) c)).
Proof. intros a b c HE HS HW. unfold exec. rewrite HE, HS, HW. reflexivity. Qed.
Lemma bit128 : forall n, 0 <= n -> Z.testbit 128 n = (n =? 7).
Proof. intros n Hn. change 128 with (2 ^ 7). rewrite Z.pow2_bits_eqb by lia. apply Z.eqb_sym. Qed.
Lemma bit64 : forall n, 0 <= n -> Z.testbit 64 n = (n =? 6).
Proof. intros n Hn. change 64 with (2 ^ 6). rewrite Z.pow2_bits_eqb by lia. apply Z.eqb_sym. Qed.
Lemma bit32 : forall n, 0 <= n -> Z.testbit 32 n = (n =? 5).
Proof. intros n Hn. change 32 with (2 ^ 5). rewrite Z.pow2_bits_eqb by lia. apply Z.eqb_sym. Qed.
Lemma rett_psr_bit : forall w p n, 0 <= w < 8 -> 5 <= n ->
  Z.testbit (rett_psr w p) n = if n =? 5 then true else if n =? 7 then Z.testbit p 6 else Z.testbit p n.
Proof.
  intros w p n Hw Hn. unfold rett_psr. rewrite Z.lor_spec, bit32 by lia.
  destruct (Z.eqb_spec n 5); [now rewrite orb_true_r|]. rewrite orb_false_r.
  destruct (Z.testbit p 6) eqn:E6; [rewrite Z.lor_spec|rewrite Z.ldiff_spec]; rewrite bit128, set_cwp_high by lia;
    destruct (Z.eqb_spec n 7); cbn [negb]; rewrite ?orb_true_r, ?orb_false_r, ?andb_false_r, ?andb_true_r; reflexivity.
Qed.
Lemma rett_psr_cwp : forall w p, 0 <= w < 8 -> Z.land (rett_psr w p) 31 = w.
Proof.
  intros w p Hw. rewrite <- (set_cwp_low w p) at 2 by lia. apply low_eq. intros n Hn. unfold rett_psr.
  rewrite Z.lor_spec, bit32 by lia. destruct (Z.eqb_spec n 5); [lia|]. rewrite orb_false_r.
  destruct (Z.testbit p 6); [rewrite Z.lor_spec|rewrite Z.ldiff_spec]; rewrite bit128 by lia; destruct (Z.eqb_spec n 7); try lia; cbn [negb];
    now rewrite ?orb_false_r, ?andb_true_r.
Qed.
Lemma trap_psr_bit : forall p n, 0 <= n ->
  Z.testbit (trap_psr p) n = if n =? 5 then false else if n =? 6 then Z.testbit p 7 else if n =? 7 then true else Z.testbit p n.
Proof.
  intros p n Hn. unfold trap_psr. rewrite Z.lor_spec, bit128 by lia.
  destruct (Z.testbit p 7) eqn:E7; rewrite ?Z.lor_spec, ?Z.ldiff_spec, ?bit64, ?bit32 by lia;
    destruct (Z.eqb_spec n 5); destruct (Z.eqb_spec n 6); destruct (Z.eqb_spec n 7); try lia; cbn [negb];
    rewrite ?orb_true_r, ?orb_false_r, ?andb_false_r, ?andb_true_r; reflexivity.
Qed.

(** The state in which a trap handler begins. *)
Lemma trap_ok : forall c, 0 <= cwp c < 8 ->
  cwp (trap c) = below (cwp c) /\ psr (trap c) = set_cwp (below (cwp c)) (trap_psr (psr c)) /\ wim (trap c) = wim c /\ yreg (trap c) = yreg c /\
  mem (trap c) = mem c /\ acc (trap c) = acc c /\ (forall r, glob (trap c) r = glob c r) /\
  (forall w r, w <> below (cwp c) \/ 24 <= r -> win (trap c) w r = win c w r) /\
  win (trap c) (below (cwp c)) 17 = pc c /\ win (trap c) (below (cwp c)) 18 = npc c.
Proof.
  intros c Hc. pose proof (below_range (cwp c)) as B. set (t := below (cwp c)) in *.
  assert (E : cwp (trap c) = t).
  { unfold trap. autorewrite with sprj. unfold cwp at 1. cbn [psr set_psr]. apply set_cwp_low. unfold t. lia. }
  split; [exact E|]. unfold trap in *. rewrite !cwp_set in E.
  set (p := set_psr _ c) in *. do 5 (split; [autorewrite with sprj; reflexivity|]). split; [|split; [|split]].
  - intros r. regs. reflexivity.
  - intros w r Hw. rewrite !win_set_local by lia. autorewrite with sprj. rewrite E.
    destruct (Z.eqb_spec w t); cbn [andb]; [|reflexivity]. destruct (Z.eqb_spec r 18); [lia|]. destruct (Z.eqb_spec r 17); [lia|]. reflexivity.
  - rewrite !win_set_local by lia. autorewrite with sprj. rewrite E, Z.eqb_refl. reflexivity.
  - rewrite !win_set_local by lia. autorewrite with sprj. rewrite E, Z.eqb_refl. reflexivity.
Qed.

Lemma may_sup : forall c a, SUP c = true -> 1 <= acc c a -> may c a = true.
Proof. intros c a HS Ha. unfold may. rewrite HS. apply Z.leb_le. exact Ha. Qed.

Lemma overflow_ok : forall c, windows c -> invalid c = below (cwp c) ->
  win c ((cwp c + 5) mod 8) 30 mod 8 = 0 -> (forall a, win c ((cwp c + 5) mod 8) 30 <= a < win c ((cwp c + 5) mod 8) 30 + 64 -> 1 <= acc c a) ->
  exists c', run overflow (trap c) = Some c' /\ cwp c' = cwp c /\ wim c' = 2 ^ ((cwp c + 6) mod 8) /\ same_rest c c' /\
    (forall r, 1 <= r < 8 -> glob c' r = glob c r) /\
    (forall w r, w <> below (cwp c) \/ 24 <= r -> win c' w r = win c w r) /\
    (forall r, 16 <= r < 32 -> mem c' (win c ((cwp c + 5) mod 8) 30 + 4 * (r - 16)) = win c ((cwp c + 6) mod 8) r) /\
    (forall a, ~ win c ((cwp c + 5) mod 8) 30 <= a < win c ((cwp c + 5) mod 8) 30 + 64 -> mem c' a = mem c a).
Proof.
  intros c (Hc & Hi & Hw & Hne & HET) Hinv Hal Hacc. unfold NW in *. set (s := win c ((cwp c + 5) mod 8) 30) in *.
  destruct (trap_ok c Hc) as (C0 & P0 & W0 & Y0 & M0 & A0 & G0 & V0 & L1 & L2). set (t := below (cwp c)) in *. set (c0 := trap c) in *.
  assert (Ht : 0 <= t < 8) by apply below_range.
  assert (Hb : 0 <= below t < 8) by apply below_range.
  assert (Et : below t = (cwp c + 6) mod 8) by (unfold t, below, NW; clear - Hc; lia).
  assert (Nt : below t <> t) by (unfold below, NW; clear - Ht; lia).
  assert (Es : below (below t) = (cwp c + 5) mod 8) by (unfold t, below, NW; clear - Hc; lia).
  assert (Ns : (cwp c + 5) mod 8 <> t) by (rewrite <- Es; unfold below, NW; clear - Ht; lia).
  assert (Na : above t = cwp c) by (unfold t; apply above_below; exact Hc).
  assert (B0 : forall n, 0 <= n -> 5 <= n -> Z.testbit (psr c0) n = Z.testbit (trap_psr (psr c)) n).
  { intros n _ Hn. rewrite P0. apply set_cwp_high; lia. }
  destruct (overflow_head c0) as (c1 & R1 & P1 & W1 & Y1 & PC1 & NPC1 & M1 & A1 & G1 & V1 & K1).
  { rewrite W0, C0, Hw, Hinv, wim_bit by lia. apply Z.eqb_neq. lia. }
  rewrite C0 in P1, V1, K1. rewrite W0, Hw, Hinv, rotate_right in W1 by lia.
  assert (C1 : cwp c1 = below t) by (unfold cwp; rewrite P1; apply set_cwp_low; lia).
  assert (B1 : forall n, 5 <= n -> Z.testbit (psr c1) n = Z.testbit (trap_psr (psr c)) n).
  { intros n Hn. rewrite P1, set_cwp_high by lia. apply B0; lia. }
  assert (S1 : SUP c1 = true) by (unfold SUP; rewrite B1 by lia; now rewrite trap_psr_bit by lia).
  assert (SP : reg c1 14 = s).
  { rewrite reg_out by lia. rewrite C1, Es. cbn [Z.add]. change (14 + 16) with 30. rewrite V1 by lia. rewrite V0 by lia. reflexivity. }
  destruct (spill_ok c1) as (m & R2 & Min & Mout).
  { rewrite SP. exact Hal. }
  { rewrite SP. intros a Ha. apply may_sup; [exact S1|]. rewrite A1, A0. apply Hacc. exact Ha. }
  rewrite SP in Min, Mout.
  (* back in the window of the trap *)
  set (c2 := set_psr (set_cwp (above (below t)) (psr c1)) (set_mem m c1)).
  assert (R3 : exec Restore (set_mem m c1) = Some c2).
  { unfold exec. change (wim (set_mem m c1)) with (wim c1). change (cwp (set_mem m c1)) with (cwp c1). rewrite W1, C1, wim_bit.
    - rewrite above_below by lia. destruct (Z.eqb_spec (below t) t); [lia|]. unfold c2. rewrite above_below by lia. reflexivity.
    - lia.
    - apply above_range. }
  assert (C2 : cwp c2 = t) by (unfold c2, cwp; cbn [psr set_psr set_mem]; rewrite set_cwp_low by (pose proof (above_range (below t)); lia); apply above_below; lia).
  assert (B2 : forall n, 5 <= n -> Z.testbit (psr c2) n = Z.testbit (trap_psr (psr c)) n).
  { intros n Hn. unfold c2. cbn [psr set_psr set_mem]. pose proof (above_range (below t)). rewrite set_cwp_high by lia. apply B1. lia. }
  set (c3 := set_reg 1 (reg c2 23) c2).
  assert (R4 : exec (Mov 1 23) c2 = Some c3) by reflexivity.
  assert (C3 : cwp c3 = t) by (unfold c3; now rewrite cwp_set).
  assert (B3 : forall n, 5 <= n -> Z.testbit (psr c3) n = Z.testbit (trap_psr (psr c)) n) by (intros n Hn; unfold c3; rewrite psr_set; apply B2; exact Hn).
  assert (R5 : exec (JmpRett 17 18) c3 = Some (set_pcs (reg c3 17) (reg c3 18) (set_psr (rett_psr (above (cwp c3)) (psr c3)) c3))).
  { apply rett_ok.
    - unfold ET. rewrite B3 by lia. now rewrite trap_psr_bit by lia.
    - unfold SUP. rewrite B3 by lia. now rewrite trap_psr_bit by lia.
    - rewrite C3, Na. unfold c3. rewrite wim_set. change (wim c2) with (wim c1). rewrite W1, wim_bit by lia. apply Z.eqb_neq.
      rewrite Et. clear - Hc. lia. }
  rewrite C3, Na in R5.
  eexists. split; [|split; [|split; [|split; [|split; [|split; [|split]]]]]].
  - unfold overflow. rewrite run_app, R1, run_app, R2. cbn [run]. rewrite R3, R4, R5. reflexivity.
  - unfold cwp at 1. cbn [psr set_pcs set_psr]. apply rett_psr_cwp. lia.
  - cbn [wim set_pcs set_psr]. unfold c3. rewrite wim_set. change (wim c2) with (wim c1). rewrite W1, Et. reflexivity.
  - unfold same_rest. cbn [psr yreg pc npc acc set_pcs set_psr]. split; [|split; [|split; [|split]]].
    + intros n Hn N6. rewrite rett_psr_bit, !B3 by lia. rewrite !trap_psr_bit by lia. eqbs.
      destruct (Z.eqb_spec n 5) as [-> |]; [exact (eq_sym HET)|]. destruct (Z.eqb_spec n 6); [lia|]. destruct (Z.eqb_spec n 7) as [-> |]; reflexivity.
    + unfold c3. rewrite y_set. change (yreg c2) with (yreg c1). rewrite Y1, Y0. reflexivity.
    + rewrite reg_win by lia. rewrite C3. unfold c3. rewrite win_set_glob by lia. change (win c2) with (win c1). rewrite V1 by lia. exact L1.
    + rewrite reg_win by lia. rewrite C3. unfold c3. rewrite win_set_glob by lia. change (win c2) with (win c1). rewrite V1 by lia. exact L2.
    + intros a. unfold c3. rewrite acc_set. change (acc c2) with (acc c1). rewrite A1, A0. reflexivity.
  - intros r Hr. cbn [glob set_pcs set_psr]. unfold c3. rewrite glob_set by lia. destruct (Z.eqb_spec r 1) as [-> |].
    + rewrite reg_win by lia. rewrite C2. change (win c2) with (win c1). rewrite K1. apply G0.
    + change (glob c2) with (glob c1). rewrite G1 by lia. apply G0.
  - intros w r Hwr. cbn [win set_pcs set_psr]. unfold c3. rewrite win_set_glob by lia. change (win c2) with (win c1).
    rewrite V1 by lia. apply V0. lia.
  - intros r Hr. cbn [mem set_pcs set_psr]. unfold c3. rewrite mem_set. change (mem c2) with m. rewrite Min by lia.
    rewrite reg_win by lia. rewrite C1, Et. rewrite V1 by lia. apply V0. lia.
  - intros a Ha. cbn [mem set_pcs set_psr]. unfold c3. rewrite mem_set. change (mem c2) with m. rewrite Mout by exact Ha. rewrite M1, M0. reflexivity.
Qed.

Lemma underflow_head : forall c, wim c = 2 ^ above (above (cwp c)) -> 0 <= cwp c < 8 ->
  exists c', run [Rdwim 19; Sll 20 19 1; Srl 21 19 7; Or 21 21 20; Wrwim 21; Restore; Restore] c = Some c' /\
    psr c' = set_cwp (above (above (cwp c))) (set_cwp (above (cwp c)) (psr c)) /\ wim c' = 2 ^ above (above (above (cwp c))) /\
    yreg c' = yreg c /\ mem c' = mem c /\ acc c' = acc c /\ (forall r, glob c' r = glob c r) /\
    (forall w r, w <> cwp c \/ r <> 19 /\ r <> 20 /\ r <> 21 -> win c' w r = win c w r).
Proof.
  intros c Hw Hc. pose proof (above_range (cwp c)) as A1. pose proof (above_range (above (cwp c))) as A2.
  pose proof (above_range (above (above (cwp c)))) as A3.
  set (c1 := set_reg 21 (Z.lor (wim c / 2 ^ 7) (u32 (wim c * 2 ^ 1))) (set_reg 21 (wim c / 2 ^ 7) (set_reg 20 (u32 (wim c * 2 ^ 1)) (set_reg 19 (wim c) c)))).
  assert (R1 : run [Rdwim 19; Sll 20 19 1; Srl 21 19 7; Or 21 21 20] c = Some c1).
  { cbn [run exec]. regs. reflexivity. }
  assert (C1 : cwp c1 = cwp c) by (unfold c1; autorewrite with sprj; reflexivity).
  assert (P1 : psr c1 = psr c) by (unfold c1; autorewrite with sprj; reflexivity).
  set (c2 := set_wim (2 ^ above (above (above (cwp c)))) c1).
  assert (R2 : exec (Wrwim 21) c1 = Some c2).
  { unfold exec, c2. unfold c1 at 1. regs. rewrite Hw, rotate_left by lia. reflexivity. }
  set (c3 := set_psr (set_cwp (above (cwp c)) (psr c)) c2).
  assert (R3 : exec Restore c2 = Some c3).
  { unfold exec. change (cwp c2) with (cwp c1). rewrite C1. change (wim c2) with (2 ^ above (above (above (cwp c)))). rewrite wim_bit by lia.
    destruct (Z.eqb_spec (above (above (above (cwp c)))) (above (cwp c))) as [E|E]; [exfalso; unfold above, NW in E; clear - E Hc; lia|].
    unfold c3. change (psr c2) with (psr c1). rewrite P1. reflexivity. }
  assert (C3 : cwp c3 = above (cwp c)) by (unfold cwp at 1, c3; cbn [psr set_psr]; apply set_cwp_low; lia).
  set (c4 := set_psr (set_cwp (above (above (cwp c))) (set_cwp (above (cwp c)) (psr c))) c3).
  assert (R4 : exec Restore c3 = Some c4).
  { unfold exec. rewrite C3. change (wim c3) with (2 ^ above (above (above (cwp c)))). rewrite wim_bit by lia.
    destruct (Z.eqb_spec (above (above (above (cwp c)))) (above (above (cwp c)))) as [E|E]; [exfalso; unfold above, NW in E; clear - E Hc; lia|]. reflexivity. }
  exists c4. split.
  - change [Rdwim 19; Sll 20 19 1; Srl 21 19 7; Or 21 21 20; Wrwim 21; Restore; Restore] with
      ([Rdwim 19; Sll 20 19 1; Srl 21 19 7; Or 21 21 20] ++ [Wrwim 21; Restore; Restore]).
    rewrite run_app, R1. cbn [run]. rewrite R2, R3, R4. reflexivity.
  - split; [reflexivity|]. split; [reflexivity|]. unfold c4, c3, c2. cbn [yreg mem acc glob win set_psr set_wim]. unfold c1.
    split; [autorewrite with sprj; reflexivity|]. split; [autorewrite with sprj; reflexivity|]. split; [autorewrite with sprj; reflexivity|].
    split; [intros r; regs; reflexivity|].
    intros w r Hr. rewrite !win_set_local by lia. autorewrite with sprj. destruct (Z.eqb_spec w (cwp c)); cbn [andb]; [|reflexivity].
    destruct (Z.eqb_spec r 21); [lia|]. destruct (Z.eqb_spec r 20); [lia|]. destruct (Z.eqb_spec r 19); [lia|]. reflexivity.
Qed.

Lemma underflow_ok : forall c, windows c -> invalid c = above (cwp c) ->
  win c (cwp c) 30 mod 8 = 0 -> (forall a, win c (cwp c) 30 <= a < win c (cwp c) 30 + 64 -> 1 <= acc c a) ->
  exists c', run underflow (trap c) = Some c' /\ cwp c' = cwp c /\ wim c' = 2 ^ ((cwp c + 2) mod 8) /\ same_rest c c' /\
    (forall r, 1 <= r < 8 -> glob c' r = glob c r) /\
    (forall w r, w <> above (cwp c) -> w <> below (cwp c) \/ 24 <= r -> 16 <= r < 32 -> win c' w r = win c w r) /\
    (forall r, 16 <= r < 32 -> win c' (above (cwp c)) r = mem c (win c (cwp c) 30 + 4 * (r - 16))) /\
    (forall a, mem c' a = mem c a).
Proof.
  intros c (Hc & Hi & Hw & Hne & HET) Hinv Hal Hacc. unfold NW in *. set (s := win c (cwp c) 30) in *.
  destruct (trap_ok c Hc) as (C0 & P0 & W0 & Y0 & M0 & A0 & G0 & V0 & L1 & L2). set (t := below (cwp c)) in *. set (c0 := trap c) in *.
  assert (Ht : 0 <= t < 8) by apply below_range.
  assert (E1 : above t = cwp c) by (unfold t; apply above_below; exact Hc).
  pose proof (above_range (cwp c)) as A2. pose proof (above_range (above (cwp c))) as A3.
  assert (B0 : forall n, 5 <= n -> Z.testbit (psr c0) n = Z.testbit (trap_psr (psr c)) n).
  { intros n Hn. rewrite P0. apply set_cwp_high; lia. }
  assert (Nt : above (cwp c) <> t) by (unfold t, above, below, NW; clear - Hc; lia).
  assert (Nc : cwp c <> t) by (intros E; exact (below_cwp c (eq_sym E))).
  assert (N3 : above (above (cwp c)) <> t /\ above (above (cwp c)) <> cwp c) by (unfold t, above, below, NW; clear - Hc; lia).
  destruct (underflow_head c0) as (c1 & R1 & P1 & W1 & Y1 & M1 & Ac1 & G1 & V1).
  { rewrite W0, C0, E1, <- Hinv. exact Hw. }
  { lia. }
  rewrite C0, E1 in P1, W1. rewrite C0 in V1.
  assert (C1 : cwp c1 = above (cwp c)) by (unfold cwp at 1; rewrite P1; apply set_cwp_low; lia).
  assert (B1 : forall n, 5 <= n -> Z.testbit (psr c1) n = Z.testbit (trap_psr (psr c)) n).
  { intros n Hn. rewrite P1, !set_cwp_high by lia. apply B0; lia. }
  assert (S1 : SUP c1 = true) by (unfold SUP; rewrite B1 by lia; now rewrite trap_psr_bit by lia).
  assert (SP : reg c1 14 = s).
  { rewrite reg_out by lia. rewrite C1, below_above by lia. change (14 + 16) with 30. rewrite V1 by lia. rewrite V0 by lia. reflexivity. }
  destruct (fill_ok c1) as (w' & R2 & Pw).
  { rewrite SP. exact Hal. }
  { rewrite SP. intros a Ha. apply may_sup; [exact S1|]. rewrite Ac1, A0. apply Hacc. exact Ha. }
  rewrite SP, C1, M1, M0 in Pw.
  set (c2 := set_win w' c1) in *.
  set (c3 := set_psr (set_cwp (cwp c) (psr c1)) c2).
  assert (R3 : exec Save c2 = Some c3).
  { unfold exec. change (cwp c2) with (cwp c1). change (wim c2) with (wim c1). rewrite C1, W1, below_above, wim_bit by lia.
    destruct (Z.eqb_spec (above (above (cwp c))) (cwp c)); [lia|]. reflexivity. }
  assert (C3 : cwp c3 = cwp c) by (unfold cwp at 1, c3; cbn [psr set_psr]; apply set_cwp_low; lia).
  set (c4 := set_psr (set_cwp t (psr c3)) c3).
  assert (R4 : exec Save c3 = Some c4).
  { unfold exec. rewrite C3. change (wim c3) with (wim c1). rewrite W1, wim_bit by (unfold t in *; lia).
    fold t. destruct (Z.eqb_spec (above (above (cwp c))) t); [lia|]. reflexivity. }
  assert (C4 : cwp c4 = t) by (unfold cwp at 1, c4; cbn [psr set_psr]; apply set_cwp_low; lia).
  assert (B4 : forall n, 5 <= n -> Z.testbit (psr c4) n = Z.testbit (trap_psr (psr c)) n).
  { intros n Hn. unfold c4, c3. cbn [psr set_psr]. rewrite !set_cwp_high by lia. apply B1. lia. }
  assert (R5 : exec (JmpRett 17 18) c4 = Some (set_pcs (reg c4 17) (reg c4 18) (set_psr (rett_psr (above (cwp c4)) (psr c4)) c4))).
  { apply rett_ok.
    - unfold ET. rewrite B4 by lia. now rewrite trap_psr_bit by lia.
    - unfold SUP. rewrite B4 by lia. now rewrite trap_psr_bit by lia.
    - rewrite C4, E1. change (wim c4) with (wim c1). rewrite W1, wim_bit by lia. apply Z.eqb_neq. lia. }
  rewrite C4, E1 in R5.
  assert (V4 : forall w r, w <> above (cwp c) -> w <> t \/ 24 <= r \/ r = 17 \/ r = 18 -> 16 <= r < 32 -> win c4 w r = win c0 w r).
  { intros w r Hn Hr Hr'. change (win c4) with w'. rewrite Pw by exact Hr'. destruct (Z.eqb_spec w (above (cwp c))); [congruence|]. apply V1. clear - Hr. lia. }
  eexists. split; [|split; [|split; [|split; [|split; [|split; [|split]]]]]].
  - unfold underflow. rewrite run_app, R1, run_app, R2. cbn [run]. rewrite R3, R4, R5. reflexivity.
  - unfold cwp at 1. cbn [psr set_pcs set_psr]. apply rett_psr_cwp. lia.
  - cbn [wim set_pcs set_psr]. change (wim c4) with (wim c1). rewrite W1. f_equal. unfold above, NW. clear - Hc. lia.
  - unfold same_rest. cbn [psr yreg pc npc acc set_pcs set_psr]. split; [|split; [|split; [|split]]].
    + intros n Hn N6. rewrite rett_psr_bit, !B4 by lia. rewrite !trap_psr_bit by lia. eqbs.
      destruct (Z.eqb_spec n 5) as [-> |]; [exact (eq_sym HET)|]. destruct (Z.eqb_spec n 6); [lia|]. destruct (Z.eqb_spec n 7) as [-> |]; reflexivity.
    + change (yreg c4) with (yreg c1). rewrite Y1, Y0. reflexivity.
    + rewrite reg_win by lia. rewrite C4, V4; [exact L1|congruence|auto|clear; lia].
    + rewrite reg_win by lia. rewrite C4, V4; [exact L2|congruence|auto|clear; lia].
    + intros a. change (acc c4) with (acc c1). rewrite Ac1, A0. reflexivity.
  - intros r Hr. cbn [glob set_pcs set_psr]. change (glob c4) with (glob c1). rewrite G1. apply G0.
  - intros w r Hn Hwr Hr. cbn [win set_pcs set_psr]. rewrite V4; [apply V0; clear - Hwr; tauto|exact Hn|clear - Hwr; tauto|exact Hr].
  - intros r Hr. cbn [win set_pcs set_psr]. change (win c4) with w'. rewrite Pw by lia. rewrite Z.eqb_refl. reflexivity.
  - intros a. cbn [mem set_pcs set_psr]. change (mem c4) with (mem c1). rewrite M1, M0. reflexivity.
Qed.
