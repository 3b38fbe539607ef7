(** __ieee754_fmodf (libpok/libm/e_fmodf.c) is exact. *)
From Verif Require Import Model.Base Spec.Ieee Spec.LibmSpec Model.Float Model.Libm Model.LibmRoot
  Proof.FloatProof Proof.FloatRound Proof.FloatScale Proof.FloatParts Proof.FloatRoot Proof.LibmfProof Proof.LibmfRint Proof.LibmSign Proof.LibmNext Proof.LibmParts
  Proof.LibmSqrtf.

Lemma shift_out0_log : forall n u ix, 0 < u < 4294967296 -> 32 - Z.log2 u <= Z.of_nat n ->
  shift_out0 n (s32 u) ix = Some (ix - (31 - Z.log2 u)).
Proof.
  induction n as [|n IH]; intros u ix Hu Hn.
  - exfalso. assert (Z.log2 u < 32) by (apply Z.log2_lt_pow2; [lia|]; change (2 ^ 32) with 4294967296; lia). lia.
  - cbn [shift_out0]. destruct (s32_cases u ltac:(change (2 ^ 32) with 4294967296; lia)) as [[A ->]|[A ->]].
    + destruct (Z.leb_spec 0 u); [|lia]. rewrite Z.shiftl_mul_pow2 by lia. change (2 ^ 1) with 2.
      assert (L : Z.log2 (u * 2) = Z.log2 u + 1) by (rewrite Z.mul_comm, Z.log2_double by lia; lia).
      rewrite IH by lia. rewrite L. f_equal. lia.
    + destruct (Z.leb_spec 0 (u - 4294967296)); [lia|].
      assert (Z.log2 u = 31) as -> by (apply Z.log2_unique; [lia|]; change (2 ^ 31) with 2147483648; change (2 ^ Z.succ 31) with 4294967296; lia).
      f_equal. lia.
Qed.

Lemma mod_f_modz : forall n X Y, 0 < Y < 16777216 -> 0 <= X < 2 * Y -> mod_f n X Y = modz n X Y.
Proof.
  induction n as [|n IH]; intros X Y HY HX; [reflexivity|]. cbn [mod_f modz].
  rewrite (s32_id (X - Y)) by lia. destruct (Z.ltb_spec (X - Y) 0).
  - rewrite s32_id by lia. replace (X + X) with (2 * X) by ring. apply IH; lia.
  - destruct (Z.eqb_spec (X - Y) 0); [reflexivity|].
    rewrite s32_id by lia. replace (X - Y + (X - Y)) with (2 * (X - Y)) by ring. apply IH; lia.
Qed.

Lemma up_f_spec : forall n X iy, 0 < X < 16777216 -> 24 - Z.log2 X <= Z.of_nat n ->
  up_f n X iy = Some (X * 2 ^ (23 - Z.log2 X), iy - (23 - Z.log2 X)).
Proof.
  induction n as [|n IH]; intros X iy H Hn.
  - exfalso. assert (Z.log2 X < 24) by (apply Z.log2_lt_pow2; [lia|]; change (2 ^ 24) with 16777216; lia). lia.
  - cbn [up_f]. destruct (Z.ltb_spec X 8388608) as [L|G].
    + rewrite s32_id by lia. replace (X + X) with (2 * X) by ring.
      assert (E : Z.log2 (2 * X) = Z.log2 X + 1) by (rewrite Z.log2_double by lia; lia).
      assert (Z.log2 X < 23) by (apply Z.log2_lt_pow2; [lia|]; change (2 ^ 23) with 8388608; lia).
      rewrite IH by lia. rewrite E. f_equal. f_equal; [|lia].
      replace (23 - Z.log2 X) with (1 + (23 - (Z.log2 X + 1))) by lia. rewrite p2_split by lia. change (2 ^ 1) with 2. lia.
    + assert (Z.log2 X = 23) as -> by (apply Z.log2_unique; [lia|]; change (2 ^ 23) with 8388608; change (2 ^ Z.succ 23) with 16777216; lia).
      change (2 ^ (23 - 23)) with 1. f_equal. f_equal; lia.
Qed.

(** Exponent and mantissa of a nonzero number. *)
Lemma split_f : forall a, 0 < a < 2139095040 ->
  exists e, (if a <? 8388608 then shift_out 32 (s32 (Z.shiftl a 8)) (-126) else Some (Z.shiftr a 23 - 127)) = Some e /\
    (if a <? 8388608 then shift_out0 32 (s32 (Z.shiftl a 8)) (-126) else Some (Z.shiftr a 23 - 127)) = Some e /\
    -149 <= e <= 127 /\ 8388608 <= mant_f a e < 16777216 /\ mag single a * 8388608 = mant_f a e * 2 ^ (e + 126 + 23).
Proof.
  intros a H. destruct (Z.ltb_spec a 8388608) as [L|G].
  - rewrite Z.shiftl_mul_pow2 by lia. change (2 ^ 8) with 256.
    assert (LG : Z.log2 (a * 256) = Z.log2 a + 8) by (change 256 with (2 ^ 8); rewrite Z.log2_mul_pow2 by lia; lia).
    assert (L23 : Z.log2 a < 23) by (apply Z.log2_lt_pow2; [lia|]; change (2 ^ 23) with 8388608; lia). pose proof (Z.log2_nonneg a) as L0.
    rewrite shift_out_log, shift_out0_log by lia. rewrite LG.
    exists (-126 - (31 - (Z.log2 a + 8))). split; [reflexivity|]. split; [reflexivity|]. split; [lia|].
    unfold mant_f. destruct (Z.leb_spec (-126) (-126 - (31 - (Z.log2 a + 8)))); [lia|].
    replace (-126 - (-126 - (31 - (Z.log2 a + 8)))) with (23 - Z.log2 a) by lia.
    replace (-126 - (31 - (Z.log2 a + 8)) + 126 + 23) with (Z.log2 a) by lia.
    rewrite Z.shiftl_mul_pow2 by lia. pose proof (Z.log2_spec a ltac:(lia)) as [S1 S2]. rewrite Z.pow_succ_r in S2 by lia.
    pose proof (p2 (23 - Z.log2 a) ltac:(lia)) as P.
    assert (X : 2 ^ Z.log2 a * 2 ^ (23 - Z.log2 a) = 8388608) by (rewrite <- p2_split by lia; replace (Z.log2 a + (23 - Z.log2 a)) with 23 by lia; reflexivity).
    assert (R : 8388608 <= a * 2 ^ (23 - Z.log2 a) < 16777216) by nia.
    rewrite s32_id by lia. split; [exact R|].
    rewrite (mag_small single s_mb s_eb s_range) by (cbn [mb single]; change (2 ^ 23) with 8388608; lia).
    rewrite <- X. ring.
  - rewrite Z.shiftr_div_pow2 by lia. change (2 ^ 23) with 8388608.
    pose proof (Z.div_mod a 8388608 ltac:(lia)) as D. pose proof (Z.mod_pos_bound a 8388608 ltac:(lia)) as Bd.
    assert (E : 1 <= a / 8388608 <= 254) by lia.
    exists (a / 8388608 - 127). split; [reflexivity|]. split; [reflexivity|]. split; [lia|].
    unfold mant_f. destruct (Z.leb_spec (-126) (a / 8388608 - 127)); [|lia].
    assert (Z.lor 8388608 (Z.land 8388607 a) = 8388608 + a mod 8388608) as ->.
    { rewrite Z.lor_comm, Z.land_comm. exact (hidden a 23 ltac:(lia)). }
    split; [lia|]. rewrite (mag_large single s_mb s_eb s_range) by (cbn [mb single]; change (2 ^ 23) with 8388608; lia).
    cbn [mb single]. change (2 ^ 23) with 8388608.
    replace (a / 8388608 - 127 + 126 + 23) with (a / 8388608 - 1 + 23) by lia. rewrite (p2_split _ 23) by lia. change (2 ^ 23) with 8388608. ring.
Qed.

Lemma sign_of_f : forall x, word single x ->
  s32 (Z.land (u32 (get_float x)) 2147483648) = (if neg single x then -2147483648 else 0) /\
  Z.lxor (get_float x) (if neg single x then -2147483648 else 0) = absw single x.
Proof.
  intros x W. rewrite (s_get_u32 x W). pose proof (proj1 (s_word x) W) as R. change (2 ^ 32) with 4294967296 in R. destruct (s_split x W) as [Ex B].
  rewrite land_sign by exact R. unfold neg. rewrite s_sgnw. split; [destruct (2147483648 <=? x); reflexivity|].
  rewrite (s_get x W). unfold neg. rewrite s_sgnw. destruct (2147483648 <=? x); [|apply Z.lxor_0_r].
  set (a := absw single x) in *. clearbody a. clear - B.
  assert (E : a - 2147483648 = Z.lor (-1 * 2 ^ 31) a) by (rewrite lor_disjoint by (change (2 ^ 31) with 2147483648; lia); change (2 ^ 31) with 2147483648; lia).
  rewrite E. change (-1 * 2 ^ 31) with (-2147483648).
  assert (L : Z.land (-2147483648) a = 0).
  { rewrite Z.land_comm. change (-2147483648) with (Z.lnot (Z.ones 31)). rewrite <- Z.ldiff_land, Z.ldiff_ones_r by lia. rewrite Z.shiftr_div_pow2 by lia. change (2 ^ 31) with 2147483648.
    rewrite Z.div_small by lia. reflexivity. }
  rewrite <- Z.lxor_lor by exact L. rewrite (Z.lxor_comm _ a), Z.lxor_assoc, Z.lxor_nilpotent, Z.lxor_0_r. reflexivity.
Qed.

Lemma f_zero_val : forall s : bool, f_zero (if s then -2147483648 else 0) = sbit single s + 0.
Proof. intros []; reflexivity. Qed.

Lemma pack_sign_f : forall a (s : bool), 0 <= a < 2147483648 -> set_float (Z.lor a (if s then -2147483648 else 0)) = sbit single s + a.
Proof.
  intros a s H. unfold set_float. rewrite u32_lor. replace (u32 (if s then -2147483648 else 0)) with (if s then 2147483648 else 0) by (destruct s; reflexivity).
  rewrite u32_id by (change (2 ^ 32) with 4294967296; lia). rewrite s_sbit. destruct s.
  - change 2147483648 with (1 * 2 ^ 31) at 1. rewrite Z.lor_comm, lor_disjoint by (change (2 ^ 31) with 2147483648; lia). reflexivity.
  - rewrite Z.lor_0_r. reflexivity.
Qed.

Theorem fmodf_spec : forall x y, word single x -> word single y -> finite single x -> finite single y -> ~ is_zero single y ->
  exists r, c_fmodf x y = Some r /\ fmod_of single x y r.
Proof.
  intros x y Wx Wy Fx Fy Ny.
  pose proof (fun b => fmod_result single s_mb s_eb s_range x y b Wx Wy Fy Ny) as RES. rewrite s_sgnw, s_infw in RES.
  destruct (s_split x Wx) as [Ex Bx]. destruct (s_split y Wy) as [_ By]. unfold finite in Fx, Fy. rewrite s_infw in Fx, Fy. unfold is_zero in Ny.
  unfold c_fmodf. cbv zeta. destruct (sign_of_f x Wx) as [S1 S2]. rewrite S1, S2, (s_land_abs y Wy).
  set (a := absw single x) in *. set (b := absw single y) in *. set (s := neg single x) in *.
  destruct (Z.eqb_spec b 0); [contradiction|]. destruct (Z.leb_spec 2139095040 a); [lia|]. destruct (Z.ltb_spec 2139095040 b); [lia|]. cbn [orb].
  pose proof (mag_mono single s_mb s_eb s_range 0 b ltac:(lia) ltac:(lia)) as Pb. rewrite (mag_0 single s_mb s_eb s_range) in Pb.
  pose proof (mag_nonneg single s_mb s_eb s_range a ltac:(lia)) as Pa.
  destruct (Z.ltb_spec a b) as [L|G].
  { exists x. split; [reflexivity|]. rewrite Ex at 2. apply (RES a); [lia|].
    rewrite Z.mod_small; [reflexivity|]. pose proof (mag_mono single s_mb s_eb s_range a b ltac:(lia) ltac:(lia)). lia. }
  assert (RZ : mag single a mod mag single b = 0 -> fmod_of single x y (f_zero (if s then -2147483648 else 0))).
  { intros Z. rewrite f_zero_val. apply (RES 0); [lia|]. rewrite Z. reflexivity. }
  destruct (Z.eqb_spec a b) as [Eq|Nq].
  { eexists. split; [reflexivity|]. apply RZ. rewrite Eq. apply Z.mod_same. lia. }
  destruct (split_f a ltac:(lia)) as (ex & X1 & _ & Hex & HX & MX). destruct (split_f b ltac:(lia)) as (ey & _ & Y1 & Hey & HY & MY).
  rewrite X1, Y1. set (X := mant_f a ex) in *. set (Y := mant_f b ey) in *. clearbody X Y.
  pose proof (mag_mono single s_mb s_eb s_range b a ltac:(lia) ltac:(lia)) as Lab.
  destruct (fmod_scale single s_mb s_eb s_range (mag single a) (mag single b) X Y (ex + 126) (ey + 126)) as [Hn EV];
    [exact MX|exact MY|exact HX|exact HY|cbn [mb single]; lia|cbn [mb single]; lia|exact Lab|].
  replace (ex + 126 - (ey + 126)) with (ex - ey) in EV by lia. cbn [mb single] in EV. change (2 ^ 23) with 8388608 in EV.
  destruct (Z.ltb_spec (ex - ey) 0); [lia|].
  rewrite mod_f_modz by lia. pose proof (modz_spec single s_mb s_eb s_range (Z.to_nat (ex - ey)) X Y ltac:(lia) ltac:(lia)) as MZ.
  rewrite Z2Nat.id in MZ by lia. pose proof (p2 (ey + 126 + 23) ltac:(lia)) as Pe.
  destruct (modz (Z.to_nat (ex - ey)) X Y) as [X'|].
  2:{ eexists. split; [reflexivity|]. apply RZ. rewrite MZ in EV. lia. }
  destruct MZ as [RX' MZ].
  rewrite (s32_id (X' - Y)) by lia.
  assert (ER : (if 0 <=? X' - Y then X' - Y else X') = (X * 2 ^ (ex - ey)) mod Y).
  { rewrite <- MZ. destruct (Z.leb_spec 0 (X' - Y)).
    - apply Z.mod_unique with 1; lia.
    - symmetry. apply Z.mod_small. lia. }
  rewrite ER. pose proof (Z.mod_pos_bound (X * 2 ^ (ex - ey)) Y ltac:(lia)) as RB.
  set (R := (X * 2 ^ (ex - ey)) mod Y) in *. clearbody R. clear ER MZ RX' X'.
  destruct (Z.eqb_spec R 0) as [R0|R0].
  { eexists. split; [reflexivity|]. apply RZ. rewrite R0 in EV. lia. }
  assert (L24 : Z.log2 R < 24) by (apply Z.log2_lt_pow2; [lia|]; change (2 ^ 24) with 16777216; lia). pose proof (Z.log2_nonneg R) as L0.
  rewrite up_f_spec by lia. set (k := 23 - Z.log2 R) in *.
  pose proof (Z.log2_spec R ltac:(lia)) as [T1 T2]. rewrite Z.pow_succ_r in T2 by lia.
  assert (XX : 2 ^ Z.log2 R * 2 ^ k = 8388608) by (rewrite <- p2_split by lia; replace (Z.log2 R + k) with 23 by lia; reflexivity).
  pose proof (p2 k ltac:(lia)) as Pk.
  assert (RA : 8388608 <= R * 2 ^ k < 16777216) by (clear - T1 T2 XX Pk; nia).
  destruct (fmod_shape single s_mb s_eb s_range (mag single a mod mag single b) R k (ey + 126)) as (V0 & W0 & W1 & W2);
    [exact EV|lia|lia|exact RA|cbn [mb single]; lia|].
  cbn [mb single] in W0, W1, W2. change (2 ^ 23) with 8388608 in W1, W2. set (A := R * 2 ^ k) in *. clearbody A.
  destruct (Z.leb_spec (-126) (ey - k)) as [Ge|Lt].
  - assert (Eb : 1 <= ey - k + 127 <= 254) by (clear - Ge Hey L24 k; lia).
    assert (Ab : 0 <= A + (ey + 126 - k) * 8388608 < 2147483648) by (clear - RA Eb; lia).
    assert (E : Z.lor (s32 (A - 8388608)) (s32 (Z.shiftl (ey - k + 127) 23)) = A + (ey + 126 - k) * 8388608).
    { clear - RA Eb. rewrite Z.shiftl_mul_pow2 by lia. change (2 ^ 23) with 8388608. rewrite !s32_id by lia.
      change 8388608 with (2 ^ 23) at 2. rewrite Z.lor_comm, lor_disjoint by (change (2 ^ 23) with 8388608; lia). change (2 ^ 23) with 8388608. lia. }
    rewrite E. rewrite pack_sign_f by exact Ab. eexists. split; [reflexivity|].
    apply RES; [exact Ab|]. rewrite W1 by lia. reflexivity.
  - rewrite Z.shiftr_div_pow2 by lia. replace (-126 - (ey - k)) with (- (ey + 126 - k)) by lia.
    destruct (W2 ltac:(lia)) as [-> VM]. set (v := mag single a mod mag single b) in *.
    rewrite pack_sign_f by lia.
    assert (MV : mag single v = v) by (apply (mag_small single s_mb s_eb s_range); cbn [mb single]; change (2 ^ 23) with 8388608; lia).
    destruct (RES v ltac:(lia) MV) as [Q1 Q2].
    exists (sbit single s + v). split; [|exact Q1]. f_equal.
    exact (fmul_one single s_mb s_eb s_range (sbit single s + v) (proj1 Q1) (proj1 (proj2 Q1))).
Qed.

Theorem fmodf_invalid : forall x y, word single x -> word single y -> is_zero single y \/ ~ finite single x \/ is_nan single y ->
  exists r, c_fmodf x y = Some r /\ is_nan single r.
Proof.
  intros x y Wx Wy H. eexists. split; [|apply (invalid single s_mb s_eb s_range x y Wx Wy H)].
  unfold c_fmodf. cbv zeta. destruct (sign_of_f x Wx) as [S1 S2]. rewrite S1, S2, (s_land_abs y Wy).
  unfold is_zero, finite, is_nan in H. rewrite s_infw in H.
  assert ((absw single y =? 0) || (2139095040 <=? absw single x) || (2139095040 <? absw single y) = true) as ->; [|reflexivity].
  rewrite !orb_true_iff, Z.eqb_eq, Z.leb_le, Z.ltb_lt. lia.
Qed.

(** An infinite divisor leaves a finite number unchanged. *)
Theorem fmodf_inf : forall x y, word single x -> word single y -> finite single x -> is_inf single y -> c_fmodf x y = Some x.
Proof.
  intros x y Wx Wy Fx Iy. unfold c_fmodf. cbv zeta. destruct (sign_of_f x Wx) as [S1 S2]. rewrite S1, S2, (s_land_abs y Wy).
  unfold finite, is_inf in *. rewrite s_infw in *. rewrite Iy. destruct (Z.leb_spec 2139095040 (absw single x)); [lia|]. cbn [orb].
  change (2139095040 =? 0) with false. rewrite Z.ltb_irrefl. cbn [orb]. destruct (Z.ltb_spec (absw single x) 2139095040); [reflexivity|lia].
Qed.
