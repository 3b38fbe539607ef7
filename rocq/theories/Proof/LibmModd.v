(** __ieee754_fmod (libpok/libm/e_fmod.c) is exact. *)
From Verif Require Import Model.Base Spec.Ieee Spec.LibmSpec Model.Float Model.Libm Model.LibmRoot
  Proof.FloatProof Proof.FloatRound Proof.FloatScale Proof.FloatParts Proof.FloatRoot Proof.LibmfProof Proof.LibmfRint Proof.LibmdProof Proof.LibmSign Proof.LibmNext
  Proof.LibmScale Proof.LibmParts Proof.LibmSqrtf Proof.LibmSqrtd.

Notation MM := 4503599627370496.
Notation MM2 := 9007199254740992.

Lemma minus_ge : forall V Y, 0 <= Y <= V -> V < 4611686018427387904 ->
  minus_d (V / B) (V mod B) (Y / B) (Y mod B) = ((V - Y) / B, (V - Y) mod B).
Proof. intros V Y H HV. destruct (sub64 V Y H HV) as [A C]. unfold minus_d. rewrite C. f_equal. exact A. Qed.

Lemma minus_lt : forall V Y, 0 <= V < Y -> Y < 4611686018427387904 ->
  exists h l, minus_d (V / B) (V mod B) (Y / B) (Y mod B) = (h, l) /\ h < 0.
Proof.
  intros V Y H HV. eexists _, _. split; [reflexivity|].
  destruct (dm_of V) as [E1 B1]. destruct (dm_of Y) as [E2 B2].
  set (v1 := V / B) in *. set (v0 := V mod B) in *. set (y1 := Y / B) in *. set (y0 := Y mod B) in *. clearbody v1 v0 y1 y0. subst V Y.
  rewrite (s32_id (v1 - y1)) by lia. destruct (Z.ltb_spec v0 y0); [rewrite s32_id by lia|]; lia.
Qed.

Lemma lift : forall (h : Z) V, 0 <= V -> (V / B <? 0) = false.
Proof. intros h V H. destruct (Z.ltb_spec (V / B) 0); [|reflexivity]. pose proof (Z.div_pos V B H ltac:(lia)). lia. Qed.

Lemma mod_d_modz : forall n V Y, 0 < Y < MM2 -> 0 <= V < 2 * Y ->
  mod_d n (V / B) (V mod B) (Y / B) (Y mod B) = match modz n V Y with Some X => Some (X / B, X mod B) | None => None end.
Proof.
  induction n as [|n IH]; intros V Y HY HV; [reflexivity|]. cbn [mod_d modz].
  destruct (Z.ltb_spec (V - Y) 0).
  - destruct (minus_lt V Y) as (h & l & E & N); [lia|lia|]. rewrite E. destruct (Z.ltb_spec h 0); [|lia].
    rewrite twice_d_spec by lia. apply IH; lia.
  - rewrite minus_ge by lia. rewrite (lift 0) by lia. rewrite or_zero by lia.
    destruct (Z.eqb_spec (V - Y) 0); [reflexivity|]. rewrite twice_d_spec by lia. apply IH; lia.
Qed.

Lemma up_d_spec : forall n V iy, 0 < V < MM2 -> 53 - Z.log2 V <= Z.of_nat n ->
  up_d n (V / B) (V mod B) iy = Some (V * 2 ^ (52 - Z.log2 V) / B, (V * 2 ^ (52 - Z.log2 V)) mod B, iy - (52 - Z.log2 V)).
Proof.
  induction n as [|n IH]; intros V iy H Hn.
  - exfalso. assert (Z.log2 V < 53) by (apply Z.log2_lt_pow2; [lia|]; change (2 ^ 53) with MM2; lia). lia.
  - cbn [up_d].
    assert (C : (V / B <? 1048576) = (V <? MM)).
    { destruct (dm_of V) as [E1 B1]. destruct (Z.ltb_spec (V / B) 1048576); destruct (Z.ltb_spec V MM); lia. }
    rewrite C. destruct (Z.ltb_spec V MM) as [L|G].
    + rewrite twice_d_spec by lia.
      assert (E : Z.log2 (2 * V) = Z.log2 V + 1) by (rewrite Z.log2_double by lia; lia).
      assert (Z.log2 V < 52) by (apply Z.log2_lt_pow2; [lia|]; change (2 ^ 52) with MM; lia).
      rewrite IH by lia. rewrite E.
      assert (Ep : 2 * V * 2 ^ (52 - (Z.log2 V + 1)) = V * 2 ^ (52 - Z.log2 V)).
      { replace (52 - Z.log2 V) with (1 + (52 - (Z.log2 V + 1))) by lia. rewrite p2_split by lia. change (2 ^ 1) with 2. ring. }
      rewrite Ep. replace (iy - 1 - (52 - (Z.log2 V + 1))) with (iy - (52 - Z.log2 V)) by ring. reflexivity.
    + assert (Z.log2 V = 52) as -> by (apply Z.log2_unique; [lia|]; change (2 ^ 52) with MM; change (2 ^ Z.succ 52) with MM2; lia).
      change (2 ^ (52 - 52)) with 1. rewrite Z.mul_1_r. replace (iy - (52 - 52)) with iy by ring. reflexivity.
Qed.

Lemma exp_d_sub : forall a, 0 < a < MM -> exp_d (a / B) (a mod B) = Some (-1074 + Z.log2 a).
Proof.
  intros a H. unfold exp_d. destruct (dm_of a) as [E Bd]. destruct (Z.ltb_spec (a / B) 1048576); [|lia].
  assert (L52 : Z.log2 a < 52) by (apply Z.log2_lt_pow2; [lia|]; change (2 ^ 52) with MM; lia). pose proof (Z.log2_nonneg a) as L0.
  destruct (Z.eqb_spec (a / B) 0) as [Z|N].
  - assert (a mod B = a) as -> by lia. rewrite shift_out_log by lia. f_equal. lia.
  - assert (L32 : 32 <= Z.log2 a) by (apply Z.log2_le_pow2; [lia|]; change (2 ^ 32) with B; lia).
    assert (Lh : Z.log2 (a / B) = Z.log2 a - 32).
    { change B with (2 ^ 32). rewrite <- Z.shiftr_div_pow2 by lia. rewrite Z.log2_shiftr by lia. apply Z.max_r. lia. }
    rewrite Z.shiftl_mul_pow2 by lia. change (2 ^ 11) with 2048.
    assert (LG : Z.log2 (a / B * 2048) = Z.log2 a - 21) by (change 2048 with (2 ^ 11); rewrite Z.log2_mul_pow2 by lia; lia).
    rewrite shift_out_log by lia. rewrite LG. f_equal. ring.
Qed.

Lemma split_d : forall a, 0 < a < 9218868437227405312 ->
  exists e X, exp_d (a / B) (a mod B) = Some e /\ mant_d (a / B) (a mod B) e = (X / B, X mod B) /\
    -1074 <= e <= 1023 /\ MM <= X < MM2 /\ mag double a * MM = X * 2 ^ (e + 1022 + 52).
Proof.
  intros a H. destruct (dm_of a) as [Ea Ba]. destruct (Z_lt_le_dec a MM) as [L|G].
  - assert (L52 : Z.log2 a < 52) by (apply Z.log2_lt_pow2; [lia|]; change (2 ^ 52) with MM; lia). pose proof (Z.log2_nonneg a) as L0.
    exists (-1074 + Z.log2 a), (a * 2 ^ (52 - Z.log2 a)). split; [apply exp_d_sub; lia|].
    pose proof (Z.log2_spec a ltac:(lia)) as [S1 S2]. rewrite Z.pow_succ_r in S2 by lia.
    pose proof (p2 (52 - Z.log2 a) ltac:(lia)) as P.
    assert (XX : 2 ^ Z.log2 a * 2 ^ (52 - Z.log2 a) = MM) by (rewrite <- p2_split by lia; replace (Z.log2 a + (52 - Z.log2 a)) with 52 by lia; reflexivity).
    assert (R : MM <= a * 2 ^ (52 - Z.log2 a) < MM2) by (clear - S1 S2 P XX; nia).
    split; [|split; [lia|split; [exact R|]]].
    + unfold mant_d. destruct (Z.leb_spec (-1022) (-1074 + Z.log2 a)); [lia|].
      replace (-1022 - (-1074 + Z.log2 a)) with (52 - Z.log2 a) by ring. set (n := 52 - Z.log2 a) in *.
      destruct (Z.leb_spec n 31) as [N31|N31].
      * destruct (shift64 a n) as [T1 T2]; [lia|lia|lia|]. rewrite Z.shiftl_mul_pow2 by lia. rewrite T1, T2. reflexivity.
      * assert (AL : a < 2097152) by (change 2097152 with (2 ^ 21); apply Z.log2_lt_pow2; lia).
        assert (a mod B = a) as -> by (apply Z.mod_small; lia).
        rewrite Z.shiftl_mul_pow2 by lia.
        assert (Sp : a * 2 ^ n = a * 2 ^ (n - 32) * B) by (replace n with ((n - 32) + 32) at 1 by ring; rewrite p2_split by lia; change (2 ^ 32) with B; ring).
        pose proof (p2 (n - 32) ltac:(lia)) as Pn.
        destruct (dm (a * 2 ^ n) (a * 2 ^ (n - 32)) 0) as [-> ->]; [lia|lia|].
        assert (Bd : 0 <= a * 2 ^ (n - 32) < 2097152) by lia.
        rewrite u32_small, s32_id by lia. reflexivity.
    + rewrite (mag_small double d_mb d_eb d_range) by (cbn [mb double]; change (2 ^ 52) with MM; lia).
      replace (-1074 + Z.log2 a + 1022 + 52) with (Z.log2 a) by ring. rewrite <- XX. ring.
  - pose proof (Z.div_mod a MM ltac:(lia)) as D. pose proof (Z.mod_pos_bound a MM ltac:(lia)) as Bd.
    assert (E : 1 <= a / MM <= 2046) by lia.
    assert (EE : a / B / 1048576 = a / MM) by (rewrite Z.div_div by lia; reflexivity).
    exists (a / MM - 1023), (MM + a mod MM). split; [|split; [|split; [lia|split; [lia|]]]].
    + unfold exp_d. destruct (Z.ltb_spec (a / B) 1048576); [lia|]. rewrite Z.shiftr_div_pow2 by lia. change (2 ^ 20) with 1048576. rewrite EE. reflexivity.
    + unfold mant_d. destruct (Z.leb_spec (-1022) (a / MM - 1023)); [|lia].
      assert (Z.lor 1048576 (Z.land 1048575 (a / B)) = 1048576 + (a / B) mod 1048576) as ->.
      { rewrite Z.lor_comm, Z.land_comm. exact (hidden (a / B) 20 ltac:(lia)). }
      pose proof (Z.div_mod (a / B) 1048576 ltac:(lia)) as D2. rewrite EE in D2.
      destruct (dm (MM + a mod MM) (1048576 + (a / B) mod 1048576) (a mod B)) as [-> ->]; [|exact Ba|reflexivity].
      clear - D D2 Ea. lia.
    + rewrite (mag_large double d_mb d_eb d_range) by (cbn [mb double]; change (2 ^ 52) with MM; lia).
      cbn [mb double]. change (2 ^ 52) with MM.
      replace (a / MM - 1023 + 1022 + 52) with (a / MM - 1 + 52) by ring. rewrite (p2_split _ 52) by lia. change (2 ^ 52) with MM. ring.
Qed.

Lemma lxor_sign : forall a, 0 <= a < 2147483648 -> Z.lxor (a - 2147483648) (-2147483648) = a.
Proof.
  intros a H.
  assert (E : a - 2147483648 = Z.lor (-1 * 2 ^ 31) a) by (rewrite lor_disjoint by (change (2 ^ 31) with 2147483648; lia); change (2 ^ 31) with 2147483648; lia).
  rewrite E. change (-1 * 2 ^ 31) with (-2147483648).
  assert (L : Z.land (-2147483648) a = 0).
  { rewrite Z.land_comm. change (-2147483648) with (Z.lnot (Z.ones 31)). rewrite <- Z.ldiff_land, Z.ldiff_ones_r by lia. rewrite Z.shiftr_div_pow2 by lia. change (2 ^ 31) with 2147483648.
    rewrite Z.div_small by lia. reflexivity. }
  rewrite <- Z.lxor_lor by exact L. rewrite (Z.lxor_comm _ a), Z.lxor_assoc, Z.lxor_nilpotent, Z.lxor_0_r. reflexivity.
Qed.

Lemma sign_of_d : forall x, word double x ->
  s32 (Z.land (u32 (s32 (hi false x))) 2147483648) = (if neg double x then -2147483648 else 0) /\
  Z.lxor (s32 (hi false x)) (if neg double x then -2147483648 else 0) = absw double x / B.
Proof.
  intros x W. rewrite (d_u32_hi x W). destruct (d_hi_abs x W) as (_ & Sg & _ & R & _). destruct (d_bound x W) as [_ Bx].
  rewrite land_sign by exact R. rewrite Sg. split; [destruct (neg double x); reflexivity|].
  rewrite (d_hi_val x W). set (a := absw double x) in *. clearbody a. destruct (dm_of a) as [Ea Ba].
  assert (Hb : 0 <= a / B < 2147483648) by lia. set (h := a / B) in *. clearbody h. clear - Hb.
  destruct (neg double x).
  - assert (s32 (2147483648 + h) = h - 2147483648) as -> by (destruct (s32_cases (2147483648 + h) ltac:(change (2 ^ 32) with B; lia)) as [[A ->]|[A ->]]; lia).
    apply lxor_sign. exact Hb.
  - rewrite Z.add_0_l, s32_id by lia. apply Z.lxor_0_r.
Qed.

Lemma d_zero_val : forall s : bool, d_zero (if s then -2147483648 else 0) = sbit double s + 0.
Proof. intros []; reflexivity. Qed.

Lemma pack_sign_d : forall v (s : bool), 0 <= v < 9223372036854775808 ->
  ins false (Z.lor (v / B) (if s then -2147483648 else 0)) (v mod B) = sbit double s + v.
Proof.
  intros v s H. destruct (dm_of v) as [E Bd]. unfold ins. rewrite u32_lor. replace (u32 (if s then -2147483648 else 0)) with (if s then 2147483648 else 0) by (destruct s; reflexivity).
  rewrite (u32_small (v mod B)) by lia. rewrite u32_small by lia. rewrite d_sbit. change (2 ^ 32) with B.
  assert (Hb : 0 <= v / B < 2147483648) by lia.
  destruct s.
  - assert (Z.lor (v / B) 2147483648 = 2147483648 + v / B) as ->; [|lia].
    change 2147483648 with (1 * 2 ^ 31) at 1. rewrite Z.lor_comm, lor_disjoint by (change (2 ^ 31) with 2147483648; lia). reflexivity.
  - rewrite Z.lor_0_r. lia.
Qed.

Lemma shr64 : forall A n, 1 <= n <= 31 -> 0 <= A ->
  Z.lor (Z.shiftr (A mod B) n) (u32 (Z.shiftl (A / B) (32 - n))) = (A / 2 ^ n) mod B /\ A / B / 2 ^ n = A / 2 ^ n / B.
Proof.
  intros A n Hn HA. pose proof (p2 n ltac:(lia)) as P1. pose proof (p2 (32 - n) ltac:(lia)) as P2.
  assert (PP : 2 ^ (32 - n) * 2 ^ n = B) by (rewrite <- p2_split by lia; replace (32 - n + n) with 32 by ring; reflexivity).
  split; [|rewrite !Z.div_div by lia; f_equal; ring].
  destruct (dm_of A) as [E Bd]. set (h := A / B) in *. set (l := A mod B) in *.
  rewrite Z.shiftr_div_pow2, Z.shiftl_mul_pow2 by lia.
  assert (Ev : A / 2 ^ n = h * 2 ^ (32 - n) + l / 2 ^ n).
  { rewrite E, <- PP. replace (h * (2 ^ (32 - n) * 2 ^ n) + l) with (l + h * 2 ^ (32 - n) * 2 ^ n) by ring. rewrite Z.div_add by lia. ring. }
  assert (Lb : 0 <= l / 2 ^ n < 2 ^ (32 - n)).
  { split; [apply Z.div_pos; lia|]. apply Z.div_lt_upper_bound; [lia|]. rewrite Z.mul_comm, PP. lia. }
  assert (Eu : u32 (h * 2 ^ (32 - n)) = (h mod 2 ^ n) * 2 ^ (32 - n)).
  { unfold u32. change (2 ^ 32) with B. rewrite <- PP. rewrite (Z.mul_comm (2 ^ (32 - n)) (2 ^ n)). apply Z.mul_mod_distr_r; lia. }
  rewrite Eu, Z.lor_comm, lor_disjoint by (try lia; exact Lb).
  rewrite Ev. apply Z.mod_unique with (h / 2 ^ n).
  - left. pose proof (Z.mod_pos_bound h (2 ^ n) P1) as Bh. split; [nia|]. rewrite <- PP.
    assert (h mod 2 ^ n * 2 ^ (32 - n) <= (2 ^ n - 1) * 2 ^ (32 - n)) by (apply Z.mul_le_mono_nonneg_r; lia). lia.
  - pose proof (Z.div_mod h (2 ^ n) ltac:(lia)) as Dh. rewrite Dh at 1. rewrite <- PP. ring.
Qed.

(** The last lines of the program (e_fmod.c:147-164). *)
Lemma pack_mod_d : forall A e (s : bool), MM <= A < MM2 -> -1074 <= e <= 1023 ->
  let sx := if s then -2147483648 else 0 in
  (-1022 <= e -> ins false (Z.lor (Z.lor (s32 (A / B - 1048576)) (s32 (Z.shiftl (e + 1023) 20))) sx) (A mod B) = sbit double s + (A + (e + 1022) * MM)) /\
  (e < -1022 ->
    let n := -1022 - e in
    (let '(hx, lx) :=
       if n <=? 20 then (Z.shiftr (A / B) n, Z.lor (Z.shiftr (A mod B) n) (u32 (Z.shiftl (u32 (A / B)) (32 - n))))
       else if n <=? 31 then (sx, Z.lor (u32 (s32 (Z.shiftl (A / B) (32 - n)))) (Z.shiftr (A mod B) n))
       else (sx, u32 (Z.shiftr (A / B) (n - 32))) in
     ins false (Z.lor hx sx) lx) = sbit double s + A / 2 ^ n).
Proof.
  intros A e s HA He sx. destruct (dm_of A) as [E Bd]. split; intros Hs.
  - assert (Hh : 1048576 <= A / B < 2097152) by lia.
    assert (Z.lor (s32 (A / B - 1048576)) (s32 (Z.shiftl (e + 1023) 20)) = (A + (e + 1022) * MM) / B) as ->.
    { rewrite Z.shiftl_mul_pow2 by lia. change (2 ^ 20) with 1048576. rewrite !s32_id by (clear - Hh Hs He; lia).
      change 1048576 with (2 ^ 20) at 2. rewrite Z.lor_comm, lor_disjoint by (change (2 ^ 20) with 1048576; lia). change (2 ^ 20) with 1048576.
      change MM with (1048576 * B). rewrite Z.mul_assoc, Z.div_add by lia. lia. }
    assert (A mod B = (A + (e + 1022) * MM) mod B) as -> by (change MM with (1048576 * B); rewrite Z.mul_assoc, Z.mod_add by lia; reflexivity).
    apply pack_sign_d. lia.
  - cbv zeta. set (n := -1022 - e) in *. assert (Hn : 1 <= n <= 52) by lia.
    pose proof (p2 n ltac:(lia)) as Pn.
    assert (Vb : 0 <= A / 2 ^ n < 9223372036854775808).
    { split; [apply Z.div_pos; lia|]. apply Z.le_lt_trans with A; [|lia]. apply Z.div_le_upper_bound; [lia|]. nia. }
    assert (Hh : 0 <= A / B < 2097152) by lia.
    rewrite (u32_small (A / B)) by lia. rewrite u32_s32.
    destruct (Z.leb_spec n 20) as [C1|C1]; [|destruct (Z.leb_spec n 31) as [C2|C2]].
    + destruct (shr64 A n ltac:(lia) ltac:(lia)) as [-> Hq]. rewrite Z.shiftr_div_pow2 by lia. rewrite Hq. apply pack_sign_d. exact Vb.
    + destruct (shr64 A n ltac:(lia) ltac:(lia)) as [Q Hq]. rewrite Z.lor_comm with (b := Z.shiftr _ _). rewrite Q.
      assert (Hz : A / 2 ^ n / B = 0).
      { rewrite <- Hq. apply Z.div_small. split; [lia|]. apply Z.lt_le_trans with (2 ^ 21); [change (2 ^ 21) with 2097152; lia|]. apply Z.pow_le_mono_r; lia. }
      rewrite Z.lor_diag. pose proof (pack_sign_d (A / 2 ^ n) s Vb) as PS. rewrite Hz, Z.lor_0_l in PS. exact PS.
    + assert (Ev : A / 2 ^ n = A / B / 2 ^ (n - 32)).
      { rewrite Z.div_div by (try lia; apply p2; lia). f_equal. change B with (2 ^ 32). rewrite <- p2_split by lia. f_equal. ring. }
      assert (Sm : 0 <= A / 2 ^ n < B).
      { split; [lia|]. rewrite Ev. apply Z.le_lt_trans with (A / B); [|lia]. pose proof (p2 (n - 32) ltac:(lia)) as P3. apply Z.div_le_upper_bound; [lia|]. clear - P3 Hh. nia. }
      rewrite Z.shiftr_div_pow2, <- Ev by lia. rewrite u32_small by exact Sm. rewrite Z.lor_diag.
      pose proof (pack_sign_d (A / 2 ^ n) s Vb) as PS. rewrite (Z.div_small (A / 2 ^ n) B) in PS by exact Sm. rewrite (Z.mod_small (A / 2 ^ n) B) in PS by exact Sm. rewrite Z.lor_0_l in PS. exact PS.
Qed.

Lemma low_bit_u : forall l, 0 <= l < B -> Z.shiftr (Z.lor l (u32 (- l))) 31 = if l =? 0 then 0 else 1.
Proof. intros l H. rewrite <- low_bit by exact H. rewrite u32_lor, !u32_s32, u32_opp. rewrite (u32_id l) by exact H. reflexivity. Qed.

Lemma nan_test : forall a, 0 <= a < 9223372036854775808 ->
  (2146435072 <? Z.lor (a / B) (if a mod B =? 0 then 0 else 1)) = (9218868437227405312 <? a).
Proof.
  intros a H. destruct (dm_of a) as [E Bd]. assert (Hq : 0 <= a / B < 2147483648) by lia. set (q := a / B) in *. set (l := a mod B) in *. clearbody q l.
  destruct (Z.eqb_spec l 0) as [Q|Q].
  - rewrite Z.lor_0_r. destruct (Z.ltb_spec 2146435072 q); destruct (Z.ltb_spec 9218868437227405312 a); lia.
  - pose proof (Z.div_mod q 2 ltac:(lia)) as D2. pose proof (Z.mod_pos_bound q 2 ltac:(lia)) as B2.
    assert (Z.lor q 1 = q / 2 * 2 + 1) as ->.
    { replace q with (q / 2 * 2 + q mod 2) at 1 by lia.
      change 2 with (2 ^ 1) at 2. rewrite <- lor_disjoint by (change (2 ^ 1) with 2; lia). rewrite <- Z.lor_assoc.
      assert (Z.lor (q mod 2) 1 = 1) as -> by (assert (q mod 2 = 0 \/ q mod 2 = 1) as [-> | ->] by lia; reflexivity).
      apply lor_disjoint; change (2 ^ 1) with 2; lia. }
    destruct (Z.ltb_spec 2146435072 (q / 2 * 2 + 1)); destruct (Z.ltb_spec 9218868437227405312 a); lia.
Qed.

Lemma special_test : forall a b, 0 <= a < 9223372036854775808 -> 0 <= b < 9223372036854775808 ->
  (Z.lor (b / B) (b mod B) =? 0) || (2146435072 <=? a / B) || (2146435072 <? Z.lor (b / B) (Z.shiftr (Z.lor (b mod B) (u32 (- (b mod B)))) 31)) =
  (b =? 0) || (9218868437227405312 <=? a) || (9218868437227405312 <? b).
Proof.
  intros a b Ha Hb. destruct (dm_of a) as [Ea Ba]. destruct (dm_of b) as [Eb Bb]. rewrite low_bit_u by exact Bb. rewrite nan_test by exact Hb. f_equal. f_equal.
  - apply eq_true_iff_eq. rewrite !Z.eqb_eq, Z.lor_eq_0_iff. lia.
  - apply eq_true_iff_eq. rewrite !Z.leb_le. lia.
Qed.

Lemma order_test : forall a b, (a / B <=? b / B) && ((a / B <? b / B) || (a mod B <? b mod B)) = (a <? b) /\
  ((a <? b) = false -> (a / B <=? b / B) && (a mod B =? b mod B) = (a =? b)).
Proof.
  intros a b. destruct (dm_of a) as [Ea Ba]. destruct (dm_of b) as [Eb Bb].
  set (a1 := a / B) in *. set (a0 := a mod B) in *. set (b1 := b / B) in *. set (b0 := b mod B) in *. clearbody a1 a0 b1 b0. subst a b. split.
  - destruct (Z.leb_spec a1 b1); destruct (Z.ltb_spec a1 b1); destruct (Z.ltb_spec a0 b0); destruct (Z.ltb_spec (a1 * B + a0) (b1 * B + b0)); cbn [andb orb]; lia.
  - intros H. apply Z.ltb_ge in H. destruct (Z.leb_spec a1 b1); destruct (Z.eqb_spec a0 b0); destruct (Z.eqb_spec (a1 * B + a0) (b1 * B + b0)); cbn [andb]; lia.
Qed.

Theorem fmod_spec : forall x y, word double x -> word double y -> finite double x -> finite double y -> ~ is_zero double y ->
  exists r, c_fmod false x y = Some r /\ fmod_of double x y r.
Proof.
  intros x y Wx Wy Fx Fy Ny.
  pose proof (fun b => fmod_result double d_mb d_eb d_range x y b Wx Wy Fy Ny) as RES. rewrite d_sgnw, d_infw in RES.
  destruct (d_bound x Wx) as [Ex Bx]. destruct (d_bound y Wy) as [_ By]. unfold finite in Fx, Fy. rewrite d_infw in Fx, Fy. unfold is_zero in Ny.
  unfold c_fmod. cbv zeta. destruct (sign_of_d x Wx) as [S1 S2]. rewrite S1, S2.
  destruct (d_hi_abs x Wx) as (_ & _ & Lx & _ & _). destruct (d_hi_abs y Wy) as (_ & _ & Ly & _ & Hy). rewrite Hy, Lx, Ly.
  set (a := absw double x) in *. set (b := absw double y) in *. set (s := neg double x) in *.
  rewrite special_test by assumption.
  destruct (Z.eqb_spec b 0); [contradiction|]. destruct (Z.leb_spec 9218868437227405312 a); [lia|]. destruct (Z.ltb_spec 9218868437227405312 b); [lia|]. cbn [orb].
  pose proof (mag_mono double d_mb d_eb d_range 0 b ltac:(lia) ltac:(lia)) as Pb. rewrite (mag_0 double d_mb d_eb d_range) in Pb.
  pose proof (mag_nonneg double d_mb d_eb d_range a ltac:(lia)) as Pa.
  destruct (order_test a b) as [O1 O2]. rewrite O1.
  destruct (Z.ltb_spec a b) as [L|G].
  { exists x. split; [reflexivity|]. rewrite Ex at 2. apply (RES a); [lia|].
    rewrite Z.mod_small; [reflexivity|]. pose proof (mag_mono double d_mb d_eb d_range a b ltac:(lia) ltac:(lia)). lia. }
  rewrite (O2 eq_refl).
  assert (RZ : mag double a mod mag double b = 0 -> fmod_of double x y (d_zero (if s then -2147483648 else 0))).
  { intros Z. rewrite d_zero_val. apply (RES 0); [lia|]. rewrite Z. reflexivity. }
  destruct (Z.eqb_spec a b) as [Eq|Nq].
  { eexists. split; [reflexivity|]. apply RZ. rewrite Eq. apply Z.mod_same. lia. }
  destruct (split_d a ltac:(lia)) as (ex & X & X1 & X2 & Hex & HX & MX). destruct (split_d b ltac:(lia)) as (ey & Y & Y1 & Y2 & Hey & HY & MY).
  rewrite X1, Y1, X2, Y2.
  pose proof (mag_mono double d_mb d_eb d_range b a ltac:(lia) ltac:(lia)) as Lab.
  destruct (fmod_scale double d_mb d_eb d_range (mag double a) (mag double b) X Y (ex + 1022) (ey + 1022)) as [Hn EV];
    [exact MX|exact MY|exact HX|exact HY|cbn [mb double]; lia|cbn [mb double]; lia|exact Lab|].
  replace (ex + 1022 - (ey + 1022)) with (ex - ey) in EV by ring. cbn [mb double] in EV. change (2 ^ 52) with MM in EV.
  assert (Hxy : 0 <= ex - ey) by lia. clear O1 O2 X1 X2 Y1 Y2 MX MY S1 S2 Lx Ly Hy Lab Hn Pa Bx By Fx Fy.
  destruct (Z.ltb_spec (ex - ey) 0); [lia|].
  rewrite mod_d_modz by (clear - HX HY; lia). pose proof (modz_spec double d_mb d_eb d_range (Z.to_nat (ex - ey)) X Y ltac:(clear - HX HY; lia) ltac:(clear - HX HY; lia)) as MZ.
  rewrite Z2Nat.id in MZ by exact Hxy. pose proof (p2 (ey + 1022 + 52) ltac:(lia)) as Pe.
  destruct (modz (Z.to_nat (ex - ey)) X Y) as [X'|].
  2:{ eexists. split; [reflexivity|]. apply RZ. rewrite MZ in EV. clear - EV. lia. }
  destruct MZ as [RX' MZ].
  assert (ER : exists R, R = (X * 2 ^ (ex - ey)) mod Y /\
    (let '(hz, lz) := minus_d (X' / B) (X' mod B) (Y / B) (Y mod B) in if 0 <=? hz then (hz, lz) else (X' / B, X' mod B)) = (R / B, R mod B)).
  { eexists. split; [reflexivity|]. rewrite <- MZ. clear - RX' HY. destruct (Z_lt_le_dec X' Y) as [L|G].
    - destruct (minus_lt X' Y) as (h & l & -> & N); [lia|lia|]. destruct (Z.leb_spec 0 h); [lia|]. rewrite (Z.mod_small X' Y) by lia. reflexivity.
    - rewrite minus_ge by lia. destruct (Z.leb_spec 0 ((X' - Y) / B)) as [_|N]; [|pose proof (Z.div_pos (X' - Y) B ltac:(lia) ltac:(lia)); lia].
      assert (X' - Y = X' mod Y) as -> by (apply Z.mod_unique with 1; lia). reflexivity. }
  destruct ER as (R & RE & ER).
  destruct (minus_d (X' / B) (X' mod B) (Y / B) (Y mod B)) as [hz lz]. rewrite ER. rewrite <- RE in EV.
  assert (RB : 0 <= R < Y) by (rewrite RE; apply Z.mod_pos_bound; clear - HY; lia).
  clear RE ER MZ RX' X' hz lz. rewrite or_zero by (clear - RB HY; lia).
  destruct (Z.eqb_spec R 0) as [R0|R0].
  { eexists. split; [reflexivity|]. apply RZ. rewrite R0 in EV. clear - EV. lia. }
  assert (L53 : Z.log2 R < 53) by (apply Z.log2_lt_pow2; [clear - RB R0; lia|]; change (2 ^ 53) with MM2; clear - RB HY; lia). pose proof (Z.log2_nonneg R) as L0.
  rewrite up_d_spec by (clear - RB R0 HY L0; lia). set (k := 52 - Z.log2 R) in *.
  pose proof (Z.log2_spec R ltac:(clear - RB R0; lia)) as [T1 T2]. rewrite Z.pow_succ_r in T2 by exact L0.
  assert (Hk : 0 <= k <= 52) by (clear - L53 L0 k; lia).
  assert (XX : 2 ^ Z.log2 R * 2 ^ k = MM) by (rewrite <- p2_split by (clear - L0 Hk; lia); replace (Z.log2 R + k) with 52 by (clear - k; lia); reflexivity).
  pose proof (p2 k ltac:(clear - Hk; lia)) as Pk.
  assert (RA : MM <= R * 2 ^ k < MM2) by (clear - T1 T2 XX Pk; nia).
  destruct (fmod_shape double d_mb d_eb d_range (mag double a mod mag double b) R k (ey + 1022)) as (V0 & W0 & W1 & W2);
    [exact EV|clear - RB R0; lia|clear - Hk; lia|exact RA|cbn [mb double]; clear - Hey; lia|].
  cbn [mb double] in W0, W1, W2. change (2 ^ 52) with MM in W1, W2. set (A := R * 2 ^ k) in *. clearbody A.
  destruct (pack_mod_d A (ey - k) s RA ltac:(clear - W0 Hey Hk; lia)) as [PK1 PK2].
  destruct (Z.leb_spec (-1022) (ey - k)) as [Ge|Lt].
  - rewrite PK1 by exact Ge. eexists. split; [reflexivity|].
    apply RES; [clear - RA Ge Hey Hk; lia|]. replace (ey - k + 1022) with (ey + 1022 - k) by ring. rewrite W1 by (clear - Ge; lia). reflexivity.
  - specialize (PK2 Lt). cbv zeta in PK2.
    destruct (if -1022 - (ey - k) <=? 20 then _ else _) as [hx lx]. rewrite PK2.
    replace (-1022 - (ey - k)) with (- (ey + 1022 - k)) by ring. destruct (W2 ltac:(clear - Lt; lia)) as [-> VM]. set (v := mag double a mod mag double b) in *.
    assert (MV : mag double v = v) by (apply (mag_small double d_mb d_eb d_range); cbn [mb double]; change (2 ^ 52) with MM; clear - V0 VM; lia).
    destruct (RES v ltac:(clear - V0 VM; lia) MV) as [Q1 Q2].
    exists (sbit double s + v). split; [|exact Q1]. f_equal.
    exact (fmul_one double d_mb d_eb d_range (sbit double s + v) (proj1 Q1) (proj1 (proj2 Q1))).
Qed.

Theorem fmod_invalid : forall x y, word double x -> word double y -> is_zero double y \/ ~ finite double x \/ is_nan double y ->
  exists r, c_fmod false x y = Some r /\ is_nan double r.
Proof.
  intros x y Wx Wy H. eexists. split; [|apply (invalid double d_mb d_eb d_range x y Wx Wy H)].
  unfold c_fmod. cbv zeta. destruct (sign_of_d x Wx) as [S1 S2]. rewrite S1, S2.
  destruct (d_hi_abs x Wx) as (_ & _ & Lx & _ & _). destruct (d_hi_abs y Wy) as (_ & _ & Ly & _ & Hy). rewrite Hy, Lx, Ly.
  rewrite special_test by (apply d_bound; assumption). unfold is_zero, finite, is_nan in H. rewrite d_infw in H.
  assert ((absw double y =? 0) || (9218868437227405312 <=? absw double x) || (9218868437227405312 <? absw double y) = true) as ->; [|reflexivity].
  rewrite !orb_true_iff, Z.eqb_eq, Z.leb_le, Z.ltb_lt. lia.
Qed.

(** An infinite divisor leaves a finite number unchanged. *)
Theorem fmod_inf : forall x y, word double x -> word double y -> finite double x -> is_inf double y -> c_fmod false x y = Some x.
Proof.
  intros x y Wx Wy Fx Iy. unfold c_fmod. cbv zeta. destruct (sign_of_d x Wx) as [S1 S2]. rewrite S1, S2.
  destruct (d_hi_abs x Wx) as (_ & _ & Lx & _ & _). destruct (d_hi_abs y Wy) as (_ & _ & Ly & _ & Hy). rewrite Hy, Lx, Ly.
  rewrite special_test by (apply d_bound; assumption). destruct (order_test (absw double x) (absw double y)) as [-> _].
  unfold finite, is_inf in *. rewrite d_infw in *. rewrite Iy. destruct (Z.leb_spec 9218868437227405312 (absw double x)); [lia|].
  change (9218868437227405312 =? 0) with false. rewrite Z.ltb_irrefl. cbn [orb]. destruct (Z.ltb_spec (absw double x) 9218868437227405312); [reflexivity|lia].
Qed.
