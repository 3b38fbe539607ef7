(** __ieee754_sqrtf (libpok/libm/e_sqrtf.c) rounds the square root correctly. *)
From Verif Require Import Model.Base Spec.Ieee Spec.LibmSpec Model.Float Model.Libm Model.LibmRoot
  Proof.FloatProof Proof.FloatRound Proof.FloatScale Proof.FloatParts Proof.FloatRoot Proof.LibmfProof Proof.LibmfRint Proof.LibmSign Proof.LibmNext Proof.LibmParts.

Lemma land_bit : forall x k, 0 <= k -> Z.land x (2 ^ k) = (x / 2 ^ k) mod 2 * 2 ^ k.
Proof. intros x k Hk. replace (2 ^ k) with ((2 ^ 1 - 1) * 2 ^ k) at 1 by (change (2 ^ 1) with 2; lia). now rewrite land_field by lia. Qed.

Lemma land_one : forall x, Z.land x 1 = x mod 2.
Proof. intros x. change 1 with (2 ^ 1 - 1). now rewrite land_low by lia. Qed.

(** Hidden bit put in place. *)
Lemma hidden : forall x k, 0 <= k -> Z.lor (Z.land x (2 ^ k - 1)) (2 ^ k) = 2 ^ k + x mod 2 ^ k.
Proof.
  intros x k Hk. rewrite land_low by exact Hk. replace (2 ^ k) with (1 * 2 ^ k) at 2 by lia.
  rewrite Z.lor_comm, lor_disjoint by (pose proof (Z.mod_pos_bound x (2 ^ k) (p2 k Hk)); lia). lia.
Qed.

Lemma norm_f_spec : forall n ix i, 0 < ix < 16777216 -> 24 - Z.log2 ix <= Z.of_nat n ->
  norm_f n ix i = Some (ix * 2 ^ (23 - Z.log2 ix), i + (23 - Z.log2 ix)).
Proof.
  induction n as [|n IH]; intros ix i H Hn.
  - exfalso. assert (Z.log2 ix < 24) by (apply Z.log2_lt_pow2; [lia|]; change (2 ^ 24) with 16777216; lia). lia.
  - cbn [norm_f]. change 8388608 with (2 ^ 23). rewrite land_bit by lia. change (2 ^ 23) with 8388608.
    destruct (Z_lt_le_dec ix 8388608) as [L|G].
    + rewrite (Z.div_small ix 8388608) by lia. change (0 mod 2 * 8388608 =? 0) with true. cbv iota.
      rewrite Z.shiftl_mul_pow2 by lia. change (2 ^ 1) with 2. rewrite s32_id by lia.
      assert (E : Z.log2 (ix * 2) = Z.log2 ix + 1) by (rewrite Z.mul_comm, Z.log2_double by lia; lia).
      assert (Z.log2 ix < 23) by (apply Z.log2_lt_pow2; [lia|]; change (2 ^ 23) with 8388608; lia).
      rewrite IH by lia. rewrite E. f_equal. f_equal; [|lia].
      replace (23 - Z.log2 ix) with (1 + (23 - (Z.log2 ix + 1))) by lia. rewrite p2_split by lia. change (2 ^ 1) with 2. lia.
    + assert (D : ix / 8388608 = 1) by (symmetry; apply Z.div_unique with (ix - 8388608); lia).
      rewrite D. change (1 mod 2 * 8388608 =? 0) with false. cbv iota.
      assert (Z.log2 ix = 23) as -> by (apply Z.log2_unique; [lia|]; change (2 ^ 23) with 8388608; change (2 ^ Z.succ 23) with 16777216; lia).
      change (2 ^ (23 - 23)) with 1. f_equal. f_equal; lia.
Qed.

(** The loop finds the integer root of T. *)
Lemma root_f_spec : forall k q ix T, 0 <= q -> q + 2 * 2 ^ Z.of_nat k <= 33554432 -> 0 <= ix ->
  q * q + ix * 2 ^ Z.of_nat k = T -> T < (q + 2 * 2 ^ Z.of_nat k) * (q + 2 * 2 ^ Z.of_nat k) ->
  exists ix' q', root_f (S (S k)) (2 ^ Z.of_nat k) (2 * q) ix q = Some (ix', q') /\
    q' * q' <= T < (q' + 1) * (q' + 1) /\ 0 <= q' <= 33554431 /\ ix' = 2 * (T - q' * q').
Proof.
  induction k as [|k IH]; intros q ix T Hq Hb Hi ET HT.
  - change (2 ^ Z.of_nat 0) with 1 in *. cbn [root_f]. change (1 =? 0) with false. cbv iota.
    change (Z.shiftr 1 1 =? 0) with true. assert (ix < 4 * q + 4) by nia.
    rewrite (s32_id (2 * q + 1)) by lia. destruct (Z.leb_spec (2 * q + 1) ix) as [L|G]; cbv iota.
    + rewrite (s32_id (ix - _)) by lia. rewrite !s32_id by lia. eexists. eexists. split; [reflexivity|]. split; [nia|]. split; [lia|]. nia.
    + rewrite !s32_id by lia. eexists. eexists. split; [reflexivity|]. split; [nia|]. split; [lia|]. nia.
  - pose proof (p2 (Z.of_nat k) ltac:(lia)) as P.
    assert (E2 : 2 ^ Z.of_nat (S k) = 2 * 2 ^ Z.of_nat k) by (rewrite Nat2Z.inj_succ, Z.pow_succ_r by lia; reflexivity).
    rewrite E2 in *. remember (S (S k)) as k1. cbn [root_f]. set (R := 2 ^ Z.of_nat k) in *.
    destruct (Z.eqb_spec (2 * R) 0); [lia|].
    assert (SR : Z.shiftr (2 * R) 1 = R).
    { rewrite Z.shiftr_div_pow2 by lia. change (2 ^ 1) with 2. rewrite Z.mul_comm. apply Z.div_mul. lia. }
    rewrite SR. assert (IB : ix < 4 * q + 4 * (2 * R)) by nia.
    rewrite (s32_id (2 * q + 2 * R)) by lia. destruct (Z.leb_spec (2 * q + 2 * R) ix) as [L|G]; cbv iota; subst k1.
    + rewrite (s32_id (ix - _)) by lia. rewrite !s32_id by lia. replace (2 * q + 2 * R + 2 * R) with (2 * (q + 2 * R)) by ring.
      apply IH; [lia|lia|lia| |].
      * rewrite <- ET. ring.
      * replace (q + 2 * R + 2 * R) with (q + 2 * (2 * R)) by ring. exact HT.
    + rewrite !s32_id by lia. apply IH; [lia|lia|lia| |].
      * rewrite <- ET. ring.
      * rewrite <- ET. nia.
Qed.

Lemma round_f_spec : forall q T, T mod 2 = 0 -> 0 <= q <= 33554431 -> round_f (2 * (T - q * q)) q = q + q mod 2.
Proof.
  intros q T Te Hq. unfold round_f. pose proof (Z.mod_pos_bound q 2 ltac:(lia)) as B.
  assert (fle single f_one (fsub single f_one f_tiny) = true) as -> by (vm_compute; reflexivity).
  assert (flt single f_one (fadd single f_one f_tiny) = false) as -> by (vm_compute; reflexivity).
  destruct (Z.eqb_spec (2 * (T - q * q)) 0) as [X|X].
  - assert (T = q * q) by lia. subst T. rewrite Z.mul_mod in Te by lia.
    assert (q mod 2 = 0 \/ q mod 2 = 1) as [-> | Y] by lia; [lia|]. rewrite Y in Te. discriminate Te.
  - rewrite land_one, s32_id by lia. reflexivity.
Qed.

(** From the mantissa A and the exponent on. *)
Definition tail_f (ix m : Z) : option Z :=
    let m := m - 127 in
    let ix := Z.lor (Z.land ix 0x7fffff) 0x800000 in
    let ix := if Z.land m 1 =? 0 then ix else s32 (ix + ix) in
    let m := Z.shiftr m 1 in
    match root_f 26 0x1000000 0 (s32 (ix + ix)) 0 with
    | None => None
    | Some (ix, q) =>
      let q := round_f ix q in
      let ix := s32 (Z.shiftr q 1 + 0x3f000000) in
      Some (set_float (s32 (ix + s32 (Z.shiftl m 23))))
    end.

Lemma tail_f_spec : forall x ix e0, -23 <= e0 <= 253 ->
  val single x * one single = (8388608 + ix mod 8388608) * 2 ^ (e0 + 149) ->
  exists r, tail_f ix (e0 + 1) = Some r /\ sqrt_of single x r.
Proof.
  intros x ix e0 He EV. unfold tail_f. cbv zeta. change 8388607 with (2 ^ 23 - 1). change 8388608 with (2 ^ 23).
  rewrite hidden by lia. change (2 ^ 23) with 8388608. pose proof (Z.mod_pos_bound ix 8388608 ltac:(lia)) as BA.
  set (A := 8388608 + ix mod 8388608) in *. assert (HA : 8388608 <= A < 16777216) by (unfold A; lia). clearbody A. clear BA.
  rewrite land_one, Z.shiftr_div_pow2 by lia. change (2 ^ 1) with 2.
  pose proof (Z.div_mod (e0 + 1 - 127) 2 ltac:(lia)) as DM. pose proof (Z.mod_pos_bound (e0 + 1 - 127) 2 ltac:(lia)) as BM.
  set (m := (e0 + 1 - 127) / 2) in *. set (o := (e0 + 1 - 127) mod 2) in *. clearbody m o.
  set (A0 := if o =? 0 then 2 * A else 4 * A).
  assert (E0 : s32 ((if o =? 0 then A else s32 (A + A)) + (if o =? 0 then A else s32 (A + A))) = A0).
  { unfold A0. destruct (o =? 0); rewrite ?s32_id by (rewrite ?s32_id by lia; lia); lia. }
  rewrite E0. assert (HA0 : 16777216 <= A0 < 67108864) by (unfold A0; destruct (o =? 0); lia).
  destruct (root_f_spec 24 0 A0 (A0 * 16777216)) as (ix' & q & R & Q & Bq & Ei).
  - lia.
  - change (2 ^ Z.of_nat 24) with 16777216. lia.
  - lia.
  - change (2 ^ Z.of_nat 24) with 16777216. lia.
  - change (2 ^ Z.of_nat 24) with 16777216. lia.
  - change (2 ^ Z.of_nat 24) with 16777216 in R. change (2 * 0) with 0 in R. rewrite R. subst ix'.
    assert (Te : (A0 * 16777216) mod 2 = 0).
    { replace (A0 * 16777216) with (A0 * 8388608 * 2) by ring. apply Z.mod_mul. lia. }
    rewrite round_f_spec by assumption.
    pose proof (Z.div_mod q 2 ltac:(lia)) as Dq. pose proof (Z.mod_pos_bound q 2 ltac:(lia)) as Mq.
    set (h := (q + q mod 2) / 2).
    assert (Hh : 2 * h = q + q mod 2).
    { unfold h. replace (q + q mod 2) with ((q / 2 + q mod 2) * 2) by lia. rewrite Z.div_mul by lia. lia. }
    rewrite !Z.shiftr_div_pow2, Z.shiftl_mul_pow2 by lia. change (2 ^ 1) with 2. change (2 ^ 23) with 8388608. fold h. clearbody h.
    eexists. split; [reflexivity|].
    assert (Q2 : q < 33554432) by nia.
    assert (W : set_float (s32 (s32 (h + 1056964608) + s32 (m * 8388608))) = h + (m + 125 + 1) * 8388608).
    { unfold set_float. rewrite (s32_id (h + 1056964608)) by lia. rewrite (s32_id (m * 8388608)) by lia. rewrite u32_s32, u32_id; [ring|].
      change (2 ^ 32) with 4294967296. nia. }
    rewrite W. apply (sqrt_nearest single s_mb s_eb s_range x (A0 * 16777216) q h (m + 125)).
    + exact Te.
    + lia.
    + lia.
    + exact Q.
    + cbn [mb single]. change (2 ^ 23) with 8388608. lia.
    + exact Hh.
    + cbn [mb single]. change (2 ^ 23) with 8388608. rewrite s_infw. lia.
    + rewrite EV. rewrite <- p2_split by lia.
      change 16777216 with (2 ^ 24). unfold A0.
      assert (o = 0 \/ o = 1) as [-> | ->] by lia.
      * change (0 =? 0) with true. cbv iota. rewrite <- Z.mul_assoc, <- p2_split by lia.
        replace (e0 + 149) with (1 + (24 + (m + 125 + (m + 125)))) by lia. rewrite (p2_split 1) by lia. change (2 ^ 1) with 2. ring.
      * change (1 =? 0) with false. cbv iota. rewrite <- Z.mul_assoc, <- p2_split by lia.
        replace (e0 + 149) with (2 + (24 + (m + 125 + (m + 125)))) by lia. rewrite (p2_split 2) by lia. change (2 ^ 2) with 4. ring.
Qed.

Theorem sqrtf_spec : forall x, word single x -> finite single x -> neg single x = false -> ~ is_zero single x ->
  exists r, c_sqrtf x = Some r /\ sqrt_of single x r.
Proof.
  intros x W Fx N N0. destruct (s_split x W) as [Ex B]. unfold finite in Fx. rewrite s_infw in Fx. unfold is_zero in N0.
  assert (G : get_float x = absw single x) by (rewrite (s_get x W), N; reflexivity).
  assert (V : val single x = mag single (absw single x)) by (unfold val; rewrite N; reflexivity).
  unfold c_sqrtf. cbv zeta. rewrite G. set (a := absw single x) in *. clearbody a.
  change 2139095040 with ((2 ^ 8 - 1) * 2 ^ 23). rewrite land_field by lia. change (2 ^ 8) with 256. change (2 ^ 23) with 8388608.
  pose proof (Z.div_mod a 8388608 ltac:(lia)) as DM. pose proof (Z.mod_pos_bound a 8388608 ltac:(lia)) as BM.
  assert (E0 : 0 <= a / 8388608 < 255) by lia.
  rewrite (Z.mod_small (a / 8388608) 256) by lia.
  destruct (Z.eqb_spec (a / 8388608 * 8388608) ((256 - 1) * 8388608)); [lia|].
  destruct (Z.leb_spec a 0); [lia|]. cbn [andb].
  rewrite Z.shiftr_div_pow2 by lia. change (2 ^ 23) with 8388608.
  assert (O : one single = 2 ^ 149) by reflexivity.
  destruct (Z.eqb_spec (a / 8388608) 0) as [Z|Nz].
  - assert (L : a < 8388608) by lia.
    assert (Z.log2 a < 23) by (apply Z.log2_lt_pow2; [lia|]; change (2 ^ 23) with 8388608; lia). pose proof (Z.log2_nonneg a).
    rewrite norm_f_spec by lia. rewrite Z.add_0_l, Z.
    pose proof (Z.log2_spec a ltac:(lia)) as [S1 S2]. rewrite Z.pow_succ_r in S2 by lia.
    set (k := 23 - Z.log2 a) in *. replace (0 - (k - 1)) with (- k + 1) by lia.
    pose proof (p2 k ltac:(lia)) as Pk.
    assert (T1 : 8388608 <= a * 2 ^ k < 16777216).
    { assert (X : 2 ^ Z.log2 a * 2 ^ k = 8388608) by (rewrite <- p2_split by lia; replace (Z.log2 a + k) with 23 by lia; reflexivity). nia. }
    apply (tail_f_spec x (a * 2 ^ k) (- k)); [lia|].
    rewrite V, (mag_small single s_mb s_eb s_range), O by (cbn [mb single]; change (2 ^ 23) with 8388608; lia).
    assert ((a * 2 ^ k) mod 8388608 = a * 2 ^ k - 8388608) as -> by (symmetry; apply Z.mod_unique with 1; lia).
    replace (8388608 + (a * 2 ^ k - 8388608)) with (a * 2 ^ k) by ring. rewrite <- Z.mul_assoc, <- p2_split by lia. do 2 f_equal. lia.
  - replace (a / 8388608) with (a / 8388608 - 1 + 1) by lia.
    apply (tail_f_spec x a (a / 8388608 - 1)); [lia|].
    rewrite V, (mag_large single s_mb s_eb s_range), O by (cbn [mb single]; change (2 ^ 23) with 8388608; lia).
    cbn [mb single]. change (2 ^ 23) with 8388608. rewrite <- Z.mul_assoc, <- p2_split by lia. do 2 f_equal.
Qed.
