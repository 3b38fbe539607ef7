(** __ieee754_sqrt (libpok/libm/e_sqrt.c) rounds the square root correctly where it is defined; less significant word first. *)
From Verif Require Import Model.Base Spec.Ieee Spec.LibmSpec Model.Float Model.Libm Model.LibmRoot
  Proof.FloatProof Proof.FloatRound Proof.FloatScale Proof.FloatParts Proof.FloatRoot Proof.LibmfProof Proof.LibmfRint Proof.LibmdProof Proof.LibmSign Proof.LibmNext
  Proof.LibmScale Proof.LibmParts Proof.LibmSqrtf.

Notation B := 4294967296.

Lemma dm : forall V v1 v0, V = v1 * B + v0 -> 0 <= v0 < B -> V / B = v1 /\ V mod B = v0.
Proof.
  intros V v1 v0 E H. split.
  - symmetry. apply Z.div_unique with v0; lia.
  - symmetry. apply Z.mod_unique with v1; lia.
Qed.

Lemma dm_of : forall V, V = V / B * B + V mod B /\ 0 <= V mod B < B.
Proof. intros V. pose proof (Z.div_mod V B ltac:(lia)). pose proof (Z.mod_pos_bound V B ltac:(lia)). lia. Qed.

Lemma top_bit : forall l, 0 <= l < B -> Z.shiftr (Z.land l 2147483648) 31 = if 2147483648 <=? l then 1 else 0.
Proof. intros l H. rewrite land_sign by exact H. destruct (2147483648 <=? l); reflexivity. Qed.

Lemma u32_small : forall x, 0 <= x < B -> u32 x = x.
Proof. intros x H. apply u32_id. exact H. Qed.

Lemma twice_d_spec : forall V, 0 <= V < 4611686018427387904 -> twice_d (V / B) (V mod B) = (2 * V / B, (2 * V) mod B).
Proof.
  intros V HV. destruct (dm_of V) as [E Bd]. set (v1 := V / B) in *. set (v0 := V mod B) in *. clearbody v1 v0. subst V.
  unfold twice_d. rewrite top_bit by lia. unfold u32. change (2 ^ 32) with B.
  destruct (Z.leb_spec 2147483648 v0).
  - rewrite s32_id by lia. destruct (dm (2 * (v1 * B + v0)) (v1 + v1 + 1) (v0 + v0 - B)) as [-> ->]; [lia|lia|].
    f_equal. symmetry. apply Z.mod_unique with 1; lia.
  - rewrite s32_id by lia. destruct (dm (2 * (v1 * B + v0)) (v1 + v1 + 0) (v0 + v0)) as [-> ->]; [lia|lia|].
    f_equal. apply Z.mod_small. lia.
Qed.

(** ** The first loop: the upper half of the root *)
Lemma root_d0_spec : forall k q V T, 0 <= q -> q + 2 * 2 ^ Z.of_nat k <= 4194304 -> 0 <= V ->
  q * B * (q * B) + V * (2 ^ Z.of_nat k * B) = T ->
  T < (q * B + 2 * (2 ^ Z.of_nat k * B)) * (q * B + 2 * (2 ^ Z.of_nat k * B)) ->
  exists V' q', root_d0 (S (S k)) (2 ^ Z.of_nat k) (2 * q) (V / B) (V mod B) q = Some (2 * q', V' / B, V' mod B, q') /\
    0 <= q' <= 4194303 /\ 0 <= V' /\ q' * B * (q' * B) + V' * 2147483648 = T /\ T < (q' * B + B) * (q' * B + B).
Proof.
  assert (BV : forall q R V T, 0 <= q -> 0 < R -> q + 2 * R <= 4194304 -> 0 <= V -> q * B * (q * B) + V * (R * B) = T ->
    T < (q * B + 2 * (R * B)) * (q * B + 2 * (R * B)) -> V < 4 * B * (q + R) /\ q + R <= 4194304).
  { intros q R V T H1 H2 H3 H4 H5 H6. split; [|lia].
    replace ((q * B + 2 * (R * B)) * (q * B + 2 * (R * B))) with (q * B * (q * B) + 4 * B * (q + R) * (R * B)) in H6 by ring.
    apply Z.mul_lt_mono_pos_r with (R * B); lia. }
  assert (CM : forall t V, 0 <= V -> (t <=? V / B) = (t * B <=? V)).
  { intros t V HV. destruct (dm_of V) as [E Bd]. destruct (Z.leb_spec t (V / B)); destruct (Z.leb_spec (t * B) V); lia. }
  induction k as [|k IH]; intros q V T Hq Hb Hi ET HT.
  - change (2 ^ Z.of_nat 0) with 1 in *. destruct (BV q 1 V T) as [V1 V2]; try assumption; try lia. clear BV.
    cbn [root_d0]. change (1 =? 0) with false. cbv iota.
    change (Z.shiftr 1 1 =? 0) with true. rewrite (s32_id (2 * q + 1)) by lia. rewrite CM by lia.
    destruct (dm_of V) as [E Bd].
    destruct (Z.leb_spec ((2 * q + 1) * B) V) as [L|G]; cbv iota.
    + assert (X : V / B - (2 * q + 1) = (V - (2 * q + 1) * B) / B /\ V mod B = (V - (2 * q + 1) * B) mod B).
      { destruct (dm (V - (2 * q + 1) * B) (V / B - (2 * q + 1)) (V mod B)) as [-> ->]; [lia|lia|split; reflexivity]. }
      destruct X as [X1 X2]. rewrite (s32_id (V / B - _)) by lia. rewrite X1, X2. rewrite twice_d_spec by lia. cbv iota.
      rewrite !s32_id by lia. exists (2 * (V - (2 * q + 1) * B)), (q + 1).
      split; [replace (2 * q + 1 + 1) with (2 * (q + 1)) by ring; reflexivity|]. split; [lia|]. split; [lia|]. split; [rewrite <- ET; ring|].
      replace (q * B + 2 * (1 * B)) with ((q + 1) * B + B) in HT by ring. exact HT.
    + rewrite twice_d_spec by lia. cbv iota. exists (2 * V), q. split; [reflexivity|]. split; [lia|]. split; [lia|].
      split; [rewrite <- ET; ring|]. rewrite <- ET. nia.
  - pose proof (p2 (Z.of_nat k) ltac:(lia)) as P.
    assert (E2 : 2 ^ Z.of_nat (S k) = 2 * 2 ^ Z.of_nat k) by (rewrite Nat2Z.inj_succ, Z.pow_succ_r by lia; reflexivity).
    rewrite E2 in *. remember (S (S k)) as k1. cbn [root_d0]. set (R := 2 ^ Z.of_nat k) in *.
    destruct (BV q (2 * R) V T) as [V1 V2]; try assumption; try lia.
    destruct (Z.eqb_spec (2 * R) 0); [lia|].
    assert (SR : Z.shiftr (2 * R) 1 = R).
    { rewrite Z.shiftr_div_pow2 by lia. change (2 ^ 1) with 2. rewrite Z.mul_comm. apply Z.div_mul. lia. }
    rewrite SR. rewrite (s32_id (2 * q + 2 * R)) by lia. rewrite CM by lia. destruct (dm_of V) as [E Bd].
    destruct (Z.leb_spec ((2 * q + 2 * R) * B) V) as [L|G]; cbv iota; subst k1.
    + assert (X : V / B - (2 * q + 2 * R) = (V - (2 * q + 2 * R) * B) / B /\ V mod B = (V - (2 * q + 2 * R) * B) mod B).
      { destruct (dm (V - (2 * q + 2 * R) * B) (V / B - (2 * q + 2 * R)) (V mod B)) as [-> ->]; [lia|lia|split; reflexivity]. }
      destruct X as [X1 X2]. rewrite (s32_id (V / B - _)) by lia. rewrite X1, X2. rewrite twice_d_spec by lia. cbv iota.
      rewrite !s32_id by lia. replace (2 * q + 2 * R + 2 * R) with (2 * (q + 2 * R)) by ring.
      apply IH; [lia|lia|lia| |].
      * rewrite <- ET. ring.
      * replace ((q + 2 * R) * B + 2 * (R * B)) with (q * B + 2 * (2 * R * B)) by ring. exact HT.
    + rewrite twice_d_spec by lia. cbv iota. apply IH; [lia|lia|lia| |].
      * rewrite <- ET. ring.
      * rewrite <- ET. nia.
Qed.

(** ** The second loop: the lower half *)
Lemma sub64 : forall V X, 0 <= X <= V -> V < 4611686018427387904 ->
  (let d := s32 (V / B - X / B) in if V mod B <? X mod B then s32 (d - 1) else d) = (V - X) / B /\
  u32 (V mod B - X mod B) = (V - X) mod B.
Proof.
  intros V X H HV. destruct (dm_of V) as [E1 B1]. destruct (dm_of X) as [E2 B2].
  set (v1 := V / B) in *. set (v0 := V mod B) in *. set (x1 := X / B) in *. set (x0 := X mod B) in *. clearbody v1 v0 x1 x0. subst V X.
  cbv zeta. unfold u32. change (2 ^ 32) with B. rewrite (s32_id (v1 - x1)) by lia. destruct (Z.ltb_spec v0 x0).
  - rewrite s32_id by lia. destruct (dm (v1 * B + v0 - (x1 * B + x0)) (v1 - x1 - 1) (v0 - x0 + B)) as [-> ->]; [lia|lia|].
    split; [reflexivity|]. symmetry. apply Z.mod_unique with (-1); lia.
  - destruct (dm (v1 * B + v0 - (x1 * B + x0)) (v1 - x1) (v0 - x0)) as [-> ->]; [lia|lia|].
    split; [reflexivity|]. apply Z.mod_small. lia.
Qed.

Lemma le64 : forall V X, (X / B <? V / B) || ((X / B =? V / B) && (X mod B <=? V mod B)) = (X <=? V).
Proof.
  intros V X. destruct (dm_of V) as [E1 B1]. destruct (dm_of X) as [E2 B2].
  set (v1 := V / B) in *. set (v0 := V mod B) in *. set (x1 := X / B) in *. set (x0 := X mod B) in *. clearbody v1 v0 x1 x0. subst V X.
  destruct (Z.ltb_spec x1 v1); destruct (Z.eqb_spec x1 v1); destruct (Z.leb_spec x0 v0); cbn [orb andb]; symmetry;
    try (apply Z.leb_le; lia); apply Z.leb_gt; lia.
Qed.

(** The carry of s1 into s0. *)
Lemma carry64 : forall X R, 0 <= X < 4611686018427387904 -> 0 < R -> X mod B + 4 * R <= B \/ (X mod B = 0 /\ 2 * R = B) ->
  u32 (X mod B + R) = (X + R) mod B /\ (X + R) / B = X / B /\ u32 ((X + R) mod B + R) = (X + 2 * R) mod B /\
  (if (Z.land ((X + R) mod B) 2147483648 =? 2147483648) && (Z.land ((X + 2 * R) mod B) 2147483648 =? 0) then s32 (X / B + 1) else X / B) = (X + 2 * R) / B /\
  ((X + 2 * R) mod B + 2 * R <= B).
Proof.
  intros X R HX HR HJ. destruct (dm_of X) as [E1 B1].
  set (x1 := X / B) in *. set (x0 := X mod B) in *. clearbody x1 x0.
  destruct (dm (X + R) x1 (x0 + R)) as [D1 D2]; [lia|lia|]. rewrite D1, D2.
  unfold u32. change (2 ^ 32) with B. rewrite (Z.mod_small (x0 + R)) by lia.
  split; [reflexivity|]. split; [reflexivity|]. destruct HJ as [J|[J1 J2]].
  - destruct (dm (X + 2 * R) x1 (x0 + 2 * R)) as [D3 D4]; [lia|lia|]. rewrite D3, D4.
    rewrite (Z.mod_small (x0 + R + R)) by lia. split; [lia|]. split; [|lia].
    rewrite !land_sign by lia.
    destruct (Z.leb_spec 2147483648 (x0 + R)); destruct (Z.leb_spec 2147483648 (x0 + 2 * R)); try reflexivity. lia.
  - subst x0. assert (R = 2147483648) by lia. subst R.
    destruct (dm (X + 2 * 2147483648) (x1 + 1) 0) as [D3 D4]; [lia|lia|]. rewrite D3, D4.
    change ((0 + 2147483648 + 2147483648) mod B) with 0. split; [reflexivity|]. split; [|lia].
    change (Z.land (0 + 2147483648) 2147483648 =? 2147483648) with true. change (Z.land 0 2147483648 =? 0) with true. cbn [andb].
    apply s32_id. lia.
Qed.

Lemma root_d1_spec : forall k c Q V T, 0 <= c < 4194304 -> c * B <= Q -> Q + 2 * 2 ^ Z.of_nat k <= c * B + B -> 0 <= V ->
  Q * Q + V * 2 ^ Z.of_nat k = T -> T < (Q + 2 * 2 ^ Z.of_nat k) * (Q + 2 * 2 ^ Z.of_nat k) ->
  (2 * Q) mod B + 4 * 2 ^ Z.of_nat k <= B \/ ((2 * Q) mod B = 0 /\ 2 * 2 ^ Z.of_nat k = B) ->
  exists V' Q', root_d1 (S (S k)) (2 ^ Z.of_nat k) (2 * Q / B) ((2 * Q) mod B) (V / B) (V mod B) (Q - c * B) = Some (V' / B, V' mod B, Q' - c * B) /\
    c * B <= Q' < c * B + B /\ Q' * Q' <= T < (Q' + 1) * (Q' + 1) /\ V' = 2 * (T - Q' * Q').
Proof.
  assert (BV : forall Q R V T, 0 <= Q -> 0 < R -> 0 <= V -> Q * Q + V * R = T ->
    T < (Q + 2 * R) * (Q + 2 * R) -> V < 4 * (Q + R)).
  { intros Q R V T H1 H2 H4 H5 H6.
    replace ((Q + 2 * R) * (Q + 2 * R)) with (Q * Q + 4 * (Q + R) * R) in H6 by ring.
    apply Z.mul_lt_mono_pos_r with R; lia. }
  induction k as [|k IH]; intros c Q V T Hc Hq Hb Hi ET HT HJ.
  - change (2 ^ Z.of_nat 0) with 1 in *. pose proof (BV Q 1 V T ltac:(lia) ltac:(lia) Hi ET HT) as VB. clear BV.
    cbn [root_d1]. change (1 =? 0) with false. cbv iota.
    change (Z.shiftr 1 1 =? 0) with true.
    destruct (carry64 (2 * Q) 1 ltac:(lia) ltac:(lia) HJ) as (C1 & C2 & C3 & C4 & C5).
    rewrite C1, C3. cbv zeta. rewrite C4. pose proof (le64 V (2 * Q + 1)) as CC. rewrite C2 in CC. rewrite CC.
    destruct (Z.leb_spec (2 * Q + 1) V) as [L|G]; cbv iota.
    + destruct (sub64 V (2 * Q + 1) ltac:(lia) ltac:(lia)) as [S1 S2]. cbv zeta in S1. rewrite C2 in S1. rewrite S1, S2.
      rewrite twice_d_spec by lia. cbv iota. rewrite u32_small by lia.
      exists (2 * (V - (2 * Q + 1))), (Q + 1). split; [replace (Q - c * B + 1) with (Q + 1 - c * B) by ring; reflexivity|]. split; [lia|]. split; [nia|]. nia.
    + rewrite twice_d_spec by lia. cbv iota. exists (2 * V), Q. split; [reflexivity|]. split; [lia|]. split; [nia|]. nia.
  - pose proof (p2 (Z.of_nat k) ltac:(lia)) as P.
    assert (E2 : 2 ^ Z.of_nat (S k) = 2 * 2 ^ Z.of_nat k) by (rewrite Nat2Z.inj_succ, Z.pow_succ_r by lia; reflexivity).
    rewrite E2 in *. remember (S (S k)) as k1. cbn [root_d1]. set (R := 2 ^ Z.of_nat k) in *.
    pose proof (BV Q (2 * R) V T ltac:(lia) ltac:(lia) Hi ET HT) as VB.
    destruct (Z.eqb_spec (2 * R) 0); [lia|].
    assert (SR : Z.shiftr (2 * R) 1 = R).
    { rewrite Z.shiftr_div_pow2 by lia. change (2 ^ 1) with 2. rewrite Z.mul_comm. apply Z.div_mul. lia. }
    rewrite SR. destruct (carry64 (2 * Q) (2 * R) ltac:(lia) ltac:(lia) HJ) as (C1 & C2 & C3 & C4 & C5).
    rewrite C1, C3. cbv zeta. rewrite C4. pose proof (le64 V (2 * Q + 2 * R)) as CC. rewrite C2 in CC. rewrite CC.
    destruct (Z.leb_spec (2 * Q + 2 * R) V) as [L|G]; cbv iota; subst k1.
    + destruct (sub64 V (2 * Q + 2 * R) ltac:(lia) ltac:(lia)) as [S1 S2]. cbv zeta in S1. rewrite C2 in S1. rewrite S1, S2.
      rewrite twice_d_spec by lia. cbv iota. rewrite u32_small by lia.
      replace (2 * Q + 2 * (2 * R)) with (2 * (Q + 2 * R)) by ring. replace (Q - c * B + 2 * R) with (Q + 2 * R - c * B) by ring.
      apply IH; [lia|lia|lia|lia| | |].
      * rewrite <- ET. ring.
      * replace (Q + 2 * R + 2 * R) with (Q + 2 * (2 * R)) by ring. exact HT.
      * left. replace (2 * (Q + 2 * R)) with (2 * Q + 2 * (2 * R)) by ring. lia.
    + rewrite twice_d_spec by lia. cbv iota. apply IH; [lia|lia|lia|lia| | |].
      * rewrite <- ET. ring.
      * rewrite <- ET. clear - G P. assert (V * (2 * R) < (2 * Q + 2 * R) * (2 * R)) by (apply Z.mul_lt_mono_pos_r; lia).
        replace ((Q + 2 * R) * (Q + 2 * R)) with (Q * Q + (2 * Q + 2 * R) * (2 * R)) by ring. lia.
      * left. destruct HJ as [J|[J1 J2]]; lia.
Qed.

Lemma or_zero : forall V, 0 <= V < 4611686018427387904 -> (Z.lor (u32 (V / B)) (V mod B) =? 0) = (V =? 0).
Proof.
  intros V H. destruct (dm_of V) as [E Bd]. rewrite u32_small by lia. apply eq_true_iff_eq. rewrite !Z.eqb_eq, Z.lor_eq_0_iff. lia.
Qed.

Lemma d_const : fle double d_one (fsub double d_one d_tiny) = true /\ flt double d_one (fadd double d_one d_tiny) = false.
Proof. split; vm_compute; reflexivity. Qed.

Lemma round_d_spec : forall c Q T, T mod 2 = 0 -> 0 <= c < 4194304 -> c * B <= Q < c * B + B ->
  0 <= 2 * (T - Q * Q) < 4611686018427387904 ->
  round_d (2 * (T - Q * Q) / B) ((2 * (T - Q * Q)) mod B) c (Q - c * B) = ((Q + Q mod 2) / B, (Q + Q mod 2) mod B).
Proof.
  intros c Q T Te Hc HQ HV. unfold round_d. pose proof (Z.mod_pos_bound Q 2 ltac:(lia)) as Bq.
  rewrite or_zero by exact HV. destruct d_const as [-> ->].
  destruct (Z.eqb_spec (2 * (T - Q * Q)) 0) as [X|X].
  - assert (T = Q * Q) by lia. subst T. rewrite Z.mul_mod in Te by lia.
    assert (Q mod 2 = 0 \/ Q mod 2 = 1) as [-> | Y] by lia; [|rewrite Y in Te; discriminate Te].
    rewrite Z.add_0_r. destruct (dm Q c (Q - c * B)) as [-> ->]; [lia|lia|]. reflexivity.
  - assert (Q2 : Q mod 2 = (Q - c * B) mod 2).
    { replace Q with (Q - c * B + c * 2147483648 * 2) at 1 by ring. apply Z.mod_add. lia. }
    destruct (Z.eqb_spec (Q - c * B) 4294967295) as [F|F].
    + rewrite s32_id by lia. rewrite Q2, F. change (4294967295 mod 2) with 1.
      destruct (dm (Q + 1) (c + 1) 0) as [-> ->]; [lia|lia|]. reflexivity.
    + rewrite land_one, <- Q2.
      assert (L : Q - c * B + Q mod 2 < B) by lia.
      rewrite u32_small by lia. destruct (dm (Q + Q mod 2) c (Q - c * B + Q mod 2)) as [-> ->]; [lia|lia|]. reflexivity.
Qed.

(** The two words of the result put together. *)
Lemma pack_d : forall Q m, 0 <= Q <= 18014398509481984 -> Q mod 2 = 0 -> 2199023255552 * 4096 <= Q -> -537 <= m <= 511 ->
  ins false (s32 (s32 (Z.shiftr (Q / B) 1 + 1071644672) + s32 (Z.shiftl m 20)))
    (if Z.land (Q / B) 1 =? 1 then Z.lor (Z.shiftr (Q mod B) 1) 2147483648 else Z.shiftr (Q mod B) 1) =
  Q / 2 + (m + 1021 + 1) * 4503599627370496.
Proof.
  intros Q m HQ Q2 Ql Hm. destruct (dm_of Q) as [E Bd]. set (q := Q / B) in *. set (q1 := Q mod B) in *. clearbody q q1.
  rewrite land_one, !Z.shiftr_div_pow2, Z.shiftl_mul_pow2 by lia. change (2 ^ 1) with 2. change (2 ^ 20) with 1048576.
  pose proof (Z.div_mod q 2 ltac:(lia)) as Dq. pose proof (Z.mod_pos_bound q 2 ltac:(lia)) as Bq.
  pose proof (Z.div_mod q1 2 ltac:(lia)) as D1. pose proof (Z.mod_pos_bound q1 2 ltac:(lia)) as B1.
  pose proof (Z.div_mod Q 2 ltac:(lia)) as DQ.
  set (qh := q / 2) in *. set (ql := q mod 2) in *. set (q1h := q1 / 2) in *. set (q1l := q1 mod 2) in *. set (Qh := Q / 2) in *. clearbody qh ql q1h q1l Qh.
  rewrite (s32_id (qh + 1071644672)) by lia. rewrite (s32_id (m * 1048576)) by lia.
  assert (L : (if ql =? 1 then Z.lor q1h 2147483648 else q1h) = q1h + ql * 2147483648).
  { assert (ql = 0 \/ ql = 1) as [-> | ->] by lia; [cbn [Z.eqb]; lia|]. change (1 =? 1) with true. cbv iota.
    change 2147483648 with (1 * 2 ^ 31) at 1. rewrite Z.lor_comm, lor_disjoint by (change (2 ^ 31) with 2147483648; lia).
    change (2 ^ 31) with 2147483648. lia. }
  rewrite L. unfold ins. rewrite u32_s32. change (2 ^ 32) with B. rewrite !u32_small by lia. lia.
Qed.

Definition tail_d (ix0 ix1 m : Z) : option Z :=
    let m := m - 1023 in
    let ix0 := Z.lor (Z.land ix0 0xfffff) 0x100000 in
    let '(ix0, ix1) := if Z.land m 1 =? 0 then (ix0, ix1) else twice_d ix0 ix1 in
    let m := Z.shiftr m 1 in
    let '(ix0, ix1) := twice_d ix0 ix1 in
    match root_d0 23 0x200000 0 ix0 ix1 0 with
    | None => None
    | Some (s0, ix0, ix1, q) =>
      match root_d1 33 0x80000000 s0 0 ix0 ix1 0 with
      | None => None
      | Some (ix0, ix1, q1) =>
        let '(q, q1) := round_d ix0 ix1 q q1 in
        let ix0 := s32 (Z.shiftr q 1 + 0x3fe00000) in
        let ix1 := Z.shiftr q1 1 in
        let ix1 := if Z.land q 1 =? 1 then Z.lor ix1 0x80000000 else ix1 in
        Some (ins false (s32 (ix0 + s32 (Z.shiftl m 20))) ix1)
      end
    end.

Lemma tail_d_spec : forall x X e0, 0 <= X -> -52 <= e0 <= 2045 ->
  val double x * one double = (4503599627370496 + X mod 4503599627370496) * 2 ^ (e0 + 1074) ->
  exists r, tail_d (X / B) (X mod B) (e0 + 1) = Some r /\ sqrt_of double x r.
Proof.
  intros x X e0 HX He EV. unfold tail_d. cbv zeta. change 1048575 with (2 ^ 20 - 1). change 1048576 with (2 ^ 20).
  rewrite hidden by lia. change (2 ^ 20) with 1048576.
  pose proof (Z.mod_pos_bound X 4503599627370496 ltac:(lia)) as BA.
  assert (EA : 1048576 + (X / B) mod 1048576 = (4503599627370496 + X mod 4503599627370496) / B /\
               X mod B = (4503599627370496 + X mod 4503599627370496) mod B).
  { assert (Xm : X mod 4503599627370496 = (X / B) mod 1048576 * B + X mod B).
    { change 4503599627370496 with (B * 1048576). rewrite Z.rem_mul_r by lia. lia. }
    rewrite Xm. destruct (dm_of X) as [_ Bd].
    destruct (dm (4503599627370496 + ((X / B) mod 1048576 * B + X mod B)) (1048576 + (X / B) mod 1048576) (X mod B)) as [-> ->]; [lia|lia|split; reflexivity]. }
  destruct EA as [EA1 EA2]. rewrite EA1, EA2.
  set (A := 4503599627370496 + X mod 4503599627370496) in *.
  assert (HA : 4503599627370496 <= A < 9007199254740992) by (unfold A; lia). clearbody A. clear EA1 EA2 BA HX.
  rewrite land_one, Z.shiftr_div_pow2 by lia. change (2 ^ 1) with 2.
  pose proof (Z.div_mod (e0 + 1 - 1023) 2 ltac:(lia)) as DM. pose proof (Z.mod_pos_bound (e0 + 1 - 1023) 2 ltac:(lia)) as BM.
  set (m := (e0 + 1 - 1023) / 2) in *. set (o := (e0 + 1 - 1023) mod 2) in *. clearbody m o.
  set (A0 := if o =? 0 then 2 * A else 4 * A).
  assert (HA0 : 9007199254740992 <= A0 < 36028797018963968) by (unfold A0; destruct (o =? 0); lia).
  assert (E0 : (let '(i0, i1) := if o =? 0 then (A / B, A mod B) else twice_d (A / B) (A mod B) in twice_d i0 i1) = (A0 / B, A0 mod B)).
  { unfold A0. destruct (o =? 0).
    - apply twice_d_spec. lia.
    - rewrite twice_d_spec by lia. rewrite twice_d_spec by lia. replace (2 * (2 * A)) with (4 * A) by ring. reflexivity. }
  destruct (if o =? 0 then (A / B, A mod B) else twice_d (A / B) (A mod B)) as [i0 i1]. rewrite E0. cbv iota.
  destruct (root_d0_spec 21 0 A0 (A0 * 9007199254740992)) as (V' & q & R & Bq & V0 & ET & TB).
  - lia.
  - change (2 ^ Z.of_nat 21) with 2097152. lia.
  - lia.
  - change (2 ^ Z.of_nat 21) with 2097152. lia.
  - change (2 ^ Z.of_nat 21) with 2097152. lia.
  - change (2 ^ Z.of_nat 21) with 2097152 in R. change (2 * 0) with 0 in R. rewrite R. clear R.
    destruct (root_d1_spec 31 q (q * B) V' (A0 * 9007199254740992)) as (V2 & Q & R & BQ & QT & EV2).
    + lia.
    + lia.
    + change (2 ^ Z.of_nat 31) with 2147483648. lia.
    + lia.
    + change (2 ^ Z.of_nat 31) with 2147483648. exact ET.
    + change (2 ^ Z.of_nat 31) with 2147483648. change (2 * 2147483648) with B. exact TB.
    + change (2 ^ Z.of_nat 31) with 2147483648. right. split; [|reflexivity]. replace (2 * (q * B)) with (2 * q * B) by ring. apply Z.mod_mul. lia.
    + change (2 ^ Z.of_nat 31) with 2147483648 in R.
      assert (D1 : 2 * (q * B) / B = 2 * q) by (replace (2 * (q * B)) with (2 * q * B) by ring; apply Z.div_mul; lia).
      assert (D2 : (2 * (q * B)) mod B = 0) by (replace (2 * (q * B)) with (2 * q * B) by ring; apply Z.mod_mul; lia).
      rewrite D1, D2, Z.sub_diag in R. rewrite R. subst V2.
      assert (Te : (A0 * 9007199254740992) mod 2 = 0).
      { replace (A0 * 9007199254740992) with (A0 * 4503599627370496 * 2) by ring. apply Z.mod_mul. lia. }
      clear R D1 D2 ET TB V0 V' E0.
      set (T := A0 * 9007199254740992) in *.
      assert (Q1 : 9007199254740992 <= Q) by (clear - QT HA0 BQ Bq; unfold T in QT; nia).
      assert (Q2 : Q < 18014398509481984) by (clear - QT HA0 BQ Bq; unfold T in QT; nia).
      rewrite round_d_spec; [|exact Te|lia|exact BQ|].
      2:{ clear - QT Q1 Q2. nia. }
      pose proof (Z.mod_pos_bound Q 2 ltac:(lia)) as Mq. pose proof (Z.div_mod Q 2 ltac:(lia)) as Dq.
      set (Q' := Q + Q mod 2).
      assert (Qe : Q' = 2 * (Q / 2 + Q mod 2)) by (unfold Q'; lia).
      assert (Qm : Q' mod 2 = 0) by (rewrite Qe, Z.mul_comm; apply Z.mod_mul; lia).
      assert (Hh : 2 * (Q' / 2) = Q + Q mod 2).
      { fold Q'. pose proof (Z.div_mod Q' 2 ltac:(lia)). lia. }
      eexists. split; [reflexivity|]. rewrite pack_d by (unfold Q'; lia).
      apply (sqrt_nearest double d_mb d_eb d_range x T Q (Q' / 2) (m + 1021)).
      * exact Te.
      * lia.
      * lia.
      * exact QT.
      * cbn [mb double]. change (2 ^ 52) with 4503599627370496. unfold T. lia.
      * exact Hh.
      * cbn [mb double]. change (2 ^ 52) with 4503599627370496. rewrite d_infw. lia.
      * rewrite EV. rewrite <- p2_split by lia.
        unfold T. change 9007199254740992 with (2 ^ 53). unfold A0.
        assert (o = 0 \/ o = 1) as [-> | ->] by lia.
        -- change (0 =? 0) with true. cbv iota. rewrite <- Z.mul_assoc, <- p2_split by lia.
           replace (e0 + 1074) with (1 + (53 + (m + 1021 + (m + 1021)))) by lia. rewrite (p2_split 1) by lia. change (2 ^ 1) with 2. ring.
        -- change (1 =? 0) with false. cbv iota. rewrite <- Z.mul_assoc, <- p2_split by lia.
           replace (e0 + 1074) with (2 + (53 + (m + 1021 + (m + 1021)))) by lia. rewrite (p2_split 2) by lia. change (2 ^ 2) with 4. ring.
Qed.

(** ** Subnormal arguments *)
Lemma norm_step : forall b, 0 <= b < B ->
  s32 (Z.lor (u32 0) (Z.shiftr b 11)) = b * 2097152 / B /\ u32 (Z.shiftl b 21) = (b * 2097152) mod B.
Proof.
  intros b H. change (u32 0) with 0. rewrite Z.lor_0_l, Z.shiftr_div_pow2, Z.shiftl_mul_pow2 by lia. change (2 ^ 11) with 2048. change (2 ^ 21) with 2097152.
  split; [|reflexivity]. change B with (2048 * 2097152). rewrite Z.div_mul_cancel_r by lia.
  apply s32_id. pose proof (Z.div_mod b 2048 ltac:(lia)). pose proof (Z.mod_pos_bound b 2048 ltac:(lia)). lia.
Qed.

Lemma norm_d0_spec : forall a, 0 < a < 4503599627370496 ->
  exists j, 0 <= j <= 42 /\ norm_d0 4 (a / B) (a mod B) 0 = Some (a * 2 ^ j / B, (a * 2 ^ j) mod B, - j) /\
    B <= a * 2 ^ j < 9007199254740992 /\
    (a * 2 ^ j < 4503599627370496 <-> ~ (2147483648 <= a < B \/ 1024 <= a < 2048)).
Proof.
  intros a Ha. destruct (dm_of a) as [E Bd].
  destruct (Z_lt_le_dec a B) as [L|G].
  - assert (a / B = 0) by lia. assert (a mod B = a) by lia.
    destruct (norm_step a ltac:(lia)) as [S1 S2].
    destruct (Z_lt_le_dec a 2048) as [L2|G2].
    + exists 42. split; [lia|]. change (2 ^ 42) with 4398046511104. split; [|split; [lia|lia]].
      remember 3%nat as n. cbn [norm_d0]. destruct (Z.eqb_spec (a / B) 0); [|lia]. replace (a / B) with 0 by lia. replace (a mod B) with a by lia.
      rewrite S1, S2. destruct (dm (a * 2097152) 0 (a * 2097152)) as [D1 D2]; [lia|lia|]. rewrite D1, D2.
      destruct (norm_step (a * 2097152) ltac:(lia)) as [S3 S4].
      subst n. remember 2%nat as n. cbn [norm_d0]. change (0 =? 0) with true. cbv iota. rewrite S3, S4.
      replace (a * 2097152 * 2097152) with (a * 4398046511104) by ring.
      subst n. remember 1%nat as n. cbn [norm_d0].
      pose proof (dm_of (a * 4398046511104)) as [E5 B5].
      destruct (Z.eqb_spec (a * 4398046511104 / B) 0); [lia|]. reflexivity.
    + exists 21. split; [lia|]. change (2 ^ 21) with 2097152. split; [|split; [lia|lia]].
      remember 3%nat as n. cbn [norm_d0]. destruct (Z.eqb_spec (a / B) 0); [|lia]. replace (a / B) with 0 by lia. replace (a mod B) with a by lia.
      rewrite S1, S2. subst n. remember 2%nat as n. cbn [norm_d0].
      pose proof (dm_of (a * 2097152)) as [E5 B5].
      destruct (Z.eqb_spec (a * 2097152 / B) 0); [lia|]. reflexivity.
  - exists 0. split; [lia|]. change (2 ^ 0) with 1. rewrite Z.mul_1_r. split; [|split; [lia|lia]].
    cbn [norm_d0]. destruct (Z.eqb_spec (a / B) 0); [lia|]. reflexivity.
Qed.

Lemma norm_d1_spec : forall n ix i, 0 < ix < 2097152 -> 21 - Z.log2 ix <= Z.of_nat n ->
  norm_d1 n ix i = Some (ix * 2 ^ (20 - Z.log2 ix), i + (20 - Z.log2 ix)).
Proof.
  induction n as [|n IH]; intros ix i H Hn.
  - exfalso. assert (Z.log2 ix < 21) by (apply Z.log2_lt_pow2; [lia|]; change (2 ^ 21) with 2097152; lia). lia.
  - cbn [norm_d1]. change 1048576 with (2 ^ 20). rewrite land_bit by lia. change (2 ^ 20) with 1048576.
    destruct (Z_lt_le_dec ix 1048576) as [L|G].
    + rewrite (Z.div_small ix 1048576) by lia. change (0 mod 2 * 1048576 =? 0) with true. cbv iota.
      rewrite Z.shiftl_mul_pow2 by lia. change (2 ^ 1) with 2. rewrite s32_id by lia.
      assert (E : Z.log2 (ix * 2) = Z.log2 ix + 1) by (rewrite Z.mul_comm, Z.log2_double by lia; lia).
      assert (Z.log2 ix < 20) by (apply Z.log2_lt_pow2; [lia|]; change (2 ^ 20) with 1048576; lia).
      rewrite IH by lia. rewrite E. f_equal. f_equal; [|lia].
      replace (20 - Z.log2 ix) with (1 + (20 - (Z.log2 ix + 1))) by lia. rewrite p2_split by lia. change (2 ^ 1) with 2. lia.
    + assert (D : ix / 1048576 = 1) by (symmetry; apply Z.div_unique with (ix - 1048576); lia).
      rewrite D. change (1 mod 2 * 1048576 =? 0) with false. cbv iota.
      assert (Z.log2 ix = 20) as -> by (apply Z.log2_unique; [lia|]; change (2 ^ 20) with 1048576; change (2 ^ Z.succ 20) with 2097152; lia).
      change (2 ^ (20 - 20)) with 1. f_equal. f_equal; lia.
Qed.

(** The bits that move from the lower word to the upper one. *)
Lemma shift64 : forall Y i, 1 <= i <= 31 -> 0 <= Y -> Y * 2 ^ i < 9223372036854775808 ->
  s32 (Z.lor (u32 (Y / B * 2 ^ i)) (Z.shiftr (Y mod B) (32 - i))) = Y * 2 ^ i / B /\ u32 (Z.shiftl (Y mod B) i) = (Y * 2 ^ i) mod B.
Proof.
  intros Y i Hi HY HB. destruct (dm_of Y) as [E Bd]. set (y1 := Y / B) in *. set (y0 := Y mod B) in *. clearbody y1 y0.
  pose proof (p2 i ltac:(lia)) as Pi. pose proof (p2 (32 - i) ltac:(lia)) as Pj.
  assert (PB : 2 ^ (32 - i) * 2 ^ i = B) by (rewrite <- p2_split by lia; replace (32 - i + i) with 32 by lia; reflexivity).
  rewrite Z.shiftr_div_pow2, Z.shiftl_mul_pow2 by lia. set (I := 2 ^ i) in *. set (J := 2 ^ (32 - i)) in *.
  pose proof (Z.div_mod y0 J ltac:(lia)) as D0. pose proof (Z.mod_pos_bound y0 J ltac:(lia)) as B0.
  set (c := y0 / J) in *. set (f := y0 mod J) in *. clearbody c f.
  assert (C : 0 <= c < I) by nia.
  assert (FI : 0 <= f * I < B) by nia.
  assert (EY : Y * I = (y1 * I + c) * B + f * I) by (rewrite E, D0, <- PB; ring).
  assert (Y1 : 0 <= y1) by lia.
  assert (X1 : 0 <= y1 * I) by (apply Z.mul_nonneg_nonneg; lia).
  assert (X2 : y1 * I + c < 2147483648) by (clear - EY HB FI; lia).
  rewrite (u32_small (y1 * I)) by (clear - X1 X2 C; lia).
  assert (L : Z.lor (y1 * I) c = y1 * I + c) by (apply lor_disjoint; [lia|exact C]).
  rewrite L. destruct (dm (Y * I) (y1 * I + c) (f * I) EY FI) as [-> ->]. split.
  - apply s32_id. clear - X1 X2 C. lia.
  - unfold u32. change (2 ^ 32) with B. rewrite D0. replace ((J * c + f) * I) with (f * I + c * B) by (rewrite <- PB; ring).
    rewrite Z.mod_add by lia. apply Z.mod_small. exact FI.
Qed.

Lemma norm_d_spec : forall a, 0 < a < 4503599627370496 ->
  (~ (2147483648 <= a < B \/ 1024 <= a < 2048) ->
   exists k, 1 <= k <= 52 /\ norm_d (a / B) (a mod B) 0 = Some (a * 2 ^ k / B, (a * 2 ^ k) mod B, - k + 1) /\
     4503599627370496 <= a * 2 ^ k < 9007199254740992) /\
  ((2147483648 <= a < B \/ 1024 <= a < 2048) -> norm_d (a / B) (a mod B) 0 = None).
Proof.
  intros a Ha. destruct (norm_d0_spec a Ha) as (j & Hj & E & R & U).
  assert (P : 0 < 2 ^ j) by (apply p2; lia).
  unfold norm_d. rewrite E. set (Y := a * 2 ^ j) in *.
  destruct (dm_of Y) as [EY BY].
  assert (YR : 0 < Y / B < 2097152) by lia.
  assert (L20 : Z.log2 (Y / B) <= 20).
  { assert (Z.log2 (Y / B) < 21) by (apply Z.log2_lt_pow2; [lia|]; change (2 ^ 21) with 2097152; lia). lia. }
  pose proof (Z.log2_nonneg (Y / B)) as L0.
  rewrite norm_d1_spec by lia. rewrite Z.add_0_l.
  pose proof (Z.log2_spec (Y / B) ltac:(lia)) as [S1 S2]. rewrite Z.pow_succ_r in S2 by lia.
  set (i := 20 - Z.log2 (Y / B)) in *.
  assert (X : 2 ^ Z.log2 (Y / B) * 2 ^ i = 1048576) by (rewrite <- p2_split by lia; replace (Z.log2 (Y / B) + i) with 20 by lia; reflexivity).
  pose proof (p2 i ltac:(lia)) as Pi.
  assert (I0 : i = 0 <-> 4503599627370496 <= Y).
  { split.
    - intros I0. rewrite I0 in X. change (2 ^ 0) with 1 in X. lia.
    - intros G. destruct (Z.eq_dec i 0) as [|N]; [assumption|exfalso].
      pose proof (p2_le (Z.log2 (Y / B)) 19 ltac:(lia) L0) as PL. change (2 ^ 19) with 524288 in PL. lia. }
  split.
  - intros H. apply U in H. destruct (Z.eqb_spec i 0) as [Z0'|N]; [lia|].
    destruct (shift64 Y i ltac:(lia) ltac:(lia)) as [T1 T2].
    + assert (Y * 2 ^ i < 9007199254740992); [|lia]. clear - EY BY S2 X Pi. set (w := 2 ^ Z.log2 (Y / B)) in *. nia.
    + rewrite T1, T2. exists (j + i).
      assert (XX : Y * 2 ^ i = a * 2 ^ (j + i)) by (unfold Y; rewrite <- Z.mul_assoc, <- p2_split by lia; reflexivity).
      rewrite XX. split.
      * split; [lia|].
        assert (j + i < 53); [|lia]. apply (Z.pow_lt_mono_r_iff 2); [lia|lia|]. change (2 ^ 53) with 9007199254740992.
        apply Z.le_lt_trans with (a * 2 ^ (j + i)).
        -- pose proof (p2 (j + i) ltac:(lia)). nia.
        -- rewrite <- XX. clear - EY BY S2 X Pi. set (w := 2 ^ Z.log2 (Y / B)) in *. nia.
      * split; [do 2 f_equal; lia|]. rewrite <- XX. clear - EY BY S1 S2 X Pi. set (w := 2 ^ Z.log2 (Y / B)) in *. set (y := Y / B) in *. set (y0 := Y mod B) in *. clearbody w y y0.
        assert (W1 : w * 2 ^ i <= y * 2 ^ i) by (apply Z.mul_le_mono_nonneg_r; lia).
        assert (W2 : (y + 1) * 2 ^ i <= 2 * w * 2 ^ i) by (apply Z.mul_le_mono_nonneg_r; lia).
        assert (W3 : 0 <= y0 * 2 ^ i < B * 2 ^ i) by (split; [apply Z.mul_nonneg_nonneg; lia|apply Z.mul_lt_mono_pos_r; lia]).
        subst Y. lia.
  - intros H. destruct (Z.eqb_spec i 0) as [|N]; [reflexivity|exfalso]. apply N, I0.
    destruct (Z_lt_le_dec Y 4503599627370496) as [L|G]; [|exact G]. exfalso. apply U in L. exact (L H).
Qed.

(** The subnormal numbers for which e_sqrt.c:135 shifts by 32. *)
Definition bad_shift (a : Z) : Prop := 2147483648 <= a < B \/ 1024 <= a < 2048.

Theorem sqrt_spec : forall x, word double x -> finite double x -> neg double x = false -> ~ is_zero double x ->
  (~ bad_shift (absw double x) -> exists r, c_sqrt false x = Some r /\ sqrt_of double x r) /\
  (bad_shift (absw double x) -> c_sqrt false x = None).
Proof.
  intros x W Fx N N0. destruct (d_bound x W) as [Ex Bx]. unfold finite in Fx. rewrite d_infw in Fx. unfold is_zero in N0.
  destruct (d_hi_abs x W) as (_ & _ & Ll & Hh & _).
  pose proof (d_hi_val x W) as Hv. rewrite N, Z.add_0_l in Hv.
  assert (V : val double x = mag double (absw double x)) by (unfold val; rewrite N; reflexivity).
  unfold c_sqrt. rewrite Hv, Ll. set (a := absw double x) in *. clearbody a.
  destruct (dm_of a) as [Ea Ba].
  rewrite s32_id by lia.
  change 2146435072 with ((2 ^ 11 - 1) * 2 ^ 20). rewrite land_field by lia. change (2 ^ 11) with 2048. change (2 ^ 20) with 1048576.
  assert (EE : a / B / 1048576 = a / 4503599627370496) by (rewrite Z.div_div by lia; reflexivity). rewrite EE.
  pose proof (Z.div_mod a 4503599627370496 ltac:(lia)) as DM. pose proof (Z.mod_pos_bound a 4503599627370496 ltac:(lia)) as BM.
  assert (E0 : 0 <= a / 4503599627370496 < 2047) by lia.
  rewrite (Z.mod_small (a / 4503599627370496) 2048) by lia.
  destruct (Z.eqb_spec (a / 4503599627370496 * 1048576) ((2048 - 1) * 1048576)); [lia|].
  assert (Z1 : (Z.lor (Z.land (a / B) 2147483647) (a mod B) =? 0) = false).
  { apply Z.eqb_neq. rewrite Z.lor_eq_0_iff. change 2147483647 with (2 ^ 31 - 1). rewrite land_low by lia. change (2 ^ 31) with 2147483648.
    rewrite Z.mod_small by lia. lia. }
  rewrite Z1, andb_false_r. destruct (Z.ltb_spec (a / B) 0) as [Lt|_]; [lia|]. rewrite andb_false_r.
  rewrite Z.shiftr_div_pow2 by lia. change (2 ^ 20) with 1048576. rewrite EE.
  assert (O : one double = 2 ^ 1074) by reflexivity.
  destruct (Z.eqb_spec (a / 4503599627370496) 0) as [Z|Nz].
  - assert (L : a < 4503599627370496) by lia. rewrite Z.
    destruct (norm_d_spec a ltac:(lia)) as [K1 K2]. unfold bad_shift. split; intros Hs.
    + destruct (K1 Hs) as (k & Hk & E & R). rewrite E.
      apply (tail_d_spec x (a * 2 ^ k) (- k)); [lia|lia|].
      rewrite V, (mag_small double d_mb d_eb d_range), O by (cbn [mb double]; change (2 ^ 52) with 4503599627370496; lia).
      assert ((a * 2 ^ k) mod 4503599627370496 = a * 2 ^ k - 4503599627370496) as -> by (symmetry; apply Z.mod_unique with 1; lia).
      replace (4503599627370496 + (a * 2 ^ k - 4503599627370496)) with (a * 2 ^ k) by ring. rewrite <- Z.mul_assoc, <- p2_split by lia. do 2 f_equal. lia.
    + rewrite K2 by exact Hs. reflexivity.
  - unfold bad_shift. split; intros Hs; [|exfalso; lia].
    replace (a / 4503599627370496) with (a / 4503599627370496 - 1 + 1) by lia.
    apply (tail_d_spec x a (a / 4503599627370496 - 1)); [lia|lia|].
    rewrite V, (mag_large double d_mb d_eb d_range), O by (cbn [mb double]; change (2 ^ 52) with 4503599627370496; lia).
    cbn [mb double]. change (2 ^ 52) with 4503599627370496. rewrite <- Z.mul_assoc, <- p2_split by lia. do 2 f_equal.
Qed.
