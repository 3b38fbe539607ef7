(** Square roots and remainders in any format. *)
From Verif Require Import Model.Base Spec.Ieee Spec.LibmSpec Model.Float Proof.FloatProof Proof.FloatRound Proof.FloatScale Proof.FloatParts.

Section Format.
Set Default Proof Using "All".
Variable F : fmt.
Hypothesis Hmb : 1 <= mb F.
Hypothesis Heb : 3 <= eb F.
Hypothesis Hrange : mb F + 2 <= bias F.
Notation M := (2 ^ mb F).

(** Numbers from M * 2^t on are multiples of 2^t. *)
Lemma mag_multiple : forall b t, 0 <= b -> 0 <= t -> M * 2 ^ t <= mag F b -> exists c, mag F b = c * 2 ^ t.
Proof.
  intros b t Hb Ht L. pose proof (M_pos F Hmb Heb Hrange) as HM.
  assert (G : (t + 1) * M <= b).
  { destruct (Z_le_gt_dec ((t + 1) * M) b) as [X|X]; [exact X|exfalso].
    pose proof (mag_mono F Hmb Heb Hrange b ((t + 1) * M + 0) Hb ltac:(lia)) as Y.
    rewrite (mag_fields F Hmb Heb Hrange) in Y by lia. replace (t + 1 - 1) with t in Y by lia. lia. }
  assert (E : t + 1 <= b / M) by (apply Z.div_le_lower_bound; lia).
  rewrite (mag_large F Hmb Heb Hrange) by lia.
  exists ((M + b mod M) * 2 ^ (b / M - 1 - t)). rewrite <- Z.mul_assoc, <- p2_split by lia. do 2 f_equal. lia.
Qed.

(** The neighbours of h * 2^t. *)
Lemma above : forall b h t, 0 <= b -> 0 <= t -> M <= h -> h * 2 ^ t < mag F b -> (h + 1) * 2 ^ t <= mag F b.
Proof.
  intros b h t Hb Ht Hh L. pose proof (p2 t Ht) as P.
  destruct (mag_multiple b t Hb Ht ltac:(nia)) as [c E]. rewrite E in *. apply Z.mul_lt_mono_pos_r in L; [|exact P].
  apply Z.mul_le_mono_nonneg_r; lia.
Qed.

Lemma below : forall b h t, 0 <= b -> 0 <= t -> M < h -> mag F b < h * 2 ^ t -> mag F b <= (h - 1) * 2 ^ t.
Proof.
  intros b h t Hb Ht Hh L. pose proof (p2 t Ht) as P.
  destruct (Z_lt_le_dec (mag F b) (M * 2 ^ t)) as [X|X]; [nia|].
  destruct (mag_multiple b t Hb Ht X) as [c E]. rewrite E in *. apply Z.mul_lt_mono_pos_r in L; [|exact P].
  apply Z.mul_le_mono_nonneg_r; lia.
Qed.

(** The word of h * 2^t. *)
Lemma mag_word : forall h t, M <= h <= 2 * M -> 0 <= t -> mag F (h + t * M) = h * 2 ^ t.
Proof.
  intros h t Hh Ht. pose proof (M_pos F Hmb Heb Hrange) as HM.
  destruct (Z.eq_dec h (2 * M)) as [->|N].
  - replace (2 * M + t * M) with ((t + 2) * M + 0) by lia. rewrite (mag_fields F Hmb Heb Hrange) by lia.
    replace (t + 2 - 1) with (1 + t) by lia. rewrite p2_split by lia. change (2 ^ 1) with 2. lia.
  - replace (h + t * M) with ((t + 1) * M + (h - M)) by lia. rewrite (mag_fields F Hmb Heb Hrange) by lia.
    f_equal; [lia|f_equal; lia].
Qed.

(** ** Square root *)
Lemma sqrt_nearest : forall x T q h u, T mod 2 = 0 -> 0 <= u -> 0 <= q -> q * q <= T < (q + 1) * (q + 1) ->
  4 * M * M <= T < 16 * M * M -> 2 * h = q + q mod 2 ->
  h + (u + 1) * M < infw F -> val F x * one F = T * (2 ^ u * 2 ^ u) ->
  sqrt_of F x (h + (u + 1) * M).
Proof.
  intros x T q h u Te Hu Hq Q Tr Hh Hw E. pose proof (M_pos F Hmb Heb Hrange) as HM. pose proof (infw_lt F Hmb Heb Hrange) as IL.
  assert (Q1 : 2 * M <= q) by nia. assert (Q2 : q < 4 * M) by nia.
  pose proof (Z.mod_pos_bound q 2 ltac:(lia)) as Bq.
  assert (H1 : M <= h <= 2 * M) by lia.
  pose proof (p2 u Hu) as PU. set (U := 2 ^ u) in *.
  assert (V : mag F (h + (u + 1) * M) = h * (2 * U)).
  { rewrite mag_word by lia. rewrite Z.add_comm, p2_split by lia. reflexivity. }
  assert (A0 : 0 <= h + (u + 1) * M < infw F) by nia.
  set (w := h + (u + 1) * M) in *.
  destruct (word_of F Hmb Heb Hrange false w ltac:(lia)) as (W & N & A). cbn [sbit] in *. rewrite Z.add_0_l in *.
  assert (Vw : val F w = h * (2 * U)) by (unfold val; rewrite N, A; exact V).
  split; [exact W|]. split; [unfold finite; lia|]. split; [exact N|].
  intros v Wv Fv Nv. destruct (word_split F Hmb Heb Hrange v Wv) as [_ Bv].
  assert (Vv : val F v = mag F (absw F v)) by (unfold val; rewrite Nv; reflexivity).
  pose proof (mag_nonneg F Hmb Heb Hrange (absw F v) ltac:(lia)) as Gv.
  rewrite E, Vw, Vv. set (m := mag F (absw F v)) in *.
  assert (Odd : q mod 2 = 1 -> q * q < T).
  { intros O. destruct (Z.eq_dec (q * q) T) as [X|X]; [exfalso|lia].
    rewrite <- X in Te. rewrite Z.mul_mod, O in Te by lia. discriminate Te. }
  assert (P2 : 2 ^ (u + 1) = 2 * U) by (rewrite Z.add_comm, p2_split by lia; reflexivity).
  rewrite !Z.pow_2_r. split; intros L.
  - assert (X : exists d, 0 <= d /\ m + h * (2 * U) <= 2 * U * d /\ (d * d < T \/ (m + h * (2 * U) < 2 * U * d /\ d * d <= T))).
    { destruct (Z.eq_dec (q mod 2) 0) as [Z|O].
      - exists q. split; [lia|]. assert (q = 2 * h) by lia. split; [nia|]. right. split; [nia|lia].
      - exists q. split; [lia|].
        pose proof (below (absw F v) h (u + 1) ltac:(lia) ltac:(lia) ltac:(lia)) as Bl. rewrite P2 in Bl. fold m in Bl.
        specialize (Bl L). assert (2 * h = q + 1) by lia. split; [nia|]. left. apply Odd. lia. }
    destruct X as (d & D0 & D1 & D2).
    assert (m + h * (2 * U) >= 0) by nia.
    assert ((m + h * (2 * U)) * (m + h * (2 * U)) <= (2 * U * d) * (2 * U * d)) by (apply Z.mul_le_mono_nonneg; lia).
    replace (2 * U * d * (2 * U * d)) with (4 * (d * d * (U * U))) in * by ring.
    assert (0 < U * U) by nia.
    destruct D2 as [D2|[D2 D3]].
    + assert (d * d * (U * U) < T * (U * U)) by (apply Z.mul_lt_mono_pos_r; lia). lia.
    + assert ((m + h * (2 * U)) * (m + h * (2 * U)) < (2 * U * d) * (2 * U * d)) by (apply Z.mul_lt_mono_nonneg; lia).
      replace (2 * U * d * (2 * U * d)) with (4 * (d * d * (U * U))) in * by ring.
      assert (d * d * (U * U) <= T * (U * U)) by (apply Z.mul_le_mono_nonneg_r; lia). lia.
  - pose proof (above (absw F v) h (u + 1) ltac:(lia) ltac:(lia) ltac:(lia)) as Ab. rewrite P2 in Ab. fold m in Ab. specialize (Ab L).
    assert (X : 2 * U * (2 * h + 1) <= m + h * (2 * U)) by lia.
    assert (T < (2 * h + 1) * (2 * h + 1)) by nia.
    assert (0 < U * U) by nia.
    assert (T * (U * U) < (2 * h + 1) * (2 * h + 1) * (U * U)) by (apply Z.mul_lt_mono_pos_r; lia).
    assert ((2 * U * (2 * h + 1)) * (2 * U * (2 * h + 1)) <= (m + h * (2 * U)) * (m + h * (2 * U))) by (apply Z.mul_le_mono_nonneg; nia).
    replace (2 * U * (2 * h + 1) * (2 * U * (2 * h + 1))) with (4 * ((2 * h + 1) * (2 * h + 1) * (U * U))) in * by ring. lia.
Qed.

(** ** Invalid operations *)
Lemma dnan_nan : is_nan F (dnan F) /\ word F (dnan F).
Proof.
  pose proof (M_pos F Hmb Heb Hrange) as HM. pose proof (infw_lt F Hmb Heb Hrange) as IL. pose proof (p2 (mb F - 1) ltac:(lia)) as P.
  assert (E : M = 2 * 2 ^ (mb F - 1)) by (replace (mb F) with (1 + (mb F - 1)) at 1 by lia; rewrite p2_split by lia; reflexivity).
  assert (G : 0 <= infw F + 2 ^ (mb F - 1) < sgnw F) by (rewrite (sgnw_val F Hmb Heb Hrange), (infw_val F Hmb Heb Hrange) in *; lia).
  destruct (word_of F Hmb Heb Hrange false (infw F + 2 ^ (mb F - 1)) G) as (W & _ & A). cbn [sbit] in W, A. rewrite Z.add_0_l in W, A.
  unfold dnan, is_nan. rewrite A. split; [lia|exact W].
Qed.

Lemma fsub_self : forall x, word F x -> finite F x -> fsub F x x = 0.
Proof.
  intros x W Fx. destruct (fsub_finite F Hmb Heb Hrange x x W Fx Fx) as [-> Fn].
  rewrite (fadd_finite F Hmb Heb Hrange) by assumption. rewrite (fneg_val F Hmb Heb Hrange x W).
  replace (val F x + - val F x) with 0 by ring. rewrite Z.eqb_refl.
  destruct (fneg_fin F Hmb Heb Hrange x W) as (_ & -> & _). destruct (neg F x); reflexivity.
Qed.

Lemma fdiv_self_nan : forall z, word F z -> is_nan F z \/ is_inf F z \/ is_zero F z -> is_nan F (fdiv F z z).
Proof.
  intros z W H. unfold fdiv. pose proof (infw_lt F Hmb Heb Hrange) as IL. unfold nanb, infb.
  destruct (Z.ltb_spec (infw F) (absw F z)) as [L|L]; [apply (quiet_nan F Hmb Heb Hrange z W); exact L|].
  destruct H as [H|[H|H]]; [unfold is_nan in H; lia| |].
  - unfold is_inf in H. rewrite H, Z.eqb_refl. apply dnan_nan.
  - unfold is_zero in H. rewrite H. destruct (Z.eqb_spec 0 (infw F)); [lia|]. apply dnan_nan.
Qed.

Lemma fmul_special : forall x y, word F x -> word F y -> is_zero F y \/ ~ finite F x \/ is_nan F y ->
  word F (fmul F x y) /\ (is_nan F (fmul F x y) \/ is_inf F (fmul F x y) \/ is_zero F (fmul F x y)).
Proof.
  intros x y Wx Wy H. unfold fmul, nanb, infb. pose proof (infw_lt F Hmb Heb Hrange) as IL.
  destruct (Z.ltb_spec (infw F) (absw F x)) as [L|L].
  { destruct (quiet_nan F Hmb Heb Hrange x Wx L). split; [assumption|left; assumption]. }
  destruct (Z.ltb_spec (infw F) (absw F y)) as [L2|L2].
  { destruct (quiet_nan F Hmb Heb Hrange y Wy L2). split; [assumption|left; assumption]. }
  destruct (Z.eqb_spec (absw F x) (infw F)) as [Ix|Ix]; destruct (Z.eqb_spec (absw F y) (infw F)) as [Iy|Iy]; cbn [orb];
    try (destruct ((absw F x =? 0) || (absw F y =? 0));
      [destruct dnan_nan; split; [assumption|left; assumption]
      |destruct (word_of F Hmb Heb Hrange (xorb (neg F x) (neg F y)) (infw F) ltac:(lia)) as (W & _ & A); split; [exact W|right; left; exact A]]).
  destruct H as [H|[H|H]]; [|unfold finite in H; lia|unfold is_nan in H; lia].
  unfold is_zero in H. rewrite H, (mag_0 F Hmb Heb Hrange), Z.mul_0_r.
  pose proof (one_pos F Hmb Heb Hrange). rewrite (rnd_zero F Hmb Heb Hrange) by lia.
  destruct (word_of F Hmb Heb Hrange (xorb (neg F x) (neg F y)) 0 ltac:(lia)) as (W & _ & A). rewrite Z.add_0_r in W, A.
  split; [exact W|right; right; exact A].
Qed.

Lemma invalid : forall x y, word F x -> word F y -> is_zero F y \/ ~ finite F x \/ is_nan F y ->
  is_nan F (fdiv F (fmul F x y) (fmul F x y)).
Proof. intros x y Wx Wy H. destruct (fmul_special x y Wx Wy H). now apply fdiv_self_nan. Qed.

(** x * x + x for a NaN and for the infinities. *)
Lemma square_plus : forall x, word F x -> ~ finite F x ->
  (is_nan F x \/ neg F x = true -> is_nan F (fadd F (fmul F x x) x)) /\
  (is_inf F x -> neg F x = false -> fadd F (fmul F x x) x = x).
Proof.
  intros x W N. unfold finite in N. pose proof (infw_lt F Hmb Heb Hrange) as IL. destruct (word_split F Hmb Heb Hrange x W) as [Ex Bx].
  destruct (Z_lt_le_dec (infw F) (absw F x)) as [L|L].
  - split; [intros _|unfold is_inf; lia].
    assert (X : is_nan F (fmul F x x) /\ word F (fmul F x x)).
    { unfold fmul, nanb. assert (infw F <? absw F x = true) as -> by (apply Z.ltb_lt; exact L). apply (quiet_nan F Hmb Heb Hrange); assumption. }
    destruct X. now apply (fadd_nan F Hmb Heb Hrange).
  - assert (A : absw F x = infw F) by lia.
    assert (S : fmul F x x = infw F).
    { unfold fmul, nanb, infb. rewrite A, Z.ltb_irrefl, Z.eqb_refl. destruct (Z.eqb_spec (infw F) 0); [lia|]. rewrite xorb_nilpotent. reflexivity. }
    rewrite S. destruct (word_of F Hmb Heb Hrange false (infw F) ltac:(lia)) as (_ & Ni & Ai). cbn [sbit] in Ni, Ai. rewrite Z.add_0_l in Ni, Ai.
    assert (E : fadd F (infw F) x = if neg F x then dnan F else infw F).
    { unfold fadd, nanb, infb. rewrite A, Ai, Z.ltb_irrefl, Z.eqb_refl, Ni. destruct (neg F x); reflexivity. }
    rewrite E. split.
    + intros [H|H]; [unfold is_nan in H; lia|]. rewrite H. apply dnan_nan.
    + intros _ H. rewrite H in Ex |- *. cbn [sbit] in Ex. lia.
Qed.

(** ** Remainders *)
Lemma fmod_scale : forall x y X Y wx wy, x * M = X * 2 ^ (wx + mb F) -> y * M = Y * 2 ^ (wy + mb F) ->
  M <= X < 2 * M -> M <= Y < 2 * M -> - mb F <= wx -> - mb F <= wy -> y < x ->
  wy <= wx /\ (x mod y) * M = ((X * 2 ^ (wx - wy)) mod Y) * 2 ^ (wy + mb F).
Proof.
  intros x y X Y wx wy Ex Ey HX HY Hx Hy L. pose proof (M_pos F Hmb Heb Hrange) as HM.
  pose proof (p2 (wx + mb F) ltac:(lia)) as Px. pose proof (p2 (wy + mb F) ltac:(lia)) as Py.
  assert (G : wy <= wx).
  { destruct (Z_le_gt_dec wy wx) as [|G]; [assumption|exfalso].
    pose proof (p2_le (1 + (wx + mb F)) (wy + mb F) ltac:(lia) ltac:(lia)) as Q. rewrite (p2_split 1) in Q by lia. change (2 ^ 1) with 2 in Q.
    assert (x * M < y * M); [|nia]. rewrite Ex, Ey.
    apply Z.lt_le_trans with (2 * M * 2 ^ (wx + mb F)); [apply Z.mul_lt_mono_pos_r; lia|].
    apply Z.le_trans with (M * 2 ^ (wy + mb F)); [nia|apply Z.mul_le_mono_nonneg_r; lia]. }
  split; [exact G|].
  assert (Y0 : Y <> 0) by lia. assert (y0 : y <> 0) by nia.
  rewrite <- Zmult_mod_distr_r. rewrite Ex, Ey.
  replace (wx + mb F) with (wx - wy + (wy + mb F)) by lia. rewrite p2_split by lia. rewrite Z.mul_assoc.
  rewrite Zmult_mod_distr_r. reflexivity.
Qed.

Lemma fmod_shape : forall v R k w, v * M = R * 2 ^ (w + mb F) -> 0 < R -> 0 <= k -> M <= R * 2 ^ k < 2 * M -> - mb F <= w ->
  0 < v /\ - mb F <= w - k /\
  (0 <= w - k -> mag F (R * 2 ^ k + (w - k) * M) = v) /\
  (w - k < 0 -> R * 2 ^ k / 2 ^ (- (w - k)) = v /\ v < M).
Proof.
  intros v R k w E HR Hk HA Hw. pose proof (M_pos F Hmb Heb Hrange) as HM. pose proof (p2 (w + mb F) ltac:(lia)) as Pw. pose proof (p2 k Hk) as Pk.
  assert (V : 0 < v) by nia. split; [exact V|].
  assert (G : - mb F <= w - k).
  { destruct (Z_le_gt_dec (- mb F) (w - k)) as [|G]; [assumption|exfalso].
    pose proof (p2_le (1 + (w + mb F)) k ltac:(lia) ltac:(lia)) as Q. rewrite (p2_split 1) in Q by lia. change (2 ^ 1) with 2 in Q.
    assert (X : v * M * 2 ^ k < 2 * M * 2 ^ (w + mb F)).
    { rewrite E. replace (R * 2 ^ (w + mb F) * 2 ^ k) with (R * 2 ^ k * 2 ^ (w + mb F)) by ring. apply Z.mul_lt_mono_pos_r; lia. }
    assert (Y : M * 2 ^ k <= v * M * 2 ^ k) by (apply Z.mul_le_mono_nonneg_r; nia).
    assert (Z : M * (2 * 2 ^ (w + mb F)) <= M * 2 ^ k) by (apply Z.mul_le_mono_nonneg_l; lia). lia. }
  split; [exact G|].
  assert (E2 : v * M = R * 2 ^ k * 2 ^ (w - k + mb F)).
  { rewrite E, <- Z.mul_assoc, <- p2_split by lia. do 2 f_equal. lia. }
  split; intros H.
  - rewrite mag_word by lia. rewrite p2_split in E2 by lia.
    apply Z.mul_reg_r with M; [lia|]. rewrite E2. ring.
  - pose proof (p2 (- (w - k)) ltac:(lia)) as Pn. pose proof (p2 (w - k + mb F) ltac:(lia)) as Pm.
    assert (MM : M = 2 ^ (- (w - k)) * 2 ^ (w - k + mb F)) by (rewrite <- p2_split by lia; f_equal; lia).
    assert (E3 : v * 2 ^ (- (w - k)) = R * 2 ^ k).
    { apply Z.mul_reg_r with (2 ^ (w - k + mb F)); [lia|]. rewrite <- E2. rewrite <- Z.mul_assoc, <- MM. reflexivity. }
    rewrite <- E3. split; [apply Z.div_mul; lia|].
    assert (2 <= 2 ^ (- (w - k))).
    { pose proof (p2_le 1 (- (w - k)) ltac:(lia) ltac:(lia)) as Q. change (2 ^ 1) with 2 in Q. exact Q. }
    nia.
Qed.

Lemma fmod_result : forall x y b, word F x -> word F y -> finite F y -> ~ is_zero F y ->
  0 <= b < sgnw F -> mag F b = mag F (absw F x) mod mag F (absw F y) ->
  fmod_of F x y (sbit F (neg F x) + b) /\ b < infw F.
Proof.
  intros x y b Wx Wy Fy Ny Hb E. pose proof (infw_lt F Hmb Heb Hrange) as IL.
  destruct (word_split F Hmb Heb Hrange x Wx) as [_ Bx]. destruct (word_split F Hmb Heb Hrange y Wy) as [_ By].
  unfold finite in Fy. unfold is_zero in Ny.
  pose proof (mag_mono F Hmb Heb Hrange 0 (absw F y) ltac:(lia) ltac:(lia)) as P. rewrite (mag_0 F Hmb Heb Hrange) in P.
  pose proof (Z.mod_pos_bound (mag F (absw F x)) (mag F (absw F y)) P) as R. rewrite <- E in R.
  assert (b < infw F).
  { destruct (Z_lt_le_dec b (infw F)) as [|G]; [assumption|exfalso].
    pose proof (mag_mono F Hmb Heb Hrange (absw F y) b ltac:(lia) ltac:(lia)). lia. }
  destruct (word_of F Hmb Heb Hrange (neg F x) b Hb) as (W & N & A).
  split; [|assumption]. split; [exact W|]. split; [unfold finite; lia|]. split; [exact N|].
  rewrite (val_of F Hmb Heb Hrange) by exact Hb. rewrite (val_neg F Hmb Heb Hrange x Wx), (val_neg F Hmb Heb Hrange y Wy).
  split.
  - destruct (neg F x); destruct (neg F y); cbn [sgn_of]; lia.
  - pose proof (Z.div_mod (mag F (absw F x)) (mag F (absw F y)) ltac:(lia)) as D. rewrite <- E in D.
    exists (if Bool.eqb (neg F x) (neg F y) then mag F (absw F x) / mag F (absw F y) else - (mag F (absw F x) / mag F (absw F y))).
    destruct (neg F x); destruct (neg F y); cbn [sgn_of Bool.eqb]; lia.
Qed.

(** The loop of subtractions, on whole numbers. *)
Fixpoint modz (n : nat) (X Y : Z) : option Z :=
  match n with
  | O => Some X
  | S n => if X - Y <? 0 then modz n (2 * X) Y else if X - Y =? 0 then None else modz n (2 * (X - Y)) Y
  end.

Lemma modz_spec : forall n X Y, 0 < Y -> 0 <= X < 2 * Y ->
  match modz n X Y with
  | None => (X * 2 ^ Z.of_nat n) mod Y = 0
  | Some X' => 0 <= X' < 2 * Y /\ X' mod Y = (X * 2 ^ Z.of_nat n) mod Y
  end.
Proof.
  induction n as [|n IH]; intros X Y HY HX.
  - cbn [modz]. change (2 ^ Z.of_nat 0) with 1. rewrite Z.mul_1_r. split; [exact HX|reflexivity].
  - cbn [modz]. assert (E2 : 2 ^ Z.of_nat (S n) = 2 * 2 ^ Z.of_nat n) by (rewrite Nat2Z.inj_succ, Z.pow_succ_r by lia; reflexivity). rewrite E2.
    destruct (Z.ltb_spec (X - Y) 0).
    + replace (X * (2 * 2 ^ Z.of_nat n)) with (2 * X * 2 ^ Z.of_nat n) by ring. apply IH; lia.
    + destruct (Z.eqb_spec (X - Y) 0).
      * replace X with Y by lia. rewrite Z.mul_comm. apply Z.mod_mul. lia.
      * replace ((X * (2 * 2 ^ Z.of_nat n)) mod Y) with ((2 * (X - Y) * 2 ^ Z.of_nat n) mod Y); [apply IH; lia|].
        replace (X * (2 * 2 ^ Z.of_nat n)) with (2 * (X - Y) * 2 ^ Z.of_nat n + 2 * 2 ^ Z.of_nat n * Y) by ring. now rewrite Z.mod_add by lia.
Qed.

End Format.
