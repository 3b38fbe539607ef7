(** Facts about the floating-point formats of Spec/Ieee.v and the arithmetic of
    Model/Float.v. *)
From Verif Require Import Model.Base Spec.Ieee Model.Float.
From Coq Require Import ZArith Lia Bool.

Lemma pow_pos : forall n, 0 < 2 ^ n \/ n < 0.
Proof. intros n. destruct (Z_lt_le_dec n 0); [now right|left]. apply Z.pow_pos_nonneg; lia. Qed.

Lemma p2 : forall n, 0 <= n -> 0 < 2 ^ n.
Proof. intros n H. apply Z.pow_pos_nonneg; lia. Qed.

Lemma p2_split : forall a b, 0 <= a -> 0 <= b -> 2 ^ (a + b) = 2 ^ a * 2 ^ b.
Proof. intros. now apply Z.pow_add_r. Qed.

Lemma p2_le : forall a b, a <= b -> 0 <= a -> 2 ^ a <= 2 ^ b.
Proof. intros. apply Z.pow_le_mono_r; lia. Qed.

Section Format.
Set Default Proof Using "All".
Variable F : fmt.
Hypothesis Hmb : 1 <= mb F.
Hypothesis Heb : 3 <= eb F.
(** The precision is smaller than the exponent range. *)
Hypothesis Hrange : mb F + 2 <= bias F.

Notation M := (2 ^ mb F).

Lemma M_pos : 0 < M.
Proof. apply p2. lia. Qed.

Lemma bias_pos : 0 < bias F.
Proof. lia. Qed.

Lemma one_pos : 0 < one F.
Proof. unfold one. apply p2. lia. Qed.

Lemma one_split : one F = M * 2 ^ (bias F - 1).
Proof. unfold one. rewrite <- p2_split by lia. f_equal. lia. Qed.

Lemma infw_val : infw F = (2 * bias F + 1) * M.
Proof.
  unfold infw, bias. f_equal.
  replace (eb F) with (1 + (eb F - 1)) at 1 by lia.
  rewrite p2_split by lia. change (2 ^ 1) with 2. lia.
Qed.

Lemma sgnw_val : sgnw F = (2 * bias F + 2) * M.
Proof.
  unfold sgnw. rewrite Z.add_comm, p2_split by lia.
  unfold bias. f_equal. replace (eb F) with (1 + (eb F - 1)) at 1 by lia.
  rewrite p2_split by lia. change (2 ^ 1) with 2. lia.
Qed.

Lemma infw_lt : 0 < infw F < sgnw F.
Proof. rewrite infw_val, sgnw_val. pose proof M_pos. nia. Qed.

Lemma infw_big : 2 * M < infw F.
Proof. rewrite infw_val. pose proof M_pos. nia. Qed.

(** ** Fields *)

Lemma fields : forall a, a = a / M * M + a mod M /\ 0 <= a mod M < M.
Proof.
  intros a. pose proof M_pos. split.
  - rewrite Z.mul_comm. apply Z.div_mod. lia.
  - apply Z.mod_pos_bound. lia.
Qed.

Lemma expo_range : forall a, 0 <= a < infw F -> 0 <= a / M <= 2 * bias F.
Proof.
  intros a H. pose proof M_pos. split; [apply Z.div_pos; lia|].
  assert (a / M < 2 * bias F + 1); [|lia].
  apply Z.div_lt_upper_bound; [lia|]. rewrite infw_val in H. lia.
Qed.

(** The pattern with exponent [e] and fraction [m]. *)
Lemma mag_fields : forall e m, 1 <= e -> 0 <= m < M ->
  mag F (e * M + m) = (M + m) * 2 ^ (e - 1).
Proof.
  intros e m He Hm. unfold mag. pose proof M_pos.
  replace ((e * M + m) / M) with e by (apply Z.div_unique with m; lia).
  replace ((e * M + m) mod M) with m by (apply Z.mod_unique with e; lia).
  destruct (Z.eqb_spec e 0); [lia|reflexivity].
Qed.

Lemma mag_small : forall a, 0 <= a < 2 * M -> mag F a = a.
Proof.
  intros a H. unfold mag. pose proof M_pos. destruct (fields a) as [E B].
  destruct (Z.eqb_spec (a / M) 0) as [Z|N].
  - rewrite Z in E. lia.
  - assert (a / M = 1) as ->.
    { assert (a / M < 2) by (apply Z.div_lt_upper_bound; lia).
      pose proof (Z.div_pos a M). lia. }
    assert (a / M = 1).
    { assert (a / M < 2) by (apply Z.div_lt_upper_bound; lia).
      pose proof (Z.div_pos a M). lia. }
    change (2 ^ (1 - 1)) with 1. lia.
Qed.

Lemma mag_0 : mag F 0 = 0.
Proof. apply mag_small. pose proof M_pos. lia. Qed.

Lemma mag_large : forall a, 1 <= a / M -> mag F a = (M + a mod M) * 2 ^ (a / M - 1).
Proof. intros a H. unfold mag. destruct (Z.eqb_spec (a / M) 0); [lia|reflexivity]. Qed.

Definition ulp (a : Z) : Z := 2 ^ (Z.max 0 (a / M - 1)).

Lemma ulp_pos : forall a, 0 < ulp a.
Proof. intros. apply p2. lia. Qed.

Lemma mag_succ : forall a, 0 <= a -> mag F (a + 1) = mag F a + ulp a.
Proof.
  intros a H. pose proof M_pos. unfold ulp. destruct (fields a) as [E B].
  pose proof (Z.div_pos a M).
  destruct (Z.eq_dec (a / M) 0) as [Z|N].
  - assert (a < M) by (rewrite Z in E; lia).
    rewrite !mag_small by lia. rewrite Z. reflexivity.
  - destruct (Z_lt_le_dec (a mod M + 1) M).
    + replace (a + 1) with (a / M * M + (a mod M + 1)) by lia.
      rewrite mag_fields by lia. rewrite (mag_large a) by lia.
      replace (Z.max 0 (a / M - 1)) with (a / M - 1) by lia. nia.
    + replace (a + 1) with ((a / M + 1) * M + 0) by nia.
      rewrite mag_fields by lia. rewrite (mag_large a) by lia.
      replace (Z.max 0 (a / M - 1)) with (a / M - 1) by lia.
      replace (a / M + 1 - 1) with (1 + (a / M - 1)) by lia.
      rewrite p2_split by lia. change (2 ^ 1) with 2. nia.
Qed.

Lemma mag_mono : forall a b, 0 <= a -> a < b -> mag F a < mag F b.
Proof.
  intros a b Ha Hab.
  replace b with (a + 1 + Z.of_nat (Z.to_nat (b - a - 1))) by lia.
  generalize (Z.to_nat (b - a - 1)). clear Hab b. intros n. induction n.
  - replace (a + 1 + Z.of_nat 0) with (a + 1) by lia.
    rewrite mag_succ by lia. pose proof (ulp_pos a). lia.
  - replace (a + 1 + Z.of_nat (S n)) with (a + 1 + Z.of_nat n + 1) by lia.
    rewrite mag_succ by lia. pose proof (ulp_pos (a + 1 + Z.of_nat n)). lia.
Qed.

Lemma mag_le : forall a b, 0 <= a -> a <= b -> mag F a <= mag F b.
Proof.
  intros a b Ha Hab. destruct (Z.eq_dec a b) as [->|]; [lia|].
  apply Z.lt_le_incl, mag_mono; lia.
Qed.

Lemma mag_nonneg : forall a, 0 <= a -> 0 <= mag F a.
Proof. intros a H. rewrite <- mag_0. apply mag_le; lia. Qed.

Lemma mag_inj : forall a b, 0 <= a -> 0 <= b -> mag F a = mag F b -> a = b.
Proof.
  intros a b Ha Hb E. destruct (Z.lt_trichotomy a b) as [L|[L|L]]; [|exact L|].
  - pose proof (mag_mono a b Ha L). lia.
  - pose proof (mag_mono b a Hb L). lia.
Qed.

Lemma mag_zero : forall a, 0 <= a -> mag F a = 0 -> a = 0.
Proof. intros a H E. apply mag_inj; [lia|lia|]. now rewrite mag_0. Qed.

(** ** The integer part of a pattern *)

(** Numbers below 1. *)
Lemma mag_below_one : forall a, 0 <= a -> a / M < bias F -> mag F a < one F.
Proof.
  intros a H L. pose proof M_pos.
  assert (a < bias F * M + 0).
  { destruct (fields a). nia. }
  pose proof (mag_mono a (bias F * M + 0) ltac:(lia) ltac:(lia)) as X.
  rewrite mag_fields in X by lia. rewrite one_split. lia.
Qed.

Lemma mag_one_on : forall a, bias F <= a / M -> one F <= mag F a.
Proof.
  intros a L. pose proof M_pos. destruct (fields a).
  pose proof (mag_le (bias F * M + 0) a ltac:(nia) ltac:(nia)) as X.
  rewrite mag_fields in X by lia. rewrite one_split. lia.
Qed.

(** Numbers without fraction bits. *)
Lemma mag_integral : forall a, bias F + mb F <= a / M -> exists n, mag F a = n * one F.
Proof.
  intros a L. rewrite mag_large by lia.
  exists ((M + a mod M) * 2 ^ (a / M - 1 - (bias F + mb F - 1))).
  unfold one. rewrite <- Z.mul_assoc, <- p2_split by lia. do 2 f_equal. lia.
Qed.

(** With the exponent between, the lowest [k] bits are the fraction part. *)
Section Middle.
Variables a k : Z.
Hypothesis Ha : 0 <= a.
Hypothesis Hk : 0 <= k <= mb F.
Hypothesis He : a / M = bias F + mb F - k.

Lemma mid_unit : 2 ^ k * 2 ^ (a / M - 1) = one F.
Proof. rewrite He, <- p2_split by lia. unfold one. f_equal. lia. Qed.

Lemma mid_M : M = 2 ^ (mb F - k) * 2 ^ k.
Proof. rewrite <- p2_split by lia. f_equal. lia. Qed.

Lemma mid_mod : a mod M mod 2 ^ k = a mod 2 ^ k.
Proof.
  rewrite mid_M at 1. rewrite Z.mul_comm.
  pose proof (p2 k ltac:(lia)). pose proof (p2 (mb F - k) ltac:(lia)).
  rewrite Z.rem_mul_r by lia.
  rewrite (Z.mul_comm (2 ^ k) (_ mod _)), Z.mod_add by lia. apply Z.mod_mod. lia.
Qed.

(** Clearing them. *)
Lemma mid_clear : mag F (a - a mod 2 ^ k) = mag F a - a mod 2 ^ k * 2 ^ (a / M - 1).
Proof.
  pose proof M_pos. destruct (fields a) as [E B].
  pose proof (p2 k ltac:(lia)).
  pose proof (Z.mod_pos_bound a (2 ^ k) ltac:(lia)).
  assert (a mod 2 ^ k <= a mod M).
  { rewrite <- mid_mod. apply Z.mod_le; lia. }
  replace (a - a mod 2 ^ k) with (a / M * M + (a mod M - a mod 2 ^ k)) by lia.
  rewrite mag_fields by lia. rewrite (mag_large a) by lia. nia.
Qed.

Lemma mid_clear_integral :
  exists n, mag F (a - a mod 2 ^ k) = n * one F.
Proof.
  pose proof (p2 k ltac:(lia)).
  rewrite mid_clear, mag_large, <- mid_unit by lia.
  exists (2 ^ (mb F - k) + a mod M / 2 ^ k).
  rewrite <- mid_mod. pose proof (Z.div_mod (a mod M) (2 ^ k) ltac:(lia)).
  pose proof mid_M. nia.
Qed.

Lemma mid_frac : 0 <= a mod 2 ^ k * 2 ^ (a / M - 1) < one F.
Proof.
  pose proof (p2 k ltac:(lia)). pose proof (p2 (a / M - 1) ltac:(lia)).
  pose proof (Z.mod_pos_bound a (2 ^ k) ltac:(lia)). rewrite <- mid_unit. nia.
Qed.

(** The integer part. *)
Lemma mid_div : mag F a / one F * one F = mag F (a - a mod 2 ^ k) /\
  mag F a mod one F = a mod 2 ^ k * 2 ^ (a / M - 1).
Proof.
  pose proof one_pos. destruct mid_clear_integral as [n Hn].
  pose proof mid_clear as C. pose proof mid_frac as Fr.
  assert (mag F a / one F = n) as ->.
  { symmetry. apply Z.div_unique with (a mod 2 ^ k * 2 ^ (a / M - 1)); lia. }
  split; [lia|].
  symmetry. apply Z.mod_unique with n; lia.
Qed.

(** One step up, also over the border to the next exponent. *)
Lemma mid_up : mag F (a - a mod 2 ^ k + 2 ^ k) = mag F (a - a mod 2 ^ k) + one F.
Proof.
  pose proof M_pos. destruct (fields a) as [E B].
  pose proof (p2 k ltac:(lia)).
  pose proof (Z.mod_pos_bound a (2 ^ k) ltac:(lia)).
  assert (a mod 2 ^ k <= a mod M).
  { rewrite <- mid_mod. apply Z.mod_le; lia. }
  pose proof mid_unit as U. pose proof mid_clear as C. rewrite C.
  rewrite (mag_large a) by lia.
  destruct (Z_lt_le_dec (a mod M - a mod 2 ^ k + 2 ^ k) M).
  - replace (a - a mod 2 ^ k + 2 ^ k)
      with (a / M * M + (a mod M - a mod 2 ^ k + 2 ^ k)) by lia.
    rewrite mag_fields by lia. nia.
  - assert (a mod M - a mod 2 ^ k + 2 ^ k = M).
    { pose proof mid_M as MM. rewrite <- mid_mod in *.
      pose proof (Z.div_mod (a mod M) (2 ^ k) ltac:(lia)).
      set (c := a mod M / 2 ^ k) in *.
      assert (c < 2 ^ (mb F - k)) by (apply Z.div_lt_upper_bound; lia).
      assert (2 ^ (mb F - k) <= c + 1) by nia. nia. }
    replace (a - a mod 2 ^ k + 2 ^ k) with ((a / M + 1) * M + 0) by lia.
    rewrite mag_fields by lia.
    replace (a / M + 1 - 1) with (1 + (a / M - 1)) by lia.
    rewrite p2_split by lia. change (2 ^ 1) with 2. nia.
Qed.

End Middle.

(** ** Rounding *)

Lemma log2_scaled : forall c t, 0 <= t -> M <= c < 2 * M -> Z.log2 (c * 2 ^ t) = mb F + t.
Proof.
  intros c t Ht Hc. apply Z.log2_unique; [lia|]. pose proof M_pos.
  rewrite p2_split by lia. replace (Z.succ (mb F + t)) with (1 + mb F + t) by lia.
  rewrite !p2_split by lia. change (2 ^ 1) with 2. pose proof (p2 t Ht). nia.
Qed.

(** A value of the format is not changed. *)
Lemma rnd_exact : forall s n d a, 0 < d -> 0 <= a < infw F -> n = mag F a * d ->
  rnd F s n d = sbit F s + a.
Proof.
  intros s n d a Hd Ha ->. unfold rnd. pose proof M_pos.
  rewrite Z.div_mul by lia.
  assert (X : mag F a * d = mag F a / 2 ^ Z.max 0 (Z.log2 (mag F a) - mb F) *
              (d * 2 ^ Z.max 0 (Z.log2 (mag F a) - mb F)) /\
          Z.max 0 (Z.log2 (mag F a) - mb F) * M +
          mag F a / 2 ^ Z.max 0 (Z.log2 (mag F a) - mb F) = a).
  { destruct (Z_lt_le_dec a (2 * M)).
    - rewrite mag_small by lia.
      assert (Z.log2 a <= mb F).
      { destruct (Z.eq_dec a 0) as [->|]; [change (Z.log2 0) with 0; lia|].
        assert (Z.log2 a < mb F + 1); [|lia]. apply Z.log2_lt_pow2; [lia|].
        rewrite Z.add_comm, p2_split by lia. change (2 ^ 1) with 2. lia. }
      replace (Z.max 0 (Z.log2 a - mb F)) with 0 by lia.
      change (2 ^ 0) with 1. rewrite Z.div_1_r. lia.
    - destruct (fields a) as [E B].
      assert (2 <= a / M) by (apply Z.div_le_lower_bound; lia).
      rewrite (mag_large a) by lia.
      rewrite log2_scaled by lia.
      replace (Z.max 0 (mb F + (a / M - 1) - mb F)) with (a / M - 1) by lia.
      pose proof (p2 (a / M - 1) ltac:(lia)).
      rewrite Z.div_mul by lia. split; lia. }
  set (k := Z.max 0 (Z.log2 (mag F a) - mb F)) in *.
  pose proof (p2 k ltac:(lia)).
  destruct X as [X1 X2]. rewrite X1.
  rewrite Z.div_mul, Z.mod_mul by nia.
  replace (2 * 0 <? d * 2 ^ k) with true by (symmetry; apply Z.ltb_lt; nia).
  cbn [orb]. rewrite X2.
  destruct (Z.leb_spec (infw F) a); [lia|reflexivity].
Qed.

(** Which integers are values of the format. *)
Lemma mag_repr : forall c t, 0 <= c <= 2 * M -> 0 <= t < 2 * bias F - 1 ->
  exists a, 0 <= a < infw F /\ mag F a = c * 2 ^ t.
Proof.
  assert (G : forall c t, 0 <= c < 2 * M -> 0 <= t < 2 * bias F ->
            exists a, 0 <= a < infw F /\ mag F a = c * 2 ^ t).
  { intros c t Hc Ht. pose proof M_pos. pose proof infw_big.
    pose proof (p2 t ltac:(lia)).
    destruct (Z_lt_le_dec (c * 2 ^ t) (2 * M)) as [Small|Big].
    { exists (c * 2 ^ t). split; [nia|]. apply mag_small. nia. }
    assert (0 < c) by nia.
    set (l := Z.log2 c).
    pose proof (Z.log2_spec c ltac:(lia)) as L. fold l in L.
    assert (0 <= l) by apply Z.log2_nonneg.
    assert (l <= mb F).
    { assert (l < mb F + 1); [|lia]. apply Z.log2_lt_pow2; [lia|].
      rewrite Z.add_comm, p2_split by lia. change (2 ^ 1) with 2. lia. }
    assert (mb F < l + t).
    { assert (mb F + 1 < Z.succ l + t); [|lia].
      apply (Z.pow_lt_mono_r_iff 2); [lia|lia|].
      rewrite !p2_split by lia. change (2 ^ 1) with 2. nia. }
    assert (M = 2 ^ l * 2 ^ (mb F - l)) by (rewrite <- p2_split by lia; f_equal; lia).
    rewrite Z.pow_succ_r in L by lia.
    pose proof (p2 (mb F - l) ltac:(lia)).
    exists ((t + l - mb F + 1) * M + (c * 2 ^ (mb F - l) - M)).
    split.
    - rewrite infw_val. nia.
    - rewrite mag_fields by nia.
      replace (M + (c * 2 ^ (mb F - l) - M)) with (c * 2 ^ (mb F - l)) by lia.
      rewrite <- Z.mul_assoc, <- p2_split by lia. do 2 f_equal. lia. }
  intros c t Hc Ht. pose proof M_pos.
  destruct (Z.eq_dec c (2 * M)) as [->|].
  - destruct (G M (1 + t) ltac:(lia) ltac:(lia)) as (a & Ha & E).
    exists a. split; [exact Ha|]. rewrite E, p2_split by lia. change (2 ^ 1) with 2. lia.
  - apply G; lia.
Qed.

(** ** Patterns with sign *)

Lemma sbit_range : forall s, sbit F s = 0 \/ sbit F s = sgnw F.
Proof. intros [|]; [right|left]; reflexivity. Qed.

Lemma word_split : forall w, word F w -> w = sbit F (neg F w) + absw F w /\ 0 <= absw F w < sgnw F.
Proof.
  intros w H. unfold word, neg, absw, sbit in *. pose proof infw_lt.
  destruct (Z.leb_spec (sgnw F) w).
  - replace (w mod sgnw F) with (w - sgnw F) by (apply Z.mod_unique with 1; lia). lia.
  - rewrite Z.mod_small by lia. lia.
Qed.

Lemma word_of : forall s a, 0 <= a < sgnw F ->
  word F (sbit F s + a) /\ neg F (sbit F s + a) = s /\ absw F (sbit F s + a) = a.
Proof.
  intros s a H. unfold word, neg, absw, sbit. destruct s.
  - repeat split; [lia|lia| |].
    + apply Z.leb_le. lia.
    + replace (sgnw F + a) with (a + 1 * sgnw F) by lia.
      rewrite Z.mod_add by lia. apply Z.mod_small. lia.
  - repeat split; [lia|lia| |].
    + apply Z.leb_gt. lia.
    + apply Z.mod_small. lia.
Qed.

Definition sgn_of (s : bool) (m : Z) : Z := if s then - m else m.

Lemma val_of : forall s a, 0 <= a < sgnw F -> val F (sbit F s + a) = sgn_of s (mag F a).
Proof.
  intros s a H. unfold val. destruct (word_of s a H) as (_ & -> & ->).
  now destruct s.
Qed.

Lemma val_neg : forall w, word F w -> val F w = sgn_of (neg F w) (mag F (absw F w)).
Proof. intros w _. unfold val. now destruct (neg F w). Qed.

Lemma finite_of : forall s a, 0 <= a < infw F -> finite F (sbit F s + a).
Proof.
  intros s a H. unfold finite. pose proof infw_lt.
  destruct (word_of s a ltac:(lia)) as (_ & _ & ->). lia.
Qed.

Lemma nanb_false : forall w, finite F w -> nanb F w = false.
Proof. intros w H. unfold nanb, finite in *. apply Z.ltb_ge. lia. Qed.

Lemma infb_false : forall w, finite F w -> infb F w = false.
Proof. intros w H. unfold infb, finite in *. apply Z.eqb_neq. lia. Qed.

Lemma fneg_of : forall w, word F w -> fneg F w = sbit F (negb (neg F w)) + absw F w.
Proof. reflexivity. Qed.

Lemma fneg_fin : forall w, word F w ->
  word F (fneg F w) /\ neg F (fneg F w) = negb (neg F w) /\ absw F (fneg F w) = absw F w.
Proof.
  intros w H. unfold fneg. destruct (word_split w H) as [_ B]. now apply word_of.
Qed.

Lemma fneg_val : forall w, word F w -> val F (fneg F w) = - val F w.
Proof.
  intros w H. unfold val. destruct (fneg_fin w H) as (_ & -> & ->).
  destruct (neg F w); cbn; lia.
Qed.

(** ** Addition *)

Lemma fadd_finite : forall x y, finite F x -> finite F y ->
  fadd F x y = if val F x + val F y =? 0 then sbit F (neg F x && neg F y)
               else rnd F (val F x + val F y <? 0) (Z.abs (val F x + val F y)) 1.
Proof.
  intros x y Hx Hy. unfold fadd.
  rewrite !nanb_false, !infb_false by assumption. reflexivity.
Qed.

Lemma fadd_exact : forall x y a, finite F x -> finite F y ->
  val F x + val F y <> 0 -> 0 <= a < infw F -> mag F a = Z.abs (val F x + val F y) ->
  fadd F x y = sbit F (val F x + val F y <? 0) + a.
Proof.
  intros x y a Hx Hy N Ha E. rewrite fadd_finite by assumption.
  destruct (Z.eqb_spec (val F x + val F y) 0); [contradiction|].
  apply rnd_exact; lia.
Qed.

Lemma fsub_finite : forall x y, word F y -> finite F x -> finite F y ->
  fsub F x y = fadd F x (fneg F y) /\ finite F (fneg F y).
Proof.
  intros x y W Hx Hy. unfold fsub. rewrite !nanb_false by assumption.
  split; [reflexivity|]. unfold finite. destruct (fneg_fin y W) as (_ & _ & ->). exact Hy.
Qed.

(** The rounded value of a positive number is positive. *)
Lemma rnd_range : forall s n, 0 < n -> exists a, rnd F s n 1 = sbit F s + a /\ 0 < a <= infw F.
Proof.
  intros s n Hn. unfold rnd. rewrite Z.div_1_r, Z.mul_1_l.
  set (k := Z.max 0 (Z.log2 n - mb F)).
  pose proof (p2 k ltac:(lia)) as Pk. pose proof M_pos. pose proof infw_lt.
  assert (Q : 1 <= n / 2 ^ k).
  { apply Z.div_le_lower_bound; [lia|]. rewrite Z.mul_1_r.
    pose proof (Z.log2_spec n Hn) as L. pose proof (Z.log2_nonneg n).
    pose proof (p2_le k (Z.log2 n) ltac:(lia) ltac:(lia)). lia. }
  match goal with |- context [infw F <=? ?e] => set (a := e) end.
  assert (0 < a).
  { unfold a. destruct (_ || _); nia. }
  eexists. split; [reflexivity|]. destruct (Z.leb_spec (infw F) a); lia.
Qed.

(** A sum of finite numbers that is positive is above zero for a comparison. *)
Lemma fadd_above_zero : forall x y, finite F x -> finite F y -> 0 < val F x + val F y ->
  flt F 0 (fadd F x y) = true.
Proof.
  intros x y Hx Hy P. rewrite fadd_finite by assumption.
  destruct (Z.eqb_spec (val F x + val F y) 0); [lia|].
  destruct (Z.ltb_spec (val F x + val F y) 0); [lia|].
  destruct (rnd_range false (Z.abs (val F x + val F y)) ltac:(lia)) as (a & -> & Ha).
  pose proof infw_lt.
  destruct (word_of false a ltac:(lia)) as (_ & N & A).
  assert (Z0w : 0 <= 0 < sgnw F) by lia.
  destruct (word_of false 0 Z0w) as (_ & N0 & A0). cbn [sbit] in N0, A0. change (0 + 0) with 0 in N0, A0.
  unfold flt, ordered, nanb, key. rewrite N, A, N0, A0.
  destruct (Z.ltb_spec (infw F) 0); [lia|]. destruct (Z.ltb_spec (infw F) a); [lia|].
  cbn. now apply Z.ltb_lt.
Qed.

(** Rounding to an integer, done by adding a power of two (2^23, 2^52). *)
Lemma rnd_to_integer : forall s n, M * one F <= n < 2 * M * one F ->
  exists a q, rnd F s n 1 = sbit F s + a /\ 0 <= a < infw F /\ mag F a = q * one F /\
    M <= q <= 2 * M /\ nearest_even F n q.
Proof.
  intros s n Hn. pose proof M_pos. pose proof one_pos. pose proof infw_lt.
  assert (L : Z.log2 n = mb F + (bias F + mb F - 1)).
  { apply Z.log2_unique; [lia|].
    rewrite p2_split by lia.
    replace (Z.succ (mb F + (bias F + mb F - 1))) with (1 + mb F + (bias F + mb F - 1)) by lia.
    rewrite !p2_split by lia. change (2 ^ 1) with 2. unfold one in Hn. lia. }
  unfold rnd. rewrite Z.div_1_r, Z.mul_1_l, L.
  replace (Z.max 0 (mb F + (bias F + mb F - 1) - mb F)) with (bias F + mb F - 1) by lia.
  change (2 ^ (bias F + mb F - 1)) with (one F).
  pose proof (Z.div_mod n (one F) ltac:(lia)) as DM.
  pose proof (Z.mod_pos_bound n (one F) ltac:(lia)) as MB.
  set (q := n / one F) in *. set (r := n mod one F) in *.
  assert (Q : M <= q < 2 * M).
  { unfold q. split; [apply Z.div_le_lower_bound; lia|apply Z.div_lt_upper_bound; lia]. }
  set (q' := if (2 * r <? one F) || ((2 * r =? one F) && Z.even q) then q else q + 1).
  exists ((bias F + mb F - 1) * M + q'), q'.
  assert (Q' : M <= q' <= 2 * M) by (unfold q'; destruct (_ || _); lia).
  assert (A : (bias F + mb F - 1) * M + q' < infw F) by (rewrite infw_val; nia).
  split; [|split; [|split; [|split]]].
  - f_equal. destruct (Z.leb_spec (infw F) ((bias F + mb F - 1) * M + q')); [lia|reflexivity].
  - nia.
  - destruct (Z.eq_dec q' (2 * M)) as [->|].
    + replace ((bias F + mb F - 1) * M + 2 * M) with ((bias F + mb F + 1) * M + 0) by lia.
      rewrite mag_fields by lia. replace (bias F + mb F + 1 - 1) with (1 + (bias F + mb F - 1)) by lia.
      rewrite p2_split by lia. change (2 ^ 1) with 2. unfold one. lia.
    + replace ((bias F + mb F - 1) * M + q') with ((bias F + mb F) * M + (q' - M)) by lia.
      rewrite mag_fields by lia. unfold one. f_equal. lia.
  - exact Q'.
  - unfold nearest_even, q'.
    destruct (Z.ltb_spec (2 * r) (one F)); cbn [orb].
    + split; [lia|]. intros. lia.
    + destruct (Z.eqb_spec (2 * r) (one F)); cbn [andb].
      * destruct (Z.even q) eqn:E.
        -- split; [lia|]. intros _. now apply Z.even_spec.
        -- split; [lia|]. intros _. apply Z.even_spec.
           rewrite Z.even_add, E. reflexivity.
      * split; lia.
Qed.

(** 2^mb and the sum with it. *)
Definition two_mb (s : bool) : Z := sbit F s + (bias F + mb F) * M.

Lemma two_mb_facts : forall s, word F (two_mb s) /\ finite F (two_mb s) /\
  neg F (two_mb s) = s /\ val F (two_mb s) = sgn_of s (M * one F).
Proof.
  intros s. pose proof M_pos. pose proof infw_lt. unfold two_mb.
  assert (0 <= (bias F + mb F) * M < infw F) by (rewrite infw_val; nia).
  destruct (word_of s ((bias F + mb F) * M) ltac:(lia)) as (W & N & A).
  repeat split; try assumption; try (unfold word in W; lia).
  - now apply finite_of.
  - rewrite val_of by lia. f_equal.
    replace ((bias F + mb F) * M) with ((bias F + mb F) * M + 0) by lia.
    rewrite mag_fields by lia. unfold one. lia.
Qed.

Lemma shift_round : forall x, word F x -> finite F x -> mag F (absw F x) < M * one F ->
  exists n,
    let r := fsub F (fadd F (two_mb (neg F x)) x) (two_mb (neg F x)) in
    0 <= n <= M /\ nearest_even F (mag F (absw F x)) n /\
    word F r /\ finite F r /\ mag F (absw F r) = n * one F /\
    (n <> 0 -> neg F r = neg F x).
Proof.
  intros x W Fx S. pose proof M_pos. pose proof one_pos. pose proof infw_lt.
  set (s := neg F x). destruct (two_mb_facts s) as (WT & FT & NT & VT).
  pose proof (val_neg x W) as Vx. fold s in Vx.
  destruct (word_split x W) as [_ Ax].
  pose proof (mag_nonneg (absw F x) ltac:(lia)) as Mx.
  set (m := mag F (absw F x)) in *.
  assert (V : val F (two_mb s) + val F x = sgn_of s (M * one F + m)).
  { rewrite VT, Vx. unfold sgn_of. destruct s; lia. }
  destruct (rnd_to_integer s (M * one F + m) ltac:(lia)) as (a & q & R & Ha & E & Q & NE).
  assert (A1 : fadd F (two_mb s) x = sbit F s + a).
  { rewrite fadd_finite by assumption. rewrite V.
    assert (0 < M * one F) by nia.
    destruct (Z.eqb_spec (sgn_of s (M * one F + m)) 0) as [Z|_]; [unfold sgn_of in Z; destruct s; lia|].
    replace (sgn_of s (M * one F + m) <? 0) with s by (unfold sgn_of; destruct s; lia).
    replace (Z.abs (sgn_of s (M * one F + m))) with (M * one F + m) by (unfold sgn_of; destruct s; lia).
    exact R. }
  exists (q - M). cbv zeta. rewrite A1.
  pose proof (finite_of s a Ha) as Fa.
  destruct (word_of s a ltac:(lia)) as (Wa & Na & Aa).
  destruct (fsub_finite (sbit F s + a) (two_mb s) WT Fa FT) as [-> Fn].
  assert (V2 : val F (sbit F s + a) + val F (fneg F (two_mb s)) = sgn_of s ((q - M) * one F)).
  { rewrite fneg_val, VT, val_of, E by (assumption || lia). unfold sgn_of. destruct s; lia. }
  assert (NE2 : nearest_even F m (q - M)).
  { unfold nearest_even in *. replace (m - (q - M) * one F) with (M * one F + m - q * one F) by lia.
    destruct NE as [N1 N2]. split; [exact N1|]. intros T. apply N2 in T.
    rewrite <- Z.even_spec in *. rewrite Z.even_sub, T.
    assert (Z.even M = true) as ->; [|reflexivity].
    apply Z.even_spec. exists (2 ^ (mb F - 1)).
    replace (mb F) with (1 + (mb F - 1)) at 1 by lia. rewrite p2_split by lia. reflexivity. }
  destruct (Z.eq_dec (q - M) 0) as [Z|N].
  - rewrite fadd_finite by assumption. rewrite V2, Z.
    replace (sgn_of s (0 * one F)) with 0 by (unfold sgn_of; destruct s; lia). cbn [Z.eqb].
    destruct (word_of (neg F (sbit F s + a) && neg F (fneg F (two_mb s))) 0 ltac:(lia)) as (W0 & _ & A0).
    rewrite Z.add_0_r in W0, A0. rewrite Z in NE2.
    split; [lia|split; [exact NE2|split; [exact W0|split; [|split]]]].
    + unfold finite. rewrite A0. lia.
    + rewrite A0, mag_0. lia.
    + intros X. now elim X.
  - destruct (mag_repr (q - M) (bias F + mb F - 1) ltac:(lia) ltac:(lia)) as (b & Hb & Eb).
    change (2 ^ (bias F + mb F - 1)) with (one F) in Eb.
    assert (0 < (q - M) * one F) by nia.
    rewrite (fadd_exact _ _ b Fa Fn) by (rewrite ?V2, ?Eb; unfold sgn_of; destruct s; lia).
    rewrite V2.
    replace (sgn_of s ((q - M) * one F) <? 0) with s by (unfold sgn_of; destruct s; lia).
    destruct (word_of s b ltac:(lia)) as (Wb & Nb & Ab).
    split; [lia|split; [exact NE2|split; [exact Wb|split; [now apply finite_of|split]]]].
    + now rewrite Ab.
    + intros _. exact Nb.
Qed.

(** The integers around a number with fraction bits, and their patterns. *)
Lemma mid_facts : forall a k, 0 <= a -> 1 <= k <= mb F -> a / M = bias F + mb F - k ->
  exists n, 1 <= n /\ mag F (a - a mod 2 ^ k) = n * one F /\
    mag F (a - a mod 2 ^ k + 2 ^ k) = (n + 1) * one F /\
    0 <= a - a mod 2 ^ k /\ a - a mod 2 ^ k + 2 ^ k < infw F /\ a < infw F /\
    n * one F <= mag F a < (n + 1) * one F /\
    (a mod 2 ^ k = 0 <-> mag F a = n * one F).
Proof.
  intros a k Ha Hk He. pose proof M_pos. pose proof one_pos.
  pose proof (p2 k ltac:(lia)).
  destruct (mid_clear_integral a k Ha ltac:(lia) He) as [n Hn].
  pose proof (mid_up a k Ha ltac:(lia) He) as U. rewrite Hn in U.
  pose proof (mid_clear a k Ha ltac:(lia) He) as C. rewrite Hn in C.
  pose proof (mid_frac a k Ha ltac:(lia) He) as Fr.
  pose proof (Z.mod_pos_bound a (2 ^ k) ltac:(lia)) as MB.
  pose proof (Z.mod_le a (2 ^ k) Ha ltac:(lia)).
  pose proof (p2_le k (mb F) ltac:(lia) ltac:(lia)).
  pose proof (p2 (a / M - 1) ltac:(lia)).
  pose proof (mag_one_on a ltac:(lia)) as O1.
  destruct (fields a) as [E B].
  assert (a < (bias F + mb F) * M) by nia.
  exists n. split; [nia|]. split; [exact Hn|]. split; [lia|]. split; [lia|].
  split; [rewrite infw_val; nia|]. split; [rewrite infw_val; nia|]. split; [lia|].
  split; intros Z; nia.
Qed.

(** Patterns of NaNs and infinities. *)
Lemma quiet_nan : forall w, word F w -> is_nan F w -> is_nan F (quiet F w) /\ word F (quiet F w).
Proof.
  intros w W N. unfold is_nan, quiet in *. pose proof M_pos. pose proof infw_lt.
  destruct (word_split w W) as [E B].
  assert (G : exists c, (c = 0 \/ c = 2 ^ (mb F - 1)) /\ Z.lor w (2 ^ (mb F - 1)) = w + c /\
                (c <> 0 -> w mod M < 2 ^ (mb F - 1))).
  { destruct (Z.testbit w (mb F - 1)) eqn:T.
    - exists 0. split; [now left|]. split; [|lia]. rewrite Z.add_0_r.
      apply Z.bits_inj'. intros i Hi. rewrite Z.lor_spec.
      destruct (Z.eq_dec i (mb F - 1)) as [->|]; [now rewrite T|].
      rewrite (Z.pow2_bits_false (mb F - 1) i) by lia. apply orb_false_r.
    - exists (2 ^ (mb F - 1)). split; [now right|]. split.
      + symmetry.
        assert (L : Z.land w (2 ^ (mb F - 1)) = 0).
        { apply Z.bits_inj'. intros i Hi. rewrite Z.land_spec, Z.bits_0.
          destruct (Z.eq_dec i (mb F - 1)) as [->|]; [now rewrite T|].
          rewrite (Z.pow2_bits_false (mb F - 1) i) by lia. apply andb_false_r. }
        rewrite <- Z.lxor_lor by exact L. apply Z.add_nocarry_lxor. exact L.
      + intros _. rewrite Z.testbit_false in T by lia.
        replace (mb F) with (1 + (mb F - 1)) at 1 by lia.
        rewrite p2_split by lia. change (2 ^ 1) with 2.
        pose proof (p2 (mb F - 1) ltac:(lia)).
        rewrite Z.mul_comm, Z.rem_mul_r by lia. rewrite T.
        pose proof (Z.mod_pos_bound w (2 ^ (mb F - 1)) ltac:(lia)). lia. }
  destruct G as (c & Hc & -> & Cm).
  pose proof (p2 (mb F - 1) ltac:(lia)).
  assert (M = 2 * 2 ^ (mb F - 1)).
  { replace (mb F) with (1 + (mb F - 1)) at 1 by lia. rewrite p2_split by lia. reflexivity. }
  assert (K : absw F w + c < sgnw F).
  { destruct Hc as [-> | ->]; [lia|].
    specialize (Cm ltac:(lia)).
    assert (Mw : w mod M = absw F w mod M).
    { rewrite E at 1. rewrite sgnw_val in *. unfold sbit. destruct (neg F w); [|reflexivity].
      rewrite sgnw_val. rewrite Z.add_comm. apply Z.mod_add. lia. }
    rewrite Mw in Cm. destruct (fields (absw F w)) as [E2 B2].
    assert (absw F w / M < 2 * bias F + 2).
    { apply Z.div_lt_upper_bound; [lia|]. rewrite sgnw_val in B. lia. }
    rewrite sgnw_val. nia. }
  rewrite E, <- Z.add_assoc.
  destruct (word_of (neg F w) (absw F w + c) ltac:(lia)) as (W2 & _ & A2).
  split; [rewrite A2; lia|exact W2].
Qed.

Lemma fadd_nan : forall x y, word F x -> is_nan F x -> is_nan F (fadd F x y) /\ word F (fadd F x y).
Proof.
  intros x y W N. unfold fadd.
  assert (nanb F x = true) as -> by (apply Z.ltb_lt; exact N).
  now apply quiet_nan.
Qed.

Lemma fadd_inf_self : forall x, is_inf F x -> fadd F x x = x.
Proof.
  intros x N. unfold fadd, is_inf in *.
  assert (nanb F x = false) as -> by (unfold nanb; apply Z.ltb_ge; lia).
  assert (infb F x = true) as -> by (unfold infb; apply Z.eqb_eq; exact N).
  now rewrite Bool.eqb_reflx.
Qed.

(** A result with the sign of the argument. *)
Lemma int_result : forall (P : Z -> Prop) w b n r,
  word F w -> 0 <= b < infw F -> r = sbit F (neg F w) + b ->
  sgn_of (neg F w) (mag F b) = n * one F -> P n ->
  word F r /\ finite F r /\ neg F r = neg F w /\ exists n, val F r = n * one F /\ P n.
Proof.
  intros P w b n r W Hb -> E Pn. pose proof infw_lt.
  destruct (word_of (neg F w) b ltac:(lia)) as (W2 & N2 & _).
  split; [exact W2|]. split; [now apply finite_of|]. split; [exact N2|].
  exists n. split; [|exact Pn]. rewrite val_of by lia. exact E.
Qed.

(** Comparisons agree with the values. *)
Lemma key_val : forall x y, word F x -> word F y ->
  (key F x <= key F y <-> val F x <= val F y).
Proof.
  intros x y Wx Wy. destruct (word_split x Wx) as [_ Bx]. destruct (word_split y Wy) as [_ By].
  unfold key, val.
  pose proof (mag_nonneg (absw F x) ltac:(lia)) as Nx.
  pose proof (mag_nonneg (absw F y) ltac:(lia)) as Ny.
  assert (L1 : absw F x <= absw F y -> mag F (absw F x) <= mag F (absw F y))
    by (intros; apply mag_le; lia).
  assert (L2 : absw F y <= absw F x -> mag F (absw F y) <= mag F (absw F x))
    by (intros; apply mag_le; lia).
  assert (L3 : absw F x < absw F y -> mag F (absw F x) < mag F (absw F y))
    by (intros; apply mag_mono; lia).
  assert (L4 : absw F y < absw F x -> mag F (absw F y) < mag F (absw F x))
    by (intros; apply mag_mono; lia).
  destruct (neg F x), (neg F y); try lia.
  - split; intros X.
    + destruct (Z.eq_dec (absw F x) 0) as [Z|]; [|lia].
      destruct (Z.eq_dec (absw F y) 0) as [Z2|]; [|lia]. rewrite Z, Z2, mag_0. lia.
    + destruct (Z.eq_dec (absw F x) 0) as [Z|].
      * destruct (Z.eq_dec (absw F y) 0) as [Z2|]; [lia|].
        assert (0 < absw F y) as P by lia. rewrite <- Z in P. apply L3 in P. lia.
      * destruct (Z.eq_dec (absw F y) 0) as [Z2|].
        -- assert (0 < absw F x) as P by lia. rewrite <- Z2 in P. apply L4 in P.
           rewrite Z2, mag_0 in *. lia.
        -- assert (0 < mag F (absw F x)).
           { rewrite <- mag_0. apply mag_mono; lia. } lia.
Qed.

Lemma fle_val : forall x y, word F x -> word F y -> finite F x -> finite F y ->
  fle F x y = (val F x <=? val F y).
Proof.
  intros x y Wx Wy Fx Fy. unfold fle, ordered. rewrite !nanb_false by assumption. cbn [negb andb].
  pose proof (key_val x y Wx Wy) as K.
  destruct (Z.leb_spec (key F x) (key F y)); destruct (Z.leb_spec (val F x) (val F y)); lia.
Qed.

Lemma flt_val : forall x y, word F x -> word F y -> finite F x -> finite F y ->
  flt F x y = (val F x <? val F y).
Proof.
  intros x y Wx Wy Fx Fy. unfold flt, ordered. rewrite !nanb_false by assumption. cbn [negb andb].
  pose proof (key_val y x Wy Wx) as K.
  destruct (Z.ltb_spec (key F x) (key F y)); destruct (Z.ltb_spec (val F x) (val F y)); lia.
Qed.

Lemma feq_val : forall x y, word F x -> word F y -> finite F x -> finite F y ->
  feq F x y = (val F x =? val F y).
Proof.
  intros x y Wx Wy Fx Fy. unfold feq, ordered. rewrite !nanb_false by assumption. cbn [negb andb].
  pose proof (key_val x y Wx Wy) as K. pose proof (key_val y x Wy Wx) as K2.
  destruct (Z.eqb_spec (key F x) (key F y)); destruct (Z.eqb_spec (val F x) (val F y)); lia.
Qed.

(** A sum that is a value of the format. *)
Lemma fadd_repr : forall x y c t, word F x -> word F y -> finite F x -> finite F y ->
  0 <= c <= 2 * M -> 0 <= t < 2 * bias F - 1 -> Z.abs (val F x + val F y) = c * 2 ^ t ->
  word F (fadd F x y) /\ finite F (fadd F x y) /\ val F (fadd F x y) = val F x + val F y /\
  (val F x + val F y <> 0 -> neg F (fadd F x y) = (val F x + val F y <? 0)) /\
  (val F x + val F y = 0 -> neg F (fadd F x y) = neg F x && neg F y).
Proof.
  intros x y c t Wx Wy Fx Fy Hc Ht E. pose proof infw_lt.
  destruct (mag_repr c t Hc Ht) as (a & Ha & Ea).
  destruct (Z.eq_dec (val F x + val F y) 0) as [Z|N].
  - rewrite fadd_finite by assumption. rewrite Z. cbn [Z.eqb].
    set (s := neg F x && neg F y).
    destruct (word_of s 0 ltac:(lia)) as (W2 & N2 & _).
    pose proof (val_of s 0 ltac:(lia)) as V2. pose proof (finite_of s 0 ltac:(lia)) as F2.
    rewrite Z.add_0_r in *. rewrite mag_0 in V2.
    split; [exact W2|]. split; [exact F2|]. split; [rewrite V2; destruct s; reflexivity|].
    split; [congruence|]. intros _. exact N2.
  - rewrite (fadd_exact x y a) by (assumption || lia).
    set (s := val F x + val F y <? 0).
    destruct (word_of s a ltac:(lia)) as (W2 & N2 & _).
    split; [exact W2|]. split; [now apply finite_of|].
    split; [|split; [intros _; exact N2|congruence]].
    rewrite val_of, Ea, <- E by lia. unfold s, sgn_of.
    destruct (Z.ltb_spec (val F x + val F y) 0); lia.
Qed.

(** ** The nearest integer *)

(** It depends on the integer part and on how the fraction compares with 1/2. *)
Lemma nearest_even_class : forall n f f' q, 0 <= f < one F -> 0 <= f' < one F ->
  (2 * f ?= one F) = (2 * f' ?= one F) ->
  nearest_even F (n * one F + f) q -> nearest_even F (n * one F + f') q.
Proof.
  intros n f f' q Hf Hf' C [N1 N2]. pose proof one_pos. unfold nearest_even.
  assert (Q : q = n \/ q = n + 1).
  { assert (n - 1 < q < n + 2) by nia. lia. }
  destruct (Z.compare_spec (2 * f) (one F)), (Z.compare_spec (2 * f') (one F)); try discriminate C.
  - assert (Z.Even q) by (apply N2; destruct Q as [-> | ->]; lia).
    split; [|auto]. destruct Q as [-> | ->]; lia.
  - destruct Q as [-> | ->]; [split; lia|]. exfalso. lia.
  - destruct Q as [-> | ->]; [exfalso; lia|split; lia].
Qed.

Lemma nearest_even_opp : forall x n, nearest_even F x n -> nearest_even F (- x) (- n).
Proof.
  intros x n [H1 H2]. unfold nearest_even.
  replace (Z.abs (- x - - n * one F)) with (Z.abs (x - n * one F)) by lia.
  split; [exact H1|]. intros T. apply H2 in T. rewrite <- Z.even_spec in *. now rewrite Z.even_opp.
Qed.

Lemma nearest_even_int : forall n, nearest_even F (n * one F) n.
Proof. intros n. pose proof one_pos. unfold nearest_even. split; lia. Qed.

Lemma nearest_even_unique : forall x n m, nearest_even F x n -> nearest_even F x m -> n = m.
Proof.
  intros x n m [A1 A2] [B1 B2]. pose proof one_pos.
  assert (n - 2 < m < n + 2) by nia.
  assert (m = n \/ m = n - 1 \/ m = n + 1) as [-> | [-> | ->]] by lia; [reflexivity| |].
  - assert (2 * Z.abs (x - n * one F) = one F) as T1 by lia.
    assert (2 * Z.abs (x - (n - 1) * one F) = one F) as T2 by lia.
    apply A2 in T1. apply B2 in T2. rewrite <- Z.even_spec in *.
    rewrite Z.even_sub, T1 in T2. discriminate T2.
  - assert (2 * Z.abs (x - n * one F) = one F) as T1 by lia.
    assert (2 * Z.abs (x - (n + 1) * one F) = one F) as T2 by lia.
    apply A2 in T1. apply B2 in T2. rewrite <- Z.even_spec in *.
    rewrite Z.even_add, T1 in T2. discriminate T2.
Qed.

Lemma mag_compare : forall a b, 0 <= a -> 0 <= b -> (mag F a ?= mag F b) = (a ?= b).
Proof.
  intros a b Ha Hb. destruct (Z.compare_spec a b) as [->|L|L].
  - apply Z.compare_refl.
  - apply Z.compare_lt_iff. now apply mag_mono.
  - apply Z.compare_gt_iff. now apply mag_mono.
Qed.

(** The fraction part of a number is a value of the format. *)
Lemma frac_repr : forall a, 0 <= a < infw F ->
  exists c t, 0 <= c <= 2 * M /\ 0 <= t < 2 * bias F - 1 /\ mag F a mod one F = c * 2 ^ t.
Proof.
  intros a Ha. pose proof M_pos. pose proof one_pos. pose proof (expo_range a Ha) as Ex.
  destruct (fields a) as [E B].
  destruct (Z_lt_le_dec (a / M) (bias F)).
  - rewrite Z.mod_small by (split; [apply mag_nonneg; lia|apply mag_below_one; lia]).
    destruct (Z.eq_dec (a / M) 0) as [Z|N].
    + exists a, 0. rewrite mag_small by (rewrite Z in E; lia). rewrite Z in E. lia.
    + exists (M + a mod M), (a / M - 1). rewrite mag_large by lia. lia.
  - destruct (Z_lt_le_dec (a / M) (bias F + mb F)) as [Lt|Ge].
    + set (k := bias F + mb F - a / M).
      exists (a mod 2 ^ k), (a / M - 1).
      pose proof (p2 k ltac:(unfold k; lia)) as P.
      pose proof (p2_le k (mb F) ltac:(unfold k; lia) ltac:(unfold k; lia)).
      pose proof (Z.mod_pos_bound a (2 ^ k) P).
      split; [lia|]. split; [lia|].
      apply (mid_div a k ltac:(lia) ltac:(unfold k; lia) ltac:(unfold k; lia)).
    + destruct (mag_integral a Ge) as [n ->]. exists 0, 0.
      rewrite Z.mod_mul by lia. lia.
Qed.

(** Rounding half away from 0 by comparing x - floor(x) with 1/2. *)
Lemma round_core : forall x t n hw ow,
  word F x -> finite F x -> neg F x = false ->
  word F t -> finite F t -> val F t = n * one F -> n * one F <= val F x < (n + 1) * one F ->
  neg F t = false ->
  word F hw -> finite F hw -> 2 * val F hw = one F ->
  word F ow -> finite F ow -> val F ow = one F ->
  let r := if fle F hw (fsub F x t) then fadd F t ow else t in
  word F r /\ finite F r /\ neg F r = false /\
  exists q, val F r = q * one F /\ nearest_away F (val F x) q.
Proof.
  intros x t n hw ow Wx Fx Nx Wt Ft Vt Bn Nt Wh Fh Vh Wo Fo Vo r. subst r.
  pose proof M_pos. pose proof one_pos. pose proof infw_lt.
  destruct (word_split x Wx) as [Ex Bx].
  assert (Vx : val F x = mag F (absw F x)) by (unfold val; now rewrite Nx).
  pose proof (mag_nonneg (absw F x) ltac:(lia)) as Px.
  assert (0 <= n) by nia.
  destruct (fsub_finite x t Wt Fx Ft) as [-> Fnt].
  destruct (fneg_fin t Wt) as (Wnt & Nnt & _). pose proof (fneg_val t Wt) as Vnt.
  assert (Md : val F x mod one F = val F x - n * one F).
  { symmetry. apply Z.mod_unique with n; lia. }
  destruct (frac_repr (absw F x)) as (c & e & Hc & He & E); [unfold finite in Fx; lia|].
  rewrite <- Vx, Md in E.
  destruct (fadd_repr x (fneg F t) c e Wx Wnt Fx Fnt Hc He) as (Ws & Fs & Vs & _ & _); [lia|].
  rewrite fle_val by assumption. rewrite Vs, Vnt, Vt.
  destruct (Z.leb_spec (val F hw) (val F x + - (n * one F))) as [Up|Dn].
  - (* there is a fraction part, so x is below 2^mb *)
    assert (Lt : absw F x / M < bias F + mb F).
    { destruct (Z_lt_le_dec (absw F x / M) (bias F + mb F)) as [?|Ge]; [assumption|].
      destruct (mag_integral _ Ge) as [m Hm]. exfalso. rewrite Vx in *.
      rewrite Hm in *. assert (m = n) by nia. subst m. lia. }
    assert (Lm : mag F (absw F x) < M * one F).
    { pose proof (mag_mono (absw F x) ((bias F + mb F) * M + 0) ltac:(lia)) as X.
      rewrite mag_fields in X by lia. unfold one.
      replace (M * 2 ^ (bias F + mb F - 1)) with ((M + 0) * 2 ^ (bias F + mb F - 1)) by lia.
      apply X. destruct (fields (absw F x)). nia. }
    assert (n < M) by nia.
    destruct (fadd_repr t ow (n + 1) (bias F + mb F - 1) Wt Wo Ft Fo) as (Wr & Fr & Vr & Nr & _);
      [lia|lia|rewrite Vt, Vo; unfold one in *; nia|].
    split; [exact Wr|]. split; [exact Fr|].
    assert (P : 0 < val F t + val F ow) by (rewrite Vt, Vo; nia).
    split; [rewrite Nr by lia; apply Z.ltb_ge; lia|].
    exists (n + 1). rewrite Vr, Vt, Vo. split; [lia|]. unfold nearest_away.
    split; [lia|]. intros _. rewrite !Z.abs_eq by nia. lia.
  - split; [exact Wt|]. split; [exact Ft|]. split; [exact Nt|].
    exists n. split; [exact Vt|]. unfold nearest_away. split; lia.
Qed.

(** The value of a number with k fraction bits. *)
Lemma mid_value : forall a k n, 0 <= a -> 0 <= k <= mb F -> a / M = bias F + mb F - k ->
  mag F (a - a mod 2 ^ k) = n * one F ->
  mag F a = n * one F + a mod 2 ^ k * 2 ^ (a / M - 1) /\
  0 <= a mod 2 ^ k * 2 ^ (a / M - 1) < one F.
Proof.
  intros a k n Ha Hk E N1. pose proof (mid_clear a k Ha Hk E). pose proof (mid_frac a k Ha Hk E). lia.
Qed.

(** Two such numbers with the same integer part, whose fractions are on the same
    side of one half, are rounded alike. *)
Lemma mid_class : forall a b k q, 0 <= a -> 0 <= b -> 0 <= k <= mb F ->
  a / M = bias F + mb F - k -> b / M = a / M ->
  a - a mod 2 ^ k = b - b mod 2 ^ k ->
  (2 * (b mod 2 ^ k) ?= 2 ^ k) = (2 * (a mod 2 ^ k) ?= 2 ^ k) ->
  nearest_even F (mag F b) q -> nearest_even F (mag F a) q.
Proof.
  intros a b k q Ha Hb Hk E E2 Eq C.
  destruct (mid_clear_integral a k Ha Hk E) as [n Hn].
  destruct (mid_value a k n Ha Hk E Hn) as [Va Ra]. rewrite Eq in Hn.
  destruct (mid_value b k n Hb Hk ltac:(lia) Hn) as [Vb Rb].
  rewrite Va, Vb. apply nearest_even_class; [exact Rb|exact Ra|].
  rewrite <- (mid_unit a k Ha Hk E). rewrite E2.
  pose proof (p2 (a / M - 1) ltac:(lia)).
  rewrite !Z.mul_assoc, <- !Zmult_compare_compat_r by lia. exact C.
Qed.

(** The integer part with two fraction bits, and rounding three quarters up from
    an odd number after the lower bit was lost. *)
Lemma mid_three : forall a k q, 0 <= a -> 2 <= k < mb F -> a / M = bias F + mb F - k ->
  2 * (a mod 2 ^ k) > 2 ^ k -> (a / 2 ^ k) mod 2 = 1 ->
  nearest_even F (mag F (a - a mod 2 ^ k + 2 ^ (k - 1))) q -> nearest_even F (mag F a) q.
Proof.
  intros a k q Ha Hk E Up Od. set (b := a - a mod 2 ^ k + 2 ^ (k - 1)).
  pose proof (p2 k ltac:(lia)) as Pk. pose proof (p2 (k - 1) ltac:(lia)) as Pk1.
  pose proof (p2_split 1 (k - 1) ltac:(lia) ltac:(lia)) as P2.
  replace (1 + (k - 1)) with k in P2 by lia. change (2 ^ 1) with 2 in P2.
  pose proof (Z.mod_pos_bound a (2 ^ k) Pk) as Ra.
  pose proof (Z.div_mod a (2 ^ k) ltac:(lia)) as Da.
  assert (Bm : b mod 2 ^ k = 2 ^ (k - 1)).
  { symmetry. apply Z.mod_unique with (a / 2 ^ k); [left; lia|]. unfold b. lia. }
  assert (Bd : b / 2 ^ k = a / 2 ^ k).
  { symmetry. apply Z.div_unique with (2 ^ (k - 1)); [left; lia|]. unfold b. lia. }
  assert (Eb : b / M = a / M).
  { replace M with (2 ^ k * 2 ^ (mb F - k)) by (rewrite <- p2_split by lia; f_equal; lia).
    rewrite <- !Z.div_div, Bd by (try apply Z.pow_pos_nonneg; lia). reflexivity. }
  pose proof (Z.mod_le a (2 ^ k) Ha Pk).
  assert (Hb : 0 <= b) by (unfold b; lia).
  destruct (mid_clear_integral a k Ha ltac:(lia) E) as [n Hn].
  destruct (mid_value a k n Ha ltac:(lia) E Hn) as [Va Ia].
  assert (Eq : b - b mod 2 ^ k = a - a mod 2 ^ k) by (rewrite Bm; unfold b; lia).
  rewrite <- Eq in Hn.
  destruct (mid_value b k n Hb ltac:(lia) ltac:(lia) Hn) as [Vb Ib].
  rewrite Eb, Bm in Vb, Ib. pose proof (mid_unit a k Ha ltac:(lia) E) as U.
  pose proof (p2 (a / M - 1) ltac:(lia)) as Pe. pose proof one_pos.
  (* n is odd *)
  assert (On : n mod 2 = 1).
  { rewrite Eq in Hn. pose proof (mid_clear a k Ha ltac:(lia) E) as Mc.
    rewrite (mag_large a) in Mc by lia. rewrite Mc, <- U in Hn.
    rewrite <- Z.mul_sub_distr_r, Z.mul_assoc in Hn.
    apply Z.mul_cancel_r in Hn; [|lia].
    assert (Q : n = 2 ^ (mb F - k) + (a mod M) / 2 ^ k).
    { apply (Z.mul_cancel_r _ _ (2 ^ k)); [lia|]. rewrite <- Hn, Z.mul_add_distr_r.
      rewrite <- p2_split by lia. replace (mb F - k + k) with (mb F) by lia.
      pose proof (mid_mod a k Ha ltac:(lia) E) as Mm.
      pose proof (Z.div_mod (a mod M) (2 ^ k) ltac:(lia)) as D. rewrite Mm in D. lia. }
    assert (A2 : a / 2 ^ k = a / M * 2 ^ (mb F - k) + (a mod M) / 2 ^ k).
    { replace a with ((a / M * 2 ^ (mb F - k)) * 2 ^ k + a mod M) at 1.
      - rewrite Z.div_add_l by lia. reflexivity.
      - rewrite <- Z.mul_assoc, <- p2_split by lia. replace (mb F - k + k) with (mb F) by lia.
        pose proof (Z.div_mod a M ltac:(pose proof M_pos; lia)). lia. }
    pose proof (p2_split (mb F - k - 1) 1 ltac:(lia) ltac:(lia)) as Q2.
    replace (mb F - k - 1 + 1) with (mb F - k) in Q2 by lia. change (2 ^ 1) with 2 in Q2.
    rewrite Q2 in Q, A2. rewrite Q.
    rewrite Z.add_comm, Z.mod_add by lia.
    rewrite A2, Z.mul_assoc, Z.add_comm, Z.mod_add in Od by lia. exact Od. }
  set (p := 2 ^ (a / M - 1)) in *. clearbody p.
  rewrite Va, Vb. rewrite P2 in U. set (h := 2 ^ (k - 1)) in *. clearbody h.
  intros [H1 H2].
  assert (q = n \/ q = n + 1) as [Q|Q].
  { assert (n - 1 < q < n + 2) by nia. lia. }
  - exfalso. subst q. replace (n * one F + h * p - n * one F) with (h * p) in * by lia.
    assert (EV : Z.even n = true) by (apply Z.even_spec, H2; nia).
    rewrite Zeven_mod, On in EV. discriminate EV.
  - subst q. replace (n * one F + a mod 2 ^ k * p - (n + 1) * one F) with (- (one F - a mod 2 ^ k * p)) by lia.
    split; nia.
Qed.

End Format.
