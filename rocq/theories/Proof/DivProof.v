(** The shift-and-subtract division. *)
From Verif Require Import Model.Base Model.Libc Proof.Tac.

Lemma s64_neg : forall x, 0 <= x < 2 ^ 64 -> (0 <=? s64 x) = (x <? 2 ^ 63).
Proof.
  intros x H. unfold s64, sgn. rewrite Z.mod_small by lia. change (64 - 1) with 63.
  destruct (Z.ltb_spec x (2 ^ 63)); lia.
Qed.

Lemma div_up_spec : forall f d k, 0 < d -> 0 <= k -> d * 2 ^ k < 2 ^ 64 -> 64 - k <= Z.of_nat f ->
  k <= 63 -> exists k', k <= k' <= 63 /\ 2 ^ 63 <= d * 2 ^ k' < 2 ^ 64 /\
  div_up (S f) (d * 2 ^ k) (2 ^ k) = Some (d * 2 ^ k', 2 ^ k').
Proof.
  induction f as [|f IH]; intros d k Hd Hk Hb Hf H63; [lia|].
  assert (P : 0 < 2 ^ k) by (apply Z.pow_pos_nonneg; lia).
  cbn [div_up]. assert (0 <= d * 2 ^ k) by (apply Z.mul_nonneg_nonneg; lia). rewrite s64_neg by lia. destruct (Z.ltb_spec (d * 2 ^ k) (2 ^ 63)) as [L|L].
  - assert (E : 2 ^ (k + 1) = 2 * 2 ^ k) by (rewrite Z.pow_add_r by lia; lia).
    assert (K : k < 63).
    { destruct (Z_lt_le_dec k 63) as [|G]; [assumption|]. exfalso. assert (k = 63) by lia. subst k. lia. }
    assert (Hb' : d * 2 ^ (k + 1) < 2 ^ 64) by (rewrite E; replace (d * (2 * 2 ^ k)) with (2 * (d * 2 ^ k)) by ring; lia).
    destruct (IH d (k + 1) Hd ltac:(lia) Hb' ltac:(lia) ltac:(lia)) as (k' & H1 & H2 & H3).
    exists k'. split; [lia|]. split; [assumption|]. rewrite <- H3.
    replace (u64 (d * 2 ^ k * 2)) with (d * 2 ^ (k + 1)) by (unfold u64; rewrite Z.mod_small by lia; rewrite E; ring).
    replace (u64 (2 ^ k * 2)) with (2 ^ (k + 1)); [reflexivity|].
    assert (2 ^ k <= d * 2 ^ k) by (rewrite <- (Z.mul_1_l (2 ^ k)) at 1; apply Z.mul_le_mono_nonneg_r; lia).
    unfold u64. rewrite Z.mod_small by lia. rewrite E. ring.
  - exists k. split; [lia|]. split; [lia|]. reflexivity.
Qed.

Lemma div_down_spec : forall f d k num num0 quot, 0 < d -> 0 <= k -> (Z.to_nat k < f)%nat ->
  0 <= num0 < 2 ^ 64 -> 0 <= num -> 0 <= quot -> num0 = quot * d + num -> num < d * 2 ^ (k + 1) -> d * 2 ^ k < 2 ^ 64 ->
  div_down (S f) num (d * 2 ^ k) quot (2 ^ k) = Some (num0 / d).
Proof.
  induction f as [|f IH]; intros d k num num0 quot Hd Hk Hf H0 Hn Hq E Hlt Hb; [lia|].
  assert (P : 0 < 2 ^ k) by (apply Z.pow_pos_nonneg; lia).
  assert (E2 : 2 ^ (k + 1) = 2 * 2 ^ k) by (rewrite Z.pow_add_r by lia; lia).
  cbn [div_down]. destruct (Z.eqb_spec (2 ^ k) 0) as [X|X]; [lia|].
  assert (Step : exists num' quot',
    (if d * 2 ^ k <=? num then (u64 (num - d * 2 ^ k), u64 (quot + 2 ^ k)) else (num, quot)) = (num', quot') /\
    0 <= num' /\ 0 <= quot' /\ num0 = quot' * d + num' /\ num' < d * 2 ^ k).
  { destruct (Z.leb_spec (d * 2 ^ k) num) as [L|L].
    - exists (num - d * 2 ^ k), (quot + 2 ^ k).
      assert (D1 : 0 <= quot * d) by (apply Z.mul_nonneg_nonneg; lia).
      assert (D2 : (quot + 2 ^ k) * d = quot * d + d * 2 ^ k) by ring.
      assert (D3 : quot + 2 ^ k <= (quot + 2 ^ k) * d).
      { rewrite <- (Z.mul_1_r (quot + 2 ^ k)) at 1. apply Z.mul_le_mono_nonneg_l; lia. }
      assert (D4 : 0 < d * 2 ^ k) by (apply Z.mul_pos_pos; lia).
      assert (D5 : d * 2 ^ (k + 1) = d * 2 ^ k + d * 2 ^ k) by (rewrite E2; ring).
      split; [|repeat split; lia].
      unfold u64. rewrite !Z.mod_small by lia. reflexivity.
    - exists num, quot. repeat split; lia. }
  destruct Step as (num' & quot' & -> & S1 & S2 & S3 & S4).
  destruct (Z.eq_dec k 0) as [->|Nk].
  - change (2 ^ 0) with 1 in *. change (1 / 2) with 0.
    replace (num0 / d) with quot' by (apply Z.div_unique with num'; lia).
    destruct f; reflexivity.
  - assert (E3 : 2 ^ k = 2 * 2 ^ (k - 1)) by (rewrite <- Z.pow_succ_r by lia; f_equal; lia).
    replace (2 ^ k / 2) with (2 ^ (k - 1)) by (rewrite E3; rewrite Z.mul_comm, Z.div_mul; lia).
    replace (d * 2 ^ k / 2) with (d * 2 ^ (k - 1)) by (rewrite E3; replace (d * (2 * 2 ^ (k - 1))) with (d * 2 ^ (k - 1) * 2) by ring; rewrite Z.div_mul; lia).
    assert (D : d * 2 ^ k = d * 2 ^ (k - 1) + d * 2 ^ (k - 1)) by (rewrite E3; ring).
    assert (0 < d * 2 ^ (k - 1)) by (apply Z.mul_pos_pos; [assumption|apply Z.pow_pos_nonneg; lia]).
    apply IH; replace (k - 1 + 1) with k by lia; try assumption; lia.
Qed.

Lemma udiv_spec : forall num den, 0 <= num < 2 ^ 64 -> 0 < den < 2 ^ 64 -> udivdi3 num den = Quotient (num / den).
Proof.
  intros num den Hn Hd. unfold udivdi3. destruct (Z.eqb_spec den 0); [lia|].
  destruct (div_up_spec 64 den 0) as (k & K1 & K2 & K3); try lia.
  change (2 ^ 0) with 1 in K3. rewrite Z.mul_1_r in K3. rewrite K3.
  rewrite (div_down_spec 64 den k num num 0); try lia; [reflexivity|].
  rewrite Z.pow_add_r by lia. change (2 ^ 1) with 2. lia.
Qed.

Lemma umod_spec : forall num den, 0 <= num < 2 ^ 64 -> 0 < den < 2 ^ 64 -> umoddi3 num den = Quotient (num mod den).
Proof.
  intros num den Hn Hd. unfold umoddi3. rewrite udiv_spec by assumption. f_equal.
  assert (B : 0 <= num / den * den <= num).
  { split; [apply Z.mul_nonneg_nonneg; [apply Z.div_pos; lia|lia]|]. rewrite Z.mul_comm. apply Z.mul_div_le. lia. }
  unfold u64. rewrite (Z.mod_small (num / den * den)) by lia. rewrite Z.mod_small by lia.
  rewrite Z.mod_eq by lia. lia.
Qed.
