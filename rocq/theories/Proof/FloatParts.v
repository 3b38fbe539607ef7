(** Fraction, exponent and integer part of a number, for any format. *)
From Verif Require Import Model.Base Spec.Ieee Spec.LibmSpec Model.Float Proof.FloatProof Proof.FloatRound Proof.FloatScale.

Section Format.
Set Default Proof Using "All".
Variable F : fmt.
Hypothesis Hmb : 1 <= mb F.
Hypothesis Heb : 3 <= eb F.
Hypothesis Hrange : mb F + 2 <= bias F.
Let M := 2 ^ mb F.

Lemma scaled_num : forall x n r, word F x ->
  rounds F (sgn_of (neg F x) (num F (absw F x) n)) (den n) r -> scaled F x n r.
Proof.
  intros x n r W R. unfold scaled. rewrite (val_neg F Hmb Heb Hrange x W). unfold num, den in R.
  destruct (0 <=? n); [|exact R].
  replace (sgn_of (neg F x) (mag F (absw F x)) * 2 ^ n) with (sgn_of (neg F x) (mag F (absw F x) * 2 ^ n)); [exact R|].
  destruct (neg F x); cbn [sgn_of]; ring.
Qed.

(** [a1] is [a] times 2^p0. *)
Lemma frexp_core : forall x a1 p0, word F x -> M <= a1 < infw F -> 0 <= p0 -> mag F a1 = mag F (absw F x) * 2 ^ p0 ->
  frexp_of F x (sbit F (neg F x) + ((bias F - 1) * M + a1 mod M)) (a1 / M - (bias F - 1) - p0).
Proof.
  intros x a1 p0 W R Hp E. pose proof (M_pos F Hmb Heb Hrange) as HM. pose proof (infw_lt F Hmb Heb Hrange) as IL.
  assert (H1 : 1 <= a1 / M) by (apply Z.div_le_lower_bound; [exact HM|]; fold M in HM; lia).
  destruct (mag_other F Hmb Heb Hrange a1 (bias F - 1) H1 ltac:(lia)) as (G1 & G2 & B). fold M in G1, G2, B, HM.
  set (m := a1 mod M) in *. set (f := (bias F - 1) * M + m) in *.
  assert (Bf : 0 <= f < infw F).
  { rewrite (infw_val F Hmb Heb Hrange). fold M. unfold f. clear - B HM Hrange Hmb. nia. }
  destruct (word_of F Hmb Heb Hrange (neg F x) f ltac:(lia)) as (W2 & N2 & A2).
  unfold frexp_of. split; [exact W2|]. split; [apply (finite_of F Hmb Heb Hrange); exact Bf|]. split; [exact N2|].
  rewrite (val_of F Hmb Heb Hrange) by lia. rewrite (val_neg F Hmb Heb Hrange x W).
  replace (bias F - 1 - 1) with (bias F - 2) in G1 by lia.
  pose proof (p2 (bias F - 2) ltac:(lia)) as P.
  split.
  - assert (Z.abs (sgn_of (neg F x) (mag F f)) = mag F f) as ->.
    { pose proof (mag_nonneg F Hmb Heb Hrange f ltac:(lia)). destruct (neg F x); cbn [sgn_of]; lia. }
    rewrite G1, (one_split F Hmb Heb Hrange). fold M. replace (bias F - 1) with (1 + (bias F - 2)) by lia.
    rewrite p2_split by lia. change (2 ^ 1) with 2. clear - B P. nia.
  - assert (K : forall u v, 0 <= u -> 0 <= v -> v - u = a1 / M - (bias F - 1) - p0 ->
                mag F (absw F x) * 2 ^ u = mag F f * 2 ^ v).
    { intros u v Hu Hv Huv. pose proof (p2 p0 Hp) as P0. apply Z.mul_reg_r with (2 ^ p0); [lia|].
      replace (mag F (absw F x) * 2 ^ u * 2 ^ p0) with (mag F (absw F x) * 2 ^ p0 * 2 ^ u) by ring.
      rewrite <- E, G1, G2. rewrite <- !Z.mul_assoc. f_equal. rewrite <- !p2_split by lia. f_equal. lia. }
    destruct (Z.leb_spec 0 (a1 / M - (bias F - 1) - p0)) as [L|L].
    + pose proof (K 0 _ ltac:(lia) L ltac:(lia)) as X. rewrite Z.mul_1_r in X. rewrite X.
      destruct (neg F x); cbn [sgn_of]; ring.
    + pose proof (K (- (a1 / M - (bias F - 1) - p0)) 0 ltac:(lia) ltac:(lia) ltac:(lia)) as X.
      rewrite Z.mul_1_r in X. rewrite <- X. destruct (neg F x); cbn [sgn_of]; ring.
Qed.

Lemma abs_val : forall x, word F x -> Z.abs (val F x) = mag F (absw F x).
Proof.
  intros x W. rewrite (val_neg F Hmb Heb Hrange x W). destruct (word_split F Hmb Heb Hrange x W) as [_ B].
  pose proof (mag_nonneg F Hmb Heb Hrange (absw F x) ltac:(lia)). destruct (neg F x); cbn [sgn_of]; lia.
Qed.

Lemma exponent_normal : forall x, word F x -> 1 <= absw F x / M -> exponent_of F x (absw F x / M - bias F).
Proof.
  intros x W H. unfold exponent_of. rewrite (abs_val x W). rewrite (mag_large F Hmb Heb Hrange) by exact H.
  destruct (fields F Hmb Heb Hrange (absw F x)) as [_ B]. fold M in B |- *.
  replace (bias F + mb F - 1 + (absw F x / M - bias F)) with (mb F + (absw F x / M - 1)) by lia.
  split; [lia|]. rewrite p2_split by lia. fold M. pose proof (p2 (absw F x / M - 1) ltac:(lia)) as P.
  set (q := 2 ^ (absw F x / M - 1)) in *. set (m := absw F x mod M) in *. clearbody q m. clear - B P. nia.
Qed.

Lemma exponent_small : forall x, word F x -> 0 < absw F x < M -> exponent_of F x (Z.log2 (absw F x) - (bias F + mb F - 1)).
Proof.
  intros x W H. unfold exponent_of. rewrite (abs_val x W). rewrite (mag_small F Hmb Heb Hrange) by (fold M; lia).
  replace (bias F + mb F - 1 + (Z.log2 (absw F x) - (bias F + mb F - 1))) with (Z.log2 (absw F x)) by lia.
  split; [apply Z.log2_nonneg|]. pose proof (Z.log2_spec (absw F x) ltac:(lia)) as S.
  rewrite Z.pow_succ_r in S by apply Z.log2_nonneg. exact S.
Qed.

(** Integers up to the width of the fraction are numbers of the format. *)
Lemma of_int_exact : forall n, Z.abs n <= M ->
  word F (of_int F n) /\ finite F (of_int F n) /\ val F (of_int F n) = n * one F.
Proof.
  intros n H. pose proof (M_pos F Hmb Heb Hrange) as HM. fold M in HM. pose proof (infw_lt F Hmb Heb Hrange) as IL.
  destruct (mag_repr F Hmb Heb Hrange (Z.abs n) (bias F + mb F - 1)) as (a & Ha & Ea); [fold M; lia|lia|].
  unfold of_int. rewrite (rnd_exact F Hmb Heb Hrange (n <? 0) _ 1 a ltac:(lia) Ha).
  2:{ rewrite Ea. unfold one. ring. }
  destruct (word_of F Hmb Heb Hrange (n <? 0) a ltac:(lia)) as (W & _ & _).
  split; [exact W|]. split; [apply (finite_of F Hmb Heb Hrange); exact Ha|].
  rewrite (val_of F Hmb Heb Hrange) by lia. rewrite Ea. fold (one F). destruct (Z.ltb_spec n 0); cbn [sgn_of]; [rewrite Z.abs_neq by lia|rewrite Z.abs_eq by lia]; ring.
Qed.

Lemma fneg_val : forall w, word F w -> val F (fneg F w) = - val F w.
Proof.
  intros w W. destruct (fneg_fin F Hmb Heb Hrange w W) as (A & B & C). unfold val. rewrite B, C. destruct (neg F w); cbn [negb]; lia.
Qed.

(** The rest after the integer part. *)
Lemma modf_rest : forall x i, word F x -> finite F x -> trunc_of F x i -> val F x <> val F i -> modf_of F x (fsub F x i) i.
Proof.
  intros x i W Fx T N. split; [exact T|]. destruct T as (Wi & Fi & Ni & n & V & B).
  destruct (word_split F Hmb Heb Hrange x W) as [_ Bx]. destruct (word_split F Hmb Heb Hrange i Wi) as [_ Bi].
  pose proof (mag_nonneg F Hmb Heb Hrange (absw F x) ltac:(lia)) as Gx.
  pose proof (mag_nonneg F Hmb Heb Hrange (absw F i) ltac:(lia)) as Gi.
  destruct (fsub_finite F Hmb Heb Hrange x i Wi Fx Fi) as [E Fn]. rewrite E.
  destruct (fneg_fin F Hmb Heb Hrange i Wi) as (Wn & _ & _).
  destruct (frac_repr F Hmb Heb Hrange (absw F x) ltac:(unfold finite in Fx; lia)) as (c & t & Hc & Ht & Ec).
  pose proof (one_pos F Hmb Heb Hrange) as O.
  assert (D : val F x + val F (fneg F i) = sgn_of (neg F x) (c * 2 ^ t) /\ 0 <= c * 2 ^ t).
  { rewrite <- Ec. split; [|apply Z.mod_pos_bound; exact O]. rewrite fneg_val by exact Wi.
    rewrite V. pose proof (val_neg F Hmb Heb Hrange i Wi) as Vi. rewrite Ni in Vi. rewrite V in Vi.
    rewrite (val_neg F Hmb Heb Hrange x W) in B |- *.
    destruct (neg F x); cbn [sgn_of] in *.
    - assert (mag F (absw F x) mod one F = mag F (absw F x) + n * one F) as ->; [|ring].
      symmetry. apply Z.mod_unique with (- n); [|ring]. left. lia.
    - assert (mag F (absw F x) mod one F = mag F (absw F x) - n * one F) as ->; [|ring].
      symmetry. apply Z.mod_unique with n; [|ring]. left. lia. }
  destruct D as [D D0]. set (r := c * 2 ^ t) in *.
  assert (Rn : r <> 0).
  { intros Z. apply N. rewrite fneg_val, Z in D by exact Wi. destruct (neg F x); cbn [sgn_of] in D; lia. }
  destruct (fadd_repr F Hmb Heb Hrange x (fneg F i) c t W Wn Fx Fn Hc Ht) as (A1 & A2 & A3 & A4 & _).
  { rewrite D. fold r. destruct (neg F x); cbn [sgn_of]; lia. }
  split; [exact A1|]. split; [exact A2|]. split.
  - rewrite A4 by (rewrite D; destruct (neg F x); cbn [sgn_of]; lia). rewrite D.
    destruct (neg F x); cbn [sgn_of]; [apply Z.ltb_lt|apply Z.ltb_ge]; lia.
  - rewrite A3, fneg_val by exact Wi. ring.
Qed.

(** No rest: a zero with the sign of the argument. *)
Lemma modf_none : forall x i, word F x -> trunc_of F x i -> val F x = val F i -> modf_of F x (sbit F (neg F x)) i.
Proof.
  intros x i W T E. pose proof (infw_lt F Hmb Heb Hrange) as IL. split; [exact T|].
  destruct (word_of F Hmb Heb Hrange (neg F x) 0 ltac:(lia)) as (A & B & C).
  pose proof (val_of F Hmb Heb Hrange (neg F x) 0 ltac:(lia)) as V. pose proof (finite_of F Hmb Heb Hrange (neg F x) 0 ltac:(lia)) as Ff.
  rewrite Z.add_0_r in *. rewrite (mag_0 F Hmb Heb Hrange) in V.
  split; [exact A|]. split; [exact Ff|]. split; [exact B|]. rewrite V, E. destruct (neg F x); cbn [sgn_of]; ring.
Qed.

(** Only a rest: below 1. *)
Lemma modf_all : forall x i, word F x -> finite F x -> trunc_of F x i -> val F i = 0 -> modf_of F x x i.
Proof. intros x i W Fx T E. split; [exact T|]. rewrite E. repeat split; try assumption; try apply W. ring. Qed.

End Format.
