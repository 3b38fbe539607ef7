(** The ends of the domains of the elementary functions for float. *)
From Verif Require Import Model.Base Spec.Ieee Spec.ElemSpec Model.Float Model.Libm Model.LibmElem
  Proof.Tac Proof.FloatProof Proof.FloatRound Proof.FloatRoot Proof.LibmfProof Proof.LibmSign Proof.LibmfRint.

Notation S := single.

Lemma self_sub : forall x, word S x -> word S (fsub S x x) /\ (finite S x -> fsub S x x = 0) /\ (~ finite S x -> is_nan S (fsub S x x)).
Proof.
  intros x W. destruct (dnan_nan S s_mb s_eb s_range) as [DN DW].
  destruct (Z_lt_le_dec (absw S x) (infw S)) as [L|G].
  - rewrite (fsub_self S s_mb s_eb s_range x W L). split; [split; [lia|reflexivity]|]. split; [reflexivity|]. intros N. now elim N.
  - assert (R : word S (fsub S x x) /\ is_nan S (fsub S x x)).
    { unfold fsub. destruct (nanb S x) eqn:N.
      - apply Z.ltb_lt in N. destruct (quiet_nan S s_mb s_eb s_range x W N). tauto.
      - pose proof N as N'. apply Z.ltb_ge in N. assert (E : absw S x = infw S) by lia.
        destruct (fneg_fin S s_mb s_eb s_range x W) as (Wn & Nn & An). unfold fadd. rewrite N'.
        assert (nanb S (fneg S x) = false) as -> by (apply Z.ltb_ge; rewrite An; lia).
        unfold infb. rewrite An, E, Z.eqb_refl, Nn. destruct (neg S x); cbn [negb Bool.eqb andb]; tauto. }
    split; [apply R|]. split; [unfold finite; lia|]. intros _. apply R.
Qed.

Lemma div_self_nan : forall x, word S x -> is_nan S (fdiv S (fsub S x x) (fsub S x x)).
Proof.
  intros x W. destruct (self_sub x W) as (A & B & C). apply (fdiv_self_nan S s_mb s_eb s_range _ A).
  destruct (Z_lt_le_dec (absw S x) (infw S)) as [L|G].
  - rewrite (B L). right. right. reflexivity.
  - left. apply C. unfold finite. lia.
Qed.

Lemma div_zero_nan : forall x, word S x -> is_nan S (fdiv S (fsub S x x) 0).
Proof.
  intros x W. destruct (self_sub x W) as (A & B & C). destruct (Z_lt_le_dec (absw S x) (infw S)) as [L|G].
  - rewrite (B L). vm_compute. reflexivity.
  - unfold fdiv. assert (N : is_nan S (fsub S x x)) by (apply C; unfold finite; lia).
    assert (nanb S (fsub S x x) = true) as -> by (apply Z.ltb_lt; exact N). now apply (quiet_nan S s_mb s_eb s_range).
Qed.

Lemma add_self : forall x, word S x -> (is_nan S x -> is_nan S (fadd S x x)) /\ (is_inf S x -> fadd S x x = x).
Proof.
  intros x W. split; intros H; [apply (fadd_nan S s_mb s_eb s_range x x W H)|now apply (fadd_inf_self S s_mb s_eb s_range)].
Qed.

(** Comparisons with an integer, in terms of the pattern. *)
Lemma at_mag : forall x, word S x -> val S x = (if neg S x then - mag S (absw S x) else mag S (absw S x)).
Proof. reflexivity. Qed.

Lemma mag_cmp : forall a c, 0 <= a -> 0 <= c -> (mag S a < mag S c <-> a < c) /\ (mag S a = mag S c <-> a = c).
Proof.
  intros a c Ha Hc. pose proof (mag_compare S s_mb s_eb s_range a c Ha Hc) as M. split; split; intros H.
  - rewrite <- Z.compare_lt_iff, M in H. now apply Z.compare_lt_iff.
  - rewrite <- Z.compare_lt_iff, M. now apply Z.compare_lt_iff.
  - rewrite <- Z.compare_eq_iff, M in H. now apply Z.compare_eq_iff.
  - now rewrite H.
Qed.

Lemma f_cases : forall x, word S x -> 0 <= absw S x < 2147483648 /\ get_float x = (if neg S x then absw S x - 2147483648 else absw S x) /\
  Z.land (get_float x) 2147483647 = absw S x /\ x = (if neg S x then 2147483648 else 0) + absw S x.
Proof.
  intros x W. destruct (s_split x W) as [E B]. split; [exact B|]. split; [exact (s_get x W)|]. split; [exact (s_land_abs x W)|].
  rewrite s_sbit in E. exact E.
Qed.

(** [over], [under] and [equals] for an integer whose pattern is known. *)
Lemma cmp_int : forall x n c, word S x -> 0 <= c -> mag S c = n * one S ->
  (over S x n <-> absw S x <= 2139095040 /\ neg S x = false /\ c < absw S x) /\
  (under S x (- n) <-> absw S x <= 2139095040 /\ neg S x = true /\ c < absw S x) /\
  (0 < n -> equals S x n <-> absw S x <= 2139095040 /\ neg S x = false /\ absw S x = c) /\
  (0 < n -> equals S x (- n) <-> absw S x <= 2139095040 /\ neg S x = true /\ absw S x = c) /\
  (0 < n -> under S x n <-> absw S x <= 2139095040 /\ (neg S x = true \/ absw S x < c)).
Proof.
  intros x n c W Hc E. destruct (f_cases x W) as (B & _). unfold over, under, equals, is_nan. rewrite s_infw, (at_mag x W).
  pose proof (mag_cmp c (absw S x) Hc ltac:(lia)) as [M1 M2]. pose proof (mag_cmp (absw S x) c ltac:(lia) Hc) as [M3 _].
  pose proof (mag_nonneg S s_mb s_eb s_range (absw S x) ltac:(lia)) as G. pose proof (mag_nonneg S s_mb s_eb s_range c Hc) as G2.
  rewrite E in *. pose proof (one_pos S s_mb s_eb s_range) as O.
  rewrite Z.mul_opp_l. set (v := n * one S) in *. assert (P : 0 < n -> 0 < v) by (unfold v; clear - O; nia). clearbody v.
  generalize dependent (mag S (absw S x)). intros m M1 M2 M3 G.
  repeat split; intros; destruct (neg S x); try (split; [|split]); try split; try discriminate; try reflexivity; lia.
Qed.

Lemma one_mag : mag S 0x3f800000 = 1 * one S. Proof. vm_compute. reflexivity. Qed.
Lemma zero_mag : mag S 0 = 0 * one S. Proof. reflexivity. Qed.

(** Everything about the argument in one form: sign and pattern. *)
Ltac facts x W :=
  let B := fresh "B" in let G := fresh "G" in let A := fresh "A" in let E := fresh "E" in
  destruct (f_cases x W) as (B & G & A & E);
  pose proof (div_self_nan x W) as DS; pose proof (div_zero_nan x W) as DZ; pose proof (add_self x W) as [AN AI];
  destruct (cmp_int x 1 0x3f800000 W ltac:(lia) one_mag) as (O1 & U1 & Q1 & Q2 & U2);
  specialize (Q1 eq_refl); specialize (Q2 eq_refl); specialize (U2 eq_refl);
  destruct (cmp_int x 0 0 W ltac:(lia) zero_mag) as (_ & U0 & _).

(** Goals by cases of the comparisons made. *)
Ltac tests := repeat match goal with
  | |- context [?a <? ?b] => destruct (Z.ltb_spec a b); try (exfalso; lia)
  | |- context [?a <=? ?b] => destruct (Z.leb_spec a b); try (exfalso; lia)
  | |- context [?a =? ?b] => destruct (Z.eqb_spec a b); try (exfalso; lia)
  end.

Lemma log_spec : forall rest, log_ends S (log_start rest).
Proof.
  intros rest. split.
  - intros x W N. facts x W. unfold log_start. cbv zeta. rewrite A, G. unfold is_nan in N. rewrite s_infw in N.
    destruct (neg S x); tests; try assumption; apply AN; unfold is_nan; rewrite s_infw; lia.
  - intros x W. facts x W. unfold log_start. cbv zeta. rewrite A, G. split; [|split].
    + unfold is_zero. intros Z. rewrite Z. destruct (neg S x); tests; vm_compute; auto.
    + intros U. apply U0 in U. destruct U as (U1' & U2' & U3). rewrite U2'. tests. exact DZ.
    + intros [I N]. rewrite N. pose proof I as I'. unfold is_inf in I'. rewrite s_infw in I'. tests. now apply AI.
Qed.

Lemma acos_spec : forall rest, acos_ends S (c_acosf rest).
Proof.
  intros rest. split.
  - intros x W N. facts x W. unfold c_acosf. cbv zeta. rewrite A. unfold is_nan in N. rewrite s_infw in N. tests; exact DS.
  - intros x W. facts x W. unfold c_acosf. cbv zeta. rewrite A, G. split; [|split].
    + rewrite O1. change (under S x (-1)) with (under S x (- (1))). rewrite U1. intros H. destruct (neg S x); tests; exact DS.
    + rewrite Q1. intros (_ & H1 & H2). rewrite H1, H2. reflexivity.
    + change (equals S x (-1)) with (equals S x (- (1))). rewrite Q2. intros (_ & H1 & H2). rewrite H1, H2.
      change (1065353216 =? 1065353216) with true. change (0 <? 1065353216 - 2147483648) with false. cbv iota.
      destruct (rnd_rounds S s_mb s_eb s_range false (31415926535897932385 * one S) (10 ^ 19 * 1)) as [R _]; [vm_compute; discriminate|reflexivity|].
      unfold pi_over. cbn [sgn_of] in R. rewrite Z.mul_1_l.
      replace (fadd S 1078530010 (fmul S 1073741824 866263400)) with (rnd S false (31415926535897932385 * one S) (10 ^ 19 * 1)) by (vm_compute; reflexivity).
      exact R.
Qed.

Lemma pi_at : forall (c : Z) (s : bool) w, 0 < c -> w = rnd S s (31415926535897932385 * one S) (10 ^ 19 * c) -> pi_over S c s w.
Proof.
  intros c s w Hc ->. destruct (rnd_rounds S s_mb s_eb s_range s (31415926535897932385 * one S) (10 ^ 19 * c)) as [R _].
  - pose proof (one_pos S s_mb s_eb s_range). lia.
  - lia.
  - unfold pi_over. destruct s; cbn [sgn_of] in R; [|now rewrite Z.mul_1_l].
    replace (-1 * (31415926535897932385 * one S)) with (- (31415926535897932385 * one S)) by ring. exact R.
Qed.

(** An argument known up to its sign is one of two patterns. *)
Lemma two_words : forall x c, word S x -> absw S x = c -> x = c /\ neg S x = false \/ x = 2147483648 + c /\ neg S x = true.
Proof. intros x c W H. destruct (f_cases x W) as (_ & _ & _ & E). rewrite H in E. destruct (neg S x); [right|left]; auto. Qed.

Lemma asin_spec : forall rest, asin_ends S (c_asinf rest).
Proof.
  intros rest. split.
  - intros x W N. facts x W. unfold c_asinf. cbv zeta. rewrite A. unfold is_nan in N. rewrite s_infw in N.
    destruct (Z.eqb_spec (absw S x) 1065353216); [lia|]. destruct (Z.ltb_spec 1065353216 (absw S x)); [exact DS|lia].
  - intros x W. facts x W. split; [|split].
    + unfold c_asinf. cbv zeta. rewrite A, O1. change (under S x (-1)) with (under S x (- (1))). rewrite U1. intros H.
      destruct (Z.eqb_spec (absw S x) 1065353216); [lia|]. destruct (Z.ltb_spec 1065353216 (absw S x)); [exact DS|lia].
    + intros Z. destruct (two_words x 0 W Z) as [[-> _]|[-> _]]; reflexivity.
    + rewrite Q1. change (equals S x (-1)) with (equals S x (- (1))). rewrite Q2. intros H.
      destruct (two_words x 1065353216 W ltac:(lia)) as [[-> ->]|[-> ->]]; apply pi_at; try lia; vm_compute; reflexivity.
Qed.

Lemma inf_abs : forall x, is_inf S x -> absw S x = 2139095040.
Proof. intros x H. unfold is_inf in H. now rewrite s_infw in H. Qed.

Lemma atan_spec : forall rest, atan_ends S (c_atanf rest).
Proof.
  intros rest. split.
  - intros x W N. facts x W. unfold c_atanf. cbv zeta. rewrite A. pose proof N as N'. unfold is_nan in N. rewrite s_infw in N.
    destruct (Z.leb_spec 1350565888 (absw S x)); [|lia]. destruct (Z.ltb_spec 2139095040 (absw S x)); [now apply AN|lia].
  - intros x W. split; intros H.
    + destruct (two_words x 0 W H) as [[-> _]|[-> _]]; reflexivity.
    + destruct (two_words x _ W (inf_abs x H)) as [[-> ->]|[-> ->]]; apply pi_at; try lia; vm_compute; reflexivity.
Qed.

Lemma acosh_spec : forall rest, acosh_ends S (c_acoshf rest).
Proof.
  intros rest. split.
  - intros x W N. facts x W. unfold c_acoshf. cbv zeta. rewrite G. pose proof N as N'. unfold is_nan in N. rewrite s_infw in N.
    destruct (neg S x); tests; try exact DS; now apply AN.
  - intros x W. facts x W. split; [|split].
    + rewrite U2. intros H. unfold c_acoshf. cbv zeta. rewrite G.
      assert ((if neg S x then absw S x - 2147483648 else absw S x) <? 1065353216 = true) as -> by (apply Z.ltb_lt; destruct (neg S x); lia).
      exact DS.
    + rewrite Q1. intros (_ & H1 & H2). destruct (two_words x _ W H2) as [[-> _]|[_ X]]; [reflexivity|congruence].
    + intros [H1 H2]. destruct (two_words x _ W (inf_abs x H1)) as [[-> _]|[_ X]]; [reflexivity|congruence].
Qed.

Lemma atanh_spec : forall rest, atanh_ends S (c_atanhf rest).
Proof.
  intros rest. split.
  - intros x W N. facts x W. unfold c_atanhf. cbv zeta. rewrite A. unfold is_nan in N. rewrite s_infw in N.
    destruct (Z.ltb_spec 1065353216 (absw S x)); [exact DS|lia].
  - intros x W. facts x W. split; [|split].
    + unfold c_atanhf. cbv zeta. rewrite A, O1. change (under S x (-1)) with (under S x (- (1))). rewrite U1. intros H.
      destruct (Z.ltb_spec 1065353216 (absw S x)); [exact DS|lia].
    + intros Z. destruct (two_words x 0 W Z) as [[-> _]|[-> _]]; reflexivity.
    + rewrite Q1. change (equals S x (-1)) with (equals S x (- (1))). rewrite Q2. intros H.
      destruct (two_words x 1065353216 W ltac:(lia)) as [[-> _]|[-> _]]; vm_compute; auto.
Qed.

Lemma mul_nan : forall x, word S x -> is_nan S x -> is_nan S (fmul S x x).
Proof.
  intros x W N. unfold fmul. assert (nanb S x = true) as -> by (apply Z.ltb_lt; exact N). now apply (quiet_nan S s_mb s_eb s_range).
Qed.

Lemma ninety : mag S 0x42b40000 = 90 * one S. Proof. vm_compute. reflexivity. Qed.
Lemma eightynine : mag S 0x42b20000 = 89 * one S. Proof. vm_compute. reflexivity. Qed.
Lemma hundredfour : mag S 0x42d00000 = 104 * one S. Proof. vm_compute. reflexivity. Qed.

Lemma cosh_spec : forall rest, cosh_ends S (c_coshf rest).
Proof.
  intros rest. split.
  - intros x W N. facts x W. unfold c_coshf. cbv zeta. rewrite A. pose proof N as N'. unfold is_nan in N. rewrite s_infw in N.
    destruct (Z.leb_spec 2139095040 (absw S x)); [now apply mul_nan|lia].
  - intros x W H. assert (K : absw S x = 2139095040 \/ 0x42b40000 < absw S x < 2139095040).
    { destruct (cmp_int x 90 0x42b40000 W ltac:(lia) ninety) as (O & U & _). destruct H as [H|[H|H]]; [left; now apply inf_abs| |].
      - apply O in H. lia.
      - apply U in H. lia. }
    destruct K as [K|K].
    + destruct (two_words x _ W K) as [[-> _]|[-> _]]; vm_compute; auto.
    + facts x W. unfold c_coshf. cbv zeta. rewrite A. destruct (Z.leb_spec 2139095040 (absw S x)); [lia|].
      destruct (Z.leb_spec (absw S x) 1119016188); [lia|]. vm_compute. auto.
Qed.

Lemma sinh_spec : forall rest, sinh_ends S (c_sinhf rest).
Proof.
  intros rest. split.
  - intros x W N. facts x W. unfold c_sinhf. cbv zeta. rewrite A. pose proof N as N'. unfold is_nan in N. rewrite s_infw in N.
    destruct (Z.leb_spec 2139095040 (absw S x)); [now apply AN|lia].
  - intros x W [H|H]; [destruct (two_words x 0 W H) as [[-> _]|[-> _]]|destruct (two_words x _ W (inf_abs x H)) as [[-> _]|[-> _]]]; reflexivity.
Qed.

Lemma one_over_nan : forall x, word S x -> is_nan S x -> word S (fdiv S 1065353216 x) /\ is_nan S (fdiv S 1065353216 x).
Proof.
  intros x W N. unfold fdiv. change (nanb S 1065353216) with false. cbv iota.
  assert (nanb S x = true) as -> by (apply Z.ltb_lt; exact N). destruct (quiet_nan S s_mb s_eb s_range x W N). tauto.
Qed.

Lemma tanh_spec : forall rest, tanh_ends S (c_tanhf rest).
Proof.
  intros rest. split.
  - intros x W N. facts x W. unfold c_tanhf. cbv zeta. rewrite A, G. destruct (one_over_nan x W N) as [W1 N1].
    unfold is_nan in N. rewrite s_infw in N.
    destruct (Z.leb_spec 2139095040 (absw S x)); [|lia]. destruct (0 <=? _).
    + apply (fadd_nan S s_mb s_eb s_range _ _ W1 N1).
    + unfold fsub. assert (nanb S (fdiv S 1065353216 x) = true) as -> by (apply Z.ltb_lt; exact N1).
      now apply (quiet_nan S s_mb s_eb s_range).
  - intros x W. split; [|split].
    + intros H. destruct (two_words x 0 W H) as [[-> _]|[-> _]]; reflexivity.
    + intros [H1 H2]. destruct (two_words x _ W (inf_abs x H1)) as [[-> _]|[_ X]]; [split; vm_compute; congruence|congruence].
    + intros [H1 H2]. destruct (two_words x _ W (inf_abs x H1)) as [[_ X]|[-> _]]; [congruence|split; vm_compute; congruence].
Qed.

Lemma trig_spec : forall b rest, b < 2139095040 -> trig_ends S (trig_start b rest).
Proof.
  intros b rest Hb. assert (K : forall x, word S x -> ~ finite S x -> is_nan S (trig_start b rest x)).
  { intros x W N. facts x W. unfold trig_start. cbv zeta. rewrite A. pose proof N as N'. unfold finite in N. rewrite s_infw in N.
    destruct (Z.leb_spec (absw S x) b); [lia|]. destruct (Z.leb_spec 2139095040 (absw S x)); [|lia]. now apply self_sub. }
  split; intros x W H; apply (K x W); unfold is_nan, is_inf, finite in *; lia.
Qed.

Lemma flip_top : forall a, 0 <= a < 2147483648 -> Z.lxor (2147483648 + a) (2 ^ 31) = a.
Proof.
  intros a H. change 2147483648 with (1 * 2 ^ 31). rewrite <- LibmfRint.lor_disjoint by (change (2 ^ 31) with 2147483648; lia).
  apply Z.bits_inj'. intros i Hi. rewrite Z.lxor_spec, Z.lor_spec, Z.mul_1_l. destruct (Z.eq_dec i 31) as [->|N].
  - rewrite Z.pow2_bits_true by lia. rewrite (LibmfRint.nonneg_high a 31 31) by (change (2 ^ 31) with 2147483648; lia). reflexivity.
  - rewrite Z.pow2_bits_false by lia. destruct (Z.testbit a i); reflexivity.
Qed.

Lemma s32_abs : forall x, word S x -> s32 (absw S x) = absw S x.
Proof.
  intros x W. destruct (f_cases x W) as (B & _). apply LibmSign.s32_id. lia.
Qed.

Lemma cbrt_abs : forall x, word S x -> s32 (Z.lxor (u32 (get_float x)) (Z.land (u32 (get_float x)) 2147483648)) = absw S x.
Proof.
  intros x W. destruct (f_cases x W) as (B & _ & _ & E). rewrite (s_get_u32 x W).
  change 2147483648 with (2 ^ 31). rewrite LibmfRint.land_pow2 by lia.
  destruct (neg S x).
  - assert (T : Z.testbit x 31 = true).
    { rewrite Z.testbit_true by lia. change (2 ^ 31) with 2147483648. replace (x / 2147483648) with 1 by lia. reflexivity. }
    rewrite T. assert (X : Z.lxor x (2 ^ 31) = absw S x) by (rewrite E at 1; now apply flip_top).
    rewrite X. now apply s32_abs.
  - assert (T : Z.testbit x 31 = false).
    { rewrite (LibmfRint.nonneg_high x 31 31); [reflexivity|change (2 ^ 31) with 2147483648; lia|lia]. }
    rewrite T, Z.lxor_0_r. rewrite E at 1. rewrite Z.add_0_l. now apply s32_abs.
Qed.

Lemma cbrt_spec : forall rest, cbrt_ends S (c_cbrtf rest).
Proof.
  intros rest. split.
  - intros x W N. facts x W. unfold c_cbrtf. cbv zeta. rewrite (cbrt_abs x W). pose proof N as N'. unfold is_nan in N. rewrite s_infw in N.
    destruct (Z.leb_spec 2139095040 (absw S x)); [now apply AN|lia].
  - intros x W [H|H]; [destruct (two_words x 0 W H) as [[-> _]|[-> _]]|destruct (two_words x _ W (inf_abs x H)) as [[-> _]|[-> _]]]; reflexivity.
Qed.

Lemma exp_bits : forall x, word S x -> Z.land (u32 (get_float x)) 2147483647 = absw S x.
Proof.
  intros x W. destruct (f_cases x W) as (B & _ & _ & E). rewrite (s_get_u32 x W). change 2147483647 with (2 ^ 31 - 1).
  rewrite land_low by lia. change (2 ^ 31) with 2147483648. destruct (neg S x); lia.
Qed.

Lemma exp_spec : forall rest, exp_ends S (c_expf rest).
Proof.
  intros rest. split.
  - intros x W N. facts x W. unfold c_expf. cbv zeta. rewrite (exp_bits x W). pose proof N as N'. unfold is_nan in N. rewrite s_infw in N.
    destruct (Z.leb_spec 1118925336 (absw S x)); [|lia]. destruct (Z.ltb_spec 2139095040 (absw S x)); [now apply AN|lia].
  - intros x W. split; [|split; [|split]].
    + intros [H1 H2]. destruct (two_words x _ W (inf_abs x H1)) as [[-> _]|[_ X]]; [reflexivity|congruence].
    + intros [H1 H2]. destruct (two_words x _ W (inf_abs x H1)) as [[_ X]|[-> _]]; [congruence|reflexivity].
    + intros H. destruct (proj1 (cmp_int x 89 0x42b20000 W ltac:(lia) eightynine)) as [O _]. pose proof (O H) as (K1 & K2 & K3).
      destruct (Z.eq_dec (absw S x) 2139095040) as [I|I].
      * destruct (two_words x _ W I) as [[-> _]|[_ X]]; [vm_compute; auto|congruence].
      * unfold c_expf. cbv zeta. rewrite (exp_bits x W). destruct (Z.leb_spec 1118925336 (absw S x)); [|lia].
        destruct (Z.ltb_spec 2139095040 (absw S x)); [lia|]. destruct (Z.eqb_spec (absw S x) 2139095040); [lia|].
        rewrite (flt_val S s_mb s_eb s_range); [|split; vm_compute; congruence|exact W|vm_compute; reflexivity|unfold finite; rewrite s_infw; lia].
        destruct H as [_ H]. assert (V : val S 1118925184 < 89 * one S) by (vm_compute; reflexivity).
        assert ((val S 1118925184 <? val S x) = true) as -> by (apply Z.ltb_lt; clear - H V; lia). vm_compute. auto.
    + intros H. destruct (proj1 (proj2 (cmp_int x 104 0x42d00000 W ltac:(lia) hundredfour))) as [O _].
      change (-104) with (- (104)) in H. pose proof (O H) as (K1 & K2 & K3).
      destruct (Z.eq_dec (absw S x) 2139095040) as [I|I].
      * destruct (two_words x _ W I) as [[_ X]|[-> _]]; [congruence|reflexivity].
      * unfold c_expf. cbv zeta. rewrite (exp_bits x W). destruct (Z.leb_spec 1118925336 (absw S x)); [|lia].
        destruct (Z.ltb_spec 2139095040 (absw S x)); [lia|]. destruct (Z.eqb_spec (absw S x) 2139095040); [lia|].
        assert (Fx : finite S x) by (unfold finite; rewrite s_infw; lia).
        assert (WO : word S 1118925184) by (split; vm_compute; congruence). assert (WU : word S 3268407733) by (split; vm_compute; congruence).
        assert (FO : finite S 1118925184) by (vm_compute; reflexivity). assert (FU : finite S 3268407733) by (vm_compute; reflexivity).
        rewrite (flt_val S s_mb s_eb s_range _ _ WO W FO Fx), (flt_val S s_mb s_eb s_range _ _ W WU Fx FU).
        destruct H as [_ H]. assert (V : - (104) * one S < val S 3268407733) by (vm_compute; reflexivity).
        assert (V2 : - (104) * one S < val S 1118925184) by (vm_compute; reflexivity).
        assert ((val S 1118925184 <? val S x) = false) as -> by (apply Z.ltb_ge; clear - H V2; lia).
        assert ((val S x <? val S 3268407733) = true) as -> by (apply Z.ltb_lt; clear - H V; lia). vm_compute. reflexivity.
Qed.
