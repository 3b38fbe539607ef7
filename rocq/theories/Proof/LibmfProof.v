(** The single-precision functions of Model/Libm.v in terms of values. *)
From Verif Require Import Model.Base Spec.Ieee Spec.LibmSpec Model.Float Model.Libm
  Proof.Tac Proof.FloatProof.

(** ** Words of 32 bits *)

Lemma u32_id : forall x, 0 <= x < 2 ^ 32 -> u32 x = x.
Proof. intros x H. now apply Z.mod_small. Qed.

Lemma s32_cases : forall w, 0 <= w < 2 ^ 32 ->
  (w < 2147483648 /\ s32 w = w) \/ (2147483648 <= w /\ s32 w = w - 4294967296).
Proof.
  intros w H. unfold s32, sgn. rewrite Z.mod_small by exact H.
  change (2 ^ (32 - 1)) with 2147483648. change (2 ^ 32) with 4294967296.
  destruct (Z.ltb_spec w 2147483648); [left|right]; lia.
Qed.

Lemma u32_s32 : forall x, u32 (s32 x) = u32 x.
Proof.
  intros x. unfold u32, s32, sgn. change (2 ^ (32 - 1)) with 2147483648.
  change (2 ^ 32) with 4294967296.
  destruct (Z.ltb_spec (x mod 4294967296) 2147483648).
  - apply Z.mod_mod. lia.
  - replace (x mod 4294967296 - 4294967296) with (x mod 4294967296 + (-1) * 4294967296) by lia.
    rewrite Z.mod_add, Z.mod_mod by lia. reflexivity.
Qed.

Lemma u32_s32_add : forall x y, u32 (s32 (s32 x + y)) = u32 (x + y).
Proof.
  intros x y. rewrite u32_s32. unfold u32.
  rewrite <- Z.add_mod_idemp_l by (compute; discriminate).
  change (s32 x mod 2 ^ 32) with (u32 (s32 x)). rewrite u32_s32. unfold u32.
  rewrite Z.add_mod_idemp_l by (compute; discriminate). reflexivity.
Qed.

(** Masks. *)
Lemma land_low : forall x k, 0 <= k -> Z.land x (2 ^ k - 1) = x mod 2 ^ k.
Proof.
  intros x k H. rewrite <- Z.land_ones by exact H. now rewrite Z.ones_equiv, Z.sub_1_r.
Qed.

Lemma land_high : forall x k, 0 <= x < 2 ^ 32 -> 0 <= k <= 32 ->
  Z.land x (not32 (2 ^ k - 1)) = x - x mod 2 ^ k.
Proof.
  intros x k Hx Hk. pose proof (p2 k ltac:(lia)).
  assert (E : Z.land x (not32 (2 ^ k - 1)) = Z.ldiff x (Z.ones k)).
  { apply Z.bits_inj'. intros i Hi. rewrite Z.land_spec, Z.ldiff_spec. unfold not32, u32.
    destruct (Z_lt_le_dec i 32).
    - rewrite Z.mod_pow2_bits_low by lia. rewrite Z.lnot_spec by lia.
      now rewrite Z.ones_equiv, Z.sub_1_r.
    - assert (Z.testbit x i = false) as ->; [|reflexivity].
      rewrite <- (Z.mod_small x (2 ^ 32)) by lia. apply Z.mod_pow2_bits_high. lia. }
  rewrite E, Z.ldiff_ones_r, Z.shiftl_mul_pow2, Z.shiftr_div_pow2 by lia.
  rewrite (Z.div_mod x (2 ^ k)) at 2 by lia. lia.
Qed.

Lemma shiftr_ones : forall n j, 0 <= j <= n -> Z.shiftr (2 ^ n - 1) j = 2 ^ (n - j) - 1.
Proof.
  intros n j H. rewrite Z.shiftr_div_pow2 by lia.
  replace n with (n - j + j) at 1 by lia. rewrite p2_split by lia.
  pose proof (p2 j ltac:(lia)). pose proof (p2 (n - j) ltac:(lia)).
  symmetry. apply Z.div_unique with (2 ^ j - 1); lia.
Qed.

Lemma shiftr_pow : forall n j, 0 <= j <= n -> Z.shiftr (2 ^ n) j = 2 ^ (n - j).
Proof.
  intros n j H. rewrite Z.shiftr_div_pow2 by lia.
  replace n with (n - j + j) at 1 by lia. rewrite p2_split by lia.
  pose proof (p2 j ltac:(lia)). apply Z.div_mul. lia.
Qed.

(** ** The format *)

Lemma s_mb : 1 <= mb single. Proof. cbn. lia. Qed.
Lemma s_eb : 3 <= eb single. Proof. cbn. lia. Qed.
Lemma s_range : mb single + 2 <= bias single. Proof. unfold bias. cbn. lia. Qed.
Lemma s_sgnw : sgnw single = 2147483648. Proof. reflexivity. Qed.
Lemma s_infw : infw single = 2139095040. Proof. reflexivity. Qed.

Lemma s_word : forall w, word single w <-> 0 <= w < 2 ^ 32.
Proof. intros w. unfold word. rewrite s_sgnw. change (2 ^ 32) with 4294967296. lia. Qed.

Lemma s_split : forall w, word single w ->
  w = sbit single (neg single w) + absw single w /\ 0 <= absw single w < 2147483648.
Proof.
  intros w H. pose proof (word_split single s_mb s_eb s_range w H) as X.
  now rewrite s_sgnw in X.
Qed.

Lemma s_sbit : forall s, sbit single s = if s then 2147483648 else 0.
Proof. reflexivity. Qed.

Lemma s_get : forall w, word single w ->
  get_float w = if neg single w then absw single w - 2147483648 else absw single w.
Proof.
  intros w H. destruct (s_split w H) as [E B]. apply s_word in H. unfold get_float.
  change (2 ^ 32) with 4294967296 in H.
  rewrite s_sbit in E. destruct (neg single w);
  destruct (s32_cases w H) as [[? ->]|[? ->]]; lia.
Qed.

Lemma s_get_u32 : forall w, word single w -> u32 (get_float w) = w.
Proof. intros w H. unfold get_float. rewrite u32_s32. apply u32_id. now apply s_word. Qed.

Lemma s_land_abs : forall w, word single w -> Z.land (get_float w) 2147483647 = absw single w.
Proof.
  intros w H. change 2147483647 with (2 ^ 31 - 1). rewrite land_low by lia.
  change (2 ^ 31) with 2147483648. rewrite (s_get w H).
  destruct (s_split w H) as [_ B]. destruct (neg single w); lia.
Qed.

Lemma s_exp : forall w, word single w -> f_exp (get_float w) = absw single w / 2 ^ 23 - 127.
Proof.
  intros w H. unfold f_exp. change 255 with (2 ^ 8 - 1). rewrite land_low by lia.
  rewrite Z.shiftr_div_pow2 by lia. change (2 ^ 23) with 8388608. change (2 ^ 8) with 256.
  rewrite (s_get w H). destruct (s_split w H) as [_ B]. destruct (neg single w); lia.
Qed.

Lemma s_mask : forall j, 0 <= j <= 23 -> f_mask j = 2 ^ (23 - j) - 1.
Proof. intros j H. unfold f_mask. change 8388607 with (2 ^ 23 - 1). now apply shiftr_ones. Qed.

Lemma s_mod : forall w k, word single w -> 0 <= k <= 31 -> w mod 2 ^ k = absw single w mod 2 ^ k.
Proof.
  intros w k H Hk. destruct (s_split w H) as [E _]. rewrite E at 1. rewrite s_sbit.
  destruct (neg single w); [|reflexivity].
  change 2147483648 with (2 ^ 31). replace 31 with (31 - k + k) at 1 by lia.
  rewrite p2_split by lia. pose proof (p2 k ltac:(lia)).
  rewrite Z.add_comm. apply Z.mod_add. lia.
Qed.

Lemma s_finite_exp : forall w, word single w -> absw single w / 2 ^ 23 - 127 < 128 -> finite single w.
Proof.
  intros w H L. unfold finite. rewrite s_infw. destruct (s_split w H) as [_ B].
  change (2 ^ 23) with 8388608 in L. lia.
Qed.

(** huge + x is above 0 for every x smaller than 2^24. *)
Lemma s_inexact : forall w, word single w -> absw single w / 2 ^ 23 - 127 < 23 ->
  f_inexact w = true.
Proof.
  intros w H L. unfold f_inexact.
  apply (fadd_above_zero single s_mb s_eb s_range).
  - unfold finite. rewrite s_infw. vm_compute. reflexivity.
  - apply s_finite_exp; [exact H|lia].
  - destruct (s_split w H) as [_ B].
    assert (absw single w < 1258291200) by (change (2 ^ 23) with 8388608 in L; lia).
    pose proof (mag_mono single s_mb s_eb s_range (absw single w) 1258291200 ltac:(lia) ltac:(lia)) as M1.
    pose proof (mag_nonneg single s_mb s_eb s_range (absw single w) ltac:(lia)) as M2.
    assert (mag single 1258291200 < val single f_huge) by (vm_compute; reflexivity).
    unfold val at 2. destruct (neg single w); lia.
Qed.

(** ** floorf, ceilf, truncf *)

Section Round.
Set Default Proof Using "All".
Variables (w a j : Z) (s : bool).
Hypothesis W : word single w.
Hypothesis Da : absw single w = a.
Hypothesis Ds : neg single w = s.
Hypothesis Dj : a / 2 ^ 23 - 127 = j.

Lemma r_split : w = sbit single s + a /\ 0 <= a < 2147483648 /\ 0 <= sbit single s <= 2147483648.
Proof.
  rewrite <- Da, <- Ds. split; [|split]; try now apply s_split.
  rewrite s_sbit. destruct (neg single w); lia.
Qed.

(** The middle range, with the masks replaced by arithmetic. *)
Lemma s_middle_and : 0 <= j < 23 ->
  Z.land (u32 (get_float w)) (f_mask j) = a mod 2 ^ (23 - j).
Proof.
  intros Hj. rewrite s_get_u32, s_mask, land_low by (assumption || lia).
  rewrite <- Da. apply s_mod; [exact W|lia].
Qed.

Lemma s_middle_clear : 0 <= j < 23 ->
  set_float (s32 (Z.land (u32 (get_float w)) (not32 (f_mask j)))) =
  sbit single s + (a - a mod 2 ^ (23 - j)).
Proof.
  intros Hj. rewrite (s_get_u32 w W), s_mask by (assumption || lia).
  pose proof W as W'. apply s_word in W'.
  rewrite land_high by (assumption || lia).
  unfold set_float. rewrite u32_s32.
  rewrite s_mod by (assumption || lia). rewrite Da.
  destruct r_split as (E & B & SB).
  pose proof (Z.mod_le a (2 ^ (23 - j)) ltac:(lia) (p2 (23 - j) ltac:(lia))).
  pose proof (Z.mod_pos_bound a (2 ^ (23 - j)) (p2 (23 - j) ltac:(lia))).
  rewrite u32_id by lia. lia.
Qed.

Lemma s_middle_up : 0 <= j < 23 ->
  set_float (s32 (Z.land (u32 (s32 (get_float w + Z.shiftr 8388608 j))) (not32 (f_mask j)))) =
  sbit single s + (a - a mod 2 ^ (23 - j) + 2 ^ (23 - j)).
Proof.
  intros Hj. change 8388608 with (2 ^ 23). rewrite shiftr_pow by lia.
  unfold get_float. rewrite u32_s32_add, s_mask by lia.
  pose proof W as W'. apply s_word in W'.
  destruct r_split as (E & B & SB).
  pose proof (p2 (23 - j) ltac:(lia)) as P.
  pose proof (p2_le (23 - j) 23 ltac:(lia) ltac:(lia)) as L.
  change (2 ^ 23) with 8388608 in L.
  assert (A : a < 150 * 8388608) by (rewrite <- Dj in Hj; change (2 ^ 23) with 8388608 in Hj; lia).
  change (2 ^ 32) with 4294967296 in W'.
  assert (R : 0 <= w + 2 ^ (23 - j) < 2 ^ 32).
  { rewrite s_sbit in E. change (2 ^ 32) with 4294967296. destruct s; lia. }
  rewrite (u32_id _ R), land_high by (assumption || lia).
  unfold set_float. rewrite u32_s32.
  assert (T : (w + 2 ^ (23 - j)) mod 2 ^ (23 - j) = a mod 2 ^ (23 - j)).
  { replace (w + 2 ^ (23 - j)) with (w + 1 * 2 ^ (23 - j)) by lia.
    rewrite Z.mod_add by lia. rewrite <- Da. apply s_mod; [exact W|lia]. }
  rewrite T.
  pose proof (Z.mod_le a (2 ^ (23 - j)) ltac:(lia) P).
  pose proof (Z.mod_pos_bound a (2 ^ (23 - j)) P).
  rewrite u32_id by lia. lia.
Qed.

Lemma s_mid_facts : 0 <= j < 23 -> exists n, 1 <= n /\
    mag single (a - a mod 2 ^ (23 - j)) = n * one single /\
    mag single (a - a mod 2 ^ (23 - j) + 2 ^ (23 - j)) = (n + 1) * one single /\
    0 <= a - a mod 2 ^ (23 - j) /\ a - a mod 2 ^ (23 - j) + 2 ^ (23 - j) < infw single /\
    a < infw single /\
    n * one single <= mag single a < (n + 1) * one single /\
    (a mod 2 ^ (23 - j) = 0 <-> mag single a = n * one single).
Proof.
  intros Hj. destruct r_split as (E & B & SB).
  apply (mid_facts single s_mb s_eb s_range); [lia|cbn [mb single]; lia|].
  cbn [mb single]. change (bias single) with 127. lia.
Qed.

Lemma s_big : 23 <= j < 128 -> exists n, mag single a = n * one single.
Proof.
  intros Hj. apply (mag_integral single s_mb s_eb s_range).
  cbn [mb single]. change (bias single) with 127. lia.
Qed.

Lemma s_small : j < 0 -> mag single a < one single.
Proof.
  intros Hj. destruct r_split as (_ & B & SB).
  apply (mag_below_one single s_mb s_eb s_range); [lia|].
  cbn [mb single]. change (bias single) with 127. lia.
Qed.

Lemma s_val : val single w = sgn_of s (mag single a).
Proof. rewrite <- Da, <- Ds. apply (val_neg single s_mb s_eb s_range w W). Qed.

Lemma s_sign : (0 <=? get_float w) = negb s /\ (get_float w <? 0) = s.
Proof.
  rewrite (s_get w W). destruct r_split as (_ & B & SB). rewrite Ds, Da.
  destruct s; cbn [negb]; lia.
Qed.

Lemma s_inexact' : j < 23 -> f_inexact w = true.
Proof. intros L. apply s_inexact; [exact W|]. rewrite Da. lia. Qed.


End Round.

(** The setting of the lemmas above for a word. *)
Ltac round_setup w W :=
  let a := fresh "a" in let j := fresh "j" in let s := fresh "s" in
  remember (absw single w) as a eqn:Da; symmetry in Da;
  remember (neg single w) as s eqn:Ds; symmetry in Ds;
  remember (a / 2 ^ 23 - 127) as j eqn:Dj; symmetry in Dj;
  pose proof (r_split w a j s W Da Ds Dj) as (E & B & SB);
  pose proof (s_val w a j s W Da Ds Dj) as SV;
  pose proof (s_small w a j s W Da Ds Dj) as Small;
  pose proof (s_big w a j s W Da Ds Dj) as Big;
  pose proof (s_mid_facts w a j s W Da Ds Dj) as Mid;
  pose proof (s_inexact' w a j s W Da Ds Dj) as Inex;
  pose proof (s_middle_and w a j s W Da Ds Dj) as Mand;
  pose proof (s_middle_clear w a j s W Da Ds Dj) as Mclear;
  pose proof (s_middle_up w a j s W Da Ds Dj) as Mup;
  pose proof (s_sign w a j s W Da Ds Dj) as [S1 S2];
  pose proof (s_exp w W) as Xe; rewrite Da, Dj in Xe;
  pose proof (one_pos single s_mb s_eb s_range) as O;
  pose proof (mag_nonneg single s_mb s_eb s_range a ltac:(lia)) as G;
  pose proof (s_get_u32 w W) as Gu;
  pose proof (s_land_abs w W) as La; rewrite Da in La.

Ltac result b n :=
  refine (int_result single s_mb s_eb s_range _ _ b n _ _ _ _ _ _);
  [eassumption|rewrite ?s_infw|match goal with D : neg single _ = _ |- _ => rewrite D end
  |match goal with D : neg single _ = _ |- _ => rewrite D end; cbn [sgn_of]|].

Lemma s_mag_one : mag single 1065353216 = one single.
Proof. vm_compute. reflexivity. Qed.

Lemma s_mag_0 : mag single 0 = 0.
Proof. reflexivity. Qed.

Lemma floorf_finite : forall w, word single w -> finite single w -> floor_of single w (c_floorf w).
Proof.
  intros w W Fw. unfold finite in Fw. rewrite s_infw in Fw.
  unfold c_floorf. round_setup w W. rewrite Xe.
  pose proof s_mag_one as M1. pose proof s_mag_0 as M0.
  pose proof (mag_zero single s_mb s_eb s_range a ltac:(lia)) as MZ.
  unfold floor_of. rewrite S1, S2, SV.
  destruct (Z.ltb_spec j 23).
  - rewrite Inex by lia. destruct (Z.ltb_spec j 0).
    + specialize (Small ltac:(lia)). rewrite La. destruct s; cbn [negb sgn_of].
      * destruct (Z.eqb_spec a 0) as [Z|N]; cbn [negb].
        -- result 0 0; [lia| |lia|rewrite Z, M0 in *; lia].
           unfold set_float. rewrite Gu. lia.
        -- result 1065353216 (-1); [lia|reflexivity|lia|].
           assert (mag single a <> 0) by (intros X; apply N; now apply MZ). lia.
      * result 0 0; [lia|reflexivity|lia|lia].
    + rewrite Mand by lia.
      destruct (Mid ltac:(lia)) as (n & N1 & A1 & A2 & A3 & A4 & A5 & A6 & A7).
      rewrite s_infw in A4, A5. pose proof (p2 (23 - j) ltac:(lia)).
      destruct (Z.eqb_spec (a mod 2 ^ (23 - j)) 0) as [Z|N].
      * apply A7 in Z. destruct s; cbn [sgn_of].
        -- result a (- n); lia.
        -- result a n; lia.
      * assert (N' : mag single a <> n * one single) by (rewrite <- A7; exact N).
        destruct s; cbn [sgn_of].
        -- rewrite Mup by lia.
           result (a - a mod 2 ^ (23 - j) + 2 ^ (23 - j)) (- (n + 1)); lia.
        -- rewrite Mclear by lia.
           result (a - a mod 2 ^ (23 - j)) n; lia.
  - assert (j < 128) by (rewrite <- Dj; change (2 ^ 23) with 8388608; lia).
    destruct (Z.eqb_spec j 128) as [J|J]; [lia|].
    destruct (Big ltac:(lia)) as [n Hn]. rewrite Hn.
    destruct s; cbn [sgn_of]; [result a (- n)|result a n]; lia.
Qed.

Lemma ceilf_finite : forall w, word single w -> finite single w -> ceil_of single w (c_ceilf w).
Proof.
  intros w W Fw. unfold finite in Fw. rewrite s_infw in Fw.
  unfold c_ceilf. round_setup w W. rewrite Xe.
  pose proof s_mag_one as M1. pose proof s_mag_0 as M0.
  pose proof (mag_zero single s_mb s_eb s_range a ltac:(lia)) as MZ.
  pose proof (s_get w W) as Gf. rewrite Ds, Da in Gf.
  unfold ceil_of. rewrite S2, SV.
  destruct (Z.ltb_spec j 23).
  - rewrite Inex by lia. destruct (Z.ltb_spec j 0).
    + specialize (Small ltac:(lia)). destruct s; cbn [negb sgn_of].
      * result 0 0; [lia|reflexivity|lia|lia].
      * rewrite Gf. destruct (Z.eqb_spec a 0) as [Z|N]; cbn [negb].
        -- result 0 0; [lia|rewrite Z; reflexivity|lia|rewrite Z, M0 in *; lia].
        -- result 1065353216 1; [lia|reflexivity|lia|].
           assert (mag single a <> 0) by (intros X; apply N; now apply MZ). lia.
    + rewrite Mand by lia.
      destruct (Mid ltac:(lia)) as (n & N1 & A1 & A2 & A3 & A4 & A5 & A6 & A7).
      rewrite s_infw in A4, A5. pose proof (p2 (23 - j) ltac:(lia)).
      destruct (Z.eqb_spec (a mod 2 ^ (23 - j)) 0) as [Z|N].
      * apply A7 in Z. destruct s; cbn [sgn_of].
        -- result a (- n); lia.
        -- result a n; lia.
      * assert (N' : mag single a <> n * one single) by (rewrite <- A7; exact N).
        assert (Pos : (0 <? get_float w) = negb s).
        { rewrite Gf. assert (a <> 0) by (intros ->; rewrite M0 in *; nia). destruct s; cbn [negb]; lia. }
        rewrite Pos.
        destruct s; cbn [sgn_of negb].
        -- rewrite Mclear by lia.
           result (a - a mod 2 ^ (23 - j)) (- n); lia.
        -- rewrite Mup by lia.
           result (a - a mod 2 ^ (23 - j) + 2 ^ (23 - j)) (n + 1); lia.
  - assert (j < 128) by (rewrite <- Dj; change (2 ^ 23) with 8388608; lia).
    destruct (Z.eqb_spec j 128) as [J|J]; [lia|].
    destruct (Big ltac:(lia)) as [n Hn]. rewrite Hn.
    destruct s; cbn [sgn_of]; [result a (- n)|result a n]; lia.
Qed.

Lemma sign_bit : forall w, word single w ->
  Z.land w 2147483648 = sbit single (neg single w).
Proof.
  intros w W. destruct (s_split w W) as [E B]. rewrite E at 1. rewrite !s_sbit.
  change 2147483648 with (2 ^ 31) at 2.
  apply Z.bits_inj'. intros i Hi. rewrite Z.land_spec.
  assert (Ha : forall i, 31 <= i -> Z.testbit (absw single w) i = false).
  { intros k Hk. rewrite <- (Z.mod_small (absw single w) (2 ^ 31)) by (change (2 ^ 31) with 2147483648; lia).
    apply Z.mod_pow2_bits_high. lia. }
  destruct (neg single w).
  - change 2147483648 with (2 ^ 31).
    destruct (Z.eq_dec i 31) as [->|].
    + rewrite Z.pow2_bits_true, andb_true_r by lia.
      replace (2 ^ 31 + absw single w) with (absw single w + 1 * 2 ^ 31) by lia.
      rewrite Z.testbit_true by lia. rewrite Z.div_add by lia.
      rewrite Z.div_small by (change (2 ^ 31) with 2147483648; lia). reflexivity.
    + rewrite Z.pow2_bits_false by lia. apply andb_false_r.
  - rewrite Z.bits_0. destruct (Z.eq_dec i 31) as [->|].
    + now rewrite Z.add_0_l, Ha by lia.
    + rewrite Z.pow2_bits_false by lia. apply andb_false_r.
Qed.

Lemma truncf_finite : forall w, word single w -> finite single w -> trunc_of single w (c_truncf w).
Proof.
  intros w W Fw. unfold finite in Fw. rewrite s_infw in Fw.
  unfold c_truncf. pose proof (sign_bit w W) as Sb. round_setup w W. rewrite Xe.
  pose proof s_mag_0 as M0.
  unfold trunc_of. rewrite SV.
  destruct (Z.ltb_spec j 23).
  - rewrite Inex by lia. destruct (Z.ltb_spec j 0).
    + specialize (Small ltac:(lia)).
      result 0 0; [lia| |destruct s; cbn [sgn_of]; lia|destruct s; cbn [sgn_of]; lia].
      rewrite Gu, Sb. unfold set_float. rewrite u32_s32, Z.add_0_r. apply u32_id.
      change (2 ^ 32) with 4294967296. lia.
    + rewrite Mand by lia.
      destruct (Mid ltac:(lia)) as (n & N1 & A1 & A2 & A3 & A4 & A5 & A6 & A7).
      rewrite s_infw in A4, A5. pose proof (p2 (23 - j) ltac:(lia)).
      destruct (Z.eqb_spec (a mod 2 ^ (23 - j)) 0) as [Z|N].
      * apply A7 in Z. destruct s; cbn [sgn_of].
        -- result a (- n); lia.
        -- result a n; lia.
      * rewrite Mclear by lia. destruct s; cbn [sgn_of].
        -- result (a - a mod 2 ^ (23 - j)) (- n); lia.
        -- result (a - a mod 2 ^ (23 - j)) n; lia.
  - assert (j < 128) by (rewrite <- Dj; change (2 ^ 23) with 8388608; lia).
    destruct (Z.eqb_spec j 128) as [J|J]; [lia|].
    destruct (Big ltac:(lia)) as [n Hn]. rewrite Hn.
    destruct s; cbn [sgn_of]; [result a (- n)|result a n]; lia.
Qed.
