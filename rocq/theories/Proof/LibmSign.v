(** Sign and classification (libpok/libm: fabs, copysign, isnan, isinf, finite), for float and double. *)
From Verif Require Import Model.Base Spec.Ieee Spec.LibmSpec Model.Float Model.Libm
  Proof.Tac Proof.FloatProof Proof.LibmfProof Proof.LibmfRint Proof.LibmdProof Proof.LibmdRound Proof.LibmdRint.

(** ** Words *)
Lemma land_abs : forall w, word single w -> Z.land w 2147483647 = absw single w.
Proof. intros w H. change 2147483647 with (2 ^ 31 - 1). rewrite land_low by lia. reflexivity. Qed.

Lemma land_sign : forall w, 0 <= w < 4294967296 ->
  Z.land w 2147483648 = if 2147483648 <=? w then 2147483648 else 0.
Proof.
  intros w H. change 2147483648 with (not32 (2 ^ 31 - 1)) at 1.
  rewrite land_high by (change (2 ^ 32) with 4294967296; lia).
  change (2 ^ 31) with 2147483648. destruct (Z.leb_spec 2147483648 w); lia.
Qed.

Lemma lor_top : forall x (s : bool), 0 <= x < 2147483648 ->
  u32 (Z.lor x (if s then 2147483648 else 0)) = (if s then 2147483648 else 0) + x.
Proof.
  intros x s H. destruct s.
  - change 2147483648 with (1 * 2 ^ 31) at 1. rewrite Z.lor_comm, lor_disjoint by (change (2 ^ 31) with 2147483648; lia).
    apply u32_id. change (2 ^ 31) with 2147483648. change (2 ^ 32) with 4294967296. lia.
  - rewrite Z.lor_0_r. apply u32_id. change (2 ^ 32) with 4294967296. lia.
Qed.

(** The sign bit of a difference. *)
Lemma sign_shift : forall x, -2147483648 <= x < 2147483648 ->
  Z.shiftr (u32 x) 31 = if x <? 0 then 1 else 0.
Proof.
  intros x H. rewrite Z.shiftr_div_pow2 by lia. unfold u32. change (2 ^ 31) with 2147483648.
  change (2 ^ 32) with 4294967296. destruct (Z.ltb_spec x 0); lia.
Qed.

Lemma s32_id : forall x, -2147483648 <= x < 2147483648 -> s32 x = x.
Proof.
  intros x H. unfold s32, sgn. change (2 ^ (32 - 1)) with 2147483648. change (2 ^ 32) with 4294967296.
  destruct (Z.ltb_spec (x mod 4294967296) 2147483648); lia.
Qed.

(** ** Single precision *)
Lemma fabsf_spec : forall w, word single w ->
  word single (c_fabsf w) /\ neg single (c_fabsf w) = false /\ absw single (c_fabsf w) = absw single w.
Proof.
  intros w W. destruct (s_split w W) as [_ B].
  unfold c_fabsf, set_float. rewrite land_abs by exact W.
  rewrite u32_id by (change (2 ^ 32) with 4294967296; lia).
  apply (word_of single s_mb s_eb s_range false). rewrite s_sgnw. exact B.
Qed.

Lemma copysignf_spec : forall x y, word single x -> word single y ->
  word single (c_copysignf x y) /\ neg single (c_copysignf x y) = neg single y /\ absw single (c_copysignf x y) = absw single x.
Proof.
  intros x y Wx Wy. destruct (s_split x Wx) as [_ B].
  unfold c_copysignf, set_float. rewrite land_abs by exact Wx.
  assert (0 <= y < 4294967296) by (apply s_word in Wy; exact Wy).
  rewrite land_sign by assumption. change (2147483648 <=? y) with (neg single y).
  rewrite lor_top by exact B. rewrite <- s_sbit.
  apply (word_of single s_mb s_eb s_range). rewrite s_sgnw. exact B.
Qed.

Lemma isnanf_spec : forall w, word single w -> (is_nan single w -> c_isnanf w = 1) /\ (~ is_nan single w -> c_isnanf w = 0).
Proof.
  intros w W. destruct (s_split w W) as [_ B]. unfold c_isnanf, is_nan. rewrite s_land_abs, s_infw by exact W.
  rewrite s32_id, sign_shift by lia. split; intros H.
  - destruct (Z.ltb_spec (2139095040 - absw single w) 0); lia.
  - destruct (Z.ltb_spec (2139095040 - absw single w) 0); lia.
Qed.

Lemma isinff_spec : forall w, word single w -> (is_inf single w -> c_isinff w = 1) /\ (~ is_inf single w -> c_isinff w = 0).
Proof.
  intros w W. unfold c_isinff, is_inf. rewrite s_land_abs, s_infw by exact W. split.
  - intros ->. reflexivity.
  - intros N. destruct (Z.eqb_spec (Z.lxor (absw single w) 2139095040) 0) as [X|X]; [|reflexivity].
    apply Z.lxor_eq in X. contradiction.
Qed.

Lemma finitef_spec : forall w, word single w -> (finite single w -> c_finitef w = 1) /\ (~ finite single w -> c_finitef w = 0).
Proof.
  intros w W. destruct (s_split w W) as [_ B]. unfold c_finitef, finite. rewrite s_land_abs, s_infw by exact W.
  rewrite sign_shift by lia. split; intros H.
  - destruct (Z.ltb_spec (absw single w - 2139095040) 0); lia.
  - destruct (Z.ltb_spec (absw single w - 2139095040) 0); lia.
Qed.

(** ** Double precision, less significant word first *)
Lemma d_hi_abs : forall d, word double d ->
  Z.land (hi false d) 2147483647 = absw double d / 4294967296 /\ (2147483648 <=? hi false d) = neg double d /\
  lo false d = absw double d mod 4294967296 /\ 0 <= hi false d < 4294967296 /\
  Z.land (s32 (hi false d)) 2147483647 = absw double d / 4294967296.
Proof.
  intros d W. pose proof (d_land_abs d _ _ _ _ _ W eq_refl eq_refl eq_refl eq_refl eq_refl) as L.
  pose proof (d_words d _ _ _ _ _ W eq_refl eq_refl eq_refl eq_refl eq_refl) as (Wd & Wh & Wl & Wa & Wr & Ws).
  pose proof (d_l_mod d _ _ _ _ _ W eq_refl eq_refl eq_refl eq_refl eq_refl) as Lm.
  split; [|split; [|split; [exact Lm|split; [exact Wh|exact L]]]].
  - change 2147483647 with (2 ^ 31 - 1). rewrite land_low by lia. change (2 ^ 31) with 2147483648.
    clear - Wh Wl Wa Wr Ws. destruct (neg double d); lia.
  - clear - Wh Ws. destruct (neg double d); lia.
Qed.

Lemma d_join : forall s a, 0 <= a < 9223372036854775808 ->
  ((if s : bool then 2147483648 else 0) + a / 4294967296) * 2 ^ 32 + a mod 4294967296 = sbit double s + a.
Proof. intros s a H. rewrite d_sbit. change (2 ^ 32) with 4294967296. destruct s; lia. Qed.

Lemma fabs_word : forall d, word double d -> c_fabs false d = absw double d.
Proof.
  intros d W. destruct (d_hi_abs d W) as (A & _ & L & Hh & _).
  pose proof (d_split d _ _ _ _ _ W eq_refl eq_refl eq_refl eq_refl eq_refl) as [_ B].
  unfold c_fabs, set_hi, ins. rewrite A, L. rewrite !u32_id by (change (2 ^ 32) with 4294967296; lia).
  exact (d_join false _ B).
Qed.

Lemma copysign_word : forall x y, word double x -> word double y ->
  c_copysign false x y = sbit double (neg double y) + absw double x.
Proof.
  intros x y W Wy. destruct (d_hi_abs x W) as (A & _ & L & Hh & _). destruct (d_hi_abs y Wy) as (_ & S & _ & Hy & _).
  pose proof (d_split x _ _ _ _ _ W eq_refl eq_refl eq_refl eq_refl eq_refl) as [_ B].
  unfold c_copysign, set_hi, ins. rewrite A, L. rewrite land_sign, S by exact Hy.
  rewrite lor_top by lia. rewrite u32_id by (change (2 ^ 32) with 4294967296; lia).
  exact (d_join _ _ B).
Qed.

Lemma fabs_spec : forall d, word double d ->
  word double (c_fabs false d) /\ neg double (c_fabs false d) = false /\ absw double (c_fabs false d) = absw double d.
Proof.
  intros d W. rewrite fabs_word by exact W.
  pose proof (d_split d _ _ _ _ _ W eq_refl eq_refl eq_refl eq_refl eq_refl) as [_ B].
  apply (word_of double d_mb d_eb d_range false). rewrite d_sgnw. exact B.
Qed.

Lemma copysign_spec : forall x y, word double x -> word double y ->
  word double (c_copysign false x y) /\ neg double (c_copysign false x y) = neg double y /\
  absw double (c_copysign false x y) = absw double x.
Proof.
  intros x y W Wy. rewrite copysign_word by assumption.
  pose proof (d_split x _ _ _ _ _ W eq_refl eq_refl eq_refl eq_refl eq_refl) as [_ B].
  apply (word_of double d_mb d_eb d_range). rewrite d_sgnw. exact B.
Qed.

Lemma u32_lor : forall x y, u32 (Z.lor x y) = Z.lor (u32 x) (u32 y).
Proof.
  intros x y. unfold u32. rewrite <- !Z.land_ones by lia. apply Z.land_lor_distr_l.
Qed.

Lemma u32_opp : forall x, u32 (- s32 x) = u32 (- u32 x).
Proof.
  intros x. unfold u32. pose proof (u32_s32 x) as E. unfold u32 in E. rewrite <- E.
  rewrite <- Z.sub_0_l, <- (Z.sub_0_l (s32 x mod 2 ^ 32)). rewrite Zminus_mod_idemp_r. reflexivity.
Qed.

(** 1 for a low word that is not 0 (isnan.c:40). *)
Lemma low_bit : forall l, 0 <= l < 4294967296 ->
  Z.shiftr (u32 (Z.lor (s32 l) (s32 (- s32 l)))) 31 = if l =? 0 then 0 else 1.
Proof.
  intros l H. rewrite u32_lor, !u32_s32, u32_opp. rewrite u32_id by exact H.
  pose proof (sticky_bit l 0) as S. change (31 - 0) with 31 in S. change (2 ^ 0) with 1 in S.
  rewrite <- S by (exact H || lia). symmetry. change 1 with (2 ^ 1 - 1) at 1. rewrite land_low by lia.
  apply Z.mod_small. rewrite Z.shiftr_div_pow2 by lia.
  assert (0 <= Z.lor l (u32 (- l)) < 2 ^ 32); [|change (2 ^ 31) with 2147483648; change (2 ^ 32) with 4294967296 in *; change (2 ^ 1) with 2; lia].
  pose proof (u32_lor l (- l)) as X. rewrite (u32_id l) in X by exact H. rewrite <- X. apply Z.mod_pos_bound. reflexivity.
Qed.

Lemma isnan_spec : forall d, word double d ->
  (is_nan double d -> c_isnan false d = -1) /\ (~ is_nan double d -> c_isnan false d = 0).
Proof.
  intros d W. destruct (d_hi_abs d W) as (_ & _ & L & Hh & A).
  pose proof (d_split d _ _ _ _ _ W eq_refl eq_refl eq_refl eq_refl eq_refl) as [_ B].
  unfold c_isnan, is_nan. rewrite A. rewrite low_bit by (rewrite L; clear; lia). rewrite L, d_infw.
  set (a := absw double d) in *. clearbody a. clear - B.
  assert (X : exists o, Z.lor (a / 4294967296) (if a mod 4294967296 =? 0 then 0 else 1) = o /\
    (9218868437227405312 < a <-> 2146435072 < o) /\ 0 <= o < 2147483648).
  { eexists. split; [reflexivity|]. destruct (Z.eqb_spec (a mod 4294967296) 0) as [Q|Q].
    - rewrite Z.lor_0_r. lia.
    - set (q := a / 4294967296).
      assert (Z.lor q 1 = q / 2 * 2 + 1) as ->; [|unfold q; lia].
      replace q with (q / 2 * 2 + q mod 2) at 1 by lia.
      change 2 with (2 ^ 1) at 2. rewrite <- lor_disjoint by (change (2 ^ 1) with 2; lia). rewrite <- Z.lor_assoc.
      assert (Z.lor (q mod 2) 1 = 1) as ->.
      { assert (q mod 2 = 0 \/ q mod 2 = 1) as [-> | ->] by lia; reflexivity. }
      apply lor_disjoint; change (2 ^ 1) with 2; lia. }
  destruct X as (o & -> & X & R). rewrite (s32_id o) by lia. rewrite (s32_id (2146435072 - o)) by lia.
  assert (Z.shiftr (s32 (u32 (2146435072 - o))) 31 = if 2146435072 <? o then -1 else 0) as ->.
  { replace (s32 (u32 (2146435072 - o))) with (2146435072 - o).
    - rewrite Z.shiftr_div_pow2 by lia. change (2 ^ 31) with 2147483648. destruct (Z.ltb_spec 2146435072 o); lia.
    - symmetry. unfold s32, u32, sgn. rewrite Z.mod_mod by (compute; discriminate).
      fold (u32 (2146435072 - o)). change (2 ^ (32 - 1)) with 2147483648. unfold u32. change (2 ^ 32) with 4294967296.
      destruct (Z.ltb_spec ((2146435072 - o) mod 4294967296) 2147483648); lia. }
  destruct (Z.ltb_spec 2146435072 o); split; intros; lia.
Qed.

Lemma isinf_spec : forall d, word double d ->
  (is_inf double d -> c_isinf false d = 1) /\ (~ is_inf double d -> c_isinf false d = 0).
Proof.
  intros d W. destruct (d_hi_abs d W) as (_ & _ & L & Hh & A).
  pose proof (d_split d _ _ _ _ _ W eq_refl eq_refl eq_refl eq_refl eq_refl) as [_ B].
  unfold c_isinf, is_inf. rewrite A, L, d_infw.
  set (a := absw double d) in *. clearbody a. clear - B. split.
  - intros ->. reflexivity.
  - intros N. destruct (Z.eqb_spec (Z.lor (Z.lxor (a / 4294967296) 2146435072) (s32 (a mod 4294967296))) 0) as [X|X]; [|reflexivity].
    apply Z.lor_eq_0_iff in X. destruct X as [X Y]. apply Z.lxor_eq in X.
    assert (0 <= a mod 4294967296 < 2 ^ 32) as R by (apply Z.mod_pos_bound; reflexivity).
    destruct (s32_cases _ R) as [[C D]|[C D]]; rewrite D in Y; exfalso; apply N; clear - B X Y C; lia.
Qed.

Lemma finite_spec : forall d, word double d ->
  (finite double d -> c_finite false d = 1) /\ (~ finite double d -> c_finite false d = 0).
Proof.
  intros d W. destruct (d_hi_abs d W) as (_ & _ & L & Hh & A).
  pose proof (d_split d _ _ _ _ _ W eq_refl eq_refl eq_refl eq_refl eq_refl) as [_ B].
  unfold c_finite, finite. rewrite A, d_infw. set (a := absw double d) in *. clearbody a. clear - B.
  rewrite sign_shift by lia.
  destruct (Z.ltb_spec (a / 4294967296 - 2146435072) 0); split; intros; lia.
Qed.
