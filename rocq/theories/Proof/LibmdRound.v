(** floor, ceil, trunc, round on doubles; NaN and infinities. *)
From Verif Require Import Model.Base Spec.Ieee Spec.LibmSpec Model.Float Model.Libm
  Proof.FloatProof Proof.Tac Proof.LibmfProof Proof.LibmfRint Proof.LibmfRound Proof.LibmdProof.

(** Names for the parts of [d] and the facts about them. *)
Ltac words_setup d W :=
  let a := fresh "a" in let s := fresh "s" in let h := fresh "h" in let l := fresh "l" in let j := fresh "j" in
  remember (absw double d) as a eqn:Da; symmetry in Da;
  remember (neg double d) as s eqn:Ds; symmetry in Ds;
  remember (hi false d) as h eqn:Dh; symmetry in Dh;
  remember (lo false d) as l eqn:Dl; symmetry in Dl;
  remember (a / 2 ^ 52 - 1023) as j eqn:Dj; symmetry in Dj;
  pose proof (d_split d a h l j s W Da Ds Dh Dl Dj) as [E B];
  pose proof (d_exp_val d a h l j s W Da Ds Dh Dl Dj) as Xe;
  pose proof (d_sign d a h l j s W Da Ds Dh Dl Dj) as [S1 S2];
  pose proof (d_h_signed d a h l j s W Da Ds Dh Dl Dj) as Hsg;
  pose proof (d_all d a h l j s W Da Ds Dh Dl Dj) as All;
  pose proof (d_zero_test d a h l j s W Da Ds Dh Dl Dj) as Zt;
  pose proof (d_inexact_true d a h l j s W Da Ds Dh Dl Dj) as Inex;
  pose proof (hi_test d a h l j s W Da Ds Dh Dl Dj) as Ht;
  pose proof (lo_test d a h l j s W Da Ds Dh Dl Dj) as Lt;
  pose proof (hi_clear d a h l j s W Da Ds Dh Dl Dj) as Hc;
  pose proof (lo_clear d a h l j s W Da Ds Dh Dl Dj) as Lc;
  pose proof (hi_up d a h l j s W Da Ds Dh Dl Dj) as Hu;
  pose proof (lo_up d a h l j s W Da Ds Dh Dl Dj) as Lu.

Lemma floor_clear : forall d, word double d -> finite double d ->
  c_floor false d = sbit double (neg double d) + clear double (absw double d) (neg double d).
Proof.
  intros d W Fd. unfold finite in Fd. unfold c_floor.
  words_setup d W. rewrite (d_clear d a h l j s W Da Ds Dh Dl Dj _ Fd).
  rewrite Xe, S1, S2, All, Zt. rewrite d_infw in Fd. rewrite d_sbit in *.
  destruct (Z.ltb_spec j 20) as [J20|J20].
  - rewrite Inex by (clear - J20; lia). destruct (Z.ltb_spec j 0) as [J0|J0].
    + destruct s; cbn [negb andb].
      * destruct (Z.eqb_spec a 0) as [A|A]; cbn [negb]; [clear - E A; lia|reflexivity].
      * reflexivity.
    + rewrite Ht by (clear - J0 J20; lia).
      replace (j <? 52) with true by (symmetry; apply Z.ltb_lt; clear - J20; lia).
      destruct (Z.eqb_spec (a mod 2 ^ (52 - j)) 0) as [A|A].
      * rewrite A, andb_false_r. clear - E. lia.
      * destruct s; cbn [andb negb]; [rewrite Hu by (clear - J0 J20; lia)|rewrite Hc by (clear - J0 J20; lia)];
          rewrite ?d_sbit; clear; lia.
  - replace (j <? 0) with false by (symmetry; apply Z.ltb_ge; clear - J20; lia).
    destruct (Z.ltb_spec 51 j) as [J51|J51].
    + replace (j <? 52) with false by (symmetry; apply Z.ltb_ge; clear - J51; lia).
      destruct (Z.eqb_spec j 1024) as [J|J]; [|exact E].
      exfalso. change (2 ^ 52) with 4503599627370496 in Dj. clear - J Dj Fd. lia.
    + replace (j <? 52) with true by (symmetry; apply Z.ltb_lt; clear - J51; lia).
      rewrite Lt, Inex by (clear - J20 J51; lia).
      destruct (Z.eqb_spec (a mod 2 ^ (52 - j)) 0) as [A|A].
      * rewrite A, andb_false_r. clear - E. lia.
      * destruct s; cbn [andb negb]; [rewrite Lu by (clear - J20 J51; lia)|rewrite Lc by (clear - J20 J51; lia)];
          rewrite ?d_sbit; clear; lia.
Qed.

Lemma ceil_clear : forall d, word double d -> finite double d ->
  c_ceil false d = sbit double (neg double d) + clear double (absw double d) (negb (neg double d)).
Proof.
  intros d W Fd. unfold finite in Fd. unfold c_ceil.
  words_setup d W. rewrite (d_clear d a h l j s W Da Ds Dh Dl Dj _ Fd).
  pose proof (d_land_abs d a h l j s W Da Ds Dh Dl Dj) as La.
  pose proof (d_words d a h l j s W Da Ds Dh Dl Dj) as (_ & Wh & Wl & Wa & Wr & Ws).
  rewrite Xe, S2, All. rewrite d_infw in Fd. rewrite d_sbit in *.
  assert (P : 0 <= j -> (0 <? s32 h) = negb s).
  { intros J. rewrite Hsg. change (2 ^ 52) with 4503599627370496 in Dj.
    clear - J Dj Wh Wl Wa Wr Ws. destruct s; cbn [negb]; lia. }
  destruct (Z.ltb_spec j 20) as [J20|J20].
  - rewrite Inex by (clear - J20; lia). destruct (Z.ltb_spec j 0) as [J0|J0].
    + destruct s; cbn [negb andb].
      * reflexivity.
      * assert (X : s32 h = Z.land (s32 h) 2147483647) by (rewrite La, Hsg; clear - Wa Wl; lia).
        rewrite X, Zt. destruct (Z.eqb_spec a 0) as [A|A]; cbn [negb]; [clear - E A; lia|reflexivity].
    + rewrite Ht, P by (clear - J0 J20; lia).
      replace (j <? 52) with true by (symmetry; apply Z.ltb_lt; clear - J20; lia).
      destruct (Z.eqb_spec (a mod 2 ^ (52 - j)) 0) as [A|A].
      * rewrite A, andb_false_r. clear - E. lia.
      * destruct s; cbn [andb negb]; [rewrite Hc by (clear - J0 J20; lia)|rewrite Hu by (clear - J0 J20; lia)];
          rewrite ?d_sbit; clear; lia.
  - replace (j <? 0) with false by (symmetry; apply Z.ltb_ge; clear - J20; lia).
    destruct (Z.ltb_spec 51 j) as [J51|J51].
    + replace (j <? 52) with false by (symmetry; apply Z.ltb_ge; clear - J51; lia).
      destruct (Z.eqb_spec j 1024) as [J|J]; [|exact E].
      exfalso. change (2 ^ 52) with 4503599627370496 in Dj. clear - J Dj Fd. lia.
    + replace (j <? 52) with true by (symmetry; apply Z.ltb_lt; clear - J51; lia).
      rewrite Lt, Inex, P by (clear - J20 J51; lia).
      destruct (Z.eqb_spec (a mod 2 ^ (52 - j)) 0) as [A|A].
      * rewrite A, andb_false_r. clear - E. lia.
      * destruct s; cbn [andb negb]; [rewrite Lc by (clear - J20 J51; lia)|rewrite Lu by (clear - J20 J51; lia)];
          rewrite ?d_sbit; clear; lia.
Qed.

Lemma d_sign_word : forall d, word double d ->
  ins false (Z.land (u32 (s32 (hi false d))) 2147483648) 0 = sbit double (neg double d).
Proof.
  intros d W. words_setup d W.
  rewrite (d_h_u32 d a h l j s W Da Ds Dh Dl Dj).
  pose proof (d_words d a h l j s W Da Ds Dh Dl Dj) as (_ & Wh & _ & _ & _ & Ws).
  change 2147483648 with (not32 (2 ^ 31 - 1)). rewrite land_high by (change (2 ^ 32) with 4294967296; clear - Wh; lia).
  change (2 ^ 31) with 2147483648. rewrite d_sbit. unfold ins. change (u32 0) with 0.
  assert (X : h - h mod 2147483648 = if s then 2147483648 else 0) by (clear - Wh Ws; destruct s; lia).
  rewrite X. destruct s; reflexivity.
Qed.

Lemma trunc_clear : forall d, word double d -> finite double d ->
  c_trunc false d = sbit double (neg double d) + clear double (absw double d) false.
Proof.
  intros d W Fd. unfold finite in Fd. unfold c_trunc. rewrite (d_sign_word d W).
  words_setup d W. rewrite (d_clear d a h l j s W Da Ds Dh Dl Dj _ Fd).
  rewrite Xe, All. rewrite d_infw in Fd. cbn [andb].
  destruct (Z.ltb_spec j 20) as [J20|J20].
  - rewrite Inex by (clear - J20; lia). destruct (Z.ltb_spec j 0) as [J0|J0].
    + clear. lia.
    + rewrite Ht by (clear - J0 J20; lia).
      replace (j <? 52) with true by (symmetry; apply Z.ltb_lt; clear - J20; lia).
      destruct (Z.eqb_spec (a mod 2 ^ (52 - j)) 0) as [A|A].
      * rewrite A. clear - E. lia.
      * rewrite Hc by (clear - J0 J20; lia). clear; lia.
  - replace (j <? 0) with false by (symmetry; apply Z.ltb_ge; clear - J20; lia).
    destruct (Z.ltb_spec 51 j) as [J51|J51].
    + replace (j <? 52) with false by (symmetry; apply Z.ltb_ge; clear - J51; lia).
      destruct (Z.eqb_spec j 1024) as [J|J]; [|exact E].
      exfalso. change (2 ^ 52) with 4503599627370496 in Dj. clear - J Dj Fd. lia.
    + replace (j <? 52) with true by (symmetry; apply Z.ltb_lt; clear - J51; lia).
      rewrite Lt, Inex by (clear - J20 J51; lia).
      destruct (Z.eqb_spec (a mod 2 ^ (52 - j)) 0) as [A|A].
      * rewrite A. clear - E. lia.
      * rewrite Lc by (clear - J20 J51; lia). clear; lia.
Qed.

Lemma floor_finite : forall d, word double d -> finite double d -> floor_of double d (c_floor false d).
Proof. intros d W Fd. rewrite floor_clear by assumption. now apply (clear_floor double d_mb d_eb d_range). Qed.

Lemma ceil_finite : forall d, word double d -> finite double d -> ceil_of double d (c_ceil false d).
Proof. intros d W Fd. rewrite ceil_clear by assumption. now apply (clear_ceil double d_mb d_eb d_range). Qed.

Lemma trunc_finite : forall d, word double d -> finite double d -> trunc_of double d (c_trunc false d).
Proof. intros d W Fd. rewrite trunc_clear by assumption. now apply (clear_trunc double d_mb d_eb d_range). Qed.

(** fpclassify.c tells the classes apart. *)
Lemma fpclassifyd_spec : forall d, word double d ->
  (c_fpclassifyd false d = FP_ZERO <-> is_zero double d) /\
  (c_fpclassifyd false d = FP_SUBNORMAL <-> subnormal double d) /\
  (c_fpclassifyd false d = FP_NORMAL <-> normal double d) /\
  (c_fpclassifyd false d = FP_INFINITE <-> is_inf double d) /\
  (c_fpclassifyd false d = FP_NAN <-> is_nan double d).
Proof.
  intros d W. unfold is_zero, subnormal, normal, is_inf, is_nan. rewrite d_infw.
  change (2 ^ mb double) with 4503599627370496. unfold c_fpclassifyd.
  unfold FP_ZERO, FP_SUBNORMAL, FP_NORMAL, FP_INFINITE, FP_NAN.
  remember (absw double d) as a eqn:Da; symmetry in Da.
  remember (neg double d) as s eqn:Ds; symmetry in Ds.
  remember (hi false d) as h eqn:Dh; symmetry in Dh.
  remember (lo false d) as l eqn:Dl; symmetry in Dl.
  pose proof (d_words d a h l _ s W Da Ds Dh Dl eq_refl) as (_ & Wh & Wl & Wa & Wr & Ws).
  clear - Wh Wl Wa Wr Ws.
  repeat match goal with
  | |- context [?x <=? ?y] => destruct (Z.leb_spec x y); cbn [andb orb]
  | |- context [?x =? ?y] => destruct (Z.eqb_spec x y); cbn [andb orb]
  end; destruct s; try lia.
Qed.

Lemma round_is_body : forall x, word double x -> finite double x ->
  c_round false x = round_body double (c_floor false) d_half d_one x.
Proof.
  intros x W Fx. unfold c_round.
  destruct (fpclassifyd_spec x W) as (_ & _ & _ & A & B).
  unfold finite in Fx. unfold is_inf, is_nan in A, B.
  destruct (Z.eqb_spec (c_fpclassifyd false x) FP_INFINITE) as [H|H]; [apply A in H; lia|].
  destruct (Z.eqb_spec (c_fpclassifyd false x) FP_NAN) as [H2|H2]; [apply B in H2; lia|]. reflexivity.
Qed.

Lemma d_halfw : word double d_half /\ finite double d_half /\ 2 * val double d_half = one double.
Proof. vm_compute. repeat split; congruence. Qed.

Lemma d_onew : word double d_one /\ finite double d_one /\ val double d_one = one double.
Proof. vm_compute. repeat split; congruence. Qed.

Lemma round_finite : forall d, word double d -> finite double d -> round_of double d (c_round false d).
Proof.
  intros d W Fd. rewrite round_is_body by assumption.
  destruct d_halfw as (A1 & A2 & A3). destruct d_onew as (B1 & B2 & B3).
  apply (round_body_finite double d_mb d_eb d_range (c_floor false) floor_finite); assumption.
Qed.

(** ** NaN and infinities *)
Lemma d_exp_special : forall d, word double d -> infw double <= absw double d ->
  d_exp (s32 (hi false d)) = 1024.
Proof.
  intros d W H. words_setup d W. rewrite Xe, <- Dj. rewrite d_infw in H.
  change (2 ^ 52) with 4503599627370496. clear - B H. lia.
Qed.

Ltac special_d :=
  intros d W; split; intros H;
  (assert (X : d_exp (s32 (hi false d)) = 1024) by (apply d_exp_special; [exact W|unfold is_nan, is_inf in H; lia]));
  [pose proof (proj1 (fadd_nan double d_mb d_eb d_range d d W H)) as Y
  |pose proof (fadd_inf_self double d_mb d_eb d_range d H) as Y].

Lemma floor_special : passes_special double (c_floor false).
Proof. special_d; unfold c_floor; rewrite X; exact Y. Qed.
Lemma ceil_special : passes_special double (c_ceil false).
Proof. special_d; unfold c_ceil; rewrite X; exact Y. Qed.
Lemma trunc_special : passes_special double (c_trunc false).
Proof. special_d; unfold c_trunc; rewrite X; exact Y. Qed.
Lemma rint_special : passes_special double (c_rint false).
Proof. special_d; unfold c_rint; rewrite X; exact Y. Qed.
Lemma round_special : passes_special double (c_round false).
Proof.
  intros w W. destruct (fpclassifyd_spec w W) as (_ & _ & _ & A & B). unfold c_round.
  split; intros H.
  - apply B in H as H'. rewrite H'. exact H.
  - apply A in H as H'. now rewrite H'.
Qed.
