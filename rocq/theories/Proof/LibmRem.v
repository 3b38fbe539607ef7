(** __ieee754_remainderf and __ieee754_remainder (libpok/libm/e_remainderf.c, e_remainder.c). *)
From Verif Require Import Model.Base Spec.Ieee Spec.LibmSpec Model.Float Model.Libm Model.LibmRoot
  Proof.FloatProof Proof.FloatRound Proof.FloatScale Proof.FloatParts Proof.FloatRoot Proof.FloatRem Proof.LibmfProof Proof.LibmfRint Proof.LibmdProof Proof.LibmSign Proof.LibmNext
  Proof.LibmScale Proof.LibmParts Proof.LibmSqrtf Proof.LibmSqrtd Proof.LibmModf Proof.LibmModd.

Section Any.
Variable F : fmt.
Hypothesis Hmb : 1 <= mb F.
Hypothesis Heb : 3 <= eb F.
Hypothesis Hrange : mb F + 2 <= bias F.
Set Default Proof Using "All".
Notation M := (2 ^ mb F).

(** |x| = |p| *)
Lemma rem_same : forall x p x', word F x -> word F p -> finite F x -> absw F x = absw F p -> ~ is_zero F p ->
  finite F x' -> neg F x' = neg F x -> remainder_of F x p (fmul F 0 x').
Proof.
  intros x p x' Wx Wp Fx E Np Fx' Ns. pose proof (infw_lt F Hmb Heb Hrange) as IL. unfold is_zero in Np.
  destruct (pos_word F Hmb Heb Hrange 0 ltac:(lia)) as (_ & N0 & A0 & F0 & _).
  destruct (word_split F Hmb Heb Hrange p Wp) as [_ Bp].
  rewrite (fmul_mag F Hmb Heb Hrange) by assumption. rewrite N0, A0, Ns, (mag_0 F Hmb Heb Hrange), Z.mul_0_l.
  rewrite (rnd_zero F Hmb Heb Hrange) by (try lia; apply p2; lia). replace (xorb false (neg F x)) with (neg F x) by (destruct (neg F x); reflexivity).
  destruct (word_of F Hmb Heb Hrange (neg F x) 0 ltac:(lia)) as (W & N & A). pose proof (val_of F Hmb Heb Hrange (neg F x) 0 ltac:(lia)) as V.
  rewrite Z.add_0_r, (mag_0 F Hmb Heb Hrange) in *.
  assert (V0 : val F (sbit F (neg F x)) = 0) by (rewrite V; destruct (neg F x); reflexivity).
  pose proof (mag_mono F Hmb Heb Hrange 0 (absw F p) ltac:(lia) ltac:(lia)) as Pp. rewrite (mag_0 F Hmb Heb Hrange) in Pp.
  pose proof (abs_val F Hmb Heb Hrange p Wp) as Ap.
  split; [exact W|]. split; [unfold finite; lia|]. split; [intros _; exact N|]. rewrite V0.
  exists (if Bool.eqb (neg F x) (neg F p) then 1 else -1). split; [|split; lia].
  rewrite (val_neg F Hmb Heb Hrange x Wx), (val_neg F Hmb Heb Hrange p Wp), E. destruct (neg F x); destruct (neg F p); cbn [Bool.eqb sgn_of]; ring.
Qed.

(** The remainder by 2p, or x itself when 2p is too large. *)
Definition reduced (x p x' : Z) : Prop :=
  word F x' /\ finite F x' /\ neg F x' = neg F x /\ mag F (absw F x') < 2 * mag F (absw F p) /\
  exists k, val F x = k * (2 * val F p) + val F x'.

Lemma reduced_mod : forall x p x', word F p -> absw F p < infw F - M -> fmod_of F x (fadd F p p) x' -> reduced x p x'.
Proof.
  intros x p x' Wp Lp (W & Fi & N & L & k & E). destruct (fadd_same F Hmb Heb Hrange p Wp Lp) as (_ & _ & V & _).
  split; [exact W|]. split; [exact Fi|]. split; [exact N|]. split; [|exists k; rewrite V in E; exact E].
  rewrite <- !(abs_val F Hmb Heb Hrange) by assumption. rewrite V in L. lia.
Qed.

Lemma reduced_self : forall x p, word F x -> word F p -> finite F x -> infw F - M <= absw F p -> reduced x p x.
Proof.
  intros x p Wx Wp Fx Lp. split; [exact Wx|]. split; [exact Fx|]. split; [reflexivity|]. split; [|exists 0; ring].
  pose proof (M_pos F Hmb Heb Hrange) as HM. pose proof (infw_big F Hmb Heb Hrange) as IB. unfold finite in Fx. destruct (word_split F Hmb Heb Hrange x Wx) as [_ Bx].
  rewrite <- (mag_dbl F Hmb Heb Hrange) by lia. apply (mag_mono F Hmb Heb Hrange); [lia|]. unfold dbl. destruct (Z.ltb_spec (absw F p) M); lia.
Qed.

Lemma double_fin : forall p, word F p -> absw F p < infw F - M -> ~ is_zero F p ->
  word F (fadd F p p) /\ finite F (fadd F p p) /\ ~ is_zero F (fadd F p p).
Proof.
  intros p Wp Lp Np. destruct (fadd_same F Hmb Heb Hrange p Wp Lp) as (W & Fi & _ & A). split; [exact W|]. split; [exact Fi|].
  unfold is_zero in *. rewrite A. pose proof (M_pos F Hmb Heb Hrange) as HM. destruct (word_split F Hmb Heb Hrange p Wp) as [_ Bp].
  unfold dbl. destruct (Z.ltb_spec (absw F p) M); lia.
Qed.
End Any.

Lemma flip_f : forall y x, word single y -> word single x ->
  set_float (Z.lxor (u32 (get_float y)) (Z.land (u32 (get_float x)) 2147483648)) = sbit single (xorb (neg single y) (neg single x)) + absw single y.
Proof.
  intros y x Wy Wx. rewrite (s_get_u32 y Wy), (s_get_u32 x Wx). pose proof (proj1 (s_word x) Wx) as R. change (2 ^ 32) with 4294967296 in R.
  rewrite land_sign by exact R. assert (Nx : (2147483648 <=? x) = neg single x) by (unfold neg; rewrite s_sgnw; reflexivity). rewrite Nx.
  destruct (s_split y Wy) as [Ey By]. set (a := absw single y) in *. rewrite Ey at 1. rewrite !s_sbit. unfold set_float. clearbody a.
  assert (L1 : Z.lor 2147483648 a = 2147483648 + a) by (change 2147483648 with (1 * 2 ^ 31); apply lor_disjoint; change (2 ^ 31) with 2147483648; lia).
  assert (L0 : Z.land 2147483648 a = 0) by (rewrite Z.land_comm, land_sign by lia; destruct (Z.leb_spec 2147483648 a); [lia|reflexivity]).
  assert (L2 : Z.lxor 2147483648 a = 2147483648 + a) by (rewrite Z.lxor_lor by exact L0; exact L1).
  destruct (neg single y); destruct (neg single x); cbn [xorb]; rewrite ?Z.lxor_0_r, ?Z.add_0_l; try (apply u32_id; change (2 ^ 32) with 4294967296; lia).
  - rewrite <- L2, Z.lxor_comm, <- Z.lxor_assoc, Z.lxor_nilpotent, Z.lxor_0_l. apply u32_id. change (2 ^ 32) with 4294967296. lia.
  - rewrite Z.lxor_comm, L2. apply u32_id. change (2 ^ 32) with 4294967296. lia.
Qed.

Lemma fabsf_word : forall w, word single w -> c_fabsf w = absw single w.
Proof. intros w W. destruct (fabsf_spec w W) as (W1 & N1 & A1). destruct (s_split _ W1) as [E _]. rewrite E, N1, A1. reflexivity. Qed.

Theorem remainderf_spec : forall x p, word single x -> word single p -> finite single x -> finite single p -> ~ is_zero single p ->
  exists r, c_remainderf x p = Some r /\ remainder_of single x p r.
Proof.
  intros x p Wx Wp Fx Fp Np. destruct (s_split x Wx) as [Ex Bx]. destruct (s_split p Wp) as [Ep Bp].
  unfold c_remainderf. cbv zeta. rewrite (s_land_abs x Wx), (s_land_abs p Wp).
  assert (Ix : absw single x < 2139095040) by (unfold finite in Fx; rewrite s_infw in Fx; exact Fx).
  assert (Ip : 0 < absw single p < 2139095040) by (unfold finite in Fp; rewrite s_infw in Fp; unfold is_zero in Np; lia).
  destruct (Z.eqb_spec (absw single p) 0); [lia|]. destruct (Z.leb_spec 2139095040 (absw single x)); [lia|]. destruct (Z.ltb_spec 2139095040 (absw single p)); [lia|]. cbn [orb].
  assert (RD : exists x', (if absw single p <=? 2130706431 then c_fmodf x (fadd single p p) else Some x) = Some x' /\ reduced single x p x').
  { destruct (Z.leb_spec (absw single p) 2130706431).
    - assert (Lp : absw single p < infw single - 2 ^ mb single) by (change (infw single - 2 ^ mb single) with 2130706432; lia).
      destruct (double_fin single s_mb s_eb s_range p Wp Lp Np) as (W2 & F2 & N2).
      destruct (fmodf_spec x (fadd single p p) Wx W2 Fx F2 N2) as (x' & E & S). exists x'. split; [exact E|].
      exact (reduced_mod single s_mb s_eb s_range x p x' Wp Lp S).
    - exists x. split; [reflexivity|]. apply (reduced_self single s_mb s_eb s_range); try assumption. change (infw single - 2 ^ mb single) with 2130706432. lia. }
  destruct RD as (x' & -> & (Wx' & Fx' & Ns & Lx & Kx)).
  rewrite s32_id by lia. destruct (Z.eqb_spec (absw single x - absw single p) 0) as [Q|Q].
  { eexists. split; [reflexivity|]. apply (rem_same single s_mb s_eb s_range); try assumption. lia. }
  rewrite (fabsf_word x' Wx'), (fabsf_word p Wp).
  assert (Ix' : 0 <= absw single x' < infw single) by (unfold finite in Fx'; destruct (s_split x' Wx'); lia).
  assert (EN : end_of single (absw single x') (absw single p)
    (if absw single p <? 16777216 then end_small single (absw single x') (absw single p) else end_big single (fmul single f_half (absw single p)) (absw single x') (absw single p))).
  { destruct (Z.ltb_spec (absw single p) 16777216).
    - apply (end_small_spec single s_mb s_eb s_range); try assumption. change (2 * 2 ^ mb single) with 16777216. lia.
    - apply (end_big_spec single s_mb s_eb s_range); try assumption. rewrite s_infw. change (2 * 2 ^ mb single) with 16777216. lia. }
  unfold end_small, end_big in EN. cbv zeta in EN |- *.
  set (y := if absw single p <? 16777216 then _ else _) in *. clearbody y.
  rewrite flip_f by (try assumption; exact (proj1 EN)).
  eexists. split; [reflexivity|]. exact (rem_result single s_mb s_eb s_range x p x' y Wx Wp Wx' Ns Kx EN).
Qed.

Theorem remainderf_invalid : forall x p, word single x -> word single p -> is_zero single p \/ ~ finite single x \/ is_nan single p ->
  exists r, c_remainderf x p = Some r /\ is_nan single r.
Proof.
  intros x p Wx Wp H. eexists. split; [|apply (invalid single s_mb s_eb s_range x p Wx Wp H)].
  unfold c_remainderf. cbv zeta. rewrite (s_land_abs x Wx), (s_land_abs p Wp). destruct (Z.eqb_spec (absw single p) 0); [reflexivity|].
  unfold is_zero, finite, is_nan in H. rewrite s_infw in H.
  assert ((2139095040 <=? absw single x) || (2139095040 <? absw single p) = true) as ->; [|reflexivity].
  rewrite !orb_true_iff, Z.leb_le, Z.ltb_lt. lia.
Qed.

Theorem remainderf_inf : forall x p, word single x -> word single p -> finite single x -> is_inf single p -> c_remainderf x p = Some x.
Proof.
  intros x p Wx Wp Fx Ip. unfold finite, is_inf in *. rewrite s_infw in *. destruct (s_split x Wx) as [Ex Bx].
  unfold c_remainderf. cbv zeta. rewrite (s_land_abs x Wx), (s_land_abs p Wp), Ip.
  destruct (Z.leb_spec 2139095040 (absw single x)); [lia|]. change (2139095040 =? 0) with false. change (2139095040 <? 2139095040) with false. cbn [orb].
  change (2139095040 <=? 2130706431) with false. cbv iota. rewrite s32_id by lia. destruct (Z.eqb_spec (absw single x - 2139095040) 0); [lia|].
  rewrite (fabsf_word x Wx), (fabsf_word p Wp), Ip. change (2139095040 <? 16777216) with false. cbv iota.
  pose proof (end_big_inf single s_mb s_eb s_range (absw single x) ltac:(rewrite s_infw; lia)) as E. unfold end_big in E. cbv zeta in E. rewrite s_infw in E.
  change ((bias single - 1) * 2 ^ mb single) with f_half in E. rewrite E.
  destruct (pos_word single s_mb s_eb s_range (absw single x) ltac:(rewrite s_infw; lia)) as (Wa & Na & Aa & _).
  rewrite flip_f by assumption. rewrite Na, Aa. f_equal. rewrite Ex at 3. destruct (neg single x); reflexivity.
Qed.

Lemma flip_d : forall y x, word double y -> word double x ->
  set_hi false y (Z.lxor (hi false y) (Z.land (u32 (s32 (hi false x))) 2147483648)) = sbit double (xorb (neg double y) (neg double x)) + absw double y.
Proof.
  intros y x Wy Wx. rewrite (d_u32_hi x Wx). destruct (d_hi_abs x Wx) as (_ & Nx & _ & R & _). rewrite land_sign by exact R. rewrite Nx.
  destruct (d_bound y Wy) as [_ By]. rewrite (d_hi_val y Wy). destruct (d_hi_abs y Wy) as (_ & _ & Ly & _ & _).
  unfold set_hi, ins. rewrite Ly. set (v := absw double y) in *. clearbody v. destruct (dm_of v) as [Ev Bv]. rewrite (u32_small (v mod B)) by exact Bv.
  assert (Hb : 0 <= v / B < 2147483648) by lia. set (h := v / B) in *. set (l := v mod B) in *. clearbody h l. rewrite d_sbit. change (2 ^ 32) with B.
  assert (L1 : Z.lor 2147483648 h = 2147483648 + h) by (change 2147483648 with (1 * 2 ^ 31); apply lor_disjoint; change (2 ^ 31) with 2147483648; lia).
  assert (L0 : Z.land 2147483648 h = 0) by (rewrite Z.land_comm, land_sign by lia; destruct (Z.leb_spec 2147483648 h); [lia|reflexivity]).
  assert (L2 : Z.lxor 2147483648 h = 2147483648 + h) by (rewrite Z.lxor_lor by exact L0; exact L1).
  assert (G : Z.lxor ((if neg double y then 2147483648 else 0) + h) (if neg double x then 2147483648 else 0) = (if xorb (neg double y) (neg double x) then 2147483648 else 0) + h).
  { destruct (neg double y); destruct (neg double x); cbn [xorb]; rewrite ?Z.lxor_0_r, ?Z.add_0_l; try reflexivity.
    - rewrite <- L2, Z.lxor_comm, <- Z.lxor_assoc, Z.lxor_nilpotent, Z.lxor_0_l. reflexivity.
    - rewrite Z.lxor_comm, L2. reflexivity. }
  rewrite G. rewrite u32_small by (destruct (xorb _ _); lia). destruct (xorb _ _); lia.
Qed.

Lemma rem_tests : forall a b, 0 <= a < 9223372036854775808 -> 0 <= b < 9223372036854775808 ->
  (Z.lor (b / B) (b mod B) =? 0) = (b =? 0) /\
  (2146435072 <=? a / B) || ((2146435072 <=? b / B) && negb (Z.lor (u32 (b / B - 2146435072)) (b mod B) =? 0)) =
    (9218868437227405312 <=? a) || (9218868437227405312 <? b) /\
  (b / B <=? 2145386495) = (b <? 9214364837600034816) /\ (b / B <? 2097152) = (b <? MM2) /\
  (Z.lor (u32 (a / B - b / B)) (u32 (a mod B - b mod B)) =? 0) = (a =? b).
Proof.
  intros a b Ha Hb. destruct (dm_of a) as [Ea Ba]. destruct (dm_of b) as [Eb Bb].
  set (a1 := a / B) in *. set (a0 := a mod B) in *. set (b1 := b / B) in *. set (b0 := b mod B) in *. clearbody a1 a0 b1 b0.
  assert (U : forall z, -B < z < B -> u32 z = 0 <-> z = 0).
  { intros z Hz. unfold u32. change (2 ^ 32) with B. split; [|intros ->; reflexivity]. intros E.
    pose proof (Z.div_mod z B ltac:(lia)) as D. rewrite E in D. assert (-1 < z / B < 1) by lia. lia. }
  split; [apply eq_true_iff_eq; rewrite !Z.eqb_eq, Z.lor_eq_0_iff; lia|]. split.
  - f_equal; [destruct (Z.leb_spec 2146435072 a1); destruct (Z.leb_spec 9218868437227405312 a); lia|].
    destruct (Z.leb_spec 2146435072 b1); destruct (Z.ltb_spec 9218868437227405312 b); cbn [andb]; try lia.
    + apply negb_true_iff, Z.eqb_neq. rewrite Z.lor_eq_0_iff, U by lia. lia.
    + apply negb_false_iff, Z.eqb_eq. rewrite Z.lor_eq_0_iff, U by lia. lia.
  - split; [destruct (Z.leb_spec b1 2145386495); destruct (Z.ltb_spec b 9214364837600034816); lia|].
    split; [destruct (Z.ltb_spec b1 2097152); destruct (Z.ltb_spec b MM2); lia|].
    apply eq_true_iff_eq. rewrite !Z.eqb_eq, Z.lor_eq_0_iff, !U by lia. lia.
Qed.

Theorem remainder_spec : forall x p, word double x -> word double p -> finite double x -> finite double p -> ~ is_zero double p ->
  exists r, c_remainder false x p = Some r /\ remainder_of double x p r.
Proof.
  intros x p Wx Wp Fx Fp Np. destruct (d_bound x Wx) as [Ex Bx]. destruct (d_bound p Wp) as [Ep Bp].
  unfold c_remainder. cbv zeta. destruct (d_hi_abs x Wx) as (_ & _ & Lx & _ & Hx). destruct (d_hi_abs p Wp) as (_ & _ & Lp & _ & Hp). rewrite Hx, Hp, Lx, Lp.
  destruct (rem_tests (absw double x) (absw double p) Bx Bp) as (T1 & T2 & T3 & T4 & T5). rewrite T1, T2, T3, T4, T5. clear T1 T2 T3 T4 T5 Hx Hp Lx Lp.
  assert (Ix : absw double x < 9218868437227405312) by (unfold finite in Fx; rewrite d_infw in Fx; exact Fx).
  assert (Ip : 0 < absw double p < 9218868437227405312) by (unfold finite in Fp; rewrite d_infw in Fp; unfold is_zero in Np; lia).
  destruct (Z.eqb_spec (absw double p) 0); [lia|]. destruct (Z.leb_spec 9218868437227405312 (absw double x)); [lia|]. destruct (Z.ltb_spec 9218868437227405312 (absw double p)); [lia|]. cbn [orb].
  assert (RD : exists x', (if absw double p <? 9214364837600034816 then c_fmod false x (fadd double p p) else Some x) = Some x' /\ reduced double x p x').
  { destruct (Z.ltb_spec (absw double p) 9214364837600034816).
    - assert (Lp : absw double p < infw double - 2 ^ mb double) by (change (infw double - 2 ^ mb double) with 9214364837600034816; lia).
      destruct (double_fin double d_mb d_eb d_range p Wp Lp Np) as (W2 & F2 & N2).
      destruct (fmod_spec x (fadd double p p) Wx W2 Fx F2 N2) as (x' & E & S). exists x'. split; [exact E|].
      exact (reduced_mod double d_mb d_eb d_range x p x' Wp Lp S).
    - exists x. split; [reflexivity|]. apply (reduced_self double d_mb d_eb d_range); assumption. }
  destruct RD as (x' & -> & (Wx' & Fx' & Ns & Lx & Kx)).
  destruct (Z.eqb_spec (absw double x) (absw double p)) as [Q|Q].
  { eexists. split; [reflexivity|]. apply (rem_same double d_mb d_eb d_range); assumption. }
  rewrite (fabs_word x' Wx'), (fabs_word p Wp).
  assert (Ix' : 0 <= absw double x' < infw double) by (unfold finite in Fx'; destruct (d_bound x' Wx'); lia).
  assert (EN : end_of double (absw double x') (absw double p)
    (if absw double p <? MM2 then end_small double (absw double x') (absw double p) else end_big double (fmul double d_half (absw double p)) (absw double x') (absw double p))).
  { destruct (Z.ltb_spec (absw double p) MM2).
    - apply (end_small_spec double d_mb d_eb d_range); try assumption. change (2 * 2 ^ mb double) with MM2. lia.
    - apply (end_big_spec double d_mb d_eb d_range); try assumption. rewrite d_infw. change (2 * 2 ^ mb double) with MM2. lia. }
  unfold end_small, end_big in EN. cbv zeta in EN |- *.
  set (y := if absw double p <? MM2 then _ else _) in *. clearbody y.
  rewrite flip_d by (try assumption; exact (proj1 EN)).
  eexists. split; [reflexivity|]. exact (rem_result double d_mb d_eb d_range x p x' y Wx Wp Wx' Ns Kx EN).
Qed.

Theorem remainder_invalid : forall x p, word double x -> word double p -> is_zero double p \/ ~ finite double x \/ is_nan double p ->
  exists r, c_remainder false x p = Some r /\ is_nan double r.
Proof.
  intros x p Wx Wp H. eexists. split; [|apply (invalid double d_mb d_eb d_range x p Wx Wp H)].
  unfold c_remainder. cbv zeta. destruct (d_hi_abs x Wx) as (_ & _ & Lx & _ & Hx). destruct (d_hi_abs p Wp) as (_ & _ & Lp & _ & Hp). rewrite Hx, Hp, Lx, Lp.
  destruct (rem_tests (absw double x) (absw double p) (proj2 (d_bound x Wx)) (proj2 (d_bound p Wp))) as (T1 & T2 & _). rewrite T1, T2.
  destruct (Z.eqb_spec (absw double p) 0); [reflexivity|].
  unfold is_zero, finite, is_nan in H. rewrite d_infw in H.
  assert ((9218868437227405312 <=? absw double x) || (9218868437227405312 <? absw double p) = true) as ->; [|reflexivity].
  rewrite !orb_true_iff, Z.leb_le, Z.ltb_lt. lia.
Qed.

Theorem remainder_inf : forall x p, word double x -> word double p -> finite double x -> is_inf double p -> c_remainder false x p = Some x.
Proof.
  intros x p Wx Wp Fx Ip. unfold finite, is_inf in *. rewrite d_infw in *. destruct (d_bound x Wx) as [Ex Bx].
  unfold c_remainder. cbv zeta. destruct (d_hi_abs x Wx) as (_ & _ & Lx & _ & Hx). destruct (d_hi_abs p Wp) as (_ & _ & Lp & _ & Hp). rewrite Hx, Hp, Lx, Lp.
  destruct (rem_tests (absw double x) (absw double p) Bx (proj2 (d_bound p Wp))) as (T1 & T2 & T3 & T4 & T5). rewrite T1, T2, T3, T4, T5, Ip.
  destruct (Z.leb_spec 9218868437227405312 (absw double x)); [lia|]. destruct (Z.eqb_spec (absw double x) 9218868437227405312); [lia|].
  change (9218868437227405312 =? 0) with false. change (9218868437227405312 <? 9218868437227405312) with false. cbn [orb].
  change (9218868437227405312 <? 9214364837600034816) with false. cbv iota.
  rewrite (fabs_word x Wx), (fabs_word p Wp), Ip. change (9218868437227405312 <? MM2) with false. cbv iota.
  pose proof (end_big_inf double d_mb d_eb d_range (absw double x) ltac:(rewrite d_infw; lia)) as E. unfold end_big in E. cbv zeta in E. rewrite d_infw in E.
  change ((bias double - 1) * 2 ^ mb double) with d_half in E. rewrite E.
  destruct (pos_word double d_mb d_eb d_range (absw double x) ltac:(rewrite d_infw; lia)) as (Wa & Na & Aa & _).
  rewrite flip_d by assumption. rewrite Na, Aa. f_equal. rewrite Ex at 3. destruct (neg double x); reflexivity.
Qed.
