(** Special arguments of powf. *)
From Verif Require Import Model.Base Spec.Ieee Spec.ElemSpec Spec.PowSpec Model.Float Model.Libm Model.LibmRoot Model.LibmPow
  Proof.Tac Proof.FloatProof Proof.FloatRound Proof.FloatRoot Proof.LibmfProof Proof.LibmSign Proof.LibmfRint Proof.ElemProof.

Lemma parity : forall t m, 0 <= t <= 23 -> 0 <= m < 8388608 ->
  let a := (150 - t) * 8388608 + m in
  (a / 2 ^ t * 2 ^ t = a <-> exists n, 8388608 + m = n * 2 ^ t) /\
  (forall n, 8388608 + m = n * 2 ^ t -> Z.odd (a / 2 ^ t) = Z.odd n).
Proof.
  intros t m Ht Hm a. assert (P : 0 < 2 ^ t) by (apply Z.pow_pos_nonneg; lia).
  assert (Q : 8388608 = 2 ^ (23 - t) * 2 ^ t) by (rewrite <- Z.pow_add_r by lia; now replace (23 - t + t) with 23 by lia).
  assert (A : forall n, 8388608 + m = n * 2 ^ t -> a = (n + (149 - t) * 2 ^ (23 - t)) * 2 ^ t).
  { intros n H. unfold a. rewrite Z.mul_add_distr_r, <- H, <- Z.mul_assoc, <- Q. ring. }
  split.
  - split.
    + intros H. exists (a / 2 ^ t - (149 - t) * 2 ^ (23 - t)). rewrite Z.mul_sub_distr_r, H, <- Z.mul_assoc, <- Q. unfold a. ring.
    + intros [n H]. rewrite (A n H). now rewrite Z.div_mul by lia.
  - intros n H. rewrite (A n H), Z.div_mul by lia. rewrite Z.odd_add, Z.odd_mul.
    destruct (Z.eq_dec t 23) as [->|N]; [now rewrite Bool.xorb_false_r|].
    replace (23 - t) with (Z.succ (22 - t)) by lia. rewrite Z.pow_succ_r by lia. rewrite (Z.odd_mul 2). cbn [Z.odd andb].
    now rewrite Bool.andb_false_r, Bool.xorb_false_r.
Qed.

(** The kind of a magnitude. *)
Definition kind (a : Z) (k : Z) : Prop :=
  (k = 0 /\ forall n, mag S a <> n * one S) \/
  (k = 1 /\ exists n, mag S a = n * one S /\ Z.odd n = true) \/
  (k = 2 /\ exists n, mag S a = n * one S /\ Z.odd n = false).

Lemma kind_spec : forall a, 0 < a < 2139095040 -> kind a (c_yisint a).
Proof.
  intros a Ha. pose proof (one_pos S s_mb s_eb s_range) as O. unfold c_yisint. cbv zeta.
  assert (E1 : one S = 2 ^ 149) by reflexivity.
  destruct (Z.leb_spec 1266679808 a) as [L|L].
  - right. right. split; [reflexivity|]. unfold mag. cbn [mb single]. change (2 ^ 23) with 8388608.
    destruct (Z.eqb_spec (a / 8388608) 0) as [Z0|_]; [lia|].
    set (e := a / 8388608). assert (He : 151 <= e) by (unfold e; lia). generalize (a mod 8388608). intros m.
    exists ((8388608 + m) * 2 ^ (e - 151) * 2). rewrite E1. split.
    + rewrite <- Z.mul_assoc. change (2 * 2 ^ 149) with (2 ^ 150). rewrite <- Z.mul_assoc, <- Z.pow_add_r by lia.
      now replace (e - 151 + 150) with (e - 1) by lia.
    + rewrite Z.odd_mul. now rewrite Bool.andb_false_r.
  - destruct (Z.leb_spec 1065353216 a) as [L2|L2].
    + rewrite (Z.shiftr_div_pow2 a 23) by lia. change (2 ^ 23) with 8388608.
      set (t := 23 - (a / 8388608 - 127)). assert (Ht : 0 <= t <= 23) by (unfold t; clear - L L2; lia).
      rewrite Z.shiftl_mul_pow2, Z.shiftr_div_pow2 by lia.
      assert (Hm : 0 <= a mod 8388608 < 8388608) by (clear; lia).
      assert (Ea : a = (150 - t) * 8388608 + a mod 8388608) by (unfold t; clear; lia).
      destruct (parity t (a mod 8388608) Ht Hm) as [P1 P2]. cbv zeta in P1, P2. rewrite <- Ea in P1, P2.
      assert (Em : forall n, mag S a = n * one S <-> 8388608 + a mod 8388608 = n * 2 ^ t).
      { intros n. unfold mag. cbn [mb single]. change (2 ^ 23) with 8388608.
        destruct (Z.eqb_spec (a / 8388608) 0) as [Z0|_]; [clear - Z0 L2; lia|]. rewrite E1.
        replace (a / 8388608 - 1) with (149 - t) by (unfold t; clear; lia).
        assert (X : 2 ^ 149 = 2 ^ t * 2 ^ (149 - t)) by (rewrite <- Z.pow_add_r by lia; now replace (t + (149 - t)) with 149 by lia).
        rewrite X, Z.mul_assoc. assert (0 < 2 ^ (149 - t)) by (apply Z.pow_pos_nonneg; lia). split; intros H1.
        - apply Z.mul_cancel_r in H1; [exact H1|lia].
        - now rewrite H1. }
      destruct (Z.eqb_spec (a / 2 ^ t * 2 ^ t) a) as [D|D].
      * destruct (proj1 P1 D) as [n Hn]. right. pose proof (P2 n Hn) as Od.
        rewrite (Z.land_ones (a / 2 ^ t) 1 ltac:(lia) : Z.land (a / 2 ^ t) 1 = _). change (2 ^ 1) with 2. rewrite Zmod_odd, Od.
        destruct (Z.odd n) eqn:On; [left|right]; (split; [reflexivity|exists n; split; [now apply Em|exact On]]).
      * left. split; [reflexivity|]. intros n H. apply D, P1. exists n. now apply Em.
    + left. split; [reflexivity|]. intros n H.
      destruct (mag_cmp a 1065353216) as [M1 _]; [lia|lia|]. rewrite one_mag in M1. destruct (mag_cmp 0 a) as [M2 _]; [lia|lia|].
      change (mag S 0) with 0 in M2. assert (X1 : mag S a < 1 * one S) by (apply M1; lia). assert (X2 : 0 < mag S a) by (apply M2; lia).
      rewrite H in X1, X2. apply (Z.mul_lt_mono_pos_r (one S)) in X1; [|exact O].
      assert (0 * one S < n * one S) as X3 by (rewrite Z.mul_0_l; exact X2). apply (Z.mul_lt_mono_pos_r (one S)) in X3; [lia|exact O].
Qed.

(** The kind of [y], whatever its sign. *)
Lemma kind_odd : forall y, word S y -> finite S y -> ~ is_zero S y ->
  let k := c_yisint (absw S y) in
  0 <= k <= 2 /\ (k = 1 <-> odd_integer S y) /\ (k = 0 <-> ~ integer S y).
Proof.
  intros y W Fy N k. destruct (f_cases y W) as (B & _). unfold finite in Fy. rewrite s_infw in Fy. unfold is_zero in N.
  pose proof (one_pos S s_mb s_eb s_range) as O.
  assert (Uq : forall a b, a * one S = b * one S -> a = b) by (intros a b H; apply Z.mul_cancel_r in H; [exact H|lia]).
  assert (V : forall n, val S y = n * one S <-> mag S (absw S y) = (if neg S y then - n else n) * one S).
  { intros n. rewrite (at_mag y W). destruct (neg S y); [rewrite Z.mul_opp_l; lia|tauto]. }
  assert (Od : forall n : Z, Z.odd (if neg S y then - n else n) = Z.odd n) by (intros n; destruct (neg S y); [apply Z.odd_opp|reflexivity]).
  assert (Iv : forall n : Z, (if neg S y then - (if neg S y then - n else n) else (if neg S y then - n else n)) = n) by (intros n; destruct (neg S y); lia).
  unfold odd_integer, integer. destruct (kind_spec (absw S y) ltac:(lia)) as [[K H]|[[K (n & H & D)]|[K (n & H & D)]]]; fold k in K; rewrite K.
  - split; [lia|]. split; split; intros X; try discriminate X; try reflexivity.
    + destruct X as (n & X & _). apply V in X. now elim (H _ X).
    + intros [m Y]. apply V in Y. exact (H _ Y).
  - split; [lia|]. split; split; intros X; try discriminate X; try reflexivity.
    + exists (if neg S y then - n else n). split; [apply V; now rewrite Iv|now rewrite Od].
    + elim X. exists (if neg S y then - n else n). apply V. now rewrite Iv.
  - split; [lia|]. split; split; intros X; try discriminate X; try reflexivity.
    + destruct X as (m & X & Y). apply V in X. rewrite H in X. apply Uq in X. rewrite <- (Od m), <- X, D in Y. discriminate Y.
    + elim X. exists (if neg S y then - n else n). apply V. now rewrite Iv.
Qed.

Lemma pow_zero_ok : forall rest, pow_exponent_zero S (c_powf rest).
Proof.
  intros rest x y Wx Wy Z. destruct (f_cases y Wy) as (_ & _ & A & _). unfold gives, c_powf. cbv zeta. rewrite A, Z.
  exists 0x3f800000. split; [reflexivity|]. split; vm_compute; congruence.
Qed.

Lemma fadd_nan2 : forall x y, word S x -> word S y -> is_nan S x \/ is_nan S y -> is_nan S (fadd S x y).
Proof.
  intros x y Wx Wy H. unfold fadd. destruct (nanb S x) eqn:N; [apply Z.ltb_lt in N; now apply (quiet_nan S s_mb s_eb s_range)|].
  assert (K : is_nan S y) by (destruct H as [H|H]; [apply Z.ltb_ge in N; unfold is_nan in H; lia|exact H]).
  assert (nanb S y = true) as -> by (apply Z.ltb_lt; exact K). now apply (quiet_nan S s_mb s_eb s_range).
Qed.

Lemma pow_nan_ok : forall rest, pow_nan S (c_powf rest).
Proof.
  intros rest x y Wx Wy N H. destruct (f_cases y Wy) as (_ & _ & A & _). destruct (f_cases x Wx) as (_ & _ & A' & _).
  unfold gives, c_powf. cbv zeta. rewrite A, A'. unfold is_zero in N. destruct (Z.eqb_spec (absw S y) 0); [contradiction|].
  assert (K : is_nan S x \/ is_nan S y) by tauto. exists (fadd S x y). split; [|now apply fadd_nan2].
  unfold is_nan in K. rewrite s_infw in K.
  destruct (Z.ltb_spec 2139095040 (absw S x)); [reflexivity|]. destruct (Z.ltb_spec 2139095040 (absw S y)); [reflexivity|lia].
Qed.

Lemma pow_inf_ok : forall rest, pow_exponent_inf S (c_powf rest).
Proof.
  intros rest x y Wx Wy I. destruct (f_cases x Wx) as (B & _ & A' & _).
  destruct (cmp_int x 1 0x3f800000 Wx ltac:(lia) one_mag) as (O1 & U1 & Q1 & Q2 & U2). specialize (U2 eq_refl).
  assert (K : (over S x 1 \/ under S x (- (1)) -> 1065353216 < absw S x <= 2139095040) /\ (over S x (-1) /\ under S x 1 -> absw S x < 1065353216)).
  { split; [rewrite O1, U1; lia|]. rewrite U2. intros [H1 [H2 H3]]. destruct H3 as [H3|H3]; [|exact H3].
    destruct (Z_lt_le_dec (absw S x) 1065353216) as [L|L]; [exact L|exfalso].
    destruct H1 as [_ H1]. rewrite (at_mag x Wx), H3 in H1. pose proof (mag_le S s_mb s_eb s_range 1065353216 (absw S x) ltac:(lia) L) as M.
    rewrite one_mag in M. lia. }
  destruct K as [K1 K2]. split; intros H; [specialize (K1 H)|specialize (K2 H)]; clear H;
  destruct (two_words y _ Wy (inf_abs y I)) as [[-> ->]|[-> ->]]; unfold gives, c_powf; cbv zeta; rewrite A';
  repeat match goal with |- context [Z.land (get_float ?c) 2147483647] => progress change (Z.land (get_float c) 2147483647) with 2139095040 end;
  change (2139095040 =? 0) with false; change (2139095040 <? 2139095040) with false; change (2139095040 =? 2139095040) with true; cbv iota;
  (destruct (Z.ltb_spec 2139095040 (absw S x)); [lia|]); cbn [orb];
  (destruct (Z.eqb_spec (absw S x) 1065353216); [lia|]); (destruct (Z.ltb_spec 1065353216 (absw S x)); [|]); try lia;
  eexists; (split; [reflexivity|]); vm_compute; auto.
Qed.

(** The sign of [y] decides. *)
Lemma signs : forall y, word S y -> finite S y -> (above_zero S y <-> neg S y = false /\ ~ is_zero S y) /\ (below_zero S y <-> neg S y = true /\ ~ is_zero S y).
Proof.
  intros y W Fy. destruct (f_cases y W) as (B & _). destruct (cmp_int y 0 0 W ltac:(lia) zero_mag) as (O & U & _).
  unfold above_zero, below_zero, finite, is_zero in *. rewrite s_infw in Fy. change (under S y 0) with (under S y (- 0)).
  rewrite O, U. intuition lia.
Qed.

(** A base that is a zero or an infinity: the result for each sign of the exponent and each kind of it. *)
Lemma special_base : forall rest x y, word S y -> finite S y -> ~ is_zero S y ->
  x = 0 \/ x = 0x80000000 \/ x = 0x7f800000 \/ x = 0xff800000 ->
  c_powf rest x y = Some (let z := if neg S y then (if absw S x =? 0 then 0x7f800000 else 0) else absw S x in
    if neg S x && (c_yisint (absw S y) =? 1) then 0x80000000 + z else z).
Proof.
  intros rest x y W Fy N Hx. destruct (f_cases y W) as (B & G & A & E). pose proof (kind_odd y W Fy N) as (K & _). cbv zeta in K.
  unfold finite in Fy. rewrite s_infw in Fy. unfold is_zero in N. unfold c_powf. cbv zeta. rewrite A.
  destruct (Z.eqb_spec (absw S y) 0); [contradiction|]. destruct (Z.ltb_spec 2139095040 (absw S y)); [lia|]. rewrite Bool.orb_false_r.
  destruct (Z.eqb_spec (absw S y) 2139095040); [lia|].
  assert (H2 : absw S y = 1065353216 -> c_yisint (absw S y) = 1) by (intros ->; reflexivity).
  assert (H3 : get_float y = 1073741824 -> c_yisint (absw S y) = 2 /\ neg S y = false).
  { rewrite G. destruct (neg S y); intros J; [lia|]. rewrite J. split; reflexivity. }
  assert (H4 : get_float y = 1056964608 -> c_yisint (absw S y) = 0 /\ neg S y = false).
  { rewrite G. destruct (neg S y); intros J; [lia|]. rewrite J. split; reflexivity. }
  assert (H5 : (get_float y <? 0) = neg S y) by (rewrite G; destruct (neg S y); [apply Z.ltb_lt|apply Z.ltb_ge]; lia).
  rewrite H5. clear E A G H5.
  generalize dependent (c_yisint (absw S y)). intros k K H2 H3 H4. generalize dependent (get_float y). intros hy H3 H4.
  assert (K3 : k = 0 \/ k = 1 \/ k = 2) by lia.
  destruct (Z.eqb_spec (absw S y) 1065353216) as [Q|_]; [rewrite (H2 Q)|destruct (Z.eqb_spec hy 1073741824) as [Q|_];
    [destruct (H3 Q) as [-> ->]|destruct (Z.eqb_spec hy 1056964608) as [Q|_]; [destruct (H4 Q) as [-> ->]|destruct K3 as [->|[->| ->]]]]];
  destruct Hx as [->|[->|[->| ->]]]; try destruct (neg S y); vm_compute; reflexivity.
Qed.

Lemma base_words : forall x, word S x -> (is_zero S x -> x = 0 /\ neg S x = false \/ x = 0x80000000 /\ neg S x = true) /\
  (is_inf S x -> x = 0x7f800000 /\ neg S x = false \/ x = 0xff800000 /\ neg S x = true).
Proof. intros x W. split; intros H; [apply (two_words x 0 W H)|apply (two_words x _ W (inf_abs x H))]. Qed.

Lemma pow_base_zero_ok : forall rest, pow_base_zero S (c_powf rest).
Proof.
  intros rest x y Wx Wy Fy Z. destruct (signs y Wy Fy) as [P1 P2]. rewrite P1, P2. unfold gives.
  assert (Q : ~ is_zero S y -> c_powf rest x y = _) by (intros N; apply (special_base rest x y Wy Fy N); destruct (proj1 (base_words x Wx) Z); tauto).
  pose proof (kind_odd y Wy Fy) as Kd.
  repeat split; intros [Sy N] Od; rewrite (Q N); eexists; (split; [reflexivity|]); destruct (Kd N) as (_ & K & _); cbv zeta in K; rewrite Sy;
    destruct (proj1 (base_words x Wx) Z) as [[-> ->]|[-> ->]];
    (destruct (Z.eqb_spec (c_yisint (absw S y)) 1) as [C|C]; [apply K in C|]; [try contradiction|try (elim C; now apply K)]); vm_compute; auto.
Qed.

Lemma pow_base_inf_ok : forall rest, pow_base_inf S (c_powf rest).
Proof.
  intros rest x y Wx Wy Fy Z. destruct (signs y Wy Fy) as [P1 P2]. rewrite P1, P2. unfold gives.
  assert (Q : ~ is_zero S y -> c_powf rest x y = _) by (intros N; apply (special_base rest x y Wy Fy N); destruct (proj2 (base_words x Wx) Z); tauto).
  pose proof (kind_odd y Wy Fy) as Kd.
  repeat split; intros [Sy N] Od; rewrite (Q N); eexists; (split; [reflexivity|]); destruct (Kd N) as (_ & K & _); cbv zeta in K; rewrite Sy;
    destruct (proj2 (base_words x Wx) Z) as [[-> ->]|[-> ->]];
    (destruct (Z.eqb_spec (c_yisint (absw S y)) 1) as [C|C]; [apply K in C|]; [try contradiction|try (elim C; now apply K)]); vm_compute; auto.
Qed.

Lemma pow_negative_ok : forall rest, pow_negative S (c_powf rest).
Proof.
  intros rest x y Wx Wy Fx Fy U NI. pose proof (div_self_nan x Wx) as DS.
  destruct (f_cases y Wy) as (By & Gy & Ay & _). destruct (f_cases x Wx) as (Bx & Gx & Ax & Ex).
  destruct (cmp_int x 0 0 Wx ltac:(lia) zero_mag) as (_ & U0 & _). apply U0 in U. destruct U as (_ & Sx & Px).
  assert (Ny : ~ is_zero S y).
  { intros Z. apply NI. exists 0. unfold is_zero in Z. rewrite (at_mag y Wy), Z. destruct (neg S y); reflexivity. }
  destruct (kind_odd y Wy Fy Ny) as (_ & _ & K). cbv zeta in K. apply K in NI. clear K.
  unfold finite in Fx, Fy. rewrite s_infw in Fx, Fy. unfold is_zero in Ny. rewrite Sx in Gx, Ex.
  unfold gives, c_powf. cbv zeta. rewrite Ax, Ay.
  assert ((get_float x <? 0) = true) as -> by (apply Z.ltb_lt; lia). assert ((0 <=? get_float x) = false) as -> by (apply Z.leb_gt; lia).
  rewrite NI, Bool.andb_false_r, !Z.lor_0_r.
  destruct (Z.eqb_spec (absw S y) 0); [contradiction|]. destruct (Z.ltb_spec 2139095040 (absw S y)); [lia|].
  destruct (Z.ltb_spec 2139095040 (absw S x)); [lia|]. cbn [orb].
  destruct (Z.eqb_spec (absw S y) 2139095040); [lia|].
  destruct (Z.eqb_spec (absw S y) 1065353216) as [Q|_]; [rewrite Q in NI; discriminate NI|].
  destruct (Z.eqb_spec (get_float y) 1073741824) as [Q|_].
  { exfalso. rewrite Gy in Q. destruct (neg S y); [lia|]. rewrite Q in NI. discriminate NI. }
  destruct (Z.eqb_spec (absw S x) 2139095040); [lia|]. destruct (Z.eqb_spec (absw S x) 0); [lia|]. cbn [orb].
  destruct (Z.eqb_spec (absw S x) 1065353216) as [Q|_].
  - rewrite Q. change (1065353216 - 1065353216 =? 0) with true. cbv iota.
    eexists. split; [reflexivity|]. rewrite Q in Ex. rewrite Ex. destruct (get_float y <? 0); vm_compute; reflexivity.
  - assert (u32 (Z.shiftr (u32 (get_float x)) 31 - 1) = 0) as ->.
    { rewrite (s_get_u32 x Wx), Z.shiftr_div_pow2 by lia. change (2 ^ 31) with 2147483648. replace (x / 2147483648) with 1 by lia. reflexivity. }
    exists (fdiv S (fsub S x x) (fsub S x x)). split; [reflexivity|exact DS].
Qed.
