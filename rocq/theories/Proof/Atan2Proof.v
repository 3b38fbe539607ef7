(** Special arguments of atan2f and hypotf. *)
From Verif Require Import Model.Base Spec.Ieee Spec.ElemSpec Spec.Atan2Spec Model.Float Model.Libm Model.LibmRoot Model.LibmElem Model.LibmAtan2
  Proof.Tac Proof.FloatProof Proof.FloatRound Proof.FloatRoot Proof.FloatRem Proof.LibmfProof Proof.LibmSign Proof.LibmfRint Proof.ElemProof Proof.PowProof.

(** The signs of both arguments in one number. *)
Lemma quadrant : forall y x, word S y -> word S x ->
  Z.lor (Z.land (Z.shiftr (get_float y) 31) 1) (Z.land (Z.shiftr (get_float x) 30) 2) = (if neg S x then 2 else 0) + (if neg S y then 1 else 0).
Proof.
  intros y x Wy Wx. destruct (f_cases y Wy) as (By & Gy & _). destruct (f_cases x Wx) as (Bx & Gx & _).
  assert (Hy : Z.shiftr (get_float y) 31 = if neg S y then -1 else 0).
  { rewrite Z.shiftr_div_pow2 by lia. change (2 ^ 31) with 2147483648. rewrite Gy. destruct (neg S y); lia. }
  assert (Hx : Z.land (Z.shiftr (get_float x) 30) 2 = if neg S x then 2 else 0).
  { rewrite Z.shiftr_div_pow2 by lia. change (2 ^ 30) with 1073741824. rewrite Gx.
    assert (Q : exists q, (if neg S x then absw S x - 2147483648 else absw S x) / 1073741824 = q /\ (if neg S x then q = -2 \/ q = -1 else q = 0 \/ q = 1)).
    { eexists. split; [reflexivity|]. destruct (neg S x); lia. }
    destruct Q as (q & -> & Q). destruct (neg S x); destruct Q as [-> | ->]; reflexivity. }
  rewrite Hy, Hx. destruct (neg S x), (neg S y); reflexivity.
Qed.

Lemma three_at : forall (s : bool) w, w = rnd S s (3 * 31415926535897932385 * one S) (10 ^ 19 * 4) -> pi_three_quarters S s w.
Proof.
  intros s w ->. destruct (rnd_rounds S s_mb s_eb s_range s (3 * 31415926535897932385 * one S) (10 ^ 19 * 4)) as [R _].
  - pose proof (one_pos S s_mb s_eb s_range). lia.
  - lia.
  - unfold pi_three_quarters. destruct s; cbn [sgn_of] in R; [|now rewrite Z.mul_1_l].
    replace (-1 * (3 * 31415926535897932385 * one S)) with (- (3 * 31415926535897932385 * one S)) by ring. exact R.
Qed.

Lemma get_sign : forall y, word S y -> (get_float y <? 0) = neg S y.
Proof. intros y W. destruct (f_cases y W) as (B & G & _). rewrite G. destruct (neg S y); [apply Z.ltb_lt|apply Z.ltb_ge]; lia. Qed.

(** [c_atan2f] in terms of sign and magnitude. *)
Lemma atan2_form : forall ra rest y x, word S y -> word S x -> absw S x <= 2139095040 -> absw S y <= 2139095040 ->
  c_atan2f ra rest y x =
  let pis := if neg S y then 0xc0490fda else 0x40490fda in
  let half := if neg S y then 0xbfc90fdb else 0x3fc90fdb in
  if x =? 0x3f800000 then c_atanf ra y
  else if absw S y =? 0 then (if neg S x then pis else y)
  else if absw S x =? 0 then half
  else if absw S x =? 2139095040 then
    if absw S y =? 2139095040 then c_atan2f ra rest y x
    else if neg S x then pis else if neg S y then 0x80000000 else 0
  else if absw S y =? 2139095040 then half else rest y x.
Proof.
  intros ra rest y x Wy Wx Hx Hy. destruct (f_cases y Wy) as (By & Gy & Ay & _). destruct (f_cases x Wx) as (Bx & Gx & Ax & Ex).
  assert (H1 : (get_float x =? 0x3f800000) = (x =? 0x3f800000)).
  { rewrite Gx. destruct (neg S x).
    - destruct (Z.eqb_spec (absw S x - 2147483648) 1065353216); [lia|]. symmetry. apply Z.eqb_neq. lia.
    - now replace x with (absw S x) at 2 by lia. }
  unfold c_atan2f. cbv zeta. rewrite (quadrant y x Wy Wx), Ax, Ay, (get_sign y Wy), H1.
  destruct (Z.ltb_spec 2139095040 (absw S x)); [lia|]. destruct (Z.ltb_spec 2139095040 (absw S y)); [lia|]. cbn [orb].
  destruct (x =? 1065353216); [reflexivity|].
  destruct (absw S y =? 0); [destruct (neg S x), (neg S y); vm_compute; reflexivity|].
  destruct (absw S x =? 0); [destruct (neg S y); vm_compute; reflexivity|].
  destruct (absw S x =? 2139095040).
  - destruct (absw S y =? 2139095040); [reflexivity|]. destruct (neg S x), (neg S y); vm_compute; reflexivity.
  - destruct (absw S y =? 2139095040); [destruct (neg S y); vm_compute; reflexivity|reflexivity].
Qed.

Lemma half_pi : forall s : bool, pi_over S 2 s (if s then 0xbfc90fdb else 0x3fc90fdb).
Proof. intros s. destruct s; apply pi_at; try lia; vm_compute; reflexivity. Qed.

Lemma one_word : forall x, x = 0x3f800000 -> absw S x = 0x3f800000 /\ neg S x = false.
Proof. intros x ->. vm_compute. auto. Qed.

Lemma atan2_spec : forall ra rest, atan2_ends S (c_atan2f ra rest).
Proof.
  intros ra rest y x Wy Wx. destruct (f_cases y Wy) as (By & Gy & Ay & Ey). destruct (f_cases x Wx) as (Bx & Gx & Ax & Ex).
  unfold is_nan, finite, is_zero, is_inf. rewrite s_infw.
  assert (F := atan2_form ra rest y x Wy Wx). pose proof (one_word x) as O1.
  split; [|split; [|split; [|split; [|split; [|split]]]]].
  - intros H. unfold c_atan2f. cbv zeta. rewrite Ax, Ay.
    assert (is_nan S (fadd S x y)) as K by (apply fadd_nan2; unfold is_nan; rewrite ?s_infw; assumption).
    unfold is_nan in K. rewrite s_infw in K.
    destruct (Z.ltb_spec 2139095040 (absw S x)); [exact K|]. destruct (Z.ltb_spec 2139095040 (absw S y)); [exact K|lia].
  - intros Zy Nx Sx. rewrite F by lia. cbv zeta. rewrite Zy, Sx. cbv iota.
    destruct (Z.eqb_spec x 1065353216); [|reflexivity]. now apply (proj2 (atan_spec ra) y Wy).
  - intros Zx Ny Nz. rewrite F by lia. cbv zeta. destruct (Z.eqb_spec x 1065353216) as [Q|_]; [destruct (O1 Q); lia|].
    destruct (Z.eqb_spec (absw S y) 0); [lia|]. rewrite Zx. change (0 =? 0) with true. cbv iota. apply half_pi.
  - intros Ix Sx Fy. rewrite F by lia. cbv zeta. destruct (Z.eqb_spec x 1065353216) as [Q|_]; [destruct (O1 Q); lia|].
    destruct (Z.eqb_spec (absw S y) 0) as [Q|_]; [rewrite Sx; split; [exact Q|reflexivity]|]. rewrite Ix, Sx.
    change (2139095040 =? 0) with false. change (2139095040 =? 2139095040) with true. cbv iota.
    destruct (Z.eqb_spec (absw S y) 2139095040); [lia|]. destruct (neg S y); vm_compute; auto.
  - intros Iy Fx. rewrite F by lia. cbv zeta. destruct (Z.eqb_spec x 1065353216) as [Q|_].
    + apply (proj2 (atan_spec ra) y Wy). unfold is_inf. now rewrite s_infw.
    + rewrite Iy. change (2139095040 =? 0) with false. change (2139095040 =? 2139095040) with true. cbv iota.
      destruct (Z.eqb_spec (absw S x) 2139095040); [lia|]. destruct (absw S x =? 0); apply half_pi.
  - intros Iy Ix Sx. destruct (two_words x _ Wx Ix) as [[-> _]|[_ X]]; [|congruence].
    destruct (two_words y _ Wy Iy) as [[-> ->]|[-> ->]]; apply pi_at; try lia; vm_compute; reflexivity.
  - intros Iy Ix Sx. destruct (two_words x _ Wx Ix) as [[_ X]|[-> _]]; [congruence|].
    destruct (two_words y _ Wy Iy) as [[-> ->]|[-> ->]]; apply three_at; vm_compute; reflexivity.
Qed.

Lemma atan2_pi_cut : forall ra rest, atan2_pi S (pi_cut S) (c_atan2f ra rest).
Proof.
  intros ra rest y x Wy Wx Sx H. destruct (f_cases y Wy) as (By & _). destruct (f_cases x Wx) as (Bx & _).
  unfold is_nan, finite, is_zero, is_inf in H. rewrite s_infw in H. rewrite (atan2_form ra rest y x Wy Wx) by lia. cbv zeta.
  pose proof (one_word x) as O1. destruct (Z.eqb_spec x 1065353216) as [Q|_]; [destruct (O1 Q); congruence|]. rewrite Sx.
  assert (K : pi_cut S (neg S y) (if neg S y then 0xc0490fda else 0x40490fda)) by (destruct (neg S y); split; [reflexivity|split; [reflexivity|vm_compute; split; congruence]| reflexivity|split; [reflexivity|vm_compute; split; congruence]]).
  destruct (Z.eqb_spec (absw S y) 0); [exact K|]. destruct (Z.eqb_spec (absw S x) 0); [lia|].
  destruct (Z.eqb_spec (absw S x) 2139095040); [|lia]. destruct (Z.eqb_spec (absw S y) 2139095040); [lia|exact K].
Qed.

(** hypotf *)
Lemma set_abs : forall a, 0 <= a < 2147483648 -> set_float a = a.
Proof. intros a H. unfold set_float, u32. apply Z.mod_small. change (2 ^ 32) with 4294967296. lia. Qed.

Lemma pos_word : forall a, 0 <= a < 2147483648 -> word S a /\ absw S a = a /\ neg S a = false.
Proof.
  intros a H. assert (W : word S a) by (change (0 <= a < 4294967296); lia). split; [exact W|].
  destruct (f_cases a W) as (B & _ & _ & E). destruct (neg S a); [lia|]. split; [lia|reflexivity].
Qed.

Lemma fadd_inf_l : forall b, 0 <= b <= 2139095040 -> fadd S 2139095040 b = 2139095040.
Proof.
  intros b B. unfold fadd. change (nanb S 2139095040) with false. cbv iota.
  destruct (pos_word b ltac:(lia)) as (_ & A & N).
  assert (nanb S b = false) as -> by (apply Z.ltb_ge; rewrite A, s_infw; lia).
  change (infb S 2139095040) with true. rewrite N. change (neg S 2139095040) with false. cbn [Bool.eqb negb]. now rewrite Bool.andb_false_r.
Qed.

Lemma fadd_zero_r : forall a, 0 <= a < 2139095040 -> fadd S a 0 = a.
Proof.
  intros a H. destruct (pos_word a ltac:(lia)) as (W & A & N). destruct (pos_word 0 ltac:(lia)) as (W0 & _ & _).
  assert (Fa : finite S a) by (unfold finite; rewrite A, s_infw; lia).
  assert (V : val S a + val S 0 = mag S a) by (rewrite (at_mag a W), N, A; change (val S 0) with 0; lia).
  pose proof (mag_nonneg S s_mb s_eb s_range a ltac:(lia)) as G.
  destruct (fadd_at S s_mb s_eb s_range a 0 a W W0 Fa ltac:(vm_compute; reflexivity) ltac:(rewrite s_infw; lia) ltac:(rewrite V; lia)) as (Wr & Fr & Ar & Vr & S1 & S2).
  destruct (f_cases _ Wr) as (_ & _ & _ & E). rewrite Ar in E. rewrite V in S1, S2.
  assert (Nr : neg S (fadd S a 0) = false).
  { destruct (Z.eq_dec (mag S a) 0) as [Q|Q]; [rewrite (S2 Q), N; reflexivity|]. rewrite (S1 Q). apply Z.ltb_ge. lia. }
  rewrite Nr in E. lia.
Qed.

(** [c_hypotf] from the greater and the smaller magnitude. *)
Definition hyp_of (ha hb : Z) : option Z :=
  if 0xf000000 <? ha - hb then Some (fadd S ha hb)
  else if 0x58800000 <? ha then
    if 0x7f800000 <=? ha then Some (if hb =? 0x7f800000 then hb else if ha =? 0x7f800000 then ha else fadd S ha hb)
    else hyp_small (set_float (s32 (ha - 0x5d800000))) (set_float (s32 (hb - 0x5d800000))) (s32 (ha - 0x5d800000)) (s32 (hb - 0x5d800000)) 60
  else hyp_small ha hb ha hb 0.

Lemma hyp_form : forall x y, word S x -> word S y ->
  c_hypotf x y = hyp_of (Z.max (absw S x) (absw S y)) (Z.min (absw S x) (absw S y)).
Proof.
  intros x y Wx Wy. destruct (f_cases x Wx) as (Bx & _ & Ax & _). destruct (f_cases y Wy) as (By & _ & Ay & _).
  unfold c_hypotf, hyp_of. cbv zeta. rewrite Ax, Ay. destruct (Z.ltb_spec (absw S x) (absw S y)).
  - rewrite Z.max_r, Z.min_l by lia. rewrite !(set_abs (absw S _)) by lia. reflexivity.
  - rewrite Z.max_l, Z.min_r by lia. rewrite !(set_abs (absw S _)) by lia. reflexivity.
Qed.

Lemma hyp_of_ends : forall a b, 0 <= b <= a -> a < 2147483648 ->
  (a = 2139095040 \/ b = 2139095040 -> hyp_of a b = Some 2139095040) /\
  (2139095040 < a -> b <> 2139095040 -> exists r, hyp_of a b = Some r /\ is_nan S r) /\
  (a < 2139095040 -> b = 0 -> hyp_of a b = Some a).
Proof.
  intros a b B A. unfold hyp_of. split; [|split].
  - intros H. destruct (Z.ltb_spec 251658240 (a - b)).
    + destruct H as [->|H]; [|lia]. now rewrite fadd_inf_l by lia.
    + destruct (Z.ltb_spec 1484783616 a); [|lia]. destruct (Z.leb_spec 2139095040 a); [|lia].
      destruct (Z.eqb_spec b 2139095040) as [->|N]; [reflexivity|]. destruct (Z.eqb_spec a 2139095040) as [->|N2]; [reflexivity|lia].
  - intros H1 H2. exists (fadd S a b). split.
    + destruct (Z.ltb_spec 251658240 (a - b)); [reflexivity|]. destruct (Z.ltb_spec 1484783616 a); [|lia]. destruct (Z.leb_spec 2139095040 a); [|lia].
      destruct (Z.eqb_spec b 2139095040); [contradiction|]. destruct (Z.eqb_spec a 2139095040); [lia|reflexivity].
    + destruct (pos_word a ltac:(lia)) as (Wa & Aa & _). destruct (pos_word b ltac:(lia)) as (Wb & _).
      apply fadd_nan2; [exact Wa|exact Wb|]. left. unfold is_nan. rewrite Aa, s_infw. exact H1.
  - intros H1 ->. destruct (Z.ltb_spec 251658240 (a - 0)); [now rewrite fadd_zero_r by lia|].
    destruct (Z.ltb_spec 1484783616 a); [lia|]. reflexivity.
Qed.

Lemma hypot_spec : hypot_ends S c_hypotf.
Proof.
  intros x y Wx Wy. rewrite (hyp_form x y Wx Wy). destruct (f_cases x Wx) as (Bx & _). destruct (f_cases y Wy) as (By & _).
  destruct (hyp_of_ends (Z.max (absw S x) (absw S y)) (Z.min (absw S x) (absw S y)) ltac:(lia) ltac:(lia)) as (H1 & H2 & H3).
  unfold is_inf, is_nan, finite, is_zero. rewrite s_infw. split; [|split; [|split]].
  - intros H. exists 2139095040. split; [|split; reflexivity].
    destruct (Z_le_gt_dec (Z.max (absw S x) (absw S y)) 2139095040); apply H1; lia.
  - intros H. destruct (H2 ltac:(lia) ltac:(lia)) as (r & R & N). exists r. unfold is_nan in N. rewrite s_infw in N. auto.
  - intros Hx Hy. rewrite H3 by lia. f_equal. lia.
  - intros Hy Hx. rewrite H3 by lia. f_equal. lia.
Qed.
