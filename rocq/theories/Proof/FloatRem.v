(** Exact sums and differences, and the end of remainder, in any format. *)
From Verif Require Import Model.Base Spec.Ieee Spec.LibmSpec Model.Float Proof.FloatProof Proof.FloatRound Proof.FloatScale Proof.FloatParts Proof.FloatRoot.

Section Rem.
Variable F : fmt.
Hypothesis Hmb : 1 <= mb F.
Hypothesis Heb : 3 <= eb F.
Hypothesis Hrange : mb F + 2 <= bias F.
Set Default Proof Using "All".
Notation M := (2 ^ mb F).

Lemma fadd_at : forall x y a, word F x -> word F y -> finite F x -> finite F y ->
  0 <= a < infw F -> mag F a = Z.abs (val F x + val F y) ->
  word F (fadd F x y) /\ finite F (fadd F x y) /\ absw F (fadd F x y) = a /\ val F (fadd F x y) = val F x + val F y /\
  (val F x + val F y <> 0 -> neg F (fadd F x y) = (val F x + val F y <? 0)) /\
  (val F x + val F y = 0 -> neg F (fadd F x y) = neg F x && neg F y).
Proof.
  intros x y a Wx Wy Fx Fy Ha E. pose proof (infw_lt F Hmb Heb Hrange) as IL.
  destruct (Z.eq_dec (val F x + val F y) 0) as [Z|N].
  - rewrite (fadd_finite F Hmb Heb Hrange) by assumption. rewrite Z. cbn [Z.eqb].
    assert (a = 0) as ->.
    { destruct (Z_lt_le_dec 0 a) as [P|]; [exfalso|lia]. pose proof (mag_mono F Hmb Heb Hrange 0 a ltac:(lia) P) as Q. rewrite (mag_0 F Hmb Heb Hrange) in Q. lia. }
    set (s := neg F x && neg F y).
    destruct (word_of F Hmb Heb Hrange s 0 ltac:(lia)) as (W2 & N2 & A2).
    pose proof (val_of F Hmb Heb Hrange s 0 ltac:(lia)) as V2. pose proof (finite_of F Hmb Heb Hrange s 0 ltac:(lia)) as F2.
    rewrite Z.add_0_r in *. rewrite (mag_0 F Hmb Heb Hrange) in V2.
    split; [exact W2|]. split; [exact F2|]. split; [exact A2|]. split; [rewrite V2; destruct s; reflexivity|].
    split; [congruence|]. intros _. exact N2.
  - rewrite (fadd_exact F Hmb Heb Hrange x y a) by (assumption || lia).
    set (s := val F x + val F y <? 0).
    destruct (word_of F Hmb Heb Hrange s a ltac:(lia)) as (W2 & N2 & A2).
    split; [exact W2|]. split; [now apply (finite_of F Hmb Heb Hrange)|]. split; [exact A2|].
    split; [|split; [intros _; exact N2|congruence]].
    rewrite (val_of F Hmb Heb Hrange), E by lia. unfold s, sgn_of.
    destruct (Z.ltb_spec (val F x + val F y) 0); lia.
Qed.

Definition dbl (a : Z) : Z := if a <? M then 2 * a else a + M.

Lemma mag_dbl : forall a, 0 <= a -> mag F (dbl a) = 2 * mag F a.
Proof.
  intros a Ha. pose proof (M_pos F Hmb Heb Hrange) as HM. unfold dbl. destruct (Z.ltb_spec a M) as [L|G].
  - rewrite !(mag_small F Hmb Heb Hrange) by lia. reflexivity.
  - pose proof (Z.div_mod a M ltac:(lia)) as D. pose proof (Z.mod_pos_bound a M HM) as Bd.
    assert (1 <= a / M) by (apply Z.div_le_lower_bound; lia).
    assert (E1 : (a + M) / M = a / M + 1) by (replace (a + M) with (a + 1 * M) by ring; apply Z.div_add; lia).
    assert (E2 : (a + M) mod M = a mod M) by (replace (a + M) with (a + 1 * M) by ring; apply Z.mod_add; lia).
    rewrite !(mag_large F Hmb Heb Hrange) by lia. rewrite E1, E2.
    replace (a / M + 1 - 1) with (1 + (a / M - 1)) by ring. rewrite p2_split by lia. change (2 ^ 1) with 2. ring.
Qed.

Lemma abs_val : forall x, word F x -> Z.abs (val F x) = mag F (absw F x).
Proof.
  intros x W. destruct (word_split F Hmb Heb Hrange x W) as [_ Bx]. rewrite (val_neg F Hmb Heb Hrange x W).
  pose proof (mag_nonneg F Hmb Heb Hrange (absw F x) ltac:(lia)). destruct (neg F x); cbn [sgn_of]; lia.
Qed.

(** x + x, when the exponent is not the greatest one. *)
Lemma fadd_same : forall x, word F x -> absw F x < infw F - M ->
  word F (fadd F x x) /\ finite F (fadd F x x) /\ val F (fadd F x x) = 2 * val F x /\ absw F (fadd F x x) = dbl (absw F x).
Proof.
  intros x W L. pose proof (M_pos F Hmb Heb Hrange) as HM. pose proof (infw_big F Hmb Heb Hrange) as IB. destruct (word_split F Hmb Heb Hrange x W) as [_ Bx].
  assert (Fx : finite F x) by (unfold finite; lia).
  destruct (fadd_at x x (dbl (absw F x)) W W Fx Fx) as (A1 & A2 & A3 & A4 & _).
  - unfold dbl. destruct (Z.ltb_spec (absw F x) M); lia.
  - rewrite mag_dbl by lia. rewrite <- abs_val by exact W. lia.
  - split; [exact A1|]. split; [exact A2|]. split; [lia|exact A3].
Qed.

(** Two neighbours within a factor of two differ by a number of the format. *)
Lemma diff_repr : forall b c, 0 <= b <= c -> c < infw F -> mag F c <= 2 * mag F b ->
  exists a, 0 <= a < infw F /\ mag F a = mag F c - mag F b.
Proof.
  intros b c Hb Hc H. pose proof (M_pos F Hmb Heb Hrange) as HM. pose proof (infw_val F Hmb Heb Hrange) as IV. pose proof (infw_big F Hmb Heb Hrange) as IB.
  assert (Mono : mag F b <= mag F c).
  { destruct (Z.eq_dec b c) as [-> |]; [lia|]. pose proof (mag_mono F Hmb Heb Hrange b c ltac:(lia) ltac:(lia)). lia. }
  destruct (Z_lt_le_dec b (2 * M)) as [Sm|Bg].
  - rewrite (mag_small F Hmb Heb Hrange b) in * by lia. exists (mag F c - b). split; [lia|]. apply (mag_small F Hmb Heb Hrange). lia.
  - pose proof (Z.div_mod b M ltac:(lia)) as D. pose proof (Z.mod_pos_bound b M HM) as Bd.
    assert (T2 : 2 <= b / M) by (apply Z.div_le_lower_bound; lia).
    assert (Tm : b / M <= 2 * bias F) by (assert (b / M < 2 * bias F + 1); [apply Z.div_lt_upper_bound; lia|lia]).
    set (t := b / M - 1) in *.
    assert (Eb : mag F b = (M + b mod M) * 2 ^ t) by (apply (mag_large F Hmb Heb Hrange); lia).
    pose proof (p2 t ltac:(lia)) as Pt.
    destruct (mag_multiple F Hmb Heb Hrange c t ltac:(lia) ltac:(lia)) as [k Ek].
    { apply Z.le_trans with (mag F b); [|exact Mono]. rewrite Eb. apply Z.mul_le_mono_nonneg_r; lia. }
    set (q := k - (M + b mod M)).
    assert (Ed : mag F c - mag F b = q * 2 ^ t) by (rewrite Ek, Eb; unfold q; ring).
    assert (Q0 : 0 <= q) by (apply (Z.mul_le_mono_pos_r _ _ (2 ^ t) Pt); lia).
    assert (Q1 : q <= M + b mod M) by (apply (Z.mul_le_mono_pos_r _ _ (2 ^ t) Pt); lia).
    rewrite Ed. destruct (Z_lt_le_dec t (2 * bias F - 1)) as [Tl|Th].
    + apply (mag_repr F Hmb Heb Hrange); lia.
    + assert (Tt : t = 2 * bias F - 1) by lia.
      assert (Ec : c / M = b / M).
      { symmetry. apply Z.div_unique with (c - M * (b / M)); [left|ring]. assert (b / M = 2 * bias F) as -> by lia.
        assert (M * (2 * bias F) <= b) by (replace (2 * bias F) with (b / M) by lia; lia). lia. }
      pose proof (Z.mod_pos_bound c M HM) as Bc.
      assert (Mc : mag F c = (M + c mod M) * 2 ^ t) by (rewrite (mag_large F Hmb Heb Hrange) by lia; rewrite Ec; reflexivity).
      assert (Kq : k = M + c mod M) by (apply (Z.mul_reg_r _ _ (2 ^ t)); lia).
      assert (q < M) by (unfold q; lia).
      destruct (mag_repr F Hmb Heb Hrange (2 * q) (t - 1) ltac:(lia) ltac:(lia)) as (a & Ha & Ea).
      exists a. split; [exact Ha|]. rewrite Ea. replace t with (1 + (t - 1)) at 2 by ring. rewrite p2_split by lia. change (2 ^ 1) with 2. ring.
Qed.

(** Sterbenz: x - p is exact for p/2 <= x <= 2p. *)
Lemma fsub_near : forall x p, 0 <= x < infw F -> 0 <= p < infw F -> mag F p <= 2 * mag F x -> mag F x <= 2 * mag F p ->
  word F (fsub F x p) /\ finite F (fsub F x p) /\ val F (fsub F x p) = mag F x - mag F p /\
  (val F (fsub F x p) = 0 -> neg F (fsub F x p) = false).
Proof.
  intros x p Hx Hp H1 H2. pose proof (infw_lt F Hmb Heb Hrange) as IL.
  destruct (word_of F Hmb Heb Hrange false x ltac:(lia)) as (Wx & Nx & Ax). destruct (word_of F Hmb Heb Hrange false p ltac:(lia)) as (Wp & Np & Ap).
  cbn [sbit] in *. rewrite Z.add_0_l in *.
  assert (Fx : finite F x) by (unfold finite; lia). assert (Fp : finite F p) by (unfold finite; lia).
  destruct (fsub_finite F Hmb Heb Hrange x p Wp Fx Fp) as [-> Fn].
  destruct (fneg_fin F Hmb Heb Hrange p Wp) as (Wn & Nn & _). pose proof (fneg_val F Hmb Heb Hrange p Wp) as Vn.
  assert (Vx : val F x = mag F x) by (unfold val; rewrite Nx, Ax; reflexivity).
  assert (Vp : val F p = mag F p) by (unfold val; rewrite Np, Ap; reflexivity).
  assert (G : exists a, 0 <= a < infw F /\ mag F a = Z.abs (mag F x - mag F p)).
  { destruct (Z_le_gt_dec x p) as [L|L].
    - destruct (diff_repr x p ltac:(lia) ltac:(lia) H1) as (a & Ha & E). exists a. split; [exact Ha|].
      pose proof (mag_nonneg F Hmb Heb Hrange a ltac:(lia)). lia.
    - destruct (diff_repr p x ltac:(lia) ltac:(lia) H2) as (a & Ha & E). exists a. split; [exact Ha|].
      pose proof (mag_nonneg F Hmb Heb Hrange a ltac:(lia)). lia. }
  destruct G as (a & Ha & E).
  destruct (fadd_at x (fneg F p) a Wx Wn Fx Fn Ha) as (A1 & A2 & A3 & A4 & A5 & A6); [rewrite E, Vx, Vn, Vp; f_equal; ring|].
  split; [exact A1|]. split; [exact A2|]. split; [rewrite A4; lia|]. intros Z. rewrite A4 in Z. rewrite A6 by exact Z. rewrite Nx. reflexivity.
Qed.

Lemma mag_inj_le : forall a b, 0 <= a -> 0 <= b -> mag F a <= mag F b -> a <= b.
Proof.
  intros a b Ha Hb H. destruct (Z_le_gt_dec a b); [assumption|exfalso]. pose proof (mag_mono F Hmb Heb Hrange b a ltac:(lia) ltac:(lia)). lia.
Qed.

(** 0.5 * p, when p is at least twice the smallest normal number. *)
Lemma half_val : forall p, 2 * M <= p < infw F ->
  fmul F ((bias F - 1) * M) p = p - M /\ 2 * mag F (p - M) = mag F p /\ M <= p - M.
Proof.
  intros p Hp. pose proof (M_pos F Hmb Heb Hrange) as HM. pose proof (infw_lt F Hmb Heb Hrange) as IL. pose proof (infw_val F Hmb Heb Hrange) as IV.
  assert (E : 2 * mag F (p - M) = mag F p).
  { rewrite <- mag_dbl by lia. unfold dbl. destruct (Z.ltb_spec (p - M) M); [lia|]. f_equal. ring. }
  split; [|split; [exact E|lia]].
  assert (Hh : 0 <= (bias F - 1) * M < infw F) by (split; [apply Z.mul_nonneg_nonneg; lia|]; rewrite IV; apply Z.mul_lt_mono_pos_r; lia).
  destruct (word_of F Hmb Heb Hrange false p ltac:(lia)) as (Wp & Np & Ap).
  destruct (word_of F Hmb Heb Hrange false ((bias F - 1) * M) ltac:(lia)) as (Wh & Nh & Ah). cbn [sbit] in *. rewrite Z.add_0_l in *.
  rewrite (fmul_mag F Hmb Heb Hrange) by (unfold finite; lia). rewrite Np, Nh, Ap, Ah. cbn [xorb].
  replace (bias F - 1) with (bias F + -1) by ring. rewrite (mag_power F Hmb Heb Hrange) by lia.
  rewrite (rnd_exact F Hmb Heb Hrange false _ (one F) (p - M)).
  - cbn [sbit]. ring.
  - apply p2. lia.
  - lia.
  - rewrite <- E. unfold one. replace (2 ^ (bias F + mb F - 1)) with (2 * 2 ^ (bias F + mb F - 1 + -1)); [ring|].
    change 2 with (2 ^ 1) at 1. rewrite <- p2_split by lia. f_equal. ring.
Qed.

(** What is computed from |x| < 2|p|: by doubling x, or by halving p. *)
Definition end_small (x p : Z) : Z :=
  if flt F p (fadd F x x) then
    let x := fsub F x p in if fle F p (fadd F x x) then fsub F x p else x
  else x.

Definition end_big (h x p : Z) : Z :=
  if flt F h x then let x := fsub F x p in if fle F h x then fsub F x p else x else x.

Definition end_of (x p y : Z) : Prop :=
  word F y /\ finite F y /\ (val F y = 0 -> neg F y = false) /\
  exists j, val F y = mag F x - j * mag F p /\ 2 * Z.abs (val F y) <= mag F p /\ (2 * Z.abs (val F y) = mag F p -> Z.Even j).

Lemma pos_word : forall x, 0 <= x < infw F -> word F x /\ neg F x = false /\ absw F x = x /\ finite F x /\ val F x = mag F x.
Proof.
  intros x Hx. pose proof (infw_lt F Hmb Heb Hrange) as IL.
  destruct (word_of F Hmb Heb Hrange false x ltac:(lia)) as (W & N & A). cbn [sbit] in *. rewrite Z.add_0_l in *.
  split; [exact W|]. split; [exact N|]. split; [exact A|]. split; [unfold finite; lia|]. unfold val. rewrite N, A. reflexivity.
Qed.

(** The steps after a test that is exact. *)
Lemma end_steps : forall x p (c1 c2 : Z -> bool), 0 <= x < infw F -> 0 < p < infw F -> mag F x < 2 * mag F p ->
  c1 x = (mag F p <? 2 * mag F x) ->
  (forall y, word F y -> finite F y -> Z.abs (val F y) <= mag F p -> c2 y = (mag F p <=? 2 * val F y)) ->
  end_of x p (if c1 x then let x := fsub F x p in if c2 x then fsub F x p else x else x).
Proof.
  intros x p c1 c2 Hx Hp L C1 C2. pose proof (infw_lt F Hmb Heb Hrange) as IL. destruct (pos_word x Hx) as (Wx & Nx & Ax & Fx & Vx).
  pose proof (mag_nonneg F Hmb Heb Hrange x ltac:(lia)) as P0.
  pose proof (mag_mono F Hmb Heb Hrange 0 p ltac:(lia) ltac:(lia)) as Pp. rewrite (mag_0 F Hmb Heb Hrange) in Pp.
  rewrite C1. destruct (Z.ltb_spec (mag F p) (2 * mag F x)) as [G1|G1].
  - destruct (fsub_near x p Hx ltac:(lia) ltac:(lia) ltac:(lia)) as (W1 & F1 & V1 & Z1). cbv zeta.
    set (y := fsub F x p) in *. rewrite C2 by (try assumption; lia).
    destruct (Z.leb_spec (mag F p) (2 * val F y)) as [G2|G2].
    + destruct (word_split F Hmb Heb Hrange y W1) as [Ey By].
      assert (Ny : neg F y = false).
      { unfold val in G2. pose proof (mag_nonneg F Hmb Heb Hrange (absw F y) ltac:(lia)). destruct (neg F y); [lia|reflexivity]. }
      assert (Yr : 0 <= y < infw F) by (rewrite Ey, Ny; unfold finite in F1; cbn [sbit]; lia).
      destruct (pos_word y Yr) as (_ & _ & _ & _ & Vy).
      destruct (fsub_near y p Yr ltac:(lia) ltac:(lia) ltac:(lia)) as (W2 & F2 & V2 & Z2).
      split; [exact W2|]. split; [exact F2|]. split; [exact Z2|]. exists 2. split; [lia|]. split; [lia|]. intros _. exists 1. reflexivity.
    + split; [exact W1|]. split; [exact F1|]. split; [exact Z1|]. exists 1. split; [lia|]. split; [lia|]. lia.
  - split; [exact Wx|]. split; [exact Fx|]. split; [intros _; exact Nx|]. exists 0. split; [lia|]. split; [lia|]. intros _. exists 0. reflexivity.
Qed.

Lemma end_small_spec : forall x p, 0 <= x < infw F -> 0 < p < 2 * M -> mag F x < 2 * mag F p -> end_of x p (end_small x p).
Proof.
  intros x p Hx Hp L. pose proof (M_pos F Hmb Heb Hrange) as HM. pose proof (infw_val F Hmb Heb Hrange) as IV. pose proof (infw_lt F Hmb Heb Hrange) as IL.
  assert (IB : 4 * M < infw F - M) by (rewrite IV; nia).
  destruct (pos_word x Hx) as (Wx & Nx & Ax & Fx & Vx). destruct (pos_word p ltac:(lia)) as (Wp & Np & Ap & Fp & Vp).
  unfold end_small. apply (end_steps x p (fun x => flt F p (fadd F x x)) (fun x => fle F p (fadd F x x))); try assumption; try lia.
  - assert (Xs : x <= dbl p) by (apply mag_inj_le; [lia|unfold dbl; destruct (Z.ltb_spec p M); lia|rewrite mag_dbl by lia; lia]).
    destruct (fadd_same x Wx) as (A1 & A2 & A3 & _); [rewrite Ax; unfold dbl in Xs; destruct (Z.ltb_spec p M); lia|].
    rewrite (flt_val F Hmb Heb Hrange) by assumption. rewrite A3, Vp, Vx. reflexivity.
  - intros y Wy Fy Ly. destruct (word_split F Hmb Heb Hrange y Wy) as [_ By].
    assert (Ys : absw F y <= p) by (apply mag_inj_le; [lia|lia|]; rewrite <- abs_val by exact Wy; exact Ly).
    destruct (fadd_same y Wy) as (A1 & A2 & A3 & _); [lia|].
    rewrite (fle_val F Hmb Heb Hrange) by assumption. rewrite A3, Vp. reflexivity.
Qed.

Lemma end_big_spec : forall x p, 0 <= x < infw F -> 2 * M <= p < infw F -> mag F x < 2 * mag F p ->
  end_of x p (end_big (fmul F ((bias F - 1) * M) p) x p).
Proof.
  intros x p Hx Hp L. pose proof (M_pos F Hmb Heb Hrange) as HM. destruct (half_val p Hp) as (-> & E & Hh).
  destruct (pos_word x Hx) as (Wx & Nx & Ax & Fx & Vx). destruct (pos_word (p - M) ltac:(lia)) as (Wp & Np & Ap & Fp & Vp).
  unfold end_big. apply (end_steps x p (fun x => flt F (p - M) x) (fun x => fle F (p - M) x)); try assumption; try lia.
  - rewrite (flt_val F Hmb Heb Hrange) by assumption. rewrite Vp, Vx.
    destruct (Z.ltb_spec (mag F (p - M)) (mag F x)); destruct (Z.ltb_spec (mag F p) (2 * mag F x)); lia.
  - intros y Wy Fy Ly. rewrite (fle_val F Hmb Heb Hrange) by assumption. rewrite Vp.
    destruct (Z.leb_spec (mag F (p - M)) (val F y)); destruct (Z.leb_spec (mag F p) (2 * val F y)); lia.
Qed.

(** An infinite p. *)
Lemma end_big_inf : forall x, 0 <= x < infw F -> end_big (fmul F ((bias F - 1) * M) (infw F)) x (infw F) = x.
Proof.
  intros x Hx. pose proof (M_pos F Hmb Heb Hrange) as HM. pose proof (infw_lt F Hmb Heb Hrange) as IL. pose proof (infw_val F Hmb Heb Hrange) as IV.
  assert (Hh : 0 < (bias F - 1) * M < infw F) by (split; [apply Z.mul_pos_pos; lia|]; rewrite IV; apply Z.mul_lt_mono_pos_r; lia).
  destruct (word_of F Hmb Heb Hrange false (infw F) ltac:(lia)) as (Wp & Np & Ap).
  destruct (pos_word ((bias F - 1) * M) ltac:(lia)) as (_ & Nh & Ah & Fh & _). cbn [sbit] in *. rewrite Z.add_0_l in *.
  destruct (pos_word x Hx) as (Wx & Nx & Ax & Fx & Vx).
  assert (E : fmul F ((bias F - 1) * M) (infw F) = infw F).
  { unfold fmul. destruct (finite_tests F Hmb Heb Hrange _ Fh) as [-> ->]. unfold nanb, infb. rewrite Ap, Np, Nh, Ah, Z.ltb_irrefl, Z.eqb_refl. cbn [orb xorb].
    destruct (Z.eqb_spec ((bias F - 1) * M) 0); [lia|]. destruct (Z.eqb_spec (infw F) 0); [lia|]. cbn [orb sbit]. ring. }
  rewrite E. unfold end_big, flt, key. rewrite Nx, Ax, Np, Ap.
  destruct (Z.ltb_spec (infw F) x); [lia|]. rewrite andb_false_r. reflexivity.
Qed.

(** The sign put back. *)
Lemma rem_result : forall x p x' y, word F x -> word F p -> word F x' -> neg F x' = neg F x ->
  (exists k, val F x = k * (2 * val F p) + val F x') -> end_of (absw F x') (absw F p) y ->
  remainder_of F x p (sbit F (xorb (neg F y) (neg F x)) + absw F y).
Proof.
  intros x p x' y Wx Wp Wx' Ns (k & Ek) (Wy & Fy & Zy & j & Ej & Lj & Tj).
  destruct (word_split F Hmb Heb Hrange y Wy) as [_ By]. pose proof (infw_lt F Hmb Heb Hrange) as IL. unfold finite in Fy.
  set (s := xorb (neg F y) (neg F x)). destruct (word_of F Hmb Heb Hrange s (absw F y) By) as (Wr & Nr & Ar).
  pose proof (val_of F Hmb Heb Hrange s (absw F y) By) as Vr.
  assert (Vy : val F (sbit F s + absw F y) = if neg F x then - val F y else val F y).
  { rewrite Vr, (val_neg F Hmb Heb Hrange y Wy). unfold s. destruct (neg F x); destruct (neg F y); cbn [xorb sgn_of]; ring. }
  rewrite <- (abs_val p Wp) in Ej, Lj, Tj. rewrite <- (abs_val x' Wx') in Ej.
  assert (Vx' : val F x' = if neg F x then - Z.abs (val F x') else Z.abs (val F x')).
  { rewrite abs_val, (val_neg F Hmb Heb Hrange x' Wx'), Ns by exact Wx'. destruct (neg F x); reflexivity. }
  split; [exact Wr|]. split; [unfold finite; lia|]. rewrite Vy, Nr. split.
  - intros Z. assert (Z' : val F y = 0) by (destruct (neg F x); lia). unfold s. rewrite (Zy Z'). destruct (neg F x); reflexivity.
  - set (sg := if Bool.eqb (neg F x) (val F p <? 0) then 1 else -1). exists (2 * k + sg * j).
    assert (Ab : Z.abs (if neg F x then - val F y else val F y) = Z.abs (val F y)) by (destruct (neg F x); lia). rewrite Ab.
    split; [|split; [exact Lj|]].
    + rewrite Ek. unfold sg. clear - Ej Vx'. destruct (neg F x); destruct (Z.ltb_spec (val F p) 0) as [Hp|Hp]; cbn [Bool.eqb].
      * rewrite (Z.abs_neq (val F p)) in Ej by lia. lia.
      * rewrite (Z.abs_eq (val F p)) in Ej by lia. lia.
      * rewrite (Z.abs_neq (val F p)) in Ej by lia. lia.
      * rewrite (Z.abs_eq (val F p)) in Ej by lia. lia.
    + intros T. destruct (Tj T) as [i ->]. unfold sg. destruct (Bool.eqb _ _); [exists (k + i)|exists (k - i)]; ring.
Qed.
End Rem.
