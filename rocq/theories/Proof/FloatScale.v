(** Scaling by powers of two: the facts about any format behind frexp, scalbn, ilogb, logb and modf. *)
From Verif Require Import Model.Base Spec.Ieee Spec.LibmSpec Model.Float Proof.FloatProof Proof.FloatRound.

(** Addition of ints, [None] when it overflows. *)
Definition int_sum (a b : Z) : option Z :=
  if (-2147483648 <=? a + b) && (a + b <=? 2147483647) then Some (a + b) else None.

Section Format.
Variable F : fmt.
Hypothesis Hmb : 1 <= mb F.
Hypothesis Heb : 3 <= eb F.
Hypothesis Hrange : mb F + 2 <= bias F.
Set Default Proof Using "All".
Notation M := (2 ^ mb F).
Notation L := (bias F + mb F - 1).

(** ** The rounding relation *)

Lemma rounds_mul : forall c n d w, 0 < c -> (rounds F (c * n) (c * d) w <-> rounds F n d w).
Proof.
  intros c n d w Hc. unfold rounds.
  assert (A : forall v, Z.abs (v * (c * d) - c * n) = c * Z.abs (v * d - n)).
  { intros v. replace (v * (c * d) - c * n) with (c * (v * d - n)) by lia. rewrite Z.abs_mul. f_equal. lia. }
  assert (B : (Z.abs (c * n) <? limit F * (c * d)) = (Z.abs n <? limit F * d)).
  { rewrite Z.abs_mul. replace (Z.abs c) with c by lia. replace (limit F * (c * d)) with (c * (limit F * d)) by lia.
    destruct (Z.ltb_spec (Z.abs n) (limit F * d)); [apply Z.ltb_lt|apply Z.ltb_ge]; nia. }
  rewrite B.
  assert (S1 : c * n < 0 <-> n < 0) by nia. assert (S2 : 0 < c * n <-> 0 < n) by nia. rewrite S1, S2.
  assert (Q : (forall v, word F v -> finite F v -> Z.abs (val F w * (c * d) - c * n) <= Z.abs (val F v * (c * d) - c * n)) <->
              (forall v, word F v -> finite F v -> Z.abs (val F w * d - n) <= Z.abs (val F v * d - n))).
  { split; intros H v Wv Fv; specialize (H v Wv Fv); rewrite !A in *; nia. }
  assert (R : (forall v, word F v -> finite F v -> Z.abs (val F w * (c * d) - c * n) = Z.abs (val F v * (c * d) - c * n) ->
                 val F v <> val F w -> Z.Even (absw F w)) <->
              (forall v, word F v -> finite F v -> Z.abs (val F w * d - n) = Z.abs (val F v * d - n) ->
                 val F v <> val F w -> Z.Even (absw F w))).
  { split; intros H v Wv Fv E Ne; apply (H v Wv Fv); try exact Ne; rewrite !A in *; nia. }
  destruct (Z.abs n <? limit F * d); [rewrite Q, R|]; tauto.
Qed.

(** Equal fractions are rounded alike. *)
Lemma rounds_eq : forall n d n' d' w, 0 < d -> 0 < d' -> n * d' = n' * d -> rounds F n d w -> rounds F n' d' w.
Proof.
  intros n d n' d' w Hd Hd' E R. apply (rounds_mul d n' d' w Hd). apply (rounds_mul d' n d w Hd') in R.
  replace (d * n') with (d' * n) by lia. replace (d * d') with (d' * d) by lia. exact R.
Qed.

Lemma rounds_exact : forall s a, 0 <= a < infw F -> rounds F (sgn_of s (mag F a)) 1 (sbit F s + a).
Proof.
  intros s a Ha. pose proof (mag_nonneg F Hmb Heb Hrange a ltac:(lia)) as G.
  destruct (rnd_rounds F Hmb Heb Hrange s (mag F a) 1 G ltac:(lia)) as [R _].
  rewrite (rnd_exact F Hmb Heb Hrange s (mag F a) 1 a) in R by lia. exact R.
Qed.

Lemma rnd_zero : forall s n d, 0 <= n -> 2 * n < d -> rnd F s n d = sbit F s.
Proof.
  intros s n d Hn Hd. unfold rnd. rewrite (Z.div_small n d) by lia. change (Z.log2 0) with 0.
  replace (Z.max 0 (0 - mb F)) with 0 by lia. change (2 ^ 0) with 1. rewrite Z.mul_1_r.
  rewrite (Z.div_small n d), (Z.mod_small n d) by lia.
  assert ((2 * n <? d) = true) as -> by (apply Z.ltb_lt; exact Hd). cbn [orb].
  pose proof (infw_lt F Hmb Heb Hrange). change (0 * M + 0) with 0.
  assert ((infw F <=? 0) = false) as -> by (apply Z.leb_gt; lia). lia.
Qed.

Lemma rounds_zero : forall s n d, 0 <= n -> 2 * n < d -> rounds F (sgn_of s n) d (sbit F s).
Proof.
  intros s n d Hn Hd. destruct (rnd_rounds F Hmb Heb Hrange s n d Hn ltac:(lia)) as [R _].
  rewrite rnd_zero in R by assumption. exact R.
Qed.

Lemma rounds_inf : forall s n d, 0 < d -> limit F * d <= n -> rounds F (sgn_of s n) d (sbit F s + infw F).
Proof.
  intros s n d Hd Hn. pose proof (infw_lt F Hmb Heb Hrange) as IL.
  destruct (word_of F Hmb Heb Hrange s (infw F) ltac:(lia)) as (W & N & A).
  assert (0 < limit F).
  { unfold limit. apply Z.mul_pos_pos; [pose proof (p2_le 1 (mb F + 2) ltac:(lia) ltac:(lia)) as X; change (2 ^ 1) with 2 in X; lia|].
    apply p2. pose proof (p2_le 3 (eb F) ltac:(lia) ltac:(lia)) as X. change (2 ^ 3) with 8 in X. lia. }
  assert (0 < n) by nia.
  unfold rounds. rewrite N. split; [exact W|].
  split; [destruct s; cbn [sgn_of]; [reflexivity|lia]|].
  split; [destruct s; cbn [sgn_of]; [lia|reflexivity]|].
  assert ((Z.abs (sgn_of s n) <? limit F * d) = false) as ->; [|exact A].
  apply Z.ltb_ge. destruct s; cbn [sgn_of]; lia.
Qed.

Lemma limit_le : limit F <= M * 2 ^ (2 * bias F).
Proof.
  unfold limit, bias. replace (2 * (2 ^ (eb F - 1) - 1)) with (2 ^ eb F - 2).
  2:{ replace (eb F) with (1 + (eb F - 1)) at 1 by lia. rewrite p2_split by lia. change (2 ^ 1) with 2. lia. }
  pose proof (p2_le 3 (eb F) ltac:(lia) ltac:(lia)) as X. change (2 ^ 3) with 8 in X.
  replace (2 ^ eb F - 2) with (2 + (2 ^ eb F - 4)) by lia. rewrite (p2_split 2 (2 ^ eb F - 4)) by lia. rewrite Z.mul_assoc.
  rewrite (p2_split (mb F) 2) by lia. pose proof (p2 (2 ^ eb F - 4) ltac:(lia)). apply Z.mul_le_mono_nonneg_r; lia.
Qed.

(** ** Powers of two *)

Lemma one_pow : one F = 2 ^ L.
Proof. unfold one. f_equal; lia. Qed.

(** The word of 2^p. *)
Lemma mag_power : forall p, 1 - bias F <= p <= bias F -> mag F ((bias F + p) * M) = 2 ^ (L + p).
Proof.
  intros p Hp. pose proof (M_pos F Hmb Heb Hrange). replace ((bias F + p) * M) with ((bias F + p) * M + 0) by lia.
  rewrite (mag_fields F Hmb Heb Hrange) by lia. rewrite Z.add_0_r, <- p2_split by lia. f_equal. lia.
Qed.

Lemma fmul_mag : forall x y, finite F x -> finite F y ->
  fmul F x y = rnd F (xorb (neg F x) (neg F y)) (mag F (absw F x) * mag F (absw F y)) (one F).
Proof.
  intros x y Fx Fy. unfold fmul. destruct (finite_tests F Hmb Heb Hrange x Fx) as [-> ->].
  destruct (finite_tests F Hmb Heb Hrange y Fy) as [-> ->]. reflexivity.
Qed.

(** A subnormal number times 2^p, p large enough, is a normal number. *)
Lemma scale_up : forall x p, word F x -> 0 < absw F x < M -> mb F < p < bias F ->
  exists a, M <= a < infw F /\ mag F a = mag F (absw F x) * 2 ^ p /\
    fmul F x ((bias F + p) * M) = sbit F (neg F x) + a.
Proof.
  intros x p W A P. pose proof (M_pos F Hmb Heb Hrange) as HM. pose proof (infw_big F Hmb Heb Hrange) as IB.
  pose proof (infw_lt F Hmb Heb Hrange) as IL. pose proof (p2 p ltac:(lia)) as Pp.
  destruct (mag_repr F Hmb Heb Hrange (absw F x) p ltac:(lia) ltac:(lia)) as (a & Ha & E).
  assert (Em : mag F (absw F x) = absw F x) by (apply (mag_small F Hmb Heb Hrange); lia).
  exists a.
  assert (B : M <= a).
  { destruct (Z_lt_le_dec a M) as [Lt|?]; [exfalso|assumption].
    rewrite (mag_small F Hmb Heb Hrange a) in E by lia.
    pose proof (p2_le (mb F) p ltac:(lia) ltac:(lia)) as X. nia. }
  split; [lia|]. split; [rewrite Em; exact E|].
  assert (0 <= (bias F + p) * M < infw F) as Wp.
  { rewrite (infw_val F Hmb Heb Hrange). nia. }
  destruct (word_of F Hmb Heb Hrange false ((bias F + p) * M) ltac:(lia)) as (_ & Np & Ap). cbn [sbit] in Np, Ap.
  rewrite Z.add_0_l in Np, Ap.
  rewrite fmul_mag; [|unfold finite; lia|unfold finite; rewrite Ap; lia].
  rewrite Np, Ap, xorb_false_r. rewrite mag_power by lia.
  apply (rnd_exact F Hmb Heb Hrange); [apply (one_pos F Hmb Heb Hrange)|lia|].
  rewrite E, Em, one_pow. rewrite <- Z.mul_assoc, <- p2_split by lia. do 2 f_equal. lia.
Qed.

(** x * 1 *)
Lemma fmul_one : forall x, word F x -> finite F x -> fmul F x (bias F * M) = x.
Proof.
  intros x W Fx. pose proof (M_pos F Hmb Heb Hrange) as HM. pose proof (infw_lt F Hmb Heb Hrange) as IL.
  assert (0 <= bias F * M < infw F) as Wp.
  { rewrite (infw_val F Hmb Heb Hrange). nia. }
  destruct (word_of F Hmb Heb Hrange false (bias F * M) ltac:(lia)) as (_ & Np & Ap). cbn [sbit] in Np, Ap.
  rewrite Z.add_0_l in Np, Ap.
  rewrite fmul_mag; [|exact Fx|unfold finite; rewrite Ap; lia].
  rewrite Np, Ap, xorb_false_r. pose proof (mag_power 0 ltac:(lia)) as Mo. rewrite Z.add_0_r in Mo. rewrite Mo.
  destruct (word_split F Hmb Heb Hrange x W) as [E B]. unfold finite in Fx.
  rewrite (rnd_exact F Hmb Heb Hrange _ _ _ (absw F x)); [symmetry; exact E|apply (one_pos F Hmb Heb Hrange)|lia|].
  rewrite one_pow. do 2 f_equal. lia.
Qed.

(** The same fraction under another exponent. *)
Lemma mag_other : forall a k, 1 <= a / M -> 1 <= k ->
  mag F (k * M + a mod M) = (M + a mod M) * 2 ^ (k - 1) /\ mag F a = (M + a mod M) * 2 ^ (a / M - 1) /\ 0 <= a mod M < M.
Proof.
  intros a k Ha Hk. pose proof (M_pos F Hmb Heb Hrange) as HM. destruct (fields F Hmb Heb Hrange a) as [E B].
  split; [|split; [|exact B]].
  - apply (mag_fields F Hmb Heb Hrange); lia.
  - apply (mag_large F Hmb Heb Hrange). exact Ha.
Qed.

(** ** scalbn *)

(** Size of x * 2^n as a fraction. *)
Definition num (a n : Z) : Z := if 0 <=? n then mag F a * 2 ^ n else mag F a.
Definition den (n : Z) : Z := if 0 <=? n then 1 else 2 ^ (- n).

Lemma den_pos : forall n, 0 < den n.
Proof. intros n. unfold den. destruct (Z.leb_spec 0 n); [lia|apply p2; lia]. Qed.

(** [a1] is [a] times 2^p0; [k] the exponent of the result. *)
Lemma num_den : forall a a1 p0 n, 0 <= p0 -> mag F a1 = mag F a * 2 ^ p0 -> 1 <= a1 / M ->
  forall u v, 0 <= u -> 0 <= v -> v - u = a1 / M - p0 + n - 1 ->
  num a n * 2 ^ u = den n * (M + a1 mod M) * 2 ^ v.
Proof.
  intros a a1 p0 n Hp E H1 u v Hu Hv D.
  rewrite (mag_large F Hmb Heb Hrange a1 H1) in E. set (c := M + a1 mod M) in *. set (e := a1 / M) in *. clearbody c e.
  assert (X : num a n * 2 ^ (p0 + (if 0 <=? n then 0 else - n)) = den n * c * 2 ^ (e - 1 + (if 0 <=? n then n else 0))).
  { unfold num, den. destruct (Z.leb_spec 0 n) as [N|N].
    - rewrite Z.add_0_r. rewrite (p2_split (e - 1) n) by lia.
      replace (mag F a * 2 ^ n * 2 ^ p0) with (mag F a * 2 ^ p0 * 2 ^ n) by lia. rewrite <- E. lia.
    - rewrite Z.add_0_r. rewrite (p2_split p0 (- n)) by lia.
      replace (mag F a * (2 ^ p0 * 2 ^ (- n))) with (mag F a * 2 ^ p0 * 2 ^ (- n)) by lia. rewrite <- E. lia. }
  set (u0 := p0 + (if 0 <=? n then 0 else - n)) in *. set (v0 := e - 1 + (if 0 <=? n then n else 0)) in *.
  assert (Hu0 : 0 <= u0) by (unfold u0; destruct (Z.leb_spec 0 n); lia).
  assert (Hv0 : 0 <= v0) by (unfold v0; destruct (Z.leb_spec 0 n); lia).
  assert (Dv : v0 - u0 = v - u) by (unfold u0, v0; destruct (Z.leb_spec 0 n); lia).
  apply Z.mul_reg_r with (2 ^ u0); [pose proof (p2 u0 Hu0); lia|].
  replace (num a n * 2 ^ u * 2 ^ u0) with (num a n * 2 ^ u0 * 2 ^ u) by lia. rewrite X.
  rewrite <- !Z.mul_assoc. f_equal. f_equal. rewrite <- !p2_split by lia. f_equal. lia.
Qed.

Section Scale.
Variables (s : bool) (a a1 p0 P n : Z).
Hypothesis Hp0 : 0 <= p0.
Hypothesis Ea : mag F a1 = mag F a * 2 ^ p0.
Hypothesis H1 : 1 <= a1 / M.
Hypothesis HP : mb F + 2 <= P < bias F.
Let k := a1 / M - p0 + n.

Lemma num_nonneg : 0 <= num a n.
Proof.
  pose proof (num_den a a1 p0 n Hp0 Ea H1 (Z.max 0 (1 - k)) (Z.max 0 (k - 1)) ltac:(lia) ltac:(lia) ltac:(unfold k; lia)) as X.
  pose proof (den_pos n). pose proof (M_pos F Hmb Heb Hrange). pose proof (Z.mod_pos_bound a1 M ltac:(lia)).
  pose proof (p2 (Z.max 0 (1 - k)) ltac:(lia)). pose proof (p2 (Z.max 0 (k - 1)) ltac:(lia)).
  assert (0 <= den n * (M + a1 mod M) * 2 ^ Z.max 0 (k - 1)) by (apply Z.mul_nonneg_nonneg; [apply Z.mul_nonneg_nonneg|]; lia).
  nia.
Qed.

Lemma scale_over : 2 * bias F < k -> rounds F (sgn_of s (num a n)) (den n) (sbit F s + infw F).
Proof.
  intros Hk. apply rounds_inf; [apply den_pos|].
  pose proof (num_den a a1 p0 n Hp0 Ea H1 0 (k - 1) ltac:(lia) ltac:(lia) ltac:(unfold k; lia)) as X.
  change (2 ^ 0) with 1 in X. rewrite Z.mul_1_r in X. rewrite X.
  pose proof limit_le as LL. pose proof (den_pos n) as D. pose proof (M_pos F Hmb Heb Hrange) as HM.
  pose proof (Z.mod_pos_bound a1 M ltac:(lia)) as B.
  pose proof (p2_le (2 * bias F) (k - 1) ltac:(lia) ltac:(lia)) as Q. pose proof (p2 (2 * bias F) ltac:(lia)) as R.
  apply Z.le_trans with (M * 2 ^ (2 * bias F) * den n); [nia|].
  replace (den n * (M + a1 mod M) * 2 ^ (k - 1)) with ((M + a1 mod M) * 2 ^ (k - 1) * den n) by lia.
  apply Z.mul_le_mono_nonneg_r; [lia|]. apply Z.mul_le_mono_nonneg; lia.
Qed.

Lemma scale_mid : 1 <= k <= 2 * bias F ->
  rounds F (sgn_of s (num a n)) (den n) (sbit F s + (k * M + a1 mod M)).
Proof.
  intros Hk. pose proof (M_pos F Hmb Heb Hrange) as HM. pose proof (Z.mod_pos_bound a1 M ltac:(lia)) as B.
  assert (0 <= k * M + a1 mod M < infw F) as R by (rewrite (infw_val F Hmb Heb Hrange); nia).
  pose proof (rounds_exact s (k * M + a1 mod M) R) as E.
  apply (rounds_eq _ 1 _ _ _ ltac:(lia) (den_pos n)) with (2 := E).
  destruct (mag_other a1 k H1 ltac:(lia)) as (-> & _ & _).
  pose proof (num_den a a1 p0 n Hp0 Ea H1 0 (k - 1) ltac:(lia) ltac:(lia) ltac:(unfold k; lia)) as X.
  change (2 ^ 0) with 1 in X. rewrite Z.mul_1_r in X. rewrite X. destruct s; cbn [sgn_of]; lia.
Qed.

Lemma scale_under : k <= - P -> rounds F (sgn_of s (num a n)) (den n) (sbit F s).
Proof.
  intros Hk. apply rounds_zero; [apply num_nonneg|].
  pose proof (num_den a a1 p0 n Hp0 Ea H1 (1 - k) 0 ltac:(lia) ltac:(lia) ltac:(unfold k; lia)) as X.
  change (2 ^ 0) with 1 in X. rewrite Z.mul_1_r in X.
  pose proof (M_pos F Hmb Heb Hrange) as HM. pose proof (Z.mod_pos_bound a1 M ltac:(lia)) as B.
  pose proof (p2_le (mb F + 3) (1 - k) ltac:(lia) ltac:(lia)) as Q. rewrite (p2_split (mb F) 3) in Q by lia. change (2 ^ 3) with 8 in Q.
  pose proof (den_pos n) as D. pose proof num_nonneg as N.
  assert (num a n * (M * 8) < den n * (2 * M)).
  { apply Z.le_lt_trans with (num a n * 2 ^ (1 - k)); [apply Z.mul_le_mono_nonneg_l; lia|]. rewrite X.
    apply Z.mul_lt_mono_pos_l; lia. }
  nia.
Qed.

Lemma scale_down : - P < k <= 0 ->
  rounds F (sgn_of s (num a n)) (den n) (fmul F (sbit F s + ((k + P) * M + a1 mod M)) ((bias F - P) * M)).
Proof.
  intros Hk. pose proof (M_pos F Hmb Heb Hrange) as HM. pose proof (Z.mod_pos_bound a1 M ltac:(lia)) as B.
  pose proof (infw_lt F Hmb Heb Hrange) as IL.
  assert (R : 0 <= (k + P) * M + a1 mod M < infw F) by (rewrite (infw_val F Hmb Heb Hrange); nia).
  assert (Rp : 0 <= (bias F - P) * M < infw F) by (rewrite (infw_val F Hmb Heb Hrange); nia).
  destruct (word_of F Hmb Heb Hrange s _ ltac:(split; [apply R|lia])) as (W2 & _ & A2).
  destruct (word_of F Hmb Heb Hrange false ((bias F - P) * M) ltac:(lia)) as (Wp & _ & Ap).
  pose proof (val_of F Hmb Heb Hrange s _ ltac:(split; [apply R|lia])) as V2.
  pose proof (val_of F Hmb Heb Hrange false ((bias F - P) * M) ltac:(lia)) as Vp.
  cbn [sbit sgn_of] in Wp, Ap, Vp. rewrite Z.add_0_l in Wp, Ap, Vp.
  pose proof (fmul_rounds F Hmb Heb Hrange _ _ W2 Wp ltac:(unfold finite; rewrite A2; lia) ltac:(unfold finite; rewrite Ap; lia)) as X.
  apply (rounds_eq _ _ _ _ _ (one_pos F Hmb Heb Hrange) (den_pos n)) with (2 := X).
  rewrite V2, Vp. replace (bias F - P) with (bias F + - P) by lia. rewrite mag_power by lia.
  destruct (mag_other a1 (k + P) H1 ltac:(lia)) as (-> & _ & _). rewrite one_pow.
  pose proof (num_den a a1 p0 n Hp0 Ea H1 (1 - k) 0 ltac:(lia) ltac:(lia) ltac:(unfold k; lia)) as Y.
  change (2 ^ 0) with 1 in Y. rewrite Z.mul_1_r in Y.
  set (c := M + a1 mod M) in *.
  assert (T : c * 2 ^ (k + P - 1) * 2 ^ (L + - P) * den n = num a n * 2 ^ L).
  { replace L with ((1 - k) + (L + k - 1)) at 2 by lia. rewrite (p2_split (1 - k)) by lia.
    rewrite Z.mul_assoc, Y. rewrite <- (Z.mul_assoc c), <- p2_split by lia.
    replace (k + P - 1 + (L + - P)) with (L + k - 1) by lia. lia. }
  destruct s; cbn [sgn_of]; lia.
Qed.
End Scale.

(** The body of scalbn on the fields of the number; [tiny] and [huge] are the constants of the source. *)
Definition scalb_body (P tiny huge x n : Z) : option Z :=
  let s := neg F x in
  let sub := absw F x / M =? 0 in
  let x1 := if sub then fmul F x ((bias F + P) * M) else x in
  let a1 := absw F x1 in
  let k1 := a1 / M - (if sub then P else 0) in
  if sub && (n <? -50000) then Some (fmul F tiny x1) else
  match int_sum k1 n with
  | None => None
  | Some k =>
    if 2 * bias F <? k then Some (fmul F huge (sbit F s + huge))
    else if 0 <? k then Some (sbit F s + (k * M + a1 mod M))
    else if k <=? - P then
      Some (if 50000 <? n then fmul F huge (sbit F s + huge) else fmul F tiny (sbit F s + tiny))
    else Some (fmul F (sbit F s + ((k + P) * M + a1 mod M)) ((bias F - P) * M))
  end.

Section Body.
Variables P tiny huge : Z.
Hypothesis HP : mb F + 2 <= P < bias F.
Hypothesis HP2 : P < 50000.
Hypothesis Huge : forall s, fmul F huge (sbit F s + huge) = sbit F s + infw F.
Hypothesis Tiny : forall s, fmul F tiny (sbit F s + tiny) = sbit F s.
Hypothesis Tiny0 : 0 <= tiny < infw F.
Hypothesis Tiny1 : 2 * mag F tiny * (M * 2 ^ P) < one F.

Lemma scalb_body_spec : forall x n, word F x -> finite F x -> absw F x <> 0 ->
  (forall r, scalb_body P tiny huge x n = Some r ->
     rounds F (sgn_of (neg F x) (num (absw F x) n)) (den n) r) /\
  (scalb_body P tiny huge x n = None ->
     n < - 2147483648 + P \/ 2147483647 < n + 2 * bias F).
Proof.
  intros x n W Fx N0. pose proof (M_pos F Hmb Heb Hrange) as HM. pose proof (infw_lt F Hmb Heb Hrange) as IL.
  destruct (word_split F Hmb Heb Hrange x W) as [Ex Bx]. unfold finite in Fx.
  unfold scalb_body. set (s := neg F x) in *. set (a := absw F x) in *.
  destruct (fields F Hmb Heb Hrange a) as [Ea Ba].
  pose proof (expo_range F Hmb Heb Hrange a ltac:(lia)) as Er.
  (* the scaled number *)
  set (x1 := if a / M =? 0 then fmul F x ((bias F + P) * M) else x).
  assert (X1 : exists a1 p0, x1 = sbit F s + a1 /\ M <= a1 < infw F /\ mag F a1 = mag F a * 2 ^ p0 /\ p0 = (if a / M =? 0 then P else 0)).
  { unfold x1. destruct (Z.eqb_spec (a / M) 0) as [Z|NZ].
    - assert (A : 0 < absw F x < M) by (fold a; rewrite Z in Ea; lia).
      destruct (scale_up x P W A ltac:(lia)) as (a1 & A1 & A2 & A3). exists a1, P. fold s in A3. fold a in A2. auto.
    - exists a, 0. split; [exact Ex|]. split; [split; [|exact Fx]|].
      + assert (1 <= a / M) by lia. nia.
      + change (2 ^ 0) with 1. split; [lia|reflexivity]. }
  destruct X1 as (a1 & p0 & E1 & R1 & M1 & P0).
  rewrite E1. destruct (word_of F Hmb Heb Hrange s a1 ltac:(lia)) as (W1 & S1 & A1). rewrite A1, <- P0.
  assert (H1 : 1 <= a1 / M) by (apply Z.div_le_lower_bound; lia).
  pose proof (expo_range F Hmb Heb Hrange a1 ltac:(lia)) as Er1.
  assert (Hp0 : 0 <= p0 <= P) by (rewrite P0; destruct (a / M =? 0); lia).
  destruct ((a / M =? 0) && (n <? -50000)) eqn:Low.
  - apply andb_true_iff in Low. destruct Low as [L1 L2]. apply Z.eqb_eq in L1. apply Z.ltb_lt in L2.
    split; [|discriminate]. intros r R. injection R as <-.
    destruct (word_of F Hmb Heb Hrange false tiny ltac:(lia)) as (_ & T1 & T2). cbn [sbit] in T1, T2.
    rewrite Z.add_0_l in T1, T2.
    rewrite fmul_mag; [|unfold finite; rewrite T2; lia|unfold finite; rewrite A1; lia].
    rewrite T1, T2, A1, S1, xorb_false_l.
    assert (G : mag F a = a) by (apply (mag_small F Hmb Heb Hrange); rewrite L1 in Ea; lia).
    pose proof (mag_nonneg F Hmb Heb Hrange tiny ltac:(lia)) as G0.
    assert (Am : a < M) by (rewrite L1 in Ea; lia).
    assert (p0 = P) as EP by (rewrite P0, L1; reflexivity).
    pose proof (p2 P ltac:(lia)) as PP.
    assert (M1' : 0 <= mag F a1 <= M * 2 ^ P) by (rewrite M1, EP, G; nia).
    rewrite rnd_zero; [|apply Z.mul_nonneg_nonneg; lia|].
    + apply rounds_zero; unfold num, den; assert ((0 <=? n) = false) as -> by (apply Z.leb_gt; lia); rewrite G; [lia|].
      pose proof (p2_le (mb F + 1) (- n) ltac:(lia) ltac:(lia)) as Q. rewrite (p2_split (mb F) 1) in Q by lia.
      change (2 ^ 1) with 2 in Q. lia.
    + apply Z.le_lt_trans with (2 * mag F tiny * (M * 2 ^ P)); [|exact Tiny1].
      rewrite <- Z.mul_assoc. apply Z.mul_le_mono_nonneg_l; [lia|]. apply Z.mul_le_mono_nonneg_l; lia.
  - unfold int_sum. set (k := a1 / M - p0 + n).
    destruct ((-2147483648 <=? k) && (k <=? 2147483647)) eqn:In.
    + split; [|destruct (2 * bias F <? k); [discriminate|]; destruct (0 <? k); [discriminate|]; destruct (k <=? - P); discriminate].
      intros r R. destruct (Z.ltb_spec (2 * bias F) k) as [C|C].
      { injection R as <-. rewrite Huge. apply (scale_over s a a1 p0 P n); [lia|exact M1|exact H1|lia|exact C]. }
      destruct (Z.ltb_spec 0 k) as [C2|C2].
      { injection R as <-. apply (scale_mid s a a1 p0 P n); [lia|exact M1|exact H1|lia|]. unfold k in *. lia. }
      destruct (Z.leb_spec k (- P)) as [C3|C3].
      { injection R as <-. assert ((50000 <? n) = false) as -> by (apply Z.ltb_ge; unfold k in *; lia).
        rewrite Tiny. apply (scale_under s a a1 p0 P n); [lia|exact M1|exact H1|lia|exact C3]. }
      injection R as <-. apply (scale_down s a a1 p0 P n); [lia|exact M1|exact H1|lia|]. unfold k in *. lia.
    + split; [discriminate|]. intros _. apply andb_false_iff in In. unfold k in In.
      destruct In as [In|In]; apply Z.leb_gt in In; lia.
Qed.
End Body.
End Format.
