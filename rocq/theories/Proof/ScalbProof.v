(** scalb and significand. *)
From Verif Require Import Model.Base Spec.Ieee Spec.LibmSpec Model.Float Model.Libm Model.LibmScalb
  Proof.Tac Proof.FloatProof Proof.FloatRound Proof.FloatScale Proof.FloatRoot Proof.FloatRem Proof.FloatParts.

Section Gen.
Variable F : fmt.
Hypothesis Hmb : 1 <= mb F.
Hypothesis Heb : 3 <= eb F.
Hypothesis Hrange : mb F + 2 <= bias F.
Notation M := (2 ^ mb F).

Lemma val_lt : forall x, word F x -> finite F x -> Z.abs (val F x) < 2 ^ (mb F + 2 * bias F).
Proof using Hmb Heb Hrange.
  intros x W Fx. rewrite (FloatRem.abs_val F Hmb Heb Hrange x W). destruct (word_split F Hmb Heb Hrange x W) as [_ B].
  pose proof (mag_mono F Hmb Heb Hrange (absw F x) (infw F) ltac:(lia) Fx) as L.
  pose proof (bias_pos F Hmb Heb Hrange) as BP. pose proof (M_pos F Hmb Heb Hrange) as HM.
  rewrite (infw_val F Hmb Heb Hrange) in L. rewrite <- (Z.add_0_r ((2 * bias F + 1) * M)) in L.
  rewrite (mag_fields F Hmb Heb Hrange) in L by lia.
  rewrite p2_split by lia. replace (2 * bias F + 1 - 1) with (2 * bias F) in L by lia.
  rewrite Z.add_0_r in L. exact L.
Qed.

Lemma val_nonzero : forall x, word F x -> absw F x <> 0 -> 1 <= Z.abs (val F x).
Proof using Hmb Heb Hrange.
  intros x W N. rewrite (FloatRem.abs_val F Hmb Heb Hrange x W). destruct (word_split F Hmb Heb Hrange x W) as [_ B].
  pose proof (mag_nonneg F Hmb Heb Hrange (absw F x) ltac:(lia)) as G.
  assert (mag F (absw F x) <> 0) by (intros X; apply N; apply (mag_zero F Hmb Heb Hrange); lia). lia.
Qed.

Lemma val_zero : forall x, word F x -> val F x = 0 -> x = sbit F (neg F x).
Proof using Hmb Heb Hrange.
  intros x W N. destruct (word_split F Hmb Heb Hrange x W) as [E B].
  destruct (Z.eq_dec (absw F x) 0) as [A|A]; [lia|]. pose proof (val_nonzero x W A). lia.
Qed.

Lemma scaled_far_up : forall x K n r, word F x -> absw F x <> 0 -> mb F + 2 * bias F + 1 <= K -> K <= n ->
  scaled F x K r -> scaled F x n r.
Proof using Hmb Heb Hrange.
  intros x K n r W N HK Hn. pose proof (bias_pos F Hmb Heb Hrange) as BP. pose proof (val_nonzero x W N) as V.
  pose proof (limit_le F Hmb Heb Hrange) as LL. rewrite <- p2_split in LL by lia.
  pose proof (p2_le (mb F + 2 * bias F) K ltac:(lia) ltac:(lia)) as P1. pose proof (p2_le K n Hn ltac:(lia)) as P2.
  pose proof (p2 (mb F + 2 * bias F) ltac:(lia)) as P0.
  unfold scaled. assert ((0 <=? K) = true) as -> by lia. assert ((0 <=? n) = true) as -> by lia.
  revert LL P1 P2 P0. generalize (2 ^ K) (2 ^ n) (2 ^ (mb F + 2 * bias F)). intros p q t LL P1 P2 P0.
  assert (G : forall u, t <= u -> (Z.abs (val F x * u) <? limit F * 1) = false).
  { intros u Hu. apply Z.ltb_ge. rewrite Z.abs_mul. clear - V LL P0 Hu. nia. }
  assert (S : forall u, t <= u -> (val F x * u < 0 <-> val F x < 0) /\ (0 < val F x * u <-> 0 < val F x)).
  { intros u Hu. clear - P0 Hu. nia. }
  unfold rounds. rewrite (G p P1), (G q ltac:(lia)).
  destruct (S p P1) as [S1 S2]. destruct (S q ltac:(lia)) as [S3 S4]. rewrite S1, S2, S3, S4. trivial.
Qed.

Lemma word0 : word F 0 /\ finite F 0 /\ val F 0 = 0.
Proof using Hmb Heb Hrange.
  pose proof (infw_lt F Hmb Heb Hrange) as IL. destruct (word_of F Hmb Heb Hrange false 0 ltac:(lia)) as (W & N & A).
  cbn [sbit] in *. rewrite Z.add_0_l in *. split; [exact W|]. split; [unfold finite; lia|].
  rewrite (val_neg F Hmb Heb Hrange 0 W), N, A, (mag_0 F Hmb Heb Hrange). reflexivity.
Qed.

Lemma scaled_far_down : forall x K n r, word F x -> finite F x -> mb F + 2 * bias F + 1 <= K -> n <= - K ->
  scaled F x (- K) r -> scaled F x n r.
Proof using Hmb Heb Hrange.
  intros x K n r W Fx HK Hn. pose proof (bias_pos F Hmb Heb Hrange) as BP. pose proof (val_lt x W Fx) as V.
  pose proof (p2_le (mb F + 2 * bias F + 1) K ltac:(lia) ltac:(lia)) as P1. pose proof (p2_le K (- n) ltac:(lia) ltac:(lia)) as P2.
  rewrite p2_split in P1 by lia. change (2 ^ 1) with 2 in P1. pose proof (p2 (mb F + 2 * bias F) ltac:(lia)) as P0.
  unfold scaled. assert ((0 <=? - K) = false) as -> by lia. assert ((0 <=? n) = false) as -> by lia. rewrite Z.opp_involutive.
  revert V P1 P2 P0. generalize (2 ^ K) (2 ^ (- n)) (2 ^ (mb F + 2 * bias F)). intros d d' t V P1 P2 P0.
  assert (LP : 1 <= limit F).
  { unfold limit. pose proof (p2_le 1 (mb F + 2) ltac:(lia) ltac:(lia)) as X. change (2 ^ 1) with 2 in X.
    pose proof (p2_le 3 (eb F) ltac:(lia) ltac:(lia)) as Y. change (2 ^ 3) with 8 in Y. pose proof (p2 (2 ^ eb F - 4) ltac:(lia)) as Z.
    clear - X Z. nia. }
  unfold rounds at 1. intros (R1 & R2 & R3 & R4).
  assert ((Z.abs (val F x) <? limit F * d) = true) as T by (apply Z.ltb_lt; clear - LP V P1 P0; nia). rewrite T in R4.
  destruct R4 as (Fr & R4 & _). destruct word0 as (W0 & F0 & V0). specialize (R4 0 W0 F0). rewrite V0 in R4.
  assert (Vr : val F r = 0) by (clear - R4 V P1; nia).
  rewrite (val_zero r R1 Vr). destruct (Z.eq_dec (val F x) 0) as [Z|N].
  - rewrite Z. apply (zero_rounds F Hmb Heb Hrange). lia.
  - replace (val F x) with (sgn_of (neg F r) (Z.abs (val F x))).
    + apply (rounds_zero F Hmb Heb Hrange); lia.
    + destruct (Z_lt_le_dec (val F x) 0) as [L|L]; [rewrite R2 by lia|rewrite R3 by lia]; cbn [sgn_of]; lia.
Qed.

(** An exact value is not changed by rounding. *)
Lemma rounds_repr : forall w d r, word F w -> finite F w -> 0 < d -> rounds F (val F w * d) d r ->
  word F r /\ finite F r /\ val F r = val F w /\ (val F w <> 0 -> neg F r = neg F w).
Proof using Hmb Heb Hrange.
  intros w d r W Fw Hd (R1 & R2 & R3 & R4). destruct (word_split F Hmb Heb Hrange w W) as [Ew B].
  pose proof (rounds_exact F Hmb Heb Hrange (neg F w) (absw F w) ltac:(unfold finite in Fw; lia)) as X.
  rewrite <- Ew, <- (val_neg F Hmb Heb Hrange w W) in X. destruct X as (_ & X2 & X3 & X4).
  assert (T : Z.abs (val F w) < limit F).
  { destruct (Z.ltb_spec (Z.abs (val F w)) (limit F * 1)) as [L|L]; [lia|]. unfold finite, is_inf in *. lia. }
  assert ((Z.abs (val F w * d) <? limit F * d) = true) as T2.
  { apply Z.ltb_lt. rewrite Z.abs_mul. rewrite (Z.abs_eq d) by lia. clear - T Hd. nia. }
  rewrite T2 in R4. destruct R4 as (Fr & R4 & _). specialize (R4 w W Fw).
  assert (E : val F r = val F w) by (clear - R4 Hd; nia).
  split; [exact R1|]. split; [exact Fr|]. split; [exact E|]. intros N.
  destruct (Z_lt_le_dec (val F w) 0) as [L|L].
  - rewrite R2, X2 by (clear - L Hd; nia). reflexivity.
  - rewrite R3, X3 by (clear - L Hd N; nia). reflexivity.
Qed.

Lemma exponent_frexp : forall x f e e0, exponent_of F x e -> frexp_of F x f e0 -> e0 = e + 1.
Proof using Hmb Heb Hrange.
  intros x f e e0 (U & X1 & X2) (_ & _ & _ & (B1 & B2) & V). pose proof (bias_pos F Hmb Heb Hrange) as BP.
  cbv zeta in *. unfold one in *. set (L := bias F + mb F - 1) in *. assert (HL : 1 <= L) by (unfold L; lia).
  assert (EL : 2 ^ L = 2 * 2 ^ (L - 1)) by (replace L with (1 + (L - 1)) at 1 by lia; rewrite p2_split by lia; reflexivity).
  assert (E1 : 2 * 2 ^ (L + e) = 2 ^ (L + e + 1)) by (rewrite (p2_split (L + e) 1) by lia; change (2 ^ 1) with 2; ring).
  rewrite E1 in X2. clear E1.
  destruct (Z.leb_spec 0 e0) as [P|P].
  - assert (A : Z.abs (val F x) = Z.abs (val F f) * 2 ^ e0) by (rewrite V, Z.abs_mul, (Z.abs_eq (2 ^ e0)) by (pose proof (p2 e0 P); lia); reflexivity).
    pose proof (p2 e0 P) as Q. assert (C1 : 2 ^ (L - 1) * 2 ^ e0 <= Z.abs (val F x)) by (rewrite A; clear - B1 EL Q; nia).
    assert (C2 : Z.abs (val F x) < 2 ^ L * 2 ^ e0) by (rewrite A; clear - B2 EL Q; nia).
    rewrite <- p2_split in C1, C2 by lia.
    assert (D1 : L - 1 + e0 < L + e + 1) by (apply (Z.pow_lt_mono_r_iff 2); lia).
    assert (D2 : L + e < L + e0) by (apply (Z.pow_lt_mono_r_iff 2); lia). lia.
  - pose proof (p2 (- e0) ltac:(lia)) as Q.
    assert (A : Z.abs (val F x) * 2 ^ (- e0) = Z.abs (val F f)) by (rewrite <- V, Z.abs_mul, (Z.abs_eq (2 ^ (- e0))) by lia; reflexivity).
    assert (C1 : 2 ^ (L + e) * 2 ^ (- e0) < 2 ^ L) by (clear - A X1 B2 EL Q; nia).
    assert (C2 : 2 ^ (L - 1) < 2 ^ (L + e + 1) * 2 ^ (- e0)) by (clear - A X2 B1 EL Q; nia).
    rewrite <- p2_split in C1, C2 by lia.
    assert (D1 : L + e + - e0 < L) by (apply (Z.pow_lt_mono_r_iff 2); lia).
    assert (D2 : L - 1 < L + e + 1 + - e0) by (apply (Z.pow_lt_mono_r_iff 2); lia). lia.
Qed.

(** The quotient of a number by its power of two is a number of the format. *)
Lemma signif_number : forall x f e, word F x -> exponent_of F x e -> frexp_of F x f (e + 1) ->
  exists w, word F w /\ finite F w /\ neg F w = neg F x /\ one F <= Z.abs (val F w) < 2 * one F /\
    (if 0 <=? e then val F x = val F w * 2 ^ e else val F x * 2 ^ (- e) = val F w).
Proof using Hmb Heb Hrange.
  intros x f e W Ex (Wf & Ff & Nf & Bf & Vf). pose proof (infw_lt F Hmb Heb Hrange) as IL. pose proof (M_pos F Hmb Heb Hrange) as HM.
  pose proof (one_pos F Hmb Heb Hrange) as O. pose proof (bias_pos F Hmb Heb Hrange) as BP.
  destruct (word_split F Hmb Heb Hrange f Wf) as [Ef B]. pose proof (FloatRem.abs_val F Hmb Heb Hrange f Wf) as Af.
  set (b := dbl F (absw F f)). assert (Db : mag F b = 2 * mag F (absw F f)) by (apply (mag_dbl F Hmb Heb Hrange); lia).
  assert (B0 : 0 <= b) by (unfold b, dbl; destruct (absw F f <? 2 ^ mb F); lia).
  assert (Bi : b < infw F).
  { destruct (Z_lt_le_dec b (infw F)) as [L|G]; [exact L|exfalso].
    pose proof (mag_le F Hmb Heb Hrange (infw F) b ltac:(lia) G) as X.
    rewrite (infw_val F Hmb Heb Hrange) in X. rewrite <- (Z.add_0_r ((2 * bias F + 1) * M)) in X.
    rewrite (mag_fields F Hmb Heb Hrange) in X by lia. replace (2 * bias F + 1 - 1) with (2 * bias F) in X by lia.
    pose proof (p2_le (bias F - 1 + 1) (2 * bias F) ltac:(lia) ltac:(lia)) as Y. rewrite p2_split in Y by lia. change (2 ^ 1) with 2 in Y.
    pose proof (one_split F Hmb Heb Hrange) as OS. pose proof (p2 (bias F - 1) ltac:(lia)) as Q.
    clear - X Y OS Db Bf Af HM Q. nia. }
  destruct (word_of F Hmb Heb Hrange (neg F f) b ltac:(lia)) as (Ww & Nw & Aw).
  assert (Vw : val F (sbit F (neg F f) + b) = 2 * val F f).
  { rewrite (val_of F Hmb Heb Hrange) by lia. rewrite Db, (val_neg F Hmb Heb Hrange f Wf). destruct (neg F f); cbn [sgn_of]; lia. }
  exists (sbit F (neg F f) + b). split; [exact Ww|]. split; [unfold finite; lia|]. split; [congruence|].
  rewrite Vw. split; [lia|].
  destruct (Z.leb_spec 0 e) as [P|P].
  - assert ((0 <=? e + 1) = true) as T by lia. rewrite T in Vf. rewrite Vf, p2_split by lia. change (2 ^ 1) with 2. ring.
  - destruct (Z.leb_spec 0 (e + 1)) as [P2|P2].
    + assert (e = -1) as -> by lia. rewrite Vf. change (2 ^ (-1 + 1)) with 1. change (2 ^ (- -1)) with 2. ring.
    + rewrite <- Vf. replace (- e) with (- (e + 1) + 1) by lia. rewrite p2_split by lia. change (2 ^ 1) with 2. ring.
Qed.

(** Scaled by its exponent, a number gives the exact quotient by the power of two. *)
Lemma signif_rounds : forall x e f r, word F x -> exponent_of F x e -> frexp_of F x f (e + 1) -> scaled F x (- e) r ->
  word F r /\ finite F r /\ neg F r = neg F x /\ one F <= Z.abs (val F r) < 2 * one F /\
    (if 0 <=? e then val F x = val F r * 2 ^ e else val F x * 2 ^ (- e) = val F r).
Proof using Hmb Heb Hrange.
  intros x e f r W Ex G S.
  destruct (signif_number x f e W Ex G) as (w & Ww & Fw & Nw & Bw & Vw). pose proof (one_pos F Hmb Heb Hrange) as O.
  assert (K : exists d, 0 < d /\ rounds F (val F w * d) d r).
  { unfold scaled in S. destruct (Z.leb_spec 0 e) as [P|P].
    - destruct (Z.leb_spec 0 (- e)) as [P2|P2].
      + exists 1. split; [lia|]. assert (e = 0) as -> by lia. change (2 ^ 0) with 1 in Vw. change (2 ^ (- 0)) with 1 in S.
        rewrite Vw, Z.mul_1_r in S. exact S.
      + exists (2 ^ e). split; [apply p2; exact P|]. rewrite Z.opp_involutive, Vw in S. exact S.
    - assert ((0 <=? - e) = true) as T by lia. rewrite T in S. exists 1. split; [lia|]. rewrite Vw in S. rewrite Z.mul_1_r. exact S. }
  destruct K as (d & Hd & K). destruct (rounds_repr w d r Ww Fw Hd K) as (Wr & Fr & Vr & Nr).
  split; [exact Wr|]. split; [exact Fr|]. rewrite Vr. split; [rewrite Nr; [exact Nw|lia]|]. split; [exact Bw|exact Vw].
Qed.
Section Code.
Variables (isnan fin rint : Z -> Z) (scalbn : Z -> Z -> option Z) (k : Z).
Hypothesis Hnan : forall w, word F w -> (is_nan F w -> isnan w <> 0) /\ (~ is_nan F w -> isnan w = 0).
Hypothesis Hfin : forall w, word F w -> (finite F w -> fin w = 1) /\ (~ finite F w -> fin w = 0).
Hypothesis Hrint : forall w, word F w -> finite F w -> exists n, word F (rint w) /\ finite F (rint w) /\ val F (rint w) = n * one F /\
  (forall m, val F w = m * one F -> n = m).
Hypothesis Hscalbn : forall x n, word F x -> finite F x -> -65000 <= n <= 65000 ->
  exists r, scalbn x n = Some r /\ scaled F x n r /\ (is_zero F x -> r = x).
Hypothesis Hinf : forall x n, word F x -> is_inf F x -> scalbn x n = Some x.
Hypothesis Hk : word F k /\ finite F k /\ val F k = 65000 * one F.
Hypothesis HK : mb F + 2 * bias F + 1 <= 65000.
Set Default Proof Using "All".

Notation scalb := (ieee_scalb F isnan fin rint scalbn k).

Lemma not_nan : forall w, finite F w -> ~ is_nan F w.
Proof. unfold finite, is_nan. lia. Qed.

(** The path of an integral second argument. *)
Lemma scalb_path : forall x fn n, word F x -> word F fn -> ~ is_nan F x -> finite F fn -> val F fn = n * one F ->
  scalb x fn = scalbn x (if 65000 <? n then 65000 else if n <? -65000 then -65000 else n).
Proof.
  intros x fn n W Wf Nx Ff E. unfold ieee_scalb.
  rewrite (proj2 (Hnan x W) Nx), (proj2 (Hnan fn Wf) (not_nan fn Ff)), (proj1 (Hfin fn Wf) Ff).
  change (1 =? 0) with false. change (0 =? 0) with true. cbn [negb orb].
  destruct (Hrint fn Wf Ff) as (m & Wr & Fr & Vr & U). rewrite (feq_val F Hmb Heb Hrange _ _ Wr Wf Fr Ff).
  rewrite Vr, E, (U n E), Z.eqb_refl. cbn [negb]. destruct Hk as (Wk & Fk & Vk). pose proof (one_pos F Hmb Heb Hrange) as O.
  destruct (fneg_fin F Hmb Heb Hrange fn Wf) as (Wn & _ & An).
  assert (Fn : finite F (fneg F fn)) by (unfold finite in *; lia).
  rewrite (flt_val F Hmb Heb Hrange k fn), (flt_val F Hmb Heb Hrange k (fneg F fn)) by assumption.
  rewrite (FloatProof.fneg_val F Hmb Heb Hrange fn Wf), Vk, E.
  assert ((65000 * one F <? n * one F) = (65000 <? n)) as ->.
  { destruct (Z.ltb_spec (65000 * one F) (n * one F)), (Z.ltb_spec 65000 n); try reflexivity; exfalso; clear - H H0 O; nia. }
  assert ((65000 * one F <? - (n * one F)) = (n <? -65000)) as ->.
  { destruct (Z.ltb_spec (65000 * one F) (- (n * one F))), (Z.ltb_spec n (-65000)); try reflexivity; exfalso; clear - H H0 O; nia. }
  unfold to_int. rewrite E, Z.quot_mul by (clear - O; lia).
  destruct (65000 <? n); [reflexivity|]. destruct (n <? -65000); reflexivity.
Qed.

Lemma scalb_integral : forall x fn n, word F x -> word F fn -> finite F x -> finite F fn -> val F fn = n * one F ->
  exists r, scalb x fn = Some r /\ scaled F x n r /\ (is_zero F x -> r = x).
Proof.
  intros x fn n W Wf Fx Ff E. rewrite (scalb_path x fn n W Wf (not_nan x Fx) Ff E).
  destruct (Z.ltb_spec 65000 n) as [L|L]; [|destruct (Z.ltb_spec n (-65000)) as [G|G]].
  - destruct (Hscalbn x 65000 W Fx ltac:(lia)) as (r & R & S & Z). exists r. split; [exact R|]. split; [|exact Z].
    destruct (Z.eq_dec (absw F x) 0) as [A|A].
    + rewrite (Z A). assert (V : val F x = 0).
      { rewrite (val_neg F Hmb Heb Hrange x W), A, (mag_0 F Hmb Heb Hrange). now destruct (neg F x). }
      unfold scaled. assert ((0 <=? n) = true) as -> by lia. rewrite V, Z.mul_0_l, (val_zero x W V). apply (zero_rounds F Hmb Heb Hrange). lia.
    + apply (scaled_far_up x 65000); try assumption; lia.
  - destruct (Hscalbn x (-65000) W Fx ltac:(lia)) as (r & R & S & Z). exists r. split; [exact R|]. split; [|exact Z].
    apply (scaled_far_down x 65000); try assumption; lia.
  - apply Hscalbn; [exact W|exact Fx|lia].
Qed.

Lemma scalb_inf : forall x fn n, word F x -> word F fn -> is_inf F x -> finite F fn -> val F fn = n * one F -> scalb x fn = Some x.
Proof.
  intros x fn n W Wf Ix Ff E. rewrite (scalb_path x fn n W Wf); [|unfold is_inf, is_nan in *; lia|exact Ff|exact E].
  now apply Hinf.
Qed.

Lemma scalb_fraction : forall x fn, word F x -> word F fn -> ~ is_nan F x -> finite F fn -> (forall n, val F fn <> n * one F) ->
  exists r, scalb x fn = Some r /\ is_nan F r.
Proof.
  intros x fn W Wf Nx Ff E. unfold ieee_scalb.
  rewrite (proj2 (Hnan x W) Nx), (proj2 (Hnan fn Wf) (not_nan fn Ff)), (proj1 (Hfin fn Wf) Ff).
  change (1 =? 0) with false. change (0 =? 0) with true. cbn [negb orb].
  destruct (Hrint fn Wf Ff) as (m & Wr & Fr & Vr & U). rewrite (feq_val F Hmb Heb Hrange _ _ Wr Wf Fr Ff).
  destruct (Z.eqb_spec (val F (rint fn)) (val F fn)) as [Q|Q]; [exfalso; apply (E m); congruence|]. cbn [negb].
  eexists. split; [reflexivity|]. rewrite (fsub_self F Hmb Heb Hrange fn Wf Ff). destruct word0 as (W0 & _).
  apply (fdiv_self_nan F Hmb Heb Hrange 0 W0). right. right. unfold is_zero, absw. apply Z.mod_0_l.
  pose proof (infw_lt F Hmb Heb Hrange). lia.
Qed.

Lemma scalb_nan : forall x fn, word F x -> word F fn -> is_nan F x \/ is_nan F fn -> exists r, scalb x fn = Some r /\ is_nan F r.
Proof.
  intros x fn W Wf H. unfold ieee_scalb.
  assert (negb (isnan x =? 0) || negb (isnan fn =? 0) = true) as ->.
  { destruct H as [H|H]; [pose proof (proj1 (Hnan x W) H)|pose proof (proj1 (Hnan fn Wf) H)].
    - destruct (Z.eqb_spec (isnan x) 0); [contradiction|reflexivity].
    - destruct (Z.eqb_spec (isnan fn) 0); [contradiction|]. apply orb_true_r. }
  eexists. split; [reflexivity|]. unfold fmul, nanb.
  destruct (Z.ltb_spec (infw F) (absw F x)) as [L|L]; [apply (quiet_nan F Hmb Heb Hrange x W); exact L|].
  destruct (Z.ltb_spec (infw F) (absw F fn)) as [L2|L2]; [apply (quiet_nan F Hmb Heb Hrange fn Wf); exact L2|].
  unfold is_nan in H. lia.
Qed.

Lemma scalb_infinite : forall x fn, word F x -> word F fn -> ~ is_nan F x -> is_inf F fn ->
  exists r, scalb x fn = Some r /\ word F r /\
  (neg F fn = false -> if absw F x =? 0 then is_nan F r else is_inf F r /\ neg F r = neg F x) /\
  (neg F fn = true -> if absw F x =? infw F then is_nan F r else is_zero F r /\ neg F r = neg F x).
Proof.
  intros x fn W Wf Nx If. unfold ieee_scalb. pose proof (infw_lt F Hmb Heb Hrange) as IL.
  assert (Nf : ~ is_nan F fn) by (unfold is_inf, is_nan in *; lia).
  rewrite (proj2 (Hnan x W) Nx), (proj2 (Hnan fn Wf) Nf), (proj2 (Hfin fn Wf)) by (unfold is_inf, finite in *; lia).
  change (0 =? 0) with true. cbn [negb orb]. destruct word0 as (W0 & F0 & V0).
  destruct (dnan_nan F Hmb Heb Hrange) as [DN DW].
  assert (B : forall y, ~ is_nan F y -> nanb F y = false) by (intros y Hy; unfold nanb, is_nan in *; lia).
  assert (K0 : key F 0 = 0).
  { unfold key, neg, absw. rewrite Z.mod_0_l by lia. destruct (sgnw F <=? 0); reflexivity. }
  unfold flt, ordered. rewrite (B 0 (not_nan 0 F0)), (B fn Nf), K0. cbn [negb andb]. unfold key.
  unfold is_inf in If. destruct (neg F fn) eqn:Sg; rewrite If.
  - assert ((0 <? - infw F) = false) as -> by lia. eexists. split; [reflexivity|].
    unfold fdiv. destruct (fneg_fin F Hmb Heb Hrange fn Wf) as (Wn & Sn & An). rewrite If in An. rewrite Sg in Sn.
    assert (Nn : ~ is_nan F (fneg F fn)) by (unfold is_nan; lia).
    rewrite (B x Nx), (B _ Nn). unfold infb. rewrite An, Z.eqb_refl, Sn. cbn [negb].
    destruct (absw F x =? infw F); [split; [exact DW|split; [discriminate|intros _; exact DN]]|].
    destruct (word_of F Hmb Heb Hrange (xorb (neg F x) false) 0 ltac:(lia)) as (W1 & N1 & A1). rewrite Z.add_0_r in W1, N1, A1.
    split; [exact W1|]. split; [discriminate|]. intros _. split; [exact A1|]. rewrite N1. apply xorb_false_r.
  - assert ((0 <? infw F) = true) as -> by lia. eexists. split; [reflexivity|].
    unfold fmul. rewrite (B x Nx), (B fn Nf). unfold infb. rewrite If, Z.eqb_refl, orb_true_r.
    assert ((infw F =? 0) = false) as -> by lia. rewrite orb_false_r.
    destruct (absw F x =? 0); [split; [exact DW|split; [intros _; exact DN|congruence]]|].
    rewrite Sg. destruct (word_of F Hmb Heb Hrange (xorb (neg F x) false) (infw F) ltac:(lia)) as (W1 & N1 & A1).
    split; [exact W1|]. split; [|congruence]. intros _. split; [exact A1|]. rewrite N1. apply xorb_false_r.
Qed.

End Code.
End Gen.
