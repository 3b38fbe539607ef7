(** The operations of Model/Float.v round correctly. *)
From Verif Require Import Model.Base Spec.Ieee Model.Float Proof.FloatProof.

(** Rounding a quotient to an integer. *)
Lemma quotient_nearest : forall n u, 0 <= n -> 0 < u ->
  let q := n / u in
  let r := n mod u in
  let q' := if (2 * r <? u) || ((2 * r =? u) && Z.even q) then q else q + 1 in
  (q' = q \/ q' = q + 1) /\
  (forall t, Z.abs (q' * u - n) <= Z.abs (t * u - n)) /\
  (forall t, Z.abs (q' * u - n) = Z.abs (t * u - n) -> t <> q' -> Z.even q' = true) /\
  (q' = q <-> (2 * r < u \/ (2 * r = u /\ Z.even q = true))).
Proof.
  intros n u Hn Hu q r q'.
  pose proof (Z.div_mod n u ltac:(lia)) as D. fold q r in D.
  pose proof (Z.mod_pos_bound n u Hu) as R. fold r in R.
  assert (far : forall t, t <= q - 1 \/ t = q \/ t = q + 1 \/ q + 2 <= t) by lia.
  assert (Q1 : Z.abs (q * u - n) = r) by lia.
  assert (Q2 : Z.abs ((q + 1) * u - n) = u - r) by lia.
  assert (L1 : forall t, t <= q - 1 -> u + r <= Z.abs (t * u - n)) by (intros; nia).
  assert (L2 : forall t, q + 2 <= t -> 2 * u - r <= Z.abs (t * u - n)) by (intros; nia).
  unfold q'. destruct (Z.ltb_spec (2 * r) u); cbn [orb].
  { split; [now left|]. split; [|split].
    - intros t. destruct (far t) as [T|[->|[->|T]]]; try lia; [specialize (L1 t T)|specialize (L2 t T)]; lia.
    - intros t E N. exfalso. destruct (far t) as [T|[->|[->|T]]]; try lia; [specialize (L1 t T)|specialize (L2 t T)]; lia.
    - intuition lia. }
  destruct (Z.eqb_spec (2 * r) u) as [T2|N2]; cbn [andb].
  - destruct (Z.even q) eqn:Ev.
    + split; [now left|]. split; [|split].
      * intros t. destruct (far t) as [T|[->|[->|T]]]; try lia; [specialize (L1 t T)|specialize (L2 t T)]; lia.
      * intros; exact Ev.
      * intuition lia.
    + split; [now right|]. split; [|split].
      * intros t. destruct (far t) as [T|[->|[->|T]]]; try lia; [specialize (L1 t T)|specialize (L2 t T)]; lia.
      * intros. rewrite Z.even_add, Ev. reflexivity.
      * split; [intros; lia|]. intros [?|[? ?]]; [lia|discriminate].
  - split; [now right|]. split; [|split].
    + intros t. destruct (far t) as [T|[->|[->|T]]]; try lia; [specialize (L1 t T)|specialize (L2 t T)]; lia.
    + intros t E N. exfalso. destruct (far t) as [T|[->|[->|T]]]; try lia; [specialize (L1 t T)|specialize (L2 t T)]; lia.
    + split; intros; lia.
Qed.

Section Format.
Variable F : fmt.
Hypothesis Hmb : 1 <= mb F.
Hypothesis Heb : 3 <= eb F.
Hypothesis Hrange : mb F + 2 <= bias F.
Set Default Proof Using "All".
Notation M := (2 ^ mb F).

Lemma rnd_mag : forall s n d, 0 <= n -> 0 < d ->
  exists k q' a, 0 <= k /\ rnd F s n d = sbit F s + (if infw F <=? a then infw F else a) /\
    a = k * M + q' /\ 0 <= a /\ mag F a = q' * 2 ^ k /\
    (forall t, Z.abs (q' * (d * 2 ^ k) - n) <= Z.abs (t * (d * 2 ^ k) - n)) /\
    (forall t, Z.abs (q' * (d * 2 ^ k) - n) = Z.abs (t * (d * 2 ^ k) - n) -> t <> q' -> Z.even q' = true) /\
    (k = 0 \/ M * 2 ^ k * d <= n) /\ (a < infw F <-> n < limit F * d).
Proof.
  intros s n d Hn Hd. pose proof (M_pos F Hmb Heb Hrange) as HM.
  set (k := Z.max 0 (Z.log2 (n / d) - mb F)).
  pose proof (p2 k ltac:(lia)) as Pk.
  set (u := d * 2 ^ k). assert (Hu : 0 < u) by (unfold u; nia).
  destruct (quotient_nearest n u Hn Hu) as (Q1 & Q2 & Q3 & Q4).
  set (q := n / u) in *. set (r := n mod u) in *.
  set (q' := if (2 * r <? u) || ((2 * r =? u) && Z.even q) then q else q + 1) in *.
  pose proof (Z.div_mod n u ltac:(lia)) as Dn. fold q r in Dn.
  pose proof (Z.mod_pos_bound n u Hu) as Rn. fold r in Rn.
  pose proof (Z.div_mod n d ltac:(lia)) as Dd.
  pose proof (Z.mod_pos_bound n d Hd) as Rd.
  (* the range of the quotient *)
  assert (Up : n < 2 * M * u).
  { assert (n / d < 2 * M * 2 ^ k); [|unfold u; nia].
    destruct (Z_lt_le_dec 0 (n / d)) as [P|P].
    - pose proof (Z.log2_spec _ P) as [_ L]. pose proof (Z.log2_nonneg (n / d)).
      pose proof (p2_le (Z.succ (Z.log2 (n / d))) (1 + mb F + k) ltac:(lia) ltac:(unfold k; lia)) as L2.
      rewrite !p2_split in L2 by lia. change (2 ^ 1) with 2 in L2. lia.
    - nia. }
  assert (Lo : k = 0 \/ M * 2 ^ k * d <= n).
  { destruct (Z.eq_dec k 0) as [K|K]; [now left|right].
    assert (P : 0 < n / d).
    { destruct (Z_lt_le_dec 0 (n / d)) as [P|P]; [exact P|]. exfalso. apply K. unfold k.
      rewrite Z.log2_nonpos by lia. lia. }
    pose proof (Z.log2_spec _ P) as [L _].
    assert (E : Z.log2 (n / d) = mb F + k) by (unfold k in *; lia). rewrite E, p2_split in L by lia.
    nia. }
  assert (Qu : 0 <= q <= 2 * M - 1).
  { unfold q. split; [apply Z.div_pos; lia|].
    assert (n / u < 2 * M) by (apply Z.div_lt_upper_bound; lia). lia. }
  assert (Ql : k <> 0 -> M <= q).
  { intros K. unfold q. apply Z.div_le_lower_bound; [lia|]. destruct Lo as [?|L]; [lia|]. unfold u. lia. }
  exists k, q', (k * M + q'). split; [lia|]. split; [reflexivity|]. split; [reflexivity|].
  split; [nia|].
  assert (Mg : mag F (k * M + q') = q' * 2 ^ k).
  { destruct (Z.eq_dec q' (2 * M)) as [T|T].
    - rewrite T. replace (k * M + 2 * M) with ((k + 2) * M + 0) by lia.
      rewrite (mag_fields F Hmb Heb Hrange) by lia.
      replace (k + 2 - 1) with (1 + k) by lia. rewrite p2_split by lia. change (2 ^ 1) with 2. lia.
    - destruct (Z.eq_dec k 0) as [K|K].
      + rewrite K. change (2 ^ 0) with 1. rewrite Z.mul_1_r. apply (mag_small F Hmb Heb Hrange). lia.
      + specialize (Ql K). replace (k * M + q') with ((k + 1) * M + (q' - M)) by lia.
        rewrite (mag_fields F Hmb Heb Hrange) by lia.
        replace (k + 1 - 1) with k by lia. lia. }
  split; [exact Mg|]. split; [exact Q2|]. split; [exact Q3|]. split; [exact Lo|].
  (* the limit *)
  unfold limit, infw. set (K := 2 ^ eb F - 3).
  assert (HK : 2 <= K).
  { pose proof (p2_le 3 (eb F) ltac:(lia) ltac:(lia)) as X. change (2 ^ 3) with 8 in X. unfold K. lia. }
  replace (2 ^ eb F - 1) with (K + 2) by (unfold K; lia).
  replace (2 ^ eb F - 4) with (K - 1) by (unfold K; lia).
  replace (mb F + 2) with (2 + mb F) by lia. rewrite (p2_split 2) by lia. change (2 ^ 2) with 4.
  pose proof (p2 (K - 1) ltac:(lia)) as PK.
  destruct (Z.lt_trichotomy k K) as [L|[E|L]].
  - split; [intros _|nia].
    pose proof (p2_le k (K - 1) ltac:(lia) ltac:(lia)) as X.
    apply Z.lt_le_trans with (1 := Up). unfold u.
    assert (d * 2 ^ k <= d * 2 ^ (K - 1)) by nia.
    assert (2 * M * (d * 2 ^ k) <= 2 * M * (d * 2 ^ (K - 1))) by nia.
    assert (2 * M * (d * 2 ^ (K - 1)) <= (4 * M - 1) * (d * 2 ^ (K - 1))) by nia. lia.
  - assert (Eu : u = 2 * (d * 2 ^ (K - 1))).
    { unfold u. rewrite E. replace K with (1 + (K - 1)) at 1 by lia. rewrite p2_split by lia.
      change (2 ^ 1) with 2. lia. }
    rewrite E. replace ((4 * M - 1) * 2 ^ (K - 1) * d) with ((4 * M - 1) * (d * 2 ^ (K - 1))) by lia.
    set (h := d * 2 ^ (K - 1)) in *. clearbody h.
    assert (S1 : K * M + q' < (K + 2) * M <-> q' < 2 * M) by lia. rewrite S1.
    assert (q <= 2 * M - 2 \/ q = 2 * M - 1) as [S|S] by lia.
    + split; intros _; [|lia]. nia.
    + assert (Od : Z.even q = false).
      { rewrite S. replace (mb F) with (1 + (mb F - 1)) by lia. rewrite p2_split by lia.
        change (2 ^ 1) with 2.
        replace (2 * (2 * 2 ^ (mb F - 1)) - 1) with (1 + 2 * (2 * 2 ^ (mb F - 1) - 1)) by lia.
        rewrite Z.even_add_mul_2. reflexivity. }
      assert (q' < 2 * M <-> q' = q) as -> by lia. rewrite Q4, Od.
      rewrite Dn, S, Eu. split; [intros [?|[_ ?]]; [lia|discriminate]|]. intros. left. lia.
  - split; [nia|]. intros X. exfalso.
    destruct Lo as [?|Lo]; [lia|].
    pose proof (p2_le (2 + (K - 1)) k ltac:(lia) ltac:(lia)) as Y. rewrite p2_split in Y by lia.
    change (2 ^ 2) with 4 in Y.
    assert (d * (4 * 2 ^ (K - 1)) <= d * 2 ^ k) by nia.
    assert (M * (d * (4 * 2 ^ (K - 1))) <= M * (d * 2 ^ k)) by nia. nia.
Qed.

(** A finite value is on the grid or farther away than a point of the grid. *)
Lemma grid : forall n d k V v, 0 <= n -> 0 < d -> 0 <= k -> (k = 0 \/ M * 2 ^ k * d <= n) ->
  word F v -> finite F v -> val F v = V ->
  exists t, V = t * 2 ^ k \/ Z.abs (t * (d * 2 ^ k) - n) < Z.abs (V * d - n).
Proof.
  intros n d k V v Hn Hd Hk Lo Wv Fv <-.
  pose proof (M_pos F Hmb Heb Hrange) as HM. pose proof (p2 k Hk) as Pk.
  destruct (word_split F Hmb Heb Hrange v Wv) as [_ B].
  pose proof (mag_nonneg F Hmb Heb Hrange (absw F v) ltac:(lia)) as G.
  rewrite (val_neg F Hmb Heb Hrange v Wv).
  destruct (neg F v); cbn [sgn_of].
  - destruct (Z.eq_dec (mag F (absw F v)) 0) as [Z|N].
    + exists 0. left. lia.
    + exists 0. right. nia.
  - destruct Lo as [->|Lo].
    + exists (mag F (absw F v)). left. change (2 ^ 0) with 1. lia.
    + destruct (Z_lt_le_dec (mag F (absw F v)) (M * 2 ^ k)) as [L|L].
      * exists M. right. nia.
      * destruct (Z_lt_le_dec (absw F v) ((k + 1) * M + 0)) as [A|A].
        { apply (mag_mono F Hmb Heb Hrange) in A; [|lia].
          rewrite (mag_fields F Hmb Heb Hrange) in A by lia. replace (k + 1 - 1) with k in A by lia. lia. }
        assert (E : k + 1 <= absw F v / M) by (apply Z.div_le_lower_bound; lia).
        rewrite (mag_large F Hmb Heb Hrange) by lia.
        exists ((M + absw F v mod M) * 2 ^ (absw F v / M - 1 - k)). left.
        rewrite <- Z.mul_assoc, <- p2_split by lia. do 2 f_equal. lia.
Qed.

Lemma even_word : forall k q, Z.even q = true -> Z.Even (k * M + q).
Proof.
  intros k q E. apply Z.even_spec in E. destruct E as [c ->].
  exists (k * 2 ^ (mb F - 1) + c). replace (mb F) with (1 + (mb F - 1)) at 1 by lia.
  rewrite p2_split by lia. change (2 ^ 1) with 2. lia.
Qed.

(** The result of [rnd] is the nearest number, even in a tie, infinity from the limit on. *)
Theorem rnd_rounds : forall s n d, 0 <= n -> 0 < d ->
  rounds F (sgn_of s n) d (rnd F s n d) /\ neg F (rnd F s n d) = s.
Proof.
  intros s n d Hn Hd.
  destruct (rnd_mag s n d Hn Hd) as (k & q & a & Hk & E & Ea & Pa & Mg & N1 & N2 & Lo & Lim).
  pose proof (infw_lt F Hmb Heb Hrange) as IL. pose proof (infw_big F Hmb Heb Hrange) as IB.
  pose proof (M_pos F Hmb Heb Hrange) as HM.
  assert (Sg : Z.abs (sgn_of s n) = n) by (destruct s; cbn [sgn_of]; lia).
  unfold rounds. rewrite Sg, E.
  destruct (Z.leb_spec (infw F) a) as [Big|Fin].
  - destruct (word_of F Hmb Heb Hrange s (infw F) ltac:(lia)) as (W & N & A).
    split; [|exact N].
    split; [exact W|]. rewrite N.
    split; [destruct s; cbn [sgn_of]; [reflexivity|lia]|].
    split; [destruct s; cbn [sgn_of]; [lia|reflexivity]|].
    replace (n <? limit F * d) with false by (symmetry; apply Z.ltb_ge; lia). exact A.
  - destruct (word_of F Hmb Heb Hrange s a ltac:(lia)) as (W & N & A).
    split; [|exact N].
    split; [exact W|]. rewrite N.
    split; [destruct s; cbn [sgn_of]; [reflexivity|lia]|].
    split; [destruct s; cbn [sgn_of]; [lia|reflexivity]|].
    replace (n <? limit F * d) with true by (symmetry; apply Z.ltb_lt; lia).
    split; [unfold finite; lia|].
    rewrite (val_neg F Hmb Heb Hrange _ W), N, A, Mg.
    (* for negative results look at the opposite values *)
    assert (Opp : forall v, word F v -> finite F v -> exists v', word F v' /\ finite F v' /\
              sgn_of s (val F v') = val F v).
    { intros v Wv Fv. destruct s.
      - exists (fneg F v). destruct (fneg_fin F Hmb Heb Hrange v Wv) as (W' & _ & A').
        split; [exact W'|]. split; [unfold finite in *; now rewrite A'|].
        cbn [sgn_of]. rewrite (fneg_val F Hmb Heb Hrange v Wv). lia.
      - exists v. auto. }
    assert (Ab : forall x, Z.abs (sgn_of s x * d - sgn_of s n) = Z.abs (x * d - n)).
    { intros x. destruct s; cbn [sgn_of]; lia. }
    rewrite Ab. replace (q * 2 ^ k * d) with (q * (d * 2 ^ k)) by lia.
    split.
    + intros v Wv Fv. destruct (Opp v Wv Fv) as (v' & Wv' & Fv' & Ev). rewrite <- Ev, Ab.
      destruct (grid n d k _ v' Hn Hd Hk Lo Wv' Fv' eq_refl) as (t & [T|T]).
      * rewrite T. replace (t * 2 ^ k * d) with (t * (d * 2 ^ k)) by lia. apply N1.
      * specialize (N1 t). lia.
    + intros v Wv Fv Eq Ne. destruct (Opp v Wv Fv) as (v' & Wv' & Fv' & Ev). rewrite <- Ev in *.
      rewrite Ab in Eq.
      destruct (grid n d k _ v' Hn Hd Hk Lo Wv' Fv' eq_refl) as (t & [T|T]).
      * rewrite T in *. replace (t * 2 ^ k * d) with (t * (d * 2 ^ k)) in Eq by lia.
        rewrite Ea. apply even_word. apply (N2 t Eq). intros ->. apply Ne. destruct s; reflexivity.
      * specialize (N1 t). lia.
Qed.

Lemma zero_rounds : forall s d, 0 < d -> rounds F 0 d (sbit F s).
Proof.
  intros s d Hd. pose proof (infw_big F Hmb Heb Hrange) as IB. pose proof (infw_lt F Hmb Heb Hrange) as IL.
  pose proof (M_pos F Hmb Heb Hrange) as HM.
  pose proof (rnd_rounds s 0 d ltac:(lia) Hd) as [R _].
  replace (sgn_of s 0) with 0 in R by (destruct s; reflexivity).
  rewrite (rnd_exact F Hmb Heb Hrange s 0 d 0) in R.
  - now rewrite Z.add_0_r in R.
  - exact Hd.
  - lia.
  - now rewrite (mag_0 F Hmb Heb Hrange).
Qed.

(** Addition, subtraction, multiplication and division of finite numbers. *)
Theorem fadd_rounds : forall x y, word F x -> word F y -> finite F x -> finite F y ->
  rounds F (val F x + val F y) 1 (fadd F x y).
Proof.
  intros x y Wx Wy Fx Fy. rewrite (fadd_finite F Hmb Heb Hrange) by assumption.
  destruct (Z.eqb_spec (val F x + val F y) 0) as [Z|N].
  - rewrite Z. apply zero_rounds. lia.
  - pose proof (rnd_rounds (val F x + val F y <? 0) (Z.abs (val F x + val F y)) 1 ltac:(lia) ltac:(lia)) as [R _].
    replace (sgn_of _ _) with (val F x + val F y) in R; [exact R|].
    destruct (Z.ltb_spec (val F x + val F y) 0); cbn [sgn_of]; lia.
Qed.

Theorem fsub_rounds : forall x y, word F x -> word F y -> finite F x -> finite F y ->
  rounds F (val F x - val F y) 1 (fsub F x y).
Proof.
  intros x y Wx Wy Fx Fy.
  destruct (fsub_finite F Hmb Heb Hrange x y Wy Fx Fy) as [-> Fn].
  destruct (fneg_fin F Hmb Heb Hrange y Wy) as (Wn & _ & _).
  pose proof (fadd_rounds x (fneg F y) Wx Wn Fx Fn) as R.
  rewrite (fneg_val F Hmb Heb Hrange y Wy) in R. now rewrite Z.add_opp_r in R.
Qed.

Lemma finite_tests : forall x, finite F x -> nanb F x = false /\ infb F x = false.
Proof.
  intros x H. unfold nanb, infb, finite in *. split; [apply Z.ltb_ge; lia|apply Z.eqb_neq; lia].
Qed.

Theorem fmul_rounds : forall x y, word F x -> word F y -> finite F x -> finite F y ->
  rounds F (val F x * val F y) (one F) (fmul F x y).
Proof.
  intros x y Wx Wy Fx Fy. unfold fmul.
  destruct (finite_tests x Fx) as [-> ->]. destruct (finite_tests y Fy) as [-> ->]. cbn [orb].
  destruct (word_split F Hmb Heb Hrange x Wx) as [_ Bx]. destruct (word_split F Hmb Heb Hrange y Wy) as [_ By].
  pose proof (mag_nonneg F Hmb Heb Hrange (absw F x) ltac:(lia)) as Gx.
  pose proof (mag_nonneg F Hmb Heb Hrange (absw F y) ltac:(lia)) as Gy.
  pose proof (one_pos F Hmb Heb Hrange) as O.
  pose proof (rnd_rounds (xorb (neg F x) (neg F y)) (mag F (absw F x) * mag F (absw F y)) (one F)
    ltac:(nia) O) as [R _].
  replace (val F x * val F y) with (sgn_of (xorb (neg F x) (neg F y)) (mag F (absw F x) * mag F (absw F y))); [exact R|].
  unfold val. destruct (neg F x), (neg F y); cbn [xorb sgn_of]; lia.
Qed.

Theorem fdiv_rounds : forall x y, word F x -> word F y -> finite F x -> finite F y -> val F y <> 0 ->
  rounds F (val F x * one F * Z.sgn (val F y)) (Z.abs (val F y)) (fdiv F x y).
Proof.
  intros x y Wx Wy Fx Fy Ny. unfold fdiv.
  destruct (finite_tests x Fx) as [-> ->]. destruct (finite_tests y Fy) as [-> ->].
  destruct (word_split F Hmb Heb Hrange x Wx) as [_ Bx]. destruct (word_split F Hmb Heb Hrange y Wy) as [_ By].
  pose proof (mag_nonneg F Hmb Heb Hrange (absw F x) ltac:(lia)) as Gx.
  pose proof (mag_nonneg F Hmb Heb Hrange (absw F y) ltac:(lia)) as Gy.
  pose proof (one_pos F Hmb Heb Hrange) as O.
  assert (Py : 0 < mag F (absw F y)) by (unfold val in Ny; destruct (neg F y); lia).
  assert (absw F y =? 0 = false) as ->.
  { apply Z.eqb_neq. intros E. rewrite E, (mag_0 F Hmb Heb Hrange) in Py. lia. }
  pose proof (rnd_rounds (xorb (neg F x) (neg F y)) (mag F (absw F x) * one F) (mag F (absw F y))
    ltac:(nia) Py) as [R _].
  replace (Z.abs (val F y)) with (mag F (absw F y)) by (unfold val; destruct (neg F y); lia).
  replace (val F x * one F * Z.sgn (val F y))
    with (sgn_of (xorb (neg F x) (neg F y)) (mag F (absw F x) * one F)); [exact R|].
  assert (Sy : Z.sgn (val F y) = if neg F y then -1 else 1).
  { unfold val. destruct (neg F y); [apply Z.sgn_neg|apply Z.sgn_pos]; lia. }
  rewrite Sy. unfold val. destruct (neg F x), (neg F y); cbn [xorb sgn_of]; lia.
Qed.

End Format.
