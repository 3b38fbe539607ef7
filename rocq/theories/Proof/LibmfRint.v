(** rintf and roundf, and the arguments that are not finite. *)
From Verif Require Import Model.Base Spec.Ieee Spec.LibmSpec Model.Float Model.Libm
  Proof.Tac Proof.FloatProof Proof.LibmfProof.

Lemma lor_disjoint : forall c t y, 0 <= t -> 0 <= y < 2 ^ t -> Z.lor (c * 2 ^ t) y = c * 2 ^ t + y.
Proof.
  intros c t y Ht Hy.
  assert (L : Z.land (c * 2 ^ t) y = 0).
  { apply Z.bits_inj'. intros i Hi. rewrite Z.land_spec, Z.bits_0.
    destruct (Z_lt_le_dec i t).
    - rewrite Z.mul_pow2_bits_low by lia. reflexivity.
    - rewrite <- (Z.mod_small y (2 ^ t)) by lia. rewrite (Z.mod_pow2_bits_high y t i) by lia.
      apply andb_false_r. }
  rewrite <- Z.lxor_lor by exact L. symmetry. now apply Z.add_nocarry_lxor.
Qed.

Lemma nonneg_high : forall x n i, 0 <= x < 2 ^ n -> 0 <= n <= i -> Z.testbit x i = false.
Proof.
  intros x n i Hx Hi. rewrite <- (Z.mod_small x (2 ^ n)) by lia.
  apply Z.mod_pow2_bits_high. lia.
Qed.

(** The highest bit of [x | -x] tells whether the word is 0. *)
Lemma or_neg : forall x, 0 <= x < 2 ^ 32 ->
  Z.testbit (Z.lor x (u32 (- x))) 31 = negb (x =? 0).
Proof.
  intros x Hx. rewrite Z.lor_spec. change (2 ^ 32) with 4294967296 in Hx.
  destruct (Z.eqb_spec x 0) as [->|N]; [reflexivity|]. cbn [negb].
  assert (T : forall y, 0 <= y < 4294967296 -> Z.testbit y 31 = (2147483648 <=? y)).
  { intros y Hy. destruct (Z.leb_spec 2147483648 y).
    - rewrite Z.testbit_true by lia. change (2 ^ 31) with 2147483648.
      replace (y / 2147483648) with 1 by lia. reflexivity.
    - apply (nonneg_high y 31); [change (2 ^ 31) with 2147483648; lia|lia]. }
  unfold u32. change (2 ^ 32) with 4294967296.
  replace (- x mod 4294967296) with (4294967296 - x) by lia.
  rewrite !T by lia. apply orb_true_iff. lia.
Qed.

Lemma land_pow2 : forall x n, 0 <= n -> Z.land x (2 ^ n) = if Z.testbit x n then 2 ^ n else 0.
Proof.
  intros x n H. apply Z.bits_inj'. intros i Hi. rewrite Z.land_spec.
  destruct (Z.eq_dec i n) as [->|].
  - rewrite Z.pow2_bits_true, andb_true_r by lia.
    destruct (Z.testbit x n); [now rewrite Z.pow2_bits_true by lia|now rewrite Z.bits_0].
  - rewrite Z.pow2_bits_false, andb_false_r by lia.
    destruct (Z.testbit x n); [now rewrite Z.pow2_bits_false by lia|now rewrite Z.bits_0].
Qed.

Lemma sticky_bit : forall x n, 0 <= x < 2 ^ 32 -> 0 <= n <= 31 ->
  Z.land (Z.shiftr (Z.lor x (u32 (- x))) (31 - n)) (2 ^ n) = if x =? 0 then 0 else 2 ^ n.
Proof.
  intros x n Hx Hn. rewrite land_pow2 by lia. rewrite Z.shiftr_spec by lia.
  replace (n + (31 - n)) with 31 by lia. rewrite or_neg by exact Hx.
  now destruct (x =? 0).
Qed.

Lemma s_two23 : forall s : bool, f_TWO23 (if s then 1 else 0) = two_mb single s.
Proof. intros [|]; reflexivity. Qed.

Lemma s_sx : forall w, word single w ->
  Z.land (Z.shiftr (get_float w) 31) 1 = if neg single w then 1 else 0.
Proof.
  intros w W. rewrite Z.shiftr_div_pow2 by lia. change 1 with (2 ^ 1 - 1) at 1.
  rewrite land_low by lia. change (2 ^ 31) with 2147483648. change (2 ^ 1) with 2.
  rewrite (s_get w W). destruct (s_split w W) as [_ B].
  destruct (neg single w); lia.
Qed.

(** The steps of rintf after the sticky bit has been set (lines 58-62). *)
Lemma rintf_small_end : forall t (s : bool), word single t ->
  set_float (Z.lor (Z.land (get_float t) 2147483647)
    (s32 (Z.shiftl (if s then 1 else 0) 31))) = sbit single s + absw single t.
Proof.
  intros t s W. rewrite (s_land_abs t W). destruct (s_split t W) as [_ B].
  destruct s.
  - change (s32 (Z.shiftl 1 31)) with ((-1) * 2 ^ 31).
    rewrite Z.lor_comm, lor_disjoint by (change (2 ^ 31) with 2147483648; lia).
    unfold set_float, u32. rewrite s_sbit.
    replace ((-1) * 2 ^ 31 + absw single t) with (2147483648 + absw single t + (-1) * 2 ^ 32) by
      (change (2 ^ 31) with 2147483648; change (2 ^ 32) with 4294967296; lia).
    rewrite Z.mod_add by (compute; discriminate).
    apply Z.mod_small. change (2 ^ 32) with 4294967296. lia.
  - change (s32 (Z.shiftl 0 31)) with 0. rewrite Z.lor_0_r. unfold set_float. rewrite s_sbit.
    rewrite u32_id by (change (2 ^ 32) with 4294967296; lia). reflexivity.
Qed.

(** The number handed to the additions when |x| < 1 (lines 53-56). *)
Lemma rintf_small_word : forall w, word single w -> absw single w < 127 * 8388608 ->
  exists b,
    set_float (s32 (Z.lor (u32 (s32 (Z.land (u32 (get_float w)) 4293918720)))
      (Z.land (Z.shiftr (Z.lor (u32 (Z.land (get_float w) 8388607))
                               (u32 (- u32 (Z.land (get_float w) 8388607)))) 9) 4194304)))
    = sbit single (neg single w) + b /\
    0 <= b < 127 * 8388608 /\ b / 8388608 = absw single w / 8388608 /\
    (b mod 8388608 = 0 <-> absw single w mod 8388608 = 0).
Proof.
  intros w W L. destruct (s_split w W) as [E B].
  pose proof (proj1 (s_word w) W) as W'.
  rewrite (s_get_u32 w W). change 4293918720 with (not32 (2 ^ 20 - 1)).
  rewrite land_high by (assumption || lia). unfold set_float. rewrite !u32_s32.
  assert (I1 : Z.land (get_float w) 8388607 = absw single w mod 8388608).
  { change 8388607 with (2 ^ 23 - 1). rewrite land_low by lia. change (2 ^ 23) with 8388608.
    rewrite (s_get w W). destruct (neg single w); lia. }
  rewrite I1. set (m := absw single w mod 8388608).
  assert (Hm : 0 <= m < 8388608) by (unfold m; lia).
  rewrite (u32_id m) by (change (2 ^ 32) with 4294967296; lia).
  change 9 with (31 - 22). change 4194304 with (2 ^ 22).
  rewrite sticky_bit by (change (2 ^ 32) with 4294967296; lia).
  change (2 ^ 32) with 4294967296 in W'. change (2 ^ 20) with 1048576.
  rewrite (u32_id (w - w mod 1048576)) by (change (2 ^ 32) with 4294967296; lia).
  set (a := absw single w) in *.
  assert (Wm : w mod 1048576 = a mod 1048576).
  { change 1048576 with (2 ^ 20). apply s_mod; [exact W|lia]. }
  destruct (Z.eqb_spec m 0) as [Z|N].
  - exists a. rewrite Z.lor_0_r.
    assert (a mod 1048576 = 0) by (unfold m in Z; lia).
    rewrite u32_id by (change (2 ^ 32) with 4294967296; lia). split; [lia|]. split; [lia|].
    split; [reflexivity|]. tauto.
  - set (c := a / 8388608). set (h := m / 1048576).
    assert (Hh : 0 <= h < 8) by (unfold h; lia).
    assert (Hc : a = c * 8388608 + m) by (unfold c, m; lia).
    (* the three highest fraction bits with the sticky bit *)
    assert (X : exists h', Z.lor h 4 = h' /\ 4 <= h' < 8).
    { eexists. split; [reflexivity|].
      assert (h = 0 \/ h = 1 \/ h = 2 \/ h = 3 \/ h = 4 \/ h = 5 \/ h = 6 \/ h = 7) as D by lia.
      clear - D. destruct D as [->|[->|[->|[->|[->|[->|[->| ->]]]]]]]; compute; split; congruence. }
    destruct X as (h' & X1 & X2).
    assert (Y : w - w mod 1048576 = ((w / 8388608) * 8 + h) * 2 ^ 20).
    { change (2 ^ 20) with 1048576. rewrite Wm.
      assert (w / 8388608 * 8388608 = w - m).
      { rewrite E. rewrite s_sbit. unfold m, a. destruct (neg single w); lia. }
      unfold h. assert (a mod 1048576 = m mod 1048576) by lia. lia. }
    assert (V : Z.lor (w - w mod 1048576) (2 ^ 22) = (w / 8388608 * 8 + h') * 2 ^ 20).
    { rewrite Y. change (2 ^ 22) with (4 * 2 ^ 20).
      rewrite <- !Z.shiftl_mul_pow2 by lia. rewrite <- Z.shiftl_lor. f_equal.
      change 8 with (2 ^ 3). rewrite <- lor_disjoint by (change (2 ^ 3) with 8; lia).
      rewrite <- Z.lor_assoc, X1. apply lor_disjoint; change (2 ^ 3) with 8; lia. }
    rewrite V. change (2 ^ 20) with 1048576.
    assert (w / 8388608 * 8388608 = w - m).
    { rewrite E. rewrite s_sbit. unfold m, a. destruct (neg single w); lia. }
    assert (HU : 0 <= (w / 8388608 * 8 + h') * 1048576 < 4294967296) by (rewrite s_sbit in E; destruct (neg single w); lia).
    rewrite u32_id by (change (2 ^ 32) with 4294967296; exact HU).
    exists (c * 8388608 + h' * 1048576). split; [lia|]. split; [lia|]. split; [lia|]. lia.
Qed.

(** The number handed to the additions otherwise (lines 68-70); at exponent 21
    the sticky bit is shifted out. *)
Lemma rintf_mid_word : forall w j, word single w -> absw single w / 8388608 - 127 = j ->
  0 <= j < 23 ->
  let k := 23 - j in
  let a := absw single w in
  let low := a mod 2 ^ (k - 1) in
  set_float (if negb (Z.land (u32 (get_float w)) (Z.shiftr (f_mask j) 1) =? 0)
             then s32 (Z.lor (Z.land (u32 (get_float w)) (not32 (Z.shiftr (f_mask j) 1)))
                             (Z.shiftr 1048576 j))
             else get_float w) =
  sbit single (neg single w) + (a - low + if low =? 0 then 0 else Z.shiftr 1048576 j).
Proof.
  intros w j W Dj Hj k a low. destruct (s_split w W) as [E B]. fold a in E, B.
  pose proof (proj1 (s_word w) W) as W'.
  rewrite (s_get_u32 w W), s_mask by lia. fold k.
  assert (Z.shiftr (2 ^ k - 1) 1 = 2 ^ (k - 1) - 1) as ->.
  { apply shiftr_ones. unfold k. lia. }
  rewrite land_low, land_high by (assumption || (unfold k; lia)).
  rewrite s_mod by (assumption || (unfold k; lia)). fold a. fold low.
  pose proof (p2 (k - 1) ltac:(unfold k; lia)) as P.
  assert (0 <= low < 2 ^ (k - 1)) by (apply Z.mod_pos_bound; exact P).
  assert (low <= a) by (apply Z.mod_le; lia).
  assert (SB : 0 <= sbit single (neg single w)) by (rewrite s_sbit; destruct (neg single w); lia).
  destruct (Z.eqb_spec low 0) as [Z|N]; cbn [negb].
  - unfold set_float. rewrite (s_get_u32 w W). lia.
  - unfold set_float. rewrite u32_s32.
    assert (Y : 0 <= Z.shiftr 1048576 j < 2 ^ (k - 1)).
    { rewrite Z.shiftr_div_pow2 by lia. pose proof (p2 j ltac:(lia)). split.
      - apply Z.div_pos; lia.
      - apply Z.div_lt_upper_bound; [lia|]. rewrite <- p2_split by (unfold k; lia).
        replace (j + (k - 1)) with 22 by (unfold k; lia). reflexivity. }
    assert (WL : w mod 2 ^ (k - 1) = low) by (rewrite s_mod by (assumption || (unfold k; lia)); reflexivity).
    pose proof (Z.div_mod w (2 ^ (k - 1)) ltac:(lia)) as DM. rewrite WL in DM.
    replace (w - low) with (w / 2 ^ (k - 1) * 2 ^ (k - 1)) by lia.
    rewrite lor_disjoint by (lia || (unfold k; lia)).
    rewrite u32_id; [lia|].
    assert (w / 2 ^ (k - 1) * 2 ^ (k - 1) + 2 ^ (k - 1) <= 2 ^ 32); [|lia].
    replace 32 with (33 - k + (k - 1)) at 1 by lia. rewrite p2_split by (unfold k; lia).
    assert (w / 2 ^ (k - 1) < 2 ^ (33 - k)).
    { apply Z.div_lt_upper_bound; [lia|]. rewrite <- p2_split by (unfold k; lia).
      replace (k - 1 + (33 - k)) with 32 by lia. lia. }
    pose proof (p2 (33 - k) ltac:(unfold k; lia)). nia.
Qed.

Lemma s_H1 : mag single (126 * 8388608) * 2 = one single.
Proof. vm_compute. reflexivity. Qed.

Lemma s_H2 : mag single (150 * 8388608) = 8388608 * one single.
Proof. vm_compute. reflexivity. Qed.

(** A result of the final subtraction. *)
Lemma s_unit : forall w, word single w -> w = sbit single (neg single w) + absw single w.
Proof. intros w W. now apply s_split. Qed.

Lemma s_finite_abs : forall w, word single w -> finite single w -> 0 <= absw single w < infw single.
Proof. intros w W Fw. destruct (s_split w W). unfold finite in Fw. lia. Qed.

Lemma s_built : forall s b, 0 <= b < 2139095040 ->
  word single (sbit single s + b) /\ finite single (sbit single s + b) /\
  neg single (sbit single s + b) = s /\ absw single (sbit single s + b) = b.
Proof.
  intros s b H. assert (b < sgnw single) by (rewrite s_sgnw; lia).
  destruct (word_of single s_mb s_eb s_range s b ltac:(lia)) as (A1 & A2 & A3).
  repeat split; try assumption; try apply A1.
  apply (finite_of single s_mb s_eb s_range). rewrite s_infw. lia.
Qed.

(** Where rintf goes wrong: |x| between 2^21 and 2^22, x three quarters above an
    even number (in magnitude). *)
Definition rintf_bad (w : Z) : Prop :=
  absw single w / 8388608 = 148 /\ absw single w mod 8 = 3.

Lemma rintf_small : forall a b n, 0 <= b < 127 * 8388608 -> 0 <= a < 127 * 8388608 ->
  b / 8388608 = a / 8388608 -> (b mod 8388608 = 0 <-> a mod 8388608 = 0) ->
  nearest_even single (mag single b) n -> nearest_even single (mag single a) n.
Proof.
  intros a b n Hb Ha E1 E2 NE.
  pose proof (one_pos single s_mb s_eb s_range) as O.
  assert (L : forall c, 0 <= c < 127 * 8388608 -> 0 <= mag single c < one single).
  { intros c Hc. split; [apply (mag_nonneg single s_mb s_eb s_range); lia|].
    apply (mag_below_one single s_mb s_eb s_range); [lia|].
    cbn [mb single]. change (2 ^ 23) with 8388608. change (bias single) with 127. lia. }
  replace (mag single a) with (0 * one single + mag single a) by lia.
  apply (nearest_even_class single s_mb s_eb s_range 0 (mag single b)).
  - now apply L.
  - now apply L.
  - rewrite <- !s_H1. rewrite !(Z.mul_comm 2).
    rewrite <- !Zmult_compare_compat_r by lia.
    rewrite !(mag_compare single s_mb s_eb s_range) by lia.
    destruct (Z.compare_spec b (126 * 8388608)) as [B|B|B], (Z.compare_spec a (126 * 8388608)) as [A|A|A];
      try reflexivity; exfalso; lia.
  - replace (0 * one single + mag single b) with (mag single b) by lia. exact NE.
Qed.

Lemma split_mod : forall g p l, 0 < p -> 0 <= l < p -> (g * p + l) mod (2 * p) = (g mod 2) * p + l.
Proof.
  intros g p l Hp Hl. pose proof (Z.div_mod g 2 ltac:(lia)) as D.
  symmetry. assert (g mod 2 = 0 \/ g mod 2 = 1) as X by lia.
  generalize dependent (g mod 2). generalize (g / 2). intros c d D X.
  apply Z.mod_unique with c; [left; destruct X as [-> | ->]; lia|]. rewrite D. lia.
Qed.

(** The magnitude handed to the additions has the exponent of |x|. *)
Lemma mid_word_expo : forall a j, 0 <= a -> 0 <= j < 23 ->
  let k := 23 - j in
  let low := a mod 2 ^ (k - 1) in
  let b := a - low + (if low =? 0 then 0 else Z.shiftr 1048576 j) in
  exists g low', a = g * 2 ^ (k - 1) + low /\ b = g * 2 ^ (k - 1) + low' /\ 0 <= g /\
    0 <= low < 2 ^ (k - 1) /\ 0 <= low' < 2 ^ (k - 1) /\
    (j <> 21 -> (low' = 0 <-> low = 0)) /\ (j = 21 -> low' = 0).
Proof.
  intros a j Ha Hj k low b. exists (a / 2 ^ (k - 1)), (if low =? 0 then 0 else Z.shiftr 1048576 j).
  pose proof (p2 (k - 1) ltac:(lia)) as P.
  assert (Hl : 0 <= low < 2 ^ (k - 1)) by (apply Z.mod_pos_bound; lia).
  pose proof (Z.div_mod a (2 ^ (k - 1)) ltac:(lia)) as D. fold low in D.
  split; [lia|]. split; [unfold b; lia|]. split; [apply Z.div_pos; lia|]. split; [exact Hl|].
  assert (Sh : Z.shiftr 1048576 j = if j <=? 20 then 2 ^ (20 - j) else 0).
  { change 1048576 with (2 ^ 20). destruct (Z.leb_spec j 20).
    - now rewrite shiftr_pow by lia.
    - assert (j = 21 \/ j = 22) as [-> | ->] by lia; reflexivity. }
  rewrite Sh. destruct (Z.eqb_spec low 0) as [Z|N]; [lia|].
  clear D Sh. destruct (Z.leb_spec j 20).
  - replace (2 ^ (k - 1)) with (4 * 2 ^ (20 - j)).
    + pose proof (p2 (20 - j) ltac:(lia)). lia.
    + change 4 with (2 ^ 2). rewrite <- Z.pow_add_r by lia. f_equal. lia.
  - split; [lia|]. split; [|lia]. intros J. exfalso. apply N.
    assert (k - 1 = 0) as Q by lia. unfold low. rewrite Q. apply Z.mod_1_r.
Qed.

(** Clearing the bits below the half, or-ing a lower one: the rounding is kept
    unless the bit is shifted out. *)
Lemma rintf_mid : forall a j q, 0 <= a -> a / 8388608 - 127 = j -> 0 <= j < 23 ->
  let k := 23 - j in
  let low := a mod 2 ^ (k - 1) in
  let b := a - low + (if low =? 0 then 0 else Z.shiftr 1048576 j) in
  (j = 21 -> a mod 8 <> 3) ->
  (0 <= b /\ b / 8388608 = a / 8388608) /\
  (nearest_even single (mag single b) q -> nearest_even single (mag single a) q).
Proof.
  intros a j q Ha Dj Hj k low b Good.
  destruct (mid_word_expo a j Ha Hj) as (g & low' & Eg & Bg & Hg & Hl & Hl' & L1 & L2).
  fold k low b in Eg, Bg, Hl, Hl', L1, L2.
  pose proof (p2 (k - 1) ltac:(lia)) as P.
  pose proof (p2_split 1 (k - 1) ltac:(lia) ltac:(lia)) as P2.
  replace (1 + (k - 1)) with k in P2 by lia. change (2 ^ 1) with 2 in P2.
  assert (P23 : 8388608 = 2 ^ (k - 1) * 2 ^ (24 - k)).
  { rewrite <- p2_split by lia. replace (k - 1 + (24 - k)) with 23 by lia. reflexivity. }
  pose proof (p2 (24 - k) ltac:(lia)) as Pk.
  assert (Ag : a mod 2 ^ k = (g mod 2) * 2 ^ (k - 1) + low).
  { rewrite P2. rewrite Eg at 1. now apply split_mod. }
  assert (Bm : b mod 2 ^ k = (g mod 2) * 2 ^ (k - 1) + low').
  { rewrite P2, Bg. now apply split_mod. }
  assert (Q2 : b / 8388608 = a / 8388608).
  { rewrite P23. rewrite <- !Z.div_div by lia. f_equal.
    rewrite Eg, Bg. rewrite !Z.div_add_l by lia. rewrite !Z.div_small by assumption. reflexivity. }
  assert (Hb : 0 <= b) by (rewrite Bg; apply Z.add_nonneg_nonneg; [apply Z.mul_nonneg_nonneg|]; lia).
  split; [split; [exact Hb|exact Q2]|].
  assert (Ke : a / 2 ^ mb single = bias single + mb single - k).
  { cbn [mb single]. change (2 ^ 23) with 8388608. change (bias single) with 127. clear - Dj. lia. }
  assert (Kr : 0 <= k <= mb single) by (cbn [mb single]; clear - Hj; lia).
  assert (Ab : a - a mod 2 ^ k = b - b mod 2 ^ k) by (clear - Ag Bm Eg Bg; lia).
  assert (D : g mod 2 = 0 \/ g mod 2 = 1) by (clear; lia).
  assert (Cls : (2 * (b mod 2 ^ k) ?= 2 ^ k) = (2 * (a mod 2 ^ k) ?= 2 ^ k) ->
      nearest_even single (mag single b) q -> nearest_even single (mag single a) q).
  { apply (mid_class single s_mb s_eb s_range); try assumption. }
  rewrite Ag, Bm, P2 in Cls.
  destruct (Z.eq_dec j 21) as [J|J].
  - specialize (Good J). specialize (L2 J). clear L1.
    assert (Ek : k = 2) by lia.
    destruct (Z.eq_dec low 0) as [Z0|N].
    + apply Cls. now rewrite Z0, L2.
    + rewrite Ek in *. change (2 ^ (2 - 1)) with 2 in *. change (2 ^ 2) with 4 in *.
      assert (low = 1) as L by (clear - N Hl; lia).
      destruct D as [D|D].
      * apply Cls. rewrite D, L, L2. reflexivity.
      * intros NE. apply (mid_three single s_mb s_eb s_range a 2); [exact Ha|cbn [mb single]; lia|exact Ke| | |].
        -- change (2 ^ 2) with 4. rewrite Ag, D, L. lia.
        -- change (2 ^ 2) with 4. clear - Good Ag D L. rewrite D, L in Ag. lia.
        -- change (2 ^ (2 - 1)) with 2. change (2 ^ 2) with 4.
           replace (a - a mod 4 + 2) with b; [exact NE|]. clear - Ab Bm D L2. rewrite D, L2 in Bm. lia.
  - specialize (L1 J). apply Cls.
    clear - L1 Hl Hl' P D. set (p := 2 ^ (k - 1)) in *. clearbody p low.
    destruct D as [-> | ->].
    + destruct (Z.compare_spec (2 * (0 * p + low')) (2 * p)) as [B|B|B];
      destruct (Z.compare_spec (2 * (0 * p + low)) (2 * p)) as [A|A|A]; try reflexivity; exfalso; lia.
    + destruct (Z.compare_spec (2 * (1 * p + low')) (2 * p)) as [B|B|B];
      destruct (Z.compare_spec (2 * (1 * p + low)) (2 * p)) as [A|A|A]; try reflexivity; exfalso; lia.
Qed.

Lemma rintf_finite : forall w, word single w -> finite single w -> ~ rintf_bad w ->
  rint_of single w (c_rintf w).
Proof.
  intros w W Fw Good. unfold c_rintf. rewrite (s_sx w W).
  rewrite s_two23.
  pose proof (s_finite_abs w W Fw) as FA. rewrite s_infw in FA.
  unfold rintf_bad in Good.
  assert (SW := rintf_small_word w W).
  assert (MW := fun j => rintf_mid_word w j W).
  cut (forall a s j, absw single w = a -> neg single w = s -> a / 2 ^ 23 - 127 = j ->
    rint_of single w
      (let i0 := get_float w in let sx := if s then 1 else 0 in
       if f_exp i0 <? 23 then
         if f_exp i0 <? 0 then
           if Z.land i0 2147483647 =? 0 then w else
           set_float (Z.lor (Z.land (get_float (fsub single (fadd single (two_mb single s)
             (set_float (s32 (Z.lor (u32 (s32 (Z.land (u32 i0) 4293918720)))
               (Z.land (Z.shiftr (Z.lor (u32 (Z.land i0 8388607)) (u32 (- u32 (Z.land i0 8388607)))) 9) 4194304)))))
             (two_mb single s))) 2147483647) (s32 (Z.shiftl sx 31)))
         else if Z.land (u32 i0) (f_mask (f_exp i0)) =? 0 then w
         else fsub single (fadd single (two_mb single s)
             (set_float (if negb (Z.land (u32 i0) (Z.shiftr (f_mask (f_exp i0)) 1) =? 0)
                then s32 (Z.lor (Z.land (u32 i0) (not32 (Z.shiftr (f_mask (f_exp i0)) 1)))
                   (Z.shiftr 1048576 (f_exp i0)))
                else i0))) (two_mb single s)
       else if f_exp i0 =? 128 then fadd single w w else w)).
  { intros H. exact (H _ _ _ eq_refl eq_refl eq_refl). }
  intros a s j Da Ds Dj. cbv zeta.
  pose proof (s_exp w W) as Xe. rewrite Da, Dj in Xe. rewrite Xe.
  rewrite (s_land_abs w W), Da.
  rewrite Da, Ds in SW. 
  rewrite Da in FA, Good.
  pose proof (s_val w a j s W Da Ds Dj) as SV.
  unfold rint_of. rewrite SV.
  change (2 ^ 23) with 8388608 in *.
  destruct (Z.ltb_spec j 23) as [J23|J23].
  - destruct (Z.ltb_spec j 0) as [J0|J0].
    + destruct (Z.eqb_spec a 0) as [Za|N].
      * clear SW MW. subst a. rewrite Za. result 0 0.
        -- lia.
        -- destruct (s_split w W) as [E _]. rewrite Ds, Za in E. exact E.
        -- destruct s; reflexivity.
        -- replace (sgn_of s (mag single 0)) with (0 * one single) by (destruct s; reflexivity).
           apply (nearest_even_int single s_mb s_eb s_range).
      * assert (A : a < 127 * 8388608) by (clear - Dj J0; lia).
        destruct (SW A) as (b & Eb & Hb & Hb1 & Hb2). rewrite Eb. clear Eb SW MW.
        destruct (s_built s b ltac:(clear - Hb; lia)) as (Wx & Fx & Nx & Ax).
        destruct (shift_round single s_mb s_eb s_range (sbit single s + b) Wx Fx) as (n & Hn).
        { rewrite Ax. cbn [mb single]. change (2 ^ 23) with 8388608.
          pose proof (one_pos single s_mb s_eb s_range).
          assert (mag single b < one single); [|clear - H H0; lia].
          apply (mag_below_one single s_mb s_eb s_range); [clear - Hb; lia|].
          cbn [mb single]. change (2 ^ 23) with 8388608. change (bias single) with 127. clear - Hb; lia. }
        rewrite Nx, Ax in Hn. cbv zeta in Hn. destruct Hn as (Hn & NE & Wr & Fr & Mr & _).
        rewrite (rintf_small_end _ s Wr).
        pose proof (s_finite_abs _ Wr Fr) as FAr. rewrite s_infw in FAr.
        apply (rintf_small a b n Hb ltac:(clear - FA A; lia) Hb1 Hb2) in NE.
        match goal with |- context [absw single ?r] => set (rr := r) in * end.
        destruct s; cbn [sgn_of].
        -- result (absw single rr) (- n); [exact FAr|reflexivity|clear - Mr; lia|].
           now apply (nearest_even_opp single s_mb s_eb s_range).
        -- result (absw single rr) n; [exact FAr|reflexivity|clear - Mr; lia|exact NE].
    + pose proof (s_middle_and w a j s W Da Ds Dj) as Mand.
      rewrite Mand by (clear - J0 J23; lia).
      pose proof (s_mid_facts w a j s W Da Ds Dj ltac:(clear - J0 J23; lia)) as
        (n & N1 & A1 & A2 & A3 & A4 & A5 & A6 & A7).
      rewrite s_infw in A5.
      destruct (Z.eqb_spec (a mod 2 ^ (23 - j)) 0) as [Ze|N].
      * apply A7 in Ze. clear - W Ds Da Ze FA. destruct s; cbn [sgn_of].
        -- result a (- n); [lia|destruct (s_split w W) as [E _]; rewrite Ds, Da in E; exact E|lia|].
           rewrite Ze, <- Z.mul_opp_l. apply (nearest_even_int single s_mb s_eb s_range).
        -- result a n; [lia|destruct (s_split w W) as [E _]; rewrite Ds, Da in E; exact E|lia|].
           rewrite Ze. apply (nearest_even_int single s_mb s_eb s_range).
      * specialize (MW j). rewrite Da in MW. specialize (MW Dj (conj J0 J23)).
        cbv zeta in MW. rewrite Ds in MW. rewrite MW. clear MW SW Mand.
        assert (G : j = 21 -> a mod 8 <> 3) by (clear - Good Dj; intros -> X; apply Good; lia).
        pose proof (fun q => rintf_mid a j q (proj1 FA) Dj (conj J0 J23) G) as Mid.
        cbv zeta in Mid. remember (a - a mod 2 ^ (23 - j - 1) +
          (if a mod 2 ^ (23 - j - 1) =? 0 then 0 else Z.shiftr 1048576 j)) as b eqn:Db. clear Db.
        destruct (Mid 0) as [[Hb Eb] _].
        destruct (s_built s b ltac:(clear - Hb Eb Dj J23; lia)) as (Wx & Fx & Nx & Ax).
        destruct (shift_round single s_mb s_eb s_range (sbit single s + b) Wx Fx) as (q & Hq).
        { rewrite Ax. cbn [mb single]. change (2 ^ 23) with 8388608. rewrite <- s_H2.
          apply (mag_mono single s_mb s_eb s_range); clear - Hb Eb Dj J23; lia. }
        rewrite Nx, Ax in Hq. cbv zeta in Hq. destruct Hq as (Hq & NE & Wr & Fr & Mr & Nr).
        match type of Wr with word single ?r => set (rr := r) in * end.
        pose proof (s_finite_abs _ Wr Fr) as FAr. rewrite s_infw in FAr.
        assert (Q : q <> 0).
        { intros ->. destruct NE as [NE _].
          assert (mag single b >= one single); [|pose proof (one_pos single s_mb s_eb s_range) as O;
            clear - NE H O; change (0 * one single) with 0 in NE; lia].
          apply Z.le_ge. apply (mag_one_on single s_mb s_eb s_range).
          cbn [mb single]. change (2 ^ 23) with 8388608. change (bias single) with 127. clear - Eb Dj J0. lia. }
        specialize (Nr Q). destruct (Mid q) as [_ NE2]. specialize (NE2 NE).
        pose proof (s_unit rr Wr) as Ur. rewrite Nr in Ur.
        clear - W Ds FAr Ur Mr NE2. destruct s; cbn [sgn_of].
        -- result (absw single rr) (- q); [exact FAr|exact Ur|clear - Mr; lia|].
           now apply (nearest_even_opp single s_mb s_eb s_range).
        -- result (absw single rr) q; [exact FAr|exact Ur|clear - Mr; lia|exact NE2].
  - destruct (Z.eqb_spec j 128) as [J|J]; [exfalso; clear - J Dj FA; lia|].
    destruct (s_big w a j s W Da Ds Dj ltac:(clear - J23 Dj FA; lia)) as [n Hn]. rewrite Hn.
    clear SW MW. destruct (s_split w W) as [E _]; rewrite Ds, Da in E.
    destruct s; cbn [sgn_of]; [result a (- n)|result a n]; try exact FA; try exact E; try (clear - Hn; lia).
    + rewrite <- Z.mul_opp_l. apply (nearest_even_int single s_mb s_eb s_range).
    + apply (nearest_even_int single s_mb s_eb s_range).
Qed.
