(** The double-precision functions of Model/Libm.v on a processor that stores
    the less significant word first. *)
From Verif Require Import Model.Base Spec.Ieee Spec.LibmSpec Model.Float Model.Libm
  Proof.FloatProof Proof.Tac Proof.LibmfProof.

(** ** Clearing the fraction, in any format *)
Section Clear.
Variable F : fmt.
Hypothesis Hmb : 1 <= mb F.
Hypothesis Heb : 3 <= eb F.
Hypothesis Hrange : mb F + 2 <= bias F.
Set Default Proof Using "All".
Notation M := (2 ^ mb F).

(** The magnitude of the integer below or above [a]. *)
Definition clear (a : Z) (up : bool) : Z :=
  let e := a / M in
  let k := bias F + mb F - e in
  if e <? bias F then (if up && negb (a =? 0) then bias F * M else 0)
  else if e <? bias F + mb F then
    a - a mod 2 ^ k + (if up && negb (a mod 2 ^ k =? 0) then 2 ^ k else 0)
  else a.

Lemma mag_onew : mag F (bias F * M) = one F.
Proof.
  pose proof (M_pos F Hmb Heb Hrange). replace (bias F * M) with (bias F * M + 0) by lia.
  rewrite (mag_fields F Hmb Heb Hrange) by lia. unfold one. rewrite Z.add_0_r, <- p2_split by lia. f_equal. lia.
Qed.

Lemma onew_fin : bias F * M < infw F.
Proof.
  pose proof (M_pos F Hmb Heb Hrange). rewrite (infw_val F Hmb Heb Hrange). apply Z.mul_lt_mono_pos_r; lia.
Qed.

Lemma clear_facts : forall a up, 0 <= a < infw F ->
  exists n, 0 <= n /\ 0 <= clear a up < infw F /\ mag F (clear a up) = n * one F /\
    (if up then (n - 1) * one F < mag F a <= n * one F else n * one F <= mag F a < (n + 1) * one F).
Proof.
  intros a up Ha. unfold clear. pose proof (one_pos F Hmb Heb Hrange) as O.
  pose proof (mag_nonneg F Hmb Heb Hrange a ltac:(lia)) as G.
  pose proof (infw_big F Hmb Heb Hrange) as IB. pose proof (M_pos F Hmb Heb Hrange) as HM.
  destruct (Z.ltb_spec (a / M) (bias F)) as [L|L].
  - pose proof (mag_below_one F Hmb Heb Hrange a ltac:(lia) L) as B.
    pose proof (mag_zero F Hmb Heb Hrange a ltac:(lia)) as MZ.
    destruct up; cbn [andb].
    + destruct (Z.eqb_spec a 0) as [Z|N]; cbn [negb].
      * exists 0. subst a. rewrite (mag_0 F Hmb Heb Hrange) in *. lia.
      * exists 1. rewrite mag_onew. pose proof onew_fin.
        assert (mag F a <> 0) by (intros X; apply N; now apply MZ).
        assert (0 <= bias F * M) by (apply Z.mul_nonneg_nonneg; lia). lia.
    + exists 0. rewrite (mag_0 F Hmb Heb Hrange). lia.
  - destruct (Z.ltb_spec (a / M) (bias F + mb F)) as [L2|L2].
    + destruct (mid_facts F Hmb Heb Hrange a (bias F + mb F - a / M) ltac:(lia) ltac:(lia) ltac:(lia))
        as (n & N1 & A1 & A2 & A3 & A4 & A5 & A6 & A7).
      set (k := bias F + mb F - a / M) in *.
      pose proof (p2 k ltac:(unfold k; lia)).
      destruct up; cbn [andb].
      * destruct (Z.eqb_spec (a mod 2 ^ k) 0) as [Z|N]; cbn [negb].
        -- exists n. rewrite Z.add_0_r. apply A7 in Z. lia.
        -- exists (n + 1). assert (mag F a <> n * one F) by (intros X; apply N; now apply A7). lia.
      * exists n. rewrite Z.add_0_r. lia.
    + destruct (mag_integral F Hmb Heb Hrange a L2) as [n Hn]. exists n.
      assert (0 <= n) by nia. split; [lia|]. split; [lia|]. split; [exact Hn|]. destruct up; lia.
Qed.

Lemma clear_floor : forall w, word F w -> finite F w ->
  floor_of F w (sbit F (neg F w) + clear (absw F w) (neg F w)).
Proof.
  intros w W Fw. destruct (word_split F Hmb Heb Hrange w W) as [_ B]. unfold finite in Fw.
  destruct (clear_facts (absw F w) (neg F w) ltac:(lia)) as (n & N0 & C1 & C2 & C3).
  unfold floor_of. rewrite (val_neg F Hmb Heb Hrange w W).
  apply (int_result F Hmb Heb Hrange _ w _ (if neg F w then - n else n) _ W C1 eq_refl);
    destruct (neg F w); cbn [sgn_of]; lia.
Qed.

Lemma clear_ceil : forall w, word F w -> finite F w ->
  ceil_of F w (sbit F (neg F w) + clear (absw F w) (negb (neg F w))).
Proof.
  intros w W Fw. destruct (word_split F Hmb Heb Hrange w W) as [_ B]. unfold finite in Fw.
  destruct (clear_facts (absw F w) (negb (neg F w)) ltac:(lia)) as (n & N0 & C1 & C2 & C3).
  unfold ceil_of. rewrite (val_neg F Hmb Heb Hrange w W).
  apply (int_result F Hmb Heb Hrange _ w _ (if neg F w then - n else n) _ W C1 eq_refl);
    destruct (neg F w); cbn [sgn_of negb] in *; lia.
Qed.

Lemma clear_trunc : forall w, word F w -> finite F w ->
  trunc_of F w (sbit F (neg F w) + clear (absw F w) false).
Proof.
  intros w W Fw. destruct (word_split F Hmb Heb Hrange w W) as [_ B]. unfold finite in Fw.
  destruct (clear_facts (absw F w) false ltac:(lia)) as (n & N0 & C1 & C2 & C3).
  unfold trunc_of. rewrite (val_neg F Hmb Heb Hrange w W).
  pose proof (one_pos F Hmb Heb Hrange) as O.
  apply (int_result F Hmb Heb Hrange _ w _ (if neg F w then - n else n) _ W C1 eq_refl);
    destruct (neg F w); cbn [sgn_of negb] in *; try lia; rewrite ?Z.mul_opp_l, ?Z.abs_opp, !Z.abs_eq by nia; lia.
Qed.
End Clear.

Lemma mod_mod_mul : forall x p c, 0 < p -> 0 < c -> (x mod (p * c)) mod p = x mod p.
Proof.
  intros x p c Hp Hc. rewrite Z.rem_mul_r by lia. rewrite (Z.mul_comm p).
  rewrite Z.mod_add, Z.mod_mod by lia. reflexivity.
Qed.

(** ** The double format *)
Lemma d_mb : 1 <= mb double. Proof. cbn. lia. Qed.
Lemma d_eb : 3 <= eb double. Proof. cbn. lia. Qed.
Lemma d_range : mb double + 2 <= bias double. Proof. unfold bias. cbn. lia. Qed.
Lemma d_sgnw : sgnw double = 9223372036854775808. Proof. reflexivity. Qed.
Lemma d_infw : infw double = 9218868437227405312. Proof. reflexivity. Qed.
Lemma d_sbit : forall s, sbit double s = if s then 9223372036854775808 else 0.
Proof. reflexivity. Qed.

Section Words.
Set Default Proof Using "All".
Variables (d a h l j : Z) (s : bool).
Hypothesis W : word double d.
Hypothesis Da : absw double d = a.
Hypothesis Ds : neg double d = s.
Hypothesis Dh : hi false d = h.
Hypothesis Dl : lo false d = l.
Hypothesis Dj : a / 2 ^ 52 - 1023 = j.

Lemma d_split : d = sbit double s + a /\ 0 <= a < 9223372036854775808.
Proof.
  pose proof (word_split double d_mb d_eb d_range d W) as X. rewrite d_sgnw, Da, Ds in X. exact X.
Qed.

Lemma d_words : d = h * 4294967296 + l /\ 0 <= h < 4294967296 /\ 0 <= l < 4294967296 /\
  a = (if s then h - 2147483648 else h) * 4294967296 + l /\
  0 <= (if s then h - 2147483648 else h) < 2147483648 /\
  (if s then 2147483648 <= h else h < 2147483648).
Proof.
  destruct d_split as [E B]. rewrite d_sbit in E. unfold hi, lo in *.
  change (2 ^ 32) with 4294967296 in *. clear W Da Ds Dj. destruct s; lia.
Qed.

Lemma d_h_signed : s32 h = if s then h - 4294967296 else h.
Proof.
  destruct d_words as (_ & Hh & _ & _ & _ & Hs). change 4294967296 with (2 ^ 32) in Hh.
  destruct (s32_cases h Hh) as [[A ->]|[A ->]]; destruct s; lia.
Qed.

Lemma d_h_u32 : u32 (s32 h) = h.
Proof. rewrite u32_s32. apply u32_id. change (2 ^ 32) with 4294967296. apply d_words. Qed.

Lemma d_l_u32 : u32 (s32 l) = l.
Proof. rewrite u32_s32. apply u32_id. change (2 ^ 32) with 4294967296. apply d_words. Qed.

Lemma d_land_abs : Z.land (s32 h) 2147483647 = a / 4294967296.
Proof.
  change 2147483647 with (2 ^ 31 - 1). rewrite land_low by lia. change (2 ^ 31) with 2147483648.
  rewrite d_h_signed. destruct d_words as (_ & H1 & H2 & H3 & H4 & H5).
  clear W Da Ds Dh Dl Dj. destruct s; lia.
Qed.

Lemma d_l_mod : l = a mod 4294967296.
Proof. destruct d_words as (_ & H1 & H2 & H3 & H4 & H5). lia. Qed.

Lemma d_exp_val : d_exp (s32 h) = j.
Proof.
  unfold d_exp. change 2047 with (2 ^ 11 - 1). rewrite land_low by lia.
  rewrite Z.shiftr_div_pow2 by lia. rewrite d_h_signed, <- Dj.
  change (2 ^ 20) with 1048576. change (2 ^ 11) with 2048. change (2 ^ 52) with (1048576 * 4294967296).
  destruct d_words as (_ & H1 & H2 & H3 & H4 & H5).
  clear W Da Ds Dh Dl Dj. destruct s; lia.
Qed.

Lemma d_sign : (0 <=? s32 h) = negb s /\ (s32 h <? 0) = s.
Proof.
  rewrite d_h_signed. destruct d_words as (_ & H1 & H2 & H3 & H4 & H5).
  clear W Da Ds Dh Dl Dj. destruct s; cbn [negb]; lia.
Qed.

(** The integer part ends in the high word. *)
Lemma hi_mod : 0 <= j < 20 -> a mod 2 ^ (52 - j) = (h mod 2 ^ (20 - j)) * 4294967296 + l.
Proof.
  intros Hj. destruct d_words as (_ & H1 & H2 & H3 & H4 & H5).
  pose proof (p2 (20 - j) ltac:(lia)) as P.
  replace (52 - j) with (32 + (20 - j)) by lia. rewrite p2_split by lia. change (2 ^ 32) with 4294967296.
  assert (Hm : (if s then h - 2147483648 else h) mod 2 ^ (20 - j) = h mod 2 ^ (20 - j)).
  { destruct s; [|reflexivity].
    replace (h - 2147483648) with (h + (- 2 ^ (31 - (20 - j))) * 2 ^ (20 - j)).
    - apply Z.mod_add. lia.
    - rewrite Z.mul_opp_l, <- p2_split by lia. replace (31 - (20 - j) + (20 - j)) with 31 by lia.
      change (2 ^ 31) with 2147483648. lia. }
  rewrite Z.rem_mul_r by lia. rewrite <- d_l_mod.
  assert (a / 4294967296 = if s then h - 2147483648 else h) as ->.
  { symmetry. apply Z.div_unique with l; lia. }
  rewrite Hm. lia.
Qed.

Lemma hi_test : 0 <= j < 20 ->
  (Z.lor (Z.land (u32 (s32 h)) (d_mask_hi j)) (u32 (s32 l)) =? 0) = (a mod 2 ^ (52 - j) =? 0).
Proof.
  intros Hj. rewrite d_h_u32, d_l_u32, hi_mod by lia. unfold d_mask_hi.
  change 1048575 with (2 ^ 20 - 1). rewrite shiftr_ones, land_low by lia.
  pose proof (p2 (20 - j) ltac:(lia)) as P. pose proof (Z.mod_pos_bound h (2 ^ (20 - j)) P) as R.
  destruct d_words as (_ & H1 & H2 & _).
  destruct (Z.eqb_spec (Z.lor (h mod 2 ^ (20 - j)) l) 0) as [E|E].
  - apply Z.lor_eq_0_iff in E. destruct E as [-> ->]. reflexivity.
  - symmetry. apply Z.eqb_neq. intros X. apply E.
    assert (h mod 2 ^ (20 - j) = 0) as -> by lia. assert (l = 0) as -> by lia. reflexivity.
Qed.

Lemma hi_clear : 0 <= j < 20 ->
  ins false (Z.land (u32 (s32 h)) (not32 (d_mask_hi j))) 0 = sbit double s + (a - a mod 2 ^ (52 - j)).
Proof.
  intros Hj. rewrite d_h_u32. unfold d_mask_hi.
  destruct d_words as (E & H1 & H2 & _). pose proof d_split as [E2 B].
  change 1048575 with (2 ^ 20 - 1). rewrite shiftr_ones by lia.
  rewrite land_high by (change (2 ^ 32) with 4294967296; lia).
  pose proof (p2 (20 - j) ltac:(lia)) as P. pose proof (Z.mod_pos_bound h (2 ^ (20 - j)) P) as R.
  pose proof (Z.mod_le h (2 ^ (20 - j)) ltac:(lia) P) as L.
  unfold ins. change (2 ^ 32) with 4294967296. rewrite (u32_id (h - _)) by (change (2 ^ 32) with 4294967296; lia).
  change (u32 0) with 0. rewrite hi_mod by lia. lia.
Qed.

Lemma hi_up : 0 <= j < 20 ->
  ins false (Z.land (u32 (s32 (s32 h + Z.shiftr 1048576 j))) (not32 (d_mask_hi j))) 0 =
  sbit double s + (a - a mod 2 ^ (52 - j) + 2 ^ (52 - j)).
Proof.
  intros Hj. unfold d_mask_hi.
  destruct d_words as (E & H1 & H2 & H3 & H4 & H5). pose proof d_split as [E2 B].
  change 1048576 with (2 ^ 20). change 1048575 with (2 ^ 20 - 1). rewrite shiftr_ones, shiftr_pow by lia.
  rewrite u32_s32_add.
  pose proof (p2 (20 - j) ltac:(lia)) as P. pose proof (Z.mod_pos_bound h (2 ^ (20 - j)) P) as R.
  pose proof (Z.mod_le h (2 ^ (20 - j)) ltac:(lia) P) as L.
  pose proof (p2_le (20 - j) 20 ltac:(lia) ltac:(lia)) as L2. change (2 ^ 20) with 1048576 in L2.
  assert (A : a < 1043 * 4503599627370496) by (rewrite <- Dj in Hj; change (2 ^ 52) with 4503599627370496 in Hj; lia).
  assert (R2 : 0 <= h + 2 ^ (20 - j) < 2 ^ 32) by (change (2 ^ 32) with 4294967296; destruct s; lia).
  rewrite (u32_id _ R2), land_high by (assumption || lia).
  assert ((h + 2 ^ (20 - j)) mod 2 ^ (20 - j) = h mod 2 ^ (20 - j)) as ->.
  { replace (h + 2 ^ (20 - j)) with (h + 1 * 2 ^ (20 - j)) by lia. apply Z.mod_add. lia. }
  unfold ins. change (2 ^ 32) with 4294967296 in *. rewrite (u32_id (_ - _)) by (change (2 ^ 32) with 4294967296; lia).
  change (u32 0) with 0. rewrite hi_mod by lia.
  replace (52 - j) with (32 + (20 - j)) by lia. rewrite p2_split by lia. change (2 ^ 32) with 4294967296. lia.
Qed.

(** The integer part ends in the low word. *)
Lemma lo_mod : 20 <= j < 52 -> a mod 2 ^ (52 - j) = l mod 2 ^ (52 - j).
Proof.
  intros Hj. rewrite d_l_mod. change 4294967296 with (2 ^ 32).
  replace 32 with ((52 - j) + (32 - (52 - j))) by lia. rewrite p2_split by lia.
  pose proof (p2 (52 - j) ltac:(lia)). pose proof (p2 (32 - (52 - j)) ltac:(lia)).
  now rewrite mod_mod_mul by lia.
Qed.

Lemma lo_mask : 20 <= j < 52 -> d_mask_lo j = 2 ^ (52 - j) - 1.
Proof.
  intros Hj. unfold d_mask_lo. change 4294967295 with (2 ^ 32 - 1). rewrite shiftr_ones by lia.
  do 2 f_equal. lia.
Qed.

Lemma lo_test : 20 <= j < 52 ->
  (Z.land (u32 (s32 l)) (d_mask_lo j) =? 0) = (a mod 2 ^ (52 - j) =? 0).
Proof. intros Hj. now rewrite d_l_u32, lo_mask, land_low, lo_mod by lia. Qed.

Lemma lo_clear : 20 <= j < 52 ->
  ins false (s32 h) (Z.land (u32 (s32 l)) (not32 (d_mask_lo j))) = sbit double s + (a - a mod 2 ^ (52 - j)).
Proof.
  intros Hj. destruct d_words as (E & H1 & H2 & _). pose proof d_split as [E2 B].
  rewrite d_l_u32, lo_mask, land_high by (change (2 ^ 32) with 4294967296; lia).
  pose proof (p2 (52 - j) ltac:(lia)) as P. pose proof (Z.mod_pos_bound l (2 ^ (52 - j)) P) as R.
  pose proof (Z.mod_le l (2 ^ (52 - j)) ltac:(lia) P) as L.
  unfold ins. rewrite d_h_u32, (u32_id (l - _)), lo_mod by (change (2 ^ 32) with 4294967296; lia).
  change (2 ^ 32) with 4294967296. lia.
Qed.

Lemma lo_up : 20 <= j < 52 ->
  (let '(i0, i1) := d_carry j (s32 h) (s32 l) in
   ins false i0 (Z.land (u32 i1) (not32 (d_mask_lo j)))) =
  sbit double s + (a - a mod 2 ^ (52 - j) + 2 ^ (52 - j)).
Proof.
  intros Hj. destruct d_words as (E & H1 & H2 & H3 & H4 & H5). pose proof d_split as [E2 B].
  assert (A : a < 1075 * 4503599627370496) by (rewrite <- Dj in Hj; change (2 ^ 52) with 4503599627370496 in Hj; lia).
  assert (Hu : u32 (s32 (s32 h + 1)) = h + 1).
  { rewrite u32_s32_add. apply u32_id. change (2 ^ 32) with 4294967296. destruct s; lia. }
  pose proof (p2 (52 - j) ltac:(lia)) as P.
  unfold d_carry. destruct (Z.eqb_spec j 20) as [J|J].
  - rewrite J. change (52 - 20) with 32. change (d_mask_lo 20) with (2 ^ 32 - 1).
    rewrite d_l_u32, land_high by (change (2 ^ 32) with 4294967296; lia).
    unfold ins. rewrite Hu, Z.mod_small by (change (2 ^ 32) with 4294967296; lia).
    rewrite Z.sub_diag. change (u32 0) with 0. rewrite <- J in *.
    replace (2 ^ 32) with (2 ^ (52 - j)) at 2 by (f_equal; lia). rewrite lo_mod by lia.
    replace (52 - j) with 32 by lia. change (2 ^ 32) with 4294967296. rewrite Z.mod_small by lia. lia.
  - rewrite d_l_u32, lo_mask by lia. rewrite u32_s32.
    rewrite Z.shiftl_mul_pow2, Z.mul_1_l by lia.
    assert (U : u32 (u32 (s32 l + 2 ^ (52 - j))) = u32 (l + 2 ^ (52 - j))).
    { rewrite <- (u32_s32_add l), u32_s32. unfold u32. now rewrite Z.mod_mod by (compute; discriminate). }
    assert (U1 : u32 (s32 l + 2 ^ (52 - j)) = u32 (l + 2 ^ (52 - j))).
    { rewrite <- U. unfold u32. now rewrite Z.mod_mod by (compute; discriminate). }
    rewrite U1. rewrite <- U, U1 at 1.
    pose proof (p2_le (52 - j) 31 ltac:(lia) ltac:(lia)) as L31. change (2 ^ 31) with 2147483648 in L31.
    assert (Q : exists c, 4294967296 = 2 ^ (52 - j) * c).
    { exists (2 ^ (32 - (52 - j))). rewrite <- p2_split by lia. change 4294967296 with (2 ^ 32). f_equal. lia. }
    destruct Q as [c Q].
    assert (T : u32 (l + 2 ^ (52 - j)) mod 2 ^ (52 - j) = l mod 2 ^ (52 - j)).
    { unfold u32. change (2 ^ 32) with 4294967296. rewrite Q.
      assert (0 < c) by nia.
      rewrite mod_mod_mul by lia.
      replace (l + 2 ^ (52 - j)) with (l + 1 * 2 ^ (52 - j)) by lia. apply Z.mod_add. lia. }
    assert (V : u32 (l + 2 ^ (52 - j)) = if l + 2 ^ (52 - j) <? 4294967296 then l + 2 ^ (52 - j)
                                        else l + 2 ^ (52 - j) - 4294967296).
    { unfold u32. change (2 ^ 32) with 4294967296. destruct (Z.ltb_spec (l + 2 ^ (52 - j)) 4294967296).
      - apply Z.mod_small. lia.
      - symmetry. apply Z.mod_unique with 1; lia. }
    pose proof (Z.mod_pos_bound l (2 ^ (52 - j)) P) as Rl.
    pose proof (Z.mod_le l (2 ^ (52 - j)) ltac:(lia) P) as Ll.
    assert (Cl : l - l mod 2 ^ (52 - j) <= 4294967296 - 2 ^ (52 - j)).
    { rewrite Q. pose proof (Z.div_mod l (2 ^ (52 - j)) ltac:(lia)).
      assert (l / 2 ^ (52 - j) < c) by (apply Z.div_lt_upper_bound; lia). nia. }
    assert (Cl2 : 4294967296 <= l + 2 ^ (52 - j) -> 4294967296 - 2 ^ (52 - j) <= l - l mod 2 ^ (52 - j)).
    { rewrite Q. intros G. pose proof (Z.div_mod l (2 ^ (52 - j)) ltac:(lia)).
      assert (c - 1 <= l / 2 ^ (52 - j)) by (apply Z.div_le_lower_bound; lia). nia. }
    assert (R : 0 <= u32 (l + 2 ^ (52 - j)) < 4294967296) by (unfold u32; change (2 ^ 32) with 4294967296; lia).
    rewrite (u32_id (u32 _)) by (change (2 ^ 32) with 4294967296; exact R).
    rewrite land_high by (change (2 ^ 32) with 4294967296; lia). rewrite T.
    unfold ins. rewrite lo_mod by lia. change (2 ^ 32) with 4294967296.
    set (k := 2 ^ (52 - j)) in *. set (m := l mod k) in *. clearbody k m. rewrite V.
    destruct (Z.ltb_spec (l + k) 4294967296) as [C|C].
    + replace (l + k <? l) with false by (symmetry; apply Z.ltb_ge; lia).
      rewrite d_h_u32, u32_id by (change (2 ^ 32) with 4294967296; lia). lia.
    + replace (l + k - 4294967296 <? l) with true by (symmetry; apply Z.ltb_lt; lia).
      assert (0 <= l + k - 4294967296 - m) by lia.
      rewrite Hu, u32_id by (change (2 ^ 32) with 4294967296; lia). lia.
Qed.

Lemma d_all : ins false (s32 h) (s32 l) = d.
Proof.
  unfold ins. rewrite d_h_u32, d_l_u32. change (2 ^ 32) with 4294967296. destruct d_words as (E & _). lia.
Qed.

(** huge + x is above 0. *)
Lemma d_inexact_true : j < 52 -> d_inexact d = true.
Proof.
  intros L. unfold d_inexact. destruct d_split as [_ B].
  assert (A : a < 1075 * 4503599627370496) by (rewrite <- Dj in L; change (2 ^ 52) with 4503599627370496 in L; lia).
  apply (fadd_above_zero double d_mb d_eb d_range).
  - unfold finite. rewrite d_infw. vm_compute. reflexivity.
  - unfold finite. rewrite d_infw, Da. lia.
  - pose proof (mag_mono double d_mb d_eb d_range a (1075 * 4503599627370496) ltac:(lia) ltac:(lia)) as M1.
    pose proof (mag_nonneg double d_mb d_eb d_range a ltac:(lia)) as M2.
    assert (mag double (1075 * 4503599627370496) < val double d_huge) by (vm_compute; reflexivity).
    rewrite (val_neg double d_mb d_eb d_range d W), Da. destruct (neg double d); cbn [sgn_of]; lia.
Qed.

Lemma d_zero_test : (Z.lor (Z.land (s32 h) 2147483647) (s32 l) =? 0) = (a =? 0).
Proof.
  rewrite d_land_abs. destruct d_split as [_ B]. destruct d_words as (_ & H1 & H2 & H3 & H4 & _).
  assert (L : s32 l = 0 <-> l = 0).
  { change 4294967296 with (2 ^ 32) in H2. destruct (s32_cases l H2) as [[A ->]|[A ->]]; lia. }
  assert (Ha : a = 0 <-> a / 4294967296 = 0 /\ l = 0) by (rewrite d_l_mod; lia).
  destruct (Z.eqb_spec (Z.lor (a / 4294967296) (s32 l)) 0) as [E|E].
  - apply Z.lor_eq_0_iff in E. symmetry. apply Z.eqb_eq. apply Ha. split; [tauto|]. apply L. tauto.
  - symmetry. apply Z.eqb_neq. intros X. apply E. apply Z.lor_eq_0_iff. apply Ha in X. split; [tauto|]. apply L. tauto.
Qed.

(** The arithmetic form of [clear]. *)
Lemma d_clear : forall up, a < infw double ->
  clear double a up =
    if j <? 0 then (if up && negb (a =? 0) then 1023 * 4503599627370496 else 0)
    else if j <? 52 then a - a mod 2 ^ (52 - j) + (if up && negb (a mod 2 ^ (52 - j) =? 0) then 2 ^ (52 - j) else 0)
    else a.
Proof.
  intros up Ha. unfold clear. cbn [mb double]. change (bias double) with 1023. change (1023 + 52) with 1075.
  change (2 ^ 52) with 4503599627370496 in *.
  replace (1075 - a / 4503599627370496) with (52 - j) by lia.
  replace (a / 4503599627370496 <? 1023) with (j <? 0) by lia.
  replace (a / 4503599627370496 <? 1075) with (j <? 52) by lia. reflexivity.
Qed.

End Words.
