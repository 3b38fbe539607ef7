(** rint on doubles. *)
From Verif Require Import Model.Base Spec.Ieee Spec.LibmSpec Model.Float Model.Libm
  Proof.FloatProof Proof.Tac Proof.LibmfProof Proof.LibmfRint Proof.LibmdProof Proof.LibmdRound.

(** ** In any format *)
Section Rint.
Variable F : fmt.
Hypothesis Hmb : 1 <= mb F.
Hypothesis Heb : 3 <= eb F.
Hypothesis Hrange : mb F + 2 <= bias F.
Set Default Proof Using "All".
Notation M := (2 ^ mb F).

Lemma mag_halfw : 2 * mag F ((bias F - 1) * M) = one F.
Proof.
  pose proof (M_pos F Hmb Heb Hrange). replace ((bias F - 1) * M) with ((bias F - 1) * M + 0) by lia.
  rewrite (mag_fields F Hmb Heb Hrange) by lia. unfold one.
  replace (bias F + mb F - 1) with (1 + (mb F + (bias F - 1 - 1))) by lia.
  rewrite !p2_split by lia. change (2 ^ 1) with 2. lia.
Qed.

(** Below 1 only the exponent and whether the fraction is 0 count. *)
Lemma small_class : forall a b n, 0 <= a -> 0 <= b -> a / M < bias F -> b / M = a / M ->
  (b mod M = 0 <-> a mod M = 0) ->
  nearest_even F (mag F b) n -> nearest_even F (mag F a) n.
Proof.
  intros a b n Ha Hb L E1 E2 NE.
  pose proof (one_pos F Hmb Heb Hrange) as O. pose proof (M_pos F Hmb Heb Hrange) as HM.
  replace (mag F a) with (0 * one F + mag F a) by lia.
  apply (nearest_even_class F Hmb Heb Hrange 0 (mag F b)).
  - split; [apply (mag_nonneg F Hmb Heb Hrange); lia|apply (mag_below_one F Hmb Heb Hrange); lia].
  - split; [apply (mag_nonneg F Hmb Heb Hrange); lia|apply (mag_below_one F Hmb Heb Hrange); lia].
  - rewrite <- mag_halfw. rewrite !(Z.mul_comm 2).
    assert (0 <= (bias F - 1) * M) by (apply Z.mul_nonneg_nonneg; lia).
    rewrite <- !Zmult_compare_compat_r by lia.
    rewrite !(mag_compare F Hmb Heb Hrange) by lia.
    pose proof (Z.div_mod a M ltac:(lia)) as DA. pose proof (Z.div_mod b M ltac:(lia)) as DB.
    pose proof (Z.mod_pos_bound a M HM) as RA. pose proof (Z.mod_pos_bound b M HM) as RB.
    rewrite E1 in DB.
    set (e := a / M) in *. set (m := a mod M) in *. set (m' := b mod M) in *. set (p := bias F - 1) in *.
    assert (e <= p) by lia. clearbody e m m' p. rewrite DA, DB.
    destruct (Z.eq_dec e p) as [->|N].
    + destruct (Z.compare_spec (M * p + m') (p * M)) as [C|C|C];
      destruct (Z.compare_spec (M * p + m) (p * M)) as [D|D|D]; try reflexivity; exfalso; lia.
    + assert (M * e + M <= p * M) by nia.
      destruct (Z.compare_spec (M * e + m') (p * M)) as [C|C|C];
      destruct (Z.compare_spec (M * e + m) (p * M)) as [D|D|D]; try reflexivity; exfalso; lia.
  - replace (0 * one F + mag F b) with (mag F b) by lia. exact NE.
Qed.

(** Only the half and whether the rest is 0 count. *)
Lemma sticky_class : forall g low low' k q, let a := g * 2 ^ (k - 1) + low in let b := g * 2 ^ (k - 1) + low' in
  0 <= g -> 1 <= k <= mb F -> a / M = bias F + mb F - k ->
  0 <= low < 2 ^ (k - 1) -> 0 <= low' < 2 ^ (k - 1) ->
  b / M = a / M /\
  ((low' = 0 <-> low = 0) -> nearest_even F (mag F b) q -> nearest_even F (mag F a) q) /\
  a mod 2 ^ k = (g mod 2) * 2 ^ (k - 1) + low /\ b mod 2 ^ k = (g mod 2) * 2 ^ (k - 1) + low'.
Proof.
  intros g low low' k q a b Hg Hk E Hl Hl'.
  pose proof (p2 (k - 1) ltac:(lia)) as P.
  pose proof (p2_split 1 (k - 1) ltac:(lia) ltac:(lia)) as P2.
  replace (1 + (k - 1)) with k in P2 by lia. change (2 ^ 1) with 2 in P2.
  assert (PM : M = 2 ^ (k - 1) * 2 ^ (mb F - (k - 1))).
  { rewrite <- p2_split by lia. f_equal. lia. }
  pose proof (p2 (mb F - (k - 1)) ltac:(lia)) as Pm.
  assert (Q2 : b / M = a / M).
  { rewrite PM. rewrite <- !Z.div_div by lia. f_equal. unfold a, b.
    rewrite !Z.div_add_l by lia. rewrite !Z.div_small by assumption. reflexivity. }
  assert (Ag : a mod 2 ^ k = (g mod 2) * 2 ^ (k - 1) + low) by (rewrite P2; now apply split_mod).
  assert (Bg : b mod 2 ^ k = (g mod 2) * 2 ^ (k - 1) + low') by (rewrite P2; now apply split_mod).
  split; [exact Q2|]. split; [|now split].
  intros L.
  assert (G0 : 0 <= g * 2 ^ (k - 1)) by (apply Z.mul_nonneg_nonneg; [exact Hg|clear - P; lia]).
  apply (mid_class F Hmb Heb Hrange a b k q);
    [unfold a; clear - G0 Hl; lia|unfold b; clear - G0 Hl'; lia|clear - Hk; lia|exact E|exact Q2|rewrite Ag, Bg; unfold a, b; ring|].
  rewrite Ag, Bg, P2. assert (D : g mod 2 = 0 \/ g mod 2 = 1) by (clear; lia).
  clear - L Hl Hl' P D. set (p := 2 ^ (k - 1)) in *. clearbody p.
  destruct D as [-> | ->].
  + destruct (Z.compare_spec (2 * (0 * p + low')) (2 * p)) as [B|B|B];
    destruct (Z.compare_spec (2 * (0 * p + low)) (2 * p)) as [A|A|A]; try reflexivity; exfalso; lia.
  + destruct (Z.compare_spec (2 * (1 * p + low')) (2 * p)) as [B|B|B];
    destruct (Z.compare_spec (2 * (1 * p + low)) (2 * p)) as [A|A|A]; try reflexivity; exfalso; lia.
Qed.

(** The two additions, once the word has been prepared. *)
Lemma rint_small_result : forall w b, word F w -> finite F w -> 0 <= b ->
  absw F w / M < bias F -> b / M = absw F w / M -> (b mod M = 0 <-> absw F w mod M = 0) ->
  let s := neg F w in
  let r := fsub F (fadd F (two_mb F s) (sbit F s + b)) (two_mb F s) in
  word F r /\ rint_of F w (sbit F s + absw F r).
Proof.
  intros w b W Fw Hb L E1 E2 s r.
  destruct (word_split F Hmb Heb Hrange w W) as [_ B].
  pose proof (one_pos F Hmb Heb Hrange) as O. pose proof (M_pos F Hmb Heb Hrange) as HM.
  assert (Bb : b < infw F).
  { destruct (Z_lt_le_dec b (infw F)) as [?|G]; [assumption|exfalso].
    rewrite (infw_val F Hmb Heb Hrange) in G.
    assert (2 * bias F + 1 <= b / M) by (apply Z.div_le_lower_bound; lia). lia. }
  pose proof (infw_lt F Hmb Heb Hrange) as IL.
  destruct (word_of F Hmb Heb Hrange s b ltac:(lia)) as (Wx & Nx & Ax).
  assert (Fx : finite F (sbit F s + b)) by (unfold finite; lia).
  pose proof (mag_below_one F Hmb Heb Hrange b Hb ltac:(lia)) as Lb.
  destruct (shift_round F Hmb Heb Hrange (sbit F s + b) Wx Fx ltac:(rewrite Ax; nia)) as (n & Hn).
  rewrite Nx, Ax in Hn. cbv zeta in Hn. fold r in Hn. destruct Hn as (Hn & NE & Wr & Fr & Mr & _).
  split; [exact Wr|].
  apply (small_class (absw F w) b n ltac:(lia) Hb L E1 E2) in NE.
  unfold rint_of. rewrite (val_neg F Hmb Heb Hrange w W). fold s.
  destruct (word_split F Hmb Heb Hrange r Wr) as [_ Br]. unfold finite in Fr.
  apply (int_result F Hmb Heb Hrange _ w (absw F r) (if s then - n else n) _ W); [lia|reflexivity| |];
    fold s; destruct s; cbn [sgn_of]; try lia; try exact NE.
  now apply (nearest_even_opp F Hmb Heb Hrange).
Qed.

Lemma rint_mid_result : forall w b, word F w -> finite F w -> 0 <= b ->
  bias F <= absw F w / M < bias F + mb F -> b / M = absw F w / M ->
  (forall q, nearest_even F (mag F b) q -> nearest_even F (mag F (absw F w)) q) ->
  let s := neg F w in
  rint_of F w (fsub F (fadd F (two_mb F s) (sbit F s + b)) (two_mb F s)).
Proof.
  intros w b W Fw Hb L E1 Cls s.
  destruct (word_split F Hmb Heb Hrange w W) as [_ B].
  pose proof (one_pos F Hmb Heb Hrange) as O. pose proof (M_pos F Hmb Heb Hrange) as HM.
  pose proof (Z.div_mod b M ltac:(lia)) as DB. pose proof (Z.mod_pos_bound b M HM) as RB.
  assert (Bb : b < (bias F + mb F) * M + 0) by nia.
  assert (Bi : b < infw F) by (rewrite (infw_val F Hmb Heb Hrange); nia).
  pose proof (infw_lt F Hmb Heb Hrange) as IL.
  destruct (word_of F Hmb Heb Hrange s b ltac:(lia)) as (Wx & Nx & Ax).
  assert (Fx : finite F (sbit F s + b)) by (unfold finite; lia).
  assert (Lb : mag F b < M * one F).
  { pose proof (mag_mono F Hmb Heb Hrange b _ Hb Bb) as X.
    rewrite (mag_fields F Hmb Heb Hrange) in X by lia. unfold one. rewrite Z.add_0_r in X. exact X. }
  destruct (shift_round F Hmb Heb Hrange (sbit F s + b) Wx Fx ltac:(rewrite Ax; exact Lb)) as (n & Hn).
  rewrite Nx, Ax in Hn. cbv zeta in Hn.
  set (r := fsub F (fadd F (two_mb F s) (sbit F s + b)) (two_mb F s)) in *.
  destruct Hn as (Hn & NE & Wr & Fr & Mr & Nr).
  assert (Hn0 : n <> 0).
  { intros ->. destruct NE as [NE _].
    pose proof (mag_one_on F Hmb Heb Hrange b ltac:(lia)) as G. rewrite Z.mul_0_l, Z.sub_0_r in NE. lia. }
  specialize (Nr Hn0). apply Cls in NE.
  unfold rint_of. rewrite (val_neg F Hmb Heb Hrange w W). fold s.
  destruct (word_split F Hmb Heb Hrange r Wr) as [Er Br]. unfold finite in Fr. rewrite Nr in Er.
  apply (int_result F Hmb Heb Hrange _ w (absw F r) (if s then - n else n) _ W); [lia|exact Er| |];
    fold s; destruct s; cbn [sgn_of]; try lia; try exact NE.
  now apply (nearest_even_opp F Hmb Heb Hrange).
Qed.

Lemma rint_same : forall w n, word F w -> finite F w -> mag F (absw F w) = n * one F -> rint_of F w w.
Proof.
  intros w n W Fw E. unfold rint_of. rewrite (val_neg F Hmb Heb Hrange w W).
  destruct (word_split F Hmb Heb Hrange w W) as [Ew B]. unfold finite in Fw.
  apply (int_result F Hmb Heb Hrange _ w (absw F w) (if neg F w then - n else n) _ W); [lia|exact Ew| |];
    destruct (neg F w); cbn [sgn_of]; rewrite ?E; try lia.
  - rewrite <- Z.mul_opp_l. apply (nearest_even_int F Hmb Heb Hrange).
  - apply (nearest_even_int F Hmb Heb Hrange).
Qed.
End Rint.

(** ** The words of a double *)
Lemma d_all' : forall d h l, d = h * 4294967296 + l -> 0 <= h < 4294967296 -> 0 <= l < 4294967296 ->
  ins false (s32 h) l = d.
Proof.
  intros d h l E Hh Hl. unfold ins. rewrite u32_s32, !u32_id by (change (2 ^ 32) with 4294967296; lia).
  change (2 ^ 32) with 4294967296. lia.
Qed.

Lemma lor_zero : forall x y, 0 <= x -> 0 <= y < 4294967296 -> (Z.lor x y =? 0) = (x * 4294967296 + y =? 0).
Proof.
  intros x y Hx Hy. destruct (Z.eqb_spec (Z.lor x y) 0) as [E|E].
  - apply Z.lor_eq_0_iff in E. destruct E as [-> ->]. reflexivity.
  - symmetry. apply Z.eqb_neq. intros X. apply E.
    assert (x = 0) as -> by lia. assert (y = 0) as -> by lia. reflexivity.
Qed.

Section Words.
Set Default Proof Using "All".
Variables (d a h l j : Z) (s : bool).
Hypothesis W : word double d.
Hypothesis Da : absw double d = a.
Hypothesis Ds : neg double d = s.
Hypothesis Dh : hi false d = h.
Hypothesis Dl : lo false d = l.
Hypothesis Dj : a / 2 ^ 52 - 1023 = j.
Let dw := d_words d a h l j s W Da Ds Dh Dl Dj.

Lemma hi_mod_gen : forall m, 0 <= m <= 31 -> a mod 2 ^ (32 + m) = (h mod 2 ^ m) * 4294967296 + l.
Proof.
  intros m Hm. destruct dw as (_ & H1 & H2 & H3 & H4 & H5).
  pose proof (p2 m ltac:(lia)) as P.
  rewrite p2_split by lia. change (2 ^ 32) with 4294967296.
  assert (E : (if s then h - 2147483648 else h) mod 2 ^ m = h mod 2 ^ m).
  { clear - Hm P. destruct s; [|reflexivity].
    replace (h - 2147483648) with (h + (- 2 ^ (31 - m)) * 2 ^ m).
    - apply Z.mod_add. lia.
    - rewrite Z.mul_opp_l, <- p2_split by lia. replace (31 - m + m) with 31 by lia.
      change (2 ^ 31) with 2147483648. lia. }
  rewrite Z.rem_mul_r by lia. rewrite <- (d_l_mod d a h l j s W Da Ds Dh Dl Dj).
  assert (a / 4294967296 = if s then h - 2147483648 else h) as ->.
  { symmetry. apply Z.div_unique with l; lia. }
  rewrite E. lia.
Qed.

(** The word handed to the additions when the integer part ends in the high word (lines 68-77). *)
Lemma rint_hi_word : 0 <= j < 20 ->
  let low := a mod 2 ^ (51 - j) in
  exists low', 0 <= low' < 2 ^ (51 - j) /\ 0 <= low < 2 ^ (51 - j) /\
  (let '(i0, i1) :=
    if negb (Z.lor (Z.land (u32 (s32 h)) (Z.shiftr (d_mask_hi j) 1)) l =? 0) then
      if j =? 19 then (s32 h, 1073741824)
      else (s32 (Z.lor (Z.land (u32 (s32 h)) (not32 (Z.shiftr (d_mask_hi j) 1))) (Z.shiftr 131072 j)), l)
    else (s32 h, l) in ins false i0 i1) = sbit double s + (a - low + low') /\
  ((j <> 18 \/ l <> 0) -> (low' = 0 <-> low = 0)) /\ (j = 18 -> l = 0 -> low' = 0).
Proof.
  intros Hj low. destruct dw as (E & H1 & H2 & H3 & H4 & H5).
  pose proof (d_split d a h l j s W Da Ds Dh Dl Dj) as [Ed Bd].
  pose proof (d_h_u32 d a h l j s W Da Ds Dh Dl Dj) as Uh.
  rewrite Uh.
  set (m := 19 - j).
  assert (Msk : Z.shiftr (d_mask_hi j) 1 = 2 ^ m - 1).
  { unfold d_mask_hi. rewrite Z.shiftr_shiftr by lia. change 1048575 with (2 ^ 20 - 1).
    rewrite shiftr_ones by lia. unfold m. do 2 f_equal. lia. }
  rewrite Msk, land_low by (unfold m; lia).
  assert (Lw : low = (h mod 2 ^ m) * 4294967296 + l).
  { unfold low. replace (51 - j) with (32 + m) by (unfold m; lia). apply hi_mod_gen. unfold m. lia. }
  pose proof (p2 m ltac:(unfold m; lia)) as Pm.
  pose proof (Z.mod_pos_bound h (2 ^ m) Pm) as Rm.
  pose proof (Z.mod_le h (2 ^ m) ltac:(lia) Pm) as Lm.
  pose proof (p2 (51 - j) ltac:(lia)) as P51.
  assert (Rl : 0 <= low < 2 ^ (51 - j)) by (apply Z.mod_pos_bound; exact P51).
  rewrite lor_zero by lia. rewrite <- Lw.
  assert (P51m : 2 ^ (51 - j) = 4294967296 * 2 ^ m).
  { replace (51 - j) with (32 + m) by (unfold m; lia). rewrite p2_split by (unfold m; lia). reflexivity. }
  destruct (Z.eqb_spec low 0) as [Z|N]; cbn [negb].
  - exists 0. rewrite (d_all' d h l E H1 H2). split; [lia|]. split; [lia|]. split; [lia|]. lia.
  - destruct (Z.eqb_spec j 19) as [J|J].
    + exists 1073741824. assert (m = 0) as M0 by (unfold m; lia). rewrite M0 in *. change (2 ^ 0) with 1 in *.
      rewrite Z.mod_1_r in *. split; [lia|]. split; [lia|]. split; [|lia].
      unfold ins. rewrite Uh. change (u32 1073741824) with 1073741824. change (2 ^ 32) with 4294967296. lia.
    + rewrite land_high by (change (2 ^ 32) with 4294967296; unfold m; lia).
      set (y := Z.shiftr 131072 j).
      assert (Y : 0 <= y < 2 ^ m /\ (j <> 18 -> 0 < y) /\ (j = 18 -> y = 0)).
      { unfold y. change 131072 with (2 ^ 17). destruct (Z_le_gt_dec j 17) as [J7|J7].
        - rewrite shiftr_pow by lia. pose proof (p2 (17 - j) ltac:(lia)).
          replace m with (2 + (17 - j)) by (unfold m; lia). rewrite p2_split by lia. change (2 ^ 2) with 4. lia.
        - assert (j = 18) as -> by lia. change (Z.shiftr (2 ^ 17) 18) with 0. lia. }
      destruct Y as (Y1 & Y2 & Y3). clearbody y.
      exists (y * 4294967296 + l).
      split; [rewrite P51m; nia|]. split; [lia|].
      assert (Lor : Z.lor (h - h mod 2 ^ m) y = h - h mod 2 ^ m + y).
      { pose proof (Z.div_mod h (2 ^ m) ltac:(lia)) as DM.
        replace (h - h mod 2 ^ m) with (h / 2 ^ m * 2 ^ m) by lia. apply lor_disjoint; [unfold m; lia|lia]. }
      rewrite Lor. split.
      * unfold ins. rewrite u32_s32. rewrite (u32_id l) by (change (2 ^ 32) with 4294967296; lia).
        assert (U : 0 <= h - h mod 2 ^ m + y < 4294967296).
        { split; [lia|]. pose proof (Z.div_mod h (2 ^ m) ltac:(lia)) as DM.
          assert (Q : 4294967296 = 2 ^ m * 2 ^ (32 - m)).
          { rewrite <- p2_split by (unfold m; lia). change 4294967296 with (2 ^ 32). f_equal. lia. }
          assert (h / 2 ^ m < 2 ^ (32 - m)) by (apply Z.div_lt_upper_bound; lia).
          clear - DM Q H Y1 Pm. nia. }
        rewrite u32_id by (change (2 ^ 32) with 4294967296; lia).
        change (2 ^ 32) with 4294967296. lia.
      * split; [|lia]. intros [J8|L0]; [specialize (Y2 J8)|]; lia.
Qed.

(** The word handed to the additions when it ends in the low word (lines 85-91). *)
Lemma rint_lo_word : 20 <= j < 52 ->
  let low := a mod 2 ^ (51 - j) in
  exists low', 0 <= low' < 2 ^ (51 - j) /\ 0 <= low < 2 ^ (51 - j) /\
  ins false (s32 h) (if negb (Z.land l (Z.shiftr (d_mask_lo j) 1) =? 0)
                then Z.lor (Z.land l (not32 (Z.shiftr (d_mask_lo j) 1))) (Z.shiftr 1073741824 (j - 20))
                else l) = sbit double s + (a - low + low') /\
  (low' = 0 <-> low = 0).
Proof.
  intros Hj low. destruct dw as (E & H1 & H2 & H3 & H4 & H5).
  pose proof (d_split d a h l j s W Da Ds Dh Dl Dj) as [Ed Bd].
  pose proof (d_h_u32 d a h l j s W Da Ds Dh Dl Dj) as Uh.
  rewrite (lo_mask d a h l j s W Da Ds Dh Dl Dj Hj).
  set (m := 51 - j) in *.
  assert (Z.shiftr (2 ^ (52 - j) - 1) 1 = 2 ^ m - 1) as ->.
  { rewrite shiftr_ones by lia. unfold m. do 2 f_equal. lia. }
  rewrite land_low by (unfold m; lia).
  pose proof (p2 m ltac:(unfold m; lia)) as Pm.
  assert (Lw : low = l mod 2 ^ m).
  { unfold low. rewrite (d_l_mod d a h l j s W Da Ds Dh Dl Dj). change 4294967296 with (2 ^ 32).
    replace 32 with (m + (32 - m)) by lia. rewrite p2_split by (unfold m; lia).
    pose proof (p2 (32 - m) ltac:(unfold m; lia)). now rewrite mod_mod_mul by lia. }
  pose proof (Z.mod_pos_bound l (2 ^ m) Pm) as Rm. rewrite <- Lw in *.
  pose proof (Z.mod_le l (2 ^ m) ltac:(lia) Pm) as Lm. rewrite <- Lw in *.
  destruct (Z.eqb_spec low 0) as [Z|N]; cbn [negb].
  - exists 0. rewrite (d_all' d h l E H1 H2). lia.
  - assert (J : j < 51).
    { destruct (Z.eq_dec j 51) as [J|]; [|lia]. exfalso. apply N. rewrite Lw.
      replace m with 0 by (unfold m; lia). apply Z.mod_1_r. }
    assert (Y : Z.shiftr 1073741824 (j - 20) = 2 ^ (m - 1)).
    { change 1073741824 with (2 ^ 30). rewrite shiftr_pow by lia. f_equal. unfold m. lia. }
    rewrite Y. pose proof (p2 (m - 1) ltac:(unfold m; lia)) as P1.
    assert (P2 : 2 ^ m = 2 * 2 ^ (m - 1)).
    { replace m with (1 + (m - 1)) at 1 by lia. rewrite p2_split by (unfold m; lia). reflexivity. }
    exists (2 ^ (m - 1)). split; [lia|]. split; [lia|]. split; [|lia].
    rewrite land_high by (change (2 ^ 32) with 4294967296; unfold m; lia). rewrite <- Lw.
    pose proof (Z.div_mod l (2 ^ m) ltac:(lia)) as DM. rewrite <- Lw in DM.
    replace (l - low) with (l / 2 ^ m * 2 ^ m) by lia.
    rewrite lor_disjoint by (unfold m in *; lia).
    assert (U : l / 2 ^ m * 2 ^ m + 2 ^ m <= 4294967296).
    { assert (Q : 4294967296 = 2 ^ m * 2 ^ (32 - m)).
      { rewrite <- p2_split by (unfold m; lia). change 4294967296 with (2 ^ 32). f_equal. lia. }
      assert (l / 2 ^ m < 2 ^ (32 - m)) by (apply Z.div_lt_upper_bound; lia).
      clear - Q H Pm. nia. }
    unfold ins. rewrite Uh, u32_id by (change (2 ^ 32) with 4294967296; lia).
    change (2 ^ 32) with 4294967296. lia.
Qed.
End Words.

Lemma lor_sign : forall A (s : bool), 0 <= A < 2147483648 ->
  u32 (Z.lor A (s32 (Z.shiftl (if s then 1 else 0) 31))) = (if s then 2147483648 else 0) + A.
Proof.
  intros A s H. destruct s.
  - change (s32 (Z.shiftl 1 31)) with ((-1) * 2 ^ 31).
    rewrite Z.lor_comm, lor_disjoint by (change (2 ^ 31) with 2147483648; lia).
    unfold u32. replace ((-1) * 2 ^ 31 + A) with (2147483648 + A + (-1) * 2 ^ 32) by
      (change (2 ^ 31) with 2147483648; change (2 ^ 32) with 4294967296; lia).
    rewrite Z.mod_add by (compute; discriminate).
    apply Z.mod_small. change (2 ^ 32) with 4294967296. lia.
  - change (s32 (Z.shiftl 0 31)) with 0. rewrite Z.lor_0_r.
    rewrite u32_id by (change (2 ^ 32) with 4294967296; lia). reflexivity.
Qed.

(** The sign put back (lines 64-66). *)
Lemma rint_small_end : forall t (s : bool), word double t ->
  set_hi false t (Z.lor (Z.land (s32 (hi false t)) 2147483647) (s32 (Z.shiftl (if s then 1 else 0) 31))) =
  sbit double s + absw double t.
Proof.
  intros t s W. pose proof (d_land_abs t _ _ _ _ _ W eq_refl eq_refl eq_refl eq_refl eq_refl) as La.
  pose proof (d_split t _ _ _ _ _ W eq_refl eq_refl eq_refl eq_refl eq_refl) as [_ B].
  pose proof (d_l_mod t _ _ _ _ _ W eq_refl eq_refl eq_refl eq_refl eq_refl) as L.
  rewrite La. unfold set_hi, ins. rewrite lor_sign by (clear - B; lia). rewrite L. rewrite d_sbit.
  change (2 ^ 32) with 4294967296.
  rewrite u32_id by (change (2 ^ 32) with 4294967296; clear; lia). clear. destruct s; lia.
Qed.

(** The number handed to the additions when |x| < 1 (lines 58-61). *)
Lemma rint_small_word : forall d, word double d ->
  exists b,
    set_hi false d (s32 (Z.lor (u32 (s32 (Z.land (u32 (s32 (hi false d))) 4294836224)))
      (Z.land (Z.shiftr (Z.lor (u32 (Z.lor (lo false d) (Z.land (s32 (hi false d)) 1048575)))
                               (u32 (- u32 (Z.lor (lo false d) (Z.land (s32 (hi false d)) 1048575))))) 12) 524288)))
    = sbit double (neg double d) + b /\
    0 <= b /\ b / 4503599627370496 = absw double d / 4503599627370496 /\
    (b mod 4503599627370496 = 0 <-> absw double d mod 4503599627370496 = 0).
Proof.
  intros d W. words_setup d W. clear Xe S1 S2 All Zt Inex Ht Lt Hc Lc Hu Lu.
  pose proof (d_words d a h l j s W Da Ds Dh Dl Dj) as (Wd & Wh & Wl & Wa & Wr & Ws).
  pose proof (hi_mod_gen d a h l j s W Da Ds Dh Dl Dj 20 ltac:(lia)) as Hm.
  rewrite (d_h_u32 d a h l j s W Da Ds Dh Dl Dj).
  change (2 ^ (32 + 20)) with 4503599627370496 in Hm. change (2 ^ 20) with 1048576 in Hm.
  assert (I : Z.land (s32 h) 1048575 = h mod 1048576).
  { change 1048575 with (2 ^ 20 - 1). rewrite land_low by lia. rewrite Hsg. change (2 ^ 20) with 1048576.
    clear. destruct s; lia. }
  rewrite I. set (i1 := u32 (Z.lor l (h mod 1048576))).
  assert (I0 : 0 <= i1 < 2 ^ 32) by (unfold i1, u32; apply Z.mod_pos_bound; reflexivity).
  assert (I1 : i1 = 0 <-> a mod 4503599627370496 = 0).
  { unfold i1. rewrite u32_id.
    - rewrite Z.lor_eq_0_iff, Hm. clear - Wl Wh. lia.
    - split; [apply Z.lor_nonneg; clear - Wl Wh; lia|].
      destruct (Z.eq_dec (Z.lor l (h mod 1048576)) 0) as [->|N]; [reflexivity|].
      apply Z.log2_lt_pow2; [assert (0 <= Z.lor l (h mod 1048576)) by (apply Z.lor_nonneg; clear - Wl Wh; lia); lia|].
      rewrite Z.log2_lor by (clear - Wl Wh; lia). apply Z.max_lub_lt.
      + destruct (Z.eq_dec l 0) as [->|L0]; [reflexivity|]. apply Z.log2_lt_pow2; [clear - Wl L0; lia|].
        change (2 ^ 32) with 4294967296. lia.
      + destruct (Z.eq_dec (h mod 1048576) 0) as [->|L0]; [reflexivity|]. apply Z.log2_lt_pow2; [clear - Wh L0; lia|].
        change (2 ^ 32) with 4294967296. clear. lia. }
  clearbody i1. change 12 with (31 - 19). change 524288 with (2 ^ 19).
  rewrite sticky_bit by (assumption || lia).
  change 4294836224 with (not32 (2 ^ 17 - 1)).
  rewrite land_high by (change (2 ^ 32) with 4294967296; clear - Wh; lia).
  rewrite !u32_s32. change (2 ^ 17) with 131072.
  rewrite (u32_id (h - h mod 131072)) by (change (2 ^ 32) with 4294967296; clear - Wh; lia).
  unfold set_hi, ins. rewrite Dl, u32_s32, (u32_id l) by (change (2 ^ 32) with 4294967296; clear - Wl; lia).
  rewrite d_sbit in E.
  destruct (Z.eqb_spec i1 0) as [Z|N].
  - exists a. rewrite Z.lor_0_r. apply I1 in Z. rewrite d_sbit.
    rewrite (u32_id (h - h mod 131072)) by (change (2 ^ 32) with 4294967296; clear - Wh; lia).
    split; [|split; [clear - B; lia|split; reflexivity]].
    change (2 ^ 32) with 4294967296. clear - Z Hm Wd Wh Wl E. lia.
  - set (c := h / 1048576). set (t := h mod 1048576 / 131072).
    assert (Ht : 0 <= t < 8) by (unfold t; clear - Wh; lia).
    assert (X : exists t', Z.lor t 4 = t' /\ 4 <= t' < 8).
    { eexists. split; [reflexivity|].
      assert (t = 0 \/ t = 1 \/ t = 2 \/ t = 3 \/ t = 4 \/ t = 5 \/ t = 6 \/ t = 7) as D by (clear - Ht; lia).
      clear - D. destruct D as [-> |[-> |[-> |[-> |[-> |[-> |[-> | ->]]]]]]]; compute; split; congruence. }
    destruct X as (t' & X1 & X2).
    assert (Y : h - h mod 131072 = (c * 8 + t) * 2 ^ 17).
    { unfold c, t. change (2 ^ 17) with 131072. clear - Wh. lia. }
    assert (V : Z.lor (h - h mod 131072) (2 ^ 19) = (c * 8 + t') * 2 ^ 17).
    { rewrite Y. change (2 ^ 19) with (4 * 2 ^ 17).
      rewrite <- !Z.shiftl_mul_pow2 by lia. rewrite <- Z.shiftl_lor. f_equal.
      change 8 with (2 ^ 3). rewrite <- lor_disjoint by (change (2 ^ 3) with 8; clear - Ht; lia).
      rewrite <- Z.lor_assoc, X1. apply lor_disjoint; change (2 ^ 3) with 8; clear - X2; lia. }
    rewrite V. change (2 ^ 17) with 131072.
    assert (Hc : 0 <= c < 4096) by (unfold c; clear - Wh; lia).
    rewrite u32_id by (change (2 ^ 32) with 4294967296; clear - Hc X2; lia).
    rewrite d_sbit. change (2 ^ 32) with 4294967296.
    exists (((if s then c - 2048 else c) * 1048576 + t' * 131072) * 4294967296 + l).
    assert (Ea : a / 4503599627370496 = if s then c - 2048 else c).
    { unfold c. clear - Wa Wh Wl Ws. destruct s; lia. }
    assert (I2 : a mod 4503599627370496 <> 0) by (intros Q; apply N, I1, Q).
    clear - Wl Hc X2 Ea I2 Ws c Wh.
    assert (0 <= (if s then c - 2048 else c)) by (unfold c in *; destruct s; lia).
    split; [destruct s; lia|]. rewrite Ea. set (e := if s then c - 2048 else c) in *. clearbody e.
    split; [lia|]. split; [lia|]. lia.
Qed.

(** Where rint goes wrong: |x| between 2^18 and 2^19, x three quarters above an
    even number (in magnitude). *)
Definition rint_bad (d : Z) : Prop :=
  absw double d / 4503599627370496 = 1041 /\ absw double d mod 34359738368 = 12884901888.

Lemma d_two52 : forall s : bool, d_TWO52 (if s then 1 else 0) = two_mb double s.
Proof. intros [|]; reflexivity. Qed.

Lemma d_sx : forall d, word double d ->
  Z.land (Z.shiftr (s32 (hi false d)) 31) 1 = if neg double d then 1 else 0.
Proof.
  intros d W. words_setup d W. rewrite Z.shiftr_div_pow2 by lia. change 1 with (2 ^ 1 - 1) at 1.
  rewrite land_low by lia. change (2 ^ 31) with 2147483648. change (2 ^ 1) with 2.
  pose proof (d_words d a h l j s W Da Ds Dh Dl Dj) as (_ & Wh & Wl & Wa & Wr & Ws).
  rewrite Hsg. clear - Wh Ws. destruct s; lia.
Qed.

Lemma rint_finite : forall d, word double d -> finite double d -> ~ rint_bad d ->
  rint_of double d (c_rint false d).
Proof.
  intros d W Fd Good. unfold c_rint. rewrite (d_sx d W), d_two52.
  destruct (rint_small_word d W) as (b & Eb & Hb & Hb1 & Hb2).
  pose proof (fun b => rint_small_result double d_mb d_eb d_range d b W Fd) as Small.
  pose proof (fun b => rint_mid_result double d_mb d_eb d_range d b W Fd) as Mid.
  pose proof (fun n => rint_same double d_mb d_eb d_range d n W Fd) as Same.
  cbv zeta in Small, Mid. cbn [mb double] in Small, Mid. change (bias double) with 1023 in *.
  change (2 ^ 52) with 4503599627370496 in *.
  unfold rint_bad in Good. unfold finite in Fd. rewrite d_infw in Fd.
  words_setup d W. clear S1 S2 All Inex Hc Lc Hu Lu.
  change (2 ^ 52) with 4503599627370496 in Dj.
  pose proof (d_words d a h l j s W Da Ds Dh Dl Dj) as (Wd & Wh & Wl & Wa & Wr & Ws).
  rewrite Xe.
  assert (Zt2 : (Z.lor (u32 (Z.land (s32 h) 2147483647)) l =? 0) = (a =? 0)).
  { rewrite (d_land_abs d a h l j s W Da Ds Dh Dl Dj).
    rewrite u32_id by (change (2 ^ 32) with 4294967296; clear - B; lia).
    rewrite lor_zero by (try assumption; clear - B; lia).
    pose proof (d_l_mod d a h l j s W Da Ds Dh Dl Dj) as Lm.
    replace (a / 4294967296 * 4294967296 + l) with a by (clear - Lm; lia). reflexivity. }
  rewrite Zt2.
  pose proof (d_l_u32 d a h l j s W Da Ds Dh Dl Dj) as Ul. rewrite Ul in Ht, Lt.
  assert (Int : a mod 2 ^ (52 - j) = 0 -> 0 <= j < 52 -> rint_of double d d).
  { intros A Hj. destruct (mid_clear_integral double d_mb d_eb d_range a (52 - j)) as [n Hn].
    - clear - B. lia.
    - cbn [mb double]. clear - Hj. lia.
    - cbn [mb double]. change (bias double) with 1023. change (2 ^ 52) with 4503599627370496. clear - Dj. lia.
    - apply (Same n). rewrite A, Z.sub_0_r in Hn. exact Hn. }
  (* the middle range *)
  assert (Middle : forall low', 0 <= j < 52 -> 0 <= low' < 2 ^ (51 - j) -> 0 <= a mod 2 ^ (51 - j) < 2 ^ (51 - j) ->
    (a mod 2 ^ (51 - j) <> 0 -> low' = 0 -> j = 18 /\ l = 0) -> (a mod 2 ^ (51 - j) = 0 -> low' = 0) ->
    rint_of double d (fsub double (fadd double (two_mb double s)
       (sbit double s + (a - a mod 2 ^ (51 - j) + low'))) (two_mb double s))).
  { clear Eb b Hb Hb1 Hb2 Small. intros low' Hj L1 L2 L3 L4.
    set (low := a mod 2 ^ (51 - j)) in *. set (g := a / 2 ^ (51 - j)).
    pose proof (p2 (51 - j) ltac:(clear - Hj; lia)) as P.
    assert (Eg : a = g * 2 ^ (51 - j) + low).
    { unfold g, low. rewrite (Z.div_mod a (2 ^ (51 - j))) at 1 by (clear - P; lia). clear; lia. }
    assert (Hg : 0 <= g) by (unfold g; apply Z.div_pos; [clear - B; lia|exact P]).
    replace (a - low + low') with (g * 2 ^ (51 - j) + low') by (clear - Eg; lia).
    assert (Kr : 1 <= 52 - j <= mb double) by (cbn [mb double]; clear - Hj; lia).
    assert (Ke : a / 2 ^ mb double = bias double + mb double - (52 - j)).
    { cbn [mb double]. change (bias double) with 1023. change (2 ^ 52) with 4503599627370496. clear - Dj. lia. }
    pose proof (fun q => sticky_class double d_mb d_eb d_range g low low' (52 - j) q) as St. cbv zeta in St.
    replace (52 - j - 1) with (51 - j) in St by (clear; lia). rewrite <- Eg in St.
    apply Mid.
    - apply Z.add_nonneg_nonneg; [apply Z.mul_nonneg_nonneg|]; [exact Hg|clear - P; lia|clear - L1; lia].
    - clear - Dj Hj. lia.
    - destruct (St 0 Hg Kr Ke L2 L1) as [Q _]. exact Q.
    - intros q. destruct (St q Hg Kr Ke L2 L1) as (_ & Q & Am & Bm).
      destruct (Z.eq_dec low 0) as [Z|N].
      { apply Q. specialize (L4 Z). clear - L4 Z. tauto. }
      destruct (Z.eq_dec low' 0) as [Z'|N']; [|apply Q; clear - N N'; tauto].
      destruct (L3 N Z') as [J18 Hl0]. clear Q St L3 L4.
      (* exponent 18, the quarter lost *)
      assert (Lw : low = 4294967296).
      { pose proof (hi_mod_gen d a h l j s W Da Ds Dh Dl Dj 1 ltac:(lia)) as X.
        unfold low in *. rewrite J18 in *. change (51 - 18) with (32 + 1) in *. rewrite X in *. rewrite Hl0 in *.
        change (2 ^ 1) with 2 in *. clear - N. lia. }
      rewrite J18 in *. change (51 - 18) with 33 in *. change (52 - 18) with 34 in *.
      assert (D : g mod 2 = 0 \/ g mod 2 = 1) by (clear; lia).
      destruct D as [D|D].
      + apply (mid_class double d_mb d_eb d_range a (g * 2 ^ 33 + low') 34).
        * clear - B. lia.
        * change (2 ^ 33) with 8589934592. clear - Hg L1. lia.
        * cbn [mb double]. lia.
        * exact Ke.
        * cbn [mb double]. change (2 ^ 52) with 4503599627370496. change (2 ^ 33) with 8589934592 in *.
          clear - Eg Z' Lw. lia.
        * rewrite Am, Bm. clear - Eg. lia.
        * rewrite Am, Bm, D, Lw, Z'. reflexivity.
      + intros NE. apply (mid_three double d_mb d_eb d_range a 34).
        * clear - B. lia.
        * cbn [mb double]. lia.
        * exact Ke.
        * rewrite Am, D, Lw. reflexivity.
        * change (2 ^ 34) with 17179869184. change (2 ^ 33) with 8589934592 in *. clear - Good Eg Dj D Lw.
          destruct (Z.eq_dec (a / 17179869184 mod 2) 1) as [?|N]; [assumption|exfalso]. apply Good. lia.
        * change (34 - 1) with 33. change (2 ^ 34) with 17179869184 in *. change (2 ^ 33) with 8589934592 in *.
          replace (a - a mod 17179869184 + 8589934592) with (g * 8589934592 + low'); [exact NE|].
          rewrite Am. clear - Eg D Z'. lia. }
  destruct (Z.ltb_spec j 20) as [J20|J20].
  - destruct (Z.ltb_spec j 0) as [J0|J0].
    + destruct (Z.eqb_spec a 0) as [A|A].
      * apply (Same 0). rewrite A. reflexivity.
      * rewrite Eb. destruct (Small b) as [Wr' R].
        { exact Hb. }
        { clear - J0 Dj. lia. }
        { exact Hb1. }
        { exact Hb2. }
        rewrite (rint_small_end _ s Wr'). exact R.
    + rewrite Ht by (clear - J0 J20; lia).
      destruct (Z.eqb_spec (a mod 2 ^ (52 - j)) 0) as [A|A]; [apply Int; [exact A|clear - J0 J20; lia]|].
      destruct (rint_hi_word d a h l j s W Da Ds Dh Dl Dj ltac:(clear - J0 J20; lia)) as (low' & L1 & L2 & Ew & L3 & L4).
      match goal with |- rint_of _ _ (let '(_, _) := ?e in _) => destruct e as [i0 i1] end.
      rewrite Ew. apply Middle; [clear - J0 J20; lia|exact L1|exact L2| |].
      * intros N Z'. destruct (Z.eq_dec j 18) as [J|J]; [destruct (Z.eq_dec l 0) as [Q|Q]; [tauto|]|];
        exfalso; apply N; apply L3; tauto.
      * intros Z. destruct (Z.eq_dec j 18) as [J|J]; [destruct (Z.eq_dec l 0) as [Q|Q]|];
        [now apply L4|apply L3; tauto|apply L3; tauto].
  - destruct (Z.ltb_spec 51 j) as [J51|J51].
    + destruct (Z.eqb_spec j 1024) as [J|J].
      { exfalso. clear - J Dj Fd. lia. }
      destruct (mag_integral double d_mb d_eb d_range a) as [n Hn].
      { cbn [mb double]. change (bias double) with 1023. change (2 ^ 52) with 4503599627370496. clear - J51 Dj. lia. }
      apply (Same n Hn).
    + rewrite Lt by (clear - J20 J51; lia).
      destruct (Z.eqb_spec (a mod 2 ^ (52 - j)) 0) as [A|A]; [apply Int; [exact A|clear - J20 J51; lia]|].
      destruct (rint_lo_word d a h l j s W Da Ds Dh Dl Dj ltac:(clear - J20 J51; lia)) as (low' & L1 & L2 & Ew & L3).
      rewrite Ew. apply Middle; [clear - J20 J51; lia|exact L1|exact L2| |].
      * intros N Z'. exfalso. apply N. now apply L3.
      * intros Z. now apply L3.
Qed.
