(** scalbn, ldexp, frexp, ilogb, logb and modf (libpok/libm), for float and double. *)
From Verif Require Import Model.Base Spec.Ieee Spec.LibmSpec Model.Float Model.Libm
  Proof.Tac Proof.FloatProof Proof.FloatRound Proof.FloatScale Proof.FloatParts Proof.LibmfProof Proof.LibmfRint Proof.LibmfRound
  Proof.LibmdProof Proof.LibmdRound Proof.LibmdRint Proof.LibmSign Proof.LibmNext Proof.LibmScale.

(** ** scalbn *)
Lemma scalbnf_spec : forall x n, word single x -> finite single x ->
  (forall r, c_scalbnf x n = Some r -> scaled single x n r /\ (is_zero single x -> r = x)) /\
  (-2147483623 <= n <= 2147483393 -> exists r, c_scalbnf x n = Some r).
Proof.
  intros x n W Fx. destruct (Z.eq_dec (absw single x) 0) as [A0|A0].
  - assert (E : c_scalbnf x n = Some x).
    { unfold c_scalbnf. cbv zeta. rewrite (s_land_abs x W), (s_field x W), A0. reflexivity. }
    rewrite E. split; [|eexists; reflexivity]. intros r R. injection R as <-. split; [|reflexivity].
    unfold scaled. rewrite (val_neg single s_mb s_eb s_range x W), A0.
    destruct (s_split x W) as [Ex _]. rewrite A0, Z.add_0_r in Ex.
    assert (V0 : forall s, sgn_of s (mag single 0) = 0) by (intros []; reflexivity).
    rewrite V0. destruct (Z.leb_spec 0 n).
    + rewrite Z.mul_0_l, Ex. apply (zero_rounds single s_mb s_eb s_range). lia.
    + rewrite Ex. apply (zero_rounds single s_mb s_eb s_range). apply p2. lia.
  - rewrite scalbnf_body by assumption.
    assert (HP : mb single + 2 <= 25 < bias single) by (vm_compute; split; congruence).
    assert (Ht : 0 <= f_tiny < infw single) by (vm_compute; split; congruence).
    assert (Hs : 2 * mag single f_tiny * (2 ^ mb single * 2 ^ 25) < one single) by (vm_compute; reflexivity).
    destruct (scalb_body_spec single s_mb s_eb s_range 25 f_tiny f_huge HP ltac:(lia) s_huge s_tiny Ht Hs x n W Fx A0) as [S1 S2].
    split.
    + intros r R. split; [apply (scaled_num single s_mb s_eb s_range); [exact W|apply S1; exact R]|].
      intros Z. exfalso. apply A0. exact Z.
    + intros Hn. destruct (scalb_body single 25 f_tiny f_huge x n) as [r|]; [exists r; reflexivity|].
      exfalso. specialize (S2 eq_refl). change (bias single) with 127 in S2. lia.
Qed.

Lemma scalbnf_special : forall x n, word single x ->
  (is_inf single x -> c_scalbnf x n = Some x) /\
  (is_nan single x -> exists r, c_scalbnf x n = Some r /\ is_nan single r).
Proof.
  intros x n W. destruct (s_split x W) as [_ B].
  assert (E : infw single <= absw single x -> c_scalbnf x n = Some (fadd single x x)).
  { rewrite s_infw. intros H. unfold c_scalbnf. cbv zeta. rewrite (s_land_abs x W), (s_field x W).
    assert (absw single x / 8388608 = 255) as -> by lia. reflexivity. }
  split; intros H.
  - rewrite E by (unfold is_inf in H; lia). rewrite (fadd_inf_self single s_mb s_eb s_range x H). reflexivity.
  - rewrite E by (unfold is_nan in H; lia). eexists. split; [reflexivity|].
    exact (proj1 (fadd_nan single s_mb s_eb s_range x x W H)).
Qed.

Lemma scalbn_spec : forall x n, word double x -> finite double x ->
  (forall r, c_scalbn false x n = Some r -> scaled double x n r /\ (is_zero double x -> r = x)) /\
  (-2147483594 <= n <= 2147481601 -> exists r, c_scalbn false x n = Some r).
Proof.
  intros x n W Fx. destruct (Z.eq_dec (absw double x) 0) as [A0|A0].
  - assert (E : c_scalbn false x n = Some x).
    { unfold c_scalbn. cbv zeta. rewrite (d_zero_or x W), (d_field x W), A0. reflexivity. }
    rewrite E. split; [|eexists; reflexivity]. intros r R. injection R as <-. split; [|reflexivity].
    unfold scaled. rewrite (val_neg double d_mb d_eb d_range x W), A0.
    destruct (d_bound x W) as [Ex _]. rewrite A0, Z.add_0_r in Ex.
    assert (V0 : forall s, sgn_of s (mag double 0) = 0) by (intros []; reflexivity).
    rewrite V0. destruct (Z.leb_spec 0 n).
    + rewrite Z.mul_0_l, Ex. apply (zero_rounds double d_mb d_eb d_range). lia.
    + rewrite Ex. apply (zero_rounds double d_mb d_eb d_range). apply p2. lia.
  - rewrite scalbn_body by assumption.
    assert (HP : mb double + 2 <= 54 < bias double) by (vm_compute; split; congruence).
    assert (Ht : 0 <= d_tiny < infw double) by (vm_compute; split; congruence).
    assert (Hs : 2 * mag double d_tiny * (2 ^ mb double * 2 ^ 54) < one double) by (vm_compute; reflexivity).
    destruct (scalb_body_spec double d_mb d_eb d_range 54 d_tiny d_huge HP ltac:(lia) d_huge_sq d_tiny_sq Ht Hs x n W Fx A0) as [S1 S2].
    split.
    + intros r R. split; [apply (scaled_num double d_mb d_eb d_range); [exact W|apply S1; exact R]|].
      intros Z. exfalso. apply A0. exact Z.
    + intros Hn. destruct (scalb_body double 54 d_tiny d_huge x n) as [r|]; [exists r; reflexivity|].
      exfalso. specialize (S2 eq_refl). change (bias double) with 1023 in S2. lia.
Qed.

Lemma scalbn_special : forall x n, word double x ->
  (is_inf double x -> c_scalbn false x n = Some x) /\
  (is_nan double x -> exists r, c_scalbn false x n = Some r /\ is_nan double r).
Proof.
  intros x n W. destruct (d_bound x W) as [_ B].
  assert (E : infw double <= absw double x -> c_scalbn false x n = Some (fadd double x x)).
  { rewrite d_infw. intros H. unfold c_scalbn. cbv zeta. rewrite (d_zero_or x W), (d_field x W).
    assert (absw double x / 4503599627370496 = 2047) as -> by lia. reflexivity. }
  split; intros H.
  - rewrite E by (unfold is_inf in H; lia). rewrite (fadd_inf_self double d_mb d_eb d_range x H). reflexivity.
  - rewrite E by (unfold is_nan in H; lia). eexists. split; [reflexivity|].
    exact (proj1 (fadd_nan double d_mb d_eb d_range x x W H)).
Qed.

(** ldexp.c only adds a test to scalbn.c. *)
Lemma ldexpf_same : forall x n, word single x -> ~ is_nan single x -> c_ldexpf x n = c_scalbnf x n.
Proof.
  intros x n W N. unfold c_ldexpf. destruct (finitef_spec x W) as [F1 F2].
  destruct (scalbnf_special x n W) as [I _].
  destruct (Z_lt_le_dec (absw single x) (infw single)) as [L|G].
  - rewrite F1 by exact L. change (1 =? 0) with false. cbn [orb].
    rewrite (feq_val single s_mb s_eb s_range x 0) by (exact W || exact L || (split; vm_compute; congruence) || (vm_compute; reflexivity)).
    destruct (Z.eqb_spec (val single x) (val single 0)) as [V|V]; [|reflexivity].
    symmetry. unfold c_scalbnf. cbv zeta. rewrite (s_land_abs x W), (s_field x W).
    assert (absw single x = 0) as ->; [|reflexivity].
    destruct (s_split x W) as [_ B]. apply (mag_zero single s_mb s_eb s_range); [lia|].
    change (val single 0) with 0 in V. unfold val in V. destruct (neg single x); lia.
  - assert (is_inf single x) as Hi by (unfold is_inf, is_nan in *; lia).
    rewrite F2 by (unfold finite; lia). cbn [orb]. change (0 =? 0) with true. symmetry. apply I. exact Hi.
Qed.

Lemma ldexp_same : forall x n, word double x -> ~ is_nan double x -> c_ldexp false x n = c_scalbn false x n.
Proof.
  intros x n W N. unfold c_ldexp. destruct (finite_spec x W) as [F1 F2].
  destruct (scalbn_special x n W) as [I _].
  destruct (Z_lt_le_dec (absw double x) (infw double)) as [L|G].
  - rewrite F1 by exact L. change (1 =? 0) with false. cbn [orb].
    rewrite (feq_val double d_mb d_eb d_range x 0) by (exact W || exact L || (split; vm_compute; congruence) || (vm_compute; reflexivity)).
    destruct (Z.eqb_spec (val double x) (val double 0)) as [V|V]; [|reflexivity].
    symmetry. unfold c_scalbn. cbv zeta. rewrite (d_zero_or x W), (d_field x W).
    assert (absw double x = 0) as ->; [|reflexivity].
    destruct (d_bound x W) as [_ B]. apply (mag_zero double d_mb d_eb d_range); [lia|].
    change (val double 0) with 0 in V. unfold val in V. destruct (neg double x); lia.
  - assert (is_inf double x) as Hi by (unfold is_inf, is_nan in *; lia).
    rewrite F2 by (unfold finite; lia). cbn [orb]. change (0 =? 0) with true. symmetry. apply I. exact Hi.
Qed.

Lemma ldexpf_nan : forall x n, word single x -> is_nan single x -> c_ldexpf x n = Some x.
Proof.
  intros x n W N. unfold c_ldexpf. rewrite (proj2 (finitef_spec x W)); [reflexivity|]. unfold finite, is_nan in *. lia.
Qed.
Lemma ldexp_nan : forall x n, word double x -> is_nan double x -> c_ldexp false x n = Some x.
Proof.
  intros x n W N. unfold c_ldexp. rewrite (proj2 (finite_spec x W)); [reflexivity|]. unfold finite, is_nan in *. lia.
Qed.

(** ** frexp *)
Lemma frexpf_spec : forall x f e, word single x -> finite single x -> ~ is_zero single x ->
  c_frexpf x = (f, e) -> frexp_of single x f e.
Proof.
  intros x f e W Fx N0 R. unfold is_zero in N0. unfold finite in Fx. rewrite s_infw in Fx. destruct (s_split x W) as [Ex B].
  assert (K : exists a1 p0, 8388608 <= a1 < 2139095040 /\ 0 <= p0 <= 25 /\ mag single a1 = mag single (absw single x) * 2 ^ p0 /\
     f = set_float (Z.lor (Z.land (u32 (get_float (sbit single (neg single x) + a1))) 2155872255) (Z.shiftl 126 23)) /\
     e = s32 (- p0 + (Z.shiftr a1 23 - 126))).
  { unfold c_frexpf in R. cbv zeta in R. rewrite Z.land_comm in R. rewrite (s_land_abs x W) in R.
    replace (2139095040 <=? absw single x) with false in R by (symmetry; apply Z.leb_gt; exact Fx).
    replace (absw single x =? 0) with false in R by (symmetry; apply Z.eqb_neq; exact N0). cbn [orb] in R.
    unfold set_float in R |- *.
    destruct (Z.ltb_spec (absw single x) 8388608) as [Lt|Ge].
    - destruct (scale_up single s_mb s_eb s_range x 25 W) as (a1 & A1 & A2 & A3).
      + cbn [mb single]. change (2 ^ 23) with 8388608. lia.
      + cbn [mb single]. change (bias single) with 127. lia.
      + cbn [mb single] in A1. change (2 ^ 23) with 8388608 in A1. rewrite s_infw in A1.
        change ((bias single + 25) * 2 ^ mb single) with f_two25 in A3. rewrite A3 in R.
        destruct (word_of single s_mb s_eb s_range (neg single x) a1 ltac:(rewrite s_sgnw; lia)) as (W1 & S1 & Ab).
        cbv beta iota in R. rewrite (s_land_abs _ W1), Ab, u32_s32 in R. apply pair_equal_spec in R. destruct R as [R1 R2].
        exists a1, 25. repeat split; try lia; try exact A2; symmetry; assumption.
    - rewrite u32_s32 in R. apply pair_equal_spec in R. destruct R as [R1 R2]. exists (absw single x), 0. rewrite <- Ex.
      repeat split; try lia; symmetry; assumption. }
  destruct K as (a1 & p0 & R1 & P0 & Em & -> & ->).
  destruct (word_of single s_mb s_eb s_range (neg single x) a1 ltac:(rewrite s_sgnw; lia)) as (W1 & S1 & A1).
  rewrite (s_set_exp _ 126 W1) by lia. rewrite S1, A1. rewrite Z.shiftr_div_pow2 by lia. change (2 ^ 23) with 8388608.
  rewrite s32_id by lia.
  pose proof (frexp_core single s_mb s_eb s_range x a1 p0 W) as X. cbn [mb single] in X. change (2 ^ 23) with 8388608 in X.
  rewrite s_infw in X. change (bias single - 1) with 126 in X.
  replace (- p0 + (a1 / 8388608 - 126)) with (a1 / 8388608 - 126 - p0) by lia. apply X; [exact R1|lia|exact Em].
Qed.

Lemma frexpf_other : forall x, word single x -> ~ finite single x \/ is_zero single x -> c_frexpf x = (x, 0).
Proof.
  intros x W H. unfold c_frexpf. cbv zeta. rewrite Z.land_comm, (s_land_abs x W). unfold finite, is_zero in H. rewrite s_infw in H.
  assert ((2139095040 <=? absw single x) || (absw single x =? 0) = true) as ->; [|reflexivity].
  apply orb_true_iff. rewrite Z.leb_le, Z.eqb_eq. lia.
Qed.

Lemma frexp_spec : forall x f e, word double x -> finite double x -> ~ is_zero double x ->
  c_frexp false x = (f, e) -> frexp_of double x f e.
Proof.
  intros x f e W Fx N0 R. unfold is_zero in N0. unfold finite in Fx. rewrite d_infw in Fx. destruct (d_bound x W) as [Ex B].
  destruct (d_hi_abs x W) as (_ & _ & _ & _ & P).
  assert (K : exists a1 p0, 4503599627370496 <= a1 < 9218868437227405312 /\ 0 <= p0 <= 54 /\
     mag double a1 = mag double (absw double x) * 2 ^ p0 /\
     f = set_hi false (sbit double (neg double x) + a1)
           (Z.lor (Z.land (u32 (s32 (hi false (sbit double (neg double x) + a1)))) 2148532223) (Z.shiftl 1022 20)) /\
     e = s32 (u32 (u32 (- p0) + u32 (Z.shiftr (u32 (a1 / 4294967296)) 20 - 1022)))).
  { unfold c_frexp in R. cbv zeta in R. rewrite Z.land_comm in R.
    rewrite (Z.lor_comm (Z.land _ _)), (d_zero_or x W), P in R.
    replace (2146435072 <=? absw double x / 4294967296) with false in R by (symmetry; apply Z.leb_gt; lia).
    replace (absw double x =? 0) with false in R by (symmetry; apply Z.eqb_neq; exact N0). cbn [orb] in R.
    unfold set_hi, ins in R |- *.
    destruct (Z.ltb_spec (absw double x / 4294967296) 1048576) as [Lt|Ge].
    - destruct (scale_up double d_mb d_eb d_range x 54 W) as (a1 & A1 & A2 & A3).
      + cbn [mb double]. change (2 ^ 52) with 4503599627370496. lia.
      + cbn [mb double]. change (bias double) with 1023. lia.
      + cbn [mb double] in A1. change (2 ^ 52) with 4503599627370496 in A1. rewrite d_infw in A1.
        change ((bias double + 54) * 2 ^ mb double) with d_two54 in A3. rewrite A3 in R.
        destruct (word_of double d_mb d_eb d_range (neg double x) a1 ltac:(rewrite d_sgnw; lia)) as (W1 & S1 & Ab).
        destruct (d_hi_abs _ W1) as (_ & _ & _ & _ & P1). cbv beta iota in R. rewrite P1, Ab, u32_s32 in R. apply pair_equal_spec in R. destruct R as [R1 R2].
        exists a1, 54. repeat split; try lia; try exact A2; symmetry; assumption.
    - rewrite u32_s32 in R. apply pair_equal_spec in R. destruct R as [R1 R2]. exists (absw double x), 0. rewrite <- Ex.
      repeat split; try lia; symmetry; assumption. }
  destruct K as (a1 & p0 & R1 & P0 & Em & -> & ->).
  destruct (word_of double d_mb d_eb d_range (neg double x) a1 ltac:(rewrite d_sgnw; lia)) as (W1 & S1 & A1).
  rewrite (d_set_exp _ 1022 W1) by lia. rewrite S1, A1.
  assert (E : s32 (u32 (u32 (- p0) + u32 (Z.shiftr (u32 (a1 / 4294967296)) 20 - 1022))) = a1 / 4503599627370496 - 1022 - p0).
  { rewrite (u32_id (a1 / 4294967296)) by (change (2 ^ 32) with 4294967296; lia).
    rewrite Z.shiftr_div_pow2 by lia. change (2 ^ 20) with 1048576. rewrite Z.div_div by lia.
    change (4294967296 * 1048576) with 4503599627370496.
    assert (Q : 1 <= a1 / 4503599627370496 <= 2046) by lia. set (q := a1 / 4503599627370496) in *. clearbody q.
    transitivity (s32 (- p0 + (q - 1022))); [|rewrite s32_id by (clear - Q P0; lia); ring].
    unfold s32, sgn, u32. rewrite Z.mod_mod by (compute; discriminate). rewrite <- Z.add_mod by (compute; discriminate). reflexivity. }
  rewrite E. clear E.
  pose proof (frexp_core double d_mb d_eb d_range x a1 p0 W) as X. cbn [mb double] in X. change (2 ^ 52) with 4503599627370496 in X.
  rewrite d_infw in X. change (bias double - 1) with 1022 in X. apply X; [exact R1|lia|exact Em].
Qed.

Lemma frexp_other : forall x, word double x -> ~ finite double x \/ is_zero double x -> c_frexp false x = (x, 0).
Proof.
  intros x W H. unfold c_frexp. cbv zeta. destruct (d_hi_abs x W) as (_ & _ & _ & _ & P). destruct (d_bound x W) as [_ B].
  rewrite Z.land_comm, (Z.lor_comm (Z.land _ _)), (d_zero_or x W), P.
  unfold finite, is_zero in H. rewrite d_infw in H.
  assert ((2146435072 <=? absw double x / 4294967296) || (absw double x =? 0) = true) as ->; [|reflexivity].
  apply orb_true_iff. rewrite Z.leb_le, Z.eqb_eq. lia.
Qed.

(** ** ilogb *)
Lemma shift_out_log : forall n u ix, 0 < u < 4294967296 -> 32 - Z.log2 u <= Z.of_nat n ->
  shift_out n (s32 u) ix = Some (ix - (31 - Z.log2 u)).
Proof.
  induction n as [|n IH]; intros u ix Hu Hn.
  - exfalso. assert (Z.log2 u < 32) by (apply Z.log2_lt_pow2; [lia|]; change (2 ^ 32) with 4294967296; lia). lia.
  - cbn [shift_out]. destruct (s32_cases u ltac:(change (2 ^ 32) with 4294967296; lia)) as [[A ->]|[A ->]].
    + destruct (Z.ltb_spec 0 u); [|lia]. rewrite Z.shiftl_mul_pow2 by lia. change (2 ^ 1) with 2.
      assert (L : Z.log2 (u * 2) = Z.log2 u + 1) by (rewrite Z.mul_comm, Z.log2_double by lia; lia).
      rewrite IH by lia. rewrite L. f_equal. lia.
    + destruct (Z.ltb_spec 0 (u - 4294967296)); [lia|]. f_equal.
      assert (Z.log2 u = 31); [|lia]. apply Z.log2_unique; [lia|]. change (2 ^ 31) with 2147483648.
      change (2 ^ Z.succ 31) with 4294967296. lia.
Qed.

Lemma log2_scale : forall u k, 0 < u -> 0 <= k -> Z.log2 (u * 2 ^ k) = Z.log2 u + k.
Proof. intros u k Hu Hk. rewrite Z.log2_mul_pow2 by lia. lia. Qed.

Lemma ilogbf_spec : forall x, word single x -> finite single x -> ~ is_zero single x ->
  exists e, c_ilogbf x = Some e /\ exponent_of single x e.
Proof.
  intros x W Fx N0. unfold is_zero in N0. unfold finite in Fx. rewrite s_infw in Fx. destruct (s_split x W) as [_ B].
  unfold c_ilogbf. cbv zeta. rewrite (s_land_abs x W).
  destruct (Z.ltb_spec (absw single x) 8388608) as [L|G].
  - destruct (Z.eqb_spec (absw single x) 0); [contradiction|]. rewrite Z.shiftl_mul_pow2 by lia.
    pose proof (log2_scale (absw single x) 8 ltac:(lia) ltac:(lia)) as Lg. pose proof (Z.log2_nonneg (absw single x)) as Ln.
    rewrite shift_out_log; [|change (2 ^ 8) with 256; lia|rewrite Lg; lia].
    rewrite Lg. eexists. split; [reflexivity|].
    pose proof (exponent_small single s_mb s_eb s_range x W) as X. cbn [mb single] in X. change (2 ^ 23) with 8388608 in X.
    change (bias single + 23 - 1) with 149 in X.
    replace (-126 - (31 - (Z.log2 (absw single x) + 8))) with (Z.log2 (absw single x) - 149) by lia. apply X. lia.
  - destruct (Z.ltb_spec (absw single x) 2139095040); [|lia]. eexists. split; [reflexivity|].
    rewrite Z.shiftr_div_pow2 by lia. apply (exponent_normal single s_mb s_eb s_range x W).
    cbn [mb single]. change (2 ^ 23) with 8388608. lia.
Qed.

Lemma ilogbf_other : forall x, word single x ->
  (is_zero single x -> c_ilogbf x = Some (-2147483647)) /\ (~ finite single x -> c_ilogbf x = Some 2147483647).
Proof.
  intros x W. unfold c_ilogbf. cbv zeta. rewrite (s_land_abs x W). unfold is_zero, finite. rewrite s_infw. split; intros H.
  - rewrite H. reflexivity.
  - destruct (Z.ltb_spec (absw single x) 8388608); [lia|]. destruct (Z.ltb_spec (absw single x) 2139095040); [lia|reflexivity].
Qed.

Lemma ilogb_spec : forall x, word double x -> finite double x -> ~ is_zero double x ->
  exists e, c_ilogb false x = Some e /\ exponent_of double x e.
Proof.
  intros x W Fx N0. unfold is_zero in N0. unfold finite in Fx. rewrite d_infw in Fx. destruct (d_bound x W) as [_ B].
  destruct (d_hi_abs x W) as (_ & _ & Ll & _ & P).
  unfold c_ilogb. cbv zeta. rewrite (Z.lor_comm (Z.land _ _)), (d_zero_or x W), P, Ll.
  pose proof (exponent_small double d_mb d_eb d_range x W) as X. cbn [mb double] in X. change (2 ^ 52) with 4503599627370496 in X.
  change (bias double + 52 - 1) with 1074 in X.
  pose proof (exponent_normal double d_mb d_eb d_range x W) as Y. cbn [mb double] in Y. change (2 ^ 52) with 4503599627370496 in Y.
  change (bias double) with 1023 in Y.
  set (a := absw double x) in *. clearbody a.
  destruct (Z.ltb_spec (a / 4294967296) 1048576) as [L|G].
  - destruct (Z.eqb_spec a 0); [contradiction|]. specialize (X ltac:(lia)).
    destruct (Z.eqb_spec (a / 4294967296) 0) as [E|E].
    + assert (Em : a mod 4294967296 = a) by lia. rewrite Em. pose proof (Z.log2_nonneg a) as Ln.
      rewrite shift_out_log by lia. eexists. split; [reflexivity|].
      replace (-1043 - (31 - Z.log2 a)) with (Z.log2 a - 1074) by lia. exact X.
    + rewrite Z.shiftl_mul_pow2 by lia. pose proof (Z.log2_nonneg (a / 4294967296)) as Ln.
      pose proof (log2_scale (a / 4294967296) 11 ltac:(lia) ltac:(lia)) as Lg.
      rewrite shift_out_log; [|change (2 ^ 11) with 2048; lia|rewrite Lg; lia].
      rewrite Lg. eexists. split; [reflexivity|].
      assert (La : Z.log2 a = Z.log2 (a / 4294967296) + 32).
      { change 4294967296 with (2 ^ 32). rewrite <- Z.shiftr_div_pow2, Z.log2_shiftr by lia.
        assert (32 <= Z.log2 a) by (apply Z.log2_le_pow2; [lia|]; change (2 ^ 32) with 4294967296; lia). lia. }
      replace (-1022 - (31 - (Z.log2 (a / 4294967296) + 11))) with (Z.log2 a - 1074) by lia. exact X.
  - destruct (Z.ltb_spec (a / 4294967296) 2146435072); [|lia]. eexists. split; [reflexivity|].
    rewrite Z.shiftr_div_pow2 by lia. change (2 ^ 20) with 1048576. rewrite Z.div_div by lia.
    change (4294967296 * 1048576) with 4503599627370496. apply Y. lia.
Qed.

Lemma ilogb_other : forall x, word double x ->
  (is_zero double x -> c_ilogb false x = Some (-2147483647)) /\ (~ finite double x -> c_ilogb false x = Some 2147483647).
Proof.
  intros x W. destruct (d_bound x W) as [_ B]. destruct (d_hi_abs x W) as (_ & _ & _ & _ & P). unfold c_ilogb. cbv zeta.
  rewrite (Z.lor_comm (Z.land _ _)), (d_zero_or x W), P. unfold is_zero, finite. rewrite d_infw.
  split; intros H.
  - rewrite H. reflexivity.
  - destruct (Z.ltb_spec (absw double x / 4294967296) 1048576); [lia|].
    destruct (Z.ltb_spec (absw double x / 4294967296) 2146435072); [lia|reflexivity].
Qed.

(** ** logb *)
Lemma logbf_spec : forall x, word single x -> normal single x ->
  exists e, exponent_of single x e /\ word single (c_logbf x) /\ finite single (c_logbf x) /\ val single (c_logbf x) = e * one single.
Proof.
  intros x W [N1 N2]. cbn [mb single] in N1. change (2 ^ 23) with 8388608 in N1. rewrite s_infw in N2.
  unfold c_logbf. cbv zeta. rewrite (s_land_abs x W).
  destruct (Z.eqb_spec (absw single x) 0); [lia|]. destruct (Z.leb_spec 2139095040 (absw single x)); [lia|].
  rewrite Z.shiftr_div_pow2 by lia. change (2 ^ 23) with 8388608.
  destruct (Z.eqb_spec (absw single x / 8388608) 0); [lia|].
  exists (absw single x / 8388608 - 127). split.
  - apply (exponent_normal single s_mb s_eb s_range x W). cbn [mb single]. change (2 ^ 23) with 8388608. lia.
  - apply (of_int_exact single s_mb s_eb s_range). cbn [mb single]. change (2 ^ 23) with 8388608. lia.
Qed.

Lemma logb_spec : forall x, word double x -> normal double x ->
  exists e, exponent_of double x e /\ word double (c_logb false x) /\ finite double (c_logb false x) /\
    val double (c_logb false x) = e * one double.
Proof.
  intros x W [N1 N2]. cbn [mb double] in N1. change (2 ^ 52) with 4503599627370496 in N1. rewrite d_infw in N2.
  destruct (d_hi_abs x W) as (_ & _ & _ & _ & P).
  unfold c_logb. cbv zeta. rewrite (Z.lor_comm (Z.land _ _)), (d_zero_or x W), P.
  destruct (Z.eqb_spec (absw double x) 0); [lia|]. destruct (Z.leb_spec 2146435072 (absw double x / 4294967296)); [lia|].
  rewrite Z.shiftr_div_pow2 by lia. change (2 ^ 20) with 1048576. rewrite Z.div_div by lia.
  change (4294967296 * 1048576) with 4503599627370496.
  destruct (Z.eqb_spec (absw double x / 4503599627370496) 0); [lia|].
  exists (absw double x / 4503599627370496 - 1023). split.
  - apply (exponent_normal double d_mb d_eb d_range x W). cbn [mb double]. change (2 ^ 52) with 4503599627370496. lia.
  - apply (of_int_exact double d_mb d_eb d_range). cbn [mb double]. change (2 ^ 52) with 4503599627370496. lia.
Qed.

Section Square.
Set Default Proof Using "All".
Variable F : fmt.
Hypothesis Hmb : 1 <= mb F.
Hypothesis Heb : 3 <= eb F.
Hypothesis Hrange : mb F + 2 <= bias F.

Lemma square_nan : forall x, word F x -> is_nan F x -> is_nan F (fmul F x x).
Proof.
  intros x W N. unfold fmul. unfold nanb. unfold is_nan in N.
  assert (infw F <? absw F x = true) as -> by (apply Z.ltb_lt; exact N). now apply (quiet_nan F Hmb Heb Hrange).
Qed.

Lemma square_inf : forall x, is_inf F x -> fmul F x x = infw F.
Proof.
  intros x N. unfold fmul, nanb, infb. unfold is_inf in N. rewrite N, Z.ltb_irrefl, Z.eqb_refl.
  pose proof (infw_lt F Hmb Heb Hrange) as IL. destruct (Z.eqb_spec (infw F) 0); [lia|].
  rewrite xorb_nilpotent. reflexivity.
Qed.
End Square.

Lemma logbf_other : forall x, word single x ->
  (is_zero single x -> c_logbf x = sbit single true + infw single) /\
  (is_inf single x -> c_logbf x = infw single) /\
  (is_nan single x -> is_nan single (c_logbf x)).
Proof.
  intros x W. unfold c_logbf. cbv zeta. rewrite (s_land_abs x W). split; [|split]; intros H.
  - destruct (fabsf_spec x W) as (A & B & C). destruct (s_split _ A) as [E _]. unfold is_zero in H. rewrite B, C, H in E.
    rewrite E, H. reflexivity.
  - pose proof H as H'. unfold is_inf in H'. rewrite s_infw in H'. rewrite H'.
    apply (square_inf single s_mb s_eb s_range x H).
  - pose proof H as H'. unfold is_nan in H'. rewrite s_infw in H'.
    destruct (Z.eqb_spec (absw single x) 0); [lia|]. destruct (Z.leb_spec 2139095040 (absw single x)); [|lia].
    apply (square_nan single s_mb s_eb s_range x W H).
Qed.

Lemma logb_other : forall x, word double x ->
  (is_zero double x -> c_logb false x = sbit double true + infw double) /\
  (is_inf double x -> c_logb false x = infw double) /\
  (is_nan double x -> is_nan double (c_logb false x)).
Proof.
  intros x W. destruct (d_hi_abs x W) as (_ & _ & _ & _ & P). destruct (d_bound x W) as [_ Bx].
  unfold c_logb. cbv zeta. rewrite (Z.lor_comm (Z.land _ _)), (d_zero_or x W), P. split; [|split]; intros H.
  - rewrite (fabs_word x W). unfold is_zero in H. rewrite H. reflexivity.
  - pose proof H as H'. unfold is_inf in H'. rewrite d_infw in H'. rewrite H'.
    apply (square_inf double d_mb d_eb d_range x H).
  - pose proof H as H'. unfold is_nan in H'. rewrite d_infw in H'.
    destruct (Z.eqb_spec (absw double x) 0); [lia|]. destruct (Z.leb_spec 2146435072 (absw double x / 4294967296)); [|lia].
    apply (square_nan double d_mb d_eb d_range x W H).
Qed.

(** ** modf *)
Lemma modff_spec : forall x f i, word single x -> finite single x -> c_modff x = (f, i) -> modf_of single x f i.
Proof.
  intros x f i W Fx R. pose proof (clear_trunc single s_mb s_eb s_range x W Fx) as T.
  unfold finite in Fx. rewrite s_infw in Fx. pose proof (sign_bit x W) as Sb. destruct (s_split x W) as [Ex B].
  unfold clear in T. cbn [mb single] in T. change (bias single) with 127 in T. rewrite andb_false_l in T.
  unfold c_modff in R. cbv zeta in R. rewrite (s_exp x W), (s_get_u32 x W), Sb in R.
  assert (SB : set_float (sbit single (neg single x)) = sbit single (neg single x)).
  { unfold set_float. apply u32_id. rewrite s_sbit. change (2 ^ 32) with 4294967296. destruct (neg single x); lia. }
  rewrite SB in R. change (127 + 23) with 150 in T.
  destruct (Z.ltb_spec (absw single x / 2 ^ 23 - 127) 23) as [J23|J23].
  - destruct (Z.ltb_spec (absw single x / 2 ^ 23 - 127) 0) as [J0|J0].
    + apply pair_equal_spec in R. destruct R as [<- <-].
      destruct (Z.ltb_spec (absw single x / 2 ^ 23) 127); [|lia]. rewrite Z.add_0_r in T.
      apply (modf_all single s_mb s_eb s_range); [exact W|unfold finite; rewrite s_infw; exact Fx|exact T|].
      destruct (neg single x); reflexivity.
    + destruct (Z.ltb_spec (absw single x / 2 ^ 23) 127); [lia|]. destruct (Z.ltb_spec (absw single x / 2 ^ 23) 150); [|lia].
      pose proof (s_middle_and x _ _ _ W eq_refl eq_refl eq_refl ltac:(lia)) as Ma.
      pose proof (s_middle_clear x _ _ _ W eq_refl eq_refl eq_refl ltac:(lia)) as Mc.
      rewrite (s_get_u32 x W) in Ma, Mc. rewrite Ma in R.
      replace (23 - (absw single x / 2 ^ 23 - 127)) with (150 - absw single x / 2 ^ 23) in * by lia.
      rewrite Z.add_0_r in T. unfold set_float in Mc. rewrite u32_s32 in Mc. unfold set_float in R. rewrite Mc in R.
      set (k := 150 - absw single x / 2 ^ 23) in *.
      pose proof (p2 k ltac:(unfold k; lia)) as P. pose proof (Z.mod_pos_bound (absw single x) (2 ^ k) P) as Mb.
      destruct (Z.eqb_spec (absw single x mod 2 ^ k) 0) as [Z|NZ]; apply pair_equal_spec in R; destruct R as [<- <-].
      * rewrite Z, Z.sub_0_r, <- Ex in T. now apply (modf_none single s_mb s_eb s_range).
      * apply (modf_rest single s_mb s_eb s_range); [exact W|unfold finite; rewrite s_infw; exact Fx|exact T|].
        pose proof (Z.mod_le (absw single x) (2 ^ k) ltac:(lia) P) as Ml.
        rewrite (val_of single s_mb s_eb s_range) by (rewrite s_sgnw; lia).
        rewrite (val_neg single s_mb s_eb s_range x W). intros V.
        assert (V2 : mag single (absw single x) = mag single (absw single x - absw single x mod 2 ^ k))
          by (destruct (neg single x); cbn [sgn_of] in V; lia).
        apply (mag_inj single s_mb s_eb s_range) in V2; lia.
  - apply pair_equal_spec in R. destruct R as [<- <-].
    destruct (Z.ltb_spec (absw single x / 2 ^ 23) 127); [lia|]. destruct (Z.ltb_spec (absw single x / 2 ^ 23) 150); [lia|].
    rewrite <- Ex in T. change f_one with (bias single * 2 ^ mb single).
    rewrite (fmul_one single s_mb s_eb s_range x W) by (unfold finite; rewrite s_infw; exact Fx).
    now apply (modf_none single s_mb s_eb s_range).
Qed.

Lemma modff_inf : forall x, word single x -> is_inf single x -> c_modff x = (sbit single (neg single x), x).
Proof.
  intros x W H. pose proof (s_split x W) as [Ex _]. pose proof H as H'. unfold is_inf in H'. rewrite s_infw in H'. rewrite H' in Ex.
  rewrite Ex. destruct (neg single x); vm_compute; reflexivity.
Qed.

Lemma modf_exp : forall d, word double d ->
  s32 (Z.land (Z.shiftr (u32 (s32 (hi false d))) 20) 2047 - 1023) = absw double d / 4503599627370496 - 1023.
Proof.
  intros d W. rewrite (d_u32_hi d W). change 2047 with (2 ^ 11 - 1). rewrite land_low by lia.
  rewrite Z.shiftr_div_pow2 by lia. change (2 ^ 20) with 1048576. change (2 ^ 11) with 2048. rewrite (d_hi_val d W).
  destruct (d_bound d W) as [_ B]. set (a := absw double d) in *. clearbody a. clear - B.
  assert (E : a / 4503599627370496 = a / 4294967296 / 1048576) by (rewrite Z.div_div by lia; reflexivity). rewrite E. clear E.
  assert (0 <= a / 4294967296 < 2147483648) by lia. set (b := a / 4294967296) in *. clearbody b. clear - H.
  assert (E : ((if neg double d then 2147483648 else 0) + b) / 1048576 mod 2048 = b / 1048576) by (destruct (neg double d); lia).
  rewrite E. apply s32_id. lia.
Qed.

Lemma modf_spec : forall x f i, word double x -> finite double x -> c_modf false x = (f, i) -> modf_of double x f i.
Proof.
  intros x f i W Fx R. pose proof (clear_trunc double d_mb d_eb d_range x W Fx) as T.
  rewrite (d_clear x _ _ _ _ _ W eq_refl eq_refl eq_refl eq_refl eq_refl false Fx) in T.
  pose proof Fx as Fx'. unfold finite in Fx'. rewrite d_infw in Fx'. destruct (d_bound x W) as [Ex B].
  pose proof (d_sign_word x W) as Sb.
  pose proof (hi_test x _ _ _ _ _ W eq_refl eq_refl eq_refl eq_refl eq_refl) as Ht.
  pose proof (lo_test x _ _ _ _ _ W eq_refl eq_refl eq_refl eq_refl eq_refl) as Lt.
  pose proof (hi_clear x _ _ _ _ _ W eq_refl eq_refl eq_refl eq_refl eq_refl) as Hc.
  pose proof (lo_clear x _ _ _ _ _ W eq_refl eq_refl eq_refl eq_refl eq_refl) as Lc.
  change (2 ^ 52) with 4503599627370496 in *. cbn [andb] in T. rewrite Z.add_0_r in T.
  unfold c_modf in R. cbv zeta in R. rewrite (modf_exp x W), Sb in R.
  rewrite (d_u32_hi x W) in Sb. rewrite Sb in R.
  assert (Hj : -1023 <= absw double x / 4503599627370496 - 1023 <= 1023) by (clear - B Fx'; lia).
  set (j := absw double x / 4503599627370496 - 1023) in *.
  assert (Mid : 0 <= j < 52 -> forall ip, ip = sbit double (neg double x) + (absw double x - absw double x mod 2 ^ (52 - j)) ->
    (if absw double x mod 2 ^ (52 - j) =? 0 then (sbit double (neg double x), x) else (fsub double x ip, ip)) = (f, i) ->
    modf_of double x f i).
  { clear R. intros Jr ip -> R.
    destruct (Z.ltb_spec j 0); [lia|]. destruct (Z.ltb_spec j 52); [|lia].
    pose proof (p2 (52 - j) ltac:(lia)) as P. pose proof (Z.mod_pos_bound (absw double x) (2 ^ (52 - j)) P) as Mb.
    destruct (Z.eqb_spec (absw double x mod 2 ^ (52 - j)) 0) as [Z|NZ]; apply pair_equal_spec in R; destruct R as [<- <-].
    - rewrite Z, Z.sub_0_r in T. rewrite <- Ex in T. now apply (modf_none double d_mb d_eb d_range).
    - apply (modf_rest double d_mb d_eb d_range); [exact W|exact Fx|exact T|].
      pose proof (Z.mod_le (absw double x) (2 ^ (52 - j)) ltac:(lia) P) as Ml.
      rewrite (val_of double d_mb d_eb d_range) by (rewrite d_sgnw; clear - Ml Mb B; lia).
      rewrite (val_neg double d_mb d_eb d_range x W). intros V.
      assert (V2 : mag double (absw double x) = mag double (absw double x - absw double x mod 2 ^ (52 - j))).
      { clear - V. destruct (neg double x); cbn [sgn_of] in V; lia. }
      apply (mag_inj double d_mb d_eb d_range) in V2; clear - V2 Mb NZ B Ml; lia. }
  destruct (Z.ltb_spec j 20) as [J20|J20].
  - destruct (Z.ltb_spec j 0) as [J0|J0].
    + apply pair_equal_spec in R. destruct R as [<- <-].
      apply (modf_all double d_mb d_eb d_range); [exact W|exact Fx| |destruct (neg double x); reflexivity].
      rewrite Z.add_0_r in T. exact T.
    + rewrite Ht, Hc in R by (clear - J0 J20; lia). revert R. apply Mid; [clear - J0 J20; lia|reflexivity].
  - destruct (Z.ltb_spec 51 j) as [J51|J51].
    + apply pair_equal_spec in R. destruct R as [<- <-].
      destruct (Z.ltb_spec j 0); [lia|]. destruct (Z.ltb_spec j 52); [lia|].
      rewrite <- Ex in T. change d_one with (bias double * 2 ^ mb double).
      rewrite (fmul_one double d_mb d_eb d_range x W Fx). now apply (modf_none double d_mb d_eb d_range).
    + rewrite Lt, Lc in R by (clear - J20 J51; lia). revert R. apply Mid; [clear - J20 J51; lia|reflexivity].
Qed.

Lemma modf_inf : forall x, word double x -> is_inf double x -> c_modf false x = (sbit double (neg double x), x).
Proof.
  intros x W H. pose proof (d_bound x W) as [Ex _]. pose proof H as H'. unfold is_inf in H'. rewrite d_infw in H'. rewrite H' in Ex.
  rewrite Ex. destruct (neg double x); vm_compute; reflexivity.
Qed.
