(** scalbn, ldexp and their float versions (libpok/libm). *)
From Verif Require Import Model.Base Spec.Ieee Spec.LibmSpec Model.Float Model.Libm
  Proof.Tac Proof.FloatProof Proof.FloatRound Proof.FloatScale Proof.LibmfProof Proof.LibmfRint Proof.LibmdProof Proof.LibmdRound
  Proof.LibmdRint Proof.LibmSign Proof.LibmNext.

(** ** Fields of words *)

(** (w & 0x807fffff) | (k << 23), and the same with 20 (scalbnf.c:59, scalbn.c:64). *)
Lemma lor_fields : forall w k p, 0 <= w < 4294967296 -> 1 <= p <= 30 -> 0 <= k < 2 ^ (31 - p) ->
  u32 (Z.lor (Z.land w (2 ^ 31 + (2 ^ p - 1))) (Z.shiftl k p)) =
  (if 2147483648 <=? w then 2147483648 else 0) + (k * 2 ^ p + w mod 2 ^ p).
Proof.
  intros w k p Hw Hp Hk. pose proof (p2 p ltac:(lia)) as P.
  assert (P31 : 2 ^ 31 = 2 ^ (31 - p) * 2 ^ p) by (rewrite <- p2_split by lia; f_equal; lia).
  assert (Pl : 2 ^ p - 1 < 2 ^ 31) by (pose proof (p2_le p 31 ltac:(lia) ltac:(lia)); lia).
  replace (2 ^ 31 + (2 ^ p - 1)) with (Z.lor (1 * 2 ^ 31) (2 ^ p - 1)) by (rewrite lor_disjoint by lia; lia).
  rewrite Z.land_lor_distr_r. rewrite land_low by lia. rewrite Z.mul_1_l.
  change (2 ^ 31) with 2147483648 at 1. rewrite land_sign by exact Hw.
  rewrite Z.shiftl_mul_pow2 by lia.
  pose proof (Z.mod_pos_bound w (2 ^ p) P) as B.
  rewrite <- Z.lor_assoc, (Z.lor_comm (w mod 2 ^ p)). rewrite lor_disjoint by lia.
  assert (C : 0 <= k * 2 ^ p + w mod 2 ^ p < 2147483648).
  { change 2147483648 with (2 ^ 31). rewrite P31. nia. }
  set (c := k * 2 ^ p + w mod 2 ^ p) in *. clearbody c. clear - C.
  destruct (2147483648 <=? w).
  - change 2147483648 with (1 * 2 ^ 31) at 1. rewrite lor_disjoint by (change (2 ^ 31) with 2147483648; lia).
    apply u32_id. change (2 ^ 31) with 2147483648. change (2 ^ 32) with 4294967296. lia.
  - rewrite Z.lor_0_l. apply u32_id. change (2 ^ 32) with 4294967296. lia.
Qed.

(** ** Single precision *)
Lemma s_field : forall w, word single w -> Z.shiftr (Z.land (get_float w) 2139095040) 23 = absw single w / 8388608.
Proof.
  intros w W. change 2139095040 with ((2 ^ 8 - 1) * 2 ^ 23). rewrite land_field by lia.
  rewrite Z.shiftr_div_pow2 by lia. rewrite Z.div_mul by (compute; discriminate).
  rewrite (s_get w W). destruct (s_split w W) as [_ B]. change (2 ^ 23) with 8388608. change (2 ^ 8) with 256.
  clear - B. destruct (neg single w); lia.
Qed.

Lemma s_set_exp : forall w k, word single w -> 0 <= k < 256 ->
  set_float (Z.lor (Z.land (u32 (get_float w)) 2155872255) (Z.shiftl k 23)) =
  sbit single (neg single w) + (k * 8388608 + absw single w mod 8388608).
Proof.
  intros w k W Hk. rewrite (s_get_u32 w W). change 2155872255 with (2 ^ 31 + (2 ^ 23 - 1)).
  unfold set_float. rewrite lor_fields; [|apply s_word in W; exact W|lia|exact Hk].
  change (2147483648 <=? w) with (neg single w). rewrite <- s_sbit. do 2 f_equal.
  rewrite (s_mod w 23 W) by lia. reflexivity.
Qed.

Lemma copysignf_word : forall x y, word single x -> word single y ->
  c_copysignf x y = sbit single (neg single y) + absw single x.
Proof.
  intros x y Wx Wy. destruct (copysignf_spec x y Wx Wy) as (A & B & C).
  destruct (s_split _ A) as [E _]. rewrite B, C in E. exact E.
Qed.

Lemma scalbnf_body : forall x n, word single x -> finite single x -> absw single x <> 0 ->
  c_scalbnf x n = scalb_body single 25 f_tiny f_huge x n.
Proof.
  intros x n W Fx N0. unfold c_scalbnf, scalb_body. cbv zeta. cbn [mb single]. change (bias single) with 127.
  change (2 ^ 23) with 8388608. rewrite (s_land_abs x W), (s_field x W).
  assert (absw single x =? 0 = false) as -> by (apply Z.eqb_neq; exact N0). rewrite andb_false_r.
  change ((127 + 25) * 8388608) with f_two25. change ((127 - 25) * 8388608) with f_twom25.
  set (sub := absw single x / 8388608 =? 0). set (x1 := if sub then fmul single x f_two25 else x).
  assert (X1 : exists a1, x1 = sbit single (neg single x) + a1 /\ 8388608 <= a1 < 2139095040).
  { unfold x1, sub. destruct (s_split x W) as [E B]. destruct (Z.eqb_spec (absw single x / 8388608) 0) as [Z|NZ].
    - destruct (scale_up single s_mb s_eb s_range x 25 W) as (a1 & A1 & _ & A3).
      + cbn [mb single]. change (2 ^ 23) with 8388608. clear - Z N0 B. lia.
      + cbn [mb single]. change (bias single) with 127. lia.
      + exists a1. rewrite s_infw in A1. split; [exact A3|exact A1].
    - exists (absw single x). split; [exact E|]. unfold finite in Fx. rewrite s_infw in Fx. clear - NZ B Fx. lia. }
  destruct X1 as (a1 & E1 & R1).
  destruct (word_of single s_mb s_eb s_range (neg single x) a1 ltac:(rewrite s_sgnw; lia)) as (W1 & S1 & A1).
  rewrite <- E1 in W1, S1, A1.
  assert (Gx : (if sub then get_float x1 else get_float x) = get_float x1) by (unfold x1; destruct sub; reflexivity).
  rewrite Gx.
  assert (K1 : (if sub then Z.shiftr (Z.land (get_float x1) 2139095040) 23 - 25 else absw single x / 8388608) =
               absw single x1 / 8388608 - (if sub then 25 else 0)).
  { rewrite (s_field x1 W1). unfold x1. destruct sub; lia. }
  rewrite K1. clear K1 Gx. clearbody x1 sub. destruct (sub && (n <? -50000)); [reflexivity|].
  rewrite A1. set (k1 := a1 / 8388608 - (if sub then 25 else 0)).
  assert (k1 =? 255 = false) as -> by (apply Z.eqb_neq; unfold k1; clear - R1; destruct sub; lia).
  change int_add with int_sum. destruct (int_sum k1 n) as [k|]; [|reflexivity].
  change (2 * 127) with 254.
  rewrite !copysignf_word by (assumption || (apply s_word; compute; split; congruence)).
  rewrite S1. change (absw single f_huge) with f_huge. change (absw single f_tiny) with f_tiny.
  destruct (Z.ltb_spec 254 k) as [G1|G1]; [reflexivity|].
  destruct (Z.ltb_spec 0 k) as [G2|G2].
  - rewrite (s_set_exp x1 k W1) by lia. rewrite A1, S1. reflexivity.
  - change (-25) with (- (25)). destruct (Z.leb_spec k (- (25))) as [G3|G3].
    + destruct (50000 <? n); reflexivity.
    + rewrite (s_set_exp x1 (k + 25) W1) by lia. rewrite A1, S1. reflexivity.
Qed.

Lemma s_huge : forall s, fmul single f_huge (sbit single s + f_huge) = sbit single s + infw single.
Proof. intros s. destruct s; vm_compute; reflexivity. Qed.
Lemma s_tiny : forall s, fmul single f_tiny (sbit single s + f_tiny) = sbit single s.
Proof. intros s. destruct s; vm_compute; reflexivity. Qed.

(** ** Double precision, less significant word first *)
Lemma d_bound : forall d, word double d -> d = sbit double (neg double d) + absw double d /\ 0 <= absw double d < 9223372036854775808.
Proof. intros d W. exact (d_split d _ _ _ _ _ W eq_refl eq_refl eq_refl eq_refl eq_refl). Qed.

Lemma d_u32_hi : forall d, word double d -> u32 (s32 (hi false d)) = hi false d.
Proof. intros d W. exact (d_h_u32 d _ _ _ _ _ W eq_refl eq_refl eq_refl eq_refl eq_refl). Qed.

Lemma d_hi_val : forall d, word double d -> hi false d = (if neg double d then 2147483648 else 0) + absw double d / 4294967296.
Proof.
  intros d W. destruct (d_hi_abs d W) as (A & B & _ & C & _). revert A. change 2147483647 with (2 ^ 31 - 1). rewrite land_low by lia.
  change (2 ^ 31) with 2147483648. intros A. rewrite <- B, <- A. clear - C.
  destruct (Z.leb_spec 2147483648 (hi false d)); lia.
Qed.

Lemma d_field : forall d, word double d -> Z.shiftr (Z.land (u32 (s32 (hi false d))) 2146435072) 20 = absw double d / 4503599627370496.
Proof.
  intros d W. rewrite d_u32_hi by exact W.
  change 2146435072 with ((2 ^ 11 - 1) * 2 ^ 20). rewrite land_field by lia.
  rewrite Z.shiftr_div_pow2 by lia. rewrite Z.div_mul by (compute; discriminate).
  rewrite (d_hi_val d W). destruct (d_bound d W) as [_ B].
  change (2 ^ 20) with 1048576. change (2 ^ 11) with 2048.
  set (a := absw double d) in *. clearbody a. clear - B.
  assert (E : a / 4503599627370496 = a / 4294967296 / 1048576) by (rewrite Z.div_div by lia; reflexivity). rewrite E. clear E.
  assert (0 <= a / 4294967296 < 2147483648) by lia. set (b := a / 4294967296) in *. clearbody b. clear - H.
  destruct (neg double d); lia.
Qed.

Lemma d_zero_or : forall d, word double d ->
  (Z.lor (s32 (lo false d)) (Z.land (s32 (hi false d)) 2147483647) =? 0) = (absw double d =? 0).
Proof.
  intros d W. destruct (d_hi_abs d W) as (_ & _ & L & _ & P). rewrite P, L. destruct (d_bound d W) as [_ B].
  set (a := absw double d) in *. clearbody a. clear - B. apply eq_true_iff_eq. rewrite !Z.eqb_eq, Z.lor_eq_0_iff.
  assert (S : s32 (a mod 4294967296) = 0 <-> a mod 4294967296 = 0).
  { destruct (s32_cases (a mod 4294967296) ltac:(change (2 ^ 32) with 4294967296; lia)) as [[A ->]|[A ->]]; [reflexivity|].
    change (2 ^ 32) with 4294967296. lia. }
  rewrite S. clear S. lia.
Qed.

Lemma d_set_exp : forall d k, word double d -> 0 <= k < 2048 ->
  set_hi false d (Z.lor (Z.land (u32 (s32 (hi false d))) 2148532223) (Z.shiftl k 20)) =
  sbit double (neg double d) + (k * 4503599627370496 + absw double d mod 4503599627370496).
Proof.
  intros d k W Hk. rewrite d_u32_hi by exact W. destruct (d_hi_abs d W) as (_ & N & L & Hh & _).
  change 2148532223 with (2 ^ 31 + (2 ^ 20 - 1)). unfold set_hi, ins.
  rewrite lor_fields; [|exact Hh|lia|exact Hk]. rewrite N, L, (d_hi_val d W). destruct (d_bound d W) as [_ B].
  rewrite u32_id by (change (2 ^ 32) with 4294967296; lia). rewrite d_sbit.
  change (2 ^ 20) with 1048576. change (2 ^ 32) with 4294967296.
  set (a := absw double d) in *. clearbody a. clear - B.
  assert (E : a mod 4503599627370496 = (a / 4294967296 mod 1048576) * 4294967296 + a mod 4294967296).
  { change 4503599627370496 with (4294967296 * 1048576). rewrite Z.rem_mul_r by lia. lia. }
  rewrite E. clear E. set (b := a / 4294967296). set (c := a mod 4294967296). clearbody b c. clear.
  assert (E : ((if neg double d then 2147483648 else 0) + b) mod 1048576 = b mod 1048576).
  { destruct (neg double d); [|reflexivity]. change 2147483648 with (2048 * 1048576). rewrite Z.add_comm, Z.mod_add by lia. reflexivity. }
  rewrite E. destruct (neg double d); ring.
Qed.

Lemma scalbn_body : forall x n, word double x -> finite double x -> absw double x <> 0 ->
  c_scalbn false x n = scalb_body double 54 d_tiny d_huge x n.
Proof.
  intros x n W Fx N0. unfold c_scalbn, scalb_body. cbv zeta. cbn [mb double]. change (bias double) with 1023.
  change (2 ^ 52) with 4503599627370496. rewrite (d_zero_or x W), (d_field x W).
  assert (absw double x =? 0 = false) as -> by (apply Z.eqb_neq; exact N0). rewrite andb_false_r.
  change ((1023 + 54) * 4503599627370496) with d_two54. change ((1023 - 54) * 4503599627370496) with d_twom54.
  set (sub := absw double x / 4503599627370496 =? 0). set (x1 := if sub then fmul double x d_two54 else x).
  assert (X1 : exists a1, x1 = sbit double (neg double x) + a1 /\ 4503599627370496 <= a1 < 9218868437227405312).
  { unfold x1, sub. destruct (d_bound x W) as [E B]. destruct (Z.eqb_spec (absw double x / 4503599627370496) 0) as [Z|NZ].
    - destruct (scale_up double d_mb d_eb d_range x 54 W) as (a1 & A1 & _ & A3).
      + cbn [mb double]. change (2 ^ 52) with 4503599627370496. clear - Z N0 B. lia.
      + cbn [mb double]. change (bias double) with 1023. lia.
      + exists a1. rewrite d_infw in A1. split; [exact A3|exact A1].
    - exists (absw double x). split; [exact E|]. unfold finite in Fx. rewrite d_infw in Fx. clear - NZ B Fx. lia. }
  destruct X1 as (a1 & E1 & R1).
  destruct (word_of double d_mb d_eb d_range (neg double x) a1 ltac:(rewrite d_sgnw; lia)) as (W1 & S1 & A1).
  rewrite <- E1 in W1, S1, A1.
  assert (Gx : (if sub then s32 (hi false x1) else s32 (hi false x)) = s32 (hi false x1)) by (unfold x1; destruct sub; reflexivity).
  rewrite Gx.
  assert (K1 : (if sub then Z.shiftr (Z.land (u32 (s32 (hi false x1))) 2146435072) 20 - 54 else absw double x / 4503599627370496) =
               absw double x1 / 4503599627370496 - (if sub then 54 else 0)).
  { rewrite (d_field x1 W1). unfold x1. destruct sub; lia. }
  rewrite K1. clear K1 Gx. clearbody x1 sub. destruct (sub && (n <? -50000)); [reflexivity|].
  rewrite A1. set (k1 := a1 / 4503599627370496 - (if sub then 54 else 0)).
  assert (k1 =? 2047 = false) as -> by (apply Z.eqb_neq; unfold k1; clear - R1; destruct sub; lia).
  change int_add with int_sum. destruct (int_sum k1 n) as [k|]; [|reflexivity].
  change (2 * 1023) with 2046.
  rewrite !copysign_word by (assumption || (split; vm_compute; congruence)).
  rewrite S1. change (absw double d_huge) with d_huge. change (absw double d_tiny) with d_tiny.
  destruct (Z.ltb_spec 2046 k) as [G1|G1]; [reflexivity|].
  destruct (Z.ltb_spec 0 k) as [G2|G2].
  - rewrite (d_set_exp x1 k W1) by lia. rewrite A1, S1. reflexivity.
  - change (-54) with (- (54)). destruct (Z.leb_spec k (- (54))) as [G3|G3].
    + destruct (50000 <? n); reflexivity.
    + rewrite (d_set_exp x1 (k + 54) W1) by lia. rewrite A1, S1. reflexivity.
Qed.

Lemma d_huge_sq : forall s, fmul double d_huge (sbit double s + d_huge) = sbit double s + infw double.
Proof. intros s. destruct s; vm_compute; reflexivity. Qed.
Lemma d_tiny_sq : forall s, fmul double d_tiny (sbit double s + d_tiny) = sbit double s.
Proof. intros s. destruct s; vm_compute; reflexivity. Qed.
