(** C78: square roots (libpok/libm/e_sqrtf.c, e_sqrt.c, called directly by sqrtf.c, sqrt.c).

    IEEE 754 and C99, 7.12.7.5, F.9.4.5: the root of a positive number is correctly rounded, the root of a zero is that zero,
    of +inf is +inf, of NaN and of everything negative is NaN.  In double, subnormals whose leading bit is bit 31 or bit 10
    of the mantissa reach a shift by 32 (e_sqrt.c:135), which C leaves undefined. *)
From Verif Require Import Model.Base Spec.Ieee Spec.LibmSpec Model.Float Model.Libm Model.LibmRoot
  Proof.LibmSqrtf Proof.LibmSqrtd Proof.LibmSqrtOther.

Theorem C78_sqrt_float : forall x, word single x ->
  (finite single x -> neg single x = false -> ~ is_zero single x -> exists r, c_sqrtf x = Some r /\ sqrt_of single x r) /\
  (is_zero single x -> c_sqrtf x = Some x) /\
  (is_inf single x -> neg single x = false -> c_sqrtf x = Some x) /\
  (is_nan single x -> exists r, c_sqrtf x = Some r /\ is_nan single r) /\
  (neg single x = true -> ~ is_zero single x -> exists r, c_sqrtf x = Some r /\ is_nan single r).
Proof. intros x W. split; [intros; now apply sqrtf_spec|]. exact (sqrtf_other x W). Qed.
Print Assumptions C78_sqrt_float.

(** The roots of 2, of 9 and of the greatest subnormal; of -1. *)
Example C78_sqrt_float_ex : finite single 0x40000000 /\ neg single 0x40000000 = false /\ ~ is_zero single 0x40000000 /\
  c_sqrtf 0x40000000 = Some 0x3fb504f3 /\ c_sqrtf 0x41100000 = Some 0x40400000 /\ c_sqrtf 0x7fffff = Some 0x1fffffff /\
  c_sqrtf 0xbf800000 = Some 0x7fc00000.
Proof. repeat split; try (intros X; discriminate X); vm_compute; reflexivity. Qed.

(** Partial: little-endian processors, and not the subnormals of which the leading bit is bit 31 or 10. *)
Theorem C78_sqrt_double_partial : forall x, word double x ->
  (finite double x -> neg double x = false -> ~ is_zero double x ->
     Z.log2 (absw double x) <> 31 -> Z.log2 (absw double x) <> 10 ->
     exists r, c_sqrt false x = Some r /\ sqrt_of double x r) /\
  (is_zero double x -> c_sqrt false x = Some x) /\
  (is_inf double x -> neg double x = false -> c_sqrt false x = Some x) /\
  (is_nan double x -> exists r, c_sqrt false x = Some r /\ is_nan double r) /\
  (neg double x = true -> ~ is_zero double x -> exists r, c_sqrt false x = Some r /\ is_nan double r).
Proof.
  intros x W. split; [|exact (sqrt_other_spec x W)]. intros Fx N Z A1 A2. apply sqrt_spec; try assumption.
  intros [H|H]; [apply A1|apply A2]; apply Z.log2_unique; lia.
Qed.
Print Assumptions C78_sqrt_double_partial.

Example C78_sqrt_double_ex : finite double 0x4000000000000000 /\ neg double 0x4000000000000000 = false /\
  ~ is_zero double 0x4000000000000000 /\ Z.log2 0x4000000000000000 = 62 /\
  c_sqrt false 0x4000000000000000 = Some 0x3ff6a09e667f3bcd /\ c_sqrt false 0x000fffffffffffff = Some 0x1fffffffffffffff /\
  c_sqrt false 0xbff0000000000000 = Some 0x7ff8000000000000.
Proof. repeat split; try (intros X; discriminate X); vm_compute; reflexivity. Qed.

(** Refuted: every subnormal with leading bit 31 or 10 makes e_sqrt.c:135 shift by 32. *)
Theorem C78_sqrt_double_refuted : forall x, word double x -> neg double x = false ->
  Z.log2 (absw double x) = 31 \/ Z.log2 (absw double x) = 10 -> c_sqrt false x = None.
Proof.
  intros x W N H. assert (P : 0 < absw double x) by (destruct (Z_lt_le_dec 0 (absw double x)) as [L|L]; [exact L|rewrite Z.log2_nonpos in H by exact L; lia]).
  pose proof (Z.log2_spec _ P) as S.
  assert (Bd : bad_shift (absw double x)) by (unfold bad_shift; destruct H as [H|H]; rewrite H in S; [left|right]; change (2 ^ 31) with 2147483648 in *; change (2 ^ 10) with 1024 in *; change (2 ^ Z.succ 31) with 4294967296 in *; change (2 ^ Z.succ 10) with 2048 in *; lia).
  apply sqrt_spec; try assumption; [|unfold is_zero; lia]. unfold finite. rewrite Proof.LibmdProof.d_infw. destruct Bd; lia.
Qed.
Print Assumptions C78_sqrt_double_refuted.

Example C78_sqrt_double_refuted_ex : word double 0x80000000 /\ finite double 0x80000000 /\ Z.log2 0x80000000 = 31 /\ c_sqrt false 0x80000000 = None.
Proof. repeat split; try (intros X; discriminate X); vm_compute; reflexivity. Qed.

(** Refuted on big-endian processors: sqrt 1.0 is not 1.0. *)
Theorem C78_big_endian_refuted : word double 0x3ff0000000000000 /\ finite double 0x3ff0000000000000 /\
  sqrt_of double 0x3ff0000000000000 0x3ff0000000000000 /\
  forall r, c_sqrt true 0x3ff0000000000000 = Some r -> ~ sqrt_of double 0x3ff0000000000000 r.
Proof.
  split; [split; [discriminate|reflexivity]|]. split; [reflexivity|].
  assert (S : sqrt_of double 0x3ff0000000000000 0x3ff0000000000000).
  { destruct (proj1 (C78_sqrt_double_partial 0x3ff0000000000000 ltac:(split; [discriminate|reflexivity]))) as (r & E & S);
      [reflexivity|reflexivity|discriminate|discriminate|discriminate|].
    vm_compute in E. injection E as <-. exact S. }
  split; [exact S|]. intros r E T. vm_compute in E. injection E as <-.
  destruct T as (_ & _ & _ & T). destruct (T 0x3ff0000000000000) as [T1 T2]; [split; [discriminate|reflexivity]|reflexivity|reflexivity|].
  vm_compute in T1, T2. first [discriminate (T1 eq_refl)|discriminate (T2 eq_refl)].
Qed.
Print Assumptions C78_big_endian_refuted.
