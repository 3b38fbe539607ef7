(** C80: remainder, drem (libpok/libm/e_remainderf.c, e_remainder.c, called directly by remainderf.c, remainder.c, dremf.c,
    drem.c).

    IEEE 754 and C99, 7.12.10.2, F.9.7.2: x - n * p exactly, for the integer n nearest to the quotient, the even one of two;
    a zero result has the sign of x; NaN if p is zero, x infinite, or one of them NaN; x if only p is infinite. *)
From Verif Require Import Model.Base Spec.Ieee Spec.LibmSpec Model.Float Model.Libm Model.LibmRoot Proof.LibmRem.

Theorem C80_remainder_float : forall x p, word single x -> word single p ->
  (finite single x -> finite single p -> ~ is_zero single p -> exists r, c_remainderf x p = Some r /\ remainder_of single x p r) /\
  (finite single x -> is_inf single p -> c_remainderf x p = Some x) /\
  (is_zero single p \/ ~ finite single x \/ is_nan single p -> exists r, c_remainderf x p = Some r /\ is_nan single r).
Proof. intros x p Wx Wp. split; [|split]; intros; [now apply remainderf_spec|now apply remainderf_inf|now apply remainderf_invalid]. Qed.
Print Assumptions C80_remainder_float.

(** 5 rem 2 = 1, 3 rem 2 = -1 (halfway, even quotients); -6 rem 2 = -0; 7 rem 4 = -1; subnormals. *)
Example C80_remainder_float_ex : finite single 0x40a00000 /\ finite single 0x40000000 /\ ~ is_zero single 0x40000000 /\
  c_remainderf 0x40a00000 0x40000000 = Some 0x3f800000 /\ c_remainderf 0x40400000 0x40000000 = Some 0xbf800000 /\
  c_remainderf 0xc0c00000 0x40000000 = Some 0x80000000 /\ c_remainderf 0x40e00000 0x40800000 = Some 0xbf800000 /\
  c_remainderf 8 5 = Some 0x80000002 /\ c_remainderf 0x7f7fffff 0x7f7ffffe = Some 0x73800000.
Proof. repeat split; try (intros X; discriminate X); vm_compute; reflexivity. Qed.

(** Partial: little-endian processors. *)
Theorem C80_remainder_double_partial : forall x p, word double x -> word double p ->
  (finite double x -> finite double p -> ~ is_zero double p -> exists r, c_remainder false x p = Some r /\ remainder_of double x p r) /\
  (finite double x -> is_inf double p -> c_remainder false x p = Some x) /\
  (is_zero double p \/ ~ finite double x \/ is_nan double p -> exists r, c_remainder false x p = Some r /\ is_nan double r).
Proof. intros x p Wx Wp. split; [|split]; intros; [now apply remainder_spec|now apply remainder_inf|now apply remainder_invalid]. Qed.
Print Assumptions C80_remainder_double_partial.

Example C80_remainder_double_ex : finite double 0x4014000000000000 /\ finite double 0x4000000000000000 /\ ~ is_zero double 0x4000000000000000 /\
  c_remainder false 0x4014000000000000 0x4000000000000000 = Some 0x3ff0000000000000 /\
  c_remainder false 0xc008000000000000 0x4000000000000000 = Some 0x3ff0000000000000 /\
  c_remainder false 8 5 = Some 0x8000000000000002.
Proof. repeat split; try (intros X; discriminate X); vm_compute; reflexivity. Qed.

(** Refuted on big-endian processors: -6.0 rem -3.0. *)
Theorem C80_big_endian_refuted : word double 0xc018000000000000 /\ word double 0xc008000000000000 /\
  finite double 0xc018000000000000 /\ finite double 0xc008000000000000 /\ ~ is_zero double 0xc008000000000000 /\
  forall r, c_remainder true 0xc018000000000000 0xc008000000000000 = Some r -> ~ remainder_of double 0xc018000000000000 0xc008000000000000 r.
Proof.
  split; [split; [discriminate|reflexivity]|]. split; [split; [discriminate|reflexivity]|].
  split; [reflexivity|]. split; [reflexivity|]. split; [discriminate|].
  intros r E. vm_compute in E. injection E as <-. intros (_ & _ & _ & n & _ & L & _). vm_compute in L. apply L. reflexivity.
Qed.
Print Assumptions C80_big_endian_refuted.
