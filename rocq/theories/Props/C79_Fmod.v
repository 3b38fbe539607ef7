(** C79: fmod (libpok/libm/e_fmodf.c, e_fmod.c, called directly by fmodf.c, fmod.c).

    C99, 7.12.10.1 and F.9.7.1: x - n * y for an integer n, with the sign of x and magnitude less than that of y, exactly,
    even if n has two thousand bits; NaN if y is zero, x infinite, or one of them NaN; x if only y is infinite. *)
From Verif Require Import Model.Base Spec.Ieee Spec.LibmSpec Model.Float Model.Libm Model.LibmRoot
  Proof.LibmModf Proof.LibmModd.

Theorem C79_fmod_float : forall x y, word single x -> word single y ->
  (finite single x -> finite single y -> ~ is_zero single y -> exists r, c_fmodf x y = Some r /\ fmod_of single x y r) /\
  (finite single x -> is_inf single y -> c_fmodf x y = Some x) /\
  (is_zero single y \/ ~ finite single x \/ is_nan single y -> exists r, c_fmodf x y = Some r /\ is_nan single r).
Proof. intros x y Wx Wy. split; [|split]; intros; [now apply fmodf_spec|now apply fmodf_inf|now apply fmodf_invalid]. Qed.
Print Assumptions C79_fmod_float.

(** -6.75 mod 2 = -0.75; the greatest float mod 3 = 0; 1.0 mod a subnormal; 5 mod 0 is NaN. *)
Example C79_fmod_float_ex : finite single 0xc0d80000 /\ finite single 0x40000000 /\ ~ is_zero single 0x40000000 /\
  c_fmodf 0xc0d80000 0x40000000 = Some 0xbf400000 /\ c_fmodf 0x7f7fffff 0x40400000 = Some 0 /\
  c_fmodf 0x3f800000 7 = Some 4 /\ c_fmodf 0x40a00000 0 = Some 0x7fc00000 /\ c_fmodf 0x40a00000 0xff800000 = Some 0x40a00000.
Proof. repeat split; try (intros X; discriminate X); vm_compute; reflexivity. Qed.

(** Partial: little-endian processors. *)
Theorem C79_fmod_double_partial : forall x y, word double x -> word double y ->
  (finite double x -> finite double y -> ~ is_zero double y -> exists r, c_fmod false x y = Some r /\ fmod_of double x y r) /\
  (finite double x -> is_inf double y -> c_fmod false x y = Some x) /\
  (is_zero double y \/ ~ finite double x \/ is_nan double y -> exists r, c_fmod false x y = Some r /\ is_nan double r).
Proof. intros x y Wx Wy. split; [|split]; intros; [now apply fmod_spec|now apply fmod_inf|now apply fmod_invalid]. Qed.
Print Assumptions C79_fmod_double_partial.

Example C79_fmod_double_ex : finite double 0xc01b000000000000 /\ finite double 0x4000000000000000 /\ ~ is_zero double 0x4000000000000000 /\
  c_fmod false 0xc01b000000000000 0x4000000000000000 = Some 0xbfe8000000000000 /\
  c_fmod false 0x7fefffffffffffff 0x4008000000000000 = Some 0x4000000000000000 /\
  c_fmod false 0x3ff0000000000000 7 = Some 1.
Proof. repeat split; try (intros X; discriminate X); vm_compute; reflexivity. Qed.

(** Refuted on big-endian processors: 3.0 mod 2.0. *)
Theorem C79_big_endian_refuted : word double 0x4008000000000000 /\ word double 0x4000000000000000 /\
  finite double 0x4008000000000000 /\ finite double 0x4000000000000000 /\ ~ is_zero double 0x4000000000000000 /\
  forall r, c_fmod true 0x4008000000000000 0x4000000000000000 = Some r -> ~ fmod_of double 0x4008000000000000 0x4000000000000000 r.
Proof.
  split; [split; [discriminate|reflexivity]|]. split; [split; [discriminate|reflexivity]|].
  split; [reflexivity|]. split; [reflexivity|]. split; [discriminate|].
  intros r E. vm_compute in E. injection E as <-. intros (_ & _ & _ & _ & k & X).
  assert (A1 : val double 0x4008000000000000 = 3 * 2 ^ 1074) by (vm_compute; reflexivity).
  assert (A2 : val double 0x4000000000000000 = 2 * 2 ^ 1074) by (vm_compute; reflexivity).
  assert (A3 : val double 2251799813685248 = 2 ^ 51) by (vm_compute; reflexivity).
  rewrite A1, A2, A3 in X. clear A1 A2 A3. apply (f_equal (fun z => z mod 2 ^ 1074)) in X.
  replace (k * (2 * 2 ^ 1074) + 2 ^ 51) with (2 ^ 51 + (2 * k) * 2 ^ 1074) in X by ring. rewrite Z.mod_add in X by discriminate.
  vm_compute in X. discriminate X.
Qed.
Print Assumptions C79_big_endian_refuted.
