(** C72: rounding a float to an integer (libpok/libm).

    C99: floorf, ceilf, truncf, roundf and rintf return the integer below, above, toward 0, nearest (halfway cases away
    from 0) and nearest (halfway cases to even); the sign of the argument is kept, infinities are returned unchanged, NaN
    gives NaN.  All of it holds here, except that rintf rounds the wrong way when |x| is between 2^21 and 2^22 and three
    quarters above an even integer.  The operations of the processor that the code leans on are modelled in Model/Float.v;
    the first theorem says that they round as IEEE 754 prescribes. *)
From Verif Require Import Model.Base Spec.Ieee Spec.LibmSpec Model.Float Model.Libm
  Proof.FloatProof Proof.FloatRound Proof.LibmfProof Proof.LibmfRint Proof.LibmfRound.

(** The modelled operations round to nearest even. *)
Theorem C72_arithmetic : forall F, F = single \/ F = double ->
  forall x y, word F x -> word F y -> finite F x -> finite F y ->
  rounds F (val F x + val F y) 1 (fadd F x y) /\
  rounds F (val F x - val F y) 1 (fsub F x y) /\
  rounds F (val F x * val F y) (one F) (fmul F x y) /\
  (val F y <> 0 -> rounds F (val F x * one F * Z.sgn (val F y)) (Z.abs (val F y)) (fdiv F x y)).
Proof.
  intros F HF x y Wx Wy Fx Fy.
  assert (H1 : 1 <= mb F) by (destruct HF as [-> | ->]; vm_compute; discriminate).
  assert (H2 : 3 <= eb F) by (destruct HF as [-> | ->]; vm_compute; discriminate).
  assert (H3 : mb F + 2 <= bias F) by (destruct HF as [-> | ->]; vm_compute; discriminate).
  split; [apply fadd_rounds; assumption|]. split; [apply fsub_rounds; assumption|].
  split; [apply fmul_rounds; assumption|]. intros N. apply fdiv_rounds; assumption.
Qed.
Print Assumptions C72_arithmetic.

(** 1/3 is not representable: rounded. *)
Example C72_arithmetic_ex : fdiv single 0x3f800000 0x40400000 = 0x3eaaaaab /\
  fdiv double 0x3ff0000000000000 0x4008000000000000 = 0x3fd5555555555555 /\
  fadd single 0x7f7fffff 0x7f7fffff = 0x7f800000 /\ finite single 0x7f7fffff.
Proof. vm_compute. repeat split. Qed.

Theorem C72_floorf : forall w, word single w -> finite single w -> floor_of single w (c_floorf w).
Proof. exact floorf_finite. Qed.
Print Assumptions C72_floorf.

Theorem C72_ceilf : forall w, word single w -> finite single w -> ceil_of single w (c_ceilf w).
Proof. exact ceilf_finite. Qed.
Print Assumptions C72_ceilf.

Theorem C72_truncf : forall w, word single w -> finite single w -> trunc_of single w (c_truncf w).
Proof. exact truncf_finite. Qed.
Print Assumptions C72_truncf.

Theorem C72_roundf : forall w, word single w -> finite single w -> round_of single w (c_roundf w).
Proof. exact roundf_finite. Qed.
Print Assumptions C72_roundf.

(** -2.5: floor -3, ceil -2, trunc -2, round -3; 0.3: 0, 1, 0, 0. *)
Example C72_ex : word single 0xc0200000 /\ finite single 0xc0200000 /\
  (c_floorf 0xc0200000, c_ceilf 0xc0200000, c_truncf 0xc0200000, c_roundf 0xc0200000, c_rintf 0xc0200000) =
  (0xc0400000, 0xc0000000, 0xc0000000, 0xc0400000, 0xc0000000) /\
  (c_floorf 0x3e99999a, c_ceilf 0x3e99999a, c_truncf 0x3e99999a, c_roundf 0x3e99999a, c_rintf 0x3e99999a) =
  (0, 0x3f800000, 0, 0, 0).
Proof. vm_compute. repeat split; intros X; discriminate X. Qed.

(** Infinities and NaN. *)
Theorem C72_special : passes_special single c_floorf /\ passes_special single c_ceilf /\ passes_special single c_truncf /\
  passes_special single c_roundf /\ passes_special single c_rintf.
Proof.
  split; [exact floorf_special|]. split; [exact ceilf_special|]. split; [exact truncf_special|].
  split; [exact roundf_special|exact rintf_special].
Qed.
Print Assumptions C72_special.

Example C72_special_ex : is_nan single 0x7f800001 /\ is_inf single 0xff800000 /\ c_floorf 0xff800000 = 0xff800000 /\
  c_ceilf 0x7f800001 = 0x7fc00001.
Proof. vm_compute. repeat split. Qed.

(** Partial: rintf, except between 2^21 and 2^22 when the fraction is 3/4 and the integer part even.
    Missing: those numbers, where it fails. *)
Theorem C72_rintf_partial : forall w, word single w -> finite single w ->
  ~ (absw single w / 2 ^ 23 = 127 + 21 /\ absw single w mod 8 = 3) -> rint_of single w (c_rintf w).
Proof. exact rintf_finite. Qed.
Print Assumptions C72_rintf_partial.

(** 2097153.5 goes to 2097154, 2097152.5 to 2097152, -0.5 to -0. *)
Example C72_rintf_ex : (forall w, w = 0x4a000006 \/ w = 0x4a000002 -> ~ (absw single w / 2 ^ 23 = 127 + 21 /\ absw single w mod 8 = 3)) /\
  c_rintf 0x4a000006 = 0x4a000008 /\ c_rintf 0x4a000002 = 0x4a000000 /\ c_rintf 0xbf000000 = 0x80000000.
Proof. split; [|vm_compute; auto]. intros w [-> | ->] [_ X]; discriminate X. Qed.

(** Refuted: rintf(2097152.75) is 2097152, not 2097153. *)
Theorem C72_rintf_refuted : exists w, word single w /\ finite single w /\ ~ rint_of single w (c_rintf w).
Proof.
  exists 0x4a000003. split; [vm_compute; split; [intros X; discriminate X|reflexivity]|]. split; [reflexivity|].
  intros (_ & _ & _ & n & E & (A & _)).
  assert (one single = 2 ^ 149) as O by reflexivity. rewrite O in *.
  replace (val single (c_rintf 0x4a000003)) with (2097152 * 2 ^ 149) in E by (vm_compute; reflexivity).
  assert (n = 2097152) as ->.
  { apply Z.mul_reg_r with (2 ^ 149); [vm_compute; discriminate|]. symmetry. exact E. }
  vm_compute in A. apply A. reflexivity.
Qed.
Print Assumptions C72_rintf_refuted.
