(** C104: the elementary functions for float return what C99, annex F, says at the ends and outside of their domains.
    Each theorem holds for all patterns x and for every continuation [rest] after the tests. *)
From Verif Require Import Model.Base Spec.Ieee Spec.ElemSpec Model.Float Model.LibmElem Proof.ElemProof.

Theorem C104_logarithms : forall rest, log_ends single (c_logf rest) /\ log_ends single (c_log2f rest) /\ log_ends single (c_log10f rest).
Proof. intros rest. repeat split; apply (log_spec rest); assumption. Qed.
Print Assumptions C104_logarithms.

(** log(-0.0), log(-3.0), log(infinity), log(NaN); 1.0 goes to the interior with k = 0, 2^-149 with k = -25. *)
Example C104_logarithms_ex :
  let f := c_logf (fun k x => 1000 * k + x) in
  (f 0x80000000, f 0x7f800000, f 0x3f800000, f 1) = (0xff800000, 0x7f800000, 0x3f800000, 0x01800000 - 25000) /\
  under single 0xc0400000 0 /\ is_nan single (f 0xc0400000) /\ is_nan single (f 0x7fc00001) /\ plus_inf single 0x7f800000.
Proof. vm_compute. repeat split; congruence. Qed.

Theorem C104_exponential : forall rest, exp_ends single (c_expf rest).
Proof. exact exp_spec. Qed.
Print Assumptions C104_exponential.

(** exp(100.0), exp(-infinity), exp(-105.0), exp(NaN); exp(88.0) goes to the interior. *)
Example C104_exponential_ex :
  let f := c_expf (fun x => 7) in
  (f 0x42c80000, f 0xff800000, f 0xc2d20000, f 0x42b00000) = (0x7f800000, 0, 0, 7) /\ over single 0x42c80000 89 /\
  under single 0xc2d20000 (-104) /\ is_nan single (f 0x7fc00001).
Proof. vm_compute. repeat split; congruence. Qed.

Theorem C104_inverse_trigonometric : forall rest,
  acos_ends single (c_acosf rest) /\ asin_ends single (c_asinf rest) /\ atan_ends single (c_atanf rest).
Proof. intros rest. split; [apply acos_spec|split; [apply asin_spec|apply atan_spec]]. Qed.
Print Assumptions C104_inverse_trigonometric.

(** acos(1.0), acos(-1.0), asin(-1.0), atan(infinity), asin(-0.0); acos(1.5) is no number. *)
Example C104_inverse_trigonometric_ex :
  let r := fun x => 7 in
  (c_acosf r 0x3f800000, c_acosf r 0xbf800000, c_asinf r 0xbf800000, c_atanf r 0x7f800000, c_asinf r 0x80000000) =
  (0, 0x40490fdb, 0xbfc90fdb, 0x3fc90fdb, 0x80000000) /\ over single 0x3fc00000 1 /\ is_nan single (c_acosf r 0x3fc00000) /\
  equals single 0xbf800000 (-1).
Proof. vm_compute. repeat split; congruence. Qed.

Theorem C104_hyperbolic : forall rest,
  acosh_ends single (c_acoshf rest) /\ atanh_ends single (c_atanhf rest) /\ cosh_ends single (c_coshf rest) /\
  sinh_ends single (c_sinhf rest) /\ tanh_ends single (c_tanhf rest).
Proof.
  intros rest. split; [apply acosh_spec|split; [apply atanh_spec|split; [apply cosh_spec|split; [apply sinh_spec|apply tanh_spec]]]].
Qed.
Print Assumptions C104_hyperbolic.

(** acosh(1.0), atanh(-1.0), cosh(-100.0), sinh(-infinity), tanh(-infinity); acosh(0.5) is no number. *)
Example C104_hyperbolic_ex :
  let r := fun x => 7 in
  (c_acoshf r 0x3f800000, c_atanhf r 0xbf800000, c_coshf r 0xc2c80000, c_sinhf r 0xff800000, c_tanhf r 0xff800000) =
  (0, 0xff800000, 0x7f800000, 0xff800000, 0xbf800000) /\ under single 0xc2c80000 (-90) /\ under single 0x3f000000 1 /\
  is_nan single (c_acoshf r 0x3f000000).
Proof. vm_compute. repeat split; congruence. Qed.

Theorem C104_cube_root : forall rest, cbrt_ends single (c_cbrtf rest).
Proof. exact cbrt_spec. Qed.
Print Assumptions C104_cube_root.

Example C104_cube_root_ex :
  let f := c_cbrtf (fun x => 7) in (f 0x80000000, f 0xff800000, f 0xc1000000) = (0x80000000, 0xff800000, 7) /\ is_nan single (f 0xffc00001).
Proof. vm_compute. repeat split; congruence. Qed.

Theorem C104_trigonometric : forall rest,
  trig_ends single (c_sinf rest) /\ trig_ends single (c_cosf rest) /\ trig_ends single (c_tanf rest).
Proof. intros rest. split; [|split]; apply trig_spec; reflexivity. Qed.
Print Assumptions C104_trigonometric.

Example C104_trigonometric_ex :
  let f := c_sinf (fun x => 7) in is_inf single 0xff800000 /\ is_nan single (f 0xff800000) /\ is_nan single (f 0x7f800001) /\ f 0x3f800000 = 7.
Proof. vm_compute. repeat split; congruence. Qed.
