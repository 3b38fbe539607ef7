(** C77: taking a number apart (libpok/libm: frexp, ilogb, logb, modf and their float versions).

    C99, 7.12.6.4, .5, .11, .12 and annex F.  frexp: a fraction of magnitude in [1/2, 1) and the exponent; ilogb: the
    exponent of the greatest power of two not above |x|, subnormals included; modf: integer part and rest with the sign of
    x, exactly.  logb should be ilogb as a number, but gives the least normal exponent for every subnormal; modf should give
    NaN for NaN, but the rest is a zero. *)
From Verif Require Import Model.Base Spec.Ieee Spec.LibmSpec Model.Float Model.Libm Proof.LibmParts.

Theorem C77_frexp_float : forall x f e, word single x -> c_frexpf x = (f, e) ->
  (finite single x -> ~ is_zero single x -> frexp_of single x f e) /\
  (~ finite single x \/ is_zero single x -> f = x /\ e = 0).
Proof.
  intros x f e W R. split; intros H.
  - intros N. now apply frexpf_spec.
  - rewrite (frexpf_other x W H) in R. injection R as <- <-. auto.
Qed.
Print Assumptions C77_frexp_float.

(** 6.5 = 0.8125 * 2^3; the smallest subnormal is 0.5 * 2^-148. *)
Example C77_frexp_float_ex : finite single 0x40d00000 /\ ~ is_zero single 0x40d00000 /\
  c_frexpf 0x40d00000 = (0x3f500000, 3) /\ c_frexpf 0x80000001 = (0xbf000000, -148).
Proof. repeat split; try (intros X; discriminate X); vm_compute; reflexivity. Qed.

Theorem C77_ilogb_float : forall x, word single x ->
  (finite single x -> ~ is_zero single x -> exists e, c_ilogbf x = Some e /\ exponent_of single x e) /\
  (is_zero single x -> c_ilogbf x = Some (-2147483647)) /\ (~ finite single x -> c_ilogbf x = Some 2147483647).
Proof. intros x W. split; [now apply ilogbf_spec|]. now apply ilogbf_other. Qed.
Print Assumptions C77_ilogb_float.

Example C77_ilogb_float_ex : c_ilogbf 0x40d00000 = Some 2 /\ c_ilogbf 0x80000005 = Some (-147) /\ c_ilogbf 0x7fffff = Some (-127).
Proof. vm_compute. auto. Qed.

(** Partial: [sbit single (neg single x)] is the zero with the sign of [x]; NaN is missing. *)
Theorem C77_modf_float_partial : forall x f i, word single x -> c_modff x = (f, i) ->
  (finite single x -> modf_of single x f i) /\ (is_inf single x -> i = x /\ absw single f = 0 /\ neg single f = neg single x).
Proof.
  intros x f i W R. split; intros H.
  - now apply modff_spec.
  - rewrite (modff_inf x W H) in R. injection R as <- <-. split; [reflexivity|]. destruct (neg single x); vm_compute; auto.
Qed.
Print Assumptions C77_modf_float_partial.

(** -6.75 = -0.75 + -6. *)
Example C77_modf_float_ex : finite single 0xc0d80000 /\ c_modff 0xc0d80000 = (0xbf400000, 0xc0c00000) /\
  c_modff 0xff800000 = (0x80000000, 0xff800000).
Proof. repeat split; vm_compute; reflexivity. Qed.

(** Partial: subnormals are missing. *)
Theorem C77_logb_float_partial : forall x, word single x ->
  (normal single x -> exists e, exponent_of single x e /\ word single (c_logbf x) /\ finite single (c_logbf x) /\
     val single (c_logbf x) = e * one single) /\
  (is_zero single x -> is_inf single (c_logbf x) /\ neg single (c_logbf x) = true) /\
  (is_inf single x -> is_inf single (c_logbf x) /\ neg single (c_logbf x) = false) /\
  (is_nan single x -> is_nan single (c_logbf x)).
Proof.
  intros x W. destruct (logbf_other x W) as (A & B & C). split; [now apply logbf_spec|].
  split; [|split; [|exact C]]; intros H; [rewrite (A H)|rewrite (B H)]; vm_compute; auto.
Qed.
Print Assumptions C77_logb_float_partial.

Example C77_logb_float_ex : normal single 0x40d00000 /\ c_logbf 0x40d00000 = 0x40000000 /\ c_logbf 0x3e800000 = 0xc0000000.
Proof. repeat split; try (vm_compute; reflexivity); vm_compute; intros X; discriminate X. Qed.

(** Double, little-endian processors only. *)
Theorem C77_frexp_double_partial : forall x f e, word double x -> c_frexp false x = (f, e) ->
  (finite double x -> ~ is_zero double x -> frexp_of double x f e) /\
  (~ finite double x \/ is_zero double x -> f = x /\ e = 0).
Proof.
  intros x f e W R. split; intros H.
  - intros N. now apply frexp_spec.
  - rewrite (frexp_other x W H) in R. injection R as <- <-. auto.
Qed.
Print Assumptions C77_frexp_double_partial.

Example C77_frexp_double_ex : finite double 0x401a000000000000 /\ ~ is_zero double 0x401a000000000000 /\
  c_frexp false 0x401a000000000000 = (0x3fea000000000000, 3) /\ c_frexp false 0x8000000000000001 = (0xbfe0000000000000, -1073).
Proof. repeat split; try (intros X; discriminate X); vm_compute; reflexivity. Qed.

Theorem C77_ilogb_double_partial : forall x, word double x ->
  (finite double x -> ~ is_zero double x -> exists e, c_ilogb false x = Some e /\ exponent_of double x e) /\
  (is_zero double x -> c_ilogb false x = Some (-2147483647)) /\ (~ finite double x -> c_ilogb false x = Some 2147483647).
Proof. intros x W. split; [now apply ilogb_spec|]. now apply ilogb_other. Qed.
Print Assumptions C77_ilogb_double_partial.

Example C77_ilogb_double_ex : c_ilogb false 0x401a000000000000 = Some 2 /\ c_ilogb false 0x8000000080000005 = Some (-1043) /\
  c_ilogb false 0xfffff00000000 = Some (-1023).
Proof. vm_compute. auto. Qed.

Theorem C77_modf_double_partial : forall x f i, word double x -> c_modf false x = (f, i) ->
  (finite double x -> modf_of double x f i) /\ (is_inf double x -> i = x /\ absw double f = 0 /\ neg double f = neg double x).
Proof.
  intros x f i W R. split; intros H.
  - now apply modf_spec.
  - rewrite (modf_inf x W H) in R. injection R as <- <-. split; [reflexivity|]. destruct (neg double x); vm_compute; auto.
Qed.
Print Assumptions C77_modf_double_partial.

Example C77_modf_double_ex : finite double 0xc01b000000000000 /\
  c_modf false 0xc01b000000000000 = (0xbfe8000000000000, 0xc018000000000000).
Proof. repeat split; vm_compute; reflexivity. Qed.

Theorem C77_logb_double_partial : forall x, word double x ->
  (normal double x -> exists e, exponent_of double x e /\ word double (c_logb false x) /\ finite double (c_logb false x) /\
     val double (c_logb false x) = e * one double) /\
  (is_zero double x -> is_inf double (c_logb false x) /\ neg double (c_logb false x) = true) /\
  (is_inf double x -> is_inf double (c_logb false x) /\ neg double (c_logb false x) = false) /\
  (is_nan double x -> is_nan double (c_logb false x)).
Proof.
  intros x W. destruct (logb_other x W) as (A & B & C). split; [now apply logb_spec|].
  split; [|split; [|exact C]]; intros H; [rewrite (A H)|rewrite (B H)]; vm_compute; auto.
Qed.
Print Assumptions C77_logb_double_partial.

Example C77_logb_double_ex : normal double 0x401a000000000000 /\ c_logb false 0x401a000000000000 = 0x4000000000000000.
Proof. repeat split; try (vm_compute; reflexivity); vm_compute; intros X; discriminate X. Qed.

(** Refuted: logb of a subnormal.  The smallest float is 2^-149, logbf says -126; the smallest double is 2^-1074, logb says
    -1022 (logbf.c:43-44, logb.c:46-47). *)
Theorem C77_logb_refuted :
  (word single 1 /\ exponent_of single 1 (-149) /\ val single (c_logbf 1) = -126 * one single) /\
  (word double 1 /\ exponent_of double 1 (-1074) /\ val double (c_logb false 1) = -1022 * one double).
Proof.
  split; (split; [split; [discriminate|reflexivity]|]); (split; [|vm_compute; reflexivity]);
    (split; [vm_compute; discriminate|]); split; vm_compute; congruence.
Qed.
Print Assumptions C77_logb_refuted.

(** Refuted: modf of a NaN returns a zero (modff.c:60-65, modf.c:66-71). *)
Theorem C77_modf_refuted :
  (word single 0x7fc00000 /\ is_nan single 0x7fc00000 /\ fst (c_modff 0x7fc00000) = 0) /\
  (word double 0x7ff8000000000000 /\ is_nan double 0x7ff8000000000000 /\ fst (c_modf false 0x7ff8000000000000) = 0).
Proof. split; (split; [split; [discriminate|reflexivity]|]); split; vm_compute; reflexivity. Qed.
Print Assumptions C77_modf_refuted.

(** Refuted on big-endian processors: frexp(1.0) is 1.0 with exponent 0 or so, ilogb(1.0) a subnormal's. *)
Theorem C77_big_endian_refuted :
  word double 0x3ff0000000000000 /\ finite double 0x3ff0000000000000 /\ ~ is_zero double 0x3ff0000000000000 /\
  (let '(f, e) := c_frexp true 0x3ff0000000000000 in ~ frexp_of double 0x3ff0000000000000 f e) /\
  (forall e, c_ilogb true 0x3ff0000000000000 = Some e -> ~ exponent_of double 0x3ff0000000000000 e) /\
  (let '(f, i) := c_modf true 0x3ff0000000000000 in ~ modf_of double 0x3ff0000000000000 f i).
Proof.
  split; [split; [discriminate|reflexivity]|]. split; [reflexivity|]. split; [discriminate|]. split; [|split].
  - destruct (c_frexp true 4607182418800017408) as [f e] eqn:E. vm_compute in E. injection E as <- <-.
    intros (_ & _ & _ & _ & X). vm_compute in X. discriminate X.
  - intros e E. vm_compute in E. injection E as <-. intros (_ & _ & X). vm_compute in X. discriminate X.
  - destruct (c_modf true 4607182418800017408) as [f i] eqn:E. vm_compute in E. injection E as <- <-.
    intros ((_ & _ & _ & n & X & Y) & _). vm_compute in X. destruct n; try discriminate X. vm_compute in Y. destruct Y as [_ Y]. discriminate Y.
Qed.
Print Assumptions C77_big_endian_refuted.
