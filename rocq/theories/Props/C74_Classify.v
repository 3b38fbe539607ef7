(** C74: sign and class of a number (libpok/libm).

    C99: fabs clears the sign, copysign takes magnitude and sign from its arguments, fpclassify tells zero, subnormal,
    normal, infinite and NaN apart.  The comments in isnan.c, isinf.c, finite.c and their float versions promise 1 or 0.
    Here all of that holds for float.  For double it holds on little-endian processors, except that isnan returns -1 for
    NaN; on big-endian processors the two words of the number are taken for each other. *)
From Verif Require Import Model.Base Spec.Ieee Spec.LibmSpec Model.Float Model.Libm
  Proof.LibmfRound Proof.LibmdRound Proof.LibmSign.

(** [f] tells by 1 or 0 whether [P] holds. *)
Definition decides (F : fmt) (P : Z -> Prop) (f : Z -> Z) : Prop :=
  forall w, word F w -> (P w -> f w = 1) /\ (~ P w -> f w = 0).

(** [r] has the sign [s] and the magnitude of [w], whatever [w] is. *)
Definition with_sign (F : fmt) (w : Z) (s : bool) (r : Z) : Prop :=
  word F r /\ neg F r = s /\ absw F r = absw F w.

(** [f] tells the five classes apart, by the codes of libm.h:30-34. *)
Definition classifies (F : fmt) (f : Z -> Z) : Prop :=
  forall w, word F w ->
    (f w = 5 <-> is_zero F w) /\ (f w = 4 <-> subnormal F w) /\ (f w = 3 <-> normal F w) /\
    (f w = 2 <-> is_inf F w) /\ (f w = 1 <-> is_nan F w).

Theorem C74_sign_float : forall x y, word single x -> word single y ->
  with_sign single x false (c_fabsf x) /\ with_sign single x (neg single y) (c_copysignf x y).
Proof. intros x y Wx Wy. split; [now apply fabsf_spec|now apply copysignf_spec]. Qed.
Print Assumptions C74_sign_float.

Theorem C74_class_float : decides single (is_nan single) c_isnanf /\ decides single (is_inf single) c_isinff /\
  decides single (finite single) c_finitef /\ classifies single c_fpclassifyf.
Proof.
  split; [exact isnanf_spec|]. split; [exact isinff_spec|]. split; [exact finitef_spec|exact fpclassifyf_spec].
Qed.
Print Assumptions C74_class_float.

Example C74_float_ex : word single 0xffc00001 /\ is_nan single 0xffc00001 /\ c_fabsf 0xffc00001 = 0x7fc00001 /\
  c_copysignf 0x3f800000 0x80000000 = 0xbf800000 /\ c_isnanf 0xffc00001 = 1 /\ c_isinff 0xff800000 = 1 /\
  c_finitef 0x80000001 = 1 /\ c_fpclassifyf 0x80000001 = 4.
Proof. vm_compute. repeat split; intros X; discriminate X. Qed.

(** Partial: little-endian processors. *)
Theorem C74_sign_double_partial : forall x y, word double x -> word double y ->
  with_sign double x false (c_fabs false x) /\ with_sign double x (neg double y) (c_copysign false x y).
Proof. intros x y Wx Wy. split; [now apply fabs_spec|now apply copysign_spec]. Qed.
Print Assumptions C74_sign_double_partial.

(** Partial: little-endian processors; isnan is different from 0 for NaN only, but not 1. *)
Theorem C74_class_double_partial : decides double (is_inf double) (c_isinf false) /\
  decides double (finite double) (c_finite false) /\ classifies double (c_fpclassifyd false) /\
  (forall d, word double d -> (c_isnan false d <> 0 <-> is_nan double d)).
Proof.
  split; [exact isinf_spec|]. split; [exact finite_spec|]. split; [exact fpclassifyd_spec|].
  intros d W. destruct (isnan_spec d W) as [A B]. split; intros H.
  - destruct (Z_lt_le_dec (infw double) (absw double d)) as [L|L]; [exact L|]. exfalso. apply H, B.
    unfold is_nan. apply Z.le_ngt, L.
  - rewrite A by exact H. discriminate.
Qed.
Print Assumptions C74_class_double_partial.

Example C74_double_ex : word double 0xfff0000000000001 /\ is_nan double 0xfff0000000000001 /\
  c_fabs false 0xfff0000000000001 = 0x7ff0000000000001 /\
  c_copysign false 0x3ff0000000000000 0x8000000000000000 = 0xbff0000000000000 /\
  c_isnan false 0xfff0000000000001 <> 0 /\ c_isnan false 0xfff0000000000000 = 0 /\ c_isinf false 0xfff0000000000000 = 1 /\
  c_fpclassifyd false 0x8000000000000001 = 4.
Proof. vm_compute. repeat split; intros X; discriminate X. Qed.

(** Refuted: isnan returns -1 for every NaN (isnan.c:42 casts before it shifts), isnanf returns 1. *)
Theorem C74_isnan_refuted : (forall d, word double d -> is_nan double d -> c_isnan false d = -1) /\
  ~ decides double (is_nan double) (c_isnan false).
Proof.
  split; [intros d W N; now apply isnan_spec|].
  intros D. destruct (D 0x7ff8000000000000) as [A _]; [vm_compute; split; [intros X; discriminate X|reflexivity]|].
  specialize (A eq_refl). vm_compute in A. discriminate A.
Qed.
Print Assumptions C74_isnan_refuted.

(** Refuted on big-endian processors: fabs(-1.0) is -1.0, copysign(1.0, -1.0) is 1.0, NaN is finite and infinity zero. *)
Theorem C74_big_endian_refuted :
  ~ (forall x, word double x -> with_sign double x false (c_fabs true x)) /\
  ~ (forall x y, word double x -> word double y -> with_sign double x (neg double y) (c_copysign true x y)) /\
  ~ decides double (finite double) (c_finite true) /\ ~ classifies double (c_fpclassifyd true) /\
  ~ (forall d, word double d -> (c_isnan true d <> 0 <-> is_nan double d)) /\
  ~ decides double (is_inf double) (c_isinf true).
Proof.
  assert (W : forall w, 0 <= w -> w < 2 ^ 64 -> word double w) by (intros w A B; split; assumption).
  split; [|split; [|split; [|split; [|split]]]]; intros H.
  - destruct (H 0xbff0000000000000) as (_ & N & _); [apply W; [discriminate|reflexivity]|]. discriminate N.
  - destruct (H 0x3ff0000000000000 0xbff0000000000000) as (_ & N & _);
      [apply W; [discriminate|reflexivity]|apply W; [discriminate|reflexivity]|]. discriminate N.
  - destruct (H 0x7ff8000000000000) as [_ N]; [apply W; [discriminate|reflexivity]|].
    assert (X : ~ finite double 0x7ff8000000000000) by (intros Y; discriminate Y). specialize (N X). discriminate N.
  - destruct (H 0x7ff0000000000000) as (_ & _ & _ & [_ N] & _); [apply W; [discriminate|reflexivity]|].
    specialize (N eq_refl). discriminate N.
  - destruct (H 0x7ff8000000000000) as [_ N]; [apply W; [discriminate|reflexivity]|]. apply (N eq_refl). reflexivity.
  - destruct (H 0x7ff0000000000000) as [N _]; [apply W; [discriminate|reflexivity]|]. specialize (N eq_refl). discriminate N.
Qed.
Print Assumptions C74_big_endian_refuted.
