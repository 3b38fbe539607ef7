(** C105: powf with zeros, infinities, NaN and negative bases.  The theorems hold for all pairs of patterns and for every
    continuation [rest] after the tests. *)
From Verif Require Import Model.Base Spec.Ieee Spec.ElemSpec Spec.PowSpec Model.Float Model.LibmPow Proof.LibmfProof Proof.ElemProof Proof.PowProof.

(** Exponents of zero, NaN. *)
Theorem C105_zero_and_nan : forall rest, pow_exponent_zero single (c_powf rest) /\ pow_nan single (c_powf rest).
Proof. intros rest. split; [apply pow_zero_ok|apply pow_nan_ok]. Qed.
Print Assumptions C105_zero_and_nan.

(** NaN ** -0.0 is 1; 2.0 ** NaN is NaN. *)
Example C105_zero_and_nan_ex : let f := c_powf (fun _ _ => None) in
  f 0x7fc00001 0x80000000 = Some 0x3f800000 /\ gives f 0x40000000 0x7fc00001 (is_nan single) /\ is_nan single 0x7fc00001 /\ ~ equals single 0x40000000 1.
Proof.
  intros f. split; [vm_compute; reflexivity|]. split; [exists 0x7fc00001; vm_compute; auto|].
  split; [vm_compute; reflexivity|]. intros [_ H]. vm_compute in H. discriminate H.
Qed.

(** Infinite exponents, bases other than 1 and -1. *)
Theorem C105_infinite_exponent : forall rest, pow_exponent_inf single (c_powf rest).
Proof. exact pow_inf_ok. Qed.
Print Assumptions C105_infinite_exponent.

Example C105_infinite_exponent_ex : let f := c_powf (fun _ _ => None) in
  (f 0xc0000000 0x7f800000, f 0xc0000000 0xff800000, f 0x3f000000 0x7f800000, f 0xbf000000 0xff800000) =
  (Some 0x7f800000, Some 0, Some 0, Some 0x7f800000) /\ under single 0xc0000000 (-1) /\ over single 0xbf000000 (-1).
Proof. vm_compute. repeat split; congruence. Qed.

(** Zeros and infinities as bases, with the sign for odd exponents. *)
Theorem C105_zero_and_infinite_base : forall rest, pow_base_zero single (c_powf rest) /\ pow_base_inf single (c_powf rest).
Proof. intros rest. split; [apply pow_base_zero_ok|apply pow_base_inf_ok]. Qed.
Print Assumptions C105_zero_and_infinite_base.

(** (-0.0) ** 3.0, (-0.0) ** -3.0, (-0.0) ** -2.5, (-infinity) ** 16777215.0, (-infinity) ** 16777216.0, infinity ** 0.5. *)
Example C105_zero_and_infinite_base_ex : let f := c_powf (fun _ _ => None) in
  (f 0x80000000 0x40400000, f 0x80000000 0xc0400000, f 0x80000000 0xc0200000) = (Some 0x80000000, Some 0xff800000, Some 0x7f800000) /\
  (f 0xff800000 0x4b7fffff, f 0xff800000 0x4b800000, f 0x7f800000 0x3f000000) = (Some 0xff800000, Some 0x7f800000, Some 0x7f800000) /\
  odd_integer single 0x4b7fffff /\ above_zero single 0x4b7fffff.
Proof.
  intros f. split; [vm_compute; reflexivity|]. split; [vm_compute; reflexivity|]. split.
  - exists 16777215. vm_compute. split; reflexivity.
  - split; vm_compute; congruence.
Qed.

(** Negative numbers to powers that are no integers. *)
Theorem C105_negative_base : forall rest, pow_negative single (c_powf rest).
Proof. exact pow_negative_ok. Qed.
Print Assumptions C105_negative_base.

(** (-2.0) ** 0.5 is NaN; (-2.0) ** 3.0 goes to the interior. *)
Example C105_negative_base_ex : let f := c_powf (fun _ _ => None) in
  gives f 0xc0000000 0x3f000000 (is_nan single) /\ f 0xc0000000 0x40400000 = None /\ under single 0xc0000000 0.
Proof.
  intros f. split; [exists (dnan single); vm_compute; auto|].
  split; [vm_compute; reflexivity|split; vm_compute; congruence].
Qed.

(** Refuted: with the base 1 the result is not always 1.  For every NaN and every infinity as exponent it is NaN, and so it is
    for -1 and infinities. *)
Theorem C105_base_one_refuted : forall rest,
  (forall y, word single y -> ~ finite single y -> gives (c_powf rest) 0x3f800000 y (is_nan single)) /\
  (forall y, word single y -> is_inf single y -> gives (c_powf rest) 0xbf800000 y (is_nan single)) /\
  ~ pow_base_one single (c_powf rest).
Proof.
  intros rest. assert (K : forall y, word single y -> is_inf single y -> gives (c_powf rest) 0xbf800000 y (is_nan single) /\
      gives (c_powf rest) 0x3f800000 y (is_nan single)).
  { intros y W I. destruct (proj2 (base_words y W) I) as [[-> _]|[-> _]]; split; exists (dnan single); vm_compute; auto. }
  split; [|split].
  - intros y W N. destruct (Z.eq_dec (absw single y) (infw single)) as [I|I]; [now apply K|].
    destruct (f_cases y W) as (_ & _ & A & _). unfold finite in N. unfold gives, c_powf. cbv zeta. rewrite A.
    exists (fadd single 0x3f800000 y). rewrite s_infw in *.
    split; [|apply fadd_nan2; [split; vm_compute; congruence|exact W|right; unfold is_nan; rewrite s_infw; lia]].
    destruct (Z.eqb_spec (absw single y) 0); [lia|]. destruct (Z.ltb_spec 2139095040 (absw single y)); [now rewrite Bool.orb_true_r|lia].
  - intros y W I. now apply K.
  - intros H. destruct (H 0x3f800000 0x7f800000) as (r & R & E & _); [split; vm_compute; congruence|split; vm_compute; congruence| |].
    + left. split; vm_compute; congruence.
    + assert (X : c_powf rest 0x3f800000 0x7f800000 = Some (fsub single 0x7f800000 0x7f800000)) by reflexivity.
      rewrite X in R. injection R as <-. apply E. vm_compute. reflexivity.
Qed.
Print Assumptions C105_base_one_refuted.
