(** C107: hypotf. *)
From Verif Require Import Model.Base Spec.Ieee Spec.ElemSpec Spec.Atan2Spec Model.Float Model.LibmAtan2 Proof.Atan2Proof.

(** Zeros, infinities and NaN, for all pairs of patterns. *)
Theorem C107_hypot_ends : hypot_ends single c_hypotf.
Proof. exact hypot_spec. Qed.
Print Assumptions C107_hypot_ends.

(** hypot(-infinity, NaN), hypot(-2^-149, 0), hypot(0, -2^100); hypot(3, 4) is 5. *)
Example C107_hypot_ends_ex :
  (c_hypotf 0xff800000 0x7fc00001, c_hypotf 0x80000001 0, c_hypotf 0 0xf1800000, c_hypotf 0x40400000 0x40800000) =
  (Some 0x7f800000, Some 1, Some 0x71800000, Some 0x40a00000) /\ is_inf single 0xff800000 /\ is_nan single 0x7fc00001.
Proof. vm_compute. repeat split. Qed.

(** Refuted outside of the middle range, where a and b are scaled: by 2^187 where 2^60 is meant, and by 1/2 where 2^126 is.
    Of the triangles 3, 4, 5 in the units 2^51 and 2^-60 the result is NaN, in the unit 100000 * 2^-149 it is 0. *)
Theorem C107_hypot_refuted :
  (exists r, c_hypotf 0x59c00000 0x5a000000 = Some r /\ is_nan single r) /\ ~ hypot_of single c_hypotf 0x59c00000 0x5a000000 /\
  (exists r, c_hypotf 0x22400000 0x22800000 = Some r /\ is_nan single r) /\ ~ hypot_of single c_hypotf 0x22400000 0x22800000 /\
  c_hypotf 300000 400000 = Some 0 /\ ~ hypot_of single c_hypotf 300000 400000.
Proof.
  assert (E1 : exists r, c_hypotf 0x59c00000 0x5a000000 = Some r /\ is_nan single r) by (exists (dnan single); vm_compute; auto).
  assert (E2 : exists r, c_hypotf 0x22400000 0x22800000 = Some r /\ is_nan single r) by (exists (dnan single); vm_compute; auto).
  assert (E3 : c_hypotf 300000 400000 = Some 0) by (vm_compute; reflexivity).
  assert (K : forall x y z, word single z -> finite single z -> neg single z = false ->
     val single z * val single z = val single x * val single x + val single y * val single y ->
     (exists r, c_hypotf x y = Some r /\ is_nan single r) -> ~ hypot_of single c_hypotf x y).
  { intros x y z W Fz N V (r & R & Nr) H. destruct (H z W Fz N V) as (r' & R' & Fr & _). rewrite R in R'. injection R' as <-.
    unfold is_nan, finite in *. lia. }
  split; [exact E1|]. split.
  { apply (K _ _ 0x5a200000); [split; vm_compute; congruence|vm_compute; reflexivity|reflexivity|vm_compute; reflexivity|exact E1]. }
  split; [exact E2|]. split.
  { apply (K _ _ 0x22a00000); [split; vm_compute; congruence|vm_compute; reflexivity|reflexivity|vm_compute; reflexivity|exact E2]. }
  split; [exact E3|]. intros H.
  destruct (H 500000) as (r & R & _ & D); [split; vm_compute; congruence|vm_compute; reflexivity|reflexivity|vm_compute; reflexivity|].
  rewrite E3 in R. injection R as <-. vm_compute in D. now apply D.
Qed.
Print Assumptions C107_hypot_refuted.

(** The claim refuted is met in the middle range: hypot(3, 4) is 5. *)
Example C107_hypot_ex : c_hypotf 0x40400000 0x40800000 = Some 0x40a00000 /\ finite single 0x40a00000 /\
  val single 0x40a00000 * val single 0x40a00000 = val single 0x40400000 * val single 0x40400000 + val single 0x40800000 * val single 0x40800000.
Proof. vm_compute. repeat split. Qed.
