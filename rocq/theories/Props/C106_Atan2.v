(** C106: atan2f with zeros, infinities and NaN, for all pairs of patterns and every continuation after the tests. *)
From Verif Require Import Model.Base Spec.Ieee Spec.ElemSpec Spec.Atan2Spec Model.Float Model.LibmAtan2 Proof.FloatProof Proof.FloatRound Proof.LibmfProof Proof.Atan2Proof.

Theorem C106_atan2_ends : forall rest_atan rest, atan2_ends single (c_atan2f rest_atan rest).
Proof. exact atan2_spec. Qed.
Print Assumptions C106_atan2_ends.

(** atan2(-0, 5), atan2(-1, -0), atan2(-3, infinity), atan2(infinity, 1), atan2(infinity, infinity), atan2(-infinity, -infinity). *)
Example C106_atan2_ends_ex : let f := c_atan2f (fun _ => 7) (fun _ _ => 8) in
  (f 0x80000000 0x40a00000, f 0xbf800000 0x80000000, f 0xc0400000 0x7f800000) = (0x80000000, 0xbfc90fdb, 0x80000000) /\
  (f 0x7f800000 0x3f800000, f 0x7f800000 0x7f800000, f 0xff800000 0xff800000, f 0x3f800000 0x40000000) = (0x3fc90fdb, 0x3f490fdb, 0xc016cbe4, 8) /\
  is_nan single (f 0x7fc00001 0).
Proof. vm_compute. repeat split. Qed.

(** Where the result is pi, it is pi rounded towards zero. *)
Theorem C106_atan2_pi_partial : forall rest_atan rest, atan2_pi single (pi_cut single) (c_atan2f rest_atan rest).
Proof. exact atan2_pi_cut. Qed.
Print Assumptions C106_atan2_pi_partial.

(** atan2(0, -1), atan2(-0, -0), atan2(2, -infinity). *)
Example C106_atan2_pi_ex : let f := c_atan2f (fun _ => 7) (fun _ _ => 8) in
  (f 0 0xbf800000, f 0x80000000 0x80000000, f 0x40000000 0xff800000) = (0x40490fda, 0xc0490fda, 0x40490fda) /\
  neg single 0xbf800000 = true /\ is_zero single 0.
Proof. vm_compute. repeat split. Qed.

(** Refuted: it is not pi rounded to nearest, which is 0x40490fdb and what acosf(-1) returns. *)
Theorem C106_atan2_pi_refuted : forall rest_atan rest, ~ atan2_pi single (pi_nearest single) (c_atan2f rest_atan rest).
Proof.
  intros ra rest H. specialize (H 0 0xbf800000). change (neg single 0) with false in H.
  assert (R : pi_nearest single false (c_atan2f ra rest 0 0xbf800000)).
  { apply H; [split; vm_compute; congruence|split; vm_compute; congruence|reflexivity|]. left. split; [reflexivity|]. vm_compute. congruence. }
  assert (E : c_atan2f ra rest 0 0xbf800000 = 0x40490fda) by (vm_compute; reflexivity). rewrite E in R.
  unfold pi_nearest, pi_over in R. destruct R as (_ & _ & _ & T).
  match type of T with context [if ?c then _ else _] => assert (c = true) as C by (vm_compute; reflexivity); rewrite C in T; clear C end.
  destruct T as (_ & T & _). specialize (T 0x40490fdb ltac:(split; vm_compute; congruence) ltac:(vm_compute; reflexivity)).
  vm_compute in T. now apply T.
Qed.
Print Assumptions C106_atan2_pi_refuted.
