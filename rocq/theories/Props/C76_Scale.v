(** C76: scaling by a power of two (libpok/libm: scalbn, scalbnf, ldexp, ldexpf).

    C99, 7.12.6.6 and 7.12.6.13: x * 2^n.  The results are that product rounded to the nearest number, down to subnormals
    and zero and up to infinity, with the sign of x; infinities and NaN pass.  The exponent is added as an int before it is
    checked, so an [n] close to INT_MAX makes the addition overflow, which C leaves undefined. *)
From Verif Require Import Model.Base Spec.Ieee Spec.LibmSpec Model.Float Model.Libm Proof.LibmScale Proof.LibmParts.

(** Partial: the exponents for which the addition is defined. *)
Theorem C76_float_partial : forall x n, word single x ->
  (finite single x -> -2147483623 <= n <= 2147483393 ->
     exists r, c_scalbnf x n = Some r /\ c_ldexpf x n = Some r /\ scaled single x n r /\ (is_zero single x -> r = x)) /\
  (is_inf single x -> c_scalbnf x n = Some x /\ c_ldexpf x n = Some x) /\
  (is_nan single x -> exists r s, c_scalbnf x n = Some r /\ c_ldexpf x n = Some s /\ is_nan single r /\ is_nan single s).
Proof.
  intros x n W. split; [|split].
  - intros Fx Hn. destruct (scalbnf_spec x n W Fx) as [A B]. destruct (B Hn) as [r R]. exists r.
    rewrite ldexpf_same by (exact W || (unfold finite, is_nan in *; lia)).
    destruct (A r R) as [A1 A2]. auto.
  - intros H. rewrite ldexpf_same by (exact W || (unfold is_inf, is_nan in *; lia)).
    pose proof (proj1 (scalbnf_special x n W) H). auto.
  - intros H. destruct (proj2 (scalbnf_special x n W) H) as (r & R1 & R2). exists r, x.
    rewrite (ldexpf_nan x n W H). auto.
Qed.
Print Assumptions C76_float_partial.

(** 1.5 * 2^-149 is halfway between the two smallest subnormals and goes to the even one; 2^-149 * 2^276 = 2^127; overflow. *)
Example C76_float_ex :
  finite single 0x3fc00000 /\ c_scalbnf 0x3fc00000 (-149) = Some 2 /\ c_scalbnf 1 276 = Some 0x7f000000 /\
  c_scalbnf 0xbf800000 128 = Some 0xff800000 /\ c_ldexpf 0x80000001 (-2000000) = Some 0x80000000.
Proof. repeat split; vm_compute; reflexivity. Qed.

(** Partial: the same, and little-endian processors only. *)
Theorem C76_double_partial : forall x n, word double x ->
  (finite double x -> -2147483594 <= n <= 2147481601 ->
     exists r, c_scalbn false x n = Some r /\ c_ldexp false x n = Some r /\ scaled double x n r /\ (is_zero double x -> r = x)) /\
  (is_inf double x -> c_scalbn false x n = Some x /\ c_ldexp false x n = Some x) /\
  (is_nan double x -> exists r s, c_scalbn false x n = Some r /\ c_ldexp false x n = Some s /\ is_nan double r /\ is_nan double s).
Proof.
  intros x n W. split; [|split].
  - intros Fx Hn. destruct (scalbn_spec x n W Fx) as [A B]. destruct (B Hn) as [r R]. exists r.
    rewrite ldexp_same by (exact W || (unfold finite, is_nan in *; lia)).
    destruct (A r R) as [A1 A2]. auto.
  - intros H. rewrite ldexp_same by (exact W || (unfold is_inf, is_nan in *; lia)).
    pose proof (proj1 (scalbn_special x n W) H). auto.
  - intros H. destruct (proj2 (scalbn_special x n W) H) as (r & R1 & R2). exists r, x.
    rewrite (ldexp_nan x n W H). auto.
Qed.
Print Assumptions C76_double_partial.

Example C76_double_ex :
  finite double 0x3ff8000000000000 /\ c_scalbn false 0x3ff8000000000000 (-1074) = Some 2 /\
  c_scalbn false 1 2097 = Some 0x7fe0000000000000 /\ c_ldexp false 0xbff0000000000000 3 = Some 0xc020000000000000.
Proof. repeat split; vm_compute; reflexivity. Qed.

(** Refuted: scalbn(1.0, INT_MAX) and the like overflow an int (scalbnf.c:54, scalbn.c:59). *)
Theorem C76_overflow_refuted :
  ~ (forall x n, word single x -> finite single x -> -2147483648 <= n <= 2147483647 -> exists r, c_scalbnf x n = Some r) /\
  ~ (forall x n, word single x -> finite single x -> -2147483648 <= n <= 2147483647 -> exists r, c_ldexpf x n = Some r) /\
  ~ (forall x n, word double x -> finite double x -> -2147483648 <= n <= 2147483647 -> exists r, c_scalbn false x n = Some r) /\
  ~ (forall x n, word double x -> finite double x -> -2147483648 <= n <= 2147483647 -> exists r, c_ldexp false x n = Some r).
Proof.
  split; [|split; [|split]]; intros H.
  - destruct (H 0x3f800000 2147483647) as [r R]; [split; vm_compute; congruence|vm_compute; reflexivity|split; vm_compute; congruence|].
    vm_compute in R. discriminate R.
  - destruct (H 0x3f800000 2147483647) as [r R]; [split; vm_compute; congruence|vm_compute; reflexivity|split; vm_compute; congruence|].
    vm_compute in R. discriminate R.
  - destruct (H 0x3ff0000000000000 2147483647) as [r R]; [split; vm_compute; congruence|vm_compute; reflexivity|split; vm_compute; congruence|].
    vm_compute in R. discriminate R.
  - destruct (H 0x3ff0000000000000 2147483647) as [r R]; [split; vm_compute; congruence|vm_compute; reflexivity|split; vm_compute; congruence|].
    vm_compute in R. discriminate R.
Qed.
Print Assumptions C76_overflow_refuted.

(** Refuted on big-endian processors: 1.0 * 2^0 is not 1.0. *)
Theorem C76_big_endian_refuted : exists x n r, word double x /\ finite double x /\ c_scalbn true x n = Some r /\ ~ scaled double x n r.
Proof.
  exists 0x3ff0000000000000, 0. eexists.
  split; [split; [discriminate|reflexivity]|]. split; [vm_compute; reflexivity|]. split; [vm_compute; reflexivity|].
  intros R. unfold scaled in R. change (0 <=? 0) with true in R. cbv iota in R. destruct R as (_ & _ & _ & R).
  match type of R with context [if ?c then _ else _] => assert (c = true) as C by (vm_compute; reflexivity); rewrite C in R; clear C end.
  destruct R as (_ & R & _). specialize (R 0x3ff0000000000000 ltac:(split; [discriminate|reflexivity]) ltac:(reflexivity)).
  revert R. apply Z.lt_nge. vm_compute. reflexivity.
Qed.
Print Assumptions C76_big_endian_refuted.
