(** C103: scalb and significand (libpok/libm).

    scalb(x, fn) multiplies x by 2^fn.  When fn is an integer the result is x * 2^fn rounded once, however great fn is;
    when it is none, the result is NaN.  significand(x) is x divided by the power of two of its exponent.  Both hold for
    floats on every processor, for doubles on little-endian ones; on the others the words of a double are read in the
    wrong order. *)
From Verif Require Import Model.Base Spec.Ieee Spec.LibmSpec Spec.ScalbSpec Model.Float Model.Libm Model.LibmScalb
  Proof.FloatProof Proof.FloatParts Proof.LibmfProof Proof.LibmdProof Proof.LibmParts Proof.ScalbProof Proof.ScalbInst.

Theorem C103_scalb_float : forall x fn, word single x -> word single fn ->
  (finite single x -> finite single fn -> exists r, c_scalbf x fn = Some r /\ scalb_finite single x fn r) /\
  (~ finite single x \/ ~ finite single fn -> exists r, c_scalbf x fn = Some r /\ scalb_other single x fn r).
Proof. exact scalbf_all. Qed.
Print Assumptions C103_scalb_float.

(** 3 * 2^-150 rounds to the smallest number, 1 * 2^(2^60) overflows, 2^0.5 is refused; 0 * 2^inf. *)
Example C103_scalb_float_ex : c_scalbf 0x40400000 0xc3160000 = Some 2 /\ c_scalbf 0x3f800000 0x5d800000 = Some 0x7f800000 /\
  is_int single 0xc3160000 (-150) /\ is_int single 0x5d800000 (2 ^ 60) /\
  c_scalbf 0x3f800000 0x3f000000 = Some 0x7fc00000 /\ (forall n, ~ is_int single 0x3f000000 n) /\
  c_scalbf 0 0x7f800000 = Some 0x7fc00000 /\ c_scalbf 0xbf800000 0xff800000 = Some 0x80000000.
Proof.
  do 5 (split; [vm_compute; reflexivity|]). split; [|vm_compute; repeat split]. unfold is_int.
  change (val single 0x3f000000) with (2 ^ 148). change (one single) with (2 ^ 149). intros n E. lia.
Qed.

(** Doubles, little-endian.  Missing: big-endian processors, where it is false. *)
Theorem C103_scalb_double_partial : forall x fn, word double x -> word double fn ->
  (finite double x -> finite double fn -> exists r, c_scalb false x fn = Some r /\ scalb_finite double x fn r) /\
  (~ finite double x \/ ~ finite double fn -> exists r, c_scalb false x fn = Some r /\ scalb_other double x fn r).
Proof. exact scalb_double_all. Qed.
Print Assumptions C103_scalb_double_partial.

(** 3 * 2^1022, 3 * 2^1023 (overflow), infinity * 2^7. *)
Example C103_scalb_double_ex : c_scalb false 0x4008000000000000 0x408ff00000000000 = Some 0x7fe8000000000000 /\
  c_scalb false 0x4008000000000000 0x408ff80000000000 = Some 0x7ff0000000000000 /\
  is_int double 0x408ff00000000000 1022 /\ c_scalb false 0x7ff0000000000000 0x401c000000000000 = Some 0x7ff0000000000000.
Proof. vm_compute. repeat split. Qed.

Theorem C103_significand_float : forall x, word single x ->
  (finite single x -> ~ is_zero single x -> exists r, c_significandf x = Some r /\ significand_of single x r) /\
  (is_zero single x \/ is_inf single x -> c_significandf x = Some x) /\
  (is_nan single x -> exists r, c_significandf x = Some r /\ is_nan single r).
Proof.
  intros x W. unfold c_significandf. destruct (ilogbf_other x W) as [Z0 NF]. split; [|split].
  - intros Fx N0. destruct (ilogbf_spec x W Fx N0) as (e & -> & Ex).
    pose proof (exponent_range single x e s_mb s_eb s_range W Fx Ex) as R. cbn [mb single] in R. change (bias single) with 127 in R.
    destruct (of_int_exact single s_mb s_eb s_range (- e)) as (Wf & Ff & Vf).
    { cbn [mb single]. change (2 ^ 23) with 8388608. lia. }
    destruct (c_frexpf x) as [f e0] eqn:G.
    exact (significand_gen single c_scalbf x e _ f e0 s_mb s_eb s_range scalbf_all W Fx Ex Wf Ff Vf (frexpf_spec x f e0 W Fx N0 G)).
  - intros [H|H].
    + rewrite (Z0 H). assert (Wf : word single (of_int single (- -2147483647))) by (split; vm_compute; congruence).
      destruct (proj1 (scalbf_all x _ W Wf)) as (r & R & S & _).
      * unfold is_zero in H. unfold finite. rewrite H. reflexivity.
      * vm_compute. reflexivity.
      * rewrite R. f_equal. apply (S 2147483648); [vm_compute; reflexivity|exact H].
    + rewrite NF by (unfold is_inf, finite in *; lia).
      assert (Wf : word single (of_int single (Z.opp 2147483647))) by (split; vm_compute; congruence).
      destruct (proj2 (scalbf_all x _ W Wf)) as (r & R & _ & S & _).
      * left. unfold is_inf, finite in *. lia.
      * rewrite R. f_equal. apply (proj1 (S H ltac:(vm_compute; reflexivity)) (-2147483648)). vm_compute. reflexivity.
  - intros H. rewrite NF by (unfold is_nan, finite in *; lia).
    assert (Wf : word single (of_int single (Z.opp 2147483647))) by (split; vm_compute; congruence).
    destruct (proj2 (scalbf_all x _ W Wf)) as (r & R & S & _).
    + left. unfold is_nan, finite in *. lia.
    + exists r. split; [exact R|]. apply S. now left.
Qed.
Print Assumptions C103_significand_float.

(** 6.5 gives 1.625, a subnormal -5 units gives -1.25, zero and infinity stay. *)
Example C103_significand_float_ex : c_significandf 0x40d00000 = Some 0x3fd00000 /\ c_significandf 0x80000005 = Some 0xbfa00000 /\
  c_significandf 0x80000000 = Some 0x80000000 /\ c_significandf 0xff800000 = Some 0xff800000 /\ finite single 0x80000005.
Proof. vm_compute. repeat split. Qed.

(** Doubles, little-endian.  Missing: big-endian processors. *)
Theorem C103_significand_double_partial : forall x, word double x ->
  (finite double x -> ~ is_zero double x -> exists r, c_significand false x = Some r /\ significand_of double x r) /\
  (is_zero double x \/ is_inf double x -> c_significand false x = Some x) /\
  (is_nan double x -> exists r, c_significand false x = Some r /\ is_nan double r).
Proof.
  intros x W. unfold c_significand. destruct (ilogb_other x W) as [Z0 NF]. split; [|split].
  - intros Fx N0. destruct (ilogb_spec x W Fx N0) as (e & -> & Ex).
    pose proof (exponent_range double x e d_mb d_eb d_range W Fx Ex) as R. cbn [mb double] in R. change (bias double) with 1023 in R.
    destruct (of_int_exact double d_mb d_eb d_range (- e)) as (Wf & Ff & Vf).
    { cbn [mb double]. change (2 ^ 52) with 4503599627370496. lia. }
    destruct (c_frexp false x) as [f e0] eqn:G.
    exact (significand_gen double (c_scalb false) x e _ f e0 d_mb d_eb d_range scalb_double_all W Fx Ex Wf Ff Vf (frexp_spec x f e0 W Fx N0 G)).
  - intros [H|H].
    + rewrite (Z0 H). assert (Wf : word double (of_int double (- -2147483647))) by (split; vm_compute; congruence).
      destruct (proj1 (scalb_double_all x _ W Wf)) as (r & R & S & _).
      * unfold is_zero in H. unfold finite. rewrite H. reflexivity.
      * vm_compute. reflexivity.
      * rewrite R. f_equal. apply (S 2147483647); [vm_compute; reflexivity|exact H].
    + rewrite NF by (unfold is_inf, finite in *; lia).
      assert (Wf : word double (of_int double (Z.opp 2147483647))) by (split; vm_compute; congruence).
      destruct (proj2 (scalb_double_all x _ W Wf)) as (r & R & _ & S & _).
      * left. unfold is_inf, finite in *. lia.
      * rewrite R. f_equal. apply (proj1 (S H ltac:(vm_compute; reflexivity)) (-2147483647)). vm_compute. reflexivity.
  - intros H. rewrite NF by (unfold is_nan, finite in *; lia).
    assert (Wf : word double (of_int double (Z.opp 2147483647))) by (split; vm_compute; congruence).
    destruct (proj2 (scalb_double_all x _ W Wf)) as (r & R & S & _).
    + left. unfold is_nan, finite in *. lia.
    + exists r. split; [exact R|]. apply S. now left.
Qed.
Print Assumptions C103_significand_double_partial.

Example C103_significand_double_ex : c_significand false 0x401a000000000000 = Some 0x3ffa000000000000 /\
  c_significand false 0x8000000000000005 = Some 0xbff4000000000000 /\ c_significand false 0 = Some 0 /\
  finite double 0x8000000000000005.
Proof. vm_compute. repeat split. Qed.

(** Refuted on big-endian processors: scalb(1.0, 0.0) is 0.0, significand(1.0) is above 10^9. *)
Theorem C103_big_endian_refuted :
  ~ (forall x fn, word double x -> word double fn -> finite double x -> finite double fn ->
       exists r, c_scalb true x fn = Some r /\ scalb_finite double x fn r) /\
  ~ (forall x, word double x -> finite double x -> ~ is_zero double x -> exists r, c_significand true x = Some r /\ significand_of double x r).
Proof.
  assert (W1 : word double 0x3ff0000000000000) by (split; [discriminate|reflexivity]).
  assert (F1 : finite double 0x3ff0000000000000) by reflexivity.
  assert (W0 : word double 0) by (split; [discriminate|reflexivity]). assert (F0 : finite double 0) by reflexivity.
  split; intros H.
  - destruct (H 0x3ff0000000000000 0 W1 W0 F1 F0) as (r & R & S & _).
    assert (E : c_scalb true 0x3ff0000000000000 0 = Some 0) by (vm_compute; reflexivity).
    rewrite E in R. injection R as <-. destruct (S 0 eq_refl) as [T _]. unfold scaled in T. change (0 <=? 0) with true in T. cbv iota in T.
    destruct T as (_ & _ & _ & T).
    match type of T with context [if ?c then _ else _] => assert (c = true) as C by (vm_compute; reflexivity); rewrite C in T; clear C end.
    destruct T as (_ & T & _). specialize (T 0x3ff0000000000000 W1 F1). vm_compute in T. now apply T.
  - destruct (H 0x3ff0000000000000 W1 F1) as (r & R & S); [vm_compute; discriminate|].
    assert (E : c_significand true 0x3ff0000000000000 = Some 4850376799717163008) by (vm_compute; reflexivity).
    rewrite E in R. injection R as <-. destruct S as (_ & _ & _ & (_ & S) & _). vm_compute in S. discriminate S.
Qed.
Print Assumptions C103_big_endian_refuted.
