(** C75: the next representable number (libpok/libm: nextafter, nextafterf).

    C99, 7.12.11.3: nextafter(x, y) is the next representable value after x in the direction of y, and y itself when they
    are equal; NaN for NaN.  Here it is, for float and (little-endian) double, through zero, subnormals and infinity,
    except that equal arguments give x: nextafter(+0, -0) is +0. *)
From Verif Require Import Model.Base Spec.Ieee Spec.LibmSpec Model.Float Model.Libm Proof.LibmNext.

(** Partial: [x] instead of [y] when the two are equal. *)
Theorem C75_nextafterf_partial : forall x y, word single x -> word single y ->
  (is_nan single x \/ is_nan single y -> is_nan single (c_nextafterf x y)) /\
  (~ is_nan single x -> ~ is_nan single y ->
     (val single x <> val single y -> next_toward single x y (c_nextafterf x y)) /\
     (val single x = val single y -> c_nextafterf x y = x)).
Proof.
  intros x y Wx Wy. split; [now apply nextafterf_nan|]. intros Nx Ny. now apply nextafterf_spec.
Qed.
Print Assumptions C75_nextafterf_partial.

(** From the greatest finite number to infinity and back, from 0 and to 0, across a power of two. *)
Example C75_nextafterf_ex : ~ is_nan single 0x7f7fffff /\ val single 0x7f7fffff <> val single 0x7f800000 /\
  c_nextafterf 0x7f7fffff 0x7f800000 = 0x7f800000 /\ c_nextafterf 0xff800000 0 = 0xff7fffff /\
  c_nextafterf 0 0xbf800000 = 0x80000001 /\ c_nextafterf 0x80000001 0 = 0x80000000 /\ c_nextafterf 0x3f800000 0 = 0x3f7fffff.
Proof. vm_compute. repeat split; intros X; discriminate X. Qed.

(** Partial: the same, and little-endian processors only. *)
Theorem C75_nextafter_partial : forall x y, word double x -> word double y ->
  (is_nan double x \/ is_nan double y -> is_nan double (c_nextafter false x y)) /\
  (~ is_nan double x -> ~ is_nan double y ->
     (val double x <> val double y -> next_toward double x y (c_nextafter false x y)) /\
     (val double x = val double y -> c_nextafter false x y = x)).
Proof.
  intros x y Wx Wy. split; [now apply nextafter_nan|]. intros Nx Ny. now apply nextafter_spec.
Qed.
Print Assumptions C75_nextafter_partial.

Example C75_nextafter_ex : ~ is_nan double 0x7fefffffffffffff /\
  c_nextafter false 0x7fefffffffffffff 0x7ff0000000000000 = 0x7ff0000000000000 /\
  c_nextafter false 0x3ff0000000000000 0 = 0x3fefffffffffffff /\ c_nextafter false 0xbff00000ffffffff 0xc000000000000000 = 0xbff0000100000000.
Proof. vm_compute. repeat split; intros X; discriminate X. Qed.

(** Refuted: the zero returned for equal zeros is that of [x]. *)
Theorem C75_equal_refuted :
  ~ (forall x y, word single x -> word single y -> ~ is_nan single x -> ~ is_nan single y ->
       val single x = val single y -> c_nextafterf x y = y) /\
  ~ (forall x y, word double x -> word double y -> ~ is_nan double x -> ~ is_nan double y ->
       val double x = val double y -> c_nextafter false x y = y).
Proof.
  split; intros H.
  - specialize (H 0 0x80000000). vm_compute in H.
    assert (0 = 2147483648) as X; [apply H; try (split; intros Y; discriminate Y); try (intros Y; discriminate Y); try reflexivity|discriminate X].
    + split; [intros Y; discriminate Y|reflexivity].
    + split; [intros Y; discriminate Y|reflexivity].
  - specialize (H 0 0x8000000000000000). vm_compute in H.
    assert (0 = 9223372036854775808) as X; [apply H; try (intros Y; discriminate Y); try reflexivity|discriminate X].
    + split; [intros Y; discriminate Y|reflexivity].
    + split; [intros Y; discriminate Y|reflexivity].
Qed.
Print Assumptions C75_equal_refuted.

(** Refuted on big-endian processors: the neighbour of 1.0 towards 2.0 would be 1 + 2^-20. *)
Theorem C75_big_endian_refuted : exists x y, word double x /\ word double y /\ ~ is_nan double x /\ ~ is_nan double y /\
  val double x < val double y /\ ~ next_toward double x y (c_nextafter true x y).
Proof.
  exists 0x3ff0000000000000, 0x4000000000000000.
  split; [split; [discriminate|reflexivity]|]. split; [split; [discriminate|reflexivity]|].
  split; [intros X; discriminate X|]. split; [intros X; discriminate X|]. split; [vm_compute; reflexivity|].
  intros (_ & _ & A & _). destruct A as [_ A]; [vm_compute; reflexivity|].
  specialize (A 0x3ff0000000000001 ltac:(split; [discriminate|reflexivity]) ltac:(intros X; discriminate X) ltac:(vm_compute; reflexivity)).
  vm_compute in A. apply A. reflexivity.
Qed.
Print Assumptions C75_big_endian_refuted.
