(** C73: rounding a double to an integer (libpok/libm).

    As C72, for floor, ceil, trunc, round and rint.  On processors that store the less significant word first all of it
    holds, except that rint rounds the wrong way when |x| is between 2^18 and 2^19 and exactly three quarters above an even
    integer.  On processors that store the more significant word first (PowerPC, SPARC) the two words of the number are
    taken for each other, and the results are wrong. *)
From Verif Require Import Model.Base Spec.Ieee Spec.LibmSpec Model.Float Model.Libm
  Proof.FloatProof Proof.LibmdProof Proof.LibmdRound Proof.LibmdRint.

(** Little-endian processors: [false]. *)
Theorem C73_floor_partial : forall d, word double d -> finite double d -> floor_of double d (c_floor false d).
Proof. exact floor_finite. Qed.
Print Assumptions C73_floor_partial.

Theorem C73_ceil_partial : forall d, word double d -> finite double d -> ceil_of double d (c_ceil false d).
Proof. exact ceil_finite. Qed.
Print Assumptions C73_ceil_partial.

Theorem C73_trunc_partial : forall d, word double d -> finite double d -> trunc_of double d (c_trunc false d).
Proof. exact trunc_finite. Qed.
Print Assumptions C73_trunc_partial.

Theorem C73_round_partial : forall d, word double d -> finite double d -> round_of double d (c_round false d).
Proof. exact round_finite. Qed.
Print Assumptions C73_round_partial.

(** -2.5, and 1048577.5 where the integer part ends in the low word. *)
Example C73_ex : word double 0xc004000000000000 /\ finite double 0xc004000000000000 /\
  (c_floor false 0xc004000000000000, c_ceil false 0xc004000000000000, c_trunc false 0xc004000000000000,
   c_round false 0xc004000000000000, c_rint false 0xc004000000000000) =
  (0xc008000000000000, 0xc000000000000000, 0xc000000000000000, 0xc008000000000000, 0xc000000000000000) /\
  (c_floor false 0x4130000180000000, c_ceil false 0x4130000180000000, c_trunc false 0x4130000180000000,
   c_round false 0x4130000180000000, c_rint false 0x4130000180000000) =
  (0x4130000100000000, 0x4130000200000000, 0x4130000100000000, 0x4130000200000000, 0x4130000200000000).
Proof. vm_compute. repeat split; intros X; discriminate X. Qed.

Theorem C73_special_partial : passes_special double (c_floor false) /\ passes_special double (c_ceil false) /\
  passes_special double (c_trunc false) /\ passes_special double (c_round false) /\ passes_special double (c_rint false).
Proof.
  split; [exact floor_special|]. split; [exact ceil_special|]. split; [exact trunc_special|].
  split; [exact round_special|exact rint_special].
Qed.
Print Assumptions C73_special_partial.

Example C73_special_ex : is_nan double 0x7ff0000000000001 /\ is_inf double 0xfff0000000000000 /\
  c_floor false 0xfff0000000000000 = 0xfff0000000000000 /\ c_ceil false 0x7ff0000000000001 = 0x7ff8000000000001.
Proof. vm_compute. repeat split. Qed.

(** Partial: little-endian, and not between 2^18 and 2^19 with fraction 3/4 and even integer part. *)
Theorem C73_rint_partial : forall d, word double d -> finite double d ->
  ~ (absw double d / 2 ^ 52 = 1023 + 18 /\ absw double d mod 2 ^ 35 = 3 * 2 ^ 32) -> rint_of double d (c_rint false d).
Proof. exact rint_finite. Qed.
Print Assumptions C73_rint_partial.

(** 262144.75 + 2^-34 goes to 262145, 262144.5 to 262144, -0.5 to -0. *)
Example C73_rint_ex :
  (forall d, d = 0x4110000300000001 \/ d = 0x4110000200000000 ->
     ~ (absw double d / 2 ^ 52 = 1023 + 18 /\ absw double d mod 2 ^ 35 = 3 * 2 ^ 32)) /\
  c_rint false 0x4110000300000001 = 0x4110000400000000 /\ c_rint false 0x4110000200000000 = 0x4110000000000000 /\
  c_rint false 0xbfe0000000000000 = 0x8000000000000000.
Proof. split; [|vm_compute; auto]. intros d [-> | ->] [_ X]; discriminate X. Qed.

(** Refuted: rint(262144.75) is 262144, not 262145. *)
Theorem C73_rint_refuted : exists d, word double d /\ finite double d /\ ~ rint_of double d (c_rint false d).
Proof.
  exists 0x4110000300000000. split; [vm_compute; split; [intros X; discriminate X|reflexivity]|]. split; [reflexivity|].
  intros (_ & _ & _ & n & E & (A & _)).
  replace (val double (c_rint false 0x4110000300000000)) with (262144 * one double) in E by (vm_compute; reflexivity).
  assert (n = 262144) as ->.
  { apply Z.mul_reg_r with (one double); [vm_compute; discriminate|]. symmetry. exact E. }
  vm_compute in A. apply A. reflexivity.
Qed.
Print Assumptions C73_rint_refuted.

(** Refuted on big-endian processors ([true]): floor(2.5), ceil(2.5), trunc(2.5), round(2.5) and rint(2.5) are
    0, 2^-1044 or so, 0, 1 and 3. *)
Lemma quotient : forall v n, v = n * one double -> n = v / one double.
Proof. intros v n ->. symmetry. apply Z.div_mul. vm_compute. discriminate. Qed.

Theorem C73_big_endian_refuted : exists d, word double d /\ finite double d /\
  ~ floor_of double d (c_floor true d) /\ ~ ceil_of double d (c_ceil true d) /\ ~ trunc_of double d (c_trunc true d) /\
  ~ round_of double d (c_round true d) /\ ~ rint_of double d (c_rint true d).
Proof.
  exists 0x4004000000000000. split; [vm_compute; split; [intros X; discriminate X|reflexivity]|]. split; [reflexivity|].
  assert (forall n, Z.Even n -> Z.even n = true) as Ev by (intros n; apply Z.even_spec).
  split; [|split; [|split; [|split]]]; intros (_ & _ & _ & n & E & A); pose proof (quotient _ _ E) as Q; vm_compute in Q; subst n.
  - destruct A as [_ A]. vm_compute in A. discriminate A.
  - vm_compute in E. discriminate E.
  - destruct A as [_ A]. vm_compute in A. discriminate A.
  - destruct A as [A _]. vm_compute in A. now apply A.
  - destruct A as [_ A]. assert (Z.Even 3) as X by (apply A; vm_compute; reflexivity). apply Ev in X. discriminate X.
Qed.
Print Assumptions C73_big_endian_refuted.
