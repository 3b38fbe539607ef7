(** C42: decimal conversion and back.

    False of negative numbers (atoi knows no sign), of the smallest integer (itoa negates it) and of the 48
    largest (10 * res + c overflows before 48 is subtracted). True of all others. *)
From Verif Require Import Model.Base Model.Libc Spec.LibcSpec Proof.Tac Proof.MemFnProof Proof.NumProof.

(** The full statement. *)
Definition C42_statement : Prop := forall v, - 2 ^ 31 <= v < 2 ^ 31 -> exists l, itoa v 10 = Text l /\ atoi l = Int v.

Theorem C42_refuted : ~ C42_statement.
Proof.
  intros H. destruct (H (-5) ltac:(lia)) as (l & E1 & E2). vm_compute in E1. injection E1 as <-. vm_compute in E2. discriminate E2.
Qed.
Print Assumptions C42_refuted.

(** Positive numbers are no better at the upper end of the range. *)
Theorem C42_largest_refuted : ~ (forall v, 0 <= v < 2 ^ 31 -> exists l, itoa v 10 = Text l /\ atoi l = Int v).
Proof.
  intros H. destruct (H (2 ^ 31 - 1) ltac:(lia)) as (l & E1 & E2). vm_compute in E1. injection E1 as <-. vm_compute in E2. discriminate E2.
Qed.
Print Assumptions C42_largest_refuted.

(** itoa with base 10 writes the numeral of every integer but the smallest. *)
Theorem C42_itoa : forall v, - 2 ^ 31 < v < 2 ^ 31 -> exists l, itoa v 10 = Text l /\ signed_numeral v l.
Proof.
  intros v Hv. unfold itoa. change (10 =? 0) with false. change (10 =? 10) with true. cbn [andb].
  destruct (Z.eqb_spec v (- 2 ^ 31)); [lia|]. destruct (Z.ltb_spec v 0) as [N|N].
  - rewrite u32_id by lia. destruct (itoa_digits_spec 16 10 (- v)) as (ds & E & D); [lia|lia|change (10 ^ Z.of_nat 16) with 10000000000000000; lia|lia|].
    rewrite E. eexists. split; [reflexivity|]. right. split; [assumption|]. eexists. split; [reflexivity|].
    rewrite <- map_rev. apply digits_numeral; [lia| |assumption]. intros; apply itoa_char_is; lia.
  - rewrite u32_id by lia. destruct (Z.eq_dec v 0) as [->|].
    + eexists. split; [reflexivity|]. left. split; [lia|]. apply zero_numeral. lia.
    + destruct (itoa_digits_spec 16 10 v) as (ds & E & D); [lia|lia|change (10 ^ Z.of_nat 16) with 10000000000000000; lia|lia|].
      rewrite E. eexists. split; [reflexivity|]. left. split; [assumption|]. cbn [app].
      rewrite <- map_rev. apply digits_numeral; [lia| |assumption]. intros; apply itoa_char_is; lia.
Qed.
Print Assumptions C42_itoa.

(** atoi reads every numeral below 2^31 - 48. *)
Theorem C42_atoi : forall v l, 0 <= v < 2 ^ 31 - 48 -> numeral 10 v l -> atoi l = Int v.
Proof.
  intros v l Hv (ds & H1 & H2 & H3 & _). unfold atoi. rewrite (atoi_value l ds 0); auto; try lia. f_equal. lia.
Qed.
Print Assumptions C42_atoi.

(** The round trip. Missing: negative numbers and the 48 largest. *)
Theorem C42_partial : forall v, 0 <= v < 2 ^ 31 - 48 -> exists l, itoa v 10 = Text l /\ atoi l = Int v.
Proof.
  intros v Hv. destruct (C42_itoa v ltac:(lia)) as (l & E & [(_ & N)|(N & _)]); [|lia].
  exists l. split; [assumption|]. now apply C42_atoi.
Qed.
Print Assumptions C42_partial.

(** What becomes of negative numbers: zero. *)
Theorem C42_negative : forall v, - 2 ^ 31 < v < 0 -> exists l, itoa v 10 = Text l /\ atoi l = Int 0.
Proof.
  intros v Hv. destruct (C42_itoa v ltac:(lia)) as (l & E & [(N & _)|(_ & t & -> & _)]); [lia|].
  exists (45 :: t). split; [assumption|reflexivity].
Qed.
Print Assumptions C42_negative.

(** Other bases: the pattern of the integer as an unsigned number, if it has at most 16 digits; otherwise the
    array of digits is overrun. *)
Theorem C42_radix : forall v radix, - 2 ^ 31 <= v < 2 ^ 31 -> 2 <= radix <= 16 -> radix <> 10 ->
  (v mod 2 ^ 32 < radix ^ 16 -> exists l, itoa v radix = Text l /\ numeral radix (v mod 2 ^ 32) l) /\
  (radix ^ 16 <= v mod 2 ^ 32 -> itoa v radix = Overflow).
Proof.
  intros v radix Hv Hr N. unfold itoa. destruct (Z.eqb_spec radix 0); [lia|]. destruct (Z.eqb_spec radix 10); [lia|]. cbn [andb].
  change (u32 v) with (v mod 2 ^ 32). pose proof (Z.mod_pos_bound v (2 ^ 32) ltac:(lia)) as B. split.
  - intros L. destruct (Z.eq_dec (v mod 2 ^ 32) 0) as [E|E].
    + rewrite E. eexists. split; [|apply zero_numeral; lia]. cbn [itoa_digits]. rewrite Z.mod_0_l by (rewrite u32_id; lia). reflexivity.
    + destruct (itoa_digits_spec 16 radix (v mod 2 ^ 32)) as (ds & E2 & D); [lia|lia|change (Z.of_nat 16) with 16; lia|lia|].
      rewrite E2. eexists. split; [reflexivity|]. cbn [app].
      rewrite <- map_rev. apply digits_numeral; [lia| |assumption]. intros; apply itoa_char_is; lia.
  - intros L. rewrite itoa_digits_none; [reflexivity|lia|lia|]. change (Z.of_nat 16) with 16. lia.
Qed.
Print Assumptions C42_radix.

(** The numeral of a number is unique, so that the theorems above determine the text. *)
Theorem C42_numeral_unique : forall base n l1 l2, 2 <= base -> numeral base n l1 -> numeral base n l2 -> l1 = l2.
Proof. exact numeral_unique. Qed.
Print Assumptions C42_numeral_unique.

Example C42_demo : itoa 1048576 10 = Text [49; 48; 52; 56; 53; 55; 54] /\ atoi [49; 48; 52; 56; 53; 55; 54] = Int 1048576 /\
  itoa (-5) 10 = Text [45; 53] /\ itoa 255 16 = Text [102; 102] /\ itoa 65536 2 = Overflow.
Proof. vm_compute. repeat split; reflexivity. Qed.
