(** C40: the 64-bit division helpers compute the Euclidean quotient and remainder. *)
From Verif Require Import Model.Base Model.Libc Proof.Tac Proof.DivProof.

Theorem C40_quotient : forall num den, 0 <= num < 2 ^ 64 -> 0 < den < 2 ^ 64 ->
  exists q, udivdi3 num den = Quotient q /\ 0 <= num - q * den < den.
Proof.
  intros num den Hn Hd. exists (num / den). split; [now apply udiv_spec|].
  pose proof (Z.mod_pos_bound num den ltac:(lia)) as B. rewrite Z.mod_eq in B by lia. lia.
Qed.
Print Assumptions C40_quotient.

Theorem C40_remainder : forall num den, 0 <= num < 2 ^ 64 -> 0 < den < 2 ^ 64 ->
  exists q r, udivdi3 num den = Quotient q /\ umoddi3 num den = Quotient r /\ num = q * den + r /\ 0 <= r < den.
Proof.
  intros num den Hn Hd. exists (num / den), (num mod den). split; [now apply udiv_spec|].
  split; [now apply umod_spec|]. pose proof (Z.mod_pos_bound num den ltac:(lia)).
  split; [|lia]. rewrite (Z.div_mod num den) at 1 by lia. lia.
Qed.
Print Assumptions C40_remainder.

(** A zero denominator is reported, and only that; no pair of operands makes a loop endless. *)
Theorem C40_outcomes : forall num den, 0 <= num < 2 ^ 64 -> 0 <= den < 2 ^ 64 ->
  (udivdi3 num den = DivisionByZero <-> den = 0) /\ udivdi3 num den <> Endless /\
  (umoddi3 num den = DivisionByZero <-> den = 0) /\ umoddi3 num den <> Endless.
Proof.
  intros num den Hn Hd. destruct (Z.eq_dec den 0) as [->|N].
  - repeat split; try reflexivity; discriminate.
  - rewrite udiv_spec, umod_spec by lia. repeat split; try discriminate; contradiction.
Qed.
Print Assumptions C40_outcomes.

Example C40_demo : udivdi3 (2 ^ 64 - 1) 10 = Quotient 1844674407370955161 /\ umoddi3 (2 ^ 64 - 1) 10 = Quotient 5 /\
  udivdi3 (2 ^ 64 - 1) (2 ^ 63 + 1) = Quotient 1 /\ udivdi3 5 (2 ^ 64 - 1) = Quotient 0.
Proof. vm_compute. repeat split; reflexivity. Qed.
