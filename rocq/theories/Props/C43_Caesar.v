(** C43: the Caesar protocol.

    The cipher adds four modulo 255, not 256, so that bytes above 250 do not come back; all others do. *)
From Verif Require Import Model.Base Model.Libc Model.CryptoTables Model.Crypto Spec.LibcSpec Spec.CryptoSpec
  Proof.Tac Proof.WordProof Proof.CipherProof Proof.CbcProof Proof.CodecProof Proof.ProtocolProof.

(** The full claim. *)
Definition caesar_roundtrip : Prop := forall m src n mid dst m1 s1 m2 s2,
  byte_memory m -> fits src n -> fits mid n -> fits dst n -> apart src n mid n -> apart mid n dst n ->
  caesar_marshall m src n mid = (m1, s1) -> caesar_unmarshall m1 mid s1 dst = (m2, s2) ->
  s2 = n /\ same_bytes m src m2 dst n.

(** A message with the byte 251 comes back with 252. *)
Theorem C43_roundtrip_refuted : ~ caesar_roundtrip.
Proof.
  intros H. set (m := fun _ : Z => 251).
  destruct (H m 100 1 200 300 _ _ _ _ (fun _ => ltac:(unfold is_byte, m; lia))
    ltac:(unfold fits; lia) ltac:(unfold fits; lia) ltac:(unfold fits; lia) ltac:(unfold apart; lia) ltac:(unfold apart; lia)
    eq_refl eq_refl) as [_ C].
  specialize (C 0 ltac:(lia)). vm_compute in C. discriminate C.
Qed.
Print Assumptions C43_roundtrip_refuted.

(** What holds: the size comes back, nothing but the two buffers is written, and every byte up to 250 comes back; no
    byte above does. The buffers may be the same. *)
Theorem C43_roundtrip_partial : forall m src n mid dst m1 s1 m2 s2,
  byte_memory m -> fits src n -> fits mid n -> fits dst n -> safe_overlap src n mid n -> safe_overlap mid n dst n ->
  caesar_marshall m src n mid = (m1, s1) -> caesar_unmarshall m1 mid s1 dst = (m2, s2) ->
  s1 = n /\ s2 = n /\ only_changes m m1 mid n /\ only_changes m1 m2 dst n /\
  (forall k, 0 <= k < n -> m2 (dst + k) = m (src + k) <-> m (src + k) <= 250).
Proof.
  intros m src n mid dst m1 s1 m2 s2 B F1 F2 F3 S1 S2 R1 R2.
  unfold caesar_marshall in R1. injection R1 as E1 <-. unfold caesar_unmarshall in R2. injection R2 as E2 <-.
  assert (Hn : Z.of_nat (Z.to_nat n) = n) by (unfold fits in F1; lia).
  rewrite <- Hn in F1, F2, F3, S1, S2.
  destruct (caesar_loop_spec _ _ _ _ _ _ F1 F2 S1 E1) as [A1 O1].
  destruct (caesar_loop_spec _ _ _ _ _ _ F2 F3 S2 E2) as [A2 O2].
  rewrite Hn in A1, O1, A2, O2. split; [reflexivity|]. split; [reflexivity|]. split; [exact O1|]. split; [exact O2|].
  intros k Hk. rewrite A2, A1 by exact Hk. apply caesar_byte. apply B.
Qed.
Print Assumptions C43_roundtrip_partial.

(** The two bytes 10 and 250 go through, encrypted as 14 and 254. *)
Example C43_example :
  let m := fun a => if a =? 100 then 10 else 250 in
  let m1 := fst (caesar_marshall m 100 2 200) in
  let m2 := fst (caesar_unmarshall m1 200 2 300) in
  m1 200 = 14 /\ m1 201 = 254 /\ m2 300 = 10 /\ m2 301 = 250.
Proof. repeat split; reflexivity. Qed.
