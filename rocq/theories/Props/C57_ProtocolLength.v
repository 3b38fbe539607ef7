(** C57: the DES and Blowfish protocols give back the message with its length.

    They do for messages of eight bytes. The size they store is always eight, and Blowfish encrypts exactly eight
    bytes, so messages of any other length do not come back. *)
From Verif Require Import Model.Base Model.Libc Model.CryptoTables Model.Crypto Spec.LibcSpec Spec.CryptoSpec
  Proof.Tac Proof.WordProof Proof.CipherProof Proof.CbcProof Proof.CodecProof Proof.ProtocolProof.

(** A key that DES_set_key_checked is meant to accept: odd parity, not one of the sixteen weak keys. *)
Definition good_key (m : Z -> Z) (key : Z) : Prop :=
  (forall i, 0 <= i < 8 -> Nat.odd (ones_of 8 (m (key + i))) = true) /\
  (forall i, 0 <= i < 16 -> exists k, 0 <= k < 8 /\ m (key + k) <> nth (Z.to_nat (8 * i + k)) weak_keys 0).

(** Messages of eight bytes: the key, the vector and the table are not in the buffer for the ciphertext. *)
Theorem C57_des_partial : forall m wk key ivp old1 old2 src mid dst m1 s1 m2 s2,
  byte_memory m -> fits key 32 -> fits wk 152 -> fits ivp 8 -> fits src 8 -> fits mid 8 -> fits dst 8 ->
  bytes_at m wk weak_keys -> good_key m key ->
  apart mid 8 key 8 -> apart mid 8 wk 128 -> apart mid 8 ivp 8 ->
  safe_overlap src 8 mid 8 -> safe_overlap mid 8 dst 8 ->
  des_marshall m wk key ivp old1 src 8 mid = (m1, s1) ->
  des_unmarshall m1 wk key ivp old2 mid s1 dst = (m2, s2) ->
  s2 = 8 /\ same_bytes m src m2 dst 8 /\ only_changes m m1 mid 8 /\ only_changes m1 m2 dst 8.
Proof.
  intros m wk key ivp old1 old2 src mid dst m1 s1 m2 s2 B Fk Fw Fi Fs Fm Fd W [P N] A1 A2 A3 S1 S2 R1 R2.
  split; [|exact (des_protocol_eight m wk key ivp old1 old2 src mid dst m1 s1 m2 s2 B Fk Fw Fi Fs Fm Fd W P N A1 A2 A3 S1 S2 R1 R2)].
  unfold des_unmarshall in R2. now injection R2.
Qed.
Print Assumptions C57_des_partial.

Theorem C57_blowfish_partial : forall key m src mid dst m1 s1 m2 s2, Forall is_byte key -> byte_memory m ->
  fits src 8 -> fits mid 8 -> fits dst 8 ->
  blowfish_marshall key m src 8 mid = (m1, s1) -> blowfish_unmarshall key m1 mid s1 dst = (m2, s2) ->
  s2 = 8 /\ same_bytes m src m2 dst 8 /\ only_changes m m1 mid 8 /\ only_changes m1 m2 dst 8.
Proof.
  intros key m src mid dst m1 s1 m2 s2 F B F1 F2 F3 R1 R2.
  unfold blowfish_marshall in R1. unfold blowfish_unmarshall in R2.
  pose proof (bf_set_key_32 key F) as K. generalize dependent (bf_set_key key). intros ks R1 R2 K.
  injection R1 as <- <-. injection R2 as <- <-. split; [reflexivity|].
  now apply bf_ecb_roundtrip.
Qed.
Print Assumptions C57_blowfish_partial.

(** The full claims: messages of every length. *)
Definition des_protocol : Prop := forall m wk key ivp old1 old2 src n mid dst m1 s1 m2 s2,
  byte_memory m -> fits key 32 -> fits wk 152 -> fits ivp 8 -> fits src n -> fits mid (padded n) -> fits dst n ->
  bytes_at m wk weak_keys -> good_key m key ->
  apart mid (padded n) key 8 -> apart mid (padded n) wk 128 -> apart mid (padded n) ivp 8 ->
  apart src n mid (padded n) -> apart mid (padded n) dst n ->
  des_marshall m wk key ivp old1 src n mid = (m1, s1) ->
  des_unmarshall m1 wk key ivp old2 mid s1 dst = (m2, s2) ->
  s2 = n /\ same_bytes m src m2 dst n.
Definition blowfish_protocol : Prop := forall key m src n mid dst m1 s1 m2 s2, Forall is_byte key -> byte_memory m ->
  fits src n -> fits mid (padded n) -> fits dst n -> apart src n mid (padded n) -> apart mid (padded n) dst n ->
  blowfish_marshall key m src n mid = (m1, s1) -> blowfish_unmarshall key m1 mid s1 dst = (m2, s2) ->
  s2 = n /\ same_bytes m src m2 dst n.

(** A memory with the table of weak keys at 1000, the default key at 600 and the default vector at 700. *)
Definition C57_memory : Z -> Z := fun a =>
  if (1000 <=? a) && (a <? 1128) then nth (Z.to_nat (a - 1000)) weak_keys 0
  else if (600 <=? a) && (a <? 608) then nth (Z.to_nat (a - 600)) [0x01; 0x23; 0x45; 0x67; 0x89; 0xab; 0xcd; 0xef] 0
  else if (700 <=? a) && (a <? 708) then nth (Z.to_nat (a - 700)) [0xfe; 0xdc; 0xba; 0x98; 0x76; 0x54; 0x32; 0x10] 0
  else if (100 <=? a) && (a <? 116) then a else 0.

Lemma C57_bytes : byte_memory C57_memory.
Proof.
  intros a. unfold C57_memory, is_byte.
  assert (G : forall l, forallb (fun b => (0 <=? b) && (b <? 256)) l = true -> forall k, 0 <= nth k l 0 < 256).
  { intros l F k. destruct (nth_in_or_default k l 0) as [I|E]; [|rewrite E; lia].
    rewrite forallb_forall in F. specialize (F _ I). lia. }
  repeat match goal with |- context[if ?c then _ else _] => destruct c eqn:?E end.
  - apply G. vm_compute. reflexivity.
  - apply G. vm_compute. reflexivity.
  - apply G. vm_compute. reflexivity.
  - lia.
  - lia.
Qed.

Lemma C57_weak : bytes_at C57_memory 1000 weak_keys.
Proof.
  intros k Hk. change (length weak_keys) with 128%nat in Hk.
  assert (G : forallb (fun k => C57_memory (1000 + Z.of_nat k) =? nth k weak_keys 0) (seq 0 128) = true)
    by (vm_compute; reflexivity).
  rewrite forallb_forall in G. apply Z.eqb_eq, G, in_seq. lia.
Qed.

Lemma C57_good : good_key C57_memory 600.
Proof.
  split.
  - intros i Hi.
    assert (G : forallb (fun k => Nat.odd (ones_of 8 (C57_memory (600 + Z.of_nat k)))) (seq 0 8) = true)
      by (vm_compute; reflexivity).
    rewrite forallb_forall in G. specialize (G (Z.to_nat i) ltac:(apply in_seq; lia)). now rewrite Z2Nat.id in G by lia.
  - intros i Hi. exists (if i =? 0 then 1 else if i =? 4 then 1 else if i =? 8 then 1 else if i =? 12 then 1 else 0).
    assert (E : i = 0 \/ i = 1 \/ i = 2 \/ i = 3 \/ i = 4 \/ i = 5 \/ i = 6 \/ i = 7 \/ i = 8 \/ i = 9 \/ i = 10 \/
                i = 11 \/ i = 12 \/ i = 13 \/ i = 14 \/ i = 15) by lia.
    repeat (destruct E as [->|E]; [split; [cbn; lia|vm_compute; discriminate]|]).
    rewrite E. split; [cbn; lia|vm_compute; discriminate].
Qed.

(** Sixteen bytes go in, the size that comes out is eight. *)
Theorem C57_des_refuted : ~ des_protocol.
Proof.
  intros H.
  destruct (H C57_memory 1000 600 700 (fun _ => 0) (fun _ => 0) 100 16 200 300 _ _ _ _ C57_bytes
    ltac:(unfold fits; lia) ltac:(unfold fits; lia) ltac:(unfold fits; lia) ltac:(unfold fits; lia)
    ltac:(change (padded 16) with 16; unfold fits; lia) ltac:(unfold fits; lia) C57_weak C57_good
    ltac:(change (padded 16) with 16; unfold apart; lia) ltac:(change (padded 16) with 16; unfold apart; lia)
    ltac:(change (padded 16) with 16; unfold apart; lia) ltac:(change (padded 16) with 16; unfold apart; lia)
    ltac:(change (padded 16) with 16; unfold apart; lia) eq_refl eq_refl) as [E _].
  discriminate E.
Qed.
Print Assumptions C57_des_refuted.

Theorem C57_blowfish_refuted : ~ blowfish_protocol.
Proof.
  intros H. unfold blowfish_protocol, blowfish_marshall, blowfish_unmarshall in H. revert H.
  generalize bf_set_key. intros sk H.
  destruct (H [] C57_memory 100 16 200 300 _ _ _ _ (Forall_nil _) C57_bytes
    ltac:(unfold fits; lia) ltac:(change (padded 16) with 16; unfold fits; lia) ltac:(unfold fits; lia)
    ltac:(change (padded 16) with 16; unfold apart; lia) ltac:(change (padded 16) with 16; unfold apart; lia)
    eq_refl eq_refl) as [E _].
  discriminate E.
Qed.
Print Assumptions C57_blowfish_refuted.

(** The second block of a message of sixteen bytes is not even in the output of DES. *)
Example C57_example :
  let m1 := fst (des_marshall C57_memory 1000 600 700 (fun _ => 0) 100 16 200) in
  let '(m2, s2) := des_unmarshall m1 1000 600 700 (fun _ => 7) 200 8 300 in
  s2 = 8 /\ map (fun i => m2 (300 + Z.of_nat i)) (seq 0 9) = [100; 101; 102; 103; 104; 105; 106; 107; 0] /\ m1 200 <> 100.
Proof. vm_compute. repeat split; discriminate. Qed.
