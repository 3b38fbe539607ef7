(** C44: DES decryption inverts DES encryption, for single blocks and in cipher block chaining, for every key
    schedule. *)
From Verif Require Import Model.Base Model.Libc Model.CryptoTables Model.Crypto Spec.LibcSpec Spec.CryptoSpec
  Proof.Tac Proof.WordProof Proof.CipherProof Proof.CbcProof Proof.CodecProof Proof.ProtocolProof.

(** Blocks: each function is the inverse of the other, so encryption is a bijection of blocks. *)
Theorem C44_block : forall ks data, is_block data ->
  is_block (des_encrypt1 ks true data) /\
  des_encrypt1 ks false (des_encrypt1 ks true data) = data /\
  des_encrypt1 ks true (des_encrypt1 ks false data) = data.
Proof.
  intros ks data H. split; [exact (des_32 ks true data H)|]. split; [now apply des_inverse|now apply des_inverse'].
Qed.
Print Assumptions C44_block.

(** Messages of any length, including those that are not a whole number of blocks: the ciphertext takes whole
    blocks. The buffers may be the same; nothing else is written; both sides end with the same vector. *)
Theorem C44_cbc : forall ks iv m src mid dst len m1 v1 m2 v2,
  byte_memory m -> is_block iv -> 0 <= len -> fits src len -> fits mid (padded len) -> fits dst len ->
  safe_overlap src len mid (padded len) -> safe_overlap mid (padded len) dst len ->
  des_ncbc ks true m src mid len iv = (m1, v1) -> des_ncbc ks false m1 mid dst len iv = (m2, v2) ->
  same_bytes m src m2 dst len /\ only_changes m m1 mid (padded len) /\ only_changes m1 m2 dst len /\ v1 = v2.
Proof.
  intros ks iv m src mid dst len m1 v1 m2 v2 B V L F1 F2 F3 S1 S2 R1 R2.
  destruct (cbc_roundtrip _ _ _ _ _ codec_le (des_encrypt1 ks true) (des_encrypt1 ks false) (des_32 ks true)
              (des_inverse ks) iv m src mid dst len m1 v1 m2 v2 B V L F1 F2 F3 S1 S2 R1 R2) as (H1 & H2 & H3 & H4 & _).
  auto.
Qed.
Print Assumptions C44_cbc.

(** A published example: the key 133457799BBCDFF1 encrypts 0123456789ABCDEF as 85E813540F0AB405. *)
Definition C44_memory : Z -> Z := fun a =>
  nth (Z.to_nat a) [0x13; 0x34; 0x57; 0x79; 0x9B; 0xBC; 0xDF; 0xF1; 0x01; 0x23; 0x45; 0x67; 0x89; 0xAB; 0xCD; 0xEF] 0.
Example C44_example_block :
  let m := C44_memory in
  let c := des_encrypt1 (des_set_key_unchecked m 0) true (des_get m 8) in
  map (fun i => des_put m c 100 (100 + Z.of_nat i)) (seq 0 8) = [0x85; 0xE8; 0x13; 0x54; 0x0F; 0x0A; 0xB4; 0x05] /\
  des_encrypt1 (des_set_key_unchecked m 0) false c = des_get m 8.
Proof. vm_compute. split; reflexivity. Qed.

(** Ten bytes, encrypted in place: two blocks of ciphertext, then the bytes again. *)
Example C44_example_cbc :
  let m := C44_memory in
  let ks := des_set_key_unchecked m 0 in
  let iv := (0x12345678, 0x9abcdef0) in
  let m1 := fst (des_ncbc ks true m 4 4 10 iv) in
  let m2 := fst (des_ncbc ks false m1 4 200 10 iv) in
  padded 10 = 16 /\ m1 4 <> m 4 /\ m1 19 <> m 19 /\ m1 20 = m 20 /\
  map (fun i => m2 (200 + Z.of_nat i)) (seq 0 11) = [0x9B; 0xBC; 0xDF; 0xF1; 0x01; 0x23; 0x45; 0x67; 0x89; 0xAB; 0].
Proof. vm_compute. repeat split; discriminate. Qed.
