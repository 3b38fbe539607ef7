(** C45: Blowfish decryption inverts Blowfish encryption, for single blocks and in cipher block chaining, for every
    key. *)
From Verif Require Import Model.Base Model.Libc Model.CryptoTables Model.Crypto Spec.LibcSpec Spec.CryptoSpec
  Proof.Tac Proof.WordProof Proof.CipherProof Proof.CbcProof Proof.CodecProof Proof.ProtocolProof.

(** Blocks, for every contents of the key structure. *)
Theorem C45_block : forall key data, (forall i, 0 <= key i < 2 ^ 32) -> is_block data ->
  is_block (bf_encrypt key data) /\
  bf_decrypt key (bf_encrypt key data) = data /\ bf_encrypt key (bf_decrypt key data) = data.
Proof.
  intros key data K H. split; [exact (bf_encrypt_32 key data K H)|].
  split; [now apply bf_inverse|now apply bf_inverse'].
Qed.
Print Assumptions C45_block.

(** What BF_set_key computes is such a contents, for every key. *)
Theorem C45_keys : forall data, Forall is_byte data -> forall i, 0 <= bf_set_key data i < 2 ^ 32.
Proof. intros data F. exact (bf_set_key_32 data F). Qed.
Print Assumptions C45_keys.

(** Messages of any length. *)
Theorem C45_cbc : forall key iv m src mid dst len m1 v1 m2 v2,
  (forall i, 0 <= key i < 2 ^ 32) -> byte_memory m -> is_block iv -> 0 <= len ->
  fits src len -> fits mid (padded len) -> fits dst len ->
  safe_overlap src len mid (padded len) -> safe_overlap mid (padded len) dst len ->
  bf_cbc key true m src mid len iv = (m1, v1) -> bf_cbc key false m1 mid dst len iv = (m2, v2) ->
  same_bytes m src m2 dst len /\ only_changes m m1 mid (padded len) /\ only_changes m1 m2 dst len /\ v1 = v2.
Proof.
  intros key iv m src mid dst len m1 v1 m2 v2 K B V L F1 F2 F3 S1 S2 R1 R2.
  destruct (cbc_roundtrip _ _ _ _ _ codec_be (bf_encrypt key) (bf_decrypt key) (fun p => bf_encrypt_32 key p K)
              (fun p => bf_inverse key p K) iv m src mid dst len m1 v1 m2 v2 B V L F1 F2 F3 S1 S2 R1 R2)
    as (H1 & H2 & H3 & H4 & _).
  auto.
Qed.
Print Assumptions C45_cbc.

(** A published example: the key of eight zero bytes encrypts zero as 4EF997456198DD78. *)
Example C45_example :
  let key := bf_set_key [0; 0; 0; 0; 0; 0; 0; 0] in
  bf_encrypt key (0, 0) = (0x4EF99745, 0x6198DD78) /\ bf_decrypt key (0x4EF99745, 0x6198DD78) = (0, 0).
Proof. vm_compute. split; reflexivity. Qed.
