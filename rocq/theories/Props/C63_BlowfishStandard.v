(** C63: the Blowfish code computes the published cipher.

    The code keeps the subkeys in one array, merges the exclusive or with P into the rounds and does not swap. For every
    key and block the result is that of the published algorithm with the table bf_init as the fixed string; messages
    are chained block by block, the last one filled up with zeros. *)
From Verif Require Import Model.Base Model.Libc Model.CryptoTables Model.Crypto Spec.LibcSpec Spec.CryptoSpec Spec.BlowfishSpec
  Proof.Tac Proof.WordProof Proof.CipherProof Proof.CbcProof Proof.CodecProof Proof.ProtocolProof Proof.BlowfishStdProof.

(** The table of bf_pi.h. *)
Definition pi_table (i : Z) : Z := nth (Z.to_nat i) bf_init 0.

(** Every subkey after BF_set_key. *)
Theorem C63_subkeys : forall key, Forall is_byte key -> 1 <= Z.of_nat (length key) <= 72 ->
  (forall i, 0 <= i < 18 -> bf_set_key key i = P (key_schedule pi_table key) i) /\
  (forall j i, 0 <= j < 4 -> 0 <= i < 256 -> bf_set_key key (18 + 256 * j + i) = S (key_schedule pi_table key) j i).
Proof.
  intros key H _. pose proof (set_key_agree key H) as A. change table with pi_table in A. split; intros.
  - now apply (flat_P _ _ _ A).
  - now apply (flat_S _ _ _ _ A).
Qed.
Print Assumptions C63_subkeys.

(** One block: the eight bytes written are the cipher of the eight bytes read, and the reverse. *)
Theorem C63_block : forall key m inp out, Forall is_byte key -> 1 <= Z.of_nat (length key) <= 72 ->
  byte_memory m -> fits inp 8 -> fits out 8 ->
  let k := key_schedule pi_table key in
  words_of (fun i => bf_ecb (bf_set_key key) true m inp out (out + i)) = encipher k (words_of (fun i => m (inp + i))) /\
  words_of (fun i => bf_ecb (bf_set_key key) false m inp out (out + i)) = decipher k (words_of (fun i => m (inp + i))).
Proof.
  intros key m inp out H _ B Fi Fo k. pose proof (set_key_agree key H) as A. change table with pi_table in A. fold k in A.
  pose proof (bf_set_key_32 key H) as K32. generalize dependent (bf_set_key key). intros K A K32.
  rewrite <- (get_words m inp B Fi). pose proof (get32_be m inp B) as G. unfold bf_ecb. cbv zeta. split.
  - rewrite put_words; [now apply encrypt_same|now apply bf_encrypt_32|exact Fo].
  - rewrite put_words; [now apply decrypt_same|now apply bf_decrypt_32|exact Fo].
Qed.
Print Assumptions C63_block.

(** The protocol: the block in the memory after marshalling. *)
Theorem C63_marshall : forall key m src size dst, Forall is_byte key -> length key = 16%nat ->
  byte_memory m -> fits src 8 -> fits dst 8 ->
  let k := key_schedule pi_table key in
  words_of (fun i => fst (blowfish_marshall key m src size dst) (dst + i)) = encipher k (words_of (fun i => m (src + i))) /\
  words_of (fun i => fst (blowfish_unmarshall key m src size dst) (dst + i)) = decipher k (words_of (fun i => m (src + i))).
Proof.
  intros key m src size dst H L B Fs Fd. unfold blowfish_marshall, blowfish_unmarshall. cbn [fst].
  apply C63_block; try assumption. rewrite L. split; discriminate.
Qed.
Print Assumptions C63_marshall.

(** A message of any length, in place or not. *)
Theorem C63_cbc : forall key m iv src mid len m1 v1, Forall is_byte key -> 1 <= Z.of_nat (length key) <= 72 ->
  byte_memory m -> both32 iv -> 0 <= len -> fits src len -> fits mid (padded len) ->
  safe_overlap src len mid (padded len) ->
  bf_cbc (bf_set_key key) true m src mid len iv = (m1, v1) ->
  let n := Z.to_nat (padded len / 8) in
  all_words_of (fun i => m1 (mid + i)) n
  = BF_chain (key_schedule pi_table key) iv (all_words_of (fun i => if i <? len then m (src + i) else 0) n).
Proof.
  intros key m iv src mid len m1 v1 H _ B V L Fs Fm So R n. pose proof (set_key_agree key H) as A. change table with pi_table in A.
  pose proof (bf_set_key_32 key H) as K32. exact (bf_cbc_standard _ _ m iv src mid len m1 v1 A K32 B V L Fs Fm So R).
Qed.
Print Assumptions C63_cbc.

(** The fixed string: the fraction of pi. The whole statement is [bf_init = pi_words 1042]; checked here are the P array
    and the first 46 words of the first S box, the digits of the rest taking too long to compute inside the prover. *)
Theorem C63_pi_partial : firstn 64 bf_init = pi_words 64 /\ length bf_init = 1042%nat.
Proof. split; vm_compute; reflexivity. Qed.
Print Assumptions C63_pi_partial.

(** The published test vector: a key of eight zero bytes, a block of zeros; and a second one with a key and a block of
    ones. *)
Example C63_example :
  let m (b : Z) := fun a => if a <? 8 then b else 0 in
  let m0 := bf_ecb (bf_set_key (repeat 0 8)) true (m 0) 0 100 in
  let m1 := bf_ecb (bf_set_key (repeat 255 8)) true (m 255) 0 100 in
  words_of (fun i => m0 (100 + i)) = (0x4EF99745, 0x6198DD78) /\ words_of (fun i => m1 (100 + i)) = (0x51866FD5, 0xB85ECB8A).
Proof. vm_compute. split; reflexivity. Qed.

(** The first words of pi after the point. *)
Example C63_example_pi : pi_words 2 = [0x243F6A88; 0x85A308D3].
Proof. vm_compute. reflexivity. Qed.
