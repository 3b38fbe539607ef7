(** C62: the DES code computes the Data Encryption Standard.

    The key schedule, the permutations and the rounds of the code are organised quite differently from the standard:
    words are rotated, halves swapped, permutations done by exchanging groups of bits, S boxes and P merged in one
    table. For every key and block the result is that of FIPS PUB 46-3; messages are chained as in FIPS PUB 81, the
    last block filled up with zeros. *)
From Verif Require Import Model.Base Model.Libc Model.CryptoTables Model.Crypto Spec.LibcSpec Spec.CryptoSpec Spec.DesSpec
  Proof.Tac Proof.WordProof Proof.CipherProof Proof.CbcProof Proof.CodecProof Proof.ProtocolProof Proof.DesLinear Proof.DesKeys Proof.DesStdProof
  Props.C57_ProtocolLength.

(** One block: the eight bytes written are the cipher of the eight bytes read under the eight bytes of the key. *)
Theorem C62_block : forall m key inp out, byte_memory m -> fits key 8 -> fits inp 8 -> fits out 8 ->
  let ks := des_set_key_unchecked m key in
  block_of (fun i => des_put m (des_encrypt1 ks true (des_get m inp)) out (out + i))
    = DES_encipher (block_of (fun i => m (key + i))) (block_of (fun i => m (inp + i))) /\
  block_of (fun i => des_put m (des_encrypt1 ks false (des_get m inp)) out (out + i))
    = DES_decipher (block_of (fun i => m (key + i))) (block_of (fun i => m (inp + i))).
Proof.
  intros m key inp out B Fk Fi Fo ks.
  assert (H : forall enc, block_of (fun i => des_put m (des_encrypt1 ks enc (des_get m inp)) out (out + i))
    = (if enc then DES_encipher else DES_decipher) (block_of (fun i => m (key + i))) (block_of (fun i => m (inp + i)))).
  { intros enc. rewrite <- (get_bits m inp B Fi). unfold ks. rewrite <- (key_standard enc m key _ B Fk (get32_le m inp B)).
    symmetry. apply bits_of_bytes. intros i Hi. apply (put_in _ _ _ _ _ codec_le); assumption. }
  split; [exact (H true)|exact (H false)].
Qed.
Print Assumptions C62_block.

(** A message of any length, in place or not. *)
Theorem C62_cbc : forall m key ivp src mid len m1 v1,
  byte_memory m -> fits key 8 -> fits ivp 8 -> 0 <= len -> fits src len -> fits mid (padded len) ->
  safe_overlap src len mid (padded len) ->
  des_ncbc (des_set_key_unchecked m key) true m src mid len (des_get m ivp) = (m1, v1) ->
  let n := Z.to_nat (padded len / 8) in
  blocks_of (fun k => m1 (mid + k)) n
  = CBC_encipher (block_of (fun i => m (key + i))) (block_of (fun i => m (ivp + i)))
      (blocks_of (fun k => if k <? len then m (src + k) else 0) n).
Proof.
  intros m key ivp src mid len m1 v1 B Fk Fv L Fs Fm S R n. rewrite <- (get_bits m ivp B Fv).
  exact (ncbc_standard m key (des_get m ivp) src mid len m1 v1 B Fk (get32_le m ivp B) L Fs Fm S R).
Qed.
Print Assumptions C62_cbc.

(** The protocol, for every key that is odd and not weak. *)
Theorem C62_marshall : forall m wk key ivp old src mid len m1 s1,
  byte_memory m -> fits key 32 -> fits wk 152 -> bytes_at m wk weak_keys -> good_key m key -> fits ivp 8 ->
  0 <= len -> fits src len -> fits mid (padded len) -> safe_overlap src len mid (padded len) ->
  des_marshall m wk key ivp old src len mid = (m1, s1) ->
  let n := Z.to_nat (padded len / 8) in
  blocks_of (fun k => m1 (mid + k)) n
  = CBC_encipher (block_of (fun i => m (key + i))) (block_of (fun i => m (ivp + i)))
      (blocks_of (fun k => if k <? len then m (src + k) else 0) n).
Proof.
  intros m wk key ivp old src mid len m1 s1 B Fk Fw W [P N] Fv L Fs Fm S R n. unfold des_marshall in R.
  rewrite (key_accepted m wk key old B Fk Fw W P N) in R. cbn [fst] in R. apply (f_equal fst) in R. cbn [fst] in R. subst m1.
  set (r := des_ncbc (des_set_key_unchecked m key) true m src mid len (des_get m ivp)).
  apply (C62_cbc m key ivp src mid len (fst r) (snd r)); try assumption; [unfold fits in *; lia|]. unfold r. apply surjective_pairing.
Qed.
Print Assumptions C62_marshall.

(** The key 133457799BBCDFF1, the block 0123456789ABCDEF. *)
Example C62_example_block :
  let m := fun a => nth (Z.to_nat a) [0x13; 0x34; 0x57; 0x79; 0x9B; 0xBC; 0xDF; 0xF1; 0x01; 0x23; 0x45; 0x67; 0x89; 0xAB; 0xCD; 0xEF] 0 in
  block_of (fun i => des_put m (des_encrypt1 (des_set_key_unchecked m 0) true (des_get m 8)) 100 (100 + i))
  = hexs [133; 232; 19; 84; 15; 10; 180; 5]%nat.
Proof. vm_compute. reflexivity. Qed.

(** Eleven bytes with the default key and vector: two blocks, the second of three bytes and five zeros. *)
Example C62_example_cbc :
  let m := fun a => if (100 <=? a) && (a <? 111) then a else C57_memory a in
  let m1 := fst (des_marshall m 1000 600 700 (fun _ => 0) 100 11 200) in
  padded 11 / 8 = 2 /\
  (exists x, m1 200 = x /\ x <> 0) /\
  blocks_of (fun k => m1 (200 + k)) 2 = CBC_encipher (hexs [1; 35; 69; 103; 137; 171; 205; 239]%nat) (hexs [254; 220; 186; 152; 118; 84; 50; 16]%nat)
    [hexs [100; 101; 102; 103; 104; 105; 106; 107]%nat; hexs [108; 109; 110; 0; 0; 0; 0; 0]%nat].
Proof. vm_compute. split; [reflexivity|]. split; [eexists; split; [reflexivity|discriminate]|reflexivity]. Qed.
