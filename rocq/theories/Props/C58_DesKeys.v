(** C58: DES_set_key_checked accepts exactly the keys of odd parity that are not weak.

    The parity test is right. The test for weak keys calls a memcmp that compares 32-bit words, so it compares 32
    bytes: what it reports is weak, but a weak key is recognised only if the 24 bytes behind it happen to be those
    behind the entry of the table. And the protocol ignores the result: with a refused key it encrypts under whatever
    the stack contains. *)
From Verif Require Import Model.Base Model.Libc Model.CryptoTables Model.Crypto Spec.LibcSpec Spec.CryptoSpec
  Proof.Tac Proof.WordProof Proof.CipherProof Proof.CbcProof Proof.CodecProof Proof.ProtocolProof Props.C57_ProtocolLength.

Definition key_check : Prop := forall m wk key old, byte_memory m -> fits key 32 -> fits wk 152 -> bytes_at m wk weak_keys ->
  snd (des_set_key_checked m wk key old) = 0 <-> good_key m key.

(** The key 0101010101010101 is accepted. *)
Theorem C58_weak_refuted : ~ key_check.
Proof.
  intros H.
  set (m := fun a => if (1000 <=? a) && (a <? 1128) then nth (Z.to_nat (a - 1000)) weak_keys 0
                     else if (600 <=? a) && (a <? 608) then 1 else 0).
  assert (B : byte_memory m).
  { intros a. unfold m, is_byte. destruct (_ && _).
    - assert (G : forallb (fun b => (0 <=? b) && (b <? 256)) weak_keys = true) by (vm_compute; reflexivity).
      rewrite forallb_forall in G. destruct (nth_in_or_default (Z.to_nat (a - 1000)) weak_keys 0) as [I|E]; [|rewrite E; lia].
      specialize (G _ I). lia.
    - destruct (_ && _); lia. }
  assert (W : bytes_at m 1000 weak_keys).
  { intros k Hk. change (length weak_keys) with 128%nat in Hk.
    assert (G : forallb (fun k => m (1000 + Z.of_nat k) =? nth k weak_keys 0) (seq 0 128) = true)
      by (vm_compute; reflexivity).
    rewrite forallb_forall in G. apply Z.eqb_eq, G, in_seq. lia. }
  assert (A : snd (des_set_key_checked m 1000 600 (fun _ => 0)) = 0) by (vm_compute; reflexivity).
  apply (H m 1000 600 (fun _ => 0) B ltac:(unfold fits; lia) ltac:(unfold fits; lia) W) in A. destruct A as [_ A].
  destruct (A 0 ltac:(lia)) as (k & Hk & N). apply N.
  assert (E : k = 0 \/ k = 1 \/ k = 2 \/ k = 3 \/ k = 4 \/ k = 5 \/ k = 6 \/ k = 7) by lia.
  destruct E as [->|[->|[->|[->|[->|[->|[->| ->]]]]]]]; reflexivity.
Qed.
Print Assumptions C58_weak_refuted.

(** What holds: every good key is accepted and yields the schedule of that key, whatever was there before; what is
    accepted has odd parity; what is refused is reported and leaves the old contents. *)
Theorem C58_check_partial : forall m wk key old, byte_memory m -> fits key 32 -> fits wk 152 -> bytes_at m wk weak_keys ->
  (good_key m key -> des_set_key_checked m wk key old = (des_set_key_unchecked m key, 0)) /\
  (snd (des_set_key_checked m wk key old) = 0 ->
     forall i, 0 <= i < 8 -> Nat.odd (ones_of 8 (m (key + i))) = true) /\
  (~ (forall i, 0 <= i < 8 -> Nat.odd (ones_of 8 (m (key + i))) = true) ->
     des_set_key_checked m wk key old = (old, -1)) /\
  (snd (des_set_key_checked m wk key old) = -2 ->
     fst (des_set_key_checked m wk key old) = old /\ exists i, 0 <= i < 16 /\
       forall k, 0 <= k < 8 -> m (key + k) = nth (Z.to_nat (8 * i + k)) weak_keys 0).
Proof.
  intros m wk key old B Fk Fw W.
  assert (F8 : fits key 8) by (unfold fits in *; lia).
  split; [intros [P N]; now apply key_accepted|].
  unfold des_set_key_checked. split; [|split].
  - intros H. apply (parity_spec m key B F8). destruct (des_check_key_parity m key); [reflexivity|].
    unfold negb in H. cbv iota in H. cbn [snd] in H. discriminate H.
  - intros H. destruct (des_check_key_parity m key) eqn:E; [|reflexivity].
    exfalso. apply H. now apply (parity_spec m key B F8).
  - intros H. destruct (des_check_key_parity m key); unfold negb in H |- *; cbv iota in H |- *; cbn [fst snd] in H |- *;
      [|discriminate H].
    destruct (des_is_weak_key m wk key) eqn:E; cbv iota in H |- *; cbn [fst snd] in H |- *; [|discriminate H]. split; [reflexivity|].
    rewrite weak_spec in E by assumption. destruct E as (i & Hi & E). exists i. split; [exact Hi|].
    intros k Hk. rewrite <- (E k) by lia.
    specialize (W (Z.to_nat (8 * i + k)) ltac:(change (length weak_keys) with 128%nat; lia)).
    rewrite Z2Nat.id in W by lia. rewrite <- W. f_equal. lia.
Qed.
Print Assumptions C58_check_partial.

(** With a key of bad parity the protocol encrypts under the contents of the stack: two stacks, two ciphertexts. *)
Theorem C58_refused_key_used_refuted : ~ (forall m wk key ivp old old' src dst,
  fst (des_marshall m wk key ivp old src 8 dst) dst = fst (des_marshall m wk key ivp old' src 8 dst) dst).
Proof.
  intros H. specialize (H (fun _ => 0) 1000 600 700 (fun _ => 0) (fun i => 0x3c3c3c3c + i) 100 200).
  vm_compute in H. discriminate H.
Qed.
Print Assumptions C58_refused_key_used_refuted.

(** The default key is accepted; one with a bit changed is not. *)
Example C58_example :
  snd (des_set_key_checked C57_memory 1000 600 (fun _ => 0)) = 0 /\
  snd (des_set_key_checked (upd C57_memory 600 0) 1000 600 (fun _ => 0)) = -1 /\
  fst (des_set_key_checked C57_memory 1000 600 (fun _ => 0)) 0 = 1684312128.
Proof. vm_compute. repeat split. Qed.
