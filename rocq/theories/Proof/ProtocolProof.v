(** The protocols built on the ciphers. *)
From Verif Require Import Model.Base Model.Libc Model.CryptoTables Model.Crypto Spec.LibcSpec Spec.CryptoSpec
  Proof.Tac Proof.WordProof Proof.CipherProof Proof.CbcProof Proof.CodecProof.

(** * Caesar *)

Lemma caesar_loop_spec : forall f n m src dst m',
  fits src (Z.of_nat n) -> fits dst (Z.of_nat n) -> safe_overlap src (Z.of_nat n) dst (Z.of_nat n) ->
  caesar_loop f n m src dst = m' ->
  (forall k, 0 <= k < Z.of_nat n -> m' (dst + k) = f (m (src + k))) /\ only_changes m m' dst (Z.of_nat n).
Proof.
  intros f n. induction n as [|n IH]; intros m src dst m' F1 F2 S R.
  - cbn [caesar_loop] in R. subst m'. split; [intros k Hk; lia|intros x _; reflexivity].
  - cbn [caesar_loop] in R. unfold fits in *.
    assert (R' : caesar_loop f n (upd m dst (f (m src))) (src + 1) (dst + 1) = m').
    { destruct n; [exact R|]. rewrite (u32_step src 1), (u32_step dst 1) in R by lia. exact R. }
    assert (S' : safe_overlap (src + 1) (Z.of_nat n) (dst + 1) (Z.of_nat n)).
    { unfold safe_overlap, apart in *. lia. }
    destruct (IH (upd m dst (f (m src))) (src + 1) (dst + 1) m' ltac:(lia) ltac:(lia) S' R') as [H1 H2]. split.
    + intros k Hk. destruct (Z.eq_dec k 0) as [->|N].
      * rewrite H2 by lia. rewrite !Z.add_0_r, upd_same. reflexivity.
      * specialize (H1 (k - 1) ltac:(lia)).
        replace (dst + 1 + (k - 1)) with (dst + k) in H1 by lia.
        replace (src + 1 + (k - 1)) with (src + k) in H1 by lia.
        rewrite H1, upd_other; [reflexivity|]. unfold safe_overlap, apart in S. lia.
    + intros x Hx. rewrite H2 by lia. apply upd_other. lia.
Qed.

(** Bytes one by one: the round trip is right exactly up to 250. *)
Lemma caesar_byte : forall b, is_byte b -> caesar_down (caesar_up b) = b <-> b <= 250.
Proof.
  intros b Hb. unfold is_byte in Hb.
  assert (G : forallb (fun k => Bool.eqb (caesar_down (caesar_up (Z.of_nat k)) =? Z.of_nat k) (Z.of_nat k <=? 250)) (seq 0 256) = true)
    by (vm_compute; reflexivity).
  rewrite forallb_forall in G. specialize (G (Z.to_nat b)).
  rewrite Z2Nat.id in G by lia.
  assert (I : In (Z.to_nat b) (seq 0 256)) by (apply in_seq; lia).
  specialize (G I). apply Bool.eqb_prop in G. split; intros H.
  - apply Z.leb_le. rewrite <- G. now apply Z.eqb_eq.
  - apply Z.eqb_eq. rewrite G. now apply Z.leb_le.
Qed.

(** * Blowfish keys are 32-bit words *)

Lemma bf_init_32 : forallb (fun w => (0 <=? w) && (w <? 2 ^ 32)) bf_init = true.
Proof. vm_compute. reflexivity. Qed.

Lemma zero_32 : is32 0.
Proof. split; [discriminate|reflexivity]. Qed.

Lemma bf_init_key32 : key32 (fun i => nth (Z.to_nat i) bf_init 0).
Proof.
  intros i. destruct (nth_in_or_default (Z.to_nat i) bf_init 0) as [J|E]; [|rewrite E; exact zero_32].
  pose proof bf_init_32 as F. rewrite forallb_forall in F. specialize (F _ J). apply andb_true_iff in F as [F1 F2].
  split; [now apply Z.leb_le|now apply Z.ltb_lt].
Qed.

Lemma bf_key_byte_byte : forall data i, Forall is_byte data -> is_byte (bf_key_byte data i).
Proof.
  intros data i F. unfold bf_key_byte.
  match goal with |- is_byte (nth ?k data 0) => destruct (nth_in_or_default k data 0) as [J|E] end.
  - rewrite Forall_forall in F. now apply F.
  - rewrite E. split; [discriminate|reflexivity].
Qed.

Lemma bf_mix_32 : forall data key, Forall is_byte data -> key32 key -> key32 (bf_mix data key).
Proof.
  intros data key F K i. unfold bf_mix. destruct (_ && _); [|apply K]. cbv zeta.
  apply is32_lxor; [apply K|].
  apply is32_lor; [apply is32_shl|]. apply byte_is32. now apply bf_key_byte_byte.
Qed.

Lemma bf_fill_32 : forall n i key d, key32 key -> both32 d -> key32 (bf_fill n i key d).
Proof.
  induction n as [|n IH]; intros i key d K H; [exact K|]. cbn [bf_fill].
  pose proof (bf_encrypt_32 key d K H) as [E1 E2].
  apply IH; [|split; assumption].
  intros j. unfold upd. destruct (j =? i + 1); [exact E2|]. destruct (j =? i); [exact E1|apply K].
Qed.

Lemma bf_set_key_32 : forall data, Forall is_byte data -> key32 (bf_set_key data).
Proof.
  intros data F. unfold bf_set_key. generalize 521%nat. intros n.
  apply bf_fill_32; [|split; exact zero_32].
  apply bf_mix_32; [exact F|]. exact bf_init_key32.
Qed.

(** One block in electronic code book mode. *)
Lemma bf_ecb_roundtrip : forall key m src mid dst, key32 key -> byte_memory m ->
  fits src 8 -> fits mid 8 -> fits dst 8 ->
  same_bytes m src (bf_ecb key false (bf_ecb key true m src mid) mid dst) dst 8 /\
  only_changes m (bf_ecb key true m src mid) mid 8 /\
  only_changes (bf_ecb key true m src mid) (bf_ecb key false (bf_ecb key true m src mid) mid dst) dst 8.
Proof.
  intros key m src mid dst K B F1 F2 F3.
  assert (G : bf_get (bf_ecb key true m src mid) mid = bf_encrypt key (bf_get m src)).
  { unfold bf_ecb. apply (get_put _ _ _ _ _ codec_be); try assumption.
    apply bf_encrypt_32; [exact K|]. now apply get32_be. }
  split; [|split].
  - intros k Hk. unfold bf_ecb at 1. rewrite G, bf_inverse by (try assumption; now apply get32_be).
    rewrite (put_in _ _ _ _ _ codec_be) by assumption. now apply get_be.
  - intros x Hx. unfold bf_ecb. now apply (put_out _ _ _ _ _ codec_be).
  - intros x Hx. unfold bf_ecb at 1. now apply (put_out _ _ _ _ _ codec_be).
Qed.

(** * DES keys *)

Lemma odd_table : forall b, is_byte b -> (b =? nth (Z.to_nat b) odd_parity 0) = Nat.odd (ones_of 8 b).
Proof.
  intros b Hb. unfold is_byte in Hb.
  assert (G : forallb (fun k => Bool.eqb (Z.of_nat k =? nth k odd_parity 0) (Nat.odd (ones_of 8 (Z.of_nat k)))) (seq 0 256) = true)
    by (vm_compute; reflexivity).
  rewrite forallb_forall in G. specialize (G (Z.to_nat b) ltac:(apply in_seq; lia)).
  rewrite Z2Nat.id in G by lia. now apply Bool.eqb_prop in G.
Qed.

Lemma parity_spec : forall m key, byte_memory m -> fits key 8 ->
  des_check_key_parity m key = true <-> forall i, 0 <= i < 8 -> Nat.odd (ones_of 8 (m (key + i))) = true.
Proof.
  intros m key B F. unfold fits in F. unfold des_check_key_parity. rewrite forallb_forall. split.
  - intros H i Hi. specialize (H (Z.to_nat i) ltac:(apply in_seq; lia)).
    rewrite Z2Nat.id, u32_step in H by lia. now rewrite odd_table in H by apply B.
  - intros H k Hk. apply in_seq in Hk. rewrite u32_step by lia. rewrite odd_table by apply B. apply H. lia.
Qed.

Lemma load32_bytes : forall m a b, byte_memory m -> load32 m a = load32 m b ->
  m a = m b /\ m (u32 (a + 1)) = m (u32 (b + 1)) /\ m (u32 (a + 2)) = m (u32 (b + 2)) /\
  m (u32 (a + 3)) = m (u32 (b + 3)).
Proof.
  intros m a b B E. unfold load32 in E. unfold byte_memory, is_byte in B.
  pose proof (B a). pose proof (B (u32 (a + 1))). pose proof (B (u32 (a + 2))). pose proof (B (u32 (a + 3))).
  pose proof (B b). pose proof (B (u32 (b + 1))). pose proof (B (u32 (b + 2))). pose proof (B (u32 (b + 3))).
  lia.
Qed.

(** memcmp finds no difference only if there is none, in four times as many bytes as asked. *)
Lemma memcmp_zero : forall n m a b, byte_memory m -> fits a (4 * Z.of_nat n) -> fits b (4 * Z.of_nat n) ->
  memcmp_loop n m a b = 0 <-> forall i, 0 <= i < 4 * Z.of_nat n -> m (a + i) = m (b + i).
Proof.
  induction n as [|n IH]; intros m a b B Fa Fb.
  - cbn [memcmp_loop]. split; [intros _ i Hi; lia|reflexivity].
  - cbn [memcmp_loop]. unfold fits in *. destruct (Z.eqb_spec (load32 m a) (load32 m b)) as [E|N]; simpl negb; cbv iota.
    + apply load32_bytes in E as (E0 & E1 & E2 & E3); [|exact B].
      rewrite !u32_step in E1, E2, E3 by lia.
      assert (R : memcmp_loop n m (u32 (a + 4)) (u32 (b + 4)) = memcmp_loop n m (a + 4) (b + 4)).
      { destruct n; [reflexivity|]. rewrite !u32_step by lia. reflexivity. }
      rewrite R, IH by (exact B || lia). split; intros H i Hi.
      * destruct (Z_lt_dec i 4) as [L|L].
        { assert (Ei : i = 0 \/ i = 1 \/ i = 2 \/ i = 3) by lia.
          destruct Ei as [->|[->|[->| ->]]]; rewrite ?Z.add_0_r; assumption. }
        { specialize (H (i - 4) ltac:(lia)). replace (a + 4 + (i - 4)) with (a + i) in H by lia.
          now replace (b + 4 + (i - 4)) with (b + i) in H by lia. }
      * specialize (H (4 + i) ltac:(lia)). now rewrite !Z.add_assoc in H.
    + split.
      * intros H. destruct (load32 m b <? load32 m a); discriminate H.
      * intros H. exfalso. apply N. unfold load32.
        rewrite !u32_step by lia. rewrite <- (Z.add_0_r a) at 1. rewrite <- (Z.add_0_r b) at 1.
        rewrite !H by lia. reflexivity.
Qed.

(** The test for weak keys compares 32 bytes. *)
Lemma weak_spec : forall m wk key, byte_memory m -> fits key 32 -> fits wk 152 ->
  des_is_weak_key m wk key = true <->
  exists i, 0 <= i < 16 /\ forall k, 0 <= k < 32 -> m (wk + 8 * i + k) = m (key + k).
Proof.
  intros m wk key B F1 F2. unfold des_is_weak_key. rewrite existsb_exists. unfold fits in *. split.
  - intros (i & I & E). apply in_seq in I. apply Z.eqb_eq in E. unfold memcmp in E. change (Z.to_nat 8) with 8%nat in E.
    rewrite u32_step in E by lia. rewrite (memcmp_zero 8 m _ _ B) in E by (unfold fits; lia).
    exists (Z.of_nat i). split; [lia|]. intros k Hk. apply E. lia.
  - intros (i & I & E). exists (Z.to_nat i). split; [apply in_seq; lia|].
    apply Z.eqb_eq. unfold memcmp. change (Z.to_nat 8) with 8%nat. rewrite Z2Nat.id by lia. rewrite u32_step by lia.
    rewrite (memcmp_zero 8 m _ _ B) by (unfold fits; lia). intros k Hk. apply E. lia.
Qed.

(** The schedule depends on the eight bytes of the key only. *)
Lemma set_key_frame : forall m m' key, byte_memory m -> byte_memory m' -> fits key 8 ->
  (forall i, 0 <= i < 8 -> m' (key + i) = m (key + i)) -> des_get m' key = des_get m key.
Proof. intros. now apply (get_frame _ _ _ _ _ codec_le). Qed.

(** A key of odd parity that is not one of the sixteen is accepted. *)
Lemma key_accepted : forall m wk key old, byte_memory m -> fits key 32 -> fits wk 152 ->
  bytes_at m wk weak_keys ->
  (forall i, 0 <= i < 8 -> Nat.odd (ones_of 8 (m (key + i))) = true) ->
  (forall i, 0 <= i < 16 -> exists k, 0 <= k < 8 /\ m (key + k) <> nth (Z.to_nat (8 * i + k)) weak_keys 0) ->
  des_set_key_checked m wk key old = (des_set_key_unchecked m key, 0).
Proof.
  intros m wk key old B F1 F2 W P N. unfold des_set_key_checked.
  assert (Pk : des_check_key_parity m key = true).
  { apply parity_spec; [exact B|unfold fits in *; lia|exact P]. }
  assert (Wk : des_is_weak_key m wk key = false).
  { destruct (des_is_weak_key m wk key) eqn:E; [exfalso|reflexivity].
    rewrite weak_spec in E by assumption. destruct E as (i & Hi & E).
    destruct (N i Hi) as (k & Hk & Nk). apply Nk. rewrite <- (E k) by lia.
    specialize (W (Z.to_nat (8 * i + k)) ltac:(change (length weak_keys) with 128%nat; lia)).
    rewrite Z2Nat.id in W by lia. rewrite <- W. f_equal. lia. }
  rewrite Pk, Wk. reflexivity.
Qed.

Lemma set_key_same : forall m m' key, des_get m' key = des_get m key ->
  des_set_key_unchecked m' key = des_set_key_unchecked m key.
Proof. intros m m' key E. unfold des_set_key_unchecked. rewrite E. reflexivity. Qed.

Lemma des_protocol_eight : forall m wk key ivp old1 old2 src mid dst m1 s1 m2 s2,
  byte_memory m -> fits key 32 -> fits wk 152 -> fits ivp 8 -> fits src 8 -> fits mid 8 -> fits dst 8 ->
  bytes_at m wk weak_keys ->
  (forall i, 0 <= i < 8 -> Nat.odd (ones_of 8 (m (key + i))) = true) ->
  (forall i, 0 <= i < 16 -> exists k, 0 <= k < 8 /\ m (key + k) <> nth (Z.to_nat (8 * i + k)) weak_keys 0) ->
  apart mid 8 key 8 -> apart mid 8 wk 128 -> apart mid 8 ivp 8 ->
  safe_overlap src 8 mid 8 -> safe_overlap mid 8 dst 8 ->
  des_marshall m wk key ivp old1 src 8 mid = (m1, s1) ->
  des_unmarshall m1 wk key ivp old2 mid s1 dst = (m2, s2) ->
  same_bytes m src m2 dst 8 /\ only_changes m m1 mid 8 /\ only_changes m1 m2 dst 8.
Proof.
  intros m wk key ivp old1 old2 src mid dst m1 s1 m2 s2 B Fk Fw Fi Fs Fm Fd W P N A1 A2 A3 S1 S2 R1 R2.
  unfold des_marshall in R1. rewrite (key_accepted m) in R1 by assumption. cbn [fst] in R1.
  set (ks := des_set_key_unchecked m key) in *. set (iv := des_get m ivp) in *.
  assert (V : both32 iv) by now apply get32_le.
  destruct (des_ncbc ks true m src mid 8 iv) as [ma va] eqn:E1. cbn [fst] in R1. injection R1 as -> <-.
  assert (O : only_changes m m1 mid 8 /\ byte_memory m1).
  { unfold des_ncbc, cbc_enc in E1. change (8 mod 8 =? 0) with true in E1. cbv iota in E1.
    change (Z.to_nat (8 / 8)) with 1%nat in E1. cbn [cbc_enc_loop] in E1. injection E1 as <- _. split.
    - intros x Hx. now apply (put_out _ _ _ _ _ codec_le).
    - now apply (put_bytes _ _ _ _ _ codec_le). }
  destruct O as [O B1].
  assert (Ek : des_get m1 key = des_get m key).
  { apply set_key_frame; try assumption; [unfold fits in *; lia|]. intros i Hi. apply O. unfold apart in A1. lia. }
  assert (Ei : des_get m1 ivp = iv).
  { apply set_key_frame; try assumption. intros i Hi. apply O. unfold apart in A3. lia. }
  assert (W1 : bytes_at m1 wk weak_keys).
  { intros k Hk. rewrite <- W by exact Hk. apply O. unfold apart in A2. change (length weak_keys) with 128%nat in Hk. lia. }
  assert (P1 : forall i, 0 <= i < 8 -> Nat.odd (ones_of 8 (m1 (key + i))) = true).
  { intros i Hi. rewrite O by (unfold apart in A1; lia). now apply P. }
  assert (N1 : forall i, 0 <= i < 16 -> exists k, 0 <= k < 8 /\ m1 (key + k) <> nth (Z.to_nat (8 * i + k)) weak_keys 0).
  { intros i Hi. destruct (N i Hi) as (k & Hk & Nk). exists k. split; [exact Hk|].
    rewrite O by (unfold apart in A1; lia). exact Nk. }
  unfold des_unmarshall in R2. rewrite (key_accepted m1) in R2 by assumption. cbn [fst] in R2.
  rewrite (set_key_same m m1 key Ek), Ei in R2. fold ks in R2.
  destruct (des_ncbc ks false m1 mid dst 8 iv) as [mb vb] eqn:E2. cbn [fst] in R2. injection R2 as -> _.
  unfold des_ncbc in E1, E2.
  destruct (cbc_roundtrip _ _ _ _ _ codec_le (des_encrypt1 ks true) (des_encrypt1 ks false) (des_32 ks true)
              (des_inverse ks) iv m src mid dst 8 m1 va m2 vb B V ltac:(lia) Fs Fm Fd S1 S2 E1 E2) as (H1 & H2 & H3 & _).
  split; [exact H1|]. split; [exact O|exact H3].
Qed.
