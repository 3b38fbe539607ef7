(** 32-bit words, bit by bit. *)
From Verif Require Import Model.Base Model.Libc Model.CryptoTables Model.Crypto Spec.LibcSpec Proof.Tac.

Definition is32 (x : Z) : Prop := 0 <= x < 2 ^ 32.

Lemma is32_bits : forall x, is32 x <-> 0 <= x /\ forall i, 32 <= i -> Z.testbit x i = false.
Proof.
  intros x. unfold is32. split.
  - intros [H1 H2]. split; [exact H1|]. intros i Hi.
    destruct (Z.eq_dec x 0) as [->|N]; [apply Z.bits_0|].
    apply Z.bits_above_log2; [lia|]. assert (Z.log2 x < 32) by (apply Z.log2_lt_pow2; lia). lia.
  - intros [H1 H2]. split; [exact H1|].
    destruct (Z.eq_dec x 0) as [->|N]; [reflexivity|].
    apply Z.log2_lt_pow2; [lia|].
    destruct (Z_lt_dec (Z.log2 x) 32) as [L|L]; [exact L|exfalso].
    assert (B : Z.testbit x (Z.log2 x) = true) by (apply Z.bit_log2; lia).
    rewrite H2 in B by lia. discriminate B.
Qed.

Lemma is32_ge0 : forall x, is32 x -> 0 <= x.
Proof. unfold is32. lia. Qed.

Lemma is32_high : forall x i, is32 x -> 32 <= i -> Z.testbit x i = false.
Proof. intros x i H Hi. apply is32_bits in H as [_ H]. now apply H. Qed.

Lemma is32_u32 : forall x, is32 (u32 x).
Proof. intros x. unfold is32, u32. apply Z.mod_pos_bound. reflexivity. Qed.

Lemma is32_lxor : forall a b, is32 a -> is32 b -> is32 (Z.lxor a b).
Proof.
  intros a b Ha Hb. apply is32_bits. split.
  - apply Z.lxor_nonneg. unfold is32 in *. lia.
  - intros i Hi. rewrite Z.lxor_spec, (is32_high a), (is32_high b) by assumption. reflexivity.
Qed.

Lemma is32_lor : forall a b, is32 a -> is32 b -> is32 (Z.lor a b).
Proof.
  intros a b Ha Hb. apply is32_bits. split.
  - apply Z.lor_nonneg. unfold is32 in *. lia.
  - intros i Hi. rewrite Z.lor_spec, (is32_high a), (is32_high b) by assumption. reflexivity.
Qed.

Lemma is32_land : forall a b, is32 a -> is32 (Z.land a b).
Proof.
  intros a b Ha. apply is32_bits. split.
  - apply Z.land_nonneg. unfold is32 in *. lia.
  - intros i Hi. rewrite Z.land_spec, (is32_high a) by assumption. reflexivity.
Qed.

Lemma is32_shr : forall a n, 0 <= n -> is32 a -> is32 (Z.shiftr a n).
Proof.
  intros a n Hn Ha. apply is32_bits. split.
  - apply Z.shiftr_nonneg. unfold is32 in *. lia.
  - intros i Hi. rewrite Z.shiftr_spec by lia. apply is32_high; [assumption|lia].
Qed.

Lemma is32_shl : forall a n, is32 (shl a n).
Proof. intros. apply is32_u32. Qed.

Lemma is32_rotate : forall a n, 0 <= n -> is32 a -> is32 (rotate a n).
Proof. intros a n Hn Ha. apply is32_lor; [now apply is32_shr|apply is32_shl]. Qed.

Lemma testbit_u32 : forall x i, 0 <= i < 32 -> Z.testbit (u32 x) i = Z.testbit x i.
Proof. intros x i Hi. unfold u32. now rewrite Z.mod_pow2_bits_low. Qed.

Lemma testbit_shl : forall a n i, 0 <= i < 32 -> Z.testbit (shl a n) i = Z.testbit a (i - n).
Proof. intros a n i Hi. unfold shl. rewrite testbit_u32 by lia. apply Z.shiftl_spec. lia. Qed.

(** Two words are equal if their 32 bits are. *)
Lemma word_eq : forall a b, is32 a -> is32 b ->
  (forall i, 0 <= i < 32 -> Z.testbit a i = Z.testbit b i) -> a = b.
Proof.
  intros a b Ha Hb H. apply Z.bits_inj'. intros i Hi.
  destruct (Z_lt_dec i 32) as [L|L]; [apply H; lia|].
  rewrite !is32_high by (assumption || lia). reflexivity.
Qed.

Lemma testbit_rotate : forall a n i, is32 a -> 0 < n < 32 -> 0 <= i < 32 ->
  Z.testbit (rotate a n) i = Z.testbit a ((i + n) mod 32).
Proof.
  intros a n i Ha Hn Hi. unfold rotate. rewrite Z.lor_spec, Z.shiftr_spec, testbit_shl by lia.
  destruct (Z_lt_dec (i + n) 32) as [L|L].
  - rewrite (Z.mod_small (i + n)) by lia. rewrite (Z.testbit_neg_r a (i - (32 - n))) by lia. apply orb_false_r.
  - rewrite (is32_high a (i + n)) by (assumption || lia). rewrite orb_false_l. f_equal. lia.
Qed.

Lemma rotate_inv : forall a n k, is32 a -> 0 < n < 32 -> n + k = 32 -> rotate (rotate a n) k = a.
Proof.
  intros a n k Ha Hn Hk. apply word_eq; [apply is32_rotate; [lia|apply is32_rotate; [lia|exact Ha]]|exact Ha|].
  intros i Hi. rewrite testbit_rotate; [|apply is32_rotate; [lia|exact Ha]|lia|lia].
  rewrite testbit_rotate; [|exact Ha|lia|lia]. f_equal. lia.
Qed.

Lemma lxor_cancel : forall a b, Z.lxor (Z.lxor a b) b = a.
Proof. intros a b. rewrite Z.lxor_assoc, Z.lxor_nilpotent. apply Z.lxor_0_r. Qed.

(** * Bytes of words *)

Lemma byte_is_byte : forall w n, is_byte (byte_of w n).
Proof.
  intros w n. unfold is_byte, byte_of. change 0xff with (Z.ones 8). rewrite Z.land_ones by lia.
  change 256 with (2 ^ 8). apply Z.mod_pos_bound. reflexivity.
Qed.

Lemma byte_is32 : forall x, is_byte x -> is32 x.
Proof. unfold is_byte, is32. intros. split; [lia|]. assert (256 < 2 ^ 32) by reflexivity. lia. Qed.

Lemma byte_high : forall x i, is_byte x -> 8 <= i -> Z.testbit x i = false.
Proof.
  intros x i H Hi. rewrite <- (Z.mod_small x (2 ^ 8)) by (unfold is_byte in H; change (2 ^ 8) with 256; lia).
  apply Z.mod_pow2_bits_high. lia.
Qed.

Lemma byte_eq : forall a b, is_byte a -> is_byte b ->
  (forall i, 0 <= i < 8 -> Z.testbit a i = Z.testbit b i) -> a = b.
Proof.
  intros a b Ha Hb H. apply Z.bits_inj'. intros i Hi.
  destruct (Z_lt_dec i 8) as [L|L]; [apply H; lia|].
  rewrite !byte_high by (assumption || lia). reflexivity.
Qed.

Lemma testbit_byte_of : forall w n i, 0 <= n -> 0 <= i ->
  Z.testbit (byte_of w n) i = (i <? 8) && Z.testbit w (i + n).
Proof.
  intros w n i Hn Hi. unfold byte_of. change 0xff with (Z.ones 8). rewrite Z.land_spec, Z.shiftr_spec by lia.
  destruct (Z.ltb_spec i 8) as [L|L].
  - rewrite Z.ones_spec_low by lia. rewrite andb_true_r. reflexivity.
  - rewrite Z.ones_spec_high by lia. apply andb_false_r.
Qed.

(** The word made of four bytes, least significant first. *)
Definition word4 (b0 b1 b2 b3 : Z) : Z :=
  Z.lor (Z.lor (Z.lor b0 (shl b1 8)) (shl b2 16)) (shl b3 24).

Lemma is32_word4 : forall b0 b1 b2 b3, is_byte b0 -> is32 (word4 b0 b1 b2 b3).
Proof.
  intros. unfold word4. repeat apply is32_lor; try apply is32_shl. now apply byte_is32.
Qed.

Lemma testbit_word4 : forall b0 b1 b2 b3 i, is_byte b0 -> is_byte b1 -> is_byte b2 -> is_byte b3 -> 0 <= i < 32 ->
  Z.testbit (word4 b0 b1 b2 b3) i =
    if i <? 8 then Z.testbit b0 i else if i <? 16 then Z.testbit b1 (i - 8)
    else if i <? 24 then Z.testbit b2 (i - 16) else Z.testbit b3 (i - 24).
Proof.
  intros b0 b1 b2 b3 i H0 H1 H2 H3 Hi. unfold word4. rewrite !Z.lor_spec, !testbit_shl by lia.
  destruct (Z.ltb_spec i 8) as [L|L]; [|destruct (Z.ltb_spec i 16) as [L'|L']; [|destruct (Z.ltb_spec i 24) as [L2|L2]]].
  - rewrite !(Z.testbit_neg_r _ (i - _)) by lia. now rewrite !orb_false_r.
  - rewrite (byte_high b0) by (assumption || lia).
    rewrite (Z.testbit_neg_r _ (i - 16)), (Z.testbit_neg_r _ (i - 24)) by lia. now rewrite !orb_false_r.
  - rewrite (byte_high b0), (byte_high b1) by (assumption || lia).
    rewrite (Z.testbit_neg_r _ (i - 24)) by lia. now rewrite !orb_false_r.
  - rewrite (byte_high b0), (byte_high b1), (byte_high b2) by (assumption || lia). reflexivity.
Qed.

(** The word made of the bytes of a word is that word. *)
Lemma word4_bytes : forall w, is32 w ->
  word4 (byte_of w 0) (byte_of w 8) (byte_of w 16) (byte_of w 24) = w.
Proof.
  intros w Hw. apply word_eq; [apply is32_word4, byte_is_byte|exact Hw|]. intros i Hi.
  rewrite testbit_word4 by (apply byte_is_byte || lia).
  destruct (Z.ltb_spec i 8) as [L|L]; [|destruct (Z.ltb_spec i 16) as [L'|L']; [|destruct (Z.ltb_spec i 24) as [L2|L2]]];
    rewrite testbit_byte_of by lia;
    match goal with |- (?x <? 8) && _ = _ => destruct (Z.ltb_spec x 8); [|lia] end;
    simpl andb; f_equal; lia.
Qed.

(** And the bytes of a word made of four bytes are these bytes. *)
Lemma byte_word4 : forall b0 b1 b2 b3, is_byte b0 -> is_byte b1 -> is_byte b2 -> is_byte b3 ->
  byte_of (word4 b0 b1 b2 b3) 0 = b0 /\ byte_of (word4 b0 b1 b2 b3) 8 = b1 /\
  byte_of (word4 b0 b1 b2 b3) 16 = b2 /\ byte_of (word4 b0 b1 b2 b3) 24 = b3.
Proof.
  intros b0 b1 b2 b3 H0 H1 H2 H3.
  assert (G : forall n b, (n = 0 /\ b = b0) \/ (n = 8 /\ b = b1) \/ (n = 16 /\ b = b2) \/ (n = 24 /\ b = b3) ->
    byte_of (word4 b0 b1 b2 b3) n = b).
  { intros n b Hnb. apply byte_eq; [apply byte_is_byte|
      destruct Hnb as [[_ ->]|[[_ ->]|[[_ ->]|[_ ->]]]]; assumption|].
    intros i Hi. rewrite testbit_byte_of by lia. destruct (Z.ltb_spec i 8); [|lia]. simpl andb.
    rewrite testbit_word4 by (assumption || lia).
    destruct Hnb as [[-> ->]|[[-> ->]|[[-> ->]|[-> ->]]]];
      repeat match goal with |- context[?x <? ?y] => destruct (Z.ltb_spec x y); try lia end; f_equal; lia. }
  repeat split; apply G; tauto.
Qed.
