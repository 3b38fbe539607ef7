(** The two byte orders: a block is its eight bytes. *)
From Verif Require Import Model.Base Model.Libc Model.CryptoTables Model.Crypto Spec.LibcSpec Spec.CryptoSpec
  Proof.Tac Proof.WordProof Proof.CipherProof Proof.CbcProof.

(** Byte number [i] of a block, least or most significant first. *)
Definition bb_le (p : pair) (i : Z) : Z := byte_of (if i <? 4 then fst p else snd p) (8 * (i mod 4)).
Definition bb_be (p : pair) (i : Z) : Z := byte_of (if i <? 4 then fst p else snd p) (8 * (3 - i mod 4)).

Lemma eight : forall (P : Z -> Prop), P 0 -> P 1 -> P 2 -> P 3 -> P 4 -> P 5 -> P 6 -> P 7 ->
  forall i, 0 <= i < 8 -> P i.
Proof.
  intros P H0 H1 H2 H3 H4 H5 H6 H7 i Hi.
  assert (E : i = 0 \/ i = 1 \/ i = 2 \/ i = 3 \/ i = 4 \/ i = 5 \/ i = 6 \/ i = 7) by lia.
  destruct E as [->|[->|[->|[->|[->|[->|[->| ->]]]]]]]; assumption.
Qed.

(** Two blocks with the same bytes are equal. *)
Lemma word_ext : forall a b, is32 a -> is32 b ->
  byte_of a 0 = byte_of b 0 -> byte_of a 8 = byte_of b 8 -> byte_of a 16 = byte_of b 16 ->
  byte_of a 24 = byte_of b 24 -> a = b.
Proof.
  intros a b Ha Hb E0 E1 E2 E3. rewrite <- (word4_bytes a Ha), <- (word4_bytes b Hb). now rewrite E0, E1, E2, E3.
Qed.

Lemma le_ext : forall p q, both32 p -> both32 q -> (forall i, 0 <= i < 8 -> bb_le p i = bb_le q i) -> p = q.
Proof.
  intros [a b] [c d] [Ha Hb] [Hc Hd] H. cbn [fst snd] in *.
  pose proof (H 0 ltac:(lia)) as B0. pose proof (H 1 ltac:(lia)) as B1. pose proof (H 2 ltac:(lia)) as B2.
  pose proof (H 3 ltac:(lia)) as B3. pose proof (H 4 ltac:(lia)) as B4. pose proof (H 5 ltac:(lia)) as B5.
  pose proof (H 6 ltac:(lia)) as B6. pose proof (H 7 ltac:(lia)) as B7.
  f_equal; apply word_ext; assumption.
Qed.

Lemma be_ext : forall p q, both32 p -> both32 q -> (forall i, 0 <= i < 8 -> bb_be p i = bb_be q i) -> p = q.
Proof.
  intros [a b] [c d] [Ha Hb] [Hc Hd] H. cbn [fst snd] in *.
  pose proof (H 0 ltac:(lia)) as B0. pose proof (H 1 ltac:(lia)) as B1. pose proof (H 2 ltac:(lia)) as B2.
  pose proof (H 3 ltac:(lia)) as B3. pose proof (H 4 ltac:(lia)) as B4. pose proof (H 5 ltac:(lia)) as B5.
  pose proof (H 6 ltac:(lia)) as B6. pose proof (H 7 ltac:(lia)) as B7.
  f_equal; apply word_ext; assumption.
Qed.

Lemma c2l_word : forall m a, c2l m a = word4 (m a) (m (u32 (a + 1))) (m (u32 (a + 2))) (m (u32 (a + 3))).
Proof. reflexivity. Qed.

Lemma n2l_word : forall m a, n2l m a = word4 (m (u32 (a + 3))) (m (u32 (a + 2))) (m (u32 (a + 1))) (m a).
Proof.
  intros m a. unfold n2l, word4.
  rewrite (Z.lor_comm _ (m (u32 (a + 3)))), !Z.lor_assoc.
  rewrite <- (Z.lor_assoc _ (shl (m a) 24)), (Z.lor_comm (shl (m a) 24)), Z.lor_assoc.
  rewrite <- (Z.lor_assoc _ (shl (m a) 24)), (Z.lor_comm (shl (m a) 24)), Z.lor_assoc.
  rewrite <- (Z.lor_assoc _ (shl (m (u32 (a + 1))) 16)), (Z.lor_comm (shl (m (u32 (a + 1))) 16)), Z.lor_assoc.
  reflexivity.
Qed.

Lemma get32_le : forall m a, byte_memory m -> both32 (des_get m a).
Proof. intros m a B. split; cbn [fst snd des_get]; rewrite c2l_word; apply is32_word4, B. Qed.

Lemma get32_be : forall m a, byte_memory m -> both32 (bf_get m a).
Proof. intros m a B. split; cbn [fst snd bf_get]; rewrite n2l_word; apply is32_word4, B. Qed.

Ltac addr :=
  repeat match goal with
  | |- context[u32 (?x + ?k)] => lazymatch x with context[u32] => fail | _ => rewrite (u32_step x k) by lia end
  end.

Lemma get_le : forall m a i, byte_memory m -> fits a 8 -> 0 <= i < 8 -> bb_le (des_get m a) i = m (a + i).
Proof.
  intros m a i B F. revert i. unfold fits in F.
  destruct (byte_word4 (m a) (m (u32 (a + 1))) (m (u32 (a + 2))) (m (u32 (a + 3)))) as (A0 & A1 & A2 & A3);
    [apply B|apply B|apply B|apply B|].
  destruct (byte_word4 (m (u32 (a + 4))) (m (u32 (u32 (a + 4) + 1))) (m (u32 (u32 (a + 4) + 2)))
              (m (u32 (u32 (a + 4) + 3)))) as (A4 & A5 & A6 & A7); [apply B|apply B|apply B|apply B|].
  unfold des_get. rewrite !c2l_word.
  apply eight; unfold bb_le; cbn [fst snd].
  - etransitivity; [exact A0|]. f_equal. lia.
  - etransitivity; [exact A1|]. addr. reflexivity.
  - etransitivity; [exact A2|]. addr. reflexivity.
  - etransitivity; [exact A3|]. addr. reflexivity.
  - etransitivity; [exact A4|]. addr. reflexivity.
  - etransitivity; [exact A5|]. addr. f_equal. lia.
  - etransitivity; [exact A6|]. addr. f_equal. lia.
  - etransitivity; [exact A7|]. addr. f_equal. lia.
Qed.

Lemma get_be : forall m a i, byte_memory m -> fits a 8 -> 0 <= i < 8 -> bb_be (bf_get m a) i = m (a + i).
Proof.
  intros m a i B F. revert i. unfold fits in F.
  destruct (byte_word4 (m (u32 (a + 3))) (m (u32 (a + 2))) (m (u32 (a + 1))) (m a)) as (A0 & A1 & A2 & A3);
    [apply B|apply B|apply B|apply B|].
  destruct (byte_word4 (m (u32 (u32 (a + 4) + 3))) (m (u32 (u32 (a + 4) + 2))) (m (u32 (u32 (a + 4) + 1)))
              (m (u32 (a + 4)))) as (A4 & A5 & A6 & A7); [apply B|apply B|apply B|apply B|].
  unfold bf_get. rewrite !n2l_word.
  apply eight; unfold bb_be; cbn [fst snd].
  - etransitivity; [exact A3|]. f_equal. lia.
  - etransitivity; [exact A2|]. addr. reflexivity.
  - etransitivity; [exact A1|]. addr. reflexivity.
  - etransitivity; [exact A0|]. addr. reflexivity.
  - etransitivity; [exact A7|]. addr. reflexivity.
  - etransitivity; [exact A6|]. addr. f_equal. lia.
  - etransitivity; [exact A5|]. addr. f_equal. lia.
  - etransitivity; [exact A4|]. addr. f_equal. lia.
Qed.

(** Eight stores at consecutive addresses. *)
Lemma upd8 : forall (m : mem) (f : Z -> Z) a x,
  upd (upd (upd (upd (upd (upd (upd (upd m a (f 0)) (a + 1) (f 1)) (a + 2) (f 2)) (a + 3) (f 3))
    (a + 4) (f 4)) (a + 5) (f 5)) (a + 6) (f 6)) (a + 7) (f 7) x =
  if (a <=? x) && (x <? a + 8) then f (x - a) else m x.
Proof.
  intros m f a x. unfold upd.
  destruct (Z.leb_spec a x) as [L|L]; simpl andb.
  - destruct (Z.ltb_spec x (a + 8)) as [L'|L']; cbv iota.
    + assert (H : 0 <= x - a < 8) by lia.
      repeat match goal with |- context[x =? ?y] => destruct (Z.eqb_spec x y); [f_equal; lia|] end. lia.
    + repeat match goal with |- context[x =? ?y] => destruct (Z.eqb_spec x y); [lia|] end. reflexivity.
  - repeat match goal with |- context[x =? ?y] => destruct (Z.eqb_spec x y); [lia|] end. reflexivity.
Qed.

Lemma put_le : forall m p a x, fits a 8 ->
  des_put m p a x = if (a <=? x) && (x <? a + 8) then bb_le p (x - a) else m x.
Proof.
  intros m p a x F. unfold fits in F. rewrite <- (upd8 m (bb_le p)). unfold des_put, l2c. addr.
  replace (a + 4 + 1) with (a + 5) by lia. replace (a + 4 + 2) with (a + 6) by lia.
  replace (a + 4 + 3) with (a + 7) by lia. reflexivity.
Qed.

Lemma put_be : forall m p a x, fits a 8 ->
  bf_put m p a x = if (a <=? x) && (x <? a + 8) then bb_be p (x - a) else m x.
Proof.
  intros m p a x F. unfold fits in F. rewrite <- (upd8 m (bb_be p)). unfold bf_put, l2n. addr.
  replace (a + 4 + 1) with (a + 5) by lia. replace (a + 4 + 2) with (a + 6) by lia.
  replace (a + 4 + 3) with (a + 7) by lia. reflexivity.
Qed.

(** * Partial blocks *)

Definition pbyte (m : mem) (a n i : Z) : Z := if i <? n then m (u32 (a + i)) else 0.

Lemma pbyte_byte : forall m a n i, byte_memory m -> is_byte (pbyte m a n i).
Proof. intros m a n i B. unfold pbyte. destruct (i <? n); [apply B|]. split; reflexivity || discriminate. Qed.

Lemma shl0 : forall x, is_byte x -> shl x 0 = x.
Proof.
  intros x H. unfold shl. rewrite Z.shiftl_0_r. unfold u32. apply Z.mod_small.
  apply byte_is32 in H. exact H.
Qed.

Lemma part_pbyte : forall m a n i sh, part m a n i sh = shl (pbyte m a n i) sh.
Proof.
  intros. unfold part, pbyte. destruct (i <? n); [reflexivity|]. unfold shl. rewrite Z.shiftl_0_l. reflexivity.
Qed.

Lemma lor4_rev : forall p0 p1 p2 p3, Z.lor (Z.lor (Z.lor p3 p2) p1) p0 = Z.lor (Z.lor (Z.lor p0 p1) p2) p3.
Proof.
  intros. rewrite (Z.lor_comm p3 p2), (Z.lor_comm _ p1), (Z.lor_comm _ p0), !Z.lor_assoc. reflexivity.
Qed.

Lemma getn_le_words : forall m a n, byte_memory m -> des_getn m a n =
  (word4 (pbyte m a n 0) (pbyte m a n 1) (pbyte m a n 2) (pbyte m a n 3),
   word4 (pbyte m a n 4) (pbyte m a n 5) (pbyte m a n 6) (pbyte m a n 7)).
Proof.
  intros m a n B. unfold des_getn. rewrite !part_pbyte.
  f_equal; (rewrite lor4_rev, shl0; [reflexivity|now apply pbyte_byte]).
Qed.

Lemma getn_be_words : forall m a n, byte_memory m -> bf_getn m a n =
  (word4 (pbyte m a n 3) (pbyte m a n 2) (pbyte m a n 1) (pbyte m a n 0),
   word4 (pbyte m a n 7) (pbyte m a n 6) (pbyte m a n 5) (pbyte m a n 4)).
Proof.
  intros m a n B. unfold bf_getn. rewrite !part_pbyte, !shl0 by now apply pbyte_byte. reflexivity.
Qed.

Lemma pbyte_at : forall m a n i, fits a n -> 0 <= i -> pbyte m a n i = if i <? n then m (a + i) else 0.
Proof.
  intros m a n i F Hi. unfold pbyte. destruct (Z.ltb_spec i n); [|reflexivity].
  unfold fits in F. rewrite u32_step by lia. reflexivity.
Qed.

Lemma getn_le : forall m a n i, byte_memory m -> 0 < n < 8 -> fits a n -> 0 <= i < 8 ->
  bb_le (des_getn m a n) i = if i <? n then m (a + i) else 0.
Proof.
  intros m a n i B Hn F Hi. rewrite <- (pbyte_at m a n i F) by lia. revert i Hi.
  rewrite getn_le_words by exact B.
  destruct (byte_word4 (pbyte m a n 0) (pbyte m a n 1) (pbyte m a n 2) (pbyte m a n 3)) as (A0 & A1 & A2 & A3);
    try now apply pbyte_byte.
  destruct (byte_word4 (pbyte m a n 4) (pbyte m a n 5) (pbyte m a n 6) (pbyte m a n 7)) as (A4 & A5 & A6 & A7);
    try now apply pbyte_byte.
  apply eight; assumption.
Qed.

Lemma getn_be : forall m a n i, byte_memory m -> 0 < n < 8 -> fits a n -> 0 <= i < 8 ->
  bb_be (bf_getn m a n) i = if i <? n then m (a + i) else 0.
Proof.
  intros m a n i B Hn F Hi. rewrite <- (pbyte_at m a n i F) by lia. revert i Hi.
  rewrite getn_be_words by exact B.
  destruct (byte_word4 (pbyte m a n 3) (pbyte m a n 2) (pbyte m a n 1) (pbyte m a n 0)) as (A0 & A1 & A2 & A3);
    try now apply pbyte_byte.
  destruct (byte_word4 (pbyte m a n 7) (pbyte m a n 6) (pbyte m a n 5) (pbyte m a n 4)) as (A4 & A5 & A6 & A7);
    try now apply pbyte_byte.
  apply eight; assumption.
Qed.

(** One store of a partial block. *)
Lemma putb_at : forall a n i w sh m x, fits a n -> 0 <= i ->
  putb a n i w sh m x = if (i <? n) && (x =? a + i) then byte_of w sh else m x.
Proof.
  intros a n i w sh m x F Hi. unfold putb. destruct (Z.ltb_spec i n); [|reflexivity].
  unfold fits in F. rewrite u32_step by lia. reflexivity.
Qed.

Lemma putb8 : forall (m : mem) (f : Z -> Z) a n x, 0 <= n <= 8 ->
  (if (0 <? n) && (x =? a + 0) then f 0 else
   if (1 <? n) && (x =? a + 1) then f 1 else
   if (2 <? n) && (x =? a + 2) then f 2 else
   if (3 <? n) && (x =? a + 3) then f 3 else
   if (4 <? n) && (x =? a + 4) then f 4 else
   if (5 <? n) && (x =? a + 5) then f 5 else
   if (6 <? n) && (x =? a + 6) then f 6 else
   if (7 <? n) && (x =? a + 7) then f 7 else m x) =
  if (a <=? x) && (x <? a + n) then f (x - a) else m x.
Proof.
  intros m f a n x Hn.
  destruct (Z_le_dec a x) as [L|L].
  - destruct (Z_lt_dec x (a + n)) as [L'|L'].
    + replace ((a <=? x) && (x <? a + n)) with true by lia. cbv iota.
      assert (H : 0 <= x - a < 8) by lia.
      assert (G : forall i, 0 <= i < 8 -> x - a = i -> x = a + i) by lia.
      pose proof (G _ H eq_refl) as Ex. remember (x - a) as i eqn:Ei. clear G Ei.
      assert (Li : i < n) by lia. clear L L'.
      assert (E : i = 0 \/ i = 1 \/ i = 2 \/ i = 3 \/ i = 4 \/ i = 5 \/ i = 6 \/ i = 7) by lia.
      destruct E as [E|[E|[E|[E|[E|[E|[E|E]]]]]]]; rewrite E in *;
        repeat match goal with |- context[(?j <? n) && (x =? a + ?j)] =>
          first [replace ((j <? n) && (x =? a + j)) with true by lia
                |replace ((j <? n) && (x =? a + j)) with false by lia]; cbv iota end; reflexivity.
    + replace ((a <=? x) && (x <? a + n)) with false by lia. cbv iota.
      repeat match goal with |- context[(?j <? n) && (x =? a + ?j)] =>
        replace ((j <? n) && (x =? a + j)) with false by lia; cbv iota end. reflexivity.
  - replace ((a <=? x) && (x <? a + n)) with false by lia. cbv iota.
    repeat match goal with |- context[(?j <? n) && (x =? a + ?j)] =>
      replace ((j <? n) && (x =? a + j)) with false by lia; cbv iota end. reflexivity.
Qed.

Lemma putn_le : forall m p a n x, 0 < n < 8 -> fits a n ->
  des_putn m p a n x = if (a <=? x) && (x <? a + n) then bb_le p (x - a) else m x.
Proof.
  intros m p a n x Hn F. unfold des_putn. rewrite !putb_at by (assumption || lia).
  rewrite <- (putb8 m (bb_le p)) by lia. reflexivity.
Qed.

Lemma putn_be : forall m p a n x, 0 < n < 8 -> fits a n ->
  bf_putn m p a n x = if (a <=? x) && (x <? a + n) then bb_be p (x - a) else m x.
Proof.
  intros m p a n x Hn F. unfold bf_putn. rewrite !putb_at by (assumption || lia).
  rewrite <- (putb8 m (bb_be p)) by lia. reflexivity.
Qed.

Lemma codec_le : codec bb_le des_get des_put des_getn des_putn.
Proof.
  constructor.
  - intros. apply byte_is_byte.
  - exact le_ext.
  - exact get32_le.
  - exact get_le.
  - exact put_le.
  - intros m a n B Hn. rewrite getn_le_words by exact B. split; apply is32_word4; now apply pbyte_byte.
  - exact getn_le.
  - exact putn_le.
Qed.

Lemma codec_be : codec bb_be bf_get bf_put bf_getn bf_putn.
Proof.
  constructor.
  - intros. apply byte_is_byte.
  - exact be_ext.
  - exact get32_be.
  - exact get_be.
  - exact put_be.
  - intros m a n B Hn. rewrite getn_be_words by exact B. split; apply is32_word4; now apply pbyte_byte.
  - exact getn_be.
  - exact putn_be.
Qed.
