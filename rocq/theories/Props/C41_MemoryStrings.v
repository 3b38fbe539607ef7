(** C41: memory and string primitives.

    True of memcpy, memset and strlen in all variants, and of strcmp and strncmp up to the order of
    characters: bytes above 127 count as negative, where the C standard compares unsigned characters. False of
    memcmp, which compares 32-bit words instead of bytes. *)
From Verif Require Import Model.Base Model.Libc Spec.LibcSpec Proof.Tac Proof.MemFnProof.

(** Both variants of memcpy copy exactly [n] bytes and change no other. *)
Theorem C41_memcpy : forall m to from n, fits to n -> fits from n -> disjoint to from n ->
  copied m (memcpy_i386 m to from n) to from n /\ copied m (memcpy_bytes m to from n) to from n.
Proof.
  intros m to from n T F D. assert (0 <= n) by (destruct T; lia). split; [now apply memcpy_i386_spec|].
  pose proof (copy_bytes_spec (Z.to_nat n) m to from) as C. rewrite Z2Nat.id in C by assumption. now apply C.
Qed.
Print Assumptions C41_memcpy.

(** [n] bytes become [v], converted to a character, and no other changes. *)
Theorem C41_memset : forall m dest v n, fits dest n -> filled m (memset m dest v n) dest (v mod 256) n.
Proof.
  intros m dest v n F. assert (0 <= n) by (destruct F; lia). unfold memset. change (u8 v) with (v mod 256).
  pose proof (set_bytes_spec (Z.to_nat n) m dest (v mod 256)) as C. rewrite Z2Nat.id in C by assumption. now apply C.
Qed.
Print Assumptions C41_memset.

(** All variants of strlen return the index of the first NUL; the one with repne scasb for strings that do not
    fill the whole address space. *)
Theorem C41_strlen : forall m p l fuel, cstring m p l -> (length l < fuel)%nat ->
  strlen fuel m p = Some (Z.of_nat (length l)) /\
  (Z.of_nat (length l) < 2 ^ 32 - 1 -> strlen_i386 fuel m p = Some (Z.of_nat (length l))).
Proof.
  intros m p l fuel (F & _ & Hz & B) Hf. assert (L : Z.of_nat (length l) < 2 ^ 32) by (unfold fits in F; lia). split.
  - unfold strlen. rewrite (strlen_spec l) by (assumption || lia). f_equal.
  - intros L2. unfold strlen_i386. rewrite (scasb_spec l) by (assumption || lia). f_equal. unfold u32.
    replace (- (2 ^ 32 - 1 - 1 - Z.of_nat (length l)) - 1) with (Z.of_nat (length l) + 1 + (-1) * 2 ^ 32) by lia.
    rewrite Z_mod_plus_full. rewrite (Z.mod_small (_ + 1)) by lia. rewrite Z.mod_small by lia. lia.
Qed.
Print Assumptions C41_strlen.

(** strcmp returns, zero exactly for equal strings, and otherwise the sign of the first difference in the order
    of signed characters. The final NUL takes part in the comparison. *)
Theorem C41_strcmp : forall m p1 p2 l1 l2 fuel, cstring m p1 l1 -> cstring m p2 l2 -> (length l1 < fuel)%nat ->
  exists r, strcmp fuel m p1 p2 = Some r /\
  (r = 0 <-> l1 = l2) /\
  (r < 0 <-> before signed_lt (l1 ++ [0]) (l2 ++ [0])) /\
  (0 < r <-> before signed_lt (l2 ++ [0]) (l1 ++ [0])).
Proof.
  intros m p1 p2 l1 l2 fuel (F1 & B1 & Z1 & M1) (F2 & B2 & Z2 & M2) Hf. unfold fits in *.
  destruct (strcmp_spec l1 l2 m p1 p2 0 fuel) as (r & R & C); rewrite ?Z.add_0_r; auto; try lia.
  exists r. split; [exact R|]. destruct (compared_iff _ _ _ C) as (C1 & C2 & C3). split; [|split; assumption].
  rewrite C1. split; [intros E; now apply app_inv_tail in E|congruence].
Qed.
Print Assumptions C41_strcmp.

(** The same for strncmp and the first [size] characters. *)
Theorem C41_strncmp : forall m p1 p2 l1 l2 size, cstring m p1 l1 -> cstring m p2 l2 -> 0 <= size < 2 ^ 32 ->
  let x := firstn (Z.to_nat size) (l1 ++ [0]) in
  let y := firstn (Z.to_nat size) (l2 ++ [0]) in
  let r := strncmp m p1 p2 size in
  (r = 0 <-> x = y) /\ (r < 0 <-> before signed_lt x y) /\ (0 < r <-> before signed_lt y x).
Proof.
  intros m p1 p2 l1 l2 size (F1 & B1 & Z1 & M1) (F2 & B2 & Z2 & M2) Hs x y r. unfold fits in *.
  apply compared_iff. apply strncmp_spec; rewrite ?Z.add_0_r; auto; lia.
Qed.
Print Assumptions C41_strncmp.

(** The C standard compares unsigned characters: not so here. The strings "\200" and "\001". *)
Theorem C41_strcmp_unsigned_refuted : ~ (forall m p1 p2 l1 l2 fuel r, cstring m p1 l1 -> cstring m p2 l2 ->
  strcmp fuel m p1 p2 = Some r -> (r < 0 <-> before Z.lt (l1 ++ [0]) (l2 ++ [0]))).
Proof.
  intros H. set (m := fun a => if a =? 100 then 128 else if a =? 200 then 1 else 0).
  assert (C1 : cstring m 100 [128]).
  { unfold cstring, fits, bytes_at, is_byte. cbn [length app]. split; [lia|]. split; [repeat constructor; lia|].
    split; [intros [C|[]]; discriminate|]. intros [|[|k]] Hk; [reflexivity|reflexivity|lia]. }
  assert (C2 : cstring m 200 [1]).
  { unfold cstring, fits, bytes_at, is_byte. cbn [length app]. split; [lia|]. split; [repeat constructor; lia|].
    split; [intros [C|[]]; discriminate|]. intros [|[|k]] Hk; [reflexivity|reflexivity|lia]. }
  destruct (H m 100 200 [128] [1] 5%nat (-1) C1 C2 eq_refl) as (X & _). specialize (X ltac:(lia)).
  destruct X as ([|x p] & a & b & t1 & t2 & E1 & E2 & L); cbn in E1, E2.
  - injection E1 as E1 _. injection E2 as E2 _. lia.
  - injection E1 as E1 _. injection E2 as E2 _. lia.
Qed.
Print Assumptions C41_strcmp_unsigned_refuted.

(** memcmp: equal ranges may compare different. *)
Theorem C41_memcmp_equal_refuted : ~ (forall m a b n, (forall x, is_byte (m x)) -> fits a n -> fits b n ->
  (forall k, 0 <= k < n -> m (a + k) = m (b + k)) -> memcmp m a b n = 0).
Proof.
  intros H. set (m := fun x => if x =? 101 then 7 else 0).
  specialize (H m 100 200 1). assert (memcmp m 100 200 1 = 0) as X; [|vm_compute in X; discriminate X].
  apply H.
  - intros x. unfold m, is_byte. destruct (x =? 101); lia.
  - unfold fits. lia.
  - unfold fits. lia.
  - intros k Hk. replace k with 0 by lia. reflexivity.
Qed.
Print Assumptions C41_memcmp_equal_refuted.

(** And the sign may be that of a later difference: bytes 1, 2 against 2, 1. *)
Theorem C41_memcmp_sign_refuted : ~ (forall m a b n, (forall x, is_byte (m x)) -> fits a n -> fits b n ->
  forall k, 0 <= k < n -> (forall j, 0 <= j < k -> m (a + j) = m (b + j)) -> m (a + k) < m (b + k) -> memcmp m a b n < 0).
Proof.
  intros H. set (m := fun x => if x =? 100 then 1 else if x =? 101 then 2 else if x =? 200 then 2 else if x =? 201 then 1 else 0).
  assert (memcmp m 100 200 2 < 0) as X; [|vm_compute in X; discriminate X].
  apply (H m 100 200 2) with (k := 0).
  - intros x. unfold m, is_byte. destruct (x =? 100), (x =? 101), (x =? 200), (x =? 201); lia.
  - unfold fits. lia.
  - unfold fits. lia.
  - lia.
  - intros j Hj. lia.
  - reflexivity.
Qed.
Print Assumptions C41_memcmp_sign_refuted.

(** What memcmp does: zero if and only if the first [4 * n] bytes are equal. In particular, zero means that the
    ranges are equal; the converse, and the sign, are missing. *)
Theorem C41_memcmp_partial : forall m a b n, (forall x, is_byte (m x)) -> 0 <= n -> fits a (4 * n) -> fits b (4 * n) ->
  (memcmp m a b n = 0 <-> forall k, 0 <= k < 4 * n -> m (a + k) = m (b + k)).
Proof.
  intros m a b n B Hn A F. unfold memcmp. pose proof (memcmp_zero (Z.to_nat n) m a b B) as C.
  rewrite Z2Nat.id in C by assumption. now apply C.
Qed.
Print Assumptions C41_memcmp_partial.

(** Seven bytes: a long word, a word and a byte; "abc" against "abd". *)
Example C41_demo :
  let m := fun a => if (100 <=? a) && (a <? 110) then a - 3 else if (200 <=? a) && (a <? 202) then a - 103
                    else if a =? 202 then 100 else if a =? 110 then 0 else if a =? 203 then 0 else 9 in
  map (memcpy_i386 m 300 100 7) [299; 300; 301; 302; 303; 304; 305; 306; 307] = [9; 97; 98; 99; 100; 101; 102; 103; 9] /\
  map (memset m 100 (-251) 2) [99; 100; 101; 102] = [9; 5; 5; 99] /\
  strlen 20 m 100 = Some 10 /\ strlen_i386 20 m 100 = Some 10 /\
  strcmp 20 m 100 200 = Some (-1) /\ strncmp m 100 200 2 = 0 /\ strncmp m 200 100 3 = 1.
Proof. vm_compute. repeat split; reflexivity. Qed.
