(** The block functions of DES and Blowfish are inverted by their decryptions. *)
From Verif Require Import Model.Base Model.Libc Model.CryptoTables Model.Crypto Spec.LibcSpec Proof.Tac Proof.WordProof.

Definition both32 (p : pair) : Prop := is32 (fst p) /\ is32 (snd p).

Lemma both32_xor : forall p q, both32 p -> both32 q -> both32 (xor2 p q).
Proof. intros p q [H1 H2] [H3 H4]. split; now apply is32_lxor. Qed.

Lemma xor2_cancel : forall p q, xor2 (xor2 p q) q = p.
Proof. intros [a b] [c d]. unfold xor2. simpl. now rewrite !lxor_cancel. Qed.

(** * The permutations of DES *)

Lemma perm_op_32 : forall n mask a b, 0 <= n -> is32 a -> is32 b -> both32 (perm_op n mask a b).
Proof.
  intros n mask a b Hn Ha Hb. unfold perm_op, both32. simpl fst. simpl snd.
  assert (is32 (Z.land (Z.lxor (Z.shiftr a n) b) mask)).
  { apply is32_land, is32_lxor; [now apply is32_shr|exact Hb]. }
  split; apply is32_lxor; try assumption. apply is32_shl.
Qed.

Lemma shr_shl : forall t n, 0 <= n <= 32 -> 0 <= t < 2 ^ (32 - n) -> Z.shiftr (shl t n) n = t.
Proof.
  intros t n Hn Ht. unfold shl, u32.
  assert (P : 2 ^ 32 = 2 ^ (32 - n) * 2 ^ n) by (rewrite <- Z.pow_add_r by lia; f_equal; lia).
  assert (Q : 0 < 2 ^ n) by (apply Z.pow_pos_nonneg; lia).
  assert (B : 0 <= t * 2 ^ n < 2 ^ 32).
  { split; [apply Z.mul_nonneg_nonneg; lia|]. rewrite P. apply Z.mul_lt_mono_pos_r; lia. }
  rewrite Z.shiftl_mul_pow2 by lia. rewrite Z.mod_small by exact B.
  rewrite Z.shiftr_div_pow2 by lia. apply Z.div_mul. lia.
Qed.

Lemma perm_op_invol : forall n mask a b, 0 <= n <= 32 -> 0 <= mask < 2 ^ (32 - n) ->
  let p := perm_op n mask a b in perm_op n mask (fst p) (snd p) = (a, b).
Proof.
  intros n mask a b Hn Hm. unfold perm_op. simpl fst. simpl snd.
  set (t := Z.land (Z.lxor (Z.shiftr a n) b) mask).
  assert (Ht : 0 <= t < 2 ^ (32 - n)).
  { unfold t. split; [apply Z.land_nonneg; lia|].
    rewrite Z.land_comm. destruct (Z.eq_dec mask 0) as [->|N]; [rewrite Z.land_0_l; lia|].
    assert (L : Z.log2 mask < 32 - n) by (apply Z.log2_lt_pow2; lia).
    destruct (Z.eq_dec (Z.land mask (Z.lxor (Z.shiftr a n) b)) 0) as [E|E]; [rewrite E; lia|].
    assert (P : 0 <= Z.land mask (Z.lxor (Z.shiftr a n) b)) by (apply Z.land_nonneg; lia).
    apply Z.log2_lt_pow2; [lia|].
    destruct (Z_lt_dec (Z.log2 (Z.land mask (Z.lxor (Z.shiftr a n) b))) (32 - n)) as [K|K]; [exact K|exfalso].
    assert (B : Z.testbit (Z.land mask (Z.lxor (Z.shiftr a n) b)) (Z.log2 (Z.land mask (Z.lxor (Z.shiftr a n) b))) = true)
      by (apply Z.bit_log2; lia).
    rewrite Z.land_spec, (Z.bits_above_log2 mask) in B by lia. discriminate B. }
  assert (T : Z.land (Z.lxor (Z.shiftr (Z.lxor a (shl t n)) n) (Z.lxor b t)) mask = t).
  { rewrite Z.shiftr_lxor, shr_shl by assumption.
    rewrite Z.lxor_assoc, (Z.lxor_comm b t), <- (Z.lxor_assoc t t b), Z.lxor_nilpotent, Z.lxor_0_l. reflexivity. }
  rewrite T, !lxor_cancel. reflexivity.
Qed.

(** What [perm_op] gives can be undone. *)
Lemma perm_op_undo : forall n mask a b x y, 0 <= n <= 32 -> 0 <= mask < 2 ^ (32 - n) ->
  perm_op n mask a b = (x, y) -> perm_op n mask x y = (a, b).
Proof.
  intros n mask a b x y Hn Hm E. pose proof (perm_op_invol n mask a b Hn Hm) as H. cbv zeta in H.
  rewrite E in H. exact H.
Qed.

Lemma perm_op_inv32 : forall n mask a b x y, 0 <= n -> is32 a -> is32 b -> perm_op n mask a b = (x, y) ->
  is32 x /\ is32 y.
Proof.
  intros n mask a b x y Hn Ha Hb E. pose proof (perm_op_32 n mask a b Hn Ha Hb) as H. rewrite E in H. exact H.
Qed.

Ltac mask_ok := vm_compute; split; first [discriminate|reflexivity].

(** FP undoes IP and IP undoes FP, when the roles of the two words are exchanged. *)
Lemma fp_ip : forall l r l' r', des_ip l r = (l', r') -> des_fp r' l' = (r, l).
Proof.
  intros l r l' r' E. unfold des_ip in E.
  destruct (perm_op 4 0x0f0f0f0f r l) as [r1 l1] eqn:E1.
  destruct (perm_op 16 0x0000ffff l1 r1) as [l2 r2] eqn:E2.
  destruct (perm_op 2 0x33333333 r2 l2) as [r3 l3] eqn:E3.
  destruct (perm_op 8 0x00ff00ff l3 r3) as [l4 r4] eqn:E4.
  destruct (perm_op 1 0x55555555 r4 l4) as [r5 l5] eqn:E5.
  injection E as <- <-.
  apply perm_op_undo in E1; [|mask_ok|mask_ok].
  apply perm_op_undo in E2; [|mask_ok|mask_ok].
  apply perm_op_undo in E3; [|mask_ok|mask_ok].
  apply perm_op_undo in E4; [|mask_ok|mask_ok].
  apply perm_op_undo in E5; [|mask_ok|mask_ok].
  unfold des_fp. rewrite E5, E4, E3, E2, E1. reflexivity.
Qed.

Lemma ip_fp : forall l r l' r', des_fp l r = (l', r') -> des_ip r' l' = (r, l).
Proof.
  intros l r l' r' E. unfold des_fp in E.
  destruct (perm_op 1 0x55555555 l r) as [l1 r1] eqn:E1.
  destruct (perm_op 8 0x00ff00ff r1 l1) as [r2 l2] eqn:E2.
  destruct (perm_op 2 0x33333333 l2 r2) as [l3 r3] eqn:E3.
  destruct (perm_op 16 0x0000ffff r3 l3) as [r4 l4] eqn:E4.
  destruct (perm_op 4 0x0f0f0f0f l4 r4) as [l5 r5] eqn:E5.
  injection E as <- <-.
  apply perm_op_undo in E1; [|mask_ok|mask_ok].
  apply perm_op_undo in E2; [|mask_ok|mask_ok].
  apply perm_op_undo in E3; [|mask_ok|mask_ok].
  apply perm_op_undo in E4; [|mask_ok|mask_ok].
  apply perm_op_undo in E5; [|mask_ok|mask_ok].
  unfold des_ip. rewrite E5, E4, E3, E2, E1. reflexivity.
Qed.

Lemma ip_32 : forall l r l' r', is32 l -> is32 r -> des_ip l r = (l', r') -> is32 l' /\ is32 r'.
Proof.
  intros l r l' r' Hl Hr E. unfold des_ip in E.
  destruct (perm_op 4 0x0f0f0f0f r l) as [r1 l1] eqn:E1. apply perm_op_inv32 in E1 as [? ?]; [|discriminate|assumption|assumption].
  destruct (perm_op 16 0x0000ffff l1 r1) as [l2 r2] eqn:E2. apply perm_op_inv32 in E2 as [? ?]; [|discriminate|assumption|assumption].
  destruct (perm_op 2 0x33333333 r2 l2) as [r3 l3] eqn:E3. apply perm_op_inv32 in E3 as [? ?]; [|discriminate|assumption|assumption].
  destruct (perm_op 8 0x00ff00ff l3 r3) as [l4 r4] eqn:E4. apply perm_op_inv32 in E4 as [? ?]; [|discriminate|assumption|assumption].
  destruct (perm_op 1 0x55555555 r4 l4) as [r5 l5] eqn:E5. apply perm_op_inv32 in E5 as [? ?]; [|discriminate|assumption|assumption].
  injection E as <- <-. split; assumption.
Qed.

Lemma fp_32 : forall l r l' r', is32 l -> is32 r -> des_fp l r = (l', r') -> is32 l' /\ is32 r'.
Proof.
  intros l r l' r' Hl Hr E. unfold des_fp in E.
  destruct (perm_op 1 0x55555555 l r) as [l1 r1] eqn:E1. apply perm_op_inv32 in E1 as [? ?]; [|discriminate|assumption|assumption].
  destruct (perm_op 8 0x00ff00ff r1 l1) as [r2 l2] eqn:E2. apply perm_op_inv32 in E2 as [? ?]; [|discriminate|assumption|assumption].
  destruct (perm_op 2 0x33333333 l2 r2) as [l3 r3] eqn:E3. apply perm_op_inv32 in E3 as [? ?]; [|discriminate|assumption|assumption].
  destruct (perm_op 16 0x0000ffff r3 l3) as [r4 l4] eqn:E4. apply perm_op_inv32 in E4 as [? ?]; [|discriminate|assumption|assumption].
  destruct (perm_op 4 0x0f0f0f0f l4 r4) as [l5 r5] eqn:E5. apply perm_op_inv32 in E5 as [? ?]; [|discriminate|assumption|assumption].
  injection E as <- <-. split; assumption.
Qed.

(** * The rounds of DES *)

Lemma sptrans_32 : forallb (fun row => forallb (fun w => (0 <=? w) && (w <? 2 ^ 32)) row) sptrans = true.
Proof. vm_compute. reflexivity. Qed.

Lemma spt_32 : forall b i, is32 (spt b i).
Proof.
  intros b i. unfold spt.
  assert (Z32 : is32 0) by (split; [lia|reflexivity]).
  destruct (nth_in_or_default b sptrans []) as [I|E].
  - pose proof sptrans_32 as F. rewrite forallb_forall in F. specialize (F _ I).
    destruct (nth_in_or_default (Z.to_nat i) (nth b sptrans []) 0) as [J|E]; [|rewrite E; exact Z32].
    rewrite forallb_forall in F. specialize (F _ J). apply andb_true_iff in F as [F1 F2].
    split; [now apply Z.leb_le|now apply Z.ltb_lt].
  - rewrite E. destruct (Z.to_nat i); exact Z32.
Qed.

Lemma des_f_32 : forall ks R S, is32 (des_f ks R S).
Proof. intros ks R S. unfold des_f. cbv zeta. repeat apply is32_lxor; apply spt_32. Qed.

Definition swap (p : pair) : pair := (snd p, fst p).

(** Two rounds with the keys in the opposite order, on exchanged words, undo two rounds. *)
Lemma des_two_undo : forall ks i j p, des_two ks j i (swap (des_two ks i j p)) = swap p.
Proof.
  intros ks i j [l r]. unfold des_two, swap. simpl fst. simpl snd. rewrite !lxor_cancel. reflexivity.
Qed.

Lemma des_two_32 : forall ks i j p, both32 p -> both32 (des_two ks i j p).
Proof.
  intros ks i j [l r] [Hl Hr]. unfold des_two, both32. simpl fst in *. simpl snd in *.
  split; apply is32_lxor; try assumption; apply des_f_32.
Qed.

Lemma des_rounds_undo : forall ks p, des_rounds_dec ks (swap (des_rounds_enc ks p)) = swap p.
Proof.
  intros ks p. unfold des_rounds_dec, des_rounds_enc.
  cbn [fold_left].
  change (30 - 4) with 26. change (30 - 6) with 24. change (30 - 0) with 30. change (30 - 2) with 28.
  change (22 - 4) with 18. change (22 - 6) with 16. change (22 - 0) with 22. change (22 - 2) with 20.
  change (14 - 4) with 10. change (14 - 6) with 8. change (14 - 0) with 14. change (14 - 2) with 12.
  change (6 - 4) with 2. change (6 - 6) with 0. change (6 - 0) with 6. change (6 - 2) with 4.
  change (24 + 4) with 28. change (24 + 6) with 30. change (24 + 0) with 24. change (24 + 2) with 26.
  change (16 + 4) with 20. change (16 + 6) with 22. change (16 + 0) with 16. change (16 + 2) with 18.
  change (8 + 4) with 12. change (8 + 6) with 14. change (8 + 0) with 8. change (8 + 2) with 10.
  change (0 + 4) with 4. change (0 + 6) with 6. change (0 + 0) with 0. change (0 + 2) with 2.
  rewrite !des_two_undo. reflexivity.
Qed.

Lemma des_rounds_enc_32 : forall ks p, both32 p -> both32 (des_rounds_enc ks p).
Proof. intros ks p H. unfold des_rounds_enc. cbn [fold_left]. repeat apply des_two_32. exact H. Qed.

Lemma des_rounds_dec_32 : forall ks p, both32 p -> both32 (des_rounds_dec ks p).
Proof. intros ks p H. unfold des_rounds_dec. cbn [fold_left]. repeat apply des_two_32. exact H. Qed.

Lemma des_inverse : forall ks data, both32 data ->
  des_encrypt1 ks false (des_encrypt1 ks true data) = data.
Proof.
  intros ks [d0 d1] [H0 H1]. simpl fst in *. simpl snd in *.
  unfold des_encrypt1 at 2. cbn [fst snd].
  destruct (des_ip d0 d1) as [r l] eqn:EI.
  pose proof (ip_32 _ _ _ _ H0 H1 EI) as [Hr Hl].
  assert (Hp : both32 (rotate l 29, rotate r 29)) by (split; apply is32_rotate; assumption || lia).
  pose proof (des_rounds_enc_32 ks _ Hp) as Hq.
  pose proof (des_rounds_undo ks (rotate l 29, rotate r 29)) as HU.
  destruct (des_rounds_enc ks (rotate l 29, rotate r 29)) as [l2 r2] eqn:ER.
  destruct Hq as [Hl2 Hr2]. cbn [fst snd] in Hl2, Hr2.
  destruct (des_fp (rotate r2 3) (rotate l2 3)) as [r3 l3] eqn:EF.
  unfold des_encrypt1. cbn [fst snd].
  rewrite (ip_fp _ _ _ _ EF).
  rewrite (rotate_inv l2 3 29), (rotate_inv r2 3 29) by (assumption || lia).
  unfold swap in HU. cbn [fst snd] in HU. rewrite HU.
  rewrite (rotate_inv l 29 3), (rotate_inv r 29 3) by (assumption || lia).
  rewrite (fp_ip _ _ _ _ EI). reflexivity.
Qed.

Lemma des_32 : forall ks enc data, both32 data -> both32 (des_encrypt1 ks enc data).
Proof.
  intros ks enc [d0 d1] [H0 H1]. cbn [fst snd] in *. unfold des_encrypt1. cbn [fst snd].
  destruct (des_ip d0 d1) as [r l] eqn:EI.
  pose proof (ip_32 _ _ _ _ H0 H1 EI) as [Hr Hl].
  assert (Hp : both32 (rotate l 29, rotate r 29)) by (split; apply is32_rotate; assumption || lia).
  assert (Hq : both32 (if enc then des_rounds_enc ks (rotate l 29, rotate r 29)
                       else des_rounds_dec ks (rotate l 29, rotate r 29))).
  { destruct enc; [now apply des_rounds_enc_32|now apply des_rounds_dec_32]. }
  destruct (if enc then _ else _) as [l2 r2]. destruct Hq as [Hl2 Hr2]. cbn [fst snd] in Hl2, Hr2.
  destruct (des_fp (rotate r2 3) (rotate l2 3)) as [r3 l3] eqn:EF.
  apply fp_32 in EF as [? ?]; [split; assumption| |]; apply is32_rotate; assumption || lia.
Qed.

(** Encrypting also undoes decrypting. *)
Lemma des_rounds_undo' : forall ks p, des_rounds_enc ks (swap (des_rounds_dec ks p)) = swap p.
Proof.
  intros ks p. unfold des_rounds_dec, des_rounds_enc.
  cbn [fold_left].
  change (30 - 4) with 26. change (30 - 6) with 24. change (30 - 0) with 30. change (30 - 2) with 28.
  change (22 - 4) with 18. change (22 - 6) with 16. change (22 - 0) with 22. change (22 - 2) with 20.
  change (14 - 4) with 10. change (14 - 6) with 8. change (14 - 0) with 14. change (14 - 2) with 12.
  change (6 - 4) with 2. change (6 - 6) with 0. change (6 - 0) with 6. change (6 - 2) with 4.
  change (24 + 4) with 28. change (24 + 6) with 30. change (24 + 0) with 24. change (24 + 2) with 26.
  change (16 + 4) with 20. change (16 + 6) with 22. change (16 + 0) with 16. change (16 + 2) with 18.
  change (8 + 4) with 12. change (8 + 6) with 14. change (8 + 0) with 8. change (8 + 2) with 10.
  change (0 + 4) with 4. change (0 + 6) with 6. change (0 + 0) with 0. change (0 + 2) with 2.
  rewrite !des_two_undo. reflexivity.
Qed.

Lemma des_inverse' : forall ks data, both32 data ->
  des_encrypt1 ks true (des_encrypt1 ks false data) = data.
Proof.
  intros ks [d0 d1] [H0 H1]. simpl fst in *. simpl snd in *.
  unfold des_encrypt1 at 2. cbn [fst snd].
  destruct (des_ip d0 d1) as [r l] eqn:EI.
  pose proof (ip_32 _ _ _ _ H0 H1 EI) as [Hr Hl].
  assert (Hp : both32 (rotate l 29, rotate r 29)) by (split; apply is32_rotate; assumption || lia).
  pose proof (des_rounds_dec_32 ks _ Hp) as Hq.
  pose proof (des_rounds_undo' ks (rotate l 29, rotate r 29)) as HU.
  destruct (des_rounds_dec ks (rotate l 29, rotate r 29)) as [l2 r2] eqn:ER.
  destruct Hq as [Hl2 Hr2]. cbn [fst snd] in Hl2, Hr2.
  destruct (des_fp (rotate r2 3) (rotate l2 3)) as [r3 l3] eqn:EF.
  unfold des_encrypt1. cbn [fst snd].
  rewrite (ip_fp _ _ _ _ EF).
  rewrite (rotate_inv l2 3 29), (rotate_inv r2 3 29) by (assumption || lia).
  unfold swap in HU. cbn [fst snd] in HU. rewrite HU.
  rewrite (rotate_inv l 29 3), (rotate_inv r 29 3) by (assumption || lia).
  rewrite (fp_ip _ _ _ _ EI). reflexivity.
Qed.

(** * Blowfish *)

Definition key32 (key : Z -> Z) : Prop := forall i, is32 (key i).

Lemma land32 : forall x, is32 x -> Z.land x 0xffffffff = x.
Proof.
  intros x H. change 0xffffffff with (Z.ones 32). rewrite Z.land_ones by lia. apply Z.mod_small. exact H.
Qed.

Lemma bf_f_32 : forall key R, is32 (bf_f key R).
Proof. intros. unfold bf_f. cbv zeta. apply is32_u32. Qed.

Lemma bf_two_32 : forall key i j p, key32 key -> both32 p -> both32 (bf_two key i j p).
Proof.
  intros key i j [l r] K [Hl Hr]. unfold bf_two, both32. cbn [fst snd] in *.
  split; repeat apply is32_lxor; try apply bf_f_32; try assumption; apply K.
Qed.

(** Two rounds with the keys in the opposite order, on exchanged words, undo two rounds. *)
Lemma bf_round_undo : forall a k f, Z.lxor (Z.lxor (Z.lxor (Z.lxor a k) f) k) f = a.
Proof.
  intros a k f. rewrite (Z.lxor_assoc (Z.lxor a k) f k), (Z.lxor_comm f k), <- (Z.lxor_assoc (Z.lxor a k) k f).
  now rewrite !lxor_cancel.
Qed.

Lemma bf_two_undo : forall key i j p, bf_two key j i (swap (bf_two key i j p)) = swap p.
Proof.
  intros key i j [l r]. unfold bf_two, swap. cbn [fst snd]. rewrite !bf_round_undo. reflexivity.
Qed.

Lemma bf_encrypt_32 : forall key data, key32 key -> both32 data -> both32 (bf_encrypt key data).
Proof.
  intros key [d0 d1] K [H0 H1]. unfold bf_encrypt. cbn [fst snd] in *.
  match goal with |- context[let '(_, _) := ?t in _] => assert (H : both32 t) end.
  { repeat (apply bf_two_32; [exact K|]). split; cbn [fst snd]; [apply is32_lxor; [assumption|apply K]|assumption]. }
  destruct (bf_two _ _ _ _) as [l r]. destruct H as [Hl Hr]. cbn [fst snd] in *.
  split; cbn [fst snd]; apply is32_land; [apply is32_lxor; [assumption|apply K]|assumption].
Qed.

Lemma bf_decrypt_32 : forall key data, key32 key -> both32 data -> both32 (bf_decrypt key data).
Proof.
  intros key [d0 d1] K [H0 H1]. unfold bf_decrypt. cbn [fst snd] in *.
  match goal with |- context[let '(_, _) := ?t in _] => assert (H : both32 t) end.
  { repeat (apply bf_two_32; [exact K|]). split; cbn [fst snd]; [apply is32_lxor; [assumption|apply K]|assumption]. }
  destruct (bf_two _ _ _ _) as [l r]. destruct H as [Hl Hr]. cbn [fst snd] in *.
  split; cbn [fst snd]; apply is32_land; [apply is32_lxor; [assumption|apply K]|assumption].
Qed.

Definition bf_up (key : Z -> Z) (p : pair) : pair :=
  bf_two key 15 16 (bf_two key 13 14 (bf_two key 11 12 (bf_two key 9 10
    (bf_two key 7 8 (bf_two key 5 6 (bf_two key 3 4 (bf_two key 1 2 p))))))).
Definition bf_down (key : Z -> Z) (p : pair) : pair :=
  bf_two key 2 1 (bf_two key 4 3 (bf_two key 6 5 (bf_two key 8 7
    (bf_two key 10 9 (bf_two key 12 11 (bf_two key 14 13 (bf_two key 16 15 p))))))).

Lemma bf_up_down : forall key p, bf_down key (swap (bf_up key p)) = swap p.
Proof. intros. unfold bf_down, bf_up. rewrite !bf_two_undo. reflexivity. Qed.

Lemma bf_down_up : forall key p, bf_up key (swap (bf_down key p)) = swap p.
Proof. intros. unfold bf_down, bf_up. rewrite !bf_two_undo. reflexivity. Qed.

Lemma bf_up_32 : forall key p, key32 key -> both32 p -> both32 (bf_up key p).
Proof. intros key p K H. unfold bf_up. repeat (apply bf_two_32; [exact K|]). exact H. Qed.

Lemma bf_down_32 : forall key p, key32 key -> both32 p -> both32 (bf_down key p).
Proof. intros key p K H. unfold bf_down. repeat (apply bf_two_32; [exact K|]). exact H. Qed.

Lemma bf_encrypt_eq : forall key d0 d1, bf_encrypt key (d0, d1) =
  let '(l, r) := bf_up key (Z.lxor d0 (key 0), d1) in
  (Z.land (Z.lxor r (key 17)) 0xffffffff, Z.land l 0xffffffff).
Proof. reflexivity. Qed.

Lemma bf_decrypt_eq : forall key d0 d1, bf_decrypt key (d0, d1) =
  let '(l, r) := bf_down key (Z.lxor d0 (key 17), d1) in
  (Z.land (Z.lxor r (key 0)) 0xffffffff, Z.land l 0xffffffff).
Proof. reflexivity. Qed.

Lemma bf_inverse : forall key data, key32 key -> both32 data ->
  bf_decrypt key (bf_encrypt key data) = data.
Proof.
  intros key [d0 d1] K [H0 H1]. cbn [fst snd] in *. rewrite bf_encrypt_eq.
  assert (Hp : both32 (Z.lxor d0 (key 0), d1)) by (split; cbn [fst snd]; [apply is32_lxor; [assumption|apply K]|assumption]).
  pose proof (bf_up_32 key _ K Hp) as Hu. pose proof (bf_up_down key (Z.lxor d0 (key 0), d1)) as U.
  destruct (bf_up key (Z.lxor d0 (key 0), d1)) as [l r]. destruct Hu as [Hl Hr]. unfold swap in U. cbn [fst snd] in *.
  rewrite (land32 l), (land32 (Z.lxor r (key 17))) by (try apply is32_lxor; try assumption; apply K).
  rewrite bf_decrypt_eq, lxor_cancel, U, lxor_cancel, !land32 by assumption. reflexivity.
Qed.

Lemma bf_inverse' : forall key data, key32 key -> both32 data ->
  bf_encrypt key (bf_decrypt key data) = data.
Proof.
  intros key [d0 d1] K [H0 H1]. cbn [fst snd] in *. rewrite bf_decrypt_eq.
  assert (Hp : both32 (Z.lxor d0 (key 17), d1)) by (split; cbn [fst snd]; [apply is32_lxor; [assumption|apply K]|assumption]).
  pose proof (bf_down_32 key _ K Hp) as Hu. pose proof (bf_down_up key (Z.lxor d0 (key 17), d1)) as U.
  destruct (bf_down key (Z.lxor d0 (key 17), d1)) as [l r]. destruct Hu as [Hl Hr]. unfold swap in U. cbn [fst snd] in *.
  rewrite (land32 l), (land32 (Z.lxor r (key 0))) by (try apply is32_lxor; try assumption; apply K).
  rewrite bf_encrypt_eq, lxor_cancel, U, lxor_cancel, !land32 by assumption. reflexivity.
Qed.
