(** The permutations and the key schedule of DES are linear over bits, so they are known by their values on single
    bits, and those can be computed. *)
From Verif Require Import Model.Base Model.Libc Model.CryptoTables Model.Crypto Spec.DesSpec Proof.Tac Proof.WordProof Proof.CipherProof.

(** * Lists of bits *)

Lemma xorl_length : forall a b, length a = length b -> length (xorl a b) = length a.
Proof. induction a as [|x a IH]; intros [|y b] H; cbn in *; try lia. now rewrite IH by lia. Qed.

Lemma xorl_nth : forall a b k, length a = length b -> nth k (xorl a b) false = xorb (nth k a false) (nth k b false).
Proof.
  induction a as [|x a IH]; intros [|y b] [|k] H; cbn in *; try lia; try reflexivity. now apply IH; lia.
Qed.

Lemma xorl_map : forall (A : Type) (f g : A -> bool) l, xorl (map f l) (map g l) = map (fun i => xorb (f i) (g i)) l.
Proof. induction l as [|x l IH]; cbn; [reflexivity|]. now rewrite IH. Qed.

Lemma xorl_app : forall a a' b b', length a = length a' -> xorl (a ++ b) (a' ++ b') = xorl a a' ++ xorl b b'.
Proof. induction a as [|x a IH]; intros [|y a'] b b' H; cbn in *; try lia; [reflexivity|]. now rewrite IH by lia. Qed.

Lemma xorl_firstn : forall n a b, firstn n (xorl a b) = xorl (firstn n a) (firstn n b).
Proof. induction n as [|n IH]; intros [|x a] [|y b]; cbn; try reflexivity. now rewrite IH. Qed.

Lemma xorl_skipn : forall n a b, length a = length b -> skipn n (xorl a b) = xorl (skipn n a) (skipn n b).
Proof. induction n as [|n IH]; intros [|x a] [|y b] H; cbn in *; try lia; try reflexivity. now apply IH; lia. Qed.

Lemma select_xorl : forall t a b, length a = length b -> select t (xorl a b) = xorl (select t a) (select t b).
Proof. intros t a b H. unfold select. rewrite xorl_map. apply map_ext. intros k. now apply xorl_nth. Qed.

Lemma select_length : forall t a, length (select t a) = length t.
Proof. intros. apply map_length. Qed.

Fixpoint eql (a b : bits) : bool := match a, b with [], [] => true | x :: a, y :: b => Bool.eqb x y && eql a b | _, _ => false end.
Lemma eql_eq : forall a b, eql a b = true -> a = b.
Proof.
  induction a as [|x a IH]; intros [|y b] H; cbn in H; try discriminate; [reflexivity|].
  apply andb_prop in H as [H1 H2]. apply eqb_prop in H1. subst. now rewrite (IH b H2).
Qed.

(** * Linear functions of numbers *)

Definition linear (n : Z) (F : Z -> bits) : Prop :=
  forall x y, 0 <= x < 2 ^ n -> 0 <= y < 2 ^ n -> F (Z.lxor x y) = xorl (F x) (F y).

(** A number below 2^(n+1) is one below 2^n, with or without bit n. *)
Lemma top_bit : forall n z, 0 <= n -> 0 <= z < 2 ^ (n + 1) -> 2 ^ n <= z -> 0 <= z - 2 ^ n < 2 ^ n /\ z = Z.lxor (z - 2 ^ n) (2 ^ n).
Proof.
  intros n z Hn Hz L. rewrite Z.pow_add_r in Hz by lia. change (2 ^ 1) with 2 in Hz. split; [lia|].
  rewrite <- Z.add_nocarry_lxor; [lia|]. apply Z.bits_inj'. intros i Hi. rewrite Z.land_spec, Z.bits_0.
  destruct (Z.eq_dec i n) as [E|N].
  - subst i. rewrite <- (Z.mod_small (z - 2 ^ n) (2 ^ n)) by lia. now rewrite Z.mod_pow2_bits_high by lia.
  - rewrite Z.pow2_bits_false by lia. apply andb_false_r.
Qed.

Lemma linear_agree : forall N F G, linear N F -> linear N G ->
  forall k, Z.of_nat k <= N -> F 0 = G 0 -> forallb (fun i => eql (F (2 ^ Z.of_nat i)) (G (2 ^ Z.of_nat i))) (seq 0 k) = true ->
  forall z, 0 <= z < 2 ^ Z.of_nat k -> F z = G z.
Proof.
  intros N F G LF LG. induction k as [|k IH]; intros Hk E0 B z Hz.
  - change (2 ^ Z.of_nat 0) with 1 in Hz. replace z with 0 by lia. exact E0.
  - rewrite seq_S, forallb_app in B. apply andb_prop in B as [B1 B2]. cbn [forallb plus] in B2. rewrite andb_true_r in B2. apply eql_eq in B2.
    assert (P : 2 ^ Z.of_nat k < 2 ^ N) by (apply Z.pow_lt_mono_r; lia).
    destruct (Z_lt_dec z (2 ^ Z.of_nat k)) as [L|L]; [apply IH; [lia|exact E0|exact B1|lia]|].
    replace (Z.of_nat (Datatypes.S k)) with (Z.of_nat k + 1) in Hz by lia.
    destruct (top_bit (Z.of_nat k) z ltac:(lia) Hz ltac:(lia)) as [R X]. rewrite X.
    rewrite LF, LG by lia. rewrite (IH ltac:(lia) E0 B1 (z - 2 ^ Z.of_nat k) R). now rewrite B2.
Qed.

(** * The operations used by the code are linear *)

Lemma xor4 : forall a b c d, Z.lxor (Z.lxor a b) (Z.lxor c d) = Z.lxor (Z.lxor a c) (Z.lxor b d).
Proof. intros. rewrite !Z.lxor_assoc. f_equal. rewrite <- !Z.lxor_assoc. f_equal. apply Z.lxor_comm. Qed.

Lemma land_lxor : forall a b m, Z.land (Z.lxor a b) m = Z.lxor (Z.land a m) (Z.land b m).
Proof. intros. apply Z.bits_inj'. intros i Hi. rewrite !Z.land_spec, !Z.lxor_spec, !Z.land_spec. now destruct (Z.testbit a i), (Z.testbit b i), (Z.testbit m i). Qed.

Lemma u32_lxor : forall a b, u32 (Z.lxor a b) = Z.lxor (u32 a) (u32 b).
Proof.
  intros. apply word_eq; [apply is32_u32|apply is32_lxor; apply is32_u32|].
  intros i Hi. rewrite Z.lxor_spec, !testbit_u32 by lia. apply Z.lxor_spec.
Qed.

Lemma shl_lxor : forall a b n, shl (Z.lxor a b) n = Z.lxor (shl a n) (shl b n).
Proof. intros. unfold shl. rewrite Z.shiftl_lxor. apply u32_lxor. Qed.

Lemma rotate_lxor : forall a b n, is32 a -> is32 b -> 0 < n < 32 -> rotate (Z.lxor a b) n = Z.lxor (rotate a n) (rotate b n).
Proof.
  intros a b n Ha Hb Hn. apply word_eq; [apply is32_rotate; [lia|now apply is32_lxor]|apply is32_lxor; apply is32_rotate; lia || assumption|].
  intros i Hi. rewrite Z.lxor_spec, !testbit_rotate by (assumption || lia || now apply is32_lxor). apply Z.lxor_spec.
Qed.

Lemma perm_op_lxor : forall n mask a b a' b',
  perm_op n mask (Z.lxor a a') (Z.lxor b b') = xor2 (perm_op n mask a b) (perm_op n mask a' b').
Proof.
  intros. unfold perm_op, xor2. cbn [fst snd]. rewrite Z.shiftr_lxor, (xor4 (Z.shiftr a n)), land_lxor, shl_lxor.
  now rewrite (xor4 a a'), (xor4 b b').
Qed.

Lemma hperm_op_lxor : forall n mask a b, hperm_op n mask (Z.lxor a b) = Z.lxor (hperm_op n mask a) (hperm_op n mask b).
Proof.
  intros. unfold hperm_op. rewrite shl_lxor, (xor4 (shl a (16 - n))), land_lxor, Z.shiftr_lxor, (xor4 a b). apply xor4.
Qed.

Lemma des_ip_lxor : forall a b a' b', des_ip (Z.lxor a a') (Z.lxor b b') = xor2 (des_ip a b) (des_ip a' b').
Proof.
  intros. unfold des_ip.
  repeat (rewrite perm_op_lxor; match goal with |- context[xor2 ?p ?q] => destruct p, q end; unfold xor2 at 1; cbn [fst snd]). reflexivity.
Qed.

Lemma des_fp_lxor : forall a b a' b', des_fp (Z.lxor a a') (Z.lxor b b') = xor2 (des_fp a b) (des_fp a' b').
Proof.
  intros. unfold des_fp.
  repeat (rewrite perm_op_lxor; match goal with |- context[xor2 ?p ?q] => destruct p, q end; unfold xor2 at 1; cbn [fst snd]). reflexivity.
Qed.

(** Disjunction of numbers with different bits. *)
Definition within (a m : Z) : Prop := forall i, 0 <= i -> Z.testbit a i = true -> Z.testbit m i = true.
Lemma lor_lxor : forall a b m n, within a m -> within b n -> Z.land m n = 0 -> Z.lor a b = Z.lxor a b.
Proof.
  intros a b m n A B D. apply Z.bits_inj'. intros i Hi. rewrite Z.lor_spec, Z.lxor_spec.
  destruct (Z.testbit a i) eqn:Ea, (Z.testbit b i) eqn:Eb; try reflexivity.
  assert (X : Z.testbit (Z.land m n) i = true) by (rewrite Z.land_spec, (A i Hi Ea), (B i Hi Eb); reflexivity).
  rewrite D, Z.bits_0 in X. discriminate X.
Qed.
Lemma within_land : forall a m, within (Z.land a m) m.
Proof. intros a m i Hi H. rewrite Z.land_spec in H. now apply andb_prop in H. Qed.
Lemma within_shr : forall a m n, 0 <= n -> within a m -> within (Z.shiftr a n) (Z.shiftr m n).
Proof. intros a m n Hn H i Hi. rewrite !Z.shiftr_spec by lia. apply H. lia. Qed.
Lemma within_shl : forall a m n, 0 <= n -> within a m -> within (shl a n) (shl m n).
Proof.
  intros a m n Hn H i Hi X. destruct (Z_lt_dec i 32) as [L|L].
  - rewrite testbit_shl in * by lia. destruct (Z_lt_dec (i - n) 0); [rewrite Z.testbit_neg_r in X by lia; discriminate X|]. apply H; [lia|exact X].
  - rewrite is32_high in X by (apply is32_shl || lia). discriminate X.
Qed.
Lemma within_lor : forall a b m n, within a m -> within b n -> within (Z.lor a b) (Z.lor m n).
Proof. intros a b m n A B i Hi. rewrite !Z.lor_spec. intros H. apply orb_prop in H as [H|H]; [rewrite (A i Hi H)|rewrite (B i Hi H)]; [reflexivity|apply orb_true_r]. Qed.
Lemma within_lxor : forall a b m n, within a m -> within b n -> within (Z.lxor a b) (Z.lor m n).
Proof.
  intros a b m n A B i Hi. rewrite Z.lor_spec, Z.lxor_spec. destruct (Z.testbit a i) eqn:Ea; [rewrite (A i Hi Ea); reflexivity|].
  rewrite xorb_false_l. intros H. rewrite (B i Hi H). apply orb_true_r.
Qed.
