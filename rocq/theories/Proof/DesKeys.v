(** The key schedule of the code is that of the standard. *)
From Verif Require Import Model.Base Model.Libc Model.CryptoTables Model.Crypto Spec.DesSpec Proof.Tac Proof.WordProof Proof.CipherProof Proof.DesLinear.

Lemma within_of_land : forall a m, Z.land a m = a -> within a m.
Proof. intros a m H i Hi X. rewrite <- H, Z.land_spec in X. now apply andb_prop in X. Qed.

Lemma within_bound : forall a n, 0 <= n -> 0 <= a < 2 ^ n -> within a (Z.ones n).
Proof. intros a n Hn Ha. apply within_of_land. rewrite Z.land_ones by lia. apply Z.mod_small. exact Ha. Qed.

(** * First permutation *)
Definition pc1_tail (c d : Z) : Z :=
  Z.lor (Z.lor (Z.lor (shl (Z.land d 0x000000ff) 16) (Z.land d 0x0000ff00)) (Z.shiftr (Z.land d 0x00ff0000) 16)) (Z.shiftr (Z.land c 0xf0000000) 4).
Lemma pc1_tail_xor : forall c d, pc1_tail c d =
  Z.lxor (Z.lxor (Z.lxor (shl (Z.land d 0x000000ff) 16) (Z.land d 0x0000ff00)) (Z.shiftr (Z.land d 0x00ff0000) 16)) (Z.shiftr (Z.land c 0xf0000000) 4).
Proof.
  intros c d. unfold pc1_tail.
  pose proof (within_shl (Z.land d 0x000000ff) 0x000000ff 16 ltac:(lia) (within_land d _)) as W1.
  pose proof (within_land d 0x0000ff00) as W2.
  pose proof (within_shr (Z.land d 0x00ff0000) 0x00ff0000 16 ltac:(lia) (within_land d _)) as W3.
  pose proof (within_shr (Z.land c 0xf0000000) 0xf0000000 4 ltac:(lia) (within_land c _)) as W4.
  rewrite (lor_lxor _ _ _ _ W1 W2) by reflexivity.
  pose proof (within_lxor _ _ _ _ W1 W2) as W12.
  rewrite (lor_lxor _ _ _ _ W12 W3) by reflexivity.
  pose proof (within_lxor _ _ _ _ W12 W3) as W123.
  now rewrite (lor_lxor _ _ _ _ W123 W4) by reflexivity.
Qed.
Lemma pc1_tail_lxor : forall c d c' d', pc1_tail (Z.lxor c c') (Z.lxor d d') = Z.lxor (pc1_tail c d) (pc1_tail c' d').
Proof.
  intros. rewrite !pc1_tail_xor, !land_lxor, shl_lxor, !Z.shiftr_lxor. rewrite (xor4 (shl _ _)). rewrite (xor4 (Z.lxor (shl _ _) _)).
  apply xor4.
Qed.

Lemma des_pc1_eq : forall c d, des_pc1 c d =
  let '(d, c) := perm_op 4 0x0f0f0f0f d c in
  let c := hperm_op (-2) 0xcccc0000 c in
  let d := hperm_op (-2) 0xcccc0000 d in
  let '(d, c) := perm_op 1 0x55555555 d c in
  let '(c, d) := perm_op 8 0x00ff00ff c d in
  let '(d, c) := perm_op 1 0x55555555 d c in
  (Z.land c 0x0fffffff, pc1_tail c d).
Proof. reflexivity. Qed.

Lemma des_pc1_lxor : forall c d c' d', des_pc1 (Z.lxor c c') (Z.lxor d d') = xor2 (des_pc1 c d) (des_pc1 c' d').
Proof.
  intros. rewrite !des_pc1_eq.
  rewrite perm_op_lxor. destruct (perm_op 4 252645135 d c), (perm_op 4 252645135 d' c'). unfold xor2 at 1. cbn [fst snd].
  rewrite !hperm_op_lxor.
  do 3 (rewrite perm_op_lxor; match goal with |- context[xor2 ?p ?q] => destruct p, q end; unfold xor2 at 1; cbn [fst snd]).
  unfold xor2. cbn [fst snd]. now rewrite land_lxor, pc1_tail_lxor.
Qed.

Definition is28 (x : Z) : Prop := 0 <= x < 2 ^ 28.
Lemma land28 : forall x, is28 (Z.land x 0x0fffffff).
Proof. intros x. change 0x0fffffff with (Z.ones 28). rewrite Z.land_ones by lia. apply Z.mod_pos_bound. reflexivity. Qed.

Lemma within28 : forall a, within a (Z.ones 28) -> 0 <= a -> is28 a.
Proof.
  intros a H Ha. assert (E : Z.land a (Z.ones 28) = a).
  { apply Z.bits_inj'. intros i Hi. rewrite Z.land_spec. destruct (Z.testbit a i) eqn:E; [rewrite (H i Hi E); reflexivity|reflexivity]. }
  rewrite <- E, Z.land_ones by lia. apply Z.mod_pos_bound. reflexivity.
Qed.

Lemma des_pc1_28 : forall c d, is32 c -> is32 d -> is28 (fst (des_pc1 c d)) /\ is28 (snd (des_pc1 c d)).
Proof.
  intros c d Hc Hd. rewrite des_pc1_eq. cbv zeta.
  pose proof (perm_op_32 4 252645135 d c ltac:(lia) Hd Hc) as B1. destruct (perm_op 4 252645135 d c) as [d1 c1]. destruct B1 as [B1 B2]. cbn [fst snd] in B1, B2.
  assert (H32 : forall x, is32 x -> is32 (hperm_op (-2) 0xcccc0000 x)).
  { intros x Hx. unfold hperm_op. apply is32_lxor; [apply is32_lxor; [exact Hx|]|apply is32_shr; [lia|]]; apply is32_land, is32_lxor; solve [apply is32_shl|exact Hx]. }
  pose proof (perm_op_32 1 1431655765 _ _ ltac:(lia) (H32 d1 B1) (H32 c1 B2)) as B3.
  destruct (perm_op 1 1431655765 (hperm_op (-2) 3435921408 d1) (hperm_op (-2) 3435921408 c1)) as [d2 c2]. destruct B3 as [B3 B4]. cbn [fst snd] in B3, B4.
  pose proof (perm_op_32 8 16711935 _ _ ltac:(lia) B4 B3) as B5. destruct (perm_op 8 16711935 c2 d2) as [c3 d3]. destruct B5 as [B5 B6]. cbn [fst snd] in B5, B6.
  pose proof (perm_op_32 1 1431655765 _ _ ltac:(lia) B6 B5) as B7. destruct (perm_op 1 1431655765 d3 c3) as [d4 c4]. destruct B7 as [B7 B8]. cbn [fst snd] in *.
  split; [apply land28|]. apply within28.
  - intros i Hi X. pose proof (within_shl (Z.land d4 0x000000ff) 0x000000ff 16 ltac:(lia) (within_land d4 _)) as W1.
    pose proof (within_land d4 0x0000ff00) as W2.
    pose proof (within_shr (Z.land d4 0x00ff0000) 0x00ff0000 16 ltac:(lia) (within_land d4 _)) as W3.
    pose proof (within_shr (Z.land c4 0xf0000000) 0xf0000000 4 ltac:(lia) (within_land c4 _)) as W4.
    exact (within_lor _ _ _ _ (within_lor _ _ _ _ (within_lor _ _ _ _ W1 W2) W3) W4 i Hi X).
  - unfold pc1_tail. apply Z.lor_nonneg; split; [apply Z.lor_nonneg; split; [apply Z.lor_nonneg; split|]|].
    + apply (is32_shl (Z.land d4 255) 16).
    + apply Z.land_nonneg; right; lia.
    + apply Z.shiftr_nonneg, Z.land_nonneg; right; lia.
    + apply Z.shiftr_nonneg, Z.land_nonneg; right; lia.
Qed.

(** * Rotations *)
Lemma des_shift_28 : forall two c, is28 (des_shift two c).
Proof. intros. apply land28. Qed.

Lemma des_shift_lxor : forall two c c', is28 c -> is28 c' -> des_shift two (Z.lxor c c') = Z.lxor (des_shift two c) (des_shift two c').
Proof.
  intros two c c' Hc Hc'.
  assert (X28 : is28 (Z.lxor c c')).
  { apply within28; [|apply Z.lxor_nonneg; unfold is28 in *; lia]. intros i Hi H.
    pose proof (within_lxor _ _ _ _ (within_bound c 28 ltac:(lia) Hc) (within_bound c' 28 ltac:(lia) Hc') i Hi H) as Y. rewrite Z.lor_diag in Y. exact Y. }
  assert (E : forall x, is28 x -> des_shift two x =
    Z.land (if two then Z.lxor (Z.shiftr x 2) (shl x 26) else Z.lxor (Z.shiftr x 1) (shl x 27)) 0x0fffffff).
  { intros x Hx. pose proof (within_bound x 28 ltac:(lia) Hx) as W. unfold des_shift. destruct two; f_equal.
    - eapply lor_lxor; [apply within_shr; [lia|exact W]|apply within_shl; [lia|exact W]|vm_compute; reflexivity].
    - eapply lor_lxor; [apply within_shr; [lia|exact W]|apply within_shl; [lia|exact W]|vm_compute; reflexivity]. }
  rewrite !E by assumption. rewrite <- land_lxor. f_equal. destruct two; rewrite Z.shiftr_lxor, shl_lxor; apply xor4.
Qed.

(** * Second permutation *)
Definition skb_mask (b : nat) : Z := fold_right Z.lor 0 (nth b skb []).

Lemma skb_linear : forallb (fun b => forallb (fun x => forallb (fun y => skbt b (Z.lxor (Z.of_nat x) (Z.of_nat y)) =? Z.lxor (skbt b (Z.of_nat x)) (skbt b (Z.of_nat y))) (seq 0 64)) (seq 0 64)) (seq 0 8) = true.
Proof. vm_compute. reflexivity. Qed.
Lemma skb_within : forallb (fun b => forallb (fun x => (Z.land (skbt b (Z.of_nat x)) (skb_mask b) =? skbt b (Z.of_nat x)) && (0 <=? skbt b (Z.of_nat x)) && (skbt b (Z.of_nat x) <? 2 ^ 32)) (seq 0 64)) (seq 0 8) = true.
Proof. vm_compute. reflexivity. Qed.

Definition six (x : Z) : Prop := 0 <= x < 64.
Lemma skbt_lxor : forall b x y, (b < 8)%nat -> six x -> six y -> skbt b (Z.lxor x y) = Z.lxor (skbt b x) (skbt b y).
Proof.
  intros b x y Hb Hx Hy. pose proof skb_linear as T. rewrite forallb_forall in T. specialize (T b ltac:(apply in_seq; lia)).
  rewrite forallb_forall in T. specialize (T (Z.to_nat x) ltac:(apply in_seq; unfold six in *; lia)).
  rewrite forallb_forall in T. specialize (T (Z.to_nat y) ltac:(apply in_seq; unfold six in *; lia)).
  rewrite !Z2Nat.id in T by (unfold six in *; lia). now apply Z.eqb_eq in T.
Qed.
Lemma skbt_within : forall b x, (b < 8)%nat -> six x -> within (skbt b x) (skb_mask b) /\ is32 (skbt b x).
Proof.
  intros b x Hb Hx. pose proof skb_within as T. rewrite forallb_forall in T. specialize (T b ltac:(apply in_seq; lia)).
  rewrite forallb_forall in T. specialize (T (Z.to_nat x) ltac:(apply in_seq; unfold six in *; lia)).
  rewrite !Z2Nat.id in T by (unfold six in *; lia).
  apply andb_prop in T as [T T3]. apply andb_prop in T as [T1 T2]. apply Z.eqb_eq in T1. apply Z.leb_le in T2. apply Z.ltb_lt in T3.
  split; [now apply within_of_land|split; assumption].
Qed.

(** The index expressions. *)
Definition ix0 (c : Z) := Z.land c 0x3f.
Definition ix1 (c : Z) := Z.lor (Z.land (Z.shiftr c 6) 0x03) (Z.land (Z.shiftr c 7) 0x3c).
Definition ix2 (c : Z) := Z.lor (Z.land (Z.shiftr c 13) 0x0f) (Z.land (Z.shiftr c 14) 0x30).
Definition ix3 (c : Z) := Z.lor (Z.lor (Z.land (Z.shiftr c 20) 0x01) (Z.land (Z.shiftr c 21) 0x06)) (Z.land (Z.shiftr c 22) 0x38).
Definition ix5 (d : Z) := Z.lor (Z.land (Z.shiftr d 7) 0x03) (Z.land (Z.shiftr d 8) 0x3c).
Definition ix6 (d : Z) := Z.land (Z.shiftr d 15) 0x3f.
Definition ix7 (d : Z) := Z.lor (Z.land (Z.shiftr d 21) 0x0f) (Z.land (Z.shiftr d 22) 0x30).

Definition good_index (f : Z -> Z) : Prop := (forall x, six (f x)) /\ forall x y, f (Z.lxor x y) = Z.lxor (f x) (f y).

Lemma within_six : forall a, within a 63 -> 0 <= a -> six a.
Proof.
  intros a H Ha. assert (E : Z.land a (Z.ones 6) = a).
  { apply Z.bits_inj'. intros i Hi. rewrite Z.land_spec. destruct (Z.testbit a i) eqn:E; [|reflexivity]. change (Z.ones 6) with 63. rewrite (H i Hi E). reflexivity. }
  rewrite <- E, Z.land_ones by lia. apply Z.mod_pos_bound. reflexivity.
Qed.

Lemma good_one : forall n m, 0 <= m -> within m 63 -> good_index (fun x => Z.land (Z.shiftr x n) m).
Proof.
  intros n m Hm W. split.
  - intros x. apply within_six; [|apply Z.land_nonneg; right; exact Hm]. intros i Hi H. apply W; [exact Hi|]. exact (within_land _ _ i Hi H).
  - intros x y. now rewrite Z.shiftr_lxor, land_lxor.
Qed.

Lemma good_two : forall n m n' m', 0 <= m -> 0 <= m' -> within (Z.lor m m') 63 -> Z.land m m' = 0 ->
  good_index (fun x => Z.lor (Z.land (Z.shiftr x n) m) (Z.land (Z.shiftr x n') m')).
Proof.
  intros n m n' m' Hm Hm' W D. split.
  - intros x. apply within_six.
    + intros i Hi H. apply W; [exact Hi|]. exact (within_lor _ _ _ _ (within_land _ m) (within_land _ m') i Hi H).
    + apply Z.lor_nonneg; split; apply Z.land_nonneg; right; assumption.
  - intros x y. rewrite !(lor_lxor _ _ _ _ (within_land _ m) (within_land _ m') D). rewrite !Z.shiftr_lxor, !land_lxor. apply xor4.
Qed.

Lemma within_c : forall m, Z.land m 63 = m -> within m 63. Proof. intros m H. exact (within_of_land m 63 H). Qed.

Lemma good0 : good_index ix0.
Proof.
  split; [intros x|intros x y; apply land_lxor]. unfold ix0. apply within_six; [apply within_land|apply Z.land_nonneg; right; lia].
Qed.
Lemma good1 : good_index ix1. Proof. apply good_two; [lia|lia|apply within_c; reflexivity|reflexivity]. Qed.
Lemma good2 : good_index ix2. Proof. apply good_two; [lia|lia|apply within_c; reflexivity|reflexivity]. Qed.
Lemma good3 : good_index ix3.
Proof.
  pose proof (good_two 20 0x01 21 0x06 ltac:(lia) ltac:(lia) ltac:(apply within_c; reflexivity) eq_refl) as [A1 A2].
  assert (W : forall x, within (Z.lor (Z.land (Z.shiftr x 20) 0x01) (Z.land (Z.shiftr x 21) 0x06)) 7).
  { intros x. exact (within_lor _ _ _ _ (within_land _ 1) (within_land _ 6)). }
  split.
  - intros x. apply within_six; [|apply Z.lor_nonneg; split; [apply (A1 x)|apply Z.land_nonneg; right; lia]].
    exact (within_lor _ _ _ _ (W x) (within_land (Z.shiftr x 22) 0x38)).
  - intros x y. unfold ix3. rewrite !(lor_lxor _ _ _ _ (W _) (within_land _ 0x38) eq_refl). rewrite A2, Z.shiftr_lxor, land_lxor. apply xor4.
Qed.
Lemma good5 : good_index ix5. Proof. apply good_two; [lia|lia|apply within_c; reflexivity|reflexivity]. Qed.
Lemma good6 : good_index ix6. Proof. apply good_one; [lia|apply within_c; reflexivity]. Qed.
Lemma good7 : good_index ix7. Proof. apply good_two; [lia|lia|apply within_c; reflexivity|reflexivity]. Qed.

Section Four.
Variables (b0 b1 b2 b3 : nat) (f0 f1 f2 f3 : Z -> Z).
Hypothesis H0 : good_index f0. Hypothesis H1 : good_index f1. Hypothesis H2 : good_index f2. Hypothesis H3 : good_index f3.
Hypothesis B : (b0 < 8 /\ b1 < 8 /\ b2 < 8 /\ b3 < 8)%nat.
Hypothesis D1 : Z.land (skb_mask b0) (skb_mask b1) = 0.
Hypothesis D2 : Z.land (Z.lor (skb_mask b0) (skb_mask b1)) (skb_mask b2) = 0.
Hypothesis D3 : Z.land (Z.lor (Z.lor (skb_mask b0) (skb_mask b1)) (skb_mask b2)) (skb_mask b3) = 0.
Definition four (c : Z) : Z := Z.lor (Z.lor (Z.lor (skbt b0 (f0 c)) (skbt b1 (f1 c))) (skbt b2 (f2 c))) (skbt b3 (f3 c)).
Lemma four_xor : forall c, four c = Z.lxor (Z.lxor (Z.lxor (skbt b0 (f0 c)) (skbt b1 (f1 c))) (skbt b2 (f2 c))) (skbt b3 (f3 c)).
Proof.
  intros c. destruct B as (B0 & B1 & B2 & B3). unfold four.
  pose proof (proj1 (skbt_within b0 _ B0 (proj1 H0 c))) as W0. pose proof (proj1 (skbt_within b1 _ B1 (proj1 H1 c))) as W1.
  pose proof (proj1 (skbt_within b2 _ B2 (proj1 H2 c))) as W2. pose proof (proj1 (skbt_within b3 _ B3 (proj1 H3 c))) as W3.
  rewrite (lor_lxor _ _ _ _ W0 W1 D1). pose proof (within_lxor _ _ _ _ W0 W1) as W01.
  rewrite (lor_lxor _ _ _ _ W01 W2 D2). pose proof (within_lxor _ _ _ _ W01 W2) as W012.
  now rewrite (lor_lxor _ _ _ _ W012 W3 D3).
Qed.
Lemma four_lxor : forall c c', four (Z.lxor c c') = Z.lxor (four c) (four c').
Proof.
  intros c c'. destruct B as (B0 & B1 & B2 & B3). rewrite !four_xor.
  rewrite (proj2 H0), (proj2 H1), (proj2 H2), (proj2 H3).
  rewrite !skbt_lxor by (assumption || apply H0 || apply H1 || apply H2 || apply H3).
  rewrite (xor4 (skbt b0 (f0 c))). rewrite (xor4 (Z.lxor (skbt b0 (f0 c)) _)). apply xor4.
Qed.
Lemma four_32 : forall c, is32 (four c).
Proof.
  intros c. destruct B as (B0 & B1 & B2 & B3). unfold four.
  repeat apply is32_lor; apply skbt_within; assumption || apply H0 || apply H1 || apply H2 || apply H3.
Qed.
End Four.

Definition ks_s := four 0 1 2 3 ix0 ix1 ix2 ix3.
Definition ks_t := four 4 5 6 7 ix0 ix5 ix6 ix7.
Lemma ks_s_lxor : forall c c', ks_s (Z.lxor c c') = Z.lxor (ks_s c) (ks_s c').
Proof. apply four_lxor; [exact good0|exact good1|exact good2|exact good3|repeat split; lia|vm_compute; reflexivity..]. Qed.
Lemma ks_t_lxor : forall c c', ks_t (Z.lxor c c') = Z.lxor (ks_t c) (ks_t c').
Proof. apply four_lxor; [exact good0|exact good5|exact good6|exact good7|repeat split; lia|vm_compute; reflexivity..]. Qed.
Lemma ks_s_32 : forall c, is32 (ks_s c).
Proof. apply four_32; [exact good0|exact good1|exact good2|exact good3|repeat split; lia]. Qed.
Lemma ks_t_32 : forall c, is32 (ks_t c).
Proof. apply four_32; [exact good0|exact good5|exact good6|exact good7|repeat split; lia]. Qed.

Lemma des_pc2_eq : forall c d, des_pc2 c d =
  (rotate (Z.lor (shl (ks_t d) 16) (Z.land (ks_s c) 0x0000ffff)) 30, rotate (Z.lor (Z.shiftr (ks_s c) 16) (Z.land (ks_t d) 0xffff0000)) 26).
Proof. reflexivity. Qed.

Lemma des_pc2_32 : forall c d, both32 (des_pc2 c d).
Proof.
  intros c d. rewrite des_pc2_eq. split; cbn [fst snd]; (apply is32_rotate; [lia|]); apply is32_lor.
  - apply is32_shl.
  - apply is32_land, ks_s_32.
  - apply is32_shr; [lia|apply ks_s_32].
  - apply is32_land, ks_t_32.
Qed.

Lemma des_pc2_lxor : forall c d c' d', des_pc2 (Z.lxor c c') (Z.lxor d d') = xor2 (des_pc2 c d) (des_pc2 c' d').
Proof.
  intros. rewrite !des_pc2_eq. unfold xor2. cbn [fst snd].
  assert (L1 : forall c d, Z.lor (shl (ks_t d) 16) (Z.land (ks_s c) 0x0000ffff) = Z.lxor (shl (ks_t d) 16) (Z.land (ks_s c) 0x0000ffff)).
  { intros x y. eapply lor_lxor; [apply within_shl; [lia|exact (within_bound _ 32 ltac:(lia) (ks_t_32 y))]|apply within_land|vm_compute; reflexivity]. }
  assert (L2 : forall c d, Z.lor (Z.shiftr (ks_s c) 16) (Z.land (ks_t d) 0xffff0000) = Z.lxor (Z.shiftr (ks_s c) 16) (Z.land (ks_t d) 0xffff0000)).
  { intros x y. eapply lor_lxor; [apply within_shr; [lia|exact (within_bound _ 32 ltac:(lia) (ks_s_32 x))]|apply within_land|vm_compute; reflexivity]. }
  rewrite !L1, !L2, !ks_s_lxor, !ks_t_lxor, shl_lxor, Z.shiftr_lxor, !land_lxor.
  rewrite (xor4 (shl _ _)), (xor4 (Z.shiftr _ _)). rewrite <- !L1, <- !L2.
  rewrite !rotate_lxor; [reflexivity|..]; try lia; apply is32_lor; solve [apply is32_shl|apply is32_land; (apply ks_s_32 || apply ks_t_32)|apply is32_shr; [lia|apply ks_s_32]].
Qed.

(** * The bits of a round key *)

(** Six bits of a word from bit [n] on. *)
Definition six_of (w n : Z) : bits := map (fun j => Z.testbit w (n + j)) [0; 1; 2; 3; 4; 5].
(** The 48 bits of a round key as the code keeps them in two words. *)
Definition key_bits (p : pair) : bits :=
  flat_map (fun n => six_of (fst p) n ++ six_of (rotate (snd p) 4) n) [2; 10; 18; 26].

Lemma six_of_lxor : forall a b n, six_of (Z.lxor a b) n = xorl (six_of a n) (six_of b n).
Proof. intros. unfold six_of. rewrite xorl_map. apply map_ext. intros j. apply Z.lxor_spec. Qed.

Lemma key_bits_xor : forall p q, both32 p -> both32 q -> key_bits (xor2 p q) = xorl (key_bits p) (key_bits q).
Proof.
  intros [a b] [c d] [_ H1] [_ H2]. cbn [fst snd] in *. unfold key_bits, xor2. cbn [fst snd flat_map].
  rewrite rotate_lxor by (assumption || lia). rewrite !six_of_lxor. reflexivity.
Qed.
Lemma key_bits_length : forall p, length (key_bits p) = 48%nat. Proof. reflexivity. Qed.

(** The bits of a block of two words, in the order of the standard. *)
Definition block_bits (p : pair) : bits :=
  map (fun i => let k := Z.of_nat i / 8 in Z.testbit (if k <? 4 then fst p else snd p) (8 * (k mod 4) + 7 - Z.of_nat i mod 8)) (seq 0 64).
Lemma block_bits_xor : forall p q, block_bits (xor2 p q) = xorl (block_bits p) (block_bits q).
Proof.
  intros p q. unfold block_bits. rewrite xorl_map. apply map_ext. intros i. cbv zeta. unfold xor2. cbn [fst snd].
  destruct (Z.of_nat i / 8 <? 4); apply Z.lxor_spec.
Qed.
Lemma block_bits_length : forall p, length (block_bits p) = 64%nat. Proof. intros. unfold block_bits. rewrite map_length. reflexivity. Qed.

(** * The schedules, as lists of pairs and as lists of bits *)

Fixpoint sched_pairs (sh : list bool) (c d : Z) : list pair :=
  match sh with
  | [] => []
  | two :: sh => des_pc2 (des_shift two c) (des_shift two d) :: sched_pairs sh (des_shift two c) (des_shift two d)
  end.
Lemma sched_pairs_words : forall sh c d, des_sched sh c d = flat_map (fun p => [fst p; snd p]) (sched_pairs sh c d).
Proof. induction sh as [|two sh IH]; intros c d; cbn [des_sched sched_pairs flat_map app]; [reflexivity|]. now rewrite IH. Qed.

Definition all_key_bits (l : list pair) : bits := flat_map key_bits l.
Lemma sched_lxor : forall sh c d c' d', is28 c -> is28 d -> is28 c' -> is28 d' ->
  all_key_bits (sched_pairs sh (Z.lxor c c') (Z.lxor d d')) = xorl (all_key_bits (sched_pairs sh c d)) (all_key_bits (sched_pairs sh c' d')).
Proof.
  unfold all_key_bits. induction sh as [|two sh IH]; intros c d c' d' Hc Hd Hc' Hd'; [reflexivity|].
  cbn [sched_pairs flat_map]. rewrite !des_shift_lxor by assumption. rewrite des_pc2_lxor.
  rewrite key_bits_xor by apply des_pc2_32. rewrite xorl_app by reflexivity. f_equal. apply IH; apply des_shift_28.
Qed.

Definition two_of (z : Z) : pair := (u32 z, Z.shiftr z 32).
Lemma two_of_lxor : forall x y, two_of (Z.lxor x y) = xor2 (two_of x) (two_of y).
Proof. intros. unfold two_of, xor2. cbn [fst snd]. now rewrite u32_lxor, Z.shiftr_lxor. Qed.
Lemma two_of_32 : forall z, 0 <= z < 2 ^ 64 -> both32 (two_of z).
Proof.
  intros z H. split; cbn [fst snd two_of]; [apply is32_u32|]. unfold is32. rewrite Z.shiftr_div_pow2 by lia.
  split; [apply Z.div_pos; lia|]. apply Z.div_lt_upper_bound; [reflexivity|]. change (2 ^ 32 * 2 ^ 32) with (2 ^ 64). lia.
Qed.
Lemma two_of_pair : forall p, both32 p -> exists z, 0 <= z < 2 ^ 64 /\ two_of z = p.
Proof.
  intros [a b] [Ha Hb]. cbn [fst snd] in *. exists (a + b * 2 ^ 32). unfold is32 in *. split.
  - change (2 ^ 64) with (2 ^ 32 * 2 ^ 32). lia.
  - unfold two_of, u32. rewrite Z.mod_add by lia. rewrite Z.mod_small by lia. rewrite Z.shiftr_div_pow2 by lia. rewrite Z.div_add by lia. rewrite Z.div_small by lia. reflexivity.
Qed.

Definition code_keys (p : pair) : list pair := sched_pairs shifts2 (fst (des_pc1 (fst p) (snd p))) (snd (des_pc1 (fst p) (snd p))).

Lemma code_keys_linear : linear 64 (fun z => all_key_bits (code_keys (two_of z))).
Proof.
  intros x y Hx Hy. rewrite two_of_lxor. unfold code_keys. unfold xor2 at 1 2 3 4. cbn [fst snd]. rewrite des_pc1_lxor.
  unfold xor2. cbn [fst snd]. destruct (two_of_32 x Hx) as [X1 X2]. destruct (two_of_32 y Hy) as [Y1 Y2].
  apply sched_lxor; apply des_pc1_28; assumption.
Qed.

Lemma rotl_xorl : forall n a b, length a = length b -> rotl n (xorl a b) = xorl (rotl n a) (rotl n b).
Proof. intros n a b H. unfold rotl. rewrite xorl_skipn, xorl_firstn by exact H. rewrite xorl_app; [reflexivity|]. now rewrite !skipn_length, H. Qed.
Lemma rotl_length : forall n a, length (rotl n a) = length a.
Proof. intros. unfold rotl. rewrite app_length, skipn_length, firstn_length. lia. Qed.

Lemma schedule_xorl : forall sh c d c' d', length c = length c' -> length d = length d' ->
  concat (schedule sh (xorl c c') (xorl d d')) = xorl (concat (schedule sh c d)) (concat (schedule sh c' d')).
Proof.
  induction sh as [|n sh IH]; intros c d c' d' Hc Hd; [reflexivity|]. cbn [schedule concat].
  rewrite !rotl_xorl by assumption. rewrite <- xorl_app by (now rewrite !rotl_length).
  rewrite select_xorl by (now rewrite !app_length, !rotl_length, Hc, Hd).
  rewrite xorl_app by (now rewrite !select_length). f_equal. apply IH; now rewrite !rotl_length.
Qed.

Lemma spec_keys_linear : linear 64 (fun z => concat (round_keys (block_bits (two_of z)))).
Proof.
  intros x y _ _. rewrite two_of_lxor, block_bits_xor. unfold round_keys. rewrite select_xorl by (now rewrite !block_bits_length).
  rewrite xorl_firstn, xorl_skipn by (now rewrite !select_length).
  apply schedule_xorl; rewrite ?firstn_length, ?skipn_length, !select_length; reflexivity.
Qed.

Lemma keys_basis : forallb (fun i => eql (all_key_bits (code_keys (two_of (2 ^ Z.of_nat i)))) (concat (round_keys (block_bits (two_of (2 ^ Z.of_nat i)))))) (seq 0 64) = true.
Proof. vm_compute. reflexivity. Qed.
Lemma keys_zero : all_key_bits (code_keys (two_of 0)) = concat (round_keys (block_bits (two_of 0))).
Proof. vm_compute. reflexivity. Qed.

Lemma concat_inj : forall n (a b : list bits), Forall (fun l => length l = n) a -> Forall (fun l => length l = n) b -> length a = length b ->
  concat a = concat b -> a = b.
Proof.
  intros n. induction a as [|x a IH]; intros [|y b] A B L E; cbn in L; try lia; [reflexivity|].
  inversion A; inversion B; subst. cbn [concat] in E.
  assert (E1 : x = y).
  { apply (f_equal (firstn (length x))) in E. rewrite !firstn_app in E. rewrite Nat.sub_diag in E. replace (length x - length y)%nat with 0%nat in E by lia.
    rewrite !firstn_O, !app_nil_r in E. rewrite firstn_all in E. rewrite firstn_all2 in E by lia. exact E. }
  subst y. apply app_inv_head in E. f_equal. apply IH; assumption || lia.
Qed.

Lemma schedule_lengths : forall sh c d, Forall (fun l => length l = 48%nat) (schedule sh c d) /\ length (schedule sh c d) = length sh.
Proof.
  induction sh as [|n sh IH]; intros c d; cbn [schedule]; [split; [constructor|reflexivity]|].
  destruct (IH (rotl n c) (rotl n d)) as [A B]. split; [constructor; [apply select_length|exact A]|cbn; now rewrite B].
Qed.

Lemma sched_pairs_length : forall sh c d, length (sched_pairs sh c d) = length sh.
Proof. induction sh as [|two sh IH]; intros; cbn; [reflexivity|]. now rewrite IH. Qed.

(** The sixteen round keys of the code are those of the standard. *)
Lemma keys_standard : forall p, both32 p -> map key_bits (code_keys p) = round_keys (block_bits p).
Proof.
  intros p Hp. destruct (two_of_pair p Hp) as (z & Hz & <-).
  destruct (schedule_lengths left_shifts (firstn 28 (select PC1_table (block_bits (two_of z)))) (skipn 28 (select PC1_table (block_bits (two_of z))))) as [A B].
  apply (concat_inj 48).
  - apply Forall_forall. intros l Hl. apply in_map_iff in Hl. destruct Hl as (q & <- & _). apply key_bits_length.
  - exact A.
  - rewrite map_length. unfold code_keys. rewrite sched_pairs_length. exact (eq_sym B).
  - rewrite <- flat_map_concat_map.
    exact (linear_agree 64 _ _ code_keys_linear spec_keys_linear 64 ltac:(lia) keys_zero keys_basis z Hz).
Qed.
