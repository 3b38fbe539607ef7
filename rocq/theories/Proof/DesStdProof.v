(** DES_encrypt1 computes the cipher of the standard. *)
From Verif Require Import Model.Base Model.Libc Model.CryptoTables Model.Crypto Spec.DesSpec Spec.LibcSpec Spec.CryptoSpec Proof.Tac Proof.WordProof Proof.CipherProof Proof.CbcProof Proof.CodecProof Proof.DesLinear Proof.DesKeys.

(** The half block a word of the code stands for: words are kept rotated by three. *)
Definition rep (w : Z) : bits := map (fun k => Z.testbit w ((Z.of_nat k + 3) mod 32)) (seq 0 32).

Lemma rep_lxor : forall a b, rep (Z.lxor a b) = xorl (rep a) (rep b).
Proof. intros. unfold rep. rewrite xorl_map. apply map_ext. intros i. apply Z.lxor_spec. Qed.
Lemma rep_length : forall a, length (rep a) = 32%nat. Proof. intros. unfold rep. now rewrite map_length, seq_length. Qed.

(** * Initial and final permutation *)

Definition ip_code (p : pair) : bits :=
  let q := des_ip (fst p) (snd p) in rep (rotate (snd q) 29) ++ rep (rotate (fst q) 29).

Lemma des_ip_32 : forall p, both32 p -> both32 (des_ip (fst p) (snd p)).
Proof. intros p [A B]. destruct (des_ip (fst p) (snd p)) as [l r] eqn:E. exact (ip_32 _ _ _ _ A B E). Qed.
Lemma des_fp_32 : forall p, both32 p -> both32 (des_fp (fst p) (snd p)).
Proof. intros p [A B]. destruct (des_fp (fst p) (snd p)) as [l r] eqn:E. exact (fp_32 _ _ _ _ A B E). Qed.

Lemma ip_code_xor : forall p q, both32 p -> both32 q -> ip_code (xor2 p q) = xorl (ip_code p) (ip_code q).
Proof.
  intros p q Hp Hq. unfold ip_code. unfold xor2 at 1 2 3 4. cbn [fst snd]. rewrite des_ip_lxor. cbv zeta.
  destruct (des_ip_32 p Hp) as [P1 P2]. destruct (des_ip_32 q Hq) as [Q1 Q2]. unfold xor2. cbn [fst snd].
  rewrite !rotate_lxor by (assumption || lia). rewrite !rep_lxor. now rewrite xorl_app by (now rewrite !rep_length).
Qed.

Lemma ip_basis : forallb (fun i => eql (ip_code (two_of (2 ^ Z.of_nat i))) (select IP_table (block_bits (two_of (2 ^ Z.of_nat i))))) (seq 0 64) = true.
Proof. vm_compute. reflexivity. Qed.

Lemma ip_standard : forall p, both32 p -> ip_code p = select IP_table (block_bits p).
Proof.
  intros p Hp. destruct (two_of_pair p Hp) as (z & Hz & <-).
  refine (linear_agree 64 (fun z => ip_code (two_of z)) (fun z => select IP_table (block_bits (two_of z))) _ _ 64 ltac:(lia) _ ip_basis z Hz).
  - intros x y Hx Hy. rewrite two_of_lxor. apply ip_code_xor; now apply two_of_32.
  - intros x y _ _. rewrite two_of_lxor, block_bits_xor. apply select_xorl. now rewrite !block_bits_length.
  - vm_compute. reflexivity.
Qed.

Definition fp_code (p : pair) : bits :=
  let q := des_fp (rotate (fst p) 3) (rotate (snd p) 3) in block_bits (snd q, fst q).

Lemma fp_code_xor : forall p q, both32 p -> both32 q -> fp_code (xor2 p q) = xorl (fp_code p) (fp_code q).
Proof.
  intros p q [P1 P2] [Q1 Q2]. unfold fp_code. unfold xor2 at 1 2 3 4. cbn [fst snd].
  rewrite !rotate_lxor by (assumption || lia). rewrite des_fp_lxor. cbv zeta. rewrite <- block_bits_xor. reflexivity.
Qed.

Lemma fp_basis : forallb (fun i => eql (fp_code (two_of (2 ^ Z.of_nat i))) (select FP_table (rep (fst (two_of (2 ^ Z.of_nat i))) ++ rep (snd (two_of (2 ^ Z.of_nat i)))))) (seq 0 64) = true.
Proof. vm_compute. reflexivity. Qed.

Lemma fp_standard : forall p, both32 p -> fp_code p = select FP_table (rep (fst p) ++ rep (snd p)).
Proof.
  intros p Hp. destruct (two_of_pair p Hp) as (z & Hz & <-).
  refine (linear_agree 64 (fun z => fp_code (two_of z)) (fun z => select FP_table (rep (fst (two_of z)) ++ rep (snd (two_of z)))) _ _ 64 ltac:(lia) _ fp_basis z Hz).
  - intros x y Hx Hy. rewrite two_of_lxor. apply fp_code_xor; now apply two_of_32.
  - intros x y _ _. rewrite two_of_lxor. unfold xor2. cbn [fst snd]. rewrite !rep_lxor. rewrite <- xorl_app by (now rewrite !rep_length).
    apply select_xorl. now rewrite !app_length, !rep_length.
  - vm_compute. reflexivity.
Qed.

(** * The cipher function *)

Lemma e_basis : forallb (fun i => eql (select E_table (rep (2 ^ Z.of_nat i))) (key_bits (2 ^ Z.of_nat i, 2 ^ Z.of_nat i))) (seq 0 32) = true.
Proof. vm_compute. reflexivity. Qed.

Lemma expansion : forall w, is32 w -> select E_table (rep w) = key_bits (w, w).
Proof.
  intros w Hw.
  refine (linear_agree 32 (fun w => select E_table (rep w)) (fun w => key_bits (w, w)) _ _ 32 ltac:(lia) _ e_basis w Hw).
  - intros x y _ _. rewrite rep_lxor. apply select_xorl. now rewrite !rep_length.
  - intros x y Hx Hy. rewrite <- (key_bits_xor (x, x) (y, y)) by (split; assumption). reflexivity.
  - vm_compute. reflexivity.
Qed.

(** The value of a selection function at its place. *)
Definition pad (b : nat) (l : bits) : bits := repeat false (4 * b) ++ l ++ repeat false (28 - 4 * b).

Lemma spt_table : forallb (fun b => forallb (fun i => eql (rep (spt b (Z.of_nat i))) (select P_table (pad b (S_box b (six_of (Z.of_nat i) 0))))) (seq 0 64)) (seq 0 8) = true.
Proof. vm_compute. reflexivity. Qed.

Lemma land63 : forall x, six (Z.land x 63).
Proof. intros x. change 63 with (Z.ones 6). rewrite Z.land_ones by lia. apply Z.mod_pos_bound. reflexivity. Qed.

Lemma six_of_index : forall w n, 0 <= n -> six_of (Z.land (Z.shiftr w n) 63) 0 = six_of w n.
Proof.
  intros w n Hn. unfold six_of. cbn [map].
  assert (E : forall j, 0 <= j < 6 -> Z.testbit (Z.land (Z.shiftr w n) 63) (0 + j) = Z.testbit w (n + j)).
  { intros j Hj. rewrite Z.land_spec, Z.shiftr_spec by lia. change 63 with (Z.ones 6). rewrite Z.ones_spec_low by lia. rewrite andb_true_r. f_equal. lia. }
  rewrite !E by lia. reflexivity.
Qed.

Lemma spt_standard : forall b w n, (b < 8)%nat -> 0 <= n ->
  rep (spt b (Z.land (Z.shiftr w n) 63)) = select P_table (pad b (S_box b (six_of w n))).
Proof.
  intros b w n Hb Hn. rewrite <- six_of_index by exact Hn. pose proof (land63 (Z.shiftr w n)) as H. set (v := Z.land (Z.shiftr w n) 63) in *. clearbody v.
  pose proof spt_table as T. rewrite forallb_forall in T. specialize (T b ltac:(apply in_seq; lia)).
  rewrite forallb_forall in T. specialize (T (Z.to_nat v) ltac:(apply in_seq; unfold six in H; lia)).
  rewrite !Z2Nat.id in T by (unfold six in H; lia). now apply eql_eq in T.
Qed.

Lemma pad_length : forall b l, (b < 8)%nat -> length l = 4%nat -> length (pad b l) = 32%nat.
Proof. intros b l Hb Hl. unfold pad. rewrite !app_length, !repeat_length. lia. Qed.

Definition four_bits (l : bits) : Prop := exists a b c d, l = [a; b; c; d].
Lemma S_box_four : forall k v, four_bits (S_box k v).
Proof. intros k v. unfold four_bits, S_box. cbv zeta. eauto. Qed.

Lemma pads : forall l0 l1 l2 l3 l4 l5 l6 l7, four_bits l0 -> four_bits l1 -> four_bits l2 -> four_bits l3 ->
  four_bits l4 -> four_bits l5 -> four_bits l6 -> four_bits l7 ->
  xorl (xorl (xorl (xorl (xorl (xorl (xorl (pad 0 l0) (pad 2 l2)) (pad 4 l4)) (pad 6 l6)) (pad 1 l1)) (pad 3 l3)) (pad 5 l5)) (pad 7 l7)
  = l0 ++ l1 ++ l2 ++ l3 ++ l4 ++ l5 ++ l6 ++ l7.
Proof.
  intros l0 l1 l2 l3 l4 l5 l6 l7 (? & ? & ? & ? & ->) (? & ? & ? & ? & ->) (? & ? & ? & ? & ->) (? & ? & ? & ? & ->)
    (? & ? & ? & ? & ->) (? & ? & ? & ? & ->) (? & ? & ? & ? & ->) (? & ? & ? & ? & ->).
  unfold pad. cbn [Nat.mul Nat.add Nat.sub repeat app xorl]. rewrite !xorb_false_l, !xorb_false_r. reflexivity.
Qed.

Lemma f_standard : forall ks r i, is32 r -> both32 (ks i, ks (i + 1)) ->
  rep (des_f ks r i) = cipher_f (rep r) (key_bits (ks i, ks (i + 1))).
Proof.
  intros ks r i Hr Hk. unfold cipher_f. rewrite expansion by exact Hr. rewrite <- key_bits_xor by (assumption || (split; assumption)).
  unfold des_f, xor2. cbn [fst snd]. set (u := Z.lxor r (ks i)). set (t := Z.lxor r (ks (i + 1))). cbv zeta.
  rewrite !rep_lxor. rewrite !spt_standard by lia.
  assert (L : forall b l, (b < 8)%nat -> four_bits l -> length (pad b l) = 32%nat).
  { intros b l Hb (? & ? & ? & ? & ->). now apply pad_length. }
  assert (S4 : forall k v, four_bits (S_box k v)) by exact S_box_four.
  repeat (rewrite <- select_xorl; [|repeat (rewrite xorl_length; [|]); rewrite ?L; try (apply S4 || lia); try reflexivity]).
  all: rewrite ?xorl_length; rewrite ?L; try (apply S4 || lia); try reflexivity.
  rewrite pads by apply S4. reflexivity.
Qed.

(** * The sixteen rounds *)

Definition reps (p : pair) : bits * bits := (rep (fst p), rep (snd p)).
Definition kb (ks : Z -> Z) (i : Z) : bits := key_bits (ks i, ks (i + 1)).

Lemma iterate_app : forall a b p, iterate (a ++ b) p = iterate b (iterate a p).
Proof. induction a as [|k a IH]; intros b p; cbn [app iterate]; [reflexivity|apply IH]. Qed.

Lemma two_standard : forall ks i j p, both32 p -> (forall i, is32 (ks i)) ->
  reps (des_two ks i j p) = iterate [kb ks i; kb ks j] (reps p).
Proof.
  intros ks i j [l r] [Hl Hr] Hk. cbn [fst snd] in *. unfold reps, des_two. cbn [iterate fst snd]. cbv zeta. cbn [fst snd].
  assert (Hl' : is32 (Z.lxor l (des_f ks r i))) by (apply is32_lxor; [exact Hl|apply des_f_32]).
  unfold kb. rewrite !rep_lxor. rewrite (f_standard ks _ j Hl' (conj (Hk _) (Hk _))). rewrite rep_lxor.
  rewrite (f_standard ks r i Hr (conj (Hk _) (Hk _))). reflexivity.
Qed.

Definition enc_order : list Z := [0; 2; 4; 6; 8; 10; 12; 14; 16; 18; 20; 22; 24; 26; 28; 30].

Lemma rounds_enc_standard : forall ks p, both32 p -> (forall i, is32 (ks i)) ->
  reps (des_rounds_enc ks p) = iterate (map (kb ks) enc_order) (reps p).
Proof.
  intros ks p Hp Hk. unfold des_rounds_enc. cbn [fold_left].
  repeat (rewrite two_standard by (repeat apply des_two_32; assumption)). rewrite <- !iterate_app. reflexivity.
Qed.
Lemma rounds_dec_standard : forall ks p, both32 p -> (forall i, is32 (ks i)) ->
  reps (des_rounds_dec ks p) = iterate (rev (map (kb ks) enc_order)) (reps p).
Proof.
  intros ks p Hp Hk. unfold des_rounds_dec. cbn [fold_left].
  repeat (rewrite two_standard by (repeat apply des_two_32; assumption)). rewrite <- !iterate_app. reflexivity.
Qed.

Definition iters (enc : bool) (ks : Z -> Z) : list bits := if enc then map (kb ks) enc_order else rev (map (kb ks) enc_order).

Lemma encrypt1_standard : forall ks enc p, both32 p -> (forall i, is32 (ks i)) ->
  block_bits (des_encrypt1 ks enc p) = des_with (iters enc ks) (block_bits p).
Proof.
  intros ks enc p Hp Hk. unfold des_with. rewrite <- ip_standard by exact Hp. unfold ip_code. cbv zeta.
  rewrite firstn_app, skipn_app, !rep_length, Nat.sub_diag, firstn_O, skipn_O.
  rewrite firstn_all2 by (now rewrite rep_length). rewrite skipn_all2 by (now rewrite rep_length). rewrite app_nil_r, app_nil_l.
  pose proof (des_ip_32 p Hp) as B. unfold des_encrypt1. destruct (des_ip (fst p) (snd p)) as [r l]. destruct B as [B1 B2]. cbn [fst snd] in *.
  cbv zeta.
  assert (B3 : both32 (rotate l 29, rotate r 29)) by (split; apply is32_rotate; assumption || lia).
  change (rep (rotate l 29), rep (rotate r 29)) with (reps (rotate l 29, rotate r 29)).
  assert (E : reps (if enc then des_rounds_enc ks (rotate l 29, rotate r 29) else des_rounds_dec ks (rotate l 29, rotate r 29))
    = iterate (iters enc ks) (reps (rotate l 29, rotate r 29))).
  { destruct enc; [now apply rounds_enc_standard|now apply rounds_dec_standard]. }
  assert (B4 : both32 (if enc then des_rounds_enc ks (rotate l 29, rotate r 29) else des_rounds_dec ks (rotate l 29, rotate r 29))).
  { destruct enc; [now apply des_rounds_enc_32|now apply des_rounds_dec_32]. }
  rewrite <- E. destruct (if enc then _ else _) as [l' r']. unfold reps. cbn [fst snd].
  destruct B4 as [B4 B5]. cbn [fst snd] in B4, B5.
  pose proof (fp_standard (r', l') (conj B5 B4)) as F. cbn [fst snd] in F. rewrite <- F. unfold fp_code. cbn [fst snd]. cbv zeta.
  destruct (des_fp (rotate r' 3) (rotate l' 3)). reflexivity.
Qed.

(** * The key schedule in memory *)

Lemma words_keys : forall l : list pair, length l = 16%nat ->
  map (kb (fun i => nth (Z.to_nat i) (flat_map (fun p => [fst p; snd p]) l) 0)) enc_order = map key_bits l.
Proof.
  intros l H. do 16 (destruct l as [|[? ?] l]; [discriminate H|]). destruct l; [|discriminate H]. reflexivity.
Qed.

Lemma sched_pairs_32 : forall sh c d, Forall both32 (sched_pairs sh c d).
Proof. induction sh as [|two sh IH]; intros c d; cbn [sched_pairs]; constructor; [apply des_pc2_32|apply IH]. Qed.

Lemma words_32 : forall l n, Forall both32 l -> is32 (nth n (flat_map (fun p : pair => [fst p; snd p]) l) 0).
Proof.
  induction l as [|p l IH]; intros n H; [destruct n; split; reflexivity || lia|]. inversion H as [|? ? [A B] C]; subst.
  destruct n as [|[|n]]; cbn [flat_map app nth]; [exact A|exact B|now apply IH].
Qed.

Lemma set_key_eq : forall m key, des_set_key_unchecked m key =
  fun i => nth (Z.to_nat i) (flat_map (fun p => [fst p; snd p]) (code_keys (des_get m key))) 0.
Proof.
  intros m key. unfold des_set_key_unchecked, code_keys. destruct (des_get m key) as [c d]. cbn [fst snd].
  destruct (des_pc1 c d) as [c' d']. cbn [fst snd]. now rewrite <- sched_pairs_words.
Qed.

Lemma iters_standard : forall enc m key, byte_memory m ->
  iters enc (des_set_key_unchecked m key) = (if enc then round_keys (block_bits (des_get m key)) else rev (round_keys (block_bits (des_get m key)))).
Proof.
  intros enc m key Hm. rewrite <- keys_standard by now apply get32_le. rewrite set_key_eq. unfold iters.
  assert (L : length (code_keys (des_get m key)) = 16%nat) by (unfold code_keys; rewrite sched_pairs_length; reflexivity).
  rewrite words_keys by exact L. reflexivity.
Qed.

Lemma set_key_32 : forall m key i, is32 (des_set_key_unchecked m key i).
Proof. intros m key i. rewrite set_key_eq. apply words_32. unfold code_keys. apply sched_pairs_32. Qed.

(** * Memory *)

(** Bits of eight bytes of memory in the order of the standard are the bits of the two words read there. *)
Lemma bits_of_bytes : forall p f, (forall i, 0 <= i < 8 -> f i = bb_le p i) -> block_bits p = block_of f.
Proof.
  intros p f H. unfold block_of. cbn [flat_map]. rewrite !H by lia.
  unfold bb_le. cbn [map app]. rewrite !testbit_byte_of by (cbn; lia). reflexivity.
Qed.

Lemma block_of_ext : forall f g, (forall i, 0 <= i < 8 -> f i = g i) -> block_of f = block_of g.
Proof. intros f g H. unfold block_of. cbn [flat_map]. rewrite !H by lia. reflexivity. Qed.

Lemma get_bits : forall m a, byte_memory m -> fits a 8 -> block_bits (des_get m a) = block_of (fun i => m (a + i)).
Proof. intros m a B F. apply bits_of_bytes. intros i Hi. symmetry. now apply get_le. Qed.

Lemma key_standard : forall enc m key p, byte_memory m -> fits key 8 -> both32 p ->
  block_bits (des_encrypt1 (des_set_key_unchecked m key) enc p)
  = (if enc then DES_encipher else DES_decipher) (block_of (fun i => m (key + i))) (block_bits p).
Proof.
  intros enc m key p B F P. rewrite encrypt1_standard by (exact P || apply set_key_32). rewrite iters_standard by exact B.
  rewrite get_bits by assumption. destruct enc; reflexivity.
Qed.

(** * Chaining *)

Lemma blocks_of_S : forall f n, blocks_of f (Datatypes.S n) = block_of f :: blocks_of (fun k => f (k + 8)) n.
Proof.
  intros f n. unfold blocks_of. cbn [seq map]. f_equal.
  rewrite <- seq_shift, map_map. apply map_ext. intros i. apply block_of_ext. intros j Hj. f_equal. lia.
Qed.
Lemma blocks_of_last : forall f n, blocks_of f (Datatypes.S n) = blocks_of f n ++ [block_of (fun j => f (8 * Z.of_nat n + j))].
Proof. intros f n. unfold blocks_of. rewrite seq_S, map_app. reflexivity. Qed.
Lemma blocks_of_ext : forall n f g, (forall k, 0 <= k < 8 * Z.of_nat n -> f k = g k) -> blocks_of f n = blocks_of g n.
Proof.
  intros n f g H. unfold blocks_of. apply map_ext_in. intros i Hi. apply in_seq in Hi. apply block_of_ext. intros j Hj. apply H. lia.
Qed.

Lemma blocks_at_bits : forall l m a, byte_memory m -> fits a (8 * Z.of_nat (length l)) -> blocks_at des_get m a l ->
  map block_bits l = blocks_of (fun k => m (a + k)) (length l).
Proof.
  induction l as [|b l IH]; intros m a B F H; [reflexivity|]. cbn [length] in F. destruct H as [<- H]. unfold fits in F.
  cbn [length map]. rewrite blocks_of_S. f_equal; [apply get_bits; [exact B|unfold fits; lia]|].
  rewrite (IH m (a + 8) B ltac:(unfold fits; lia) H). apply blocks_of_ext. intros k Hk. f_equal. lia.
Qed.

Section Chain.
Variables (key : bits) (E : pair -> pair).
Hypothesis HE : forall p, both32 p -> block_bits (E p) = DES_encipher key (block_bits p).
Lemma chain_standard : forall Bs Cs v, both32 v -> Forall both32 Bs -> Forall both32 Cs -> chain E v Bs Cs ->
  map block_bits Cs = CBC_encipher key (block_bits v) (map block_bits Bs).
Proof.
  induction Bs as [|b Bs IH]; intros [|c Cs] v V FB FC H; cbn [chain] in H; try contradiction; [reflexivity|]. destruct H as [H1 H2].
  inversion FB as [|? ? B1 B2]; inversion FC as [|? ? C1 C2]; subst b0 l c0 l0 || idtac.
  cbn [map CBC_encipher]. cbv zeta.
  assert (X : block_bits c = DES_encipher key (xorl (block_bits b) (block_bits v))).
  { rewrite H1, HE by (now apply both32_xor). now rewrite block_bits_xor. }
  rewrite <- X. f_equal. now apply IH.
Qed.
End Chain.

Lemma CBC_snoc : forall key bs iv b, CBC_encipher key iv (bs ++ [b]) =
  CBC_encipher key iv bs ++ [DES_encipher key (xorl b (last (CBC_encipher key iv bs) iv))].
Proof.
  intros key. induction bs as [|a bs IH]; intros iv b; [reflexivity|]. cbn [app CBC_encipher]. cbv zeta. f_equal.
  rewrite IH. f_equal. f_equal. f_equal. f_equal. generalize (DES_encipher key (xorl a iv)). intros c.
  destruct (CBC_encipher key c bs) as [|x l]; [reflexivity|]. cbn [last]. clear. revert x. induction l as [|y l IH]; intros x; [reflexivity|]. apply IH.
Qed.

Lemma last_map : forall (A B : Type) (f : A -> B) l d, last (map f l) (f d) = f (last l d).
Proof. intros A B f. induction l as [|x l IH]; intros d; [reflexivity|]. cbn [map last]. destruct l; [reflexivity|]. apply (IH d). Qed.

Lemma ncbc_standard : forall m key iv src mid len m1 v1,
  byte_memory m -> fits key 8 -> both32 iv -> 0 <= len -> fits src len -> fits mid (padded len) ->
  safe_overlap src len mid (padded len) ->
  des_ncbc (des_set_key_unchecked m key) true m src mid len iv = (m1, v1) ->
  blocks_of (fun k => m1 (mid + k)) (Z.to_nat (padded len / 8))
  = CBC_encipher (block_of (fun i => m (key + i))) (block_bits iv)
      (blocks_of (fun k => if k <? len then m (src + k) else 0) (Z.to_nat (padded len / 8))).
Proof.
  intros m key iv src mid len m1 v1 B K V Hl Fs Fm S R. unfold des_ncbc, cbc_enc in R.
  set (E := des_encrypt1 (des_set_key_unchecked m key) true) in *.
  assert (HE : forall p, both32 p -> block_bits (E p) = DES_encipher (block_of (fun i => m (key + i))) (block_bits p)).
  { intros p Hp. exact (key_standard true m key p B K Hp). }
  assert (E32 : forall p, both32 p -> both32 (E p)) by (intros p; apply des_32).
  assert (DE : forall p, both32 p -> des_encrypt1 (des_set_key_unchecked m key) false (E p) = p) by (intros p; apply des_inverse).
  clearbody E.
  destruct (cbc_enc_loop des_get des_put E (Z.to_nat (len / 8)) m src mid iv) as [ma va] eqn:EL.
  assert (Q : 8 * Z.of_nat (Z.to_nat (len / 8)) = 8 * (len / 8)) by lia.
  assert (Q0 : 0 <= 8 * (len / 8) <= len) by lia.
  assert (Qm : len = 8 * (len / 8) + len mod 8 /\ 0 <= len mod 8 < 8) by lia.
  assert (PD : (len mod 8 = 0 -> padded len = 8 * (len / 8)) /\ (len mod 8 <> 0 -> padded len = 8 * (len / 8) + 8)) by (unfold padded; lia).
  unfold fits in Fs, Fm.
  assert (So : safe_overlap src (8 * Z.of_nat (Z.to_nat (len / 8)) + len mod 8) mid (8 * Z.of_nat (Z.to_nat (len / 8)))).
  { rewrite Q. unfold safe_overlap, apart in *. lia. }
  destruct (enc_loop_spec _ _ _ _ _ codec_le E _ E32 DE (Z.to_nat (len / 8)) m src mid iv (len mod 8) ma va B V ltac:(lia)
              ltac:(unfold fits; lia) ltac:(unfold fits; lia) So EL)
    as (Ba & Va & Oa & Bs & Cs & L1 & L2 & CH & FB & FC & LV & BA1 & BA2).
  pose proof (chain_standard _ E HE Bs Cs iv V FB FC CH) as X.
  rewrite (blocks_at_bits Bs m src B ltac:(unfold fits; lia) BA1) in X. 
  rewrite L1 in X.
  assert (Xin : blocks_of (fun k => m (src + k)) (Z.to_nat (len / 8)) = blocks_of (fun k => if k <? len then m (src + k) else 0) (Z.to_nat (len / 8))).
  { apply blocks_of_ext. intros k Hk. destruct (Z.ltb_spec k len); [reflexivity|lia]. }
  rewrite Xin in X. clear Xin.
  destruct (Z.eqb_spec (len mod 8) 0) as [Z8|N8].
  - injection R as <- <-. replace (padded len / 8) with (len / 8) by lia. rewrite <- X.
    rewrite (blocks_at_bits Cs ma mid Ba ltac:(unfold fits; lia) BA2). now rewrite L2.
  - rewrite (u32_step src (8 * (len / 8))), (u32_step mid (8 * (len / 8))) in R by lia.
    set (q8 := 8 * (len / 8)) in *. set (b := des_getn ma (src + q8) (len mod 8)) in *. set (c := E (xor2 b va)) in *.
    assert (R8 : 0 < len mod 8 < 8) by lia.
    assert (Fq : fits (mid + q8) 8) by (unfold fits; lia).
    assert (b32 : both32 b) by now apply (cd_getn32 _ _ _ _ _ codec_le).
    assert (c32 : both32 c) by (apply E32; now apply both32_xor).
    injection R as <- <-.
    replace (Z.to_nat (padded len / 8)) with (Datatypes.S (Z.to_nat (len / 8))) by lia.
    rewrite !blocks_of_last, CBC_snoc. rewrite <- X.
    assert (Ec : DES_encipher (block_of (fun i => m (key + i))) (xorl (block_bits b) (last (map block_bits Cs) (block_bits iv))) = block_bits c).
    { rewrite last_map, <- LV, <- block_bits_xor. symmetry. apply HE. now apply both32_xor. }
    f_equal; [|f_equal].
    + rewrite (blocks_at_bits Cs ma mid Ba ltac:(unfold fits; lia) BA2). rewrite L2. apply blocks_of_ext. intros k Hk.
      apply (put_out _ _ _ _ _ codec_le); [exact Fq|lia].
    + rewrite Q. transitivity (block_bits c).
      { symmetry. apply bits_of_bytes. intros i Hi. rewrite Z.add_assoc. apply (put_in _ _ _ _ _ codec_le); [exact Fq|exact Hi]. }
      rewrite <- Ec. f_equal. f_equal. apply bits_of_bytes. intros i Hi.
      unfold b. rewrite getn_le; [|exact Ba|exact R8|unfold fits; lia|exact Hi].
      destruct (Z.ltb_spec i (len mod 8)), (Z.ltb_spec (q8 + i) len); try lia; try reflexivity.
      rewrite Z.add_assoc. symmetry. rewrite Oa; [f_equal; lia|]. unfold safe_overlap, apart in S. lia.
Qed.
