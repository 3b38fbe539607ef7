(** The Blowfish code computes the published cipher. *)
From Verif Require Import Model.Base Model.Libc Model.CryptoTables Model.Crypto Spec.LibcSpec Spec.CryptoSpec Spec.BlowfishSpec
  Proof.Tac Proof.WordProof Proof.CipherProof Proof.CbcProof Proof.CodecProof Proof.ProtocolProof Proof.DesLinear Proof.DesKeys.

(** The structure BF_KEY as one array. *)
Definition flat (k : subkeys) (i : Z) : Z := if i <? 18 then P k i else S k ((i - 18) / 256) ((i - 18) mod 256).
Definition agree (K : Z -> Z) (k : subkeys) : Prop := forall i, 0 <= i < 1042 -> K i = flat k i.

Lemma quarter_land : forall x n, 0 <= n <= 3 -> Z.land (Z.shiftr x (8 * (3 - n))) 0xff = quarter x n.
Proof.
  intros x n Hn. change 0xff with (Z.ones 8). rewrite Z.land_ones by lia. rewrite Z.shiftr_div_pow2 by lia. reflexivity.
Qed.
Lemma quarter_byte : forall x n, 0 <= quarter x n < 256.
Proof. intros. unfold quarter. apply Z.mod_pos_bound. reflexivity. Qed.

Lemma flat_S : forall K k j i, agree K k -> 0 <= j < 4 -> 0 <= i < 256 -> K (18 + 256 * j + i) = S k j i.
Proof.
  intros K k j i A Hj Hi. rewrite A by lia. unfold flat. destruct (Z.ltb_spec (18 + 256 * j + i) 18); [lia|].
  replace (18 + 256 * j + i - 18) with (i + j * 256) by lia. rewrite Z.div_add, Z.mod_add by lia.
  now rewrite Z.div_small, Z.mod_small by lia.
Qed.
Lemma flat_P : forall K k i, agree K k -> 0 <= i < 18 -> K i = P k i.
Proof. intros K k i A Hi. rewrite A by lia. unfold flat. destruct (Z.ltb_spec i 18); [reflexivity|lia]. Qed.

Lemma f_same : forall K k x, agree K k -> bf_f K x = F k x.
Proof.
  intros K k x A. unfold bf_f, F. cbv zeta.
  pose proof (quarter_land x 0 ltac:(lia)) as Q0. pose proof (quarter_land x 1 ltac:(lia)) as Q1.
  pose proof (quarter_land x 2 ltac:(lia)) as Q2. pose proof (quarter_land x 3 ltac:(lia)) as Q3.
  change (8 * (3 - 0)) with 24 in Q0. change (8 * (3 - 1)) with 16 in Q1. change (8 * (3 - 2)) with 8 in Q2. change (8 * (3 - 3)) with 0 in Q3.
  rewrite Q0, Q1, Q2, Q3.
  pose proof (flat_S K k 0 _ A ltac:(lia) (quarter_byte x 0)) as E0. change (18 + 256 * 0) with (18 + 0) in E0.
  pose proof (flat_S K k 1 _ A ltac:(lia) (quarter_byte x 1)) as E1. change (18 + 256 * 1) with (18 + 256) in E1.
  pose proof (flat_S K k 2 _ A ltac:(lia) (quarter_byte x 2)) as E2. change (18 + 256 * 2) with (18 + 512) in E2.
  pose proof (flat_S K k 3 _ A ltac:(lia) (quarter_byte x 3)) as E3. change (18 + 256 * 3) with (18 + 768) in E3.
  rewrite E0, E1, E2, E3. reflexivity.
Qed.

(** Two rounds, with the first subkey already in. *)
Definition step (k : subkeys) (x : Z * Z) (p : Z) : Z * Z := (Z.lxor (F k (Z.lxor (fst x) (P k p))) (snd x), Z.lxor (fst x) (P k p)).
Lemma rounds_step : forall k ps x, rounds k ps x = fold_left (step k) ps x.
Proof.
  intros k. unfold rounds. induction ps as [|p ps IH]; intros [l r]; [reflexivity|]. cbn [fold_left]. rewrite IH. reflexivity.
Qed.

Lemma bf_two_step : forall K k p i j x, agree K k -> 0 <= i < 18 -> 0 <= j < 18 ->
  bf_two K i j (Z.lxor (fst x) (P k p), snd x)
  = (Z.lxor (fst (step k (step k x p) i)) (P k j), snd (step k (step k x p) i)).
Proof.
  intros K k p i j [l r] A Hi Hj. unfold bf_two, step. cbn [fst snd]. rewrite !(f_same K k) by exact A. rewrite !(flat_P K k) by assumption.
  assert (X : forall a b c, Z.lxor (Z.lxor a b) c = Z.lxor (Z.lxor c a) b).
  { intros a b c. rewrite (Z.lxor_comm c a), !Z.lxor_assoc. f_equal. apply Z.lxor_comm. }
  rewrite (X r (P k i) (F k _)). f_equal. apply X.
Qed.

Lemma encrypt_shape : forall K l r, is32 l -> is32 r -> key32 K -> bf_encrypt K (l, r) =
    let q := bf_two K 15 16 (bf_two K 13 14 (bf_two K 11 12 (bf_two K 9 10
                  (bf_two K 7 8 (bf_two K 5 6 (bf_two K 3 4 (bf_two K 1 2 (Z.lxor l (K 0), r)))))))) in (Z.lxor (snd q) (K 17), fst q).
Proof.
  intros K l r Hl Hr H32. unfold bf_encrypt. cbn [fst snd].
  assert (B0 : both32 (Z.lxor l (K 0), r)) by (split; [apply is32_lxor; [exact Hl|apply H32]|exact Hr]).
  assert (B1 : both32 (bf_two K 15 16 (bf_two K 13 14 (bf_two K 11 12 (bf_two K 9 10
                  (bf_two K 7 8 (bf_two K 5 6 (bf_two K 3 4 (bf_two K 1 2 (Z.lxor l (K 0), r)))))))))) by (repeat (apply bf_two_32; [exact H32|]); exact B0).
  cbv zeta. destruct (bf_two K 15 16 _) as [l' r']. destruct B1 as [B1 B2]. cbn [fst snd] in *.
  rewrite !land32; [reflexivity|exact B1|apply is32_lxor; [exact B2|apply H32]].
Qed.

Lemma encrypt_same : forall K k x, agree K k -> both32 x -> key32 K -> bf_encrypt K x = encipher k x.
Proof.
  intros K k [l r] A [Hl Hr] H32. cbn [fst snd] in *. rewrite encrypt_shape by assumption. cbv zeta.
  rewrite (flat_P K k 0) by (exact A || lia).
  change (Z.lxor l (P k 0), r) with (Z.lxor (fst (l, r)) (P k 0), snd (l, r)).
  rewrite (bf_two_step K k 0 1 2) by (exact A || lia). rewrite (bf_two_step K k 2 3 4) by (exact A || lia).
  rewrite (bf_two_step K k 4 5 6) by (exact A || lia). rewrite (bf_two_step K k 6 7 8) by (exact A || lia).
  rewrite (bf_two_step K k 8 9 10) by (exact A || lia). rewrite (bf_two_step K k 10 11 12) by (exact A || lia).
  rewrite (bf_two_step K k 12 13 14) by (exact A || lia). rewrite (bf_two_step K k 14 15 16) by (exact A || lia).
  rewrite (flat_P K k 17) by (exact A || lia). unfold encipher. rewrite rounds_step. cbn [fold_left].
  match goal with |- _ = (let '(a, b) := ?q in _) => generalize q end. intros [a b]. reflexivity.
Qed.

(** Decryption: the code uses the subkeys from the other end. *)
Definition turned (K : Z -> Z) : Z -> Z := fun i => if i <? 18 then K (17 - i) else K i.
Lemma turned_agree : forall K k, agree K k -> agree (turned K) (mkSub (fun i => P k (17 - i)) (S k)).
Proof.
  intros K k A i Hi. unfold turned, flat. cbn [P S]. destruct (Z.ltb_spec i 18) as [L|L].
  - apply (flat_P K k); [exact A|lia].
  - rewrite A by lia. unfold flat. destruct (Z.ltb_spec i 18); [lia|reflexivity].
Qed.
Lemma turned_f : forall K x, bf_f (turned K) x = bf_f K x.
Proof.
  intros K x. unfold bf_f. cbv zeta.
  assert (T : forall n b, 18 <= 18 + n -> 0 <= b -> turned K (18 + n + b) = K (18 + n + b)).
  { intros n b Hn Hb. unfold turned. destruct (Z.ltb_spec (18 + n + b) 18); [lia|reflexivity]. }
  assert (B : forall n, 0 <= Z.land (Z.shiftr x n) 0xff) by (intros; apply Z.land_nonneg; right; lia).
  rewrite !T by (lia || apply B). reflexivity.
Qed.
Lemma turned_two : forall K i j q, 0 <= i < 18 -> 0 <= j < 18 -> bf_two (turned K) i j q = bf_two K (17 - i) (17 - j) q.
Proof.
  intros K i j q Hi Hj. unfold bf_two. cbv zeta. rewrite !turned_f. unfold turned.
  destruct (Z.ltb_spec i 18); [|lia]. destruct (Z.ltb_spec j 18); [|lia]. reflexivity.
Qed.
Lemma decrypt_turned : forall K x, bf_decrypt K x = bf_encrypt (turned K) x.
Proof.
  intros K x. unfold bf_encrypt, bf_decrypt. rewrite !turned_two by lia. reflexivity.
Qed.
Lemma decrypt_same : forall K k x, agree K k -> both32 x -> key32 K -> bf_decrypt K x = decipher k x.
Proof.
  intros K k x A Hx H32. rewrite decrypt_turned. unfold decipher. apply encrypt_same; [now apply turned_agree|exact Hx|].
  intros i. unfold turned. destruct (i <? 18); apply H32.
Qed.

(** * Subkeys *)

Definition addr (p : place) : Z := match p with InP i => i | InS j i => 18 + 256 * j + i end.
Definition in_place (p : place) : Prop := match p with InP i => 0 <= i /\ i + 1 < 18 | InS j i => 0 <= j < 4 /\ 0 <= i /\ i + 1 < 256 end.

Lemma replace_agree : forall K k p x, agree K k -> in_place p ->
  agree (upd (upd K (addr p) (fst x)) (addr p + 1) (snd x)) (replace k p x).
Proof.
  intros K k p x A Hp i Hi. unfold upd, flat, replace. destruct p as [n|j n]; cbn [addr in_place P S] in *.
  - unfold set. destruct (Z.ltb_spec i 18) as [L|L].
    + destruct (Z.eqb_spec i (n + 1)); [reflexivity|]. destruct (Z.eqb_spec i n); [reflexivity|]. now apply (flat_P K k).
    + destruct (Z.eqb_spec i (n + 1)); [lia|]. destruct (Z.eqb_spec i n); [lia|]. rewrite A by lia. unfold flat. destruct (Z.ltb_spec i 18); [lia|reflexivity].
  - destruct (Z.ltb_spec i 18) as [L|L].
    + destruct (Z.eqb_spec i (18 + 256 * j + n + 1)); [lia|]. destruct (Z.eqb_spec i (18 + 256 * j + n)); [lia|]. now apply (flat_P K k).
    + assert (Ei : i = 18 + 256 * ((i - 18) / 256) + (i - 18) mod 256) by lia.
      assert (Hb : 0 <= (i - 18) mod 256 < 256) by lia. assert (Hj : 0 <= (i - 18) / 256 < 4) by lia.
      set (b := (i - 18) mod 256) in *. set (q := (i - 18) / 256) in *. clearbody b q. subst i.
      unfold set. destruct (Z.eqb_spec q j) as [E|N].
      * subst q. replace (18 + 256 * j + b =? 18 + 256 * j + n + 1) with (b =? n + 1) by (destruct (Z.eqb_spec b (n + 1)); symmetry; [apply Z.eqb_eq|apply Z.eqb_neq]; lia).
        replace (18 + 256 * j + b =? 18 + 256 * j + n) with (b =? n) by (destruct (Z.eqb_spec b n); symmetry; [apply Z.eqb_eq|apply Z.eqb_neq]; lia).
        destruct (b =? n + 1); [reflexivity|]. destruct (b =? n); [reflexivity|].
        now apply flat_S.
      * destruct (Z.eqb_spec (18 + 256 * q + b) (18 + 256 * j + n + 1)); [lia|]. destruct (Z.eqb_spec (18 + 256 * q + b) (18 + 256 * j + n)); [lia|].
        now apply flat_S.
Qed.

Lemma fill_agree : forall ps i K k x, agree K k -> key32 K -> both32 x -> Forall in_place ps ->
  map addr ps = map (fun n => i + 2 * Z.of_nat n) (seq 0 (length ps)) ->
  agree (bf_fill (length ps) i K x) (replace_all ps k x).
Proof.
  induction ps as [|p ps IH]; intros i K k x A H32 Hx F E; [exact A|]. inversion F as [|? ? Fp Fps]; subst.
  cbn [length seq map] in E. injection E as E1 E2. cbn [length bf_fill replace_all]. cbv zeta.
  rewrite (encrypt_same K k x A Hx H32).
  assert (B : both32 (encipher k x)) by (rewrite <- (encrypt_same K k x A Hx H32); now apply bf_encrypt_32).
  apply IH.
  - replace i with (addr p) by lia. now apply replace_agree.
  - intros n. unfold upd. destruct (n =? i + 1); [apply B|]. destruct (n =? i); [apply B|apply H32].
  - exact B.
  - exact Fps.
  - rewrite E2. rewrite <- seq_shift, map_map. apply map_ext. intros n. cbn beta. rewrite Nat2Z.inj_succ. match goal with |- i + ?t = _ => change t with (2 * Z.succ (Z.of_nat n)) end. lia.
Qed.

Lemma key_word_shl : forall data i, Forall is_byte data ->
  (let b k := bf_key_byte data (4 * i + k) in Z.lor (shl (Z.lor (shl (Z.lor (shl (b 0) 8) (b 1)) 8) (b 2)) 8) (b 3)) = key_word data i.
Proof.
  intros data i H.
  assert (B : forall n, is_byte (bf_key_byte data n)).
  { intros n. unfold bf_key_byte. rewrite Forall_forall in H. destruct (nth_in_or_default (Z.to_nat (n mod Z.of_nat (length data))) data 0) as [I|E]; [now apply H|rewrite E; unfold is_byte; lia]. }
  assert (J : forall x y n, 0 <= x < 2 ^ n -> n <= 24 -> is_byte y -> 0 <= n -> Z.lor (shl x 8) y = x * 256 + y).
  { intros x y n Hx Hn Hy Hn0.
    assert (Hp : 2 ^ n <= 2 ^ 24) by (apply Z.pow_le_mono_r; lia).
    unfold shl, u32. rewrite Z.shiftl_mul_pow2 by lia. change (2 ^ 8) with 256. change (2 ^ 24) with 16777216 in Hp. change (2 ^ 32) with 4294967296.
    rewrite Z.mod_small by lia.
    rewrite (lor_lxor (x * 256) y (Z.shiftl (Z.ones 24) 8) (Z.ones 8)).
    - rewrite <- Z.add_nocarry_lxor; [reflexivity|]. apply Z.bits_inj'. intros k Hk. rewrite Z.land_spec, Z.bits_0.
      destruct (Z_lt_dec k 8) as [L|L].
      + change 256 with (2 ^ 8). rewrite Z.mul_pow2_bits_low by lia. reflexivity.
      + assert (Ey : Z.testbit y k = false) by (rewrite <- (Z.mod_small y (2 ^ 8)) by exact Hy; apply Z.mod_pow2_bits_high; lia). rewrite Ey. apply andb_false_r.
    - change 256 with (2 ^ 8). rewrite <- Z.shiftl_mul_pow2 by lia. intros k Hk X. destruct (Z_lt_dec k 8) as [L|L]; [rewrite Z.shiftl_spec_low in X by lia; discriminate X|].
      rewrite Z.shiftl_spec in * by lia. refine (within_bound x 24 _ _ (k - 8) _ X); [lia|change (2 ^ 24) with 16777216; lia|lia].
    - apply within_bound; [lia|exact Hy].
    - reflexivity. }
  cbv zeta. pose proof (B (4 * i + 0)) as B0. pose proof (B (4 * i + 1)) as B1. pose proof (B (4 * i + 2)) as B2. pose proof (B (4 * i + 3)) as B3.
  unfold is_byte in *.
  rewrite (J (bf_key_byte data (4 * i + 0)) _ 8) by (assumption || lia).
  rewrite (J _ (bf_key_byte data (4 * i + 2)) 16) by (assumption || (change (2 ^ 16) with 65536; lia) || lia).
  rewrite (J _ (bf_key_byte data (4 * i + 3)) 24) by (assumption || (change (2 ^ 24) with 16777216; lia) || lia).
  unfold key_word. change (key_byte data (4 * i + 1)) with (bf_key_byte data (4 * i + 1)). change (key_byte data (4 * i + 2)) with (bf_key_byte data (4 * i + 2)).
  change (key_byte data (4 * i + 3)) with (bf_key_byte data (4 * i + 3)). change (key_byte data (4 * i)) with (bf_key_byte data (4 * i)). rewrite Z.add_0_r.
  change (2 ^ 24) with 16777216. change (2 ^ 16) with 65536. change (2 ^ 8) with 256. lia.
Qed.

Definition table (i : Z) : Z := nth (Z.to_nat i) bf_init 0.

Lemma mix_agree : forall data, Forall is_byte data -> agree (bf_mix data table) (mixed data (initial table)).
Proof.
  intros data H i Hi. unfold bf_mix, flat, mixed, initial. cbn [P S]. destruct (Z.ltb_spec i 18) as [L|L].
  - destruct (Z.leb_spec 0 i); [|lia]. cbn [andb]. rewrite <- (key_word_shl data i H). reflexivity.
  - destruct (Z.leb_spec 0 i); [|lia]. cbn [andb]. f_equal. lia.
Qed.

Lemma places_in : Forall in_place places.
Proof.
  apply Forall_forall. intros p Hp. unfold places in Hp. apply in_app_or in Hp as [Hp|Hp].
  - apply in_map_iff in Hp. destruct Hp as (i & <- & Hi). unfold evens in Hi. apply in_map_iff in Hi. destruct Hi as (n & <- & Hn). apply in_seq in Hn. cbn [in_place]. lia.
  - apply in_flat_map in Hp. destruct Hp as (j & Hj & Hp). apply in_map_iff in Hp. destruct Hp as (i & <- & Hi).
    unfold evens in Hi. apply in_map_iff in Hi. destruct Hi as (n & <- & Hn). apply in_seq in Hn. cbn [In] in Hj. cbn [in_place]. lia.
Qed.

Lemma places_addr : length places = 521%nat /\ map addr places = map (fun n => 0 + 2 * Z.of_nat n) (seq 0 521).
Proof. vm_compute. split; reflexivity. Qed.

Lemma table_32 : forall i, is32 (table i).
Proof.
  intros i. unfold table. assert (G : forallb (fun w => (0 <=? w) && (w <? 2 ^ 32)) bf_init = true) by (vm_compute; reflexivity).
  rewrite forallb_forall in G. destruct (nth_in_or_default (Z.to_nat i) bf_init 0) as [I|E]; [|rewrite E; split; reflexivity || lia].
  specialize (G _ I). unfold is32. lia.
Qed.

Lemma mix_32 : forall data, Forall is_byte data -> key32 (bf_mix data table).
Proof.
  intros data H i. unfold bf_mix. destruct (_ && _); [|apply table_32]. apply is32_lxor; [apply table_32|].
  assert (B : forall n, is_byte (bf_key_byte data n)).
  { intros n. unfold bf_key_byte. rewrite Forall_forall in H. destruct (nth_in_or_default (Z.to_nat (n mod Z.of_nat (length data))) data 0) as [I|E]; [now apply H|rewrite E; unfold is_byte; lia]. }
  cbv zeta. apply is32_lor; [apply is32_shl|]. pose proof (B (4 * i + 3)) as X. unfold is_byte in X. unfold is32. change (2 ^ 32) with 4294967296. lia.
Qed.

Lemma set_key_agree : forall data, Forall is_byte data -> agree (bf_set_key data) (key_schedule table data).
Proof.
  intros data H. destruct places_addr as [L E]. unfold bf_set_key, key_schedule. change (fun i => nth (Z.to_nat i) bf_init 0) with table.
  rewrite <- L. apply fill_agree; [now apply mix_agree|now apply mix_32|split; split; reflexivity || (cbn; lia)|exact places_in|]. rewrite L. exact E.
Qed.

(** * Memory *)

Lemma word_bytes : forall x, is32 x ->
  byte_of x 24 * 2 ^ 24 + byte_of x 16 * 2 ^ 16 + byte_of x 8 * 2 ^ 8 + byte_of x 0 = x.
Proof.
  intros x H. unfold byte_of. change 0xff with (Z.ones 8). rewrite !Z.land_ones by lia. rewrite !Z.shiftr_div_pow2 by lia.
  unfold is32 in H. change (2 ^ 32) with 4294967296 in H. change (2 ^ 24) with 16777216. change (2 ^ 16) with 65536. change (2 ^ 8) with 256. change (2 ^ 0) with 1. lia.
Qed.

Lemma words_of_bytes : forall p f, both32 p -> (forall i, 0 <= i < 8 -> f i = bb_be p i) -> p = words_of f.
Proof.
  intros [a b] f [Ha Hb] H. cbn [fst snd] in *. unfold words_of, word_of. change (0 + 1) with 1. change (0 + 2) with 2. change (0 + 3) with 3.
  change (4 + 1) with 5. change (4 + 2) with 6. change (4 + 3) with 7. rewrite !H by lia.
  f_equal; symmetry; [exact (word_bytes a Ha)|exact (word_bytes b Hb)].
Qed.

Lemma words_of_ext : forall f g, (forall i, 0 <= i < 8 -> f i = g i) -> words_of f = words_of g.
Proof.
  intros f g H. unfold words_of, word_of. change (0 + 1) with 1. change (0 + 2) with 2. change (0 + 3) with 3.
  change (4 + 1) with 5. change (4 + 2) with 6. change (4 + 3) with 7. now rewrite !H by lia.
Qed.

Lemma get_words : forall m a, byte_memory m -> fits a 8 -> bf_get m a = words_of (fun i => m (a + i)).
Proof. intros m a B F. apply words_of_bytes; [now apply get32_be|]. intros i Hi. symmetry. now apply get_be. Qed.

Lemma put_words : forall m p a, both32 p -> fits a 8 -> words_of (fun i => bf_put m p a (a + i)) = p.
Proof. intros m p a Hp F. symmetry. apply words_of_bytes; [exact Hp|]. intros i Hi. now apply (put_in _ _ _ _ _ codec_be). Qed.

(** * Chaining *)

Lemma all_words_S : forall f n, all_words_of f (Datatypes.S n) = words_of f :: all_words_of (fun k => f (k + 8)) n.
Proof.
  intros f n. unfold all_words_of. cbn [seq map]. f_equal.
  rewrite <- seq_shift, map_map. apply map_ext. intros i. apply words_of_ext. intros j Hj. f_equal. lia.
Qed.
Lemma all_words_last : forall f n, all_words_of f (Datatypes.S n) = all_words_of f n ++ [words_of (fun j => f (8 * Z.of_nat n + j))].
Proof. intros f n. unfold all_words_of. rewrite seq_S, map_app. reflexivity. Qed.
Lemma all_words_ext : forall n f g, (forall k, 0 <= k < 8 * Z.of_nat n -> f k = g k) -> all_words_of f n = all_words_of g n.
Proof.
  intros n f g H. unfold all_words_of. apply map_ext_in. intros i Hi. apply in_seq in Hi. apply words_of_ext. intros j Hj. apply H. lia.
Qed.

Lemma blocks_at_words : forall l m a, byte_memory m -> fits a (8 * Z.of_nat (length l)) -> blocks_at bf_get m a l ->
  l = all_words_of (fun k => m (a + k)) (length l).
Proof.
  induction l as [|b l IH]; intros m a B F H; [reflexivity|]. cbn [length] in F. destruct H as [<- H]. unfold fits in F.
  cbn [length]. rewrite all_words_S. f_equal; [apply get_words; [exact B|unfold fits; lia]|].
  rewrite (IH m (a + 8) B ltac:(unfold fits; lia) H) at 1. apply all_words_ext. intros k Hk. f_equal. lia.
Qed.

Lemma bf_chain_standard : forall k E, (forall p, both32 p -> E p = encipher k p) -> forall Bs Cs v, both32 v -> Forall both32 Bs -> Forall both32 Cs ->
  chain E v Bs Cs -> Cs = BF_chain k v Bs.
Proof.
  intros k E HE. induction Bs as [|b Bs IH]; intros [|c Cs] v V FB FC H; cbn [chain] in H; try contradiction; [reflexivity|]. destruct H as [H1 H2].
  pose proof (Forall_inv FB) as B1. pose proof (Forall_inv_tail FB) as B2. pose proof (Forall_inv FC) as C1. pose proof (Forall_inv_tail FC) as C2.
  cbn [BF_chain]. cbv zeta. change (xor_blocks b v) with (xor2 b v). rewrite <- HE by now apply both32_xor. rewrite <- H1. f_equal. now apply IH.
Qed.

Lemma BF_chain_snoc : forall k bs iv b, BF_chain k iv (bs ++ [b]) =
  BF_chain k iv bs ++ [encipher k (xor_blocks b (last (BF_chain k iv bs) iv))].
Proof.
  intros k. induction bs as [|a bs IH]; intros iv b; [reflexivity|]. cbn [app BF_chain]. cbv zeta. f_equal.
  rewrite IH. f_equal. f_equal. f_equal. f_equal. generalize (encipher k (xor_blocks a iv)). intros c.
  destruct (BF_chain k c bs) as [|x l]; [reflexivity|]. cbn [last]. clear. revert x. induction l as [|y l IH]; intros x; [reflexivity|]. apply IH.
Qed.

Lemma bf_cbc_standard : forall K k m iv src mid len m1 v1,
  agree K k -> key32 K -> byte_memory m -> both32 iv -> 0 <= len -> fits src len -> fits mid (padded len) ->
  safe_overlap src len mid (padded len) ->
  bf_cbc K true m src mid len iv = (m1, v1) ->
  all_words_of (fun i => m1 (mid + i)) (Z.to_nat (padded len / 8))
  = BF_chain k iv (all_words_of (fun i => if i <? len then m (src + i) else 0) (Z.to_nat (padded len / 8))).
Proof.
  intros K k m iv src mid len m1 v1 A K32 B V Hl Fs Fm So0 R. unfold bf_cbc, cbc_enc in R.
  assert (HE : forall p, both32 p -> bf_encrypt K p = encipher k p) by (intros p Hp; now apply encrypt_same).
  assert (E32 : forall p, both32 p -> both32 (bf_encrypt K p)) by (intros p Hp; now apply bf_encrypt_32).
  assert (DE : forall p, both32 p -> bf_decrypt K (bf_encrypt K p) = p) by (intros p Hp; now apply bf_inverse).
  set (E := bf_encrypt K) in *. clearbody E.
  destruct (cbc_enc_loop bf_get bf_put E (Z.to_nat (len / 8)) m src mid iv) as [ma va] eqn:EL.
  assert (Q : 8 * Z.of_nat (Z.to_nat (len / 8)) = 8 * (len / 8)) by lia.
  assert (Q0 : 0 <= 8 * (len / 8) <= len) by lia.
  assert (Qm : len = 8 * (len / 8) + len mod 8 /\ 0 <= len mod 8 < 8) by lia.
  assert (PD : (len mod 8 = 0 -> padded len = 8 * (len / 8)) /\ (len mod 8 <> 0 -> padded len = 8 * (len / 8) + 8)) by (unfold padded; lia).
  unfold fits in Fs, Fm.
  assert (So : safe_overlap src (8 * Z.of_nat (Z.to_nat (len / 8)) + len mod 8) mid (8 * Z.of_nat (Z.to_nat (len / 8)))).
  { rewrite Q. unfold safe_overlap, apart in *. lia. }
  destruct (enc_loop_spec _ _ _ _ _ codec_be E _ E32 DE (Z.to_nat (len / 8)) m src mid iv (len mod 8) ma va B V ltac:(lia)
              ltac:(unfold fits; lia) ltac:(unfold fits; lia) So EL)
    as (Ba & Va & Oa & Bs & Cs & L1 & L2 & CH & FB & FC & LV & BA1 & BA2).
  pose proof (bf_chain_standard k E HE Bs Cs iv V FB FC CH) as X.
  rewrite (blocks_at_words Bs m src B ltac:(unfold fits; lia) BA1) in X.
  rewrite L1 in X.
  assert (Xin : all_words_of (fun i => m (src + i)) (Z.to_nat (len / 8)) = all_words_of (fun i => if i <? len then m (src + i) else 0) (Z.to_nat (len / 8))).
  { apply all_words_ext. intros i Hi. destruct (Z.ltb_spec i len); [reflexivity|lia]. }
  rewrite Xin in X. clear Xin.
  pose proof (blocks_at_words Cs ma mid Ba ltac:(unfold fits; lia) BA2) as Y. rewrite L2 in Y.
  destruct (Z.eqb_spec (len mod 8) 0) as [Z8|N8].
  - injection R as <- <-. replace (padded len / 8) with (len / 8) by lia. rewrite <- X. symmetry. exact Y.
  - rewrite (u32_step src (8 * (len / 8))), (u32_step mid (8 * (len / 8))) in R by lia.
    set (q8 := 8 * (len / 8)) in *. set (b := bf_getn ma (src + q8) (len mod 8)) in *. set (c := E (xor2 b va)) in *.
    assert (R8 : 0 < len mod 8 < 8) by lia.
    assert (Fq : fits (mid + q8) 8) by (unfold fits; lia).
    assert (b32 : both32 b) by now apply (cd_getn32 _ _ _ _ _ codec_be).
    assert (c32 : both32 c) by (apply E32; now apply both32_xor).
    injection R as <- <-.
    replace (Z.to_nat (padded len / 8)) with (Datatypes.S (Z.to_nat (len / 8))) by lia.
    rewrite !all_words_last, BF_chain_snoc. rewrite <- X.
    assert (Ec : encipher k (xor_blocks b (last Cs iv)) = c).
    { rewrite <- LV. symmetry. apply HE. now apply both32_xor. }
    f_equal; [|f_equal].
    + rewrite Y. apply all_words_ext. intros i Hi.
      apply (put_out _ _ _ _ _ codec_be); [exact Fq|lia].
    + rewrite Q. transitivity c.
      { etransitivity; [|exact (put_words ma c (mid + q8) c32 Fq)]. apply words_of_ext. intros i Hi. now rewrite Z.add_assoc. }
      rewrite <- Ec. f_equal. f_equal. apply words_of_bytes; [exact b32|]. intros i Hi.
      unfold b. rewrite getn_be; [|exact Ba|exact R8|unfold fits; lia|exact Hi].
      destruct (Z.ltb_spec i (len mod 8)), (Z.ltb_spec (q8 + i) len); try lia; try reflexivity.
      rewrite Z.add_assoc. symmetry. rewrite Oa; [f_equal; lia|]. unfold safe_overlap, apart in So0. lia.
Qed.
