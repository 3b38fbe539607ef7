(** Proofs for C88. *)
From Verif Require Import Model.Base Model.Mem Model.Syscall Model.ErrorHm Spec.HealthMonitor Proof.Tac.

Lemma blit_out : forall m a src n x, x < a \/ a + n <= x -> blit m a src n x = m x.
Proof.
  intros m a src n x H. unfold blit. destruct ((a <=? x) && (x <? a + n)) eqn:E; [|reflexivity].
  apply andb_prop in E. destruct E as [E1 E2]. apply Z.leb_le in E1. apply Z.ltb_lt in E2. lia.
Qed.
Lemma blit_in : forall m a src n x, a <= x < a + n -> blit m a src n x = src (x - a).
Proof.
  intros m a src n x H. unfold blit. destruct ((a <=? x) && (x <? a + n)) eqn:E; [reflexivity|].
  apply andb_false_iff in E. destruct E as [E | E]; [apply Z.leb_gt in E|apply Z.ltb_ge in E]; lia.
Qed.
Lemma number_store : forall m a v, 0 <= v < 2 ^ 32 -> number (store32 m a v) a = v.
Proof.
  intros m a v H. unfold number, store32. rewrite !blit_in by lia.
  replace (a - a) with 0 by lia. replace (a + 1 - a) with 1 by lia. replace (a + 2 - a) with 2 by lia. replace (a + 3 - a) with 3 by lia.
  change (2 ^ (8 * 0)) with 1. change (2 ^ (8 * 1)) with 256. change (2 ^ (8 * 2)) with 65536. change (2 ^ (8 * 3)) with 16777216.
  change (2 ^ 32) with 4294967296 in H. clear - H. lia.
Qed.
Lemma number_ext : forall m m' a, (forall i, 0 <= i < 4 -> m' (a + i) = m (a + i)) -> number m' a = number m a.
Proof.
  intros m m' a H. unfold number. rewrite <- (Z.add_0_r a) at 1 5. rewrite (H 0), (H 1), (H 2), (H 3) by lia. reflexivity.
Qed.
Lemma number_word : forall m a, word_at m a = number m a.
Proof.
  intros m a. unfold word_at, number. change (2 ^ 8) with 256. change (2 ^ 16) with 65536. change (2 ^ 24) with 16777216. ring.
Qed.
Lemma store_out : forall m a v x, x < a \/ a + 4 <= x -> store32 m a v x = m x.
Proof. intros. unfold store32. now apply blit_out. Qed.
Lemma number_store_out : forall m a v b, b + 4 <= a \/ a + 4 <= b -> number (store32 m a v) b = number m b.
Proof. intros m a v b H. apply number_ext. intros i Hi. apply store_out. lia. Qed.
Lemma number_blit_out : forall m a s n b, 0 <= n -> b + 4 <= a \/ a + n <= b -> number (blit m a s n) b = number m b.
Proof. intros m a s n b Hn H. apply number_ext. intros i Hi. apply blit_out. lia. Qed.
Lemma bytes_ext : forall m m' a n, (forall i, 0 <= i < Z.of_nat n -> m' (a + i) = m (a + i)) -> bytes m' a n = bytes m a n.
Proof. intros m m' a n H. unfold bytes. apply map_ext_in. intros i Hi. apply in_seq in Hi. apply H. lia. Qed.
Lemma bytes_blit : forall m a s n, bytes (blit m a s (Z.of_nat n)) a n = bytes s 0 n.
Proof.
  intros m a s n. unfold bytes. apply map_ext_in. intros i Hi. apply in_seq in Hi. rewrite blit_in by lia. f_equal. lia.
Qed.
Lemma bytes_shift : forall m a n, bytes (fun i => m (a + i)) 0 n = bytes m a n.
Proof. intros. unfold bytes. apply map_ext. intros i. reflexivity. Qed.
Lemma bytes_len : forall m a n, length (bytes m a n) = n.
Proof. intros. unfold bytes. now rewrite map_length, seq_length. Qed.

Lemma cur_set : forall k s, cur (set_status k s) = mkPart (p_low (cur k)) (p_current (cur k)) (p_handler (cur k)) s.
Proof. intros k s. unfold cur at 1, set_status. cbn [k_cur k_parts]. unfold upd. now rewrite Z.eqb_refl. Qed.
Lemma other_set : forall k s i, i <> k_cur k -> k_parts (set_status k s) i = k_parts k i.
Proof. intros k s i H. unfold set_status, upd. cbn [k_parts]. destruct (Z.eqb_spec i (k_cur k)); [contradiction|reflexivity]. Qed.

(** What the kernel writes. *)
Lemma get_writes : forall k m a s, p_status (cur k) = s -> s_kind s <> KIND_INVALID -> 0 <= s_thread s < 2 ^ 32 -> 0 <= s_size s <= 250 ->
  exists m', error_get k m a = (m', ERR_OK) /\ m' a = s_kind s /\ number m' (a + 4) = s_thread s /\ number m' (a + 264) = s_size s /\
    bytes m' (a + 12) (Z.to_nat (s_size s)) = bytes (s_msg s) 0 (Z.to_nat (s_size s)) /\ only m m' a 268 /\
    only_report m m' a (s_size s) /\
    (forall i, 0 <= i < s_size s -> m' (a + 12 + i) = s_msg s i).
Proof.
  intros k m a s Hs Hk Ht Hn. unfold error_get. rewrite Hs. destruct (Z.eqb_spec (s_kind s) KIND_INVALID); [contradiction|].
  eexists. split; [reflexivity|].
  split; [|split; [|split; [|split; [|split; [|split]]]]].
  - rewrite blit_out, !store_out by lia. unfold upd. now rewrite Z.eqb_refl.
  - rewrite number_blit_out, !number_store_out by lia. now apply number_store.
  - rewrite number_blit_out by lia. apply number_store. change (2 ^ 32) with 4294967296. lia.
  - match goal with |- bytes (blit ?mm _ _ _) _ _ = _ => set (m0 := mm); clearbody m0 end.
    assert (E : s_size s = Z.of_nat (Z.to_nat (s_size s))) by lia. rewrite E at 1. apply bytes_blit.
  - intros x Hx. rewrite blit_out, !store_out by lia. unfold upd. destruct (Z.eqb_spec x a); [lia|reflexivity].
  - intros x Hx. destruct (Z.eq_dec x a); [tauto|].
    assert (x < a \/ a < x < a + 4 \/ a + 12 + s_size s <= x < a + 264 \/ a + 268 <= x) as D by lia. clear Hx.
    rewrite blit_out, !store_out by lia. unfold upd. destruct (Z.eqb_spec x a); [lia|reflexivity].
  - intros i Hi. rewrite blit_in by lia. f_equal. lia.
Qed.
