(** Buffers implement queues. *)
From Verif Require Import Model.Base Model.Middleware Spec.MiddlewareSpec Proof.Tac.

(** * Names *)

Lemma streq_loop_spec : forall n a b, (n = Nat.min (length a) (length b))%nat -> streq_loop n a b = true <-> prefix_of a b \/ prefix_of b a.
Proof.
  induction n as [|n IH]; intros a b H.
  - cbn. split; [intros _|reflexivity]. destruct a as [|x a]; [left; now exists b|]. destruct b as [|y b]; [right; now exists (x :: a)|].
    cbn in H. lia.
  - destruct a as [|x a], b as [|y b]; cbn [length Nat.min] in H; try lia. cbn [streq_loop].
    assert (P : forall (u v : list Z) c d, prefix_of (c :: u) (d :: v) <-> c = d /\ prefix_of u v).
    { intros u v c d. split.
      - intros [t E]. inversion E; subst. split; [reflexivity|now exists t].
      - intros [-> [t ->]]. now exists t. }
    rewrite !P. destruct (Z.eqb_spec x y) as [->|N].
    + rewrite IH by lia. tauto.
    + split; [discriminate|]. intros [[E _]|[E _]]; congruence.
Qed.

Lemma streq_spec : forall a b, Z.of_nat (length a) < 256 \/ Z.of_nat (length b) < 256 ->
  streq a b = true <-> prefix_of a b \/ prefix_of b a.
Proof.
  intros a b H. unfold streq. apply streq_loop_spec. unfold u8. change (2 ^ 8) with 256.
  destruct (Z.ltb_spec (Z.of_nat (length a)) (Z.of_nat (length b))); rewrite Z.mod_small by lia; lia.
Qed.

Lemma find_position : forall names name, good_names names -> position names name 0 <> None ->
  find_name names name 0 = position names name 0.
Proof.
  intros names name [L D] P.
  (* all names before the first equal one are different and no prefixes *)
  assert (G : forall pre suf k, names = pre ++ suf -> Z.of_nat (length pre) = k -> position suf name k <> None ->
            find_name suf name k = position suf name k).
  { intros pre suf. revert pre. induction suf as [|x t IH]; intros pre k E K Q; [reflexivity|]. cbn [find_name position] in *.
    destruct (list_eq_dec Z.eq_dec name x) as [->|N].
    - assert (S : streq x x = true); [|now rewrite S].
      apply streq_spec; [left; rewrite Forall_forall in L; apply L; rewrite E; apply in_or_app; right; now left|]. left. exists []. now rewrite app_nil_r.
    - destruct (streq name x) eqn:SE.
      + exfalso. assert (In name t).
        { clear - Q. revert Q. generalize (k + 1). induction t as [|y t IH]; intros k' Q; [now destruct Q|]. cbn in Q.
          destruct (list_eq_dec Z.eq_dec name y) as [->|]; [now left|right; eauto]. }
        apply In_nth_error in H as [j Hj].
        assert (I1 : nth_error names (length pre) = Some x) by (rewrite E, nth_error_app2, Nat.sub_diag by lia; reflexivity).
        assert (I2 : nth_error names (length pre + S j) = Some name).
        { rewrite E, nth_error_app2 by lia. replace (length pre + S j - length pre)%nat with (S j) by lia. exact Hj. }
        apply streq_spec in SE.
        * destruct SE as [SE|SE]; [pose proof (D _ _ _ _ I2 I1 SE)|pose proof (D _ _ _ _ I1 I2 SE)]; lia.
        * right. rewrite Forall_forall in L. apply L. eapply nth_error_In; exact I1.
      + apply (IH (pre ++ [x])); [rewrite <- app_assoc; exact E|rewrite app_length; cbn; lia|exact Q]. }
  apply (G [] names 0); auto.
Qed.

(** * Rings of slots *)

Lemma slot_unique : forall m i j a b, 0 <= a < m -> 0 <= b < m -> i * m + a = j * m + b -> i = j /\ a = b.
Proof.
  intros m i j a b A B E.
  assert (i = (i * m + a) / m) by (apply (Z.div_unique _ _ _ a); lia).
  assert (j = (j * m + b) / m) by (apply (Z.div_unique _ _ _ b); lia).
  assert (i = j) by (rewrite H, H0, E; reflexivity). subst. split; [reflexivity|lia].
Qed.

Lemma ring_next : forall c m e, 0 < c -> 0 < m -> c * m <= 1024 -> 0 <= e < c ->
  u32 (e * m + m) mod (c * m) = ((e + 1) mod c) * m.
Proof.
  intros c m e C M B E. assert (e * m + m <= c * m) by (rewrite <- Z.mul_succ_l; apply Z.mul_le_mono_nonneg_r; lia).
  assert (0 <= e * m) by (apply Z.mul_nonneg_nonneg; lia).
  unfold u32. rewrite (Z.mod_small (e * m + m) (2 ^ 32)) by lia. replace (e * m + m) with ((e + 1) * m) by lia.
  apply Z.mul_mod_distr_r; lia.
Qed.

Record buf_ok (used : Z) (b : buffer) (d : Z -> Z) (q : queue) (h : Z) : Prop := {
  bk_ready : b_ready b = true;
  bk_cap : 0 < q_capacity q;
  bk_msz : 0 < q_msgsize q;
  bk_size : b_size b = q_capacity q * q_msgsize q;
  bk_msgsize : b_msgsize b = q_msgsize q;
  bk_index : 0 <= b_index b /\ b_index b + b_size b <= used;
  bk_h : 0 <= h < q_capacity q;
  bk_len : Z.of_nat (length (q_items q)) <= q_capacity q;
  bk_offb : b_offb b = h * q_msgsize q;
  bk_offe : b_offe b = ((h + Z.of_nat (length (q_items q))) mod q_capacity q) * q_msgsize q;
  bk_empty : b_empty b = match q_items q with [] => true | _ => false end;
  bk_full : b_full b = (Z.of_nat (length (q_items q)) =? q_capacity q);
  bk_data : forall k it, nth_error (q_items q) k = Some it ->
    it = get_bytes d (b_index b + ((h + Z.of_nat k) mod q_capacity q) * q_msgsize q) (q_msgsize q)
}.

Record bufs_ok (names : list (list Z)) (s : buffers) (st : queues) : Prop := {
  bs_next : bu_next s = qs_used st /\ 0 <= qs_used st <= DATA_SIZE;
  bs_none : forall i, qs st i = None -> b_ready (bu s i) = false /\ b_full (bu s i) = false;
  bs_some : forall i q, qs st i = Some q -> exists h, buf_ok (qs_used st) (bu s i) (bu_data s) q h;
  bs_apart : forall i j q r, qs st i = Some q -> qs st j = Some r -> i <> j ->
    b_index (bu s i) + b_size (bu s i) <= b_index (bu s j) \/ b_index (bu s j) + b_size (bu s j) <= b_index (bu s i);
  bs_outside : forall x, ~ (0 <= x < DATA_SIZE) -> bu_data s x = 0
}.

Lemma get_bytes_ext : forall d d' a b n, (forall k, 0 <= k < n -> d (a + k) = d' (b + k)) -> get_bytes d a n = get_bytes d' b n.
Proof. intros. unfold get_bytes. apply map_ext_in. intros k Hk. apply in_seq in Hk. apply H. lia. Qed.

Lemma get_put : forall d off msg n, 0 <= n -> get_bytes (put_bytes d off msg n) off n = bytes_of msg n.
Proof.
  intros. unfold get_bytes, bytes_of. apply map_ext_in. intros k Hk. apply in_seq in Hk. unfold put_bytes.
  destruct (Z.leb_spec off (off + Z.of_nat k)), (Z.ltb_spec (off + Z.of_nat k) (off + n)); try lia. cbn [andb]. f_equal. lia.
Qed.

Lemma put_other : forall d off msg n x, ~ (off <= x < off + n) -> put_bytes d off msg n x = d x.
Proof. intros. unfold put_bytes. destruct (Z.leb_spec off x), (Z.ltb_spec x (off + n)); cbn; auto. lia. Qed.

Lemma start_ok : forall names, bufs_ok names buffers_start queues_start.
Proof. intros. constructor; cbn; intros; try discriminate; auto. unfold DATA_SIZE. lia. Qed.

(** A buffer does not care about what is written elsewhere. *)
Lemma buf_ok_frame : forall used used' b d d' q h, buf_ok used b d q h -> used <= used' ->
  (forall x, b_index b <= x < b_index b + b_size b -> d' x = d x) -> buf_ok used' b d' q h.
Proof.
  intros used used' b d d' q h [] U H. constructor; try assumption; [lia|].
  intros k it I. rewrite (bk_data0 k it I). apply get_bytes_ext. intros j Hj. symmetry. apply H.
  rewrite bk_size0. pose proof (Z.mod_pos_bound (h + Z.of_nat k) (q_capacity q) bk_cap0) as M.
  set (r := (h + Z.of_nat k) mod q_capacity q) in *.
  assert (r * q_msgsize q + q_msgsize q <= q_capacity q * q_msgsize q)
    by (rewrite <- Z.mul_succ_l; apply Z.mul_le_mono_nonneg_r; lia).
  assert (0 <= r * q_msgsize q) by (apply Z.mul_nonneg_nonneg; lia). lia.
Qed.

(** * The operations *)

Lemma create_ok : forall names name size msz r s st st' out, good_names names -> bufs_ok names s st ->
  queue_step names (BCreate name size msz r) st = Some (st', out) ->
  exists s', buffer_create names name size msz r s = (s', out) /\ bufs_ok names s' st'.
Proof.
  intros names name size msz r s st st' out G K E. cbn [queue_step] in E. unfold buffer_create.
  destruct (position names name 0) as [n|] eqn:P; [|discriminate].
  rewrite find_position by (try assumption; rewrite P; discriminate). rewrite P.
  destruct (qs st n) as [q|] eqn:Q.
  - inversion E; subst. destruct (bs_some _ _ _ K n q Q) as [h B]. rewrite (bk_ready _ _ _ _ _ B). exists s. auto.
  - destruct (bs_none _ _ _ K n Q) as [R F]. rewrite R. destruct (r =? ERR_OK); cbn [negb] in *; [|inversion E; subst; exists s; auto].
    destruct ((0 <? msz) && (0 <? size) && (size mod msz =? 0) && (qs_used st + size <=? DATA_SIZE)) eqn:C; [|discriminate].
    apply andb_true_iff in C as [C C4]. apply andb_true_iff in C as [C C3]. apply andb_true_iff in C as [C1 C2].
    apply Z.ltb_lt in C1, C2. apply Z.eqb_eq in C3. apply Z.leb_le in C4.
    inversion E; subst; clear E. eexists. split; [reflexivity|]. destruct K as [[N1 N2] NN SS AA OO]. unfold DATA_SIZE in *.
    assert (SZ : size = size / msz * msz) by (pose proof (Z.div_mod size msz ltac:(lia)); lia).
    assert (CP : 0 < size / msz) by (apply Z.div_str_pos; split; [lia|]; apply Z.divide_pos_le; [lia|]; apply Z.mod_divide; lia).
    constructor; cbn [bu bu_data bu_next qs qs_used].
    + rewrite N1. unfold u32. rewrite Z.mod_small by lia. unfold DATA_SIZE. lia.
    + intros i Hi. destruct (Z.eq_dec i n) as [->|Ni]; [rewrite upd_same in Hi; discriminate|]. rewrite upd_other in Hi |- * by assumption. auto.
    + intros i q Hi. destruct (Z.eq_dec i n) as [->|Ni].
      * rewrite upd_same in Hi |- *. inversion Hi; subst; clear Hi. exists 0.
        constructor; cbn [q_capacity q_msgsize q_items b_ready b_empty b_full b_size b_index b_offb b_offe b_msgsize length]; auto; try lia.
        -- rewrite F. symmetry. apply Z.eqb_neq. cbn. lia.
        -- intros [|k] it X; discriminate.
      * rewrite upd_other in Hi |- * by assumption. destruct (SS i q Hi) as [h B]. exists h. eapply buf_ok_frame; [exact B|lia|auto].
    + intros i j q r' Hi Hj D. assert (X : forall k q', qs st k = Some q' -> b_index (bu s k) + b_size (bu s k) <= qs_used st).
      { intros k q' Hk. destruct (SS k q' Hk) as [h B]. apply (bk_index _ _ _ _ _ B). }
      destruct (Z.eq_dec i n) as [->|Ni], (Z.eq_dec j n) as [->|Nj]; try congruence;
        rewrite ?upd_same, ?upd_other in * by assumption; cbn [b_index b_size].
      * right. rewrite N1. eauto.
      * left. rewrite N1. eauto.
      * eauto.
    + exact OO.
Qed.

Lemma nth_error_snoc : forall (A : Type) (l : list A) x k y, nth_error (l ++ [x]) k = Some y ->
  nth_error l k = Some y \/ (k = length l /\ y = x).
Proof.
  intros A l x k y H. destruct (Nat.lt_ge_cases k (length l)) as [L|L].
  - left. rewrite nth_error_app1 in H by exact L. exact H.
  - rewrite nth_error_app2 in H by exact L. destruct (k - length l)%nat as [|z] eqn:D; cbn in H; [|destruct z; discriminate].
    right. split; [lia|congruence].
Qed.

Lemma ring_distinct : forall c h a b, 0 < c -> 0 <= a < c -> 0 <= b < c -> (h + a) mod c = (h + b) mod c -> a = b.
Proof.
  intros c h a b C A B E.
  assert (X : (a - b) mod c = 0).
  { replace (a - b) with ((h + a) - (h + b)) by lia. rewrite Zminus_mod, E, Z.sub_diag. apply Z.mod_0_l; lia. }
  apply Z.mod_divide in X; [|lia]. destruct X as [k X].
  assert (k = 0); [|subst; lia]. assert (-1 < k < 1); [|lia]. split; apply (Z.mul_lt_mono_pos_r c); lia.
Qed.

(** Updating the data of one buffer within its own area. *)
Lemma update_one : forall names s st id q q' b' d' h', bufs_ok names s st -> qs st id = Some q ->
  b_index b' = b_index (bu s id) -> b_size b' = b_size (bu s id) ->
  (forall x, ~ (b_index (bu s id) <= x < b_index (bu s id) + b_size (bu s id)) -> d' x = bu_data s x) ->
  buf_ok (qs_used st) b' d' q' h' ->
  bufs_ok names (mkBuffers (upd (bu s) id b') d' (bu_next s)) (mkQueues (upd (qs st) id (Some q')) (qs_used st)).
Proof.
  intros names s st id q q' b' d' h' [[N1 N2] NN SS AA OO] Q I1 S1 D B.
  destruct (SS id q Q) as [h0 B0].
  constructor; cbn [bu bu_data bu_next qs qs_used].
  - auto.
  - intros i Hi. destruct (Z.eq_dec i id) as [->|Ni]; [rewrite upd_same in Hi; discriminate|]. rewrite upd_other in Hi |- * by assumption. auto.
  - intros i r Hi. destruct (Z.eq_dec i id) as [->|Ni].
    + rewrite upd_same in Hi |- *. inversion Hi; subst. now exists h'.
    + rewrite upd_other in Hi |- * by assumption. destruct (SS i r Hi) as [h Bi]. exists h.
      eapply buf_ok_frame; [exact Bi|lia|]. intros x Hx. apply D. destruct (AA i id r q Hi Q Ni); lia.
  - intros i j r r' Hi Hj Dij.
    assert (X : forall k, b_index (upd (bu s) id b' k) = b_index (bu s k) /\ b_size (upd (bu s) id b' k) = b_size (bu s k)).
    { intros k. destruct (Z.eq_dec k id) as [->|Nk]; [rewrite upd_same; auto|rewrite upd_other by assumption; auto]. }
    destruct (X i) as [-> ->], (X j) as [-> ->].
    assert (Y : forall k v, upd (qs st) id (Some q') k = Some v -> exists v', qs st k = Some v').
    { intros k v Hk. destruct (Z.eq_dec k id) as [->|Nk]; [eauto|rewrite upd_other in Hk by assumption; eauto]. }
    destruct (Y i r Hi) as [v Hv], (Y j r' Hj) as [v' Hv']. eauto.
  - intros x Hx. rewrite D; [auto|]. pose proof (bk_index _ _ _ _ _ B0). unfold DATA_SIZE in *. lia.
Qed.

Lemma send_ok : forall names id data len timeout s st st' out, bufs_ok names s st ->
  queue_step names (BSend id data len timeout) st = Some (st', out) ->
  exists s', buffer_send (Z.of_nat (length names)) id data len timeout s = (s', out) /\ bufs_ok names s' st'.
Proof.
  intros names id data len timeout s st st' out K E. cbn [queue_step] in E. unfold buffer_send.
  destruct (id <? 0); cbn [orb] in E; [discriminate|]. destruct (id =? Z.of_nat (length names)); [discriminate|].
  destruct (Z.of_nat (length names) <? id); [inversion E; subst; exists s; auto|].
  destruct (qs st id) as [q|] eqn:Q.
  2:{ destruct (bs_none _ _ _ K id Q) as [R _]. rewrite R. cbn [negb]. exists s. destruct data; inversion E; subst; auto. }
  destruct (bs_some _ _ _ K id q Q) as [h B]. rewrite (bk_ready _ _ _ _ _ B). cbn [negb].
  destruct data as [msg|]; [|inversion E; subst; exists s; auto].
  destruct (Z.eqb_spec len (q_msgsize q)) as [->|]; [|discriminate]. cbn [negb] in E.
  pose proof B as []. pose proof (bs_next _ _ _ K) as [NX NU]. unfold DATA_SIZE in NU.
  assert (SB : q_capacity q * q_msgsize q <= 1024) by lia.
  assert (MC : q_msgsize q <= q_capacity q * q_msgsize q).
  { rewrite <- (Z.mul_1_l (q_msgsize q)) at 1. apply Z.mul_le_mono_nonneg_r; lia. }
  destruct (Z.leb_spec (q_msgsize q) 0); [lia|].
  assert (W : u32 (b_size (bu s id) * b_msgsize (bu s id)) <? q_msgsize q = false).
  { apply Z.ltb_ge. rewrite bk_size0, bk_msgsize0. unfold u32.
    assert (q_capacity q * q_msgsize q * q_msgsize q <= 1024 * 1024) by (apply Z.mul_le_mono_nonneg; lia).
    assert (q_capacity q * q_msgsize q * 1 <= q_capacity q * q_msgsize q * q_msgsize q) by (apply Z.mul_le_mono_nonneg_l; lia).
    rewrite Z.mod_small by lia. lia. }
  rewrite W, bk_full0. destruct (Z.of_nat (length (q_items q)) =? q_capacity q) eqn:FL; [inversion E; subst; exists s; auto|].
  apply Z.eqb_neq in FL. destruct (Z.eqb_spec (b_size (bu s id)) 0) as [|NZ]; [lia|].
  inversion E; subst; clear E. eexists. split; [reflexivity|].
  set (n := Z.of_nat (length (q_items q))) in *. set (c := q_capacity q) in *. set (m := q_msgsize q) in *.
  pose proof (Z.mod_pos_bound (h + n) c bk_cap0) as ME. set (e := (h + n) mod c) in *.
  assert (EM : 0 <= e * m /\ e * m + m <= c * m).
  { split; [apply Z.mul_nonneg_nonneg; lia|]. rewrite <- Z.mul_succ_l. apply Z.mul_le_mono_nonneg_r; lia. }
  assert (IDX : u32 (b_index (bu s id) + b_offe (bu s id)) = b_index (bu s id) + e * m)
    by (rewrite bk_offe0; unfold u32; apply Z.mod_small; lia).
  assert (NE : u32 (b_offe (bu s id) + m) mod b_size (bu s id) = ((h + (n + 1)) mod c) * m).
  { rewrite bk_offe0, bk_size0, ring_next by lia. f_equal. unfold e. rewrite Zplus_mod_idemp_l. f_equal. lia. }
  rewrite IDX, NE. eapply update_one; [exact K|exact Q|reflexivity|reflexivity| |].
  - intros x Hx. apply put_other. lia.
  - apply (Build_buf_ok _ _ _ _ h); cbn [b_ready b_empty b_full b_size b_index b_offb b_offe b_msgsize q_capacity q_msgsize q_items]; fold c m; auto;
      rewrite ?app_length; cbn [length]; rewrite ?Nat2Z.inj_add; cbn [Z.of_nat Pos.of_succ_nat]; fold n; try lia.
    + now destruct (q_items q).
    + rewrite bk_offb0. destruct (Z.eqb_spec (n + 1) c) as [EC|EC].
      * replace (h + (n + 1)) with (h + 1 * c) by lia. rewrite Z.mod_add, Z.mod_small by lia. now rewrite Z.eqb_refl.
      * destruct (Z.eqb_spec ((h + (n + 1)) mod c * m) (h * m)) as [X|X]; [|exact bk_full0 || reflexivity].
        exfalso. apply Z.mul_reg_r in X; [|lia].
        assert (n + 1 = 0); [|lia]. apply (ring_distinct c h); try lia. rewrite X, Z.add_0_r, Z.mod_small by lia. reflexivity.
    + intros k it I. apply nth_error_snoc in I as [I|[-> ->]].
      * rewrite (bk_data0 k it I). apply get_bytes_ext. intros j Hj. symmetry. apply put_other.
        assert (Hk : Z.of_nat k < n) by (assert (k < length (q_items q))%nat by (apply nth_error_Some; rewrite I; discriminate); lia).
        intros X. pose proof (slot_unique m ((h + Z.of_nat k) mod c) e j (b_index (bu s id) + ((h + Z.of_nat k) mod c) * m + j - b_index (bu s id) - e * m)
          ltac:(lia) ltac:(lia) ltac:(lia)) as [Y _]. unfold e in Y. apply ring_distinct in Y; lia.
      * symmetry. fold n. fold e. apply get_put. lia.
Qed.

Lemma receive_ok : forall names id timeout null s st st' out, bufs_ok names s st ->
  queue_step names (BReceive id timeout null) st = Some (st', out) ->
  exists s', buffer_receive (Z.of_nat (length names)) id timeout null s = (s', out) /\ bufs_ok names s' st'.
Proof.
  intros names id timeout null s st st' out K E. cbn [queue_step] in E. unfold buffer_receive.
  destruct (id <? 0); cbn [orb] in E; [discriminate|]. destruct (id =? Z.of_nat (length names)); [discriminate|].
  destruct (Z.of_nat (length names) <? id); [inversion E; subst; exists s; auto|].
  destruct (qs st id) as [q|] eqn:Q.
  2:{ destruct (bs_none _ _ _ K id Q) as [R _]. rewrite R. cbn [negb]. exists s. inversion E; subst; auto. }
  destruct (bs_some _ _ _ K id q Q) as [h B]. rewrite (bk_ready _ _ _ _ _ B). cbn [negb].
  destruct null; [inversion E; subst; exists s; auto|].
  pose proof B as []. pose proof (bs_next _ _ _ K) as [NX NU]. unfold DATA_SIZE in NU.
  assert (SB : q_capacity q * q_msgsize q <= 1024) by lia.
  rewrite bk_empty0. destruct (q_items q) as [|it t] eqn:IT.
  { destruct (timeout =? 0); [discriminate|]. inversion E; subst. exists s. auto. }
  inversion E; subst; clear E. cbn [length] in *.
  set (c := q_capacity q) in *. set (m := q_msgsize q) in *.
  assert (MC : m <= c * m). { rewrite <- (Z.mul_1_l m) at 1. apply Z.mul_le_mono_nonneg_r; lia. }
  destruct (Z.eqb_spec (b_size (bu s id)) 0) as [|NZ]; [lia|].
  assert (HM : 0 <= h * m /\ h * m + m <= c * m).
  { split; [apply Z.mul_nonneg_nonneg; lia|]. rewrite <- Z.mul_succ_l. apply Z.mul_le_mono_nonneg_r; lia. }
  assert (IDX : u32 (b_index (bu s id) + b_offb (bu s id)) = b_index (bu s id) + h * m)
    by (rewrite bk_offb0; unfold u32; apply Z.mod_small; lia).
  assert (NB : u32 (b_offb (bu s id) + b_msgsize (bu s id)) mod b_size (bu s id) = ((h + 1) mod c) * m).
  { rewrite bk_offb0, bk_size0, bk_msgsize0. apply ring_next; lia. }
  pose proof (bk_data0 0%nat it eq_refl) as D0. cbn [Z.of_nat] in D0. rewrite Z.add_0_r, (Z.mod_small h) in D0 by lia.
  rewrite IDX, NB, bk_msgsize0. fold m. rewrite <- D0. eexists. split; [reflexivity|].
  pose proof (Z.mod_pos_bound (h + 1) c bk_cap0) as MH.
  assert (LN : Z.of_nat (S (length t)) = Z.of_nat (length t) + 1) by lia. rewrite LN in *.
  eapply update_one; [exact K|exact Q|reflexivity|reflexivity|reflexivity|].
  apply (Build_buf_ok _ _ _ _ ((h + 1) mod c)); cbn [b_ready b_empty b_full b_size b_index b_offb b_offe b_msgsize q_capacity q_msgsize q_items]; fold c m; auto; try lia.
  - rewrite bk_offe0. f_equal. rewrite Zplus_mod_idemp_l. f_equal. lia.
  - rewrite bk_offe0. destruct t as [|x t']; cbn [length].
    + change (Z.of_nat 0 + 1) with 1. rewrite Z.eqb_refl. reflexivity.
    + destruct (Z.eqb_spec ((h + 1) mod c * m) ((h + (Z.of_nat (S (length t')) + 1)) mod c * m)) as [X|X]; [|reflexivity].
      exfalso. apply Z.mul_reg_r in X; [|lia]. cbn [length] in *.
      assert (0 = Z.of_nat (S (length t'))); [|lia]. apply (ring_distinct c (h + 1)); try lia.
      rewrite Z.add_0_r, X. f_equal. lia.
  - intros k y I. rewrite (bk_data0 (S k) y I). f_equal. f_equal. f_equal. rewrite Zplus_mod_idemp_l. f_equal. lia.
Qed.

Lemma step_ok : forall names o s st st' out, good_names names -> bufs_ok names s st -> queue_step names o st = Some (st', out) ->
  exists s', buffer_step names o s = (s', out) /\ bufs_ok names s' st'.
Proof.
  intros names [] s st st' out G K E; cbn [buffer_step].
  - eapply create_ok; eauto.
  - eapply send_ok; eauto.
  - eapply receive_ok; eauto.
Qed.

Lemma run_ok : forall names ops s st st' outs, good_names names -> bufs_ok names s st -> queue_run names ops st = Some (st', outs) ->
  exists s', buffer_run names ops s = (s', outs) /\ bufs_ok names s' st'.
Proof.
  induction ops as [|o t IH]; intros s st st' outs G K E; cbn [queue_run buffer_run] in *.
  - inversion E; subst. exists s. auto.
  - destruct (queue_step names o st) as [[st1 r]|] eqn:E1; [|discriminate].
    destruct (queue_run names t st1) as [[st2 rs]|] eqn:E2; [|discriminate]. inversion E; subst.
    destruct (step_ok names o s st st1 r G K E1) as (s1 & R1 & K1). rewrite R1.
    destruct (IH s1 st1 st' rs G K1 E2) as (s2 & R2 & K2). rewrite R2. exists s2. auto.
Qed.
