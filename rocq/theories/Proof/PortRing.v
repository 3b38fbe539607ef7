(** Rings of bytes: effect of pok_port_get and pok_port_write on the contents of a port. *)
From Verif Require Import Model.Base Model.Port Spec.PortSpec Proof.Tac.

(** ** Sequences of bytes *)
Lemma bytes_len f n : length (bytes f n) = Z.to_nat n.
Proof. unfold bytes. rewrite map_length, seq_length. reflexivity. Qed.
Lemma bytes_ext f g n : (forall i, 0 <= i < n -> f i = g i) -> bytes f n = bytes g n.
Proof. intros H. unfold bytes. apply map_ext_in. intros a Ha. apply in_seq in Ha. apply H. lia. Qed.
Lemma bytes_0 f n : n <= 0 -> bytes f n = [].
Proof. intros H. unfold bytes. replace (Z.to_nat n) with O by lia. reflexivity. Qed.
Lemma bytes_app f n m : 0 <= n -> 0 <= m -> bytes f (n + m) = bytes f n ++ bytes (fun i => f (n + i)) m.
Proof.
  intros Hn Hm. unfold bytes. rewrite Z2Nat.inj_add by lia. rewrite seq_app, map_app. f_equal.
  rewrite Nat.add_0_l. rewrite <- (Nat.add_0_r (Z.to_nat n)) at 1. generalize O as k. generalize (Z.to_nat m) as q.
  induction q as [|q IH]; intros k; cbn [seq map]; [reflexivity|]. f_equal.
  - f_equal. lia.
  - rewrite <- IH. f_equal. f_equal. lia.
Qed.
Lemma bytes_nth f n i d : 0 <= i < n -> nth (Z.to_nat i) (bytes f n) d = f i.
Proof.
  intros H. unfold bytes. rewrite (nth_indep _ d (f (Z.of_nat 0))) by (rewrite map_length, seq_length; lia).
  rewrite (map_nth (fun k => f (Z.of_nat k))), seq_nth by lia. f_equal. lia.
Qed.
Lemma bytes_firstn f n m : 0 <= m <= n -> firstn (Z.to_nat m) (bytes f n) = bytes f m.
Proof.
  intros H. replace n with (m + (n - m)) by lia. rewrite bytes_app by lia.
  rewrite firstn_app, bytes_len, Nat.sub_diag, firstn_O, app_nil_r.
  rewrite firstn_all2 by (rewrite bytes_len; lia). reflexivity.
Qed.
Lemma bytes_skipn f n m : 0 <= m <= n -> skipn (Z.to_nat m) (bytes f n) = bytes (fun i => f (m + i)) (n - m).
Proof.
  intros H. replace n with (m + (n - m)) at 1 by lia. rewrite bytes_app by lia.
  rewrite skipn_app, bytes_len, Nat.sub_diag. cbn [skipn].
  rewrite skipn_all2 by (rewrite bytes_len; lia). reflexivity.
Qed.
Lemma bytes_nth_eq d n : Z.of_nat (length d) = n -> bytes (fun i => nth (Z.to_nat i) d 0) n = d.
Proof.
  intros <-. apply nth_ext with (d := 0) (d' := 0).
  - rewrite bytes_len. lia.
  - intros k Hk. rewrite bytes_len in Hk. rewrite <- (Nat2Z.id k) at 1. rewrite bytes_nth by lia. rewrite Nat2Z.id. reflexivity.
Qed.

Lemma blit_in mem d src n a : d <= a < d + n -> blit mem d src n a = src (a - d).
Proof. intros H. unfold blit. replace (d <=? a) with true by lia. replace (a <? d + n) with true by lia. reflexivity. Qed.
Lemma blit_out mem d src n a : ~ d <= a < d + n -> blit mem d src n a = mem a.
Proof.
  intros H. unfold blit. destruct (d <=? a) eqn:A; [|reflexivity]. replace (a <? d + n) with false by lia. reflexivity.
Qed.

(** ** Rings *)
Lemma pending_bounds p : ring_ok p -> 0 <= pending p <= pt_size p.
Proof. intros (S & B & E & A & F). unfold pending. destruct (pt_empty p); [lia|]. destruct (pt_b p <? pt_e p) eqn:L; lia. Qed.
Lemma pending_pos p : ring_ok p -> pt_empty p = false -> 0 < pending p.
Proof. intros (S & B & E & A & F) H. unfold pending. rewrite H. destruct (pt_b p <? pt_e p) eqn:L; lia. Qed.
(** The end offset is the start offset plus what is held. *)
Lemma pending_end p : ring_ok p -> (pt_b p + pending p) mod pt_size p = pt_e p.
Proof.
  intros (S & B & E & A & F). unfold pending. destruct (pt_empty p) eqn:Em.
  - destruct (A eq_refl) as [-> _]. rewrite Z.add_0_r. apply Z.mod_small. lia.
  - destruct (pt_b p <? pt_e p) eqn:L.
    + replace (pt_b p + (pt_e p - pt_b p)) with (pt_e p) by lia. apply Z.mod_small. lia.
    + replace (pt_b p + (pt_size p - pt_b p + pt_e p)) with (pt_e p + 1 * pt_size p) by lia.
      rewrite Z.mod_add by lia. apply Z.mod_small. lia.
Qed.
(** A non-empty ring is determined by its offsets. *)
Lemma pending_unique p n : ring_ok p -> pt_empty p = false -> 0 < n <= pt_size p ->
  (pt_b p + n) mod pt_size p = pt_e p -> pending p = n.
Proof.
  intros R Em Hn H. pose proof (pending_end p R) as H2. pose proof (pending_bounds p R) as PB. pose proof (pending_pos p R Em) as PP.
  destruct R as (S & B & E & A & F).
  assert (X : (n - pending p) mod pt_size p = 0).
  { replace (n - pending p) with ((pt_b p + n) - (pt_b p + pending p)) by lia.
    rewrite Zminus_mod, H, H2, Z.sub_diag. apply Z.mod_0_l. lia. }
  apply Z.mod_divide in X; [|lia]. destruct X as [k Hk]. assert (k = 0) by nia. nia.
Qed.
Lemma add_wrap a s : 0 < s -> 0 <= a < 2 * s -> a mod s = if a <? s then a else a - s.
Proof.
  intros S H. destruct (a <? s) eqn:L; [apply Z.mod_small; lia|].
  replace a with (a - s + 1 * s) at 1 by lia. rewrite Z.mod_add by lia. apply Z.mod_small. lia.
Qed.

Lemma consumed_pending p : ring_ok p -> pt_size p < 2^32 -> consumed_size p = pending p.
Proof.
  intros (S & B & E & _ & _) L. unfold consumed_size, pending. destruct (pt_empty p); [reflexivity|].
  unfold u32. destruct (pt_b p <? pt_e p) eqn:X; [rewrite Z.mod_small by lia; reflexivity|].
  destruct (Z.eq_dec (pt_b p) (pt_e p)).
  - rewrite Z.mod_small by lia. reflexivity.
  - rewrite Z.mod_small by lia. reflexivity.
Qed.

(** Reading removes the oldest bytes. *)
Lemma get_spec pool p n : pt_kind p = PK_QUEUEING -> ring_ok p -> 0 < n <= pending p ->
  exists p', port_get pool p n = Some (p', ERR_OK, firstn (Z.to_nat n) (content pool p)) /\
    content pool p' = skipn (Z.to_nat n) (content pool p) /\ pending p' = pending p - n /\ ring_ok p' /\
    (exists b e em fu, p' = set_pt_offs b e em fu p).
Proof.
  intros K R Hn. pose proof (pending_bounds p R) as PB. pose proof (pending_end p R) as PE.
  assert (Em : pt_empty p = false) by (unfold pending in Hn; destruct (pt_empty p); [lia|reflexivity]).
  pose proof R as (S & B & E & A & F).
  unfold port_get. rewrite K. change (PK_QUEUEING =? PK_QUEUEING) with true. rewrite Em.
  replace (pt_size p <? n) with false by lia. replace (pt_size p =? 0) with false by lia.
  set (b' := (pt_b p + n) mod pt_size p).
  assert (Hb : 0 <= b' < pt_size p) by (apply Z.mod_pos_bound; lia).
  assert (D : bytes (if pt_size p <? pt_b p + n
                 then fun i => if i <? pt_size p - pt_b p then pool (pt_index p + pt_b p + i)
                               else pool (pt_index p + (i - (pt_size p - pt_b p)))
                 else fun i => pool (pt_index p + pt_b p + i)) n = firstn (Z.to_nat n) (content pool p)).
  { unfold content. rewrite bytes_firstn by lia. apply bytes_ext. intros i Hi. rewrite add_wrap by lia.
    destruct (pt_size p <? pt_b p + n) eqn:W.
    - destruct (i <? pt_size p - pt_b p) eqn:I.
      + replace (pt_b p + i <? pt_size p) with true by lia. f_equal. lia.
      + replace (pt_b p + i <? pt_size p) with false by lia. f_equal. lia.
    - replace (pt_b p + i <? pt_size p) with true by lia. f_equal. lia. }
  rewrite D. eexists. split; [reflexivity|].
  assert (R' : ring_ok (if b' =? pt_e p then set_pt_offs b' (pt_e p) true false p else set_pt_offs b' (pt_e p) false (pt_full p) p)).
  { destruct (b' =? pt_e p) eqn:X; unfold ring_ok; cbn [pt_size pt_b pt_e pt_empty pt_full set_pt_offs];
      repeat split; try lia; intros; try congruence; auto; lia. }
  assert (Q : pending (if b' =? pt_e p then set_pt_offs b' (pt_e p) true false p else set_pt_offs b' (pt_e p) false (pt_full p) p) = pending p - n).
  { destruct (b' =? pt_e p) eqn:X.
    - assert (Y : pending p = n) by (apply pending_unique; auto; [lia|]; fold b'; lia). rewrite Y, Z.sub_diag. reflexivity.
    - destruct (Z.eq_dec (pending p) n) as [Y|Y].
      + rewrite Y in PE. fold b' in PE. lia.
      + apply pending_unique; cbn [pt_size pt_b pt_e pt_empty set_pt_offs]; auto; [lia|].
        unfold b'. rewrite Zplus_mod_idemp_l. rewrite <- PE. f_equal. lia. }
  split; [|split; [exact Q|split; [exact R'|]]].
  - unfold content. rewrite Q. rewrite bytes_skipn by lia.
    apply bytes_ext. intros i Hi. f_equal.
    destruct (b' =? pt_e p); cbn [pt_index pt_b pt_size set_pt_offs]; unfold b'; rewrite Zplus_mod_idemp_l; f_equal; f_equal; lia.
  - destruct (b' =? pt_e p); eauto.
Qed.

(** Shapes of a port: not created, ring, ring without room, sampling. *)
Inductive shape (p : port) : Prop :=
| sh_none : pt_ready p = false -> pt_kind p = PK_INVALID -> pt_empty p = true -> pt_full p = false -> shape p
| sh_ring : pt_kind p = PK_QUEUEING -> ring_ok p -> shape p
| sh_zero : pt_kind p = PK_QUEUEING -> pt_size p = 0 -> pt_b p = 0 -> pt_e p = 0 -> pt_empty p = true -> pt_full p = false -> shape p
| sh_samp : pt_kind p = PK_SAMPLING -> 0 <= pt_size p -> pt_b p = 0 -> pt_e p = 0 -> pt_full p = false -> shape p.

Lemma shape_ring p : shape p -> pt_kind p = PK_QUEUEING -> 0 < pt_size p -> ring_ok p.
Proof. intros [A B|A B|A B|A B] K S; [|exact B|lia|]; exfalso; [rewrite B in K|rewrite A in K]; discriminate. Qed.
Lemma shape_samp p : shape p -> pt_kind p = PK_SAMPLING -> pt_b p = 0 /\ pt_e p = 0 /\ pt_full p = false /\ 0 <= pt_size p.
Proof. intros [A B|A B|A B|A B C D E] K; [| | |auto]; exfalso; [rewrite B in K|rewrite A in K|rewrite A in K]; discriminate. Qed.

(** Two ports that differ at most in offsets, date and flags. *)
Definition same_id (p q : port) : Prop :=
  pt_part p = pt_part q /\ pt_index p = pt_index q /\ pt_size p = pt_size q /\ pt_dir p = pt_dir q /\ pt_ready p = pt_ready q /\
  pt_kind p = pt_kind q /\ pt_refresh p = pt_refresh q /\ pt_linit p = pt_linit q.
Lemma same_id_refl p : same_id p p. Proof. repeat split. Qed.
Lemma same_id_trans p q r : same_id p q -> same_id q r -> same_id p r.
Proof. unfold same_id. intuition congruence. Qed.

(** Whatever is written, only the buffer of the port changes, and only its offsets. *)
Lemma write_frame now pool p data n pool' p' e : shape p -> 0 <= n -> port_write now pool p data n = Some (pool', p', e) ->
  (forall a, ~ in_buffer p a -> pool' a = pool a) /\ same_id p p' /\ shape p' /\ pt_flush p' = pt_flush p /\ pt_free p' = pt_free p.
Proof.
  intros Sh Hn. unfold port_write.
  assert (Same : Some (pool, p, ERR_SIZE) = Some (pool', p', e) \/ Some (pool, p, ERR_EINVAL) = Some (pool', p', e) ->
     (forall a, ~ in_buffer p a -> pool' a = pool a) /\ same_id p p' /\ shape p' /\ pt_flush p' = pt_flush p /\ pt_free p' = pt_free p).
  { intros [[= <- <- <-]|[= <- <- <-]]; repeat split; auto. }
  destruct (pt_kind p =? PK_QUEUEING) eqn:K.
  - destruct (pt_full p) eqn:Fu; [auto|]. destruct (pt_size p <? n) eqn:Sz; [auto|].
    destruct (pt_size p =? 0) eqn:Z0; [discriminate|]. intros [= <- <- <-].
    assert (R : ring_ok p).
    { destruct Sh as [A B|A B|A B|A B]; [|exact B| |]; try (rewrite B in K; discriminate); try (rewrite A in K; discriminate); lia. }
    pose proof R as (S & B & E & A & F). assert (He : 0 <= (pt_e p + n) mod pt_size p < pt_size p) by (apply Z.mod_pos_bound; lia).
    repeat split.
    + intros a Ha. unfold in_buffer in Ha. destruct (pt_size p <? pt_e p + n) eqn:W.
      * rewrite blit_out by lia. rewrite blit_out by lia. reflexivity.
      * apply blit_out. lia.
    + apply sh_ring; [cbn; lia|]. unfold ring_ok; cbn [pt_size pt_b pt_e pt_empty pt_full set_pt_offs].
      repeat split; try lia; intros; try discriminate. right. rewrite <- H, Z.eqb_refl. reflexivity.
  - destruct (pt_kind p =? PK_SAMPLING) eqn:K2; [|auto]. destruct (pt_size p <? n) eqn:Sz; [auto|]. intros [= <- <- <-].
    assert (H : pt_b p = 0 /\ pt_e p = 0 /\ pt_full p = false /\ 0 <= pt_size p).
    { destruct Sh as [A B|A B|A B|A B C D F]; try (rewrite B in K2; discriminate); try (rewrite A in K2; discriminate); auto. }
    destruct H as (B & E & F & S). repeat split.
    + intros a Ha. unfold in_buffer in Ha. apply blit_out. lia.
    + apply sh_samp; cbn; auto; lia.
Qed.
(** Reading changes nothing but offsets. *)
Lemma get_frame pool p n p' e d : shape p -> 0 <= n -> port_get pool p n = Some (p', e, d) ->
  same_id p p' /\ shape p' /\ pt_flush p' = pt_flush p /\ pt_free p' = pt_free p /\ pt_last p' = pt_last p.
Proof.
  intros Sh Hn. unfold port_get.
  assert (Same : forall q, Some (p, q, []) = Some (p', e, d) -> same_id p p' /\ shape p' /\ pt_flush p' = pt_flush p /\ pt_free p' = pt_free p /\ pt_last p' = pt_last p).
  { intros q [= <- <- <-]; repeat split; auto. }
  destruct (pt_kind p =? PK_QUEUEING) eqn:K.
  - destruct (pt_empty p) eqn:Em; [apply Same|]. destruct (pt_size p <? n) eqn:Sz; [apply Same|].
    destruct (pt_size p =? 0) eqn:Z0; [discriminate|]. intros [= <- <- <-].
    assert (R : ring_ok p).
    { destruct Sh as [A B|A B|A B|A B]; [|exact B| |]; try (rewrite B in K; discriminate); try (rewrite A in K; discriminate); lia. }
    pose proof R as (S & B & E & A & F). assert (He : 0 <= (pt_b p + n) mod pt_size p < pt_size p) by (apply Z.mod_pos_bound; lia).
    destruct ((pt_b p + n) mod pt_size p =? pt_e p) eqn:X; repeat split;
      (apply sh_ring; [cbn; lia|]; unfold ring_ok; cbn [pt_size pt_b pt_e pt_empty pt_full set_pt_offs];
       repeat split; try lia; intros; try congruence; auto; lia).
  - destruct (pt_kind p =? PK_SAMPLING) eqn:K2; [|apply Same]. destruct (pt_empty p) eqn:Em; [apply Same|].
    destruct (pt_size p <? n) eqn:Sz; [apply Same|]. intros [= <- <- <-]. repeat split; auto.
Qed.

(** Writing bytes that fit appends them. *)
Lemma write_spec now pool p data n : pt_kind p = PK_QUEUEING -> ring_ok p -> pt_full p = false -> 0 < n -> pending p + n <= pt_size p ->
  exists pool' p', port_write now pool p data n = Some (pool', p', ERR_OK) /\
    content pool' p' = content pool p ++ bytes data n /\ pending p' = pending p + n /\ ring_ok p' /\ pt_empty p' = false.
Proof.
  intros K R Fu Hn Hfit. pose proof (pending_bounds p R) as PB. pose proof (pending_end p R) as PE.
  unfold port_write. rewrite K. change (PK_QUEUEING =? PK_QUEUEING) with true. rewrite Fu.
  replace (pt_size p <? n) with false by lia. pose proof R as (S & B & E & A & F). replace (pt_size p =? 0) with false by lia.
  set (e' := (pt_e p + n) mod pt_size p).
  assert (Ee : e' = (pt_b p + (pending p + n)) mod pt_size p).
  { unfold e'. rewrite <- PE, Zplus_mod_idemp_l. f_equal. lia. }
  assert (He : 0 <= e' < pt_size p) by (apply Z.mod_pos_bound; lia).
  eexists _, _. split; [reflexivity|].
  set (p' := set_pt_offs (pt_b p) e' false (if e' =? pt_b p then true else false) p).
  assert (R' : ring_ok p').
  { unfold p', ring_ok; cbn [pt_size pt_b pt_e pt_empty pt_full set_pt_offs]. repeat split; try lia; intros; try discriminate.
    right. rewrite <- H, Z.eqb_refl. reflexivity. }
  assert (Q : pending p' = pending p + n).
  { apply pending_unique; [exact R'|reflexivity|unfold p'; cbn [pt_size set_pt_offs]; lia|]. unfold p'. cbn [pt_size pt_b pt_e set_pt_offs]. symmetry. exact Ee. }
  split; [|split; [exact Q|split; [exact R'|reflexivity]]].
  unfold content. rewrite Q. rewrite bytes_app by lia.
  set (pool' := if pt_size p <? pt_e p + n then _ else _).
  (* address of offset i *)
  assert (New : forall i, 0 <= i < n -> pool' (pt_index p + (pt_e p + i) mod pt_size p) = data i).
  { intros i Hi. rewrite add_wrap by lia. unfold pool'. destruct (pt_size p <? pt_e p + n) eqn:W.
    - destruct (pt_e p + i <? pt_size p) eqn:X.
      + rewrite blit_out by lia. rewrite blit_in by lia. f_equal. lia.
      + rewrite blit_in by lia. f_equal. lia.
    - replace (pt_e p + i <? pt_size p) with true by lia. rewrite blit_in by lia. f_equal. lia. }
  assert (Old : forall i, 0 <= i < pending p -> pool' (pt_index p + (pt_b p + i) mod pt_size p) = pool (pt_index p + (pt_b p + i) mod pt_size p)).
  { intros i Hi. rewrite add_wrap by lia. rewrite add_wrap in PE by lia. unfold pool'.
    destruct (pt_size p <? pt_e p + n) eqn:W.
    - rewrite blit_out, blit_out; [reflexivity| |]; destruct (pt_b p + pending p <? pt_size p) eqn:X; destruct (pt_b p + i <? pt_size p) eqn:Y; lia.
    - rewrite blit_out; [reflexivity|]. destruct (pt_b p + pending p <? pt_size p) eqn:X; destruct (pt_b p + i <? pt_size p) eqn:Y; lia. }
  f_equal.
  - apply bytes_ext. intros i Hi. cbn [pt_index pt_b pt_size set_pt_offs p']. unfold p'. cbn [pt_index pt_b pt_size set_pt_offs]. apply Old. exact Hi.
  - apply bytes_ext. intros i Hi. unfold p'. cbn [pt_index pt_b pt_size set_pt_offs].
    replace (pt_b p + (pending p + i)) with ((pt_b p + pending p) + i) by lia. rewrite <- Zplus_mod_idemp_l, PE. apply New. exact Hi.
Qed.

(** The contents of a port only depend on its buffer and offsets. *)
Lemma content_ext pool pool' p p' : ring_ok p \/ pt_empty p = true -> pt_index p' = pt_index p -> pt_size p' = pt_size p -> pt_b p' = pt_b p ->
  pt_e p' = pt_e p -> pt_empty p' = pt_empty p -> (forall a, in_buffer p a -> pool' a = pool a) -> content pool' p' = content pool p.
Proof.
  intros R I S B E Em H. unfold content. assert (Q : pending p' = pending p) by (unfold pending; rewrite S, B, E, Em; reflexivity).
  rewrite Q. apply bytes_ext. intros i Hi. rewrite I, S, B. apply H. unfold in_buffer.
  destruct R as [R|R]; [|unfold pending in Hi; rewrite R in Hi; lia]. destruct R as (S0 & _).
  pose proof (Z.mod_pos_bound (pt_b p + i) (pt_size p) S0). lia.
Qed.

(** What is stored, whether or not there is room for it. *)
Lemma write_store now pool p data n : pt_kind p = PK_QUEUEING -> ring_ok p -> pt_full p = false -> 0 <= n <= pt_size p ->
  exists pool' p', port_write now pool p data n = Some (pool', p', ERR_OK) /\ pt_e p' = (pt_e p + n) mod pt_size p /\
    (forall i, 0 <= i < n -> pool' (pt_index p + (pt_e p + i) mod pt_size p) = data i).
Proof.
  intros K (S & B & E & A & F) Fu Hn. unfold port_write. rewrite K. change (PK_QUEUEING =? PK_QUEUEING) with true. rewrite Fu.
  replace (pt_size p <? n) with false by lia. replace (pt_size p =? 0) with false by lia. eexists _, _. split; [reflexivity|]. split; [reflexivity|].
  intros i Hi. rewrite add_wrap by lia. destruct (pt_size p <? pt_e p + n) eqn:W.
  - destruct (pt_e p + i <? pt_size p) eqn:X.
    + rewrite blit_out by lia. rewrite blit_in by lia. f_equal. lia.
    + rewrite blit_in by lia. f_equal. lia.
  - replace (pt_e p + i <? pt_size p) with true by lia. rewrite blit_in by lia. f_equal. lia.
Qed.
Lemma write_store_s now pool p data n : pt_kind p = PK_SAMPLING -> pt_e p = 0 -> 0 <= n <= pt_size p ->
  exists pool' p', port_write now pool p data n = Some (pool', p', ERR_OK) /\ pt_last p' = now /\ pt_empty p' = false /\ pt_e p' = 0 /\ pt_b p' = pt_b p /\
    (forall a, pool' a = if (pt_index p <=? a) && (a <? pt_index p + n) then data (a - pt_index p) else pool a).
Proof.
  intros K E Hn. unfold port_write. rewrite K. change (PK_SAMPLING =? PK_QUEUEING) with false. change (PK_SAMPLING =? PK_SAMPLING) with true.
  replace (pt_size p <? n) with false by lia. eexists _, _. split; [reflexivity|]. repeat split; auto.
  intros a. unfold blit. rewrite E, Z.add_0_r. reflexivity.
Qed.
