(** Fields of structures in memory: stores, loads, and what one side reads of what the other wrote. *)
From Coq Require Import String.
From Verif Require Import Model.Base Proof.Tac Spec.CLayout Model.Abi.
Local Open Scope Z_scope.

Lemma byte_S : forall v i, 0 <= i -> byte v (i + 1) = byte (v / 256) i.
Proof.
  intros v i Hi. unfold byte. rewrite Z.div_div by (try lia; apply Z.pow_pos_nonneg; lia).
  change 256 with (2 ^ 8) at 2. rewrite <- Z.pow_add_r by lia. f_equal. f_equal. f_equal. lia.
Qed.

Lemma byte_0 : forall v, byte v 0 = v mod 256.
Proof. intros v. unfold byte. rewrite Z.mul_0_r, Z.pow_0_r, Z.div_1_r. reflexivity. Qed.

Lemma loadn_bytes : forall k m a v,
  (forall i, 0 <= i < Z.of_nat k -> m (a + i) = byte v i) -> loadn m a k = v mod 2 ^ (8 * Z.of_nat k).
Proof.
  induction k as [|k IH]; intros m a v H.
  - cbn [loadn]. rewrite Z.mul_0_r, Z.pow_0_r, Z.mod_1_r. reflexivity.
  - cbn [loadn]. rewrite (IH m (a + 1) (v / 256)).
    + pose proof (H 0 ltac:(lia)) as H0. rewrite Z.add_0_r in H0. rewrite H0, byte_0.
      replace (8 * Z.of_nat (S k)) with (8 + 8 * Z.of_nat k) by lia.
      rewrite Z.pow_add_r by lia. change (2 ^ 8) with 256.
      rewrite Z.rem_mul_r by (try lia; apply Z.pow_pos_nonneg; lia). reflexivity.
    + intros i Hi. replace (a + 1 + i) with (a + (i + 1)) by lia. rewrite H by lia. apply byte_S; lia.
Qed.

Lemma load_bytes : forall m a w v, 0 <= w -> 0 <= v < 2 ^ (8 * w) ->
  (forall i, 0 <= i < w -> m (a + i) = byte v i) -> load m a w = v.
Proof.
  intros m a w v Hw Hv H. unfold load. rewrite (loadn_bytes _ _ _ v).
  - rewrite Z2Nat.id by lia. apply Z.mod_small. exact Hv.
  - rewrite Z2Nat.id by lia. exact H.
Qed.

Lemma loadn_ext : forall k m m' a,
  (forall i, 0 <= i < Z.of_nat k -> m (a + i) = m' (a + i)) -> loadn m a k = loadn m' a k.
Proof.
  induction k as [|k IH]; intros m m' a H; [reflexivity|]. cbn [loadn].
  pose proof (H 0 ltac:(lia)) as H0. rewrite Z.add_0_r in H0. rewrite H0.
  rewrite (IH m m' (a + 1)); [reflexivity|].
  intros i Hi. replace (a + 1 + i) with (a + (i + 1)) by lia. apply H. lia.
Qed.

Lemma load_ext : forall m m' a w, (forall i, 0 <= i < w -> m (a + i) = m' (a + i)) -> load m a w = load m' a w.
Proof.
  intros m m' a w H. unfold load. apply loadn_ext. intros i Hi. apply H. lia.
Qed.

Lemma store_in : forall m a w v i, 0 <= i < w -> store m a w v (a + i) = byte v i.
Proof.
  intros m a w v i Hi. unfold store.
  destruct (a <=? a + i) eqn:E1; [|lia]. destruct (a + i <? a + w) eqn:E2; [|lia].
  cbn [andb]. f_equal. lia.
Qed.

Lemma store_out : forall m a w v x, x < a \/ a + w <= x -> store m a w v x = m x.
Proof.
  intros m a w v x H. unfold store.
  destruct (a <=? x) eqn:E1; [|reflexivity]. destruct (x <? a + w) eqn:E2; [|reflexivity]. lia.
Qed.

(** ** Structures whose fields do not overlap *)
Fixpoint after (e : Z) (l : list (string * (Z * Z))) : bool :=
  match l with
  | [] => true
  | (_, (o, w)) :: r => (e <=? o) && (0 <=? w) && after (o + w) r
  end.

Definition sound (fs : list field) : bool :=
  after 0 (place fs 0) && forallb (fun x => fst (snd x) + snd (snd x) <=? size_of fs) (place fs 0) &&
  forallb (fun f => match where_is fs (fst f) with Some _ => true | None => false end) fs.

Lemma after_look : forall l e n o w, after e l = true -> look n l = Some (o, w) -> e <= o /\ 0 <= w.
Proof.
  induction l as [|[k [o' w']] r IH]; intros e n o w H L; cbn [look after] in *; [discriminate|].
  apply andb_prop in H. destruct H as [H H3]. apply andb_prop in H. destruct H as [H1 H2].
  destruct (String.eqb n k).
  - injection L as -> ->. lia.
  - specialize (IH _ _ _ _ H3 L). lia.
Qed.

Lemma after_two : forall l e n n' o w o' w', after e l = true -> n <> n' ->
  look n l = Some (o, w) -> look n' l = Some (o', w') -> o + w <= o' \/ o' + w' <= o.
Proof.
  induction l as [|[k [p q]] r IH]; intros e n n' o w o' w' H Hn L L'; cbn [look after] in *; [discriminate|].
  apply andb_prop in H. destruct H as [H H3]. apply andb_prop in H. destruct H as [H1 H2].
  destruct (String.eqb_spec n k) as [E|E]; destruct (String.eqb_spec n' k) as [E'|E'].
  - congruence.
  - injection L as -> ->. pose proof (after_look _ _ _ _ _ H3 L'). lia.
  - injection L' as -> ->. pose proof (after_look _ _ _ _ _ H3 L). lia.
  - exact (IH _ _ _ _ _ _ _ H3 Hn L L').
Qed.

Lemma look_in : forall l n x, look n l = Some x -> exists k, In (k, x) l.
Proof.
  induction l as [|[k y] r IH]; intros n x H; cbn [look] in H; [discriminate|].
  destruct (String.eqb n k).
  - injection H as ->. exists k. now left.
  - destruct (IH _ _ H) as [k' Hk]. exists k'. now right.
Qed.

Lemma sound_bounds : forall fs n o w, sound fs = true -> where_is fs n = Some (o, w) ->
  0 <= o /\ 0 <= w /\ o + w <= size_of fs.
Proof.
  intros fs n o w H L. unfold sound in H. apply andb_prop in H. destruct H as [H _].
  apply andb_prop in H. destruct H as [H1 H2]. unfold where_is in L.
  pose proof (after_look _ _ _ _ _ H1 L) as [? ?].
  destruct (look_in _ _ _ L) as [k Hk].
  rewrite forallb_forall in H2. specialize (H2 _ Hk). cbn [fst snd] in H2. lia.
Qed.

Lemma sound_two : forall fs n n' o w o' w', sound fs = true -> n <> n' ->
  where_is fs n = Some (o, w) -> where_is fs n' = Some (o', w') -> o + w <= o' \/ o' + w' <= o.
Proof.
  intros fs n n' o w o' w' H. unfold sound in H. apply andb_prop in H. destruct H as [H _].
  apply andb_prop in H. destruct H as [H1 _]. intros Hn L L'. eapply after_two; eauto.
Qed.

Lemma holds_get : forall fs m a n v, sound fs = true -> holds fs m a n v -> get fs m a n = v.
Proof.
  intros fs m a n v Hs (o & w & L & Hv & H). unfold get. rewrite L.
  apply load_bytes; auto. pose proof (sound_bounds _ _ _ _ Hs L). lia.
Qed.

Lemma set_holds : forall fs m a n v, fits fs n v -> holds fs (set fs m a n v) a n v.
Proof.
  intros fs m a n v H. unfold fits in H. unfold holds, set.
  destruct (where_is fs n) as [[o w]|] eqn:L; [|contradiction].
  exists o, w. split; [reflexivity|split; [exact H|]]. intros i Hi. apply store_in. exact Hi.
Qed.

Lemma set_keeps : forall fs m a n v n' v', sound fs = true -> n <> n' ->
  holds fs m a n' v' -> holds fs (set fs m a n v) a n' v'.
Proof.
  intros fs m a n v n' v' Hs Hn (o' & w' & L' & Hv & H). unfold holds, set.
  exists o', w'. split; [exact L'|split; [exact Hv|]]. intros i Hi.
  destruct (where_is fs n) as [[o w]|] eqn:L; [|apply H; exact Hi].
  rewrite store_out; [apply H; exact Hi|].
  pose proof (sound_two _ _ _ _ _ _ _ Hs Hn L L'). lia.
Qed.

Lemma set_out : forall fs m a n v x, sound fs = true -> x < a \/ a + size_of fs <= x -> set fs m a n v x = m x.
Proof.
  intros fs m a n v x Hs Hx. unfold set. destruct (where_is fs n) as [[o w]|] eqn:L; [|reflexivity].
  pose proof (sound_bounds _ _ _ _ Hs L). apply store_out. lia.
Qed.

Lemma get_same : forall fs m a n v, sound fs = true -> fits fs n v -> get fs (set fs m a n v) a n = v.
Proof. intros fs m a n v Hs H. apply holds_get; auto. apply set_holds; auto. Qed.

Lemma get_other : forall fs m a n v n', sound fs = true -> n <> n' -> get fs (set fs m a n v) a n' = get fs m a n'.
Proof.
  intros fs m a n v n' Hs Hn. unfold get, set.
  destruct (where_is fs n') as [[o' w']|] eqn:L'; [|reflexivity].
  destruct (where_is fs n) as [[o w]|] eqn:L; [|reflexivity].
  apply load_ext. intros i Hi. apply store_out. pose proof (sound_two _ _ _ _ _ _ _ Hs Hn L L'). lia.
Qed.

Lemma write_fold : forall fs a v ns m, sound fs = true -> (forall n, In n ns -> fits fs n (v n)) ->
  let m' := fold_left (fun m n => set fs m a n (v n)) ns m in
  (forall n, In n ns \/ holds fs m a n (v n) -> holds fs m' a n (v n)) /\
  (forall x, x < a \/ a + size_of fs <= x -> m' x = m x).
Proof.
  intros fs a v ns. induction ns as [|k ns IH]; intros m Hs Hf.
  - cbn. split; [intros n [[]|H]; exact H | reflexivity].
  - cbn [fold_left]. destruct (IH (set fs m a k (v k)) Hs) as [I1 I2].
    { intros n Hn. apply Hf. now right. }
    split.
    + intros n Hn. apply I1.
      destruct (string_dec k n) as [->|Hkn].
      * right. apply set_holds. apply Hf. now left.
      * destruct Hn as [[Hn|Hn]|Hn]; [contradiction|now left|].
        right. apply set_keeps; auto.
    + intros x Hx. rewrite I2 by exact Hx. apply set_out; auto.
Qed.

Lemma write_all_ok : forall fs m a v, sound fs = true -> (forall n, In n (map fst fs) -> fits fs n (v n)) ->
  (forall n, In n (map fst fs) -> holds fs (write_all fs m a v) a n (v n)) /\
  (forall x, x < a \/ a + size_of fs <= x -> write_all fs m a v x = m x).
Proof.
  intros fs m a v Hs Hf. destruct (write_fold fs a v (map fst fs) m Hs Hf) as [H1 H2].
  split; [|exact H2]. intros n Hn. apply H1. now left.
Qed.
