(** The ring buffer of lockobj.c represents a list of threads. *)
From Verif Require Import Model.Base Model.LockFifo Proof.Tac.

(** Position [k] of the queue is ring cell [pos]. *)
Definition pos (n h : Z) (k : nat) : Z := (h + Z.of_nat k) mod n.

Definition repr (n : Z) (f : fifo) (l : list Z) : Prop :=
  0 < n /\ 0 <= f_head f < n /\
  (length l <= Z.to_nat n)%nat /\
  f_last f = pos n (f_head f) (length l) /\
  f_empty f = (match l with [] => true | _ => false end) /\
  (forall k, (k < length l)%nat -> f_buf f (pos n (f_head f) k) = nth k l 0).

Lemma pos_range : forall n h k, 0 < n -> 0 <= pos n h k < n.
Proof. intros n h k Hn. unfold pos. apply Z.mod_pos_bound. exact Hn. Qed.

Lemma pos_0 : forall n h, 0 <= h < n -> pos n h 0 = h.
Proof. intros n h Hh. unfold pos. cbn [Z.of_nat]. rewrite Z.add_0_r. now apply Z.mod_small. Qed.

Lemma pos_inj : forall n h j k, 0 < n -> (j < Z.to_nat n)%nat -> (k < Z.to_nat n)%nat ->
  pos n h j = pos n h k -> j = k.
Proof.
  intros n h j k Hn Hj Hk Heq. unfold pos in Heq.
  destruct (Nat.le_ge_cases j k) as [Hle|Hle].
  - apply mod_inj_range in Heq; lia.
  - symmetry in Heq. apply mod_inj_range in Heq; lia.
Qed.

Lemma pos_full : forall n h, 0 <= h < n -> pos n h (Z.to_nat n) = h.
Proof.
  intros n h Hh. unfold pos. rewrite Z2Nat.id by lia.
  rewrite <- Z.add_mod_idemp_r by lia. rewrite Z.mod_same by lia.
  rewrite Z.add_0_r. now apply Z.mod_small.
Qed.

Lemma nxt_pos : forall n h k, 0 < n -> nxt n (pos n h k) = pos n h (S k).
Proof.
  intros n h k Hn. unfold nxt, pos.
  rewrite Z.add_mod_idemp_l by lia. f_equal. lia.
Qed.

Lemma prv_range_mod : forall n i, 0 < n -> 0 <= i < n -> prv n i = (i - 1) mod n.
Proof.
  intros n i Hn Hi. unfold prv. destruct (Z.eqb_spec i 0) as [->|Hne].
  - replace (0 - 1) with (-1) by lia.
    rewrite <- (Z_mod_plus_full (-1) 1 n). rewrite Z.mod_small; lia.
  - rewrite Z.mod_small; lia.
Qed.

Lemma prv_pos : forall n h k, 0 < n -> prv n (pos n h (S k)) = pos n h k.
Proof.
  intros n h k Hn. rewrite prv_range_mod by (auto using pos_range).
  unfold pos. rewrite Zminus_mod_idemp_l. f_equal. lia.
Qed.

Lemma repr_init : forall n f, 0 < n -> repr n (fifo_init f) [].
Proof.
  intros n f Hn. unfold repr, fifo_init. cbn [f_head f_last f_empty f_buf length].
  split; [lia|]. split; [lia|]. split; [lia|].
  split; [rewrite pos_0; lia|]. split; [reflexivity|].
  intros k Hk. lia.
Qed.

Lemma repr_empty_iff : forall n f l, repr n f l -> (f_empty f = true <-> l = []).
Proof.
  intros n f l (_ & _ & _ & _ & He & _). rewrite He.
  destruct l; split; congruence.
Qed.

Lemma repr_head : forall n f t l, repr n f (t :: l) -> fifo_get_head f = t.
Proof.
  intros n f t l (Hn & Hh & _ & _ & _ & Hb).
  specialize (Hb 0%nat). rewrite pos_0 in Hb by lia.
  unfold fifo_get_head. rewrite Hb; [reflexivity|cbn [length]; lia].
Qed.

Lemma repr_dequeue : forall n f t l,
  repr n f (t :: l) ->
  exists f', fifo_dequeue n f = (f', ERR_OK) /\ repr n f' l /\ f_buf f' = f_buf f.
Proof.
  intros n f t l (Hn & Hh & Hlen & Hl & He & Hb).
  unfold fifo_dequeue. rewrite He.
  eexists. split; [reflexivity|]. split; [|reflexivity].
  unfold repr. cbn [f_head f_last f_empty f_buf].
  cbn [length] in Hlen, Hl.
  assert (Hnx : nxt n (f_head f) = pos n (f_head f) 1).
  { rewrite <- (pos_0 n (f_head f)) at 1 by lia. now rewrite nxt_pos. }
  assert (Hpos : forall k, pos n (nxt n (f_head f)) k = pos n (f_head f) (S k)).
  { intros k. unfold nxt, pos. rewrite Z.add_mod_idemp_l by lia. f_equal. lia. }
  split; [lia|]. split; [rewrite Hnx; now apply pos_range|].
  split; [lia|]. split; [rewrite Hpos; exact Hl|].
  split.
  - rewrite Hl, Hnx. destruct l as [|x l].
    + cbn [length]. apply Z.eqb_refl.
    + apply Z.eqb_neq. intros Heq.
      cbn [length] in *.
      destruct (Nat.eq_dec (S (S (length l))) (Z.to_nat n)) as [Hf|Hf].
      * rewrite Hf in Heq. rewrite pos_full in Heq by lia.
        rewrite <- (pos_0 n (f_head f)) in Heq at 1 by lia.
        apply pos_inj in Heq; lia.
      * apply pos_inj in Heq; lia.
  - intros k Hk. rewrite Hpos. rewrite (Hb (S k)); [reflexivity|cbn [length]; lia].
Qed.

Lemma repr_dequeue_empty : forall n f, repr n f [] -> fifo_dequeue n f = (f, ERR_EMPTY).
Proof.
  intros n f (_ & _ & _ & _ & He & _). unfold fifo_dequeue. now rewrite He.
Qed.

(** FIFO insertion. *)
Lemma repr_enqueue_fifo : forall n prio f l t,
  repr n f l -> (length l < Z.to_nat n)%nat ->
  exists f', fifo_enqueue n prio f t QD_FIFO = Some (f', ERR_OK) /\ repr n f' (l ++ [t]).
Proof.
  intros n prio f l t (Hn & Hh & Hlen & Hl & He & Hb) Hlt.
  unfold fifo_enqueue. rewrite Z.eqb_refl.
  assert (Hc : negb (f_empty f) && (f_last f =? f_head f) = false).
  { destruct l as [|x l].
    - rewrite He. reflexivity.
    - rewrite Hl. apply andb_false_intro2. apply Z.eqb_neq. intros Heq.
      rewrite <- (pos_0 n (f_head f)) in Heq at 2 by lia.
      apply pos_inj in Heq; cbn [length] in *; lia. }
  rewrite Hc. eexists. split; [reflexivity|].
  unfold repr. cbn [f_head f_last f_empty f_buf].
  rewrite app_length. cbn [length].
  split; [lia|]. split; [lia|]. split; [lia|].
  split. { rewrite Hl, nxt_pos by lia. f_equal. lia. }
  split. { destruct l; reflexivity. }
  intros k Hk. rewrite Hl.
  destruct (Nat.eq_dec k (length l)) as [->|Hne].
  - rewrite upd_same. rewrite app_nth2 by lia. now rewrite Nat.sub_diag.
  - rewrite upd_other.
    + rewrite app_nth1 by lia. apply Hb. lia.
    + intros Heq. apply pos_inj in Heq; lia.
Qed.

Lemma enqueue_fifo_full : forall n prio f l t,
  repr n f l -> length l = Z.to_nat n ->
  fifo_enqueue n prio f t QD_FIFO = Some (f, ERR_FULL).
Proof.
  intros n prio f l t (Hn & Hh & Hlen & Hl & He & Hb) Hfull.
  unfold fifo_enqueue. rewrite Z.eqb_refl.
  rewrite Hl, Hfull, pos_full by lia. rewrite Z.eqb_refl.
  rewrite He. destruct l as [|x l]; [cbn [length] in Hfull; lia|reflexivity].
Qed.

(** Priority insertion: list-level meaning. *)
Fixpoint insert_prio (prio : Z -> Z) (t : Z) (l : list Z) : list Z :=
  match l with
  | [] => [t]
  | x :: l' => if prio t <=? prio x then x :: insert_prio prio t l' else t :: x :: l'
  end.

Fixpoint insert_pos (prio : Z -> Z) (t : Z) (l : list Z) : nat :=
  match l with
  | [] => O
  | x :: l' => if prio t <=? prio x then S (insert_pos prio t l') else O
  end.

Lemma insert_pos_le : forall prio t l, (insert_pos prio t l <= length l)%nat.
Proof.
  intros prio t l. induction l as [|x l IH]; cbn [insert_pos length]; [lia|].
  destruct (prio t <=? prio x); lia.
Qed.

Lemma insert_prio_length : forall prio t l, length (insert_prio prio t l) = S (length l).
Proof.
  intros prio t l. induction l as [|x l IH]; cbn [insert_prio length]; [reflexivity|].
  destruct (prio t <=? prio x); cbn [length]; lia.
Qed.

Lemma insert_prio_nth : forall prio t l k,
  nth k (insert_prio prio t l) 0 =
  if (k <? insert_pos prio t l)%nat then nth k l 0
  else if (k =? insert_pos prio t l)%nat then t
  else nth (k - 1) l 0.
Proof.
  intros prio t l. induction l as [|x l IH]; intros k; cbn [insert_prio insert_pos].
  - destruct k as [|k]; [reflexivity|]. cbn [Nat.ltb Nat.leb Nat.eqb].
    cbn [nth]. destruct k; cbn; reflexivity.
  - destruct (prio t <=? prio x).
    + destruct k as [|k].
      * cbn [nth]. destruct (Nat.ltb_spec 0 (S (insert_pos prio t l))); [reflexivity|lia].
      * cbn [nth]. rewrite IH.
        destruct (Nat.ltb_spec k (insert_pos prio t l)) as [H1|H1];
        destruct (Nat.ltb_spec (S k) (S (insert_pos prio t l))) as [H2|H2]; try lia; try reflexivity.
        destruct (Nat.eqb_spec k (insert_pos prio t l)) as [H3|H3];
        destruct (Nat.eqb_spec (S k) (S (insert_pos prio t l))) as [H4|H4]; try lia; try reflexivity.
        destruct k as [|k]; [lia|].
        replace (S (S k) - 1)%nat with (S k) by lia.
        replace (S k - 1)%nat with k by lia. reflexivity.
    + destruct k as [|k]; [reflexivity|].
      cbn [nth]. destruct (Nat.ltb_spec (S k) 0); [lia|].
      destruct (Nat.eqb_spec (S k) 0); [lia|].
      replace (S k - 1)%nat with k by lia. reflexivity.
Qed.

Lemma prio_scan_spec : forall n prio f t l2 l1 fuel,
  repr n f (l1 ++ l2) -> (length (l1 ++ l2) < Z.to_nat n)%nat ->
  (length l2 < fuel)%nat ->
  prio_scan fuel n prio f t (pos n (f_head f) (length l1))
  = Some (pos n (f_head f) (length l1 + insert_pos prio t l2)).
Proof.
  intros n prio f t l2. induction l2 as [|x l2 IH]; intros l1 fuel Hr Hlt Hf.
  - destruct fuel as [|fuel]; [cbn in Hf; lia|].
    destruct Hr as (Hn & Hh & Hlen & Hl & He & Hb).
    cbn [prio_scan insert_pos]. rewrite app_nil_r in *.
    rewrite Hl, Z.eqb_refl. cbn [negb andb]. now rewrite Nat.add_0_r.
  - destruct fuel as [|fuel]; [lia|].
    cbn [prio_scan insert_pos].
    assert (Hr' := Hr).
    destruct Hr' as (Hn & Hh & Hlen & Hl & He & Hb).
    rewrite app_length in *. cbn [length] in *.
    assert (Hne : pos n (f_head f) (length l1) =? f_last f = false).
    { apply Z.eqb_neq. rewrite Hl. intros Heq. apply pos_inj in Heq; lia. }
    rewrite Hne. cbn [negb andb].
    rewrite Hb by lia.
    rewrite app_nth2 by lia. rewrite Nat.sub_diag. cbn [nth].
    destruct (prio t <=? prio x).
    + rewrite nxt_pos by lia.
      replace (S (length l1)) with (length (l1 ++ [x])) by (rewrite app_length; cbn; lia).
      rewrite IH.
      * rewrite app_length. cbn [length]. do 2 f_equal. lia.
      * rewrite <- app_assoc. exact Hr.
      * rewrite !app_length. cbn [length]. lia.
      * lia.
    + now rewrite Nat.add_0_r.
Qed.

Lemma shift_back_spec : forall n h p m fuel b,
  0 < n -> (p + m < Z.to_nat n)%nat -> (m < fuel)%nat ->
  exists b', shift_back fuel n b (pos n h (p + m)) (pos n h p) = Some b' /\
    forall k, (k < Z.to_nat n)%nat ->
      b' (pos n h k) =
      if ((p <? k) && (k <=? p + m))%nat then b (pos n h (k - 1)) else b (pos n h k).
Proof.
  intros n h p m. induction m as [|m IH]; intros fuel b Hn Hpm Hf.
  - destruct fuel as [|fuel]; [lia|]. cbn [shift_back].
    rewrite Nat.add_0_r, Z.eqb_refl. eexists. split; [reflexivity|].
    intros k Hk.
    destruct (Nat.ltb_spec p k) as [H1|H1]; destruct (Nat.leb_spec k p) as [H2|H2];
      try lia; cbn [andb]; reflexivity.
  - destruct fuel as [|fuel]; [lia|]. cbn [shift_back].
    destruct (Z.eqb_spec (pos n h (p + S m)) (pos n h p)) as [Heq|Hne].
    { apply pos_inj in Heq; lia. }
    replace (p + S m)%nat with (S (p + m)) by lia.
    rewrite prv_pos by lia.
    destruct (IH fuel (upd b (pos n h (S (p + m))) (b (pos n h (p + m))))) as (b' & Hs & Hb');
      [lia|lia|lia|].
    exists b'. split; [exact Hs|].
    intros k Hk. rewrite Hb' by lia.
    destruct (Nat.ltb_spec p k) as [H1|H1]; destruct (Nat.leb_spec k (p + m)) as [H2|H2];
      destruct (Nat.leb_spec k (S (p + m))) as [H3|H3]; cbn [andb]; try lia.
    + rewrite upd_other; [reflexivity|]. intros Heq. apply pos_inj in Heq; lia.
    + assert (Hk' : k = S (p + m)) by lia. subst k.
      rewrite upd_same. f_equal. f_equal. lia.
    + rewrite upd_other; [reflexivity|]. intros Heq. apply pos_inj in Heq; lia.
    + rewrite upd_other; [reflexivity|]. intros Heq. apply pos_inj in Heq; lia.
Qed.

Lemma repr_enqueue_prio : forall n prio f l t,
  repr n f l -> (length l < Z.to_nat n)%nat ->
  exists f', fifo_enqueue n prio f t QD_PRIORITY = Some (f', ERR_OK) /\
             repr n f' (insert_prio prio t l).
Proof.
  intros n prio f l t Hr Hlt.
  assert (Hr' := Hr). destruct Hr' as (Hn & Hh & Hlen & Hl & He & Hb).
  unfold fifo_enqueue.
  change (QD_PRIORITY =? QD_FIFO) with false. cbv iota. rewrite Z.eqb_refl.
  assert (Hs := prio_scan_spec n prio f t l [] (S (Z.to_nat n)) Hr Hlt).
  cbn [length app Nat.add] in Hs. rewrite pos_0 in Hs by lia.
  rewrite Hs by lia.
  assert (Hle := insert_pos_le prio t l).
  destruct (shift_back_spec n (f_head f) (insert_pos prio t l)
              (length l - insert_pos prio t l) (S (Z.to_nat n)) (f_buf f)) as (b' & Hsb & Hb');
    [lia|lia|lia|].
  replace (insert_pos prio t l + (length l - insert_pos prio t l))%nat with (length l) in * by lia.
  rewrite Hl, Hsb. eexists. split; [reflexivity|].
  unfold repr. cbn [f_head f_last f_empty f_buf].
  rewrite insert_prio_length.
  split; [lia|]. split; [lia|]. split; [lia|].
  split. { now rewrite nxt_pos by lia. }
  split. { destruct l as [|x l]; [reflexivity|]. cbn [insert_prio]. now destruct (prio t <=? prio x). }
  intros k Hk. rewrite insert_prio_nth.
  set (p := insert_pos prio t l) in *.
  destruct (Nat.ltb_spec k p) as [H1|H1].
  - rewrite upd_other by (intros Heq; apply pos_inj in Heq; lia).
    rewrite Hb' by lia.
    destruct (Nat.ltb_spec p k) as [H2|H2]; [lia|]. cbn [andb]. apply Hb. lia.
  - destruct (Nat.eqb_spec k p) as [->|H2].
    + now rewrite upd_same.
    + rewrite upd_other by (intros Heq; apply pos_inj in Heq; lia).
      rewrite Hb' by lia.
      destruct (Nat.ltb_spec p k) as [H3|H3]; [|lia].
      destruct (Nat.leb_spec k (length l)) as [H4|H4]; [|lia].
      cbn [andb]. apply Hb. lia.
Qed.

(** Removal. *)
Fixpoint leave (t : Z) (q : list Z) : list Z :=
  match q with
  | [] => []
  | x :: q' => if x =? t then q' else x :: leave t q'
  end.

Fixpoint find_pos (t : Z) (l : list Z) : option nat :=
  match l with
  | [] => None
  | x :: l' => if x =? t then Some O
               else match find_pos t l' with Some p => Some (S p) | None => None end
  end.

Lemma find_pos_lt : forall t l p, find_pos t l = Some p -> (p < length l)%nat.
Proof.
  intros t l. induction l as [|x l IH]; intros p Hf; cbn [find_pos length] in *; [discriminate|].
  destruct (x =? t); [injection Hf as <-; lia|].
  destruct (find_pos t l) as [q|]; [|discriminate]. injection Hf as <-.
  specialize (IH q eq_refl). lia.
Qed.

Lemma find_pos_in : forall t l, In t l -> exists p, find_pos t l = Some p.
Proof.
  intros t l. induction l as [|x l IH]; intros Hin; [contradiction|].
  cbn [find_pos]. destruct (Z.eqb_spec x t) as [->|Hne]; [eauto|].
  destruct Hin as [->|Hin]; [contradiction|].
  destruct (IH Hin) as (p & ->). eauto.
Qed.

Lemma find_pos_notin : forall t l, ~ In t l -> find_pos t l = None.
Proof.
  intros t l. induction l as [|x l IH]; intros Hin; [reflexivity|].
  cbn [find_pos]. destruct (Z.eqb_spec x t) as [->|Hne].
  - exfalso. apply Hin. now left.
  - rewrite IH; [reflexivity|]. intros H. apply Hin. now right.
Qed.

Lemma leave_length : forall t l p, find_pos t l = Some p -> length (leave t l) = (length l - 1)%nat.
Proof.
  intros t l. induction l as [|x l IH]; intros p Hf; cbn [find_pos leave length] in *; [discriminate|].
  destruct (x =? t); [lia|].
  destruct (find_pos t l) as [q|] eqn:Hq; [|discriminate].
  cbn [length]. rewrite (IH q eq_refl). apply find_pos_lt in Hq. lia.
Qed.

Lemma leave_nth : forall t l p k, find_pos t l = Some p ->
  nth k (leave t l) 0 = if (k <? p)%nat then nth k l 0 else nth (S k) l 0.
Proof.
  intros t l. induction l as [|x l IH]; intros p k Hf; cbn [find_pos leave] in *; [discriminate|].
  destruct (x =? t).
  - injection Hf as <-. destruct (Nat.ltb_spec k 0); [lia|]. reflexivity.
  - destruct (find_pos t l) as [q|] eqn:Hq; [|discriminate]. injection Hf as <-.
    destruct k as [|k].
    + cbn [nth]. reflexivity.
    + cbn [nth]. rewrite (IH q k eq_refl).
      destruct (Nat.ltb_spec k q); destruct (Nat.ltb_spec (S k) (S q)); try lia; reflexivity.
Qed.

Lemma leave_notin : forall t l, ~ In t l -> leave t l = l.
Proof.
  intros t l. induction l as [|x l IH]; intros Hin; [reflexivity|].
  cbn [leave]. destruct (Z.eqb_spec x t) as [->|Hne].
  - exfalso. apply Hin. now left.
  - f_equal. apply IH. intros H. apply Hin. now right.
Qed.

Lemma remove_scan_spec : forall n f t l2 l1 fuel,
  repr n f (l1 ++ l2) -> l2 <> [] -> (length l2 < fuel)%nat ->
  remove_scan fuel n f t (pos n (f_head f) (length l1))
  = Some (match find_pos t l2 with
          | Some p => pos n (f_head f) (length l1 + p)
          | None => n
          end).
Proof.
  intros n f t l2. induction l2 as [|x l2 IH]; intros l1 fuel Hr Hne Hf; [congruence|].
  destruct fuel as [|fuel]; [lia|].
  cbn [remove_scan find_pos].
  assert (Hr' := Hr). destruct Hr' as (Hn & Hh & Hlen & Hl & He & Hb).
  rewrite app_length in *. cbn [length] in *.
  rewrite Hb by lia. rewrite app_nth2 by lia. rewrite Nat.sub_diag. cbn [nth].
  destruct (x =? t). { now rewrite Nat.add_0_r. }
  rewrite nxt_pos by lia. rewrite Hl.
  destruct l2 as [|y l2].
  - cbn [find_pos length]. replace (length l1 + 1)%nat with (S (length l1)) by lia.
    now rewrite Z.eqb_refl.
  - destruct (Z.eqb_spec (pos n (f_head f) (S (length l1)))
                (pos n (f_head f) (length l1 + S (length (y :: l2))))) as [Heq|Hneq].
    + exfalso. cbn [length] in *.
      destruct (Nat.eq_dec (length l1 + S (S (length l2))) (Z.to_nat n)) as [Hfull|Hnf].
      * rewrite Hfull, pos_full in Heq by lia.
        rewrite <- (pos_0 n (f_head f)) in Heq at 2 by lia.
        apply pos_inj in Heq; lia.
      * apply pos_inj in Heq; lia.
    + replace (S (length l1)) with (length (l1 ++ [x])) by (rewrite app_length; cbn; lia).
      rewrite IH.
      * destruct (find_pos t (y :: l2)); [|reflexivity].
        rewrite app_length. cbn [length]. do 2 f_equal. lia.
      * rewrite <- app_assoc. exact Hr.
      * discriminate.
      * lia.
Qed.

Lemma shift_fwd_spec : forall n h m p fuel b,
  0 < n -> (p + m < Z.to_nat n)%nat -> (m < fuel)%nat ->
  exists b', shift_fwd fuel n b (pos n h p) (pos n h (p + m)) = Some b' /\
    forall k, (k < Z.to_nat n)%nat ->
      b' (pos n h k) =
      if ((p <=? k) && (k <? p + m))%nat then b (pos n h (S k)) else b (pos n h k).
Proof.
  intros n h m. induction m as [|m IH]; intros p fuel b Hn Hpm Hf.
  - destruct fuel as [|fuel]; [lia|]. cbn [shift_fwd].
    rewrite Nat.add_0_r, Z.eqb_refl. eexists. split; [reflexivity|].
    intros k Hk.
    destruct (Nat.leb_spec p k) as [H1|H1]; destruct (Nat.ltb_spec k p) as [H2|H2];
      try lia; cbn [andb]; reflexivity.
  - destruct fuel as [|fuel]; [lia|]. cbn [shift_fwd].
    destruct (Z.eqb_spec (pos n h p) (pos n h (p + S m))) as [Heq|Hne].
    { apply pos_inj in Heq; lia. }
    rewrite nxt_pos by lia.
    replace (p + S m)%nat with (S p + m)%nat by lia.
    destruct (IH (S p) fuel (upd b (pos n h p) (b (pos n h (S p))))) as (b' & Hs & Hb');
      [lia|lia|lia|].
    exists b'. split; [exact Hs|].
    intros k Hk. rewrite Hb' by lia.
    destruct (Nat.leb_spec (S p) k) as [H1|H1]; destruct (Nat.ltb_spec k (S p + m)) as [H2|H2];
      destruct (Nat.leb_spec p k) as [H3|H3]; cbn [andb]; try lia.
    + rewrite upd_other; [reflexivity|]. intros Heq.
      destruct (Nat.eq_dec (S k) (Z.to_nat n)) as [Hw|Hw]; [lia|]. apply pos_inj in Heq; lia.
    + rewrite upd_other; [reflexivity|]. intros Heq. apply pos_inj in Heq; lia.
    + assert (Hk' : k = p) by lia. subst k. now rewrite upd_same.
    + rewrite upd_other; [reflexivity|]. intros Heq. apply pos_inj in Heq; lia.
Qed.

Lemma repr_remove : forall n f l t,
  repr n f l ->
  exists f' e, fifo_remove n f t = Some (f', e) /\ repr n f' (leave t l) /\
               (e = if existsb (Z.eqb t) l then ERR_OK else ERR_NOTFOUND).
Proof.
  intros n f l t Hr.
  assert (Hr' := Hr). destruct Hr' as (Hn & Hh & Hlen & Hl & He & Hb).
  unfold fifo_remove. rewrite He.
  destruct l as [|x0 l0].
  { exists f, ERR_NOTFOUND. cbn [leave existsb]. auto. }
  set (l := x0 :: l0) in *.
  assert (Hs := remove_scan_spec n f t l [] (S (Z.to_nat n)) Hr).
  cbn [length app Nat.add] in Hs. rewrite pos_0 in Hs by lia.
  rewrite Hs; [|discriminate|fold l; lia].
  destruct (find_pos t l) as [p|] eqn:Hp.
  - assert (Hlt := find_pos_lt _ _ _ Hp).
    assert (Hpr := pos_range n (f_head f) p Hn).
    destruct (Z.eqb_spec (pos n (f_head f) p) n) as [Habs|_]; [lia|].
    rewrite Hl.
    assert (Hlast : prv n (pos n (f_head f) (length l)) = pos n (f_head f) (length l - 1)).
    { replace (length l) with (S (length l - 1)) at 1 by (cbn [length]; lia).
      apply prv_pos; lia. }
    rewrite Hlast.
    destruct (shift_fwd_spec n (f_head f) (length l - 1 - p) p (S (Z.to_nat n)) (f_buf f))
      as (b' & Hsf & Hb'); [lia|lia|lia|].
    replace (p + (length l - 1 - p))%nat with (length l - 1)%nat in * by lia.
    rewrite Hsf. eexists _, _. split; [reflexivity|]. split.
    + unfold repr. cbn [f_head f_last f_empty f_buf].
      rewrite (leave_length _ _ _ Hp).
      split; [lia|]. split; [lia|]. split; [lia|]. split; [reflexivity|]. split.
      * assert (Hll := leave_length _ _ _ Hp).
        destruct (leave t l) as [|y l'] eqn:Hlv.
        -- cbn [length] in Hll. rewrite <- Hll. rewrite pos_0 by lia. apply Z.eqb_refl.
        -- cbn [length] in Hll. apply Z.eqb_neq. intros Heq.
           rewrite <- (pos_0 n (f_head f)) in Heq at 2 by lia.
           apply pos_inj in Heq; lia.
      * intros k Hk. rewrite Hb' by lia. rewrite (leave_nth _ _ _ k Hp).
        destruct (Nat.ltb_spec k p) as [H1|H1];
          destruct (Nat.leb_spec p k) as [H2|H2]; try lia; cbn [andb].
        -- apply Hb. lia.
        -- destruct (Nat.ltb_spec k (length l - 1)) as [H3|H3]; [|lia]. apply Hb. lia.
    + assert (Hex : existsb (Z.eqb t) l = true).
      { clear -Hp. revert p Hp. induction l as [|y l IH]; intros p Hp; [discriminate|].
        cbn [find_pos existsb] in *. rewrite (Z.eqb_sym t y).
        destruct (y =? t); [reflexivity|]. cbn [orb].
        destruct (find_pos t l) as [q|] eqn:Hq; [|discriminate].
        apply (IH q eq_refl). }
      now rewrite Hex.
  - rewrite Z.eqb_refl. exists f, ERR_NOTFOUND.
    assert (Hnin : ~ In t l).
    { intros Hin. destruct (find_pos_in _ _ Hin) as (p & Hp'). congruence. }
    split; [reflexivity|]. split.
    + rewrite leave_notin by exact Hnin. exact Hr.
    + destruct (existsb (Z.eqb t) l) eqn:Hex; [|reflexivity].
      apply existsb_exists in Hex. destruct Hex as (y & Hy & Hyt).
      apply Z.eqb_eq in Hyt. subst y. contradiction.
Qed.
