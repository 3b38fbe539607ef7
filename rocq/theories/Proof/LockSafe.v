(** Facts that hold in every history, disturbed or not: ring indices stay in range, loops
    terminate, kernel assertions never fail, values stay in range. *)
From Verif Require Import Model.Base Model.State Model.LockFifo Model.LockObj Model.LockSys
  Spec.LockSpec Proof.Tac Proof.LockFifoProof.

Definition fifo_ok (n : Z) (f : fifo) : Prop :=
  0 <= f_head f < n /\ 0 <= f_last f < n.

(** Distance from i to j going forward. *)
Definition dist (n i j : Z) : Z := (j - i) mod n.

Lemma nxt_range : forall n i, 0 < n -> 0 <= nxt n i < n.
Proof. intros n i Hn. unfold nxt. apply Z.mod_pos_bound. lia. Qed.

Lemma prv_range : forall n i, 0 < n -> 0 <= i < n -> 0 <= prv n i < n.
Proof. intros n i Hn Hi. unfold prv. destruct (Z.eqb_spec i 0); lia. Qed.

Lemma dist_range : forall n i j, 0 < n -> 0 <= dist n i j < n.
Proof. intros n i j Hn. unfold dist. apply Z.mod_pos_bound. lia. Qed.

Lemma dist_0 : forall n i j, 0 < n -> 0 <= i < n -> 0 <= j < n -> dist n i j = 0 -> i = j.
Proof.
  intros n i j Hn Hi Hj Hd. unfold dist in Hd.
  destruct (Z.le_gt_cases i j) as [H|H].
  - rewrite Z.mod_small in Hd; lia.
  - rewrite <- (Z_mod_plus_full (j - i) 1 n) in Hd. rewrite Z.mod_small in Hd; lia.
Qed.

Lemma dist_nxt : forall n i j, 0 < n -> 0 <= i < n -> 0 <= j < n -> i <> j ->
  dist n (nxt n i) j = dist n i j - 1.
Proof.
  intros n i j Hn Hi Hj Hne.
  assert (Hr := dist_range n i j Hn).
  assert (Hnz : dist n i j <> 0) by (intros H; apply dist_0 in H; lia).
  unfold dist in *. unfold nxt. rewrite Zminus_mod_idemp_r.
  replace (j - (i + 1)) with ((j - i) + -1) by lia.
  rewrite <- Z.add_mod_idemp_l by lia.
  rewrite Z.mod_small; lia.
Qed.

Lemma dist_prv : forall n i j, 0 < n -> 0 <= i < n -> 0 <= j < n -> i <> j ->
  dist n i (prv n j) = dist n i j - 1.
Proof.
  intros n i j Hn Hi Hj Hne.
  assert (Hr := dist_range n i j Hn).
  assert (Hnz : dist n i j <> 0) by (intros H; apply dist_0 in H; lia).
  rewrite prv_range_mod by lia. unfold dist in *.
  rewrite Zminus_mod_idemp_l.
  replace (j - 1 - i) with ((j - i) + -1) by lia.
  rewrite <- Z.add_mod_idemp_l by lia.
  rewrite Z.mod_small; lia.
Qed.

Lemma prio_scan_term : forall n prio f t fuel i,
  0 < n -> fifo_ok n f -> 0 <= i < n -> (Z.to_nat (dist n i (f_last f)) < fuel)%nat ->
  exists r, prio_scan fuel n prio f t i = Some r /\ 0 <= r < n.
Proof.
  intros n prio f t fuel. induction fuel as [|fuel IH]; intros i Hn Hf Hi Hd; [lia|].
  cbn [prio_scan].
  destruct (Z.eqb_spec i (f_last f)) as [Heq|Hne]; cbn [negb andb]; [eauto|].
  destruct (prio t <=? prio (f_buf f i)); [|eauto].
  apply IH; auto using nxt_range.
  destruct Hf as (Hh & Hl).
  rewrite dist_nxt by lia.
  assert (Hnz : dist n i (f_last f) <> 0) by (intros H; apply dist_0 in H; lia).
  assert (Hr := dist_range n i (f_last f) Hn). lia.
Qed.

Lemma shift_back_term : forall n fuel b j i,
  0 < n -> 0 <= i < n -> 0 <= j < n -> (Z.to_nat (dist n i j) < fuel)%nat ->
  exists b', shift_back fuel n b j i = Some b'.
Proof.
  intros n fuel. induction fuel as [|fuel IH]; intros b j i Hn Hi Hj Hd; [lia|].
  cbn [shift_back]. destruct (Z.eqb_spec j i) as [->|Hne]; [eauto|].
  apply IH; auto using prv_range.
  rewrite dist_prv by lia.
  assert (Hnz : dist n i j <> 0) by (intros H; apply dist_0 in H; lia).
  assert (Hr := dist_range n i j Hn). lia.
Qed.

Lemma shift_fwd_term : forall n fuel b i j,
  0 < n -> 0 <= i < n -> 0 <= j < n -> (Z.to_nat (dist n i j) < fuel)%nat ->
  exists b', shift_fwd fuel n b i j = Some b'.
Proof.
  intros n fuel. induction fuel as [|fuel IH]; intros b i j Hn Hi Hj Hd; [lia|].
  cbn [shift_fwd]. destruct (Z.eqb_spec i j) as [->|Hne]; [eauto|].
  apply IH; auto using nxt_range.
  rewrite dist_nxt by lia.
  assert (Hnz : dist n i j <> 0) by (intros H; apply dist_0 in H; lia).
  assert (Hr := dist_range n i j Hn). lia.
Qed.

Lemma remove_scan_term : forall n f t fuel i,
  0 < n -> fifo_ok n f -> 0 <= i < n -> (Z.to_nat (dist n (nxt n i) (f_last f)) < fuel)%nat ->
  exists r, remove_scan fuel n f t i = Some r /\ (r = n \/ 0 <= r < n).
Proof.
  intros n f t fuel. induction fuel as [|fuel IH]; intros i Hn Hf Hi Hd; [lia|].
  cbn [remove_scan]. destruct (f_buf f i =? t); [eauto|].
  destruct (Z.eqb_spec (nxt n i) (f_last f)) as [Heq|Hne]; [eauto|].
  apply IH; auto using nxt_range.
  destruct Hf as (Hh & Hl). assert (Hx := nxt_range n i Hn).
  rewrite dist_nxt by lia.
  assert (Hnz : dist n (nxt n i) (f_last f) <> 0) by (intros H; apply dist_0 in H; lia).
  assert (Hr := dist_range n (nxt n i) (f_last f) Hn). lia.
Qed.

Lemma enqueue_ok : forall n prio f t d,
  0 < n -> fifo_ok n f ->
  exists f' e, fifo_enqueue n prio f t d = Some (f', e) /\ fifo_ok n f' /\
    (d = QD_PRIORITY -> e = ERR_OK).
Proof.
  intros n prio f t d Hn Hf. assert (Hf' := Hf). destruct Hf' as (Hh & Hl).
  unfold fifo_enqueue.
  destruct (Z.eqb_spec d QD_FIFO) as [->|Hd].
  - destruct (negb (f_empty f) && (f_last f =? f_head f)).
    + eexists _, _. split; [reflexivity|]. split; [exact Hf|discriminate].
    + eexists _, _. split; [reflexivity|]. split; [|discriminate].
      unfold fifo_ok. cbn [f_head f_last]. split; [lia|]. apply nxt_range. lia.
  - destruct (Z.eqb_spec d QD_PRIORITY) as [->|Hd2].
    + destruct (prio_scan_term n prio f t (S (Z.to_nat n)) (f_head f)) as (i & -> & Hi); auto.
      { assert (Hr := dist_range n (f_head f) (f_last f) Hn). lia. }
      destruct (shift_back_term n (S (Z.to_nat n)) (f_buf f) (f_last f) i) as (b & ->); auto.
      { assert (Hr := dist_range n i (f_last f) Hn). lia. }
      eexists _, _. split; [reflexivity|]. split; [|reflexivity].
      unfold fifo_ok. cbn [f_head f_last]. split; [lia|]. apply nxt_range. lia.
    + eexists _, _. split; [reflexivity|]. split; [exact Hf|]. intros He. contradiction.
Qed.

Lemma dequeue_ok : forall n f, 0 < n -> fifo_ok n f -> fifo_ok n (fst (fifo_dequeue n f)).
Proof.
  intros n f Hn Hf. unfold fifo_dequeue. destruct (f_empty f); [exact Hf|].
  destruct Hf as (Hh & Hl). unfold fifo_ok. cbn [fst f_head f_last].
  split; [now apply nxt_range|lia].
Qed.

Lemma remove_ok : forall n f t,
  0 < n -> fifo_ok n f ->
  exists f' e, fifo_remove n f t = Some (f', e) /\ fifo_ok n f' /\
    (f_empty f = true -> f_empty f' = true).
Proof.
  intros n f t Hn Hf. assert (Hf' := Hf). destruct Hf' as (Hh & Hl).
  unfold fifo_remove. destruct (f_empty f) eqn:He.
  { eexists _, _. split; [reflexivity|]. auto. }
  destruct (remove_scan_term n f t (S (Z.to_nat n)) (f_head f)) as (r & -> & Hr); auto.
  { assert (Hr := dist_range n (nxt n (f_head f)) (f_last f) Hn). lia. }
  destruct (Z.eqb_spec r n) as [->|Hne].
  { eexists _, _. split; [reflexivity|]. split; [exact Hf|]. discriminate. }
  assert (Hp := prv_range n (f_last f) Hn Hl).
  destruct (shift_fwd_term n (S (Z.to_nat n)) (f_buf f) r (prv n (f_last f))) as (b & ->); try lia.
  { assert (Hr' := dist_range n r (prv n (f_last f)) Hn). lia. }
  eexists _, _. split; [reflexivity|]. split; [|discriminate].
  unfold fifo_ok. cbn [f_head f_last]. lia.
Qed.

Lemma broadcast_term : forall n fuel f th,
  0 < n -> fifo_ok n f ->
  (f_empty f = false -> (Z.to_nat (dist n (nxt n (f_head f)) (f_last f)) + 1 < fuel)%nat) ->
  (0 < fuel)%nat ->
  exists f' th', broadcast_loop fuel n f th = Some (f', th') /\ fifo_ok n f' /\ f_empty f' = true.
Proof.
  intros n fuel. induction fuel as [|fuel IH]; intros f th Hn Hf Hd Hfu; [lia|].
  cbn [broadcast_loop]. unfold fifo_is_empty.
  destruct (f_empty f) eqn:He.
  { eexists _, _. split; [reflexivity|]. auto. }
  assert (Hx := nxt_range n (f_head f) Hn).
  assert (Hf' := Hf). destruct Hf' as (Hh & Hl).
  apply IH; auto using dequeue_ok; [|specialize (Hd eq_refl); lia].
  unfold fifo_dequeue. rewrite He. cbn [fst f_empty f_head f_last].
  intros Hne. apply Z.eqb_neq in Hne.
  specialize (Hd eq_refl).
  rewrite dist_nxt by lia.
  assert (Hnz : dist n (nxt n (f_head f)) (f_last f) <> 0) by (intros H; apply dist_0 in H; lia).
  assert (Hr := dist_range n (nxt n (f_head f)) (f_last f) Hn). lia.
Qed.

(** Invariant of one object. *)
Definition obj_ok (n : Z) (o : lockobj) : Prop :=
  fifo_ok n (o_fifo o) /\ fifo_ok n (o_event o) /\ 0 <= o_value o < 2^16 /\
  (o_init o = true -> 0 < o_value o -> f_empty (o_fifo o) = true).

Lemma obj_lock_ok : forall n now cur o th tmo,
  0 < n -> obj_ok n o ->
  exists o' th' r, obj_lock n now cur o th tmo = Done (o', th', r) /\ obj_ok n o'.
Proof.
  intros n now cur o th tmo Hn Ho. assert (Ho' := Ho).
  destruct Ho' as (Hf & He & Hv & Hi).
  unfold obj_lock. destruct (o_init o) eqn:Hin; cbn [negb].
  2:{ eexists _, _, _. split; [reflexivity|exact Ho]. }
  destruct (Z.ltb_spec 0 (o_value o)) as [Hp|Hz].
  - unfold fifo_is_empty. rewrite Hi by auto.
    eexists _, _, _. split; [reflexivity|].
    unfold obj_ok, set_o_value. cbn [o_fifo o_event o_value o_init].
    unfold u16. rewrite Z.mod_small by lia.
    split; [exact Hf|]. split; [exact He|]. split; [lia|]. auto.
  - destruct (enqueue_ok n (prio_of th) (o_fifo o) cur (o_qpol o) Hn Hf) as (f' & e & -> & Hf' & _).
    eexists _, _, _. split; [reflexivity|].
    unfold obj_ok, set_o_fifo. cbn [o_fifo o_event o_value o_init].
    split; [exact Hf'|]. split; [exact He|]. split; [exact Hv|]. lia.
Qed.

Lemma obj_unlock_ok : forall n o th,
  0 < n -> obj_ok n o -> 0 <= o_max o < 2^16 ->
  exists o' th' e w, obj_unlock n o th = Done (o', th', e, w) /\ obj_ok n o'.
Proof.
  intros n o th Hn Ho Hmax. assert (Ho' := Ho).
  destruct Ho' as (Hf & He & Hv & Hi).
  unfold obj_unlock. destruct (o_init o) eqn:Hin; cbn [negb].
  2:{ eexists _, _, _, _. split; [reflexivity|exact Ho]. }
  unfold fifo_is_empty.
  destruct (Z.eqb_spec (o_value o) 0) as [Hz|Hz]; cbn [negb].
  - destruct (f_empty (o_fifo o)) eqn:Hem.
    + eexists _, _, _, _. split; [reflexivity|].
      unfold obj_ok, set_o_value. cbn [o_fifo o_event o_value o_init].
      repeat split; auto; try lia; apply Hf || apply He.
    + destruct (fifo_dequeue n (o_fifo o)) as (f' & e') eqn:Hdq.
      eexists _, _, _, _. split; [reflexivity|].
      assert (Hf' := dequeue_ok n (o_fifo o) Hn Hf). rewrite Hdq in Hf'. cbn [fst] in Hf'.
      unfold obj_ok, set_o_fifo. cbn [o_fifo o_event o_value o_init].
      split; [exact Hf'|]. split; [exact He|]. split; [exact Hv|]. lia.
  - rewrite Hi by (auto; lia).
    destruct (o_kind o =? LK_SEMAPHORE).
    + destruct (Z.ltb_spec (o_value o) (o_max o)) as [Hlt|Hge].
      * eexists _, _, _, _. split; [reflexivity|].
        unfold obj_ok, set_o_value. cbn [o_fifo o_event o_value o_init].
        unfold u16. rewrite Z.mod_small by lia.
        split; [exact Hf|]. split; [exact He|]. split; [lia|].
        intros _ _. apply Hi; [reflexivity|lia].
      * eexists _, _, _, _. split; [reflexivity|exact Ho].
    + eexists _, _, _, _. split; [reflexivity|].
      unfold obj_ok, set_o_value. cbn [o_fifo o_event o_value o_init].
      split; [exact Hf|]. split; [exact He|]. split; [lia|].
      intros _ _. apply Hi; [reflexivity|lia].
Qed.

Lemma obj_unlock_static : forall n o th o' th' e w,
  obj_unlock n o th = Done (o', th', e, w) ->
  o_max o' = o_max o /\ o_kind o' = o_kind o /\ o_init o' = o_init o /\ o_qpol o' = o_qpol o /\
  o_event o' = o_event o.
Proof.
  intros n o th o' th' e w H. unfold obj_unlock in H.
  destruct (fifo_dequeue n (o_fifo o)) as (f' & e').
  repeat match type of H with
  | context [if ?b then _ else _] => destruct b
  end; try discriminate; injection H as <- <- <- <-;
  unfold set_o_value, set_o_fifo; cbn; auto.
Qed.

Lemma obj_lock_static : forall n now cur o th tmo o' th' r,
  obj_lock n now cur o th tmo = Done (o', th', r) ->
  o_max o' = o_max o /\ o_kind o' = o_kind o /\ o_init o' = o_init o /\ o_qpol o' = o_qpol o /\
  o_event o' = o_event o.
Proof.
  intros n now cur o th tmo o' th' r H. unfold obj_lock in H.
  destruct (negb (o_init o)); [injection H as <- <- <-; auto|].
  destruct (0 <? o_value o).
  - destruct (fifo_is_empty (o_fifo o)); [|discriminate].
    injection H as <- <- <-. unfold set_o_value; cbn; auto.
  - destruct (fifo_enqueue n (prio_of th) (o_fifo o) cur (o_qpol o)) as [[f e]|]; [|discriminate].
    injection H as <- <- <-. unfold set_o_fifo; cbn; auto.
Qed.

Definition static_eq (o o' : lockobj) : Prop :=
  o_max o' = o_max o /\ o_kind o' = o_kind o /\ o_init o' = o_init o /\ o_qpol o' = o_qpol o.

Lemma obj_lock_resume_ok : forall n now cur o d,
  0 < n -> obj_ok n o ->
  exists o' e, obj_lock_resume n now cur o d = Done (o', e) /\ obj_ok n o' /\ static_eq o o'
    /\ o_value o' = o_value o.
Proof.
  intros n now cur o d Hn Ho. assert (Ho' := Ho).
  destruct Ho' as (Hf & He & Hv & Hi). unfold obj_lock_resume, static_eq.
  destruct (negb (d =? 0) && (d <=? now)).
  - destruct (remove_ok n (o_fifo o) cur Hn Hf) as (f' & e & -> & Hf' & Hem).
    eexists _, _. split; [reflexivity|].
    unfold obj_ok, set_o_fifo. cbn [o_fifo o_event o_value o_init o_max o_kind o_qpol].
    split; [|auto]. split; [exact Hf'|]. split; [exact He|]. split; [exact Hv|]. auto.
  - eexists _, _. split; [reflexivity|]. split; [exact Ho|]. auto 10.
Qed.

Lemma obj_eventwait_ok : forall n now cur o th tmo,
  0 < n -> obj_ok n o -> 0 <= o_max o < 2^16 ->
  exists o' th' r, obj_eventwait n now cur o th tmo = Done (o', th', r) /\ obj_ok n o' /\ static_eq o o'.
Proof.
  intros n now cur o th tmo Hn Ho Hmax. unfold obj_eventwait, static_eq.
  destruct (negb (o_init o)); [eexists _, _, _; split; [reflexivity|]; auto|].
  destruct (negb (o_kind o =? LK_EVENT)); [eexists _, _, _; split; [reflexivity|]; auto|].
  destruct (obj_unlock_ok n o th Hn Ho Hmax) as (o1 & th1 & e & w & Hu & Ho1). rewrite Hu.
  assert (Hs := obj_unlock_static _ _ _ _ _ _ _ Hu). destruct Hs as (Hs1 & Hs2 & Hs3 & Hs4 & Hs5).
  destruct (negb (e =? 0)); [eexists _, _, _; split; [reflexivity|]; auto|].
  assert (Ho1' := Ho1). destruct Ho1' as (Hf & He & Hv & Hi).
  destruct (enqueue_ok n (prio_of th1) (o_event o1) cur QD_PRIORITY Hn He) as (f' & er & -> & Hf' & Her).
  rewrite (Her eq_refl). cbn [Z.eqb ERR_OK negb].
  eexists _, _, _. split; [reflexivity|].
  unfold obj_ok, set_o_event. cbn [o_fifo o_event o_value o_init o_max o_kind o_qpol].
  split; [|auto]. split; [exact Hf|]. split; [exact Hf'|]. split; [exact Hv|exact Hi].
Qed.

Lemma obj_eventwait_resume_ok : forall n now cur o th d,
  0 < n -> obj_ok n o ->
  exists o' th' rw r, obj_eventwait_resume n now cur o th d = Done (o', th', rw, r) /\ obj_ok n o' /\ static_eq o o'.
Proof.
  intros n now cur o th d Hn Ho. unfold obj_eventwait_resume.
  assert (H1 : exists o1 rw,
    (if negb (d =? 0) && (d <=? now)
     then match fifo_remove n (o_event o) cur with
          | Some (f, _) => Done (set_o_event f o, ERR_TIMEOUT)
          | None => Crash
          end
     else Done (o, ERR_OK)) = Done (o1, rw) /\ obj_ok n o1 /\ static_eq o o1).
  { assert (Ho' := Ho). destruct Ho' as (Hf & He & Hv & Hi).
    destruct (negb (d =? 0) && (d <=? now)).
    - destruct (remove_ok n (o_event o) cur Hn He) as (f' & e & -> & Hf' & Hem).
      eexists _, _. split; [reflexivity|].
      unfold obj_ok, set_o_event, static_eq. cbn [o_fifo o_event o_value o_init o_max o_kind o_qpol].
      split; [|auto]. split; [exact Hf|]. split; [exact Hf'|]. split; [exact Hv|exact Hi].
    - eexists _, _. split; [reflexivity|]. unfold static_eq. auto. }
  destruct H1 as (o1 & rw & -> & Ho1 & Hs1).
  destruct (obj_lock_ok n now cur o1 th 0 Hn Ho1) as (o2 & th2 & r & Hl & Ho2). rewrite Hl.
  apply obj_lock_static in Hl.
  destruct r as [e|dl]; eexists _, _, _, _; (split; [reflexivity|]); split; auto;
    unfold static_eq in *; intuition congruence.
Qed.

Lemma obj_signal_ok : forall n o th o' th' e w,
  0 < n -> obj_ok n o -> obj_eventsignal n o th = (o', th', e, w) -> obj_ok n o' /\ static_eq o o'
    /\ o_value o' = o_value o.
Proof.
  intros n o th o' th' e w Hn Ho H. unfold obj_eventsignal in H.
  destruct (fifo_is_empty (o_event o)).
  - injection H as <- <- <- <-. unfold static_eq. split; [exact Ho|]. auto 10.
  - destruct (fifo_dequeue n (o_event o)) as (f' & e') eqn:Hdq.
    injection H as <- <- <- <-.
    destruct Ho as (Hf & He & Hv & Hi).
    assert (Hf' := dequeue_ok n (o_event o) Hn He). rewrite Hdq in Hf'. cbn [fst] in Hf'.
    unfold obj_ok, set_o_event, static_eq. cbn [o_fifo o_event o_value o_init o_max o_kind o_qpol].
    split; [|auto]. split; [exact Hf|]. split; [exact Hf'|]. split; [exact Hv|exact Hi].
Qed.

Lemma obj_broadcast_ok : forall n o th,
  0 < n -> obj_ok n o ->
  exists o' th' e b, obj_eventbroadcast n o th = Done (o', th', e, b) /\ obj_ok n o' /\ static_eq o o'
    /\ o_value o' = o_value o.
Proof.
  intros n o th Hn Ho. unfold obj_eventbroadcast.
  destruct Ho as (Hf & He & Hv & Hi).
  destruct (broadcast_term n (S (S (Z.to_nat n))) (o_event o) th Hn He) as (f' & th' & -> & Hf' & Hem).
  { intros _. assert (Hr := dist_range n (nxt n (f_head (o_event o))) (f_last (o_event o)) Hn). lia. }
  { lia. }
  eexists _, _, _, _. split; [reflexivity|].
  unfold obj_ok, set_o_event, static_eq. cbn [o_fifo o_event o_value o_init o_max o_kind o_qpol].
  split; [|auto]. split; [exact Hf|]. split; [exact Hf'|]. split; [exact Hv|exact Hi].
Qed.

(** System invariant. *)
Definition sys_ok (n : Z) (s : lsys) : Prop :=
  forall id, obj_ok n (s_obj s id) /\ 0 <= o_max (s_obj s id) < 2^16.

Lemma obj_create_ok : forall n o a o' e,
  0 < n -> obj_ok n o -> 0 <= o_max o < 2^16 -> attr_typed a -> obj_create o a = (o', e) ->
  obj_ok n o' /\ 0 <= o_max o' < 2^16.
Proof.
  intros n o a o' e Hn Ho Hm (Ha1 & Ha2) H. unfold obj_create in H.
  destruct (negb (la_lpol a =? 0) && negb (la_lpol a =? 1) && negb (la_lpol a =? 2));
    [injection H as <- <-; auto|].
  destruct (negb (la_kind a =? LK_MUTEX) && negb (la_kind a =? LK_SEMAPHORE) && negb (la_kind a =? LK_EVENT));
    [injection H as <- <-; auto|].
  injection H as <- <-.
  unfold obj_ok, fifo_ok, fifo_init. cbn [o_fifo o_event o_value o_init o_max f_head f_last f_empty].
  split; [|destruct (la_kind a =? LK_SEMAPHORE); lia].
  split; [lia|]. split; [lia|]. split; [destruct (la_kind a =? LK_SEMAPHORE); lia|reflexivity].
Qed.

Lemma sys_ok_upd : forall n s id o th now k,
  sys_ok n s -> obj_ok n o -> 0 <= o_max o < 2^16 ->
  sys_ok n (mkLsys (upd (s_obj s) id o) th now k).
Proof.
  intros n s id o th now k Hs Ho Hm i. cbn [s_obj]. unfold upd.
  destruct (i =? id); [auto|apply Hs].
Qed.

Lemma step_ok : forall n s l,
  0 < n -> sys_ok n s -> label_typed l ->
  match step n s l with
  | Next s' _ => sys_ok n s'
  | Disabled => True
  | Failure => False
  end.
Proof.
  intros n s l Hn Hs Ht.
  assert (Hsame : forall th now k, sys_ok n (mkLsys (s_obj s) th now k)).
  { intros th now k id. cbn [s_obj]. apply Hs. }
  destruct l as [id a|t id o|t st w|t|t| |t|t st|t p]; cbn [step].
  - destruct (o_init (s_obj s id)); [exact I|].
    destruct (obj_create (s_obj s id) a) as (o' & e) eqn:Hc.
    destruct (Hs id) as (Ho & Hm).
    destruct (obj_create_ok n _ a o' e Hn Ho Hm Ht Hc) as (Ho' & Hm').
    now apply sys_ok_upd.
  - destruct ((0 <=? t) && (t <? n) && is_user (s_k s t) && runnable s t); [|exact I].
    destruct (Hs id) as (Ho & Hm).
    destruct o as [tmo| |tmo| |]; cbn [call].
    + destruct (obj_lock_ok n (s_now s) t (s_obj s id) (s_th s) tmo Hn Ho) as (o' & th' & r & Hl & Ho').
      rewrite Hl. apply obj_lock_static in Hl. destruct Hl as (Hl & _).
      destruct r; unfold with_obj; apply sys_ok_upd; auto; congruence.
    + destruct (obj_unlock_ok n (s_obj s id) (s_th s) Hn Ho Hm) as (o' & th' & e & w & Hl & Ho').
      rewrite Hl. apply obj_unlock_static in Hl. destruct Hl as (Hl & _).
      unfold with_obj; apply sys_ok_upd; auto; congruence.
    + destruct (obj_eventwait_ok n (s_now s) t (s_obj s id) (s_th s) tmo Hn Ho Hm)
        as (o' & th' & r & Hl & Ho' & Hst & _).
      rewrite Hl. destruct r; unfold with_obj; apply sys_ok_upd; auto; congruence.
    + destruct (obj_eventsignal n (s_obj s id) (s_th s)) as (((o' & th') & e) & w) eqn:Hl.
      destruct (obj_signal_ok _ _ _ _ _ _ _ Hn Ho Hl) as (Ho' & (Hst & _) & _).
      unfold with_obj; apply sys_ok_upd; auto; congruence.
    + destruct (obj_broadcast_ok n (s_obj s id) (s_th s) Hn Ho) as (o' & th' & e & b & Hl & Ho' & (Hst & _) & _).
      rewrite Hl. unfold with_obj; apply sys_ok_upd; auto; congruence.
  - destruct ((0 <=? t) && (t <? n) && is_user (s_k s t) && runnable s t); [apply Hsame|exact I].
  - destruct (is_other (s_k s t)); [apply Hsame|exact I].
  - destruct (runnable s t); [|exact I]. unfold resume.
    destruct (s_k s t) as [|id d|id d|id rw|]; try exact I; try apply Hsame;
      destruct (Hs id) as (Ho & Hm).
    + destruct (obj_lock_resume_ok n (s_now s) t (s_obj s id) d Hn Ho) as (o' & e & -> & Ho' & (Hst & _) & _).
      unfold with_obj; apply sys_ok_upd; auto; congruence.
    + destruct (obj_eventwait_resume_ok n (s_now s) t (s_obj s id) (s_th s) d Hn Ho)
        as (o' & th' & rw & r & -> & Ho' & (Hst & _)).
      destruct r; unfold with_obj; apply sys_ok_upd; auto; congruence.
    + destruct (obj_lock_resume_ok n (s_now s) t (s_obj s id) 0 Hn Ho) as (o' & e & -> & Ho' & (Hst & _) & _).
      unfold with_obj; apply sys_ok_upd; auto; congruence.
  - apply Hsame.
  - destruct ((t_state (s_th s t) =? ST_WAITING) && (t_wakeup (s_th s t) <=? s_now s)); [apply Hsame|exact I].
  - apply Hsame.
  - apply Hsame.
Qed.

Lemma boot_ok : forall n th now, 0 < n -> sys_ok n (boot th now).
Proof.
  intros n th now Hn id. cbn. unfold obj_ok, fifo_ok. cbn.
  split; [|lia]. split; [lia|]. split; [lia|]. split; [lia|]. discriminate.
Qed.

Lemma run_ok : forall n ls s,
  0 < n -> sys_ok n s -> Forall label_typed ls ->
  exists s' evs, run n s ls = Some (s', evs) /\ sys_ok n s'.
Proof.
  intros n ls. induction ls as [|l ls IH]; intros s Hn Hs Ht.
  - cbn [run]. eauto.
  - inversion Ht as [|? ? Hl Ht']; subst. cbn [run].
    assert (Hst := step_ok n s l Hn Hs Hl).
    destruct (step n s l) as [s1 ev| |]; [|auto|contradiction].
    destruct (IH s1 Hn Hst Ht') as (s' & evs & -> & Hs'). eauto.
Qed.
