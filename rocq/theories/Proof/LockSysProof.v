(** Invariant of undisturbed histories: the ring buffers of every object are the arrival lists in
    the order of the discipline, and the queued threads are exactly the blocked ones. *)
From Verif Require Import Model.Base Model.State Model.LockFifo Model.LockObj Model.LockSys
  Spec.LockSpec Spec.SemSpec Proof.Tac Proof.LockFifoProof Proof.LockSafe Proof.WaitOrder.

(** Queue a thread is attached to: (lock queue or event queue, object, deadline). *)
Definition kq (k : kont) : option (bool * Z * Z) :=
  match k with
  | KLock id d => Some (true, id, d)
  | KRelock id _ => Some (true, id, 0)
  | KWait id d => Some (false, id, d)
  | _ => None
  end.

Definition blk (x : thread) (now d : Z) : Prop :=
  (d = 0 /\ t_state x = ST_LOCK) \/
  (0 < d /\ ((t_state x = ST_WAITING /\ t_wakeup x = d) \/ (t_state x = ST_RUNNABLE /\ d <= now))).

Definition TInv (n : Z) (ini : Z -> bool) (th : Z -> thread) (now : Z) (k : Z -> kont)
  (QQ : bool -> Z -> wqueue) : Prop :=
  (forall b id t p, In (t, p) (QQ b id) ->
     0 <= t < n /\ t_priority (th t) = p /\ exists d, kq (k t) = Some (b, id, d) /\ blk (th t) now d) /\
  (forall b id t d, kq (k t) = Some (b, id, d) ->
     ini id = true /\ 0 <= t < n /\ (~ In t (keys (QQ b id)) -> t_state (th t) = ST_RUNNABLE)).

Definition updq (QQ : bool -> Z -> wqueue) (b : bool) (id : Z) (q : wqueue) : bool -> Z -> wqueue :=
  fun b' id' => if eqb b b' && (id' =? id) then q else QQ b' id'.

Lemma updq_same : forall QQ b id q, updq QQ b id q b id = q.
Proof. intros. unfold updq. now rewrite eqb_reflx, Z.eqb_refl. Qed.

Lemma updq_other : forall QQ b id q b' id', (b' <> b \/ id' <> id) -> updq QQ b id q b' id' = QQ b' id'.
Proof.
  intros QQ b id q b' id' H. unfold updq.
  destruct (Z.eqb_spec id' id) as [->|Hne]; [|now rewrite andb_false_r].
  destruct H as [H|H]; [|contradiction].
  destruct b, b'; try reflexivity; contradiction.
Qed.

Lemma updq_cases : forall QQ b id q b' id',
  (b' = b /\ id' = id /\ updq QQ b id q b' id' = q) \/
  ((b' <> b \/ id' <> id) /\ updq QQ b id q b' id' = QQ b' id').
Proof.
  intros QQ b id q b' id'. destruct (bool_dec b' b) as [->|Hb].
  - destruct (Z.eq_dec id' id) as [->|Hi].
    + left. now rewrite updq_same.
    + right. split; [now right|]. apply updq_other. now right.
  - right. split; [now left|]. apply updq_other. now left.
Qed.

Lemma in_keys : forall t q, In t (keys q) <-> exists p, In (t, p) q.
Proof.
  intros t q. unfold keys. rewrite in_map_iff. split.
  - intros ((x & p) & <- & Hin). eauto.
  - intros (p & Hin). exists (t, p). auto.
Qed.

(** A thread attached to no queue may change freely as long as it stays unattached. *)
Lemma T_free : forall n ini th now k QQ t x kk,
  TInv n ini th now k QQ -> kq (k t) = None -> kq kk = None ->
  TInv n ini (upd th t x) now (upd k t kk) QQ.
Proof.
  intros n ini th now k QQ t x kk (H1 & H2) Hk Hkk. split.
  - intros b id u p Hin. destruct (H1 b id u p Hin) as (Hr & Hp & d & Hd & Hb).
    destruct (Z.eq_dec u t) as [->|Hne]; [congruence|].
    rewrite !upd_other by exact Hne. eauto.
  - intros b id u d Hd. destruct (Z.eq_dec u t) as [->|Hne].
    + rewrite upd_same in Hd. congruence.
    + rewrite upd_other in Hd by exact Hne. rewrite upd_other by exact Hne. eauto.
Qed.

Lemma T_time : forall n ini th now now' k QQ,
  TInv n ini th now k QQ -> now <= now' -> TInv n ini th now' k QQ.
Proof.
  intros n ini th now now' k QQ (H1 & H2) Hle. split; [|exact H2].
  intros b id u p Hin. destruct (H1 b id u p Hin) as (Hr & Hp & d & Hd & Hb).
  split; [exact Hr|]. split; [exact Hp|]. exists d. split; [exact Hd|].
  unfold blk in *. intuition lia.
Qed.

Lemma T_expire : forall n ini th now k QQ t,
  TInv n ini th now k QQ -> t_state (th t) = ST_WAITING -> t_wakeup (th t) <= now ->
  TInv n ini (set_state th t ST_RUNNABLE) now k QQ.
Proof.
  intros n ini th now k QQ t (H1 & H2) Hst Hw. unfold set_state. split.
  - intros b id u p Hin. destruct (H1 b id u p Hin) as (Hr & Hp & d & Hd & Hb).
    destruct (Z.eq_dec u t) as [->|Hne].
    + rewrite upd_same. split; [exact Hr|]. split; [exact Hp|]. exists d. split; [exact Hd|].
      unfold blk in *. cbn [set_t_state t_state t_wakeup].
      destruct Hb as [(H & Hs)|(H & [(Hs & Hwk)|(Hs & Hle)])];
        rewrite Hst in Hs; try discriminate. right. split; [exact H|]. right.
      split; [reflexivity|lia].
    + rewrite upd_other by exact Hne. eauto.
  - intros b id u d Hd. destruct (H2 b id u d Hd) as (Hi & Hr & Hrun). split; [exact Hi|].
    split; [exact Hr|]. intros Hn.
    destruct (Z.eq_dec u t) as [->|Hne]; [now rewrite upd_same|].
    rewrite upd_other by exact Hne. auto.
Qed.

Lemma T_enq : forall n ini th now k QQ b id t d kk,
  TInv n ini th now k QQ -> kq (k t) = None -> 0 <= t < n -> 0 <= d -> ini id = true ->
  kq kk = Some (b, id, d) ->
  TInv n ini (block_current th t d) now (upd k t kk) (updq QQ b id (QQ b id ++ [(t, t_priority (th t))])).
Proof.
  intros n ini th now k QQ b id t d kk (H1 & H2) Hk Ht Hd Hi Hkk.
  assert (Hother : forall u, u <> t -> block_current th t d u = th u).
  { intros u Hne. unfold block_current, sched_lock_current_timed, sched_lock_current, set_state.
    destruct (0 <? d); now apply upd_other. }
  assert (Hnew : t_priority (block_current th t d t) = t_priority (th t) /\ blk (block_current th t d t) now d).
  { unfold block_current, sched_lock_current_timed, sched_lock_current, set_state, blk.
    destruct (Z.ltb_spec 0 d) as [Hp|Hp]; rewrite upd_same; cbn.
    - split; [reflexivity|]. right. split; [exact Hp|]. left. auto.
    - split; [reflexivity|]. left. split; [lia|reflexivity]. }
  assert (Hold : forall b' id' u p, In (u, p) (QQ b' id') -> u <> t).
  { intros b' id' u p Hin ->. destruct (H1 _ _ _ _ Hin) as (_ & _ & d' & Hd' & _). congruence. }
  split.
  - intros b' id' u p Hin.
    destruct (updq_cases QQ b id (QQ b id ++ [(t, t_priority (th t))]) b' id') as [(-> & -> & He)|(_ & He)];
      rewrite He in Hin.
    + apply in_app_or in Hin as [Hin|[Hin|[]]].
      * assert (Hne := Hold _ _ _ _ Hin). rewrite Hother, upd_other by exact Hne. eauto.
      * injection Hin as <- <-. rewrite upd_same. split; [exact Ht|].
        destruct Hnew as (Hn1 & Hn2). split; [exact Hn1|]. eauto.
    + assert (Hne := Hold _ _ _ _ Hin). rewrite Hother, upd_other by exact Hne. eauto.
  - intros b' id' u d' Hd'. destruct (Z.eq_dec u t) as [->|Hne].
    + rewrite upd_same in Hd'. rewrite Hkk in Hd'. injection Hd' as <- <- <-.
      split; [exact Hi|]. split; [exact Ht|]. intros Hn. exfalso. apply Hn. rewrite updq_same, keys_snoc.
      apply in_or_app. right. now left.
    + rewrite upd_other in Hd' by exact Hne. destruct (H2 _ _ _ _ Hd') as (Hi' & Hr & Hrun).
      split; [exact Hi'|]. split; [exact Hr|]. rewrite Hother by exact Hne. intros Hn. apply Hrun. intros Hin. apply Hn.
      destruct (updq_cases QQ b id (QQ b id ++ [(t, t_priority (th t))]) b' id') as [(-> & -> & He)|(_ & He)];
        rewrite He; [|exact Hin].
      rewrite keys_snoc. apply in_or_app. now left.
Qed.

Lemma T_wake : forall n ini th now k QQ b id w,
  TInv n ini th now k QQ -> In w (keys (QQ b id)) -> NoDup (keys (QQ b id)) ->
  TInv n ini (set_state th w ST_RUNNABLE) now k (updq QQ b id (leaves w (QQ b id))).
Proof.
  intros n ini th now k QQ b id w (H1 & H2) Hw Hnd. unfold set_state.
  apply in_keys in Hw as (pw & Hw). destruct (H1 _ _ _ _ Hw) as (Hwr & Hwp & dw & Hdw & Hbw).
  assert (Hni : ~ In w (keys (leaves w (QQ b id)))).
  { rewrite keys_leaves. apply leave_nodup. exact Hnd. }
  assert (Hcase : forall b' id' u p, In (u, p) (updq QQ b id (leaves w (QQ b id)) b' id') ->
            In (u, p) (QQ b' id') /\ u <> w).
  { intros b' id' u p Hin.
    destruct (updq_cases QQ b id (leaves w (QQ b id)) b' id') as [(-> & -> & He)|(Hdiff & He)];
      rewrite He in Hin.
    - split; [eapply leaves_in; eauto|]. intros ->. apply Hni. apply in_keys. eauto.
    - split; [exact Hin|]. intros ->. destruct (H1 _ _ _ _ Hin) as (_ & _ & d' & Hd' & _).
      rewrite Hdw in Hd'. injection Hd' as <- <- <-. destruct Hdiff as [Hdiff|Hdiff]; contradiction. }
  split.
  - intros b' id' u p Hin. apply Hcase in Hin as (Hin & Hne).
    rewrite upd_other by exact Hne. eauto.
  - intros b' id' u d' Hd'. destruct (H2 _ _ _ _ Hd') as (Hi' & Hr & Hrun). split; [exact Hi'|].
    split; [exact Hr|]. destruct (Z.eq_dec u w) as [->|Hne]; [now rewrite upd_same|].
    rewrite upd_other by exact Hne. intros Hn. apply Hrun. intros Hin. apply Hn.
    destruct (updq_cases QQ b id (leaves w (QQ b id)) b' id') as [(-> & -> & He)|(Hdiff & He)];
      rewrite He; [|exact Hin].
    rewrite keys_leaves. now apply leave_keep.
Qed.

Lemma T_end : forall n ini th now k QQ b id t d kk,
  TInv n ini th now k QQ -> kq (k t) = Some (b, id, d) -> NoDup (keys (QQ b id)) -> kq kk = None ->
  TInv n ini th now (upd k t kk) (updq QQ b id (leaves t (QQ b id))).
Proof.
  intros n ini th now k QQ b id t d kk (H1 & H2) Hk Hnd Hkk.
  assert (Hni : ~ In t (keys (leaves t (QQ b id)))).
  { rewrite keys_leaves. apply leave_nodup. exact Hnd. }
  split.
  - intros b' id' u p Hin.
    assert (Hin' : In (u, p) (QQ b' id') /\ u <> t).
    { destruct (updq_cases QQ b id (leaves t (QQ b id)) b' id') as [(-> & -> & He)|(Hdiff & He)];
        rewrite He in Hin.
      - split; [eapply leaves_in; eauto|]. intros ->. apply Hni. apply in_keys. eauto.
      - split; [exact Hin|]. intros ->. destruct (H1 _ _ _ _ Hin) as (_ & _ & d' & Hd' & _).
        rewrite Hk in Hd'. injection Hd' as <- <- <-. destruct Hdiff as [Hdiff|Hdiff]; contradiction. }
    destruct Hin' as (Hin' & Hne). rewrite upd_other by exact Hne. eauto.
  - intros b' id' u d' Hd'. destruct (Z.eq_dec u t) as [->|Hne].
    { rewrite upd_same in Hd'. congruence. }
    rewrite upd_other in Hd' by exact Hne. destruct (H2 _ _ _ _ Hd') as (Hi' & Hr & Hrun).
    split; [exact Hi'|]. split; [exact Hr|]. intros Hn. apply Hrun. intros Hin. apply Hn.
    destruct (updq_cases QQ b id (leaves t (QQ b id)) b' id') as [(-> & -> & He)|(Hdiff & He)];
      rewrite He; [|exact Hin].
    rewrite keys_leaves. now apply leave_keep.
Qed.

(** A ready thread attached with deadline d is still queued only if the deadline has passed. *)
Lemma T_ready : forall n ini th now k QQ b id t d,
  TInv n ini th now k QQ -> kq (k t) = Some (b, id, d) -> t_state (th t) = ST_RUNNABLE ->
  In t (keys (QQ b id)) -> 0 < d /\ d <= now.
Proof.
  intros n ini th now k QQ b id t d (H1 & H2) Hk Hst Hin.
  apply in_keys in Hin as (p & Hin). destruct (H1 _ _ _ _ Hin) as (_ & _ & d' & Hd' & Hb).
  rewrite Hk in Hd'. injection Hd' as <-.
  destruct Hb as [(H & Hs)|(H & [(Hs & Hwk)|(Hs & Hle)])]; rewrite Hst in Hs; try discriminate.
  auto.
Qed.

(** A queue that misses one thread is not full. *)
Lemma T_room : forall n ini th now k QQ b id t,
  TInv n ini th now k QQ -> kq (k t) = None -> 0 <= t < n -> NoDup (keys (QQ b id)) ->
  (length (QQ b id) < Z.to_nat n)%nat.
Proof.
  intros n ini th now k QQ b id t (H1 & H2) Hk Ht Hnd.
  assert (Hl : (length (t :: keys (QQ b id)) <= length (map Z.of_nat (seq 0 (Z.to_nat n))))%nat).
  { apply NoDup_incl_length.
    - constructor; [|exact Hnd]. intros Hin. apply in_keys in Hin as (p & Hin).
      destruct (H1 _ _ _ _ Hin) as (_ & _ & d' & Hd' & _). congruence.
    - intros u [<-|Hu].
      + apply in_map_iff. exists (Z.to_nat t). split; [lia|]. apply in_seq. lia.
      + apply in_keys in Hu as (p & Hin). destruct (H1 _ _ _ _ Hin) as (Hr & _).
        apply in_map_iff. exists (Z.to_nat u). split; [lia|]. apply in_seq. lia. }
  cbn [length] in Hl. rewrite map_length, seq_length in Hl. unfold keys in Hl.
  rewrite map_length in Hl. lia.
Qed.

Definition OInv (n : Z) (o : lockobj) (ql el : wqueue) : Prop :=
  (o_init o = true ->
     repr n (o_fifo o) (keys (order (o_qpol o) ql)) /\
     repr n (o_event o) (keys (order QD_PRIORITY el)) /\
     (o_qpol o = QD_FIFO \/ o_qpol o = QD_PRIORITY)) /\
  (o_init o = false -> ql = [] /\ el = []) /\
  NoDup (keys ql) /\ NoDup (keys el).

Definition SInv (n : Z) (s : lsys) (QQ : bool -> Z -> wqueue) : Prop :=
  sys_ok n s /\
  TInv n (fun i => o_init (s_obj s i)) (s_th s) (s_now s) (s_k s) QQ /\
  forall id, OInv n (s_obj s id) (QQ true id) (QQ false id).

(** Free units: value 0 whenever somebody is queued. *)
Lemma queued_value : forall n o ql el,
  obj_ok n o -> OInv n o ql el -> o_init o = true -> 0 < o_value o -> ql = [].
Proof.
  intros n o ql el (_ & _ & _ & Hi) (Ho & _) Hin Hv.
  destruct (Ho Hin) as (Hr & _). specialize (Hi Hin Hv).
  apply (repr_empty_iff n _ _ Hr) in Hi. unfold keys in Hi. apply map_eq_nil in Hi.
  now apply order_nil in Hi.
Qed.

(** Counting granted threads: attached to the lock queue of [id] but no longer queued. *)
Definition granted (k : Z -> kont) (q : wqueue) (id t : Z) : bool :=
  match kq (k t) with
  | Some (true, i, _) => (i =? id) && negb (waits t q)
  | _ => false
  end.
Definition b2z (b : bool) : Z := if b then 1 else 0.
Fixpoint sum_upto (m : nat) (f : Z -> bool) : Z :=
  match m with O => 0 | S m' => sum_upto m' f + b2z (f (Z.of_nat m')) end.
Definition gcount (n : Z) (k : Z -> kont) (q : wqueue) (id : Z) : Z :=
  sum_upto (Z.to_nat n) (granted k q id).

Lemma sum_ext : forall m f g, (forall t, 0 <= t < Z.of_nat m -> f t = g t) -> sum_upto m f = sum_upto m g.
Proof.
  intros m f g. induction m as [|m IH]; intros H; [reflexivity|].
  cbn [sum_upto]. rewrite IH by (intros t Ht; apply H; lia). rewrite H by lia. reflexivity.
Qed.

Lemma sum_change : forall m f g t, 0 <= t < Z.of_nat m -> (forall u, u <> t -> f u = g u) ->
  sum_upto m f + b2z (g t) = sum_upto m g + b2z (f t).
Proof.
  intros m f g t. induction m as [|m IH]; intros Ht H; [lia|].
  cbn [sum_upto]. destruct (Z.eq_dec t (Z.of_nat m)) as [->|Hne].
  - rewrite (sum_ext m f g); [lia|]. intros u Hu. apply H. lia.
  - rewrite (H (Z.of_nat m)) by lia. specialize (IH ltac:(lia) H). lia.
Qed.

Lemma sum_change_le : forall m f g t, (forall u, u <> t -> f u = g u) ->
  sum_upto m g <= sum_upto m f + b2z (g t).
Proof.
  intros m f g t H. assert (Hg : 0 <= b2z (f t) <= 1) by (destruct (f t); cbn; lia).
  assert (Hg' : 0 <= b2z (g t) <= 1) by (destruct (g t); cbn; lia).
  destruct (Z_le_dec 0 t); [destruct (Z_lt_dec t (Z.of_nat m))|].
  - assert (Hc := sum_change m f g t ltac:(lia) H). lia.
  - rewrite (sum_ext m f g); [lia|]. intros u Hu. apply H. lia.
  - rewrite (sum_ext m f g); [lia|]. intros u Hu. apply H. lia.
Qed.
