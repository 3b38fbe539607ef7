(** Undisturbed histories refine the arrival-order specification. *)
From Verif Require Import Model.Base Model.State Model.LockFifo Model.LockObj Model.LockSys
  Spec.LockSpec Spec.SemSpec Proof.Tac Proof.LockFifoProof Proof.LockSafe Proof.LockValue
  Proof.WaitOrder Proof.LockSysProof.

Definition Tr (n : Z) (s : lsys) (QQ : bool -> Z -> wqueue) (ev : list event) (s' : lsys)
  (QQ' : bool -> Z -> wqueue) : Prop :=
  SInv n s' QQ' /\
  (forall id, o_init (s_obj s id) = true ->
     o_init (s_obj s' id) = true /\ o_qpol (s_obj s' id) = o_qpol (s_obj s id)) /\
  (forall id pol, (o_init (s_obj s' id) = true -> pol = o_qpol (s_obj s' id)) ->
     replay (pick pol) id (QQ true id) ev = Some (QQ' true id)) /\
  (forall id, ereplay id (QQ false id) ev = Some (QQ' false id)) /\
  (forall id, o_init (s_obj s id) = true ->
     gcount n (s_k s') (QQ' true id) id + o_value (s_obj s' id) + count (is_acquire id) ev
     <= gcount n (s_k s) (QQ true id) id + o_value (s_obj s id) + count (is_release id) ev).

Lemma replay_app : forall pk id a b q,
  replay pk id q (a ++ b) = match replay pk id q a with Some q' => replay pk id q' b | None => None end.
Proof.
  intros pk id a b. induction a as [|e a IH]; intros q; [reflexivity|].
  cbn [app replay]. destruct (replay_step pk id q e); [apply IH|reflexivity].
Qed.

Lemma ereplay_app : forall id a b q,
  ereplay id q (a ++ b) = match ereplay id q a with Some q' => ereplay id q' b | None => None end.
Proof.
  intros id a b. induction a as [|e a IH]; intros q; [reflexivity|].
  cbn [app ereplay]. destruct (ereplay_step id q e); [apply IH|reflexivity].
Qed.

Lemma count_app : forall p a b, count p (a ++ b) = count p a + count p b.
Proof. intros p a b. unfold count. rewrite filter_app, app_length. lia. Qed.

Lemma count_nil : forall p, count p [] = 0.
Proof. reflexivity. Qed.

Lemma count_cons : forall p e l, count p (e :: l) = b2z (p e) + count p l.
Proof.
  intros p e l. unfold count. cbn [filter]. destruct (p e); cbn [length b2z]; lia.
Qed.

Lemma Tr_trans : forall n s QQ ev s1 QQ1 ev1 s2 QQ2,
  Tr n s QQ ev s1 QQ1 -> Tr n s1 QQ1 ev1 s2 QQ2 -> Tr n s QQ (ev ++ ev1) s2 QQ2.
Proof.
  intros n s QQ ev s1 QQ1 ev1 s2 QQ2 (A1 & A2 & A3 & A4 & A5) (B1 & B2 & B3 & B4 & B5).
  split; [exact B1|]. split.
  { intros id Hi. destruct (A2 id Hi) as (H1 & H2). destruct (B2 id H1) as (H3 & H4).
    split; [exact H3|congruence]. }
  split.
  { intros id pol Hpol. rewrite replay_app, A3; [now apply B3|].
    intros Hi. destruct (B2 id Hi) as (H3 & H4). rewrite <- H4. now apply Hpol. }
  split.
  { intros id. rewrite ereplay_app, A4. apply B4. }
  intros id Hi. rewrite !count_app. specialize (A5 id Hi).
  destruct (A2 id Hi) as (H1 & _). specialize (B5 id H1). lia.
Qed.

Lemma gcount_ext : forall n k k' q q' id,
  (forall t, granted k q id t = granted k' q' id t) -> gcount n k q id = gcount n k' q' id.
Proof. intros n k k' q q' id H. unfold gcount. apply sum_ext. intros t _. apply H. Qed.

Lemma SInv_ext : forall n s s' QQ,
  (forall i, s_obj s' i = s_obj s i) -> (forall t, s_th s' t = s_th s t) -> s_now s' = s_now s ->
  (forall t, s_k s' t = s_k s t) -> SInv n s QQ -> SInv n s' QQ.
Proof.
  intros n s s' QQ E1 E2 E3 E4 (H1 & (T1 & T2) & H3). split; [|split].
  - intros id. rewrite E1. apply H1.
  - split.
    + intros b id t p Hin. rewrite E2, E3, E4. now apply T1.
    + intros b id t d Hd. rewrite E1, E2. rewrite E4 in Hd. now apply T2 in Hd.
  - intros id. rewrite E1. apply H3.
Qed.

Lemma Tr_ext : forall n s QQ ev s1 s2 QQ',
  (forall i, s_obj s2 i = s_obj s1 i) -> (forall t, s_th s2 t = s_th s1 t) -> s_now s2 = s_now s1 ->
  (forall t, s_k s2 t = s_k s1 t) -> Tr n s QQ ev s1 QQ' -> Tr n s QQ ev s2 QQ'.
Proof.
  intros n s QQ ev s1 s2 QQ' E1 E2 E3 E4 (A1 & A2 & A3 & A4 & A5).
  split; [eapply SInv_ext; eauto|]. split; [intros id; rewrite E1; apply A2|].
  split; [intros id; rewrite E1; apply A3|]. split; [exact A4|].
  intros id Hi. rewrite E1. rewrite (gcount_ext n (s_k s2) (s_k s1) _ (QQ' true id)).
  - now apply A5.
  - intros t. unfold granted. now rewrite E4.
Qed.

Lemma T_ini : forall n ini ini' th now k QQ,
  (forall i, ini i = true -> ini' i = true) -> TInv n ini th now k QQ -> TInv n ini' th now k QQ.
Proof.
  intros n ini ini' th now k QQ H (H1 & H2). split; [exact H1|].
  intros b id t d Hd. destruct (H2 _ _ _ _ Hd) as (Hi & Hr). auto.
Qed.

(** Steps that touch no object and create no event. *)
Lemma Tr_quiet : forall n s QQ th now k,
  SInv n s QQ ->
  TInv n (fun i => o_init (s_obj s i)) th now k QQ ->
  (forall t, kq (k t) = kq (s_k s t)) ->
  Tr n s QQ [] (mkLsys (s_obj s) th now k) QQ.
Proof.
  intros n s QQ th now k (H1 & H2 & H3) HT Hk. unfold Tr, SInv. cbn [s_obj s_th s_now s_k].
  split; [split; [exact H1|split; [exact HT|exact H3]]|].
  split; [auto|]. split; [reflexivity|]. split; [reflexivity|].
  intros id Hi. rewrite (gcount_ext n k (s_k s) (QQ true id) (QQ true id)); [cbn; lia|].
  intros t. unfold granted. now rewrite Hk.
Qed.

(** General form of a step on one object. *)
Lemma Tr_obj : forall n s QQ ev id o' th' k' QQ',
  SInv n s QQ -> o_init (s_obj s id) = true ->
  obj_ok n o' -> o_max o' = o_max (s_obj s id) -> o_init o' = true -> o_qpol o' = o_qpol (s_obj s id) ->
  TInv n (fun i => o_init (s_obj s i)) th' (s_now s) k' QQ' ->
  OInv n o' (QQ' true id) (QQ' false id) ->
  (forall i, i <> id -> QQ' true i = QQ true i /\ QQ' false i = QQ false i) ->
  replay (pick (o_qpol o')) id (QQ true id) ev = Some (QQ' true id) ->
  ereplay id (QQ false id) ev = Some (QQ' false id) ->
  (forall i pk, i <> id -> replay pk i (QQ true i) ev = Some (QQ true i)) ->
  (forall i, i <> id -> ereplay i (QQ false i) ev = Some (QQ false i)) ->
  (forall i, i <> id -> count (is_acquire i) ev = 0) ->
  (forall i t, i <> id -> granted k' (QQ' true i) i t = granted (s_k s) (QQ true i) i t) ->
  gcount n k' (QQ' true id) id + o_value o' + count (is_acquire id) ev
    <= gcount n (s_k s) (QQ true id) id + o_value (s_obj s id) + count (is_release id) ev ->
  Tr n s QQ ev (mkLsys (upd (s_obj s) id o') th' (s_now s) k') QQ'.
Proof.
  intros n s QQ ev id o' th' k' QQ' (HS & HT & HO) Hi Hok Hmax Hi' Hq HT' HO' Hoth Hr He Hr' He' Ha Hg Hc.
  unfold Tr, SInv. cbn [s_obj s_th s_now s_k].
  split.
  { split; [|split].
    - apply sys_ok_upd; auto. rewrite Hmax. apply HS.
    - eapply T_ini; [|exact HT']. intros i Hin. cbn beta in *. unfold upd.
      destruct (i =? id); auto.
    - intros i. unfold upd. destruct (Z.eqb_spec i id) as [->|Hne]; [exact HO'|].
      destruct (Hoth i Hne) as (-> & ->). apply HO. }
  split.
  { intros i Hin. unfold upd. destruct (Z.eqb_spec i id) as [->|Hne]; auto. }
  split.
  { intros i pol. unfold upd. destruct (Z.eqb_spec i id) as [->|Hne]; intros Hp.
    - rewrite (Hp Hi'). exact Hr.
    - destruct (Hoth i Hne) as (-> & _). now apply Hr'. }
  split.
  { intros i. destruct (Z.eq_dec i id) as [->|Hne]; [exact He|].
    destruct (Hoth i Hne) as (_ & ->). now apply He'. }
  intros i Hin. unfold upd. destruct (Z.eqb_spec i id) as [->|Hne]; [exact Hc|].
  rewrite (gcount_ext n k' (s_k s) (QQ' true i) (QQ true i) i); [|intros t; now apply Hg].
  rewrite Ha by exact Hne.
  assert (0 <= count (is_release i) ev) by (unfold count; lia). lia.
Qed.

Ltac evs_other := intros; cbn [replay replay_step ereplay ereplay_step];
  repeat match goal with
  | H : ?i <> ?id |- context [?id =? ?i] => rewrite (proj2 (Z.eqb_neq id i)) by congruence
  end; reflexivity.
Ltac acq_other := intros; unfold count; cbn [filter is_acquire is_release];
  repeat match goal with
  | H : ?i <> ?id |- context [?id =? ?i] => rewrite (proj2 (Z.eqb_neq id i)) by congruence
  end; reflexivity.

(** Lock satisfied at once. *)
Lemma Tr_lock_now : forall n s QQ id t,
  0 < n -> SInv n s QQ -> o_init (s_obj s id) = true -> 0 < o_value (s_obj s id) ->
  Tr n s QQ [EvAcquired id t]
     (mkLsys (upd (s_obj s) id (set_o_value (u16 (o_value (s_obj s id) - 1)) (s_obj s id)))
             (s_th s) (s_now s) (s_k s)) QQ.
Proof.
  intros n s QQ id t Hn HS Hi Hv. assert (HS' := HS). destruct HS' as (H1 & H2 & H3).
  assert (Hq : QQ true id = []) by (eapply queued_value; eauto; apply H1).
  destruct (H1 id) as ((Hf & He & Hval & Hem) & Hm).
  assert (Hw : u16 (o_value (s_obj s id) - 1) = o_value (s_obj s id) - 1).
  { unfold u16. rewrite Z.mod_small; lia. }
  rewrite Hw.
  apply Tr_obj; auto.
  - unfold obj_ok, set_o_value. cbn [o_fifo o_event o_value o_init].
    split; [exact Hf|]. split; [exact He|]. split; [lia|]. intros _ _. auto.
  - exact (H3 id).
  - cbn [replay replay_step]. rewrite Z.eqb_refl, Hq. reflexivity.
  - evs_other.
  - acq_other.
  - unfold set_o_value. cbn [o_value]. rewrite !count_cons, !count_nil. cbn [is_acquire is_release].
    rewrite Z.eqb_refl. cbn [b2z]. lia.
Qed.

Lemma prio_block : forall th t d u, t_priority (block_current th t d u) = t_priority (th u).
Proof.
  intros th t d u. unfold block_current, sched_lock_current_timed, sched_lock_current, set_state, upd.
  destruct (0 <? d); destruct (Z.eqb_spec u t) as [->|Hne]; reflexivity.
Qed.

Lemma waits_app : forall t q q', waits t (q ++ q') = waits t q || waits t q'.
Proof. intros. unfold waits. apply existsb_app. Qed.

Lemma waits_one : forall u t p, waits u [(t, p)] = (t =? u).
Proof. intros u t p. unfold waits. cbn [existsb fst]. now rewrite orb_false_r. Qed.

Lemma granted_free : forall k q id t, kq (k t) = None -> granted k q id t = false.
Proof. intros k q id t H. unfold granted. now rewrite H. Qed.

(** Lock that must wait. *)
Lemma Tr_lock_block : forall n s QQ id t d kk,
  0 < n -> SInv n s QQ -> o_init (s_obj s id) = true -> o_value (s_obj s id) = 0 ->
  kq (s_k s t) = None -> 0 <= t < n -> 0 <= d -> kq kk = Some (true, id, d) ->
  exists f e QQ', fifo_enqueue n (prio_of (s_th s)) (o_fifo (s_obj s id)) t (o_qpol (s_obj s id)) = Some (f, e) /\
  Tr n s QQ [EvBlocked id t (prio_of (s_th s) t)]
     (mkLsys (upd (s_obj s) id (set_o_fifo f (s_obj s id)))
             (block_current (s_th s) t d) (s_now s) (upd (s_k s) t kk)) QQ'.
Proof.
  intros n s QQ id t d kk Hn HS Hi Hv Hk Ht Hd Hkk. assert (HS' := HS). destruct HS' as (H1 & H2 & H3).
  destruct (H1 id) as ((Hf & He & Hval & Hem) & Hm).
  destruct (H3 id) as (HO & HO2 & Hnd1 & Hnd2). destruct (HO Hi) as (Hr & Hre & Hpol).
  assert (Hroom := T_room n _ _ _ _ _ true id t H2 Hk Ht Hnd1).
  destruct (order_enqueue n (prio_of (s_th s)) (o_fifo (s_obj s id)) (o_qpol (s_obj s id)) (QQ true id) t)
    as (f & Hfe & Hrf); auto.
  { intros y p Hin. destruct H2 as (T1 & _). destruct (T1 _ _ _ _ Hin) as (_ & Hp & _). exact Hp. }
  assert (Hni : ~ In t (keys (QQ true id))).
  { intros Hin. apply in_keys in Hin as (p & Hin). destruct H2 as (T1 & _).
    destruct (T1 _ _ _ _ Hin) as (_ & _ & d' & Hd' & _). congruence. }
  exists f, ERR_OK, (updq QQ true id (QQ true id ++ [(t, t_priority (s_th s t))])).
  split; [exact Hfe|].
  destruct (enqueue_ok n (prio_of (s_th s)) (o_fifo (s_obj s id)) t (o_qpol (s_obj s id)) Hn Hf)
    as (f2 & e2 & Hfe2 & Hf2 & _).
  rewrite Hfe in Hfe2. injection Hfe2 as <- <-.
  apply Tr_obj; auto.
  - unfold obj_ok, set_o_fifo. cbn [o_fifo o_event o_value o_init].
    split; [exact Hf2|]. split; [exact He|]. split; [exact Hval|]. intros; lia.
  - now apply T_enq.
  - rewrite updq_same, updq_other by (left; discriminate).
    unfold OInv, set_o_fifo. cbn [o_fifo o_event o_init o_qpol].
    split; [intros _; split; [exact Hrf|auto]|]. split; [congruence|]. split; [|exact Hnd2].
    rewrite keys_snoc. apply NoDup_snoc. auto.
  - intros i Hne. rewrite !updq_other by (now right). auto.
  - cbn [replay replay_step]. rewrite Z.eqb_refl, updq_same. reflexivity.
  - evs_other.
  - intros i u Hne. rewrite updq_other by (now right).
    destruct (Z.eq_dec u t) as [->|Hut].
    + rewrite (granted_free (s_k s)) by exact Hk. unfold granted. rewrite upd_same, Hkk.
      destruct (Z.eqb_spec id i); [congruence|reflexivity].
    + unfold granted. now rewrite upd_other.
  - rewrite updq_same.
    rewrite (gcount_ext n _ (s_k s) (QQ true id ++ [(t, t_priority (s_th s t))]) (QQ true id)).
    + unfold set_o_fifo. cbn [o_value]. rewrite !count_cons, !count_nil. cbn. lia.
    + intros u. destruct (Z.eq_dec u t) as [->|Hut].
      * rewrite (granted_free (s_k s)) by exact Hk. unfold granted. rewrite upd_same, Hkk.
        rewrite waits_app, waits_one, !Z.eqb_refl, orb_true_r.
        apply andb_false_r.
      * unfold granted. rewrite upd_other by exact Hut. rewrite waits_app, waits_one.
        rewrite (proj2 (Z.eqb_neq t u)) by congruence. now rewrite orb_false_r.
Qed.

(** Change of the granted count when a queued thread is woken. *)
Lemma gcount_wake : forall n ini th now k QQ id w,
  TInv n ini th now k QQ -> In w (keys (QQ true id)) -> NoDup (keys (QQ true id)) ->
  gcount n k (leaves w (QQ true id)) id = gcount n k (QQ true id) id + 1.
Proof.
  intros n ini th now k QQ id w (T1 & T2) Hw Hnd.
  assert (Hw' := Hw). apply in_keys in Hw' as (p & Hp). destruct (T1 _ _ _ _ Hp) as (Hwr & _ & d & Hd & _).
  assert (Hold : granted k (QQ true id) id w = false).
  { unfold granted. rewrite Hd, Z.eqb_refl. apply waits_in in Hw. now rewrite Hw. }
  assert (Hnew : granted k (leaves w (QQ true id)) id w = true).
  { unfold granted. rewrite Hd, Z.eqb_refl.
    rewrite (proj2 (waits_notin w _)); [reflexivity|]. rewrite keys_leaves. now apply leave_nodup. }
  unfold gcount.
  assert (Hc := sum_change (Z.to_nat n) (granted k (QQ true id) id) (granted k (leaves w (QQ true id)) id) w).
  rewrite Hold, Hnew in Hc. cbn [b2z] in Hc. rewrite Z.add_0_r in Hc.
  rewrite Hc; [lia|lia|].
  intros u Hne. unfold granted. destruct (kq (k u)) as [((b & i) & d')|]; [|reflexivity].
  destruct b; [|reflexivity]. f_equal. f_equal.
  destruct (waits u (QQ true id)) eqn:E1.
  - symmetry. apply waits_in. rewrite keys_leaves. apply leave_keep; [now apply waits_in|exact Hne].
  - symmetry. apply waits_notin. rewrite keys_leaves. intros H. apply leave_in in H.
    apply waits_in in H. congruence.
Qed.

(** Unlock. *)
Lemma Tr_unlock : forall n s QQ id t o' th' e w,
  0 < n -> SInv n s QQ -> o_init (s_obj s id) = true ->
  obj_unlock n (s_obj s id) (s_th s) = Done (o', th', e, w) ->
  e = ERR_OK /\
  exists QQ', Tr n s QQ [EvReleased id t w] (mkLsys (upd (s_obj s) id o') th' (s_now s) (s_k s)) QQ' /\
    (forall u, t_priority (th' u) = t_priority (s_th s u)) /\ (forall u, w <> Some u -> th' u = s_th s u).
Proof.
  intros n s QQ id t o' th' e w Hn HS Hi Hu. assert (HS' := HS). destruct HS' as (H1 & H2 & H3).
  destruct (H1 id) as (Hok & Hm).
  destruct (obj_unlock_ok n (s_obj s id) (s_th s) Hn Hok Hm) as (o2 & th2 & e2 & w2 & Hu2 & Hok2).
  rewrite Hu in Hu2. injection Hu2 as <- <- <- <-.
  destruct (obj_unlock_static _ _ _ _ _ _ _ Hu) as (S1 & S2 & S3 & S4 & S5).
  destruct (H3 id) as (HO & HO2 & Hnd1 & Hnd2). destruct (HO Hi) as (Hr & Hre & Hpol).
  unfold obj_unlock in Hu. rewrite Hi in Hu. cbn [negb] in Hu.
  assert (Hkeep : forall v, QQ true id = [] -> o' = set_o_value v (s_obj s id) -> v <= o_value (s_obj s id) + 1 ->
     th' = s_th s -> e = ERR_OK -> w = None ->
     e = ERR_OK /\
     exists QQ', Tr n s QQ [EvReleased id t w] (mkLsys (upd (s_obj s) id o') th' (s_now s) (s_k s)) QQ' /\
     (forall u, t_priority (th' u) = t_priority (s_th s u)) /\ (forall u, w <> Some u -> th' u = s_th s u)).
  { intros v Hq Ho' Hv Hth He Hw. split; [exact He|]. exists QQ. subst w th'. split; [|auto].
    apply Tr_obj; auto; try congruence.
    - unfold OInv. rewrite S3, S4, S5. rewrite Ho'. unfold set_o_value. cbn [o_fifo].
      split; [intros _; auto|]. split; [congruence|]. auto.
    - cbn [replay replay_step]. rewrite Z.eqb_refl, Hq.
      assert (Hp : pick (o_qpol o') [] = None) by (unfold pick; destruct (o_qpol o' =? QD_PRIORITY); reflexivity).
      rewrite Hp. reflexivity.
    - evs_other.
    - rewrite Ho'. unfold set_o_value. cbn [o_value]. rewrite !count_cons, !count_nil. cbn [is_acquire is_release].
      rewrite Z.eqb_refl. cbn [b2z]. lia. }
  unfold fifo_is_empty in Hu.
  destruct (Z.eqb_spec (o_value (s_obj s id)) 0) as [Hz|Hz]; cbn [negb] in Hu.
  - destruct (f_empty (o_fifo (s_obj s id))) eqn:Hem.
    + injection Hu as Ho' Hth He Hw.
      apply (Hkeep 1); auto; try lia.
      apply (repr_empty_iff n _ _ Hr) in Hem. unfold keys in Hem. apply map_eq_nil in Hem.
      now apply order_nil in Hem.
    + destruct (order_dequeue n _ _ _ Hr Hnd1 Hem) as (w0 & f' & Hpk & Hhd & Hin & Hdq & Hrf).
      rewrite Hdq, Hhd in Hu. injection Hu as Ho' Hth He Hw. subst w.
      split; [now symmetry|]. exists (updq QQ true id (leaves w0 (QQ true id))).
      split.
      * apply Tr_obj; auto; try congruence.
        { subst th'. unfold sched_unlock_thread. now apply T_wake. }
        { rewrite updq_same, updq_other by (left; discriminate).
          unfold OInv. rewrite S3, S4, S5. subst o'. unfold set_o_fifo. cbn [o_fifo].
          split; [intros _; auto|]. split; [congruence|]. split; [|exact Hnd2].
          rewrite keys_leaves. now apply leave_nodup. }
        { intros i Hne. rewrite !updq_other by (now right). auto. }
        { cbn [replay replay_step]. rewrite Z.eqb_refl, S4, Hpk. cbn [opt_is].
          rewrite Z.eqb_refl, updq_same. reflexivity. }
        { evs_other. }
        { intros i u Hne. rewrite updq_other by (now right). reflexivity. }
        { rewrite updq_same. rewrite (gcount_wake _ _ _ _ _ _ _ _ H2 Hin Hnd1).
          subst o'. unfold set_o_fifo. cbn [o_value]. rewrite !count_cons, !count_nil. cbn [is_acquire is_release].
          rewrite Z.eqb_refl. cbn [b2z]. lia. }
      * subst th'. unfold sched_unlock_thread, set_state. split.
        { intros u. unfold upd. destruct (Z.eqb_spec u w0) as [->|Hne]; reflexivity. }
        { intros u Hne. apply upd_other. congruence. }
  - assert (Hq : QQ true id = []).
    { apply (queued_value n _ _ _ Hok (H3 id) Hi). destruct Hok as (_ & _ & Hv & _). lia. }
    destruct Hok as (_ & _ & Hv & Hemp).
    rewrite Hemp in Hu by (auto; lia).
    destruct (o_kind (s_obj s id) =? LK_SEMAPHORE).
    + destruct (o_value (s_obj s id) <? o_max (s_obj s id)) eqn:Hlt; injection Hu as Ho' Hth He Hw.
      * apply (Hkeep (u16 (o_value (s_obj s id) + 1))); auto.
        unfold u16. apply Z.mod_le; lia.
      * apply (Hkeep (o_value (s_obj s id))); auto; [|lia].
        rewrite <- Ho'. unfold set_o_value. destruct (s_obj s id); reflexivity.
    + injection Hu as Ho' Hth He Hw. apply (Hkeep 1); auto. lia.
Qed.

(** Waiting for an event (after the release). *)
Lemma Tr_wait : forall n s QQ id t d,
  0 < n -> SInv n s QQ -> o_init (s_obj s id) = true ->
  kq (s_k s t) = None -> 0 <= t < n -> 0 <= d ->
  exists f QQ', fifo_enqueue n (prio_of (s_th s)) (o_event (s_obj s id)) t QD_PRIORITY = Some (f, ERR_OK) /\
  Tr n s QQ [EvWaiting id t (prio_of (s_th s) t)]
     (mkLsys (upd (s_obj s) id (set_o_event f (s_obj s id)))
             (block_current (s_th s) t d) (s_now s) (upd (s_k s) t (KWait id d))) QQ'.
Proof.
  intros n s QQ id t d Hn HS Hi Hk Ht Hd. assert (HS' := HS). destruct HS' as (H1 & H2 & H3).
  destruct (H1 id) as ((Hf & He & Hval & Hem) & Hm).
  destruct (H3 id) as (HO & HO2 & Hnd1 & Hnd2). destruct (HO Hi) as (Hr & Hre & Hpol).
  assert (Hroom := T_room n _ _ _ _ _ false id t H2 Hk Ht Hnd2).
  destruct (order_enqueue n (prio_of (s_th s)) (o_event (s_obj s id)) QD_PRIORITY (QQ false id) t)
    as (f & Hfe & Hrf); auto.
  { intros y p Hin. destruct H2 as (T1 & _). destruct (T1 _ _ _ _ Hin) as (_ & Hp & _). exact Hp. }
  assert (Hni : ~ In t (keys (QQ false id))).
  { intros Hin. apply in_keys in Hin as (p & Hin). destruct H2 as (T1 & _).
    destruct (T1 _ _ _ _ Hin) as (_ & _ & d' & Hd' & _). congruence. }
  exists f, (updq QQ false id (QQ false id ++ [(t, t_priority (s_th s t))])).
  split; [exact Hfe|].
  destruct (enqueue_ok n (prio_of (s_th s)) (o_event (s_obj s id)) t QD_PRIORITY Hn He)
    as (f2 & e2 & Hfe2 & Hf2 & _).
  rewrite Hfe in Hfe2. injection Hfe2 as <- <-.
  assert (Hg : forall i u, granted (upd (s_k s) t (KWait id d)) (QQ true i) i u = granted (s_k s) (QQ true i) i u).
  { intros i u. destruct (Z.eq_dec u t) as [->|Hut].
    - rewrite (granted_free (s_k s)) by exact Hk. unfold granted. rewrite upd_same. reflexivity.
    - unfold granted. now rewrite upd_other. }
  apply Tr_obj; auto.
  - unfold obj_ok, set_o_event. cbn [o_fifo o_event o_value o_init].
    split; [exact Hf|]. split; [exact Hf2|]. split; [exact Hval|]. exact Hem.
  - now apply T_enq.
  - rewrite updq_same, updq_other by (left; discriminate).
    unfold OInv, set_o_event. cbn [o_fifo o_event o_init o_qpol].
    split; [intros _; auto|]. split; [congruence|]. split; [exact Hnd1|].
    rewrite keys_snoc. apply NoDup_snoc. auto.
  - intros i Hne. rewrite !updq_other by (now right). auto.
  - cbn [ereplay ereplay_step]. rewrite Z.eqb_refl, updq_same. reflexivity.
  - evs_other.
  - intros i u Hne. rewrite updq_other by (now right). apply Hg.
  - rewrite updq_other by (left; discriminate).
    rewrite (gcount_ext n _ (s_k s) (QQ true id) (QQ true id)) by (intros u; apply Hg).
    unfold set_o_event. cbn [o_value]. rewrite !count_cons, !count_nil. cbn. lia.
Qed.

Lemma state_run : forall s t, runnable s t = true -> t_state (s_th s t) = ST_RUNNABLE.
Proof. intros s t H. unfold runnable in H. lia. Qed.

(** A thread leaves the lock code after having been dispatched again. *)
Lemma gcount_end : forall n k q id t d kk,
  0 <= t < n -> kq (k t) = Some (true, id, d) -> kq kk = None -> NoDup (keys q) ->
  gcount n (upd k t kk) (leaves t q) id + b2z (negb (waits t q)) = gcount n k q id.
Proof.
  intros n k q id t d kk Ht Hk Hkk Hnd. unfold gcount.
  assert (Hnew : granted (upd k t kk) (leaves t q) id t = false).
  { unfold granted. now rewrite upd_same, Hkk. }
  assert (Hold : granted k q id t = negb (waits t q)).
  { unfold granted. rewrite Hk, Z.eqb_refl. reflexivity. }
  rewrite <- Hold.
  rewrite (sum_change (Z.to_nat n) (granted (upd k t kk) (leaves t q) id) (granted k q id) t);
    [rewrite Hnew; cbn; lia|lia|].
  intros u Hne. unfold granted. rewrite upd_other by exact Hne.
  destruct (kq (k u)) as [((b & i) & d')|]; [|reflexivity].
  destruct b; [|reflexivity]. f_equal. f_equal.
  destruct (waits u q) eqn:E1.
  - apply waits_in. rewrite keys_leaves. apply leave_keep; [now apply waits_in|exact Hne].
  - apply waits_notin. rewrite keys_leaves. intros H. apply leave_in in H.
    apply waits_in in H. congruence.
Qed.

Lemma granted_end_other : forall k q id i t d kk u,
  kq (k t) = Some (true, id, d) -> kq kk = None -> i <> id ->
  granted (upd k t kk) q i u = granted k q i u.
Proof.
  intros k q id i t d kk u Hk Hkk Hne. unfold granted.
  destruct (Z.eq_dec u t) as [->|Hut].
  - rewrite upd_same, Hkk, Hk. destruct (Z.eqb_spec id i); [congruence|reflexivity].
  - now rewrite upd_other.
Qed.

(** End of a lock request, success. *)
Lemma Tr_lock_end_ok : forall n s QQ id t d,
  0 < n -> SInv n s QQ -> kq (s_k s t) = Some (true, id, d) ->
  t_state (s_th s t) = ST_RUNNABLE -> (d = 0 \/ s_now s < d) ->
  Tr n s QQ [EvAcquired id t]
    (mkLsys (upd (s_obj s) id (s_obj s id)) (s_th s) (s_now s) (upd (s_k s) t KUser)) 
    (updq QQ true id (leaves t (QQ true id))).
Proof.
  intros n s QQ id t d Hn HS Hk Hst Hd. assert (HS' := HS). destruct HS' as (H1 & H2 & H3).
  destruct (H3 id) as (HO & HO2 & Hnd1 & Hnd2).
  assert (H2' := H2). destruct H2' as (T1 & T2). destruct (T2 _ _ _ _ Hk) as (Hi & Ht & _).
  destruct (HO Hi) as (Hr & Hre & Hpol).
  assert (Hni : ~ In t (keys (QQ true id))).
  { intros Hin. destruct (T_ready _ _ _ _ _ _ _ _ _ _ H2 Hk Hst Hin) as (Ha & Hb). lia. }
  assert (Hlv := leaves_notin t _ Hni).
  apply Tr_obj; auto.
  - apply H1.
  - eapply T_end; eauto.
  - rewrite updq_same, updq_other by (left; discriminate). rewrite Hlv. exact (H3 id).
  - intros i Hne. rewrite !updq_other by (now right). auto.
  - cbn [replay replay_step]. rewrite Z.eqb_refl, updq_same, Hlv.
    rewrite (proj2 (waits_notin t _) Hni). reflexivity.
  - evs_other.
  - acq_other.
  - intros i u Hne. rewrite updq_other by (now right). eapply granted_end_other; eauto.
  - rewrite updq_same.
    assert (Hg := gcount_end n (s_k s) (QQ true id) id t d KUser Ht Hk eq_refl Hnd1).
    rewrite (proj2 (waits_notin t _) Hni) in Hg. cbn [negb b2z] in Hg.
    rewrite !count_cons, !count_nil. cbn [is_acquire is_release]. rewrite Z.eqb_refl. cbn [b2z]. lia.
Qed.

(** End of a lock request, timeout. *)
Lemma Tr_lock_end_timeout : forall n s QQ id t d,
  0 < n -> SInv n s QQ -> kq (s_k s t) = Some (true, id, d) ->
  exists f e, fifo_remove n (o_fifo (s_obj s id)) t = Some (f, e) /\
  Tr n s QQ [EvTimeout id t]
    (mkLsys (upd (s_obj s) id (set_o_fifo f (s_obj s id))) (s_th s) (s_now s) (upd (s_k s) t KUser))
    (updq QQ true id (leaves t (QQ true id))).
Proof.
  intros n s QQ id t d Hn HS Hk. assert (HS' := HS). destruct HS' as (H1 & H2 & H3).
  destruct (H1 id) as ((Hf & He & Hval & Hem) & Hm).
  destruct (H3 id) as (HO & HO2 & Hnd1 & Hnd2).
  assert (H2' := H2). destruct H2' as (T1 & T2). destruct (T2 _ _ _ _ Hk) as (Hi & Ht & _).
  destruct (HO Hi) as (Hr & Hre & Hpol).
  destruct (order_remove n _ _ _ t Hr Hnd1) as (f & e & Hfr & Hrf).
  exists f, e. split; [exact Hfr|].
  destruct (remove_ok n (o_fifo (s_obj s id)) t Hn Hf) as (f2 & e2 & Hfr2 & Hf2 & Hem2).
  rewrite Hfr in Hfr2. injection Hfr2 as <- <-.
  apply Tr_obj; auto.
  - unfold obj_ok, set_o_fifo. cbn [o_fifo o_event o_value o_init].
    split; [exact Hf2|]. split; [exact He|]. split; [exact Hval|]. auto.
  - eapply T_end; eauto.
  - rewrite updq_same, updq_other by (left; discriminate).
    unfold OInv, set_o_fifo. cbn [o_fifo o_event o_init o_qpol].
    split; [intros _; split; [exact Hrf|auto]|]. split; [congruence|]. split; [|exact Hnd2].
    rewrite keys_leaves. now apply leave_nodup.
  - intros i Hne. rewrite !updq_other by (now right). auto.
  - cbn [replay replay_step]. rewrite Z.eqb_refl, updq_same. reflexivity.
  - evs_other.
  - intros i u Hne. rewrite updq_other by (now right). eapply granted_end_other; eauto.
  - rewrite updq_same.
    assert (Hg := gcount_end n (s_k s) (QQ true id) id t d KUser Ht Hk eq_refl Hnd1).
    assert (0 <= b2z (negb (waits t (QQ true id)))) by (destruct (waits t (QQ true id)); cbn; lia).
    unfold set_o_fifo. cbn [o_value].
    rewrite !count_cons, !count_nil. cbn [is_acquire is_release b2z]. lia.
Qed.

Lemma granted_end_wait : forall k q id i t d kk u,
  kq (k t) = Some (false, id, d) -> kq kk = None ->
  granted (upd k t kk) q i u = granted k q i u.
Proof.
  intros k q id i t d kk u Hk Hkk. unfold granted.
  destruct (Z.eq_dec u t) as [->|Hut].
  - rewrite upd_same, Hkk, Hk. reflexivity.
  - now rewrite upd_other.
Qed.

(** End of the wait for an event. *)
Lemma Tr_wait_end_ok : forall n s QQ id t d,
  0 < n -> SInv n s QQ -> kq (s_k s t) = Some (false, id, d) ->
  t_state (s_th s t) = ST_RUNNABLE -> (d = 0 \/ s_now s < d) ->
  Tr n s QQ [EvWaitEnd id t ERR_OK]
    (mkLsys (upd (s_obj s) id (s_obj s id)) (s_th s) (s_now s) (upd (s_k s) t KUser))
    (updq QQ false id (leaves t (QQ false id))).
Proof.
  intros n s QQ id t d Hn HS Hk Hst Hd. assert (HS' := HS). destruct HS' as (H1 & H2 & H3).
  destruct (H3 id) as (HO & HO2 & Hnd1 & Hnd2).
  assert (H2' := H2). destruct H2' as (T1 & T2). destruct (T2 _ _ _ _ Hk) as (Hi & Ht & _).
  destruct (HO Hi) as (Hr & Hre & Hpol).
  assert (Hni : ~ In t (keys (QQ false id))).
  { intros Hin. destruct (T_ready _ _ _ _ _ _ _ _ _ _ H2 Hk Hst Hin) as (Ha & Hb). lia. }
  assert (Hlv := leaves_notin t _ Hni).
  apply Tr_obj; auto.
  - apply H1.
  - eapply T_end; eauto.
  - rewrite updq_same, updq_other by (left; discriminate). rewrite Hlv. exact (H3 id).
  - intros i Hne. rewrite !updq_other by (now right). auto.
  - cbn [ereplay ereplay_step]. rewrite Z.eqb_refl, updq_same, Hlv.
    rewrite (proj2 (waits_notin t _) Hni). reflexivity.
  - evs_other.
  - intros i u Hne. rewrite updq_other by (now right). eapply granted_end_wait; eauto.
  - rewrite updq_other by (left; discriminate).
    rewrite (gcount_ext n _ (s_k s) (QQ true id) (QQ true id)) by (intros u; eapply granted_end_wait; eauto).
    rewrite !count_cons, !count_nil. cbn. lia.
Qed.

Lemma Tr_wait_end_timeout : forall n s QQ id t d,
  0 < n -> SInv n s QQ -> kq (s_k s t) = Some (false, id, d) ->
  exists f e, fifo_remove n (o_event (s_obj s id)) t = Some (f, e) /\
  Tr n s QQ [EvWaitEnd id t ERR_TIMEOUT]
    (mkLsys (upd (s_obj s) id (set_o_event f (s_obj s id))) (s_th s) (s_now s) (upd (s_k s) t KUser))
    (updq QQ false id (leaves t (QQ false id))).
Proof.
  intros n s QQ id t d Hn HS Hk. assert (HS' := HS). destruct HS' as (H1 & H2 & H3).
  destruct (H1 id) as ((Hf & He & Hval & Hem) & Hm).
  destruct (H3 id) as (HO & HO2 & Hnd1 & Hnd2).
  assert (H2' := H2). destruct H2' as (T1 & T2). destruct (T2 _ _ _ _ Hk) as (Hi & Ht & _).
  destruct (HO Hi) as (Hr & Hre & Hpol).
  destruct (order_remove n _ _ _ t Hre Hnd2) as (f & e & Hfr & Hrf).
  exists f, e. split; [exact Hfr|].
  destruct (remove_ok n (o_event (s_obj s id)) t Hn He) as (f2 & e2 & Hfr2 & Hf2 & Hem2).
  rewrite Hfr in Hfr2. injection Hfr2 as <- <-.
  apply Tr_obj; auto.
  - unfold obj_ok, set_o_event. cbn [o_fifo o_event o_value o_init].
    split; [exact Hf|]. split; [exact Hf2|]. split; [exact Hval|]. auto.
  - eapply T_end; eauto.
  - rewrite updq_same, updq_other by (left; discriminate).
    unfold OInv, set_o_event. cbn [o_fifo o_event o_init o_qpol].
    split; [intros _; auto|]. split; [congruence|]. split; [exact Hnd1|].
    rewrite keys_leaves. now apply leave_nodup.
  - intros i Hne. rewrite !updq_other by (now right). auto.
  - cbn [ereplay ereplay_step]. rewrite Z.eqb_refl, updq_same. reflexivity.
  - evs_other.
  - intros i u Hne. rewrite updq_other by (now right). eapply granted_end_wait; eauto.
  - rewrite updq_other by (left; discriminate).
    rewrite (gcount_ext n _ (s_k s) (QQ true id) (QQ true id)) by (intros u; eapply granted_end_wait; eauto).
    unfold set_o_event. cbn [o_value]. rewrite !count_cons, !count_nil. cbn. lia.
Qed.

(** Signal. *)
Lemma Tr_signal : forall n s QQ id t o' th' e w,
  0 < n -> SInv n s QQ -> o_init (s_obj s id) = true ->
  obj_eventsignal n (s_obj s id) (s_th s) = (o', th', e, w) ->
  exists QQ', Tr n s QQ [EvSignalled id t w] (mkLsys (upd (s_obj s) id o') th' (s_now s) (s_k s)) QQ'.
Proof.
  intros n s QQ id t o' th' e w Hn HS Hi Hu. assert (HS' := HS). destruct HS' as (H1 & H2 & H3).
  destruct (H1 id) as (Hok & Hm).
  destruct (obj_signal_ok _ _ _ _ _ _ _ Hn Hok Hu) as (Hok' & (S1 & S2 & S3 & S4) & Hval).
  destruct (H3 id) as (HO & HO2 & Hnd1 & Hnd2). destruct (HO Hi) as (Hr & Hre & Hpol).
  unfold obj_eventsignal, fifo_is_empty in Hu.
  destruct (f_empty (o_event (s_obj s id))) eqn:Hem.
  - injection Hu as Ho' Hth He Hw. exists QQ. subst w th'.
    assert (Hq : QQ false id = []).
    { apply (repr_empty_iff n _ _ Hre) in Hem. unfold keys in Hem. apply map_eq_nil in Hem.
      now apply order_nil in Hem. }
    apply Tr_obj; auto; try congruence.
    + subst o'. exact (H3 id).
    + cbn [ereplay ereplay_step]. rewrite Z.eqb_refl, Hq. reflexivity.
    + evs_other.
    + rewrite Hval, !count_cons, !count_nil. cbn. lia.
  - destruct (order_dequeue n _ _ _ Hre Hnd2 Hem) as (w0 & f' & Hpk & Hhd & Hin & Hdq & Hrf).
    rewrite Hdq, Hhd in Hu. injection Hu as Ho' Hth He Hw. subst w th'.
    exists (updq QQ false id (leaves w0 (QQ false id))).
    apply Tr_obj; auto; try congruence.
    + unfold sched_unlock_thread. now apply T_wake.
    + rewrite updq_same, updq_other by (left; discriminate).
      subst o'. unfold OInv, set_o_event. cbn [o_fifo o_event o_init o_qpol].
      split; [intros _; auto|]. split; [congruence|]. split; [exact Hnd1|].
      rewrite keys_leaves. now apply leave_nodup.
    + intros i Hne. rewrite !updq_other by (now right). auto.
    + cbn [ereplay ereplay_step]. rewrite Z.eqb_refl.
      change (most_urgent (QQ false id)) with (pick QD_PRIORITY (QQ false id)). rewrite Hpk.
      cbn [opt_is]. rewrite Z.eqb_refl, updq_same. reflexivity.
    + evs_other.
    + rewrite updq_other by (left; discriminate). rewrite Hval, !count_cons, !count_nil. cbn. lia.
Qed.

(** Broadcast. *)
Lemma broadcast_inv : forall fuel n ini now k id f th f' th' QQ,
  broadcast_loop fuel n f th = Some (f', th') ->
  repr n f (keys (order QD_PRIORITY (QQ false id))) -> NoDup (keys (QQ false id)) ->
  TInv n ini th now k QQ ->
  exists QQ', TInv n ini th' now k QQ' /\ repr n f' [] /\ QQ' false id = [] /\
    (forall b i, b <> false \/ i <> id -> QQ' b i = QQ b i).
Proof.
  intros fuel n ini now k id. induction fuel as [|fuel IH]; intros f th f' th' QQ Hl Hr Hnd HT; [discriminate|].
  cbn [broadcast_loop] in Hl. unfold fifo_is_empty in Hl.
  destruct (f_empty f) eqn:Hem.
  - injection Hl as <- <-. exists QQ.
    assert (Hq : QQ false id = []).
    { apply (repr_empty_iff n _ _ Hr) in Hem. unfold keys in Hem. apply map_eq_nil in Hem.
      now apply order_nil in Hem. }
    rewrite Hq in Hr. auto.
  - destruct (order_dequeue n _ _ _ Hr Hnd Hem) as (w & f1 & Hpk & Hhd & Hin & Hdq & Hrf).
    rewrite Hdq, Hhd in Hl. cbn [fst] in Hl.
    destruct (IH f1 (sched_unlock_thread th w) f' th' (updq QQ false id (leaves w (QQ false id))))
      as (QQ' & HT' & Hr' & Hq' & Ho'); auto.
    + now rewrite updq_same.
    + rewrite updq_same, keys_leaves. now apply leave_nodup.
    + unfold sched_unlock_thread. now apply T_wake.
    + exists QQ'. split; [exact HT'|]. split; [exact Hr'|]. split; [exact Hq'|].
      intros b i Hne. rewrite Ho' by exact Hne. now apply updq_other.
Qed.

Lemma Tr_broadcast : forall n s QQ id t o' th' e b,
  0 < n -> SInv n s QQ -> o_init (s_obj s id) = true ->
  obj_eventbroadcast n (s_obj s id) (s_th s) = Done (o', th', e, b) ->
  exists QQ', Tr n s QQ [EvBroadcast id t] (mkLsys (upd (s_obj s) id o') th' (s_now s) (s_k s)) QQ'.
Proof.
  intros n s QQ id t o' th' e b Hn HS Hi Hu. assert (HS' := HS). destruct HS' as (H1 & H2 & H3).
  destruct (H1 id) as (Hok & Hm).
  destruct (obj_broadcast_ok n (s_obj s id) (s_th s) Hn Hok) as (o2 & th2 & e2 & b2 & Hu2 & Hok' & (S1 & S2 & S3 & S4) & Hval).
  rewrite Hu in Hu2. injection Hu2 as <- <- <- <-.
  destruct (H3 id) as (HO & HO2 & Hnd1 & Hnd2). destruct (HO Hi) as (Hr & Hre & Hpol).
  unfold obj_eventbroadcast in Hu.
  destruct (broadcast_loop (S (S (Z.to_nat n))) n (o_event (s_obj s id)) (s_th s)) as [(f' & th2)|] eqn:Hl; [|discriminate].
  injection Hu as Ho' Hth He Hw. subst th2.
  destruct (broadcast_inv _ _ _ _ _ _ _ _ _ _ _ Hl Hre Hnd2 H2) as (QQ' & HT' & Hr' & Hq' & Hoth).
  assert (Htrue : QQ' true id = QQ true id) by (apply Hoth; left; discriminate).
  exists QQ'. apply Tr_obj; auto; try congruence.
  - rewrite Hq', Htrue.
    subst o'. unfold OInv, set_o_event. cbn [o_fifo o_event o_init o_qpol].
    split; [intros _; auto|]. split; [congruence|]. split; [exact Hnd1|]. constructor.
  - cbn [replay replay_step]. now rewrite Htrue.
  - cbn [ereplay ereplay_step]. rewrite Z.eqb_refl, Hq'. reflexivity.
  - evs_other.
  - intros i u Hne. rewrite Hoth by (now right). reflexivity.
  - rewrite Htrue, Hval, !count_cons, !count_nil. cbn. lia.
Qed.

(** Events that concern no queue. *)
Lemma Tr_return : forall n s QQ ev s' QQ' t e,
  Tr n s QQ ev s' QQ' -> Tr n s QQ (ev ++ [EvReturn t e]) s' QQ'.
Proof.
  intros n s QQ ev s' QQ' t e (A1 & A2 & A3 & A4 & A5).
  split; [exact A1|]. split; [exact A2|]. split.
  { intros id pol Hp. rewrite replay_app, (A3 id pol Hp). reflexivity. }
  split.
  { intros id. rewrite ereplay_app, A4. reflexivity. }
  intros id Hi. rewrite !count_app. specialize (A5 id Hi). cbn. lia.
Qed.

Lemma Tr_refl : forall n s QQ, SInv n s QQ -> Tr n s QQ [] s QQ.
Proof.
  intros n s QQ HS. split; [exact HS|]. split; [auto|]. split; [reflexivity|].
  split; [reflexivity|]. intros id Hi. cbn. lia.
Qed.

(** Creation. *)
Lemma Tr_create : forall n s QQ id a o' e,
  0 < n -> SInv n s QQ -> o_init (s_obj s id) = false -> attr_typed a ->
  la_qpol a = QD_FIFO \/ la_qpol a = QD_PRIORITY ->
  obj_create (s_obj s id) a = (o', e) ->
  Tr n s QQ (if e =? ERR_OK then [EvCreate id a] else [])
     (mkLsys (upd (s_obj s) id o') (s_th s) (s_now s) (s_k s)) QQ.
Proof.
  intros n s QQ id a o' e Hn HS Hi Ht Hpol Hc. assert (HS' := HS). destruct HS' as (H1 & H2 & H3).
  destruct (H1 id) as (Hok & Hm).
  destruct (obj_create_ok n _ _ _ _ Hn Hok Hm Ht Hc) as (Hok' & Hm').
  destruct (H3 id) as (HO & HO2 & Hnd1 & Hnd2). destruct (HO2 Hi) as (Hq1 & Hq2).
  unfold obj_create in Hc.
  destruct (negb (la_lpol a =? 0) && negb (la_lpol a =? 1) && negb (la_lpol a =? 2));
    [|destruct (negb (la_kind a =? LK_MUTEX) && negb (la_kind a =? LK_SEMAPHORE) && negb (la_kind a =? LK_EVENT))].
  1,2: injection Hc as <- <-; apply (Tr_ext n s QQ [] s); [|reflexivity|reflexivity|reflexivity|now apply Tr_refl];
       intros i; cbn [s_obj]; unfold upd; destruct (Z.eqb_spec i id) as [->|Hne]; reflexivity.
  injection Hc as Ho' He. subst e. rewrite Z.eqb_refl.
  unfold Tr, SInv. cbn [s_obj s_th s_now s_k].
  split.
  { split; [|split].
    - now apply sys_ok_upd.
    - eapply T_ini; [|exact H2]. intros i Hin. cbn beta in *. unfold upd.
      destruct (Z.eqb_spec i id) as [->|Hne]; congruence.
    - intros i. unfold upd. destruct (Z.eqb_spec i id) as [->|Hne]; [|apply H3].
      rewrite Hq1, Hq2. subst o'. unfold OInv. cbn [o_fifo o_event o_init o_qpol].
      split; [|split; [discriminate|split; constructor]].
      intros _. split; [|split].
      + replace (order _ []) with ([] : wqueue); [now apply repr_init|].
        unfold order. destruct (_ =? QD_PRIORITY); reflexivity.
      + now apply repr_init.
      + destruct (la_kind a =? LK_EVENT); auto. }
  split.
  { intros i Hin. unfold upd. destruct (Z.eqb_spec i id) as [->|Hne]; [congruence|auto]. }
  split.
  { intros i pol _. cbn [replay replay_step]. destruct (Z.eqb_spec id i) as [<-|Hne]; [|reflexivity].
    now rewrite Hq1. }
  split.
  { intros i. cbn [ereplay ereplay_step]. destruct (Z.eqb_spec id i) as [<-|Hne]; [|reflexivity].
    now rewrite Hq2. }
  intros i Hin. unfold upd. destruct (Z.eqb_spec i id) as [->|Hne]; [congruence|].
  cbn. lia.
Qed.

Lemma deadline_nonneg : forall tmo now, 0 <= deadline_of tmo now.
Proof.
  intros tmo now. unfold deadline_of. destruct (0 <? tmo); [|lia].
  unfold u64. apply Z.mod_pos_bound. lia.
Qed.

Lemma is_user_kq : forall k, is_user k = true -> kq k = None.
Proof. intros []; cbn; congruence. Qed.

Lemma upd_self : forall A (f : Z -> A) i j, upd f i (f i) j = f j.
Proof. intros A f i j. unfold upd. destruct (Z.eqb_spec j i) as [->|]; reflexivity. Qed.

Lemma upd_upd : forall A (f : Z -> A) i a b j, upd (upd f i a) i b j = upd f i b j.
Proof. intros A f i a b j. unfold upd. destruct (j =? i); reflexivity. Qed.

(** Lock by a thread that is attached to no queue (used by lock and by the re-lock). *)
Lemma Tr_lock : forall n s QQ id t tmo o' th' r kk,
  0 < n -> SInv n s QQ -> o_init (s_obj s id) = true -> kq (s_k s t) = None -> 0 <= t < n ->
  obj_lock n (s_now s) t (s_obj s id) (s_th s) tmo = Done (o', th', r) ->
  kq kk = Some (true, id, deadline_of tmo (s_now s)) ->
  exists QQ',
  match r with
  | Returns e => e = ERR_OK /\
      Tr n s QQ [EvAcquired id t] (mkLsys (upd (s_obj s) id o') th' (s_now s) (s_k s)) QQ'
  | Blocks d => d = deadline_of tmo (s_now s) /\
      Tr n s QQ [EvBlocked id t (prio_of (s_th s) t)]
        (mkLsys (upd (s_obj s) id o') th' (s_now s) (upd (s_k s) t kk)) QQ'
  end.
Proof.
  intros n s QQ id t tmo o' th' r kk Hn HS Hi Hk Ht Hl Hkk.
  unfold obj_lock in Hl. rewrite Hi in Hl. cbn [negb] in Hl.
  destruct (Z.ltb_spec 0 (o_value (s_obj s id))) as [Hv|Hv].
  - destruct (fifo_is_empty (o_fifo (s_obj s id))); [|discriminate].
    injection Hl as <- <- <-. exists QQ. split; [reflexivity|]. now apply Tr_lock_now.
  - assert (Hv0 : o_value (s_obj s id) = 0).
    { destruct HS as (H1 & _). destruct (H1 id) as ((_ & _ & Hval & _) & _). lia. }
    assert (Hd := deadline_nonneg tmo (s_now s)).
    destruct (Tr_lock_block n s QQ id t _ _ Hn HS Hi Hv0 Hk Ht Hd Hkk) as (f & e & QQ' & Hfe & HTr).
    rewrite Hfe in Hl. injection Hl as <- <- <-. exists QQ'. split; [reflexivity|exact HTr].
Qed.
