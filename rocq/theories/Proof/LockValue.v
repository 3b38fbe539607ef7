(** Range of the value of lock objects, over all histories. *)
From Verif Require Import Model.Base Model.State Model.LockFifo Model.LockObj Model.LockSys
  Spec.LockSpec Spec.SemSpec Proof.Tac Proof.LockFifoProof Proof.LockSafe.

Definition created (o : lockobj) (a : lattr) : Prop :=
  o_init o = true /\ o_kind o = la_kind a /\
  (la_kind a = LK_SEMAPHORE -> o_max o = la_max a) /\
  (sensible a -> o_value o <= capacity a).

Lemma capacity_pos : forall a, sensible a -> 1 <= capacity a.
Proof.
  intros a Ha. unfold capacity. destruct (Z.eqb_spec (la_kind a) LK_SEMAPHORE) as [H|H]; [|lia].
  apply Ha in H. lia.
Qed.

Lemma obj_create_created : forall o a o', obj_create o a = (o', ERR_OK) -> created o' a.
Proof.
  intros o a o' H. unfold obj_create in H.
  destruct (negb (la_lpol a =? 0) && negb (la_lpol a =? 1) && negb (la_lpol a =? 2)); [discriminate|].
  destruct (negb (la_kind a =? LK_MUTEX) && negb (la_kind a =? LK_SEMAPHORE) && negb (la_kind a =? LK_EVENT));
    [discriminate|].
  injection H as <-. unfold created, capacity. cbn [o_init o_kind o_max o_value].
  split; [reflexivity|]. split; [reflexivity|]. split.
  - intros Hk. apply Z.eqb_eq in Hk. now rewrite Hk.
  - intros Ha. destruct (Z.eqb_spec (la_kind a) LK_SEMAPHORE) as [Hk|Hk]; [|lia].
    apply Ha in Hk. lia.
Qed.

Lemma obj_lock_created : forall n now cur o th tmo o' th' r a,
  0 <= o_value o < 2^16 -> created o a ->
  obj_lock n now cur o th tmo = Done (o', th', r) -> created o' a.
Proof.
  intros n now cur o th tmo o' th' r a Hv Hc H. unfold obj_lock in H.
  destruct (negb (o_init o)); [injection H as <- <- <-; exact Hc|].
  destruct (Z.ltb_spec 0 (o_value o)) as [Hp|Hp].
  - destruct (fifo_is_empty (o_fifo o)); [|discriminate].
    injection H as <- <- <-. destruct Hc as (H1 & H2 & H3 & H4).
    unfold created, set_o_value. cbn [o_init o_kind o_max o_value].
    split; [exact H1|]. split; [exact H2|]. split; [exact H3|].
    intros Ha. specialize (H4 Ha). unfold u16. rewrite Z.mod_small by lia. lia.
  - destruct (fifo_enqueue n (prio_of th) (o_fifo o) cur (o_qpol o)) as [[f e]|]; [|discriminate].
    injection H as <- <- <-. exact Hc.
Qed.

Lemma obj_unlock_created : forall n o th o' th' e w a,
  0 <= o_value o < 2^16 -> 0 <= o_max o < 2^16 -> created o a ->
  obj_unlock n o th = Done (o', th', e, w) -> created o' a.
Proof.
  intros n o th o' th' e w a Hv Hm Hc H. unfold obj_unlock in H.
  destruct (negb (o_init o)); [injection H as <- <- <- <-; exact Hc|].
  destruct (negb (o_value o =? 0)).
  - destruct (fifo_is_empty (o_fifo o)); [|discriminate].
    destruct (Z.eqb_spec (o_kind o) LK_SEMAPHORE) as [Hk|Hk].
    + destruct (Z.ltb_spec (o_value o) (o_max o)) as [Hlt|Hge];
        injection H as <- <- <- <-; [|exact Hc].
      destruct Hc as (H1 & H2 & H3 & H4).
      unfold created, set_o_value. cbn [o_init o_kind o_max o_value].
      split; [exact H1|]. split; [exact H2|]. split; [exact H3|].
      intros Ha. unfold u16. rewrite Z.mod_small by lia.
      assert (Hka : la_kind a = LK_SEMAPHORE) by congruence.
      unfold capacity. rewrite Hka. cbn. rewrite <- H3 by exact Hka. lia.
    + injection H as <- <- <- <-. destruct Hc as (H1 & H2 & H3 & H4).
      unfold created, set_o_value. cbn [o_init o_kind o_max o_value].
      split; [exact H1|]. split; [exact H2|]. split; [exact H3|]. apply capacity_pos.
  - destruct (fifo_is_empty (o_fifo o)).
    + injection H as <- <- <- <-. destruct Hc as (H1 & H2 & H3 & H4).
      unfold created, set_o_value. cbn [o_init o_kind o_max o_value].
      split; [exact H1|]. split; [exact H2|]. split; [exact H3|]. apply capacity_pos.
    + destruct (fifo_dequeue n (o_fifo o)) as (f & e').
      injection H as <- <- <- <-. exact Hc.
Qed.

Lemma created_same : forall o o' a,
  static_eq o o' -> o_value o' = o_value o -> created o a -> created o' a.
Proof.
  intros o o' a (H1 & H2 & H3 & H4) H5 (C1 & C2 & C3 & C4). unfold created.
  rewrite H1, H2, H3, H5. auto.
Qed.

Lemma obj_eventwait_created : forall n now cur o th tmo o' th' r a,
  0 <= o_value o < 2^16 -> 0 <= o_max o < 2^16 -> created o a ->
  obj_eventwait n now cur o th tmo = Done (o', th', r) -> created o' a.
Proof.
  intros n now cur o th tmo o' th' r a Hv Hm Hc H. unfold obj_eventwait in H.
  destruct (negb (o_init o)); [injection H as <- <- <-; exact Hc|].
  destruct (negb (o_kind o =? LK_EVENT)); [injection H as <- <- <-; exact Hc|].
  destruct (obj_unlock n o th) as [(((o1 & th1) & e) & w)|] eqn:Hu; [|discriminate].
  assert (Hc1 := obj_unlock_created _ _ _ _ _ _ _ _ Hv Hm Hc Hu).
  destruct (negb (e =? 0)); [injection H as <- <- <-; exact Hc1|].
  destruct (fifo_enqueue n (prio_of th1) (o_event o1) cur QD_PRIORITY) as [[f er]|]; [|discriminate].
  destruct (negb (er =? 0)); [discriminate|].
  injection H as <- <- <-. exact Hc1.
Qed.

Lemma obj_eventwait_resume_created : forall n now cur o th d o' th' rw r a,
  0 <= o_value o < 2^16 -> created o a ->
  obj_eventwait_resume n now cur o th d = Done (o', th', rw, r) -> created o' a.
Proof.
  intros n now cur o th d o' th' rw r a Hv Hc H. unfold obj_eventwait_resume in H.
  destruct (negb (d =? 0) && (d <=? now)).
  - destruct (fifo_remove n (o_event o) cur) as [[f e]|]; [|discriminate].
    destruct (obj_lock n now cur (set_o_event f o) th 0) as [((o2 & th2) & r2)|] eqn:Hl; [|discriminate].
    assert (Hc2 : created o2 a).
    { eapply obj_lock_created; [| |exact Hl]; [exact Hv|exact Hc]. }
    destruct r2; injection H as <- <- <- <-; exact Hc2.
  - destruct (obj_lock n now cur o th 0) as [((o2 & th2) & r2)|] eqn:Hl; [|discriminate].
    assert (Hc2 : created o2 a).
    { eapply obj_lock_created; [| |exact Hl]; [exact Hv|exact Hc]. }
    destruct r2; injection H as <- <- <- <-; exact Hc2.
Qed.

Definition hist_ok (s : lsys) (past : list event) : Prop :=
  forall id a, In (EvCreate id a) past -> created (s_obj s id) a.

Definition not_create (e : event) : Prop := match e with EvCreate _ _ => False | _ => True end.

Lemma hist_ok_upd : forall s past ev id o th now k,
  hist_ok s past -> Forall not_create ev ->
  (forall a, created (s_obj s id) a -> created o a) ->
  hist_ok (mkLsys (upd (s_obj s) id o) th now k) (past ++ ev).
Proof.
  intros s past ev id o th now k Hh Hev Ho i a Hin. cbn [s_obj].
  apply in_app_or in Hin as [Hin|Hin].
  - unfold upd. destruct (Z.eqb_spec i id) as [->|Hne]; auto.
  - rewrite Forall_forall in Hev. apply Hev in Hin. contradiction.
Qed.

Lemma hist_ok_keep : forall s past th now k,
  hist_ok s past -> hist_ok (mkLsys (s_obj s) th now k) (past ++ []).
Proof. intros s past th now k Hh. rewrite app_nil_r. exact Hh. Qed.

Ltac no_create := repeat first [apply Forall_cons; [exact I|] | apply Forall_nil | apply Forall_app; split].

Lemma step_hist : forall n s l past,
  0 < n -> sys_ok n s -> hist_ok s past ->
  match step n s l with
  | Next s' ev => hist_ok s' (past ++ ev)
  | _ => True
  end.
Proof.
  intros n s l past Hn Hs Hh.
  destruct l as [id a|t id o|t st w|t|t| |t|t st|t p]; cbn [step].
  - destruct (o_init (s_obj s id)) eqn:Hin; [exact I|].
    destruct (obj_create (s_obj s id) a) as (o' & e) eqn:Hc.
    intros i b Hb. cbn [s_obj]. apply in_app_or in Hb as [Hb|Hb].
    + unfold upd. destruct (Z.eqb_spec i id) as [->|Hne]; [|now apply Hh].
      apply Hh in Hb. destruct Hb as (Hb & _). congruence.
    + destruct (Z.eqb_spec e ERR_OK) as [->|Hne]; [|contradiction].
      destruct Hb as [Hb|[]]. injection Hb as <- <-.
      rewrite upd_same. eapply obj_create_created; eauto.
  - destruct ((0 <=? t) && (t <? n) && is_user (s_k s t) && runnable s t); [|exact I].
    destruct (Hs id) as ((Hf & He & Hv & Hi) & Hm).
    destruct o as [tmo| |tmo| |]; cbn [call].
    + destruct (obj_lock n (s_now s) t (s_obj s id) (s_th s) tmo) as [((o' & th') & r)|] eqn:Hl; [|exact I].
      destruct r; unfold with_obj; apply hist_ok_upd; auto;
        try (destruct (e =? ERR_OK)); no_create;
        intros a Ha; eapply obj_lock_created; eauto.
    + destruct (obj_unlock n (s_obj s id) (s_th s)) as [(((o' & th') & e) & w)|] eqn:Hl; [|exact I].
      unfold with_obj; apply hist_ok_upd; auto;
        try (destruct (e =? ERR_OK)); no_create;
        intros a Ha; eapply obj_unlock_created; eauto.
    + destruct (obj_eventwait n (s_now s) t (s_obj s id) (s_th s) tmo) as [((o' & th') & r)|] eqn:Hl; [|exact I].
      destruct r; unfold with_obj; apply hist_ok_upd; auto; no_create;
        intros a Ha; eapply obj_eventwait_created; eauto.
    + destruct (obj_eventsignal n (s_obj s id) (s_th s)) as (((o' & th') & e) & w) eqn:Hl.
      destruct (obj_signal_ok _ _ _ _ _ _ _ Hn (proj1 (Hs id)) Hl) as (Ho' & Hst & Hval).
      unfold with_obj; apply hist_ok_upd; auto; no_create.
      intros a Ha. eapply created_same; eauto.
    + destruct (obj_broadcast_ok n (s_obj s id) (s_th s) Hn (proj1 (Hs id)))
        as (o' & th' & e & b & Hl & Ho' & Hst & Hval).
      rewrite Hl. unfold with_obj; apply hist_ok_upd; auto; no_create.
      intros a Ha. eapply created_same; eauto.
  - destruct ((0 <=? t) && (t <? n) && is_user (s_k s t) && runnable s t); [now apply hist_ok_keep|exact I].
  - destruct (is_other (s_k s t)); [now apply hist_ok_keep|exact I].
  - destruct (runnable s t); [|exact I]. unfold resume.
    destruct (s_k s t) as [|id d|id d|id rw|]; try exact I; try (now apply hist_ok_keep);
      destruct (Hs id) as (Ho & Hm).
    + destruct (obj_lock_resume_ok n (s_now s) t (s_obj s id) d Hn Ho) as (o' & e & -> & Ho' & Hst & Hval).
      unfold with_obj; apply hist_ok_upd; auto.
      * destruct (e =? ERR_OK); no_create.
      * intros a Ha. eapply created_same; eauto.
    + destruct (obj_eventwait_resume n (s_now s) t (s_obj s id) (s_th s) d)
        as [(((o' & th') & rw) & r)|] eqn:Hl; [|exact I].
      destruct Ho as (Hf & He & Hv & Hi).
      destruct r; unfold with_obj; apply hist_ok_upd; auto; no_create;
        intros a Ha; eapply obj_eventwait_resume_created; eauto.
    + destruct (obj_lock_resume_ok n (s_now s) t (s_obj s id) 0 Hn Ho) as (o' & e & -> & Ho' & Hst & Hval).
      unfold with_obj; apply hist_ok_upd; auto; no_create.
      intros a Ha. eapply created_same; eauto.
  - now apply hist_ok_keep.
  - destruct ((t_state (s_th s t) =? ST_WAITING) && (t_wakeup (s_th s t) <=? s_now s));
      [now apply hist_ok_keep|exact I].
  - now apply hist_ok_keep.
  - now apply hist_ok_keep.
Qed.

Lemma run_hist : forall n ls s past,
  0 < n -> sys_ok n s -> Forall label_typed ls -> hist_ok s past ->
  forall s' evs, run n s ls = Some (s', evs) -> sys_ok n s' /\ hist_ok s' (past ++ evs).
Proof.
  intros n ls. induction ls as [|l ls IH]; intros s past Hn Hs Ht Hh s' evs Hr; cbn [run] in Hr.
  - injection Hr as <- <-. rewrite app_nil_r. auto.
  - inversion Ht as [|? ? Hl Ht']; subst.
    assert (Hst := step_ok n s l Hn Hs Hl).
    assert (Hsh := step_hist n s l past Hn Hs Hh).
    destruct (step n s l) as [s1 ev| |]; [|eauto|discriminate].
    destruct (run n s1 ls) as [[s2 ev2]|] eqn:Hr2; [|discriminate].
    injection Hr as <- <-. rewrite app_assoc.
    apply (IH s1 (past ++ ev) Hn Hst Ht' Hsh s2 ev2 Hr2).
Qed.

Lemma value_range : forall n th now ls s evs id a,
  0 < n -> Forall label_typed ls -> run n (boot th now) ls = Some (s, evs) ->
  In (EvCreate id a) evs -> sensible a ->
  0 <= o_value (s_obj s id) <= capacity a.
Proof.
  intros n th now ls s evs id a Hn Ht Hr Hin Ha.
  destruct (run_hist n ls (boot th now) [] Hn (boot_ok n th now Hn) Ht) with (s' := s) (evs := evs)
    as (Hs & Hh); [intros ? ? []|exact Hr|].
  cbn [app] in Hh. destruct (Hh id a Hin) as (_ & _ & _ & Hc). specialize (Hc Ha).
  destruct (Hs id) as ((_ & _ & Hv & _) & _). lia.
Qed.
