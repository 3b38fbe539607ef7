(** Every step of an undisturbed history follows the specification; consequences for runs. *)
From Verif Require Import Model.Base Model.State Model.LockFifo Model.LockObj Model.LockSys
  Spec.LockSpec Spec.SemSpec Proof.Tac Proof.LockFifoProof Proof.LockSafe Proof.LockValue
  Proof.WaitOrder Proof.LockSysProof Proof.LockTrace.

Lemma user_eq : forall k, is_user k = true -> k = KUser.
Proof. intros []; cbn; congruence. Qed.

Lemma upd_user : forall (k : Z -> kont) t u, k t = KUser -> upd k t KUser u = k u.
Proof. intros k t u H. unfold upd. destruct (Z.eqb_spec u t) as [->|]; congruence. Qed.

(** A service that changes nothing. *)
Lemma Tr_nop : forall n s QQ id t,
  SInv n s QQ -> s_k s t = KUser -> Tr n s QQ [] (with_obj s id (s_obj s id) (s_th s) t KUser) QQ.
Proof.
  intros n s QQ id t HS Hk. apply (Tr_ext n s QQ [] s); [| | | |now apply Tr_refl]; cbn.
  - intros i. apply upd_self.
  - reflexivity.
  - reflexivity.
  - intros u. now apply upd_user.
Qed.

Lemma step_Tr : forall n s QQ l s' ev,
  0 < n -> SInv n s QQ -> undisturbed s l -> label_typed l -> step n s l = Next s' ev ->
  exists QQ', Tr n s QQ ev s' QQ'.
Proof.
  intros n s QQ l s' ev Hn HS Hund Hty Hst.
  assert (HS' := HS). destruct HS' as (H1 & H2 & H3).
  destruct l as [id a|t id o|t st w|t|t| |t|t st|t p]; cbn [step] in Hst.
  - (* create *)
    destruct (o_init (s_obj s id)) eqn:Hi; [discriminate|].
    destruct (obj_create (s_obj s id) a) as (o' & e) eqn:Hc.
    injection Hst as <- <-. exists QQ. now apply Tr_create.
  - (* call *)
    destruct ((0 <=? t) && (t <? n) && is_user (s_k s t) && runnable s t) eqn:Hen; [|discriminate].
    apply andb_prop in Hen as (Hen & Hrun). apply andb_prop in Hen as (Hen & Hus).
    assert (Ht : 0 <= t < n) by lia. clear Hen. apply user_eq in Hus.
    assert (Hkq : kq (s_k s t) = None) by (rewrite Hus; reflexivity).
    destruct (H1 id) as (Hok & Hm).
    destruct o as [tmo| |tmo| |]; cbn [call] in Hst.
    + destruct (obj_lock n (s_now s) t (s_obj s id) (s_th s) tmo) as [((o' & th') & r)|] eqn:Hl; [|discriminate].
      destruct (o_init (s_obj s id)) eqn:Hi.
      * destruct (Tr_lock n s QQ id t tmo o' th' r (KLock id (deadline_of tmo (s_now s))) Hn HS Hi Hkq Ht Hl eq_refl)
          as (QQ' & HTr).
        exists QQ'. destruct r as [e|d].
        -- destruct HTr as (-> & HTr). injection Hst as <- <-.
           apply (Tr_return n s QQ [EvAcquired id t]).
           eapply Tr_ext; [| | | |exact HTr]; try reflexivity.
           intros u. cbn. now apply upd_user.
        -- destruct HTr as (-> & HTr). injection Hst as <- <-. exact HTr.
      * unfold obj_lock in Hl. rewrite Hi in Hl. cbn [negb] in Hl. injection Hl as <- <- <-.
        injection Hst as <- <-. exists QQ. apply (Tr_return n s QQ []). now apply Tr_nop.
    + destruct (obj_unlock n (s_obj s id) (s_th s)) as [(((o' & th') & e) & w)|] eqn:Hl; [|discriminate].
      destruct (o_init (s_obj s id)) eqn:Hi.
      * destruct (Tr_unlock n s QQ id t o' th' e w Hn HS Hi Hl) as (-> & QQ' & HTr & _).
        injection Hst as <- <-. exists QQ'. apply (Tr_return n s QQ [EvReleased id t w]).
        eapply Tr_ext; [| | | |exact HTr]; try reflexivity.
        intros u. cbn. now apply upd_user.
      * unfold obj_unlock in Hl. rewrite Hi in Hl. cbn [negb] in Hl. injection Hl as <- <- <- <-.
        injection Hst as <- <-. exists QQ. apply (Tr_return n s QQ []). now apply Tr_nop.
    + destruct (obj_eventwait n (s_now s) t (s_obj s id) (s_th s) tmo) as [((o' & th') & r)|] eqn:Hl; [|discriminate].
      unfold obj_eventwait in Hl.
      destruct (o_init (s_obj s id)) eqn:Hi; cbn [negb] in Hl.
      2:{ injection Hl as <- <- <-. injection Hst as <- <-. exists QQ.
          apply (Tr_return n s QQ []). now apply Tr_nop. }
      destruct (negb (o_kind (s_obj s id) =? LK_EVENT)).
      { injection Hl as <- <- <-. injection Hst as <- <-. exists QQ.
        apply (Tr_return n s QQ []). now apply Tr_nop. }
      destruct (obj_unlock n (s_obj s id) (s_th s)) as [(((o1 & th1) & e1) & w1)|] eqn:Hu; [|discriminate].
      destruct (Tr_unlock n s QQ id t o1 th1 e1 w1 Hn HS Hi Hu) as (-> & QQ1 & HTr1 & Hpr & _).
      cbn [Z.eqb ERR_OK negb] in Hl.
      set (s1 := mkLsys (upd (s_obj s) id o1) th1 (s_now s) (s_k s)) in *.
      assert (HS1 : SInv n s1 QQ1) by (destruct HTr1 as (HS1 & _); exact HS1).
      assert (Hi1 : o_init (s_obj s1 id) = true).
      { destruct HTr1 as (_ & Hst1 & _). destruct (Hst1 id Hi) as (Hx & _). exact Hx. }
      assert (Ho1 : s_obj s1 id = o1) by (cbn; apply upd_same).
      destruct (Tr_wait n s1 QQ1 id t (deadline_of tmo (s_now s)) Hn HS1 Hi1 Hkq Ht (deadline_nonneg _ _))
        as (f & QQ2 & Hfe & HTr2).
      rewrite Ho1 in Hfe. cbn [s_th s1] in Hfe. rewrite Hfe in Hl. cbn [Z.eqb ERR_OK negb] in Hl.
      injection Hl as <- <- <-. injection Hst as <- <-. exists QQ2.
      change ([EvReleased id t w1; EvWaiting id t (prio_of (s_th s) t)])
        with ([EvReleased id t w1] ++ [EvWaiting id t (prio_of (s_th s) t)]).
      eapply Tr_ext; [| | | |eapply Tr_trans; [exact HTr1|]].
      5:{ replace (prio_of (s_th s) t) with (prio_of (s_th s1) t); [exact HTr2|].
          unfold prio_of. cbn [s_th s1]. apply Hpr. }
      * intros i. cbn. rewrite upd_upd, upd_same. reflexivity.
      * reflexivity.
      * reflexivity.
      * reflexivity.
    + destruct (obj_eventsignal n (s_obj s id) (s_th s)) as (((o' & th') & e) & w) eqn:Hl.
      cbn in Hund. destruct (Tr_signal n s QQ id t o' th' e w Hn HS Hund Hl) as (QQ' & HTr).
      injection Hst as <- <-. exists QQ'. apply (Tr_return n s QQ [EvSignalled id t w]).
      eapply Tr_ext; [| | | |exact HTr]; try reflexivity.
      intros u. cbn. now apply upd_user.
    + destruct (obj_eventbroadcast n (s_obj s id) (s_th s)) as [(((o' & th') & e) & b)|] eqn:Hl; [|discriminate].
      cbn in Hund. destruct (Tr_broadcast n s QQ id t o' th' e b Hn HS Hund Hl) as (QQ' & HTr).
      injection Hst as <- <-. exists QQ'. apply (Tr_return n s QQ [EvBroadcast id t]).
      eapply Tr_ext; [| | | |exact HTr]; try reflexivity.
      intros u. cbn. now apply upd_user.
  - (* other blocking service *)
    destruct ((0 <=? t) && (t <? n) && is_user (s_k s t) && runnable s t) eqn:Hen; [|discriminate].
    apply andb_prop in Hen as (Hen & Hrun). apply andb_prop in Hen as (Hen & Hus).
    apply user_eq in Hus. injection Hst as <- <-. exists QQ.
    apply Tr_quiet; auto.
    + apply T_free; auto. now rewrite Hus.
    + intros u. unfold upd. destruct (Z.eqb_spec u t) as [->|]; [now rewrite Hus|reflexivity].
  - destruct (is_other (s_k s t)) eqn:Hk; [|discriminate]. injection Hst as <- <-. exists QQ.
    assert (Hkq : kq (s_k s t) = None) by (destruct (s_k s t); try discriminate; reflexivity).
    apply Tr_quiet; auto.
    unfold set_state.
    assert (HT := T_free n _ _ _ _ _ t (set_t_state ST_RUNNABLE (s_th s t)) (s_k s t) H2 Hkq Hkq).
    destruct HT as (Ta & Tb). split.
    + intros b id u p Hin. specialize (Ta b id u p Hin). now rewrite upd_self in Ta.
    + intros b id u d Hd. apply (Tb b id u d). now rewrite upd_self.
  - (* resume *)
    destruct (runnable s t) eqn:Hrun; [|discriminate]. apply state_run in Hrun.
    unfold resume in Hst. destruct (s_k s t) as [|id d|id d|id rw|] eqn:Hk; try discriminate.
    + assert (Hkq : kq (s_k s t) = Some (true, id, d)) by (rewrite Hk; reflexivity).
      unfold obj_lock_resume in Hst.
      destruct (negb (d =? 0) && (d <=? s_now s)) eqn:Htm.
      * destruct (Tr_lock_end_timeout n s QQ id t d Hn HS Hkq) as (f & e & Hfr & HTr).
        rewrite Hfr in Hst. injection Hst as <- <-. eexists.
        apply (Tr_return n s QQ [EvTimeout id t]). exact HTr.
      * injection Hst as <- <-. eexists.
        apply (Tr_return n s QQ [EvAcquired id t]).
        apply (Tr_lock_end_ok n s QQ id t d); auto.
        apply andb_false_iff in Htm as [Htm|Htm]; [left|right]; lia.
    + assert (Hkq : kq (s_k s t) = Some (false, id, d)) by (rewrite Hk; reflexivity).
      assert (H2' := H2). destruct H2' as (T1 & T2). destruct (T2 _ _ _ _ Hkq) as (Hi & Ht & _).
      assert (Hmid : exists o1 rw,
        (if negb (d =? 0) && (d <=? s_now s)
         then match fifo_remove n (o_event (s_obj s id)) t with
              | Some (f, _) => Done (set_o_event f (s_obj s id), ERR_TIMEOUT)
              | None => Crash
              end
         else Done (s_obj s id, ERR_OK)) = Done (o1, rw) /\
        Tr n s QQ [EvWaitEnd id t rw]
          (mkLsys (upd (s_obj s) id o1) (s_th s) (s_now s) (upd (s_k s) t KUser))
          (updq QQ false id (leaves t (QQ false id)))).
      { destruct (negb (d =? 0) && (d <=? s_now s)) eqn:Htm.
        - destruct (Tr_wait_end_timeout n s QQ id t d Hn HS Hkq) as (f & e & Hfr & HTr).
          rewrite Hfr. eexists _, _. split; [reflexivity|exact HTr].
        - eexists _, _. split; [reflexivity|].
          apply (Tr_wait_end_ok n s QQ id t d); auto.
          apply andb_false_iff in Htm as [Htm|Htm]; [left|right]; lia. }
      destruct Hmid as (o1 & rw & Hmid & HTr1).
      unfold obj_eventwait_resume in Hst. rewrite Hmid in Hst.
      set (s1 := mkLsys (upd (s_obj s) id o1) (s_th s) (s_now s) (upd (s_k s) t KUser)) in *.
      set (QQ1 := updq QQ false id (leaves t (QQ false id))) in *.
      assert (HS1 : SInv n s1 QQ1) by (destruct HTr1 as (HS1 & _); exact HS1).
      assert (Hi1 : o_init (s_obj s1 id) = true).
      { destruct HTr1 as (_ & Hst1 & _). destruct (Hst1 id Hi) as (Hx & _). exact Hx. }
      assert (Ho1 : s_obj s1 id = o1) by (cbn; apply upd_same).
      assert (Hkq1 : kq (s_k s1 t) = None) by (cbn [s_k s1]; rewrite upd_same; reflexivity).
      destruct (obj_lock n (s_now s) t o1 (s_th s) 0) as [((o2 & th2) & r)|] eqn:Hl; [|discriminate].
      rewrite <- Ho1 in Hl.
      destruct (Tr_lock n s1 QQ1 id t 0 o2 th2 r (KRelock id rw) Hn HS1 Hi1 Hkq1 Ht Hl eq_refl) as (QQ2 & HTr2).
      exists QQ2. destruct r as [e|d'].
      * destruct HTr2 as (-> & HTr2). cbn [Z.eqb ERR_OK negb] in Hst. injection Hst as <- <-.
        apply (Tr_return n s QQ ([EvWaitEnd id t rw] ++ [EvAcquired id t])).
        eapply Tr_ext; [| | | |eapply Tr_trans; [exact HTr1|exact HTr2]]; try reflexivity.
        intros i. cbn. now rewrite upd_upd.
      * destruct HTr2 as (-> & HTr2). injection Hst as <- <-.
        change ([EvWaitEnd id t rw; EvBlocked id t (prio_of (s_th s) t)])
          with ([EvWaitEnd id t rw] ++ [EvBlocked id t (prio_of (s_th s1) t)]).
        eapply Tr_ext; [| | | |eapply Tr_trans; [exact HTr1|exact HTr2]]; try reflexivity.
        -- intros i. cbn. now rewrite upd_upd.
        -- intros u. cbn. now rewrite upd_upd.
    + assert (Hkq : kq (s_k s t) = Some (true, id, 0)) by (rewrite Hk; reflexivity).
      unfold obj_lock_resume in Hst. cbn [Z.eqb negb andb] in Hst.
      injection Hst as <- <-. eexists.
      apply (Tr_return n s QQ [EvAcquired id t]).
      apply (Tr_lock_end_ok n s QQ id t 0); auto.
    + injection Hst as <- <-. exists QQ. apply Tr_quiet; auto.
      * assert (HT := T_free n _ _ _ _ _ t (s_th s t) KUser H2 ltac:(rewrite Hk; reflexivity) eq_refl).
        destruct HT as (Ta & Tb). split.
        -- intros b id u p Hin. specialize (Ta b id u p Hin). now rewrite upd_self in Ta.
        -- intros b id u d Hd. specialize (Tb b id u d Hd). now rewrite upd_self in Tb.
      * intros u. unfold upd. destruct (Z.eqb_spec u t) as [->|]; [now rewrite Hk|reflexivity].
  - (* tick *)
    injection Hst as <- <-. exists QQ. apply Tr_quiet; auto. eapply T_time; [exact H2|lia].
  - (* expiry *)
    destruct ((t_state (s_th s t) =? ST_WAITING) && (t_wakeup (s_th s t) <=? s_now s)) eqn:Hex; [|discriminate].
    injection Hst as <- <-. exists QQ. apply Tr_quiet; auto. apply T_expire; auto; lia.
  - contradiction.
  - (* priority of a thread that waits for nothing *)
    injection Hst as <- <-. exists QQ. apply Tr_quiet; auto.
    assert (Hkq : kq (s_k s t) = None) by (cbn in Hund; destruct Hund as [-> | ->]; reflexivity).
    assert (HT := T_free n _ _ _ _ _ t (set_t_priority p (s_th s t)) (s_k s t) H2 Hkq Hkq).
    destruct HT as (Ta & Tb). split.
    + intros b id u q Hin. specialize (Ta b id u q Hin). now rewrite upd_self in Ta.
    + intros b id u d Hd. apply (Tb b id u d). now rewrite upd_self.
Qed.

(** Whole histories. *)
Lemma run_Tr : forall n ls s QQ s' evs,
  0 < n -> SInv n s QQ -> undisturbed_run n s ls -> Forall label_typed ls ->
  run n s ls = Some (s', evs) ->
  exists QQ', Tr n s QQ evs s' QQ'.
Proof.
  intros n ls. induction ls as [|l ls IH]; intros s QQ s' evs Hn HS Hund Hty Hr; cbn [run] in Hr.
  - injection Hr as <- <-. exists QQ. now apply Tr_refl.
  - inversion Hty as [|? ? Hl Hty']; subst. cbn [undisturbed_run] in Hund. destruct Hund as (Hu & Hund).
    destruct (step n s l) as [s1 ev| |] eqn:Hst; [|eauto|discriminate].
    destruct (run n s1 ls) as [(s2 & ev2)|] eqn:Hr2; [|discriminate].
    injection Hr as <- <-.
    destruct (step_Tr n s QQ l s1 ev Hn HS Hu Hl Hst) as (QQ1 & HTr1).
    destruct (IH s1 QQ1 s2 ev2 Hn) as (QQ2 & HTr2); auto.
    { destruct HTr1 as (HS1 & _). exact HS1. }
    exists QQ2. eapply Tr_trans; eauto.
Qed.

Lemma boot_SInv : forall n th now, 0 < n -> SInv n (boot th now) (fun _ _ => []).
Proof.
  intros n th now Hn. split; [now apply boot_ok|]. split.
  - split; [intros b id t p []|]. intros b id t d Hd. discriminate.
  - intros id. unfold OInv. cbn. split; [discriminate|]. split; [auto|]. split; constructor.
Qed.

(** The discipline chosen at creation. *)
Definition disc_of (a : lattr) : Z := if la_kind a =? LK_EVENT then QD_PRIORITY else la_qpol a.

(** The object keeps the discipline of its creation event. *)
Lemma step_disc : forall n s l s' ev id a,
  0 < n -> sys_ok n s -> step n s l = Next s' ev -> In (EvCreate id a) ev ->
  o_init (s_obj s' id) = true /\ o_qpol (s_obj s' id) = disc_of a /\ o_init (s_obj s id) = false /\
  o_value (s_obj s' id) = initial a /\ s_k s' = s_k s /\ ev = [EvCreate id a].
Proof.
  intros n s l s' ev id a Hn HS Hst Hin.
  destruct l as [i b|t i o|t st w|t|t| |t|t st|t p]; cbn [step] in Hst.
  - destruct (o_init (s_obj s i)) eqn:Hi; [discriminate|].
    unfold obj_create in Hst.
    destruct (negb (la_lpol b =? 0) && negb (la_lpol b =? 1) && negb (la_lpol b =? 2));
      [injection Hst as <- <-; contradiction|].
    destruct (negb (la_kind b =? LK_MUTEX) && negb (la_kind b =? LK_SEMAPHORE) && negb (la_kind b =? LK_EVENT));
      [injection Hst as <- <-; contradiction|].
    injection Hst as <- <-. destruct Hin as [Hin|[]]. injection Hin as <- <-.
    cbn [s_obj s_k]. rewrite !upd_same. cbn [o_init o_qpol o_value]. unfold disc_of, initial. auto 10.
  - exfalso. destruct ((0 <=? t) && (t <? n) && is_user (s_k s t) && runnable s t); [|discriminate].
    destruct o as [tmo| |tmo| |]; cbn [call] in Hst.
    + destruct (obj_lock n (s_now s) t (s_obj s i) (s_th s) tmo) as [((o' & th') & [e|d])|]; try discriminate;
        injection Hst as <- <-.
      * destruct (e =? ERR_OK); cbn in Hin; intuition discriminate.
      * cbn in Hin; intuition discriminate.
    + destruct (obj_unlock n (s_obj s i) (s_th s)) as [(((o' & th') & e) & w)|]; try discriminate;
        injection Hst as <- <-.
      destruct (e =? ERR_OK); cbn in Hin; intuition discriminate.
    + destruct (obj_eventwait n (s_now s) t (s_obj s i) (s_th s) tmo) as [((o' & th') & [e|d])|]; try discriminate;
        injection Hst as <- <-; cbn in Hin; intuition discriminate.
    + destruct (obj_eventsignal n (s_obj s i) (s_th s)) as (((o' & th') & e) & w).
      injection Hst as <- <-; cbn in Hin; intuition discriminate.
    + destruct (obj_eventbroadcast n (s_obj s i) (s_th s)) as [(((o' & th') & e) & w)|]; try discriminate;
        injection Hst as <- <-; cbn in Hin; intuition discriminate.
  - exfalso. destruct ((0 <=? t) && (t <? n) && is_user (s_k s t) && runnable s t); [|discriminate].
    injection Hst as <- <-. contradiction.
  - exfalso. destruct (is_other (s_k s t)); [|discriminate]. injection Hst as <- <-. contradiction.
  - exfalso. destruct (runnable s t); [|discriminate]. unfold resume in Hst.
    destruct (s_k s t) as [|j d|j d|j rw|]; try discriminate.
    + destruct (obj_lock_resume n (s_now s) t (s_obj s j) d) as [(o' & e)|]; try discriminate.
      injection Hst as <- <-. destruct (e =? ERR_OK); cbn in Hin; intuition discriminate.
    + destruct (obj_eventwait_resume n (s_now s) t (s_obj s j) (s_th s) d) as [(((o' & th') & rw) & [e|d'])|];
        try discriminate; injection Hst as <- <-; cbn in Hin; intuition discriminate.
    + destruct (obj_lock_resume n (s_now s) t (s_obj s j) 0) as [(o' & e)|]; try discriminate.
      injection Hst as <- <-. cbn in Hin; intuition discriminate.
    + injection Hst as <- <-. contradiction.
  - exfalso. injection Hst as <- <-. contradiction.
  - exfalso. destruct ((t_state (s_th s t) =? ST_WAITING) && (t_wakeup (s_th s t) <=? s_now s)); [|discriminate].
    injection Hst as <- <-. contradiction.
  - exfalso. injection Hst as <- <-. contradiction.
  - exfalso. injection Hst as <- <-. contradiction.
Qed.

(** Only existing objects are acquired. *)
Lemma step_acq_init : forall n s QQ l s' ev id u,
  SInv n s QQ -> step n s l = Next s' ev -> In (EvAcquired id u) ev -> o_init (s_obj s id) = true.
Proof.
  intros n s QQ l s' ev id u (_ & (_ & T2) & _) Hst Hin.
  destruct l as [i b|t i o|t st w|t|t| |t|t st|t p]; cbn [step] in Hst.
  - destruct (o_init (s_obj s i)); [discriminate|].
    destruct (obj_create (s_obj s i) b) as (o' & e). injection Hst as <- <-.
    destruct (e =? ERR_OK); cbn in Hin; intuition discriminate.
  - destruct ((0 <=? t) && (t <? n) && is_user (s_k s t) && runnable s t); [|discriminate].
    destruct o as [tmo| |tmo| |]; cbn [call] in Hst.
    + destruct (obj_lock n (s_now s) t (s_obj s i) (s_th s) tmo) as [((o' & th') & [e|d])|] eqn:Hl; try discriminate;
        injection Hst as <- <-.
      * destruct (Z.eqb_spec e ERR_OK) as [->|]; [|cbn in Hin; intuition discriminate].
        cbn in Hin. destruct Hin as [Hin|[Hin|[]]]; [|discriminate]. injection Hin as <- <-.
        unfold obj_lock in Hl. destruct (o_init (s_obj s i)); [reflexivity|discriminate].
      * cbn in Hin; intuition discriminate.
    + destruct (obj_unlock n (s_obj s i) (s_th s)) as [(((o' & th') & e) & w)|]; try discriminate;
        injection Hst as <- <-.
      destruct (e =? ERR_OK); cbn in Hin; intuition discriminate.
    + destruct (obj_eventwait n (s_now s) t (s_obj s i) (s_th s) tmo) as [((o' & th') & [e|d])|]; try discriminate;
        injection Hst as <- <-; cbn in Hin; intuition discriminate.
    + destruct (obj_eventsignal n (s_obj s i) (s_th s)) as (((o' & th') & e) & w).
      injection Hst as <- <-; cbn in Hin; intuition discriminate.
    + destruct (obj_eventbroadcast n (s_obj s i) (s_th s)) as [(((o' & th') & e) & w)|]; try discriminate;
        injection Hst as <- <-; cbn in Hin; intuition discriminate.
  - destruct ((0 <=? t) && (t <? n) && is_user (s_k s t) && runnable s t); [|discriminate].
    injection Hst as <- <-. contradiction.
  - destruct (is_other (s_k s t)); [|discriminate]. injection Hst as <- <-. contradiction.
  - destruct (runnable s t); [|discriminate]. unfold resume in Hst.
    destruct (s_k s t) as [|j d|j d|j rw|] eqn:Hk; try discriminate.
    + destruct (obj_lock_resume n (s_now s) t (s_obj s j) d) as [(o' & e)|]; try discriminate.
      injection Hst as <- <-.
      destruct (e =? ERR_OK); cbn in Hin; destruct Hin as [Hin|[Hin|[]]]; try discriminate.
      injection Hin as <- <-. destruct (T2 true j t d) as (Hi & _); [now rewrite Hk|exact Hi].
    + destruct (obj_eventwait_resume n (s_now s) t (s_obj s j) (s_th s) d) as [(((o' & th') & rw) & [e|d'])|];
        try discriminate; injection Hst as <- <-; cbn in Hin; [|intuition discriminate].
      destruct Hin as [Hin|[Hin|[Hin|[]]]]; try discriminate.
      injection Hin as <- <-. destruct (T2 false j t d) as (Hi & _); [now rewrite Hk|exact Hi].
    + destruct (obj_lock_resume n (s_now s) t (s_obj s j) 0) as [(o' & e)|]; try discriminate.
      injection Hst as <- <-. cbn in Hin. destruct Hin as [Hin|[Hin|[]]]; try discriminate.
      injection Hin as <- <-. destruct (T2 true j t 0) as (Hi & _); [now rewrite Hk|exact Hi].
    + injection Hst as <- <-. contradiction.
  - injection Hst as <- <-. contradiction.
  - destruct ((t_state (s_th s t) =? ST_WAITING) && (t_wakeup (s_th s t) <=? s_now s)); [|discriminate].
    injection Hst as <- <-. contradiction.
  - injection Hst as <- <-. contradiction.
  - injection Hst as <- <-. contradiction.
Qed.

Lemma count_zero : forall p evs, (forall e, In e evs -> p e = false) -> count p evs = 0.
Proof.
  intros p evs. induction evs as [|e evs IH]; intros H; [reflexivity|].
  rewrite count_cons, H by (now left). rewrite IH; [reflexivity|]. intros x Hx. apply H. now right.
Qed.

(** Discipline and account of an object whose creation is in the history. *)
Lemma run_created : forall n ls s QQ s' evs id a,
  0 < n -> SInv n s QQ -> undisturbed_run n s ls -> Forall label_typed ls ->
  run n s ls = Some (s', evs) -> In (EvCreate id a) evs ->
  exists QQ',
    Tr n s QQ evs s' QQ' /\ o_init (s_obj s' id) = true /\ o_qpol (s_obj s' id) = disc_of a /\
    o_init (s_obj s id) = false /\
    gcount n (s_k s') (QQ' true id) id + o_value (s_obj s' id) + count (is_acquire id) evs
      <= initial a + count (is_release id) evs.
Proof.
  intros n ls. induction ls as [|l ls IH]; intros s QQ s' evs id a Hn HS Hund Hty Hr Hin; cbn [run] in Hr.
  - injection Hr as <- <-. contradiction.
  - inversion Hty as [|? ? Hl Hty']; subst. cbn [undisturbed_run] in Hund. destruct Hund as (Hu & Hund).
    destruct (step n s l) as [s1 ev| |] eqn:Hst; [|eauto|discriminate].
    destruct (run n s1 ls) as [(s2 & ev2)|] eqn:Hr2; [|discriminate].
    injection Hr as <- <-.
    destruct (step_Tr n s QQ l s1 ev Hn HS Hu Hl Hst) as (QQ1 & HTr1).
    assert (HS1 : SInv n s1 QQ1) by (destruct HTr1 as (HS1 & _); exact HS1).
    apply in_app_or in Hin as [Hin|Hin].
    + destruct (step_disc n s l s1 ev id a Hn (proj1 HS) Hst Hin) as (Hi1 & Hq1 & Hi0 & Hv1 & Hk1 & Hev).
      destruct (run_Tr n ls s1 QQ1 s2 ev2 Hn HS1 Hund Hty' Hr2) as (QQ2 & HTr2).
      exists QQ2. split; [eapply Tr_trans; eauto|].
      destruct HTr2 as (HS2 & Hstat & _ & _ & Hacc).
      destruct (Hstat id Hi1) as (Hi2 & Hq2).
      split; [exact Hi2|]. split; [congruence|]. split; [exact Hi0|].
      specialize (Hacc id Hi1). rewrite !count_app. subst ev.
      rewrite !(count_cons _ (EvCreate id a)), !count_nil. cbn [is_acquire is_release b2z].
      assert (Hg0 : gcount n (s_k s1) (QQ1 true id) id = 0).
      { unfold gcount. rewrite (sum_ext _ _ (fun _ => false)).
        - clear. induction (Z.to_nat n) as [|m IHm]; [reflexivity|]. cbn [sum_upto]. rewrite IHm. reflexivity.
        - intros t _. unfold granted. rewrite Hk1.
          destruct (kq (s_k s t)) as [((b & i) & d)|] eqn:Hk; [|reflexivity].
          destruct b; [|reflexivity]. destruct (Z.eqb_spec i id) as [->|]; [|reflexivity].
          destruct HS as (_ & (_ & T2) & _). destruct (T2 _ _ _ _ Hk) as (Hi & _). congruence. }
      lia.
    + destruct (IH s1 QQ1 s2 ev2 id a Hn HS1 Hund Hty' Hr2 Hin) as (QQ2 & HTr2 & Hi2 & Hq2 & Hi1 & Hacc).
      exists QQ2. split; [eapply Tr_trans; eauto|]. split; [exact Hi2|]. split; [exact Hq2|].
      assert (Hi0 : o_init (s_obj s id) = false).
      { destruct (o_init (s_obj s id)) eqn:E; [|reflexivity].
        destruct HTr1 as (_ & Hstat & _). destruct (Hstat id E) as (Hx & _). congruence. }
      split; [exact Hi0|]. rewrite !count_app.
      (* nothing is acquired on an object that does not exist *)
      assert (Ha : count (is_acquire id) ev = 0).
      { apply count_zero. intros e He. destruct e as [| |i u| | | | | | |]; try reflexivity.
        cbn. destruct (Z.eqb_spec i id) as [->|]; [|reflexivity].
        assert (Hx := step_acq_init _ _ _ _ _ _ _ _ HS Hst He). congruence. }
      assert (0 <= count (is_release id) ev) by (unfold count; lia). lia.
Qed.
