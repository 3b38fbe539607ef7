(** Statements about whole histories, in the vocabulary of the specification. *)
From Verif Require Import Model.Base Model.State Model.LockFifo Model.LockObj Model.LockSys
  Spec.LockSpec Spec.SemSpec Proof.Tac Proof.LockFifoProof Proof.LockSafe Proof.LockValue
  Proof.WaitOrder Proof.LockSysProof Proof.LockTrace Proof.LockRun.

Lemma SInv_blocked : forall n s QQ id t, SInv n s QQ -> blocked_on s id t -> In t (map fst (QQ true id)).
Proof.
  intros n s QQ id t (_ & (T1 & T2) & _) (Hk & Hst).
  destruct (in_dec Z.eq_dec t (map fst (QQ true id))) as [Hin|Hin]; [exact Hin|].
  exfalso. apply Hst. destruct Hk as [(d & Hk)|(r & Hk)].
  - apply (T2 true id t d); [now rewrite Hk|exact Hin].
  - apply (T2 true id t 0); [now rewrite Hk|exact Hin].
Qed.

Lemma SInv_event_blocked : forall n s QQ id t,
  SInv n s QQ -> event_blocked_on s id t -> In t (map fst (QQ false id)).
Proof.
  intros n s QQ id t (_ & (T1 & T2) & _) ((d & Hk) & Hst).
  destruct (in_dec Z.eq_dec t (map fst (QQ false id))) as [Hin|Hin]; [exact Hin|].
  exfalso. apply Hst. apply (T2 false id t d); [now rewrite Hk|exact Hin].
Qed.

Section Histories.
Variables (n : Z) (th : Z -> thread) (now : Z) (ls : list label) (s : lsys) (evs : list event)
  (id : Z) (a : lattr).
Hypothesis Hn : 0 < n.
Hypothesis Hty : Forall label_typed ls.
Hypothesis Hund : undisturbed_run n (boot th now) ls.
Hypothesis Hrun : run n (boot th now) ls = Some (s, evs).
Hypothesis Hcr : In (EvCreate id a) evs.

Lemma lock_queue_follows :
  exists q, replay (pick (disc_of a)) id [] evs = Some q /\ NoDup (map fst q) /\
    (forall t, blocked_on s id t -> In t (map fst q)) /\
    (0 < o_value (s_obj s id) -> q = []).
Proof.
  destruct (run_created n ls _ _ s evs id a Hn (boot_SInv n th now Hn) Hund Hty Hrun Hcr)
    as (QQ' & (HS & Hst & Hr & He & Hacc) & Hi & Hq & _ & _).
  exists (QQ' true id). split; [apply Hr; congruence|].
  split; [destruct HS as (_ & _ & HO); destruct (HO id) as (_ & _ & Hnd & _); exact Hnd|].
  split; [intros t; now apply (SInv_blocked n)|].
  destruct HS as (H1 & _ & HO). intros Hv.
  exact (queued_value n _ _ _ (proj1 (H1 id)) (HO id) Hi Hv).
Qed.

Lemma event_queue_follows :
  exists q, ereplay id [] evs = Some q /\ NoDup (map fst q) /\
    (forall t, event_blocked_on s id t -> In t (map fst q)).
Proof.
  destruct (run_created n ls _ _ s evs id a Hn (boot_SInv n th now Hn) Hund Hty Hrun Hcr)
    as (QQ' & (HS & Hst & Hr & He & Hacc) & Hi & Hq & _ & _).
  exists (QQ' false id). split; [apply He|].
  split; [destruct HS as (_ & _ & HO); destruct (HO id) as (_ & _ & _ & Hnd); exact Hnd|].
  intros t. now apply (SInv_event_blocked n).
Qed.

Lemma sum_nonneg : forall m f, 0 <= sum_upto m f.
Proof.
  intros m f. induction m as [|m IH]; cbn [sum_upto]; [lia|].
  destruct (f (Z.of_nat m)); cbn [b2z]; lia.
Qed.

Lemma acquisitions_bounded :
  count (is_acquire id) evs <= initial a + count (is_release id) evs.
Proof.
  destruct (run_created n ls _ _ s evs id a Hn (boot_SInv n th now Hn) Hund Hty Hrun Hcr)
    as (QQ' & (HS & _) & Hi & Hq & _ & Hacc).
  destruct HS as (H1 & _). destruct (H1 id) as ((_ & _ & Hv & _) & _).
  assert (Hg := sum_nonneg (Z.to_nat n) (granted (s_k s) (QQ' true id) id)).
  fold (gcount n (s_k s) (QQ' true id) id) in Hg. lia.
Qed.

(** Effect of one signal and of one broadcast on the reached state. *)
Lemma signal_effect : forall t s' ev, step n s (LCall t id OpSignal) = Next s' ev ->
  exists q, ereplay id [] evs = Some q /\ NoDup (map fst q) /\
    (forall u, event_blocked_on s id u -> In u (map fst q)) /\
    match most_urgent q with
    | Some w => ev = [EvSignalled id t (Some w); EvReturn t ERR_OK] /\
        t_state (s_th s' w) = ST_RUNNABLE /\ (forall u, u <> w -> s_th s' u = s_th s u)
    | None => ev = [EvSignalled id t None; EvReturn t ERR_NOTFOUND] /\
        (forall u, s_th s' u = s_th s u)
    end.
Proof.
  intros t s' ev Hst.
  destruct (run_created n ls _ _ s evs id a Hn (boot_SInv n th now Hn) Hund Hty Hrun Hcr)
    as (QQ' & (HS & _ & Hr & He & Hacc) & Hi & Hq & _ & _).
  exists (QQ' false id). split; [apply He|].
  assert (HS' := HS). destruct HS' as (H1 & H2 & HO).
  destruct (HO id) as (HO1 & _ & _ & Hnd). split; [exact Hnd|].
  split; [intros u; now apply (SInv_event_blocked n)|].
  destruct (HO1 Hi) as (_ & Hre & _).
  cbn [step] in Hst.
  destruct ((0 <=? t) && (t <? n) && is_user (s_k s t) && runnable s t); [|discriminate].
  cbn [call] in Hst. unfold obj_eventsignal, fifo_is_empty in Hst.
  destruct (f_empty (o_event (s_obj s id))) eqn:Hem.
  - injection Hst as <- <-.
    assert (Hqe : QQ' false id = []).
    { apply (repr_empty_iff n _ _ Hre) in Hem. unfold keys in Hem. apply map_eq_nil in Hem.
      now apply order_nil in Hem. }
    rewrite Hqe. cbn. auto.
  - destruct (order_dequeue n _ _ _ Hre Hnd Hem) as (w & f' & Hpk & Hhd & Hin & Hdq & Hrf).
    rewrite Hdq, Hhd in Hst. injection Hst as <- <-.
    change (most_urgent (QQ' false id)) with (pick QD_PRIORITY (QQ' false id)). rewrite Hpk.
    cbn [with_obj s_th]. unfold sched_unlock_thread, set_state.
    split; [reflexivity|]. split; [now rewrite upd_same|]. intros u Hne. now apply upd_other.
Qed.

Lemma broadcast_states : forall fuel m f0 t0 f1 t1 q,
  broadcast_loop fuel m f0 t0 = Some (f1, t1) ->
  repr m f0 (keys (order QD_PRIORITY q)) -> NoDup (keys q) ->
  forall u, (In u (keys q) -> t_state (t1 u) = ST_RUNNABLE) /\ (~ In u (keys q) -> t1 u = t0 u).
Proof.
  intros fuel m. induction fuel as [|fuel IH]; intros f0 t0 f1 t1 q Hl Hr Hnd u; [discriminate|].
  cbn [broadcast_loop] in Hl. unfold fifo_is_empty in Hl.
  destruct (f_empty f0) eqn:Hem.
  - injection Hl as <- <-.
    assert (Hq : q = []).
    { apply (repr_empty_iff m _ _ Hr) in Hem. unfold keys in Hem. apply map_eq_nil in Hem.
      now apply order_nil in Hem. }
    subst q. split; [intros []|reflexivity].
  - destruct (order_dequeue m _ _ _ Hr Hnd Hem) as (w & f' & Hpk & Hhd & Hin & Hdq & Hrf).
    rewrite Hdq, Hhd in Hl. cbn [fst] in Hl.
    assert (Hnd' : NoDup (keys (leaves w q))) by (rewrite keys_leaves; now apply leave_nodup).
    destruct (IH _ _ _ _ _ Hl Hrf Hnd' u) as (IH1 & IH2).
    destruct (in_dec Z.eq_dec u (keys (leaves w q))) as [Hu|Hu].
    + split; [auto|]. intros Hn'. exfalso. apply Hn'. rewrite keys_leaves in Hu. eapply leave_in; eauto.
    + specialize (IH2 Hu). rewrite IH2. unfold sched_unlock_thread, set_state.
      destruct (Z.eq_dec u w) as [->|Hne].
      * rewrite upd_same. split; [reflexivity|]. contradiction.
      * rewrite upd_other by exact Hne. split; [|reflexivity].
        intros Huq. exfalso. apply Hu. rewrite keys_leaves. now apply leave_keep.
Qed.

Lemma broadcast_effect : forall t s' ev, step n s (LCall t id OpBroadcast) = Next s' ev ->
  exists q, ereplay id [] evs = Some q /\ NoDup (map fst q) /\
    (forall u, event_blocked_on s id u -> In u (map fst q)) /\
    ev = [EvBroadcast id t; EvReturn t ERR_OK] /\
    (forall u, In u (map fst q) -> t_state (s_th s' u) = ST_RUNNABLE) /\
    (forall u, ~ In u (map fst q) -> s_th s' u = s_th s u) /\
    (forall u, ~ event_blocked_on s' id u).
Proof.
  intros t s' ev Hst.
  destruct (run_created n ls _ _ s evs id a Hn (boot_SInv n th now Hn) Hund Hty Hrun Hcr)
    as (QQ' & (HS & _ & Hr & He & Hacc) & Hi & Hq & _ & _).
  exists (QQ' false id). split; [apply He|].
  assert (HS' := HS). destruct HS' as (H1 & H2 & HO).
  destruct (HO id) as (HO1 & _ & _ & Hnd). split; [exact Hnd|].
  assert (Hblk : forall u, event_blocked_on s id u -> In u (map fst (QQ' false id)))
    by (intros u; now apply (SInv_event_blocked n)).
  split; [exact Hblk|].
  destruct (HO1 Hi) as (_ & Hre & _).
  cbn [step] in Hst.
  destruct ((0 <=? t) && (t <? n) && is_user (s_k s t) && runnable s t) eqn:Hen; [|discriminate].
  apply andb_prop in Hen as (Hen & _). apply andb_prop in Hen as (_ & Hus). apply user_eq in Hus.
  cbn [call] in Hst. unfold obj_eventbroadcast in Hst.
  destruct (broadcast_loop (S (S (Z.to_nat n))) n (o_event (s_obj s id)) (s_th s)) as [(f' & th')|] eqn:Hl; [|discriminate].
  injection Hst as <- <-. split; [reflexivity|]. cbn [with_obj s_th s_k].
  assert (Hb := broadcast_states _ _ _ _ _ _ _ Hl Hre Hnd).
  split; [intros u; apply Hb|]. split; [intros u; apply Hb|].
  intros u ((d & Hk) & Hs). cbn [with_obj s_th s_k] in Hk, Hs.
  rewrite upd_user in Hk by exact Hus.
  destruct (in_dec Z.eq_dec u (keys (QQ' false id))) as [Hu|Hu].
  - apply Hs. now apply Hb.
  - destruct (Hb u) as (_ & Hb2). rewrite Hb2 in Hs by exact Hu.
    apply Hu. apply Hblk. split; [eauto|exact Hs].
Qed.
End Histories.

(** A woken waiter that is dispatched in time gets the resource. *)
Definition granted_to (s : lsys) (QQ : bool -> Z -> wqueue) (id w d : Z) : Prop :=
  kq (s_k s w) = Some (true, id, d) /\ ~ In w (map fst (QQ true id)).

Lemma replay_notin : forall pk id w evs q q',
  replay pk id q evs = Some q' -> ~ In w (map fst q) ->
  (forall e, In e evs -> actor e <> Some w) -> ~ In w (map fst q').
Proof.
  intros pk id w evs. induction evs as [|e evs IH]; intros q q' Hr Hni Ha; cbn [replay] in Hr.
  - injection Hr as <-. exact Hni.
  - destruct (replay_step pk id q e) as [q1|] eqn:Hs; [|discriminate].
    apply (IH q1 q' Hr); [|intros x Hx; apply Ha; now right].
    assert (Hae := Ha e (or_introl eq_refl)).
    assert (Hl : forall x, ~ In w (map fst (leaves x q))).
    { intros x Hx. apply Hni. apply in_map_iff in Hx as (y & Hy & Hx). apply leaves_in in Hx.
      apply in_map_iff. eauto. }
    destruct e as [i b|i t p|i t|i t|i t o|i t p|i t e|i t o|i t|t e]; cbn [replay_step actor] in *.
    + destruct (i =? id); injection Hs as <-; [intros []|exact Hni].
    + destruct (i =? id); injection Hs as <-; [|exact Hni].
      rewrite map_app. cbn [map fst]. intros Hin. apply in_app_or in Hin as [Hin|[Hin|[]]]; [auto|].
      congruence.
    + destruct (i =? id); [|injection Hs as <-; exact Hni].
      destruct (waits t q); [discriminate|]. injection Hs as <-. exact Hni.
    + destruct (i =? id); injection Hs as <-; auto.
    + destruct (i =? id); [|injection Hs as <-; exact Hni].
      destruct (opt_is o (pk q)); [|discriminate]. injection Hs as <-. destruct o; auto.
    + injection Hs as <-. exact Hni.
    + injection Hs as <-. exact Hni.
    + injection Hs as <-. exact Hni.
    + injection Hs as <-. exact Hni.
    + injection Hs as <-. exact Hni.
Qed.

Definition acts (l : label) : option Z :=
  match l with LCall t _ _ => Some t | LOther t _ _ => Some t | LResume t => Some t | _ => None end.

Ltac ev_cases H :=
  cbn in H; repeat (destruct H as [H|H]); try contradiction; rewrite <- H; cbn; congruence.

Lemma step_other_thread : forall n s l s' ev w,
  step n s l = Next s' ev -> acts l <> Some w ->
  s_k s' w = s_k s w /\ (forall e, In e ev -> actor e <> Some w).
Proof.
  intros n s l s' ev w Hst Ha.
  destruct l as [i b|t i o|t st x|t|t| |t|t st|t p]; cbn [step acts] in *.
  - destruct (o_init (s_obj s i)); [discriminate|].
    destruct (obj_create (s_obj s i) b) as (o' & e). injection Hst as <- <-. split; [reflexivity|].
    intros x Hx. destruct (e =? ERR_OK); cbn in Hx; [|contradiction]. destruct Hx as [<-|[]]. discriminate.
  - destruct ((0 <=? t) && (t <? n) && is_user (s_k s t) && runnable s t); [|discriminate].
    assert (Hne : t <> w) by congruence.
    assert (Hk : forall o' th' k, s_k (with_obj s i o' th' t k) w = s_k s w).
    { intros o' th' k. cbn. apply upd_other. congruence. }
    destruct o as [tmo| |tmo| |]; cbn [call] in Hst.
    + destruct (obj_lock n (s_now s) t (s_obj s i) (s_th s) tmo) as [((o' & th') & [e|d])|]; try discriminate;
        injection Hst as <- <-; (split; [apply Hk|]).
      * intros x Hx. destruct (e =? ERR_OK); ev_cases Hx.
      * intros x Hx. ev_cases Hx.
    + destruct (obj_unlock n (s_obj s i) (s_th s)) as [(((o' & th') & e) & x)|]; try discriminate;
        injection Hst as <- <-; (split; [apply Hk|]).
      intros y Hx. destruct (e =? ERR_OK); ev_cases Hx.
    + destruct (obj_eventwait n (s_now s) t (s_obj s i) (s_th s) tmo) as [((o' & th') & [e|d])|]; try discriminate;
        injection Hst as <- <-; (split; [apply Hk|]);
        intros x Hx; ev_cases Hx.
    + destruct (obj_eventsignal n (s_obj s i) (s_th s)) as (((o' & th') & e) & x).
      injection Hst as <- <-; (split; [apply Hk|]);
        intros y Hx; ev_cases Hx.
    + destruct (obj_eventbroadcast n (s_obj s i) (s_th s)) as [(((o' & th') & e) & x)|]; try discriminate;
        injection Hst as <- <-; (split; [apply Hk|]);
        intros y Hx; ev_cases Hx.
  - destruct ((0 <=? t) && (t <? n) && is_user (s_k s t) && runnable s t); [|discriminate].
    injection Hst as <- <-. split; [cbn; apply upd_other; congruence|intros e []].
  - destruct (is_other (s_k s t)); [|discriminate]. injection Hst as <- <-. split; [reflexivity|intros e []].
  - destruct (runnable s t); [|discriminate]. unfold resume in Hst.
    assert (Hne : t <> w) by congruence.
    assert (Hk : forall i o' th' k, s_k (with_obj s i o' th' t k) w = s_k s w).
    { intros i o' th' k. cbn. apply upd_other. congruence. }
    destruct (s_k s t) as [|j d|j d|j rw|]; try discriminate.
    + destruct (obj_lock_resume n (s_now s) t (s_obj s j) d) as [(o' & e)|]; try discriminate.
      injection Hst as <- <-; (split; [apply Hk|]).
      intros x Hx. destruct (e =? ERR_OK); ev_cases Hx.
    + destruct (obj_eventwait_resume n (s_now s) t (s_obj s j) (s_th s) d) as [(((o' & th') & rw) & [e|d'])|];
        try discriminate; injection Hst as <- <-; (split; [apply Hk|]);
        intros x Hx; ev_cases Hx.
    + destruct (obj_lock_resume n (s_now s) t (s_obj s j) 0) as [(o' & e)|]; try discriminate.
      injection Hst as <- <-; (split; [apply Hk|]).
      intros x Hx. ev_cases Hx.
    + injection Hst as <- <-. split; [cbn; apply upd_other; congruence|intros e []].
  - injection Hst as <- <-. split; [reflexivity|intros e []].
  - destruct ((t_state (s_th s t) =? ST_WAITING) && (t_wakeup (s_th s t) <=? s_now s)); [|discriminate].
    injection Hst as <- <-. split; [reflexivity|intros e []].
  - injection Hst as <- <-. split; [reflexivity|intros e []].
  - injection Hst as <- <-. split; [reflexivity|intros e []].
Qed.

Lemma step_now : forall n s l s' ev, step n s l = Next s' ev -> s_now s <= s_now s'.
Proof.
  intros n s l s' ev Hst.
  destruct l as [i b|t i o|t st x|t|t| |t|t st|t p]; cbn [step] in *.
  - destruct (o_init (s_obj s i)); [discriminate|].
    destruct (obj_create (s_obj s i) b) as (o' & e). injection Hst as <- <-. cbn. lia.
  - destruct ((0 <=? t) && (t <? n) && is_user (s_k s t) && runnable s t); [|discriminate].
    destruct o as [tmo| |tmo| |]; cbn [call] in Hst.
    + destruct (obj_lock n (s_now s) t (s_obj s i) (s_th s) tmo) as [((o' & th') & [e|d])|]; try discriminate;
        injection Hst as <- <-; cbn; lia.
    + destruct (obj_unlock n (s_obj s i) (s_th s)) as [(((o' & th') & e) & x)|]; try discriminate;
        injection Hst as <- <-; cbn; lia.
    + destruct (obj_eventwait n (s_now s) t (s_obj s i) (s_th s) tmo) as [((o' & th') & [e|d])|]; try discriminate;
        injection Hst as <- <-; cbn; lia.
    + destruct (obj_eventsignal n (s_obj s i) (s_th s)) as (((o' & th') & e) & x).
      injection Hst as <- <-; cbn; lia.
    + destruct (obj_eventbroadcast n (s_obj s i) (s_th s)) as [(((o' & th') & e) & x)|]; try discriminate;
        injection Hst as <- <-; cbn; lia.
  - destruct ((0 <=? t) && (t <? n) && is_user (s_k s t) && runnable s t); [|discriminate].
    injection Hst as <- <-. cbn. lia.
  - destruct (is_other (s_k s t)); [|discriminate]. injection Hst as <- <-. cbn. lia.
  - destruct (runnable s t); [|discriminate]. unfold resume in Hst.
    destruct (s_k s t) as [|j d|j d|j rw|]; try discriminate.
    + destruct (obj_lock_resume n (s_now s) t (s_obj s j) d) as [(o' & e)|]; try discriminate.
      injection Hst as <- <-; cbn; lia.
    + destruct (obj_eventwait_resume n (s_now s) t (s_obj s j) (s_th s) d) as [(((o' & th') & rw) & [e|d'])|];
        try discriminate; injection Hst as <- <-; cbn; lia.
    + destruct (obj_lock_resume n (s_now s) t (s_obj s j) 0) as [(o' & e)|]; try discriminate.
      injection Hst as <- <-; cbn; lia.
    + injection Hst as <- <-; cbn; lia.
  - injection Hst as <- <-; cbn; lia.
  - destruct ((t_state (s_th s t) =? ST_WAITING) && (t_wakeup (s_th s t) <=? s_now s)); [|discriminate].
    injection Hst as <- <-; cbn; lia.
  - injection Hst as <- <-; cbn; lia.
  - injection Hst as <- <-; cbn; lia.
Qed.

Lemma run_now : forall n ls s s' evs, run n s ls = Some (s', evs) -> s_now s <= s_now s'.
Proof.
  intros n ls. induction ls as [|l ls IH]; intros s s' evs Hr; cbn [run] in Hr.
  - injection Hr as <- <-. lia.
  - destruct (step n s l) as [s1 ev| |] eqn:Hst; [|eauto|discriminate].
    destruct (run n s1 ls) as [(s2 & ev2)|] eqn:Hr2; [|discriminate].
    injection Hr as <- <-. apply step_now in Hst. apply IH in Hr2. lia.
Qed.

Lemma first_action_none : forall w evs, (forall e, In e evs -> actor e <> Some w) -> first_action w evs = None.
Proof.
  intros w evs. induction evs as [|e evs IH]; intros H; [reflexivity|].
  cbn [first_action]. assert (He := H e (or_introl eq_refl)).
  destruct (actor e) as [x|]; cbn [opt_is].
  - destruct (Z.eqb_spec x w); [congruence|]. apply IH. intros y Hy. apply H. now right.
  - apply IH. intros y Hy. apply H. now right.
Qed.

Lemma first_action_app : forall w a b,
  first_action w (a ++ b) = match first_action w a with Some e => Some e | None => first_action w b end.
Proof.
  intros w a b. induction a as [|e a IH]; [reflexivity|].
  cbn [app first_action]. destruct (opt_is (actor e) (Some w)); [reflexivity|exact IH].
Qed.

Lemma granted_next : forall n ls s QQ s' evs id w d,
  0 < n -> SInv n s QQ -> undisturbed_run n s ls -> Forall label_typed ls ->
  run n s ls = Some (s', evs) -> granted_to s QQ id w d -> (d = 0 \/ s_now s' < d) ->
  (first_action w evs = None /\ t_state (s_th s' w) = ST_RUNNABLE) \/
  first_action w evs = Some (EvAcquired id w).
Proof.
  intros n ls. induction ls as [|l ls IH]; intros s QQ s' evs id w d Hn HS Hund Hty Hr (Hk & Hni) Hd; cbn [run] in Hr.
  - injection Hr as <- <-. left. split; [reflexivity|].
    destruct HS as (_ & (_ & T2) & _). destruct (T2 _ _ _ _ Hk) as (_ & _ & H). now apply H.
  - inversion Hty as [|? ? Hl Hty']; subst. cbn [undisturbed_run] in Hund. destruct Hund as (Hu & Hund).
    destruct (step n s l) as [s1 ev| |] eqn:Hst.
    2:{ eapply IH; eauto. split; auto. }
    2:{ discriminate. }
    destruct (run n s1 ls) as [(s2 & ev2)|] eqn:Hr2; [|discriminate].
    injection Hr as <- <-. rewrite first_action_app. assert (Hnw := step_now _ _ _ _ _ Hst).
    destruct (step_Tr n s QQ l s1 ev Hn HS Hu Hl Hst) as (QQ1 & HTr1).
    assert (HS1 : SInv n s1 QQ1) by (destruct HTr1 as (HS1 & _); exact HS1).
    assert (Hdec : acts l = Some w \/ acts l <> Some w).
    { destruct (acts l) as [x|]; [|now right]. destruct (Z.eq_dec x w) as [->|]; [now left|right; congruence]. }
    destruct Hdec as [Hact|Hact].
    + right.
      destruct l as [i b|t i o|t st x|t|t| |t|t st|t p]; cbn [acts] in Hact; try discriminate;
        injection Hact as ->; cbn [step] in Hst.
      * exfalso. destruct (is_user (s_k s w)) eqn:Hus.
        -- apply is_user_kq in Hus. congruence.
        -- rewrite andb_false_r in Hst. discriminate.
      * exfalso. destruct (is_user (s_k s w)) eqn:Hus.
        -- apply is_user_kq in Hus. congruence.
        -- rewrite andb_false_r in Hst. discriminate.
      * destruct (runnable s w) eqn:Hrun; [|discriminate]. apply state_run in Hrun.
        unfold resume in Hst. apply run_now in Hr2.
        destruct (s_k s w) as [|j d'|j d'|j rw|]; cbn [kq] in Hk; try discriminate.
        -- injection Hk as -> ->. unfold obj_lock_resume in Hst.
           assert (Htm : negb (d =? 0) && (d <=? s_now s) = false).
           { destruct (Z.eqb_spec d 0) as [->|Hd0]; [reflexivity|]. cbn [negb andb].
             destruct Hd as [Hd|Hd]; [contradiction|]. apply Z.leb_gt. lia. }
           rewrite Htm in Hst. injection Hst as <- <-.
           cbn [first_action actor opt_is]. cbn [Z.eqb ERR_OK]. cbn [first_action actor opt_is].
           now rewrite Z.eqb_refl.
        -- injection Hk as -> <-. unfold obj_lock_resume in Hst. cbn [Z.eqb negb andb] in Hst.
           injection Hst as <- <-. cbn [first_action actor opt_is]. now rewrite Z.eqb_refl.
    + destruct (step_other_thread n s l s1 ev w Hst Hact) as (Hk1 & Hev).
      rewrite (first_action_none w ev Hev).
      apply (IH s1 QQ1 s2 ev2 id w d); auto.
      split; [now rewrite Hk1|].
      destruct HTr1 as (_ & _ & Hrep & _).
      destruct HS as (H1 & (_ & T2) & HO). destruct (T2 _ _ _ _ Hk) as (Hi & _).
      eapply replay_notin; [|exact Hni|exact Hev].
      apply (Hrep id (o_qpol (s_obj s1 id))). reflexivity.
Qed.

(** A release that wakes [w]. *)
Lemma release_grants : forall n s QQ l s' ev QQ' id t w,
  SInv n s QQ -> Tr n s QQ ev s' QQ' -> step n s l = Next s' ev -> In (EvReleased id t (Some w)) ev ->
  o_init (s_obj s' id) = true ->
  ~ In w (map fst (QQ' true id)).
Proof.
  intros n s QQ l s' ev QQ' id t w HS HTr Hst Hin Hi.
  destruct HTr as (HS' & _ & Hrep & _).
  specialize (Hrep id (o_qpol (s_obj s' id)) (fun _ => eq_refl)).
  assert (Hnd : NoDup (map fst (QQ true id))).
  { destruct HS as (_ & _ & HO). destruct (HO id) as (_ & _ & Hnd & _). exact Hnd. }
  (* after the release no event of this step queues w again *)
  assert (Hshape : exists e2, ev = EvReleased id t (Some w) :: e2 /\
            forall q q', replay (pick (o_qpol (s_obj s' id))) id q e2 = Some q' -> q' = q).
  { clear Hrep. destruct l as [i b|u i o|u st x|u|u| |u|u st|u p]; cbn [step] in Hst.
    - destruct (o_init (s_obj s i)); [discriminate|].
      destruct (obj_create (s_obj s i) b) as (o' & e). injection Hst as <- <-.
      destruct (e =? ERR_OK); cbn in Hin; intuition discriminate.
    - destruct ((0 <=? u) && (u <? n) && is_user (s_k s u) && runnable s u); [|discriminate].
      destruct o as [tmo| |tmo| |]; cbn [call] in Hst.
      + destruct (obj_lock n (s_now s) u (s_obj s i) (s_th s) tmo) as [((o' & th') & [e|d])|]; try discriminate;
          injection Hst as <- <-.
        * destruct (e =? ERR_OK); cbn in Hin; intuition discriminate.
        * cbn in Hin; intuition discriminate.
      + destruct (obj_unlock n (s_obj s i) (s_th s)) as [(((o' & th') & e) & x)|]; try discriminate;
          injection Hst as <- <-.
        destruct (e =? ERR_OK); cbn in Hin; destruct Hin as [Hin|Hin]; try discriminate; try contradiction.
        * injection Hin as -> -> ->. eexists. split; [reflexivity|]. cbn. congruence.
        * intuition discriminate.
      + destruct (obj_eventwait n (s_now s) u (s_obj s i) (s_th s) tmo) as [((o' & th') & [e|d])|]; try discriminate;
          injection Hst as <- <-; cbn in Hin; [intuition discriminate|].
        destruct Hin as [Hin|[Hin|[]]]; [|discriminate].
        injection Hin as -> -> ->. eexists. split; [reflexivity|]. cbn. congruence.
      + destruct (obj_eventsignal n (s_obj s i) (s_th s)) as (((o' & th') & e) & x).
        injection Hst as <- <-; cbn in Hin; intuition discriminate.
      + destruct (obj_eventbroadcast n (s_obj s i) (s_th s)) as [(((o' & th') & e) & x)|]; try discriminate;
          injection Hst as <- <-; cbn in Hin; intuition discriminate.
    - destruct ((0 <=? u) && (u <? n) && is_user (s_k s u) && runnable s u); [|discriminate].
      injection Hst as <- <-. contradiction.
    - destruct (is_other (s_k s u)); [|discriminate]. injection Hst as <- <-. contradiction.
    - destruct (runnable s u); [|discriminate]. unfold resume in Hst.
      destruct (s_k s u) as [|j d|j d|j rw|]; try discriminate.
      + destruct (obj_lock_resume n (s_now s) u (s_obj s j) d) as [(o' & e)|]; try discriminate.
        injection Hst as <- <-. destruct (e =? ERR_OK); cbn in Hin; intuition discriminate.
      + destruct (obj_eventwait_resume n (s_now s) u (s_obj s j) (s_th s) d) as [(((o' & th') & rw) & [e|d'])|];
          try discriminate; injection Hst as <- <-; cbn in Hin; intuition discriminate.
      + destruct (obj_lock_resume n (s_now s) u (s_obj s j) 0) as [(o' & e)|]; try discriminate.
        injection Hst as <- <-. cbn in Hin; intuition discriminate.
      + injection Hst as <- <-. contradiction.
    - injection Hst as <- <-. contradiction.
    - destruct ((t_state (s_th s u) =? ST_WAITING) && (t_wakeup (s_th s u) <=? s_now s)); [|discriminate].
      injection Hst as <- <-. contradiction.
    - injection Hst as <- <-. contradiction.
    - injection Hst as <- <-. contradiction. }
  destruct Hshape as (e2 & -> & Hrest).
  cbn [replay replay_step] in Hrep. rewrite Z.eqb_refl in Hrep.
  destruct (opt_is (Some w) (pick (o_qpol (s_obj s' id)) (QQ true id))); [|discriminate].
  apply Hrest in Hrep. rewrite Hrep.
  change (map fst) with keys. rewrite keys_leaves. apply leave_nodup. exact Hnd.
Qed.

Lemma release_reaches_waiter : forall n th now ls s evs l s1 ev ls2 s2 evs2 id t w d,
  0 < n -> Forall label_typed ls -> label_typed l -> Forall label_typed ls2 ->
  undisturbed_run n (boot th now) ls -> run n (boot th now) ls = Some (s, evs) ->
  undisturbed s l -> step n s l = Next s1 ev -> In (EvReleased id t (Some w)) ev ->
  (s_k s w = KLock id d \/ (d = 0 /\ exists r, s_k s w = KRelock id r)) ->
  undisturbed_run n s1 ls2 -> run n s1 ls2 = Some (s2, evs2) ->
  (d = 0 \/ s_now s2 < d) ->
  (first_action w evs2 = None /\ t_state (s_th s2 w) = ST_RUNNABLE) \/
  first_action w evs2 = Some (EvAcquired id w).
Proof.
  intros n th now ls s evs l s1 ev ls2 s2 evs2 id t w d Hn Ht1 Ht2 Ht3 Hu1 Hr1 Hu2 Hst Hin Hk Hu3 Hr3 Hd.
  destruct (run_Tr n ls _ _ s evs Hn (boot_SInv n th now Hn) Hu1 Ht1 Hr1) as (QQ & HTr & _).
  rename HTr into HS.
  destruct (step_Tr n s QQ l s1 ev Hn HS Hu2 Ht2 Hst) as (QQ1 & HTr1).
  assert (HS1 : SInv n s1 QQ1) by (destruct HTr1 as (HS1 & _); exact HS1).
  assert (Hkq : kq (s_k s w) = Some (true, id, d)).
  { destruct Hk as [Hk|(-> & r & Hk)]; rewrite Hk; reflexivity. }
  assert (Hi : o_init (s_obj s id) = true).
  { destruct HS as (_ & (_ & T2) & _). destruct (T2 _ _ _ _ Hkq) as (Hi & _). exact Hi. }
  assert (Hi1 : o_init (s_obj s1 id) = true).
  { destruct HTr1 as (_ & Hstat & _). destruct (Hstat id Hi) as (Hi1 & _). exact Hi1. }
  assert (Hact : acts l <> Some w).
  { intros Hact. destruct l as [i b|u i o|u st x|u|u| |u|u st|u p]; cbn [acts] in Hact; try discriminate;
      injection Hact as ->; cbn [step] in Hst.
    - destruct (is_user (s_k s w)) eqn:Hus.
      + apply is_user_kq in Hus. congruence.
      + rewrite andb_false_r in Hst. discriminate.
    - destruct (is_user (s_k s w)) eqn:Hus.
      + apply is_user_kq in Hus. congruence.
      + rewrite andb_false_r in Hst. discriminate.
    - destruct (runnable s w); [|discriminate]. unfold resume in Hst.
      destruct (s_k s w) as [|j d'|j d'|j rw|]; cbn [kq] in Hkq; try discriminate.
      + destruct (obj_lock_resume n (s_now s) w (s_obj s j) d') as [(o' & e)|]; try discriminate.
        injection Hst as <- <-. destruct (e =? ERR_OK); cbn in Hin; intuition discriminate.
      + destruct (obj_lock_resume n (s_now s) w (s_obj s j) 0) as [(o' & e)|]; try discriminate.
        injection Hst as <- <-. cbn in Hin; intuition discriminate. }
  destruct (step_other_thread n s l s1 ev w Hst Hact) as (Hk1 & _).
  apply (granted_next n ls2 s1 QQ1 s2 evs2 id w d Hn HS1 Hu3 Ht3 Hr3); [|exact Hd].
  split; [now rewrite Hk1|].
  exact (release_grants n s QQ l s1 ev QQ1 id t w HS HTr1 Hst Hin Hi1).
Qed.
