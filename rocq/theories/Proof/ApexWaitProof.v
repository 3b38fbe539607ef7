(** A thread that waits in a lock-object service keeps its place and its deadline until it goes on. *)
From Verif Require Import Model.Base Model.State Model.LockFifo Model.LockObj Model.LockSys Model.ArincSync Spec.ApexWaitSpec Proof.Tac.

Lemma set_state_wakeup : forall ths i st t, t_wakeup (set_state ths i st t) = t_wakeup (ths t).
Proof.
  intros. unfold set_state. destruct (Z.eq_dec t i) as [->|N]; [rewrite upd_same|rewrite upd_other by exact N]; reflexivity.
Qed.

Lemma block_other : forall ths u d t, u <> t -> t_wakeup (block_current ths u d t) = t_wakeup (ths t).
Proof.
  intros ths u d t N. unfold block_current, sched_lock_current_timed, sched_lock_current.
  destruct (0 <? d); [rewrite upd_other by congruence; reflexivity|apply set_state_wakeup].
Qed.

Lemma unlock_wakeup : forall n o ths o' ths' e w t, obj_unlock n o ths = Done (o', ths', e, w) ->
  t_wakeup (ths' t) = t_wakeup (ths t).
Proof.
  intros n o ths o' ths' e w t H. unfold obj_unlock in H.
  destruct (negb (o_init o)); [injection H as _ <- _ _; reflexivity|].
  destruct (negb (o_value o =? 0)).
  - destruct (fifo_is_empty _); [|discriminate]. destruct (_ =? LK_SEMAPHORE); [destruct (_ <? _)|];
      injection H as _ <- _ _; reflexivity.
  - destruct (fifo_is_empty _); [injection H as _ <- _ _; reflexivity|].
    destruct (fifo_dequeue n (o_fifo o)) as (f & y). injection H as _ <- _ _. apply set_state_wakeup.
Qed.

Lemma lock_wakeup : forall n now u o ths T o' ths' r t, u <> t -> obj_lock n now u o ths T = Done (o', ths', r) ->
  t_wakeup (ths' t) = t_wakeup (ths t).
Proof.
  intros n now u o ths T o' ths' r t N H. unfold obj_lock in H.
  destruct (negb (o_init o)); [injection H as _ <- _; reflexivity|].
  destruct (0 <? o_value o).
  - destruct (fifo_is_empty _); [|discriminate]. injection H as _ <- _. reflexivity.
  - destruct (fifo_enqueue _ _ _ _ _) as [(f & y)|]; [|discriminate]. injection H as _ <- _. now apply block_other.
Qed.

Lemma eventwait_wakeup : forall n now u o ths T o' ths' r t, u <> t -> obj_eventwait n now u o ths T = Done (o', ths', r) ->
  t_wakeup (ths' t) = t_wakeup (ths t).
Proof.
  intros n now u o ths T o' ths' r t N H. unfold obj_eventwait in H.
  destruct (negb (o_init o)); [injection H as _ <- _; reflexivity|].
  destruct (negb (o_kind o =? LK_EVENT)); [injection H as _ <- _; reflexivity|].
  destruct (obj_unlock n o ths) as [[[[o1 ths1] e] w]|] eqn:U; [|discriminate].
  pose proof (unlock_wakeup n o ths o1 ths1 e w t U) as E.
  destruct (negb (e =? 0)); [injection H as _ <- _; exact E|].
  destruct (fifo_enqueue _ _ _ _ _) as [(f & y)|]; [|discriminate]. destruct (negb (y =? 0)); [discriminate|].
  injection H as _ <- _. rewrite block_other by exact N. exact E.
Qed.

Lemma broadcast_wakeup : forall k n f ths f' ths' t, broadcast_loop k n f ths = Some (f', ths') ->
  t_wakeup (ths' t) = t_wakeup (ths t).
Proof.
  induction k as [|k IH]; intros n f ths f' ths' t H; cbn [broadcast_loop] in H; [discriminate|].
  destruct (fifo_is_empty f); [injection H as _ <-; reflexivity|].
  apply IH with (t := t) in H. rewrite H. apply set_state_wakeup.
Qed.

Definition kept (t : Z) (s s' : lsys) (ev : list event) : Prop :=
  s_k s' t = s_k s t /\ t_wakeup (s_th s' t) = t_wakeup (s_th s t) /\ s_now s <= s_now s' /\ ~ returns t ev.

Lemma other_in : forall u t e (ev : list event), u <> t -> (forall e', In (EvReturn t e') ev -> False) ->
  forall e', In (EvReturn t e') (ev ++ [EvReturn u e]) -> False.
Proof.
  intros u t e ev N H e' I. apply in_app_or in I. destruct I as [I|[I|[]]]; [exact (H e' I)|]. injection I as I _. contradiction.
Qed.

Ltac noret := intros (e' & I'); cbn in I';
  repeat match goal with
  | I : context [if ?b then _ else _] |- _ => destruct b; cbn in I
  | I : _ \/ _ |- _ => destruct I as [I|I]
  | I : False |- _ => contradiction
  end; try discriminate; try (injection I' as I' _; congruence).

Lemma call_kept : forall n s u id o s' ev t, u <> t -> call n s u id o = Next s' ev -> kept t s s' ev.
Proof.
  intros n s u id o s' ev t N H. unfold call in H. cbv zeta in H.
  destruct o as [T| |T| |].
  - destruct (obj_lock _ _ _ _ _ _) as [[[o1 th1] [e|d]]|] eqn:E; try discriminate; injection H as <- <-;
      (split; [unfold with_obj; cbn; rewrite upd_other by congruence; reflexivity|]);
      (split; [unfold with_obj; cbn; exact (lock_wakeup n _ u _ _ _ _ _ _ t N E)|]);
      (split; [cbn; lia|noret]).
  - destruct (obj_unlock _ _ _) as [[[[o1 th1] e] w]|] eqn:E; try discriminate; injection H as <- <-.
    split; [unfold with_obj; cbn; rewrite upd_other by congruence; reflexivity|].
    split; [unfold with_obj; cbn; exact (unlock_wakeup n _ _ _ _ _ _ t E)|]. split; [cbn; lia|noret].
  - destruct (obj_eventwait _ _ _ _ _ _) as [[[o1 th1] [e|d]]|] eqn:E; try discriminate; injection H as <- <-;
      (split; [unfold with_obj; cbn; rewrite upd_other by congruence; reflexivity|]);
      (split; [unfold with_obj; cbn; exact (eventwait_wakeup n _ u _ _ _ _ _ _ t N E)|]);
      (split; [cbn; lia|noret]).
  - destruct (obj_eventsignal n (s_obj s id) (s_th s)) as [[[o1 th1] e] w] eqn:E. injection H as <- <-.
    split; [unfold with_obj; cbn; rewrite upd_other by congruence; reflexivity|].
    split; [|split; [cbn; lia|noret]]. unfold with_obj. cbn [s_th]. unfold obj_eventsignal in E.
    destruct (fifo_is_empty _); [injection E as _ <- _ _; reflexivity|].
    destruct (fifo_dequeue _ _) as (f & y). injection E as _ <- _ _. apply set_state_wakeup.
  - destruct (obj_eventbroadcast n (s_obj s id) (s_th s)) as [[[[o1 th1] e] w]|] eqn:E; [|discriminate]. injection H as <- <-.
    split; [unfold with_obj; cbn; rewrite upd_other by congruence; reflexivity|].
    split; [|split; [cbn; lia|noret]]. unfold with_obj. cbn [s_th]. unfold obj_eventbroadcast in E.
    destruct (broadcast_loop _ _ _ _) as [(f & th2)|] eqn:B; [|discriminate]. injection E as _ <- _ _.
    exact (broadcast_wakeup _ _ _ _ _ _ t B).
Qed.

Lemma resume_kept : forall n s u s' ev t, u <> t -> resume n s u = Next s' ev -> kept t s s' ev.
Proof.
  intros n s u s' ev t N H. unfold resume in H.
  destruct (s_k s u) as [|id d|id d|id rw|] eqn:K; try discriminate.
  - destruct (obj_lock_resume _ _ _ _ _) as [[o1 e]|] eqn:E; [|discriminate]. injection H as <- <-.
    split; [unfold with_obj; cbn; rewrite upd_other by congruence; reflexivity|]. split; [reflexivity|]. split; [cbn; lia|noret].
  - destruct (obj_eventwait_resume _ _ _ _ _ _) as [[[[o1 th1] rw] [e|d']]|] eqn:E; try discriminate; injection H as <- <-;
      (split; [unfold with_obj; cbn; rewrite upd_other by congruence; reflexivity|]);
      (split; [|split; [cbn; lia|noret]]); unfold with_obj; cbn [s_th]; unfold obj_eventwait_resume in E; cbv zeta in E;
      (destruct (if negb (d =? 0) && (d <=? s_now s) then _ else _) as [[o2 r2]|] in E; [|discriminate]);
      (destruct (obj_lock _ _ _ _ _ _) as [[[o3 th3] [e3|d3]]|] eqn:L; try discriminate);
      injection E as _ <- _ _; exact (lock_wakeup n _ u _ _ _ _ _ _ t N L).
  - destruct (obj_lock_resume _ _ _ _ _) as [[o1 e]|] eqn:E; [|discriminate]. injection H as <- <-.
    split; [unfold with_obj; cbn; rewrite upd_other by congruence; reflexivity|]. split; [reflexivity|]. split; [cbn; lia|noret].
  - injection H as <- <-. split; [cbn; rewrite upd_other by congruence; reflexivity|]. split; [reflexivity|]. split; [cbn; lia|noret].
Qed.

Definition blocked (k : kont) : Prop := is_user k = false /\ is_other k = false.

Lemma step_kept : forall n s l s' ev t, blocked (s_k s t) -> l <> LResume t -> step n s l = Next s' ev -> kept t s s' ev.
Proof.
  intros n s l s' ev t (B1 & B2) N H. unfold step in H. destruct l as [id a|u id o|u st w|u|u| |u|u st|u p].
  - destruct (o_init _); [discriminate|]. destruct (obj_create _ _) as (o1 & e). injection H as <- <-.
    split; [reflexivity|]. split; [reflexivity|]. split; [cbn; lia|noret].
  - destruct (_ && _ && _ && _) eqn:C in H; [|discriminate]. apply (call_kept n s u id o s' ev t); [|exact H].
    intros ->. rewrite B1 in C. rewrite !andb_false_r in C. discriminate.
  - destruct (_ && _ && _ && _) eqn:C in H; [|discriminate].
    assert (u <> t) by (intros ->; rewrite B1 in C; rewrite !andb_false_r in C; discriminate).
    injection H as <- <-. split; [cbn; rewrite upd_other by congruence; reflexivity|].
    split; [cbn; rewrite upd_other by congruence; reflexivity|]. split; [cbn; lia|noret].
  - destruct (is_other (s_k s u)) eqn:C; [|discriminate]. injection H as <- <-.
    split; [reflexivity|]. split; [apply set_state_wakeup|]. split; [cbn; lia|noret].
  - destruct (runnable s u); [|discriminate]. apply (resume_kept n s u s' ev t); [congruence|exact H].
  - injection H as <- <-. split; [reflexivity|]. split; [reflexivity|]. split; [cbn; lia|noret].
  - destruct (_ && _) in H; [|discriminate]. injection H as <- <-.
    split; [reflexivity|]. split; [apply set_state_wakeup|]. split; [cbn; lia|noret].
  - injection H as <- <-. split; [reflexivity|]. split; [apply set_state_wakeup|]. split; [cbn; lia|noret].
  - injection H as <- <-. split; [reflexivity|]. split; [|split; [cbn; lia|noret]].
    cbn [s_th]. destruct (Z.eq_dec t u) as [->|X]; [rewrite upd_same|rewrite upd_other by exact X]; reflexivity.
Qed.

(** Where thread [t] is while its call has not returned. *)
Definition where_ (lk : bool) (t id d : Z) (now0 : Z) (s : lsys) : Prop :=
  now0 <= s_now s /\
  ((s_k s t = KLock id d /\ (lk = true /\ (0 < d -> t_wakeup (s_th s t) = d))) \/
   (s_k s t = KWait id d /\ (lk = false /\ (0 < d -> t_wakeup (s_th s t) = d))) \/
   (exists rw, s_k s t = KRelock id rw /\ lk = false /\ (rw = ERR_OK \/ (rw = ERR_TIMEOUT /\ d <> 0 /\ d <= s_now s)))).

Lemma where_blocked : forall lk t id d now0 s, where_ lk t id d now0 s -> blocked (s_k s t).
Proof. intros lk t id d now0 s (_ & [(E & _)|[(E & _)|(rw & E & _)]]); rewrite E; split; reflexivity. Qed.

Lemma label_eq : forall (l : label) t, {l = LResume t} + {l <> LResume t}.
Proof. intros l t. destruct l; try (right; discriminate). destruct (Z.eq_dec t0 t) as [->|N]; [left; reflexivity|right; congruence]. Qed.

Lemma resume_end : forall n s lk t id d now0 s' ev, where_ lk t id d now0 s -> resume n s t = Next s' ev ->
  where_ lk t id d now0 s' /\ ~ returns t ev \/
  (forall e, In (EvReturn t e) ev -> e = ERR_TIMEOUT -> d <> 0 /\ d <= s_now s).
Proof.
  intros n s lk t id d now0 s' ev (Hn & Hw) H. unfold resume in H. destruct Hw as [(E & Ew)|[(E & Ew)|(rw & E & Er)]]; rewrite E in H.
  - right. unfold obj_lock_resume in H.
    destruct (negb (d =? 0) && (d <=? s_now s)) eqn:D; intros e I ->; [lia|].
    injection H as <- <-. cbn in I. destruct I as [I|[I|[]]]; discriminate.
  - unfold obj_eventwait_resume in H. cbv zeta in H. destruct (negb (d =? 0) && (d <=? s_now s)) eqn:D.
    + destruct (fifo_remove n (o_event (s_obj s id)) t) as [(f & y)|]; [|discriminate].
      destruct (obj_lock _ _ _ _ _ _) as [[[o3 th3] [e3|d3]]|] eqn:L; try discriminate; injection H as <- <-.
      * right. intros e _ _. lia.
      * left. split; [|noret]. split; [exact Hn|]. right. right. exists ERR_TIMEOUT.
        unfold with_obj. cbn. rewrite upd_same. split; [reflexivity|]. split; [exact (proj1 Ew)|]. right. split; [reflexivity|]. lia.
    + destruct (obj_lock _ _ _ _ _ _) as [[[o3 th3] [e3|d3]]|] eqn:L; try discriminate; injection H as <- <-.
      * right. intros e I ->. cbn in I. destruct I as [I|[I|[I|[]]]]; try discriminate. exfalso.
        assert (e3 <> ERR_TIMEOUT).
        { unfold obj_lock in L. destruct (negb (o_init _)); [injection L as _ _ <-; discriminate|].
          destruct (0 <? _); [destruct (fifo_is_empty _); [injection L as _ _ <-; discriminate|discriminate]|].
          destruct (fifo_enqueue _ _ _ _ _) as [(f & y)|]; discriminate. }
        destruct (negb (e3 =? ERR_OK)); injection I as I; [contradiction|discriminate].
      * left. split; [|noret]. split; [exact Hn|]. right. right. exists ERR_OK.
        unfold with_obj. cbn. rewrite upd_same. split; [reflexivity|]. split; [exact (proj1 Ew)|]. left. reflexivity.
  - right. unfold obj_lock_resume in H. change (negb (0 =? 0)) with false in H. cbn [andb] in H. injection H as <- <-.
    intros e I ->. cbn in I. destruct I as [I|[I|[]]]; try discriminate. injection I as ->.
    destruct Er as (_ & [X|(_ & X)]); [discriminate|exact X].
Qed.

Lemma where_step : forall n s l s' ev lk t id d now0, where_ lk t id d now0 s -> step n s l = Next s' ev -> ~ returns t ev ->
  where_ lk t id d now0 s'.
Proof.
  intros n s l s' ev lk t id d now0 Hw H N. destruct (label_eq l t) as [->|L].
  - cbn [step] in H. destruct (runnable s t); [|discriminate].
    destruct Hw as (Hn & Hw). unfold resume in H. destruct Hw as [(E & Ew)|[(E & Ew)|(rw & E & Er)]]; rewrite E in H.
    + exfalso. apply N. destruct (obj_lock_resume _ _ _ _ _) as [[o1 e]|]; [|discriminate]. injection H as _ <-.
      exists e. right. left. reflexivity.
    + destruct (obj_eventwait_resume _ _ _ _ _ _) as [[[[o1 th1] rw] [e|d']]|] eqn:R; try discriminate.
      * exfalso. apply N. injection H as _ <-. exists e. right. right. left. reflexivity.
      * assert (X : resume n s t = Next s' ev) by (unfold resume; rewrite E, R; exact H).
        destruct (resume_end n s lk t id d now0 s' ev (conj Hn (or_intror (or_introl (conj E Ew)))) X) as [(A & _)|A]; [exact A|].
        injection H as <- <-. split; [exact Hn|]. right. right. exists rw.
        unfold with_obj. cbn. rewrite upd_same. split; [reflexivity|]. split; [exact (proj1 Ew)|].
        unfold obj_eventwait_resume in R. cbv zeta in R. destruct (negb (d =? 0) && (d <=? s_now s)) eqn:D.
        { destruct (fifo_remove _ _ _) as [(f & y)|]; [|discriminate].
          destruct (obj_lock _ _ _ _ _ _) as [[[o3 th3] [e3|d3]]|]; try discriminate. injection R as _ _ <- _.
          right. split; [reflexivity|]. lia. }
        { destruct (obj_lock _ _ _ _ _ _) as [[[o3 th3] [e3|d3]]|]; try discriminate. injection R as _ _ <- _.
          left. reflexivity. }
    + exfalso. apply N. destruct (obj_lock_resume _ _ _ _ _) as [[o1 e]|]; [|discriminate]. injection H as _ <-.
      eexists. right. left. reflexivity.
  - destruct (step_kept n s l s' ev t (where_blocked _ _ _ _ _ _ Hw) L H) as (A & B & C & _).
    destruct Hw as (Hn & Hw). split; [lia|]. rewrite A, B. destruct Hw as [Hw|[Hw|(rw & E & Er)]]; auto.
    right. right. exists rw. destruct Er as (E0 & Er). split; [exact E|]. split; [exact E0|]. destruct Er as [Er|(E1 & E2 & E3)]; [left; exact Er|right].
    split; [exact E1|]. split; [exact E2|]. lia.
Qed.

Lemma where_run : forall n ls s s' ev lk t id d now0, where_ lk t id d now0 s -> run n s ls = Some (s', ev) -> ~ returns t ev ->
  where_ lk t id d now0 s'.
Proof.
  intros n ls. induction ls as [|l ls IH]; intros s s' ev lk t id d now0 Hw H N; cbn [run] in H.
  - injection H as <- <-. exact Hw.
  - destruct (step n s l) as [s1 e1| |] eqn:S1; [|exact (IH s s' ev lk t id d now0 Hw H N)|discriminate].
    destruct (run n s1 ls) as [[s2 e2]|] eqn:R; [|discriminate]. injection H as <- <-.
    assert (N1 : ~ returns t e1) by (intros (e & I); apply N; exists e; apply in_or_app; left; exact I).
    assert (N2 : ~ returns t e2) by (intros (e & I); apply N; exists e; apply in_or_app; right; exact I).
    exact (IH s1 s2 e2 lk t id d now0 (where_step n s l s1 e1 lk t id d now0 Hw S1 N1) R N2).
Qed.

(** [timeout_of o]: the time-out of a call that waits. *)
Definition timeout_of (o : lop) : Z := match o with OpLock T | OpWait T => T | _ => 0 end.
Definition is_lock (o : lop) : bool := match o with OpLock _ => true | _ => false end.

(** The call starts by waiting. *)
Lemma call_where : forall n s t id o s0 ev0, step n s (LCall t id o) = Next s0 ev0 -> ~ returns t ev0 ->
  where_ (is_lock o) t id (deadline_of (timeout_of o) (s_now s)) (s_now s) s0.
Proof.
  intros n s t id o s0 ev0 H N. cbn [step] in H. destruct (_ && _ && _ && _) in H; [|discriminate].
  unfold call in H. cbv zeta in H.
  assert (BW : forall ths d, 0 < d -> t_wakeup (block_current ths t d t) = d).
  { intros ths d D. unfold block_current, sched_lock_current_timed. replace (0 <? d) with true by lia. rewrite upd_same. reflexivity. }
  destruct o as [T| |T| |].
  - unfold obj_lock in H.
    destruct (negb (o_init _)).
    { exfalso. apply N. injection H as _ <-. eexists. left. reflexivity. }
    destruct (0 <? o_value _).
    { destruct (fifo_is_empty _); [|discriminate]. exfalso. apply N. injection H as _ <-. eexists. right. left. reflexivity. }
    destruct (fifo_enqueue _ _ _ _ _) as [(f & y)|]; [|discriminate]. injection H as <- <-.
    split; [cbn; lia|]. left. unfold with_obj. cbn [s_k s_th]. rewrite upd_same. split; [reflexivity|]. split; [reflexivity|]. apply BW.
  - exfalso. apply N. destruct (obj_unlock _ _ _) as [[[[o1 th1] e] w]|]; [|discriminate]. injection H as _ <-.
    eexists. apply in_or_app. right. left. reflexivity.
  - unfold obj_eventwait in H.
    destruct (negb (o_init _)).
    { exfalso. apply N. injection H as _ <-. eexists. left. reflexivity. }
    destruct (negb (o_kind _ =? LK_EVENT)).
    { exfalso. apply N. injection H as _ <-. eexists. left. reflexivity. }
    destruct (obj_unlock _ _ _) as [[[[o1 th1] e] w]|]; [|discriminate]. destruct (negb (e =? 0)).
    { exfalso. apply N. injection H as _ <-. eexists. left. reflexivity. }
    destruct (fifo_enqueue _ _ _ _ _) as [(f & y)|]; [|discriminate]. destruct (negb (y =? 0)); [discriminate|].
    injection H as <- <-. split; [cbn; lia|]. right. left. unfold with_obj. cbn [s_k s_th]. rewrite upd_same.
    split; [reflexivity|]. split; [reflexivity|]. apply BW.
  - exfalso. apply N. destruct (obj_eventsignal _ _ _) as [[[o1 th1] e] w]. injection H as _ <-.
    eexists. right. left. reflexivity.
  - exfalso. apply N. destruct (obj_eventbroadcast _ _ _) as [[[[o1 th1] e] w]|]; [|discriminate]. injection H as _ <-.
    eexists. right. left. reflexivity.
Qed.

Lemma pending_where : forall n s t id o s1, pending n s t id o s1 ->
  where_ (is_lock o) t id (deadline_of (timeout_of o) (s_now s)) (s_now s) s1.
Proof.
  intros n s t id o s1 (s0 & ev0 & ls & ev1 & H & R & N).
  assert (N1 : ~ returns t ev0) by (intros (e & I); apply N; exists e; apply in_or_app; left; exact I).
  assert (N2 : ~ returns t ev1) by (intros (e & I); apply N; exists e; apply in_or_app; right; exact I).
  exact (where_run n ls s0 s1 ev1 _ t id _ _ (call_where n s t id o s0 ev0 H N1) R N2).
Qed.

Lemma pending_ends : forall n s t id o s1 e, pending n s t id o s1 -> ends n t s1 e -> e = ERR_TIMEOUT ->
  deadline_of (timeout_of o) (s_now s) <> 0 /\ deadline_of (timeout_of o) (s_now s) <= s_now s1.
Proof.
  intros n s t id o s1 e Hp (l & s2 & ev & H & I) E. pose proof (pending_where n s t id o s1 Hp) as W.
  destruct (label_eq l t) as [->|L].
  - cbn [step] in H. destruct (runnable s1 t); [|discriminate].
    destruct (resume_end n s1 _ t id _ _ s2 ev W H) as [(_ & A)|A]; [exfalso; apply A; exists e; exact I|exact (A e I E)].
  - exfalso. destruct (step_kept n s1 l s2 ev t (where_blocked _ _ _ _ _ _ W) L H) as (_ & _ & _ & A). apply A. exists e. exact I.
Qed.

(** While the thread waits for its time-out, it can be woken exactly from the deadline on. *)
Lemma pending_expires : forall n s t id o s1, pending n s t id o s1 -> 0 < deadline_of (timeout_of o) (s_now s) ->
  t_state (s_th s1 t) = ST_WAITING -> is_lock o = true \/ (forall rw, s_k s1 t <> KRelock id rw) ->
  (expires n t s1 <-> deadline_of (timeout_of o) (s_now s) <= s_now s1).
Proof.
  intros n s t id o s1 Hp D Hs Hk. pose proof (pending_where n s t id o s1 Hp) as (_ & W).
  assert (E : t_wakeup (s_th s1 t) = deadline_of (timeout_of o) (s_now s)).
  { destruct W as [(_ & _ & W)|[(_ & _ & W)|(rw & W & L & _)]]; [exact (W D)|exact (W D)|].
    destruct Hk as [Hk|Hk]; [congruence|contradiction (Hk rw W)]. }
  unfold expires. cbn [step]. rewrite Hs, E. change (ST_WAITING =? ST_WAITING) with true. cbn [andb]. split.
  - intros (s2 & ev & H). destruct (_ <=? _) eqn:L in H; [lia|discriminate].
  - intros L. replace (_ <=? _) with true by lia. eauto.
Qed.
