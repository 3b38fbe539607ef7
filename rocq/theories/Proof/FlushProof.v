(** The times at which ports are flushed. *)
From Verif Require Import Model.Base Model.State Model.LockFifo Model.LockObj Model.LockSys Model.Sched
  Model.Kernel Spec.SchedSpec Spec.KernelSpec Spec.FlushSpec Proof.Tac Proof.SchedProof Proof.KernelBasic
  Proof.FairProof Proof.ClockProof Proof.SlotProof.

(** The variables of the partition scheduler and the two flush marks. *)
Definition marks := (clock * Z * Z)%type.
Definition marks_of (s : kstate) : marks := (clock_of s, k_major s, k_flush s).

Definition next_marks (cfg : config) (m : marks) : marks * flush_act :=
  let '(k, mj, fl) := m in
  if c_nparts cfg <=? 1 then (m, NoFlush)
  else if ck_deadline k <=? ck_now k then
    match c_flush cfg with
    | FlushNone => (next_clock cfg k, mj, fl, NoFlush)
    | FlushPeriod p =>
        if fl <=? ck_now k then (next_clock cfg k, mj, u64 (fl + p), FlushAll) else (next_clock cfg k, mj, fl, NoFlush)
    | FlushWindows => (next_clock cfg k, mj, fl, FlushPart (ck_cp k))
    | FlushMajor =>
        if mj <=? ck_now k then (next_clock cfg k, u64 (mj + c_major cfg), fl, FlushAll)
        else (next_clock cfg k, mj, fl, NoFlush)
    end
  else (m, NoFlush).

Lemma elect_partition_marks : forall cfg s s1 np f, elect_partition cfg s = (s1, np, f) ->
  (marks_of (set_k_cp np s1), f) = next_marks cfg (marks_of s).
Proof.
  intros cfg s s1 np f H. unfold elect_partition in H. unfold next_marks, marks_of, next_clock, clock_of; cbn.
  destruct (c_nparts cfg <=? 1). { injection H as <- <- <-. reflexivity. }
  destruct (k_deadline s <=? k_now s). 2:{ injection H as <- <- <-. reflexivity. }
  destruct (c_flush cfg); [| destruct (k_major s <=? k_now s) | destruct (k_flush s <=? k_now s) |];
    injection H as <- <- <-; reflexivity.
Qed.
Lemma rest_marks : forall s s', same_rest s s' -> marks_of s' = marks_of s.
Proof. intros s s' (A & _ & _ & _ & B & C). unfold marks_of. congruence. Qed.

Lemma global_sched_marks : forall cfg c s s' f, global_sched cfg c s = Some (s', f) ->
  (marks_of s', f) = next_marks cfg (marks_of s).
Proof.
  intros cfg c s s' f H. destruct (global_sched_shape _ _ _ _ _ H) as (s1 & np & s3 & E & E3 & E4).
  apply elect_partition_marks in E. apply global_sched_thread_rest in E3. apply global_sched_others_rest in E4.
  pose proof (rest_marks _ _ (same_rest_trans _ _ _ E3 E4)) as R. rewrite R. exact E.
Qed.

Definition marks_same (s s' : kstate) (f : flush_act) : Prop := marks_of s' = marks_of s /\ f = NoFlush.
Definition marks_step (cfg : config) (s s' : kstate) (f : flush_act) : Prop :=
  marks_same s s' f \/ (marks_of s', f) = next_marks cfg (marks_of s).

Lemma then_sched_marks : forall cfg c s e s' e' f, then_sched cfg c s e = Some (s', e', f) -> marks_same s s' f.
Proof.
  intros cfg c s e s' e' f H. unfold then_sched in H.
  destruct (sched_thread cfg c s) as [s1|] eqn:E; [|discriminate]. injection H as <- _ <-.
  apply sched_thread_rest, rest_marks in E. now split.
Qed.
Lemma then_global_marks : forall cfg c s e s' e' f, then_global cfg c s e = Some (s', e', f) ->
  (marks_of s', f) = next_marks cfg (marks_of s).
Proof.
  intros cfg c s e s' e' f H. unfold then_global in H.
  destruct (global_sched cfg c s) as [[s1 f1]|] eqn:E; [|discriminate]. injection H as <- _ <-.
  now apply global_sched_marks in E.
Qed.
Lemma schedule_one_marks : forall cfg c d s s', schedule_one_proc cfg c d s = Some s' -> marks_of s' = marks_of s.
Proof.
  intros cfg c d s s' H. unfold schedule_one_proc in H.
  destruct (1 <? c_nprocs cfg); [destruct (d =? c)|destruct (d =? 0)]; try discriminate.
  - now apply sched_thread_rest, rest_marks in H.
  - now injection H as <-.
  - now apply sched_thread_rest, rest_marks in H.
Qed.
Lemma thread_create_marks : forall cfg a pid s s' e id, thread_create cfg a pid s = Some (s', e, id) ->
  marks_of s' = marks_of s.
Proof.
  intros cfg a pid s s' e id H. unfold thread_create in H.
  destruct (_ && _). { now injection H as <- _ _. }
  destruct (_ <=? _). { now injection H as <- _ _. }
  destruct (get_proc_real_id _ _) as [aff|]; [|discriminate].
  destruct (_ && _); [|discriminate]. injection H as <- _ _.
  destruct (_ && _); reflexivity.
Qed.
Lemma setup_main_marks : forall cfg pid s s', setup_main_thread cfg pid s = Some s' -> marks_of s' = marks_of s.
Proof.
  intros cfg pid s s' H. unfold setup_main_thread in H.
  destruct (thread_create _ _ _ _) as [[[s1 e] id]|] eqn:E; [|discriminate]. injection H as <-.
  apply thread_create_marks in E. exact E.
Qed.
Lemma reinit_marks : forall cfg c pid s s', partition_reinit cfg c pid s = Some s' -> marks_of s' = marks_of s.
Proof. intros cfg c pid s s' H. unfold partition_reinit in H. apply setup_main_marks in H. exact H. Qed.

Ltac same_ret H := unfold ret in H; injection H as <- ? <-; left; split; reflexivity.

Lemma set_mode_marks : forall cfg c m s s' e f, set_mode cfg c m s = Some (s', e, f) -> marks_step cfg s s' f.
Proof.
  intros cfg c m s s' e f H. unfold set_mode in H. unfold marks_step.
  destruct (m =? PM_NORMAL).
  { destruct (_ =? PM_IDLE); [same_ret H|]. destruct (negb _); [same_ret H|].
    apply then_global_marks in H. now right. }
  destruct (m =? PM_STOPPED).
  { destruct (_ || _); [same_ret H|]. apply then_global_marks in H. now right. }
  destruct (_ || _); [|same_ret H].
  destruct (_ && _); [same_ret H|]. destruct (_ || _); [same_ret H|].
  destruct (partition_reinit _ _ _ _) as [s1|] eqn:E; [|discriminate].
  apply reinit_marks in E. apply then_global_marks in H. right. rewrite H, E. reflexivity.
Qed.

Lemma lock_service_marks : forall cfg c id o s s' e f, lock_service cfg c id o s = Some (s', e, f) ->
  marks_same s s' f.
Proof.
  intros cfg c id o s s' e f H. unfold lock_service in H. destruct o.
  - destruct (obj_lock _ _ _ _ _ _) as [[[ob th] [e'|d]]|]; [| |discriminate].
    + now injection H as <- _ <-.
    + apply then_sched_marks in H. exact H.
  - destruct (obj_unlock _ _ _) as [[[[ob th] e'] [w|]]|]; [| |discriminate].
    + destruct (schedule_one_proc _ _ _ _) as [s1|] eqn:E; [|discriminate].
      injection H as <- _ <-. apply schedule_one_marks in E. now split.
    + now injection H as <- _ <-.
  - destruct (obj_eventwait _ _ _ _ _ _) as [[[ob th] [e'|d]]|]; [| |discriminate].
    + now injection H as <- _ <-.
    + apply then_sched_marks in H. exact H.
  - destruct (obj_eventsignal _ _ _) as [[[ob th] e'] [w|]].
    + destruct (schedule_one_proc _ _ _ _) as [s1|] eqn:E; [|discriminate].
      injection H as <- _ <-. apply schedule_one_marks in E. now split.
    + now injection H as <- _ <-.
  - destruct (obj_eventbroadcast _ _ _) as [[[[ob th] e'] [|]]|]; [| |discriminate].
    + unfold schedule_every_proc in H. destruct (sched_thread _ _ _) as [s1|] eqn:E; [|discriminate].
      injection H as <- _ <-. apply sched_thread_rest, rest_marks in E. now split.
    + now injection H as <- _ <-.
Qed.

Lemma lock_continue_marks : forall cfg c s s' e f, lock_continue cfg c s = Some (s', e, f) -> marks_same s s' f.
Proof.
  intros cfg c s s' e f H. unfold lock_continue in H. destruct (k_k s (k_cur s c)).
  - now injection H as <- _ <-.
  - destruct (obj_lock_resume _ _ _ _ _) as [[ob e']|]; [|discriminate]. now injection H as <- _ <-.
  - destruct (obj_eventwait_resume _ _ _ _ _ _) as [[[[ob th] rw] [e'|d]]|]; [| |discriminate].
    + now injection H as <- _ <-.
    + apply then_sched_marks in H. exact H.
  - destruct (obj_lock_resume _ _ _ _ _) as [[ob e']|]; [|discriminate]. now injection H as <- _ <-.
  - now injection H as <- _ <-.
Qed.

Lemma activate_error_marks : forall c s, marks_of (activate_error_thread c s) = marks_of s.
Proof. intros. unfold activate_error_thread. now destruct (_ =? 0). Qed.

Ltac inv_no H := match type of H with
  | match ?x with Some _ => _ | None => None end = Some _ =>
      let E := fresh "E" in destruct x as [[[? ?] ?]|] eqn:E; [|discriminate H]; injection H as <- <- <- <-
  end.
Ltac nop E := unfold ret in E; injection E as <- _ <-; left; split; reflexivity.

Lemma service_marks : forall cfg c v s s' e f id, service cfg c v s = Some (s', e, f, id) -> marks_step cfg s s' f.
Proof.
  intros cfg c v s s' e f id H. unfold service in H. cbv zeta in H.
  destruct v.
  - destruct (thread_create _ _ _ _) as [[[s1 e1] i1]|] eqn:E; [|discriminate].
    injection H as <- _ <- _. apply thread_create_marks in E. left. now split.
  - inv_no H. apply then_sched_marks in E. left. exact E.
  - inv_no H. apply then_sched_marks in E. left. exact E.
  - inv_no H. apply then_sched_marks in E. left. exact E.
  - inv_no H. apply then_sched_marks in E. left. exact E.
  - destruct (in_bounds s id0).
    + destruct (get_proc_partition_id _ _); [|discriminate]. inv_no H. nop E.
    + inv_no H. nop E.
  - destruct (in_bounds s id0).
    + destruct (_ && _).
      * inv_no H. apply then_global_marks in E. right. exact E.
      * inv_no H. nop E.
    + inv_no H. nop E.
  - destruct (in_bounds s id0); inv_no H.
    + apply then_global_marks in E. right. exact E.
    + nop E.
  - destruct (in_bounds s id0); inv_no H.
    + apply then_global_marks in E. right. exact E.
    + nop E.
  - destruct (_ && _); inv_no H; nop E.
  - destruct (negb _).
    + inv_no H. nop E.
    + destruct (in_bounds _ _); inv_no H.
      * apply then_global_marks in E. right. exact E.
      * nop E.
  - destruct (negb _).
    + inv_no H. nop E.
    + destruct (in_bounds _ _); inv_no H.
      * apply then_global_marks in E. right. exact E.
      * nop E.
  - inv_no H. unfold set_mode_current in E. destruct (_ && _).
    + nop E.
    + now apply set_mode_marks in E.
  - destruct (thread_create _ _ _ _) as [[[s1 e1] i1]|] eqn:E; [|discriminate].
    destruct (e1 =? ERR_OK); [|discriminate]. injection H as <- _ <- _.
    apply thread_create_marks in E. left. split; [|reflexivity]. rewrite activate_error_marks. exact E.
  - inv_no H. unfold ret in E. injection E as <- _ <-. left. split; [apply activate_error_marks|reflexivity].
  - destruct (lockobj_create s a) as [[s1 e1] i1] eqn:E. injection H as <- _ <- _.
    unfold lockobj_create in E. left. split; [|reflexivity].
    destruct (_ && _). { now injection E as <- _ _. }
    destruct (find_free _ _ _). 2:{ now injection E as <- _ _. }
    destruct (obj_create _ _). now injection E as <- _ _.
  - inv_no H. unfold lock_wrapper in E.
    destruct (_ <? _); [nop E|]. destruct (_ <=? _); [nop E|]. destruct (negb _); [nop E|].
    destruct o. 2:{ nop E. }
    apply lock_service_marks in E. now left.
Qed.

Definition act (f : flush_act) : list flush_act := match f with NoFlush => [] | _ => [f] end.

Lemma kstep_marks : forall cfg s l s' ev, kstep cfg s l = KNext s' ev ->
  match l with
  | KTick d => 0 < d /\ s' = set_k_now (k_now s + d) s /\ flushes ev = []
  | KTimer c => exists f, (marks_of s', f) = next_marks cfg (marks_of s) /\ flushes ev = act f
  | _ => exists f, marks_step cfg s s' f /\ flushes ev = act f
  end.
Proof.
  intros cfg s l s' ev H. destruct l; cbn in H.
  - destruct (Z.ltb_spec 0 d); [|discriminate]. injection H as <- <-. auto.
  - destruct (valid_proc cfg c); [|discriminate].
    destruct (global_sched cfg c s) as [[s1 f]|] eqn:E; [|discriminate]. injection H as <- <-.
    exists f. split; [now apply global_sched_marks in E|now destruct f].
  - destruct (valid_proc cfg c); [|discriminate].
    destruct (sched_thread cfg c s) as [s1|] eqn:E; [|discriminate]. injection H as <- <-.
    exists NoFlush. split; [|reflexivity]. left. split; [|reflexivity]. now apply sched_thread_rest, rest_marks in E.
  - destruct (_ && _); [|discriminate].
    destruct (service cfg c v s) as [[[[s1 e] f] id]|] eqn:E; [|discriminate]. injection H as <- <-.
    exists f. split; [now apply service_marks in E|now destruct f].
  - destruct (_ && _); [|discriminate].
    destruct (lock_continue cfg c s) as [[[s1 e] f]|] eqn:E; [|discriminate]. injection H as <- <-.
    exists f. split; [left; now apply lock_continue_marks in E|now destruct f].
Qed.
(** In short: a step is a step of time, an election of the partition, or neither. *)
Lemma kstep_three : forall cfg s l s' ev, kstep cfg s l = KNext s' ev ->
  (exists d, l = KTick d /\ 0 < d /\ s' = set_k_now (k_now s + d) s /\ flushes ev = []) \/
  (exists f, (marks_of s', f) = next_marks cfg (marks_of s) /\ flushes ev = act f) \/
  (marks_of s' = marks_of s /\ flushes ev = [] /\ (forall d, l <> KTick d) /\ (forall c, l <> KTimer c)).
Proof.
  intros cfg s l s' ev H. apply kstep_marks in H. destruct l.
  - left. exists d. tauto.
  - right. left. exact H.
  - destruct H as (f & [[A ->]|A] & B); right; [right|left].
    + repeat split; try assumption; intros ? X; discriminate X.
    + exists f. auto.
  - destruct H as (f & [[A ->]|A] & B); right; [right|left].
    + repeat split; try assumption; intros ? X; discriminate X.
    + exists f. auto.
  - destruct H as (f & [[A ->]|A] & B); right; [right|left].
    + repeat split; try assumption; intros ? X; discriminate X.
    + exists f. auto.
Qed.

Lemma flushes_app : forall a b, flushes (a ++ b) = flushes a ++ flushes b.
Proof. intros. unfold flushes. apply flat_map_app. Qed.

Lemma init_partitions_marks : forall n cfg i ti li s s', init_partitions n cfg i ti li s = Some s' -> marks_of s' = marks_of s.
Proof.
  induction n as [|n IH]; intros cfg i ti li s s' H; cbn in H; [now injection H as <-|].
  destruct (init_partition cfg i ti li s) as [s1|] eqn:E; [|discriminate]. apply IH in H. rewrite H.
  unfold init_partition in E. destruct (get_proc_real_id _ _); [|discriminate].
  apply setup_main_marks in E. rewrite E. reflexivity.
Qed.
Lemma kboot_marks : forall cfg s, kboot cfg = Some s ->
  marks_of s = (mkClock (c_alloc cfg 0) 0 (c_slot cfg 0) 0, c_major cfg, 0).
Proof.
  intros cfg s H. unfold kboot in H. destruct (init_partitions _ _ _ _ _ _) as [s1|] eqn:E; [|discriminate].
  injection H as <-. apply init_partitions_marks in E. unfold marks_of, clock_of in *. cbn in *. congruence.
Qed.

(** ** Invariants of histories, of the marks and the flushes so far *)
Lemma krun_marks : forall (P : marks -> list flush_act -> Prop) cfg,
  (forall k mj fl l d, P (k, mj, fl) l -> 0 < d ->
     P (mkClock (ck_cp k) (ck_slot k) (ck_deadline k) (ck_now k + d), mj, fl) l) ->
  (forall m l m' f, P m l -> (m', f) = next_marks cfg m -> P m' (l ++ act f)) ->
  forall ls s s' evs l, P (marks_of s) l -> krun cfg s ls = Some (s', evs) ->
    P (marks_of s') (l ++ flushes evs).
Proof.
  intros P cfg Ht Hs. induction ls as [|a ls IH]; intros s s' evs l Hp H; cbn [krun] in H.
  - injection H as <- <-. now rewrite app_nil_r.
  - destruct (kstep cfg s a) as [s1 ev| |] eqn:E; [| |discriminate].
    + destruct (krun cfg s1 ls) as [[s2 ev2]|] eqn:R; [|discriminate]. injection H as <- <-.
      rewrite flushes_app, app_assoc. apply IH with s1; [|exact R].
      apply kstep_three in E. destruct E as [(d & _ & Hd & -> & ->)|[(f & E & ->)|(E & -> & _)]].
      * rewrite app_nil_r. exact (Ht (clock_of s) _ _ _ d Hp Hd).
      * exact (Hs _ _ _ _ Hp E).
      * rewrite app_nil_r, E. exact Hp.
    + now apply IH with s.
Qed.

(** ... and of timely histories; [t] is an instant since the last timer interrupt. *)
Lemma krun_marks_timely : forall (P : Z -> marks -> list flush_act -> Prop) cfg w,
  supported cfg ->
  (forall t k mj fl l d, P t (k, mj, fl) l -> 0 < d ->
     P t (mkClock (ck_cp k) (ck_slot k) (ck_deadline k) (ck_now k + d), mj, fl) l) ->
  (forall t k mj fl l m' f, P t (k, mj, fl) l -> t <= ck_now k ->
     (forall i, 0 <= i < c_nslots cfg -> ck_now k - t <= c_slot cfg i) -> ck_now k + w < 2 ^ 64 ->
     (m', f) = next_marks cfg (k, mj, fl) -> P (ck_now k) m' (l ++ act f)) ->
  forall ls s s' evs l g t, P t (marks_of s) l -> k_now s - g <= t <= k_now s -> 0 <= g ->
    (forall i, 0 <= i < c_nslots cfg -> g <= c_slot cfg i) ->
    timely cfg g ls -> krun cfg s ls = Some (s', evs) -> k_now s' + w < 2 ^ 64 ->
    exists t', k_now s' - since_timer g ls <= t' <= k_now s' /\ P t' (marks_of s') (l ++ flushes evs).
Proof.
  intros P cfg w W Ht Hs. induction ls as [|a ls IH]; intros s s' evs l g t Hp Hb Hg Hgs Hti Hrun Hw.
  - cbn in Hrun. injection Hrun as <- <-. exists t. cbn [since_timer]. rewrite app_nil_r. auto.
  - cbn [krun] in Hrun.
    destruct (kstep cfg s a) as [s1 ev| |] eqn:E; [| |discriminate].
    + destruct (krun cfg s1 ls) as [[s2 ev2]|] eqn:R; [|discriminate]. injection Hrun as <- <-.
      pose proof (krun_now _ _ _ _ _ R) as Hn2. pose proof (kstep_now _ _ _ _ _ E) as Hn1.
      rewrite flushes_app, app_assoc.
      pose proof E as E1. apply kstep_three in E1.
      destruct E1 as [(d & -> & Hd & -> & ->)|[(f & E1 & ->)|(E1 & -> & Nt & Nc)]].
      * cbn [timely since_timer] in *. destruct Hti as (_ & Hgd & Hti). rewrite app_nil_r.
        apply IH with (6 := R) (t := t); try assumption; try lia.
        -- exact (Ht _ _ _ _ _ d Hp Hd).
        -- cbn. lia.
      * assert (En : k_now s1 = k_now s).
        { assert (X : ck_now (fst (fst (fst (marks_of s1, f)))) = k_now s); [|exact X]. rewrite E1.
          unfold next_marks. cbn [marks_of]. destruct (c_nparts cfg <=? 1); [reflexivity|].
          destruct (_ <=? _); [|reflexivity].
          destruct (c_flush cfg); [|destruct (_ <=? _)|destruct (_ <=? _)|]; exact (next_clock_now cfg (clock_of s)). }
        assert (Hp1 : P (k_now s) (marks_of s1) (l ++ act f)).
        { apply (Hs t (clock_of s) (k_major s) (k_flush s)); try assumption.
          - cbn. lia.
          - intros i Hi. specialize (Hgs i Hi). cbn. lia.
          - cbn. lia. }
        destruct a as [d|c|c|c v|c]; cbn [timely since_timer] in *.
        -- exfalso. cbn in E. destruct (Z.ltb_spec 0 d); [|discriminate]. injection E as <- _. cbn in En. lia.
        -- destruct Hti as (_ & Hti). apply IH with (6 := R) (t := k_now s); try assumption; try lia.
        -- apply IH with (6 := R) (t := k_now s); try assumption; lia.
        -- apply IH with (6 := R) (t := k_now s); try assumption; lia.
        -- apply IH with (6 := R) (t := k_now s); try assumption; lia.
      * assert (En : k_now s1 = k_now s) by exact (f_equal (fun m : marks => ck_now (fst (fst m))) E1).
        rewrite app_nil_r.
        assert (X : timely cfg g ls -> exists t', k_now s2 - since_timer g ls <= t' <= k_now s2 /\ P t' (marks_of s2) (l ++ flushes ev2)).
        { intro T. apply IH with (6 := R) (t := t); try assumption; try lia. rewrite E1. exact Hp. }
        destruct a as [d|c|c|c v|c]; cbn [timely since_timer] in *.
        -- now elim (Nt d).
        -- now elim (Nc c).
        -- now apply X.
        -- now apply X.
        -- now apply X.
    + destruct a; cbn [since_timer timely] in *; try (eapply IH; eassumption).
      * destruct Hti as (Hd & _). cbn in E. destruct (Z.ltb_spec 0 d); [discriminate|lia].
      * destruct Hti as (Hp1 & _). cbn in E. unfold valid_proc in E. unfold is_proc in Hp1.
        rewrite (proj2 (Z.leb_le 0 c)), (proj2 (Z.ltb_lt c (c_nprocs cfg))) in E by lia. cbn in E.
        destruct (global_sched cfg c s) as [[? ?]|]; discriminate.
Qed.

(** ** One flush per major frame *)
Definition at_frame (cfg : config) (t : Z) (m : marks) (l : list flush_act) : Prop :=
  let '(k, mj, _) := m in exists q, 0 <= q /\
    0 <= ck_slot k < c_nslots cfg /\ ck_deadline k = q * c_major cfg + sum_to (c_slot cfg) (ck_slot k + 1) /\
    ck_deadline k - c_slot cfg (ck_slot k) <= t < ck_deadline k /\ mj = (q + 1) * c_major cfg /\
    l = repeat FlushAll (Z.to_nat q).

Lemma repeat_snoc : forall (A : Type) (x : A) q, 0 <= q ->
  repeat x (Z.to_nat q) ++ [x] = repeat x (Z.to_nat (q + 1)).
Proof.
  intros A x q H. rewrite Z2Nat.inj_add by lia. change (Z.to_nat 1) with 1%nat. rewrite repeat_app. reflexivity.
Qed.

Lemma at_frame_next : forall cfg, supported cfg -> c_flush cfg = FlushMajor -> 1 < c_nparts cfg ->
  forall t k mj fl l m' f, at_frame cfg t (k, mj, fl) l -> t <= ck_now k ->
    (forall i, 0 <= i < c_nslots cfg -> ck_now k - t <= c_slot cfg i) -> ck_now k + c_major cfg < 2 ^ 64 ->
    (m', f) = next_marks cfg (k, mj, fl) -> at_frame cfg (ck_now k) m' (l ++ act f).
Proof.
  intros cfg W Hf Hn t k mj fl l m' f (q & Hq & Hs & Hd & Ht & Hm & Hl) Hnow Hgap Hw E.
  unfold next_marks in E. rewrite Hf in E.
  destruct (Z.leb_spec (c_nparts cfg) 1); [lia|].
  destruct (Z.leb_spec (ck_deadline k) (ck_now k)) as [L|L].
  2:{ injection E as -> ->. cbn [act]. rewrite app_nil_r. exists q. repeat split; try assumption; lia. }
  pose proof (sp_nslots cfg W) as Hns. pose proof (major_pos cfg W) as Hmp.
  assert (Hin : in_slot cfg k t -> in_slot cfg (next_clock cfg k) (ck_now k)).
  { intro X. apply next_clock_in_slot with t; assumption. }
  set (slot := (ck_slot k + 1) mod c_nslots cfg) in *.
  assert (Hslot : 0 <= slot < c_nslots cfg) by (apply Z.mod_pos_bound; lia).
  pose proof (sp_slots cfg W slot Hslot) as Hpos. specialize (Hgap slot Hslot).
  assert (Hle : c_slot cfg slot <= c_major cfg).
  { rewrite (sp_major cfg W).
    pose proof (sum_to_mono (c_slot cfg) (c_nslots cfg) (slot + 1) (c_nslots cfg) (slots_nonneg cfg W)
                  ltac:(lia) ltac:(lia) ltac:(lia)) as H1. rewrite sum_to_succ in H1 by lia.
    pose proof (sum_to_nonneg (c_slot cfg) (c_nslots cfg) slot (slots_nonneg cfg W) ltac:(lia)). lia. }
  assert (Hqm : 0 <= q * c_major cfg) by (apply Z.mul_nonneg_nonneg; lia).
  assert (H0 : 0 <= ck_deadline k).
  { rewrite Hd. pose proof (sum_to_nonneg (c_slot cfg) (c_nslots cfg) (ck_slot k + 1) (slots_nonneg cfg W) ltac:(lia)). lia. }
  assert (Ek : next_clock cfg k = mkClock (c_alloc cfg slot) slot (ck_deadline k + c_slot cfg slot) (ck_now k)).
  { unfold next_clock. destruct (Z.leb_spec (c_nparts cfg) 1); [lia|].
    destruct (Z.leb_spec (ck_deadline k) (ck_now k)); [|lia]. fold slot. cbv zeta.
    unfold u64. now rewrite (Z.mod_small (ck_deadline k + c_slot cfg slot)) by lia. }
  rewrite Ek in E. clear Ek Hin.
  destruct (Z.eq_dec (ck_slot k + 1) (c_nslots cfg)) as [Ew|Ew].
  - (* a new frame *)
    assert (Es : slot = 0). { unfold slot. rewrite Ew. now apply Z.mod_same; lia. }
    assert (Ed : ck_deadline k = mj). { rewrite Hd, Ew, <- (sp_major cfg W). lia. }
    destruct (Z.leb_spec mj (ck_now k)); [|lia]. injection E as -> ->.
    exists (q + 1). cbn [ck_slot ck_deadline ck_cp ck_now]. rewrite Es in *.
    split; [lia|]. split; [lia|]. split; [|split; [|split]].
    + cbn [Z.add]. rewrite (sum_to_succ _ 0) by lia. rewrite sum_to_0. lia.
    + lia.
    + unfold u64. rewrite Z.mod_small; lia.
    + rewrite Hl. cbn [act]. apply repeat_snoc. lia.
  - assert (Es : slot = ck_slot k + 1). { unfold slot. apply Z.mod_small. lia. }
    assert (Ed : ck_deadline k + c_slot cfg slot = q * c_major cfg + sum_to (c_slot cfg) (slot + 1)).
    { rewrite (sum_to_succ _ slot) by lia. rewrite Es at 2. lia. }
    assert (Hup : sum_to (c_slot cfg) (slot + 1) <= c_major cfg).
    { rewrite (sp_major cfg W). apply sum_to_mono with (c_nslots cfg); try lia. now apply slots_nonneg. }
    destruct (Z.leb_spec mj (ck_now k)); [lia|]. injection E as -> ->.
    exists q. cbn [ck_slot ck_deadline ck_cp ck_now act]. rewrite app_nil_r.
    repeat split; try assumption; lia.
Qed.

Lemma frame_flushes : forall cfg s0 ls s evs,
  supported cfg -> c_flush cfg = FlushMajor -> 1 < c_nparts cfg ->
  kboot cfg = Some s0 -> krun cfg s0 ls = Some (s, evs) -> timely cfg 0 ls ->
  k_now s + c_major cfg < 2 ^ 64 ->
  exists t, k_now s - since_timer 0 ls <= t <= k_now s /\
    flushes evs = repeat FlushAll (Z.to_nat (t / c_major cfg)).
Proof.
  intros cfg s0 ls s evs W Hf Hn Hb Hr Ht Hw.
  pose proof (sp_nslots cfg W) as Hns. pose proof (major_pos cfg W) as Hmp.
  assert (S0 : forall i, 0 <= i < c_nslots cfg -> 0 <= c_slot cfg i).
  { intros i Hi. pose proof (sp_slots cfg W i Hi). lia. }
  pose proof (sp_slots cfg W 0 ltac:(lia)) as Hs0.
  pose proof (kboot_marks _ _ Hb) as Hm.
  assert (Hnow : k_now s0 = 0) by exact (f_equal (fun m : marks => ck_now (fst (fst m))) Hm).
  assert (B : at_frame cfg 0 (marks_of s0) []).
  { rewrite Hm. exists 0. cbn [ck_slot ck_deadline ck_cp ck_now]. change (0 + 1) with (Z.succ 0).
    assert (X : sum_to (c_slot cfg) (Z.succ 0) = c_slot cfg 0).
    { rewrite <- Z.add_1_r. rewrite (sum_to_succ _ 0) by lia. rewrite sum_to_0. lia. }
    rewrite X. repeat split; lia. }
  assert (T : forall t k mj fl l d, at_frame cfg t (k, mj, fl) l -> 0 < d ->
     at_frame cfg t (mkClock (ck_cp k) (ck_slot k) (ck_deadline k) (ck_now k + d), mj, fl) l).
  { intros t k mj fl l d (q & H) _. exists q. exact H. }
  destruct (krun_marks_timely (at_frame cfg) cfg (c_major cfg) W T (at_frame_next cfg W Hf Hn) ls s0 s evs [] 0 0 B ltac:(lia) (Z.le_refl 0) S0 Ht Hr Hw)
    as (t & Hti & Hp).
  exists t. split; [assumption|]. unfold marks_of in Hp. destruct Hp as (q & Hq & Hs & Hd & Hlt & _ & Hl). cbn [app] in Hl.
  rewrite Hl. f_equal. f_equal. apply Z.div_unique with (t - q * c_major cfg); [|lia]. left.
  assert (Hlow : 0 <= sum_to (c_slot cfg) (ck_slot (clock_of s))).
  { apply sum_to_nonneg with (c_nslots cfg); [now apply slots_nonneg|lia]. }
  assert (Hup : sum_to (c_slot cfg) (ck_slot (clock_of s) + 1) <= c_major cfg).
  { rewrite (sp_major cfg W). apply sum_to_mono with (c_nslots cfg); try lia. now apply slots_nonneg. }
  rewrite sum_to_succ in Hup, Hd by lia. lia.
Qed.

(** ** Never more often, whatever happens *)
Lemma frame_bound : forall cfg s0 ls s evs,
  supported cfg -> c_flush cfg = FlushMajor ->
  kboot cfg = Some s0 -> krun cfg s0 ls = Some (s, evs) -> k_now s + c_major cfg < 2 ^ 64 ->
  exists n, 0 <= n /\ n * c_major cfg <= k_now s /\ flushes evs = repeat FlushAll (Z.to_nat n).
Proof.
  intros cfg s0 ls s evs W Hf Hb Hr Hw. pose proof (major_pos cfg W) as Hmp.
  pose (P := fun (m : marks) (l : list flush_act) => let '(k, mj, _) := m in ck_now k + c_major cfg < 2 ^ 64 ->
     exists n, 0 <= n /\ n * c_major cfg <= ck_now k /\ mj = (n + 1) * c_major cfg /\ l = repeat FlushAll (Z.to_nat n)).
  assert (H : P (marks_of s) ([] ++ flushes evs)).
  { apply (krun_marks P cfg) with ls s0; [| | |exact Hr].
    - intros k mj fl l d H Hd X. cbn [ck_now] in *. destruct H as (n & H1 & H2 & H3 & H4); [lia|].
      exists n. repeat split; try assumption; lia.
    - intros [[k mj] fl] l m' f H E. unfold next_marks in E. rewrite Hf in E.
      destruct (c_nparts cfg <=? 1). { injection E as -> ->. cbn [act]. rewrite app_nil_r. exact H. }
      destruct (ck_deadline k <=? ck_now k). 2:{ injection E as -> ->. cbn [act]. rewrite app_nil_r. exact H. }
      destruct (Z.leb_spec mj (ck_now k)); injection E as -> ->; cbn [P]; intro X; rewrite next_clock_now in *;
        destruct (H X) as (n & H1 & H2 & H3 & H4).
      + exists (n + 1). split; [lia|]. split; [lia|]. split.
        * unfold u64. rewrite Z.mod_small; [lia|]. assert (0 <= n * c_major cfg) by (apply Z.mul_nonneg_nonneg; lia). lia.
        * rewrite H4. cbn [act]. apply repeat_snoc. lia.
      + exists n. cbn [act]. rewrite app_nil_r. auto.
    - rewrite (kboot_marks _ _ Hb). intros _. exists 0. cbn [ck_now]. repeat split; lia. }
  destruct (H Hw) as (n & H1 & H2 & _ & H4). exists n. auto.
Qed.

(** ** A flush period *)
Lemma period_bound : forall cfg p s0 ls s evs,
  supported cfg -> c_flush cfg = FlushPeriod p -> 0 < p ->
  kboot cfg = Some s0 -> krun cfg s0 ls = Some (s, evs) -> k_now s + p < 2 ^ 64 ->
  exists n, 0 <= n /\ (n - 1) * p <= k_now s /\ flushes evs = repeat FlushAll (Z.to_nat n).
Proof.
  intros cfg p s0 ls s evs W Hf Hp0 Hb Hr Hw.
  pose (P := fun (m : marks) (l : list flush_act) => let '(k, _, fl) := m in ck_now k + p < 2 ^ 64 ->
     exists n, 0 <= n /\ (n - 1) * p <= ck_now k /\ fl = n * p /\ l = repeat FlushAll (Z.to_nat n)).
  assert (H : P (marks_of s) ([] ++ flushes evs)).
  { apply (krun_marks P cfg) with ls s0; [| | |exact Hr].
    - intros k mj fl l d H Hd X. cbn [ck_now] in *. destruct H as (n & H1 & H2 & H3 & H4); [lia|].
      exists n. repeat split; try assumption; lia.
    - intros [[k mj] fl] l m' f H E. unfold next_marks in E. rewrite Hf in E.
      destruct (c_nparts cfg <=? 1). { injection E as -> ->. cbn [act]. rewrite app_nil_r. exact H. }
      destruct (ck_deadline k <=? ck_now k). 2:{ injection E as -> ->. cbn [act]. rewrite app_nil_r. exact H. }
      destruct (Z.leb_spec fl (ck_now k)); injection E as -> ->; cbn [P]; intro X; rewrite next_clock_now in *;
        destruct (H X) as (n & H1 & H2 & H3 & H4).
      + exists (n + 1). split; [lia|]. split; [lia|]. split.
        * unfold u64. rewrite Z.mod_small; [lia|]. assert (0 <= n * p) by (apply Z.mul_nonneg_nonneg; lia). lia.
        * rewrite H4. cbn [act]. apply repeat_snoc. lia.
      + exists n. cbn [act]. rewrite app_nil_r. auto.
    - rewrite (kboot_marks _ _ Hb). intros _. exists 0. cbn [ck_now]. repeat split; lia. }
  destruct (H Hw) as (n & H1 & H2 & _ & H4). exists n. auto.
Qed.

Definition at_period (cfg : config) (p t : Z) (m : marks) (l : list flush_act) : Prop :=
  let '(k, _, fl) := m in exists n, 0 <= n /\
    0 <= ck_deadline k /\ t < ck_deadline k <= (n + 1) * p /\ fl = n * p /\ l = repeat FlushAll (Z.to_nat n).

Lemma period_timely : forall cfg p s0 ls s evs,
  supported cfg -> c_flush cfg = FlushPeriod p -> 1 < c_nparts cfg ->
  (forall i, 0 <= i < c_nslots cfg -> c_slot cfg i <= p) ->
  kboot cfg = Some s0 -> krun cfg s0 ls = Some (s, evs) -> timely cfg 0 ls ->
  k_now s + p < 2 ^ 64 ->
  exists n, (k_now s - since_timer 0 ls) / p <= n /\ flushes evs = repeat FlushAll (Z.to_nat n).
Proof.
  intros cfg p s0 ls s evs W Hf Hn Hp Hb Hr Ht Hw.
  pose proof (sp_nslots cfg W) as Hns.
  pose proof (sp_slots cfg W 0 ltac:(lia)) as Hs0. pose proof (Hp 0 ltac:(lia)) as Hp0.
  assert (S0 : forall i, 0 <= i < c_nslots cfg -> 0 <= c_slot cfg i).
  { intros i Hi. pose proof (sp_slots cfg W i Hi). lia. }
  pose proof (kboot_marks _ _ Hb) as Hm.
  assert (Hnow : k_now s0 = 0) by exact (f_equal (fun m : marks => ck_now (fst (fst m))) Hm).
  assert (B : at_period cfg p 0 (marks_of s0) []).
  { rewrite Hm. exists 0. cbn [ck_slot ck_deadline ck_cp ck_now]. repeat split; lia. }
  assert (N : forall t k mj fl l m' f, at_period cfg p t (k, mj, fl) l -> t <= ck_now k ->
    (forall i, 0 <= i < c_nslots cfg -> ck_now k - t <= c_slot cfg i) -> ck_now k + p < 2 ^ 64 ->
    (m', f) = next_marks cfg (k, mj, fl) -> at_period cfg p (ck_now k) m' (l ++ act f)).
  { intros t k mj fl l m' f (n & Hn0 & Hd0 & Hd & Hfl & Hl) Hle Hgap Hwk E.
    unfold next_marks in E. rewrite Hf in E.
    destruct (Z.leb_spec (c_nparts cfg) 1); [lia|].
    destruct (Z.leb_spec (ck_deadline k) (ck_now k)) as [L|L].
    2:{ injection E as -> ->. cbn [act]. rewrite app_nil_r. exists n. repeat split; try assumption; lia. }
    set (slot := (ck_slot k + 1) mod c_nslots cfg) in *.
    assert (Hslot : 0 <= slot < c_nslots cfg) by (apply Z.mod_pos_bound; lia).
    pose proof (sp_slots cfg W slot Hslot) as Hpos. specialize (Hgap slot Hslot). specialize (Hp slot Hslot).
    assert (Ek : next_clock cfg k = mkClock (c_alloc cfg slot) slot (ck_deadline k + c_slot cfg slot) (ck_now k)).
    { unfold next_clock. destruct (Z.leb_spec (c_nparts cfg) 1); [lia|].
      destruct (Z.leb_spec (ck_deadline k) (ck_now k)); [|lia]. fold slot. cbv zeta.
      unfold u64. now rewrite (Z.mod_small (ck_deadline k + c_slot cfg slot)) by lia. }
    rewrite Ek in E. assert (0 <= n * p) by (apply Z.mul_nonneg_nonneg; lia).
    destruct (Z.leb_spec fl (ck_now k)); injection E as -> ->.
    - exists (n + 1). cbn [ck_slot ck_deadline ck_cp ck_now]. split; [lia|]. split; [lia|]. split; [lia|]. split.
      + unfold u64. rewrite Z.mod_small; lia.
      + rewrite Hl. cbn [act]. apply repeat_snoc. lia.
    - exists n. cbn [ck_slot ck_deadline ck_cp ck_now act]. rewrite app_nil_r. repeat split; try assumption; lia. }
  assert (T : forall t k mj fl l d, at_period cfg p t (k, mj, fl) l -> 0 < d ->
     at_period cfg p t (mkClock (ck_cp k) (ck_slot k) (ck_deadline k) (ck_now k + d), mj, fl) l).
  { intros t k mj fl l d (q & H) _. exists q. exact H. }
  destruct (krun_marks_timely (at_period cfg p) cfg (p) W T (N) ls s0 s evs [] 0 0 B ltac:(lia) (Z.le_refl 0) S0 Ht Hr Hw)
    as (t & Hti & Hpp).
  unfold marks_of in Hpp. destruct Hpp as (n & Hn0 & _ & Hd & _ & Hl). exists n. split; [|exact Hl].
  assert ((k_now s - since_timer 0 ls) / p < n + 1); [|lia]. apply Z.div_lt_upper_bound; lia.
Qed.

(** ** The other policies *)
Lemma window_step : forall cfg s l s' ev, c_flush cfg = FlushWindows -> kstep cfg s l = KNext s' ev ->
  (k_cp s' <> k_cp s -> flushes ev = [FlushPart (k_cp s)]) /\
  (forall f, In f (flushes ev) -> f = FlushPart (k_cp s)).
Proof.
  intros cfg s l s' ev Hf H. apply kstep_three in H.
  destruct H as [(d & _ & _ & -> & ->)|[(f & E & ->)|(E & -> & _)]].
  - split; [intro X; now elim X|intros f []].
  - unfold next_marks, marks_of in E. rewrite Hf in E.
    assert (Nop : clock_of s' = clock_of s -> f = NoFlush ->
      (k_cp s' <> k_cp s -> act f = [FlushPart (k_cp s)]) /\ (forall f0, In f0 (act f) -> f0 = FlushPart (k_cp s))).
    { intros X ->. apply (f_equal ck_cp) in X. cbn in X. split; [intro Y; now elim Y|intros ? []]. }
    destruct (c_nparts cfg <=? 1). { apply Nop; [exact (f_equal (fun x => fst (fst (fst x))) E)|exact (f_equal snd E)]. }
    destruct (ck_deadline _ <=? _).
    + assert (Ef : f = FlushPart (k_cp s)) by exact (f_equal snd E). rewrite Ef. cbn [act]. split; [reflexivity|].
      intros f0 [<-|[]]. reflexivity.
    + apply Nop; [exact (f_equal (fun x => fst (fst (fst x))) E)|exact (f_equal snd E)].
  - split; [intro X|intros f []]. elim X. exact (f_equal (fun m : marks => ck_cp (fst (fst m))) E).
Qed.

Lemma no_flushes : forall cfg s ls s' evs, c_flush cfg = FlushNone \/ c_nparts cfg <= 1 ->
  krun cfg s ls = Some (s', evs) -> flushes evs = [].
Proof.
  intros cfg s ls s' evs Hc Hr.
  refine (krun_marks (fun _ l => l = []) cfg _ _ ls s s' evs [] eq_refl Hr).
  - auto.
  - intros [[k mj] fl] l m' f -> E. assert (f = NoFlush); [|subst; reflexivity].
    apply (f_equal snd) in E. cbn [snd] in E. rewrite E. unfold next_marks.
    destruct (Z.leb_spec (c_nparts cfg) 1); [reflexivity|]. destruct Hc as [Hc|Hc]; [|lia]. rewrite Hc.
    destruct (_ <=? _); reflexivity.
Qed.
