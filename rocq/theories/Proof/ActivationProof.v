(** One thread of a partition in NORMAL mode along the steps of the machine: activation, sleeping, budget. *)
From Verif Require Import Model.Base Model.State Model.LockFifo Model.LockObj Model.LockSys Model.Sched Model.Kernel
  Spec.SchedSpec Spec.KernelSpec Proof.Tac Proof.SchedProof Proof.KernelBasic Proof.ClockProof Proof.SlotProof Proof.KernelInv
  Proof.ElectProof Proof.ServiceProof Proof.PlaceProof Proof.ChoiceProof Proof.PartStep Proof.CreateStep Proof.ThreadFrame Proof.EffectProof Proof.ThreadUpd Proof.ObjStep Proof.LockFifoProof Proof.QueueProof.

Lemma wake_next : forall tm x now a y, wake tm x now a = Some y ->
  t_next_act y = t_next_act a \/ (t_next_act a <= now /\ t_next_act y = u64 (t_next_act a + t_period a)).
Proof.
  intros tm x now a y H. unfold wake in H. cbv zeta in H. destruct (t_affinity a =? x); [|injection H as <-; now left].
  assert (G : forall b, t_next_act b = t_next_act a -> t_period b = t_period a ->
    (if (t_state b =? ST_WAIT_NEXT) && (t_next_act b <=? now) then
       if t_capacity b =? 0 then None
       else Some (set_t_next_act (u64 (t_next_act b + t_period b)) (set_t_remaining (t_capacity b) (set_t_state ST_RUNNABLE b)))
     else Some b) = Some y -> t_next_act y = t_next_act a \/ (t_next_act a <= now /\ t_next_act y = u64 (t_next_act a + t_period a))).
  { intros b B1 B2 E. destruct (Z.leb_spec (t_next_act b) now).
    - destruct (t_state b =? ST_WAIT_NEXT); cbn [andb] in E; [|injection E as <-; now left].
      destruct (t_capacity b =? 0); [discriminate|]. injection E as <-. right. split; [lia|]. cbn. congruence.
    - rewrite andb_false_r in E. injection E as <-. now left. }
  destruct (tm && _ && _); apply (G _) in H; auto.
Qed.
Lemma charge_next : forall t, t_next_act (charge t) = t_next_act t.
Proof. intros t. unfold charge. repeat match goal with |- context [if ?x then _ else _] => destruct x end; reflexivity. Qed.

Section Step.
Variable cfg : config.
Hypothesis W : supported cfg.
Variables j t : Z.
Hypothesis Hj : is_part cfg j.
Hypothesis Ht : thread_of cfg j t.

(** What precedes scheduling in a step. *)
Definition unq (s : kstate) : Prop := wait_in cfg (fun _ u => u <> t) s.
Definition prelude (l : klabel) (s s1 : kstate) : Prop :=
  k_th s1 t = k_th s t \/
  (lock_step l /\ (unq s -> k_th s1 t = k_th s t) /\ k_th s1 t = set_t_state ST_RUNNABLE (k_th s t)) \/
  (exists c, is_proc cfg c /\ k_cur s c = t /\ (l = KCont c \/ exists v, l = KCall c v)).

Lemma reachable_mine : forall s, reachable cfg s -> mode_of s j = PM_NORMAL -> t <> p_error (k_part s j) -> mine cfg j t s.
Proof.
  intros s Hr Hm He. apply placed_mine; try assumption; [apply (reachable_inv cfg W s Hr)|apply (reachable_placed cfg W s Hr)].
Qed.

Lemma calm_mine : forall s s1, kinv cfg s1 -> k_cp s1 = k_cp s -> mine cfg j t s -> statics (k_th s1 t) = statics (k_th s t) ->
  k_part s1 j = k_part s j -> (k_cp s = j -> forall d, is_proc cfg d -> k_cur s1 d = t -> k_cur s d = t) -> mine cfg j t s1.
Proof.
  intros s s1 I1 Ecp (M1 & M2 & M3) Es Ep Ec. unfold mine. rewrite Ep. split; [assumption|]. split; [assumption|]. intros d Hd Hda C.
  assert (Ea : aff t s1 = aff t s) by (unfold aff; unfold statics in Es; congruence). rewrite Ea in Hda.
  destruct (Z.eq_dec (k_cp s) j) as [E|N].
  - apply (M3 d Hd Hda). now apply Ec.
  - apply (kinv_away cfg W j s1 Hj I1 ltac:(congruence) d Hd). now rewrite C.
Qed.

(** The step is [c]'s, and scheduling [ph] follows the state [s1]. *)
Definition before (l : klabel) (s s' : kstate) (c : Z) (ph : phase) (s1 : kstate) : Prop :=
  is_proc cfg c /\ run_phase cfg c ph s1 s' /\ kinv cfg s1 /\ mine cfg j t s1 /\ k_cp s1 = k_cp s /\ k_now s1 <= k_now s' /\
  (ph <> PhNone -> k_now s1 = k_now s) /\
  k_part s1 j = k_part s j /\ (forall d, is_proc cfg d -> k_cur s1 d = t -> k_cur s d = t) /\
  statics (k_th s1 t) = statics (k_th s t) /\ t_next_act (k_th s1 t) = t_next_act (k_th s t) /\
  (t_remaining (k_th s1 t) = t_remaining (k_th s t) \/ t_remaining (k_th s1 t) = 0) /\ prelude l s s1.

Lemma before_same : forall l s s' c ph, reachable cfg s -> mine cfg j t s -> k_now s <= k_now s' -> is_proc cfg c ->
  run_phase cfg c ph s s' -> before l s s' c ph s.
Proof.
  intros l s s' c ph Hr M Hn Hc Hp. unfold before. pose proof (reachable_inv cfg W s Hr) as I. repeat (split; [assumption || reflexivity || auto|]). now left.
Qed.

Lemma lock_put_before : forall c s id ob th k v, kinv cfg s -> (match v with SLockOp _ _ _ => True | _ => False end) ->
  lock_upd (k_cur s c) (k_th s) th -> before_sched cfg c v s (lock_put c id s ob th k).
Proof.
  intros c s id ob th k v I Hv Hl. split; [now apply lock_put_inv|]. split; [reflexivity|]. split; [reflexivity|]. destruct v; try contradiction. split.
  - intros x _. exact (Hl x).
  - split; [reflexivity|]. split; [|repeat split]. intros _. exact (lock_upd_statics _ _ _ Hl).
Qed.

Lemma lockop_phase : forall s c id kind o s' e f x, reachable cfg s -> is_proc cfg c -> user_thread cfg (k_cur s c) = true ->
  service cfg c (SLockOp id kind o) s = Some (s', e, f, x) -> ~ signals_unborn s (SLockOp id kind o) ->
  exists s1 ph, run_phase cfg c ph s1 s' /\ before_sched cfg c (SLockOp id kind o) s s1 /\
    (unq s -> t <> k_cur s c -> k_th s1 t = k_th s t).
Proof.
  intros s c id kind o s' e f x Hr V U G Hb. pose proof (reachable_inv cfg W s Hr) as I. pose proof (nthreads_pos cfg W) as Hn.
  pose proof (ki_part _ _ I _ (ki_cp _ _ I)) as Hok.
  assert (Hsame : exists s1 ph, run_phase cfg c ph s1 s /\ before_sched cfg c (SLockOp id kind o) s s1 /\
    (unq s -> t <> k_cur s c -> k_th s1 t = k_th s t)).
  { exists s, PhNone. split; [reflexivity|]. split; [now apply before_refl|auto]. }
  cbn in G. inv_no G. unfold lock_wrapper, cur_part in E.
  rewrite (po_lo_low _ _ _ Hok), (po_lo_high _ _ _ Hok) in E.
  destruct (Z.ltb_spec id (lo_low_of cfg (k_cp s))) as [|L1]. { now injection E as <- _ _. }
  destruct (Z.leb_spec (lo_high_of cfg (k_cp s)) id) as [|L2]. { now injection E as <- _ _. }
  destruct (negb _). { now injection E as <- _ _. }
  destruct o as [op|]. 2:{ now injection E as <- _ _. }
  assert (Hid : lockobj_of cfg (k_cp s) id) by (unfold lockobj_of, in_range; lia).
  destruct (lock_service_did cfg c _ op s _ _ _ I V E) as (ob & th & k9 & ph2 & R & _ & _ & Hu & D).
  exists (lock_put c id s ob th k9), ph2. split; [assumption|]. split; [now apply lock_put_before|].
  intros Q Hne. destruct (objq_did _ _ Hn _ _ _ _ _ _ _ D (not_eq_sym Hne) (Q _ _ (ki_cp _ _ I) Hid)) as (_ & Ho).
  apply (Ho Hb). intros C. now apply C.
Qed.
Lemma cont_phase : forall s c s' e f, reachable cfg s -> is_proc cfg c -> user_thread cfg (k_cur s c) = true ->
  lock_continue cfg c s = Some (s', e, f) ->
  exists s1 ph, run_phase cfg c ph s1 s' /\ before_sched cfg c (SLockOp 0 0 None) s s1 /\
    (unq s -> t <> k_cur s c -> k_th s1 t = k_th s t).
Proof.
  intros s c s' e f Hr V U G. pose proof (reachable_inv cfg W s Hr) as I. pose proof (nthreads_pos cfg W) as Hn.
  destruct (caller_is cfg s c I V U) as (Hcall & _).
  destruct (lock_continue_did cfg c s s' e f I V G) as [->|(id & ob & th & k9 & ph & R & _ & Hid & _ & Hu & D)].
  - exists s, PhNone. split; [reflexivity|]. split; [now apply before_refl|auto].
  - exists (lock_put c id s ob th k9), ph. split; [assumption|]. split; [now apply lock_put_before|].
    specialize (Hid _ (reachable_own cfg W s Hr _ _ (ki_cp _ _ I) Hcall)).
    intros Q Hne. destruct (objq_did_then _ _ Hn _ _ _ _ _ _ D (not_eq_sym Hne) (Q _ _ (ki_cp _ _ I) Hid)) as (_ & Ho).
    apply Ho. intros C. now apply C.
Qed.

Lemma lock_before : forall l s s' c ph s1 id kind o, reachable cfg s -> mine cfg j t s -> k_now s <= k_now s' -> is_proc cfg c ->
  lock_step l -> (l = KCont c \/ exists v, l = KCall c v) -> run_phase cfg c ph s1 s' ->
  before_sched cfg c (SLockOp id kind o) s s1 -> (unq s -> t <> k_cur s c -> k_th s1 t = k_th s t) -> before l s s' c ph s1.
Proof.
  intros l s s' c ph s1 id kind o Hr M Hnow V Hl Hlc Hph (I1 & Ecp & En & Hoth & Hparts & Hst & Hcalm) Hq.
  destruct (Hcalm Logic.I) as (Ep & Ec). specialize (Hst Logic.I t). specialize (Hoth t (fun x => x)).
  split; [assumption|]. split; [assumption|]. split; [assumption|].
  split; [apply (calm_mine s s1); try assumption; [now rewrite Ep|intros _ d Hd; now rewrite Ec]|].
  split; [assumption|]. split; [lia|]. split; [auto|]. split; [now rewrite Ep|]. split; [intros d Hd; now rewrite Ec|]. split; [assumption|].
  assert (Hcur : k_cur s c = t -> prelude l s s1) by (intros C; right; right; exists c; auto).
  destruct Hoth as [E|[E|(E & st & w & _ & E2)]].
  - rewrite E. split; [reflexivity|]. split; [now left|now left].
  - split; [now rewrite E|]. split; [left; now rewrite E|]. destruct (Z.eq_dec (k_cur s c) t) as [C|C]; [auto|].
    right. left. split; [assumption|]. split; [|assumption]. intros Q. apply Hq; auto.
  - rewrite E2. split; [reflexivity|]. split; [now left|]. apply Hcur. congruence.
Qed.

Lemma step_before : forall s l s' ev, reachable cfg s -> kstep cfg s l = KNext s' ev -> mode_of s j = PM_NORMAL ->
  t <> p_error (k_part s j) -> leaves_alone cfg j t s l ->
  exists c ph s1, before l s s' c ph s1 /\
    match l with KTick _ => ph = PhNone | KTimer c0 => c = c0 /\ ph = PhGlobal /\ s1 = s | KIpi c0 => c = c0 /\ ph = PhThread /\ s1 = s | _ => True end.
Proof.
  intros s l s' ev Hr H Hm He Hl. pose proof (reachable_inv cfg W s Hr) as I. pose proof (reachable_mine s Hr Hm He) as M.
  pose proof (kstep_now cfg s l s' ev H) as Hnow. pose proof (sp_procs _ W) as HP.
  destruct l as [d|c|c|c v|c].
  - cbn in H. destruct (Z.ltb_spec 0 d); [|discriminate]. injection H as <- _.
    exists 0, PhNone, (set_k_now (k_now s + d) s). split; [|reflexivity]. split; [unfold is_proc; lia|]. split; [reflexivity|].
    split; [destruct I; constructor; assumption|]. split; [exact M|]. split; [reflexivity|]. split; [cbn; lia|].
    split; [intros C; now elim C|]. repeat (split; [reflexivity || auto|]). now left.
  - cbn in H. destruct (valid_proc cfg c) eqn:V; [|discriminate]. apply valid_proc_is in V.
    destruct (global_sched cfg c s) as [[s1 f]|] eqn:G; [|discriminate]. injection H as <- _. exists c, PhGlobal, s. split; [|auto].
    apply before_same; try assumption. now exists f.
  - cbn in H. destruct (valid_proc cfg c) eqn:V; [|discriminate]. apply valid_proc_is in V.
    destruct (sched_thread cfg c s) as [s1|] eqn:G; [|discriminate]. injection H as <- _. exists c, PhThread, s. split; [|auto].
    now apply before_same.
  - destruct (step_call cfg s c v s' ev H) as (e & id & f0 & _ & HC). pose proof (calls_service cfg s c v s' e id HC) as (V & U & _ & f & G).
    destruct (caller_is cfg s c I V U) as (Hcall & _). destruct Hl as (Hn & Hsg & Hl).
    enough (exists ph s1, before (KCall c v) s s' c ph s1) as (ph & s1 & B) by (exists c, ph, s1; split; [exact B|exact Logic.I]).
    destruct (match v return {match v with SLockOp _ _ _ => True | _ => False end} + {match v with SLockOp _ _ _ => False | _ => True end}
              with SLockOp _ _ _ => left Logic.I | _ => right Logic.I end) as [Hlk|Hlk].
    { destruct v; try contradiction. destruct (lockop_phase s c _ _ _ _ _ _ _ Hr V U G Hsg) as (s1 & ph & Hph & B & Hq).
      exists ph, s1. apply (lock_before _ s s' c ph s1 id0 kind o); try assumption. right; eauto. }
    destruct (service_phase cfg W c v s s' e f id I V G) as (s1 & ph & Hph & I1 & Ecp & En & Hoth & Hparts & Hst & Hcalm).
    destruct (Z.eq_dec (k_cp s) j) as [E|N].
    + (* services of the partition itself *)
      assert (Hcal : calm v -> ~ writes cfg c v s t -> exists ph s1, before (KCall c v) s s' c ph s1).
      { intros Cv Nw. destruct (Hcalm Cv) as (Ep & Ec). assert (Ks : keeps_statics v) by (destruct v; try exact Logic.I; contradiction).
        specialize (Hst Ks t). specialize (Hoth t Nw). exists ph, s1.
        split; [assumption|]. split; [assumption|]. split; [assumption|].
        split; [apply (calm_mine s s1); try assumption; [now rewrite Ep|intros _ d Hd; now rewrite Ec]|].
        split; [assumption|]. split; [lia|]. split; [auto|]. split; [now rewrite Ep|]. split; [intros d Hd; now rewrite Ec|]. split; [assumption|].
        assert (Hsame : k_th s1 t = k_th s t -> t_next_act (k_th s1 t) = t_next_act (k_th s t) /\
           (t_remaining (k_th s1 t) = t_remaining (k_th s t) \/ t_remaining (k_th s1 t) = 0) /\ prelude (KCall c v) s s1).
        { unfold prelude. intros ->. auto. }
        destruct v; try exact (Hsame Hoth). contradiction. }
      assert (Hself : forall g e1 f1, then_sched cfg c (on_th (k_cur s c) g s) ERR_OK = Some (s', e1, f1) ->
         before_sched cfg c (SSleep 0) s (on_th (k_cur s c) g s) ->
         (forall x, statics (g x) = statics x /\ t_next_act (g x) = t_next_act x /\ (t_remaining (g x) = t_remaining x \/ t_remaining (g x) = 0)) ->
         exists ph s1, before (KCall c v) s s' c ph s1).
      { intros g e1 f1 Hs B Hg. unfold then_sched in Hs. destruct (sched_thread _ _ _) as [s2|] eqn:E2; [|discriminate]. injection Hs as <- _ _.
        destruct B as (B1 & B2 & B3 & B4 & B5 & B6 & B7). destruct (B7 Logic.I) as (B8 & B9).
        set (s3 := on_th (k_cur s c) g s) in *. exists PhThread, s3.
        assert (Hth : statics (k_th s3 t) = statics (k_th s t) /\ t_next_act (k_th s3 t) = t_next_act (k_th s t) /\
           (t_remaining (k_th s3 t) = t_remaining (k_th s t) \/ t_remaining (k_th s3 t) = 0)).
        { unfold s3. cbn. unfold upd. destruct (Z.eqb_spec t (k_cur s c)) as [<-|]; [apply Hg|auto]. }
        destruct Hth as (T1 & T2 & T3).
        split; [assumption|]. split; [exact E2|]. split; [assumption|].
        split; [apply (calm_mine s s3); try assumption; [now rewrite B8|intros _ d Hd; now rewrite B9]|].
        split; [assumption|]. split; [lia|]. split; [auto|]. split; [now rewrite B8|]. split; [intros d Hd; now rewrite B9|].
        repeat (split; [assumption|]). unfold prelude, s3. cbn. unfold upd. destruct (Z.eqb_spec t (k_cur s c)) as [->|]; [|now left].
        right. right. exists c. eauto. }
      assert (Hok := ki_part _ _ I _ (ki_cp _ _ I)).
      destruct v; try (apply Hcal; [exact Logic.I|cbn; tauto]).
      * destruct (create_normal cfg s c _ s' e id HC Logic.I ltac:(now rewrite E)) as (_ & ->).
        exists PhNone, s. apply before_same; try assumption. reflexivity.
      * cbn in G. inv_no G. eapply Hself; [exact E0|apply before_on; [assumption|reflexivity|reflexivity]|]. intros x. repeat split; auto.
      * cbn in G. inv_no G. eapply Hself; [exact E0|apply before_on; [assumption|reflexivity|reflexivity]|]. intros x. repeat split; auto.
      * cbn in G. inv_no G. eapply Hself; [exact E0|apply before_on; [assumption|reflexivity|reflexivity]|]. intros x. repeat split; auto.
      * cbn in G. inv_no G. eapply Hself; [exact E0|apply before_on; [assumption|reflexivity|reflexivity]|]. intros x. repeat split; auto.
      * apply Hcal; [exact Logic.I|]. cbn. intros (-> & _). now elim Hn.
      * apply Hcal; [exact Logic.I|]. cbn. intros (-> & _). now elim Hn.
      * apply Hcal; [exact Logic.I|]. cbn. intros (-> & _). now elim Hn.
      * apply Hcal; [exact Logic.I|]. cbn. intros (-> & _). now elim Hn.
      * apply Hcal; [exact Logic.I|]. cbn. intros (-> & _). apply Hn. cbn. unfold cur_part. now rewrite (po_low _ _ _ Hok).
      * apply Hcal; [exact Logic.I|]. cbn. intros (-> & _). apply Hn. cbn. unfold cur_part. now rewrite (po_low _ _ _ Hok).
      * elim (Hl E).
      * exfalso. cbn in G. unfold thread_create in G. rewrite E in G. unfold mode_of in Hm. rewrite Hm in G. discriminate.
      * clear Hcal Hself. cbn in G. injection G as <- _ _ _. exists PhNone.
        pose proof (activate_error_inv cfg c s I V) as I3. unfold activate_error_thread in *. unfold cur_part in *. rewrite E in *.
        destruct (Z.eqb_spec (p_error (k_part s j)) 0) as [|Ne].
        { exists s. apply before_same; try assumption. reflexivity. }
        eexists. split; [assumption|]. split; [reflexivity|]. split; [exact I3|].
        assert (T : k_th (on_th (p_error (k_part s j)) (fun t => set_t_state ST_RUNNABLE (set_t_next_act 0 (set_t_period 100
                           (set_t_remaining 1000 (set_t_priority 255 t))))) s) t = k_th s t) by (cbn; now rewrite upd_other).
        assert (Hc9 : forall d, is_proc cfg d -> upd (k_cur s) c (p_error (k_part s j)) d = t -> k_cur s d = t).
        { intros d Hd. unfold upd. destruct (_ =? _); [intros C; now elim He|auto]. }
        split. { apply (calm_mine s); try assumption; try reflexivity; [cbn in T |- *; now rewrite T|intros _; exact Hc9]. }
        split; [reflexivity || exact E|]. split; [cbn; lia|]. split; [intros C; now elim C|]. split; [reflexivity|]. split; [exact Hc9|].
        cbn in T |- *. rewrite T. split; [reflexivity|]. split; [reflexivity|]. split; [now left|]. left. cbn. exact T.
    + (* services of other partitions *)
      assert (Nw : ~ writes cfg c v s t).
      { intros Hw. assert (K : thread_of cfg (k_cp s) t \/ names cfg (k_cp s) v = Some t).
        { assert (Hok := ki_part _ _ I _ (ki_cp _ _ I)).
          destruct v; cbn in Hw |- *; try (left; exact Hw); try contradiction; try (left; now rewrite Hw);
          try (right; now destruct Hw as (-> & _)); try (right; destruct Hw as (-> & _); unfold cur_part; now rewrite (po_low _ _ _ Hok)).
          left. destruct Hw as (-> & Hw). unfold cur_part in *. destruct (po_error _ _ _ Hok) as [C|C]; [now elim Hw|unfold thread_of, in_range; lia]. }
        destruct K as [K|K]; [|now elim Hn]. apply N. now apply (ranges_disjoint cfg W _ _ t (ki_cp _ _ I)). }
      specialize (Hoth t Nw). exists ph, s1. 
      assert (Hc9 : forall d, is_proc cfg d -> k_cur s1 d = t -> k_cur s d = t).
      { intros d Hd C. exfalso. apply (kinv_away cfg W j s1 Hj I1 ltac:(congruence) d Hd). now rewrite C. }
      assert (Hs9 : statics (k_th s1 t) = statics (k_th s t)).
      { destruct v; try (now rewrite Hoth). now apply Hst. }
      split; [assumption|]. split; [assumption|]. split; [assumption|].
      split; [apply (calm_mine s s1); auto|]. split; [assumption|]. split; [lia|]. split; [auto|]. split; [auto|]. split; [assumption|]. split; [assumption|].
      assert (Hsame : k_th s1 t = k_th s t -> t_next_act (k_th s1 t) = t_next_act (k_th s t) /\
           (t_remaining (k_th s1 t) = t_remaining (k_th s t) \/ t_remaining (k_th s1 t) = 0) /\ prelude (KCall c v) s s1).
      { unfold prelude. intros ->. auto. }
      destruct v; try exact (Hsame Hoth). contradiction.
  - cbn in H. destruct (valid_proc cfg c) eqn:V; [|discriminate]. apply valid_proc_is in V.
    destruct (user_thread cfg (k_cur s c)) eqn:U; [|discriminate]. destruct (negb (is_user _)); [|discriminate]. cbn in H.
    destruct (lock_continue cfg c s) as [[[s9 e] f]|] eqn:G; [|discriminate]. injection H as <- _.
    destruct (cont_phase s c s9 e f Hr V U G) as (s1 & ph & Hph & B & Hq).
    exists c, ph, s1. split; [|exact Logic.I]. apply (lock_before _ s s9 c ph s1 0 0 None); try assumption. now left.
Qed.

Lemma statics_fields : forall a b, statics a = statics b -> t_period a = t_period b /\ t_capacity a = t_capacity b /\ t_affinity a = t_affinity b.
Proof. intros a b H. unfold statics in H. injection H. intros. repeat split; assumption. Qed.

Lemma elects_dec : forall ph c x, {elects ph c x /\ is_proc cfg x} + {~ (elects ph c x /\ is_proc cfg x)}.
Proof.
  intros ph c x. unfold elects, is_proc.
  destruct ph; [right; intros ([C|(C & _)] & _); discriminate| |];
    destruct (Z_le_dec 0 x); try (right; lia); destruct (Z_lt_dec x (c_nprocs cfg)); try (right; lia).
  - destruct (Z.eq_dec c x); [left; auto|right; intros ([C|(_ & C)] & _); [discriminate|contradiction]].
  - left. auto.
Qed.

(** ** The activation date *)
Lemma step_next : forall s l s' ev, reachable cfg s -> kstep cfg s l = KNext s' ev -> mode_of s j = PM_NORMAL ->
  t <> p_error (k_part s j) -> leaves_alone cfg j t s l ->
  statics (k_th s' t) = statics (k_th s t) /\
  (t_next_act (k_th s' t) = t_next_act (k_th s t) \/
   (t_next_act (k_th s t) <= k_now s' /\ t_next_act (k_th s' t) = u64 (t_next_act (k_th s t) + t_period (k_th s t)))).
Proof.
  intros s l s' ev Hr H Hm He Hl. destruct (step_before s l s' ev Hr H Hm He Hl) as (c & ph & s1 & B & _).
  destruct B as (Hc & Hph & I1 & M1 & Ecp & Hnow & Hn2 & Ep & Ec & Es & En & Erem & Hpre).
  split. { rewrite <- Es. apply (phase_statics cfg W c ph s1 s' I1 Hc Hph). }
  destruct (statics_fields _ _ Es) as (Eper & _ & _).
  destruct (phase_effect cfg W j t Hj Ht c ph s1 s' I1 Hc Hph M1) as (P1 & P2).
  destruct (elects_dec ph c (aff t s1)) as [(El & Hx)|N].
  - destruct (P2 El Hx) as (y & Y1 & Y2 & Y3 & _).
    assert (Ey : t_next_act (k_th s' t) = t_next_act y).
    { destruct Y3 as [Y3|(_ & Y3)]; apply same_end_fields in Y3; destruct Y3 as (_ & _ & _ & _ & -> & _); [reflexivity|apply charge_next]. }
    rewrite Ey. destruct (Z.eq_dec (k_cp s') j) as [E|E].
    + destruct (wake_next _ _ _ _ _ (Y1 E)) as [->|(L & ->)]; [now left|right]. rewrite En, Eper in *. split; [lia|reflexivity].
    + rewrite (Y2 E). left. exact En.
  - specialize (P1 N). apply same_end_fields in P1. destruct P1 as (_ & _ & _ & _ & -> & _). now left.
Qed.

Lemma next_act_range : forall s, reachable cfg s -> forall u, 0 <= t_next_act (k_th s u) < 2 ^ 64.
Proof.
  intros s H. revert s H. apply (reachable_threads cfg W (fun x => 0 <= t_next_act x < 2 ^ 64)).
  - cbn. lia.
  - intros x Hx. cbn. lia.
  - intros i x Hx. cbn; lia.
  - intros x x' Hu Hx. destruct Hu; try exact Hx; try (cbn; lia).
    + cbn. apply Z.mod_pos_bound. lia.
    + assert (Ha : 0 <= a_period a < 2 ^ 64) by (rewrite <- H; cbn; apply Z.mod_pos_bound; lia).
      unfold init_thread. cbv zeta. destruct (0 <? a_period a), (0 <? a_deadline a), (0 <? a_capacity a); cbn; lia.
Qed.

Lemma run_next : forall ls s s' evs, reachable cfg s -> krun cfg s ls = Some (s', evs) -> undisturbed cfg j t s ls ->
  0 <= t_period (k_th s t) -> k_now s' + t_period (k_th s t) < 2 ^ 64 ->
  statics (k_th s' t) = statics (k_th s t) /\
  exists k, 0 <= k /\ t_next_act (k_th s' t) = t_next_act (k_th s t) + k * t_period (k_th s t) /\
    (k = 0 \/ t_next_act (k_th s t) + (k - 1) * t_period (k_th s t) <= k_now s').
Proof.
  induction ls as [|l ls IH]; intros s s' evs Hr H Hu Hp Hov; cbn in H.
  - injection H as <- _. split; [reflexivity|]. exists 0. split; [lia|]. split; [lia|now left].
  - destruct Hu as (Hm & He & Hl & Hu). destruct (kstep cfg s l) as [s1 ev| |] eqn:K; [| |discriminate].
    + destruct (krun cfg s1 ls) as [[s2 ev2]|] eqn:R; [|discriminate]. injection H as <- _.
      destruct (step_next s l s1 ev Hr K Hm He Hl) as (Es & Hn). destruct (statics_fields _ _ Es) as (Eper & _ & _).
      assert (Hr1 : reachable cfg s1). { apply (reachable_run cfg [l] s s1 (ev ++ [])); [assumption|]. cbn. now rewrite K. }
      pose proof (krun_now cfg ls s1 s2 ev2 R) as Hmono.
      destruct (IH s1 s2 ev2 Hr1 R Hu ltac:(lia) ltac:(lia)) as (Es2 & k & K0 & K1 & K2). rewrite Eper in *.
      split; [congruence|]. pose proof (next_act_range s Hr t) as Hran. destruct Hn as [Hn|(Hd & Hn)].
      * exists k. rewrite Hn in *. auto.
      * unfold u64 in Hn. rewrite Z.mod_small in Hn by lia. exists (k + 1). split; [lia|]. split; [nia|]. right.
        replace (k + 1 - 1) with k by lia. destruct K2 as [->|K2]; [lia|]. nia.
    + destruct (IH s s' evs Hr H Hu Hp Hov) as (Es2 & k & K9). split; [assumption|]. now exists k.
Qed.

(** ** Threads that do not execute *)
(** Nothing that the clock reads makes this thread ready at time [now]. *)
Definition dormant (now : Z) (a : thread) : Prop :=
  (t_state a = ST_WAITING -> now < t_wakeup a \/ c_timed_wake cfg = false) /\ (t_state a = ST_WAIT_NEXT -> now < t_next_act a).
Lemma wake_dormant : forall x now a, dormant now a -> wake (c_timed_wake cfg) x now a = Some a.
Proof.
  intros x now a (D1 & D2). unfold wake. destruct (_ =? x); [|reflexivity]. cbv zeta.
  destruct (Z.eqb_spec (t_state a) ST_WAITING) as [E|E].
  - assert (F : (c_timed_wake cfg && true && (t_wakeup a <=? now)) = false).
    { destruct (D1 E) as [L| ->]; [|reflexivity]. destruct (Z.leb_spec (t_wakeup a) now); [lia|]. apply andb_false_r. }
    rewrite F, E. reflexivity.
  - rewrite andb_false_r. cbn [andb]. destruct (Z.eqb_spec (t_state a) ST_WAIT_NEXT) as [E2|E2]; [|reflexivity].
    destruct (Z.leb_spec (t_next_act a) now); [|reflexivity]. specialize (D2 E2). lia.
Qed.

Lemma step_dormant : forall s l s' ev, reachable cfg s -> kstep cfg s l = KNext s' ev -> mode_of s j = PM_NORMAL ->
  t <> p_error (k_part s j) -> leaves_alone cfg j t s l -> ~ lock_step l \/ unq s -> executes_nowhere cfg s t ->
  dormant (k_now s) (k_th s t) -> same_end (k_th s t) (k_th s' t).
Proof.
  intros s l s' ev Hr H Hm He Hl Hnl Hex Hd. destruct (step_before s l s' ev Hr H Hm He Hl) as (c & ph & s1 & B & _).
  destruct B as (Hc & Hph & I1 & M1 & Ecp & Hnow & Hn2 & Ep & Ec & Es & En & Erem & Hpre).
  assert (E1 : k_th s1 t = k_th s t).
  { destruct Hpre as [X|[(X & X2 & _)|(d & D1 & D2 & _)]]; [assumption|destruct Hnl; [contradiction|auto]|]. elim (Hex d D1 D2). }
  destruct (phase_effect cfg W j t Hj Ht c ph s1 s' I1 Hc Hph M1) as (P1 & P2). rewrite E1 in *.
  destruct (elects_dec ph c (aff t s1)) as [(El & Hx)|N]; [|auto].
  destruct (P2 El Hx) as (y & Y1 & Y2 & Y3 & _).
  assert (Hphn : ph <> PhNone) by (intros ->; destruct El as [C|(C & _)]; discriminate). rewrite (Hn2 Hphn) in Y1.
  assert (Ey : y = k_th s t).
  { destruct (Z.eq_dec (k_cp s') j) as [E|E]; [|auto]. specialize (Y1 E). rewrite (wake_dormant _ _ _ Hd) in Y1. now injection Y1 as <-. }
  subst y. destruct Y3 as [Y3|(Y3 & _)]; [assumption|]. elim (Hex _ Hx (Ec _ Hx Y3)).
Qed.

Lemma spontaneous_effect : forall s l s' ev, reachable cfg s -> kstep cfg s l = KNext s' ev -> mode_of s j = PM_NORMAL ->
  t <> p_error (k_part s j) -> spontaneous l -> executes_nowhere cfg s t ->
  let x := t_affinity (k_th s t) in
  (~ (schedules cfg l x /\ k_cp s' = j) -> same_end (k_th s t) (k_th s' t)) /\
  (schedules cfg l x -> k_cp s' = j -> exists y, wake (c_timed_wake cfg) x (k_now s) (k_th s t) = Some y /\ same_end y (k_th s' t)).
Proof.
  intros s l s' ev Hr H Hm He Hsp Hex x.
  assert (Hl : leaves_alone cfg j t s l) by (destruct l; try exact Logic.I; contradiction).
  destruct (step_before s l s' ev Hr H Hm He Hl) as (c & ph & s1 & B & Hw).
  destruct B as (Hc & Hph & I1 & M1 & Ecp & Hnow & Hn2 & Ep & Ec & Es & En & Erem & Hpre).
  assert (E1 : k_th s1 t = k_th s t).
  { destruct Hpre as [X|[(X & _)|(d & D1 & D2 & _)]]; [assumption|now destruct l|]. elim (Hex d D1 D2). }
  assert (Ea : aff t s1 = x) by (unfold aff, x; congruence).
  assert (Hel : elects ph c x /\ is_proc cfg x <-> schedules cfg l x).
  { unfold schedules, elects. destruct l as [d|c0|c0|c0 v|c0]; try contradiction.
    - subst ph. split; [intros ([C|(C & _)] & _); discriminate|intros (_ & [C|(c0 & C)]); discriminate].
    - destruct Hw as (-> & -> & _). split; [intros (_ & Q); split; [assumption|right; now exists c0]|intros (Q & _); auto].
    - destruct Hw as (-> & -> & _). split.
      + intros ([C|(_ & ->)] & Q); [discriminate|]. auto.
      + intros (Q & [C|(c1 & C)]); [|discriminate]. injection C as ->. auto. }
  destruct (phase_effect cfg W j t Hj Ht c ph s1 s' I1 Hc Hph M1) as (P1 & P2). rewrite E1, Ea in *. cbv zeta in P1, P2.
  split.
  - intros N. destruct (elects_dec ph c x) as [Q|Q]; [|auto]. pose proof Q as (El & Hx).
    destruct (P2 El Hx) as (y & Y1 & Y2 & Y3 & _). rewrite Y2 in Y3 by (intros C; apply N; split; [now apply Hel|assumption]).
    destruct Y3 as [Y3|(Y3 & _)]; [assumption|]. elim (Hex _ Hx (Ec _ Hx Y3)).
  - intros Q Ej. apply Hel in Q. destruct Q as (El & Hx). destruct (P2 El Hx) as (y & Y1 & Y2 & Y3 & _).
    assert (Hphn : ph <> PhNone) by (intros ->; destruct El as [C|(C & _)]; discriminate). rewrite (Hn2 Hphn) in Y1.
    exists y. split; [auto|]. destruct Y3 as [Y3|(Y3 & _)]; [assumption|]. elim (Hex _ Hx (Ec _ Hx Y3)).
Qed.

(** ** The budget *)
Lemma wake_remaining : forall tm x now a y, 0 < t_period a < 2 ^ 64 -> 0 <= t_next_act a < 2 ^ 64 -> wake tm x now a = Some y ->
  t_capacity y = t_capacity a /\ (t_next_act y = t_next_act a -> t_remaining y = t_remaining a).
Proof.
  intros tm x now a y Hp Hn H. unfold wake in H. cbv zeta in H. destruct (t_affinity a =? x); [|injection H as <-; auto].
  assert (G : forall b, t_next_act b = t_next_act a -> t_period b = t_period a -> t_capacity b = t_capacity a -> t_remaining b = t_remaining a ->
    (if (t_state b =? ST_WAIT_NEXT) && (t_next_act b <=? now) then
       if t_capacity b =? 0 then None
       else Some (set_t_next_act (u64 (t_next_act b + t_period b)) (set_t_remaining (t_capacity b) (set_t_state ST_RUNNABLE b)))
     else Some b) = Some y -> t_capacity y = t_capacity a /\ (t_next_act y = t_next_act a -> t_remaining y = t_remaining a)).
  { intros b B1 B2 B3 B4 E. destruct ((t_state b =? ST_WAIT_NEXT) && (t_next_act b <=? now)); [|injection E as <-; auto]. destruct (t_capacity b =? 0); [discriminate|]. injection E as <-.
    split; [exact B3|]. cbn. rewrite B1, B2. intros C. exfalso. unfold u64 in C.
    destruct (Z_lt_dec (t_next_act a + t_period a) (2 ^ 64)); [rewrite Z.mod_small in C by lia; lia|].
    rewrite <- (Z_mod_plus_full _ (-1)), Z.mod_small in C by lia. lia. }
  destruct (tm && _ && _); apply (G _) in H; auto.
Qed.
Lemma charge_remaining : forall a, Z.max 0 (t_remaining (charge a)) <= Z.max 0 (t_remaining a).
Proof.
  intros a. unfold charge. destruct (0 <? t_remaining a); [cbn; lia|]. destruct (0 <? t_capacity a); cbn; lia.
Qed.

Lemma step_budget : forall s l s' ev x, reachable cfg s -> kstep cfg s l = KNext s' ev -> mode_of s j = PM_NORMAL ->
  t <> p_error (k_part s j) -> leaves_alone cfg j t s l -> 0 < t_period (k_th s t) < 2 ^ 64 ->
  t_next_act (k_th s' t) = t_next_act (k_th s t) ->
  t <> low_of cfg j -> 0 < t_capacity (k_th s t) ->
  (if schedulesb cfg l x && (k_cur s x =? t) && (k_cur s' x =? t) then 1 else 0) + Z.max 0 (t_remaining (k_th s' t)) <= Z.max 0 (t_remaining (k_th s t)).
Proof.
  intros s l s' ev x Hr H Hm He Hl Hper Hna Hmain Hcap. destruct (step_before s l s' ev Hr H Hm He Hl) as (c & ph & s1 & B & Hw).
  destruct B as (Hc & Hph & I1 & M1 & Ecp & Hnow & Hn2 & Ep & Ec & Es & En & Erem & Hpre).
  destruct (statics_fields _ _ Es) as (Eper & Ecap & Eaff).
  destruct (phase_effect cfg W j t Hj Ht c ph s1 s' I1 Hc Hph M1) as (P1 & P2). cbv zeta in P1, P2.
  assert (Hrem1 : Z.max 0 (t_remaining (k_th s1 t)) <= Z.max 0 (t_remaining (k_th s t))) by (destruct Erem as [->| ->]; lia).
  assert (Hr' : reachable cfg s'). { apply (reachable_run cfg [l] s s' (ev ++ [])); [assumption|]. cbn. now rewrite H. }
  assert (Gen : Z.max 0 (t_remaining (k_th s' t)) <= Z.max 0 (t_remaining (k_th s t))).
  { destruct (elects_dec ph c (aff t s1)) as [(El & Hx)|N].
    - destruct (P2 El Hx) as (y & Y1 & Y2 & Y3 & _).
      assert (Hy : t_next_act y = t_next_act (k_th s1 t) -> t_remaining y = t_remaining (k_th s1 t)).
      { destruct (Z.eq_dec (k_cp s') j) as [E|E]; [|now rewrite (Y2 E)].
        apply (wake_remaining _ _ _ _ _ ltac:(now rewrite Eper) ltac:(rewrite En; apply (next_act_range s Hr)) (Y1 E)). }
      destruct Y3 as [Y3|(_ & Y3)]; apply same_end_fields in Y3; destruct Y3 as (_ & _ & _ & -> & F & _).
      + rewrite Hy; [assumption|congruence].
      + rewrite charge_next in F. pose proof (charge_remaining y). rewrite Hy in * by congruence. lia.
    - specialize (P1 N). apply same_end_fields in P1. destruct P1 as (_ & _ & _ & -> & _). assumption. }
  destruct (schedulesb cfg l x) eqn:Sb; [|cbn; lia]. destruct (Z.eqb_spec (k_cur s x) t) as [K1|]; [|cbn; lia].
  destruct (Z.eqb_spec (k_cur s' x) t) as [K2|]; [|cbn; lia]. cbn [andb].
  assert (Hx : is_proc cfg x /\ elects ph c x /\ s1 = s).
  { unfold elects. destruct l as [d|c0|c0|c0 v|c0]; try discriminate; cbn in Sb; destruct Hw as (-> & -> & ->).
    - apply valid_proc_is in Sb. auto.
    - apply Z.eqb_eq in Sb. subst c0. auto. }
  destruct Hx as (Hx & El & ->). clear Ecp Hnow Ep Ec Es En Erem Hpre Eper Ecap Eaff Hrem1.
  assert (Ea : aff t s = x).
  { destruct (Z.eq_dec x (aff t s)) as [|N]; [auto|]. destruct M1 as (_ & _ & M3). elim (M3 x Hx N K1). }
  rewrite Ea in *. destruct (P2 El Hx) as (y & Y1 & Y2 & Y3 & Y4).
  assert (Ej : k_cp s' = j).
  { destruct (Z.eq_dec (k_cp s') j) as [|N]; [assumption|].
    elim (kinv_away cfg W j s' Hj (reachable_inv cfg W s' Hr') ltac:(congruence) x Hx). now rewrite K2. }
  specialize (Y1 Ej). specialize (Y4 K1 Ej ltac:(rewrite (po_main _ _ _ (ki_part _ _ I1 j Hj)); exact Hmain) ltac:(rewrite K2; exact He)).
  destruct (wake_remaining _ _ _ _ _ Hper (next_act_range s Hr t) Y1) as (W1 & W2).
  pose proof (same_end_fields _ _ Y4) as (_ & _ & _ & F1 & F2 & F3 & _). rewrite charge_next in F2.
  specialize (W2 ltac:(congruence)). rewrite F1.
  assert (Hrdy : t_state (k_th s' t) = ST_RUNNABLE).
  { assert (Hm' : mode_of s' (k_cp s') = PM_NORMAL).
    { rewrite Ej. unfold mode_of in *. rewrite <- Hm. pose proof (phase_keeps cfg W c ph s s' I1 Hc Hph) as (PK & _).
      specialize (PK j). unfold pkey in PK. congruence. }
    destruct (phase_ready cfg W c ph s s' x I1 (reachable_placed cfg W s Hr) Hc Hph El Hx Hm') as [C|C].
    - rewrite K2 in C. elim (proj1 (user_not_idle cfg W j t x Hj Ht Hx) C).
    - now rewrite K2 in C. }
  rewrite Hrdy in F3. unfold charge in *. rewrite W1, W2 in *.
  destruct (Z.ltb_spec 0 (t_remaining (k_th s t))); [cbn [t_remaining set_t_remaining]; lia|]. destruct (Z.ltb_spec 0 (t_capacity (k_th s t))); [|lia].
  discriminate F3.
Qed.

Lemma now_pos : forall s, reachable cfg s -> 0 <= k_now s.
Proof.
  intros s (s0 & ls & evs & B & R). apply krun_now in R. pose proof (kboot_state cfg W s0 B) as X.
  assert (k_now s0 = 0) by (apply X). lia.
Qed.
Lemma elected_keeps_mine : forall d a b, half cfg a -> is_proc cfg d -> elected cfg d a b -> mine cfg j t a -> mine cfg j t b.
Proof.
  intros d a b Ha Hd He M. destruct (Z.eq_dec d (aff t a)) as [->|N]; [|now apply (elected_other cfg W j t Hj Ht d a b)].
  destruct M as (M1 & M2 & M3). destruct (elected_part cfg (aff t a) a b j He) as (P1 & P2 & _). split; [congruence|]. split; [congruence|].
  intros x Hx Hne. rewrite (elected_aff cfg W t (aff t a) a b Ha Hd He) in Hne.
  destruct (elected_table cfg W (aff t a) a b Ha Hd He) as (_ & _ & _ & _ & _ & Hk & _). rewrite Hk by assumption. now apply M3.
Qed.

Lemma run_budget : forall ls s s' evs x, reachable cfg s -> krun cfg s ls = Some (s', evs) -> undisturbed cfg j t s ls ->
  0 < t_period (k_th s t) -> k_now s' + t_period (k_th s t) < 2 ^ 64 -> t <> low_of cfg j -> 0 < t_capacity (k_th s t) ->
  t_next_act (k_th s' t) = t_next_act (k_th s t) ->
  kept cfg x t s ls + Z.max 0 (t_remaining (k_th s' t)) <= Z.max 0 (t_remaining (k_th s t)).
Proof.
  induction ls as [|l ls IH]; intros s s' evs x Hr H Hu Hp Hov Hmain Hcap Hna; cbn in H.
  - injection H as <- _. cbn [kept]. lia.
  - pose proof Hu as Hu0. destruct Hu as (Hm & He & Hl & Hu). cbn [kept]. destruct (kstep cfg s l) as [s1 ev| |] eqn:K; [| |discriminate].
    + destruct (krun cfg s1 ls) as [[s2 ev2]|] eqn:R; [|discriminate]. injection H as <- _.
      destruct (step_next s l s1 ev Hr K Hm He Hl) as (Es & Hn). destruct (statics_fields _ _ Es) as (Eper & Ecap & _).
      assert (Hr1 : reachable cfg s1). { apply (reachable_run cfg [l] s s1 (ev ++ [])); [assumption|]. cbn. now rewrite K. }
      pose proof (krun_now cfg ls s1 s2 ev2 R) as Hmono. pose proof (kstep_now cfg s l s1 ev K) as Hmono1. pose proof (next_act_range s Hr t) as Hran.
      destruct (run_next ls s1 s2 ev2 Hr1 R Hu ltac:(lia) ltac:(lia)) as (_ & k & K0 & K1 & _). rewrite Eper in K1.
      assert (E1 : t_next_act (k_th s1 t) = t_next_act (k_th s t)).
      { destruct Hn as [Hn|(Hd & Hn)]; [assumption|]. unfold u64 in Hn. rewrite Z.mod_small in Hn by lia. nia. }
      specialize (IH s1 s2 ev2 x Hr1 R Hu ltac:(lia) ltac:(lia) Hmain ltac:(lia) ltac:(congruence)).
      assert (Hper : 0 < t_period (k_th s t) < 2 ^ 64).
      { split; [assumption|]. assert (0 <= k_now s); [|lia]. apply (now_pos s Hr). }
      pose proof (step_budget s l s1 ev x Hr K Hm He Hl Hper E1 Hmain Hcap) as B. lia.
    + now apply (IH s s' evs x Hr H Hu).
Qed.

(** ** Who gets a processor is ready *)
Lemma phase_gets : forall c ph s s' x, kinv cfg s -> is_proc cfg c -> run_phase cfg c ph s s' -> mine cfg j t s -> is_proc cfg x ->
  k_cur s' x = t -> (~ elects ph c x /\ k_cur s x = t) \/ t_state (k_th s' t) = ST_RUNNABLE.
Proof.
  intros c ph s s' x I Hc H M Hx Hk. pose proof (kinv_half _ _ I) as Hh. pose proof M as (M1 & M2 & _).
  assert (Hone : forall a b, half cfg a -> elected cfg x a b -> k_cur b x = t -> mine cfg j t a -> k_cp b = k_cp a /\ t_state (k_th b t) = ST_RUNNABLE /\ t_affinity (k_th b t) = x).
  { intros a b Ha He Hb (N1 & N2 & _). destruct (elected_table cfg W x a b Ha Hx He) as (Ecp & _ & _ & _ & _ & _ & Hcx & _).
    destruct (user_not_idle cfg W j t x Hj Ht Hx) as (U1 & _).
    destruct Hcx as [C|C]; [congruence|]. rewrite Hb in C. pose proof Ha as (_ & Hcpa & _).
    assert (Ej : k_cp a = j) by now apply (ranges_disjoint cfg W _ _ t).
    destruct (elected_ready cfg W x a b Ha Hx He ltac:(now rewrite Ej)) as [R|(R & R2)]; [congruence|]. rewrite Hb, Ej in *.
    split; [congruence|]. split; [assumption|]. destruct R2 as [R2|R2]; [now elim N2|assumption]. }
  destruct ph; cbn in H.
  - subst s'. left. split; [|assumption]. intros [C|(C & _)]; discriminate.
  - apply sched_thread_elected in H. destruct (Z.eq_dec x c) as [->|Hne].
    + right. now apply (Hone s s').
    + left. split; [intros [C|(_ & C)]; [discriminate|congruence]|].
      destruct (elected_table cfg W c s s' Hh Hc H) as (_ & _ & _ & _ & _ & E & _). now rewrite <- E.
  - right. destruct H as (f & H). destruct (global_sched_split cfg W c s s' f Hh Hc H x Hx) as (r & a & b & Hre & Hhr & Ha & HR & Hab).
    destruct (repart_fields _ _ _ Hre) as (F1 & F2 & _ & F4 & _).
    destruct (HR (fun u v => mine cfg j t u -> mine cfg j t v /\ k_cur v x = k_cur u x /\ aff t v = aff t u /\
       (aff t u = x -> same_end (k_th u t) (k_th v t)))) as (R1 & R2).
    { split; [|split].
      - intros u v w A B Mu. destruct (A Mu) as (A1 & A2 & A3 & A4). destruct (B A1) as (B1 & B2 & B3 & B4).
        split; [assumption|]. split; [congruence|]. split; [congruence|]. intros E. apply same_end_trans with (k_th v t); [auto|]. apply B4. congruence.
      - intros u Mu. split; [assumption|]. split; [reflexivity|]. split; [reflexivity|]. intros _. apply same_end_refl.
      - intros d u v Hu Hd Hne He Mu. split; [now apply (elected_keeps_mine d u v)|].
        destruct (elected_table cfg W d u v Hu Hd He) as (_ & _ & _ & _ & _ & E & _). split; [apply E; congruence|].
        split; [now apply (elected_aff cfg W t d)|]. intros Ea. apply (elected_other cfg W j t Hj Ht d u v Hu Hd He Mu). congruence. }
    assert (Mr : mine cfg j t r) by (unfold mine, aff in *; rewrite F1, F2, F4; exact M).
    destruct (R1 Mr) as (Ma & _). pose proof (elected_keeps_mine x a b Ha Hx Hab Ma) as Mb. destruct (R2 Mb) as (_ & Kx & _ & Se).
    destruct (Hone a b Ha Hab ltac:(congruence) Ma) as (_ & S1 & S2).
    specialize (Se S2). apply same_end_fields in Se. destruct Se as (_ & _ & _ & _ & _ & -> & _). assumption.
Qed.

Lemma step_gets : forall s l s' ev x, reachable cfg s -> kstep cfg s l = KNext s' ev -> mode_of s j = PM_NORMAL ->
  t <> p_error (k_part s j) -> leaves_alone cfg j t s l -> is_proc cfg x -> k_cur s' x = t ->
  k_cur s x = t \/ t_state (k_th s' t) = ST_RUNNABLE.
Proof.
  intros s l s' ev x Hr H Hm He Hl Hx Hk. destruct (step_before s l s' ev Hr H Hm He Hl) as (c & ph & s1 & B & _).
  destruct B as (Hc & Hph & I1 & M1 & Ecp & Hnow & Hn2 & Ep & Ec & _).
  destruct (phase_gets c ph s1 s' x I1 Hc Hph M1 Hx Hk) as [(_ & C)|C]; [left; now apply Ec|now right].
Qed.

(** The queues, in the words of the specification. *)
Lemma ids_nth : forall (g : Z -> Z) k low i d, (i < k)%nat -> nth i (map g (zseq low k)) d = g (low + Z.of_nat i).
Proof.
  intros g. induction k as [|k IH]; intros low i d Hi; [lia|]. destruct i as [|i]; cbn [zseq map nth].
  - f_equal. lia.
  - rewrite IH by lia. f_equal. lia.
Qed.
Lemma zseq_len : forall k low, length (zseq low k) = k.
Proof. induction k as [|k IH]; intros low; cbn; [reflexivity|now rewrite IH]. Qed.
Lemma repr_ring : forall n f l, repr n f l -> ring n f = l.
Proof.
  intros n f l (Hn & Hh & Hlen & Hlast & He & Hbuf). unfold ring. rewrite He. destruct l as [|x l]; [reflexivity|].
  set (q := x :: l) in *. assert (Hq : (1 <= length q)%nat) by (cbn; lia).
  assert (Ed : (if (f_last f - f_head f) mod n =? 0 then n else (f_last f - f_head f) mod n) = Z.of_nat (length q)).
  { rewrite Hlast. unfold pos. rewrite Zminus_mod_idemp_l. replace (f_head f + Z.of_nat (length q) - f_head f) with (Z.of_nat (length q)) by lia.
    destruct (Nat.eq_dec (length q) (Z.to_nat n)) as [E|E].
    - rewrite E, Z2Nat.id, Z_mod_same_full by lia. reflexivity.
    - rewrite Z.mod_small by lia. destruct (Z.eqb_spec (Z.of_nat (length q)) 0); lia. }
  cbv zeta. rewrite Ed. unfold ids. rewrite Z.sub_0_r, Nat2Z.id. apply (nth_ext _ _ 0 0).
  - now rewrite map_length, zseq_len.
  - intros i Hi. rewrite map_length, zseq_len in Hi. rewrite ids_nth by assumption. rewrite Z.add_0_l. now apply Hbuf.
Qed.
Lemma unqueued_unq : forall s, reachable cfg s -> (unqueued cfg s t <-> unq s).
Proof.
  intros s Hr. pose proof (reachable_queues cfg W s Hr) as Q. unfold unqueued, unq, wait_in, objq. split.
  - intros H i o Hi Ho Hin. destruct (Q i o Hi Ho Hin) as ((l1 & R1 & _) & (l2 & R2 & _)). destruct (H i o Hi Ho Hin) as (N1 & N2).
    rewrite (repr_ring _ _ _ R1) in N1. rewrite (repr_ring _ _ _ R2) in N2.
    split; [exists l1|exists l2]; (split; [assumption|]); apply Forall_forall; intros u Hu ->; contradiction.
  - intros H i o Hi Ho Hin. destruct (H i o Hi Ho Hin) as ((l1 & R1 & A1) & (l2 & R2 & A2)).
    rewrite (repr_ring _ _ _ R1), (repr_ring _ _ _ R2). rewrite Forall_forall in A1, A2. split; intros C; [now apply (A1 t)|now apply (A2 t)].
Qed.
Lemma unq_step : forall s l s' ev, reachable cfg s -> kstep cfg s l = KNext s' ev -> executes_nowhere cfg s t -> unq s -> unq s'.
Proof.
  intros s l s' ev Hr H Hex Q. apply (wait_in_step cfg W _ s l s' ev (reachable_inv cfg W s Hr) (reachable_own cfg W s Hr) Q H).
  intros c Hc _. now apply Hex.
Qed.

(** A thread that sleeps stays so until its date. *)
Lemma run_dormant : forall ls s s' evs, reachable cfg s -> krun cfg s ls = Some (s', evs) -> undisturbed cfg j t s ls ->
  t_state (k_th s t) <> ST_RUNNABLE -> executes_nowhere cfg s t -> unqueued cfg s t -> dormant (k_now s') (k_th s t) ->
  same_end (k_th s t) (k_th s' t) /\ executes_nowhere cfg s' t /\ unqueued cfg s' t.
Proof.
  induction ls as [|l ls IH]; intros s s' evs Hr H Hu Hst Hex Hq Hd; cbn in H.
  - injection H as <- _. split; [apply same_end_refl|auto].
  - destruct Hu as (Hm & He & Hl & Hu). destruct (kstep cfg s l) as [s1 ev| |] eqn:K; [| |discriminate].
    + destruct (krun cfg s1 ls) as [[s2 ev2]|] eqn:R; [|discriminate]. injection H as <- _.
      assert (Hr1 : reachable cfg s1). { apply (reachable_run cfg [l] s s1 (ev ++ [])); [assumption|]. cbn. now rewrite K. }
      pose proof (krun_now cfg ls s1 s2 ev2 R) as Hmono. pose proof (kstep_now cfg s l s1 ev K) as Hmono1.
      assert (Hd0 : dormant (k_now s) (k_th s t)).
      { destruct Hd as (D1 & D2). split; [intros E; destruct (D1 E); [left; lia|now right]|intros E; specialize (D2 E); lia]. }
      pose proof Hq as Hq0. apply (unqueued_unq s Hr) in Hq0.
      pose proof (step_dormant s l s1 ev Hr K Hm He Hl (or_intror Hq0) Hex Hd0) as S1.
      pose proof (same_end_fields _ _ S1) as (_ & _ & _ & _ & F1 & F2 & F3 & _).
      assert (Hex1 : executes_nowhere cfg s1 t).
      { intros c Hc C. destruct (step_gets s l s1 ev c Hr K Hm He Hl Hc C) as [X|X]; [now apply (Hex c)|congruence]. }
      assert (Hq1 : unqueued cfg s1 t) by (apply unqueued_unq; [assumption|now apply (unq_step s l s1 ev)]).
      assert (Hd1 : dormant (k_now s2) (k_th s1 t)) by (unfold dormant in *; rewrite F1, F2, F3; exact Hd).
      destruct (IH s1 s2 ev2 Hr1 R Hu ltac:(congruence) Hex1 Hq1 Hd1) as (S2 & X). split; [|exact X].
      now apply same_end_trans with (k_th s1 t).
    + now apply (IH s s' evs Hr H Hu).
Qed.

Lemma sleep_date : forall s c us v s' e id d, reachable cfg s -> calls cfg s c v s' e id -> k_cur s c = t -> k_cp s = j ->
  mode_of s j = PM_NORMAL -> t <> p_error (k_part s j) ->
  (v = SSleep us /\ d = u64 (us * 1000 + k_now s) \/ v = SSleepUntil us /\ d = u64 (us * 1000)) ->
  t_wakeup (k_th s' t) = d /\ k_now s' = k_now s /\ k_obj s' = k_obj s /\
  (k_now s < d \/ c_timed_wake cfg = false -> 0 < t_remaining (k_th s t) \/ t_capacity (k_th s t) <= 0 ->
   t_state (k_th s' t) = ST_WAITING /\ executes_nowhere cfg s' t).
Proof.
  intros s c us v s' e id d Hr HC Hk Hcp Hm He Hv. pose proof (reachable_inv cfg W s Hr) as I. pose proof (reachable_mine s Hr Hm He) as M.
  apply calls_service in HC. destruct HC as (V & U & _ & f & G).
  assert (Hg : exists s1, s1 = on_th t (fun x => set_t_wakeup d (set_t_state ST_WAITING x)) s /\ sched_thread cfg c s1 = Some s').
  { eexists. split; [reflexivity|]. destruct Hv as [(-> & ->)|(-> & ->)]; cbn in G; rewrite Hk in G; unfold then_sched in G;
    match type of G with context [sched_thread cfg c ?z] => destruct (sched_thread cfg c z) as [s2|] eqn:E end; try discriminate; cbn in G; injection G as <- _ _ _; (reflexivity || exact E). }
  destruct Hg as (s1 & Es1 & Hs).
  assert (B : before_sched cfg c (SSleep 0) s s1) by (subst s1; apply before_on; [assumption|exact (eq_sym Hk)|reflexivity]).
  destruct B as (I1 & B2 & B3 & _ & _ & _ & B7). destruct (B7 Logic.I) as (B8 & B9).
  assert (Et : k_th s1 t = set_t_wakeup d (set_t_state ST_WAITING (k_th s t))) by (subst s1; cbn; now rewrite upd_same).
  assert (M1 : mine cfg j t s1) by (apply (calm_mine s s1); try assumption; [now rewrite Et|now rewrite B8|intros _ x Hx; now rewrite B9]).
  assert (Ea : aff t s1 = c).
  { destruct (Z.eq_dec c (aff t s1)) as [|N]; [auto|]. destruct M1 as (_ & _ & M3). elim (M3 c V N). now rewrite B9. }
  assert (Hph : run_phase cfg c PhThread s1 s') by exact Hs.
  destruct (phase_effect cfg W j t Hj Ht c PhThread s1 s' I1 V Hph M1) as (_ & P2). cbv zeta in P2. rewrite Ea in P2.
  destruct (P2 (or_intror (conj eq_refl eq_refl)) V) as (y & Y1 & Y2 & Y3 & _).
  assert (Yw : t_wakeup y = d).
  { destruct (Z.eq_dec (k_cp s') j) as [E|E]; [|rewrite (Y2 E), Et; reflexivity]. specialize (Y1 E). rewrite Et in Y1. unfold wake in Y1. cbv zeta in Y1.
    repeat match type of Y1 with context [if ?x then _ else _] => destruct x end; try discriminate; injection Y1 as <-; reflexivity. }
  split. { destruct Y3 as [Y3|(_ & Y3)]; apply same_end_fields in Y3; destruct Y3 as (_ & _ & _ & _ & _ & _ & -> & _); [assumption|].
    unfold charge. destruct (0 <? _); [exact Yw|]. destruct (0 <? _); exact Yw. }
  split. { apply sched_thread_elected in Hs. destruct (elected_table cfg W c s1 s' (kinv_half _ _ I1) V Hs) as (_ & -> & _). exact B3. }
  split. { destruct (phase_keeps cfg W c PhThread s1 s' I1 V Hph) as (_ & -> & _). now subst s1. }
  intros Hd Hrem.
  assert (Ey : y = k_th s1 t).
  { destruct (Z.eq_dec (k_cp s') j) as [E|E]; [|auto]. specialize (Y1 E). rewrite wake_dormant in Y1; [now injection Y1 as <-|].
    rewrite Et, B3. split; [cbn; intros _; exact Hd|cbn; discriminate]. }
  subst y. assert (St : t_state (k_th s' t) = ST_WAITING).
  { rewrite Et in Y3. destruct Y3 as [Y3|(_ & Y3)]; apply same_end_fields in Y3; destruct Y3 as (_ & _ & _ & _ & _ & -> & _); [reflexivity|].
    unfold charge. cbn [t_remaining set_t_wakeup set_t_state t_capacity]. destruct (Z.ltb_spec 0 (t_remaining (k_th s t))); [reflexivity|].
    destruct (Z.ltb_spec 0 (t_capacity (k_th s t))); [lia|reflexivity]. }
  split; [assumption|]. intros x Hx C.
  destruct (phase_gets c PhThread s1 s' x I1 V Hph M1 Hx C) as [(N & K)|K]; [|rewrite St in K; discriminate].
  apply N. right. split; [reflexivity|]. destruct M1 as (_ & _ & M3). destruct (Z.eq_dec c x) as [|Ne]; [assumption|].
  elim (M3 x Hx ltac:(congruence) K).
Qed.

(** The budget is used up. *)
Lemma step_exhausted : forall s l s' ev x, reachable cfg s -> kstep cfg s l = KNext s' ev -> mode_of s j = PM_NORMAL ->
  t <> p_error (k_part s j) -> schedules cfg l x -> k_cur s x = t -> k_cp s' = j -> k_cur s' x <> p_error (k_part s j) ->
  t <> low_of cfg j -> 0 < t_capacity (k_th s t) -> t_remaining (k_th s t) <= 0 -> t_state (k_th s t) = ST_RUNNABLE ->
  t_state (k_th s' t) = ST_WAIT_NEXT /\ k_cur s' x <> t.
Proof.
  intros s l s' ev x Hr H Hm He (Hx & Hsc) Hk Hcp Hne Hmain Hcap Hrem Hst.
  assert (Hl : leaves_alone cfg j t s l) by (destruct Hsc as [->|(c & ->)]; exact Logic.I).
  destruct (step_before s l s' ev Hr H Hm He Hl) as (c & ph & s1 & B & Hw).
  destruct B as (Hc & Hph & I1 & M1 & _).
  assert (Hel : elects ph c x /\ s1 = s).
  { unfold elects. destruct Hsc as [->|(c0 & ->)]; destruct Hw as (-> & -> & ->); auto. }
  destruct Hel as (El & ->).
  assert (Ea : aff t s = x).
  { destruct (Z.eq_dec x (aff t s)) as [|N]; [auto|]. destruct M1 as (_ & _ & M3). elim (M3 x Hx N Hk). }
  destruct (phase_effect cfg W j t Hj Ht c ph s s' I1 Hc Hph M1) as (_ & P2). cbv zeta in P2. rewrite Ea in P2.
  destruct (P2 El Hx) as (y & Y1 & _ & _ & Y4).
  specialize (Y4 Hk Hcp ltac:(rewrite (po_main _ _ _ (ki_part _ _ I1 j Hj)); exact Hmain) Hne).
  specialize (Y1 Hcp). rewrite wake_dormant in Y1 by (unfold dormant; rewrite Hst; split; discriminate). injection Y1 as <-.
  assert (S : t_state (k_th s' t) = ST_WAIT_NEXT).
  { apply same_end_fields in Y4. destruct Y4 as (_ & _ & _ & _ & _ & -> & _). unfold charge.
    destruct (Z.ltb_spec 0 (t_remaining (k_th s t))); [lia|]. destruct (Z.ltb_spec 0 (t_capacity (k_th s t))); [reflexivity|lia]. }
  split; [assumption|]. intros C. destruct (phase_gets c ph s s' x I1 Hc Hph M1 Hx C) as [(N & _)|K]; [contradiction|].
  rewrite S in K. discriminate.
Qed.
End Step.

Lemma schedules_dec : forall cfg l x, {schedules cfg l x} + {~ schedules cfg l x}.
Proof.
  intros cfg l x. unfold schedules, is_proc.
  destruct (Z_le_dec 0 x); [|right; lia]. destruct (Z_lt_dec x (c_nprocs cfg)); [|right; lia].
  destruct l as [d|c|c|c v|c]; try (right; intros (_ & [C|(k & C)]); discriminate).
  - left. split; [lia|right; eauto].
  - destruct (Z.eq_dec c x) as [->|N]; [left; auto|right]. intros (_ & [C|(k & C)]); [injection C; auto|discriminate].
Qed.
