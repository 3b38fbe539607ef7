(** Threads of partitions that do not execute are left alone. *)
From Verif Require Import Model.Base Model.State Model.LockFifo Model.LockObj Model.LockSys Model.Sched Model.Kernel
  Spec.SchedSpec Spec.KernelSpec Proof.Tac Proof.SchedProof Proof.KernelBasic Proof.ClockProof Proof.SlotProof Proof.KernelInv
  Proof.ElectProof Proof.ServiceProof Proof.PlaceProof Proof.PartStep Proof.ObjStep Proof.QueueProof.

Section Frame.
Variable cfg : config.
Hypothesis W : supported cfg.

Lemma elect_thread_outside : forall c np s s' e t, elect_thread cfg c np s = Some (s', e) ->
  t < p_low (k_part s np) \/ p_low (k_part s np) + Z.of_nat (Z.to_nat (p_nthreads (k_part s np))) <= t ->
  t <> k_cur s c -> t <> e -> k_th s' t = k_th s t.
Proof.
  intros c np s s' e t H Ht Hc He. unfold elect_thread in H. destruct (_ <? _); [discriminate|].
  destruct (wake_loop _ _ _ _ _ _) as [th|] eqn:E; [|discriminate].
  destruct (wake_loop_spec _ _ _ _ _ _ _ E) as (_ & Hw). specialize (Hw t Ht).
  destruct (elect cfg c np (set_k_th th s)) as [[s2 e2]|] eqn:E2; [|discriminate]. injection H as <- <-.
  assert (H2 : k_th s2 t = k_th s t).
  { rewrite <- Hw. unfold elect in E2. destruct (_ || _); [injection E2 as <- _; reflexivity|].
    destruct (_ =? PM_NORMAL); [|injection E2 as <- _; reflexivity].
    destruct (_ && _); [injection E2 as <- _; reflexivity|].
    destruct (sched_func _ _ _ _ _ _ _ _); [|discriminate]. injection E2 as <- _.
    destruct (consume_spec cfg c (set_k_th th s)) as (_ & C). apply C. intros (C1 & _). now apply Hc. }
  destruct (0 <? _); [|exact H2]. cbn. rewrite upd_other by assumption. exact H2.
Qed.

Lemma elected_outside : forall c s s' t, half cfg s -> is_proc cfg c -> elected cfg c s s' ->
  ~ thread_of cfg (k_cp s) t -> t <> k_cur s c -> t <> idle cfg c -> k_th s' t = k_th s t.
Proof.
  intros c s s' t (HP & Hcp & _ & _) Hc (th & e & pr & E & ->) Ht Hk Hi.
  pose proof (elect_thread_ok cfg W c s _ e HP Hcp Hc E) as He.
  destruct (HP _ Hcp) as [Hlow Hhigh Hn _ _ _ _ _ _ _ _ _ _]. pose proof (sp_threads cfg W _ Hcp) as Hnt.
  assert (G : k_th (set_k_th th s) t = k_th s t).
  { apply (elect_thread_outside c (k_cp s) s _ e t E); [|assumption|].
    - rewrite Hlow, Hn, Z2Nat.id by lia. unfold thread_of, in_range, high_of in Ht. lia.
    - intros ->. destruct He; contradiction. }
  cbn. destruct (record_thread_fields cfg c (u8 e) (set_k_th th s)) as (R1 & _). rewrite R1. exact G.
Qed.

(** Threads of partition [j]. *)
Lemma user_not_idle : forall j t c, is_part cfg j -> thread_of cfg j t -> is_proc cfg c -> t <> idle cfg c /\ t <> kernel_thread cfg.
Proof.
  intros j t c Hj Ht Hc. pose proof (sp_total _ W). pose proof (sp_threads _ W j Hj).
  assert (t < c_nthreads cfg - 1 - c_nprocs cfg).
  { pose proof (high_bound cfg W j Hj). unfold thread_of, in_range in Ht. lia. }
  unfold is_proc, idle, kernel_thread in *. lia.
Qed.

Definition away (j : Z) (s : kstate) : Prop := forall c, is_proc cfg c -> ~ thread_of cfg j (k_cur s c).

Lemma elected_away : forall j c s s', is_part cfg j -> half cfg s -> is_proc cfg c -> elected cfg c s s' -> j <> k_cp s -> away j s ->
  k_cp s' = k_cp s /\ away j s' /\ forall t, thread_of cfg j t -> k_th s' t = k_th s t.
Proof.
  intros j c s s' Hj Hh Hc He Hne Ha. pose proof Hh as (_ & Hcp & _).
  destruct (elected_table cfg W c s s' Hh Hc He) as (E1 & _ & _ & _ & _ & Ecur & Hcur & _).
  split; [assumption|]. split.
  - intros d Hd Ht. destruct (Z.eq_dec d c) as [->|Hdc].
    + destruct Hcur as [C|C]; [now apply (proj1 (user_not_idle j _ c Hj Ht Hc))|].
      apply Hne. now apply (ranges_disjoint cfg W j (k_cp s) (k_cur s' c)).
    + rewrite Ecur in Ht by assumption. now apply (Ha d Hd).
  - intros t Ht. apply (elected_outside c s s' t Hh Hc He).
    + intros C. apply Hne. now apply (ranges_disjoint cfg W j (k_cp s) t).
    + intros ->. now apply (Ha c Hc).
    + exact (proj1 (user_not_idle j t c Hj Ht Hc)).
Qed.

Lemma kinv_away : forall j s, is_part cfg j -> kinv cfg s -> j <> k_cp s -> away j s.
Proof.
  intros j s Hj I Hne c Hc Ht. destruct (ki_cur _ _ I c Hc) as [C|[C|C]].
  - now apply (proj2 (user_not_idle j _ c Hj Ht Hc)).
  - now apply (proj1 (user_not_idle j _ c Hj Ht Hc)).
  - apply Hne. apply (ranges_disjoint cfg W j (k_cp s) (k_cur s c)); try assumption. apply (ki_cp _ _ I).
Qed.

Lemma phase_outside : forall c ph s s' j t, kinv cfg s -> is_proc cfg c -> run_phase cfg c ph s s' -> is_part cfg j ->
  thread_of cfg j t -> j <> k_cp s -> j <> k_cp s' -> k_th s' t = k_th s t.
Proof.
  intros c ph s s' j t I Hc H Hj Ht N1 N2. pose proof (kinv_half _ _ I) as Hh. pose proof (kinv_away j s Hj I N1) as Ha.
  destruct ph; cbn in H.
  - now subst.
  - apply sched_thread_elected in H. now apply (elected_away j c s s' Hj Hh Hc H N1 Ha).
  - destruct H as (f & H). destruct (global_sched_shape _ _ _ _ _ H) as (s1 & np & s3 & E & E3 & E4).
    assert (Hre : repart cfg s (set_k_cp np s1)) by (exists s1, np, f; auto).
    pose proof (repart_half cfg W _ _ Hh Hre) as Hh1. apply global_sched_thread_elected in E3.
    pose proof (elected_half cfg W _ _ _ Hh1 Hc E3) as Hh3. pose proof (sp_procs cfg W).
    destruct (repart_fields _ _ _ Hre) as (F1 & _ & _ & F2 & _).
    set (R := fun a b => k_cp b = k_cp a /\ (j <> k_cp a -> away j a -> away j b /\ forall t, thread_of cfg j t -> k_th b t = k_th a t)).
    assert (Rel : forall d a b, half cfg a -> is_proc cfg d -> elected cfg d a b -> R a b).
    { intros d a b Ka Kd Ke. split; [apply (elected_table cfg W d a b Ka Kd Ke)|].
      intros Kn Kw. now destruct (elected_away j d a b Hj Ka Kd Ke Kn Kw) as (_ & A & B). }
    assert (RT : forall a b d, R a b -> R b d -> R a d).
    { intros a b d (A1 & A2) (B1 & B2). split; [congruence|]. intros K1 K2. destruct (A2 K1 K2) as (A3 & A4).
      rewrite <- A1 in K1. destruct (B2 K1 A3) as (B3 & B4). split; [assumption|]. intros x Hx. rewrite B4 by assumption. now apply A4. }
    assert (RR : R (set_k_cp np s1) s').
    { apply RT with s3; [now apply Rel with c|].
      assert (RF : forall a, R a a) by (intros a; split; [reflexivity|auto]).
      refine (proj1 (others_rel cfg W R RT RF Rel (Z.to_nat (c_nprocs cfg)) _ _ 0 _ _ Hh3 _ _ E4)); lia. }
    destruct RR as (R1 & R2). rewrite R1 in N2. destruct (R2 N2) as (_ & R3).
    { intros d Hd. rewrite F2. now apply Ha. }
    rewrite R3 by assumption. now rewrite F1.
Qed.

(** Requests through which a partition reaches threads of others. *)
Definition intrudes (s : kstate) (l : klabel) (t : Z) : Prop :=
  match l with
  | KCall c v => (names cfg (k_cp s) v = Some (high_of cfg (k_cp s)) /\ t = high_of cfg (k_cp s)) \/ signals_unborn s v
  | _ => False
  end.

Lemma thread_frame : forall s l s' ev j t, reachable cfg s -> kstep cfg s l = KNext s' ev -> is_part cfg j -> thread_of cfg j t ->
  j <> k_cp s -> j <> k_cp s' -> ~ intrudes s l t -> k_th s' t = k_th s t.
Proof.
  intros s l s' ev j t Hr H Hj Ht N1 N2 Hin. pose proof (reachable_inv cfg W s Hr) as I. pose proof (nthreads_pos cfg W) as Hn.
  assert (Hno : ~ thread_of cfg (k_cp s) t).
  { intros C. apply N1. apply (ranges_disjoint cfg W j (k_cp s) t); try assumption. apply (ki_cp _ _ I). }
  destruct l as [d|c|c|c v|c]; cbn in H.
  - destruct (0 <? d); [|discriminate]. now injection H as <- _.
  - destruct (valid_proc cfg c) eqn:V; [|discriminate]. apply valid_proc_is in V.
    destruct (global_sched cfg c s) as [[s1 f]|] eqn:G; [|discriminate]. injection H as <- _.
    apply (phase_outside c PhGlobal s s1 j t I V (ex_intro _ f G) Hj Ht N1 N2).
  - destruct (valid_proc cfg c) eqn:V; [|discriminate]. apply valid_proc_is in V.
    destruct (sched_thread cfg c s) as [s1|] eqn:G; [|discriminate]. injection H as <- _.
    apply (phase_outside c PhThread s s1 j t I V G Hj Ht N1 N2).
  - destruct (valid_proc cfg c) eqn:V; [|discriminate]. apply valid_proc_is in V.
    destruct (user_thread cfg (k_cur s c)) eqn:U; [|discriminate]. destruct (is_user _); [|discriminate]. cbn in H.
    destruct (service cfg c v s) as [[[[s1 e] f] id]|] eqn:G; [|discriminate]. injection H as <- _.
    destruct (caller_is cfg s c I V U) as (Hcall & _). pose proof (ki_part _ _ I _ (ki_cp _ _ I)) as Hok.
    destruct (service_phase cfg W c v s s1 e f id I V G) as (s2 & ph & Hph & I2 & Ecp & _ & Hoth & _).
    assert (Hgen : match v with SLockOp _ _ _ => False | _ => True end -> k_th s1 t = k_th s t).
    { intros Hv. assert (Hnw : ~ writes cfg c v s t).
      { intros Hw. assert (Hb : in_bounds s t = true -> names cfg (k_cp s) v = Some t -> False).
        { intros Hb Hnm. unfold in_bounds, cur_part in Hb. rewrite (po_low _ _ _ Hok), (po_high _ _ _ Hok) in Hb.
          unfold thread_of, in_range in Hno. assert (t = high_of cfg (k_cp s)) by lia. apply Hin. left. split; [congruence|assumption]. }
        destruct v; cbn in Hw; try contradiction; try (now rewrite Hw in Hno; apply Hno).
        - destruct Hw as (-> & Hw). now apply Hb.
        - destruct Hw as (-> & Hw). now apply Hb.
        - destruct Hw as (-> & Hw). now apply Hb.
        - destruct Hw as (-> & Hw). now apply Hb.
        - destruct Hw as (Hw1 & Hw). apply Hb; [assumption|]. cbn. rewrite Hw1. unfold cur_part. now rewrite (po_low _ _ _ Hok).
        - destruct Hw as (Hw1 & Hw). apply Hb; [assumption|]. cbn. rewrite Hw1. unfold cur_part. now rewrite (po_low _ _ _ Hok).
        - destruct Hw as (Hw1 & Hw). unfold cur_part in Hw1. destruct (po_error _ _ _ Hok) as [C|C]; [congruence|].
          apply Hno. unfold thread_of, in_range. lia. }
      specialize (Hoth t Hnw). assert (E2 : k_th s2 t = k_th s t) by (destruct v; try contradiction; exact Hoth).
      rewrite <- E2. apply (phase_outside c ph s2 s1 j t I2 V Hph Hj Ht); [congruence|assumption]. }
    destruct v; try (apply Hgen; exact Logic.I). clear Hgen. cbn in G. inv_no G. unfold lock_wrapper, cur_part in E.
    rewrite (po_lo_low _ _ _ Hok), (po_lo_high _ _ _ Hok) in E.
    destruct (Z.ltb_spec id0 (lo_low_of cfg (k_cp s))) as [|L1]. { now injection E as <- _ _. }
    destruct (Z.leb_spec (lo_high_of cfg (k_cp s)) id0) as [|L2]. { now injection E as <- _ _. }
    destruct (negb _). { now injection E as <- _ _. }
    destruct o as [op|]. 2:{ now injection E as <- _ _. }
    assert (Hid : lockobj_of cfg (k_cp s) id0) by (unfold lockobj_of, in_range; lia).
    destruct (lock_service_did cfg c _ op s _ _ _ I V E) as (ob & th & k9 & ph2 & R & _ & _ & _ & D).
    destruct (objq_did _ _ Hn _ _ _ _ _ _ _ D Hcall (reachable_queues cfg W s Hr _ _ (ki_cp _ _ I) Hid)) as (_ & Ho).
    assert (Hb : ~ blind (k_obj s id0) op). { intros C. apply Hin. right. exact C. }
    specialize (Ho Hb t Hno).
    rewrite (phase_outside c ph2 _ _ j t (lock_put_inv cfg c id0 s ob th k9 I) V R Hj Ht N1 N2). exact Ho.
  - destruct (valid_proc cfg c) eqn:V; [|discriminate]. apply valid_proc_is in V.
    destruct (user_thread cfg (k_cur s c)) eqn:U; [|discriminate]. destruct (negb (is_user _)); [|discriminate]. cbn in H.
    destruct (lock_continue cfg c s) as [[[s1 e] f]|] eqn:G; [|discriminate]. injection H as <- _.
    destruct (caller_is cfg s c I V U) as (Hcall & _).
    destruct (lock_continue_did cfg c s s1 e f I V G) as [->|(id & ob & th & k9 & ph & R & _ & Hid & _ & _ & D)]; [reflexivity|].
    specialize (Hid _ (reachable_own cfg W s Hr _ _ (ki_cp _ _ I) Hcall)).
    destruct (objq_did_then _ _ Hn _ _ _ _ _ _ D Hcall (reachable_queues cfg W s Hr _ _ (ki_cp _ _ I) Hid)) as (_ & Ho).
    rewrite (phase_outside c ph _ _ j t (lock_put_inv cfg c id s ob th k9 I) V R Hj Ht N1 N2). exact (Ho t Hno).
Qed.

(** ** Services that designate a thread *)
Lemma names_service : forall s c v s' e id t, reachable cfg s -> calls cfg s c v s' e id -> names cfg (k_cp s) v = Some t ->
  (e <> ERR_OK /\ s' = s) \/ (e = ERR_OK /\ low_of cfg (k_cp s) <= t <= high_of cfg (k_cp s)).
Proof.
  intros s c v s' e id t Hr HC Hnm. pose proof (reachable_inv cfg W s Hr) as I. pose proof (ki_part _ _ I _ (ki_cp _ _ I)) as Hok.
  apply calls_service in HC. destruct HC as (V & U & _ & f & G).
  assert (Hb : forall x, in_bounds s x = true -> low_of cfg (k_cp s) <= x <= high_of cfg (k_cp s)).
  { intros x Hb. unfold in_bounds, cur_part in Hb. rewrite (po_low _ _ _ Hok), (po_high _ _ _ Hok) in Hb. lia. }
  assert (Hg : forall s1 s2 e0 e2 f2, then_global cfg c s1 e0 = Some (s2, e2, f2) -> e2 = e0).
  { intros s1 s2 e0 e2 f2 E. unfold then_global in E. destruct (global_sched _ _ _) as [[s3 f3]|]; [|discriminate]. now injection E as _ <- _. }
  destruct v; try discriminate; cbn in Hnm; injection Hnm as <-; cbn in G.
  - destruct (in_bounds s id0) eqn:B.
    + destruct (get_proc_partition_id _ _); [|discriminate]. injection G as _ <- _ _. right. auto.
    + injection G as <- <- _ _. left. split; [discriminate|reflexivity].
  - destruct (in_bounds s id0) eqn:B.
    + destruct (_ && _); [inv_no G; apply Hg in E|injection G as _ <- _ _]; right; auto.
    + injection G as <- <- _ _. left. split; [discriminate|reflexivity].
  - destruct (in_bounds s id0) eqn:B.
    + inv_no G. apply Hg in E. right; auto.
    + injection G as <- <- _ _. left. split; [discriminate|reflexivity].
  - destruct (in_bounds s id0) eqn:B.
    + inv_no G. apply Hg in E. right; auto.
    + injection G as <- <- _ _. left. split; [discriminate|reflexivity].
  - destruct (in_bounds s id0) eqn:B; cbn in G.
    + destruct (negb _); [injection G as _ <- _ _; right; auto|]. injection G as <- <- _ _. left. split; [discriminate|reflexivity].
    + injection G as <- <- _ _. left. split; [discriminate|reflexivity].
  - destruct (negb _). { injection G as <- <- _ _. left. split; [discriminate|reflexivity]. }
    unfold cur_part in G. rewrite (po_low _ _ _ Hok) in G. destruct (in_bounds s _) eqn:B.
    + inv_no G. apply Hg in E. right; auto.
    + injection G as <- <- _ _. left. split; [discriminate|reflexivity].
  - destruct (negb _). { injection G as <- <- _ _. left. split; [discriminate|reflexivity]. }
    unfold cur_part in G. rewrite (po_low _ _ _ Hok) in G. destruct (in_bounds s _) eqn:B.
    + inv_no G. apply Hg in E. right; auto.
    + injection G as <- <- _ _. left. split; [discriminate|reflexivity].
Qed.

Lemma wake_prio : forall b c now t t', wake b c now t = Some t' -> t_priority t' = t_priority t.
Proof.
  intros b c now t t' H. unfold wake in H. cbv zeta in H.
  repeat match type of H with context [if ?x then _ else _] => destruct x end; try discriminate; injection H as <-; reflexivity.
Qed.
Lemma charge_prio : forall t, t_priority (charge t) = t_priority t.
Proof. intros t. unfold charge. repeat match goal with |- context [if ?x then _ else _] => destruct x end; reflexivity. Qed.

(** What scheduling never changes. *)
Lemma phase_statics : forall c ph s s', kinv cfg s -> is_proc cfg c -> run_phase cfg c ph s s' ->
  forall t, statics (k_th s' t) = statics (k_th s t) /\ t_priority (k_th s' t) = t_priority (k_th s t).
Proof.
  intros c ph s s' I Hc H. pose proof (kinv_half _ _ I) as Hh.
  assert (Rel : forall d a b, half cfg a -> is_proc cfg d -> elected cfg d a b ->
     forall t, statics (k_th b t) = statics (k_th a t) /\ t_priority (k_th b t) = t_priority (k_th a t)).
  { intros d a b Ha Hd He t. split; [now apply (elected_statics cfg W d a b Ha Hd He)|].
    destruct (elected_table cfg W d a b Ha Hd He) as (_ & _ & _ & _ & _ & _ & _ & th1 & th2 & T1 & T2 & T3 & T4).
    assert (E1 : t_priority (th1 t) = t_priority (k_th a t)).
    { destruct (thread_of_dec cfg (k_cp a) t) as [K|K]; [|now rewrite T2]. specialize (T1 t K). now apply wake_prio in T1. }
    assert (E2 : t_priority (th2 t) = t_priority (th1 t)).
    { destruct T4 as [(_ & _ & C1 & C2 & _)|(-> & _)]; [|reflexivity].
      destruct (charged_dec cfg d a t) as [D|D]; [rewrite C1 by assumption; apply charge_prio|now rewrite C2]. }
    rewrite (proj1 (same_end_fields _ _ (T3 t))). congruence. }
  destruct ph; cbn in H.
  - subst. auto.
  - apply sched_thread_elected in H. now apply (Rel c).
  - destruct H as (f & H).
    refine (proj1 (global_sched_rel cfg W (fun a b => forall t, statics (k_th b t) = statics (k_th a t) /\ t_priority (k_th b t) = t_priority (k_th a t)) _ _ Rel _ c s s' f Hh Hc H)).
    + intros a b d A B t. destruct (A t), (B t). split; congruence.
    + auto.
    + intros a b Ha Hre. destruct (repart_fields _ _ _ Hre) as (-> & _). auto.
Qed.
End Frame.

Section Named.
Variable cfg : config.
Hypothesis W : supported cfg.

Lemma named_service : forall s c v s' e id t, reachable cfg s -> calls cfg s c v s' e id -> names cfg (k_cp s) v = Some t ->
  t <> high_of cfg (k_cp s) ->
  (e <> ERR_OK /\ s' = s) \/
  (e = ERR_OK /\ thread_of cfg (k_cp s) t /\
   (forall u, u <> t -> attributes (k_th s' u) = attributes (k_th s u)) /\
   (forall j u, is_part cfg j -> j <> k_cp s -> j <> k_cp s' -> thread_of cfg j u -> k_th s' u = k_th s u)).
Proof.
  intros s c v s' e id t Hr HC Hn Ht. destruct (names_service cfg W s c v s' e id t Hr HC Hn) as [H|(He & Hb)]; [now left|right].
  split; [assumption|]. split; [unfold thread_of, in_range; lia|]. split.
  - intros u Hu. pose proof (reachable_inv cfg W s Hr) as I. pose proof (ki_part _ _ I _ (ki_cp _ _ I)) as Hok.
    apply calls_service in HC. destruct HC as (V & U & _ & f & G).
    destruct (service_phase cfg W c v s s' e f id I V G) as (s2 & ph & Hph & I2 & _ & _ & Hoth & _).
    assert (E : k_th s2 u = k_th s u).
    { assert (Hw : ~ writes cfg c v s u).
      { intros Hw. apply Hu. destruct v; try discriminate; cbn in Hw, Hn; injection Hn as <-; try contradiction; try (apply Hw);
          unfold cur_part in Hw; rewrite (po_low _ _ _ Hok) in Hw; apply Hw. }
      specialize (Hoth u Hw). destruct v; try discriminate; exact Hoth. }
    destruct (phase_statics cfg W c ph s2 s' I2 V Hph u) as (A & B). rewrite E in A, B.
    unfold statics in A. unfold attributes. congruence.
  - intros j u Hj N1 N2 Hu. destruct HC as (f & HC). apply (thread_frame cfg W s (KCall c v) s' _ j u Hr HC Hj Hu N1 N2).
    intros [(C & _)|C]; [congruence|]. destruct v; try discriminate; exact C.
Qed.
End Named.
