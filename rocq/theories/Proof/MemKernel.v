(** Memory of partitions, stacks and segments in the kernel machine. *)
From Verif Require Import Model.Base Model.State Model.LockFifo Model.LockObj Model.LockSys Model.Sched
  Model.Kernel Spec.SchedSpec Spec.KernelSpec Spec.MemSpec Spec.SpaceSpec Proof.Tac Proof.SchedProof Proof.KernelBasic
  Proof.FairProof Proof.ClockProof Proof.SlotProof Proof.KernelInv Proof.ElectProof Proof.ServiceProof Proof.PlaceProof
  Proof.ThreadUpd Proof.ChoiceProof Proof.RmsProof Proof.ThreadFrame.

Definition place (t : thread) := (t_partition t, t_stack t).
Lemma statics_place : forall a b, statics a = statics b -> place a = place b.
Proof. intros a b H. unfold statics in H. unfold place. congruence. Qed.
Definition same_mem (s s' : kstate) : Prop :=
  forall i, p_base (k_part s' i) = p_base (k_part s i) /\ p_size (k_part s' i) = p_size (k_part s i).
Lemma same_mem_refl : forall s, same_mem s s. Proof. split; reflexivity. Qed.
Lemma same_mem_trans : forall a b c, same_mem a b -> same_mem b c -> same_mem a c.
Proof. intros a b c H1 H2 i. destruct (H1 i), (H2 i). split; congruence. Qed.

Section Mem.
Variable cfg : config.
Hypothesis W : supported cfg.

(** Stack address of the [k]-th thread created in partition [i]. *)
Definition stack_no (i k : Z) : Z := u32 (c_size cfg i - 4 - (k + 1) * c_stack cfg).
Definition stack_map (s : kstate) (i : Z) (f : Z -> Z) : Prop :=
  (forall t, live cfg s i t -> place (k_th s t) = (i, stack_no i (f t)) /\ 0 <= f t < p_index (k_part s i)) /\
  (forall t t', live cfg s i t -> live cfg s i t' -> f t = f t' -> t = t').
Definition stack_inv (s : kstate) : Prop := forall i, is_part cfg i -> exists f, stack_map s i f.

Lemma stack_frame : forall s s', (forall t, place (k_th s' t) = place (k_th s t)) ->
  (forall i, is_part cfg i -> p_index (k_part s' i) = p_index (k_part s i)) -> stack_inv s -> stack_inv s'.
Proof.
  intros s s' Ht Hp H i Hi. destruct (H i Hi) as (f & H1 & H2). exists f. unfold stack_map, live in *.
  rewrite Hp by assumption. split; [|assumption]. intros t Hl. rewrite Ht. now apply H1.
Qed.

(** ** Scheduling *)
Lemma phase_mem : forall c ph s s', kinv cfg s -> is_proc cfg c -> run_phase cfg c ph s s' ->
  same_mem s s' /\ k_brk s' = k_brk s /\ (stack_inv s -> stack_inv s').
Proof.
  intros c ph s s' I Hc H. pose proof (phase_statics cfg W c ph s s' I Hc H) as Hst.
  assert (G : (forall i, exists pv cu, k_part s' i = set_p_cur cu (set_p_prev pv (k_part s i))) /\ k_brk s' = k_brk s).
  { assert (Rf : forall a : kstate, forall i, exists pv cu, k_part a i = set_p_cur cu (set_p_prev pv (k_part a i))).
    { intros a i. exists (p_prev (k_part a i)), (p_cur (k_part a i)). now destruct (k_part a i). }
    destruct ph; cbn in H.
    - subst s'. auto.
    - apply sched_thread_elected in H. split; [now apply (elected_parts cfg c)|].
      now destruct (elected_table cfg W c s s' (kinv_half _ _ I) Hc H) as (_ & _ & _ & _ & E & _).
    - destruct H as (f & H). split; [|now destruct (global_sched_clock _ _ _ _ _ H) as (_ & _ & E & _)].
      refine (proj1 (global_sched_rel cfg W (fun a b => forall i, exists pv cu, k_part b i = set_p_cur cu (set_p_prev pv (k_part a i))) _ _ _ _ c s s' f (kinv_half _ _ I) Hc H)).
      + intros x y z A B i. destruct (A i) as (p1 & c1 & E1), (B i) as (p2 & c2 & E2). exists p2, c2. rewrite E2, E1. reflexivity.
      + exact Rf.
      + intros d a b _ _ He. now apply (elected_parts cfg d).
      + intros a b _ Hre. destruct (repart_fields _ _ _ Hre) as (_ & E & _). rewrite E. apply Rf. }
  destruct G as (G1 & G2). split; [|split; [assumption|]].
  - intros i. destruct (G1 i) as (pv & cu & ->). split; reflexivity.
  - apply stack_frame.
    + intros t. apply statics_place. apply Hst.
    + intros i _. destruct (G1 i) as (pv & cu & ->). reflexivity.
Qed.

(** Segments: they change when the partition changes, and then from the partition of the thread that
    executed to the partition of the elected thread. *)
Lemma others_present : forall n newp src c s s', global_sched_others n cfg newp src c s = Some s' ->
  k_present s' = k_present s /\ k_cur s' src = k_cur s src /\ k_cp s' = k_cp s.
Proof.
  induction n as [|n IH]; intros newp src c s s' H; cbn in H; [injection H as <-; auto|].
  destruct (Z.eqb_spec c src) as [->|Hne]; [now apply IH in H|].
  destruct (global_sched_thread cfg newp false c s) as [s1|] eqn:E; [|discriminate].
  destruct (IH _ _ _ _ _ H) as (-> & -> & ->). unfold global_sched_thread in E. cbn [andb] in E.
  destruct (elect_thread cfg c (k_cp s) s) as [[s2 e]|] eqn:Ee; [|discriminate]. injection E as <-.
  destruct (elect_thread_frame _ _ _ _ _ _ Ee) as (th & ->).
  destruct (record_thread_fields cfg c (u8 e) (set_k_th th s)) as (_ & _ & R1 & R2 & _ & _ & _ & _ & _ & R3 & _).
  cbn. rewrite R1, R2, R3, upd_other by congruence. repeat split.
Qed.
Lemma phase_present : forall c ph s s', kinv cfg s -> is_proc cfg c -> run_phase cfg c ph s s' ->
  (k_cp s' = k_cp s /\ k_present s' = k_present s) \/
  (k_cp s' <> k_cp s /\ ph = PhGlobal /\
   k_present s' = upd (upd (k_present s) (t_partition (k_th s (k_cur s c))) false)
                      (t_partition (k_th s' (k_cur s' c))) true).
Proof.
  intros c ph s s' I Hc H. pose proof (phase_statics cfg W c ph s s' I Hc H) as Hst. destruct ph; cbn in H.
  - left. subst s'. auto.
  - left. destruct (sched_thread_shape _ _ _ _ H) as (th & e & _ & ->).
    destruct (record_thread_fields cfg c (u8 e) (set_k_th th s)) as (_ & _ & _ & R2 & _ & _ & _ & _ & _ & R3 & _). cbn.
    rewrite R2, R3. auto.
  - destruct H as (f & H). pose proof (kinv_half _ _ I) as Hh.
    destruct (global_sched_shape _ _ _ _ _ H) as (s1 & np & s3 & E & E3 & E4).
    assert (Hre : repart cfg s (set_k_cp np s1)) by (exists s1, np, f; auto).
    pose proof (repart_half cfg W _ _ Hh Hre) as Hh1. destruct (repart_fields _ _ _ Hre) as (F1 & F2 & _ & F4 & _ & _ & _ & F8).
    destruct (others_present _ _ _ _ _ _ E4) as (O1 & O2 & O3).
    assert (Hst3 : forall t, t_partition (k_th s3 t) = t_partition (k_th (set_k_cp np s1) t)).
    { intros t. pose proof (elected_statics cfg W c _ _ Hh1 Hc (global_sched_thread_elected _ _ _ _ _ _ E3) t) as G.
      unfold statics in G. congruence. }
    assert (Hst' : forall t, t_partition (k_th s' t) = t_partition (k_th s t)).
    { intros t. destruct (Hst t) as (G & _). unfold statics in G. congruence. }
    unfold global_sched_thread in E3.
    destruct (elect_thread cfg c _ _) as [[s2 e]|] eqn:Ee; [|discriminate]. injection E3 as E3.
    destruct (elect_thread_frame _ _ _ _ _ _ Ee) as (th & ->).
    destruct (record_thread_fields cfg c (u8 e) (set_k_th th (set_k_cp np s1))) as (R0 & _ & R1 & R2 & _ & _ & _ & _ & _ & R3 & _).
    cbn in R0, R1, R2, R3.
    rewrite O1, O3, O2. cbn [andb] in E3.
    assert (Ecp : k_cp s3 = np). { rewrite <- E3. destruct (negb _); cbn; rewrite R2; reflexivity. }
    rewrite Ecp. destruct (Z.eqb_spec np (k_cp s)) as [->|Hne]; cbn [negb] in E3.
    + left. split; [reflexivity|]. rewrite <- E3. cbn. rewrite R3. exact F8.
    + right. split; [assumption|]. split; [reflexivity|]. rewrite <- E3 at 1. cbn. rewrite R3, R0, R1.
      assert (Ec : k_cur s3 c = u8 e). { rewrite <- E3. cbn. now rewrite upd_same. }
      rewrite Ec. cbn in F8, F4, F1. rewrite F8, F4.
      assert (Eth : k_th s3 = th). { rewrite <- E3. cbn. exact R0. }
      rewrite Eth in Hst3. rewrite !Hst3. cbn [k_th set_k_cp]. rewrite F1, Hst'. reflexivity.
Qed.

(** ** Services *)
Definition pre_mem (s s1 : kstate) : Prop :=
  kinv cfg s1 /\ k_cp s1 = k_cp s /\ k_present s1 = k_present s /\
  (k_brk s1 = k_brk s \/ k_brk s1 = u32 (k_brk s + 8192)) /\ same_mem s s1 /\ (stack_inv s -> stack_inv s1).
Definition keeps_cur (ph : phase) (s s1 : kstate) : Prop :=
  ph = PhNone \/ (k_cur s1 = k_cur s /\
    forall t, t_partition (k_th s1 t) = t_partition (k_th s t) \/ t_partition (k_th s1 t) = k_cp s).
Definition split_step (c : Z) (s s' : kstate) : Prop :=
  exists s1 ph, run_phase cfg c ph s1 s' /\ pre_mem s s1 /\ keeps_cur ph s s1.

Lemma create_stack : forall a pid s s' e id, kinv cfg s -> is_part cfg pid ->
  thread_create cfg a pid s = Some (s', e, id) -> stack_inv s -> stack_inv s'.
Proof.
  intros a pid s s' e id I Hpid H Hr.
  destruct (Z.eq_dec e ERR_OK) as [He|He].
  2:{ destruct (thread_create_part cfg _ _ _ _ _ _ H) as (_ & [C|C] & _); [contradiction|now subst s']. }
  destruct (thread_create_frame cfg _ _ _ _ _ _ I Hpid H) as (_ & _ & Ep & Eth & _).
  pose proof (ki_part _ _ I pid Hpid) as Hok. pose proof (po_low _ _ _ Hok) as Hlow. pose proof (po_high _ _ _ Hok) as Hhigh.
  pose proof (po_index _ _ _ Hok) as Hix. pose proof (po_size _ _ _ Hok) as Hsz.
  destruct (thread_create_cases cfg _ _ _ _ _ _ H) as [(_ & [(C & _)|(C & _)])|(_ & Eid & Hid & _ & th & k & aff & _ & Es & Hth)];
    try (rewrite C in He; discriminate).
  rewrite Hlow, Hhigh, Hsz in *.
  intros i Hi. destruct (Z.eq_dec i pid) as [->|Hne].
  - destruct (Hr pid Hi) as (f & H1 & H2). set (n := p_index (k_part s pid)) in *. set (f1 := upd f id n).
    assert (Epi : p_index (k_part s' pid) = n + 1). { rewrite Es. cbn. rewrite upd_same. reflexivity. }
    set (th1 := upd (k_th s) id (init_thread pid aff (stack_no pid n) a (k_th s id))).
    assert (T1 : forall t, low_of cfg pid <= t <= id -> place (th1 t) = (pid, stack_no pid (f1 t)) /\ 0 <= f1 t < n + 1).
    { intros t Ht. unfold th1, f1. destruct (Z.eq_dec t id) as [->|].
      - rewrite !upd_same. split; [reflexivity|lia].
      - rewrite !upd_other by assumption. destruct (H1 t) as (G1 & G2); [unfold live; fold n; lia|]. split; [assumption|fold n in G2; lia]. }
    assert (T2 : forall t t', low_of cfg pid <= t <= id -> low_of cfg pid <= t' <= id -> f1 t = f1 t' -> t = t').
    { intros t t' Ht Ht' Hff. unfold f1 in Hff. destruct (Z.eq_dec t id) as [->|]; destruct (Z.eq_dec t' id) as [->|]; auto.
      - rewrite upd_same, upd_other in Hff by assumption. destruct (H1 t') as (_ & G); [unfold live; fold n; lia|]. fold n in G. lia.
      - rewrite upd_same, upd_other in Hff by assumption. destruct (H1 t) as (_ & G); [unfold live; fold n; lia|]. fold n in G. lia.
      - rewrite !upd_other in Hff by assumption. apply H2; [unfold live; fold n; lia|unfold live; fold n; lia|assumption]. }
    assert (Esth : k_th s' = th) by (rewrite Es; reflexivity).
    unfold stack_map, live. rewrite Epi, Esth. cbv zeta in Hth.
    match type of Hth with if ?b then _ else _ => destruct b eqn:B end; destruct Hth as (-> & _).
    + match goal with |- context [sort_threads ?l ?i ?x] =>
        destruct (sort_threads_shape l i x ltac:(lia)) as (pos & Hpos & Hs) end.
      set (pm := fun x => if x =? pos then id else if (pos <? x) && (x <=? id) then x - 1 else x) in *.
      assert (P1 : forall x, low_of cfg pid <= x <= id -> low_of cfg pid <= pm x <= id).
      { intros x Hx. unfold pm. destruct (Z.eqb_spec x pos); [lia|]. destruct (Z.ltb_spec pos x); destruct (Z.leb_spec x id); cbn [andb]; lia. }
      assert (P2 : forall x y, low_of cfg pid <= x <= id -> low_of cfg pid <= y <= id -> pm x = pm y -> x = y).
      { intros x y Hx Hy. unfold pm. destruct (Z.eqb_spec x pos); destruct (Z.eqb_spec y pos); 
          destruct (Z.ltb_spec pos x); destruct (Z.leb_spec x id); destruct (Z.ltb_spec pos y); destruct (Z.leb_spec y id); cbn [andb]; lia. }
      exists (fun x => f1 (pm x)). split.
      * intros t Ht. destruct (Hs t) as (-> & _). apply T1. apply P1. lia.
      * intros t t' Ht Ht' Hff. apply P2; [lia|lia|]. apply T2; [apply P1; lia|apply P1; lia|assumption].
    + exists f1. split.
      * intros t Ht. apply T1. lia.
      * intros t t' Ht Ht'. apply T2; lia.
  - destruct (Hr i Hi) as (f & H1 & H2). exists f. unfold stack_map, live in *. rewrite Ep by assumption. split; [|assumption].
    intros t Ht. rewrite (proj1 (Eth t ltac:(idtac; intros C; apply Hne; apply (ranges_disjoint cfg W i pid t Hi Hpid); [|assumption];
      pose proof (po_index _ _ _ (ki_part _ _ I i Hi)); unfold thread_of, in_range, high_of; lia))). now apply H1.
Qed.

Lemma pm_refl : forall s, kinv cfg s -> pre_mem s s.
Proof. intros s I. split; [assumption|]. repeat split; auto. Qed.
Lemma pm_on : forall s t g, kinv cfg s -> (forall x, place (g x) = place x) -> pre_mem s (on_th t g s).
Proof.
  intros s t g I Hg. split; [now apply kinv_th|]. split; [reflexivity|]. split; [reflexivity|]. split; [now left|].
  split; [intros i; split; reflexivity|]. apply stack_frame; [|reflexivity].
  intros x. cbn. unfold upd. destruct (Z.eqb_spec x t) as [->|]; [apply Hg|reflexivity].
Qed.
Lemma kc_on : forall ph s t g, (forall x, place (g x) = place x) -> keeps_cur ph s (on_th t g s).
Proof.
  intros ph s t g Hg. right. split; [reflexivity|]. intros x. left. cbn. unfold upd. destruct (Z.eqb_spec x t) as [->|]; [|reflexivity].
  specialize (Hg (k_th s t)). unfold place in Hg. congruence.
Qed.
Lemma kc_refl : forall ph s, keeps_cur ph s s. Proof. intros ph s. right. auto. Qed.

Lemma sp_none : forall c s s1 e s' e' f, pre_mem s s1 -> ret s1 e = Some (s', e', f) -> split_step c s s'.
Proof. intros c s s1 e s' e' f B H. injection H as <- _ _. exists s1, PhNone. split; [reflexivity|]. split; [assumption|now left]. Qed.
Lemma sp_thread : forall c s s1 e s' e' f, pre_mem s s1 -> keeps_cur PhThread s s1 -> then_sched cfg c s1 e = Some (s', e', f) -> split_step c s s'.
Proof.
  intros c s s1 e s' e' f B K H. unfold then_sched in H. destruct (sched_thread cfg c s1) as [s2|] eqn:E; [|discriminate].
  injection H as <- _ _. exists s1, PhThread. split; [exact E|]. split; assumption.
Qed.
Lemma sp_global : forall c s s1 e s' e' f, pre_mem s s1 -> keeps_cur PhGlobal s s1 -> then_global cfg c s1 e = Some (s', e', f) -> split_step c s s'.
Proof.
  intros c s s1 e s' e' f B K H. unfold then_global in H. destruct (global_sched cfg c s1) as [[s2 f2]|] eqn:E; [|discriminate].
  injection H as <- _ _. exists s1, PhGlobal. split; [now exists f2|]. split; assumption.
Qed.

Lemma place_normal : forall n now act th i t, place (normal_loop n cfg now act th i t) = place (th t).
Proof. intros. apply statics_place. apply normal_loop_statics. Qed.
Lemma place_delayed : forall m now ns t, place (delayed_start_thread m now ns t) = place t.
Proof. intros. apply statics_place. apply delayed_statics. Qed.

Lemma reinit_mem : forall c s s1 mode, kinv cfg s -> is_proc cfg c -> mode = PM_COLD \/ mode = PM_WARM ->
  partition_reinit cfg c (k_cp s) (on_part (k_cp s) (set_p_mode mode) s) = Some s1 -> pre_mem s s1 /\ keeps_cur PhGlobal s s1.
Proof.
  intros c s s1 mode I Hc Hm E. pose proof (ki_cp _ _ I) as Hcp. pose proof (ki_part _ _ I _ Hcp) as Hok.
  assert (I0 : kinv cfg (on_part (k_cp s) (set_p_mode mode) s)).
  { apply kinv_part; [assumption|]. intros _. apply set_mode_ok; [assumption|]. unfold known_mode. tauto. }
  assert (Hm0 : p_mode (k_part (on_part (k_cp s) (set_p_mode mode) s) (k_cp s)) = PM_COLD \/
                p_mode (k_part (on_part (k_cp s) (set_p_mode mode) s) (k_cp s)) = PM_WARM).
  { cbn. rewrite upd_same. exact Hm. }
  destruct (reinit_inv cfg W c (k_cp s) _ s1 I0 Hcp Hc Hm0 E) as (I1 & Ecp & _ & _ & _ & _ & Hix1 & _).
  unfold partition_reinit in E.
  match type of E with setup_main_thread _ _ ?x = _ => set (sb := x) in * end.
  assert (Eb : k_part sb (k_cp s) = set_p_main_entry (c_entry cfg (k_cp s)) (set_p_error 0
      (set_p_prev (upd (p_prev (k_part s (k_cp s))) c (idle cfg c))
        (set_p_cur (upd (p_cur (k_part s (k_cp s))) c (p_low (k_part s (k_cp s))))
           (set_p_index 0 (set_p_mode mode (k_part s (k_cp s)))))))).
  { unfold sb. cbn. rewrite !upd_same. reflexivity. }
  destruct (setup_main_shape cfg W (k_cp s) sb s1 Hcp) as (F1 & F2 & F3 & F4 & F5 & F6 & F7 & F8 & aff & _ & F9);
    try (rewrite Eb; cbn); auto; try apply Hok.
  rewrite Eb in F9. cbn [p_size set_p_main_entry set_p_error set_p_prev set_p_cur set_p_index set_p_mode] in F9.
  rewrite (po_size _ _ _ Hok) in F9.
  split.
  - split; [assumption|]. split; [exact Ecp|]. split; [rewrite F4; reflexivity|]. split; [right; rewrite F8; reflexivity|]. split.
    + intros i. destruct (Z.eq_dec i (k_cp s)) as [->|Hne].
      * rewrite F6, Eb. split; reflexivity.
      * rewrite F5 by assumption. unfold sb. cbn. rewrite !upd_other by assumption. split; reflexivity.
    + intros Hs i Hi. destruct (Z.eq_dec i (k_cp s)) as [->|Hne].
      * exists (fun _ => 0). unfold stack_map, live. rewrite F6. cbn [p_index set_p_main set_p_index]. split.
        -- intros t Ht. assert (t = low_of cfg (k_cp s)) by lia. subst t. rewrite F9, upd_same. split; [|lia].
           assert (Es : stack_no (k_cp s) 0 = u32 (c_size cfg (k_cp s) - 4 - c_stack cfg)) by (unfold stack_no; f_equal; lia).
           rewrite Es. reflexivity.
        -- intros t t' Ht Ht' _. lia.
      * destruct (Hs i Hi) as (f & H1 & H2). exists f. unfold stack_map, live in *. rewrite F5 by assumption.
        unfold sb. cbn [k_part on_part set_k_part]. rewrite !upd_other by assumption. split; [|assumption].
        intros t Ht. rewrite F9, upd_other; [now apply H1|]. intros ->.
        apply Hne. apply (ranges_disjoint cfg W i (k_cp s) (low_of cfg (k_cp s)) Hi Hcp).
        -- pose proof (po_index _ _ _ (ki_part _ _ I i Hi)). unfold thread_of, in_range, high_of. lia.
        -- pose proof (low_lt_high cfg W (k_cp s) Hcp). unfold thread_of, in_range. lia.
  - right. split; [rewrite F2; reflexivity|]. intros t. rewrite F9. unfold upd. destruct (t =? _); [|left; reflexivity].
    right. reflexivity.
Qed.

Lemma activate_error_mem : forall c s, (forall t, place (k_th (activate_error_thread c s) t) = place (k_th s t)) /\
  k_part (activate_error_thread c s) = k_part s /\ k_brk (activate_error_thread c s) = k_brk s /\
  k_present (activate_error_thread c s) = k_present s /\ k_cp (activate_error_thread c s) = k_cp s.
Proof.
  intros c s. unfold activate_error_thread. destruct (_ =? 0); [repeat split|]. split; [|repeat split].
  intros t. cbn. unfold upd. match goal with |- context [t =? ?x] => destruct (Z.eqb_spec t x) as [->|] end; reflexivity.
Qed.

Lemma lock_upd_place : forall cur th th', lock_upd cur th th' -> forall t, place (th' t) = place (th t).
Proof. intros cur th th' H t. apply statics_place. now apply (lock_upd_statics cur). Qed.

Lemma sp_one : forall c s s1 d s', pre_mem s s1 -> keeps_cur PhThread s s1 -> schedule_one_proc cfg c d s1 = Some s' -> split_step c s s'.
Proof.
  intros c s s1 d s' B K H. unfold schedule_one_proc in H.
  destruct (1 <? c_nprocs cfg); [destruct (d =? c)|destruct (d =? 0)]; try discriminate.
  - exists s1, PhThread. split; [exact H|]. split; assumption.
  - injection H as <-. exists s1, PhNone. split; [reflexivity|]. split; [assumption|now left].
  - exists s1, PhThread. split; [exact H|]. split; assumption.
Qed.

Lemma lock_mem : forall c id s ob th k, kinv cfg s -> lock_upd (k_cur s c) (k_th s) th ->
  let s1 := set_k_k (upd (k_k s) (k_cur s c) k) (set_k_th th (set_k_obj (upd (k_obj s) id ob) s)) in
  pre_mem s s1 /\ forall ph, keeps_cur ph s s1.
Proof.
  intros c id s ob th k I Hl s1. pose proof (lock_upd_place _ _ _ Hl) as Hp. split.
  - split; [unfold s1; kframe I|]. split; [reflexivity|]. split; [reflexivity|]. split; [now left|].
    split; [intros i; split; reflexivity|]. apply stack_frame; [exact Hp|reflexivity].
  - intros ph. right. split; [reflexivity|]. intros t. left. specialize (Hp t). unfold place in Hp. cbn. congruence.
Qed.

Lemma lock_service_split : forall c id o s s' e f, kinv cfg s ->
  lock_service cfg c id o s = Some (s', e, f) -> split_step c s s'.
Proof.
  intros c id o s s' e f I H. unfold lock_service in H. cbv zeta in H.
  pose proof (fun ob th k => lock_mem c id s ob th k I) as B. cbv zeta in B.
  destruct o.
  - destruct (obj_lock _ _ _ _ _ _) as [[[ob th] [e'|d]]|] eqn:E; [| |discriminate]; apply obj_lock_upd in E.
    + eapply sp_none; [apply B; exact E|exact H].
    + eapply sp_thread; [apply B; exact E|apply B; exact E|exact H].
  - destruct (obj_unlock _ _ _) as [[[[ob th] e'] [w|]]|] eqn:E; [| |discriminate]; apply obj_unlock_upd in E;
      apply (wake_lock (k_cur s c)) in E.
    + destruct (schedule_one_proc _ _ _ _) as [s1|] eqn:E1; [|discriminate]. injection H as <- _ _.
      eapply sp_one; [apply B; exact E|apply B; exact E|exact E1].
    + eapply sp_none; [apply B; exact E|exact H].
  - destruct (obj_eventwait _ _ _ _ _ _) as [[[ob th] [e'|d]]|] eqn:E; [| |discriminate]; apply obj_eventwait_upd in E.
    + eapply sp_none; [apply B; exact E|exact H].
    + eapply sp_thread; [apply B; exact E|apply B; exact E|exact H].
  - destruct (obj_eventsignal _ _ _) as [[[ob th] e'] [w|]] eqn:E; apply obj_eventsignal_upd in E;
      apply (wake_lock (k_cur s c)) in E.
    + destruct (schedule_one_proc _ _ _ _) as [s1|] eqn:E1; [|discriminate]. injection H as <- _ _.
      eapply sp_one; [apply B; exact E|apply B; exact E|exact E1].
    + eapply sp_none; [apply B; exact E|exact H].
  - destruct (obj_eventbroadcast _ _ _) as [[[[ob th] e'] [|]]|] eqn:E; [| |discriminate]; apply obj_eventbroadcast_upd in E;
      apply (wake_lock (k_cur s c)) in E.
    + unfold schedule_every_proc in H. destruct (sched_thread _ _ _) as [s1|] eqn:E1; [|discriminate].
      injection H as <- _ _. eexists _, PhThread. split; [exact E1|]. split; apply B; exact E.
    + eapply sp_none; [apply B; exact E|exact H].
Qed.
Lemma lock_continue_split : forall c s s' e f, kinv cfg s -> lock_continue cfg c s = Some (s', e, f) -> split_step c s s'.
Proof.
  intros c s s' e f I H. unfold lock_continue in H. cbv zeta in H.
  pose proof (fun id ob th k => lock_mem c id s ob th k I) as B. cbv zeta in B.
  destruct (k_k s (k_cur s c)).
  - eapply sp_none; [now apply pm_refl|exact H].
  - destruct (obj_lock_resume _ _ _ _ _) as [[ob e']|]; [|discriminate].
    eapply sp_none; [apply B; apply lock_upd_refl|exact H].
  - destruct (obj_eventwait_resume _ _ _ _ _ _) as [[[[ob th] rw] [e'|d]]|] eqn:E; [| |discriminate];
      apply obj_eventwait_resume_upd in E.
    + eapply sp_none; [apply B; exact E|exact H].
    + eapply sp_thread; [apply B; exact E|apply B; exact E|exact H].
  - destruct (obj_lock_resume _ _ _ _ _) as [[ob e']|]; [|discriminate].
    eapply sp_none; [apply B; apply lock_upd_refl|exact H].
  - eapply sp_none; [now apply pm_refl|exact H].
Qed.

Lemma create_mem : forall a pid s s' e id, kinv cfg s -> is_part cfg pid ->
  thread_create cfg a pid s = Some (s', e, id) -> pre_mem s s'.
Proof.
  intros a pid s s' e id I Hpid H. pose proof (thread_create_inv cfg _ _ _ _ _ _ I Hpid H) as (I1 & Ecp & _).
  split; [assumption|]. split; [assumption|].
  pose proof (create_stack a pid s s' e id I Hpid H) as Hs.
  destruct (thread_create_cases cfg _ _ _ _ _ _ H) as [(-> & _)|(_ & _ & _ & _ & th & k & aff & _ & -> & _)].
  - repeat split; auto.
  - split; [reflexivity|]. split; [now right|]. split; [|assumption]. intros i. cbn. unfold upd.
    destruct (Z.eqb_spec i pid) as [->|]; split; reflexivity.
Qed.

Lemma mode_mem : forall s mode, kinv cfg s -> known_mode mode -> pre_mem s (on_part (k_cp s) (set_p_mode mode) s).
Proof.
  intros s mode I Hm. pose proof (ki_cp _ _ I) as Hcp. split.
  { apply kinv_part; [assumption|]. intros _. apply set_mode_ok; [now apply (ki_part _ _ I)|assumption]. }
  split; [reflexivity|]. split; [reflexivity|]. split; [now left|].
  assert (E : forall i, exists m, k_part (on_part (k_cp s) (set_p_mode mode) s) i = set_p_mode m (k_part s i)).
  { intros i. cbn. unfold upd. destruct (Z.eqb_spec i (k_cp s)) as [->|]; [now exists mode|].
    exists (p_mode (k_part s i)). now destruct (k_part s i). }
  split; [intros i; destruct (E i) as (m & ->); split; reflexivity|].
  apply stack_frame; [reflexivity|]. intros i _. destruct (E i) as (m & ->). reflexivity.
Qed.

Lemma set_mode_split : forall c mode s s' e f, kinv cfg s -> is_proc cfg c ->
  set_mode cfg c mode s = Some (s', e, f) -> split_step c s s'.
Proof.
  intros c mode s s' e f I Hc E. unfold set_mode in E.
  destruct (Z.eqb_spec mode PM_NORMAL) as [->|].
  { destruct (_ =? PM_IDLE); [eapply sp_none; [now apply pm_refl|exact E]|].
    destruct (negb _); [eapply sp_none; [now apply pm_refl|exact E]|].
    destruct (mode_mem s PM_NORMAL I ltac:(unfold known_mode; auto)) as (I1 & M1 & M2 & M3 & M4 & M5).
    eapply sp_global; [| |exact E].
    - split; [do 2 apply kinv_th; exact I1|]. split; [reflexivity|]. split; [reflexivity|]. split; [now left|]. split; [exact M4|].
      intros Hs. apply M5 in Hs. revert Hs. apply stack_frame; [|reflexivity].
      intros t. cbn. unfold upd at 1. match goal with |- context [t =? ?x] => destruct (Z.eqb_spec t x) as [->|] end.
      + unfold place. cbn. apply (place_normal _ _ _ (k_th s)).
      + apply (place_normal _ _ _ (k_th s)).
    - right. split; [reflexivity|]. intros t. left. cbn. unfold upd at 1.
      pose proof (place_normal (Z.to_nat (p_nthreads (k_part s (k_cp s)))) (k_now s) (p_activation (k_part s (k_cp s))) (k_th s) (p_low (k_part s (k_cp s))) t) as G.
      unfold place in G. match goal with |- context [t =? ?x] => destruct (Z.eqb_spec t x) as [->|] end; cbn; congruence. }
  destruct (Z.eqb_spec mode PM_STOPPED) as [->|].
  { destruct (_ || _); [eapply sp_none; [now apply pm_refl|exact E]|].
    eapply sp_global; [apply mode_mem; [assumption|unfold known_mode; auto]|right; auto|exact E]. }
  destruct ((mode =? PM_WARM) || (mode =? PM_COLD)) eqn:B; [|eapply sp_none; [now apply pm_refl|exact E]].
  rewrite orb_true_iff, !Z.eqb_eq in B.
  destruct (_ && _); [eapply sp_none; [now apply pm_refl|exact E]|].
  destruct (_ || _); [eapply sp_none; [now apply pm_refl|exact E]|].
  destruct (partition_reinit _ _ _ _) as [s1|] eqn:R; [|discriminate].
  destruct (reinit_mem c s s1 mode I Hc ltac:(tauto) R) as (M1 & M2).
  eapply sp_global; [exact M1|exact M2|exact E].
Qed.

Lemma service_split : forall c v s s' e f id, kinv cfg s -> is_proc cfg c ->
  service cfg c v s = Some (s', e, f, id) -> split_step c s s'.
Proof.
  intros c v s s' e f id I Hc H. unfold service in H. cbv zeta in H.
  pose proof (ki_cp _ _ I) as Hcp. pose proof (pm_refl s I) as Hrefl.
  destruct v.
  - destruct (thread_create _ _ _ _) as [[[s1 e1] i1]|] eqn:E; [|discriminate].
    injection H as <- _ _ _. exists s1, PhNone. split; [reflexivity|]. split; [|now left]. now apply create_mem in E.
  - inv_no H. eapply sp_thread; [| |exact E]; [apply pm_on; [assumption|reflexivity]|apply kc_on; reflexivity].
  - inv_no H. eapply sp_thread; [| |exact E]; [apply pm_on; [assumption|reflexivity]|apply kc_on; reflexivity].
  - inv_no H. eapply sp_thread; [| |exact E]; [apply pm_on; [assumption|reflexivity]|apply kc_on; reflexivity].
  - inv_no H. eapply sp_thread; [| |exact E]; [apply pm_on; [assumption|reflexivity]|apply kc_on; reflexivity].
  - destruct (in_bounds s id0).
    + destruct (get_proc_partition_id _ _); [|discriminate]. inv_no H. eapply sp_none; [|exact E]. assumption.
    + inv_no H. eapply sp_none; [|exact E]. assumption.
  - destruct (in_bounds s id0) eqn:B.
    + destruct (_ && _).
      * inv_no H. eapply sp_global; [| |exact E]; [apply pm_on; [assumption|]|apply kc_on]; intros; apply place_delayed.
      * inv_no H. eapply sp_none; [|exact E]. apply pm_on; [assumption|]. intros; apply place_delayed.
    + inv_no H. eapply sp_none; [|exact E]. assumption.
  - destruct (in_bounds s id0) eqn:B; inv_no H.
    + eapply sp_global; [| |exact E]; [apply pm_on; [assumption|reflexivity]|apply kc_on; reflexivity].
    + eapply sp_none; [|exact E]. assumption.
  - destruct (in_bounds s id0) eqn:B; inv_no H.
    + eapply sp_global; [| |exact E]; [apply pm_on; [assumption|reflexivity]|apply kc_on; reflexivity].
    + eapply sp_none; [|exact E]. assumption.
  - destruct (in_bounds s id0) eqn:B; cbn [andb] in H.
    2:{ inv_no H. eapply sp_none; [|exact E]. assumption. }
    destruct (negb _); inv_no H; (eapply sp_none; [|exact E]); [apply pm_on; [assumption|reflexivity]|assumption].
  - destruct (negb _).
    + inv_no H. eapply sp_none; [|exact E]. assumption.
    + destruct (in_bounds s (u32 (tid + p_low (cur_part s)))) eqn:B; inv_no H.
      * eapply sp_global; [| |exact E].
        -- destruct (pm_on s (u32 (tid + p_low (cur_part s)))
             (fun t => set_t_wakeup 0 (set_t_state ST_WAIT_NEXT (set_t_remaining (t_capacity t) t))) I ltac:(reflexivity)) as (B1 & B2 & B3 & B4 & B5 & B6).
           split; [unfold thread_restart; kframe B1|]. split; [reflexivity|]. split; [reflexivity|]. split; [now right|].
           split; [exact B5|exact B6].
        -- apply (kc_on PhGlobal s (u32 (tid + p_low (cur_part s)))
             (fun t => set_t_wakeup 0 (set_t_state ST_WAIT_NEXT (set_t_remaining (t_capacity t) t)))). reflexivity.
      * eapply sp_none; [|exact E]. assumption.
  - destruct (negb _).
    + inv_no H. eapply sp_none; [|exact E]. assumption.
    + destruct (in_bounds s (u32 (tid + p_low (cur_part s)))) eqn:B; inv_no H.
      * eapply sp_global; [| |exact E]; [apply pm_on; [assumption|reflexivity]|apply kc_on; reflexivity].
      * eapply sp_none; [|exact E]. assumption.
  - inv_no H. unfold set_mode_current in E. destruct (_ && _).
    + eapply sp_none; [|exact E]. assumption.
    + now apply set_mode_split in E.
  - destruct (thread_create _ _ _ _) as [[[s1 e1] i1]|] eqn:E; [|discriminate].
    destruct (Z.eqb_spec e1 ERR_OK) as [->|]; [|discriminate]. injection H as <- _ _ _.
    pose proof (thread_create_inv cfg _ _ _ _ _ _ I Hcp E) as (I1 & Ecp & _ & Hid). specialize (Hid eq_refl).
    destruct (create_mem _ _ _ _ _ _ I Hcp E) as (_ & _ & M2 & M3 & M4 & M5).
    assert (I2 : kinv cfg (on_part (k_cp s1) (set_p_error i1) s1)).
    { apply kinv_part; [assumption|]. intros _. rewrite Ecp. apply set_error_ok; [now apply (ki_part _ _ I1)|now right]. }
    assert (Ee : forall i, exists m, k_part (on_part (k_cp s1) (set_p_error i1) s1) i = set_p_error m (k_part s1 i)).
    { intros i. cbn. unfold upd. destruct (Z.eqb_spec i (k_cp s1)) as [->|]; [now exists i1|].
      exists (p_error (k_part s1 i)). now destruct (k_part s1 i). }
    eexists _, PhNone. split; [reflexivity|]. split; [|now left].
    destruct (activate_error_mem c (on_part (k_cp s1) (set_p_error i1) s1)) as (A1 & A2 & A3 & A4 & A5).
    split; [now apply (activate_error_inv cfg)|]. split; [rewrite A5; exact Ecp|]. split; [rewrite A4; exact M2|].
    split; [rewrite A3; exact M3|]. split.
    + intros i. rewrite A2. destruct (Ee i) as (m & ->). exact (M4 i).
    + intros Hs. apply M5 in Hs. revert Hs. apply stack_frame; [exact A1|]. intros i _. rewrite A2. destruct (Ee i) as (m & ->). reflexivity.
  - inv_no H. injection E as <- _ _. eexists _, PhNone. split; [reflexivity|]. split; [|now left].
    destruct (activate_error_mem c s) as (A1 & A2 & A3 & A4 & A5).
    split; [now apply (activate_error_inv cfg)|]. split; [exact A5|]. split; [exact A4|]. split; [now left|].
    split; [intros i; rewrite A2; split; reflexivity|]. apply stack_frame; [exact A1|]. intros i _. now rewrite A2.
  - destruct (lockobj_create s a) as [[s1 e1] i1] eqn:E. injection H as <- _ _ _. exists s1, PhNone. split; [reflexivity|].
    split; [|now left]. unfold lockobj_create in E. destruct (_ && _). { injection E as <- _ _. assumption. }
    destruct (find_free _ _ _). 2:{ injection E as <- _ _. assumption. }
    destruct (obj_create _ _). injection E as <- _ _.
    split; [kframe I|]. split; [reflexivity|]. split; [reflexivity|]. split; [now left|]. split; [intros i; split; reflexivity|auto].
  - inv_no H. unfold lock_wrapper in E.
    destruct (_ <? _). { eapply sp_none; [|exact E]. assumption. }
    destruct (_ <=? _). { eapply sp_none; [|exact E]. assumption. }
    destruct (negb _). { eapply sp_none; [|exact E]. assumption. }
    destruct o. 2:{ eapply sp_none; [|exact E]. assumption. }
    now apply lock_service_split in E.
Qed.

(** ** Steps *)
Lemma step_split : forall s l s' ev, kinv cfg s -> kstep cfg s l = KNext s' ev ->
  (exists d, l = KTick d /\ s' = set_k_now (k_now s') s) \/
  (exists c, proc_of l = Some c /\ is_proc cfg c /\ split_step c s s').
Proof.
  intros s l s' ev I H. pose proof (pm_refl s I) as Hrefl. destruct l; cbn in H.
  - destruct (0 <? d); [|discriminate]. injection H as <- _. left. exists d. split; reflexivity.
  - destruct (valid_proc cfg c) eqn:V; [|discriminate]. apply valid_proc_is in V.
    destruct (global_sched cfg c s) as [[s1 f]|] eqn:E; [|discriminate]. injection H as <- _.
    right. exists c. split; [reflexivity|]. split; [assumption|]. exists s, PhGlobal. split; [now exists f|]. split; [assumption|apply kc_refl].
  - destruct (valid_proc cfg c) eqn:V; [|discriminate]. apply valid_proc_is in V.
    destruct (sched_thread cfg c s) as [s1|] eqn:E; [|discriminate]. injection H as <- _.
    right. exists c. split; [reflexivity|]. split; [assumption|]. exists s, PhThread. split; [exact E|]. split; [assumption|apply kc_refl].
  - destruct (valid_proc cfg c) eqn:V; [|discriminate]. apply valid_proc_is in V.
    destruct (_ && _); [|discriminate].
    destruct (service cfg c v s) as [[[[s1 e] f] id]|] eqn:E; [|discriminate]. injection H as <- _.
    right. exists c. split; [reflexivity|]. split; [assumption|]. now apply service_split in E.
  - destruct (valid_proc cfg c) eqn:V; [|discriminate]. apply valid_proc_is in V.
    destruct (_ && _); [|discriminate].
    destruct (lock_continue cfg c s) as [[[s1 e] f]|] eqn:E; [|discriminate]. injection H as <- _.
    right. exists c. split; [reflexivity|]. split; [assumption|]. now apply lock_continue_split in E.
Qed.

Lemma step_mem : forall s l s' ev, kinv cfg s -> kstep cfg s l = KNext s' ev ->
  same_mem s s' /\ (k_brk s' = k_brk s \/ k_brk s' = u32 (k_brk s + 8192)) /\ (stack_inv s -> stack_inv s').
Proof.
  intros s l s' ev I H. destruct (step_split s l s' ev I H) as [(d & _ & E)|(c & _ & Hc & s1 & ph & Hph & M & _)].
  - assert (E1 : k_part s' = k_part s) by (rewrite E; reflexivity). assert (E2 : k_th s' = k_th s) by (rewrite E; reflexivity).
    split; [intros i; rewrite E1; split; reflexivity|]. split; [left; rewrite E; reflexivity|].
    apply stack_frame; [intros t; now rewrite E2|intros i _; now rewrite E1].
  - destruct M as (I1 & _ & _ & M3 & M4 & M5). destruct (phase_mem c ph s1 s' I1 Hc Hph) as (P1 & P2 & P3).
    split; [now apply same_mem_trans with s1|]. split; [rewrite P2; exact M3|auto].
Qed.

(** A step that keeps the partition keeps the segments; a clean change of partition disables those of
    the old one and enables those of the new one. *)
Lemma step_present : forall s l s' ev, kinv cfg s -> stack_inv s -> kstep cfg s l = KNext s' ev ->
  (k_cp s' = k_cp s -> k_present s' = k_present s) /\
  (k_cp s' <> k_cp s -> clean_switch cfg s l s' -> k_present s' = upd (upd (k_present s) (k_cp s) false) (k_cp s') true).
Proof.
  intros s l s' ev I Hs H. pose proof (kstep_inv cfg W s l s' ev I H) as I'.
  destruct (step_mem s l s' ev I H) as (_ & _ & Hs'). specialize (Hs' Hs).
  destruct (step_split s l s' ev I H) as [(d & _ & E)|(c & Hpc & Hc & s1 & ph & Hph & M & K)].
  - split; [intros _; rewrite E; reflexivity|]. intros C. exfalso. apply C. rewrite E. reflexivity.
  - destruct M as (I1 & M1 & M2 & _). rewrite <- M1, <- M2.
    destruct (phase_present c ph s1 s' I1 Hc Hph) as [(P1 & P2)|(P1 & P2 & P3)].
    + split; [auto|]. intros C. contradiction.
    + split; [contradiction|]. intros _ Hcl. rewrite M1 in P1. destruct (Hcl P1 c Hpc) as (L1 & L2).
      rewrite P3, M1. f_equal; [f_equal|].
      * destruct K as [K|(K1 & K2)]; [rewrite K in P2; discriminate|]. rewrite K1.
        destruct (K2 (k_cur s c)) as [->|E]; [|exact E].
        destruct (Hs (k_cp s) (ki_cp _ _ I)) as (f & G & _). destruct (G _ L1) as (G1 & _). unfold place in G1. congruence.
      * destruct (Hs' (k_cp s') (ki_cp _ _ I')) as (f & G & _). destruct (G _ L2) as (G1 & _). unfold place in G1. congruence.
Qed.

End Mem.
