(** Time partitioning: the variables of the partition scheduler evolve by themselves. *)
From Verif Require Import Model.Base Model.State Model.LockFifo Model.LockObj Model.LockSys Model.Sched
  Model.Kernel Spec.SchedSpec Spec.KernelSpec Proof.Tac Proof.SchedProof Proof.KernelBasic Proof.FairProof.

Record clock := mkClock { ck_cp : Z; ck_slot : Z; ck_deadline : Z; ck_now : Z }.
Definition clock_of (s : kstate) : clock := mkClock (k_cp s) (k_slot s) (k_deadline s) (k_now s).

(** Partition election on the clock alone. *)
Definition next_clock (cfg : config) (k : clock) : clock :=
  if c_nparts cfg <=? 1 then k
  else if ck_deadline k <=? ck_now k then
    let slot := (ck_slot k + 1) mod c_nslots cfg in
    mkClock (c_alloc cfg slot) slot (u64 (ck_deadline k + c_slot cfg slot)) (ck_now k)
  else k.

Lemma elect_partition_clock : forall cfg s s1 np f, elect_partition cfg s = (s1, np, f) ->
  clock_of (set_k_cp np s1) = next_clock cfg (clock_of s) /\
  k_th s1 = k_th s /\ k_part s1 = k_part s /\ k_obj s1 = k_obj s /\ k_cur s1 = k_cur s /\
  k_cp s1 = k_cp s /\ k_now s1 = k_now s /\ k_present s1 = k_present s /\ k_brk s1 = k_brk s /\ k_k s1 = k_k s.
Proof.
  intros cfg s s1 np f H. unfold elect_partition in H. unfold next_clock, clock_of; cbn.
  destruct (c_nparts cfg <=? 1). { injection H as <- <- _. repeat split. }
  destruct (k_deadline s <=? k_now s). 2:{ injection H as <- <- _. repeat split. }
  destruct (c_flush cfg); [| destruct (k_major s <=? k_now s) | destruct (k_flush s <=? k_now s) |];
    injection H as <- <- _; repeat split.
Qed.

(** ** Frames of the scheduling functions: everything except threads, partitions, k_cur, k_present *)
Definition same_rest (s s' : kstate) : Prop :=
  clock_of s' = clock_of s /\ k_obj s' = k_obj s /\ k_brk s' = k_brk s /\ k_k s' = k_k s /\
  k_major s' = k_major s /\ k_flush s' = k_flush s.

Lemma same_rest_refl : forall s, same_rest s s.
Proof. repeat split. Qed.
Lemma same_rest_trans : forall a b c, same_rest a b -> same_rest b c -> same_rest a c.
Proof.
  intros a b c (A1 & A2 & A3 & A4 & A5 & A6) (B1 & B2 & B3 & B4 & B5 & B6).
  repeat split; congruence.
Qed.

Lemma record_thread_rest : forall cfg c e s, same_rest s (record_thread cfg c e s).
Proof. intros. unfold record_thread. destruct (_ =? e); repeat split. Qed.

Lemma sched_thread_shape : forall cfg c s s', sched_thread cfg c s = Some s' ->
  exists th e, elect_thread cfg c (k_cp s) s = Some (set_k_th th s, e) /\
    s' = switch_to c (u8 e) (record_thread cfg c (u8 e) (set_k_th th s)).
Proof.
  intros cfg c s s' H. unfold sched_thread in H.
  destruct (elect_thread cfg c (k_cp s) s) as [[s1 e]|] eqn:E; [|discriminate].
  injection H as <-. destruct (elect_thread_frame _ _ _ _ _ _ E) as (th & ->).
  exists th, e. split; reflexivity.
Qed.
Lemma sched_thread_rest : forall cfg c s s', sched_thread cfg c s = Some s' -> same_rest s s'.
Proof.
  intros cfg c s s' H. destruct (sched_thread_shape _ _ _ _ H) as (th & e & _ & ->).
  eapply same_rest_trans; [|apply same_rest_trans with (record_thread cfg c (u8 e) (set_k_th th s))].
  - instantiate (1 := set_k_th th s). repeat split.
  - apply record_thread_rest.
  - repeat split.
Qed.

Lemma global_sched_thread_shape : forall cfg newp src c s s', global_sched_thread cfg newp src c s = Some s' ->
  exists th e pr, elect_thread cfg c (k_cp s) s = Some (set_k_th th s, e) /\
    s' = switch_to c (u8 e) (set_k_present pr (record_thread cfg c (u8 e) (set_k_th th s))).
Proof.
  intros cfg newp src c s s' H. unfold global_sched_thread in H.
  destruct (elect_thread cfg c (k_cp s) s) as [[s1 e]|] eqn:E; [|discriminate].
  injection H as <-. destruct (elect_thread_frame _ _ _ _ _ _ E) as (th & ->).
  destruct (src && newp).
  - exists th, e. eexists. split; reflexivity.
  - exists th, e, (k_present (record_thread cfg c (u8 e) (set_k_th th s))). split; [reflexivity|].
    now destruct (record_thread cfg c (u8 e) (set_k_th th s)).
Qed.
Lemma global_sched_thread_rest : forall cfg newp src c s s',
  global_sched_thread cfg newp src c s = Some s' -> same_rest s s'.
Proof.
  intros cfg newp src c s s' H. destruct (global_sched_thread_shape _ _ _ _ _ _ H) as (th & e & pr & _ & ->).
  eapply same_rest_trans; [|apply same_rest_trans with (record_thread cfg c (u8 e) (set_k_th th s))].
  - instantiate (1 := set_k_th th s). repeat split.
  - apply record_thread_rest.
  - repeat split.
Qed.
Lemma global_sched_others_rest : forall n cfg newp src c s s',
  global_sched_others n cfg newp src c s = Some s' -> same_rest s s'.
Proof.
  induction n as [|n IH]; intros cfg newp src c s s' H; cbn in H.
  - injection H as <-. apply same_rest_refl.
  - destruct (c =? src).
    + now apply IH in H.
    + destruct (global_sched_thread cfg newp false c s) as [s1|] eqn:E; [|discriminate].
      apply global_sched_thread_rest in E. apply IH in H. eapply same_rest_trans; eassumption.
Qed.

Lemma global_sched_shape : forall cfg c s s' f, global_sched cfg c s = Some (s', f) ->
  exists s1 np s3, elect_partition cfg s = (s1, np, f) /\
    global_sched_thread cfg (negb (np =? k_cp s)) true c (set_k_cp np s1) = Some s3 /\
    global_sched_others (Z.to_nat (c_nprocs cfg)) cfg (negb (np =? k_cp s)) c 0 s3 = Some s'.
Proof.
  intros cfg c s s' f H. unfold global_sched in H.
  destruct (elect_partition cfg s) as [[s1 np] f'] eqn:E.
  pose proof (elect_partition_clock _ _ _ _ _ E) as (_ & _ & _ & _ & _ & Hcp & _).
  rewrite Hcp in H.
  destruct (global_sched_thread _ _ _ _ _) as [s3|] eqn:E3; [|discriminate].
  destruct (global_sched_others _ _ _ _ _ _) as [s4|] eqn:E4; [|discriminate].
  injection H as <- <-. exists s1, np, s3. auto.
Qed.
Lemma global_sched_clock : forall cfg c s s' f, global_sched cfg c s = Some (s', f) ->
  clock_of s' = next_clock cfg (clock_of s) /\ k_obj s' = k_obj s /\ k_brk s' = k_brk s /\ k_k s' = k_k s.
Proof.
  intros cfg c s s' f H. destruct (global_sched_shape _ _ _ _ _ H) as (s1 & np & s3 & E & E3 & E4).
  apply elect_partition_clock in E. destruct E as (Hc & Hth & Hp & Ho & Hcur & Hcp & Hnow & Hpr & Hb & Hk).
  apply global_sched_thread_rest in E3. apply global_sched_others_rest in E4.
  pose proof (same_rest_trans _ _ _ E3 E4) as (R1 & R2 & R3 & R4 & _).
  rewrite R1, R2, R3, R4. cbn. repeat split; congruence.
Qed.

(** ** Services *)
Definition clock_step (cfg : config) (s s' : kstate) : Prop :=
  clock_of s' = clock_of s \/ clock_of s' = next_clock cfg (clock_of s).

Lemma then_sched_clock : forall cfg c s e s' e' f, then_sched cfg c s e = Some (s', e', f) ->
  clock_of s' = clock_of s.
Proof.
  intros cfg c s e s' e' f H. unfold then_sched in H.
  destruct (sched_thread cfg c s) as [s1|] eqn:E; [|discriminate]. injection H as <- _ _.
  apply sched_thread_rest in E. apply E.
Qed.
Lemma then_global_clock : forall cfg c s e s' e' f, then_global cfg c s e = Some (s', e', f) ->
  clock_of s' = next_clock cfg (clock_of s).
Proof.
  intros cfg c s e s' e' f H. unfold then_global in H.
  destruct (global_sched cfg c s) as [[s1 f1]|] eqn:E; [|discriminate]. injection H as <- _ _.
  apply global_sched_clock in E. apply E.
Qed.
Lemma schedule_one_clock : forall cfg c d s s', schedule_one_proc cfg c d s = Some s' -> clock_of s' = clock_of s.
Proof.
  intros cfg c d s s' H. unfold schedule_one_proc in H.
  destruct (1 <? c_nprocs cfg); [destruct (d =? c)|destruct (d =? 0)]; try discriminate.
  - apply sched_thread_rest in H. apply H.
  - now injection H as <-.
  - apply sched_thread_rest in H. apply H.
Qed.

Lemma thread_create_clock : forall cfg a pid s s' e id, thread_create cfg a pid s = Some (s', e, id) ->
  clock_of s' = clock_of s.
Proof.
  intros cfg a pid s s' e id H. unfold thread_create in H.
  destruct (_ && _). { now injection H as <- _ _. }
  destruct (_ <=? _). { now injection H as <- _ _. }
  destruct (get_proc_real_id _ _) as [aff|]; [|discriminate].
  destruct (_ && _); [|discriminate]. injection H as <- _ _.
  destruct (_ && _); reflexivity.
Qed.
Lemma setup_main_clock : forall cfg pid s s', setup_main_thread cfg pid s = Some s' -> clock_of s' = clock_of s.
Proof.
  intros cfg pid s s' H. unfold setup_main_thread in H.
  destruct (thread_create _ _ _ _) as [[[s1 e] id]|] eqn:E; [|discriminate]. injection H as <-.
  apply thread_create_clock in E. exact E.
Qed.
Lemma reinit_clock : forall cfg c pid s s', partition_reinit cfg c pid s = Some s' -> clock_of s' = clock_of s.
Proof. intros cfg c pid s s' H. unfold partition_reinit in H. apply setup_main_clock in H. exact H. Qed.

Ltac inv_ret H := unfold ret in H; injection H as <- ? ?; left; reflexivity.

Lemma set_mode_clock : forall cfg c m s s' e f, set_mode cfg c m s = Some (s', e, f) -> clock_step cfg s s'.
Proof.
  intros cfg c m s s' e f H. unfold set_mode in H. unfold clock_step.
  destruct (m =? PM_NORMAL).
  { destruct (_ =? PM_IDLE); [inv_ret H|]. destruct (negb _); [inv_ret H|].
    apply then_global_clock in H. now right. }
  destruct (m =? PM_STOPPED).
  { destruct (_ || _); [inv_ret H|]. apply then_global_clock in H. now right. }
  destruct (_ || _); [|inv_ret H].
  destruct (_ && _); [inv_ret H|]. destruct (_ || _); [inv_ret H|].
  destruct (partition_reinit _ _ _ _) as [s1|] eqn:E; [|discriminate].
  apply reinit_clock in E. apply then_global_clock in H. right. rewrite H, E. reflexivity.
Qed.

Lemma lock_service_clock : forall cfg c id o s s' e f, lock_service cfg c id o s = Some (s', e, f) ->
  clock_of s' = clock_of s.
Proof.
  intros cfg c id o s s' e f H. unfold lock_service in H. destruct o.
  - destruct (obj_lock _ _ _ _ _ _) as [[[ob th] [e'|d]]|]; [| |discriminate].
    + now injection H as <- _ _.
    + apply then_sched_clock in H. exact H.
  - destruct (obj_unlock _ _ _) as [[[[ob th] e'] [w|]]|]; [| |discriminate].
    + destruct (schedule_one_proc _ _ _ _) as [s1|] eqn:E; [|discriminate].
      injection H as <- _ _. apply schedule_one_clock in E. exact E.
    + now injection H as <- _ _.
  - destruct (obj_eventwait _ _ _ _ _ _) as [[[ob th] [e'|d]]|]; [| |discriminate].
    + now injection H as <- _ _.
    + apply then_sched_clock in H. exact H.
  - destruct (obj_eventsignal _ _ _) as [[[ob th] e'] [w|]].
    + destruct (schedule_one_proc _ _ _ _) as [s1|] eqn:E; [|discriminate].
      injection H as <- _ _. apply schedule_one_clock in E. exact E.
    + now injection H as <- _ _.
  - destruct (obj_eventbroadcast _ _ _) as [[[[ob th] e'] [|]]|]; [| |discriminate].
    + unfold schedule_every_proc in H. destruct (sched_thread _ _ _) as [s1|] eqn:E; [|discriminate].
      injection H as <- _ _. apply sched_thread_rest in E. apply E.
    + now injection H as <- _ _.
Qed.

Lemma lock_continue_clock : forall cfg c s s' e f, lock_continue cfg c s = Some (s', e, f) ->
  clock_of s' = clock_of s.
Proof.
  intros cfg c s s' e f H. unfold lock_continue in H. destruct (k_k s (k_cur s c)).
  - now injection H as <- _ _.
  - destruct (obj_lock_resume _ _ _ _ _) as [[ob e']|]; [|discriminate]. now injection H as <- _ _.
  - destruct (obj_eventwait_resume _ _ _ _ _ _) as [[[[ob th] rw] [e'|d]]|]; [| |discriminate].
    + now injection H as <- _ _.
    + apply then_sched_clock in H. exact H.
  - destruct (obj_lock_resume _ _ _ _ _) as [[ob e']|]; [|discriminate]. now injection H as <- _ _.
  - now injection H as <- _ _.
Qed.

Lemma activate_error_clock : forall c s, clock_of (activate_error_thread c s) = clock_of s.
Proof. intros. unfold activate_error_thread. now destruct (_ =? 0). Qed.

Ltac inv_no H := match type of H with
  | match ?x with Some _ => _ | None => None end = Some _ =>
      let E := fresh "E" in destruct x as [[[? ?] ?]|] eqn:E; [|discriminate H]; injection H as <- <- <- <-
  end.

Lemma service_clock : forall cfg c v s s' e f id, service cfg c v s = Some (s', e, f, id) -> clock_step cfg s s'.
Proof.
  intros cfg c v s s' e f id H. unfold service in H. cbv zeta in H.
  destruct v.
  - destruct (thread_create _ _ _ _) as [[[s1 e1] i1]|] eqn:E; [|discriminate].
    injection H as <- _ _ _. apply thread_create_clock in E. now left.
  - inv_no H. apply then_sched_clock in E. left. exact E.
  - inv_no H. apply then_sched_clock in E. left. exact E.
  - inv_no H. apply then_sched_clock in E. left. exact E.
  - inv_no H. apply then_sched_clock in E. left. exact E.
  - destruct (in_bounds s id0).
    + destruct (get_proc_partition_id _ _); [|discriminate]. inv_no H. unfold ret in E. injection E as <- _ _. now left.
    + inv_no H. unfold ret in E. injection E as <- _ _. now left.
  - destruct (in_bounds s id0).
    + destruct (_ && _).
      * inv_no H. apply then_global_clock in E. right. exact E.
      * inv_no H. unfold ret in E. injection E as <- _ _. now left.
    + inv_no H. unfold ret in E. injection E as <- _ _. now left.
  - destruct (in_bounds s id0); inv_no H.
    + apply then_global_clock in E. right. exact E.
    + unfold ret in E. injection E as <- _ _. now left.
  - destruct (in_bounds s id0); inv_no H.
    + apply then_global_clock in E. right. exact E.
    + unfold ret in E. injection E as <- _ _. now left.
  - destruct (_ && _); inv_no H; unfold ret in E; injection E as <- _ _; now left.
  - destruct (negb _).
    + inv_no H. unfold ret in E. injection E as <- _ _. now left.
    + destruct (in_bounds _ _); inv_no H.
      * apply then_global_clock in E. right. exact E.
      * unfold ret in E. injection E as <- _ _. now left.
  - destruct (negb _).
    + inv_no H. unfold ret in E. injection E as <- _ _. now left.
    + destruct (in_bounds _ _); inv_no H.
      * apply then_global_clock in E. right. exact E.
      * unfold ret in E. injection E as <- _ _. now left.
  - inv_no H. unfold set_mode_current in E. destruct (_ && _).
    + unfold ret in E. injection E as <- _ _. now left.
    + now apply set_mode_clock in E.
  - destruct (thread_create _ _ _ _) as [[[s1 e1] i1]|] eqn:E; [|discriminate].
    destruct (e1 =? ERR_OK); [|discriminate]. injection H as <- _ _ _.
    apply thread_create_clock in E. left. rewrite activate_error_clock. exact E.
  - inv_no H. unfold ret in E. injection E as <- _ _. left. apply activate_error_clock.
  - destruct (lockobj_create s a) as [[s1 e1] i1] eqn:E. injection H as <- _ _ _.
    unfold lockobj_create in E. destruct (_ && _). { injection E as <- _ _. now left. }
    destruct (find_free _ _ _). 2:{ injection E as <- _ _. now left. }
    destruct (obj_create _ _). injection E as <- _ _. now left.
  - inv_no H. unfold lock_wrapper in E.
    destruct (_ <? _). { unfold ret in E; injection E as <- _ _. now left. }
    destruct (_ <=? _). { unfold ret in E; injection E as <- _ _. now left. }
    destruct (negb _). { unfold ret in E; injection E as <- _ _. now left. }
    destruct o. 2:{ unfold ret in E; injection E as <- _ _. now left. }
    apply lock_service_clock in E. now left.
Qed.

Lemma kstep_clock : forall cfg s l s' ev, kstep cfg s l = KNext s' ev ->
  match l with
  | KTick d => 0 < d /\ s' = set_k_now (k_now s + d) s
  | KTimer c => is_proc cfg c /\ clock_of s' = next_clock cfg (clock_of s)
  | _ => clock_step cfg s s'
  end.
Proof.
  intros cfg s l s' ev H. destruct l; cbn in H.
  - destruct (Z.ltb_spec 0 d); [|discriminate]. injection H as <- _. auto.
  - unfold valid_proc in H.
    destruct (Z.leb_spec 0 c); destruct (Z.ltb_spec c (c_nprocs cfg)); cbn in H; try discriminate.
    destruct (global_sched cfg c s) as [[s1 f]|] eqn:E; [|discriminate]. injection H as <- _.
    split; [unfold is_proc; lia|]. apply global_sched_clock in E. apply E.
  - destruct (valid_proc cfg c); [|discriminate].
    destruct (sched_thread cfg c s) as [s1|] eqn:E; [|discriminate]. injection H as <- _.
    left. apply sched_thread_rest in E. apply E.
  - destruct (_ && _); [|discriminate].
    destruct (service cfg c v s) as [[[[s1 e] f] id]|] eqn:E; [|discriminate]. injection H as <- _.
    now apply service_clock in E.
  - destruct (_ && _); [|discriminate].
    destruct (lock_continue cfg c s) as [[[s1 e] f]|] eqn:E; [|discriminate]. injection H as <- _.
    left. now apply lock_continue_clock in E.
Qed.

(** ** The slot table *)
Lemma owner_at_app : forall l1 l2 r,
  (forall d p, In (d, p) l1 -> 0 < d) -> fold_right (fun x a => fst x + a) 0 l1 <= r ->
  owner_at (l1 ++ l2) r = owner_at l2 (r - fold_right (fun x a => fst x + a) 0 l1).
Proof.
  induction l1 as [|[d p] l1 IH]; intros l2 r Hpos Hr; cbn [app owner_at fold_right fst] in *.
  - now rewrite Z.sub_0_r.
  - assert (H0 : 0 <= fold_right (fun x a => fst x + a) 0 l1).
    { assert (Hp1 : forall d' p', In (d', p') l1 -> 0 < d') by (intros; apply (Hpos d' p'); now right).
      clear - Hp1. induction l1 as [|[d' p'] l1 IH]; cbn; [lia|].
      pose proof (Hp1 d' p' (or_introl eq_refl)).
      assert (0 <= fold_right (fun x a => fst x + a) 0 l1); [|lia]. apply IH. intros. apply (Hp1 d'0 p'0). now right. }
    destruct (Z.ltb_spec r d); [lia|]. rewrite IH; [f_equal; lia| |lia].
    intros. apply (Hpos d0 p0). now right.
Qed.

Lemma fold_sum_snoc : forall l (x : Z * Z),
  fold_right (fun x a => fst x + a) 0 (l ++ [x]) = fold_right (fun x a => fst x + a) 0 l + fst x.
Proof. induction l as [|y l IH]; intro x; cbn; [lia|]. rewrite IH. lia. Qed.

Lemma slots_sum : forall cfg i, 0 <= i ->
  fold_right (fun x a => fst x + a) 0 (map (fun j => (c_slot cfg j, c_alloc cfg j)) (ids 0 i)) = sum_to (c_slot cfg) i.
Proof.
  intros cfg i Hi. unfold ids, sum_to. rewrite Z.sub_0_r. induction (Z.to_nat i) as [|n IH]; [reflexivity|].
  rewrite zseq_snoc, map_app. cbn [map]. rewrite fold_sum_snoc, IH. cbn [psum fst]. reflexivity.
Qed.

Lemma owner_slot : forall cfg, supported cfg -> forall i r,
  0 <= i < c_nslots cfg -> sum_to (c_slot cfg) i <= r < sum_to (c_slot cfg) (i + 1) ->
  owner_at (slots_of cfg) r = Some (c_alloc cfg i).
Proof.
  intros cfg W i r Hi Hr. unfold slots_of.
  pose proof (slice_split _ (fun j => (c_slot cfg j, c_alloc cfg j)) 0 i (c_nslots cfg) ltac:(lia)) as E.
  unfold slice in E. rewrite E. rewrite owner_at_app.
  - rewrite slots_sum by lia.
    pose proof (slice_cons _ (fun j => (c_slot cfg j, c_alloc cfg j)) i (c_nslots cfg) ltac:(lia)) as E2.
    unfold slice in E2. rewrite E2. cbn [owner_at]. rewrite sum_to_succ in Hr by lia.
    destruct (Z.ltb_spec (r - sum_to (c_slot cfg) i) (c_slot cfg i)); [reflexivity|lia].
  - intros d p Hin. apply in_map_iff in Hin. destruct Hin as (j & Hj & Hin). injection Hj as <- <-.
    apply in_ids in Hin. unfold in_range in Hin. apply (sp_slots cfg W). lia.
  - rewrite slots_sum by lia. lia.
Qed.

(** The partition scheduler is up to date at instant [t]. *)
Definition in_slot (cfg : config) (k : clock) (t : Z) : Prop :=
  0 <= ck_slot k < c_nslots cfg /\
  (exists q, 0 <= q /\ ck_deadline k = q * c_major cfg + sum_to (c_slot cfg) (ck_slot k + 1)) /\
  ck_deadline k - c_slot cfg (ck_slot k) <= t < ck_deadline k /\
  ck_cp k = c_alloc cfg (ck_slot k).

Lemma slots_nonneg : forall cfg, supported cfg -> forall k, 0 <= k < c_nslots cfg -> 0 <= c_slot cfg k.
Proof. intros cfg W k Hk. pose proof (sp_slots cfg W k Hk). lia. Qed.

Lemma in_slot_owner : forall cfg k t, supported cfg -> in_slot cfg k t -> owner cfg t = Some (ck_cp k).
Proof.
  intros cfg k t W (Hs & (q & Hq & Hd) & Ht & Hcp). unfold owner. rewrite Hcp.
  rewrite Hd in Ht. rewrite sum_to_succ in Ht by lia.
  assert (Hlow : 0 <= sum_to (c_slot cfg) (ck_slot k)).
  { apply sum_to_nonneg with (c_nslots cfg); [now apply slots_nonneg|lia]. }
  assert (Hup : sum_to (c_slot cfg) (ck_slot k + 1) <= c_major cfg).
  { rewrite (sp_major cfg W). apply sum_to_mono with (c_nslots cfg); try lia. now apply slots_nonneg. }
  rewrite sum_to_succ in Hup by lia.
  assert (E : t mod c_major cfg = t - q * c_major cfg).
  { symmetry. apply Z.mod_unique with q; lia. }
  rewrite E. apply owner_slot; [assumption|assumption|]. rewrite sum_to_succ by lia. lia.
Qed.

Lemma next_clock_in_slot : forall cfg k t, supported cfg -> 1 < c_nparts cfg -> in_slot cfg k t ->
  t <= ck_now k -> (forall i, 0 <= i < c_nslots cfg -> ck_now k - t <= c_slot cfg i) ->
  ck_now k + c_major cfg < 2 ^ 64 ->
  in_slot cfg (next_clock cfg k) (ck_now k).
Proof.
  intros cfg k t W Hn (Hs & (q & Hq & Hd) & Ht & Hcp) Hnow Hgap Hw. unfold next_clock.
  destruct (Z.leb_spec (c_nparts cfg) 1); [lia|].
  destruct (Z.leb_spec (ck_deadline k) (ck_now k)) as [L|L].
  - pose proof (sp_nslots cfg W) as Hns.
    set (slot := (ck_slot k + 1) mod c_nslots cfg).
    assert (Hslot : 0 <= slot < c_nslots cfg) by (apply Z.mod_pos_bound; lia).
    assert (Hle : c_slot cfg slot <= c_major cfg).
    { rewrite (sp_major cfg W).
      pose proof (sum_to_mono (c_slot cfg) (c_nslots cfg) (slot + 1) (c_nslots cfg) (slots_nonneg cfg W)
                    ltac:(lia) ltac:(lia) ltac:(lia)) as H1. rewrite sum_to_succ in H1 by lia.
      pose proof (sum_to_nonneg (c_slot cfg) (c_nslots cfg) slot (slots_nonneg cfg W) ltac:(lia)). lia. }
    pose proof (sp_slots cfg W slot Hslot) as Hpos.
    assert (H0 : 0 <= ck_deadline k).
    { rewrite Hd. pose proof (sum_to_nonneg (c_slot cfg) (c_nslots cfg) (ck_slot k + 1) (slots_nonneg cfg W) ltac:(lia)).
      pose proof (sum_to_nonneg (c_slot cfg) (c_nslots cfg) (c_nslots cfg) (slots_nonneg cfg W) ltac:(lia)) as H2.
      rewrite <- (sp_major cfg W) in H2. nia. }
    unfold u64. rewrite Z.mod_small by lia.
    unfold in_slot. cbn [ck_cp ck_slot ck_deadline ck_now].
    split; [assumption|]. split; [|split; [|reflexivity]].
    + destruct (Z.eq_dec (ck_slot k + 1) (c_nslots cfg)) as [E|E].
      * exists (q + 1). split; [lia|].
        assert (Es : slot = 0). { unfold slot. rewrite E. now apply Z.mod_same; lia. }
        rewrite Es, Hd, E, <- (sp_major cfg W). cbn [Z.add]. rewrite (sum_to_succ _ 0) by lia. rewrite sum_to_0. lia.
      * exists q. split; [lia|].
        assert (Es : slot = ck_slot k + 1). { unfold slot. apply Z.mod_small. lia. }
        rewrite Es. rewrite (sum_to_succ _ (ck_slot k + 1)) by lia. lia.
    + specialize (Hgap slot Hslot). lia.
  - unfold in_slot. split; [assumption|]. split; [exists q; auto|]. split; [lia|assumption].
Qed.
