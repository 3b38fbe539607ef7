(** Thread tables of rate-monotonic partitions. *)
From Verif Require Import Model.Base Model.State Model.LockFifo Model.LockObj Model.LockSys Model.Sched
  Model.Kernel Spec.SchedSpec Spec.KernelSpec Proof.Tac Proof.SchedProof Proof.KernelBasic Proof.FairProof
  Proof.ClockProof Proof.SlotProof Proof.KernelInv Proof.ElectProof Proof.ServiceProof Proof.PlaceProof
  Proof.ThreadUpd Proof.ChoiceProof.
From Coq Require Import Permutation.

(** Moving element [i] to position [pos] permutes. *)
Lemma move_perm : forall A (f g : Z -> A) low pos i, low <= pos <= i ->
  (forall x, g x = f (if x =? pos then i else if (pos <? x) && (x <=? i) then x - 1 else x)) ->
  Permutation (slice g low (i + 1)) (slice f low (i + 1)).
Proof.
  intros A f g low pos i Hp Hx.
  assert (Hg1 : g pos = f i). { rewrite Hx. now rewrite Z.eqb_refl. }
  assert (Hg2 : forall x, pos < x <= i -> g x = f (x - 1)).
  { intros x H. rewrite Hx. destruct (Z.eqb_spec x pos); [lia|].
    rewrite (proj2 (Z.ltb_lt pos x)), (proj2 (Z.leb_le x i)) by lia. reflexivity. }
  assert (Hg3 : forall x, x < pos \/ i < x -> g x = f x).
  { intros x H. rewrite Hx. destruct (Z.eqb_spec x pos); [lia|].
    destruct (Z.ltb_spec pos x); destruct (Z.leb_spec x i); cbn [andb]; try reflexivity. lia. }
  rewrite (slice_split A g low pos (i + 1)) by lia. rewrite (slice_cons A g pos (i + 1)) by lia.
  rewrite (slice_split A f low i (i + 1)) by lia. rewrite (slice_split A f low pos i) by lia.
  rewrite (slice_cons A f i (i + 1)) by lia.
  rewrite (slice_ext A g f low pos) by (intros; apply Hg3; lia).
  rewrite (slice_ext A g (fun x => f (x - 1)) (pos + 1) (i + 1)) by (intros; apply Hg2; lia).
  rewrite slice_shift. rewrite Hg1.
  assert (En : slice f (i + 1) (i + 1) = []). { unfold slice, ids. now rewrite Z.sub_diag. }
  rewrite En. rewrite <- app_assoc. apply Permutation_app_head.
  rewrite <- Permutation_middle. now rewrite app_nil_r.
Qed.

Lemma init_attrs : forall pid aff stack a t, has_attrs a (init_thread pid aff stack (typed_attr a) t).
Proof.
  intros pid aff stack a t. unfold has_attrs, init_thread, typed_attr. cbn [a_prio a_period a_deadline a_capacity a_entry].
  pose proof (Z.mod_pos_bound (a_period a) (2 ^ 64) ltac:(lia)) as H1. pose proof (Z.mod_pos_bound (a_capacity a) (2 ^ 64) ltac:(lia)) as H2.
  change (a_period a mod 2 ^ 64) with (u64 (a_period a)) in H1. change (a_capacity a mod 2 ^ 64) with (u64 (a_capacity a)) in H2.
  cbv zeta. destruct (Z.ltb_spec 0 (u64 (a_period a))); destruct (0 <? u64 (a_deadline a));
    destruct (Z.ltb_spec 0 (u64 (a_capacity a))); destruct (Z.eqb_spec (u64 (a_capacity a)) 0); cbn; repeat split; try reflexivity; try lia.
Qed.

Section Rms.
Variable cfg : config.
Hypothesis W : supported cfg.

(** One creation: the new thread and where it goes. *)
Lemma create_place : forall a pid s s' e id, kinv cfg s -> is_part cfg pid ->
  thread_create cfg a pid s = Some (s', e, id) -> e = ERR_OK ->
  id = low_of cfg pid + p_index (k_part s pid) /\ low_of cfg pid < id < high_of cfg pid /\
  k_part s' pid = set_p_index (p_index (k_part s pid) + 1) (k_part s pid) /\
  exists aff stack, let f := upd (k_th s) id (init_thread pid aff stack a (k_th s id)) in
    if c_sched cfg pid =? SCHED_RMS
    then k_th s' = fun j => fst (insert_sort (fun x : thread * kont => t_period (fst x))
                                   (fun j => (f j, upd (k_k s) id KUser j)) (low_of cfg pid + 1) id j)
    else k_th s' = f.
Proof.
  intros a pid s s' e id I Hpid H He. pose proof (ki_part _ _ I pid Hpid) as Hok.
  destruct (thread_create_cases cfg _ _ _ _ _ _ H) as [(_ & [(C & _)|(C & _)])|(_ & -> & Hid & _ & th & k & aff & _ & -> & Hth)];
    try (rewrite C in He; discriminate).
  rewrite (po_low _ _ _ Hok), (po_high _ _ _ Hok) in *. pose proof (po_index _ _ _ Hok).
  split; [reflexivity|]. split; [lia|]. split; [cbn; now rewrite upd_same|].
  exists aff, (u32 (p_size (k_part s pid) - 4 - (p_index (k_part s pid) + 1) * c_stack cfg)).
  cbv zeta in Hth |- *. rewrite (proj2 (Z.ltb_lt (low_of cfg pid) (low_of cfg pid + p_index (k_part s pid)))) in Hth by lia.
  rewrite andb_true_r in Hth. destruct (c_sched cfg pid =? SCHED_RMS); destruct Hth as (-> & _); reflexivity.
Qed.

(** After a creation the table is the old one plus the new thread, up to order. *)
Lemma create_perm : forall a pid s s' e id, kinv cfg s -> is_part cfg pid ->
  thread_create cfg (typed_attr a) pid s = Some (s', e, id) -> e = ERR_OK ->
  exists nt, has_attrs a nt /\
    p_index (k_part s' pid) = p_index (k_part s pid) + 1 /\
    Permutation (slice (k_th s') (low_of cfg pid + 1) (low_of cfg pid + p_index (k_part s' pid)))
                (nt :: slice (k_th s) (low_of cfg pid + 1) (low_of cfg pid + p_index (k_part s pid))).
Proof.
  intros a pid s s' e id I Hpid H He.
  destruct (create_place _ _ _ _ _ _ I Hpid H He) as (Hid & Hr & Ep & aff & stack & Hth). rewrite Ep. cbn [p_index set_p_index].
  exists (init_thread pid aff stack (typed_attr a) (k_th s id)). split; [apply init_attrs|]. split; [reflexivity|].
  cbv zeta in Hth. set (f := upd _ _ _) in Hth.
  assert (Ef : Permutation (slice f (low_of cfg pid + 1) (id + 1))
                (init_thread pid aff stack (typed_attr a) (k_th s id) :: slice (k_th s) (low_of cfg pid + 1) id)).
  { rewrite (slice_snoc _ f (low_of cfg pid + 1) id) by lia. unfold f at 2. rewrite upd_same.
    rewrite (slice_ext _ f (k_th s) (low_of cfg pid + 1) id) by (intros x Hx; unfold f; apply upd_other; lia).
    rewrite <- Permutation_cons_append. reflexivity. }
  replace (low_of cfg pid + (p_index (k_part s pid) + 1)) with (id + 1) by lia. rewrite <- Hid.
  destruct (c_sched cfg pid =? SCHED_RMS); rewrite Hth; [|exact Ef].
  rewrite <- Ef.
  destruct (insert_shift_spec _ (Z.to_nat (id - (low_of cfg pid + 1))) (fun x : thread * kont => t_period (fst x))
     (fun j => (f j, upd (k_k s) id KUser j)) (low_of cfg pid + 1) (id - 1) (f id, upd (k_k s) id KUser id) ltac:(lia) ltac:(lia))
     as (pos & Hp & Hx & _).
  replace (id - 1 + 1) with id in * by lia.
  apply move_perm with pos; [lia|]. intros x. unfold insert_sort. rewrite Hx.
  destruct (x =? pos); [reflexivity|]. destruct (_ && _); reflexivity.
Qed.

(** The identifier that a creation returns designates the new thread when no created thread has a greater
    period. *)
Lemma create_id : forall a pid s s' e id, kinv cfg s -> is_part cfg pid ->
  thread_create cfg (typed_attr a) pid s = Some (s', e, id) -> e = ERR_OK ->
  c_sched cfg pid <> SCHED_RMS \/
  (0 < u64 (a_period a) < 2 ^ 63 /\
   forall t, created cfg s pid t -> t_period (k_th s t) <= u64 (a_period a)) ->
  has_attrs a (k_th s' id).
Proof.
  intros a pid s s' e id I Hpid H He Hs.
  destruct (create_place _ _ _ _ _ _ I Hpid H He) as (Hid & Hr & Ep & aff & stack & Hth).
  cbv zeta in Hth. set (f := upd _ _ _) in Hth.
  assert (Ef : f id = init_thread pid aff stack (typed_attr a) (k_th s id)) by (unfold f; apply upd_same).
  destruct (Z.eqb_spec (c_sched cfg pid) SCHED_RMS) as [E|E].
  2:{ rewrite Hth, Ef. apply init_attrs. }
  destruct Hs as [Hs|(Hp & Hs)]; [contradiction|].
  destruct (insert_shift_spec _ (Z.to_nat (id - (low_of cfg pid + 1))) (fun x : thread * kont => t_period (fst x))
     (fun j => (f j, upd (k_k s) id KUser j)) (low_of cfg pid + 1) (id - 1) (f id, upd (k_k s) id KUser id) ltac:(lia) ltac:(lia))
     as (pos & Hpos & Hx & Hk & _).
  replace (id - 1 + 1) with id in * by lia.
  assert (pos = id).
  { destruct (Z.eq_dec pos id); [assumption|]. exfalso. specialize (Hk (id - 1) ltac:(lia)). cbn [fst] in Hk.
    assert (Hf1 : f (id - 1) = k_th s (id - 1)) by (unfold f; apply upd_other; lia).
    specialize (Hs (id - 1)). unfold created in Hs. rewrite Hf1 in Hk.
    assert (Hpe : t_period (f id) = u64 (a_period a)).
    { rewrite Ef. destruct (init_attrs pid aff stack a (k_th s id)) as (_ & _ & G & _). destruct G as (-> & _); [lia|].
      unfold s64, sgn. change (u64 (a_period a)) with (a_period a mod 2 ^ 64) in *. rewrite Zmod_mod.
      destruct (Z.ltb_spec (a_period a mod 2 ^ 64) (2 ^ (64 - 1))); [reflexivity|]. change (64 - 1) with 63 in *. lia. }
    rewrite Hpe in Hk. specialize (Hs ltac:(lia)). lia. }
  subst pos. rewrite Hth. unfold insert_sort. rewrite Hx, Z.eqb_refl. cbn [fst]. rewrite Ef. apply init_attrs.
Qed.

(** ** Histories without error handlers *)
Definition rms_inv (s : kstate) : Prop :=
  forall i, is_part cfg i -> p_error (k_part s i) = 0 /\
    (c_sched cfg i = SCHED_RMS ->
     ordered t_period (k_th s) (low_of cfg i + 1) (low_of cfg i + p_index (k_part s i))).

Lemma rms_frame : forall s s', (forall t, statics (k_th s' t) = statics (k_th s t)) ->
  (forall i, is_part cfg i -> p_error (k_part s' i) = p_error (k_part s i) /\ p_index (k_part s' i) = p_index (k_part s i)) ->
  rms_inv s -> rms_inv s'.
Proof.
  intros s s' Hst Hp H i Hi. destruct (Hp i Hi) as (E1 & E2). destruct (H i Hi) as (H1 & H2).
  rewrite E1, E2. split; [assumption|]. intros Hs a b Ha Hab Hb. specialize (H2 Hs a b Ha Hab Hb).
  pose proof (Hst a) as Sa. pose proof (Hst b) as Sb. unfold statics in Sa, Sb. congruence.
Qed.
Lemma elected_frame : forall c s s', half cfg s -> is_proc cfg c -> elected cfg c s s' -> rms_inv s -> rms_inv s'.
Proof.
  intros c s s' Hh Hc He. apply rms_frame; [now apply (elected_statics cfg W c)|].
  intros i Hi. destruct (elected_parts cfg c s s' He i) as (pv & cu & ->). split; reflexivity.
Qed.
Lemma global_frame : forall c s s' f, half cfg s -> is_proc cfg c -> global_sched cfg c s = Some (s', f) -> rms_inv s -> rms_inv s'.
Proof.
  intros c s s' f Hh Hc H.
  refine (proj1 (global_sched_rel cfg W (fun s s' => rms_inv s -> rms_inv s') _ _ _ _ c s s' f Hh Hc H)).
  - auto.
  - auto.
  - intros d a b Ha Hd He. now apply elected_frame with d.
  - intros a b Ha Hr. destruct (repart_fields _ _ _ Hr) as (E1 & E2 & _). apply rms_frame; [now rewrite E1|].
    rewrite E2. auto.
Qed.
Lemma phase_frame : forall c ph s s', kinv cfg s -> is_proc cfg c -> run_phase cfg c ph s s' -> rms_inv s -> rms_inv s'.
Proof.
  intros c ph s s' I Hc H Hr. destruct ph; cbn in H.
  - now subst s'.
  - apply elected_frame with c s; [now apply kinv_half|assumption|now apply sched_thread_elected|assumption].
  - destruct H as (f & H). apply global_frame with c s f; [now apply kinv_half|assumption|assumption|assumption].
Qed.

Lemma create_frame : forall a pid s s' e id, kinv cfg s -> is_part cfg pid ->
  thread_create cfg a pid s = Some (s', e, id) -> rms_inv s -> rms_inv s'.
Proof.
  intros a pid s s' e id I Hpid H Hr.
  destruct (Z.eq_dec e ERR_OK) as [He|He].
  2:{ destruct (thread_create_part cfg _ _ _ _ _ _ H) as (_ & [C|C] & _); [contradiction|now subst s']. }
  destruct (thread_create_frame cfg _ _ _ _ _ _ I Hpid H) as (_ & _ & Ep & Eth & _).
  destruct (create_place _ _ _ _ _ _ I Hpid H He) as (Hid & Hidr & Epp & aff & stack & Hth).
  intros i Hi. destruct (Z.eq_dec i pid) as [->|Hne].
  - rewrite Epp. cbn [p_error p_index set_p_index]. destruct (Hr pid Hi) as (H1 & H2). split; [assumption|].
    intros Hs. specialize (H2 Hs). cbv zeta in Hth. rewrite Hs in Hth. cbn [Z.eqb SCHED_RMS Pos.eqb] in Hth.
    set (f := upd _ _ _) in Hth.
    replace (low_of cfg pid + (p_index (k_part s pid) + 1)) with (id + 1) by lia. rewrite <- Hid in H2.
    assert (Ho : ordered (fun x : thread * kont => t_period (fst x)) (fun j => (f j, upd (k_k s) id KUser j)) (low_of cfg pid + 1) id).
    { intros x y Hx Hxy Hy. cbn [fst]. unfold f. rewrite !upd_other by lia. apply H2; lia. }
    destruct (insert_sort_spec _ _ _ (low_of cfg pid + 1) id ltac:(lia) Ho) as (G & _).
    intros x y Hx Hxy Hy. rewrite Hth. exact (G x y Hx Hxy Hy).
  - destruct (Hr i Hi) as (H1 & H2). rewrite Ep by assumption. split; [assumption|]. intros Hs x y Hx Hxy Hy.
    pose proof (po_index _ _ _ (ki_part _ _ I i Hi)).
    assert (Ho : forall z, low_of cfg i + 1 <= z < low_of cfg i + p_index (k_part s i) -> ~ thread_of cfg pid z).
    { intros z Hz C. apply Hne. apply (ranges_disjoint cfg W i pid z Hi Hpid); [|assumption].
      unfold thread_of, in_range, high_of. lia. }
    rewrite (proj1 (Eth x (Ho x ltac:(lia)))), (proj1 (Eth y (Ho y ltac:(lia)))). now apply H2.
Qed.

Lemma rms_step : forall s l s' ev, kinv cfg s -> creates_handler l = false -> kstep cfg s l = KNext s' ev -> rms_inv s -> rms_inv s'.
Proof.
  intros s l s' ev I Hl H Hr. destruct l as [d|c|c|c v|c]; cbn in H.
  - destruct (0 <? d); [|discriminate]. injection H as <- _. exact Hr.
  - destruct (valid_proc cfg c) eqn:V; [|discriminate]. apply valid_proc_is in V.
    destruct (global_sched cfg c s) as [[s1 f]|] eqn:G; [|discriminate]. injection H as <- _.
    apply global_frame with c s f; [now apply kinv_half|assumption|assumption|assumption].
  - destruct (valid_proc cfg c) eqn:V; [|discriminate]. apply valid_proc_is in V.
    destruct (sched_thread cfg c s) as [s1|] eqn:G; [|discriminate]. injection H as <- _.
    apply elected_frame with c s; [now apply kinv_half|assumption|now apply sched_thread_elected|assumption].
  - destruct (valid_proc cfg c) eqn:V; [|discriminate]. apply valid_proc_is in V.
    destruct (_ && _); [|discriminate]. destruct (service cfg c v s) as [[[[s1 e] f] id]|] eqn:G; [|discriminate].
    injection H as <- _. pose proof (ki_cp _ _ I) as Hcp. destruct (Hr _ Hcp) as (Herr & _).
    assert (Hcalm : calm v -> keeps_statics v -> rms_inv s1).
    { intros Hv Hk. destruct (service_phase cfg W c v s s1 e f id I V G) as (s2 & ph & Hph & I1 & B1 & B2 & B3 & B4 & B5 & B6).
      apply phase_frame with c ph s2; try assumption. destruct (B6 Hv) as (B7 & _).
      apply rms_frame with s; [now apply B5|rewrite B7; auto|assumption]. }
    destruct v; try (apply Hcalm; exact Logic.I); clear Hcalm; try discriminate.
    + cbn in G. destruct (thread_create _ _ _ _) as [[[s2 e2] i2]|] eqn:E; [|discriminate]. injection G as <- _ _ _.
      now apply create_frame in E.
    + cbn in G. inv_no G. unfold set_mode_current in E. destruct (_ && _); [injection E as <- _ _; exact Hr|].
      unfold set_mode in E.
      destruct (Z.eqb_spec mode PM_NORMAL) as [->|].
      { destruct (_ =? PM_IDLE); [injection E as <- _ _; exact Hr|]. destruct (negb _); [injection E as <- _ _; exact Hr|].
        unfold then_global in E. destruct (global_sched _ _ _) as [[s2 f2]|] eqn:GG; [|discriminate]. injection E as <- _ _.
        apply global_frame with c _ _ f2 in GG; [exact GG| |assumption|].
        - apply kinv_half. do 2 apply kinv_th. apply kinv_part; [assumption|]. intros Hp. apply set_mode_ok; [now apply (ki_part _ _ I)|].
          unfold known_mode. auto.
        - apply rms_frame with s; [| |assumption].
          + intros t. cbn. unfold upd at 1.
            match goal with |- context [t =? ?x] => destruct (Z.eqb_spec t x) as [->|] end; cbn; apply normal_loop_statics.
          + intros i Hi. cbn. unfold upd. destruct (i =? k_cp s) eqn:B; [|auto]. apply Z.eqb_eq in B. subst i. auto. }
      rewrite Herr in E. cbn [Z.eqb orb] in E.
      destruct (mode =? PM_STOPPED); [injection E as <- _ _; exact Hr|].
      destruct (_ || _); [|injection E as <- _ _; exact Hr]. destruct (_ && _); injection E as <- _ _; exact Hr.
    + cbn in G. injection G as <- _ _ _. unfold activate_error_thread, cur_part. now rewrite Herr.
  - destruct (valid_proc cfg c) eqn:V; [|discriminate]. apply valid_proc_is in V.
    destruct (_ && _); [|discriminate]. destruct (lock_continue cfg c s) as [[[s1 e] f]|] eqn:G; [|discriminate].
    injection H as <- _.
    destruct (lock_continue_phase cfg c s s1 e f 0 0 None I V G) as (s2 & ph & Hph & I1 & B1 & B2 & B3 & B4 & B5 & B6).
    apply phase_frame with c ph s2; try assumption. destruct (B6 Logic.I) as (B7 & _).
    apply rms_frame with s; [now apply B5|rewrite B7; auto|assumption].
Qed.

Lemma rms_boot : forall s, kboot cfg = Some s -> rms_inv s.
Proof.
  intros s H i Hi. destruct (kboot_state cfg W s H) as (G & _). destruct (G i Hi) as (_ & _ & He & Hix & _).
  split; [assumption|]. intros _ x y Hx Hxy Hy. rewrite Hix in Hy. lia.
Qed.

Lemma rms_run : forall ls s s' evs, no_handler ls -> kinv cfg s -> rms_inv s -> krun cfg s ls = Some (s', evs) -> rms_inv s' /\ kinv cfg s'.
Proof.
  induction ls as [|l ls IH]; intros s s' evs Hn I Hr H; cbn in H.
  - injection H as <- _. auto.
  - unfold no_handler in Hn. cbn in Hn. rewrite andb_true_iff, negb_true_iff in Hn. destruct Hn as (Hl & Hn).
    destruct (kstep cfg s l) as [s1 ev| |] eqn:E; [| |discriminate].
    + destruct (krun cfg s1 ls) as [[s2 ev2]|] eqn:R; [|discriminate]. injection H as <- _.
      apply (IH s1 s2 ev2); try assumption; [now apply (kstep_inv cfg W) in E|now apply rms_step with s l ev].
    + now apply (IH s s' evs).
Qed.

(** The table of a rate-monotonic partition is sorted. *)
Lemma rms_sorted : forall s0 ls s evs i, kboot cfg = Some s0 -> krun cfg s0 ls = Some (s, evs) -> no_handler ls ->
  is_part cfg i -> c_sched cfg i = SCHED_RMS ->
  ordered t_period (k_th s) (low_of cfg i + 1) (low_of cfg i + p_index (k_part s i)).
Proof.
  intros s0 ls s evs i B R Hn Hi Hs.
  destruct (rms_run ls s0 s evs Hn (kboot_inv cfg W s0 B) (rms_boot s0 B) R) as (H & _). now apply H.
Qed.

Lemma rms_smallest : forall s0 ls s evs l c s' ev, kboot cfg = Some s0 -> krun cfg s0 ls = Some (s, evs) -> no_handler ls ->
  election_on cfg c l -> kstep cfg s l = KNext s' ev -> scheduling cfg c SCHED_RMS s' ->
  t_period (k_th s' (k_cur s' c)) <> INFINITE ->
  forall i, created cfg s' (k_cp s') i -> ready_thread c (k_th s') i ->
    period_le (t_period (k_th s' (k_cur s' c))) (t_period (k_th s' i)).
Proof.
  intros s0 ls s evs l c s' ev B R Hn El H S Hper i Hi Hri.
  destruct (rms_run ls s0 s evs Hn (kboot_inv cfg W s0 B) (rms_boot s0 B) R) as (Hr & I).
  assert (Re : reachable cfg s) by (exists s0, ls, evs; auto).
  assert (Hl : creates_handler l = false) by (destruct El as [->|(-> & _)]; reflexivity).
  pose proof (rms_step s l s' ev I Hl H Hr) as Hr'. pose proof (kstep_inv cfg W s l s' ev I H) as I'.
  destruct (rms_machine cfg W s l c s' ev Re El H S) as (Hsc & Hmin).
  pose proof (ki_cp _ _ I') as Hcp. pose proof (po_index _ _ _ (ki_part _ _ I' _ Hcp)) as Hix.
  unfold created in Hi.
  destruct (Hmin i) as (Hle & Hne); [unfold thread_of, in_range, high_of; lia|assumption|lia|].
  destruct (Z.eq_dec (t_period (k_th s' i)) INFINITE) as [E|E]; [now left|right]. split; [assumption|].
  destruct (Hr' _ Hcp) as (_ & Ho). destruct S as (_ & Hs & _). apply (Ho Hs); [|assumption|lia].
  destruct Hsc as [(C & _)|(_ & C)].
  - unfold in_range in C. lia.
  - exfalso. apply (C i); [unfold in_range, high_of; lia|assumption].
Qed.
(** The creation service as a step. *)
Lemma create_call : forall s c a s' e id, calls cfg s c (SCreate a) s' e id ->
  is_proc cfg c /\ thread_create cfg (typed_attr a) (k_cp s) s = Some (s', e, id).
Proof.
  intros s c a s' e id H. apply calls_service in H. destruct H as (V & _ & _ & f & H). split; [assumption|]. unfold service in H.
  destruct (thread_create _ _ _ _) as [[[s2 e2] i2]|] eqn:E; [|discriminate]. congruence.
Qed.
Lemma create_perm_step : forall s c a s' id,
  reachable cfg s -> calls cfg s c (SCreate a) s' ERR_OK id ->
  exists nt, has_attrs a nt /\
    p_index (k_part s' (k_cp s)) = p_index (k_part s (k_cp s)) + 1 /\
    Permutation (slice (k_th s') (low_of cfg (k_cp s) + 1) (low_of cfg (k_cp s) + p_index (k_part s' (k_cp s))))
                (nt :: slice (k_th s) (low_of cfg (k_cp s) + 1) (low_of cfg (k_cp s) + p_index (k_part s (k_cp s)))).
Proof.
  intros s c a s' id R H. pose proof (reachable_inv cfg W s R) as I. apply create_call in H. destruct H as (_ & H).
  exact (create_perm a _ _ _ _ _ I (ki_cp _ _ I) H eq_refl).
Qed.
Lemma create_id_step : forall s c a s' id,
  reachable cfg s -> calls cfg s c (SCreate a) s' ERR_OK id ->
  c_sched cfg (k_cp s) <> SCHED_RMS \/
  (0 < u64 (a_period a) < 2 ^ 63 /\
   forall t, created cfg s (k_cp s) t -> t_period (k_th s t) <= u64 (a_period a)) ->
  has_attrs a (k_th s' id).
Proof.
  intros s c a s' id R H Hs. pose proof (reachable_inv cfg W s R) as I. apply create_call in H. destruct H as (_ & H).
  exact (create_id a _ _ _ _ _ I (ki_cp _ _ I) H eq_refl Hs).
Qed.
End Rms.
