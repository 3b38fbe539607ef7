(** How steps change partitions and lock objects. *)
From Verif Require Import Model.Base Model.State Model.LockFifo Model.LockObj Model.LockSys Model.Sched
  Model.Kernel Spec.SchedSpec Spec.KernelSpec Proof.Tac Proof.SchedProof Proof.KernelBasic Proof.FairProof
  Proof.ClockProof Proof.SlotProof Proof.KernelInv Proof.ElectProof Proof.ServiceProof Proof.PlaceProof
  Proof.ThreadUpd Proof.ChoiceProof Proof.RmsProof.

Definition pkey (pt : part) := (p_mode pt, p_index pt, p_error pt, p_main pt).

Section Parts.
Variable cfg : config.
Hypothesis W : supported cfg.

(** ** Scheduling *)
Lemma phase_keeps : forall c ph s s', kinv cfg s -> is_proc cfg c -> run_phase cfg c ph s s' ->
  (forall i, pkey (k_part s' i) = pkey (k_part s i)) /\ k_obj s' = k_obj s /\ k_k s' = k_k s.
Proof.
  intros c ph s s' I Hc H. pose proof (kinv_half _ _ I) as Hh.
  set (R := fun s s' : kstate => (forall i, pkey (k_part s' i) = pkey (k_part s i)) /\ k_obj s' = k_obj s /\ k_k s' = k_k s).
  assert (Rel : forall d a b, half cfg a -> is_proc cfg d -> elected cfg d a b -> R a b).
  { intros d a b Ha Hd He. destruct (elected_table cfg W d a b Ha Hd He) as (_ & _ & E1 & E2 & _).
    split; [|split; assumption]. intros i. destruct (elected_parts cfg d a b He i) as (pv & cu & ->). reflexivity. }
  destruct ph; cbn in H.
  - subst s'. repeat split.
  - apply sched_thread_elected in H. now apply Rel with c.
  - destruct H as (f & H). refine (proj1 (global_sched_rel cfg W R _ _ _ _ c s s' f Hh Hc H)).
    + intros a b d (A1 & A2 & A3) (B1 & B2 & B3). split; [|split; congruence]. intros i. now rewrite B1.
    + intros a. repeat split.
    + exact Rel.
    + intros a b Ha Hr. destruct (repart_fields _ _ _ Hr) as (_ & E2 & E3 & _ & _ & E4 & _).
      split; [|split; assumption]. intros i. now rewrite E2.
Qed.

(** ** Mode requests *)
Definition handler_calls (s : kstate) (c : Z) : Prop :=
  p_error (cur_part s) <> 0 /\ k_cur s c = p_error (cur_part s).
Lemma set_mode_spec : forall c m s s' e f, kinv cfg s -> is_proc cfg c -> set_mode cfg c m s = Some (s', e, f) ->
  (e <> ERR_OK /\ s' = s) \/
  (e = ERR_OK /\ mode_of s' (k_cp s) = m /\ k_obj s' = k_obj s /\
   ((m = PM_NORMAL /\ k_cur s c = p_main (cur_part s) /\
     p_index (k_part s' (k_cp s)) = p_index (cur_part s) /\ p_error (k_part s' (k_cp s)) = p_error (cur_part s)) \/
    (m = PM_STOPPED /\ handler_calls s c /\
     p_index (k_part s' (k_cp s)) = p_index (cur_part s) /\ p_error (k_part s' (k_cp s)) = p_error (cur_part s)) \/
    (is_init m /\ handler_calls s c /\ ~ (mode_of s (k_cp s) = PM_COLD /\ m = PM_WARM) /\
     p_index (k_part s' (k_cp s)) = 1 /\ p_error (k_part s' (k_cp s)) = 0))).
Proof.
  intros c m s s' e f I Hc E. unfold set_mode in E. fold (cur_part s) in E. pose proof (ki_cp _ _ I) as Hcp.
  assert (Hpm : forall v, known_mode v -> kinv cfg (on_part (k_cp s) (set_p_mode v) s)).
  { intros v Hv. apply kinv_part; [assumption|]. intros Hpp. apply set_mode_ok; [|assumption]. now apply (ki_part _ _ I). }
  assert (Hret : forall e0, e0 <> ERR_OK -> ret s e0 = Some (s', e, f) -> e <> ERR_OK /\ s' = s).
  { intros e0 Hn E0. unfold ret in E0. injection E0 as <- <- _. auto. }
  assert (Hglob : forall s1, kinv cfg s1 -> then_global cfg c s1 ERR_OK = Some (s', e, f) ->
    e = ERR_OK /\ (forall i, pkey (k_part s' i) = pkey (k_part s1 i)) /\ k_obj s' = k_obj s1).
  { intros s1 I1 G. unfold then_global in G. destruct (global_sched cfg c s1) as [[s2 f2]|] eqn:GG; [|discriminate].
    injection G as <- <- _. split; [reflexivity|].
    destruct (phase_keeps c PhGlobal s1 s2 I1 Hc (ex_intro _ f2 GG)) as (A & B & _). auto. }
  assert (Hh : (p_error (cur_part s) =? 0) || negb (k_cur s c =? p_error (cur_part s)) = false -> handler_calls s c).
  { intros B. apply orb_false_iff in B. destruct B as (B1 & B2). apply Z.eqb_neq in B1. apply negb_false_iff, Z.eqb_eq in B2. split; assumption. }
  destruct (Z.eqb_spec m PM_NORMAL) as [->|].
  { destruct (_ =? PM_IDLE); [left; now apply Hret in E|]. destruct (Z.eqb_spec (k_cur s c) (p_main (cur_part s))) as [Em|]; cbn [negb] in E.
    2:{ left; now apply Hret in E. }
    right. apply Hglob in E. 2:{ do 2 apply kinv_th. apply Hpm. unfold known_mode. auto. }
    destruct E as (-> & E & Eo). specialize (E (k_cp s)). cbn in E. rewrite upd_same in E. unfold pkey in E. cbn in E.
    injection E as E1 E2 E3 E4. split; [reflexivity|]. split; [assumption|]. split; [exact Eo|]. left. repeat split; assumption. }
  destruct (Z.eqb_spec m PM_STOPPED) as [->|].
  { destruct (_ || _) eqn:B; [left; now apply Hret in E|]. right.
    apply Hglob in E. 2:{ apply Hpm. unfold known_mode. auto. }
    destruct E as (-> & E & Eo). specialize (E (k_cp s)). cbn in E. rewrite upd_same in E. unfold pkey in E. cbn in E.
    injection E as E1 E2 E3 E4. split; [reflexivity|]. split; [assumption|]. split; [exact Eo|]. right; left. repeat split; auto; now apply Hh. }
  destruct ((m =? PM_WARM) || (m =? PM_COLD)) eqn:B.
  2:{ left. now apply Hret in E. }
  assert (Hm : m = PM_COLD \/ m = PM_WARM) by (rewrite orb_true_iff, !Z.eqb_eq in B; tauto). clear B.
  destruct ((p_mode (cur_part s) =? PM_COLD) && (m =? PM_WARM)) eqn:B1; [left; now apply Hret in E|].
  destruct (_ || _) eqn:B2; [left; now apply Hret in E|]. right.
  destruct (partition_reinit _ _ _ _) as [s1|] eqn:R; [|discriminate].
  apply (reinit_inv cfg W) in R; try assumption.
  2:{ apply Hpm. unfold known_mode. tauto. }
  2:{ cbn. rewrite upd_same. exact Hm. }
  destruct R as (I1 & _ & _ & R4 & _ & R1 & R2 & R3). apply Hglob in E; [|assumption].
  destruct E as (-> & E & Eo). specialize (E (k_cp s)). cbn in R1. rewrite upd_same in R1. cbn in R1. unfold pkey in E. injection E as E1 E2 E3 E4.
  split; [reflexivity|]. split; [unfold mode_of; congruence|]. split; [now rewrite Eo, R4|]. right; right. split; [exact Hm|].
  split; [now apply Hh|]. split; [|split; congruence]. intros (X1 & ->). unfold mode_of in X1. fold (cur_part s) in X1. rewrite X1 in B1. discriminate.
Qed.

(** ** Steps and partitions *)
Definition changes_part (v : svc) : bool :=
  match v with SCreate _ | SErrorCreate _ _ _ _ | SSetMode _ => true | _ => false end.
Lemma part_step : forall s l s' ev, kinv cfg s -> kstep cfg s l = KNext s' ev ->
  (forall i, i <> k_cp s -> pkey (k_part s' i) = pkey (k_part s i)) /\
  (match l with KCall _ v => changes_part v = false | _ => True end -> forall i, pkey (k_part s' i) = pkey (k_part s i)).
Proof.
  intros s l s' ev I H.
  assert (Hall : (forall i, pkey (k_part s' i) = pkey (k_part s i)) ->
    (forall i, i <> k_cp s -> pkey (k_part s' i) = pkey (k_part s i)) /\
    (match l with KCall _ v => changes_part v = false | _ => True end -> forall i, pkey (k_part s' i) = pkey (k_part s i))) by auto.
  destruct l as [d|c|c|c v|c]; cbn in H.
  - apply Hall. destruct (0 <? d); [|discriminate]. injection H as <- _. reflexivity.
  - apply Hall. destruct (valid_proc cfg c) eqn:V; [|discriminate]. apply valid_proc_is in V.
    destruct (global_sched cfg c s) as [[s1 f]|] eqn:G; [|discriminate]. injection H as <- _.
    apply (phase_keeps c PhGlobal s s1 I V (ex_intro _ f G)).
  - apply Hall. destruct (valid_proc cfg c) eqn:V; [|discriminate]. apply valid_proc_is in V.
    destruct (sched_thread cfg c s) as [s1|] eqn:G; [|discriminate]. injection H as <- _.
    apply (phase_keeps c PhThread s s1 I V G).
  - clear Hall. destruct (valid_proc cfg c) eqn:V; [|discriminate]. apply valid_proc_is in V.
    destruct (_ && _); [|discriminate]. destruct (service cfg c v s) as [[[[s1 e] f] id]|] eqn:G; [|discriminate].
    injection H as <- _.
    destruct (service_phase cfg W c v s s1 e f id I V G) as (s2 & ph & Hph & I1 & B1 & B2 & B3 & B4 & B5 & B6).
    destruct (phase_keeps c ph s2 s1 I1 V Hph) as (P1 & _).
    split; [intros i Hi; rewrite P1; now rewrite B4|].
    intros Hv i. destruct v; try discriminate; try (rewrite P1; destruct (B6 Logic.I) as (-> & _); reflexivity).
    cbn in G. injection G as <- _ _ _. unfold activate_error_thread. destruct (_ =? 0); reflexivity.
  - apply Hall. destruct (valid_proc cfg c) eqn:V; [|discriminate]. apply valid_proc_is in V.
    destruct (_ && _); [|discriminate]. destruct (lock_continue cfg c s) as [[[s1 e] f]|] eqn:G; [|discriminate].
    injection H as <- _.
    destruct (lock_continue_phase cfg c s s1 e f 0 0 None I V G) as (s2 & ph & Hph & I1 & B1 & B2 & B3 & B4 & B5 & B6).
    destruct (phase_keeps c ph s2 s1 I1 V Hph) as (P1 & _). intros i. rewrite P1. destruct (B6 Logic.I) as (-> & _). reflexivity.
Qed.

(** A step that is a call, and its event. *)
Lemma step_call : forall s c v s' ev, kstep cfg s (KCall c v) = KNext s' ev ->
  exists e id f, ev = [XRet c (k_cur s c) v e id; XFlush f] /\ calls cfg s c v s' e id.
Proof.
  intros s c v s' ev H. pose proof H as H0. cbn in H. destruct (_ && _); [|discriminate].
  destruct (service _ _ _ _) as [[[[s1 e] f] id]|]; [|discriminate]. injection H as -> <-. exists e, id, f. split; [reflexivity|]. now exists f.
Qed.

(** ** Modes *)
Lemma mode_request : forall s c m s' e id, reachable cfg s -> calls cfg s c (SSetMode m) s' e id ->
  (e <> ERR_OK /\ s' = s) \/
  (e = ERR_OK /\ mode_of s' (k_cp s) = m /\
   (m = PM_NORMAL -> k_cur s c = low_of cfg (k_cp s)) /\
   (m <> PM_NORMAL -> p_error (k_part s (k_cp s)) <> 0 /\ k_cur s c = p_error (k_part s (k_cp s)))).
Proof.
  intros s c m s' e id R H. pose proof (reachable_inv cfg W s R) as I. apply calls_service in H. destruct H as (V & U & _ & f & H).
  cbn in H. inv_no H. unfold set_mode_current in E.
  destruct (negb (k_cur s c =? p_main (cur_part s)) && _). { injection E as <- <- _. left. split; [discriminate|reflexivity]. }
  destruct (set_mode_spec _ _ _ _ _ _ I V E) as [A|(-> & A & _ & B)]; [now left|right].
  split; [reflexivity|]. split; [assumption|]. pose proof (ki_part _ _ I _ (ki_cp _ _ I)) as Hok.
  destruct B as [(-> & B & _)|[(-> & B & _)|(Hm & B & _)]].
  - split; [|congruence]. intros _. rewrite B. apply (po_main _ _ _ Hok).
  - split; [discriminate|]. intros _. exact B.
  - split; [|intros _; exact B]. intros ->. destruct Hm; discriminate.
Qed.

Lemma mode_change : forall s l s' ev i, reachable cfg s -> kstep cfg s l = KNext s' ev -> is_part cfg i ->
  mode_of s' i <> mode_of s i ->
  i = k_cp s /\ allowed_mode (mode_of s i) (mode_of s' i) /\
  exists c id, l = KCall c (SSetMode (mode_of s' i)) /\ calls cfg s c (SSetMode (mode_of s' i)) s' ERR_OK id.
Proof.
  intros s l s' ev i R H Hi Hne. pose proof (reachable_inv cfg W s R) as I. pose proof (reachable_placed cfg W s R) as Hp.
  destruct (part_step s l s' ev I H) as (P1 & P2).
  assert (Hk : forall j, pkey (k_part s' j) = pkey (k_part s j) -> mode_of s' j = mode_of s j).
  { intros j E. unfold pkey in E. unfold mode_of. congruence. }
  assert (Hcp : i = k_cp s). { destruct (Z.eq_dec i (k_cp s)); [assumption|]. exfalso. apply Hne, Hk, P1. assumption. }
  split; [assumption|].
  destruct l as [d|c|c|c v|c]; try (exfalso; apply Hne, Hk, P2; exact Logic.I).
  destruct (changes_part v) eqn:CP. 2:{ exfalso. apply Hne, Hk, P2. reflexivity. }
  destruct (step_call _ _ _ _ _ H) as (e & id & f & -> & HC). pose proof HC as HS. apply calls_service in HS.
  destruct HS as (V & U & _ & f2 & G). pose proof (caller_mode cfg s c I Hp V U) as Hcm. cbv zeta in Hcm.
  destruct v; try discriminate; cbn in G.
  - exfalso. destruct (thread_create _ _ _ _) as [[[s1 e1] i1]|] eqn:E; [|discriminate]. injection G as <- _ _ _.
    apply thread_create_part in E. destruct E as (_ & _ & E). destruct (E i) as (n & En). unfold mode_of in Hne. rewrite En in Hne. now apply Hne.
  - inv_no G. unfold set_mode_current in E. destruct (negb (k_cur s c =? p_main (cur_part s)) && _) eqn:B. { injection E as <- _ _. contradiction. }
    destruct (set_mode_spec _ _ _ _ _ _ I V E) as [(_ & ->)|(-> & A & _ & D)]; [contradiction|]. subst i. rewrite A in *.
    split. 2:{ exists c, 0. auto. }
    assert (Hold : is_init (mode_of s (k_cp s)) \/ mode_of s (k_cp s) = PM_NORMAL).
    { unfold is_init, mode_of. destruct Hcm as [(X & _)|(X & _)]; auto. }
    destruct D as [(-> & _)|[(-> & _)|(Hm & _ & Hn & _)]]; unfold allowed_mode.
    + destruct Hold as [Ho|Ho]; [left; auto|congruence].
    + right; left; auto.
    + right; right. auto.
  - exfalso. destruct (thread_create _ _ _ _) as [[[s1 e1] i1]|] eqn:E; [|discriminate].
    destruct (e1 =? ERR_OK); [|discriminate]. injection G as <- _ _ _.
    pose proof (thread_create_clock _ _ _ _ _ _ _ E) as Eck. apply (f_equal ck_cp) in Eck. cbn in Eck.
    apply thread_create_part in E. destruct E as (_ & _ & E). destruct (E i) as (n & En).
    apply Hne. unfold mode_of, activate_error_thread. destruct (_ =? 0); cbn; unfold upd; destruct (i =? k_cp s1) eqn:B; try (now rewrite En).
    + apply Z.eqb_eq in B. rewrite <- B, En. reflexivity.
    + apply Z.eqb_eq in B. rewrite <- B, En. reflexivity.
Qed.

Lemma reachable_run : forall ls s s' evs, reachable cfg s -> krun cfg s ls = Some (s', evs) -> reachable cfg s'.
Proof.
  intros ls s s' evs (s0 & ls0 & ev0 & B & R) H. exists s0, (ls0 ++ ls).
  assert (G : forall l1 a b e1, krun cfg a l1 = Some (b, e1) -> forall l2 d e2, krun cfg b l2 = Some (d, e2) ->
    exists e3, krun cfg a (l1 ++ l2) = Some (d, e3)).
  { induction l1 as [|x l1 IH]; intros a b e1 H1 l2 d e2 H2; cbn in *.
    - injection H1 as -> _. now exists e2.
    - destruct (kstep cfg a x) as [a1 ev| |] eqn:K; [| |discriminate].
      + destruct (krun cfg a1 l1) as [[a2 e4]|] eqn:K2; [|discriminate]. injection H1 as -> _.
        destruct (IH _ _ _ K2 _ _ _ H2) as (e3 & ->). now eexists.
      + now apply IH with b e1 e2. }
  destruct (G _ _ _ _ R _ _ _ H) as (e3 & E). exists e3. auto.
Qed.

Lemma stopped_forever : forall ls s s' evs i, reachable cfg s -> is_part cfg i -> mode_of s i = PM_STOPPED ->
  krun cfg s ls = Some (s', evs) -> mode_of s' i = PM_STOPPED.
Proof.
  induction ls as [|l ls IH]; intros s s' evs i R Hi Hm H; cbn in H; [injection H as <- _; assumption|].
  destruct (kstep cfg s l) as [s1 ev| |] eqn:K; [| |discriminate].
  - destruct (krun cfg s1 ls) as [[s2 ev2]|] eqn:R2; [|discriminate]. injection H as <- _.
    apply (IH s1 s2 ev2 i); try assumption.
    + apply (reachable_run [l] s s1 (ev ++ [])); [assumption|]. cbn. now rewrite K.
    + destruct (Z.eq_dec (mode_of s1 i) (mode_of s i)); [congruence|]. exfalso.
      destruct (mode_change s l s1 ev i R K Hi n) as (_ & A & _). rewrite Hm in A. unfold allowed_mode, is_init in A.
      repeat match goal with H : _ \/ _ |- _ => destruct H | H : _ /\ _ |- _ => destruct H end; discriminate.
  - now apply (IH s s' evs i).
Qed.
End Parts.
