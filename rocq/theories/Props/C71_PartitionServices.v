(** C71: the ARINC 653 partition services.

    ARINC 653: SET_PARTITION_MODE sets any of the four modes, except that NORMAL in NORMAL is NO_ACTION and WARM_START in
    COLD_START is INVALID_MODE; GET_PARTITION_STATUS tells identifier, mode, period, duration and start condition.
    Here NORMAL and WARM_START work, for the main thread and the error handler; nothing else happens under any other
    code. IDLE and COLD_START are never set, other processes are refused, with a code that is none of ARINC 653.
    The status has a right mode; the period is always 0, the duration that of another slot, the identifier right in
    its lowest byte. *)
From Verif Require Import Model.Base Model.State Model.LockFifo Model.LockObj Model.LockSys Model.Sched Model.Kernel Model.Arinc Model.ArincPart
  Spec.SchedSpec Spec.KernelSpec Spec.Demo Proof.Tac Proof.KernelInv Proof.PartStep Proof.ChoiceProof Proof.ArincProcProof.

(** The thread on processor [c] calls SET_PARTITION_MODE [m] in state [s]. *)
Definition sets_mode (cfg : config) (s : kstate) (c m : Z) (s' : kstate) (e : Z) : Prop :=
  exists junk, exec cfg c junk (set_partition_mode (mode_of s (k_cp s)) m) s = Some (s', e).

Lemma request_effect : forall cfg, supported cfg -> forall s c m s' e, reachable cfg s ->
  (exists junk, exec cfg c junk (Ask (SSetMode m) (fun r => Fin r)) s = Some (s', e)) -> m = PM_NORMAL \/ m = PM_WARM \/ m = PM_IDLE ->
  (e = NO_ERROR /\ (m = PM_NORMAL \/ m = PM_WARM) /\ mode_of s' (k_cp s) = m) \/ (e <> NO_ERROR /\ s' = s).
Proof.
  intros cfg Sp s c m s' e R (junk & E) M. apply (exec_last cfg c junk _ (fun r => r)) in E. destruct E as (r & id & C & ->).
  destruct (mode_request cfg Sp s c m s' r id R C) as [(A & B)|(A & B & _)]; [right; auto|]. left. split; [exact A|]. split; [|exact B].
  destruct M as [M|[M|M]]; [now left|now right|]. exfalso. destruct C as (f & K).
  pose proof (reachable_inv cfg Sp s R) as I. pose proof (reachable_inv cfg Sp s' (reachable_step cfg s _ s' _ R K)) as I'.
  destruct (po_mode _ _ _ (ki_part _ _ I' _ (ki_cp _ _ I))) as [X|[X|[X|X]]]; unfold mode_of in B; rewrite X, M in B; discriminate B.
Qed.

(** A request is granted, with NO_ERROR, or changes nothing. *)
Theorem C71_effect : forall cfg, supported cfg -> forall s c m s' e, reachable cfg s -> sets_mode cfg s c m s' e ->
  (e = NO_ERROR /\ (m = A_NORMAL \/ m = A_WARM) /\ mode_of s' (k_cp s) = m) \/ (e <> NO_ERROR /\ s' = s).
Proof.
  intros cfg Sp s c m s' e R (junk & E). unfold set_partition_mode in E.
  assert (fin : forall x, exec cfg c junk (Fin x) s = Some (s', e) -> x <> NO_ERROR -> e <> NO_ERROR /\ s' = s).
  { intros x X N. injection X as <- <-. auto. }
  destruct (Z.eqb_spec m A_IDLE) as [->|_].
  { destruct (_ =? PM_IDLE) in E; [right; apply (fin _ E); discriminate|].
    change (PM_IDLE =? PM_WARM) with false in E. rewrite andb_false_r in E.
    destruct (request_effect cfg Sp s c PM_IDLE s' e R) as [(_ & [X|X] & _)|X]; [now exists junk|auto|discriminate X|discriminate X|now right]. }
  destruct (Z.eqb_spec m A_NORMAL) as [->|_].
  { destruct (_ =? PM_NORMAL) in E; [right; apply (fin _ E); discriminate|].
    change (PM_NORMAL =? PM_WARM) with false in E. rewrite andb_false_r in E.
    destruct (request_effect cfg Sp s c PM_NORMAL s' e R) as [(X & _ & Y)|X]; [now exists junk|auto| |now right].
    left. split; [exact X|]. split; [now left|exact Y]. }
  destruct (Z.eqb_spec m A_COLD) as [->|_]; [right; apply (fin _ E); discriminate|].
  destruct (Z.eqb_spec m A_WARM) as [->|_]; [|right; apply (fin _ E); discriminate].
  destruct (_ =? PM_WARM) in E; [right; apply (fin _ E); discriminate|].
  destruct (_ && _) in E; [right; apply (fin _ E); discriminate|].
  destruct (request_effect cfg Sp s c PM_WARM s' e R) as [(X & _ & Y)|X]; [now exists junk|auto| |now right].
  left. split; [exact X|]. split; [now right|exact Y].
Qed.
Print Assumptions C71_effect.

(** Refusals with the codes of ARINC 653. *)
Theorem C71_refusals : forall cfg s c m s' e, sets_mode cfg s c m s' e ->
  (~ (0 <= m <= 3) -> e = INVALID_PARAM) /\
  (m = A_NORMAL -> mode_of s (k_cp s) = PM_NORMAL -> e = NO_ACTION) /\
  (m = A_WARM -> mode_of s (k_cp s) = PM_COLD -> e = INVALID_MODE).
Proof.
  intros cfg s c m s' e (junk & E). unfold set_partition_mode in E. split; [|split].
  - intros M. unfold A_IDLE, A_NORMAL, A_COLD, A_WARM in E.
    replace (m =? 0) with false in E by lia. replace (m =? 3) with false in E by lia.
    replace (m =? 1) with false in E by lia. replace (m =? 2) with false in E by lia. injection E as _ <-. reflexivity.
  - intros -> M. rewrite M in E. injection E as _ <-. reflexivity.
  - intros -> M. rewrite M in E. injection E as _ <-. reflexivity.
Qed.
Print Assumptions C71_refusals.

(** The main thread starts its partition. *)
Theorem C71_normal : forall cfg, supported cfg -> forall s c s' e, reachable cfg s -> sets_mode cfg s c A_NORMAL s' e ->
  is_init (mode_of s (k_cp s)) -> k_cur s c = low_of cfg (k_cp s) -> e = NO_ERROR /\ mode_of s' (k_cp s) = PM_NORMAL.
Proof.
  intros cfg Sp s c s' e R H I M.
  assert (X : e = NO_ERROR).
  { destruct H as (junk & E). unfold set_partition_mode in E. change (A_NORMAL =? A_IDLE) with false in E. change (A_NORMAL =? A_NORMAL) with true in E. cbv iota in E.
    assert (N : mode_of s (k_cp s) =? PM_NORMAL = false) by (destruct I as [-> | ->]; reflexivity). rewrite N in E.
    change (PM_NORMAL =? PM_WARM) with false in E. rewrite andb_false_r in E.
    apply (exec_last cfg c junk _ (fun r => r)) in E. destruct E as (r & id & C & ->). apply calls_service in C. destruct C as (_ & _ & _ & f & G).
    pose proof (reachable_inv cfg Sp s R) as KI. pose proof (po_main _ _ _ (ki_part _ _ KI _ (ki_cp _ _ KI))) as PM.
    unfold service in G. unfold set_mode_current, cur_part in G. rewrite PM, M, Z.eqb_refl in G. cbn [negb andb] in G.
    unfold set_mode in G. change (PM_NORMAL =? PM_NORMAL) with true in G. cbv iota in G. rewrite PM, M, Z.eqb_refl in G. cbn [negb] in G.
    assert (N2 : p_mode (k_part s (k_cp s)) =? PM_IDLE = false) by (unfold is_init, mode_of in I; destruct I as [-> | ->]; reflexivity).
    cbv zeta in G. rewrite N2 in G. unfold then_global in G. destruct (global_sched _ _ _) as [[s2 f2]|]; [|discriminate G].
    cbn in G. injection G as _ <- _ _. reflexivity. }
  split; [exact X|]. destruct (C71_effect cfg Sp s c A_NORMAL s' e R H) as [(_ & _ & Y)|(Y & _)]; [exact Y|contradiction].
Qed.
Print Assumptions C71_normal.


(** ** What is refused *)
(** A request is granted unless ARINC 653 says otherwise. *)
Definition granted (m : Z) : Prop := forall cfg, supported cfg -> forall s c s' e, reachable cfg s -> sets_mode cfg s c m s' e ->
  ~ (m = A_NORMAL /\ mode_of s (k_cp s) = PM_NORMAL) -> ~ (m = A_WARM /\ mode_of s (k_cp s) = PM_COLD) -> e = NO_ERROR.
(** Every answer is a value of RETURN_CODE_TYPE. *)
Definition coded (m : Z) : Prop := forall cfg, supported cfg -> forall s c s' e, reachable cfg s -> sets_mode cfg s c m s' e -> 0 <= e <= 6.

Definition c71_junk : status := mkStatus 0 0 0.
(** After history [ls] the request for [m] gives [e]; the mode of the partition is then [pm]. *)
Definition c71_try (cfg : config) (ls : list klabel) (m pm e : Z) : bool :=
  match demo_run cfg ls with
  | Some (s, _) => (mode_of s (k_cp s) =? pm) &&
      match exec cfg 0 c71_junk (set_partition_mode (mode_of s (k_cp s)) m) s with
      | Some (_, r) => r =? e
      | None => false
      end
  | None => false
  end.
Lemma c71_witness : forall cfg ls m pm e, c71_try cfg ls m pm e = true ->
  exists s s', reachable cfg s /\ mode_of s (k_cp s) = pm /\ sets_mode cfg s 0 m s' e.
Proof.
  intros cfg ls m pm e H. unfold c71_try in H. destruct (demo_run cfg ls) as [[s evs]|] eqn:R; [|discriminate H].
  apply andb_prop in H. destruct H as (A & H).
  destruct (exec cfg 0 c71_junk (set_partition_mode (mode_of s (k_cp s)) m) s) as [[s' r]|] eqn:E; [|discriminate H]. exists s, s'.
  split; [exact (demo_reachable _ _ _ _ R)|]. split; [now apply Z.eqb_eq|]. exists c71_junk. rewrite E. apply Z.eqb_eq in H. now rewrite H.
Qed.

Definition c71_gives := c71_try (demo 1 SCHED_RR SCHED_RR).

(** The main thread; the error handler after an error; the main thread after a cold start; process 1. *)
Definition c71_main : list klabel := [KTick 1; KTimer 0].
Definition c71_handler : list klabel := [KTick 1; KTimer 0; KCall 0 (SErrorCreate 6000 0 0 0); KTimer 0; KCall 0 (SSetMode PM_NORMAL)].
Definition c71_cold : list klabel := c71_handler ++ [KCall 0 (SSetMode PM_COLD)].
Definition c71_process : list klabel := demo_start [at_entry 5 0 0 0] ++ [KTick 1; KTimer 0].

(** The hypotheses of [C71_normal]; WARM_START is granted to the error handler. *)
Example c71_granted_case : c71_gives c71_main A_NORMAL PM_WARM NO_ERROR = true /\ c71_gives c71_handler A_WARM PM_NORMAL NO_ERROR = true /\
  c71_gives c71_cold A_WARM PM_COLD INVALID_MODE = true /\ c71_gives c71_process A_NORMAL PM_NORMAL NO_ACTION = true /\
  c71_gives c71_main 9 PM_WARM INVALID_PARAM = true /\
  match demo_run (demo 1 SCHED_RR SCHED_RR) c71_main with Some (s, _) => k_cur s 0 = 0 /\ k_cp s = 0 | None => False end.
Proof. vm_compute. repeat split; reflexivity. Qed.

Ltac refused ls m pm e := destruct (c71_witness (demo 1 SCHED_RR SCHED_RR) ls m pm e ltac:(vm_compute; reflexivity)) as (s & s' & R & M & E).
Theorem C71_idle_refuted : ~ granted A_IDLE.
Proof.
  intros H. refused c71_handler A_IDLE PM_NORMAL 601. specialize (H _ (demo_supported 1 _ _ ltac:(lia)) s 0 s' 601 R E). 
  discriminate H; intros (A & _); discriminate A.
Qed.
Print Assumptions C71_idle_refuted.
Theorem C71_cold_refuted : ~ granted A_COLD.
Proof.
  intros H. refused c71_handler A_COLD PM_NORMAL NOT_AVAILABLE. specialize (H _ (demo_supported 1 _ _ ltac:(lia)) s 0 s' NOT_AVAILABLE R E).
  discriminate H; intros (A & _); discriminate A.
Qed.
Print Assumptions C71_cold_refuted.
(** A process in NORMAL mode asks for WARM_START. *)
Theorem C71_warm_refuted : ~ granted A_WARM.
Proof.
  intros H. refused c71_process A_WARM PM_NORMAL ERR_THREAD. specialize (H _ (demo_supported 1 _ _ ltac:(lia)) s 0 s' ERR_THREAD R E).
  discriminate H; [intros (A & _); discriminate A|intros (_ & A); rewrite M in A; discriminate A].
Qed.
Print Assumptions C71_warm_refuted.
Theorem C71_codes_refuted : ~ coded A_WARM /\ ~ coded A_IDLE.
Proof.
  split.
  - intros H. refused c71_process A_WARM PM_NORMAL ERR_THREAD. specialize (H _ (demo_supported 1 _ _ ltac:(lia)) s 0 s' ERR_THREAD R E). unfold ERR_THREAD in H. lia.
  - intros H. refused c71_main A_IDLE PM_WARM 601. specialize (H _ (demo_supported 1 _ _ ltac:(lia)) s 0 s' 601 R E). lia.
Qed.
Print Assumptions C71_codes_refuted.

(** ** Status *)
(** The mode, in the numbers of ARINC 653. What is missing: a partition that another processor has just stopped. *)
Theorem C71_mode_partial : forall cfg, supported cfg -> forall s junk, reachable cfg s -> mode_of s (k_cp s) <> PM_STOPPED ->
  let m := ps_mode (get_partition_status cfg junk s) in
  m = mode_of s (k_cp s) /\ (m = A_COLD \/ m = A_WARM \/ m = A_NORMAL).
Proof.
  intros cfg Sp s junk R N m. pose proof (reachable_inv cfg Sp s R) as I. split; [reflexivity|].
  destruct (po_mode _ _ _ (ki_part _ _ I _ (ki_cp _ _ I))) as [X|[X|[X|X]]]; [now left|right; now left|right; now right|contradiction].
Qed.
Print Assumptions C71_mode_partial.

(** What is missing: the upper bytes of the field, which keep what was in them. *)
Theorem C71_identifier_partial : forall cfg, supported cfg -> forall s junk, reachable cfg s -> 0 <= junk < 256 ->
  ps_id (get_partition_status cfg junk s) = k_cp s.
Proof.
  intros cfg Sp s junk R J. pose proof (reachable_inv cfg Sp s R) as I. pose proof (ki_cp _ _ I) as C.
  pose proof (sp_parts _ Sp) as P. unfold is_part in C. unfold get_partition_status. cbn [ps_id]. unfold u32, u8.
  change (2 ^ 32) with 4294967296. change (2 ^ 8) with 256. rewrite !Z.mod_small by lia. lia.
Qed.
Print Assumptions C71_identifier_partial.

Definition c71_swapped : config :=
  mkConfig 2 8 1 (two 4 2) (two 1 1) (two SCHED_RR SCHED_RR) (two 1 1) (two 100000 50000) (two 4096 8192)
           2 (two 10 20) (two 1 0) 30 FlushMajor true 4096 1048576.
Lemma c71_swapped_supported : supported c71_swapped.
Proof.
  constructor.
  - cbn. lia.
  - cbn. lia.
  - intros i _. cbn. unfold two. destruct (i =? 0); lia.
  - vm_compute. split; discriminate.
  - intros i _. cbn. unfold two. destruct (i =? 0); lia.
  - vm_compute. discriminate.
  - cbn. lia.
  - intros i _. cbn. unfold two. destruct (i =? 0); lia.
  - intros i _. unfold is_part. cbn. unfold two. destruct (i =? 0); lia.
  - reflexivity.
Qed.
(** At boot partition 1 executes, in slot 0, for 10. *)
Lemma c71_boot : exists s, reachable c71_swapped s /\ k_cp s = 1.
Proof.
  assert (X : match kboot c71_swapped with Some s => k_cp s = 1 | None => False end) by (vm_compute; reflexivity).
  destruct (kboot c71_swapped) as [s|] eqn:B; [|contradiction]. exists s. split; [|exact X]. exists s, [], []. split; [exact B|reflexivity].
Qed.
Example c71_status_case : exists s, reachable c71_swapped s /\ mode_of s (k_cp s) <> PM_STOPPED /\
  get_partition_status c71_swapped 7 s = mkPstatus 0 20 1 0 A_WARM 0.
Proof.
  assert (X : match kboot c71_swapped with Some s => mode_of s (k_cp s) = PM_WARM /\ get_partition_status c71_swapped 7 s = mkPstatus 0 20 1 0 A_WARM 0 | None => False end)
    by (vm_compute; split; reflexivity).
  destruct (kboot c71_swapped) as [s|] eqn:B; [|contradiction]. exists s. destruct X as (X1 & X2). split; [exists s, [], []; split; [exact B|reflexivity]|].
  split; [rewrite X1; discriminate|exact X2].
Qed.

Theorem C71_identifier_refuted : ~ (forall cfg, supported cfg -> forall s junk, reachable cfg s ->
  ps_id (get_partition_status cfg junk s) = k_cp s).
Proof.
  intros H. destruct c71_boot as (s & R & C). specialize (H _ c71_swapped_supported s 256 R). unfold get_partition_status in H. cbn [ps_id] in H.
  rewrite C in H. vm_compute in H. discriminate H.
Qed.
Print Assumptions C71_identifier_refuted.

(** A partition with a single slot, number [i], in the major frame. *)
Definition only_slot (cfg : config) (p i : Z) : Prop := 0 <= i < c_nslots cfg /\ c_alloc cfg i = p /\
  forall j, 0 <= j < c_nslots cfg -> c_alloc cfg j = p -> j = i.
Lemma c71_only : only_slot c71_swapped 1 0.
Proof.
  split; [cbn; lia|]. split; [reflexivity|]. intros j _ A. cbn in A. unfold two in A. destruct (Z.eqb_spec j 0); [assumption|discriminate A].
Qed.
(** Its duration is the length of that slot; its period is the major frame. *)
Theorem C71_duration_refuted : ~ (forall cfg, supported cfg -> forall s junk i, reachable cfg s -> only_slot cfg (k_cp s) i ->
  ps_duration (get_partition_status cfg junk s) = c_slot cfg i).
Proof.
  intros H. destruct c71_boot as (s & R & C). specialize (H _ c71_swapped_supported s 0 0 R). unfold get_partition_status in H. cbn [ps_duration] in H.
  rewrite C in H. specialize (H c71_only). vm_compute in H. discriminate H.
Qed.
Print Assumptions C71_duration_refuted.
Theorem C71_period_refuted : ~ (forall cfg, supported cfg -> forall s junk i, reachable cfg s -> only_slot cfg (k_cp s) i ->
  ps_period (get_partition_status cfg junk s) = c_major cfg).
Proof.
  intros H. destruct c71_boot as (s & R & C). specialize (H _ c71_swapped_supported s 0 0 R). rewrite C in H. specialize (H c71_only). vm_compute in H. discriminate H.
Qed.
Print Assumptions C71_period_refuted.

(** The first start of a partition, after power-on, is a cold start. *)
Theorem C71_boot_refuted : ~ (forall cfg, supported cfg -> forall s junk, kboot cfg = Some s ->
  ps_mode (get_partition_status cfg junk s) = A_COLD).
Proof.
  intros H. specialize (H _ c71_swapped_supported).
  assert (X : match kboot c71_swapped with Some s => ps_mode (get_partition_status c71_swapped 0 s) = A_WARM | None => False end) by (vm_compute; reflexivity).
  destruct (kboot c71_swapped) as [s|] eqn:B; [|contradiction]. specialize (H s 0 eq_refl). rewrite X in H. discriminate H.
Qed.
Print Assumptions C71_boot_refuted.
