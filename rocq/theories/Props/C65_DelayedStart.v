(** C65: a thread whose start is delayed does not start before the delay has passed.

    A delay asked for while the partition initialises itself runs from the change to NORMAL mode, one asked for
    in NORMAL mode runs from the request. False for periodic threads ([C65_not_early_refuted],
    [C65_normal_refuted]): after the initialisation they start at a date counted from the boot of the kernel
    ([C65_periodic_date]), and in NORMAL mode the request does not stop a thread that executes and does not start
    a stopped one, ever ([C65_never_started]). True of the others ([C65_not_early_partial],
    [C65_normal_partial]), which are also ready at the first scheduling after the delay ([C65_started]). Without
    delay all threads are ready at once ([C65_at_once]). *)
From Verif Require Import Model.Base Model.State Model.LockFifo Model.LockObj Model.LockSys Model.Sched Model.Kernel
  Spec.SchedSpec Spec.KernelSpec Spec.DelaySpec Spec.Demo Proof.Tac Proof.ElectProof Proof.ServiceProof Proof.KernelInv Proof.ActivationProof
  Proof.DelayProof Proof.PartStep Props.C24_Sleep.

(** Partition [j] asks in [s], while it initialises itself, to delay the start of the created thread [t] by [us]
    microseconds; it goes on to initialise itself without designating [t] again, and is granted the change to
    NORMAL mode in [s2]; [s3] is the state afterwards. *)
Definition delayed (cfg : config) (j t us : Z) (s s2 s3 : kstate) : Prop :=
  exists c s1 e id ls1 evs1 c2 id2,
    created cfg s j t /\ k_cp s = j /\ is_init (mode_of s j) /\ unqueued cfg s t /\
    calls cfg s c (SDelayedStart t us) s1 e id /\
    krun cfg s1 ls1 = Some (s2, evs1) /\ prepares cfg j t s1 ls1 /\
    k_cp s2 = j /\ calls cfg s2 c2 (SSetMode PM_NORMAL) s3 ERR_OK id2.

Definition C65_not_early : Prop := forall cfg, supported cfg -> forall s s2 s3 ls s4 evs j t us,
  reachable cfg s -> is_part cfg j -> thread_of cfg j t -> 0 < us -> k_now s2 + us * 1000 < 2 ^ 64 ->
  delayed cfg j t us s s2 s3 -> krun cfg s3 ls = Some (s4, evs) -> undisturbed cfg j t s3 ls ->
  k_now s4 < k_now s2 + us * 1000 -> t_state (k_th s4 t) <> ST_RUNNABLE /\ executes_nowhere cfg s4 t.
Definition C65_normal : Prop := forall cfg, supported cfg -> forall s c us s1 e id ls s2 evs j t,
  reachable cfg s -> is_part cfg j -> thread_of cfg j t -> created cfg s j t -> k_cp s = j -> mode_of s j = PM_NORMAL ->
  t <> p_error (k_part s j) -> unqueued cfg s t -> executes_nowhere cfg s t -> 0 < us -> k_now s + us * 1000 < 2 ^ 64 ->
  calls cfg s c (SDelayedStart t us) s1 e id -> krun cfg s1 ls = Some (s2, evs) -> undisturbed cfg j t s1 ls ->
  k_now s2 < k_now s + us * 1000 -> t_state (k_th s2 t) <> ST_RUNNABLE /\ executes_nowhere cfg s2 t.

Lemma created_live : forall cfg s j t, created cfg s j t -> SpaceSpec.live cfg s j t /\ t <> low_of cfg j.
Proof. unfold created, SpaceSpec.live. lia. Qed.

(** The thread at the change to NORMAL mode. *)
Lemma delayed_at : forall cfg, supported cfg -> forall s s2 s3 j t us,
  reachable cfg s -> is_part cfg j -> thread_of cfg j t -> delayed cfg j t us s s2 s3 ->
  reachable cfg s2 /\ reachable cfg s3 /\ k_cp s2 = j /\ is_init (mode_of s2 j) /\ t <> p_error (k_part s2 j) /\ t <> low_of cfg j /\
  unqueued cfg s2 t /\ t_state (k_th s2 t) = ST_DELAYED /\ t_wakeup (k_th s2 t) = us * 1000 /\
  t_period (k_th s2 t) = t_period (k_th s t) /\ t_capacity (k_th s2 t) = t_capacity (k_th s t) /\
  exists c2 id2, calls cfg s2 c2 (SSetMode PM_NORMAL) s3 ERR_OK id2.
Proof.
  intros cfg W s s2 s3 j t us Hr Hj Ht (c & s1 & e & id & ls1 & evs1 & c2 & id2 & Hcr & Hcp & Hm & Hq & HC & HR & Hp & Hcp2 & HC2).
  destruct (created_live cfg s j t Hcr) as (Hl & Hmain).
  destruct (delay_init cfg W j t Hj Ht Hmain s c us s1 e id Hr HC Hcp Hl Hm) as (_ & E1).
  destruct HC as (f & HC). assert (Hr1 : reachable cfg s1) by (exact (ChoiceProof.reachable_step cfg s _ s1 _ Hr HC)).
  assert (Hr2 : reachable cfg s2) by (exact (reachable_run cfg ls1 s1 s2 evs1 Hr1 HR)).
  assert (Hr3 : reachable cfg s3) by (destruct HC2 as (f2 & HC2); exact (ChoiceProof.reachable_step cfg s2 _ s3 _ Hr2 HC2)).
  assert (Q1 : unqueued cfg s1 t) by (rewrite E1; exact Hq).
  assert (Et : k_th s1 t = set_t_wakeup (us * 1000) (set_t_state ST_DELAYED (set_t_priority (t_base_prio (k_th s t)) (k_th s t)))).
  { rewrite E1. unfold on_th. cbn. now rewrite upd_same. }
  destruct (init_run cfg W j t Hj Ht Hmain ls1 s1 s2 evs1 Hr1 HR Hp Q1) as (S1 & Q2 & _ & M2 & He2); [rewrite Et; reflexivity|].
  apply same_end_fields in S1. destruct S1 as (_ & F1 & F2 & _ & _ & F3 & F4 & _). rewrite Et in F1, F2, F3, F4. cbn in F1, F2, F3, F4.
  repeat (split; [assumption|]). exists c2, id2. exact HC2.
Qed.

(** What is missing: periodic threads. *)
Theorem C65_not_early_partial : forall cfg, supported cfg -> forall s s2 s3 ls s4 evs j t us,
  reachable cfg s -> is_part cfg j -> thread_of cfg j t -> 0 < us -> k_now s2 + us * 1000 < 2 ^ 64 ->
  delayed cfg j t us s s2 s3 -> krun cfg s3 ls = Some (s4, evs) -> undisturbed cfg j t s3 ls ->
  t_period (k_th s t) = INFINITE ->
  k_now s4 < k_now s2 + us * 1000 ->
  t_state (k_th s4 t) = ST_WAITING /\ t_wakeup (k_th s4 t) = k_now s2 + us * 1000 /\ executes_nowhere cfg s4 t.
Proof.
  intros cfg W s s2 s3 ls s4 evs j t us Hr Hj Ht Hus Hb HD HR Hu Hper Hn.
  destruct (delayed_at cfg W s s2 s3 j t us Hr Hj Ht HD) as (Hr2 & Hr3 & Hcp & Hm & He & Hmain & Hq & Hst & Hw & Hp & _ & c2 & id2 & HC).
  pose proof (SlotProof.krun_now cfg ls s3 s4 evs HR) as Hmono.
  pose proof (now_pos cfg W s2 Hr2) as Hnow.
  pose proof (start_step cfg W j t Hj Ht Hmain s2 c2 s3 id2 Hr2 HC Hcp Hm He) as St. cbv zeta in St.
  set (a := normal_start cfg (k_now s2) (p_activation (k_part s2 j)) (k_th s2 t)) in *.
  assert (A : t_state a = ST_WAITING /\ t_wakeup a = k_now s2 + us * 1000).
  { unfold a, normal_start. rewrite Hst, Hp, Hper. replace (ST_DELAYED =? ST_DELAYED) with true by reflexivity.
    replace (INFINITE =? INFINITE) with true by reflexivity. cbv zeta. rewrite Hw. destruct (Z.eqb_spec (us * 1000) 0); [lia|].
    destruct (0 <? _); cbn; (split; [reflexivity|]); unfold u64; rewrite Z.mod_small by lia; lia. }
  destruct A as (A1 & A2).
  destruct St as (S1 & S2 & Eo & En). { split; rewrite A1; [intros _; left; lia|discriminate]. }
  apply same_end_fields in S1. destruct S1 as (_ & _ & _ & _ & _ & F1 & F2 & _).
  destruct (run_dormant cfg W j t Hj Ht ls s3 s4 evs Hr3 HR Hu) as (S4 & X4 & _).
  - rewrite F1, A1. discriminate.
  - apply S2. rewrite A1. discriminate.
  - intros i o. rewrite Eo. apply Hq.
  - split; rewrite F1, A1; [intros _; left; rewrite F2, A2; lia|discriminate].
  - apply same_end_fields in S4. destruct S4 as (_ & _ & _ & _ & _ & G1 & G2 & _). split; [congruence|]. split; [congruence|exact X4].
Qed.
Print Assumptions C65_not_early_partial.

(** A periodic thread is released at a date that does not depend on the change of mode. The activation date of
    the partition is set to 0 at boot and nowhere else (partition.c:194). *)
Theorem C65_periodic_date : forall cfg, supported cfg -> forall s s2 s3 ls s4 evs j t us d,
  reachable cfg s -> is_part cfg j -> thread_of cfg j t -> 0 < us ->
  delayed cfg j t us s s2 s3 -> krun cfg s3 ls = Some (s4, evs) -> undisturbed cfg j t s3 ls ->
  t_period (k_th s t) <> INFINITE ->
  d = us * 1000 + c_major cfg + p_activation (k_part s2 j) -> 0 <= d < 2 ^ 64 -> k_now s4 < d ->
  t_state (k_th s4 t) = ST_WAIT_NEXT /\ t_next_act (k_th s4 t) = d /\ executes_nowhere cfg s4 t.
Proof.
  intros cfg W s s2 s3 ls s4 evs j t us d Hr Hj Ht Hus HD HR Hu Hper Ed Hb Hn.
  destruct (delayed_at cfg W s s2 s3 j t us Hr Hj Ht HD) as (Hr2 & Hr3 & Hcp & Hm & He & Hmain & Hq & Hst & Hw & Hp & _ & c2 & id2 & HC).
  pose proof (SlotProof.krun_now cfg ls s3 s4 evs HR) as Hmono.
  pose proof (start_step cfg W j t Hj Ht Hmain s2 c2 s3 id2 Hr2 HC Hcp Hm He) as St. cbv zeta in St.
  set (a := normal_start cfg (k_now s2) (p_activation (k_part s2 j)) (k_th s2 t)) in *.
  assert (En : k_now s2 <= k_now s3).
  { destruct HC as (f & HC). apply (SlotProof.kstep_now cfg s2 _ s3 _ HC). }
  assert (A : t_state a = ST_WAIT_NEXT /\ t_next_act a = d).
  { unfold a, normal_start. rewrite Hst, Hp. replace (ST_DELAYED =? ST_DELAYED) with true by reflexivity.
    destruct (Z.eqb_spec (t_period (k_th s t)) INFINITE); [contradiction|]. cbv zeta. rewrite Hw. destruct (Z.eqb_spec (us * 1000) 0); [lia|].
    cbn. split; [reflexivity|]. unfold u64. rewrite Z.mod_small by lia. lia. }
  destruct A as (A1 & A2).
  destruct St as (S1 & S2 & Eo & _). { split; rewrite A1; [discriminate|intros _; lia]. }
  apply same_end_fields in S1. destruct S1 as (_ & _ & _ & _ & F2 & F1 & _).
  destruct (run_dormant cfg W j t Hj Ht ls s3 s4 evs Hr3 HR Hu) as (S4 & X4 & _).
  - rewrite F1, A1. discriminate.
  - apply S2. rewrite A1. discriminate.
  - intros i o. rewrite Eo. apply Hq.
  - split; rewrite F1, A1; [discriminate|intros _; rewrite F2, A2; lia].
  - apply same_end_fields in S4. destruct S4 as (_ & _ & _ & _ & G2 & G1 & _). split; [congruence|]. split; [congruence|exact X4].
Qed.
Print Assumptions C65_periodic_date.

Theorem C65_at_once : forall cfg, supported cfg -> forall s s2 s3 j t,
  reachable cfg s -> is_part cfg j -> thread_of cfg j t -> delayed cfg j t 0 s s2 s3 -> t_state (k_th s3 t) = ST_RUNNABLE.
Proof.
  intros cfg W s s2 s3 j t Hr Hj Ht HD.
  destruct (delayed_at cfg W s s2 s3 j t 0 Hr Hj Ht HD) as (Hr2 & Hr3 & Hcp & Hm & He & Hmain & Hq & Hst & Hw & Hp & _ & c2 & id2 & HC).
  pose proof (start_step cfg W j t Hj Ht Hmain s2 c2 s3 id2 Hr2 HC Hcp Hm He) as St. cbv zeta in St.
  set (a := normal_start cfg (k_now s2) (p_activation (k_part s2 j)) (k_th s2 t)) in *.
  assert (A : t_state a = ST_RUNNABLE).
  { unfold a, normal_start. rewrite Hst, Hw. replace (ST_DELAYED =? ST_DELAYED) with true by reflexivity. cbv zeta.
    destruct (t_period _ =? INFINITE); cbn; match goal with |- context [if ?b then _ else _] => destruct b end; reflexivity. }
  destruct St as (S1 & _). { split; rewrite A; discriminate. }
  apply same_end_fields in S1. destruct S1 as (_ & _ & _ & _ & _ & F1 & _). congruence.
Qed.
Print Assumptions C65_at_once.

Lemma undisturbed_end : forall cfg j t ls s s' evs, krun cfg s ls = Some (s', evs) -> undisturbed cfg j t s ls ->
  mode_of s' j = PM_NORMAL /\ t <> p_error (k_part s' j).
Proof.
  intros cfg j t. induction ls as [|l ls IH]; intros s s' evs H Hu; cbn in H.
  - injection H as <- _. destruct Hu as (A & B & _). auto.
  - destruct Hu as (_ & _ & _ & Hu). destruct (kstep cfg s l) as [s1 ev| |]; [| |discriminate].
    + destruct (krun cfg s1 ls) as [[s2 ev2]|] eqn:R; [|discriminate]. injection H as <- _. now apply (IH s1 s2 ev2).
    + now apply (IH s s' evs).
Qed.

(** Time passes from before the end of the delay to after it; the next scheduling of the partition on the
    processor of the thread makes it ready. *)
Theorem C65_started : forall cfg, supported cfg -> forall s s2 s3 ls s4 evs n s5 ev5 l s6 ev6 j t us,
  reachable cfg s -> is_part cfg j -> thread_of cfg j t -> 0 < us -> k_now s2 + us * 1000 < 2 ^ 64 ->
  delayed cfg j t us s s2 s3 -> krun cfg s3 ls = Some (s4, evs) -> undisturbed cfg j t s3 ls ->
  t_period (k_th s t) = INFINITE -> c_timed_wake cfg = true ->
  k_now s4 < k_now s2 + us * 1000 -> kstep cfg s4 (KTick n) = KNext s5 ev5 -> k_now s2 + us * 1000 <= k_now s5 ->
  kstep cfg s5 l = KNext s6 ev6 -> schedules cfg l (t_affinity (k_th s5 t)) -> k_cp s6 = j ->
  t_state (k_th s6 t) = ST_RUNNABLE.
Proof.
  intros cfg W s s2 s3 ls s4 evs n s5 ev5 l s6 ev6 j t us Hr Hj Ht Hus Hb HD HR Hu Hper Htw Hn K5 Hd K6 Hl Hcp.
  destruct (C65_not_early_partial cfg W s s2 s3 ls s4 evs j t us Hr Hj Ht Hus Hb HD HR Hu Hper Hn) as (A1 & A2 & A3).
  destruct (undisturbed_end cfg j t ls s3 s4 evs HR Hu) as (M4 & E4).
  destruct (delayed_at cfg W s s2 s3 j t us Hr Hj Ht HD) as (_ & Hr3 & _).
  assert (Hr4 : reachable cfg s4) by (exact (reachable_run cfg ls s3 s4 evs Hr3 HR)).
  assert (Hr5 : reachable cfg s5) by (exact (ChoiceProof.reachable_step cfg s4 _ s5 _ Hr4 K5)).
  cbn in K5. destruct (0 <? n); [|discriminate]. injection K5 as <- _.
  apply (C24_Sleep.C24_woken cfg W _ l s6 ev6 j t Hr5 K6 Hj Ht); try assumption. cbn in *. lia.
Qed.
Print Assumptions C65_started.

(** ** In NORMAL mode *)
(** What is missing: periodic threads. *)
Theorem C65_normal_partial : forall cfg, supported cfg -> forall s c us s1 e id ls s2 evs j t,
  reachable cfg s -> is_part cfg j -> thread_of cfg j t -> created cfg s j t -> k_cp s = j -> mode_of s j = PM_NORMAL ->
  t <> p_error (k_part s j) -> unqueued cfg s t -> executes_nowhere cfg s t -> 0 < us -> k_now s + us * 1000 < 2 ^ 64 ->
  calls cfg s c (SDelayedStart t us) s1 e id -> krun cfg s1 ls = Some (s2, evs) -> undisturbed cfg j t s1 ls ->
  t_period (k_th s t) = INFINITE ->
  k_now s2 < k_now s + us * 1000 ->
  e = ERR_OK /\ t_state (k_th s2 t) = ST_WAITING /\ t_wakeup (k_th s2 t) = k_now s + us * 1000 /\ executes_nowhere cfg s2 t.
Proof.
  intros cfg W s c us s1 e id ls s2 evs j t Hr Hj Ht Hcr Hcp Hm He Hq Hx Hus Hb HC HR Hu Hper Hn.
  destruct (created_live cfg s j t Hcr) as (Hl & Hmain). pose proof (now_pos cfg W s Hr) as Hnow.
  destruct (delay_normal cfg W j t Hj Ht Hmain s c us s1 e id Hr HC Hcp Hl Hm He Hx Hper) as (-> & Eo & En & _ & B); try lia.
  destruct B as (B1 & B2 & B3); [lia|].
  assert (Hr1 : reachable cfg s1) by (destruct HC as (f & HC); exact (ChoiceProof.reachable_step cfg s _ s1 _ Hr HC)).
  destruct (run_dormant cfg W j t Hj Ht ls s1 s2 evs Hr1 HR Hu) as (S4 & X4 & _).
  - rewrite B1. discriminate.
  - exact B3.
  - intros i o. rewrite Eo. apply Hq.
  - split; rewrite B1; [intros _; left; lia|discriminate].
  - apply same_end_fields in S4. destruct S4 as (_ & _ & _ & _ & _ & G1 & G2 & _).
    split; [reflexivity|]. split; [congruence|]. split; [congruence|exact X4].
Qed.
Print Assumptions C65_normal_partial.

(** A stopped periodic thread whose (delayed) start is granted is never started. *)
Theorem C65_never_started : forall cfg, supported cfg -> forall s c us s1 e id ls s2 evs j t,
  reachable cfg s -> is_part cfg j -> thread_of cfg j t -> created cfg s j t -> k_cp s = j -> mode_of s j = PM_NORMAL ->
  t <> p_error (k_part s j) -> unqueued cfg s t -> executes_nowhere cfg s t ->
  t_period (k_th s t) <> INFINITE -> t_state (k_th s t) = ST_STOPPED ->
  calls cfg s c (SDelayedStart t us) s1 e id -> krun cfg s1 ls = Some (s2, evs) -> undisturbed cfg j t s1 ls ->
  e = ERR_OK /\ t_state (k_th s2 t) = ST_STOPPED /\ executes_nowhere cfg s2 t.
Proof.
  intros cfg W s c us s1 e id ls s2 evs j t Hr Hj Ht Hcr Hcp Hm He Hq Hx Hper Hst HC HR Hu.
  destruct (created_live cfg s j t Hcr) as (Hl & Hmain).
  assert (Hr1 : reachable cfg s1) by (destruct HC as (f & HC); exact (ChoiceProof.reachable_step cfg s _ s1 _ Hr HC)).
  pose proof (reachable_inv cfg W s Hr) as I.
  apply calls_service in HC. destruct HC as (V & U & _ & f & G). unfold service in G. cbv zeta in G.
  rewrite (own_bounds cfg j t Ht Hmain s I Hcp), (live_partition cfg W j t Hj s Hr Hl) in G. unfold mode_of in Hm. rewrite Hm in G.
  destruct (Z.eqb_spec (t_period (k_th s t)) INFINITE); [contradiction|]. cbn in G. injection G as <- <- _ _. split; [reflexivity|].
  assert (Et : t_state (k_th (on_th t (delayed_start_thread PM_NORMAL (k_now s) (us * 1000)) s) t) = ST_STOPPED).
  { unfold on_th. cbn. rewrite upd_same. unfold delayed_start_thread. cbv zeta. cbn.
    destruct (Z.eqb_spec (t_period (k_th s t)) INFINITE); [contradiction|]. exact Hst. }
  destruct (run_dormant cfg W j t Hj Ht ls _ s2 evs Hr1 HR Hu) as (S4 & X4 & _).
  - rewrite Et. discriminate.
  - exact Hx.
  - exact Hq.
  - split; rewrite Et; discriminate.
  - apply same_end_fields in S4. destruct S4 as (_ & _ & _ & _ & _ & G1 & G2 & _). split; [congruence|exact X4].
Qed.
Print Assumptions C65_never_started.

(** ** Refutations *)
Definition c65_prep : list klabel := [KTick 1; KTimer 0; KCall 0 (SCreate (at_entry 5 0 0 0)); KCall 0 (SCreate (at_entry 5 0 20 3))].
Lemma demo_unqueued : forall s t, o_init (k_obj s 0) = false -> o_init (k_obj s 1) = false ->
  unqueued (demo 1 SCHED_RR SCHED_RR) s t.
Proof.
  intros s t O0 O1 i o (Hi1 & Hi2) Ho Hi. change (c_nparts (demo 1 SCHED_RR SCHED_RR)) with 2 in Hi2.
  assert (Q : o = 0 \/ o = 1).
  { assert (i = 0 \/ i = 1) as [-> | ->] by lia; destruct Ho as (Ho1 & Ho2);
      [change (0 <= o) in Ho1; change (o < 1) in Ho2|change (1 <= o) in Ho1; change (o < 2) in Ho2]; lia. }
  destruct Q as [-> | ->]; [rewrite O0 in Hi|rewrite O1 in Hi]; clear - Hi; discriminate.
Qed.

(** Thread 2, of period 20, is to start 1000 ticks after the change to NORMAL mode. The change happens at 1101;
    the thread is ready at 1101. *)
Theorem C65_not_early_refuted : ~ C65_not_early.
Proof.
  intros H. set (cfg := demo 1 SCHED_RR SCHED_RR).
  assert (X : match demo_run cfg c65_prep with
        | Some (s, _) => p_index (k_part s 0) = 3 /\ k_cp s = 0 /\ mode_of s 0 = PM_WARM /\ (o_init (k_obj s 0) = false /\ o_init (k_obj s 1) = false) /\ k_cur s 0 = 0 /\
            match kstep cfg s (KCall 0 (SDelayedStart 2 1)) with
            | KNext s1 ev => ev = [XRet 0 0 (SDelayedStart 2 1) ERR_OK 0; XFlush NoFlush] /\
                match krun cfg s1 [KTick 1100] with
                | Some (s2, _) => (k_cp s2 = 0 /\ k_cur s2 0 = 0 /\ k_now s2 = 1101 /\ prepares cfg 0 2 s1 [KTick 1100]) /\
                    match kstep cfg s2 (KCall 0 (SSetMode PM_NORMAL)) with
                    | KNext s3 ev3 => ev3 = [XRet 0 0 (SSetMode PM_NORMAL) ERR_OK 0; XFlush FlushAll] /\ undisturbed cfg 0 2 s3 [KTimer 0] /\
                        match krun cfg s3 [KTimer 0] with
                        | Some (s4, _) => k_now s4 = 1101 /\ t_state (k_th s4 2) = ST_RUNNABLE
                        | None => False end
                    | _ => False end
                | None => False end
            | _ => False end
        | None => False end) by (clear H; vm_compute; repeat split; try (right; reflexivity); discriminate).
  destruct (demo_run cfg c65_prep) as [[s evs]|] eqn:R; [|contradiction]. destruct X as (Hi & Hcp & Hm & (O0 & O1) & Hc & X).
  destruct (kstep cfg s (KCall 0 (SDelayedStart 2 1))) as [s1 ev| |] eqn:K; try contradiction. destruct X as (-> & X).
  destruct (krun cfg s1 [KTick 1100]) as [[s2 ev2]|] eqn:K2; [|contradiction]. destruct X as ((Hcp2 & Hc2 & Hn2 & Hp) & X).
  destruct (kstep cfg s2 (KCall 0 (SSetMode PM_NORMAL))) as [s3 ev3| |] eqn:K3; try contradiction. destruct X as (-> & Hu & X).
  destruct (krun cfg s3 [KTimer 0]) as [[s4 ev4]|] eqn:K4; [|contradiction]. destruct X as (Hn4 & X).
  assert (Y : t_state (k_th s4 2) <> ST_RUNNABLE /\ executes_nowhere cfg s4 2); [|destruct Y as (Y & _); exact (Y X)].
  apply (H cfg (demo_supported 1 _ _ ltac:(lia)) s s2 s3 [KTimer 0] s4 ev4 0 2 1 (demo_reachable _ _ _ _ R)).
  - clear. vm_compute. repeat split; discriminate.
  - clear. vm_compute. repeat split; discriminate.
  - lia.
  - rewrite Hn2. clear. vm_compute. reflexivity.
  - exists 0, s1, ERR_OK, 0, [KTick 1100], ev2, 0, 0. split; [|split; [|split; [|split; [|split; [|split; [|split; [|split]]]]]]].
    + unfold created. rewrite Hi. clear. vm_compute. split; reflexivity.
    + exact Hcp.
    + right. exact Hm.
    + now apply demo_unqueued.
    + eexists. rewrite Hc. exact K.
    + exact K2.
    + exact Hp.
    + exact Hcp2.
    + eexists. rewrite Hc2. exact K3.
  - exact K4.
  - exact Hu.
  - rewrite Hn4, Hn2. reflexivity.
Qed.
Print Assumptions C65_not_early_refuted.

(** Thread 2, periodic and ready to execute, is to start in 1000 ticks: it stays ready. *)
Theorem C65_normal_refuted : ~ C65_normal.
Proof.
  intros H. set (cfg := demo 1 SCHED_RR SCHED_RR).
  assert (X : match demo_run cfg (c65_prep ++ [KCall 0 (SSetMode PM_NORMAL)]) with
        | Some (s, _) => p_index (k_part s 0) = 3 /\ k_cp s = 0 /\ mode_of s 0 = PM_NORMAL /\ p_error (k_part s 0) = 0 /\
            (o_init (k_obj s 0) = false /\ o_init (k_obj s 1) = false) /\ k_cur s 0 = 1 /\ k_now s = 1 /\
            match kstep cfg s (KCall 0 (SDelayedStart 2 1)) with
            | KNext s1 ev => ev = [XRet 0 1 (SDelayedStart 2 1) ERR_OK 0; XFlush NoFlush] /\
                undisturbed cfg 0 2 s1 [KTick 1; KTimer 0] /\
                match krun cfg s1 [KTick 1; KTimer 0] with
                | Some (s2, _) => k_now s2 = 2 /\ t_state (k_th s2 2) = ST_RUNNABLE
                | None => False end
            | _ => False end
        | None => False end) by (clear H; vm_compute; repeat split; discriminate).
  destruct (demo_run cfg (c65_prep ++ [KCall 0 (SSetMode PM_NORMAL)])) as [[s evs]|] eqn:R; [|contradiction].
  destruct X as (Hi & Hcp & Hm & He & (O0 & O1) & Hc & Hn & X).
  destruct (kstep cfg s (KCall 0 (SDelayedStart 2 1))) as [s1 ev| |] eqn:K; try contradiction. destruct X as (-> & Hu & X).
  destruct (krun cfg s1 [KTick 1; KTimer 0]) as [[s2 ev2]|] eqn:K2; [|contradiction]. destruct X as (Hn2 & X).
  assert (Y : t_state (k_th s2 2) <> ST_RUNNABLE /\ executes_nowhere cfg s2 2); [|destruct Y as (Y & _); exact (Y X)].
  apply (H cfg (demo_supported 1 _ _ ltac:(lia)) s 0 1 s1 ERR_OK 0 [KTick 1; KTimer 0] s2 ev2 0 2 (demo_reachable _ _ _ _ R)).
  - clear. vm_compute. repeat split; discriminate.
  - clear. vm_compute. repeat split; discriminate.
  - unfold created. rewrite Hi. clear. vm_compute. split; reflexivity.
  - exact Hcp.
  - exact Hm.
  - rewrite He. lia.
  - now apply demo_unqueued.
  - intros c (Hc1 & Hc2). change (c < 1) in Hc2. replace c with 0 by lia. rewrite Hc. lia.
  - lia.
  - rewrite Hn. clear. vm_compute. reflexivity.
  - eexists. rewrite Hc. exact K.
  - exact K2.
  - exact Hu.
  - rewrite Hn2, Hn. reflexivity.
Qed.
Print Assumptions C65_normal_refuted.

(** ** Examples *)
(** Thread 1 has no period; its start is delayed by 1000 ticks, the partition starts at 5: asleep at 521, ready
    at the first scheduling after 1005. Thread 2, of period 20 and with the same delay, is released at 1030. *)
Definition c65_waits : list klabel := [KTick 20; KTimer 0; KTick 100; KTimer 0; KTimer 0; KTick 396; KTimer 0; KTimer 0; KTimer 0; KTimer 0].
Example c65_case : let cfg := demo 1 SCHED_RR SCHED_RR in exists s evs s1 s2 ev2 s3 s4 ev4 s5 ev5 s6 ev6 s7 ev7,
  demo_run cfg (c65_prep ++ [KCall 0 (SDelayedStart 2 1)]) = Some (s, evs) /\
  p_index (k_part s 0) = 3 /\ k_cp s = 0 /\ is_init (mode_of s 0) /\ t_period (k_th s 1) = INFINITE /\ t_period (k_th s 2) = 20 /\
  (o_init (k_obj s 0) = false /\ o_init (k_obj s 1) = false) /\
  calls cfg s 0 (SDelayedStart 1 1) s1 ERR_OK 0 /\
  krun cfg s1 [KTick 4; KTimer 0] = Some (s2, ev2) /\ prepares cfg 0 1 s1 [KTick 4; KTimer 0] /\
  k_cp s2 = 0 /\ calls cfg s2 0 (SSetMode PM_NORMAL) s3 ERR_OK 0 /\
  krun cfg s3 c65_waits = Some (s4, ev4) /\ undisturbed cfg 0 1 s3 c65_waits /\ k_now s4 = 521 /\
  t_state (k_th s4 1) = ST_WAITING /\ t_wakeup (k_th s4 1) = 1005 /\ t_state (k_th s4 2) = ST_WAIT_NEXT /\ t_next_act (k_th s4 2) = 1030 /\
  kstep cfg s4 (KTick 491) = KNext s5 ev5 /\ k_now s5 = 1012 /\ kstep cfg s5 (KTimer 0) = KNext s6 ev6 /\ k_cp s6 = 0 /\
  t_state (k_th s6 1) = ST_RUNNABLE /\ t_state (k_th s6 2) = ST_WAIT_NEXT /\
  krun cfg s6 [KTick 18; KTimer 0; KTimer 0] = Some (s7, ev7) /\ t_state (k_th s7 2) = ST_RUNNABLE.
Proof.
  eexists _, _, _, _, _, _, _, _, _, _, _, _, _, _. split; [vm_compute; reflexivity|]. do 2 (split; [reflexivity|]). split; [right; reflexivity|].
  do 2 (split; [reflexivity|]). split; [split; reflexivity|]. split; [eexists; vm_compute; reflexivity|]. split; [vm_compute; reflexivity|].
  split; [vm_compute; repeat split; try (right; reflexivity); discriminate|]. split; [reflexivity|]. split; [eexists; vm_compute; reflexivity|].
  split; [vm_compute; reflexivity|]. split; [vm_compute; repeat split; discriminate|]. do 5 (split; [reflexivity|]).
  split; [vm_compute; reflexivity|]. split; [reflexivity|]. split; [vm_compute; reflexivity|]. do 3 (split; [reflexivity|]).
  split; [vm_compute; reflexivity|]. reflexivity.
Qed.
(** In NORMAL mode: thread 2, periodic and stopped, is started by thread 1 without delay; a major frame later it
    is still stopped. *)
Example c65_stopped : let cfg := demo 1 SCHED_RR SCHED_RR in exists s evs s1 s2 ev2,
  demo_run cfg (c65_prep ++ [KCall 0 (SSetMode PM_NORMAL); KCall 0 (SSuspendTarget 2)]) = Some (s, evs) /\
  p_index (k_part s 0) = 3 /\ k_cp s = 0 /\ mode_of s 0 = PM_NORMAL /\ k_cur s 0 = 1 /\ t_period (k_th s 2) = 20 /\
  t_state (k_th s 2) = ST_STOPPED /\ (o_init (k_obj s 0) = false /\ o_init (k_obj s 1) = false) /\
  calls cfg s 0 (SDelayedStart 2 0) s1 ERR_OK 0 /\
  krun cfg s1 [KTick 9; KTimer 0; KTick 20; KTimer 0; KTick 5; KTimer 0] = Some (s2, ev2) /\
  undisturbed cfg 0 2 s1 [KTick 9; KTimer 0; KTick 20; KTimer 0; KTick 5; KTimer 0] /\ k_cp s2 = 0 /\ k_now s2 = 35 /\ t_state (k_th s2 2) = ST_STOPPED.
Proof.
  eexists _, _, _, _, _. split; [vm_compute; reflexivity|]. do 6 (split; [reflexivity|]). split; [split; reflexivity|].
  split; [eexists; vm_compute; reflexivity|]. split; [vm_compute; reflexivity|]. split; [vm_compute; repeat split; discriminate|].
  do 2 (split; [reflexivity|]). reflexivity.
Qed.
