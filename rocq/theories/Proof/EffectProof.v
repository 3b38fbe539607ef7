(** What a step does to one thread of a partition in NORMAL mode. *)
From Verif Require Import Model.Base Model.State Model.LockFifo Model.LockObj Model.LockSys Model.Sched Model.Kernel
  Spec.SchedSpec Spec.KernelSpec Proof.Tac Proof.SchedProof Proof.KernelBasic Proof.ClockProof Proof.SlotProof Proof.KernelInv
  Proof.ElectProof Proof.ServiceProof Proof.PlaceProof Proof.ChoiceProof Proof.PartStep Proof.CreateStep Proof.ThreadFrame.

Lemma same_end_trans : forall a b c, same_end a b -> same_end b c -> same_end a c.
Proof. unfold same_end. intros a b c H1 H2. rewrite H2, H1. reflexivity. Qed.
Lemma same_end_sym : forall a b, same_end a b -> same_end b a.
Proof. unfold same_end. intros a b H. rewrite H. now destruct a. Qed.
Lemma wake_same_end : forall tm p now a b y, same_end a b -> wake tm p now a = Some y -> exists z, wake tm p now b = Some z /\ same_end y z.
Proof.
  unfold same_end. intros tm p now a b y H E. rewrite H. generalize (t_end_time b). intros v. clear H. unfold wake in *.
  cbv zeta in *. cbn.
  destruct (t_affinity a =? p); [|injection E as <-; eauto].
  destruct (tm && (t_state a =? ST_WAITING) && (t_wakeup a <=? now)); cbn in *.
  - injection E as <-. eauto.
  - destruct ((t_state a =? ST_WAIT_NEXT) && (t_next_act a <=? now)); [|injection E as <-; eauto].
    destruct (t_capacity a =? 0); [discriminate|]. injection E as <-. eauto.
Qed.
Lemma charge_same_end : forall a b, same_end a b -> same_end (charge a) (charge b).
Proof.
  unfold same_end. intros a b H. rewrite H. generalize (t_end_time b). intros v. clear H. unfold charge. cbn.
  destruct (0 <? t_remaining a); [reflexivity|]. destruct (0 <? t_capacity a); reflexivity.
Qed.

Definition elects (ph : phase) (c x : Z) : Prop := ph = PhGlobal \/ (ph = PhThread /\ c = x).

Section Effect.
Variable cfg : config.
Hypothesis W : supported cfg.

Section One.
Variables j t : Z.
Hypothesis Hj : is_part cfg j.
Hypothesis Ht : thread_of cfg j t.

Definition aff (s : kstate) : Z := t_affinity (k_th s t).
(** The partition of [t] runs, and [t] executes nowhere but on its processor. *)
Definition mine (s : kstate) : Prop :=
  p_mode (k_part s j) = PM_NORMAL /\ t <> p_error (k_part s j) /\ (forall d, is_proc cfg d -> d <> aff s -> k_cur s d <> t).

Lemma placed_mine : forall s, kinv cfg s -> placed cfg s -> p_mode (k_part s j) = PM_NORMAL -> t <> p_error (k_part s j) -> mine s.
Proof.
  intros s I Hp Hm He. split; [assumption|]. split; [assumption|]. intros d Hd Hda C.
  destruct (Z.eq_dec j (k_cp s)) as [E|N].
  - specialize (Hp d Hd). unfold may_run in Hp. rewrite C, <- E in Hp. destruct (user_not_idle cfg W j t d Hj Ht Hd) as (U1 & U2).
    destruct Hp as [R|[R|[([R|R] & _)|(_ & [R|R])]]]; unfold aff in *; try congruence; rewrite Hm in R; discriminate.
  - apply (kinv_away cfg W j s Hj I N d Hd). now rewrite C.
Qed.

Lemma elected_aff : forall d s s', half cfg s -> is_proc cfg d -> elected cfg d s s' -> aff s' = aff s.
Proof. intros d s s' Hh Hd He. pose proof (elected_statics cfg W d s s' Hh Hd He t) as E. unfold statics in E. unfold aff. congruence. Qed.

Lemma elected_part : forall d s s' i, elected cfg d s s' -> p_mode (k_part s' i) = p_mode (k_part s i) /\
  p_error (k_part s' i) = p_error (k_part s i) /\ p_main (k_part s' i) = p_main (k_part s i).
Proof. intros d s s' i He. destruct (elected_parts cfg d s s' He i) as (pv & cu & ->). repeat split. Qed.

Lemma record_other : forall c e s i d, d <> c -> p_cur (k_part (record_thread cfg c e s) i) d = p_cur (k_part s i) d.
Proof.
  intros c e s i d Hd. unfold record_thread. destruct (_ =? e); [reflexivity|]. cbn. unfold upd at 1.
  destruct (Z.eqb_spec i (k_cp s)) as [->|]; [|reflexivity]. destruct (_ =? idle cfg c); cbn; now rewrite upd_other.
Qed.
Lemma elected_p_cur : forall c s s' i d, elected cfg c s s' -> d <> c -> p_cur (k_part s' i) d = p_cur (k_part s i) d.
Proof. intros c s s' i d (th & e & pr & _ & ->) Hd. cbn. now rewrite record_other. Qed.

Lemma elected_other : forall d s s', half cfg s -> is_proc cfg d -> elected cfg d s s' -> mine s -> d <> aff s ->
  mine s' /\ same_end (k_th s t) (k_th s' t).
Proof.
  intros d s s' Hh Hd He (M1 & M2 & M3) Hne. pose proof (elected_aff d s s' Hh Hd He) as Ha.
  pose proof (elected_part d s s' j He) as (P1 & P2 & _).
  pose proof (elected_runs cfg W d s s' Hh Hd He) as Hrun.
  destruct (elected_table cfg W d s s' Hh Hd He) as (Ecp & _ & _ & _ & _ & Hk & Hc & th1 & th2 & T1 & T2 & T3 & T4).
  split.
  - split; [congruence|]. split; [congruence|]. intros x Hx Hxa. rewrite Ha in Hxa. destruct (Z.eq_dec x d) as [->|Hxd]; [|rewrite Hk by assumption; auto].
    intros C. rewrite C in *. pose proof (user_not_idle cfg W j t d Hj Ht Hd) as (U1 & U2). destruct Hc as [Hc|Hc]; [contradiction|].
    destruct Hh as (_ & Hcp & _). assert (Ej : k_cp s = j) by now apply (ranges_disjoint cfg W _ _ t). unfold may_run in Hrun.
    rewrite Ecp, Ej in Hrun. destruct Hrun as [R|[R|[([R|R] & _)|(_ & [R|R])]]]. all: unfold aff in *; try congruence; rewrite P1, M1 in R; discriminate.
  - assert (E1 : th1 t = k_th s t).
    { destruct (thread_of_dec cfg (k_cp s) t) as [K|K]; [|now apply T2]. specialize (T1 t K). unfold wake in T1.
      destruct (Z.eqb_spec (t_affinity (k_th s t)) d) as [C|C]; [now elim Hne|]. now injection T1 as <-. }
    assert (E2 : th2 t = th1 t).
    { destruct T4 as [(_ & _ & _ & C2 & _)|(-> & _)]; [|reflexivity]. apply C2. intros (C & _). now apply (M3 d Hd Hne). }
    rewrite <- E1, <- E2. apply T3.
Qed.

Lemma elected_mine : forall s s' x, half cfg s -> is_proc cfg x -> elected cfg x s s' -> p_mode (k_part s j) = PM_NORMAL ->
  t <> p_error (k_part s j) -> exists y,
  (k_cp s = j -> wake (c_timed_wake cfg) x (k_now s) (k_th s t) = Some y) /\ (k_cp s <> j -> y = k_th s t) /\
  (same_end y (k_th s' t) \/ (k_cur s x = t /\ same_end (charge y) (k_th s' t))) /\
  (k_cur s x = t -> k_cp s = j -> t <> p_main (k_part s j) -> k_cur s' x <> p_error (k_part s j) -> same_end (charge y) (k_th s' t)).
Proof.
  intros s s' x Hh Hx He M1 M2. pose proof Hh as (_ & Hcp & _).
  destruct (elected_table cfg W x s s' Hh Hx He) as (Ecp & _ & _ & _ & _ & Hk & Hc & th1 & th2 & T1 & T2 & T3 & T4).
  exists (th1 t). split; [intros E; apply T1; now rewrite E|].
  split; [intros E; apply T2; intros C; apply E; now apply (ranges_disjoint cfg W _ _ t)|].
  split.
  - destruct T4 as [(_ & _ & C1 & C2 & _)|(-> & _)]; [|left; apply T3].
    destruct (charged_dec cfg x s t) as [C|C].
    + right. split; [symmetry; apply C|]. rewrite <- C1 by assumption. apply T3.
    + left. rewrite <- C2 by assumption. apply T3.
  - intros E1 E2 E3 E4. rewrite E2 in *. destruct T4 as [(_ & _ & C1 & _)|(_ & [(_ & _ & C)|[(C & _)|(C & _)]])].
    + rewrite <- C1; [apply T3|]. split; [auto|]. split; [now apply (user_not_idle cfg W j t x)|]. unfold cur_part. rewrite E2. auto.
    + contradiction.
    + rewrite M1 in C. destruct C; discriminate.
    + rewrite M1 in C. discriminate.
Qed.

(** Elections on other processors. *)
Definition others (x : Z) (a b : kstate) : Prop :=
  k_cp b = k_cp a /\ k_now b = k_now a /\ k_cur b x = k_cur a x /\ aff b = aff a /\
  (forall i, p_mode (k_part b i) = p_mode (k_part a i) /\ p_error (k_part b i) = p_error (k_part a i) /\ p_main (k_part b i) = p_main (k_part a i) /\
     p_cur (k_part b i) x = p_cur (k_part a i) x) /\
  (mine a -> aff a = x -> mine b /\ same_end (k_th a t) (k_th b t)).
Lemma others_closed : forall x, closed_except cfg x (others x).
Proof.
  intros x. split; [|split].
  - intros a b c (A1 & A2 & A3 & A4 & A5 & A6) (B1 & B2 & B3 & B4 & B5 & B6). unfold others. repeat split; try congruence;
      try (destruct (A5 i) as (? & ? & ? & ?), (B5 i) as (? & ? & ? & ?); congruence).
    + destruct (A6 H H0) as (C & _). apply B6; [assumption|congruence].
    + destruct (A6 H H0) as (C & _). apply B6; [assumption|congruence].
    + destruct (A6 H H0) as (C & _). apply B6; [assumption|congruence].
    + destruct (A6 H H0) as (C & D). apply same_end_trans with (k_th b t); [assumption|]. apply B6; [assumption|congruence].
  - intros a. unfold others. split; [reflexivity|]. split; [reflexivity|]. split; [reflexivity|]. split; [reflexivity|]. split; [auto|].
    intros M _. split; [assumption|apply same_end_refl].
  - intros d a b Ha Hd Hne He. destruct (elected_table cfg W d a b Ha Hd He) as (E1 & E2 & _ & _ & _ & E3 & _).
    split; [assumption|]. split; [assumption|]. split; [apply E3; congruence|]. split; [now apply (elected_aff d)|]. split.
    + intros i. destruct (elected_part d a b i He) as (? & ? & ?). repeat split; try assumption. apply (elected_p_cur d); [assumption|congruence].
    + intros M E. apply (elected_other d); try assumption. congruence.
Qed.

Lemma phase_effect : forall c ph s s', kinv cfg s -> is_proc cfg c -> run_phase cfg c ph s s' -> mine s ->
  let x := aff s in
  (~ (elects ph c x /\ is_proc cfg x) -> same_end (k_th s t) (k_th s' t)) /\
  (elects ph c x -> is_proc cfg x -> exists y,
    (k_cp s' = j -> wake (c_timed_wake cfg) x (k_now s) (k_th s t) = Some y) /\ (k_cp s' <> j -> y = k_th s t) /\
    (same_end y (k_th s' t) \/ (k_cur s x = t /\ same_end (charge y) (k_th s' t))) /\
    (k_cur s x = t -> k_cp s' = j -> t <> p_main (k_part s j) -> k_cur s' x <> p_error (k_part s j) -> same_end (charge y) (k_th s' t))).
Proof.
  intros c ph s s' I Hc H M x. pose proof (kinv_half _ _ I) as Hh. pose proof M as (M1 & M2 & M3).
  destruct ph; cbn in H.
  - subst s'. split; [intros _; apply same_end_refl|]. intros [C|(C & _)]; discriminate.
  - apply sched_thread_elected in H. split.
    + intros N. apply (elected_other c s s' Hh Hc H M). intros C. apply N. split; [right; auto|]. unfold x. now rewrite <- C.
    + intros [C|(_ & <-)]; [discriminate|]. intros _.
      destruct (elected_table cfg W c s s' Hh Hc H) as (Ecp & _). rewrite Ecp. now apply elected_mine.
  - destruct H as (f & H).
    assert (Hall : ~ is_proc cfg x -> mine s -> aff s = x -> mine s' /\ aff s' = x /\ same_end (k_th s t) (k_th s' t)).
    { intros Nx. refine (proj1 (global_sched_rel cfg W (fun a b => mine a -> aff a = x -> mine b /\ aff b = x /\ same_end (k_th a t) (k_th b t)) _ _ _ _ c s s' f Hh Hc H)).
      - intros a b d A B M0 E0. destruct (A M0 E0) as (A1 & A2 & A3). destruct (B A1 A2) as (B1 & B2 & B3).
        split; [assumption|]. split; [assumption|]. now apply same_end_trans with (k_th b t).
      - intros a M0 E0. split; [assumption|]. split; [assumption|apply same_end_refl].
      - intros d a b Ha Hd He M0 E0. destruct (elected_other d a b Ha Hd He M0) as (O1 & O2); [rewrite E0; intros ->; contradiction|].
        split; [assumption|]. split; [|assumption]. rewrite (elected_aff d a b Ha Hd He). assumption.
      - intros a b Ha Hre M0 E0. destruct (repart_fields _ _ _ Hre) as (F1 & F2 & _ & F4 & _).
        unfold mine, aff in *. rewrite F1, F2, F4. split; [assumption|]. split; [assumption|apply same_end_refl]. }
    destruct (Z_le_dec 0 x) as [X1|X1]; [destruct (Z_lt_dec x (c_nprocs cfg)) as [X2|X2]|].
    2,3: assert (Nx : ~ is_proc cfg x) by (unfold is_proc; lia); (split; [|intros _ C; contradiction]); intros _;
      now apply (Hall Nx M eq_refl).
    assert (Hx : is_proc cfg x) by (unfold is_proc; lia). split; [intros N; exfalso; apply N; split; [now left|assumption]|]. intros _ _.
    destruct (global_sched_split cfg W c s s' f Hh Hc H x Hx) as (r & a & b & Hre & Hhr & Ha & HR & Hab).
    destruct (HR (others x) (others_closed x)) as ((A1 & A2 & A3 & A4 & A5 & A6) & (B1 & B2 & B3 & B4 & B5 & B6)).
    destruct (repart_fields _ _ _ Hre) as (F1 & F2 & _ & F4 & F5 & _).
    assert (Mr : mine r) by (unfold mine, aff; rewrite F1, F2, F4; exact M).
    assert (Er : aff r = x) by (unfold aff; now rewrite F1).
    destruct (A6 Mr Er) as (Ma & Sa). pose proof Ma as (Ma1 & Ma2 & Ma3).
    destruct (elected_mine a b x Ha Hx Hab Ma1 Ma2) as (y & Y1 & Y2 & Y3 & Y4).
    assert (Eab : aff b = x) by (rewrite (elected_aff x a b Ha Hx Hab); congruence).
    assert (Mb : mine b).
    { destruct (elected_part x a b j Hab) as (P1 & P2 & _). split; [congruence|]. split; [congruence|]. intros d Hd Hdx. rewrite Eab in Hdx.
      destruct (elected_table cfg W x a b Ha Hx Hab) as (_ & _ & _ & _ & _ & Hk & _). rewrite Hk by assumption. apply Ma3; [assumption|congruence]. }
    destruct (B6 Mb Eab) as (_ & Sb).
    destruct (elected_table cfg W x a b Ha Hx Hab) as (Ecp & _).
    assert (Kcp : k_cp s' = k_cp a) by congruence. rewrite Kcp. rewrite F1 in Sa.
    (* the same on the table of [s] *)
    assert (Hy : exists y0, (k_cp a = j -> wake (c_timed_wake cfg) x (k_now s) (k_th s t) = Some y0) /\ (k_cp a <> j -> y0 = k_th s t) /\ same_end y0 y).
    { destruct (Z.eq_dec (k_cp a) j) as [E|E].
      - specialize (Y1 E). apply same_end_sym in Sa. destruct (wake_same_end _ _ _ _ _ _ Sa Y1) as (z & Z1 & Z2). exists z.
        split; [intros _; rewrite <- Z1; f_equal; congruence|]. split; [intros C; contradiction|now apply same_end_sym].
      - exists (k_th s t). split; [intros C; contradiction|]. split; [auto|]. rewrite (Y2 E). assumption. }
    destruct Hy as (y0 & Z1 & Z2 & Z3). exists y0. split; [exact Z1|]. split; [exact Z2|].
    assert (Kcur : k_cur a x = k_cur s x) by (rewrite A3, F4; reflexivity).
    split.
    + destruct Y3 as [Y3|(Y3 & Y3')].
      * left. eapply same_end_trans; [exact Z3|]. eapply same_end_trans; [exact Y3|exact Sb].
      * right. split; [congruence|]. eapply same_end_trans; [apply charge_same_end, Z3|]. eapply same_end_trans; [exact Y3'|exact Sb].
    + intros E1 E2 E3 E4. eapply same_end_trans; [apply charge_same_end, Z3|]. eapply same_end_trans; [|exact Sb].
      destruct (A5 j) as (_ & P2 & P3 & P4). apply Y4; try congruence.
Qed.
End One.

(** Whoever is elected under NORMAL mode is ready. *)
Lemma elected_ready : forall c s s', half cfg s -> is_proc cfg c -> elected cfg c s s' -> p_mode (k_part s (k_cp s)) = PM_NORMAL ->
  k_cur s' c = idle cfg c \/
  (t_state (k_th s' (k_cur s' c)) = ST_RUNNABLE /\
   (k_cur s' c = p_error (k_part s (k_cp s)) \/ t_affinity (k_th s' (k_cur s' c)) = c)).
Proof.
  intros c s s' Hh Hc He Hm.
  destruct (elected_table cfg W c s s' Hh Hc He) as (_ & _ & _ & _ & _ & _ & _ & th1 & th2 & T1 & T2 & T3 & T4).
  pose proof Hh as (HP & Hcp & _). destruct (HP _ Hcp) as [_ _ _ _ _ _ _ _ _ _ _ Hcur Hprev].
  destruct T4 as [(_ & _ & _ & _ & S)|(-> & [(_ & (C1 & C2) & C3)|[(C & _)|(C & _)]])].
  - destruct (sched_func_ok cfg W _ c th2 _ _ Hcp (Hprev c Hc) (Hcur c Hc)) as (e & E & C). rewrite S in E. injection E as <-.
    destruct C as [C|(_ & C1 & C2)]; [now left|right]. rewrite (T3 (k_cur s' c)). cbn. auto.
  - right. rewrite C3. rewrite (T3 (p_error _)). cbn. rewrite C1 in C2. auto.
  - rewrite Hm in C. destruct C; discriminate.
  - rewrite Hm in C. discriminate.
Qed.

(** Elections on other processors do not disturb a ready thread that does not execute there. *)
Lemma elected_error_ready : forall d s s' e, half cfg s -> is_proc cfg d -> elected cfg d s s' -> e = p_error (k_part s (k_cp s)) ->
  t_state (k_th s e) = ST_RUNNABLE -> t_state (k_th s' e) = ST_RUNNABLE.
Proof.
  intros d s s' e Hh Hd He Ee Hs.
  destruct (elected_table cfg W d s s' Hh Hd He) as (_ & _ & _ & _ & _ & _ & _ & th1 & th2 & T1 & T2 & T3 & T4).
  assert (E1 : t_state (th1 e) = ST_RUNNABLE).
  { destruct (thread_of_dec cfg (k_cp s) e) as [K|K]; [|now rewrite T2]. specialize (T1 e K). unfold wake in T1. cbv zeta in T1. rewrite Hs in T1.
    destruct (_ =? d); [|injection T1 as <-; assumption]. change (ST_RUNNABLE =? ST_WAITING) with false in T1. rewrite andb_false_r in T1. cbn in T1.
    rewrite Hs in T1. cbn in T1. injection T1 as <-. assumption. }
  rewrite (T3 e). cbn. destruct T4 as [(_ & _ & _ & C2 & _)|(-> & _)]; [|assumption]. rewrite C2; [assumption|].
  intros (_ & _ & _ & C). unfold cur_part in C. congruence.
Qed.

Lemma phase_ready : forall c ph s s' x, kinv cfg s -> placed cfg s -> is_proc cfg c -> run_phase cfg c ph s s' -> elects ph c x -> is_proc cfg x ->
  mode_of s' (k_cp s') = PM_NORMAL -> k_cur s' x = idle cfg x \/ t_state (k_th s' (k_cur s' x)) = ST_RUNNABLE.
Proof.
  intros c ph s s' x I Hp Hc H El Hx Hm. pose proof (kinv_half _ _ I) as Hh. unfold mode_of in Hm. destruct ph; cbn in H.
  - destruct El as [C|(C & _)]; discriminate.
  - destruct El as [C|(_ & <-)]; [discriminate|]. apply sched_thread_elected in H.
    destruct (elected_table cfg W c s s' Hh Hc H) as (Ecp & _). destruct (elected_part c s s' (k_cp s) H) as (P & _).
    rewrite Ecp, P in Hm. destruct (elected_ready c s s' Hh Hc H Hm) as [R|(R & _)]; auto.
  - destruct H as (f & H). destruct (global_sched_split cfg W c s s' f Hh Hc H x Hx) as (r & a & b & Hre & Hhr & Ha & HR & Hab).
    destruct (elected_table cfg W x a b Ha Hx Hab) as (Ecp & _ & _ & _ & _ & Hk & Hcx & _). pose proof Ha as (HPa & Hcpa & _).
    destruct (HR (fun u v => k_cp v = k_cp u /\ k_cur v x = k_cur u x /\ forall i, p_mode (k_part v i) = p_mode (k_part u i))) as (_ & (B1 & B3 & B5)).
    { split; [|split].
      - intros u v w (U1 & U2 & U3) (V1 & V2 & V3). split; [congruence|]. split; [congruence|]. intros i. now rewrite V3.
      - auto.
      - intros d u v Hu Hd Hne Hel. destruct (elected_table cfg W d u v Hu Hd Hel) as (E1 & _ & _ & _ & _ & E3 & _).
        split; [assumption|]. split; [apply E3; congruence|]. intros i. apply (elected_part d u v i Hel). }
    destruct (elected_part x a b (k_cp a) Hab) as (P1 & P2 & _). pose proof (B5 (k_cp b)) as Q1. rewrite Ecp in *.
    rewrite B1, Q1, P1 in Hm. destruct (elected_ready x a b Ha Hx Hab Hm) as [R|(R & R2)]; [left; congruence|]. destruct Hcx as [Hcx|Hcx]; [left; congruence|]. right. rewrite B3. set (e := k_cur b x) in *.
    destruct (Z.eq_dec e (p_error (k_part a (k_cp a)))) as [Ee|Ne].
    { destruct (HR (fun u v => k_cp v = k_cp u /\ (k_cp u = k_cp a -> p_error (k_part v (k_cp a)) = p_error (k_part u (k_cp a)) /\
         (e = p_error (k_part u (k_cp a)) -> t_state (k_th u e) = ST_RUNNABLE -> t_state (k_th v e) = ST_RUNNABLE)))) as (_ & (_ & X)).
      - split; [|split].
        + intros u v w (U1 & U2) (V1 & V2). split; [congruence|]. intros E. destruct (U2 E) as (U3 & U4).
          destruct (V2 ltac:(congruence)) as (V3 & V4). split; [congruence|]. intros O1 O2. apply V4; [congruence|auto].
        + intros u. split; [reflexivity|]. intros _. split; auto.
        + intros d u v Hu Hd Hne Hel. destruct (elected_table cfg W d u v Hu Hd Hel) as (E1 & _).
          split; [assumption|]. intros Eu. destruct (elected_part d u v (k_cp a) Hel) as (_ & O & _). split; [assumption|]. intros O1 O2.
          apply (elected_error_ready d u v e Hu Hd Hel); [congruence|assumption].
      - destruct (X Ecp) as (_ & Y). apply Y; [congruence|assumption]. }
    destruct R2 as [R2|R2]; [contradiction|].
    destruct (HR (others (k_cp a) e x) (others_closed (k_cp a) e Hcpa Hcx x)) as ((_ & _ & _ & X4 & X5 & X6) & (_ & _ & _ & _ & _ & Y6)).
    destruct (repart_fields _ _ _ Hre) as (F1 & F2 & _ & F4 & _).
    pose proof (elected_aff e x a b Ha Hx Hab) as Eaff. unfold aff in X4, X6, Y6, Eaff.
    assert (Ms : mine (k_cp a) e s).
    { apply placed_mine; try assumption.
      - destruct (X5 (k_cp a)) as (E1 & _). rewrite F2 in E1. congruence.
      - destruct (X5 (k_cp a)) as (_ & E2 & _). rewrite F2 in E2. congruence. }
    assert (Mr : mine (k_cp a) e r) by (unfold mine, aff in *; rewrite F1, F2, F4; exact Ms).
    destruct (X6 Mr ltac:(congruence)) as ((Ma1 & Ma2 & Ma3) & _).
    assert (Mb : mine (k_cp a) e b).
    { split; [congruence|]. split; [congruence|]. intros d Hd Hdx. unfold aff in *. rewrite Hk by congruence. apply Ma3; [assumption|congruence]. }
    destruct (Y6 Mb R2) as (_ & S). rewrite S. cbn. assumption.
Qed.

End Effect.
