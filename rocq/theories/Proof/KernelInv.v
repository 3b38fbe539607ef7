(** The invariant of the kernel machine: layout of partitions, and who executes. *)
From Verif Require Import Model.Base Model.State Model.LockFifo Model.LockObj Model.LockSys Model.Sched
  Model.Kernel Spec.SchedSpec Spec.KernelSpec Proof.Tac Proof.SchedProof Proof.KernelBasic Proof.FairProof
  Proof.ClockProof Proof.SlotProof.

Definition known_mode (m : Z) : Prop := m = PM_COLD \/ m = PM_WARM \/ m = PM_NORMAL \/ m = PM_STOPPED.

Record part_ok (cfg : config) (i : Z) (pt : part) : Prop := {
  po_low : p_low pt = low_of cfg i;
  po_high : p_high pt = high_of cfg i;
  po_nthreads : p_nthreads pt = c_threads cfg i;
  po_lo_low : p_lo_low pt = lo_low_of cfg i;
  po_lo_high : p_lo_high pt = lo_high_of cfg i;
  po_main : p_main pt = low_of cfg i;
  po_index : 1 <= p_index pt <= c_threads cfg i;
  po_error : p_error pt = 0 \/ low_of cfg i < p_error pt < high_of cfg i;
  po_mode : known_mode (p_mode pt);
  po_size : p_size pt = c_size cfg i;
  po_entry : p_main_entry pt = c_entry cfg i;
  po_cur : forall c, is_proc cfg c -> idle_or_in (idle cfg c) (low_of cfg i) (high_of cfg i) (p_cur pt c);
  po_prev : forall c, is_proc cfg c -> idle_or_in (idle cfg c) (low_of cfg i) (high_of cfg i) (p_prev pt c)
}.

(** Thread [t] may be executing on processor [c] while partition [i] is current. *)
Definition may_execute (cfg : config) (i c t : Z) : Prop :=
  t = kernel_thread cfg \/ t = idle cfg c \/ thread_of cfg i t.

Record kinv (cfg : config) (s : kstate) : Prop := {
  ki_part : forall i, is_part cfg i -> part_ok cfg i (k_part s i);
  ki_cp : is_part cfg (k_cp s);
  ki_slot : 0 <= k_slot s < c_nslots cfg;
  ki_cur : forall c, is_proc cfg c -> may_execute cfg (k_cp s) c (k_cur s c)
}.

Lemma kinv_ext : forall cfg s s', k_part s' = k_part s -> k_cp s' = k_cp s -> k_slot s' = k_slot s ->
  k_cur s' = k_cur s -> kinv cfg s -> kinv cfg s'.
Proof.
  intros cfg s s' E1 E2 E3 E4 [H1 H2 H3 H4]. constructor; rewrite ?E1, ?E2, ?E3, ?E4; assumption.
Qed.
Ltac kframe H := (eapply kinv_ext; [| | | |exact H]; reflexivity).

Lemma kinv_part : forall cfg s i pt, kinv cfg s -> (is_part cfg i -> part_ok cfg i pt) ->
  kinv cfg (set_k_part (upd (k_part s) i pt) s).
Proof.
  intros cfg s i pt [H1 H2 H3 H4] Hp. constructor; cbn; try assumption.
  intros j Hj. unfold upd. destruct (Z.eqb_spec j i) as [->|]; auto.
Qed.

Lemma kinv_switch : forall cfg s c e, kinv cfg s -> may_execute cfg (k_cp s) c e -> kinv cfg (switch_to c e s).
Proof.
  intros cfg s c e [H1 H2 H3 H4] He. constructor; cbn; try assumption.
  intros c' Hc'. unfold upd. destruct (Z.eqb_spec c' c) as [->|]; auto.
Qed.

Lemma set_cur_ok : forall cfg i pt f, part_ok cfg i pt ->
  (forall c, is_proc cfg c -> idle_or_in (idle cfg c) (low_of cfg i) (high_of cfg i) (f c)) ->
  part_ok cfg i (set_p_cur f pt).
Proof. intros cfg i pt f [] Hf. constructor; cbn; assumption. Qed.
Lemma set_prev_ok : forall cfg i pt f, part_ok cfg i pt ->
  (forall c, is_proc cfg c -> idle_or_in (idle cfg c) (low_of cfg i) (high_of cfg i) (f c)) ->
  part_ok cfg i (set_p_prev f pt).
Proof. intros cfg i pt f [] Hf. constructor; cbn; assumption. Qed.
Lemma set_mode_ok : forall cfg i pt m, part_ok cfg i pt -> known_mode m -> part_ok cfg i (set_p_mode m pt).
Proof. intros cfg i pt m [] Hm. constructor; cbn; assumption. Qed.
Lemma set_index_ok : forall cfg i pt n, part_ok cfg i pt -> 1 <= n <= c_threads cfg i -> part_ok cfg i (set_p_index n pt).
Proof. intros cfg i pt n [] Hm. constructor; cbn; assumption. Qed.
Lemma set_error_ok : forall cfg i pt e, part_ok cfg i pt -> e = 0 \/ low_of cfg i < e < high_of cfg i ->
  part_ok cfg i (set_p_error e pt).
Proof. intros cfg i pt e [] Hm. constructor; cbn; assumption. Qed.

(** ** Scheduling *)
Section Inv.
Variable cfg : config.
Hypothesis W : supported cfg.

Lemma prio_free_static : forall p (th : Z -> thread) low high prev cur,
  low < high -> idle_or_in (idle cfg p) low high prev -> idle_or_in (idle cfg p) low high cur ->
  exists e, sched_static p (idle cfg p) th low high prev cur = Some e /\
    (e = idle cfg p \/ (in_range low high e /\ ready_thread p th e)).
Proof.
  intros p th low high prev cur Hlh Hp Hc. unfold sched_static. fold (static_from (idle cfg p) low prev cur).
  pose proof (static_from_range (idle cfg p) low high prev cur Hlh Hp Hc) as Hf.
  set (from := static_from (idle cfg p) low prev cur) in *.
  assert (Gen : forall fuel k mprio best, 0 <= k < high - low -> high - low - k <= Z.of_nat fuel ->
    (0 <= mprio -> in_range low high best /\ ready_thread p th best) ->
    exists m b, static_scan fuel p th low high from (at_ low high from k) mprio best = Some (m, b) /\
      (0 <= m -> in_range low high b /\ ready_thread p th b)).
  { induction fuel as [|fuel IH]; intros k mprio best Hk Hfuel Hb; [lia|]. cbn [static_scan].
    rewrite bump_at by assumption.
    set (i := at_ low high from k). assert (Hir : in_range low high i) by now apply at_range.
    set (r := if ready_on p th i && (mprio <? t_priority (th i)) then (t_priority (th i), i) else (mprio, best)).
    assert (Hr : 0 <= fst r -> in_range low high (snd r) /\ ready_thread p th (snd r)).
    { subst r. destruct (ready_on p th i) eqn:Ro; cbn [andb]; [|cbn; exact Hb]. apply ready_on_iff in Ro.
      destruct (_ <? _); cbn; auto. }
    clearbody r. destruct r as [m b]. cbn [fst snd] in Hr.
    destruct (Z.eq_dec (k + 1) (high - low)) as [E|E].
    - rewrite E, at_full by assumption. rewrite Z.eqb_refl. exists m, b. auto.
    - assert (Hne : at_ low high from (k + 1) <> from).
      { intro C. pose proof (steps_at low high from (k+1) Hlh ltac:(lia)) as S1.
        rewrite C in S1. rewrite steps_cur in S1 by assumption. lia. }
      apply Z.eqb_neq in Hne. rewrite Hne. apply IH; try assumption; lia. }
  destruct (Gen (S (Z.to_nat (high - low))) 0 (-1) cur ltac:(lia) ltac:(lia) ltac:(lia)) as (m & b & E & Hb).
  rewrite at_0 in E by assumption. rewrite E.
  destruct (Z.leb_spec 0 m); eexists; split; try reflexivity; [right|left]; auto.
Qed.

Lemma sched_func_ok : forall pid p th prev cur, is_part cfg pid ->
  idle_or_in (idle cfg p) (low_of cfg pid) (high_of cfg pid) prev ->
  idle_or_in (idle cfg p) (low_of cfg pid) (high_of cfg pid) cur ->
  exists e, sched_func cfg pid p th (low_of cfg pid) (high_of cfg pid) prev cur = Some e /\
    (e = idle cfg p \/ (thread_of cfg pid e /\ ready_thread p th e)).
Proof.
  intros pid p th prev cur Hpid Hp Hc. unfold sched_func, thread_of.
  pose proof (low_lt_high cfg W pid Hpid) as Hlh.
  destruct (_ =? SCHED_RMS).
  { destruct (rms_sound p (idle cfg p) th (low_of cfg pid) (high_of cfg pid) Hlh) as (e & He & S).
    exists e. split; [assumption|]. destruct S as [S|(S & _)]; auto. }
  destruct (_ =? SCHED_STATIC).
  { now apply prio_free_static. }
  destruct (rr_sound p (idle cfg p) th (low_of cfg pid) (high_of cfg pid) prev cur Hlh Hp Hc) as (e & He & S).
  exists e. split; [assumption|]. destruct S as [S|(S & _)]; auto.
Qed.

Lemma elect_thread_ok : forall c s s' e, (forall i, is_part cfg i -> part_ok cfg i (k_part s i)) ->
  is_part cfg (k_cp s) -> is_proc cfg c ->
  elect_thread cfg c (k_cp s) s = Some (s', e) -> e = idle cfg c \/ thread_of cfg (k_cp s) e.
Proof.
  intros c s s' e HP Hcp Hc H. unfold elect_thread in H.
  destruct (_ <? _); [discriminate|].
  destruct (wake_loop _ _ _ _ _ _) as [th|]; [|discriminate].
  destruct (elect cfg c (k_cp s) (set_k_th th s)) as [[s2 e2]|] eqn:E; [|discriminate].
  injection H as _ <-. unfold elect in E. cbn [k_part set_k_th] in E.
  destruct (HP _ Hcp) as [Hlow Hhigh Hn _ _ Hmain _ Herr _ _ _ Hcur Hprev].
  pose proof (low_lt_high cfg W _ Hcp) as Hlh.
  destruct (_ || _).
  { injection E as _ <-. destruct (_ =? _); [right|now left]. rewrite Hmain. unfold thread_of, in_range. lia. }
  destruct (_ =? PM_NORMAL).
  2:{ injection E as _ <-. now left. }
  destruct (Z.eqb_spec (p_cur (k_part s (k_cp s)) c) (p_error (k_part s (k_cp s)))) as [Ee|_]; cbn [andb] in E.
  - destruct (_ =? ST_RUNNABLE).
    + injection E as _ <-. rewrite <- Ee. apply (Hcur c Hc).
    + rewrite Hlow, Hhigh in E.
      match type of E with context [sched_func _ _ _ ?t _ _ _ _] =>
        destruct (sched_func_ok (k_cp s) c t _ _ Hcp (Hprev c Hc) (Hcur c Hc)) as (e' & He' & S) end.
      rewrite He' in E. injection E as _ <-. tauto.
  - rewrite Hlow, Hhigh in E.
    match type of E with context [sched_func _ _ _ ?t _ _ _ _] =>
      destruct (sched_func_ok (k_cp s) c t _ _ Hcp (Hprev c Hc) (Hcur c Hc)) as (e' & He' & S) end.
    rewrite He' in E. injection E as _ <-. tauto.
Qed.

Lemma elected_bound : forall c i e, is_part cfg i -> is_proc cfg c -> e = idle cfg c \/ thread_of cfg i e -> u8 e = e.
Proof.
  intros c i e Hi Hc [->|H]; apply u8_small; [now apply idle_bound|now apply thread_bound with cfg i].
Qed.

(** Partitions after the election on processor [c]. *)
Lemma record_thread_parts : forall c e s, (forall i, is_part cfg i -> part_ok cfg i (k_part s i)) ->
  is_part cfg (k_cp s) -> is_proc cfg c -> e = idle cfg c \/ thread_of cfg (k_cp s) e ->
  forall i, is_part cfg i -> part_ok cfg i (k_part (record_thread cfg c e s) i).
Proof.
  intros c e s HP Hcp Hc He i Hi. unfold record_thread.
  destruct (_ =? e); [now apply HP|]. cbn. unfold upd at 1. destruct (Z.eqb_spec i (k_cp s)) as [->|]; [|now apply HP].
  pose proof (HP _ Hcp) as Hok.
  assert (Hok1 : part_ok cfg (k_cp s)
    (if p_cur (k_part s (k_cp s)) c =? idle cfg c then k_part s (k_cp s)
     else set_p_prev (upd (p_prev (k_part s (k_cp s))) c (p_cur (k_part s (k_cp s)) c)) (k_part s (k_cp s)))).
  { destruct (_ =? idle cfg c); [assumption|]. apply set_prev_ok; [assumption|].
    intros c' Hc'. unfold upd. destruct (Z.eqb_spec c' c) as [->|].
    - apply (po_cur _ _ _ Hok c Hc).
    - apply (po_prev _ _ _ Hok c' Hc'). }
  apply set_cur_ok; [assumption|]. intros c' Hc'. unfold upd. destruct (Z.eqb_spec c' c) as [->|].
  - exact He.
  - apply (po_cur _ _ _ Hok1 c' Hc').
Qed.

Lemma sched_thread_inv : forall c s s', kinv cfg s -> is_proc cfg c -> sched_thread cfg c s = Some s' -> kinv cfg s'.
Proof.
  intros c s s' I Hc H. destruct (sched_thread_shape _ _ _ _ H) as (th & e & E & ->).
  destruct I as [HP Hcp Hs Hcur].
  pose proof (elect_thread_ok c s _ e HP Hcp Hc E) as He. rewrite (elected_bound c (k_cp s) e Hcp Hc He).
  destruct (record_thread_fields cfg c e (set_k_th th s)) as (_ & _ & R1 & R2 & R3 & _).
  apply kinv_switch.
  - constructor.
    + apply record_thread_parts; assumption.
    + rewrite R2. assumption.
    + rewrite R3. assumption.
    + rewrite R1, R2. assumption.
  - rewrite R2. cbn. right. exact He.
Qed.

(** During a global scheduling the processors in [done] have already switched to the new partition. *)
Definition mid_inv (s : kstate) (done : Z -> Prop) : Prop :=
  (forall i, is_part cfg i -> part_ok cfg i (k_part s i)) /\ is_part cfg (k_cp s) /\ 0 <= k_slot s < c_nslots cfg /\
  (forall c, is_proc cfg c -> done c -> k_cur s c = idle cfg c \/ thread_of cfg (k_cp s) (k_cur s c)).

Lemma global_sched_thread_mid : forall newp src c s s' done, mid_inv s done -> is_proc cfg c ->
  global_sched_thread cfg newp src c s = Some s' ->
  mid_inv s' (fun x => x = c \/ done x) /\ k_cp s' = k_cp s.
Proof.
  intros newp src c s s' done (HP & Hcp & Hs & Hcur) Hc H.
  destruct (global_sched_thread_shape _ _ _ _ _ _ H) as (th & e & pr & E & ->).
  pose proof (elect_thread_ok c s _ e HP Hcp Hc E) as He. rewrite (elected_bound c (k_cp s) e Hcp Hc He).
  destruct (record_thread_fields cfg c e (set_k_th th s)) as (_ & _ & R1 & R2 & R3 & _).
  cbn in R1, R2, R3.
  split; [|cbn; exact R2]. unfold mid_inv. cbn [k_part k_cp k_slot k_cur switch_to set_k_cur set_k_present].
  rewrite R1, R2, R3. split; [apply record_thread_parts; assumption|]. split; [assumption|]. split; [assumption|].
  intros c' Hc' Hd. unfold upd. destruct (Z.eqb_spec c' c) as [->|]; [exact He|].
  apply Hcur; [assumption|]. destruct Hd; [contradiction|assumption].
Qed.

Lemma global_sched_others_mid : forall n newp src c s s' done, mid_inv s done ->
  0 <= c -> c + Z.of_nat n <= c_nprocs cfg -> (forall x, 0 <= x < c -> done x) -> done src ->
  global_sched_others n cfg newp src c s = Some s' ->
  exists done', mid_inv s' done' /\ (forall x, 0 <= x < c + Z.of_nat n -> done' x) /\ k_cp s' = k_cp s.
Proof.
  induction n as [|n IH]; intros newp src c s s' done M Hc Hn Hd Hsrc H; cbn in H.
  - injection H as <-. exists done. split; [assumption|]. split; [|reflexivity]. intros x Hx. apply Hd. lia.
  - destruct (Z.eqb_spec c src) as [->|].
    + destruct (IH newp src (src + 1) s s' done M ltac:(lia) ltac:(lia)) as (d' & M' & Hd' & Hcp'); try assumption.
      { intros x Hx. destruct (Z.eq_dec x src) as [->|]; [assumption|apply Hd; lia]. }
      exists d'. split; [assumption|]. split; [|assumption]. intros x Hx. apply Hd'. lia.
    + destruct (global_sched_thread cfg newp false c s) as [s1|] eqn:E; [|discriminate].
      destruct (global_sched_thread_mid newp false c s s1 done M) as (M1 & Hcp1); try assumption.
      { unfold is_proc. lia. }
      destruct (IH newp src (c + 1) s1 s' (fun x => x = c \/ done x) M1 ltac:(lia) ltac:(lia)) as (d' & M' & Hd' & Hcp'); try assumption.
      { intros x Hx. destruct (Z.eq_dec x c) as [->|]; [now left|right; apply Hd; lia]. }
      { now right. }
      exists d'. split; [assumption|]. split; [|congruence]. intros x Hx. apply Hd'. lia.
Qed.

Lemma elect_partition_ok : forall s s1 np f, is_part cfg (k_cp s) -> 0 <= k_slot s < c_nslots cfg ->
  elect_partition cfg s = (s1, np, f) -> is_part cfg np /\ 0 <= k_slot s1 < c_nslots cfg.
Proof.
  intros s s1 np f Hcp Hs H. pose proof (elect_partition_clock _ _ _ _ _ H) as (E & _).
  assert (Ec := f_equal ck_cp E). assert (Es := f_equal ck_slot E). cbn in Ec, Es. rewrite Ec, Es.
  unfold next_clock. destruct (_ <=? 1); [cbn; auto|]. destruct (_ <=? _); [|cbn; auto]. cbn.
  pose proof (sp_nslots cfg W).
  assert (0 <= (k_slot s + 1) mod c_nslots cfg < c_nslots cfg) by (apply Z.mod_pos_bound; lia).
  split; [now apply (sp_alloc cfg W)|assumption].
Qed.

Lemma global_sched_inv : forall c s s' f, kinv cfg s -> is_proc cfg c -> global_sched cfg c s = Some (s', f) ->
  kinv cfg s' /\ forall x, is_proc cfg x -> k_cur s' x <> kernel_thread cfg.
Proof.
  intros c s s' f [HP Hcp Hs Hcur] Hc H.
  destruct (global_sched_shape _ _ _ _ _ H) as (s1 & np & s3 & E & E3 & E4).
  destruct (elect_partition_ok s s1 np f Hcp Hs E) as (Hnp & Hs1).
  apply elect_partition_clock in E. destruct E as (_ & Hth & Hp & Ho & Hcu & Hcp1 & _).
  assert (M : mid_inv (set_k_cp np s1) (fun _ => False)).
  { split; [cbn; rewrite Hp; assumption|]. split; [assumption|]. split; [assumption|]. intros ? ? []. }
  destruct (global_sched_thread_mid _ _ _ _ _ _ M Hc E3) as (M3 & Hcp3).
  pose proof (sp_procs cfg W) as Hnp'.
  destruct (global_sched_others_mid (Z.to_nat (c_nprocs cfg)) _ _ 0 _ _ _ M3 (Z.le_refl 0) ltac:(lia) ltac:(intros; lia) (or_introl eq_refl) E4)
    as (d & (HP' & Hcp' & Hs' & Hcur') & Hd & _).
  assert (Hall : forall x, is_proc cfg x -> k_cur s' x = idle cfg x \/ thread_of cfg (k_cp s') (k_cur s' x)).
  { intros x Hx. apply Hcur'; [assumption|]. apply Hd. pose proof (sp_procs cfg W). unfold is_proc in Hx. lia. }
  split.
  - constructor; try assumption. intros x Hx. right. now apply Hall.
  - intros x Hx C. destruct (Hall x Hx) as [A|A].
    + unfold kernel_thread, idle, is_proc in *. lia.
    + unfold thread_of, in_range, kernel_thread in *. pose proof (high_bound cfg W _ Hcp').
      pose proof (sp_procs cfg W). lia.
Qed.

(** ** Thread creation *)
Lemma sort_threads_frame : forall low i s, exists th k, sort_threads low i s = set_k_k k (set_k_th th s).
Proof. intros. unfold sort_threads. cbv zeta. eexists _, _. reflexivity. Qed.

Lemma thread_create_cases : forall a pid s s' e id, thread_create cfg a pid s = Some (s', e, id) ->
  (s' = s /\ ((e = ERR_MODE /\ p_mode (k_part s pid) <> PM_COLD /\ p_mode (k_part s pid) <> PM_WARM) \/
              (e = ERR_TOOMANY /\ (p_mode (k_part s pid) = PM_COLD \/ p_mode (k_part s pid) = PM_WARM) /\
               p_high (k_part s pid) <= p_low (k_part s pid) + p_index (k_part s pid)))) \/
  (e = ERR_OK /\ id = p_low (k_part s pid) + p_index (k_part s pid) /\ id < p_high (k_part s pid) /\
   (p_mode (k_part s pid) = PM_COLD \/ p_mode (k_part s pid) = PM_WARM) /\
   exists th k aff, get_proc_real_id (c_mask cfg pid) (a_affinity a) = Some aff /\
     s' = set_k_k k (set_k_th th (set_k_brk (u32 (k_brk s + KERNEL_STACK))
            (on_part pid (set_p_index (p_index (k_part s pid) + 1)) s))) /\
     (let s4 := set_k_k (upd (k_k s) id KUser) (on_th id (init_thread pid aff
                  (u32 (p_size (k_part s pid) - 4 - (p_index (k_part s pid) + 1) * c_stack cfg)) a) s) in
      if (c_sched cfg pid =? SCHED_RMS) && (p_low (k_part s pid) <? id)
      then th = k_th (sort_threads (p_low (k_part s pid) + 1) id s4) /\
           k = k_k (sort_threads (p_low (k_part s pid) + 1) id s4)
      else th = k_th s4 /\ k = k_k s4)).
Proof.
  intros a pid s s' e id H. unfold thread_create in H.
  destruct (negb _ && negb _) eqn:B.
  { injection H as <- <- <-. left. split; [reflexivity|]. left.
    rewrite andb_true_iff, !negb_true_iff, !Z.eqb_neq in B. tauto. }
  assert (Hm : p_mode (k_part s pid) = PM_COLD \/ p_mode (k_part s pid) = PM_WARM).
  { rewrite andb_false_iff, !negb_false_iff, !Z.eqb_eq in B. tauto. }
  destruct (Z.leb_spec (p_high (k_part s pid)) (p_low (k_part s pid) + p_index (k_part s pid))) as [L|L].
  { injection H as <- <- <-. left. split; [reflexivity|]. right. auto. }
  destruct (get_proc_real_id _ _) as [aff|]; [|discriminate].
  match type of H with (if ?b then _ else _) = _ => destruct b end; [|discriminate].
  injection H as <- <- <-. right.
  split; [reflexivity|]. split; [reflexivity|]. split; [lia|]. split; [assumption|].
  cbv zeta. destruct ((c_sched cfg pid =? SCHED_RMS) && _) eqn:RM.
  - eexists _, _, aff. split; [reflexivity|]. split; [|split; reflexivity]. unfold sort_threads. reflexivity.
  - eexists _, _, aff. split; [reflexivity|]. split; [|split; reflexivity]. reflexivity.
Qed.

Lemma thread_create_inv : forall a pid s s' e id, kinv cfg s -> is_part cfg pid ->
  thread_create cfg a pid s = Some (s', e, id) ->
  kinv cfg s' /\ k_cp s' = k_cp s /\ k_cur s' = k_cur s /\
  (e = ERR_OK -> low_of cfg pid < id < high_of cfg pid).
Proof.
  intros a pid s s' e id I Hpid H. destruct (thread_create_cases _ _ _ _ _ _ H) as [(-> & He)|(-> & -> & Hid & _ & th & k & aff & _ & -> & _)].
  - split; [assumption|]. split; [reflexivity|]. split; [reflexivity|]. intros ->. destruct He as [(C & _)|(C & _)]; discriminate.
  - pose proof (ki_part _ _ I pid Hpid) as Hok. pose proof (po_low _ _ _ Hok) as Hlow. pose proof (po_high _ _ _ Hok) as Hhigh.
    pose proof (po_index _ _ _ Hok) as Hix. unfold high_of in *.
    split; [|split; [reflexivity|split; [reflexivity|]]].
    + eapply kinv_ext; [| | | |apply (kinv_part cfg s pid (set_p_index (p_index (k_part s pid) + 1) (k_part s pid)) I)];
        try reflexivity.
      intros _. apply set_index_ok; [assumption|]. lia.
    + intros _. rewrite Hlow, Hhigh in *. lia.
Qed.

(** ** Restart *)
Lemma setup_main_shape : forall pid s s', is_part cfg pid -> p_index (k_part s pid) = 0 ->
  p_low (k_part s pid) = low_of cfg pid -> p_high (k_part s pid) = high_of cfg pid ->
  p_mode (k_part s pid) = PM_COLD \/ p_mode (k_part s pid) = PM_WARM ->
  setup_main_thread cfg pid s = Some s' ->
  k_obj s' = k_obj s /\ k_cur s' = k_cur s /\ clock_of s' = clock_of s /\ k_present s' = k_present s /\
  (forall j, j <> pid -> k_part s' j = k_part s j) /\
  k_part s' pid = set_p_main (low_of cfg pid) (set_p_index 1 (k_part s pid)) /\
  k_k s' = upd (k_k s) (low_of cfg pid) KUser /\ k_brk s' = u32 (k_brk s + KERNEL_STACK) /\
  exists aff, get_proc_real_id (c_mask cfg pid) 0 = Some aff /\
    k_th s' = upd (k_th s) (low_of cfg pid) (init_thread pid aff (u32 (p_size (k_part s pid) - 4 - c_stack cfg))
           (main_attr (p_main_entry (k_part s pid))) (k_th s (low_of cfg pid))).
Proof.
  intros pid s s' Hpid Hix Hlow Hhigh Hm H. unfold setup_main_thread in H.
  destruct (thread_create _ _ _ _) as [[[s1 e] id]|] eqn:E; [|discriminate]. injection H as <-.
  pose proof (low_lt_high cfg W pid Hpid) as Hlh.
  destruct (thread_create_cases _ _ _ _ _ _ E) as [(-> & He)|(-> & -> & Hid & _ & th & k & aff & Haff & -> & Hth)].
  - exfalso. destruct He as [(_ & C1 & C2)|(_ & _ & C)]; [tauto|]. rewrite Hix, Hlow, Hhigh in C. lia.
  - rewrite Hix, Hlow in *. rewrite Z.add_0_r in *.
    destruct (Z.ltb_spec (low_of cfg pid) (low_of cfg pid)) as [C|_]; [lia|]. rewrite andb_false_r in Hth.
    destruct Hth as (-> & ->). cbn. repeat (split; [reflexivity|]).
    split; [intros j Hj; now rewrite !upd_other by assumption|].
    split; [now rewrite !upd_same|]. split; [reflexivity|]. split; [reflexivity|].
    exists aff. split; [exact Haff|]. replace (match c_stack cfg with 0 => 0 | Z.pos y' => Z.pos y' | Z.neg y' => Z.neg y' end)
      with (c_stack cfg) by now destruct (c_stack cfg). reflexivity.
Qed.

Lemma setup_main_ok : forall pid pt, part_ok cfg pid (set_p_index 1 pt) ->
  part_ok cfg pid (set_p_main (low_of cfg pid) (set_p_index 1 pt)).
Proof. intros pid pt []. constructor; cbn in *; try assumption; reflexivity. Qed.

Lemma reinit_inv : forall c pid s s', kinv cfg s -> is_part cfg pid -> is_proc cfg c ->
  p_mode (k_part s pid) = PM_COLD \/ p_mode (k_part s pid) = PM_WARM ->
  partition_reinit cfg c pid s = Some s' ->
  kinv cfg s' /\ k_cp s' = k_cp s /\ k_cur s' = k_cur s /\ k_obj s' = k_obj s /\
  (forall j, j <> pid -> k_part s' j = k_part s j) /\ p_mode (k_part s' pid) = p_mode (k_part s pid) /\
  p_index (k_part s' pid) = 1 /\ p_error (k_part s' pid) = 0.
Proof.
  intros c pid s s' I Hpid Hc Hm H. unfold partition_reinit in H.
  pose proof (ki_part _ _ I pid Hpid) as Hok.
  match type of H with setup_main_thread _ _ ?x = _ => set (s1 := x) in * end.
  assert (E1 : k_part s1 pid = set_p_main_entry (c_entry cfg pid) (set_p_error 0
      (set_p_prev (upd (p_prev (k_part s pid)) c (idle cfg c))
        (set_p_cur (upd (p_cur (k_part s pid)) c (p_low (k_part s pid))) (set_p_index 0 (k_part s pid)))))).
  { unfold s1. cbn. now rewrite upd_same. }
  assert (E2 : forall j, j <> pid -> k_part s1 j = k_part s j).
  { intros j Hj. unfold s1. cbn. now rewrite upd_other. }
  destruct (setup_main_shape pid s1 s') as (F1 & F2 & F3 & F4 & F5 & F6 & _).
  { assumption. } { now rewrite E1. } { rewrite E1; cbn. apply (po_low _ _ _ Hok). }
  { rewrite E1; cbn. apply (po_high _ _ _ Hok). } { now rewrite E1. } { assumption. }
  pose proof (f_equal ck_cp F3) as Fcp. pose proof (f_equal ck_slot F3) as Fslot. cbn in Fcp, Fslot.
  pose proof (low_lt_high cfg W pid Hpid) as Hlh.
  assert (Hok' : part_ok cfg pid (k_part s' pid)).
  { rewrite F6, E1. destruct Hok as [Hlow Hhigh Hn Hl1 Hl2 Hmain Hix Herr Hmode Hsz Hent Hcur Hprev].
    pose proof (sp_threads cfg W pid Hpid).
    constructor; cbn; try assumption; try lia; try reflexivity.
    - intros c' Hc'. unfold upd. destruct (Z.eqb_spec c' c); [|auto]. rewrite Hlow. right. unfold in_range. lia.
    - intros c' Hc'. unfold upd. destruct (Z.eqb_spec c' c) as [->|]; [now left|auto]. }
  split; [|rewrite F6, E1; cbn; repeat split; try assumption].
  - destruct I as [HP Hcp Hs Hcur]. constructor; rewrite ?Fcp, ?Fslot, ?F2; try assumption.
    intros j Hj. destruct (Z.eq_dec j pid) as [->|Hne]; [assumption|]. rewrite F5, E2 by assumption. now apply HP.
  - intros j Hj. rewrite F5, E2 by assumption. reflexivity.
Qed.

(** ** Services *)
Lemma kinv_th : forall s f, kinv cfg s -> kinv cfg (set_k_th f s).
Proof. intros s f I. kframe I. Qed.

Lemma then_sched_inv : forall c s e s' e' f, kinv cfg s -> is_proc cfg c ->
  then_sched cfg c s e = Some (s', e', f) -> kinv cfg s'.
Proof.
  intros c s e s' e' f I Hc H. unfold then_sched in H.
  destruct (sched_thread cfg c s) as [s1|] eqn:E; [|discriminate]. injection H as <- _ _.
  now apply sched_thread_inv with c s.
Qed.
Lemma then_global_inv : forall c s e s' e' f, kinv cfg s -> is_proc cfg c ->
  then_global cfg c s e = Some (s', e', f) -> kinv cfg s'.
Proof.
  intros c s e s' e' f I Hc H. unfold then_global in H.
  destruct (global_sched cfg c s) as [[s1 f1]|] eqn:E; [|discriminate]. injection H as <- _ _.
  now apply global_sched_inv with c s f1.
Qed.
Lemma schedule_one_inv : forall c d s s', kinv cfg s -> is_proc cfg c ->
  schedule_one_proc cfg c d s = Some s' -> kinv cfg s'.
Proof.
  intros c d s s' I Hc H. unfold schedule_one_proc in H.
  destruct (1 <? c_nprocs cfg); [destruct (d =? c)|destruct (d =? 0)]; try discriminate.
  - now apply sched_thread_inv with c s.
  - now injection H as <-.
  - now apply sched_thread_inv with c s.
Qed.

Lemma activate_error_inv : forall c s, kinv cfg s -> is_proc cfg c -> kinv cfg (activate_error_thread c s).
Proof.
  intros c s I Hc. unfold activate_error_thread. destruct (Z.eqb_spec (p_error (cur_part s)) 0) as [|Hne]; [assumption|].
  apply kinv_switch; [now apply kinv_th|]. cbn. right; right. unfold cur_part.
  destruct (po_error _ _ _ (ki_part _ _ I _ (ki_cp _ _ I))) as [C|C]; [contradiction|].
  unfold thread_of, in_range. lia.
Qed.

Lemma set_mode_inv : forall c m s s' e f, kinv cfg s -> is_proc cfg c ->
  set_mode cfg c m s = Some (s', e, f) -> kinv cfg s'.
Proof.
  intros c m s s' e f I Hc H. unfold set_mode in H.
  assert (Hret : forall e0, ret s e0 = Some (s', e, f) -> kinv cfg s') by (intros e0 E; injection E as <- _ _; assumption).
  assert (Hpm : forall v, known_mode v -> kinv cfg (on_part (k_cp s) (set_p_mode v) s)).
  { intros v Hv. apply kinv_part; [assumption|]. intros Hp. apply set_mode_ok; [|assumption]. now apply (ki_part _ _ I). }
  destruct (Z.eqb_spec m PM_NORMAL) as [->|].
  { destruct (_ =? PM_IDLE); [now apply Hret in H|]. destruct (negb _); [now apply Hret in H|].
    apply then_global_inv in H; try assumption. do 2 apply kinv_th. apply Hpm. unfold known_mode. auto. }
  destruct (Z.eqb_spec m PM_STOPPED) as [->|].
  { destruct (_ || _); [now apply Hret in H|]. apply then_global_inv in H; try assumption. apply Hpm. unfold known_mode. auto. }
  destruct ((m =? PM_WARM) || (m =? PM_COLD)) eqn:B; [|now apply Hret in H].
  assert (Hm : m = PM_COLD \/ m = PM_WARM) by (rewrite orb_true_iff, !Z.eqb_eq in B; tauto). clear B.
  destruct (_ && _); [now apply Hret in H|]. destruct (_ || _); [now apply Hret in H|].
  destruct (partition_reinit _ _ _ _) as [s1|] eqn:E; [|discriminate].
  apply then_global_inv in H; try assumption.
  apply reinit_inv in E; [apply E| | | |].
  - apply Hpm. unfold known_mode. tauto.
  - apply (ki_cp _ _ I).
  - assumption.
  - cbn. rewrite upd_same. exact Hm.
Qed.

Lemma lock_service_inv : forall c id o s s' e f, kinv cfg s -> is_proc cfg c ->
  lock_service cfg c id o s = Some (s', e, f) -> kinv cfg s'.
Proof.
  intros c id o s s' e f I Hc H. unfold lock_service in H. destruct o.
  - destruct (obj_lock _ _ _ _ _ _) as [[[ob th] [e'|d]]|]; [| |discriminate].
    + injection H as <- _ _. kframe I.
    + apply then_sched_inv in H; [assumption| |assumption]. kframe I.
  - destruct (obj_unlock _ _ _) as [[[[ob th] e'] [w|]]|]; [| |discriminate].
    + destruct (schedule_one_proc _ _ _ _) as [s1|] eqn:E; [|discriminate].
      injection H as <- _ _. apply schedule_one_inv in E; [assumption| |assumption]. kframe I.
    + injection H as <- _ _. kframe I.
  - destruct (obj_eventwait _ _ _ _ _ _) as [[[ob th] [e'|d]]|]; [| |discriminate].
    + injection H as <- _ _. kframe I.
    + apply then_sched_inv in H; [assumption| |assumption]. kframe I.
  - destruct (obj_eventsignal _ _ _) as [[[ob th] e'] [w|]].
    + destruct (schedule_one_proc _ _ _ _) as [s1|] eqn:E; [|discriminate].
      injection H as <- _ _. apply schedule_one_inv in E; [assumption| |assumption]. kframe I.
    + injection H as <- _ _. kframe I.
  - destruct (obj_eventbroadcast _ _ _) as [[[[ob th] e'] [|]]|]; [| |discriminate].
    + unfold schedule_every_proc in H. destruct (sched_thread _ _ _) as [s1|] eqn:E; [|discriminate].
      injection H as <- _ _. apply sched_thread_inv in E; [assumption| |assumption]. kframe I.
    + injection H as <- _ _. kframe I.
Qed.

Lemma lock_continue_inv : forall c s s' e f, kinv cfg s -> is_proc cfg c ->
  lock_continue cfg c s = Some (s', e, f) -> kinv cfg s'.
Proof.
  intros c s s' e f I Hc H. unfold lock_continue in H. destruct (k_k s (k_cur s c)).
  - injection H as <- _ _. assumption.
  - destruct (obj_lock_resume _ _ _ _ _) as [[ob e']|]; [|discriminate]. injection H as <- _ _. kframe I.
  - destruct (obj_eventwait_resume _ _ _ _ _ _) as [[[[ob th] rw] [e'|d]]|]; [| |discriminate].
    + injection H as <- _ _. kframe I.
    + apply then_sched_inv in H; [assumption| |assumption]. kframe I.
  - destruct (obj_lock_resume _ _ _ _ _) as [[ob e']|]; [|discriminate]. injection H as <- _ _. kframe I.
  - injection H as <- _ _. assumption.
Qed.

Lemma ret_inv : forall s e s' e' f, kinv cfg s -> ret s e = Some (s', e', f) -> kinv cfg s'.
Proof. intros s e s' e' f I H. unfold ret in H. injection H as <- _ _. assumption. Qed.

Ltac inv_no H := match type of H with
  | match ?x with Some _ => _ | None => None end = Some _ =>
      let E := fresh "E" in destruct x as [[[? ?] ?]|] eqn:E; [|discriminate H]; injection H as <- <- <- <-
  end.

Lemma service_inv : forall c v s s' e f id, kinv cfg s -> is_proc cfg c ->
  service cfg c v s = Some (s', e, f, id) -> kinv cfg s'.
Proof.
  intros c v s s' e f id I Hc H. unfold service in H. cbv zeta in H.
  pose proof (ki_cp _ _ I) as Hcp.
  destruct v.
  - destruct (thread_create _ _ _ _) as [[[s1 e1] i1]|] eqn:E; [|discriminate].
    injection H as <- _ _ _. now apply thread_create_inv in E.
  - inv_no H. apply then_sched_inv in E; [assumption|now apply kinv_th|assumption].
  - inv_no H. apply then_sched_inv in E; [assumption|now apply kinv_th|assumption].
  - inv_no H. apply then_sched_inv in E; [assumption|now apply kinv_th|assumption].
  - inv_no H. apply then_sched_inv in E; [assumption|now apply kinv_th|assumption].
  - destruct (in_bounds s id0).
    + destruct (get_proc_partition_id _ _); [|discriminate]. inv_no H. now apply ret_inv in E.
    + inv_no H. now apply ret_inv in E.
  - destruct (in_bounds s id0).
    + destruct (_ && _).
      * inv_no H. apply then_global_inv in E; [assumption|now apply kinv_th|assumption].
      * inv_no H. apply ret_inv in E; [assumption|now apply kinv_th].
    + inv_no H. now apply ret_inv in E.
  - destruct (in_bounds s id0); inv_no H.
    + apply then_global_inv in E; [assumption|now apply kinv_th|assumption].
    + now apply ret_inv in E.
  - destruct (in_bounds s id0); inv_no H.
    + apply then_global_inv in E; [assumption|now apply kinv_th|assumption].
    + now apply ret_inv in E.
  - destruct (_ && _); inv_no H; apply ret_inv in E; try assumption; now apply kinv_th.
  - destruct (negb _).
    + inv_no H. now apply ret_inv in E.
    + destruct (in_bounds _ _); inv_no H.
      * apply then_global_inv in E; [assumption| |assumption]. unfold thread_restart. kframe I.
      * now apply ret_inv in E.
  - destruct (negb _).
    + inv_no H. now apply ret_inv in E.
    + destruct (in_bounds _ _); inv_no H.
      * apply then_global_inv in E; [assumption|now apply kinv_th|assumption].
      * now apply ret_inv in E.
  - inv_no H. unfold set_mode_current in E. destruct (_ && _).
    + now apply ret_inv in E.
    + now apply set_mode_inv in E.
  - destruct (thread_create _ _ _ _) as [[[s1 e1] i1]|] eqn:E; [|discriminate].
    destruct (Z.eqb_spec e1 ERR_OK) as [->|]; [|discriminate]. injection H as <- _ _ _.
    apply thread_create_inv in E; try assumption. destruct E as (I1 & Ecp & _ & Hid).
    apply activate_error_inv; [|assumption]. apply kinv_part; [assumption|]. intros _.
    rewrite Ecp. apply set_error_ok; [now apply (ki_part _ _ I1)|right; now apply Hid].
  - inv_no H. apply ret_inv in E; [assumption|now apply activate_error_inv].
  - destruct (lockobj_create s a) as [[s1 e1] i1] eqn:E. injection H as <- _ _ _.
    unfold lockobj_create in E. destruct (_ && _). { injection E as <- _ _. assumption. }
    destruct (find_free _ _ _). 2:{ injection E as <- _ _. assumption. }
    destruct (obj_create _ _). injection E as <- _ _. kframe I.
  - inv_no H. unfold lock_wrapper in E.
    destruct (_ <? _). { now apply ret_inv in E. }
    destruct (_ <=? _). { now apply ret_inv in E. }
    destruct (negb _). { now apply ret_inv in E. }
    destruct o. 2:{ now apply ret_inv in E. }
    now apply lock_service_inv in E.
Qed.

Lemma valid_proc_is : forall c, valid_proc cfg c = true -> is_proc cfg c.
Proof. intros c H. unfold valid_proc in H. unfold is_proc. lia. Qed.

Lemma kstep_inv : forall s l s' ev, kinv cfg s -> kstep cfg s l = KNext s' ev -> kinv cfg s'.
Proof.
  intros s l s' ev I H. destruct l; cbn in H.
  - destruct (0 <? d); [|discriminate]. injection H as <- _. kframe I.
  - destruct (valid_proc cfg c) eqn:V; [|discriminate]. apply valid_proc_is in V.
    destruct (global_sched cfg c s) as [[s1 f]|] eqn:E; [|discriminate]. injection H as <- _.
    now apply global_sched_inv in E.
  - destruct (valid_proc cfg c) eqn:V; [|discriminate]. apply valid_proc_is in V.
    destruct (sched_thread cfg c s) as [s1|] eqn:E; [|discriminate]. injection H as <- _.
    now apply sched_thread_inv in E.
  - destruct (valid_proc cfg c) eqn:V; [|discriminate]. apply valid_proc_is in V.
    destruct (_ && _); [|discriminate].
    destruct (service cfg c v s) as [[[[s1 e] f] id]|] eqn:E; [|discriminate]. injection H as <- _.
    now apply service_inv in E.
  - destruct (valid_proc cfg c) eqn:V; [|discriminate]. apply valid_proc_is in V.
    destruct (_ && _); [|discriminate].
    destruct (lock_continue cfg c s) as [[[s1 e] f]|] eqn:E; [|discriminate]. injection H as <- _.
    now apply lock_continue_inv in E.
Qed.

(** Induction over executions. *)
Lemma krun_ind_inv : forall (P : kstate -> Prop),
  (forall s l s' ev, P s -> kstep cfg s l = KNext s' ev -> P s') ->
  forall ls s s' evs, P s -> krun cfg s ls = Some (s', evs) -> P s'.
Proof.
  intros P Hstep. induction ls as [|l ls IH]; intros s s' evs Hs H; cbn in H.
  - now injection H as <- _.
  - destruct (kstep cfg s l) as [s1 ev| |] eqn:E; [| |discriminate].
    + destruct (krun cfg s1 ls) as [[s2 ev2]|] eqn:R; [|discriminate]. injection H as <- _.
      apply (IH s1 s2 ev2); [|assumption]. now apply Hstep with s l ev.
    + now apply (IH s s' evs).
Qed.

(** ** Boot *)
Definition booted (i : Z) (pt : part) : Prop :=
  part_ok cfg i pt /\ p_mode pt = PM_WARM /\ p_error pt = 0 /\ p_index pt = 1 /\
  get_proc_real_id (c_mask cfg i) 0 = Some (p_main_proc pt) /\
  p_cur pt = (fun j => idle cfg j) /\ p_prev pt = (fun j => idle cfg j).

Lemma init_partitions_inv : forall n i s s',
  (forall j, 0 <= j < i -> booted j (k_part s j)) -> 0 <= i -> i + Z.of_nat n <= c_nparts cfg ->
  (0 < i -> k_cur s = fun _ => kernel_thread cfg) -> (forall t, k_k s t = KUser) ->
  init_partitions n cfg i (low_of cfg i) (lo_low_of cfg i) s = Some s' ->
  (forall j, 0 <= j < i + Z.of_nat n -> booted j (k_part s' j)) /\
  (0 < i + Z.of_nat n -> k_cur s' = fun _ => kernel_thread cfg) /\ k_obj s' = k_obj s /\
  (forall t, k_k s' t = KUser).
Proof.
  induction n as [|n IH]; intros i s s' HP Hi Hn Hcu Hk H; cbn [init_partitions] in H.
  - injection H as <-. rewrite Z.add_0_r. auto.
  - destruct (init_partition cfg i (low_of cfg i) (lo_low_of cfg i) s) as [s1|] eqn:E; [|discriminate].
    assert (Hip : is_part cfg i) by (unfold is_part; lia).
    unfold init_partition in E. destruct (get_proc_real_id _ _) as [mp|] eqn:Emp; [|discriminate].
    match type of E with setup_main_thread _ _ ?x = _ => set (sb := x) in * end.
    pose proof (low_lt_high cfg W i Hip) as Hlh.
    pose proof (lo_high_bound cfg W i Hip) as Hlo. pose proof (lo_low_nonneg cfg W i ltac:(unfold is_part in Hip; lia)) as Hlo0.
    pose proof (sp_objs cfg W i Hip) as Hob. unfold lo_high_of in Hlo.
    assert (Hu8 : u8 (lo_low_of cfg i + c_lockobjs cfg i) = lo_low_of cfg i + c_lockobjs cfg i) by (apply u8_small; lia).
    assert (Epi : k_part sb i = mkPart (k_brk s) (c_size cfg i) (c_threads cfg i) (c_sched cfg i) 0
               (fun j => idle cfg j) (fun j => idle cfg j) (low_of cfg i) (low_of cfg i + c_threads cfg i) 0
               (lo_low_of cfg i) (lo_low_of cfg i + c_lockobjs cfg i) 0 0 (c_entry cfg i) mp PM_WARM).
    { unfold sb. cbn. rewrite upd_same, Hu8. reflexivity. }
    destruct (setup_main_shape i sb s1 Hip) as (F1 & F2 & F3 & F4 & F5 & F6 & F7); try (rewrite Epi; cbn; auto; fail); try assumption.
    rewrite Hu8 in H. change (low_of cfg i + c_threads cfg i) with (high_of cfg i) in H.
    change (lo_low_of cfg i + c_lockobjs cfg i) with (lo_high_of cfg i) in H.
    rewrite high_is_next, lo_high_is_next in H by assumption.
    assert (Hok : booted i (k_part s1 i)).
    { rewrite F6, Epi. pose proof (sp_threads cfg W i Hip). split; [|repeat split; assumption].
      constructor; cbn; auto; try lia; try (left; reflexivity).
      unfold known_mode. auto. }
    destruct (IH (i + 1) s1 s') as (G1 & G2 & G3 & G4); try assumption; try lia.
    + intros j Hj. destruct (Z.eq_dec j i) as [->|Hne]; [assumption|].
      rewrite F5 by assumption. unfold sb. cbn. rewrite upd_other by assumption. apply HP. lia.
    + intros _. rewrite F2. reflexivity.
    + intros t. destruct F7 as (-> & _). unfold upd. destruct (t =? _); [reflexivity|]. apply Hk.
    + replace (i + Z.of_nat (S n)) with (i + 1 + Z.of_nat n) by lia.
      split; [assumption|]. split; [assumption|]. split; [|assumption]. rewrite G3, F1. reflexivity.
Qed.

(** The state after boot. *)
Lemma kboot_state : forall s, kboot cfg = Some s ->
  (forall i, is_part cfg i -> booted i (k_part s i)) /\ k_cur s = (fun _ => kernel_thread cfg) /\
  k_obj s = (fun _ => obj_boot obj_zero) /\ (forall t, k_k s t = KUser) /\ k_cp s = c_alloc cfg 0 /\
  k_slot s = 0 /\ k_now s = 0 /\
  (forall i t, is_part cfg i -> thread_of cfg i t -> exists t0, k_th s t = reset_thread t0).
Proof.
  intros s H. unfold kboot in H. destruct (init_partitions _ _ _ _ _ _) as [s1|] eqn:E; [|discriminate].
  pose proof (init_partitions_clock _ _ _ _ _ _ _ E) as Ec.
  injection H as <-. pose proof (sp_parts cfg W).
  destruct (init_partitions_inv (Z.to_nat (c_nparts cfg)) 0 (zero_kstate cfg) s1) as (G1 & G2 & G3 & G4); try lia; try assumption; [reflexivity|].
  assert (Hn : 0 + Z.of_nat (Z.to_nat (c_nparts cfg)) = c_nparts cfg) by lia. rewrite Hn in *.
  split; [exact G1|]. split; [cbn; apply G2; lia|]. split; [cbn; rewrite G3; reflexivity|]. split; [exact G4|].
  split; [reflexivity|]. split; [reflexivity|]. split; [apply (f_equal ck_now Ec)|].
  intros i t Hi Ht. exists (k_th s1 t). cbn. pose proof (high_bound cfg W i Hi) as Hb. unfold thread_of, in_range in Ht.
  destruct ((0 <=? c_nthreads cfg - 2 - t) && (c_nthreads cfg - 2 - t <? c_nprocs cfg)) eqn:B; [exfalso; lia|reflexivity].
Qed.

Lemma kboot_inv : forall s, kboot cfg = Some s -> kinv cfg s.
Proof.
  intros s H. destruct (kboot_state s H) as (G1 & G2 & G3 & _ & G4 & G5 & _).
  pose proof (sp_nslots cfg W). constructor.
  - intros i Hi. apply G1. exact Hi.
  - rewrite G4. apply (sp_alloc cfg W). lia.
  - lia.
  - intros c Hc. left. now rewrite G2.
Qed.

Lemma reachable_inv : forall s, reachable cfg s -> kinv cfg s.
Proof.
  intros s (s0 & ls & evs & Hb & Hr). apply kboot_inv in Hb.
  apply krun_ind_inv with (P := kinv cfg) in Hr; [assumption| |assumption].
  intros. now apply kstep_inv with s1 l ev.
Qed.

Lemma only_current : forall s, reachable cfg s -> forall c, is_proc cfg c ->
  k_cur s c = kernel_thread cfg \/ k_cur s c = idle cfg c \/ thread_of cfg (k_cp s) (k_cur s c).
Proof. intros s H c Hc. exact (ki_cur _ _ (reachable_inv s H) c Hc). Qed.

(** Induction over reachable states. *)
Lemma reachable_ind_inv : forall (P : kstate -> Prop),
  (forall s, kboot cfg = Some s -> P s) ->
  (forall s l s' ev, kinv cfg s -> P s -> kstep cfg s l = KNext s' ev -> P s') ->
  forall s, reachable cfg s -> P s.
Proof.
  intros P Hb Hs s (s0 & ls & evs & B & R).
  apply krun_ind_inv with (P := fun x => kinv cfg x /\ P x) in R; [apply R| |split; [now apply kboot_inv|auto]].
  intros s1 l s2 ev (I & HP) K. split; [now apply kstep_inv with s1 l ev|now apply Hs with s1 l ev].
Qed.
End Inv.

(** A call that returns. *)
Lemma calls_service : forall cfg s c v s' e id, calls cfg s c v s' e id ->
  is_proc cfg c /\ user_thread cfg (k_cur s c) = true /\ is_user (k_k s (k_cur s c)) = true /\
  exists f, service cfg c v s = Some (s', e, f, id).
Proof.
  intros cfg s c v s' e id (f & H). cbn in H. destruct (valid_proc cfg c) eqn:V; [|discriminate]. apply valid_proc_is in V.
  destruct (user_thread _ _); [|discriminate]. destruct (is_user _); [|discriminate]. cbn [andb] in H.
  destruct (service cfg c v s) as [[[[s1 e1] f1] i1]|]; [|discriminate].
  injection H as -> -> -> ->. split; [assumption|]. split; [reflexivity|]. split; [reflexivity|]. now exists f.
Qed.
