(** Creation of threads and lock objects along executions. *)
From Verif Require Import Model.Base Model.State Model.LockFifo Model.LockObj Model.LockSys Model.Sched Model.Kernel
  Spec.SchedSpec Spec.KernelSpec Proof.Tac Proof.SchedProof Proof.KernelBasic Proof.ClockProof Proof.KernelInv Proof.ElectProof
  Proof.ServiceProof Proof.PlaceProof Proof.PartStep Proof.ObjStep.

Section Create.
Variable cfg : config.
Hypothesis W : supported cfg.

Lemma in_rangeb_is : forall low high t, in_rangeb low high t = true <-> in_range low high t.
Proof. intros low high t. unfold in_rangeb, in_range. rewrite andb_true_iff, Z.leb_le, Z.ltb_lt. tauto. Qed.

Lemma made_threads_app : forall i l1 l2, made_threads cfg i (l1 ++ l2) = made_threads cfg i l1 ++ made_threads cfg i l2.
Proof.
  intros i l1 l2. induction l1 as [|x l1 IH]; [reflexivity|].
  destruct x as [c t v e id| |]; cbn; try assumption. destruct v; cbn; try assumption.
  destruct (_ && _); [cbn; now rewrite IH|assumption].
Qed.
Lemma made_objs_app : forall l1 l2, made_objs (l1 ++ l2) = made_objs l1 ++ made_objs l2.
Proof.
  intros l1 l2. induction l1 as [|x l1 IH]; [reflexivity|].
  destruct x as [c t v e id| |]; cbn; try assumption. destruct v; cbn; try assumption.
  destruct (_ =? _); [cbn; now rewrite IH|assumption].
Qed.

(** ** One step of thread creation *)
Lemma create_step : forall s l s' ev i, kinv cfg s -> kstep cfg s l = KNext s' ev -> is_part cfg i -> not_restarted cfg i ev ->
  (made_threads cfg i ev = [] /\ p_index (k_part s i) <= p_index (k_part s' i)) \/
  (made_threads cfg i ev = [low_of cfg i + p_index (k_part s i)] /\ p_index (k_part s' i) = p_index (k_part s i) + 1).
Proof.
  intros s l s' ev i I H Hi Hnr. destruct (part_step cfg W s l s' ev I H) as (P1 & P2).
  assert (Hk : forall j, pkey (k_part s' j) = pkey (k_part s j) -> p_index (k_part s' j) = p_index (k_part s j)).
  { intros j E. unfold pkey in E. congruence. }
  destruct l as [d|c|c|c v|c].
  5:{ left. split; [|rewrite (Hk i (P2 Logic.I i)); lia].
      cbn in H. destruct (_ && _); [|discriminate]. destruct (lock_continue _ _ _) as [[[s1 e] f]|]; [|discriminate].
      injection H as _ <-. reflexivity. }
  1,2,3: left; (split; [|rewrite (Hk i (P2 Logic.I i)); lia]); cbn in H.
  1:{ destruct (0 <? d); [|discriminate]. injection H as _ <-. reflexivity. }
  1:{ destruct (valid_proc _ _); [|discriminate]. destruct (global_sched _ _ _) as [[s1 f]|]; [|discriminate]. injection H as _ <-. reflexivity. }
  1:{ destruct (valid_proc _ _); [|discriminate]. destruct (sched_thread _ _ _); [|discriminate]. injection H as _ <-. reflexivity. }
  destruct (step_call cfg _ _ _ _ _ H) as (e & id & f & -> & HC). pose proof HC as HS. apply calls_service in HS.
  destruct HS as (V & U & _ & f2 & G). destruct (caller_is cfg s c I V U) as (Hcall & _).
  destruct (changes_part v) eqn:CP.
  2:{ left. split; [|rewrite (Hk i (P2 eq_refl i)); lia]. destruct v; try discriminate; reflexivity. }
  destruct (Z.eq_dec i (k_cp s)) as [->|Hne].
  2:{ left. split; [|rewrite (Hk i (P1 i Hne)); lia].
      destruct v; try discriminate; try reflexivity. cbn.
      destruct (in_rangeb (low_of cfg i) (high_of cfg i) (k_cur s c)) eqn:B; [|now rewrite andb_false_r].
      apply in_rangeb_is in B. exfalso. apply Hne. apply (ranges_disjoint cfg W i (k_cp s) (k_cur s c)); try assumption. apply (ki_cp _ _ I). }
  assert (Hb : in_rangeb (low_of cfg (k_cp s)) (high_of cfg (k_cp s)) (k_cur s c) = true) by (now apply in_rangeb_is).
  pose proof (ki_part _ _ I _ (ki_cp _ _ I)) as Hok.
  destruct v; try discriminate; cbn in G.
  - destruct (thread_create _ _ _ _) as [[[s1 e1] i1]|] eqn:E; [|discriminate]. injection G as <- <- _ <-.
    destruct (thread_create_cases cfg _ _ _ _ _ _ E) as [(-> & X)|(-> & Hid & _ & _ & th & k & aff & _ & Es & _)].
    + left. split; [|lia]. cbn. destruct (Z.eqb_spec e1 ERR_OK) as [C|]; [|reflexivity].
      destruct X as [(X & _)|(X & _)]; rewrite X in C; discriminate.
    + right. cbn. rewrite Hb. cbn. split; [now rewrite Hid, (po_low _ _ _ Hok)|]. rewrite Es. cbn. now rewrite upd_same.
  - left. split; [reflexivity|]. inv_no G. unfold set_mode_current in E.
    destruct (negb (k_cur s c =? p_main (cur_part s)) && _). { injection E as <- _ _. lia. }
    destruct (set_mode_spec cfg W _ _ _ _ _ _ I V E) as [(_ & ->)|(-> & _ & _ & B)]; [lia|].
    unfold cur_part in B. destruct B as [(_ & _ & B & _)|[(_ & _ & B & _)|(Hm & _)]]; try lia.
    exfalso. unfold not_restarted in Hnr. cbn in Hnr. rewrite Hb in Hnr. destruct Hm as [->| ->]; discriminate.
  - left. split; [reflexivity|]. destruct (thread_create _ _ _ _) as [[[s1 e1] i1]|] eqn:E; [|discriminate].
    destruct (e1 =? ERR_OK); [|discriminate]. injection G as <- _ _ _.
    assert (Hix : p_index (k_part s (k_cp s)) <= p_index (k_part s1 (k_cp s))).
    { destruct (thread_create_cases cfg _ _ _ _ _ _ E) as [(-> & _)|(_ & _ & _ & _ & th & k & aff & _ & Es & _)]; [lia|].
      rewrite Es. cbn. rewrite upd_same. cbn. lia. }
    unfold activate_error_thread. destruct (_ =? 0); cbn; unfold upd; destruct (Z.eqb_spec (k_cp s) (k_cp s1)) as [<-|]; cbn; exact Hix.
Qed.

(** ** Histories of thread creations *)
Lemma not_restarted_app : forall i l1 l2, not_restarted cfg i (l1 ++ l2) -> not_restarted cfg i l1 /\ not_restarted cfg i l2.
Proof. intros i l1 l2. unfold not_restarted. rewrite forallb_app, andb_true_iff. tauto. Qed.

Lemma create_run : forall ls s s' evs i, kinv cfg s -> krun cfg s ls = Some (s', evs) -> is_part cfg i -> not_restarted cfg i evs ->
  NoDup (made_threads cfg i evs) /\ p_index (k_part s i) <= p_index (k_part s' i) /\
  Z.of_nat (length (made_threads cfg i evs)) <= p_index (k_part s' i) - p_index (k_part s i) /\
  forall id, In id (made_threads cfg i evs) -> low_of cfg i + p_index (k_part s i) <= id < low_of cfg i + p_index (k_part s' i).
Proof.
  induction ls as [|l ls IH]; intros s s' evs i I H Hi Hnr; cbn in H.
  { injection H as <- <-. cbn. split; [constructor|]. repeat split; try lia; contradiction. }
  destruct (kstep cfg s l) as [s1 ev| |] eqn:K; [| |discriminate].
  2:{ now apply IH. }
  destruct (krun cfg s1 ls) as [[s2 ev2]|] eqn:R; [|discriminate]. injection H as <- <-.
  apply not_restarted_app in Hnr. destruct Hnr as (Hn1 & Hn2).
  assert (I1 : kinv cfg s1) by (now apply kstep_inv with s l ev).
  destruct (IH s1 s2 ev2 i I1 R Hi Hn2) as (A1 & A2 & A3 & A4). rewrite made_threads_app.
  destruct (create_step s l s1 ev i I K Hi Hn1) as [(-> & Hx)|(-> & Hx)].
  - cbn [app]. split; [assumption|]. repeat split; try lia; specialize (A4 id H); lia.
  - cbn [app length]. split.
    { constructor; [|assumption]. intros C. specialize (A4 _ C). lia. }
    split; [lia|]. split; [lia|]. intros id [<-|Hid]; [lia|]. specialize (A4 id Hid). lia.
Qed.

Lemma created_ids : forall s ls s' evs i, reachable cfg s -> krun cfg s ls = Some (s', evs) -> is_part cfg i -> not_restarted cfg i evs ->
  NoDup (made_threads cfg i evs) /\ Z.of_nat (length (made_threads cfg i evs)) < c_threads cfg i /\
  forall id, In id (made_threads cfg i evs) ->
    low_of cfg i < id < high_of cfg i /\ forall j, is_part cfg j -> id <> low_of cfg j.
Proof.
  intros s ls s' evs i Hr H Hi Hnr. pose proof (reachable_inv cfg W s Hr) as I.
  assert (I' : kinv cfg s') by (apply (reachable_inv cfg W), (reachable_run cfg ls s s' evs); assumption).
  destruct (create_run ls s s' evs i I H Hi Hnr) as (A1 & A2 & A3 & A4).
  pose proof (po_index _ _ _ (ki_part _ _ I i Hi)). pose proof (po_index _ _ _ (ki_part _ _ I' i Hi)).
  split; [assumption|]. split; [lia|]. intros id Hid. specialize (A4 id Hid). unfold high_of. split; [lia|].
  intros j Hj ->. pose proof (sp_threads _ W j Hj).
  assert (j = i) as ->. { apply (ranges_disjoint cfg W j i (low_of cfg j)); try assumption; unfold thread_of, in_range, high_of; lia. }
  lia.
Qed.

Lemma create_quota : forall s c a s' e id, reachable cfg s -> calls cfg s c (SCreate a) s' e id ->
  is_init (mode_of s (k_cp s)) -> p_index (k_part s (k_cp s)) = c_threads cfg (k_cp s) -> e = ERR_TOOMANY /\ s' = s.
Proof.
  intros s c a s' e id Hr HC Hm Hx. pose proof (reachable_inv cfg W s Hr) as I. apply calls_service in HC.
  destruct HC as (V & U & _ & f & G). cbn in G. destruct (thread_create _ _ _ _) as [[[s1 e1] i1]|] eqn:E; [|discriminate].
  injection G as <- <- _ _. pose proof (ki_part _ _ I _ (ki_cp _ _ I)) as Hok.
  destruct (thread_create_cases cfg _ _ _ _ _ _ E) as [(-> & [(_ & X)|(-> & _)])|(_ & Hid & Hlt & _)].
  - unfold is_init, mode_of in Hm. tauto.
  - auto.
  - rewrite (po_low _ _ _ Hok) in Hid. rewrite (po_high _ _ _ Hok) in Hlt. unfold high_of in Hlt. lia.
Qed.

(** A creation before the quota is used up succeeds when the processor exists. *)
Lemma create_refusals : forall s c a s' e id, reachable cfg s -> calls cfg s c (SCreate a) s' e id -> e <> ERR_OK ->
  s' = s /\ ((e = ERR_MODE /\ ~ is_init (mode_of s (k_cp s))) \/
             (e = ERR_TOOMANY /\ is_init (mode_of s (k_cp s)) /\ p_index (k_part s (k_cp s)) = c_threads cfg (k_cp s))).
Proof.
  intros s c a s' e id Hr HC He. pose proof (reachable_inv cfg W s Hr) as I. apply calls_service in HC.
  destruct HC as (V & U & _ & f & G). cbn in G. destruct (thread_create _ _ _ _) as [[[s1 e1] i1]|] eqn:E; [|discriminate].
  injection G as <- <- _ _. pose proof (ki_part _ _ I _ (ki_cp _ _ I)) as Hok. pose proof (po_index _ _ _ Hok).
  unfold is_init, mode_of.
  destruct (thread_create_cases cfg _ _ _ _ _ _ E) as [(-> & [(-> & X & Y)|(-> & X & Y)])|(-> & _)].
  - split; [reflexivity|]. left. split; [reflexivity|]. tauto.
  - split; [reflexivity|]. right. split; [reflexivity|]. split; [assumption|].
    rewrite (po_low _ _ _ Hok), (po_high _ _ _ Hok) in Y. unfold high_of in Y. lia.
  - contradiction.
Qed.

(** ** NORMAL mode *)

Lemma create_normal : forall s c v s' e id, calls cfg s c v s' e id -> creates v -> mode_of s (k_cp s) = PM_NORMAL ->
  e = ERR_MODE /\ s' = s.
Proof.
  intros s c v s' e id HC Hv Hm. apply calls_service in HC. destruct HC as (_ & _ & _ & f & G). unfold mode_of in Hm.
  destruct v; try contradiction; cbn in G.
  - unfold thread_create in G. rewrite Hm in G. cbn in G. injection G as <- <- _ _. auto.
  - unfold lockobj_create, cur_part in G. rewrite Hm in G. cbn in G. injection G as <- <- _ _. auto.
Qed.
Lemma create_normal_safe : forall s c v, creates v -> mode_of s (k_cp s) = PM_NORMAL -> kstep cfg s (KCall c v) <> KFail.
Proof.
  intros s c v Hv Hm H. cbn in H. destruct (_ && _); [|discriminate]. unfold mode_of in Hm.
  destruct v; try contradiction; cbn in H.
  - unfold thread_create in H. rewrite Hm in H. discriminate.
  - unfold lockobj_create, cur_part in H. rewrite Hm in H. discriminate.
Qed.

(** ** Lock objects *)
Lemma find_free_spec : forall n obj i, match find_free n obj i with
  | Some id => i <= id < i + Z.of_nat n /\ o_init (obj id) = false
  | None => forall j, i <= j < i + Z.of_nat n -> o_init (obj j) = true
  end.
Proof.
  induction n as [|n IH]; intros obj i; cbn [find_free]; [intros; lia|].
  destruct (o_init (obj i)) eqn:E; cbn [negb].
  - specialize (IH obj (i + 1)). destruct (find_free n obj (i + 1)) as [id|].
    + split; [lia|apply IH].
    + intros j Hj. destruct (Z.eq_dec j i) as [->|]; [assumption|]. apply IH. lia.
  - split; [lia|assumption].
Qed.
Lemma obj_create_cases : forall o a o' e, obj_create o a = (o', e) ->
  (e = ERR_OK /\ o_init o' = true /\ (la_kind a = LK_MUTEX \/ la_kind a = LK_SEMAPHORE \/ la_kind a = LK_EVENT) /\
   (0 <= la_lpol a <= 2)) \/
  (e = ERR_LOCKOBJ_POLICY /\ o' = o /\ ~ 0 <= la_lpol a <= 2) \/
  (e = ERR_LOCKOBJ_KIND /\ o' = o /\ ~ (la_kind a = LK_MUTEX \/ la_kind a = LK_SEMAPHORE \/ la_kind a = LK_EVENT)).
Proof.
  intros o a o' e H. unfold obj_create in H.
  destruct (Z.eqb_spec (la_lpol a) 0); [|destruct (Z.eqb_spec (la_lpol a) 1); [|destruct (Z.eqb_spec (la_lpol a) 2)]]; cbn [negb andb] in H.
  4:{ injection H as <- <-. right; left. repeat split; lia. }
  all: (destruct (Z.eqb_spec (la_kind a) LK_MUTEX); [|destruct (Z.eqb_spec (la_kind a) LK_SEMAPHORE); [|destruct (Z.eqb_spec (la_kind a) LK_EVENT)]]);
    cbn [negb andb] in H; injection H as <- <-.
  all: try (left; split; [reflexivity|]; split; [reflexivity|]; split; [tauto|lia]).
  all: right; right; split; [reflexivity|]; split; [reflexivity|]; tauto.
Qed.


Lemma lock_create : forall s c a s' e id, reachable cfg s -> calls cfg s c (SLockCreate a) s' e id ->
  (e = ERR_OK /\ is_init (mode_of s (k_cp s)) /\ lockobj_of cfg (k_cp s) id /\
   o_init (k_obj s id) = false /\ o_init (k_obj s' id) = true /\ (forall o, o <> id -> k_obj s' o = k_obj s o)) \/
  (e <> ERR_OK /\ forall o, k_obj s' o = k_obj s o).
Proof.
  intros s c a s' e id Hr HC. pose proof (reachable_inv cfg W s Hr) as I. pose proof (ki_part _ _ I _ (ki_cp _ _ I)) as Hok.
  apply calls_service in HC. destruct HC as (_ & _ & _ & f & G). cbn in G.
  destruct (lockobj_create s a) as [[s1 e1] i1] eqn:E. injection G as <- <- _ <-. unfold lockobj_create in E.
  destruct (negb _ && negb _) eqn:B. { injection E as <- <- _. right. split; [discriminate|reflexivity]. }
  rewrite andb_false_iff, !negb_false_iff, !Z.eqb_eq in B.
  pose proof (find_free_spec (Z.to_nat (p_lo_high (cur_part s) - p_lo_low (cur_part s))) (k_obj s) (p_lo_low (cur_part s))) as F.
  destruct (find_free _ _ _) as [j|]. 2:{ injection E as <- <- _. right. split; [discriminate|reflexivity]. }
  destruct F as (F1 & F2). destruct (obj_create (k_obj s j) a) as [o e2] eqn:Eo. injection E as <- <- <-.
  destruct (obj_create_cases _ _ _ _ Eo) as [(-> & Hi & _)|[(-> & -> & _)|(-> & -> & _)]].
  - left. split; [reflexivity|]. split; [exact B|]. unfold cur_part in F1. rewrite (po_lo_low _ _ _ Hok), (po_lo_high _ _ _ Hok) in F1.
    pose proof (sp_objs _ W _ (ki_cp _ _ I)). split. { unfold lockobj_of, in_range, lo_high_of in *. lia. }
    split; [assumption|]. cbn. rewrite upd_same. split; [assumption|]. intros x Hx. now apply upd_other.
  - right. split; [discriminate|]. intros x. cbn. unfold upd. now destruct (Z.eqb_spec x j) as [->|].
  - right. split; [discriminate|]. intros x. cbn. unfold upd. now destruct (Z.eqb_spec x j) as [->|].
Qed.

Lemma lock_create_full : forall s c a s' e id, reachable cfg s -> calls cfg s c (SLockCreate a) s' e id ->
  is_init (mode_of s (k_cp s)) -> (forall o, lockobj_of cfg (k_cp s) o -> o_init (k_obj s o) = true) ->
  e = ERR_LOCKOBJ_UNAVAILABLE /\ s' = s.
Proof.
  intros s c a s' e id Hr HC Hm Hall. pose proof (reachable_inv cfg W s Hr) as I. pose proof (ki_part _ _ I _ (ki_cp _ _ I)) as Hok.
  apply calls_service in HC. destruct HC as (_ & _ & _ & f & G). cbn in G.
  destruct (lockobj_create s a) as [[s1 e1] i1] eqn:E. injection G as <- <- _ _. unfold lockobj_create in E.
  destruct (negb _ && negb _) eqn:B.
  { exfalso. rewrite andb_true_iff, !negb_true_iff, !Z.eqb_neq in B. unfold is_init, mode_of in Hm. unfold cur_part in B. tauto. }
  pose proof (find_free_spec (Z.to_nat (p_lo_high (cur_part s) - p_lo_low (cur_part s))) (k_obj s) (p_lo_low (cur_part s))) as F.
  destruct (find_free _ _ _) as [j|].
  - destruct F as (F1 & F2). unfold cur_part in F1. rewrite (po_lo_low _ _ _ Hok), (po_lo_high _ _ _ Hok) in F1.
    pose proof (sp_objs _ W _ (ki_cp _ _ I)). rewrite Hall in F2; [discriminate|]. unfold lockobj_of, in_range, lo_high_of in *. lia.
  - injection E as <- <- _. auto.
Qed.

(** In INIT mode with a free object and valid attributes the creation succeeds. *)
Lemma lock_create_ok : forall s c a s' e id, reachable cfg s -> calls cfg s c (SLockCreate a) s' e id ->
  is_init (mode_of s (k_cp s)) -> valid_lattr a ->
  (exists o, lockobj_of cfg (k_cp s) o /\ o_init (k_obj s o) = false) -> e = ERR_OK.
Proof.
  intros s c a s' e id Hr HC Hm (Hk & Hp) (o & Ho & Hfree). pose proof (reachable_inv cfg W s Hr) as I. pose proof (ki_part _ _ I _ (ki_cp _ _ I)) as Hok.
  apply calls_service in HC. destruct HC as (_ & _ & _ & f & G). cbn in G.
  destruct (lockobj_create s a) as [[s1 e1] i1] eqn:E. injection G as <- <- _ _. unfold lockobj_create in E.
  destruct (negb _ && negb _) eqn:B.
  { exfalso. rewrite andb_true_iff, !negb_true_iff, !Z.eqb_neq in B. unfold is_init, mode_of in Hm. unfold cur_part in B. tauto. }
  pose proof (find_free_spec (Z.to_nat (p_lo_high (cur_part s) - p_lo_low (cur_part s))) (k_obj s) (p_lo_low (cur_part s))) as F.
  destruct (find_free _ _ _) as [j|].
  - destruct (obj_create (k_obj s j) a) as [o2 e2] eqn:Eo. injection E as <- <- <-.
    destruct (obj_create_cases _ _ _ _ Eo) as [(-> & _)|[(_ & _ & X)|(_ & _ & X)]]; tauto.
  - rewrite F in Hfree; [discriminate|]. unfold cur_part. rewrite (po_lo_low _ _ _ Hok), (po_lo_high _ _ _ Hok).
    unfold lockobj_of, in_range in Ho. lia.
Qed.

Lemma made_run : forall ls s s' evs, kinv cfg s -> own cfg s -> reachable cfg s -> krun cfg s ls = Some (s', evs) ->
  NoDup (made_objs evs) /\ (forall id, In id (made_objs evs) -> o_init (k_obj s id) = false /\ o_init (k_obj s' id) = true) /\
  (forall o, o_init (k_obj s o) = true -> o_init (k_obj s' o) = true).
Proof.
  induction ls as [|l ls IH]; intros s s' evs I O Hr H; cbn in H.
  { injection H as <- <-. cbn. split; [constructor|]. split; [contradiction|auto]. }
  destruct (kstep cfg s l) as [s1 ev| |] eqn:K; [| |discriminate].
  2:{ now apply IH. }
  destruct (krun cfg s1 ls) as [[s2 ev2]|] eqn:R; [|discriminate]. injection H as <- <-.
  assert (I1 : kinv cfg s1) by (now apply kstep_inv with s l ev).
  pose proof (step_objs cfg W s l s1 ev I O K) as [O1 _ Hi1].
  assert (Hr1 : reachable cfg s1). { apply (reachable_run cfg [l] s s1 (ev ++ [])); [assumption|]. cbn. now rewrite K. }
  destruct (IH s1 s2 ev2 I1 O1 Hr1 R) as (A1 & A2 & A3). rewrite made_objs_app.
  assert (Hev : made_objs ev = [] \/ exists id, made_objs ev = [id] /\ o_init (k_obj s id) = false /\ o_init (k_obj s1 id) = true).
  { destruct l as [d|c|c|c v|c]; [left; cbn in K|left; cbn in K|left; cbn in K| |].
    - destruct (0 <? d); [|discriminate]. injection K as _ <-. reflexivity.
    - destruct (valid_proc _ _); [|discriminate]. destruct (global_sched _ _ _) as [[s3 f]|]; [|discriminate]. injection K as _ <-. reflexivity.
    - destruct (valid_proc _ _); [|discriminate]. destruct (sched_thread _ _ _); [|discriminate]. injection K as _ <-. reflexivity.
    - destruct (step_call cfg _ _ _ _ _ K) as (e & id & f & -> & HC). destruct v; try (left; reflexivity).
      cbn. destruct (lock_create s c a s1 e id Hr HC) as [(-> & _ & _ & X & Y & _)|(He & _)].
      + right. exists id. auto.
      + left. destruct (Z.eqb_spec e ERR_OK); [contradiction|reflexivity].
    - left. cbn in K. destruct (_ && _); [|discriminate]. destruct (lock_continue _ _ _) as [[[s3 e] f]|]; [|discriminate]. injection K as _ <-. reflexivity. }
  destruct Hev as [->|(id & -> & X & Y)]; cbn [app].
  - split; [assumption|]. split; [|auto]. intros o Ho. destruct (A2 o Ho) as (B1 & B2). split; [|assumption].
    destruct (o_init (k_obj s o)) eqn:Eo; [|reflexivity]. apply Hi1 in Eo. congruence.
  - split. { constructor; [|assumption]. intros C. destruct (A2 id C) as (B1 & _). congruence. }
    split; [|auto]. intros o [<-|Ho]; [split; [assumption|now apply A3]|]. destruct (A2 o Ho) as (B1 & B2). split; [|assumption].
    destruct (o_init (k_obj s o)) eqn:Eo; [|reflexivity]. apply Hi1 in Eo. congruence.
Qed.

Lemma made_distinct : forall s ls s' evs, reachable cfg s -> krun cfg s ls = Some (s', evs) -> NoDup (made_objs evs).
Proof.
  intros s ls s' evs Hr H. apply (made_run ls s s' evs (reachable_inv cfg W s Hr) (reachable_own cfg W s Hr) Hr H).
Qed.

(** ** Operations on lock objects *)
Lemma lock_op : forall s c o kind op s' e id, reachable cfg s -> calls cfg s c (SLockOp o kind op) s' e id ->
  (e = ERR_EINVAL /\ s' = s) \/
  (lockobj_of cfg (k_cp s) o /\ forall x, x <> o -> k_obj s' x = k_obj s x).
Proof.
  intros s c o kind op s' e id Hr HC. pose proof (reachable_inv cfg W s Hr) as I. pose proof (ki_part _ _ I _ (ki_cp _ _ I)) as Hok.
  apply calls_service in HC. destruct HC as (V & U & _ & f & G). cbn in G. inv_no G. unfold lock_wrapper, cur_part in E.
  rewrite (po_lo_low _ _ _ Hok), (po_lo_high _ _ _ Hok) in E.
  destruct (Z.ltb_spec o (lo_low_of cfg (k_cp s))) as [|L1]. { injection E as <- <- _. auto. }
  destruct (Z.leb_spec (lo_high_of cfg (k_cp s)) o) as [|L2]. { injection E as <- <- _. auto. }
  destruct (negb _). { injection E as <- <- _. auto. }
  destruct op as [op|]. 2:{ injection E as <- <- _. auto. }
  right. split; [unfold lockobj_of, in_range; lia|].
  destruct (lock_service_put cfg c o op s _ _ _ I V E) as (ob & th & k9 & ph & R & _).
  destruct (phase_keeps cfg W c ph _ _ (lock_put_inv cfg c o s ob th k9 I) V R) as (_ & -> & _).
  intros x Hx. cbn. now apply upd_other.
Qed.

Lemma foreign_objs : forall s l s' ev o, reachable cfg s -> kstep cfg s l = KNext s' ev -> ~ lockobj_of cfg (k_cp s) o ->
  k_obj s' o = k_obj s o.
Proof.
  intros s l s' ev o Hr H Ho. apply (oo_out _ _ _ (step_objs cfg W s l s' ev (reachable_inv cfg W s Hr) (reachable_own cfg W s Hr) H)). assumption.
Qed.

(** ** NORMAL mode along executions *)

Lemma create_normal_step : forall s l s' ev i, reachable cfg s -> kstep cfg s l = KNext s' ev -> is_part cfg i ->
  mode_of s i = PM_NORMAL -> mode_of s' i = PM_NORMAL ->
  p_index (k_part s' i) = p_index (k_part s i) /\ (forall o, lockobj_of cfg i o -> o_init (k_obj s' o) = o_init (k_obj s o)) /\
  refusals cfg i ev.
Proof.
  intros s l s' ev i Hr H Hi Hm Hm'. pose proof (reachable_inv cfg W s Hr) as I. destruct (part_step cfg W s l s' ev I H) as (P1 & P2).
  assert (Hk : forall j, pkey (k_part s' j) = pkey (k_part s j) -> p_index (k_part s' j) = p_index (k_part s j)).
  { intros j E. unfold pkey in E. congruence. }
  pose proof (reachable_own cfg W s Hr) as O.
  destruct l as [d|c|c|c v|c].
  1,2,3: (split; [apply Hk, (P2 Logic.I)|]).
  1:{ cbn in H. destruct (0 <? d); [|discriminate]. injection H as <- <-. split; [reflexivity|intros ? ? ? ? ? []]. }
  1:{ cbn in H. destruct (valid_proc cfg c) eqn:V; [|discriminate]. apply valid_proc_is in V.
      destruct (global_sched cfg c s) as [[s1 f]|] eqn:G; [|discriminate]. injection H as <- <-.
      destruct (phase_keeps cfg W c PhGlobal s s1 I V (ex_intro _ f G)) as (_ & -> & _). split; [reflexivity|].
      intros ? ? ? ? ? [C|[]]. discriminate. }
  1:{ cbn in H. destruct (valid_proc cfg c) eqn:V; [|discriminate]. apply valid_proc_is in V.
      destruct (sched_thread cfg c s) as [s1|] eqn:G; [|discriminate]. injection H as <- <-.
      destruct (phase_keeps cfg W c PhThread s s1 I V G) as (_ & -> & _). split; [reflexivity|]. intros ? ? ? ? ? []. }
  - destruct (step_call cfg _ _ _ _ _ H) as (e & id & f & -> & HC). pose proof HC as HS. apply calls_service in HS.
    destruct HS as (V & U & _ & f2 & G). destruct (caller_is cfg s c I V U) as (Hcall & _).
    assert (Hcr : refusals cfg i [XRet c (k_cur s c) v e id; XFlush f]).
    { intros c0 t v0 e0 id0 [E|[E|[]]] Hv Ht; [|discriminate]. injection E as <- <- <- <- <-.
      assert (i = k_cp s) as -> by (now apply (ranges_disjoint cfg W i (k_cp s) (k_cur s c) Hi (ki_cp _ _ I))).
      exact (proj1 (create_normal s c v s' e id HC Hv Hm)). }
    split; [|split; [|exact Hcr]].
    + destruct (changes_part v) eqn:CP. 2:{ apply Hk, (P2 eq_refl). }
      destruct (Z.eq_dec i (k_cp s)) as [->|Hne]. 2:{ apply Hk, (P1 _ Hne). }
      destruct v; try discriminate.
      * destruct (create_normal s c _ s' e id HC Logic.I Hm) as (_ & ->). reflexivity.
      * cbn in G. inv_no G. unfold set_mode_current in E. destruct (negb (k_cur s c =? p_main (cur_part s)) && _). { injection E as <- _ _. reflexivity. }
        destruct (set_mode_spec cfg W _ _ _ _ _ _ I V E) as [(_ & ->)|(-> & A & _ & B)]; [reflexivity|]. unfold cur_part in B.
        destruct B as [(_ & _ & B & _)|[(_ & _ & B & _)|(Hmm & _)]]; try assumption.
        rewrite Hm' in A. subst mode. destruct Hmm; discriminate.
      * exfalso. cbn in G. unfold mode_of in Hm. unfold thread_create in G. rewrite Hm in G. discriminate.
    + intros o Ho. destruct (Z.eq_dec i (k_cp s)) as [->|Hne].
      2:{ f_equal. apply (foreign_objs s (KCall c v) s' _ o Hr H). intros C. apply Hne. now apply (lo_ranges_disjoint cfg W i (k_cp s) o Hi (ki_cp _ _ I)). }
      destruct (service_objs cfg W c v s s' e f2 id I O V U G) as (_ & X).
      destruct v; try (now rewrite X).
      * destruct (create_normal s c _ s' e id HC Logic.I Hm) as (_ & ->). reflexivity.
      * cbn in G. inv_no G. unfold lock_wrapper in E.
        destruct (_ <? _). { injection E as <- _ _. reflexivity. }
        destruct (_ <=? _). { injection E as <- _ _. reflexivity. }
        destruct (negb _). { injection E as <- _ _. reflexivity. }
        destruct o0 as [op|]. 2:{ injection E as <- _ _. reflexivity. }
        destruct (lock_service_put cfg c _ op s _ _ _ I V E) as (ob & th & k9 & ph & R & Ei & _).
        destruct (phase_keeps cfg W c ph _ _ (lock_put_inv cfg c _ s ob th k9 I) V R) as (_ & -> & _).
        cbn. unfold upd. destruct (Z.eqb_spec o id0) as [->|]; [assumption|reflexivity].
  - split; [apply Hk, (P2 Logic.I)|]. cbn in H. destruct (valid_proc cfg c) eqn:V; [|discriminate]. apply valid_proc_is in V.
    destruct (user_thread cfg (k_cur s c)) eqn:U; [|discriminate]. destruct (negb (is_user _)); [|discriminate]. cbn in H.
    destruct (lock_continue cfg c s) as [[[s1 e] f]|] eqn:G; [|discriminate]. injection H as <- <-.
    split. 2:{ intros ? ? ? ? ? [C|[C|[]]]; discriminate. }
    intros o _. destruct (lock_continue_put cfg c s s1 e f I V G) as [->|(id & ob & th & k9 & ph & R & Ei & _)]; [reflexivity|].
    destruct (phase_keeps cfg W c ph _ _ (lock_put_inv cfg c _ s ob th k9 I) V R) as (_ & -> & _).
    cbn. unfold upd. destruct (Z.eqb_spec o id) as [->|]; [assumption|reflexivity].
Qed.

Lemma stays_head : forall i s ls, stays_normal cfg i s ls -> mode_of s i = PM_NORMAL.
Proof. intros i s ls H. destruct ls; apply H. Qed.

Lemma create_normal_run : forall ls s s' evs i, reachable cfg s -> krun cfg s ls = Some (s', evs) -> is_part cfg i ->
  stays_normal cfg i s ls ->
  p_index (k_part s' i) = p_index (k_part s i) /\ (forall o, lockobj_of cfg i o -> o_init (k_obj s' o) = o_init (k_obj s o)) /\
  refusals cfg i evs.
Proof.
  induction ls as [|l ls IH]; intros s s' evs i Hr H Hi Hs; cbn in H.
  { injection H as <- <-. split; [reflexivity|]. split; [reflexivity|]. intros ? ? ? ? ? []. }
  pose proof (stays_head _ _ _ Hs) as Hm. cbn in Hs. destruct Hs as (_ & Hs).
  destruct (kstep cfg s l) as [s1 ev| |] eqn:K; [| |discriminate].
  2:{ now apply IH. }
  destruct (krun cfg s1 ls) as [[s2 ev2]|] eqn:R; [|discriminate]. injection H as <- <-.
  assert (Hr1 : reachable cfg s1). { apply (reachable_run cfg [l] s s1 (ev ++ [])); [assumption|]. cbn. now rewrite K. }
  destruct (create_normal_step s l s1 ev i Hr K Hi Hm (stays_head _ _ _ Hs)) as (A1 & A2 & A3).
  destruct (IH s1 s2 ev2 i Hr1 R Hi Hs) as (B1 & B2 & B3).
  split; [congruence|]. split. { intros o Ho. rewrite B2 by assumption. now apply A2. }
  intros c t v e id Hin Hv Ht. apply in_app_or in Hin. destruct Hin; [now apply (A3 c t v e id)|now apply (B3 c t v e id)].
Qed.
End Create.
