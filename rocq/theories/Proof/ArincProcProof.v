(** The process services as sequences of system calls. *)
From Verif Require Import Model.Base Model.State Model.LockFifo Model.LockObj Model.LockSys Model.Sched Model.Kernel Model.Arinc
  Spec.SchedSpec Spec.KernelSpec Spec.ArincProcSpec Proof.Tac Proof.ElectProof Proof.ServiceProof Proof.KernelInv
  Proof.ThreadFrame Proof.DelayProof.

Lemma exec_status : forall cfg c junk id k s s' e, exec cfg c junk (AskStatus id k) s = Some (s', e) ->
  (in_bounds s id = true /\ exec cfg c junk (k 0 (status_of (k_th s id))) s = Some (s', e)) \/
  (in_bounds s id = false /\ exec cfg c junk (k ERR_PARAM junk) s = Some (s', e)).
Proof.
  intros cfg c junk id k s s' e H. cbn [exec] in H.
  destruct (kstep cfg s (KCall c (SStatus id))) as [s1 ev| |] eqn:K; try discriminate.
  unfold kstep in K. destruct (_ && _ && _) in K; [|discriminate].
  destruct (service cfg c (SStatus id) s) as [[[[s2 e2] f2] i2]|] eqn:E; [|discriminate].
  injection K as -> <-. unfold service in E. cbv zeta in E. destruct (in_bounds s id).
  - left. split; [reflexivity|]. destruct (get_proc_partition_id _ _); [|discriminate].
    unfold ret in E. injection E as <- <- _ _. change (ERR_OK =? ERR_OK) with true in H. exact H.
  - right. split; [reflexivity|]. unfold ret in E. injection E as <- <- _ _. exact H.
Qed.

Lemma exec_last : forall cfg c junk v g s s' e, exec cfg c junk (Ask v (fun r => Fin (g r))) s = Some (s', e) ->
  exists r id, calls cfg s c v s' r id /\ e = g r.
Proof.
  intros cfg c junk v g s s' e H. cbn [exec] in H.
  destruct (kstep cfg s (KCall c v)) as [s1 ev| |] eqn:K; try discriminate.
  assert (X : exists r id f, ev = [XRet c (k_cur s c) v r id; XFlush f]).
  { unfold kstep in K. destruct (_ && _ && _) in K; [|discriminate].
    destruct (service cfg c v s) as [[[[s2 e2] f2] i2]|]; [|discriminate]. injection K as _ <-. eauto. }
  destruct X as (r & id & f & ->). injection H as -> <-. exists r, id. split; [|reflexivity]. exists f. exact K.
Qed.

Lemma forever_period : forall t, t_period t = INFINITE -> st_period (status_of t) = FOREVER.
Proof. intros t E. unfold status_of. cbn [st_period]. rewrite E. reflexivity. Qed.

Section P.
Variable cfg : config.
Hypothesis W : supported cfg.

Lemma own_in : forall s j t, reachable cfg s -> own_process cfg j t s -> in_bounds s t = true.
Proof.
  intros s j t Hr (Hj & Ht & Hc & Hcp). pose proof (reachable_inv cfg W s Hr) as I.
  refine (own_bounds cfg j t Ht _ s I Hcp). destruct Hc. lia.
Qed.

Lemma suspend_effect : forall s c junk j t s' e, reachable cfg s -> own_process cfg j t s ->
  exec cfg c junk (apex_suspend t) s = Some (s', e) ->
  (e <> 0 /\ s' = s) \/
  (e = 0 /\ only_state t ST_STOPPED s s' /\ t <> k_cur s c /\
   t_state (k_th s t) <> ST_STOPPED /\ t_state (k_th s t) <> ST_LOCK /\ t_period (k_th s t) <> INFINITE).
Proof.
  intros s c junk j t s' e Hr Ho H. unfold apex_suspend in H.
  apply exec_status in H. rewrite (own_in s j t Hr Ho) in H. destruct H as [(_ & H)|(H & _)]; [|discriminate].
  unfold status_of at 1 in H. cbn [st_state] in H.
  destruct (Z.eqb_spec (t_state (k_th s t)) AP_DORMANT) as [D|D].
  { injection H as <- <-. left. split; [discriminate|reflexivity]. }
  destruct (Z.eqb_spec (st_period (status_of (k_th s t))) FOREVER) as [P|P].
  { injection H as <- <-. left. split; [discriminate|reflexivity]. }
  unfold status_of at 1 in H. cbn [st_state] in H.
  destruct (Z.eqb_spec (t_state (k_th s t)) AP_WAITING) as [L|L].
  { injection H as <- <-. left. split; [discriminate|reflexivity]. }
  apply (exec_last cfg c junk _ (fun r => r)) in H. destruct H as (r & id & HC & ->).
  apply calls_service in HC. destruct HC as (_ & _ & _ & f & G). unfold service in G. cbv zeta in G.
  rewrite (own_in s j t Hr Ho) in G. destruct (Z.eqb_spec t (k_cur s c)) as [T|T]; cbn [negb andb] in G; unfold ret in G.
  - injection G as <- <- _ _. left. split; [discriminate|reflexivity].
  - injection G as <- <- _ _. right. split; [reflexivity|]. split; [reflexivity|]. split; [exact T|].
    split; [exact D|]. split; [exact L|]. intros E. apply P. now apply forever_period.
Qed.

Lemma resume_effect : forall s c junk j t s' e, reachable cfg s -> own_process cfg j t s ->
  exec cfg c junk (apex_resume t) s = Some (s', e) ->
  (e = INVALID_MODE /\ s' = s /\
   (t_state (k_th s t) <> ST_LOCK \/ st_period (status_of (k_th s t)) = FOREVER)) \/
  (e = 0 /\ t_state (k_th s t) = ST_LOCK /\ t_period (k_th s t) <> INFINITE /\
   exists r id, calls cfg s c (SResume t) s' r id).
Proof.
  intros s c junk j t s' e Hr Ho H. unfold apex_resume in H.
  apply exec_status in H. rewrite (own_in s j t Hr Ho) in H. destruct H as [(_ & H)|(H & _)]; [|discriminate].
  cbn [Z.eqb negb] in H. unfold status_of at 1 in H. cbn [st_state] in H.
  destruct (Z.eqb_spec (t_state (k_th s t)) AP_DORMANT) as [D|D].
  { injection H as <- <-. left. split; [reflexivity|]. split; [reflexivity|]. left. rewrite D. discriminate. }
  destruct (Z.eqb_spec (st_period (status_of (k_th s t))) FOREVER) as [P|P].
  { injection H as <- <-. left. auto. }
  unfold status_of at 1 in H. cbn [st_state] in H.
  destruct (Z.eqb_spec (t_state (k_th s t)) AP_WAITING) as [L|L]; cbn [negb] in H.
  2:{ injection H as <- <-. left. auto. }
  apply (exec_last cfg c junk _ (fun r => r)) in H. destruct H as (r & id & HC & ->).
  right. pose proof HC as HC0. apply calls_service in HC. destruct HC as (_ & _ & _ & f & G). unfold service in G. cbv zeta in G.
  rewrite (own_in s j t Hr Ho) in G. unfold then_global in G.
  destruct (global_sched _ _ _) as [[s2 f2]|]; [|discriminate]. injection G as _ <- _ _.
  split; [reflexivity|]. split; [exact L|]. split; [|eauto].
  intros E. apply P. now apply forever_period.
Qed.

Lemma stop_denied : forall s c junk t s' e, exec cfg c junk (apex_stop t) s = Some (s', e) ->
  k_cur s c <> p_error (k_part s (k_cp s)) -> e = ERR_THREAD /\ s' = s.
Proof.
  intros s c junk t s' e H Hne. apply (exec_last cfg c junk _ (fun r => r)) in H. destruct H as (r & id & HC & ->).
  apply calls_service in HC. destruct HC as (_ & _ & _ & f & G). unfold service in G. cbv zeta in G.
  unfold cur_part in G. destruct (Z.eqb_spec (k_cur s c) (p_error (k_part s (k_cp s)))) as [E|_]; [contradiction|].
  cbn [negb] in G. unfold ret in G. injection G as <- <- _ _. auto.
Qed.

Lemma start_effect : forall s c junk j t d s' e, reachable cfg s -> own_process cfg j t s ->
  exec cfg c junk (apex_delayed_start t d) s = Some (s', e) ->
  (e <> 0 /\ s' = s /\ (t_state (k_th s t) <> ST_STOPPED \/ d = -1)) \/
  (e = 0 /\ t_state (k_th s t) = ST_STOPPED /\ d <> -1 /\ exists id, calls cfg s c (SDelayedStart t (u32 d)) s' ERR_OK id).
Proof.
  intros s c junk j t d s' e Hr Ho H. unfold apex_delayed_start in H.
  apply exec_status in H. rewrite (own_in s j t Hr Ho) in H. destruct H as [(_ & H)|(H & _)]; [|discriminate].
  change (0 =? ERR_OK) with true in H. cbn [negb] in H. unfold status_of at 1 in H. cbn [st_state] in H.
  destruct (Z.eqb_spec (t_state (k_th s t)) AP_DORMANT) as [D|D]; cbn [negb] in H.
  2:{ injection H as <- <-. left. split; [discriminate|]. auto. }
  destruct (Z.eqb_spec d (-1)) as [E|E].
  { injection H as <- <-. left. split; [discriminate|]. auto. }
  apply (exec_last cfg c junk _ (fun r => if r =? ERR_OK then NO_ERROR else INVALID_PARAM)) in H.
  destruct H as (r & id & HC & ->). right.
  assert (R : r = ERR_OK).
  { apply calls_service in HC. destruct HC as (_ & _ & _ & f & G). unfold service in G. cbv zeta in G.
    rewrite (own_in s j t Hr Ho) in G. destruct (_ && _) in G.
    - unfold then_global in G. destruct (global_sched _ _ _) as [[s2 f2]|]; [|discriminate]. injection G as _ <- _ _. reflexivity.
    - unfold ret in G. injection G as _ <- _ _. reflexivity. }
  subst r. split; [reflexivity|]. split; [exact D|]. split; [exact E|]. eauto.
Qed.

Lemma priority_effect : forall s c junk j t p s' e, reachable cfg s -> own_process cfg j t s ->
  exec cfg c junk (apex_set_priority t p) s = Some (s', e) ->
  (e <> 0 /\ s' = s /\ (~ 1 <= p <= 63 \/ t_state (k_th s t) = ST_STOPPED)) \/
  (e = 0 /\ 1 <= p <= 63 /\ t_state (k_th s t) <> ST_STOPPED /\ t_priority (k_th s' t) = p /\
   forall u, u <> t -> attributes (k_th s' u) = attributes (k_th s u)).
Proof.
  intros s c junk j t p s' e Hr Ho H. unfold apex_set_priority in H.
  apply exec_status in H. rewrite (own_in s j t Hr Ho) in H. destruct H as [(_ & H)|(H & _)]; [|discriminate].
  change (0 =? ERR_OK) with true in H. cbn [negb] in H.
  destruct ((MAX_PRIORITY <? p) || (p <? MIN_PRIORITY)) eqn:P.
  { injection H as <- <-. left. split; [discriminate|]. split; [reflexivity|]. left.
    apply orb_true_iff in P. unfold MAX_PRIORITY, MIN_PRIORITY in P. destruct P as [P|P]; apply Z.ltb_lt in P; lia. }
  apply orb_false_iff in P. unfold MAX_PRIORITY, MIN_PRIORITY in P. destruct P as (P1 & P2). apply Z.ltb_ge in P1, P2.
  unfold status_of at 1 in H. cbn [st_state] in H.
  destruct (Z.eqb_spec (t_state (k_th s t)) AP_DORMANT) as [D|D].
  { injection H as <- <-. left. split; [discriminate|]. auto. }
  apply (exec_last cfg c junk _ (fun r => r)) in H. destruct H as (r & id & HC & ->). right.
  pose proof (reachable_inv cfg W s Hr) as I. pose proof Ho as (Hj & Ht & Hcr & Hcp).
  assert (Hh : t <> high_of cfg (k_cp s)) by (rewrite Hcp; destruct Ht; lia).
  assert (A : forall u, u <> t -> attributes (k_th s' u) = attributes (k_th s u)).
  { destruct (named_service cfg W s c _ s' r id t Hr HC eq_refl Hh) as [(_ & ->)|(_ & _ & A & _)]; [reflexivity|exact A]. }
  apply calls_service in HC. destruct HC as (V & _ & _ & f & G). unfold service in G. cbv zeta in G.
  rewrite (own_in s j t Hr Ho) in G. unfold then_global in G.
  destruct (global_sched _ _ _) as [[s2 f2]|] eqn:GS; [|discriminate]. injection G as <- <- _ _.
  assert (I1 : kinv cfg (on_th t (set_t_priority (u8 p)) s)) by (apply kinv_th; exact I).
  destruct (phase_statics cfg W c PhGlobal _ s2 I1 V (ex_intro _ f2 GS) t) as (_ & B).
  split; [reflexivity|]. split; [lia|]. split; [exact D|]. split; [|exact A].
  rewrite B. unfold on_th. cbn. rewrite upd_same. cbn. unfold u8. apply Z.mod_small. lia.
Qed.
End P.
