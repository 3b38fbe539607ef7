(** What is fixed once a port is created, and the calls that wait. *)
From Verif Require Import Model.Base Model.Port Spec.PortSpec Proof.Tac Proof.PortRing Proof.PortInv.

(** Created ports keep their identity. *)
Definition keeps (s s' : pstate) : Prop := forall id, pt_ready (ps_port s id) = true -> same_id (ps_port s id) (ps_port s' id).
Lemma keeps_refl s : keeps s s. Proof. intros id _. apply same_id_refl. Qed.
Lemma effect_keeps P W s s' : effect P W s s' -> keeps s s'.
Proof. intros (_ & I & _) id _. apply I. Qed.
Lemma create_keeps cfg part nm sz d kd s sx ex ox g : 0 <= q_nports cfg -> port_create cfg part nm sz d kd s = (sx, ex, ox) ->
  keeps s sx /\ (ex = ERR_OK -> forall id, ox = Some id -> keeps s (on_port id g sx)).
Proof.
  intros Hn Cr. destruct (create_cases _ _ _ _ _ _ _ _ _ _ Hn Cr) as [[-> Ne]|X]; [split; [apply keeps_refl|congruence]|].
  destruct X as (id & -> & -> & _ & _ & _ & _ & Nr & _ & _ & _ & _ & _ & Oth & _).
  assert (K : forall i, pt_ready (ps_port s i) = true -> i <> id) by (intros i H; congruence). split.
  - intros i H. rewrite Oth by (apply K; exact H). apply same_id_refl.
  - intros _ id' [= <-] i H. cbn [ps_port on_port]. rewrite upd_other by (apply K; exact H). rewrite Oth by (apply K; exact H). apply same_id_refl.
Qed.
Lemma call_keeps cfg now part r s s' : 0 <= q_nports cfg -> pinv cfg s ->
  (exists e o, port_call cfg now part r s = PRet s' e o) \/ (exists w, port_call cfg now part r s = PWait s' w) -> keeps s s'.
Proof.
  intros Hn I H. destruct (rid r) as [id|] eqn:R.
  - pose proof (eff_call cfg now part r id s (pi_shape _ _ I) R) as E.
    destruct H as [(e & o & H)|(w & H)]; rewrite H in E; exact (effect_keeps _ _ _ _ E).
  - destruct r; cbn [rid port_call] in *; try discriminate.
    + unfold sampling_create in H. destruct (port_create cfg part name (u32 size) (u8 dir) PK_SAMPLING s) as [[s1 e1] o1] eqn:C.
      destruct (create_keeps _ _ _ _ _ _ _ _ _ _ (set_pt_fresh (u32 refresh) 0) Hn C) as [K1 K2].
      destruct o1 as [i|]; [destruct (e1 =? ERR_OK) eqn:E|]; (destruct H as [(e & o & H)|(w & H)]; [|discriminate]); injection H as <- _ _; auto. apply K2; auto. lia.
    + unfold queueing_create in H. destruct (negb fifo); [destruct H as [(e & o & [= <- _ _])|(w & H)]; [apply keeps_refl|discriminate]|].
      destruct (port_create cfg part name (u32 size) (u8 dir) PK_QUEUEING s) as [[s1 e1] o1] eqn:C.
      destruct (create_keeps _ _ _ _ _ _ _ _ _ _ (fun p => set_pt_fresh (pt_refresh p) (pt_last p) p) Hn C) as [K1 K2].
      destruct o1 as [i|]; [destruct (e1 =? ERR_OK) eqn:E|]; (destruct H as [(e & o & H)|(w & H)]; [|discriminate]); injection H as <- _ _; auto. apply K2; auto. lia.
    + unfold virtual_node in H. destruct (_ <=? _); destruct H as [(e & o & H)|(w & H)]; try discriminate. injection H as <- _ _. apply keeps_refl.
Qed.
Lemma step_keeps cfg s ws l s' ws' ev : 0 <= q_nports cfg -> pinv cfg s -> waits_ok ws -> pstep cfg (s, ws) l = Some ((s', ws'), ev) -> keeps s s'.
Proof.
  intros Hn I W. destruct l as [part now r|k now|part now|active now]; cbn [pstep].
  - destruct (port_call cfg now part r s) as [s1 e o|s1 w| |] eqn:C; try discriminate; intros [= <- <- _]; [eapply call_keeps; eauto|eapply call_keeps; eauto|apply keeps_refl].
  - destruct (nth_error ws k) as [w|] eqn:N; [|intros [= <- <- _]; apply keeps_refl].
    assert (Hw : 0 <= wlen w) by (apply nth_error_In in N; unfold waits_ok in W; rewrite Forall_forall in W; auto).
    pose proof (eff_resume s (pi_shape _ _ I) now w Hw) as E.
    destruct (resume_call now w s) as [s1 e o|s1 w1| |] eqn:C; try discriminate; intros [= <- <- _]; [exact (effect_keeps _ _ _ _ E)|exact (effect_keeps _ _ _ _ E)|apply keeps_refl].
  - destruct (flush_partition cfg now part s) as [s1|] eqn:F; [|discriminate]. intros [= <- <- _].
    exact (effect_keeps _ _ _ _ (flush_partition_effect _ _ _ _ _ (pi_shape _ _ I) F)).
  - destruct (flush_all cfg active now s) as [s1|] eqn:F; [|discriminate]. intros [= <- <- _].
    exact (effect_keeps _ _ _ _ (flush_parts_effect _ _ _ _ _ _ _ (pi_shape _ _ I) F)).
Qed.

(** A waiting call has passed all tests. *)
Definition wait_ok (cfg : pconfig) (s : pstate) (w : pcall) : Prop :=
  0 <= wid w < q_nports cfg /\ pt_ready (ps_port s (wid w)) = true /\ pt_kind (ps_port s (wid w)) = PK_QUEUEING /\
  match w with
  | WSend part id _ len _ _ => 0 < len <= pt_size (ps_port s id) /\ pt_dir (ps_port s id) = DIR_OUT /\ q_owner cfg id = part
  | WRecv part id n _ _ => 0 < n /\ pt_dir (ps_port s id) = DIR_IN /\ q_owner cfg id = part
  end.
Lemma wait_keeps cfg s s' w : keeps s s' -> wait_ok cfg s w -> wait_ok cfg s' w.
Proof.
  intros K (A & B & C & D). destruct (K _ B) as (_ & _ & S & Dr & R & Kd & _). unfold wait_ok. rewrite <- R, <- Kd.
  split; [exact A|]. split; [exact B|]. split; [exact C|]. destruct w; cbn [wid] in *; rewrite <- ?S, <- Dr; exact D.
Qed.
Lemma own_true cfg part id : 0 <= id -> own_port cfg part id = Some true -> 0 <= id < q_nports cfg /\ q_owner cfg id = part.
Proof.
  intros H. unfold own_port. destruct (_ <? id) eqn:A; [discriminate|]. destruct (_ =? _) eqn:B; [discriminate|].
  intros [= E]. lia.
Qed.
Lemma call_wait_ok cfg now part r s s' w : port_call cfg now part r s = PWait s' w -> wait_ok cfg s w.
Proof.
  destruct r; cbn [port_call].
  - unfold sampling_create. destruct (port_create _ _ _ _ _ _ _) as [[s1 e] [i|]]; [destruct (e =? ERR_OK)|]; discriminate.
  - cut_if A. unfold sampling_write, owned. cut_if A1. destruct (own_port _ _ _) as [[]|]; try discriminate. cut_if A2. cut_if A3. cut_if A4. cbv zeta.
    unfold lock_port. cut_if A5; [|cut_if A6]; destruct (write_port _ _ _ _ _) as [[]|]; discriminate.
  - unfold sampling_read, owned. cut_if A1. destruct (own_port _ _ _) as [[]|]; try discriminate. cut_if A2. cut_if A3. cut_if A4. cbv zeta.
    unfold lock_port. cut_if A5; [|cut_if A6]; (cut_if A7; cut_if A8; destruct (port_get _ _ _) as [[[p e] d]|]; [|discriminate]; cut_if A9; discriminate).
  - unfold sampling_status, owned. cut_if A1. destruct (own_port _ _ _) as [[]|]; try discriminate. cut_if A2. cut_if A3. cut_if A4.
  - unfold queueing_create. cut_if A. destruct (port_create _ _ _ _ _ _ _) as [[s1 e] [i|]]; [destruct (e =? ERR_OK)|]; discriminate.
  - cut_if A. unfold queueing_send, owned. cut_if A1. cut_if L. destruct (own_port _ _ _) as [[]|] eqn:O; try discriminate.
    destruct (own_true _ _ _ (u8_pos id) O) as [O1 O2].
    cut_if A3. cut_if Sz. cut_if A4. cut_if A5. cut_if K. unfold lock_port. cut_if A6. cut_if A7. unfold send_loop.
    cut_if A8; [|destruct (write_port _ _ _ _ _) as [[]|]; discriminate]. cut_if Zt. intros [= _ <-].
    unfold wait_ok. cbn [wid]. apply negb_false_iff in A3, A4, K. repeat split; auto; lia.
  - cut_if A. unfold queueing_receive, owned. cut_if L. cut_if A1. destruct (own_port _ _ _) as [[]|] eqn:O; try discriminate.
    destruct (own_true _ _ _ (u8_pos id) O) as [O1 O2].
    cut_if A3. cut_if K. cut_if A4. unfold lock_port. cut_if A6. cut_if A7. unfold receive_loop.
    cut_if A8; [|cbv zeta; destruct (port_get _ _ _) as [[[]]|]; discriminate]. cut_if Zt. intros [= _ <-].
    unfold wait_ok. cbn [wid]. apply negb_false_iff in A3, A4, K. repeat split; auto; lia.
  - unfold queueing_status, owned. cut_if A1. destruct (own_port _ _ _) as [[]|]; try discriminate. cut_if A2. cut_if A3. cut_if A4.
  - unfold virtual_nb_destinations, virtual. cut_if A1. destruct (own_port _ _ _) as [[]|]; try discriminate. cut_if A2.
  - unfold virtual_destination, virtual. cut_if A1. destruct (own_port _ _ _) as [[]|]; try discriminate. cut_if A2. cut_if A3. cut_if A4.
  - unfold virtual_get_global, virtual. cut_if A1. destruct (own_port _ _ _) as [[]|]; try discriminate. cut_if A2.
  - unfold virtual_node. cut_if A1.
Qed.
Lemma resume_wait_ok cfg now w s s' w' : resume_call now w s = PWait s' w' -> wait_ok cfg s w -> wait_ok cfg s w'.
Proof.
  destruct w; cbn [resume_call]; unfold lock_port; cut_if A; cut_if B; cut_if C.
  - unfold send_loop. cut_if D; [cut_if E; intros [= _ <-] W; exact W|]. destruct (write_port _ _ _ _ _) as [[]|]; discriminate.
  - unfold receive_loop. cut_if D; [cut_if E; intros [= _ <-] W; exact W|]. cbv zeta. destruct (port_get _ _ _) as [[[]]|]; discriminate.
Qed.
Lemma preach_waits cfg m : pcfg_ok cfg -> preachable cfg m -> Forall (wait_ok cfg (fst m)) (snd m).
Proof.
  intros C. induction 1 as [|[s ws] l [s' ws'] ev R IH L S]; [constructor|].
  destruct (preach_inv cfg _ C R) as [I W]. assert (Hn : 0 <= q_nports cfg) by (destruct C as [C _]; lia). cbn [fst snd] in *.
  pose proof (step_keeps _ _ _ _ _ _ _ Hn I W S) as K.
  assert (Old : Forall (wait_ok cfg s') ws) by (eapply Forall_impl; [|exact IH]; intros w; apply wait_keeps; exact K).
  destruct l as [part now r|k now|part now|active now]; cbn [pstep] in S.
  - destruct (port_call cfg now part r s) as [s1 e o|s1 w| |] eqn:P; try discriminate; injection S as <- <- _; auto.
    apply Forall_app. split; [exact Old|]. constructor; [|constructor]. apply (wait_keeps _ s); [exact K|]. eapply call_wait_ok; eauto.
  - destruct (nth_error ws k) as [w|] eqn:N; [|injection S as <- <- _; auto].
    assert (Old' : Forall (wait_ok cfg s') (remove_nth k ws)) by (apply Forall_forall; intros x Hx; apply removed_in in Hx; rewrite Forall_forall in Old; auto).
    destruct (resume_call now w s) as [s1 e o|s1 w1| |] eqn:P; try discriminate; injection S as <- <- _; auto.
    apply Forall_app. split; [exact Old'|]. constructor; [|constructor]. apply (wait_keeps _ s); [exact K|]. eapply resume_wait_ok; [exact P|].
    apply nth_error_In in N. rewrite Forall_forall in IH. auto.
  - destruct (flush_partition cfg now part s); [|discriminate]. injection S as <- <- _. exact Old.
  - destruct (flush_all cfg active now s); [|discriminate]. injection S as <- <- _. exact Old.
Qed.
