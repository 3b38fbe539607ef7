(** Invariant of the ports and frame of every service. *)
From Verif Require Import Model.Base Model.Port Spec.PortSpec Proof.Tac Proof.PortRing.

(** Decide the first test of the goal; one of the two branches must be impossible. *)
Ltac cut_if A := match goal with |- (if ?b then _ else _) = _ -> _ => destruct b eqn:A; try discriminate end.

Record pinv (cfg : pconfig) (s : pstate) : Prop := {
  pi_avail : 0 <= ps_avail s <= POOL_SIZE;
  pi_shape : forall id, shape (ps_port s id);
  pi_ready : forall id, pt_ready (ps_port s id) = true ->
    0 <= id < q_nports cfg /\ pt_kind (ps_port s id) = q_kind cfg id /\ pt_part (ps_port s id) = q_owner cfg id /\
    pt_linit (ps_port s id) = true /\ 0 <= pt_index (ps_port s id) /\ 0 <= pt_size (ps_port s id) <= PORT_MAX_SIZE /\
    pt_index (ps_port s id) + pt_size (ps_port s id) <= POOL_SIZE - ps_avail s /\
    (pt_dir (ps_port s id) = DIR_IN \/ pt_dir (ps_port s id) = DIR_OUT) /\ pt_kind (ps_port s id) <> PK_INVALID;
  pi_idle : forall id, pt_ready (ps_port s id) = false ->
    pt_size (ps_port s id) = 0 /\ pt_dir (ps_port s id) = 0 /\ pt_kind (ps_port s id) = PK_INVALID /\ pt_empty (ps_port s id) = true;
  pi_disj : forall i j a, i <> j -> pt_ready (ps_port s i) = true -> pt_ready (ps_port s j) = true ->
    in_buffer (ps_port s i) a -> ~ in_buffer (ps_port s j) a
}.
Lemma pinv_boot cfg : pinv cfg ports_boot.
Proof.
  split; cbn; try discriminate; auto; [unfold POOL_SIZE; lia|].
  intros id. apply sh_none; reflexivity.
Qed.

(** [s'] differs from [s] at most in the offsets, dates and flags of the ports of [P], and in the buffers of the ports of [W]. *)
Definition effect (P W : Z -> Prop) (s s' : pstate) : Prop :=
  ps_avail s' = ps_avail s /\
  (forall id, same_id (ps_port s id) (ps_port s' id) /\ (shape (ps_port s id) -> shape (ps_port s' id))) /\
  (forall id, ~ P id -> ps_port s' id = ps_port s id) /\
  (forall a, (forall id, W id -> ~ in_buffer (ps_port s id) a) -> ps_pool s' a = ps_pool s a).

Lemma effect_refl P W s : effect P W s s.
Proof. repeat split; auto. Qed.
Lemma effect_trans P W s1 s2 s3 : effect P W s1 s2 -> effect P W s2 s3 -> effect P W s1 s3.
Proof.
  intros (A1 & I1 & F1 & M1) (A2 & I2 & F2 & M2). split; [congruence|]. split; [|split].
  - intros id. destruct (I1 id) as [X1 Y1], (I2 id) as [X2 Y2]. split; [eapply same_id_trans; eassumption|auto].
  - intros id N. rewrite F2, F1 by exact N. reflexivity.
  - intros a N. rewrite M2, M1; auto. intros id Hid. specialize (N id Hid). destruct (I1 id) as [(_ & X & Y & _) _].
    unfold in_buffer in *. rewrite <- X, <- Y. exact N.
Qed.
Lemma effect_mono (P W P' W' : Z -> Prop) s s' : effect P W s s' -> (forall id, P id -> P' id) -> (forall id, W id -> W' id) -> effect P' W' s s'.
Proof. intros (A & I & F & M) HP HW. split; [exact A|]. split; [exact I|]. split; [intros id N; apply F; auto|intros a N; apply M; auto]. Qed.
Lemma effect_inv cfg P W s s' : pinv cfg s -> effect P W s s' -> pinv cfg s'.
Proof.
  intros [A S R D J] (EA & EI & _ & _). split.
  - rewrite EA. exact A.
  - intros id. destruct (EI id) as [_ X]. auto.
  - intros id H. destruct (EI id) as [(X1 & X2 & X3 & X4 & X5 & X6 & X7 & X8) _]. rewrite <- X5 in H. specialize (R id H).
    rewrite EA, <- X1, <- X2, <- X3, <- X4, <- X6, <- X8. exact R.
  - intros id H. destruct (EI id) as [(X1 & X2 & X3 & X4 & X5 & X6 & X7 & X8) Y]. rewrite <- X5 in H. destruct (D id H) as (D1 & D2 & D3 & D4).
    rewrite <- X3, <- X4, <- X6. repeat split; auto. specialize (Y (S id)). destruct Y as [Y1 Y2 Y3|Y1|Y1|Y1]; auto;
      exfalso; rewrite <- X6, D3 in Y1; discriminate.
  - intros i j a N Hi Hj. destruct (EI i) as [(_ & A2 & A3 & _ & A5 & _) _]. destruct (EI j) as [(_ & B2 & B3 & _ & B5 & _) _].
    unfold in_buffer. rewrite <- A2, <- A3, <- B2, <- B3. apply (J i j a N); congruence.
Qed.
(** An assignment to a flag or date. *)
Lemma effect_on id g s W : (forall p, same_id p (g p) /\ (shape p -> shape (g p))) -> effect (fun i => i = id) W s (on_port id g s).
Proof.
  intros H. split; [reflexivity|]. split; [|split].
  - intros i. cbn [ps_port on_port]. unfold upd. destruct (i =? id) eqn:E; [|split; [apply same_id_refl|auto]].
    replace i with id by lia. apply H.
  - intros i N. cbn [ps_port on_port]. unfold upd. replace (i =? id) with false by lia. reflexivity.
  - reflexivity.
Qed.
Lemma shape_free v p : same_id p (set_pt_free v p) /\ (shape p -> shape (set_pt_free v p)).
Proof. split; [repeat split|]. intros [A B C D|A B|A B C D E F|A B C D E]; [apply sh_none|apply sh_ring|apply sh_zero|apply sh_samp]; auto. Qed.
Lemma shape_flush v p : same_id p (set_pt_flush v p) /\ (shape p -> shape (set_pt_flush v p)).
Proof. split; [repeat split|]. intros [A B C D|A B|A B C D E F|A B C D E]; [apply sh_none|apply sh_ring|apply sh_zero|apply sh_samp]; auto. Qed.

(** Writing into a port. *)
Lemma effect_write now id data n s s' e : shape (ps_port s id) -> 0 <= n -> write_port now id data n s = Some (s', e) ->
  effect (fun i => i = id) (fun i => i = id) s s'.
Proof.
  intros Sh Hn. unfold write_port. destruct (port_write now (ps_pool s) (ps_port s id) data n) as [[[pool p'] e']|] eqn:W; [|discriminate].
  intros [= <- <-]. destruct (write_frame _ _ _ _ _ _ _ _ Sh Hn W) as (M & I & Sh' & _ & _). split; [reflexivity|]. split; [|split].
  - intros i. cbn [ps_port on_port set_ps_pool]. unfold upd. destruct (i =? id) eqn:E; [|split; [apply same_id_refl|auto]].
    replace i with id by lia. auto.
  - intros i N. cbn [ps_port on_port set_ps_pool]. unfold upd. replace (i =? id) with false by lia. reflexivity.
  - intros a N. cbn [ps_pool on_port set_ps_pool]. apply M. apply N. reflexivity.
Qed.
(** Reading from a port. *)
Lemma effect_get id n s p e d W : shape (ps_port s id) -> 0 <= n -> port_get (ps_pool s) (ps_port s id) n = Some (p, e, d) ->
  effect (fun i => i = id) W s (on_port id (fun _ => p) s).
Proof.
  intros Sh Hn G. destruct (get_frame _ _ _ _ _ _ Sh Hn G) as (I & Sh' & _). split; [reflexivity|]. split; [|split].
  - intros i. cbn [ps_port on_port]. unfold upd. destruct (i =? id) eqn:E; [|split; [apply same_id_refl|auto]].
    replace i with id by lia. auto.
  - intros i N. cbn [ps_port on_port]. unfold upd. replace (i =? id) with false by lia. reflexivity.
  - reflexivity.
Qed.
Lemma u32_pos x : 0 <= u32 x. Proof. apply Z.mod_pos_bound. reflexivity. Qed.
Lemma u8_pos x : 0 <= u8 x. Proof. apply Z.mod_pos_bound. reflexivity. Qed.
Lemma consumed_pos p : 0 <= consumed_size p.
Proof. unfold consumed_size. destruct (pt_empty p); [lia|]. destruct (_ <? _); apply u32_pos. Qed.

(** ** Frames of the services *)
Notation just id := (fun i : Z => i = id).
Definition eff (id : Z) (s : pstate) (r : pres) : Prop :=
  match r with PRet s' _ _ | PWait s' _ => effect (just id) (just id) s s' | PStuck | PUb => True end.
Lemma eff_refl_ret id s e o : eff id s (PRet s e o). Proof. apply effect_refl. Qed.
Lemma eff_owned cfg part id s i k : eff i s k -> eff i s (owned cfg part id s k).
Proof. intros H. unfold owned. destruct (_ <? _); [apply eff_refl_ret|]. destruct (own_port cfg part id) as [[]|]; [exact H|apply eff_refl_ret|exact I]. Qed.
Lemma eff_virtual cfg part id s i k : eff i s k -> eff i s (virtual cfg part id s k).
Proof.
  intros H. unfold virtual. destruct (_ <=? _); [apply eff_refl_ret|]. destruct (own_port cfg part id) as [[]|]; [|apply eff_refl_ret|exact I].
  destruct (negb _); [apply eff_refl_ret|exact H].
Qed.
Lemma eff_lock id s nr k : eff id s nr -> (forall s1, effect (just id) (just id) s s1 -> eff id s (k s1)) -> eff id s (lock_port id s nr k).
Proof.
  intros N K. unfold lock_port. destruct (negb _); [exact N|]. destruct (pt_free _); [|exact I]. apply K. apply effect_on. apply shape_free.
Qed.
Lemma eff_unlock id s s1 e o : effect (just id) (just id) s s1 -> eff id s (PRet (unlock_port id s1) e o).
Proof. intros H. eapply effect_trans; [exact H|]. apply effect_on. apply shape_free. Qed.

Section Frames.
Variable cfg : pconfig.
Variable s : pstate.
Hypothesis Sh : forall id, shape (ps_port s id).

Lemma eff_shape id s1 : effect (just id) (just id) s s1 -> shape (ps_port s1 id).
Proof. intros (_ & I & _). destruct (I id) as [_ X]. auto. Qed.

Lemma eff_send_loop now part id data len tmo s1 : 0 <= len -> effect (just id) (just id) s s1 -> eff id s (send_loop now part id data len tmo s1).
Proof.
  intros Hl E. unfold send_loop. destruct (_ <? _).
  - destruct (_ =? _); apply (eff_unlock id s s1 0 ONone E).
  - destruct (write_port now id data len s1) as [[s2 e]|] eqn:W; [|exact I].
    eapply eff_unlock. eapply effect_trans; [exact E|]. eapply effect_trans; [eapply effect_write; [|exact Hl|exact W]; apply eff_shape; exact E|].
    apply effect_on. apply shape_flush.
Qed.
Lemma eff_receive_loop now part id maxlen tmo s1 : 0 <= maxlen -> effect (just id) (just id) s s1 -> eff id s (receive_loop now part id maxlen tmo s1).
Proof.
  intros Hl E. unfold receive_loop. destruct (pt_empty _).
  - destruct (_ =? _); apply (eff_unlock id s s1 0 ONone E).
  - cbv zeta. set (n := if _ <? maxlen then _ else _). assert (Hn : 0 <= n) by (unfold n; pose proof (consumed_pos (ps_port s1 id)); destruct (_ <? maxlen); lia).
    destruct (port_get (ps_pool s1) (ps_port s1 id) n) as [[[p e] d]|] eqn:G; [|exact I].
    eapply eff_unlock. eapply effect_trans; [exact E|]. eapply effect_get; [|exact Hn|exact G]. apply eff_shape; exact E.
Qed.
Lemma eff_send now part id null data len tmo : eff id s (queueing_send cfg now part id null data len tmo s).
Proof.
  unfold queueing_send. destruct (_ <? _); [apply eff_refl_ret|]. destruct (len <=? 0) eqn:L; [apply eff_refl_ret|]. destruct null; [apply eff_refl_ret|].
  apply eff_owned. repeat (destruct (negb _); [apply eff_refl_ret|]). destruct (_ <? _); [apply eff_refl_ret|].
  repeat (destruct (negb _); [apply eff_refl_ret|]). apply eff_lock; [apply eff_refl_ret|]. intros s1 E. apply eff_send_loop; [lia|exact E].
Qed.
Lemma eff_receive now part id maxlen tmo : eff id s (queueing_receive cfg now part id maxlen tmo s).
Proof.
  unfold queueing_receive. destruct (maxlen <=? 0) eqn:L; [apply eff_refl_ret|]. apply eff_owned. repeat (destruct (negb _); [apply eff_refl_ret|]).
  apply eff_lock; [apply eff_refl_ret|]. intros s1 E. apply eff_receive_loop; [lia|exact E].
Qed.
Lemma eff_resume now w : 0 <= wlen w -> eff (wid w) s (resume_call now w s).
Proof.
  intros Hl. destruct w as [part id data len tmo dl|part id maxlen tmo dl]; cbn [wid wlen resume_call] in *.
  - apply eff_lock; [apply eff_unlock, effect_refl|]. intros s1 E. destruct (_ && _); [apply eff_unlock; exact E|]. apply eff_send_loop; assumption.
  - apply eff_lock; [apply eff_unlock, effect_refl|]. intros s1 E. destruct (_ && _); [apply eff_unlock; exact E|]. apply eff_receive_loop; assumption.
Qed.
Lemma eff_read now part id null ptr : eff id s (sampling_read cfg now part id null ptr s).
Proof.
  unfold sampling_read. destruct null; [apply eff_refl_ret|]. apply eff_owned. repeat (destruct (negb _); [apply eff_refl_ret|]). cbv zeta.
  assert (K : forall s1, effect (just id) (just id) s s1 -> eff id s
     (if q_nports cfg <=? part then PUb
      else if negb (check_ptr cfg part ptr (pt_size (ps_port s1 part))) then PRet s1 ERR_EINVAL ONone
      else match port_get (ps_pool s1) (ps_port s1 id) (pt_size (ps_port s1 id)) with
           | None => PUb
           | Some (p, e, d) => if e =? ERR_EMPTY then PRet (unlock_port id s1) ERR_EMPTY (OMsg [] false)
               else PRet (unlock_port id s1) ERR_OK (OMsg d (negb (u64 (pt_last (ps_port s1 id) + pt_refresh (ps_port s1 id)) <? now)))
           end)).
  { intros s1 E. destruct (_ <=? _); [exact I|]. destruct (negb _); [exact E|]. destruct (port_get _ _ _) as [[[p e] d]|]; [|exact I].
    destruct (e =? ERR_EMPTY); apply (eff_unlock id s s1 0 ONone E). }
  apply eff_lock; [apply K, effect_refl|exact K].
Qed.
Lemma eff_write now part id null data len : 0 <= len -> eff id s (sampling_write cfg now part id null data len s).
Proof.
  intros Hl. unfold sampling_write. destruct null; [apply eff_refl_ret|]. apply eff_owned. destruct (negb _); [apply eff_refl_ret|].
  destruct (_ <? _); [apply eff_refl_ret|]. destruct (negb _); [apply eff_refl_ret|]. cbv zeta.
  assert (K : forall s1, effect (just id) (just id) s s1 -> eff id s
     match write_port now id data len s1 with
     | None => PUb
     | Some (s2, _) => PRet (on_port id (set_pt_flush true) (unlock_port id s2)) ERR_OK ONone
     end).
  { intros s1 E. destruct (write_port now id data len s1) as [[s2 e]|] eqn:W; [|exact I]. cbn [eff].
    eapply effect_trans; [exact E|]. eapply effect_trans; [eapply effect_write; [|exact Hl|exact W]; apply eff_shape; exact E|].
    eapply effect_trans; [|apply effect_on, shape_flush]. apply effect_on, shape_free. }
  apply eff_lock; [apply K, effect_refl|exact K].
Qed.
Lemma eff_status_s now part id i : eff i s (sampling_status cfg now part id s).
Proof. unfold sampling_status. apply eff_owned. repeat (destruct (negb _); [apply eff_refl_ret|]). apply eff_refl_ret. Qed.
Lemma eff_status_q part id i : eff i s (queueing_status cfg part id s).
Proof. unfold queueing_status. apply eff_owned. repeat (destruct (negb _); [apply eff_refl_ret|]). apply eff_refl_ret. Qed.
End Frames.

Lemma eff_call cfg now part r id s : (forall i, shape (ps_port s i)) -> rid r = Some id -> eff id s (port_call cfg now part r s).
Proof.
  intros Sh. destruct r; cbn [rid port_call]; intros [= <-].
  - destruct (check_ptr _ _ _ _); [|apply eff_refl_ret]. apply eff_write; auto. apply u8_pos.
  - apply eff_read; auto.
  - apply eff_status_s; auto.
  - destruct (check_ptr _ _ _ _); [|apply eff_refl_ret]. apply eff_send; auto.
  - destruct (check_ptr _ _ _ _); [|apply eff_refl_ret]. apply eff_receive; auto.
  - apply eff_status_q; auto.
  - unfold virtual_nb_destinations. apply eff_virtual. apply eff_refl_ret.
  - unfold virtual_destination. apply eff_virtual. destruct (_ <? _); [apply eff_refl_ret|]. destruct (_ =? _); [exact I|apply eff_refl_ret].
  - unfold virtual_get_global. apply eff_virtual. apply eff_refl_ret.
Qed.

(** ** Creation *)
Lemma port_id_found cfg part kind name n i id : Z.of_nat n + i = q_nports cfg -> 0 <= i ->
  snd (port_id_loop n cfg part kind name i) = Some id ->
  0 <= id < q_nports cfg /\ q_kind cfg id = kind /\ q_name cfg id = name /\ q_owner cfg id = part.
Proof.
  revert i. induction n as [|n IH]; intros i Hn Hi; cbn [port_id_loop snd]; [discriminate|].
  destruct ((q_name cfg i =? name) && (q_kind cfg i =? kind)) eqn:E.
  - apply andb_true_iff in E. destruct E as [E1 E2]. unfold own_port. replace (q_nports cfg <? i) with false by lia.
    replace (i =? q_nports cfg) with false by lia. destruct (q_owner cfg i =? part) eqn:O; [|discriminate].
    intros [= <-]. lia.
  - apply IH; lia.
Qed.
Lemma create_cases cfg part name size dir kind s s' e o : 0 <= q_nports cfg -> port_create cfg part name size dir kind s = (s', e, o) ->
  (s' = s /\ e <> ERR_OK) \/
  exists id, o = Some id /\ e = ERR_OK /\ 0 <= id < q_nports cfg /\ q_kind cfg id = kind /\ q_owner cfg id = part /\ q_name cfg id = name /\
    pt_ready (ps_port s id) = false /\ size <= PORT_MAX_SIZE /\ size <= ps_avail s /\ (dir = DIR_IN \/ dir = DIR_OUT) /\
    ps_pool s' = ps_pool s /\ ps_avail s' = ps_avail s - size /\ (forall i, i <> id -> ps_port s' i = ps_port s i) /\
    ps_port s' id = mkPort part (POOL_SIZE - ps_avail s) false size 0 0 dir true (pt_empty (ps_port s id)) kind (pt_refresh (ps_port s id)) (pt_last (ps_port s id))
                             (pt_linit (ps_port s id)) (pt_free (ps_port s id)) (pt_flush (ps_port s id)).
Proof.
  intros Hn. unfold port_create. destruct (PORT_MAX_SIZE <? size) eqn:A; [intros [= <- <- <-]; left; split; [reflexivity|discriminate]|].
  destruct (ps_avail s <? size) eqn:B; [intros [= <- <- <-]; left; split; [reflexivity|discriminate]|].
  destruct (negb (dir =? DIR_IN) && negb (dir =? DIR_OUT)) eqn:D; [intros [= <- <- <-]; left; split; [reflexivity|discriminate]|].
  destruct (port_id cfg part kind name) as [e0 [id|]] eqn:P.
  - destruct (port_id_found cfg part kind name (Z.to_nat (q_nports cfg)) 0 id) as (H1 & H2 & H3 & H4); [lia|lia|unfold port_id in P; rewrite P; reflexivity|].
    destruct (pt_ready (ps_port s id)) eqn:R; [intros [= <- <- <-]; left; split; [reflexivity|discriminate]|].
    intros [= <- <- <-]. right. exists id. cbn [ps_pool ps_avail ps_port]. unfold upd. rewrite Z.eqb_refl.
    repeat (split; [first [reflexivity|assumption|lia]|]). split; [|reflexivity]. intros i N. replace (i =? id) with false by lia. reflexivity.
  - intros [= <- <- <-]. left. split; [reflexivity|]. unfold port_id in P. clear - P. revert P. generalize 0 as i.
    induction (Z.to_nat (q_nports cfg)) as [|n IH]; intros i; cbn [port_id_loop]; [intros [= <-]; discriminate|].
    destruct (_ && _); [|apply IH]. destruct (own_port cfg part i) as [[]|]; intros [= <-]; discriminate.
Qed.
Lemma create_inv cfg part name size dir kind refresh last s s' id : 0 <= q_nports cfg -> pinv cfg s -> 0 <= size -> kind = PK_SAMPLING \/ kind = PK_QUEUEING ->
  port_create cfg part name size dir kind s = (s', ERR_OK, Some id) -> pinv cfg (on_port id (set_pt_fresh refresh last) s').
Proof.
  intros Hn I Hs Hk C. destruct (create_cases _ _ _ _ _ _ _ _ _ _ Hn C) as [[_ N]|X]; [congruence|].
  destruct X as (i & [= <-] & _ & Hid & Kd & Ow & Nm & NR & S1 & S2 & Dr & Pl & Av & Oth & New).
  destruct I as [A S R D J]. destruct (D id NR) as (D1 & D2 & D3 & D4).
  assert (P : forall i, i <> id -> ps_port (on_port id (set_pt_fresh refresh last) s') i = ps_port s i).
  { intros i N. cbn [ps_port on_port]. unfold upd. replace (i =? id) with false by lia. apply Oth. exact N. }
  assert (Q : ps_port (on_port id (set_pt_fresh refresh last) s') id = set_pt_fresh refresh last (ps_port s' id)).
  { cbn [ps_port on_port]. unfold upd. rewrite Z.eqb_refl. reflexivity. }
  assert (Av' : ps_avail (on_port id (set_pt_fresh refresh last) s') = ps_avail s - size) by exact Av.
  set (s2 := on_port id (set_pt_fresh refresh last) s') in *. clearbody s2. rewrite New in Q.
  unfold set_pt_fresh in Q. cbn [pt_part pt_index pt_full pt_size pt_b pt_e pt_dir pt_ready pt_empty pt_kind pt_flush] in Q.
  split.
  - rewrite Av'. lia.
  - intros i. destruct (Z.eq_dec i id) as [->|N]; [|rewrite P by exact N; apply S]. rewrite Q, D4. destruct Hk as [->| ->].
    + apply sh_samp; auto.
    + destruct (Z.eq_dec size 0) as [->|].
      * apply sh_zero; auto.
      * apply sh_ring; [reflexivity|]. unfold ring_ok. cbn [pt_size pt_b pt_e pt_empty pt_full]. repeat split; auto; lia.
  - intros i. rewrite Av'. destruct (Z.eq_dec i id) as [->|N].
    + intros _. rewrite Q. cbn [pt_part pt_index pt_full pt_size pt_b pt_e pt_dir pt_ready pt_empty pt_kind pt_flush pt_linit].
      repeat split; try lia; auto. destruct Hk as [->| ->]; discriminate.
    + rewrite P by exact N. intros H. specialize (R i H). intuition lia.
  - intros i. destruct (Z.eq_dec i id) as [->|N]; [rewrite Q; discriminate|rewrite P by exact N; apply D].
  - assert (K : forall i a, i <> id -> pt_ready (ps_port s i) = true -> in_buffer (ps_port s i) a -> a < POOL_SIZE - ps_avail s).
    { intros i a N H B. destruct (R i H) as (_ & _ & _ & _ & _ & _ & X & _). unfold in_buffer in B. lia. }
    intros i j a N. destruct (Z.eq_dec i id) as [->|Ni], (Z.eq_dec j id) as [->|Nj]; [congruence| | |].
    + rewrite Q, (P j) by exact Nj. intros _ Hj B1 B2. specialize (K j a Nj Hj B2). unfold in_buffer in B1. cbn [pt_index pt_size] in B1. lia.
    + rewrite Q, (P i) by exact Ni. intros Hi _ B1 B2. specialize (K i a Ni Hi B1). unfold in_buffer in B2. cbn [pt_index pt_size] in B2. lia.
    + rewrite (P i), (P j) by assumption. apply J. exact N.
Qed.

(** ** Flushing *)
Lemma deliver_effect cfg now src data len n : forall j s s', (forall id, shape (ps_port s id)) -> 0 <= len -> 0 <= j ->
  j + Z.of_nat n <= q_ndest cfg src -> deliver n cfg now src data len j s = Some s' ->
  effect (fun d => dests cfg src d /\ pt_dir (ps_port s d) = DIR_IN) (fun d => dests cfg src d /\ pt_dir (ps_port s d) = DIR_IN) s s'.
Proof.
  induction n as [|n IH]; intros j s s' Sh Hl Hj Hn; cbn [deliver]; [intros [= <-]; apply effect_refl|].
  set (d := q_local cfg (q_dest cfg src j)).
  destruct (negb (pt_ready (ps_port s d)) || negb (pt_dir (ps_port s d) =? DIR_IN)) eqn:G.
  - apply IH; auto; lia.
  - apply orb_false_iff in G. destruct G as [G1 G2]. apply negb_false_iff in G2.
    destruct (write_port now d data len s) as [[s1 e]|] eqn:W; [|discriminate]. intros H.
    pose proof (effect_write _ _ _ _ _ _ _ (Sh d) Hl W) as E1.
    assert (E1' : effect (fun d => dests cfg src d /\ pt_dir (ps_port s d) = DIR_IN) (fun d => dests cfg src d /\ pt_dir (ps_port s d) = DIR_IN) s s1).
    { eapply effect_mono; [exact E1| |]; intros i ->; (split; [exists j; split; [lia|reflexivity]|lia]). }
    eapply effect_trans; [exact E1'|].
    assert (Sh1 : forall id, shape (ps_port s1 id)) by (intros id; destruct E1 as (_ & X & _); apply X; auto).
    eapply effect_mono; [eapply IH; [exact Sh1|exact Hl| | |exact H]; lia| |];
      (intros i [X Y]; split; [exact X|]; destruct E1 as (_ & Z & _); destruct (Z i) as [(_ & _ & _ & -> & _) _]; exact Y).
Qed.
Lemma flush_port_effect cfg now l s s' : (forall id, shape (ps_port s id)) -> flush_port cfg now l s = Some s' ->
  effect (fun d => pt_dir (ps_port s l) = DIR_OUT /\ (d = l \/ dests cfg l d /\ pt_dir (ps_port s d) = DIR_IN))
         (fun d => pt_dir (ps_port s l) = DIR_OUT /\ dests cfg l d /\ pt_dir (ps_port s d) = DIR_IN) s s'.
Proof.
  intros Sh. unfold flush_port. destruct (negb (pt_dir (ps_port s l) =? DIR_OUT)) eqn:D; [intros [= <-]; apply effect_refl|].
  apply negb_false_iff in D. assert (D' : pt_dir (ps_port s l) = DIR_OUT) by lia.
  destruct (pt_empty _); [intros [= <-]; apply effect_refl|]. destruct (negb _); [intros [= <-]; apply effect_refl|].
  pose proof (consumed_pos (ps_port s l)) as Hl. set (len := consumed_size (ps_port s l)) in *.
  destruct (port_get (ps_pool s) (ps_port s l) len) as [[[p e] d]|] eqn:G; [|discriminate].
  destruct (negb (e =? ERR_OK)); [intros [= <-]; apply effect_refl|].
  pose proof (effect_get l len s p e d (fun _ => False) (Sh l) Hl G) as E1. set (s1 := on_port l (fun _ => p) s) in *.
  assert (Sh1 : forall id, shape (ps_port s1 id)) by (intros id; destruct E1 as (_ & X & _); apply X; auto).
  destruct (deliver _ _ _ _ _ _ _ s1) as [s2|] eqn:Dl; [|discriminate]. intros [= <-].
  destruct (Z_le_gt_dec 0 (q_ndest cfg l)) as [Hq|Hq].
  2: { replace (Z.to_nat (q_ndest cfg l)) with O in Dl by lia. cbn in Dl. injection Dl as <-.
       eapply effect_trans; [eapply effect_mono; [exact E1| |intros ? []]|eapply effect_mono; [apply (effect_on l _ s1 (fun _ => False)), shape_flush| |intros ? []]];
         intros i ->; auto. }
  apply deliver_effect in Dl; [|exact Sh1|exact Hl|lia|lia].
  assert (Dir : forall i, pt_dir (ps_port s1 i) = pt_dir (ps_port s i)) by (intros i; destruct E1 as (_ & X & _); destruct (X i) as [(_ & _ & _ & -> & _) _]; reflexivity).
  eapply effect_trans; [eapply effect_mono; [exact E1| |intros ? []]; intros i ->; auto|].
  eapply effect_trans; [eapply effect_mono; [exact Dl| |]; intros i [X Y]; rewrite Dir in Y; auto|].
  eapply effect_mono; [apply (effect_on l _ s2 (fun _ => False)), shape_flush| |intros ? []]. intros i ->; auto.
Qed.
Lemma flush_loop_effect cfg now part n : forall i s s', (forall id, shape (ps_port s id)) -> 0 <= i -> i + Z.of_nat n <= q_nby cfg part ->
  flush_loop n cfg now part i s = Some s' ->
  effect (fun d => outs cfg s part d \/ fed cfg s part d) (fed cfg s part) s s'.
Proof.
  induction n as [|n IH]; intros i s s' Sh Hi Hn; cbn [flush_loop]; [intros [= <-]; apply effect_refl|].
  destruct (flush_port cfg now (q_by cfg part i) s) as [s1|] eqn:F; [|discriminate]. intros H.
  apply flush_port_effect in F; [|exact Sh].
  assert (Sh1 : forall id, shape (ps_port s1 id)) by (intros id; destruct F as (_ & X & _); apply X; auto).
  assert (Dir : forall i, pt_dir (ps_port s1 i) = pt_dir (ps_port s i)) by (intros k; destruct F as (_ & X & _); destruct (X k) as [(_ & _ & _ & -> & _) _]; reflexivity).
  eapply effect_trans; [eapply effect_mono; [exact F| |]|].
  - intros d [O [-> |[X Y]]].
    + left. exists i. repeat split; auto; lia.
    + right. exists (q_by cfg part i). split; [exists i; repeat split; auto; lia|]. auto.
  - intros d [O [X Y]]. exists (q_by cfg part i). split; [exists i; repeat split; auto; lia|]. auto.
  - apply IH in H; auto; try lia.
    assert (O : forall l, outs cfg s1 part l -> outs cfg s part l) by (intros l (k & A & B & C); exists k; rewrite Dir in C; auto).
    assert (Fd : forall l, fed cfg s1 part l -> fed cfg s part l) by (intros l (k & A & B & C); exists k; rewrite Dir in C; auto).
    eapply effect_mono; [exact H| |exact Fd]. intros d [X|X]; auto.
Qed.
Lemma flush_partition_effect cfg now part s s' : (forall id, shape (ps_port s id)) -> flush_partition cfg now part s = Some s' ->
  effect (fun d => outs cfg s part d \/ fed cfg s part d) (fed cfg s part) s s'.
Proof.
  intros Sh. unfold flush_partition. intros H. destruct (Z_le_gt_dec 0 (q_nby cfg part)).
  - apply flush_loop_effect in H; auto; lia.
  - replace (Z.to_nat (q_nby cfg part)) with O in H by lia. injection H as <-. apply effect_refl.
Qed.
Lemma flush_parts_effect cfg active now n : forall p s s', (forall id, shape (ps_port s id)) ->
  flush_parts n cfg active now p s = Some s' ->
  effect (fun d => exists part, p <= part < p + Z.of_nat n /\ active part = true /\ (outs cfg s part d \/ fed cfg s part d))
         (fun d => exists part, p <= part < p + Z.of_nat n /\ active part = true /\ fed cfg s part d) s s'.
Proof.
  induction n as [|n IH]; intros p s s' Sh; cbn [flush_parts]; [intros [= <-]; apply effect_refl|].
  destruct (active p) eqn:Ac.
  - destruct (flush_partition cfg now p s) as [s1|] eqn:F; [|discriminate]. intros H. apply flush_partition_effect in F; auto.
    assert (Sh1 : forall id, shape (ps_port s1 id)) by (intros id; destruct F as (_ & X & _); apply X; auto).
    assert (Dir : forall i, pt_dir (ps_port s1 i) = pt_dir (ps_port s i)) by (intros k; destruct F as (_ & X & _); destruct (X k) as [(_ & _ & _ & -> & _) _]; reflexivity).
    assert (O : forall q l, outs cfg s1 q l -> outs cfg s q l) by (intros q l (k & A & B & C); exists k; rewrite Dir in C; auto).
    assert (Fd : forall q l, fed cfg s1 q l -> fed cfg s q l) by (intros q l (k & A & B & C); exists k; rewrite Dir in C; auto).
    eapply effect_trans; [eapply effect_mono; [exact F| |]|].
    + intros d X. exists p. split; [lia|auto].
    + intros d X. exists p. split; [lia|auto].
    + apply IH in H; auto. eapply effect_mono; [exact H| |].
      * intros d (q & Q & A & X). exists q. split; [lia|]. split; [exact A|]. destruct X; auto.
      * intros d (q & Q & A & X). exists q. split; [lia|]. auto.
  - intros H. apply IH in H; auto. eapply effect_mono; [exact H| |]; intros d (q & Q & X); exists q; (split; [lia|auto]).
Qed.

(** ** Every step preserves the invariant *)
Definition waits_ok (ws : list pcall) : Prop := Forall (fun w => 0 <= wlen w) ws.
Lemma removed_in {A : Type} k (l : list A) x : In x (remove_nth k l) -> In x l.
Proof.
  unfold remove_nth. intros H. apply in_app_or in H. rewrite <- (firstn_skipn k l). apply in_or_app. destruct H as [H|H]; auto.
  right. clear - H. revert k H. induction l as [|a l IH]; intros [|k] H; cbn in *; auto.
Qed.
Lemma call_wait cfg now part r s s' w : port_call cfg now part r s = PWait s' w -> 0 <= wlen w.
Proof.
  assert (SL : forall now part id data len tmo s s' w, 0 <= len -> send_loop now part id data len tmo s = PWait s' w -> 0 <= wlen w).
  { intros *. intros H. unfold send_loop. destruct (_ <? _); [destruct (_ =? _); [discriminate|intros [= _ <-]; exact H]|]. destruct (write_port _ _ _ _ _) as [[]|]; discriminate. }
  assert (RL : forall now part id len tmo s s' w, 0 <= len -> receive_loop now part id len tmo s = PWait s' w -> 0 <= wlen w).
  { intros *. intros H. unfold receive_loop. destruct (pt_empty _); [destruct (_ =? _); [discriminate|intros [= _ <-]; exact H]|]. cbv zeta. destruct (port_get _ _ _) as [[[]]|]; discriminate. }
  destruct r; cbn [port_call].
  - unfold sampling_create. destruct (port_create _ _ _ _ _ _ _) as [[s1 e] [i|]]; [destruct (e =? ERR_OK)|]; discriminate.
  - destruct (check_ptr _ _ _ _); [|discriminate]. unfold sampling_write, owned, lock_port.
    repeat (match goal with |- context [if ?b then _ else _] => destruct b end; try discriminate);
    destruct (own_port _ _ _) as [[]|]; try discriminate;
    repeat (match goal with |- context [if ?b then _ else _] => destruct b end; try discriminate);
    destruct (write_port _ _ _ _ _) as [[]|]; try discriminate.
  - unfold sampling_read, owned, lock_port. destruct (_ <? _); [discriminate|].
    destruct (own_port _ _ _) as [[]|]; try discriminate;
    repeat (match goal with |- context [if ?b then _ else _] => destruct b end; try discriminate);
    destruct (port_get _ _ _) as [[[p e] d]|]; try discriminate; destruct (e =? ERR_EMPTY); discriminate.
  - unfold sampling_status, owned. destruct (_ <? _); [discriminate|]. destruct (own_port _ _ _) as [[]|]; try discriminate.
    repeat (match goal with |- context [if ?b then _ else _] => destruct b end; try discriminate).
  - unfold queueing_create. destruct (negb _); [discriminate|]. destruct (port_create _ _ _ _ _ _ _) as [[s1 e] [i|]]; [destruct (e =? ERR_OK)|]; discriminate.
  - destruct (check_ptr _ _ _ _); [|discriminate]. unfold queueing_send, owned, lock_port. destruct (_ <? _); [discriminate|].
    destruct (u8 len <=? 0) eqn:L; [discriminate|]. destruct (own_port _ _ _) as [[]|]; try discriminate.
    repeat (match goal with |- (if ?b then _ else _) = _ -> _ => destruct b end; try discriminate). apply SL. lia.
  - destruct (check_ptr _ _ _ _); [|discriminate]. unfold queueing_receive, owned, lock_port.
    destruct (u32 maxlen <=? 0) eqn:L; [discriminate|]. destruct (_ <? _); [discriminate|]. destruct (own_port _ _ _) as [[]|]; try discriminate.
    repeat (match goal with |- (if ?b then _ else _) = _ -> _ => destruct b end; try discriminate). apply RL. lia.
  - unfold queueing_status, owned. destruct (_ <? _); [discriminate|]. destruct (own_port _ _ _) as [[]|]; try discriminate.
    repeat (match goal with |- context [if ?b then _ else _] => destruct b end; try discriminate).
  - unfold virtual_nb_destinations, virtual. destruct (_ <=? _); [discriminate|]. destruct (own_port _ _ _) as [[]|]; try discriminate. destruct (negb _); discriminate.
  - unfold virtual_destination, virtual. destruct (_ <=? _); [discriminate|]. destruct (own_port _ _ _) as [[]|]; try discriminate.
    repeat (match goal with |- context [if ?b then _ else _] => destruct b end; try discriminate).
  - unfold virtual_get_global, virtual. destruct (_ <=? _); [discriminate|]. destruct (own_port _ _ _) as [[]|]; try discriminate. destruct (negb _); discriminate.
  - unfold virtual_node. destruct (_ <=? _); discriminate.
Qed.
Lemma resume_wait now w s s' w' : 0 <= wlen w -> resume_call now w s = PWait s' w' -> 0 <= wlen w'.
Proof.
  intros H. destruct w; cbn [resume_call wlen] in *; unfold lock_port;
    repeat (match goal with |- (if ?b then _ else _) = _ -> _ => destruct b end; try discriminate).
  - unfold send_loop. destruct (_ <? _); [destruct (_ =? _); [discriminate|intros [= _ <-]; exact H]|]. destruct (write_port _ _ _ _ _) as [[]|]; discriminate.
  - unfold receive_loop. destruct (pt_empty _); [destruct (_ =? _); [discriminate|intros [= _ <-]; exact H]|]. cbv zeta. destruct (port_get _ _ _) as [[[]]|]; discriminate.
Qed.

Lemma call_inv cfg now part r s s' : 0 <= q_nports cfg -> pinv cfg s ->
  (exists e o, port_call cfg now part r s = PRet s' e o) \/ (exists w, port_call cfg now part r s = PWait s' w) -> pinv cfg s'.
Proof.
  intros Hn I H. destruct (rid r) as [id|] eqn:R.
  - pose proof (eff_call cfg now part r id s (pi_shape _ _ I) R) as E.
    destruct H as [(e & o & H)|(w & H)]; rewrite H in E; exact (effect_inv cfg _ _ _ _ I E).
  - destruct r; cbn [rid port_call] in *; try discriminate.
    + unfold sampling_create in H. destruct (port_create cfg part name (u32 size) (u8 dir) PK_SAMPLING s) as [[s1 e1] o1] eqn:C.
      assert (X : pinv cfg s1 \/ (e1 = ERR_OK /\ exists i, o1 = Some i)).
      { destruct (create_cases _ _ _ _ _ _ _ _ _ _ Hn C) as [[-> _]|(i & -> & -> & _)]; [left; exact I|right; eauto]. }
      assert (Y : forall i, o1 = Some i -> e1 = ERR_OK -> pinv cfg (on_port i (set_pt_fresh (u32 refresh) 0) s1)).
      { intros i -> ->. apply (create_inv cfg part name (u32 size) (u8 dir) PK_SAMPLING _ _ s s1 i); auto. apply u32_pos. }
      destruct o1 as [i|].
      * destruct (e1 =? ERR_OK) eqn:E.
        -- destruct H as [(e & o & [= <- _ _])|(w & H)]; [|discriminate]. apply Y; [reflexivity|lia].
        -- destruct H as [(e & o & [= <- _ _])|(w & H)]; [|discriminate]. destruct X as [X|[-> _]]; [exact X|discriminate].
      * destruct H as [(e & o & [= <- _ _])|(w & H)]; [|discriminate]. destruct X as [X|[_ [i X]]]; [exact X|discriminate].
    + unfold queueing_create in H. destruct (negb fifo); [destruct H as [(e & o & [= <- _ _])|(w & H)]; [exact I|discriminate]|].
      destruct (port_create cfg part name (u32 size) (u8 dir) PK_QUEUEING s) as [[s1 e1] o1] eqn:C.
      assert (X : pinv cfg s1 \/ (e1 = ERR_OK /\ exists i, o1 = Some i)).
      { destruct (create_cases _ _ _ _ _ _ _ _ _ _ Hn C) as [[-> _]|(i & -> & -> & _)]; [left; exact I|right; eauto]. }
      assert (Y : forall i, o1 = Some i -> e1 = ERR_OK -> pinv cfg (on_port i (fun p => set_pt_fresh (pt_refresh p) (pt_last p) p) s1)).
      { intros i -> ->. apply (create_inv cfg part name (u32 size) (u8 dir) PK_QUEUEING (pt_refresh (ps_port s1 i)) (pt_last (ps_port s1 i)) s s1 i); auto. apply u32_pos. }
      destruct o1 as [i|].
      * destruct (e1 =? ERR_OK) eqn:E.
        -- destruct H as [(e & o & [= <- _ _])|(w & H)]; [|discriminate]. apply Y; [reflexivity|lia].
        -- destruct H as [(e & o & [= <- _ _])|(w & H)]; [|discriminate]. destruct X as [X|[-> _]]; [exact X|discriminate].
      * destruct H as [(e & o & [= <- _ _])|(w & H)]; [|discriminate]. destruct X as [X|[_ [i X]]]; [exact X|discriminate].
    + unfold virtual_node in H. destruct (_ <=? _); destruct H as [(e & o & H)|(w & H)]; try discriminate. injection H as <- _ _. exact I.
Qed.

Lemma step_inv cfg s ws l s' ws' ev : 0 <= q_nports cfg -> pinv cfg s -> waits_ok ws -> pstep cfg (s, ws) l = Some ((s', ws'), ev) ->
  pinv cfg s' /\ waits_ok ws'.
Proof.
  intros Hn I W. destruct l as [part now r|k now|part now|active now]; cbn [pstep].
  - destruct (port_call cfg now part r s) as [s1 e o|s1 w| |] eqn:C; try discriminate; intros [= <- <- _].
    + split; [|exact W]. eapply call_inv; eauto.
    + split; [eapply call_inv; eauto|]. apply Forall_app. split; [exact W|]. constructor; [|constructor]. eapply call_wait; eauto.
    + auto.
  - destruct (nth_error ws k) as [w|] eqn:N; [|intros [= <- <- _]; auto].
    assert (Hw : 0 <= wlen w) by (apply nth_error_In in N; unfold waits_ok in W; rewrite Forall_forall in W; auto).
    assert (W' : waits_ok (remove_nth k ws)) by (apply Forall_forall; intros x Hx; apply removed_in in Hx; unfold waits_ok in W; rewrite Forall_forall in W; auto).
    pose proof (eff_resume s (pi_shape _ _ I) now w Hw) as E.
    destruct (resume_call now w s) as [s1 e o|s1 w1| |] eqn:C; try discriminate; intros [= <- <- _].
    + split; [|exact W']. exact (effect_inv cfg _ _ _ _ I E).
    + split; [exact (effect_inv cfg _ _ _ _ I E)|]. apply Forall_app. split; [exact W'|]. constructor; [|constructor]. eapply resume_wait; eauto.
    + auto.
  - destruct (flush_partition cfg now part s) as [s1|] eqn:F; [|discriminate]. intros [= <- <- _]. split; [|exact W].
    exact (effect_inv cfg _ _ _ _ I (flush_partition_effect _ _ _ _ _ (pi_shape _ _ I) F)).
  - destruct (flush_all cfg active now s) as [s1|] eqn:F; [|discriminate]. intros [= <- <- _]. split; [|exact W].
    exact (effect_inv cfg _ _ _ _ I (flush_parts_effect _ _ _ _ _ _ _ (pi_shape _ _ I) F)).
Qed.
Lemma preach_inv cfg m : pcfg_ok cfg -> preachable cfg m -> pinv cfg (fst m) /\ waits_ok (snd m).
Proof.
  intros C. induction 1 as [|[s ws] l [s' ws'] ev R IH L S]; [split; [apply pinv_boot|constructor]|].
  destruct IH as [I W]. cbn [fst snd] in *. eapply step_inv; eauto. destruct C as [C _]. lia.
Qed.
