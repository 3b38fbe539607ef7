(** The two ends of a sampling channel along all steps. *)
From Verif Require Import Model.Base Model.Port Spec.PortSpec Spec.ChanSpec Proof.Tac Proof.PortRing Proof.PortInv Proof.PortWait Proof.PortChan.

(** The message of port [id]; [None] if none was ever stored. *)
Definition stored_in (s : pstate) (id : Z) : option (list Z) :=
  if pt_empty (ps_port s id) then None else Some (message (ps_pool s) (ps_port s id)).
Lemma still_stored s s' j : still s s' j -> stored_in s' j = stored_in s j.
Proof.
  intros [E M]. unfold stored_in. rewrite E. destruct (pt_empty _); [reflexivity|]. f_equal. unfold message. apply bytes_ext.
  intros i Hi. apply M. unfold in_buffer. lia.
Qed.
Lemma stored_free id i v s : stored_in (on_port id (set_pt_free v) s) i = stored_in s i.
Proof. unfold stored_in. cbn [ps_pool ps_port on_port]. unfold upd. destruct (i =? id) eqn:E; [|reflexivity]. replace i with id by lia. reflexivity. Qed.
Lemma stored_flush id i v s : stored_in (on_port id (set_pt_flush v) s) i = stored_in s i.
Proof. unfold stored_in. cbn [ps_pool ps_port on_port]. unfold upd. destruct (i =? id) eqn:E; [|reflexivity]. replace i with id by lia. reflexivity. Qed.

(** Storing a message of the size of the port. *)
Lemma write_stored now id data n s : shape (ps_port s id) -> pt_kind (ps_port s id) = PK_SAMPLING -> n = pt_size (ps_port s id) ->
  exists s', write_port now id data n s = Some (s', ERR_OK) /\ stored_in s' id = Some (bytes data n) /\ pt_last (ps_port s' id) = now.
Proof.
  intros Sh K Hn. destruct (shape_samp _ Sh K) as (B & E & _ & Hs).
  destruct (write_store_s now (ps_pool s) (ps_port s id) data n K E ltac:(lia)) as (pool' & p' & W & L & Em & _ & _ & P).
  pose proof (write_frame now (ps_pool s) (ps_port s id) data n pool' p' _ Sh ltac:(lia) W) as (_ & (_ & Ix & Sz & _) & _).
  unfold write_port. rewrite W. eexists. split; [reflexivity|]. unfold stored_in. cbn [ps_pool ps_port on_port set_ps_pool]. rewrite upd_same, Em.
  split; [|exact L]. f_equal. unfold message. rewrite <- Sz, <- Hn. apply bytes_ext. intros i Hi. rewrite P, <- Ix.
  replace ((pt_index (ps_port s id) <=? pt_index (ps_port s id) + i) && (pt_index (ps_port s id) + i <? pt_index (ps_port s id) + n)) with true by lia.
  f_equal. lia.
Qed.
Lemma samp_get s id : shape (ps_port s id) -> pt_kind (ps_port s id) = PK_SAMPLING ->
  port_get (ps_pool s) (ps_port s id) (pt_size (ps_port s id)) =
  Some (ps_port s id, match stored_in s id with None => ERR_EMPTY | Some _ => ERR_OK end, match stored_in s id with None => [] | Some d => d end).
Proof.
  intros Sh K. destruct (shape_samp _ Sh K) as (B & _). unfold port_get, stored_in. rewrite K. change (PK_SAMPLING =? PK_QUEUEING) with false.
  change (PK_SAMPLING =? PK_SAMPLING) with true. destruct (pt_empty _); [reflexivity|]. rewrite Z.ltb_irrefl. repeat f_equal. unfold message.
  apply bytes_ext. intros i _. f_equal. lia.
Qed.

Section Samp.
Variable cfg : pconfig.
Hypothesis C : pcfg_ok cfg.
Variables src dst : Z.
Hypothesis Ch : channel cfg src dst.
Hypothesis Listed : exists i, 0 <= i < q_nby cfg (q_owner cfg src) /\ q_by cfg (q_owner cfg src) i = src.
Variable refresh : Z.

Record samp_rel (s : pstate) (a : samp) : Prop := {
  sr_open : opened PK_SAMPLING s src dst;
  sr_size : pt_size (ps_port s src) = pt_size (ps_port s dst);
  sr_refresh : pt_refresh (ps_port s dst) = refresh;
  sr_out : stored_in s src = sp_out a;
  sr_fresh : sp_out a <> None -> pt_flush (ps_port s src) = sp_fresh a;
  sr_in : stored_in s dst = option_map fst (sp_in a);
  sr_date : forall d t, sp_in a = Some (d, t) -> pt_last (ps_port s dst) = t
}.
(** No date plus refresh period overflows. *)
Definition dated (a : samp) : Prop := forall d t, sp_in a = Some (d, t) -> 0 <= t /\ t + refresh < 2^64.
Lemma dated_flush now a : 0 <= now -> now + refresh < 2^64 -> dated a -> dated (samp_flush now a).
Proof. intros H1 H2 D. unfold samp_flush. destruct (sp_out a); [|exact D]. destruct (sp_fresh a); [|exact D]. intros d t [= _ <-]. auto. Qed.
(** Messages written at the source have the size of the port; no date plus refresh period overflows. *)
Definition full_size (m : pmach) (l : plabel) : Prop :=
  match l with
  | PCall _ _ (RWrite id _ len _) => u8 id = src -> u8 len = pt_size (ps_port (fst m) src)
  | PFlushPart _ now | PFlushAll _ now => now + refresh < 2^64
  | _ => True
  end.

(** Nothing that matters has changed at the source, resp. at the destination. *)
Definition same_src (s s' : pstate) : Prop := stored_in s' src = stored_in s src /\ pt_flush (ps_port s' src) = pt_flush (ps_port s src).
Definition same_dst (s s' : pstate) : Prop := stored_in s' dst = stored_in s dst /\ pt_last (ps_port s' dst) = pt_last (ps_port s dst).
Lemma still_src s s' : still s s' src -> same_src s s'.
Proof. intros S. split; [apply still_stored; exact S|]. destruct S as [-> _]. reflexivity. Qed.
Lemma still_dst s s' : still s s' dst -> same_dst s s'.
Proof. intros S. split; [apply still_stored; exact S|]. destruct S as [-> _]. reflexivity. Qed.
Lemma free_src id v s : same_src s (on_port id (set_pt_free v) s).
Proof. split; [apply stored_free|]. cbn [ps_port on_port]. unfold upd. destruct (src =? id) eqn:E; [|reflexivity]. replace id with src by lia. reflexivity. Qed.
Lemma free_dst id v s : same_dst s (on_port id (set_pt_free v) s).
Proof. split; [apply stored_free|]. cbn [ps_port on_port]. unfold upd. destruct (dst =? id) eqn:E; [|reflexivity]. replace id with dst by lia. reflexivity. Qed.
Lemma same_src_trans s1 s2 s3 : same_src s1 s2 -> same_src s2 s3 -> same_src s1 s3.
Proof. unfold same_src. intuition congruence. Qed.
Lemma same_dst_trans s1 s2 s3 : same_dst s1 s2 -> same_dst s2 s3 -> same_dst s1 s3.
Proof. unfold same_dst. intuition congruence. Qed.

Lemma rel_keeps s s' a : keeps s s' -> same_src s s' -> same_dst s s' -> samp_rel s a -> samp_rel s' a.
Proof.
  intros K [A1 A2] [B1 B2] [H1 H2 H3 H4 H5 H6 H7]. pose proof H1 as (R1 & _ & _ & R2 & _).
  destruct (K _ R1) as (_ & _ & X1 & _). destruct (K _ R2) as (_ & _ & Y1 & _ & _ & _ & Y2 & _). split.
  - eapply opened_keeps; eauto.
  - congruence.
  - congruence.
  - congruence.
  - intros N. rewrite A2. auto.
  - congruence.
  - intros d t E. rewrite B2. eauto.
Qed.

Ltac quiet := match goal with |- match (if ?b then _ else _) with _ => _ end => destruct b eqn:? end.

(** A write at the source. *)
Lemma call_write now part id data len ptr s s' e o a : pinv cfg s -> samp_rel s a -> u8 id = src -> u8 len = pt_size (ps_port s src) ->
  port_call cfg now part (RWrite id data len ptr) s = PRet s' e o ->
  samp_rel s' (if e =? ERR_OK then mkSamp (Some (bytes data (u8 len))) true (sp_in a) else a).
Proof.
  intros I Rl Ri Sz. pose proof (sr_open _ _ Rl) as (R1 & K1 & D1 & R2 & K2 & D2). pose proof (ch_neq _ _ _ Ch) as Ne.
  cbn [port_call]. rewrite Ri. cut_if A; [|intros [= <- <- _]; exact Rl].
  unfold sampling_write, owned. cut_if A1; [intros [= <- <- _]; exact Rl|]. destruct (own_port _ _ _) as [[]|]; [|intros [= <- <- _]; exact Rl|discriminate].
  rewrite R1, D1. cbn [negb]. cut_if A2; [intros [= <- <- _]; exact Rl|]. change (negb (DIR_OUT =? DIR_OUT)) with false. cbn iota.
  set (rest := fun s1 => match write_port now src data (u8 len) s1 with None => PUb | Some (s2, _) => PRet (on_port src (set_pt_flush true) (unlock_port src s2)) ERR_OK ONone end).
  change (lock_port src s (rest s) rest = PRet s' e o -> samp_rel s' (if e =? ERR_OK then mkSamp (Some (bytes data (u8 len))) true (sp_in a) else a)).
  assert (Main : forall s1, pinv cfg s1 -> samp_rel s1 a -> pt_size (ps_port s1 src) = u8 len -> rest s1 = PRet s' e o ->
     samp_rel s' (if e =? ERR_OK then mkSamp (Some (bytes data (u8 len))) true (sp_in a) else a)).
  { intros s1 I1 R Z1 H. pose proof (sr_open _ _ R) as (P1 & Q1 & _ & P2 & Q2 & _).
    destruct (write_stored now src data (u8 len) s1 (pi_shape _ _ I1 src) Q1 (eq_sym Z1)) as (s2 & W & St & _).
    unfold rest in H. rewrite W in H. injection H as <- <- _. change (ERR_OK =? ERR_OK) with true. cbn iota.
    destruct (write_effect_inv cfg now src data (u8 len) s1 s2 ERR_OK I1 (u8_pos _) W) as [Ew Iw].
    pose proof (effect_still cfg _ _ _ _ dst I1 Ew P2 ltac:(auto) ltac:(auto)) as T.
    set (s3 := on_port src (set_pt_flush true) (unlock_port src s2)).
    assert (T3 : still s2 s3 dst).
    { split; [|reflexivity]. unfold s3, unlock_port. cbn [ps_port on_port]. rewrite !upd_other by auto. reflexivity. }
    assert (T' : same_dst s1 s3) by (eapply same_dst_trans; apply still_dst; eassumption).
    assert (Kp : keeps s1 s3).
    { intros i _. destruct Ew as (_ & X & _). destruct (X i) as [Si _]. eapply same_id_trans; [exact Si|].
      unfold s3, unlock_port. cbn [ps_port on_port]. unfold upd. destruct (i =? src) eqn:Ei; [|apply same_id_refl].
      replace i with src by lia. rewrite Z.eqb_refl. repeat split. }
    destruct R as [H1 H2 H3 H4 H5 H6 H7]. destruct (Kp _ P1) as (_ & _ & X1 & _). destruct (Kp _ P2) as (_ & _ & Y1 & _ & _ & _ & Y2 & _). split; cbn [sp_out sp_fresh sp_in].
    - eapply opened_keeps; eauto.
    - congruence.
    - congruence.
    - unfold s3. rewrite stored_flush. unfold unlock_port. rewrite stored_free. exact St.
    - intros _. unfold s3. cbn [ps_port on_port]. rewrite upd_same. reflexivity.
    - destruct T' as [-> _]. exact H6.
    - destruct T' as [_ ->]. exact H7. }
  unfold lock_port. cut_if A3; [apply Main; auto|]. cut_if A4. apply Main.
  - apply (effect_inv cfg (fun i => i = src) (fun _ => False) s); [exact I|]. apply effect_on. intros p. apply shape_free.
  - apply (rel_keeps s); auto; [|apply free_src|apply free_dst].
    apply (effect_keeps (fun i => i = src) (fun _ => False)). apply effect_on. intros p. apply shape_free.
  - cbn [ps_port on_port]. rewrite upd_same. cbn [set_pt_free pt_size]. lia.
Qed.

(** A read at the destination. *)
Lemma call_read now part id ptr s s' e o a : pinv cfg s -> samp_rel s a -> dated a -> 0 <= now < 2^64 -> 0 <= refresh -> u8 id = dst ->
  port_call cfg now part (RRead id ptr) s = PRet s' e o ->
  samp_rel s' a /\ match sp_in a with
      | None => e <> ERR_OK
      | Some (d, t) => e <> ERR_EMPTY /\ (e = ERR_OK -> exists v, o = OMsg d v /\ (v = true <-> now <= t + refresh))
      end.
Proof.
  intros I Rl Da Hnow Hr Ri. pose proof (sr_open _ _ Rl) as (R1 & K1 & D1 & R2 & K2 & D2). pose proof (ch_neq _ _ _ Ch) as Ne.
  assert (No : forall e1 o1, e1 <> ERR_OK -> e1 <> ERR_EMPTY -> PRet s e1 o1 = PRet s' e o ->
    samp_rel s' a /\ match sp_in a with
      | None => e <> ERR_OK
      | Some (d, t) => e <> ERR_EMPTY /\ (e = ERR_OK -> exists v, o = OMsg d v /\ (v = true <-> now <= t + refresh))
      end).
  { intros e1 o1 N1 N2 [= <- <- <-]. split; [exact Rl|]. destruct (sp_in a) as [[d t]|]; [|exact N1]. split; [exact N2|]. intros E. contradiction. }
  cbn [port_call]. rewrite Ri. unfold sampling_read, owned. cut_if A1; [apply No; discriminate|].
  destruct (own_port _ _ _) as [[]|]; [|apply No; discriminate|discriminate]. rewrite R2, K2, D2.
  change (negb true) with false. change (negb (PK_SAMPLING =? PK_SAMPLING)) with false. change (negb (DIR_IN =? DIR_IN)) with false. cbn iota. cbv zeta.
  assert (Main : forall s1, pinv cfg s1 -> samp_rel s1 a -> 
     (if q_nports cfg <=? part then PUb
         else if negb (check_ptr cfg part (u32 ptr) (pt_size (ps_port s1 part))) then PRet s1 ERR_EINVAL ONone
         else match port_get (ps_pool s1) (ps_port s1 dst) (pt_size (ps_port s1 dst)) with
              | None => PUb
              | Some (p, e, d) =>
                  if e =? ERR_EMPTY then PRet (unlock_port dst s1) ERR_EMPTY (OMsg [] false)
                  else PRet (unlock_port dst s1) ERR_OK
                         (OMsg d (negb (u64 (pt_last (ps_port s1 dst) + pt_refresh (ps_port s1 dst)) <? now)))
              end) = PRet s' e o ->
     samp_rel s' a /\ match sp_in a with
      | None => e <> ERR_OK
      | Some (d, t) => e <> ERR_EMPTY /\ (e = ERR_OK -> exists v, o = OMsg d v /\ (v = true <-> now <= t + refresh))
      end).
  { intros s1 I1 Q. cut_if B1. cut_if B2.
    { intros [= <- <- <-]. split; [exact Q|]. destruct (sp_in a) as [[d t]|]; [|discriminate]. split; [discriminate|]. intros E. discriminate. }
    pose proof (sr_open _ _ Q) as (_ & _ & _ & _ & Q2 & _).
    rewrite (samp_get s1 dst (pi_shape _ _ I1 dst) Q2). rewrite (sr_in _ _ Q).
    assert (U : samp_rel (unlock_port dst s1) a).
    { apply (rel_keeps s1); auto; [|apply free_src|apply free_dst].
      apply (effect_keeps (fun i => i = dst) (fun _ => False)). apply effect_on. intros p. apply shape_free. }
    destruct (sp_in a) as [[d t]|] eqn:Si; cbn [option_map fst].
    - change (ERR_OK =? ERR_EMPTY) with false. cbn iota. intros [= <- <- <-]. split; [exact U|]. split; [discriminate|]. intros _.
      eexists. split; [reflexivity|]. rewrite (sr_date _ _ Q d t Si). destruct (Da d t Si) as (T0 & T1). rewrite (sr_refresh _ _ Q).
      unfold u64. rewrite Z.mod_small by lia. rewrite negb_true_iff, Z.ltb_ge. reflexivity.
    - change (ERR_EMPTY =? ERR_EMPTY) with true. cbn iota. intros [= <- <- <-]. split; [exact U|discriminate]. }
  unfold lock_port. cut_if A3; [apply Main; auto|]. cut_if A4. apply Main.
  - apply (effect_inv cfg (fun i => i = dst) (fun _ => False) s); [exact I|]. apply effect_on. intros p. apply shape_free.
  - apply (rel_keeps s); auto; [|apply free_src|apply free_dst].
    apply (effect_keeps (fun i => i = dst) (fun _ => False)). apply effect_on. intros p. apply shape_free.
Qed.

(** All other calls on these ports do nothing. *)
Lemma call_idle now part r s j res : rid r = Some j -> pt_ready (ps_port s j) = true -> pt_kind (ps_port s j) = PK_SAMPLING ->
  match r with RWrite _ _ _ _ => pt_dir (ps_port s j) = DIR_IN | RRead _ _ => pt_dir (ps_port s j) = DIR_OUT | _ => True end ->
  port_call cfg now part r s = res -> match res with PRet s' _ _ => s' = s | PWait _ _ => False | _ => True end.
Proof.
  intros Rd R K D <-.
  destruct r; cbn [rid] in Rd; try discriminate; injection Rd as Rd; cbn [port_call]; rewrite Rd; cbn iota in D.
  - quiet; [|reflexivity]. unfold sampling_write, owned. quiet; [reflexivity|]. destruct (own_port _ _ _) as [[]|]; auto.
    rewrite R, D. cbn [negb]. quiet; [reflexivity|]. reflexivity.
  - unfold sampling_read, owned. quiet; [reflexivity|]. destruct (own_port _ _ _) as [[]|]; auto. rewrite R, K, D. reflexivity.
  - unfold sampling_status, owned. quiet; [reflexivity|]. destruct (own_port _ _ _) as [[]|]; auto. repeat (quiet; [reflexivity|]). reflexivity.
  - quiet; [|reflexivity]. unfold queueing_send, owned. quiet; [reflexivity|]. quiet; [reflexivity|]. destruct (own_port _ _ _) as [[]|]; auto.
    rewrite K. change (negb (PK_SAMPLING =? PK_QUEUEING)) with true. cbn iota. repeat (quiet; [reflexivity|]). reflexivity.
  - quiet; [|reflexivity]. unfold queueing_receive, owned. quiet; [reflexivity|]. quiet; [reflexivity|]. destruct (own_port _ _ _) as [[]|]; auto.
    rewrite K. change (negb (PK_SAMPLING =? PK_QUEUEING)) with true. cbn iota. repeat (quiet; [reflexivity|]). reflexivity.
  - unfold queueing_status, owned. quiet; [reflexivity|]. destruct (own_port _ _ _) as [[]|]; auto. repeat (quiet; [reflexivity|]). reflexivity.
  - unfold virtual_nb_destinations, virtual. quiet; [reflexivity|]. destruct (own_port _ _ _) as [[]|]; auto. quiet; reflexivity.
  - unfold virtual_destination, virtual. quiet; [reflexivity|]. destruct (own_port _ _ _) as [[]|]; auto. quiet; [reflexivity|]. quiet; [reflexivity|]. quiet; auto.
  - unfold virtual_get_global, virtual. quiet; [reflexivity|]. destruct (own_port _ _ _) as [[]|]; auto. quiet; reflexivity.
Qed.

(** *** Flushes *)
Lemma flush_samp now l s s' a : pinv cfg s -> samp_rel s a -> flush_port cfg now l s = Some s' ->
  samp_rel s' (if l =? src then samp_flush now a else a).
Proof.
  intros I Rl F. pose proof (sr_open _ _ Rl) as (R1 & K1 & D1 & R2 & K2 & D2). pose proof (ch_neq _ _ _ Ch) as Ne.
  pose proof (flush_port_effect cfg now l s s' (pi_shape _ _ I) F) as E.
  destruct (l =? src) eqn:El.
  2: { assert (S1 : still s s' src).
       { apply (effect_still cfg _ _ _ _ _ I E R1); [intros (_ & [X|[_ X]]); [lia|rewrite D1 in X; discriminate]|intros (_ & _ & X); rewrite D1 in X; discriminate]. }
       assert (S2 : still s s' dst).
       { apply (effect_still cfg _ _ _ _ _ I E R2).
         - intros (X & [Y|[Y _]]); [subst l; rewrite D2 in X; discriminate|]. apply (ch_only _ _ _ Ch) in Y. lia.
         - intros (_ & Y & _). apply (ch_only _ _ _ Ch) in Y. lia. }
       apply (rel_keeps s); auto; [eapply effect_keeps; eauto|apply still_src; exact S1|apply still_dst; exact S2]. }
  assert (l = src) by lia. subst l. revert F. unfold flush_port. rewrite D1. change (negb (DIR_OUT =? DIR_OUT)) with false. cbn iota.
  pose proof (sr_out _ _ Rl) as So. unfold stored_in in So. destruct (pt_empty (ps_port s src)) eqn:Em.
  { intros [= <-]. unfold samp_flush. rewrite <- So. exact Rl. }
  pose proof (sr_fresh _ _ Rl) as Sf. rewrite <- So in Sf. specialize (Sf ltac:(discriminate)). rewrite Sf.
  unfold samp_flush. rewrite <- So. destruct (sp_fresh a) eqn:Fr; cbn [negb]; [|intros [= <-]; exact Rl].
  destruct (shape_samp _ (pi_shape _ _ I src) K1) as (B0 & E0 & _ & Hs).
  assert (Cs : consumed_size (ps_port s src) = pt_size (ps_port s src)).
  { unfold consumed_size. rewrite Em, B0, E0. change (0 <? 0) with false. cbn iota. unfold u32.
    destruct (pi_ready _ _ I _ R1) as (_ & _ & _ & _ & _ & X & _). unfold PORT_MAX_SIZE in X. rewrite Z.mod_small by lia. lia. }
  cbv zeta. rewrite Cs, (samp_get s src (pi_shape _ _ I src) K1).
  assert (Sto : stored_in s src = Some (message (ps_pool s) (ps_port s src))) by (unfold stored_in; rewrite Em; reflexivity).
  rewrite Sto. change (negb (ERR_OK =? ERR_OK)) with false. cbn iota. set (w := message (ps_pool s) (ps_port s src)) in *.
  set (data := fun i => nth (Z.to_nat i) w 0). set (n := pt_size (ps_port s src)) in *. set (s1 := on_port src (fun _ => ps_port s src) s).
  assert (Hd : bytes data n = w) by (apply bytes_nth_eq; unfold w, message; rewrite bytes_len; fold n; lia).
  assert (E1 : effect (fun i => i = src) (fun _ => False) s s1).
  { apply (effect_get src n s (ps_port s src) ERR_OK w (fun _ => False) (pi_shape _ _ I src)); [lia|]. unfold n. rewrite (samp_get s src (pi_shape _ _ I src) K1), Sto. reflexivity. }
  pose proof (effect_inv cfg _ _ _ _ I E1) as I1.
  assert (P1 : forall i, ps_port s1 i = ps_port s i).
  { intros i. unfold s1. cbn [ps_port on_port]. unfold upd. destruct (i =? src) eqn:Ei; [|reflexivity]. replace i with src by lia. reflexivity. }
  destruct (deliver _ _ _ _ _ _ _ s1) as [s2|] eqn:Dl; [|discriminate]. intros [= <-].
  assert (T2 : still s1 s2 src) by (apply (deliver_out cfg now src data n s1 s2 src I1); [lia|rewrite P1; exact R1|rewrite P1; exact D1|exact Dl]).
  destruct (ch_once _ _ _ Ch) as (j0 & Hj0 & On).
  destruct (deliver_split cfg src dst now data n (Z.to_nat (q_ndest cfg src)) j0 Hs On 0 s1 s2 I1) as (t1 & t2 & e & T3 & It & W & T4); try lia; auto.
  { rewrite P1. exact R2. } { rewrite P1. exact D2. }
  assert (T5 : ps_port t1 dst = ps_port s dst) by (destruct T3 as [-> _]; apply P1).
  destruct (write_stored now dst data n t1 (pi_shape _ _ It dst)) as (t2' & W' & St & La).
  { rewrite T5. exact K2. } { rewrite T5. unfold n. apply (sr_size _ _ Rl). }
  rewrite W in W'. injection W' as -> _.
  set (s3 := on_port src (set_pt_flush false) s2).
  assert (T6 : still s2 s3 dst). { split; [|reflexivity]. unfold s3. cbn [ps_port on_port]. apply upd_other. auto. }
  assert (T7 : same_dst t2' s3) by (eapply same_dst_trans; apply still_dst; eassumption). destruct T7 as [T7 T8].
  pose proof (effect_keeps _ _ _ _ E) as Kp. fold s3 in Kp, E.
  destruct Rl as [H1 H2 H3 H4 H5 H6 H7]. destruct (Kp _ R1) as (_ & _ & X1 & _). destruct (Kp _ R2) as (_ & _ & Y1 & _ & _ & _ & Y2 & _).
  split; cbn [sp_out sp_fresh sp_in option_map fst].
  - eapply opened_keeps; eauto.
  - congruence.
  - congruence.
  - unfold s3. rewrite stored_flush, (still_stored _ _ _ T2). unfold stored_in. rewrite P1, Em. reflexivity.
  - intros _. unfold s3. cbn [ps_port on_port]. rewrite upd_same. reflexivity.
  - rewrite T7, St, Hd. reflexivity.
  - intros d t [= _ <-]. rewrite T8. exact La.
Qed.
Lemma samp_flush_idem now a : samp_flush now (samp_flush now a) = samp_flush now a.
Proof. unfold samp_flush. destruct (sp_out a) as [d|] eqn:O; [|rewrite O; reflexivity]. destruct (sp_fresh a) eqn:F; [reflexivity|]. rewrite O, F. reflexivity. Qed.

Lemma flush_loop_samp now part n : 0 <= part < q_nparts cfg -> forall i s s' a, pinv cfg s -> samp_rel s a -> 0 <= i -> i + Z.of_nat n <= q_nby cfg part ->
  flush_loop n cfg now part i s = Some s' ->
  pinv cfg s' /\ exists b, samp_rel s' b /\ (b = a \/ b = samp_flush now a /\ part = q_owner cfg src) /\ ((exists k, i <= k < i + Z.of_nat n /\ q_by cfg part k = src) -> b = samp_flush now a).
Proof.
  intros Hp. induction n as [|n IH]; intros i s s' a I Rl Hi Hn; cbn [flush_loop].
  - intros [= <-]. split; [exact I|]. exists a. split; [exact Rl|]. split; [auto|]. intros (k & K & _). lia.
  - destruct (flush_port cfg now (q_by cfg part i) s) as [s1|] eqn:F; [|discriminate]. intros H.
    pose proof (effect_inv cfg _ _ _ _ I (flush_port_effect cfg now _ s s1 (pi_shape _ _ I) F)) as I1.
    pose proof (flush_samp now _ s s1 a I Rl F) as R1. destruct (pc_by _ C part i Hp ltac:(lia)) as [B1 B2].
    destruct (IH (i + 1) s1 s' _ I1 R1 ltac:(lia) ltac:(lia) H) as (I2 & b & Rb & Hb & Hk). split; [exact I2|]. exists b. split; [exact Rb|].
    destruct (q_by cfg part i =? src) eqn:Es.
    + assert (X : b = samp_flush now a) by (destruct Hb as [-> |[-> _]]; [reflexivity|apply samp_flush_idem]).
      split; [right; split; [exact X|rewrite <- B2; f_equal; lia]|auto].
    + split; [exact Hb|]. intros (k & K & E). apply Hk. exists k. split; [|exact E]. destruct (Z.eq_dec k i) as [->|]; lia.
Qed.
Lemma flush_partition_samp now part s s' a : 0 <= part < q_nparts cfg -> pinv cfg s -> samp_rel s a ->
  flush_partition cfg now part s = Some s' -> pinv cfg s' /\ samp_rel s' (if part =? q_owner cfg src then samp_flush now a else a).
Proof.
  intros Hp I Rl. unfold flush_partition. intros H. destruct (part =? q_owner cfg src) eqn:E.
  - destruct Listed as (k & K1 & K2). replace (q_owner cfg src) with part in * by lia.
    destruct (flush_loop_samp now part (Z.to_nat (q_nby cfg part)) Hp 0 s s' a I Rl ltac:(lia) ltac:(lia) H) as (I2 & b & Rb & _ & Hb).
    split; [exact I2|]. rewrite <- Hb; [exact Rb|]. exists k. split; [lia|exact K2].
  - destruct (Z_le_gt_dec 0 (q_nby cfg part)) as [Q|Q].
    + destruct (flush_loop_samp now part (Z.to_nat (q_nby cfg part)) Hp 0 s s' a I Rl ltac:(lia) ltac:(lia) H) as (I2 & b & Rb & Hb & _).
      split; [exact I2|]. destruct Hb as [-> |[_ Hb]]; [exact Rb|lia].
    + replace (Z.to_nat (q_nby cfg part)) with O in H by lia. injection H as <-. auto.
Qed.
Lemma flush_parts_samp active now n : forall p s s' a, 0 <= p -> p + Z.of_nat n <= q_nparts cfg -> pinv cfg s -> samp_rel s a ->
  flush_parts n cfg active now p s = Some s' ->
  samp_rel s' (if (p <=? q_owner cfg src) && (q_owner cfg src <? p + Z.of_nat n) && active (q_owner cfg src) then samp_flush now a else a).
Proof.
  induction n as [|n IH]; intros p s s' a Hp Hn I Rl; cbn [flush_parts].
  - intros [= <-]. replace ((p <=? q_owner cfg src) && (q_owner cfg src <? p + Z.of_nat 0)) with false by lia. exact Rl.
  - destruct (active p) eqn:A.
    + destruct (flush_partition cfg now p s) as [s1|] eqn:F; [|discriminate]. intros H.
      destruct (flush_partition_samp now p s s1 a ltac:(lia) I Rl F) as [I1 R1].
      pose proof (IH (p + 1) s1 s' _ ltac:(lia) ltac:(lia) I1 R1 H) as X.
      destruct (p =? q_owner cfg src) eqn:E.
      * replace ((p + 1 <=? q_owner cfg src) && (q_owner cfg src <? p + 1 + Z.of_nat n)) with false in X by lia.
        replace ((p <=? q_owner cfg src) && (q_owner cfg src <? p + Z.of_nat (S n))) with true by lia.
        replace (q_owner cfg src) with p by lia. rewrite A. exact X.
      * replace ((p <=? q_owner cfg src) && (q_owner cfg src <? p + Z.of_nat (S n))) with ((p + 1 <=? q_owner cfg src) && (q_owner cfg src <? p + 1 + Z.of_nat n)) by lia. exact X.
    + intros H. pose proof (IH (p + 1) s s' _ ltac:(lia) ltac:(lia) I Rl H) as X. destruct (p =? q_owner cfg src) eqn:E.
      * replace ((p + 1 <=? q_owner cfg src) && (q_owner cfg src <? p + 1 + Z.of_nat n)) with false in X by lia.
        replace (q_owner cfg src) with p by lia. rewrite A, andb_false_r. exact X.
      * replace ((p <=? q_owner cfg src) && (q_owner cfg src <? p + Z.of_nat (S n))) with ((p + 1 <=? q_owner cfg src) && (q_owner cfg src <? p + 1 + Z.of_nat n)) by lia. exact X.
Qed.

(** *** Steps and runs *)
Lemma step_samp s ws l s' ws' ev a : pinv cfg s -> waits_ok ws -> Forall (wait_ok cfg s) ws -> samp_rel s a -> dated a -> 0 <= refresh -> plabel_ok cfg l -> full_size (s, ws) l ->
  pstep cfg (s, ws) l = Some ((s', ws'), ev) -> read_ok dst refresh a l ev /\ samp_rel s' (samp_step cfg src a l ev) /\ dated (samp_step cfg src a l ev).
Proof.
  intros I Wo Wk Rl Da Hr L G S. pose proof (sr_open _ _ Rl) as (R1 & K1 & D1 & R2 & K2 & D2). pose proof (ch_neq _ _ _ Ch) as Ne.
  assert (Hn : 0 <= q_nports cfg) by (destruct C as [X _]; lia).
  assert (Da' : dated (samp_step cfg src a l ev)).
  { destruct l as [part now r|k now|part now|active now]; cbn [samp_step plabel_ok full_size] in *; auto.
    - destruct r; auto. destruct ev as [|[] []]; auto. destruct (_ && _); auto.
    - destruct (_ =? _); [apply dated_flush; auto; lia|exact Da].
    - destruct (active _); [apply dated_flush; auto; lia|exact Da]. }
  cut (read_ok dst refresh a l ev /\ samp_rel s' (samp_step cfg src a l ev)); [intuition|]. clear Da'.
  destruct l as [part now r|k now|part now|active now]; cbn [pstep] in S.
  - cbn [plabel_ok] in L.
    assert (Def : (match r with RWrite id _ _ _ => u8 id <> src | RRead id _ => u8 id <> dst | _ => True end) -> read_ok dst refresh a (PCall part now r) ev /\ samp_step cfg src a (PCall part now r) ev = a).
    { intros H. destruct r; cbn [read_ok samp_step]; auto.
      - destruct ev as [|[] []]; auto. replace (u8 id =? src) with false by lia. auto.
      - destruct ev as [|[] []]; auto. split; [intros; contradiction|reflexivity]. }
    assert (Key : (match r with RWrite id _ _ _ => u8 id = src | RRead id _ => u8 id = dst | _ => False end) \/ (match r with RWrite id _ _ _ => u8 id <> src | RRead id _ => u8 id <> dst | _ => True end)).
    { destruct r; auto; [destruct (Z.eq_dec (u8 id) src); auto|destruct (Z.eq_dec (u8 id) dst); auto]. }
    destruct Key as [Key|Key].
    + destruct r; try contradiction.
      * destruct (port_call cfg now part (RWrite id data len ptr) s) as [s1 e o|s1 w| |] eqn:P; try discriminate; injection S as <- <- <-; (split; [exact Logic.I|]).
        -- cbn [samp_step]. rewrite Key, Z.eqb_refl. cbn [andb]. eapply call_write; eauto.
        -- exfalso. 
           cbn [port_call] in P. revert P. cut_if A. unfold sampling_write, owned. cut_if A1. destruct (own_port _ _ _) as [[]|]; try discriminate. cut_if A2. cut_if A3. cut_if A4. cbv zeta.
           unfold lock_port. cut_if A5; [|cut_if A6]; destruct (write_port _ _ _ _ _) as [[]|]; discriminate.
        -- exact Rl.
      * destruct (port_call cfg now part (RRead id ptr) s) as [s1 e o|s1 w| |] eqn:P; try discriminate; injection S as <- <- <-.
        -- destruct (call_read now part id ptr s s1 e o a I Rl Da ltac:(lia) Hr Key P) as [X Y]. split; [cbn [read_ok]; intros _; exact Y|exact X].
        -- split; [exact Logic.I|]. exfalso. revert P. cbn [port_call]. unfold sampling_read, owned. cut_if A1. destruct (own_port _ _ _) as [[]|]; try discriminate. cut_if A2. cut_if A3. cut_if A4. cbv zeta.
           unfold lock_port. cut_if A5; [|cut_if A6]; (cut_if A7; cut_if A8; destruct (port_get _ _ _) as [[[p e] d]|]; [|discriminate]; cut_if A9; discriminate).
        -- split; [exact Logic.I|exact Rl].
    + destruct (Def Key) as [X ->]. split; [exact X|]. clear Def X.
      assert (St : forall t, (exists e o, port_call cfg now part r s = PRet t e o) \/ (exists w, port_call cfg now part r s = PWait t w) -> samp_rel t a).
      { intros t H. pose proof (call_keeps cfg now part r s t Hn I H) as Kp.
        assert (Idle : forall j, rid r = Some j -> j = src \/ j = dst -> t = s).
        { intros j Rd Hj. assert (Q : pt_ready (ps_port s j) = true /\ pt_kind (ps_port s j) = PK_SAMPLING) by (destruct Hj; subst j; auto). destruct Q as [Q1 Q2].
          assert (Q3 : match r with RWrite _ _ _ _ => pt_dir (ps_port s j) = DIR_IN | RRead _ _ => pt_dir (ps_port s j) = DIR_OUT | _ => True end).
          { destruct r; auto; cbn [rid] in Rd; injection Rd as Rd; (destruct Hj as [E|E]; [try (exfalso; congruence)|try (exfalso; congruence)]; rewrite E; assumption). }
          pose proof (call_idle now part r s j _ Rd Q1 Q2 Q3 eq_refl) as Z1. destruct H as [(e & o & H)|(w & H)]; rewrite H in Z1; [exact Z1|contradiction]. }
        assert (Cs : (exists j, rid r = Some j /\ (j = src \/ j = dst)) \/ (rid r <> Some src /\ rid r <> Some dst)).
        { destruct (rid r) as [j|]; [|right; split; discriminate]. destruct (Z.eq_dec j src) as [->|N1]; [left; eauto|]. destruct (Z.eq_dec j dst) as [->|N2]; [left; eauto|].
          right; split; congruence. }
        destruct Cs as [(j & Rd & Hj)|[N1 N2]]; [rewrite (Idle j Rd Hj); exact Rl|].
        apply (rel_keeps s); auto; [apply still_src|apply still_dst]; eapply call_still; eauto. }
      destruct (port_call cfg now part r s) as [s1 e o|s1 w| |] eqn:P; try discriminate; injection S as <- <- <-; [apply St; left; eauto|apply St; right; eauto|exact Rl].
  - split; [exact Logic.I|]. cbn [samp_step]. destruct (nth_error ws k) as [w|] eqn:N; [|injection S as <- <- <-; exact Rl].
    assert (Hw : 0 <= wlen w) by (apply nth_error_In in N; unfold waits_ok in Wo; rewrite Forall_forall in Wo; auto).
    assert (Kw : wait_ok cfg s w) by (apply nth_error_In in N; rewrite Forall_forall in Wk; auto). destruct Kw as (_ & _ & Kd & _).
    assert (N1 : wid w <> src) by (intros E; rewrite E, K1 in Kd; discriminate). assert (N2 : wid w <> dst) by (intros E; rewrite E, K2 in Kd; discriminate).
    pose proof (eff_resume s (pi_shape _ _ I) now w Hw) as E.
    destruct (resume_call now w s) as [s1 e o|s1 w1| |] eqn:P; try discriminate; injection S as <- <- <-; try exact Rl;
      (apply (rel_keeps s); auto; [eapply effect_keeps; eauto|apply still_src|apply still_dst]; apply (effect_still cfg _ _ _ _ _ I E); auto).
  - split; [exact Logic.I|]. destruct (flush_partition cfg now part s) as [s1|] eqn:F; [|discriminate]. injection S as <- <- <-. cbn [plabel_ok full_size samp_step] in *.
    apply (flush_partition_samp now part s s1 a); auto; lia.
  - split; [exact Logic.I|]. destruct (flush_all cfg active now s) as [s1|] eqn:F; [|discriminate]. injection S as <- <- <-. cbn [plabel_ok full_size samp_step] in *.
    unfold flush_all in F. destruct C as [_ C2 C3 _ _]. specialize (C3 src (ch_src _ _ _ Ch)).
    pose proof (flush_parts_samp active now (Z.to_nat (q_nparts cfg)) 0 s s1 a ltac:(lia) ltac:(lia) I Rl F) as X.
    replace ((0 <=? q_owner cfg src) && (q_owner cfg src <? 0 + Z.of_nat (Z.to_nat (q_nparts cfg)))) with true in X by lia. exact X.
Qed.
Lemma run_samp ls : 0 <= refresh -> forall m tr a, preachable cfg m -> samp_rel (fst m) a -> dated a -> Forall (plabel_ok cfg) ls -> guarded cfg full_size m ls ->
  ptrace cfg m ls = Some tr -> reads_ok cfg src dst refresh a tr.
Proof.
  intros Hr. induction ls as [|l ls IH]; intros [s ws] tr a Rc Rl Da L G; cbn [ptrace]; [intros [= <-]; exact Logic.I|].
  inversion L as [|? ? L1 L2]; subst. cbn [guarded] in G. destruct G as [G1 G2].
  destruct (pstep cfg (s, ws) l) as [[[s1 ws1] e1]|] eqn:S; [|discriminate]. destruct (ptrace cfg (s1, ws1) ls) as [tr1|] eqn:P; [|discriminate].
  intros [= <-]. destruct (preach_inv cfg _ C Rc) as [I W]. pose proof (preach_waits cfg _ C Rc) as Wk. cbn [fst snd] in *.
  destruct (step_samp s ws l s1 ws1 e1 a I W Wk Rl Da Hr L1 G1 S) as (X & Y & Y'). cbn [reads_ok]. split; [exact X|].
  apply (IH (s1, ws1)); auto. eapply pr_step; eauto.
Qed.
End Samp.
