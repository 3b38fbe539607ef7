(** Contents of the two ends of a channel along all steps. *)
From Verif Require Import Model.Base Model.Port Spec.PortSpec Spec.ChanSpec Proof.Tac Proof.PortRing Proof.PortInv Proof.PortWait.

Lemma shape_holds p : shape p -> pt_kind p = PK_QUEUEING -> ring_ok p \/ pt_empty p = true.
Proof. intros [A B C D|A B|A B C D E F|A B C D E] K; auto. rewrite A in K; discriminate. Qed.

(** A port that is not concerned keeps all it has. *)
Definition still (s s' : pstate) (j : Z) : Prop :=
  ps_port s' j = ps_port s j /\ (forall a, in_buffer (ps_port s j) a -> ps_pool s' a = ps_pool s a).
Lemma still_refl s j : still s s j. Proof. split; auto. Qed.
Lemma still_trans s1 s2 s3 j : still s1 s2 j -> still s2 s3 j -> still s1 s3 j.
Proof. intros [A B] [C D]. split; [congruence|]. intros a H. rewrite D by (rewrite A; exact H). apply B. exact H. Qed.
Lemma effect_still cfg P W s s' j : pinv cfg s -> effect P W s s' -> pt_ready (ps_port s j) = true -> ~ P j -> ~ W j -> still s s' j.
Proof.
  intros I (_ & _ & F & M) R NP NW. split; [apply F; exact NP|].
  intros a Ha. apply M. intros i Hi B. destruct (Z.eq_dec i j) as [->|N]; [contradiction|].
  destruct (pt_ready (ps_port s i)) eqn:Ri; [exact (pi_disj _ _ I i j a N Ri R B Ha)|].
  destruct (pi_idle _ _ I i Ri) as (S0 & _). unfold in_buffer in B. lia.
Qed.
Lemma still_held s s' j : still s s' j -> shape (ps_port s j) -> pt_kind (ps_port s j) = PK_QUEUEING -> held s' j = held s j.
Proof. intros [E M] Sh K. unfold held. rewrite E. apply content_ext; auto. apply shape_holds; auto. Qed.
Lemma create_still cfg part nm sz d kd s sx ex ox g j : 0 <= q_nports cfg -> port_create cfg part nm sz d kd s = (sx, ex, ox) ->
  pt_ready (ps_port s j) = true -> still s sx j /\ (ex = ERR_OK -> forall id, ox = Some id -> still s (on_port id g sx) j).
Proof.
  intros Hn Cr R. destruct (create_cases _ _ _ _ _ _ _ _ _ _ Hn Cr) as [[-> Ne]|X]; [split; [apply still_refl|congruence]|].
  destruct X as (id & -> & -> & _ & _ & _ & _ & Nr & _ & _ & _ & Pl & _ & Oth & _).
  assert (K : j <> id) by congruence. split.
  - split; [apply Oth; exact K|]. intros a _. rewrite Pl. reflexivity.
  - intros _ id' [= <-]. split; [|intros a _; cbn [on_port ps_pool]; rewrite Pl; reflexivity].
    cbn [ps_port on_port]. rewrite upd_other by exact K. apply Oth. exact K.
Qed.
Lemma call_still cfg now part r s s' j : 0 <= q_nports cfg -> pinv cfg s -> pt_ready (ps_port s j) = true -> rid r <> Some j ->
  (exists e o, port_call cfg now part r s = PRet s' e o) \/ (exists w, port_call cfg now part r s = PWait s' w) -> still s s' j.
Proof.
  intros Hn I Rj Ne H. destruct (rid r) as [id|] eqn:R.
  - pose proof (eff_call cfg now part r id s (pi_shape _ _ I) R) as E.
    assert (N : j <> id) by congruence.
    destruct H as [(e & o & H)|(w & H)]; rewrite H in E; apply (effect_still cfg _ _ _ _ _ I E Rj); exact N.
  - destruct r; cbn [rid port_call] in *; try discriminate.
    + unfold sampling_create in H. destruct (port_create cfg part name (u32 size) (u8 dir) PK_SAMPLING s) as [[s1 e1] o1] eqn:C.
      destruct (create_still _ _ _ _ _ _ _ _ _ _ (set_pt_fresh (u32 refresh) 0) j Hn C Rj) as [K1 K2].
      destruct o1 as [i|]; [destruct (e1 =? ERR_OK) eqn:E|]; (destruct H as [(e & o & H)|(w & H)]; [|discriminate]); injection H as <- _ _; auto. apply K2; auto. lia.
    + unfold queueing_create in H. destruct (negb fifo); [destruct H as [(e & o & [= <- _ _])|(w & H)]; [apply still_refl|discriminate]|].
      destruct (port_create cfg part name (u32 size) (u8 dir) PK_QUEUEING s) as [[s1 e1] o1] eqn:C.
      destruct (create_still _ _ _ _ _ _ _ _ _ _ (fun p => set_pt_fresh (pt_refresh p) (pt_last p) p) j Hn C Rj) as [K1 K2].
      destruct o1 as [i|]; [destruct (e1 =? ERR_OK) eqn:E|]; (destruct H as [(e & o & H)|(w & H)]; [|discriminate]); injection H as <- _ _; auto. apply K2; auto. lia.
    + unfold virtual_node in H. destruct (_ <=? _); destruct H as [(e & o & H)|(w & H)]; try discriminate. injection H as <- _ _. apply still_refl.
Qed.
Lemma held_free id i v s : held (on_port id (set_pt_free v) s) i = held s i.
Proof. unfold held. cbn [ps_pool ps_port on_port]. unfold upd. destruct (i =? id) eqn:E; [|reflexivity]. replace i with id by lia. reflexivity. Qed.
Lemma held_flush id i v s : held (on_port id (set_pt_flush v) s) i = held s i.
Proof. unfold held. cbn [ps_pool ps_port on_port]. unfold upd. destruct (i =? id) eqn:E; [|reflexivity]. replace i with id by lia. reflexivity. Qed.
Lemma held_unlock id i s : held (unlock_port id s) i = held s i.
Proof. apply held_free. Qed.

(** A write that fits appends. *)
Lemma write_held now id data n s s' e : shape (ps_port s id) -> pt_kind (ps_port s id) = PK_QUEUEING -> 0 < n -> pt_full (ps_port s id) = false ->
  pending (ps_port s id) + n <= pt_size (ps_port s id) -> write_port now id data n s = Some (s', e) ->
  held s' id = held s id ++ bytes data n.
Proof.
  intros Sh K Hn Fu Fit. assert (0 <= pending (ps_port s id)).
  { destruct (shape_holds _ Sh K) as [R|E]; [apply pending_bounds; exact R|unfold pending; rewrite E; lia]. }
  assert (R : ring_ok (ps_port s id)) by (apply shape_ring; [exact Sh|exact K|lia]).
  destruct (write_spec now (ps_pool s) (ps_port s id) data n K R Fu Hn Fit) as (pool' & p' & W & C & _). unfold write_port. rewrite W.
  intros [= <- _]. unfold held. cbn [ps_pool ps_port on_port set_ps_pool]. rewrite upd_same. exact C.
Qed.
Lemma free_pending s id v : pending (ps_port (on_port id (set_pt_free v) s) id) = pending (ps_port s id).
Proof. cbn [ps_port on_port]. rewrite upd_same. reflexivity. Qed.

(** The loop of a send on an open source. *)
Lemma send_loop_held now part id data len tmo s : shape (ps_port s id) -> pt_kind (ps_port s id) = PK_QUEUEING -> 0 < len ->
  pt_full (ps_port s id) = true \/ pending (ps_port s id) + len <= pt_size (ps_port s id) ->
  match send_loop now part id data len tmo s with
  | PRet s' e _ => held s' id = held s id ++ (if e =? ERR_OK then bytes data len else [])
  | PWait s' _ => held s' id = held s id
  | PStuck | PUb => True
  end.
Proof.
  intros Sh K Hl G. unfold send_loop. destruct (available_size (ps_port s id) <? len) eqn:Av.
  - destruct (tmo =? 0).
    + rewrite held_unlock. change (ERR_FULL =? ERR_OK) with false. rewrite app_nil_r. reflexivity.
    + apply held_unlock.
  - assert (Fu : pt_full (ps_port s id) = false).
    { unfold available_size in Av. destruct (pt_full (ps_port s id)); [lia|reflexivity]. }
    destruct G as [G|G]; [congruence|]. destruct (write_port now id data len s) as [[s1 e]|] eqn:W; [|exact I].
    rewrite held_unlock, held_flush. change (ERR_OK =? ERR_OK) with true. apply (write_held now id data len s s1 e); auto.
Qed.
(** The loop of a reception on an open destination. *)
Lemma receive_loop_held now part id maxlen tmo s : shape (ps_port s id) -> pt_kind (ps_port s id) = PK_QUEUEING -> pt_size (ps_port s id) < 2^32 -> 0 < maxlen ->
  match receive_loop now part id maxlen tmo s with
  | PRet s' e (OData d) => d ++ held s' id = held s id /\ (e <> ERR_OK -> d = []) /\ (e = ERR_OK -> Z.of_nat (length d) = Z.min maxlen (pending (ps_port s id)) /\ d <> [])
  | PWait s' _ => held s' id = held s id
  | PRet _ _ _ | PUb => False
  | PStuck => True
  end.
Proof.
  intros Sh K Sz Hl. unfold receive_loop. destruct (pt_empty (ps_port s id)) eqn:Em.
  - destruct (tmo =? 0).
    + rewrite held_unlock. repeat split; auto; discriminate.
    + apply held_unlock.
  - cbv zeta. assert (R : ring_ok (ps_port s id)) by (destruct (shape_holds _ Sh K) as [R|E]; [exact R|congruence]).
    rewrite consumed_pending by auto. pose proof (pending_pos _ R Em) as Hp. pose proof (pending_bounds _ R) as Hb.
    set (n := if pending (ps_port s id) <? maxlen then pending (ps_port s id) else maxlen).
    assert (Hn : 0 < n <= pending (ps_port s id)) by (unfold n; destruct (_ <? _) eqn:?; lia).
    assert (En : n = Z.min maxlen (pending (ps_port s id))) by (unfold n; destruct (_ <? _) eqn:?; lia).
    destruct (get_spec (ps_pool s) (ps_port s id) n K R Hn) as (p' & G & C & _). rewrite G. change (ERR_OK =? ERR_OK) with true.
    rewrite held_unlock. unfold held. cbn [ps_pool ps_port on_port]. rewrite upd_same, C.
    assert (Len : length (firstn (Z.to_nat n) (content (ps_pool s) (ps_port s id))) = Z.to_nat n).
    { rewrite firstn_length. unfold content. rewrite bytes_len. lia. }
    split; [apply firstn_skipn|]. split; [congruence|]. intros _. split; [rewrite Len; lia|].
    intros E. apply (f_equal (@length Z)) in E. rewrite Len in E. cbn in E. lia.
Qed.

Section Chan.
Variable cfg : pconfig.
Hypothesis C : pcfg_ok cfg.
Variables src dst : Z.
Hypothesis Ch : channel cfg src dst.

(** A send on the source that is accepted fits. *)
Definition room_for (s : pstate) (n : Z) : Prop :=
  pt_full (ps_port s src) = true \/ pending (ps_port s src) + n <= pt_size (ps_port s src).
(** What is in the source fits in the destination. *)
Definition room_to_flush (s : pstate) : Prop :=
  pt_empty (ps_port s src) = true \/
  pt_full (ps_port s dst) = false /\ pending (ps_port s dst) + pending (ps_port s src) <= pt_size (ps_port s dst).
Definition roomy (m : pmach) (l : plabel) : Prop :=
  match l with
  | PCall part now r =>
      match r with
      | RSend id _ len _ _ => u8 id = src -> room_for (fst m) (u8 len)
      | RWrite id _ _ _ => u8 id <> src
      | _ => True
      end
  | PResume k now => forall part id data len tmo dl, nth_error (snd m) k = Some (WSend part id data len tmo dl) -> id = src -> room_for (fst m) len
  | PFlushPart part _ => part = q_owner cfg src -> room_to_flush (fst m)
  | PFlushAll active _ => active (q_owner cfg src) = true -> room_to_flush (fst m)
  end.

Lemma opened_keeps kind s s' : keeps s s' -> opened kind s src dst -> opened kind s' src dst.
Proof.
  intros K (A & B & D & E & F & G). destruct (K _ A) as (_ & _ & _ & X1 & X2 & X3 & _). destruct (K _ E) as (_ & _ & _ & Y1 & Y2 & Y3 & _).
  unfold opened. rewrite <- X1, <- X2, <- X3, <- Y1, <- Y2, <- Y3. auto 10.
Qed.

(** *** Calls on queueing channels *)
Lemma locked_send now part data len tmo s : pinv cfg s -> opened PK_QUEUEING s src dst -> 0 < len -> room_for s len ->
  match send_loop now part src data len tmo (on_port src (set_pt_free false) s) with
  | PRet s' e _ => held s' src = held s src ++ (if e =? ERR_OK then bytes data len else [])
  | PWait s' _ => held s' src = held s src
  | PStuck | PUb => True
  end.
Proof.
  intros I (R & K & D & _) Hl G. rewrite <- (held_free src src false s). set (s1 := on_port src (set_pt_free false) s).
  assert (S1 : ps_port s1 src = set_pt_free false (ps_port s src)) by (unfold s1; cbn [ps_port on_port]; apply upd_same).
  apply send_loop_held; auto.
  - rewrite S1. apply shape_free, (pi_shape _ _ I).
  - rewrite S1. exact K.
  - rewrite S1. exact G.
Qed.
Lemma locked_receive now part id maxlen tmo s : pinv cfg s -> pt_ready (ps_port s id) = true -> pt_kind (ps_port s id) = PK_QUEUEING -> 0 < maxlen ->
  match receive_loop now part id maxlen tmo (on_port id (set_pt_free false) s) with
  | PRet s' e (OData d) => d ++ held s' id = held s id /\ (e <> ERR_OK -> d = []) /\ (e = ERR_OK -> Z.of_nat (length d) = Z.min maxlen (pending (ps_port s id)) /\ d <> [])
  | PWait s' _ => held s' id = held s id
  | PRet _ _ _ | PUb => False
  | PStuck => True
  end.
Proof.
  intros I R K Hl. rewrite <- (held_free id id false s), <- (free_pending s id false). set (s1 := on_port id (set_pt_free false) s).
  assert (S1 : ps_port s1 id = set_pt_free false (ps_port s id)) by (unfold s1; cbn [ps_port on_port]; apply upd_same).
  apply receive_loop_held; auto.
  - rewrite S1. apply shape_free, (pi_shape _ _ I).
  - rewrite S1. exact K.
  - rewrite S1. destruct (pi_ready _ _ I _ R) as (_ & _ & _ & _ & _ & X & _). cbn [set_pt_free pt_size]. unfold PORT_MAX_SIZE in X. lia.
Qed.

Ltac quiet := match goal with |- match (if ?b then _ else _) with _ => _ end => destruct b end.

Lemma call_src now part r s ws : pinv cfg s -> opened PK_QUEUEING s src dst -> rid r = Some src -> roomy (s, ws) (PCall part now r) ->
  match port_call cfg now part r s with
  | PRet s' e o => held s' src = held s src ++ sent_of src (EvRet part r e o) /\ received_of dst (EvRet part r e o) = []
  | PWait s' _ => held s' src = held s src
  | PStuck | PUb => True
  end.
Proof.
  intros I Op Rd G. pose proof Op as (R & K & D & _). pose proof (ch_neq _ _ _ Ch) as Ne.
  assert (No : forall e o, e <> ERR_OK \/ (match r with RSend _ _ _ _ _ | RReceive _ _ _ _ => False | _ => True end) ->
     held s src = held s src ++ sent_of src (EvRet part r e o) /\ received_of dst (EvRet part r e o) = []).
  { intros e o H. destruct r; cbn [sent_of received_of]; rewrite ?app_nil_r; auto.
    - destruct H as [H|[]]. replace (e =? ERR_OK) with false by lia. rewrite andb_false_r, app_nil_r. auto.
    - destruct H as [H|[]]. destruct o; auto. replace (e =? ERR_OK) with false by lia. rewrite andb_false_r. auto. }
  destruct r; cbn [rid] in Rd; try discriminate; injection Rd as Rd; cbn [port_call]; rewrite Rd.
  - cbn [roomy] in G. contradiction.
  - unfold sampling_read, owned. destruct (_ <? _); [apply No; left; discriminate|]. destruct (own_port _ _ _) as [[]|]; [|apply No; left; discriminate|exact Logic.I].
    rewrite R, K. apply No; left; discriminate.
  - unfold sampling_status, owned. destruct (_ <? _); [apply No; left; discriminate|]. destruct (own_port _ _ _) as [[]|]; [|apply No; left; discriminate|exact Logic.I].
    rewrite R, K. apply No; left; discriminate.
  - destruct (check_ptr _ _ _ _); [|apply No; left; discriminate]. unfold queueing_send, owned. cbn [roomy] in G. specialize (G Rd). cbn [fst] in G.
    destruct (_ <? _); [apply No; left; discriminate|]. destruct (u8 len <=? 0) eqn:L; [apply No; left; discriminate|].
    destruct (own_port _ _ _) as [[]|]; [|apply No; left; discriminate|exact Logic.I]. rewrite R. cbn [negb].
    destruct (_ <? u8 len); [apply No; left; discriminate|]. do 3 (quiet; [apply No; left; discriminate|]).
    unfold lock_port. quiet; [apply No; left; discriminate|]. quiet; [|exact Logic.I].
    match goal with |- context [send_loop ?a ?b ?c ?d ?e ?f _] => pose proof (locked_send a b d e f s I Op) as X end.
    specialize (X ltac:(lia) G). destruct (send_loop _ _ _ _ _ _ _) as [s' e o|s' w| |]; try exact X.
    split; [|reflexivity]. cbn [sent_of]. rewrite Rd, Z.eqb_refl. exact X.
  - destruct (check_ptr _ _ _ _); [|apply No; left; discriminate]. unfold queueing_receive, owned. destruct (_ <=? 0); [apply No; left; discriminate|].
    destruct (_ <? _); [apply No; left; discriminate|]. destruct (own_port _ _ _) as [[]|]; [|apply No; left; discriminate|exact Logic.I].
    rewrite R, K, D. apply No; left; discriminate.
  - unfold queueing_status, owned. destruct (_ <? _); [apply No; left; discriminate|]. destruct (own_port _ _ _) as [[]|]; [|apply No; left; discriminate|exact Logic.I].
    rewrite R, K. change (PK_QUEUEING =? PK_QUEUEING) with true. cbn [negb]. quiet; apply No; auto.
  - unfold virtual_nb_destinations, virtual. destruct (_ <=? _); [apply No; auto|]. destruct (own_port _ _ _) as [[]|]; [|apply No; auto|exact Logic.I]. quiet; apply No; auto.
  - unfold virtual_destination, virtual. destruct (_ <=? _); [apply No; auto|]. destruct (own_port _ _ _) as [[]|]; [|apply No; auto|exact Logic.I].
    quiet; [apply No; auto|]. quiet; [apply No; auto|]. quiet; [exact Logic.I|apply No; auto].
  - unfold virtual_get_global, virtual. destruct (_ <=? _); [apply No; auto|]. destruct (own_port _ _ _) as [[]|]; [|apply No; auto|exact Logic.I]. quiet; apply No; auto.
Qed.
Lemma call_dst now part r s : pinv cfg s -> opened PK_QUEUEING s src dst -> rid r = Some dst ->
  match port_call cfg now part r s with
  | PRet s' e o => received_of dst (EvRet part r e o) ++ held s' dst = held s dst /\ sent_of src (EvRet part r e o) = []
  | PWait s' _ => held s' dst = held s dst
  | PStuck | PUb => True
  end.
Proof.
  intros I Op Rd. pose proof Op as (_ & _ & _ & R & K & D). pose proof (ch_neq _ _ _ Ch) as Ne.
  assert (No : forall e o, e <> ERR_OK \/ (match r with RSend _ _ _ _ _ | RReceive _ _ _ _ => False | _ => True end) ->
     received_of dst (EvRet part r e o) ++ held s dst = held s dst /\ sent_of src (EvRet part r e o) = []).
  { intros e o H. destruct r; cbn [sent_of received_of]; auto.
    - destruct H as [H|[]]. replace (e =? ERR_OK) with false by lia. rewrite andb_false_r. auto.
    - destruct H as [H|[]]. destruct o; auto. replace (e =? ERR_OK) with false by lia. rewrite andb_false_r. auto. }
  destruct r; cbn [rid] in Rd; try discriminate; injection Rd as Rd; cbn [port_call]; rewrite Rd.
  - destruct (check_ptr _ _ _ _); [|apply No; auto]. unfold sampling_write, owned. destruct (_ <? _); [apply No; auto|].
    destruct (own_port _ _ _) as [[]|]; [|apply No; auto|exact Logic.I]. rewrite R, D. change (DIR_IN =? DIR_OUT) with false. cbn [negb]. quiet; apply No; auto.
  - unfold sampling_read, owned. destruct (_ <? _); [apply No; left; discriminate|]. destruct (own_port _ _ _) as [[]|]; [|apply No; left; discriminate|exact Logic.I].
    rewrite R, K. apply No; left; discriminate.
  - unfold sampling_status, owned. destruct (_ <? _); [apply No; left; discriminate|]. destruct (own_port _ _ _) as [[]|]; [|apply No; left; discriminate|exact Logic.I].
    rewrite R, K. apply No; left; discriminate.
  - destruct (check_ptr _ _ _ _); [|apply No; left; discriminate]. unfold queueing_send, owned.
    destruct (_ <? _); [apply No; left; discriminate|]. destruct (u8 len <=? 0) eqn:L; [apply No; left; discriminate|].
    destruct (own_port _ _ _) as [[]|]; [|apply No; left; discriminate|exact Logic.I]. rewrite R. cbn [negb].
    destruct (_ <? u8 len); [apply No; left; discriminate|]. rewrite D. apply No; left; discriminate.
  - destruct (check_ptr _ _ _ _); [|apply No; left; discriminate]. unfold queueing_receive, owned. destruct (_ <=? 0) eqn:L; [apply No; left; discriminate|].
    destruct (_ <? _); [apply No; left; discriminate|]. destruct (own_port _ _ _) as [[]|]; [|apply No; left; discriminate|exact Logic.I].
    rewrite R, K, D. change (PK_QUEUEING =? PK_QUEUEING) with true. change (DIR_IN =? DIR_IN) with true. cbn [negb].
    unfold lock_port. quiet; [apply No; left; discriminate|]. quiet; [|exact Logic.I].
    match goal with |- context [receive_loop ?a ?b ?c ?d ?e _] => pose proof (locked_receive a b c d e s I R K ltac:(lia)) as X end.
    destruct (receive_loop _ _ _ _ _ _) as [s' e o|s' w| |]; try exact X; auto. destruct o as [|i|d0|d0 v|? ? ? ?]; try contradiction.
    destruct X as (X & Y & _). split; [|reflexivity]. cbn [received_of]. rewrite Rd, Z.eqb_refl. cbn [andb]. destruct (e =? ERR_OK) eqn:Ee; [exact X|].
    rewrite Y in X by lia. exact X.
  - unfold queueing_status, owned. destruct (_ <? _); [apply No; left; discriminate|]. destruct (own_port _ _ _) as [[]|]; [|apply No; left; discriminate|exact Logic.I].
    rewrite R, K. change (PK_QUEUEING =? PK_QUEUEING) with true. cbn [negb]. quiet; apply No; auto.
  - unfold virtual_nb_destinations, virtual. destruct (_ <=? _); [apply No; auto|]. destruct (own_port _ _ _) as [[]|]; [|apply No; auto|exact Logic.I]. quiet; apply No; auto.
  - unfold virtual_destination, virtual. destruct (_ <=? _); [apply No; auto|]. destruct (own_port _ _ _) as [[]|]; [|apply No; auto|exact Logic.I].
    quiet; [apply No; auto|]. quiet; [apply No; auto|]. quiet; [exact Logic.I|apply No; auto].
  - unfold virtual_get_global, virtual. destruct (_ <=? _); [apply No; auto|]. destruct (own_port _ _ _) as [[]|]; [|apply No; auto|exact Logic.I]. quiet; apply No; auto.
Qed.

(** Waiting calls that go on. *)
Lemma resume_src now w s : pinv cfg s -> opened PK_QUEUEING s src dst -> wait_ok cfg s w -> wid w = src ->
  (forall part id data len tmo dl, w = WSend part id data len tmo dl -> room_for s len) ->
  match resume_call now w s with
  | PRet s' e o => held s' src = held s src ++ sent_of src (EvResumed w e o) /\ received_of dst (EvResumed w e o) = []
  | PWait s' _ => held s' src = held s src
  | PStuck | PUb => True
  end.
Proof.
  intros I Op Wk Wd G. pose proof Op as (R & K & D & _). destruct w as [part id data len tmo dl|part id maxlen tmo dl]; cbn [wid] in Wd; subst id.
  - destruct Wk as (_ & _ & _ & (Hl & _) & _ & _). specialize (G _ _ _ _ _ _ eq_refl). cbn [resume_call]. unfold lock_port. quiet.
    + rewrite held_unlock. cbn [sent_of]. change (ERR_LOCKOBJ_NOTREADY =? ERR_OK) with false. rewrite andb_false_r, app_nil_r. auto.
    + quiet; [|exact Logic.I]. quiet.
      * rewrite held_unlock, held_free. cbn [sent_of]. change (ERR_TIMEOUT =? ERR_OK) with false. rewrite andb_false_r, app_nil_r. auto.
      * pose proof (locked_send now part data len tmo s I Op Hl G) as X. destruct (send_loop _ _ _ _ _ _ _) as [s' e o|s' w| |]; try exact X.
        cbn [sent_of]. rewrite Z.eqb_refl. auto.
  - destruct Wk as (_ & _ & _ & _ & X & _). rewrite D in X. discriminate.
Qed.
Lemma resume_dst now w s : pinv cfg s -> opened PK_QUEUEING s src dst -> wait_ok cfg s w -> wid w = dst ->
  match resume_call now w s with
  | PRet s' e o => received_of dst (EvResumed w e o) ++ held s' dst = held s dst /\ sent_of src (EvResumed w e o) = []
  | PWait s' _ => held s' dst = held s dst
  | PStuck | PUb => True
  end.
Proof.
  intros I Op Wk Wd. pose proof Op as (_ & _ & _ & R & K & D). destruct w as [part id data len tmo dl|part id maxlen tmo dl]; cbn [wid] in Wd; subst id.
  - destruct Wk as (_ & _ & _ & _ & X & _). rewrite D in X. discriminate.
  - destruct Wk as (_ & _ & _ & Hl & _). cbn [resume_call]. unfold lock_port. quiet.
    + rewrite held_unlock. cbn [received_of]. destruct (_ && _); auto.
    + quiet; [|exact Logic.I]. quiet.
      * rewrite held_unlock, held_free. cbn [received_of]. destruct (_ && _); auto.
      * pose proof (locked_receive now part dst maxlen tmo s I R K Hl) as X. destruct (receive_loop _ _ _ _ _ _) as [s' e o|s' w| |]; try exact X; auto.
        destruct o as [|i|d0|d0 v|? ? ? ?]; try contradiction. destruct X as (X & Y & _). cbn [received_of sent_of]. rewrite Z.eqb_refl. cbn [andb].
        split; [|reflexivity]. destruct (e =? ERR_OK) eqn:Ee; [exact X|]. rewrite Y in X by lia. exact X.
Qed.

(** *** Flushes *)
(** The copies to the destinations number [j] on: if [dst] is number [j0], it is written once; otherwise not at all. *)
Lemma write_effect_inv now id data n s s' e : pinv cfg s -> 0 <= n -> write_port now id data n s = Some (s', e) ->
  effect (fun i => i = id) (fun i => i = id) s s' /\ pinv cfg s'.
Proof. intros I Hn W. pose proof (effect_write _ _ _ _ _ _ _ (pi_shape _ _ I id) Hn W) as E. split; [exact E|]. eapply effect_inv; eauto. Qed.
Lemma deliver_still now l data len n : forall j s s', pinv cfg s -> 0 <= len -> pt_ready (ps_port s dst) = true ->
  (forall j', j <= j' < j + Z.of_nat n -> q_local cfg (q_dest cfg l j') <> dst) ->
  deliver n cfg now l data len j s = Some s' -> still s s' dst.
Proof.
  induction n as [|n IH]; intros j s s' I Hl R No; cbn [deliver]; [intros [= <-]; apply still_refl|].
  set (d := q_local cfg (q_dest cfg l j)).
  destruct (negb (pt_ready (ps_port s d)) || negb (pt_dir (ps_port s d) =? DIR_IN)) eqn:G.
  - apply IH; auto. intros j' Hj. apply No. lia.
  - destruct (write_port now d data len s) as [[s1 e]|] eqn:W; [|discriminate]. intros H.
    destruct (write_effect_inv _ _ _ _ _ _ _ I Hl W) as [E I1].
    assert (Nd : dst <> d) by (intros X; apply (No j); [lia|symmetry; exact X]).
    pose proof (effect_still cfg _ _ _ _ dst I E R Nd Nd) as S1. eapply still_trans; [exact S1|].
    eapply IH; [exact I1|exact Hl| | |exact H]; [destruct S1 as [-> _]; exact R|]. intros j' Hj. apply No. lia.
Qed.
Lemma deliver_split now data len n j0 : 0 <= len -> (forall j', 0 <= j' < q_ndest cfg src -> (q_local cfg (q_dest cfg src j') = dst <-> j' = j0)) ->
  forall j s s', pinv cfg s -> pt_ready (ps_port s dst) = true -> pt_dir (ps_port s dst) = DIR_IN -> 0 <= j <= j0 -> j0 < j + Z.of_nat n -> j + Z.of_nat n = q_ndest cfg src ->
  deliver n cfg now src data len j s = Some s' ->
  exists s1 s2 e, still s s1 dst /\ pinv cfg s1 /\ write_port now dst data len s1 = Some (s2, e) /\ still s2 s' dst.
Proof.
  intros Hl On. induction n as [|n IH]; intros j s s' I R D Hj Hn Hq; [lia|]. cbn [deliver].
  set (d := q_local cfg (q_dest cfg src j)). destruct (Z.eq_dec j j0) as [Ej|Ej].
  - assert (Ed : d = dst) by (apply On; [lia|exact Ej]). rewrite Ed, R, D. change (DIR_IN =? DIR_IN) with true. cbn [negb orb].
    destruct (write_port now dst data len s) as [[s1 e]|] eqn:W; [|discriminate]. intros H. exists s, s1, e.
    destruct (write_effect_inv _ _ _ _ _ _ _ I Hl W) as [E I1].
    split; [apply still_refl|]. split; [exact I|]. split; [exact W|].
    eapply deliver_still; [exact I1|exact Hl| | |exact H].
    + destruct E as (_ & X & _). destruct (X dst) as [(_ & _ & _ & _ & <- & _) _]. exact R.
    + intros j' Hj' X. apply On in X; lia.
  - assert (Nd : dst <> d) by (intros X; apply Ej, On; [lia|symmetry; exact X]).
    destruct (negb (pt_ready (ps_port s d)) || negb (pt_dir (ps_port s d) =? DIR_IN)) eqn:G.
    + intros H. eapply (IH (j + 1)); [exact I|exact R|exact D| | | |exact H]; lia.
    + destruct (write_port now d data len s) as [[s1 e]|] eqn:W; [|discriminate]. intros H.
      destruct (write_effect_inv _ _ _ _ _ _ _ I Hl W) as [E I1]. pose proof (effect_still cfg _ _ _ _ dst I E R Nd Nd) as S1.
      destruct (IH (j + 1) s1 s') as (t1 & t2 & e' & T1 & T2 & T3 & T4); try lia; auto.
      * destruct S1 as [-> _]; exact R.
      * destruct S1 as [-> _]; exact D.
      * exists t1, t2, e'. split; [eapply still_trans; eauto|auto].
Qed.
(** An output port is not written by a delivery. *)
Lemma deliver_out now l data len s s' k : pinv cfg s -> 0 <= len -> pt_ready (ps_port s k) = true -> pt_dir (ps_port s k) = DIR_OUT ->
  deliver (Z.to_nat (q_ndest cfg l)) cfg now l data len 0 s = Some s' -> still s s' k.
Proof.
  intros I Hl R D H. destruct (Z_le_gt_dec 0 (q_ndest cfg l)) as [Q|Q].
  - apply deliver_effect in H; [|exact (pi_shape _ _ I)|exact Hl|lia|lia]. apply (effect_still cfg _ _ _ _ _ I H R); rewrite D; intros [_ X]; discriminate.
  - replace (Z.to_nat (q_ndest cfg l)) with O in H by lia. injection H as <-. apply still_refl.
Qed.

Lemma flush_one now l s s' : pinv cfg s -> opened PK_QUEUEING s src dst -> 0 <= l -> (l = src -> room_to_flush s) -> flush_port cfg now l s = Some s' ->
  held s' dst ++ held s' src = held s dst ++ held s src /\ (room_to_flush s -> room_to_flush s').
Proof.
  intros I Op Hl Rm F. pose proof Op as (R1 & K1 & D1 & R2 & K2 & D2). pose proof (ch_neq _ _ _ Ch) as Ne.
  destruct (Z.eq_dec l src) as [->|Nl].
  2: { pose proof (flush_port_effect cfg now l s s' (pi_shape _ _ I) F) as E.
       assert (S1 : still s s' src).
       { apply (effect_still cfg _ _ _ _ _ I E R1); [intros (_ & [X|[_ X]]); [auto|rewrite D1 in X; discriminate]|intros (_ & _ & X); rewrite D1 in X; discriminate]. }
       assert (S2 : still s s' dst).
       { apply (effect_still cfg _ _ _ _ _ I E R2).
         - intros (X & [Y|[Y _]]); [subst l; rewrite D2 in X; discriminate|apply Nl, (ch_only _ _ _ Ch), Y].
         - intros (_ & Y & _). apply Nl, (ch_only _ _ _ Ch), Y. }
       rewrite (still_held _ _ _ S1 (pi_shape _ _ I src) K1), (still_held _ _ _ S2 (pi_shape _ _ I dst) K2).
       split; [reflexivity|]. unfold room_to_flush. destruct S1 as [-> _], S2 as [-> _]. auto. }
  specialize (Rm eq_refl). revert F. unfold flush_port. rewrite D1. change (DIR_OUT =? DIR_OUT) with true. cbn [negb].
  destruct (pt_empty (ps_port s src)) eqn:Em; [intros [= <-]; auto|]. destruct (negb (pt_flush _)); [intros [= <-]; auto|]. cbv zeta.
  destruct Rm as [Rm|[Fu Fit]]; [congruence|].
  assert (R : ring_ok (ps_port s src)) by (destruct (shape_holds _ (pi_shape _ _ I src) K1) as [R|E]; [exact R|congruence]).
  assert (Sz : pt_size (ps_port s src) < 2^32).
  { destruct (pi_ready _ _ I _ R1) as (_ & _ & _ & _ & _ & X & _). unfold PORT_MAX_SIZE in X. lia. }
  rewrite consumed_pending by auto. pose proof (pending_pos _ R Em) as Hp. set (n := pending (ps_port s src)) in *.
  destruct (get_spec (ps_pool s) (ps_port s src) n K1 R ltac:(lia)) as (p' & G & C1 & Pd & R' & (b' & e' & em & fu & Pe)). rewrite G.
  change (ERR_OK =? ERR_OK) with true. cbn [negb].
  assert (Full : firstn (Z.to_nat n) (content (ps_pool s) (ps_port s src)) = held s src).
  { unfold held. rewrite firstn_all2; [reflexivity|]. unfold content. rewrite bytes_len. fold n. lia. }
  assert (Nil : content (ps_pool s) p' = []).
  { rewrite C1. apply skipn_all2. unfold content. rewrite bytes_len. fold n. lia. }
  rewrite Full. set (data := fun i => nth (Z.to_nat i) (held s src) 0). set (s1 := on_port src (fun _ => p') s).
  assert (Hd : bytes data n = held s src). { unfold data. apply bytes_nth_eq. unfold held, content. rewrite bytes_len. fold n. lia. }
  assert (E1 : effect (fun i => i = src) (fun _ => False) s s1).
  { apply (effect_get src n s p' ERR_OK (held s src) (fun _ => False) (pi_shape _ _ I src)); [lia|]. rewrite G, Full. reflexivity. }
  pose proof (effect_inv cfg _ _ _ _ I E1) as I1.
  assert (S1 : ps_port s1 src = p') by (unfold s1; cbn [ps_port on_port]; apply upd_same).
  assert (T1 : still s s1 dst) by (apply (effect_still cfg _ _ _ _ _ I E1 R2); [auto|intros []]).
  destruct (deliver _ _ _ _ _ _ _ s1) as [s2|] eqn:Dl; [|discriminate]. intros [= <-]. rewrite !held_flush.
  assert (R1' : pt_ready (ps_port s1 src) = true /\ pt_dir (ps_port s1 src) = DIR_OUT).
  { rewrite S1, Pe. auto. }
  destruct R1' as [R1' D1'].
  pose proof (deliver_out now src data n s1 s2 src I1 ltac:(lia) R1' D1' Dl) as T2.
  destruct (ch_once _ _ _ Ch) as (j0 & Hj0 & On).
  assert (R2' : pt_ready (ps_port s1 dst) = true /\ pt_dir (ps_port s1 dst) = DIR_IN) by (destruct T1 as [-> _]; auto). destruct R2' as [R2' D2'].
  destruct (deliver_split now data n (Z.to_nat (q_ndest cfg src)) j0 ltac:(lia) On 0 s1 s2 I1 R2' D2' ltac:(lia) ltac:(lia) ltac:(lia) Dl)
    as (t1 & t2 & e & T3 & It & W & T4).
  assert (T5 : still s t1 dst) by (eapply still_trans; eauto). destruct T5 as [P5 M5].
  assert (Hs : held s2 src = []). { rewrite (still_held _ _ _ T2 (pi_shape _ _ I1 src)). - unfold held. rewrite S1. exact Nil. - rewrite S1, Pe. exact K1. }
  assert (H1 : held t1 dst = held s dst) by (apply still_held; [split; assumption|apply (pi_shape _ _ I)|exact K2]).
  assert (H2 : held t2 dst = held t1 dst ++ bytes data n).
  { eapply write_held; [apply (pi_shape _ _ It)|rewrite P5; exact K2|lia|rewrite P5; exact Fu|rewrite P5; exact Fit|exact W]. }
  destruct (write_effect_inv now dst data n t1 t2 e It ltac:(lia) W) as [Ew Iw].
  assert (H3 : held s2 dst = held t2 dst).
  { apply still_held; [exact T4|apply (pi_shape _ _ Iw)|]. destruct Ew as (_ & X & _). destruct (X dst) as [(_ & _ & _ & _ & _ & <- & _) _]. rewrite P5. exact K2. }
  split.
  - rewrite H3, H2, H1, Hs, Hd, app_nil_r. reflexivity.
  - intros _. left. cbn [ps_port on_port]. rewrite upd_same. cbn [set_pt_flush pt_empty]. destruct T2 as [-> _]. rewrite S1.
    destruct (pt_empty p') eqn:Ee; [reflexivity|]. pose proof (pending_pos _ R' Ee). lia.
Qed.
Lemma flush_opened now l s s' : pinv cfg s -> opened PK_QUEUEING s src dst -> flush_port cfg now l s = Some s' -> pinv cfg s' /\ opened PK_QUEUEING s' src dst.
Proof.
  intros I Op F. pose proof (flush_port_effect cfg now l s s' (pi_shape _ _ I) F) as E.
  split; [eapply effect_inv; eauto|]. eapply opened_keeps; [eapply effect_keeps; eauto|exact Op].
Qed.
Lemma flush_loop_chan now part n : 0 <= part < q_nparts cfg -> forall i s s', pinv cfg s -> opened PK_QUEUEING s src dst -> 0 <= i -> i + Z.of_nat n <= q_nby cfg part ->
  (part = q_owner cfg src -> room_to_flush s) -> flush_loop n cfg now part i s = Some s' ->
  held s' dst ++ held s' src = held s dst ++ held s src /\ (room_to_flush s -> room_to_flush s') /\ pinv cfg s' /\ opened PK_QUEUEING s' src dst.
Proof.
  intros Hp. induction n as [|n IH]; intros i s s' I Op Hi Hn Rm; cbn [flush_loop]; [intros [= <-]; auto|].
  destruct (flush_port cfg now (q_by cfg part i) s) as [s1|] eqn:F; [|discriminate]. intros H.
  destruct (pc_by _ C part i Hp ltac:(lia)) as [B1 B2].
  destruct (flush_one now (q_by cfg part i) s s1 I Op ltac:(lia)) as [A1 A2]; [|exact F|].
  { intros E. apply Rm. rewrite <- E. auto. }
  destruct (flush_opened _ _ _ _ I Op F) as [I1 Op1].
  destruct (IH (i + 1) s1 s' I1 Op1 ltac:(lia) ltac:(lia)) as (X1 & X2 & X3); auto.
  split; [congruence|auto].
Qed.
Lemma flush_partition_chan now part s s' : 0 <= part < q_nparts cfg -> pinv cfg s -> opened PK_QUEUEING s src dst ->
  (part = q_owner cfg src -> room_to_flush s) -> flush_partition cfg now part s = Some s' ->
  held s' dst ++ held s' src = held s dst ++ held s src /\ (room_to_flush s -> room_to_flush s') /\ pinv cfg s' /\ opened PK_QUEUEING s' src dst.
Proof.
  unfold flush_partition. intros Hp I Op Rm H. destruct (Z_le_gt_dec 0 (q_nby cfg part)) as [Q|Q].
  - eapply flush_loop_chan; [exact Hp|exact I|exact Op| | |exact Rm|exact H]; lia.
  - replace (Z.to_nat (q_nby cfg part)) with O in H by lia. injection H as <-. auto.
Qed.
Lemma flush_parts_chan active now n : forall p s s', 0 <= p -> p + Z.of_nat n <= q_nparts cfg -> pinv cfg s -> opened PK_QUEUEING s src dst ->
  (active (q_owner cfg src) = true -> room_to_flush s) -> flush_parts n cfg active now p s = Some s' ->
  held s' dst ++ held s' src = held s dst ++ held s src.
Proof.
  induction n as [|n IH]; intros p s s' Hp Hn I Op Rm; cbn [flush_parts]; [intros [= <-]; auto|].
  destruct (active p) eqn:A.
  - destruct (flush_partition cfg now p s) as [s1|] eqn:F; [|discriminate]. intros H.
    destruct (flush_partition_chan now p s s1) as (X1 & X2 & X3 & X4); auto; [lia|intros ->; auto|].
    rewrite (IH (p + 1) s1 s'); auto; lia.
  - intros H. apply (IH (p + 1) s s'); auto; lia.
Qed.

(** *** Steps and runs *)
Lemma step_stream s ws l s' ws' ev : pinv cfg s -> waits_ok ws -> Forall (wait_ok cfg s) ws -> opened PK_QUEUEING s src dst -> plabel_ok cfg l -> roomy (s, ws) l ->
  pstep cfg (s, ws) l = Some ((s', ws'), ev) ->
  received dst ev ++ held s' dst ++ held s' src = held s dst ++ held s src ++ sent src ev.
Proof.
  intros I Wo Wk Op L G S. pose proof Op as (R1 & K1 & D1 & R2 & K2 & D2). pose proof (ch_neq _ _ _ Ch) as Ne.
  assert (Hn : 0 <= q_nports cfg) by (destruct C as [X _]; lia).
  destruct l as [part now r|k now|part now|active now]; cbn [pstep] in S.
  - assert (St : forall t j, pt_ready (ps_port s j) = true -> pt_kind (ps_port s j) = PK_QUEUEING -> rid r <> Some j ->
      (exists e o, port_call cfg now part r s = PRet t e o) \/ (exists w, port_call cfg now part r s = PWait t w) -> held t j = held s j).
    { intros t j R K N H. eapply still_held; [eapply call_still; eauto|apply (pi_shape _ _ I)|exact K]. }
    assert (Rd : rid r = Some src \/ rid r = Some dst \/ (rid r <> Some src /\ rid r <> Some dst)).
    { destruct (rid r) as [i|]; [|right; right; split; discriminate]. destruct (Z.eq_dec i src) as [->|A]; [auto|]. destruct (Z.eq_dec i dst) as [->|B]; [auto|].
      right; right; split; congruence. }
    destruct Rd as [Rd|[Rd|[Rd1 Rd2]]].
    + pose proof (call_src now part r s ws I Op Rd G) as X.
      destruct (port_call cfg now part r s) as [s1 e o|s1 w| |] eqn:P; try discriminate; injection S as <- <- <-.
      * destruct X as [X Y]. unfold received, sent. cbn [flat_map]. rewrite !app_nil_r, X, Y, (St s1 dst) by (auto; try congruence; left; eauto). reflexivity.
      * unfold received, sent. cbn [flat_map received_of sent_of app]. rewrite app_nil_r, X, (St s1 dst) by (auto; try congruence; right; eauto). reflexivity.
      * cbn. rewrite app_nil_r. reflexivity.
    + pose proof (call_dst now part r s I Op Rd) as X.
      destruct (port_call cfg now part r s) as [s1 e o|s1 w| |] eqn:P; try discriminate; injection S as <- <- <-.
      * destruct X as [X Y]. unfold received, sent. cbn [flat_map]. rewrite !app_nil_r, Y, app_nil_r, (St s1 src) by (auto; try congruence; left; eauto).
        rewrite app_assoc, X. reflexivity.
      * unfold received, sent. cbn [flat_map received_of sent_of app]. rewrite app_nil_r, X, (St s1 src) by (auto; try congruence; right; eauto). reflexivity.
      * cbn. rewrite app_nil_r. reflexivity.
    + assert (N : forall e o, sent_of src (EvRet part r e o) = [] /\ received_of dst (EvRet part r e o) = []).
      { intros e o. destruct r; cbn [sent_of received_of rid] in *; auto.
        - destruct (u8 id =? src) eqn:E; [|auto]. exfalso. apply Rd1. f_equal. lia.
        - destruct o; auto. destruct (u8 id =? dst) eqn:E; [|auto]. exfalso. apply Rd2. f_equal. lia. }
      destruct (port_call cfg now part r s) as [s1 e o|s1 w| |] eqn:P; try discriminate; injection S as <- <- <-.
      * destruct (N e o) as [N1 N2]. unfold received, sent. cbn [flat_map]. rewrite N1, N2. cbn [app]. rewrite app_nil_r.
        rewrite (St s1 src), (St s1 dst) by (auto; left; eauto). reflexivity.
      * unfold received, sent. cbn [flat_map received_of sent_of app]. rewrite app_nil_r.
        rewrite (St s1 src), (St s1 dst) by (auto; right; eauto). reflexivity.
      * cbn. rewrite app_nil_r. reflexivity.
  - destruct (nth_error ws k) as [w|] eqn:N; [|injection S as <- <- <-; cbn; rewrite app_nil_r; reflexivity].
    assert (Hw : 0 <= wlen w) by (apply nth_error_In in N; unfold waits_ok in Wo; rewrite Forall_forall in Wo; auto).
    assert (Kw : wait_ok cfg s w) by (apply nth_error_In in N; rewrite Forall_forall in Wk; auto).
    assert (St : forall t j, pt_ready (ps_port s j) = true -> pt_kind (ps_port s j) = PK_QUEUEING -> wid w <> j ->
      (exists e o, resume_call now w s = PRet t e o) \/ (exists w', resume_call now w s = PWait t w') -> held t j = held s j).
    { intros t j R K Nj H. pose proof (eff_resume s (pi_shape _ _ I) now w Hw) as E. eapply still_held; [|apply (pi_shape _ _ I)|exact K].
      destruct H as [(e & o & H)|(w' & H)]; rewrite H in E; apply (effect_still cfg _ _ _ _ _ I E R); auto. }
    destruct (Z.eq_dec (wid w) src) as [Ws|Ws]; [|destruct (Z.eq_dec (wid w) dst) as [Wd|Wd]].
    + pose proof (resume_src now w s I Op Kw Ws) as X. cbn [roomy fst snd] in G.
      assert (X' : forall part id data len tmo dl, w = WSend part id data len tmo dl -> room_for s len).
      { intros part id data len tmo dl ->. cbn [wid] in Ws. eapply G; eauto. }
      specialize (X X'). destruct (resume_call now w s) as [s1 e o|s1 w1| |] eqn:P; try discriminate; injection S as <- <- <-.
      * destruct X as [X Y]. unfold received, sent. cbn [flat_map]. rewrite !app_nil_r, X, Y, (St s1 dst) by (auto; try congruence; left; eauto). reflexivity.
      * cbn. rewrite app_nil_r, X, (St s1 dst) by (auto; try congruence; right; eauto). reflexivity.
      * cbn. rewrite app_nil_r. reflexivity.
    + pose proof (resume_dst now w s I Op Kw Wd) as X.
      destruct (resume_call now w s) as [s1 e o|s1 w1| |] eqn:P; try discriminate; injection S as <- <- <-.
      * destruct X as [X Y]. unfold received, sent. cbn [flat_map]. rewrite !app_nil_r, Y, app_nil_r, (St s1 src) by (auto; try congruence; left; eauto).
        rewrite app_assoc, X. reflexivity.
      * cbn. rewrite app_nil_r, X, (St s1 src) by (auto; try congruence; right; eauto). reflexivity.
      * cbn. rewrite app_nil_r. reflexivity.
    + assert (Q : forall e o, sent_of src (EvResumed w e o) = [] /\ received_of dst (EvResumed w e o) = []).
      { intros e o. destruct w; cbn [sent_of received_of wid] in *; auto.
        - replace (id =? src) with false by lia. auto.
        - replace (id =? dst) with false by lia. destruct o; auto. }
      destruct (resume_call now w s) as [s1 e o|s1 w1| |] eqn:P; try discriminate; injection S as <- <- <-.
      * destruct (Q e o) as [N1 N2]. unfold received, sent. cbn [flat_map]. rewrite N1, N2. cbn [app]. rewrite app_nil_r.
        rewrite (St s1 src), (St s1 dst) by (auto; left; eauto). reflexivity.
      * cbn. rewrite app_nil_r. rewrite (St s1 src), (St s1 dst) by (auto; right; eauto). reflexivity.
      * cbn. rewrite app_nil_r. reflexivity.
  - destruct (flush_partition cfg now part s) as [s1|] eqn:F; [|discriminate]. injection S as <- <- <-. cbn [plabel_ok] in L.
    cbn. rewrite app_nil_r. eapply flush_partition_chan; [|exact I|exact Op| |exact F]; [lia|exact G].
  - destruct (flush_all cfg active now s) as [s1|] eqn:F; [|discriminate]. injection S as <- <- <-.
    cbn. rewrite app_nil_r. unfold flush_all in F. eapply (flush_parts_chan active now _ 0); [| |exact I|exact Op|exact G|exact F]; [lia|].
    destruct C as [_ X _ _ _]. lia.
Qed.
Lemma run_stream ls : forall m m' ev, preachable cfg m -> opened PK_QUEUEING (fst m) src dst -> Forall (plabel_ok cfg) ls -> guarded cfg roomy m ls ->
  prun cfg m ls = Some (m', ev) ->
  received dst ev ++ held (fst m') dst ++ held (fst m') src = held (fst m) dst ++ held (fst m) src ++ sent src ev.
Proof.
  induction ls as [|l ls IH]; intros [s ws] m' ev Rc Op L G; cbn [prun]; [intros [= <- <-]; cbn; rewrite app_nil_r; reflexivity|].
  inversion L as [|? ? L1 L2]; subst. cbn [guarded] in G. destruct G as [G1 G2].
  destruct (pstep cfg (s, ws) l) as [[[s1 ws1] e1]|] eqn:S; [|discriminate]. destruct (prun cfg (s1, ws1) ls) as [[m2 e2]|] eqn:P; [|discriminate].
  intros [= <- <-]. destruct (preach_inv cfg _ C Rc) as [I W]. pose proof (preach_waits cfg _ C Rc) as Wk. cbn [fst snd] in *.
  assert (Hn : 0 <= q_nports cfg) by (destruct C as [X _]; lia).
  pose proof (step_stream s ws l s1 ws1 e1 I W Wk Op L1 G1 S) as X.
  assert (Y : received dst e2 ++ held (fst m2) dst ++ held (fst m2) src = held s1 dst ++ held s1 src ++ sent src e2).
  { apply (IH (s1, ws1)); auto; [eapply pr_step; eauto|]. cbn [fst]. eapply opened_keeps; [eapply step_keeps; eauto|exact Op]. }
  unfold received, sent in *. rewrite !flat_map_app, <- app_assoc, Y. rewrite !app_assoc in *. rewrite <- X. reflexivity.
Qed.
End Chan.
