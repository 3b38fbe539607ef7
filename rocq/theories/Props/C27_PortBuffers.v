(** C27: the byte ranges of the pool assigned to different created ports are disjoint and inside the pool, and no
    operation on one port alters another port or its bytes. *)
From Verif Require Import Model.Base Model.Port Spec.PortSpec Spec.PortDemo Proof.Tac Proof.PortRing Proof.PortInv.

Theorem C27_disjoint : forall cfg, pcfg_ok cfg -> forall m, preachable cfg m ->
  (forall i, pt_ready (ps_port (fst m) i) = true ->
     0 <= pt_index (ps_port (fst m) i) /\ 0 <= pt_size (ps_port (fst m) i) /\
     pt_index (ps_port (fst m) i) + pt_size (ps_port (fst m) i) <= 1024) /\
  (forall i j a, i <> j -> pt_ready (ps_port (fst m) i) = true -> pt_ready (ps_port (fst m) j) = true ->
     in_buffer (ps_port (fst m) i) a -> ~ in_buffer (ps_port (fst m) j) a).
Proof.
  intros cfg C m R. destruct (preach_inv cfg m C R) as [I _]. split; [|apply (pi_disj _ _ I)].
  intros i H. destruct (pi_ready _ _ I i H) as (_ & _ & _ & _ & A & B & D & _). pose proof (pi_avail _ _ I). unfold POOL_SIZE in *. lia.
Qed.
Print Assumptions C27_disjoint.

(** The ports that a step is about: the port a call names, the port a waiting call is about, and for a flush of a
    partition its ports and the destinations of its ports. *)
Definition about (cfg : pconfig) (m : pmach) (l : plabel) (j : Z) : Prop :=
  match l with
  | PCall _ _ r => rid r = Some j
  | PResume k _ => exists w, nth_error (snd m) k = Some w /\ wid w = j
  | PFlushPart part _ => q_owner cfg j = part \/ exists l, q_owner cfg l = part /\ dests cfg l j
  | PFlushAll active _ => exists part, active part = true /\ (q_owner cfg j = part \/ exists l, q_owner cfg l = part /\ dests cfg l j)
  end.
(** Every other created port keeps its state and its bytes. *)
Theorem C27_frame : forall cfg, pcfg_ok cfg -> forall m l m' ev j, preachable cfg m -> plabel_ok cfg l -> pstep cfg m l = Some (m', ev) ->
  pt_ready (ps_port (fst m) j) = true -> ~ about cfg m l j ->
  ps_port (fst m') j = ps_port (fst m) j /\
  forall a, in_buffer (ps_port (fst m) j) a -> ps_pool (fst m') a = ps_pool (fst m) a.
Proof.
  intros cfg C [s ws] l [s' ws'] ev j R L S Hr N. destruct (preach_inv cfg _ C R) as [I W]. cbn [fst snd] in *.
  assert (Fin : forall P W0 s1, effect P W0 s s1 -> ~ P j -> (forall i, W0 i -> i <> j /\ pt_ready (ps_port s i) = true \/ i <> j /\ forall a, ~ in_buffer (ps_port s i) a) ->
    ps_port s1 j = ps_port s j /\ forall a, in_buffer (ps_port s j) a -> ps_pool s1 a = ps_pool s a).
  { intros P W0 s1 (_ & _ & F & M) NP HW. split; [apply F; exact NP|]. intros a Ha. apply M. intros i Hi.
    destruct (HW i Hi) as [[X Y]|[X Y]]; [|apply Y]. intros B. exact (pi_disj _ _ I i j a X Y Hr B Ha). }
  assert (Zero : forall i, i <> j -> i <> j /\ pt_ready (ps_port s i) = true \/ i <> j /\ forall a, ~ in_buffer (ps_port s i) a).
  { intros i X. destruct (pt_ready (ps_port s i)) eqn:Q; [left; auto|right]. split; [exact X|]. intros a B.
    destruct (pi_idle _ _ I i Q) as (Z0 & _). unfold in_buffer in B. lia. }
  destruct l as [part now r|k now|part now|active now]; cbn [pstep about] in *.
  - destruct (rid r) as [id|] eqn:Rd.
    + pose proof (eff_call cfg now part r id s (pi_shape _ _ I) Rd) as E.
      destruct (port_call cfg now part r s) as [s1 e o|s1 w| |]; try discriminate; injection S as <- <- _; [| |auto];
        (apply (Fin _ _ _ E); [congruence|intros i ->; apply Zero; congruence]).
    + assert (Hn : 0 <= q_nports cfg) by (destruct C as [C _]; lia).
      assert (K : forall nm sz d kd sx ex ox g, port_create cfg part nm sz d kd s = (sx, ex, ox) ->
        (ps_port sx j = ps_port s j /\ ps_pool sx = ps_pool s) /\
        (ex = ERR_OK -> forall id, ox = Some id -> ps_port (on_port id g sx) j = ps_port s j /\ ps_pool (on_port id g sx) = ps_pool s)).
      { intros nm sz d kd sx ex ox g Cr. destruct (create_cases _ _ _ _ _ _ _ _ _ _ Hn Cr) as [[-> Ne]|X]; [split; [auto|congruence]|].
        destruct X as (id & -> & -> & _ & _ & _ & _ & Nr & _ & _ & _ & Pl & _ & Oth & _).
        assert (Nj : j <> id) by congruence. split; [split; [apply Oth; exact Nj|exact Pl]|].
        intros _ id' [= <-]. cbn [ps_port ps_pool on_port]. unfold upd. replace (j =? id) with false by lia. split; [apply Oth; exact Nj|exact Pl]. }
      destruct r; cbn [rid port_call] in *; try discriminate.
      * unfold sampling_create in S. destruct (port_create cfg part name (u32 size) (u8 dir) PK_SAMPLING s) as [[sx ex] ox] eqn:Cr.
        destruct (K _ _ _ _ _ _ _ (set_pt_fresh (u32 refresh) 0) Cr) as [[K1 K2] K3].
        destruct ox as [id|]; [destruct (ex =? ERR_OK) eqn:E|]; injection S as <- <- _.
        -- destruct (K3 ltac:(lia) id eq_refl) as [K4 K5]. rewrite K5. auto.
        -- rewrite K2. auto.
        -- rewrite K2. auto.
      * unfold queueing_create in S. destruct (negb fifo); [injection S as <- <- _; auto|].
        destruct (port_create cfg part name (u32 size) (u8 dir) PK_QUEUEING s) as [[sx ex] ox] eqn:Cr.
        destruct (K _ _ _ _ _ _ _ (fun p => set_pt_fresh (pt_refresh p) (pt_last p) p) Cr) as [[K1 K2] K3].
        destruct ox as [id|]; [destruct (ex =? ERR_OK) eqn:E|]; injection S as <- <- _.
        -- destruct (K3 ltac:(lia) id eq_refl) as [K4 K5]. rewrite K5. auto.
        -- rewrite K2. auto.
        -- rewrite K2. auto.
      * unfold virtual_node in S. destruct (_ <=? _); [discriminate|]. injection S as <- <- _. auto.
  - destruct (nth_error ws k) as [w|] eqn:Nt; [|injection S as <- <- _; auto].
    assert (Hw : 0 <= wlen w) by (apply nth_error_In in Nt; unfold waits_ok in W; rewrite Forall_forall in W; auto).
    pose proof (eff_resume s (pi_shape _ _ I) now w Hw) as E. assert (Nw : wid w <> j) by (intros X; apply N; eauto).
    destruct (resume_call now w s) as [s1 e o|s1 w1| |]; try discriminate; injection S as <- <- _; [| |auto];
      (apply (Fin _ _ _ E); [congruence|intros i ->; apply Zero; congruence]).
  - destruct (flush_partition cfg now part s) as [s1|] eqn:F; [|discriminate]. injection S as <- <- _. destruct L as [L _].
    assert (NO : ~ outs cfg s part j).
    { intros (i & A & B & _). apply N. left. rewrite B. apply (pc_by _ C part i L A). }
    assert (NF : ~ fed cfg s part j).
    { intros (l & (i & A & -> & _) & D & _). apply N. right. exists (q_by cfg part i). split; [apply (pc_by _ C part i L A)|exact D]. }
    apply (Fin _ _ _ (flush_partition_effect _ _ _ _ _ (pi_shape _ _ I) F)); [tauto|]. intros i Hi. apply Zero. intros ->. auto.
  - destruct (flush_all cfg active now s) as [s1|] eqn:F; [|discriminate]. injection S as <- <- _.
    assert (NO : forall part, 0 <= part < q_nparts cfg -> active part = true -> ~ outs cfg s part j).
    { intros part Hp A (i & X & B & _). apply N. exists part. split; [exact A|]. left. rewrite B. apply (pc_by _ C part i Hp X). }
    assert (NF : forall part, 0 <= part < q_nparts cfg -> active part = true -> ~ fed cfg s part j).
    { intros part Hp A (l & (i & X & -> & _) & D & _). apply N. exists part. split; [exact A|]. right. exists (q_by cfg part i). split; [apply (pc_by _ C part i Hp X)|exact D]. }
    destruct C as [_ C2 _ _ _].
    apply (Fin _ _ _ (flush_parts_effect _ _ _ _ _ _ _ (pi_shape _ _ I) F)).
    + intros (part & A & B & [X|X]); [apply (NO part)|apply (NF part)]; auto; lia.
    + intros i (part & A & B & X). apply Zero. intros ->. apply (NF part); auto; lia.
Qed.
Print Assumptions C27_frame.

(** Four ports, and a message on the way from port 0 to port 1: ports 2 and 3 keep their bytes. *)
Example C27_example : exists s ws ev s' ev',
  pdemo_run (p_q 8 ++ p_s 4 100 ++ [p_write 5 70 4; p_send 6 10 3]) = Some ((s, ws), ev) /\
  pstep pdemo (s, ws) (p_send 7 20 4) = Some ((s', ws), ev') /\
  map (fun i => (pt_index (ps_port s i), pt_size (ps_port s i))) [0; 1; 2; 3] = [(0, 8); (8, 8); (16, 4); (20, 4)] /\
  ps_avail s = 1000 /\ ~ about pdemo (s, ws) (p_send 7 20 4) 2 /\
  bytes (ps_pool s) 20 = [10; 11; 12; 0; 0; 0; 0; 0; 0; 0; 0; 0; 0; 0; 0; 0; 70; 71; 72; 73] /\
  bytes (ps_pool s') 20 = [10; 11; 12; 20; 21; 22; 23; 0; 0; 0; 0; 0; 0; 0; 0; 0; 70; 71; 72; 73].
Proof.
  eexists _, _, _, _, _. split; [vm_compute; reflexivity|]. split; [vm_compute; reflexivity|]. vm_compute. repeat split. discriminate.
Qed.
