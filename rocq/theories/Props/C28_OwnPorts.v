(** C28: a port service called with an identifier that is not a port of the calling partition fails and changes nothing.

    False for the identifier NB_PORTS, one past the last port: the test is [id > NB_PORTS], and the table of owners is
    read past its end ([C28_foreign_refuted]). Proved for all other identifiers ([C28_foreign_partial]); creation by
    name only ever concerns ports of the caller ([C28_create]). *)
From Verif Require Import Model.Base Model.Port Spec.PortSpec Spec.PortDemo Proof.Tac Proof.PortRing Proof.PortInv.

(** [id] is a port that the configuration gives to partition [part]. *)
Definition owns (cfg : pconfig) (part id : Z) : Prop := 0 <= id < q_nports cfg /\ q_owner cfg id = part.

Definition C28_foreign : Prop := forall cfg, pcfg_ok cfg -> forall s now part r id, 0 <= part < q_nparts cfg ->
  rid r = Some id -> ~ owns cfg part id -> exists e o, port_call cfg now part r s = PRet s e o /\ e <> ERR_OK.

Theorem C28_foreign_refuted : ~ C28_foreign.
Proof.
  intros H. destruct (H pdemo pdemo_ok ports_boot 0 0 (RStatusQ 4) 4 ltac:(cbn; lia) eq_refl ltac:(unfold owns; cbn; lia)) as (e & o & X & _).
  discriminate X.
Qed.
Print Assumptions C28_foreign_refuted.

Theorem C28_foreign_partial : forall cfg, pcfg_ok cfg -> forall s now part r id, 0 <= part < q_nparts cfg ->
  rid r = Some id -> id <> q_nports cfg -> ~ owns cfg part id -> exists e o, port_call cfg now part r s = PRet s e o /\ e <> ERR_OK.
Proof.
  intros cfg C s now part r id Hp Rd Nb No.
  assert (Ow : forall i k, u8 i = id -> exists e o, owned cfg part (u8 i) s k = PRet s e o /\ e <> ERR_OK).
  { intros i k E. rewrite E. unfold owned. destruct (q_nports cfg <? id) eqn:L; [eexists _, _; split; [reflexivity|discriminate]|].
    unfold own_port. rewrite L. replace (id =? q_nports cfg) with false by lia. pose proof (u8_pos i).
    destruct (q_owner cfg id =? part) eqn:O; [exfalso; apply No; split; lia|]. eexists _, _; split; [reflexivity|discriminate]. }
  assert (Vi : forall i k, u8 i = id -> exists e o, virtual cfg part (u8 i) s k = PRet s e o /\ e <> ERR_OK).
  { intros i k E. rewrite E. unfold virtual. destruct (q_nports cfg <=? id) eqn:L; [eexists _, _; split; [reflexivity|discriminate]|].
    unfold own_port. replace (q_nports cfg <? id) with false by lia. replace (id =? q_nports cfg) with false by lia. pose proof (u8_pos i).
    destruct (q_owner cfg id =? part) eqn:O; [exfalso; apply No; split; lia|]. eexists _, _; split; [reflexivity|discriminate]. }
  assert (Ei : exists e o, PRet s ERR_EINVAL ONone = PRet s e o /\ e <> ERR_OK) by (eexists _, _; split; [reflexivity|discriminate]).
  destruct r; cbn [rid] in Rd; try discriminate; injection Rd as Rd; cbn [port_call].
  - destruct (check_ptr _ _ _ _); [|exact Ei]. unfold sampling_write. apply Ow. exact Rd.
  - unfold sampling_read. apply Ow. exact Rd.
  - unfold sampling_status. apply Ow. exact Rd.
  - destruct (check_ptr _ _ _ _); [|exact Ei]. unfold queueing_send. destruct (_ <? _); [exact Ei|].
    destruct (_ <=? _); [eexists _, _; split; [reflexivity|discriminate]|]. apply Ow. exact Rd.
  - destruct (check_ptr _ _ _ _); [|exact Ei]. unfold queueing_receive.
    destruct (_ <=? _); [eexists _, _; split; [reflexivity|discriminate]|]. apply Ow. exact Rd.
  - unfold queueing_status. apply Ow. exact Rd.
  - unfold virtual_nb_destinations. apply Vi. exact Rd.
  - unfold virtual_destination. apply Vi. exact Rd.
  - unfold virtual_get_global. apply Vi. exact Rd.
Qed.
Print Assumptions C28_foreign_partial.
(** Partition 0 sends into port 1, which belongs to partition 1, and into a port that does not exist. *)
Example C28_foreign_example : exists s ws ev,
  pdemo_run (p_q 8 ++ p_s 8 100) = Some ((s, ws), ev) /\ ~ owns pdemo 0 1 /\
  port_call pdemo 5 0 (RSend 1 (from_val 10) 3 64 0) s = PRet s ERR_PORT ONone /\
  port_call pdemo 5 0 (RWrite 200 (from_val 10) 3 64) s = PRet s ERR_EINVAL ONone /\
  port_call pdemo 5 1 (RRead 2 64) s = PRet s ERR_PORT ONone.
Proof. eexists _, _, _. split; [vm_compute; reflexivity|]. split; [unfold owns; cbn; lia|]. repeat split. Qed.

(** Creation changes at most a port of the caller, that had not been created. *)
Theorem C28_create : forall cfg, pcfg_ok cfg -> forall s now part r s' e o, 0 <= part < q_nparts cfg -> rid r = None ->
  port_call cfg now part r s = PRet s' e o ->
  ps_pool s' = ps_pool s /\ forall j, ps_port s' j = ps_port s j \/ owns cfg part j /\ pt_ready (ps_port s j) = false /\ e = ERR_OK /\ o = OId j.
Proof.
  intros cfg C s now part r s' e o Hp Rd. assert (Hn : 0 <= q_nports cfg) by (destruct C as [C _]; lia).
  assert (K : forall nm sz d kd sx ex ox g, port_create cfg part nm sz d kd s = (sx, ex, ox) ->
        (ex <> ERR_OK -> sx = s) /\ (ex = ERR_OK -> ox <> None) /\
        (ex = ERR_OK -> forall id, ox = Some id -> owns cfg part id /\ pt_ready (ps_port s id) = false /\
           ps_pool (on_port id g sx) = ps_pool s /\ forall j, j <> id -> ps_port (on_port id g sx) j = ps_port s j)).
  { intros nm sz d kd sx ex ox g Cr. destruct (create_cases _ _ _ _ _ _ _ _ _ _ Hn Cr) as [[-> Ne]|X]; [repeat split; congruence|].
    destruct X as (id & -> & -> & Hid & _ & Ow & _ & Nr & _ & _ & _ & Pl & _ & Oth & _). split; [congruence|]. split; [discriminate|].
    intros _ id' [= <-]. split; [split; assumption|]. split; [exact Nr|]. split; [exact Pl|].
    intros j N. cbn [ps_port on_port]. unfold upd. replace (j =? id) with false by lia. apply Oth; exact N. }
  destruct r; cbn [rid port_call] in *; try discriminate.
  - unfold sampling_create. destruct (port_create cfg part name (u32 size) (u8 dir) PK_SAMPLING s) as [[sx ex] ox] eqn:Cr.
    destruct (K _ _ _ _ _ _ _ (set_pt_fresh (u32 refresh) 0) Cr) as (K1 & K2 & K3).
    destruct ox as [id|]; [destruct (ex =? ERR_OK) eqn:E|]; intros [= <- <- <-].
    + destruct (K3 ltac:(lia) id eq_refl) as (A & B & D & F). split; [exact D|]. intros j. destruct (Z.eq_dec j id) as [->|N]; [right|left]; auto.
    + rewrite K1 by lia. auto.
    + rewrite K1; [auto|]. intros ->. apply K2; reflexivity.
  - unfold queueing_create. destruct (negb fifo); [intros [= <- <- <-]; auto|].
    destruct (port_create cfg part name (u32 size) (u8 dir) PK_QUEUEING s) as [[sx ex] ox] eqn:Cr.
    destruct (K _ _ _ _ _ _ _ (fun p => set_pt_fresh (pt_refresh p) (pt_last p) p) Cr) as (K1 & K2 & K3).
    destruct ox as [id|]; [destruct (ex =? ERR_OK) eqn:E|]; intros [= <- <- <-].
    + destruct (K3 ltac:(lia) id eq_refl) as (A & B & D & F). split; [exact D|]. intros j. destruct (Z.eq_dec j id) as [->|N]; [right|left]; auto.
    + rewrite K1 by lia. auto.
    + rewrite K1; [auto|]. intros ->. apply K2; reflexivity.
  - unfold virtual_node. destruct (_ <=? _); [discriminate|]. intros [= <- <- <-]. auto.
Qed.
Print Assumptions C28_create.
(** Partition 0 cannot create port 1; it can create port 0. *)
Example C28_create_example :
  port_call pdemo 5 0 (RCreateQ 1 8 DIR_IN true) ports_boot = PRet ports_boot ERR_PORT ONone /\
  exists s', port_call pdemo 5 0 (RCreateQ 0 8 DIR_OUT true) ports_boot = PRet s' ERR_OK (OId 0) /\ pt_ready (ps_port s' 0) = true /\ pt_ready (ps_port s' 1) = false.
Proof. split; [reflexivity|]. eexists. repeat split. Qed.
